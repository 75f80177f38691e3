(** SaveProps: saving the configuration (C70) and what a restart finds (C78). *)
From Coq Require Import Relations.
From Verif Require Import GoBase BufFacts ApiModel ApiProps ConfigModel ConfigSpec ConfigProps.
Open Scope Z_scope.
Open Scope list_scope.

(** A request saves the text [txt] in the files [f] and has come as far as [pc] when the files
    are [f']. *)
Definition saving (faults : bool) (txt : option bytes) (f : files) (pc : save_pc) (f' : files) : Prop :=
  clos_refl_trans _ (save_step faults txt) (SRead, f) (pc, f').

Lemma put_firstn : forall t n b, nth_error t n = Some b -> put (firstn n t) n b = firstn (S n) t.
Proof.
  induction t as [|c t IH]; intros [|n] b E; try discriminate E.
  - injection E as ->. reflexivity.
  - cbn [firstn put]. f_equal. now apply IH.
Qed.
Lemma nth_none_firstn {A} (t : list A) n : nth_error t n = None -> firstn n t = t.
Proof. intros E. apply firstn_all2. now apply nth_error_None. Qed.

Definition save_inv (txt : option bytes) (old : bytes) (s : save_pc * files) : Prop :=
  let f := snd s in
  match fst s with
  | SRead => f_conf f = Some old
  | SOpenBack tmp => tmp = old /\ f_conf f = Some old
  | SWriteBack tmp n => tmp = old /\ f_conf f = Some old /\ f_back f = Some (firstn n old)
  | SOpenConf => f_conf f = Some old /\ f_back f = Some old
  | SWriteConf n => exists t, txt = Some t /\ f_conf f = Some (firstn n t) /\ f_back f = Some old
  | SDone => f_back f = Some old /\ match txt with Some t => f_conf f = Some t | None => f_conf f = Some old end
  end.
Lemma save_inv_step txt old s s' : save_step false txt s s' -> save_inv txt old s -> save_inv txt old s'.
Proof.
  unfold save_inv. intros S I.
  destruct S as [f|f H|tmp f|tmp f H|tmp n b f H|tmp n f H|f H|t f H|f H|t n b f H H2|t n f H H2]; cbn [fst snd f_conf f_back] in *; try discriminate H.
  - now rewrite I.
  - destruct I. auto.
  - destruct I as (-> & C & B). rewrite B. cbn [put_file]. rewrite (put_firstn _ _ _ H). auto.
  - destruct I as (-> & C & B). destruct H as [H|H]; [|discriminate H]. rewrite (nth_none_firstn _ _ H) in B. auto.
  - destruct I as (C & B). now rewrite H.
  - destruct I as (C & B). exists t. cbn. auto.
  - destruct I as (t' & T & C & B). rewrite H in T. injection T as <-. exists t. rewrite C. cbn [put_file]. rewrite (put_firstn _ _ _ H2). auto.
  - destruct I as (t' & T & C & B). rewrite H in T. injection T as <-. destruct H2 as [H2|H2]; [|discriminate H2]. rewrite (nth_none_firstn _ _ H2) in C.
    rewrite H. auto.
Qed.
Lemma save_inv_run txt old s s' : clos_refl_trans _ (save_step false txt) s s' -> save_inv txt old s -> save_inv txt old s'.
Proof. intros R. induction R; eauto using save_inv_step. Qed.

(** C70: at every moment of a save (so after a crash at any moment) the text argo.conf had at
    its start is complete in argo.conf or in argo.conf~; when it is done argo.conf has the new
    text (the old one, if the new could not be encoded) and argo.conf~ the old one. *)
Theorem C70_one_save txt f old pc f' : f_conf f = Some old -> saving false txt f pc f' ->
  (f_conf f' = Some old \/ f_back f' = Some old) /\
  (pc = SDone -> f_back f' = Some old /\ (forall t, txt = Some t -> f_conf f' = Some t) /\ (txt = None -> f_conf f' = Some old)).
Proof.
  intros C R. apply (save_inv_run txt old) in R; [|exact C]. unfold save_inv in R. cbn [fst snd] in R. split.
  - destruct pc; first [tauto | destruct R as (t & _ & _ & B); auto].
  - intros ->. destruct R as [B T]. split; [exact B|]. split; [intros t E; now rewrite E in T|intros E; now rewrite E in T].
Qed.
(** A save that is not done can go on, and is done after finitely many steps. *)
Definition remaining (txt : option bytes) (pc : save_pc) (confsize : nat) : nat :=
  let t := match txt with Some t => List.length t | None => 0%nat end in
  match pc with
  | SRead => confsize + t + 6
  | SOpenBack tmp => List.length tmp + t + 5
  | SWriteBack tmp n => (List.length tmp - n) + t + 4
  | SOpenConf => t + 3
  | SWriteConf n => (t - n) + 1
  | SDone => 0
  end%nat.
Definition conf_size (f : files) : nat := match f_conf f with Some c => List.length c | None => 0%nat end.
Theorem C70_finishes faults txt pc f :
  (pc <> SDone -> (forall n, pc = SWriteConf n -> txt <> None) -> exists s', save_step faults txt (pc, f) s') /\
  (forall pc' f', save_step faults txt (pc, f) (pc', f') -> (remaining txt pc' (conf_size f') < remaining txt pc (conf_size f))%nat).
Proof.
  split.
  - intros N H. destruct pc as [|tmp|tmp n| |n|]; try congruence.
    + eexists. apply ss_read.
    + eexists. apply ss_open_back.
    + destruct (nth_error tmp n) as [b|] eqn:E; eexists; [eapply ss_write_back; exact E|apply ss_back_written; now left].
    + destruct txt as [t|]; eexists; [now eapply ss_open_conf|now apply ss_encode_fails].
    + specialize (H n eq_refl). destruct txt as [t|]; [|congruence].
      destruct (nth_error t n) as [b|] eqn:E; eexists; [eapply ss_write_conf; [reflexivity|exact E]|eapply ss_conf_written; [reflexivity|now left]].
  - intros pc' f' S. inversion S; subst; cbn [remaining].
    + unfold conf_size. destruct (f_conf f'); cbn; lia.
    + unfold conf_size. destruct (f_conf f'); cbn; lia.
    + lia.
    + lia.
    + assert (n < List.length tmp)%nat by (apply nth_error_Some; congruence). lia.
    + lia.
    + lia.
    + lia.
    + lia.
    + assert (n < List.length t)%nat by (apply nth_error_Some; congruence). lia.
    + lia.
Qed.
(** Several saves, one after the other, then a crash at any moment of one more: the text of the
    last complete save is still there. *)
Inductive saved_all : files -> list bytes -> files -> Prop :=
| sa_nil f : saved_all f [] f
| sa_cons f t f1 ts f2 : saving false (Some t) f SDone f1 -> saved_all f1 ts f2 -> saved_all f (t :: ts) f2.
Theorem C70_history f old ts f1 txt pc f2 : f_conf f = Some old -> saved_all f ts f1 -> saving false txt f1 pc f2 ->
  f_conf f2 = Some (last ts old) \/ f_back f2 = Some (last ts old).
Proof.
  intros C H. revert old C. induction H as [f|f t f1 ts f3 S H IH]; intros old C R.
  - exact (proj1 (C70_one_save _ _ _ _ _ C R)).
  - destruct (proj2 (C70_one_save _ _ _ _ _ C S) eq_refl) as (_ & T & _). specialize (IH t (T t eq_refl) R).
    assert (last (t :: ts) old = last ts t) as ->; [|exact IH]. clear. revert t old. induction ts as [|x ts IHt]; intros t old; [reflexivity|].
    change (last (t :: x :: ts) old) with (last (x :: ts) old). now rewrite !IHt.
Qed.

(** Runs for the counterexamples. *)
Lemma run_back faults txt tmp k conf : (k <= List.length tmp)%nat ->
  clos_refl_trans _ (save_step faults txt) (SWriteBack tmp 0, mkfiles conf (Some [])) (SWriteBack tmp k, mkfiles conf (Some (firstn k tmp))).
Proof.
  intros L. induction k as [|k IH]; [apply rt_refl|]. eapply rt_trans; [apply IH; lia|].
  destruct (nth_error tmp k) as [b|] eqn:E; [|apply nth_error_None in E; lia]. apply rt_step.
  pose proof (ss_write_back faults txt tmp k b (mkfiles conf (Some (firstn k tmp))) E) as S. cbn [f_conf f_back put_file] in S.
  now rewrite (put_firstn _ _ _ E) in S.
Qed.
Lemma run_to_back faults txt conf back k : (k <= List.length conf)%nat ->
  saving faults txt (mkfiles (Some conf) back) (SWriteBack conf k) (mkfiles (Some conf) (Some (firstn k conf))).
Proof.
  intros L. unfold saving. eapply rt_trans; [apply rt_step; apply ss_read|]. cbn [f_conf].
  eapply rt_trans; [apply rt_step; apply ss_open_back|]. cbn [f_conf]. exact (run_back faults txt conf k (Some conf) L).
Qed.
Lemma run_to_conf faults t conf back k : (k <= List.length t)%nat ->
  saving faults (Some t) (mkfiles (Some conf) back) (SWriteConf k) (mkfiles (Some (firstn k t)) (Some conf)).
Proof.
  intros L. unfold saving. eapply rt_trans; [apply (run_to_back faults (Some t) conf back (List.length conf)); lia|]. rewrite firstn_all.
  eapply rt_trans; [apply rt_step; apply ss_back_written; left; apply nth_error_None; lia|].
  eapply rt_trans; [apply rt_step; eapply ss_open_conf; reflexivity|]. cbn [f_back].
  induction k as [|k IH]; [apply rt_refl|]. eapply rt_trans; [apply IH; lia|].
  destruct (nth_error t k) as [b|] eqn:E; [|apply nth_error_None in E; lia]. apply rt_step.
  pose proof (ss_write_conf faults (Some t) t k b (mkfiles (Some (firstn k t)) (Some conf)) eq_refl E) as S. cbn [f_conf f_back put_file] in S.
  now rewrite (put_firstn _ _ _ E) in S.
Qed.
Lemma run_done t conf back : saving false (Some t) (mkfiles (Some conf) back) SDone (mkfiles (Some t) (Some conf)).
Proof.
  unfold saving. eapply rt_trans; [apply (run_to_conf false t conf back (List.length t)); lia|]. rewrite firstn_all.
  apply rt_step. eapply ss_conf_written; [reflexivity|]. left. apply nth_error_None. lia.
Qed.

(** After a crash in the middle of a save, the next save destroys the backup: once it is done
    the text before the crash is in neither file, and a crash during it can leave no complete
    text at all. *)
Theorem C70_second_save_refuted old new new2 k : (k < List.length new)%nat ->
  firstn k new <> old -> firstn k new <> new2 -> new2 <> old -> new2 <> [] -> old <> [] ->
  exists f1 f2 f3 pc,
    saving false (Some new) (mkfiles (Some old) None) (SWriteConf k) f1 /\
    saving false (Some new2) f1 SDone f2 /\ f_conf f2 <> Some old /\ f_back f2 <> Some old /\
    saving false (Some new2) f1 pc f3 /\
    (forall t, In t [old; new; new2] -> f_conf f3 <> Some t /\ f_back f3 <> Some t).
Proof.
  intros L N1 N2 N3 N4 N5.
  assert (firstn k new <> new) as NN.
  { intros E. apply (f_equal (@List.length Z)) in E. rewrite firstn_length in E. lia. }
  assert (new <> []) as N6 by (intros ->; cbn in L; lia).
  exists (mkfiles (Some (firstn k new)) (Some old)), (mkfiles (Some new2) (Some (firstn k new))),
    (mkfiles (Some []) (Some (firstn k new))), (SWriteConf 0). cbn [f_conf f_back].
  split; [apply run_to_conf; lia|]. split; [apply run_done|]. split; [congruence|]. split; [congruence|].
  split; [exact (run_to_conf false new2 (firstn k new) (Some old) 0 ltac:(lia))|].
  intros t [<-|[<-|[<-|[]]]]; split; congruence.
Qed.
(** An I/O error (a full disk, say) can do the same without a crash: its report is ignored, so
    argo.conf is rewritten although the backup failed. *)
Theorem C70_faults_refuted old new : old <> [] -> new <> [] -> exists f', saving true (Some new) (mkfiles (Some old) None) SDone f' /\
  forall t, In t [old; new] -> f_conf f' <> Some t /\ f_back f' <> Some t.
Proof.
  intros N1 N2. exists (mkfiles (Some []) (Some [])). split.
  - unfold saving. eapply rt_trans; [apply (run_to_back true (Some new) old None 0); lia|]. cbn [firstn].
    eapply rt_trans; [apply rt_step; apply ss_back_written; now right|].
    eapply rt_trans; [apply rt_step; eapply ss_open_conf; reflexivity|]. cbn [f_back].
    apply rt_step. eapply ss_conf_written; [reflexivity|now right].
  - intros t [<-|[<-|[]]]; split; cbn; congruence.
Qed.
(** Two updates at the same time can leave a mixture of their texts in argo.conf, without any
    crash or error. *)
Definition all_done (l : list saver) : Prop := Forall (fun s => s_pc s = SDone) l.
Definition saves_run (faults : bool) := clos_refl_trans _ (saves_step faults).
Lemma lift_run faults txt l r pc f pc' f' : clos_refl_trans _ (save_step faults txt) (pc, f) (pc', f') ->
  saves_run faults (l ++ mksaver txt pc :: r, f) (l ++ mksaver txt pc' :: r, f').
Proof.
  intros R. remember (pc, f) as s. remember (pc', f') as s'. revert pc f pc' f' Heqs Heqs'.
  induction R as [s s' S|s|s s1 s' R1 IH1 R2 IH2]; intros pc f pc' f' -> E.
  - subst. apply rt_step. exact (svs_one faults l (mksaver txt pc) r f pc' f' S).
  - injection E as <- <-. apply rt_refl.
  - destruct s1 as [pc1 f1]. eapply rt_trans; [now apply IH1|now apply IH2].
Qed.
Theorem C70_concurrent_refuted : exists t1 t2 l f', 
  saves_run false ([mksaver (Some t1) SRead; mksaver (Some t2) SRead], mkfiles (Some (str "old")) None) (l, f') /\ all_done l /\
  f_conf f' <> Some t1 /\ f_conf f' <> Some t2 /\ f_conf f' <> Some (str "old").
Proof.
  exists (str "long text"), (str "short").
  exists [mksaver (Some (str "long text")) SDone; mksaver (Some (str "short")) SDone], (mkfiles (Some (str "shorttext")) (Some (str "old"))).
  split; [|split; [apply Forall_cons; [reflexivity|apply Forall_cons; [reflexivity|apply Forall_nil]]|split; [|split]; intros X; vm_compute in X; discriminate X]].
  unfold saves_run.
  (* the second one has opened argo.conf, then the first one writes it all, then the second *)
  eapply rt_trans.
  { apply (lift_run false (Some (str "short")) [mksaver (Some (str "long text")) SRead] []). 
    eapply rt_trans; [apply (run_to_back false (Some (str "short")) (str "old") None 3); cbn; lia|].
    apply rt_step. apply ss_back_written. left. reflexivity. }
  eapply rt_trans.
  { apply (lift_run false (Some (str "long text")) [] [mksaver (Some (str "short")) SOpenConf]).
    eapply rt_trans; [apply (run_to_conf false (str "long text") (str "old") _ 0); cbn; lia|]. apply rt_refl. }
  cbn [app firstn].
  eapply rt_trans.
  { apply (lift_run false (Some (str "short")) [mksaver (Some (str "long text")) (SWriteConf 0)] []). apply rt_step. eapply ss_open_conf. reflexivity. }
  cbn [app f_back].
  assert (forall txt t r l c n b back, txt = Some t -> nth_error t n = Some b ->
    saves_run false (l ++ mksaver txt (SWriteConf n) :: r, mkfiles (Some c) back) (l ++ mksaver txt (SWriteConf (S n)) :: r, mkfiles (Some (put c n b)) back)) as W.
  { intros txt t r l c n b back T E. apply lift_run. apply rt_step. exact (ss_write_conf false txt t n b (mkfiles (Some c) back) T E). }
  do 9 (eapply rt_trans; [eapply (W _ (str "long text") _ []); [reflexivity|reflexivity]|]). cbn [app].
  do 5 (eapply rt_trans; [eapply (W _ (str "short") [] [_]); [reflexivity|reflexivity]|]).
  eapply rt_trans; [apply (lift_run false (Some (str "long text")) [] _); apply rt_step; eapply ss_conf_written; [reflexivity|left; reflexivity]|].
  eapply rt_trans; [apply (lift_run false (Some (str "short")) [_] []); apply rt_step; eapply ss_conf_written; [reflexivity|left; reflexivity]|].
  apply rt_refl.
Qed.
(** What several saves at once can leave, crashed or not, with any errors: no byte is invented.
    Every byte of the two files is a byte the program started with or one of the texts saved has
    at the same place, or a zero byte. *)
Definition known (ts : list bytes) (c : option bytes) : Prop :=
  forall s i b, c = Some s -> nth_error s i = Some b -> b = 0 \/ exists t, In t ts /\ nth_error t i = Some b.
Lemma nth_put : forall c n b i x, nth_error (put c n b) i = Some x -> (i = n /\ x = b) \/ x = 0 \/ nth_error c i = Some x.
Proof.
  intros c n. revert c. induction n as [|n IH]; intros [|y c] b [|i] x H; cbn in H; try (injection H as <-); auto.
  - destruct i; discriminate H.
  - apply IH in H as [[-> ->]|[H|H]]; auto. destruct i; discriminate H.
  - apply IH in H as [[-> ->]|[H|H]]; auto.
Qed.
Definition pc_known (ts : list bytes) (pc : save_pc) : Prop :=
  match pc with SOpenBack tmp | SWriteBack tmp _ => known ts (Some tmp) | _ => True end.
Lemma known_nil ts : known ts (Some []).
Proof. intros s i b E H. injection E as <-. destruct i; discriminate H. Qed.
Lemma known_put ts f n b : known ts f -> (b = 0 \/ exists t, In t ts /\ nth_error t n = Some b) -> known ts (put_file f n b).
Proof.
  intros K B s i x E H. destruct f as [c|]; cbn [put_file] in E; [|discriminate E]. injection E as <-.
  apply nth_put in H as [[-> ->]|[H|H]]; eauto.
Qed.
Lemma save_known faults txt ts pc f pc' f' : save_step faults txt (pc, f) (pc', f') -> (forall t, txt = Some t -> In t ts) ->
  pc_known ts pc -> known ts (f_conf f) -> known ts (f_back f) -> pc_known ts pc' /\ known ts (f_conf f') /\ known ts (f_back f').
Proof.
  intros S T P C B. inversion S; subst; cbn [pc_known f_conf f_back] in *; repeat split; auto using known_nil.
  - destruct (f_conf f'); auto using known_nil.
  - apply known_put; [exact B|]. eapply P; eauto.
  - apply known_put; [exact C|]. right. eauto.
Qed.
Theorem C70_concurrent faults l f l' f' ts : saves_run faults (l, f) (l', f') -> Forall (fun s => s_pc s = SRead) l ->
  (forall s t, In s l -> s_txt s = Some t -> In t ts) -> (forall t, f_conf f = Some t \/ f_back f = Some t -> In t ts) ->
  forall t i b, f_conf f' = Some t \/ f_back f' = Some t -> nth_error t i = Some b ->
    b = 0 \/ exists t', In t' ts /\ nth_error t' i = Some b.
Proof.
  intros R PC TX FS. unfold saves_run in R.
  assert (Forall (fun s => (forall t, s_txt s = Some t -> In t ts) /\ pc_known ts (s_pc s)) (fst (l', f')) /\
    known ts (f_conf (snd (l', f'))) /\ known ts (f_back (snd (l', f')))) as (_ & C & B).
  { apply clos_rt_rt1n in R.
    assert (Forall (fun s => (forall t, s_txt s = Some t -> In t ts) /\ pc_known ts (s_pc s)) (fst (l, f)) /\
      known ts (f_conf (snd (l, f))) /\ known ts (f_back (snd (l, f)))) as I.
    { cbn [fst snd]. rewrite Forall_forall in *. split; [|split].
      - intros s I. split; [intros t; now apply TX|]. now rewrite (PC s I).
      - intros t i b E H. right. exists t. split; [apply FS; now left|exact H].
      - intros t i b E H. right. exists t. split; [apply FS; now right|exact H]. }
    revert I. induction R as [|x y z S R IH]; [auto|]. intros I. apply IH. clear IH R.
    destruct S as [l0 s r f0 pc' f1 S]. cbn [fst snd] in *. destruct I as (A & C & B). apply Forall_app in A as [A1 A2]. inversion A2 as [|? ? [T P] A3]; subst.
    destruct (save_known _ _ ts _ _ _ _ S T P C B) as (P' & C' & B').
    split; [|auto]. apply Forall_app. split; [exact A1|]. constructor; [|exact A3]. cbn. auto. }
  cbn [snd] in *. intros t i b [E|E] H; [eapply C|eapply B]; eauto.
Qed.
Example C70_example : saving false (Some (str "Port = 1")) (mkfiles (Some (str "Port = 2")) None) (SWriteConf 4) (mkfiles (Some (str "Port")) (Some (str "Port = 2"))).
Proof. exact (run_to_conf false (str "Port = 1") (str "Port = 2") None 4 ltac:(cbn; lia)). Qed.

(* ------------------------------------------------------------ C78: restart *)

(** The text holds the configuration: decoding gives the same options, except those no file
    holds, and the same interfaces. *)
Definition holds (decode : bytes -> option config) (t : bytes) (c : config) : Prop :=
  exists c', decode t = Some c' /\ (forall o, ~ not_in_file o -> get o c' = get o c) /\
    (forall k i, iface_of c' k i <-> iface_of c k i).

(** C78: a configuration that was started from a file, updated any number of times and then
    saved is the one the next start finds, in every option a file can hold, provided argo reads
    argo.conf; a log level given on the command line takes precedence again. *)
Theorem C78_restart nilp decode file log1 sys ds t f pc f' others log2 : start_config nilp (Some file) log1 = Some sys ->
  holds decode t (updates nilp sys ds) -> f_conf f <> None -> saving false (Some t) f pc f' -> pc = SDone ->
  exists s2, start nilp decode (str "argo.conf") log2 f' others = Some s2 /\
    (forall o, ~ not_in_file o -> o <> LogLevel \/ log2 = [] -> get o s2 = get o (updates nilp sys ds)) /\
    (log2 <> [] -> get LogLevel s2 = VText log2) /\
    (forall k i, iface_of s2 k i <-> iface_of (updates nilp sys ds) k i).
Proof.
  intros ST (c' & D & G & IF) NC SV ->. destruct (f_conf f) as [old|] eqn:C; [|congruence].
  destruct (proj2 (C70_one_save _ _ _ _ _ C SV) eq_refl) as (_ & T & _). specialize (T t eq_refl).
  unfold start, config_text. rewrite (proj2 (bytes_eqb_eq (str "argo.conf") (str "argo.conf")) eq_refl), T, D.
  destruct (C67_start nilp c' log2) as (r & s2 & R & S2 & I2 & O2 & L0 & L1). exists s2. split; [exact S2|].
  destruct (C67_read nilp c') as (r' & R' & I' & H). rewrite R in R'. injection R' as <-.
  assert (forall o, ~ not_in_file o -> get o r = get o (updates nilp sys ds)) as GR.
  { intros o N. rewrite <- (G o N). assert (~ uuid_part o) as NU by (intros U; apply N; now right).
    destruct (H o NU) as (H1 & H2 & H3). destruct (unset_dec (get o c')) as [U|U]; [|now apply H1].
    apply H3. intros v DV. apply (started_set nilp file log1 sys o v ST DV).
    pose proof (C69_defaults_fixed nilp file log1 sys ds o v ST DV) as FX. rewrite <- FX, <- (G o N). exact U. }
  split; [|split].
  - intros o N [NL|E0].
    + rewrite (O2 o NL). now apply GR.
    + rewrite (L0 E0). now apply GR.
  - exact L1.
  - intros k i. rewrite <- IF. unfold iface_of. now rewrite I2, I'.
Qed.
(** In particular a log level given on the command line once is saved for good by the first
    update. *)
Theorem C78_log_level nilp decode file log sys ds t f f' others : start_config nilp (Some file) log = Some sys -> log <> [] ->
  holds decode t (updates nilp sys ds) -> f_conf f <> None -> saving false (Some t) f SDone f' ->
  exists s2, start nilp decode (str "argo.conf") [] f' others = Some s2 /\ get LogLevel s2 = VText log.
Proof.
  intros ST NL HD NC SV. destruct (C78_restart nilp decode file log sys ds t f SDone f' others [] ST HD NC SV eq_refl) as (s2 & S2 & H & _).
  exists s2. split; [exact S2|]. rewrite H; [|unfold not_in_file, uuid_part; cbn; intuition discriminate|now right].
  rewrite (C69_defaults_fixed nilp file log sys ds LogLevel _ ST d_log).
  destruct (C67_start nilp file log) as (r & s & _ & S & _ & _ & _ & L). rewrite ST in S. injection S as <-. now apply L.
Qed.
(** With another file given by -config, no save is ever seen by a restart. *)
Theorem C78_other_file nilp decode path log f pc f' others txt faults : path <> str "argo.conf" -> path <> str "argo.conf~" ->
  saving faults txt f pc f' -> start nilp decode path log f' others = start nilp decode path log f others.
Proof. intros N1 N2 _. unfold start, config_text. now rewrite !eqb_false. Qed.
(** After a crash at any moment of a save, a start with argo.conf or with the backup argo.conf~
    finds the configuration text from before the save; after a complete save the backup does. *)
Theorem C78_recover nilp decode log f old pc f' others txt : f_conf f = Some old -> saving false txt f pc f' ->
  (start nilp decode (str "argo.conf") log f' others = start_config nilp (decode old) log \/
   start nilp decode (str "argo.conf~") log f' others = start_config nilp (decode old) log) /\
  (pc = SDone -> start nilp decode (str "argo.conf~") log f' others = start_config nilp (decode old) log).
Proof.
  intros C S. assert (forall c, f_back f' = Some c -> start nilp decode (str "argo.conf~") log f' others = start_config nilp (decode c) log) as K.
  { intros c E. unfold start, config_text. rewrite (eqb_false (str "argo.conf~") (str "argo.conf")) by (intros X; vm_compute in X; discriminate X).
    rewrite (proj2 (bytes_eqb_eq (str "argo.conf~") (str "argo.conf~")) eq_refl), E. reflexivity. }
  destruct (C70_one_save _ _ _ _ _ C S) as [[A|A] B].
  - split; [left|intros E; apply B in E; apply K; tauto].
    unfold start, config_text. now rewrite (proj2 (bytes_eqb_eq (str "argo.conf") (str "argo.conf")) eq_refl), A.
  - split; [right; now apply K|intros E; apply B in E; apply K; tauto].
Qed.
(** A crash right after argo.conf was opened leaves it empty; if the decoder takes an empty text
    for a configuration in which nothing is set, the next start silently uses the defaults. *)
Theorem C78_silent_defaults nilp decode e old new others : decode [] = Some e -> (forall o, unset (get o e)) ->
  exists f' s, saving false (Some new) (mkfiles (Some old) None) (SWriteConf 0) f' /\
    start nilp decode (str "argo.conf") [] f' others = Some s /\ f_back f' = Some old /\
    forall o, (forall v, default o v -> get o s = v) /\ (~ uuid_part o -> (forall v, ~ default o v) -> unset (get o s)).
Proof.
  intros D U. exists (mkfiles (Some []) (Some old)).
  destruct (C67_start nilp e []) as (r & s & R & S & _ & _ & L0 & _). exists s. split; [exact (run_to_conf false new old None 0 ltac:(lia))|].
  split; [unfold start, config_text; cbn [f_conf]; rewrite (proj2 (bytes_eqb_eq (str "argo.conf") (str "argo.conf")) eq_refl), D; exact S|].
  split; [reflexivity|]. rewrite (L0 eq_refl). destruct (C67_read nilp e) as (r' & R' & _ & H). rewrite R in R'. injection R' as <-. intros o. split.
  - intros v DV. destruct (H o) as (_ & H2 & _); [destruct DV; unfold uuid_part; cbn; intuition discriminate|]. now apply H2.
  - intros NU ND. destruct (H o NU) as (_ & _ & H3). rewrite (H3 ND). apply U.
Qed.
Example C78_example nilp : exists decode t sys f f', start_config nilp (Some sample_config) (str "DEBUG") = Some sys /\
  holds decode t (updates nilp sys [sample_config]) /\ f_conf f <> None /\ saving false (Some t) f SDone f'.
Proof.
  destruct (start_config nilp (Some sample_config) (str "DEBUG")) as [sys|] eqn:E; [|vm_compute in E; discriminate E].
  exists (fun _ => Some (updates nilp sys [sample_config])), (str "text"), sys, (mkfiles (Some (str "old")) None), (mkfiles (Some (str "text")) (Some (str "old"))).
  split; [reflexivity|]. split; [exists (updates nilp sys [sample_config]); split; [reflexivity|]; split; [reflexivity|tauto]|].
  split; [discriminate|]. apply run_done.
Qed.
