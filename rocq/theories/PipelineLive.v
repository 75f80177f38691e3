(** PipelineLive: the consumer always gets back to the channel the interfaces write to (C75);
    start-up of an interface (C72). *)
From Coq Require Import Permutation.
From Verif Require Import GoBase BufFacts CanModel CanusbModel ActisenseModel NmeaTypes NmeaModel
  SignalkModel MainModel MainSpec MainProps HubModel HubSpec HubProps PipelineModel PipelineSpec PipelineProofs PipelineProps.
Open Scope list_scope.

Section Props.
Variables (tbl : list pgn_def) (maps : mappings) (opts : options) (pl : platform)
          (fmtv : gval -> bytes) (unmarshal : bytes -> option canboat)
          (marshal : Z -> delta -> option bytes) (verbose : bool).
Notation yrun := (yrun tbl maps opts pl fmtv unmarshal marshal verbose).
Notation ystep := (ystep tbl maps opts pl fmtv unmarshal marshal verbose).
Notation step1 := (handle opts (pl_tz pl) fmtv tbl maps marshal verbose).

Lemma hub_enabled (tr : list (label bytes)) w : hrun tr (Ok w) -> no_unregister tr ->
  w_hub w = HIdle \/
  exists l w', hstep w l (Ok w') /\ (l = LEndRange \/ exists c m, l = LOffer c m).
Proof.
  intros R NU. destruct (w_hub w) as [|m todo] eqn:E; [now left|right].
  destruct (C61_never_waits _ _ _ _ R NU E) as (l & w' & D & ST). exists l, w'. split; [exact ST|].
  destruct D as [->|[c ->]]; eauto.
Qed.

(** C75.  As long as the consumer has something left to do for the current message, it or one
    of the hubs can take a step, whatever the clients, their connections and the interfaces
    are doing ... *)
Theorem C75_never_stuck ifs tr s : yrun ifs tr (YOk s) -> y_todo s <> [] ->
  exists l s', internal l = true /\ ystep s l (YOk s').
Proof.
  intros R N. destruct (hubs_run _ _ _ _ _ _ _ _ _ _ _ R) as [[A1 A2] [B1 B2]].
  destruct (y_todo s) as [|e es] eqn:ET; [now destruct N|].
  destruct e as [m|b| |k n|b|b];
    try (eexists; eexists; split; [|eapply ys_other; [exact ET|discriminate|discriminate]]; reflexivity).
  - destruct (hub_enabled _ _ B1 B2) as [I|(l & w' & ST & D)].
    + eexists; eexists; split; [|eapply ys_stats; [exact ET|]]; [reflexivity|].
      apply st_broadcast; [exact I|apply Permutation_refl].
    + exists (YStats l). eexists. split; [destruct D as [->|(c & m & ->)]; reflexivity|].
      apply ys_stats_hub; [| |exact ST]; destruct D as [->|(c & m & ->)]; discriminate.
  - destruct (hub_enabled _ _ A1 A2) as [I|(l & w' & ST & D)].
    + eexists; eexists; split; [|eapply ys_delta; [exact ET|]]; [reflexivity|].
      apply st_broadcast; [exact I|apply Permutation_refl].
    + exists (YStream l). eexists. split; [destruct D as [->|(c & m & ->)]; reflexivity|].
      apply ys_stream_hub; [| |exact ST]; destruct D as [->|(c & m & ->)]; discriminate.
Qed.

Lemma remove_le c l : (List.length (remove_conn c l) <= List.length l)%nat.
Proof. unfold remove_conn. induction l as [|x l IH]; cbn; [lia|]. destruct (negb _); cbn; lia. Qed.
Lemma offer_work (w w' : world bytes) c m : hstep w (LOffer c m) (Ok w') ->
  (hub_work w = S (hub_work w') /\ List.length (w_conns w') <= List.length (w_conns w))%nat.
Proof.
  intros ST. inversion ST as [| | | |w0 m0 c0 todo HB E1 E2| | | | |]; subst. unfold hub_work. rewrite HB.
  cbv zeta in *. destruct (ch_closed (w_chan w c)); [discriminate|].
  pose proof (remove_le c (w_conns w)) as RL.
  destruct (Nat.ltb _ _); match goal with X : Ok _ = Ok w' |- _ => apply Ok_inj in X; subst w' end;
    cbn [w_hub w_conns List.length]; split; auto.
Qed.
Lemma end_work (w w' : world bytes) : hstep w LEndRange (Ok w') ->
  (hub_work w = S (hub_work w') /\ List.length (w_conns w') <= List.length (w_conns w))%nat.
Proof.
  intros ST. inversion ST as [| | | | |w0 m0 HB E1 E2| | | |]; subst. unfold hub_work. rewrite HB. cbn. lia.
Qed.
Lemma bcast_work (w w' : world bytes) b : hub_broadcast w b w' ->
  hub_work w = 0%nat /\ hub_work w' = S (List.length (w_conns w)) /\ w_conns w' = w_conns w.
Proof.
  intros ST. inversion ST as [| | |w0 m0 todo HB P E1 E2| | | | | |]; subst. unfold hub_work. rewrite HB.
  cbn [w_hub w_conns]. rewrite (Permutation_length P). auto.
Qed.

(** ... each such step uses up some of the work left, and touches no interface ... *)
Theorem C75_step s l r : ystep s l r -> internal l = true ->
  forall s', r = YOk s' -> (work_left s' < work_left s)%nat /\ y_threads s' = y_threads s /\ y_can s' = y_can s /\
    y_cons s' = y_cons s.
Proof.
  intros ST I s' E. inversion ST as
    [| | | |s1 b es w ET HB|s1 b es w ET HB|s1 e es ET N1 N2|s1 hl w N1 N2 HS|s1 hl N1 N2 HS|s1 hl w N1 N2 HS|s1 hl N1 N2 HS];
    subst; try discriminate I; try discriminate; match goal with X : YOk _ = YOk s' |- _ => injection X as <- end;
    (split; [|repeat split]); unfold work_left; cbn [y_stream y_stats y_todo].
  - apply bcast_work in HB as (E1 & E2 & E3). rewrite E1, E2, E3, ET. cbn [List.length]. lia.
  - apply bcast_work in HB as (E1 & E2 & E3). rewrite E1, E2, E3, ET. cbn [List.length]. lia.
  - rewrite ET. cbn [List.length]. lia.
  - assert (hub_work (y_stream s) = S (hub_work w) /\ List.length (w_conns w) <= List.length (w_conns (y_stream s)))%nat as [E1 E2].
    { destruct hl; try discriminate I; [eapply offer_work|eapply end_work]; exact HS. }
    rewrite E1. nia.
  - assert (hub_work (y_stats s) = S (hub_work w) /\ List.length (w_conns w) <= List.length (w_conns (y_stats s)))%nat as [E1 E2].
    { destruct hl; try discriminate I; [eapply offer_work|eapply end_work]; exact HS. }
    rewrite E1. nia.
Qed.

(** Continuations of an execution by steps of the consumer and the hubs alone. *)
Inductive inner : sys -> list ylabel -> sys -> Prop :=
| in_nil s : inner s [] s
| in_cons s l s1 ls s2 : internal l = true -> ystep s l (YOk s1) -> inner s1 ls s2 -> inner s (l :: ls) s2.

Lemma inner_run ifs s ls s' : inner s ls s' -> forall tr, yrun ifs tr (YOk s) -> yrun ifs (tr ++ ls) (YOk s').
Proof.
  induction 1 as [s|s l s1 ls s2 I ST N IH]; intros tr R; [now rewrite app_nil_r|].
  replace (tr ++ l :: ls) with ((tr ++ [l]) ++ ls) by now rewrite <- app_assoc.
  apply IH. econstructor; eassumption.
Qed.

(** ... so such steps alone come to an end, after a number fixed by what there is to do and the
    number of clients, and when none is possible any more the consumer is back at its
    channel. *)
Theorem C75_bounded s ls s' : inner s ls s' ->
  (List.length ls + work_left s' <= work_left s)%nat /\ y_threads s' = y_threads s /\ y_can s' = y_can s.
Proof.
  induction 1 as [s|s l s1 ls s2 I ST N IH]; [cbn; auto|].
  destruct (C75_step _ _ _ ST I _ eq_refl) as (A & B & C & _). destruct IH as (D & E & F). cbn [List.length].
  split; [lia|]. split; congruence.
Qed.
Theorem C75_returns ifs tr s ls s' : yrun ifs tr (YOk s) -> inner s ls s' ->
  (forall l s2, internal l = true -> ~ ystep s' l (YOk s2)) -> y_todo s' = [].
Proof.
  intros R I N. destruct (y_todo s') as [|e es] eqn:E; [reflexivity|exfalso].
  destruct (C75_never_stuck ifs (tr ++ ls) s') as (l & s2 & A & B).
  - now apply inner_run with (s := s).
  - congruence.
  - exact (N l s2 A B).
Qed.
Theorem C75_reachable ifs tr s : yrun ifs tr (YOk s) -> exists ls s', inner s ls s' /\ y_todo s' = [].
Proof.
  remember (work_left s) as n eqn:En. revert tr s En. induction n as [n IH] using lt_wf_ind. intros tr s -> R.
  destruct (y_todo s) as [|e es] eqn:E; [exists [], s; split; [constructor|exact E]|].
  destruct (C75_never_stuck _ _ _ R) as (l & s1 & I & ST); [congruence|].
  destruct (C75_step _ _ _ ST I _ eq_refl) as (A & _).
  destruct (IH _ A (tr ++ [l]) s1 eq_refl) as (ls & s' & N & T); [econstructor; eassumption|].
  exists (l :: ls), s'. split; [econstructor; eassumption|exact T].
Qed.

(** Back at its channel, the consumer takes the message of any interface that has one, and
    handles it whatever the order its fields are visited in. *)
Lemma handle_not_err c m od e : step1 c m od <> Err e.
Proof.
  unfold handle. cbv zeta.
  assert (forall n pp v d i j acc e0, print_loop n pp v d i j acc <> Err e0) as PL.
  { induction n as [|n IH]; intros; cbn [print_loop]; [discriminate|].
    destruct (dm_get d i), v; try apply IH; destruct (zget _ _); try discriminate; apply IH. }
  assert (forall e0, (if shown opts (pm_header m) then print_fields tbl m verbose else Ret []) <> Err e0) as P.
  { intros e0. destruct (shown _ _); [|discriminate]. unfold print_fields. destruct (zget _ _); [apply PL|discriminate]. }
  destruct (if shown opts (pm_header m) then _ else _) as [x|e1|w]; [|destruct (P e1 eq_refl)|discriminate].
  destruct (sk_delta _ _ _) as [d|e1|w]; try discriminate. destruct (marshal (vi_now od) d); discriminate.
Qed.
Theorem C75_takes_any s i m order : y_todo s = [] -> waiting s i = [m] -> Permutation (vi_order order) (pm_data m) ->
  exists r, ystep s (YHand i m order) r.
Proof.
  intros T W P. unfold waiting in W. destruct (nth_error (y_threads s) i) as [[src out]|] eqn:E; [|discriminate W].
  cbn [th_out] in W. destruct out as [x|]; [|discriminate W]. injection W as ->.
  destruct (step1 (y_cons s) m order) as [[c es]|e|w] eqn:H.
  - eexists. eapply ys_hand; eassumption.
  - now apply handle_not_err in H.
  - eexists. eapply ys_hand_dead; eassumption.
Qed.
End Props.
