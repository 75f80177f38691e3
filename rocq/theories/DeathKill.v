(** DeathKill: lines and messages that always end the program (C85). *)
From Coq Require Import Permutation.
From Verif Require Import GoBase BufFacts CanModel CanusbModel CanusbSpec CanusbRegistry CanusbParse CanusbFast CanusbRead CanusbProps
  ActisenseModel ActisenseSpec ActisenseProofs ActisenseProps NmeaTypes PgnTable NmeaModel
  SignalkModel MapTable MainModel MainProps HubModel PipelineModel PipelineSpec PipelineProofs PipelineProps PipelineBoot PipelineExamples
  NmeaProps2 CrashSpec NmeaProps4 DeathSpec DeathProps.
Open Scope Z_scope.
Open Scope list_scope.

(* ------------------------------------------------------------ canusb *)

Definition all_fast (tbl : list pgn_def) (st : can_state) : Prop := registry_ok st /\ forall p, fast_pgn tbl p -> In p (cs_fast st).
Definition fatal_text (tbl : list pgn_def) (l : bytes) : Prop := cut_line l \/ headless tbl l.

Lemma fatal_panics tbl st l : all_fast tbl st -> fatal_text tbl l -> exists st' w, frameReceived st (buf_of l) = (st', Panic w).
Proof.
  intros [R A] [C|(ty & id & data & FT & FP & D)].
  - apply c04_line_panics in C as (w & C). exists st, w. unfold frameReceived. now rewrite C.
  - set (f := mkframe (frame_message id data) ty id 0 0).
    rewrite (frameReceived_spells st l f) by (exists ty, id, data; auto).
    destruct (frame_step st f) as [st' o] eqn:E.
    destruct (proj2 (step_panic st f R)) as [w H]; [split; [apply A, FP|exact D]|]. rewrite E in H. cbn [snd] in H. subst o. eauto.
Qed.

(** The reader after [done]: it holds the line [done] ends with; no fatal line was read. *)
Definition holds_line (done : list rd_event) (r : can_rd) : Prop :=
  forall p l, done = p ++ evs_of l -> good_line l -> cr_sof r = true /\ cr_msg r = buf_of l.
Definition survived (tbl : list pgn_def) (done : list rd_event) : Prop :=
  forall p l q, done = p ++ evs_of l ++ RByte 13 :: q -> good_line l -> ~ fatal_text tbl l.

Lemma snoc_cases {A} (a : list A) x (p q : list A) : a ++ [x] = p ++ q -> (q = [] /\ p = a ++ [x]) \/ exists q', q = q' ++ [x] /\ a = p ++ q'.
Proof.
  intros H. destruct q as [|y q'] using rev_ind; [left; rewrite app_nil_r in H; auto|].
  right. rewrite app_assoc in H. apply app_inj_tail in H as [H ->]. eauto.
Qed.
Lemma evs_app a b : evs_of (a ++ b) = evs_of a ++ evs_of b.
Proof. apply map_app. Qed.
Lemma evs_inv (l : bytes) (q : list rd_event) x : evs_of l = q ++ [x] -> exists l' b, l = l' ++ [b] /\ q = evs_of l' /\ x = RByte b.
Proof.
  destruct l as [|b l'] using rev_ind; intros H; [destruct q; discriminate H|].
  rewrite evs_app in H. apply app_inj_tail in H as [H1 H2]. eauto.
Qed.

Lemma plain_byte st r b : plain b -> cr_sof r = true -> can_byte st r (RByte b) = CMore (mkcr b (s_append (cr_msg r) b) true) st.
Proof.
  intros [NS N13] S. unfold can_byte. assert (is_sof b = false) as ->.
  { destruct (is_sof b) eqn:E; [|reflexivity]. destruct NS. now apply sof_starts. }
  destruct (Z.eqb_spec b 13); [contradiction|]. cbn [andb]. now rewrite S.
Qed.
Lemma start_byte st r b : starts b -> can_byte st r (RByte b) = CMore (mkcr b (s_append nil_slice b) true) st.
Proof. intros S. apply sof_starts in S. unfold can_byte. now rewrite S. Qed.

Lemma holds_step st r done ev : holds_line done r ->
  match can_byte st r ev with
  | CMore r' _ => holds_line (done ++ [ev]) r'
  | CMsg _ _ | CErr => holds_line (done ++ [ev]) can_rd0
  | CPanic => True
  end.
Proof.
  intros H. destruct (can_byte st r ev) as [r' st'|m st'| |] eqn:E; try exact I; intros p l EQ GL;
    destruct GL as (c & body & -> & SC & FP); destruct body as [|b body'] using rev_ind.
  all: try (change (evs_of [c]) with [RByte c] in EQ; apply app_inj_tail in EQ as [_ ->]; rewrite (start_byte st r c SC) in E; try discriminate E;
            injection E as <- _; split; reflexivity).
  all: rewrite app_comm_cons, evs_app, app_assoc in EQ; apply app_inj_tail in EQ as [EQ ->];
       apply Forall_app in FP as [FP1 FP2]; inversion FP2 as [|? ? PB _]; subst x || idtac.
  all: destruct (H p (c :: body')) as [S M]; [exact EQ|now exists c, body'|];
       match goal with Q : plain _ |- _ => rewrite (plain_byte st r _ Q S) in E end; try discriminate E.
  injection E as <- _. cbn [cr_sof cr_msg]. split; [reflexivity|]. now rewrite M, app_comm_cons, buf_of_snoc.
Qed.

Lemma survived_step tbl st r done ev : all_fast tbl st -> holds_line done r -> survived tbl done ->
  can_byte st r ev <> CPanic -> survived tbl (done ++ [ev]).
Proof.
  intros AF H S NP p l q EQ GL F. rewrite app_assoc in EQ.
  change (RByte 13 :: q) with ([RByte 13] ++ q) in EQ. rewrite app_assoc in EQ.
  apply snoc_cases in EQ as [[-> EQ]|(q' & -> & EQ)].
  - apply app_inj_tail in EQ as [EQ <-]. destruct (H p l (eq_sym EQ) GL) as [SF M].
    apply NP. unfold can_byte. replace (is_sof 13) with false by reflexivity. rewrite SF. cbn [Z.eqb Pos.eqb andb]. rewrite M.
    destruct (fatal_panics tbl st l AF F) as (st' & w & ->). reflexivity.
  - apply (S p l q'); [|exact GL|exact F]. rewrite EQ, <- !app_assoc. reflexivity.
Qed.

(* ------------------------------------------------------------ actisense *)

(** The reader of an NGT fed with [evs], over as many Reads as needed; None: it panicked. *)
Fixpoint act_feed (r : act_rd) (evs : list rd_event) : option act_rd :=
  match evs with
  | [] => Some r
  | ev :: rest =>
      match act_byte r ev with
      | AMore r' => act_feed r' rest
      | AMsg _ | AErr => act_feed act_rd0 rest
      | APanic => None
      end
  end.
Lemma act_feed_app a : forall r b, act_feed r (a ++ b) = match act_feed r a with Some r' => act_feed r' b | None => None end.
Proof. induction a as [|ev a IH]; intros r b; [reflexivity|]. cbn [app act_feed]. destruct (act_byte r ev); auto. Qed.

(** The messages it delivers. *)
Fixpoint act_msgs (r : act_rd) (evs : list rd_event) : list raw_message :=
  match evs with
  | [] => []
  | ev :: rest =>
      match act_byte r ev with
      | AMore r' => act_msgs r' rest
      | AMsg m => m :: act_msgs act_rd0 rest
      | AErr => act_msgs act_rd0 rest
      | APanic => []
      end
  end.
Lemma act_msgs_app a : forall r b, act_msgs r (a ++ b) = act_msgs r a ++ match act_feed r a with Some r' => act_msgs r' b | None => [] end.
Proof. induction a as [|ev a IH]; intros r b; [reflexivity|]. cbn [app act_feed act_msgs]. destruct (act_byte r ev); cbn [app]; auto. now rewrite IH. Qed.

Definition at_start (r : act_rd) : Prop := ar_st r = MsgStart /\ ar_buf r = buf_of [].
Lemma feed_noise noise : forall r, at_start r -> Forall (fun b => b <> 16) noise -> exists r', act_feed r (evs_of noise) = Some r' /\ at_start r'.
Proof.
  induction noise as [|b noise IH]; intros r A F; [exists r; auto|]. inversion F as [|? ? N F']; subst. rewrite evs_cons. cbn [act_feed].
  rewrite act_byte_core by discriminate. unfold act_core. destruct A as [A1 A2]. rewrite A1. cbn [deframe]. unfold DLE. destruct (Z.eqb_spec b 16); [contradiction|].
  apply IH; [|exact F']. split; [reflexivity|exact A2].
Qed.
Lemma feed_escaped m : forall r l, ar_st r = MsgMessage -> ar_buf r = buf_of l ->
  exists r', act_feed r (evs_of (escaped m)) = Some r' /\ ar_st r' = MsgMessage /\ ar_buf r' = buf_of (l ++ m).
Proof.
  induction m as [|b m IH]; intros r l A B; [exists r; rewrite app_nil_r; auto|]. cbn [escaped].
  destruct (Z.eqb_spec b 16) as [->|N].
  - rewrite !evs_cons. cbn [act_feed]. rewrite act_byte_core by discriminate. unfold act_core. rewrite A. cbn [deframe]. unfold DLE. cbn [Z.eqb Pos.eqb].
    cbn [act_feed]. rewrite act_byte_core by discriminate. unfold act_core. cbn [ar_st ar_buf deframe]. unfold DLE, STX, ETX. cbn [Z.eqb Pos.eqb].
    match goal with |- context [act_feed ?r0 (evs_of (escaped m))] => destruct (IH r0 (l ++ [16])) as (r' & E & S & Q) end.
    { reflexivity. } { cbn [ar_buf]. now rewrite B, buf_of_snoc. }
    exists r'. rewrite E, <- app_assoc in *. auto.
  - rewrite evs_cons. cbn [act_feed]. rewrite act_byte_core by discriminate. unfold act_core. rewrite A. cbn [deframe]. unfold DLE. destruct (Z.eqb_spec b 16); [contradiction|].
    match goal with |- context [act_feed ?r0 (evs_of (escaped m))] => destruct (IH r0 (l ++ [b])) as (r' & E & S & Q) end.
    { reflexivity. } { cbn [ar_buf]. now rewrite B, buf_of_snoc. }
    exists r'. rewrite E, <- app_assoc in *. auto.
Qed.
Lemma feed_on_line m r : at_start r ->
  match messageReceived (buf_of m) with
  | Panic _ => act_feed r (evs_of (on_line m)) = None
  | _ => exists r', act_feed r (evs_of (on_line m)) = Some r' /\ at_start r'
  end.
Proof.
  intros [A B]. unfold on_line. rewrite evs_app. change (evs_of [16; 2]) with [RByte 16; RByte 2]. cbn [app act_feed].
  rewrite act_byte_core by discriminate. unfold act_core. rewrite A. cbn [deframe]. unfold DLE. cbn [Z.eqb Pos.eqb].
  cbn [act_feed]. rewrite act_byte_core by discriminate. unfold act_core. cbn [ar_st ar_buf deframe]. unfold DLE, STX, ETX. cbn [Z.eqb Pos.eqb].
  rewrite evs_app, act_feed_app.
  match goal with |- context [act_feed ?r0 (evs_of (escaped m))] => destruct (feed_escaped m r0 []) as (r' & E & S & Q) end; [reflexivity|exact B|].
  rewrite E. change (evs_of [16; 3]) with [RByte 16; RByte 3]. cbn [act_feed].
  rewrite act_byte_core by discriminate. unfold act_core. rewrite S. cbn [deframe]. unfold DLE. cbn [Z.eqb Pos.eqb].
  rewrite act_byte_core by discriminate. unfold act_core. cbn [ar_st ar_buf deframe]. unfold DLE, STX, ETX. cbn [Z.eqb Pos.eqb].
  rewrite Q. cbn [app]. destruct (messageReceived (buf_of m)); [|eexists; split; [reflexivity|split; reflexivity]|reflexivity].
  eexists. split; [reflexivity|]. split; reflexivity.
Qed.
Lemma msgs_on_line m r x : at_start r -> messageReceived (buf_of m) = Ret x -> In x (act_msgs r (evs_of (on_line m))).
Proof.
  intros [A B] MR. unfold on_line. rewrite evs_app. change (evs_of [16; 2]) with [RByte 16; RByte 2]. cbn [app act_msgs].
  rewrite act_byte_core by discriminate. unfold act_core. rewrite A. cbn [deframe]. unfold DLE. cbn [Z.eqb Pos.eqb].
  cbn [act_msgs]. rewrite act_byte_core by discriminate. unfold act_core. cbn [ar_st ar_buf deframe]. unfold DLE, STX, ETX. cbn [Z.eqb Pos.eqb].
  rewrite evs_app, act_msgs_app.
  match goal with |- context [act_feed ?r0 (evs_of (escaped m))] => destruct (feed_escaped m r0 []) as (r' & E & S & Q) end; [reflexivity|exact B|].
  rewrite E. apply in_or_app. right. change (evs_of [16; 3]) with [RByte 16; RByte 3]. cbn [act_msgs].
  rewrite act_byte_core by discriminate. unfold act_core. rewrite S. cbn [deframe]. unfold DLE. cbn [Z.eqb Pos.eqb].
  rewrite act_byte_core by discriminate. unfold act_core. cbn [ar_st ar_buf deframe]. unfold DLE, STX, ETX. cbn [Z.eqb Pos.eqb].
  rewrite Q. cbn [app]. rewrite MR. now left.
Qed.
Lemma feed_stream items : forall r, at_start r -> Forall (fun it => Forall (fun b => b <> 16) (fst it)) items ->
  act_feed r (act_stream items) = None \/ exists r', act_feed r (act_stream items) = Some r' /\ at_start r'.
Proof.
  induction items as [|[noise m] items IH]; intros r A F; [right; exists r; auto|]. inversion F as [|? ? N F']; subst. cbn [fst] in N.
  cbn [act_stream]. rewrite act_feed_app. destruct (feed_noise noise r A N) as (r1 & -> & A1). rewrite act_feed_app.
  pose proof (feed_on_line m r1 A1) as K. destruct (messageReceived (buf_of m)) as [x|e|w].
  - destruct K as (r2 & -> & A2). now apply IH.
  - destruct K as (r2 & -> & A2). now apply IH.
  - rewrite K. now left.
Qed.

(* ------------------------------------------------------------ the program *)

Definition decodes (tbl : list pgn_def) (pl : platform) (m : raw_message) : Prop :=
  exists fuel spare x, parse_packet fuel pl tbl m spare = Some (Ret x).
Definition live (tbl : list pgn_def) (pl : platform) (i : iface) (st : can_state) (s : source) : Prop :=
  match s with
  | SBoot j => j = i
  | SCan _ r input => all_fast tbl st /\ if_type i = str "canusb" /\ exists done, input_of i = done ++ input /\ holds_line done r /\ survived tbl done
  | SAct r input => if_type i = str "actisense" /\ exists done, input_of i = done ++ input /\ act_feed act_rd0 done = Some r /\ Forall (decodes tbl pl) (act_msgs act_rd0 done)
  | SFile _ => if_type i = str "file"
  end.

Lemma all_fast_more tbl st st' : all_fast tbl st -> registry_ok st' -> incl (cs_fast st) (cs_fast st') -> all_fast tbl st'.
Proof. intros [R A] R' I. split; [exact R'|]. intros p F. apply I, A, F. Qed.

Lemma frameReceived_fast st l st' o : registry_ok st -> frameReceived st l = (st', o) -> registry_ok st' /\ cs_fast st' = cs_fast st.
Proof.
  intros R. unfold frameReceived. destruct (ParseFrame l) as [f|e|e]; intros H; try (injection H as <- <-; auto).
  split; [eapply step_registry; eauto|]. apply (step_frame _ _ _ _ R H).
Qed.
Lemma can_byte_fast st r ev : registry_ok st -> match can_byte st r ev with CMore _ st' | CMsg _ st' => registry_ok st' /\ cs_fast st' = cs_fast st | _ => True end.
Proof.
  intros R. unfold can_byte. assert (forall b,
    match (if is_sof b then CMore (mkcr b (s_append nil_slice b) true) st
      else if (b =? 13) && cr_sof r then
        match frameReceived st (cr_msg r) with
        | (st', Ret f) => CMsg (cf_raw f) st'
        | (st', Err _) => CMore (mkcr b (cr_msg r) (cr_sof r)) st'
        | (_, Panic _) => CPanic
        end
      else if cr_sof r then CMore (mkcr b (s_append (cr_msg r) b) (cr_sof r)) st
      else CMore (mkcr b (cr_msg r) (cr_sof r)) st) with CMore _ st' | CMsg _ st' => registry_ok st' /\ cs_fast st' = cs_fast st | _ => True end) as K.
  { intros b. destruct (is_sof b); [auto|]. destruct (_ && _).
    - destruct (frameReceived st (cr_msg r)) as [st' [f|e|w]] eqn:E; try exact I; eapply frameReceived_fast; eauto.
    - destruct (cr_sof r); auto. }
  destruct ev; [apply K|apply K|exact I].
Qed.

Lemma register_sorted tbl st : registry_ok st -> registry_ok (register_fast tbl st).
Proof.
  unfold register_fast, registry_ok. revert st. induction tbl as [|p t IH]; intros st R; cbn [fold_left]; [exact R|].
  apply IH. destruct (8 <? p_size p); [|exact R]. cbn [AddFastPacket cs_fast]. now apply add_fast_sorted.
Qed.

Section Kill.
Variables (tbl : list pgn_def) (maps : mappings) (opts : options) (pl : platform)
          (fmtv : gval -> bytes) (unmarshal : bytes -> option canboat)
          (marshal : Z -> delta -> option bytes) (verbose : bool).
Notation yrun := (yrun tbl maps opts pl fmtv unmarshal marshal verbose).
Notation tstep := (tstep tbl pl unmarshal).

Lemma tstep_live st i t st' t' : registry_ok st -> live tbl pl i st (th_src t) -> tstep st t (TOk st' t') ->
  registry_ok st' /\ incl (cs_fast st) (cs_fast st') /\ live tbl pl i st' (th_src t').
Proof.
  intros R L H.
  inversion H as [? j ES ET E|? p r ev rest r' ? B ES ET E|? p r ev rest B ES ET E| |
     ? p r ev rest m st1 st2 p' a fuel spare x B IF PP ES ET E| |
     ? r ev rest r' B ES ET E|? r ev rest B ES ET E| |? r ev rest m fuel spare x B PP ES ET E| |
     ? l rest x FC ES ET E|? l rest e FC ES ET E|]; subst; cbn [th_src live] in *.
  - subst j. revert E. unfold boot. destruct (if_dev i) as [|[|] w input|] eqn:DV; try discriminate.
    + destruct (bytes_eqb (if_type i) (str "canusb")) eqn:E1.
      * cbv zeta. destruct (OpenChannel _ w 221) as [[st1 w1] [p|e|e]] eqn:EO; try discriminate.
        intros X. injection X as <- <-. apply open_same in EO; [|unfold is_byte; lia]. subst st1.
        pose proof (register_sorted tbl st R) as R'. split; [exact R'|].
        split; [intros x X; apply register_fast_In; now left|]. cbn [th_src live]. split.
        -- split; [exact R'|]. intros p0 (q & I & E & S). apply register_fast_In. right. eauto.
        -- split; [now apply bytes_eqb_eq|]. exists []. unfold input_of. rewrite DV. split; [reflexivity|]. split.
           ++ intros p0 l EQ (c & body & -> & _). symmetry in EQ. apply app_eq_nil in EQ as [_ EQ]. discriminate EQ.
           ++ intros p0 l q EQ. symmetry in EQ. apply app_eq_nil in EQ as [_ EQ]. apply app_eq_nil in EQ as [_ EQ]. discriminate EQ.
      * destruct (bytes_eqb (if_type i) (str "actisense")) eqn:E2.
        -- destruct (act_OpenChannel w) as [w1 [p|e|e]]; try discriminate.
           destruct (GetOperatingMode p) as [q [x|e|e]]; try discriminate;
             intros X; injection X as <- <-; (split; [exact R|]; split; [apply incl_refl|]; cbn [th_src live]; split; [now apply bytes_eqb_eq|]; exists []; unfold input_of; rewrite DV; split; [reflexivity|]; split; [reflexivity|constructor]).
        -- destruct (bytes_eqb (if_type i) (str "file")) eqn:E3; [|discriminate]. apply bytes_eqb_eq in E3.
           intros X. injection X as <- <-. split; [exact R|]. split; [apply incl_refl|exact E3].
    + destruct (bytes_eqb (if_type i) (str "canusb")); [discriminate|]. destruct (bytes_eqb (if_type i) (str "actisense")); [discriminate|].
      destruct (bytes_eqb (if_type i) (str "file")) eqn:E3; [|discriminate]. apply bytes_eqb_eq in E3.
      intros X. injection X as <- <-. split; [exact R|]. split; [apply incl_refl|exact E3].
  - destruct L as (AF & TY & done & IN & HL & SV). pose proof (can_byte_fast st r ev R) as K. rewrite B in K. destruct K as [K1 K2].
    split; [exact K1|]. split; [rewrite K2; apply incl_refl|]. split; [apply (all_fast_more tbl st); auto; rewrite K2; apply incl_refl|].
    split; [exact TY|]. exists (done ++ [ev]). rewrite <- app_assoc. split; [exact IN|]. pose proof (holds_step st r done ev HL) as HS. rewrite B in HS. split; [exact HS|].
    apply (survived_step tbl st r); auto. congruence.
  - destruct L as (AF & TY & done & IN & HL & SV). split; [exact R|]. split; [apply incl_refl|]. split; [exact AF|].
    split; [exact TY|]. exists (done ++ [ev]). rewrite <- app_assoc. split; [exact IN|]. pose proof (holds_step st' r done ev HL) as HS. rewrite B in HS. split; [exact HS|].
    apply (survived_step tbl st' r); auto. congruence.
  - destruct L as (AF & TY & done & IN & HL & SV). pose proof (can_byte_fast st r ev R) as K. rewrite B in K. destruct K as [K1 K2].
    destruct (claim_same st1 p m) as (p2 & EC). rewrite EC in IF. injection IF as <- <- _.
    split; [exact K1|]. split; [rewrite K2; apply incl_refl|]. split; [apply (all_fast_more tbl st); auto; rewrite K2; apply incl_refl|].
    split; [exact TY|]. exists (done ++ [ev]). rewrite <- app_assoc. split; [exact IN|]. pose proof (holds_step st r done ev HL) as HS. rewrite B in HS. split; [exact HS|].
    apply (survived_step tbl st r); auto. congruence.
  - destruct L as (TY & done & IN & AF & DE). split; [exact R|]. split; [apply incl_refl|]. split; [exact TY|]. exists (done ++ [ev]). rewrite <- app_assoc. split; [exact IN|].
    rewrite act_feed_app, act_msgs_app, AF. cbn [act_feed act_msgs]. rewrite B. split; [reflexivity|]. apply Forall_app. split; [exact DE|]. unfold decodes. repeat constructor; eauto.
  - destruct L as (TY & done & IN & AF & DE). split; [exact R|]. split; [apply incl_refl|]. split; [exact TY|]. exists (done ++ [ev]). rewrite <- app_assoc. split; [exact IN|].
    rewrite act_feed_app, act_msgs_app, AF. cbn [act_feed act_msgs]. rewrite B. split; [reflexivity|]. apply Forall_app. split; [exact DE|]. unfold decodes. repeat constructor; eauto.
  - destruct L as (TY & done & IN & AF & DE). split; [exact R|]. split; [apply incl_refl|]. split; [exact TY|]. exists (done ++ [ev]). rewrite <- app_assoc. split; [exact IN|].
    rewrite act_feed_app, act_msgs_app, AF. cbn [act_feed act_msgs]. rewrite B. split; [reflexivity|]. apply Forall_app. split; [exact DE|]. unfold decodes. repeat constructor; eauto.
  - split; [exact R|]. split; [apply incl_refl|exact L].
  - split; [exact R|]. split; [apply incl_refl|exact L].
Qed.

Lemma live_more i st st' s : live tbl pl i st s -> registry_ok st' -> incl (cs_fast st) (cs_fast st') -> live tbl pl i st' s.
Proof. intros L R I. destruct s; cbn [live] in *; auto. destruct L as (AF & L). split; [eapply all_fast_more; eauto|exact L]. Qed.

Lemma live_run ifs tr s : yrun ifs tr (YOk s) -> registry_ok (y_can s) /\
  forall i ifc t, nth_error ifs i = Some ifc -> nth_error (y_threads s) i = Some t -> live tbl pl ifc (y_can s) (th_src t).
Proof.
  intros R. remember (YOk s) as r eqn:Er. revert s Er. induction R as [|tr s0 l r R IH ST]; intros s Er.
  - injection Er as <-. split; [constructor|]. intros i ifc t H1 H2. cbn [sys_init y_threads] in H2.
    rewrite nth_error_map, H1 in H2. injection H2 as <-. reflexivity.
  - subst r. destruct (IH _ eq_refl) as (RG & TI).
    assert (forall k, nth_error (y_threads s0) k <> None -> nth_error ifs k <> None) as LEN.
    { clear - R. intros k. remember (YOk s0) as r eqn:Er. revert s0 Er. induction R as [|tr s1 l r R IH ST]; intros s Er.
      - injection Er as <-. cbn [sys_init y_threads]. rewrite nth_error_map. now destruct (nth_error ifs k).
      - subst r. specialize (IH _ eq_refl). inversion ST; subst; cbn [y_threads]; auto; intros X; apply IH;
          match goal with H : nth_error (y_threads s1) ?i = Some _ |- _ => rewrite (set_thread_nth _ _ _ _ k H) in X; destruct (Nat.eqb_spec k i) as [->|]; congruence end. }
    inversion ST as [? i t st' t' HT TS E1 E2 E3| |? i src m order c' es HT TD PM HD E1 E2 E3| | | | | | | |]; subst; try (split; [exact RG|exact TI]).
    + destruct (nth_error ifs i) as [ifc|] eqn:HI; [|exfalso; apply (LEN i); congruence].
      destruct (tstep_live _ _ _ _ _ RG (TI _ _ _ HI HT) TS) as (RG' & IN & L'). cbn [y_can y_threads].
      split; [exact RG'|]. intros k ifk tk H1 H2. rewrite (set_thread_nth _ _ _ _ k HT) in H2. destruct (Nat.eqb_spec k i) as [->|N].
      * injection H2 as <-. rewrite HI in H1. injection H1 as <-. exact L'.
      * eapply live_more; [eapply TI; eauto|exact RG'|exact IN].
    + cbn [y_can y_threads]. split; [exact RG|]. intros k ifk tk H1 H2. rewrite (set_thread_nth _ _ _ _ k HT) in H2. destruct (Nat.eqb_spec k i) as [->|N].
      * injection H2 as <-. apply (TI _ _ _ H1 HT).
      * eauto.
Qed.

(** C85: a canusb adapter's line that is cut, or too short for its fast packet header, always
    ends the program, whatever came before on this or any other interface: no execution gets past
    it. *)
Theorem C85_line_kills ifs i ifc pre l rest tr s : nth_error ifs i = Some ifc -> if_type ifc = str "canusb" ->
  input_of ifc = pre ++ evs_of l ++ RByte 13 :: rest -> good_line l -> cut_line l \/ headless tbl l ->
  yrun ifs tr (YOk s) -> ~ exhausted s i.
Proof.
  intros HI TY IN GL F R EX. unfold exhausted in EX. destruct (nth_error (y_threads s) i) as [[src out]|] eqn:HT; [|exact EX].
  destruct (live_run _ _ _ R) as [_ TI]. specialize (TI _ _ _ HI HT). cbn [th_src] in TI.
  destruct src as [j|p r [|]|r [|]|[|]]; try exact EX; cbn [live] in TI.
  - destruct TI as (_ & _ & done & E & _ & SV). rewrite app_nil_r in E. subst done. exact (SV pre l rest IN GL F).
  - destruct TI as (TI & _). rewrite TI in TY. discriminate TY.
  - rewrite TI in TY. discriminate TY.
Qed.

(** A message of the crash set on an NGT's line, or one that cannot be decoded, after any messages
    and noise, always ends it. *)
Lemma message_kills ifs i ifc items noise m rest tr s : nth_error ifs i = Some ifc -> if_type ifc = str "actisense" ->
  input_of ifc = act_stream items ++ evs_of noise ++ evs_of (on_line m) ++ rest ->
  Forall (fun it => Forall (fun b => b <> 16) (fst it)) items -> Forall (fun b => b <> 16) noise -> bytes_ok m ->
  crashes m \/ (exists r, delivers m r /\ ~ decodes tbl pl r) ->
  yrun ifs tr (YOk s) -> ~ exhausted s i.
Proof.
  intros HI TY IN FI FN BM CR R EX. unfold exhausted in EX. destruct (nth_error (y_threads s) i) as [[src out]|] eqn:HT; [|exact EX].
  destruct (live_run _ _ _ R) as [_ TI]. specialize (TI _ _ _ HI HT). cbn [th_src] in TI.
  destruct src as [j|p r [|]|r [|]|[|]]; try exact EX; cbn [live] in TI.
  - destruct TI as (_ & TI & _). rewrite TI in TY. discriminate TY.
  - destruct TI as (_ & done & E & AF & DE). rewrite app_nil_r in E. rewrite <- E, IN in AF, DE. clear E.
    rewrite act_feed_app in AF. rewrite act_msgs_app in DE. apply Forall_app in DE as [_ DE].
    destruct (feed_stream items act_rd0) as [X|(r1 & X & A1)]; [split; reflexivity|exact FI| |]; rewrite X in AF, DE; [discriminate AF|].
    rewrite act_feed_app in AF. rewrite act_msgs_app in DE. apply Forall_app in DE as [_ DE].
    destruct (feed_noise noise r1 A1 FN) as (r2 & X2 & A2). rewrite X2, act_feed_app in AF. rewrite X2, act_msgs_app in DE. apply Forall_app in DE as [DE _].
    destruct CR as [CR|(x & DM & ND)].
    + pose proof (feed_on_line m r2 A2) as K. apply crashes_cases in CR as (w & CR); [|exact BM]. rewrite CR in K. rewrite K in AF. discriminate AF.
    + apply delivers_cases in DM; [|exact BM]. apply ND. rewrite Forall_forall in DE. apply DE. now apply msgs_on_line.
  - rewrite TI in TY. discriminate TY.
Qed.
End Kill.

(** C85: a message of the crash set of C25 on an NGT's line, or one that is fatal (C43), always ends
    the program, whatever came before on this or any other interface.  (An address claim, PGN
    60928, does so depending on the memory behind it.) *)
Theorem C85_message_kills maps opts pl fmtv unmarshal marshal verbose ifs i ifc items noise m rest tr s :
  nth_error ifs i = Some ifc -> if_type ifc = str "actisense" ->
  input_of ifc = act_stream items ++ evs_of noise ++ evs_of (on_line m) ++ rest ->
  Forall (fun it => Forall (fun b => b <> 16) (fst it)) items -> Forall (fun b => b <> 16) noise -> bytes_ok m ->
  crashes m \/ (exists r, delivers m r /\ rm_pgn r <> 60928 /\ fatal (rm_data r) 0 (rm_pgn r)) ->
  yrun PgnList maps opts pl fmtv unmarshal marshal verbose ifs tr (YOk s) -> ~ exhausted s i.
Proof.
  intros HI TY IN FI FN BM CR. eapply message_kills; eauto. destruct CR as [CR|(r & DE & NC & FA)]; [now left|]. right. exists r. split; [exact DE|].
  intros (fuel & spare & x & D). pose proof (delivered_bytes m r BM DE) as BO.
  assert (fatal (rm_data r) (zlen spare) (rm_pgn r)) as FB by (destruct FA; [now elim NC|eapply fatal_sonichub; eauto|now apply fatal_sonichub_fm|eapply fatal_fusion; eauto|eapply fatal_ais_24; eauto|now apply fatal_serial|now apply fatal_info]).
  apply (C43_exact pl r spare BO) in FB as (fuel' & p & E). pose proof (C40_result_unique _ _ _ _ _ _ _ _ D E). congruence.
Qed.
