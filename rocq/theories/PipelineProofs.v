(** PipelineProofs: the byte-by-byte readers compute the Reads of the packages; the invariant of
    the running program. *)
From Coq Require Import Permutation.
From Verif Require Import GoBase BufFacts CanModel CanusbModel ActisenseModel NmeaTypes NmeaModel
  SignalkModel MainModel HubModel PipelineModel PipelineSpec.
Open Scope list_scope.

(* ------------------------------------------------------------ CanPort.Read byte by byte *)

Definition can_go (p : can_port) (r : can_rd) (st : can_state) (evs : list rd_event) : read_result :=
  read_loop evs (cr_rx r) (cr_msg r) (cr_sof r) st.
Lemma can_go_cons p r st ev evs :
  can_go p r st (ev :: evs) =
  match can_byte st r ev with
  | CMore r' st' => can_go p r' st' evs
  | CMsg m st' => RdMsg m evs st'
  | CErr => RdErr evs st
  | CPanic => RdPanic (fst (frameReceived st (cr_msg r)))
  end.
Proof.
  unfold can_go, can_byte. cbn [read_loop]. destruct ev as [x| |]; cbn [cr_rx cr_msg cr_sof]; [| |reflexivity].
  - destruct (is_sof x); [reflexivity|]. destruct ((x =? 13) && cr_sof r).
    + destruct (frameReceived st (cr_msg r)) as [st' [f|e|e]]; reflexivity.
    + destruct (cr_sof r) eqn:S; reflexivity.
  - destruct (is_sof (cr_rx r)); [reflexivity|]. destruct ((cr_rx r =? 13) && cr_sof r).
    + destruct (frameReceived st (cr_msg r)) as [st' [f|e|e]]; reflexivity.
    + destruct (cr_sof r) eqn:S; reflexivity.
Qed.
Lemma can_go_read p st evs : cp_open p = true -> Read p st evs = can_go p can_rd0 st evs.
Proof. intros O. unfold Read, can_go. now rewrite O. Qed.

Lemma can_go_consumes p : forall evs r st,
  match can_go p r st evs with
  | RdMsg _ rest _ | RdErr rest _ => (List.length rest < List.length evs)%nat
  | _ => True
  end.
Proof.
  induction evs as [|ev evs IH]; intros r st; [exact I|]. rewrite can_go_cons.
  destruct (can_byte st r ev) as [r' st'|m st'| |]; cbn [List.length]; try lia.
  specialize (IH r' st'). destruct (can_go p r' st' evs); auto.
Qed.

Lemma write_open p b p' b' r : Write p b = (p', b', r) -> cp_open p' = cp_open p.
Proof.
  unfold Write. repeat (match goal with |- context [match ?x with _ => _ end] => destruct x end; cbn [fst snd]);
    intros H; injection H as <- _ _; reflexivity.
Qed.
Lemma claim_open st p a st' p' r : AddressClaim st p a = (st', p', r) -> cp_open p' = cp_open p.
Proof.
  unfold AddressClaim, Send. cbv zeta. cbn [rm_data rm_length].
  match goal with |- context [if ?x then _ else _] => change x with true end. cbn iota.
  match goal with |- context [if ?x then _ else _] => change x with false end. cbn iota.
  destruct (Write _ _) as [[q b'] rr] eqn:E. apply write_open in E. cbn [cp_open] in E.
  destruct rr; intros H; injection H as _ <- _; exact E.
Qed.
Lemma iface_open st p m st' p' r : iface_on_message st p m = (st', p', r) -> cp_open p' = cp_open p.
Proof.
  unfold iface_on_message. destruct (_ && _); [|intros H; injection H as _ <- _; reflexivity].
  destruct (AddressClaim st p _) as [[st1 p1] [a|e|w]] eqn:E; intros H; injection H as _ <- _; eapply claim_open; exact E.
Qed.

(** What is still to come from a running canusb interface. *)
Definition can_from (n : nat) (p : can_port) (r : can_rd) (st : can_state) (evs : list rd_event) : list raw_message :=
  match can_go p r st evs with
  | RdMsg m rest st' =>
      match iface_on_message st' p m with
      | (st'', p', Ret _) => m :: can_messages n p' st'' rest
      | _ => []
      end
  | RdErr rest st' => can_messages n p st' rest
  | _ => []
  end.
Lemma can_messages_S n p st evs : cp_open p = true -> can_messages (S n) p st evs = can_from n p can_rd0 st evs.
Proof. intros O. cbn [can_messages]. unfold can_from. rewrite can_go_read by exact O. reflexivity. Qed.
Lemma can_messages_fuel : forall n k p st evs, cp_open p = true ->
  (List.length evs < n)%nat -> (List.length evs < k)%nat -> can_messages n p st evs = can_messages k p st evs.
Proof.
  induction n as [|n IH]; intros [|k] p st evs O L1 L2; try lia.
  rewrite !can_messages_S by exact O. unfold can_from. pose proof (can_go_consumes p evs can_rd0 st) as C.
  destruct (can_go p can_rd0 st evs) as [m rest st'|rest st'|st'|st']; [| |reflexivity|reflexivity].
  - destruct (iface_on_message st' p m) as [[st'' p'] [a|e|w]] eqn:E; [|reflexivity|reflexivity].
    f_equal. apply IH; [rewrite (iface_open _ _ _ _ _ _ E); exact O|lia|lia].
  - apply IH; [exact O|lia|lia].
Qed.
Lemma can_from_fuel n k p r st evs : cp_open p = true ->
  (List.length evs <= n)%nat -> (List.length evs <= k)%nat -> can_from n p r st evs = can_from k p r st evs.
Proof.
  intros O L1 L2. unfold can_from. pose proof (can_go_consumes p evs r st) as C.
  destruct (can_go p r st evs) as [m rest st'|rest st'|st'|st']; [| |reflexivity|reflexivity].
  - destruct (iface_on_message st' p m) as [[st'' p'] [a|e|w]] eqn:E; [|reflexivity|reflexivity].
    f_equal. apply can_messages_fuel; [rewrite (iface_open _ _ _ _ _ _ E); exact O|lia|lia].
  - apply can_messages_fuel; [exact O|lia|lia].
Qed.

(** One more byte. *)
Lemma can_from_step p r st ev evs : cp_open p = true ->
  can_from (S (List.length evs)) p r st (ev :: evs) =
  match can_byte st r ev with
  | CMore r' st' => can_from (List.length evs) p r' st' evs
  | CErr => can_from (List.length evs) p can_rd0 st evs
  | CMsg m st' => match iface_on_message st' p m with
                  | (st'', p', Ret _) => m :: can_from (List.length evs) p' can_rd0 st'' evs
                  | _ => []
                  end
  | CPanic => []
  end.
Proof.
  intros O. unfold can_from at 1. rewrite can_go_cons. destruct (can_byte st r ev) as [r' st'|m st'| |].
  - fold (can_from (S (List.length evs)) p r' st' evs). apply can_from_fuel; [exact O|lia|lia].
  - destruct (iface_on_message st' p m) as [[st'' p'] [a|e|w]] eqn:E; [|reflexivity|reflexivity].
    rewrite can_messages_S; [reflexivity|]. rewrite (iface_open _ _ _ _ _ _ E); exact O.
  - now apply can_messages_S.
  - reflexivity.
Qed.

(* ------------------------------------------------------------ ActisensePort.Read byte by byte *)

Definition act_go (r : act_rd) (evs : list rd_event) : act_result := act_loop evs (ar_rx r) (ar_st r) (ar_buf r).
Lemma act_go_cons r ev evs :
  act_go r (ev :: evs) =
  match act_byte r ev with
  | AMore r' => act_go r' evs
  | AMsg m => ARMsg m evs
  | AErr => ARErr evs
  | APanic => ARPanic evs
  end.
Proof.
  unfold act_go, act_byte. cbn [act_loop]. destruct ev as [x| |]; [| |reflexivity].
  - destruct (deframe _ _ _) as [[st' buf'] [m|]]; [|reflexivity]. destruct (messageReceived m); reflexivity.
  - destruct (deframe _ _ _) as [[st' buf'] [m|]]; [|reflexivity]. destruct (messageReceived m); reflexivity.
Qed.
Lemma act_go_consumes : forall evs r,
  match act_go r evs with
  | ARMsg _ rest | ARErr rest => (List.length rest < List.length evs)%nat
  | _ => True
  end.
Proof.
  induction evs as [|ev evs IH]; intros r; [exact I|]. rewrite act_go_cons.
  destruct (act_byte r ev) as [r'|m| |]; cbn [List.length]; try lia.
  specialize (IH r'). destruct (act_go r' evs); auto.
Qed.
Definition act_from (n : nat) (r : act_rd) (evs : list rd_event) : list raw_message :=
  match act_go r evs with
  | ARMsg m rest => m :: act_messages n rest
  | ARErr rest => act_messages n rest
  | _ => []
  end.
Lemma act_messages_S n evs : act_messages (S n) evs = act_from n act_rd0 evs.
Proof. reflexivity. Qed.
Lemma act_messages_fuel : forall n k evs,
  (List.length evs < n)%nat -> (List.length evs < k)%nat -> act_messages n evs = act_messages k evs.
Proof.
  induction n as [|n IH]; intros [|k] evs L1 L2; try lia.
  rewrite !act_messages_S. unfold act_from. pose proof (act_go_consumes evs act_rd0) as C.
  destruct (act_go act_rd0 evs) as [m rest|rest|rest|]; [| |reflexivity|reflexivity].
  - f_equal. apply IH; lia.
  - apply IH; lia.
Qed.
Lemma act_from_fuel n k r evs :
  (List.length evs <= n)%nat -> (List.length evs <= k)%nat -> act_from n r evs = act_from k r evs.
Proof.
  intros L1 L2. unfold act_from. pose proof (act_go_consumes evs r) as C.
  destruct (act_go r evs) as [m rest|rest|rest|]; [| |reflexivity|reflexivity]; [f_equal|]; apply act_messages_fuel; lia.
Qed.
Lemma act_from_step r ev evs :
  act_from (S (List.length evs)) r (ev :: evs) =
  match act_byte r ev with
  | AMore r' => act_from (List.length evs) r' evs
  | AErr => act_from (List.length evs) act_rd0 evs
  | AMsg m => m :: act_from (List.length evs) act_rd0 evs
  | APanic => []
  end.
Proof.
  unfold act_from at 1. rewrite act_go_cons. destruct (act_byte r ev) as [r'|m| |].
  - fold (act_from (S (List.length evs)) r' evs). apply act_from_fuel; lia.
  - now rewrite act_messages_S.
  - now apply act_messages_S.
  - reflexivity.
Qed.

(* ------------------------------------------------------------ the running program *)

Lemma set_thread_nth l i t t' k : nth_error l i = Some t ->
  nth_error (set_thread l i t') k = if Nat.eqb k i then Some t' else nth_error l k.
Proof.
  intros H. unfold set_thread.
  assert (i < List.length l)%nat as L by (apply nth_error_Some; congruence).
  assert (List.length (firstn i l) = i) as LF by (rewrite firstn_length; lia).
  destruct (Nat.eqb_spec k i) as [->|N].
  - rewrite nth_error_app2 by lia. now rewrite LF, Nat.sub_diag.
  - destruct (Nat.lt_ge_cases k i) as [A|A].
    + rewrite nth_error_app1 by lia.
      rewrite <- (firstn_skipn i l) at 2. now rewrite nth_error_app1 by lia.
    + rewrite nth_error_app2 by lia. rewrite LF. destruct (k - i)%nat as [|d] eqn:E; [lia|]. cbn [nth_error].
      rewrite <- (firstn_skipn (S i) l) at 2. rewrite nth_error_app2; rewrite firstn_length; [|lia].
      f_equal. lia.
Qed.
Lemma set_thread_length l i t t' : nth_error l i = Some t -> List.length (set_thread l i t') = List.length l.
Proof.
  intros H. assert (i < List.length l)%nat as L by (apply nth_error_Some; congruence).
  unfold set_thread. rewrite app_length, firstn_length. cbn [List.length]. rewrite skipn_length. lia.
Qed.

Lemma handled_from_snoc i tr l :
  handled_from i (tr ++ [l]) = handled_from i tr ++ match l with YHand j m _ => if Nat.eqb j i then [m] else [] | _ => [] end.
Proof. unfold handled_from. rewrite flat_map_app. cbn [flat_map]. now rewrite app_nil_r. Qed.
Lemma handled_snoc tr l :
  handled (tr ++ [l]) = handled tr ++ match l with YHand i m od => [(i, m, od)] | _ => [] end.
Proof. unfold handled. rewrite flat_map_app. cbn [flat_map]. now rewrite app_nil_r. Qed.

Section Inv.
Variables (tbl : list pgn_def) (maps : mappings) (opts : options) (pl : platform)
          (fmtv : gval -> bytes) (unmarshal : bytes -> option canboat)
          (marshal : Z -> delta -> option bytes) (verbose : bool).
Notation yrun := (yrun tbl maps opts pl fmtv unmarshal marshal verbose).
Notation ystep := (ystep tbl maps opts pl fmtv unmarshal marshal verbose).
Notation tstep := (tstep tbl pl unmarshal).
Notation items := (items tbl unmarshal).
Notation decodes := (decodes tbl pl unmarshal).
Notation usable := (usable tbl unmarshal).

Definition to_come (st : can_state) (s : source) : list item :=
  match s with
  | SBoot i => items i
  | SCan p r input => map IRaw (can_from (List.length input) p r st input)
  | SAct r input => map IRaw (act_from (List.length input) r input)
  | SFile lines => map ILine (filter usable lines)
  end.
Definition src_ok (i : iface) (s : source) : Prop :=
  match s with
  | SBoot j => j = i
  | SCan p _ _ => cp_open p = true /\ is_canusb i = true
  | SAct _ _ | SFile _ => is_canusb i = false
  end.
Definition outs (t : thread) : list parsed := match th_out t with Some x => [x] | None => [] end.

(** Invariant of one interface: done so far, and what is to come. *)
Definition thread_inv (st : can_state) (i : iface) (t : thread) (sent : list parsed) : Prop :=
  src_ok i (th_src t) /\ (match th_src t with SBoot _ => st = can_init \/ is_canusb i = false | _ => True end) /\
  exists done, items i = done ++ to_come st (th_src t) /\ Forall2 decodes done (sent ++ outs t).

Lemma open_ok st w a st' w' p : OpenChannel st w a = (st', w', Ret p) -> cp_open p = true.
Proof.
  unfold OpenChannel. destruct (w_write w _) as [w1 [? [|]]]; [|discriminate].
  destruct (w_write w1 _) as [w2 [? [|]]]; [|discriminate].
  destruct (AddressClaim _ _ _) as [[s q] [x|e|e]]; try discriminate. intros H. injection H as _ _ <-. reflexivity.
Qed.

Lemma boot_items st i st' t' : st = can_init \/ is_canusb i = false -> boot tbl st i = TOk st' t' ->
  th_out t' = None /\ src_ok i (th_src t') /\ items i = to_come st' (th_src t') /\ (is_canusb i = false -> st' = st) /\
  (forall j, th_src t' <> SBoot j).
Proof.
  intros C. unfold boot, PipelineSpec.items, is_canusb in *.
  destruct (if_dev i) as [|[|] w input|]; try discriminate.
  - destruct (bytes_eqb (if_type i) (str "canusb")) eqn:E1.
    + destruct C as [->|C]; [|discriminate].
      destruct (OpenChannel _ w 221) as [[st1 w1] [p|e|e]] eqn:EO; try discriminate.
      intros H. injection H as <- <-. cbn. unfold is_canusb. pose proof (open_ok _ _ _ _ _ _ EO) as O.
      repeat split; try congruence; try assumption.
      now rewrite <- can_messages_S by exact O.
    + destruct (bytes_eqb (if_type i) (str "actisense")) eqn:E2.
      * destruct (act_OpenChannel w) as [w1 [p|e|e]]; try discriminate.
        destruct (GetOperatingMode p) as [q [x|e|e]]; try discriminate;
          intros H; injection H as <- <-; cbn; unfold is_canusb; repeat split; congruence.
      * destruct (bytes_eqb (if_type i) (str "file")); [|discriminate].
        intros H. injection H as <- <-. cbn. unfold is_canusb. repeat split; congruence.
  - destruct (bytes_eqb (if_type i) (str "canusb")) eqn:E1; [discriminate|].
    destruct (bytes_eqb (if_type i) (str "actisense")) eqn:E2; [discriminate|].
    destruct (bytes_eqb (if_type i) (str "file")); [|discriminate].
    intros H. injection H as <- <-. cbn. unfold is_canusb. repeat split; congruence.
Qed.

Lemma tstep_inv st i t sent st' t' : thread_inv st i t sent -> tstep st t (TOk st' t') ->
  thread_inv st' i t' sent /\ (is_canusb i = false -> st' = st) /\ th_out t = None.
Proof.
  intros (SO & CI & done & EI & F2) H. unfold outs in F2.
  inversion H as [? j ES ET E|? p r ev rest r' ? B ES ET E|? p r ev rest B ES ET E| |
     ? p r ev rest m st1 st2 p' a fuel spare x B IF PP ES ET E| |
     ? r ev rest r' B ES ET E|? r ev rest B ES ET E| |? r ev rest m fuel spare x B PP ES ET E| |
     ? l rest x FC ES ET E|? l rest e FC ES ET E|]; subst; cbn [th_src th_out] in *.
  - cbn [src_ok] in SO. subst j. destruct (boot_items _ _ _ _ CI E) as (O1 & O2 & O3 & O4 & O5).
    rewrite app_nil_r in F2. unfold thread_inv, outs. rewrite O1, app_nil_r. split; [|split; [exact O4|reflexivity]].
    split; [exact O2|]. split; [destruct (th_src t'); auto; now destruct (O5 i0)|].
    exists done. cbn [to_come] in EI. rewrite <- O3. auto.
  - destruct SO as [O IC]. split; [|split; [congruence|reflexivity]]. split; [split; assumption|]. split; [exact I|].
    exists done. split; [|exact F2]. rewrite EI. cbn [to_come List.length]. rewrite can_from_step by exact O. now rewrite B.
  - destruct SO as [O IC]. split; [|split; [congruence|reflexivity]]. split; [split; assumption|]. split; [exact I|].
    exists done. split; [|exact F2]. rewrite EI. cbn [to_come List.length]. rewrite can_from_step by exact O. now rewrite B.
  - destruct SO as [O IC]. split; [|split; [congruence|reflexivity]].
    split; [split; [rewrite (iface_open _ _ _ _ _ _ IF)|]; assumption|]. split; [exact I|].
    exists (done ++ [IRaw m]). split.
    + rewrite EI. cbn [to_come List.length]. rewrite can_from_step by exact O. rewrite B, IF. cbn [map].
      now rewrite <- app_assoc.
    + rewrite app_nil_r in F2. unfold outs. cbn [th_out]. apply Forall2_app; [exact F2|]. constructor; [|constructor].
      cbn. eauto.
  - split; [|split; reflexivity]. split; [exact SO|]. split; [exact I|]. exists done. split; [|exact F2].
    rewrite EI. cbn [to_come List.length]. now rewrite act_from_step, B.
  - split; [|split; reflexivity]. split; [exact SO|]. split; [exact I|]. exists done. split; [|exact F2].
    rewrite EI. cbn [to_come List.length]. now rewrite act_from_step, B.
  - split; [|split; reflexivity]. split; [exact SO|]. split; [exact I|]. exists (done ++ [IRaw m]). split.
    + rewrite EI. cbn [to_come List.length]. rewrite act_from_step, B. cbn [map]. now rewrite <- app_assoc.
    + rewrite app_nil_r in F2. unfold outs. cbn [th_out]. apply Forall2_app; [exact F2|]. constructor; [|constructor].
      cbn. eauto.
  - split; [|split; reflexivity]. split; [exact SO|]. split; [exact I|]. exists (done ++ [ILine l]). split.
    + rewrite EI. cbn [to_come filter]. unfold PipelineSpec.usable at 1. rewrite FC. cbn [map]. now rewrite <- app_assoc.
    + rewrite app_nil_r in F2. unfold outs. cbn [th_out]. apply Forall2_app; [exact F2|]. constructor; [|constructor].
      exact FC.
  - split; [|split; reflexivity]. split; [exact SO|]. split; [exact I|]. exists done. split; [|exact F2].
    rewrite EI. cbn [to_come filter]. unfold PipelineSpec.usable at 1. now rewrite FC.
Qed.

(** An invariant does not depend on the canusb variables unless the interface is a canusb one. *)
Lemma thread_inv_can st st' i t sent : is_canusb i = false -> thread_inv st i t sent -> thread_inv st' i t sent.
Proof.
  intros N (SO & CI & done & EI & F2). split; [exact SO|]. split; [destruct (th_src t); auto|].
  exists done. split; [|exact F2]. rewrite EI. destruct (th_src t); try reflexivity. destruct SO. congruence.
Qed.

Lemma one_canusb_other ifs i j a b : one_canusb ifs -> nth_error ifs i = Some a -> nth_error ifs j = Some b ->
  i <> j -> is_canusb a = true -> is_canusb b = false.
Proof.
  unfold one_canusb. revert i j. induction ifs as [|x ifs IH]; intros i j L HA HB N CA; [destruct i; discriminate HA|].
  destruct (is_canusb b) eqn:CB; [|reflexivity]. exfalso. cbn [filter] in L.
  assert (forall k c, nth_error ifs k = Some c -> is_canusb c = true -> (1 <= List.length (filter is_canusb ifs))%nat) as K.
  { intros k c Hk Hc. assert (In c (filter is_canusb ifs)) as I by (apply filter_In; split; [eapply nth_error_In; exact Hk|exact Hc]).
    destruct (filter is_canusb ifs); [destruct I|cbn; lia]. }
  destruct i as [|i], j as [|j]; cbn [nth_error] in HA, HB.
  - congruence.
  - injection HA as ->. rewrite CA in L. cbn [List.length] in L. specialize (K _ _ HB CB). lia.
  - injection HB as ->. rewrite CB in L. cbn [List.length] in L. specialize (K _ _ HA CA). lia.
  - destruct (is_canusb x); cbn [List.length] in L.
    + specialize (K _ _ HA CA). lia.
    + assert (true = false) by (eapply (IH i j); eauto). congruence.
Qed.

Definition sys_inv (ifs : list iface) (tr : list ylabel) (s : sys) : Prop :=
  List.length (y_threads s) = List.length ifs /\
  forall i ifc t, nth_error ifs i = Some ifc -> nth_error (y_threads s) i = Some t ->
    thread_inv (y_can s) ifc t (handled_from i tr).

Lemma sys_inv_init ifs : sys_inv ifs [] (sys_init ifs).
Proof.
  unfold sys_inv, sys_init. cbn [y_threads y_can]. rewrite map_length. split; [reflexivity|].
  intros i ifc t H1 H2. rewrite nth_error_map, H1 in H2. injection H2 as <-. split; [reflexivity|].
  split; [now left|]. exists []. split; [reflexivity|]. constructor.
Qed.

Lemma sys_inv_run ifs tr s : one_canusb ifs -> yrun ifs tr (YOk s) -> sys_inv ifs tr s.
Proof.
  intros OC R. remember (YOk s) as r eqn:Er. revert s Er.
  induction R as [|tr s0 l r R IH ST]; intros s Er.
  - injection Er as <-. apply sys_inv_init.
  - subst r. destruct (IH _ eq_refl) as [LEN INV].
    assert (forall c es w1 w2, (forall i m od, l <> YHand i m od) ->
      sys_inv ifs (tr ++ [l]) (mksys (y_can s0) (y_threads s0) c es w1 w2)) as SAME.
    { intros c es w1 w2 NH. split; [exact LEN|]. cbn [y_threads y_can]. intros i ifc t A B.
      rewrite handled_from_snoc. replace (match l with YHand j m _ => if Nat.eqb j i then [m] else [] | _ => [] end) with (@nil parsed).
      - rewrite app_nil_r. now apply INV.
      - destruct l; try reflexivity. now destruct (NH i0 m order). }
    inversion ST as [? i t st' t' HT TS E1 E2| |? i src m order c' es HT TD PM HD E1 E2| |? b es w TD HB E1 E2|? b es w TD HB E1 E2
      |? e es TD N1 N2 E1 E2|? hl w N1 N2 HS E1 E2| |? hl w N1 N2 HS E1 E2|]; subst; try (apply SAME; congruence).
    + split; [cbn [y_threads]; now rewrite (set_thread_length _ _ _ _ HT)|].
      cbn [y_threads y_can]. intros k ifc tk A B. rewrite handled_from_snoc, app_nil_r.
      assert (exists a, nth_error ifs i = Some a) as [a HA].
      { destruct (nth_error ifs i) eqn:X; [eauto|]. apply nth_error_None in X.
        assert (i < List.length (y_threads s0))%nat by (apply nth_error_Some; congruence). lia. }
      pose proof (tstep_inv _ _ _ _ _ _ (INV _ _ _ HA HT) TS) as (TI & SC & _).
      rewrite (set_thread_nth _ _ _ _ k HT) in B. destruct (Nat.eqb_spec k i) as [->|N].
      * injection B as <-. rewrite HA in A. injection A as <-. exact TI.
      * pose proof (INV _ _ _ A B) as IK. destruct (is_canusb a) eqn:CA.
        -- apply (thread_inv_can (y_can s0)); [|exact IK]. eapply (one_canusb_other ifs i k); eauto.
        -- now rewrite (SC eq_refl).
    + split; [cbn [y_threads]; now rewrite (set_thread_length _ _ _ _ HT)|].
      cbn [y_threads y_can]. intros k ifc tk A B. rewrite handled_from_snoc.
      rewrite (set_thread_nth _ _ _ _ k HT) in B. destruct (Nat.eqb_spec k i) as [->|N].
      * injection B as <-. rewrite Nat.eqb_refl. destruct (INV _ _ _ A HT) as (SO & CI & done & EI & F2).
        split; [exact SO|]. split; [exact CI|]. exists done. split; [exact EI|].
        unfold outs in *. cbn [th_out] in *. now rewrite app_nil_r.
      * destruct (Nat.eqb_spec i k); [congruence|]. rewrite app_nil_r. now apply INV.
Qed.
End Inv.
