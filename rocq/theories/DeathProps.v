(** DeathProps: what ends the running program (C85). *)
From Coq Require Import Permutation.
From Verif Require Import GoBase BufFacts CanModel CanusbModel CanusbSpec CanusbRegistry CanusbParse CanusbFast CanusbRead CanusbProps
  ActisenseModel ActisenseSpec ActisenseProofs ActisenseProps NmeaTypes PgnTable NmeaModel NmeaProps1 NmeaParse NmeaProps2 NmeaProps3 CrashSpec NmeaProps4
  SignalkModel MapTable SignalkProps MainModel MainProps HubModel HubProps PipelineModel PipelineSpec PipelineProofs PipelineProps PipelineBoot LogProps DeathSpec.
Open Scope Z_scope.
Open Scope list_scope.

(* ------------------------------------------------------------ bytes seen *)

Definition seen_byte (last : byte) (evs : list rd_event) (ev : rd_event) : byte :=
  match ev with RByte b => b | _ => List.last (noticed last evs) last end.
Lemma noticed_snoc evs : forall last ev, noticed last (evs ++ [ev]) = noticed last evs ++ [seen_byte last evs ev].
Proof.
  induction evs as [|e evs IH]; intros last ev; [destruct ev; reflexivity|].
  assert (forall x, List.last (x :: noticed x evs) last = List.last (noticed x evs) x) as L.
  { intros x. destruct (noticed x evs) as [|y l] eqn:E; [reflexivity|]. change (List.last (y :: l) last = List.last (y :: l) x).
    clear E. revert y. induction l as [|z l IHl]; intros y; [reflexivity|]. change (List.last (z :: l) last = List.last (z :: l) x). apply IHl. }
  destruct e as [b| |]; cbn [app noticed]; rewrite IH; cbn [app]; do 2 f_equal; unfold seen_byte; destruct ev; cbn [noticed]; rewrite ?L; reflexivity.
Qed.
Lemma noticed_bytes evs : forall last, is_byte last -> (forall b, In (RByte b) evs -> is_byte b) -> bytes_ok (noticed last evs).
Proof.
  induction evs as [|e evs IH]; intros last L H; [constructor|].
  destruct e as [b| |]; cbn [noticed]; (constructor; [|apply IH]); auto; try (apply H; now left); intros x I; apply H; now right.
Qed.
Lemma content_bytes raw m : content raw m -> bytes_ok raw -> bytes_ok m.
Proof.
  unfold bytes_ok. induction 1; intros B; [constructor| | |]; rewrite ?Forall_app in *.
  - tauto.
  - split; [tauto|]. constructor; [unfold is_byte; lia|constructor].
  - tauto.
Qed.

(* ------------------------------------------------------------ the canusb variables *)

Definition can_inv (tbl : list pgn_def) (st : can_state) : Prop :=
  registry_ok st /\ (forall p, In p (cs_fast st) -> fast_pgn tbl p) /\
  forall u p, cs_partial st u = Some p -> bytes_ok (rm_data (cf_raw p)) /\
    exists g, frame_ok g /\ rm_pgn (cf_raw g) = rm_pgn (cf_raw p) /\ uidf g = u.

Lemma can_inv_init tbl : can_inv tbl can_init.
Proof. split; [constructor|]. split; [intros p []|]. discriminate. Qed.
Lemma can_inv_register tbl st : can_inv tbl st -> can_inv tbl (register_fast tbl st).
Proof.
  unfold register_fast. assert (forall l, incl l tbl -> can_inv tbl st -> can_inv tbl (fold_left (fun st p => if 8 <? p_size p then AddFastPacket st (p_pgn p) else st) l st)) as K; [|apply K, incl_refl].
  intros l. revert st. induction l as [|p l IH]; intros st I C; [exact C|]. cbn [fold_left].
  apply IH; [intros x X; apply I; now right|]. destruct (Z.ltb_spec 8 (p_size p)) as [S|S]; [|exact C].
  destruct C as (R & F & P). split; [|split].
  - unfold registry_ok in *. cbn [AddFastPacket cs_fast]. now apply add_fast_sorted.
  - intros x X. cbn [AddFastPacket cs_fast] in X. apply add_fast_In in X as [->|X]; [|auto].
    exists p. split; [apply I; now left|]. auto.
  - exact P.
Qed.

(** A frame leaves the invariant; the message it delivers has its PGN and holds bytes. *)
Lemma can_inv_step tbl st f st' o : can_inv tbl st -> frame_ok f -> frame_step st f = (st', o) ->
  (forall w, o <> Panic w) -> can_inv tbl st' /\ (forall g, o = Ret g -> (rm_pgn (cf_raw g) = rm_pgn (cf_raw f) /\ bytes_ok (rm_data (cf_raw g))) /\ (fast_pgn tbl (rm_pgn (cf_raw f)) \/ rm_data (cf_raw g) = rm_data (cf_raw f))).
Proof.
  intros (R & F & P) OK E NP. destruct (step_frame _ _ _ _ R E) as (S1 & _ & S3).
  assert (registry_ok st') as R' by (eapply step_registry; eauto).
  assert (forall p, In p (cs_fast st') -> fast_pgn tbl p) as F' by (rewrite S1; exact F).
  assert (bytes_ok (rm_data (cf_raw f))) as B by apply OK.
  assert ((forall p, cs_partial st' (uidf f) = Some p -> bytes_ok (rm_data (cf_raw p)) /\ rm_pgn (cf_raw p) = rm_pgn (cf_raw f)) -> can_inv tbl st') as K.
  { intros H. split; [exact R'|]. split; [exact F'|]. intros u p Hu. destruct (Z.eq_dec u (uidf f)) as [->|N].
    - destruct (H p Hu) as [H1 H2]. split; [exact H1|]. exists f. auto.
    - rewrite S3 in Hu by exact N. auto. }
  assert (forall p, cs_partial st (uidf f) = Some p -> bytes_ok (rm_data (cf_raw p)) /\ rm_pgn (cf_raw p) = rm_pgn (cf_raw f)) as Q.
  { intros p Hp. destruct (P _ _ Hp) as (P1 & g & G1 & G2 & G3). split; [exact P1|]. apply (proj1 (uidf_same _ _ G1 OK)) in G3 as (_ & G3 & _). congruence. }
  destruct (fast_dec st f) as [Hf|Hf].
  2:{ rewrite step_single in E by assumption. injection E as <- <-. split; [apply K, Q|]. intros g X. injection X as <-. auto. }
  enough (can_inv tbl st' /\ (forall g, o = Ret g -> rm_pgn (cf_raw g) = rm_pgn (cf_raw f) /\ bytes_ok (rm_data (cf_raw g)))) as [W1 W2]
    by (split; [exact W1|]; intros g X; split; [now apply W2|left; now apply F]).
  destruct (rm_data (cf_raw f)) as [|h r] eqn:D.
  { rewrite step_empty in E by assumption. injection E as <- <-. now destruct (NP "index out of range"%string). }
  apply bytes_cons_inv in B as [Bh Br].
  destruct (Z.eq_dec (hdr_seq h) 0) as [S|S].
  - destruct r as [|L d].
    + rewrite (step_first_short st f R h) in E by assumption. injection E as <- <-. now destruct (NP "index out of range"%string).
    + apply bytes_cons_inv in Br as [BL Bd].
      rewrite (step_first st f R h L d) in E by assumption.
      destruct (L <=? zlen d); injection E as <- <-; (split; [apply K; intros p Hp; cbn [cs_partial] in Hp; rewrite ?zput_same, ?zdel_same in Hp; try discriminate Hp; try (injection Hp as <-; cbn; auto)|]);
        intros g X; try discriminate X; injection X as <-; cbn; auto.
  - rewrite (step_cont st f R h r) in E by assumption.
    destruct (cs_partial st (uidf f)) as [p|] eqn:CP.
    2:{ injection E as <- <-. split; [apply K; rewrite CP; discriminate|]. intros g X. injection X as <-. cbn. rewrite D. split; [reflexivity|]. now constructor. }
    destruct (Q p eq_refl) as [Q1 Q2].
    destruct (_ =? _).
    2:{ injection E as <- <-. split; [apply K; rewrite CP; exact Q|]. intros g X. injection X as <-. cbn. rewrite D. split; [reflexivity|]. now constructor. }
    cbv zeta in E.
    assert (bytes_ok (rm_data (cf_raw p) ++ r)) as BB by (apply Forall_app; split; assumption).
    destruct (_ <=? _); injection E as <- <-; (split; [apply K; intros q Hq; cbn [cs_partial] in Hq; rewrite ?zput_same, ?zdel_same in Hq; try discriminate Hq; try (injection Hq as <-; cbn; auto)|]);
        intros g X; try discriminate X; injection X as <-; cbn; auto.
Qed.

Lemma sof_starts b : is_sof b = true <-> starts b.
Proof.
  unfold is_sof, starts. split.
  - intros H. apply orb_true_iff in H as [H|H]; [apply orb_true_iff in H as [H|H]; [apply orb_true_iff in H as [H|H]|]|]; apply Z.eqb_eq in H; subst;
      [exists CAN_STD|exists CAN_EXT|exists CAN_STD_RTR|exists CAN_EXT_RTR]; reflexivity.
  - intros [[] ->]; reflexivity.
Qed.

(** The reader of a canusb interface after the input [done]. *)
Definition can_reader (done : list rd_event) (r : can_rd) : Prop :=
  if cr_sof r then exists pre seg c n body, done = pre ++ seg /\ ~ In RErr seg /\ noticed 0 seg = c :: repeat c n ++ body /\
    starts c /\ Forall not_start body /\ cr_msg r = buf_of (c :: filter (fun b => negb (b =? 13)) body) /\ cr_rx r = List.last (c :: body) 0
  else is_sof (cr_rx r) = false.

Lemma can_reader_0 done : can_reader done can_rd0.
Proof. reflexivity. Qed.

Lemma filter_snoc {A} (f : A -> bool) l x : filter f (l ++ [x]) = filter f l ++ (if f x then [x] else []).
Proof. rewrite filter_app. cbn [filter]. destruct (f x); reflexivity. Qed.
Lemma last_repeat (c : byte) n body (d : byte) : List.last (c :: repeat c n ++ body) d = List.last (c :: body) d.
Proof.
  induction n as [|n IH]; [reflexivity|]. rewrite <- IH. reflexivity.
Qed.

Lemma last_snoc (c : byte) l b (d : byte) : List.last (c :: l ++ [b]) d = b.
Proof. rewrite app_comm_cons. apply last_last. Qed.

Definition can_core (st : can_state) (r : can_rd) (b : byte) : can_step_result :=
  if is_sof b then CMore (mkcr b (s_append nil_slice b) true) st
  else if (b =? 13) && cr_sof r then
    match frameReceived st (cr_msg r) with
    | (st', Ret f) => CMsg (cf_raw f) st'
    | (st', Err _) => CMore (mkcr b (cr_msg r) (cr_sof r)) st'
    | (_, Panic _) => CPanic
    end
  else if cr_sof r then CMore (mkcr b (s_append (cr_msg r) b) (cr_sof r)) st
  else CMore (mkcr b (cr_msg r) (cr_sof r)) st.
Lemma can_byte_core st r ev : ev <> RErr -> can_byte st r ev = can_core st r (match ev with RByte x => x | _ => cr_rx r end).
Proof. destruct ev; [reflexivity|reflexivity|congruence]. Qed.

(** One byte: the reader's invariant goes on, a message comes from a line, a panic from a deadly one. *)
Lemma can_byte_inv tbl st r done ev : can_inv tbl st -> can_reader done r ->
  match can_byte st r ev with
  | CMore r' st' => can_reader (done ++ [ev]) r' /\ can_inv tbl st'
  | CMsg m st' => can_inv tbl st' /\ bytes_ok (rm_data m) /\ exists l ty id data, can_line (done ++ [ev]) l /\ frame_text l ty id data /\ rm_pgn m = id_pgn id /\ (fast_pgn tbl (rm_pgn m) \/ rm_data m = data)
  | CErr => True
  | CPanic => exists l, can_line (done ++ [ev]) l /\ (cut_line l \/ headless tbl l)
  end.
Proof.
  intros CI CR. assert (ev = RErr \/ ev <> RErr) as [->|NR] by (destruct ev; [right; discriminate|right; discriminate|left; reflexivity]); [exact I|].
  rewrite can_byte_core by exact NR. unfold can_core.
  set (b := match ev with RByte x => x | _ => cr_rx r end).
  assert (In RErr [ev] -> False) as NE1 by (intros [X|[]]; auto).
  unfold can_reader in CR. destruct (cr_sof r) eqn:SF.
  - destruct CR as (pre & seg & c & n & body & D & NE & NO & SC & FN & M & RX).
    assert (done ++ [ev] = pre ++ (seg ++ [ev])) as D2 by now rewrite D, app_assoc.
    assert (~ In RErr (seg ++ [ev])) as NE2 by (intros X; apply in_app_or in X as [X|X]; auto).
    assert (noticed 0 (seg ++ [ev]) = c :: repeat c n ++ body ++ [b]) as N2.
    { rewrite noticed_snoc. unfold seen_byte. rewrite NO. cbn [app]. f_equal. rewrite <- app_assoc. do 3 f_equal. subst b. destruct ev; [reflexivity| |]; now rewrite last_repeat, RX. }
    destruct (is_sof b) eqn:SB.
    { split; [|exact CI]. unfold can_reader. cbn [cr_sof cr_msg cr_rx].
      destruct (match ev with RByte _ => true | _ => false end) eqn:IB.
      - destruct ev as [x| |]; try discriminate IB. subst b. exists done, [RByte x], x, O, []. cbn [noticed repeat app filter List.last].
        repeat split; auto. now apply sof_starts.
      - (* the start character seen again *)
        assert (b = cr_rx r) as EB by (subst b; destruct ev; [discriminate IB|reflexivity|reflexivity]).
        assert (body = [] /\ b = c) as [-> EC].
        { rewrite EB, RX in *. destruct body as [|x body'] using rev_ind; [auto|].
          exfalso. rewrite app_comm_cons, last_last in SB. apply Forall_app in FN as [_ FN]. inversion FN as [|? ? Q _]. apply Q, sof_starts, SB. }
        exists pre, (seg ++ [ev]), c, (S n), []. rewrite N2, EC. cbn [app filter List.last] in *. rewrite app_nil_r, repeat_snoc.
        repeat split; auto. }
    assert (not_start b) as NS by (intros X; apply sof_starts in X; congruence).
    rewrite andb_true_r. destruct (Z.eqb_spec b 13) as [E13|N13].
    + assert (can_line (done ++ [ev]) (c :: filter (fun b => negb (b =? 13)) body)) as CL.
      { exists pre, (seg ++ [ev]), c, n, body. rewrite N2, E13. repeat split; auto. }
      set (l := c :: filter _ body) in *. rewrite M. unfold frameReceived.
      destruct (ParseFrame (buf_of l)) as [f|e|e] eqn:PF.
      * pose proof (ParseFrame_ok _ _ (buf_of_ok l) PF) as FO.
        apply (ParseFrame_accepts _ _ (buf_of_ok l)) in PF as (ty & id & data & FT & ->). rewrite buf_of_val in FT.
        set (f := mkframe _ _ _ _ _) in *.
        destruct (frame_step st f) as [st' o] eqn:FS. destruct o as [g|e|w].
        -- destruct (can_inv_step _ _ _ _ _ CI FO FS ltac:(discriminate)) as [CI' K]. destruct (K g eq_refl) as [[K1 K2] K3].
           split; [exact CI'|]. split; [exact K2|]. exists l, ty, id, data. split; [exact CL|]. split; [exact FT|]. split; [exact K1|]. cbn [f cf_raw rm_data frame_message] in K3. rewrite K1. exact K3.
        -- destruct (can_inv_step _ _ _ _ _ CI FO FS ltac:(discriminate)) as [CI' _]. split; [|exact CI'].
           unfold can_reader. cbn [cr_sof cr_msg cr_rx]. exists pre, (seg ++ [ev]), c, n, (body ++ [b]).
           rewrite N2, filter_snoc, E13. cbn [Z.eqb Pos.eqb negb]. rewrite app_nil_r, last_snoc.
           repeat split; auto. { apply Forall_app. split; [exact FN|]. rewrite <- E13. now constructor. }
        -- exists l. split; [exact CL|]. right. exists ty, id, data. split; [exact FT|].
           destruct CI as (R & F & _).
           destruct (proj1 (step_panic st f R)) as [H1 H2]; [exists w; now rewrite FS|].
           split; [apply F, H1|]. exact H2.
      * split; [|exact CI]. unfold can_reader. cbn [cr_sof cr_msg cr_rx]. exists pre, (seg ++ [ev]), c, n, (body ++ [b]).
        rewrite N2, filter_snoc, E13. cbn [Z.eqb Pos.eqb negb]. rewrite app_nil_r, last_snoc.
        repeat split; auto. { apply Forall_app. split; [exact FN|]. rewrite <- E13. now constructor. }
      * exists l. split; [exact CL|]. left. apply c04_line_panics. eauto.
    + split; [|exact CI]. unfold can_reader. cbn [cr_sof cr_msg cr_rx]. exists pre, (seg ++ [ev]), c, n, (body ++ [b]).
      rewrite N2, filter_snoc. destruct (Z.eqb_spec b 13) as [X|_]; [contradiction|]. cbn [negb].
      rewrite M, <- buf_of_snoc, last_snoc.
      repeat split; auto. apply Forall_app. split; [exact FN|]. now constructor.
  - destruct (is_sof b) eqn:SB.
    + split; [|exact CI]. unfold can_reader. cbn [cr_sof cr_msg cr_rx].
      destruct ev as [x| |]; [|subst b; congruence|subst b; congruence]. subst b. exists done, [RByte x], x, O, []. cbn [noticed repeat app filter List.last].
      repeat split; auto. now apply sof_starts.
    + rewrite andb_false_r. split; [|exact CI]. unfold can_reader. cbn [cr_sof cr_rx]. exact SB.
Qed.

(* ------------------------------------------------------------ the reader of an actisense interface *)

Definition act_reader (done : list rd_event) (r : act_rd) : Prop :=
  match ar_st r with
  | MsgStart => between done /\ ar_rx r <> 16 /\ ar_buf r = buf_of []
  | MsgMessage => exists pre seg raw m, between pre /\ done = pre ++ seg /\ ~ In RErr seg /\ noticed 0 seg = 16 :: raw /\ content (16 :: raw) m /\
      ar_buf r = buf_of m /\ ar_rx r = List.last (16 :: raw) 0
  | MsgEscape => exists pre seg raw m, between pre /\ done = pre ++ seg /\ ~ In RErr seg /\ noticed 0 seg = raw ++ [16] /\ content raw m /\
      (raw = [] \/ exists raw', raw = 16 :: raw') /\ ar_buf r = buf_of m /\ ar_rx r = 16
  end.
Lemma act_reader_0 done : between done -> act_reader done act_rd0.
Proof. cbn. split; [assumption|]. split; [discriminate|reflexivity]. Qed.

Definition act_core (r : act_rd) (b : byte) : act_step_result :=
  match deframe (ar_st r) (ar_buf r) b with
  | (st', buf', None) => AMore (mkar b st' buf')
  | (st', buf', Some m) =>
      match messageReceived m with
      | Ret x => AMsg x
      | Err _ => AMore (mkar b st' buf')
      | Panic _ => APanic
      end
  end.
Lemma act_byte_core r ev : ev <> RErr -> act_byte r ev = act_core r (match ev with RByte x => x | _ => ar_rx r end).
Proof. destruct ev; [reflexivity|reflexivity|congruence]. Qed.

Lemma act_byte_inv r done ev : (forall b, In (RByte b) (done ++ [ev]) -> is_byte b) -> act_reader done r ->
  match act_byte r ev with
  | AMore r' => act_reader (done ++ [ev]) r'
  | AMsg x => between (done ++ [ev]) /\ exists m, act_message (done ++ [ev]) m /\ bytes_ok m /\ delivers m x
  | AErr => between (done ++ [ev])
  | APanic => exists m, act_message (done ++ [ev]) m /\ crashes m
  end.
Proof.
  intros IB AR. assert (ev = RErr \/ ev <> RErr) as [->|NR] by (destruct ev; [right; discriminate|right; discriminate|left; reflexivity]); [apply bt_error|].
  rewrite act_byte_core by exact NR. unfold act_core.
  set (b := match ev with RByte x => x | _ => ar_rx r end).
  assert (In RErr [ev] -> False) as NE1 by (intros [X|[]]; auto).
  unfold act_reader in AR. destruct (ar_st r) eqn:ST.
  - destruct AR as (BT & RX & BF). cbn [deframe]. destruct (Z.eqb_spec b DLE) as [E|N].
    + unfold act_reader. cbn [ar_st ar_rx ar_buf]. exists done, [ev], [], []. unfold DLE in E.
      assert (ev = RByte 16) as -> by (subst b; destruct ev; [congruence|congruence|now destruct NR]).
      rewrite BF. repeat split; auto. constructor.
    + unfold act_reader. cbn [ar_st ar_rx ar_buf]. split; [|auto]. subst b. destruct ev; [now apply bt_noise|now apply bt_empty|now destruct NR].
  - destruct AR as (pre & seg & raw & m & BT & D & NE & NO & CT & RW & BF & RX).
    assert (done ++ [ev] = pre ++ (seg ++ [ev])) as D2 by now rewrite D, app_assoc.
    assert (~ In RErr (seg ++ [ev])) as NE2 by (intros X; apply in_app_or in X as [X|X]; auto).
    assert (noticed 0 (seg ++ [ev]) = raw ++ [16; b]) as N2.
    { rewrite noticed_snoc. unfold seen_byte. rewrite NO, <- app_assoc. cbn [app]. do 3 f_equal. subst b. destruct ev; [reflexivity| |]; now rewrite last_last, RX. }
    assert (bytes_ok m) as BM.
    { apply (content_bytes raw); [exact CT|]. assert (bytes_ok (noticed 0 seg)) as Q.
      { apply noticed_bytes; [unfold is_byte; lia|]. intros x X. apply IB. rewrite D2. apply in_or_app. right. apply in_or_app. now left. }
      rewrite NO in Q. apply Forall_app in Q. apply Q. }
    assert (b <> 2 -> b <> 16 -> between (done ++ [ev])) as BT2.
    { intros X2 X16. rewrite D2. apply (bt_frame pre (seg ++ [ev]) raw b); auto. repeat split; eauto. }
    cbn [deframe]. unfold ETX, STX, DLE.
    destruct (Z.eqb_spec b 3) as [E3|N3].
    + rewrite BF. assert (raw <> [] -> act_message (done ++ [ev]) m) as AM.
      { intros NN. destruct RW as [->|(raw' & ->)]; [now destruct NN|]. exists pre, (seg ++ [ev]), raw'. rewrite N2, E3. repeat split; auto. }
      assert (raw = [] -> m = []) as EM.
      { intros ->. inversion CT as [|x y z C N X| |]; auto; match goal with H : _ ++ _ = [] |- _ => apply app_eq_nil in H as [_ H]; discriminate H end. }
      destruct (messageReceived (buf_of m)) as [x|e|w] eqn:MR.
      * split; [apply BT2; lia|]. apply delivers_cases in MR; [|exact BM]. exists m. split; [|auto]. apply AM. intros X. rewrite (EM X) in MR.
        destruct MR as [(y & H & _)|(p1 & p2 & p3 & p4 & H & _)]; discriminate H.
      * unfold act_reader. cbn [ar_st ar_rx ar_buf]. split; [apply BT2; lia|]. split; [lia|reflexivity].
      * assert (crashes m) as CR by (apply crashes_cases; eauto). exists m. split; [|exact CR]. apply AM. intros X. rewrite (EM X) in CR.
        destruct CR as (_ & [(p1 & p2 & p3 & H & _)|(p1 & p2 & p3 & p4 & H & _)]); discriminate H.
    + destruct (Z.eqb_spec b 2) as [E2|N2'].
      * unfold act_reader. cbn [ar_st ar_rx ar_buf]. assert (exists raw', raw ++ [16; 2] = 16 :: raw') as (raw' & ER) by (destruct RW as [->|(q & ->)]; cbn [app]; eauto).
        exists pre, (seg ++ [ev]), raw', m. rewrite N2, E2, ER. rewrite <- ER. repeat split; auto. { apply ct_stx, CT. }
        replace (raw ++ [16; 2]) with ((raw ++ [16]) ++ [2]) by now rewrite <- app_assoc. now rewrite last_last.
      * destruct (Z.eqb_spec b 16) as [E16|N16].
        -- unfold act_reader. cbn [ar_st ar_rx ar_buf]. assert (exists raw', raw ++ [16; 16] = 16 :: raw') as (raw' & ER) by (destruct RW as [->|(q & ->)]; cbn [app]; eauto).
           exists pre, (seg ++ [ev]), raw', (m ++ [16]). rewrite N2, E16, ER. rewrite <- ER, BF, buf_of_snoc. repeat split; auto. { apply ct_dle, CT. }
           replace (raw ++ [16; 16]) with ((raw ++ [16]) ++ [16]) by now rewrite <- app_assoc. now rewrite last_last.
        -- unfold act_reader. cbn [ar_st ar_rx ar_buf]. split; [apply BT2; assumption|]. split; [exact N16|reflexivity].
  - destruct AR as (pre & seg & raw & m & BT & D & NE & NO & CT & BF & RX).
    assert (done ++ [ev] = pre ++ (seg ++ [ev])) as D2 by now rewrite D, app_assoc.
    assert (~ In RErr (seg ++ [ev])) as NE2 by (intros X; apply in_app_or in X as [X|X]; auto).
    assert (noticed 0 (seg ++ [ev]) = (16 :: raw) ++ [b]) as N2.
    { rewrite noticed_snoc. unfold seen_byte. rewrite NO. do 2 f_equal. subst b. destruct ev; [reflexivity| |]; now rewrite RX. }
    cbn [deframe]. destruct (Z.eqb_spec b DLE) as [E|N]; unfold DLE in *; unfold act_reader; cbn [ar_st ar_rx ar_buf].
    + exists pre, (seg ++ [ev]), (16 :: raw), m. rewrite N2, E. repeat split; auto. right. eauto.
    + exists pre, (seg ++ [ev]), (raw ++ [b]), (m ++ [b]). rewrite N2. rewrite BF, buf_of_snoc. repeat split; auto.
      * apply (ct_byte (16 :: raw)); assumption.
      * now rewrite last_snoc.
Qed.

(* ------------------------------------------------------------ the whole program *)

Definition decoded (x : parsed) : Prop :=
  (exists fuel pl m spare, parse_packet fuel pl PgnList m spare = Some (Ret x)) \/
  (exists c, NoDup (map fst (cb_fields c)) /\ from_canboat PgnList c = Ret x).

Definition src_inv (i : iface) (s : source) : Prop :=
  match s with
  | SBoot j => j = i
  | SCan _ r input => if_type i = str "canusb" /\ exists done, input_of i = done ++ input /\ can_reader done r
  | SAct r input => if_type i = str "actisense" /\ exists done, input_of i = done ++ input /\ act_reader done r
  | SFile _ => True
  end.
Definition th_inv (i : iface) (t : thread) : Prop :=
  src_inv i (th_src t) /\ forall x, th_out t = Some x -> decoded x.

Lemma claim_same st p m : exists p', iface_on_message st p m = (st, p', Ret tt).
Proof.
  unfold iface_on_message. destruct (_ && _); [|eauto].
  destruct (c18_claim st p (u8 (Address p + 1))) as (w & p' & E & _); [apply u8_byte|]. rewrite E. eauto.
Qed.
Lemma open_same st w a st' w' p : OpenChannel st w a = (st', w', Ret p) -> is_byte a -> st' = st.
Proof.
  unfold OpenChannel. intros H B. destruct (w_write w _) as [w1 [? [|]]]; [|discriminate].
  destruct (w_write w1 _) as [w2 [? [|]]]; [|discriminate].
  match type of H with context [AddressClaim ?s ?q ?x] => destruct (c18_claim s q x B) as (l & p' & E & _); rewrite E in H end. now injection H as <- _ _.
Qed.

Lemma boot_inv st i st' t' : can_inv PgnList st -> boot PgnList st i = TOk st' t' -> can_inv PgnList st' /\ th_inv i t'.
Proof.
  intros CI. unfold boot. destruct (if_dev i) as [|[|] w input|] eqn:DV; try discriminate.
  - destruct (bytes_eqb (if_type i) (str "canusb")) eqn:E1.
    + apply bytes_eqb_eq in E1. cbv zeta. destruct (OpenChannel _ w 221) as [[st1 w1] [p|e|e]] eqn:EO; try discriminate.
      intros H. injection H as <- <-. apply open_same in EO; [|unfold is_byte; lia]. subst st1.
      split; [now apply can_inv_register|]. split; [|discriminate]. cbn [th_src src_inv]. split; [exact E1|].
      exists []. unfold input_of. rewrite DV. split; [reflexivity|apply can_reader_0].
    + destruct (bytes_eqb (if_type i) (str "actisense")) eqn:E2.
      * apply bytes_eqb_eq in E2. destruct (act_OpenChannel w) as [w1 [p|e|e]]; try discriminate.
        destruct (GetOperatingMode p) as [q [x|e|e]]; try discriminate;
          intros H; injection H as <- <-; (split; [exact CI|]; split; [|discriminate]; cbn [th_src src_inv]; split; [exact E2|];
          exists []; unfold input_of; rewrite DV; split; [reflexivity|apply act_reader_0, bt_nil]).
      * destruct (bytes_eqb (if_type i) (str "file")); [|discriminate].
        intros H. injection H as <- <-. split; [exact CI|]. split; [exact I|discriminate].
  - destruct (bytes_eqb (if_type i) (str "canusb")); [discriminate|].
    destruct (bytes_eqb (if_type i) (str "actisense")); [discriminate|].
    destruct (bytes_eqb (if_type i) (str "file")); [|discriminate].
    intros H. injection H as <- <-. split; [exact CI|]. split; [exact I|discriminate].
Qed.

Lemma delivered_bytes m r : bytes_ok m -> delivers m r -> bytes_ok (rm_data r).
Proof.
  unfold bytes_ok. intros B [(y & -> & _ & _ & _ & _ & ->)|(p & id & body & c & -> & _ & _ & _ & _ & _ & _ & _ & _ & _ & _ & more & pad & E)].
  - unfold n2k_bytes in B. rewrite !Forall_app in B. cbn [n2k_message rm_data]. tauto.
  - assert (Forall is_byte (rm_data r ++ more)) as Q; [|apply Forall_app in Q; tauto].
    rewrite E. apply Forall_app. split.
    + inversion B as [|? ? _ B1]; subst. inversion B1 as [|? ? _ B2]; subst. now inversion B2.
    + apply Forall_forall. intros x X. apply repeat_spec in X. subst. unfold is_byte. lia.
Qed.

Section Death.
Variables (opts : options) (pl : platform) (fmtv : gval -> bytes) (unmarshal : bytes -> option canboat)
          (marshal : Z -> delta -> option bytes) (verbose : bool).
Hypothesis DM : distinct_members unmarshal.
Notation tstep := (tstep PgnList pl unmarshal).
Notation ystep := (ystep PgnList MapXml opts pl fmtv unmarshal marshal verbose).
Notation yrun := (yrun PgnList MapXml opts pl fmtv unmarshal marshal verbose).

Lemma imported l x : FromCanBoat unmarshal PgnList l = Ret x -> decoded x.
Proof.
  unfold FromCanBoat. intros H. right. destruct (unmarshal l) as [c|] eqn:U.
  - exists c. split; [now apply (DM l)|exact H].
  - exists canboat_zero. split; [constructor|exact H].
Qed.

Lemma import_no_panic l w : FromCanBoat unmarshal PgnList l <> Panic w.
Proof.
  unfold FromCanBoat, from_canboat. set (c := match unmarshal l with Some c => c | None => canboat_zero end).
  destruct (packet_start PgnList (cb_pgn c) PgnList_nonempty) as [i [def [j [def' [E1 [E2 _]]]]]]. rewrite E1, E2.
  destruct (negb (i =? j)); discriminate.
Qed.

Lemma id_pgn_range id : id_pgn id < 262144.
Proof.
  unfold id_pgn, id_page, id_pf, id_ps, bits. pose proof (Z.mod_pos_bound (id / 2 ^ 24) (2 ^ 2) ltac:(lia)). pose proof (Z.mod_pos_bound (id / 2 ^ 16) (2 ^ 8) ltac:(lia)).
  pose proof (Z.mod_pos_bound (id / 2 ^ 8) (2 ^ 8) ltac:(lia)). change (2 ^ 2) with 4 in *. change (2 ^ 8) with 256 in *. destruct (_ <? 240); lia.
Qed.
Lemma claim_not_fast : ~ fast_pgn PgnList 60928.
Proof.
  intros (p & I & E & S). assert (forallb (fun p => negb (p_pgn p =? 60928) || (p_size p <=? 8)) PgnList = true) as K by (vm_compute; reflexivity).
  rewrite forallb_forall in K. specialize (K p I). lia.
Qed.
Lemma fatal_fast_pgn D pgn : fast_pgn PgnList pgn -> pgn < 262144 -> fatal D 0 pgn -> In pgn fatal_fast.
Proof.
  intros FP L F. unfold fatal_fast. cbn [In]. destruct F; try tauto; [now apply claim_not_fast in FP|lia].
Qed.

Lemma input_ok_app i done rest : input_ok i -> input_of i = done ++ rest -> forall b, In (RByte b) done -> is_byte b.
Proof. intros H E b I. apply H. rewrite E. apply in_or_app. now left. Qed.

Lemma tstep_ok st i t st' t' : input_ok i -> can_inv PgnList st -> th_inv i t -> tstep st t (TOk st' t') ->
  can_inv PgnList st' /\ th_inv i t'.
Proof.
  intros IO CI [SI OI] H.
  inversion H as [? j ES ET E|? p r ev rest r' ? B ES ET E|? p r ev rest B ES ET E| |
     ? p r ev rest m st1 st2 p' a fuel spare x B IF PP ES ET E| |
     ? r ev rest r' B ES ET E|? r ev rest B ES ET E| |? r ev rest m fuel spare x B PP ES ET E| |
     ? l rest x FC ES ET E|? l rest e FC ES ET E|]; subst; cbn [th_src th_out src_inv] in *.
  - subst j. now apply (boot_inv st).
  - destruct SI as (TY & done & IN & CR). pose proof (can_byte_inv PgnList st r done ev CI CR) as K. rewrite B in K. destruct K as [K1 K2].
    split; [exact K2|]. split; [|discriminate]. split; [exact TY|]. exists (done ++ [ev]). rewrite <- app_assoc. auto.
  - destruct SI as (TY & done & IN & CR). split; [exact CI|]. split; [|discriminate]. split; [exact TY|]. exists (done ++ [ev]). rewrite <- app_assoc.
    split; [exact IN|apply can_reader_0].
  - destruct SI as (TY & done & IN & CR). pose proof (can_byte_inv PgnList st r done ev CI CR) as K. rewrite B in K. destruct K as [K1 _].
    destruct (claim_same st1 p m) as (p2 & EC). rewrite EC in IF. injection IF as <- <- _.
    split; [exact K1|]. split.
    + split; [exact TY|]. exists (done ++ [ev]). rewrite <- app_assoc. split; [exact IN|apply can_reader_0].
    + intros y X. injection X as <-. left. eauto.
  - destruct SI as (TY & done & IN & AR). assert (input_of i = (done ++ [ev]) ++ rest) as IN2 by now rewrite <- app_assoc.
    pose proof (act_byte_inv r done ev (input_ok_app _ _ _ IO IN2) AR) as K. rewrite B in K.
    split; [exact CI|]. split; [|discriminate]. split; [exact TY|]. eauto.
  - destruct SI as (TY & done & IN & AR). assert (input_of i = (done ++ [ev]) ++ rest) as IN2 by now rewrite <- app_assoc.
    pose proof (act_byte_inv r done ev (input_ok_app _ _ _ IO IN2) AR) as K. rewrite B in K.
    split; [exact CI|]. split; [|discriminate]. split; [exact TY|]. exists (done ++ [ev]). split; [exact IN2|now apply act_reader_0].
  - destruct SI as (TY & done & IN & AR). assert (input_of i = (done ++ [ev]) ++ rest) as IN2 by now rewrite <- app_assoc.
    pose proof (act_byte_inv r done ev (input_ok_app _ _ _ IO IN2) AR) as K. rewrite B in K. destruct K as [K _].
    split; [exact CI|]. split.
    + split; [exact TY|]. exists (done ++ [ev]). split; [exact IN2|now apply act_reader_0].
    + intros y X. injection X as <-. left. eauto.
  - split; [exact CI|]. split; [exact I|]. intros y X. injection X as <-. eapply imported; eassumption.
  - split; [exact CI|]. split; [exact I|discriminate].
Qed.

Lemma tstep_dead st i t : input_ok i -> can_inv PgnList st -> th_inv i t -> tstep st t TDead -> deadly PgnList i.
Proof.
  intros IO CI [SI OI] H.
  inversion H as [? j ES ET E| | |? p r ev rest B ES ET E| |? p r ev rest m st1 B D ES ET E| | |
     ? r ev rest B ES ET E| |? r ev rest m fuel spare w B PP ES ET E| | |? l rest w FC ES ET E]; subst; cbn [th_src th_out src_inv] in *.
  - subst j. apply d_start. intros S. apply (boot_started PgnList st) in S as (st' & t' & S). congruence.
  - destruct SI as (TY & done & IN & CR). pose proof (can_byte_inv PgnList st r done ev CI CR) as K. rewrite B in K. destruct K as (l & CL & K).
    eapply (d_canusb _ _ (done ++ [ev]) rest l); [exact TY|now rewrite <- app_assoc|exact CL|tauto].
  - destruct SI as (TY & done & IN & CR). pose proof (can_byte_inv PgnList st r done ev CI CR) as K. rewrite B in K.
    destruct K as (_ & BO & l & ty & id & data & CL & FT & PG & SD).
    destruct D as [(st2 & p2 & w & D)|(fuel & spare & w & D)].
    { destruct (claim_same st1 p m) as (p3 & EC). congruence. }
    eapply (d_canusb _ _ (done ++ [ev]) rest l); [exact TY|now rewrite <- app_assoc|exact CL|]. right. right. exists ty, id, data. split; [exact FT|].
    assert (fatal (rm_data m) 0 (rm_pgn m)) as FA.
    { apply (fatal_behind _ 0 (zlen spare)); [apply zlen_nonneg|]. apply (C43_exact pl m spare BO). eauto. }
    destruct SD as [FP|SD]; [right|left; now rewrite <- PG, <- SD]. rewrite <- PG. eapply fatal_fast_pgn; [exact FP|rewrite PG; apply id_pgn_range|exact FA].
  - destruct SI as (TY & done & IN & AR). assert (input_of i = (done ++ [ev]) ++ rest) as IN2 by now rewrite <- app_assoc.
    pose proof (act_byte_inv r done ev (input_ok_app _ _ _ IO IN2) AR) as K. rewrite B in K. destruct K as (m & AM & CR).
    eapply (d_actisense _ _ (done ++ [ev]) rest m); auto.
  - destruct SI as (TY & done & IN & AR). assert (input_of i = (done ++ [ev]) ++ rest) as IN2 by now rewrite <- app_assoc.
    pose proof (act_byte_inv r done ev (input_ok_app _ _ _ IO IN2) AR) as K. rewrite B in K. destruct K as (_ & mm & AM & BM & DE).
    eapply (d_actisense _ _ (done ++ [ev]) rest mm); [exact TY|exact IN2|exact AM|]. right. exists m. split; [exact DE|].
    assert (bytes_ok (rm_data m)) as BO by (eapply delivered_bytes; eassumption).
    apply (fatal_behind _ 0 (zlen spare)); [apply zlen_nonneg|]. apply (C43_exact pl m spare BO). eauto.
  - now destruct (import_no_panic l w).
Qed.

(** The consumer never panics. *)
Lemma handle_ok c x order w : decoded x -> handle opts (pl_tz pl) fmtv PgnList MapXml marshal verbose c x order <> Panic w.
Proof.
  intros D H. unfold handle in H. cbv zeta in H.
  assert (exists l, (if shown opts (pm_header x) then print_fields PgnList x verbose else Ret []) = Ret l) as (l & E).
  { destruct (shown opts (pm_header x)); [|eauto]. destruct D as [(fuel & pl0 & m & spare & D)|(c0 & N & D)].
    - destruct (C48_print_any _ _ _ _ _ verbose D) as (def & l & _ & E & _). eauto.
    - destruct (C48_import _ _ _ verbose N D) as (def & l & _ & E & _). eauto. }
  rewrite E in H. destruct (sk_delta _ _ _) as [d|e|e] eqn:SD.
  - destruct (marshal (vi_now order) d); discriminate H.
  - discriminate H.
  - now apply (C51_shipped_never_panics (pl_tz pl) fmtv x (vi_order order) e D).
Qed.

Definition sys_ok (ifs : list iface) (s : sys) : Prop :=
  can_inv PgnList (y_can s) /\ List.length (y_threads s) = List.length ifs /\
  forall i ifc t, nth_error ifs i = Some ifc -> nth_error (y_threads s) i = Some t -> th_inv ifc t.

Lemma sys_ok_run maps ifs tr s : Forall input_ok ifs -> PipelineModel.yrun PgnList maps opts pl fmtv unmarshal marshal verbose ifs tr (YOk s) -> sys_ok ifs s.
Proof.
  intros IO R. remember (YOk s) as r eqn:Er. revert s Er. induction R as [|tr s0 l r R IH ST]; intros s Er.
  - injection Er as <-. split; [apply can_inv_init|]. split; [apply map_length|]. intros i ifc t H1 H2. cbn [sys_init y_threads] in H2.
    rewrite nth_error_map, H1 in H2. injection H2 as <-. split; [reflexivity|discriminate].
  - subst r. destruct (IH _ eq_refl) as (CI & LEN & TI).
    inversion ST as [? i t st' t' HT TS E1 E2 E3| |? i src m order c' es HT TD PM HD E1 E2 E3| | | | | | | |]; subst; try (split; [exact CI|split; [exact LEN|exact TI]]).
    + destruct (nth_error ifs i) as [ifc|] eqn:HI.
      2:{ exfalso. apply nth_error_None in HI. assert (i < List.length (y_threads s0))%nat by (apply nth_error_Some; congruence). lia. }
      rewrite Forall_forall in IO. destruct (tstep_ok _ _ _ _ _ (IO _ (nth_error_In _ _ HI)) CI (TI _ _ _ HI HT) TS) as [CI' TI'].
      split; [exact CI'|]. cbn [y_threads]. split; [rewrite (set_thread_length _ _ _ _ HT); exact LEN|].
      intros k ifk tk H1 H2. rewrite (set_thread_nth _ _ _ _ k HT) in H2. destruct (Nat.eqb_spec k i) as [->|N].
      * injection H2 as <-. rewrite HI in H1. injection H1 as <-. exact TI'.
      * eauto.
    + split; [exact CI|]. cbn [y_threads]. split; [rewrite (set_thread_length _ _ _ _ HT); exact LEN|].
      intros k ifk tk H1 H2. rewrite (set_thread_nth _ _ _ _ k HT) in H2. destruct (Nat.eqb_spec k i) as [->|N].
      * injection H2 as <-. destruct (TI _ _ _ H1 HT) as [S _]. split; [exact S|discriminate].
      * eauto.
Qed.

(** C85: with the PGN table and the mapping it is shipped with, the program ends by itself only
    because an interface cannot be started, because a canusb adapter delivers a cut line, a frame
    too short for its fast packet header, a fatal message of C43 in a single frame or a frame of one
    of the four fast packet PGNs of C43, or because an NGT delivers a message of the crash set of
    C25 or a fatal message of C43. *)
Theorem C85_cause ifs tr : Forall input_ok ifs -> yrun ifs tr YDead -> exists i, In i ifs /\ deadly PgnList i.
Proof.
  intros IO R. inversion R as [|tr0 s l r R0 ST]; subst. destruct (sys_ok_run _ _ _ _ IO R0) as (CI & LEN & TI).
  inversion ST as [|? i t HT TS E1 E2 E3| |? i src m order w HT TD PM HD E1 E2 E3| | | | |? l0 N1 N2 HS E1 E2 E3| |? l0 N1 N2 HS E1 E2 E3]; subst.
  - destruct (nth_error ifs i) as [ifc|] eqn:HI.
    2:{ exfalso. apply nth_error_None in HI. assert (i < List.length (y_threads s))%nat by (apply nth_error_Some; congruence). lia. }
    exists ifc. split; [eapply nth_error_In; exact HI|]. rewrite Forall_forall in IO.
    eapply tstep_dead; [apply IO; eapply nth_error_In; exact HI|exact CI|eapply TI; eassumption|exact TS].
  - exfalso. destruct (nth_error ifs i) as [ifc|] eqn:HI.
    2:{ apply nth_error_None in HI. assert (i < List.length (y_threads s))%nat by (apply nth_error_Some; congruence). lia. }
    destruct (TI _ _ _ HI HT) as [_ O]. eapply handle_ok; [apply O; reflexivity|exact HD].
  - exfalso. apply (proj1 (C62_hub_never_dies _ _ _ _ _ _ _ _ ifs tr0 s l0 R0)). exact ST.
  - exfalso. apply (proj2 (C62_hub_never_dies _ _ _ _ _ _ _ _ ifs tr0 s l0 R0)). exact ST.
Qed.

(** With any other mapping there is one more cause: a parameter group of the message's PGN that
    makes Delta crash (C51: a path shorter than two bytes, or a multiplier where the definition
    has no repeating fields). *)
Theorem C85_any_map maps ifs tr : Forall input_ok ifs -> PipelineModel.yrun PgnList maps opts pl fmtv unmarshal marshal verbose ifs tr YDead ->
  (exists i, In i ifs /\ deadly PgnList i) \/
  (exists x path g, decoded x /\ pm_data x <> [] /\ SignalkSpec.group_of maps (rm_pgn (pm_header x)) path g /\ trouble PgnList (pm_index x) path g).
Proof.
  intros IO R. inversion R as [|tr0 s l r R0 ST]; subst. destruct (sys_ok_run _ _ _ _ IO R0) as (CI & LEN & TI).
  inversion ST as [|? i t HT TS E1 E2 E3| |? i src m od w HT TD PM HD E1 E2 E3| | | | |? l0 N1 N2 HS E1 E2 E3| |? l0 N1 N2 HS E1 E2 E3]; subst.
  - left. destruct (nth_error ifs i) as [ifc|] eqn:HI.
    2:{ exfalso. apply nth_error_None in HI. assert (i < List.length (y_threads s))%nat by (apply nth_error_Some; congruence). lia. }
    exists ifc. split; [eapply nth_error_In; exact HI|]. rewrite Forall_forall in IO.
    eapply tstep_dead; [apply IO; eapply nth_error_In; exact HI|exact CI|eapply TI; eassumption|exact TS].
  - right. destruct (nth_error ifs i) as [ifc|] eqn:HI.
    2:{ exfalso. apply nth_error_None in HI. assert (i < List.length (y_threads s))%nat by (apply nth_error_Some; congruence). lia. }
    destruct (TI _ _ _ HI HT) as [_ O]. specialize (O _ eq_refl). exists m.
    assert (exists w', sk_delta (mkenv (pl_tz pl) fmtv PgnList m) maps (vi_order od) = Panic w') as P.
    { unfold handle in HD. cbv zeta in HD.
      assert (exists l, (if shown opts (pm_header m) then print_fields PgnList m verbose else Ret []) = Ret l) as (l & E).
      { destruct (shown opts (pm_header m)); [|eauto]. destruct O as [(fuel & pl0 & m0 & spare & D)|(c0 & N & D)].
        - destruct (C48_print_any _ _ _ _ _ verbose D) as (def & l & _ & E & _). eauto.
        - destruct (C48_import _ _ _ verbose N D) as (def & l & _ & E & _). eauto. }
      rewrite E in HD. destruct (sk_delta _ _ _) as [d|e|e]; [|discriminate HD|eauto]. destruct (marshal (vi_now od) d); discriminate HD. }
    apply C51_panics_iff in P as (NE & path & g & G & T). exists path, g. split; [exact O|]. split; [|auto].
    intros X. rewrite X in PM. apply NE. now apply Permutation_nil, Permutation_sym.
  - exfalso. apply (proj1 (C62_hub_never_dies _ _ _ _ _ _ _ _ ifs tr0 s l0 R0)). exact ST.
  - exfalso. apply (proj2 (C62_hub_never_dies _ _ _ _ _ _ _ _ ifs tr0 s l0 R0)). exact ST.
Qed.
(** ... and then the message ends the program when it is handled. *)
Theorem C85_map_kills maps s i x od r : PipelineModel.ystep PgnList maps opts pl fmtv unmarshal marshal verbose s (YHand i x od) r -> pm_data x <> [] ->
  (exists path g, SignalkSpec.group_of maps (rm_pgn (pm_header x)) path g /\ trouble PgnList (pm_index x) path g) -> r = YDead.
Proof.
  intros ST ND G. inversion ST as [| |? i0 src m o c' es HT TD PM HD E1 E2 E3| | | | | | | |]; subst; [|reflexivity]. exfalso.
  assert (vi_order od <> []) as NE. { intros X. rewrite X in PM. apply ND. now apply Permutation_nil. }
  destruct (proj2 (C51_panics_iff (mkenv (pl_tz pl) fmtv PgnList x) maps (vi_order od)) (conj NE G)) as [w P].
  unfold handle in HD. cbv zeta in HD. rewrite P in HD. destruct (if shown opts (pm_header x) then _ else _); discriminate HD.
Qed.

(** So a program none of whose interfaces is deadly runs for ever, whatever the schedule, the
    clients and the options. *)
Theorem C85_survives ifs tr : Forall input_ok ifs -> Forall (fun i => ~ deadly PgnList i) ifs -> ~ yrun ifs tr YDead.
Proof.
  intros IO N R. destruct (C85_cause _ _ IO R) as (i & I & D). rewrite Forall_forall in N. now apply (N i).
Qed.

(** File interfaces that exist never end it, whatever the file holds. *)
Theorem C85_files ifs tr : Forall (fun i => if_type i = str "file" /\ startable i) ifs -> Forall input_ok ifs -> ~ yrun ifs tr YDead.
Proof.
  intros F IO. apply C85_survives; [exact IO|]. eapply Forall_impl; [|exact F]. intros i [T S] D. destruct D as [N|evs rest l C|evs rest m C].
  - contradiction.
  - rewrite T in C. discriminate C.
  - rewrite T in C. discriminate C.
Qed.
End Death.
