(** WireAct: the reader of an NGT delivers every message of the line (ActisenseSpec, DeathSpec). *)
From Verif Require Import GoBase BufFacts CanModel ActisenseModel ActisenseSpec ActisenseProofs ActisenseProps NmeaTypes PipelineModel PipelineSpec DeathSpec WireSpec DeathProps.
Open Scope Z_scope.
Open Scope list_scope.

Definition act_next (r : act_rd) (ev : rd_event) : act_rd := match act_byte r ev with AMore r' => r' | _ => act_rd0 end.
(** The reader after the input evs. *)
Definition act_after (evs : list rd_event) : act_rd := fold_left act_next evs act_rd0.
Lemma act_after_snoc evs ev : act_after (evs ++ [ev]) = act_next (act_after evs) ev.
Proof. unfold act_after. now rewrite fold_left_app. Qed.

Definition at_start (r : act_rd) : Prop := ar_st r = MsgStart /\ ar_rx r <> 16 /\ ar_buf r = buf_of [].

Lemma at_start_0 : at_start act_rd0.
Proof. split; [reflexivity|]. split; [discriminate|reflexivity]. Qed.

Lemma noticed_len x seg : List.length (noticed x seg) = List.length seg.
Proof. revert x. induction seg as [|e seg IH]; intros x; [reflexivity|]. destruct e; cbn [noticed List.length]; now rewrite IH. Qed.

Lemma see pre seg ev r b : ~ In RErr (seg ++ [ev]) -> noticed 0 (seg ++ [ev]) = r ++ [b] -> (r = [] -> b <> 0) ->
  (r <> [] -> ar_rx (act_after (pre ++ seg)) = List.last r 0) ->
  noticed 0 seg = r /\ ~ In RErr seg /\ act_byte (act_after (pre ++ seg)) ev = act_core (act_after (pre ++ seg)) b /\
  act_after (pre ++ seg ++ [ev]) = match act_core (act_after (pre ++ seg)) b with AMore r' => r' | _ => act_rd0 end.
Proof.
  intros NE NO B0 RX. rewrite noticed_snoc in NO. apply app_inj_tail in NO as [NO SB]. split; [exact NO|].
  split; [intros X; apply NE, in_or_app; now left|].
  assert (act_byte (act_after (pre ++ seg)) ev = act_core (act_after (pre ++ seg)) b) as AB.
  { rewrite act_byte_core by (intros ->; apply NE, in_or_app; right; now left). f_equal. unfold seen_byte in SB. rewrite NO in SB.
    destruct ev; [exact SB| |]; destruct r as [|x r]; try (cbn in SB; symmetry in SB; now elim B0); rewrite RX by discriminate; exact SB. }
  split; [exact AB|]. rewrite app_assoc, act_after_snoc. unfold act_next. now rewrite AB.
Qed.
Lemma see_len seg (r : bytes) b : noticed 0 seg = r ++ [b] -> exists seg' ev, seg = seg' ++ [ev].
Proof. intros NO. destruct seg as [|ev seg' _] using rev_ind; [destruct r; discriminate NO|eauto]. Qed.

(** Inside a message. *)
Definition inside_at (r0 : act_rd) (raw m : bytes) : Prop :=
  match raw with [] => m = [] /\ at_start r0 | _ => r0 = mkar (List.last raw 0) MsgMessage (buf_of m) end.
Lemma inside_rx r0 raw m : inside_at r0 raw m -> raw <> [] -> ar_rx r0 = List.last raw 0.
Proof. destruct raw; [congruence|]. intros -> _. reflexivity. Qed.
(** A DLE, from the start of a message or from inside. *)
Lemma inside_dle r0 raw m : inside_at r0 raw m -> act_core r0 16 = AMore (mkar 16 MsgEscape (buf_of m)).
Proof.
  destruct raw as [|x raw]; cbn [inside_at].
  - intros (-> & S & _ & B). unfold act_core. rewrite S, B. reflexivity.
  - intros ->. reflexivity.
Qed.
Lemma inside pre raw m : at_start (act_after pre) -> content raw m -> forall seg, ~ In RErr seg -> noticed 0 seg = raw ->
  (raw = [] \/ exists raw', raw = 16 :: raw') -> inside_at (act_after (pre ++ seg)) raw m.
Proof.
  intros AS C. assert (forall r m, (forall seg, ~ In RErr seg -> noticed 0 seg = r -> (r = [] \/ exists raw', r = 16 :: raw') -> inside_at (act_after (pre ++ seg)) r m) ->
    forall seg x, ~ In RErr seg -> noticed 0 seg = r ++ [16; x] -> (r = [] \/ exists raw', r = 16 :: raw') ->
    act_after (pre ++ seg) = match act_core (mkar 16 MsgEscape (buf_of m)) x with AMore r' => r' | _ => act_rd0 end) as TWO.
  { clear m C. intros r m IH seg x NE NO RW. change [16; x] with ([16] ++ [x]) in NO. rewrite app_assoc in NO.
    destruct (see_len _ _ _ NO) as (s1 & e2 & ->).
    assert (noticed 0 s1 = r ++ [16]) as N1 by (rewrite noticed_snoc in NO; now apply app_inj_tail in NO as [NO _]).
    destruct (see_len _ _ _ N1) as (s0 & e1 & ->).
    assert (~ In RErr (s0 ++ [e1])) as NE1 by (intros X; apply NE, in_or_app; now left).
    assert (noticed 0 s0 = r) as N0 by (rewrite noticed_snoc in N1; now apply app_inj_tail in N1 as [N1 _]).
    assert (inside_at (act_after (pre ++ s0)) r m) as IN by (apply IH; auto; intros X; apply NE1, in_or_app; now left).
    destruct (see pre s0 e1 r 16 NE1 N1) as (_ & _ & _ & A1); [lia|now apply (inside_rx _ _ m)|]. rewrite (inside_dle _ _ _ IN) in A1.
    destruct (see pre (s0 ++ [e1]) e2 (r ++ [16]) x NE NO) as (_ & _ & _ & A2); [intros X; destruct r; discriminate X| |rewrite A1 in A2; exact A2].
    intros _. rewrite A1, last_last. reflexivity. }
  induction C as [|r m b C IH NB|r m C IH|r m C IH]; intros seg NE NO RW.
  - destruct seg; [|destruct r; discriminate NO]. rewrite app_nil_r. split; [reflexivity|exact AS].
  - assert (exists r', r = 16 :: r') as (r' & Er).
    { destruct RW as [E|(raw' & E)]; [destruct r; discriminate E|]. destruct r as [|x r]; cbn [app] in E; [injection E as -> _; now destruct NB|]. injection E as -> _. eauto. }
    destruct (see_len _ _ _ NO) as (s0 & ev & ->).
    assert (noticed 0 s0 = r) as N0 by (rewrite noticed_snoc in NO; now apply app_inj_tail in NO as [NO _]).
    assert (inside_at (act_after (pre ++ s0)) r m) as IN by (apply IH; [intros X; apply NE, in_or_app; now left|exact N0|right; eauto]).
    destruct (see pre s0 ev r b NE NO) as (_ & _ & _ & A); [intros X; rewrite X in Er; discriminate Er|now apply (inside_rx _ _ m)|].
    rewrite A. rewrite Er in IN. cbn [inside_at] in IN. rewrite IN. unfold act_core. cbn [ar_st ar_buf deframe]. unfold DLE.
    destruct (Z.eqb_spec b 16); [contradiction|]. rewrite Er. cbn [app inside_at]. change (16 :: r' ++ [b]) with ((16 :: r') ++ [b]). now rewrite buf_of_snoc, last_last.
  - assert (r = [] \/ exists raw', r = 16 :: raw') as RW2.
    { destruct r as [|x r]; [now left|right]. destruct RW as [E|(raw' & E)]; [discriminate E|]. cbn [app] in E. injection E as -> _. eauto. }
    rewrite (TWO r m IH seg 16 NE NO RW2). unfold act_core. cbn [ar_st ar_buf deframe]. change (16 =? ETX) with false. change (16 =? STX) with false. change (16 =? DLE) with true. cbv iota.
    change [16; 16] with ([16] ++ [16]). rewrite app_assoc. destruct ((r ++ [16]) ++ [16]) eqn:E; [destruct r; discriminate E|]. cbn [inside_at]. now rewrite <- E, last_last, buf_of_snoc.
  - assert (r = [] \/ exists raw', r = 16 :: raw') as RW2.
    { destruct r as [|x r]; [now left|right]. destruct RW as [E|(raw' & E)]; [discriminate E|]. cbn [app] in E. injection E as -> _. eauto. }
    rewrite (TWO r m IH seg 2 NE NO RW2). unfold act_core. cbn [ar_st ar_buf deframe]. change (2 =? ETX) with false. change (2 =? STX) with true. cbv iota.
    change [16; 2] with ([16] ++ [2]). rewrite app_assoc. destruct ((r ++ [16]) ++ [2]) eqn:E; [destruct r; discriminate E|]. cbn [inside_at]. now rewrite <- E, last_last.
Qed.

(** The end of a frame. *)
Lemma frame_end pre seg raw m x : at_start (act_after pre) -> content raw m -> ~ In RErr seg -> noticed 0 seg = raw ++ [16; x] ->
  (raw = [] \/ exists raw', raw = 16 :: raw') ->
  exists s0 ev, seg = s0 ++ [ev] /\ act_after (pre ++ s0) = mkar 16 MsgEscape (buf_of m) /\
    act_byte (act_after (pre ++ s0)) ev = act_core (mkar 16 MsgEscape (buf_of m)) x.
Proof.
  intros AS C NE NO RW. change [16; x] with ([16] ++ [x]) in NO. rewrite app_assoc in NO.
  destruct (see_len _ _ _ NO) as (s1 & e2 & ->).
  assert (noticed 0 s1 = raw ++ [16]) as N1 by (rewrite noticed_snoc in NO; now apply app_inj_tail in NO as [NO _]).
  destruct (see_len _ _ _ N1) as (s0 & e1 & ->).
  assert (~ In RErr (s0 ++ [e1])) as NE1 by (intros X; apply NE, in_or_app; now left).
  assert (noticed 0 s0 = raw) as N0 by (rewrite noticed_snoc in N1; now apply app_inj_tail in N1 as [N1 _]).
  assert (inside_at (act_after (pre ++ s0)) raw m) as IN by (apply inside; auto; intros X; apply NE1, in_or_app; now left).
  destruct (see pre s0 e1 raw 16 NE1 N1) as (_ & _ & _ & A1); [lia|now apply (inside_rx _ _ m)|]. rewrite (inside_dle _ _ _ IN) in A1.
  destruct (see pre (s0 ++ [e1]) e2 (raw ++ [16]) x NE NO) as (_ & _ & A2 & _); [intros X; destruct raw; discriminate X|intros _; rewrite A1, last_last; reflexivity|].
  exists (s0 ++ [e1]), e2. rewrite A1 in A2. rewrite A1. auto.
Qed.

Lemma between_after evs : between evs -> at_start (act_after evs).
Proof.
  induction 1 as [|evs|evs b B IH N|evs B IH|evs seg raw x B IH (NE & NO & (m & C) & RW) N2 N16].
  - exact at_start_0.
  - rewrite act_after_snoc. exact at_start_0.
  - rewrite act_after_snoc. unfold act_next. rewrite act_byte_core by discriminate. destruct IH as (S & R & F). unfold act_core. rewrite S. cbn [deframe].
    unfold DLE. destruct (Z.eqb_spec b 16); [contradiction|]. split; [reflexivity|]. cbn [ar_rx ar_buf]. auto.
  - rewrite act_after_snoc. unfold act_next. rewrite act_byte_core by discriminate. destruct IH as (S & R & F). unfold act_core. rewrite S. cbn [deframe].
    unfold DLE. destruct (Z.eqb_spec (ar_rx (act_after evs)) 16); [contradiction|]. split; [reflexivity|]. cbn [ar_rx ar_buf]. auto.
  - destruct (frame_end evs seg raw m x IH C NE NO RW) as (s0 & ev & -> & A & AB). rewrite app_assoc, act_after_snoc. unfold act_next. rewrite AB.
    unfold act_core. cbn [ar_st ar_buf deframe]. unfold ETX, STX, DLE. destruct (Z.eqb_spec x 3) as [->|N3].
    + destruct (messageReceived (buf_of m)); [exact at_start_0| |exact at_start_0]. split; [reflexivity|]. cbn. split; [lia|reflexivity].
    + destruct (Z.eqb_spec x 2); [contradiction|]. destruct (Z.eqb_spec x 16); [contradiction|]. split; [reflexivity|]. cbn. split; [exact N16|reflexivity].
Qed.

(** A message on the line is delivered if it is one. *)
Lemma act_complete done ev mm m : act_message (done ++ [ev]) mm -> (forall b, In (RByte b) (done ++ [ev]) -> is_byte b) -> delivers mm m ->
  act_byte (act_after done) ev = AMsg m.
Proof.
  intros (pre & seg & raw & B & E & NE & NO & C) IB DE. apply between_after in B.
  assert (bytes_ok mm) as BM.
  { apply (content_bytes (16 :: raw)); [exact C|]. assert (bytes_ok (noticed 0 seg)) as Q.
    { apply noticed_bytes; [unfold is_byte; lia|]. intros x X. apply IB. rewrite E. apply in_or_app. now right. }
    rewrite NO in Q. change (16 :: raw ++ [16; 3]) with ((16 :: raw) ++ [16; 3]) in Q. apply Forall_app in Q. apply Q. }
  destruct (frame_end pre seg (16 :: raw) mm 3 B C NE NO) as (s0 & e & -> & A & AB); [right; eauto|].
  rewrite app_assoc in E. apply app_inj_tail in E as [-> ->]. rewrite AB. unfold act_core. cbn [ar_st ar_buf deframe]. change (3 =? ETX) with true. cbv iota.
  now rewrite (proj2 (delivers_cases mm m BM) DE).
Qed.
Lemma act_unique done ev mm mm' : act_message (done ++ [ev]) mm -> act_message (done ++ [ev]) mm' -> buf_of mm = buf_of mm'.
Proof.
  intros (pre & seg & raw & B & E & NE & NO & C) (pre' & seg' & raw' & B' & E' & NE' & NO' & C'). apply between_after in B, B'.
  destruct (frame_end pre seg (16 :: raw) mm 3 B C NE NO) as (s0 & e & -> & A & _); [right; eauto|].
  destruct (frame_end pre' seg' (16 :: raw') mm' 3 B' C' NE' NO') as (s0' & e' & -> & A' & _); [right; eauto|].
  rewrite app_assoc in E, E'. apply app_inj_tail in E as [E _]. apply app_inj_tail in E' as [E' _]. rewrite <- E in A. rewrite <- E' in A'. congruence.
Qed.
