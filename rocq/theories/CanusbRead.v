(** CanusbRead: proofs about CanPort.Read (C12, C13) and the crash set reachable from it (C04). *)
From Coq Require Import ZifyBool.
From Verif Require Import GoBase BufFacts Strconv StrconvFacts CanModel CanusbModel CanusbSpec CanusbRegistry CanusbParse CanusbFast.

(** C04, reachable part: what crashes when the text comes from the serial line. *)
Lemma not_hex_zero s n r : ~ hex_number (s ++ 0 :: r) n.
Proof.
  intros (ds & F & _). apply Forall2_app_inv_l in F as (d1 & d2 & _ & F2 & _).
  inversion F2 as [|? d ? ? Hc _]; subst. unfold hex_char in Hc. lia.
Qed.

Lemma hex_first s n : hex_number s n -> Forall (fun c => exists v, hex_char c v) s.
Proof. intros (ds & F & _). induction F; constructor; eauto. Qed.

Lemma ParseFrame_line_panics l :
  (exists w, ParseFrame (buf_of l) = Panic w) <->
  exists ty r, l = start_char ty :: r /\
    ((id_digits ty = 8 /\ zlen r < 8) \/ (zlen r = id_digits ty /\ exists id, hex_number r id)).
Proof.
  rewrite ParseFrame_panics by apply buf_of_ok. rewrite buf_of_val.
  destruct (buf_of_inv l) as (n & A & Ln & _ & C8 & C16). unfold s_cap. rewrite Ln.
  assert (Sub : forall r k, l = start_char r :: k -> zlen k = id_digits r ->
                zsub (s_arr (buf_of l)) 1 (id_digits r + 1) = k).
  { intros ty k El Ek. rewrite A, El. change ((start_char ty :: k) ++ repeat 0 n) with ([start_char ty] ++ k ++ repeat 0 n).
    apply zsub_mid; [reflexivity|]. change (zlen [start_char ty]) with 1. lia. }
  split.
  - intros (ty & r & El & Hl & Hc). exists ty, r. split; [exact El|].
    assert (zlen l = 1 + zlen r) by (rewrite El; apply zlen_cons). pose proof (zlen_nonneg r).
    destruct (Z.eq_dec (zlen r) (id_digits ty)) as [Er|Er].
    + right. split; [exact Er|]. destruct Hc as [Hc|Hc].
      * exfalso. assert (zlen (s_arr (buf_of l)) = 8 \/ zlen (s_arr (buf_of l)) = 16) as D.
        { destruct (Z_le_gt_dec (zlen l) 8); [left; apply C8; lia|right; apply C16].
          destruct ty; cbn [id_digits] in *; lia. }
        rewrite A, zlen_app, zlen_repeat in Hc. lia.
      * rewrite (Sub ty r El Er) in Hc. exact Hc.
    + left. assert (zlen r < id_digits ty) by lia.
      assert (zlen (s_arr (buf_of l)) = 8) as C by (apply C8; destruct ty; cbn [id_digits] in *; lia).
      destruct Hc as [Hc|[id Hid]].
      * rewrite C in Hc. destruct ty; cbn [id_digits] in *; lia.
      * assert (id_digits ty = 8 \/ id_digits ty = 3) as [D|D] by (destruct ty; cbn; auto); [split; lia|].
        exfalso. revert Hid. rewrite A, El. rewrite D in *.
        assert (exists n', n = Datatypes.S n') as [n' ->].
        { rewrite A, zlen_app, zlen_repeat in C. destruct n; [lia|eauto]. }
        unfold zsub. change (Z.to_nat 1) with 1%nat. change (Z.to_nat (3 + 1 - 1)) with 3%nat. cbn [skipn app].
        destruct r as [|a [|b [|c r]]]; cbn [app firstn repeat]; intros Hid.
        -- now apply (not_hex_zero [] _ _) in Hid.
        -- now apply (not_hex_zero [a] _ _) in Hid.
        -- now apply (not_hex_zero [a; b] _ _) in Hid.
        -- rewrite !zlen_cons in *. pose proof (zlen_nonneg r). lia.
  - intros (ty & r & El & Hc). exists ty, r. split; [exact El|].
    assert (zlen l = 1 + zlen r) by (rewrite El; apply zlen_cons). pose proof (zlen_nonneg r).
    destruct Hc as [[D Hr]|[Er Hid]].
    + split; [lia|]. left. rewrite C8 by lia. lia.
    + split; [lia|]. right. rewrite (Sub ty r El Er). exact Hid.
Qed.

(* ------------------------------------------------------------ the read loop *)
(** Bytes that are neither a start character nor CR. *)
Definition sof_plain (b : byte) : Prop := is_sof b = false /\ b <> 13.
Definition sof_free (b : byte) : Prop := is_sof b = false.

Lemma loop_body body : forall rest rx msg st l, Forall sof_plain body -> buf_of l = msg ->
  exists rx', read_loop (evs_of body ++ rest) rx msg true st = read_loop rest rx' (buf_of (l ++ body)) true st.
Proof.
  induction body as [|b body IH]; intros rest rx msg st l F E.
  - exists rx. cbn. rewrite app_nil_r. now subst.
  - inversion F as [|? ? [H1 H2] F']; subst. rewrite evs_cons; cbn [app read_loop].
    rewrite H1. replace (b =? 13) with false by lia. cbn [andb].
    destruct (IH rest b (s_append (buf_of l) b) st (l ++ [b]) F') as (rx' & ->); [apply buf_of_snoc|].
    exists rx'. now rewrite <- app_assoc.
Qed.

(** One complete line, from any point of the loop. *)
Lemma loop_line c body rest rx msg sof st :
  is_sof c = true -> Forall sof_plain body ->
  read_loop (evs_of (c :: body) ++ RByte 13 :: rest) rx msg sof st =
  match frameReceived st (buf_of (c :: body)) with
  | (st', Ret f) => RdMsg (cf_raw f) rest st'
  | (st', Err _) => read_loop rest 13 (buf_of (c :: body)) true st'
  | (st', Panic _) => RdPanic st'
  end.
Proof.
  intros Hc F. rewrite evs_cons; cbn [app read_loop]. rewrite Hc.
  change (s_append nil_slice c) with (buf_of [c]).
  destruct (loop_body body (RByte 13 :: rest) c (buf_of [c]) st [c] F eq_refl) as (rx' & E).
  rewrite E. cbn [app read_loop].
  change (is_sof 13) with false. change (13 =? 13) with true. cbn [andb]. reflexivity.
Qed.

Lemma loop_noise noise : forall rest rx msg sof st, Forall sof_plain noise ->
  exists rx' msg', read_loop (evs_of noise ++ rest) rx msg sof st = read_loop rest rx' msg' sof st.
Proof.
  induction noise as [|b noise IH]; intros rest rx msg sof st F; [exists rx, msg; reflexivity|].
  inversion F as [|? ? [H1 H2] F']; subst. rewrite evs_cons; cbn [app read_loop].
  rewrite H1. replace (b =? 13) with false by lia. cbn [andb].
  destruct sof; apply IH; assumption.
Qed.

Lemma loop_fresh_noise noise : forall rest rx msg st, Forall sof_free noise ->
  exists rx', read_loop (evs_of noise ++ rest) rx msg false st = read_loop rest rx' msg false st.
Proof.
  induction noise as [|b noise IH]; intros rest rx msg st F; [exists rx; reflexivity|].
  inversion F as [|? ? H1 F']; subst. rewrite evs_cons; cbn [app read_loop].
  unfold sof_free in H1. rewrite H1, andb_false_r. now apply IH.
Qed.

(** The next start character forgets everything but the reassembly state. *)
Lemma loop_restart c rest rx msg sof st :
  is_sof c = true -> read_loop (RByte c :: rest) rx msg sof st = read_loop (RByte c :: rest) 0 (mkslice [0] 1) false st.
Proof. intros Hc. cbn [read_loop]. now rewrite Hc. Qed.

Lemma loop_prefix pre : forall rx msg sof st st1 c rest,
  read_loop pre rx msg sof st = RdBlock st1 -> is_sof c = true ->
  read_loop (pre ++ RByte c :: rest) rx msg sof st = read_loop (RByte c :: rest) 0 (mkslice [0] 1) false st1.
Proof.
  induction pre as [|e pre IH]; intros rx msg sof st st1 c rest H Hc.
  - cbn [app]. cbn in H. injection H as <-. now apply loop_restart.
  - cbn [app]. destruct e as [b| |]; cbn [read_loop] in *; try discriminate.
    + destruct (is_sof b); [now apply IH|]. destruct ((b =? 13) && sof).
      * destruct (frameReceived st msg) as [st2 [f|e|e]]; try discriminate. now apply IH.
      * destruct sof; now apply IH.
    + destruct (is_sof rx); [now apply IH|]. destruct ((rx =? 13) && sof).
      * destruct (frameReceived st msg) as [st2 [f|e|e]]; try discriminate. now apply IH.
      * destruct sof; now apply IH.
Qed.

(* ------------------------------------------------------------ streams *)
(** Messages obtained by calling Read again and again. *)
Inductive reads (p : can_port) : can_state -> list rd_event -> list raw_message -> can_state -> list rd_event -> Prop :=
| reads_nil st evs : reads p st evs [] st evs
| reads_cons st evs m rest st1 ms st2 rest2 :
    Read p st evs = RdMsg m rest st1 -> reads p st1 rest ms st2 rest2 -> reads p st evs (m :: ms) st2 rest2.

(** A stream: noise and lines. *)
Fixpoint stream (items : list (bytes * bytes)) : list rd_event :=
  match items with
  | [] => []
  | (noise, line) :: r => evs_of noise ++ evs_of line ++ RByte 13 :: stream r
  end.

Definition sof_line (l : bytes) : Prop := exists c body, l = c :: body /\ is_sof c = true /\ Forall sof_plain body.

(** The frames of lines, and the messages among outcomes. *)
Fixpoint rets (os : list (outcome can_frame)) : list raw_message :=
  match os with [] => [] | Ret f :: r => cf_raw f :: rets r | _ :: r => rets r end.
Definition no_panic (os : list (outcome can_frame)) : Prop := Forall (fun o => forall w, o <> Panic w) os.

Definition spells (l : bytes) (f : can_frame) : Prop :=
  exists ty id data, frame_text l ty id data /\ f = mkframe (frame_message id data) ty id 0 0.

Lemma frameReceived_spells st l f : spells l f -> frameReceived st (buf_of l) = frame_step st f.
Proof.
  intros (ty & id & data & Ht & ->). unfold frameReceived.
  assert (ParseFrame (buf_of l) = Ret (mkframe (frame_message id data) ty id 0 0)) as ->; [|reflexivity].
  apply ParseFrame_accepts; [apply buf_of_ok|]. rewrite buf_of_val. eauto.
Qed.

Lemma stream_reads p tail : cp_open p = true -> Forall sof_plain tail ->
  forall items fs st st' os rx msg sof, registry_ok st ->
  Forall (fun it => Forall sof_plain (fst it)) items -> Forall (fun it => sof_line (snd it)) items ->
  Forall2 (fun it f => spells (snd it) f) items fs ->
  receive st fs = (st', os) -> no_panic os ->
  (exists stb, read_loop (stream items ++ evs_of tail) rx msg sof st = RdBlock stb /\ rets os = [] /\ stb = st') \/
  (exists m rest st1 ms st2 rest2, read_loop (stream items ++ evs_of tail) rx msg sof st = RdMsg m rest st1 /\
     rets os = m :: ms /\ reads p st1 rest ms st2 rest2 /\ Read p st2 rest2 = RdBlock st').
Proof.
  intros Ho Ht. induction items as [|[noise line] items IH]; intros fs st st' os rx msg sof R Fn Fl W E NP.
  - inversion W; subst fs. cbn in E. injection E as <- <-. left. cbn [stream app].
    destruct (loop_noise tail [] rx msg sof st Ht) as (rx' & msg' & E). rewrite app_nil_r in E. rewrite E.
    cbn. eauto.
  - inversion Fn as [|? ? Fn1 Fn2]; subst. inversion Fl as [|? ? Fl1 Fl2]; subst.
    inversion W as [|? f ? fs' W1 W2]; subst. cbn [fst snd] in *.
    cbn [receive] in E. destruct (frame_step st f) as [st1 o] eqn:E1.
    destruct (receive st1 fs') as [st2 os'] eqn:E2. injection E as <- <-.
    inversion NP as [|? ? NP1 NP2]; subst.
    pose proof (step_registry _ _ _ _ R E1) as R1.
    cbn [stream]. rewrite <- !app_assoc. cbn [app].
    destruct (loop_noise noise (evs_of line ++ RByte 13 :: stream items ++ evs_of tail) rx msg sof st Fn1) as (rx' & msg' & ->).
    destruct Fl1 as (c & body & -> & Hc & Hb).
    rewrite loop_line by assumption. rewrite (frameReceived_spells st _ f W1), E1.
    destruct o as [m|e|e].
    + right. exists (cf_raw m), (stream items ++ evs_of tail), st1.
      destruct (IH fs' st1 st2 os' 0 (mkslice [0] 1) false R1 Fn2 Fl2 W2 E2 NP2) as [(stb & L & RT & ->)|(m2 & rest & sta & ms & stc & rest2 & L & RT & RD & RB)].
      * exists [], st1, (stream items ++ evs_of tail). split; [reflexivity|]. cbn [rets]. rewrite RT. split; [reflexivity|].
        split; [constructor|]. unfold Read. rewrite Ho. exact L.
      * exists (m2 :: ms), stc, rest2. split; [reflexivity|]. cbn [rets]. rewrite RT. split; [reflexivity|].
        split; [|exact RB]. econstructor; [|exact RD]. unfold Read. rewrite Ho. exact L.
    + destruct (IH fs' st1 st2 os' 13 (buf_of (c :: body)) true R1 Fn2 Fl2 W2 E2 NP2) as [H|H].
      * left. cbn [rets]. exact H.
      * right. cbn [rets]. exact H.
    + exfalso. apply (NP1 e). reflexivity.
Qed.

(** When every line is delivered at once, the noise may contain carriage returns too. *)
Lemma stream_reads_all p tail : cp_open p = true -> Forall sof_free tail ->
  forall items fs st st' os, registry_ok st ->
  Forall (fun it => Forall sof_free (fst it)) items -> Forall (fun it => sof_line (snd it)) items ->
  Forall2 (fun it f => spells (snd it) f) items fs ->
  receive st fs = (st', os) -> Forall (fun o => exists f, o = Ret f) os ->
  exists rest2, reads p st (stream items ++ evs_of tail) (rets os) st' rest2 /\ Read p st' rest2 = RdBlock st'.
Proof.
  intros Ho Ht. induction items as [|[noise line] items IH]; intros fs st st' os R Fn Fl W E NP.
  - inversion W; subst fs. cbn in E. injection E as <- <-. exists (evs_of tail). cbn [stream app rets].
    split; [constructor|]. unfold Read. rewrite Ho.
    destruct (loop_fresh_noise tail [] 0 (mkslice [0] 1) st Ht) as (rx' & E). rewrite app_nil_r in E. rewrite E.
    reflexivity.
  - inversion Fn as [|? ? Fn1 Fn2]; subst. inversion Fl as [|? ? Fl1 Fl2]; subst.
    inversion W as [|? f ? fs' W1 W2]; subst. cbn [fst snd] in *.
    cbn [receive] in E. destruct (frame_step st f) as [st1 o] eqn:E1.
    destruct (receive st1 fs') as [st2 os'] eqn:E2. injection E as <- <-.
    inversion NP as [|? ? [m ->] NP2]; subst.
    pose proof (step_registry _ _ _ _ R E1) as R1.
    destruct (IH fs' st1 st2 os' R1 Fn2 Fl2 W2 E2 NP2) as (rest2 & RD & RB).
    exists rest2. split; [|exact RB]. cbn [rets]. econstructor; [|exact RD].
    unfold Read. rewrite Ho. cbn [stream]. rewrite <- !app_assoc. cbn [app].
    destruct (loop_fresh_noise noise (evs_of line ++ RByte 13 :: stream items ++ evs_of tail) 0 (mkslice [0] 1) st Fn1) as (rx' & ->).
    destruct Fl1 as (c & body & -> & Hc & Hb).
    rewrite loop_line by assumption. now rewrite (frameReceived_spells st _ f W1), E1.
Qed.

(** A carriage return after a line that was not delivered processes that line again. *)
Lemma loop_again c body rest rx msg sof st st1 e :
  is_sof c = true -> Forall sof_plain body -> frameReceived st (buf_of (c :: body)) = (st1, Err e) ->
  read_loop (evs_of (c :: body) ++ RByte 13 :: RByte 13 :: rest) rx msg sof st =
  read_loop (evs_of (c :: body) ++ RByte 13 :: rest) 0 (mkslice [0] 1) false st1.
Proof.
  intros Hc F E. rewrite (loop_line c body (RByte 13 :: rest)) by assumption. rewrite E.
  rewrite (loop_line c body rest) by assumption. cbn [read_loop].
  change (is_sof 13) with false. change (13 =? 13) with true. cbn [andb]. reflexivity.
Qed.
