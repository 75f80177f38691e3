(** ActisenseProofs: lemmas for C20-C27. *)
From Coq Require Import ZifyBool.
From Verif Require Import GoBase BufFacts CanModel ActisenseModel ActisenseSpec.
Ltac dm := Z.div_mod_to_equations; lia.

(* ---------------------------------------------------------------- writing *)
Lemma stuff_spec p : forall c, is_byte c -> stuff p c = (escaped p, u8 (c + total p)).
Proof.
  induction p as [|b p IH]; intros c Hc.
  - cbn. rewrite Z.add_0_r, u8_id by assumption. reflexivity.
  - cbn [stuff escaped]. rewrite IH by apply u8_byte. unfold DLE.
    assert (u8 (u8 (c + b) + total p) = u8 (c + total (b :: p))) as ->.
    { cbn [total fold_right]. fold (total p). unfold u8. rewrite Zplus_mod_idemp_l. f_equal. lia. }
    destruct (Z.eqb_spec b 16); [subst b|]; reflexivity.
Qed.

Lemma wire_envelope c p : is_byte c -> envelope c p (wire c p).
Proof.
  intros Hc. unfold envelope, wire. rewrite stuff_spec by assumption.
  eexists. split; [apply u8_byte|]. split; [reflexivity|]. unfold u8. dm.
Qed.
Lemma envelope_unique c p w1 w2 : envelope c p w1 -> envelope c p w2 -> w1 = w2.
Proof.
  intros (k1 & B1 & -> & E1) (k2 & B2 & -> & E2). assert (k1 = k2) as ->; [|reflexivity].
  unfold is_byte in *. dm.
Qed.

Lemma act_write_spec p c pl w : is_byte c -> envelope c pl w ->
  exists p', w_log (ap_port p') = w_log (ap_port p) ++ [w] /\ w_ans (ap_port p') = w_ans (ap_port p) /\
    ap_open p' = ap_open p /\
    act_write p c pl = (p', match w_ans (ap_port p) (List.length (w_log (ap_port p))) with
                            | None => Ret (zlen w) | Some _ => Err "write error" end).
Proof.
  intros Hc E. rewrite <- (envelope_unique c pl _ _ (wire_envelope c pl Hc) E).
  unfold act_write, w_write. destruct (w_ans (ap_port p) _); eexists; (split; [|split; [|split; [|reflexivity]]]); reflexivity.
Qed.

(* ---------------------------------------------------------------- reading *)
Lemma loop_rbyte b rest rx st buf :
  act_loop (RByte b :: rest) rx st buf =
  match deframe st buf b with
  | (st', buf', None) => act_loop rest b st' buf'
  | (st', buf', Some m) =>
      match messageReceived m with
      | Ret r => ARMsg r rest | Err _ => act_loop rest b st' buf' | Panic _ => ARPanic rest end
  end.
Proof. reflexivity. Qed.

Lemma loop_escaped m : forall rest rx l,
  exists rx', act_loop (evs_of (escaped m) ++ rest) rx MsgMessage (buf_of l)
              = act_loop rest rx' MsgMessage (buf_of (l ++ m)).
Proof.
  induction m as [|b m IH]; intros rest rx l.
  - exists rx. cbn. now rewrite app_nil_r.
  - cbn [escaped]. destruct (Z.eqb_spec b 16) as [->|N].
    + change (evs_of (16 :: 16 :: escaped m) ++ rest) with (RByte 16 :: RByte 16 :: evs_of (escaped m) ++ rest).
      change (act_loop (RByte 16 :: RByte 16 :: evs_of (escaped m) ++ rest) rx MsgMessage (buf_of l))
        with (act_loop (evs_of (escaped m) ++ rest) 16 MsgMessage (s_append (buf_of l) 16)).
      rewrite <- buf_of_snoc. destruct (IH rest 16 (l ++ [16])) as (rx' & ->).
      rewrite <- app_assoc. cbn [app]. eauto.
    + rewrite evs_cons. cbn [app]. rewrite loop_rbyte. cbn [deframe]. unfold DLE.
      destruct (Z.eqb_spec b 16) as [|_]; [congruence|].
      rewrite <- buf_of_snoc. destruct (IH rest b (l ++ [b])) as (rx' & ->).
      rewrite <- app_assoc. cbn [app]. eauto.
Qed.

(** Outcome of a completed message. *)
Definition finish (m : bytes) (rest : list rd_event) : act_result :=
  match messageReceived (buf_of m) with
  | Ret r => ARMsg r rest | Err _ => act_read rest | Panic _ => ARPanic rest end.

(** What is in the buffer when a message completes, if the reader was in state st with l. *)
Definition merged (st : msg_state) (l m : bytes) : bytes :=
  match st with MsgStart => m | MsgMessage => l ++ m | MsgEscape => l ++ [16; 2] ++ m end.

Lemma start_rx evs : forall rx buf, rx <> 16 -> act_loop evs rx MsgStart buf = act_loop evs 0 MsgStart buf.
Proof.
  induction evs as [|e evs IH]; intros rx buf N; [reflexivity|].
  destruct e as [b| |]; cbn [act_loop]; [reflexivity| |reflexivity].
  cbn [deframe]. unfold DLE. destruct (Z.eqb_spec rx 16); [congruence|]. change (0 =? 16) with false. cbn iota.
  rewrite !(IH _ _ N). reflexivity.
Qed.

Lemma loop_end rest rx l : act_loop (RByte 16 :: RByte 3 :: rest) rx MsgMessage (buf_of l) = finish l rest.
Proof.
  unfold finish, act_read.
  change (act_loop (RByte 16 :: RByte 3 :: rest) rx MsgMessage (buf_of l))
    with (match messageReceived (buf_of l) with
          | Ret r => ARMsg r rest | Err _ => act_loop rest 3 MsgStart nil_slice | Panic _ => ARPanic rest end).
  destruct (messageReceived (buf_of l)); try reflexivity. apply start_rx. lia.
Qed.

Lemma loop_on_line st l m rest rx : (st = MsgStart -> l = []) ->
  act_loop (evs_of (on_line m) ++ rest) rx st (buf_of l) = finish (merged st l m) rest.
Proof.
  intros H. unfold on_line. unfold evs_of. rewrite !map_app. fold (evs_of (escaped m)). cbn [map].
  rewrite <- !app_assoc. cbn [app].
  assert (K : forall l' rx', act_loop (evs_of (escaped m) ++ RByte 16 :: RByte 3 :: rest) rx' MsgMessage (buf_of l')
                             = finish (l' ++ m) rest).
  { intros l' rx'. destruct (loop_escaped m (RByte 16 :: RByte 3 :: rest) rx' l') as (rx2 & ->). apply loop_end. }
  destruct st; cbn [merged].
  - rewrite (H eq_refl).
    change (act_loop (evs_of (escaped m) ++ RByte 16 :: RByte 3 :: rest) 2 MsgMessage (buf_of []) = finish m rest).
    apply (K []).
  - change (act_loop (evs_of (escaped m) ++ RByte 16 :: RByte 3 :: rest) 2 MsgMessage (s_append (s_append (buf_of l) 16) 2)
            = finish (l ++ [16; 2] ++ m) rest).
    rewrite <- !buf_of_snoc. rewrite K. rewrite <- !app_assoc. reflexivity.
  - change (act_loop (evs_of (escaped m) ++ RByte 16 :: RByte 3 :: rest) 2 MsgMessage (buf_of l) = finish (l ++ m) rest).
    apply K.
Qed.

(** The reader's state after input that completed nothing deliverable. *)
Fixpoint run (evs : list rd_event) (rx : byte) (st : msg_state) (buf : slice) : option (byte * msg_state * slice) :=
  match evs with
  | [] => Some (rx, st, buf)
  | RErr :: _ => None
  | ev :: rest =>
      let b := match ev with RByte x => x | _ => rx end in
      match deframe st buf b with
      | (st', buf', None) => run rest b st' buf'
      | (st', buf', Some m) => match messageReceived m with Err _ => run rest b st' buf' | _ => None end
      end
  end.
Lemma run_loop evs : forall rx st buf, act_loop evs rx st buf = ARBlock ->
  exists rx' st' buf', run evs rx st buf = Some (rx', st', buf') /\
    forall more, act_loop (evs ++ more) rx st buf = act_loop more rx' st' buf'.
Proof.
  induction evs as [|e evs IH]; intros rx st buf H; [exists rx, st, buf; split; reflexivity|].
  destruct e as [b| |]; cbn [act_loop run app] in *; try discriminate;
    destruct (deframe _ _ _) as [[st' buf'] [m|]]; try (now apply IH);
    destruct (messageReceived m); try discriminate; now apply IH.
Qed.
Definition rd_inv (st : msg_state) (buf : slice) : Prop := exists l, buf = buf_of l /\ (st = MsgStart -> l = []).
Lemma run_inv evs : forall rx st buf rx' st' buf', rd_inv st buf -> run evs rx st buf = Some (rx', st', buf') -> rd_inv st' buf'.
Proof.
  assert (D : forall st buf b st' buf' o, rd_inv st buf -> deframe st buf b = (st', buf', o) -> rd_inv st' buf').
  { intros st buf b st' buf' o (l & -> & H) E. destruct st; cbn [deframe] in E; unfold rd_inv;
    repeat match type of E with context [if ?c then _ else _] => destruct c end; injection E as <- <- <-;
    solve [ exists []; split; [reflexivity|auto] | exists l; split; [reflexivity|auto; discriminate]
          | exists (l ++ [b]); rewrite buf_of_snoc; split; [reflexivity|discriminate] ]. }
  induction evs as [|e evs IH]; intros rx st buf rx' st' buf' I H.
  - injection H as <- <- <-. exact I.
  - destruct e as [b| |]; cbn [run] in *; try discriminate;
      destruct (deframe _ _ _) as [[st1 buf1] [m|]] eqn:E; pose proof (D _ _ _ _ _ _ I E);
      try (destruct (messageReceived m); try discriminate); eapply IH; eassumption.
Qed.

(* ---------------------------------------------------------------- received messages *)
Lemma sum8_total_gen l : forall c, is_byte c -> fold_left (fun c b => u8 (c + b)) l c = (c + total l) mod 256.
Proof.
  induction l as [|b l IH]; intros c Hc.
  - cbn. rewrite Z.add_0_r, Z.mod_small; auto.
  - cbn [fold_left]. rewrite IH by apply u8_byte. cbn [total fold_right]. fold (total l). unfold u8.
    rewrite Zplus_mod_idemp_l. f_equal. lia.
Qed.
Lemma sum8_total l : sum8 l = total l mod 256.
Proof. unfold sum8. rewrite sum8_total_gen; [reflexivity|unfold is_byte; lia]. Qed.

Lemma at_idx_val {A} (r z : bytes) i (k : byte -> outcome A) : 0 <= i ->
  at_idx (mkslice (r ++ z) (zlen r)) i k =
  match zget r i with None => Panic "index out of range" | Some b => k b end.
Proof.
  intros Hi. unfold at_idx, s_get. cbn [s_arr s_len]. destruct (Z_lt_dec i (zlen r)).
  - replace ((0 <=? i) && (i <? zlen r)) with true by lia. now rewrite zget_app_l.
  - replace ((0 <=? i) && (i <? zlen r)) with false by lia.
    assert (zget r i = None) as -> by (apply zget_none; lia). reflexivity.
Qed.

(** messageReceived on a receive buffer. *)
Lemma received_cases m : exists z, s_arr (buf_of m) = m ++ z /\ z = repeat 0 (List.length z) /\
  messageReceived (buf_of m) =
  match m with
  | c :: a :: b :: r0 =>
      if total m mod 256 =? 0 then
        if c =? 147 then n2kMessageReceived (mkslice ((a :: b :: r0) ++ z) (zlen (a :: b :: r0)))
        else if c =? 160 then ngtMessageReceived (mkslice ((a :: b :: r0) ++ z) (zlen (a :: b :: r0)))
        else Err "unknown message type"
      else Err "ignoring message with invalid checksum"
  | _ => Err "ignore short command"
  end.
Proof.
  destruct (buf_of_inv m) as (n & A & Ln & _). exists (repeat 0 n). rewrite repeat_length.
  split; [exact A|]. split; [reflexivity|].
  unfold messageReceived. rewrite Ln.
  destruct m as [|c [|a [|b r0]]]; try reflexivity.
  set (r := a :: b :: r0) in *.
  assert (zlen (c :: r) = 1 + zlen r) as L by apply zlen_cons.
  assert (2 <= zlen r) by (unfold r; rewrite !zlen_cons; pose proof (zlen_nonneg r0); lia).
  replace (zlen (c :: r) <? 3) with false by lia. rewrite buf_of_val, sum8_total.
  destruct (total (c :: r) mod 256 =? 0); cbn [negb]; [|reflexivity].
  assert (at_idx (buf_of (c :: r)) 0 = fun k : byte -> outcome raw_message => k c) as ->.
  { unfold at_idx, s_get. rewrite A, Ln. replace ((0 <=? 0) && (0 <? zlen (c :: r))) with true by lia. reflexivity. }
  rewrite s_sub_some; [|lia|unfold s_cap; rewrite A, zlen_app; pose proof (zlen_nonneg (repeat 0 n)); lia].
  rewrite A. change (Z.to_nat 1) with 1%nat. cbn [skipn app].
  replace (zlen (c :: r) - 1) with (zlen r) by lia. reflexivity.
Qed.

Ltac geti := repeat (rewrite at_idx_val by lia; cbn iota beta);
  repeat match goal with |- context [zget (?x :: ?l) 0] => rewrite (zget_cons_0 x l) end; cbn iota beta.

Lemma n2k_short r z : 1 <= zlen r < 12 ->
  n2kMessageReceived (mkslice (r ++ z) (zlen r)) =
  if nth 0 r 0 <? 11 then Err "ignore short msg" else Panic "index out of range".
Proof.
  intros H. unfold n2kMessageReceived. rewrite at_idx_val by lia.
  rewrite (zget_nth r 0 0) by lia. change (Z.to_nat 0) with 0%nat. cbn iota beta.
  destruct (nth 0 r 0 <? 11); [reflexivity|].
  repeat (rewrite at_idx_val by lia;
          match goal with |- match zget ?l ?i with _ => _ end = _ => destruct (zget l i) eqn:?; [|reflexivity] end; cbn iota beta).
  match goal with E : zget r 11 = Some _ |- _ => apply zget_some in E; lia end.
Qed.

Lemma n2k_long pl prio p0 p1 p2 dst src t0 t1 t2 t3 lth body z :
  is_byte p0 -> is_byte p1 -> is_byte p2 -> is_byte lth ->
  let r := pl :: prio :: p0 :: p1 :: p2 :: dst :: src :: t0 :: t1 :: t2 :: t3 :: lth :: body in
  n2kMessageReceived (mkslice (r ++ z) (zlen r)) =
  if pl <? 11 then Err "ignore short msg"
  else if 223 <? lth then Err "ignore long msg"
  else if zlen body <? lth then Err "ignore corrupt msg"
  else Ret (mkraw prio (p0 + 256 * p1 + 65536 * p2) src dst lth (firstn (Z.to_nat lth) body)).
Proof.
  intros B0 B1 B2 BL r. unfold n2kMessageReceived. rewrite at_idx_val by lia.
  change (zget r 0) with (Some pl). cbn iota beta. destruct (pl <? 11); [reflexivity|].
  rewrite at_idx_val by lia. change (zget r 1) with (Some prio). cbn iota beta.
  rewrite at_idx_val by lia. change (zget r 2) with (Some p0). cbn iota beta.
  rewrite at_idx_val by lia. change (zget r 3) with (Some p1). cbn iota beta.
  rewrite at_idx_val by lia. change (zget r 4) with (Some p2). cbn iota beta.
  rewrite at_idx_val by lia. change (zget r 5) with (Some dst). cbn iota beta.
  rewrite at_idx_val by lia. change (zget r 6) with (Some src). cbn iota beta.
  rewrite at_idx_val by lia. change (zget r 11) with (Some lth). cbn iota beta.
  destruct (223 <? lth) eqn:H2; [reflexivity|].
  assert (Lr : zlen r = 12 + zlen body) by (unfold r; rewrite !zlen_cons; lia).
  unfold is_byte in *. rewrite (u8_id (lth + 12)) by (unfold is_byte; lia). cbn [s_len].
  rewrite Lr. destruct (zlen body <? lth) eqn:H3.
  - replace (12 + zlen body <? lth + 12) with true by lia. reflexivity.
  - replace (12 + zlen body <? lth + 12) with false by lia.
    rewrite s_sub_some; [|lia|unfold s_cap; cbn [s_arr]; rewrite zlen_app, Lr; pose proof (zlen_nonneg z); lia].
    f_equal.
    assert (Z.lor (Z.lor p0 (u32 (Z.shiftl p1 8))) (u32 (Z.shiftl p2 16)) = p0 + 256 * p1 + 65536 * p2) as ->.
    { rewrite !Z.shiftl_mul_pow2 by lia. change (2 ^ 8) with 256. change (2 ^ 16) with 65536.
      rewrite !u32_id by lia.
      assert (K : forall a b n, 0 <= n -> 0 <= a < 2 ^ n -> Z.lor a (b * 2 ^ n) = a + b * 2 ^ n).
      { intros a b n Hn Ha. assert (Z.land a (b * 2 ^ n) = 0); [|now rewrite Z.add_nocarry_lxor, Z.lxor_lor].
        apply Z.bits_inj'. intros i Hi. rewrite Z.land_spec, Z.bits_0.
        destruct (Z_lt_dec i n).
        - rewrite Z.mul_pow2_bits_low by lia. apply andb_false_r.
        - destruct (Z.eq_dec a 0) as [->|Na]; [now rewrite Z.bits_0|].
          rewrite (Z.bits_above_log2 a); [reflexivity|lia|].
          apply Z.lt_le_trans with n; [|lia]. apply Z.log2_lt_pow2; lia. }
      change 256 with (2 ^ 8). change 65536 with (2 ^ 16). rewrite (K p0 p1 8) by lia. rewrite K; lia. }
    f_equal. unfold s_val. cbn [s_arr s_len]. change (Z.to_nat 12) with 12%nat. unfold r. cbn [skipn app].
    replace (lth + 12 - 12) with lth by lia. rewrite firstn_app.
    replace (Z.to_nat lth - List.length body)%nat with 0%nat by (unfold zlen in *; lia).
    rewrite firstn_O, app_nil_r. reflexivity.
Qed.

Lemma ngt_val pl id body z : is_byte pl -> is_byte id ->
  let r := pl :: id :: body in
  ngtMessageReceived (mkslice (r ++ z) (zlen r)) =
  if pl <? 12 then Err "ignore short msg"
  else if (pl =? 255) || (zlen body + zlen z <? pl - 1) then Panic "slice bounds out of range"
  else Ret (mkraw 0 (262144 + id) 0 0 (pl - 1) (firstn (Z.to_nat (pl - 1)) (body ++ z))).
Proof.
  intros BP BI r. unfold ngtMessageReceived. rewrite at_idx_val by lia.
  change (zget r 0) with (Some pl). cbn iota beta. destruct (pl <? 12) eqn:H1; [reflexivity|].
  rewrite at_idx_val by lia. change (zget r 1) with (Some id). cbn iota beta. unfold is_byte in *.
  pose proof (zlen_nonneg body). pose proof (zlen_nonneg z).
  destruct (Z.eqb_spec pl 255) as [->|N].
  - cbn [orb]. change (u8 (255 + 1)) with 0. rewrite s_sub_none by lia. reflexivity.
  - cbn [orb]. rewrite (u8_id (pl + 1)) by (unfold is_byte; lia). rewrite (u8_id (pl - 1)) by (unfold is_byte; lia).
    rewrite u32_id by lia.
    assert (zlen (r ++ z) = 2 + zlen body + zlen z) as Lr by (unfold r; rewrite zlen_app, !zlen_cons; lia).
    destruct (zlen body + zlen z <? pl - 1) eqn:H2.
    + rewrite s_sub_none; [reflexivity|]. right. unfold s_cap. cbn [s_arr]. lia.
    + rewrite s_sub_some; [|lia|unfold s_cap; cbn [s_arr]; lia].
      f_equal. f_equal. unfold s_val. cbn [s_arr s_len]. change (Z.to_nat 2) with 2%nat. unfold r. cbn [skipn app].
      f_equal. lia.
Qed.

Lemma capacity_unique n c1 c2 : buffer_capacity n c1 -> buffer_capacity n c2 -> c1 = c2.
Proof.
  assert (W : forall k j, 0 <= k -> k < j -> 8 * 2 ^ k <= 8 * 2 ^ j / 2).
  { intros k j Hk Hj. replace j with (k + 1 + (j - k - 1)) by lia. rewrite !Z.pow_add_r by lia. change (2 ^ 1) with 2.
    pose proof (Z.pow_pos_nonneg 2 (j - k - 1) ltac:(lia) ltac:(lia)).
    pose proof (Z.pow_pos_nonneg 2 k ltac:(lia) ltac:(lia)).
    replace (8 * (2 ^ k * 2 * 2 ^ (j - k - 1))) with (8 * 2 ^ k * 2 ^ (j - k - 1) * 2) by ring.
    rewrite Z.div_mul by lia. nia. }
  assert (O : forall j, 0 < j -> 8 * 2 ^ j <> 8).
  { intros j Hj E. specialize (W 0 j ltac:(lia) Hj). rewrite E in W. change (8 * 2 ^ 0) with 8 in W. change (8 / 2) with 4 in W. lia. }
  intros (k & K0 & -> & K1 & K2) (j & J0 & -> & J1 & J2).
  destruct (Z.lt_trichotomy k j) as [L|[->|L]]; [|reflexivity|].
  - specialize (W k j K0 L). pose proof (O j ltac:(lia)). lia.
  - specialize (W j k J0 L). pose proof (O k ltac:(lia)). lia.
Qed.
Lemma buf_capacity m : m <> [] -> buffer_capacity (zlen m) (s_cap (buf_of m)).
Proof.
  intros H. destruct (buf_cap m H) as (k & K0 & K1 & K2 & K3). exists k. split; [exact K0|]. split; [exact K1|].
  split; [lia|]. rewrite K1. destruct K3 as [->|K3]; [left; reflexivity|right].
  replace (8 * 2 ^ k) with (4 * 2 ^ k * 2) by ring. rewrite Z.div_mul by lia. exact K3.
Qed.

Lemma bytes_cons_inv b l : bytes_ok (b :: l) -> is_byte b /\ bytes_ok l.
Proof. intros H. inversion H; auto. Qed.
Ltac bytes_split := repeat match goal with H : bytes_ok (_ :: _) |- _ => apply bytes_cons_inv in H as [? H] end.

(** Padding: firstn of body ++ zeros. *)
Lemma firstn_pad n (body z d : bytes) : z = repeat 0 (List.length z) -> zlen d = n -> n <= zlen body + zlen z ->
  (exists more pad, d ++ more = body ++ repeat 0 pad) <-> d = firstn (Z.to_nat n) (body ++ z).
Proof.
  intros Hz Hd Hn. split.
  - intros (more & pad & E).
    assert (d = firstn (List.length d) (body ++ repeat 0 pad)) as ->.
    { rewrite <- E. now rewrite firstn_app, Nat.sub_diag, firstn_all, firstn_O, app_nil_r. }
    assert (List.length d = Z.to_nat n) as Ld by (unfold zlen in Hd; lia).
    assert (Ld2 : (Z.to_nat n <= List.length body + pad)%nat).
    { rewrite <- Ld, <- (repeat_length 0 pad), <- app_length, <- E, app_length. lia. }
    rewrite Ld. rewrite Hz, !firstn_app. f_equal.
    assert (F : forall a b, (a <= b)%nat -> firstn a (repeat 0 b) = repeat 0 a).
    { induction a; intros [|b] Hab; cbn; try reflexivity; try lia. f_equal. apply IHa. lia. }
    rewrite !F; [reflexivity|unfold zlen in *; lia|lia].
  - intros ->. exists (skipn (Z.to_nat n) (body ++ z)), (List.length z). rewrite firstn_skipn, <- Hz. reflexivity.
Qed.

Lemma total_mod_dec m : {total m mod 256 = 0} + {total m mod 256 <> 0}.
Proof. apply Z.eq_dec. Qed.

Lemma Ret_inj {A} (a b : A) : Ret a = Ret b -> a = b.
Proof. congruence. Qed.

Lemma delivers_cases m r : bytes_ok m -> (messageReceived (buf_of m) = Ret r <-> delivers m r).
Proof.
  intros Hm. destruct (received_cases m) as (z & A & Hz & E). rewrite E. clear E. split.
  - intros H. destruct m as [|c [|a [|b r0]]]; try discriminate.
    destruct (Z.eqb_spec (total (c :: a :: b :: r0) mod 256) 0) as [T|]; [|discriminate].
    destruct (Z.eqb_spec c 147) as [->|Nc].
    + left. destruct (Z_lt_dec (zlen (a :: b :: r0)) 12) as [S|S].
      { rewrite n2k_short in H by (rewrite !zlen_cons in *; pose proof (zlen_nonneg r0); lia).
        destruct (_ <? 11); discriminate. }
      assert (L : (12 <= List.length (a :: b :: r0))%nat) by (unfold zlen in S; lia).
      destruct r0 as [|x2 [|x3 [|x4 [|x5 [|x6 [|x7 [|x8 [|x9 [|x10 [|lth body]]]]]]]]]]; cbn [List.length] in L; try lia.
      pose proof Hm as Hm'. bytes_split. rewrite n2k_long in H by assumption.
      destruct (a <? 11) eqn:Q11; [discriminate|]. destruct (223 <? lth) eqn:Q223; [discriminate|].
      destruct (zlen body <? lth) eqn:Qb; [discriminate|]. apply Ret_inj in H. subst r.
      assert (zlen (firstn (Z.to_nat lth) body) = lth) as Ld.
      { unfold is_byte in *. rewrite zlen_firstn; unfold zlen in *; lia. }
      exists (mkn2k a b x2 x3 x4 x5 x6 [x7; x8; x9; x10] (firstn (Z.to_nat lth) body) (skipn (Z.to_nat lth) body)).
      unfold n2k_bytes, n2k_message. cbn [ny_plen ny_prio ny_p0 ny_p1 ny_p2 ny_dst ny_src ny_time ny_data ny_rest].
      rewrite Ld. split.
      { cbn [app]. rewrite firstn_skipn. reflexivity. }
      split; [reflexivity|]. split; [exact T|]. split; [lia|]. split; [lia|]. reflexivity.
    + destruct (Z.eqb_spec c 160) as [->|]; [|discriminate]. right.
      pose proof Hm as Hm'. bytes_split. rewrite ngt_val in H by assumption.
      destruct (a <? 12) eqn:Q12; [discriminate|].
      destruct ((a =? 255) || _) eqn:Qc; [discriminate|]. apply Ret_inj in H. subst r.
      unfold is_byte in *.
      assert (s_cap (buf_of (160 :: a :: b :: r0)) = 3 + zlen r0 + zlen z) as Hcap.
      { unfold s_cap. rewrite A, zlen_app, !zlen_cons. lia. }
      pose proof (buf_capacity (160 :: a :: b :: r0) ltac:(discriminate)) as Bc.
      unfold ngt_delivers. exists a. exists b. exists r0. eexists. split; [reflexivity|]. split; [exact T|].
      split; [lia|]. split; [exact Bc|]. split; [lia|]. cbn [rm_priority rm_pgn rm_source rm_dest rm_length rm_data].
      assert (Lf : zlen (firstn (Z.to_nat (a - 1)) (r0 ++ z)) = a - 1).
      { rewrite zlen_firstn; [lia|]. rewrite app_length. unfold zlen in *. lia. }
      do 5 (split; [reflexivity|]). split; [exact Lf|].
      apply (firstn_pad (a - 1) r0 z); [exact Hz|exact Lf|lia|reflexivity].
  - intros [(y & -> & Lt & T & Hp & Hl & ->)|(pl & id & body & c & -> & T & Hp & Hc & Hpc & D)].
    + unfold n2k_bytes in *. destruct y as [pl prio p0 p1 p2 dst src ti data rest].
      cbn [ny_plen ny_prio ny_p0 ny_p1 ny_p2 ny_dst ny_src ny_time ny_data ny_rest] in *.
      assert (List.length ti = 4%nat) as L4 by (unfold zlen in Lt; lia).
      destruct ti as [|t0 [|t1 [|t2 [|t3 [|]]]]]; try discriminate. cbn [app] in *.
      rewrite T. change (0 =? 0) with true. change (147 =? 147) with true. cbn iota.
      bytes_split. refine (eq_trans (n2k_long pl prio p0 p1 p2 dst src t0 t1 t2 t3 (zlen data) (data ++ rest) z _ _ _ _) _); try assumption.
      replace (pl <? 11) with false by lia. replace (223 <? zlen data) with false by lia.
      rewrite zlen_app. pose proof (zlen_nonneg rest). replace (zlen data + zlen rest <? zlen data) with false by lia.
      unfold n2k_message. cbn [ny_plen ny_prio ny_p0 ny_p1 ny_p2 ny_dst ny_src ny_time ny_data ny_rest].
      now rewrite firstn_zlen_app.
    + rewrite T. change (0 =? 0) with true. change (160 =? 147) with false. change (160 =? 160) with true. cbn iota.
      bytes_split. rewrite ngt_val by assumption.
      assert (c = s_cap (buf_of (160 :: pl :: id :: body))) as ->.
      { eapply capacity_unique; [exact Hc|apply buf_capacity; discriminate]. }
      unfold s_cap in Hpc. rewrite A, zlen_app, !zlen_cons in Hpc.
      replace (pl <? 12) with false by lia. replace (pl =? 255) with false by lia.
      replace (zlen body + zlen z <? pl - 1) with false by lia. cbn [orb].
      destruct r as [rp rg rs rd rl rdat]. cbn [rm_priority rm_pgn rm_source rm_dest rm_length rm_data] in D.
      destruct D as (-> & -> & -> & -> & -> & Ld & Pd).
      apply (firstn_pad (pl - 1) body z) in Pd; [|exact Hz|exact Ld|lia]. now rewrite <- Pd.
Qed.

Lemma crashes_cases m : bytes_ok m -> ((exists w, messageReceived (buf_of m) = Panic w) <-> crashes m).
Proof.
  intros Hm. destruct (received_cases m) as (z & A & Hz & E). rewrite E. clear E. unfold crashes. split.
  - intros [w H]. destruct m as [|c [|a [|b r0]]]; try discriminate.
    destruct (Z.eqb_spec (total (c :: a :: b :: r0) mod 256) 0) as [T|]; [|discriminate].
    split; [exact T|]. destruct (Z.eqb_spec c 147) as [->|Nc].
    + left. exists a, b, r0. split; [reflexivity|].
      destruct (Z_lt_dec (zlen (a :: b :: r0)) 12) as [S|S].
      * rewrite n2k_short in H by (rewrite !zlen_cons in *; pose proof (zlen_nonneg r0); lia).
        cbn [nth] in H. destruct (a <? 11) eqn:Q11; [discriminate|]. rewrite !zlen_cons in *. lia.
      * assert (L : (12 <= List.length (a :: b :: r0))%nat) by (unfold zlen in S; lia).
        destruct r0 as [|x2 [|x3 [|x4 [|x5 [|x6 [|x7 [|x8 [|x9 [|x10 [|lth body]]]]]]]]]]; cbn [List.length] in L; try lia.
        bytes_split. rewrite n2k_long in H by assumption.
        repeat match type of H with (if ?q then _ else _) = _ => destruct q; [discriminate|] end. discriminate.
    + destruct (Z.eqb_spec c 160) as [->|]; [|discriminate]. right.
      bytes_split. rewrite ngt_val in H by assumption.
      destruct (a <? 12) eqn:Q12; [discriminate|].
      destruct ((a =? 255) || _) eqn:Qc; [|discriminate]. 
      assert (s_cap (buf_of (160 :: a :: b :: r0)) = 3 + zlen r0 + zlen z) as Hcap.
      { unfold s_cap. rewrite A, zlen_app, !zlen_cons. lia. }
      exists a, b, r0, (s_cap (buf_of (160 :: a :: b :: r0))). split; [reflexivity|]. split; [lia|].
      split; [apply buf_capacity; discriminate|]. lia.
  - intros [T [(pl & x & rest & -> & Hp & Hs)|(pl & id & body & c & -> & Hp & Hc & D)]]; rewrite T; change (0 =? 0) with true; cbn iota.
    + change (147 =? 147) with true. cbn iota. rewrite !zlen_cons in Hs. pose proof (zlen_nonneg rest).
      rewrite n2k_short by (rewrite !zlen_cons; lia). cbn [nth]. replace (pl <? 11) with false by lia. eauto.
    + change (160 =? 147) with false. change (160 =? 160) with true. cbn iota. bytes_split. rewrite ngt_val by assumption.
      assert (c = s_cap (buf_of (160 :: pl :: id :: body))) as ->.
      { eapply capacity_unique; [exact Hc|apply buf_capacity; discriminate]. }
      unfold s_cap in D. rewrite A, zlen_app, !zlen_cons in D.
      replace (pl <? 12) with false by lia.
      destruct ((pl =? 255) || _) eqn:Q; [eauto|]. lia.
Qed.

(* ---------------------------------------------------------------- C21 *)
(** The messages completed while bytes go through the reader's state machine. *)
Fixpoint completed (st : msg_state) (buf : slice) (bs : bytes) : list bytes :=
  match bs with
  | [] => []
  | b :: r =>
      match deframe st buf b with
      | (st', buf', Some m) => s_val m :: completed st' buf' r
      | (st', buf', None) => completed st' buf' r
      end
  end.

Lemma completed_escaped m : forall rest l,
  completed MsgMessage (buf_of l) (escaped m ++ rest) = completed MsgMessage (buf_of (l ++ m)) rest.
Proof.
  induction m as [|b m IH]; intros rest l; [cbn [escaped app]; now rewrite app_nil_r|].
  cbn [escaped]. destruct (Z.eqb_spec b 16) as [->|N].
  - change (completed MsgMessage (buf_of l) ((16 :: 16 :: escaped m) ++ rest))
      with (completed MsgMessage (s_append (buf_of l) 16) (escaped m ++ rest)).
    rewrite <- buf_of_snoc, IH, <- app_assoc. reflexivity.
  - cbn [app completed deframe]. unfold DLE. destruct (Z.eqb_spec b 16) as [|_]; [congruence|].
    rewrite <- buf_of_snoc, IH, <- app_assoc. reflexivity.
Qed.

Definition is16 (b : Z) : Z := if b =? 16 then 1 else 0.
Definition cnt16 (l : bytes) : Z := fold_right (fun b n => is16 b + n) 0 l.
Lemma cnt16_cons b l : cnt16 (b :: l) = is16 b + cnt16 l.
Proof. reflexivity. Qed.
Lemma cnt16_app a b : cnt16 (a ++ b) = cnt16 a + cnt16 b.
Proof. induction a as [|x a IH]; cbn [app]; [cbn; lia|]. rewrite !cnt16_cons. lia. Qed.
Lemma cnt16_nonneg l : 0 <= cnt16 l.
Proof. induction l as [|x l IH]; [cbn; lia|]. rewrite cnt16_cons. unfold is16. destruct (x =? 16); lia. Qed.
Lemma cnt16_escaped l : cnt16 (escaped l) = 2 * cnt16 l.
Proof.
  induction l as [|x l IH]; [reflexivity|]. cbn [escaped]. rewrite cnt16_cons. unfold is16 at 1.
  destruct (x =? 16) eqn:E; rewrite ?cnt16_cons; unfold is16; rewrite ?E; [change (16 =? 16) with true; cbn iota|]; lia.
Qed.

Lemma completed_count bs : forall st l m,
  In m (completed st (buf_of l) bs) ->
  2 * cnt16 m + 1 <= 2 * cnt16 l + (match st with MsgEscape => 1 | _ => 0 end) + cnt16 bs.
Proof.
  induction bs as [|b bs IH]; intros st l m H; [destruct H|].
  cbn [completed] in H. rewrite cnt16_cons.
  pose proof (cnt16_nonneg l). pose proof (cnt16_nonneg bs).
  assert (B0 : 0 <= is16 b) by (unfold is16; destruct (b =? 16); lia).
  destruct st; cbn [deframe] in H; unfold DLE, ETX, STX in H.
  - destruct (Z.eqb_spec b 16) as [->|N].
    + apply IH in H. change (is16 16) with 1. lia.
    + apply IH in H. lia.
  - destruct (Z.eqb_spec b 3) as [->|N3].
    + cbn [In] in H. destruct H as [<-|H].
      * rewrite buf_of_val. lia.
      * change nil_slice with (buf_of []) in H. apply IH in H. change (cnt16 []) with 0 in H. lia.
    + destruct (Z.eqb_spec b 2) as [->|N2].
      * apply IH in H. lia.
      * destruct (Z.eqb_spec b 16) as [->|N].
        -- rewrite <- buf_of_snoc in H. apply IH in H. rewrite cnt16_app in H. change (cnt16 [16]) with 1 in H.
           change (is16 16) with 1. lia.
        -- change nil_slice with (buf_of []) in H. apply IH in H. change (cnt16 []) with 0 in H. lia.
  - destruct (Z.eqb_spec b 16) as [->|N].
    + apply IH in H. change (is16 16) with 1. lia.
    + rewrite <- buf_of_snoc in H. apply IH in H. rewrite cnt16_app in H.
      assert (cnt16 [b] = 0) by (rewrite cnt16_cons; unfold is16; destruct (Z.eqb_spec b 16); [congruence|reflexivity]).
      lia.
Qed.

Lemma completed_plain buf b r : b <> 16 -> completed MsgMessage buf (b :: r) = completed MsgMessage (s_append buf b) r.
Proof. intros N. cbn [completed deframe]. unfold DLE. destruct (Z.eqb_spec b 16); [congruence|reflexivity]. Qed.
Lemma completed_tail l b : b <> 16 -> completed MsgMessage (buf_of l) [b; 16; 3] = [l ++ [b]].
Proof.
  intros N. rewrite completed_plain, <- buf_of_snoc by exact N.
  change (completed MsgMessage (buf_of (l ++ [b])) [16; 3]) with [s_val (buf_of (l ++ [b]))].
  now rewrite buf_of_val.
Qed.

Lemma roundtrip cmd p w crc : envelope cmd p w ->
  w = [16; 2; cmd; zlen p mod 256] ++ escaped p ++ [crc; 16; 3] ->
  (In (plain_message cmd p crc) (completed MsgStart nil_slice w) <-> cmd <> 16 /\ zlen p mod 256 <> 16 /\ crc <> 16) /\
  (cmd <> 16 -> zlen p mod 256 <> 16 -> crc <> 16 -> completed MsgStart nil_slice w = [plain_message cmd p crc]).
Proof.
  intros _ ->.
  change (completed MsgStart nil_slice ([16; 2; cmd; zlen p mod 256] ++ escaped p ++ [crc; 16; 3]))
    with (completed MsgMessage (buf_of []) (cmd :: zlen p mod 256 :: escaped p ++ [crc; 16; 3])).
  assert (F : cmd <> 16 -> zlen p mod 256 <> 16 -> crc <> 16 ->
          completed MsgMessage (buf_of []) (cmd :: zlen p mod 256 :: escaped p ++ [crc; 16; 3]) = [plain_message cmd p crc]).
  { intros N1 N2 N3. rewrite !completed_plain, <- !buf_of_snoc by assumption. rewrite completed_escaped. rewrite completed_tail by assumption.
    unfold plain_message. cbn [app]. reflexivity. }
  split; [|exact F]. split.
  - intros H. apply (completed_count _ _ []) in H. unfold plain_message in H. cbn [app] in H.
    rewrite !cnt16_cons, !cnt16_app, cnt16_escaped, !cnt16_cons in H. change (cnt16 []) with 0 in H.
    change (is16 16) with 1 in H. change (is16 3) with 0 in H.
    unfold is16 in H. destruct (Z.eqb_spec cmd 16), (Z.eqb_spec (zlen p mod 256) 16), (Z.eqb_spec crc 16); lia.
  - intros (N1 & N2 & N3). rewrite F by assumption. left. reflexivity.
Qed.

(* ---------------------------------------------------------------- C22 *)
(** Messages obtained by calling Read again and again. *)
Inductive act_reads : list rd_event -> list raw_message -> list rd_event -> Prop :=
| ar_nil evs : act_reads evs [] evs
| ar_cons evs m rest ms rest2 :
    act_read evs = ARMsg m rest -> act_reads rest ms rest2 -> act_reads evs (m :: ms) rest2.

Lemma noise_loop noise : forall rest rx, rx <> 16 -> Forall (fun b => b <> 16) noise ->
  act_loop (evs_of noise ++ rest) rx MsgStart nil_slice = act_read rest.
Proof.
  induction noise as [|b noise IH]; intros rest rx N F; [now apply start_rx|].
  inversion F as [|? ? Fb F']; subst. rewrite evs_cons. cbn [app]. rewrite loop_rbyte. cbn [deframe]. unfold DLE.
  destruct (Z.eqb_spec b 16); [congruence|]. now apply IH.
Qed.
Lemma noise_read noise rest : Forall (fun b => b <> 16) noise -> act_read (evs_of noise ++ rest) = act_read rest.
Proof. intros F. apply noise_loop; [lia|exact F]. Qed.
Lemma on_line_read m rest : act_read (evs_of (on_line m) ++ rest) = finish m rest.
Proof. unfold act_read. change nil_slice with (buf_of []). rewrite loop_on_line by reflexivity. reflexivity. Qed.

Lemma ignored_err m : bytes_ok m -> (forall r, ~ delivers m r) -> ~ crashes m -> exists e, messageReceived (buf_of m) = Err e.
Proof.
  intros Hm Hd Hc. destruct (messageReceived (buf_of m)) as [r|e|w] eqn:E; [|eauto|].
  - apply delivers_cases in E; [|exact Hm]. now destruct (Hd r).
  - destruct Hc. apply crashes_cases; eauto.
Qed.

Lemma reads_ext evs1 evs2 r rs rest : act_read evs1 = act_read evs2 -> act_reads evs2 (r :: rs) rest -> act_reads evs1 (r :: rs) rest.
Proof.
  intros E H. inversion H as [|? ? rest1 ? ? R1 R2]; subst. apply (ar_cons _ _ rest1); [now rewrite E|exact R2].
Qed.

Lemma stream_ok items rs tail : stream_gives items rs -> Forall (fun b => b <> 16) tail ->
  exists rest, act_reads (act_stream items ++ evs_of tail) rs rest /\ act_read rest = ARBlock /\
    (rs = [] -> act_read (act_stream items ++ evs_of tail) = ARBlock).
Proof.
  intros H Ht. induction H as [|noise m r items rs Fn Hm Hd H IH|noise m items rs Fn Hm Hd Hc H IH].
  - exists (evs_of tail). cbn [act_stream app]. rewrite <- (app_nil_r (evs_of tail)). rewrite noise_read by exact Ht.
    split; [constructor|]. split; [reflexivity|]. reflexivity.
  - destruct IH as (rest & R1 & R2 & _). exists rest. split; [|split; [exact R2|discriminate]].
    econstructor; [|exact R1]. cbn [act_stream]. rewrite <- !app_assoc, noise_read by exact Fn.
    rewrite on_line_read. unfold finish. apply delivers_cases in Hd; [|exact Hm]. now rewrite Hd.
  - destruct IH as (rest & R1 & R2 & R3).
    destruct (ignored_err m Hm Hd Hc) as [e Ee].
    assert (act_read (act_stream ((noise, m) :: items) ++ evs_of tail) = act_read (act_stream items ++ evs_of tail)) as E.
    { cbn [act_stream]. rewrite <- !app_assoc, noise_read by exact Fn. rewrite on_line_read. unfold finish. now rewrite Ee. }
    destruct rs as [|r rs].
    + exists (act_stream ((noise, m) :: items) ++ evs_of tail). split; [constructor|]. rewrite E, R3 by reflexivity. auto.
    + exists rest. split; [|split; [exact R2|discriminate]]. eapply reads_ext; eassumption.
Qed.

(** From any reader state: the first complete message after garbage resynchronises. *)
Lemma resync pre m rest : act_read pre = ARBlock ->
  exists junk, act_read (pre ++ evs_of (on_line m) ++ rest) = finish (junk ++ m) rest.
Proof.
  intros H. destruct (run_loop _ _ _ _ H) as (rx & st & buf & R & L).
  assert (I : rd_inv MsgStart nil_slice) by (exists []; split; [reflexivity|auto]).
  destruct (run_inv _ _ _ _ _ _ _ I R) as (l & -> & Hl).
  exists (match st with MsgStart => [] | MsgMessage => l | MsgEscape => l ++ [16; 2] end).
  unfold act_read at 1. rewrite L, loop_on_line by exact Hl. f_equal.
  destruct st; cbn [merged]; [reflexivity| |reflexivity]. now rewrite <- app_assoc.
Qed.

(** A message cut off after l leaves the reader inside it; DLE STX does not restart it. *)
Lemma truncated_merges l m rest : 
  act_read (evs_of ([16; 2] ++ escaped l) ++ evs_of (on_line m) ++ rest) = finish (l ++ m) rest.
Proof.
  unfold evs_of at 1. rewrite map_app. cbn [map app]. fold (evs_of (escaped l)).
  change (act_read (RByte 16 :: RByte 2 :: evs_of (escaped l) ++ evs_of (on_line m) ++ rest))
    with (act_loop (evs_of (escaped l) ++ evs_of (on_line m) ++ rest) 2 MsgMessage (buf_of [])).
  destruct (loop_escaped l (evs_of (on_line m) ++ rest) 2 []) as (rx & ->).
  now rewrite loop_on_line.
Qed.

(* ---------------------------------------------------------------- C26 *)
Lemma set_idx_in {A} (l : bytes) i v (k : bytes -> outcome A) : 0 <= i < zlen l -> set_idx l i v k = k (list_set l i v).
Proof. intros H. unfold set_idx. now replace ((0 <=? i) && (i <? zlen l)) with true by lia. Qed.

Definition send_payload (m : raw_message) : bytes :=
  [rm_priority m; u8 (rm_pgn m); u8 (Z.shiftr (rm_pgn m) 8); u8 (Z.shiftr (rm_pgn m) 16); rm_dest m; rm_length m]
  ++ firstn (Z.to_nat (rm_length m)) (rm_data m).

Lemma send_buf_ok m : 0 <= rm_length m <= 249 ->
  send_buf m = if zlen (rm_data m) <? rm_length m then Err "not enough space for data" else Ret (send_payload m).
Proof.
  intros H. unfold send_buf. rewrite u8_id by (unfold is_byte; lia).
  replace (Z.to_nat (rm_length m + 6)) with (6 + Z.to_nat (rm_length m))%nat by lia. cbn [Nat.add repeat].
  set (t := repeat 0 (Z.to_nat (rm_length m))).
  assert (Lt : zlen t = rm_length m) by (unfold t; rewrite zlen_repeat; lia).
  pose proof (zlen_nonneg t).
  do 6 (rewrite set_idx_in by (rewrite !zlen_cons; lia); 
        match goal with |- context [list_set ?l ?i ?v] =>
          let x := eval cbv [list_set Z.to_nat Pos.to_nat Pos.iter_op Init.Nat.add firstn skipn app] in (list_set l i v) in
          change (list_set l i v) with x end).
  rewrite !zlen_cons, Lt.
  pose proof (zlen_nonneg (rm_data m)).
  destruct (zlen (rm_data m) <? rm_length m) eqn:E.
  - replace (Z.min (zlen (rm_data m)) _ <? rm_length m) with true by lia. reflexivity.
  - replace (Z.min (zlen (rm_data m)) _ <? rm_length m) with false by lia. f_equal.
    unfold copy_at, send_payload. change (Z.to_nat 6) with 6%nat. cbn [firstn List.length Nat.sub app].
    do 6 f_equal.
    assert (List.length t = Z.to_nat (rm_length m)) as -> by (unfold zlen in Lt; lia). rewrite Nat.sub_0_r.
    replace (Nat.min (List.length (rm_data m)) (Z.to_nat (rm_length m))) with (Z.to_nat (rm_length m)) by (unfold zlen in *; lia).
    cbn [Nat.add skipn]. rewrite (skipn_all2 t) by (unfold zlen in *; lia). apply app_nil_r.
Qed.

Lemma send_buf_panic m : 250 <= rm_length m <= 255 -> exists w, send_buf m = Panic w.
Proof.
  intros H. unfold send_buf, u8.
  assert (C : rm_length m = 250 \/ rm_length m = 251 \/ rm_length m = 252 \/ rm_length m = 253 \/ rm_length m = 254 \/ rm_length m = 255) by lia.
  destruct C as [->|[->|[->|[->|[->| ->]]]]]; eexists;
    match goal with |- context [repeat 0 ?n] => let n' := eval vm_compute in n in change n with n' end; cbn [repeat]; reflexivity.
Qed.

(* ---------------------------------------------------------------- C27 *)
(** The method serving each request. *)
Definition invoke (r : ngt_request) (p : act_port) : act_port * outcome Z :=
  match r with
  | ReqReboot => Reboot p | ReqReInit => ReInitMainApp p | ReqCommitEEPROM => CommitToEEPROM p
  | ReqCommitFlash => CommitToFlash p | ReqHardwareInfo => GetHardwareInfo p | ReqGetMode => GetOperatingMode p
  | ReqSetMode m => SetOperatingMode p m | ReqGetBaud => GetPortBaudCodes p | ReqSetBaud => SetPortBaudCodes p
  | ReqGetPCodes => GetPortPCodes p | ReqSetPCodes l => SetPortPCodes p l
  | ReqGetDup => GetPortDupDelete p | ReqSetDup => SetPortDupDelete p
  | ReqGetTime => GetTotalTime p | ReqSetTime => SetTotalTime p
  | ReqGetHwBaud => GetHardwareBaudCodes p | ReqSetHwBaud => SetHardwareBaudCodes p
  | ReqSupportedPGNs => GetSupportedPGNList p | ReqProductInfo => GetProductInfoN2K p
  | ReqGetCANConfig => GetCANConfig p | ReqSetCANConfig => SetCANConfig p
  | ReqGetInfo1 => GetCANInfoField1 p | ReqSetInfo1 s => SetCANInfoField1 p s
  | ReqGetInfo2 => GetCANInfoField2 p | ReqSetInfo2 s => SetCANInfoField2 p s | ReqGetInfo3 => GetCANInfoField3 p
  | ReqGetRxPGN n => GetRxPGN p n | ReqSetRxPGN n e => SetRxPGN p n e
  | ReqGetTxPGN n => GetTxPGN p n | ReqSetTxPGN n e => SetTxPGN p n e
  | ReqRxList => GetRxPGNList p | ReqTxList => GetTxPGNList p
  | ReqClearRx => ClearRxPGNList p | ReqClearTx => ClearTxPGNList p
  | ReqActivate => ActivatePGNEnableLists p | ReqDefault i => SetDefaultPGNEnableList p i
  | ReqParams => GetParamsPGNEnableLists p
  end.

Lemma intToBytes_le4 n : intToBytes n = le4 n.
Proof. unfold intToBytes, le4, u8. rewrite !Z.shiftr_div_pow2 by lia. reflexivity. Qed.

Lemma invoke_payload r p : invoke r p = act_write p (fst (request_payload r)) (snd (request_payload r)).
Proof.
  destruct r; try reflexivity; cbn [invoke request_payload fst snd].
  - unfold SetOperatingMode, ACmdSend, ACmdOperatingMode, u8. rewrite Z.shiftr_div_pow2 by lia. reflexivity.
  - unfold SetPortPCodes, ACmdSend. f_equal.
    assert (K : forall l d, fold_left (fun (d : list Z) c => d ++ [c]) l d = d ++ l).
    { induction l as [|c l IH]; intros d; cbn [fold_left]; [now rewrite app_nil_r|]. rewrite IH, <- app_assoc. reflexivity. }
    apply K.
  - unfold GetRxPGN. now rewrite intToBytes_le4.
  - unfold SetRxPGN. now rewrite intToBytes_le4.
  - unfold GetTxPGN. now rewrite intToBytes_le4.
  - unfold SetTxPGN. now rewrite intToBytes_le4.
Qed.
