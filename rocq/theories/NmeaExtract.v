(** NmeaExtract: lemmas on the field extractors (toward C28-C38). *)
From Coq Require Import Reals Lra Floats.SpecFloat.
From Flocq Require Import Core BinarySingleNaN.
From Verif Require Import GoBase BufFacts Strconv CanModel NmeaTypes LookupTable NmeaModel NmeaSpec NmeaFloat.
Open Scope Z_scope.
Open Scope list_scope.

Ltac dm := Z.div_mod_to_equations; lia.

(* ------------------------------------------------------------------ little-endian integers *)
Lemma le_uint_value l : le_uint l = le_value l.
Proof. induction l as [|b l IH]; cbn; [reflexivity|]. now rewrite IH. Qed.
Lemma le_value_cons b l : le_value (b :: l) = b + 256 * le_value l.
Proof. reflexivity. Qed.
Lemma le_value_app a b : le_value (a ++ b) = le_value a + 256 ^ zlen a * le_value b.
Proof.
  induction a as [|x a IH]; [change (zlen (@nil Z)) with 0; rewrite app_nil_l, Z.pow_0_r; cbn [le_value fold_right]; lia|].
  rewrite <- app_comm_cons, !le_value_cons, IH, zlen_cons.
  rewrite Z.pow_add_r, Z.pow_1_r by (pose proof (zlen_nonneg a); lia). ring.
Qed.
Lemma le_value_bound l : bytes_ok l -> 0 <= le_value l < 256 ^ zlen l.
Proof.
  induction l as [|x a IH]; intros H; [change (zlen (@nil Z)) with 0; rewrite Z.pow_0_r; cbn; lia|].
  apply Forall_cons_iff in H as [Hx Ha]. specialize (IH Ha). unfold is_byte in Hx.
  rewrite le_value_cons, zlen_cons, Z.pow_add_r, Z.pow_1_r by (pose proof (zlen_nonneg a); lia). nia.
Qed.
Lemma le_value_zeros n : le_value (repeat 0 n) = 0.
Proof. induction n as [|n IH]; [reflexivity|]. cbn [repeat]. rewrite le_value_cons. lia. Qed.
Lemma bytes_ok_app a b : bytes_ok (a ++ b) <-> bytes_ok a /\ bytes_ok b.
Proof. apply Forall_app. Qed.
Lemma pow256 n : 0 <= n -> 256 ^ n = 2 ^ (8 * n).
Proof. intros. change 256 with (2 ^ 8). now rewrite <- Z.pow_mul_r by lia. Qed.

(* ------------------------------------------------------------------ slices of a message *)
Lemma window_sub D spare a b : 0 <= a <= b -> b <= zlen D ->
  exists s, s_sub (window D spare) a b = Some s /\ s_val s = zsub D a b.
Proof.
  intros H1 H2. eexists. split.
  - apply s_sub_some; [lia|]. unfold s_cap, window. cbn. rewrite zlen_app. pose proof (zlen_nonneg spare). lia.
  - unfold s_val, zsub, window. cbn.
    rewrite skipn_app. rewrite firstn_app. rewrite skipn_length.
    replace (Z.to_nat (b - a) - (List.length D - Z.to_nat a))%nat with 0%nat by (unfold zlen in *; lia).
    cbn. now rewrite app_nil_r.
Qed.
Lemma sub_or_panic_in {A} D spare a b (k : bytes -> outcome A) : 0 <= a <= b -> b <= zlen D ->
  sub_or_panic (window D spare) a b k = k (zsub D a b).
Proof.
  intros H1 H2. unfold sub_or_panic. destruct (window_sub D spare a b H1 H2) as [s [-> ->]]. reflexivity.
Qed.
Lemma window_get D spare i : 0 <= i < zlen D -> s_get (window D spare) i = zget D i.
Proof.
  intros H. unfold s_get, window. cbn [s_len s_arr].
  destruct ((0 <=? i) && (i <? zlen D)) eqn:E; [|lia]. now apply zget_app_l.
Qed.
Lemma zsub_split {A} (D : list A) a b : 0 <= a <= b -> b <= zlen D ->
  exists x y z, D = x ++ y ++ z /\ zlen x = a /\ zlen y = b - a /\ zsub D a b = y.
Proof.
  intros H1 H2. destruct (zsplit D a) as [x [r [-> Hx]]]; [lia|].
  rewrite zlen_app in H2. destruct (zsplit r (b - a)) as [y [z [-> Hy]]]; [lia|].
  exists x, y, z. repeat split; auto. apply zsub_mid; lia.
Qed.
Lemma zsub_bytes D a b : 0 <= a <= b -> b <= zlen D -> bytes_ok D -> bytes_ok (zsub D a b).
Proof.
  intros H1 H2 H. destruct (zsub_split D a b H1 H2) as [x [y [z [-> [_ [_ ->]]]]]].
  apply bytes_ok_app in H as [_ H]. now apply bytes_ok_app in H.
Qed.

(** Bits of a sub-range of bytes are bits of the message. *)
Lemma bits_of_part D a b o w : bytes_ok D -> 0 <= a <= b -> b <= zlen D -> 0 <= o -> 0 <= w ->
  bits (le_value (zsub D a b)) o w
  = bits (le_value D) (8 * a + o) (Z.min w (Z.max 0 (8 * (b - a) - o))).
Proof.
  intros HD Hab Hb Ho Hw.
  destruct (zsub_split D a b Hab Hb) as [x [y [z [E [Hx [Hy ->]]]]]].
  rewrite E in HD. apply bytes_ok_app in HD as [Bx Byz]. apply bytes_ok_app in Byz as [By Bz].
  rewrite E, !le_value_app, Hx, Hy. rewrite !pow256 by lia.
  pose proof (le_value_bound x Bx) as LX. pose proof (le_value_bound y By) as LY.
  rewrite Hx, pow256 in LX by lia. rewrite Hy, pow256 in LY by lia.
  set (X := le_value x) in *. set (Y := le_value y) in *. set (W := le_value z) in *.
  clearbody X Y W. clear E x y z Bx By Bz Hx Hy.
  unfold bits. rewrite Z.pow_add_r by lia. rewrite <- Z.div_div by (apply Z.pow_nonzero || apply Z.pow_pos_nonneg; lia).
  replace (X + 2 ^ (8 * a) * (Y + 2 ^ (8 * (b - a)) * W)) with (X + (Y + 2 ^ (8 * (b - a)) * W) * 2 ^ (8 * a)) by ring.
  rewrite Z.div_add by (apply Z.pow_nonzero; lia). rewrite (Z.div_small X) by lia. rewrite Z.add_0_l.
  set (n := 8 * (b - a)) in *. assert (0 <= n) as Hn by lia.
  destruct (Z_le_dec n o) as [C|C].
  - (* offset beyond the part: zero bits left *)
    replace (Z.min w (Z.max 0 (n - o))) with 0 by lia. rewrite Z.pow_0_r, Z.mod_1_r.
    rewrite (Z.div_small Y). apply Z.mod_0_l. apply Z.pow_nonzero; lia.
    split; [lia|]. apply Z.lt_le_trans with (2 ^ n); [lia|]. apply Z.pow_le_mono_r; lia.
  - rewrite Z.max_r by lia.
    assert (2 ^ n = 2 ^ o * 2 ^ (n - o)) as En by (rewrite <- Z.pow_add_r by lia; f_equal; lia).
    replace (Y + 2 ^ n * W) with (Y + (2 ^ (n - o) * W) * 2 ^ o) by (rewrite En; ring).
    rewrite Z.div_add by (apply Z.pow_nonzero; lia).
    set (V := Y / 2 ^ o). assert (0 <= V < 2 ^ (n - o)) as HV.
    { unfold V. split; [apply Z.div_pos; [lia|apply Z.pow_pos_nonneg; lia]|].
      apply Z.div_lt_upper_bound; [apply Z.pow_pos_nonneg; lia|]. rewrite <- En. lia. }
    clearbody V.
    destruct (Z_le_dec w (n - o)) as [D1|D1].
    + rewrite Z.min_l by lia.
      assert (2 ^ (n - o) = 2 ^ w * 2 ^ (n - o - w)) as -> by (rewrite <- Z.pow_add_r by lia; f_equal; lia).
      replace (V + 2 ^ w * 2 ^ (n - o - w) * W) with (V + (2 ^ (n - o - w) * W) * 2 ^ w) by ring.
      now rewrite Z.mod_add by (apply Z.pow_nonzero; lia).
    + rewrite Z.min_r by lia.
      replace (V + 2 ^ (n - o) * W) with (V + W * 2 ^ (n - o)) by ring.
      rewrite Z.mod_add by (apply Z.pow_nonzero; lia).
      rewrite !Z.mod_small; try lia.
      split; [lia|]. apply Z.lt_le_trans with (2 ^ (n - o)); [lia|]. apply Z.pow_le_mono_r; lia.
Qed.

(* ------------------------------------------------------------------ extractNumber *)

(** The value extractNumber builds from the raw integer. *)
Definition num_gval (f : field) (num : Z) : gval :=
  if res_scales (f_res f) then
    VFloat64 (f64_mul (f64_of_Z (if f_signed f then signed_value (f_size f) num else num)) (res_f64 (f_res f)))
  else if f_signed f then
    (if f_size f <=? 8 then VInt8 (i8 num) else if f_size f <=? 16 then VInt16 (i16 num)
     else if f_size f <=? 32 then VInt32 (i32 num) else VInt64 (i64 num))
  else VUint64 num.

Lemma copy8 part : zlen part <= 8 -> exists k, copy_at (repeat 0 8) 0 part = part ++ repeat 0 k.
Proof.
  intros H. exists (8 - List.length part)%nat.
  unfold copy_at. change (Z.to_nat 0) with 0%nat. change (firstn 0 (repeat 0 8)) with (@nil Z).
  change (List.length (repeat 0%Z 8) - 0)%nat with 8%nat. unfold zlen in H.
  rewrite Nat.min_l by lia. rewrite firstn_all, app_nil_l. f_equal. rewrite Nat.add_0_l.

  replace 8%nat with (List.length part + (8 - List.length part))%nat at 1 by lia.
  rewrite repeat_app. rewrite skipn_app. rewrite repeat_length, Nat.sub_diag, skipn_O.
  rewrite <- (repeat_length 0 (List.length part)) at 1. now rewrite skipn_all.
Qed.

Lemma number_in f D spare s e o w : bytes_ok D -> 0 <= s <= e -> e <= zlen D -> e - s <= 8 -> 0 <= o -> 0 <= w <= 64 ->
  extract_number f (window D spare) s e o w = Ret (num_gval f (bits (le_value (zsub D s e)) o w)).
Proof.
  intros HD Hse He H8 Ho Hw. unfold extract_number. rewrite sub_or_panic_in by lia.
  destruct (8 <? e - s) eqn:E8; [lia|].
  pose proof (zsub_bytes D s e Hse He HD) as BP.
  pose proof (zsub_length D s e) as LP. specialize (LP ltac:(lia) ltac:(lia) ltac:(lia)).
  set (part := zsub D s e) in *. clearbody part.
  destruct (copy8 part) as [k ->]; [lia|].
  rewrite le_uint_value, le_value_app, le_value_zeros, Z.mul_0_r, Z.add_0_r.
  pose proof (le_value_bound part BP) as LB. rewrite LP, pow256 in LB by lia.
  assert (2 ^ (8 * (e - s)) <= 2 ^ 64) as P64 by (apply Z.pow_le_mono_r; lia).
  change (2 ^ 64) with 18446744073709551616 in P64.
  rewrite u32_id by lia.
  assert (shr64 18446744073709551615 (64 - w) = Z.ones w) as Em.
  { unfold shr64. rewrite u64_id by lia. change 18446744073709551615 with (Z.ones 64).
    rewrite Z.shiftr_div_pow2 by lia. rewrite Z.ones_div_pow2 by lia. f_equal. lia. }
  rewrite Em, Z.land_ones by lia.
  assert (shr64 (le_value part) o = le_value part / 2 ^ o) as ->.
  { unfold shr64. rewrite u64_id by lia. now rewrite Z.shiftr_div_pow2 by lia. }
  cbv zeta. change ((le_value part / 2 ^ o) mod 2 ^ w) with (bits (le_value part) o w).
  set (num := bits (le_value part) o w).
  assert (0 <= num < 2 ^ w) as HN by (apply Z.mod_pos_bound; apply Z.pow_pos_nonneg; lia).
  assert (Z.land (shl64 1 w) num = 0) as ->.
  { unfold shl64. rewrite Z.shiftl_1_l.
    destruct (Z.eq_dec w 64) as [->|C].
    - change (2 ^ 64) with 18446744073709551616. unfold u64. rewrite Z_mod_same_full. apply Z.land_0_l.
    - rewrite u64_id by (split; [apply Z.pow_nonneg; lia|]; change 18446744073709551616 with (2 ^ 64); apply Z.pow_lt_mono_r; lia).
      apply Z.bits_inj'. intros n Hn. rewrite Z.land_spec, Z.bits_0, Z.pow2_bits_eqb by lia.
      destruct (Z.eqb_spec w n) as [<-|]; [|reflexivity]. cbn.
      rewrite Z.testbit_eqb by lia. rewrite Z.div_small by lia. reflexivity. }
  cbn [Z.eqb negb]. unfold num_gval. destruct (res_scales (f_res f)); [reflexivity|].
  destruct (f_signed f); reflexivity.
Qed.

Lemma number_wide f D spare s e o w : 0 <= s <= e -> e <= zlen D -> 8 < e - s ->
  extract_number f (window D spare) s e o w = Err "Numeric field exceeds max width".
Proof.
  intros Hse He H8. unfold extract_number. rewrite sub_or_panic_in by lia.
  destruct (8 <? e - s) eqn:E8; [reflexivity|lia].
Qed.
