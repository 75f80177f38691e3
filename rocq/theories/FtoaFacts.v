(** FtoaFacts: the text json_float writes is a JSON number, and the number it denotes rounds
    back to the float it came from. *)
From Coq Require Import ZArith Reals Lia Psatz Floats.SpecFloat ZifyBool.
From Flocq Require Import Core BinarySingleNaN.
From Verif Require Import GoBase BufFacts Strconv StrconvFacts CanModel NmeaTypes NmeaModel NmeaSpec NmeaFloat SignalkModel SignalkSpec SignalkText JsonSpec FtoaModel.
Open Scope Z_scope.
Open Scope list_scope.

(* ------------------------------------------------------------------ rounding *)

Lemma nearest_even n t : (Rabs (t - IZR n) < / 2)%R \/ (Rabs (t - IZR n) = / 2)%R /\ Z.even n = true -> ZnearestE t = n.
Proof.
  intros [H|[H E]]; [now apply Znearest_imp|].
  unfold Rabs in H. destruct (Rcase_abs (t - IZR n)) as [C|C].
  - assert (Zfloor t = n - 1) as F. { apply Zfloor_imp. rewrite plus_IZR, minus_IZR. simpl. lra. }
    unfold Znearest. rewrite F. replace (t - IZR (n - 1))%R with (/ 2)%R by (rewrite minus_IZR; lra).
    rewrite Rcompare_Eq by reflexivity.
    replace (Z.even (n - 1)) with false. { cbn [negb]. rewrite Zceil_floor_neq. - lia. - rewrite F, minus_IZR. lra. }
    rewrite Z.even_sub, E. reflexivity.
  - assert (Zfloor t = n) as F. { apply Zfloor_imp. rewrite plus_IZR. simpl. lra. }
    unfold Znearest. rewrite F. replace (t - IZR n)%R with (/ 2)%R by lra.
    rewrite Rcompare_Eq by reflexivity. now rewrite E.
Qed.

Section Fmt.
Variables prec emax : Z.
Context (Hp : Prec_gt_0 prec) (He : Prec_lt_emax prec emax).
Notation fe := (SpecFloat.fexp prec emax).
Notation rnd := (round radix2 fe ZnearestE).

Lemma bpow_Z k : 0 <= k -> bpow radix2 k = IZR (2 ^ k).
Proof. intros H. change 2 with (radix_val radix2). now rewrite IZR_Zpower. Qed.

Lemma round_at v c n : (cexp radix2 fe v = c) ->
  let t := (v * bpow radix2 (- c))%R in
  (Rabs (t - IZR n) < / 2)%R \/ (Rabs (t - IZR n) = / 2)%R /\ Z.even n = true ->
  rnd v = (IZR n * bpow radix2 c)%R.
Proof.
  intros E t H. unfold round, F2R, scaled_mantissa. cbn [Fnum Fexp]. rewrite E.
  now rewrite (nearest_even n).
Qed.

(** cexp from bounds *)
Lemma cexp_bounds v k : (bpow radix2 (k - 1) <= v < bpow radix2 k)%R -> cexp radix2 fe v = fe k.
Proof. intros H. unfold cexp. f_equal. apply mag_unique. rewrite Rabs_pos_eq; [exact H|]. pose proof (bpow_ge_0 radix2 (k - 1)). lra. Qed.

Lemma cexp_small v : (0 < v < bpow radix2 (SpecFloat.emin prec emax + prec))%R -> cexp radix2 fe v = SpecFloat.emin prec emax.
Proof.
  intros H. unfold cexp, SpecFloat.fexp. 
  assert (mag radix2 v <= SpecFloat.emin prec emax + prec)%Z. { apply mag_le_bpow; [lra|]. rewrite Rabs_pos_eq; lra. }
  lia.
Qed.

(** The interval around m * 2^e whose numbers round to it. *)
Lemma interval m e v : valid_binary prec emax (S754_finite false m e) = true ->
  let x := (IZR (Zpos m) * bpow radix2 e)%R in
  let up := (IZR (4 * Zpos m + 2) * bpow radix2 (e - 2))%R in
  let lo := (IZR (if (Zpos m =? 2 ^ (prec - 1)) && (3 - emax - prec <? e) then 4 * Zpos m - 1 else 4 * Zpos m - 2) * bpow radix2 (e - 2))%R in
  (lo < v < up)%R \/ (Z.even (Zpos m) = true /\ (lo <= v <= up)%R) -> rnd v = x.
Proof.
  intros V x up lo H. cbn [valid_binary] in V. unfold bounded in V. apply andb_prop in V. destruct V as [V _].
  unfold canonical_mantissa in V. apply Zeq_bool_eq in V.
  assert (prec > 0) as P by (unfold Prec_gt_0 in Hp; lia).
  assert (0 < bpow radix2 e)%R as Be by apply bpow_gt_0.
  assert (Hq : (bpow radix2 (e - 2) = bpow radix2 e / 4)%R). { unfold Zminus. rewrite bpow_plus. change (bpow radix2 (- (2))) with (/ 4)%R. field. }
  set (D := Z.pos (digits2_pos m)) in *.
  assert (Hm : 2 ^ (D - 1) <= Z.pos m < 2 ^ D).
  { unfold D. rewrite Zpos_digits2_pos. pose proof (Zdigits_correct radix2 (Z.pos m)) as Q. cbn [radix_val radix2] in Q.
    change (radix_val radix2) with 2 in Q. lia. }
  assert (D1 : 1 <= D) by lia.
  unfold SpecFloat.fexp in V.
  set (lowest := (Zpos m =? 2 ^ (prec - 1)) && (3 - emax - prec <? e)) in *.
  assert (Em : SpecFloat.emin prec emax = 3 - emax - prec) by reflexivity.
  assert (up_eq : up = ((IZR (Zpos m) + / 2) * bpow radix2 e)%R).
  { unfold up. rewrite Hq, plus_IZR, mult_IZR. field. }
  assert (lo_eq : lo = ((IZR (Zpos m) - (if lowest then / 4 else / 2)) * bpow radix2 e)%R).
  { unfold lo. rewrite Hq. destruct lowest; rewrite minus_IZR, mult_IZR; field. }
  assert (m1 : (1 <= IZR (Zpos m))%R) by (apply IZR_le; lia).
  assert (HB : (lo <= v <= up)%R) by (destruct H as [H|[_ H]]; lra).
  assert (vpos : (0 < v)%R). { apply Rlt_le_trans with lo; [|lra]. rewrite lo_eq. apply Rmult_lt_0_compat; [|lra]. destruct lowest; lra. }
  assert (inv : (bpow radix2 e * bpow radix2 (- e) = 1)%R) by (rewrite <- bpow_plus, Z.add_opp_diag_r; reflexivity).
  assert (0 < bpow radix2 (- e))%R as Bn by apply bpow_gt_0.
  destruct (Rle_or_lt x v) as [Hx|Hx].
  - (* above *)
    unfold x. apply round_at.
    + assert (Z.pos m + 1 <= 2 ^ D) by lia.
      assert (U2 : (v < bpow radix2 (D + e))%R).
      { rewrite bpow_plus, bpow_Z by lia. apply Rle_lt_trans with up; [lra|]. rewrite up_eq. apply Rmult_lt_compat_r; [lra|].
        apply IZR_le in H0. rewrite plus_IZR in H0. lra. }
      rewrite (cexp_bounds v (D + e)); [exact V|]. split; [|exact U2].
      apply Rle_trans with x; [|lra]. unfold x. replace (D + e - 1) with (D - 1 + e) by lia. rewrite bpow_plus, bpow_Z by lia.
      apply Rmult_le_compat_r; [lra|]. apply IZR_le. lia.
    + set (t := (v * bpow radix2 (- e))%R).
      assert (T0 : (IZR (Zpos m) <= t)%R). { unfold t. apply Rmult_le_reg_r with (bpow radix2 e); [lra|]. rewrite Rmult_assoc, (Rmult_comm (bpow radix2 (- e))), inv, Rmult_1_r. exact Hx. }
      assert (T1 : (t <= IZR (Zpos m) + / 2)%R). { unfold t. apply Rmult_le_reg_r with (bpow radix2 e); [lra|]. rewrite Rmult_assoc, (Rmult_comm (bpow radix2 (- e))), inv, Rmult_1_r, <- up_eq. lra. }
      rewrite Rabs_pos_eq by lra.
      destruct H as [H|[Ev H]].
      * left. assert (t < IZR (Zpos m) + / 2)%R; [|lra]. unfold t. apply Rmult_lt_reg_r with (bpow radix2 e); [lra|]. rewrite Rmult_assoc, (Rmult_comm (bpow radix2 (- e))), inv, Rmult_1_r, <- up_eq. lra.
      * destruct (Req_dec (t - IZR (Zpos m)) (/ 2)); [right; split; assumption|left; lra].
  - destruct lowest eqn:EL; cbv iota in lo_eq.
    + (* lower binade *)
      apply andb_prop in EL. destruct EL as [E1 E2]. apply Z.eqb_eq in E1. apply Z.ltb_lt in E2.
      assert (prec <> 1 \/ prec = 1) by lia.
      assert (D = prec) as DP.
      { rewrite E1 in Hm. assert (D - 1 <= prec - 1). { apply (Z.pow_le_mono_r_iff 2); lia. } assert (prec - 1 < D). { apply (Z.pow_lt_mono_r_iff 2); lia. } lia. }
      replace x with (IZR (2 * Zpos m) * bpow radix2 (e - 1))%R.
      2:{ unfold x. unfold Zminus. rewrite bpow_plus, mult_IZR. change (bpow radix2 (- (1))) with (/ 2)%R. field. }
      assert (Hh : (bpow radix2 (e - 1) = bpow radix2 e / 2)%R). { unfold Zminus. rewrite bpow_plus. change (bpow radix2 (-(1))) with (/ 2)%R. field. }
      apply round_at.
      * rewrite (cexp_bounds v (prec - 1 + e)).
        -- unfold SpecFloat.fexp. lia.
        -- split.
           ++ apply Rle_trans with lo; [|lra]. rewrite lo_eq, E1. unfold Zminus. rewrite !bpow_plus. change (bpow radix2 (- (1))) with (/ 2)%R.
              assert (bpow radix2 prec = 2 * IZR (2 ^ (prec - 1)))%R as Q. { replace prec with (1 + (prec - 1)) at 1 by lia. rewrite bpow_plus, (bpow_Z (prec - 1)) by lia. reflexivity. }
              rewrite Q. change (prec + - (1)) with (prec - 1).
              rewrite E1 in m1. nra.
           ++ apply Rlt_le_trans with x; [exact Hx|]. unfold x. rewrite E1. rewrite bpow_plus, (bpow_Z (prec - 1)) by lia. apply Rle_refl.
      * replace (- (e - 1)) with (1 + - e) by lia. rewrite bpow_plus. change (bpow radix2 1) with 2%R.
        set (t := (v * (2 * bpow radix2 (- e)))%R).
        assert (tb : forall b, (b * bpow radix2 e <= v)%R -> (2 * b <= t)%R).
        { intros b Q. unfold t. replace (2 * b)%R with (b * (bpow radix2 e * bpow radix2 (- e)) * 2)%R by (rewrite inv; ring). replace (v * (2 * bpow radix2 (- e)))%R with (v * bpow radix2 (- e) * 2)%R by ring.
          apply Rmult_le_compat_r; [lra|]. rewrite <- Rmult_assoc. apply Rmult_le_compat_r; lra. }
        assert (ts : forall b, (v < b * bpow radix2 e)%R -> (t < 2 * b)%R).
        { intros b Q. unfold t. replace (2 * b)%R with (b * (bpow radix2 e * bpow radix2 (- e)) * 2)%R by (rewrite inv; ring). replace (v * (2 * bpow radix2 (- e)))%R with (v * bpow radix2 (- e) * 2)%R by ring.
          apply Rmult_lt_compat_r; [lra|]. rewrite <- Rmult_assoc. apply Rmult_lt_compat_r; lra. }
        assert (T1 := tb (IZR (Z.pos m) - / 4)%R ltac:(lra)). assert (T2 := ts _ Hx). rewrite mult_IZR.
        rewrite Rabs_left by lra.
        destruct (Req_dec (t - 2 * IZR (Z.pos m)) (- / 2)); [right; split; [lra|]|left; lra].
        rewrite Z.even_mul. reflexivity.
    + (* same exponent below *)
      unfold x. apply round_at.
      * apply andb_false_iff in EL.
        destruct (Z.eq_dec e (SpecFloat.emin prec emax)) as [Ee|Ee].
        -- rewrite cexp_small; [congruence|]. split; [exact vpos|]. apply Rlt_le_trans with x; [exact Hx|]. unfold x. rewrite <- Ee, Z.add_comm, bpow_plus, (bpow_Z prec) by lia.
           apply Rmult_le_compat_r; [lra|]. apply IZR_le.
           assert (D <= prec) by lia. pose proof (Z.pow_le_mono_r 2 D prec). lia.
        -- assert (D = prec) by lia.
           assert (2 ^ (prec - 1) < Z.pos m). { destruct EL as [EL|EL]; [apply Z.eqb_neq in EL|apply Z.ltb_ge in EL]; [|lia]. rewrite H0 in Hm. lia. }
           rewrite (cexp_bounds v (D + e)); [exact V|]. split.
           ++ apply Rle_trans with lo; [|lra]. rewrite lo_eq, H0. replace (prec + e - 1) with (prec - 1 + e) by lia. rewrite bpow_plus, (bpow_Z (prec - 1)) by lia. apply Rmult_le_compat_r; [lra|].
              assert (2 ^ (prec - 1) + 1 <= Z.pos m) as Q by lia. apply IZR_le in Q. rewrite plus_IZR in Q. lra.
           ++ apply Rlt_le_trans with x; [exact Hx|]. unfold x. rewrite bpow_plus, (bpow_Z D) by lia. apply Rmult_le_compat_r; [lra|]. apply IZR_le. lia.
      * set (t := (v * bpow radix2 (- e))%R).
        assert (T0 : (t < IZR (Zpos m))%R). { unfold t. apply Rmult_lt_reg_r with (bpow radix2 e); [lra|]. rewrite Rmult_assoc, (Rmult_comm (bpow radix2 (- e))), inv, Rmult_1_r. exact Hx. }
        assert (T1 : (IZR (Zpos m) - / 2 <= t)%R). { unfold t. apply Rmult_le_reg_r with (bpow radix2 e); [lra|]. rewrite Rmult_assoc, (Rmult_comm (bpow radix2 (- e))), inv, Rmult_1_r, <- lo_eq. lra. }
        rewrite Rabs_left by lra.
        destruct H as [H|[Ev H]].
        -- left. assert (IZR (Zpos m) - / 2 < t)%R; [|lra]. unfold t. apply Rmult_lt_reg_r with (bpow radix2 e); [lra|]. rewrite Rmult_assoc, (Rmult_comm (bpow radix2 (- e))), inv, Rmult_1_r, <- lo_eq. lra.
        -- destruct (Req_dec (t - IZR (Zpos m)) (- / 2)); [right; split; [lra|assumption]|left; lra].
Qed.

(* ------------------------------------------------------------------ digits *)

Definition within (lower upper : Z) (incl : bool) (d : Z) : Prop :=
  lower < d < upper \/ (incl = true /\ lower <= d <= upper).

Lemma short_loop_within k X lower upper incl : 0 < lower < X -> X < upper ->
  let r := short_loop k X lower upper incl in 0 <= snd r /\ 0 < fst r /\ within lower upper incl (fst r * 10 ^ snd r).
Proof.
  intros HL HU. induction k as [|k IH]; cbn zeta; cbn [short_loop]; cbv zeta.
  - change (10 ^ Z.of_nat 0) with 1. rewrite Z.div_1_r, Z.mod_1_r.
    replace (lower <? X * 1) with true by lia. cbn [orb andb].
    destruct (((X + 1) * 1 <? upper) || (incl && ((X + 1) * 1 =? upper))) eqn:E.
    + replace ((1 <? 2 * 0) || ((2 * 0 =? 1) && Z.odd X)) with false by reflexivity. cbn [fst snd]. unfold within. change (10 ^ Z.of_nat 0) with 1. lia.
    + cbn [fst snd]. unfold within. change (10 ^ Z.of_nat 0) with 1. lia.
  - set (p := 10 ^ Z.of_nat (S k)). assert (0 < p) by (unfold p; apply Z.pow_pos_nonneg; lia).
    set (f := X / p). pose proof (Z.div_mod X p ltac:(lia)) as DM. pose proof (Z.mod_pos_bound X p ltac:(lia)) as MB. fold f in DM.
    assert (f * p <= X < (f + 1) * p) by nia.
    assert (0 <= f) by (apply Z.div_pos; lia).
    set (down := (lower <? f * p) || (incl && (lower =? f * p))).
    set (up := ((f + 1) * p <? upper) || (incl && ((f + 1) * p =? upper))).
    assert (WD : down = true -> within lower upper incl (f * p) /\ 0 < f).
    { unfold down, within. intros Q. apply orb_prop in Q. destruct Q as [Q|Q].
      - apply Z.ltb_lt in Q. split; [left; lia|]. nia.
      - apply andb_prop in Q. destruct Q as [Q1 Q2]. apply Z.eqb_eq in Q2. split; [right; lia|].
        nia. }
    assert (WU : up = true -> within lower upper incl ((f + 1) * p)).
    { unfold up, within. intros Q. apply orb_prop in Q. destruct Q as [Q|Q].
      - apply Z.ltb_lt in Q. left; lia.
      - apply andb_prop in Q. destruct Q as [Q1 Q2]. apply Z.eqb_eq in Q2. right; lia. }
    destruct (down && up) eqn:B.
    + apply andb_prop in B. destruct B as [B1 B2]. cbn [fst snd]. fold p.
      destruct ((p <? 2 * (X mod p)) || ((2 * (X mod p) =? p) && Z.odd f)).
      * split; [lia|split; [lia|auto]].
      * destruct (WD B1). split; [lia|split; auto].
    + destruct down; [destruct (WD eq_refl); cbn [fst snd]; fold p; split; [lia|split; auto]|].
      destruct up; [cbn [fst snd]; fold p; split; [lia|split; [lia|auto]]|].
      exact IH.
Qed.
End Fmt.

Lemma dec_value_app a b : dec_value (a ++ b) = dec_value a * 10 ^ zlen b + dec_value b.
Proof. unfold dec_value. rewrite map_app, pos_value_app, pos_value_shift. unfold zlen. rewrite map_length. reflexivity. Qed.
Lemma dec_value_zeros n : dec_value (repeat 48 n) = 0.
Proof. induction n as [|n IH]; [reflexivity|]. change (repeat 48 (S n)) with ([48] ++ repeat 48 n). rewrite dec_value_app, IH. reflexivity. Qed.
Lemma zeros_dec n : Forall dec_char (repeat 48 n).
Proof. induction n; cbn [repeat]; [constructor|constructor; [unfold dec_char; lia|assumption]]. Qed.
Lemma zlen_repeat (x : byte) n : zlen (repeat x n) = Z.of_nat n.
Proof. unfold zlen. now rewrite repeat_length. Qed.

Lemma dec_digits_head fuel : forall n acc, 0 < n -> n < 2 ^ Z.of_nat fuel ->
  exists c r, dec_digits fuel n acc = c :: r /\ c <> 48.
Proof.
  induction fuel as [|f IH]; intros n acc Hn Hb; [cbn in Hb; lia|].
  cbn [dec_digits]. cbv zeta. destruct (Z.eqb_spec (n / 10) 0) as [E|E].
  - exists (48 + n mod 10), acc. split; [reflexivity|]. pose proof (Z.div_mod n 10). lia.
  - apply IH.
    + assert (0 <= n / 10) by (apply Z.div_pos; lia). lia.
    + rewrite Nat2Z.inj_succ, Z.pow_succ_r in Hb by lia. apply Z.div_lt_upper_bound; lia.
Qed.
Lemma itoa_head n : 0 < n -> exists c r, itoa n = c :: r /\ c <> 48.
Proof.
  intros H. unfold itoa. destruct (Z.ltb_spec n 0); [lia|]. apply dec_digits_head; [assumption|].
  rewrite Nat2Z.inj_succ, Z2Nat.id by apply Z.log2_nonneg. apply Z.log2_spec. assumption.
Qed.

Lemma drop_zeros_spec l : exists n, l = repeat 48 n ++ drop_zeros l.
Proof.
  induction l as [|c r [n IH]]; [exists O; reflexivity|].
  cbn [drop_zeros]. destruct (Z.eqb_spec c 48) as [->|N].
  - exists (S n). cbn [repeat app]. now rewrite <- IH.
  - exists O. reflexivity.
Qed.
Lemma rev_repeat (x : byte) n : rev (repeat x n) = repeat x n.
Proof. induction n as [|n IH]; [reflexivity|]. cbn [repeat rev]. rewrite IH. symmetry. apply repeat_cons. Qed.
Lemma trim_spec l : exists n, l = trim_zeros l ++ repeat 48 n.
Proof.
  destruct (drop_zeros_spec (rev l)) as [n H]. exists n. unfold trim_zeros.
  rewrite <- (rev_repeat 48 n), <- rev_app_distr, <- H. symmetry. apply rev_involutive.
Qed.

(** digs, dp: significant digits, and the number they stand for *)
Definition stands (ds : bytes) (dp m e : Z) : Prop :=
  Forall dec_char ds /\ (exists c r, ds = c :: r /\ c <> 48) /\ m = dec_value ds /\ e = dp - zlen ds.

Lemma trimmed d k : 0 < d -> exists m e, stands (trim_zeros (itoa d)) (zlen (itoa d) + k) m e /\ ten_to m e = ten_to d k /\ 0 < m.
Proof.
  intros H. destruct (itoa_value d ltac:(lia)) as [V [F NE]]. destruct (trim_spec (itoa d)) as [n E].
  destruct (itoa_head d H) as [c [r [Hc N]]].
  set (t := trim_zeros (itoa d)) in *. exists (dec_value t), (zlen (itoa d) + k - zlen t).
  assert (V' : d = dec_value t * 10 ^ Z.of_nat n).
  { rewrite <- V at 1. rewrite E at 1. rewrite dec_value_app, dec_value_zeros, zlen_repeat. lia. }
  assert (zlen (itoa d) = zlen t + Z.of_nat n) as L. { rewrite E at 1. unfold zlen. rewrite app_length, repeat_length. lia. }
  repeat split.
  - rewrite E in F. apply Forall_app in F. tauto.
  - rewrite E in Hc. destruct t as [|c' r'].
    + exfalso. destruct n; cbn in Hc; [discriminate|]. injection Hc as <- _. now apply N.
    + cbn in Hc. injection Hc as -> _. eauto.
  - unfold ten_to. replace (zlen (itoa d) + k - zlen t) with (Z.of_nat n + k) by lia.
    rewrite powerRZ_add by lra. rewrite V' at 1. rewrite mult_IZR, <- pow_powerRZ, <- pow_IZR. simpl. ring.
  - assert (0 <= 10 ^ Z.of_nat n) by (apply Z.pow_nonneg; lia). nia.
Qed.

(* ------------------------------------------------------------------ texts *)

Lemma decimal_dv s : s <> [] -> Forall dec_char s -> decimal s (dec_value s).
Proof. intros. apply decimal_value. auto. Qed.

Definition signed (neg : bool) (m : Z) : Z := if neg then - m else m.

Lemma fmt_f_text (neg : bool) ds dp m e : stands ds dp m e ->
  exists m' e', number_text ((if neg then [45] else []) ++ fmt_f ds dp) (signed neg m') e' /\ ten_to m' e' = ten_to m e.
Proof.
  intros [F [[c [r [E N]]] [-> ->]]].
  assert (zlen ds > 0) by (subst ds; rewrite zlen_cons; pose proof (zlen_nonneg r); lia).
  unfold fmt_f. cbv zeta.
  destruct (Z.ltb_spec 0 dp) as [P|P].
  - destruct (Z.ltb_spec 0 (zlen ds - dp)) as [Q|Q].
    + replace (Z.to_nat (dp - zlen ds)) with O by lia. replace (Z.to_nat (- dp)) with O by lia. cbn [repeat app]. rewrite app_nil_r.
      exists (dec_value ds), (dp - zlen ds). split; [|reflexivity].
      exists neg, (firstn (Z.to_nat dp) ds), (46 :: skipn (Z.to_nat dp) ds), (skipn (Z.to_nat dp) ds), [], 0, (dec_value ds).
      assert (LS : zlen (skipn (Z.to_nat dp) ds) = zlen ds - dp) by (unfold zlen in *; rewrite skipn_length; lia).
      split; [now rewrite app_nil_r|]. split; [|split; [|split; [|split; [|split; [|split]]]]].
      * rewrite E. destruct (Z.to_nat dp) eqn:D; [lia|discriminate].
      * right. intros r' K. rewrite E in K. destruct (Z.to_nat dp) eqn:D; [lia|]. cbn in K. injection K as K _. now apply N.
      * right. split; [reflexivity|]. intros K. rewrite K in LS. rewrite zlen_nil in LS. lia.
      * left. auto.
      * rewrite firstn_skipn. apply decimal_dv; [subst ds; discriminate|assumption].
      * reflexivity.
      * lia.
    + rewrite (firstn_all2 ds) by (unfold zlen in *; lia). rewrite app_nil_r.
      exists (dec_value (ds ++ repeat 48 (Z.to_nat (dp - zlen ds)))), 0. split.
      * exists neg, (ds ++ repeat 48 (Z.to_nat (dp - zlen ds))), [], [], [], 0, (dec_value (ds ++ repeat 48 (Z.to_nat (dp - zlen ds)))).
        rewrite !app_nil_r. split; [reflexivity|]. split; [subst ds; discriminate|]. split; [right; intros r' K; subst ds; cbn in K; injection K as K _; now apply N|].
        split; [auto|]. split; [auto|]. split; [|split; reflexivity].
        apply decimal_dv; [subst ds; discriminate|]. apply Forall_app. split; [assumption|apply zeros_dec].
      * rewrite dec_value_app, dec_value_zeros, zlen_repeat, Z2Nat.id by lia. unfold ten_to. rewrite Z.add_0_r, mult_IZR. cbn [powerRZ]. rewrite Rmult_1_r. f_equal.
        rewrite <- (Z2Nat.id (dp - zlen ds)) by lia. rewrite <- pow_powerRZ, <- pow_IZR. reflexivity.
  - replace (Z.to_nat dp) with O by lia. cbn [skipn].
    destruct (Z.ltb_spec 0 (zlen ds - dp)) as [Q|Q]; [|lia].
    exists (dec_value ds), (dp - zlen ds). split; [|reflexivity].
    exists neg, [48], (46 :: repeat 48 (Z.to_nat (- dp)) ++ ds), (repeat 48 (Z.to_nat (- dp)) ++ ds), [], 0, (dec_value ds).
    rewrite app_nil_r. split; [reflexivity|]. split; [discriminate|]. split; [auto|]. split; [right; split; [reflexivity|subst ds; intros K; apply app_eq_nil in K; destruct K; discriminate]|].
    split; [auto|]. split; [|split; [reflexivity|]].
    + apply decimal_value. split; [discriminate|]. split.
      * apply Forall_app. split; [constructor; [unfold dec_char; lia|constructor]|]. apply Forall_app. split; [apply zeros_dec|assumption].
      * rewrite dec_value_app, dec_value_app, dec_value_zeros. reflexivity.
    + unfold zlen in *. rewrite app_length, repeat_length. lia.
Qed.

Lemma itoa_digit x : 0 <= x < 10 -> itoa x = [48 + x].
Proof. intros H. assert (x = 0 \/ x = 1 \/ x = 2 \/ x = 3 \/ x = 4 \/ x = 5 \/ x = 6 \/ x = 7 \/ x = 8 \/ x = 9) as D by lia. repeat (destruct D as [->|D]; [reflexivity|]). now subst. Qed.

Lemma json_exp_text (neg : bool) ds dp m e : stands ds dp m e ->
  number_text ((if neg then [45] else []) ++ json_exp (fmt_e ds dp)) (signed neg m) e.
Proof.
  intros [F [[c [r [E N]]] [-> ->]]].
  set (fr := match r with [] => [] | _ => 46 :: r end).
  assert (G : exists xd, json_exp (fmt_e ds dp) = c :: fr ++ 101 :: xd /\ int_text xd (dp - 1)).
  { subst ds. cbn [fmt_e]. cbv zeta. fold fr.
    destruct (Z.ltb_spec (Z.abs (dp - 1)) 10) as [S|S].
    - rewrite itoa_digit by lia.
      assert (D1 : decimal [48; 48 + Z.abs (dp - 1)] (Z.abs (dp - 1))).
      { split; [discriminate|]. split; [repeat constructor; lia|]. cbn [fold_left]. lia. }
      unfold json_exp.
      assert (RV : rev (c :: fr ++ [101; if dp - 1 <? 0 then 45 else 43] ++ [48; 48 + Z.abs (dp - 1)]) =
        [48 + Z.abs (dp - 1); 48; (if dp - 1 <? 0 then 45 else 43); 101] ++ rev (c :: fr)).
      { change (c :: fr ++ [101; if dp - 1 <? 0 then 45 else 43] ++ [48; 48 + Z.abs (dp - 1)]) with ((c :: fr) ++ [101; if dp - 1 <? 0 then 45 else 43] ++ [48; 48 + Z.abs (dp - 1)]).
        rewrite rev_app_distr. reflexivity. }
      rewrite RV. cbn [app]. rewrite !Z.eqb_refl. cbn [andb].
      destruct (Z.ltb_spec (dp - 1) 0) as [L|L].
      + cbn [Z.eqb andb]. change (45 =? 45) with true. cbn [andb]. rewrite rev_involutive.
        exists [45; 48 + Z.abs (dp - 1)]. split; [reflexivity|]. right. right. exists [48 + Z.abs (dp - 1)]. split; [reflexivity|].
        split; [discriminate|]. split; [repeat constructor; lia|]. cbn [fold_left]. lia.
      + change (43 =? 45) with false. cbn [andb].
        exists [43; 48; 48 + Z.abs (dp - 1)]. split; [reflexivity|]. right. left. exists [48; 48 + Z.abs (dp - 1)]. split; [reflexivity|]. now replace (dp - 1) with (Z.abs (dp - 1)) at 2 by lia.
    - destruct (itoa_value (Z.abs (dp - 1)) ltac:(lia)) as [V [FD NE]]. destruct (itoa_head (Z.abs (dp - 1)) ltac:(lia)) as [a [t [H1 H2]]].
      assert (t <> []) as TN.
      { intros ->. rewrite H1 in V, FD. inversion FD; subst. unfold dec_char in *. unfold dec_value, pos_value in V. cbn in V. lia. }
      assert (DI : decimal (itoa (Z.abs (dp - 1))) (Z.abs (dp - 1))) by (apply itoa_decimal; lia).
      exists ((if dp - 1 <? 0 then 45 else 43) :: itoa (Z.abs (dp - 1))). split.
      + unfold json_exp.
        assert (RV : rev (c :: fr ++ [101; if dp - 1 <? 0 then 45 else 43] ++ itoa (Z.abs (dp - 1))) =
          rev t ++ [a; (if dp - 1 <? 0 then 45 else 43); 101] ++ rev (c :: fr)).
        { rewrite H1. change (c :: fr ++ [101; if dp - 1 <? 0 then 45 else 43] ++ a :: t) with ((c :: fr) ++ [101; if dp - 1 <? 0 then 45 else 43] ++ [a] ++ t).
          rewrite !rev_app_distr. rewrite <- !app_assoc. reflexivity. }
        rewrite RV. clear RV.
        assert (FT : Forall dec_char (rev t)). { apply Forall_rev. rewrite H1 in FD. inversion FD; assumption. }
        destruct (rev t) as [|x1 rt] eqn:RT. { exfalso. apply TN. rewrite <- (rev_involutive t), RT. reflexivity. }
        assert (AD : dec_char a) by (rewrite H1 in FD; inversion FD; assumption). unfold dec_char in *.
        destruct rt as [|x2 rt]; cbn [app].
        * replace (a =? 48) with false by lia. cbn [andb]. reflexivity.
        * destruct rt as [|x3 rt]; cbn [app].
          -- replace (a =? 45) with false by lia. rewrite andb_false_r. cbn [andb]. reflexivity.
          -- inversion FT as [|? ? ? FT2]; subst. inversion FT2 as [|? ? ? FT3]; subst. inversion FT3; subst.
             replace (x3 =? 45) with false by lia. rewrite andb_false_r. cbn [andb]. destruct (rt ++ _); reflexivity.
      + destruct (Z.ltb_spec (dp - 1) 0).
        * right. right. exists (itoa (Z.abs (dp - 1))). split; [reflexivity|]. now replace (- (dp - 1)) with (Z.abs (dp - 1)) by lia.
        * right. left. exists (itoa (Z.abs (dp - 1))). split; [reflexivity|]. now replace (dp - 1) with (Z.abs (dp - 1)) at 2 by lia. }
  destruct G as [xd [-> IX]].
  exists neg, [c], fr, r, (101 :: xd), (dp - 1), (dec_value ds).
  split; [reflexivity|]. split; [discriminate|]. split; [right; intros r' K; injection K as K _; now apply N|].
  split; [unfold fr; destruct r; [left; auto|right; split; [reflexivity|discriminate]]|].
  split; [right; exists 101, xd; auto|]. split; [|split; [reflexivity|]].
  - rewrite E in *. apply decimal_dv; [discriminate|assumption].
  - rewrite E, zlen_cons. lia.
Qed.

(* ------------------------------------------------------------------ the theorem *)

Lemma ten_pos j : 0 <= j -> powerRZ 10 j = IZR (10 ^ j).
Proof. intros H. rewrite <- (Z2Nat.id j) by assumption. now rewrite <- pow_powerRZ, <- pow_IZR. Qed.

Lemma ten_to_signed neg m e : ten_to (signed neg m) e = (if neg then - ten_to m e else ten_to m e)%R.
Proof. unfold ten_to, signed. destruct neg; [rewrite opp_IZR; ring|reflexivity]. Qed.

Section Fmt2.
Variables prec emax : Z.
Context (Hp : Prec_gt_0 prec) (He : Prec_lt_emax prec emax).
Notation fe := (SpecFloat.fexp prec emax).
Notation rnd := (round radix2 fe ZnearestE).

Lemma shortest_rounds m e : valid_binary prec emax (S754_finite false m e) = true ->
  exists ds dp n x, shortest prec emax m e = (ds, dp) /\ stands ds dp n x /\ rnd (ten_to n x) = (IZR (Zpos m) * bpow radix2 e)%R.
Proof.
  intros V. unfold shortest. cbv zeta.
  set (q := e - 2). set (K := if 0 <=? q then 0 else q). set (F := if 0 <=? q then 2 ^ q else 5 ^ (- q)).
  set (lw := if (Zpos m =? 2 ^ (prec - 1)) && (3 - emax - prec <? e) then 4 * Zpos m - 1 else 4 * Zpos m - 2).
  assert (FP : 0 < F) by (unfold F; destruct (Z.leb_spec 0 q); apply Z.pow_pos_nonneg; lia).
  assert (LW : 0 < lw < 4 * Zpos m) by (unfold lw; destruct (_ && _); lia).
  pose proof (short_loop_within (List.length (itoa (4 * Zpos m * F)) - 1) (4 * Zpos m * F) (lw * F) ((4 * Zpos m + 2) * F) (Z.even (Zpos m)) ltac:(nia) ltac:(nia)) as W.
  cbv zeta in W. destruct (short_loop _ _ _ _ _) as [d k]. cbn [fst snd] in W. destruct W as [K0 [D0 W]].
  destruct (trimmed d (k + K) D0) as [n [x [ST [TE NP]]]].
  exists (trim_zeros (itoa d)), (zlen (itoa d) + k + K), n, x. split; [reflexivity|]. split; [now rewrite Z.add_assoc in ST|].
  rewrite TE.
  assert (SC : forall z, (IZR (z * F) * powerRZ 10 K = IZR z * bpow radix2 q)%R).
  { intros z. rewrite mult_IZR, Rmult_assoc. f_equal. unfold F, K. destruct (Z.leb_spec 0 q).
    - cbn [powerRZ]. rewrite Rmult_1_r. symmetry. now apply bpow_Z.
    - assert (P5 : (IZR (5 ^ (- q)) * powerRZ 10 q = / IZR (2 ^ (- q)))%R).
      { replace q with (- (- q)) at 2 by lia. rewrite powerRZ_neg', ten_pos by lia.
        change 10 with (5 * 2). rewrite Z.pow_mul_l, mult_IZR.
        assert (IZR (5 ^ (- q)) <> 0)%R by (apply not_0_IZR; apply Z.pow_nonzero; lia).
        assert (IZR (2 ^ (- q)) <> 0)%R by (apply not_0_IZR; apply Z.pow_nonzero; lia).
        field. split; assumption. }
      rewrite P5. replace q with (- (- q)) at 2 by lia. rewrite bpow_opp, bpow_Z by lia. reflexivity. }
  assert (VD : ten_to d (k + K) = (IZR (d * 10 ^ k) * powerRZ 10 K)%R).
  { unfold ten_to. rewrite powerRZ_add by lra. rewrite ten_pos by lia. rewrite mult_IZR. ring. }
  assert (PK : (0 < powerRZ 10 K)%R) by (apply powerRZ_lt; lra).
  apply (interval prec emax); try assumption. cbv zeta. fold q. fold lw. rewrite <- !SC, VD.
  destruct W as [[W1 W2]|[Ev [W1 W2]]].
  - left. split; apply Rmult_lt_compat_r; try assumption; apply IZR_lt; assumption.
  - right. split; [assumption|]. split; apply Rmult_le_compat_r; try lra; apply IZR_le; assumption.
Qed.

Theorem json_float_ok x : valid_binary prec emax x = true -> is_finite_SF x = true ->
  exists s m e, json_float prec emax x = Some s /\ number_text s m e /\ float_is x (rnd (ten_to m e)).
Proof.
  intros V Fi. destruct x as [s|s| |s m e]; try discriminate Fi; cbn [json_float].
  - exists ((if s then [45] else []) ++ [48]), 0, 0. split; [reflexivity|]. split.
    + exists s, [48], [], [], [], 0, 0. rewrite !app_nil_r. split; [reflexivity|]. split; [discriminate|]. split; [auto|]. split; [auto|]. split; [auto|].
      split; [|destruct s; split; reflexivity]. split; [discriminate|]. split; [repeat constructor; lia|reflexivity].
    + split; [reflexivity|]. unfold ten_to. rewrite Rmult_0_l, round_0 by auto with typeclass_instances. reflexivity.
  - assert (V' : valid_binary prec emax (S754_finite false m e) = true) by exact V.
    destruct (shortest_rounds m e V') as [ds [dp [n [x [-> [ST RD]]]]]]. cbv zeta.
    assert (FIN : forall n', ten_to n' = ten_to n' -> True) by auto. clear FIN.
    assert (SR : forall m' e', ten_to m' e' = ten_to n x -> float_is (S754_finite s m e) (rnd (ten_to (signed s m') e'))).
    { intros m' e' Q. split; [reflexivity|]. rewrite ten_to_signed, Q. cbn [SF2R]. unfold F2R. cbn [Fnum Fexp].
      destruct s; cbn [cond_Zopp].
      - rewrite round_NE_opp, RD. change (Z.neg m) with (- Z.pos m). rewrite opp_IZR. ring.
      - symmetry. exact RD. }
    destruct (SFltb _ _ || negb _).
    + pose proof (json_exp_text s ds dp n x ST) as T. eexists _, _, _. split; [reflexivity|]. split; [exact T|]. apply SR. reflexivity.
    + destruct (fmt_f_text s ds dp n x ST) as [m' [e' [T Q]]]. eexists _, _, _. split; [reflexivity|]. split; [exact T|]. apply SR. exact Q.
Qed.
End Fmt2.
