(** FtoaShort: the decimal of a floating point number has as few digits as can be (C111). *)
From Coq Require Import ZArith Reals Lia Lra Floats.SpecFloat ZifyBool.
From Flocq Require Import Core BinarySingleNaN.
From Verif Require Import GoBase BufFacts Strconv StrconvFacts NmeaModel NmeaSpec NmeaFloat FtoaModel FtoaFacts JsonModel JsonSpec JsonFacts JsonForm SignalkModel SignalkSpec SignalkText XmlSpec XmlOutSpec XmlOutProps
  FmtvModel FmtvSpec FmtvProps FtoaShortSpec.
Open Scope Z_scope.
Open Scope list_scope.

(* ------------------------------------------------------------------ the loop *)

Definition none (lower upper p : Z) : Prop := forall c, lower < c * p < upper -> False.

Lemma some_ok X lower upper incl p : 0 < p -> lower < X < upper ->
  ((lower <? X / p * p) || (incl && (lower =? X / p * p))) = false ->
  (((X / p + 1) * p <? upper) || (incl && ((X / p + 1) * p =? upper))) = false -> none lower upper p.
Proof.
  intros P HX A B c H. apply orb_false_iff in A as [A _]. apply orb_false_iff in B as [B _].
  apply Z.ltb_ge in A. apply Z.ltb_ge in B.
  pose proof (Z.div_mod X p ltac:(lia)). pose proof (Z.mod_pos_bound X p P). set (f := X / p) in *.
  assert (f < c) by nia. assert (c < f + 1) by nia. lia.
Qed.
Lemma short_loop_none k X lower upper incl : lower < X < upper -> none lower upper (10 ^ (Z.of_nat k + 1)) ->
  none lower upper (10 ^ (snd (short_loop k X lower upper incl) + 1)).
Proof.
  intros HX. induction k as [|k IH]; intros N; cbn [short_loop]; cbv zeta.
  - destruct (_ || _); destruct (_ || _); cbn [andb snd]; assumption.
  - assert (0 < 10 ^ Z.of_nat (S k)) as P by (apply Z.pow_pos_nonneg; lia).
    pose proof (some_ok X lower upper incl _ P HX) as S.
    set (f := X / 10 ^ Z.of_nat (Datatypes.S k)) in *.
    destruct ((lower <? f * 10 ^ Z.of_nat (Datatypes.S k)) || _); destruct (((f + 1) * _ <? upper) || _); cbn [andb]; try (cbn [snd]; assumption).
    apply IH. replace (Z.of_nat k + 1) with (Z.of_nat (Datatypes.S k)) by lia. now apply S.
Qed.
Lemma short_loop_top k X lower upper incl : 0 <= X -> lower < X < upper -> X < 10 ^ (Z.of_nat k + 1) ->
  let r := short_loop k X lower upper incl in fst r <= 10 \/ none lower upper (10 ^ (snd r + 1)).
Proof.
  intros X0 HX HK. cbv zeta. destruct k as [|k].
  - left. cbn [short_loop]. cbv zeta. change (10 ^ Z.of_nat 0) with 1. rewrite Z.div_1_r. change (10 ^ (Z.of_nat 0 + 1)) with 10 in HK.
    destruct (_ || _); destruct (_ || _); cbn [andb fst]; try lia. destruct (_ || _); lia.
  - assert (0 < 10 ^ Z.of_nat (S k)) as P by (apply Z.pow_pos_nonneg; lia).
    assert (X / 10 ^ Z.of_nat (S k) < 10) as F. { apply Z.div_lt_upper_bound; [exact P|]. rewrite Z.pow_add_r in HK by lia. change (10 ^ 1) with 10 in HK. rewrite Z.mul_comm in HK. rewrite Z.mul_comm. exact HK. }
    pose proof (some_ok X lower upper incl _ P HX) as S.
    cbn [short_loop]. cbv zeta. set (f := X / 10 ^ Z.of_nat (Datatypes.S k)) in *.
    destruct ((lower <? f * 10 ^ Z.of_nat (Datatypes.S k)) || _) eqn:A; destruct (((f + 1) * _ <? upper) || _) eqn:B; cbn [andb].
    + left. cbn [fst]. clear - F. match goal with |- context [if ?b then _ else _] => destruct b end. all: lia.
    + left. cbn [fst]. lia.
    + left. cbn [fst]. lia.
    + right. apply short_loop_none; [exact HX|]. replace (Z.of_nat k + 1) with (Z.of_nat (Datatypes.S k)) by lia. now apply S.
Qed.

(* ------------------------------------------------------------------ powers *)

Lemma ten_pow_pos j : (0 < powerRZ 10 j)%R.
Proof. apply powerRZ_lt; lra. Qed.
Lemma ten_mono a b : a <= b -> (powerRZ 10 a <= powerRZ 10 b)%R.
Proof.
  intros H. replace b with (a + (b - a)) by lia. rewrite powerRZ_add by lra. rewrite (ten_pos (b - a)) by lia.
  pose proof (ten_pow_pos a). assert (1 <= 10 ^ (b - a)) as Q by (pose proof (Z.pow_pos_nonneg 10 (b - a)); lia). apply IZR_le in Q. nra.
Qed.
(** A decimal strictly between the bounds leaves no room for a longer result. *)
Lemma few_digits d k K lower upper n j i : 0 <= k -> 0 < n < 10 ^ i -> 1 <= i ->
  (IZR lower * powerRZ 10 K < ten_to n j < IZR upper * powerRZ 10 K)%R ->
  d * 10 ^ k <= upper -> d <= 10 \/ none lower upper (10 ^ (k + 1)) -> d <= 10 ^ i.
Proof.
  intros K0 Hn Hi [H1 H2] HU [H|N].
  - apply Z.le_trans with (10 ^ 1); [exact H|]. apply Z.pow_le_mono_r; lia.
  - destruct (Z_le_gt_dec d (10 ^ i)) as [L|G]; [exact L|exfalso].
    pose proof (ten_pow_pos K) as PK.
    assert (ten_to n j = ten_to n (j - K) * powerRZ 10 K)%R as E.
    { unfold ten_to. replace j with (j - K + K) at 1 by lia. rewrite powerRZ_add by lra. ring. }
    rewrite E in H1, H2. apply Rmult_lt_reg_r in H1; [|exact PK]. apply Rmult_lt_reg_r in H2; [|exact PK].
    destruct (Z_le_gt_dec (j - K) k) as [J|J].
    + apply (N (10 ^ (i - 1))). rewrite <- Z.pow_add_r by lia. replace (i - 1 + (k + 1)) with (i + k) by lia. rewrite Z.pow_add_r by lia.
      assert (0 < 10 ^ k) by (apply Z.pow_pos_nonneg; lia). split; [|nia].
      apply lt_IZR. rewrite mult_IZR. apply Rlt_le_trans with (1 := H1). unfold ten_to.
      pose proof (ten_mono _ _ J) as M. rewrite (ten_pos k) in M by lia. pose proof (ten_pow_pos (j - K)).
      assert (IZR n <= IZR (10 ^ i))%R by (apply IZR_le; lia). assert (0 <= IZR n)%R by (apply IZR_le; lia).
      apply Rmult_le_compat; lra.
    + apply (N (n * 10 ^ (j - K - k - 1))). rewrite <- Z.mul_assoc, <- Z.pow_add_r by lia. replace (j - K - k - 1 + (k + 1)) with (j - K) by lia.
      unfold ten_to in H1, H2. rewrite ten_pos, <- mult_IZR in H1, H2 by lia. split; apply lt_IZR; assumption.
Qed.

Lemma dec_digits_fits fuel : forall n acc, 0 < n < 2 ^ Z.of_nat fuel -> exists d, dec_digits fuel n acc = d ++ acc /\ n < 10 ^ zlen d.
Proof.
  induction fuel as [|f IH]; intros n acc H; [cbn in H; lia|].
  cbn [dec_digits]. cbv zeta. pose proof (Z.div_mod n 10 ltac:(lia)) as DM. pose proof (Z.mod_pos_bound n 10 ltac:(lia)) as MB.
  destruct (Z.eqb_spec (n / 10) 0) as [E|E].
  - exists [48 + n mod 10]. split; [reflexivity|]. unfold zlen. cbn [List.length]. change (10 ^ Z.of_nat 1) with 10. lia.
  - assert (0 <= n / 10) by (apply Z.div_pos; lia).
    rewrite Nat2Z.inj_succ, Z.pow_succ_r in H by lia.
    destruct (IH (n / 10) ((48 + n mod 10) :: acc) ltac:(lia)) as [d [-> D]].
    exists (d ++ [48 + n mod 10]). split; [now rewrite <- app_assoc|].
    assert (zlen (d ++ [48 + n mod 10]) = zlen d + 1) as -> by (unfold zlen; rewrite app_length; cbn; lia).
    pose proof (zlen_nonneg d). rewrite Z.pow_add_r by lia. change (10 ^ 1) with 10. lia.
Qed.
Lemma itoa_fits n : 0 < n -> n < 10 ^ zlen (itoa n).
Proof.
  intros H. unfold itoa. destruct (Z.ltb_spec n 0); [lia|].
  destruct (dec_digits_fits (S (Z.to_nat (Z.log2 n))) n []) as [d [E D]]; [|now rewrite E, app_nil_r].
  rewrite Nat2Z.inj_succ, Z2Nat.id by apply Z.log2_nonneg. pose proof (Z.log2_spec n H). lia.
Qed.

Lemma fmt_f_text2 (neg : bool) ds dp m e : stands ds dp m e ->
  exists m' e', number_text ((if neg then [45] else []) ++ fmt_f ds dp) (signed neg m') e' /\ ten_to m' e' = ten_to m e /\ (e' = 0 \/ m' = m /\ e' = e).
Proof.
  intros [F [[c [r [E N]]] [-> ->]]].
  assert (zlen ds > 0) by (subst ds; rewrite zlen_cons; pose proof (zlen_nonneg r); lia).
  unfold fmt_f. cbv zeta.
  destruct (Z.ltb_spec 0 dp) as [P|P].
  - destruct (Z.ltb_spec 0 (zlen ds - dp)) as [Q|Q].
    + replace (Z.to_nat (dp - zlen ds)) with O by lia. replace (Z.to_nat (- dp)) with O by lia. cbn [repeat app]. rewrite app_nil_r.
      exists (dec_value ds), (dp - zlen ds). split; [|split; [reflexivity|right; split; reflexivity]].
      exists neg, (firstn (Z.to_nat dp) ds), (46 :: skipn (Z.to_nat dp) ds), (skipn (Z.to_nat dp) ds), [], 0, (dec_value ds).
      assert (LS : zlen (skipn (Z.to_nat dp) ds) = zlen ds - dp) by (unfold zlen in *; rewrite skipn_length; lia).
      split; [now rewrite app_nil_r|]. split; [|split; [|split; [|split; [|split; [|split]]]]].
      * rewrite E. destruct (Z.to_nat dp) eqn:D; [lia|discriminate].
      * right. intros r' K. rewrite E in K. destruct (Z.to_nat dp) eqn:D; [lia|]. cbn in K. injection K as K _. now apply N.
      * right. split; [reflexivity|]. intros K. rewrite K in LS. rewrite zlen_nil in LS. lia.
      * left. auto.
      * rewrite firstn_skipn. apply decimal_dv; [subst ds; discriminate|assumption].
      * reflexivity.
      * lia.
    + rewrite (firstn_all2 ds) by (unfold zlen in *; lia). rewrite app_nil_r.
      exists (dec_value (ds ++ repeat 48 (Z.to_nat (dp - zlen ds)))), 0. split.
      * exists neg, (ds ++ repeat 48 (Z.to_nat (dp - zlen ds))), [], [], [], 0, (dec_value (ds ++ repeat 48 (Z.to_nat (dp - zlen ds)))).
        rewrite !app_nil_r. split; [reflexivity|]. split; [subst ds; discriminate|]. split; [right; intros r' K; subst ds; cbn in K; injection K as K _; now apply N|].
        split; [auto|]. split; [auto|]. split; [|split; reflexivity].
        apply decimal_dv; [subst ds; discriminate|]. apply Forall_app. split; [assumption|apply zeros_dec].
      * split; [|left; reflexivity]. rewrite dec_value_app, dec_value_zeros, zlen_repeat, Z2Nat.id by lia. unfold ten_to. rewrite Z.add_0_r, mult_IZR. cbn [powerRZ]. rewrite Rmult_1_r. f_equal.
        rewrite <- (Z2Nat.id (dp - zlen ds)) by lia. rewrite <- pow_powerRZ, <- pow_IZR. reflexivity.
  - replace (Z.to_nat dp) with O by lia. cbn [skipn].
    destruct (Z.ltb_spec 0 (zlen ds - dp)) as [Q|Q]; [|lia].
    exists (dec_value ds), (dp - zlen ds). split; [|split; [reflexivity|right; split; reflexivity]].
    exists neg, [48], (46 :: repeat 48 (Z.to_nat (- dp)) ++ ds), (repeat 48 (Z.to_nat (- dp)) ++ ds), [], 0, (dec_value ds).
    rewrite app_nil_r. split; [reflexivity|]. split; [discriminate|]. split; [auto|]. split; [right; split; [reflexivity|subst ds; intros K; apply app_eq_nil in K; destruct K; discriminate]|].
    split; [auto|]. split; [|split; [reflexivity|]].
    + apply decimal_value. split; [discriminate|]. split.
      * apply Forall_app. split; [constructor; [unfold dec_char; lia|constructor]|]. apply Forall_app. split; [apply zeros_dec|assumption].
      * rewrite dec_value_app, dec_value_app, dec_value_zeros. reflexivity.
    + unfold zlen in *. rewrite app_length, repeat_length. lia.
Qed.


(** No zeros at the end. *)
Lemma drop_zeros_head l c r : drop_zeros l = c :: r -> c <> 48.
Proof. induction l as [|a l IH]; cbn [drop_zeros]; [discriminate|]. destruct (Z.eqb_spec a 48); [exact IH|]. intros E. injection E as <- _. assumption. Qed.
Lemma trim_last l ds dp m e : ds = trim_zeros l -> stands ds dp m e -> m mod 10 <> 0.
Proof.
  intros E (F & (c & r & D & _) & -> & _). unfold trim_zeros in E. destruct (drop_zeros (rev l)) as [|z t] eqn:Z0; [cbn in E; congruence|].
  pose proof (drop_zeros_head _ _ _ Z0) as N. cbn [rev] in E. rewrite E in F |- *. apply Forall_app in F as [_ F]. inversion F as [|? ? Hz _]; subst.
  rewrite dec_value_app. unfold zlen. cbn [List.length]. change (10 ^ Z.of_nat 1) with 10. rewrite Z.add_comm, Z_mod_plus_full.
  assert (dec_value [z] = z - 48) as -> by (unfold dec_value, pos_value; cbn; lia). unfold dec_char in Hz. rewrite Z.mod_small; lia.
Qed.

(* ------------------------------------------------------------------ the digits *)

Section Fmt.
Variables prec emax : Z.
Context (Hp : Prec_gt_0 prec) (He : Prec_lt_emax prec emax).
Notation fe := (SpecFloat.fexp prec emax).

Let low (m : positive) (e : Z) := if (Zpos m =? 2 ^ (prec - 1)) && (3 - emax - prec <? e) then 4 * Zpos m - 1 else 4 * Zpos m - 2.

Lemma shortest_least m e : exists ds dp n x, shortest prec emax m e = (ds, dp) /\ stands ds dp n x /\ n mod 10 <> 0 /\
  forall c j i, 1 <= i -> 0 < c < 10 ^ i ->
    (IZR (low m e) * bpow radix2 (e - 2) < ten_to c j < IZR (4 * Zpos m + 2) * bpow radix2 (e - 2))%R -> few n x i.
Proof.
  unfold shortest. cbv zeta.
  set (q := e - 2). set (K := if 0 <=? q then 0 else q). set (F := if 0 <=? q then 2 ^ q else 5 ^ (- q)).
  fold (low m e). set (lw := low m e).
  assert (FP : 0 < F) by (unfold F; destruct (Z.leb_spec 0 q); apply Z.pow_pos_nonneg; lia).
  assert (LW : 0 < lw < 4 * Zpos m) by (unfold lw, low; destruct (_ && _); lia).
  set (X := 4 * Zpos m * F).
  assert (HX : lw * F < X < (4 * Zpos m + 2) * F) by (unfold X; nia).
  assert (X0 : 0 < X) by (unfold X; nia).
  pose proof (short_loop_within (List.length (itoa X) - 1) X (lw * F) ((4 * Zpos m + 2) * F) (Z.even (Zpos m)) ltac:(nia) ltac:(nia)) as W.
  assert (TOP : X < 10 ^ (Z.of_nat (List.length (itoa X) - 1) + 1)).
  { pose proof (itoa_fits X X0) as I. destruct (itoa_head X X0) as (c & r & E & _). unfold zlen in I. rewrite E in *. cbn [List.length] in *.
    replace (Z.of_nat (S (List.length r) - 1) + 1) with (Z.of_nat (S (List.length r))) by lia. exact I. }
  pose proof (short_loop_top _ X (lw * F) ((4 * Zpos m + 2) * F) (Z.even (Zpos m)) ltac:(lia) HX TOP) as T.
  cbv zeta in W, T. destruct (short_loop _ _ _ _ _) as [d k]. cbn [fst snd] in W, T. destruct W as [K0 [D0 W]].
  destruct (trimmed d (k + K) D0) as [n [x [ST [TE NP]]]].
  exists (trim_zeros (itoa d)), (zlen (itoa d) + k + K), n, x. split; [reflexivity|]. rewrite Z.add_assoc in ST. split; [exact ST|]. split; [exact (trim_last _ _ _ _ _ eq_refl ST)|].
  intros c j i Hi Hc HB.
  assert (SC : forall z, (IZR (z * F) * powerRZ 10 K = IZR z * bpow radix2 q)%R).
  { intros z. rewrite mult_IZR, Rmult_assoc. f_equal. unfold F, K. destruct (Z.leb_spec 0 q).
    - cbn [powerRZ]. rewrite Rmult_1_r. symmetry. now apply bpow_Z.
    - assert (P5 : (IZR (5 ^ (- q)) * powerRZ 10 q = / IZR (2 ^ (- q)))%R).
      { replace q with (- (- q)) at 2 by lia. rewrite powerRZ_neg', ten_pos by lia.
        change 10 with (5 * 2). rewrite Z.pow_mul_l, mult_IZR.
        assert (IZR (5 ^ (- q)) <> 0)%R by (apply not_0_IZR; apply Z.pow_nonzero; lia).
        assert (IZR (2 ^ (- q)) <> 0)%R by (apply not_0_IZR; apply Z.pow_nonzero; lia).
        field. split; assumption. }
      rewrite P5. replace q with (- (- q)) at 2 by lia. rewrite bpow_opp, bpow_Z by lia. reflexivity. }
  assert (D : d <= 10 ^ i).
  { apply (few_digits d k K (lw * F) ((4 * Zpos m + 2) * F) c j i K0 Hc Hi); [rewrite !SC; exact HB| |exact T].
    destruct W as [W|[_ W]]; lia. }
  destruct (Z.eq_dec d (10 ^ i)) as [->|N].
  - exists 1, (k + K + i). split; [|rewrite Z.abs_eq by lia; apply Z.pow_gt_1; lia].
    rewrite TE. unfold ten_to. rewrite (powerRZ_add 10 (k + K)) by lra. rewrite (ten_pos i) by lia. ring.
  - exists d, (k + K). split; [exact TE|lia].
Qed.

Lemma fmt_of m e : Z.abs m < 2 ^ prec -> SpecFloat.emin prec emax <= e -> generic_format radix2 fe (IZR m * bpow radix2 e).
Proof.
  intros H E. apply (generic_format_FLT radix2 (SpecFloat.emin prec emax) prec). exists (Float radix2 m e); [reflexivity|exact H|exact E].
Qed.
Lemma pos_prec : 1 <= prec.
Proof. unfold Prec_gt_0 in Hp. lia. Qed.
Lemma valid_bounds m e : valid_binary prec emax (S754_finite false m e) = true -> Zpos m < 2 ^ prec /\ SpecFloat.emin prec emax <= e.
Proof.
  intros V. cbn [valid_binary] in V. unfold bounded in V. apply andb_prop in V. destruct V as [V _].
  unfold canonical_mantissa in V. apply Zeq_bool_eq in V. unfold SpecFloat.fexp in V.
  split; [|lia]. pose proof (Zdigits_correct radix2 (Z.pos m)) as Q. rewrite <- Zpos_digits2_pos in Q. change (radix_val radix2) with 2 in Q.
  apply Z.lt_le_trans with (2 ^ Z.pos (digits2_pos m)); [cbn [Z.abs] in Q; change (Zpower radix2) with (Z.pow 2) in Q; lia|]. apply Z.pow_le_mono_r; lia.
Qed.
Lemma closer_bounds m e r : valid_binary prec emax (S754_finite false m e) = true ->
  closer (generic_format radix2 fe) (IZR (Zpos m) * bpow radix2 e) r ->
  (IZR (low m e) * bpow radix2 (e - 2) < r < IZR (4 * Zpos m + 2) * bpow radix2 (e - 2))%R.
Proof.
  intros V C. destruct (valid_bounds m e V) as [M E]. pose proof pos_prec as PP.
  assert (0 < bpow radix2 e)%R as B by apply bpow_gt_0.
  assert (Hq : (bpow radix2 (e - 2) = bpow radix2 e / 4)%R). { unfold Zminus. rewrite bpow_plus. change (bpow radix2 (- (2))) with (/ 4)%R. field. }
  assert (Hh : (bpow radix2 (e - 1) = bpow radix2 e / 2)%R). { unfold Zminus. rewrite bpow_plus. change (bpow radix2 (-(1))) with (/ 2)%R. field. }
  rewrite Hq. set (b := bpow radix2 e) in *. set (x := (IZR (Z.pos m) * b)%R) in *.
  assert (forall y, (x < y)%R -> generic_format radix2 fe y -> (r < (x + y) / 2)%R) as U.
  { intros y L G. specialize (C y G ltac:(lra)). unfold Rabs in C. destruct (Rcase_abs (r - x)), (Rcase_abs (r - y)); lra. }
  assert (forall y, (y < x)%R -> generic_format radix2 fe y -> ((x + y) / 2 < r)%R) as L.
  { intros y L G. specialize (C y G ltac:(lra)). unfold Rabs in C. destruct (Rcase_abs (r - x)), (Rcase_abs (r - y)); lra. }
  split.
  - unfold low. destruct (_ && _) eqn:Q.
    + apply andb_prop in Q as [Q1 Q2]. apply Z.eqb_eq in Q1. apply Z.ltb_lt in Q2.
      assert (2 ^ prec = 2 * 2 ^ (prec - 1)) as P2 by (rewrite <- Z.pow_succ_r by lia; f_equal; lia).
      specialize (L (IZR (2 * Zpos m - 1) * bpow radix2 (e - 1))%R). rewrite Hh in L. rewrite ?minus_IZR, ?mult_IZR in L. rewrite ?minus_IZR, ?mult_IZR. unfold x in *.
      lapply L; [clear L; intros L|clear - B; generalize (IZR (Zpos m)); intros; nra]. lapply L; [clear L; intros L; nra|].
      rewrite <- Hh, <- mult_IZR, <- minus_IZR. apply fmt_of; [lia|]. unfold SpecFloat.emin in *. lia.
    + specialize (L (IZR (Zpos m - 1) * b)%R). rewrite ?minus_IZR, ?mult_IZR in L. rewrite ?minus_IZR, ?mult_IZR. unfold x in *.
      lapply L; [clear L; intros L|clear - B; generalize (IZR (Zpos m)); intros; nra]. lapply L; [clear L; intros L; apply Rle_lt_trans with (2 := L); clearbody b; clear; generalize (IZR (Zpos m)); intros; right; field|].
      rewrite <- minus_IZR. apply fmt_of; [lia|exact E].
  - specialize (U (IZR (Zpos m + 1) * b)%R). rewrite ?plus_IZR, ?mult_IZR in U. rewrite ?plus_IZR, ?mult_IZR. unfold x in *.
    lapply U; [clear U; intros U|clear - B; generalize (IZR (Zpos m)); intros; nra]. lapply U; [clear U; intros U; apply Rlt_le_trans with (1 := U); clearbody b; clear; generalize (IZR (Zpos m)); intros; right; field|].
    rewrite <- plus_IZR. destruct (Z.eq_dec (Zpos m + 1) (2 ^ prec)) as [Q|Q].
    + assert (2 ^ prec = 2 ^ (prec - 1) * 2) as P2 by (rewrite Z.mul_comm, <- Z.pow_succ_r by lia; f_equal; lia).
      replace (IZR (Zpos m + 1) * b)%R with (IZR (2 ^ (prec - 1)) * bpow radix2 (e + 1))%R.
      * apply fmt_of; [|lia]. assert (0 < 2 ^ (prec - 1)) by (apply Z.pow_pos_nonneg; lia). lia.
      * rewrite Q, P2, mult_IZR, bpow_plus. change (bpow radix2 1) with 2%R. unfold b. ring.
    + apply fmt_of; [lia|exact E].
Qed.

Lemma closer_opp x r : closer (generic_format radix2 fe) x r -> closer (generic_format radix2 fe) (- x) (- r).
Proof.
  intros C y G N. specialize (C (- y)%R (generic_format_opp _ _ _ G) ltac:(lra)).
  replace (- r - - x)%R with (- (r - x))%R by ring. replace (- r - y)%R with (- (r - - y))%R by ring. rewrite !Rabs_Ropp. exact C.
Qed.
Lemma few_signed s m e m' e' i : ten_to m' e' = ten_to m e -> few m e i -> few (signed s m') e' i.
Proof.
  intros E (a & b & Q & L). exists (signed s a), b. rewrite !ten_to_signed, E, Q. split; [reflexivity|]. destruct s; cbn [signed]; lia.
Qed.

(** The digits of a finite number, in both shapes. *)
Lemma least s m e : valid_binary prec emax (S754_finite s m e) = true ->
  exists ds dp n x, shortest prec emax m e = (ds, dp) /\ stands ds dp n x /\ n mod 10 <> 0 /\
  forall m' e' c j i, ten_to m' e' = ten_to n x -> 1 <= i -> Z.abs c < 10 ^ i ->
    closer (generic_format radix2 fe) (SF2R radix2 (S754_finite s m e)) (ten_to c j) -> few (signed s m') e' i.
Proof.
  intros V. assert (V' : valid_binary prec emax (S754_finite false m e) = true) by exact V.
  destruct (shortest_least m e) as (ds & dp & n & x & H & ST & NZ & L). exists ds, dp, n, x. split; [exact H|]. split; [exact ST|]. split; [exact NZ|].
  intros m' e' c j i E Hi Hc C. apply (few_signed s n x); [exact E|].
  assert (closer (generic_format radix2 fe) (IZR (Zpos m) * bpow radix2 e) (ten_to (signed s c) j)) as C'.
  { rewrite ten_to_signed. destruct s; cbn [SF2R] in C; unfold F2R in C; cbn [Fnum Fexp cond_Zopp] in C; [|exact C].
    apply closer_opp in C. replace (IZR (Z.pos m) * bpow radix2 e)%R with (- (IZR (Z.neg m) * bpow radix2 e))%R; [exact C|].
    change (Z.neg m) with (- Z.pos m). rewrite opp_IZR. ring. }
  pose proof (closer_bounds m e _ V' C') as B. apply (L (signed s c) j i Hi); [|exact B].
  destruct B as [B _]. split; [|destruct s; cbn [signed]; lia].
  assert (0 < IZR (low m e) * bpow radix2 (e - 2))%R as P.
  { apply Rmult_lt_0_compat; [|apply bpow_gt_0]. apply IZR_lt. unfold low. destruct (_ && _); lia. }
  apply lt_IZR. pose proof (ten_pow_pos j) as T. unfold ten_to in B.
  destruct (Rlt_or_le 0 (IZR (signed s c))) as [Q|Q]; [exact Q|]. nra.
Qed.

Lemma signed_last s n : n mod 10 <> 0 -> signed s n mod 10 <> 0.
Proof. destruct s; cbn [signed]; [|auto]. intros H K. apply H. apply Z.mod_opp_l_z in K; [|lia]. now rewrite Z.opp_involutive in K. Qed.
Lemma zero_short (s : bool) (i : Z) (X : bytes) : X = (if s then [45] else []) ++ [48] -> 1 <= i -> number_text X 0 0 /\ few 0 0 i.
Proof.
  intros -> Hi. split.
  - exists s, [48], [], [], [], 0, 0. rewrite !app_nil_r. split; [reflexivity|]. split; [discriminate|]. split; [auto|]. split; [auto|]. split; [auto|].
    split; [|destruct s; split; reflexivity]. split; [discriminate|]. split; [repeat constructor; lia|reflexivity].
  - exists 0, 0. split; [reflexivity|]. cbn. apply Z.pow_pos_nonneg; lia.
Qed.
Lemma float_v_short x : valid_binary prec emax x = true -> is_finite_SF x = true ->
  short_text (generic_format radix2 fe) (SF2R radix2 x) (float_v prec emax x).
Proof.
  intros V Fi. destruct x as [s|s| |s m e]; try discriminate Fi; cbn [float_v].
  - exists 0, 0. split; [apply (zero_short s 1); [reflexivity|lia]|]. split; [destruct s; cbn; lia|]. intros c j i Hi _ _. apply (zero_short s i _ eq_refl Hi).
  - destruct (least s m e V) as (ds & dp & n & x & -> & ST & NZ & L).
    destruct (_ || _).
    + destruct (fmt_e_text s ds dp n x ST) as [T _]. exists (signed s n), x. split; [exact T|]. split; [intros _; now apply signed_last|]. intros c j i. now apply L.
    + destruct (fmt_f_text2 s ds dp n x ST) as (m' & e' & T & Q & C). exists (signed s m'), e'. split; [exact T|].
      split; [intros [I|I]; [exfalso; apply in_app_or in I; destruct I as [I|I]; [destruct s; cbn in I; lia|]; destruct ST as (F & _); now apply fmt_f_no_e in I|destruct C as [C|[-> _]]; [lia|now apply signed_last]]|]. intros c j i. now apply L.
Qed.
Lemma json_float_short x t : valid_binary prec emax x = true -> json_float prec emax x = Some t ->
  short_text (generic_format radix2 fe) (SF2R radix2 x) t.
Proof.
  intros V J. destruct x as [s|s| |s m e]; try discriminate J; cbn [json_float] in J.
  - injection J as <-. exists 0, 0. split; [apply (zero_short s 1); [reflexivity|lia]|]. split; [destruct s; cbn; lia|]. intros c j i Hi _ _. apply (zero_short s i _ eq_refl Hi).
  - destruct (least s m e V) as (ds & dp & n & x & E & ST & NZ & L). rewrite E in J. cbv zeta in J. injection J as <-.
    destruct (SFltb _ _ || negb _).
    + pose proof (json_exp_text s ds dp n x ST) as T. exists (signed s n), x. split; [exact T|]. split; [intros _; now apply signed_last|]. intros c j i. now apply L.
    + destruct (fmt_f_text2 s ds dp n x ST) as (m' & e' & T & Q & C). exists (signed s m'), e'. split; [exact T|].
      split; [intros [I|I]; [exfalso; apply in_app_or in I; destruct I as [I|I]; [destruct s; cbn in I; lia|]; destruct ST as (F & _); now apply fmt_f_no_e in I|destruct C as [C|[-> _]]; [lia|now apply signed_last]]|]. intros c j i. now apply L.
Qed.
End Fmt.

(** C111: the decimal of a floating point number, in a condition or a path and in JSON, has as
    few digits as a decimal nearer to it than to any other number of its type can have. *)
Theorem C111_shortest tz zone other x :
  (valid_binary 24 128 x = true -> is_finite_SF x = true -> short_text format32 (SF2R radix2 x) (fmt_v tz zone other (VFloat32 x))) /\
  (valid_binary 53 1024 x = true -> is_finite_SF x = true -> short_text format64 (SF2R radix2 x) (fmt_v tz zone other (VFloat64 x))).
Proof. split; intros V Fi; [refine (float_v_short 24 128 _ x V Fi)|refine (float_v_short 53 1024 _ x V Fi)]; reflexivity. Qed.
(** C86: and so in the JSON text of a message or a delta. *)
Theorem C86_shortest tz nilb other x t :
  (valid_binary 24 128 x = true -> json_value other nilb tz (VFloat32 x) = Some t -> short_text format32 (SF2R radix2 x) t) /\
  (valid_binary 53 1024 x = true -> json_value other nilb tz (VFloat64 x) = Some t -> short_text format64 (SF2R radix2 x) t).
Proof. split; intros V J; [refine (json_float_short 24 128 _ x t V J)|refine (json_float_short 53 1024 _ x t V J)]; reflexivity. Qed.

(** The number itself is nearer than any other: one digit is enough for 4. *)
Example shortest_met : few 4 0 1 /\ closer format64 4 (ten_to 4 0) /\
  fmt_v 0 [] (fun _ => []) (VFloat64 (S754_finite false 4503599627370496 (-50))) = str "4" /\ SF2R radix2 (S754_finite false 4503599627370496 (-50)) = 4%R.
Proof.
  split; [exists 4, 0; split; [reflexivity|cbn; lia]|]. split; [|split; [vm_compute; reflexivity|]].
  - intros y _ N. unfold ten_to. cbn [powerRZ]. rewrite Rmult_1_r, Rminus_eq_0, Rabs_R0. apply Rabs_pos_lt. lra.
  - cbn [SF2R cond_Zopp]. unfold F2R. cbn [Fnum Fexp]. change (bpow radix2 (-50)) with (/ IZR (2 ^ 50))%R. change (2 ^ 50) with 1125899906842624. lra.
Qed.
