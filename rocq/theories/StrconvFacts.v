(** StrconvFacts: what the strconv/fmt models of Strconv.v compute. *)
From Verif Require Import GoBase Strconv.

(** Positional value of a digit list, most significant digit first. *)
Definition pos_value (base : Z) (ds : list Z) (n : Z) : Z :=
  fold_left (fun a d => a * base + d) ds n.

Lemma pos_value_app base a b n : pos_value base (a ++ b) n = pos_value base b (pos_value base a n).
Proof. unfold pos_value. apply fold_left_app. Qed.

Lemma pos_value_mono base ds n :
  1 <= base -> 0 <= n -> Forall (fun d => 0 <= d) ds -> n <= pos_value base ds n.
Proof.
  intros Hb. revert n. induction ds as [|d ds IH]; intros n Hn F; cbn; [lia|].
  inversion F; subst. unfold pos_value in *. specialize (IH (n * base + d)).
  assert (n <= n * base) by nia. apply Z.le_trans with (n * base + d); [lia|]. apply IH; [lia|assumption].
Qed.

Lemma pos_value_bound base ds n m :
  1 <= base -> 0 <= n < m -> Forall (fun d => 0 <= d < base) ds ->
  0 <= pos_value base ds n < m * base ^ zlen ds.
Proof.
  intros Hb. revert n m. induction ds as [|d ds IH]; intros n m Hn F; cbn.
  - rewrite Z.mul_1_r. lia.
  - inversion F; subst. unfold pos_value in *.
    specialize (IH (n * base + d) (m * base)). rewrite zlen_cons, Z.pow_add_r by (pose proof (zlen_nonneg ds); lia).
    rewrite Z.pow_1_r, Z.mul_assoc. apply IH; [nia|assumption].
Qed.

Lemma pu_loop_digits base maxv s ds n :
  1 <= base -> 0 <= n -> Forall2 (fun c d => digit_val c = Some d /\ 0 <= d < base) s ds ->
  pos_value base ds n <= maxv -> pu_loop base maxv s n = PUok (pos_value base ds n).
Proof.
  intros Hb Hn F. revert n Hn. induction F as [|c d s ds [Hd Hr] F IH]; intros n Hn Hm; cbn; [reflexivity|].
  rewrite Hd. destruct (Z.leb_spec base d); [lia|].
  assert (n * base + d <= pos_value base ds (n * base + d)) as Hmono.
  { apply pos_value_mono; [lia|nia|]. clear -F. induction F; constructor; [lia|assumption]. }
  change (pos_value base (d :: ds) n) with (pos_value base ds (n * base + d)) in *.
  destruct (Z.ltb_spec maxv (n * base + d)); [lia|].
  apply IH; [nia|assumption].
Qed.

Lemma digit_val_nonneg c d : digit_val c = Some d -> 0 <= d < 36.
Proof.
  unfold digit_val.
  destruct ((48 <=? c) && (c <=? 57)) eqn:E1; [intros [= <-]; lia|].
  destruct ((97 <=? c) && (c <=? 122)) eqn:E2; [intros [= <-]; lia|].
  destruct ((65 <=? c) && (c <=? 90)) eqn:E3; [intros [= <-]; lia|discriminate].
Qed.

Lemma pu_loop_ok_inv base maxv s n v :
  pu_loop base maxv s n = PUok v ->
  exists ds, Forall2 (fun c d => digit_val c = Some d /\ 0 <= d < base) s ds /\ v = pos_value base ds n.
Proof.
  revert n. induction s as [|c s IH]; intros n H; cbn in H.
  - exists []. injection H as <-. split; [constructor|reflexivity].
  - destruct (digit_val c) eqn:D; [|discriminate].
    destruct (Z.leb_spec base z); [discriminate|].
    destruct (Z.ltb_spec maxv (n * base + z)); [discriminate|].
    destruct (IH _ H) as (ds & F & ->). exists (z :: ds). split; [|reflexivity].
    constructor; [|assumption]. split; [assumption|]. apply digit_val_nonneg in D. lia.
Qed.

Lemma hexdig_digit d : 0 <= d < 16 -> digit_val (hexdig d) = Some d.
Proof.
  intros H. unfold hexdig. destruct (Z.ltb_spec d 10); unfold digit_val.
  - replace ((48 <=? 48 + d) && (48 + d <=? 57)) with true by lia. f_equal; lia.
  - replace ((48 <=? 55 + d) && (55 + d <=? 57)) with false by lia.
    replace ((97 <=? 55 + d) && (55 + d <=? 122)) with false by lia.
    replace ((65 <=? 55 + d) && (55 + d <=? 90)) with true by lia. f_equal; lia.
Qed.

Lemma hexdig_byte d : 0 <= d < 16 -> is_byte (hexdig d).
Proof. intros H. unfold hexdig, is_byte. destruct (Z.ltb_spec d 10); lia. Qed.

(** Decimal printing.  [dec_value] reads a list of decimal digit characters. *)
Definition dec_value (s : bytes) : Z := pos_value 10 (map (fun c => c - 48) s) 0.
Definition dec_char (c : byte) : Prop := 48 <= c <= 57.

Lemma pos_value_shift base ds n :
  pos_value base ds n = n * base ^ zlen ds + pos_value base ds 0.
Proof.
  revert n. induction ds as [|d ds IH]; intros n; cbn [pos_value fold_left].
  - rewrite zlen_nil. cbn. lia.
  - change (fold_left _ ds (n * base + d)) with (pos_value base ds (n * base + d)).
    change (fold_left _ ds (0 * base + d)) with (pos_value base ds (0 * base + d)).
    rewrite (IH (n * base + d)), (IH (0 * base + d)).
    rewrite zlen_cons, Z.pow_add_r by (pose proof (zlen_nonneg ds); lia). ring.
Qed.

Lemma dec_value_snoc s c : dec_value (s ++ [c]) = dec_value s * 10 + (c - 48).
Proof. unfold dec_value. rewrite map_app. apply pos_value_app. Qed.

Lemma dec_digits_spec fuel n acc :
  0 <= n < 2 ^ Z.of_nat fuel -> (0 < fuel)%nat ->
  exists ds, dec_digits fuel n acc = ds ++ acc /\ dec_value ds = n /\ Forall dec_char ds /\ ds <> [].
Proof.
  revert n acc. induction fuel as [|f IH]; intros n acc Hn Hf; [lia|].
  cbn [dec_digits].
  destruct (Z.eqb_spec (n / 10) 0) as [E|E].
  - exists [48 + n mod 10]. repeat split; try (intros; discriminate).
    + unfold dec_value, pos_value; cbn [map fold_left]. pose proof (Z.div_mod n 10). lia.
    + repeat constructor; pose proof (Z.mod_pos_bound n 10); lia.
  - assert (Hlt : 0 <= n / 10 < 2 ^ Z.of_nat f).
    { rewrite Nat2Z.inj_succ, Z.pow_succ_r in Hn by lia.
      split; [apply Z.div_pos; lia|]. apply Z.div_lt_upper_bound; lia. }
    assert (0 < f)%nat.
    { destruct f; [|lia]. cbn in Hlt. lia. }
    destruct (IH (n / 10) ((48 + n mod 10) :: acc) Hlt ltac:(assumption)) as (ds & Eq & V & F & NE).
    exists (ds ++ [48 + n mod 10]). split; [|split; [|split]].
    + rewrite Eq, <- app_assoc. reflexivity.
    + rewrite dec_value_snoc, V.
      pose proof (Z.div_mod n 10). lia.
    + apply Forall_app. split; [assumption|]. repeat constructor; pose proof (Z.mod_pos_bound n 10); lia.
    + destruct ds; discriminate.
Qed.

(** strconv.Itoa of a non-negative number is its decimal text: nothing is cut off. *)
Lemma itoa_value n : 0 <= n -> dec_value (itoa n) = n /\ Forall dec_char (itoa n) /\ itoa n <> [].
Proof.
  intros Hn. unfold itoa. destruct (Z.ltb_spec n 0); [lia|].
  destruct (dec_digits_spec (S (Z.to_nat (Z.log2 n))) n []) as (ds & Eq & V & F & NE); try lia.
  { split; [assumption|]. rewrite Nat2Z.inj_succ, Z2Nat.id by apply Z.log2_nonneg.
    destruct (Z.eq_dec n 0) as [->|]; [cbn; lia|].
    apply Z.log2_spec. lia. }
  rewrite app_nil_r in Eq. rewrite Eq. auto.
Qed.

Lemma itoa_inj n m : 0 <= n -> 0 <= m -> itoa n = itoa m -> n = m.
Proof.
  intros Hn Hm E. destruct (itoa_value n Hn) as (V1 & _). destruct (itoa_value m Hm) as (V2 & _).
  congruence.
Qed.

Lemma itoa_neg n : n < 0 -> itoa n = 45 :: itoa (- n).
Proof.
  intros H. unfold itoa. destruct (Z.ltb_spec n 0); [|lia]. destruct (Z.ltb_spec (- n) 0); [lia|]. reflexivity.
Qed.

Lemma itoa_inj_all n m : itoa n = itoa m -> n = m.
Proof.
  assert (Hminus : forall a b, 0 <= a -> itoa a = 45 :: b -> False).
  { intros a b Ha E. destruct (itoa_value a Ha) as (_ & F & _). rewrite E in F. inversion F; subst.
    unfold dec_char in *. lia. }
  intros E. destruct (Z_lt_le_dec n 0) as [Hn|Hn], (Z_lt_le_dec m 0) as [Hm|Hm].
  - rewrite itoa_neg, (itoa_neg m) in E by assumption. injection E as E. apply itoa_inj in E; lia.
  - rewrite itoa_neg in E by assumption. symmetry in E. now apply Hminus in E.
  - rewrite (itoa_neg m) in E by assumption. now apply Hminus in E.
  - now apply itoa_inj.
Qed.

Lemma dec_char_digit c : dec_char c -> digit_val c = Some (c - 48) /\ 0 <= c - 48 < 10.
Proof.
  unfold dec_char, digit_val. intros H.
  replace ((48 <=? c) && (c <=? 57)) with true by lia. split; [reflexivity|lia].
Qed.

Lemma parse_uint_dec bits s :
  s <> [] -> Forall dec_char s -> dec_value s <= 2 ^ bits - 1 -> parse_uint 10 bits s = PUok (dec_value s).
Proof.
  intros NE F H. unfold parse_uint. destruct s as [|c s]; [congruence|].
  apply pu_loop_digits; [lia|lia| |exact H].
  clear NE H. induction F; cbn; constructor; [|assumption]. now apply dec_char_digit.
Qed.

Lemma parse_uint_itoa bits n :
  0 <= n < 2 ^ bits -> parse_uint 10 bits (itoa n) = PUok n.
Proof.
  intros H. destruct (itoa_value n) as (V & F & NE); [lia|].
  rewrite parse_uint_dec; [now rewrite V|assumption..|lia].
Qed.
