(** BufFacts: lemmas about lists and slices; the buffer obtained by appending bytes one at a
    time to a nil slice. *)
From Coq Require Import ZifyBool.
From Verif Require Import GoBase.

(* ---------------------------------------------------------------- list plumbing *)
Lemma zlen_firstn {A} (l : list A) n : (n <= List.length l)%nat -> zlen (firstn n l) = Z.of_nat n.
Proof. intros H. unfold zlen. rewrite firstn_length. lia. Qed.
Lemma zlen_skipn {A} (l : list A) n : (n <= List.length l)%nat -> zlen (skipn n l) = zlen l - Z.of_nat n.
Proof. intros H. unfold zlen. rewrite skipn_length. lia. Qed.
Lemma firstn_zlen_app {A} (a b : list A) : firstn (Z.to_nat (zlen a)) (a ++ b) = a.
Proof. unfold zlen. rewrite Nat2Z.id, firstn_app, Nat.sub_diag, firstn_all. cbn. apply app_nil_r. Qed.
Lemma skipn_zlen_app {A} (a b : list A) : skipn (Z.to_nat (zlen a)) (a ++ b) = b.
Proof. unfold zlen. rewrite Nat2Z.id, skipn_app, Nat.sub_diag, skipn_all. reflexivity. Qed.
Lemma zsub_mid {A} (a b c : list A) i j :
  i = zlen a -> j = zlen a + zlen b -> zsub (a ++ b ++ c) i j = b.
Proof.
  intros -> ->. unfold zsub. rewrite skipn_zlen_app.
  replace (zlen a + zlen b - zlen a) with (zlen b) by lia. apply firstn_zlen_app.
Qed.
Lemma zsplit {A} (l : list A) n : 0 <= n <= zlen l -> exists a b, l = a ++ b /\ zlen a = n.
Proof.
  intros H. exists (firstn (Z.to_nat n) l), (skipn (Z.to_nat n) l). split; [now rewrite firstn_skipn|].
  rewrite zlen_firstn; unfold zlen in *; lia.
Qed.
Lemma slice_split p : slice_ok p -> exists spare, s_arr p = s_val p ++ spare.
Proof. intros _. exists (skipn (Z.to_nat (s_len p)) (s_arr p)). unfold s_val. now rewrite firstn_skipn. Qed.
Lemma s_val_len p : slice_ok p -> zlen (s_val p) = s_len p.
Proof.
  unfold slice_ok, s_cap, s_val. intros H. rewrite zlen_firstn; unfold zlen in *; lia.
Qed.
Lemma s_sub_mid a b c m i j :
  i = zlen a -> j = zlen a + zlen b -> 
  exists w, s_sub (mkslice (a ++ b ++ c) m) i j = Some w /\ s_val w = b.
Proof.
  intros -> ->. pose proof (zlen_nonneg a). pose proof (zlen_nonneg b). pose proof (zlen_nonneg c).
  unfold s_sub, s_cap. cbn [s_arr s_len].
  rewrite !zlen_app.
  replace ((0 <=? zlen a) && (zlen a <=? zlen a + zlen b) && (zlen a + zlen b <=? zlen a + (zlen b + zlen c)))
    with true by lia.
  eexists. split; [reflexivity|]. unfold s_val. cbn [s_arr s_len].
  rewrite skipn_zlen_app. replace (zlen a + zlen b - zlen a) with (zlen b) by lia. apply firstn_zlen_app.
Qed.

Lemma s_get_mid a x c m i : i = zlen a -> i < m -> s_get (mkslice (a ++ x :: c) m) i = Some x.
Proof.
  intros -> H. unfold s_get. cbn [s_arr s_len]. pose proof (zlen_nonneg a).
  replace ((0 <=? zlen a) && (zlen a <? m)) with true by lia.
  rewrite zget_app_r by lia. rewrite Z.sub_diag. reflexivity.
Qed.
Lemma full_val l : s_val (full_slice l) = l.
Proof. unfold s_val, full_slice. cbn [s_len s_arr]. rewrite <- (app_nil_r l) at 2. apply firstn_zlen_app. Qed.
Lemma s_get_some s i : slice_ok s -> 0 <= i < s_len s -> exists x, s_get s i = Some x /\ zget (s_arr s) i = Some x.
Proof.
  intros H Hi. unfold slice_ok, s_cap in H. destruct (zget_lt (s_arr s) i ltac:(lia)) as [x E]. exists x. split; [|exact E].
  unfold s_get. replace ((0 <=? i) && (i <? s_len s)) with true by lia. exact E.
Qed.
Lemma s_get_none s i : 0 <= i -> s_len s <= i -> s_get s i = None.
Proof. intros. unfold s_get. replace ((0 <=? i) && (i <? s_len s)) with false by lia. reflexivity. Qed.
Lemma s_sub_some s a b : 0 <= a <= b -> b <= s_cap s -> s_sub s a b = Some (mkslice (skipn (Z.to_nat a) (s_arr s)) (b - a)).
Proof. intros. unfold s_sub. replace ((0 <=? a) && (a <=? b) && (b <=? s_cap s)) with true by lia. reflexivity. Qed.
Lemma s_sub_none s a b : b < a \/ s_cap s < b -> s_sub s a b = None.
Proof. intros. unfold s_sub. replace ((0 <=? a) && (a <=? b) && (b <=? s_cap s)) with false by lia. reflexivity. Qed.


(** copy(dst[|a|:], src) when it fits. *)
Lemma copy_at_fit (a b : bytes) src : zlen src <= zlen b ->
  exists c, copy_at (a ++ b) (zlen a) src = a ++ src ++ c /\ zlen src + zlen c = zlen b.
Proof.
  intros H. unfold copy_at. exists (skipn (List.length src) b).
  assert (Z.to_nat (zlen a) = List.length a) as -> by (unfold zlen; lia).
  rewrite app_length.
  replace (Nat.min (List.length src) (List.length a + List.length b - List.length a)) with (List.length src)
    by (unfold zlen in H; lia).
  rewrite firstn_all, firstn_app, firstn_all, Nat.sub_diag, firstn_O, app_nil_r.
  rewrite skipn_app, (skipn_all2 a) by lia. cbn [app].
  replace (List.length a + List.length src - List.length a)%nat with (List.length src) by lia.
  split; [reflexivity|]. rewrite zlen_skipn by (unfold zlen in H; lia). unfold zlen. lia.
Qed.

(** Bytes arriving one by one. *)
Definition evs_of (l : bytes) : list rd_event := map RByte l.
Lemma evs_cons b l : evs_of (b :: l) = RByte b :: evs_of l.
Proof. reflexivity. Qed.

(* ---------------------------------------------------------------- growing buffers *)
Definition buf_of (l : bytes) : slice := fold_left s_append l nil_slice.

Lemma buf_of_snoc l b : buf_of (l ++ [b]) = s_append (buf_of l) b.
Proof. unfold buf_of. now rewrite fold_left_app. Qed.

Definition buf_inv (s : slice) (l : bytes) : Prop :=
  exists n, s_arr s = l ++ repeat 0 n /\ s_len s = zlen l /\
    (l = [] -> n = 0%nat) /\ (0 < zlen l <= 8 -> zlen (s_arr s) = 8) /\ (8 < zlen l <= 16 -> zlen (s_arr s) = 16).

Lemma repeat_snoc {A} (x : A) n : repeat x n ++ [x] = x :: repeat x n.
Proof. induction n; cbn; [reflexivity|]. now rewrite IHn. Qed.

Lemma zlen_repeat {A} (x : A) n : zlen (repeat x n) = Z.of_nat n.
Proof. unfold zlen. now rewrite repeat_length. Qed.

Lemma buf_inv_append s l b : buf_inv s l -> buf_inv (s_append s b) (l ++ [b]).
Proof.
  intros (n & A & Ln & E0 & C8 & C16). unfold s_append, s_cap.
  assert (Z.to_nat (s_len s) = List.length l) as -> by (rewrite Ln; unfold zlen; lia).
  rewrite A. rewrite firstn_app, Nat.sub_diag, firstn_all, firstn_O, app_nil_r.
  rewrite zlen_app, zlen_repeat, Ln.
  destruct n as [|n].
  - destruct (Z.ltb_spec (zlen l) (zlen l + Z.of_nat 0)) as [H|H]; [lia|].
    rewrite Z.add_0_r. rewrite A in C8, C16. cbn [repeat] in *. rewrite app_nil_r in *.
    destruct (Z.eqb_spec (zlen l) 0) as [Z0|Z0].
    + apply zlen_0 in Z0. clear A. rewrite Z0 in *. exists 7%nat. cbn [s_arr s_len app List.length firstn Nat.sub repeat].
      change (zlen [b]) with 1. change (zlen [b; 0; 0; 0; 0; 0; 0; 0]) with 8. change (zlen (@nil byte)) with 0.
      split; [reflexivity|]. split; [lia|]. split; [intros E; discriminate E|]. split; intros; lia.
    + set (m := (2 * List.length l - Datatypes.S (List.length l))%nat).
      exists m. cbn [s_arr s_len]. rewrite <- app_assoc. cbn [app]. rewrite zlen_app. change (zlen [b]) with 1.
      pose proof (zlen_nonneg l).
      split; [reflexivity|]. split; [lia|]. split; [intros E; destruct l; discriminate E|].
      rewrite zlen_app, zlen_cons, zlen_repeat. unfold m, zlen in *. split; intros Hl; lia.
  - destruct (Z.ltb_spec (zlen l) (zlen l + Z.of_nat (Datatypes.S n))) as [H|H]; [|lia].
    exists n. cbn [s_arr s_len].
    assert (skipn (Datatypes.S (List.length l)) (l ++ repeat 0 (Datatypes.S n)) = repeat 0 n) as ->.
    { rewrite skipn_app, skipn_all2 by lia.
      replace (Datatypes.S (List.length l) - List.length l)%nat with 1%nat by lia. reflexivity. }
    rewrite <- app_assoc. cbn [app]. rewrite zlen_app. change (zlen [b]) with 1.
    assert (NL : l <> []) by (intros El; specialize (E0 El); lia).
    assert (zlen (l ++ b :: repeat 0 n) = zlen (s_arr s)) as EL.
    { rewrite A, !zlen_app, zlen_cons, !zlen_repeat. lia. }
    assert (0 < zlen l). { destruct l; [congruence|]. rewrite zlen_cons. pose proof (zlen_nonneg l). lia. }
    assert (HA : zlen (s_arr s) >= zlen l + 1) by (rewrite A, zlen_app, zlen_repeat; lia).
    repeat split.
    + intros E. destruct l; discriminate.
    + intros Hl. rewrite EL. apply C8. lia.
    + intros Hl. rewrite EL. destruct (Z.eq_dec (zlen l) 8) as [H8|H8].
      * assert (zlen (s_arr s) = 8) by (apply C8; lia). lia.
      * apply C16. lia.
Qed.

Lemma buf_of_inv l : buf_inv (buf_of l) l.
Proof.
  induction l as [|b l IH] using rev_ind.
  - exists 0%nat. cbn. change (zlen (@nil byte)) with 0. repeat split; lia.
  - rewrite buf_of_snoc. now apply buf_inv_append.
Qed.

Lemma buf_of_ok l : slice_ok (buf_of l).
Proof.
  destruct (buf_of_inv l) as (n & A & Ln & _). unfold slice_ok, s_cap. rewrite A, Ln, zlen_app, zlen_repeat.
  pose proof (zlen_nonneg l). lia.
Qed.
Lemma buf_of_val l : s_val (buf_of l) = l.
Proof.
  destruct (buf_of_inv l) as (n & A & Ln & _). unfold s_val. rewrite A, Ln. apply firstn_zlen_app.
Qed.


(** Capacity of such a buffer: 8 doubled as often as needed. *)
Lemma buf_cap l : l <> [] -> exists k, 0 <= k /\ s_cap (buf_of l) = 8 * 2 ^ k /\ zlen l <= 8 * 2 ^ k /\ (k = 0 \/ 4 * 2 ^ k < zlen l).
Proof.
  induction l as [|b l IH] using rev_ind; [congruence|]. intros _.
  rewrite buf_of_snoc. pose proof (buf_of_ok l) as Ok. unfold slice_ok, s_cap in Ok.
  destruct (buf_of_inv l) as (n & A & Ln & _).
  assert (La : List.length (s_arr (buf_of l)) = (List.length l + n)%nat) by (rewrite A, app_length, repeat_length; reflexivity).
  assert (Nl : Z.to_nat (s_len (buf_of l)) = List.length l) by (rewrite Ln; unfold zlen; lia).
  unfold s_append, s_cap. rewrite Nl.
  assert (Ef : firstn (List.length l) (s_arr (buf_of l)) = l).
  { rewrite A, firstn_app, Nat.sub_diag, firstn_all, firstn_O, app_nil_r. reflexivity. }
  rewrite Ef. rewrite zlen_app. change (zlen [b]) with 1.
  destruct (Z.ltb_spec (s_len (buf_of l)) (zlen (s_arr (buf_of l)))) as [H|H].
  - cbn [s_arr]. rewrite zlen_app, zlen_cons.
    assert (E : zlen (skipn (Datatypes.S (List.length l)) (s_arr (buf_of l))) = zlen (s_arr (buf_of l)) - zlen l - 1).
    { unfold zlen in *. rewrite skipn_length. lia. }
    rewrite E. destruct l as [|x l'].
    { change (0 < 0) in H. lia. }
    destruct IH as (k & K0 & K1 & K2 & K3); [discriminate|]. unfold s_cap in K1.
    exists k. rewrite K1 in *. split; [lia|]. split; [lia|]. split; [lia|]. lia.
  - assert (n = 0%nat) by (unfold zlen in *; lia). subst n.
    destruct l as [|x l'].
    + exists 0. change (8 * 2 ^ 0) with 8.
      match goal with |- 0 <= 0 /\ ?x = 8 /\ _ => change x with 8 end. change (zlen (@nil byte)) with 0. lia.
    + destruct IH as (k & K0 & K1 & K2 & K3); [discriminate|]. unfold s_cap in K1.
      exists (k + 1). rewrite Z.pow_add_r by lia. change (2 ^ 1) with 2.
      assert (zlen (s_arr (buf_of (x :: l'))) = zlen (x :: l')) as Z1 by (unfold zlen in *; lia).
      assert (1 <= zlen (x :: l')) by (rewrite zlen_cons; pose proof (zlen_nonneg l'); lia).
      destruct (Z.eqb_spec (zlen (s_arr (buf_of (x :: l')))) 0) as [Hz|Hz]; [lia|].
      cbn [s_arr]. rewrite zlen_app, (zlen_cons b), zlen_repeat. split; [lia|].
      assert (Z.of_nat (2 * List.length (s_arr (buf_of (x :: l'))) - Datatypes.S (List.length (x :: l'))) = zlen (x :: l') - 1) as ->.
      { unfold zlen in *. lia. }
      lia.
Qed.
