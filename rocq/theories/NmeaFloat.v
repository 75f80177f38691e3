(** NmeaFloat: the IEEE operations of the model (Coq's executable SpecFloat) are correctly
    rounded operations on real numbers.  Uses Flocq's theorems; no modelled code here. *)
From Coq Require Import ZArith Reals Lia Psatz Floats.SpecFloat.
From Flocq Require Import Core BinarySingleNaN.
From Flocq Require Round Relative.

Section Fmt.
Variables prec emax : Z.
Context (Hp : Prec_gt_0 prec) (He : Prec_lt_emax prec emax).

Notation fe := (SpecFloat.fexp prec emax).
Notation rnd := (round radix2 fe ZnearestE).
Local Instance fe_valid : Valid_exp fe := fexp_correct prec emax Hp.

(** x is a valid finite float of the format with real value r. *)
Definition sf_is (x : spec_float) (r : R) : Prop :=
  valid_binary prec emax x = true /\ is_finite_SF x = true /\ SF2R radix2 x = r.

Lemma ne_equiv s m l :
  round_nearest_even m l = choice_mode mode_NE s m l.
Proof.
  destruct l as [|c]; [reflexivity|].
  destruct c; try reflexivity. simpl. unfold Round.cond_incr. now destruct (Z.even m).
Qed.

Lemma round_aux_equiv s m e l :
  SpecFloat.binary_round_aux prec emax s m e l
  = BinarySingleNaN.binary_round_aux prec emax mode_NE s m e l.
Proof.
  unfold SpecFloat.binary_round_aux, BinarySingleNaN.binary_round_aux.
  destruct (shr_fexp _ _ _) as [mrs' e']. rewrite (ne_equiv s). reflexivity.
Qed.

Lemma round_equiv s m e :
  SpecFloat.binary_round prec emax s m e
  = BinarySingleNaN.binary_round prec emax mode_NE s m e.
Proof.
  unfold SpecFloat.binary_round, BinarySingleNaN.binary_round, shl_align_fexp.
  destruct (shl_align _ _ _) as [mz ez]. apply round_aux_equiv.
Qed.

Lemma sf_of_Z n :
  (Rabs (rnd (IZR n)) < bpow radix2 emax)%R ->
  sf_is (SpecFloat.binary_normalize prec emax n 0 false) (rnd (IZR n)).
Proof.
  intros Hb. destruct n as [|p|p]; cbn [SpecFloat.binary_normalize].
  - repeat split. simpl. rewrite round_0; [reflexivity|]. auto with typeclass_instances.
  - rewrite round_equiv.
    destruct (binary_round_correct prec emax _ _ mode_NE false p 0) as [V H].
    simpl in H. unfold F2R in H. simpl in H. rewrite Rmult_1_r in H.
    rewrite Rlt_bool_true in H by exact Hb. destruct H as [A [B _]]. repeat split; assumption.
  - rewrite round_equiv.
    destruct (binary_round_correct prec emax _ _ mode_NE true p 0) as [V H].
    simpl in H. unfold F2R in H. simpl in H. rewrite Rmult_1_r in H.
    rewrite Rlt_bool_true in H by exact Hb. destruct H as [A [B _]]. repeat split; assumption.
Qed.

Lemma sf_mul x y rx ry :
  sf_is x rx -> sf_is y ry -> (Rabs (rnd (rx * ry)) < bpow radix2 emax)%R ->
  sf_is (SFmul prec emax x y) (rnd (rx * ry)).
Proof.
  intros [Vx [Fx Ex]] [Vy [Fy Ey]] Hb. subst rx ry.
  assert (rnd 0 = 0)%R as R0 by (apply round_0; auto with typeclass_instances).
  destruct x as [sx|sx| |sx mx ex]; try discriminate Fx;
  destruct y as [sy|sy| |sy my ey]; try discriminate Fy; simpl SF2R in *;
  try (rewrite ?Rmult_0_l, ?Rmult_0_r, R0; repeat split; reflexivity).
  cbn [SFmul]. rewrite round_aux_equiv.
  destruct (Bmult_correct_aux prec emax _ _ mode_NE sx mx ex Vx sy my ey Vy) as [V H].
  cbn zeta in H. rewrite Rlt_bool_true in H by exact Hb. destruct H as [A [B _]].
  repeat split; assumption.
Qed.

Lemma sf_div x y rx ry :
  sf_is x rx -> sf_is y ry -> ry <> 0%R -> (Rabs (rnd (rx / ry)) < bpow radix2 emax)%R ->
  sf_is (SFdiv prec emax x y) (rnd (rx / ry)).
Proof.
  intros [Vx [Fx Ex]] [Vy [Fy Ey]] Hy Hb. subst rx ry.
  assert (rnd 0 = 0)%R as R0 by (apply round_0; auto with typeclass_instances).
  destruct x as [sx|sx| |sx mx ex]; try discriminate Fx;
  destruct y as [sy|sy| |sy my ey]; try discriminate Fy; simpl SF2R in *;
  try (now elim Hy).
  - unfold Rdiv. rewrite Rmult_0_l, R0. repeat split; reflexivity.
  - cbn [SFdiv].
    pose proof (Bdiv_correct_aux prec emax _ _ mode_NE sx mx ex sy my ey) as V. cbn zeta in V.
    destruct (SFdiv_core_binary prec emax (Z.pos mx) ex (Z.pos my) ey) as [[mz ez] lz].
    destruct V as [V H]. rewrite round_aux_equiv.
    rewrite Rlt_bool_true in H by exact Hb. destruct H as [A [B _]]. repeat split; assumption.
Qed.

Lemma sf_ratio n d :
  (Rabs (rnd (IZR (Zpos n) / IZR (Zpos d))) < bpow radix2 emax)%R ->
  sf_is (let '(m, e, l) := SFdiv_core_binary prec emax (Zpos n) 0 (Zpos d) 0 in
         SpecFloat.binary_round_aux prec emax false m e l) (rnd (IZR (Zpos n) / IZR (Zpos d))).
Proof.
  intros Hb.
  pose proof (Bdiv_correct_aux prec emax _ _ mode_NE false n 0 false d 0) as V. cbn zeta in V.
  destruct (SFdiv_core_binary prec emax (Z.pos n) 0 (Z.pos d) 0) as [[mz ez] lz].
  destruct V as [V H]. rewrite round_aux_equiv. simpl xorb in *.
  unfold F2R in H. simpl in H. rewrite !Rmult_1_r in H.
  rewrite Rlt_bool_true in H by exact Hb. destruct H as [A [B _]]. repeat split; assumption.
Qed.

(** Rounding does not cross a power of two of the format. *)
Lemma rnd_le_bpow r k :
  (SpecFloat.emin prec emax <= k)%Z -> (Rabs r <= bpow radix2 k)%R -> (Rabs (rnd r) <= bpow radix2 k)%R.
Proof.
  intros Hk Hr. apply abs_round_le_generic; auto with typeclass_instances.
  apply generic_format_bpow. unfold SpecFloat.fexp. unfold Prec_gt_0 in Hp. lia.
Qed.

(** Integers of at most prec bits are exact. *)
Lemma rnd_exact_Z n : (SpecFloat.emin prec emax <= 0)%Z -> (Z.abs n <= 2 ^ prec)%Z -> rnd (IZR n) = IZR n.
Proof.
  intros Hm Hn. apply round_generic; auto with typeclass_instances.
  destruct (Z.eq_dec (Z.abs n) (2 ^ prec)) as [E|E].
  - assert (generic_format radix2 fe (Rabs (IZR n))) as G.
    { rewrite <- abs_IZR, E. change 2%Z with (radix_val radix2). rewrite IZR_Zpower by (unfold Prec_gt_0 in Hp; lia).
      apply generic_format_bpow. unfold SpecFloat.fexp. unfold Prec_gt_0 in Hp. lia. }
    now apply generic_format_abs_inv in G.
  - change fe with (FLT_exp (SpecFloat.emin prec emax) prec).
    apply generic_format_FLT. exists (Float radix2 n 0); simpl.
    + unfold F2R. simpl. lra.
    + change 2%Z with (radix_val radix2) in *. lia.
    + lia.
Qed.

(** Relative error of one rounding, away from the subnormals. *)
Lemma rnd_rel_error r :
  (bpow radix2 (SpecFloat.emin prec emax + prec - 1) <= Rabs r)%R ->
  (Rabs (rnd r - r) <= / 2 * bpow radix2 (1 - prec) * Rabs r)%R.
Proof.
  intros H. change fe with (FLT_exp (SpecFloat.emin prec emax) prec).
  replace (1 - prec)%Z with (- prec + 1)%Z by ring.
  apply Relative.relative_error_N_FLT; [exact Hp|exact H].
Qed.
End Fmt.
