(** NmeaTerm: ParsePacket's loop terminates (toward C40). *)
From Coq Require Import Floats.SpecFloat.
From Verif Require Import GoBase BufFacts Strconv CanModel NmeaTypes LookupTable NmeaModel NmeaSpec NmeaExtract NmeaParse.
Open Scope Z_scope.
Open Scope list_scope.

(** Number of leading fields of size 0. *)
Fixpoint lz (l : list field) : nat :=
  match l with [] => O | f :: r => if f_size f =? 0 then S (lz r) else O end.
Definition group (p : pgn_def) : list field := skipn (Z.to_nat (zlen (p_fields p) - p_rep p)) (p_fields p).
Definition dist (p : pgn_def) (idx : Z) : nat := lz (skipn (Z.to_nat idx) (p_fields p) ++ group p).

Lemma lz_app_pos l r : existsb (fun f => 0 <? f_size f) l = true -> lz (l ++ r) = lz l.
Proof.
  induction l as [|f l IH]; intros H; [discriminate|]. cbn [lz app existsb] in *.
  destruct (Z.eqb_spec (f_size f) 0) as [E|E]; [|reflexivity]. rewrite IH; [reflexivity|].
  rewrite E in H. exact H.
Qed.

(** Every repeating group has a field of positive size; from any field, a field of positive size
    or the end is at most D fields away; no definition has more than L fields. *)
Definition progress_ok (L : Z) (D : nat) (t : list pgn_def) : Prop :=
  Forall (fun p => (0 < p_rep p -> existsb (fun f => 0 <? f_size f) (group p) = true) /\
                   (forall k, (dist p k <= D)%nat) /\ zlen (p_fields p) <= L) t.

Lemma skipn_zget {A} (l : list A) k x : zget l k = Some x -> skipn (Z.to_nat k) l = x :: skipn (Z.to_nat (k + 1)) l.
Proof.
  intros H. pose proof (zget_some _ _ _ H). unfold zget in H. destruct (k <? 0); [discriminate|].
  replace (Z.to_nat (k + 1)) with (S (Z.to_nat k)) by lia. revert H. generalize (Z.to_nat k) as n. clear.
  induction l as [|y l IH]; intros [|n] H; cbn in *; try discriminate.
  - now injection H as ->.
  - now apply IH.
Qed.

Section Terminates.
Variables (pl : platform) (t : list pgn_def) (d : slice) (i j L : Z) (D : nat).
Hypothesis (T : table_ok t) (HP : progress_ok L D t) (HL : 0 <= s_len d).
Let one := (i =? j).
Let J := Z.max i (if i =? j then i else j + 1).

Definition phi (s : pstate) : Z :=
  ((8 * s_len d + 8 - (8 * ps_byte s + ps_bit s)) + (J - ps_i s)) * (Z.of_nat D + 1) + Z.of_nat (dist (ps_def s) (ps_idx s)).

Lemma phi_nonneg s : reach t (s_len d) i j s -> 0 <= phi s.
Proof. intros [R1 R2 R3 R4 R5 R6 R7]. unfold phi. fold J in R1. nia. Qed.

Lemma phi_step s s' : 0 < s_len d -> reach t (s_len d) i j s -> parse_step pl t d j one s = SNext s' ->
  reach t (s_len d) i j s' /\ phi s' < phi s.
Proof.
  intros HL0 R E. assert (reach t (s_len d) i j s') as R' by (eapply reach_step; eauto).
  split; [exact R'|]. destruct R as [R1 R2 R3 R4 R5 R6 _]. fold J in R1.
  pose proof (r_i _ _ _ _ _ R') as R1'. fold J in R1'.
  pose proof (r_def _ _ _ _ _ R') as R2'.
  apply step_next in E as [f [v [i' [def' [ix' [Hf [Hb [Hn [E' V]]]]]]]]].
  pose proof (table_ok_get _ _ _ T R2) as [Trep Tsz].
  pose proof (zget_Forall _ _ _ _ Tsz Hf) as Hsz. cbv beta in Hsz.
  pose proof (nbits_width (s_len d) f Hsz HL) as [W1 [W2 [W3 [W4 W5]]]]. rewrite W1 in *.
  assert (ps_i s <= i' /\ (i' = ps_i s -> def' = ps_def s)) as [G1 G2].
  { destruct (extract_at pl d s f) as [x|e|p]; [|destruct V as [_ [-> [-> ->]]]; split; [lia|auto]|destruct V].
    destruct V as [-> V]. destruct one eqn:Eij.
    - destruct V as [-> [-> ->]]. split; [lia|auto].
    - destruct V as [V ->]. unfold choose_at in V.
      pose proof (choose_spec _ _ _ _ _ _ _ _ _ _ _ _ _ _ _ V R2 Hf) as [G1 [G2 _]].
      split; [lia|]. intros ->. congruence. }
  pose proof (advance_pos (s_len d) (width_in (s_len d) f) (mid s i' def' ix' v) ltac:(cbn; lia) ltac:(lia)) as [P1 _].
  rewrite <- E' in P1. cbn [mid ps_byte ps_bit] in P1.
  assert (ps_i s' = i' /\ ps_def s' = def') as [I1 I2] by (subst s'; split; reflexivity).
  assert (dist (ps_def s') (ps_idx s') <= D)%nat as DB.
  { pose proof (zget_Forall _ _ _ _ HP R2') as [_ [B _]]. apply B. }
  unfold phi. rewrite P1, I1.
  destruct (Z_lt_dec 0 (width_in (s_len d) f + (i' - ps_i s))) as [C|C]; [nia|].
  assert (width_in (s_len d) f = 0 /\ i' = ps_i s) as [C1 C2] by lia.
  specialize (G2 C2). rewrite C1, C2.
  assert (f_size f = 0) as Z0 by (unfold width_in in C1; lia).
  assert (S (dist (ps_def s') (ps_idx s')) = dist (ps_def s) (ps_idx s)) as DD; [|lia].
  rewrite I2, G2. unfold dist at 2. rewrite (skipn_zget _ _ _ Hf). rewrite <- app_comm_cons. cbn [lz].
  rewrite Z0. cbn [Z.eqb]. f_equal.
  subst s'. cbn [advance mid ps_idx ps_def ps_byte ps_bit]. rewrite G2.
  destruct (_ && _) eqn:EE.
  2: { reflexivity. }
  apply andb_true_iff in EE as [EE _]. apply andb_true_iff in EE as [EE1 EE2].
  pose proof (zget_Forall _ _ _ _ HP R2) as [B _]. specialize (B ltac:(lia)).
  assert (ps_idx s = zlen (p_fields (ps_def s)) - 1) as -> by lia.
  replace (zlen (p_fields (ps_def s)) - 1 + 1) with (zlen (p_fields (ps_def s))) by lia.
  replace (zlen (p_fields (ps_def s)) - 1 - p_rep (ps_def s) + 1) with (zlen (p_fields (ps_def s)) - p_rep (ps_def s)) by lia.
  unfold dist. fold (group (ps_def s)). rewrite lz_app_pos by exact B.
  unfold zlen at 1. rewrite Nat2Z.id, skipn_all. reflexivity.
Qed.

Lemma loop_done n : forall s, 0 < s_len d -> reach t (s_len d) i j s -> phi s < Z.of_nat n ->
  exists r, parse_loop n pl t d j one s = Some r.
Proof.
  induction n as [|n IH]; intros s H0 R H; [pose proof (phi_nonneg s R); lia|].
  rewrite loop_unfold. destruct (parse_step pl t d j one s) as [s'|s'|p] eqn:E; eauto.
  destruct (phi_step s s' H0 R E) as [R' P]. apply IH; auto. lia.
Qed.

(** No data: no repetition is started, so idx only grows. *)
Lemma loop_done_empty n : forall s, s_len d = 0 -> reach t (s_len d) i j s -> L - ps_idx s <= Z.of_nat n ->
  exists r, parse_loop (S n) pl t d j one s = Some r.
Proof.
  induction n as [|n IH]; intros s H0 R H; rewrite loop_unfold.
  - pose proof (zget_Forall _ _ _ _ HP (r_def _ _ _ _ _ R)) as [_ [_ B]].
    unfold parse_step. destruct (Z.leb_spec (zlen (p_fields (ps_def s))) (ps_idx s)); [eauto|lia].
  - destruct (parse_step pl t d j one s) as [s'|s'|p] eqn:E; eauto. apply IH; auto.
    + eapply reach_step; eauto.
    + pose proof (reach_step _ _ _ _ _ _ _ T HL R E) as R'. pose proof (r_byte _ _ _ _ _ R').
      apply step_next in E as [f [v [i' [def' [ix' [_ [_ [_ [-> _]]]]]]]]].
      cbn [advance mid ps_idx ps_def ps_byte ps_bit] in *. rewrite H0 in *.
      destruct (_ && _) eqn:EE; [|lia]. apply andb_true_iff in EE as [_ EE]. lia.
Qed.

Lemma loop_total def n : zget t i = Some def ->
  (8 * s_len d + 9 + (J - i)) * (Z.of_nat D + 1) + L + 1 <= Z.of_nat n ->
  exists r, parse_loop n pl t d j one (mkps i def 0 0 0 0 i []) = Some r.
Proof.
  intros Hd Hn. pose proof (reach_init t (s_len d) i j def HL Hd) as R.
  pose proof (zget_Forall _ _ _ _ HP Hd) as [_ [B1 B2]].
  pose proof (r_i _ _ _ _ _ R) as RI. cbn [ps_i] in RI. fold J in RI. pose proof (zlen_nonneg (p_fields def)).
  destruct (Z_lt_dec 0 (s_len d)) as [C|C].
  - apply loop_done; auto. unfold phi. cbn [ps_byte ps_bit ps_i ps_def ps_idx]. specialize (B1 0). nia.
  - destruct n as [|n]; [nia|]. apply loop_done_empty; auto; [lia|]. cbn [ps_idx]. nia.
Qed.
End Terminates.
