(** SignalkTime: the calendar arithmetic of the model is the calendar of the specification. *)
From Verif Require Import GoBase BufFacts Strconv StrconvFacts CanModel NmeaTypes NmeaModel NmeaSpec SignalkModel SignalkSpec.
Open Scope Z_scope.
Open Scope list_scope.
Ltac dm := Z.div_mod_to_equations; lia.

Ltac dbc := repeat match goal with
  | |- context [days_before (Zpos ?a + 1) ?b] => let v := eval vm_compute in (days_before (Zpos a + 1) b) in change (days_before (Zpos a + 1) b) with v
  | |- context [days_before (Zpos ?a) ?b] => let v := eval vm_compute in (days_before (Zpos a) b) in change (days_before (Zpos a) b) with v
  | H : context [days_before (Zpos ?a + 1) ?b] |- _ => let v := eval vm_compute in (days_before (Zpos a + 1) b) in change (days_before (Zpos a + 1) b) with v in H
  | H : context [days_before (Zpos ?a) ?b] |- _ => let v := eval vm_compute in (days_before (Zpos a) b) in change (days_before (Zpos a) b) with v in H
  end.
Lemma leap_spec y : leap y = true <-> leap_year y.
Proof. unfold leap, leap_year. lia. Qed.

Definition mlen (y m : Z) : Z := days_before (m + 1) (leap y) - days_before m (leap y).
Ltac months m := let H := fresh in assert (H : m = 1 \/ m = 2 \/ m = 3 \/ m = 4 \/ m = 5 \/ m = 6 \/ m = 7 \/ m = 8 \/ m = 9 \/ m = 10 \/ m = 11 \/ m = 12) by lia;
  destruct H as [->|[->|[->|[->|[->|[->|[->|[->|[->|[->|[->| ->]]]]]]]]]]].
Lemma month_days_mlen y m : 1 <= m <= 12 -> month_days y m (mlen y m).
Proof.
  intros H. unfold month_days, mlen. pose proof (leap_spec y) as L.
  months m; destruct (leap y) eqn:E; cbn;
    try (left; split; [tauto|reflexivity]); try (right; left; split; [tauto|reflexivity]);
    right; right; split; try reflexivity; [left|right]; (split; [|reflexivity]); intuition congruence.
Qed.
Lemma month_days_fun y m n n' : month_days y m n -> month_days y m n' -> n = n'.
Proof. unfold month_days. cbn [In]. intros H H'. intuition lia. Qed.

Definition valid (y m d : Z) : Prop := 1 <= m <= 12 /\ 1 <= d <= mlen y m.
Definition ylen (y : Z) : Z := if leap y then 366 else 365.
Lemma year_start_next y : year_start (y + 1) = year_start y + ylen y.
Proof. unfold year_start, ylen, leap. replace (y + 1 - 1) with y by lia.
  destruct (y mod 4 =? 0) eqn:E4; destruct (y mod 100 =? 0) eqn:E1; destruct (y mod 400 =? 0) eqn:E0; cbn [andb orb negb];
   rewrite ?Z.eqb_eq, ?Z.eqb_neq in *; Z.div_mod_to_equations; lia.
Qed.
Lemma days_before_total y : days_before 13 (leap y) = ylen y.
Proof. unfold ylen. destruct (leap y); reflexivity. Qed.

Lemma date_days_valid y m d : 1 <= m <= 12 -> date_days y m d = year_start y + days_before m (leap y) + (d - 1).
Proof.
  intros H. unfold date_days. rewrite (Z.div_small (m - 1)), (Z.mod_small (m - 1)) by lia.
  replace (y + 0) with y by lia. replace (m - 1 + 1) with m by lia. reflexivity.
Qed.

Lemma next_days y m d y' m' d' : 1 <= m <= 12 -> next_day y m d y' m' d' ->
  date_days y' m' d' = date_days y m d + 1 /\ (1 <= d -> valid y' m' d').
Proof.
  intros H [n [MD C]]. assert (n = mlen y m) as -> by (eapply month_days_fun; [exact MD|now apply month_days_mlen]).
  assert (forall y m, 1 <= m <= 12 -> 28 <= mlen y m) as ML.
  { intros y0 m0 H0. unfold mlen. months m0; destruct (leap y0); vm_compute; discriminate. }
  destruct C as [[C E]|[[C [C' E]]|[C [C' E]]]]; injection E as -> -> ->.
  - rewrite !date_days_valid by lia. split; [lia|]. intros. split; lia.
  - rewrite !date_days_valid by lia. unfold mlen in C. split; [lia|]. intros. split; [lia|]. specialize (ML y (m + 1)). lia.
  - subst. rewrite !date_days_valid by lia. rewrite year_start_next, <- days_before_total.
    change (days_before 1 (leap (y + 1))) with (0 + (if leap (y + 1) && false then 1 else 0)). rewrite andb_false_r.
    split; [unfold mlen; replace (12 + 1) with 13 by lia; lia|]. intros. split; [lia|]. specialize (ML (y + 1) 1). lia.
Qed.

Lemma year_unique y y' m d m' d' : valid y m d -> valid y' m' d' -> date_days y m d = date_days y' m' d' -> y = y'.
Proof.
  assert (forall y m d, valid y m d -> year_start y <= date_days y m d < year_start (y + 1)) as B.
  { intros y0 m0 d0 [V1 V2]. rewrite date_days_valid by lia. rewrite year_start_next, <- days_before_total.
    unfold mlen in V2. revert V2. months m0; destruct (leap y0); dbc; lia. }
  assert (forall y n, year_start y <= year_start (y + Z.of_nat n)) as M.
  { intros y0 n. induction n as [|n IH]; [rewrite Z.add_0_r; lia|].
    rewrite Nat2Z.inj_succ. replace (y0 + Z.succ (Z.of_nat n)) with (y0 + Z.of_nat n + 1) by lia. rewrite year_start_next.
    unfold ylen. destruct (leap _); lia. }
  intros V V' E. pose proof (B _ _ _ V). pose proof (B _ _ _ V'). rewrite E in *.
  destruct (Z.lt_trichotomy y y') as [C|[C|C]]; [|exact C|].
  - pose proof (M (y + 1) (Z.to_nat (y' - y - 1))). rewrite Z2Nat.id in * by lia. replace (y + 1 + (y' - y - 1)) with y' in * by lia. lia.
  - pose proof (M (y' + 1) (Z.to_nat (y - y' - 1))). rewrite Z2Nat.id in * by lia. replace (y' + 1 + (y - y' - 1)) with y in * by lia. lia.
Qed.
Lemma date_unique y y' m d m' d' : valid y m d -> valid y' m' d' -> date_days y m d = date_days y' m' d' ->
  (y, m, d) = (y', m', d').
Proof.
  intros V V' E. assert (y = y') as <- by (eapply year_unique; eauto).
  destruct V as [V1 V2], V' as [V1' V2']. rewrite !date_days_valid in E by lia. unfold mlen in *.
  months m; months m'; destruct (leap y); dbc; try (exfalso; lia); repeat f_equal; lia.
Qed.

Lemma civil_valid n : let '(y, m, d) := civil n in valid y m d /\ date_days y m d = n.
Proof.
  unfold civil.
  set (d0 := n + 719162). set (q400 := d0 / 146097). set (d1 := d0 - 146097 * q400).
  set (q100 := d1 / 36524 - d1 / 36524 / 4). set (d2 := d1 - 36524 * q100).
  set (q4 := d2 / 1461). set (d3 := d2 - 1461 * q4). set (q1 := d3 / 365 - d3 / 365 / 4). set (yday := d3 - 365 * q1).
  set (y := 400 * q400 + 100 * q100 + 4 * q4 + q1 + 1). cbv zeta.
  assert (0 <= d1 < 146097) by (unfold d1, q400; dm).
  assert (0 <= q100 <= 3 /\ 0 <= d2 /\ (q100 < 3 -> d2 < 36524) /\ d2 <= 36524) as [Q1 [Q2 [Q3 Q3']]] by (unfold d2, q100; clearbody d1; dm).
  assert (0 <= q4 <= 24 /\ 0 <= d3 /\ d3 < 1461 /\ (q4 = 24 -> q100 < 3 -> d3 < 1460)) as [Q4 [Q5 [Q6 Q6']]] by (unfold d3, q4; clearbody d2 q100; dm).
  assert (0 <= q1 <= 3 /\ 0 <= yday /\ yday <= 365 /\ (q1 < 3 -> yday < 365)) as [Q7 [Q8 [Q9 Q10]]] by (unfold yday, q1; clearbody d3; dm).
  assert (yday < ylen y) as HY.
  { unfold ylen. destruct (leap y) eqn:EL; [lia|].
    destruct (Z.eq_dec yday 365) as [E|E]; [|lia]. exfalso.
    assert (q1 = 3) by lia.
    assert (q4 = 24 -> q100 = 3). { intros F. destruct (Z.eq_dec q100 3); [auto|]. assert (d3 < 1460) by lia.
       unfold yday in E. lia. }
    unfold leap in EL. unfold y in EL. clearbody q1 q4 q100 q400.
    destruct ((400 * q400 + 100 * q100 + 4 * q4 + q1 + 1) mod 4 =? 0) eqn:E4.
    2: { apply Z.eqb_neq in E4. Z.div_mod_to_equations. lia. }
    destruct ((400 * q400 + 100 * q100 + 4 * q4 + q1 + 1) mod 100 =? 0) eqn:E1; [|discriminate].
    destruct ((400 * q400 + 100 * q100 + 4 * q4 + q1 + 1) mod 400 =? 0) eqn:E0; [discriminate|].
    apply Z.eqb_neq in E0. apply Z.eqb_eq in E1. apply E0.
    assert (q4 = 24) by (clear E0 E4; Z.div_mod_to_equations; lia).
    assert (q100 = 3) by auto. subst. replace (400 * q400 + 100 * 3 + 4 * 24 + 3 + 1) with ((q400 + 1) * 400) by lia.
    apply Z_mod_mult. }
  assert (year_start y + yday = n) as HS.
  { assert (year_start y = 146097 * q400 + 36524 * q100 + 1461 * q4 + 365 * q1 - 719162) as ->.
    { unfold year_start, y. clearbody q1 q4 q100 q400. replace (400 * q400 + 100 * q100 + 4 * q4 + q1 + 1 - 1) with (400 * q400 + 100 * q100 + 4 * q4 + q1) by lia.
      assert ((400 * q400 + 100 * q100 + 4 * q4 + q1) / 4 = 100 * q400 + 25 * q100 + q4) as -> by dm.
      assert ((400 * q400 + 100 * q100 + 4 * q4 + q1) / 100 = 4 * q400 + q100) as -> by dm.
      assert ((400 * q400 + 100 * q100 + 4 * q4 + q1) / 400 = q400) as -> by dm. lia. }
    unfold yday, d3, d2, d1, d0. lia. }
  clearbody y yday. clear - HY HS Q8.
  assert (forall k m, 1 <= m -> m + Z.of_nat k = 12 -> days_before m (leap y) <= yday ->
      let r := month_of k m (leap y) yday in 1 <= r <= 12 /\ days_before r (leap y) <= yday < days_before (r + 1) (leap y)) as MO.
  { induction k as [|k IH]; intros m H1 H2 H3; cbn [month_of].
    - assert (m = 12) as -> by lia. split; [lia|]. change (12 + 1) with 13. rewrite days_before_total. lia.
    - destruct (Z.ltb_spec yday (days_before (m + 1) (leap y))); [split; lia|]. apply IH; lia. }
  specialize (MO 11%nat 1). cbv zeta in MO. destruct MO as [M1 M2]; [lia|reflexivity|destruct (leap y); dbc; lia|].
  set (r := month_of 11 1 (leap y) yday) in *. split; [split; [exact M1|unfold mlen; lia]|].
  rewrite date_days_valid by exact M1. lia.
Qed.

Lemma civil_of_date y m d : valid y m d -> civil (date_days y m d) = (y, m, d).
Proof.
  intros V. pose proof (civil_valid (date_days y m d)) as C. destruct (civil (date_days y m d)) as [[y' m'] d'].
  destruct C as [V' E]. apply date_unique; auto.
Qed.
Lemma next_exists y m d : valid y m d -> exists y' m' d', next_day y m d y' m' d'.
Proof.
  intros [V1 V2]. pose proof (month_days_mlen y m V1) as MD. destruct (Z.eq_dec d (mlen y m)).
  - destruct (Z.eq_dec m 12).
    + exists (y + 1), 1, 1, (mlen y m). split; auto.
    + exists y, (m + 1), 1, (mlen y m). split; [auto|]. right; left. repeat split; auto; lia.
  - exists y, m, (d + 1), (mlen y m). split; [auto|]. left. split; [lia|reflexivity].
Qed.

(** The model's calendar is the specification's, in both directions. *)
Theorem civil_calendar n : let '(y, m, d) := civil n in calendar n y m d.
Proof.
  assert (forall k, let '(y, m, d) := civil k in calendar k y m d -> let '(y', m', d') := civil (k + 1) in calendar (k + 1) y' m' d') as UP.
  { intros k. pose proof (civil_valid k) as C. destruct (civil k) as [[y m] d]. destruct C as [V E]. intros HC.
    destruct (next_exists _ _ _ V) as [y' [m' [d' N]]]. destruct (next_days _ _ _ _ _ _ (proj1 V) N) as [E' V'].
    rewrite <- E, <- E', civil_of_date by (apply V'; apply V). rewrite E', E. eapply cal_after; eauto. }
  assert (forall k, let '(y', m', d') := civil (k + 1) in calendar (k + 1) y' m' d' -> let '(y, m, d) := civil k in calendar k y m d) as DN.
  { intros k. pose proof (civil_valid k) as C. destruct (civil k) as [[y m] d]. destruct C as [V E].
    destruct (next_exists _ _ _ V) as [y' [m' [d' N]]]. destruct (next_days _ _ _ _ _ _ (proj1 V) N) as [E' V'].
    rewrite <- E, <- E', civil_of_date by (apply V'; apply V). rewrite E', E. intros HC.
    eapply cal_before; eauto; apply V. }
  pattern n. apply Z.peano_ind.
  - exact cal_epoch.
  - intros x H. replace (Z.succ x) with (x + 1) by lia. specialize (UP x). destruct (civil x) as [[y m] d]. now apply UP.
  - intros x H. specialize (DN (Z.pred x)). replace (Z.pred x + 1) with x in DN by lia.
    destruct (civil x) as [[y m] d]. destruct (civil (Z.pred x)) as [[a b] c]. now apply DN.
Qed.
Theorem calendar_civil n y m d : calendar n y m d -> civil n = (y, m, d) /\ valid y m d.
Proof.
  intros C. assert (valid y m d /\ date_days y m d = n) as [V <-].
  { induction C as [|n y m d y' m' d' C [V E] N|n y m d y' m' d' C [V E] H1 H2 N].
    - split; [repeat split; try lia|reflexivity]. unfold mlen. vm_compute. discriminate.
    - destruct (next_days _ _ _ _ _ _ (proj1 V) N) as [E' V']. split; [apply V'; apply V|lia].
    - destruct (next_days _ _ _ _ _ _ H1 N) as [E' V']. split; [|lia]. split; [exact H1|].
      destruct N as [k [MD K]]. pose proof (month_days_fun _ _ _ _ MD (month_days_mlen y m H1)). lia. }
  split; [now apply civil_of_date|exact V].
Qed.
(** The specification's calendar is a function of the day number, and total. *)
Theorem calendar_unique n y m d y' m' d' : calendar n y m d -> calendar n y' m' d' -> (y, m, d) = (y', m', d').
Proof. intros A B. apply calendar_civil in A as [A _]. apply calendar_civil in B as [B _]. congruence. Qed.
