(** JsonForm: how numbers are written, and the instants that cannot be (C86). *)
From Coq Require Import ZArith Reals Lia Lra Floats.SpecFloat ZifyBool.
From Flocq Require Import Core BinarySingleNaN.
From Verif Require Import GoBase BufFacts Strconv StrconvFacts NmeaTypes NmeaModel NmeaSpec NmeaFloat SignalkModel SignalkSpec SignalkText JsonSpec FtoaModel FtoaFacts JsonModel JsonFacts UnjsonFloat.
Open Scope Z_scope.
Open Scope list_scope.

(** A time is not written exactly if its local year is not 0 to 9999. *)
Theorem C86_years tz sec ns : json_time tz sec ns = None <-> ~ -719528 <= (sec + tz) / 86400 < 2932897.
Proof.
  unfold json_time. cbv zeta. pose proof (civil_year_bounds ((sec + tz) / 86400)) as Y. destruct (civil _) as [[y m] d].
  rewrite <- Y. destruct ((y <? 0) || (10000 <=? y)) eqn:E; [split; [lia|reflexivity]|split; [discriminate|lia]].
Qed.
(** Days -719528 and 2932897 are the first days of the years 0 and 10000. *)
Example C86_years_example : calendar (-719528) 0 1 1 /\ calendar 2932897 10000 1 1.
Proof. split; [pose proof (SignalkTime.civil_calendar (-719528)) as C|pose proof (SignalkTime.civil_calendar 2932897) as C]; exact C. Qed.

Lemma sf_lt x y : valid_binary 53 1024 x = true -> valid_binary 53 1024 y = true -> is_finite_SF x = true -> is_finite_SF y = true ->
  SFltb x y = Rlt_bool (SF2R radix2 x) (SF2R radix2 y).
Proof.
  intros V W F G. pose proof (Bltb_correct 53 1024 (SF2B x V) (SF2B y W)) as H. unfold Bltb in H. rewrite !B2SF_SF2B, !B2R_SF2B in H.
  apply H; now rewrite is_finite_SF2B.
Qed.
Lemma ten6_real : float_is (ten6 53 1024) (nearest64 (1 / 1000000)%R).
Proof.
  pose proof (ratio_round false 1 1000000) as H. cbv zeta in H. unfold ten6, f_ratio.
  destruct (SFdiv_core_binary 53 1024 1 0 1000000 0) as [[q e] l] eqn:E. destruct (Rlt_bool _ _); [exact H|].
  vm_compute in E. injection E as <- <- <-. vm_compute in H. discriminate.
Qed.
Lemma ten21_real : float_is (ten21 53 1024) (IZR (10 ^ 21)).
Proof. split; [reflexivity|]. assert (ten21 53 1024 = S754_finite false 7629394531250000 17) as -> by (vm_compute; reflexivity).
  cbn [SF2R cond_Zopp]. unfold F2R. cbn [Fnum Fexp]. rewrite bpow_Z by lia. rewrite <- mult_IZR. f_equal. Qed.

Lemma fmt_f_no_e ds dp : Forall dec_char ds -> ~ In 101 (fmt_f ds dp).
Proof.
  intros F. assert (forall n, Forall dec_char (repeat 48 n)) as Z0 by (intros; apply zeros_dec).
  assert (forall a b, Forall dec_char a -> Forall dec_char b -> Forall dec_char (a ++ b)) as AP by (intros; now apply Forall_app).
  assert (forall a, Forall dec_char a -> ~ In 101 a) as NO by (intros a H I; rewrite Forall_forall in H; apply H in I; unfold dec_char in I; lia).
  assert (Forall dec_char (firstn (Z.to_nat dp) ds) /\ Forall dec_char (skipn (Z.to_nat dp) ds)) as [F1 F2] by (apply Forall_app; now rewrite firstn_skipn).
  unfold fmt_f. cbv zeta. intros I. apply in_app_or in I. destruct I as [I|I].
  - destruct (0 <? dp); [eapply NO; [|exact I]; auto|]. destruct I as [I|[]]; lia.
  - destruct (0 <? zlen ds - dp); [|contradiction]. destruct I as [I|I]; [lia|]. eapply NO; [|exact I]; auto.
Qed.
Lemma fmt_e_e ds dp : ds <> [] -> In 101 (json_exp (fmt_e ds dp)).
Proof.
  intros NE. assert (forall b, In 101 b -> In 101 (json_exp b)) as K.
  { intros b I. unfold json_exp. destruct (rev b) as [|d [|z [|s [|x r]]]]; try exact I. destruct (_ && _); [|exact I]. apply in_or_app. right. now left. }
  apply K. destruct ds as [|d r]; [congruence|]. cbn [fmt_e]. right. apply in_or_app. right. now left.
Qed.

(** A double is written with an exponent exactly if it is less than 1e-6 or at least 1e21. *)
Theorem C86_exponent x t : valid_binary 53 1024 x = true -> is_finite_SF x = true -> (SF2R radix2 x <> 0)%R -> json_float 53 1024 x = Some t ->
  (In 101 t <-> (Rabs (SF2R radix2 x) < nearest64 (1 / 1000000) \/ IZR (10 ^ 21) <= Rabs (SF2R radix2 x))%R).
Proof.
  intros V F NZ H. destruct x as [s|s| |s m e]; try discriminate F; [now elim NZ|]. cbn [json_float] in H.
  assert (V' : valid_binary 53 1024 (S754_finite false m e) = true) by exact V.
  destruct (shortest_rounds 53 1024 _ m e V') as [ds [dp [n [x [E [ST RD]]]]]]. rewrite E in H. cbv zeta in H.
  assert (Rabs (SF2R radix2 (S754_finite s m e)) = SF2R radix2 (S754_finite false m e)) as ->.
  { cbn [SF2R]. rewrite <- F2R_Zabs. now destruct s. }
  destruct ten6_real as [F6 R6]. destruct ten21_real as [F21 R21].
  rewrite (sf_lt (S754_finite false m e) (ten6 53 1024)), (sf_lt (S754_finite false m e) (ten21 53 1024)) in H by (assumption || reflexivity || (vm_compute; reflexivity)).
  rewrite R6, R21 in H. set (v := SF2R radix2 (S754_finite false m e)) in *. clearbody v.
  apply (f_equal (fun o => match o with Some z => z | None => t end)) in H. cbv beta iota in H. subst t.
  assert (forall l, In 101 ((if s then [45] else []) ++ l) <-> In 101 l) as SG.
  { intros l. split; [intros I; apply in_app_or in I; destruct I as [I|I]; [destruct s; [destruct I as [I|[]]; lia|contradiction]|exact I]|intros I; apply in_or_app; now right]. }
  rewrite SG. assert (ds <> [] /\ Forall dec_char ds) as [ND FD] by (destruct ST as (A & (c0 & r0 & -> & _) & _); split; [discriminate|exact A]).
  destruct (Rlt_bool_spec v (nearest64 (1 / 1000000))) as [L|L], (Rlt_bool_spec v (IZR (10 ^ 21))) as [G|G]; cbn [orb negb].
  - split; [auto|]. intros _. now apply fmt_e_e.
  - split; [auto|]. intros _. now apply fmt_e_e.
  - split; [intros I; elim (fmt_f_no_e ds dp FD I)|]. intros [A|A]; exfalso; lra.
  - split; [auto|]. intros _. now apply fmt_e_e.
Qed.
