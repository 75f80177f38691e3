(** FmtvProps: how the value of a field reads in a condition or a path (C111). *)
From Coq Require Import ZArith Reals Lia Lra Floats.SpecFloat ZifyBool Permutation.
From Flocq Require Import Core BinarySingleNaN.
From Verif Require Import GoBase BufFacts Strconv StrconvFacts CanModel NmeaTypes NmeaModel NmeaSpec NmeaFloat NmeaExtract NmeaProps1 NmeaProps2 PgnTable MapTable ApiSpec FtoaModel FtoaFacts
  JsonModel JsonSpec JsonFacts JsonLayout JsonUnique JsonProps JsonDecoded JsonForm SignalkModel SignalkSpec SignalkTime SignalkText SignalkDelta SignalkProps SignalkProps2 XmlSpec XmlOutSpec XmlOutProps
  FmtvModel FmtvSpec.
Open Scope Z_scope.
Open Scope list_scope.

(* ------------------------------------------------------------------ floating point *)

Section Float.
Variables (prec emax : Z).
Context (PP : Prec_gt_0 prec) (PE : Prec_lt_emax prec emax).
Let rnd (r : R) : R := round radix2 (SpecFloat.fexp prec emax) ZnearestE r.

Lemma number_minus r m e : number_text (45 :: r) m e -> m <= 0.
Proof.
  intros (neg & ip & fp & fd & ep & x & n & E & NI & LZ & HF & HE & HD & -> & _). destruct neg.
  - destruct HD as (N & F & ->). pose proof (fold_bound _ F). lia.
  - cbn [app] in E. destruct ip as [|c ip]; [congruence|]. injection E as <- E. destruct HD as (_ & F & _). inversion F. lia.
Qed.
Lemma float_v_ok x : valid_binary prec emax x = true -> is_finite_SF x = true ->
  real_text rnd x (float_v prec emax x).
Proof.
  intros V Fi. destruct x as [s|s| |s m e]; try discriminate Fi; cbn [float_v].
  - exists 0, 0. split; [|split; [|split]].
    + exists s, [48], [], [], [], 0, 0. rewrite !app_nil_r. split; [reflexivity|]. split; [discriminate|]. split; [auto|]. split; [auto|]. split; [auto|].
      split; [|destruct s; split; reflexivity]. split; [discriminate|]. split; [repeat constructor; lia|reflexivity].
    + split; [reflexivity|]. cbn [SF2R]. unfold rnd, ten_to. now rewrite Rmult_0_l, round_0 by auto with typeclass_instances.
    + destruct s; cbn; (split; [|try discriminate; eauto]); [reflexivity|]. intros [r K]. discriminate K.
    + left. split; [reflexivity|]. destruct s; cbn; lia.
  - assert (V' : valid_binary prec emax (S754_finite false m e) = true) by exact V.
    destruct (shortest_rounds prec emax ltac:(assumption) m e V') as (ds & dp & n & x & -> & ST & RD).
    destruct (stands_weighs _ _ _ _ ST) as [NP W].
    assert (forall m' e', ten_to m' e' = ten_to n x -> float_is (S754_finite s m e) (rnd (ten_to (signed s m') e'))) as SR.
    { intros m' e' Q. split; [reflexivity|]. rewrite ten_to_signed, Q. cbn [SF2R]. unfold F2R. cbn [Fnum Fexp]. unfold rnd.
      destruct s; cbn [cond_Zopp].
      - rewrite round_NE_opp. change (Z.neg m) with (- Z.pos m). rewrite opp_IZR. rewrite RD. ring.
      - symmetry. exact RD. }
    assert (forall X m' e', ten_to m' e' = ten_to n x -> number_text X m' e' -> (exists r, (if s then [45] else []) ++ X = 45 :: r) <-> negative (S754_finite s m e)) as SG.
    { intros X m' e' Q T. cbn [negative]. destruct s; cbn [app]; [split; eauto|]. split; [|discriminate]. intros [r ->].
      pose proof (number_minus _ _ _ T) as L. exfalso. unfold ten_to in Q. assert (0 < powerRZ 10 e')%R by (apply powerRZ_lt; lra). assert (0 < powerRZ 10 x)%R by (apply powerRZ_lt; lra).
      apply IZR_le in L. apply IZR_lt in NP. nra. }
    destruct ((dp - 1 <? -4) || (6 <=? dp - 1)) eqn:X.
    + destruct (fmt_e_text s ds dp n x ST) as [T I]. destruct (fmt_e_text false ds dp n x ST) as [T0 _]. exists (signed s n), x. split; [exact T|]. split; [now apply SR|].
      split; [exact (SG _ _ _ eq_refl T0)|]. right. exists (dp - 1).
      split; [now apply (weighs_signed s n x)|]. split; [lia|auto].
    + destruct (fmt_f_text s ds dp n x ST) as (m' & e' & T & Q). destruct (fmt_f_text false ds dp n x ST) as (m2 & e2 & T0 & Q0). exists (signed s m'), e'. split; [exact T|]. split; [now apply SR|].
      split; [exact (SG _ _ _ Q0 T0)|]. right. exists (dp - 1).
      split; [now apply (weighs_signed s n x)|]. split; [|lia]. intros I. apply in_app_or in I. destruct I as [I|I]; [destruct s; cbn in I; lia|].
      destruct ST as (F & (c & r & E & NC) & _). now apply fmt_f_no_e in I.
Qed.
(** A text is the text of one value only. *)
Lemma number_same t m e m' e' : number_text t m e -> number_text t m' e' -> m = m' /\ e = e'.
Proof. intros H H'. destruct (number_prefix t m e t m' e' [] [] H H' I I eq_refl) as (_ & _ & R). exact R. Qed.
Lemma real_text_inj x y t : valid_binary prec emax x = true -> valid_binary prec emax y = true ->
  real_text rnd x t -> real_text rnd y t -> x = y.
Proof.
  intros VX VY (m & e & N & [FX RX] & SX & _) (m' & e' & N' & [FY RY] & SY & _). destruct (number_same _ _ _ _ _ N N') as [<- <-].
  assert (negative x <-> negative y) as SG by tauto. rewrite <- RY in RX.
  destruct x as [s|s| |s a b]; try discriminate FX; destruct y as [s'|s'| |s' a' b']; try discriminate FY; cbn [negative] in SG.
  - f_equal. destruct s, s'; try reflexivity; exfalso; [discriminate (proj1 SG eq_refl)|discriminate (proj2 SG eq_refl)].
  - exfalso. symmetry in RX. cbn [SF2R] in RX. apply eq_0_F2R in RX. destruct s'; discriminate RX.
  - exfalso. cbn [SF2R] in RX. apply eq_0_F2R in RX. destruct s; discriminate RX.
  - rewrite <- (B2SF_SF2B prec emax (S754_finite s a b) VX), <- (B2SF_SF2B prec emax (S754_finite s' a' b') VY). f_equal. apply B2R_inj; try reflexivity.
    rewrite <- !SF2R_B2SF, !B2SF_SF2B. exact RX.
Qed.
End Float.

(* ------------------------------------------------------------------ octets, moments *)

Lemma octets_listed s : bytes_ok s -> listed s (octets_v s).
Proof.
  induction 1 as [|b s H F IH]; cbn [octets_v]; [constructor|]. unfold is_byte in H. destruct s as [|c s].
  - constructor. apply itoa_numeral. lia.
  - change [32] with (str " "). constructor; [apply itoa_numeral; lia|exact IH].
Qed.
Lemma zone_v_ok tz : -86400 < tz < 86400 -> offset_text tz (zone_v tz).
Proof.
  intros Ht. unfold zone_v. cbv zeta.
  assert (A : Z.abs (Z.quot tz 60) = Z.abs tz / 60).
  { destruct (Z_lt_le_dec tz 0).
    - rewrite (Z.abs_neq tz) by lia. replace tz with (- (- tz)) at 1 by lia. rewrite Z.quot_opp_l by lia.
      rewrite Z.quot_div_nonneg by lia. rewrite Z.abs_opp, Z.abs_eq; [reflexivity|apply Z.div_pos; lia].
    - rewrite Z.quot_div_nonneg, Z.abs_eq, Z.abs_eq by (try lia; apply Z.div_pos; lia). reflexivity. }
  assert (SG : (Z.quot tz 60 <? 0) = (tz <=? -60)).
  { destruct (Z_lt_le_dec tz 0).
    - replace tz with (- (- tz)) at 1 by lia. rewrite Z.quot_opp_l by lia. rewrite Z.quot_div_nonneg by lia.
      destruct (Z.ltb_spec (- (- tz / 60)) 0); destruct (Z.leb_spec tz (-60)); try reflexivity; exfalso; Z.to_euclidean_division_equations; lia.
    - rewrite Z.quot_div_nonneg by lia. destruct (Z.ltb_spec (tz / 60) 0); destruct (Z.leb_spec tz (-60)); try reflexivity; exfalso; Z.to_euclidean_division_equations; lia. }
  rewrite SG. eexists _, _. split; [|split; [|destruct (tz <=? -60); reflexivity]]; rewrite A.
  - replace (Z.abs tz / 3600) with (Z.abs tz / 60 / 60) by (rewrite Z.div_div by lia; reflexivity). apply fmt_int_digits; [|lia].
    change (10 ^ Z.of_nat 2) with 100. Z.to_euclidean_division_equations; lia.
  - replace (Z.abs tz mod 3600 / 60) with (Z.abs tz / 60 mod 60) by (Z.to_euclidean_division_equations; lia). apply fmt_int_digits; [|lia].
    change (10 ^ Z.of_nat 2) with 100. Z.to_euclidean_division_equations; lia.
Qed.
Lemma time_v_ok tz zone sec ns : 0 <= ns < 10 ^ 9 -> -86400 < tz < 86400 -> -719528 <= (sec + tz) / 86400 < 2932897 ->
  moment_text tz zone sec ns (time_v tz zone sec ns).
Proof.
  intros Hns Ht Hn. unfold time_v. cbv zeta. set (n := (sec + tz) / 86400) in *. set (s := (sec + tz) mod 86400).
  assert (Hs : 0 <= s < 86400) by (apply Z.mod_pos_bound; lia).
  pose proof (civil_calendar n) as C. pose proof (civil_valid n) as V. pose proof (civil_year_bounds n) as YB.
  destruct (civil n) as [[y m] d] eqn:E. destruct V as [V EV]. destruct (YB) as [_ Y]. specialize (Y Hn).
  destruct V as [V1 V2]. assert (mlen y m <= 31) as ML by (unfold mlen; months m; destruct (leap y); dbc; lia).
  exists y, m, d. split; [exact C|]. cbv zeta. fold s.
  exists (fmt_int y 4), (fmt_int m 2), (fmt_int d 2), (fmt_int (s / 3600) 2), (fmt_int (s / 60 mod 60) 2), (fmt_int (s mod 60) 2), (nano_text ns), (zone_v tz).
  split; [apply fmt_int_digits; cbn; lia|]. split; [apply fmt_int_digits; cbn; lia|]. split; [apply fmt_int_digits; cbn; lia|].
  split; [apply fmt_int_digits; [change (10 ^ Z.of_nat 2) with 100; Z.to_euclidean_division_equations; lia|lia]|].
  split. { replace (s mod 3600 / 60) with (s / 60 mod 60) by (clear - Hs; Z.to_euclidean_division_equations; lia). apply fmt_int_digits; [change (10 ^ Z.of_nat 2) with 100; Z.to_euclidean_division_equations; lia|lia]. }
  split; [apply fmt_int_digits; [change (10 ^ Z.of_nat 2) with 100; Z.to_euclidean_division_equations; lia|lia]|].
  split; [now apply nano_ok|]. split; [now apply zone_v_ok|]. destruct zone; reflexivity.
Qed.

(** C111: the value of a field reads as the user expects: numbers in decimal, texts as they are,
    octets as a list, a moment on the local clock, "<nil>" if there is none. *)
Theorem C111_reads tz zone other v : -86400 < tz < 86400 -> encodable tz v -> reads_as tz zone v (fmt_v tz zone other v).
Proof.
  intros Z1 E. destruct v as [|n|n|n|n|n|x|x|s|s|sec ns|k]; cbn [fmt_v encodable] in *; try contradiction; try (constructor; apply whole_ok).
  - constructor. destruct E as [V F]. refine (float_v_ok 24 128 _ x V F); reflexivity.
  - constructor. destruct E as [V F]. refine (float_v_ok 53 1024 _ x V F); reflexivity.
  - change [91] with (str "["). change [93] with (str "]"). constructor. now apply octets_listed.
  - constructor. destruct E as [N R]. now apply time_v_ok.
Qed.

(* ------------------------------------------------------------------ faithful *)

Lemma numeral_fun a b t : numeral a t -> numeral b t -> a = b.
Proof. intros [A _] [B _]. exact (decimal_fun _ _ _ A B). Qed.
Lemma whole_inj a b t : whole a t -> whole b t -> a = b.
Proof.
  assert (forall a r, numeral a (45 :: r) -> False) as NM by (intros a0 r [(_ & F & _) _]; inversion F; lia).
  intros [[A1 A2]|(A1 & r & -> & A2)] [[B1 B2]|(B1 & r' & E & B2)].
  - eapply numeral_fun; eauto.
  - subst t. elim (NM _ _ A2).
  - elim (NM _ _ B2).
  - injection E as <-. pose proof (numeral_fun _ _ _ A2 B2). lia.
Qed.
Lemma blank_split t u t' u' : ~ In 32 t -> ~ In 32 t' -> t ++ str " " ++ u = t' ++ str " " ++ u' -> t = t' /\ u = u'.
Proof.
  change (str " ") with [32]. revert t'. induction t as [|c t IH]; intros [|c' t'] N N' E; cbn [app] in E.
  - injection E as E. auto.
  - injection E as <- _. elim N'. now left.
  - injection E as -> _. elim N. now left.
  - injection E as <- E. destruct (IH t') as [-> ->]; [intros J; apply N; now right|intros J; apply N'; now right|exact E|]. auto.
Qed.
Lemma decimal_no_blank t n : decimal t n -> ~ In 32 t.
Proof. intros (_ & F & _) I. rewrite Forall_forall in F. specialize (F _ I). lia. Qed.
Lemma listed_nil s t : listed s t -> t = [] -> s = [].
Proof. intros H E. destruct H as [|b t [(N & _) _]|b c s t u [(N & _) _] _]; [reflexivity|congruence|]. apply app_eq_nil in E as [E _]. congruence. Qed.
Lemma listed_inj s s' t : listed s t -> listed s' t -> s = s'.
Proof.
  intros H. revert s'. induction H as [|b t N|b c s t u N H IH]; intros s' H'.
  - symmetry. now apply (listed_nil _ _ H').
  - inversion H' as [|b' t' N' E1 E2|b' c' s0 t' u' N' H0 E1 E2]; subst.
    + destruct N as [(K & _) _]. congruence.
    + f_equal. eapply numeral_fun; eauto.
    + exfalso. destruct N as [D _]. apply (decimal_no_blank _ _ D). apply in_or_app. right. now left.
  - inversion H' as [E1 E2|b' t' N' E1 E2|b' c' s0 t' u' N' H0 E1 E2]; subst.
    + exfalso. symmetry in E2. apply app_eq_nil in E2 as [_ E2]. discriminate E2.
    + exfalso. destruct N' as [D _]. apply (decimal_no_blank _ _ D). apply in_or_app. right. now left.
    + destruct (blank_split t' u' t u) as [-> ->]; [now apply (decimal_no_blank _ b'), N'|now apply (decimal_no_blank _ b), N|assumption|].
      rewrite (numeral_fun _ _ _ N N'). f_equal. now apply IH.
Qed.
Lemma digits_split w n a w' n' a' r r' : w = w' -> digits w n a -> digits w' n' a' -> a ++ r = a' ++ r' -> n = n' /\ r = r'.
Proof.
  intros -> [L D] [L' D'] E. assert (a = a' /\ r = r') as [-> ->].
  { clear - L L' E. revert a' w' L L' E. induction a as [|c a IH]; intros [|c' a'] w L L' E; cbn in L, L'; try (exfalso; lia); [auto|].
    cbn [app] in E. injection E as <- E. destruct (IH a' (w - 1)%nat) as [-> ->]; try lia; auto. }
  split; [|reflexivity]. eapply decimal_fun; eauto.
Qed.
Lemma fraction_inj a b f : fraction_text a f -> fraction_text b f -> a = b.
Proof.
  intros [[-> ->]|(fd & n & -> & D & -> & _)] [[-> E]|(fd' & n' & E & D' & -> & _)]; try discriminate E; [reflexivity|].
  injection E as <-. now rewrite (decimal_fun _ _ _ D D').
Qed.
Lemma fraction_no_blank a f : fraction_text a f -> ~ In 32 f.
Proof. intros [[_ ->]|(fd & n & -> & D & _)]; [auto|]. intros [E|I]; [discriminate E|]. exact (decimal_no_blank _ _ D I). Qed.
Lemma moment_inj tz zone sec ns sec' ns' t : moment_text tz zone sec ns t -> moment_text tz zone sec' ns' t -> sec = sec' /\ ns = ns'.
Proof.
  intros (y & m & d & C & Y & M & D & h & mi & sc & f & z & D1 & D2 & D3 & D4 & D5 & D6 & F & _ & ->)
         (y' & m' & d' & C' & Y' & M' & D' & h' & mi' & sc' & f' & z' & D1' & D2' & D3' & D4' & D5' & D6' & F' & _ & E).
  change (str "-") with [45] in E. change (str ":") with [58] in E. change (str " ") with [32] in E.
  destruct (digits_split _ _ _ _ _ _ _ _ eq_refl D1 D1' E) as [<- E1]. injection E1 as E1.
  destruct (digits_split _ _ _ _ _ _ _ _ eq_refl D2 D2' E1) as [<- E2]. injection E2 as E2.
  destruct (digits_split _ _ _ _ _ _ _ _ eq_refl D3 D3' E2) as [<- E3]. injection E3 as E3.
  destruct (digits_split _ _ _ _ _ _ _ _ eq_refl D4 D4' E3) as [Q1 E4]. injection E4 as E4.
  destruct (digits_split _ _ _ _ _ _ _ _ eq_refl D5 D5' E4) as [Q2 E5]. injection E5 as E5.
  destruct (digits_split _ _ _ _ _ _ _ _ eq_refl D6 D6' E5) as [Q3 E6].
  destruct (blank_split f _ f' _ (fraction_no_blank _ _ F) (fraction_no_blank _ _ F') E6) as [<- _].
  split; [|exact (fraction_inj _ _ _ F F')].
  assert ((sec + tz) / 86400 = (sec' + tz) / 86400) as EN.
  { apply calendar_civil in C as [C _], C' as [C' _]. pose proof (civil_valid ((sec + tz) / 86400)) as V. pose proof (civil_valid ((sec' + tz) / 86400)) as V'.
    rewrite C in V. rewrite C' in V'. destruct V as [_ V], V' as [_ V']. congruence. }
  assert ((sec + tz) mod 86400 = (sec' + tz) mod 86400) as ES.
  { set (a := (sec + tz) mod 86400) in *. set (b := (sec' + tz) mod 86400) in *.
    pose proof (Z.div_mod a 3600 ltac:(lia)). pose proof (Z.div_mod b 3600 ltac:(lia)).
    pose proof (Z.div_mod (a mod 3600) 60 ltac:(lia)). pose proof (Z.div_mod (b mod 3600) 60 ltac:(lia)).
    assert (forall x, (x mod 3600) mod 60 = x mod 60) as MM by (intros x; symmetry; apply Znumtheory.Zmod_div_mod; [lia|lia|exists 60; reflexivity]).
    pose proof (MM a). pose proof (MM b). lia. }
  pose proof (Z.div_mod (sec + tz) 86400 ltac:(lia)). pose proof (Z.div_mod (sec' + tz) 86400 ltac:(lia)). lia.
Qed.
Lemma octets_read tz zone s t : reads_as tz zone (VBytes s) t -> exists u, t = str "[" ++ u ++ str "]" /\ listed s u.
Proof. intros H. inversion H; subst. eauto. Qed.
Lemma moment_read tz zone sec ns t : reads_as tz zone (VTime sec ns) t -> moment_text tz zone sec ns t.
Proof. intros H. now inversion H. Qed.
(** C111: two values of a kind that read the same are the same. *)
Theorem C111_faithful tz zone v w t : encodable tz v -> encodable tz w -> same_kind v w ->
  reads_as tz zone v t -> reads_as tz zone w t -> v = w.
Proof.
  intros EV EW K RV RW. destruct v; destruct w; try contradiction;
    try (inversion RV; inversion RW; subst; f_equal; eapply whole_inj; eassumption).
  - reflexivity.
  - inversion RV; inversion RW; subst. f_equal. destruct EV as [V _], EW as [W _]. eapply (real_text_inj 24 128); [exact V|exact W|eassumption|eassumption].
  - inversion RV; inversion RW; subst. f_equal. destruct EV as [V _], EW as [W _]. eapply (real_text_inj 53 1024); [exact V|exact W|eassumption|eassumption].
  - destruct (octets_read _ _ _ _ RV) as (u & -> & L). destruct (octets_read _ _ _ _ RW) as (u' & E & L').
    apply app_inv_head in E. apply app_inj_tail in E as [<- _]. f_equal. eapply listed_inj; eassumption.
  - destruct (moment_inj _ _ _ _ _ _ _ (moment_read _ _ _ _ _ RV) (moment_read _ _ _ _ _ RW)) as [-> ->]. reflexivity.
Qed.
(** ... so the model of fmt's %v loses nothing of a value whose kind is known. *)
Theorem C111_distinct tz zone other v w : -86400 < tz < 86400 -> encodable tz v -> encodable tz w -> same_kind v w ->
  fmt_v tz zone other v = fmt_v tz zone other w -> v = w.
Proof.
  intros Z1 EV EW K E. pose proof (C111_reads tz zone other v Z1 EV) as RV. pose proof (C111_reads tz zone other w Z1 EW) as RW.
  rewrite E in RV. eapply C111_faithful; eassumption.
Qed.
Lemma same_kind_refl v : (forall k, v <> VOther k) -> same_kind v v.
Proof. destruct v; cbn; auto. intros H. now elim (H tag). Qed.

(* ------------------------------------------------------------------ octets *)

Lemma whole_octets n t : whole n t -> bytes_ok t.
Proof.
  assert (forall n t, numeral n t -> bytes_ok t) as N by (intros n0 t0 [(_ & F & _) _]; eapply Forall_impl; [|exact F]; unfold is_byte; cbv beta; lia).
  intros [[_ H]|(_ & r & -> & H)]; [now apply (N n)|]. constructor; [unfold is_byte; lia|now apply (N (- n))].
Qed.
Lemma simple_octets t : simple t -> bytes_ok t.
Proof. intros H. eapply Forall_impl; [|exact H]. unfold is_byte. cbv beta. lia. Qed.
Lemma octets_octets s : Forall (fun b => 0 <= b) s -> bytes_ok (octets_v s).
Proof.
  induction 1 as [|b s H F IH]; [constructor|]. cbn [octets_v]. destruct s as [|c s]; [now apply itoa_ok|].
  apply bytes_ok_app. split; [now apply itoa_ok|]. apply bytes_ok_app. split; [repeat constructor; unfold is_byte; lia|exact IH].
Qed.
Lemma zone_octets tz : bytes_ok (zone_v tz).
Proof.
  unfold zone_v. cbv zeta. apply bytes_ok_app. split; [destruct (_ <? 0); repeat constructor; unfold is_byte; lia|].
  apply bytes_ok_app. split; apply fmt_int_ok.
Qed.
Lemma nano_octets ns : 0 <= ns < 10 ^ 9 -> bytes_ok (nano_text ns).
Proof.
  intros H. destruct (nano_ok ns H) as [[[_ ->]|(fd & n & -> & (_ & F & _) & _)] _]; [constructor|].
  constructor; [unfold is_byte; lia|]. eapply Forall_impl; [|exact F]. unfold is_byte. cbv beta. lia.
Qed.
(** C111: the text of a value that can occur is made of octets. *)
Theorem C111_octets tz zone other v : bytes_ok zone -> encodable tz v -> bytes_ok (fmt_v tz zone other v).
Proof.
  intros BZ E. destruct v as [|n|n|n|n|n|x|x|s|s|sec ns|k]; cbn [fmt_v encodable] in *; try contradiction; try exact E;
    try (eapply whole_octets, whole_ok).
  - apply bytes_ok_str.
  - destruct E as [V F]. destruct (float_v_ok 24 128 eq_refl x V F) as (m & e & N & _). eapply simple_octets, number_simple, N.
  - destruct E as [V F]. destruct (float_v_ok 53 1024 eq_refl x V F) as (m & e & N & _). eapply simple_octets, number_simple, N.
  - apply bytes_ok_app. split; [repeat constructor; unfold is_byte; lia|]. apply bytes_ok_app. split; [|repeat constructor; unfold is_byte; lia].
    apply octets_octets. eapply Forall_impl; [|exact E]. unfold is_byte. cbv beta. lia.
  - unfold time_v. cbv zeta. destruct (civil _) as [[y m] d].
    repeat (apply bytes_ok_app; split; [first [apply fmt_int_ok|apply nano_octets; apply E|apply zone_octets|repeat constructor; unfold is_byte; lia]|]).
    destruct zone; [apply zone_octets|exact BZ].
Qed.

(* ------------------------------------------------------------------ conditions and paths *)

Lemma dec_same a b : List.length a = List.length b -> Forall dec_char a -> Forall dec_char b -> dec_value a = dec_value b -> a = b.
Proof.
  revert b. induction a as [|c a IH]; intros [|d b] L FA FB E; try discriminate L; [reflexivity|].
  inversion FA as [|? ? HC FA']; inversion FB as [|? ? HD FB']; subst. cbn [List.length] in L. injection L as L.
  rewrite !dec_value_cons in E. pose proof (dec_value_bound a FA'). pose proof (dec_value_bound b FB'). unfold zlen in *. rewrite L in *.
  set (K := 10 ^ Z.of_nat (List.length b)) in *. assert (c = d) as -> by nia. f_equal. apply IH; auto. lia.
Qed.
Lemma numeral_text_fun n s t : numeral n s -> numeral n t -> s = t.
Proof.
  assert (forall n u, numeral n u -> Forall dec_char u /\ dec_value u = n /\ (u = [48] /\ n = 0 \/ 1 <= zlen u /\ 10 ^ (zlen u - 1) <= n < 10 ^ zlen u)) as A.
  { intros k u [(N & F & ->) Z0]. assert (Forall dec_char u) as FD by (eapply Forall_impl; [|exact F]; unfold dec_char; cbv beta; lia).
    assert (fold_left (fun a c => 10 * a + (c - 48)) u 0 = dec_value u) as DV by (rewrite dec_value_fold; reflexivity). rewrite DV.
    split; [exact FD|]. split; [reflexivity|]. destruct Z0 as [->|Z0]; [left; auto|right]. clear DV. destruct u as [|c u]; [congruence|].
    inversion FD as [|? ? HC FD']; subst. pose proof (dec_value_bound _ FD). pose proof (dec_value_bound u FD'). rewrite dec_value_cons in *. rewrite zlen_cons in *.
    pose proof (zlen_nonneg u). split; [lia|]. replace (1 + zlen u - 1) with (zlen u) by lia. split; [|tauto].
    assert (c <> 48) as NC by (intros ->; now apply (Z0 u)). unfold dec_char in HC. assert (0 < 10 ^ zlen u) by (apply Z.pow_pos_nonneg; lia). nia. }
  intros H H'. destruct (A _ _ H) as (F & V & B). destruct (A _ _ H') as (F' & V' & B').
  destruct B as [[-> ->]|[L B]], B' as [[-> E]|[L' B']]; [reflexivity| | |].
  - exfalso. assert (0 < 10 ^ (zlen t - 1)) by (apply Z.pow_pos_nonneg; lia). lia.
  - subst n. exfalso. assert (0 < 10 ^ (zlen s - 1)) by (apply Z.pow_pos_nonneg; lia). lia.
  - apply dec_same; auto; [|congruence]. assert (zlen s = zlen t); [|unfold zlen in *; lia].
    destruct (Z.lt_trichotomy (zlen s) (zlen t)) as [X|[X|X]]; [|exact X|]; exfalso.
    + assert (10 ^ zlen s <= 10 ^ (zlen t - 1)) by (apply Z.pow_le_mono_r; lia). lia.
    + assert (10 ^ zlen t <= 10 ^ (zlen s - 1)) by (apply Z.pow_le_mono_r; lia). lia.
Qed.
Lemma whole_text_fun n s t : whole n s -> whole n t -> s = t.
Proof. intros [[A1 A2]|(A1 & r & -> & A2)] [[B1 B2]|(B1 & r' & -> & B2)]; try lia; [|f_equal]; eapply numeral_text_fun; eauto. Qed.
(** C111: a condition "eq" with a number on a field that is a whole number holds iff it is that
    number. *)
Theorem C111_equal_number tz zone other c data v n k : NoDup (map fst data) -> c_op c = str "eq" -> whole k (c_value c) ->
  field_value data (c_field c) v -> In v [VUint64 n; VInt8 n; VInt16 n; VInt32 n; VInt64 n] ->
  (conds_match (fmt_v tz zone other) [c] data = true <-> n = k).
Proof.
  intros ND O W FV I. assert (fmt_v tz zone other v = itoa n) as E by (cbn [In] in I; intuition (subst; reflexivity)).
  rewrite (C54_known _ _ _ ND) by (intros c' [<-|[]]; unfold known_op; rewrite O; cbn; tauto). split.
  - intros H. destruct (H c v (or_introl eq_refl) FV) as [H1 _]. specialize (H1 O). rewrite E in H1. rewrite <- H1 in W.
    eapply whole_inj; [apply whole_ok|exact W].
  - intros <- c' v' [<-|[]] FV'. assert (v' = v) as -> by (eapply field_value_fun; eassumption). rewrite E.
    assert (itoa n = c_value c) as Q by (eapply whole_text_fun; [apply whole_ok|exact W]). unfold holds. rewrite O. repeat split; intros X; try discriminate X; exact Q.
Qed.
(** C111: what a reader of the stream gets, with fmt's own texts in the paths (C86_read without
    its assumption). *)
Theorem C111_stream fuel pl zone others mp other nilb sec ns m spare r order d :
  -86400 < pl_tz pl < 86400 -> clock_ok (pl_tz pl) sec ns -> paths_ok mp -> bytes_ok zone ->
  bytes_ok (rm_data m) -> bytes_ok spare -> parse_packet fuel pl PgnList m spare = Some (Ret r) -> Permutation order (pm_data r) ->
  sk_delta (mkenv (pl_tz pl) (fmt_v (pl_tz pl) zone others) PgnList r) mp order = Ret d ->
  exists b, json_delta other nilb (pl_tz pl) sec ns d = Some b /\ (exists v, json b v) /\
    forall v, json b v -> delta_means (pl_tz pl) sec ns d v.
Proof. intros Z1 CK PO BZ. apply C86_read; auto. intros v. now apply C111_octets. Qed.
(** C111: an absent value cannot be told from the text "<nil>", nor a number from its numeral as
    text: conditions and paths see the same. *)
Theorem C111_same_text_refuted tz zone other n :
  VNil <> VString (str "<nil>") /\ fmt_v tz zone other VNil = fmt_v tz zone other (VString (str "<nil>")) /\
  VUint64 n <> VString (itoa n) /\ fmt_v tz zone other (VUint64 n) = fmt_v tz zone other (VString (itoa n)).
Proof. repeat split; discriminate. Qed.
(** C111: a fraction written another way than the shortest never matches: no value reads "1.0". *)
Theorem C111_equal_decimal_refuted tz zone other v c data : NoDup (map fst data) -> encodable tz v ->
  field_value data (c_field c) v -> (exists x, v = VFloat64 x \/ v = VFloat32 x) -> c_op c = str "eq" -> c_value c = str "1.0" ->
  conds_match (fmt_v tz zone other) [c] data = false.
Proof.
  intros ND E FV [x X] O CV. destruct (conds_match _ _ _) eqn:M; [exfalso|reflexivity].
  rewrite (C54_known _ _ _ ND) in M by (intros c' [<-|[]]; unfold known_op; rewrite O; cbn; tauto).
  destruct (M c v (or_introl eq_refl) FV) as [H1 _]. specialize (H1 O). rewrite CV in H1.
  assert (number_text (str "1.0") 10 (-1)) as NT.
  { exists false, [49], [46; 48], [48], [], 0, 10. split; [reflexivity|]. split; [discriminate|]. split; [right; discriminate|].
    split; [right; split; [reflexivity|discriminate]|]. split; [auto|]. split; [|split; reflexivity]. split; [discriminate|]. split; [repeat constructor; lia|reflexivity]. }
  assert (ten_to 10 (-1) = ten_to 1 0) as T1 by (unfold ten_to; change (powerRZ 10 0) with 1%R; change (powerRZ 10 (-1)) with (/ (10 * 1))%R; field).
  assert (weighs 1 0 0) as W1 by (unfold weighs, ten_to; change (powerRZ 10 0) with 1%R; change (powerRZ 10 (0 + 1)) with (10 * 1)%R; rewrite Rabs_pos_eq; lra).
  assert (number_text (str "1") 1 0) as N1 by exact (itoa_number 1).
  destruct X as [->| ->]; cbn [fmt_v encodable] in H1, E; destruct E as [V F].
  - pose proof (float_v_ok 53 1024 eq_refl x V F) as (m & e & N & R & SG & _). rewrite H1 in N, SG. destruct (number_same _ _ _ _ _ N NT) as [-> ->]. rewrite T1 in R.
    assert (x = S754_finite false 4503599627370496 (-52)) as ->; [|vm_compute in H1; discriminate H1].
    refine (real_text_inj 53 1024 _ (S754_finite false 4503599627370496 (-52)) (str "1") V eq_refl _ (float_v_ok 53 1024 eq_refl (S754_finite false 4503599627370496 (-52)) eq_refl eq_refl)).
    exists 1, 0. split; [exact N1|]. split; [exact R|]. split; [|right; exists 0; split; [exact W1|cbn; lia]].
    split; [intros [r K]; discriminate K|]. intros K. destruct (proj2 SG K) as [r K']. discriminate K'.
  - pose proof (float_v_ok 24 128 eq_refl x V F) as (m & e & N & R & SG & _). rewrite H1 in N, SG. destruct (number_same _ _ _ _ _ N NT) as [-> ->]. rewrite T1 in R.
    assert (x = S754_finite false 8388608 (-23)) as ->; [|vm_compute in H1; discriminate H1].
    refine (real_text_inj 24 128 _ (S754_finite false 8388608 (-23)) (str "1") V eq_refl _ (float_v_ok 24 128 eq_refl (S754_finite false 8388608 (-23)) eq_refl eq_refl)).
    exists 1, 0. split; [exact N1|]. split; [exact R|]. split; [|right; exists 0; split; [exact W1|cbn; lia]].
    split; [intros [r K]; discriminate K|]. intros K. destruct (proj2 SG K) as [r K']. discriminate K'.
Qed.
(** C111: PGN 130820 never maps, with fmt's own texts (C54 without its assumptions). *)
Theorem C111_130820_never_maps_refuted fuel pl tz zone other m spare r order d :
  rm_pgn m = 130820 -> parse_packet fuel pl PgnList m spare = Some (Ret r) -> Permutation order (pm_data r) ->
  -86400 < tz < 86400 -> sk_delta (mkenv tz (fmt_v tz zone other) PgnList r) MapXml order <> Ret d.
Proof. apply C54_130820_never_maps_refuted; reflexivity. Qed.
Example C111_example :
  map (fmt_v 5400 (str "CEST") (fun _ => []))
    [VNil; VInt16 (-12); VFloat64 (res_f64 (RPos 1 10)); VFloat32 (S754_finite false 8388608 (-25)); VFloat64 (res_f64 (RPos 1234567 1)); VFloat64 (res_f64 (RPos 1 100000)); VFloat64 (S754_zero true); VString (str "True"); VBytes [1; 255]; VTime 1609459200 500000000] =
  [str "<nil>"; str "-12"; str "0.1"; str "0.25"; str "1.234567e+06"; str "1e-05"; str "-0"; str "True"; str "[1 255]"; str "2021-01-01 01:30:00.5 +0130 CEST"].
Proof. vm_compute. reflexivity. Qed.
(** C111: a path that names a field the message does not reach (field 5 of a PGN 127503 of two
    octets) says so. *)
Theorem C111_absent_path_refuted : exists r d, parse_packet 100 pl0 PgnList (msg 127503 [7; 1]) [] = Some (Ret r) /\
  sk_delta (mkenv 0 (fmt_v 0 (str "UTC") (fun _ => [])) PgnList r)
    [mkmapping (str "~/electric/ac/{volts}/numberOfLines") [mkgroup 127503 (mkfs [] []) (str "1") (mkidf (str "volts") (str "5")) (mkidf [] []) []]] (pm_data r) = Ret d /\
  map v_path (flat_map u_values (d_updates d)) = [str "electric.ac.<nil>.numberOfLines"].
Proof. eexists. eexists. split; [vm_compute; reflexivity|]. split; [vm_compute; reflexivity|]. vm_compute. reflexivity. Qed.
