(** LogTextProps: the texts in the log (C112). *)
From Coq Require Import ZArith Reals Lia Lra Floats.SpecFloat ZifyBool Permutation.
From Flocq Require Import Core BinarySingleNaN.
From Verif Require Import GoBase BufFacts Strconv StrconvFacts CanModel NmeaTypes NmeaModel NmeaSpec NmeaFloat NmeaExtract NmeaProps1 NmeaProps2 NmeaProps3 PgnTable
  FtoaModel FtoaFacts JsonModel JsonSpec JsonFacts JsonLayout JsonProps JsonDecoded SignalkModel SignalkSpec SignalkTime SignalkText SignalkDelta MainSpec LogModel LogProps
  FmtvModel FmtvSpec FmtvProps LogTextModel LogTextSpec.
Open Scope Z_scope.
Open Scope list_scope.

Lemma round_even_ok a d : 0 < d -> round_even a d = ZnearestE (IZR a / IZR d).
Proof.
  intros P. unfold round_even. cbv zeta. assert (IZR d > 0)%R as PR by (apply IZR_lt in P; lra).
  unfold Znearest. rewrite Zfloor_div by lia.
  pose proof (Z.div_mod a d ltac:(lia)) as DM. pose proof (Z.mod_pos_bound a d P) as MB. set (q := a / d) in *. set (r := a mod d) in *.
  assert (IZR a / IZR d - IZR q = IZR r / IZR d)%R as EQ by (rewrite DM, plus_IZR, mult_IZR; field; lra).
  assert (Zceil (IZR a / IZR d) = if r =? 0 then q else q + 1) as EC.
  { destruct (Z.eqb_spec r 0) as [Z0|NZ].
    - replace (IZR a / IZR d)%R with (IZR q); [apply Zceil_IZR|]. rewrite Z0 in EQ. unfold Rdiv in EQ at 2. rewrite Rmult_0_l in EQ. lra.
    - rewrite Zceil_floor_neq; rewrite Zfloor_div by lia; fold q; [reflexivity|].
      intros K. assert (IZR r / IZR d = 0)%R as K2 by lra. apply Rmult_integral in K2 as [K2|K2]; [apply eq_IZR in K2; lia|]. apply Rinv_neq_0_compat in K2; [exact K2|lra]. }
  rewrite EQ, EC.
  assert (Rcompare (IZR r / IZR d) (/ 2) = (2 * r ?= d)) as ->.
  { rewrite <- Rcompare_IZR, mult_IZR. rewrite <- (Rcompare_mult_r (2 * IZR d) (IZR r / IZR d)) by lra. f_equal; field; lra. }
  destruct (Z.compare_spec (2 * r) d) as [E|E|E].
  - replace (2 * r <? d) with false by lia. replace (d <? 2 * r) with false by lia. replace (r =? 0) with false by lia. destruct (Z.even q); reflexivity.
  - replace (2 * r <? d) with true by lia. reflexivity.
  - replace (2 * r <? d) with false by lia. replace (d <? 2 * r) with true by lia. replace (r =? 0) with false by lia. reflexivity.
Qed.
Lemma millionths_ok m e : millionths m e = ZnearestE (IZR (Zpos m) * bpow radix2 e * 1000000).
Proof.
  unfold millionths. destruct (Z.leb_spec 0 e) as [H|H].
  - rewrite <- (IZR_Zpower radix2 e H). change (1000000)%R with (IZR 1000000). rewrite <- !mult_IZR. symmetry; apply (@Zrnd_IZR ZnearestE (valid_rnd_N _)).
  - rewrite round_even_ok by (apply Z.pow_pos_nonneg; lia). f_equal. replace e with (- (- e)) at 2 by lia. rewrite bpow_opp, <- (IZR_Zpower radix2 (- e)) by lia.
    change (Z.pow radix2 (- e)) with (2 ^ (- e)). rewrite mult_IZR. assert (0 < IZR (2 ^ (- e)))%R by (apply IZR_lt, Z.pow_pos_nonneg; lia). field. lra.
Qed.
Lemma millionths_nonneg m e : 0 <= millionths m e.
Proof.
  unfold millionths. destruct (Z.leb_spec 0 e) as [H|H]; [assert (0 < 2 ^ e) by (apply Z.pow_pos_nonneg; lia); nia|].
  unfold round_even. cbv zeta. assert (0 <= Z.pos m * 1000000 / 2 ^ (- e)) by (apply Z.div_pos; [lia|apply Z.pow_pos_nonneg; lia]).
  destruct (_ <? _); [assumption|]. destruct (_ <? _); [lia|]. destruct (Z.even _); lia.
Qed.
Lemma fixed_digits_ok n : 0 <= n -> exists ip fd, numeral (n / 1000000) ip /\ digits 6 (n mod 1000000) fd /\ fixed_digits n = ip ++ str "." ++ fd.
Proof.
  intros H. assert (0 <= n mod 1000000 < 1000000) by (apply Z.mod_pos_bound; lia). eexists _, _. split; [apply itoa_numeral, Z.div_pos; lia|]. split; [|reflexivity].
  apply pad_digits; [apply itoa_decimal; lia|apply itoa_length; [change (10 ^ Z.of_nat 6) with 1000000; lia|lia]].
Qed.
(** C112: %f is the value rounded to six decimals, half to even. *)
Theorem C112_fixed x : is_finite_SF x = true -> fixed_text x (fixed_f x).
Proof.
  intros F. destruct x as [s|s| |s m e]; try discriminate F; cbn [fixed_f].
  - destruct (fixed_digits_ok 0 ltac:(lia)) as (ip & fd & N & D & ->). exists s, 0, ip, fd. split; [reflexivity|]. split.
    + cbn [SF2R]. rewrite Rabs_R0, Rmult_0_l. change 0%R with (IZR 0). symmetry; apply (@Zrnd_IZR ZnearestE (valid_rnd_N _)).
    + split; [exact N|]. split; [exact D|]. destruct s; reflexivity.
  - destruct (fixed_digits_ok _ (millionths_nonneg m e)) as (ip & fd & N & D & ->). exists s, (millionths m e), ip, fd. split; [reflexivity|]. split.
    + rewrite millionths_ok. f_equal. f_equal. cbn [SF2R]. unfold F2R. cbn [Fnum Fexp]. rewrite Rabs_mult, (Rabs_pos_eq (bpow radix2 e)) by apply bpow_ge_0.
      f_equal. rewrite <- abs_IZR. destruct s; reflexivity.
    + split; [exact N|]. split; [exact D|]. destruct s; reflexivity.
Qed.
Lemma fold_dv s : fold_left (fun a c => 10 * a + (c - 48)) s 0 = dec_value s.
Proof. rewrite dec_value_fold. reflexivity. Qed.
(** C112: so the number in the log is at most half a millionth off. *)
Theorem C112_close x t : is_finite_SF x = true -> fixed_text x t ->
  exists m, number_text t m (-6) /\ (Rabs (ten_to m (-6) - SF2R radix2 x) <= ten_to 5 (-7))%R.
Proof.
  intros F (neg & n & ip & fd & SG & EN & [(NI & FI & VI) LZ] & [LF (NF & FF & VF)] & ->).
  exists (if neg then - n else n). split.
  - exists neg, ip, (46 :: fd), fd, [], 0, n. split; [rewrite app_nil_r; destruct neg; reflexivity|]. split; [exact NI|]. split; [exact LZ|].
    split; [right; split; [reflexivity|exact NF]|]. split; [auto|]. split; [|split; [reflexivity|unfold zlen; rewrite LF; reflexivity]].
    split; [intros K; apply app_eq_nil in K as [K _]; congruence|]. split; [apply Forall_app; auto|].
    rewrite fold_dv, dec_value_app. rewrite fold_dv in VI, VF. unfold zlen. rewrite LF. change (10 ^ Z.of_nat 6) with 1000000. rewrite <- VI, <- VF.
    pose proof (Z.div_mod n 1000000 ltac:(lia)). lia.
  - assert (Rabs (IZR n - Rabs (SF2R radix2 x) * 1000000) <= / 2)%R as H.
    { rewrite EN, Rabs_minus_sym. apply Znearest_half. }
    assert (SF2R radix2 x = if neg then - Rabs (SF2R radix2 x) else Rabs (SF2R radix2 x))%R as SX.
    { destruct x as [s|s| |s m e]; try discriminate F; cbn [SF2R negative] in *.
      - rewrite Rabs_R0. destruct neg; lra.
      - assert (s = neg) as -> by (destruct s, neg; intuition congruence). unfold F2R. cbn [Fnum Fexp]. rewrite Rabs_mult, (Rabs_pos_eq (bpow radix2 e)) by apply bpow_ge_0. rewrite <- abs_IZR.
        destruct neg; cbn [cond_Zopp]; [change (Z.neg m) with (- Z.pos m); rewrite Z.abs_opp, opp_IZR; change (Z.abs (Z.pos m)) with (Z.pos m); ring|reflexivity]. }
    set (a := Rabs (SF2R radix2 x)) in *. unfold ten_to. change (powerRZ 10 (-6)) with (/ (10 * (10 * (10 * (10 * (10 * (10 * 1))))))) %R. change (powerRZ 10 (-7)) with (/ (10 * (10 * (10 * (10 * (10 * (10 * (10 * 1)))))))) %R.
    rewrite SX. apply Rabs_le_inv in H. apply Rabs_le. destruct neg; [rewrite opp_IZR|]; lra.
Qed.
(** C112: every value of a field in a line of the log. *)
Theorem C112_value tz zone other v : -86400 < tz < 86400 -> encodable tz v -> logged tz zone v (log_value tz zone other v).
Proof.
  intros Z1 E. destruct v as [|n|n|n|n|n|x|x|s|s|sec ns|k]; cbn [log_value];
    try (apply lg_other; [intros y; split; discriminate|now apply C111_reads]).
  - constructor. apply C112_fixed, E.
  - constructor. apply C112_fixed, E.
Qed.
Theorem C112_stamp sep tz sec ns : 0 <= ns < 10 ^ 9 -> -719528 <= (sec + tz) / 86400 < 2932897 ->
  stamp_text [sep] tz sec ns (log_stamp sep tz sec ns).
Proof.
  intros Hns Hn. unfold log_stamp. cbv zeta. set (n := (sec + tz) / 86400) in *. set (s := (sec + tz) mod 86400).
  assert (Hs : 0 <= s < 86400) by (apply Z.mod_pos_bound; lia).
  pose proof (civil_calendar n) as C. pose proof (civil_valid n) as V. pose proof (civil_year_bounds n) as YB.
  destruct (civil n) as [[y m] d] eqn:E. destruct V as [V EV]. destruct (YB) as [_ Y]. specialize (Y Hn).
  destruct V as [V1 V2]. assert (mlen y m <= 31) as ML by (unfold mlen; months m; destruct (leap y); dbc; lia).
  exists y, m, d. split; [exact C|]. cbv zeta. fold s.
  exists (fmt_int y 4), (fmt_int m 2), (fmt_int d 2), (fmt_int (s / 3600) 2), (fmt_int (s / 60 mod 60) 2), (fmt_int (s mod 60) 2), (pad 3 (itoa (ns / 1000000))).
  split; [apply fmt_int_digits; cbn; lia|]. split; [apply fmt_int_digits; cbn; lia|]. split; [apply fmt_int_digits; cbn; lia|].
  split; [apply fmt_int_digits; [change (10 ^ Z.of_nat 2) with 100; Z.to_euclidean_division_equations; lia|lia]|].
  split. { replace (s mod 3600 / 60) with (s / 60 mod 60) by (clear - Hs; Z.to_euclidean_division_equations; lia). apply fmt_int_digits; [change (10 ^ Z.of_nat 2) with 100; Z.to_euclidean_division_equations; lia|lia]. }
  split; [apply fmt_int_digits; [change (10 ^ Z.of_nat 2) with 100; Z.to_euclidean_division_equations; lia|lia]|].
  split; [|reflexivity]. assert (0 <= ns / 1000000 < 1000) by (change (10 ^ 9) with 1000000000 in Hns; clear - Hns; Z.to_euclidean_division_equations; lia).
  apply pad_digits; [apply itoa_decimal; lia|apply itoa_length; [change (10 ^ Z.of_nat 3) with 1000; lia|lia]].
Qed.
Lemma combine_self {A B C} (f : A -> B) (g : A * B -> C) l : map g (combine l (map f l)) = map (fun x => g (x, f x)) l.
Proof. induction l as [|x l IH]; cbn; [reflexivity|now rewrite IH]. Qed.
(** C112: the line of a message off the bus: the moment it was received, its header, its name
    and its fields in order, each with its number, its name and its value. *)
Theorem C112_line fuel pl zone other sec ns m spare r verbose :
  -86400 < pl_tz pl < 86400 -> 0 <= ns < 10 ^ 9 -> -719528 <= (sec + pl_tz pl) / 86400 < 2932897 ->
  bytes_ok (rm_data m) -> bytes_ok spare -> parse_packet fuel pl PgnList m spare = Some (Ret r) ->
  exists def ts l ws, zget PgnList (pm_index r) = Some def /\ stamp_text (str "T") (pl_tz pl) sec ns ts /\
    map (fun e => (fst (fst e), snd e)) l = filter (fun kv => match snd kv with VNil => verbose | _ => true end) (pm_data r) /\
    Forall (fun e => exists f, nth_field def (fst (fst e)) = Some f /\ snd (fst e) = f_name f) l /\
    Forall2 (fun e w => snd e = VNil /\ w = str "nil" \/ snd e <> VNil /\ logged (pl_tz pl) zone (snd e) w) l ws /\
    log_line (pl_tz pl) zone other sec ns PgnList r verbose = Ret (
      separated (str " ") [ts; itoa (rm_priority m); itoa (rm_source m); itoa (rm_dest m); itoa (rm_pgn m); str (p_desc def)] ++
      match l with
      | [] => []
      | _ => str ":" ++ separated (str ";") (map (fun ew => str " " ++ itoa (fst (fst (fst ew))) ++ str "." ++ str (snd (fst (fst ew))) ++ str " = " ++ snd ew) (combine l ws))
      end).
Proof.
  intros Z1 NS DY B1 B2 P. pose proof (decoded_encodable _ _ _ _ _ _ Z1 tame_PgnList B1 B2 P) as EN.
  destruct (C39_header_and_keys _ _ _ _ _ _ P) as [HH _].
  destruct (C48_print_any fuel pl m spare r verbose P) as (def & l & Z & PF & M & NM).
  exists def, (log_stamp 84 (pl_tz pl) sec ns), l, (map (fun e => value_text (log_value (pl_tz pl) zone other) (snd e)) l).
  split; [exact Z|]. split; [now apply (C112_stamp 84)|]. split; [exact M|]. split; [exact NM|]. split.
  - assert (Forall (fun e => encodable (pl_tz pl) (snd e)) l) as EL.
    { apply Forall_forall. intros e I. assert (In (fst (fst e), snd e) (pm_data r)) as J.
      { apply (in_map (fun e => (fst (fst e), snd e))) in I. rewrite M in I. now apply filter_In in I as [I _]. }
      rewrite Forall_forall in EN. exact (EN _ J). }
    clear M NM PF. induction EL as [|e l H _ IH]; constructor; [|exact IH]. destruct (snd e) eqn:E; [left; auto|right; split; [discriminate|]; now apply C112_value..].
  - unfold log_line. rewrite (C48_text _ _ _ _ _ _ _ Z PF), HH. cbn [fst snd]. destruct l as [|e l]; [reflexivity|]. do 3 f_equal. f_equal.
    now rewrite combine_self.
Qed.
Lemma stamp_inj sep tz sec ns sec' ns' t : stamp_text sep tz sec ns t -> stamp_text sep tz sec' ns' t ->
  sec = sec' /\ ns / 1000000 = ns' / 1000000.
Proof.
  intros (y & m & d & C & Y & M & D & h & mi & sc & f & D1 & D2 & D3 & D4 & D5 & D6 & F & ->)
         (y' & m' & d' & C' & Y' & M' & D' & h' & mi' & sc' & f' & D1' & D2' & D3' & D4' & D5' & D6' & F' & E).
  change (str "-") with [45] in E. change (str ":") with [58] in E. change (str ".") with [46] in E.
  destruct (digits_split _ _ _ _ _ _ _ _ eq_refl D1 D1' E) as [<- E1]. injection E1 as E1.
  destruct (digits_split _ _ _ _ _ _ _ _ eq_refl D2 D2' E1) as [<- E2]. injection E2 as E2.
  destruct (digits_split _ _ _ _ _ _ _ _ eq_refl D3 D3' E2) as [<- E3]. apply app_inv_head in E3.
  destruct (digits_split _ _ _ _ _ _ _ _ eq_refl D4 D4' E3) as [Q1 E4]. injection E4 as E4.
  destruct (digits_split _ _ _ _ _ _ _ _ eq_refl D5 D5' E4) as [Q2 E5]. injection E5 as E5.
  destruct (digits_split _ _ _ _ _ _ _ _ eq_refl D6 D6' E5) as [Q3 E6]. injection E6 as E6.
  rewrite <- (app_nil_r f), <- (app_nil_r f') in E6. destruct (digits_split _ _ _ _ _ _ _ _ eq_refl F F' E6) as [Q4 _].
  split; [|exact Q4].
  assert ((sec + tz) / 86400 = (sec' + tz) / 86400) as EN.
  { apply calendar_civil in C as [C _], C' as [C' _]. pose proof (civil_valid ((sec + tz) / 86400)) as V. pose proof (civil_valid ((sec' + tz) / 86400)) as V'.
    rewrite C in V. rewrite C' in V'. destruct V as [_ V], V' as [_ V']. congruence. }
  assert ((sec + tz) mod 86400 = (sec' + tz) mod 86400) as ES.
  { set (a := (sec + tz) mod 86400) in *. set (b := (sec' + tz) mod 86400) in *.
    pose proof (Z.div_mod a 3600 ltac:(lia)). pose proof (Z.div_mod b 3600 ltac:(lia)).
    pose proof (Z.div_mod (a mod 3600) 60 ltac:(lia)). pose proof (Z.div_mod (b mod 3600) 60 ltac:(lia)).
    assert (forall x, (x mod 3600) mod 60 = x mod 60) as MM by (intros x; symmetry; apply Znumtheory.Zmod_div_mod; [lia|lia|exists 60; reflexivity]).
    pose proof (MM a). pose proof (MM b). lia. }
  pose proof (Z.div_mod (sec + tz) 86400 ltac:(lia)). pose proof (Z.div_mod (sec' + tz) 86400 ltac:(lia)). lia.
Qed.
(** C112: from the line of the frame itself (level DEBUG) everything can be read back: the moment to
    the millisecond and the message. *)
Theorem C112_raw tz sec ns sec' ns' m m' : 0 <= ns < 10 ^ 9 -> 0 <= ns' < 10 ^ 9 ->
  -719528 <= (sec + tz) / 86400 < 2932897 -> -719528 <= (sec' + tz) / 86400 < 2932897 ->
  bytes_ok (rm_data m) -> bytes_ok (rm_data m') ->
  (forall x, In x [m; m'] -> 0 <= rm_priority x /\ 0 <= rm_source x /\ 0 <= rm_dest x /\ 0 <= rm_pgn x /\ 0 <= rm_length x) ->
  raw_print (log_stamp 45 tz sec ns) m = raw_print (log_stamp 45 tz sec' ns') m' ->
  m = m' /\ sec = sec' /\ ns / 1000000 = ns' / 1000000.
Proof.
  intros N N' D D' B B' P E. pose proof (C112_stamp 45 tz sec ns N D) as S. pose proof (C112_stamp 45 tz sec' ns' N' D') as S'.
  assert (forall sec ns t, stamp_text [45] tz sec ns t -> ~ In 32 t) as NB.
  { intros s0 n0 t (y & mo & d & _ & Y & M & Da & h & mi & sc & f & D1 & D2 & D3 & D4 & D5 & D6 & F & ->) I.
    assert (forall w n s, digits w n s -> In 32 s -> False) as DN by (intros w n s [_ H] J; now apply (decimal_no_blank _ _ H)).
    change (str "-") with [45] in I. change (str ":") with [58] in I. change (str ".") with [46] in I.
    repeat (apply in_app_or in I as [I|I]; [first [eapply DN; [|exact I]; eassumption|destruct I as [I|[]]; discriminate I]|]). eapply DN; [exact F|exact I]. }
  destruct (C84_lossless _ _ m m' (NB _ _ _ S) (NB _ _ _ S') B B' P E) as [ET <-]. rewrite ET in S. split; [reflexivity|]. exact (stamp_inj _ _ _ _ _ _ _ S S').
Qed.
(** C112: the log does not tell positions apart that differ by the resolution of the message. *)
Theorem C112_precision_refuted : exists r r', parse_packet 100 pl0 PgnList (msg 129025 [1; 0; 0; 0; 0; 0; 0; 0]) [] = Some (Ret r) /\
  parse_packet 100 pl0 PgnList (msg 129025 [2; 0; 0; 0; 0; 0; 0; 0]) [] = Some (Ret r') /\ dm_get (pm_data r) 0 <> dm_get (pm_data r') 0 /\
  forall ts tz zone other verbose, msg_print (log_value tz zone other) ts PgnList r verbose = msg_print (log_value tz zone other) ts PgnList r' verbose.
Proof.
  eexists. eexists. split; [vm_compute; reflexivity|]. split; [vm_compute; reflexivity|]. split; [cbn; discriminate|].
  intros ts tz zone other verbose. destruct verbose; vm_compute; reflexivity.
Qed.
(** C112: a text with a line break makes two lines: the line of a message can hold what looks
    like the line of another one (PGN 129044, local datum "A\nBC"). *)
Theorem C112_one_line_refuted : exists r line, parse_packet 100 pl0 PgnList (msg 129044 ([65; 10; 66; 67] ++ repeat 0 16)) [] = Some (Ret r) /\
  log_line 0 (str "UTC") (fun _ => []) 1609459200 500000000 PgnList r false = Ret line /\ In 10 line.
Proof. eexists. eexists. split; [vm_compute; reflexivity|]. split; [vm_compute; reflexivity|]. cbn. tauto. Qed.
Example C112_example :
  match parse_packet 100 pl0 PgnList (msg 129026 [0; 252; 16; 39; 100; 0; 255; 255]) [] with
  | Some (Ret r) => log_line 3600 (str "CET") (fun _ => []) 1609459200 123456789 PgnList r false = Ret (str "2021-01-01T01:00:00.123 3 1 255 129026 COG & SOG, Rapid Update: 0.SID = 0; 1.COG Reference = True; 2.Reserved = [252]; 3.COG = 57.295780; 4.SOG = 1.000000; 5.Reserved = [255 255]")
  | _ => False end /\
  map fixed_f [S754_finite true 1 (-3); S754_finite false 1 (-7); S754_finite false 3 (-7); S754_finite true 1 (-60); S754_finite false 3 70] =
    [str "-0.125000"; str "0.007812"; str "0.023438"; str "-0.000000"; str "3541774862152233910272.000000"].
Proof. vm_compute. split; reflexivity. Qed.
