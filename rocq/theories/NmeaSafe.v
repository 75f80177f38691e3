(** NmeaSafe: which fields cannot make ParsePacket panic, and independence of what lies beyond
    the message (toward C43, C44). *)
From Coq Require Import Floats.SpecFloat.
From Verif Require Import GoBase BufFacts Strconv CanModel NmeaTypes LookupTable NmeaModel NmeaSpec NmeaExtract NmeaParse.
Open Scope Z_scope.
Open Scope list_scope.

(* ------------------------------------------------------------------ beyond the message *)
Lemma scan_indep n : forall D sp1 sp2 i, 0 <= i -> i + Z.of_nat n <= zlen D ->
  scan_text n (window D sp1) i = scan_text n (window D sp2) i.
Proof.
  induction n as [|n IH]; intros D sp1 sp2 i H1 H2; [reflexivity|]. cbn [scan_text].
  rewrite !window_get by lia. destruct (zget D i); [|reflexivity].
  destruct (_ || _); [reflexivity|]. apply IH; lia.
Qed.
Lemma scan_range n : forall d i k, scan_text n d i = Ret k -> i <= k <= i + Z.of_nat n.
Proof.
  induction n as [|n IH]; intros d i k H; cbn [scan_text] in H.
  - injection H as <-. lia.
  - destruct (s_get d i); [|discriminate]. destruct (_ || _); [injection H as <-; lia|]. apply IH in H. lia.
Qed.
Lemma scan_ret n : forall D sp i, 0 <= i -> i + Z.of_nat n <= zlen D -> exists k, scan_text n (window D sp) i = Ret k.
Proof.
  induction n as [|n IH]; intros D sp i H1 H2; cbn [scan_text]; [eauto|].
  rewrite window_get by lia. destruct (zget D i) eqn:E; [|apply zget_none in E; lia].
  destruct (_ || _); [eauto|]. apply IH; lia.
Qed.
Lemma number_indep D sp1 sp2 f sb eb sbit bits : 0 <= sb <= eb -> eb <= zlen D ->
  extract_number f (window D sp1) sb eb sbit bits = extract_number f (window D sp2) sb eb sbit bits.
Proof. intros H1 H2. unfold extract_number. now rewrite !sub_or_panic_in by lia. Qed.
Lemma stringlz_indep D sp1 sp2 sb : 0 <= sb ->
  extract_stringlz (window D sp1) sb = extract_stringlz (window D sp2) sb.
Proof.
  intros H. unfold extract_stringlz. change (s_len (window D sp1)) with (zlen D). change (s_len (window D sp2)) with (zlen D).
  destruct (Z.leb_spec (zlen D) sb); [reflexivity|]. rewrite !window_get by lia.
  destruct (zget D sb) as [n|]; [|reflexivity]. destruct (n =? 0); [reflexivity|].
  destruct (Z.ltb_spec (zlen D) (u8 (n + u8 sb))); [reflexivity|].
  destruct (Z_le_dec (sb + 1) (u8 (n + u8 sb))) as [C|C].
  - now rewrite !sub_or_panic_in by lia.
  - unfold sub_or_panic. now rewrite !s_sub_none by lia.
Qed.
Lemma string_indep D sp1 sp2 sb eb : 0 <= sb <= eb -> eb <= zlen D ->
  extract_string (window D sp1) sb eb = extract_string (window D sp2) sb eb.
Proof.
  intros H1 H2. unfold extract_string. change (s_len (window D sp1)) with (zlen D). change (s_len (window D sp2)) with (zlen D).
  destruct (Z.leb_spec (zlen D) sb); [reflexivity|]. cbn [orb]. destruct (_ <=? _); [reflexivity|].
  rewrite !window_get by lia. destruct (zget D sb) as [b0|]; [|reflexivity]. destruct (b0 =? 0); [reflexivity|].
  rewrite (scan_indep _ D sp1 sp2) by lia.
  destruct (scan_text _ (window D sp2) sb) as [k|e|p] eqn:E; try reflexivity.
  apply scan_range in E. now rewrite !sub_or_panic_in by lia.
Qed.

Lemma extract_indep pl D sp1 sp2 def dm f sb eb sbit bits : 0 <= sb <= eb -> eb <= zlen D -> f_res f <> RES_LOOKUP2 ->
  extract_field pl (window D sp1) def dm f sb eb sbit bits = extract_field pl (window D sp2) def dm f sb eb sbit bits.
Proof.
  intros H1 H2 N. unfold extract_field. destruct (f_res f) as [|k|n q]; [reflexivity| |now apply number_indep].
  destruct (Z.eqb_spec k 2); destruct (Z.eqb_spec k 3); cbn [orb];
    try (unfold extract_latlon; now rewrite !sub_or_panic_in by lia).
  destruct (Z.eqb_spec k 4); [unfold extract_date; now rewrite !sub_or_panic_in by lia|].
  destruct (Z.eqb_spec k 5); [unfold extract_time; now rewrite !sub_or_panic_in by lia|].
  destruct (Z.eqb_spec k 6); [unfold extract_temperature; now rewrite !sub_or_panic_in by lia|].
  destruct (Z.eqb_spec k 7); [unfold extract_6bit; now rewrite !sub_or_panic_in by lia|].
  destruct (Z.eqb_spec k 8); [now apply number_indep|].
  destruct (Z.eqb_spec k 9); [unfold extract_lookup; now rewrite (number_indep D sp1 sp2) by lia|].
  destruct (Z.eqb_spec k 10); [subst; now elim N|].
  destruct (Z.eqb_spec k 12); [unfold extract_manufacturer; now rewrite (number_indep D sp1 sp2) by lia|].
  destruct (Z.eqb_spec k 15); [unfold extract_pressure; now rewrite !sub_or_panic_in by lia|].
  destruct (Z.eqb_spec k 16); [apply stringlz_indep; lia|].
  destruct (Z.eqb_spec k 13); [now rewrite !sub_or_panic_in by lia|].
  destruct (Z.eqb_spec k 1); [now apply string_indep|].
  now rewrite !sub_or_panic_in by lia.
Qed.

(** The two-level lookup reads another field; only its bytes matter. *)
Lemma extract_indep2 pl D sp1 sp2 def dm f sb eb sbit bits sb' eb' sbit' bits' :
  0 <= sb <= eb -> eb <= zlen D -> field_offsets def (f_offset f) = Ret (sb', eb', sbit', bits') ->
  0 <= sb' <= eb' -> eb' <= zlen D ->
  extract_field pl (window D sp1) def dm f sb eb sbit bits = extract_field pl (window D sp2) def dm f sb eb sbit bits.
Proof.
  intros H1 H2 E H3 H4.
  assert (f_res f = RES_LOOKUP2 \/ f_res f <> RES_LOOKUP2) as [C|C].
  { unfold RES_LOOKUP2. destruct (f_res f) as [|k|]; try (right; discriminate).
    destruct (Z.eq_dec k 10) as [->|]; [now left|right; congruence]. }
  2: { now apply extract_indep. }
  unfold extract_field. rewrite C. unfold RES_LOOKUP2. cbn [Z.eqb Pos.eqb orb]. rewrite E.
  rewrite (number_indep D sp1 sp2 f sb' eb') by lia. unfold extract_sublookup.
  now rewrite (number_indep D sp1 sp2 f sb eb) by lia.
Qed.

Lemma choose_indep n : forall t D sp1 sp2 res sb eb sbit bits idx data i def f,
  0 <= sb <= eb -> eb <= zlen D ->
  choose n t (window D sp1) res sb eb sbit bits idx data i def f
  = choose n t (window D sp2) res sb eb sbit bits idx data i def f.
Proof.
  induction n as [|n IH]; intros t D sp1 sp2 res sb eb sbit bits idx data i def f H1 H2; [reflexivity|].
  cbn [choose]. rewrite (number_indep D sp1 sp2) by lia.
  destruct (if is_manufacturer res then _ else _) as [v|e|p]; try reflexivity.
  destruct (f_units f) as [|[|c r]| | |]; try reflexivity. destruct (Ascii.eqb c "="%char); [|reflexivity].
  destruct v; try reflexivity. destruct (_ =? _); [reflexivity|].
  destruct (zget t (i + 1)) as [d1|]; [|reflexivity]. destruct (zget (p_fields d1) idx); [|reflexivity]. now apply IH.
Qed.

(* ------------------------------------------------------------------ panics *)
Definition extract_safe (f : field) : bool :=
  match f_res f with
  | RNeg k => if (k =? 16) || (k =? 10) then false
              else if (k =? 9) || (k =? 12) then negb (f_signed f) else true
  | _ => true
  end.

Lemma number_kind D sp f sb eb sbit bits : 0 <= sb <= eb -> eb <= zlen D ->
  (forall p, extract_number f (window D sp) sb eb sbit bits <> Panic p) /\
  (f_signed f = false -> res_scales (f_res f) = false ->
     (exists e, extract_number f (window D sp) sb eb sbit bits = Err e) \/
     (exists x, extract_number f (window D sp) sb eb sbit bits = Ret (VUint64 x))).
Proof.
  intros H1 H2. unfold extract_number. rewrite sub_or_panic_in by lia.
  destruct (8 <? eb - sb); [split; [discriminate|eauto]|].
  destruct (negb _); [split; [discriminate|eauto]|].
  destruct (res_scales (f_res f)); [split; [discriminate|discriminate]|].
  destruct (f_signed f); [split; [discriminate|discriminate]|]. split; [discriminate|eauto].
Qed.

Ltac ifs := cbv beta zeta; repeat match goal with |- (if ?c then _ else _) <> _ => destruct c end; discriminate.
Lemma extract_no_panic pl D sp def dm f sb eb sbit bits p : 0 <= sb <= eb -> eb <= zlen D -> extract_safe f = true ->
  extract_field pl (window D sp) def dm f sb eb sbit bits <> Panic p.
Proof.
  intros H1 H2 S. unfold extract_safe in S. unfold extract_field.
  pose proof (number_kind D sp f sb eb sbit bits H1 H2) as [NP NK].
  destruct (f_res f) as [|k|n q] eqn:ER; [discriminate| |apply NP].
  destruct (Z.eqb_spec k 16) as [|N16]; [discriminate|]. destruct (Z.eqb_spec k 10) as [|N10]; [discriminate|]. cbn [orb] in S.
  destruct ((k =? 2) || (k =? 3)); [unfold extract_latlon; rewrite sub_or_panic_in by lia; ifs|].
  destruct (Z.eqb_spec k 4); [unfold extract_date; rewrite sub_or_panic_in by lia; ifs|].
  destruct (Z.eqb_spec k 5); [unfold extract_time; rewrite sub_or_panic_in by lia; ifs|].
  destruct (Z.eqb_spec k 6); [unfold extract_temperature; rewrite sub_or_panic_in by lia; ifs|].
  destruct (Z.eqb_spec k 7); [unfold extract_6bit; rewrite sub_or_panic_in by lia; discriminate|].
  destruct (Z.eqb_spec k 8); [apply NP|].
  destruct (Z.eqb_spec k 9) as [->|].
  { cbn [orb] in S. apply negb_true_iff in S. unfold extract_lookup.
    destruct (NK S) as [[e ->]|[x ->]]; [reflexivity| |destruct (f_units f)]; discriminate. }
  destruct (Z.eqb_spec k 12) as [->|].
  { cbn [orb] in S. apply negb_true_iff in S. unfold extract_manufacturer.
    destruct (NK S) as [[e ->]|[x ->]]; [reflexivity| |]; discriminate. }
  destruct (Z.eqb_spec k 15); [unfold extract_pressure; rewrite sub_or_panic_in by lia; ifs|].
  destruct (Z.eqb_spec k 13); [rewrite sub_or_panic_in by lia; discriminate|].
  destruct (Z.eqb_spec k 1).
  { unfold extract_string. change (s_len (window D sp)) with (zlen D). destruct (Z.leb_spec (zlen D) sb); [discriminate|].
    cbn [orb]. destruct (zlen D <=? eb); [discriminate|]. rewrite window_get by lia.
    destruct (zget D sb) as [b0|] eqn:E0; [|apply zget_none in E0; lia]. destruct (b0 =? 0); [discriminate|].
    destruct (scan_ret (Z.to_nat (eb - sb)) D sp sb) as [k' E]; [lia|lia|]. rewrite E.
    apply scan_range in E. rewrite sub_or_panic_in by lia. ifs. }
  rewrite sub_or_panic_in by lia. discriminate.
Qed.

(** Static conditions on the i-th .. j-th definitions under which choosing never panics. *)
Definition wants (f : field) : option bool :=
  match f_units f with
  | UStr EmptyString => None
  | UStr (String c _) => Some (Ascii.eqb c "="%char)
  | _ => Some false
  end.
Definition variant_safe (next : option pgn_def) (idx : Z) (f : field) : bool :=
  match wants f with
  | None => false
  | Some false => true
  | Some true =>
      match f_res f with RZero => false | r => negb (res_scales r) end && negb (f_signed f) && (f_size f <=? 64) &&
      match next with None => false | Some p => idx <? zlen (p_fields p) end
  end.
Fixpoint numbered (k : Z) (l : list field) : list (Z * field) :=
  match l with [] => [] | f :: r => (k, f) :: numbered (k + 1) r end.
Lemma numbered_in l : forall k idx f, zget l idx = Some f -> In (k + idx, f) (numbered k l).
Proof.
  induction l as [|x l IH]; intros k idx f H; [apply zget_some in H; change (zlen (@nil field)) with 0 in H; lia|].
  pose proof (zget_some _ _ _ H). cbn [numbered]. destruct (Z.eq_dec idx 0) as [->|N].
  - rewrite zget_cons_0 in H. injection H as ->. left. now rewrite Z.add_0_r.
  - right. replace (k + idx) with (k + 1 + (idx - 1)) by lia. apply IH.
    rewrite zget_cons_S in H by lia. exact H.
Qed.
Definition safe_at (t : list pgn_def) (i j k : Z) : bool :=
  match zget t k with
  | None => true
  | Some p => forallb extract_safe (p_fields p) &&
      ((i =? j) || (j <? k) || forallb (fun x => variant_safe (zget t (k + 1)) (fst x) (snd x)) (numbered 0 (p_fields p)))
  end.

Lemma safe_at_variant t i j k p idx f : safe_at t i j k = true -> i <> j -> k <= j ->
  zget t k = Some p -> zget (p_fields p) idx = Some f -> variant_safe (zget t (k + 1)) idx f = true.
Proof.
  unfold safe_at. intros H N K E F. rewrite E in H. apply andb_true_iff in H as [_ H].
  destruct (Z.eqb_spec i j); [contradiction|]. destruct (Z.ltb_spec j k); [lia|]. cbn [orb] in H.
  rewrite forallb_forall in H. apply (H (0 + idx, f)). now apply numbered_in.
Qed.
Lemma safe_at_extract t i j k p idx f : safe_at t i j k = true ->
  zget t k = Some p -> zget (p_fields p) idx = Some f -> extract_safe f = true.
Proof.
  unfold safe_at. intros H E F. rewrite E in H. apply andb_true_iff in H as [H _].
  rewrite forallb_forall in H. apply H. unfold zget in F. destruct (idx <? 0); [discriminate|]. eapply nth_error_In; eauto.
Qed.

Lemma variant_number D sp next idx f sb eb sbit bits : bytes_ok D -> 0 <= sb <= eb -> eb <= zlen D -> eb - sb <= 8 ->
  0 <= sbit -> 0 <= bits <= 64 -> variant_safe next idx f = true -> wants f = Some true ->
  exists x, extract_number f (window D sp) sb eb sbit bits = Ret (VUint64 x).
Proof.
  intros HD H1 H2 H3 H4 H5 V W. rewrite number_in by lia || auto. unfold variant_safe in V. rewrite W in V.
  apply andb_true_iff in V as [V _]. apply andb_true_iff in V as [V _]. apply andb_true_iff in V as [V1 V2].
  unfold num_gval. apply negb_true_iff in V2. rewrite V2.
  destruct (res_scales (f_res f)) eqn:RS; [|eauto]. exfalso. destruct (f_res f); [discriminate| |]; rewrite RS in V1; discriminate.
Qed.

Lemma choose_no_panic n : forall t D sp i0 j res sb eb sbit bits idx data i def f p,
  bytes_ok D -> 0 <= sb <= eb -> eb <= zlen D -> 0 <= sbit -> i0 <> j -> i + Z.of_nat n <= j + 1 ->
  (forall k, i <= k <= j -> safe_at t i0 j k = true) ->
  zget t i = Some def -> zget (p_fields def) idx = Some f ->
  (wants f = Some true -> eb - sb <= 8 /\ 0 <= bits <= 64 /\ (is_manufacturer res = true \/ exists x, data = VUint64 x)) ->
  choose n t (window D sp) res sb eb sbit bits idx data i def f <> Panic p.
Proof.
  induction n as [|n IH]; intros t D sp i0 j res sb eb sbit bits idx data i def f p HD H1 H2 H3 Nij Hn HS Hd Hf HW; [discriminate|].
  cbn [choose]. pose proof (HS i ltac:(lia)) as S0.
  pose proof (safe_at_variant _ _ _ _ _ _ _ S0 Nij ltac:(lia) Hd Hf) as V.
  assert (wants f <> Some true -> wants f = Some false) as W2.
  { unfold variant_safe in V. destruct (wants f) as [[|]|]; try discriminate; auto. congruence. }
  destruct (number_kind D sp f sb eb sbit bits H1 H2) as [NP _].
  destruct (f_units f) as [|[|c r]| | |] eqn:EU; try (
    destruct (is_manufacturer res); [|discriminate];
    destruct (extract_number f (window D sp) sb eb sbit bits) as [g|e|q] eqn:EN; [discriminate|discriminate|now elim (NP q)]).
  { exfalso. unfold variant_safe, wants in V. rewrite EU in V. discriminate. }
  assert (wants f = Some (Ascii.eqb c "="%char)) as W by (unfold wants; now rewrite EU).
  destruct (Ascii.eqb c "="%char) eqn:EC.
  2: { destruct (is_manufacturer res); [|discriminate].
       destruct (extract_number f (window D sp) sb eb sbit bits) as [g|e|q] eqn:EN; [discriminate|discriminate|now elim (NP q)]. }
  destruct (HW W) as [B1 [B2 B3]].
  destruct (variant_number D sp _ _ f sb eb sbit bits HD H1 H2 B1 H3 B2 V W) as [x EX].
  assert (exists y, (if is_manufacturer res
       then match extract_number f (window D sp) sb eb sbit bits with Err _ => Ret VNil | r0 => r0 end
       else Ret data) = Ret (VUint64 y)) as [y ->].
  { rewrite EX. destruct (is_manufacturer res); [eauto|]. destruct B3 as [B3|[y ->]]; [discriminate|eauto]. }
  destruct (_ =? _); [discriminate|].
  unfold variant_safe in V. rewrite W in V. apply andb_true_iff in V as [_ V].
  destruct (zget t (i + 1)) as [d1|] eqn:E1; [|discriminate].
  destruct (zget (p_fields d1) idx) as [f1|] eqn:E2; [|apply zget_none in E2; pose proof (zget_some _ _ _ Hf); lia].
  eapply IH; eauto; try lia.
  intros k Hk. apply HS. lia.
Qed.

(* ------------------------------------------------------------------ the loop *)
Section Loop.
Variables (pl : platform) (t : list pgn_def) (D : bytes) (i j : Z).
Hypothesis (T : table_ok t).
Let cand (k : Z) := i <= k <= Z.max i (if i =? j then i else j + 1).

Lemma wlen sp : s_len (window D sp) = zlen D. Proof. reflexivity. Qed.

(** Everything known about the field a state is about to decode. *)
Lemma field_range (s : pstate) f : reach t (zlen D) i j s -> zget (p_fields (ps_def s)) (ps_idx s) = Some f ->
  nbytes (zlen D) f + ps_byte s <= zlen D ->
  0 <= f_size f /\ 0 <= ps_byte s <= nbytes (zlen D) f + ps_byte s /\ 0 <= ps_bit s < 8 /\
  nbits (zlen D) f = width_in (zlen D) f /\ nbytes (zlen D) f = (width_in (zlen D) f + 7) / 8 /\ 0 <= width_in (zlen D) f.
Proof.
  intros R F _. destruct R as [R1 R2 R3 R4 R5 R6 R7].
  pose proof (table_ok_get _ _ _ T R2) as [_ Tsz]. pose proof (zget_Forall _ _ _ _ Tsz F) as Hsz. cbv beta in Hsz.
  pose proof (zlen_nonneg D) as ZD.
  pose proof (nbits_width (zlen D) f Hsz ZD) as [W1 [W2 [W3 [W4 W5]]]]. repeat split; auto; lia.
Qed.

Lemma step_no_panic sp s p : bytes_ok D -> reach t (zlen D) i j s ->
  (forall k, cand k -> safe_at t i j k = true) ->
  parse_step pl t (window D sp) j (i =? j) s <> SCrash p.
Proof.
  intros HD R HS E. pose proof (step_cases pl t (window D sp) j (i =? j) s) as V. rewrite E in V.
  pose proof (r_idx _ _ _ _ _ R) as RX. pose proof (r_i _ _ _ _ _ R) as RI. pose proof (r_def _ _ _ _ _ R) as RD.
  remember (SCrash p) as rr eqn:Er in V. rewrite <- (wlen sp) in R.
  destruct V as [Hx|q Hx|f F Hx|f q F B1 B2 EX|f e F B1 B2 EX|f v F B1 B2 EX EO|f v i' def' F B1 B2 EX EO EC|f v q F B1 B2 EX EO EC];
    try discriminate; rewrite ?wlen in *.
  - lia.
  - pose proof (field_range s f R F ltac:(lia)) as [A1 [A2 [A3 [A4 [A5 A6]]]]].
    unfold extract_at in *. rewrite wlen in *. revert EX. apply extract_no_panic; try lia.
    eapply safe_at_extract; eauto.
  - pose proof (field_range s f R F ltac:(lia)) as [A1 [A2 [A3 [A4 [A5 A6]]]]].
    destruct (Z.eqb_spec i j) as [|Nij]; [discriminate|]. unfold choose_at in *. rewrite wlen in *.
    destruct EC as [EC|EC]; [|now apply choose_no_err in EC].
    revert EC. destruct (Z_le_dec (ps_i s) j) as [C|C].
    2: { replace (Z.to_nat (j - ps_i s + 1)) with 0%nat by lia. discriminate. }
    assert (forall k, ps_i s <= k <= j -> safe_at t i j k = true) as HS'.
    { intros k Hk. apply HS. unfold cand. destruct (Z.eqb_spec i j); lia. }
    eapply choose_no_panic; eauto; try lia.
    intros W. pose proof (safe_at_variant _ _ _ _ _ _ _ (HS' (ps_i s) ltac:(lia)) Nij C RD F) as V.
    unfold variant_safe in V. rewrite W in V.
    apply andb_true_iff in V as [V _]. apply andb_true_iff in V as [V1 V2]. apply andb_true_iff in V1 as [V0 V1].
    assert (width_in (zlen D) f <= 64) by (unfold width_in; lia).
    assert (nbytes (zlen D) f <= 8) by (rewrite A5; dm).
    split; [lia|]. split; [lia|].
    unfold extract_at in EX. rewrite wlen in EX. unfold extract_field in EX.
    destruct (number_kind D sp f (ps_byte s) (nbytes (zlen D) f + ps_byte s) (ps_bit s) (nbits (zlen D) f)) as [_ NK]; [lia|lia|].
    apply negb_true_iff in V1. specialize (NK V1).
    destruct (f_res f) as [|k|n0 d0] eqn:ER; [discriminate| |].
    2: { right. apply negb_true_iff in V0. destruct (NK V0) as [[e EE]|[x EE]]; rewrite EE in EX; [discriminate|].
         injection EX as <-. eauto. }
    apply negb_true_iff in V0. cbn [res_scales] in V0. apply negb_false_iff in V0.
    destruct (Z.eqb_spec k 9) as [->|]; [|destruct (Z.eqb_spec k 12) as [->|]; [left; reflexivity|
      destruct (Z.eqb_spec k 8) as [->|]; [|discriminate]]].
    + right. cbn [Z.eqb Pos.eqb orb] in EX. unfold extract_lookup in EX.
      destruct (NK eq_refl) as [[e EE]|[x EE]]; rewrite EE in EX; [discriminate|].
      destruct (f_units f) eqn:EU; try (injection EX as <-; eauto).
      unfold wants in W. rewrite EU in W. discriminate.
    + right. cbn [Z.eqb Pos.eqb orb] in EX. destruct (NK eq_refl) as [[e EE]|[x EE]]; rewrite EE in EX; [discriminate|].
      injection EX as <-. eauto.
Qed.

Lemma loop_no_panic sp n : forall s p, bytes_ok D -> reach t (zlen D) i j s ->
  (forall k, cand k -> safe_at t i j k = true) ->
  parse_loop n pl t (window D sp) j (i =? j) s <> Some (Panic p).
Proof.
  induction n as [|n IH]; intros s p HD R HS; [discriminate|]. rewrite loop_unfold.
  destruct (parse_step pl t (window D sp) j (i =? j) s) as [s'|s'|q] eqn:E; [discriminate| |].
  - apply IH; auto. rewrite <- (wlen sp). eapply reach_step; eauto. rewrite wlen. apply zlen_nonneg.
  - now apply step_no_panic in E.
Qed.

(** Fields of the candidate definitions that read only their own bytes (or, for the two-level
    lookup, bytes inside the message). *)
Definition local_field (def : pgn_def) (f : field) : Prop :=
  f_res f <> RES_LOOKUP2 \/
  exists sb eb sbit bits, field_offsets def (f_offset f) = Ret (sb, eb, sbit, bits) /\ 0 <= sb <= eb /\ eb <= zlen D.

Lemma step_indep sp1 sp2 s : reach t (zlen D) i j s ->
  (forall k p, cand k -> zget t k = Some p -> Forall (local_field p) (p_fields p)) ->
  parse_step pl t (window D sp1) j (i =? j) s = parse_step pl t (window D sp2) j (i =? j) s.
Proof.
  intros R HS. unfold parse_step. rewrite !wlen.
  destruct (zlen (p_fields (ps_def s)) <=? ps_idx s); [reflexivity|].
  destruct (zget (p_fields (ps_def s)) (ps_idx s)) as [f|] eqn:F; [|reflexivity].
  fold (nbytes (zlen D) f). fold (nbits (zlen D) f).
  destruct (_ || _) eqn:EO; [reflexivity|]. apply orb_false_iff in EO as [EO1 EO2].
  pose proof (field_range s f R F ltac:(lia)) as [A1 [A2 [A3 [A4 [A5 A6]]]]].
  assert (extract_field pl (window D sp1) (ps_def s) (ps_data s) f (ps_byte s) (nbytes (zlen D) f + ps_byte s) (ps_bit s) (nbits (zlen D) f)
        = extract_field pl (window D sp2) (ps_def s) (ps_data s) f (ps_byte s) (nbytes (zlen D) f + ps_byte s) (ps_bit s) (nbits (zlen D) f)) as ->.
  { pose proof (HS _ _ (r_i _ _ _ _ _ R) (r_def _ _ _ _ _ R)) as L.
    pose proof (zget_Forall _ _ _ _ L F) as [C|[sb [eb [sbit [bits [C1 [C2 C3]]]]]]].
    - apply extract_indep; auto; lia.
    - eapply extract_indep2; eauto; lia. }
  destruct (extract_field _ _ _ _ _ _ _ _ _) as [v|e|p]; try reflexivity.
  destruct (i =? j); [reflexivity|]. rewrite (choose_indep _ t D sp1 sp2) by lia. reflexivity.
Qed.
Lemma loop_indep sp1 sp2 n : forall s, reach t (zlen D) i j s ->
  (forall k p, cand k -> zget t k = Some p -> Forall (local_field p) (p_fields p)) ->
  parse_loop n pl t (window D sp1) j (i =? j) s = parse_loop n pl t (window D sp2) j (i =? j) s.
Proof.
  induction n as [|n IH]; intros s R HS; [reflexivity|]. rewrite !loop_unfold. rewrite (step_indep sp1 sp2 s R HS).
  destruct (parse_step pl t (window D sp2) j (i =? j) s) as [s'|s'|q] eqn:E; [reflexivity| |reflexivity].
  apply IH; auto. rewrite <- (wlen sp2). eapply reach_step; eauto. rewrite wlen. apply zlen_nonneg.
Qed.
End Loop.
