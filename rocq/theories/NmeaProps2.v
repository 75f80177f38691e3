(** NmeaProps2: ParsePacket, FromCanBoat, MarshalJSON and Print (C39-C48). *)
From Coq Require Import Floats.SpecFloat FinFun.
From Verif Require Import GoBase BufFacts Strconv StrconvFacts CanModel NmeaTypes LookupTable PgnTable NmeaModel NmeaSpec
  NmeaExtract NmeaParse NmeaTerm NmeaSafe NmeaSingle NmeaProps1.
Open Scope Z_scope.
Open Scope list_scope.

(* ------------------------------------------------------------------ table checks *)
Definition table_okb (t : list pgn_def) : bool :=
  forallb (fun p => (0 <=? p_rep p) && (p_rep p <=? zlen (p_fields p)) && forallb (fun f => 0 <=? f_size f) (p_fields p)) t.
Lemma table_okb_ok t : table_okb t = true -> table_ok t.
Proof.
  unfold table_okb, table_ok. rewrite forallb_forall. intros H. apply Forall_forall. intros p I.
  specialize (H p I). apply andb_true_iff in H as [H1 H2]. rewrite forallb_forall in H2.
  split; [lia|]. apply Forall_forall. intros f J. specialize (H2 f J). lia.
Qed.
Lemma PgnList_ok : table_ok PgnList.
Proof. apply table_okb_ok. vm_compute. reflexivity. Qed.

Definition progress_okb (L : Z) (D : nat) (t : list pgn_def) : bool :=
  forallb (fun p => ((p_rep p <=? 0) || existsb (fun f => 0 <? f_size f) (group p)) &&
                    forallb (fun k => (lz (skipn k (p_fields p) ++ group p) <=? D)%nat) (seq 0 (S (List.length (p_fields p)))) &&
                    (zlen (p_fields p) <=? L)) t.
Lemma progress_okb_ok L D t : progress_okb L D t = true -> progress_ok L D t.
Proof.
  unfold progress_okb, progress_ok. rewrite forallb_forall. intros H. apply Forall_forall. intros p I.
  specialize (H p I). apply andb_true_iff in H as [H H3]. apply andb_true_iff in H as [H1 H2].
  split; [|split].
  - intros R. apply orb_true_iff in H1 as [H1|H1]; [lia|exact H1].
  - intros k. rewrite forallb_forall in H2. unfold dist.
    destruct (le_lt_dec (Z.to_nat k) (List.length (p_fields p))) as [C|C].
    + apply Nat.leb_le. apply H2. apply in_seq. lia.
    + rewrite skipn_all2 by lia. specialize (H2 (List.length (p_fields p))).
      rewrite skipn_all in H2. apply Nat.leb_le. apply H2. apply in_seq. lia.
  - lia.
Qed.
Lemma PgnList_progress : progress_ok 26 1 PgnList.
Proof. apply progress_okb_ok. vm_compute. reflexivity. Qed.

(** The definitions ParsePacket starts from. *)
Lemma packet_start t id : t <> [] -> exists i def j def', pgn_first t id = Ret (i, def) /\ pgn_last t id = Ret (j, def') /\
  zget t i = Some def /\ i <= j.
Proof.
  intros N. destruct (C28_total t id N) as [[i [def E1]] [j [def' E2]]]. exists i, def, j, def'.
  split; [exact E1|]. split; [exact E2|].
  destruct (C28_first _ _ _ _ E1) as [[[F1 F2] F3]|[F1 [-> F3]]].
  - split; [exact F1|]. destruct (C28_last _ _ _ _ E2) as [[L1 L2]|[L1 _]]; [eauto|]. elim (L1 i def). now split.
  - split; [exact F3|]. destruct (C28_last _ _ _ _ E2) as [[L1 L2]|[L1 [-> _]]]; [elim (F1 j def' L1)|]. lia.
Qed.
Lemma PgnList_nonempty : PgnList <> [].
Proof. discriminate. Qed.

Lemma packet_unfold fuel pl t m spare i def j def' : pgn_first t (rm_pgn m) = Ret (i, def) -> pgn_last t (rm_pgn m) = Ret (j, def') ->
  parse_packet fuel pl t m spare =
  match parse_loop fuel pl t (window (rm_data m) spare) j (i =? j) (mkps i def 0 0 0 0 i []) with
  | None => None
  | Some (Ret s) => Some (Ret (mkparsed m (ps_index s) (ps_data s)))
  | Some (Err e) => Some (Err e)
  | Some (Panic p) => Some (Panic p)
  end.
Proof. intros E1 E2. unfold parse_packet. rewrite E1, E2. reflexivity. Qed.

(* ------------------------------------------------------------------ C39 *)

(** C39: whatever the table and the message, if ParsePacket returns, the header is the message
    and the keys are 0, 1, ..., n-1. *)
Theorem C39_header_and_keys fuel pl t m spare r : parse_packet fuel pl t m spare = Some (Ret r) ->
  pm_header r = m /\ exists n, map fst (pm_data r) = map Z.of_nat (seq 0 n).
Proof.
  unfold parse_packet. intros H. destruct (pgn_first t (rm_pgn m)) as [[i def]| |]; try discriminate.
  destruct (pgn_last t (rm_pgn m)) as [[j x]| |]; try discriminate.
  destruct (parse_loop fuel pl t (msg_slice m spare) j (i =? j) (mkps i def 0 0 0 0 i [])) as [[s| |]|] eqn:E; try discriminate.
  injection H as <-. split; [reflexivity|].
  assert (keys_inv s) as [n [_ K]].
  { refine (proj1 (loop_inv keys_inv pl t _ j _ _ fuel _ _ _ E)).
    - intros s0 s1 I S. now apply keys_step in S.
    - exists 0%nat. split; reflexivity. }
  exists n. exact K.
Qed.

(* ------------------------------------------------------------------ C40 *)

(** C40, any table: repeating groups contain a field of positive size, fields of size 0 come in
    runs of at most D, definitions have at most L fields. *)
Theorem C40_any_table L D pl t m spare i def j def' : t <> [] -> table_ok t -> progress_ok L D t ->
  pgn_first t (rm_pgn m) = Ret (i, def) -> pgn_last t (rm_pgn m) = Ret (j, def') ->
  exists r, parse_packet (Z.to_nat ((8 * zlen (rm_data m) + 10 + (j - i)) * (Z.of_nat D + 1) + L + 1)) pl t m spare = Some r.
Proof.
  intros N T P E1 E2. rewrite (packet_unfold _ _ _ _ _ _ _ _ _ E1 E2).
  destruct (packet_start t (rm_pgn m) N) as [i0 [d0 [j0 [d1 [F1 [F2 [F3 F4]]]]]]].
  rewrite F1 in E1. injection E1 as -> ->. rewrite F2 in E2. injection E2 as -> ->.
  destruct (loop_total pl t (window (rm_data m) spare) i j L D T P (zlen_nonneg (rm_data m)) def
     (Z.to_nat ((8 * zlen (rm_data m) + 10 + (j - i)) * (Z.of_nat D + 1) + L + 1)) F3) as [r E].
  { change (s_len (window (rm_data m) spare)) with (zlen (rm_data m)). pose proof (zlen_nonneg (rm_data m)).
    pose proof (zget_Forall _ _ _ _ P F3) as [_ [_ B]]. pose proof (zlen_nonneg (p_fields def)).
    rewrite Z2Nat.id by nia. destruct (Z.eqb_spec i j); nia. }
  rewrite E. destruct r as [s|e|p]; eauto.
Qed.

Definition spread_ok (t : list pgn_def) : bool :=
  forallb (fun p => match pgn_first t (p_pgn p), pgn_last t (p_pgn p) with
                    | Ret (i, _), Ret (j, _) => j - i <=? 36 | _, _ => false end) t.
Lemma PgnList_spread : spread_ok PgnList = true.
Proof. vm_compute. reflexivity. Qed.
Lemma spread id i def j def' : pgn_first PgnList id = Ret (i, def) -> pgn_last PgnList id = Ret (j, def') -> j - i <= 36.
Proof.
  intros E1 E2. destruct (C28_first _ _ _ _ E1) as [[[F1 F2] F3]|[F1 [-> F3]]].
  - pose proof PgnList_spread as S. unfold spread_ok in S. rewrite forallb_forall in S.
    assert (In def PgnList) as I by (unfold zget in F1; destruct (i <? 0); [discriminate|]; eapply nth_error_In; eauto).
    specialize (S def I). rewrite F2, E1, E2 in S. lia.
  - destruct (C28_last _ _ _ _ E2) as [[L1 L2]|[L1 [-> _]]]; [elim (F1 j def' L1)|lia].
Qed.

(** C40: with the shipped table ParsePacket ends after at most 16 steps per data byte plus a
    constant, on every message. *)
Theorem C40_terminates pl m spare :
  exists r, parse_packet (Z.to_nat (16 * zlen (rm_data m) + 119)) pl PgnList m spare = Some r.
Proof.
  destruct (packet_start PgnList (rm_pgn m) PgnList_nonempty) as [i [def [j [def' [E1 [E2 [E3 E4]]]]]]].
  destruct (C40_any_table 26 1 pl PgnList m spare i def j def' PgnList_nonempty PgnList_ok PgnList_progress E1 E2) as [r E].
  exists r. pose proof (spread _ _ _ _ _ E1 E2). pose proof (zlen_nonneg (rm_data m)).
  rewrite (packet_unfold _ _ _ _ _ _ _ _ _ E1 E2) in E.
  destruct (parse_loop _ pl PgnList _ j (i =? j) _) as [x|] eqn:EL; [|discriminate].
  rewrite (packet_unfold _ _ _ _ _ _ _ _ _ E1 E2).
  erewrite loop_more; [exact E| |exact EL]. lia.
Qed.
(** More steps than needed change nothing, so "the" result is well defined. *)
Theorem C40_result_unique fuel fuel' pl t m spare r r' :
  parse_packet fuel pl t m spare = Some r -> parse_packet fuel' pl t m spare = Some r' -> r = r'.
Proof.
  unfold parse_packet. destruct (pgn_first t (rm_pgn m)) as [[i def]| |]; [|congruence|congruence].
  destruct (pgn_last t (rm_pgn m)) as [[j x]| |]; [|congruence|congruence]. intros H H'.
  destruct (parse_loop fuel pl t (msg_slice m spare) j (i =? j) (mkps i def 0 0 0 0 i [])) as [y|] eqn:E; [|discriminate].
  destruct (parse_loop fuel' pl t (msg_slice m spare) j (i =? j) (mkps i def 0 0 0 0 i [])) as [y'|] eqn:E'; [|discriminate].
  assert (y = y') as <-.
  { destruct (le_ge_dec fuel fuel') as [C|C].
    - apply (loop_more _ fuel') in E; [congruence|lia].
    - apply (loop_more _ fuel) in E'; [congruence|lia]. }
  destruct y; congruence.
Qed.

(* ------------------------------------------------------------------ C41 *)
Lemma single_start t id i def : single t id i def -> t <> [] /\ pgn_first t id = Ret (i, def) /\ pgn_last t id = Ret (i, def).
Proof.
  intros [S1 S2]. assert (t <> []) as N.
  { intros ->. destruct S1 as [S1 _]. apply zget_some in S1. change (zlen (@nil pgn_def)) with 0 in S1. lia. }
  split; [exact N|]. destruct (packet_start t id N) as [i0 [d0 [j0 [d1 [F1 [F2 _]]]]]]. rewrite F1, F2.
  destruct (C28_first _ _ _ _ F1) as [[[G1 G2] _]|[G _]]; [|now elim (G i def)].
  destruct (C28_last _ _ _ _ F2) as [[[H1 H2] _]|[G _]]; [|now elim (G i def)].
  assert (i0 = i) as -> by (apply (S2 i0 d0); now split). assert (j0 = i) as -> by (apply (S2 j0 d1); now split).
  destruct S1 as [S1 _]. split; congruence.
Qed.

Lemma absent_first t id : no_def t id -> t <> [] -> exists p0, zget t 0 = Some p0 /\ pgn_first t id = Ret (0, p0) /\ pgn_last t id = Ret (0, p0).
Proof.
  intros ND N. destruct (packet_start t id N) as [i [def [j [def' [E1 [E2 [E3 E4]]]]]]].
  destruct (C28_first _ _ _ _ E1) as [[F _]|[_ [-> F]]]; [now elim (ND i def)|].
  destruct (C28_last _ _ _ _ E2) as [[G _]|[_ [-> G]]]; [now elim (ND j def')|].
  exists def. rewrite F in G. injection G as <-. auto.
Qed.
Lemma only_start t id i def : only t id i def -> zget t i = Some def /\ pgn_first t id = Ret (i, def) /\ pgn_last t id = Ret (i, def).
Proof.
  intros [S|(N & -> & Z0)].
  - destruct (single_start _ _ _ _ S) as (_ & E). split; [apply S|exact E].
  - destruct (absent_first t id N) as (p0 & G1 & G2 & G3); [intros ->; discriminate|]. assert (p0 = def) as -> by congruence. auto.
Qed.
Lemma fields_run fuel pl t m spare i def r :
  table_ok t -> only t (rm_pgn m) i def -> parse_packet fuel pl t m spare = Some (Ret r) ->
  pm_index r = i /\
  (forall k, (k < List.length (pm_data r))%nat ->
     fits def (zlen (rm_data m)) k /\ stored_at pl (window (rm_data m) spare) def (pm_data r) k) /\
  ~ fits def (zlen (rm_data m)) (List.length (pm_data r)).
Proof.
  intros T S H. destruct (only_start _ _ _ _ S) as [Z0 [E1 E2]]. rewrite (packet_unfold _ _ _ _ _ _ _ _ _ E1 E2) in H.
  rewrite Z.eqb_refl in H. destruct (parse_loop _ _ _ _ _ _ _) as [[s| |]|] eqn:E; try discriminate. injection H as <-.
  cbn [pm_index pm_data].
  destruct (single_loop pl t (window (rm_data m) spare) i def T Z0 (zlen_nonneg (rm_data m)) fuel _ 0%nat _
     (sinv_init pl t (window (rm_data m) spare) i def T Z0 (zlen_nonneg (rm_data m))) E) as [k' [I NF]].
  rewrite (sinv_len _ _ _ _ _ _ _ I). split; [|split].
  - rewrite (r_index _ _ _ _ _ (s_reach _ _ _ _ _ _ _ I)). pose proof (r_i _ _ _ _ _ (s_reach _ _ _ _ _ _ _ I)) as R.
    rewrite Z.eqb_refl in R. lia.
  - intros k Hk. exact (s_vals _ _ _ _ _ _ _ I k Hk).
  - exact NF.
Qed.

(** C41: for a PGN with one definition (or none), the result holds exactly the fields that fit, in order,
    the k-th being field k of the definition with its group unrolled, decoded at the sum of the
    preceding widths ([stored]: extract_field there, nil on a decode error). *)
Theorem C41_fields fuel pl t m spare i def r :
  table_ok t -> only t (rm_pgn m) i def -> parse_packet fuel pl t m spare = Some (Ret r) ->
  pm_index r = i /\
  (forall k, (k < List.length (pm_data r))%nat ->
     fits def (zlen (rm_data m)) k /\
     exists f, nth_field def (Z.of_nat k) = Some f /\
       nth_error (pm_data r) k =
         Some (Z.of_nat k, stored pl (window (rm_data m) spare) def (firstn k (pm_data r)) f
                                  (start_of def (zlen (rm_data m)) k))) /\
  ~ fits def (zlen (rm_data m)) (List.length (pm_data r)).
Proof.
  intros T S H. destruct (fields_run _ _ _ _ _ _ _ _ T S H) as (A & B & C). split; [exact A|]. split; [|exact C].
  intros k Hk. destruct (B k Hk) as (B1 & f & B2 & B3 & _). split; [exact B1|]. exists f. auto.
Qed.

(** C29/C41: as long as no field is larger than the whole message, the position of field k of the
    definition is the one FieldOffsets gives. *)
Theorem C41_position def len k f : (k < List.length (p_fields def))%nat -> zget (p_fields def) (Z.of_nat k) = Some f ->
  Forall (fun g => 0 <= f_size g <= 8 * len) (p_fields def) ->
  let s := start_of def len k in
  s = total_bits (firstn k (p_fields def)) /\
  field_offsets def (Z.of_nat k) = Ret (s / 8, s / 8 + (width_in len f + 7) / 8, s mod 8, width_in len f).
Proof.
  intros Hk Hf HA s.
  assert (s = total_bits (firstn k (p_fields def))) as E.
  { unfold s. clear s Hf. induction k as [|k IH]; [reflexivity|]. cbn [start_of]. rewrite IH by lia.
    unfold nth_field. destruct (Z.ltb_spec (Z.of_nat k) (zlen (p_fields def))); [|unfold zlen in *; lia].
    destruct (zget (p_fields def) (Z.of_nat k)) as [g|] eqn:G; [|apply zget_none in G; unfold zlen in *; lia].
    pose proof (zget_Forall _ _ _ _ HA G) as B. cbv beta in B. unfold width_in. rewrite Z.min_l by lia.
    clear - G. unfold zget in G. destruct (Z.of_nat k <? 0); [discriminate|]. rewrite Nat2Z.id in G.
    revert G. generalize (p_fields def) as l. induction k as [|k IH]; intros l G.
    - destruct l; [discriminate|]. injection G as ->. cbn [firstn total_bits fold_right]. lia.
    - destruct l as [|x l]; [discriminate|]. cbn [nth_error] in G. specialize (IH l G).
      change (firstn (S (S k)) (x :: l)) with (x :: firstn (S k) l).
      change (firstn (S k) (x :: l)) with (x :: firstn k l).
      unfold total_bits in *. cbn [fold_right]. lia. }
  split; [exact E|]. unfold field_offsets. rewrite Hf, Nat2Z.id.
  pose proof (zget_Forall _ _ _ _ HA Hf) as B. cbv beta in B.
  assert (width_in len f = f_size f) as -> by (unfold width_in; lia).
  assert (forall l, sum_sizes l = total_bits l) as ST by (induction l as [|x l IH]; cbn [sum_sizes]; [reflexivity|rewrite IH; reflexivity]).
  rewrite ST, <- E. rewrite (Z.min_r ((f_size f + 7) / 8 * 8)) by dm. reflexivity.
Qed.

(** C41, whole integers: an unsigned integer, unscaled number field of at most 64 bits that does
    not straddle its bytes holds exactly its bits of the message. *)
Theorem C41_unsigned fuel pl t m spare i def r k f :
  table_ok t -> only t (rm_pgn m) i def -> bytes_ok (rm_data m) -> parse_packet fuel pl t m spare = Some (Ret r) ->
  (k < List.length (pm_data r))%nat -> nth_field def (Z.of_nat k) = Some f ->
  (f_res f = RES_INTEGER \/ exists n, f_res f = RPos n n) -> f_signed f = false ->
  let s := start_of def (zlen (rm_data m)) k in let w := width_in (zlen (rm_data m)) f in
  w <= 64 -> s mod 8 + w <= 8 * ((w + 7) / 8) ->
  nth_error (pm_data r) k = Some (Z.of_nat k, VUint64 (bits (le_value (rm_data m)) s w)).
Proof.
  intros T S HB H Hk NF R SG s w Hw Hstr. destruct (C41_fields _ _ _ _ _ _ _ _ T S H) as [_ [A _]].
  destruct (A k Hk) as [[g [G1 [_ G2]]] [f' [F1 F2]]]. rewrite NF in F1, G1. injection F1 as <-. injection G1 as <-.
  rewrite F2. f_equal. f_equal. fold s. fold w in G2. fold s in G2.
  assert (0 <= f_size f) as Hsz.
  { destruct (only_start _ _ _ _ S) as [S' _]. pose proof (table_ok_get _ _ _ T S') as [_ Tsz].
    unfold nth_field in NF. repeat destruct (_ <? _) in NF; try discriminate; exact (zget_Forall _ _ _ _ Tsz NF). }
  pose proof (zlen_nonneg (rm_data m)).
  assert (0 <= w) as W0 by (unfold w, width_in; lia).
  assert (0 <= s) as S0.
  { unfold s. destruct (only_start _ _ _ _ S) as [S' _]. pose proof (table_ok_get _ _ _ T S') as [_ Tsz]. clear - Tsz H0.
    induction k as [|k IH]; cbn [start_of]; [lia|]. destruct (nth_field def (Z.of_nat k)) as [g|] eqn:G; [|lia].
    assert (0 <= f_size g).
    { unfold nth_field in G. repeat destruct (_ <? _) in G; try discriminate; exact (zget_Forall _ _ _ _ Tsz G). }
    unfold width_in. lia. }
  unfold stored. change (s_len (window (rm_data m) spare)) with (zlen (rm_data m)). fold w. cbv zeta.
  assert (extract_field pl (window (rm_data m) spare) def (firstn k (pm_data r)) f (s / 8) (s / 8 + (w + 7) / 8) (s mod 8) w
          = extract_number f (window (rm_data m) spare) (s / 8) (s / 8 + (w + 7) / 8) (s mod 8) w) as ->.
  { unfold extract_field. destruct R as [->|[n ->]]; reflexivity. }
  assert (res_scales (f_res f) = false) as RS.
  { destruct R as [->|[n ->]]; [reflexivity|]. cbn. now rewrite Pos.eqb_refl. }
  assert (0 <= s mod 8 < 8) by (apply Z.mod_pos_bound; lia).
  rewrite number_in; auto; try lia; try dm.
  unfold num_gval. rewrite RS, SG. f_equal. rewrite bits_of_part; auto; try lia; try dm.
  f_equal; [dm|]. dm.
Qed.

(* ------------------------------------------------------------------ C42 *)
Lemma dec_value_fold s a : fold_left (fun a c => 10 * a + (c - 48)) s a = pos_value 10 (map (fun c => c - 48) s) a.
Proof.
  revert a. induction s as [|c s IH]; intros a; [reflexivity|]. cbn [fold_left map pos_value].
  rewrite IH. unfold pos_value. cbn [fold_left]. f_equal. lia.
Qed.
Lemma decimal_parse s v : decimal s v -> v < 2 ^ 64 -> pu_value (parse_uint 10 64 s) = v.
Proof.
  intros [N [F ->]] B. rewrite dec_value_fold in *. fold (dec_value s) in *.
  rewrite parse_uint_dec; auto. lia.
Qed.
Definition decimalb (s : bytes) : bool :=
  match s with [] => false | _ => true end && forallb (fun c => (48 <=? c) && (c <=? 57)) s &&
  (fold_left (fun a c => 10 * a + (c - 48)) s 0 <? 2 ^ 64).
Definition units_ok (f : field) : bool :=
  match f_units f with
  | UStr EmptyString => false
  | UStr (String c r) => if Ascii.eqb c "="%char then decimalb (str r) else true
  | _ => true
  end.
(** Every requirement in the shipped table is "=" followed by a decimal number. *)
Lemma PgnList_units : forallb (fun p => forallb units_ok (p_fields p)) PgnList = true.
Proof. vm_compute. reflexivity. Qed.
Lemma asks_intro k p idx f r : zget PgnList k = Some p -> zget (p_fields p) idx = Some f ->
  f_units f = UStr (String "="%char r) -> asks f (pu_value (parse_uint 10 64 (str r))).
Proof.
  intros H1 H2 H3. pose proof PgnList_units as U. rewrite forallb_forall in U.
  assert (In p PgnList) as I by (unfold zget in H1; destruct (k <? 0); [discriminate|]; eapply nth_error_In; eauto).
  specialize (U p I). rewrite forallb_forall in U.
  assert (In f (p_fields p)) as J by (unfold zget in H2; destruct (idx <? 0); [discriminate|]; eapply nth_error_In; eauto).
  specialize (U f J). unfold units_ok in U. rewrite H3 in U. cbn [Ascii.eqb Bool.eqb] in U.
  unfold decimalb in U. apply andb_true_iff in U as [U U3]. apply andb_true_iff in U as [U1 U2].
  exists r. split; [exact H3|].
  assert (decimal (str r) (fold_left (fun a c => 10 * a + (c - 48)) (str r) 0)) as D.
  { split; [destruct (str r); discriminate|]. split; [|reflexivity]. apply Forall_forall. intros c C.
    rewrite forallb_forall in U2. specialize (U2 c C). lia. }
  rewrite (decimal_parse _ _ D) by lia. exact D.
Qed.

Lemma number_same f g d a b o w x y : extract_number f d a b o w = Ret (VUint64 x) -> extract_number g d a b o w = Ret (VUint64 y) -> x = y.
Proof.
  unfold extract_number, sub_or_panic. destruct (s_sub d a b) as [s|]; [|discriminate].
  destruct (8 <? b - a); [discriminate|]. destruct (negb _); [discriminate|].
  destruct (res_scales (f_res f)); [discriminate|]. destruct (res_scales (f_res g)); [discriminate|].
  destruct (f_signed f); [repeat destruct (_ <=? _); discriminate|]. destruct (f_signed g); [repeat destruct (_ <=? _); discriminate|].
  intros H1 H2. congruence.
Qed.
Lemma name_or_stands x : 0 <= x < 2 ^ 63 -> stands_for lookupCompanyCode (name_or x (lk_name lookupCompanyCode (i64 x))) x.
Proof.
  intros B. unfold i64. rewrite sx_small by (lia || exact B).
  unfold name_or. destruct (lk_name lookupCompanyCode x) as [|c s] eqn:E; [now left|]. right.
  exists (String c s). split; [|reflexivity]. split; [|discriminate]. revert E. generalize lookupCompanyCode as l.
  induction l as [|[a n] l IH]; intros E; [discriminate|]. cbn [lk_name] in E. destruct (Z.eqb_spec a x) as [->|N].
  - left. now rewrite E.
  - right. now apply IH.
Qed.

(** A definition has been passed: it asks for N in some field, and the message holds another
    number x there (key q of the result). *)
Definition passed (t : list pgn_def) (data : dmap) (k : Z) : Prop :=
  exists p idx f N q v x, zget t k = Some p /\ zget (p_fields p) idx = Some f /\ asks f N /\
    In (q, v) data /\ stands_for lookupCompanyCode v x /\ x <> N.

Definition manufacturer_small (t : list pgn_def) : bool :=
  forallb (fun p => forallb (fun f => negb (is_manufacturer (f_res f)) || (f_size f <=? 62)) (p_fields p)) t.
Lemma PgnList_manufacturer : manufacturer_small PgnList = true.
Proof. vm_compute. reflexivity. Qed.

Lemma PgnList_field (P : field -> bool) k p idx f : forallb (fun p => forallb P (p_fields p)) PgnList = true ->
  zget PgnList k = Some p -> zget (p_fields p) idx = Some f -> P f = true.
Proof.
  intros H H1 H2. rewrite forallb_forall in H.
  assert (In p PgnList) as I by (unfold zget in H1; destruct (k <? 0); [discriminate|]; eapply nth_error_In; eauto).
  specialize (H p I). rewrite forallb_forall in H. apply H.
  unfold zget in H2. destruct (idx <? 0); [discriminate|]. eapply nth_error_In; eauto.
Qed.

(** What a manufacturer field decodes to, next to its raw number. *)
Lemma manufacturer_value pl D sp i j s f v x fk : bytes_ok D -> reach PgnList (zlen D) i j s ->
  zget (p_fields (ps_def s)) (ps_idx s) = Some f -> nbytes (zlen D) f + ps_byte s <= zlen D ->
  is_manufacturer (f_res f) = true -> extract_at pl (window D sp) s f = Ret v ->
  extract_number fk (window D sp) (ps_byte s) (nbytes (zlen D) f + ps_byte s) (ps_bit s) (nbits (zlen D) f) = Ret (VUint64 x) ->
  stands_for lookupCompanyCode v x.
Proof.
  intros HD R F B M E EX.
  pose proof (field_range PgnList D i j PgnList_ok s f R F B) as [A1 [A2 [A3 [A4 [A5 A6]]]]].
  pose proof (PgnList_field _ _ _ _ _ PgnList_manufacturer (r_def _ _ _ _ _ R) F) as SM. cbv beta in SM.
  rewrite M in SM. cbn [negb orb] in SM.
  unfold extract_at in E. change (s_len (window D sp)) with (zlen D) in E.
  unfold is_manufacturer in M. unfold extract_field in E. destruct (f_res f) as [|k|] eqn:ER; try discriminate.
  assert (k = 12) as -> by lia. cbn [Z.eqb Pos.eqb orb] in E. unfold extract_manufacturer in E.
  destruct (extract_number f (window D sp) (ps_byte s) (nbytes (zlen D) f + ps_byte s) (ps_bit s) (nbits (zlen D) f)) as [g|e|p] eqn:EN; try discriminate.
  destruct g as [|y| | | | | | | | | |]; try discriminate. injection E as <-.
  pose proof (number_same _ _ _ _ _ _ _ _ _ EN EX) as ->. apply name_or_stands.
  assert (width_in (zlen D) f <= 62) by (unfold width_in; lia).
  assert (nbytes (zlen D) f <= 8) by (rewrite A5; dm).
  rewrite number_in in EN by (auto; lia). unfold num_gval in EN. destruct (res_scales (f_res f)); [discriminate|].
  destruct (f_signed f); [repeat destruct (_ <=? _); discriminate|]. injection EN as <-.
  unfold bits. pose proof (Z.mod_pos_bound (le_value (zsub D (ps_byte s) (nbytes (zlen D) f + ps_byte s)) / 2 ^ ps_bit s) (2 ^ nbits (zlen D) f)) as MB.
  assert (0 < 2 ^ nbits (zlen D) f) by (apply Z.pow_pos_nonneg; lia).
  assert (2 ^ nbits (zlen D) f <= 2 ^ 63) by (apply Z.pow_le_mono_r; lia). lia.
Qed.

Lemma passed_step pl D sp i j s s' : bytes_ok D -> reach PgnList (zlen D) i j s -> i <> j ->
  parse_step pl PgnList (window D sp) j (i =? j) s = SNext s' ->
  (forall k, i <= k < ps_i s -> passed PgnList (ps_data s) k) ->
  (forall k, i <= k < ps_i s' -> passed PgnList (ps_data s') k).
Proof.
  intros HD R Nij E IH k Hk.
  destruct (keys_step _ _ _ _ _ _ _ (r_keys _ _ _ _ _ R) E) as [_ [v0 ED]].
  pose proof (r_def _ _ _ _ _ R) as RD.
  destruct (Z_lt_dec k (ps_i s)) as [C|C].
  { destruct (IH k ltac:(lia)) as [p [idx [f [N [q [v [x [G1 [G2 [G3 [G4 G5]]]]]]]]]]].
    exists p, idx, f, N, q, v, x. repeat split; auto; try tauto. rewrite ED. apply in_or_app. now left. }
  apply step_next in E as [f [v [i' [def' [ix' [F [Hb [Hn [E' V]]]]]]]]].
  change (s_len (window D sp)) with (zlen D) in *.
  assert (ps_i s' = i') as I' by (subst s'; reflexivity).
  destruct (extract_at pl (window D sp) s f) as [x0|e|p] eqn:EX; [|destruct V as [_ [-> _]]; lia|destruct V].
  destruct V as [-> V]. destruct (Z.eqb_spec i j) as [|_]; [contradiction|]. destruct V as [V _].
  unfold choose_at in V. change (s_len (window D sp)) with (zlen D) in V.
  pose proof (choose_spec _ _ _ _ _ _ _ _ _ _ _ _ _ _ _ V RD F) as [G1 [G2 [G3 G4]]].
  destruct (G4 k ltac:(lia)) as [dk [fk [r [x [K1 [K2 [K3 [K4 K5]]]]]]]].
  exists dk, (ps_idx s), fk, (pu_value (parse_uint 10 64 (str r))), (ps_odx s), x0, x.
  split; [exact K1|]. split; [exact K2|]. split; [eapply asks_intro; eauto|]. split.
  { subst s'. cbn [advance mid ps_data]. destruct (r_keys _ _ _ _ _ R) as [n [O1 O2]]. rewrite O1, (dm_put_seq _ n _ O2).
    apply in_or_app. right. now left. }
  split; [|congruence].
  destruct (is_manufacturer (f_res f)) eqn:M; [|left; exact K5].
  eapply manufacturer_value; eauto.
Qed.

(** C42: the reported index lies between First and one past Last, and every definition before it
    was passed because the message holds another number than it asks for. *)
Theorem C42_choice fuel pl m spare i def j def' r : bytes_ok (rm_data m) ->
  pgn_first PgnList (rm_pgn m) = Ret (i, def) -> pgn_last PgnList (rm_pgn m) = Ret (j, def') -> i <> j ->
  parse_packet fuel pl PgnList m spare = Some (Ret r) ->
  i <= pm_index r <= j + 1 /\ (exists p, zget PgnList (pm_index r) = Some p) /\
  forall k, i <= k < pm_index r -> passed PgnList (pm_data r) k.
Proof.
  intros HB E1 E2 N H. rewrite (packet_unfold _ _ _ _ _ _ _ _ _ E1 E2) in H.
  destruct (packet_start PgnList (rm_pgn m) PgnList_nonempty) as [i0 [d0 [j0 [d1 [F1 [F2 [F3 F4]]]]]]].
  rewrite E1 in F1. injection F1 as <- <-. rewrite E2 in F2. injection F2 as <- <-.
  destruct (parse_loop _ _ _ _ _ _ _) as [[s| |]|] eqn:E; try discriminate. injection H as <-. cbn [pm_index pm_data].
  set (P := fun s => reach PgnList (zlen (rm_data m)) i j s /\ (forall k, i <= k < ps_i s -> passed PgnList (ps_data s) k)).
  assert (P s) as [R1 R2].
  { refine (proj1 (loop_inv P pl PgnList _ j _ _ fuel _ _ _ E)).
    - intros s0 s1 [A B] S. split.
      + change (zlen (rm_data m)) with (s_len (window (rm_data m) spare)). eapply reach_step; eauto using PgnList_ok. apply zlen_nonneg.
      + eapply passed_step; eauto.
    - split; [apply reach_init; [apply zlen_nonneg|exact F3]|]. cbn [ps_i]. intros k Hk. lia. }
  rewrite (r_index _ _ _ _ _ R1). pose proof (r_i _ _ _ _ _ R1) as RI. destruct (Z.eqb_spec i j); [contradiction|].
  split; [lia|]. split; [|exact R2]. exists (ps_def s). apply (r_def _ _ _ _ _ R1).
Qed.

(** While the definition does not change, decoding is that of a single definition. *)
Lemma loop_mono pl t d i j : table_ok t -> 0 <= s_len d -> forall n s s',
  reach t (s_len d) i j s -> parse_loop n pl t d j (i =? j) s = Some (Ret s') -> ps_i s <= ps_i s'.
Proof.
  intros T HL. induction n as [|n IH]; intros s s' R E; [discriminate|]. rewrite loop_unfold in E.
  destruct (parse_step pl t d j (i =? j) s) as [s1|s1|p] eqn:ES; [| |discriminate].
  - injection E as ->. pose proof (step_cases pl t d j (i =? j) s) as V. rewrite ES in V. inversion V; subst; lia.
  - pose proof (reach_step _ _ _ _ _ _ _ T HL R ES) as R1. specialize (IH _ _ R1 E).
    apply step_next in ES as [f [v [i' [def' [ix' [F [_ [_ [-> V]]]]]]]]].
    cbn [advance mid ps_i] in IH. destruct (extract_at pl d s f) as [x|e|p]; [|destruct V as [_ [-> _]]; lia|destruct V].
    destruct V as [_ V]. destruct (i =? j); [destruct V as [-> _]; lia|]. destruct V as [V _].
    pose proof (choose_spec _ _ _ _ _ _ _ _ _ _ _ _ _ _ _ V (r_def _ _ _ _ _ R) F). lia.
Qed.

(** The requirements met so far: every decoded field of definition i asking for N holds N. *)
Definition met (def : pgn_def) (data : dmap) (k : nat) : Prop :=
  forall f N, nth_field def (Z.of_nat k) = Some f -> asks f N ->
    exists v, nth_error data k = Some (Z.of_nat k, v) /\ (v = VNil \/ stands_for lookupCompanyCode v N).

Lemma choose_stays n t d res sb eb sbit bits idx data i def f def' :
  choose (S n) t d res sb eb sbit bits idx data i def f = Ret (i, def') ->
  def' = def /\ forall r, f_units f = UStr (String "="%char r) ->
    (if is_manufacturer res then extract_number f d sb eb sbit bits else Ret data) = Ret (VUint64 (pu_value (parse_uint 10 64 (str r)))).
Proof.
  cbn [choose]. intros H.
  destruct (if is_manufacturer res then _ else Ret data) as [data1|e|p] eqn:E1; try discriminate.
  destruct (f_units f) as [|[|c r]| | |] eqn:EU; try discriminate; try (injection H as ->; split; [reflexivity|discriminate]).
  destruct (Ascii.eqb c "="%char) eqn:EC.
  2: { injection H as ->. split; [reflexivity|]. intros r' E'. injection E' as -> ->. discriminate. }
  destruct data1 as [|x| | | | | | | | | |]; try discriminate.
  destruct (Z.eqb_spec (pu_value (parse_uint 10 64 (str r))) x) as [EX|EX].
  - injection H as ->. split; [reflexivity|]. intros r' E'. injection E' as -> <-. rewrite EX.
    destruct (is_manufacturer res); [|exact E1]. destruct (extract_number f d sb eb sbit bits); try discriminate; auto.
  - exfalso. destruct (zget t (i + 1)) as [d1|] eqn:E2; [|discriminate].
    destruct (zget (p_fields d1) idx) as [f1|] eqn:E3; [|discriminate].
    pose proof (choose_spec _ _ _ _ _ _ _ _ _ _ _ _ _ _ _ H E2 E3) as [B _]. lia.
Qed.

Lemma stop_any pl t d j one j' one' s : parse_step pl t d j one s = SStop s -> parse_step pl t d j' one' s = SStop s.
Proof.
  unfold parse_step. destruct (_ <=? _); [auto|]. destruct (zget _ _) as [f|]; [|discriminate].
  destruct (_ || _); [auto|]. destruct (extract_field _ _ _ _ _ _ _ _ _) as [v|e|q]; try discriminate.
  destruct one; [discriminate|]. destruct (choose _ _ _ _ _ _ _ _ _ _ _ _ _) as [[a b]|e|q]; discriminate.
Qed.
Lemma first_loop pl D sp i j def : bytes_ok D -> i <> j -> i <= j -> zget PgnList i = Some def -> forall fuel s k s',
  sinv pl PgnList (window D sp) i def s k -> (forall k', (k' < k)%nat -> met def (ps_data s) k') ->
  parse_loop fuel pl PgnList (window D sp) j (i =? j) s = Some (Ret s') -> ps_i s' = i ->
  exists k', sinv pl PgnList (window D sp) i def s' k' /\ ~ fits def (zlen D) k' /\
    forall k'', (k'' < k')%nat -> met def (ps_data s') k''.
Proof.
  intros HB Nij Lij HD. pose proof (zlen_nonneg D) as ZL. change (zlen D) with (s_len (window D sp)) in ZL.
  induction fuel as [|n IH]; intros s k s' SI M E ES'; [discriminate|]. rewrite loop_unfold in E.
  assert (reach PgnList (zlen D) i j s /\ ps_i s = i) as [R RI].
  { destruct (s_reach _ _ _ _ _ _ _ SI) as [A1 A2 A3 A4 A5 A6 A7]. rewrite Z.eqb_refl in A1.
    split; [|lia]. constructor; auto. destruct (i =? j); lia. }
  destruct (parse_step pl PgnList (window D sp) j (i =? j) s) as [s1|s1|p] eqn:ES; [| |discriminate].
  - injection E as ->. assert (s' = s) as ->.
    { pose proof (step_cases pl PgnList (window D sp) j (i =? j) s) as V. rewrite ES in V. inversion V; auto. }
    exists k. split; [exact SI|]. split; [|exact M].
    apply (sinv_stop pl PgnList (window D sp) i def PgnList_ok HD ZL s k SI).
    eapply stop_any; exact ES.
  - pose proof (reach_step _ _ (window D sp) _ _ _ _ PgnList_ok ZL R ES) as R1.
    pose proof (loop_mono _ _ _ _ _ PgnList_ok ZL _ _ _ R1 E) as MO. rewrite ES' in MO.
    assert (ps_i s1 = i) as I1 by (pose proof (r_i _ _ _ _ _ R1); lia).
    pose proof ES as ES0. apply step_next in ES0 as [f [v [i' [def' [ix' [F [Hb [Hn [E' V]]]]]]]]].
    assert (i' = i) as -> by (subst s1; exact I1).
    assert (parse_step pl PgnList (window D sp) i true s = SNext s1 /\
            (extract_at pl (window D sp) s f = Ret v ->
             forall r, f_units f = UStr (String "="%char r) ->
             stands_for lookupCompanyCode v (pu_value (parse_uint 10 64 (str r)))) /\
            ((exists e, extract_at pl (window D sp) s f = Err e) -> v = VNil)) as [ST [AV AE]].
    { unfold parse_step. destruct (Z.leb_spec (zlen (p_fields (ps_def s))) (ps_idx s)) as [C|C];
        [pose proof (zget_some _ _ _ F); lia|]. rewrite F.
      fold (nbytes (s_len (window D sp)) f). fold (nbits (s_len (window D sp)) f).
      destruct (Z.ltb_spec (s_len (window D sp)) (ps_byte s)); [lia|].
      destruct (Z.ltb_spec (s_len (window D sp)) (nbytes (s_len (window D sp)) f + ps_byte s)); [lia|]. cbn [orb].
      fold (extract_at pl (window D sp) s f). destruct (extract_at pl (window D sp) s f) as [x|e|p] eqn:EX; [| |destruct V].
      - destruct V as [-> V]. destruct (Z.eqb_spec i j) as [|_]; [contradiction|]. destruct V as [V EI].
        unfold choose_at in V. rewrite RI in V. replace (Z.to_nat (j - i + 1)) with (S (Z.to_nat (j - i))) in V by lia.
        apply choose_stays in V as [-> V]. split; [|split].
        + subst s1. f_equal. unfold mid. rewrite RI. rewrite EI. rewrite (r_index _ _ _ _ _ R), RI. reflexivity.
        + intros _ r UE. specialize (V r UE). destruct (is_manufacturer (f_res f)) eqn:MF.
          * exact (manufacturer_value pl D sp i j s f x _ f HB R F Hn MF EX V).
          * left. now injection V as ->.
        + intros [e EE]. discriminate.
      - destruct V as [V1 [V2 [V3 V4]]]. split; [|split; [discriminate|auto]].
        rewrite E', V1, V2, V3, V4. reflexivity. }
    pose proof (sinv_step pl PgnList (window D sp) i def PgnList_ok HD ZL s k s1 SI ST) as SI1.
    apply (IH s1 (S k) s'); auto.
    assert (ps_data s1 = ps_data s ++ [(Z.of_nat k, v)]) as ED.
    { subst s1. cbn [advance mid ps_data]. rewrite (s_odx _ _ _ _ _ _ _ SI). apply dm_put_seq. apply (s_keys _ _ _ _ _ _ _ SI). }
    pose proof (sinv_len _ _ _ _ _ _ _ SI) as LN.
    intros k' Hk'. destruct (Nat.eq_dec k' k) as [->|N].
    + intros g N NF A. exists v. rewrite ED, nth_error_app2 by lia. rewrite LN, Nat.sub_diag. split; [reflexivity|].
      rewrite (s_def _ _ _ _ _ _ _ SI) in F. rewrite (sinv_field pl PgnList (window D sp) i def s k f SI F) in NF.
      injection NF as <-. destruct A as [r [UE DC]].
      destruct (extract_at pl (window D sp) s f) as [x|e|p] eqn:EX; [|left; apply AE; eauto|destruct V].
      destruct V as [-> _]. right. specialize (AV eq_refl r UE).
      pose proof (asks_intro _ _ _ _ _ HD F UE) as [r2 [UE2 DC2]]. rewrite UE in UE2. injection UE2 as <-.
      destruct DC as [_ [_ ->]]. destruct DC2 as [_ [_ D2]]. now rewrite D2 in AV.
    + intros g N' NF A. destruct (M k' ltac:(lia) g N' NF A) as [w [W1 W2]]. exists w. split; [|exact W2].
      rewrite ED, nth_error_app1 by lia. exact W1.
Qed.

(** C42: when the first definition is reported, the whole message was decoded with it (as in
    C41) and every number it asks for and that could be decoded is there. *)
Theorem C42_first_definition fuel pl m spare i def j def' r : bytes_ok (rm_data m) ->
  pgn_first PgnList (rm_pgn m) = Ret (i, def) -> pgn_last PgnList (rm_pgn m) = Ret (j, def') -> i <> j ->
  parse_packet fuel pl PgnList m spare = Some (Ret r) -> pm_index r = i ->
  (forall k, (k < List.length (pm_data r))%nat ->
     fits def (zlen (rm_data m)) k /\ met def (pm_data r) k /\
     exists f, nth_field def (Z.of_nat k) = Some f /\
       nth_error (pm_data r) k =
         Some (Z.of_nat k, stored pl (window (rm_data m) spare) def (firstn k (pm_data r)) f
                                  (start_of def (zlen (rm_data m)) k))) /\
  ~ fits def (zlen (rm_data m)) (List.length (pm_data r)).
Proof.
  intros HB E1 E2 N H HI. rewrite (packet_unfold _ _ _ _ _ _ _ _ _ E1 E2) in H.
  destruct (packet_start PgnList (rm_pgn m) PgnList_nonempty) as [i0 [d0 [j0 [d1 [F1 [F2 [F3 F4]]]]]]].
  rewrite E1 in F1. injection F1 as <- <-. rewrite E2 in F2. injection F2 as <- <-.
  destruct (parse_loop _ _ _ _ _ _ _) as [[s| |]|] eqn:E; try discriminate. injection H as <-. cbn [pm_index pm_data] in *.
  pose proof (zlen_nonneg (rm_data m)) as ZL.
  assert (ps_i s = i) as IS.
  { rewrite <- HI. assert (reach PgnList (zlen (rm_data m)) i j s) as R; [|symmetry; apply (r_index _ _ _ _ _ R)].
    refine (proj1 (loop_inv (reach PgnList (zlen (rm_data m)) i j) pl PgnList _ j _ _ fuel _ _ _ E)).
    - intros s0 s1 A S. change (zlen (rm_data m)) with (s_len (window (rm_data m) spare)). eapply reach_step; eauto using PgnList_ok.
    - apply reach_init; auto. }
  destruct (first_loop pl (rm_data m) spare i j def HB N F4 F3 fuel _ 0%nat s
    (sinv_init pl PgnList (window (rm_data m) spare) i def PgnList_ok F3 ZL)) as [k' [SI [NF M]]]; auto.
  { intros k' Hk'. lia. }
  rewrite (sinv_len _ _ _ _ _ _ _ SI). split; [|exact NF].
  intros k Hk. destruct (s_vals _ _ _ _ _ _ _ SI k Hk) as [A (f & B1 & B2 & _)]. split; [exact A|]. split; [now apply M|]. exists f. auto.
Qed.

(** A definition that asks for nothing is never passed. *)
Theorem C42_never_passes fuel pl m spare i def j def' r k p : bytes_ok (rm_data m) ->
  pgn_first PgnList (rm_pgn m) = Ret (i, def) -> pgn_last PgnList (rm_pgn m) = Ret (j, def') -> i <> j ->
  parse_packet fuel pl PgnList m spare = Some (Ret r) ->
  i <= k -> zget PgnList k = Some p -> (forall idx f N, zget (p_fields p) idx = Some f -> ~ asks f N) ->
  pm_index r <= k.
Proof.
  intros HB E1 E2 N H Hk Hp HN. destruct (C42_choice _ _ _ _ _ _ _ _ _ HB E1 E2 N H) as [_ [_ P]].
  destruct (Z_le_dec (pm_index r) k) as [C|C]; [exact C|]. exfalso.
  destruct (P k ltac:(lia)) as [p' [idx [f [N' [q [v [x [G1 [G2 [G3 _]]]]]]]]]]. rewrite Hp in G1. injection G1 as <-.
  exact (HN idx f N' G2 G3).
Qed.

Definition asks_nothing (p : pgn_def) : bool :=
  forallb (fun f => match f_units f with UStr (String c _) => negb (Ascii.eqb c "="%char) | _ => true end) (p_fields p).
Lemma asks_nothing_ok p : asks_nothing p = true -> forall idx f N, zget (p_fields p) idx = Some f -> ~ asks f N.
Proof.
  intros H idx f N F [r [U _]]. unfold asks_nothing in H. rewrite forallb_forall in H.
  assert (In f (p_fields p)) as J by (unfold zget in F; destruct (idx <? 0); [discriminate|]; eapply nth_error_In; eauto).
  specialize (H f J). rewrite U in H. discriminate.
Qed.
(** Companion: the first of the twelve definitions of PGN 126720 asks for nothing, so the other
    eleven (Raymarine's) are never used. *)
Theorem C42_first_always_126720_refuted fuel pl m spare r : bytes_ok (rm_data m) -> rm_pgn m = 126720 ->
  parse_packet fuel pl PgnList m spare = Some (Ret r) -> pm_index r = 58.
Proof.
  intros HB E H.
  assert (pgn_first PgnList 126720 = Ret (58, pgn_058)) as E1 by (vm_compute; reflexivity).
  assert (pgn_last PgnList 126720 = Ret (69, pgn_069)) as E2 by (vm_compute; reflexivity).
  rewrite <- E in E1, E2.
  destruct (C42_choice _ _ _ _ _ _ _ _ _ HB E1 E2 ltac:(lia) H) as [B _].
  assert (pm_index r <= 58); [|lia].
  eapply C42_never_passes; eauto; try lia; [vm_compute; reflexivity|]. apply asks_nothing_ok. vm_compute. reflexivity.
Qed.

Definition pl0 : platform := mkplatform 0 (fun _ => 0) (fun _ => 0).
Definition msg (id : Z) (d : bytes) : raw_message := mkraw 3 id 1 255 (zlen d) d.
Definition bytesb (d : bytes) : bool := forallb (fun b => (0 <=? b) && (b <? 256)) d.
Lemma bytesb_ok d : bytesb d = true -> bytes_ok d.
Proof. unfold bytesb. rewrite forallb_forall. intros H. apply Forall_forall. intros b I. specialize (H b I). unfold is_byte. lia. Qed.
(** Index and number of fields of the result. *)
Definition outline (o : option (outcome parsed)) : option (Z * Z) :=
  match o with Some (Ret r) => Some (pm_index r, zlen (pm_data r)) | _ => None end.
Lemma outline_some o k n : outline o = Some (k, n) -> exists r, o = Some (Ret r) /\ pm_index r = k /\ zlen (pm_data r) = n.
Proof. destruct o as [[r| |]|]; try discriminate. intros H. injection H as <- <-. eauto. Qed.

(** Companion: the choice can run past Last onto the next PGN's definition.  A SonicHub
    message (130816) of an unknown company is decoded as PGN 130817. *)
Theorem C42_runs_past_refuted : exists m r p,
  rm_pgn m = 130816 /\ bytes_ok (rm_data m) /\ parse_packet 1000 pl0 PgnList m [] = Some (Ret r) /\
  zget PgnList (pm_index r) = Some p /\ p_pgn p <> rm_pgn m.
Proof.
  exists (msg 130816 (repeat 1 12)).
  destruct (outline_some (parse_packet 1000 pl0 PgnList (msg 130816 (repeat 1 12)) []) 199 8) as [r [E [I _]]]; [vm_compute; reflexivity|].
  exists r, pgn_199. split; [reflexivity|]. split; [apply bytesb_ok; reflexivity|]. split; [exact E|].
  rewrite I. split; [vm_compute; reflexivity|]. vm_compute. discriminate.
Qed.
(** Companion: what was decoded before the definition changed is not rechecked.  A message of
    company 1 is reported as entry 182, which asks for company 275. *)
Theorem C42_not_rechecked_refuted : exists m r p f,
  rm_pgn m = 130816 /\ bytes_ok (rm_data m) /\ bits (le_value (rm_data m)) 0 11 = 1 /\
  parse_packet 1000 pl0 PgnList m [] = Some (Ret r) /\
  zget PgnList (pm_index r) = Some p /\ p_pgn p = 130816 /\ zget (p_fields p) 0 = Some f /\ f_size f = 11 /\ asks f 275.
Proof.
  exists (msg 130816 [1; 0; 0; 5; 0; 0]).
  destruct (outline_some (parse_packet 1000 pl0 PgnList (msg 130816 [1; 0; 0; 5; 0; 0]) []) 182 7) as [r [E [I _]]]; [vm_compute; reflexivity|].
  destruct (zget (p_fields pgn_182) 0) as [f|] eqn:F; [|vm_compute in F; discriminate].
  exists r, pgn_182, f. split; [reflexivity|]. split; [apply bytesb_ok; reflexivity|]. split; [vm_compute; reflexivity|].
  split; [exact E|]. rewrite I. split; [vm_compute; reflexivity|]. split; [reflexivity|]. split; [exact F|].
  vm_compute in F. injection F as <-. split; [reflexivity|]. exists "275"%string. split; [reflexivity|].
  split; [discriminate|]. split; [|reflexivity]. cbn. repeat constructor; lia.
Qed.
(** Example: a Fusion (company 419) message with id 4 is reported as entry 205, which asks for
    these two numbers. *)
Example C42_example :
  outline (parse_packet 1000 pl0 PgnList (msg 130820 [163; 153; 4; 128; 1; 2; 3; 4; 5; 6]) []) = Some (205, 5).
Proof. vm_compute. reflexivity. Qed.

(* ------------------------------------------------------------------ C43 *)
Definition candidates (i j : Z) : list Z :=
  map (fun n => i + Z.of_nat n) (seq 0 (Z.to_nat (j - i + (if i =? j then 1 else 2)))).
Definition pgn_safe (t : list pgn_def) (id : Z) : bool :=
  match pgn_first t id, pgn_last t id with
  | Ret (i, _), Ret (j, _) => forallb (safe_at t i j) (candidates i j)
  | _, _ => false
  end.
Lemma pgn_safe_sound fuel pl t m spare p : t <> [] -> table_ok t -> bytes_ok (rm_data m) -> pgn_safe t (rm_pgn m) = true ->
  parse_packet fuel pl t m spare <> Some (Panic p).
Proof.
  intros N T HB S. unfold pgn_safe in S.
  destruct (packet_start t (rm_pgn m) N) as [i [def [j [def' [E1 [E2 [E3 E4]]]]]]].
  rewrite (packet_unfold _ _ _ _ _ _ _ _ _ E1 E2). rewrite E1, E2 in S. rewrite forallb_forall in S.
  destruct (parse_loop fuel pl t (window (rm_data m) spare) j (i =? j) (mkps i def 0 0 0 0 i [])) as [[s|e|q]|] eqn:E; try discriminate.
  exfalso. revert E. apply loop_no_panic; auto.
  - apply reach_init; [apply zlen_nonneg|exact E3].
  - intros k Hk. apply S. unfold candidates. apply in_map_iff. exists (Z.to_nat (k - i)). split; [destruct (Z.eqb_spec i j); lia|].
    apply in_seq. destruct (Z.eqb_spec i j); lia.
Qed.

(** The PGNs of the shipped table with which a message can crash the decoder. *)
Definition crashing_pgns : list Z := [60928; 130816; 130820; 130842; 130847; 262211; 262212; 262213].

Lemma PgnList_safe : forallb (fun p => existsb (Z.eqb (p_pgn p)) crashing_pgns || pgn_safe PgnList (p_pgn p)) PgnList = true.
Proof. vm_compute. reflexivity. Qed.
Lemma safe_id id : ~ In id crashing_pgns -> pgn_safe PgnList id = true.
Proof.
  intros N. destruct (packet_start PgnList id PgnList_nonempty) as [i [def [j [def' [E1 [E2 [E3 E4]]]]]]].
  destruct (C28_first _ _ _ _ E1) as [[[F1 F2] _]|[F _]].
  - pose proof PgnList_safe as S. rewrite forallb_forall in S.
    assert (In def PgnList) as I by (unfold zget in F1; destruct (i <? 0); [discriminate|]; eapply nth_error_In; eauto).
    specialize (S def I). rewrite F2 in S. apply orb_true_iff in S as [S|S]; [|exact S].
    elim N. apply existsb_exists in S as [x [X1 X2]]. assert (id = x) as -> by lia. exact X1.
  - destruct (absent_first PgnList id F PgnList_nonempty) as [p0 [G1 [G2 G3]]]. unfold pgn_safe. rewrite G2, G3.
    vm_compute. reflexivity.
Qed.

(** C43: messages of every other PGN, known or not, never crash the decoder, whatever their data,
    their length and the memory behind them. *)
Theorem C43_no_panic fuel pl m spare p : bytes_ok (rm_data m) -> ~ In (rm_pgn m) crashing_pgns ->
  parse_packet fuel pl PgnList m spare <> Some (Panic p).
Proof. intros HB N. apply pgn_safe_sound; auto using PgnList_nonempty, PgnList_ok, safe_id. Qed.

(** C43: for each of the eight PGNs some message of at most 40 bytes does crash it. *)
Definition crash_data (id : Z) : bytes :=
  if id =? 60928 then repeat 0 6
  else if id =? 130816 then [19; 153; 0; 8; 0; 0; 0] ++ repeat 255 33
  else if id =? 130820 then [163; 153; 2] ++ repeat 255 37
  else repeat 255 40.
Definition panics (o : option (outcome parsed)) : bool := match o with Some (Panic _) => true | _ => false end.
Theorem C43_crashes id pl : In id crashing_pgns ->
  exists m p, rm_pgn m = id /\ bytes_ok (rm_data m) /\ zlen (rm_data m) <= 40 /\ parse_packet 1000 pl PgnList m [] = Some (Panic p).
Proof.
  intros H. exists (msg id (crash_data id)).
  assert (panics (parse_packet 1000 pl PgnList (msg id (crash_data id)) []) = true) as P.
  { destruct pl as [tz u n]. unfold crashing_pgns in H. cbn [In] in H.
    repeat (destruct H as [<-|H]; [vm_compute; reflexivity|]). destruct H. }
  destruct (parse_packet 1000 pl PgnList (msg id (crash_data id)) []) as [[r|e|p]|]; try discriminate. exists p.
  split; [reflexivity|]. cbn [msg rm_data].
  assert (bytesb (crash_data id) = true /\ zlen (crash_data id) <= 40) as [B L].
  { unfold crashing_pgns in H. cbn [In] in H. repeat (destruct H as [<-|H]; [split; vm_compute; [reflexivity|discriminate]|]). destruct H. }
  split; [now apply bytesb_ok|]. split; [exact L|reflexivity].
Qed.

(* ------------------------------------------------------------------ C44 *)
Lemma local_mono D D' def f : zlen D <= zlen D' -> local_field D def f -> local_field D' def f.
Proof.
  intros L [H|[sb [eb [sbit [bits [H1 [H2 H3]]]]]]]; [now left|right]. exists sb, eb, sbit, bits. repeat split; auto; lia.
Qed.
Definition localb (n : Z) (def : pgn_def) (f : field) : bool :=
  match f_res f with
  | RNeg k => negb (k =? 10) || match field_offsets def (f_offset f) with Ret (sb, eb, _, _) => (0 <=? sb) && (sb <=? eb) && (eb <=? n) | _ => false end
  | _ => true
  end.
Lemma localb_ok D n def f : localb n def f = true -> n <= zlen D -> local_field D def f.
Proof.
  unfold localb, local_field, RES_LOOKUP2. intros H L. destruct (f_res f) as [|k0|n0 d0]; [left; discriminate| |left; discriminate].
  destruct (Z.eqb_spec k0 10) as [E|E]; [|left; intros C; injection C; exact E]. right. cbn [negb orb] in H.
  destruct (field_offsets def (f_offset f)) as [[[[sb eb] sbit] bits]| |]; try discriminate.
  exists sb, eb, sbit, bits. repeat split; lia.
Qed.
Definition pgn_local (n : Z) (t : list pgn_def) (id : Z) : bool :=
  match pgn_first t id, pgn_last t id with
  | Ret (i, _), Ret (j, _) =>
      forallb (fun k => match zget t k with Some p => forallb (localb n p) (p_fields p) | None => true end) (candidates i j)
  | _, _ => false
  end.
Lemma pgn_local_sound n fuel pl t m spare spare' : t <> [] -> table_ok t -> pgn_local n t (rm_pgn m) = true -> n <= zlen (rm_data m) ->
  parse_packet fuel pl t m spare = parse_packet fuel pl t m spare'.
Proof.
  intros N T S L. unfold pgn_local in S.
  destruct (packet_start t (rm_pgn m) N) as [i [def [j [def' [E1 [E2 [E3 E4]]]]]]].
  rewrite !(packet_unfold _ _ _ _ _ _ _ _ _ E1 E2). rewrite E1, E2 in S. rewrite forallb_forall in S.
  rewrite (loop_indep pl t (rm_data m) i j T spare spare'); [reflexivity| |].
  - apply reach_init; [apply zlen_nonneg|exact E3].
  - intros k p Hk Hp. assert (In k (candidates i j)) as I.
    { unfold candidates. apply in_map_iff. exists (Z.to_nat (k - i)). split; [destruct (Z.eqb_spec i j); lia|].
      apply in_seq. destruct (Z.eqb_spec i j); lia. }
    specialize (S k I). rewrite Hp in S. rewrite forallb_forall in S. apply Forall_forall. intros f J.
    eapply localb_ok; eauto.
Qed.
Lemma PgnList_local : forallb (fun p => if p_pgn p =? 60928 then pgn_local 7 PgnList 60928 else pgn_local 0 PgnList (p_pgn p)) PgnList = true.
Proof. vm_compute. reflexivity. Qed.
Lemma PgnList_local0 : match zget PgnList 0 with Some p => forallb (localb 0 p) (p_fields p) | None => false end = true.
Proof. vm_compute. reflexivity. Qed.

(** C44: the result (value, error or crash) depends only on the message, not on the memory behind
    it, for every PGN but 60928, and for that one too when the message has at least 7 bytes. *)
Theorem C44_only_the_message fuel pl m spare spare' : (rm_pgn m = 60928 -> 7 <= zlen (rm_data m)) ->
  parse_packet fuel pl PgnList m spare = parse_packet fuel pl PgnList m spare'.
Proof.
  intros H. pose proof (zlen_nonneg (rm_data m)) as ZL.
  destruct (packet_start PgnList (rm_pgn m) PgnList_nonempty) as [i [def [j [def' [E1 [E2 [E3 E4]]]]]]].
  destruct (C28_first _ _ _ _ E1) as [[[F1 F2] _]|[F _]].
  - pose proof PgnList_local as S. rewrite forallb_forall in S.
    assert (In def PgnList) as I by (unfold zget in F1; destruct (i <? 0); [discriminate|]; eapply nth_error_In; eauto).
    specialize (S def I). rewrite F2 in S. destruct (Z.eqb_spec (rm_pgn m) 60928) as [E|E].
    + apply (pgn_local_sound 7); auto using PgnList_nonempty, PgnList_ok. now rewrite E.
    + apply (pgn_local_sound 0); auto using PgnList_nonempty, PgnList_ok.
  - destruct (absent_first PgnList (rm_pgn m) F PgnList_nonempty) as [p0 [G1 [G2 G3]]].
    apply (pgn_local_sound 0); auto using PgnList_nonempty, PgnList_ok. unfold pgn_local. rewrite G2, G3.
    change (candidates 0 0) with [0]. cbn [forallb]. rewrite G1. pose proof PgnList_local0 as L. rewrite G1 in L. rewrite L. reflexivity.
Qed.
(** Companion: a 6-byte address claim is decoded with the byte behind it in memory. *)
Theorem C44_address_claim_refuted : exists m spare spare',
  rm_pgn m = 60928 /\ bytes_ok (rm_data m) /\
  parse_packet 1000 pl0 PgnList m spare <> parse_packet 1000 pl0 PgnList m spare'.
Proof.
  exists (msg 60928 (repeat 0 6)), [], [0]. split; [reflexivity|]. split; [apply bytesb_ok; reflexivity|].
  intros E. assert (panics (parse_packet 1000 pl0 PgnList (msg 60928 (repeat 0 6)) []) = panics (parse_packet 1000 pl0 PgnList (msg 60928 (repeat 0 6)) [0])) as Q by now rewrite E.
  vm_compute in Q. discriminate.
Qed.

(* ------------------------------------------------------------------ C45 *)

(** C45: the definition of the message's own PGN, whatever is asked for. *)
Theorem C45_ignores_argument t m x y : get_pgn_definition t m x = get_pgn_definition t m y /\
  (forall p, get_pgn_definition t m x = Ret p -> (exists k, is_first t (rm_pgn m) k p) \/ (no_def t (rm_pgn m) /\ zget t 0 = Some p)).
Proof.
  split; [reflexivity|]. intros p. unfold get_pgn_definition. destruct (pgn_first t (rm_pgn m)) as [[k q]| |] eqn:E; try discriminate.
  intros H. injection H as ->. destruct (C28_first _ _ _ _ E) as [F|[F1 [_ F2]]]; eauto.
Qed.
Example C45_example : get_pgn_definition PgnList (msg 129026 []) 127250 = Ret pgn_106.
Proof. vm_compute. reflexivity. Qed.

(* ------------------------------------------------------------------ C46 *)
Lemma dm_put_in m k v k' v' : NoDup (map fst m) ->
  In (k', v') (dm_put m k v) <-> (k' = k /\ v' = v) \/ (k' <> k /\ In (k', v') m).
Proof.
  induction m as [|[a x] m IH]; intros N.
  - cbn. split; [intros [H|[]]; injection H as <- <-; now left|intros [[-> ->]|[_ []]]; now left].
  - cbn [map fst] in N. apply NoDup_cons_iff in N as [N1 N2]. cbn [dm_put]. destruct (Z.eqb_spec a k) as [->|C].
    + cbn [In]. split.
      * intros [H|H]; [injection H as <- <-; now left|]. right. split; [|now right].
        intros ->. apply N1. change k with (fst (k, v')). now apply in_map.
      * intros [[-> ->]|[H1 [H2|H2]]]; [now left|injection H2 as -> ->; congruence|now right].
    + cbn [In]. rewrite (IH N2). split.
      * intros [H|[H|[H1 H2]]]; [injection H as <- <-; right; split; [exact C|now left]|now left|right; split; [exact H1|now right]].
      * intros [H|[H1 [H2|H2]]]; [right; now left|left; exact H2|right; right; now split].
Qed.
Lemma dm_put_nodup m k v : NoDup (map fst m) -> NoDup (map fst (dm_put m k v)).
Proof.
  induction m as [|[a x] m IH]; intros N; [repeat constructor; auto|].
  cbn [map fst] in N. apply NoDup_cons_iff in N as [N1 N2]. cbn [dm_put]. destruct (Z.eqb_spec a k) as [->|C].
  - cbn [map fst]. now apply NoDup_cons.
  - cbn [map fst]. apply NoDup_cons; [|now apply IH]. intros I. apply in_map_iff in I as [[k' v'] [E I]]. cbn in E. subst k'.
    apply dm_put_in in I as [[-> _]|[_ I]]; [congruence| |exact N2]. apply N1. change a with (fst (a, v')). now apply in_map.
Qed.
Lemma import_in fs : forall kk k v dd, NoDup (map fst dd) ->
  NoDup (map fst (import_field fs kk k v dd)) /\
  forall q w, In (q, w) (import_field fs kk k v dd) <->
    ((exists f, zget fs (q - kk) = Some f /\ str (f_name f) = k) /\ w = v) \/
    (~ (exists f, zget fs (q - kk) = Some f /\ str (f_name f) = k) /\ In (q, w) dd).
Proof.
  induction fs as [|g fs IH]; intros kk k v dd N; cbn [import_field].
  - split; [exact N|]. intros q w. split.
    + intros H. right. split; [|exact H]. intros [f [E _]]. apply zget_some in E. change (zlen (@nil field)) with 0 in E. lia.
    + intros [[[f [E _]] _]|[_ H]]; [|exact H]. apply zget_some in E. change (zlen (@nil field)) with 0 in E. lia.
  - assert (forall q f, zget (g :: fs) (q - kk) = Some f <-> (q = kk /\ f = g) \/ (q <> kk /\ zget fs (q - (kk + 1)) = Some f)) as ZG.
    { intros q f. destruct (Z.eq_dec q kk) as [->|C].
      - rewrite Z.sub_diag, zget_cons_0. split; [intros E; injection E as ->; now left|intros [[_ ->]|[C _]]; [reflexivity|congruence]].
      - destruct (Z_lt_dec q kk) as [D|D].
        + split; [intros E; apply zget_some in E; lia|]. intros [[-> _]|[_ E]]; [congruence|]. apply zget_some in E. lia.
        + rewrite zget_cons_S by lia. replace (q - kk - 1) with (q - (kk + 1)) by lia.
          split; [intros E; right; now split|intros [[-> _]|[_ E]]; [congruence|exact E]]. }
    destruct (bytes_eqb (str (f_name g)) k) eqn:EB.
    + apply bytes_eqb_eq in EB. destruct (IH (kk + 1) k v (dm_put dd kk v) (dm_put_nodup _ _ _ N)) as [I1 I2].
      split; [exact I1|]. intros q w. rewrite I2. rewrite (dm_put_in dd kk v q w N).
      assert ((exists f, zget (g :: fs) (q - kk) = Some f /\ str (f_name f) = k) <->
              q = kk \/ (exists f, zget fs (q - (kk + 1)) = Some f /\ str (f_name f) = k)) as ZE.
      { split.
        - intros [f [E F]]. apply ZG in E as [[E _]|[_ E]]; [now left|right; eauto].
        - intros [->|[f [E F]]]; [exists g; split; [apply ZG; now left|exact EB]|].
          exists f. split; [|exact F]. apply ZG. right. split; [|exact E]. intros ->. apply zget_some in E. lia. }
      rewrite ZE.
      destruct (Z.eq_dec q kk) as [->|C].
      * assert (~ (exists f, zget fs (kk - (kk + 1)) = Some f /\ str (f_name f) = k)) as NE.
        { intros [f [E _]]. apply zget_some in E. lia. }
        split; [intros [[[f [E _]] _]|[_ [[_ ->]|[C _]]]]; [apply zget_some in E; lia|left; auto|congruence]|].
        intros [[_ ->]|[C _]]; [right; split; [exact NE|left; auto]|elim C; now left].
      * split.
        -- intros [[H ->]|[H1 [[-> _]|[_ H2]]]]; [left; auto|congruence|right; split; [|exact H2]]. intros [H|H]; contradiction.
        -- intros [[[H|H] ->]|[H1 H2]]; [contradiction|left; auto|right; split; [|right; auto]]. intros H. apply H1. now right.
    + destruct (IH (kk + 1) k v dd N) as [I1 I2]. split; [exact I1|]. intros q w. rewrite I2.
      assert ((exists f, zget (g :: fs) (q - kk) = Some f /\ str (f_name f) = k) <->
              (exists f, zget fs (q - (kk + 1)) = Some f /\ str (f_name f) = k)) as ->; [|reflexivity].
      split.
      * intros [f [E F]]. apply ZG in E as [[_ ->]|[_ E]]; [|eauto]. exfalso. rewrite F in EB.
        assert (bytes_eqb k k = true) by now apply bytes_eqb_eq. congruence.
      * intros [f [E F]]. exists f. split; [|exact F]. apply ZG. right. split; [|exact E]. intros ->. apply zget_some in E. lia.
Qed.

Lemma import_all fs l : forall dd, NoDup (map fst l) -> NoDup (map fst dd) ->
  (forall q w f, In (q, w) dd -> zget fs q = Some f -> ~ In (str (f_name f)) (map fst l)) ->
  let dd' := fold_left (fun dd kv => import_field fs 0 (fst kv) (snd kv) dd) l dd in
  NoDup (map fst dd') /\
  forall q w, In (q, w) dd' <-> (exists f, zget fs q = Some f /\ In (str (f_name f), w) l) \/ In (q, w) dd.
Proof.
  induction l as [|[k v] l IH]; intros dd NL ND HD; cbn [fold_left fst snd].
  - split; [exact ND|]. intros q w. split; [now right|intros [[f [_ []]]|H]; exact H].
  - cbn [map fst] in NL. apply NoDup_cons_iff in NL as [NL1 NL2].
    destruct (import_in fs 0 k v dd ND) as [I1 I2].
    destruct (IH (import_field fs 0 k v dd) NL2 I1) as [J1 J2].
    { intros q w f H Hf. apply I2 in H as [[[g [G1 G2]] _]|[_ H]].
      - rewrite Z.sub_0_r, Hf in G1. injection G1 as <-. rewrite G2. exact NL1.
      - intros C. apply (HD q w f H Hf). now right. }
    split; [exact J1|]. intros q w. rewrite J2, I2. rewrite Z.sub_0_r. cbn [In]. split.
    + intros [[f [F1 F2]]|[[[f [F1 F2]] ->]|[_ H]]]; [left; eauto|left; exists f; split; [exact F1|left; congruence]|now right].
    + intros [[f [F1 [F2|F2]]]|H].
      * injection F2 as -> ->. right. left. split; [eauto|reflexivity].
      * left. eauto.
      * right. right. split; [|exact H]. intros [f [F1 F2]]. apply (HD q w f H F1). left. now symmetry.
Qed.

(** C46: on success the fields are exactly the members whose names occur in the definition, at
    every index with that name; the order in which the members are visited does not matter. *)
Theorem C46_fields t c p : NoDup (map fst (cb_fields c)) -> from_canboat t c = Ret p ->
  exists k def,
    (single t (cb_pgn c) k def \/ (no_def t (cb_pgn c) /\ k = 0 /\ zget t 0 = Some def)) /\
    pm_header p = mkraw (cb_prio c) (cb_pgn c) (cb_src c) (cb_dst c) 0 [] /\ pm_index p = k /\
    NoDup (map fst (pm_data p)) /\
    forall q v, In (q, v) (pm_data p) <-> exists f, zget (p_fields def) q = Some f /\ In (str (f_name f), v) (cb_fields c).
Proof.
  intros N H. unfold from_canboat in H. destruct (pgn_first t (cb_pgn c)) as [[k def]| |] eqn:E1; try discriminate.
  destruct (pgn_last t (cb_pgn c)) as [[l x]| |] eqn:E2; try discriminate.
  destruct (Z.eqb_spec k l) as [->|C]; [|discriminate]. cbn [negb] in H. injection H as <-.
  exists l, def. cbn [pm_header pm_index pm_data]. split.
  { destruct (C28_first _ _ _ _ E1) as [[F1 F2]|F]; [|right; exact F]. left. split; [exact F1|]. intros k' p' G.
    specialize (F2 _ _ G). destruct (C28_last _ _ _ _ E2) as [[L1 L2]|[L _]]; [|now elim (L l def)].
    specialize (L2 _ _ G). lia. }
  split; [reflexivity|]. split; [reflexivity|].
  destruct (import_all (p_fields def) (cb_fields c) [] N (NoDup_nil _)) as [I1 I2]; [intros q w f []|].
  split; [exact I1|]. intros q v. rewrite I2. split; [intros [H|[]]; exact H|now left].
Qed.
(** C46: it fails exactly for PGNs with several definitions, and never crashes. *)
Theorem C46_fails_iff t c : t <> [] ->
  ((exists e, from_canboat t c = Err e) <-> exists k p k' p', k <> k' /\ defines t (cb_pgn c) k p /\ defines t (cb_pgn c) k' p') /\
  forall q, from_canboat t c <> Panic q.
Proof.
  intros N. unfold from_canboat. destruct (packet_start t (cb_pgn c) N) as [i [def [j [def' [E1 [E2 [E3 E4]]]]]]].
  rewrite E1, E2. destruct (Z.eqb_spec i j) as [->|C]; cbn [negb]; (split; [|discriminate]).
  - split; [intros [e E]; discriminate|]. intros [k [p [k' [p' [D [D1 D2]]]]]]. exfalso.
    destruct (C28_first _ _ _ _ E1) as [[_ F]|[F _]]; [|now elim (F k p)].
    destruct (C28_last _ _ _ _ E2) as [[_ L]|[L _]]; [|now elim (L k p)].
    pose proof (F _ _ D1). pose proof (F _ _ D2). pose proof (L _ _ D1). pose proof (L _ _ D2). lia.
  - split; [|eauto]. intros _. destruct (C28_first _ _ _ _ E1) as [[F _]|[F [-> _]]].
    + destruct (C28_last _ _ _ _ E2) as [[L _]|[L _]]; [|now elim (L i def)]. exists i, def, j, def'. auto.
    + destruct (C28_last _ _ _ _ E2) as [[L _]|[_ [-> _]]]; [now elim (F j def')|]. congruence.
Qed.
(** C46: malformed JSON yields a message without fields, of PGN 0, and no error. *)
Theorem C46_malformed unmarshal data : unmarshal data = None ->
  FromCanBoat unmarshal PgnList data = Ret (mkparsed (mkraw 0 0 0 0 0 []) 0 []).
Proof. intros H. unfold FromCanBoat. rewrite H. vm_compute. reflexivity. Qed.
Example C46_example : exists p,
  from_canboat PgnList (mkcb 2 7 255 127250 [(str "Heading", VFloat64 (f64_of_Z 90)); (str "Unknown", VNil)]) = Ret p /\
  pm_data p = [(1, VFloat64 (f64_of_Z 90))].
Proof. eexists. split; [vm_compute; reflexivity|]. vm_compute. reflexivity. Qed.

(* ------------------------------------------------------------------ C47 *)
Lemma sm_put_new m k v : ~ In k (map fst m) -> sm_put m k v = m ++ [(k, v)].
Proof.
  induction m as [|[a x] m IH]; intros H; [reflexivity|]. cbn [sm_put map fst] in *.
  destruct (bytes_eqb a k) eqn:E; [apply bytes_eqb_eq in E; elim H; now left|].
  rewrite IH; [reflexivity|]. intros I. apply H. now right.
Qed.
Lemma json_from m : forall acc, NoDup (map fst m) -> (forall k, In k (map fst m) -> ~ In (itoa k) (map fst acc)) ->
  fold_left (fun o kv => sm_put o (itoa (fst kv)) (snd kv)) m acc = acc ++ map (fun kv => (itoa (fst kv), snd kv)) m.
Proof.
  induction m as [|[k v] m IH]; intros acc N H; cbn [fold_left map fst snd]; [now rewrite app_nil_r|].
  cbn [map fst] in N. apply NoDup_cons_iff in N as [N1 N2].
  rewrite sm_put_new by (apply H; now left). rewrite IH; [now rewrite <- app_assoc|exact N2|].
  intros k' I. rewrite map_app, in_app_iff. intros [C|[C|[]]]; [apply (H k'); [now right|exact C]|].
  apply itoa_inj_all in C. subst. contradiction.
Qed.
(** C47: one JSON member per field, in any visiting order of the map; the key is the decimal text
    of the index, so distinct indices have distinct keys and the index can be read back. *)
Theorem C47_json_keys m : NoDup (map fst m) ->
  json_members m = map (fun kv => (itoa (fst kv), snd kv)) m /\ NoDup (map fst (json_members m)) /\
  (forall k, 0 <= k -> decimal (itoa k) k) /\ (forall k, 0 <= k < 2 ^ 31 -> parse_int 32 (itoa k) = Some k).
Proof.
  intros N. unfold json_members. rewrite json_from by (auto; intros; intros []). cbn [app].
  split; [reflexivity|]. split; [|split].
  - rewrite map_map. change (map (fun x => fst (itoa (fst x), snd x)) m) with (map (fun x : Z * gval => itoa (fst x)) m).
    rewrite <- (map_map fst itoa). apply Injective_map_NoDup; [intros a b; apply itoa_inj_all|exact N].
  - intros k Hk. destruct (itoa_value k Hk) as (V & F & NE). split; [exact NE|]. split; [exact F|].
    rewrite dec_value_fold. fold (dec_value (itoa k)). now rewrite V.
  - intros k Hk. unfold parse_int, parse_int_raw. destruct (itoa_value k ltac:(lia)) as (V & F & NE).
    pose proof (parse_uint_itoa 32 k ltac:(lia)) as P.
    destruct (itoa k) as [|c s] eqn:E; [congruence|]. apply Forall_cons_iff in F as [Fc _]. unfold dec_char in Fc.
    destruct (Z.eqb_spec c 45); [lia|]. destruct (Z.eqb_spec c 43); [lia|]. cbn [orb]. rewrite P. cbn [negb andb].
    destruct (Z.leb_spec (2 ^ (32 - 1)) k); [|reflexivity]. change (2 ^ (32 - 1)) with (2 ^ 31) in *. lia.
Qed.
Example C47_example : json_members [(0, VUint64 5); (10, VNil)] = [(str "0", VUint64 5); (str "10", VNil)].
Proof. vm_compute. reflexivity. Qed.
(** The JSON of a decoded message: keys "0", "1", ..., "n-1". *)
Theorem C47_decoded fuel pl t m spare r : parse_packet fuel pl t m spare = Some (Ret r) ->
  map fst (json_members (pm_data r)) = map (fun k => itoa (Z.of_nat k)) (seq 0 (List.length (pm_data r))).
Proof.
  intros H. destruct (C39_header_and_keys _ _ _ _ _ _ H) as [_ [n K]].
  assert (NoDup (map fst (pm_data r))) as N by (rewrite K; apply Injective_map_NoDup; [intros a b; lia|apply seq_NoDup]).
  destruct (C47_json_keys _ N) as [-> _]. rewrite map_map. cbn [fst]. rewrite <- (map_map fst itoa), K, map_map.
  f_equal. f_equal. rewrite <- (map_length fst (pm_data r)), K, map_length, seq_length. reflexivity.
Qed.

(* ------------------------------------------------------------------ C48 *)
Definition ppos (def : pgn_def) (k : Z) : Z :=
  let n := zlen (p_fields def) in if k <? n then k else n - p_rep def + (k - n) mod p_rep def.
Lemma ppos_field def k f : nth_field def k = Some f -> zget (p_fields def) (ppos def k) = Some f.
Proof.
  unfold nth_field, ppos. destruct (_ <? _); [auto|]. destruct (0 <? p_rep def); [auto|discriminate].
Qed.
Lemma ppos_next def k f : 0 <= p_rep def <= zlen (p_fields def) -> 0 <= k -> nth_field def k = Some f ->
  (nth_field def (k + 1) <> None) ->
  (let j := ppos def k in (if (0 <? p_rep def) && (j =? zlen (p_fields def) - 1) then j - p_rep def else j) + 1) = ppos def (k + 1).
Proof.
  intros HR Hk NF NN. unfold nth_field in *. unfold ppos. cbv zeta. set (n := zlen (p_fields def)) in *.
  replace (k + 1 - n) with (k - n + 1) by lia.
  destruct (Z.ltb_spec k n) as [C|C].
  - destruct (Z.ltb_spec (k + 1) n) as [C'|C'].
    + destruct (Z.eqb_spec k (n - 1)); [lia|]. now rewrite andb_false_r.
    + destruct (Z.ltb_spec 0 (p_rep def)); [|congruence]. destruct (Z.eqb_spec k (n - 1)); [|lia]. cbn [andb].
      replace (k - n + 1) with 0 by lia. rewrite Z.mod_0_l by lia. lia.
  - destruct (Z.ltb_spec (k + 1) n); [lia|]. destruct (Z.ltb_spec 0 (p_rep def)) as [R|R]; [|discriminate]. cbn [andb].
    rewrite mod_succ by lia. pose proof (Z.mod_pos_bound (k - n) (p_rep def) R).
    destruct (Z.eqb_spec (n - p_rep def + (k - n) mod p_rep def) (n - 1)); destruct (Z.eqb_spec ((k - n) mod p_rep def) (p_rep def - 1)); lia.
Qed.

(** The line Print produces: one entry per field, or per non-nil field. *)
Definition shown (verbose : bool) (v : gval) : bool := match v with VNil => verbose | _ => true end.

Lemma print_ok def verbose data : 0 <= p_rep def <= zlen (p_fields def) -> forall rest done acc,
  data = done ++ rest -> map fst data = zseq (List.length data) ->
  (forall k, (k < List.length data)%nat -> nth_field def (Z.of_nat k) <> None) ->
  exists l, print_loop (List.length rest) def verbose data (Z.of_nat (List.length done)) 
      (match rest with [] => 0 | _ => ppos def (Z.of_nat (List.length done)) end) acc = Ret (rev acc ++ l) /\
    map (fun e => (fst (fst e), snd e)) l = filter (fun kv => shown verbose (snd kv)) rest /\
    Forall (fun e => exists f, nth_field def (fst (fst e)) = Some f /\ snd (fst e) = f_name f) l.
Proof.
  intros HR. induction rest as [|[k v] rest IH]; intros done acc E K NF.
  - exists []. cbn. rewrite app_nil_r. repeat split; constructor.
  - assert (k = Z.of_nat (List.length done)) as ->.
    { assert (nth_error (map fst data) (List.length done) = Some k) as H.
      { rewrite E, map_app, nth_error_app2 by (rewrite map_length; lia). rewrite map_length, Nat.sub_diag. reflexivity. }
      rewrite K in H. unfold zseq in H.
      rewrite (map_nth_error Z.of_nat (List.length done) _ (d := List.length done)) in H; [now injection H|].
      assert (List.length done < List.length data)%nat by (rewrite E, app_length; cbn; lia).
      rewrite nth_error_nth' with (d := 0%nat) by (rewrite seq_length; lia). now rewrite seq_nth by lia. }
    assert (dm_get data (Z.of_nat (List.length done)) = v) as G.
    { apply dm_get_in; [rewrite K; apply zseq_nodup|]. rewrite E. apply in_or_app. right. now left. }
    assert (List.length done < List.length data)%nat as LD by (rewrite E, app_length; cbn; lia).
    pose proof (NF _ LD) as NF1. destruct (nth_field def (Z.of_nat (List.length done))) as [f|] eqn:EF; [|congruence].
    pose proof (ppos_field _ _ _ EF) as PF.
    cbn [List.length print_loop]. rewrite G.
    assert (forall acc', exists l,
      print_loop (List.length rest) def verbose data (Z.of_nat (List.length done) + 1)
        ((if (0 <? p_rep def) && (ppos def (Z.of_nat (List.length done)) =? zlen (p_fields def) - 1)
          then ppos def (Z.of_nat (List.length done)) - p_rep def else ppos def (Z.of_nat (List.length done))) + 1) acc'
        = Ret (rev acc' ++ l) /\
      map (fun e => (fst (fst e), snd e)) l = filter (fun kv => shown verbose (snd kv)) rest /\
      Forall (fun e => exists f, nth_field def (fst (fst e)) = Some f /\ snd (fst e) = f_name f) l) as NX.
    { intros acc'. destruct (IH (done ++ [(Z.of_nat (List.length done), v)]) acc') as [l [L1 L2]]; auto.
      { rewrite <- app_assoc. exact E. }
      exists l. split; [|exact L2]. rewrite <- L1. destruct rest as [|r0 rest0]; [reflexivity|].
      rewrite app_length. cbn [List.length]. replace (Z.of_nat (List.length done + 1)) with (Z.of_nat (List.length done) + 1) by lia.
      f_equal. apply ppos_next with f; auto; [lia|].
      replace (Z.of_nat (List.length done) + 1) with (Z.of_nat (List.length done + 1)) by lia. apply NF.
      rewrite E, app_length. cbn [List.length]. lia. }
    assert (forall e, e = (Z.of_nat (List.length done), f_name f, v) -> shown verbose v = true -> exists l,
      print_loop (List.length rest) def verbose data (Z.of_nat (List.length done) + 1)
        ((if (0 <? p_rep def) && (ppos def (Z.of_nat (List.length done)) =? zlen (p_fields def) - 1)
          then ppos def (Z.of_nat (List.length done)) - p_rep def else ppos def (Z.of_nat (List.length done))) + 1) (e :: acc)
        = Ret (rev acc ++ l) /\
      map (fun e => (fst (fst e), snd e)) l = filter (fun kv => shown verbose (snd kv)) ((Z.of_nat (List.length done), v) :: rest) /\
      Forall (fun e => exists f, nth_field def (fst (fst e)) = Some f /\ snd (fst e) = f_name f) l) as NY.
    { intros e -> SH. destruct (NX ((Z.of_nat (List.length done), f_name f, v) :: acc)) as [l [L1 [L2 L3]]].
      exists ((Z.of_nat (List.length done), f_name f, v) :: l). split; [|split].
      - rewrite L1. cbn [rev]. now rewrite <- app_assoc.
      - cbn [map fst snd filter]. rewrite SH, L2. reflexivity.
      - constructor; [|exact L3]. exists f. auto. }
    destruct v; try (rewrite PF; apply NY; reflexivity).
    destruct verbose; [rewrite PF; apply NY; reflexivity|].
    destruct (NX acc) as [l L]. exists l. exact L.
Qed.

(** C48: Print of a decoded message of a PGN with one definition never goes out of range; it
    prints, in order, every field (or every non-nil field), each under the name of the field of
    the definition (group unrolled) it was decoded from. *)
Theorem C48_print fuel pl t m spare i def r verbose :
  table_ok t -> only t (rm_pgn m) i def -> parse_packet fuel pl t m spare = Some (Ret r) ->
  exists l, print_fields t r verbose = Ret l /\
    map (fun e => (fst (fst e), snd e)) l = filter (fun kv => match snd kv with VNil => verbose | _ => true end) (pm_data r) /\
    Forall (fun e => exists f, nth_field def (fst (fst e)) = Some f /\ snd (fst e) = f_name f) l.
Proof.
  intros T S H. destruct (C41_fields _ _ _ _ _ _ _ _ T S H) as [HI [HF _]].
  destruct (C39_header_and_keys _ _ _ _ _ _ H) as [_ [n K]]. apply only_start in S as [S _].
  unfold print_fields. rewrite HI, S. pose proof (table_ok_get _ _ _ T S) as [TR _].
  assert (n = List.length (pm_data r)) as -> by (rewrite <- (map_length fst (pm_data r)), K, map_length, seq_length; reflexivity).
  destruct (print_ok def verbose (pm_data r) TR (pm_data r) [] []) as [l [L1 L2]]; auto.
  { intros k Hk. destruct (HF k Hk) as [_ [f [NF _]]]. congruence. }
  exists l. split; [|exact L2]. cbn [rev app List.length] in L1. rewrite <- L1.
  destruct (pm_data r) as [|kv rest] eqn:ED; [reflexivity|]. f_equal. change (Z.of_nat 0) with 0.
  unfold ppos. destruct (Z.ltb_spec 0 (zlen (p_fields def))); [reflexivity|].
  exfalso. destruct (HF 0%nat ltac:(cbn; lia)) as [_ [f [NF _]]]. apply ppos_field in NF. apply zget_some in NF. lia.
Qed.
