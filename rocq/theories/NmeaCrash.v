(** NmeaCrash: exactly which fields make ParsePacket panic (toward C43). *)
From Coq Require Import Floats.SpecFloat ZifyBool.
From Verif Require Import GoBase BufFacts Strconv CanModel NmeaTypes LookupTable NmeaModel NmeaSpec NmeaExtract NmeaParse NmeaTerm NmeaSafe CrashSpec.
Open Scope Z_scope.
Open Scope list_scope.

Definition is_text (f : field) : bool := match f_res f with RNeg k => k =? 16 | _ => false end.
Definition full_bytes (f : field) : Z := (f_size f + 7) / 8.

Lemma text_extract pl d def dm f sb eb sbit bits : is_text f = true -> extract_field pl d def dm f sb eb sbit bits = extract_stringlz d sb.
Proof.
  unfold is_text, extract_field. destruct (f_res f) as [|k|]; try discriminate. intros H. assert (k = 16) as -> by lia. reflexivity.
Qed.
Lemma text_panics D sp sb : bytes_ok D -> 0 <= sb < 256 -> 
  (exists p, extract_stringlz (window D sp) sb = Panic p) <-> exists b, zget D sb = Some b /\ 256 <= sb + b.
Proof.
  intros HB H. unfold extract_stringlz. change (s_len (window D sp)) with (zlen D).
  destruct (Z.leb_spec (zlen D) sb) as [L|L].
  - split; [intros [p X]; discriminate X|]. intros (b & G & _). apply zget_some in G. lia.
  - rewrite window_get by lia. destruct (zget D sb) as [n|] eqn:G; [|apply zget_none in G; lia].
    assert (is_byte n) as Bn by (exact (zget_Forall _ _ _ _ HB G)). unfold is_byte in Bn.
    assert (u8 sb = sb) as -> by (unfold u8; apply Z.mod_small; lia).
    destruct (Z.eqb_spec n 0) as [->|N].
    + split; [intros [p X]; discriminate X|]. intros (b & E & X). injection E as <-. lia.
    + destruct (Z_lt_dec (n + sb) 256) as [C|C].
      * assert (u8 (n + sb) = n + sb) as -> by (unfold u8; apply Z.mod_small; lia).
        split; [|intros (b & E & X); injection E as <-; lia]. intros [p X]. exfalso.
        destruct (Z.ltb_spec (zlen D) (n + sb)); [discriminate X|]. rewrite sub_or_panic_in in X by lia.
        destruct (_ =? 0) in X; discriminate X.
      * split; [intros _; exists n; split; [reflexivity|lia]|]. intros _.
        assert (u8 (n + sb) = n + sb - 256) as ->. { unfold u8. symmetry. apply Z.mod_unique with 1; lia. }
        destruct (Z.ltb_spec (zlen D) (n + sb - 256)); [lia|]. unfold sub_or_panic. rewrite s_sub_none by lia. eauto.
Qed.

(** The definition chosen at field [idx] when its value is x. *)
Definition asked (f : field) : option (option Z) :=
  match f_units f with
  | UStr EmptyString => None
  | UStr (String c r) => Some (if Ascii.eqb c "="%char then Some (pu_value (parse_uint 10 64 (str r))) else None)
  | _ => Some None
  end.
Definition field_of (t : list pgn_def) (i idx : Z) : option field :=
  match zget t i with Some p => zget (p_fields p) idx | None => None end.
Fixpoint pick (n : nat) (t : list pgn_def) (idx x i : Z) : option Z :=
  match n with
  | O => Some i
  | S n' =>
      match field_of t i idx with
      | None => None
      | Some f =>
          match asked f with
          | None => None
          | Some None => Some i
          | Some (Some N) => if N =? x then Some i else match field_of t (i + 1) idx with None => None | Some _ => pick n' t idx x (i + 1) end
          end
      end
  end.
Definition clean (f : field) : bool := negb (res_scales (f_res f)) && negb (f_signed f).
Definition chain_clean (t : list pgn_def) (idx i : Z) (n : nat) : bool :=
  forallb (fun k => match field_of t (i + Z.of_nat k) idx with Some f => match asked f with Some (Some _) => clean f | _ => true end | None => true end) (seq 0 n).
Lemma chain_clean_S t idx i n : chain_clean t idx i (S n) = true ->
  (forall f N, field_of t i idx = Some f -> asked f = Some (Some N) -> clean f = true) /\ chain_clean t idx (i + 1) n = true.
Proof.
  unfold chain_clean. cbn [seq forallb]. rewrite andb_true_iff. intros [H1 H2]. split.
  - intros f N F A. rewrite Z.add_0_r, F, A in H1. exact H1.
  - rewrite forallb_forall in H2 |- *. intros k I. specialize (H2 (S k)). rewrite <- seq_shift in H2. specialize (H2 (in_map S _ _ I)).
    replace (i + Z.of_nat (S k)) with (i + 1 + Z.of_nat k) in H2 by lia. exact H2.
Qed.

Section Crash.
Variables (pl : platform) (t : list pgn_def) (D sp : bytes) (j : Z) (one : bool).
Hypothesis (HB : bytes_ok D).
Let d := window D sp.
Let n := zlen D.
Notation step := (parse_step pl t d j one).
Notation loop := (fun fuel => parse_loop fuel pl t d j one).

Lemma clean_number f sb eb sbit w : clean f = true -> 0 <= sb <= eb -> eb <= n -> eb - sb <= 8 -> 0 <= sbit -> 0 <= w <= 64 ->
  extract_number f d sb eb sbit w = Ret (VUint64 (bits (le_value (zsub D sb eb)) sbit w)).
Proof.
  intros C H1 H2 H3 H4 H5. unfold d. rewrite number_in by (auto; lia). unfold clean in C. apply andb_true_iff in C as [C1 C2].
  unfold num_gval. apply negb_true_iff in C1, C2. now rewrite C1, C2.
Qed.

Lemma choose_pick m : forall res sb eb sbit w idx data i def f x,
  0 <= sb <= eb -> eb <= n -> eb - sb <= 8 -> 0 <= sbit -> 0 <= w <= 64 -> x = bits (le_value (zsub D sb eb)) sbit w ->
  (is_manufacturer res = true \/ data = VUint64 x) -> chain_clean t idx i m = true ->
  zget t i = Some def -> zget (p_fields def) idx = Some f ->
  match pick m t idx x i with
  | Some i' => exists def', zget t i' = Some def' /\ choose m t d res sb eb sbit w idx data i def f = Ret (i', def')
  | None => exists p, choose m t d res sb eb sbit w idx data i def f = Panic p
  end.
Proof.
  induction m as [|m IH]; intros res sb eb sbit w idx data i def f x H1 H2 H3 H4 H5 EX DV CC Z1 Z2; [cbn [pick choose]; eauto|].
  apply chain_clean_S in CC as [CF CC]. cbn [pick choose].
  assert (field_of t i idx = Some f) as FO by (unfold field_of; now rewrite Z1). rewrite FO.
  destruct (number_kind D sp f sb eb sbit w H1 H2) as [NP _]. fold d in NP.
  assert (exists g, (if is_manufacturer res then match extract_number f d sb eb sbit w with Err _ => Ret VNil | r => r end else Ret data) = Ret g /\
    (clean f = true -> g = VUint64 x)) as (g & -> & GV).
  { destruct (is_manufacturer res) eqn:M.
    - destruct (extract_number f d sb eb sbit w) as [g|e|q] eqn:EN; [|eexists; split; [reflexivity|]|now elim (NP q)].
      + exists g. split; [reflexivity|]. intros C. rewrite (clean_number f sb eb sbit w C H1 H2 H3 H4 H5) in EN. injection EN as <-. now rewrite EX.
      + intros C. rewrite (clean_number f sb eb sbit w C H1 H2 H3 H4 H5) in EN. discriminate EN.
    - exists data. split; [reflexivity|]. intros _. destruct DV as [X|X]; [discriminate X|exact X]. }
  destruct (f_units f) as [|[|c r]| | |] eqn:EU; unfold asked; rewrite EU; try (eauto; fail).
  destruct (Ascii.eqb c "="%char) eqn:EC; [|eauto].
  assert (asked f = Some (Some (pu_value (parse_uint 10 64 (str r))))) as AF by (unfold asked; now rewrite EU, EC).
  rewrite (GV (CF f _ FO AF)). destruct (_ =? x); [eauto|].
  unfold field_of. destruct (zget t (i + 1)) as [d1|] eqn:E1; [|eauto]. destruct (zget (p_fields d1) idx) as [f1|] eqn:E2; [|eauto].
  eapply IH; eauto.
Qed.

Definition plainf (i : Z) (f : field) : bool := one || (j <? i) || match asked f with Some None => true | _ => false end.
Lemma choose_plain m res sb eb sbit w idx data i def f : 0 <= sb <= eb -> eb <= n -> (m = O \/ asked f = Some None) ->
  choose m t d res sb eb sbit w idx data i def f = Ret (i, def).
Proof.
  intros H1 H2 [->|A]; [reflexivity|]. destruct m; [reflexivity|]. cbn [choose]. destruct (number_kind D sp f sb eb sbit w H1 H2) as [NP _]. fold d in NP.
  assert (exists g, (if is_manufacturer res then match extract_number f d sb eb sbit w with Err _ => Ret VNil | r => r end else Ret data) = Ret g) as (g & ->).
  { destruct (is_manufacturer res); [|eauto]. destruct (extract_number f d sb eb sbit w) as [x|e|q] eqn:EN; eauto. now elim (NP q). }
  unfold asked in A. destruct (f_units f) as [|[|c r]| | |]; try reflexivity; [discriminate A|]. destruct (Ascii.eqb c "="%char); [discriminate A|reflexivity].
Qed.

(** One decoded field of the current definition. *)
Lemma plain_step s f : zget (p_fields (ps_def s)) (ps_idx s) = Some f -> 0 <= ps_byte s -> 0 <= f_size f -> nbytes n f + ps_byte s <= n ->
  (forall p, extract_at pl d s f <> Panic p) -> plainf (ps_i s) f = true -> ps_index s = ps_i s ->
  exists v, step s = SNext (advance n (nbits n f) (mid s (ps_i s) (ps_def s) (ps_i s) v)).
Proof.
  intros F B S FI NP P IX. pose proof (zlen_nonneg D) as LD. fold n in LD.
  assert (0 <= nbytes n f) as NB. { unfold nbytes. assert (0 <= (f_size f + 7) / 8) by (apply Z.div_pos; lia). lia. }
  pose proof (step_cases pl t d j one s) as V. remember (parse_step pl t d j one s) as rr eqn:E.
  assert (s_len d = n) as SL by reflexivity. pose proof (zget_some _ _ _ F) as R.
  destruct V as [Hx|q Hx|g G Hx|g q G B1 B2 EX|g e G B1 B2 EX|g v G B1 B2 EX EO|g v i' def' G B1 B2 EX EO EC|g v q G B1 B2 EX EO EC];
    rewrite ?SL in *; try lia; try (assert (g = f) as -> by congruence).
  - lia.
  - now elim (NP q).
  - exists VNil. now rewrite IX.
  - exists v. now rewrite IX.
  - unfold choose_at in EC. rewrite SL in EC. rewrite choose_plain in EC; [injection EC as <- <-; eauto|lia|lia|].
    unfold plainf in P. rewrite EO in P. cbn [orb] in P. destruct (Z.ltb_spec j (ps_i s)); [left; lia|]. right.
    destruct (asked f) as [[x|]|]; try discriminate P. reflexivity.
  - unfold choose_at in EC. rewrite SL in EC. rewrite choose_plain in EC; [destruct EC; discriminate|lia|lia|].
    unfold plainf in P. rewrite EO in P. cbn [orb] in P. destruct (Z.ltb_spec j (ps_i s)); [left; lia|]. right.
    destruct (asked f) as [[x|]|]; try discriminate P. reflexivity.
Qed.
Lemma panic_step s f p : zget (p_fields (ps_def s)) (ps_idx s) = Some f -> 0 <= ps_byte s -> 0 <= f_size f -> nbytes n f + ps_byte s <= n ->
  extract_at pl d s f = Panic p -> step s = SCrash p.
Proof.
  intros F B S FI EX'. pose proof (zlen_nonneg D) as LD. fold n in LD.
  assert (0 <= nbytes n f) as NB. { unfold nbytes. assert (0 <= (f_size f + 7) / 8) by (apply Z.div_pos; lia). lia. }
  pose proof (step_cases pl t d j one s) as V. remember (parse_step pl t d j one s) as rr eqn:E.
  assert (s_len d = n) as SL by reflexivity. pose proof (zget_some _ _ _ F) as R.
  destruct V as [Hx|q Hx|g G Hx|g q G B1 B2 EX|g e G B1 B2 EX|g v G B1 B2 EX EO|g v i' def' G B1 B2 EX EO EC|g v q G B1 B2 EX EO EC];
    rewrite ?SL in *; try lia; try (assert (g = f) as -> by congruence); try lia; congruence.
Qed.
Lemma stop_step s f : zget (p_fields (ps_def s)) (ps_idx s) = Some f -> n < nbytes n f + ps_byte s -> step s = SStop s.
Proof.
  intros F FI. pose proof (step_cases pl t d j one s) as V. remember (parse_step pl t d j one s) as rr eqn:E.
  assert (s_len d = n) as SL by reflexivity. pose proof (zget_some _ _ _ F) as R.
  destruct V as [Hx|q Hx|g G Hx|g q G B1 B2 EX|g e G B1 B2 EX|g v G B1 B2 EX EO|g v i' def' G B1 B2 EX EO EC|g v q G B1 B2 EX EO EC];
    rewrite ?SL in *; try lia; try (assert (g = f) as -> by congruence); try lia; reflexivity.
Qed.
Lemma end_step s : zlen (p_fields (ps_def s)) <= ps_idx s -> step s = SStop s.
Proof. intros H. unfold parse_step. destruct (Z.leb_spec (zlen (p_fields (ps_def s))) (ps_idx s)); [reflexivity|lia]. Qed.

(** A field on which the choice of the definition may depend. *)
Definition asking (f : field) : bool :=
  (f_size f <=? 64) && clean f &&
  match f_res f with
  | RPos _ _ => true
  | RNeg k => (k =? 8) || (k =? 12) || (k =? 9) && match f_units f with ULookup _ => false | _ => true end
  | _ => false
  end.
Lemma ask_step s f : zget (p_fields (ps_def s)) (ps_idx s) = Some f -> zget t (ps_i s) = Some (ps_def s) -> 0 <= ps_byte s -> 0 <= ps_bit s ->
  0 <= f_size f -> nbytes n f + ps_byte s <= n -> one = false -> asking f = true ->
  let m := Z.to_nat (j - ps_i s + 1) in chain_clean t (ps_idx s) (ps_i s) m = true ->
  match pick m t (ps_idx s) (bits (le_value (zsub D (ps_byte s) (nbytes n f + ps_byte s))) (ps_bit s) (nbits n f)) (ps_i s) with
  | Some i' => exists def' v, zget t i' = Some def' /\ step s = SNext (advance n (nbits n f) (mid s i' def' i' v))
  | None => exists p, step s = SCrash p
  end.
Proof.
  intros F ZT B BT S FI O A m CC. pose proof (zlen_nonneg D) as LD. fold n in LD.
  unfold asking in A. apply andb_true_iff in A as [A A3]. apply andb_true_iff in A as [A1 A2].
  pose proof (nbits_width n f S LD) as (W1 & W2 & W3 & W4 & W5).
  assert (width_in n f <= 64) as W6 by (unfold width_in; lia).
  assert (nbytes n f <= 8) as W7 by (rewrite W2; apply Z.lt_succ_r, Z.div_lt_upper_bound; lia).
  set (x := bits _ _ _).
  assert (exists v, extract_at pl d s f = Ret v /\ (is_manufacturer (f_res f) = true \/ v = VUint64 x)) as (v & EX & DV).
  { unfold extract_at. change (s_len d) with n. unfold extract_field.
    pose proof (clean_number f (ps_byte s) (nbytes n f + ps_byte s) (ps_bit s) (nbits n f) A2 ltac:(lia) FI ltac:(lia) BT ltac:(lia)) as CN. fold x in CN.
    destruct (f_res f) as [|k|a b]; [discriminate A3| |eauto].
    destruct (Z.eqb_spec k 8) as [K|K]; [subst k; cbn [Z.eqb Pos.eqb orb]; eauto|].
    destruct (Z.eqb_spec k 12) as [K0|K0]; [subst k; cbn [Z.eqb Pos.eqb orb]; unfold extract_manufacturer; rewrite CN; eauto|].
    destruct (Z.eqb_spec k 9) as [K'|K']; [|cbn [orb andb] in A3; discriminate A3]. subst k. cbn [Z.eqb Pos.eqb orb andb] in *. unfold extract_lookup. rewrite CN.
    destruct (f_units f); eauto; discriminate A3. }
  pose proof (choose_pick m (f_res f) (ps_byte s) (nbytes n f + ps_byte s) (ps_bit s) (nbits n f) (ps_idx s) v (ps_i s) (ps_def s) f x
    ltac:(lia) FI ltac:(lia) BT ltac:(lia) eq_refl DV CC ZT F) as CP.
  pose proof (step_cases pl t d j one s) as V. remember (parse_step pl t d j one s) as rr eqn:E.
  assert (s_len d = n) as SL by reflexivity. pose proof (zget_some _ _ _ F) as R.
  destruct V as [Hx|q Hx|g G Hx|g q G B1 B2 EX'|g e G B1 B2 EX'|g v' G B1 B2 EX' EO|g v' i' def' G B1 B2 EX' EO EC|g v' q G B1 B2 EX' EO EC];
    rewrite ?SL in *; try lia; try (assert (g = f) as -> by congruence); try lia; try congruence.
  - assert (v' = v) as -> by congruence. unfold choose_at in EC. rewrite SL in EC. fold m in EC. destruct (pick m t (ps_idx s) x (ps_i s)) as [i2|].
    + destruct CP as (def2 & Z2 & CP). rewrite CP in EC. injection EC as <- <-. eauto.
    + destruct CP as (p & CP). rewrite CP in EC. discriminate EC.
  - assert (v' = v) as -> by congruence. unfold choose_at in EC. rewrite SL in EC. fold m in EC. destruct (pick m t (ps_idx s) x (ps_i s)) as [i2|].
    + destruct CP as (def2 & Z2 & CP). rewrite CP in EC. destruct EC; discriminate.
    + eauto.
Qed.

(** The rest of a definition: crashes come from texts only. *)
Fixpoint tail_ok (i : Z) (fs : list field) (byte bit : Z) : bool :=
  match fs with
  | [] => true
  | f :: r => (0 <? f_size f) && plainf i f && (extract_safe f || is_text f) && (negb (is_text f) || (0 <? byte)) && (byte <? 256) &&
              tail_ok i r (byte + (f_size f + bit) / 8) ((bit + f_size f) mod 8)
  end.
Fixpoint overflow (fs : list field) (byte bit : Z) : Prop :=
  match fs with
  | [] => False
  | f :: r => byte + full_bytes f <= n /\
              ((is_text f = true /\ exists b, zget D byte = Some b /\ 256 <= byte + b) \/
               overflow r (byte + (f_size f + bit) / 8) ((bit + f_size f) mod 8))
  end.
Fixpoint texts (fs : list field) (byte bit : Z) : list (Z * Z) :=
  match fs with
  | [] => []
  | f :: r => (if is_text f then [(byte, full_bytes f)] else []) ++ texts r (byte + (f_size f + bit) / 8) ((bit + f_size f) mod 8)
  end.
Lemma overflow_fits fs : forall i byte bit, tail_ok i fs byte bit = true -> 0 <= bit -> overflow fs byte bit -> byte + 1 <= n.
Proof.
  destruct fs as [|f fs]; intros i byte bit T B; [contradiction|]. cbn [overflow tail_ok] in *. intros [H _].
  assert (1 <= full_bytes f) by (unfold full_bytes; apply Z.div_le_lower_bound; lia). lia.
Qed.
Lemma overflow_texts fs : forall i byte bit, tail_ok i fs byte bit = true -> 0 <= bit ->
  (overflow fs byte bit <-> exists p z, In (p, z) (texts fs byte bit) /\ text_overflow D p z).
Proof.
  induction fs as [|f fs IH]; intros i byte bit T B; cbn [overflow texts].
  - split; [contradiction|]. intros (p & z & [] & _).
  - assert (0 < f_size f /\ tail_ok i fs (byte + (f_size f + bit) / 8) ((bit + f_size f) mod 8) = true) as [S T'] by (cbn [tail_ok] in T; lia).
    assert (0 <= (bit + f_size f) mod 8) as B' by (apply Z.mod_pos_bound; lia).
    specialize (IH i _ _ T' B'). split.
    + intros [F [[IT (b & G & X)]|O]].
      * rewrite IT. exists byte, (full_bytes f). split; [now left|]. split; [exact F|eauto].
      * apply IH in O as (p & z & I & TO). exists p, z. split; [apply in_or_app; now right|exact TO].
    + intros (p & z & I & TO). apply in_app_or in I as [I|I].
      * destruct (is_text f) eqn:IT; [|destruct I]. destruct I as [I|[]]. injection I as <- <-. destruct TO as (F & b & G & X). split; [exact F|]. left. eauto.
      * assert (overflow fs (byte + (f_size f + bit) / 8) ((bit + f_size f) mod 8)) as O by (apply IH; eauto).
        split; [|now right]. pose proof (overflow_fits _ _ _ _ T' B' O) as F.
        assert (full_bytes f <= (f_size f + bit) / 8 + 1); [|lia]. unfold full_bytes.
        replace ((f_size f + bit) / 8 + 1) with ((f_size f + bit + 1 * 8) / 8) by (rewrite Z.div_add; lia). apply Z.div_le_mono; lia.
Qed.

(** Where a state stands. *)
Definition stands (s : pstate) (fs : list field) (byte bit : Z) : Prop :=
  0 <= ps_idx s /\ skipn (Z.to_nat (ps_idx s)) (p_fields (ps_def s)) = fs /\ ps_byte s = byte /\ ps_bit s = bit /\
  ps_index s = ps_i s /\ p_rep (ps_def s) = 0 /\ zget t (ps_i s) = Some (ps_def s).
Lemma stands_field s f fs byte bit : stands s (f :: fs) byte bit -> zget (p_fields (ps_def s)) (ps_idx s) = Some f.
Proof.
  intros (I & SK & _). unfold zget. destruct (Z.ltb_spec (ps_idx s) 0); [lia|].
  rewrite <- (firstn_skipn (Z.to_nat (ps_idx s)) (p_fields (ps_def s))), SK.
  assert (List.length (firstn (Z.to_nat (ps_idx s)) (p_fields (ps_def s))) = Z.to_nat (ps_idx s)) as L.
  { apply firstn_length_le. destruct (Nat.le_gt_cases (Z.to_nat (ps_idx s)) (List.length (p_fields (ps_def s)))) as [C|C]; [exact C|].
    rewrite skipn_all2 in SK by lia. discriminate SK. }
  rewrite nth_error_app2 by lia. rewrite L, Nat.sub_diag. reflexivity.
Qed.
Lemma stands_next s f fs byte bit w v : stands s (f :: fs) byte bit ->
  stands (advance n w (mid s (ps_i s) (ps_def s) (ps_i s) v)) fs (byte + (w + bit) / 8) ((bit + w) mod 8).
Proof.
  intros ST. pose proof (stands_field _ _ _ _ _ ST) as F. destruct ST as (I & SK & <- & <- & IX & RP & ZT). unfold stands, advance, mid. cbn [ps_i ps_def ps_idx ps_odx ps_byte ps_bit ps_index ps_data].
  rewrite RP. change (0 <? 0) with false. rewrite andb_false_r, andb_false_l. repeat split; auto; [lia|].
  apply skipn_zget in F. rewrite SK in F. injection F as F. now symmetry.
Qed.
Lemma stands_end s byte bit : stands s [] byte bit -> step s = SStop s.
Proof.
  intros (I & SK & _). apply end_step. assert (List.length (skipn (Z.to_nat (ps_idx s)) (p_fields (ps_def s))) = 0%nat) as L by now rewrite SK.
  rewrite skipn_length in L. unfold zlen. lia.
Qed.

Lemma full_width f byte : 0 < f_size f -> byte + full_bytes f <= n -> 0 <= byte -> nbytes n f = full_bytes f /\ nbits n f = f_size f.
Proof.
  intros S F B. unfold nbits, nbytes, full_bytes in *. rewrite Z.min_l by lia. split; [reflexivity|]. apply Z.min_r.
  pose proof (Z.div_mod (f_size f + 7) 8 ltac:(lia)). pose proof (Z.mod_pos_bound (f_size f + 7) 8 ltac:(lia)). lia.
Qed.

Lemma text_or_safe s f : 0 <= ps_byte s < 256 -> 0 <= f_size f -> nbytes n f + ps_byte s <= n -> extract_safe f || is_text f = true ->
  (exists p, extract_at pl d s f = Panic p) <-> (is_text f = true /\ exists b, zget D (ps_byte s) = Some b /\ 256 <= ps_byte s + b).
Proof.
  intros B S FI T. pose proof (zlen_nonneg D) as LD. fold n in LD.
  assert (0 <= nbytes n f) as NB. { unfold nbytes. assert (0 <= (f_size f + 7) / 8) by (apply Z.div_pos; lia). lia. }
  unfold extract_at. change (s_len d) with n. destruct (is_text f) eqn:IT.
  - rewrite text_extract by exact IT. unfold d. rewrite text_panics by (auto; lia). tauto.
  - rewrite orb_false_r in T. split; [|intros [X _]; discriminate X]. intros [p X]. exfalso. revert X. unfold d. apply extract_no_panic; auto; lia.
Qed.

Lemma tail_exact fs : forall s byte bit, stands s fs byte bit -> tail_ok (ps_i s) fs byte bit = true -> 0 <= bit < 8 ->
  0 <= byte -> 0 < byte \/ 0 < n ->
  (forall fuel p, loop fuel s = Some (Panic p) -> overflow fs byte bit) /\
  (overflow fs byte bit -> forall fuel, (List.length fs < fuel)%nat -> exists p, loop fuel s = Some (Panic p)).
Proof.
  induction fs as [|f fs IH]; intros s byte bit ST T BB PB PO.
  - split; [|contradiction]. intros [|fuel] p H; [discriminate H|]. rewrite loop_unfold in H. erewrite stands_end in H by exact ST. discriminate H.
  - pose proof (stands_field _ _ _ _ _ ST) as F. pose proof (zlen_nonneg D) as LD. fold n in LD.
    assert (0 < f_size f /\ plainf (ps_i s) f = true /\ extract_safe f || is_text f = true /\ (is_text f = true -> 0 < byte) /\ byte < 256 /\
      tail_ok (ps_i s) fs (byte + (f_size f + bit) / 8) ((bit + f_size f) mod 8) = true) as (S & P & ES & TB & BL & T').
    { cbn [tail_ok] in T. destruct (tail_ok _ _ _ _); [|lia]. destruct (plainf _ _); [|lia]. destruct (is_text f), (extract_safe f); cbn in T |- *; repeat split; auto; lia. }
    assert (1 <= full_bytes f) as FB by (unfold full_bytes; apply Z.div_le_lower_bound; lia).
    assert (ps_byte s = byte /\ ps_bit s = bit /\ ps_index s = ps_i s) as (EB & Eb & IX) by (destruct ST as (_ & _ & A1 & A2 & A3 & _); auto).
    destruct (Z_le_dec (byte + full_bytes f) n) as [C|C].
    + destruct (full_width f byte S C ltac:(lia)) as [NB NW].
      assert (nbytes n f + ps_byte s <= n) as FI by lia.
      pose proof (text_or_safe s f ltac:(lia) ltac:(lia) FI ES) as TS. rewrite EB in TS.
      assert (0 <= (bit + f_size f) mod 8 < 8) as BB' by (apply Z.mod_pos_bound; lia).
      assert (0 <= (f_size f + bit) / 8) as BP by (apply Z.div_pos; lia).
      assert ((exists q, extract_at pl d s f = Panic q) \/ forall q, extract_at pl d s f <> Panic q) as [[q EX]|NP].
      { destruct (extract_at pl d s f) as [v|e|q]; [right|right|left]; eauto; intros; discriminate. }
      * split.
        -- intros fuel p H. cbn [overflow]. split; [exact C|]. left. apply TS. eauto.
        -- intros _ [|fuel] L; [lia|]. rewrite loop_unfold, (panic_step s f q F ltac:(lia) ltac:(lia) FI EX). eauto.
      * destruct (plain_step s f F ltac:(lia) ltac:(lia) FI NP P IX) as (v & E). rewrite NW in E.
        pose proof (stands_next s f fs byte bit (f_size f) v ST) as ST'. set (s' := advance _ _ _) in *.
        destruct (IH s' _ _ ST' T' BB' ltac:(lia) ltac:(lia)) as [I1 I2]. split.
        -- intros [|fuel] p H; [discriminate H|]. rewrite loop_unfold, E in H. cbn [overflow]. split; [exact C|]. right. exact (I1 _ _ H).
        -- intros [_ [O|O]]; [exfalso; apply TS in O as (q & O); exact (NP q O)|].
           intros [|fuel] L; [lia|]. rewrite loop_unfold, E. apply (I2 O). cbn [List.length] in L. lia.
    + split; [|intros [X _]; contradiction]. intros [|fuel] p H; [discriminate H|]. exfalso. rewrite loop_unfold in H.
      destruct (Z_lt_dec 0 byte) as [BP|BP].
      { rewrite (stop_step s f F) in H; [discriminate H|]. rewrite EB. unfold nbytes. unfold full_bytes in C. lia. }
      assert (byte = 0) as -> by lia.
      assert (nbytes n f = n) as NB by (unfold nbytes; unfold full_bytes in C; lia).
      assert (nbits n f = 8 * n) as NW.
      { unfold nbits. rewrite NB. unfold full_bytes in C. assert (8 * n < f_size f + 7 - 6); [|lia].
        pose proof (Z.mul_div_le (f_size f + 7) 8 ltac:(lia)). pose proof (Z.mod_pos_bound (f_size f + 7) 8 ltac:(lia)). pose proof (Z.div_mod (f_size f + 7) 8 ltac:(lia)). lia. }
      destruct (plain_step s f F ltac:(lia) ltac:(lia) ltac:(lia)) as (v & E); [|exact P|exact IX|].
      { intros q X. pose proof (text_or_safe s f ltac:(lia) ltac:(lia) ltac:(lia) ES) as TS. destruct TS as [TS _]. destruct TS as [IT _]; [eauto|]. specialize (TB IT). lia. }
      rewrite NW in E. rewrite E in H. pose proof (stands_next s f fs 0 bit (8 * n) v ST) as ST'.
      assert ((8 * n + bit) / 8 = n) as E8 by (symmetry; apply Z.div_unique with bit; lia). rewrite E8 in ST'.
      set (s' := advance _ _ _) in *. destruct fuel as [|fuel]; [discriminate H|]. rewrite loop_unfold in H.
      destruct fs as [|g fs]; [erewrite stands_end in H by exact ST'; discriminate H|].
      rewrite (stop_step s' g (stands_field _ _ _ _ _ ST')) in H; [discriminate H|].
      destruct ST' as (_ & _ & -> & _). assert (0 < f_size g) as SG by (cbn [tail_ok] in T'; lia).
      assert (1 <= (f_size g + 7) / 8) by (apply Z.div_le_lower_bound; lia). unfold nbytes. lia.
Qed.

(** Some fields of the current definition, none of which can crash. *)
Fixpoint head_ok (i : Z) (fs : list field) : bool :=
  match fs with [] => true | f :: r => (0 <? f_size f) && plainf i f && extract_safe f && head_ok i r end.
Fixpoint after (fs : list field) (byte bit : Z) : Z * Z :=
  match fs with [] => (byte, bit) | f :: r => after r (byte + (f_size f + bit) / 8) ((bit + f_size f) mod 8) end.
Fixpoint fit (fs : list field) (byte bit : Z) : bool :=
  match fs with [] => true | f :: r => (byte + full_bytes f <=? n) && fit r (byte + (f_size f + bit) / 8) ((bit + f_size f) mod 8) end.
Lemma run_head fs : forall s rest byte bit, stands s (fs ++ rest) byte bit -> head_ok (ps_i s) fs = true -> 0 <= bit < 8 -> 0 <= byte -> fit fs byte bit = true ->
  exists s', stands s' rest (fst (after fs byte bit)) (snd (after fs byte bit)) /\ ps_i s' = ps_i s /\ ps_def s' = ps_def s /\ ps_idx s' = ps_idx s + zlen fs /\
    forall fuel, loop (List.length fs + fuel)%nat s = loop fuel s'.
Proof.
  induction fs as [|f fs IH]; intros s rest byte bit ST T BB PB FT.
  - exists s. cbn [after fst snd]. split; [exact ST|]. split; [reflexivity|]. split; [reflexivity|]. split; [unfold zlen; cbn; lia|]. reflexivity.
  - cbn [app] in ST. pose proof (stands_field _ _ _ _ _ ST) as F. cbn [head_ok] in T. cbn [fit] in FT.
    assert (0 < f_size f /\ plainf (ps_i s) f = true /\ extract_safe f = true /\ head_ok (ps_i s) fs = true) as (S & P & ES & T').
    { destruct (plainf _ _), (extract_safe f), (head_ok _ _); cbn in T |- *; repeat split; auto; lia. }
    assert (byte + full_bytes f <= n /\ fit fs (byte + (f_size f + bit) / 8) ((bit + f_size f) mod 8) = true) as [C FT'] by (destruct (fit fs _ _); lia).
    assert (ps_byte s = byte /\ ps_bit s = bit /\ ps_index s = ps_i s) as (EB & Eb & IX) by (destruct ST as (_ & _ & A1 & A2 & A3 & _); auto).
    destruct (full_width f byte S C ltac:(lia)) as [NB NW].
    assert (0 <= nbytes n f) as NN by (rewrite NB; unfold full_bytes; apply Z.div_pos; lia).
    destruct (plain_step s f F ltac:(lia) ltac:(lia) ltac:(lia)) as (v & E); [|exact P|exact IX|].
    { intros q. unfold extract_at. unfold d. apply extract_no_panic; auto; change (s_len (window D sp)) with n; fold n; lia. }
    rewrite NW in E. pose proof (stands_next s f (fs ++ rest) byte bit (f_size f) v ST) as ST'. set (s' := advance _ _ _) in *.
    assert (0 <= (f_size f + bit) / 8) as BP by (apply Z.div_pos; lia).
    destruct (IH s' rest _ _ ST') as (s'' & A1 & A2 & A3 & A4 & A5); [exact T'|apply Z.mod_pos_bound; lia|lia|exact FT'|].
    exists s''. cbn [after]. split; [exact A1|]. split; [exact A2|]. split; [exact A3|]. split.
    { rewrite A4. assert (ps_idx s' = ps_idx s + 1) as ->.
      { unfold s', advance, mid. cbn [ps_i ps_def ps_idx ps_odx ps_byte ps_bit ps_index ps_data]. destruct ST as (_ & _ & _ & _ & _ & -> & _).
        change (0 <? 0) with false. now rewrite andb_false_r, andb_false_l. }
      rewrite zlen_cons. lia. }
    intros fuel. cbn [List.length Nat.add]. rewrite loop_unfold, E. apply A5.
Qed.

(** Does the decoder panic from state s on? *)
Definition panics_from (s : pstate) : Prop := exists fuel p, loop fuel s = Some (Panic p).
Lemma panics_next s s' : step s = SNext s' -> panics_from s <-> panics_from s'.
Proof.
  intros E. split.
  - intros ([|fuel] & p & H); [discriminate H|]. rewrite loop_unfold, E in H. now exists fuel, p.
  - intros (fuel & p & H). exists (S fuel), p. rewrite loop_unfold, E. exact H.
Qed.
Lemma panics_stop s s' : step s = SStop s' -> ~ panics_from s.
Proof. intros E ([|fuel] & p & H); [discriminate H|]. rewrite loop_unfold, E in H. discriminate H. Qed.
Lemma panics_crash s p : step s = SCrash p -> panics_from s.
Proof. intros E. exists 1%nat, p. now rewrite loop_unfold, E. Qed.

Lemma zero_safe fs : forall s bit, n = 0 -> stands s fs 0 bit -> 0 <= bit < 8 ->
  forallb (fun f => (0 <=? f_size f) && plainf (ps_i s) f && (extract_safe f || is_text f)) fs = true -> ~ panics_from s.
Proof.
  induction fs as [|f fs IH]; intros s bit N ST BB T; [eapply panics_stop, stands_end; exact ST|].
  pose proof (stands_field _ _ _ _ _ ST) as F. cbn [forallb] in T. apply andb_true_iff in T as [T T']. apply andb_true_iff in T as [T T3]. apply andb_true_iff in T as [T1 T2].
  assert (ps_byte s = 0 /\ ps_bit s = bit /\ ps_index s = ps_i s) as (EB & Eb & IX) by (destruct ST as (_ & _ & A1 & A2 & A3 & _); auto).
  assert (0 <= (f_size f + 7) / 8) by (apply Z.div_pos; lia).
  assert (nbytes n f = 0) as NB by (unfold nbytes; lia). assert (nbits n f = 0) as NW by (unfold nbits; lia).
  destruct (plain_step s f F ltac:(lia) ltac:(lia) ltac:(lia)) as (v & E); [|exact T2|exact IX|].
  - intros p X. destruct (text_or_safe s f ltac:(lia) ltac:(lia) ltac:(lia) T3) as [TS _]. destruct TS as (_ & b & G & _); [eauto|].
    apply zget_some in G. fold n in G. lia.
  - rewrite NW in E. rewrite (panics_next _ _ E). pose proof (stands_next s f fs 0 bit 0 v ST) as ST'.
    replace (0 + (0 + bit) / 8) with 0 in ST' by (rewrite Z.div_small; lia). rewrite Z.add_0_r, Z.mod_small in ST' by lia.
    eapply IH; [exact N|exact ST'|exact BB|exact T'].
Qed.
Lemma tail_zero i fs : forall byte bit, tail_ok i fs byte bit = true ->
  forallb (fun f => (0 <=? f_size f) && plainf i f && (extract_safe f || is_text f)) fs = true.
Proof.
  induction fs as [|f fs IH]; intros byte bit T; [reflexivity|]. cbn [tail_ok forallb] in *.
  destruct (tail_ok i fs _ _) eqn:E; [|lia]. rewrite (IH _ _ E). lia.
Qed.
Lemma tail_iff fs s byte bit : stands s fs byte bit -> tail_ok (ps_i s) fs byte bit = true -> 0 <= bit < 8 -> 0 <= byte ->
  panics_from s <-> exists p z, In (p, z) (texts fs byte bit) /\ text_overflow D p z.
Proof.
  intros ST T BB PB. rewrite <- (overflow_texts fs _ _ _ T) by lia. pose proof (zlen_nonneg D) as LD. fold n in LD.
  destruct (Z_lt_dec 0 byte) as [C|C]; [|destruct (Z_lt_dec 0 n) as [C'|C']].
  1, 2: destruct (tail_exact fs s byte bit ST T BB PB ltac:(lia)) as [A1 A2]; split; [intros (fuel & p & H); eauto|];
    intros O; destruct (A2 O (S (List.length fs)) ltac:(lia)) as (p & H); exists (S (List.length fs)), p; exact H.
  assert (byte = 0) as -> by lia. split.
  - intros P. exfalso. revert P. eapply zero_safe; [lia|exact ST|exact BB|]. eapply tail_zero; exact T.
  - intros O. apply (overflow_fits _ _ _ _ T ltac:(lia)) in O. lia.
Qed.
Lemma head_iff fs s rest byte bit : stands s (fs ++ rest) byte bit -> head_ok (ps_i s) fs = true -> 0 <= bit < 8 -> 0 <= byte -> fit fs byte bit = true ->
  exists s', stands s' rest (fst (after fs byte bit)) (snd (after fs byte bit)) /\ ps_i s' = ps_i s /\ ps_def s' = ps_def s /\ ps_idx s' = ps_idx s + zlen fs /\
    (panics_from s <-> panics_from s').
Proof.
  intros ST T BB PB FT. destruct (run_head fs s rest byte bit ST T BB PB FT) as (s' & A1 & A2 & A3 & A4 & A5). exists s'. do 4 (split; [assumption|]).
  split.
  - intros (fuel & p & H). cbv beta in A5. destruct (Nat.le_gt_cases (List.length fs) fuel) as [C|C].
    + exists (fuel - List.length fs)%nat, p. rewrite <- A5. replace (List.length fs + (fuel - List.length fs))%nat with fuel by lia. exact H.
    + exfalso. pose proof (A5 O) as A6. rewrite Nat.add_0_r in A6.
      assert (forall a b q, loop a q = Some (Panic p) -> loop (a + b)%nat q = Some (Panic p)) as MONO.
      { clear. induction a as [|a IH]; intros b q H; [discriminate H|]. cbn [Nat.add]. rewrite loop_unfold in *.
        destruct (parse_step pl t d j one q); try discriminate H; [now apply IH|exact H]. }
      apply (MONO fuel (List.length fs - fuel)%nat) in H. cbv beta in H. replace (fuel + (List.length fs - fuel))%nat with (List.length fs) in H by lia.
      rewrite A6 in H. discriminate H.
  - intros (fuel & p & H). exists (List.length fs + fuel)%nat, p. cbv beta in A5. rewrite A5. exact H.
Qed.
(** The message ends within these fields. *)
Lemma head_cut fs : forall s rest byte bit, stands s (fs ++ rest) byte bit -> head_ok (ps_i s) fs = true -> 0 <= bit < 8 -> 0 <= byte -> 0 < n ->
  Forall (fun f => 0 < f_size f) rest -> fit fs byte bit = false -> ~ panics_from s.
Proof.
  induction fs as [|f fs IH]; intros s rest byte bit ST T BB PB PN FR FT; [discriminate FT|].
  cbn [app] in ST. pose proof (stands_field _ _ _ _ _ ST) as F. cbn [head_ok] in T. cbn [fit] in FT.
  assert (0 < f_size f /\ plainf (ps_i s) f = true /\ extract_safe f = true /\ head_ok (ps_i s) fs = true) as (S & P & ES & T').
  { destruct (plainf _ _), (extract_safe f), (head_ok _ _); cbn in T |- *; repeat split; auto; lia. }
  assert (ps_byte s = byte /\ ps_bit s = bit /\ ps_index s = ps_i s) as (EB & Eb & IX) by (destruct ST as (_ & _ & A1 & A2 & A3 & _); auto).
  assert (1 <= full_bytes f) as FB by (unfold full_bytes; apply Z.div_le_lower_bound; lia).
  destruct (Z_le_dec (byte + full_bytes f) n) as [C|C].
  - destruct (full_width f byte S C ltac:(lia)) as [NB NW].
    destruct (plain_step s f F ltac:(lia) ltac:(lia) ltac:(lia)) as (v & E); [|exact P|exact IX|].
    { intros q. unfold extract_at. unfold d. apply extract_no_panic; auto; change (s_len (window D sp)) with n; fold n; lia. }
    rewrite NW in E. rewrite (panics_next _ _ E). eapply IH; [eapply stands_next; exact ST|exact T'|apply Z.mod_pos_bound; lia| |exact PN|exact FR|].
    + assert (0 <= (f_size f + bit) / 8) by (apply Z.div_pos; lia). lia.
    + destruct (fit fs _ _); [lia|reflexivity].
  - destruct (Z_lt_dec 0 byte) as [BP|BP].
    { eapply panics_stop, (stop_step s f F). rewrite EB. unfold nbytes. unfold full_bytes in *. lia. }
    assert (byte = 0) as -> by lia.
    assert (nbytes n f = n) as NB by (unfold nbytes; unfold full_bytes in *; lia).
    assert (nbits n f = 8 * n) as NW.
    { unfold nbits. rewrite NB. unfold full_bytes in *. assert (8 * n < f_size f + 7 - 6); [|lia].
      pose proof (Z.mod_pos_bound (f_size f + 7) 8 ltac:(lia)). pose proof (Z.div_mod (f_size f + 7) 8 ltac:(lia)). lia. }
    destruct (plain_step s f F ltac:(lia) ltac:(lia) ltac:(lia)) as (v & E); [|exact P|exact IX|].
    { intros q. unfold extract_at. unfold d. apply extract_no_panic; auto; change (s_len (window D sp)) with n; fold n; lia. }
    rewrite NW in E. rewrite (panics_next _ _ E). pose proof (stands_next s f (fs ++ rest) 0 bit (8 * n) v ST) as ST'.
    assert ((8 * n + bit) / 8 = n) as E8 by (symmetry; apply Z.div_unique with bit; lia). rewrite E8 in ST'.
    set (s' := advance _ _ _) in *. destruct (fs ++ rest) as [|g r] eqn:EG; [eapply panics_stop, stands_end; exact ST'|].
    eapply panics_stop, (stop_step s' g (stands_field _ _ _ _ _ ST')). destruct ST' as (_ & _ & -> & _).
    assert (0 < f_size g) as SG.
    { destruct fs as [|g' fs]; cbn [app] in EG; [subst rest; inversion FR; assumption|]. injection EG as <- _. cbn [head_ok] in T'. lia. }
    assert (1 <= (f_size g + 7) / 8) by (apply Z.div_le_lower_bound; lia). unfold nbytes. lia.
Qed.
Lemma stop_iff s f fs byte bit : stands s (f :: fs) byte bit -> 0 < byte -> 0 < f_size f -> n < byte + full_bytes f -> ~ panics_from s.
Proof.
  intros ST PB S C. assert (1 <= full_bytes f) as FB by (unfold full_bytes; apply Z.div_le_lower_bound; lia).
  eapply panics_stop, (stop_step s f (stands_field _ _ _ _ _ ST)). destruct ST as (_ & _ & -> & _). unfold nbytes. unfold full_bytes in *. pose proof (zlen_nonneg D). fold n in H. lia.
Qed.
(** A field that chooses the definition. *)
Lemma stands_jump s f fs byte bit w v i' def' : stands s (f :: fs) byte bit -> zget t i' = Some def' -> p_rep def' = 0 ->
  stands (advance n w (mid s i' def' i' v)) (skipn (Z.to_nat (ps_idx s + 1)) (p_fields def')) (byte + (w + bit) / 8) ((bit + w) mod 8).
Proof.
  intros (I & SK & <- & <- & IX & RP & ZT) Z' RP'. unfold stands, advance, mid. cbn [ps_i ps_def ps_idx ps_odx ps_byte ps_bit ps_index ps_data].
  rewrite RP'. change (0 <? 0) with false. rewrite andb_false_r, andb_false_l. repeat split; auto. lia.
Qed.
Lemma ask_iff s f fs byte bit x : stands s (f :: fs) byte bit -> 0 <= byte -> 0 <= bit -> 0 < f_size f -> byte + full_bytes f <= n -> one = false -> asking f = true ->
  chain_clean t (ps_idx s) (ps_i s) (Z.to_nat (j - ps_i s + 1)) = true ->
  x = bits (le_value (zsub D byte (byte + full_bytes f))) bit (f_size f) ->
  match pick (Z.to_nat (j - ps_i s + 1)) t (ps_idx s) x (ps_i s) with
  | Some i' => exists def', zget t i' = Some def' /\ (p_rep def' = 0 -> exists s',
      stands s' (skipn (Z.to_nat (ps_idx s + 1)) (p_fields def')) (byte + (f_size f + bit) / 8) ((bit + f_size f) mod 8) /\
      ps_i s' = i' /\ ps_def s' = def' /\ ps_idx s' = ps_idx s + 1 /\ step s = SNext s' /\ (panics_from s <-> panics_from s'))
  | None => panics_from s
  end.
Proof.
  intros ST PB PBT S C O A CC EX. pose proof (stands_field _ _ _ _ _ ST) as F.
  assert (ps_byte s = byte /\ ps_bit s = bit /\ zget t (ps_i s) = Some (ps_def s)) as (EB & Eb & ZT) by (destruct ST as (_ & _ & A1 & A2 & _ & _ & A3); auto).
  destruct (full_width f byte S C PB) as [NB NW].
  pose proof (ask_step s f F ZT ltac:(lia) ltac:(lia) ltac:(lia) ltac:(lia) O A CC) as K. cbv zeta in K.
  rewrite NB, NW, EB, Eb, (Z.add_comm (full_bytes f) byte), <- EX in K.
  destruct (pick _ t (ps_idx s) x (ps_i s)) as [i'|].
  - destruct K as (def' & v & Z' & E). exists def'. split; [exact Z'|]. intros RP. eexists. split; [eapply stands_jump; eassumption|].
    split; [reflexivity|]. split; [reflexivity|]. split; [|split; [exact E|now apply panics_next]].
    unfold advance, mid. cbn [ps_i ps_def ps_idx ps_odx ps_byte ps_bit ps_index ps_data]. rewrite RP. change (0 <? 0) with false. now rewrite andb_false_r, andb_false_l.
  - destruct K as (p & E). eapply panics_crash; exact E.
Qed.
End Crash.
