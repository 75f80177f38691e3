(** NmeaProps1: C28-C38, table lookup and field extractors. *)
From Coq Require Import Reals Lra Floats.SpecFloat.
From Flocq Require Import Core BinarySingleNaN.
From Verif Require Import GoBase BufFacts Strconv CanModel NmeaTypes LookupTable PgnTable NmeaModel NmeaSpec NmeaFloat NmeaExtract.
Open Scope Z_scope.
Open Scope list_scope.

(* ------------------------------------------------------------------ C28 *)

Lemma first_from_spec t : forall id b,
  match first_from b t id with
  | Some (k, p) => b <= k /\ is_first t id (k - b) p
  | None => no_def t id
  end.
Proof.
  induction t as [|q t IH]; intros id b; cbn [first_from].
  - intros k p [H _]. apply zget_some in H. change (zlen (@nil pgn_def)) with 0 in H. lia.
  - destruct (Z.eqb_spec id (p_pgn q)) as [E|E].
    + split; [lia|]. rewrite Z.sub_diag. split; [split; [reflexivity|congruence]|].
      intros k' p' [H _]. apply zget_some in H. lia.
    + specialize (IH id (b + 1)). destruct (first_from (b + 1) t id) as [[k p]|].
      * destruct IH as [Hb [[H1 H2] H3]]. split; [lia|]. split.
        -- split; [|exact H2]. rewrite zget_cons_S by lia. rewrite <- H1. f_equal. lia.
        -- intros k' p' [G1 G2]. destruct (Z.eq_dec k' 0) as [->|N].
           ++ rewrite zget_cons_0 in G1. congruence.
           ++ pose proof (zget_some _ _ _ G1). rewrite zget_cons_S in G1 by lia.
              specialize (H3 (k' - 1) p' (conj G1 G2)). lia.
      * intros k' p' [G1 G2]. destruct (Z.eq_dec k' 0) as [->|N].
        -- rewrite zget_cons_0 in G1. congruence.
        -- pose proof (zget_some _ _ _ G1). rewrite zget_cons_S in G1 by lia. now apply (IH (k' - 1) p').
Qed.

Lemma last_from_spec t : forall id b,
  match last_from b t id with
  | Some (k, p) => b <= k /\ is_last t id (k - b) p
  | None => no_def t id
  end.
Proof.
  induction t as [|q t IH]; intros id b; cbn [last_from].
  - intros k p [H _]. apply zget_some in H. change (zlen (@nil pgn_def)) with 0 in H. lia.
  - specialize (IH id (b + 1)). destruct (last_from (b + 1) t id) as [[k p]|].
    + destruct IH as [Hb [[H1 H2] H3]]. split; [lia|]. split.
      * split; [|exact H2]. rewrite zget_cons_S by lia. rewrite <- H1. f_equal. lia.
      * intros k' p' [G1 G2]. destruct (Z.eq_dec k' 0) as [->|N]; [lia|].
        pose proof (zget_some _ _ _ G1). rewrite zget_cons_S in G1 by lia.
        specialize (H3 (k' - 1) p' (conj G1 G2)). lia.
    + destruct (Z.eqb_spec id (p_pgn q)) as [E|E].
      * split; [lia|]. rewrite Z.sub_diag. split; [split; [reflexivity|congruence]|].
        intros k' p' [G1 G2]. destruct (Z.eq_dec k' 0) as [->|N]; [lia|].
        pose proof (zget_some _ _ _ G1). rewrite zget_cons_S in G1 by lia. now elim (IH (k' - 1) p').
      * intros k' p' [G1 G2]. destruct (Z.eq_dec k' 0) as [->|N].
        -- rewrite zget_cons_0 in G1. congruence.
        -- pose proof (zget_some _ _ _ G1). rewrite zget_cons_S in G1 by lia. now apply (IH (k' - 1) p').
Qed.

(** First returns the lowest entry of the PGN; entry 0 when the PGN has none. *)
Theorem C28_first t id k p : pgn_first t id = Ret (k, p) ->
  is_first t id k p \/ (no_def t id /\ k = 0 /\ zget t 0 = Some p).
Proof.
  unfold pgn_first. pose proof (first_from_spec t id 0) as H. destruct (first_from 0 t id) as [[k' p']|].
  - intros E. injection E as <- <-. left. rewrite Z.sub_0_r in H. tauto.
  - destruct t; intros E; [discriminate|]. injection E as <- <-. right. auto.
Qed.
Theorem C28_last t id k p : pgn_last t id = Ret (k, p) ->
  is_last t id k p \/ (no_def t id /\ k = 0 /\ zget t 0 = Some p).
Proof.
  unfold pgn_last. pose proof (last_from_spec t id 0) as H. destruct (last_from 0 t id) as [[k' p']|].
  - intros E. injection E as <- <-. left. rewrite Z.sub_0_r in H. tauto.
  - destruct t; intros E; [discriminate|]. injection E as <- <-. right. auto.
Qed.
(** Both return on every non-empty table. *)
Theorem C28_total t id : t <> [] -> (exists k p, pgn_first t id = Ret (k, p)) /\ (exists k p, pgn_last t id = Ret (k, p)).
Proof.
  intros H. unfold pgn_first, pgn_last. destruct t as [|q t]; [congruence|]. split.
  - destruct (first_from 0 (q :: t) id) as [[k p]|]; eauto.
  - destruct (last_from 0 (q :: t) id) as [[k p]|]; eauto.
Qed.

(** In the shipped table the entries of one PGN are contiguous. *)
Fixpoint contiguous_at (t : list pgn_def) : bool :=
  match t with
  | [] => true
  | p :: r => match r with
              | [] => true
              | q :: _ => ((p_pgn p =? p_pgn q) || forallb (fun x => negb (p_pgn x =? p_pgn p)) r)
              end && contiguous_at r
  end.
Lemma contiguous_sound t : contiguous_at t = true ->
  forall id a b k p q r, defines t id a p -> defines t id b q -> a <= k <= b -> zget t k = Some r -> p_pgn r = id.
Proof.
  induction t as [|x t IH]; intros C id a b k p q r [Ha Hp] [Hb Hq] Hk Hr.
  - apply zget_some in Hr. change (zlen (@nil pgn_def)) with 0 in Hr. lia.
  - cbn [contiguous_at] in C. apply andb_true_iff in C as [C1 C2].
    pose proof (zget_some _ _ _ Ha). pose proof (zget_some _ _ _ Hb).
    destruct (Z.eq_dec k 0) as [->|Nk].
    { assert (a = 0) as -> by lia. congruence. }
    destruct (Z.eq_dec a 0) as [->|Na].
    + rewrite zget_cons_0 in Ha. injection Ha as ->.
      rewrite zget_cons_S in Hb, Hr by lia.
      destruct t as [|y t]; [apply zget_some in Hr; change (zlen (@nil pgn_def)) with 0 in Hr; lia|].
      apply orb_true_iff in C1 as [C1|C1].
      * apply (IH C2 id 0 (b - 1) (k - 1) y q r); try (split; [assumption|assumption]); auto.
        -- split; [reflexivity|]. apply Z.eqb_eq in C1. congruence.
        -- lia.
      * rewrite forallb_forall in C1. assert (In q (y :: t)) as I.
        { unfold zget in Hb. destruct (b - 1 <? 0); [discriminate|]. eapply nth_error_In; eauto. }
        specialize (C1 q I). rewrite Hp, Hq, Z.eqb_refl in C1. discriminate.
    + rewrite zget_cons_S in Ha, Hb, Hr by lia.
      apply (IH C2 id (a - 1) (b - 1) (k - 1) p q r); try (split; assumption); auto. lia.
Qed.
Lemma PgnList_contiguous : contiguous_at PgnList = true.
Proof. vm_compute. reflexivity. Qed.

(** For every PGN in the shipped table, the entries between First and Last are exactly its
    definitions. *)
Theorem C28_range id i p j q : pgn_first PgnList id = Ret (i, p) -> pgn_last PgnList id = Ret (j, q) ->
  ~ no_def PgnList id -> forall k r, zget PgnList k = Some r -> (i <= k <= j <-> p_pgn r = id).
Proof.
  intros F L N k r Hr. apply C28_first in F as [[F1 F2]|[F _]]; [|contradiction].
  apply C28_last in L as [[L1 L2]|[L _]]; [|contradiction]. split.
  - intros H. exact (contiguous_sound _ PgnList_contiguous id i j k p q r F1 L1 H Hr).
  - intros E. split; [apply (F2 k r)|apply (L2 k r)]; split; assumption.
Qed.
Example C28_example : exists p q, pgn_first PgnList 130816 = Ret (180, p) /\ pgn_last PgnList 130816 = Ret (198, q)
  /\ pgn_first PgnList 1 = Ret (0, pgn_000) /\ ~ no_def PgnList 130816.
Proof.
  eexists. eexists. split; [vm_compute; reflexivity|]. split; [vm_compute; reflexivity|]. split; [vm_compute; reflexivity|].
  intros N. apply (N 180 pgn_180). split; vm_compute; reflexivity.
Qed.

(* ------------------------------------------------------------------ C29 *)

Lemma sum_sizes_total fs : sum_sizes fs = total_bits fs.
Proof. induction fs as [|f fs IH]; cbn; [reflexivity|]. now rewrite IH. Qed.

(** FieldOffsets: byte and bit of the sum of the preceding sizes, and the field's extent. *)
Theorem C29_offsets p idx f : zget (p_fields p) idx = Some f -> 0 <= f_size f ->
  exists lo hi sb w, field_offsets p idx = Ret (lo, hi, sb, w) /\
    8 * lo + sb = total_bits (firstn (Z.to_nat idx) (p_fields p)) /\ 0 <= sb < 8 /\
    w = f_size f /\ 8 * (hi - lo) - 8 < w <= 8 * (hi - lo).
Proof.
  intros H Hs. unfold field_offsets. rewrite H. do 4 eexists. split; [reflexivity|].
  rewrite sum_sizes_total. set (o := total_bits _). repeat split; try dm.
Qed.
Theorem C29_out_of_range p idx : ~ (0 <= idx < zlen (p_fields p)) -> exists w, field_offsets p idx = Panic w.
Proof.
  intros H. unfold field_offsets. assert (zget (p_fields p) idx = None) as -> by (apply zget_none; lia). eauto.
Qed.
Example C29_example : field_offsets pgn_003 6 = Ret (6, 7, 1, 7).
Proof. reflexivity. Qed.

(* ------------------------------------------------------------------ C30 *)

Lemma integral_not_scaled r : integral_res r -> res_scales r = false.
Proof. intros [[n ->]|[->|[->| ->]]]; cbn; [now rewrite Pos.eqb_refl|reflexivity..]. Qed.

(** The raw integer of an unsigned numeric field is the given bit range of its bytes. *)
Theorem C30_raw_bits f D spare s e o w :
  bytes_ok D -> 0 <= s <= e -> e <= zlen D -> e - s <= 8 -> 0 <= o -> 0 <= w <= 64 ->
  f_signed f = false -> integral_res (f_res f) ->
  extract_number f (window D spare) s e o w = Ret (VUint64 (bits (le_value (zsub D s e)) o w)).
Proof.
  intros HD Hs He H8 Ho Hw Hsg HI. rewrite number_in by assumption.
  unfold num_gval. now rewrite (integral_not_scaled _ HI), Hsg.
Qed.
(** When the bit range stays inside these bytes it is a bit range of the whole message ... *)
Theorem C30_inside D s e o w : bytes_ok D -> 0 <= s <= e -> e <= zlen D -> 0 <= o -> 0 <= w -> o + w <= 8 * (e - s) ->
  bits (le_value (zsub D s e)) o w = bits (le_value D) (8 * s + o) w.
Proof. intros. rewrite bits_of_part by assumption. replace (Z.min w (Z.max 0 (8 * (e - s) - o))) with w by lia. reflexivity. Qed.
(** ... otherwise the bits beyond them are lost (read as zero). *)
Theorem C30_straddling D s e o w : bytes_ok D -> 0 <= s <= e -> e <= zlen D -> 0 <= o -> 8 * (e - s) < o + w -> o <= 8 * (e - s) ->
  bits (le_value (zsub D s e)) o w = bits (le_value D) (8 * s + o) (8 * (e - s) - o).
Proof.
  intros. rewrite bits_of_part by (assumption || lia).
  replace (Z.min w (Z.max 0 (8 * (e - s) - o))) with (8 * (e - s) - o) by lia. reflexivity.
Qed.
(** Extraction fails exactly for fields wider than eight bytes: no value is ever reported as not
    present, and nothing panics. *)
Theorem C30_fails_iff f D spare s e o w :
  bytes_ok D -> 0 <= s <= e -> e <= zlen D -> 0 <= o -> 0 <= w <= 64 ->
  ((exists err, extract_number f (window D spare) s e o w = Err err) <-> 8 < e - s) /\
  (forall p, extract_number f (window D spare) s e o w <> Panic p).
Proof.
  intros HD Hs He Ho Hw. destruct (Z_le_dec (e - s) 8) as [C|C].
  - rewrite number_in by assumption. split; [|discriminate]. split; [intros [x H]; discriminate|lia].
  - rewrite number_wide by lia. split; [|discriminate]. split; [lia|eauto].
Qed.
(** The fields of the shipped table that straddle: (table index, field index), positions taken
    from the sum of the preceding sizes. *)
Definition numeric_res (r : resolution) : bool :=
  match r with RPos _ _ => true | RNeg k => (k =? 8) || (k =? 9) || (k =? 10) || (k =? 12) | RZero => false end.
Fixpoint straddling_from (i k off : Z) (fs : list field) : list (Z * Z) :=
  match fs with
  | [] => []
  | f :: r => (if numeric_res (f_res f) && (8 * ((f_size f + 7) / 8) <? off mod 8 + f_size f) then [(i, k)] else [])
              ++ straddling_from i (k + 1) (off + f_size f) r
  end.
Fixpoint straddling (i : Z) (t : list pgn_def) : list (Z * Z) :=
  match t with [] => [] | p :: r => straddling_from i 0 0 (p_fields p) ++ straddling (i + 1) r end.
Theorem C30_table_straddling :
  straddling 0 PgnList =
    [(62, 5); (62, 6); (62, 7); (62, 8); (62, 9); (62, 10); (62, 11); (62, 12); (62, 13); (62, 14); (62, 15); (97, 4); (97, 5); (97, 6); (97, 7); (113, 25); (148, 7); (148, 8); (148, 9); (149, 7); (149, 18); (150, 14); (150, 15); (156, 11); (269, 4); (269, 5); (269, 6); (269, 7)].
Proof. vm_compute. reflexivity. Qed.
(** A field inside its bytes. *)
Example C30_example : extract_number (mkfield "x" 11 RES_INTEGER false UNil 0) (window [0x34; 0x12; 0xff] []) 0 2 1 11
  = Ret (VUint64 (bits 0x1234 1 11)).
Proof. vm_compute. reflexivity. Qed.

(* ------------------------------------------------------------------ C31 *)

Lemma sx_twos w x : 0 < w -> 0 <= x < 2 ^ w -> sx w x = twos w x.
Proof. intros Hw H. unfold sx, twos. now rewrite Z.mod_small by lia. Qed.
Lemma sx_small w x : 0 < w -> 0 <= x < 2 ^ (w - 1) -> sx w x = x.
Proof.
  intros Hw H. assert (2 ^ (w - 1) < 2 ^ w) by (apply Z.pow_lt_mono_r; lia).
  unfold sx. rewrite Z.mod_small by lia. destruct (x <? 2 ^ (w - 1)) eqn:E; lia.
Qed.

(** Signed fields of 8, 16, 32 and 64 bits are read in two's complement. *)
Theorem C31_signed f D spare s e o :
  bytes_ok D -> 0 <= s <= e -> e <= zlen D -> e - s <= 8 -> 0 <= o ->
  f_signed f = true -> integral_res (f_res f) ->
  let raw := bits (le_value (zsub D s e)) o (f_size f) in
  let v := twos (f_size f) raw in
  (f_size f = 8 -> extract_number f (window D spare) s e o 8 = Ret (VInt8 v)) /\
  (f_size f = 16 -> extract_number f (window D spare) s e o 16 = Ret (VInt16 v)) /\
  (f_size f = 32 -> extract_number f (window D spare) s e o 32 = Ret (VInt32 v)) /\
  (f_size f = 64 -> extract_number f (window D spare) s e o 64 = Ret (VInt64 v)).
Proof.
  intros HD Hs He H8 Ho Hsg HI raw v.
  assert (forall w, 0 < w -> 0 <= bits (le_value (zsub D s e)) o w < 2 ^ w) as B.
  { intros w Hw. apply Z.mod_pos_bound. apply Z.pow_pos_nonneg; lia. }
  repeat split; intros Hz; rewrite number_in by (assumption || lia);
    unfold num_gval; rewrite (integral_not_scaled _ HI), Hsg; subst v raw; rewrite Hz; cbn [Z.leb Z.compare Pos.compare Pos.compare_cont];
    [unfold i8|unfold i16|unfold i32|unfold i64]; rewrite sx_twos by (lia || (apply B; lia)); reflexivity.
Qed.
(** For any other width the sign bit is not honoured: the value is the raw non-negative number. *)
Theorem C31_other_widths size raw : 0 < size < 64 -> size <> 8 -> size <> 16 -> size <> 32 -> 0 <= raw < 2 ^ size ->
  signed_value size raw = raw.
Proof.
  intros Hs N8 N16 N32 Hr. unfold signed_value.
  assert (forall w, size < w -> 0 <= raw < 2 ^ (w - 1)) as B.
  { intros w Hw. split; [lia|]. apply Z.lt_le_trans with (2 ^ size); [lia|]. apply Z.pow_le_mono_r; lia. }
  destruct (size <=? 8) eqn:E1; [apply sx_small; [lia|apply B; lia]|].
  destruct (size <=? 16) eqn:E2; [apply sx_small; [lia|apply B; lia]|].
  destruct (size <=? 32) eqn:E3; [apply sx_small; [lia|apply B; lia]|].
  apply sx_small; [lia|apply B; lia].
Qed.
(** Every signed field of the shipped table that is decoded as a number has one of these sizes. *)
Theorem C31_table : forall p f, In p PgnList -> In f (p_fields p) -> f_signed f = true ->
  f_size f = 8 \/ f_size f = 16 \/ f_size f = 32 \/ f_size f = 64.
Proof.
  assert (forallb (fun p => forallb (fun f => negb (f_signed f) || (f_size f =? 8) || (f_size f =? 16) || (f_size f =? 32) || (f_size f =? 64)) (p_fields p)) PgnList = true) as H
    by (vm_compute; reflexivity).
  intros p f Ip If Hs. rewrite forallb_forall in H. specialize (H p Ip). rewrite forallb_forall in H. specialize (H f If).
  rewrite Hs in H. cbn [negb orb] in H. lia.
Qed.
(** Unsigned fields: C30_raw_bits.  A 16-bit example of both. *)
Example C31_example :
  extract_number (mkfield "x" 16 RES_INTEGER true UNil 0) (window [0xfe; 0xff] []) 0 2 0 16 = Ret (VInt16 (-2)) /\
  extract_number (mkfield "x" 16 RES_INTEGER false UNil 0) (window [0xfe; 0xff] []) 0 2 0 16 = Ret (VUint64 65534) /\
  extract_number (mkfield "x" 12 RES_INTEGER true UNil 0) (window [0xfe; 0xff] []) 0 2 0 12 = Ret (VInt16 4094).
Proof. vm_compute. auto. Qed.

(* ------------------------------------------------------------------ C32 *)

Global Instance prec53 : Prec_gt_0 53 := eq_refl.
Global Instance emax1024 : Prec_lt_emax 53 1024 := eq_refl.
Global Instance prec24 : Prec_gt_0 24 := eq_refl.
Global Instance emax128 : Prec_lt_emax 24 128 := eq_refl.

Lemma n64 r : nearest64 r = round radix2 (SpecFloat.fexp 53 1024) ZnearestE r.
Proof. reflexivity. Qed.
Lemma n32 r : nearest32 r = round radix2 (SpecFloat.fexp 24 128) ZnearestE r.
Proof. reflexivity. Qed.

Lemma IZR_le_bpow v k : 0 <= k -> Z.abs v <= 2 ^ k -> (Rabs (IZR v) <= bpow radix2 k)%R.
Proof.
  intros Hk H. rewrite <- abs_IZR. rewrite <- IZR_Zpower by lia. apply IZR_le. exact H.
Qed.
Lemma n64_le r k : -1074 <= k -> (Rabs r <= bpow radix2 k)%R -> (Rabs (nearest64 r) <= bpow radix2 k)%R.
Proof. intros. rewrite n64. apply rnd_le_bpow; [exact prec53|assumption|assumption]. Qed.
Lemma n32_le r k : -149 <= k -> (Rabs r <= bpow radix2 k)%R -> (Rabs (nearest32 r) <= bpow radix2 k)%R.
Proof. intros. rewrite n32. apply rnd_le_bpow; [exact prec24|assumption|assumption]. Qed.
Lemma lt_bpow r k m : k < m -> (Rabs r <= bpow radix2 k)%R -> (Rabs r < bpow radix2 m)%R.
Proof. intros H1 H2. eapply Rle_lt_trans; [exact H2|]. now apply bpow_lt. Qed.

Lemma of_Z64 v : Z.abs v <= 2 ^ 64 -> sf_is 53 1024 (f64_of_Z v) (nearest64 (IZR v)).
Proof.
  intros H. unfold f64_of_Z. rewrite n64. apply sf_of_Z; [exact prec53|exact emax1024|].
  rewrite <- n64. apply lt_bpow with 64; [lia|]. apply n64_le; [lia|]. now apply IZR_le_bpow.
Qed.
Lemma of_Z32 v : Z.abs v <= 2 ^ 64 -> sf_is 24 128 (f32_of_Z v) (nearest32 (IZR v)).
Proof.
  intros H. unfold f32_of_Z. rewrite n32. apply sf_of_Z; [exact prec24|exact emax128|].
  rewrite <- n32. apply lt_bpow with 64; [lia|]. apply n32_le; [lia|]. now apply IZR_le_bpow.
Qed.
Lemma n64_exact v : Z.abs v <= 2 ^ 53 -> nearest64 (IZR v) = IZR v.
Proof. intros H. rewrite n64. apply rnd_exact_Z; [exact prec53|vm_compute; discriminate|exact H]. Qed.
Lemma n32_exact v : Z.abs v <= 2 ^ 24 -> nearest32 (IZR v) = IZR v.
Proof. intros H. rewrite n32. apply rnd_exact_Z; [exact prec24|vm_compute; discriminate|exact H]. Qed.

Lemma bits_bound x o w : 0 <= w -> 0 <= bits x o w < 2 ^ w.
Proof. intros. apply Z.mod_pos_bound. apply Z.pow_pos_nonneg; lia. Qed.
Lemma sx_bound w x : 0 < w -> - 2 ^ (w - 1) <= sx w x < 2 ^ (w - 1).
Proof.
  intros Hw. unfold sx. pose proof (Z.mod_pos_bound x (2 ^ w) ltac:(apply Z.pow_pos_nonneg; lia)) as B.
  assert (2 ^ w = 2 * 2 ^ (w - 1)) as E by (rewrite <- Z.pow_succ_r by lia; f_equal; lia).
  destruct (x mod 2 ^ w <? 2 ^ (w - 1)) eqn:C; lia.
Qed.
Lemma signed_value_bound size x : Z.abs (signed_value size x) <= 2 ^ 63.
Proof.
  unfold signed_value, i8, i16, i32, i64.
  pose proof (sx_bound 8 x eq_refl). pose proof (sx_bound 16 x eq_refl).
  pose proof (sx_bound 32 x eq_refl). pose proof (sx_bound 64 x eq_refl).
  change (2 ^ (8 - 1)) with 128 in *. change (2 ^ (16 - 1)) with 32768 in *.
  change (2 ^ (32 - 1)) with 2147483648 in *. change (2 ^ (64 - 1)) with 9223372036854775808 in *.
  change (2 ^ 63) with 9223372036854775808.
  destruct (size <=? 8), (size <=? 16), (size <=? 32); lia.
Qed.

(** The integer a numeric field stands for: the raw bits, or their signed reading. *)
Definition field_int (f : field) (raw : Z) : Z := if f_signed f then signed_value (f_size f) raw else raw.

(** A resolution p/q within 2^-900 .. 2^900. *)
Definition moderate (p q : positive) : Prop :=
  (bpow radix2 (-900) <= IZR (Zpos p) / IZR (Zpos q) <= bpow radix2 900)%R.

(** Scaled field: the product of the nearest doubles, rounded to the nearest double. *)
Theorem C32_scaled f D spare s e o w p q :
  bytes_ok D -> 0 <= s <= e -> e <= zlen D -> e - s <= 8 -> 0 <= o -> 0 <= w <= 64 ->
  f_res f = RPos p q -> p <> q -> moderate p q ->
  exists x, extract_number f (window D spare) s e o w = Ret (VFloat64 x) /\
    let v := field_int f (bits (le_value (zsub D s e)) o w) in
    float_is x (nearest64 (nearest64 (IZR v) * nearest64 (IZR (Zpos p) / IZR (Zpos q)))) /\
    (Z.abs v <= 2 ^ 53 -> nearest64 (IZR v) = IZR v).
Proof.
  intros HD Hs He H8 Ho Hw Hres Hpq [M1 M2]. rewrite number_in by assumption.
  set (raw := bits (le_value (zsub D s e)) o w).
  unfold num_gval. rewrite Hres. cbn [res_scales]. destruct (Pos.eqb_spec p q) as [|_]; [contradiction|]. cbn [negb].
  eexists. split; [reflexivity|]. cbv zeta. fold (field_int f raw). set (v := field_int f raw).
  split; [|apply n64_exact].
  assert (Z.abs v <= 2 ^ 64) as Hv.
  { unfold v, field_int. destruct (f_signed f).
    - pose proof (signed_value_bound (f_size f) raw). change (2 ^ 63) with 9223372036854775808 in *. change (2 ^ 64) with 18446744073709551616. lia.
    - unfold raw. pose proof (bits_bound (le_value (zsub D s e)) o w ltac:(lia)).
      assert (2 ^ w <= 2 ^ 64) by (apply Z.pow_le_mono_r; lia). lia. }
  pose proof (of_Z64 v Hv) as SV.
  assert (0 < IZR (Z.pos p) / IZR (Z.pos q))%R as Pos0.
  { apply Rdiv_lt_0_compat; apply IZR_lt; lia. }
  assert (Rabs (nearest64 (IZR (Z.pos p) / IZR (Z.pos q))) <= bpow radix2 900)%R as RB.
  { apply n64_le; [lia|]. rewrite Rabs_pos_eq by lra. exact M2. }
  assert (sf_is 53 1024 (f64_of_ratio p q) (nearest64 (IZR (Zpos p) / IZR (Zpos q)))) as SR.
  { unfold f64_of_ratio. rewrite n64. apply sf_ratio; [exact prec53|exact emax1024|].
    rewrite <- n64. now apply lt_bpow with 900. }
  assert (Rabs (nearest64 (nearest64 (IZR v) * nearest64 (IZR (Z.pos p) / IZR (Z.pos q)))) <= bpow radix2 964)%R as PB.
  { apply n64_le; [lia|]. rewrite Rabs_mult. change 964 with (64 + 900). rewrite bpow_plus.
    apply Rmult_le_compat; try apply Rabs_pos; [|exact RB]. apply n64_le; [lia|]. now apply IZR_le_bpow. }
  assert (sf_is 53 1024 (f64_mul (f64_of_Z v) (res_f64 (RPos p q))) (nearest64 (nearest64 (IZR v) * nearest64 (IZR (Z.pos p) / IZR (Z.pos q))))) as [_ [F E]].
  { unfold f64_mul. cbn [res_f64]. rewrite (n64 (_ * _)). apply sf_mul; [exact prec53|exact emax1024|exact SV|exact SR|].
    rewrite <- n64. now apply lt_bpow with 964. }
  split; assumption.
Qed.

(** Consequence: at most three roundings, so within 2^-51 of the exact n*r (normal range). *)
Lemma n64_rel r : (bpow radix2 (-1000) <= Rabs r)%R -> exists e, (Rabs e <= / 2 * bpow radix2 (-52) /\ nearest64 r = r * (1 + e))%R.
Proof.
  intros H. assert (r <> 0)%R as N.
  { intros ->. rewrite Rabs_R0 in H. pose proof (bpow_gt_0 radix2 (-1000)). lra. }
  exists ((nearest64 r - r) / r)%R. split; [|field; exact N].
  unfold Rdiv. rewrite Rabs_mult, Rabs_inv.
  apply Rmult_le_reg_r with (Rabs r); [now apply Rabs_pos_lt|].
  rewrite Rmult_assoc, Rinv_l, Rmult_1_r by now apply Rabs_no_R0.
  rewrite n64. apply (rnd_rel_error 53 1024 prec53).
  eapply Rle_trans; [|exact H]. apply bpow_le. vm_compute. discriminate.
Qed.
Lemma three_eps a b c : let u := (/ 2 * bpow radix2 (-52))%R in
  (Rabs a <= u -> Rabs b <= u -> Rabs c <= u -> Rabs ((1 + a) * (1 + b) * (1 + c) - 1) <= bpow radix2 (-51))%R.
Proof.
  intros u Ha Hb Hc. assert (bpow radix2 (-52) = / 4503599627370496)%R as E by (simpl; lra).
  assert (bpow radix2 (-51) = / 2251799813685248)%R as E1 by (simpl; lra).
  unfold u in *. rewrite E in *. rewrite E1. clear E E1 u.
  set (u := (/ 2 * / 4503599627370496)%R) in *.
  assert (0 < u)%R as U0 by (unfold u; lra). assert (u <= / 4503599627370496)%R as U1 by (unfold u; lra).
  assert (/ 2251799813685248 = 4 * u)%R as -> by (unfold u; field).
  clearbody u.
  replace ((1 + a) * (1 + b) * (1 + c) - 1)%R with (a + b + c + a * b + a * c + b * c + a * b * c)%R by ring.
  assert (forall x y, Rabs x <= u -> Rabs y <= u -> Rabs (x * y) <= u * u)%R as M.
  { intros x y Hx Hy. rewrite Rabs_mult. apply Rmult_le_compat; auto using Rabs_pos. }
  pose proof (M a b Ha Hb). pose proof (M a c Ha Hc). pose proof (M b c Hb Hc).
  assert (Rabs (a * b * c) <= u * u * u)%R.
  { rewrite Rabs_mult. apply Rmult_le_compat; auto using Rabs_pos. }
  eapply Rle_trans; [apply Rabs_triang|]. eapply Rle_trans; [apply Rplus_le_compat_r, Rabs_triang|].
  eapply Rle_trans; [apply Rplus_le_compat_r, Rplus_le_compat_r, Rabs_triang|].
  eapply Rle_trans; [apply Rplus_le_compat_r, Rplus_le_compat_r, Rplus_le_compat_r, Rabs_triang|].
  eapply Rle_trans; [apply Rplus_le_compat_r, Rplus_le_compat_r, Rplus_le_compat_r, Rplus_le_compat_r, Rabs_triang|].
  eapply Rle_trans; [apply Rplus_le_compat_r, Rplus_le_compat_r, Rplus_le_compat_r, Rplus_le_compat_r, Rplus_le_compat_r, Rabs_triang|].
  assert (u * u <= u * / 4503599627370496)%R by (apply Rmult_le_compat_l; lra).
  assert (u * u * u <= u * / 4503599627370496)%R.
  { rewrite Rmult_assoc. apply Rmult_le_compat_l; [lra|].
    apply Rle_trans with (1 * / 4503599627370496)%R; [apply Rmult_le_compat; lra|lra]. }
  lra.
Qed.
Theorem C32_relative_error v p q : moderate p q -> v <> 0 -> Z.abs v <= 2 ^ 64 ->
  let exact := (IZR v * (IZR (Zpos p) / IZR (Zpos q)))%R in
  (Rabs (nearest64 (nearest64 (IZR v) * nearest64 (IZR (Zpos p) / IZR (Zpos q))) - exact)
    <= bpow radix2 (-51) * Rabs exact)%R.
Proof.
  intros [M1 M2] Hv Hv2 exact.
  assert (1 <= Rabs (IZR v))%R as V1.
  { rewrite <- abs_IZR. apply IZR_le. lia. }
  set (r := (IZR (Z.pos p) / IZR (Z.pos q))%R) in *.
  assert (0 < bpow radix2 (-900))%R as B0 by apply bpow_gt_0.
  assert (bpow radix2 (-1000) <= bpow radix2 (-900))%R as B1 by (apply bpow_le; lia).
  assert (bpow radix2 (-900) <= 1)%R as B2 by (change 1%R with (bpow radix2 0); apply bpow_le; lia).
  assert (bpow radix2 (-52) <= 1)%R as B3 by (change 1%R with (bpow radix2 0); apply bpow_le; lia).
  destruct (n64_rel (IZR v)) as [e1 [H1 E1]]; [lra|].
  destruct (n64_rel r) as [e2 [H2 E2]]; [rewrite Rabs_pos_eq; lra|].
  assert (bpow radix2 (-52) <= / 4)%R as B4.
  { change (/ 4)%R with (/ (IZR (2 ^ 2)))%R. rewrite (IZR_Zpower radix2) by lia. rewrite <- bpow_opp. apply bpow_le. lia. }
  assert (forall e, Rabs e <= / 2 * bpow radix2 (-52) -> / 2 <= 1 + e)%R as H12.
  { intros e He. apply Rabs_le_inv in He. lra. }
  destruct (n64_rel (nearest64 (IZR v) * nearest64 r)) as [e3 [H3 E3]].
  { rewrite E1, E2, !Rabs_mult. rewrite (Rabs_pos_eq r) by lra.
    rewrite (Rabs_pos_eq (1 + e1)) by (specialize (H12 e1 H1); lra).
    rewrite (Rabs_pos_eq (1 + e2)) by (specialize (H12 e2 H2); lra).
    specialize (H12 e1 H1) as A1. specialize (H12 e2 H2) as A2.
    apply Rle_trans with ((1 * / 2) * (bpow radix2 (-900) * / 2))%R.
    - change (-1000) with (-900 + -100). rewrite bpow_plus.
      assert (bpow radix2 (-100) <= / 4)%R.
      { change (/ 4)%R with (/ (IZR (2 ^ 2)))%R. rewrite (IZR_Zpower radix2) by lia. rewrite <- bpow_opp. apply bpow_le. lia. }
      assert (bpow radix2 (-900) * bpow radix2 (-100) <= bpow radix2 (-900) * / 4)%R by (apply Rmult_le_compat_l; lra). lra.
    - apply Rmult_le_compat; try lra; apply Rmult_le_compat; lra. }
  rewrite E3, E1, E2.
  replace (IZR v * (1 + e1) * (r * (1 + e2)) * (1 + e3) - exact)%R with (((1 + e1) * (1 + e2) * (1 + e3) - 1) * exact)%R
    by (unfold exact; ring).
  rewrite Rabs_mult. apply Rmult_le_compat_r; [apply Rabs_pos|]. now apply three_eps.
Qed.

(** Every resolution of the shipped table is covered. *)
Lemma moderate_check p q : (Pos.size_nat p <= 800)%nat -> (Pos.size_nat q <= 800)%nat -> moderate p q.
Proof.
  intros Hp Hq.
  assert (forall x, (Pos.size_nat x <= 800)%nat -> (1 <= IZR (Zpos x) <= bpow radix2 800)%R) as B.
  { intros x Hx. split; [apply IZR_le; lia|].
    rewrite <- (IZR_Zpower radix2) by lia. apply IZR_le.
    assert (forall y, Zpos y < 2 ^ Z.of_nat (Pos.size_nat y)) as S.
    { induction y as [y IH|y IH|]; cbn [Pos.size_nat]; rewrite ?Nat2Z.inj_succ, ?Z.pow_succ_r by lia; try lia.
      all: change (Z.pos y~1) with (2 * Z.pos y + 1) || change (Z.pos y~0) with (2 * Z.pos y) || idtac; try lia. }
    specialize (S x). assert (2 ^ Z.of_nat (Pos.size_nat x) <= 2 ^ 800) by (apply Z.pow_le_mono_r; lia).
    change (radix_val radix2) with 2. lia. }
  destruct (B p Hp) as [P1 P2]. destruct (B q Hq) as [Q1 Q2]. split.
  - apply Rle_trans with (/ IZR (Z.pos q))%R.
    + apply Rle_trans with (/ bpow radix2 800)%R; [rewrite <- bpow_opp; apply bpow_le; lia|]. apply Rinv_le; lra.
    + unfold Rdiv. rewrite <- (Rmult_1_l (/ IZR (Z.pos q))) at 1. apply Rmult_le_compat_r; [|lra].
      left. apply Rinv_0_lt_compat. lra.
  - apply Rle_trans with (IZR (Z.pos p)).
    + unfold Rdiv. rewrite <- (Rmult_1_r (IZR (Z.pos p))) at 2. apply Rmult_le_compat_l; [lra|].
      rewrite <- Rinv_1. apply Rinv_le; lra.
    + eapply Rle_trans; [exact P2|]. apply bpow_le. lia.
Qed.
Theorem C32_table : forall d f p q, In d PgnList -> In f (p_fields d) -> f_res f = RPos p q -> moderate p q.
Proof.
  assert (forallb (fun d => forallb (fun f => match f_res f with RPos p q => (Pos.size_nat p <=? 800)%nat && (Pos.size_nat q <=? 800)%nat | _ => true end) (p_fields d)) PgnList = true) as H
    by (vm_compute; reflexivity).
  intros d f p q Id If Hr. rewrite forallb_forall in H. specialize (H d Id). rewrite forallb_forall in H. specialize (H f If).
  rewrite Hr in H. apply andb_true_iff in H as [H1 H2]. apply moderate_check; now apply Nat.leb_le.
Qed.
(** 0x0102 * 1/100 *)
Example C32_example :
  extract_number (mkfield "Speed" 16 (RPos 1 100) false UNil 0) (window [2; 1] []) 0 2 0 16
  = Ret (VFloat64 (S754_finite false 5809643519307940 (-51))) /\ moderate 1 100.
Proof. split; [vm_compute; reflexivity|]. apply moderate_check; vm_compute; lia. Qed.

(* ------------------------------------------------------------------ C33 *)

Lemma zsub_value D s e : bytes_ok D -> 0 <= s <= e -> e <= zlen D -> 0 <= le_value (zsub D s e) < 2 ^ (8 * (e - s)).
Proof.
  intros HD H1 H2. pose proof (le_value_bound _ (zsub_bytes D s e H1 H2 HD)) as B.
  rewrite zsub_length in B by lia. now rewrite pow256 in B by lia.
Qed.

(** 4-byte coordinates: the float32 quotient by 1e7, unless the value is one of the two
    largest, which mean "not available". *)
Theorem C33_four_bytes D spare s :
  bytes_ok D -> 0 <= s -> s + 4 <= zlen D ->
  let v := twos 32 (le_value (zsub D s (s + 4))) in
  (v <= 2147483645 -> exists x, extract_latlon (window D spare) s (s + 4) = Ret (VFloat32 x) /\
     float_is x (nearest32 (nearest32 (IZR v) / 10000000))) /\
  (2147483645 < v -> exists err, extract_latlon (window D spare) s (s + 4) = Err err).
Proof.
  intros HD Hs Hl v. unfold extract_latlon. rewrite sub_or_panic_in by lia.
  rewrite zsub_length by lia. replace (s + 4 - s) with 4 by lia. cbn [Z.eqb Pos.eqb].
  pose proof (zsub_value D s (s + 4) HD ltac:(lia) ltac:(lia)) as B. replace (8 * (s + 4 - s)) with 32 in B by lia.
  rewrite le_uint_value. unfold i32. rewrite sx_twos by lia. fold v.
  assert (Z.abs v <= 2 ^ 31) as Hv.
  { unfold v. rewrite <- sx_twos by lia. pose proof (sx_bound 32 (le_value (zsub D s (s + 4))) eq_refl) as SB.
    change (2 ^ (32 - 1)) with 2147483648 in SB. change (2 ^ 31) with 2147483648. lia. }
  split; intros Hc.
  - destruct (2147483645 <? v) eqn:E; [lia|]. eexists. split; [reflexivity|].
    assert (sf_is 24 128 (f32_of_Z v) (nearest32 (IZR v))) as A.
    { apply of_Z32. change (2 ^ 31) with 2147483648 in Hv. change (2 ^ 64) with 18446744073709551616. lia. }
    assert (sf_is 24 128 (f32_of_Z 10000000) 10000000%R) as Bq.
    { rewrite <- (n32_exact 10000000) by (vm_compute; discriminate). apply of_Z32. vm_compute. discriminate. }
    assert (Rabs (nearest32 (IZR v)) <= bpow radix2 31)%R as RB by (apply n32_le; [lia|apply IZR_le_bpow; [lia|exact Hv]]).
    destruct (sf_div 24 128 prec24 emax128 _ _ _ _ A Bq) as [_ FE]; [lra| |exact FE].
    rewrite <- n32. apply lt_bpow with 31; [lia|]. apply n32_le; [lia|].
    unfold Rdiv. rewrite Rabs_mult. rewrite (Rabs_pos_eq (/ 10000000)) by lra.
    pose proof (Rabs_pos (nearest32 (IZR v))). pose proof (bpow_gt_0 radix2 31).
    apply Rle_trans with (Rabs (nearest32 (IZR v)) * 1)%R; [apply Rmult_le_compat_l; lra|lra].
  - destruct (2147483645 <? v) eqn:E; [eauto|lia].
Qed.

(** 8-byte coordinates: the float64 quotient by 1e16. *)
Theorem C33_eight_bytes D spare s :
  bytes_ok D -> 0 <= s -> s + 8 <= zlen D ->
  let v := twos 64 (le_value (zsub D s (s + 8))) in
  (v <= 9223372036854775805 -> exists x, extract_latlon (window D spare) s (s + 8) = Ret (VFloat64 x) /\
     float_is x (nearest64 (nearest64 (IZR v) / 10000000000000000))) /\
  (9223372036854775805 < v -> exists err, extract_latlon (window D spare) s (s + 8) = Err err).
Proof.
  intros HD Hs Hl v. unfold extract_latlon. rewrite sub_or_panic_in by lia.
  rewrite zsub_length by lia. replace (s + 8 - s) with 8 by lia. cbn [Z.eqb Pos.eqb].
  pose proof (zsub_value D s (s + 8) HD ltac:(lia) ltac:(lia)) as B. replace (8 * (s + 8 - s)) with 64 in B by lia.
  rewrite le_uint_value. unfold i64. rewrite sx_twos by lia. fold v.
  assert (Z.abs v <= 2 ^ 63) as Hv.
  { unfold v. rewrite <- sx_twos by lia. pose proof (sx_bound 64 (le_value (zsub D s (s + 8))) eq_refl) as SB.
    change (2 ^ (64 - 1)) with 9223372036854775808 in SB. change (2 ^ 63) with 9223372036854775808. lia. }
  split; intros Hc.
  - destruct (9223372036854775805 <? v) eqn:E; [lia|]. eexists. split; [reflexivity|].
    assert (sf_is 53 1024 (f64_of_Z v) (nearest64 (IZR v))) as A.
    { apply of_Z64. change (2 ^ 63) with 9223372036854775808 in Hv. change (2 ^ 64) with 18446744073709551616. lia. }
    assert (sf_is 53 1024 (f64_of_Z 10000000000000000) 10000000000000000%R) as Bq.
    { assert (nearest64 (IZR 10000000000000000) = IZR 10000000000000000) as Ex.
      { (* 10^16 = 2^16 * 5^16 has 38 significant bits *)
        rewrite n64. apply round_generic; [auto with typeclass_instances|].
        apply generic_format_FLT. exists (Float radix2 152587890625 16).
        - unfold F2R. cbn [Fnum Fexp]. rewrite <- (IZR_Zpower radix2) by lia. rewrite <- mult_IZR. reflexivity.
        - cbn [Fnum]. vm_compute. reflexivity.
        - cbn [Fexp]. vm_compute. discriminate. }
      rewrite <- Ex. apply of_Z64. vm_compute. discriminate. }
    assert (Rabs (nearest64 (IZR v)) <= bpow radix2 63)%R as RB by (apply n64_le; [lia|apply IZR_le_bpow; [lia|exact Hv]]).
    destruct (sf_div 53 1024 prec53 emax1024 _ _ _ _ A Bq) as [_ FE]; [lra| |exact FE].
    rewrite <- n64. apply lt_bpow with 63; [lia|]. apply n64_le; [lia|].
    unfold Rdiv. rewrite Rabs_mult. rewrite (Rabs_pos_eq (/ 10000000000000000)) by lra.
    pose proof (Rabs_pos (nearest64 (IZR v))). pose proof (bpow_gt_0 radix2 63).
    apply Rle_trans with (Rabs (nearest64 (IZR v)) * 1)%R; [apply Rmult_le_compat_l; lra|lra].
  - destruct (9223372036854775805 <? v) eqn:E; [eauto|lia].
Qed.

(** Any other size is an error. *)
Theorem C33_other_sizes D spare s e : 0 <= s <= e -> e <= zlen D -> e - s <> 4 -> e - s <> 8 ->
  exists err, extract_latlon (window D spare) s e = Err err.
Proof.
  intros H1 H2 N4 N8. unfold extract_latlon. rewrite sub_or_panic_in by lia. rewrite zsub_length by lia.
  destruct (Z.eqb_spec (e - s) 4); [lia|]. destruct (Z.eqb_spec (e - s) 8); [lia|]. eauto.
Qed.

(** Precision of the 4-byte result: two roundings. *)
Lemma n32_rel r : (bpow radix2 (-100) <= Rabs r)%R -> exists e, (Rabs e <= / 2 * bpow radix2 (-23) /\ nearest32 r = r * (1 + e))%R.
Proof.
  intros H. assert (r <> 0)%R as N.
  { intros ->. rewrite Rabs_R0 in H. pose proof (bpow_gt_0 radix2 (-100)). lra. }
  exists ((nearest32 r - r) / r)%R. split; [|field; exact N].
  unfold Rdiv. rewrite Rabs_mult, Rabs_inv.
  apply Rmult_le_reg_r with (Rabs r); [now apply Rabs_pos_lt|].
  rewrite Rmult_assoc, Rinv_l, Rmult_1_r by now apply Rabs_no_R0.
  rewrite n32. apply (rnd_rel_error 24 128 prec24).
  eapply Rle_trans; [|exact H]. apply bpow_le. vm_compute. discriminate.
Qed.
Theorem C33_precision v : v <> 0 ->
  let exact := (IZR v / 10000000)%R in
  (Rabs (nearest32 (nearest32 (IZR v) / 10000000) - exact) <= (bpow radix2 (-23) + bpow radix2 (-48)) * Rabs exact)%R.
Proof.
  intros Hv exact.
  assert (1 <= Rabs (IZR v))%R as V1 by (rewrite <- abs_IZR; apply IZR_le; lia).
  assert (bpow radix2 (-100) <= / 100000000)%R as B1.
  { apply Rle_trans with (bpow radix2 (-30)); [apply bpow_le; lia|]. simpl. lra. }
  destruct (n32_rel (IZR v)) as [e1 [H1 E1]]; [lra|].
  assert (bpow radix2 (-23) = / 8388608)%R as B23 by (simpl; lra).
  assert (bpow radix2 (-48) = / 281474976710656)%R as B48 by (simpl; lra).
  destruct (n32_rel (nearest32 (IZR v) / 10000000)) as [e2 [H2 E2]].
  { rewrite E1. unfold Rdiv. rewrite !Rabs_mult. rewrite (Rabs_pos_eq (/ 10000000)) by lra.
    rewrite B23 in H1. apply Rabs_le_inv in H1. rewrite (Rabs_pos_eq (1 + e1)) by lra.
    apply Rle_trans with (1 * / 2 * / 10000000)%R; [lra|].
    apply Rmult_le_compat_r; [lra|]. apply Rmult_le_compat; lra. }
  rewrite E2, E1.
  replace (IZR v * (1 + e1) / 10000000 * (1 + e2) - exact)%R with ((e1 + e2 + e1 * e2) * exact)%R by (unfold exact; field).
  rewrite Rabs_mult. apply Rmult_le_compat_r; [apply Rabs_pos|].
  rewrite B23 in *. rewrite B48.
  assert (Rabs (e1 * e2) <= (/ 2 * / 8388608) * (/ 2 * / 8388608))%R.
  { rewrite Rabs_mult. apply Rmult_le_compat; auto using Rabs_pos. }
  eapply Rle_trans; [apply Rabs_triang|]. eapply Rle_trans; [apply Rplus_le_compat_r, Rabs_triang|]. lra.
Qed.
Example C33_example : extract_latlon (window [0; 0x65; 0xcd; 0x1d] []) 0 4 = Ret (VFloat32 (S754_finite false 13107200 (-18))) (* 50.0 *) /\
  (exists e, extract_latlon (window [0xff; 0xff; 0xff; 0x7f] []) 0 4 = Err e).
Proof. split; [vm_compute; reflexivity|]. eexists. vm_compute. reflexivity. Qed.

(* ------------------------------------------------------------------ C34 *)

(** Dates: below 49711 days the instant is d days after the epoch; 0xFFFF is "not available";
    for the other values the day count has wrapped. *)
Theorem C34_dates D spare s : bytes_ok D -> 0 <= s -> s + 2 <= zlen D ->
  let d := le_value (zsub D s (s + 2)) in
  (d < 49711 -> extract_date (window D spare) s (s + 2) = Ret (VTime (86400 * d) 0)) /\
  (49711 <= d < 65535 -> extract_date (window D spare) s (s + 2) = Ret (VTime (86400 * d - 4294967296) 0)) /\
  (d = 65535 -> exists e, extract_date (window D spare) s (s + 2) = Err e).
Proof.
  intros HD Hs Hl d. unfold extract_date. rewrite sub_or_panic_in by lia.
  rewrite zsub_length by lia. replace (s + 2 - s) with 2 by lia. cbn [Z.eqb Pos.eqb negb].
  pose proof (zsub_value D s (s + 2) HD ltac:(lia) ltac:(lia)) as B. replace (8 * (s + 2 - s)) with 16 in B by lia.
  rewrite le_uint_value. fold d in B |- *. change (2 ^ 16) with 65536 in B.
  destruct (Z.eqb_spec d 65535) as [E|E]; repeat split; intros H; try lia; eauto.
  - rewrite u32_id by lia. now rewrite Z.mul_comm.
  - unfold u32. do 2 f_equal. rewrite Z.mul_comm. dm.
Qed.
Theorem C34_size D spare s e : 0 <= s <= e -> e <= zlen D -> e - s <> 2 -> exists err, extract_date (window D spare) s e = Err err.
Proof.
  intros H1 H2 N. unfold extract_date. rewrite sub_or_panic_in by lia. rewrite zsub_length by lia.
  destruct (Z.eqb_spec (e - s) 2); [lia|]. cbn. eauto.
Qed.
(** 18628 days: 2021-01-01; 50000 days: wrong. *)
Example C34_example : extract_date (window [0xc4; 0x48] []) 0 2 = Ret (VTime 1609459200 0) /\
  extract_date (window [0x50; 0xc3] []) 0 2 = Ret (VTime 25032704 0).
Proof. vm_compute. auto. Qed.

(* ------------------------------------------------------------------ C35 *)

(** Times: [clock] seconds after local midnight of 1970-01-01, where clock is the raw value in
    seconds; nanoseconds are ten times too small. *)
Theorem C35_times pl D spare s : bytes_ok D -> 0 <= s -> s + 4 <= zlen D ->
  let t := le_value (zsub D s (s + 4)) in
  (t < 4294967295 -> exists sec ns, extract_time pl (window D spare) s (s + 4) = Ret (VTime sec ns) /\
     let local := sec + pl_tz pl in
     local / 3600 = t / 36000000 /\ local / 60 mod 60 = t / 600000 mod 60 /\ local mod 60 = t / 10000 mod 60 /\
     10 * ns = (t mod 10000) * 100000 /\ 0 <= ns < 100000000) /\
  (t = 4294967295 -> exists e, extract_time pl (window D spare) s (s + 4) = Err e).
Proof.
  intros HD Hs Hl t. unfold extract_time. rewrite sub_or_panic_in by lia.
  rewrite zsub_length by lia. replace (s + 4 - s) with 4 by lia. cbn [Z.eqb Pos.eqb negb].
  pose proof (zsub_value D s (s + 4) HD ltac:(lia) ltac:(lia)) as B. replace (8 * (s + 4 - s)) with 32 in B by lia.
  rewrite le_uint_value. fold t in B |- *. change (2 ^ 32) with 4294967296 in B.
  destruct (Z.eqb_spec t 4294967295) as [E|E]; split; intros H; try lia; eauto.
  eexists. eexists. split; [reflexivity|]. cbv zeta.
  rewrite u32_id by dm.
  replace (t / 10000 / 60 / 60 * 3600 + t / 10000 / 60 mod 60 * 60 + t / 10000 mod 60 - pl_tz pl + pl_tz pl) with (t / 10000) by dm.
  repeat split; try dm.
Qed.
Theorem C35_size pl D spare s e : 0 <= s <= e -> e <= zlen D -> e - s <> 4 -> exists err, extract_time pl (window D spare) s e = Err err.
Proof.
  intros H1 H2 N. unfold extract_time. rewrite sub_or_panic_in by lia. rewrite zsub_length by lia.
  destruct (Z.eqb_spec (e - s) 4); [lia|]. cbn. eauto.
Qed.
(** 23:59:59.9999 decodes with .09999 s. *)
Example C35_example pl : pl_tz pl = 3600 ->
  extract_time pl (window [0xFF; 0x97; 0x7F; 0x33] []) 0 4 = Ret (VTime (86399 - 3600) 99990000).
Proof. intros H. unfold extract_time. rewrite H. reflexivity. Qed.

(* ------------------------------------------------------------------ C36 *)

Lemma small_quot v k r : 0 <= v < 65536 -> 1 <= k <= 2 ^ 24 -> r = IZR k ->
  float_is (f32_div (f32_of_Z v) (f32_of_Z k)) (nearest32 (IZR v / r)).
Proof.
  intros Hv Hk ->.
  assert (sf_is 24 128 (f32_of_Z v) (IZR v)) as A.
  { rewrite <- (n32_exact v) by (change (2 ^ 24) with 16777216; lia). apply of_Z32. change (2 ^ 64) with 18446744073709551616; lia. }
  assert (sf_is 24 128 (f32_of_Z k) (IZR k)) as B.
  { rewrite <- (n32_exact k) by lia. apply of_Z32. change (2 ^ 24) with 16777216 in *; change (2 ^ 64) with 18446744073709551616; lia. }
  assert (1 <= IZR k)%R as K1 by (apply IZR_le; lia).
  assert (0 <= IZR v <= bpow radix2 16)%R as V1.
  { split; [apply IZR_le; lia|]. rewrite <- (IZR_Zpower radix2) by lia. apply IZR_le. change (radix_val radix2 ^ 16) with 65536. lia. }
  destruct (sf_div 24 128 prec24 emax128 _ _ _ _ A B) as [_ FE]; [lra| |exact FE].
  rewrite <- n32. apply lt_bpow with 16; [lia|]. apply n32_le; [lia|].
  unfold Rdiv. assert (0 < / IZR k <= 1)%R as I1.
  { split; [apply Rinv_0_lt_compat; lra|]. rewrite <- Rinv_1. apply Rinv_le; lra. }
  rewrite Rabs_mult. rewrite !Rabs_pos_eq by lra.
  apply Rle_trans with (IZR v * 1)%R; [apply Rmult_le_compat_l; lra|lra].
Qed.

(** Temperatures: hundredths, rounded to float32; 0xFFFD..0xFFFF absent. *)
Theorem C36_temperature D spare s : bytes_ok D -> 0 <= s -> s + 2 <= zlen D ->
  let v := le_value (zsub D s (s + 2)) in
  (v < 65533 -> exists x, extract_temperature (window D spare) s (s + 2) = Ret (VFloat32 x) /\ float_is x (nearest32 (IZR v / 100))) /\
  (65533 <= v -> exists e, extract_temperature (window D spare) s (s + 2) = Err e).
Proof.
  intros HD Hs Hl v. unfold extract_temperature. rewrite sub_or_panic_in by lia.
  rewrite zsub_length by lia. replace (s + 2 - s) with 2 by lia. cbn [Z.eqb Pos.eqb negb].
  pose proof (zsub_value D s (s + 2) HD ltac:(lia) ltac:(lia)) as B. replace (8 * (s + 2 - s)) with 16 in B by lia.
  rewrite le_uint_value. fold v in B |- *. change (2 ^ 16) with 65536 in B.
  destruct (65533 <=? v) eqn:E; split; intros H; try lia; eauto.
  eexists. split; [reflexivity|]. apply small_quot; [lia|vm_compute; split; discriminate|reflexivity].
Qed.
(** Pressures: thousandths. *)
Theorem C36_pressure D spare s : bytes_ok D -> 0 <= s -> s + 2 <= zlen D ->
  let v := le_value (zsub D s (s + 2)) in
  (v < 65533 -> exists x, extract_pressure (window D spare) s (s + 2) = Ret (VFloat32 x) /\ float_is x (nearest32 (IZR v / 1000))) /\
  (65533 <= v -> exists e, extract_pressure (window D spare) s (s + 2) = Err e).
Proof.
  intros HD Hs Hl v. unfold extract_pressure. rewrite sub_or_panic_in by lia.
  rewrite zsub_length by lia. replace (s + 2 - s) with 2 by lia. cbn [Z.eqb Pos.eqb negb].
  pose proof (zsub_value D s (s + 2) HD ltac:(lia) ltac:(lia)) as B. replace (8 * (s + 2 - s)) with 16 in B by lia.
  rewrite le_uint_value. fold v in B |- *. change (2 ^ 16) with 65536 in B.
  destruct (65533 <=? v) eqn:E; split; intros H; try lia; eauto.
  eexists. split; [reflexivity|]. apply small_quot; [lia|vm_compute; split; discriminate|reflexivity].
Qed.
Theorem C36_size D spare s e : 0 <= s <= e -> e <= zlen D -> e - s <> 2 ->
  (exists err, extract_temperature (window D spare) s e = Err err) /\ (exists err, extract_pressure (window D spare) s e = Err err).
Proof.
  intros H1 H2 N. unfold extract_temperature, extract_pressure. rewrite !sub_or_panic_in by lia. rewrite zsub_length by lia.
  destruct (Z.eqb_spec (e - s) 2); [lia|]. cbn. eauto.
Qed.
(** 0x7210 = 29200: 292.0 K *)
Example C36_example : extract_temperature (window [0x10; 0x72] []) 0 2 = Ret (VFloat32 (S754_finite false 9568256 (-15))).
Proof. vm_compute. reflexivity. Qed.

(* ------------------------------------------------------------------ C37 *)

Lemma skipn_step {A} (l : list A) n b : nth_error l n = Some b -> skipn n l = b :: skipn (S n) l.
Proof.
  revert l. induction n as [|n IH]; intros [|x l] H; cbn in H; try discriminate.
  - injection H as ->. reflexivity.
  - cbn [skipn]. now apply IH.
Qed.
Lemma zsub_step {A} (D : list A) i j b : zget D i = Some b -> i < j -> zsub D i j = b :: zsub D (i + 1) j.
Proof.
  intros H Hj. unfold zget in H. destruct (i <? 0) eqn:E; [discriminate|]. unfold zsub.
  rewrite (skipn_step _ _ _ H). replace (Z.to_nat (j - i)) with (S (Z.to_nat (j - (i + 1)))) by lia.
  cbn [firstn]. do 2 f_equal. f_equal. lia.
Qed.
Lemma scan_spec D spare : forall n i, 0 <= i -> i + Z.of_nat n <= zlen D ->
  exists j, scan_text n (window D spare) i = Ret j /\ i <= j <= i + Z.of_nat n /\
    text_of (zsub D i (i + Z.of_nat n)) (zsub D i j).
Proof.
  induction n as [|n IH]; intros i Hi Hl.
  - exists i. cbn [scan_text]. split; [reflexivity|]. split; [lia|]. exists [].
    replace (i + Z.of_nat 0) with i by lia. rewrite app_nil_r. split; [reflexivity|]. split; [|now left].
    unfold zsub. rewrite Z.sub_diag. constructor.
  - cbn [scan_text]. rewrite window_get by lia. destruct (zget_lt D i) as [b Hb]; [lia|]. rewrite Hb.
    destruct (zsub_split D i (i + Z.of_nat (S n))) as [x [y [z [ED [Hx [Hy EY]]]]]]; [lia|lia|].
    destruct y as [|b' y]; [change (zlen (@nil Z)) with 0 in Hy; lia|].
    assert (b' = b) as ->.
    { rewrite ED in Hb. rewrite zget_app_r in Hb by lia. replace (i - zlen x) with 0 in Hb by lia.
      rewrite <- app_comm_cons, zget_cons_0 in Hb. congruence. }
    rewrite zlen_cons in Hy.
    destruct ((b =? 0) || (b =? 255)) eqn:E.
    + exists i. split; [reflexivity|]. split; [lia|]. rewrite EY. exists (b :: y).
      unfold zsub at 1 2. rewrite Z.sub_diag. split; [reflexivity|]. split; [constructor|].
      right. exists b, y. split; [reflexivity|]. lia.
    + destruct (IH (i + 1) ltac:(lia) ltac:(lia)) as [j [Ej [Bj [rest [Er [Fr Dr]]]]]].
      exists j. split; [exact Ej|]. split; [lia|]. exists rest.
      assert (zsub D i j = b :: zsub D (i + 1) j) as C by (apply zsub_step; [exact Hb|lia]).
      assert (zsub D i (i + Z.of_nat (S n)) = b :: zsub D (i + 1) (i + 1 + Z.of_nat n)) as C2.
      { rewrite (zsub_step D i (i + Z.of_nat (S n)) b) by (exact Hb || lia). do 2 f_equal. lia. }
      rewrite C, C2, Er. split; [reflexivity|]. split; [|exact Dr]. constructor; [lia|exact Fr].
Qed.
Lemma text_of_unique l a b : text_of l a -> text_of l b -> a = b.
Proof.
  revert a b. induction l as [|c l IH]; intros a b [ra [Ea [Fa Da]]] [rb [Eb [Fb Db]]].
  - destruct a, b; try discriminate. reflexivity.
  - destruct a as [|x a], b as [|y b].
    + reflexivity.
    + cbn in Ea, Eb. subst ra. injection Eb as <- Eb. apply Forall_inv in Fb.
      destruct Da as [Da|[z [r [Da Dz]]]]; [discriminate|]. injection Da as <- <-. lia.
    + cbn in Ea, Eb. subst rb. injection Ea as <- Ea. apply Forall_inv in Fa.
      destruct Db as [Db|[z [r [Db Dz]]]]; [discriminate|]. injection Db as <- <-. lia.
    + cbn in Ea, Eb. injection Ea as <- Ea. injection Eb as <- Eb. f_equal.
      apply Forall_inv_tail in Fa, Fb. apply IH; [exists ra|exists rb]; auto.
Qed.

(** ASCII fields: the text before the first NUL / 0xFF; absent when empty, and also whenever the
    field reaches the end of the message. *)
Theorem C37_ascii D spare s e text : 0 <= s <= e -> e <= zlen D -> text_of (zsub D s e) text ->
  (e < zlen D -> text <> [] -> extract_string (window D spare) s e = Ret (VString text)) /\
  (e = zlen D \/ text = [] -> exists err, extract_string (window D spare) s e = Err err).
Proof.
  intros H1 H2 HT. unfold extract_string. change (s_len (window D spare)) with (zlen D).
  destruct ((zlen D <=? s) || (zlen D <=? e)) eqn:E.
  { split; [intros; lia|]. eauto. }
  rewrite window_get by lia. destruct (zget_lt D s) as [b Hb]; [lia|]. rewrite Hb.
  destruct (scan_spec D spare (Z.to_nat (e - s)) s) as [j [Ej [Bj Tj]]]; [lia|lia|].
  replace (s + Z.of_nat (Z.to_nat (e - s))) with e in * by lia.
  pose proof (text_of_unique _ _ _ HT Tj) as ->. rewrite Ej.
  pose proof (zsub_length D s j ltac:(lia) ltac:(lia) ltac:(lia)) as ZL.
  destruct (b =? 0) eqn:E0.
  { assert (zsub D s j = []) as T0.
    { destruct Tj as [rest [Er [Fr Dr]]]. destruct (zsub D s j) as [|c r] eqn:Z; [reflexivity|]. exfalso.
      apply Forall_inv in Fr. assert (zget D s = Some c) as G.
      { destruct (zsub_split D s j) as [x [y [z [ED [Hx [Hy EY]]]]]]; [lia|lia|].
        rewrite EY in Z. subst y. rewrite ED, zget_app_r by lia. replace (s - zlen x) with 0 by lia. reflexivity. }
      rewrite Hb in G. injection G as ->. lia. }
    split; [intros _ N; congruence|]. eauto. }
  rewrite sub_or_panic_in by lia.
  destruct (Z.eqb_spec (zlen (zsub D s j)) 0) as [Z0|Z0].
  - apply zlen_0 in Z0. split; [intros _ N; congruence|]. eauto.
  - split; [reflexivity|]. intros [C|C]; [lia|]. rewrite C in Z0. change (zlen (@nil Z)) with 0 in Z0. lia.
Qed.

(** Length-prefixed strings: the byte at s is a count n; the text is the n-1 bytes after it.
    The three other outcomes: absent, and the panic when s+n, computed in eight bits, points
    back at or before s. *)
Theorem C37_stringlz D spare s n : bytes_ok D -> 0 <= s < zlen D -> zget D s = Some n ->
  let stop := (s + n) mod 256 in
  (n = 0 \/ zlen D < stop -> exists e, extract_stringlz (window D spare) s = Err e) /\
  (n <> 0 -> stop <= zlen D -> stop <= s -> exists p, extract_stringlz (window D spare) s = Panic p) /\
  (n <> 0 -> stop = s + 1 -> stop <= zlen D -> exists e, extract_stringlz (window D spare) s = Err e) /\
  (n <> 0 -> s + 1 < stop -> stop <= zlen D ->
     stop = s + n /\ zlen (zsub D (s + 1) stop) = n - 1 /\
     extract_stringlz (window D spare) s = Ret (VString (zsub D (s + 1) stop))).
Proof.
  intros HD Hs Hn stop. unfold extract_stringlz. change (s_len (window D spare)) with (zlen D).
  destruct (zlen D <=? s) eqn:E; [lia|]. rewrite window_get by lia. rewrite Hn.
  assert (is_byte n) as Bn.
  { unfold zget in Hn. destruct (s <? 0); [discriminate|]. apply nth_error_In in Hn.
    unfold bytes_ok in HD. rewrite Forall_forall in HD. now apply HD. }
  unfold is_byte in Bn.
  assert (u8 (n + u8 s) = stop) as -> by (unfold u8, stop; rewrite Z.add_mod_idemp_r by lia; f_equal; lia).
  pose proof (Z.mod_pos_bound (s + n) 256 ltac:(lia)) as Bs. fold stop in Bs.
  destruct (Z.eqb_spec n 0) as [->|N0].
  { repeat split; intros; try lia; eauto. }
  destruct (zlen D <? stop) eqn:E2.
  { repeat split; intros; try lia; eauto. }
  split; [intros [C|C]; lia|].
  destruct (Z_le_dec stop s) as [C|C].
  { split; [|split; [intros; lia|intros; lia]].
    intros _ _ _. unfold sub_or_panic. rewrite s_sub_none by lia. eauto. }
  rewrite sub_or_panic_in by lia.
  split; [intros; lia|]. split.
  - intros _ C1 _. rewrite zsub_length by lia. replace (stop - (s + 1)) with 0 by lia. cbn. eauto.
  - intros _ C1 _. assert (stop = s + n) as ST.
    { unfold stop in *. dm. }
    split; [exact ST|]. rewrite zsub_length by lia. split; [lia|].
    destruct (Z.eqb_spec (stop - (s + 1)) 0); [lia|reflexivity].
Qed.
(** Without wrap-around (s + n < 256) the reading is as intended and never panics. *)
Corollary C37_stringlz_plain D spare s n : bytes_ok D -> 0 <= s < zlen D -> zget D s = Some n -> 2 <= n -> s + n < 256 ->
  (s + n <= zlen D -> extract_stringlz (window D spare) s = Ret (VString (zsub D (s + 1) (s + n)))) /\
  (zlen D < s + n -> exists e, extract_stringlz (window D spare) s = Err e).
Proof.
  intros HD Hs Hn H2 Hw. destruct (C37_stringlz D spare s n HD Hs Hn) as [A [B [C E]]].
  rewrite Z.mod_small in * by lia. split; intros H.
  - destruct (E ltac:(lia) ltac:(lia) ltac:(lia)) as [_ [_ R]]. exact R.
  - apply A. lia.
Qed.
Example C37_example :
  extract_string (window [65; 66; 255; 67; 9] []) 0 4 = Ret (VString [65; 66]) /\
  (exists e, extract_string (window [65; 66; 67; 68] []) 0 4 = Err e) /\
  extract_stringlz (window [3; 72; 73; 9] []) 0 = Ret (VString [72; 73]) /\
  (exists p, extract_stringlz (window ([0; 0; 255] ++ repeat 7 5) []) 2 = Panic p).
Proof. repeat split; try (vm_compute; reflexivity); eexists; vm_compute; reflexivity. Qed.

(* ------------------------------------------------------------------ C38 *)

Lemma lk_name_in l v s : NoDup (map fst l) -> In (v, s) l -> lk_name l v = s.
Proof.
  induction l as [|[a x] l IH]; intros N I; [destruct I|]. cbn in N. apply NoDup_cons_iff in N as [N1 N2].
  cbn [lk_name]. destruct I as [E|I].
  - injection E as -> ->. now rewrite Z.eqb_refl.
  - destruct (Z.eqb_spec a v) as [->|_]; [|now apply IH]. elim N1. change v with (fst (v, s)). now apply in_map.
Qed.
Lemma lk_name_none l v : unnamed l v -> lk_name l v = EmptyString.
Proof.
  induction l as [|[a x] l IH]; intros U; [reflexivity|]. cbn [lk_name].
  destruct (Z.eqb_spec a v) as [->|_]; [elim (U x); now left|]. apply IH. intros s I. apply (U s). now right.
Qed.

(** An enumerated field: the name when the value has one, the number otherwise. *)
Theorem C38_lookup f D spare s e o w l :
  bytes_ok D -> 0 <= s <= e -> e <= zlen D -> e - s <= 8 -> 0 <= o -> 0 <= w <= 63 ->
  f_signed f = false -> f_res f = RES_LOOKUP -> f_units f = ULookup l -> lookup_ok l ->
  let v := bits (le_value (zsub D s e)) o w in
  (forall name, names l v name -> extract_lookup f (window D spare) s e o w = Ret (VString (str name))) /\
  (unnamed l v -> extract_lookup f (window D spare) s e o w = Ret (VUint64 v)).
Proof.
  intros HD Hs He H8 Ho Hw Hsg Hr Hu [ND NE] v. unfold extract_lookup.
  rewrite C30_raw_bits; try assumption; [|lia|right; right; left; exact Hr]. fold v. rewrite Hu.
  assert (i64 v = v) as ->.
  { unfold i64. apply sx_small; [lia|]. change (2 ^ (64 - 1)) with (2 ^ 63).
    pose proof (bits_bound (le_value (zsub D s e)) o w ltac:(lia)). fold v in H.
    assert (2 ^ w <= 2 ^ 63) by (apply Z.pow_le_mono_r; lia). lia. }
  split.
  - intros name [I N]. rewrite (lk_name_in l v name ND I). destruct name; [congruence|reflexivity].
  - intros U. now rewrite (lk_name_none l v U).
Qed.
(** So two values give the same result only if the table gives them the same name. *)
Theorem C38_distinct l a b : lookup_ok l -> 0 <= a < 2 ^ 63 -> 0 <= b < 2 ^ 63 ->
  name_or a (lk_name l (i64 a)) = name_or b (lk_name l (i64 b)) ->
  a = b \/ exists name, names l a name /\ names l b name.
Proof.
  intros [ND NE] Ha Hb. unfold i64. rewrite !sx_small by (change (2 ^ (64 - 1)) with (2 ^ 63); lia).
  assert (forall v, (exists s, names l v s /\ lk_name l v = s) \/ lk_name l v = EmptyString) as C.
  { intros v. clear Ha Hb. induction l as [|[k x] l IH]; [now right|]. cbn in ND. apply NoDup_cons_iff in ND as [N1 N2].
    pose proof (Forall_inv NE) as NX. apply Forall_inv_tail in NE. cbn [lk_name].
    destruct (Z.eqb_spec k v) as [->|_].
    - left. exists x. split; [|reflexivity]. split; [now left|exact NX].
    - destruct (IH N2 NE) as [[s [[I1 I2] E]]|E]; [|now right]. left. exists s. split; [split; [now right|exact I2]|exact E]. }
  assert (forall x y, str x = str y -> x = y) as SI.
  { induction x as [|c x IH]; intros [|d y] E; cbn in E; try discriminate; [reflexivity|].
    injection E as E1 E2. f_equal; [|now apply IH].
    rewrite <- (ascii_nat_embedding c), <- (ascii_nat_embedding d). f_equal. now apply Nat2Z.inj. }
  destruct (C a) as [[sa [Na Ea]]|Ea], (C b) as [[sb [Nb Eb]]|Eb]; rewrite Ea, Eb; intros E.
  - right. exists sa. destruct Na as [Ia Na'], Nb as [Ib Nb']. assert (sa = sb) as <-; [|split; split; assumption].
    destruct sa, sb; try congruence. cbn [name_or] in E. apply SI. congruence.
  - destruct Na as [_ Na]. destruct sa; [congruence|discriminate E].
  - destruct Nb as [_ Nb]. destruct sb; [congruence|discriminate E].
  - left. cbn in E. congruence.
Qed.
(** Manufacturer codes likewise, with the company table. *)
Theorem C38_manufacturer f D spare s e o w :
  bytes_ok D -> 0 <= s <= e -> e <= zlen D -> e - s <= 8 -> 0 <= o -> 0 <= w <= 63 ->
  f_signed f = false -> f_res f = RES_MANUFACTURER ->
  let v := bits (le_value (zsub D s e)) o w in
  (forall name, names lookupCompanyCode v name -> extract_manufacturer f (window D spare) s e o w = Ret (VString (str name))) /\
  (unnamed lookupCompanyCode v -> extract_manufacturer f (window D spare) s e o w = Ret (VUint64 v)).
Proof.
  intros HD Hs He H8 Ho Hw Hsg Hr v. unfold extract_manufacturer.
  rewrite C30_raw_bits; try assumption; [|lia|right; right; right; exact Hr]. fold v.
  assert (i64 v = v) as ->.
  { unfold i64. apply sx_small; [lia|]. change (2 ^ (64 - 1)) with (2 ^ 63).
    pose proof (bits_bound (le_value (zsub D s e)) o w ltac:(lia)). fold v in H.
    assert (2 ^ w <= 2 ^ 63) by (apply Z.pow_le_mono_r; lia). lia. }
  split.
  - intros name [I N]. rewrite (lk_name_in lookupCompanyCode v name); [destruct name; [congruence|reflexivity]| |exact I].
    assert ((fix nodup (l : list Z) := match l with [] => true | x :: r => negb (existsb (Z.eqb x) r) && nodup r end)
              (map fst lookupCompanyCode) = true) as C by (vm_compute; reflexivity).
    revert C. generalize (map fst lookupCompanyCode). clear. induction l as [|x l IH]; intros C; [constructor|].
    apply andb_true_iff in C as [C1 C2]. constructor; [|now apply IH].
    intros I. apply negb_true_iff in C1. assert (existsb (Z.eqb x) l = true) as B; [|congruence].
    apply existsb_exists. exists x. split; [exact I|apply Z.eqb_refl].
  - intros U. now rewrite (lk_name_none lookupCompanyCode v U).
Qed.
(** All lookup tables used by the shipped PGN table are well-formed. *)
Fixpoint nodupb (l : list Z) : bool :=
  match l with [] => true | x :: r => negb (existsb (Z.eqb x) r) && nodupb r end.
Lemma nodupb_sound l : nodupb l = true -> NoDup l.
Proof.
  induction l as [|x l IH]; intros C; [constructor|]. cbn in C.
  apply andb_true_iff in C as [C1 C2]. constructor; [|now apply IH].
  intros I. apply negb_true_iff in C1. assert (existsb (Z.eqb x) l = true) as B; [|congruence].
  apply existsb_exists. exists x. split; [exact I|apply Z.eqb_refl].
Qed.
Definition lookup_okb (l : lookup) : bool :=
  nodupb (map fst l) && forallb (fun e => match snd e with EmptyString => false | _ => true end) l.
Lemma lookup_okb_sound l : lookup_okb l = true -> lookup_ok l.
Proof.
  intros C. apply andb_true_iff in C as [C1 C2]. split; [now apply nodupb_sound|].
  apply Forall_forall. intros x I. rewrite forallb_forall in C2. specialize (C2 x I). destruct (snd x); congruence.
Qed.
Theorem C38_tables_ok : lookup_ok lookupCompanyCode /\
  forall p f l, In p PgnList -> In f (p_fields p) -> f_units f = ULookup l -> lookup_ok l.
Proof.
  split; [apply lookup_okb_sound; vm_compute; reflexivity|].
  assert (forallb (fun p => forallb (fun f => match f_units f with ULookup l => lookup_okb l | _ => true end) (p_fields p)) PgnList = true) as H
    by (vm_compute; reflexivity).
  intros p f l Ip If Hu. rewrite forallb_forall in H. specialize (H p Ip). rewrite forallb_forall in H. specialize (H f If).
  rewrite Hu in H. now apply lookup_okb_sound.
Qed.

(** Two-level lookup: values are scaled by -10 before they are looked up. *)
Lemma trunc_exact x z : float_is x (IZR z) -> sf_trunc x = Some z.
Proof.
  intros [F E]. destruct x as [sg|sg| |sg m e]; try discriminate F; cbn [sf_trunc].
  - cbn [SF2R] in E. apply eq_IZR in E. congruence.
  - cbn [SF2R] in E. unfold F2R in E. cbn [Fnum Fexp] in E. f_equal.
    destruct (Z.leb_spec 0 e) as [C|C].
    + rewrite <- (IZR_Zpower radix2) in E by lia. rewrite <- mult_IZR in E. apply eq_IZR in E.
      change (radix_val radix2) with 2 in E. rewrite <- E. destruct sg; cbn [cond_Zopp]; lia.
    + assert (cond_Zopp sg (Z.pos m) = z * 2 ^ (- e)) as E2.
      { apply eq_IZR. rewrite mult_IZR. change 2 with (radix_val radix2). rewrite IZR_Zpower by lia.
        rewrite <- E. rewrite Rmult_assoc, <- bpow_plus. replace (e + - e) with 0 by lia. simpl. lra. }
      assert (Z.pos m = (if sg then - z else z) * 2 ^ (- e)) as E3 by (destruct sg; cbn [cond_Zopp] in E2; lia).
      rewrite E3. rewrite Z.div_mul by (apply Z.pow_nonzero; lia). destruct sg; lia.
Qed.
Lemma scaled_by_minus_ten raw : 0 <= raw < 2 ^ 40 ->
  sf_trunc (f64_mul (f64_of_Z raw) (f64_of_Z (- 10))) = Some (- 10 * raw).
Proof.
  intros H. change (2 ^ 40) with 1099511627776 in H. apply trunc_exact.
  assert (sf_is 53 1024 (f64_of_Z raw) (IZR raw)) as A.
  { rewrite <- (n64_exact raw) by (change (2 ^ 53) with 9007199254740992; lia). apply of_Z64. change (2 ^ 64) with 18446744073709551616; lia. }
  assert (sf_is 53 1024 (f64_of_Z (-10)) (IZR (-10))) as B.
  { rewrite <- (n64_exact (-10)) by (vm_compute; discriminate). apply of_Z64. vm_compute. discriminate. }
  assert (nearest64 (IZR raw * IZR (-10)) = IZR (-10 * raw)) as X.
  { rewrite <- mult_IZR, Z.mul_comm. apply n64_exact. change (2 ^ 53) with 9007199254740992. lia. }
  assert (sf_is 53 1024 (f64_mul (f64_of_Z raw) (f64_of_Z (-10))) (nearest64 (IZR raw * IZR (-10)))) as [_ FE].
  { unfold f64_mul. rewrite (n64 (_ * _)). apply sf_mul; [exact prec53|exact emax1024|exact A|exact B|].
    rewrite <- n64, X. apply lt_bpow with 50; [lia|]. apply IZR_le_bpow; [lia|]. change (2 ^ 50) with 1125899906842624. lia. }
  rewrite X in FE. exact FE.
Qed.

(** The name of a non-zero code is always the empty text, whatever the class, table and platform. *)
Theorem C38_two_level pl f super D spare s e o w u :
  bytes_ok D -> 0 <= s <= e -> e <= zlen D -> e - s <= 8 -> 0 <= o -> 0 <= w <= 40 ->
  f_signed f = false -> f_res f = RES_LOOKUP2 -> f_units f = USubLookup u ->
  (forall k l, In (k, l) u -> forall c n, In (c, n) l -> 0 <= c) ->
  bits (le_value (zsub D s e)) o w <> 0 ->
  extract_sublookup pl f super (window D spare) s e o w = Ret (VString []).
Proof.
  intros HD Hs He H8 Ho Hw Hsg Hr Hu Hk Hnz. unfold extract_sublookup.
  rewrite number_in by (assumption || lia). pose proof (bits_bound (le_value (zsub D s e)) o w ltac:(lia)) as B.
  set (v := bits (le_value (zsub D s e)) o w) in *.
  assert (2 ^ w <= 2 ^ 40) as P by (apply Z.pow_le_mono_r; lia).
  unfold num_gval. rewrite Hr, Hsg, Hu. cbn [RES_LOOKUP2 res_scales Z.eqb Pos.eqb orb negb res_f64].
  unfold conv_int. rewrite scaled_by_minus_ten by lia.
  change (2 ^ 40) with 1099511627776 in P. change (2 ^ 63) with 9223372036854775808.
  match goal with |- context [if ?c then _ else _] => destruct c eqn:E; [|lia] end.
  assert (unnamed (lk_sub u super) (-10 * v)) as U.
  { intros n I. assert (exists l, In (super, l) u /\ In (-10 * v, n) l) as [l [I1 I2]].
    { clear Hk Hu. induction u as [|[k l] u IH]; [destruct I|]. cbn [lk_sub] in I.
      destruct (Z.eqb_spec k super) as [->|_]; [exists l; split; [now left|exact I]|].
      destruct (IH I) as [l' [A C]]. exists l'. split; [now right|exact C]. }
    specialize (Hk super l I1 _ n I2). lia. }
  now rewrite (lk_name_none _ _ U).
Qed.
(** The only such field of the shipped table. *)
Theorem C38_two_level_table : forall i p k f, zget PgnList i = Some p -> zget (p_fields p) k = Some f -> f_res f = RES_LOOKUP2 ->
  i = 3 /\ k = 4 /\ p_pgn p = 60928 /\ f = mkfield "Device Function" 8 RES_LOOKUP2 false (USubLookup lookupDeviceFunction) 6.
Proof.
  set (chk := fix chk (i : Z) (t : list pgn_def) : bool := match t with [] => true | p :: r =>
     (fix g (k : Z) (fs : list field) : bool := match fs with [] => true | f :: fr =>
        match f_res f with RNeg c => negb (c =? 10) || ((i =? 3) && (k =? 4)) | _ => true end && g (k + 1) fr end) 0 (p_fields p) && chk (i + 1) r end).
  assert (chk 0 PgnList = true) as H by (vm_compute; reflexivity).
  assert (forall t b i p k f, chk b t = true -> zget t i = Some p -> zget (p_fields p) k = Some f -> f_res f = RES_LOOKUP2 -> b + i = 3 /\ k = 4) as G.
  { clear H. induction t as [|q t IH]; intros b i p k f C Hp Hf Hr.
    - apply zget_some in Hp. change (zlen (@nil pgn_def)) with 0 in Hp. lia.
    - cbn [chk] in C. apply andb_true_iff in C as [C1 C2].
      pose proof (zget_some _ _ _ Hp). destruct (Z.eq_dec i 0) as [->|N].
      + rewrite zget_cons_0 in Hp. injection Hp as ->. clear IH C2.
        assert (forall fs c k, (fix g (k : Z) (fs : list field) : bool := match fs with [] => true | f :: fr =>
          match f_res f with RNeg c => negb (c =? 10) || ((b =? 3) && (k =? 4)) | _ => true end && g (k + 1) fr end) c fs = true ->
          zget fs k = Some f -> b = 3 /\ c + k = 4) as GG.
        { induction fs as [|g fs IHf]; intros c k0 D Hk.
          - apply zget_some in Hk. change (zlen (@nil field)) with 0 in Hk. lia.
          - apply andb_true_iff in D as [D1 D2]. pose proof (zget_some _ _ _ Hk). destruct (Z.eq_dec k0 0) as [->|Nk].
            + rewrite zget_cons_0 in Hk. injection Hk as ->. rewrite Hr in D1. cbn in D1. lia.
            + rewrite zget_cons_S in Hk by lia. specialize (IHf (c + 1) (k0 - 1) D2 Hk). lia. }
        specialize (GG _ 0 k C1 Hf). lia.
      + rewrite zget_cons_S in Hp by lia. specialize (IH (b + 1) (i - 1) p k f C2 Hp Hf Hr). lia. }
  intros i p k f Hp Hf Hr. destruct (G PgnList 0 i p k f H Hp Hf Hr) as [Ei Ek].
  rewrite Z.add_0_l in Ei. subst i k. split; [reflexivity|]. split; [reflexivity|].
  assert (zget PgnList 3 = Some pgn_003) as E3 by (vm_compute; reflexivity). rewrite E3 in Hp. injection Hp as <-.
  assert (zget (p_fields pgn_003) 4 = Some (mkfield "Device Function" 8 RES_LOOKUP2 false (USubLookup lookupDeviceFunction) 6)) as E4 by reflexivity.
  rewrite E4 in Hf. injection Hf as <-. split; reflexivity.
Qed.
Theorem C38_device_function_keys : forall k l, In (k, l) lookupDeviceFunction -> forall c n, In (c, n) l -> 0 <= c.
Proof.
  assert (forallb (fun e => forallb (fun x => 0 <=? fst x) (snd e)) lookupDeviceFunction = true) as H by (vm_compute; reflexivity).
  intros k l I c n J. rewrite forallb_forall in H. specialize (H _ I). cbn [snd] in H.
  rewrite forallb_forall in H. specialize (H _ J). cbn [fst] in H. lia.
Qed.
Example C38_example :
  extract_lookup (mkfield "Control" 8 RES_LOOKUP false (ULookup lookupIsoAckResults) 0) (window [1] []) 0 1 0 8 = Ret (VString (str "NAK")) /\
  extract_lookup (mkfield "Control" 8 RES_LOOKUP false (ULookup lookupIsoAckResults) 0) (window [77] []) 0 1 0 8 = Ret (VUint64 77).
Proof. vm_compute. auto. Qed.
