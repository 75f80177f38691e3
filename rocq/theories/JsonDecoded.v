(** JsonDecoded: everything a decoded message or its delta holds can be written as JSON (C86, C87). *)
From Coq Require Import ZArith Reals Lia Lra Floats.SpecFloat ZifyBool Permutation.
From Flocq Require Import Core BinarySingleNaN.
From Verif Require Import GoBase BufFacts Strconv StrconvFacts CanModel NmeaTypes PgnTable LookupTable NmeaModel NmeaSpec NmeaFloat NmeaExtract NmeaProps1 NmeaParse NmeaProps2
  SignalkModel SignalkSpec MainModel ApiModel FtoaModel JsonSpec FtoaFacts JsonModel JsonFacts JsonLayout.
Open Scope Z_scope.
Open Scope list_scope.

(* ------------------------------------------------------------------ octets *)

Lemma Ret_inj {A} (a b : A) : Ret a = Ret b -> a = b.
Proof. now injection 1. Qed.
Lemma zget_In {A} (l : list A) k x : zget l k = Some x -> In x l.
Proof. unfold zget. intros H. destruct (k <? 0); [discriminate|]. now apply nth_error_In in H. Qed.
Lemma bytes_ok_str s : bytes_ok (str s).
Proof.
  unfold str. induction s as [|c s IH]; cbn; constructor; [|exact IH].
  unfold is_byte. pose proof (Ascii.nat_ascii_bounded c) as B. lia.
Qed.
Lemma bytes_ok_firstn n l : bytes_ok l -> bytes_ok (firstn n l).
Proof. intros H. rewrite <- (firstn_skipn n l) in H. now apply bytes_ok_app in H. Qed.
Lemma bytes_ok_skipn n l : bytes_ok l -> bytes_ok (skipn n l).
Proof. intros H. rewrite <- (firstn_skipn n l) in H. now apply bytes_ok_app in H. Qed.
Lemma sub_ok d a b s : bytes_ok (s_arr d) -> s_sub d a b = Some s -> bytes_ok (s_val s).
Proof.
  unfold s_sub. intros H E. destruct (_ && _); [|discriminate]. injection E as <-. unfold s_val. cbn [s_arr].
  now apply bytes_ok_firstn, bytes_ok_skipn.
Qed.
Lemma sub_inv {A} d a b (k : bytes -> outcome A) r : sub_or_panic d a b k = Ret r -> bytes_ok (s_arr d) ->
  exists x, bytes_ok x /\ k x = Ret r /\ zlen x <= b - a.
Proof.
  unfold sub_or_panic. destruct (s_sub d a b) as [s|] eqn:E; [|discriminate]. intros H B. exists (s_val s).
  split; [eapply sub_ok; eauto|]. split; [exact H|].
  unfold s_sub in E. destruct ((0 <=? a) && (a <=? b) && (b <=? s_cap d)) eqn:C; [|discriminate]. injection E as <-.
  unfold s_val, zlen. cbn [s_len s_arr]. rewrite firstn_length. lia.
Qed.

(* ------------------------------------------------------------------ numbers *)

Lemma enc64 tz x r : sf_is 53 1024 x r -> encodable tz (VFloat64 x).
Proof. intros [V [F _]]. now split. Qed.
Lemma enc32 tz x r : sf_is 24 128 x r -> encodable tz (VFloat32 x).
Proof. intros [V [F _]]. now split. Qed.

Lemma n64_ge_one z : 1 <= z -> (1 <= nearest64 (IZR z))%R.
Proof.
  intros H. replace 1%R with (nearest64 (IZR 1)) by (apply n64_exact; lia). unfold nearest64.
  apply round_le; auto with typeclass_instances. now apply IZR_le.
Qed.
Lemma n32_ge_one z : 1 <= z -> (1 <= nearest32 (IZR z))%R.
Proof.
  intros H. replace 1%R with (nearest32 (IZR 1)) by (apply n32_exact; lia). unfold nearest32.
  apply round_le; auto with typeclass_instances. now apply IZR_le.
Qed.
Lemma div_le a b k : (Rabs a <= k -> 1 <= b -> Rabs (a / b) <= k)%R.
Proof.
  intros H1 H2. unfold Rdiv. rewrite Rabs_mult, Rabs_inv, (Rabs_pos_eq b) by lra.
  assert (0 < / b <= 1)%R as [I1 I2].
  { split; [apply Rinv_0_lt_compat; lra|]. rewrite <- Rinv_1. apply Rinv_le; lra. }
  apply Rle_trans with (Rabs a * 1)%R; [|lra]. apply Rmult_le_compat_l; [apply Rabs_pos|exact I2].
Qed.
Lemma quotient64 a b : Z.abs a <= 2 ^ 64 -> 1 <= b <= 2 ^ 64 ->
  exists r, sf_is 53 1024 (f64_div (f64_of_Z a) (f64_of_Z b)) r.
Proof.
  intros Ha Hb. pose proof (n64_ge_one b ltac:(lia)) as L.
  eexists. unfold f64_div. apply sf_div; [exact prec53|exact emax1024|apply of_Z64; exact Ha|apply of_Z64; lia|lra|].
  rewrite <- n64. apply lt_bpow with 64; [lia|]. apply n64_le; [lia|]. apply div_le; [|exact L].
  apply n64_le; [lia|]. now apply IZR_le_bpow.
Qed.
Lemma quotient32 a b : Z.abs a <= 2 ^ 64 -> 1 <= b <= 2 ^ 64 ->
  exists r, sf_is 24 128 (f32_div (f32_of_Z a) (f32_of_Z b)) r.
Proof.
  intros Ha Hb. pose proof (n32_ge_one b ltac:(lia)) as L.
  eexists. unfold f32_div. apply sf_div; [exact prec24|exact emax128|apply of_Z32; exact Ha|apply of_Z32; lia|lra|].
  rewrite <- n32. apply lt_bpow with 64; [lia|]. apply n32_le; [lia|]. apply div_le; [|exact L].
  apply n32_le; [lia|]. now apply IZR_le_bpow.
Qed.

(** Resolutions for which scaling cannot overflow. *)
Definition tame (r : resolution) : Prop :=
  match r with RZero => True | RNeg k => Z.abs k <= 100 | RPos p q => moderate p q end.
Lemma tame_res r : tame r -> exists x, sf_is 53 1024 (res_f64 r) x /\ (Rabs x <= bpow radix2 900)%R.
Proof.
  destruct r as [|k|p q]; intros T; cbn [res_f64].
  - exists 0%R. split; [repeat split|]. rewrite Rabs_R0. apply bpow_ge_0.
  - exists (nearest64 (IZR (- k))). cbn [tame] in T. split; [apply of_Z64; lia|]. apply n64_le; [lia|].
    apply IZR_le_bpow; [lia|]. apply Z.le_trans with (2 ^ 10); [lia|]. apply Z.pow_le_mono_r; lia.
  - exists (nearest64 (IZR (Zpos p) / IZR (Zpos q))). destruct T as [T1 T2].
    assert (Rabs (IZR (Z.pos p) / IZR (Z.pos q)) <= bpow radix2 900)%R as B.
    { rewrite Rabs_pos_eq; [exact T2|]. pose proof (bpow_gt_0 radix2 (-900)). lra. }
    split.
    + unfold f64_of_ratio. rewrite n64. apply sf_ratio; [exact prec53|exact emax1024|]. rewrite <- n64.
      apply lt_bpow with 900; [lia|]. apply n64_le; [lia|exact B].
    + apply n64_le; [lia|exact B].
Qed.
Lemma scaled_ok n r : Z.abs n <= 2 ^ 64 -> tame r -> exists x, sf_is 53 1024 (f64_mul (f64_of_Z n) (res_f64 r)) x.
Proof.
  intros Hn T. destruct (tame_res r T) as [x [X1 X2]]. eexists. unfold f64_mul.
  apply sf_mul; [exact prec53|exact emax1024|apply of_Z64; exact Hn|exact X1|].
  rewrite <- n64. apply lt_bpow with 964; [lia|]. apply n64_le; [lia|].
  rewrite Rabs_mult. replace 964 with (64 + 900) by lia. rewrite bpow_plus.
  apply Rmult_le_compat; try apply Rabs_pos; [|exact X2]. apply n64_le; [lia|]. now apply IZR_le_bpow.
Qed.

Lemma mask_bound x w : 0 <= Z.land x (shr64 18446744073709551615 (u32 (64 - w))) < 2 ^ 64.
Proof.
  assert (0 <= shr64 18446744073709551615 (u32 (64 - w)) <= 18446744073709551615) as B.
  { unfold shr64. change (u64 18446744073709551615) with 18446744073709551615.
    assert (0 <= u32 (64 - w)) as U by (unfold u32; apply Z.mod_pos_bound; lia).
    rewrite Z.shiftr_div_pow2 by exact U. assert (1 <= 2 ^ u32 (64 - w)) by (change 1 with (2 ^ 0); apply Z.pow_le_mono_r; lia).
    split; [apply Z.div_pos; lia|]. apply Z.div_le_upper_bound; [lia|]. nia. }
  set (m := shr64 _ _) in *. split; [apply Z.land_nonneg; lia|].
  destruct (Z.eq_dec (Z.land x m) 0) as [->|N]; [reflexivity|].
  assert (0 <= Z.land x m) by (apply Z.land_nonneg; lia).
  apply Z.log2_lt_pow2; [lia|].
  assert (m <> 0) by (intros E; rewrite E, Z.land_0_r in N; lia).
  apply Z.le_lt_trans with (Z.log2 m); [|apply Z.log2_lt_pow2; lia].
  (* land x m has no bit above log2 m *)
  apply Z.le_ngt. intros C.
  pose proof (Z.bit_log2 (Z.land x m) ltac:(lia)) as B1. rewrite Z.land_spec in B1.
  rewrite (Z.bits_above_log2 m) in B1 by lia. now rewrite andb_false_r in B1.
Qed.

Lemma number_ok tz f d s e o w v : tame (f_res f) -> extract_number f d s e o w = Ret v -> encodable tz v.
Proof.
  unfold extract_number, sub_or_panic. intros T H. destruct (s_sub d s e) as [x|]; [|discriminate].
  destruct (8 <? e - s); [discriminate|]. cbv zeta in H.
  set (num := Z.land (shr64 (le_uint (copy_at (repeat 0 8) 0 (s_val x))) o) _) in H. assert (0 <= num < 2 ^ 64) as N by apply mask_bound.
  destruct (negb _); [discriminate|]. destruct (res_scales (f_res f)).
  - apply Ret_inj in H. subst v.
    assert (Z.abs (if f_signed f then signed_value (f_size f) num else num) <= 2 ^ 64) as B.
    { destruct (f_signed f); [|lia]. pose proof (signed_value_bound (f_size f) num). lia. }
    destruct (scaled_ok _ _ B T) as [r R]. exact (enc64 _ _ _ R).
  - destruct (f_signed f); apply Ret_inj in H; subst v; [|exact I].
    destruct (f_size f <=? 8), (f_size f <=? 16), (f_size f <=? 32); exact I.
Qed.

Lemma name_or_ok tz n s : encodable tz (name_or n s).
Proof. unfold name_or. destruct s; [exact I|apply bytes_ok_str]. Qed.
Lemma lookup_ok tz f d s e o w v : tame (f_res f) -> extract_lookup f d s e o w = Ret v -> encodable tz v.
Proof.
  unfold extract_lookup. intros T H. destruct (extract_number f d s e o w) as [n|x|x] eqn:E; try discriminate.
  pose proof (number_ok tz _ _ _ _ _ _ _ T E) as N.
  destruct (f_units f); try (apply Ret_inj in H; subst; exact N).
  destruct n; try discriminate. apply Ret_inj in H. subst. apply name_or_ok.
Qed.
Lemma sublookup_ok pl tz f k d s e o w v : tame (f_res f) -> extract_sublookup pl f k d s e o w = Ret v -> encodable tz v.
Proof.
  unfold extract_sublookup. intros T H. destruct (extract_number f d s e o w) as [n|x|x] eqn:E; try discriminate.
  pose proof (number_ok tz _ _ _ _ _ _ _ T E) as N.
  destruct (f_units f); try (apply Ret_inj in H; subst; exact N).
  destruct n; try discriminate. apply Ret_inj in H. subst. apply bytes_ok_str.
Qed.

Lemma le_uint_bound l : bytes_ok l -> 0 <= le_uint l < 256 ^ zlen l.
Proof. intros B. rewrite le_uint_value. now apply le_value_bound. Qed.

Lemma year_range x : -86400 < x < 2 ^ 32 + 86400 -> -719528 <= x / 86400 < 2932897.
Proof. intros H. Z.to_euclidean_division_equations; lia. Qed.

Lemma date_ok tz d s e v : -86400 < tz < 86400 -> bytes_ok (s_arr d) -> extract_date d s e = Ret v -> encodable tz v.
Proof.
  intros Z1 B H. apply sub_inv in H as [x [Bx [H _]]]; [|exact B].
  destruct (negb _); [discriminate|]. cbv zeta in H. destruct (le_uint x =? 65535); [discriminate|].
  apply Ret_inj in H. subst v. split; [lia|]. unfold u32.
  pose proof (Z.mod_pos_bound (le_uint x * 86400) 4294967296 ltac:(lia)). apply year_range. lia.
Qed.
Lemma time_ok pl d s e v : bytes_ok (s_arr d) -> extract_time pl d s e = Ret v -> encodable (pl_tz pl) v.
Proof.
  intros B H. apply sub_inv in H as [x [Bx [H _]]]; [|exact B].
  destruct (zlen x =? 4) eqn:E4; [|discriminate]. cbn [negb] in H. cbv zeta in H. apply Z.eqb_eq in E4.
  pose proof (le_uint_bound x Bx) as L. rewrite E4 in L. change (256 ^ 4) with (2 ^ 32) in L.
  destruct (le_uint x =? 4294967295); [discriminate|].
  apply Ret_inj in H. subst v. set (n := le_uint x) in *.
  cbn [encodable]. split.
  - unfold u32. rewrite Z.mod_small; Z.to_euclidean_division_equations; lia.
  - match goal with |- _ <= (?a - ?t + ?t) / _ < _ => replace (a - t + t) with a by lia end.
    apply year_range. Z.to_euclidean_division_equations; lia.
Qed.

Theorem field_ok pl d def dm f sb eb o w v : -86400 < pl_tz pl < 86400 -> bytes_ok (s_arr d) -> tame (f_res f) ->
  extract_field pl d def dm f sb eb o w = Ret v -> encodable (pl_tz pl) v.
Proof.
  intros Z1 B T H. unfold extract_field in H. destruct (f_res f) as [|k|p q] eqn:ER.
  - apply Ret_inj in H. subst. exact I.
  - destruct ((k =? 2) || (k =? 3)).
    { apply sub_inv in H as [x [Bx [H _]]]; [|exact B]. pose proof (le_uint_bound x Bx) as L.
      destruct (zlen x =? 4).
      - cbv zeta in H. destruct (2147483645 <? i32 (le_uint x)); [discriminate|]. apply Ret_inj in H. subst v.
        destruct (quotient32 (i32 (le_uint x)) 10000000) as [r R]; [|lia|exact (enc32 _ _ _ R)].
        pose proof (sx_bound 32 (le_uint x) eq_refl). unfold i32. change (2 ^ (32 - 1)) with (2 ^ 31) in *. lia.
      - destruct (zlen x =? 8); [|discriminate].
        cbv zeta in H. destruct (9223372036854775805 <? i64 (le_uint x)); [discriminate|]. apply Ret_inj in H. subst v.
        destruct (quotient64 (i64 (le_uint x)) 10000000000000000) as [r R]; [|lia|exact (enc64 _ _ _ R)].
        pose proof (sx_bound 64 (le_uint x) eq_refl). unfold i64. change (2 ^ (64 - 1)) with (2 ^ 63) in *. lia. }
    destruct (k =? 4); [exact (date_ok _ _ _ _ _ Z1 B H)|].
    destruct (k =? 5); [exact (time_ok _ _ _ _ _ B H)|].
    destruct (k =? 6).
    { apply sub_inv in H as [x [Bx [H _]]]; [|exact B]. destruct (negb _); [discriminate|]. cbv zeta in H.
      destruct (65533 <=? le_uint x) eqn:C; [discriminate|]. apply Ret_inj in H. subst v. pose proof (le_uint_bound x Bx) as L.
      destruct (quotient32 (le_uint x) 100) as [r R]; [lia|lia|exact (enc32 _ _ _ R)]. }
    destruct (k =? 7).
    { apply sub_inv in H as [x [_ [H _]]]; [discriminate|exact B]. }
    assert (tame (f_res f)) as T' by now rewrite ER.
    destruct (k =? 8); [exact (number_ok _ _ _ _ _ _ _ _ T' H)|].
    destruct (k =? 9); [exact (lookup_ok _ _ _ _ _ _ _ _ T' H)|].
    destruct (k =? 10).
    { destruct (dm_get dm (f_offset f)); try discriminate.
      destruct (field_offsets def (f_offset f)) as [[[[a b] c] e]| |]; try discriminate.
      destruct (extract_number f d a b c e) as [[]| |]; try discriminate. exact (sublookup_ok _ _ _ _ _ _ _ _ _ _ T' H). }
    destruct (k =? 12).
    { unfold extract_manufacturer in H. destruct (extract_number f d sb eb o w) as [[]| |]; try discriminate.
      apply Ret_inj in H. subst. apply name_or_ok. }
    destruct (k =? 15).
    { apply sub_inv in H as [x [Bx [H _]]]; [|exact B]. destruct (negb _); [discriminate|]. cbv zeta in H.
      destruct (65533 <=? le_uint x) eqn:C; [discriminate|]. apply Ret_inj in H. subst v. pose proof (le_uint_bound x Bx) as L.
      destruct (quotient32 (le_uint x) 1000) as [r R]; [lia|lia|exact (enc32 _ _ _ R)]. }
    destruct (k =? 16).
    { unfold extract_stringlz in H. destruct (s_len d <=? sb); [discriminate|]. destruct (s_get d sb) as [n|]; [|discriminate].
      destruct (n =? 0); [discriminate|]. cbv zeta in H. destruct (s_len d <? _); [discriminate|].
      apply sub_inv in H as [x [Bx [H _]]]; [|exact B]. destruct (zlen x =? 0); [discriminate|]. apply Ret_inj in H. now subst v. }
    destruct (k =? 13).
    { apply sub_inv in H as [x [Bx [H _]]]; [|exact B]. apply Ret_inj in H. now subst v. }
    destruct (k =? 1).
    { unfold extract_string in H. destruct (_ || _); [discriminate|]. destruct (s_get d sb) as [n|]; [|discriminate].
      destruct (n =? 0); [discriminate|]. destruct (scan_text _ d sb) as [i| |]; try discriminate.
      apply sub_inv in H as [x [Bx [H _]]]; [|exact B]. destruct (zlen x =? 0); [discriminate|]. apply Ret_inj in H. now subst v. }
    apply sub_inv in H as [x [Bx [H _]]]; [|exact B]. apply Ret_inj in H. now subst v.
  - apply (number_ok _ f d sb eb o w); [now rewrite ER|exact H].
Qed.

(* ------------------------------------------------------------------ messages *)

Definition tame_table (t : list pgn_def) : Prop := forall p f, In p t -> In f (p_fields p) -> tame (f_res f).
Lemma tame_PgnList : tame_table PgnList.
Proof.
  intros p f Ip If. destruct (f_res f) as [|k|a b] eqn:E; cbn [tame].
  - exact I.
  - assert (forallb (fun d => forallb (fun f => match f_res f with RNeg k => Z.abs k <=? 100 | _ => true end) (p_fields d)) PgnList = true) as H
      by (vm_compute; reflexivity).
    rewrite forallb_forall in H. specialize (H p Ip). rewrite forallb_forall in H. specialize (H f If). rewrite E in H. lia.
  - exact (C32_table _ _ _ _ Ip If E).
Qed.

Lemma dm_put_all (P : gval -> Prop) m k v : Forall (fun kv => P (snd kv)) m -> P v -> Forall (fun kv => P (snd kv)) (dm_put m k v).
Proof.
  intros H V. induction m as [|[a x] m IH]; cbn [dm_put].
  - repeat constructor. exact V.
  - inversion H; subst. destruct (a =? k); constructor; auto.
Qed.

Theorem decoded_encodable fuel pl t m spare r : -86400 < pl_tz pl < 86400 -> tame_table t ->
  bytes_ok (rm_data m) -> bytes_ok spare -> parse_packet fuel pl t m spare = Some (Ret r) ->
  Forall (fun kv => encodable (pl_tz pl) (snd kv)) (pm_data r).
Proof.
  intros Z1 T B1 B2 H. unfold parse_packet in H.
  destruct (pgn_first t (rm_pgn m)) as [[i def]| |] eqn:EF; try discriminate.
  destruct (pgn_last t (rm_pgn m)) as [[j dl]| |] eqn:EL; try discriminate.
  destruct (parse_loop fuel pl t (msg_slice m spare) j (i =? j) (mkps i def 0 0 0 0 i [])) as [[s| |]|] eqn:L; try discriminate.
  injection H as <-. cbn [pm_data].
  assert (bytes_ok (s_arr (msg_slice m spare))) as B by (apply bytes_ok_app; now split).
  set (P := fun s : pstate => zget t (ps_i s) = Some (ps_def s) /\ Forall (fun kv => encodable (pl_tz pl) (snd kv)) (ps_data s)).
  assert (P s) as [_ R]; [|exact R].
  eapply (loop_inv P); [|split|exact L].
  - intros s0 s1 [D F] E. apply step_next in E as [f [v [i' [def' [ix' [HF [_ [_ [-> X]]]]]]]]].
    assert (encodable (pl_tz pl) v /\ zget t i' = Some def') as [EV ED].
    { destruct (extract_at pl (msg_slice m spare) s0 f) as [x|x|x] eqn:EX; [| |contradiction].
      - destruct X as [-> X]. split.
        + apply (field_ok _ _ _ _ _ _ _ _ _ _ Z1 B) in EX; [exact EX|]. apply (T (ps_def s0)); eapply zget_In; eassumption.
        + destruct (i =? j); [now destruct X as [-> [-> _]]|]. destruct X as [X _].
          now destruct (choose_spec _ _ _ _ _ _ _ _ _ _ _ _ _ _ _ X D HF) as [_ [Q _]].
      - destruct X as [-> [-> [-> _]]]. split; [exact I|exact D]. }
    split; [exact ED|]. cbn [advance mid ps_data]. now apply dm_put_all.
  - cbn [ps_i ps_def]. destruct (C28_first _ _ _ _ EF) as [[[F1 _] _]|[_ [-> F3]]]; assumption.
  - constructor.
Qed.
