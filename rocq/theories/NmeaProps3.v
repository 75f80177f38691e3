(** NmeaProps3: the values of decoded fields in terms of the message (C41, C42). *)
From Coq Require Import Reals Floats.SpecFloat ZifyBool.
From Flocq Require Import Core BinarySingleNaN.
From Verif Require Import GoBase BufFacts Strconv CanModel NmeaTypes LookupTable PgnTable NmeaModel NmeaSpec NmeaMeaning
  NmeaExtract NmeaParse NmeaTerm NmeaSafe NmeaSingle NmeaProps1 NmeaProps2.
Open Scope Z_scope.
Open Scope list_scope.

(** What the theorems need to know of a field; every field of the shipped table but the
    two-level lookup has it. *)
Record field_fine (f : field) : Prop := mkfine {
  ff_size : 0 <= f_size f;
  ff_signed : f_signed f = true -> f_size f = 8 \/ f_size f = 16 \/ f_size f = 32 \/ f_size f = 64;
  ff_res : forall p q, f_res f = RPos p q -> moderate p q;
  ff_lookup : f_res f = RES_LOOKUP \/ f_res f = RES_MANUFACTURER -> f_signed f = false /\ f_size f <= 63;
  ff_table : forall l, f_res f = RES_LOOKUP -> f_units f = ULookup l -> lookup_ok l;
  ff_kind : forall k, f_res f = RNeg k -> 1 <= k <= 16 /\ k <> 10 }.

Lemma table_fields_fine p f : In p PgnList -> In f (p_fields p) -> f_res f <> RES_LOOKUP2 -> field_fine f.
Proof.
  intros Ip If NL.
  assert (forallb (fun p => forallb (fun f => match f_res f with
     | RNeg k => (1 <=? k) && (k <=? 16) && (negb ((k =? 9) || (k =? 12)) || (negb (f_signed f) && (f_size f <=? 63)))
     | _ => true end) (p_fields p)) PgnList = true) as H by (vm_compute; reflexivity).
  rewrite forallb_forall in H. specialize (H p Ip). rewrite forallb_forall in H. specialize (H f If).
  constructor.
  - pose proof PgnList_ok as T. unfold table_ok in T. rewrite Forall_forall in T. destruct (T p Ip) as [_ T']. rewrite Forall_forall in T'. exact (T' f If).
  - exact (C31_table p f Ip If).
  - intros a b. exact (C32_table p f a b Ip If).
  - intros [E|E]; rewrite E in H; cbn in H; apply andb_true_iff in H as [H1 H2]; split; [now destruct (f_signed f)|lia|now destruct (f_signed f)|lia].
  - intros l _. exact (proj2 C38_tables_ok p f l Ip If).
  - intros k E. rewrite E in H. apply andb_true_iff in H as [H _]. split; [lia|]. intros ->. now apply NL.
Qed.

Lemma raw_bound D f s : 0 <= mwidth D f -> 0 <= mraw D f s < 2 ^ mwidth D f.
Proof. intros H. unfold mraw, bits. apply Z.mod_pos_bound. apply Z.pow_pos_nonneg; lia. Qed.
Lemma wide_iff w : 0 <= w -> (8 < (w + 7) / 8 <-> 64 < w).
Proof. intros H. split; intros C; dm. Qed.
Lemma has_text l : exists text, text_of l text.
Proof.
  induction l as [|b l (text & rest & E & F & R)]; [exists [], []; repeat split; auto|].
  destruct (Z.eq_dec b 0) as [->|N0]; [exists [], (0 :: l); split; [reflexivity|]; split; [constructor|right; eauto]|].
  destruct (Z.eq_dec b 255) as [->|N1]; [exists [], (255 :: l); split; [reflexivity|]; split; [constructor|right; eauto]|].
  exists (b :: text), rest. split; [now rewrite E|]. split; [constructor; auto|exact R].
Qed.
Lemma named_or_not l v : lookup_ok l -> (exists name, names l v name) \/ unnamed l v.
Proof.
  intros (_ & NE). induction l as [|[a s] l IH]; [right; intros s []|]. inversion NE as [|? ? N NE']; subst. cbn [snd] in N.
  destruct (Z.eq_dec a v) as [->|NA]; [left; exists s; split; [now left|exact N]|].
  destruct (IH NE') as [(name & I & N')|U]; [left; exists name; split; [now right|exact N']|].
  right. intros s' [E|I]; [congruence|exact (U s' I)].
Qed.
Lemma signed_twos f raw w : field_fine f -> f_signed f = true -> 0 <= raw < 2 ^ w -> 0 <= w <= f_size f -> signed_value (f_size f) raw = twos (f_size f) raw.
Proof.
  intros FF SG B W. assert (0 <= raw < 2 ^ f_size f) as B'.
  { split; [lia|]. apply Z.lt_le_trans with (2 ^ w); [lia|]. apply Z.pow_le_mono_r; lia. }
  unfold signed_value. destruct (ff_signed f FF SG) as [E|[E|[E|E]]]; rewrite E in *; cbn [Z.leb Z.compare Pos.compare Pos.compare_cont];
    [unfold i8|unfold i16|unfold i32|unfold i64]; apply sx_twos; lia.
Qed.

(** One field, decoded at a bit where its bytes are inside the message. *)
Lemma field_means pl D spare def dm f s : bytes_ok D -> field_fine f -> 0 <= s -> s / 8 + (width_in (zlen D) f + 7) / 8 <= zlen D ->
  let w := width_in (zlen D) f in
  let x := extract_field pl (window D spare) def dm f (s / 8) (s / 8 + (w + 7) / 8) (s mod 8) w in
  (forall p, x <> Panic p) -> means (pl_tz pl) D f s (match x with Ret v => v | _ => VNil end).
Proof.
  intros BD FF S0 IN w x NP. pose proof (zlen_nonneg D) as LD. pose proof (ff_size f FF) as SZ.
  assert (0 <= w) as W0 by (unfold w, width_in; lia).
  assert (0 <= s mod 8 < 8) as SM by (apply Z.mod_pos_bound; lia).
  assert (0 <= s / 8) as SD by dm. assert (0 <= (w + 7) / 8) as WD by dm.
  change (width_in (zlen D) f) with w in IN.
  assert (mwidth D f = w) as MW by reflexivity.
  assert (mbytes D f s = zsub D (s / 8) (s / 8 + (w + 7) / 8)) as MB by reflexivity.
  assert (mraw D f s = bits (le_value (zsub D (s / 8) (s / 8 + (w + 7) / 8))) (s mod 8) w) as MR by reflexivity.
  assert (zlen (mbytes D f s) = (w + 7) / 8) as ML by (rewrite MB, zsub_length by lia; lia).
  pose proof (raw_bound D f s ltac:(rewrite MW; lia)) as RB. rewrite MW in RB.
  assert (w <= f_size f) as WS by (unfold w, width_in; lia).
  (* numbers *)
  assert (numeric (f_res f) -> 64 < w -> x = extract_number f (window D spare) (s / 8) (s / 8 + (w + 7) / 8) (s mod 8) w ->
          means (pl_tz pl) D f s (match x with Ret v => v | _ => VNil end)) as WIDE.
  { intros N W E. rewrite E, number_wide by (try lia; pose proof (wide_iff w W0); lia). apply me_wide; [exact N|rewrite MW; lia]. }
  assert (w <= 64 -> extract_number f (window D spare) (s / 8) (s / 8 + (w + 7) / 8) (s mod 8) w = Ret (num_gval f (mraw D f s))) as NUM.
  { intros W. rewrite number_in; [reflexivity|exact BD|lia|lia|pose proof (wide_iff w W0); lia|lia|lia]. }
  assert (plain (f_res f) -> x = extract_number f (window D spare) (s / 8) (s / 8 + (w + 7) / 8) (s mod 8) w ->
          means (pl_tz pl) D f s (match x with Ret v => v | _ => VNil end)) as PLAIN.
  { intros P E. destruct (Z_lt_le_dec 64 w) as [W|W].
    { apply WIDE; [|exact W|exact E]. destruct P as [->|(n & ->)]; [right; now left|left; eauto]. }
    assert (res_scales (f_res f) = false) as RS by (destruct P as [->|(n & ->)]; [reflexivity|cbn; now rewrite Pos.eqb_refl]).
    rewrite E, NUM by exact W. unfold num_gval. rewrite RS. destruct (f_signed f) eqn:SG; [|apply me_unsigned; [exact P|exact SG|rewrite MW; exact W]].
    pose proof (signed_twos f (mraw D f s) w FF SG RB ltac:(lia)) as ST. unfold signed_value in ST.
    destruct (ff_signed f FF SG) as [Z8|[Z8|[Z8|Z8]]]; rewrite Z8 in *; cbn [Z.leb Z.compare Pos.compare Pos.compare_cont] in *; rewrite ST;
      [apply me_int8|apply me_int16|apply me_int32|apply me_int64]; auto. }
  unfold x in *. clear x. unfold extract_field in *. destruct (f_res f) as [|k|p q] eqn:R.
  - apply me_unused. now left.
  - destruct (ff_kind f FF k R) as [KB K10].
    assert (k = 1 \/ k = 2 \/ k = 3 \/ k = 4 \/ k = 5 \/ k = 6 \/ k = 7 \/ k = 8 \/ k = 9 \/ k = 11 \/ k = 12 \/ k = 13 \/ k = 14 \/ k = 15 \/ k = 16) as KC by lia.
    destruct KC as [->|[->|[->|[->|[->|[->|[->|[->|[->|[->|[->|[->|[->|[->| ->]]]]]]]]]]]]]]; cbn [Z.eqb Pos.eqb orb] in *.
    + (* text *)
      destruct (has_text (mbytes D f s)) as (text & T). pose proof (C37_ascii D spare (s / 8) (s / 8 + (w + 7) / 8) text ltac:(lia) IN T) as [H1 H2].
      destruct (Z_lt_le_dec (s / 8 + (w + 7) / 8) (zlen D)) as [LT|GE].
      * destruct text as [|c text].
        -- destruct (H2 (or_intror eq_refl)) as (e & ->). apply me_no_text; [exact R|now right].
        -- rewrite H1 by (assumption || discriminate). apply me_text; [exact R|exact LT|exact T|discriminate].
      * destruct (H2 ltac:(left; lia)) as (e & ->). apply me_no_text; [exact R|]. left. unfold mfirst. rewrite MW. lia.
    + (* latitude *)
      destruct (Z.eq_dec ((w + 7) / 8) 4) as [E4|N4]; [|destruct (Z.eq_dec ((w + 7) / 8) 8) as [E8|N8]].
      * rewrite E4 in *. destruct (C33_four_bytes D spare (s / 8) BD SD IN) as [H1 H2]. fold (mbytes D f s) in *. rewrite <- MB in *.
        destruct (Z_le_gt_dec (twos 32 (le_value (mbytes D f s))) 2147483645) as [L|G].
        -- destruct (H1 L) as (y & -> & FI). apply me_position4; [now left|lia|exact L|exact FI].
        -- destruct (H2 ltac:(lia)) as (e & ->). apply me_no_position; [now left|lia|lia].
      * rewrite E8 in *. destruct (C33_eight_bytes D spare (s / 8) BD SD IN) as [H1 H2]. rewrite <- MB in *.
        destruct (Z_le_gt_dec (twos 64 (le_value (mbytes D f s))) 9223372036854775805) as [L|G].
        -- destruct (H1 L) as (y & -> & FI). apply me_position8; [now left|lia|exact L|exact FI].
        -- destruct (H2 ltac:(lia)) as (e & ->). apply me_no_position; [now left|lia|lia].
      * destruct (C33_other_sizes D spare (s / 8) (s / 8 + (w + 7) / 8) ltac:(lia) IN ltac:(lia) ltac:(lia)) as (e & ->). apply me_no_position; [now left|lia|lia].
    + (* longitude *)
      destruct (Z.eq_dec ((w + 7) / 8) 4) as [E4|N4]; [|destruct (Z.eq_dec ((w + 7) / 8) 8) as [E8|N8]].
      * rewrite E4 in *. destruct (C33_four_bytes D spare (s / 8) BD SD IN) as [H1 H2]. rewrite <- MB in *.
        destruct (Z_le_gt_dec (twos 32 (le_value (mbytes D f s))) 2147483645) as [L|G].
        -- destruct (H1 L) as (y & -> & FI). apply me_position4; [now right|lia|exact L|exact FI].
        -- destruct (H2 ltac:(lia)) as (e & ->). apply me_no_position; [now right|lia|lia].
      * rewrite E8 in *. destruct (C33_eight_bytes D spare (s / 8) BD SD IN) as [H1 H2]. rewrite <- MB in *.
        destruct (Z_le_gt_dec (twos 64 (le_value (mbytes D f s))) 9223372036854775805) as [L|G].
        -- destruct (H1 L) as (y & -> & FI). apply me_position8; [now right|lia|exact L|exact FI].
        -- destruct (H2 ltac:(lia)) as (e & ->). apply me_no_position; [now right|lia|lia].
      * destruct (C33_other_sizes D spare (s / 8) (s / 8 + (w + 7) / 8) ltac:(lia) IN ltac:(lia) ltac:(lia)) as (e & ->). apply me_no_position; [now right|lia|lia].
    + (* date *)
      destruct (Z.eq_dec ((w + 7) / 8) 2) as [E2|N2].
      * rewrite E2 in *. destruct (C34_dates D spare (s / 8) BD SD IN) as (H1 & H2 & H3). rewrite <- MB in *.
        assert (0 <= le_value (mbytes D f s) < 65536) as LB.
        { pose proof (le_value_bound (mbytes D f s)) as B. rewrite ML in B. apply B. rewrite MB. apply zsub_bytes; [lia|lia|exact BD]. }
        destruct (Z_lt_le_dec (le_value (mbytes D f s)) 49711) as [L|G]; [rewrite H1 by exact L; now apply me_date|].
        destruct (Z.eq_dec (le_value (mbytes D f s)) 65535) as [E|N]; [destruct (H3 E) as (e & ->); apply me_no_date; auto|].
        rewrite H2 by lia. apply me_late_date; [exact R|exact ML|lia].
      * destruct (C34_size D spare (s / 8) (s / 8 + (w + 7) / 8) ltac:(lia) IN ltac:(lia)) as (e & ->). apply me_no_date; [exact R|lia].
    + (* time *)
      destruct (Z.eq_dec ((w + 7) / 8) 4) as [E4|N4].
      * rewrite E4 in *. destruct (C35_times pl D spare (s / 8) BD SD IN) as (H1 & H3). rewrite <- MB in *.
        assert (0 <= le_value (mbytes D f s) < 4294967296) as LB.
        { pose proof (le_value_bound (mbytes D f s)) as B. rewrite ML in B. apply B. rewrite MB. apply zsub_bytes; [lia|lia|exact BD]. }
        destruct (Z.eq_dec (le_value (mbytes D f s)) 4294967295) as [E|N]; [destruct (H3 E) as (e & ->); apply me_no_time; auto|].
        destruct (H1 ltac:(lia)) as (sec & ns & -> & A1 & A2 & A3 & A4 & A5). apply me_time; [exact R|exact ML|lia| |].
        -- set (t := le_value (mbytes D f s)) in *. clearbody t. clear - A1 A2 A3 LB. dm.
        -- lia.
      * destruct (C35_size pl D spare (s / 8) (s / 8 + (w + 7) / 8) ltac:(lia) IN ltac:(lia)) as (e & ->). apply me_no_time; [exact R|lia].
    + (* temperature *)
      destruct (Z.eq_dec ((w + 7) / 8) 2) as [E2|N2].
      * rewrite E2 in *. destruct (C36_temperature D spare (s / 8) BD SD IN) as (H1 & H2). rewrite <- MB in *.
        destruct (Z_lt_le_dec (le_value (mbytes D f s)) 65533) as [L|G].
        -- destruct (H1 L) as (y & -> & FI). now apply me_temperature.
        -- destruct (H2 G) as (e & ->). apply me_no_measure; [now left|intros _; exact G].
      * destruct (C36_size D spare (s / 8) (s / 8 + (w + 7) / 8) ltac:(lia) IN ltac:(lia)) as ((e & ->) & _). apply me_no_measure; [now left|lia].
    + unfold extract_6bit, sub_or_panic. destruct (s_sub _ _ _); apply me_unused; now right.
    + apply PLAIN; [now left|reflexivity].
    + (* lookup *)
      destruct (ff_lookup f FF (or_introl R)) as [SG S63].
      assert (w <= 63) as W63 by lia.
      assert (extract_lookup f (window D spare) (s / 8) (s / 8 + (w + 7) / 8) (s mod 8) w =
              match f_units f with ULookup l => Ret (name_or (mraw D f s) (lk_name l (i64 (mraw D f s)))) | _ => Ret (VUint64 (mraw D f s)) end) as EL.
      { unfold extract_lookup. rewrite NUM by lia. unfold num_gval. rewrite R, SG. cbn [res_scales Z.eqb Pos.eqb orb negb]. destruct (f_units f); reflexivity. }
      destruct (f_units f) as [|u|n|l|u] eqn:U; try (rewrite EL; apply me_no_table; [exact R|rewrite U; discriminate|rewrite MW; lia]).
      pose proof (C38_lookup f D spare (s / 8) (s / 8 + (w + 7) / 8) (s mod 8) w l BD ltac:(lia) IN ltac:(pose proof (wide_iff w W0); lia) ltac:(lia) ltac:(lia)
        SG R U (ff_table f FF l R U)) as [H1 H2]. rewrite <- MR in *.
      destruct (named_or_not l (mraw D f s) (ff_table f FF l R U)) as [(name & NM)|UN].
      * rewrite (H1 name NM). apply me_named with l; auto. rewrite MW. lia.
      * rewrite (H2 UN). apply me_unnamed with l; auto. rewrite MW. lia.
    + (* binary *) rewrite sub_or_panic_in by lia. apply me_binary. now left.
    + (* manufacturer *)
      destruct (ff_lookup f FF (or_intror R)) as [SG S63].
      pose proof (C38_manufacturer f D spare (s / 8) (s / 8 + (w + 7) / 8) (s mod 8) w BD ltac:(lia) IN ltac:(pose proof (wide_iff w W0); lia) ltac:(lia) ltac:(lia)
        SG R) as [H1 H2]. rewrite <- MR in *.
      destruct (named_or_not lookupCompanyCode (mraw D f s) (proj1 C38_tables_ok)) as [(name & NM)|UN].
      * rewrite (H1 name NM). apply me_company; auto. rewrite MW. lia.
      * rewrite (H2 UN). apply me_no_company; auto. rewrite MW. lia.
    + rewrite sub_or_panic_in by lia. now apply me_fixed.
    + rewrite sub_or_panic_in by lia. apply me_binary. now right.
    + (* pressure *)
      destruct (Z.eq_dec ((w + 7) / 8) 2) as [E2|N2].
      * rewrite E2 in *. destruct (C36_pressure D spare (s / 8) BD SD IN) as (H1 & H2). rewrite <- MB in *.
        destruct (Z_lt_le_dec (le_value (mbytes D f s)) 65533) as [L|G].
        -- destruct (H1 L) as (y & -> & FI). now apply me_pressure.
        -- destruct (H2 G) as (e & ->). apply me_no_measure; [now right|intros _; exact G].
      * destruct (C36_size D spare (s / 8) (s / 8 + (w + 7) / 8) ltac:(lia) IN ltac:(lia)) as (_ & (e & ->)). apply me_no_measure; [now right|lia].
    + (* counted text *)
      destruct (Z_lt_le_dec (s / 8) (zlen D)) as [LT|GE].
      * destruct (zget D (s / 8)) as [n|] eqn:G; [|apply zget_none in G; lia].
        destruct (C37_stringlz D spare (s / 8) n BD ltac:(lia) G) as (H1 & H2 & H3 & H4).
        assert (forall e, extract_stringlz (window D spare) (s / 8) = Err e -> (n = 0 \/ zlen D < (s / 8 + n) mod 256 \/ (s / 8 + n) mod 256 = s / 8 + 1) ->
          means (pl_tz pl) D f s match extract_stringlz (window D spare) (s / 8) with Ret v => v | _ => VNil end) as NO.
        { intros e -> C. apply me_no_counted; [exact R|]. intros n' G'. unfold mfirst in *. rewrite G in G'. injection G' as <-. exact C. }
        destruct (Z.eq_dec n 0) as [->|N0]; [destruct (H1 (or_introl eq_refl)) as (e & E); eauto|].
        destruct (Z_lt_le_dec (zlen D) ((s / 8 + n) mod 256)) as [C|C]; [destruct (H1 (or_intror C)) as (e & E); eauto|].
        destruct (Z_le_gt_dec ((s / 8 + n) mod 256) (s / 8)) as [C2|C2]; [destruct (H2 N0 C C2) as (p & E); destruct (NP p E)|].
        destruct (Z.eq_dec ((s / 8 + n) mod 256) (s / 8 + 1)) as [C3|C3]; [destruct (H3 N0 C3 C) as (e & E); eauto|].
        destruct (H4 N0 ltac:(lia) C) as (E1 & _ & ->). rewrite E1. pose proof (Z.mod_pos_bound (s / 8 + n) 256 ltac:(lia)). apply me_counted; [exact R|exact G|lia|unfold mfirst; lia|unfold mfirst; lia].
      * unfold extract_stringlz. change (s_len (window D spare)) with (zlen D). destruct (Z.leb_spec (zlen D) (s / 8)); [|lia].
        apply me_no_counted; [exact R|]. intros n G. apply zget_some in G. unfold mfirst in G. lia.
  - (* constants *)
    destruct (Pos.eq_dec p q) as [<-|NE]; [apply PLAIN; [right; eauto|reflexivity]|].
    destruct (Z_lt_le_dec 64 w) as [W|W]; [apply WIDE; [left; eauto|exact W|reflexivity]|].
    destruct (C32_scaled f D spare (s / 8) (s / 8 + (w + 7) / 8) (s mod 8) w p q BD ltac:(lia) IN ltac:(pose proof (wide_iff w W0); lia) ltac:(lia) ltac:(lia) R NE (ff_res f FF p q R))
      as (y & -> & FI & _). apply me_scaled with p q; [exact R|exact NE|rewrite MW; exact W|].
    rewrite <- MR in FI. unfold mint. unfold field_int in FI. destruct (f_signed f) eqn:SG; [|exact FI].
    rewrite (signed_twos f (mraw D f s) w FF SG RB ltac:(lia)) in FI. exact FI.
Qed.

(* ------------------------------------------------------------------ whole messages *)
Lemma choose_end n : forall t d res sb eb sbit bits idx data i def f i' def' f',
  choose n t d res sb eb sbit bits idx data i def f = Ret (i', def') -> zget (p_fields def) idx = Some f ->
  i' < i + Z.of_nat n -> zget (p_fields def') idx = Some f' ->
  forall r, f_units f' = UStr (String "="%char r) ->
    (if is_manufacturer res then extract_number f' d sb eb sbit bits else Ret data) = Ret (VUint64 (pu_value (parse_uint 10 64 (str r)))).
Proof.
  induction n as [|n IH]; intros t d res sb eb sbit bits idx data i def f i' def' f' H Hf L Hf' r U; cbn [choose] in H.
  { injection H as <- <-. lia. }
  destruct (if is_manufacturer res then _ else Ret data) as [data1|e|p] eqn:E1; try discriminate.
  assert (forall (a : Z) (b : pgn_def), Ret (a, b) = Ret (i', def') -> a = i -> b = def -> f' = f) as STAY.
  { intros a b E -> ->. injection E as <- <-. congruence. }
  destruct (f_units f) as [|[|c r1]| | |] eqn:EU; try discriminate; try (rewrite (STAY _ _ H eq_refl eq_refl), EU in U; discriminate).
  destruct (Ascii.eqb c "="%char) eqn:EC; [|rewrite (STAY _ _ H eq_refl eq_refl), EU in U; injection U as -> ->; discriminate].
  destruct data1 as [|x| | | | | | | | | |]; try discriminate.
  destruct (Z.eqb_spec (pu_value (parse_uint 10 64 (str r1))) x) as [EX|EX].
  - rewrite (STAY _ _ H eq_refl eq_refl), EU in *. injection U as -> ->. rewrite EX.
    destruct (is_manufacturer res); [|exact E1]. destruct (extract_number f d sb eb sbit bits); try discriminate; auto.
  - destruct (zget t (i + 1)) as [d1|] eqn:E2; [|discriminate].
    destruct (zget (p_fields d1) idx) as [f1|] eqn:E3; [|discriminate].
    pose proof (IH _ _ _ _ _ _ _ _ _ _ _ _ _ _ _ H E3 ltac:(lia) Hf' r U) as R.
    destruct (is_manufacturer res); [exact R|]. injection E1 as ->. exact R.
Qed.
Lemma choose_nil n t d res sb eb sbit bits idx i def f i' def' : is_manufacturer res = false ->
  choose n t d res sb eb sbit bits idx VNil i def f = Ret (i', def') -> i' = i /\ def' = def.
Proof.
  intros M H. destruct n as [|n]; cbn [choose] in H; [injection H as <- <-; auto|]. rewrite M in H.
  destruct (f_units f) as [|[|c r1]| | |]; try discriminate; try (injection H as <- <-; auto; fail).
  destruct (Ascii.eqb c "="%char); [discriminate|injection H as <- <-; auto].
Qed.
Lemma asks_unique f N N' : asks f N -> asks f N' -> N = N'.
Proof. intros (r & U & _ & _ & ->) (r' & U' & _ & _ & ->). rewrite U in U'. injection U' as ->. reflexivity. Qed.
Lemma asks_is k p idx f N : zget PgnList k = Some p -> zget (p_fields p) idx = Some f -> asks f N ->
  exists r, f_units f = UStr (String "="%char r) /\ N = pu_value (parse_uint 10 64 (str r)).
Proof.
  intros G F A. pose proof A as (r & U & _). exists r. split; [exact U|].
  exact (asks_unique f _ _ A (asks_intro _ _ _ _ _ G F U)).
Qed.
Lemma means_uint tz D f s x : means tz D f s (VUint64 x) -> x = mraw D f s.
Proof. intros H. inversion H; reflexivity. Qed.
Lemma zget_In {A} (l : list A) k x : zget l k = Some x -> In x l.
Proof. unfold zget. destruct (k <? 0); [discriminate|]. apply nth_error_In. Qed.

Section Whole.
Variables (pl : platform) (D : bytes) (sp : bytes) (i j : Z).
Hypothesis (HB : bytes_ok D) (Lij : i <= j).
Hypothesis NO2 : forall q p f, i <= q <= (if i =? j then i else j + 1) -> zget PgnList q = Some p -> In f (p_fields p) -> f_res f <> RES_LOOKUP2.

Lemma whole_loop : forall n s s', reach PgnList (zlen D) i j s ->
  parse_loop n pl PgnList (window D sp) j (i =? j) s = Some (Ret s') ->
  exists vs, map snd (ps_data s') = map snd (ps_data s) ++ vs /\
    decoding (pl_tz pl) PgnList D i j (ps_i s) (ps_idx s) (8 * ps_byte s + ps_bit s) vs (ps_i s').
Proof.
  induction n as [|n IH]; intros s s' R E; [discriminate|]. rewrite loop_unfold in E.
  pose proof (r_bit _ _ _ _ _ R) as RB. pose proof (r_byte _ _ _ _ _ R) as RY. pose proof (zlen_nonneg D) as LD.
  assert ((8 * ps_byte s + ps_bit s) / 8 = ps_byte s /\ (8 * ps_byte s + ps_bit s) mod 8 = ps_bit s) as [SD SM] by (split; dm).
  assert (i <= ps_i s <= j + 1 /\ i <= ps_i s <= (if i =? j then i else j + 1)) as [RI RI'] by (pose proof (r_i _ _ _ _ _ R); destruct (i =? j) eqn:C; lia).
  assert (forall f, zget (p_fields (ps_def s)) (ps_idx s) = Some f ->
     nbits (zlen D) f = width_in (zlen D) f /\ nbytes (zlen D) f = (width_in (zlen D) f + 7) / 8 /\ 0 <= width_in (zlen D) f) as W.
  { intros f F. pose proof (table_ok_get _ _ _ PgnList_ok (r_def _ _ _ _ _ R)) as [_ Tsz].
    pose proof (nbits_width (zlen D) f (zget_Forall _ _ _ _ Tsz F) LD). tauto. }
  destruct (parse_step pl PgnList (window D sp) j (i =? j) s) as [s1|s1|p] eqn:ES; [| |discriminate].
  - injection E as ->. pose proof (step_cases pl PgnList (window D sp) j (i =? j) s) as V. rewrite ES in V.
    exists []. rewrite app_nil_r. inversion V; subst.
    + split; [reflexivity|]. eapply de_done; [apply (r_def _ _ _ _ _ R)|lia].
    + split; [reflexivity|]. eapply de_short; [apply (r_def _ _ _ _ _ R)|eassumption|].
      destruct (W _ ltac:(eassumption)) as (W1 & W2 & W3). change (s_len (window D sp)) with (zlen D) in *.
      unfold mwidth. rewrite SD, <- W2. lia.
  - pose proof (reach_step pl PgnList (window D sp) i j s s1 PgnList_ok LD R ES) as R1.
    destruct (IH s1 s' R1 E) as (vs & VS & DE).
    destruct (keys_step _ _ _ _ _ _ _ (r_keys _ _ _ _ _ R) ES) as [_ [v0 ED]].
    apply step_next in ES as [f [v [i' [def' [ix' [F [Hb [Hn [E' V]]]]]]]]].
    change (s_len (window D sp)) with (zlen D) in *. destruct (W f F) as (W1 & W2 & W3). rewrite W1 in E'.
    assert (v0 = v) as ->.
    { subst s1. cbn [advance mid ps_data] in ED. destruct (r_keys _ _ _ _ _ R) as [k [O1 O2]]. rewrite O1, (dm_put_seq _ k _ O2) in ED.
      apply app_inv_head in ED. now injection ED as ->. }
    exists (v :: vs). split.
    { rewrite VS, ED, map_app, <- app_assoc. reflexivity. }
    assert (In (ps_def s) PgnList) as ID by (eapply zget_In; apply (r_def _ _ _ _ _ R)).
    assert (In f (p_fields (ps_def s))) as IF by (eapply zget_In; exact F).
    assert (field_fine f) as FF by (eapply table_fields_fine; eauto; eapply NO2; eauto using r_def).
    pose proof (field_means pl D sp (ps_def s) (ps_data s) f (8 * ps_byte s + ps_bit s) HB FF ltac:(lia)) as FM.
    cbv zeta in FM. rewrite SD, SM in FM. rewrite <- W2 in FM. specialize (FM ltac:(lia)).
    unfold extract_at in V. change (s_len (window D sp)) with (zlen D) in V. rewrite W1 in V. rewrite (Z.add_comm (nbytes (zlen D) f)) in V.
    assert (means (pl_tz pl) D f (8 * ps_byte s + ps_bit s) v) as MV.
    { destruct (extract_field _ _ _ _ _ _ _ _ _) as [x|e|p].
      - destruct V as [-> _]. apply FM. discriminate.
      - destruct V as [-> _]. apply FM. discriminate.
      - destruct V. }
    assert (zget PgnList i' = Some def' /\ i' = ps_i s1 /\ goes_on PgnList D i j (ps_i s) (ps_idx s) f (8 * ps_byte s + ps_bit s) v i') as (G1 & G2 & G3).
    { split; [|split].
      - pose proof (r_def _ _ _ _ _ R1) as X. subst s1. exact X.
      - now subst s1.
      - unfold goes_on. destruct (extract_field _ _ _ _ _ _ _ _ _) as [x|e|p] eqn:EX; [|destruct V as (-> & -> & _); left; auto|destruct V].
        destruct V as [<- V]. destruct (Z.eqb_spec i j) as [->|NE]; [destruct V as (-> & _); left; auto|]. destruct V as [V _].
        unfold choose_at in V. change (s_len (window D sp)) with (zlen D) in V. rewrite W1 in V.
        pose proof (choose_spec _ _ _ _ _ _ _ _ _ _ _ _ _ _ _ V (r_def _ _ _ _ _ R) F) as (C1 & C2 & (f' & C3) & C4).
        (* the number the alternatives are compared with *)
        assert (forall g x, (if is_manufacturer (f_res f)
                  then extract_number g (window D sp) (ps_byte s) (nbytes (zlen D) f + ps_byte s) (ps_bit s) (width_in (zlen D) f) = Ret (VUint64 x)
                  else v = VUint64 x) -> x = mraw D f (8 * ps_byte s + ps_bit s)) as NUM.
        { intros g x. destruct (is_manufacturer (f_res f)) eqn:M.
          - intros X. assert (f_res f = RES_MANUFACTURER) as RM.
            { unfold is_manufacturer in M. destruct (f_res f); try discriminate. unfold RES_MANUFACTURER. f_equal. lia. }
            destruct (ff_lookup f FF (or_intror RM)) as [SG S63].
            assert (extract_number f (window D sp) (ps_byte s) (nbytes (zlen D) f + ps_byte s) (ps_bit s) (width_in (zlen D) f) =
                    Ret (VUint64 (mraw D f (8 * ps_byte s + ps_bit s)))) as Y.
            { rewrite number_in by (auto; unfold width_in in *; try lia; rewrite W2; dm). unfold num_gval. rewrite RM, SG. cbn [res_scales Z.eqb Pos.eqb orb negb].
              unfold mraw, mbytes, mfirst, mwidth. rewrite SD, SM, <- W2, (Z.add_comm (ps_byte s)). reflexivity. }
            exact (number_same _ _ _ _ _ _ _ _ _ X Y).
          - intros ->. eapply means_uint; exact MV. }
        destruct (match v with VNil => true | _ => false end) eqn:VN.
        { destruct v; try discriminate. left. split; [now right|]. destruct (is_manufacturer (f_res f)) eqn:M.
          - unfold is_manufacturer in M. unfold extract_field in EX. destruct (f_res f) as [|k|]; try discriminate.
            assert (k = 12) as -> by lia. cbn [Z.eqb Pos.eqb orb] in EX. unfold extract_manufacturer in EX.
            destruct (extract_number _ _ _ _ _ _) as [g|e|p]; try discriminate. destruct g; try discriminate.
            unfold name_or in EX. destruct (lk_name _ _); discriminate.
          - exact (proj1 (choose_nil _ _ _ _ _ _ _ _ _ _ _ _ _ _ M V)). }
        right. split; [exact NE|]. split; [intros ->; discriminate|]. split; [lia|]. split.
        + intros k Hk. destruct (C4 k Hk) as (p & g & r & x & P1 & P2 & P3 & P4 & P5).
          exists p, g, (pu_value (parse_uint 10 64 (str r))). split; [exact P1|]. split; [exact P2|]. split; [exact (asks_intro _ _ _ _ _ P1 P2 P3)|].
          rewrite <- (NUM g x); [exact P4|]. destruct (is_manufacturer (f_res f)); exact P5.
        + intros LJ p g N P1 P2 A. destruct (asks_is _ _ _ _ _ P1 P2 A) as (r & U & ->).
          rewrite C2 in P1. injection P1 as <-.
          pose proof (choose_end _ _ _ _ _ _ _ _ _ _ _ _ _ _ _ g V F ltac:(lia) P2 r U) as CE.
          apply (NUM g). destruct (is_manufacturer (f_res f)); [exact CE|now injection CE]. }
    assert (8 * ps_byte s1 + ps_bit s1 = 8 * ps_byte s + ps_bit s + width_in (zlen D) f) as P1.
    { pose proof (advance_pos (zlen D) (width_in (zlen D) f) (mid s i' def' ix' v) ltac:(cbn; lia) ltac:(lia)) as [P1 _]. rewrite <- E' in P1. exact P1. }
    eapply de_field; [apply (r_def _ _ _ _ _ R)|exact F| |exact MV|exact G3|exact G1|].
    { unfold mwidth. rewrite SD, <- W2. lia. }
    unfold mwidth. rewrite <- P1. rewrite <- G2 in DE.
    replace (next_field D def' (ps_idx s) (8 * ps_byte s1 + ps_bit s1)) with (ps_idx s1); [exact DE|].
    unfold next_field. pose proof (r_bit _ _ _ _ _ R1). replace ((8 * ps_byte s1 + ps_bit s1) / 8) with (ps_byte s1) by dm.
    assert (ps_idx s1 = (if (ps_idx s =? zlen (p_fields def') - 1) && (0 <? p_rep def') && (ps_byte s1 <? zlen D) then ps_idx s - p_rep def' else ps_idx s) + 1) as ->
      by (subst s1; reflexivity).
    destruct (Z.eqb_spec (ps_idx s) (zlen (p_fields def') - 1)); destruct (Z.eqb_spec (ps_idx s + 1) (zlen (p_fields def'))); try lia; cbn [andb];
      destruct (0 <? p_rep def'); destruct (ps_byte s1 <? zlen D); cbn [andb]; lia.
Qed.
End Whole.

Definition avoids (id : Z) : bool :=
  match pgn_first PgnList id, pgn_last PgnList id with
  | Ret (i, _), Ret (j, _) => if i =? j then negb (i =? 3) else (3 <? i) || (j + 1 <? 3)
  | _, _ => false
  end.
Lemma PgnList_avoids : forallb (fun p => (p_pgn p =? 60928) || avoids (p_pgn p)) PgnList = true.
Proof. vm_compute. reflexivity. Qed.
Lemma avoids_id id : id <> 60928 -> avoids id = true.
Proof.
  intros N. destruct (packet_start PgnList id PgnList_nonempty) as [i [def [j [def' [E1 [E2 [E3 E4]]]]]]].
  destruct (C28_first _ _ _ _ E1) as [[[F1 F2] _]|[F _]].
  - pose proof PgnList_avoids as S. rewrite forallb_forall in S. specialize (S def (zget_In _ _ _ F1)). rewrite F2 in S. destruct (Z.eqb_spec id 60928); [contradiction|exact S].
  - destruct (absent_first PgnList id F PgnList_nonempty) as [p0 [G1 [G2 G3]]]. unfold avoids. rewrite G2, G3. reflexivity.
Qed.

(** C42: what decoding yields, for every message of every PGN but 60928 (whose fourth field is
    the two-level lookup of C38), known or not, with one definition or many: the values and the
    reported definition are those of [decoding], which mentions nothing but the message and the
    table. *)
Theorem C42_decoding fuel pl m spare r : bytes_ok (rm_data m) -> rm_pgn m <> 60928 ->
  parse_packet fuel pl PgnList m spare = Some (Ret r) ->
  exists i j, ((exists p p', is_first PgnList (rm_pgn m) i p /\ is_last PgnList (rm_pgn m) j p') \/ (no_def PgnList (rm_pgn m) /\ i = 0 /\ j = 0)) /\
    decoding (pl_tz pl) PgnList (rm_data m) i j i 0 0 (map snd (pm_data r)) (pm_index r).
Proof.
  intros HB N H. destruct (packet_start PgnList (rm_pgn m) PgnList_nonempty) as [i [def [j [def' [E1 [E2 [E3 E4]]]]]]].
  exists i, j. split.
  { destruct (C28_first _ _ _ _ E1) as [F|[F [-> _]]]; destruct (C28_last _ _ _ _ E2) as [L|[L [-> _]]]; eauto.
    - destruct F as [F _]. elim (L i def F).
    - destruct L as [L _]. elim (F j def' L). }
  rewrite (packet_unfold _ _ _ _ _ _ _ _ _ E1 E2) in H.
  destruct (parse_loop _ _ _ _ _ _ _) as [[s| |]|] eqn:E; try discriminate. injection H as <-. cbn [pm_index pm_data].
  assert (reach PgnList (zlen (rm_data m)) i j s) as R.
  { refine (proj1 (loop_inv (reach PgnList (zlen (rm_data m)) i j) pl PgnList _ j _ _ fuel _ _ _ E)).
    - intros s0 s1 A S. change (zlen (rm_data m)) with (s_len (window (rm_data m) spare)). eapply reach_step; eauto using PgnList_ok. apply zlen_nonneg.
    - apply reach_init; auto. apply zlen_nonneg. }
  destruct (whole_loop pl (rm_data m) spare i j HB E4) with (n := fuel) (s := mkps i def 0 0 0 0 i []) (s' := s) as (vs & V & DE).
  - intros q p f Q G F2 RL.
    assert (exists k, zget (p_fields p) k = Some f) as (k & Gk).
    { apply In_nth_error in F2 as (k & Gk). exists (Z.of_nat k). unfold zget. destruct (Z.ltb_spec (Z.of_nat k) 0); [lia|]. now rewrite Nat2Z.id. }
    destruct (C38_two_level_table _ _ _ _ G Gk RL) as (-> & _). pose proof (avoids_id _ N) as A. unfold avoids in A. rewrite E1, E2 in A.
    revert A Q. clear. destruct (i =? j); intros; lia.
  - apply reach_init; [apply zlen_nonneg|exact E3].
  - exact E.
  - cbn [ps_data map app] in V. rewrite V. rewrite (r_index _ _ _ _ _ R). exact DE.
Qed.

(** C41: the values of a message of a PGN without alternatives: the k-th is what the k-th field of
    the definition (group unrolled), at the sum of the preceding widths, means in the message. *)
Theorem C41_meaning fuel pl m spare i def r k f : bytes_ok (rm_data m) -> only PgnList (rm_pgn m) i def ->
  parse_packet fuel pl PgnList m spare = Some (Ret r) -> (k < List.length (pm_data r))%nat ->
  nth_field def (Z.of_nat k) = Some f -> f_res f <> RES_LOOKUP2 ->
  exists v, nth_error (pm_data r) k = Some (Z.of_nat k, v) /\ means (pl_tz pl) (rm_data m) f (start_of def (zlen (rm_data m)) k) v.
Proof.
  intros HB O H Hk NF N2. destruct (fields_run _ _ _ _ _ _ _ _ PgnList_ok O H) as (_ & A & _).
  destruct (A k Hk) as ((g & G1 & _ & G2) & g' & G3 & G4 & G5). rewrite NF in G1, G3. injection G1 as <-. injection G3 as <-.
  eexists. split; [exact G4|]. apply only_start in O as [O _].
  assert (In f (p_fields def)) as IF.
  { unfold nth_field in NF. repeat destruct (_ <? _) in NF; try discriminate; eapply zget_In; exact NF. }
  unfold stored. change (s_len (window (rm_data m) spare)) with (zlen (rm_data m)) in *. cbv zeta in *. apply field_means; auto.
  - eapply table_fields_fine; eauto using zget_In.
  - pose proof (table_ok_get _ _ _ PgnList_ok O) as [_ Tsz]. pose proof (zlen_nonneg (rm_data m)) as ZL. revert ZL. generalize (zlen (rm_data m)) as L. intros L ZL. clear - Tsz ZL.
    induction k as [|k IH]; cbn [start_of]; [lia|]. destruct (nth_field def (Z.of_nat k)) as [g|] eqn:G; [|lia].
    assert (0 <= f_size g).
    { unfold nth_field in G. repeat destruct (_ <? _) in G; try discriminate; exact (zget_Forall _ _ _ _ Tsz G). }
    unfold width_in. lia.
Qed.

(* ------------------------------------------------------------------ the specification determines the result *)
Lemma names_unique l x a b : lookup_ok l -> names l x a -> names l x b -> a = b.
Proof.
  intros (ND & _) (A & _) (B & _). induction l as [|[y s] l IH]; [destruct A|]. cbn [map fst] in ND. apply NoDup_cons_iff in ND as [N1 N2].
  destruct A as [A|A]; destruct B as [B|B].
  - congruence.
  - exfalso. apply N1. injection A as -> _. change x with (fst (x, b)). now apply in_map.
  - exfalso. apply N1. injection B as -> _. change x with (fst (x, a)). now apply in_map.
  - exact (IH N2 A B).
Qed.
Lemma names_not l x a : names l x a -> unnamed l x -> False.
Proof. intros (A & _) U. exact (U a A). Qed.
Lemma text_unique l a b : text_of l a -> text_of l b -> a = b.
Proof.
  revert a b. induction l as [|c l IH]; intros a b (ra & A1 & A2 & A3) (rb & B1 & B2 & B3).
  { destruct a; [|discriminate]. destruct b; [reflexivity|discriminate]. }
  destruct a as [|x a]; destruct b as [|y b]; [reflexivity| | |].
  - cbn in A1, B1. subst ra. inversion B2 as [|? ? B4 _]; subst. injection B1 as -> _. destruct A3 as [A3|(z & q & A3 & Z)]; [discriminate|]. injection A3 as -> _. lia.
  - cbn in A1, B1. subst rb. inversion A2 as [|? ? A4 _]; subst. injection A1 as -> _. destruct B3 as [B3|(z & q & B3 & Z)]; [discriminate|]. injection B3 as -> _. lia.
  - cbn in A1, B1. injection A1 as -> A1. injection B1 as -> B1. inversion A2; subst. inversion B2; subst. f_equal. apply IH; [exists ra|exists rb]; auto.
Qed.
Lemma float_same64 x y r : float_is x r -> float_is y r -> same_value (VFloat64 x) (VFloat64 y).
Proof. intros [A1 A2] [B1 B2]. right. left. exists x, y. repeat split; auto. congruence. Qed.
Lemma float_same32 x y r : float_is x r -> float_is y r -> same_value (VFloat32 x) (VFloat32 y).
Proof. intros [A1 A2] [B1 B2]. right. right. exists x, y. repeat split; auto. congruence. Qed.


(** The specification determines the value, and with it the result. *)
Lemma means_unique tz D f s v w : field_fine f -> bytes_ok D -> 0 <= s -> 0 <= mwidth D f -> s / 8 + (mwidth D f + 7) / 8 <= zlen D ->
  means tz D f s v -> means tz D f s w -> same_value v w.
Proof.
  intros FF BD S0 MW IN A B.
  assert (forall k, zget D (mfirst s) = Some k -> 0 <= k < 256) as BY by (intros k G; exact (zget_Forall _ _ _ _ BD G)).
  pose proof C38_tables_ok as [CT _]. pose proof (fun l => ff_table f FF l) as LT.
  assert (mwidth D f <= f_size f) as WZ by (unfold mwidth, width_in; lia). assert (0 <= mfirst s) as M0 by (unfold mfirst; dm).
  destruct A; destruct B; try (now left); unfold numeric, plain in *; unfold RES_LATITUDE, RES_LONGITUDE, RES_6BITASCII, RES_LOOKUP, RES_MANUFACTURER, RES_INTEGER, RES_DATE, RES_TIME, RES_TEMPERATURE, RES_PRESSURE, RES_ASCII, RES_STRINGLZ, RES_STRING, RES_BINARY, RES_FLOAT in *;
    repeat match goal with H : _ \/ _ |- _ => destruct H | H : exists _, _ |- _ => destruct H end;
    try congruence.
  all: try lia.
  all: try (eapply float_same64; eassumption).
  all: try (eapply float_same32; eassumption).
  - assert (p0 = p /\ q0 = q) as [-> ->] by (split; congruence). eapply float_same64; eassumption.
  - assert (l0 = l) as -> by congruence. assert (name0 = name) as -> by (eapply (names_unique l); eauto). now left.
  - assert (l0 = l) as -> by congruence. exfalso. eapply names_not; eassumption.
  - assert (l0 = l) as -> by congruence. exfalso. eapply names_not; eassumption.
  - assert (name0 = name) as -> by (eapply (names_unique lookupCompanyCode); eauto). now left.
  - exfalso. eapply names_not; eassumption.
  - exfalso. eapply names_not; eassumption.
  - left. f_equal; lia.
  - assert (text0 = text) as -> by (eapply text_unique; eauto). now left.
  - exfalso. assert (text = []) by (eapply text_unique; eauto). contradiction.
  - exfalso. assert (text = []) by (eapply text_unique; eauto). contradiction.
  - assert (n0 = n) as -> by congruence. now left.
  - match goal with A : zget ?l ?k = Some ?a, B : forall n, zget ?l ?k = Some n -> _ |- _ => pose proof (BY a A); destruct (B a A) as [X|[X|X]]; [lia| |]; rewrite Z.mod_small in X by lia; lia end.
  - match goal with A : zget ?l ?k = Some ?a, B : forall n, zget ?l ?k = Some n -> _ |- _ => pose proof (BY a A); destruct (B a A) as [X|[X|X]]; [lia| |]; rewrite Z.mod_small in X by lia; lia end.
Qed.

Lemma means_kind tz D f s v : means tz D f s v -> f_res f <> RES_LOOKUP2.
Proof.
  intros A E. destruct A; unfold numeric, plain in *; rewrite E in *;
    repeat match goal with H : _ \/ _ |- _ => destruct H | H : exists _, _ |- _ => destruct H end; try discriminate.
Qed.
Lemma nil_same v w : same_value v w -> (v = VNil <-> w = VNil).
Proof. intros [->|[(x & y & -> & -> & _)|(x & y & -> & -> & _)]]; split; auto; discriminate. Qed.
Lemma goes_on_unique D i j q idx f s v w q1 q2 : same_value v w -> goes_on PgnList D i j q idx f s v q1 -> goes_on PgnList D i j q idx f s w q2 -> q1 = q2.
Proof.
  intros SV [(A1 & ->)|(A1 & A2 & A3 & A4 & A5)] [(B1 & ->)|(B1 & B2 & B3 & B4 & B5)]; pose proof (nil_same _ _ SV) as N.
  - reflexivity.
  - destruct A1; [contradiction|tauto].
  - destruct B1; [contradiction|tauto].
  - destruct (Z.lt_total q1 q2) as [L|[E|L]]; [exfalso|exact E|exfalso].
    + destruct (B4 q1 ltac:(lia)) as (p & g & M & P1 & P2 & P3 & P4). apply P4. apply (A5 ltac:(lia) p g M P1 P2 P3).
    + destruct (A4 q2 ltac:(lia)) as (p & g & M & P1 & P2 & P3 & P4). apply P4. apply (B5 ltac:(lia) p g M P1 P2 P3).
Qed.
Lemma decoding_unique tz D i j : bytes_ok D -> forall q idx s vs qf, decoding tz PgnList D i j q idx s vs qf -> 0 <= s ->
  forall vs' qf', decoding tz PgnList D i j q idx s vs' qf' -> qf = qf' /\ Forall2 same_value vs vs'.
Proof.
  intros BD q idx s vs qf A. induction A as [q idx s p G E|q idx s p f G F E|q idx s p f v q' p' vs qf G F IN ME GO G' DE IH]; intros S0 vs' qf' B.
  - inversion B; subst; [auto|auto|]. assert (p0 = p) as -> by congruence. match goal with H : zget _ idx = Some _ |- _ => apply zget_some in H end. lia.
  - inversion B; subst; [auto|auto|]. assert (p0 = p) as -> by congruence. assert (f0 = f) as -> by congruence. lia.
  - pose proof (means_kind _ _ _ _ _ ME) as N2.
    pose proof (table_ok_get _ _ _ PgnList_ok G) as [_ Tsz]. pose proof (zget_Forall _ _ _ _ Tsz F) as Sz. cbv beta in Sz.
    assert (0 <= mwidth D f) as W0 by (unfold mwidth, width_in; pose proof (zlen_nonneg D); lia).
    inversion B as [? ? ? p1 G1 L1|? ? ? p1 f1 G1 F1 L1|? ? ? p1 f1 v1 q1 p1' vs1 qf1 G1 F1 IN1 ME1 GO1 G1' DE1]; subst.
    + assert (p1 = p) as -> by congruence. apply zget_some in F. lia.
    + assert (p1 = p) as -> by congruence. assert (f1 = f) as -> by congruence. lia.
    + assert (p1 = p) as -> by congruence. assert (f1 = f) as -> by congruence.
      assert (same_value v v1) as SV.
      { refine (means_unique _ _ _ _ _ _ _ BD S0 W0 IN ME ME1). exact (table_fields_fine p f (zget_In _ _ _ G) (zget_In _ _ _ F) N2). }
      assert (q1 = q') as -> by (symmetry; eapply goes_on_unique; eauto). assert (p1' = p') as -> by congruence.
      destruct (IH ltac:(lia) _ _ DE1) as [-> F2]. split; [reflexivity|constructor; auto].
Qed.
(** The specification leaves no choice: index and values (floats up to their representation) are
    functions of the message and the local zone. *)
Theorem C42_decoding_unique tz D i j vs qf vs' qf' : bytes_ok D ->
  decoding tz PgnList D i j i 0 0 vs qf -> decoding tz PgnList D i j i 0 0 vs' qf' -> qf = qf' /\ Forall2 same_value vs vs'.
Proof. intros BD A B. eapply decoding_unique; eauto. lia. Qed.
Theorem C41_meaning_unique p f tz D s v w : In p PgnList -> In f (p_fields p) -> bytes_ok D -> 0 <= s -> s / 8 + (width_in (zlen D) f + 7) / 8 <= zlen D ->
  means tz D f s v -> means tz D f s w -> same_value v w.
Proof.
  intros Ip If BD S0 IN A B. pose proof (means_kind _ _ _ _ _ A) as N2.
  pose proof (table_fields_fine p f Ip If N2) as FF. eapply means_unique; eauto. unfold mwidth, width_in. pose proof (zlen_nonneg D). pose proof (ff_size f FF). lia.
Qed.

(* ------------------------------------------------------------------ C48: printing *)
(** The fields a definition asks a number in come before its group. *)
Definition fixed_first (p : pgn_def) : bool :=
  forallb (fun f => match f_units f with UStr (String c _) => negb (Ascii.eqb c "="%char) | _ => true end) (group p).
Definition fixed_ok (id : Z) : bool :=
  match pgn_first PgnList id, pgn_last PgnList id with
  | Ret (i, _), Ret (j, _) => (i =? j) || forallb (fun k => match zget PgnList k with Some p => fixed_first p | None => true end) (candidates i j)
  | _, _ => false
  end.
Lemma PgnList_fixed : forallb (fun p => fixed_ok (p_pgn p)) PgnList = true.
Proof. vm_compute. reflexivity. Qed.
Lemma fixed_at p idx f r : 0 <= p_rep p <= zlen (p_fields p) -> fixed_first p = true -> zget (p_fields p) idx = Some f ->
  f_units f = UStr (String "="%char r) -> idx < zlen (p_fields p) - p_rep p.
Proof.
  intros TR FX G U. destruct (Z_lt_le_dec idx (zlen (p_fields p) - p_rep p)) as [C|C]; [exact C|]. exfalso.
  unfold fixed_first in FX. rewrite forallb_forall in FX. specialize (FX f). rewrite U in FX. cbn [Ascii.eqb Bool.eqb negb] in FX.
  assert (In f (group p)) as I; [|discriminate (FX I)].
  unfold group. unfold zget in G. destruct (Z.ltb_spec idx 0); [discriminate|].
  set (a := Z.to_nat (zlen (p_fields p) - p_rep p)). assert (a <= Z.to_nat idx)%nat by (unfold a; lia).
  rewrite <- (firstn_skipn a (p_fields p)) in G. rewrite nth_error_app2 in G by (rewrite firstn_length; lia). eapply nth_error_In. exact G.
Qed.
Lemma fixed_entry id i def j def' : pgn_first PgnList id = Ret (i, def) -> pgn_last PgnList id = Ret (j, def') -> i <> j -> i <= j ->
  forall k p, i <= k <= j -> zget PgnList k = Some p -> fixed_first p = true.
Proof.
  intros E1 E2 N L k p K G. assert (fixed_ok id = true) as F.
  { destruct (C28_first _ _ _ _ E1) as [[[F1 F2] _]|[F [-> _]]].
    - pose proof PgnList_fixed as S. rewrite forallb_forall in S. specialize (S def (zget_In _ _ _ F1)). now rewrite F2 in S.
    - destruct (C28_last _ _ _ _ E2) as [[B _]|[_ [-> _]]]; [elim (F _ _ B)|congruence]. }
  unfold fixed_ok in F. rewrite E1, E2 in F. destruct (Z.eqb_spec i j); [contradiction|]. cbn [orb] in F. rewrite forallb_forall in F.
  specialize (F k). rewrite G in F. apply F. unfold candidates. apply in_map_iff. exists (Z.to_nat (k - i)). split; [lia|]. apply in_seq. destruct (i =? j); lia.
Qed.

(** Where a state stands in its definition, wherever it came from. *)
Definition pinv (s : pstate) : Prop :=
  (ps_odx s <= zlen (p_fields (ps_def s)) \/ 0 < p_rep (ps_def s)) /\
  (ps_idx s < zlen (p_fields (ps_def s)) - p_rep (ps_def s) -> ps_odx s = ps_idx s).
Lemma pinv_step pl d i j s s' : 0 <= s_len d -> reach PgnList (s_len d) i j s ->
  (i <> j -> forall k p, i <= k <= j -> zget PgnList k = Some p -> fixed_first p = true) ->
  pinv s -> parse_step pl PgnList d j (i =? j) s = SNext s' -> pinv s'.
Proof.
  intros HL R FX (P1 & P2) E. pose proof (reach_step pl PgnList d i j s s' PgnList_ok HL R E) as R'.
  apply step_next in E as [f [v [i' [def' [ix' [F [Hb [Hn [E' V]]]]]]]]].
  pose proof (table_ok_get _ _ _ PgnList_ok (r_def _ _ _ _ _ R)) as [TR _].
  pose proof (table_ok_get _ _ _ PgnList_ok (r_def _ _ _ _ _ R')) as [TR' _].
  pose proof (zget_some _ _ _ F) as IB.
  assert (ps_def s' = def' /\ ps_odx s' = ps_odx s + 1) as [D' O'] by (subst s'; auto).
  assert (ps_idx s' = (if (ps_idx s =? zlen (p_fields def') - 1) && (0 <? p_rep def') && (ps_byte s' <? s_len d) then ps_idx s - p_rep def' else ps_idx s) + 1) as EI by (subst s'; reflexivity).
  rewrite D' in *.
  assert ((i' = ps_i s /\ def' = ps_def s) \/ (ps_odx s = ps_idx s /\ ps_idx s < zlen (p_fields def'))) as C.
  { destruct (extract_at pl d s f) as [x|e|p]; [|left; tauto|destruct V]. destruct V as [<- V].
    destruct (Z.eqb_spec i j) as [|NE]; [left; tauto|]. destruct V as [V _]. unfold choose_at in V.
    pose proof (choose_spec _ _ _ _ _ _ _ _ _ _ _ _ _ _ _ V (r_def _ _ _ _ _ R) F) as (C1 & C2 & (f' & C3) & C4).
    destruct (Z.eq_dec i' (ps_i s)) as [->|N].
    - left. rewrite (r_def _ _ _ _ _ R) in C2. injection C2 as <-. auto.
    - right. apply zget_some in C3. split; [|lia]. destruct (C4 (ps_i s) ltac:(lia)) as (dk & fk & r & x & K1 & K2 & K3 & _).
      rewrite (r_def _ _ _ _ _ R) in K1. injection K1 as <-. apply P2. pose proof (r_i _ _ _ _ _ R) as RI.
      destruct (Z.eqb_spec i j); [contradiction|].
      refine (fixed_at _ _ _ r TR _ K2 K3). apply (FX NE (ps_i s)); [lia|apply (r_def _ _ _ _ _ R)]. }
  unfold pinv. rewrite D', O', EI. destruct (Z.ltb_spec 0 (p_rep def')) as [RP|RP].
  - split; [now right|].
    destruct C as [(_ & ->)|(C1 & C2)]; [destruct (Z.eqb_spec (ps_idx s) (zlen (p_fields (ps_def s)) - 1))|destruct (Z.eqb_spec (ps_idx s) (zlen (p_fields def') - 1))];
      destruct (ps_byte s' <? s_len d); cbn [andb]; lia.
  - rewrite andb_false_r. cbn [andb]. assert (p_rep def' = 0) as R0 by lia. rewrite R0 in *.
    destruct C as [(_ & ->)|(C1 & C2)]; [rewrite R0 in *|]; split; lia.
Qed.

(** C48: Print of a decoded message, of any PGN of the shipped table or of none, never goes out of
    range; it prints, in order, every field (or every non-nil field), each under the name that the
    reported definition (group unrolled) gives to that position. *)
Theorem C48_print_any fuel pl m spare r verbose : parse_packet fuel pl PgnList m spare = Some (Ret r) ->
  exists def l, zget PgnList (pm_index r) = Some def /\ print_fields PgnList r verbose = Ret l /\
    map (fun e => (fst (fst e), snd e)) l = filter (fun kv => match snd kv with VNil => verbose | _ => true end) (pm_data r) /\
    Forall (fun e => exists f, nth_field def (fst (fst e)) = Some f /\ snd (fst e) = f_name f) l.
Proof.
  intros H. pose proof (C39_header_and_keys _ _ _ _ _ _ H) as [_ [n K]].
  destruct (packet_start PgnList (rm_pgn m) PgnList_nonempty) as [i [def0 [j [def' [E1 [E2 [E3 E4]]]]]]].
  rewrite (packet_unfold _ _ _ _ _ _ _ _ _ E1 E2) in H.
  destruct (parse_loop _ _ _ _ _ _ _) as [[s| |]|] eqn:E; try discriminate. injection H as <-. cbn [pm_index pm_data] in *.
  pose proof (zlen_nonneg (rm_data m)) as ZL.
  set (P := fun s => reach PgnList (zlen (rm_data m)) i j s /\ pinv s).
  assert (P s) as [R (P1 & P2)].
  { refine (proj1 (loop_inv P pl PgnList _ j _ _ fuel _ _ _ E)).
    - intros s0 s1 [A B] S. change (zlen (rm_data m)) with (s_len (window (rm_data m) spare)) in *. split.
      + eapply reach_step; eauto using PgnList_ok.
      + refine (pinv_step _ _ _ _ _ _ ZL A _ B S). intros NE. eapply fixed_entry; eauto.
    - split; [apply reach_init; auto|]. split; cbn [ps_odx ps_idx ps_def]; [left; apply zlen_nonneg|reflexivity]. }
  pose proof (r_def _ _ _ _ _ R) as RD. rewrite (r_index _ _ _ _ _ R). set (def := ps_def s) in *.
  pose proof (table_ok_get _ _ _ PgnList_ok RD) as [TR _].
  destruct (r_keys _ _ _ _ _ R) as [n' [O1 O2]].
  assert (List.length (ps_data s) = n') as LN by (rewrite <- (map_length fst), O2; unfold zseq; now rewrite map_length, seq_length).
  assert (forall k, (k < List.length (ps_data s))%nat -> nth_field def (Z.of_nat k) <> None) as NF.
  { intros k Hk. unfold nth_field. destruct (Z.ltb_spec (Z.of_nat k) (zlen (p_fields def))) as [C|C].
    - intros X. apply zget_none in X. lia.
    - destruct (Z.ltb_spec 0 (p_rep def)) as [RP|RP]; [|lia]. intros X. apply zget_none in X.
      pose proof (Z.mod_pos_bound (Z.of_nat k - zlen (p_fields def)) (p_rep def) RP). lia. }
  destruct (print_ok def verbose (ps_data s) TR (ps_data s) [] []) as [l [L1 L2]]; auto.
  { now rewrite LN. }
  exists def, l. split; [exact RD|]. split; [|exact L2]. unfold print_fields. cbn [pm_index pm_data]. rewrite RD.
  cbn [rev app List.length] in L1. fold def. rewrite <- L1.
  destruct (ps_data s) as [|kv rest] eqn:ED; [reflexivity|]. f_equal. change (Z.of_nat 0) with 0.
  unfold ppos. destruct (Z.ltb_spec 0 (zlen (p_fields def))); [reflexivity|].
  exfalso. apply (NF 0%nat); [cbn; lia|]. unfold nth_field. destruct (Z.ltb_spec (Z.of_nat 0) (zlen (p_fields def))); [lia|].
  destruct (Z.ltb_spec 0 (p_rep def)); [lia|reflexivity].
Qed.

(** Companion to C31/C32: the reserved "not available" and "out of range" patterns of NMEA 2000
    (all ones, and the values just below) are not recognised in number fields.  Whatever its bits,
    a number field of at most 64 bits decodes to a value, never to nil. *)
Theorem C32_not_available_refuted fuel pl m spare i def r k f : bytes_ok (rm_data m) -> only PgnList (rm_pgn m) i def ->
  parse_packet fuel pl PgnList m spare = Some (Ret r) -> (k < List.length (pm_data r))%nat ->
  nth_field def (Z.of_nat k) = Some f -> numeric (f_res f) -> width_in (zlen (rm_data m)) f <= 64 ->
  exists v, nth_error (pm_data r) k = Some (Z.of_nat k, v) /\ v <> VNil.
Proof.
  intros HB O H Hk NF N W.
  destruct (C41_meaning _ _ _ _ _ _ _ _ _ HB O H Hk NF) as (v & G & M).
  { intros E. rewrite E in N. destruct N as [(p & q & N)|[N|[N|N]]]; discriminate. }
  exists v. split; [exact G|]. intros ->. remember VNil as w. unfold numeric in N.
  destruct M; try discriminate Heqw;
    repeat match goal with H : _ \/ _ |- _ => destruct H | H : exists _, _ |- _ => destruct H end;
    try (match goal with H : f_res f = _, H' : f_res f = _ |- _ => rewrite H in H'; discriminate H' end); unfold mwidth in *; lia.
Qed.

(* ------------------------------------------------------------------ examples *)
Lemma single_intro t id i def : pgn_first t id = Ret (i, def) -> pgn_last t id = Ret (i, def) -> p_pgn def = id -> single t id i def.
Proof.
  intros A B C. destruct (C28_first _ _ _ _ A) as [[F1 F2]|[F [-> G]]]; [|elim (F 0 def); split; auto].
  destruct (C28_last _ _ _ _ B) as [[L1 L2]|[L _]]; [|elim (L i def F1)].
  split; [exact F1|]. intros k' p' D. specialize (F2 _ _ D). specialize (L2 _ _ D). lia.
Qed.
Definition of (o : option (outcome parsed)) : option (Z * list gval) :=
  match o with Some (Ret r) => Some (pm_index r, map snd (pm_data r)) | _ => None end.
(** Vessel heading (127250): a message of a PGN with one definition, C39-C41, C44, C48. *)
Definition heading : raw_message := msg 127250 [7; 136; 19; 255; 127; 255; 127; 253].
Example C41_example : single PgnList 127250 77 pgn_077 /\ bytes_ok (rm_data heading) /\
  exists x y z, of (parse_packet 1000 pl0 PgnList heading []) = Some (77, [VUint64 7; VFloat64 x; VFloat64 y; VFloat64 z; VString (str "Magnetic")]).
Proof.
  split; [apply single_intro; vm_compute; reflexivity|]. split; [apply bytesb_ok; reflexivity|].
  do 3 eexists. vm_compute. reflexivity.
Qed.
(** An unknown PGN: the bytes, under the first entry. *)
Example C41_example_unknown : only PgnList 5 0 pgn_000 /\ of (parse_packet 1000 pl0 PgnList (msg 5 [1; 2; 3]) []) = Some (0, [VBytes [1; 2; 3]]).
Proof.
  split; [|vm_compute; reflexivity]. right. split; [|split; reflexivity]. intros k p [G E].
  assert (forallb (fun p => negb (p_pgn p =? 5)) PgnList = true) as F by (vm_compute; reflexivity).
  rewrite forallb_forall in F. specialize (F p (zget_In _ _ _ G)). rewrite E in F. discriminate.
Qed.
(** A message passing over definitions (Fusion, 130820, entries 202..): company 419, id 4. *)
Example C42_decoding_example : exists r,
  parse_packet 1000 pl0 PgnList (msg 130820 [163; 153; 4; 128; 1; 2; 3; 4; 5; 6]) [] = Some (Ret r) /\
  bytes_ok [163; 153; 4; 128; 1; 2; 3; 4; 5; 6] /\ pm_index r = 205 /\
  print_fields PgnList r true = Ret [(0, "Manufacturer Code", VString (str "Fusion")); (1, "Reserved", VUint64 3); (2, "Industry Code", VString (str "Marine"));
     (3, "Message ID", VUint64 4); (4, "A", VUint64 50463104)]%string.
Proof.
  destruct (outline_some (parse_packet 1000 pl0 PgnList (msg 130820 [163; 153; 4; 128; 1; 2; 3; 4; 5; 6]) []) 205 5) as [r [E [I _]]]; [vm_compute; reflexivity|].
  exists r. split; [exact E|]. split; [apply bytesb_ok; reflexivity|]. split; [exact I|]. 
  assert (match parse_packet 1000 pl0 PgnList (msg 130820 [163; 153; 4; 128; 1; 2; 3; 4; 5; 6]) [] with Some (Ret r) => print_fields PgnList r true | _ => Panic "" end = print_fields PgnList r true) as <- by now rewrite E.
  vm_compute. reflexivity.
Qed.
