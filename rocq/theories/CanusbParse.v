(** CanusbParse: proofs about ParseFrame (C02, C03, C04). *)
From Coq Require Import ZifyBool.
From Verif Require Import GoBase BufFacts Strconv StrconvFacts CanModel CanusbModel CanusbSpec.

(* ---------------------------------------------------------------- hexadecimal *)
Lemma hex_char_digit c v : hex_char c v <-> digit_val c = Some v /\ 0 <= v < 16.
Proof.
  unfold hex_char, digit_val.
  destruct ((48 <=? c) && (c <=? 57)) eqn:E1;
    [|destruct ((97 <=? c) && (c <=? 122)) eqn:E2;
      [|destruct ((65 <=? c) && (c <=? 90)) eqn:E3]]; split.
  - intros H. assert (v = c - 48) by lia. split; [f_equal; lia|lia].
  - intros [[= <-] H]. lia.
  - intros H. assert (v = c - 97 + 10) by lia. split; [f_equal; lia|lia].
  - intros [[= <-] H]. lia.
  - intros H. assert (v = c - 65 + 10) by lia. split; [f_equal; lia|lia].
  - intros [[= <-] H]. lia.
  - intros H. lia.
  - intros [[=] H].
Qed.

Lemma hex_char_range c v : hex_char c v -> 0 <= v < 16.
Proof. intros H. apply hex_char_digit in H. tauto. Qed.
Lemma hex_char_fun c v w : hex_char c v -> hex_char c w -> v = w.
Proof. intros H1 H2. apply hex_char_digit in H1, H2. destruct H1, H2. congruence. Qed.
Lemma hexdig_hex d : 0 <= d < 16 -> hex_char (hexdig d) d.
Proof. intros H. apply hex_char_digit. split; [now apply hexdig_digit|assumption]. Qed.

Lemma Forall2_hex s ds :
  Forall2 hex_char s ds <-> Forall2 (fun c d => digit_val c = Some d /\ 0 <= d < 16) s ds.
Proof.
  split; intros F; induction F; constructor; auto; now apply hex_char_digit.
Qed.

Lemma Forall2_len {A B} (R : A -> B -> Prop) l m : Forall2 R l m -> List.length l = List.length m.
Proof. intros F. induction F; cbn; lia. Qed.

Lemma hex_number_bound s n : hex_number s n -> 0 <= n < 16 ^ zlen s.
Proof.
  intros (ds & F & ->).
  assert (zlen ds = zlen s) by (unfold zlen; apply Forall2_len in F; lia).
  pose proof (pos_value_bound 16 ds 0 1) as B. rewrite Z.mul_1_l in B. rewrite <- H.
  apply B; [lia|lia|]. clear -F. induction F; constructor; [now apply hex_char_range in H|assumption].
Qed.

Lemma parse_hex s bits n :
  s <> [] -> 4 * zlen s <= bits -> (parse_uint 16 bits s = PUok n <-> hex_number s n).
Proof.
  intros NE Hb. unfold parse_uint. destruct s as [|c s']; [congruence|]. set (s := c :: s') in *.
  split.
  - intros H. apply pu_loop_ok_inv in H as (ds & F & ->). exists ds. split; [now apply Forall2_hex|reflexivity].
  - intros H. pose proof (hex_number_bound _ _ H) as B. destruct H as (ds & F & E).
    change (fold_left _ ds 0) with (pos_value 16 ds 0) in E. subst n.
    apply pu_loop_digits; [lia|lia|now apply Forall2_hex|].
    assert (16 ^ zlen s <= 2 ^ bits).
    { change 16 with (2 ^ 4). pose proof (zlen_nonneg s). rewrite <- Z.pow_mul_r by lia.
      apply Z.pow_le_mono_r; lia. }
    lia.
Qed.

Lemma hex_number_fun s n m : hex_number s n -> hex_number s m -> n = m.
Proof.
  intros (ds & F & ->) (es & G & ->). f_equal.
  revert es G. induction F; intros es G; inversion G; subst; [reflexivity|].
  f_equal; [eapply hex_char_fun; eassumption|auto].
Qed.

Lemma hex_number_1 c v : hex_number [c] v <-> hex_char c v.
Proof.
  split.
  - intros (ds & F & ->). inversion F as [|? d ? ? Hc F']; subst. inversion F'; subst. exact Hc.
  - intros H. exists [v]. split; [auto using Forall2|reflexivity].
Qed.
Lemma hex_number_2 c1 c2 v : hex_number [c1; c2] v <-> exists v1 v2, hex_char c1 v1 /\ hex_char c2 v2 /\ v = 16 * v1 + v2.
Proof.
  split.
  - intros (ds & F & ->). inversion F as [|? d ? ? Hc F']; subst. inversion F' as [|? d' ? ? Hc' F'']; subst.
    inversion F''; subst. exists d, d'. repeat split; auto. cbn [fold_left]. lia.
  - intros (v1 & v2 & H1 & H2 & ->). exists [v1; v2]. split; [auto using Forall2|]. cbn [fold_left]. lia.
Qed.

Lemma digit_val_high c : 128 <= c -> digit_val c = None.
Proof.
  intros H. unfold digit_val. replace ((48 <=? c) && (c <=? 57)) with false by lia.
  replace ((97 <=? c) && (c <=? 122)) with false by lia.
  replace ((65 <=? c) && (c <=? 90)) with false by lia. reflexivity.
Qed.

Lemma parse_len_char c n : parse_uint 16 8 (string_of_byte c) = PUok n <-> hex_char c n.
Proof.
  unfold string_of_byte. destruct (Z.ltb_spec c 128) as [H|H].
  - rewrite parse_hex; [apply hex_number_1|discriminate|change (zlen [c]) with 1; lia].
  - split; intros P.
    + apply pu_loop_ok_inv in P as (ds & F & _).
      assert (2 <= c / 64) by (apply Z.div_le_lower_bound; lia).
      remember (192 + c / 64) as x. assert (128 <= x) by lia.
      inversion F as [|? ? ? ? [D _] _]; subst ds.
      rewrite digit_val_high in D by assumption. discriminate D.
    + unfold hex_char in P. lia.
Qed.

(* ---------------------------------------------------------------- the data loop *)
Fixpoint hexdec (s : bytes) : option bytes :=
  match s with
  | [] => Some []
  | c1 :: c2 :: r =>
      match parse_uint 16 8 [c1; c2] with
      | PUok v => match hexdec r with Some d => Some (u8 v :: d) | None => None end
      | _ => None
      end
  | _ => None
  end.

Lemma pair_ind (P : bytes -> Prop) :
  P [] -> (forall a, P [a]) -> (forall a b l, P l -> P (a :: b :: l)) -> forall l, P l.
Proof.
  intros H0 H1 H2 l. enough (P l /\ forall a, P (a :: l)) by tauto.
  induction l as [|x l [IH1 IH2]]; split; auto.
Qed.

Lemma hexdec_spec s d : hexdec s = Some d <-> hex_bytes s d.
Proof.
  revert d. induction s as [| |c1 c2 s IH] using pair_ind; intros d; cbn [hexdec].
  - split; [intros [= <-]; constructor|]. intros H; inversion H; reflexivity.
  - split; [discriminate|]. intros H; inversion H.
  - destruct (parse_uint 16 8 [c1; c2]) eqn:P.
    + apply parse_hex in P; [|discriminate|change (zlen [c1; c2]) with 2; lia].
      pose proof (hex_number_bound _ _ P) as B. change (16 ^ zlen [c1; c2]) with 256 in B.
      apply hex_number_2 in P as (v1 & v2 & H1 & H2 & ->).
      rewrite u8_id by (unfold is_byte; lia).
      split.
      * destruct (hexdec s) eqn:E; [|discriminate]. intros [= <-]. constructor; auto. now apply IH.
      * intros H. inversion H as [|? ? w1 w2 ? d' G1 G2 Hd]; subst. apply IH in Hd. rewrite Hd.
        now rewrite (hex_char_fun _ _ _ G1 H1), (hex_char_fun _ _ _ G2 H2).
    + split; [discriminate|]. intros H. inversion H as [|? ? w1 w2 ? d' G1 G2 Hd]; subst.
      assert (parse_uint 16 8 [c1; c2] = PUok (16 * w1 + w2)); [|congruence].
      apply parse_hex; [discriminate|change (zlen [c1; c2]) with 2; lia|]. apply hex_number_2. eauto 6.
    + split; [discriminate|]. intros H. inversion H as [|? ? w1 w2 ? d' G1 G2 Hd]; subst.
      assert (parse_uint 16 8 [c1; c2] = PUok (16 * w1 + w2)); [|congruence].
      apply parse_hex; [discriminate|change (zlen [c1; c2]) with 2; lia|]. apply hex_number_2. eauto 6.
Qed.

Lemma hex_bytes_len s d : hex_bytes s d -> zlen s = 2 * zlen d.
Proof. intros H. induction H; [reflexivity|]. rewrite !zlen_cons. lia. Qed.
Lemma hex_bytes_ok s d : hex_bytes s d -> bytes_ok d.
Proof.
  intros H. induction H; constructor; [|assumption].
  apply hex_char_range in H, H0. unfold is_byte. lia.
Qed.

Lemma parse_data_eq (txt : bytes) : forall (pre suf : bytes) m acc n,
  zlen txt = 2 * Z.of_nat n ->
  parse_data (mkslice (pre ++ txt ++ suf) m) (zlen pre) n acc =
  match hexdec txt with Some d => Ret (acc ++ d) | None => Err "canusb.ParseFrame: Unable to parse data" end.
Proof.
  induction txt as [| |c1 c2 txt IH] using pair_ind; intros pre suf m acc n Hn.
  - change (zlen (@nil byte)) with 0 in Hn. assert (n = O) by lia. subst. cbn. now rewrite app_nil_r.
  - change (zlen [a]) with 1 in Hn. lia.
  - rewrite !zlen_cons in Hn. destruct n as [|n]; [pose proof (zlen_nonneg txt); lia|].
    cbn [parse_data].
    destruct (s_sub_mid pre [c1; c2] (txt ++ suf) m (zlen pre) (zlen pre + 2) eq_refl) as (w & Ew & Vw); [reflexivity|].
    change ((c1 :: c2 :: txt) ++ suf) with ([c1; c2] ++ txt ++ suf). rewrite Ew, Vw.
    cbn [hexdec]. destruct (parse_uint 16 8 [c1; c2]); [|reflexivity|reflexivity].
    specialize (IH (pre ++ [c1; c2]) suf m (acc ++ [u8 n0]) n ltac:(lia)).
    rewrite <- app_assoc, zlen_app in IH. change (zlen [c1; c2]) with 2 in IH. rewrite IH.
    destruct (hexdec txt); [|reflexivity]. now rewrite <- app_assoc.
Qed.

(* ---------------------------------------------------------------- the identifier *)
Lemma land_255 x : Z.land x 255 = x mod 256.
Proof. apply (Z.land_ones x 8). lia. Qed.
Lemma land_3ffff x : Z.land x 262143 = x mod 2 ^ 18.
Proof. apply (Z.land_ones x 18). lia. Qed.
Lemma land_3ff00 x : Z.land x 261888 = x mod 2 ^ 18 / 256 * 256.
Proof.
  change 261888 with (Z.land 262143 (Z.lnot 255)). rewrite Z.land_assoc, land_3ffff, <- Z.ldiff_land.
  change 255 with (Z.ones 8). rewrite Z.ldiff_ones_r by lia.
  rewrite Z.shiftl_mul_pow2, Z.shiftr_div_pow2 by lia. reflexivity.
Qed.

Ltac dm := Z.div_mod_to_equations; lia.

Lemma decode_id_fields id :
  0 <= id < 2 ^ 32 -> decode_id id = (id_prio id, id_pgn id, id_sa id, id_dest id).
Proof.
  intros H. unfold decode_id, id_prio, id_pgn, id_sa, id_dest, id_pf, id_ps, id_page.
  rewrite !Z.shiftr_div_pow2, !land_255 by lia.
  set (pf := (id / 2 ^ 16) mod 256).
  assert (u8 (id / 2 ^ 26) = id / 2 ^ 26) as ->.
  { apply u8_id. split; [apply Z.div_pos; lia|]. apply Z.div_lt_upper_bound; lia. }
  assert (u8 (id mod 256) = id mod 256) as -> by (apply u8_id; apply Z.mod_pos_bound; lia).
  destruct (Z.leb_spec 240 pf) as [Hp|Hp]; destruct (Z.ltb_spec pf 240) as [Hq|Hq]; try lia.
  - rewrite land_3ffff. do 3 f_equal. subst pf. change (2 ^ 18) with 262144.
    change (2 ^ 24) with 16777216. change (2 ^ 16) with 65536. change (2 ^ 8) with 256. clear. dm.
  - rewrite land_3ff00. unfold u8. rewrite Z.mod_mod by lia. do 3 f_equal. subst pf. change (2 ^ 18) with 262144.
    change (2 ^ 24) with 16777216. change (2 ^ 16) with 65536. change (2 ^ 8) with 256. clear. dm.
Qed.

(* ---------------------------------------------------------------- ParseFrame *)
Definition off (ty : msg_type) : Z := id_digits ty + 1.

(** ParseFrame past the prefix, as a function of the text only. *)
Definition body_text (ty : msg_type) (idtxt : bytes) (c : byte) (rest : bytes) : outcome can_frame :=
  match parse_uint 16 (off ty * 4) idtxt with
  | PUok n =>
    match parse_uint 16 8 (string_of_byte c) with
    | PUok k =>
      if k <=? 8 then
        let dl := zlen rest - 4 in
        if negb (Z.rem dl 2 =? 0) || negb (Z.quot dl 2 =? k)
        then Err "canusb.ParseFrame: Expected other number of bytes"
        else match hexdec (firstn (Z.to_nat dl) rest) with
             | Some d => let '(prio, pgn, src, dst) := decode_id (u32 n) in
                         Ret (mkframe (mkraw prio pgn src dst (u8 k) d) ty (u32 n) 0 0)
             | None => Err "canusb.ParseFrame: Unable to parse data"
             end
      else Err "canusb.ParseFrame: Expected length <= 8"
    | _ => Err "canusb.ParseFrame: Unable to parse message length"
    end
  | _ => Err "canusb.ParseFrame: Unable to parse message ID"
  end.



Lemma body_eq ty c0 idtxt c rest spare :
  zlen idtxt = id_digits ty ->
  parse_frame_body (mkslice (c0 :: idtxt ++ c :: rest ++ spare) (off ty + 1 + zlen rest)) ty (off ty)
  = body_text ty idtxt c rest.
Proof.
  intros Hid. unfold parse_frame_body, body_text.
  set (m := off ty + 1 + zlen rest).
  destruct (s_sub_mid [c0] idtxt (c :: rest ++ spare) m 1 (off ty)) as (w & Ew & Vw);
    [reflexivity|unfold off; change (zlen [c0]) with 1; lia|].
  change (c0 :: idtxt ++ c :: rest ++ spare) with ([c0] ++ idtxt ++ c :: rest ++ spare).
  rewrite Ew, Vw.
  destruct (parse_uint 16 (off ty * 4) idtxt) as [n| |]; [|reflexivity|reflexivity].
  pose proof (zlen_nonneg rest).
  rewrite app_assoc, s_get_mid; [|rewrite zlen_app; change (zlen [c0]) with 1; unfold off; lia|unfold m; lia].
  destruct (parse_uint 16 8 (string_of_byte c)) as [k| |] eqn:Pc; [|reflexivity|reflexivity].
  destruct (k <=? 8) eqn:Ek; [|reflexivity]. cbv zeta. cbn [s_len].
  replace (m - (off ty + 1) - 4) with (zlen rest - 4) by (unfold m; lia).
  destruct (negb (Z.rem (zlen rest - 4) 2 =? 0) || negb (Z.quot (zlen rest - 4) 2 =? k)) eqn:B; [reflexivity|].
  assert (0 <= zlen rest - 4) as Hdl.
  { destruct (Z_lt_le_dec (zlen rest - 4) 0); [|assumption]. exfalso.
    apply parse_len_char, hex_char_range in Pc.
    assert (zlen rest = 0 \/ zlen rest = 1 \/ zlen rest = 2 \/ zlen rest = 3) as D by lia.
    clear -B D Pc. destruct D as [E | [E | [E | E]]]; rewrite E in B; cbn -[Z.eqb] in B; lia. }
  rewrite <- (firstn_skipn (Z.to_nat (zlen rest - 4)) rest) at 1.
  set (txt := firstn (Z.to_nat (zlen rest - 4)) rest).
  set (stamp := skipn (Z.to_nat (zlen rest - 4)) rest).
  assert (zlen txt = zlen rest - 4) as Htxt.
  { subst txt. rewrite zlen_firstn; unfold zlen in *; lia. }
  replace (([c0] ++ idtxt) ++ c :: (txt ++ stamp) ++ spare) with
    (([c0] ++ idtxt ++ [c]) ++ txt ++ (stamp ++ spare)).
  2:{ rewrite <- !app_assoc. reflexivity. }
  replace (off ty + 1) with (zlen ([c0] ++ idtxt ++ [c])).
  2:{ rewrite !zlen_app. change (zlen [c0]) with 1. change (zlen [c]) with 1. unfold off. lia. }
  assert (Z.quot (zlen rest - 4) 2 = (zlen rest - 4) / 2) as Q by (apply Z.quot_div_nonneg; lia).
  assert (Z.rem (zlen rest - 4) 2 = (zlen rest - 4) mod 2) as R by (apply Z.rem_mod_nonneg; lia).
  rewrite parse_data_eq.
  2:{ rewrite Htxt, Q, Z2Nat.id by (apply Z.div_pos; lia). rewrite R in B.
      pose proof (Z.div_mod (zlen rest - 4) 2). lia. }
  destruct (hexdec txt); reflexivity.
Qed.

Lemma body_text_ret ty idtxt c rest f :
  zlen idtxt = id_digits ty ->
  (body_text ty idtxt c rest = Ret f <->
   exists id data datatxt stamp, rest = datatxt ++ stamp /\ hex_number idtxt id /\ hex_char c (zlen data) /\
     zlen data <= 8 /\ hex_bytes datatxt data /\ zlen stamp = 4 /\
     f = mkframe (frame_message id data) ty id 0 0).
Proof.
  intros Hid. unfold body_text.
  assert (Hne : idtxt <> []). { intros ->. destruct ty; discriminate. }
  assert (Hbits : 4 * zlen idtxt <= off ty * 4) by (unfold off; lia).
  assert (Hpow : forall n, hex_number idtxt n -> 0 <= n < 2 ^ 32).
  { intros n Hn. apply hex_number_bound in Hn. rewrite Hid in Hn. destruct ty; cbn in *; lia. }
  assert (Hmsg : forall n data, hex_number idtxt n -> hex_char c (zlen data) ->
     (let '(prio, pgn, src, dst) := decode_id (u32 n) in
      mkframe (mkraw prio pgn src dst (u8 (zlen data)) data) ty (u32 n) 0 0)
     = mkframe (frame_message n data) ty n 0 0).
  { intros n data Hn Hc. rewrite u32_id by (apply Hpow in Hn; change (2^32) with 4294967296 in Hn; lia).
    rewrite decode_id_fields by (now apply Hpow).
    unfold frame_message. rewrite (u8_id (zlen data)); [reflexivity|]. apply hex_char_range in Hc. unfold is_byte. lia. }
  split.
  - intros H.
    destruct (parse_uint 16 (off ty * 4) idtxt) as [n| |] eqn:Pid; try discriminate.
    apply parse_hex in Pid; [|assumption..].
    destruct (parse_uint 16 8 (string_of_byte c)) as [k| |] eqn:Pc; try discriminate.
    apply parse_len_char in Pc.
    destruct (k <=? 8) eqn:Ek; [|discriminate]. cbv zeta in H.
    destruct (negb (Z.rem (zlen rest - 4) 2 =? 0) || negb (Z.quot (zlen rest - 4) 2 =? k)) eqn:B; [discriminate|].
    destruct (hexdec _) as [d|] eqn:Hd; [|discriminate]. apply hexdec_spec in Hd.
    pose proof (hex_bytes_len _ _ Hd) as Hl.
    pose proof (hex_char_range _ _ Pc) as Hk. pose proof (zlen_nonneg rest) as Hr0.
    assert (4 <= zlen rest) as Hr.
    { destruct (Z_le_gt_dec 4 (zlen rest)); [assumption|]. exfalso.
      assert (zlen rest = 0 \/ zlen rest = 1 \/ zlen rest = 2 \/ zlen rest = 3) as D by lia.
      clear -B D Hk. destruct D as [E | [E | [E | E]]]; rewrite E in B; cbn -[Z.eqb] in B; lia. }
    rewrite Z.quot_div_nonneg, Z.rem_mod_nonneg in B by lia.
    rewrite zlen_firstn in Hl by (unfold zlen in *; lia).
    assert (zlen d = k) as Hdk. { pose proof (Z.div_mod (zlen rest - 4) 2). lia. }
    subst k.
    exists n, d, (firstn (Z.to_nat (zlen rest - 4)) rest), (skipn (Z.to_nat (zlen rest - 4)) rest).
    split; [now rewrite firstn_skipn|]. repeat (split; [first [assumption|lia]|]).
    split; [rewrite zlen_skipn; unfold zlen in *; lia|].
    rewrite <- (Hmsg n d Pid Pc). destruct (decode_id (u32 n)) as [[[? ?] ?] ?]. now injection H.
  - intros (id & data & datatxt & stamp & -> & Hn & Hc & H8 & Hb & Hs & ->).
    destruct (parse_uint 16 (off ty * 4) idtxt) as [n| |] eqn:Pid;
      try (rewrite (proj2 (parse_hex idtxt (off ty * 4) id Hne Hbits) Hn) in Pid; discriminate).
    apply parse_hex in Pid; [|assumption..]. rewrite (hex_number_fun _ _ _ Pid Hn) in *. clear Pid.
    rewrite (proj2 (parse_len_char c _) Hc).
    replace (zlen data <=? 8) with true by lia. cbv zeta.
    pose proof (hex_bytes_len _ _ Hb) as Hl. pose proof (zlen_nonneg data).
    rewrite zlen_app, Hl, Hs. replace (2 * zlen data + 4 - 4) with (2 * zlen data) by lia.
    rewrite Z.quot_div_nonneg, Z.rem_mod_nonneg by lia.
    replace (2 * zlen data / 2) with (zlen data) by (rewrite Z.mul_comm, Z.div_mul; lia).
    replace ((2 * zlen data) mod 2) with 0 by (rewrite Z.mul_comm, Z.mod_mul; lia).
    rewrite !Z.eqb_refl. cbn [negb orb].
    rewrite <- Hl, firstn_zlen_app, (proj2 (hexdec_spec _ _) Hb).
    rewrite <- (Hmsg id data Hn Hc). destruct (decode_id (u32 id)) as [[[? ?] ?] ?]. reflexivity.
Qed.

Definition prefix_type (c : byte) : option msg_type :=
  if c =? 116 then Some CAN_STD else if c =? 84 then Some CAN_EXT
  else if c =? 114 then Some CAN_STD_RTR else if c =? 82 then Some CAN_EXT_RTR else None.

Lemma ParseFrame_prefix p c r :
  slice_ok p -> s_val p = c :: r ->
  ParseFrame p = match prefix_type c with
                 | Some ty => parse_frame_body p ty (off ty)
                 | None => Err "canusb.ParseFrame: Invalid prefix"
                 end.
Proof.
  intros Hs Hv. unfold ParseFrame. pose proof (s_val_len p Hs) as L. rewrite Hv, zlen_cons in L.
  pose proof (zlen_nonneg r).
  destruct (Z.eqb_spec (s_len p) 0); [lia|].
  destruct (slice_split p Hs) as (spare & E). rewrite Hv in E.
  destruct p as [arr len]. cbn [s_arr s_len] in *. subst arr.
  change ((c :: r) ++ spare) with ([] ++ c :: (r ++ spare)).
  rewrite (s_get_mid [] c (r ++ spare) len 0 eq_refl ltac:(lia)).
  unfold prefix_type.
  destruct (c =? 116); [reflexivity|]. destruct (c =? 84); [reflexivity|].
  destruct (c =? 114); [reflexivity|]. destruct (c =? 82); reflexivity.
Qed.

Lemma prefix_start ty : prefix_type (start_char ty) = Some ty.
Proof. destruct ty; reflexivity. Qed.
Lemma prefix_inv c ty : prefix_type c = Some ty -> c = start_char ty.
Proof.
  unfold prefix_type.
  destruct (Z.eqb_spec c 116); [intros [= <-]; subst; reflexivity|].
  destruct (Z.eqb_spec c 84); [intros [= <-]; subst; reflexivity|].
  destruct (Z.eqb_spec c 114); [intros [= <-]; subst; reflexivity|].
  destruct (Z.eqb_spec c 82); [intros [= <-]; subst; reflexivity|discriminate].
Qed.

(** A text long enough to hold its length digit, decomposed. *)
Lemma long_text p ty r :
  slice_ok p -> s_val p = start_char ty :: r -> off ty < s_len p ->
  exists idtxt c rest spare, r = idtxt ++ c :: rest /\ zlen idtxt = id_digits ty /\
    p = mkslice (start_char ty :: idtxt ++ c :: rest ++ spare) (off ty + 1 + zlen rest).
Proof.
  intros Hs Hv Hl. pose proof (s_val_len p Hs) as L. rewrite Hv, zlen_cons in L.
  destruct (slice_split p Hs) as (spare & E). rewrite Hv in E.
  assert (0 <= id_digits ty) by (destruct ty; cbn; lia).
  destruct (zsplit r (id_digits ty)) as (a & b & -> & Ha); [unfold off in *; lia|].
  rewrite zlen_app in L.
  destruct b as [|c rest]. { rewrite zlen_nil in L. unfold off in *; lia. }
  exists a, c, rest, spare. split; [reflexivity|]. split; [assumption|].
  destruct p as [arr len]. cbn [s_arr s_len] in *. rewrite zlen_cons in L. f_equal.
  - rewrite E. cbn [app]. now rewrite <- app_assoc.
  - unfold off. lia.
Qed.

Lemma ParseFrame_short p ty r :
  slice_ok p -> s_val p = start_char ty :: r -> s_len p <= off ty ->
  (ParseFrame p = (if s_cap p <? off ty then Panic "slice bounds out of range"
                   else match parse_uint 16 (off ty * 4) (zsub (s_arr p) 1 (off ty)) with
                        | PUok _ => Panic "index out of range"
                        | _ => Err "canusb.ParseFrame: Unable to parse message ID" end)).
Proof.
  intros Hs Hv Hl. rewrite (ParseFrame_prefix p _ r Hs Hv), prefix_start.
  unfold parse_frame_body, s_sub.
  assert (4 <= off ty) by (destruct ty; cbn; lia).
  destruct (Z.ltb_spec (s_cap p) (off ty)) as [Hc|Hc].
  - replace ((0 <=? 1) && (1 <=? off ty) && (off ty <=? s_cap p)) with false by lia. reflexivity.
  - replace ((0 <=? 1) && (1 <=? off ty) && (off ty <=? s_cap p)) with true by lia.
    unfold s_val. cbn [s_arr s_len]. fold (zsub (s_arr p) 1 (off ty)).
    destruct (parse_uint 16 (off ty * 4) (zsub (s_arr p) 1 (off ty))); [|reflexivity|reflexivity].
    unfold s_get. replace ((0 <=? off ty) && (off ty <? s_len p)) with false by lia. reflexivity.
Qed.

(** C02: ParseFrame accepts exactly [frame_text], with the values it spells. *)
Theorem ParseFrame_accepts p f :
  slice_ok p ->
  (ParseFrame p = Ret f <->
   exists ty id data, frame_text (s_val p) ty id data /\ f = mkframe (frame_message id data) ty id 0 0).
Proof.
  intros Hs. pose proof (s_val_len p Hs) as L.
  split.
  - intros H. destruct (s_val p) as [|c r] eqn:Hv.
    { unfold ParseFrame in H. rewrite zlen_nil in L. rewrite <- L in H. discriminate. }
    rewrite (ParseFrame_prefix p c r Hs Hv) in H.
    destruct (prefix_type c) as [ty|] eqn:Pt; [|discriminate]. apply prefix_inv in Pt. subst c.
    destruct (Z_lt_le_dec (off ty) (s_len p)) as [Hl|Hl].
    + destruct (long_text p ty r Hs Hv Hl) as (idtxt & c & rest & spare & -> & Hid & ->).
      rewrite body_eq in H by assumption. apply body_text_ret in H; [|assumption].
      destruct H as (id & data & datatxt & stamp & -> & Hn & Hc & H8 & Hb & Hst & ->).
      exists ty, id, data. split; [|reflexivity].
      exists idtxt, c, datatxt, stamp. repeat split; try assumption.
    + pose proof (ParseFrame_short p ty r Hs Hv Hl) as Sh.
      rewrite (ParseFrame_prefix p _ r Hs Hv), prefix_start, H in Sh.
      destruct (s_cap p <? off ty); [discriminate|]. destruct (parse_uint _ _ _); discriminate.
  - intros (ty & id & data & (idtxt & lenc & datatxt & stamp & Hv & Hid & Hn & Hc & H8 & Hb & Hst) & ->).
    rewrite (ParseFrame_prefix p _ _ Hs Hv), prefix_start.
    destruct (slice_split p Hs) as (spare & E). rewrite Hv in E.
    replace p with (mkslice (start_char ty :: idtxt ++ lenc :: (datatxt ++ stamp) ++ spare)
                            (off ty + 1 + zlen (datatxt ++ stamp))).
    2:{ destruct p as [arr len]. cbn [s_arr s_len] in *. subst arr. f_equal.
        - cbn [app]. rewrite <- !app_assoc. cbn [app]. rewrite <- !app_assoc. reflexivity.
        - rewrite Hv in L. rewrite <- L, !zlen_cons, !zlen_app, zlen_cons, zlen_app. unfold off. lia. }
    rewrite body_eq by assumption. apply body_text_ret; [assumption|].
    exists id, data, datatxt, stamp. repeat split; assumption.
Qed.

(** C04: exact crash set. *)
Theorem ParseFrame_panics p :
  slice_ok p ->
  ((exists w, ParseFrame p = Panic w) <->
   exists ty r, s_val p = start_char ty :: r /\ s_len p <= id_digits ty + 1 /\
     (s_cap p < id_digits ty + 1 \/
      exists id, hex_number (zsub (s_arr p) 1 (id_digits ty + 1)) id)).
Proof.
  intros Hs. pose proof (s_val_len p Hs) as L. split.
  - intros [w H]. destruct (s_val p) as [|c r] eqn:Hv.
    { unfold ParseFrame in H. rewrite zlen_nil in L. rewrite <- L in H. discriminate. }
    pose proof H as H0.
    rewrite (ParseFrame_prefix p c r Hs Hv) in H.
    destruct (prefix_type c) as [ty|] eqn:Pt; [|discriminate]. apply prefix_inv in Pt. subst c.
    exists ty, r. split; [reflexivity|].
    destruct (Z_lt_le_dec (off ty) (s_len p)) as [Hl|Hl].
    + exfalso. destruct (long_text p ty r Hs Hv Hl) as (idtxt & c & rest & spare & -> & Hid & ->).
      rewrite body_eq in H by assumption. unfold body_text in H.
      destruct (parse_uint 16 (off ty * 4) idtxt); try discriminate.
      destruct (parse_uint 16 8 (string_of_byte c)); try discriminate.
      destruct (_ <=? 8); [|discriminate]. cbv zeta in H.
      destruct (_ || _); [discriminate|]. destruct (hexdec _); [|discriminate].
      destruct (decode_id (u32 n)) as [[[? ?] ?] ?]. discriminate.
    + split; [exact Hl|]. rewrite (ParseFrame_short p ty r Hs Hv Hl) in H0. fold (off ty).
      destruct (Z.ltb_spec (s_cap p) (off ty)) as [Hc|Hc]; [left; assumption|right].
      destruct (parse_uint 16 (off ty * 4) (zsub (s_arr p) 1 (off ty))) as [n| |] eqn:P; try discriminate.
      exists n. apply parse_hex in P; [assumption| |].
      * intros E. assert (zlen (zsub (s_arr p) 1 (off ty)) = off ty - 1) as Z1.
        { apply zsub_length; unfold s_cap in *; destruct ty; cbn in *; lia. }
        rewrite E in Z1. destruct ty; discriminate.
      * rewrite zsub_length; unfold s_cap in *; destruct ty; cbn in *; lia.
  - intros (ty & r & Hv & Hl & Hcase). fold (off ty) in *.
    rewrite (ParseFrame_short p ty r Hs Hv Hl).
    destruct (Z.ltb_spec (s_cap p) (off ty)) as [Hc|Hc]; [eauto|].
    destruct Hcase as [Hcase|[id Hid]]; [lia|].
    assert (zlen (zsub (s_arr p) 1 (off ty)) = off ty - 1) as Z1.
    { apply zsub_length; unfold s_cap in *; destruct ty; cbn in *; lia. }
    apply (parse_hex _ (off ty * 4)) in Hid.
    + rewrite Hid. eauto.
    + intros E. rewrite E in Z1. destruct ty; discriminate.
    + rewrite Z1. lia.
Qed.

Lemma frame_text_id ty id data p : frame_text p ty id data -> 0 <= id < 2 ^ 32 /\ bytes_ok data.
Proof.
  intros (idtxt & lenc & datatxt & stamp & Hv & Hid & Hn & Hc & H8 & Hb & Hst).
  apply hex_number_bound in Hn. rewrite Hid in Hn. split; [destruct ty; cbn in *; lia|].
  now apply hex_bytes_ok in Hb.
Qed.

Lemma id_fields_range id : 0 <= id ->
  0 <= id_pgn id < 2 ^ 18 /\ is_byte (id_sa id) /\ is_byte (id_dest id) /\ 0 <= id_pf id < 256 /\
  0 <= id_ps id < 256 /\ 0 <= id_page id < 4.
Proof.
  intros H. unfold id_pgn, id_dest, id_sa, is_byte.
  assert (0 <= id_pf id < 256) by (apply Z.mod_pos_bound; lia).
  assert (0 <= id_ps id < 256) by (apply Z.mod_pos_bound; lia).
  assert (0 <= id_page id < 4) by (apply Z.mod_pos_bound; lia).
  pose proof (Z.mod_pos_bound id 256).
  destruct (id_pf id <? 240); change (2 ^ 18) with 262144; lia.
Qed.

(** Frames accepted by ParseFrame satisfy [frame_ok]. *)
Lemma ParseFrame_ok p f : slice_ok p -> ParseFrame p = Ret f -> frame_ok f.
Proof.
  intros Hs H. apply ParseFrame_accepts in H; [|assumption].
  destruct H as (ty & id & data & Ht & ->). apply frame_text_id in Ht as [Hid Hd].
  destruct (id_fields_range id) as (A & B & _); [lia|]. unfold frame_ok. cbn. auto.
Qed.

(** C03: the identifier can be rebuilt from the decoded fields. *)
Theorem identifier_reconstruct id :
  0 <= id < 2 ^ 32 ->
  let m := frame_message id [] in
  id = rm_priority m * 2 ^ 26 + rm_pgn m * 256 + rm_source m +
       (if (rm_pgn m / 256) mod 256 <? 240 then rm_dest m * 256 else 0).
Proof.
  intros H. cbv zeta. unfold frame_message. cbn [rm_priority rm_pgn rm_source rm_dest].
  unfold id_prio, id_pgn, id_dest, id_sa, id_page, id_pf, id_ps in *.
  set (pf := (id / 2 ^ 16) mod 256). set (pg := (id / 2 ^ 24) mod 4). set (ps := (id / 2 ^ 8) mod 256).
  assert (id = id / 2 ^ 26 * 2 ^ 26 + pg * 2 ^ 24 + pf * 2 ^ 16 + ps * 256 + id mod 256) as E.
  { subst pf pg ps. change (2 ^ 26) with 67108864.
    change (2 ^ 24) with 16777216. change (2 ^ 16) with 65536. change (2 ^ 8) with 256. clear. dm. }
  assert (0 <= pf < 256) by (apply Z.mod_pos_bound; lia).
  assert (0 <= ps < 256) by (apply Z.mod_pos_bound; lia).
  assert (forall q, 0 <= q < 256 -> ((pg * 65536 + pf * 256 + q) / 256) mod 256 = pf) as Q.
  { intros q Hq. replace (pg * 65536 + pf * 256 + q) with (q + (pg * 256 + pf) * 256) by ring.
    rewrite Z.div_add, (Z.div_small q), Z.add_0_l by lia.
    rewrite Z.add_comm, Z.mod_add by lia. apply Z.mod_small; lia. }
  destruct (pf <? 240) eqn:D.
  - rewrite Q by lia. rewrite D. rewrite E at 1. change (2 ^ 24) with 16777216. change (2 ^ 16) with 65536. lia.
  - rewrite Q by lia. rewrite D. rewrite E at 1. change (2 ^ 24) with 16777216. change (2 ^ 16) with 65536. lia.
Qed.
