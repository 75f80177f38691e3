(** CanusbSend: proofs about Write, Send, AddressClaim, OpenChannel and CloseChannel (C14-C19). *)
From Coq Require Import ZifyBool.
From Verif Require Import GoBase BufFacts Strconv StrconvFacts CanModel CanusbModel CanusbSpec CanusbRegistry CanusbParse CanusbFast.

(* ------------------------------------------------------------ the text of one frame *)
Lemma div16 b : is_byte b -> 0 <= b / 16 < 16 /\ 0 <= b mod 16 < 16 /\ 16 * (b / 16) + b mod 16 = b.
Proof. unfold is_byte. intros. pose proof (Z.div_mod b 16). pose proof (Z.mod_pos_bound b 16).
  assert (b / 16 < 16) by (apply Z.div_lt_upper_bound; lia). pose proof (Z.div_pos b 16). lia. Qed.

Lemma fmt_2X_chars b : is_byte b -> exists c1 c2 v1 v2, fmt_2X b = [c1; c2] /\ hex_char c1 v1 /\ hex_char c2 v2 /\ b = 16 * v1 + v2.
Proof.
  intros H. destruct (div16 b H) as (A & B & C). unfold fmt_2X. do 4 eexists.
  split; [reflexivity|]. split; [apply hexdig_hex; assumption|]. split; [apply hexdig_hex; assumption|]. lia.
Qed.

Lemma fmt_2X_data d : bytes_ok d -> hex_bytes (flat_map fmt_2X d) d.
Proof.
  induction d as [|b d IH]; intros H; [constructor|]. inversion H; subst.
  destruct (fmt_2X_chars b) as (c1 & c2 & v1 & v2 & E & X1 & X2 & ->); [assumption|].
  cbn [flat_map]. rewrite E. cbn [app]. constructor; auto.
Qed.

Definition wid (pri p0 p1 p2 dst addr : Z) : Z :=
  (pri mod 64 * 4 + p0 mod 2) * 2 ^ 24 + p1 * 2 ^ 16 + (if p1 <? 240 then dst else p2) * 2 ^ 8 + addr.

Lemma pri_byte pri p0 : is_byte pri -> u8 (u8 (Z.shiftl pri 2) + Z.land p0 1) = pri mod 64 * 4 + p0 mod 2.
Proof.
  intros H. rewrite Z.shiftl_mul_pow2 by lia. change (Z.land p0 1) with (Z.land p0 (Z.ones 1)).
  rewrite Z.land_ones by lia. change (2 ^ 2) with 4. change (2 ^ 1) with 2.
  assert (u8 (pri * 4) = pri mod 64 * 4) as ->.
  { unfold u8. change 256 with (64 * 4). rewrite Z.mul_mod_distr_r by lia. reflexivity. }
  apply u8_id. unfold is_byte. pose proof (Z.mod_pos_bound pri 64). pose proof (Z.mod_pos_bound p0 2). lia.
Qed.

Definition write_body (pri p0 p1 p2 dst addr : Z) (pld : bytes) : bytes :=
  84 :: (fmt_2X (pri mod 64 * 4 + p0 mod 2) ++ fmt_2X p1 ++ fmt_2X (if p1 <? 240 then dst else p2) ++ fmt_2X addr)
     ++ hexdig (zlen pld) :: flat_map fmt_2X pld.

Lemma write_text_body pri p0 p1 p2 dst addr pld : is_byte pri -> zlen pld <= 8 ->
  write_text pri p0 p1 p2 dst (zlen pld) addr pld = write_body pri p0 p1 p2 dst addr pld ++ [13].
Proof.
  intros H H8. unfold write_text, write_body. rewrite pri_byte by assumption.
  unfold fmt_1X. replace (zlen pld <? 16) with true by lia.
  cbn [app]. rewrite <- !app_assoc. cbn [app]. rewrite <- ?app_assoc. reflexivity.
Qed.

Lemma write_body_text pri p0 p1 p2 dst addr pld stamp :
  is_byte pri -> is_byte p1 -> is_byte p2 -> is_byte dst -> is_byte addr -> bytes_ok pld -> zlen pld <= 8 ->
  zlen stamp = 4 ->
  frame_text (write_body pri p0 p1 p2 dst addr pld ++ stamp) CAN_EXT (wid pri p0 p1 p2 dst addr) pld.
Proof.
  intros B0 B1 B2 B3 B4 Bp H8 Hs.
  set (x0 := pri mod 64 * 4 + p0 mod 2). set (x2 := if p1 <? 240 then dst else p2).
  assert (is_byte x0). { unfold x0, is_byte. pose proof (Z.mod_pos_bound pri 64). pose proof (Z.mod_pos_bound p0 2). lia. }
  assert (is_byte x2) by (unfold x2; destruct (p1 <? 240); assumption).
  exists (fmt_2X x0 ++ fmt_2X p1 ++ fmt_2X x2 ++ fmt_2X addr), (hexdig (zlen pld)), (flat_map fmt_2X pld), stamp.
  split; [|split; [reflexivity|split; [|split; [|split; [|split; [|exact Hs]]]]]].
  - unfold write_body. cbn [start_char]. fold x0 x2. cbn [app]. rewrite <- !app_assoc. cbn [app].
    rewrite <- ?app_assoc. reflexivity.
  - destruct (fmt_2X_chars x0) as (a1 & a2 & va1 & va2 & Ea & Ha1 & Ha2 & Hx0); [assumption|].
    destruct (fmt_2X_chars p1) as (b1 & b2 & vb1 & vb2 & Eb & Hb1 & Hb2 & Hp1); [assumption|].
    destruct (fmt_2X_chars x2) as (c1 & c2 & vc1 & vc2 & Ec & Hc1 & Hc2 & Hx2); [assumption|].
    destruct (fmt_2X_chars addr) as (d1 & d2 & vd1 & vd2 & Ed & Hd1 & Hd2 & Hadr); [assumption|].
    rewrite Ea, Eb, Ec, Ed. cbn [app]. exists [va1; va2; vb1; vb2; vc1; vc2; vd1; vd2].
    split; [auto 20 using Forall2|]. unfold wid. fold x0 x2. cbn [fold_left].
    change (2 ^ 24) with 16777216. change (2 ^ 16) with 65536. change (2 ^ 8) with 256. lia.
  - apply hexdig_hex. pose proof (zlen_nonneg pld). lia.
  - exact H8.
  - now apply fmt_2X_data.
Qed.

Lemma wid_message m p2 addr d : raw_ok m -> is_byte addr -> p2 = rm_pgn m mod 256 ->
  frame_message (wid (rm_priority m) ((rm_pgn m / 65536) mod 16) ((rm_pgn m / 256) mod 256) p2 (rm_dest m) addr) d
  = wire_message addr m d.
Proof.
  intros (Hp & Hg & Hd & _) Ha ->. unfold is_byte in *.
  unfold frame_message, wire_message, wid, wire_pgn, wire_dest.
  set (g := rm_pgn m) in *. set (pr := rm_priority m) in *. set (ds := rm_dest m) in *.
  set (p1 := (g / 256) mod 256). set (x2 := if p1 <? 240 then ds else g mod 256).
  assert (B1 : 0 <= p1 < 256) by (apply Z.mod_pos_bound; lia).
  assert (B2 : 0 <= x2 < 256) by (unfold x2; pose proof (Z.mod_pos_bound g 256); destruct (p1 <? 240); lia).
  assert (B0 : 0 <= (g / 65536) mod 2 < 2) by (apply Z.mod_pos_bound; lia).
  assert (BP : 0 <= pr mod 64 < 64) by (apply Z.mod_pos_bound; lia).
  assert (E16 : ((g / 65536) mod 16) mod 2 = (g / 65536) mod 2) by (clear; dm).
  rewrite E16. change (2 ^ 24) with 16777216. change (2 ^ 16) with 65536. change (2 ^ 8) with 256.
  set (b := (g / 65536) mod 2) in *.
  set (id := (pr mod 64 * 4 + b) * 16777216 + p1 * 65536 + x2 * 256 + addr).
  assert (Q26 : id_prio id = pr mod 64). { unfold id_prio, id. change (2 ^ 26) with 67108864. clear - BP B0 B1 B2 Ha. dm. }
  assert (Q24 : id_page id = b). { unfold id_page, id. change (2 ^ 24) with 16777216. clear - BP B0 B1 B2 Ha. dm. }
  assert (Q16 : id_pf id = p1). { unfold id_pf, id. change (2 ^ 16) with 65536. clear - BP B0 B1 B2 Ha. dm. }
  assert (Q8 : id_ps id = x2). { unfold id_ps, id. change (2 ^ 8) with 256. clear - BP B0 B1 B2 Ha. dm. }
  assert (Q0 : id_sa id = addr). { unfold id_sa, id. clear - BP B0 B1 B2 Ha. dm. }
  unfold id_pgn, id_dest. rewrite Q26, Q24, Q16, Q8, Q0.
  assert (G : g mod 2 ^ 17 = b * 65536 + p1 * 256 + g mod 256).
  { unfold b, p1. change (2 ^ 17) with 131072. clear. dm. }
  rewrite G. assert (GM : (b * 65536 + p1 * 256 + g mod 256) / 256 mod 256 = p1).
  { pose proof (Z.mod_pos_bound g 256). set (lo := g mod 256) in *. clear - B0 B1 H. dm. }
  rewrite GM. unfold x2. pose proof (Z.mod_pos_bound g 256). destruct (p1 <? 240).
  - f_equal. set (lo := g mod 256) in *. clear - B0 B1 H. dm.
  - reflexivity.
Qed.

(* ------------------------------------------------------------ Write *)


Lemma Write_ok p (pri p0 p1 p2 dst : byte) (pld tail : bytes) : is_byte pri -> zlen pld <= 8 ->
  Write p (full_slice (pri :: p0 :: p1 :: p2 :: dst :: zlen pld :: pld ++ tail)) =
  (let '(w, (n, ok)) := w_write (cp_port p) (write_body pri p0 p1 p2 dst (cp_addr p) pld ++ [13]) in
   (mkcp w (cp_addr p) (cp_open p),
    full_slice (pri :: p0 :: p1 :: (if p1 <? 240 then dst else p2) :: dst :: zlen pld :: pld ++ tail),
    if ok then Ret n else Err "write error")).
Proof.
  intros Hb H8. pose proof (zlen_nonneg pld) as Hp. pose proof (zlen_nonneg tail) as Ht.
  unfold Write, full_slice.
  set (L := zlen (pri :: p0 :: p1 :: p2 :: dst :: zlen pld :: pld ++ tail)).
  assert (EL : L = 6 + zlen pld + zlen tail) by (unfold L; rewrite !zlen_cons, zlen_app; lia).
  assert (G0 : s_get (mkslice (pri :: p0 :: p1 :: p2 :: dst :: zlen pld :: pld ++ tail) L) 0 = Some pri).
  { apply (s_get_mid [] pri); [reflexivity|lia]. }
  assert (G4 : s_get (mkslice (pri :: p0 :: p1 :: p2 :: dst :: zlen pld :: pld ++ tail) L) 4 = Some dst).
  { apply (s_get_mid [pri; p0; p1; p2] dst); [reflexivity|lia]. }
  assert (G5 : s_get (mkslice (pri :: p0 :: p1 :: p2 :: dst :: zlen pld :: pld ++ tail) L) 5 = Some (zlen pld)).
  { apply (s_get_mid [pri; p0; p1; p2; dst] (zlen pld)); [reflexivity|lia]. }
  rewrite G0, G4, G5.
  assert (S1 : s_sub (mkslice (pri :: p0 :: p1 :: p2 :: dst :: zlen pld :: pld ++ tail) L) 1 4 =
               Some (mkslice (p0 :: p1 :: p2 :: dst :: zlen pld :: pld ++ tail) 3)).
  { unfold s_sub, s_cap. cbn [s_arr]. fold L. replace (4 <=? L) with true by lia. reflexivity. }
  rewrite S1.
  assert (S6 : s_sub (mkslice (pri :: p0 :: p1 :: p2 :: dst :: zlen pld :: pld ++ tail) L) 6 (u8 (6 + zlen pld)) =
               Some (mkslice (pld ++ tail) (zlen pld))).
  { unfold s_sub, s_cap. cbn [s_arr]. fold L. rewrite (u8_id (6 + zlen pld)) by (unfold is_byte; lia).
    replace (6 <=? 6 + zlen pld) with true by lia. replace (6 + zlen pld <=? L) with true by lia.
    cbn [andb Z.leb]. change (0 <=? 6) with true. cbn [andb]. f_equal. f_equal. lia. }
  rewrite S6. replace (8 <? zlen pld) with false by lia.
  change (s_get (mkslice (p0 :: p1 :: p2 :: dst :: zlen pld :: pld ++ tail) 3) 0) with (Some p0).
  change (s_get (mkslice (p0 :: p1 :: p2 :: dst :: zlen pld :: pld ++ tail) 3) 1) with (Some p1).
  change (s_get (mkslice (p0 :: p1 :: p2 :: dst :: zlen pld :: pld ++ tail) 3) 2) with (Some p2).
  cbv iota beta.
  assert (V : s_val (mkslice (pld ++ tail) (zlen pld)) = pld) by apply firstn_zlen_app.
  rewrite V, write_text_body by assumption.
  destruct (w_write (cp_port p) (write_body pri p0 p1 p2 dst (cp_addr p) pld ++ [13])) as [w [n ok]].
  f_equal. f_equal. cbn [s_arr s_len]. unfold L. destruct (p1 <? 240); f_equal; rewrite ?zlen_cons; reflexivity.
Qed.

Definition msg_id_bytes (m : raw_message) : bytes :=
  [rm_priority m; u8 (Z.shiftr (Z.land (rm_pgn m) 983040) 16); u8 (Z.shiftr (Z.land (rm_pgn m) 65280) 8); u8 (rm_pgn m); rm_dest m].

Lemma pgn_bytes g : 0 <= g ->
  u8 (Z.shiftr (Z.land g 983040) 16) = (g / 65536) mod 16 /\
  u8 (Z.shiftr (Z.land g 65280) 8) = (g / 256) mod 256 /\ u8 g = g mod 256.
Proof.
  intros H. rewrite !Z.shiftr_land, !Z.shiftr_div_pow2 by lia.
  change (983040 / 2 ^ 16) with 15. change (65280 / 2 ^ 8) with 255.
  change 15 with (Z.ones 4). change 255 with (Z.ones 8). rewrite !Z.land_ones by lia.
  change (2 ^ 16) with 65536. change (2 ^ 8) with 256. change (2 ^ 4) with 16.
  split; [|split].
  - apply u8_id. unfold is_byte. pose proof (Z.mod_pos_bound (g / 65536) 16). lia.
  - apply u8_id. unfold is_byte. pose proof (Z.mod_pos_bound (g / 256) 256). lia.
  - reflexivity.
Qed.

Definition body_of (addr : Z) (m : raw_message) (d : bytes) : bytes :=
  write_body (rm_priority m) ((rm_pgn m / 65536) mod 16) ((rm_pgn m / 256) mod 256) (rm_pgn m mod 256) (rm_dest m) addr d.

Lemma body_of_carries addr m d : raw_ok m -> is_byte addr -> bytes_ok d -> zlen d <= 8 ->
  line_carries (body_of addr m d ++ [13]) (wire_message addr m d).
Proof.
  intros Hm Ha Hd H8 stamp line (body & Eb & -> & Hs). apply app_inj_tail in Eb as [<- _].
  eexists _, d. split.
  - unfold body_of. destruct Hm as (H1 & H2 & H3 & _).
    apply write_body_text; try assumption; unfold is_byte.
    + pose proof (Z.mod_pos_bound (rm_pgn m / 256) 256). lia.
    + pose proof (Z.mod_pos_bound (rm_pgn m) 256). lia.
  - now apply wid_message.
Qed.

(* ------------------------------------------------------------ short Send *)
Lemma Send_short st p m : raw_ok m -> zlen (rm_data m) <= 8 ->
  Send st p m =
  if zlen (rm_data m) <? rm_length m then (st, p, Err "not enough space for data")
  else let '(w, r) := write_all (cp_port p)
         [body_of (cp_addr p) m (firstn (Z.to_nat (rm_length m)) (rm_data m)) ++ [13]] 0 in
       (st, mkcp w (cp_addr p) (cp_open p), r).
Proof.
  intros (H1 & H2 & H3 & H4 & H5) H8. unfold Send. replace (zlen (rm_data m) <=? 8) with true by lia.
  destruct (zlen (rm_data m) <? rm_length m) eqn:E; [reflexivity|].
  set (d := rm_data m) in *. set (n := Z.to_nat (rm_length m)).
  pose proof (zlen_nonneg d) as Hd. unfold is_byte in H4.
  assert (C : copy_at (repeat 0 8) 0 d = d ++ skipn (List.length d) (repeat 0 8)).
  { unfold copy_at. change (Z.to_nat 0) with 0%nat. cbn [firstn app].
    match goal with |- context [Nat.min ?a ?b] => replace (Nat.min a b) with (List.length d) end.
    - f_equal. exact (firstn_all d).
    - cbn [repeat List.length]. unfold zlen in H8. lia. }
  rewrite C. cbn [app].
  assert (L : zlen (firstn n d) = rm_length m).
  { rewrite zlen_firstn; [unfold n; lia|]. unfold n, zlen in *. lia. }
  rewrite <- L at 1. rewrite <- (firstn_skipn n d) at 2. rewrite <- app_assoc.
  destruct (pgn_bytes (rm_pgn m)) as (-> & -> & ->); [lia|].
  rewrite Write_ok by (rewrite ?L; try assumption; lia).
  unfold body_of. cbn [write_all].
  destruct (w_write _ _) as [w [k ok]]. destruct ok; reflexivity.
Qed.

(* ------------------------------------------------------------ fast packet Send *)
Lemma seq_byte seq grp : 0 <= seq -> u8 (Z.land seq 31 + u8 (Z.shiftl (Z.land grp 7) 5)) = hdr (grp mod 8) (seq mod 32).
Proof.
  intros H. rewrite land_31. change 7 with (Z.ones 3). rewrite Z.land_ones, Z.shiftl_mul_pow2 by lia.
  change (2 ^ 3) with 8. change (2 ^ 5) with 32. unfold hdr.
  pose proof (Z.mod_pos_bound seq 32). pose proof (Z.mod_pos_bound grp 8).
  rewrite (u8_id (grp mod 8 * 32)) by (unfold is_byte; lia). rewrite u8_id by (unfold is_byte; lia). lia.
Qed.

Lemma skipn_skipn {A} x : forall y (l : list A), skipn x (skipn y l) = skipn (x + y) l.
Proof.
  intros y. induction y as [|y IH]; intros l; [now rewrite Nat.add_0_r|].
  rewrite Nat.add_succ_r. destruct l; [now rewrite !skipn_nil|]. apply IH.
Qed.

Lemma list_set_0 x l v : list_set (x :: l) 0 v = v :: l.
Proof. reflexivity. Qed.



Lemma zsub_firstn (l : bytes) n : 0 <= n -> zsub l 0 n = firstn (Z.to_nat n) l.
Proof. intros. unfold zsub. rewrite Z.sub_0_r. reflexivity. Qed.

(** State of the loop's two buffers: destination bytes fixed (the PS byte may already have been
    overwritten with the destination), eight bytes of payload space each. *)
Definition bufs_ok (m : raw_message) (buf tmp : bytes) : Prop :=
  exists q l rest, buf = rm_priority m :: (rm_pgn m / 65536) mod 16 :: (rm_pgn m / 256) mod 256 :: q :: rm_dest m :: l :: rest /\
    (q = rm_pgn m mod 256 \/ ((rm_pgn m / 256) mod 256 < 240)) /\ zlen rest = 8 /\ zlen tmp = 8.

Lemma write_body_q pri p0 p1 q p2 dst addr d : (q = p2 \/ p1 < 240) ->
  write_body pri p0 p1 q dst addr d = write_body pri p0 p1 p2 dst addr d.
Proof. intros [->|H]; [reflexivity|]. unfold write_body. replace (p1 <? 240) with true by lia. reflexivity. Qed.

(** One turn of the loop, once the bytes to send are in tmp. *)
Lemma turn_write p m buf tmp d c : raw_ok m -> bufs_ok m buf (d ++ c) -> tmp = d ++ c -> zlen d <= 8 ->
  exists buf', bufs_ok m buf' tmp /\
  Write p (full_slice (list_set (copy_at buf 6 (zsub tmp 0 (zlen d))) 5 (u8 (zlen d)))) =
  (let '(w, (n, ok)) := w_write (cp_port p) (body_of (cp_addr p) m d ++ [13]) in
   (mkcp w (cp_addr p) (cp_open p), full_slice buf', if ok then Ret n else Err "write error")).
Proof.
  intros Hm (q & l & rest & -> & Hq & Hr & Ht) -> H8. pose proof (zlen_nonneg d).
  rewrite zsub_firstn, firstn_zlen_app by lia.
  set (p1 := (rm_pgn m / 256) mod 256) in *. set (p0 := (rm_pgn m / 65536) mod 16).
  destruct (copy_at_fit [rm_priority m; p0; p1; q; rm_dest m; l] rest d) as (t & E & Lt); [lia|].
  change (zlen [rm_priority m; p0; p1; q; rm_dest m; l]) with 6 in E. cbn [app] in E.
  rewrite E.
  change (list_set (rm_priority m :: p0 :: p1 :: q :: rm_dest m :: l :: d ++ t) 5 (u8 (zlen d)))
    with (rm_priority m :: p0 :: p1 :: q :: rm_dest m :: u8 (zlen d) :: d ++ t).
  rewrite (u8_id (zlen d)) by (unfold is_byte; lia).
  rewrite Write_ok; [|apply Hm|assumption].
  rewrite (write_body_q _ _ _ q (rm_pgn m mod 256)) by exact Hq.
  eexists (rm_priority m :: p0 :: p1 :: (if p1 <? 240 then rm_dest m else q) :: rm_dest m :: zlen d :: d ++ t).
  split; [|reflexivity]. eexists _, _, _. split; [reflexivity|]. split; [|split].
  - destruct (p1 <? 240) eqn:D; [right; lia|]. exact Hq.
  - rewrite zlen_app. lia.
  - exact Ht.
Qed.

Definition lines (addr : Z) (m : raw_message) (ds : list bytes) : list bytes := map (fun d => body_of addr m d ++ [13]) ds.

Lemma send_conts m grp data : raw_ok m -> forall fuel i seq p buf tmp tot, 6 <= i -> 0 <= seq ->
  bufs_ok m buf tmp -> i <= zlen data + 5 ->
  (Z.to_nat (zlen data - i) < fuel)%nat ->
  send_loop fuel p data buf tmp i 6 seq grp tot =
  (let '(w, r) := write_all (cp_port p) (lines (cp_addr p) m
      (sent_conts (grp mod 8) seq (chunks (List.length data) 6 (skipn (Z.to_nat i) data)))) tot in
   (mkcp w (cp_addr p) (cp_open p), r)).
Proof.
  intros Hm. assert (G : forall n fuel i seq p buf tmp tot, 6 <= i -> 0 <= seq ->
    bufs_ok m buf tmp -> i <= zlen data + 5 -> (Z.to_nat (zlen data - i) < fuel)%nat ->
    (Z.to_nat (zlen data - i) <= n)%nat ->
    send_loop fuel p data buf tmp i 6 seq grp tot =
    (let '(w, r) := write_all (cp_port p) (lines (cp_addr p) m
        (sent_conts (grp mod 8) seq (chunks n 6 (skipn (Z.to_nat i) data)))) tot in
     (mkcp w (cp_addr p) (cp_open p), r))).
  2:{ intros. apply G; try assumption. unfold zlen in *. lia. }
  induction n as [|n IH]; intros fuel i seq p buf tmp tot Hi Hs Hb Hil Hf Hn.
  - destruct fuel as [|fuel]; [lia|]. cbn [send_loop]. replace (i <? zlen data) with false by lia.
    rewrite skipn_all2 by (unfold zlen in *; lia). cbn. destruct p; reflexivity.
  - destruct fuel as [|fuel]; [lia|]. cbn [send_loop]. destruct (Z.ltb_spec i (zlen data)) as [Hlt|Hge].
    2:{ rewrite skipn_all2 by (unfold zlen in *; lia). cbn. destruct p; reflexivity. }
    replace (i =? 1) with false by lia. replace (i =? 0) with false by lia. cbv zeta iota.
    rewrite seq_byte by assumption. set (h := hdr (grp mod 8) (seq mod 32)).
    set (rem := skipn (Z.to_nat i) data).
    assert (Lrem : zlen rem = zlen data - i) by (unfold rem; rewrite zlen_skipn; unfold zlen in *; lia).
    set (c := firstn 6 rem).
    assert (Lc : zlen c = Z.min 6 (zlen data - i)).
    { unfold c, zlen in *. rewrite firstn_length. lia. }
    assert (Ethis : (if zlen data <? i + 6 then 6 - (i + 6 - zlen data) else 6) = zlen c) by (rewrite Lc; destruct (Z.ltb_spec (zlen data) (i + 6)); lia).
    rewrite Ethis.
    assert (Echunk : zsub data i (if zlen data <? i + 6 then zlen data else i + 6) = c).
    { unfold zsub, c. fold rem. destruct (Z.ltb_spec (zlen data) (i + 6)).
      - rewrite (firstn_all2 (n := 6) rem) by (unfold zlen in *; lia). apply firstn_all2. unfold zlen in *. lia.
      - f_equal. lia. }
    rewrite Echunk.
    pose proof Hb as (q & l & rest & Eb & Hq & Hr & Ht).
    destruct tmp as [|t0 tmp]; [cbv in Ht; discriminate|]. rewrite list_set_0.
    rewrite zlen_cons in Ht.
    destruct (copy_at_fit [h] tmp c) as (t & Et & Lt); [lia|]. change (zlen [h]) with 1 in Et. cbn [app] in Et.
    rewrite Et.
    assert (Eh : zlen c + 1 = zlen (h :: c)) by (rewrite zlen_cons; lia). rewrite Eh.
    destruct (turn_write p m buf (h :: c ++ t) (h :: c) t Hm) as (buf' & Hb' & EW).
    + exists q, l, rest. repeat split; try assumption. cbn [app]. rewrite !zlen_cons, zlen_app. lia.
    + reflexivity.
    + rewrite <- Eh. lia.
    + rewrite EW. clear EW.
      assert (NE : rem <> []) by (intros E; rewrite E in Lrem; change (zlen (@nil Z)) with 0 in Lrem; lia).
      assert (CH : chunks (Datatypes.S n) 6 rem = c :: chunks n 6 (skipn 6 rem)) by (cbn [chunks]; destruct rem; [congruence|reflexivity]).
      rewrite CH. cbn [sent_conts lines map write_all]. fold h.
      destruct (w_write (cp_port p) (body_of (cp_addr p) m (h :: c) ++ [13])) as [w [k ok]].
      destruct ok; [|reflexivity].
      unfold full_slice; cbn [s_arr].
      rewrite (IH fuel (i + 6) (seq + 1) (mkcp w (cp_addr p) (cp_open p)) buf' (h :: c ++ t) (tot + k)); try lia; try assumption.
      cbn [cp_port cp_addr cp_open]. unfold lines. unfold rem. rewrite skipn_skipn.
      replace (6 + Z.to_nat i)%nat with (Z.to_nat (i + 6)) by lia. reflexivity.
Qed.

Lemma Send_fast st p m : raw_ok m -> 8 < zlen (rm_data m) <= 223 ->
  Send st p m =
  (let '(w, r) := write_all (cp_port p) (lines (cp_addr p) m (sent_frames (cs_group st mod 8) (rm_data m))) 0 in
   (mkcs (cs_fast st) (cs_partial st) (u8 (cs_group st + 1)), mkcp w (cp_addr p) (cp_open p), r)).
Proof.
  intros Hm Hlen. unfold Send. replace (zlen (rm_data m) <=? 8) with false by lia.
  replace (zlen (rm_data m) <=? 223) with true by lia.
  set (data := rm_data m) in *. set (st' := mkcs _ _ _). cbn [send_loop].
  replace (0 <? zlen data) with true by lia. change (0 =? 1) with false. change (0 =? 0) with true.
  cbv zeta iota. change (0 + 6) with 6. replace (zlen data <? 6) with false by lia.
  rewrite seq_byte by lia. change (0 mod 32) with 0. set (h := hdr (cs_group st mod 8) 0).
  rewrite (u8_id (zlen data)) by (unfold is_byte; lia).
  rewrite (zsub_firstn data 6) by lia. change (Z.to_nat 6) with 6%nat. set (c := firstn 6 data).
  assert (Lc : zlen c = 6) by (unfold c, zlen in *; rewrite firstn_length; lia).
  change (repeat 0 8) with (0 :: 0 :: repeat 0 6). rewrite list_set_0.
  change (list_set (h :: 0 :: repeat 0 6) 1 (zlen data)) with (h :: zlen data :: repeat 0 6).
  destruct (copy_at_fit [h; zlen data] (repeat 0 6) c) as (t & Et & Lt); [rewrite Lc; cbv; discriminate|].
  change (zlen [h; zlen data]) with 2 in Et. cbn [app] in Et. rewrite Et.
  change (zlen (repeat 0 6)) with 6 in Lt.
  pose proof Hm as (M1 & M2 & M3 & M4 & M5).
  destruct (pgn_bytes (rm_pgn m)) as (-> & -> & ->); [lia|].
  assert (Eh : 6 + 2 = zlen (h :: zlen data :: c)) by (rewrite !zlen_cons; lia). rewrite Eh.
  destruct (turn_write p m ([rm_priority m; (rm_pgn m / 65536) mod 16; (rm_pgn m / 256) mod 256; rm_pgn m mod 256; rm_dest m] ++ repeat 0 9)
              (h :: zlen data :: c ++ t) (h :: zlen data :: c) t) as (buf' & Hb' & EW).
  - exact Hm.
  - eexists _, _, _. split; [reflexivity|]. split; [left; reflexivity|]. split; [reflexivity|].
    cbn [app]. rewrite !zlen_cons, zlen_app. lia.
  - reflexivity.
  - rewrite <- Eh. lia.
  - rewrite EW. clear EW. unfold sent_frames. cbn [lines map write_all]. fold h c. 
    destruct (w_write (cp_port p) (body_of (cp_addr p) m (h :: zlen data :: c) ++ [13])) as [w [k ok]].
    destruct ok; [|reflexivity].
    unfold full_slice; cbn [s_arr].
    rewrite (send_conts m (cs_group st) data); try assumption; try lia; try (unfold zlen in *; lia).
    cbn [cp_port cp_addr cp_open]. change (Z.to_nat 6) with 6%nat. unfold lines.
    destruct (write_all _ _ _). reflexivity.
Qed.

(* ------------------------------------------------------------ sending and receiving *)
Lemma carries_heard w msg f : line_carries w msg -> heard w f -> cf_raw f = msg.
Proof.
  intros C (stamp & s & R & Hs & P). destruct (C _ _ R) as (id & data & Ht & <-).
  assert (ParseFrame s = Ret (mkframe (frame_message id data) CAN_EXT id 0 0)) as E
    by (apply ParseFrame_accepts; eauto).
  rewrite E in P. now injection P as <-.
Qed.

Lemma carries_heard_ex w msg (stamp : bytes) : line_carries w msg -> (exists body, w = body ++ [13]) -> zlen stamp = 4 ->
  exists f, heard w f.
Proof.
  intros C (body & ->) Hs. assert (received_as (body ++ [13]) stamp (body ++ stamp)) as R by (exists body; auto).
  destruct (C _ _ R) as (id & data & Ht & E).
  exists (mkframe (frame_message id data) CAN_EXT id 0 0), stamp, (full_slice (body ++ stamp)).
  rewrite full_val. split; [exact R|]. split; [unfold slice_ok, s_cap, full_slice; cbn; pose proof (zlen_nonneg (body ++ stamp)); lia|].
  apply ParseFrame_accepts; [unfold slice_ok, s_cap, full_slice; cbn; pose proof (zlen_nonneg (body ++ stamp)); lia|].
  rewrite full_val. eauto.
Qed.

Lemma write_all_ok w ls tot : port_ok w -> exists w' n, write_all w ls tot = (w', Ret n) /\ w_log w' = w_log w ++ ls /\ port_ok w'.
Proof.
  revert w tot. induction ls as [|l r IH]; intros w tot P; cbn [write_all].
  - exists w, tot. rewrite app_nil_r. auto.
  - unfold w_write. rewrite P. destruct (IH (mkwport (w_log w ++ [l]) (w_ans w)) (tot + zlen l)) as (w' & n & E & L & P'); [exact P|].
    exists w', n. rewrite E. split; [reflexivity|]. split; [|exact P']. rewrite L. cbn. now rewrite <- app_assoc.
Qed.

Lemma write_all_log w ls tot : exists n, w_log (fst (write_all w ls tot)) = w_log w ++ firstn n ls /\
  ((exists t, snd (write_all w ls tot) = Ret t) -> (List.length ls <= n)%nat) /\
  (forall i, w_ans w i = w_ans (fst (write_all w ls tot)) i) /\
  ((exists e, snd (write_all w ls tot) = Err e) \/ (exists t, snd (write_all w ls tot) = Ret t)).
Proof.
  revert w tot. induction ls as [|l r IH]; intros w tot; cbn [write_all].
  - exists 0%nat. cbn. rewrite app_nil_r. eauto 10.
  - unfold w_write. destruct (w_ans w (List.length (w_log w))) as [k|] eqn:A; cbn [fst snd].
    + exists 1%nat. cbn [w_log firstn fst snd]. split; [reflexivity|]. split; [|split; [reflexivity|eauto]].
      intros [t E]. discriminate E.
    + destruct (IH (mkwport (w_log w ++ [l]) (w_ans w)) (tot + zlen l)) as (n & L & T & An & D).
      exists (Datatypes.S n). rewrite L. cbn [w_log firstn]. split; [now rewrite <- app_assoc|].
      split; [intros H; cbn; apply T in H; lia|]. split; [exact An|exact D].
Qed.

Lemma Forall2_map_l {A B C} (g : A -> B) (R : B -> C -> Prop) l m : Forall2 R (map g l) m <-> Forall2 (fun a c => R (g a) c) l m.
Proof.
  split.
  - revert m. induction l; intros m H; inversion H; subst; auto.
  - induction 1; cbn; auto.
Qed.

Lemma sent_conts_wide g : forall cs k, 1 <= k -> k + zlen cs <= 32 -> sent_conts g k cs = cont_frames g k cs.
Proof.
  induction cs as [|c cs IH]; intros k Hk H; [reflexivity|]. cbn [sent_conts cont_frames].
  rewrite zlen_cons in H. pose proof (zlen_nonneg cs). rewrite Z.mod_small by lia. f_equal. apply IH; lia.
Qed.

Lemma bytes_ok_firstn n l : bytes_ok l -> bytes_ok (firstn n l).
Proof. intros H. rewrite <- (firstn_skipn n l) in H. apply Forall_app in H. apply H. Qed.
Lemma bytes_ok_skipn n l : bytes_ok l -> bytes_ok (skipn n l).
Proof. intros H. rewrite <- (firstn_skipn n l) in H. apply Forall_app in H. apply H. Qed.

Lemma chunks_ok b n : forall l, bytes_ok l -> Forall (fun c => bytes_ok c /\ zlen c <= Z.of_nat b) (chunks n b l).
Proof.
  induction n as [|n IH]; intros l H; destruct l as [|x l]; try constructor.
  - split; [now apply bytes_ok_firstn|]. unfold zlen. rewrite firstn_length. lia.
  - apply IH. now apply bytes_ok_skipn.
Qed.

Definition frame_fits (d : bytes) : Prop := bytes_ok d /\ zlen d <= 8.
Lemma sent_conts_ok g cs : 0 <= g < 8 -> Forall (fun c => bytes_ok c /\ zlen c <= 6) cs -> forall k, Forall frame_fits (sent_conts g k cs).
Proof.
  intros Hg F. induction F as [|c cs [H1 H2] F IH]; intros k; cbn [sent_conts]; constructor; [|apply IH].
  split; [constructor; [|assumption]|rewrite zlen_cons; lia].
  unfold is_byte, hdr. pose proof (Z.mod_pos_bound k 32). lia.
Qed.
Lemma sent_frames_ok g data : 0 <= g < 8 -> bytes_ok data -> zlen data < 256 -> Forall frame_fits (sent_frames g data).
Proof.
  intros Hg Hd Hl. unfold sent_frames. constructor.
  - split.
    + constructor; [unfold is_byte, hdr; lia|]. constructor; [unfold is_byte; pose proof (zlen_nonneg data); lia|].
      now apply bytes_ok_firstn.
    + rewrite !zlen_cons. unfold zlen. rewrite firstn_length. lia.
  - apply sent_conts_ok; [assumption|]. apply (chunks_ok 6). now apply bytes_ok_skipn.
Qed.

Definition ref_frame (addr : Z) (m : raw_message) : can_frame := mkframe (wire_message addr m []) CAN_EXT 0 0 0.

Lemma lines_heard addr m ds : raw_ok m -> is_byte addr -> Forall frame_fits ds -> forall fs,
  Forall2 heard (lines addr m ds) fs ->
  Forall2 (fun f d => cf_raw f = wire_message addr m d) fs ds.
Proof.
  intros Hm Ha F. induction F as [|d ds [H1 H2] F IH]; intros fs H; cbn [lines map] in H; inversion H; subst; constructor.
  - eapply carries_heard; [|eassumption]. now apply body_of_carries.
  - now apply IH.
Qed.

Lemma wire_on addr m fs ds : Forall2 (fun f d => cf_raw f = wire_message addr m d) fs ds -> Forall2 (on_wire (ref_frame addr m)) fs ds.
Proof. induction 1 as [|f d fs ds E]; constructor; [|assumption]. unfold on_wire. rewrite E. cbn. auto. Qed.

(** C14 *)
Lemma send_single st p m : raw_ok m -> is_byte (cp_addr p) -> zlen (rm_data m) <= 8 -> rm_length m <= zlen (rm_data m) ->
  exists w p' r, Send st p m = (st, p', r) /\ w_log (cp_port p') = w_log (cp_port p) ++ [w] /\
    cp_addr p' = cp_addr p /\ cp_open p' = cp_open p /\
    (w_ans (cp_port p) (List.length (w_log (cp_port p))) = None -> r = Ret (zlen w)) /\
    (forall n, w_ans (cp_port p) (List.length (w_log (cp_port p))) = Some n -> exists e, r = Err e) /\
    (forall f, heard w f -> cf_raw f = wire_message (cp_addr p) m (firstn (Z.to_nat (rm_length m)) (rm_data m))) /\
    (exists f, heard w f).
Proof.
  intros Hm Ha H8 HL. rewrite Send_short by assumption. replace (zlen (rm_data m) <? rm_length m) with false by lia.
  set (d := firstn (Z.to_nat (rm_length m)) (rm_data m)). set (w := body_of (cp_addr p) m d ++ [13]).
  assert (Hd : bytes_ok d) by (apply bytes_ok_firstn; apply Hm).
  assert (Ld : zlen d <= 8) by (unfold d, zlen in *; rewrite firstn_length; lia).
  pose proof (body_of_carries (cp_addr p) m d Hm Ha Hd Ld) as C.
  unfold write_all, w_write. exists w.
  destruct (w_ans (cp_port p) (List.length (w_log (cp_port p)))) as [n|] eqn:A.
  - eexists _, _. split; [reflexivity|]. cbn [cp_port w_log cp_addr cp_open]. repeat split; try congruence; eauto.
    + intros f Hf. eapply carries_heard; eauto.
    + eapply carries_heard_ex with (stamp := [0; 0; 0; 0]); [exact C|eexists; reflexivity|reflexivity].
  - eexists _, _. split; [reflexivity|]. cbn [cp_port w_log cp_addr cp_open]. repeat split; try congruence; eauto.
    + intros f Hf. eapply carries_heard; eauto.
    + eapply carries_heard_ex with (stamp := [0; 0; 0; 0]); [exact C|eexists; reflexivity|reflexivity].
Qed.

(** C16 *)
Lemma send_fast_roundtrip st p m rst fs : raw_ok m -> is_byte (cp_addr p) -> port_ok (cp_port p) ->
  9 <= zlen (rm_data m) <= 192 ->
  exists ls w' n, Send st p m = (mkcs (cs_fast st) (cs_partial st) (u8 (cs_group st + 1)), mkcp w' (cp_addr p) (cp_open p), Ret n) /\
    w_log w' = w_log (cp_port p) ++ ls /\ zlen ls = (zlen (rm_data m) + 5) / 6 /\
    (registry_ok rst -> In (wire_pgn (rm_pgn m)) (cs_fast rst) -> Forall2 heard ls fs ->
     Forall2 (fun f d => cf_raw f = wire_message (cp_addr p) m d) fs (sent_frames (cs_group st mod 8) (rm_data m)) /\
     exists rst' f k, receive rst fs = (rst', repeat (Err "partial PGN") k ++ [Ret f]) /\
       cf_raw f = wire_message (cp_addr p) m (rm_data m)).
Proof.
  intros Hm Ha Hp Hlen. pose proof (Send_fast st p m Hm ltac:(lia)) as E.
  set (data := rm_data m) in *. set (g := cs_group st mod 8) in *.
  set (ls := lines (cp_addr p) m (sent_frames g data)) in *.
  assert (Hg : 0 <= g < 8) by (apply Z.mod_pos_bound; lia).
  assert (Hok : bytes_ok data) by apply Hm.
  destruct (write_all_ok (cp_port p) ls 0 Hp) as (w' & n & EW & L & _). rewrite EW in E.
  exists ls, w', n. split; [exact E|]. split; [exact L|].
  assert (NC : zlen (chunks (List.length data) 6 (skipn 6 data)) = (zlen data - 6 + 5) / 6).
  { assert (S6 : zlen (skipn 6 data) = zlen data - 6) by (rewrite zlen_skipn; unfold zlen in *; lia).
    rewrite chunks_length; [|lia|rewrite skipn_length; lia]. rewrite S6. f_equal. lia. }
  assert (SL : forall cs g k, zlen (sent_conts g k cs) = zlen cs).
  { intros cs. induction cs as [|c cs IH]; intros; cbn [sent_conts]; [reflexivity|]. rewrite !zlen_cons, IH. reflexivity. }
  assert (N : zlen ls = (zlen data + 5) / 6).
  { unfold ls, lines. unfold zlen at 1. rewrite map_length. fold (zlen (sent_frames g data)). unfold sent_frames.
    rewrite zlen_cons, SL, NC. clear. dm. }
  split; [exact N|]. intros R F W.
  pose proof (lines_heard _ _ _ Hm Ha (sent_frames_ok g data Hg Hok ltac:(lia)) _ W) as WM. split; [exact WM|].
  pose proof (wire_on _ _ _ _ WM) as OW.
  destruct (fast_run (ref_frame (cp_addr p) m) g data [] rst fs 6) as (rst' & f & k & ER & (f0 & r & Efs & Em) & _).
  - lia.
  - exact R.
  - exact F.
  - rewrite app_nil_r. rewrite zlen_skipn by (unfold zlen in *; lia). apply Z.lt_succ_r. apply Z.div_lt_upper_bound; lia.
  - rewrite app_nil_r. intros _. pose proof (Z.div_mod (zlen data - 6 - 1) 6). pose proof (Z.mod_pos_bound (zlen data - 6 - 1) 6). lia.
  - rewrite app_nil_r. change (Z.to_nat 6) with 6%nat. unfold sent_frames in OW. unfold transfer_data.
    rewrite sent_conts_wide in OW; [exact OW|lia|]. rewrite NC.
    assert ((zlen data - 6 + 5) / 6 <= 31) by (apply Z.lt_succ_r; apply Z.div_lt_upper_bound; lia). lia.
  - exists rst', f, k. split; [exact ER|]. rewrite Em. rewrite app_nil_r.
    subst fs. unfold sent_frames in WM. inversion WM as [|? ? ? ? E0 _]; subst. rewrite E0. reflexivity.
Qed.

(* ------------------------------------------------------------ C17: 193..223 bytes *)
Definition bounded (st : can_state) (u B : Z) : Prop :=
  forall p, cs_partial st u = Some p -> zlen (rm_data (cf_raw p)) <= B.

Lemma step_bound st f st' o h c B : registry_ok st -> fast st f -> rm_data (cf_raw f) = h :: c -> c <> [] ->
  0 <= B -> (hdr_seq h <> 0 -> bounded st (uidf f) B) -> frame_step st f = (st', o) ->
  let B' := if hdr_seq h =? 0 then zlen c - 1 else B + zlen c in
  bounded st' (uidf f) B' /\ (forall m, o = Ret m -> zlen (rm_data (cf_raw m)) <= Z.max B' (1 + zlen c)).
Proof.
  intros R F D NE HB Hb E. destruct (Z.eqb_spec (hdr_seq h) 0) as [S|S]; cbv zeta.
  - destruct c as [|L d]; [congruence|]. rewrite (step_first st f R h L d) in E by assumption.
    rewrite zlen_cons. pose proof (zlen_nonneg d).
    destruct (L <=? zlen d); injection E as <- <-; split; try (intros m Em; try discriminate; injection Em as <-; cbn [first_msg cf_raw rm_data]; lia).
    + intros p. cbn [cs_partial]. rewrite zdel_same. discriminate.
    + intros p. cbn [cs_partial]. rewrite zput_same. intros Ep. injection Ep as <-. cbn [first_msg cf_raw rm_data]. lia.
  - rewrite (step_cont st f R h c) in E by assumption. pose proof (zlen_nonneg c) as Hc.
    specialize (Hb S). destruct (cs_partial st (uidf f)) as [p|] eqn:P.
    + pose proof (Hb p P) as Hp. destruct (u8 (cf_seq p + 1) =? hdr_seq h).
      * cbv zeta in E. destruct (_ <=? _); injection E as <- <-; split; try (intros m Em; try discriminate; injection Em as <-; cbn [set_seqgrp set_data cf_raw rm_data]; rewrite zlen_app; lia).
        -- intros q. cbn [cs_partial]. rewrite zdel_same. discriminate.
        -- intros q. cbn [cs_partial]. rewrite zput_same. intros Ep. injection Ep as <-. cbn [set_seqgrp set_data cf_raw rm_data]. rewrite zlen_app. lia.
      * injection E as <- <-. split.
        -- intros q Hq. specialize (Hb q Hq). lia.
        -- intros m Em. injection Em as <-. cbn [raw_msg set_seqgrp cf_raw]. rewrite D, zlen_cons. lia.
    + injection E as <- <-. split.
      * intros q Hq. congruence.
      * intros m Em. injection Em as <-. cbn [raw_msg set_seqgrp cf_raw]. rewrite D, zlen_cons. lia.
Qed.

Lemma conts_bound h0 g : 0 <= g -> forall cs k st fs B,
  registry_ok st -> fast st h0 -> 0 <= B ->
  bounded st (fp_uid (g mod 4) (rm_pgn (cf_raw h0)) (rm_source (cf_raw h0))) B ->
  (forall c, In c cs -> c <> [] /\ zlen c <= 6) ->
  (forall i, k <= i < k + zlen cs -> i mod 32 <> 0) ->
  Forall2 (on_wire h0) fs (sent_conts g k cs) ->
  (forall m, In (Ret m) (snd (receive st fs)) -> zlen (rm_data (cf_raw m)) <= Z.max 7 (B + total cs)).
Proof.
  intros Hg. induction cs as [|c cs IH]; intros k st fs B R F HB Hb Hc Hk W m Hin.
  - inversion W; subst. cbn in Hin. contradiction.
  - cbn [sent_conts] in W. inversion W as [|f d fs' ds' Wf Wr]; subst fs d ds'.
    rewrite zlen_cons in Hk. pose proof (zlen_nonneg cs).
    assert (Hr : 0 <= k mod 32 < 32) by (apply Z.mod_pos_bound; lia).
    pose proof (uidf_hdr h0 f g _ c Wf Hr) as U.
    destruct (hdr_split g (k mod 32) Hr) as [_ HS].
    destruct Wf as (D & P & S).
    assert (Ff : fast st f) by (unfold fast; rewrite P; exact F).
    destruct (Hc c (or_introl eq_refl)) as [NE Lc].
    assert (K0 : hdr_seq (hdr g (k mod 32)) <> 0) by (rewrite HS; apply Hk; lia).
    cbn [receive] in Hin. destruct (frame_step st f) as [st1 o] eqn:E1.
    destruct (step_bound st f st1 o (hdr g (k mod 32)) c B R Ff D NE HB ltac:(rewrite U; auto) E1) as [Hb1 Hm1].
    replace (hdr_seq (hdr g (k mod 32)) =? 0) with false in * by lia. rewrite U in Hb1.
    pose proof (step_registry _ _ _ _ R E1) as R1. pose proof (step_frame _ _ _ _ R E1) as (F1 & _ & _).
    assert (Fh : fast st1 h0) by (unfold fast in *; congruence).
    pose proof (zlen_nonneg c).
    destruct (receive st1 fs') as [st2 os] eqn:E2. cbn [snd] in Hin.
    assert (T : total (c :: cs) = zlen c + total cs) by (unfold total; cbn [List.concat]; apply zlen_app).
    assert (0 <= total cs) by apply zlen_nonneg.
    destruct Hin as [Hin|Hin].
    + apply Hm1 in Hin. lia.
    + specialize (IH (k + 1) st1 fs' (B + zlen c) R1 Fh ltac:(lia) Hb1).
      assert (zlen (rm_data (cf_raw m)) <= Z.max 7 (B + zlen c + total cs)); [|lia].
      apply IH; [intros; apply Hc; now right|intros; apply Hk; lia|exact Wr|]. rewrite E2. exact Hin.
Qed.

(** A transfer sent from number k on, starting with a first frame. *)
Lemma first_bound h0 g c0 cs k st fs : 0 <= g ->
  registry_ok st -> fast st h0 -> c0 <> [] -> zlen c0 <= 7 ->
  (forall c, In c cs -> c <> [] /\ zlen c <= 6) ->
  (forall i, k <= i < k + zlen cs -> i mod 32 <> 0) ->
  Forall2 (on_wire h0) fs ((hdr g 0 :: c0) :: sent_conts g k cs) ->
  forall m, In (Ret m) (snd (receive st fs)) -> zlen (rm_data (cf_raw m)) <= Z.max 8 (zlen c0 - 1 + total cs).
Proof.
  intros Hg R F NE L0 Hc Hk W m Hin. inversion W as [|f d fs' ds' Wf Wr]; subst fs d ds'.
  pose proof (uidf_hdr h0 f g 0 c0 Wf ltac:(lia)) as U.
  destruct (hdr_split g 0 ltac:(lia)) as [_ HS]. destruct Wf as (D & P & S).
  assert (Ff : fast st f) by (unfold fast; rewrite P; exact F).
  cbn [receive] in Hin. destruct (frame_step st f) as [st1 o] eqn:E1.
  destruct (step_bound st f st1 o (hdr g 0) c0 0 R Ff D NE ltac:(lia) ltac:(congruence) E1) as [Hb1 Hm1].
  rewrite HS in *. cbn [Z.eqb] in *. rewrite U in Hb1.
  pose proof (step_registry _ _ _ _ R E1) as R1. pose proof (step_frame _ _ _ _ R E1) as (F1 & _ & _).
  assert (Fh : fast st1 h0) by (unfold fast in *; congruence). pose proof (zlen_nonneg c0).
  assert (0 <= total cs) by apply zlen_nonneg.
  destruct (receive st1 fs') as [st2 os] eqn:E2. cbn [snd] in Hin. destruct Hin as [Hin|Hin].
  - apply Hm1 in Hin. lia.
  - pose proof (conts_bound h0 g Hg cs k st1 fs' (zlen c0 - 1) R1 Fh ltac:(destruct c0; [congruence|]; rewrite zlen_cons; pose proof (zlen_nonneg c0); lia) Hb1 Hc Hk Wr m) as Q.
    rewrite E2 in Q. specialize (Q Hin). lia.
Qed.

Lemma chunks_nonempty b n : (0 < b)%nat -> forall l c, In c (chunks n b l) -> c <> [] /\ zlen c <= Z.of_nat b.
Proof.
  intros Hb. induction n as [|n IH]; intros l c H; destruct l as [|x l]; cbn [chunks] in H; try contradiction.
  destruct H as [<-|H]; [|eapply IH; eauto]. split.
  - destruct b; [lia|]. discriminate.
  - unfold zlen. rewrite firstn_length. lia.
Qed.

Lemma sent_conts_app g a : forall b k, sent_conts g k (a ++ b) = sent_conts g k a ++ sent_conts g (k + zlen a) b.
Proof.
  induction a as [|c a IH]; intros b k; cbn [app sent_conts]; [rewrite zlen_nil, Z.add_0_r; reflexivity|].
  rewrite IH, zlen_cons. replace (k + 1 + zlen a) with (k + (1 + zlen a)) by ring. reflexivity.
Qed.

(** C17 *)
Lemma send_long_lost st p m rst fs : raw_ok m -> is_byte (cp_addr p) -> port_ok (cp_port p) ->
  193 <= zlen (rm_data m) <= 223 ->
  exists ls w' n, Send st p m = (mkcs (cs_fast st) (cs_partial st) (u8 (cs_group st + 1)), mkcp w' (cp_addr p) (cp_open p), Ret n) /\
    w_log w' = w_log (cp_port p) ++ ls /\
    (registry_ok rst -> In (wire_pgn (rm_pgn m)) (cs_fast rst) -> Forall2 heard ls fs ->
     forall f, In (Ret f) (snd (receive rst fs)) -> zlen (rm_data (cf_raw f)) <= 192).
Proof.
  intros Hm Ha Hp Hlen. pose proof (Send_fast st p m Hm ltac:(lia)) as E.
  set (data := rm_data m) in *. set (g := cs_group st mod 8) in *.
  set (ls := lines (cp_addr p) m (sent_frames g data)) in *.
  assert (Hg : 0 <= g < 8) by (apply Z.mod_pos_bound; lia).
  assert (Hok : bytes_ok data) by apply Hm.
  destruct (write_all_ok (cp_port p) ls 0 Hp) as (w' & n & EW & L & _). rewrite EW in E.
  exists ls, w', n. split; [exact E|]. split; [exact L|]. intros R F W.
  pose proof (lines_heard _ _ _ Hm Ha (sent_frames_ok g data Hg Hok ltac:(lia)) _ W) as WM.
  pose proof (wire_on _ _ _ _ WM) as OW. unfold sent_frames in OW.
  set (cs := chunks (List.length data) 6 (skipn 6 data)) in *.
  assert (S6 : zlen (skipn 6 data) = zlen data - 6) by (rewrite zlen_skipn; unfold zlen in *; lia).
  assert (Hle : (List.length (skipn 6 data) <= List.length data)%nat) by (rewrite skipn_length; lia).
  assert (NC : zlen cs = (zlen data - 1) / 6).
  { unfold cs. rewrite chunks_length; [|lia|exact Hle]. rewrite S6. f_equal. lia. }
  assert (Hcs : forall c, In c cs -> c <> [] /\ zlen c <= 6) by (intros c; apply (chunks_nonempty 6); lia).
  assert (NB : 32 <= zlen cs <= 37).
  { rewrite NC. split; [apply Z.div_le_lower_bound; lia|apply Z.lt_succ_r; apply Z.div_lt_upper_bound; lia]. }
  assert (T31 : total (firstn 31 cs) = 186).
  { destruct (chunks_prefix 6 ltac:(lia) (List.length data) (skipn 6 data) 31 Hle) as [T _]; [|exact T].
    fold cs. unfold zlen in NB. lia. }
  assert (TC : total cs = zlen data - 6) by (unfold total, cs; rewrite chunks_concat by (try lia; exact Hle); exact S6).
  set (A := firstn 31 cs) in *. destruct (skipn 31 cs) as [|c32 B] eqn:EB.
  { exfalso. pose proof (firstn_skipn 31 cs) as X. rewrite EB, app_nil_r in X. fold A in X.
    assert (zlen A = 31) by (unfold A; rewrite zlen_firstn; unfold zlen in *; lia). rewrite X in H. lia. }
  assert (LA : zlen A = 31) by (unfold A; rewrite zlen_firstn; unfold zlen in *; lia).
  assert (Ecs : cs = A ++ c32 :: B) by (rewrite <- EB; symmetry; apply firstn_skipn).
  assert (LB : zlen B = zlen cs - 32) by (rewrite Ecs; clear - LA; rewrite zlen_app, zlen_cons; lia).
  assert (TT : total cs = 186 + (zlen c32 + total B)).
  { rewrite Ecs. unfold total in *. rewrite concat_app, zlen_app. cbn [List.concat]. rewrite zlen_app. lia. }
  assert (IA : forall c, In c A -> c <> [] /\ zlen c <= 6) by (intros c Hc; apply Hcs; rewrite Ecs; apply in_or_app; now left).
  assert (IB : forall c, In c B -> c <> [] /\ zlen c <= 6) by (intros c Hc; apply Hcs; rewrite Ecs; apply in_or_app; right; now right).
  assert (I32 : c32 <> [] /\ zlen c32 <= 6) by (apply Hcs; rewrite Ecs; apply in_or_app; right; now left).
  rewrite Ecs, sent_conts_app, LA in OW. cbn [sent_conts] in OW. change ((1 + 31) mod 32) with 0 in OW.
  change (1 + 31 + 1) with 33 in OW.
  change ((hdr g 0 :: zlen data :: firstn 6 data) :: sent_conts g 1 A ++ (hdr g 0 :: c32) :: sent_conts g 33 B)
    with (((hdr g 0 :: zlen data :: firstn 6 data) :: sent_conts g 1 A) ++ (hdr g 0 :: c32) :: sent_conts g 33 B) in OW.
  apply Forall2_app_inv_r in OW as (fs1 & fs2 & OW1 & OW2 & ->).
  intros f Hin. rewrite receive_app in Hin.
  destruct (receive rst fs1) as [st1 o1] eqn:E1. destruct (receive st1 fs2) as [st2 o2] eqn:E2. cbn [snd] in Hin.
  destruct (receive_registry _ _ _ _ R E1) as (R1 & F1 & _).
  apply in_app_or in Hin as [Hin|Hin].
  - pose proof (first_bound (ref_frame (cp_addr p) m) g (zlen data :: firstn 6 data) A 1 rst fs1 ltac:(lia) R F) as Q.
    rewrite E1 in Q. cbn [snd] in Q.
    assert (L7 : zlen (zlen data :: firstn 6 data) = 7) by (rewrite zlen_cons, zlen_firstn by (clear - Hlen; unfold zlen in Hlen; lia); reflexivity).
    assert (K1 : forall i, 1 <= i < 1 + zlen A -> i mod 32 <> 0) by (rewrite LA; intros i Hi; rewrite Z.mod_small; lia).
    specialize (Q ltac:(discriminate) ltac:(lia) IA K1 OW1 f Hin).
    rewrite L7, T31 in Q. change (Z.max 8 (7 - 1 + 186)) with 192 in Q. exact Q.
  - pose proof (first_bound (ref_frame (cp_addr p) m) g c32 B 33 st1 fs2 ltac:(lia) R1) as Q.
    rewrite E2 in Q. cbn [snd] in Q.
    assert (0 <= total B) by apply zlen_nonneg.
    specialize (Q ltac:(unfold fast; rewrite F1; exact F) ltac:(tauto) ltac:(lia) IB).
    assert (zlen (rm_data (cf_raw f)) <= Z.max 8 (zlen c32 - 1 + total B)); [|lia].
    assert (KB : forall i, 33 <= i < 33 + zlen B -> i mod 32 <> 0).
    { rewrite LB. intros i Hi. replace i with (i - 32 + 1 * 32) by ring. rewrite Z.mod_add, Z.mod_small by lia. lia. }
    apply Q; [exact KB|exact OW2|exact Hin].
Qed.

(* ------------------------------------------------------------ C15 *)
Lemma Write_short_buf p b : slice_ok b -> s_len b < 6 -> exists w, Write p b = (p, b, Panic w).
Proof.
  intros Hs H. unfold Write. destruct (s_get b 0); [|eauto]. destruct (s_sub b 1 4); [|eauto].
  destruct (s_get b 4); [|eauto]. rewrite (s_get_none b 5) by lia. eauto.
Qed.

(** With at least six bytes, everything depends on the length byte. *)
Lemma Write_cases p b len : slice_ok b -> 6 <= s_len b -> zget (s_arr b) 5 = Some len -> is_byte len ->
  if (250 <=? len) || (s_cap b <? 6 + len) then Write p b = (p, b, Panic "slice bounds out of range")
  else if 8 <? len then Write p b = (p, b, Err "does not support long writes")
  else exists w b' (n : Z) (ok : bool), Write p b = (mkcp w (cp_addr p) (cp_open p), b', if ok then Ret n else Err "write error") /\
        (exists line, w_write (cp_port p) line = (w, (n, ok))).
Proof.
  intros Hs H6 H5 Hb. pose proof Hs as Hs'. unfold slice_ok in Hs'. unfold Write.
  destruct (s_get_some b 0 Hs ltac:(lia)) as (pri & -> & _).
  rewrite (s_sub_some b 1 4) by lia.
  destruct (s_get_some b 4 Hs ltac:(lia)) as (dst & -> & _).
  destruct (s_get_some b 5 Hs ltac:(lia)) as (len' & -> & E5). rewrite E5 in H5. injection H5 as ->.
  unfold is_byte in Hb.
  destruct (Z.leb_spec 250 len) as [H250|H250]; cbn [orb].
  { rewrite s_sub_none; [reflexivity|]. left. unfold u8. replace (6 + len) with (len - 250 + 1 * 256) by ring.
    rewrite Z.mod_add, Z.mod_small by lia. lia. }
  rewrite (u8_id (6 + len)) by (unfold is_byte; lia).
  destruct (Z.ltb_spec (s_cap b) (6 + len)) as [HC|HC].
  { rewrite s_sub_none by lia. reflexivity. }
  rewrite (s_sub_some b 6 (6 + len)) by lia.
  destruct (Z.ltb_spec 8 len); [reflexivity|].
  set (sl := mkslice (skipn (Z.to_nat 1) (s_arr b)) (4 - 1)).
  assert (slice_ok sl). { unfold slice_ok, s_cap, sl. cbn [s_len s_arr]. rewrite zlen_skipn; unfold s_cap, zlen in *; lia. }
  destruct (s_get_some sl 0) as (x0 & -> & _); [assumption|cbn; lia|].
  destruct (s_get_some sl 1) as (x1 & -> & _); [assumption|cbn; lia|].
  destruct (s_get_some sl 2) as (x2 & -> & _); [assumption|cbn; lia|].
  destruct (w_write (cp_port p) _) as [w [n ok]] eqn:EW. eexists _, _, _, _. split; [reflexivity|]. eauto.
Qed.

Lemma Write_panics p b : slice_ok b -> bytes_ok (s_arr b) ->
  ((exists w, snd (Write p b) = Panic w) <->
   s_len b < 6 \/ exists len, zget (s_arr b) 5 = Some len /\ (250 <= len \/ s_cap b < 6 + len)) /\
  (forall w, snd (Write p b) = Panic w -> fst (fst (Write p b)) = p).
Proof.
  intros Hs Hb. destruct (Z_lt_le_dec (s_len b) 6) as [H6|H6].
  { destruct (Write_short_buf p b Hs H6) as [w ->]. cbn. split; [|auto]. split; eauto. }
  destruct (s_get_some b 5 Hs ltac:(lia)) as (len & _ & E).
  assert (B : is_byte len). { unfold zget in E. cbn [Z.ltb] in E. apply nth_error_In in E. eapply Forall_forall in Hb; eauto. }
  pose proof (Write_cases p b len Hs H6 E B) as C. rewrite E.
  destruct ((250 <=? len) || (s_cap b <? 6 + len)) eqn:D.
  - rewrite C. cbn [fst snd]. split; [|auto]. split; [|eauto]. intros _. right. exists len. split; [reflexivity|]. lia.
  - split.
    + split.
      * intros [w HP]. exfalso. destruct (8 <? len); [rewrite C in HP; discriminate|].
        destruct C as (w' & b' & n & ok & C & _). rewrite C in HP. cbn in HP. destruct ok; discriminate.
      * intros [HL|(l & El & HL)]; [lia|]. injection El as <-. lia.
    + intros w HP. exfalso. destruct (8 <? len); [rewrite C in HP; discriminate|].
      destruct C as (w' & b' & n & ok & C & _). rewrite C in HP. cbn in HP. destruct ok; discriminate.
Qed.

Lemma Write_long p b len : slice_ok b -> 6 <= s_len b -> zget (s_arr b) 5 = Some len -> 9 <= len <= 249 -> 6 + len <= s_cap b ->
  exists e, Write p b = (p, b, Err e).
Proof.
  intros Hs H6 E HL HC. pose proof (Write_cases p b len Hs H6 E ltac:(unfold is_byte; lia)) as C.
  replace ((250 <=? len) || (s_cap b <? 6 + len)) with false in C by lia. replace (8 <? len) with true in C by lia. eauto.
Qed.

Lemma Send_too_long st p m : 223 < zlen (rm_data m) -> exists e, Send st p m = (st, p, Err e).
Proof.
  intros H. unfold Send. replace (zlen (rm_data m) <=? 8) with false by lia.
  replace (zlen (rm_data m) <=? 223) with false by lia. eauto.
Qed.
Lemma Send_too_short st p m : raw_ok m -> zlen (rm_data m) <= 8 -> zlen (rm_data m) < rm_length m -> exists e, Send st p m = (st, p, Err e).
Proof. intros Hm H8 HL. rewrite Send_short by assumption. replace (_ <? _) with true by lia. eauto. Qed.

(** A Send never panics; it succeeds exactly when every write it makes succeeds. *)
Lemma Send_reports st p m : raw_ok m ->
  let '(st', p', r) := Send st p m in
  exists ls, w_log (cp_port p') = w_log (cp_port p) ++ ls /\
    ((exists n, r = Ret n) \/ (exists e, r = Err e)) /\
    ((exists n, r = Ret n) -> forall i, (i < List.length ls)%nat -> w_ans (cp_port p) (List.length (w_log (cp_port p)) + i) = None) /\
    (ls <> [] -> (exists e, r = Err e) ->
       forall i, (i < List.length ls)%nat ->
         (w_ans (cp_port p) (List.length (w_log (cp_port p)) + i) = None <-> (i < List.length ls - 1)%nat)).
Proof.
  intros Hm.
  assert (G : forall ls w tot, exists ls', w_log (fst (write_all w ls tot)) = w_log w ++ ls' /\
    ((exists n, snd (write_all w ls tot) = Ret n) \/ (exists e, snd (write_all w ls tot) = Err e)) /\
    ((exists n, snd (write_all w ls tot) = Ret n) -> forall i, (i < List.length ls')%nat -> w_ans w (List.length (w_log w) + i) = None) /\
    (ls' <> [] -> (exists e, snd (write_all w ls tot) = Err e) -> forall i, (i < List.length ls')%nat ->
        (w_ans w (List.length (w_log w) + i) = None <-> (i < List.length ls' - 1)%nat)) /\
    ((exists e, snd (write_all w ls tot) = Err e) -> ls' <> [])).
  { induction ls as [|l ls IH]; intros w tot; cbn [write_all].
    - exists []. cbn. rewrite app_nil_r. split; [reflexivity|]. split; [eauto|]. split; [intros; lia|]. split; [congruence|].
      intros [e H]; discriminate.
    - unfold w_write. destruct (w_ans w (List.length (w_log w))) as [k|] eqn:A.
      + exists [l]. cbn. split; [reflexivity|]. split; [eauto|]. split; [intros [n H]; discriminate|].
        split; [|congruence]. intros _ _ i Hi. assert (i = 0)%nat by lia. subst. rewrite Nat.add_0_r, A. split; [discriminate|lia].
      + destruct (IH (mkwport (w_log w ++ [l]) (w_ans w)) (tot + zlen l)) as (ls' & L & D & RR & EE & NN).
        cbn [w_log w_ans] in *. rewrite app_length in RR, EE. cbn [List.length] in RR, EE.
        exists (l :: ls'). rewrite L, <- app_assoc. split; [reflexivity|]. split; [exact D|]. split; [|split].
        * intros H i Hi. destruct i as [|i]; [now rewrite Nat.add_0_r|]. cbn in Hi.
          rewrite <- (RR H i) by lia. f_equal. lia.
        * intros _ H i Hi. specialize (NN H). destruct i as [|i].
          { rewrite Nat.add_0_r, A. cbn. destruct ls'; [congruence|]. cbn. split; [lia|reflexivity]. }
          cbn in Hi. specialize (EE NN H i ltac:(lia)).
          replace (List.length (w_log w) + 1 + i)%nat with (List.length (w_log w) + Datatypes.S i)%nat in EE by lia.
          rewrite EE. cbn. lia.
        * congruence. }
  destruct (Z_le_gt_dec (zlen (rm_data m)) 8) as [H8|H8].
  - rewrite Send_short by assumption. destruct (_ <? _).
    + exists []. cbn. rewrite app_nil_r. split; [reflexivity|]. split; [eauto|]. split; [intros; lia|]. congruence.
    + match goal with |- context [write_all ?w ?ls ?t] => destruct (G ls w t) as (ls' & A & B & C & D & _); destruct (write_all w ls t) as [w' r] end.
      cbn [fst snd cp_port] in *. exists ls'. tauto.
  - destruct (Z_le_gt_dec (zlen (rm_data m)) 223) as [H9|H9].
    + rewrite Send_fast by (try assumption; lia).
      match goal with |- context [write_all ?w ?ls ?t] => destruct (G ls w t) as (ls' & A & B & C & D & _); destruct (write_all w ls t) as [w' r] end.
      cbn [fst snd cp_port] in *. exists ls'. tauto.
    + destruct (Send_too_long st p m ltac:(lia)) as [e ->]. exists []. rewrite app_nil_r.
      split; [reflexivity|]. split; [eauto|]. split; [cbn; intros; lia|]. congruence.
Qed.

(* ------------------------------------------------------------ C18, C19 *)
Definition name_bytes : bytes := [255; 255; 159; 12; 0; 25; 50; 192].

Lemma AddressClaim_sends st p a : is_byte a ->
  exists w p', AddressClaim st p a = (st, p', Ret a) /\ cp_addr p' = a /\ cp_open p' = cp_open p /\
    w_log (cp_port p') = w_log (cp_port p) ++ [w] /\ w_ans (cp_port p') = w_ans (cp_port p) /\
    (exists f, heard w f) /\
    (forall f, heard w f -> cf_raw f = mkraw 2 60928 a 225 8 name_bytes).
Proof.
  intros Ha. unfold AddressClaim. cbv zeta.
  match goal with |- context [mkraw 2 60928 221 225 8 ?l] => replace l with name_bytes by (vm_compute; reflexivity) end.
  set (m := mkraw 2 60928 221 225 8 name_bytes). set (q := mkcp (cp_port p) a (cp_open p)).
  assert (Hm : raw_ok m).
  { unfold raw_ok, m, is_byte. cbn [rm_priority rm_pgn rm_dest rm_length rm_data].
    repeat split; try lia. apply Forall_forall. intros x Hx. unfold is_byte. cbn in Hx. intuition subst; lia. }
  rewrite (Send_short st q m Hm) by (cbv; discriminate).
  change (zlen (rm_data m) <? rm_length m) with false. cbv iota.
  set (w := body_of (cp_addr q) m (firstn (Z.to_nat (rm_length m)) (rm_data m)) ++ [13]).
  exists w. cbn [write_all]. unfold w_write.
  assert (C : line_carries w (mkraw 2 60928 a 225 8 name_bytes)).
  { exact (body_of_carries a m name_bytes Hm Ha ltac:(apply Hm) ltac:(cbv; discriminate)). }
  assert ((exists f, heard w f) /\ (forall f, heard w f -> cf_raw f = mkraw 2 60928 a 225 8 name_bytes)) as HH.
  { split; [|intros f; now apply carries_heard].
    eapply carries_heard_ex with (stamp := [0; 0; 0; 0]); [exact C|eexists; reflexivity|reflexivity]. }
  destruct (w_ans (cp_port q) (List.length (w_log (cp_port q)))); eexists; (split; [reflexivity|]);
    cbn [cp_addr cp_open cp_port w_log w_ans]; tauto.
Qed.

Fixpoint iface_run (st : can_state) (p : can_port) (ms : list raw_message) : can_state * can_port * bool :=
  match ms with
  | [] => (st, p, true)
  | m :: r => match iface_on_message st p m with
              | (st', p', Ret _) => iface_run st' p' r
              | (st', p', _) => (st', p', false)
              end
  end.

Lemma conflicts_run ms : forall st p a k, cp_addr p = a -> is_byte a -> conflict_run a ms k ->
  exists p' ls, iface_run st p ms = (st, p', true) /\ cp_addr p' = (a + k) mod 256 /\
    w_log (cp_port p') = w_log (cp_port p) ++ ls /\ zlen ls = k /\
    Forall (fun w => exists f, heard w f /\ rm_pgn (cf_raw f) = 60928) ls.
Proof.
  induction ms as [|m ms IH]; intros st p a k Hp Ha C; inversion C as [a0|a0 m0 r0 k0 P1 P2 P3|a0 m0 r0 k0 P1 P3]; subst.
  - exists p, []. rewrite app_nil_r, Z.add_0_r. unfold is_byte in Ha. rewrite Z.mod_small by lia. auto.
  - cbn [iface_run]. unfold iface_on_message, Address. rewrite P1, P2, !Z.eqb_refl. cbn [andb].
    destruct (AddressClaim_sends st p (u8 (cp_addr p + 1)) (u8_byte _)) as (w & p1 & E & A1 & _ & L1 & _ & (f & Hf) & Hall).
    rewrite E. destruct (IH st p1 _ k0 A1 (u8_byte _) P3) as (p' & ls & ER & EA & EL & EZ & EF).
    exists p', (w :: ls). split; [exact ER|]. split; [|split; [|split]].
    + rewrite EA. unfold u8. rewrite Zplus_mod_idemp_l. f_equal. lia.
    + rewrite EL, L1, <- app_assoc. reflexivity.
    + rewrite zlen_cons. lia.
    + constructor; [|exact EF]. exists f. split; [exact Hf|]. now rewrite (Hall f Hf).
  - cbn [iface_run]. unfold iface_on_message, Address.
    replace ((rm_pgn m =? 60928) && (rm_source m =? cp_addr p)) with false by lia.
    apply IH; auto.
Qed.

Lemma OpenChannel_trace st w a : is_byte a ->
  let n := List.length (w_log w) in
  exists line, (forall f, heard line f -> cf_raw f = mkraw 2 60928 a 225 8 name_bytes) /\ (exists f, heard line f) /\
  match w_ans w n, w_ans w (n + 1) with
  | Some _, _ => exists w' e, OpenChannel st w a = (st, w', Err e) /\ w_log w' = w_log w ++ [[83; 53; 13]]
  | None, Some _ => exists w' e, OpenChannel st w a = (st, w', Err e) /\ w_log w' = w_log w ++ [[83; 53; 13]; [79; 13]]
  | None, None => exists w' p, OpenChannel st w a = (st, w', Ret p) /\ cp_port p = w' /\ cp_addr p = a /\ cp_open p = true /\
                    w_log w' = w_log w ++ [[83; 53; 13]; [79; 13]; line]
  end.
Proof.
  intros Ha n. unfold OpenChannel, w_write. cbn [w_log w_ans]. fold n.
  change (str "S5" ++ [13]) with [83; 53; 13]. change (str "O" ++ [13]) with [79; 13].
  set (w2 := mkwport ((w_log w ++ [[83; 53; 13]]) ++ [[79; 13]]) (w_ans w)).
  destruct (AddressClaim_sends st (mkcp w2 0 false) a Ha) as (line & p' & E & EA & EO & EL & _ & HX & Hall).
  exists line. split; [exact Hall|]. split; [exact HX|].
  destruct (w_ans w n) as [k|]; [eexists _, _; split; [reflexivity|]; reflexivity|].
  rewrite app_length. cbn [List.length]. fold n. unfold w2 in *.
  destruct (w_ans w (n + 1)) as [k|].
  - eexists _, _; split; [reflexivity|]. cbn [w_log]. now rewrite <- app_assoc.
  - match goal with |- context [AddressClaim st ?q a] => replace (AddressClaim st q a) with (st, p', @Ret Z a) by (symmetry; exact E) end.
    eexists _, _. split; [reflexivity|]. cbn [cp_port cp_addr cp_open]. repeat split; try assumption.
    rewrite EL. cbn [cp_port w_log]. now rewrite <- !app_assoc.
Qed.

Lemma CloseChannel_panics p spare : exists w, CloseChannel p spare = (p, false, Panic w).
Proof.
  unfold CloseChannel.
  destruct (Write_short_buf p (mkslice (str "C" ++ [13] ++ spare) 2)) as [w E].
  - unfold slice_ok, s_cap. cbn [s_len s_arr str app]. rewrite !zlen_cons. pose proof (zlen_nonneg spare). lia.
  - reflexivity.
  - rewrite E. eauto.
Qed.
