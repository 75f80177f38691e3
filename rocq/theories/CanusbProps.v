(** CanusbProps: the theorems of properties C01-C19, with examples that meet their hypotheses. *)
From Coq Require Import ZifyBool.
From Verif Require Import GoBase BufFacts Strconv StrconvFacts CanModel CanusbModel CanusbSpec CanusbRegistry CanusbParse CanusbFast CanusbRead CanusbSend.

(* ------------------------------------------------------------ reachable states *)
(** States of the package variables that a running program can be in. *)
Inductive can_reachable : can_state -> Prop :=
| cr_init : can_reachable can_init
| cr_add st pgn : can_reachable st -> can_reachable (AddFastPacket st pgn)
| cr_recv st text : can_reachable st -> can_reachable (fst (frameReceived st text))
| cr_send st p m : can_reachable st -> can_reachable (fst (fst (Send st p m))).

(** Every reachable state meets the hypothesis [registry_ok] used below. *)
Theorem reachable_registry_ok st : can_reachable st -> registry_ok st.
Proof.
  induction 1 as [|st pgn _ IH|st text _ IH|st p m _ IH].
  - constructor.
  - now apply add_fast_sorted.
  - unfold frameReceived. destruct (ParseFrame text) as [f|e|e]; try exact IH.
    destruct (frame_step st f) as [st' o] eqn:E. cbn. eapply step_registry; eassumption.
  - unfold Send. cbv zeta. destruct (_ <=? 8).
    + destruct (_ <? _); [exact IH|]. destruct (Write _ _) as [[? ?] ?]. exact IH.
    + destruct (_ <=? 223); [|exact IH]. destruct (send_loop _ _ _ _ _ _ _ _ _ _). exact IH.
Qed.

(* ------------------------------------------------------------ C01 *)
Theorem c01_registry_exact adds pgn :
  let st := fold_left AddFastPacket adds can_init in
  (In pgn adds -> isFastPacket (cs_fast st) pgn = Some true) /\
  (~ In pgn adds -> isFastPacket (cs_fast st) pgn = Some false).
Proof. exact (registry_exact adds pgn). Qed.

(** Registrations after arbitrary other activity (receiving, sending) count too. *)
Theorem c01_registry_exact_any st pgn :
  can_reachable st -> exists b, isFastPacket (cs_fast st) pgn = Some b /\ (b = true <-> In pgn (cs_fast st)).
Proof. intros H. apply isFastPacket_sorted. now apply reachable_registry_ok. Qed.

Theorem c01_add_grows st pgn x :
  In x (cs_fast (AddFastPacket st pgn)) <-> x = pgn \/ In x (cs_fast st).
Proof. apply add_fast_In. Qed.

Example c01_example :
  let st := fold_left AddFastPacket [129029; 126996; 129029; 130306; 126208] can_init in
  isFastPacket (cs_fast st) 126996 = Some true /\ isFastPacket (cs_fast st) 127250 = Some false.
Proof. split; vm_compute; reflexivity. Qed.

(* ------------------------------------------------------------ C02 *)
Theorem c02_parse_exact p f :
  slice_ok p ->
  (ParseFrame p = Ret f <->
   exists ty id data, frame_text (s_val p) ty id data /\ f = mkframe (frame_message id data) ty id 0 0).
Proof. exact (ParseFrame_accepts p f). Qed.

(** An encoder: every frame has a text, in upper or lower case. *)
Definition hex_digit_of (upper : bool) (d : Z) : byte := if d <? 10 then 48 + d else if upper then 55 + d else 87 + d.
Fixpoint hex_fixed (upper : bool) (n : nat) (x : Z) : bytes :=
  match n with O => [] | S m => hex_fixed upper m (x / 16) ++ [hex_digit_of upper (x mod 16)] end.
Definition encode (upper : bool) (ty : msg_type) (id : Z) (data stamp : bytes) : bytes :=
  start_char ty :: hex_fixed upper (Z.to_nat (id_digits ty)) id ++
  hex_digit_of upper (zlen data) :: flat_map (hex_fixed upper 2) data ++ stamp.

Lemma hex_digit_of_ok u d : 0 <= d < 16 -> hex_char (hex_digit_of u d) d.
Proof. intros H. unfold hex_char, hex_digit_of. destruct (Z.ltb_spec d 10); [lia|]. destruct u; lia. Qed.
Lemma hex_fixed_ok u n : forall x, 0 <= x < 16 ^ Z.of_nat n -> hex_number (hex_fixed u n x) x.
Proof.
  induction n as [|n IH]; intros x H.
  - exists []. split; [constructor|]. cbn in *. lia.
  - assert (0 <= x / 16 < 16 ^ Z.of_nat n).
    { rewrite Nat2Z.inj_succ, Z.pow_succ_r in H by lia. split; [apply Z.div_pos; lia|apply Z.div_lt_upper_bound; lia]. }
    destruct (IH (x / 16) H0) as (ds & F & E). exists (ds ++ [x mod 16]). cbn [hex_fixed]. split.
    + apply Forall2_app; [exact F|]. constructor; [|constructor]. apply hex_digit_of_ok. apply Z.mod_pos_bound; lia.
    + rewrite fold_left_app. cbn [fold_left]. rewrite <- E. pose proof (Z.div_mod x 16). lia.
Qed.
Lemma hex_fixed_len u n : forall x, zlen (hex_fixed u n x) = Z.of_nat n.
Proof. induction n as [|n IH]; intros x; [reflexivity|]. cbn [hex_fixed]. rewrite zlen_app, IH. change (zlen [_]) with 1. lia. Qed.

Theorem c02_encode_parse upper ty id data stamp p :
  0 <= id < 16 ^ id_digits ty -> bytes_ok data -> zlen data <= 8 -> zlen stamp = 4 ->
  slice_ok p -> s_val p = encode upper ty id data stamp ->
  ParseFrame p = Ret (mkframe (frame_message id data) ty id 0 0).
Proof.
  intros Hid Hd H8 Hs Hp Ev. apply ParseFrame_accepts; [exact Hp|]. exists ty, id, data. split; [|reflexivity].
  exists (hex_fixed upper (Z.to_nat (id_digits ty)) id), (hex_digit_of upper (zlen data)), (flat_map (hex_fixed upper 2) data), stamp.
  pose proof (zlen_nonneg data).
  assert (0 <= id_digits ty) by (destruct ty; cbn; lia).
  split; [rewrite Ev; reflexivity|]. split; [rewrite hex_fixed_len; lia|].
  split; [apply hex_fixed_ok; rewrite Z2Nat.id by lia; exact Hid|].
  split; [apply hex_digit_of_ok; lia|]. split; [exact H8|]. split; [|exact Hs].
  clear - Hd. induction Hd as [|b d Hb Hd IH]; [constructor|]. cbn [flat_map hex_fixed app].
  assert ((b / 16) mod 16 = b / 16) as -> by (unfold is_byte in Hb; apply Z.mod_small; split; [apply Z.div_pos; lia|apply Z.div_lt_upper_bound; lia]).
  replace b with (16 * (b / 16) + b mod 16) at 3 by (pose proof (Z.div_mod b 16); lia).
  constructor; [| |exact IH]; apply hex_digit_of_ok; unfold is_byte in Hb.
  - split; [apply Z.div_pos; lia|apply Z.div_lt_upper_bound; lia].
  - apply Z.mod_pos_bound; lia.
Qed.

(** "T09F80103300FF7A" plus time stamp: PGN 129025 from 3. *)
Example c02_example :
  ParseFrame (full_slice (str "T09F80103300FF7A1234")) =
  Ret (mkframe (mkraw 2 129025 3 255 3 [0; 255; 122]) CAN_EXT 167248131 0 0) /\
  ParseFrame (full_slice (str "T09f80103300ff7a123")) = Err "canusb.ParseFrame: Expected other number of bytes".
Proof. split; vm_compute; reflexivity. Qed.

(* ------------------------------------------------------------ C03 *)
(** [frame_message] (CanusbSpec.v) is the ISO 11783 decoding; by C02 it is what ParseFrame
    returns.  Here: what it says, and that the identifier can be rebuilt. *)
Theorem c03_identifier p f :
  slice_ok p -> ParseFrame p = Ret f ->
  let id := cf_id f in let m := cf_raw f in
  0 <= id < 2 ^ 32 /\
  rm_priority m = id / 2 ^ 26 /\ rm_source m = id mod 256 /\
  (let pf := (id / 2 ^ 16) mod 256 in let ps := (id / 2 ^ 8) mod 256 in let page := (id / 2 ^ 24) mod 4 in
   (240 <= pf -> rm_dest m = 255 /\ rm_pgn m = page * 65536 + pf * 256 + ps) /\
   (pf < 240 -> rm_dest m = ps /\ rm_pgn m = page * 65536 + pf * 256)) /\
  id = rm_priority m * 2 ^ 26 + rm_pgn m * 256 + rm_source m +
       (if (rm_pgn m / 256) mod 256 <? 240 then rm_dest m * 256 else 0).
Proof.
  intros Hs H. pose proof H as H'. apply ParseFrame_accepts in H'; [|exact Hs].
  destruct H' as (ty & id & data & Ht & ->). cbn [cf_id cf_raw]. cbv zeta.
  pose proof (frame_text_id _ _ _ _ Ht) as [Hid _]. split; [exact Hid|].
  unfold frame_message at 1 2. cbn [rm_priority rm_source]. split; [reflexivity|]. split; [reflexivity|]. split.
  - unfold frame_message, id_pgn, id_dest, id_pf, id_ps, id_page. cbn [rm_dest rm_pgn].
    split; intros Hp; [replace (_ <? 240) with false by lia|replace (_ <? 240) with true by lia]; split; try reflexivity; lia.
  - exact (identifier_reconstruct id Hid).
Qed.

(* ------------------------------------------------------------ C04 *)
Theorem c04_panic_set p :
  slice_ok p ->
  ((exists w, ParseFrame p = Panic w) <->
   exists ty r, s_val p = start_char ty :: r /\ s_len p <= id_digits ty + 1 /\
     (s_cap p < id_digits ty + 1 \/
      exists id, hex_number (zsub (s_arr p) 1 (id_digits ty + 1)) id)).
Proof. exact (ParseFrame_panics p). Qed.

(** In particular no panic once the text reaches the length digit. *)
Theorem c04_no_panic_past_length p ty r w :
  slice_ok p -> s_val p = start_char ty :: r -> id_digits ty + 1 < s_len p -> ParseFrame p <> Panic w.
Proof.
  intros Hs Hv Hl H. destruct (proj1 (ParseFrame_panics p Hs) (ex_intro _ w H)) as (ty' & r' & Hv' & Hl' & _).
  rewrite Hv in Hv'. injection Hv' as Hc _. destruct ty, ty'; cbn in *; lia.
Qed.

(** The panics a serial line can provoke: an 8-digit line cut inside its identifier, or any
    line cut just before its length digit. *)
Theorem c04_line_panics l :
  (exists w, ParseFrame (buf_of l) = Panic w) <->
  exists ty r, l = start_char ty :: r /\
    ((id_digits ty = 8 /\ zlen r < 8) \/ (zlen r = id_digits ty /\ exists id, hex_number r id)).
Proof. exact (ParseFrame_line_panics l). Qed.

Example c04_example : exists w, ParseFrame (buf_of (str "T09F8")) = Panic w.
Proof. eexists. vm_compute. reflexivity. Qed.
Example c04_example_ok : exists e, ParseFrame (buf_of (str "t09")) = Err e.
Proof. eexists. vm_compute. reflexivity. Qed.

(* ------------------------------------------------------------ C05 *)
Theorem c05_single_frame st text ty id data :
  registry_ok st -> slice_ok text -> frame_text (s_val text) ty id data -> ~ In (id_pgn id) (cs_fast st) ->
  exists f, frameReceived st text = (st, Ret f) /\ cf_raw f = frame_message id data.
Proof.
  intros R Hs Ht Hn. unfold frameReceived.
  assert (ParseFrame text = Ret (mkframe (frame_message id data) ty id 0 0)) as -> by (apply ParseFrame_accepts; eauto).
  eexists. split; [now apply step_single|reflexivity].
Qed.

Example c05_example :
  frameReceived (AddFastPacket can_init 129029) (full_slice (str "T09F80103300FF7A1234")) =
  (AddFastPacket can_init 129029, Ret (mkframe (mkraw 2 129025 3 255 3 [0; 255; 122]) CAN_EXT 167248131 0 0)).
Proof. vm_compute. reflexivity. Qed.

(* ------------------------------------------------------------ C06 *)
(** [h] fixes PGN and source; the frames [fs] carry the payload cut 6+7+7+..., the last one
    padded by [pad] (which must not need a further frame). *)
Theorem c06_reassembly st h g payload pad fs :
  registry_ok st -> In (rm_pgn (cf_raw h)) (cs_fast st) -> zlen payload <= 223 ->
  zlen payload + zlen pad <= (if zlen payload <=? 6 then 6 else 6 + 7 * ((zlen payload - 6 + 6) / 7)) ->
  let wire := payload ++ pad in
  Forall2 (on_wire h) fs
    (transfer_data g (zlen payload) (firstn 6 wire) (chunks (List.length wire) 7 (skipn 6 wire))) ->
  exists st' m n, receive st fs = (st', repeat (Err "partial PGN") n ++ [Ret m]) /\
    (exists f0 r, fs = f0 :: r /\
     cf_raw m = mkraw (rm_priority (cf_raw f0)) (rm_pgn (cf_raw h)) (rm_source (cf_raw h)) (rm_dest (cf_raw f0))
                     (zlen payload) (payload ++ pad)) /\
    let u := fp_uid (g mod 4) (rm_pgn (cf_raw h)) (rm_source (cf_raw h)) in
    cs_partial st' u = None /\ (forall v, v <> u -> cs_partial st' v = cs_partial st v).
Proof.
  intros R F HL Hp wire W. pose proof (zlen_nonneg payload). pose proof (zlen_nonneg pad).
  apply (fast_run h g payload pad st fs 7); try assumption; try lia.
  - fold wire. assert (zlen wire <= 223).
    { unfold wire. rewrite zlen_app. destruct (Z.leb_spec (zlen payload) 6); [lia|].
      assert ((zlen payload - 6 + 6) / 7 <= 31) by (apply Z.lt_succ_r; apply Z.div_lt_upper_bound; lia). lia. }
    assert (zlen (skipn 6 wire) <= 217).
    { unfold zlen in *. rewrite skipn_length. lia. }
    apply Z.lt_succ_r. apply Z.div_lt_upper_bound; lia.
  - rewrite zlen_app. intros H6. destruct (Z.leb_spec (zlen payload) 6); [lia|].
    set (q := (zlen payload - 6 + 6) / 7) in *.
    assert (7 * q <= zlen payload - 6 + 6) by (apply Z.mul_div_le; lia).
    assert ((zlen payload + zlen pad - 6 - 1) / 7 <= q - 1).
    { apply Z.lt_succ_r. apply Z.div_lt_upper_bound; lia. }
    nia.
Qed.

(** A 9-byte payload in two frames, padded with two bytes, over leftovers of another transfer. *)
Example c06_example :
  let st := fst (receive (AddFastPacket can_init 129029)
                  [mkframe (mkraw 2 129029 3 255 8 [32; 20; 9; 9; 9; 9; 9; 9]) CAN_EXT 0 0 0]) in
  let fs := [mkframe (mkraw 2 129029 3 255 8 [32; 9; 1; 2; 3; 4; 5; 6]) CAN_EXT 0 0 0;
             mkframe (mkraw 2 129029 3 255 6 [33; 7; 8; 9; 255; 255]) CAN_EXT 0 0 0] in
  map (fun o => match o with Ret m => Some (cf_raw m) | _ => None end) (snd (receive st fs))
  = [None; Some (mkraw 2 129029 3 255 9 [1; 2; 3; 4; 5; 6; 7; 8; 9; 255; 255])].
Proof. vm_compute. reflexivity. Qed.

(* ------------------------------------------------------------ C07 *)
(** [outputs_for k fs os]: the outcomes of those frames of fs that belong to k's transfer. *)
Theorem c07_independent st k fs :
  registry_ok st -> frame_ok k -> Forall frame_ok fs ->
  outputs_for k fs (snd (receive st fs)) = snd (receive st (filter (fun f => same_transferb f k) fs)).
Proof. intros R K F. apply (receive_local k fs st st R K F eq_refl eq_refl). Qed.

Theorem c07_parsed_frames_ok p f : slice_ok p -> ParseFrame p = Ret f -> frame_ok f.
Proof. exact (ParseFrame_ok p f). Qed.

(* ------------------------------------------------------------ C08 *)
(** Two frames use the same reassembly entry iff [same_transfer]: source, PGN, group modulo 4. *)
Theorem c08_transfer_key f g :
  frame_ok f -> frame_ok g -> (uidf f = uidf g <-> same_transfer f g).
Proof. exact (uidf_same f g). Qed.

(** A frame touches no entry but its own, and what it does depends on its own entry only. *)
Theorem c08_touches_only_own st f st' o :
  registry_ok st -> frame_step st f = (st', o) -> forall u, u <> uidf f -> cs_partial st' u = cs_partial st u.
Proof. intros R E. apply (step_frame st f st' o R E). Qed.

(** Frames of two different transfers (other group by 4, other destination) are merged: the
    payload delivered starts with f0's bytes and ends with f1's. *)
Theorem c08_merged st f0 f1 h0 h1 L d0 d1 :
  registry_ok st -> frame_ok f0 -> frame_ok f1 -> In (rm_pgn (cf_raw f0)) (cs_fast st) ->
  same_transfer f0 f1 ->
  rm_data (cf_raw f0) = h0 :: L :: d0 -> hdr_seq h0 = 0 -> rm_data (cf_raw f1) = h1 :: d1 -> hdr_seq h1 = 1 ->
  zlen d0 < L <= zlen d0 + zlen d1 ->
  exists st' m, receive st [f0; f1] = (st', [Err "partial PGN"; Ret m]) /\
    cf_raw m = mkraw (rm_priority (cf_raw f0)) (rm_pgn (cf_raw f0)) (rm_source (cf_raw f0)) (rm_dest (cf_raw f0)) L (d0 ++ d1).
Proof.
  intros R K0 K1 F ST D0 S0 D1 S1 HL. cbn [receive].
  rewrite (step_first st f0 R h0 L d0) by assumption. replace (L <=? zlen d0) with false by lia.
  set (st1 := mkcs _ _ _). assert (R1 : registry_ok st1) by exact R.
  rewrite (step_cont st1 f1 R1 h1 d1); [|unfold fast; destruct ST as (_ & <- & _); exact F|assumption|lia].
  assert (uidf f1 = uidf f0) as -> by (apply uidf_same; [assumption|assumption|now apply same_transfer_sym]).
  unfold st1 at 1. cbn [cs_partial]. rewrite zput_same. cbn [first_msg cf_seq]. rewrite S1.
  change (u8 (0 + 1) =? 1) with true. cbv iota zeta.
  cbn [first_msg cf_raw rm_length rm_data]. rewrite zlen_app. replace (L <=? zlen d0 + zlen d1) with true by lia.
  eexists _, _. split; reflexivity.
Qed.

(** Group ids 0 and 4, destinations 1 and 2: one message, mixing both senders' transfers. *)
Example c08_example :
  exists st' m, receive (AddFastPacket can_init 126208)
    [mkframe (mkraw 3 126208 7 1 8 [0; 8; 1; 2; 3; 4; 5; 6]) CAN_EXT 0 0 0;
     mkframe (mkraw 3 126208 7 2 3 [129; 77; 78]) CAN_EXT 0 0 0] = (st', [Err "partial PGN"; Ret m]) /\
    cf_raw m = mkraw 3 126208 7 1 8 [1; 2; 3; 4; 5; 6; 77; 78].
Proof. eexists _, _. split; vm_compute; reflexivity. Qed.

(* ------------------------------------------------------------ C09 *)
Theorem c09_no_invention st h f :
  registry_ok st -> cs_partial st = zempty -> Forall frame_ok h -> frame_ok f ->
  let '(st1, _) := receive st h in
  forall st2 m, frame_step st1 f = (st2, Ret m) ->
    (~ In (rm_pgn (cf_raw f)) (cs_fast st) /\ m = f) \/
    (~ starts_transfer f /\ cf_raw m = cf_raw f) \/
    (rm_length (cf_raw m) <= zlen (rm_data (cf_raw m)) /\
     exists fs, built_from (h ++ [f]) (cf_raw m) fs /\ (fs = [] /\ starts_transfer f \/ exists fs', fs = fs' ++ [f])).
Proof.
  intros R Z0 Fh Ff. destruct (hist_run h st R Z0 Fh) as (Hi & R1 & F1).
  destruct (receive st h) as [st1 o1]. cbn [fst] in *. intros st2 m E.
  destruct (hist_step h st1 f st2 (Ret m) R1 Fh Ff Hi E) as [_ C].
  destruct (C m eq_refl) as [[Hn ->]|[(_ & A & B)|(_ & A & B)]].
  - left. split; [|reflexivity]. unfold fast in Hn. now rewrite F1 in Hn.
  - right. left. auto.
  - right. right. auto.
Qed.

(* ------------------------------------------------------------ C10 *)
Theorem c10_unexpected_frame st f h r :
  registry_ok st -> In (rm_pgn (cf_raw f)) (cs_fast st) -> rm_data (cf_raw f) = h :: r -> hdr_seq h <> 0 ->
  (forall p, cs_partial st (uidf f) = Some p -> u8 (cf_seq p + 1) <> hdr_seq h) ->
  exists m, frame_step st f = (st, Ret m) /\ cf_raw m = cf_raw f.
Proof.
  intros R F D S H. rewrite (step_cont st f R h r) by assumption.
  destruct (cs_partial st (uidf f)) as [p|] eqn:E.
  - destruct (Z.eqb_spec (u8 (cf_seq p + 1)) (hdr_seq h)) as [Eq|_]; [now apply H in Eq|]. eexists. split; reflexivity.
  - eexists. split; reflexivity.
Qed.

(** After frame number s of k's transfer, as long as neither number s+1 nor a new first frame
    arrives, that transfer's frames are delivered raw and the entry stays incomplete. *)
Theorem c10_gap st k s p fs :
  registry_ok st -> frame_ok k -> Forall frame_ok fs -> In (rm_pgn (cf_raw k)) (cs_fast st) ->
  cs_partial st (uidf k) = Some p -> cf_seq p = s -> 0 <= s < 32 ->
  (forall x, In x fs -> same_transfer x k ->
     exists h r, rm_data (cf_raw x) = h :: r /\ hdr_seq h <> 0 /\ hdr_seq h <> s + 1) ->
  cs_partial (fst (receive st fs)) (uidf k) = Some p /\
  outputs_for k fs (snd (receive st fs)) =
    map (fun f => Ret (raw_msg f (frame_head f))) (filter (fun f => same_transferb f k) fs).
Proof. intros. apply (gap_run k s p); assumption. Qed.

Example c10_example :
  let st := fst (receive (AddFastPacket can_init 129029)
                  [mkframe (mkraw 2 129029 3 255 8 [32; 20; 1; 2; 3; 4; 5; 6]) CAN_EXT 0 0 0]) in
  map (fun o => match o with Ret m => Some (cf_raw m) | _ => None end)
    (snd (receive st [mkframe (mkraw 2 129029 3 255 8 [34; 9; 9; 9; 9; 9; 9; 9]) CAN_EXT 0 0 0]))
  = [Some (mkraw 2 129029 3 255 8 [34; 9; 9; 9; 9; 9; 9; 9])].
Proof. vm_compute. reflexivity. Qed.

(* ------------------------------------------------------------ C11 *)
Theorem c11_panic_set st f :
  registry_ok st ->
  ((exists w, snd (frame_step st f) = Panic w) <->
   In (rm_pgn (cf_raw f)) (cs_fast st) /\
   (rm_data (cf_raw f) = [] \/ exists h, rm_data (cf_raw f) = [h] /\ hdr_seq h = 0)).
Proof. exact (step_panic st f). Qed.

Example c11_example : exists w,
  snd (frameReceived (AddFastPacket can_init 129029) (full_slice (str "T09F8050300000"))) = Panic w.
Proof. eexists. vm_compute. reflexivity. Qed.

(* ------------------------------------------------------------ C12 *)
(** The start characters of the specification are those Read looks for. *)
Lemma is_sof_iff b : is_sof b = true <-> starts b.
Proof.
  unfold is_sof, starts. split.
  - intros H. repeat (apply orb_true_iff in H; destruct H as [H|H]); apply Z.eqb_eq in H; subst.
    + now exists CAN_STD. + now exists CAN_EXT. + now exists CAN_STD_RTR. + now exists CAN_EXT_RTR.
  - intros [[] ->]; reflexivity.
Qed.
Lemma is_sof_not b : is_sof b = false <-> ~ starts b.
Proof. rewrite <- is_sof_iff. destruct (is_sof b); split; congruence. Qed.
Lemma plain_sof l : Forall plain l -> Forall sof_plain l.
Proof. apply Forall_impl. intros b [H1 H2]. split; [now apply is_sof_not|exact H2]. Qed.
Lemma not_start_sof l : Forall not_start l -> Forall sof_free l.
Proof. apply Forall_impl. intros b H. now apply is_sof_not. Qed.
Lemma good_line_sof l : good_line l -> sof_line l.
Proof. intros (c & b & -> & H & F). exists c, b. split; [reflexivity|]. split; [now apply is_sof_iff|now apply plain_sof]. Qed.

(** Items of the stream: noise, then a line; the lines spell frames [fs]; receiving those frames
    in order gives outcomes [os] without a crash.  Successive Reads return exactly the delivered
    messages and then block, in the state in which each frame was processed once. *)
Theorem c12_reads_stream p items tail fs st st' os :
  cp_open p = true -> registry_ok st ->
  Forall plain tail -> Forall (fun it => Forall plain (fst it)) items ->
  Forall (fun it => good_line (snd it)) items ->
  Forall2 (fun it f => spells (snd it) f) items fs ->
  receive st fs = (st', os) -> no_panic os ->
  exists st2 rest, reads p st (stream items ++ evs_of tail) (rets os) st2 rest /\ Read p st2 rest = RdBlock st'.
Proof.
  intros Ho R Ht Fn Fl W E NP. apply plain_sof in Ht.
  apply (Forall_impl (fun it => Forall sof_plain (fst it))) in Fn; [|intros ? ?; now apply plain_sof].
  apply (Forall_impl (fun it => sof_line (snd it))) in Fl; [|intros ? ?; now apply good_line_sof].
  destruct (stream_reads p tail Ho Ht items fs st st' os 0 (mkslice [0] 1) false R Fn Fl W E NP)
    as [(stb & L & RT & ->)|(m & rest & st1 & ms & st2 & rest2 & L & RT & RD & RB)].
  - exists st, (stream items ++ evs_of tail). rewrite RT. split; [constructor|]. unfold Read. now rewrite Ho.
  - exists st2, rest2. split; [|exact RB]. rewrite RT. econstructor; [|exact RD]. unfold Read. now rewrite Ho.
Qed.

(** If all lines are delivered at once (for instance only single-frame PGNs), the noise may
    contain carriage returns as well. *)
Theorem c12_reads_stream_cr p items tail fs st st' os :
  cp_open p = true -> registry_ok st ->
  Forall not_start tail -> Forall (fun it => Forall not_start (fst it)) items ->
  Forall (fun it => good_line (snd it)) items ->
  Forall2 (fun it f => spells (snd it) f) items fs ->
  receive st fs = (st', os) -> Forall (fun o => exists f, o = Ret f) os ->
  exists rest, reads p st (stream items ++ evs_of tail) (rets os) st' rest /\ Read p st' rest = RdBlock st'.
Proof.
  intros Ho R Ht Fn Fl W E NP. apply not_start_sof in Ht.
  apply (Forall_impl (fun it => Forall sof_free (fst it))) in Fn; [|intros ? ?; now apply not_start_sof].
  apply (Forall_impl (fun it => sof_line (snd it))) in Fl; [|intros ? ?; now apply good_line_sof].
  eapply stream_reads_all; eassumption.
Qed.

(** Otherwise a lone carriage return (the adapter's acknowledgement of a transmission) after a
    line that completed nothing makes Read process that line a second time: here a continuation
    frame, received once, is also delivered as a message of its own. *)
Theorem c12_ack_reprocesses_refuted :
  exists p st items, cp_open p = true /\ can_reachable st /\
    Forall (fun it => good_line (snd it) /\ (fst it = [] \/ fst it = [13])) items /\
    exists fs st' m st2 rest,
      Forall2 (fun it f => spells (snd it) f) items fs /\
      (exists os, receive st fs = (st', os) /\ rets os = []) /\
      reads p st (stream items ++ [RByte 13]) [m] st2 rest /\ rm_data m = [33; 7; 7; 7; 7; 7; 7; 7].
Proof.
  exists (mkcp (mkwport [] (fun _ => None)) 3 true), (AddFastPacket can_init 129029).
  exists [([], str "T09F80503820140101010101011234"); ([], str "T09F80503821070707070707071234")].
  split; [reflexivity|]. split; [repeat constructor|]. split.
  { repeat constructor; (eexists _, _; split; [reflexivity|]); (split; [now exists CAN_EXT|]);
      (apply Forall_forall; intros x Hx; cbn in Hx; unfold plain; rewrite <- is_sof_not;
       intuition (subst; try reflexivity; lia)). }
  exists [mkframe (mkraw 2 129029 3 255 8 [32; 20; 1; 1; 1; 1; 1; 1]) CAN_EXT 167249155 0 0;
          mkframe (mkraw 2 129029 3 255 8 [33; 7; 7; 7; 7; 7; 7; 7]) CAN_EXT 167249155 0 0].
  assert (PS : forall l f, ParseFrame (full_slice l) = Ret f -> spells l f).
  { intros l f H. apply ParseFrame_accepts in H.
    - rewrite full_val in H. exact H.
    - unfold slice_ok, s_cap, full_slice. cbn. pose proof (zlen_nonneg l). lia. }
  eexists _, (mkraw 2 129029 3 255 8 [33; 7; 7; 7; 7; 7; 7; 7]), _, _. split; [|split; [|split]].
  - repeat constructor; apply PS; vm_compute; reflexivity.
  - eexists. split; [reflexivity|]. vm_compute. reflexivity.
  - econstructor; [vm_compute; reflexivity|constructor].
  - reflexivity.
Qed.

(* ------------------------------------------------------------ C13 *)
(** From any point of any Read (any buffer contents, whether or not inside a line), a start
    character, a body and CR are handed to frameReceived as exactly that text. *)
Theorem c13_resync c body rest rx msg sof st :
  starts c -> Forall plain body ->
  read_loop (evs_of (c :: body) ++ RByte 13 :: rest) rx msg sof st =
  match frameReceived st (buf_of (c :: body)) with
  | (st', Ret f) => RdMsg (cf_raw f) rest st'
  | (st', Err _) => read_loop rest 13 (buf_of (c :: body)) true st'
  | (st', Panic _) => RdPanic st'
  end.
Proof. intros H F. apply is_sof_iff in H. apply plain_sof in F. exact (loop_line c body rest rx msg sof st H F). Qed.

(** Whatever bytes a Read has swallowed without returning, the next start character begins
    afresh: nothing but the reassembly state is remembered. *)
Theorem c13_garbage_forgotten p st pre st1 c rest :
  cp_open p = true -> Read p st pre = RdBlock st1 -> starts c ->
  Read p st (pre ++ RByte c :: rest) = Read p st1 (RByte c :: rest).
Proof.
  intros Ho H Hc. apply is_sof_iff in Hc. unfold Read in *. rewrite Ho in *. now apply loop_prefix.
Qed.

Theorem c13_closed p st evs : cp_open p = false -> Read p st evs = RdErr evs st.
Proof. intros H. unfold Read. now rewrite H. Qed.

Theorem c13_io_error p st pre st1 rest :
  cp_open p = true -> Read p st pre = RdBlock st1 -> Read p st (pre ++ RErr :: rest) = RdErr rest st1.
Proof.
  intros Ho. unfold Read. rewrite Ho. generalize 0 (mkslice [0] 1) false. revert st.
  induction pre as [|e pre IH]; intros st rx msg sof H.
  - cbn in *. now injection H as <-.
  - cbn [app]. destruct e as [b| |]; cbn [read_loop] in *; try discriminate.
    + destruct (is_sof b); [now apply IH|]. destruct ((b =? 13) && sof).
      * destruct (frameReceived st msg) as [st2 [f|e|e]]; try discriminate. now apply IH.
      * destruct sof; now apply IH.
    + destruct (is_sof rx); [now apply IH|]. destruct ((rx =? 13) && sof).
      * destruct (frameReceived st msg) as [st2 [f|e|e]]; try discriminate. now apply IH.
      * destruct sof; now apply IH.
Qed.

(** Garbage, a rejected line, a truncated line, then a good one. *)
Example c13_example :
  Read (mkcp (mkwport [] (fun _ => None)) 3 true) can_init
    (evs_of (str "zz" ++ [13] ++ str "T09F80103300FF7A12" ++ [13] ++ str "T09F80" ++ str "T09F80103300FF7A1234" ++ [13]))
  = RdMsg (mkraw 2 129025 3 255 3 [0; 255; 122]) [] can_init.
Proof. vm_compute. reflexivity. Qed.

(* ------------------------------------------------------------ C14 *)
Theorem c14_send_single st p m :
  raw_ok m -> is_byte (cp_addr p) -> zlen (rm_data m) <= 8 -> rm_length m <= zlen (rm_data m) ->
  exists w p' r, Send st p m = (st, p', r) /\ w_log (cp_port p') = w_log (cp_port p) ++ [w] /\
    cp_addr p' = cp_addr p /\ cp_open p' = cp_open p /\
    (w_ans (cp_port p) (List.length (w_log (cp_port p))) = None -> r = Ret (zlen w)) /\
    (forall n, w_ans (cp_port p) (List.length (w_log (cp_port p))) = Some n -> exists e, r = Err e) /\
    (forall f, heard w f -> cf_raw f = wire_message (cp_addr p) m (firstn (Z.to_nat (rm_length m)) (rm_data m))) /\
    (exists f, heard w f).
Proof. exact (send_single st p m). Qed.

(** On the messages NMEA 2000 allows (priority 0..7, 17-bit PGN, PDU1 PGNs with low byte 0, PDU2
    sent to 255, length equal to the data) the message received is the message sent. *)
Theorem c14_roundtrip st p m f :
  raw_ok m -> is_byte (cp_addr p) -> zlen (rm_data m) <= 8 -> rm_length m = zlen (rm_data m) ->
  rm_priority m < 8 -> rm_pgn m < 2 ^ 17 ->
  ((rm_pgn m / 256) mod 256 < 240 -> rm_pgn m mod 256 = 0) ->
  (240 <= (rm_pgn m / 256) mod 256 -> rm_dest m = 255) ->
  rm_source m = cp_addr p ->
  exists w st' p' r, Send st p m = (st', p', r) /\ w_log (cp_port p') = w_log (cp_port p) ++ [w] /\
    (heard w f -> cf_raw f = m).
Proof.
  intros Hm Ha H8 HL Hp Hg H1 H2 Hsrc.
  destruct (send_single st p m Hm Ha H8 ltac:(lia)) as (w & p' & r & E & L & _ & _ & _ & _ & H & _).
  exists w, st, p', r. split; [exact E|]. split; [exact L|]. intros Hf. rewrite (H f Hf).
  pose proof Hm as (P1 & P2 & P3 & P4 & P5).
  assert (firstn (Z.to_nat (rm_length m)) (rm_data m) = rm_data m) as ->.
  { apply firstn_all2. rewrite HL. unfold zlen. lia. }
  unfold wire_message, wire_pgn, wire_dest. unfold is_byte in P1.
  rewrite (Z.mod_small (rm_priority m)) by lia. rewrite (Z.mod_small (rm_pgn m) (2 ^ 17)) by lia.
  destruct m as [pr pg so de le da]. cbn [rm_priority rm_pgn rm_source rm_dest rm_length rm_data] in *. subst so le.
  destruct (Z.ltb_spec ((pg / 256) mod 256) 240) as [Hlt|Hge].
  - rewrite H1 by assumption. now rewrite Z.sub_0_r.
  - rewrite H2 by assumption. reflexivity.
Qed.

(** The 18th PGN bit (extended data page) is lost. *)
Theorem c14_edp_lost_refuted :
  exists m, raw_ok m /\ rm_pgn m < 2 ^ 18 /\ zlen (rm_data m) <= 8 /\ rm_length m = zlen (rm_data m) /\
    forall addr, rm_pgn (wire_message addr m (rm_data m)) <> rm_pgn m.
Proof.
  exists (mkraw 2 (131072 + 65280) 3 255 1 [7]). unfold raw_ok, is_byte. cbn.
  repeat split; try (cbv; congruence). repeat constructor; unfold is_byte; lia.
Qed.

Example c14_example :
  w_log (cp_port (snd (fst (Send can_init (mkcp (mkwport [] (fun _ => None)) 3 true) (mkraw 2 129025 0 255 3 [0; 255; 122])))))
  = [str "T09F80103300FF7A" ++ [13]].
Proof. vm_compute. reflexivity. Qed.

(* ------------------------------------------------------------ C15 *)
Theorem c15_send_too_much st p m : 223 < zlen (rm_data m) -> exists e, Send st p m = (st, p, Err e).
Proof. exact (Send_too_long st p m). Qed.
Theorem c15_send_too_little st p m :
  raw_ok m -> zlen (rm_data m) <= 8 -> zlen (rm_data m) < rm_length m -> exists e, Send st p m = (st, p, Err e).
Proof. exact (Send_too_short st p m). Qed.
Theorem c15_send_reports st p m :
  raw_ok m ->
  let '(st', p', r) := Send st p m in
  exists ls, w_log (cp_port p') = w_log (cp_port p) ++ ls /\
    ((exists n, r = Ret n) \/ (exists e, r = Err e)) /\
    ((exists n, r = Ret n) -> forall i, (i < List.length ls)%nat ->
       w_ans (cp_port p) (List.length (w_log (cp_port p)) + i) = None) /\
    (ls <> [] -> (exists e, r = Err e) ->
       forall i, (i < List.length ls)%nat ->
         (w_ans (cp_port p) (List.length (w_log (cp_port p)) + i) = None <-> (i < List.length ls - 1)%nat)).
Proof. exact (Send_reports st p m). Qed.
Theorem c15_write_long p b len :
  slice_ok b -> 6 <= s_len b -> zget (s_arr b) 5 = Some len -> 9 <= len <= 249 -> 6 + len <= s_cap b ->
  exists e, Write p b = (p, b, Err e).
Proof. exact (Write_long p b len). Qed.
Theorem c15_write_panics p b :
  slice_ok b -> bytes_ok (s_arr b) ->
  ((exists w, snd (Write p b) = Panic w) <->
   s_len b < 6 \/ exists len, zget (s_arr b) 5 = Some len /\ (250 <= len \/ s_cap b < 6 + len)) /\
  (forall w, snd (Write p b) = Panic w -> fst (fst (Write p b)) = p).
Proof. exact (Write_panics p b). Qed.
Example c15_example : exists w, snd (Write (mkcp (mkwport [] (fun _ => None)) 3 true) (full_slice ([6; 1; 2; 3; 4; 251] ++ repeat 0 250))) = Panic w.
Proof. eexists. vm_compute. reflexivity. Qed.

(* ------------------------------------------------------------ C16 *)
Theorem c16_send_fast st p m rst fs :
  raw_ok m -> is_byte (cp_addr p) -> port_ok (cp_port p) -> 9 <= zlen (rm_data m) <= 192 ->
  exists ls w' n, Send st p m = (mkcs (cs_fast st) (cs_partial st) (u8 (cs_group st + 1)), mkcp w' (cp_addr p) (cp_open p), Ret n) /\
    w_log w' = w_log (cp_port p) ++ ls /\ zlen ls = (zlen (rm_data m) + 5) / 6 /\
    (registry_ok rst -> In (wire_pgn (rm_pgn m)) (cs_fast rst) -> Forall2 heard ls fs ->
     Forall2 (fun f d => cf_raw f = wire_message (cp_addr p) m d) fs (sent_frames (cs_group st mod 8) (rm_data m)) /\
     exists rst' f k, receive rst fs = (rst', repeat (Err "partial PGN") k ++ [Ret f]) /\
       cf_raw f = wire_message (cp_addr p) m (rm_data m)).
Proof. exact (send_fast_roundtrip st p m rst fs). Qed.

Example c16_example :
  w_log (cp_port (snd (fst (Send can_init (mkcp (mkwport [] (fun _ => None)) 3 true)
     (mkraw 2 129029 0 255 9 [1; 2; 3; 4; 5; 6; 7; 8; 9])))))
  = [str "T09F8050380009010203040506" ++ [13]; str "T09F80503401070809" ++ [13]].
Proof. vm_compute. reflexivity. Qed.

(* ------------------------------------------------------------ C17 *)
Theorem c17_long_fast_refuted st p m rst fs :
  raw_ok m -> is_byte (cp_addr p) -> port_ok (cp_port p) -> 193 <= zlen (rm_data m) <= 223 ->
  exists ls w' n, Send st p m = (mkcs (cs_fast st) (cs_partial st) (u8 (cs_group st + 1)), mkcp w' (cp_addr p) (cp_open p), Ret n) /\
    w_log w' = w_log (cp_port p) ++ ls /\
    (registry_ok rst -> In (wire_pgn (rm_pgn m)) (cs_fast rst) -> Forall2 heard ls fs ->
     forall f, In (Ret f) (snd (receive rst fs)) -> zlen (rm_data (cf_raw f)) <= 192).
Proof. exact (send_long_lost st p m rst fs). Qed.

(* ------------------------------------------------------------ C18 *)
Theorem c18_claim st p a :
  is_byte a ->
  exists w p', AddressClaim st p a = (st, p', Ret a) /\ cp_addr p' = a /\ cp_open p' = cp_open p /\
    w_log (cp_port p') = w_log (cp_port p) ++ [w] /\ w_ans (cp_port p') = w_ans (cp_port p) /\
    (exists f, heard w f) /\
    (forall f, heard w f ->
       let m := cf_raw f in let name := le_value (rm_data m) in
       rm_priority m = 2 /\ rm_pgn m = 60928 /\ rm_source m = a /\ rm_length m = 8 /\ zlen (rm_data m) = 8 /\
       rm_dest m = 225 /\
       bits name 0 21 = 2097151 /\ bits name 21 11 = 100 /\ bits name 32 3 = 0 /\ bits name 35 5 = 0 /\
       bits name 40 8 = 25 /\ bits name 49 7 = 25 /\ bits name 56 4 = 0 /\ bits name 60 3 = 4 /\ bits name 63 1 = 1).
Proof.
  intros Ha. destruct (AddressClaim_sends st p a Ha) as (w & p' & A & B & C & D & E & F & G).
  exists w, p'. repeat (split; [assumption|]). intros f Hf. rewrite (G f Hf). cbv zeta.
  cbn [rm_priority rm_pgn rm_source rm_length rm_data rm_dest].
  repeat split; vm_compute; reflexivity.
Qed.

Theorem c18_conflicts st p ms a k :
  cp_addr p = a -> is_byte a -> conflict_run a ms k ->
  exists p' ls, iface_run st p ms = (st, p', true) /\ cp_addr p' = (a + k) mod 256 /\
    w_log (cp_port p') = w_log (cp_port p) ++ ls /\ zlen ls = k /\
    Forall (fun w => exists f, heard w f /\ rm_pgn (cf_raw f) = 60928) ls.
Proof. apply conflicts_run. Qed.

(** Nothing stops the address from becoming 254 (null) or 255 (global): 34 conflicts suffice. *)
Theorem c18_reserved_address_refuted :
  exists ms, conflict_run 221 ms 34 /\
    forall st p, cp_addr p = 221 -> exists p', iface_run st p ms = (st, p', true) /\ cp_addr p' = 255.
Proof.
  exists (map (fun i => mkraw 6 60928 (221 + i) 255 8 [1; 2; 3; 4; 5; 6; 7; 8]) (map Z.of_nat (seq 0 34))).
  assert (C : conflict_run 221 (map (fun i => mkraw 6 60928 (221 + i) 255 8 [1; 2; 3; 4; 5; 6; 7; 8]) (map Z.of_nat (seq 0 34))) 34).
  { assert (G : forall n i, (i + n <= 35)%nat -> conflict_run (221 + Z.of_nat i)
       (map (fun i => mkraw 6 60928 (221 + i) 255 8 [1; 2; 3; 4; 5; 6; 7; 8]) (map Z.of_nat (seq i n))) (Z.of_nat n)).
    { induction n as [|n IH]; intros i Hi; [constructor|]. rewrite Nat2Z.inj_succ. cbn [seq map].
      apply cr_hit; [reflexivity|reflexivity|].
      destruct n as [|n']; [constructor|].
      replace ((221 + Z.of_nat i + 1) mod 256) with (221 + Z.of_nat (S i)); [apply IH; lia|].
      rewrite Z.mod_small; lia. }
    apply (G 34%nat 0%nat). lia. }
  split; [exact C|]. intros st p Hp.
  destruct (conflicts_run _ st p 221 34 Hp ltac:(unfold is_byte; lia) C) as (p' & ls & E & A & _). eauto.
Qed.

(* ------------------------------------------------------------ C19 *)
Theorem c19_open st w a :
  is_byte a ->
  let n := List.length (w_log w) in
  exists line, (forall f, heard line f -> cf_raw f = mkraw 2 60928 a 225 8 name_bytes) /\ (exists f, heard line f) /\
  match w_ans w n, w_ans w (n + 1) with
  | Some _, _ => exists w' e, OpenChannel st w a = (st, w', Err e) /\ w_log w' = w_log w ++ [[83; 53; 13]]
  | None, Some _ => exists w' e, OpenChannel st w a = (st, w', Err e) /\ w_log w' = w_log w ++ [[83; 53; 13]; [79; 13]]
  | None, None => exists w' p, OpenChannel st w a = (st, w', Ret p) /\ cp_port p = w' /\ cp_addr p = a /\ cp_open p = true /\
                    w_log w' = w_log w ++ [[83; 53; 13]; [79; 13]; line]
  end.
Proof. exact (OpenChannel_trace st w a). Qed.

Theorem c19_close_panics p spare : exists w, CloseChannel p spare = (p, false, Panic w).
Proof. exact (CloseChannel_panics p spare). Qed.

Example c19_example :
  w_log (snd (fst (OpenChannel can_init (mkwport [] (fun _ => None)) 221)))
  = [str "S5" ++ [13]; str "O" ++ [13]; str "T08EEE1DD8FFFF9F0C001932C0" ++ [13]].
Proof. vm_compute. reflexivity. Qed.
