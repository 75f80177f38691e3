(** ActisenseProps: properties C20-C27. *)
From Coq Require Import ZifyBool.
From Verif Require Import GoBase BufFacts CanModel ActisenseModel ActisenseSpec ActisenseProofs.

(* ================================================================ C20 *)
(** Everything handed to the NGT through Write, Send or a command method is one port Write of an
    envelope, and the envelope is unique. *)
Theorem c20_envelope : forall p c payload, is_byte c ->
  exists w p' o, act_write p c payload = (p', o) /\ envelope c payload w /\
    (forall w', envelope c payload w' -> w' = w) /\
    w_log (ap_port p') = w_log (ap_port p) ++ [w] /\
    (forall k, w_ans (ap_port p) k = None -> k = List.length (w_log (ap_port p)) -> o = Ret (zlen w)) /\
    (forall k n, w_ans (ap_port p) k = Some n -> k = List.length (w_log (ap_port p)) -> exists e, o = Err e).
Proof.
  intros p c pl Hc. destruct (act_write_spec p c pl _ Hc (wire_envelope c pl Hc)) as (p' & L & _ & _ & E).
  exists (wire c pl), p'. eexists. split; [exact E|]. split; [now apply wire_envelope|].
  split. { intros w' Hw. eapply envelope_unique; [exact Hw|now apply wire_envelope]. }
  split; [exact L|]. split; intros k; [intros Hk ->; now rewrite Hk|intros n Hk ->; rewrite Hk; eauto].
Qed.

Theorem c20_public_write : forall p payload,
  exists w p' o, act_Write p payload = (p', o) /\ envelope 148 payload w /\ w_log (ap_port p') = w_log (ap_port p) ++ [w].
Proof.
  intros p pl. destruct (c20_envelope p 148 pl) as (w & p' & o & E & Ev & _ & L & _); [unfold is_byte; lia|].
  exists w, p', o. auto.
Qed.

Example c20_nontrivial : envelope 161 [17; 2; 0] [16; 2; 161; 3; 17; 2; 0; 73; 16; 3].
Proof. exists 73. split; [unfold is_byte; lia|]. split; reflexivity. Qed.

(* ================================================================ C21 *)
(** What a receiver with this framing collects from an envelope: the message comes back exactly
    when neither command, length nor checksum is 16 (DLE), and then it is the only one. *)
Theorem c21_round_trip : forall cmd payload w, envelope cmd payload w ->
  exists crc, is_byte crc /\ w = [16; 2; cmd; zlen payload mod 256] ++ escaped payload ++ [crc; 16; 3] /\
    (In (plain_message cmd payload crc) (completed MsgStart nil_slice w) <->
     cmd <> 16 /\ zlen payload mod 256 <> 16 /\ crc <> 16) /\
    (cmd <> 16 -> zlen payload mod 256 <> 16 -> crc <> 16 ->
     completed MsgStart nil_slice w = [plain_message cmd payload crc]).
Proof.
  intros cmd p w E. pose proof E as (crc & B & Ew & _). exists crc. split; [exact B|]. split; [exact Ew|].
  now apply roundtrip.
Qed.

(** Consequence: a message with 10 data bytes sent through Send can never be read back. *)
Theorem c21_ten_byte_messages_lost : forall p m p' o, rm_length m = 10 -> 10 <= zlen (rm_data m) ->
  act_Send p m = (p', o) ->
  exists w payload crc, w_log (ap_port p') = w_log (ap_port p) ++ [w] /\ envelope 148 payload w /\
    w = [16; 2; 148; zlen payload mod 256] ++ escaped payload ++ [crc; 16; 3] /\
    ~ In (plain_message 148 payload crc) (completed MsgStart nil_slice w).
Proof.
  intros p m p' o Hl Hd E. unfold act_Send in E. rewrite send_buf_ok in E by lia.
  replace (zlen (rm_data m) <? rm_length m) with false in E by lia.
  destruct (c20_envelope p 148 (send_payload m)) as (w & p1 & o1 & E1 & Ev & _ & L & _); [unfold is_byte; lia|].
  unfold N2kMsgSend in E. rewrite E1 in E. injection E as <- <-.
  destruct (c21_round_trip _ _ _ Ev) as (crc & _ & Ew & I & _).
  exists w, (send_payload m), crc. split; [exact L|]. split; [exact Ev|]. split; [exact Ew|].
  rewrite I. assert (zlen (send_payload m) = 16) as ->.
  { unfold send_payload. rewrite zlen_app, zlen_firstn by (unfold zlen in Hd; lia). rewrite !zlen_cons, Hl. reflexivity. }
  change (16 mod 256) with 16. tauto.
Qed.

Example c21_nontrivial :
  completed MsgStart nil_slice [16; 2; 161; 3; 16; 16; 2; 0; 74; 16; 3] = [[161; 3; 16; 2; 0; 74]]
  /\ envelope 161 [16; 2; 0] [16; 2; 161; 3; 16; 16; 2; 0; 74; 16; 3].
Proof. split; [reflexivity|]. exists 74. split; [unfold is_byte; lia|]. split; reflexivity. Qed.

(* ================================================================ C22 *)
(** A stream of correctly escaped messages with DLE-free noise between them: repeated Reads
    deliver exactly the deliverable ones, in order, and then block. *)
Theorem c22_stream : forall items rs tail,
  stream_gives items rs -> Forall (fun b => b <> 16) tail ->
  exists rest, act_reads (act_stream items ++ evs_of tail) rs rest /\ act_read rest = ARBlock.
Proof.
  intros items rs tail H Ht. destruct (stream_ok items rs tail H Ht) as (rest & R1 & R2 & _). eauto.
Qed.

(** Resynchronisation: after any garbage at all (any bytes, empty reads, messages that were
    ignored), one complete message m leaves the reader as fresh, whatever became of m; and m
    itself is merged with what the garbage had left in the buffer. *)
Theorem c22_resynchronises : forall pre m rest, act_read pre = ARBlock ->
  exists junk, act_read (pre ++ evs_of (on_line m) ++ rest) =
    match messageReceived (buf_of (junk ++ m)) with
    | Ret r => ARMsg r rest
    | Err _ => act_read rest
    | Panic _ => ARPanic rest
    end.
Proof. exact resync. Qed.

(** DLE STX does not restart a message: one that follows a truncated message is lost unless the
    truncated part happens to keep the checksum at 0. *)
Theorem c22_truncated_swallows_next : forall part m rest, bytes_ok part -> bytes_ok m ->
  total (part ++ m) mod 256 <> 0 ->
  act_read (evs_of ([16; 2] ++ escaped part) ++ evs_of (on_line m) ++ rest) = act_read rest.
Proof.
  intros part m rest Hp Hm T. rewrite truncated_merges. unfold finish.
  destruct (ignored_err (part ++ m)) as [e ->]; [now apply Forall_app| | |reflexivity].
  - intros r [(y & Ey & _ & Ty & _)|(pl & id & body & c & E & Ty & _)]; congruence.
  - intros [Ty _]. congruence.
Qed.

(** A DLE followed by anything but DLE, STX or ETX breaks the message off: what was collected is
    dropped and the reader is as fresh. *)
Theorem c22_bad_escape_discards : forall part b rest, b <> 2 -> b <> 3 -> b <> 16 ->
  act_read (evs_of ([16; 2] ++ escaped part ++ [16; b]) ++ rest) = act_read rest.
Proof.
  intros part b rest N2 N3 N16. unfold evs_of at 1. rewrite !map_app. cbn [map app]. fold (evs_of (escaped part)).
  change (act_read (RByte 16 :: RByte 2 :: (evs_of (escaped part) ++ [RByte 16; RByte b]) ++ rest))
    with (act_loop ((evs_of (escaped part) ++ [RByte 16; RByte b]) ++ rest) 2 MsgMessage (buf_of [])).
  rewrite <- app_assoc. destruct (loop_escaped part ([RByte 16; RByte b] ++ rest) 2 []) as (rx & ->).
  cbn [app]. rewrite !loop_rbyte. cbn [deframe]. change (16 =? DLE) with true. cbn iota. rewrite loop_rbyte.
  cbn [deframe]. unfold ETX, STX, DLE.
  destruct (Z.eqb_spec b 3); [congruence|]. destruct (Z.eqb_spec b 2); [congruence|]. destruct (Z.eqb_spec b 16); [congruence|].
  unfold act_read. now apply start_rx.
Qed.

(** A (0, nil) read makes Read process the previous byte again. *)
Theorem c22_empty_read_repeats_byte : forall pre b rest, act_read (pre ++ [RByte b]) = ARBlock ->
  act_read (pre ++ RByte b :: RZero :: rest) = act_read (pre ++ RByte b :: RByte b :: rest).
Proof.
  intros pre b rest H.
  assert (H0 : act_read pre = ARBlock).
  { unfold act_read in *. revert H. generalize 0, MsgStart, nil_slice.
    induction pre as [|e pre IH]; intros rx st buf H; [reflexivity|].
    destruct e as [x| |]; cbn [app act_loop] in *; try discriminate;
      destruct (deframe _ _ _) as [[st' buf'] [m|]]; try (eapply IH; eassumption);
      destruct (messageReceived m); try discriminate; eapply IH; eassumption. }
  destruct (run_loop _ _ _ _ H0) as (rx & st & buf & _ & L). unfold act_read in *. rewrite !L. rewrite L in H.
  cbn [act_loop] in *. destruct (deframe st buf b) as [[st' buf'] [m|]]; [|reflexivity].
  destruct (messageReceived m); try discriminate. reflexivity.
Qed.

(** A complete 0x93 message used in the examples below. *)
Definition ex_n2k : bytes := [147; 19; 3; 16; 240; 1; 255; 35; 1; 2; 3; 4; 8; 1; 2; 3; 4; 5; 6; 16; 8; 245].
Definition ex_raw : raw_message := mkraw 3 126992 35 255 8 [1; 2; 3; 4; 5; 6; 16; 8].
Example ex_delivers : delivers ex_n2k ex_raw.
Proof.
  left. exists (mkn2k 19 3 16 240 1 255 35 [1; 2; 3; 4] [1; 2; 3; 4; 5; 6; 16; 8] [245]).
  repeat split; try reflexivity; vm_compute; discriminate.
Qed.
Example c22_nontrivial :
  stream_gives [([7], ex_n2k); ([], [147; 11; 1]); ([3; 2], ex_n2k)] [ex_raw; ex_raw].
Proof.
  assert (B : bytes_ok ex_n2k) by (repeat constructor; unfold is_byte; lia).
  apply sg_deliver; [repeat constructor; lia|exact B|exact ex_delivers|].
  apply sg_ignore; [constructor|repeat constructor; unfold is_byte; lia| | |].
  - intros r [(y & _ & _ & T & _)|(pl & id & body & c & _ & T & _)]; vm_compute in T; discriminate.
  - intros [T _]. vm_compute in T. discriminate.
  - apply sg_deliver; [repeat constructor; lia|exact B|exact ex_delivers|constructor].
Qed.

(* ================================================================ C23 *)
(** Exact acceptance of a received message that starts with 0x93. *)
Theorem c23_n2k_decoding : forall m r rest, bytes_ok (147 :: m) ->
  (act_read (evs_of (on_line (147 :: m)) ++ rest) = ARMsg r rest /\ messageReceived (buf_of (147 :: m)) = Ret r <->
   exists y, 147 :: m = n2k_bytes y /\ zlen (ny_time y) = 4 /\ total (147 :: m) mod 256 = 0 /\
     11 <= ny_plen y /\ zlen (ny_data y) <= 223 /\ r = n2k_message y).
Proof.
  intros m r rest B. rewrite on_line_read. unfold finish. split.
  - intros [_ H]. apply delivers_cases in H; [|exact B]. destruct H as [H|(pl & id & body & c & E & _)]; [exact H|discriminate E].
  - intros H. assert (D : delivers (147 :: m) r) by (left; exact H). apply delivers_cases in D; [|exact B].
    rewrite D. auto.
Qed.

Theorem c23_data_has_length : forall m r, bytes_ok m -> messageReceived (buf_of m) = Ret r ->
  zlen (rm_data r) = rm_length r.
Proof.
  intros m r B H. apply delivers_cases in H; [|exact B].
  destruct H as [(y & _ & _ & _ & _ & _ & ->)|(pl & id & body & c & _ & _ & _ & _ & _ & _ & _ & _ & _ & -> & -> & _)]; reflexivity.
Qed.

(** The checksum byte is counted as available data: with no byte after the data at all the last
    data byte is the checksum byte itself. *)
Theorem c23_checksum_taken_as_data : forall y, bytes_ok (n2k_bytes y) -> zlen (ny_time y) = 4 ->
  total (n2k_bytes y) mod 256 = 0 -> 11 <= ny_plen y -> zlen (ny_data y) <= 223 -> ny_rest y = [] ->
  messageReceived (buf_of (n2k_bytes y)) = Ret (n2k_message y) /\
  exists front, n2k_bytes y = front ++ ny_data y.
Proof.
  intros y B T4 T P D R. split.
  - apply delivers_cases; [exact B|]. left. exists y. auto 6.
  - unfold n2k_bytes. rewrite R, app_nil_r. eexists.
    change ((147 :: ny_plen y :: ny_prio y :: ny_p0 y :: ny_p1 y :: ny_p2 y :: ny_dst y :: ny_src y :: nil) ++ ny_time y ++ [zlen (ny_data y)] ++ ny_data y)
      with ([147; ny_plen y; ny_prio y; ny_p0 y; ny_p1 y; ny_p2 y; ny_dst y; ny_src y] ++ ny_time y ++ [zlen (ny_data y)] ++ ny_data y).
    rewrite !app_assoc. reflexivity.
Qed.
Example c23_nontrivial : messageReceived (buf_of ex_n2k) = Ret ex_raw.
Proof. reflexivity. Qed.
Example c23_checksum_case : exists y, ny_rest y = [] /\ ny_data y = [1; 6] /\ messageReceived (buf_of (n2k_bytes y)) = Ret (n2k_message y).
Proof. exists (mkn2k 11 3 16 240 1 255 35 [1; 2; 3; 45] [1; 6] []). repeat split. Qed.

(* ================================================================ C24 *)
(** Exact decoding of a 0xA0 message: id byte, then Length = packet length - 1 bytes, which come
    from the message and, if it is shorter, from the zeroed rest of the receive buffer. *)
Theorem c24_ngt_decoding : forall m r, bytes_ok (160 :: m) ->
  (messageReceived (buf_of (160 :: m)) = Ret r <->
   exists pl id body c, m = pl :: id :: body /\ total (160 :: m) mod 256 = 0 /\ 12 <= pl <= 254 /\
     buffer_capacity (zlen (160 :: m)) c /\ pl + 2 <= c /\
     rm_priority r = 0 /\ rm_pgn r = 262144 + id /\ rm_source r = 0 /\ rm_dest r = 0 /\
     rm_length r = pl - 1 /\ zlen (rm_data r) = pl - 1 /\
     exists more pad, rm_data r ++ more = body ++ repeat 0 pad).
Proof.
  intros m r B. rewrite delivers_cases by exact B. split.
  - intros [(y & E & _)|(pl & id & body & c & E & H)].
    + discriminate E.
    + injection E as ->. exists pl, id, body, c. split; [reflexivity|]. exact H.
  - intros (pl & id & body & c & -> & H). right. exists pl, id, body, c. split; [reflexivity|exact H].
Qed.

(** A well-formed status message: the packet length counts the id and the data. *)
Theorem c24_well_formed : forall id body crc, bytes_ok (160 :: (1 + zlen body) :: id :: body ++ [crc]) ->
  total (160 :: (1 + zlen body) :: id :: body ++ [crc]) mod 256 = 0 -> 11 <= zlen body <= 253 ->
  messageReceived (buf_of (160 :: (1 + zlen body) :: id :: body ++ [crc]))
  = Ret (mkraw 0 (262144 + id) 0 0 (zlen body) body).
Proof.
  intros id body crc B T L. apply c24_ngt_decoding; [exact B|].
  pose proof (buf_capacity (160 :: (1 + zlen body) :: id :: body ++ [crc]) ltac:(discriminate)) as C.
  exists (1 + zlen body), id, (body ++ [crc]). eexists. split; [reflexivity|]. split; [exact T|]. split; [lia|].
  split; [exact C|]. destruct C as (k & _ & _ & Cl & _). rewrite !zlen_cons, zlen_app in Cl. change (zlen [crc]) with 1 in Cl.
  split; [lia|]. cbn [rm_priority rm_pgn rm_source rm_dest rm_length rm_data].
  repeat (split; [reflexivity || lia|]). exists [crc], 0%nat. cbn [repeat]. now rewrite app_nil_r.
Qed.
Example c24_nontrivial :
  messageReceived (buf_of [160; 12; 17; 1; 2; 3; 4; 5; 6; 7; 8; 9; 10; 11; 1]) =
  Ret (mkraw 0 262161 0 0 11 [1; 2; 3; 4; 5; 6; 7; 8; 9; 10; 11]).
Proof. reflexivity. Qed.
(** Short message, long declared length: zeros are delivered. *)
Example c24_padding :
  messageReceived (buf_of [160; 12; 17; 1; 2; 3; 4; 57]) =
  Panic "slice bounds out of range" /\
  messageReceived (buf_of [160; 12; 17; 1; 2; 3; 4; 5; 52]) =
  Ret (mkraw 0 262161 0 0 11 [1; 2; 3; 4; 5; 52; 0; 0; 0; 0; 0]).
Proof. split; reflexivity. Qed.

(* ================================================================ C25 *)
(** The exact crash set. *)
Theorem c25_crash_set : forall m rest, bytes_ok m ->
  ((act_read (evs_of (on_line m) ++ rest) = ARPanic rest /\ exists w, messageReceived (buf_of m) = Panic w) <-> crashes m).
Proof.
  intros m rest B. rewrite on_line_read. unfold finish. rewrite <- crashes_cases by exact B. split; [tauto|].
  intros [w E]. rewrite E. eauto.
Qed.

(** No byte sequence whose messages are all outside the crash set makes Read panic. *)
Theorem c25_no_other_crash : forall items rs tail, stream_gives items rs -> Forall (fun b => b <> 16) tail ->
  forall rest, act_read (act_stream items ++ evs_of tail) <> ARPanic rest.
Proof.
  intros items rs tail H Ht rest E. destruct (stream_ok items rs tail H Ht) as (rest' & R1 & R2 & R3).
  destruct rs as [|r rs]; [rewrite R3 in E by reflexivity; discriminate|].
  inversion R1 as [|? ? ? ? ? R4 _]; subst. congruence.
Qed.
Example c25_nontrivial : crashes [147; 11; 98] /\ crashes [160; 12; 84] /\ messageReceived (buf_of [147; 11; 98]) = Panic "index out of range".
Proof.
  split; [|split; [|reflexivity]]; (split; [reflexivity|]).
  - left. exists 11, 98, []. repeat split; try reflexivity; try lia; try (right; reflexivity); try (left; reflexivity); try (vm_compute; discriminate).
  - right. exists 12, 84, [], 8. split; [reflexivity|]. split; [lia|]. split; [|lia].
    exists 0. repeat split; try reflexivity; try lia; try (right; reflexivity); try (left; reflexivity); try (vm_compute; discriminate).
Qed.

(* ================================================================ C26 *)
(** A message's fields have their Go types. *)
Definition fields_ok (m : raw_message) : Prop :=
  is_byte (rm_priority m) /\ 0 <= rm_pgn m < 4294967296 /\ is_byte (rm_dest m) /\ is_byte (rm_length m).

Theorem c26_send : forall p m, fields_ok m ->
  (rm_length m <= 249 -> rm_length m <= zlen (rm_data m) ->
     exists w p' o, act_Send p m = (p', o) /\ w_log (ap_port p') = w_log (ap_port p) ++ [w] /\
       envelope 148 ([rm_priority m; rm_pgn m mod 256; rm_pgn m / 256 mod 256; rm_pgn m / 65536 mod 256;
                      rm_dest m; rm_length m] ++ zsub (rm_data m) 0 (rm_length m)) w /\
       (o = Ret (zlen w) <-> w_ans (ap_port p) (List.length (w_log (ap_port p))) = None)) /\
  (rm_length m <= 249 -> zlen (rm_data m) < rm_length m -> exists e, act_Send p m = (p, Err e)) /\
  (250 <= rm_length m -> exists e, act_Send p m = (p, Panic e)).
Proof.
  intros p m (F1 & F2 & F3 & F4). unfold is_byte in F4. split; [|split].
  - intros Hl Hd. unfold act_Send. rewrite send_buf_ok by lia. replace (zlen (rm_data m) <? rm_length m) with false by lia.
    destruct (act_write_spec p 148 (send_payload m) _ ltac:(unfold is_byte; lia) (wire_envelope 148 (send_payload m) ltac:(unfold is_byte; lia))) as (p' & L & _ & _ & E).
    exists (wire 148 (send_payload m)), p'. eexists. split; [exact E|]. split; [exact L|]. split.
    + replace (_ ++ zsub (rm_data m) 0 (rm_length m)) with (send_payload m); [apply wire_envelope; unfold is_byte; lia|].
      unfold send_payload, zsub, u8. rewrite !Z.shiftr_div_pow2 by lia. cbn [skipn Z.to_nat]. rewrite Z.sub_0_r. reflexivity.
    + destruct (w_ans (ap_port p) _); split; congruence.
  - intros Hl Hd. unfold act_Send. rewrite send_buf_ok by lia. replace (zlen (rm_data m) <? rm_length m) with true by lia. eauto.
  - intros Hl. unfold act_Send. destruct (send_buf_panic m ltac:(lia)) as [e ->]. eauto.
Qed.
Example c26_nontrivial : fields_ok (mkraw 6 59904 0 255 3 [0; 238; 0]) /\
  send_buf (mkraw 6 59904 0 255 3 [0; 238; 0]) = Ret [6; 0; 234; 0; 255; 3; 0; 238; 0].
Proof. split; [|reflexivity]. unfold fields_ok, is_byte; cbn; lia. Qed.

(* ================================================================ C27 *)
Theorem c27_commands : forall r p,
  exists w p' o, invoke r p = (p', o) /\ envelope (fst (request_payload r)) (snd (request_payload r)) w /\
    w_log (ap_port p') = w_log (ap_port p) ++ [w] /\ w_ans (ap_port p') = w_ans (ap_port p) /\
    (o = Ret (zlen w) <-> w_ans (ap_port p) (List.length (w_log (ap_port p))) = None).
Proof.
  intros r p. rewrite invoke_payload.
  assert (B : is_byte (fst (request_payload r))) by (destruct r; cbn [request_payload fst]; unfold is_byte; lia).
  destruct (act_write_spec p _ (snd (request_payload r)) _ B (wire_envelope _ (snd (request_payload r)) B)) as (p' & L & A & _ & E).
  eexists. exists p'. eexists. split; [exact E|]. split; [now apply wire_envelope|]. split; [exact L|]. split; [exact A|].
  destruct (w_ans (ap_port p) _); split; congruence.
Qed.

Theorem c27_unimplemented_commands : forall p pgn enable mask,
  SetRxPGNEx p pgn enable mask = (p, Ret (-1)) /\ SetTxPGNEx p pgn enable mask = (p, Ret (-1)).
Proof. split; reflexivity. Qed.

(** The five "Set" commands without arguments send exactly what their "Get" counterparts send. *)
Theorem c27_setters_are_getters : forall p,
  SetPortBaudCodes p = GetPortBaudCodes p /\ SetPortDupDelete p = GetPortDupDelete p /\
  SetTotalTime p = GetTotalTime p /\ SetHardwareBaudCodes p = GetHardwareBaudCodes p /\
  SetCANConfig p = GetCANConfig p.
Proof. repeat split. Qed.

(** OpenChannel: receive-all mode, then port codes 0 0 0; first error stops it. *)
Theorem c27_open : forall w, exists w1 w2,
  envelope 161 [17; 2; 0] w1 /\ envelope 161 [19; 0; 0; 0] w2 /\
  match act_OpenChannel w with
  | (w', Ret p) => w_ans w (List.length (w_log w)) = None /\ w_ans w (S (List.length (w_log w))) = None /\
                   w_log w' = w_log w ++ [w1; w2] /\ p = mkap w' true
  | (w', Err _) => (w_ans w (List.length (w_log w)) <> None /\ w_log w' = w_log w ++ [w1]) \/
                   (w_ans w (List.length (w_log w)) = None /\ w_ans w (S (List.length (w_log w))) <> None /\
                    w_log w' = w_log w ++ [w1; w2])
  | (_, Panic _) => False
  end.
Proof.
  intros w. exists (wire 161 [17; 2; 0]), (wire 161 [19; 0; 0; 0]).
  split; [apply wire_envelope; unfold is_byte; lia|]. split; [apply wire_envelope; unfold is_byte; lia|].
  unfold act_OpenChannel.
  change (SetOperatingMode (mkap w true) OpModeRxAll) with (invoke (ReqSetMode 2) (mkap w true)).
  rewrite invoke_payload. cbn [request_payload fst snd]. change (2 mod 256) with 2. change (2 / 256 mod 256) with 0.
  unfold act_write at 1, w_write. cbn [ap_port ap_open].
  destruct (w_ans w (List.length (w_log w))) as [n|] eqn:A1.
  - cbn [ap_port w_log]. left. split; congruence.
  - cbn iota.
    match goal with |- context [SetPortPCodes ?p ?l] => change (SetPortPCodes p l) with (invoke (ReqSetPCodes l) p) end.
    rewrite invoke_payload. cbn [request_payload fst snd]. unfold act_write, w_write. cbn [ap_port ap_open w_log w_ans].
    rewrite app_length. cbn [List.length]. rewrite Nat.add_1_r.
    destruct (w_ans w (S (List.length (w_log w)))) as [n|] eqn:A2; cbn [ap_port w_log]; rewrite <- app_assoc; cbn [app].
    + right. split; [reflexivity|]. split; [congruence|reflexivity].
    + split; [reflexivity|]. split; [reflexivity|]. split; reflexivity.
Qed.
