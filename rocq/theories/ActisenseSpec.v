(** ActisenseSpec: what the Actisense properties (C20-C27) mean, without any function of
    ActisenseModel.v. *)
From Verif Require Import GoBase BufFacts CanModel.

(* ---------------------------------------------------------------- the NGT protocol *)
(** Sum of the bytes of a message. *)
Definition total (l : bytes) : Z := fold_right Z.add 0 l.

(** Escaping: every DLE (16) is doubled. *)
Fixpoint escaped (l : bytes) : bytes :=
  match l with [] => [] | b :: r => if b =? 16 then 16 :: 16 :: escaped r else b :: escaped r end.

(** [envelope cmd payload w]: w is DLE STX command length payload checksum DLE ETX, with the
    DLEs of the payload doubled, the length counted before doubling (modulo 256) and a checksum
    byte that makes command + length + payload + checksum a multiple of 256. *)
Definition envelope (cmd : byte) (payload w : bytes) : Prop :=
  exists crc, is_byte crc /\
    w = [16; 2; cmd; zlen payload mod 256] ++ escaped payload ++ [crc; 16; 3] /\
    (cmd + zlen payload mod 256 + total payload + crc) mod 256 = 0.

(** The message as it is before escaping: command, length, payload, checksum. *)
Definition plain_message (cmd : byte) (payload : bytes) (crc : byte) : bytes :=
  [cmd; zlen payload mod 256] ++ payload ++ [crc].

(** A correctly escaped message on the line. *)
Definition on_line (m : bytes) : bytes := [16; 2] ++ escaped m ++ [16; 3].

(* ---------------------------------------------------------------- received messages *)
(** Layout of a received NMEA 2000 message (command 0x93): packet length, priority, PGN (3 bytes,
    little endian), destination, source, time stamp (4), data length, data; [rest] normally is
    the checksum byte. *)
Record n2k_layout := mkn2k {
  ny_plen : byte; ny_prio : byte; ny_p0 : byte; ny_p1 : byte; ny_p2 : byte; ny_dst : byte; ny_src : byte;
  ny_time : bytes; ny_data : bytes; ny_rest : bytes }.
Definition n2k_bytes (y : n2k_layout) : bytes :=
  [147; ny_plen y; ny_prio y; ny_p0 y; ny_p1 y; ny_p2 y; ny_dst y; ny_src y]
  ++ ny_time y ++ [zlen (ny_data y)] ++ ny_data y ++ ny_rest y.
Definition n2k_message (y : n2k_layout) : raw_message :=
  mkraw (ny_prio y) (ny_p0 y + 256 * ny_p1 y + 65536 * ny_p2 y) (ny_src y) (ny_dst y)
        (zlen (ny_data y)) (ny_data y).

(** Capacity of the receive buffer holding n bytes: the smallest of 8, 16, 32, ... that is
    at least n. *)
Definition buffer_capacity (n c : Z) : Prop :=
  exists k, 0 <= k /\ c = 8 * 2 ^ k /\ n <= c /\ (c = 8 \/ c / 2 < n).

(** [delivers m r]: the message m (as collected between DLE STX and DLE ETX, unescaped,
    checksum included) is delivered to the caller as r. *)
Definition n2k_delivers (m : bytes) (r : raw_message) : Prop :=
  exists y, m = n2k_bytes y /\ zlen (ny_time y) = 4 /\ total m mod 256 = 0 /\
    11 <= ny_plen y /\ zlen (ny_data y) <= 223 /\ r = n2k_message y.
Definition ngt_delivers (m : bytes) (r : raw_message) : Prop :=
  exists pl id body c, m = 160 :: pl :: id :: body /\ total m mod 256 = 0 /\ 12 <= pl <= 254 /\
    buffer_capacity (zlen m) c /\ pl + 2 <= c /\
    rm_priority r = 0 /\ rm_pgn r = 262144 + id /\ rm_source r = 0 /\ rm_dest r = 0 /\ rm_length r = pl - 1 /\
    zlen (rm_data r) = pl - 1 /\ exists more pad, rm_data r ++ more = body ++ repeat 0 pad.
Definition delivers (m : bytes) (r : raw_message) : Prop := n2k_delivers m r \/ ngt_delivers m r.

(** [crashes m]: receiving m kills the process. *)
Definition crashes (m : bytes) : Prop :=
  total m mod 256 = 0 /\
  ((exists pl x rest, m = 147 :: pl :: x :: rest /\ 11 <= pl /\ zlen m < 13) \/
   (exists pl id body c, m = 160 :: pl :: id :: body /\ 12 <= pl /\ buffer_capacity (zlen m) c /\
      (pl = 255 \/ c < pl + 2))).

(* ---------------------------------------------------------------- streams *)
(** The bytes of a stream: each message on the line preceded by noise. *)
Fixpoint act_stream (items : list (bytes * bytes)) : list rd_event :=
  match items with
  | [] => []
  | (noise, m) :: r => evs_of noise ++ evs_of (on_line m) ++ act_stream r
  end.

(** A stream of messages: those delivered, those ignored, none that crashes. *)
Inductive stream_gives : list (bytes * bytes) -> list raw_message -> Prop :=
| sg_nil : stream_gives [] []
| sg_deliver noise m r items rs : Forall (fun b => b <> 16) noise -> bytes_ok m -> delivers m r ->
    stream_gives items rs -> stream_gives ((noise, m) :: items) (r :: rs)
| sg_ignore noise m items rs : Forall (fun b => b <> 16) noise -> bytes_ok m ->
    (forall r, ~ delivers m r) -> ~ crashes m ->
    stream_gives items rs -> stream_gives ((noise, m) :: items) rs.

(* ---------------------------------------------------------------- commands *)
(** The requests of the NGT command set that the package offers. *)
Inductive ngt_request :=
| ReqReboot | ReqReInit | ReqCommitEEPROM | ReqCommitFlash
| ReqHardwareInfo | ReqGetMode | ReqSetMode (mode : Z)
| ReqGetBaud | ReqSetBaud | ReqGetPCodes | ReqSetPCodes (codes : list byte)
| ReqGetDup | ReqSetDup | ReqGetTime | ReqSetTime | ReqGetHwBaud | ReqSetHwBaud
| ReqSupportedPGNs | ReqProductInfo | ReqGetCANConfig | ReqSetCANConfig
| ReqGetInfo1 | ReqSetInfo1 (s : bytes) | ReqGetInfo2 | ReqSetInfo2 (s : bytes) | ReqGetInfo3
| ReqGetRxPGN (pgn : Z) | ReqSetRxPGN (pgn enable : Z)
| ReqGetTxPGN (pgn : Z) | ReqSetTxPGN (pgn enable : Z)
| ReqRxList | ReqTxList | ReqClearRx | ReqClearTx | ReqActivate | ReqDefault (id : byte) | ReqParams.

(** n in 4 little-endian bytes (two's complement for negative numbers). *)
Definition le4 (n : Z) : bytes := [n mod 256; n / 256 mod 256; n / 65536 mod 256; n / 16777216 mod 256].

(** Command byte and payload of each request, after the NGT command table. *)
Definition request_payload (r : ngt_request) : byte * bytes :=
  match r with
  | ReqReboot => (1, [17])
  | ReqReInit => (161, [0])
  | ReqCommitEEPROM => (161, [1])
  | ReqCommitFlash => (161, [2])
  | ReqHardwareInfo => (161, [16])
  | ReqGetMode => (161, [17])
  | ReqSetMode m => (161, [17; m mod 256; m / 256 mod 256])
  | ReqGetBaud | ReqSetBaud => (161, [18])
  | ReqGetPCodes => (161, [19])
  | ReqSetPCodes l => (161, 19 :: l)
  | ReqGetDup | ReqSetDup => (161, [20])
  | ReqGetTime | ReqSetTime => (161, [21])
  | ReqGetHwBaud | ReqSetHwBaud => (161, [22])
  | ReqSupportedPGNs => (161, [64])
  | ReqProductInfo => (161, [65])
  | ReqGetCANConfig | ReqSetCANConfig => (161, [66])
  | ReqGetInfo1 => (161, [67])
  | ReqSetInfo1 s => (161, 67 :: (zlen s + 2) mod 256 :: 1 :: s)
  | ReqGetInfo2 => (161, [68])
  | ReqSetInfo2 s => (161, 68 :: (zlen s + 2) mod 256 :: 1 :: s)
  | ReqGetInfo3 => (161, [69])
  | ReqGetRxPGN n => (161, 70 :: le4 n)
  | ReqSetRxPGN n e => (161, 70 :: le4 n ++ [e mod 256])
  | ReqGetTxPGN n => (161, 71 :: le4 n)
  | ReqSetTxPGN n e => (161, 71 :: le4 n ++ [e mod 256])
  | ReqRxList => (161, [72])
  | ReqTxList => (161, [73])
  | ReqClearRx => (161, [74; 0])
  | ReqClearTx => (161, [74; 1])
  | ReqActivate => (161, [75])
  | ReqDefault i => (161, [76; i])
  | ReqParams => (161, [77])
  end.
