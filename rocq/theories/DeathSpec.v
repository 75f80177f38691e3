(** DeathSpec: what can end the running program (C85), in terms of the configured interfaces and
    the bytes they receive; no function of the models is used, only their record types. *)
From Verif Require Import GoBase CanModel CanusbModel CanusbSpec ActisenseSpec NmeaTypes NmeaModel PipelineModel PipelineSpec CrashSpec.
Open Scope Z_scope.
Open Scope list_scope.

(** The bytes a reader sees that reads into a one-byte buffer: a read that delivers nothing
    leaves the byte before in the buffer. *)
Fixpoint noticed (last : byte) (evs : list rd_event) : bytes :=
  match evs with
  | [] => []
  | RByte b :: r => b :: noticed b r
  | _ :: r => last :: noticed last r
  end.

(** [can_line evs l]: the input [evs] ends with the line l: a start character (perhaps seen again
    by empty reads), later bytes that are none, and a carriage return; earlier carriage returns
    since the start character do not belong to the line. *)
Definition can_line (evs : list rd_event) (l : bytes) : Prop :=
  exists pre seg c n body, evs = pre ++ seg /\ ~ In RErr seg /\ noticed 0 seg = c :: repeat c n ++ body ++ [13] /\
    starts c /\ Forall not_start body /\ l = c :: filter (fun b => negb (b =? 13)) body.

(** A line of 8 or 3 identifier digits cut before its length digit. *)
Definition cut_line (l : bytes) : Prop :=
  exists ty r, l = start_char ty :: r /\
    ((id_digits ty = 8 /\ zlen r < 8) \/ (zlen r = id_digits ty /\ exists id, hex_number r id)).

(** PGNs that [tbl] declares longer than 8 bytes. *)
Definition fast_pgn (tbl : list pgn_def) (pgn : Z) : Prop := exists p, In p tbl /\ p_pgn p = pgn /\ 8 < p_size p.

(** A frame too short to carry the fast packet header it must have. *)
Definition headless (tbl : list pgn_def) (l : bytes) : Prop :=
  exists ty id data, frame_text l ty id data /\ fast_pgn tbl (id_pgn id) /\
    (data = [] \/ exists h, data = [h] /\ h mod 32 = 0).

(** The fast packet PGNs of CrashSpec: whether one of their messages is fatal is known when it has
    been put together from its frames. *)
Definition fatal_fast : list Z := [130816; 130820; 130842; 130847].
(** A frame that is a fatal message by itself, or part of a message of one of these PGNs. *)
Definition fatal_frame (l : bytes) : Prop :=
  exists ty id data, frame_text l ty id data /\ (fatal data 0 (id_pgn id) \/ In (id_pgn id) fatal_fast).

(** The content of a message between DLEs: a doubled DLE is one byte 16, a DLE STX nothing. *)
Inductive content : bytes -> bytes -> Prop :=
| ct_nil : content [] []
| ct_byte r m b : content r m -> b <> 16 -> content (r ++ [b]) (m ++ [b])
| ct_dle r m : content r m -> content (r ++ [16; 16]) (m ++ [16])
| ct_stx r m : content r m -> content (r ++ [16; 2]) m.

(** [framed seg raw x]: seg brings raw, which is nothing or begins with a DLE, then a DLE and x. *)
Definition framed (seg : list rd_event) (raw : bytes) (x : byte) : Prop :=
  ~ In RErr seg /\ noticed 0 seg = raw ++ [16; x] /\ (exists m, content raw m) /\ (raw = [] \/ exists raw', raw = 16 :: raw').
(** [between evs]: after the input [evs] the reader of an NGT is between two messages: at the
    beginning, after a read error, after bytes other than DLE (seen again by empty reads), after a
    message (DLE ETX) and after a DLE followed by something else than DLE, STX or ETX. *)
Inductive between : list rd_event -> Prop :=
| bt_nil : between []
| bt_error evs : between (evs ++ [RErr])
| bt_noise evs b : between evs -> b <> 16 -> between (evs ++ [RByte b])
| bt_empty evs : between evs -> between (evs ++ [GoBase.RZero])
| bt_frame evs seg raw x : between evs -> framed seg raw x -> x <> 2 -> x <> 16 -> between (evs ++ seg).

(** [act_message evs m]: the input [evs] ends with the message m on the line: from a first DLE,
    between messages, to DLE ETX. *)
Definition act_message (evs : list rd_event) (m : bytes) : Prop :=
  exists pre seg raw, between pre /\ evs = pre ++ seg /\ ~ In RErr seg /\ noticed 0 seg = 16 :: raw ++ [16; 3] /\
    content (16 :: raw) m.

(** What the world sends to an interface. *)
Definition input_of (i : iface) : list rd_event :=
  match if_dev i with DChar _ _ input => input | _ => [] end.

(** What ends the program, coming from interface [i]. *)
Inductive deadly (tbl : list pgn_def) (i : iface) : Prop :=
| d_start : ~ startable i -> deadly tbl i
| d_canusb evs rest l : if_type i = str "canusb" -> input_of i = evs ++ rest -> can_line evs l ->
    (cut_line l \/ headless tbl l \/ fatal_frame l) -> deadly tbl i
| d_actisense evs rest m : if_type i = str "actisense" -> input_of i = evs ++ rest -> act_message evs m ->
    (crashes m \/ exists r, delivers m r /\ fatal (rm_data r) 0 (rm_pgn r)) -> deadly tbl i.

(** Bytes arrive as bytes. *)
Definition input_ok (i : iface) : Prop := forall b, In (RByte b) (input_of i) -> is_byte b.
(** A JSON object decoded into a Go map has every member once. *)
Definition distinct_members (unmarshal : bytes -> option canboat) : Prop :=
  forall l c, unmarshal l = Some c -> NoDup (map fst (cb_fields c)).

(* ------------------------------------------------------------------ adapters in order *)

(** A complete frame that is long enough for its PGN, and neither fatal nor part of a message of
    one of the PGNs [fatal_fast]. *)
Definition fine_line (tbl : list pgn_def) (l : bytes) : Prop :=
  good_line l /\ exists ty id data, frame_text l ty id data /\ ~ fatal data 0 (id_pgn id) /\ ~ In (id_pgn id) fatal_fast /\
    (fast_pgn tbl (id_pgn id) -> 2 <= zlen data).
(** A message that is ignored, or delivered and not fatal. *)
Definition fine_message (m : bytes) : Prop :=
  bytes_ok m /\ ~ crashes m /\ forall r, delivers m r -> ~ fatal (rm_data r) 0 (rm_pgn r).

(** An interface that can be started and whose adapter delivers only such lines or messages, with
    anything between them that neither starts a line or message nor ends one. *)
Definition in_order (tbl : list pgn_def) (i : iface) : Prop :=
  startable i /\
  (if_type i = str "canusb" -> exists items tail,
     input_of i = map RByte (flat_map (fun it => fst it ++ snd it ++ [13]) items ++ tail) /\
     Forall (fun it => Forall not_start (fst it) /\ fine_line tbl (snd it)) items /\ Forall not_start tail) /\
  (if_type i = str "actisense" -> exists items tail,
     input_of i = map RByte (flat_map (fun it => fst it ++ on_line (snd it)) items ++ tail) /\
     Forall (fun it => Forall (fun b => b <> 16) (fst it) /\ fine_message (snd it)) items /\ Forall (fun b => b <> 16) tail).
