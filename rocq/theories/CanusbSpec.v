(** CanusbSpec: what the CANUSB properties (C01-C19) mean, written without any function of
    CanusbModel.v (only its record types are used). *)
From Verif Require Import GoBase CanModel CanusbModel.

(* ------------------------------------------------------------------ LAWICEL text *)

(** A hexadecimal digit of either case and its value. *)
Definition hex_char (c : byte) (v : Z) : Prop :=
  (48 <= c <= 57 /\ v = c - 48) \/ (97 <= c <= 102 /\ v = c - 87) \/ (65 <= c <= 70 /\ v = c - 55).

(** [hex_number s n]: the text s is the big-endian hexadecimal spelling of n. *)
Definition hex_number (s : bytes) (n : Z) : Prop :=
  exists ds, Forall2 hex_char s ds /\ n = fold_left (fun a d => a * 16 + d) ds 0.

(** [hex_bytes s d]: two digits per data byte. *)
Inductive hex_bytes : bytes -> bytes -> Prop :=
| hb_nil : hex_bytes [] []
| hb_cons c1 c2 v1 v2 s d :
    hex_char c1 v1 -> hex_char c2 v2 -> hex_bytes s d ->
    hex_bytes (c1 :: c2 :: s) ((16 * v1 + v2) :: d).

(** Start characters, and the number of identifier digits that follow. *)
Definition start_char (ty : msg_type) : byte :=
  match ty with CAN_STD => 116 | CAN_EXT => 84 | CAN_STD_RTR => 114 | CAN_EXT_RTR => 82 end.
Definition id_digits (ty : msg_type) : Z :=
  match ty with CAN_STD | CAN_STD_RTR => 3 | CAN_EXT | CAN_EXT_RTR => 8 end.

(** Characters that begin a frame (t, T, r, R); text free of them and of CR; text free of them;
    a line that begins with one and contains no other and no CR. *)
Definition starts (b : byte) : Prop := exists ty, b = start_char ty.
Definition plain (b : byte) : Prop := ~ starts b /\ b <> 13.
Definition not_start (b : byte) : Prop := ~ starts b.
Definition good_line (l : bytes) : Prop := exists c body, l = c :: body /\ starts c /\ Forall plain body.

(** A received line (without its final CR): start character, identifier digits, one length
    digit, the data digits, four bytes of adapter time stamp. *)
Definition frame_text (p : bytes) (ty : msg_type) (id : Z) (data : bytes) : Prop :=
  exists idtxt lenc datatxt stamp,
    p = start_char ty :: idtxt ++ lenc :: datatxt ++ stamp /\
    zlen idtxt = id_digits ty /\ hex_number idtxt id /\
    hex_char lenc (zlen data) /\ zlen data <= 8 /\
    hex_bytes datatxt data /\ zlen stamp = 4.

(* ------------------------------------------------------------------ ISO 11783 identifier *)

(** The fields of an identifier: priority | reserved+data page (2) | PF (8) | PS (8) | SA (8). *)
Definition id_prio (id : Z) : Z := id / 2 ^ 26.
Definition id_page (id : Z) : Z := (id / 2 ^ 24) mod 4.
Definition id_pf (id : Z) : Z := (id / 2 ^ 16) mod 256.
Definition id_ps (id : Z) : Z := (id / 2 ^ 8) mod 256.
Definition id_sa (id : Z) : Z := id mod 256.

(** PDU1 (PF < 240): PS is the destination and the PGN's low byte is 0; PDU2: PS belongs to
    the PGN and the message is a broadcast. *)
Definition id_pgn (id : Z) : Z :=
  id_page id * 65536 + id_pf id * 256 + (if id_pf id <? 240 then 0 else id_ps id).
Definition id_dest (id : Z) : Z := if id_pf id <? 240 then id_ps id else 255.

(** The message a frame with this identifier and data carries. *)
Definition frame_message (id : Z) (data : bytes) : raw_message :=
  mkraw (id_prio id) (id_pgn id) (id_sa id) (id_dest id) (zlen data) data.

(* ------------------------------------------------------------------ fast packets *)

(** First byte of a fast-packet frame: 3 bits group id, 5 bits frame number. *)
Definition hdr_group (h : byte) : Z := h / 32.
Definition hdr_seq (h : byte) : Z := h mod 32.
Definition hdr (g k : Z) : byte := 32 * g + k.

(** What identifies a transfer to the receiver: source, PGN, group id modulo 4. *)
Definition frame_head (f : can_frame) : byte := hd 0 (rm_data (cf_raw f)).
Definition same_transfer (f g : can_frame) : Prop :=
  rm_source (cf_raw f) = rm_source (cf_raw g) /\ rm_pgn (cf_raw f) = rm_pgn (cf_raw g) /\
  hdr_group (frame_head f) mod 4 = hdr_group (frame_head g) mod 4.

(** Frames as ParseFrame produces them. *)
Definition frame_ok (f : can_frame) : Prop :=
  0 <= rm_pgn (cf_raw f) < 2 ^ 18 /\ is_byte (rm_source (cf_raw f)) /\ bytes_ok (rm_data (cf_raw f)).

(** Cutting a payload: the first frame carries [a] bytes, the others [b]. *)
Fixpoint chunks (fuel : nat) (b : nat) (l : bytes) : list bytes :=
  match fuel, l with
  | _, [] => []
  | O, _ => []
  | S f, _ => firstn b l :: chunks f b (skipn b l)
  end.

(** Data bytes of the frames of a transfer with group g, declared length L, first chunk c0
    and later chunks cs. *)
Fixpoint cont_frames (g k : Z) (cs : list bytes) : list bytes :=
  match cs with [] => [] | c :: r => (hdr g k :: c) :: cont_frames g (k + 1) r end.
Definition transfer_data (g L : Z) (c0 : bytes) (cs : list bytes) : list bytes :=
  (hdr g 0 :: L :: c0) :: cont_frames g 1 cs.

(** The frame with given header fields and data. *)
Definition with_data (f : can_frame) (d : bytes) : can_frame :=
  mkframe (mkraw (rm_priority (cf_raw f)) (rm_pgn (cf_raw f)) (rm_source (cf_raw f))
                 (rm_dest (cf_raw f)) (zlen d) d) (cf_type f) (cf_id f) (cf_grp f) (cf_seq f).

(** [subseq a l]: a is obtained from l by deleting elements. *)
Inductive subseq {A} : list A -> list A -> Prop :=
| ss_nil l : subseq [] l
| ss_take x a l : subseq a l -> subseq (x :: a) (x :: l)
| ss_skip x a l : subseq a l -> subseq a (x :: l).

(** [numbered k fs]: the frames carry the consecutive frame numbers k, k+1, ... *)
Fixpoint numbered (k : Z) (fs : list can_frame) : Prop :=
  match fs with [] => True | f :: r => hdr_seq (frame_head f) = k /\ numbered (k + 1) r end.

(** First frame: number 0, a length byte L, then data. *)
Definition first_frame (f : can_frame) (L : Z) (d : bytes) : Prop :=
  exists h, rm_data (cf_raw f) = h :: L :: d /\ hdr_seq h = 0.

(** Payload of continuation frames: everything after the header byte. *)
Definition cont_payload (fs : list can_frame) : bytes := flat_map (fun f => tl (rm_data (cf_raw f))) fs.

(** A frame numbered 0. *)
Definition starts_transfer (f : can_frame) : Prop :=
  exists h r, rm_data (cf_raw f) = h :: r /\ hdr_seq h = 0.

(** [built_from h m fs]: within history h there is a first frame f0, followed by no other first
    frame of the same transfer, such that m has the header fields of f0, the length f0 declares,
    and as data those of f0 and then of the frames fs, which arrived after f0 in this order,
    belong to the same transfer and are numbered 1, 2, ... *)
Definition built_from (h : list can_frame) (m : raw_message) (fs : list can_frame) : Prop :=
  exists h1 f0 h2 L d0,
    h = h1 ++ f0 :: h2 /\ first_frame f0 L d0 /\
    (forall x, In x h2 -> same_transfer f0 x -> ~ starts_transfer x) /\
    subseq fs h2 /\ Forall (same_transfer f0) fs /\ numbered 1 fs /\
    m = mkraw (rm_priority (cf_raw f0)) (rm_pgn (cf_raw f0)) (rm_source (cf_raw f0))
              (rm_dest (cf_raw f0)) L (d0 ++ cont_payload fs).

(* ------------------------------------------------------------------ sending *)

(** Messages whose fields are in the range of their Go types. *)
Definition raw_ok (m : raw_message) : Prop :=
  is_byte (rm_priority m) /\ 0 <= rm_pgn m < 2 ^ 32 /\ is_byte (rm_dest m) /\
  is_byte (rm_length m) /\ bytes_ok (rm_data m).

(** What is received for a line [w] that was sent: the adapter removes the CR and appends four
    time-stamp bytes. *)
Definition received_as (w stamp line : bytes) : Prop :=
  exists body, w = body ++ [13] /\ line = body ++ stamp /\ zlen stamp = 4.

(** The PGN that reaches the bus: 17 bits, low byte zero when PF < 240. *)
Definition wire_pgn (pgn : Z) : Z :=
  let q := pgn mod 2 ^ 17 in
  if (q / 256) mod 256 <? 240 then q - q mod 256 else q.
Definition wire_dest (pgn dst : Z) : Z := if (pgn / 256) mod 256 <? 240 then dst else 255.

(** The message others receive when a station at [addr] sends m with data d in one frame. *)
Definition wire_message (addr : Z) (m : raw_message) (d : bytes) : raw_message :=
  mkraw (rm_priority m mod 64) (wire_pgn (rm_pgn m)) addr (wire_dest (rm_pgn m) (rm_dest m)) (zlen d) d.

(** A sent line carries [msg]: received with any time stamp, it is a frame text of type T with
    an identifier and data that mean [msg]. *)
Definition line_carries (w : bytes) (msg : raw_message) : Prop :=
  forall stamp line, received_as w stamp line ->
    exists id data, frame_text line CAN_EXT id data /\ frame_message id data = msg.

(** Writing lines one after the other, stopping at the first error. *)
Fixpoint write_all (w : wport) (ls : list bytes) (total : Z) : wport * outcome Z :=
  match ls with
  | [] => (w, Ret total)
  | l :: r => let '(w', (n, ok)) := w_write w l in
              if ok then write_all w' r (total + n) else (w', Err "write error")
  end.

(** The data bytes of the frames Send uses: 6 payload bytes per frame, frame numbers modulo 32. *)
Fixpoint sent_conts (g k : Z) (cs : list bytes) : list bytes :=
  match cs with [] => [] | c :: r => (hdr g (k mod 32) :: c) :: sent_conts g (k + 1) r end.
Definition sent_frames (g : Z) (payload : bytes) : list bytes :=
  (hdr g 0 :: zlen payload :: firstn 6 payload)
  :: sent_conts g 1 (chunks (List.length payload) 6 (skipn 6 payload)).

(** Little-endian value of a byte string. *)
Fixpoint le_value (l : bytes) : Z := match l with [] => 0 | b :: r => b + 256 * le_value r end.
(** Bits [lo, lo+n) of x. *)
Definition bits (x lo n : Z) : Z := (x / 2 ^ lo) mod 2 ^ n.

(** Claims of the address in use, along a sequence of received messages: [conflict_run a ms k],
    starting at address a there are k of them, each moving to the next address. *)
Inductive conflict_run : Z -> list raw_message -> Z -> Prop :=
| cr_nil a : conflict_run a [] 0
| cr_hit a m r k : rm_pgn m = 60928 -> rm_source m = a ->
    conflict_run ((a + 1) mod 256) r k -> conflict_run a (m :: r) (k + 1)
| cr_miss a m r k : ~ (rm_pgn m = 60928 /\ rm_source m = a) ->
    conflict_run a r k -> conflict_run a (m :: r) k.

(** A frame heard for a sent line: ParseFrame's result on the line with some time stamp. *)
Definition heard (w : bytes) (f : can_frame) : Prop :=
  exists stamp s, received_as w stamp (s_val s) /\ slice_ok s /\ ParseFrame s = Ret f.
(** A port on which every write succeeds. *)
Definition port_ok (w : wport) : Prop := forall k, w_ans w k = None.
