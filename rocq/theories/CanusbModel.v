(** CanusbModel: /repo/canusb/canframe.go and /repo/canusb/canport.go. *)
From Verif Require Import GoBase Strconv CanModel.

(** msgType, canframe.go:30-37. *)
Inductive msg_type := CAN_STD | CAN_EXT | CAN_STD_RTR | CAN_EXT_RTR.

(** CanFrame, canframe.go:74-80 (embedded can.RawMessage plus the private fields). *)
Record can_frame := mkframe {
  cf_raw : raw_message; cf_type : msg_type; cf_id : Z; cf_grp : Z; cf_seq : Z }.

(** The package's global variables: fast_packets (canframe.go:43), partial_messages
    (canframe.go:40) and group (canport.go:38). *)
Record can_state := mkcs { cs_fast : list Z; cs_partial : zmap can_frame; cs_group : Z }.
(** Initial values, canframe.go:40,43 and canport.go:38. *)
Definition can_init : can_state := mkcs [] zempty 0.

(** AddFastPacket, canframe.go:46-58: first equal element: nothing; first larger element:
    insert before it (append, copy and assignment on lines 51-53); none: append. *)
Fixpoint add_fast (l : list Z) (pgn : Z) : list Z :=
  match l with
  | [] => [pgn]
  | v :: r => if pgn =? v then l else if pgn <? v then pgn :: l else v :: add_fast r pgn
  end.
(** AddFastPacket on the package state, canframe.go:46-58. *)
Definition AddFastPacket (st : can_state) (pgn : Z) : can_state :=
  mkcs (add_fast (cs_fast st) pgn) (cs_partial st) (cs_group st).

(** The loop of isFastPacket, canframe.go:61-69.  None = out of fuel or index out of range
    (neither happens: [isFastPacket_total]). *)
Fixpoint fp_search (fuel : nat) (fp : list Z) (pgn i j : Z) : option Z :=
  match fuel with
  | O => None
  | S f =>
      if i <? j then
        let h := i + (j - i) / 2 in
        match zget fp h with
        | None => None
        | Some v => if negb (pgn <=? v) then fp_search f fp pgn (h + 1) j
                    else fp_search f fp pgn i h
        end
      else Some i
  end.
(** isFastPacket, canframe.go:60-72. *)
Definition isFastPacket (fp : list Z) (pgn : Z) : option bool :=
  match fp_search (S (List.length fp)) fp pgn 0 (zlen fp) with
  | None => None
  | Some i => if i <? zlen fp
              then match zget fp i with Some v => Some (v =? pgn) | None => None end
              else Some false
  end.

(** The data loop of ParseFrame, canframe.go:167-174: [n] two-character groups from
    position [i] on. *)
Fixpoint parse_data (p : slice) (i : Z) (n : nat) (acc : bytes) : outcome bytes :=
  match n with
  | O => Ret acc
  | S m =>
      match s_sub p i (i + 2) with
      | None => Panic "slice bounds out of range"
      | Some w =>
          match parse_uint 16 8 (s_val w) with
          | PUok v => parse_data p (i + 2) m (acc ++ [u8 v])
          | _ => Err "canusb.ParseFrame: Unable to parse data"
          end
      end
  end.

(** The identifier decoding of ParseFrame, canframe.go:133-144: (priority, pgn, source,
    destination) of a 32-bit identifier. *)
Definition decode_id (id : Z) : Z * Z * Z * Z :=
  let pf := Z.land (Z.shiftr id 16) 255 in
  let ps := Z.land (Z.shiftr id 8) 255 in
  let prio := u8 (Z.shiftr id 26) in
  let src := u8 (Z.land id 255) in
  if 240 <=? pf then (prio, Z.land (Z.shiftr id 8) 262143, src, 255)
  else (prio, Z.land (Z.shiftr id 8) 261888, src, u8 ps).

(** ParseFrame after the prefix byte, canframe.go:131-177. *)
Definition parse_frame_body (p : slice) (ty : msg_type) (offset : Z) : outcome can_frame :=
  match s_sub p 1 offset with
  | None => Panic "slice bounds out of range"
  | Some idtxt =>
    match parse_uint 16 (offset * 4) (s_val idtxt) with
    | PUok n =>
      let id := u32 n in
      match s_get p offset with
      | None => Panic "index out of range"
      | Some c =>
        match parse_uint 16 8 (string_of_byte c) with
        | PUok n =>
          if n <=? 8 then
            let offset := offset + 1 in
            let data_len := s_len p - offset - 4 in
            if negb (Z.rem data_len 2 =? 0) || negb (Z.quot data_len 2 =? n)
            then Err "canusb.ParseFrame: Expected other number of bytes"
            else
              match parse_data p offset (Z.to_nat (Z.quot data_len 2)) [] with
              | Ret d =>
                  let '(prio, pgn, src, dst) := decode_id id in
                  Ret (mkframe (mkraw prio pgn src dst (u8 n) d) ty id 0 0)
              | Err e => Err e
              | Panic e => Panic e
              end
          else Err "canusb.ParseFrame: Expected length <= 8"
        | _ => Err "canusb.ParseFrame: Unable to parse message length"
        end
      end
    | _ => Err "canusb.ParseFrame: Unable to parse message ID"
    end
  end.

(** ParseFrame, canframe.go:95-129 (prefix switch); 116='t' 84='T' 114='r' 82='R'. *)
Definition ParseFrame (p : slice) : outcome can_frame :=
  if s_len p =? 0 then Err "empty byte array"
  else match s_get p 0 with
       | None => Panic "index out of range"
       | Some c =>
           if c =? 116 then parse_frame_body p CAN_STD 4
           else if c =? 84 then parse_frame_body p CAN_EXT 9
           else if c =? 114 then parse_frame_body p CAN_STD_RTR 4
           else if c =? 82 then parse_frame_body p CAN_EXT_RTR 9
           else Err "canusb.ParseFrame: Invalid prefix"
       end.

(** Field updates of a frame used by frameReceived (canport.go:311,312,322,323,334,335). *)
Definition set_seqgrp (f : can_frame) (seq grp : Z) : can_frame :=
  mkframe (cf_raw f) (cf_type f) (cf_id f) grp seq.
(** frame.Data = ... (canport.go:323,334). *)
Definition set_data (f : can_frame) (d : bytes) : can_frame :=
  mkframe (mkraw (rm_priority (cf_raw f)) (rm_pgn (cf_raw f)) (rm_source (cf_raw f))
                 (rm_dest (cf_raw f)) (rm_length (cf_raw f)) d)
          (cf_type f) (cf_id f) (cf_grp f) (cf_seq f).
(** frame.Length = ... (canport.go:322). *)
Definition set_length (f : can_frame) (n : Z) : can_frame :=
  mkframe (mkraw (rm_priority (cf_raw f)) (rm_pgn (cf_raw f)) (rm_source (cf_raw f))
                 (rm_dest (cf_raw f)) n (rm_data (cf_raw f)))
          (cf_type f) (cf_id f) (cf_grp f) (cf_seq f).

(** The map key uid, canport.go:315-317 (uint32 arithmetic). *)
Definition fp_uid (grp pgn source : Z) : Z :=
  u32 (u32 (u32 (Z.shiftl grp 28) + u32 (Z.shiftl pgn 8)) + source).

(** frameReceived after ParseFrame, canport.go:310-347. *)
Definition frame_step (st : can_state) (frame : can_frame) : can_state * outcome can_frame :=
  let data := rm_data (cf_raw frame) in
  match isFastPacket (cs_fast st) (rm_pgn (cf_raw frame)) with
  | None => (st, Panic "isFastPacket")
  | Some false => (st, Ret frame)
  | Some true =>
    match zget data 0 with
    | None => (st, Panic "index out of range")
    | Some d0 =>
      let seq := Z.land d0 31 in
      let grp := Z.shiftr (Z.land d0 112) 5 in
      let frame := set_seqgrp frame seq grp in
      let uid := fp_uid grp (rm_pgn (cf_raw frame)) (rm_source (cf_raw frame)) in
      if seq =? 0 then
        let pm := zdel (cs_partial st) uid in
        match zget data 1 with
        | None => (mkcs (cs_fast st) pm (cs_group st), Panic "index out of range")
        | Some d1 =>
          let frame := set_data (set_length frame d1) (skipn 2 data) in
          if rm_length (cf_raw frame) <=? zlen (rm_data (cf_raw frame))
          then (mkcs (cs_fast st) pm (cs_group st), Ret frame)
          else (mkcs (cs_fast st) (zput pm uid frame) (cs_group st), Err "partial PGN")
        end
      else
        match cs_partial st uid with
        | Some partial =>
          if u8 (cf_seq partial + 1) =? seq then
            let partial := set_seqgrp (set_data partial (rm_data (cf_raw partial) ++ skipn 1 data))
                                      seq (cf_grp partial) in
            if rm_length (cf_raw partial) <=? zlen (rm_data (cf_raw partial))
            then (mkcs (cs_fast st) (zdel (cs_partial st) uid) (cs_group st), Ret partial)
            else (mkcs (cs_fast st) (zput (cs_partial st) uid partial) (cs_group st),
                  Err "partial PGN")
          else (st, Ret frame)
        | None => (st, Ret frame)
        end
    end
  end.

(** frameReceived, canport.go:286-348. *)
Definition frameReceived (st : can_state) (msg : slice) : can_state * outcome can_frame :=
  match ParseFrame msg with
  | Ret f => frame_step st f
  | Err e => (st, Err e)
  | Panic e => (st, Panic e)
  end.

(** What CanPort.Read produces: a message, an I/O error, a panic, or no return because the
    input is exhausted (the call blocks). *)
Inductive read_result :=
| RdMsg (m : raw_message) (rest : list rd_event) (st : can_state)
| RdErr (rest : list rd_event) (st : can_state)
| RdPanic (st : can_state)
| RdBlock (st : can_state).

(** b == 't' || b == 'T' || b == 'r' || b == 'R', canport.go:143. *)
Definition is_sof (b : byte) : bool := (b =? 116) || (b =? 84) || (b =? 114) || (b =? 82).

(** The loop of CanPort.Read, canport.go:137-164; rx is the 1-byte receive buffer.  The
    returned can.RawMessage copies the frame's fields (lines 150-158, timestamp left out). *)
Fixpoint read_loop (evs : list rd_event) (rx : byte) (msg : slice) (sof : bool)
                   (st : can_state) : read_result :=
  match evs with
  | [] => RdBlock st
  | RErr :: rest => RdErr rest st
  | ev :: rest =>
      let b := match ev with RByte x => x | _ => rx end in
      if is_sof b then read_loop rest b (s_append nil_slice b) true st
      else if (b =? 13) && sof then
        match frameReceived st msg with
        | (st', Ret f) => RdMsg (cf_raw f) rest st'
        | (st', Err _) => read_loop rest b msg sof st'
        | (st', Panic _) => RdPanic st'
        end
      else if sof then read_loop rest b (s_append msg b) sof st
      else read_loop rest b msg sof st
  end.

(** CanPort, canport.go:32-36 (write side; the read side is the event list). *)
Record can_port := mkcp { cp_port : wport; cp_addr : Z; cp_open : bool }.

(** CanPort.Read, canport.go:131-168. *)
Definition Read (p : can_port) (st : can_state) (evs : list rd_event) : read_result :=
  if cp_open p then read_loop evs 0 (mkslice [0] 1) false st else RdErr evs st.

(** CanPort.Address, canport.go:170-172. *)
Definition Address (p : can_port) : Z := cp_addr p.

(** The text CanPort.Write produces for valid arguments, canport.go:175,186-203. *)
Definition write_text (pri pgn0 pgn1 pgn2 dst len addr : Z) (pld : bytes) : bytes :=
  let pgn2 := if pgn1 <? 240 then dst else pgn2 in
  [84] ++ fmt_2X (u8 (u8 (Z.shiftl pri 2) + Z.land pgn0 1))
       ++ fmt_2X pgn1 ++ fmt_2X pgn2 ++ fmt_2X addr ++ fmt_1X len
       ++ flat_map fmt_2X pld ++ [13].

(** CanPort.Write, canport.go:174-206.  Returns the port, the caller's buffer (line 188
    stores into it) and the outcome (the byte count of a failed Write is dropped). *)
Definition Write (p : can_port) (b : slice) : can_port * slice * outcome Z :=
  match s_get b 0 with None => (p, b, Panic "index out of range") | Some pri =>
  match s_sub b 1 4 with None => (p, b, Panic "slice bounds out of range") | Some pgn =>
  match s_get b 4 with None => (p, b, Panic "index out of range") | Some dst =>
  match s_get b 5 with None => (p, b, Panic "index out of range") | Some len =>
  match s_sub b 6 (u8 (6 + len)) with
  | None => (p, b, Panic "slice bounds out of range")
  | Some pld =>
    if 8 <? len then (p, b, Err "does not support long writes")
    else
      match s_get pgn 0, s_get pgn 1, s_get pgn 2 with
      | Some pgn0, Some pgn1, Some pgn2 =>
        let b' := if pgn1 <? 240 then mkslice (list_set (s_arr b) 3 dst) (s_len b) else b in
        let '(w, (n, ok)) :=
          w_write (cp_port p) (write_text pri pgn0 pgn1 pgn2 dst len (cp_addr p) (s_val pld)) in
        (mkcp w (cp_addr p) (cp_open p), b', if ok then Ret n else Err "write error")
      | _, _, _ => (p, b, Panic "index out of range")
      end
  end end end end end.

(** The fast packet loop of CanPort.Send, canport.go:244-280. *)
Fixpoint send_loop (fuel : nat) (p : can_port) (data buf tmp : bytes)
                   (i chunksize seq grp total : Z) : can_port * outcome Z :=
  match fuel with
  | O => (p, Panic "out of fuel")
  | S f =>
    let dataLen := zlen data in
    if i <? dataLen then
      let tmp := list_set tmp 0 (u8 (Z.land seq 31 + u8 (Z.shiftl (Z.land grp 7) 5))) in
      let seq := seq + 1 in
      let chunksize := if i =? 1 then chunksize + 1 else chunksize in
      let end0 := i + chunksize in
      let this := if dataLen <? end0 then chunksize - (end0 - dataLen) else chunksize in
      let end_ := if dataLen <? end0 then dataLen else end0 in
      let tmp := if i =? 0 then copy_at (list_set tmp 1 (u8 dataLen)) 2 (zsub data i end_)
                 else copy_at tmp 1 (zsub data i end_) in
      let hd := if i =? 0 then 2 else 1 in
      let buf := list_set (copy_at buf 6 (zsub tmp 0 (this + hd))) 5 (u8 (this + hd)) in
      match Write p (full_slice buf) with
      | (p', b', Ret n) =>
          send_loop f p' data (s_arr b') tmp (i + chunksize) chunksize seq grp (total + n)
      | (p', _, Err e) => (p', Err e)
      | (p', _, Panic e) => (p', Panic e)
      end
    else (p, Ret total)
  end.

(** CanPort.Send, canport.go:210-284. *)
Definition Send (st : can_state) (p : can_port) (frame : raw_message)
  : can_state * can_port * outcome Z :=
  let hdr := [rm_priority frame;
              u8 (Z.shiftr (Z.land (rm_pgn frame) 983040) 16);
              u8 (Z.shiftr (Z.land (rm_pgn frame) 65280) 8);
              u8 (rm_pgn frame); rm_dest frame] in
  let dataLen := zlen (rm_data frame) in
  if dataLen <=? 8 then
    let buf := hdr ++ [rm_length frame] ++ copy_at (repeat 0 8) 0 (rm_data frame) in
    if dataLen <? rm_length frame then (st, p, Err "not enough space for data")
    else let '(p', _, r) := Write p (full_slice buf) in (st, p', r)
  else if dataLen <=? 223 then
    let grp := cs_group st in
    let st' := mkcs (cs_fast st) (cs_partial st) (u8 (cs_group st + 1)) in
    let '(p', r) := send_loop (S (List.length (rm_data frame))) p (rm_data frame)
                      (hdr ++ repeat 0 9) (repeat 0 8) 0 6 0 grp 0 in
    (st', p', r)
  else (st, p, Err "cannot send data larger than fast packets").

(** binary.LittleEndian.PutUint32, canport.go:66-67. *)
Definition put_u32 (x : Z) : bytes :=
  [u8 x; u8 (Z.shiftr x 8); u8 (Z.shiftr x 16); u8 (Z.shiftr x 24)].

(** CanPort.AddressClaim, canport.go:41-83; the Send result is ignored (line 80). *)
Definition AddressClaim (st : can_state) (p : can_port) (preferred : Z)
  : can_state * can_port * outcome Z :=
  let i0 := u32 (2097151 + u32 (Z.shiftl 100 21)) in
  let i1 := u32 (0 + u32 (Z.shiftl 0 3)) in
  let i1 := u32 (i1 + u32 (Z.shiftl 25 8)) in
  let i1 := u32 (i1 + u32 (Z.shiftl 25 17)) in
  let i1 := u32 (i1 + u32 (Z.shiftl 0 24)) in
  let i1 := u32 (i1 + u32 (Z.shiftl 4 28)) in
  let i1 := u32 (i1 + u32 (Z.shiftl 1 31)) in
  let claim := mkraw 2 60928 221 225 8 (put_u32 i0 ++ put_u32 i1) in
  let p := mkcp (cp_port p) preferred (cp_open p) in
  match Send st p claim with
  | (st', p', Panic e) => (st', p', Panic e)
  | (st', p', _) => (st', p', Ret preferred)
  end.

(** OpenChannel, canport.go:89-117.  The deferred CloseChannel (lines 90-94) never runs:
    every error return sets p to nil.  A nil port interface is outside the model. *)
Definition OpenChannel (st : can_state) (w : wport) (address : Z)
  : can_state * wport * outcome can_port :=
  let '(w1, (_, ok1)) := w_write w (str "S5" ++ [13]) in
  if ok1 then
    let '(w2, (_, ok2)) := w_write w1 (str "O" ++ [13]) in
    if ok2 then
      match AddressClaim st (mkcp w2 0 false) address with
      | (st', p', Ret a) => (st', cp_port p', Ret (mkcp (cp_port p') a true))
      | (st', p', Err e) => (st', cp_port p', Err e)
      | (st', p', Panic e) => (st', cp_port p', Panic e)
      end
    else (st, w2, Err "write error")
  else (st, w1, Err "write error").

(** CanPort.CloseChannel, canport.go:123-129.  The []byte conversion of "C\r" has length 2
    and some capacity [cap] of at least 2 chosen by the runtime.  The boolean says whether
    the underlying port was closed (line 126). *)
Definition CloseChannel (p : can_port) (spare : bytes) : can_port * bool * outcome unit :=
  match Write p (mkslice (str "C" ++ [13] ++ spare) 2) with
  | (p', _, Ret _) => (p', true, Ret tt)
  | (p', _, Err e) => (p', true, Err e)
  | (p', _, Panic e) => (p', false, Panic e)
  end.

(** The canusb branch of processInterface's receive loop, /repo/main/argo.go:273-280, for one
    received message: the address claim it triggers.  (OpenChannel is called with address 221,
    line 270.)  What happens to the message itself is in MainModel.v. *)
Definition iface_on_message (st : can_state) (p : can_port) (raw : raw_message)
  : can_state * can_port * outcome unit :=
  if (rm_pgn raw =? 60928) && (rm_source raw =? Address p) then
    match AddressClaim st p (u8 (Address p + 1)) with
    | (st', p', Ret _) => (st', p', Ret tt)
    | (st', p', Err e) => (st', p', Ret tt)
    | (st', p', Panic e) => (st', p', Panic e)
    end
  else (st, p, Ret tt).
