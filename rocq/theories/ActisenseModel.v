(** ActisenseModel: /repo/actisense/actisense.go and /repo/actisense/commands.go. *)
From Verif Require Import GoBase CanModel.

(** STX, ETX, DLE, actisense.go:31-36. *)
Definition STX : Z := 2.
Definition ETX : Z := 3.
Definition DLE : Z := 16.

(** MsgState, actisense.go:38-44. *)
Inductive msg_state := MsgStart | MsgEscape | MsgMessage.

(** ActisensePort, actisense.go:46-49 (write side; the read side is the event list). *)
Record act_port := mkap { ap_port : wport; ap_open : bool }.

(** Command bytes, commands.go:22-30. *)
Definition N2kMsgRecv : Z := 147.
Definition N2kMsgSend : Z := 148.
Definition ACmdRecv : Z := 160.
Definition ACmdSend : Z := 161.

(** b := s[i] followed by k; an index out of range panics. *)
Definition at_idx {A} (s : slice) (i : Z) (k : byte -> outcome A) : outcome A :=
  match s_get s i with None => Panic "index out of range" | Some b => k b end.

(** n2kMessageReceived, actisense.go:206-234 (timestamp left out).  Errors carry a short
    form of their text. *)
Definition n2kMessageReceived (msg : slice) : outcome raw_message :=
  at_idx msg 0 (fun plen =>
  if plen <? 11 then Err "ignore short msg" else
  at_idx msg 1 (fun prio =>
  at_idx msg 2 (fun p0 => at_idx msg 3 (fun p1 => at_idx msg 4 (fun p2 =>
  let pgn := Z.lor (Z.lor p0 (u32 (Z.shiftl p1 8))) (u32 (Z.shiftl p2 16)) in
  at_idx msg 5 (fun dst => at_idx msg 6 (fun src => at_idx msg 11 (fun lth =>
  if 223 <? lth then Err "ignore long msg" else
  let end_ := u8 (lth + 12) in
  if s_len msg <? end_ then Err "ignore corrupt msg" else
  match s_sub msg 12 end_ with
  | None => Panic "slice bounds out of range"
  | Some d => Ret (mkraw prio pgn src dst lth (s_val d))
  end)))))))).

(** ngtMessageReceived, actisense.go:236-255. *)
Definition ngtMessageReceived (msg : slice) : outcome raw_message :=
  at_idx msg 0 (fun plen =>
  if plen <? 12 then Err "ignore short msg" else
  at_idx msg 1 (fun id =>
  match s_sub msg 2 (u8 (plen + 1)) with
  | None => Panic "slice bounds out of range"
  | Some d => Ret (mkraw 0 (u32 (262144 + id)) 0 0 (u8 (plen - 1)) (s_val d))
  end)).

(** The checksum loop of messageReceived, actisense.go:186-189. *)
Definition sum8 (l : bytes) : Z := fold_left (fun c b => u8 (c + b)) l 0.

(** messageReceived, actisense.go:180-204. *)
Definition messageReceived (msg : slice) : outcome raw_message :=
  if s_len msg <? 3 then Err "ignore short command"
  else if negb (sum8 (s_val msg) =? 0) then Err "ignoring message with invalid checksum"
  else at_idx msg 0 (fun command =>
    match s_sub msg 1 (s_len msg) with
    | None => Panic "slice bounds out of range"
    | Some tl =>
      if command =? N2kMsgRecv then n2kMessageReceived tl
      else if command =? ACmdRecv then ngtMessageReceived tl
      else Err "unknown message type"
    end).

(** One byte through the state machine of Read, actisense.go:106-132: the new state and buffer,
    and the buffer handed to messageReceived, if this byte ended a message. *)
Definition deframe (st : msg_state) (buf : slice) (b : byte) : msg_state * slice * option slice :=
  match st with
  | MsgEscape =>
      if b =? ETX then (MsgStart, nil_slice, Some buf)
      else if b =? STX then (MsgMessage, buf, None)
      else if b =? DLE then (MsgMessage, s_append buf b, None)
      else (MsgStart, nil_slice, None)
  | MsgMessage =>
      if b =? DLE then (MsgEscape, buf, None) else (MsgMessage, s_append buf b, None)
  | MsgStart =>
      if b =? DLE then (MsgEscape, buf, None) else (MsgStart, buf, None)
  end.

(** What Read produces: a message, the port's error, a panic, or no return (input exhausted).
    The remaining input is what a later Read will see. *)
Inductive act_result :=
| ARMsg (m : raw_message) (rest : list rd_event)
| ARErr (rest : list rd_event)
| ARPanic (rest : list rd_event)
| ARBlock.

(** The loop of Read, actisense.go:98-134; rx is the 1-byte receive buffer. *)
Fixpoint act_loop (evs : list rd_event) (rx : byte) (st : msg_state) (buf : slice) : act_result :=
  match evs with
  | [] => ARBlock
  | RErr :: rest => ARErr rest
  | ev :: rest =>
      let b := match ev with RByte x => x | _ => rx end in
      match deframe st buf b with
      | (st', buf', None) => act_loop rest b st' buf'
      | (st', buf', Some m) =>
          match messageReceived m with
          | Ret r => ARMsg r rest
          | Err _ => act_loop rest b st' buf'
          | Panic _ => ARPanic rest
          end
      end
  end.

(** Read, actisense.go:92-135: every call starts afresh (lines 93-95). *)
Definition act_read (evs : list rd_event) : act_result := act_loop evs 0 MsgStart nil_slice.

(** The payload loop of write, actisense.go:163-169: the bytes appended to bst, and crc. *)
Fixpoint stuff (payload : bytes) (crc : Z) : bytes * Z :=
  match payload with
  | [] => ([], crc)
  | b :: r =>
      let '(out, crc') := stuff r (u8 (crc + b)) in
      ((if b =? DLE then [DLE; b] else [b]) ++ out, crc')
  end.

(** The bytes write hands to the port, actisense.go:157-175. *)
Definition wire (command : byte) (payload : bytes) : bytes :=
  let '(out, crc) := stuff payload command in
  let crc := u8 (crc + u8 (zlen payload)) in
  let crc := u8 (256 - crc) in
  [DLE; STX; command; u8 (zlen payload)] ++ out ++ [crc; DLE; ETX].

(** write, actisense.go:156-178; the byte count of a failed Write is dropped. *)
Definition act_write (p : act_port) (command : byte) (payload : bytes) : act_port * outcome Z :=
  let '(w, (n, ok)) := w_write (ap_port p) (wire command payload) in
  (mkap w (ap_open p), if ok then Ret n else Err "write error").

(** Write, actisense.go:88-90. *)
Definition act_Write (p : act_port) (payload : bytes) : act_port * outcome Z :=
  act_write p N2kMsgSend payload.

(** buf[i] = v, an index out of range panics. *)
Definition set_idx {A} (buf : bytes) (i v : Z) (k : bytes -> outcome A) : outcome A :=
  if (0 <=? i) && (i <? zlen buf) then k (list_set buf i v) else Panic "index out of range".

(** The buffer Send builds, actisense.go:138-151: make with the uint8 sum Length+6, five
    stores, the copy of Data, and the length test. *)
Definition send_buf (frame : raw_message) : outcome bytes :=
  let buf := repeat 0 (Z.to_nat (u8 (rm_length frame + 6))) in
  set_idx buf 0 (rm_priority frame) (fun buf =>
  set_idx buf 1 (u8 (rm_pgn frame)) (fun buf =>
  set_idx buf 2 (u8 (Z.shiftr (rm_pgn frame) 8)) (fun buf =>
  set_idx buf 3 (u8 (Z.shiftr (rm_pgn frame) 16)) (fun buf =>
  set_idx buf 4 (rm_dest frame) (fun buf =>
  set_idx buf 5 (rm_length frame) (fun buf =>
  let n := Z.min (zlen (rm_data frame)) (zlen buf - 6) in
  let buf := copy_at buf 6 (rm_data frame) in
  if n <? rm_length frame then Err "not enough space for data" else Ret buf)))))).

(** Send, actisense.go:137-154. *)
Definition act_Send (p : act_port) (frame : raw_message) : act_port * outcome Z :=
  match send_buf frame with
  | Ret buf => act_write p N2kMsgSend buf
  | Err e => (p, Err e)
  | Panic e => (p, Panic e)
  end.

(* ---------------------------------------------------------------- commands.go *)
(** Command ids, commands.go:34-38. *)
Definition ACmdReInitMainApp : Z := 0 + 0.
Definition ACmdCommitToEEPROM : Z := 1 + 0.
Definition ACmdCommitToFlash : Z := 2 + 0.
(** commands.go:39-47 (iota + 0x10). *)
Definition ACmdHardwareInfo : Z := 0 + 16.
Definition ACmdOperatingMode : Z := 1 + 16.
Definition ACmdPortBaudCfg : Z := 2 + 16.
Definition ACmdPortPCodeCfg : Z := 3 + 16.
Definition ACmdPortDupDelete : Z := 4 + 16.
Definition ACmdTotalTime : Z := 5 + 16.
Definition ACmdHardwareBaud : Z := 6 + 16.
(** commands.go:48-65 (iota + 0x40). *)
Definition ACmdSupportedPGNList : Z := 0 + 64.
Definition ACmdProductInfoN2K : Z := 1 + 64.
Definition ACmdCANConfig : Z := 2 + 64.
Definition ACmdCANInfoField1 : Z := 3 + 64.
Definition ACmdCANInfoField2 : Z := 4 + 64.
Definition ACmdCANInfoField3 : Z := 5 + 64.
Definition ACmdRxPGNEnable : Z := 6 + 64.
Definition ACmdTxPGNEnable : Z := 7 + 64.
Definition ACmdRxPGNEnableList : Z := 8 + 64.
Definition ACmdTxPGNEnableList : Z := 9 + 64.
Definition ACmdDeletePGNEnableList : Z := 10 + 64.
Definition ACmdActivatePGNEnableLists : Z := 11 + 64.
Definition ACmdDefaultPGNEnableList : Z := 12 + 64.
Definition ACmdParamsPGNEnableLists : Z := 13 + 64.
(** OpModeRxAll, commands.go:76-79; RxPGNList, TxPGNList, commands.go:89-92. *)
Definition OpModeRxAll : Z := 1 + 1.
Definition RxPGNList : Z := 0.
Definition TxPGNList : Z := 1.

(** intToBytes, commands.go:268-270. *)
Definition intToBytes (i : Z) : bytes :=
  [u8 i; u8 (Z.shiftr i 8); u8 (Z.shiftr i 16); u8 (Z.shiftr i 24)].

(** The command methods, commands.go:94-266, in source order. *)
Definition Reboot p := act_write p 1 [17].                                       (* 94-96 *)
Definition ReInitMainApp p := act_write p ACmdSend [ACmdReInitMainApp].          (* 98-100 *)
Definition CommitToEEPROM p := act_write p ACmdSend [ACmdCommitToEEPROM].        (* 102-104 *)
Definition CommitToFlash p := act_write p ACmdSend [ACmdCommitToFlash].          (* 106-108 *)
Definition GetHardwareInfo p := act_write p ACmdSend [ACmdHardwareInfo].         (* 110-112 *)
Definition GetOperatingMode p := act_write p ACmdSend [ACmdOperatingMode].       (* 114-116 *)
Definition SetOperatingMode p (mode : Z) :=                                      (* 118-120 *)
  act_write p ACmdSend [ACmdOperatingMode; u8 mode; u8 (Z.shiftr mode 8)].
Definition GetPortBaudCodes p := act_write p ACmdSend [ACmdPortBaudCfg].         (* 122-124 *)
Definition SetPortBaudCodes p := act_write p ACmdSend [ACmdPortBaudCfg].         (* 126-128 *)
Definition GetPortPCodes p := act_write p ACmdSend [ACmdPortPCodeCfg].           (* 130-132 *)
Definition SetPortPCodes p (pcodes : list Z) :=                                  (* 134-140 *)
  act_write p ACmdSend (fold_left (fun d c => d ++ [c]) pcodes [ACmdPortPCodeCfg]).
Definition GetPortDupDelete p := act_write p ACmdSend [ACmdPortDupDelete].       (* 142-144 *)
Definition SetPortDupDelete p := act_write p ACmdSend [ACmdPortDupDelete].       (* 146-148 *)
Definition GetTotalTime p := act_write p ACmdSend [ACmdTotalTime].               (* 150-152 *)
Definition SetTotalTime p := act_write p ACmdSend [ACmdTotalTime].               (* 154-156 *)
Definition GetHardwareBaudCodes p := act_write p ACmdSend [ACmdHardwareBaud].    (* 158-160 *)
Definition SetHardwareBaudCodes p := act_write p ACmdSend [ACmdHardwareBaud].    (* 162-164 *)
Definition GetSupportedPGNList p := act_write p ACmdSend [ACmdSupportedPGNList]. (* 166-168 *)
Definition GetProductInfoN2K p := act_write p ACmdSend [ACmdProductInfoN2K].     (* 170-172 *)
Definition GetCANConfig p := act_write p ACmdSend [ACmdCANConfig].               (* 174-176 *)
Definition SetCANConfig p := act_write p ACmdSend [ACmdCANConfig].               (* 178-180 *)
Definition GetCANInfoField1 p := act_write p ACmdSend [ACmdCANInfoField1].       (* 182-184 *)
Definition SetCANInfoField1 p (info : bytes) :=                                  (* 186-190 *)
  act_write p ACmdSend ([ACmdCANInfoField1; u8 (zlen info + 2); 1] ++ info).
Definition GetCANInfoField2 p := act_write p ACmdSend [ACmdCANInfoField2].       (* 192-194 *)
Definition SetCANInfoField2 p (info : bytes) :=                                  (* 196-200 *)
  act_write p ACmdSend ([ACmdCANInfoField2; u8 (zlen info + 2); 1] ++ info).
Definition GetCANInfoField3 p := act_write p ACmdSend [ACmdCANInfoField3].       (* 202-204 *)
Definition GetRxPGN p (pgn : Z) :=                                               (* 206-210 *)
  act_write p ACmdSend ([ACmdRxPGNEnable] ++ intToBytes pgn).
Definition SetRxPGN p (pgn enable : Z) :=                                        (* 212-217 *)
  act_write p ACmdSend ([ACmdRxPGNEnable] ++ intToBytes pgn ++ [u8 enable]).
Definition SetRxPGNEx (p : act_port) (pgn enable mask : Z) : act_port * outcome Z :=  (* 219-221 *)
  (p, Ret (-1)).
Definition GetTxPGN p (pgn : Z) :=                                               (* 223-227 *)
  act_write p ACmdSend ([ACmdTxPGNEnable] ++ intToBytes pgn).
Definition SetTxPGN p (pgn enable : Z) :=                                        (* 229-234 *)
  act_write p ACmdSend ([ACmdTxPGNEnable] ++ intToBytes pgn ++ [u8 enable]).
Definition SetTxPGNEx (p : act_port) (pgn enable mask : Z) : act_port * outcome Z :=  (* 236-238 *)
  (p, Ret (-1)).
Definition GetRxPGNList p := act_write p ACmdSend [ACmdRxPGNEnableList].         (* 240-242 *)
Definition GetTxPGNList p := act_write p ACmdSend [ACmdTxPGNEnableList].         (* 244-246 *)
Definition ClearRxPGNList p := act_write p ACmdSend [ACmdDeletePGNEnableList; RxPGNList].  (* 248-250 *)
Definition ClearTxPGNList p := act_write p ACmdSend [ACmdDeletePGNEnableList; TxPGNList].  (* 252-254 *)
Definition ActivatePGNEnableLists p := act_write p ACmdSend [ACmdActivatePGNEnableLists].  (* 256-258 *)
Definition SetDefaultPGNEnableList p (id : byte) :=                              (* 260-262 *)
  act_write p ACmdSend [ACmdDefaultPGNEnableList; id].
Definition GetParamsPGNEnableLists p := act_write p ACmdSend [ACmdParamsPGNEnableLists].   (* 264-266 *)

(** OpenChannel, actisense.go:51-68. *)
Definition act_OpenChannel (w : wport) : wport * outcome act_port :=
  let p := mkap w true in
  match SetOperatingMode p OpModeRxAll with
  | (p, Ret _) =>
      match SetPortPCodes p [0; 0; 0] with
      | (p, Ret _) => (ap_port p, Ret p)
      | (p, Err e) => (ap_port p, Err e)
      | (p, Panic e) => (ap_port p, Panic e)
      end
  | (p, Err e) => (ap_port p, Err e)
  | (p, Panic e) => (ap_port p, Panic e)
  end.
