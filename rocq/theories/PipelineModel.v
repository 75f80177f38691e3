(** PipelineModel: the running program, /repo/main/argo.go:111-320: one goroutine per
    configured interface (processInterface), the consumer goroutine and the two websocket hubs,
    joined by unbuffered channels.  One label is one atomic action; an execution is any sequence
    of enabled actions, so every schedule is covered.

    Simplifications: the canusb package variables are shared by all canusb goroutines without a
    lock; a step of one of them handles one byte of its port (whole frames are not interrupted).
    The HTTP handlers other than the two websocket ones touch none of this state and are left
    out (they are in ApiModel and UiModel).  Sleeps (lines 287, 312) only restrict schedules. *)
From Coq Require Import Permutation.
From Verif Require Import GoBase Strconv CanModel CanusbModel ActisenseModel NmeaTypes NmeaModel
  SignalkModel MainModel HubModel.
Open Scope list_scope.

(* ------------------------------------------------------------------ reading, byte by byte *)

(** What one byte (or one empty read) does inside CanPort.Read, /repo/canusb/canport.go:137-163
    (the loop body of [read_loop] in CanusbModel). *)
Record can_rd := mkcr { cr_rx : byte; cr_msg : slice; cr_sof : bool }.
Definition can_rd0 : can_rd := mkcr 0 (mkslice [0] 1) false.          (* canport.go:132-134 *)
Inductive can_step_result :=
| CMore (r : can_rd) (st : can_state)
| CMsg (m : raw_message) (st : can_state)
| CErr
| CPanic.
Definition can_byte (st : can_state) (r : can_rd) (ev : rd_event) : can_step_result :=
  match ev with
  | RErr => CErr
  | _ =>
      let b := match ev with RByte x => x | _ => cr_rx r end in
      if is_sof b then CMore (mkcr b (s_append nil_slice b) true) st
      else if (b =? 13) && cr_sof r then
        match frameReceived st (cr_msg r) with
        | (st', Ret f) => CMsg (cf_raw f) st'
        | (st', Err _) => CMore (mkcr b (cr_msg r) (cr_sof r)) st'
        | (_, Panic _) => CPanic
        end
      else if cr_sof r then CMore (mkcr b (s_append (cr_msg r) b) (cr_sof r)) st
      else CMore (mkcr b (cr_msg r) (cr_sof r)) st
  end.

(** The same for ActisensePort.Read, /repo/actisense/actisense.go:98-134. *)
Record act_rd := mkar { ar_rx : byte; ar_st : msg_state; ar_buf : slice }.
Definition act_rd0 : act_rd := mkar 0 MsgStart nil_slice.             (* actisense.go:93-95 *)
Inductive act_step_result :=
| AMore (r : act_rd)
| AMsg (m : raw_message)
| AErr
| APanic.
Definition act_byte (r : act_rd) (ev : rd_event) : act_step_result :=
  match ev with
  | RErr => AErr
  | _ =>
      let b := match ev with RByte x => x | _ => ar_rx r end in
      match deframe (ar_st r) (ar_buf r) b with
      | (st', buf', None) => AMore (mkar b st' buf')
      | (st', buf', Some m) =>
          match messageReceived m with
          | Ret x => AMsg x
          | Err _ => AMore (mkar b st' buf')
          | Panic _ => APanic
          end
      end
  end.

(** bufio.Scanner with ScanLines, argo.go:302-305: the lines of the file without their
    terminators; a line that does not end within the scanner's 65536 byte buffer ends the
    scan (Scan returns false, line 304), nobody asks for the error. *)
Definition scan_max : Z := 65536.
Fixpoint first_line (s : bytes) : bytes * option bytes :=
  match s with
  | [] => ([], None)
  | c :: r => if c =? 10 then ([], Some r)
              else let '(l, rest) := first_line r in (c :: l, rest)
  end.
Definition drop_cr (l : bytes) : bytes :=
  match rev l with 13 :: r => rev r | _ => l end.
Fixpoint scan_lines (n : nat) (s : bytes) : list bytes :=
  match n, s with
  | O, _ | _, [] => []
  | S n', _ =>
      match first_line s with
      | (l, rest) =>
          if scan_max <=? zlen l then []
          else match rest with
               | Some r => drop_cr l :: scan_lines n' r
               | None => [drop_cr l]
               end
      end
  end.
Definition file_lines (content : bytes) : list bytes := scan_lines (S (List.length content)) content.

(* ------------------------------------------------------------------ interfaces *)

(** What stat and open find behind iface.Path, argo.go:229-252: nothing, a character device
    (which can be opened as a serial port or not) or anything else. *)
Inductive device :=
| DMissing
| DChar (opens : bool) (out : wport) (input : list rd_event)
| DOther.
(** One entry of sysconf.Interfaces and what the world has behind it; [if_text] is the content
    a file reader finds there ([] if it cannot be opened or read, argo.go:301). *)
Record iface := mkif { if_type : bytes; if_dev : device; if_text : bytes }.

(** Where a goroutine stands: not started, or reading, with a decoded message it wants to hand
    over (lines 278, 294, 308) or without. *)
Inductive source :=
| SBoot (i : iface)
| SCan (p : can_port) (r : can_rd) (input : list rd_event)
| SAct (r : act_rd) (input : list rd_event)
| SFile (lines : list bytes).
Record thread := mkth { th_src : source; th_out : option parsed }.

Inductive thread_result := TOk (st : can_state) (t : thread) | TDead.

(** processInterface up to its loop, argo.go:226-271, 284-289, 299-302, 314-319. *)
Definition boot (tbl : list pgn_def) (st : can_state) (i : iface) : thread_result :=
  match if_dev i with
  | DMissing => TDead                                          (* log.Fatalf, line 231 *)
  | DChar false _ _ => TDead                                   (* log.Fatalf, line 248 *)
  | d =>
    if bytes_eqb (if_type i) (str "canusb") then
      let st := register_fast tbl st in
      match d with
      | DChar _ w input =>
          match OpenChannel st w 221 with
          | (st', _, Ret p) => TOk st' (mkth (SCan p can_rd0 input) None)
          | _ => TDead                                         (* canport is nil, line 273 *)
          end
      | _ => TDead                                             (* port is nil, canport.go:97 *)
      end
    else if bytes_eqb (if_type i) (str "actisense") then
      match d with
      | DChar _ w input =>
          match act_OpenChannel w with
          | (_, Ret p) => match GetOperatingMode p with
                          | (_, Panic _) => TDead
                          | _ => TOk st (mkth (SAct act_rd0 input) None)
                          end
          | _ => TDead                                         (* canport is nil, line 289 *)
          end
      | _ => TDead                                             (* port is nil *)
      end
    else if bytes_eqb (if_type i) (str "file") then
      TOk st (mkth (SFile (file_lines (if_text i))) None)
    else TDead                                                 (* log.Fatalf, line 315 *)
  end.

(* ------------------------------------------------------------------ the whole program *)

Record sys := mksys {
  y_can : can_state;              (* package variables of canusb *)
  y_threads : list thread;
  y_cons : consumer;              (* statLog, statPgns *)
  y_todo : list effect;           (* what the consumer still has to do for the current message *)
  y_stream : world bytes;         (* websocket_hub *)
  y_stats : world bytes }.        (* statistics_hub *)

Inductive ylabel :=
| YStep (i : nat)                              (* goroutine i advances *)
| YHand (i : nat) (m : parsed) (order : visit)  (* txch <- m meets line 161 *)
| YEffect (e : effect)                         (* the consumer's next action *)
| YStream (l : label bytes)                    (* an action inside websocket_hub *)
| YStats (l : label bytes).                    (* an action inside statistics_hub *)
Inductive yresult := YOk (s : sys) | YDead.

Section Program.
(** The PGN table, the mappings and the options the program runs with; the platform and time
    zone; fmt's %v; json.Unmarshal of a canboat line and json.Marshal of a delta; the logger's
    debug level (line 158). *)
Variables (tbl : list pgn_def) (maps : mappings) (opts : options) (pl : platform)
          (fmtv : gval -> bytes) (unmarshal : bytes -> option canboat)
          (marshal : Z -> delta -> option bytes) (verbose : bool).

(** One step of an interface goroutine that has nothing to hand over. *)
Inductive tstep : can_state -> thread -> thread_result -> Prop :=
| ts_boot st i : tstep st (mkth (SBoot i) None) (boot tbl st i)
| ts_can_more st p r ev rest r' st' :                          (* inside line 273 *)
    can_byte st r ev = CMore r' st' ->
    tstep st (mkth (SCan p r (ev :: rest)) None) (TOk st' (mkth (SCan p r' rest) None))
| ts_can_err st p r ev rest :                                  (* lines 279-281 *)
    can_byte st r ev = CErr ->
    tstep st (mkth (SCan p r (ev :: rest)) None) (TOk st (mkth (SCan p can_rd0 rest) None))
| ts_can_panic st p r ev rest :
    can_byte st r ev = CPanic -> tstep st (mkth (SCan p r (ev :: rest)) None) TDead
| ts_can_msg st p r ev rest m st' st'' p' a fuel spare x :     (* lines 274-278 *)
    can_byte st r ev = CMsg m st' -> iface_on_message st' p m = (st'', p', Ret a) ->
    parse_packet fuel pl tbl m spare = Some (Ret x) ->
    tstep st (mkth (SCan p r (ev :: rest)) None) (TOk st'' (mkth (SCan p' can_rd0 rest) (Some x)))
| ts_can_msg_dead st p r ev rest m st' :
    can_byte st r ev = CMsg m st' ->
    ((exists st'' p' w, iface_on_message st' p m = (st'', p', Panic w)) \/
     (exists fuel spare w, parse_packet fuel pl tbl m spare = Some (Panic w))) ->
    tstep st (mkth (SCan p r (ev :: rest)) None) TDead
| ts_act_more st r ev rest r' :                                (* inside line 292 *)
    act_byte r ev = AMore r' ->
    tstep st (mkth (SAct r (ev :: rest)) None) (TOk st (mkth (SAct r' rest) None))
| ts_act_err st r ev rest :                                    (* lines 295-297 *)
    act_byte r ev = AErr ->
    tstep st (mkth (SAct r (ev :: rest)) None) (TOk st (mkth (SAct act_rd0 rest) None))
| ts_act_panic st r ev rest :
    act_byte r ev = APanic -> tstep st (mkth (SAct r (ev :: rest)) None) TDead
| ts_act_msg st r ev rest m fuel spare x :                     (* lines 293-294 *)
    act_byte r ev = AMsg m -> parse_packet fuel pl tbl m spare = Some (Ret x) ->
    tstep st (mkth (SAct r (ev :: rest)) None) (TOk st (mkth (SAct act_rd0 rest) (Some x)))
| ts_act_msg_dead st r ev rest m fuel spare w :
    act_byte r ev = AMsg m -> parse_packet fuel pl tbl m spare = Some (Panic w) ->
    tstep st (mkth (SAct r (ev :: rest)) None) TDead
| ts_file_msg st l rest x :                                    (* lines 305-308 *)
    FromCanBoat unmarshal tbl l = Ret x ->
    tstep st (mkth (SFile (l :: rest)) None) (TOk st (mkth (SFile rest) (Some x)))
| ts_file_err st l rest e :                                    (* lines 309-311 *)
    FromCanBoat unmarshal tbl l = Err e ->
    tstep st (mkth (SFile (l :: rest)) None) (TOk st (mkth (SFile rest) None))
| ts_file_dead st l rest w :
    FromCanBoat unmarshal tbl l = Panic w -> tstep st (mkth (SFile (l :: rest)) None) TDead.

(** The consumer's action on the outside world: a send on a hub's channel meets the hub. *)
Definition hub_broadcast (w : world bytes) (b : bytes) (w' : world bytes) : Prop :=
  hstep w (LBroadcast b) (Ok w').

Definition set_thread (l : list thread) (i : nat) (t : thread) : list thread :=
  firstn i l ++ t :: skipn (S i) l.

Inductive ystep : sys -> ylabel -> yresult -> Prop :=
| ys_thread s i t st' t' :
    nth_error (y_threads s) i = Some t -> tstep (y_can s) t (TOk st' t') ->
    ystep s (YStep i) (YOk (mksys st' (set_thread (y_threads s) i t') (y_cons s) (y_todo s) (y_stream s) (y_stats s)))
| ys_dead s i t :
    nth_error (y_threads s) i = Some t -> tstep (y_can s) t TDead ->
    ystep s (YStep i) YDead
| ys_hand s i src m order c' es :
    nth_error (y_threads s) i = Some (mkth src (Some m)) -> y_todo s = [] ->
    Permutation (vi_order order) (pm_data m) ->                           (* the range statement's order *)
    handle opts (pl_tz pl) fmtv tbl maps marshal verbose (y_cons s) m order = Ret (c', es) ->
    ystep s (YHand i m order)
      (YOk (mksys (y_can s) (set_thread (y_threads s) i (mkth src None)) c' es (y_stream s) (y_stats s)))
| ys_hand_dead s i src m order w :
    nth_error (y_threads s) i = Some (mkth src (Some m)) -> y_todo s = [] ->
    Permutation (vi_order order) (pm_data m) ->                           (* the range statement's order *)
    handle opts (pl_tz pl) fmtv tbl maps marshal verbose (y_cons s) m order = Panic w ->
    ystep s (YHand i m order) YDead
| ys_stats s b es w :
    y_todo s = EStats b :: es -> hub_broadcast (y_stats s) b w ->
    ystep s (YEffect (EStats b)) (YOk (mksys (y_can s) (y_threads s) (y_cons s) es (y_stream s) w))
| ys_delta s b es w :
    y_todo s = EDelta b :: es -> hub_broadcast (y_stream s) b w ->
    ystep s (YEffect (EDelta b)) (YOk (mksys (y_can s) (y_threads s) (y_cons s) es w (y_stats s)))
| ys_other s e es :
    y_todo s = e :: es -> (forall b, e <> EStats b) -> (forall b, e <> EDelta b) ->
    ystep s (YEffect e) (YOk (mksys (y_can s) (y_threads s) (y_cons s) es (y_stream s) (y_stats s)))
| ys_stream_hub s l w :
    (forall b, l <> LBroadcast b) -> (forall c, l <> LUnregister c) -> hstep (y_stream s) l (Ok w) ->
    ystep s (YStream l) (YOk (mksys (y_can s) (y_threads s) (y_cons s) (y_todo s) w (y_stats s)))
| ys_stream_dead s l :
    (forall b, l <> LBroadcast b) -> (forall c, l <> LUnregister c) -> hstep (y_stream s) l Crash ->
    ystep s (YStream l) YDead
| ys_stats_hub s l w :
    (forall b, l <> LBroadcast b) -> (forall c, l <> LUnregister c) -> hstep (y_stats s) l (Ok w) ->
    ystep s (YStats l) (YOk (mksys (y_can s) (y_threads s) (y_cons s) (y_todo s) (y_stream s) w))
| ys_stats_dead s l :
    (forall b, l <> LBroadcast b) -> (forall c, l <> LUnregister c) -> hstep (y_stats s) l Crash ->
    ystep s (YStats l) YDead.

(** Start of main with the given interfaces, argo.go:111-115, 146-148, 212-215. *)
Definition sys_init (ifs : list iface) : sys :=
  mksys can_init (map (fun i => mkth (SBoot i) None) ifs) consumer_init [] hub_init hub_init.

(** Executions, newest action last. *)
Inductive yrun (ifs : list iface) : list ylabel -> yresult -> Prop :=
| yr_nil : yrun ifs [] (YOk (sys_init ifs))
| yr_snoc tr s l r : yrun ifs tr (YOk s) -> ystep s l r -> yrun ifs (tr ++ [l]) r.
End Program.
