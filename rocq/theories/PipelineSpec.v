(** PipelineSpec: what an observer of the running program sees (C62), and what each interface
    would deliver if it were the only one. *)
From Verif Require Import GoBase CanModel CanusbModel ActisenseModel NmeaTypes NmeaModel
  SignalkModel MainModel HubModel PipelineModel.
Open Scope list_scope.

(* ------------------------------------------------------------------ an interface alone *)

(** The messages successive calls of CanPort.Read return on the input [evs] (read errors are
    passed over), with the address claims made in between; [n] bounds the number of calls. *)
Fixpoint can_messages (n : nat) (p : can_port) (st : can_state) (evs : list rd_event) : list raw_message :=
  match n with
  | O => []
  | S n' =>
      match Read p st evs with
      | RdMsg m rest st' =>
          match iface_on_message st' p m with
          | (st'', p', Ret _) => m :: can_messages n' p' st'' rest
          | _ => []
          end
      | RdErr rest st' => can_messages n' p st' rest
      | _ => []
      end
  end.
Fixpoint act_messages (n : nat) (evs : list rd_event) : list raw_message :=
  match n with
  | O => []
  | S n' =>
      match act_read evs with
      | ARMsg m rest => m :: act_messages n' rest
      | ARErr rest => act_messages n' rest
      | _ => []
      end
  end.

(** What one interface delivers: messages of the bus or lines of a file. *)
Inductive item := IRaw (m : raw_message) | ILine (l : bytes).

Section Items.
Variables (tbl : list pgn_def) (pl : platform) (unmarshal : bytes -> option canboat).

Definition usable (l : bytes) : bool :=
  match FromCanBoat unmarshal tbl l with Err _ => false | _ => true end.

(** Everything interface [i] delivers on its input, by itself, from start-up on. *)
Definition items (i : iface) : list item :=
  match if_dev i with
  | DMissing | DChar false _ _ => []
  | DChar true w input =>
      if bytes_eqb (if_type i) (str "canusb") then
        match OpenChannel (register_fast tbl can_init) w 221 with
        | (st, _, Ret p) => map IRaw (can_messages (S (List.length input)) p st input)
        | _ => []
        end
      else if bytes_eqb (if_type i) (str "actisense") then
        match act_OpenChannel w with
        | (_, Ret _) => map IRaw (act_messages (S (List.length input)) input)
        | _ => []
        end
      else if bytes_eqb (if_type i) (str "file") then
        map ILine (filter usable (file_lines (if_text i)))
      else []
  | DOther =>
      if bytes_eqb (if_type i) (str "file") then
        map ILine (filter usable (file_lines (if_text i)))
      else []
  end.

(** [x] is the decoded form of an item: ParsePacket's (for some content of the unused capacity
    of the data's buffer) or FromCanBoat's. *)
Definition decodes (a : item) (x : parsed) : Prop :=
  match a with
  | IRaw m => exists fuel spare, parse_packet fuel pl tbl m spare = Some (Ret x)
  | ILine l => FromCanBoat unmarshal tbl l = Ret x
  end.
End Items.

(** At most one of the interfaces is a CANUSB adapter. *)
Definition is_canusb (i : iface) : bool := bytes_eqb (if_type i) (str "canusb").
Definition one_canusb (ifs : list iface) : Prop :=
  (List.length (filter is_canusb ifs) <= 1)%nat.

(* ------------------------------------------------------------------ an execution *)

(** The messages handed to the consumer, with the interface they came from, in order. *)
Definition handled (tr : list ylabel) : list (nat * parsed * visit) :=
  flat_map (fun l => match l with YHand i m od => [(i, m, od)] | _ => [] end) tr.
Definition handled_from (i : nat) (tr : list ylabel) : list parsed :=
  flat_map (fun l => match l with YHand j m _ => if Nat.eqb j i then [m] else [] | _ => [] end) tr.

(** A decoded message interface i has not yet handed over. *)
Definition waiting (s : sys) (i : nat) : list parsed :=
  match nth_error (y_threads s) i with
  | Some t => match th_out t with Some x => [x] | None => [] end
  | None => []
  end.
(** Interface i is running and has read all its input. *)
Definition exhausted (s : sys) (i : nat) : Prop :=
  match nth_error (y_threads s) i with
  | Some (mkth (SCan _ _ []) _) | Some (mkth (SAct _ []) _) | Some (mkth (SFile []) _) => True
  | _ => False
  end.

(** The actions of one hub, broadcasts included. *)
Definition stream_actions (tr : list ylabel) : list (label bytes) :=
  flat_map (fun l => match l with YStream h => [h] | YEffect (EDelta b) => [LBroadcast b] | _ => [] end) tr.
Definition stats_actions (tr : list ylabel) : list (label bytes) :=
  flat_map (fun l => match l with YStats h => [h] | YEffect (EStats b) => [LBroadcast b] | _ => [] end) tr.
Definition effects (tr : list ylabel) : list effect :=
  flat_map (fun l => match l with YEffect e => [e] | _ => [] end) tr.

(** The JSON text of a message's delta, if it has one. *)
Definition delta_text (tbl : list pgn_def) (maps : mappings) (pl : platform) (fmtv : gval -> bytes)
    (marshal : Z -> delta -> option bytes) (h : nat * parsed * visit) : list bytes :=
  match sk_delta (mkenv (pl_tz pl) fmtv tbl (snd (fst h))) maps (vi_order (snd h)) with
  | Ret d => match marshal (vi_now (snd h)) d with Some b => [b] | None => [] end
  | _ => []
  end.

(* ------------------------------------------------------------------ progress (C75) *)

(** Actions of the consumer and of the hubs' own goroutines: nothing that waits for a client, a
    network connection or a device. *)
Definition internal (l : ylabel) : bool :=
  match l with
  | YEffect _ => true
  | YStream (LOffer _ _) | YStream LEndRange | YStats (LOffer _ _) | YStats LEndRange => true
  | _ => false
  end.

(** What a hub and the consumer still have to do before the next message is taken. *)
Definition hub_work (w : world bytes) : nat :=
  match w_hub w with HIdle => 0 | HBcast _ todo => S (List.length todo) end.
Definition work_left (s : sys) : nat :=
  hub_work (y_stream s) + hub_work (y_stats s) +
  List.length (y_todo s) * (2 + List.length (w_conns (y_stream s)) + List.length (w_conns (y_stats s))).

(* ------------------------------------------------------------------ start-up (C72) *)

(** The k-th write on a port (counted from now) succeeds. *)
Definition writes_ok (w : wport) (k : nat) : Prop := w_ans w (List.length (w_log w) + k) = None.

(** Interface [i] can be started. *)
Definition startable (i : iface) : Prop :=
  match if_dev i with
  | DMissing => False
  | DChar false _ _ => False
  | DChar true w _ =>
      (if_type i = str "canusb" \/ if_type i = str "actisense") /\ writes_ok w 0 /\ writes_ok w 1 \/
      if_type i = str "file"
  | DOther => if_type i = str "file"
  end.

(* ------------------------------------------------------------------ lines of a file (C74) *)

(** [content] is the lines [full], each ended by a newline, followed by [last] (empty, or an
    unterminated last line). *)
Definition splits (content : bytes) (full : list bytes) (last : bytes) : Prop :=
  content = flat_map (fun l => l ++ [10]) full ++ last /\
  Forall (fun l => ~ In 10 l) full /\ ~ In 10 last.
Definition lines_of (full : list bytes) (last : bytes) : list bytes :=
  full ++ match last with [] => [] | _ => [last] end.
(** The lines before the first one of 65536 or more bytes. *)
Fixpoint before_long (ls : list bytes) : list bytes :=
  match ls with
  | [] => []
  | l :: r => if Z.of_nat (List.length l) <? 65536 then l :: before_long r else []
  end.
(** A line without its carriage return. *)
Definition stripped (l l' : bytes) : Prop :=
  l = l' ++ [13] \/ (l' = l /\ forall x, l <> x ++ [13]).
