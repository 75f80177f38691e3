(** MainModel: /repo/main/argo.go: the registration of fast packets at start-up and the
    goroutine that consumes the decoded messages. *)
From Verif Require Import GoBase Strconv CanModel CanusbModel NmeaTypes NmeaModel SignalkModel.
Open Scope list_scope.

(* ------------------------------------------------------------------ start-up *)

(** The canusb branch registers the fast packets, argo.go:260-265. *)
Definition register_fast (t : list pgn_def) (st : can_state) : can_state :=
  fold_left (fun st p => if 8 <? p_size p then AddFastPacket st (p_pgn p) else st) t st.

(* ------------------------------------------------------------------ options *)

(** The options the consumer reads, flags.go:28-37 (Stats, Pgn, Src, Dst), and the two
    configuration switches it reads on every message, argo.go:181,200,204. *)
Record options := mkopts {
  o_stats : bool; o_pgn : Z; o_src : Z; o_dst : Z; o_ws : bool; o_mqtt : bool }.

(** argo.go:163-166. *)
Definition shown (o : options) (h : raw_message) : bool :=
  ((o_pgn o =? 0) || (rm_pgn h =? o_pgn o)) &&
  ((o_src o =? 255) || (rm_source h =? o_src o)) &&
  ((o_dst o =? 255) || (rm_dest h =? o_dst o)) &&
  negb (o_stats o).

(* ------------------------------------------------------------------ statistics *)

(** statLog : map[string]uint64, argo.go:114. *)
Definition stat_log := list (bytes * Z).
Fixpoint st_find (l : stat_log) (k : bytes) : option Z :=
  match l with
  | [] => None
  | (x, n) :: r => if bytes_eqb x k then Some n else st_find r k
  end.
(** statLog[k] read, absent keys give 0 (line 192). *)
Definition st_get (l : stat_log) (k : bytes) : Z :=
  match st_find l k with Some n => n | None => 0 end.
Fixpoint st_set (l : stat_log) (k : bytes) (v : Z) : stat_log :=
  match l with
  | [] => [(k, v)]
  | (x, n) :: r => if bytes_eqb x k then (x, v) :: r else (x, n) :: st_set r k v
  end.

(** sort.Sort on a StringSlice, argo.go:47-51,178: order by the Go string comparison.  Which
    algorithm package sort uses does not matter: the list holds no string twice, so all correct
    sorts agree. *)
Fixpoint insert (k : bytes) (l : list bytes) : list bytes :=
  match l with
  | [] => [k]
  | x :: r => if bytes_ltb k x then k :: l else x :: insert k r
  end.
Definition sort_strings (l : list bytes) : list bytes := fold_right insert [] l.

(** The consumer's variables statLog and statPgns, argo.go:114-115. *)
Record consumer := mkcons { c_log : stat_log; c_pgns : list bytes }.
Definition consumer_init : consumer := mkcons [] [].

(** argo.go:171-179 (uint64 increment). *)
Definition count (c : consumer) (h : raw_message) : consumer :=
  let pgn := itoa (rm_pgn h) in
  match st_find (c_log c) pgn with
  | Some n => mkcons (st_set (c_log c) pgn (u64 (n + 1))) (c_pgns c)
  | None => mkcons (st_set (c_log c) pgn 1) (sort_strings (c_pgns c ++ [pgn]))
  end.

(** json.Marshal of statLog, argo.go:182: an object, keys in sorted order.  The keys are
    decimal numbers, so nothing needs escaping, and there is no error. *)
Definition json_member (kv : bytes * Z) : bytes := [34] ++ fst kv ++ [34; 58] ++ itoa (snd kv).
Fixpoint json_join (l : list bytes) : bytes :=
  match l with
  | [] => []
  | [x] => x
  | x :: r => x ++ [44] ++ json_join r
  end.
Definition stats_json (l : stat_log) : bytes :=
  [123] ++ json_join (map (fun k => json_member (k, st_get l k)) (sort_strings (map fst l))) ++ [125].

(* ------------------------------------------------------------------ one message *)

(** What the consumer does to the outside world, in program order. *)
Inductive effect :=
| EShow (m : parsed)                 (* log.Debug / log.Info, lines 167-168 *)
| EStats (b : bytes)                 (* statistics_hub.broadcast <- b, line 183 *)
| EClear                             (* terminal.Stdout.Clear(), line 190 *)
| ELine (k : bytes) (n : Z)          (* fmt.Println(k, "=>", statLog[k]), line 192 *)
| EDelta (b : bytes)                 (* websocket_hub.broadcast <- bytes, line 201 *)
| EMqtt (b : bytes).                 (* mqttClient.Publish, line 205 *)

(** What the surroundings decide while a message is handled: the order in which Delta's range
    statement happens to visit res.Data, and the clock (nanoseconds since the Unix epoch) Delta
    reads with time.Now, signalk.go:130. *)
Record visit := mkvisit { vi_order : dmap; vi_now : Z }.

(** The loop body, argo.go:161-208, for the message [res]: the new variables and the effects.
    [marshal] stands for json.Marshal of a delta with the given time stamp (None = error).  Panic: Print or Delta panics; the
    effects before it are dropped (the process dies). *)
Definition handle (o : options) (tz : Z) (fmtv : gval -> bytes) (t : list pgn_def) (m : mappings)
    (marshal : Z -> delta -> option bytes) (verbose : bool)
    (c : consumer) (res : parsed) (order : visit) : outcome (consumer * list effect) :=
  let show := shown o (pm_header res) in
  match (if show then print_fields t res verbose else Ret []) with
  | Panic p => Panic p
  | Err e => Err e
  | Ret _ =>
      let c' := count c (pm_header res) in
      let e1 := if show then [EShow res] else [] in
      let e2 := if o_ws o then [EStats (stats_json (c_log c'))] else [] in
      let e3 := if o_stats o
                then EClear :: map (fun k => ELine k (st_get (c_log c') k)) (c_pgns c') else [] in
      match sk_delta (mkenv tz fmtv t res) m (vi_order order) with
      | Panic p => Panic p
      | Err _ => Ret (c', e1 ++ e2 ++ e3)
      | Ret d =>
          match marshal (vi_now order) d with
          | None => Ret (c', e1 ++ e2 ++ e3)
          | Some b => Ret (c', e1 ++ e2 ++ e3 ++ (if o_ws o then [EDelta b] else []) ++
                                (if o_mqtt o then [EMqtt b] else []))
          end
      end
  end.
