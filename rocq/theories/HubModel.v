(** HubModel: /repo/main/websocket_server.go: the hub, its connections and their write pumps
    as a transition system.  One label is one atomic action of one goroutine; an execution is
    any sequence of enabled actions, so every schedule is covered.

    Left out: HTTP and the websocket handshake (lines 130-145, 156-169), deadlines, the bytes
    of the websocket protocol.  A connection is a number chosen fresh by its handler (lines 148,
    171 allocate a new one for every request). *)
From Coq Require Import Permutation.
From Verif Require Import GoBase.
Open Scope list_scope.

(** Capacity of the send channel, websocket_server.go:148,171. *)
Definition send_cap : nat := 256.

Section Hub.
Variable M : Type.          (* the payload, []byte in the source *)

(** The send channel of a connection, websocket_server.go:31-35 (field send). *)
Record chan := mkch { ch_q : list M; ch_closed : bool }.

(** Where the handler and write pump of one connection stand: waiting to register (line 149 or
    172), waiting in the select of lines 92-106, about to write something (lines 95, 98, 102),
    returned (lines 96, 99, 103). *)
Inductive frame := FText (m : M) | FPing | FClose.
Inductive pump := PReg | PWait | PWrite (f : frame) | PDone.

(** Where hub.run stands: at the select of line 111, or inside the loop of lines 118-125 with
    the connections still to be visited. *)
Inductive hub_pc := HIdle | HBcast (m : M) (todo : list nat).

(** The whole system: the hub's position, its connections map (its keys, lines 37-39), and
    channel and pump of each connection allocated so far. *)
Record world := mkw {
  w_hub : hub_pc;
  w_conns : list nat;
  w_chan : nat -> chan;
  w_pump : nat -> option pump }.

(** websocket_server.go:65-77. *)
Definition hub_init : world := mkw HIdle [] (fun _ => mkch [] false) (fun _ => None).

Inductive label :=
| LOpen (c : nat)                    (* a handler makes connection c, lines 148, 171 *)
| LRegister (c : nat)                (* lines 149/172 meet line 112 *)
| LUnregister (c : nat)              (* a send on h.unregister meets line 114 *)
| LBroadcast (m : M)                 (* a send on h.broadcast meets line 117 *)
| LOffer (c : nat) (m : M)           (* lines 119-124 for connection c *)
| LEndRange                          (* the loop of line 118 ends *)
| LTake (c : nat)                    (* the pump's receive, line 93 *)
| LTick (c : nat)                    (* the pump's ticker, line 101 *)
| LWrite (c : nat) (f : frame) (ok : bool).  (* the pump's c.write, lines 95, 98, 102 *)

Definition upd {A} (g : nat -> A) (c : nat) (v : A) : nat -> A :=
  fun x => if Nat.eqb x c then v else g x.
Definition remove_conn (c : nat) (l : list nat) : list nat := filter (fun x => negb (Nat.eqb x c)) l.

(** Outcome of an action: the new state, or a run-time panic. *)
Inductive result := Ok (w : world) | Crash.

Inductive hstep : world -> label -> result -> Prop :=
| st_open w c :                                              (* lines 148, 171 *)
    w_pump w c = None ->
    hstep w (LOpen c)
      (Ok (mkw (w_hub w) (w_conns w) (upd (w_chan w) c (mkch [] false)) (upd (w_pump w) c (Some PReg))))
| st_register w c :                                          (* lines 112-113, then 150/173 *)
    w_hub w = HIdle -> w_pump w c = Some PReg ->
    hstep w (LRegister c)
      (Ok (mkw HIdle (if in_dec Nat.eq_dec c (w_conns w) then w_conns w else c :: w_conns w)
               (w_chan w) (upd (w_pump w) c (Some PWait))))
| st_unregister w c :                                        (* lines 114-116 *)
    w_hub w = HIdle -> w_pump w c <> None ->
    hstep w (LUnregister c)
      (if ch_closed (w_chan w c) then Crash                  (* close of closed channel *)
       else Ok (mkw HIdle (remove_conn c (w_conns w))
                    (upd (w_chan w) c (mkch (ch_q (w_chan w c)) true)) (w_pump w)))
| st_broadcast w m todo :                                    (* lines 117-118; map order *)
    w_hub w = HIdle -> Permutation todo (w_conns w) ->
    hstep w (LBroadcast m) (Ok (mkw (HBcast m todo) (w_conns w) (w_chan w) (w_pump w)))
| st_offer w m c todo :                                      (* lines 119-124 *)
    w_hub w = HBcast m (c :: todo) ->
    hstep w (LOffer c m)
      (let ch := w_chan w c in
       if ch_closed ch then Crash                            (* send on closed channel *)
       else if Nat.ltb (List.length (ch_q ch)) send_cap
       then Ok (mkw (HBcast m todo) (w_conns w)
                    (upd (w_chan w) c (mkch (ch_q ch ++ [m]) false)) (w_pump w))
       else Ok (mkw (HBcast m todo) (remove_conn c (w_conns w))
                    (upd (w_chan w) c (mkch (ch_q ch) true)) (w_pump w)))
| st_end w m :                                               (* line 125, back to 111 *)
    w_hub w = HBcast m [] ->
    hstep w LEndRange (Ok (mkw HIdle (w_conns w) (w_chan w) (w_pump w)))
| st_take_msg w c m q b :                                    (* lines 93, 98 *)
    w_pump w c = Some PWait -> w_chan w c = mkch (m :: q) b ->
    hstep w (LTake c)
      (Ok (mkw (w_hub w) (w_conns w) (upd (w_chan w) c (mkch q b))
               (upd (w_pump w) c (Some (PWrite (FText m))))))
| st_take_closed w c :                                       (* lines 93-95 *)
    w_pump w c = Some PWait -> w_chan w c = mkch [] true ->
    hstep w (LTake c)
      (Ok (mkw (w_hub w) (w_conns w) (w_chan w) (upd (w_pump w) c (Some (PWrite FClose)))))
| st_tick w c :                                              (* lines 101-102 *)
    w_pump w c = Some PWait ->
    hstep w (LTick c)
      (Ok (mkw (w_hub w) (w_conns w) (w_chan w) (upd (w_pump w) c (Some (PWrite FPing)))))
| st_write w c f ok :                                        (* lines 94-104 *)
    w_pump w c = Some (PWrite f) ->
    hstep w (LWrite c f ok)
      (Ok (mkw (w_hub w) (w_conns w) (w_chan w)
               (upd (w_pump w) c (Some (match f, ok with
                                        | FClose, _ => PDone
                                        | _, true => PWait
                                        | _, false => PDone
                                        end))))).

(** Executions from the initial state, newest action last. *)
Inductive hrun : list label -> result -> Prop :=
| hr_nil : hrun [] (Ok hub_init)
| hr_snoc tr w l r : hrun tr (Ok w) -> hstep w l r -> hrun (tr ++ [l]) r.
End Hub.

Arguments mkch {M} _ _. Arguments ch_q {M} _. Arguments ch_closed {M} _.
Arguments FText {M} _. Arguments FPing {M}. Arguments FClose {M}.
Arguments PReg {M}. Arguments PWait {M}. Arguments PWrite {M} _. Arguments PDone {M}.
Arguments HIdle {M}. Arguments HBcast {M} _ _.
Arguments mkw {M} _ _ _ _. Arguments w_hub {M} _. Arguments w_conns {M} _.
Arguments w_chan {M} _ _. Arguments w_pump {M} _ _.
Arguments hub_init {M}.
Arguments LOpen {M} _. Arguments LRegister {M} _. Arguments LUnregister {M} _.
Arguments LBroadcast {M} _. Arguments LOffer {M} _ _. Arguments LEndRange {M}.
Arguments LTake {M} _. Arguments LTick {M} _. Arguments LWrite {M} _ _ _.
Arguments Ok {M} _. Arguments Crash {M}.
Arguments hstep {M} _ _ _. Arguments hrun {M} _ _.
