(** HubSpec: what an observer of the websocket hub sees, read off the list of actions alone. *)
From Verif Require Import GoBase HubModel.
Open Scope list_scope.

Section Spec.
Context {M : Type}.
Notation label := (label M).

(** The messages handed to the hub, in order. *)
Definition broadcasts (tr : list label) : list M :=
  flat_map (fun l => match l with LBroadcast m => [m] | _ => [] end) tr.

(** The messages broadcast after client c was registered. *)
Fixpoint since (c : nat) (tr : list label) : list M :=
  match tr with
  | [] => []
  | LRegister c' :: r => if Nat.eqb c' c then broadcasts r else since c r
  | _ :: r => since c r
  end.

(** The messages the pump of client c tried to write, and those written without error: what
    the client receives. *)
Definition attempts (c : nat) (tr : list label) : list M :=
  flat_map (fun l => match l with LWrite c' (FText m) _ => if Nat.eqb c' c then [m] else [] | _ => [] end) tr.
Definition received (c : nat) (tr : list label) : list M :=
  flat_map (fun l => match l with LWrite c' (FText m) true => if Nat.eqb c' c then [m] else [] | _ => [] end) tr.

(** How often the pump of client c has taken something from its channel. *)
Definition takes (c : nat) (tr : list label) : nat :=
  List.length (filter (fun l => match l with LTake c' => Nat.eqb c' c | _ => false end) tr).

(** No write to client c has failed. *)
Definition no_write_error (c : nat) (tr : list label) : Prop :=
  forall f, ~ In (LWrite c f false) tr.

(** Nobody asked to unregister a client (nothing in the repository does). *)
Definition no_unregister (tr : list label) : Prop := forall c, ~ In (LUnregister c) tr.

(** At the end of [tr] the hub drops client c: it offers the message just broadcast while 256
    earlier ones are still waiting to be taken. *)
Definition drops (c : nat) (tr1 : list label) : Prop :=
  List.length (since c tr1) = (takes c tr1 + 257)%nat.
Definition dropped (c : nat) (tr : list label) : Prop :=
  exists tr1 m tr2, tr = tr1 ++ LOffer c m :: tr2 /\ drops c tr1.

(** Actions that concern client c only. *)
Definition about (c : nat) (l : label) : bool :=
  match l with
  | LOpen d | LRegister d | LUnregister d | LOffer d _ | LTake d | LTick d | LWrite d _ _ => Nat.eqb d c
  | LBroadcast _ | LEndRange => false
  end.
(** Actions of the hub goroutine's own loop over the connections. *)
Definition is_offer (l : label) : bool := match l with LOffer _ _ => true | _ => false end.
Definition ends_range (l : label) : bool := match l with LEndRange => true | _ => false end.

(** What is on its way to client c: the message being written, then the channel's content. *)
Definition in_flight (w : world M) (c : nat) : list M :=
  match w_pump w c with Some (PWrite (FText m)) => [m] | _ => [] end.
Definition pending (w : world M) (c : nat) : list M := in_flight w c ++ ch_q (w_chan w c).
End Spec.
