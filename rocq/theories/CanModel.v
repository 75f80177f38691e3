(** CanModel: /repo/can/can.go. *)
From Verif Require Import GoBase.

(** can.RawMessage, /repo/can/can.go:29-46.  The Timestamp field (always time.Now() at
    receipt) is left out: no property speaks of it. *)
Record raw_message := mkraw {
  rm_priority : Z; rm_pgn : Z; rm_source : Z; rm_dest : Z; rm_length : Z; rm_data : bytes }.
