(** YarnModel: yarn's output during an installation, /repo/main/packages.go:22-25, 27-68: the
    process, the pipe of its standard output, the goroutine that reports progress and the caller
    that waits for the process.  PackagesModel (C79) has the meeting of the two goroutines before
    and the goroutine left behind after. *)
From Coq Require Import ZArith Floats.SpecFloat.
From Verif Require Import GoBase PipelineModel UnjsonModel.
Open Scope Z_scope.
Open Scope list_scope.

(* ------------------------------------------------------------------ one line *)

(** yarnMessage, packages.go:22-25, with what is stored in Data (GNull: nil).  An interface takes
    any value; numbers in it are decoded when they are looked at. *)
Definition yarn_fields : list (bytes * setter (bytes * gj)) :=
  [(str "type", fun g p => let '(x, ok) := into_string g (fst p) in ((x, snd p), ok));
   (str "data", fun g p => ((fst p, g), true))].
(** A map made of an object has the last member of each name. *)
Definition map_member (ms : list (bytes * gj)) (n : bytes) : option gj :=
  fold_left (fun o kv => if bytes_eqb (fst kv) n then Some (snd kv) else o) ms None.
(** v[n].(float64): a number out of range is stored as nil. *)
Definition float_member (ms : list (bytes * gj)) (n : bytes) : option spec_float :=
  match map_member ms n with Some (GNum t) => parse_float t | _ => None end.
(** What is logged, packages.go:54, 57: "Progress c/t" or "Could not convert 'data'". *)
Inductive report := RProgress (c t : spec_float) | RNoData.
(** packages.go:46-59; json.Unmarshal's error is not looked at. *)
Definition one_line (depth : nat) (m : bytes) : list report :=
  let '(ty, data) := match read_text depth m with
                     | Some g => fst (into_struct yarn_fields g ([], GNull))
                     | None => ([], GNull)
                     end in
  if bytes_eqb ty (str "step") then
    match data with
    | GObj ms => match float_member ms (str "current"), float_member ms (str "total") with
                 | Some c, Some t => [RProgress c t]
                 | _, _ => []
                 end
    | _ => [RNoData]
    end
  else [].

(* ------------------------------------------------------------------ the process *)

(** What yarn has still to write, what is in the pipe, whether yarn has ended; the reporter: the
    line it is reading, whether it still reads, what it has logged; whether Wait has returned. *)
Record yarn_state := mkys {
  y_left : bytes; y_pipe : bytes; y_ended : bool;
  y_buf : bytes; y_reading : bool; y_log : list report;
  y_returned : bool }.
Definition yarn_start (out : bytes) : yarn_state := mkys out [] false [] true [] false.

(** [cap] is the size of the pipe.  The scanner (C74) takes bytes as they come, one by one here;
    it gives up at 65536 bytes without a line break.  Wait (os/exec) closes the pipe when the
    process has ended, whether or not all of it has been read.  Simplified: a child of yarn that
    outlives it and keeps the pipe open is left out. *)
Inductive yarn_step (depth : nat) (cap : Z) : yarn_state -> yarn_state -> Prop :=
| yn_write c l p b r lg w : zlen p < cap ->
    yarn_step depth cap (mkys (c :: l) p false b r lg w) (mkys l (p ++ [c]) false b r lg w)
| yn_end p b r lg w :
    yarn_step depth cap (mkys [] p false b r lg w) (mkys [] p true b r lg w)
| yn_newline l p e b lg :
    yarn_step depth cap (mkys l (10 :: p) e b true lg false) (mkys l p e [] true (lg ++ one_line depth (drop_cr b)) false)
| yn_byte c l p e b lg : c <> 10 -> zlen b + 1 < scan_max ->
    yarn_step depth cap (mkys l (c :: p) e b true lg false) (mkys l p e (b ++ [c]) true lg false)
| yn_long c l p e b lg : c <> 10 -> scan_max <= zlen b + 1 ->
    yarn_step depth cap (mkys l (c :: p) e b true lg false) (mkys l p e (b ++ [c]) false lg false)
| yn_eof l p e b lg w : (p = [] /\ e = true) \/ w = true ->
    yarn_step depth cap (mkys l p e b true lg w)
      (mkys l p e b false (lg ++ match b with [] => [] | _ => one_line depth (drop_cr b) end) w)
| yn_wait l p b r lg :
    yarn_step depth cap (mkys l p true b r lg false) (mkys l p true b r lg true).
