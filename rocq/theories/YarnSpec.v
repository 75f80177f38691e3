(** YarnSpec: vocabulary for the theorems about yarn's output (C107). *)
From Coq Require Import ZArith Reals Floats.SpecFloat.
From Flocq Require Import Core.Zaux Core.Raux Core.Defs.
From Verif Require Import GoBase NmeaSpec ApiSpec PipelineSpec JsonSpec SignalkSpec UnjsonModel UnjsonSpec YarnModel.
Open Scope Z_scope.
Open Scope list_scope.

(** The last member with exactly this name. *)
Definition last_member (ms : list (bytes * gj)) (n : bytes) (g : gj) : Prop :=
  exists a b, ms = a ++ (n, g) :: b /\ ~ In n (map fst b).
(** The number written in the text, as a double. *)
Definition double_of (t : bytes) (x : spec_float) : Prop :=
  forall m e, number_text t m e -> float_is x (nearest64 (ten_to m e)).
Definition too_large (t : bytes) : Prop :=
  forall m e, number_text t m e -> (bpow radix2 1024 <= Rabs (nearest64 (ten_to m e)))%R.
(** The line is a JSON object of type "step" with this "data" (null if there is none). *)
Definition step_line (depth : nat) (line : bytes) (data : gj) : Prop :=
  exists ms, lax_text depth line (GObj ms) /\ says a_text ms (str "type") [] (str "step") /\
    says (fun g v => g = v) ms (str "data") GNull data.
(** What the line makes the program log. *)
Definition reports (depth : nat) (line : bytes) (l : list report) : Prop :=
  (exists es tc tt c t, step_line depth line (GObj es) /\
     last_member es (str "current") (GNum tc) /\ last_member es (str "total") (GNum tt) /\
     double_of tc c /\ double_of tt t /\ l = [RProgress c t]) \/
  (exists data, step_line depth line data /\ (forall es, data <> GObj es) /\ l = [RNoData]) \/
  (l = [] /\ forall data, step_line depth line data -> exists es, data = GObj es /\
     ((forall t, ~ last_member es (str "current") (GNum t)) \/ (forall t, ~ last_member es (str "total") (GNum t)) \/
      (exists t, last_member es (str "current") (GNum t) /\ too_large t) \/ (exists t, last_member es (str "total") (GNum t) /\ too_large t))).

(** What reading a text line by line logs. *)
Definition log_of (depth : nat) (text : bytes) (log : list report) : Prop :=
  exists lines ls, (forall full last, splits text full last -> Forall2 stripped (before_long (lines_of full last)) lines) /\
    Forall2 (reports depth) lines ls /\ log = List.concat ls.

(** The first 65536 bytes in a row without a line break, and what is after them. *)
Definition long_run (l : bytes) : Prop := zlen l = 65536 /\ ~ In 10 l.
Definition first_long (out after : bytes) : Prop :=
  exists a l, out = a ++ l ++ after /\ long_run l /\
    forall a' l' b', out = a' ++ l' ++ b' -> long_run l' -> (List.length a <= List.length a')%nat.

Inductive yarn_run (depth : nat) (cap : Z) : nat -> yarn_state -> yarn_state -> Prop :=
| yr_here s : yarn_run depth cap 0 s s
| yr_step n s s' s'' : yarn_run depth cap n s s' -> yarn_step depth cap s' s'' -> yarn_run depth cap (S n) s s''.
Definition stopped (depth : nat) (cap : Z) (s : yarn_state) : Prop := forall s', ~ yarn_step depth cap s s'.
