(** PipelineExamples: concrete executions of the program: two CANUSB adapters (C73), and
    witnesses for C62, C72, C74 and C75. *)
From Coq Require Import Permutation.
From Verif Require Import GoBase BufFacts CanModel CanusbModel ActisenseModel NmeaTypes PgnTable NmeaModel NmeaProps2
  SignalkModel MapTable MainModel HubModel PipelineModel PipelineSpec PipelineProofs.
Open Scope Z_scope.
Open Scope list_scope.

Section Exec.
Variables (tbl : list pgn_def) (maps : mappings) (opts : options) (pl : platform)
          (fmtv : gval -> bytes) (unmarshal : bytes -> option canboat)
          (marshal : Z -> delta -> option bytes) (verbose : bool).
Notation yrun := (yrun tbl maps opts pl fmtv unmarshal marshal verbose).
Notation ystep := (ystep tbl maps opts pl fmtv unmarshal marshal verbose).

(** One possible step of goroutine, if it has nothing to hand over and the program survives. *)
Definition thread_step (st : can_state) (t : thread) : option (can_state * thread) :=
  match t with
  | mkth (SBoot i) None => match boot tbl st i with TOk st' t' => Some (st', t') | TDead => None end
  | mkth (SCan p r (ev :: rest)) None =>
      match can_byte st r ev with
      | CMore r' st' => Some (st', mkth (SCan p r' rest) None)
      | CErr => Some (st, mkth (SCan p can_rd0 rest) None)
      | CPanic => None
      | CMsg m st' =>
          match iface_on_message st' p m with
          | (st'', p', Ret _) =>
              match parse_packet 1000 pl tbl m [] with
              | Some (Ret x) => Some (st'', mkth (SCan p' can_rd0 rest) (Some x))
              | _ => None
              end
          | _ => None
          end
      end
  | mkth (SAct r (ev :: rest)) None =>
      match act_byte r ev with
      | AMore r' => Some (st, mkth (SAct r' rest) None)
      | AErr => Some (st, mkth (SAct act_rd0 rest) None)
      | APanic => None
      | AMsg m => match parse_packet 1000 pl tbl m [] with
                  | Some (Ret x) => Some (st, mkth (SAct act_rd0 rest) (Some x))
                  | _ => None
                  end
      end
  | mkth (SFile (l :: rest)) None =>
      match FromCanBoat unmarshal tbl l with
      | Ret x => Some (st, mkth (SFile rest) (Some x))
      | Err _ => Some (st, mkth (SFile rest) None)
      | Panic _ => None
      end
  | _ => None
  end.
Lemma thread_step_sound st t st' t' : thread_step st t = Some (st', t') -> tstep tbl pl unmarshal st t (TOk st' t').
Proof.
  destruct t as [[i|p r [|ev rest]|r [|ev rest]|[|l rest]] [x|]]; cbn [thread_step]; try discriminate.
  - destruct (boot tbl st i) as [s0 t0|] eqn:E; [|discriminate]. intros H. injection H as <- <-. rewrite <- E. constructor.
  - destruct (can_byte st r ev) as [r' st1|m st1| |] eqn:E; try discriminate.
    + intros H. injection H as <- <-. now constructor.
    + destruct (iface_on_message st1 p m) as [[st2 p'] [a|e|w]] eqn:E2; try discriminate.
      destruct (parse_packet 1000 pl tbl m []) as [[x|e|w]|] eqn:E3; try discriminate.
      intros H. injection H as <- <-. eapply ts_can_msg; eassumption.
    + intros H. injection H as <- <-. now apply ts_can_err with (ev := ev).
  - destruct (act_byte r ev) as [r'|m| |] eqn:E; try discriminate.
    + intros H. injection H as <- <-. now constructor.
    + destruct (parse_packet 1000 pl tbl m []) as [[x|e|w]|] eqn:E3; try discriminate.
      intros H. injection H as <- <-. eapply ts_act_msg; eassumption.
    + intros H. injection H as <- <-. now apply ts_act_err with (ev := ev).
  - destruct (FromCanBoat unmarshal tbl l) as [x|e|w] eqn:E; try discriminate; intros H; injection H as <- <-.
    + now apply ts_file_msg.
    + eapply ts_file_err; eassumption.
Qed.

(** Run the given goroutines, one step each, in the given order; a number of 100 or more means:
    the consumer takes the message of goroutine k - 100 and finishes with it. *)
Definition step_of (s : sys) (k : nat) : option sys :=
  match nth_error (y_threads s) k with
  | Some t => match thread_step (y_can s) t with
              | Some (st', t') => Some (mksys st' (set_thread (y_threads s) k t') (y_cons s) (y_todo s) (y_stream s) (y_stats s))
              | None => None
              end
  | None => None
  end.
Fixpoint sched (ks : list nat) (s : sys) : option sys :=
  match ks with
  | [] => Some s
  | k :: r => match step_of s k with Some s' => sched r s' | None => None end
  end.
Lemma sched_sound ifs : forall ks s s' tr, sched ks s = Some s' -> yrun ifs tr (YOk s) -> yrun ifs (tr ++ map YStep ks) (YOk s').
Proof.
  induction ks as [|k ks IH]; intros s s' tr H R; cbn [sched map] in *.
  - injection H as <-. now rewrite app_nil_r.
  - unfold step_of in H. destruct (nth_error (y_threads s) k) as [t|] eqn:E; [|discriminate H].
    destruct (thread_step (y_can s) t) as [[st' t']|] eqn:E2; [|discriminate H].
    replace (tr ++ YStep k :: map YStep ks) with ((tr ++ [YStep k]) ++ map YStep ks) by now rewrite <- app_assoc.
    eapply IH; [exact H|]. econstructor; [exact R|]. eapply ys_thread; [exact E|]. now apply thread_step_sound.
Qed.
End Exec.

(* ------------------------------------------------------------ two CANUSB adapters *)

(** On bus A device 5 sends a 9 byte message of PGN 127489 in two frames; on bus B device 5, a
    different one, starts a message of the same PGN. *)
Definition line (s : string) : list rd_event := map RByte (str s ++ [13]).
Definition frame_A0 := line "T09F20105800090102030405060000".
Definition frame_A1 := line "T09F20105801070809FFFFFFFF0000".
Definition frame_B0 := line "T09F20105800091112131415160000".
Definition quiet : wport := mkwport [] (fun _ => None).
Definition bus (input : list rd_event) : iface := mkif (str "canusb") (DChar true quiet input) [].
Definition busA := bus (frame_A0 ++ frame_A1).
Definition busB := bus frame_B0.

Definition message (data : bytes) : raw_message := mkraw 2 127489 5 255 9 data.

Definition mixed_schedule : list nat :=
  [0; 1]%nat ++ repeat 0%nat (List.length frame_A0) ++ repeat 1%nat (List.length frame_B0) ++ repeat 0%nat (List.length frame_A1).
Definition in_turn_schedule : list nat :=
  [0; 1]%nat ++ repeat 0%nat (List.length frame_A0 + List.length frame_A1) .

Section Two.
Variables (maps : mappings) (opts : options) (fmtv : gval -> bytes) (unmarshal : bytes -> option canboat)
          (marshal : Z -> delta -> option bytes) (verbose : bool).
Definition pl0 : platform := mkplatform 0 (fun _ => 0) (fun _ => 0).
Notation yrun := (yrun PgnList maps opts pl0 fmtv unmarshal marshal verbose).

Definition delivered (k : nat) (s : option sys) : option raw_message :=
  match s with
  | Some s => match waiting s k with [x] => Some (pm_header x) | _ => None end
  | None => None
  end.
Lemma delivered_run ifs ks m : delivered 0 (sched PgnList pl0 unmarshal ks (sys_init ifs)) = Some m ->
  exists s x, yrun ifs (map YStep ks) (YOk s) /\ waiting s 0 = [x] /\ pm_header x = m.
Proof.
  unfold delivered. destruct (sched _ _ _ ks (sys_init ifs)) as [s|] eqn:E; [|discriminate].
  destruct (waiting s 0) as [|x [|y l]] eqn:W; try discriminate. intros H. injection H as <-.
  exists s, x. split; [|auto]. exact (sched_sound _ _ _ _ _ _ _ _ ifs ks _ _ [] E (yr_nil _ _ _ _ _ _ _ _ _)).
Qed.

(** C73, refuted: with two CANUSB adapters the program can deliver a message that neither bus
    carried: alone, bus A delivers the message 1..9 and bus B nothing; together, the beginning
    of B's message with the end of A's is delivered as a message of bus A.  If A is served
    first, A's message is delivered unharmed: what is delivered depends on the schedule. *)
Theorem C73_two_adapters_refuted :
  items PgnList unmarshal busA = [IRaw (message [1; 2; 3; 4; 5; 6; 7; 8; 9; 255; 255; 255; 255])] /\
  items PgnList unmarshal busB = [] /\
  (exists tr s x, yrun [busA; busB] tr (YOk s) /\ waiting s 0 = [x] /\
     pm_header x = message [17; 18; 19; 20; 21; 22; 7; 8; 9; 255; 255; 255; 255]) /\
  (exists tr s x, yrun [busA; busB] tr (YOk s) /\ waiting s 0 = [x] /\
     pm_header x = message [1; 2; 3; 4; 5; 6; 7; 8; 9; 255; 255; 255; 255]).
Proof.
  split; [vm_compute; reflexivity|]. split; [vm_compute; reflexivity|]. split.
  - exists (map YStep mixed_schedule). apply delivered_run. vm_compute. reflexivity.
  - exists (map YStep in_turn_schedule). apply delivered_run. vm_compute. reflexivity.
Qed.
End Two.

(* ------------------------------------------------------------ witnesses *)

Definition opts_ws : options := mkopts false 0 255 255 true false.
Definition fmt0 : gval -> bytes := fun _ => [].
Definition marshal0 : Z -> delta -> option bytes := fun _ _ => Some (str "{}").
Notation run0 := (yrun PgnList MapXml opts_ws pl0 fmt0 (fun _ => None) marshal0 false).

(** The consumer takes the message of goroutine k. *)
Definition take (s : sys) (k : nat) : option (parsed * sys) :=
  match nth_error (y_threads s) k, y_todo s with
  | Some (mkth src (Some m)), [] =>
      match handle opts_ws (pl_tz pl0) fmt0 PgnList MapXml marshal0 false (y_cons s) m (mkvisit (pm_data m) 0) with
      | Ret (c', es) => Some (m, mksys (y_can s) (set_thread (y_threads s) k (mkth src None)) c' es (y_stream s) (y_stats s))
      | _ => None
      end
  | _, _ => None
  end.
Lemma take_sound ifs tr s k m s' : take s k = Some (m, s') -> run0 ifs tr (YOk s) -> run0 ifs (tr ++ [YHand k m (mkvisit (pm_data m) 0)]) (YOk s').
Proof.
  unfold take. destruct (nth_error (y_threads s) k) as [[src [x|]]|] eqn:E; try discriminate.
  destruct (y_todo s) eqn:T; [|discriminate].
  destruct (handle _ _ _ _ _ _ _ _ _ _) as [[c' es]|e|w] eqn:H; try discriminate. intros X R. injection X as <- <-.
  econstructor; [exact R|]. eapply ys_hand; [exact E|exact T|apply Permutation_refl|exact H].
Qed.

Definition exhausted_b (s : sys) (i : nat) : bool :=
  match nth_error (y_threads s) i with
  | Some (mkth (SCan _ _ []) _) | Some (mkth (SAct _ []) _) | Some (mkth (SFile []) _) => true
  | _ => false
  end.

(** Steps [ks], then the consumer takes goroutine 0's message. *)
Definition after (ifs : list iface) (ks : list nat) : option (parsed * sys) :=
  match sched PgnList pl0 (fun _ => None) ks (sys_init ifs) with
  | Some s => take s 0
  | None => None
  end.
Definition seen (r : option (parsed * sys)) : option (raw_message * nat * bool) :=
  match r with Some (m, s) => Some (pm_header m, List.length (y_todo s), exhausted_b s 0) | None => None end.
Lemma after_run ifs ks h n : seen (after ifs ks) = Some (h, n, true) ->
  exists tr s x od, run0 ifs tr (YOk s) /\ handled tr = [(0%nat, x, od)] /\ pm_header x = h /\
    List.length (y_todo s) = n /\ exhausted s 0.
Proof.
  unfold after, seen. intros K. destruct (sched _ _ _ ks (sys_init ifs)) as [s0|] eqn:E; [|discriminate K].
  destruct (take s0 0) as [[m s]|] eqn:E2; [|discriminate K].
  exists (map YStep ks ++ [YHand 0 m (mkvisit (pm_data m) 0)]), s, m, (mkvisit (pm_data m) 0). split.
  - eapply take_sound; [exact E2|]. exact (sched_sound _ _ _ _ _ _ _ _ ifs ks _ _ [] E (yr_nil _ _ _ _ _ _ _ _ _)).
  - split.
    + unfold handled. rewrite flat_map_app. clear. induction ks as [|k ks IH]; [reflexivity|exact IH].
    + injection K as K1 K2 K3. split; [exact K1|]. split; [exact K2|]. unfold exhausted, exhausted_b in *.
      destruct (nth_error (y_threads s) 0) as [[[i|p r [|ev rest]|r [|ev rest]|[|l rest]] o]|]; try discriminate K3; exact I.
Qed.

(** Bus A by itself: its message is delivered, taken and counted; display and statistics are
    still to be served (the hypotheses of C62 and C75 hold). *)
Example C62_C75_example : exists tr s x od, run0 [busA] tr (YOk s) /\
  handled tr = [(0%nat, x, od)] /\ pm_header x = message [1; 2; 3; 4; 5; 6; 7; 8; 9; 255; 255; 255; 255] /\
  List.length (y_todo s) = 2%nat /\ exhausted s 0.
Proof.
  apply (after_run [busA] (repeat 0%nat 63)). vm_compute. reflexivity.
Qed.
Example C62_example_one : one_canusb [busA].
Proof. apply Nat.leb_le. vm_compute. reflexivity. Qed.
