(** DeathExamples: executions that end, and adapters that are in order (C85). *)
From Verif Require Import GoBase BufFacts CanModel CanusbModel CanusbSpec CanusbParse ActisenseModel ActisenseSpec ActisenseProofs ActisenseProps NmeaTypes PgnTable NmeaModel NmeaProps2
  SignalkModel MapTable MainModel HubModel PipelineModel PipelineSpec PipelineProofs PipelineExamples CrashSpec DeathSpec DeathProps DeathKill DeathOrder.
Open Scope Z_scope.
Open Scope list_scope.

Section Ends.
Variables (maps : mappings) (opts : options) (fmtv : gval -> bytes) (unmarshal : bytes -> option canboat)
          (marshal : Z -> delta -> option bytes) (verbose : bool).
Notation yrun := (yrun PgnList maps opts pl0 fmtv unmarshal marshal verbose).

(** Is the next step of goroutine k the last of the program? *)
Definition dies (k : nat) (s : sys) : bool :=
  match nth_error (y_threads s) k with
  | Some (mkth (SBoot i) None) => match boot PgnList (y_can s) i with TDead => true | _ => false end
  | Some (mkth (SCan p r (ev :: rest)) None) =>
      match can_byte (y_can s) r ev with
      | CPanic => true
      | CMsg m _ => match parse_packet 1000 pl0 PgnList m [] with Some (Panic _) => true | _ => false end
      | _ => false
      end
  | Some (mkth (SAct r (ev :: rest)) None) =>
      match act_byte r ev with
      | APanic => true
      | AMsg m => match parse_packet 1000 pl0 PgnList m [] with Some (Panic _) => true | _ => false end
      | _ => false
      end
  | _ => false
  end.
Lemma dies_sound ifs ks k s : sched PgnList pl0 unmarshal ks (sys_init ifs) = Some s -> dies k s = true ->
  yrun ifs (map YStep ks ++ [YStep k]) YDead.
Proof.
  intros H D. econstructor; [exact (sched_sound _ _ _ _ _ _ _ _ ifs ks _ _ [] H (yr_nil _ _ _ _ _ _ _ _ _))|].
  unfold dies in D. destruct (nth_error (y_threads s) k) as [[src [o|]]|] eqn:E; [destruct src as [i|p r [|ev rest]|r [|ev rest]|l]; discriminate D| |discriminate D].
  eapply ys_dead; [exact E|]. destruct src as [i|p r [|ev rest]|r [|ev rest]|l]; try discriminate D.
  - destruct (boot PgnList (y_can s) i) eqn:B; [discriminate D|]. rewrite <- B. constructor.
  - destruct (can_byte (y_can s) r ev) as [r' st1|m st1| |] eqn:B; try discriminate D.
    + eapply ts_can_msg_dead; [exact B|]. right. destruct (parse_packet 1000 pl0 PgnList m []) as [[x|x|w]|] eqn:P; try discriminate D. eauto.
    + eapply ts_can_panic; exact B.
  - destruct (act_byte r ev) as [r'|m| |] eqn:B; try discriminate D.
    + destruct (parse_packet 1000 pl0 PgnList m []) as [[x|x|w]|] eqn:P; try discriminate D. eapply ts_act_msg_dead; eassumption.
    + eapply ts_act_panic; exact B.
Qed.

Definition ends_at (i : iface) (n : nat) : bool :=
  match sched PgnList pl0 unmarshal (repeat O n) (sys_init [i]) with Some s => dies 0 s | None => false end.
Lemma ends_at_sound i n : ends_at i n = true -> exists tr, yrun [i] tr YDead.
Proof. unfold ends_at. destruct (sched _ _ _ _ _) as [s|] eqn:E; [|discriminate]. intros D. eexists. exact (dies_sound [i] _ O s E D). Qed.

(** A device that is not there. *)
Example missing_ends : exists tr, yrun [mkif (str "canusb") DMissing []] tr YDead.
Proof. apply (ends_at_sound _ 0). reflexivity. Qed.
(** An interface type the program does not know. *)
Example type_ends : exists tr, yrun [mkif (str "ydnu") (DChar true quiet []) []] tr YDead.
Proof. apply (ends_at_sound _ 0). reflexivity. Qed.
(** A CAN bus adapter that sends four characters and a carriage return. *)
Example cut_ends : exists tr, yrun [bus (line "t123")] tr YDead.
Proof. apply (ends_at_sound _ 5). vm_compute. reflexivity. Qed.
(** A frame of PGN 127489 (26 bytes) without data. *)
Example headless_ends : exists tr, yrun [bus (line "T09F2010500000")] tr YDead.
Proof. apply (ends_at_sound _ 15). vm_compute. reflexivity. Qed.
(** An address claim (PGN 60928) of no bytes. *)
Example claim_ends : exists tr, yrun [bus (line "T18EEFF0500000")] tr YDead.
Proof. apply (ends_at_sound _ 15). vm_compute. reflexivity. Qed.
(** A message 147 of three bytes from an NGT that announces eleven. *)
Definition ngt (input : list rd_event) : iface := mkif (str "actisense") (DChar true quiet input) [].
Example ngt_ends : exists tr, yrun [ngt (map RByte (on_line [147; 11; 98]))] tr YDead.
Proof. apply (ends_at_sound _ 7). vm_compute. reflexivity. Qed.
End Ends.

(** The causes above are the ones C85 names. *)
Lemma frame_by_parse l ty id data : ParseFrame (buf_of l) = Ret (mkframe (frame_message id data) ty id 0 0) -> frame_text l ty id data.
Proof.
  intros H. apply ParseFrame_accepts in H; [|apply buf_of_ok]. rewrite buf_of_val in H. destruct H as (ty' & id' & data' & T & E).
  injection E as _ _ _ _ _ -> -> ->. exact T.
Qed.
Example causes_named : cut_line (str "t123") /\ headless PgnList (str "T09F2010500000") /\
  fatal_frame (str "T18EEFF0500000") /\ crashes [147; 11; 98].
Proof.
  split; [|split; [|split]].
  - exists CAN_STD, [49; 50; 51]. split; [reflexivity|]. right. split; [reflexivity|]. exists 291, [1; 2; 3]. split; [|reflexivity].
    do 3 (constructor; [left; lia|]). constructor.
  - exists CAN_EXT, 166854917, []. split; [apply frame_by_parse; vm_compute; reflexivity|]. split; [|now left].
    destruct (find (fun p => (p_pgn p =? 127489) && (8 <? p_size p)) PgnList) as [p|] eqn:E; [|exfalso; vm_compute in E; discriminate E].
    apply find_some in E as [I E]. apply andb_true_iff in E as [E1 E2]. exists p. split; [exact I|]. split; [|lia].
    change (id_pgn 166854917) with 127489. lia.
  - exists CAN_EXT, 418316037, []. split; [apply frame_by_parse; vm_compute; reflexivity|]. left. change (id_pgn 418316037) with 60928. apply fatal_address_claim; [now left|reflexivity].
  - split; [reflexivity|]. left. exists 11, 98, []. split; [reflexivity|]. split; [lia|reflexivity].
Qed.

(** Adapters in order: the buses of C73 with noise around their frames, and an NGT. *)
Definition noisy_bus : iface := bus (map RByte ([0; 13; 65] ++ str "T09F20105800090102030405060000" ++ [13] ++ [7] ++
  str "T09F20105801070809FFFFFFFF0000" ++ [13] ++ [50])).
Lemma byte_starts (b : byte) : (b =? 116) || (b =? 84) || (b =? 114) || (b =? 82) = false -> ~ starts b.
Proof. intros H [[] ->]; discriminate H. Qed.
Lemma not_starts_by l : forallb (fun b => negb ((b =? 116) || (b =? 84) || (b =? 114) || (b =? 82))) l = true -> Forall not_start l.
Proof. rewrite forallb_forall, Forall_forall. intros H b I. specialize (H b I). apply negb_true_iff in H. now apply byte_starts. Qed.
Lemma plain_by l : forallb (fun b => negb ((b =? 116) || (b =? 84) || (b =? 114) || (b =? 82) || (b =? 13))) l = true -> Forall plain l.
Proof.
  rewrite forallb_forall, Forall_forall. intros H b I. specialize (H b I). apply negb_true_iff in H. apply orb_false_iff in H as [H1 H2].
  split; [now apply byte_starts|]. now apply Z.eqb_neq.
Qed.
Lemma bytes_by l : forallb (fun b => (0 <=? b) && (b <? 256)) l = true -> bytes_ok l.
Proof. rewrite forallb_forall. intros H. apply Forall_forall. intros b I. specialize (H b I). apply andb_true_iff in H as [H1 H2]. unfold is_byte. lia. Qed.
Lemma input_bytes l : bytes_ok l -> forall b, In (RByte b) (map RByte l) -> is_byte b.
Proof. intros B b I. apply in_map_iff in I as (x & E & I). injection E as ->. unfold bytes_ok in B. rewrite Forall_forall in B. now apply B. Qed.

Lemma not_fatal D pgn : 60928 < pgn < 130816 -> ~ fatal D 0 pgn.
Proof. intros L F. destruct F; lia. Qed.

Example noisy_in_order : in_order PgnList noisy_bus /\ input_ok noisy_bus.
Proof.
  split; [split; [|split]|].
  - left. split; [now left|]. split; reflexivity.
  - intros _. exists [([0; 13; 65], str "T09F20105800090102030405060000"); ([7], str "T09F20105801070809FFFFFFFF0000")], [50].
    split; [reflexivity|]. split; [|apply not_starts_by; reflexivity].
    constructor; [|constructor; [|constructor]].
    + split; [apply not_starts_by; reflexivity|]. split.
      * eexists _, _. split; [reflexivity|]. split; [now exists CAN_EXT|apply plain_by; reflexivity].
      * exists CAN_EXT, 166854917, [0; 9; 1; 2; 3; 4; 5; 6]. split; [apply frame_by_parse; vm_compute; reflexivity|]. change (id_pgn 166854917) with 127489. split; [apply not_fatal; lia|]. split; [|intros _; vm_compute; discriminate].
        intros I. vm_compute in I. repeat destruct I as [I|I]; discriminate I || exact I.
    + split; [apply not_starts_by; reflexivity|]. split.
      * eexists _, _. split; [reflexivity|]. split; [now exists CAN_EXT|apply plain_by; reflexivity].
      * exists CAN_EXT, 166854917, [1; 7; 8; 9; 255; 255; 255; 255]. split; [apply frame_by_parse; vm_compute; reflexivity|]. change (id_pgn 166854917) with 127489. split; [apply not_fatal; lia|]. split; [|intros _; vm_compute; discriminate].
        intros I. vm_compute in I. repeat destruct I as [I|I]; discriminate I || exact I.
  - intros E. vm_compute in E. discriminate E.
  - unfold input_ok. intros b. cbn [input_of noisy_bus bus if_dev]. apply input_bytes, bytes_by. reflexivity.
Qed.

Example ngt_in_order : in_order PgnList (ngt (map RByte ([3; 7] ++ on_line ex_n2k ++ [1] ++ on_line [147; 11; 1] ++ [9]))).
Proof.
  split; [|split].
  - left. split; [now right|]. split; reflexivity.
  - intros E. vm_compute in E. discriminate E.
  - intros _. exists [([3; 7], ex_n2k); ([1], [147; 11; 1])], [9]. split; [reflexivity|]. split; [|repeat constructor; lia].
    assert (bytes_ok ex_n2k /\ bytes_ok [147; 11; 1]) as [B1 B2] by (split; apply bytes_by; reflexivity).
    constructor; [|constructor; [|constructor]]; (split; [repeat constructor; lia|]); split; [exact B1| |exact B2|]; split.
    + intros C. apply crashes_cases in C as [w C]; [|exact B1]. vm_compute in C. discriminate C.
    + intros r D. apply delivers_cases in D; [|exact B1]. cbn [snd] in D. rewrite c23_nontrivial in D. assert (rm_pgn r = 126992) as -> by (assert (ex_raw = r) as <- by congruence; reflexivity).
      apply not_fatal; lia.
    + intros C. apply crashes_cases in C as [w C]; [|exact B2]. vm_compute in C. discriminate C.
    + intros r D. apply delivers_cases in D; [|exact B2]. vm_compute in D. discriminate D.
Qed.
