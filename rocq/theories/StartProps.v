(** StartProps: from the command line and the files to the running program (C104). *)
From Coq Require Import Permutation.
From Verif Require Import GoBase BufFacts Strconv CanModel CanusbModel ActisenseModel NmeaTypes PgnTable PgnTexts NmeaModel
  SignalkModel SignalkSpec SignalkProps MapTable MapText MainModel MainSpec HubModel HubSpec PipelineModel PipelineSpec PipelineExamples DeathSpec DeathProps
  ConfigModel ConfigSpec ConfigProps LogModel LogSpec LogProps FlagsModel FlagsSpec FlagsProps TomlModel TomlSpec TomlProps
  TomlLex TomlSave XmlModel XmlSpec XmlProps XmlBytes DetailsModel DetailsProps JsonModel JsonSpec JsonLayout JsonProps UnjsonModel UnjsonProps2 WireSpec WireProps EndToEnd StartModel StartSpec.
Open Scope Z_scope.
Open Scope list_scope.

Section Start.
Variables (upper : bytes -> bytes) (nilp lax : bool)
          (order : path -> list (bytes * node) -> list (bytes * node)) (other : bytes -> option config)
          (wide : bytes -> bool) (ord : Z -> Z -> Z -> lookup -> lookup).
Hypothesis FO : fair order.
Notation main := (main upper nilp lax order other wide ord).

Definition options_of (l : list setting) : command_args :=
  mkargs (last_given (switch_of FlagsSpec.Help) l false) (last_given (switch_of FlagsSpec.Explain) l false) (last_given (switch_of Statistic) l false)
    (last_given (number_of Pgn) l 0) (last_given (number_of Source) l 255) (last_given (number_of Dest) l 255)
    (log_text upper l) (config_path l).
Lemma line_options args l : command_line args l -> GetCommandLineOptions upper args = Some (options_of l).
Proof. intros C. apply C97_options. exists l. split; [exact C|]. repeat split. Qed.

(** C104: how a start can end before the program runs, and that otherwise it runs. *)
Theorem C104_usage w args : main w args = BadUsage <-> ~ exists l, command_line args l.
Proof.
  split.
  - intros M [l C]. unfold StartModel.main in M. rewrite (line_options _ _ C) in M. destruct (a_help _); [discriminate|]. destruct (a_explain _); [discriminate|].
    destruct (start_config _ _ _); [|discriminate]. destruct (load_map _ _ _); [|discriminate]. destruct (dial _ _); discriminate.
  - intros N. unfold StartModel.main. destruct (GetCommandLineOptions upper args) as [o|] eqn:E; [|reflexivity].
    apply C97_options in E as (l & C & _). elim N. eauto.
Qed.
Theorem C104_help w args l : command_line args l ->
  (main w args = Helped <-> asked l FlagsSpec.Help) /\
  ((exists out, main w args = Explained out) <-> ~ asked l FlagsSpec.Help /\ asked l FlagsSpec.Explain).
Proof.
  intros C. unfold StartModel.main. rewrite (line_options _ _ C). cbn [options_of a_help a_explain]. unfold asked.
  destruct (last_given (switch_of FlagsSpec.Help) l false).
  - split; [tauto|]. split; [intros [out H]; discriminate|intros [H _]; now elim H].
  - destruct (last_given (switch_of FlagsSpec.Explain) l false).
    + split; [split; discriminate|]. split; [intros _; split; [discriminate|reflexivity]|eauto].
    + split; [split; [|discriminate]|split; [|intros [_ X]; discriminate X]].
      all: destruct (start_config _ _ _); [|try discriminate; intros [out X]; discriminate]; destruct (load_map _ _ _); [|try discriminate; intros [out X]; discriminate];
        destruct (dial _ _); try discriminate; intros [out X]; discriminate.
Qed.

Definition rest_of (w : outside) (l : list setting) : started :=
  match start_config nilp (match os_file w (config_path l) with Some t => toml_decode lax order other t | None => None end) (log_text upper l) with
  | None => NoConfig
  | Some c =>
      match load_map wide w (cf_map c) with
      | None => NoMap
      | Some m =>
          match dial w (cf_mqtt c) with
          | None => NoBroker
          | Some b => Runs (mkrunning c (set_up (cf_log c)) m
                (consumer_options (options_of l) (sv_websockets (cf_server c)) (mq_enable (cf_mqtt c))) b
                (if sv_websockets (cf_server c) then Some (str ":" ++ itoa (sv_port (cf_server c))) else None)
                (map (fun kv => connect w (snd kv)) (os_order w (match cf_ifaces c with Some l => l | None => [] end))))
          end
      end
  end.
Lemma main_rest w args l : command_line args l -> ~ asked l FlagsSpec.Help -> ~ asked l FlagsSpec.Explain -> main w args = rest_of w l.
Proof.
  intros C H1 H2. unfold StartModel.main, asked in *. rewrite (line_options _ _ C). cbn [options_of a_help a_explain a_config a_log].
  destruct (last_given (switch_of FlagsSpec.Help) l false); [now elim H1|]. destruct (last_given (switch_of FlagsSpec.Explain) l false); [now elim H2|]. reflexivity.
Qed.

(** Without its configuration file it does not start. *)
Theorem C104_no_file w args l : command_line args l -> ~ asked l FlagsSpec.Help -> ~ asked l FlagsSpec.Explain ->
  os_file w (config_path l) = None -> main w args = NoConfig.
Proof. intros C H1 H2 N. rewrite (main_rest _ _ _ C H1 H2). unfold rest_of. rewrite N. reflexivity. Qed.

Lemma unset_off k : unset (off k).
Proof. destruct k; cbn; unfold unset; auto. Qed.
Lemma unset_dec v : unset v \/ ~ unset v.
Proof.
  destruct (unsetb v) eqn:E; [left; now apply unsetb_iff|right]. intros U. apply unsetb_iff in U. congruence.
Qed.
Lemma default_dec o : (exists v, default o v) \/ (forall v, ~ default o v).
Proof. destruct o; try (left; eexists; constructor); right; intros v D; inversion D. Qed.

(** The running configuration, given what the decoder made of the file. *)
Lemma force_all st l c sys : says st c -> start_config nilp (Some c) (log_text upper l) = Some sys ->
  cf_ifaces sys = cf_ifaces c /\ forall o, ~ uuid_part o -> value_in_force upper l st o (get o sys).
Proof.
  intros SA ST. destruct (C67_start nilp c (log_text upper l)) as (r & s & R & S1 & IR & OR & L0 & L1). rewrite ST in S1. injection S1 as <-.
  destruct (C67_read nilp c) as (r' & R' & I' & H). rewrite R in R'. injection R' as <-.
  split; [congruence|]. intros o NU. destruct (H o NU) as (H1 & H2 & H3).
  assert (o = LogLevel /\ log_text upper l <> [] \/ (o = LogLevel -> log_text upper l = [])) as [[-> N]|N].
  { destruct (list_eq_dec Z.eq_dec (log_text upper l) []); [auto|]. destruct o; auto; right; discriminate. }
  { rewrite (L1 N). now constructor. }
  assert (get o sys = get o r) as ->.
  { destruct (list_eq_dec Z.eq_dec (log_text upper l) []) as [E|E]; [now rewrite (L0 E)|]. apply OR. intros ->. apply E. now apply N. }
  destruct SA as (SO & _). destruct (unset_dec (get o c)) as [U|U].
  - assert (file_silent st o) as FS.
    { destruct (SO o) as [(x & X1 & X2)|[X _]]; [right; exists x; split; [exact X1|now rewrite <- X2]|now left]. }
    destruct (default_dec o) as [[v D]|D].
    + rewrite (H2 U _ D). now constructor.
    + rewrite (H3 D). assert (get o c = off (kind_of o)) as ->.
      { destruct (SO o) as [(x & X1 & X2)|[_ X]]; [|exact X]. rewrite X2 in *.
        destruct o; destruct U as [U|[U|U]]; rewrite U; try reflexivity; exfalso; rewrite U in X2; cbn [get] in X2; discriminate X2. }
      now apply vf_off.
  - rewrite (H1 U). destruct (SO o) as [(x & X1 & X2)|[_ X]].
    + rewrite X2 in *. now apply vf_file.
    + exfalso. apply U. rewrite X. apply unset_off.
Qed.

(** A file whose statements do not fit is refused; one whose statements fit is taken. *)
Theorem C104_no_config w args l st : outside_ok w -> given w args l st -> (main w args = NoConfig <-> ~ fits lax st).
Proof.
  intros (B & _) [C H1 H2 (text & F & T) P]. rewrite (main_rest _ _ _ C H1 H2). unfold rest_of. rewrite F.
  destruct (C101_read lax order other text st (B _ _ F) FO T P) as [R1 R2].
  destruct (toml_decode lax order other text) as [c|] eqn:D.
  - destruct (C67_start nilp c (log_text upper l)) as (r & s & _ & -> & _). split; [|intros N; elim N; apply R1; eauto].
    destruct (load_map _ _ _); [|discriminate]. destruct (dial _ _); discriminate.
  - split; [|reflexivity]. intros _ N. apply R1 in N as [c X]. discriminate X.
Qed.
(** The mapping file is the one in force. *)
Theorem C104_no_map w args l st : outside_ok w -> given w args l st -> main w args = NoMap ->
  exists name, value_in_force upper l st MapFile (VText name) /\ forall t, ~ loads wide w name t.
Proof.
  intros (B & _) [C H1 H2 (text & F & T) P]. rewrite (main_rest _ _ _ C H1 H2). unfold rest_of. rewrite F.
  destruct (C101_read lax order other text st (B _ _ F) FO T P) as [R1 R2].
  destruct (toml_decode lax order other text) as [c|] eqn:D; [|discriminate].
  destruct (start_config nilp (Some c) (log_text upper l)) as [sys|] eqn:S; [|discriminate].
  destruct (force_all _ _ _ _ (R2 _ eq_refl) S) as [_ V].
  destruct (load_map wide w (cf_map sys)) as [m|] eqn:M; [destruct (dial _ _); discriminate|]. intros _.
  exists (cf_map sys). split; [apply (V MapFile); unfold uuid_part; cbn; intuition discriminate|].
  intros t (data & x & E & X). unfold load_map in M. rewrite E in M. assert (parse_mappings wide data = Some t) by (apply C100_loaded; eauto). congruence.
Qed.
(** With MQTT enabled it needs the broker, once the mappings are read. *)
Theorem C104_no_broker w args l st : outside_ok w -> given w args l st -> main w args = NoBroker ->
  (exists name t, value_in_force upper l st MapFile (VText name) /\ loads wide w name t) /\
  value_in_force upper l st MqttEnable (VBool true) /\
  exists host port client user password tls,
    value_in_force upper l st MqttHost (VText host) /\ value_in_force upper l st MqttPort (VInt port) /\
    value_in_force upper l st MqttClientId (VText client) /\ value_in_force upper l st MqttUsername (VText user) /\
    value_in_force upper l st MqttPassword (VText password) /\ value_in_force upper l st MqttUseTls (VBool tls) /\
    os_broker w (mkbroker (str "ssl://" ++ host ++ str ":" ++ itoa port) client user password tls) = false.
Proof.
  intros (B & _) [C H1 H2 (text & F & T) P]. rewrite (main_rest _ _ _ C H1 H2). unfold rest_of. rewrite F.
  destruct (C101_read lax order other text st (B _ _ F) FO T P) as [R1 R2].
  destruct (toml_decode lax order other text) as [c|] eqn:D; [|discriminate].
  destruct (start_config nilp (Some c) (log_text upper l)) as [sys|] eqn:S; [|discriminate].
  destruct (force_all _ _ _ _ (R2 _ eq_refl) S) as [_ V].
  destruct (load_map wide w (cf_map sys)) as [m|] eqn:M; [|discriminate]. unfold dial.
  destruct (mq_enable (cf_mqtt sys)) eqn:E; [|discriminate]. destruct (os_broker w (broker_of (cf_mqtt sys))) eqn:O; [discriminate|]. intros _.
  assert (forall o, ~ In o [VesselUuid0; VesselUuid1; VesselUuid2; VesselUuid3; VesselUuid4] -> value_in_force upper l st o (get o sys)) as V' by exact V.
  split.
  { exists (cf_map sys), m. split; [apply (V' MapFile); cbn; intuition discriminate|].
    unfold load_map in M. destruct (os_file w (cf_map sys)) as [data|] eqn:ED; [|discriminate].
    apply C100_loaded in M as (x & X1 & X2); [|exact (B _ _ ED)]. exists data, x. auto. }
  split; [rewrite <- E; apply (V' MqttEnable); cbn; intuition discriminate|].
  exists (mq_host (cf_mqtt sys)), (mq_port (cf_mqtt sys)), (mq_client (cf_mqtt sys)), (mq_user (cf_mqtt sys)), (mq_password (cf_mqtt sys)), (mq_tls (cf_mqtt sys)).
  split; [apply (V' MqttHost); cbn; intuition discriminate|]. split; [apply (V' MqttPort); cbn; intuition discriminate|].
  split; [apply (V' MqttClientId); cbn; intuition discriminate|]. split; [apply (V' MqttUsername); cbn; intuition discriminate|].
  split; [apply (V' MqttPassword); cbn; intuition discriminate|]. split; [apply (V' MqttUseTls); cbn; intuition discriminate|]. exact O.
Qed.

(** The interface the table s.k of the file describes. *)
Definition describes (st : list stmt) (s k : bytes) (ic : iface_cfg) : Prop :=
  iface_table st s k /\
  forall f, (exists v, isets st s k f v /\ iget f ic = ivalue f v) \/ ((forall v, ~ isets st s k f v) /\ iget f ic = off (ikind f)).

(** The program that runs does what the command line and the files say. *)
Theorem C104_runs w args l st r : outside_ok w -> given w args l st -> main w args = Runs r ->
  (forall o, ~ uuid_part o -> value_in_force upper l st o (get o (ru_conf r))) /\
  (exists name, get MapFile (ru_conf r) = VText name /\ loads wide w name (ru_maps r)) /\
  (get MqttEnable (ru_conf r) = VBool false -> ru_broker r = None) /\
  (get MqttEnable (ru_conf r) = VBool true -> exists host port client user password tls,
     get MqttHost (ru_conf r) = VText host /\ get MqttPort (ru_conf r) = VInt port /\ get MqttClientId (ru_conf r) = VText client /\
     get MqttUsername (ru_conf r) = VText user /\ get MqttPassword (ru_conf r) = VText password /\ get MqttUseTls (ru_conf r) = VBool tls /\
     let b := mkbroker (str "ssl://" ++ host ++ str ":" ++ itoa port) client user password tls in
     ru_broker r = Some b /\ os_broker w b = true) /\
  (exists port, get ServerPort (ru_conf r) = VInt port /\ ru_http r = Some (str ":" ++ itoa port)) /\
  o_ws (ru_opts r) = true /\ VBool (o_mqtt (ru_opts r)) = get MqttEnable (ru_conf r) /\
  (o_stats (ru_opts r) = true <-> asked l Statistic) /\
  o_pgn (ru_opts r) = last_given (number_of Pgn) l 0 /\ o_src (ru_opts r) = last_given (number_of Source) l 255 /\
  o_dst (ru_opts r) = last_given (number_of Dest) l 255 /\
  (exists s, get LogLevel (ru_conf r) = VText s /\ ru_log r = set_up s) /\
  (exists entries, NoDup (map fst entries) /\ ru_ifs r = map (fun e => connect w (snd e)) entries /\
     (forall k ic, In (k, ic) entries -> exists s, describes st s k ic) /\
     (forall s k, iface_table st s k -> In k (map fst entries))).
Proof.
  intros (B & BD & OP) [C H1 H2 (text & F & T) P]. rewrite (main_rest _ _ _ C H1 H2). unfold rest_of. rewrite F.
  destruct (C101_read lax order other text st (B _ _ F) FO T P) as [R1 R2].
  destruct (toml_decode lax order other text) as [c|] eqn:D; [|discriminate].
  destruct (start_config nilp (Some c) (log_text upper l)) as [sys|] eqn:S; [|discriminate].
  pose proof (R2 _ eq_refl) as SA. destruct (force_all _ _ _ _ SA S) as [IF V].
  destruct (load_map wide w (cf_map sys)) as [m|] eqn:M; [|discriminate]. destruct (dial w (cf_mqtt sys)) as [b|] eqn:DI; [|discriminate].
  intros R. assert (sv_websockets (cf_server sys) = true) as WS.
  { destruct (C67_start nilp c (log_text upper l)) as (r0 & s0 & R0 & S0 & _ & OR & _). rewrite S in S0. injection S0 as <-.
    pose proof (OR ServerEnableWebsockets) as Q. destruct (C67_always_on nilp c) as [A _]. rewrite R0 in A. cbn [fst] in A. rewrite A in Q.
    assert (get ServerEnableWebsockets sys = VBool true) as Q' by (apply Q; discriminate). cbn [get] in Q'. congruence. }
  rewrite WS in R. injection R as <-. cbn [ru_conf ru_log ru_maps ru_opts ru_broker ru_http ru_ifs].
  split; [exact V|]. split.
  { exists (cf_map sys). split; [reflexivity|]. unfold load_map in M. destruct (os_file w (cf_map sys)) as [data|] eqn:E; [|discriminate].
    apply C100_loaded in M as (x & X1 & X2); [|exact (B _ _ E)]. exists data, x. auto. }
  unfold dial in DI. split.
  { intros E. cbn [get] in E. injection E as E. rewrite E in DI. now injection DI as <-. }
  split.
  { intros E. cbn [get] in E. injection E as E. rewrite E in DI. destruct (os_broker w (broker_of (cf_mqtt sys))) eqn:O; [|discriminate].
    injection DI as <-. do 6 eexists. repeat (split; [reflexivity|]). exact O. }
  split; [exists (sv_port (cf_server sys)); auto|]. split; [reflexivity|]. split; [reflexivity|]. split; [unfold asked; cbn; tauto|].
  split; [reflexivity|]. split; [reflexivity|]. split; [reflexivity|]. split; [exists (cf_log sys); auto|].
  destruct SA as (_ & S2 & S3 & S4).
  set (L := match cf_ifaces sys with Some l0 => l0 | None => [] end).
  assert (forall k ic, In (k, ic) (os_order w L) <-> iface_of c k ic) as IN.
  { intros k ic. split.
    - intros I. apply (Permutation_in _ (Permutation_sym (OP L))) in I. subst L. rewrite IF in I. destruct (cf_ifaces c) as [l0|] eqn:E; [|destruct I]. exists l0. auto.
    - intros (l0 & E & I). apply (Permutation_in _ (OP L)). subst L. rewrite IF, E. exact I. }
  exists (os_order w L). split; [|split; [reflexivity|split]].
  - eapply Permutation_NoDup; [apply Permutation_map, OP|]. subst L. rewrite IF. destruct (cf_ifaces c) as [l0|] eqn:E; [now apply S4|constructor].
  - intros k ic I. apply IN in I. destruct (S2 _ _ I) as (s & T1 & T2). exists s. split; assumption.
  - intros s k T1. destruct (S3 _ _ T1) as (ic & I). apply in_map_iff. exists (k, ic). split; [reflexivity|]. now apply IN.
Qed.

(** If the statements fit, the mapping file is one and the broker, if wanted, can be reached, it
    runs. *)
Theorem C104_starts w args l st : outside_ok w -> given w args l st -> fits lax st ->
  (forall name, value_in_force upper l st MapFile (VText name) -> exists t, loads wide w name t) ->
  (value_in_force upper l st MqttEnable (VBool true) -> forall b, os_broker w b = true) ->
  exists r, main w args = Runs r.
Proof.
  intros OK G FI MA BR. pose proof (C104_no_config _ _ _ _ OK G) as NC. destruct (main w args) eqn:M.
  - exfalso. apply C104_usage in M. apply M. exists l. apply G.
  - exfalso. apply (C104_help _ _ _ (gv_line _ _ _ _ G)) in M. now apply (gv_help _ _ _ _ G).
  - exfalso. assert (exists o, main w args = Explained o) as X by eauto. apply (C104_help _ _ _ (gv_line _ _ _ _ G)) in X as [_ X]. now apply (gv_explain _ _ _ _ G).
  - exfalso. now apply (proj1 NC eq_refl).
  - exfalso. destruct (C104_no_map _ _ _ _ OK G M) as (name & V & N). destruct (MA _ V) as [t X]. now apply (N t).
  - exfalso. destruct (C104_no_broker _ _ _ _ OK G M) as (_ & E & ? & ? & ? & ? & ? & ? & _ & _ & _ & _ & _ & _ & X). rewrite (BR E) in X. discriminate X.
  - eauto.
Qed.

(** -explain prints the definitions as JSON (C98). *)
Theorem C104_explain w args l : (forall i j k x, Permutation (ord i j k x) x) -> command_line args l -> ~ asked l FlagsSpec.Help -> asked l FlagsSpec.Explain ->
  exists b vs, main w args = Explained (Some (b ++ [10])) /\ json b (JArr vs) /\
    Forall2 (fun px v => DetailsSpec.definition_means (fst px) (snd px) v) (combine PgnList PgnTexts) vs.
Proof.
  intros O C H1 H2. destruct (C98_explain ord O) as (b & vs & E & J). exists b, vs. split; [|exact J].
  unfold StartModel.main, asked in *. rewrite (line_options _ _ C). cbn [options_of a_help a_explain]. rewrite H2.
  destruct (last_given (switch_of FlagsSpec.Help) l false); [now elim H1|]. now rewrite E.
Qed.

(* ------------------------------------------------------------------ what the running program does *)

Lemma connected_ok w : outside_ok w -> forall ics, Forall input_ok (map (connect w) ics).
Proof.
  intros (_ & B & _) ics. apply Forall_forall. intros i I b X. apply in_map_iff in I as (ic & <- & _). unfold input_of in X. cbn [connect if_dev] in X.
  destruct (os_device w (ic_path ic) (ic_speed ic)) as [|ok out input|] eqn:E; try destruct X as []. eapply B; eassumption.
Qed.
Lemma loaded_paths w name t : outside_ok w -> loads wide w name t -> paths_ok t.
Proof.
  intros (B & _) (data & x & E & D & S). apply (parsed_paths wide data). apply C100_loaded; [exact (B _ _ E)|eauto].
Qed.

(** Every text a client receives, or that is published, comes from a message that arrived on
    one of the interfaces of the configuration file, under a path of the mapping file in force
    (comes_from, C103). *)
Theorem C104_end_to_end w args l st r pl fmtv tag depth jother nilb tr s b : outside_ok w -> given w args l st -> main w args = Runs r ->
  -86400 < pl_tz pl < 86400 -> (forall v, encodable (pl_tz pl) v -> bytes_ok (fmtv v)) ->
  executes pl fmtv (unmarshal_canboat tag depth) (marshal_at jother nilb (pl_tz pl)) r tr (YOk s) ->
  (exists c, In (LRegister c) (stream_actions tr) /\ In b (received c (stream_actions tr))) \/ In (EMqtt b) (effects tr) ->
  exists name t, value_in_force upper l st MapFile (VText name) /\ loads wide w name t /\
    comes_from t pl fmtv (unmarshal_canboat tag depth) jother nilb (ru_ifs r) tr b /\
    forall ifc, In ifc (ru_ifs r) -> exists s k ic, describes st s k ic /\ ifc = connect w ic.
Proof.
  intros OK G M Z1 FV R H. destruct (C104_runs _ _ _ _ _ OK G M) as (V & (name & N1 & N2) & _ & _ & _ & WS & _ & _ & _ & _ & _ & _ & entries & ND & EI & D1 & D2).
  exists name, (ru_maps r). split; [rewrite <- N1; apply V; unfold uuid_part; cbn; intuition discriminate|]. split; [exact N2|].
  pose proof (loaded_paths _ _ _ OK N2) as PO.
  assert (Forall input_ok (ru_ifs r)) as IO by (rewrite EI, <- map_map; apply connected_ok, OK).
  split.
  - destruct H as [(c & H1 & H2)|H].
    + exact (C103_provenance _ _ _ _ _ _ _ _ _ _ _ _ _ _ Z1 PO FV IO WS R H1 H2).
    + exact (C103_mqtt _ _ _ _ _ _ _ _ _ _ _ _ _ Z1 PO FV IO R H).
  - intros ifc I. rewrite EI in I. apply in_map_iff in I as ([k ic] & <- & I). destruct (D1 _ _ I) as [s0 X]. exists s0, k, ic. auto.
Qed.

(** The program ends by itself only because of an interface of the file (C85) or because of the
    mapping file. *)
Theorem C104_death w args l st r pl fmtv tag depth marshal tr : outside_ok w -> given w args l st -> main w args = Runs r ->
  executes pl fmtv (unmarshal_canboat tag depth) marshal r tr YDead ->
  (exists i s k ic, describes st s k ic /\ nth_error (ru_ifs r) i = Some (connect w ic) /\ ends PgnList (ru_ifs r) i (connect w ic)) \/
  (exists name t x path g, value_in_force upper l st MapFile (VText name) /\ loads wide w name t /\ decoded x /\ pm_data x <> [] /\
     SignalkSpec.group_of t (rm_pgn (pm_header x)) path g /\ trouble PgnList (pm_index x) path g).
Proof.
  intros OK G M R. destruct (C104_runs _ _ _ _ _ OK G M) as (V & (name & N1 & N2) & _ & _ & _ & WS & _ & _ & _ & _ & _ & _ & entries & ND & EI & D1 & D2).
  assert (Forall input_ok (ru_ifs r)) as IO by (rewrite EI, <- map_map; apply connected_ok, OK).
  destruct (C85_exact_any _ _ _ _ _ _ _ _ _ (C94_distinct tag depth) IO R) as [(i & ifc & I & D)|(x & path & g & X)].
  - left. pose proof (nth_error_In _ _ I) as J. rewrite EI in J. apply in_map_iff in J as ([k ic] & <- & J). destruct (D1 _ _ J) as [s0 X]. exists i, s0, k, ic. auto.
  - right. exists name, (ru_maps r), x, path, g. split; [rewrite <- N1; apply V; unfold uuid_part; cbn; intuition discriminate|]. split; [exact N2|exact X].
Qed.
End Start.

(* ------------------------------------------------------------------ an example, from the command line to a client *)

Definition boat_conf : bytes := str "# a boat
[Server]
Port = 3000
[Interfaces.Bus]
Path = ""/dev/ttyUSB0""
Type = 'canusb'
Speed = 230400
".
Definition boat_stmts : list stmt :=
  [SHead [str "Server"]; SSet (str "Port") (TInt 3000); SHead [str "Interfaces"; str "Bus"];
   SSet (str "Path") (TStr (str "/dev/ttyUSB0")); SSet (str "Type") (TStr (str "canusb")); SSet (str "Speed") (TInt 230400)].
(** A configuration file, the shipped mapping file, and a bus that carries one message. *)
Definition harbour : outside := mkoutside
  (fun n => if bytes_eqb n (str "boat.conf") then Some boat_conf else if bytes_eqb n (str "map.xml") then Some (str map_xml) else None)
  (fun p s => if bytes_eqb p (str "/dev/ttyUSB0") && (s =? 230400) then DChar true PipelineExamples.quiet course else DMissing)
  (fun _ => false) (fun l => l).

Lemma harbour_ok : outside_ok harbour.
Proof.
  split; [|split].
  - intros n d. cbn [harbour os_file]. destruct (bytes_eqb n (str "boat.conf")); [intros X; injection X as <-; apply XmlProps.bytes_okb; now vm_compute|].
    destruct (bytes_eqb n (str "map.xml")); [intros X; injection X as <-; apply XmlProps.bytes_okb; now vm_compute|discriminate].
  - intros p s ok out input b. cbn [harbour os_device]. destruct (_ && _); [|discriminate]. intros X I. injection X as _ _ <-.
    assert (forallb (fun e => match e with RByte b => (0 <=? b) && (b <? 256) | _ => true end) course = true) as K by (vm_compute; reflexivity).
    rewrite forallb_forall in K. specialize (K _ I). unfold is_byte. cbn in K. lia.
  - intros l. apply Permutation_refl.
Qed.
Lemma boat_tables p : has_table boat_stmts p -> p = [str "Server"] \/ p = [str "Interfaces"] \/ p = [str "Interfaces"; str "Bus"].
Proof.
  intros (NE & q & H). cbn [headers boat_stmts] in H. destruct H as [H|[H|[]]].
  - destruct p as [|a [|b p]]; [now elim NE| |discriminate H]. injection H as <- _. now left.
  - destruct p as [|a [|b [|c p]]]; [now elim NE| | |discriminate H]; cbn [app] in H.
    + injection H as <- _. right. now left.
    + injection H as <- <- _. right. now right.
Qed.
Lemma boat_given : given harbour [str "-config"; str "boat.conf"] [SetText FlagsSpec.Config (str "boat.conf")] boat_stmts.
Proof.
  split.
  - apply (cl_option [str "-config"; str "boat.conf"] (SetText FlagsSpec.Config (str "boat.conf"))); [apply (ow_text (str "-") FlagsSpec.Config); now left|apply cl_end, nm_end].
  - discriminate.
  - discriminate.
  - exists boat_conf. split; [reflexivity|]. split; [apply (lex_sound (S (List.length boat_conf))); vm_compute; reflexivity|].
    assert (plain_text boat_conf) as [A B] by (apply plain_b; vm_compute; reflexivity). auto.
  - split; [|split; [|split]].
    + repeat (constructor; [cbn [In headers boat_stmts]; intros X; repeat (destruct X as [X|X]; [discriminate X|]); exact X|]). constructor.
    + repeat (constructor; [cbn [In map fst assigned boat_stmts app]; intros X; repeat (destruct X as [X|X]; [discriminate X|]); exact X|]). constructor.
    + intros p v G T. apply boat_tables in T. unfold TomlSpec.gives in G. cbn [assigned boat_stmts app] in G.
      repeat (destruct G as [G|G]; [injection G as <- _; destruct T as [T|[T|T]]; discriminate T|]). exact G.
    + intros p q T1 T2 E. apply boat_tables in T1 as [->|[->| ->]]; apply boat_tables in T2 as [->|[->| ->]]; try reflexivity; vm_compute in E; discriminate E.
Qed.
Example C104_example nilp lax other wide ord : fair (fun _ l => l) /\ outside_ok harbour /\
  given harbour [str "-config"; str "boat.conf"] [SetText FlagsSpec.Config (str "boat.conf")] boat_stmts /\
  exists r, main (fun s => s) nilp lax (fun _ l => l) other wide ord harbour [str "-config"; str "boat.conf"] = Runs r /\
    ru_http r = Some (str ":3000") /\ ru_broker r = None /\ ru_ifs r = [bus course] /\
    exists tr s, executes pl0 show (unmarshal_canboat (fun _ => 0) 99) (marshal_at (fun _ => None) false 0) r tr (YOk s) /\
      In (LRegister 7) (stream_actions tr) /\
      received 7 (stream_actions tr) = [str "{""context"":""vessels.urn:mrn:signalk:uuid:c0d79334-4e25-4245-8892-54e8ccc8021d"",""updates"":[{""source"":{""pgn"":129026,""device"":""/dev/actisense"",""src"":5},""timestamp"":""2021-01-01T00:00:00.5Z"",""values"":[{""path"":""navigation.courseOverGroundTrue"",""value"":57.29577951308232}]}]}"].
Proof.
  split; [intros p l; apply Permutation_refl|]. split; [exact harbour_ok|]. split; [exact boat_given|].
  assert (exists c, main (fun s => s) nilp lax (fun _ l => l) other wide ord harbour [str "-config"; str "boat.conf"] =
    Runs (mkrunning c (mklogger false 4) MapXml opts_ws None (Some (str ":3000")) [bus course])) as [c E].
  { rewrite (main_rest _ _ _ _ _ _ _ _ _ _ (gv_line _ _ _ _ boat_given) (gv_help _ _ _ _ boat_given) (gv_explain _ _ _ _ boat_given)).
    unfold rest_of. cbn [harbour os_file].
    assert (bytes_eqb (config_path [SetText FlagsSpec.Config (str "boat.conf")]) (str "boat.conf") = true) as -> by reflexivity.
    destruct (toml_decode lax (fun _ l => l) other boat_conf) as [c0|] eqn:D; [|vm_compute in D; discriminate D].
    vm_compute in D. injection D as <-.
    destruct (start_config nilp _ _) as [c1|] eqn:S; [|destruct nilp; vm_compute in S; discriminate S].
    assert (cf_map c1 = str "map.xml" /\ mq_enable (cf_mqtt c1) = false /\ sv_websockets (cf_server c1) = true /\ sv_port (cf_server c1) = 3000 /\
      cf_log c1 = str "INFO" /\ cf_ifaces c1 = Some [(str "Bus", mkiface (str "/dev/ttyUSB0") (str "canusb") 230400)]) as (K1 & K2 & K3 & K4 & K5 & K6).
    { destruct nilp; vm_compute in S; injection S as <-; repeat split. }
    exists c1. unfold load_map, dial. rewrite K1, K2, K3, K4, K5, K6. cbn [harbour os_file os_order].
    assert (bytes_eqb (str "map.xml") (str "boat.conf") = false) as -> by reflexivity.
    assert (bytes_eqb (str "map.xml") (str "map.xml") = true) as -> by reflexivity.
    rewrite shipped_read. reflexivity. }
  eexists. split; [exact E|]. cbn [ru_http ru_broker ru_ifs]. split; [reflexivity|]. split; [reflexivity|]. split; [reflexivity|].
  destruct C103_example as (_ & tr & s & R & X). exists tr, s. split; [exact R|exact X].
Qed.
