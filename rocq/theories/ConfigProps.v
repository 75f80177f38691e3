(** ConfigProps: the configuration (C67-C69, C77). *)
From Coq Require Import ZifyBool.
From Verif Require Import GoBase BufFacts ApiModel ApiProps ConfigModel ConfigSpec.
Open Scope Z_scope.
Open Scope list_scope.

(* ------------------------------------------------------------ merging *)

Definition unsetb (v : value) : bool :=
  match v with VBool b => negb b | VInt n => n =? 0 | VText s => empty s end.
Lemma unsetb_iff v : unsetb v = true <-> unset v.
Proof.
  unfold unset. destruct v as [b|n|s]; cbn.
  - destruct b; split; intros H; auto; try discriminate H. destruct H as [H|[H|H]]; discriminate H.
  - split; [intros H; right; left; f_equal; lia|]. intros [H|[H|H]]; try discriminate H. injection H as ->. reflexivity.
  - destruct s; split; intros H; auto; try discriminate H. destruct H as [H|[H|H]]; discriminate H.
Qed.
Lemma unset_dec v : unset v \/ ~ unset v.
Proof. destruct (unsetb v) eqn:E; [left; now apply unsetb_iff|]. right. intros U. apply unsetb_iff in U. congruence. Qed.

Definition mval (d s : value) : value := if negb (unsetb s) && unsetb d then s else d.
Lemma mb d s : VBool (merge_bool d s) = mval (VBool d) (VBool s).
Proof. destruct d, s; reflexivity. Qed.
Lemma mi d s : VInt (merge_int d s) = mval (VInt d) (VInt s).
Proof. unfold merge_int, mval. cbn. destruct (negb (s =? 0) && (d =? 0)); reflexivity. Qed.
Lemma ms d s : VText (merge_str d s) = mval (VText d) (VText s).
Proof. unfold merge_str, mval. cbn. destruct (negb (empty s) && empty d); reflexivity. Qed.

Lemma vessel_dec o : vessel_option o \/ ~ vessel_option o.
Proof. unfold vessel_option, uuid_part. destruct o; cbn; intuition (try discriminate). Qed.

Lemma merge_get nilp d s : forall o,
  get o (fst (Merge nilp d s)) = if snd (merge_map nilp (cf_ifaces d) (cf_ifaces s)) then mval (get o d) (get o s)
    else match o with
         | VesselName | VesselManufacturer | VesselModel | VesselYear | VesselMmsi | VesselCallsign | VesselRegistration | VesselUuid
         | VesselUuid0 | VesselUuid1 | VesselUuid2 | VesselUuid3 | VesselUuid4 => get o d
         | _ => mval (get o d) (get o s)
         end.
Proof.
  intros o. unfold Merge. destruct (merge_map nilp (cf_ifaces d) (cf_ifaces s)) as [i ok]. cbn [fst snd].
  destruct ok; destruct o; cbn [get cf_log cf_map cf_server cf_mqtt cf_vessel merge_server merge_mqtt merge_vessel
    sv_websockets sv_tls sv_port sv_listen sv_assets sv_cert sv_public sv_private
    mq_enable mq_tls mq_port mq_host mq_client mq_user mq_password mq_channel
    ve_name ve_manufacturer ve_model ve_year ve_mmsi ve_callsign ve_registration ve_uuid ve_uuid0 ve_uuid1 ve_uuid2 ve_uuid3 ve_uuid4];
    first [apply mb|apply mi|apply ms|reflexivity].
Qed.
Lemma merge_ok nilp d s : snd (Merge nilp d s) = snd (merge_map nilp (cf_ifaces d) (cf_ifaces s)).
Proof. unfold Merge. destruct (merge_map nilp (cf_ifaces d) (cf_ifaces s)); reflexivity. Qed.
Lemma merge_ifaces nilp d s : cf_ifaces (fst (Merge nilp d s)) = fst (merge_map nilp (cf_ifaces d) (cf_ifaces s)).
Proof. unfold Merge. destruct (merge_map nilp (cf_ifaces d) (cf_ifaces s)); reflexivity. Qed.

Lemma mval_same d : mval d d = d.
Proof. unfold mval. now destruct (negb (unsetb d) && unsetb d). Qed.
Lemma mval_twice d s : mval (mval d s) s = mval d s.
Proof. unfold mval. destruct (unsetb s) eqn:S, (unsetb d) eqn:D; cbn; rewrite ?S, ?D; reflexivity. Qed.

(* ------------------------------------------------------------ C67: reading *)

Lemma default_get o v : default o v -> get o default_config = v /\ ~ unset v.
Proof. intros D. split; [destruct D; reflexivity|]. intros U. apply unsetb_iff in U. destruct D; discriminate U. Qed.
Lemma no_default_get o : (forall v, ~ default o v) -> unset (get o default_config).
Proof.
  intros N. apply unsetb_iff. destruct o; try reflexivity; exfalso; eapply N; constructor.
Qed.
Lemma uuid_dec o : uuid_part o \/ ~ uuid_part o.
Proof. unfold uuid_part. destruct o; cbn; intuition (try discriminate). Qed.

(** C67: ReadConfig gives every option (other than the parts of the UUID, see C68) the value in
    the file if that is set, else its default if it has one; the interfaces are those of
    the file.  A file that cannot be decoded is an error. *)
Theorem C67_read nilp c : exists r, ReadConfig nilp (Some c) = (r, true) /\ cf_ifaces r = cf_ifaces c /\
  forall o, ~ uuid_part o ->
    (~ unset (get o c) -> get o r = get o c) /\
    (unset (get o c) -> forall v, default o v -> get o r = v) /\
    ((forall v, ~ default o v) -> get o r = get o c).
Proof.
  unfold ReadConfig. pose proof (merge_get nilp c default_config) as G. pose proof (merge_ok nilp c default_config) as OK.
  pose proof (merge_ifaces nilp c default_config) as MI.
  assert (merge_map nilp (cf_ifaces c) (cf_ifaces default_config) = (cf_ifaces c, true)) as E.
  { unfold merge_map. cbn [cf_ifaces default_config]. now destruct (cf_ifaces c). }
  rewrite E in G, OK, MI. cbn [fst snd] in G, OK, MI. destruct (Merge nilp c default_config) as [m ok]. cbn [fst snd] in *. subst ok.
  eexists. split; [reflexivity|]. cbn [cf_ifaces]. split; [exact MI|].
  intros o NU. set (r := mkconfig _ _ _ _ _ _).
  assert (get o r = get o m) as ->.
  { subst r. unfold set_uuid_parts. destruct o; try reflexivity; try (exfalso; apply NU; cbn; tauto);
      cbn [get cf_vessel]; destruct (split_at 45 (ve_uuid (cf_vessel m))) as [|u0 [|u1 [|u2 [|u3 [|u4 [|u5 l]]]]]]; reflexivity. }
  rewrite G. unfold mval. repeat split.
  - intros NS. destruct (unsetb (get o c)) eqn:U; [apply unsetb_iff in U; contradiction|]. now rewrite andb_false_r.
  - intros US v D. apply default_get in D as [Dv Dn]. rewrite Dv. rewrite (proj2 (unsetb_iff _) US).
    destruct (unsetb v) eqn:U; [apply unsetb_iff in U; contradiction|]. reflexivity.
  - intros ND. apply no_default_get in ND. now rewrite (proj2 (unsetb_iff _) ND).
Qed.
Theorem C67_undecodable nilp log_option : snd (ReadConfig nilp None) = false /\ start_config nilp None log_option = None.
Proof. split; reflexivity. Qed.
(** At start-up the command line's log level takes precedence; nothing else changes. *)
Theorem C67_start nilp c log_option : exists r s, ReadConfig nilp (Some c) = (r, true) /\ start_config nilp (Some c) log_option = Some s /\
  cf_ifaces s = cf_ifaces r /\ (forall o, o <> LogLevel -> get o s = get o r) /\
  (log_option = [] -> s = r) /\ (log_option <> [] -> get LogLevel s = VText log_option).
Proof.
  destruct (C67_read nilp c) as (r & E & I & _). exists r. unfold start_config. rewrite E. eexists. split; [reflexivity|]. split; [reflexivity|].
  destruct log_option as [|x l]; cbn [empty].
  - repeat split; try reflexivity. congruence.
  - split; [reflexivity|]. split; [|split; [discriminate|reflexivity]]. intros o N. destruct o; try reflexivity. congruence.
Qed.
(** Switching an option off in the file, or setting it to 0 or to the empty text, is not
    honoured where the default is something else: the websockets and TLS are always on. *)
Theorem C67_always_on nilp c : get ServerEnableWebsockets (fst (ReadConfig nilp (Some c))) = VBool true /\
  get MqttUseTls (fst (ReadConfig nilp (Some c))) = VBool true.
Proof.
  destruct (C67_read nilp c) as (r & E & _ & H). rewrite E. cbn [fst]. split.
  - destruct (H ServerEnableWebsockets) as (H1 & H2 & _); [unfold uuid_part; cbn; intuition discriminate|].
    destruct (unset_dec (get ServerEnableWebsockets c)) as [U|U]; [apply H2; [exact U|constructor]|]. rewrite (H1 U).
    cbn in *. destruct (sv_websockets (cf_server c)); [reflexivity|]. destruct U. now left.
  - destruct (H MqttUseTls) as (H1 & H2 & _); [unfold uuid_part; cbn; intuition discriminate|].
    destruct (unset_dec (get MqttUseTls c)) as [U|U]; [apply H2; [exact U|constructor]|]. rewrite (H1 U).
    cbn in *. destruct (mq_tls (cf_mqtt c)); [reflexivity|]. destruct U. now left.
Qed.
Theorem C67_explicit_refuted nilp o v : default o v -> exists c, unset (get o c) /\ get o (fst (ReadConfig nilp (Some c))) <> get o c.
Proof.
  intros D. 
  exists (mkconfig [] [] (mkserver false false 0 [] [] [] [] []) (mkmqtt false false 0 [] [] [] [] []) None (mkvessel [] [] [] 0 0 [] [] [] [] [] [] [] [])).
  set (c := mkconfig _ _ _ _ _ _).
  assert (unset (get o c)) as U by (apply unsetb_iff; destruct o; reflexivity). split; [exact U|].
  destruct (C67_read nilp c) as (r & E & _ & H). rewrite E. cbn [fst].
  destruct (H o) as (_ & H2 & _). { destruct D; unfold uuid_part; cbn; intuition discriminate. }
  rewrite (H2 U v D). apply default_get in D as [_ D]. congruence.
Qed.
Definition sample_config : config :=
  mkconfig (str "DEBUG") [] (mkserver false true 8000 [] [] [] [] []) (mkmqtt true false 0 (str "broker") [] [] [] [])
    (Some [(str "Wind", mkiface (str "wind.json") (str "file") 0)])
    (mkvessel (str "SS Minnow") [] [] 1964 0 [] [] (str "a-b-c-d-e") [] [] [] [] []).
Example C67_example nilp : fst (ReadConfig nilp (Some sample_config)) =
  mkconfig (str "DEBUG") (str "map.xml") (mkserver true true 8000 [] (str "./assets") [] [] [])
    (mkmqtt true true 8883 (str "broker") (str "argo") (str "signalk") (str "signalk") (str "signalk/argo"))
    (Some [(str "Wind", mkiface (str "wind.json") (str "file") 0)])
    (mkvessel (str "SS Minnow") [] [] 1964 0 [] [] (str "a-b-c-d-e") (str "a") (str "b") (str "c") (str "d") (str "e")).
Proof. vm_compute. reflexivity. Qed.

(* ------------------------------------------------------------ C68: parts of the UUID *)

Lemma split_parts s : has_parts s (split_at 45 s).
Proof.
  induction s as [|c s (N & F & D)].
  - cbn. split; [discriminate|]. split; [constructor; [intros []|constructor]|reflexivity].
  - cbn [split_at]. destruct (Z.eqb_spec c 45) as [->|NE].
    + split; [discriminate|]. split; [constructor; [intros []|exact F]|].
      destruct (split_at 45 s) as [|p ps]; [now destruct N|]. cbn [dashed app]. now rewrite <- D.
    + destruct (split_at 45 s) as [|p ps]; [now destruct N|]. split; [discriminate|]. inversion F as [|? ? Np Fp]; subst. split.
      * constructor; [|exact Fp]. intros [X|X]; [congruence|contradiction].
      * cbn [dashed]. destruct ps; reflexivity.
Qed.
Lemma parts_unique s : forall l m, has_parts s l -> has_parts s m -> l = m.
Proof.
  assert (forall l m, l <> [] -> m <> [] -> Forall (fun p => ~ In 45 p) l -> Forall (fun p => ~ In 45 p) m -> dashed l = dashed m -> l = m) as K.
  { assert (forall a b x y : bytes, ~ In 45 a -> ~ In 45 b -> a ++ 45 :: x = b ++ 45 :: y -> a = b /\ x = y) as INJ.
    { induction a as [|c a IH]; intros [|d b] x y Na Nb E.
      - injection E as E. auto.
      - injection E as E _. subst d. destruct Nb. now left.
      - injection E as E _. subst c. destruct Na. now left.
      - injection E as -> E. destruct (IH b x y) as [-> ->]; [..|exact E|auto]; intros X; [apply Na|apply Nb]; now right. }
    induction l as [|p l IH]; intros m Nl Nm Fl Fm E; [now destruct Nl|]. destruct m as [|q m]; [now destruct Nm|].
    inversion Fl as [|? ? Np Fl']; inversion Fm as [|? ? Nq Fm']; subst.
    destruct l as [|p2 l], m as [|q2 m].
    - cbn in E. now subst.
    - cbn [dashed] in E. destruct Np. rewrite E. apply in_or_app. right. now left.
    - cbn [dashed] in E. destruct Nq. rewrite <- E. apply in_or_app. right. now left.
    - change (p ++ 45 :: dashed (p2 :: l) = q ++ 45 :: dashed (q2 :: m)) in E. apply INJ in E as [-> E]; [|assumption|assumption].
      f_equal. apply IH; try discriminate; assumption. }
  intros l m (A & B & C) (A' & B' & C'). apply K; try assumption. congruence.
Qed.

(** C68: if the UUID consists of five parts between dashes these become the options Uuid0 to
    Uuid4, and joined by dashes they are the UUID; otherwise those options stay as they are
    (empty: a file cannot set them). *)
Theorem C68_parts nilp c r : ReadConfig nilp (Some c) = (r, true) ->
  ve_uuid (cf_vessel r) = ve_uuid (cf_vessel c) /\
  (forall u0 u1 u2 u3 u4, has_parts (ve_uuid (cf_vessel c)) [u0; u1; u2; u3; u4] ->
     get VesselUuid0 r = VText u0 /\ get VesselUuid1 r = VText u1 /\ get VesselUuid2 r = VText u2 /\
     get VesselUuid3 r = VText u3 /\ get VesselUuid4 r = VText u4) /\
  ((forall l, has_parts (ve_uuid (cf_vessel c)) l -> List.length l <> 5%nat) ->
     forall o, uuid_part o -> get o r = get o c).
Proof.
  unfold ReadConfig. pose proof (merge_get nilp c default_config) as G. pose proof (merge_ok nilp c default_config) as OK.
  assert (merge_map nilp (cf_ifaces c) (cf_ifaces default_config) = (cf_ifaces c, true)) as E.
  { unfold merge_map. cbn [cf_ifaces default_config]. now destruct (cf_ifaces c). }
  rewrite E in G, OK. cbn [fst snd] in G, OK. destruct (Merge nilp c default_config) as [m ok]. cbn [fst snd] in *. subst ok.
  intros H. injection H as <-. cbn [cf_vessel].
  assert (forall o, vessel_option o -> get o m = get o c) as GV.
  { intros o V. rewrite G. unfold mval. unfold vessel_option, uuid_part in V.
    destruct o; cbn in V; try (exfalso; intuition discriminate); reflexivity. }
  assert (ve_uuid (cf_vessel m) = ve_uuid (cf_vessel c)) as EU.
  { specialize (GV VesselUuid). cbn [get] in GV. assert (VText (ve_uuid (cf_vessel m)) = VText (ve_uuid (cf_vessel c))) as X; [|now injection X].
    apply GV. unfold vessel_option. cbn. tauto. }
  pose proof (split_parts (ve_uuid (cf_vessel m))) as SP. unfold set_uuid_parts. split; [|split].
  - destruct (split_at 45 (ve_uuid (cf_vessel m))) as [|w0 [|w1 [|w2 [|w3 [|w4 [|w5 l]]]]]]; exact EU.
  - intros u0 u1 u2 u3 u4 HP. rewrite <- EU in HP. rewrite (parts_unique _ _ _ SP HP). cbn. auto.
  - intros N5 o U. rewrite <- GV by (left; exact U).
    assert (List.length (split_at 45 (ve_uuid (cf_vessel m))) <> 5%nat) as NL by (apply N5; rewrite <- EU; exact SP).
    destruct (split_at 45 (ve_uuid (cf_vessel m))) as [|w0 [|w1 [|w2 [|w3 [|w4 [|w5 l]]]]]]; try (now destruct NL); destruct o; reflexivity.
Qed.
(** Every text has exactly one division into parts. *)
Theorem C68_division s : exists l, has_parts s l /\ forall m, has_parts s m -> m = l.
Proof. exists (split_at 45 s). split; [apply split_parts|]. intros m H. exact (parts_unique _ _ _ H (split_parts s)). Qed.
Example C68_example : has_parts (str "1B4E28BA-2FA1-11D2-883F-0016D3CCA427")
    [str "1B4E28BA"; str "2FA1"; str "11D2"; str "883F"; str "0016D3CCA427"] /\
  has_parts (str "a--b") [str "a"; []; str "b"].
Proof.
  assert (forall s l, split_at 45 s = l -> has_parts s l) as K by (intros s l <-; apply split_parts).
  split; apply K; vm_compute; reflexivity.
Qed.

(* ------------------------------------------------------------ C69: updates from the admin page *)

(** The running configuration after a sequence of updates (decoded POST bodies). *)
Definition updates (nilp : bool) (c : config) (ds : list config) : config :=
  fold_left (fun c d => fst (admin_merge nilp c true (Some d))) ds c.
Lemma admin_merge_fst nilp c d : fst (admin_merge nilp c true (Some d)) = fst (Merge nilp c d).
Proof. unfold admin_merge. now destruct (Merge nilp c d). Qed.
(** The map of interfaces can take entries. *)
Definition can_add (nilp : bool) (c : config) : Prop := nilp = false \/ cf_ifaces c <> None.
Lemma can_add_ok nilp c d : can_add nilp c -> snd (merge_map nilp (cf_ifaces c) (cf_ifaces d)) = true.
Proof. unfold can_add, merge_map. intros H. destruct (cf_ifaces c), (cf_ifaces d) as [[|x l0]|]; try reflexivity. destruct H as [->|H]; [reflexivity|congruence]. Qed.
Lemma can_add_keep nilp c d : can_add nilp c -> can_add nilp (fst (Merge nilp c d)).
Proof.
  unfold can_add. intros [->|H]; [now left|]. right. rewrite merge_ifaces. unfold merge_map.
  destruct (cf_ifaces c); [|congruence]. destruct (cf_ifaces d); discriminate.
Qed.

(** C69: after any sequence of updates every option has the first value that was set, starting
    with the value before them: a set option never changes again. *)
Theorem C69_updates nilp ds : forall c, can_add nilp c -> forall o, first_set (map (get o) (c :: ds)) (get o (updates nilp c ds)).
Proof.
  induction ds as [|d ds IH]; intros c CA o.
  - cbn. destruct (unset_dec (get o c)) as [U|U].
    + right. split; [constructor; [exact U|constructor]|exact U].
    + left. exists [], []. split; [reflexivity|]. split; [constructor|exact U].
  - unfold updates in *. cbn [fold_left]. rewrite admin_merge_fst. specialize (IH (fst (Merge nilp c d)) (can_add_keep nilp c d CA) o).
    set (res := fold_left _ ds _) in *. clearbody res.
    cbn [map] in *. rewrite merge_get, (can_add_ok nilp c d CA) in IH. unfold mval in IH.
    destruct (unset_dec (get o c)) as [U|U].
    + assert (first_set (get o d :: map (get o) ds) (get o res)) as IH2.
      { rewrite (proj2 (unsetb_iff _) U), andb_true_r in IH. destruct (unsetb (get o d)) eqn:E; cbn [negb] in IH; [|exact IH].
        apply unsetb_iff in E. destruct IH as [(a & b & L & A & B)|[A B]].
        - destruct a as [|x a]; [injection L as L1 _; exfalso; apply B; rewrite <- L1; exact U|]. injection L as <- L.
          left. exists (get o d :: a), b. rewrite L. split; [reflexivity|]. split; [|exact B]. constructor; [exact E|]. now inversion A.
        - right. split; [|exact B]. constructor; [exact E|]. now inversion A. }
      destruct IH2 as [(a & b & L & A & B)|[A B]].
      * left. exists (get o c :: a), b. rewrite L. split; [reflexivity|]. split; [now constructor|exact B].
      * right. split; [now constructor|exact B].
    + assert (unsetb (get o c) = false) as E. { destruct (unsetb (get o c)) eqn:E; [apply unsetb_iff in E; contradiction|reflexivity]. }
      rewrite E, andb_false_r in IH. destruct IH as [(a & b & L & A & B)|[A B]].
      * destruct a as [|x a]; [|exfalso; injection L as <- _; inversion A; contradiction].
        injection L as L _. left. exists [], (get o d :: map (get o) ds). rewrite <- L. split; [reflexivity|]. rewrite <- L in B. split; [constructor|exact B].
      * exfalso. inversion A. contradiction.
Qed.
(** In all cases a set option keeps its value. *)
Theorem C69_keeps nilp ds : forall c o, ~ unset (get o c) -> get o (updates nilp c ds) = get o c.
Proof.
  induction ds as [|d ds IH]; intros c o N; [reflexivity|]. unfold updates in *. cbn [fold_left]. rewrite admin_merge_fst.
  assert (get o (fst (Merge nilp c d)) = get o c) as E.
  { rewrite merge_get. assert (mval (get o c) (get o d) = get o c) as ->.
    { unfold mval. destruct (unsetb (get o c)) eqn:U; [apply unsetb_iff in U; contradiction|]. now rewrite andb_false_r. }
    destruct (snd (merge_map nilp (cf_ifaces c) (cf_ifaces d))); [reflexivity|]. destruct o; reflexivity. }
  rewrite IH; congruence.
Qed.
Lemma started_set nilp file log_option c o v : start_config nilp (Some file) log_option = Some c -> default o v -> ~ unset (get o c).
Proof.
  intros S D. destruct (C67_start nilp file log_option) as (r & s & R & S' & _ & SO & L0 & L1).
  rewrite S in S'. injection S' as <-.
  assert (~ unset (get o r)) as NR.
  { destruct (C67_read nilp file) as (r' & R' & _ & H). rewrite R in R'. injection R' as <-.
    destruct (H o) as (H1 & H2 & _). { destruct D; unfold uuid_part; cbn; intuition discriminate. }
    destruct (unset_dec (get o file)) as [U|U]; [rewrite (H2 U v D); now apply default_get in D|now rewrite (H1 U)]. }
  destruct (list_eq_dec Z.eq_dec log_option []) as [E|E]; [now rewrite (L0 E)|].
  assert (o = LogLevel \/ o <> LogLevel) as [->|N] by (destruct o; auto; right; discriminate); [|now rewrite (SO o N)].
  rewrite (L1 E). intros U. apply unsetb_iff in U. destruct log_option; [congruence|discriminate U].
Qed.
(** So options with a default cannot be changed on the admin page at all. *)
Theorem C69_defaults_fixed nilp file log_option c ds o v : start_config nilp (Some file) log_option = Some c -> default o v ->
  get o (updates nilp c ds) = get o c.
Proof.
  intros S D. apply C69_keeps. exact (started_set nilp file log_option c o v S D).
Qed.
(** Repeating an update changes nothing. *)
Theorem C69_repeat nilp c d : updates nilp c [d; d] = updates nilp c [d].
Proof.
  unfold updates. cbn [fold_left]. rewrite !admin_merge_fst.
  assert (forall a b, merge_str (merge_str a b) b = merge_str a b) as MS.
  { intros a b. unfold merge_str. destruct (empty b) eqn:B, (empty a) eqn:A; cbn; rewrite ?A, ?B; reflexivity. }
  assert (forall a b, merge_bool (merge_bool a b) b = merge_bool a b) as MB by (intros [] []; reflexivity).
  assert (forall a b, merge_int (merge_int a b) b = merge_int a b) as MI.
  { intros a b. unfold merge_int. destruct (b =? 0) eqn:B, (a =? 0) eqn:A; cbn; rewrite ?A, ?B; reflexivity. }
  assert (forall x y, merge_map nilp (fst (merge_map nilp x y)) y = merge_map nilp x y) as MM.
  { intros x [[|kv s]|]; destruct x as [l|]; try reflexivity.
    - cbn [merge_map filter fst]. now rewrite !app_nil_r.
    - cbn [merge_map fst]. f_equal. f_equal. set (q := kv :: s). clearbody q.
      set (g := fun kv0 : bytes * iface_cfg => match if_find l (fst kv0) with Some _ => false | None => true end).
      assert (forall e, In e q -> if_find (l ++ filter g q) (fst e) <> None) as AL.
      { intros e I. assert (if_find l (fst e) <> None \/ In e (filter g q)) as [X|X].
        { destruct (if_find l (fst e)) eqn:F; [left; discriminate|]. right. apply filter_In. split; [exact I|]. unfold g. now rewrite F. }
        - clear - X. generalize (filter g q). clear g q. intros m. induction l as [|[k v] l IH]; cbn [if_find app] in *; [congruence|].
          destruct (bytes_eqb k (fst e)); [discriminate|auto].
        - clear - X. revert X. generalize (filter g q). clear g q. intros m X. induction l as [|[k v] l IH]; cbn [if_find app] in *.
          + induction m as [|[k v] r IH2]; [contradiction|]. cbn [if_find]. destruct (bytes_eqb k (fst e)) eqn:B; [discriminate|].
            destruct X as [X|X]; [subst e; cbn in B; assert (bytes_eqb k k = true) by (now apply bytes_eqb_eq); congruence|auto].
          + destruct (bytes_eqb k (fst e)); [discriminate|exact IH]. }
      assert (filter (fun kv0 : bytes * iface_cfg => match if_find (l ++ filter g q) (fst kv0) with Some _ => false | None => true end) q = []) as ->.
      { generalize (l ++ filter g q) AL. clear. intros m AL. induction q as [|e q IH]; [reflexivity|]. cbn [filter].
        destruct (if_find m (fst e)) eqn:F; [apply IH; intros e' I; apply AL; now right|]. destruct (AL e); [now left|exact F]. }
      now rewrite app_nil_r.
    - destruct nilp; [reflexivity|]. change (merge_map false (fst (merge_map false None (Some (kv :: s)))) (Some (kv :: s)))
        with (Some ((kv :: s) ++ filter (fun kv0 : bytes * iface_cfg => match if_find (kv :: s) (fst kv0) with Some _ => false | None => true end) (kv :: s)), true).
      change (merge_map false None (Some (kv :: s))) with (Some (kv :: s), true).
      set (q := kv :: s). assert (forall e, In e q -> if_find q (fst e) <> None) as AL.
      { clearbody q. clear. induction q as [|[k v] r IH2]; intros e I; [contradiction|]. cbn. destruct (bytes_eqb k (fst e)) eqn:B; [discriminate|].
        destruct I as [X|X]; [subst e; cbn in B; assert (bytes_eqb k k = true) by (now apply bytes_eqb_eq); congruence|auto]. }
      assert (forall m r, (forall e, In e r -> if_find m (fst e) <> None) -> filter (fun kv0 : bytes * iface_cfg => match if_find m (fst kv0) with Some _ => false | None => true end) r = []) as FE.
      { clear. intros m r AL. induction r as [|e r IH]; [reflexivity|]. cbn [filter].
        destruct (if_find m (fst e)) eqn:F; [apply IH; intros e' I; apply AL; now right|]. destruct (AL e); [now left|exact F]. }
      rewrite (FE q q AL). now rewrite app_nil_r. }
  unfold Merge at 1. rewrite merge_ifaces, MM. unfold Merge. destruct (merge_map nilp (cf_ifaces c) (cf_ifaces d)) as [i ok]. cbn [fst snd].
  unfold merge_server, merge_mqtt, merge_vessel. cbn [cf_log cf_map cf_server cf_mqtt cf_vessel
    sv_websockets sv_tls sv_port sv_listen sv_assets sv_cert sv_public sv_private
    mq_enable mq_tls mq_port mq_host mq_client mq_user mq_password mq_channel].
  rewrite !MS, !MB, !MI. destruct ok; [|reflexivity].
  cbn [ve_name ve_manufacturer ve_model ve_year ve_mmsi ve_callsign ve_registration ve_uuid ve_uuid0 ve_uuid1 ve_uuid2 ve_uuid3 ve_uuid4].
  now rewrite !MS, !MI.
Qed.
(** An interface that exists is never changed; a new one is added whole. *)
Lemma find_in l k i : NoDup (map fst l) -> (In (k, i) l <-> if_find l k = Some i).
Proof.
  induction l as [|[x v] l IH]; intros ND; [cbn; split; [intros []|discriminate]|]. cbn [map fst] in ND. inversion ND as [|? ? NI ND']; subst.
  cbn [In if_find]. destruct (bytes_eqb x k) eqn:B.
  - apply bytes_eqb_eq in B. subst x. split.
    + intros [E|E]; [now injection E as ->|]. destruct NI. change k with (fst (k, i)). now apply in_map.
    + intros E. injection E as ->. now left.
  - rewrite <- (IH ND'). split; [|auto]. intros [E|E]; [|exact E]. injection E as -> ->. assert (bytes_eqb k k = true) by (now apply bytes_eqb_eq). congruence.
Qed.
Theorem C69_interfaces nilp c d : can_add nilp c -> well_keyed c -> well_keyed d ->
  well_keyed (updates nilp c [d]) /\
  forall k i, iface_of (updates nilp c [d]) k i <-> iface_of c k i \/ (~ (exists j, iface_of c k j) /\ iface_of d k i).
Proof.
  intros CA WC WD. unfold updates. cbn [fold_left]. rewrite admin_merge_fst. unfold well_keyed, iface_of in *. rewrite merge_ifaces.
  unfold merge_map, can_add in *. destruct (cf_ifaces c) as [l|], (cf_ifaces d) as [s|]; cbn [fst].
  - specialize (WC l eq_refl). specialize (WD s eq_refl).
    set (g := fun kv0 : bytes * iface_cfg => match if_find l (fst kv0) with Some _ => false | None => true end).
    assert (forall k, if_find l k = None <-> ~ In k (map fst l)) as FN.
    { clear. intros k. induction l as [|[x v] l IH]; cbn; [intuition|]. destruct (bytes_eqb x k) eqn:B.
      - apply bytes_eqb_eq in B. split; [discriminate|]. intros H. destruct H. now left.
      - rewrite IH. split; [|tauto]. intros N [X|X]; [subst x; assert (bytes_eqb k k = true) by (now apply bytes_eqb_eq); congruence|contradiction]. }
    split.
    + intros l' E. injection E as <-. rewrite map_app.
      assert (forall r, NoDup (map fst r) -> NoDup (map fst (filter g r))) as NF.
      { induction r as [|e r IH]; intros ND; [constructor|]. cbn [map] in ND. inversion ND as [|? ? NI ND']; subst. cbn [filter].
        destruct (g e); [|now apply IH]. cbn [map]. constructor; [|now apply IH]. intros I. apply NI.
        apply in_map_iff in I as (x & E & I). apply filter_In in I as [I _]. rewrite <- E. now apply in_map. }
      clear - WC WD NF FN. assert (forall k, In k (map fst l) -> ~ In k (map fst (filter g s))) as DJ.
      { intros k I J. apply in_map_iff in J as (e & E & J). apply filter_In in J as [_ J]. unfold g in J.
        destruct (if_find l (fst e)) eqn:F; [discriminate J|]. apply FN in F. congruence. }
      specialize (NF s WD). clear FN. induction l as [|e l IH]; [exact NF|]. cbn [map app]. cbn [map] in WC. inversion WC as [|? ? NI ND']; subst.
      clear IH. assert (forall a b : list bytes, NoDup a -> NoDup b -> (forall k, In k a -> ~ In k b) -> NoDup (a ++ b)) as NA.
      { induction a as [|x a IH]; intros b Na Nb D; [exact Nb|]. inversion Na; subst. cbn. constructor.
        - intros I. apply in_app_or in I as [I|I]; [contradiction|]. exact (D x (or_introl eq_refl) I).
        - apply IH; try assumption. intros k I. apply D. now right. }
      apply (NA (fst e :: map fst l)); [exact WC|exact NF|exact DJ].
    + intros k i. split.
      * intros (l' & E & I). injection E as <-. apply in_app_or in I as [I|I]; [left; eauto|]. right. apply filter_In in I as [I J]. unfold g in J. cbn [fst] in J.
        destruct (if_find l k) eqn:F; [discriminate J|]. apply FN in F. split; [|eauto]. intros (j & l' & E & Ij). injection E as <-.
        apply F. change k with (fst (k, j)). now apply in_map.
      * intros [(l' & E & I)|(N & l' & E & I)]; injection E as <-; eexists; (split; [reflexivity|]); apply in_or_app; [now left|right].
        apply filter_In. split; [exact I|]. unfold g. cbn [fst]. destruct (if_find l k) as [j|] eqn:F; [|reflexivity].
        destruct N. exists j, l. split; [reflexivity|]. now apply find_in.
  - split; [intros l' E; injection E as <-; now apply WC|]. intros k i. split; [intros (l' & E & I); injection E as <-; left; eauto|].
    intros [H|(_ & l' & E & _)]; [exact H|discriminate E].
  - destruct CA as [->|CA]; [|congruence]. destruct s as [|e s]; cbn [fst].
    + split; [intros l' E; discriminate E|]. intros k i. split; [intros (l' & E & _); discriminate E|].
      intros [(l' & E & _)|(_ & l' & E & I)]; [discriminate E|]. injection E as <-. destruct I.
    + split; [intros l' E; injection E as <-; now apply WD|]. intros k i. split.
      * intros (l' & E & I). injection E as <-. right. split; [intros (j & l' & E & _); discriminate E|eauto].
      * intros [(l' & E & _)|(_ & l' & E & I)]; [discriminate E|]. injection E as <-. eauto.
  - split; [intros l' E; discriminate E|]. intros k i. split; [intros (l' & E & _); discriminate E|].
    intros [(l' & E & _)|(_ & l' & E & I)]; discriminate E.
Qed.
(** Without a map to add to (no interface configured, and a merge library that does not make
    one) an update that brings interfaces fails, half done: the vessel's options and the
    interfaces stay as they were, the others are updated, nothing is saved. *)
Theorem C69_nil_map c d l : cf_ifaces c = None -> cf_ifaces d = Some l -> l <> [] ->
  exists r, admin_merge true c true (Some d) = (r, APanic) /\ cf_ifaces r = None /\
    (forall o, vessel_option o -> get o r = get o c) /\ (forall o, ~ vessel_option o -> first_set [get o c; get o d] (get o r)).
Proof.
  intros C D N. exists (fst (Merge true c d)).
  assert (merge_map true (cf_ifaces c) (cf_ifaces d) = (None, false)) as E by (rewrite C, D; destruct l; [congruence|reflexivity]).
  split; [unfold admin_merge; pose proof (merge_ok true c d) as O; rewrite E in O; destruct (Merge true c d); cbn in *; now subst|].
  split; [now rewrite merge_ifaces, E|]. pose proof (merge_get true c d) as G. rewrite E in G. cbn [snd] in G. split.
  - intros o V. rewrite G. unfold vessel_option, uuid_part in V. destruct o; try reflexivity; cbn in V; exfalso; intuition discriminate.
  - intros o V. assert (get o (fst (Merge true c d)) = mval (get o c) (get o d)) as ->.
    { rewrite G. destruct o; try reflexivity; exfalso; apply V; unfold vessel_option, uuid_part; cbn; tauto. }
    unfold mval. destruct (unset_dec (get o c)) as [U|U].
    + rewrite (proj2 (unsetb_iff _) U), andb_true_r. destruct (unset_dec (get o d)) as [W|W].
      * rewrite (proj2 (unsetb_iff _) W). right. split; [|exact U]. constructor; [exact U|constructor; [exact W|constructor]].
      * assert (unsetb (get o d) = false) as -> by (destruct (unsetb (get o d)) eqn:X; [apply unsetb_iff in X; contradiction|reflexivity]).
        left. exists [get o c], []. split; [reflexivity|]. split; [constructor; [exact U|constructor]|exact W].
    + assert (unsetb (get o c) = false) as -> by (destruct (unsetb (get o c)) eqn:X; [apply unsetb_iff in X; contradiction|reflexivity]).
      rewrite andb_false_r. left. exists [], [get o d]. split; [reflexivity|]. split; [constructor|exact U].
Qed.
(** A request that is no POST, or whose body does not decode, changes nothing. *)
Theorem C69_rejected nilp c data : admin_merge nilp c false data = (c, AIgnored) /\ admin_merge nilp c true None = (c, ABadRequest).
Proof. split; reflexivity. Qed.
Example C69_example nilp : exists c, start_config nilp (Some sample_config) [] = Some c /\
  let d := mkconfig (str "NONE") [] (mkserver false false 9090 (str "lo") [] [] [] []) (mkmqtt false false 0 [] [] [] [] [])
    (Some [(str "Wind", mkiface [] (str "canusb") 0); (str "Bus", mkiface (str "/dev/ttyUSB2") (str "canusb") 230400)]) (mkvessel (str "X") (str "Wheeler") [] 0 0 [] [] [] [] [] [] [] []) in
  can_add nilp c /\ well_keyed c /\ well_keyed d /\
  get LogLevel (updates nilp c [d]) = VText (str "DEBUG") /\ get ServerPort (updates nilp c [d]) = VInt 8000 /\
  get ServerListenOn (updates nilp c [d]) = VText (str "lo") /\ get VesselManufacturer (updates nilp c [d]) = VText (str "Wheeler") /\
  iface_of (updates nilp c [d]) (str "Bus") (mkiface (str "/dev/ttyUSB2") (str "canusb") 230400) /\
  iface_of (updates nilp c [d]) (str "Wind") (mkiface (str "wind.json") (str "file") 0).
Proof.
  eexists. split; [vm_compute; reflexivity|]. cbv zeta.
  split; [right; discriminate|].
  split; [intros l E; injection E as <-; repeat constructor; cbn; intuition discriminate|].
  split; [intros l E; injection E as <-; repeat constructor; cbn; intuition discriminate|].
  repeat split; try (vm_compute; reflexivity).
  - eexists. split; [vm_compute; reflexivity|]. right. left. reflexivity.
  - eexists. split; [vm_compute; reflexivity|]. left. reflexivity.
Qed.

(* ------------------------------------------------------------ C77: enabling MQTT while running *)

(** The update turns MQTT on. *)
Definition enables (e : live_event) : Prop := exists d, e = LAdmin true (Some d) /\ get MqttEnable d = VBool true.
Definition deltas (es : list live_event) : list bytes := flat_map (fun e => match e with LDelta b => [b] | _ => [] end) es.

Lemma admin_enable nilp c post data : mq_enable (cf_mqtt (fst (admin_merge nilp c post data))) =
  mq_enable (cf_mqtt c) || match post, data with true, Some d => mq_enable (cf_mqtt d) | _, _ => false end.
Proof.
  unfold admin_merge. destruct post, data as [d|]; try (cbn; now rewrite orb_false_r).
  pose proof (merge_get nilp c d MqttEnable) as G.
  assert (get MqttEnable (fst (Merge nilp c d)) = mval (get MqttEnable c) (get MqttEnable d)) as E by (rewrite G; now destruct (snd _)).
  cbn [get] in E. destruct (Merge nilp c d) as [r ok]. cbn [fst] in *. unfold mval in E. cbn [unsetb] in E.
  destruct (mq_enable (cf_mqtt r)), (mq_enable (cf_mqtt c)), (mq_enable (cf_mqtt d)); cbn in E; try discriminate E; reflexivity.
Qed.
Lemma live_cons nilp s e es : live_run nilp s (e :: es) = live_run nilp (live_step nilp s e) es.
Proof. reflexivity. Qed.
Lemma live_dead nilp es : forall s, l_dead s = true -> live_run nilp s es = s.
Proof. induction es as [|e es IH]; intros s D; [reflexivity|]. rewrite live_cons. unfold live_step. rewrite D. now apply IH. Qed.

(** If MQTT is enabled at start-up every delta is published, in order, and no update stops
    that. *)
Theorem C77_enabled nilp c es : mq_enable (cf_mqtt c) = true ->
  l_dead (live_run nilp (live_start c) es) = false /\ l_published (live_run nilp (live_start c) es) = deltas es.
Proof.
  intros EN. assert (forall es s, mq_enable (cf_mqtt (l_sys s)) = true -> l_client s = true -> l_dead s = false ->
    l_dead (live_run nilp s es) = false /\ l_published (live_run nilp s es) = l_published s ++ deltas es) as K.
  { clear. induction es as [|e es IH]; intros s E C D; [cbn; now rewrite app_nil_r|]. rewrite live_cons. unfold live_step. rewrite D.
    destruct e as [post data|b].
    - destruct (IH (mklive (fst (admin_merge nilp (l_sys s) post data)) (l_client s) false (l_published s))) as [A B]; cbn [l_sys l_client l_dead l_published];
        [rewrite admin_enable, E; reflexivity|exact C|reflexivity|]. split; [exact A|exact B].
    - rewrite E, C. destruct (IH (mklive (l_sys s) true false (l_published s ++ [b]))) as [A B]; [exact E|reflexivity|reflexivity|]. split; [exact A|].
      rewrite B. cbn [l_published]. change (deltas (LDelta b :: es)) with ([b] ++ deltas es). now rewrite app_assoc. }
  destruct (K es (live_start c)) as [A B]; [exact EN|exact EN|reflexivity|]. split; [exact A|exact B].
Qed.
(** If it is not, the program dies exactly if an update turns MQTT on and a delta follows. *)
Theorem C77_dies nilp c es : mq_enable (cf_mqtt c) = false ->
  l_published (live_run nilp (live_start c) es) = [] /\
  (l_dead (live_run nilp (live_start c) es) = true <->
   exists a e b x r, es = a ++ e :: b ++ LDelta x :: r /\ enables e).
Proof.
  intros EN.
  assert (forall es s, l_client s = false -> l_dead s = false -> 
    l_published (live_run nilp s es) = l_published s /\
    (l_dead (live_run nilp s es) = true <->
     (mq_enable (cf_mqtt (l_sys s)) = true /\ exists a x r, es = a ++ LDelta x :: r) \/
     exists a e b x r, es = a ++ e :: b ++ LDelta x :: r /\ enables e)) as K.
  { clear. induction es as [|e es IH]; intros s C D.
    - split; [reflexivity|]. cbn. rewrite D. split; [discriminate|]. intros [(_ & a & x & r & E)|(a & e & b & x & r & E & _)]; destruct a; discriminate E.
    - rewrite live_cons. unfold live_step. rewrite D. destruct e as [post data|y].
      + destruct (IH (mklive (fst (admin_merge nilp (l_sys s) post data)) (l_client s) false (l_published s))) as [A B]; [exact C|reflexivity|].
        split; [exact A|]. rewrite B. cbn [l_sys]. rewrite admin_enable, orb_true_iff. split.
        * intros [([H|H] & a & x & r & E)|(a & e & b & x & r & E & H)].
          -- left. split; [exact H|]. exists (LAdmin post data :: a), x, r. now rewrite E.
          -- right. destruct post, data as [d|]; try discriminate H. exists [], (LAdmin true (Some d)), a, x, r. rewrite E. split; [reflexivity|].
             exists d. split; [reflexivity|]. cbn. now rewrite H.
          -- right. exists (LAdmin post data :: a), e, b, x, r. rewrite E. auto.
        * intros [(H & a & x & r & E)|(a & e & b & x & r & E & H)].
          -- destruct a as [|z a]; [discriminate E|]. injection E as <- E. left. split; [now left|eauto].
          -- destruct a as [|z a]; injection E as E1 E.
             ++ subst e. destruct H as (d & HE & HD). injection HE as -> ->. left. split; [right; now injection HD as ->|]. eauto.
             ++ right. subst z. exists a, e, b, x, r. auto.
      + destruct (mq_enable (cf_mqtt (l_sys s))) eqn:E.
        * rewrite C. rewrite (live_dead nilp es) by reflexivity. cbn [l_dead l_published]. split; [reflexivity|]. split; [|reflexivity].
          intros _. left. split; [reflexivity|]. exists [], y, es. reflexivity.
        * destruct (IH s C D) as [A B]. split; [exact A|]. rewrite B, E. split.
          -- intros [(H & _)|(a & e & b & x & r & L & H)]; [discriminate H|]. right. exists (LDelta y :: a), e, b, x, r. rewrite L. auto.
          -- intros [(H & _)|(a & e & b & x & r & L & H)]; [discriminate H|]. right. destruct a as [|z a].
             ++ injection L as L1 _. subst e. destruct H as (d & HE & _). discriminate HE.
             ++ injection L as _ L. exists a, e, b, x, r. auto. }
  destruct (K es (live_start c)) as [A B]; [exact EN|reflexivity|]. split; [exact A|]. rewrite B. cbn [l_sys live_start]. rewrite EN.
  split; [intros [[H _]|H]; [discriminate H|exact H]|auto].
Qed.
(** The expectation that an update on the admin page cannot bring the program down is false. *)
Theorem C77_update_kills_refuted nilp : exists c d x, start_config nilp (Some c) [] <> None /\
  forall s, start_config nilp (Some c) [] = Some s -> l_dead (live_run nilp (live_start s) [LDelta x; LAdmin true (Some d)]) = false /\
    l_dead (live_run nilp (live_start s) [LDelta x; LAdmin true (Some d); LDelta x]) = true.
Proof.
  exists (mkconfig [] [] (mkserver false false 0 [] [] [] [] []) (mkmqtt false false 0 [] [] [] [] []) (Some []) (mkvessel [] [] [] 0 0 [] [] [] [] [] [] [] [])).
  exists (mkconfig [] [] (mkserver false false 0 [] [] [] [] []) (mkmqtt true false 0 [] [] [] [] []) None (mkvessel [] [] [] 0 0 [] [] [] [] [] [] [] [])).
  exists []. split; [discriminate|]. intros s S. vm_compute in S. injection S as <-. split; vm_compute; reflexivity.
Qed.
