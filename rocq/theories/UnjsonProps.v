(** UnjsonProps: what the program reads (C91-C93). *)
From Coq Require Import ZArith Lia ZifyBool Reals Floats.SpecFloat.
From Verif Require Import GoBase BufFacts Strconv StrconvFacts CanModel NmeaTypes NmeaModel NmeaSpec SignalkModel SignalkSpec SignalkText ApiModel ApiSpec ApiProps ConfigModel FormModel JsonSpec JsonModel FtoaFacts JsonFacts JsonUnique UnjsonModel UnjsonSpec UnjsonLex UnjsonParse UnjsonFloat UnjsonDecode UnjsonTyped.
From Verif Require DeathExamples.
Open Scope Z_scope.
Open Scope list_scope.

(* ------------------------------------------------------------------ C91 *)

(** The texts accepted as one value, and the values read. *)
Theorem C91_text d s g : bytes_ok s -> read_text d s = Some g <-> lax_text d s g.
Proof. exact (read_text_exact d s g). Qed.
(** A request's body: what follows the value is not looked at. *)
Theorem C91_body d s g : bytes_ok s -> (forall t, g <> GNum t) -> (exists r, read_value d s = Some (g, r)) <-> starts_with d s g.
Proof. exact (read_value_exact d s g). Qed.
(** One text, one value. *)
Theorem C91_unique d s g g' : bytes_ok s -> lax_text d s g -> lax_text d s g' -> g = g'.
Proof. exact (lax_text_unique d s g g'). Qed.

Lemma lax_more :
  (forall d t g, lax d t g -> forall d', (d <= d')%nat -> lax d' t g) /\ (forall d t l, lax_items d t l -> forall d', (d <= d')%nat -> lax_items d' t l) /\
  (forall d t l, lax_members d t l -> forall d', (d <= d')%nat -> lax_members d' t l) /\ (forall d k t g, lax_member d k t g -> forall d', (d <= d')%nat -> lax_member d' k t g).
Proof.
  apply (lax_all (fun d t g _ => forall d', (d <= d')%nat -> lax d' t g) (fun d t l _ => forall d', (d <= d')%nat -> lax_items d' t l)
    (fun d t l _ => forall d', (d <= d')%nat -> lax_members d' t l) (fun d k t g _ => forall d', (d <= d')%nat -> lax_member d' k t g)).
  - constructor. - constructor. - constructor.
  - intros. econstructor. eassumption.
  - intros. now constructor.
  - intros d w B [|d'] L; [lia|]. now constructor.
  - intros d s l _ IH [|d'] L; [lia|]. constructor. apply IH. lia.
  - intros d w B [|d'] L; [lia|]. now constructor.
  - intros d s l _ IH [|d'] L; [lia|]. constructor. apply IH. lia.
  - intros. constructor; auto.
  - intros. constructor; auto.
  - intros. constructor; auto.
  - intros. constructor; auto.
  - intros. constructor; auto.
Qed.
Lemma chars_lax b cs : chars_text b cs -> lax_chars b cs.
Proof. induction 1; constructor; auto. Qed.
Lemma string_lax t cs : string_text t cs -> exists s, lax_string t s /\ utf8_text s cs.
Proof.
  intros (b & -> & H). apply chars_lax in H. destruct (lax_chars_utf8 _ _ H) as [s U]. exists s. split; [|exact U]. exists b, cs. auto.
Qed.
Lemma json_lax :
  (forall t v, json t v -> exists d g, lax d t g /\ agrees v g) /\
  (forall t l, items t l -> exists d gs, lax_items d t gs /\ Forall2 agrees l gs) /\
  (forall t l, members t l -> exists d gs, lax_members d t gs /\ Forall2 (fun a b => utf8_text (fst b) (fst a) /\ agrees (snd a) (snd b)) l gs) /\
  (forall k t v, member k t v -> exists d s g, lax_member d s t g /\ utf8_text s k /\ agrees v g).
Proof.
  destruct lax_more as (LM & IM & MM & BM).
  apply (json_all (fun t v _ => exists d g, lax d t g /\ agrees v g) (fun t l _ => exists d gs, lax_items d t gs /\ Forall2 agrees l gs)
    (fun t l _ => exists d gs, lax_members d t gs /\ Forall2 (fun a b => utf8_text (fst b) (fst a) /\ agrees (snd a) (snd b)) l gs)
    (fun k t v _ => exists d s g, lax_member d s t g /\ utf8_text s k /\ agrees v g)).
  - exists O, GNull. split; constructor.
  - exists O, (GBool true). split; constructor.
  - exists O, (GBool false). split; constructor.
  - intros s m e N. exists O, (GNum s). split; [econstructor; exact N|now constructor].
  - intros t cs H. destruct (string_lax _ _ H) as (s & L & U). exists O, (GStr s). split; now constructor.
  - intros w B. exists 1%nat, (GArr []). split; [now constructor|]. constructor. constructor.
  - intros s l _ _ (d & gs & L & A). exists (S d), (GArr gs). split; now constructor.
  - intros w B. exists 1%nat, (GObj []). split; [now constructor|]. constructor. constructor.
  - intros s l _ _ (d & gs & L & A). exists (S d), (GObj gs). split; now constructor.
  - intros w s w' v B _ (d & g & L & A) B'. exists d, [g]. split; [now constructor|]. constructor; [exact A|constructor].
  - intros w s w' v r l B _ (d & g & L & A) B' _ (d' & gs & L' & A'). exists (Nat.max d d'), (g :: gs). split; [|now constructor].
    constructor; try assumption; [eapply LM; [exact L|lia]|eapply IM; [exact L'|lia]].
  - intros k s v _ (d & ks & g & L & U & A). exists d, [(ks, g)]. split; [now constructor|]. constructor; [split; assumption|constructor].
  - intros k s v r l _ (d & ks & g & L & U & A) _ (d' & gs & L' & A'). exists (Nat.max d d'), ((ks, g) :: gs). split; [|constructor; [split; assumption|exact A']].
    constructor; [eapply BM; [exact L|lia]|eapply MM; [exact L'|lia]].
  - intros w1 k ks w2 w3 s w4 v B1 K B2 B3 _ (d & g & L & A) B4. destruct (string_lax _ _ K) as (n & LS & U).
    exists d, n, g. split; [now constructor|auto].
Qed.
(** Every RFC 8259 text is accepted, unless it is nested too deep, and read as what it says. *)
Theorem C91_json t v w w' : json t v -> blank_text w -> blank_text w' -> bytes_ok (w ++ t ++ w') ->
  exists n g, agrees v g /\ forall d, (n <= d)%nat -> read_text d (w ++ t ++ w') = Some g.
Proof.
  intros J B B' OK. destruct json_lax as (JL & _). destruct (JL _ _ J) as (n & g & L & A). exists n, g. split; [exact A|]. intros d H.
  apply read_text_exact; [exact OK|]. exists w, t, w'. repeat split; try assumption. destruct lax_more as (LM & _). eapply LM; eassumption.
Qed.
Example C91_examples :
  read_text 10 (str "{""pgn"": 127250, ""fields"": {""a"": [1.5e0, null]}} ") =
    Some (GObj [(str "pgn", GNum (str "127250")); (str "fields", GObj [(str "a", GArr [GNum (str "1.5e0"); GNull])])]) /\
  read_text 1 (str "[[]]") = None /\ read_text 2 (str "[[]]") = Some (GArr [GArr []]) /\
  read_text 9 (str "01") = None /\ read_text 9 (str "{""a"":1,}") = None /\ read_text 9 (str "[1] x") = None /\
  read_text 9 ([34; 255; 92; 117] ++ str "D800" ++ [34]) = Some (GStr (replacement ++ replacement)) /\
  read_text 9 ([34; 92; 117] ++ str "d83d" ++ [92; 117] ++ str "DE00" ++ [34]) = Some (GStr [240; 159; 152; 128]).
Proof. repeat split; vm_compute; reflexivity. Qed.

(* ------------------------------------------------------------------ C92 *)

Lemma object_members d t ms : lax d t (GObj ms) -> forall k g, In (k, g) ms -> bytes_ok k /\ wfj g.
Proof. intros L. destruct lax_wf as (W & _). specialize (W _ _ _ L). now inversion W. Qed.
Lemma fits_record_shape fs g : fits (TRecord fs) g -> g = GNull \/ exists ms, g = GObj ms.
Proof. intros H. inversion H; subst; eauto. Qed.
(** A body decoded into a structure: accepted if what it starts with is of the type. *)
Lemma decode_exact {T} (f : setter T) fs d body x : bytes_ok body -> typed f (TRecord fs) ->
  (forall g r, read_value d body = Some (g, r) -> snd (f g x) = true -> starts_with d body g /\ fits (TRecord fs) g /\ wfj g) /\
  ((forall g r, read_value d body = Some (g, r) -> snd (f g x) = false) <-> forall g, starts_with d body g -> ~ fits (TRecord fs) g).
Proof.
  intros OK TY.
  assert (forall g r, read_value d body = Some (g, r) -> starts_with d body g /\ wfj g) as S.
  { intros g r H. destruct (read_value_sound _ _ _ _ OK H) as (w & t & E & B & L). split; [exists w, t, r; auto|]. destruct lax_wf as (W & _). eapply W; exact L. }
  split.
  - intros g r H X. destruct (S g r H) as [SW W]. split; [exact SW|]. split; [|exact W]. now apply (TY g x W).
  - split.
    + intros H g SW F. assert (forall t, g <> GNum t) as NN by (intros t ->; inversion F).
      destruct (read_value_complete d body g OK NN SW) as [r R]. specialize (H g r R). destruct (S g r R) as [_ W].
      apply (TY g x W) in F. congruence.
    + intros H g r R. destruct (S g r R) as [SW W]. destruct (snd (f g x)) eqn:E; [|reflexivity]. elim (H g SW). now apply (TY g x W).
Qed.

(** What a settings document sets. *)
Theorem C92_settings d body c : bytes_ok body -> decode_config d body = Some c ->
  exists g, starts_with d body g /\ fits settings_type g /\
    (g = GNull /\ c = zero_config \/ exists ms, g = GObj ms /\ settings_say ms c).
Proof.
  intros OK. unfold decode_config. destruct (read_value d body) as [[g r]|] eqn:R; [|discriminate].
  destruct (into_struct config_fields g zero_config) as [x ok] eqn:E. destruct ok; [|discriminate]. intros H. injection H as <-.
  destruct (decode_exact _ _ d body zero_config OK config_typed) as [DE _]. destruct (DE g r R) as (SW & F & W); [now rewrite E|].
  exists g. split; [exact SW|]. split; [exact F|]. destruct (fits_record_shape _ _ F) as [->|[ms ->]].
  - left. cbn in E. injection E as <-. auto.
  - right. exists ms. split; [reflexivity|]. cbn [into_struct] in E. replace x with (fst (into_members config_fields ms zero_config)) by (now rewrite E).
    apply config_fields_say. now inversion W.
Qed.
(** It is refused exactly if it is no JSON or a setting is of the wrong type. *)
Theorem C92_refused d body : bytes_ok body ->
  decode_config d body = None <-> forall g, starts_with d body g -> ~ fits settings_type g.
Proof.
  intros OK. destruct (decode_exact _ _ d body zero_config OK config_typed) as [_ DE]. rewrite <- DE. unfold decode_config. split.
  - intros H g r R. rewrite R in H. destruct (into_struct config_fields g zero_config) as [x ok]. cbn [snd]. now destruct ok.
  - intros H. destruct (read_value d body) as [[g r]|]; [|reflexivity]. specialize (H g r eq_refl).
    destruct (into_struct config_fields g zero_config) as [x ok]. cbn [snd] in H. now subst ok.
Qed.
(** The answers of /admin: 400 and no change for such documents. *)
Theorem C92_answers d nilp sys post body : bytes_ok body ->
  (snd (admin_request d nilp sys post body) = ABadRequest <-> post = true /\ forall g, starts_with d body g -> ~ fits settings_type g) /\
  (snd (admin_request d nilp sys post body) = ABadRequest -> fst (admin_request d nilp sys post body) = sys).
Proof.
  intros OK. rewrite <- (C92_refused d body OK). unfold admin_request, admin_merge. destruct post; cbn [fst snd].
  2:{ split; [split; [discriminate|intros [H _]; discriminate H]|discriminate]. }
  destruct (decode_config d body) as [c|].
  - destruct (Merge nilp sys c) as [c' ok]. cbn [fst snd]. split; [split; [destruct ok; discriminate|intros [_ H]; discriminate H]|destruct ok; discriminate].
  - cbn [fst snd]. split; [split; auto|auto].
Qed.
Example C92_examples :
  (exists c, decode_config 9 (str "{""server"":{""PORT"":1,""port"":2},""Server"":{""Port"":3,""ListenOn"":""::""},""Interfaces"":{""a"":{""Speed"":9600}}} x") = Some c /\
     sv_port (cf_server c) = 3 /\ sv_listen (cf_server c) = str "::" /\ cf_ifaces c = Some [(str "a", mkiface [] [] 9600)]) /\
  decode_config 9 (str "{""Server"":{""Port"":""80""}}") = None /\ decode_config 9 (str "{""Server"":{""Port"":80.0}}") = None /\
  decode_config 9 (str "null") = Some zero_config /\ decode_config 9 [] = None /\ decode_config 9 (str "{""Extra"":[1]}") = Some zero_config.
Proof. repeat split; try (vm_compute; reflexivity). eexists. repeat split; vm_compute; reflexivity. Qed.

(* ------------------------------------------------------------------ C93 *)

(** A number box: Number.parseInt gives an integer, or NaN, which is sent as null. *)
Definition int_member (g : gj) (o : option Z) : Prop :=
  (g = GNull /\ o = Some 0) \/ (exists n, an_int g n /\ o = Some n) \/ ((forall n, ~ an_int g n) /\ g <> GNull /\ o = None).
Lemma int_member_into g o : int_member g o -> into_int g 0 = match o with Some n => (n, true) | None => (0, false) end.
Proof.
  intros [[-> ->]|[(n & (t & -> & D) & ->)|(N & NN & ->)]].
  - reflexivity.
  - cbn [into_int]. apply (parse_int_iff 64) in D; [|lia]. now rewrite D.
  - destruct (int_last g 0) as [A|[E _]]; [elim (N _ A)|]. unfold get_int in E.
    destruct (into_int g 0) as [v ok] eqn:Q. cbn [fst] in E. subst v. destruct ok; [|reflexivity]. exfalso.
    assert (fits TInt g) as F by (apply (typed_int 0 g); now rewrite Q).
    inversion F; subst; [now apply NN|eapply N; eassumption].
Qed.
(** The document the settings page sends, site.js:134-171. *)
Definition params (f : form) (year mmsi port mport : gj) : gj :=
  GObj [(str "Vessel", GObj [(str "Name", GStr (fm_text f Bname)); (str "Manufacturer", GStr (fm_text f Bmanufacturer));
           (str "Model", GStr (fm_text f Bmodel)); (str "Year", year); (str "Registration", GStr (fm_text f Bregistration));
           (str "Mmsi", mmsi); (str "Callsign", GStr (fm_text f Bcallsign)); (str "Uuid", GStr (get_uuid f))]);
        (str "Server", GObj [(str "ListenOn", GStr (fm_text f BlistenOn)); (str "Port", port); (str "UseTls", GBool (fm_check f CuseTls));
           (str "EnableWebsockets", GBool (fm_check f CenableWebsockets)); (str "Certificate", GStr (fm_text f Bcertificate))]);
        (str "Mqtt", GObj [(str "Enable", GBool (fm_check f CmqttEnable)); (str "UseTls", GBool (fm_check f CmqttUseTls));
           (str "Host", GStr (fm_text f BmqttHost)); (str "Port", mport); (str "ClientId", GStr (fm_text f BmqttClientId));
           (str "Username", GStr (fm_text f BmqttUsername)); (str "Password", GStr (fm_text f BmqttPassword))])].
Theorem C93_form d nilp sys js_int body f year mmsi port mport : bytes_ok body -> starts_with d body (params f year mmsi port mport) ->
  int_member year (js_int (fm_text f Byear)) -> int_member mmsi (js_int (fm_text f Bmmsi)) ->
  int_member port (js_int (fm_text f Bport)) -> int_member mport (js_int (fm_text f BmqttPort)) ->
  decode_config d body = submit js_int f /\ admin_request d nilp sys true body = press js_int nilp sys f.
Proof.
  intros OK SW H1 H2 H3 H4.
  assert (decode_config d body = submit js_int f) as E; [|split; [exact E|unfold admin_request, press; now rewrite E]].
  destruct (read_value_complete d body (params f year mmsi port mport) OK) as [r R]; [intros t; discriminate|exact SW|]. unfold decode_config. rewrite R.
  apply int_member_into in H1, H2, H3, H4. unfold submit. clear R SW OK.
  assert (forall v, into_struct vessel_fields (GObj [(str "Name", GStr (fm_text f Bname)); (str "Manufacturer", GStr (fm_text f Bmanufacturer));
           (str "Model", GStr (fm_text f Bmodel)); (str "Year", year); (str "Registration", GStr (fm_text f Bregistration));
           (str "Mmsi", mmsi); (str "Callsign", GStr (fm_text f Bcallsign)); (str "Uuid", GStr (get_uuid f))]) v =
    (mkvessel (fm_text f Bname) (fm_text f Bmanufacturer) (fm_text f Bmodel) (fst (into_int year (ve_year v))) (fst (into_int mmsi (ve_mmsi v)))
       (fm_text f Bcallsign) (fm_text f Bregistration) (get_uuid f) (ve_uuid0 v) (ve_uuid1 v) (ve_uuid2 v) (ve_uuid3 v) (ve_uuid4 v),
     snd (into_int year (ve_year v)) && snd (into_int mmsi (ve_mmsi v)))) as EV.
  { clear. intros v. destruct v. lazy -[into_int get_uuid fm_text]. destruct (into_int year _) as [y [|]]; lazy -[into_int get_uuid fm_text]; destruct (into_int mmsi _) as [m [|]]; reflexivity. }
  assert (forall v, into_struct server_fields (GObj [(str "ListenOn", GStr (fm_text f BlistenOn)); (str "Port", port); (str "UseTls", GBool (fm_check f CuseTls));
           (str "EnableWebsockets", GBool (fm_check f CenableWebsockets)); (str "Certificate", GStr (fm_text f Bcertificate))]) v =
    (mkserver (fm_check f CenableWebsockets) (fm_check f CuseTls) (fst (into_int port (sv_port v))) (fm_text f BlistenOn) (sv_assets v)
       (fm_text f Bcertificate) (sv_public v) (sv_private v), snd (into_int port (sv_port v)))) as ES.
  { clear. intros v. destruct v. lazy -[into_int fm_text]. destruct (into_int port _) as [y [|]]; reflexivity. }
  assert (forall v, into_struct mqtt_fields (GObj [(str "Enable", GBool (fm_check f CmqttEnable)); (str "UseTls", GBool (fm_check f CmqttUseTls));
           (str "Host", GStr (fm_text f BmqttHost)); (str "Port", mport); (str "ClientId", GStr (fm_text f BmqttClientId));
           (str "Username", GStr (fm_text f BmqttUsername)); (str "Password", GStr (fm_text f BmqttPassword))]) v =
    (mkmqtt (fm_check f CmqttEnable) (fm_check f CmqttUseTls) (fst (into_int mport (mq_port v))) (fm_text f BmqttHost) (fm_text f BmqttClientId)
       (fm_text f BmqttUsername) (fm_text f BmqttPassword) (mq_channel v), snd (into_int mport (mq_port v)))) as EM.
  { clear. intros v. destruct v. lazy -[into_int fm_text]. destruct (into_int mport _) as [y [|]]; reflexivity. }
  unfold params. cbn [into_struct into_members].
  change (field_for config_fields (str "Vessel")) with (Some (fun g c => let '(x, ok) := into_struct vessel_fields g (cf_vessel c) in
      (mkconfig (cf_log c) (cf_map c) (cf_server c) (cf_mqtt c) (cf_ifaces c) x, ok))).
  change (field_for config_fields (str "Server")) with (Some (fun g c => let '(x, ok) := into_struct server_fields g (cf_server c) in
      (mkconfig (cf_log c) (cf_map c) x (cf_mqtt c) (cf_ifaces c) (cf_vessel c), ok))).
  change (field_for config_fields (str "Mqtt")) with (Some (fun g c => let '(x, ok) := into_struct mqtt_fields g (cf_mqtt c) in
      (mkconfig (cf_log c) (cf_map c) (cf_server c) x (cf_ifaces c) (cf_vessel c), ok))).
  cbv beta iota. rewrite EV. cbv beta iota. rewrite ES. cbv beta iota. rewrite EM. cbv beta iota.
  cbn [zero_config cf_vessel cf_server cf_mqtt cf_log cf_map cf_ifaces ve_year ve_mmsi sv_port mq_port sv_assets sv_public sv_private mq_channel ve_uuid0 ve_uuid1 ve_uuid2 ve_uuid3 ve_uuid4].
  rewrite H1, H2, H3, H4.
  destruct (js_int (fm_text f Byear)) as [y|], (js_int (fm_text f Bmmsi)) as [ms|], (js_int (fm_text f Bport)) as [p|], (js_int (fm_text f BmqttPort)) as [mp|]; reflexivity.
Qed.
Example C93_example : exists body f, bytes_ok body /\
  starts_with 9 body (params f (GNum (str "1999")) GNull (GNum (str "8080")) (GNum (str "1883"))) /\
  fm_text f Bport = str "8080" /\ fm_text f Bname = str "Argo" /\ fm_check f CuseTls = true.
Proof.
  set (f := mkform (fun b => match b with Bport => str "8080" | Bname => str "Argo" | Byear => str "1999" | BmqttPort => str "1883" | _ => [] end) (fun c => match c with CuseTls => true | _ => false end)).
  set (body := str "{""Vessel"":{""Name"":""Argo"",""Manufacturer"":"""",""Model"":"""",""Year"":1999,""Registration"":"""",""Mmsi"":null,""Callsign"":"""",""Uuid"":""----""},""Server"":{""ListenOn"":"""",""Port"":8080,""UseTls"":true,""EnableWebsockets"":false,""Certificate"":""""},""Mqtt"":{""Enable"":false,""UseTls"":false,""Host"":"""",""Port"":1883,""ClientId"":"""",""Username"":"""",""Password"":""""}}").
  exists body, f. assert (bytes_ok body) as OK by (apply DeathExamples.bytes_by; vm_compute; reflexivity).
  split; [exact OK|]. split; [|repeat split; reflexivity].
  destruct (read_value_sound 9 body (params f (GNum (str "1999")) GNull (GNum (str "8080")) (GNum (str "1883"))) [] OK) as (w & t & E & B & L); [vm_compute; reflexivity|].
  exists w, t, []. auto.
Qed.
