(** UnjsonTyped: which documents are accepted, and what each variable becomes. *)
From Coq Require Import ZArith Lia ZifyBool Reals Floats.SpecFloat.
From Verif Require Import GoBase BufFacts Strconv StrconvFacts NmeaTypes NmeaModel NmeaSpec SignalkModel SignalkSpec SignalkText ApiModel ApiSpec ApiProps ConfigModel JsonSpec JsonModel FtoaFacts JsonFacts JsonUnique UnjsonModel UnjsonSpec UnjsonLex UnjsonParse UnjsonFloat UnjsonDecode.
Open Scope Z_scope.
Open Scope list_scope.

(* ------------------------------------------------------------------ types *)

Definition typed {T} (f : setter T) (t : jtype) : Prop := forall g x, wfj g -> snd (f g x) = true <-> fits t g.
Lemma typed_text old : forall g, snd (into_string g old) = true <-> fits TText g.
Proof.
  intros g. split.
  - destruct g; cbn; try discriminate; intros _; [apply fi_null|eapply fi_text; reflexivity].
  - intros H. inversion H as [|? s E| | | | | |]; subst; [reflexivity|]. rewrite E. reflexivity.
Qed.
Lemma typed_bool old : forall g, snd (into_bool g old) = true <-> fits TBool g.
Proof.
  intros g. split.
  - destruct g; cbn; try discriminate; intros _; [apply fi_null|eapply fi_bool; reflexivity].
  - intros H. inversion H as [| |? s E| | | | |]; subst; [reflexivity|]. rewrite E. reflexivity.
Qed.
Lemma typed_int old : forall g, snd (into_int g old) = true <-> fits TInt g.
Proof.
  intros g. split.
  - destruct g as [|b|t|s|l|ms]; cbn [into_int]; try discriminate; intros H; [apply fi_null|].
    destruct (parse_int 64 t) as [n|] eqn:E; [|discriminate]. apply fi_int with n. exists t. split; [reflexivity|]. apply parse_int_iff in E; [exact E|lia].
  - intros H. inversion H as [| | |? n (t & E & D)| | | |]; subst; [reflexivity|]. cbn [into_int]. apply (parse_int_iff 64) in D; [|lia]. now rewrite D.
Qed.
Lemma typed_uint bits old : 0 <= bits <= 64 -> forall g, snd (into_uint bits g old) = true <-> fits (TNatural bits) g.
Proof.
  intros HB g. assert (2 ^ bits <= 2 ^ 64) by (apply Z.pow_le_mono_r; lia). split.
  - destruct g as [|b|t|s|l|ms]; cbn [into_uint]; try discriminate; intros H0; [apply fi_null|].
    destruct (parse_uint 10 64 t) as [n| |n] eqn:E; try discriminate. destruct (Z.ltb_spec n (2 ^ bits)); [|discriminate].
    apply fi_natural with n. exists t. split; [reflexivity|]. apply parse_uint_iff in E; [|lia]. destruct E. auto.
  - intros H0. inversion H0 as [| | | |? ? n (t & E & D & L)| | |]; subst; [reflexivity|]. cbn [into_uint].
    assert (parse_uint 10 64 t = PUok n) as -> by (apply parse_uint_iff; [lia|]; split; [exact D|lia]).
    destruct (Z.ltb_spec n (2 ^ bits)); [reflexivity|lia].
Qed.
Lemma typed_struct {T} (fs : list (bytes * setter T)) ts : good_names (map fst fs) ->
  Forall2 (fun a b => fst a = fst b /\ typed (snd a) (snd b)) fs ts -> typed (into_struct fs) (TRecord ts).
Proof.
  intros G F g x W.
  assert (forall n st, In (n, st) fs -> exists t, In (n, t) ts /\ typed st t) as F1.
  { clear - F. induction F as [|[n a] [m b] l l' [E H] _ IH]; [intros ? ? []|]. cbn [fst snd] in *. subst m. intros n' st [I|I].
    - injection I as <- <-. exists b. split; [now left|exact H].
    - destruct (IH _ _ I) as (t & I' & T'). exists t. split; [now right|exact T']. }
  assert (forall n t, In (n, t) ts -> exists st, In (n, st) fs /\ typed st t) as F2.
  { clear - F. induction F as [|[n a] [m b] l l' [E H] _ IH]; [intros ? ? []|]. cbn [fst snd] in *. subst m. intros n' t [I|I].
    - injection I as <- <-. exists a. split; [now left|exact H].
    - destruct (IH _ _ I) as (st & I' & T'). exists st. split; [now right|exact T']. }
  assert (forall ms x, (forall k g, In (k, g) ms -> bytes_ok k /\ wfj g) ->
    (snd (into_members fs ms x) = true <-> forall k g n t, In (k, g) ms -> In (n, t) ts -> reads_as k n -> fits t g)) as K.
  { clear W g x. induction ms as [|[k g] ms IH]; intros x W; [split; [intros _ k g n t []|reflexivity]|].
    destruct (W k g (or_introl eq_refl)) as [Bk Wg]. cbn [into_members]. destruct (field_for_spec fs k G Bk) as [S1 S2].
    set (p := match field_for fs k with Some f => f g x | None => (x, true) end).
    assert (snd p = true <-> forall n t, In (n, t) ts -> reads_as k n -> fits t g) as P.
    { unfold p. destruct (field_for fs k) as [f|] eqn:FF.
      - assert (exists n, In (n, f) fs /\ reads_as k n) as (n & I & R).
        { destruct G as [A _]. rewrite Forall_forall in A. unfold field_for in FF. destruct (field_exact fs k) as [f'|] eqn:E1.
          - injection FF as ->. apply field_exact_some in E1. exists k. split; [exact E1|]. apply reads_as_refl, A, in_map_iff. exists (k, f). auto.
          - destruct (field_fold_some _ _ _ FF) as (n' & I' & R'). exists n'. split; [exact I'|]. apply C64_case; [exact Bk| |exact R'].
            apply A, in_map_iff. exists (n', f). auto. }
        destruct (F1 n f I) as (t & It & Tt). rewrite (Tt g x Wg). split.
        + intros H n' t' I' R'. destruct (F2 n' t' I') as (st & Is & Ts). assert (st = f) as -> by (pose proof (S1 n' st Is R'); congruence).
          apply (Ts g x Wg). apply (Tt g x Wg). exact H.
        + intros H. exact (H n t It R).
      - split; [|reflexivity]. intros _ n t I R. destruct (F2 n t I) as (st & Is & _). pose proof (S1 n st Is R). congruence. }
    clearbody p. destruct p as [x1 ok1]. cbn [snd] in P. specialize (IH x1 (fun k g H => W k g (or_intror H))).
    destruct (into_members fs ms x1) as [x2 ok2]. cbn [snd] in *. rewrite andb_true_iff, P, IH. split.
    - intros [H1 H2] k' g' n t [I|I]; [injection I as <- <-; apply H1|now apply H2].
    - intros H. split; [intros n t; apply (H k g); now left|]. intros k' g' n t I. apply (H k' g'). now right. }
  split.
  - destruct g as [|b|t|s|l|ms]; cbn [into_struct snd]; try discriminate; intros H; [apply fi_null|]. inversion W; subst. apply fi_record. now apply (K ms x).
  - intros H. inversion H as [| | | | |? ms H'| |]; subst; [reflexivity|]. inversion W; subst. cbn [into_struct]. now apply K.
Qed.
Lemma typed_map {T} (dec : setter T) zero t : typed dec t -> typed (into_map dec zero) (TMap t).
Proof.
  intros D g x W.
  assert (forall ms m, (forall k g, In (k, g) ms -> bytes_ok k /\ wfj g) -> (snd (into_entries dec zero ms m) = true <-> forall k g, In (k, g) ms -> fits t g)) as K.
  { clear g x W. induction ms as [|[k g] ms IH]; intros m W; [split; [intros _ k g []|reflexivity]|]. cbn [into_entries].
    pose proof (D g zero (proj2 (W k g (or_introl eq_refl)))) as P. destruct (dec g zero) as [x ok1]. cbn [snd] in P.
    specialize (IH (map_set m k x) (fun k g H => W k g (or_intror H))). destruct (into_entries dec zero ms (map_set m k x)) as [m2 ok2]. cbn [snd] in *.
    rewrite andb_true_iff, P, IH. split.
    - intros [H1 H2] k' g' [I|I]; [injection I as <- <-; exact H1|eauto].
    - intros H. split; [apply (H k); now left|]. intros k' g' I. apply (H k'). now right. }
  split.
  - destruct g as [|b|tt|s|l|ms]; cbn [into_map snd]; try discriminate; intros H; [apply fi_null|]. inversion W; subst. apply fi_map.
    apply (K ms (match x with Some l => l | None => [] end)); [assumption|]. destruct (into_entries _ _ _ _). exact H.
  - intros H. inversion H as [| | | | | |? ms H'|]; subst; [reflexivity|]. inversion W; subst. cbn [into_map].
    pose proof (proj2 (K ms (match x with Some l => l | None => [] end) ltac:(assumption)) H') as R. destruct (into_entries _ _ _ _). exact R.
Qed.
(** A field of a structure decoded by f. *)
Lemma typed_via {T V} (f : setter V) (t : jtype) (get : T -> V) (put : T -> V -> T) : typed f t ->
  typed (fun g x => let '(v, ok) := f g (get x) in (put x v, ok)) t.
Proof. intros H g x W. rewrite <- (H g (get x) W). destruct (f g (get x)). reflexivity. Qed.

Ltac names := split; [repeat (apply Forall_cons; [repeat (apply Forall_cons; [cbv; split; [discriminate|reflexivity]|]); apply Forall_nil|]); apply Forall_nil
                     |cbn; repeat (apply NoDup_cons; [cbn; intros X; repeat (destruct X as [X|X]; [discriminate X|]); exact X|]); apply NoDup_nil].
Lemma iface_names : good_names (map fst iface_fields). Proof. names. Qed.
Lemma server_names : good_names (map fst server_fields). Proof. names. Qed.
Lemma mqtt_names : good_names (map fst mqtt_fields). Proof. names. Qed.
Lemma vessel_names : good_names (map fst vessel_fields). Proof. names. Qed.
Lemma config_names : good_names (map fst config_fields). Proof. names. Qed.
Lemma canboat_names tag : good_names (map fst (canboat_fields tag)). Proof. names. Qed.
Lemma pkg_names : good_names (map fst pkg_fields). Proof. names. Qed.
Lemma command_names : good_names (map fst command_fields). Proof. names. Qed.

Ltac scalar := intros g x W; cbv beta;
  match goal with
  | |- context [into_string g ?o] => rewrite <- (typed_text o g); destruct (into_string g o); reflexivity
  | |- context [into_bool g ?o] => rewrite <- (typed_bool o g); destruct (into_bool g o); reflexivity
  | |- context [into_int g ?o] => rewrite <- (typed_int o g); destruct (into_int g o); reflexivity
  | |- context [into_uint ?b g ?o] => rewrite <- (typed_uint b o ltac:(lia) g); destruct (into_uint b g o); reflexivity
  end.
Ltac fields := repeat (apply Forall2_cons; [split; [reflexivity|cbn [snd]; scalar]|]); apply Forall2_nil.
Lemma iface_typed : typed (into_struct iface_fields) (TRecord [(str "Path", TText); (str "Type", TText); (str "Speed", TNatural 64)]).
Proof. apply typed_struct; [exact iface_names|]. fields. Qed.
Lemma server_typed : typed (into_struct server_fields) (TRecord ([(str "EnableWebsockets", TBool); (str "UseTls", TBool); (str "Port", TInt)] ++
      texts [str "ListenOn"; str "AssetPath"; str "Certificate"; str "PublicKeyFile"; str "PrivateKeyFile"])).
Proof. apply typed_struct; [exact server_names|]. cbn [texts map app]. fields. Qed.
Lemma mqtt_typed : typed (into_struct mqtt_fields) (TRecord ([(str "Enable", TBool); (str "UseTls", TBool); (str "Port", TInt)] ++
      texts [str "Host"; str "ClientId"; str "Username"; str "Password"; str "Channel"])).
Proof. apply typed_struct; [exact mqtt_names|]. cbn [texts map app]. fields. Qed.
Lemma vessel_typed : typed (into_struct vessel_fields) (TRecord (texts [str "Name"; str "Manufacturer"; str "Model"] ++ [(str "Year", TInt); (str "Mmsi", TInt)] ++
      texts [str "Callsign"; str "Registration"; str "Uuid"; str "Uuid0"; str "Uuid1"; str "Uuid2"; str "Uuid3"; str "Uuid4"])).
Proof. apply typed_struct; [exact vessel_names|]. cbn [texts map app]. fields. Qed.
Lemma config_typed : typed (into_struct config_fields) settings_type.
Proof.
  apply typed_struct; [exact config_names|]. unfold config_fields.
  apply Forall2_cons; [split; [reflexivity|cbn [snd]; scalar]|]. apply Forall2_cons; [split; [reflexivity|cbn [snd]; scalar]|].
  apply Forall2_cons; [split; [reflexivity|]|].
  { intros g x W. cbn [snd]. rewrite <- (server_typed g (cf_server x) W). destruct (into_struct server_fields g (cf_server x)). reflexivity. }
  apply Forall2_cons; [split; [reflexivity|]|].
  { intros g x W. cbn [snd]. rewrite <- (mqtt_typed g (cf_mqtt x) W). destruct (into_struct mqtt_fields g (cf_mqtt x)). reflexivity. }
  apply Forall2_cons; [split; [reflexivity|]|].
  { intros g x W. cbn [snd]. rewrite <- (typed_map _ zero_iface _ iface_typed g (cf_ifaces x) W). destruct (into_map (into_struct iface_fields) zero_iface g (cf_ifaces x)). reflexivity. }
  apply Forall2_cons; [split; [reflexivity|]|apply Forall2_nil].
  intros g x W. cbn [snd]. rewrite <- (vessel_typed g (cf_vessel x) W). destruct (into_struct vessel_fields g (cf_vessel x)). reflexivity.
Qed.
Lemma pkg_typed : typed (into_struct pkg_fields) package_type.
Proof. apply typed_struct; [exact pkg_names|]. cbn [texts map app]. fields. Qed.
Lemma command_typed : typed (into_struct command_fields) command_type.
Proof. apply typed_struct; [exact command_names|]. cbn [texts map app]. fields. Qed.

(* ------------------------------------------------------------------ variables *)

(** One field of a structure: the last member that fits. *)
Ltac others := intros n' st' g x I; cbn [In] in I;
  repeat (destruct I as [I|I]; [injection I as <- <-; first [left; reflexivity | right; reflexivity | right; cbv beta;
     match goal with |- context [let '(_, _) := ?e in _] => destruct e as [? ?] end; reflexivity]|]); contradiction.

Definition keys_ok (ms : list (bytes * gj)) : Prop := forall k g, In (k, g) ms -> bytes_ok k.
Section Says.
Context {T V : Type} (P : gj -> V -> Prop) (dec : gj -> V -> V).
Hypothesis D : forall g v, P g (dec g v) \/ (dec g v = v /\ forall w, ~ P g w).
Lemma field_says (fs : list (bytes * setter T)) (pi : T -> V) n st ms x :
  good_names (map fst fs) -> In (n, st) fs -> (forall g x, pi (fst (st g x)) = dec g (pi x)) ->
  (forall n' st' g x, In (n', st') fs -> n' = n \/ pi (fst (st' g x)) = pi x) ->
  keys_ok ms -> says P ms n (pi x) (pi (fst (into_members fs ms x))).
Proof.
  intros G I S O B. rewrite (project fs pi n st dec G I S O ms x B). apply says_last; [|exact B|exact D].
  destruct G as [A _]. rewrite Forall_forall in A. apply A, in_map_iff. exists (n, st). auto.
Qed.
End Says.

Ltac member := cbn [In]; repeat first [left; reflexivity | right].
Ltac store := intros g x; cbv beta; unfold get_text, get_bool, get_int, get_uint;
  match goal with |- context [let '(_, _) := ?e in _] => destruct e as [? ?] end; reflexivity.
Ltac said NAMES B fs pi dec last :=
  refine (field_says _ dec last fs pi _ _ _ _ NAMES _ _ _ B); [member|store|others].

Lemma server_fields_say ms : keys_ok ms -> server_says ms (fst (into_members server_fields ms (mkserver false false 0 [] [] [] [] []))).
Proof.
  intros B. repeat apply conj.
  - said server_names B server_fields sv_websockets get_bool bool_last.
  - said server_names B server_fields sv_tls get_bool bool_last.
  - said server_names B server_fields sv_port get_int int_last.
  - said server_names B server_fields sv_listen get_text text_last.
  - said server_names B server_fields sv_assets get_text text_last.
  - said server_names B server_fields sv_cert get_text text_last.
  - said server_names B server_fields sv_public get_text text_last.
  - said server_names B server_fields sv_private get_text text_last.
Qed.
Lemma mqtt_fields_say ms : keys_ok ms -> mqtt_says ms (fst (into_members mqtt_fields ms (mkmqtt false false 0 [] [] [] [] []))).
Proof.
  intros B. repeat apply conj.
  - said mqtt_names B mqtt_fields mq_enable get_bool bool_last.
  - said mqtt_names B mqtt_fields mq_tls get_bool bool_last.
  - said mqtt_names B mqtt_fields mq_port get_int int_last.
  - said mqtt_names B mqtt_fields mq_host get_text text_last.
  - said mqtt_names B mqtt_fields mq_client get_text text_last.
  - said mqtt_names B mqtt_fields mq_user get_text text_last.
  - said mqtt_names B mqtt_fields mq_password get_text text_last.
  - said mqtt_names B mqtt_fields mq_channel get_text text_last.
Qed.
Lemma vessel_fields_say ms : keys_ok ms -> vessel_says ms (fst (into_members vessel_fields ms (mkvessel [] [] [] 0 0 [] [] [] [] [] [] [] []))).
Proof.
  intros B. repeat apply conj.
  - said vessel_names B vessel_fields ve_name get_text text_last.
  - said vessel_names B vessel_fields ve_manufacturer get_text text_last.
  - said vessel_names B vessel_fields ve_model get_text text_last.
  - said vessel_names B vessel_fields ve_year get_int int_last.
  - said vessel_names B vessel_fields ve_mmsi get_int int_last.
  - said vessel_names B vessel_fields ve_callsign get_text text_last.
  - said vessel_names B vessel_fields ve_registration get_text text_last.
  - said vessel_names B vessel_fields ve_uuid get_text text_last.
  - said vessel_names B vessel_fields ve_uuid0 get_text text_last.
  - said vessel_names B vessel_fields ve_uuid1 get_text text_last.
  - said vessel_names B vessel_fields ve_uuid2 get_text text_last.
  - said vessel_names B vessel_fields ve_uuid3 get_text text_last.
  - said vessel_names B vessel_fields ve_uuid4 get_text text_last.
Qed.
Lemma iface_fields_say g : wfj g -> iface_says g (fst (into_struct iface_fields g zero_iface)).
Proof.
  intros W. destruct g as [|b|t|s|l|ms]; try (right; split; [discriminate|reflexivity]). left. exists ms. split; [reflexivity|].
  assert (keys_ok ms) as B by (inversion W as [| | | | |? H]; subst; intros k g I; now destruct (H k g I)). cbn [into_struct].
  repeat apply conj.
  - said iface_names B iface_fields ic_path get_text text_last.
  - said iface_names B iface_fields ic_type get_text text_last.
  - said iface_names B iface_fields ic_speed (get_uint 64) (fun g v => uint_last 64 g v ltac:(lia)).
Qed.
Lemma config_fields_say ms : (forall k g, In (k, g) ms -> bytes_ok k /\ wfj g) -> settings_say ms (fst (into_members config_fields ms zero_config)).
Proof.
  intros W. assert (keys_ok ms) as B by (intros k g I; now destruct (W k g I)).
  assert (Forall ascii_text (map fst config_fields)) as A by apply config_names. rewrite Forall_forall in A.
  assert (forall n, In n (map fst config_fields) -> ascii_text n) as AT by exact A. clear A.
  repeat apply conj.
  - said config_names B config_fields cf_log get_text text_last.
  - said config_names B config_fields cf_map get_text text_last.
  - rewrite (project config_fields cf_server (str "Server") (fun g c => let '(x, ok) := into_struct server_fields g (cf_server c) in
      (mkconfig (cf_log c) (cf_map c) x (cf_mqtt c) (cf_ifaces c) (cf_vessel c), ok)) (fun g x => fst (into_struct server_fields g x)) config_names); [|member| |others|exact B].
    2:{ intros g x. cbv beta. destruct (into_struct server_fields g (cf_server x)). reflexivity. }
    destruct (inside_struct server_fields (str "Server") ms (cf_server zero_config)) as (l & I & ->); [apply AT; cbn; auto 10|exact B|].
    exists l. split; [exact I|]. apply server_fields_say. intros k g J. now destruct (inside_wf _ _ _ W I k g J).
  - rewrite (project config_fields cf_mqtt (str "Mqtt") (fun g c => let '(x, ok) := into_struct mqtt_fields g (cf_mqtt c) in
      (mkconfig (cf_log c) (cf_map c) (cf_server c) x (cf_ifaces c) (cf_vessel c), ok)) (fun g x => fst (into_struct mqtt_fields g x)) config_names); [|member| |others|exact B].
    2:{ intros g x. cbv beta. destruct (into_struct mqtt_fields g (cf_mqtt x)). reflexivity. }
    destruct (inside_struct mqtt_fields (str "Mqtt") ms (cf_mqtt zero_config)) as (l & I & ->); [apply AT; cbn; auto 10|exact B|].
    exists l. split; [exact I|]. apply mqtt_fields_say. intros k g J. now destruct (inside_wf _ _ _ W I k g J).
  - rewrite (project config_fields cf_ifaces (str "Interfaces") (fun g c => let '(x, ok) := into_map (into_struct iface_fields) zero_iface g (cf_ifaces c) in
      (mkconfig (cf_log c) (cf_map c) (cf_server c) (cf_mqtt c) x (cf_vessel c), ok)) (fun g x => fst (into_map (into_struct iface_fields) zero_iface g x)) config_names); [|member| |others|exact B].
    2:{ intros g x. cbv beta. destruct (into_map (into_struct iface_fields) zero_iface g (cf_ifaces x)). reflexivity. }
    apply map_entries; [exact iface_fields_say|apply AT; cbn; auto 10|exact W].
  - rewrite (project config_fields cf_vessel (str "Vessel") (fun g c => let '(x, ok) := into_struct vessel_fields g (cf_vessel c) in
      (mkconfig (cf_log c) (cf_map c) (cf_server c) (cf_mqtt c) (cf_ifaces c) x, ok)) (fun g x => fst (into_struct vessel_fields g x)) config_names); [|member| |others|exact B].
    2:{ intros g x. cbv beta. destruct (into_struct vessel_fields g (cf_vessel x)). reflexivity. }
    destruct (inside_struct vessel_fields (str "Vessel") ms (cf_vessel zero_config)) as (l & I & ->); [apply AT; cbn; auto 10|exact B|].
    exists l. split; [exact I|]. apply vessel_fields_say. intros k g J. now destruct (inside_wf _ _ _ W I k g J).
Qed.
Lemma any_says tag g : wfj g -> any_value tag g (fst (into_any tag g VNil)).
Proof.
  intros W. destruct g as [|b|t|s|l|ms]; try reflexivity. intros m e N. pose proof (parse_float_nearest t m e N) as P. cbn [into_any].
  destruct (parse_float t) as [x|]; cbn [fst]; [left; eauto|right; auto].
Qed.
Definition unopt {T} (o : option (list T)) : list T := match o with Some l => l | None => [] end.
Lemma unopt_members {T} (d : setter T) z n ms : forall o,
  on_members (fun g l => unopt (fst (into_map d z g (Some l)))) n ms (unopt o) = unopt (on_members (fun g x => fst (into_map d z g x)) n ms o).
Proof.
  induction ms as [|[k g] ms IH]; intros o; [reflexivity|]. unfold on_members. cbn [fold_left fst snd]. destruct (EqualFold k n); [|apply IH].
  replace (unopt (fst (into_map d z g (Some (unopt o))))) with (unopt (fst (into_map d z g o))); [apply IH|].
  destruct g, o; reflexivity.
Qed.
Lemma canboat_fields_say tag ms : (forall k g, In (k, g) ms -> bytes_ok k /\ wfj g) -> line_says tag ms (fst (into_members (canboat_fields tag) ms canboat_zero)).
Proof.
  intros W. assert (keys_ok ms) as B by (intros k g I; now destruct (W k g I)). repeat apply conj.
  - said (canboat_names tag) B (canboat_fields tag) cb_prio (get_uint 8) (fun g v => uint_last 8 g v ltac:(lia)).
  - said (canboat_names tag) B (canboat_fields tag) cb_src (get_uint 8) (fun g v => uint_last 8 g v ltac:(lia)).
  - said (canboat_names tag) B (canboat_fields tag) cb_dst (get_uint 8) (fun g v => uint_last 8 g v ltac:(lia)).
  - said (canboat_names tag) B (canboat_fields tag) cb_pgn (get_uint 32) (fun g v => uint_last 32 g v ltac:(lia)).
  - set (dec := fun g (l : list (bytes * gval)) => unopt (fst (into_map (into_any tag) VNil g (Some l)))).
    rewrite (project (canboat_fields tag) cb_fields (str "fields") (fun g c => let '(m, ok) := into_map (into_any tag) VNil g (Some (cb_fields c)) in
      (mkcb (cb_prio c) (cb_src c) (cb_dst c) (cb_pgn c) (match m with Some l => l | None => [] end), ok)) dec (canboat_names tag)); [|member| |others|exact B].
    2:{ intros g x. unfold dec, unopt. cbv beta. destruct (into_map (into_any tag) VNil g (Some (cb_fields x))). reflexivity. }
    destruct (map_entries (any_value tag) (into_any tag) VNil (str "fields") ms (any_says tag)) as (o & E & M); [|exact W|].
    { pose proof (proj1 (canboat_names tag)) as A. rewrite Forall_forall in A. apply A. cbn. auto 10. }
    exists o. split; [exact E|]. change (cb_fields canboat_zero) with (unopt (@None (list (bytes * gval)))).
    unfold dec. rewrite unopt_members. destruct o as [es|], (on_members _ _ ms None) as [l|]; try contradiction M; [exact M|].
    split; [constructor|]. split; [reflexivity|]. intros ? ? [].
Qed.
