(** TomlSave: the saved configuration file is a TOML text that says the configuration. *)
From Coq Require Import Permutation.
From Verif Require Import GoBase Strconv StrconvFacts FtoaFacts ApiModel ApiSpec ApiProps NmeaSpec JsonSpec JsonModel JsonProps XmlDecode SignalkText ConfigModel ConfigSpec ConfigProps UnjsonModel UnjsonDecode TomlModel TomlSpec TomlLex TomlTree TomlDecode TomlProps.
Open Scope Z_scope.
Open Scope list_scope.

(* ------------------------------------------------------------------ the statements *)

Definition sc (v : ConfigSpec.value) : scalar := match v with VText s => TStr s | VInt n => TInt n | VBool b => TBool b end.
Definition set_of (c : config) (o : opt) : list stmt := match place o with Some p => [SSet (last p []) (sc (get o c))] | None => [] end.
Definition sets_of (c : config) (os : list opt) : list stmt := flat_map (set_of c) os.
Definition server_opts := [ServerEnableWebsockets; ServerUseTls; ServerPort; ServerListenOn; ServerAssetPath; ServerPublicKeyFile; ServerPrivateKeyFile].
Definition mqtt_opts := [MqttEnable; MqttUseTls; MqttPort; MqttHost; MqttClientId; MqttUsername; MqttPassword; MqttChannel].
Definition vessel_opts := [VesselName; VesselManufacturer; VesselModel; VesselYear; VesselMmsi; VesselCallsign; VesselRegistration; VesselUuid].
Definition iset (i : iface_cfg) (f : iopt) : stmt := SSet (iplace f) (sc (iget f i)).
Definition iopts := [IPath; IType; ISpeed].
Definition iface_stmts (kv : bytes * iface_cfg) : list stmt := SHead [str "Interfaces"; fst kv] :: map (iset (snd kv)) iopts.
Definition ifaces_stmts (m : ifaces) : list stmt :=
  match m with None => [] | Some l => SHead [str "Interfaces"] :: flat_map iface_stmts (sort_members l) end.
Definition stmts (c : config) : list stmt :=
  sets_of c [LogLevel; MapFile] ++ SHead [str "Server"] :: sets_of c server_opts ++ SHead [str "Mqtt"] :: sets_of c mqtt_opts ++
  ifaces_stmts (cf_ifaces c) ++ SHead [str "Vessel"] :: sets_of c vessel_opts.

(* ------------------------------------------------------------------ values *)

Lemma escape_body s : string_body (flat_map escape_byte s) s.
Proof.
  induction s as [|c s IH]; cbn [flat_map]; [constructor|]. unfold escape_byte.
  destruct (c =? 9) eqn:E1; [apply Z.eqb_eq in E1; subst; exact (sb_escape _ 9 [9] _ _ es_t (utf8_1 9 ltac:(lia)) IH)|].
  destruct (c =? 10) eqn:E2; [apply Z.eqb_eq in E2; subst; exact (sb_escape _ 10 [10] _ _ es_n (utf8_1 10 ltac:(lia)) IH)|].
  destruct (c =? 13) eqn:E3; [apply Z.eqb_eq in E3; subst; exact (sb_escape _ 13 [13] _ _ es_r (utf8_1 13 ltac:(lia)) IH)|].
  destruct (c =? 34) eqn:E4; [apply Z.eqb_eq in E4; subst; exact (sb_escape _ 34 [34] _ _ es_q (utf8_1 34 ltac:(lia)) IH)|].
  destruct (c =? 92) eqn:E5; [apply Z.eqb_eq in E5; subst; exact (sb_escape _ 92 [92] _ _ es_s (utf8_1 92 ltac:(lia)) IH)|].
  cbn [app]. apply sb_byte; [unfold newline; lia|lia|lia|exact IH].
Qed.
Lemma quoted_value s : value_text (quoted_text s) (TStr s).
Proof. constructor. exact (st_basic _ _ (escape_body s)). Qed.
Lemma bool_value b : value_text (of_bool b) (TBool b). Proof. destruct b; constructor. Qed.
Lemma itoa_first n : 0 <= n -> itoa n = [48] \/ forall r, itoa n <> 48 :: r.
Proof.
  intros H. destruct (Z.eq_dec n 0) as [->|N]; [now left|]. right. destruct (itoa_head n ltac:(lia)) as (c & r & -> & NC). intros q E. injection E as E _. congruence.
Qed.
Lemma int_value n : - 2 ^ 63 <= n < 2 ^ 63 -> value_text (itoa n) (TInt n).
Proof.
  intros R. destruct (Z_lt_le_dec n 0) as [N|N].
  - rewrite (itoa_neg n N). apply (vt_int [45] (itoa (- n)) (- n) n).
    + apply SignalkText.itoa_decimal. lia.
    + apply itoa_first. lia.
    + right. split; [reflexivity|lia].
    + exact R.
  - apply (vt_int [] (itoa n) n n); [now apply SignalkText.itoa_decimal|now apply itoa_first|left; auto|exact R].
Qed.
Lemma quoted_name_body k : ~ In 92 k -> Forall (fun b => ~ newline b) k -> string_body (flat_map (fun c => if c =? 34 then [92; 34] else [c]) k) k.
Proof.
  intros B N. induction k as [|c k IH]; cbn [flat_map]; [constructor|]. inversion N as [|? ? NC NK]; subst. cbn [In] in B.
  assert (string_body (flat_map (fun c => if c =? 34 then [92; 34] else [c]) k) k) as S by (apply IH; [tauto|exact NK]). destruct (c =? 34) eqn:E.
  - apply Z.eqb_eq in E. subst. exact (sb_escape _ 34 [34] _ _ es_q (utf8_1 34 ltac:(lia)) S).
  - cbn [app]. apply sb_byte; [exact NC|lia|intros ->; tauto|exact S].
Qed.
Lemma maybe_quoted_name k : k <> [] -> ~ In 92 k -> Forall (fun b => ~ newline b) k -> name_text (maybe_quoted k) k.
Proof.
  intros E B N. unfold maybe_quoted. destruct (forallb bare k) eqn:F.
  - apply nt_bare; [exact E|]. rewrite forallb_forall in F. apply Forall_forall. intros c I. apply bare_iff. now apply F.
  - apply nt_string; [|exact E]. exact (st_basic _ _ (quoted_name_body k B N)).
Qed.

(* ------------------------------------------------------------------ lines *)

Definition bare_name (k : bytes) : Prop := k <> [] /\ Forall bare_char k.
Lemma doc_indent n r l : document r l -> document (indent n ++ r) l.
Proof.
  intros D. induction n as [|n IH]; cbn [indent app]; [exact D|]. apply dc_blank; [left; now left|]. apply dc_blank; [left; now left|exact IH].
Qed.
Lemma doc_newline r l : document r l -> document (10 :: r) l.
Proof. apply dc_blank. right. now left. Qed.
Lemma doc_line n k v s r l : bare_name k -> value_text v s -> document r l -> document (line n k v ++ r) (SSet k s :: l).
Proof.
  intros [NK BK] V D. unfold line. rewrite <- !app_assoc. apply doc_indent.
  assert (blanks [32]) as B by (constructor; [now left|constructor]).
  pose proof (dc_set k k [32] [32] v s [] (10 :: r) l (nt_bare k NK BK) B B V (Forall_nil _)) as H. cbn [app] in H |- *. apply H.
  - right. exists 10, r. split; [reflexivity|]. left. now left.
  - split; [discriminate|]. intros _ _ q E. discriminate E.
  - now apply doc_newline.
Qed.
Lemma doc_section k r l : bare_name k -> document r l -> document (section k ++ r) (SHead [k] :: l).
Proof.
  intros [NK BK] D. unfold section. cbn [app]. apply doc_newline. rewrite <- app_assoc. cbn [app].
  pose proof (ns_one [] k k [] (Forall_nil _) (nt_bare k NK BK) (Forall_nil _)) as NS. cbn [app] in NS. rewrite app_nil_r in NS.
  pose proof (dc_head k [k] [] (10 :: r) l NS (Forall_nil _)) as H. cbn [app] in H. apply H; [|now apply doc_newline].
  right. exists 10, r. split; [reflexivity|]. left. now left.
Qed.
Lemma bare_name_b k : negb (empty k) && forallb bare k = true -> bare_name k.
Proof.
  intros H. apply andb_true_iff in H as [H1 H2]. split; [destruct k; [discriminate H1|discriminate]|]. rewrite forallb_forall in H2. apply Forall_forall. intros c I. apply bare_iff. now apply H2.
Qed.
Ltac bare := first [apply bare_name_b; reflexivity | apply (bare_name_b (str "Interfaces")); reflexivity].
Lemma value_get c o : storable c -> ~ not_in_file o -> value_text (match get o c with VText s => quoted_text s | VInt n => itoa n | VBool b => of_bool b end) (sc (get o c)).
Proof.
  intros (S & _) N. specialize (S o). destruct (get o c) as [b|n|s]; cbn [sc]; [apply bool_value|now apply int_value|apply quoted_value].
Qed.
Lemma doc_lines n c r l : forall os, Forall (fun o => exists k p, place o = Some (p ++ [k]) /\ bare_name k) os -> storable c -> Forall (fun o => ~ not_in_file o) os -> document r l ->
  document (flat_map (fun o => match place o with Some p => line n (last p []) (match get o c with VText s => quoted_text s | VInt n => itoa n | VBool b => of_bool b end) | None => [] end) os ++ r) (sets_of c os ++ l).
Proof.
  intros os P S N D. induction os as [|o os IH]; [exact D|]. inversion P as [|? ? (k & p & PO & BK) P']; subst. inversion N; subst.
  unfold sets_of, set_of in *. cbn [flat_map]. rewrite PO, last_last. rewrite <- !app_assoc. cbn [app]. apply doc_line; [exact BK|now apply value_get|now apply IH].
Qed.
Ltac lines X S D :=
  cbn [flat_map place last get app] in X; rewrite app_nil_r in X; apply X;
  [unfold server_opts, mqtt_opts, vessel_opts; repeat (apply Forall_cons; [eexists; eexists [_]; split; [reflexivity|bare]|]); apply Forall_nil
  |exact S
  |unfold server_opts, mqtt_opts, vessel_opts; repeat (apply Forall_cons; [unfold not_in_file, uuid_part; cbn; intuition discriminate|]); apply Forall_nil|exact D].
Lemma doc_server c r l : storable c -> document r l -> document (server_lines (cf_server c) ++ r) (sets_of c server_opts ++ l).
Proof. intros S D. pose proof (doc_lines 1 c r l server_opts) as X. unfold server_opts in X at 3. lines X S D. Qed.
Lemma doc_mqtt c r l : storable c -> document r l -> document (mqtt_lines (cf_mqtt c) ++ r) (sets_of c mqtt_opts ++ l).
Proof. intros S D. pose proof (doc_lines 1 c r l mqtt_opts) as X. unfold mqtt_opts in X at 3. lines X S D. Qed.
Lemma doc_vessel c r l : storable c -> document r l -> document (vessel_lines (cf_vessel c) ++ r) (sets_of c vessel_opts ++ l).
Proof. intros S D. pose proof (doc_lines 1 c r l vessel_opts) as X. unfold vessel_opts in X at 3. lines X S D. Qed.
Lemma doc_iface kv r l : fst kv <> [] -> ~ In 92 (fst kv) -> Forall (fun b => ~ newline b) (fst kv) -> 0 <= ic_speed (snd kv) < 2 ^ 63 ->
  document r l -> document (iface_text kv ++ r) (iface_stmts kv ++ l).
Proof.
  intros E B N SP D. unfold iface_text, iface_stmts. rewrite <- !app_assoc. apply doc_indent. cbn [app map iopts].
  assert (blanks []) as B0 by constructor.
  pose proof (ns_one [] _ _ [] B0 (maybe_quoted_name (fst kv) E B N) B0) as NS. cbn [app] in NS. rewrite app_nil_r in NS.
  assert (name_text (str "Interfaces") (str "Interfaces")) as NI by (apply nt_bare; bare).
  pose proof (ns_more [] _ _ [] _ _ B0 NI B0 NS) as N2. cbn [app] in N2.
  assert (forall x, document x (map (iset (snd kv)) iopts ++ l) -> document (91 :: (str "Interfaces." ++ maybe_quoted (fst kv)) ++ 93 :: 10 :: x) (SHead [str "Interfaces"; fst kv] :: map (iset (snd kv)) iopts ++ l)) as H.
  { intros x DX. pose proof (dc_head _ _ [] (10 :: x) (map (iset (snd kv)) iopts ++ l) N2 B0) as H. cbn [app] in H. apply H; [|now apply doc_newline].
    right. exists 10, x. split; [reflexivity|]. left. now left. }
  cbn [map iopts app] in H. rewrite <- !app_assoc. cbn [app]. rewrite <- !app_assoc. rewrite (app_assoc (str "Interfaces.")). apply H. clear H. unfold iset. cbn [sc iget iplace].
  apply doc_line; [bare|apply quoted_value|]. apply doc_line; [bare|apply quoted_value|]. apply doc_line; [bare|apply int_value; lia|exact D].
Qed.
Lemma doc_ifaces c r l : storable c -> document r l -> document (ifaces_text (cf_ifaces c) ++ r) (ifaces_stmts (cf_ifaces c) ++ l).
Proof.
  intros (_ & S & _) D. unfold ifaces_text, ifaces_stmts. destruct (cf_ifaces c) as [m|] eqn:E; [|exact D].
  rewrite <- app_assoc. cbn [app]. apply doc_section; [bare|].
  assert (forall k i, In (k, i) (sort_members m) -> iface_of c k i) as I.
  { intros k i I. exists m. split; [exact E|]. apply (Permutation_in _ (sort_members_perm m)). exact I. }
  induction (sort_members m) as [|[k i] q IH]; cbn [flat_map app]; [exact D|]. rewrite <- !app_assoc.
  destruct (S k i (I k i (or_introl eq_refl))) as (H1 & H2 & H3 & H4 & H5 & H6 & H7).
  apply doc_iface; [exact H1|exact H3|exact H4|exact H7|]. apply IH. intros k' i' I'. apply I. now right.
Qed.
Lemma saved_document c t : storable c -> encode_config c = Some t -> document t (stmts c).
Proof.
  intros S E. unfold encode_config in E. destruct (existsb (fun kv => empty (fst kv)) (match cf_ifaces c with Some l => l | None => [] end)); [discriminate E|].
  assert (E2 : forall a b : bytes, Some a = Some b -> a = b) by (intros a b X; now injection X). apply E2 in E. clear E2. subst t. unfold stmts.
  change (sets_of c [LogLevel; MapFile]) with ([SSet (str "LogLevel") (TStr (cf_log c))] ++ [SSet (str "MapFile") (TStr (cf_map c))]). rewrite <- app_assoc.
  refine (doc_line 0 (str "LogLevel") _ _ _ _ _ (quoted_value (cf_log c)) _); [bare|].
  refine (doc_line 0 (str "MapFile") _ _ _ _ _ (quoted_value (cf_map c)) _); [bare|].
  refine (doc_section (str "Server") _ _ _ _); [bare|]. apply doc_server; [exact S|].
  refine (doc_section (str "Mqtt") _ _ _ _); [bare|]. apply doc_mqtt; [exact S|]. apply doc_ifaces; [exact S|].
  refine (doc_section (str "Vessel") _ _ _ _); [bare|].
  rewrite <- (app_nil_r (vessel_lines _)), <- (app_nil_r (sets_of c vessel_opts)). apply doc_vessel; [exact S|constructor].
Qed.

(* ------------------------------------------------------------------ UTF-8 without NUL *)

Lemma plain_nil : plain_text []. Proof. split; [exists []; constructor|intros []]. Qed.
Lemma plain_app a b : plain_text a -> plain_text b -> plain_text (a ++ b).
Proof. intros [[ca A] NA] [[cb B] NB]. split; [exists (ca ++ cb); now apply utf8_text_cat|]. intros I. apply in_app_or in I. tauto. Qed.
Lemma plain_ascii a : Forall (fun c => 0 < c < 128) a -> plain_text a.
Proof.
  intros F. split; [exists a; apply utf8_ascii; eapply Forall_impl; [|exact F]; cbn; lia|]. intros I. rewrite Forall_forall in F. specialize (F _ I). lia.
Qed.
Lemma plain_b a : forallb (fun c => (0 <? c) && (c <? 128)) a = true -> plain_text a.
Proof. intros H. apply plain_ascii. apply Forall_forall. intros c I. rewrite forallb_forall in H. specialize (H c I). lia. Qed.
Lemma plain_map g s : (forall c, 0 < c < 128 -> Forall (fun x => 0 < x < 128) (g c)) -> (forall c, 128 <= c -> g c = [c]) -> plain_text s -> plain_text (flat_map g s).
Proof.
  intros GA GH [[cs U] N]. induction U as [|c enc r cs E U IH]; [exact plain_nil|]. rewrite flat_map_app. apply plain_app.
  - destruct E as [c R|c R|c R NR|c R].
    + cbn [flat_map]. rewrite app_nil_r. apply plain_ascii. apply GA. cbn in N. destruct (Z.eq_dec c 0); [subst; tauto|lia].
    + cbn [flat_map]. rewrite !GH by (Z.to_euclidean_division_equations; lia). cbn [app]. split; [eexists; rewrite <- (app_nil_r [_; _]); eapply ut_char; [apply utf8_2; exact R|constructor]|].
      cbn [In]. Z.to_euclidean_division_equations; lia.
    + cbn [flat_map]. rewrite !GH by (Z.to_euclidean_division_equations; lia). cbn [app]. split; [eexists; rewrite <- (app_nil_r [_; _; _]); eapply ut_char; [apply utf8_3; assumption|constructor]|].
      cbn [In]. Z.to_euclidean_division_equations; lia.
    + cbn [flat_map]. rewrite !GH by (Z.to_euclidean_division_equations; lia). cbn [app]. split; [eexists; rewrite <- (app_nil_r [_; _; _; _]); eapply ut_char; [apply utf8_4; exact R|constructor]|].
      cbn [In]. Z.to_euclidean_division_equations; lia.
  - apply IH. intros I. apply N. apply in_or_app. now right.
Qed.
Lemma plain_cons c s : 0 < c < 128 -> plain_text s -> plain_text (c :: s).
Proof. intros R P. apply (plain_app [c]); [apply plain_ascii; constructor; [exact R|constructor]|exact P]. Qed.
Lemma plain_quoted s : plain_text s -> plain_text (quoted_text s).
Proof.
  intros P. unfold quoted_text. apply plain_cons; [lia|]. apply plain_app; [|apply plain_b; reflexivity]. apply plain_map; [| |exact P]; intros c R; unfold escape_byte.
  - destruct (c =? 9), (c =? 10), (c =? 13), (c =? 34), (c =? 92); repeat (apply Forall_cons; [lia|]); apply Forall_nil.
  - repeat (rewrite (proj2 (Z.eqb_neq c _)) by lia). reflexivity.
Qed.
Lemma plain_name s : plain_text s -> plain_text (maybe_quoted s).
Proof.
  intros P. unfold maybe_quoted. destruct (forallb bare s); [exact P|]. apply plain_cons; [lia|]. apply plain_app; [|apply plain_b; reflexivity].
  apply plain_map; [| |exact P]; intros c R.
  - destruct (c =? 34); repeat (apply Forall_cons; [lia|]); apply Forall_nil.
  - rewrite (proj2 (Z.eqb_neq c _)) by lia. reflexivity.
Qed.
Lemma plain_itoa n : plain_text (itoa n).
Proof.
  destruct (Z_lt_le_dec n 0) as [N|N].
  - rewrite (itoa_neg n N). apply plain_cons; [lia|]. destruct (SignalkText.itoa_decimal (- n) ltac:(lia)) as (_ & F & _). apply plain_ascii. eapply Forall_impl; [|exact F]. cbn. lia.
  - destruct (SignalkText.itoa_decimal n N) as (_ & F & _). apply plain_ascii. eapply Forall_impl; [|exact F]. cbn. lia.
Qed.
Lemma plain_bool b : plain_text (of_bool b). Proof. destruct b; apply plain_b; reflexivity. Qed.
Lemma plain_line n k v : plain_text k -> plain_text v -> plain_text (line n k v).
Proof.
  intros K V. unfold line. apply plain_app; [induction n as [|n IH]; cbn [indent]; [exact plain_nil|]; apply plain_cons; [lia|]; apply plain_cons; [lia|exact IH]|].
  apply plain_app; [exact K|]. apply plain_app; [apply plain_b; reflexivity|]. apply plain_app; [exact V|apply plain_b; reflexivity].
Qed.
Lemma plain_lines n c : storable c -> forall os, Forall (fun o => ~ not_in_file o /\ forall p, place o = Some p -> plain_text (last p [])) os ->
  plain_text (flat_map (fun o => match place o with Some p => line n (last p []) (match get o c with VText s => quoted_text s | VInt n => itoa n | VBool b => of_bool b end) | None => [] end) os).
Proof.
  intros (S & _) os F. induction F as [|o os [N P] F IH]; cbn [flat_map]; [exact plain_nil|]. apply plain_app; [|exact IH]. destruct (place o) as [p|]; [|exact plain_nil].
  apply plain_line; [now apply P|]. specialize (S o). destruct (get o c) as [b|i|s]; [apply plain_bool|apply plain_itoa|]. destruct S as [X|S]; [contradiction|now apply plain_quoted].
Qed.
Ltac opts_plain := repeat (apply Forall_cons; [split; [unfold not_in_file, uuid_part; cbn [In]; intuition discriminate|cbn [place]; intros ? X; injection X as <-; apply plain_b; reflexivity]|]); apply Forall_nil.
Lemma plain_section k : plain_text k -> plain_text (section k).
Proof. intros K. unfold section. apply plain_cons; [lia|]. apply plain_cons; [lia|]. apply plain_app; [exact K|apply plain_b; reflexivity]. Qed.
Lemma saved_plain c t : storable c -> encode_config c = Some t -> plain_text t.
Proof.
  intros S E. unfold encode_config in E. destruct (existsb (fun kv => empty (fst kv)) (match cf_ifaces c with Some l => l | None => [] end)); [discriminate E|].
  assert (E2 : forall a b : bytes, Some a = Some b -> a = b) by (intros a b X; now injection X). apply E2 in E. clear E2. subst t.
  assert (P1 : plain_text (line 0 (str "LogLevel") (quoted_text (cf_log c)) ++ line 0 (str "MapFile") (quoted_text (cf_map c)))).
  { pose proof (plain_lines 0 c S [LogLevel; MapFile] ltac:(opts_plain)) as H. cbn [flat_map place last get app] in H. now rewrite app_nil_r in H. }
  assert (P2 : plain_text (server_lines (cf_server c))).
  { pose proof (plain_lines 1 c S server_opts ltac:(unfold server_opts; opts_plain)) as H. unfold server_opts in H. cbn [flat_map place last get app] in H. now rewrite app_nil_r in H. }
  assert (P3 : plain_text (mqtt_lines (cf_mqtt c))).
  { pose proof (plain_lines 1 c S mqtt_opts ltac:(unfold mqtt_opts; opts_plain)) as H. unfold mqtt_opts in H. cbn [flat_map place last get app] in H. now rewrite app_nil_r in H. }
  assert (P4 : plain_text (vessel_lines (cf_vessel c))).
  { pose proof (plain_lines 1 c S vessel_opts ltac:(unfold vessel_opts; opts_plain)) as H. unfold vessel_opts in H. cbn [flat_map place last get app] in H. now rewrite app_nil_r in H. }
  assert (PS : forall k, forallb (fun c => (0 <? c) && (c <? 128)) k = true -> plain_text (section k)) by (intros k H; apply plain_section; now apply plain_b).
  rewrite app_assoc. apply plain_app; [exact P1|]. apply plain_app; [apply PS; reflexivity|]. apply plain_app; [exact P2|]. apply plain_app; [apply PS; reflexivity|].
  apply plain_app; [exact P3|]. apply plain_app; [|apply plain_app; [apply PS; reflexivity|exact P4]].
  unfold ifaces_text. destruct S as (_ & S & _). unfold iface_of in S. destruct (cf_ifaces c) as [m|]; [|exact plain_nil]. apply plain_app; [apply PS; reflexivity|].
  assert (forall k i, In (k, i) (sort_members m) -> In (k, i) m) as I by (intros k i I; apply (Permutation_in _ (sort_members_perm m)); exact I).
  induction (sort_members m) as [|[k i] q IH]; cbn [flat_map]; [exact plain_nil|]. apply plain_app; [|apply IH; intros k' i' I'; apply I; now right].
  destruct (S k i (ex_intro _ m (conj eq_refl (I k i (or_introl eq_refl))))) as (H1 & H2 & H3 & H4 & H5 & H6 & H7). unfold iface_text. cbn [fst snd].
  apply plain_app; [apply plain_b; reflexivity|]. apply plain_cons; [lia|]. apply plain_app; [apply plain_b; reflexivity|]. apply plain_app; [now apply plain_name|].
  apply plain_app; [apply plain_b; reflexivity|]. apply plain_app; [|apply plain_app]; (apply plain_line; [apply plain_b; reflexivity|]); first [apply plain_b; reflexivity | now apply plain_quoted | apply plain_itoa].
Qed.

(* ------------------------------------------------------------------ its tables and values *)

Definition pl (o : opt) : path := match place o with Some p => p | None => [] end.
Definition before_ifaces := [LogLevel; MapFile] ++ server_opts ++ mqtt_opts.
Definition iassigned (m : ifaces) : list (path * scalar) :=
  match m with None => [] | Some l => flat_map (fun kv => map (fun f => ([str "Interfaces"; fst kv; iplace f], sc (iget f (snd kv)))) iopts) (sort_members l) end.
Definition iheaders (m : ifaces) : list path :=
  match m with None => [] | Some l => [str "Interfaces"] :: map (fun kv => [str "Interfaces"; fst kv]) (sort_members l) end.
Lemma assigned_ifaces m ctx p r : assigned ctx (ifaces_stmts m ++ SHead p :: r) = iassigned m ++ assigned p r.
Proof.
  unfold ifaces_stmts, iassigned. destruct m as [l|]; [|reflexivity]. cbn [app assigned]. generalize ([str "Interfaces"]). induction (sort_members l) as [|[k i] q IH]; intros cx; [reflexivity|].
  cbn [flat_map]. rewrite <- !app_assoc. cbn [iface_stmts map iopts app assigned iset fst snd]. now rewrite IH.
Qed.
Lemma headers_app a b : headers (a ++ b) = headers a ++ headers b.
Proof. induction a as [|[p|k v] a IH]; cbn [app headers]; [reflexivity|now rewrite IH|exact IH]. Qed.
Lemma headers_ifaces m : headers (ifaces_stmts m) = iheaders m.
Proof.
  unfold ifaces_stmts, iheaders. destruct m as [l|]; [|reflexivity]. cbn [headers]. f_equal. induction (sort_members l) as [|[k i] q IH]; [reflexivity|].
  cbn [flat_map]. rewrite headers_app, IH. reflexivity.
Qed.
Lemma stmts_assigned c : assigned [] (stmts c) = map (fun o => (pl o, sc (get o c))) before_ifaces ++ iassigned (cf_ifaces c) ++ map (fun o => (pl o, sc (get o c))) vessel_opts.
Proof.
  unfold stmts. cbn [sets_of server_opts mqtt_opts flat_map set_of place last app assigned before_ifaces map]. repeat f_equal. rewrite assigned_ifaces. f_equal.
Qed.
Lemma stmts_headers c : headers (stmts c) = [[str "Server"]; [str "Mqtt"]] ++ iheaders (cf_ifaces c) ++ [[str "Vessel"]].
Proof.
  unfold stmts. cbn [sets_of server_opts mqtt_opts flat_map set_of place last app headers]. rewrite headers_app, headers_ifaces. reflexivity.
Qed.
Definition file_opts := before_ifaces ++ vessel_opts.
Lemma file_opts_all o : In o file_opts <-> ~ not_in_file o.
Proof. unfold not_in_file, uuid_part. destruct o; cbn; intuition discriminate. Qed.
Lemma file_place o : ~ not_in_file o -> place o = Some (pl o).
Proof. unfold not_in_file, uuid_part, pl. destruct o; cbn; try reflexivity; intros N; elim N; tauto. Qed.
Lemma place_file o p : place o = Some p -> ~ not_in_file o /\ p = pl o.
Proof. unfold not_in_file, uuid_part, pl. intros P. rewrite P. split; [|reflexivity]. destruct o; cbn; intuition discriminate. Qed.
Lemma iassigned_in c p v : In (p, v) (iassigned (cf_ifaces c)) <-> exists k i f, iface_of c k i /\ p = [str "Interfaces"; k; iplace f] /\ v = sc (iget f i).
Proof.
  unfold iassigned, iface_of. destruct (cf_ifaces c) as [m|].
  - rewrite in_flat_map. split.
    + intros ([k i] & I & M). apply in_map_iff in M as (f & X & _). injection X as <- <-. exists k, i, f. split; [|auto]. exists m. split; [reflexivity|].
      apply (Permutation_in _ (sort_members_perm m)). exact I.
    + intros (k & i & f & (m' & E & I) & -> & ->). injection E as <-. exists (k, i). split; [apply (Permutation_in _ (Permutation_sym (sort_members_perm m))); exact I|].
      apply in_map_iff. exists f. split; [reflexivity|]. destruct f; cbn; tauto.
  - split; [intros []|intros (k & i & f & (m & E & _) & _); discriminate E].
Qed.
Lemma stmts_gives c p v : gives (stmts c) p v <-> (exists o, place o = Some p /\ v = sc (get o c)) \/
  exists k i f, iface_of c k i /\ p = [str "Interfaces"; k; iplace f] /\ v = sc (iget f i).
Proof.
  unfold gives. rewrite stmts_assigned, <- iassigned_in, !in_app_iff. split.
  - intros [I|[I|I]]; [left|now right|left]; apply in_map_iff in I as (o & E & I); injection E as <- <-; exists o; (split; [|reflexivity]); apply file_place; apply file_opts_all; unfold file_opts; apply in_or_app; auto.
  - intros [(o & P & ->)|I]; [|auto]. apply place_file in P as [N ->]. apply file_opts_all in N. unfold file_opts in N. apply in_app_or in N as [N|N].
    + left. apply in_map_iff. eauto.
    + right. right. apply in_map_iff. eauto.
Qed.
Lemma stmts_headers_in c p : In p (headers (stmts c)) <-> In p [[str "Server"]; [str "Mqtt"]; [str "Vessel"]] \/ (cf_ifaces c <> None /\ p = [str "Interfaces"]) \/
  exists k i, iface_of c k i /\ p = [str "Interfaces"; k].
Proof.
  rewrite stmts_headers, !in_app_iff. unfold iheaders, iface_of. destruct (cf_ifaces c) as [m|].
  - cbn [In]. rewrite in_map_iff. split.
    + intros [[H|[H|[]]]|[[H|([k i] & H & I)]|[H|[]]]]; auto.
      * right. left. split; [discriminate|auto].
      * right. right. exists k, i. split; [|auto]. exists m. split; [reflexivity|]. apply (Permutation_in _ (sort_members_perm m)). exact I.
    + intros [[H|[H|[H|[]]]]|[[_ H]|(k & i & (m' & E & I) & H)]]; auto. injection E as <-. right. left. right. exists (k, i). split; [auto|].
      apply (Permutation_in _ (Permutation_sym (sort_members_perm m))). exact I.
  - cbn [In]. split; [tauto|]. intros [H|[[H _]|(k & i & (m & E & _) & _)]]; [tauto|congruence|discriminate E].
Qed.
Lemma stmts_table c p : has_table (stmts c) p <-> In p (headers (stmts c)).
Proof.
  split.
  - intros [N [q I]]. pose proof I as J. apply stmts_headers_in in J. assert (q = [] \/ exists k i, iface_of c k i /\ p = [str "Interfaces"] /\ q = [k]) as [->|(k & i & IF & -> & ->)].
    { destruct p as [|a p]; [congruence|]. cbn [In app] in J.
      destruct J as [[J|[J|[J|[]]]]|[[_ J]|(k & i & IF & J)]]; try (injection J as _ J; symmetry in J; apply app_eq_nil in J; tauto); try (injection J as _ J; apply app_eq_nil in J; tauto).
      injection J as J1 J2. destruct p as [|b p]; [right; exists k, i; cbn in J2; subst; auto|]. injection J2 as _ J2. apply app_eq_nil in J2. tauto. }
    + now rewrite app_nil_r in I.
    + apply stmts_headers_in. right. left. split; [|reflexivity]. destruct IF as (m & E & _). rewrite E. discriminate.
  - intros I. split; [|exists []; now rewrite app_nil_r]. intros ->. apply stmts_headers_in in I. cbn [In] in I.
    destruct I as [[I|[I|[I|[]]]]|[[_ I]|(k & i & _ & I)]]; discriminate I.
Qed.
Lemma NoDup_cat {A} (a b : list A) : NoDup a -> NoDup b -> (forall x, In x a -> ~ In x b) -> NoDup (a ++ b).
Proof.
  intros NA NB D. induction NA as [|x a NI NA IH]; [exact NB|]. cbn [app]. constructor; [|apply IH; intros y I; apply D; now right].
  intros I. apply in_app_or in I as [I|I]; [contradiction|]. apply (D x); [now left|exact I].
Qed.
Lemma sorted_nodup c m : storable c -> cf_ifaces c = Some m -> NoDup (map fst (sort_members m)).
Proof. intros (_ & _ & W) E. apply (Permutation_NoDup (l := map fst m)); [apply Permutation_map; apply Permutation_sym; apply sort_members_perm|now apply W]. Qed.
Lemma stmts_proper c : storable c -> proper (stmts c).
Proof.
  intros S. assert (NV : ~ In [str "Vessel"] ([[str "Server"]; [str "Mqtt"]] ++ iheaders (cf_ifaces c))).
  { intros I. apply in_app_or in I as [I|I]; [cbn in I; repeat (destruct I as [I|I]; [discriminate I|]); destruct I|]. unfold iheaders in I. destruct (cf_ifaces c) as [m|]; [|destruct I].
    destruct I as [I|I]; [discriminate I|]. apply in_map_iff in I as (kv & I & _). discriminate I. }
  assert (NI : forall o, ~ In (pl o) (map fst (iassigned (cf_ifaces c)))).
  { intros o I. apply in_map_iff in I as ([p v] & E & I). cbn [fst] in E. subst p. apply iassigned_in in I as (k & i & f & _ & E & _). unfold pl in E. destruct o; discriminate E. }
  assert (NF : NoDup (map pl file_opts)).
  { assert (forall l, NoDup l -> Forall (fun o => ~ not_in_file o) l -> NoDup (map pl l)) as H.
    { intros l ND F. induction ND as [|o l NO ND IH]; [constructor|]. inversion F as [|? ? F1 F2]; subst. cbn [map]. constructor; [|now apply IH].
      intros I. apply in_map_iff in I as (o' & E & I). rewrite Forall_forall in F2. pose proof (file_place o F1) as P1. pose proof (file_place o' (F2 o' I)) as P2. rewrite E in P2.
      rewrite (place_inj _ _ _ P1 P2) in NO. contradiction. }
    apply H; [|apply Forall_forall; intros o; apply file_opts_all]. cbn [file_opts before_ifaces server_opts mqtt_opts vessel_opts app].
    repeat (apply NoDup_cons; [cbn [In]; intros X; repeat (destruct X as [X|X]; [discriminate X|]); exact X|]). apply NoDup_nil. }
  unfold proper. repeat apply conj.
  - rewrite stmts_headers, app_assoc. apply NoDup_cat; [|apply NoDup_cons; [intros []|apply NoDup_nil]|intros x I [<-|[]]; contradiction].
    apply NoDup_cat; [repeat (apply NoDup_cons; [cbn [In]; intros X; repeat (destruct X as [X|X]; [discriminate X|]); exact X|]); apply NoDup_nil| |].
    + unfold iheaders. destruct (cf_ifaces c) as [m|] eqn:E; [|constructor]. pose proof (sorted_nodup c m S E) as ND. constructor.
      * intros I. apply in_map_iff in I as (kv & I & _). discriminate I.
      * rewrite <- (map_map fst (fun k => [str "Interfaces"; k])). apply FinFun.Injective_map_NoDup; [|exact ND]. intros a b X. now injection X.
    + intros x [<-|[<-|[]]] I; unfold iheaders in I; (destruct (cf_ifaces c) as [m|]; [|destruct I]); (destruct I as [I|I]; [discriminate I|]); apply in_map_iff in I as (kv & I & _); discriminate I.
  - rewrite stmts_assigned, !map_app, !map_map. cbn [fst]. apply (Permutation_NoDup (l := map pl file_opts ++ map fst (iassigned (cf_ifaces c)))).
    + unfold file_opts. rewrite map_app, <- app_assoc. apply Permutation_app_head. apply Permutation_app_comm.
    + apply NoDup_cat; [exact NF| |].
      * unfold iassigned. destruct (cf_ifaces c) as [m|] eqn:E; [|constructor]. pose proof (sorted_nodup c m S E) as ND. clear E.
        induction (sort_members m) as [|[k i] q IH]; [constructor|]. cbn [flat_map map fst] in *. inversion ND as [|? ? N1 N2]; subst. rewrite map_app. apply NoDup_cat; [|now apply IH|].
        -- cbn [iopts map fst]. repeat (apply NoDup_cons; [cbn [In]; intros X; repeat (destruct X as [X|X]; [discriminate X|]); exact X|]). apply NoDup_nil.
        -- intros x I J. apply N1. apply in_map_iff in I as ([p v] & <- & I). apply in_map_iff in I as (f & I & _). injection I as <- <-. cbn [fst] in J.
           apply in_map_iff in J as ([p2 v2] & E & J). cbn [fst] in E. subst p2. apply in_flat_map in J as ([k' i'] & J & X). apply in_map_iff in X as (f' & X & _). injection X as X _ _. cbn [fst] in X. subst k'.
           apply in_map_iff. exists (k, i'). auto.
      * intros p I J. apply in_map_iff in I as (o & <- & _). exact (NI o J).
  - intros p v G HT. apply stmts_table, stmts_headers_in in HT. apply stmts_gives in G.
    destruct G as [(o & P & _)|(k & i & f & _ & -> & _)].
    + destruct HT as [HT|[[_ ->]|(k & i & _ & ->)]]; [cbn [In] in HT; destruct HT as [<-|[<-|[<-|[]]]]| |]; destruct o; discriminate P.
    + destruct HT as [HT|[[_ HT]|(k' & i' & _ & HT)]]; [cbn [In] in HT; destruct HT as [HT|[HT|[HT|[]]]]| |]; discriminate HT.
  - intros p q HP HQ E. apply stmts_table, stmts_headers_in in HP, HQ.
    assert (forall p, In p [[str "Server"]; [str "Mqtt"]; [str "Vessel"]] \/ (cf_ifaces c <> None /\ p = [str "Interfaces"]) \/ (exists k i, iface_of c k i /\ p = [str "Interfaces"; k]) ->
      p = [str "Server"] \/ p = [str "Mqtt"] \/ p = [str "Vessel"] \/ p = [str "Interfaces"] \/ exists k, p = [str "Interfaces"; k]) as W.
    { intros x [H|[[_ H]|(k & i & _ & H)]]; [cbn [In] in H; intuition auto|auto|right; right; right; right; eauto]. }
    apply W in HP, HQ. destruct HP as [->|[->|[->|[->|[k ->]]]]], HQ as [->|[->|[->|[->|[k2 ->]]]]]; try reflexivity; try discriminate E.
    cbn [dotted] in E. apply app_inv_head in E. injection E as ->. reflexivity.
Qed.
