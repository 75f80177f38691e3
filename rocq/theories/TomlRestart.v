(** TomlRestart: saving the configuration and starting again, with the real file format (C101, C102). *)
From Coq Require Import Permutation.
From Verif Require Import GoBase Strconv StrconvFacts ApiModel ApiSpec ApiProps JsonSpec ConfigModel ConfigSpec ConfigProps SaveProps UnjsonModel UnjsonDecode TomlModel TomlSpec TomlLex TomlTree TomlDecode TomlProps TomlSave.
Open Scope Z_scope.
Open Scope list_scope.

Definition all_names : list bytes :=
  [str "LogLevel"; str "MapFile"; str "Server"; str "Mqtt"; str "Interfaces"; str "Vessel";
   str "EnableWebsockets"; str "UseTls"; str "Port"; str "ListenOn"; str "AssetPath"; str "PublicKeyFile"; str "PrivateKeyFile";
   str "Enable"; str "Host"; str "ClientId"; str "Username"; str "Password"; str "Channel";
   str "Name"; str "Manufacturer"; str "Model"; str "Year"; str "Mmsi"; str "Callsign"; str "Registration"; str "Uuid";
   str "Path"; str "Type"; str "Speed"].
Lemma all_good : good_names all_names. Proof. names. Qed.
Lemma all_unique a b : In a all_names -> In b all_names -> reads_as a b -> a = b.
Proof.
  intros A B R. apply (names_unique all_names a); [exact all_good|exact A|exact B| |exact R]. apply reads_as_refl. pose proof (proj1 all_good) as G. rewrite Forall_forall in G. now apply G.
Qed.
Lemma place_names o p : place o = Some p -> Forall (fun n => In n all_names) p.
Proof.
  intros P. destruct o; try discriminate P; injection P as <-; repeat (apply Forall_cons; [unfold all_names; cbn [In]; tauto|]); apply Forall_nil.
Qed.
Lemma spelled_same p q : Forall (fun n => In n all_names) p -> Forall (fun n => In n all_names) q -> spelled p q -> p = q.
Proof.
  intros P Q S. induction S as [|a b p q R S IH]; [reflexivity|]. inversion P; inversion Q; subst. f_equal; [now apply all_unique|now apply IH].
Qed.
Lemma iplace_names f : In (iplace f) all_names. Proof. destruct f; cbn [iplace all_names In]; tauto. Qed.
Lemma in_names x : In x [str "Server"; str "Mqtt"; str "Vessel"; str "Interfaces"] -> In x all_names.
Proof. cbn [In all_names]. tauto. Qed.
Lemma sc_kind o c : of_kind (kind_of o) (sc (get o c)). Proof. destruct o; exact I. Qed.
Lemma sc_ikind f i : of_kind (ikind f) (sc (iget f i)). Proof. destruct f; exact I. Qed.
Lemma value_sc v : value_of (sc v) = v. Proof. now destruct v. Qed.

Lemma stmts_sets c o v : sets (stmts c) o v <-> ~ not_in_file o /\ v = sc (get o c).
Proof.
  split.
  - intros (q & p & P & S & G). split; [exact (proj1 (place_file _ _ P))|]. apply stmts_gives in G as [(o' & P' & ->)|(k & i & f & _ & -> & _)].
    + rewrite (spelled_same p q (place_names _ _ P') (place_names _ _ P) S) in P'. now rewrite (place_inj _ _ _ P P').
    + destruct (place_shape o q P) as [Q|[Q|(sec & nm & _ & Q)]]; rewrite Q in S; unfold spelled in S; repeat match goal with H : Forall2 _ _ _ |- _ => inversion H; clear H; subst end.
  - intros [N ->]. pose proof (file_place o N) as P. exists (pl o), (pl o). split; [exact P|]. split.
    + pose proof (place_names _ _ P) as A. unfold spelled. clear P. induction A as [|n p IN A IH]; constructor; [|exact IH]. apply reads_as_refl. pose proof (proj1 all_good) as G. rewrite Forall_forall in G. now apply G.
    + apply stmts_gives. left. eauto.
Qed.
Lemma stmts_fits lax c : fits lax (stmts c).
Proof.
  unfold fits. repeat apply conj.
  - intros o q p P S. split.
    + intros HT. apply stmts_table, stmts_headers_in in HT. assert (exists a r, p = a :: r /\ In a [str "Server"; str "Mqtt"; str "Vessel"; str "Interfaces"] /\ (r <> [] -> a = str "Interfaces")) as (a & r & -> & A & R).
      { destruct HT as [[<-|[<-|[<-|[]]]]|[[_ ->]|(k & i & _ & ->)]]; eexists; eexists; (split; [reflexivity|]); (split; [cbn [In]; tauto|]); intros X; congruence. }
      inversion S as [|? b ? q' RA S']; subst. assert (a = b) as <- by (apply all_unique; [now apply in_names|apply place_names in P; now inversion P|exact RA]).
      destruct (place_shape o _ P) as [Q|[Q|(sec & nm & SI & Q)]].
      1, 2: injection Q as -> _; cbn [In] in A; repeat (destruct A as [A|A]; [discriminate A|]); destruct A.
      injection Q as -> ->. inversion S'; subst. rewrite R in SI by discriminate. cbn [In] in SI. repeat (destruct SI as [SI|SI]; [discriminate SI|]). destruct SI.
    + intros v G. assert (sets (stmts c) o v) as X by (exists q, p; auto). apply stmts_sets in X as [_ ->]. apply sc_kind.
  - intros s k v K R G. apply stmts_gives in G as [(o & P & _)|(x & i & f & _ & X & _)]; [|discriminate X].
    assert (s = k) as -> by (apply all_unique; [apply place_names in P; now inversion P|apply in_names; destruct K as [K|[_ ->]]; cbn [In] in *; tauto|exact R]).
    destruct K as [K|[_ ->]]; [cbn [In] in K; destruct K as [<-|[<-|[<-|[]]]]|]; destruct o; discriminate P.
  - intros s k v R G. apply stmts_gives in G as [(o & P & _)|(x & i & f & _ & X & _)]; [|discriminate X].
    assert (s = str "Interfaces") as -> by (apply all_unique; [apply place_names in P; now inversion P|apply in_names; cbn [In]; tauto|exact R]). destruct o; discriminate P.
  - intros s k f x R RX. split.
    + intros HT. apply stmts_table, stmts_headers_in in HT. destruct HT as [[X|[X|[X|[]]]]|[[_ X]|(k' & i & _ & X)]]; discriminate X.
    + intros v G. apply stmts_gives in G as [(o & P & _)|(k' & i & f' & _ & X & ->)]; [destruct o; discriminate P|]. injection X as -> -> ->.
      assert (iplace f' = iplace f) as E by (apply all_unique; auto using iplace_names). apply iplace_inj in E. subst. apply sc_ikind.
Qed.
Lemma iget_eq i j : (forall f, iget f i = iget f j) -> i = j.
Proof. intros H. pose proof (H IPath). pose proof (H IType). pose proof (H ISpeed). destruct i, j. cbn in *. congruence. Qed.
Lemma says_same c c' : storable c -> says (stmts c) c' ->
  (forall o, ~ not_in_file o -> get o c' = get o c) /\ (forall k i, iface_of c' k i <-> iface_of c k i).
Proof.
  intros S (H1 & H2 & H3 & H4). split.
  - intros o N. destruct (H1 o) as [(v & X & ->)|[X _]]; [apply stmts_sets in X as [_ ->]; apply value_sc|]. elim (X (sc (get o c))). now apply stmts_sets.
  - assert (forall k i', iface_of c' k i' -> forall i, iface_of c k i -> i' = i) as EQ.
    { intros k i' I' i IC. destruct (H2 k i' I') as (s & [R HT] & F). apply stmts_table, stmts_headers_in in HT. destruct HT as [[X|[X|[X|[]]]]|[[_ X]|(k0 & i0 & IC0 & X)]]; try discriminate X.
      injection X as -> <-. assert (W : forall f v, isets (stmts c) (str "Interfaces") k f v <-> v = sc (iget f i)).
      { intros f v. split.
        - intros (x & RX & G). apply stmts_gives in G as [(o & P & _)|(k' & i2 & f' & IC' & X & ->)]; [destruct o; discriminate P|]. injection X as -> ->.
          assert (iplace f' = iplace f) as E by (apply all_unique; auto using iplace_names). apply iplace_inj in E. subst.
          destruct IC' as (m & E & I1), IC as (m' & E' & I2). rewrite E in E'. injection E' as <-. destruct S as (_ & _ & W). pose proof (W m E) as ND.
          apply ConfigProps.find_in in I1, I2; [|exact ND|exact ND]. congruence.
        - intros ->. exists (iplace f). split; [apply reads_as_refl; pose proof (proj1 all_good) as G; rewrite Forall_forall in G; apply G; apply iplace_names|].
          apply stmts_gives. right. eauto 6. }
      apply iget_eq. intros f. destruct (F f) as [(v & X & E)|[X _]]; [|elim (X (sc (iget f i))); now apply W]. apply W in X. subst v. rewrite E.
      destruct f; try reflexivity. cbn [ivalue sc iget]. f_equal. destruct S as (_ & S & _). destruct (S k i IC) as (_ & _ & _ & _ & _ & _ & B). apply Z.mod_small. lia. }
    assert (forall k i', iface_of c' k i' -> exists i, iface_of c k i) as E1.
    { intros k i' I'. destruct (H2 k i' I') as (s & [R HT] & F). apply stmts_table, stmts_headers_in in HT. destruct HT as [[X|[X|[X|[]]]]|[[_ X]|(k0 & i0 & IC0 & X)]]; try discriminate X.
      injection X as _ ->. eauto. }
    intros k i. split.
    + intros I'. destruct (E1 k i I') as [i2 I2]. now rewrite (EQ k i I' i2 I2).
    + intros IC. destruct (H3 (str "Interfaces") k) as [i' I'].
      * split; [apply reads_as_refl; pose proof (proj1 all_good) as G; rewrite Forall_forall in G; apply G; apply in_names; cbn [In]; tauto|]. apply stmts_table, stmts_headers_in. right. right. eauto.
      * now rewrite <- (EQ k i' I' i IC).
Qed.

(** C102: a configuration a file can hold is encoded, the text is a TOML text, and decoding it
    gives the configuration back. *)
Theorem C102_saved lax order other c : fair order -> storable c ->
  exists t, encode_config c = Some t /\ (exists l, toml_text t l /\ proper l) /\ holds (toml_decode lax order other) t c.
Proof.
  intros FO S. destruct (encode_config c) as [t|] eqn:E.
  - exists t. split; [reflexivity|]. pose proof (saved_document c t S E) as D. destruct (saved_plain c t S E) as [U N]. pose proof (stmts_proper c S) as P.
    assert (toml_text t (stmts c)) as TT by (split; [exact D|auto]). split; [eauto|].
    assert (bytes_ok t) as B by (destruct U as [cs U]; exact (utf8_text_bytes _ _ U)).
    destruct (C101_read lax order other t (stmts c) B FO TT P) as [[_ R1] R2]. destruct (R1 (stmts_fits lax c)) as [c' D']. exists c'. split; [exact D'|]. apply says_same; [exact S|now apply R2].
  - exfalso. unfold encode_config in E. destruct (existsb (fun kv => empty (fst kv)) (match cf_ifaces c with Some l => l | None => [] end)) eqn:X; [|discriminate E].
    apply existsb_exists in X as ([k i] & I & EM). destruct S as (_ & S & _). destruct (cf_ifaces c) as [m|] eqn:M; [|destruct I].
    destruct (S k i) as [NE _]; [exists m; auto|]. cbn [fst] in EM. destruct k; [congruence|discriminate EM].
Qed.
(** So C78 holds with the real codec: a configuration that was started from a file, updated any
    number of times and then saved is the one the next start finds. *)
Theorem C102_restart nilp lax order other file log1 sys ds t f f' others log2 : fair order ->
  start_config nilp (Some file) log1 = Some sys -> storable (updates nilp sys ds) ->
  encode_config (updates nilp sys ds) = Some t -> f_conf f <> None -> saving false (Some t) f SDone f' ->
  exists s2, start nilp (toml_decode lax order other) (str "argo.conf") log2 f' others = Some s2 /\
    (forall o, ~ not_in_file o -> o <> LogLevel \/ log2 = [] -> get o s2 = get o (updates nilp sys ds)) /\
    (log2 <> [] -> get LogLevel s2 = VText log2) /\
    (forall k i, iface_of s2 k i <-> iface_of (updates nilp sys ds) k i).
Proof.
  intros FO ST S E NC SV. destruct (C102_saved lax order other _ FO S) as (t' & E' & _ & H). rewrite E in E'. injection E' as <-.
  exact (C78_restart nilp _ file log1 sys ds t f SDone f' others log2 ST H NC SV eq_refl).
Qed.

(* ------------------------------------------------------------------ what stays storable *)

Definition stored_value (o : opt) (v : ConfigSpec.value) : Prop :=
  match v with VText s => not_in_file o \/ plain_text s | VInt n => - 2 ^ 63 <= n < 2 ^ 63 | VBool _ => True end.
Lemma storable_opts c : storable c -> forall o, stored_value o (get o c). Proof. intros [S _] o. exact (S o). Qed.
Lemma default_storable : forall o, stored_value o (get o default_config).
Proof. intros o. destruct o; cbn [get stored_value]; try exact I; try (split; vm_compute; [discriminate|reflexivity]); right; apply plain_b; reflexivity. Qed.
Lemma mval_or a b : mval a b = a \/ mval a b = b. Proof. unfold mval. destruct (negb (unsetb b) && unsetb a); auto. Qed.
Lemma merge_storable nilp c d : storable c -> storable d -> storable (fst (Merge nilp c d)).
Proof.
  intros (C1 & C2 & C3) (D1 & D2 & D3).
  assert (forall k i, iface_of (fst (Merge nilp c d)) k i -> iface_of c k i \/ iface_of d k i) as IF.
  { intros k i (l & E & I). rewrite merge_ifaces in E. unfold merge_map, iface_of in *.
    destruct (cf_ifaces c) as [lc|].
    - destruct (cf_ifaces d) as [ld|]; cbn [fst] in E; injection E as <-; [|eauto]. apply in_app_or in I as [I|I]; [eauto|]. apply filter_In in I as [I _]. eauto.
    - destruct (cf_ifaces d) as [[|x ld]|]; [discriminate E| |discriminate E]. destruct nilp; [discriminate E|]. injection E as <-. eauto. }
  split; [|split].
  - intros o. change (stored_value o (get o (fst (Merge nilp c d)))). assert (get o (fst (Merge nilp c d)) = get o c \/ get o (fst (Merge nilp c d)) = get o d) as [-> | ->].
    { rewrite merge_get. destruct (snd (merge_map nilp (cf_ifaces c) (cf_ifaces d))); [apply mval_or|]. destruct o; first [apply mval_or | now left]. }
    + exact (C1 o).
    + exact (D1 o).
  - intros k i I. destruct (IF k i I); auto.
  - destruct (Bool.bool_dec (snd (merge_map nilp (cf_ifaces c) (cf_ifaces d))) true) as [T|F].
    + unfold well_keyed in *. rewrite merge_ifaces. destruct (cf_ifaces c) as [lc|] eqn:EC.
      * assert (can_add nilp c) as CA by (right; congruence). destruct (C69_interfaces nilp c d CA) as [W _].
        -- unfold well_keyed. now rewrite EC.
        -- exact D3.
        -- unfold well_keyed, updates in W. cbn [fold_left] in W. rewrite admin_merge_fst, merge_ifaces, EC in W. exact W.
      * unfold merge_map. destruct (cf_ifaces d) as [[|x ld]|]; intros l E; try discriminate E. destruct nilp; [discriminate E|]. injection E as <-. now apply D3.
    + unfold well_keyed in *. rewrite merge_ifaces. unfold merge_map in *. destruct (cf_ifaces c) as [lc|], (cf_ifaces d) as [[|x ld]|]; cbn [snd] in F; try congruence.
      destruct nilp; cbn [fst snd] in *; [intros l E; discriminate E|congruence].
Qed.
(** Reading and updating keep a configuration storable: so a configuration can only fail to be
    saved if the file, the -log option or the body of an update has something in it that no file
    can hold. *)
Theorem C102_kept nilp file log sys ds : storable file -> plain_text log -> Forall storable ds ->
  start_config nilp (Some file) log = Some sys -> storable (updates nilp sys ds).
Proof.
  intros S PL DS ST. assert (storable sys) as SS.
  { assert (storable default_config) as SD.
    { split; [exact default_storable|]. split; [intros k i (l & E & _); discriminate E|intros l E; discriminate E]. }
    destruct (C67_start nilp file log) as (r & s & R & S1 & IR & OR & L0 & L1). rewrite ST in S1. injection S1 as <-.
    assert (storable r) as SR.
    { destruct (C67_read nilp file) as (r' & R' & I' & H). rewrite R in R'. injection R' as <-. destruct S as (S1 & S2 & S3). split; [|split].
      - intros o. change (stored_value o (get o r)). destruct (uuid_dec o) as [U|U].
        + unfold stored_value. unfold uuid_part in U. cbn [In] in U. assert (not_in_file o) as N by (right; exact U).
          destruct U as [<-|[<-|[<-|[<-|[<-|[]]]]]]; cbn [get]; now left.
        + destruct (H o U) as (H1 & H2 & H3). destruct (unset_dec (get o file)) as [UN|UN]; [|rewrite (H1 UN); exact (S1 o)].
          assert ((exists v, default o v) \/ forall v, ~ default o v) as [[v DV]|ND].
          { destruct o; first [left; eexists; constructor; fail | right; intros v X; inversion X]. }
          * rewrite (H2 UN v DV). destruct (default_get o v DV) as [<- _]. apply default_storable.
          * rewrite (H3 ND). exact (S1 o).
      - intros k i IF. apply S2. unfold iface_of in *. now rewrite I' in IF.
      - unfold well_keyed in *. now rewrite I'. }
    destruct SR as (S1 & S2 & S3). split; [|split].
    - intros o. change (stored_value o (get o sys)). destruct (opt_dec o LogLevel) as [->|N]; [|rewrite (OR o N); exact (S1 o)].
      destruct log as [|x l]; [rewrite (L0 eq_refl); exact (S1 LogLevel)|]. rewrite L1 by discriminate. right. exact PL.
    - intros k i IF. apply S2. unfold iface_of in *. now rewrite IR in IF.
    - unfold well_keyed in *. now rewrite IR. }
  clear -SS DS. revert sys SS. induction DS as [|d ds SD DS IH]; intros sys SS; [exact SS|]. unfold updates in *. cbn [fold_left]. apply IH. rewrite admin_merge_fst. now apply merge_storable.
Qed.
(** An update is refused by the encoder just if an interface has the empty name. *)
Theorem C102_unnamed c : encode_config c = None <-> exists i, iface_of c [] i.
Proof.
  unfold encode_config, iface_of. destruct (existsb (fun kv => empty (fst kv)) (match cf_ifaces c with Some l => l | None => [] end)) eqn:E.
  - split; [intros _|reflexivity]. apply existsb_exists in E as ([k i] & I & EM). destruct k; [|discriminate EM]. destruct (cf_ifaces c) as [m|]; [|destruct I]. eauto.
  - split; [discriminate|]. intros (i & m & EM & I). rewrite EM in E. exfalso. assert (existsb (fun kv : bytes * iface_cfg => empty (fst kv)) m = true) as X; [|congruence].
    apply existsb_exists. exists ([], i). auto.
Qed.

(* ------------------------------------------------------------------ what the file cannot hold *)

Definition with_iface (k : bytes) (i : iface_cfg) : config :=
  mkconfig (str "INFO") (str "map.xml") (cf_server default_config) (cf_mqtt default_config) (Some [(k, i)]) (cf_vessel default_config).
(** An interface whose name has a backslash, or whose speed is 2^63 or more, can be added by an
    update; the file is saved without an error, and then argo does not start any more. *)
Theorem C102_names_refuted lax order other nilp : exists k, ~ In 0 k /\ k <> [] /\ Forall (fun c => 32 <= c < 127) k /\ exists t,
  encode_config (with_iface k (mkiface (str "/dev/ttyUSB0") (str "actisense") 115200)) = Some t /\
  forall log others, start nilp (toml_decode lax order other) (str "argo.conf") log (mkfiles (Some t) None) others = None.
Proof.
  exists (str "C:\q"). split; [cbn; lia|]. split; [discriminate|]. split; [repeat (apply Forall_cons; [cbv; split; [discriminate|reflexivity]|]); apply Forall_nil|].
  eexists. split; [reflexivity|]. intros log others. reflexivity.
Qed.
Theorem C102_speeds_refuted lax order other nilp : exists n, 0 <= n < 2 ^ 64 /\ exists t,
  encode_config (with_iface (str "Bus") (mkiface (str "/dev/ttyUSB0") (str "actisense") n)) = Some t /\
  forall log others, start nilp (toml_decode lax order other) (str "argo.conf") log (mkfiles (Some t) None) others = None.
Proof.
  exists (2 ^ 63). split; [lia|]. eexists. split; [vm_compute; reflexivity|]. intros log others. vm_compute. reflexivity.
Qed.
(** Other names come back changed: in tty\a, say, the backslash makes the file unreadable, but in
    port\new it becomes a line end. *)
Theorem C102_renamed_refuted lax other nilp others : exists k i t s, encode_config (with_iface k i) = Some t /\
  start nilp (toml_decode lax (fun _ l => l) other) (str "argo.conf") [] (mkfiles (Some t) None) others = Some s /\
  ~ (exists j, iface_of s k j) /\ exists k', k' <> k /\ iface_of s k' i.
Proof.
  exists (str "port\new"), (mkiface (str "/dev/ttyUSB0") (str "actisense") 115200). eexists. eexists. split; [reflexivity|].
  split; [vm_compute; reflexivity|]. split.
  - intros (j & l & E & I). cbn [cf_ifaces] in E. injection E as <-. destruct I as [I|[]]. discriminate I.
  - exists (str "port" ++ [10] ++ str "ew"). split; [intros X; vm_compute in X; discriminate X|]. eexists. split; [reflexivity|]. left. reflexivity.
Qed.

(* ------------------------------------------------------------------ torn saves *)

Definition one_line (s : bytes) : Prop := Forall (fun c => ~ newline c) s.
Lemma blanks_line w : blanks w -> one_line w.
Proof. apply Forall_impl. unfold blank, newline. lia. Qed.
Lemma line_b s : forallb (fun c => negb (is_nl c)) s = true -> Forall (fun c => ~ newline c) s.
Proof. intros H. apply Forall_forall. intros c I N. rewrite forallb_forall in H. specialize (H c I). apply is_nl_iff in N. now rewrite N in H. Qed.
Lemma hex4_line h n : hex4 h n -> one_line h.
Proof.
  unfold hex4, one_line. intros (a & b & c & d & x & y & z & w & -> & A & B & C & D & _).
  repeat (apply Forall_cons; [unfold hex_value, newline in *; lia|]). apply Forall_nil.
Qed.
Lemma body_line b t : string_body b t -> one_line b.
Proof.
  unfold one_line. induction 1 as [|c r t N1 N2 N3 H IH|e c enc r t E U H IH]; [constructor|constructor; auto|]. apply Forall_app. split; [|exact IH]. clear -E.
  destruct E as [ | | | | | | |h n X|h m g n X Y]; try (apply line_b; reflexivity).
  - apply Forall_app. split; [apply line_b; reflexivity|]. exact (hex4_line _ _ X).
  - apply Forall_app. split; [apply line_b; reflexivity|]. apply Forall_app. split; [exact (hex4_line _ _ X)|exact (hex4_line _ _ Y)].
Qed.
Lemma string_line s t : string_text s t -> one_line s.
Proof.
  unfold one_line. intros [b x H|b F]; cbn [app]; (constructor; [unfold newline; lia|]); apply Forall_app; (split; [|constructor; [unfold newline; lia|constructor]]).
  - exact (body_line _ _ H).
  - eapply Forall_impl; [|exact F]. cbn. tauto.
Qed.
Lemma name_line k n : name_text k n -> one_line k.
Proof. intros [m N F|s m S N]; [eapply Forall_impl; [|exact F]; unfold bare_char, newline; cbn; lia|exact (string_line _ _ S)]. Qed.
Lemma names_line s p : names_text s p -> one_line s.
Proof.
  unfold one_line. induction 1 as [w s n w' W N W'|w s n w' r p W N W' H IH]; apply Forall_app; (split; [now apply blanks_line|]); apply Forall_app; (split; [exact (name_line _ _ N)|]).
  - now apply blanks_line.
  - apply Forall_app. split; [now apply blanks_line|]. constructor; [unfold newline; lia|exact IH].
Qed.
Lemma value_line s v : value_text s v -> one_line s.
Proof.
  unfold one_line. intros [x t S|sg d m n (ND & F & _) _ SG _| |].
  - exact (string_line _ _ S).
  - apply Forall_app. split; [destruct SG as [[[->| ->] _]|[-> _]]; apply line_b; reflexivity|]. eapply Forall_impl; [|exact F]. unfold newline. cbn. lia.
  - apply line_b; reflexivity.
  - apply line_b; reflexivity.
Qed.
Lemma cut_prefix x : forall r a b, one_line x -> x ++ r = a ++ 10 :: b -> exists a', a = x ++ a' /\ r = a' ++ 10 :: b.
Proof.
  induction x as [|c x IH]; intros r a b O E; cbn [app] in *; [eauto|]. inversion O as [|? ? NC O']; subst. destruct a as [|d a]; cbn [app] in E.
  - injection E as -> _. elim NC. now left.
  - injection E as -> E. destruct (IH r a b O' E) as (a' & -> & ->). eauto.
Qed.
Lemma line_ends_cut a' b : line_ends (a' ++ 10 :: b) -> line_ends (a' ++ [10]).
Proof.
  intros [E|(c & q & E & H)]; [destruct a'; discriminate E|]. right. destruct a' as [|d a']; cbn [app] in *; injection E as -> _; eexists; eexists; (split; [reflexivity|]); exact H.
Qed.
Lemma document_cut s l : document s l -> forall a b, s = a ++ 10 :: b -> exists l1 l2, document (a ++ [10]) l1 /\ l = l1 ++ l2.
Proof.
  induction 1 as [|c r l C D IH|b0 r l C E D IH|s p w r l N W E D IH|k n w1 w2 s v w r l N W1 W2 V W E F D IH]; intros a b EQ.
  - destruct a; discriminate EQ.
  - destruct a as [|d a]; cbn [app] in EQ; injection EQ as -> EQ.
    + exists [], l. split; [|reflexivity]. apply doc_newline. constructor.
    + destruct (IH a b EQ) as (l1 & l2 & D1 & ->). exists l1, l2. split; [|reflexivity]. now apply dc_blank.
  - rewrite app_assoc in EQ. assert (one_line ([35] ++ b0)) as O by (unfold one_line; constructor; [unfold newline; lia|exact C]). destruct (cut_prefix _ _ _ _ O EQ) as (a' & -> & ER). destruct (IH a' b ER) as (l1 & l2 & D1 & ->).
    exists l1, l2. split; [|reflexivity]. rewrite <- !app_assoc. apply dc_comment; [exact C| |exact D1]. right. subst r. destruct E as [E|(c & q & E & H)]; [destruct a'; discriminate E|].
    destruct a' as [|d a']; cbn [app] in *; injection E as -> _; eexists; eexists; (split; [reflexivity|exact H]).
  - assert (one_line ([91] ++ s ++ [93] ++ w)) as O.
    { unfold one_line. apply Forall_app. split; [constructor; [unfold newline; lia|constructor]|]. apply Forall_app. split; [exact (names_line _ _ N)|]. constructor; [unfold newline; lia|now apply blanks_line]. }
    assert (([91] ++ s ++ [93] ++ w) ++ r = a ++ 10 :: b) as EQ2 by (rewrite <- EQ, <- !app_assoc; reflexivity).
    destruct (cut_prefix _ _ _ _ O EQ2) as (a' & -> & ER). destruct (IH a' b ER) as (l1 & l2 & D1 & ->). exists (SHead p :: l1), l2. split; [|reflexivity].
    rewrite <- !app_assoc. apply dc_head; [exact N|exact W| |exact D1]. subst r. eapply line_ends_cut. exact E.
  - assert (one_line (k ++ w1 ++ [61] ++ w2 ++ s ++ w)) as O.
    { unfold one_line. apply Forall_app. split; [exact (name_line _ _ N)|]. apply Forall_app. split; [now apply blanks_line|]. apply Forall_app. split; [constructor; [unfold newline; lia|constructor]|].
      apply Forall_app. split; [now apply blanks_line|]. apply Forall_app. split; [exact (value_line _ _ V)|now apply blanks_line]. }
    assert ((k ++ w1 ++ [61] ++ w2 ++ s ++ w) ++ r = a ++ 10 :: b) as EQ2 by (rewrite <- EQ, <- !app_assoc; reflexivity).
    destruct (cut_prefix _ _ _ _ O EQ2) as (a' & -> & ER). destruct (IH a' b ER) as (l1 & l2 & D1 & ->). exists (SSet n v :: l1), l2. split; [|reflexivity].
    rewrite <- !app_assoc. apply (dc_set k n w1 w2 s v w); try assumption; subst r; [eapply line_ends_cut; exact E|]. destruct F as [F1 F2]. split.
    + intros _ X. destruct w; [destruct a'; discriminate X|discriminate X].
    + intros VB -> q X. destruct a' as [|d a']; cbn [app] in X; [discriminate X|]. injection X as -> _. now apply (F2 VB eq_refl (a' ++ 10 :: b)).
Qed.
Lemma utf8_cut s cs : utf8_text s cs -> forall a b, s = a ++ 10 :: b -> exists c1, utf8_text (a ++ [10]) c1.
Proof.
  assert (U10 : utf8_text [10] [10]) by (apply (ut_char 10 [10] [] []); [constructor; lia|constructor]).
  induction 1 as [|c enc r cs E U IH]; intros a b EQ; [destruct a; discriminate EQ|].
  assert (enc = [10] \/ Forall (fun x => x <> 10) enc) as [->|O].
  { destruct E as [c R|c R|c R NR|c R]; [destruct (Z.eq_dec c 10) as [->|NE]; [now left|right; constructor; [exact NE|constructor]]| | |]; right; repeat (apply Forall_cons; [Z.to_euclidean_division_equations; lia|]); apply Forall_nil. }
  - destruct a as [|d a]; cbn [app] in EQ.
    + exists [10]. exact U10.
    + injection EQ as <- EQ. destruct (IH a b EQ) as (c1 & H). exists (10 :: c1). exact (ut_char 10 [10] _ _ ltac:(constructor; lia) H).
  - assert (exists a', a = enc ++ a' /\ r = a' ++ 10 :: b) as (a' & -> & ER).
    { clear -O EQ. revert a EQ. induction enc as [|x enc IH]; intros a EQ; cbn [app] in *; [eauto|]. inversion O as [|? ? NX O']; subst. destruct a as [|d a]; cbn [app] in EQ; [injection EQ as -> _; congruence|].
      injection EQ as -> EQ. destruct (IH O' a EQ) as (a' & -> & ->). eauto. }
    destruct (IH a' b ER) as (c1 & H). exists (c :: c1). rewrite <- app_assoc. now constructor.
Qed.
Lemma assigned_app l1 l2 : forall ctx, exists r, assigned ctx (l1 ++ l2) = assigned ctx l1 ++ r.
Proof.
  induction l1 as [|[p|k v] l1 IH]; intros ctx; cbn [app assigned]; [eexists; reflexivity|apply IH|]. destruct (IH ctx) as [r ->]. eexists. reflexivity.
Qed.
Lemma gives_mono l1 l2 p v : gives l1 p v -> gives (l1 ++ l2) p v.
Proof. unfold gives. destruct (assigned_app l1 l2 []) as [r ->]. intros I. apply in_or_app. now left. Qed.
Lemma table_mono l1 l2 p : has_table l1 p -> has_table (l1 ++ l2) p.
Proof. intros [N [q I]]. split; [exact N|]. exists q. rewrite headers_app. apply in_or_app. now left. Qed.
Lemma NoDup_left {A} (a b : list A) : NoDup (a ++ b) -> NoDup a.
Proof. induction a as [|x a IH]; cbn [app]; intros N; [constructor|]. inversion N as [|? ? NI N']; subst. constructor; [intros I; apply NI; apply in_or_app; now left|now apply IH]. Qed.
Lemma proper_left l1 l2 : proper (l1 ++ l2) -> proper l1.
Proof.
  intros (P1 & P2 & P3 & P4). repeat apply conj.
  - rewrite headers_app in P1. exact (NoDup_left _ _ P1).
  - destruct (assigned_app l1 l2 []) as [r E]. rewrite E, map_app in P2. exact (NoDup_left _ _ P2).
  - intros p v G H. apply (P3 p v); [now apply gives_mono|now apply table_mono].
  - intros p q H1 H2. apply P4; now apply table_mono.
Qed.
Lemma fits_left lax l1 l2 : fits lax (l1 ++ l2) -> fits lax l1.
Proof.
  intros (F1 & F2 & F3 & F4). repeat apply conj.
  - intros o q p P S. destruct (F1 o q p P S) as [A B]. split; [intros X; apply A; now apply table_mono|]. intros v G. apply B. now apply gives_mono.
  - intros s k v K R G. apply (F2 s k v K R). now apply gives_mono.
  - intros s k v R G. apply (F3 s k v R). now apply gives_mono.
  - intros s k f x R RX. destruct (F4 s k f x R RX) as [A B]. split; [intros X; apply A; now apply table_mono|]. intros v G. apply B. now apply gives_mono.
Qed.
Lemma off_unset k : unset (off k). Proof. destruct k; [left|right; left|right; right]; reflexivity. Qed.

(** A crash in the middle of a save that leaves argo.conf cut at the end of any line goes
    unnoticed: the next start takes the rest of the options for not given. *)
Theorem C102_torn lax order other c t a b : fair order -> storable c -> encode_config c = Some t -> t = a ++ 10 :: b ->
  exists c', toml_decode lax order other (a ++ [10]) = Some c' /\ (forall o, get o c' = get o c \/ unset (get o c')) /\
    (forall k i, iface_of c' k i -> exists j, iface_of c k j /\ forall f, iget f i = iget f j \/ unset (iget f i)).
Proof.
  intros FO S E EQ. pose proof (saved_document c t S E) as D. destruct (saved_plain c t S E) as [[cs U] N0]. pose proof (stmts_proper c S) as P.
  destruct (document_cut _ _ D a b EQ) as (l1 & l2 & D1 & L). destruct (utf8_cut _ _ U a b EQ) as [c1 U1].
  assert (toml_text (a ++ [10]) l1) as TT.
  { split; [exact D1|]. split; [|eauto]. intros I. apply N0. rewrite EQ. apply in_app_or in I as [I|[I|[]]]; [apply in_or_app; now left|discriminate I]. }
  rewrite L in P. apply proper_left in P. pose proof (stmts_fits lax c) as F. rewrite L in F. apply fits_left in F.
  destruct (C101_read lax order other _ l1 (utf8_text_bytes _ _ U1) FO TT P) as [[_ R1] R2]. destruct (R1 F) as [c' DC]. exists c'. split; [exact DC|].
  destruct (R2 c' DC) as (H1 & H2 & _ & _). assert (forall p v, gives l1 p v -> gives (stmts c) p v) as GM by (intros p v G; rewrite L; now apply gives_mono).
  split.
  - intros o. destruct (H1 o) as [(v & (q & p & PL & SP & G) & ->)|[_ ->]]; [left|right; apply off_unset].
    assert (sets (stmts c) o v) as X by (exists q, p; auto). apply stmts_sets in X as [_ ->]. apply value_sc.
  - intros k i IF. destruct (H2 k i IF) as (s & [R HT] & FI). assert (has_table (stmts c) [s; k]) as HT2 by (rewrite L; now apply table_mono).
    apply stmts_table, stmts_headers_in in HT2. destruct HT2 as [[X|[X|[X|[]]]]|[[_ X]|(k0 & j & IC & X)]]; try discriminate X. injection X as -> <-. exists j. split; [exact IC|].
    intros f. destruct (FI f) as [(v & (x & RX & G) & ->)|[_ ->]]; [left|right; destruct f; apply off_unset]. apply GM in G.
    apply stmts_gives in G as [(o & PO & _)|(k' & i2 & f' & IC' & X & ->)]; [destruct o; discriminate PO|]. injection X as <- ->.
    assert (iplace f' = iplace f) as EI by (apply all_unique; auto using iplace_names). apply iplace_inj in EI. subst f'.
    destruct IC' as (m & EM & I1), IC as (m' & EM' & I2). rewrite EM in EM'. injection EM' as <-. destruct S as (_ & SI & W). pose proof (W m EM) as ND.
    assert (i2 = j) as -> by (apply ConfigProps.find_in in I1, I2; [congruence|exact ND|exact ND]).
    destruct f; try reflexivity. cbn [ivalue sc iget]. f_equal. destruct (SI k j) as (_ & _ & _ & _ & _ & _ & B); [exists m; auto|]. apply Z.mod_small. lia.
Qed.
(** A cut inside a line can also go unnoticed, and give an option a value nobody ever gave it:
    the first digits of a port. *)
Theorem C102_torn_refuted lax other nilp old others : exists c t k f' s, encode_config c = Some t /\
  saving false (Some t) (mkfiles (Some old) None) (SWriteConf k) f' /\
  start nilp (toml_decode lax (fun _ l => l) other) (str "argo.conf") [] f' others = Some s /\
  get ServerPort c = VInt 8080 /\ get ServerPort s = VInt 80.
Proof.
  pose (c := with_iface (str "Bus") (mkiface (str "/dev/ttyUSB0") (str "actisense") 115200)). pose (t := match encode_config c with Some t => t | None => [] end).
  exists c, t, 102%nat, (mkfiles (Some (firstn 102 t)) (Some old)). eexists. split; [reflexivity|].
  split; [apply run_to_conf; vm_compute; lia|]. split; [vm_compute; reflexivity|]. split; reflexivity.
Qed.
(** A crash right after argo.conf was opened leaves it empty, and the next start silently uses
    the defaults. *)
Theorem C102_silent_defaults nilp lax order other old new others : fair order ->
  exists f' s, saving false (Some new) (mkfiles (Some old) None) (SWriteConf 0) f' /\
    start nilp (toml_decode lax order other) (str "argo.conf") [] f' others = Some s /\ f_back f' = Some old /\
    forall o, (forall v, default o v -> get o s = v) /\ (~ uuid_part o -> (forall v, ~ default o v) -> unset (get o s)).
Proof.
  intros FO. apply (C78_silent_defaults nilp _ zero_config).
  - unfold toml_decode, unify, entries. cbn. rewrite (Permutation_nil (FO [] [])). reflexivity.
  - intros o. rewrite off_zero. apply off_unset.
Qed.

(* ------------------------------------------------------------------ examples *)

Definition boat : config :=
  mkconfig (str "DEBUG") (str "map.xml") (mkserver true false 8000 (str "lo") (str "./assets") [] [] [])
    (mkmqtt false true 8883 (str "localhost") (str "argo") (str "signalk") (str "say ""hi"" \ bye") (str "signalk/argo"))
    (Some [(str "Wind 1", mkiface (str "wind.json") (str "file") 0); (str "Bus", mkiface (str "/dev/ttyUSB0") (str "actisense") 115200)])
    (mkvessel (str "SS Minnow") (str "Wheeler") [] 1964 (-5) [] [] [] [] [] [] [] []).
Example C102_example : storable boat /\ exists t, encode_config boat = Some t.
Proof.
  split; [|eexists; reflexivity]. split; [|split].
  - intros o. destruct o; cbn [get boat cf_log cf_map cf_server cf_mqtt cf_vessel sv_websockets sv_tls sv_port sv_listen sv_assets sv_cert sv_public sv_private
      mq_enable mq_tls mq_port mq_host mq_client mq_user mq_password mq_channel
      ve_name ve_manufacturer ve_model ve_year ve_mmsi ve_callsign ve_registration ve_uuid ve_uuid0 ve_uuid1 ve_uuid2 ve_uuid3 ve_uuid4]; try exact I; try lia; right; apply plain_b; reflexivity.
  - intros k i (l & E & IN). injection E as <-. destruct IN as [IN|[IN|[]]]; injection IN as <- <-; (split; [discriminate|]); (split; [apply plain_b; reflexivity|]);
      (split; [cbn; lia|]); (split; [apply line_b; reflexivity|]); (split; [apply plain_b; reflexivity|]); (split; [apply plain_b; reflexivity|]); cbn [ic_speed]; lia.
  - intros l E. injection E as <-. repeat (apply NoDup_cons; [cbn [In map fst]; intros X; repeat (destruct X as [X|X]; [discriminate X|]); exact X|]). apply NoDup_nil.
Qed.
(** The text of a small configuration, and a text as users write it. *)
Example C102_text : encode_config (mkconfig (str "INFO") [] (mkserver true false 80 [] [] [] [] []) (mkmqtt false true 0 [] [] [] [] []) (Some [(str "Wind 1", mkiface (str "w.json") (str "file") 0)]) (mkvessel [] [] [] 0 0 [] [] [] [] [] [] [] [])) = Some (str
"LogLevel = ""INFO""
MapFile = """"

[Server]
  EnableWebsockets = true
  UseTls = false
  Port = 80
  ListenOn = """"
  AssetPath = """"
  PublicKeyFile = """"
  PrivateKeyFile = """"

[Mqtt]
  Enable = false
  UseTls = true
  Port = 0
  Host = """"
  ClientId = """"
  Username = """"
  Password = """"
  Channel = """"

[Interfaces]
  [Interfaces.""Wind 1""]
    Path = ""w.json""
    Type = ""file""
    Speed = 0

[Vessel]
  Name = """"
  Manufacturer = """"
  Model = """"
  Year = 0
  Mmsi = 0
  Callsign = """"
  Registration = """"
  Uuid = """"
").
Proof. reflexivity. Qed.
Example C101_written lax other : exists c, toml_decode lax (fun _ l => l) other (str
"# Example argo configuration
[Server]
Port = 8080   # port to serve HTTP requests data on
[Interfaces]
  [Interfaces.Canusb]
  Path = '/dev/ttyUSB2'
  Type = ""canusb""
  Speed = 230400
  [interfaces.Wind]
  path = ""wind.json""
[vessel]
name = ""SS Minnow""
") = Some c /\ get ServerPort c = VInt 8080 /\ get VesselName c = VText (str "SS Minnow") /\
  iface_of c (str "Canusb") (mkiface (str "/dev/ttyUSB2") (str "canusb") 230400) /\ iface_of c (str "Wind") (mkiface (str "wind.json") [] 0).
Proof.
  eexists. split; [vm_compute; reflexivity|]. split; [reflexivity|]. split; [reflexivity|]. split; eexists; (split; [reflexivity|]); [left; reflexivity|right; left; reflexivity].
Qed.
