(** TomlDecode: from the parsed tree to the configuration. *)
From Coq Require Import Permutation.
From Verif Require Import GoBase ApiModel ApiSpec ApiProps ConfigModel ConfigSpec ConfigProps UnjsonModel UnjsonDecode TomlModel TomlSpec.
Open Scope Z_scope.
Open Scope list_scope.

(* ------------------------------------------------------------------ fill *)

Definition entry {T} (fs : list (bytes * (bytes -> node -> T -> option T))) (k : bytes) (n : node) (x : T) : option T :=
  match field_for fs k with Some f => f k n x | None => Some x end.
Lemma fill_cons {T} (fs : list (bytes * (bytes -> node -> T -> option T))) k n r x :
  fill fs ((k, n) :: r) x = match entry fs k n x with Some y => fill fs r y | None => None end.
Proof. reflexivity. Qed.
Section Fill.
  Context {T O V : Type} (obs : O -> T -> V) (fs : list (bytes * (bytes -> node -> T -> option T))).
  Definition outcome (said : V -> Prop) (o : O) (x y : T) : Prop :=
    (exists v, said v /\ obs o y = v) \/ ((forall v, ~ said v) /\ obs o y = obs o x).
  Lemma outcome_iff (a b : V -> Prop) o x y : (forall v, a v <-> b v) -> outcome a o x y -> outcome b o x y.
  Proof.
    intros E [(v & S & H)|[N H]]; [left; exists v; split; [now apply E|exact H]|right; split; [|exact H]]. intros v B. apply (N v). now apply E.
  Qed.
  Lemma fill_outcome (eff : bytes -> node -> O -> V -> Prop) l :
    (forall k n x y, In (k, n) l -> entry fs k n x = Some y -> forall o, outcome (eff k n o) o x y) ->
    forall x y, fill fs l x = Some y -> forall o, outcome (fun v => exists k n, In (k, n) l /\ eff k n o v) o x y.
  Proof.
    induction l as [|[k n] l IH]; intros E x y F o.
    - injection F as <-. right. split; [intros v (k & n & [] & _)|reflexivity].
    - rewrite fill_cons in F. destruct (entry fs k n x) as [x1|] eqn:X; [|discriminate F].
      destruct (IH (fun k' n' a b I => E k' n' a b (or_intror I)) x1 y F o) as [(v & (k' & n' & I & S) & H)|[N H]].
      + left. exists v. split; [|exact H]. exists k', n'. split; [now right|exact S].
      + destruct (E k n x x1 (or_introl eq_refl) X o) as [(v & S & H1)|[N1 H1]].
        * left. exists v. split; [|congruence]. exists k, n. split; [now left|exact S].
        * right. split; [|congruence]. intros v (k' & n' & [I|I] & S); [injection I as <- <-; now apply (N1 v)|]. apply (N v). eauto.
  Qed.
  Lemma fill_total l : (forall k n, In (k, n) l -> forall x, entry fs k n x <> None) -> forall x, exists y, fill fs l x = Some y.
  Proof.
    induction l as [|[k n] l IH]; intros E x; [exists x; reflexivity|]. rewrite fill_cons. destruct (entry fs k n x) as [x1|] eqn:X; [|elim (E k n (or_introl eq_refl) x X)].
    apply IH. intros k' n' I. apply E. now right.
  Qed.
  Lemma fill_each l : forall x y, fill fs l x = Some y -> forall k n, In (k, n) l -> exists a b, entry fs k n a = Some b.
  Proof.
    induction l as [|[k n] l IH]; intros x y F k' n' I; [destruct I|]. rewrite fill_cons in F. destruct (entry fs k n x) as [x1|] eqn:X; [|discriminate F].
    destruct I as [I|I]; [injection I as <- <-; eauto|now apply (IH x1 y F)].
  Qed.
  Lemma fill_keeps (P : T -> Prop) l : (forall k n x y, In (k, n) l -> P x -> entry fs k n x = Some y -> P y) -> forall x y, P x -> fill fs l x = Some y -> P y.
  Proof.
    induction l as [|[k n] l IH]; intros E x y PX F; [injection F as <-; exact PX|]. rewrite fill_cons in F. destruct (entry fs k n x) as [x1|] eqn:X; [|discriminate F].
    apply (IH (fun k' n' a b I => E k' n' a b (or_intror I)) x1 y); [|exact F]. exact (E k n x x1 (or_introl eq_refl) PX X).
  Qed.
End Fill.

(* ------------------------------------------------------------------ the fields *)

Ltac names := split; [repeat (apply Forall_cons; [repeat (apply Forall_cons; [cbv; split; [discriminate|reflexivity]|]); apply Forall_nil|]); apply Forall_nil
                     |cbn; repeat (apply NoDup_cons; [cbn; intros X; repeat (destruct X as [X|X]; [discriminate X|]); exact X|]); apply NoDup_nil].
Lemma field_for_some {F} (fs : list (bytes * F)) k f : good_names (map fst fs) -> bytes_ok k -> field_for fs k = Some f -> exists nm, In (nm, f) fs /\ reads_as k nm.
Proof.
  intros [A _] B. rewrite Forall_forall in A. assert (forall n g, In (n, g) fs -> ascii_text n) as AT by (intros n g I; apply A; apply in_map_iff; exists (n, g); auto).
  unfold field_for. destruct (field_exact fs k) as [g|] eqn:E.
  - intros H. injection H as ->. apply field_exact_some in E. exists k. split; [exact E|]. apply reads_as_refl. exact (AT _ _ E).
  - intros H. apply field_fold_some in H as (n & I & R). exists n. split; [exact I|]. apply C64_case; [exact B|exact (AT _ _ I)|exact R].
Qed.
Lemma entry_cases {T} (fs : list (bytes * (bytes -> node -> T -> option T))) k n x : good_names (map fst fs) -> bytes_ok k ->
  (exists nm f, In (nm, f) fs /\ reads_as k nm /\ entry fs k n x = f k n x) \/ ((forall nm f, In (nm, f) fs -> ~ reads_as k nm) /\ entry fs k n x = Some x).
Proof.
  intros G B. unfold entry. destruct (field_for fs k) as [f|] eqn:E.
  - left. destruct (field_for_some _ _ _ G B E) as (nm & I & R). exists nm, f. auto.
  - right. split; [|reflexivity]. intros nm f I R. rewrite (proj1 (field_for_spec fs k G B) nm f I R) in E. discriminate E.
Qed.
Lemma entry_at {T} (fs : list (bytes * (bytes -> node -> T -> option T))) k n x nm f : good_names (map fst fs) -> bytes_ok k -> In (nm, f) fs -> reads_as k nm -> entry fs k n x = f k n x.
Proof. intros G B I R. unfold entry. now rewrite (proj1 (field_for_spec fs k G B) nm f I R). Qed.
Lemma plain_names {T} (fs : list (bytes * (node -> T -> option T))) : map fst (plain fs) = map fst fs.
Proof. induction fs as [|[n f] fs IH]; [reflexivity|]. cbn. now f_equal. Qed.
Lemma plain_in {T} (fs : list (bytes * (node -> T -> option T))) n g : In (n, g) (plain fs) <-> exists f, In (n, f) fs /\ g = fun _ => f.
Proof.
  induction fs as [|[m f] fs IH]; cbn [plain map In]; [split; [intros []|intros (f & [] & _)]|]. fold (plain fs). rewrite IH. split.
  - intros [E|(f' & I & ->)]; [injection E as <- <-; eauto|eauto].
  - intros (f' & [E|I] & ->); [injection E as <- <-; auto|eauto].
Qed.

(** What can be seen of a configuration. *)
Inductive cobs := CO (o : opt) | CI (k : bytes).
Inductive cval := VO (v : ConfigSpec.value) | VI (i : option iface_cfg).
Definition observe (x : cobs) (c : config) : cval :=
  match x with CO o => VO (get o c) | CI k => VI (match cf_ifaces c with Some m => if_find m k | None => None end) end.
Definition setter_for (o : opt) (f : node -> config -> option config) : Prop :=
  (forall n c c', f n c = Some c' -> exists w, n = NLeaf w /\ of_kind (kind_of o) w /\ get o c' = value_of w /\
     (forall o', o' <> o -> get o' c' = get o' c) /\ cf_ifaces c' = cf_ifaces c) /\
  (forall w c, of_kind (kind_of o) w -> f (NLeaf w) c <> None).
Lemma setter_str o put : kind_of o = KText -> (forall x c, get o (put x c) = VText x /\ (forall o', o' <> o -> get o' (put x c) = get o' c) /\ cf_ifaces (put x c) = cf_ifaces c) ->
  setter_for o (into_string put).
Proof.
  intros K H. split.
  - intros [[s|n|b]|] c c' E; try discriminate E. injection E as <-. exists (TStr s). rewrite K. split; [reflexivity|]. split; [exact I|]. apply H.
  - intros [s|n|b] c E; rewrite K in E; try destruct E. discriminate.
Qed.
Lemma setter_int o put : kind_of o = KInt -> (forall x c, get o (put x c) = VInt x /\ (forall o', o' <> o -> get o' (put x c) = get o' c) /\ cf_ifaces (put x c) = cf_ifaces c) ->
  setter_for o (into_int put).
Proof.
  intros K H. split.
  - intros [[s|n|b]|] c c' E; try discriminate E. injection E as <-. exists (TInt n). rewrite K. split; [reflexivity|]. split; [exact I|]. apply H.
  - intros [s|n|b] c E; rewrite K in E; try destruct E. discriminate.
Qed.
Lemma setter_bool o put : kind_of o = KBool -> (forall x c, get o (put x c) = VBool x /\ (forall o', o' <> o -> get o' (put x c) = get o' c) /\ cf_ifaces (put x c) = cf_ifaces c) ->
  setter_for o (into_bool put).
Proof.
  intros K H. split.
  - intros [[s|n|b]|] c c' E; try discriminate E. injection E as <-. exists (TBool b). rewrite K. split; [reflexivity|]. split; [exact I|]. apply H.
  - intros [s|n|b] c E; rewrite K in E; try destruct E. discriminate.
Qed.
Ltac setter := first [apply setter_str | apply setter_int | apply setter_bool];
  [reflexivity|let x := fresh in let c := fresh in let o := fresh in let N := fresh in
   intros x c; split; [reflexivity|split; [intros o N; destruct o; first [reflexivity | elim (N eq_refl)]|reflexivity]]].
(** The fields of a section belong to the options of that section. *)
Definition section_ok (sec : bytes) (fs : list (bytes * (node -> config -> option config))) : Prop :=
  good_names (map fst fs) /\ (forall nm f, In (nm, f) fs -> exists o, place o = Some [sec; nm] /\ setter_for o f) /\
  (forall o nm, place o = Some [sec; nm] -> exists f, In (nm, f) fs).
Lemma section_by sec fs os : good_names (map fst fs) -> Forall2 (fun nf o => place o = Some [sec; fst nf] /\ setter_for o (snd nf)) fs os ->
  (forall o nm, place o = Some [sec; nm] -> In o os) -> section_ok sec fs.
Proof.
  intros G F A. split; [exact G|]. split.
  - intros nm f I. clear A G. induction F as [|nf o fs os H F IH]; [destruct I|]. destruct I as [->|I]; [exists o; exact H|now apply IH].
  - intros o nm P. specialize (A o nm P). clear G. induction F as [|nf o' fs os H F IH]; [destruct A|]. destruct A as [->|A].
    + exists (snd nf). left. destruct nf as [n f]. cbn in H. destruct H as [H _]. rewrite P in H. injection H as ->. reflexivity.
    + destruct (IH A) as [f I]. exists f. now right.
Qed.
Lemma server_section : section_ok (str "Server") server_keys.
Proof.
  apply (section_by _ _ [ServerEnableWebsockets; ServerUseTls; ServerPort; ServerListenOn; ServerAssetPath; ServerPublicKeyFile; ServerPrivateKeyFile]); [names| |].
  - unfold server_keys. repeat (apply Forall2_cons; [split; [reflexivity|cbn [snd]; setter]|]). apply Forall2_nil.
  - intros o nm P. destruct o; try discriminate P; cbn; tauto.
Qed.
Lemma mqtt_section : section_ok (str "Mqtt") mqtt_keys.
Proof.
  apply (section_by _ _ [MqttEnable; MqttUseTls; MqttPort; MqttHost; MqttClientId; MqttUsername; MqttPassword; MqttChannel]); [names| |].
  - unfold mqtt_keys. repeat (apply Forall2_cons; [split; [reflexivity|cbn [snd]; setter]|]). apply Forall2_nil.
  - intros o nm P. destruct o; try discriminate P; cbn; tauto.
Qed.
Lemma vessel_section : section_ok (str "Vessel") vessel_keys.
Proof.
  apply (section_by _ _ [VesselName; VesselManufacturer; VesselModel; VesselYear; VesselMmsi; VesselCallsign; VesselRegistration; VesselUuid]); [names| |].
  - unfold vessel_keys. repeat (apply Forall2_cons; [split; [reflexivity|cbn [snd]; setter]|]). apply Forall2_nil.
  - intros o nm P. destruct o; try discriminate P; cbn; tauto.
Qed.
Lemma place_inj o o' q : place o = Some q -> place o' = Some q -> o = o'.
Proof. intros P P'. destruct o; try discriminate P; injection P as <-; destruct o'; first [reflexivity | discriminate P']. Qed.
Lemma place_shape o q : place o = Some q -> q = [str "LogLevel"] \/ q = [str "MapFile"] \/ exists sec nm, In sec [str "Server"; str "Mqtt"; str "Vessel"] /\ q = [sec; nm].
Proof. intros P. destruct o; try discriminate P; injection P as <-; auto; right; right; do 2 eexists; (split; [|reflexivity]); cbn; auto. Qed.
Lemma opt_dec (o o' : opt) : {o = o'} + {o <> o'}. Proof. decide equality. Qed.
Lemma names_unique ns k a b : good_names ns -> In a ns -> In b ns -> reads_as k a -> reads_as k b -> a = b.
Proof.
  intros [_ N] A B RA RB. pose proof (reads_as_lower _ _ _ RA RB) as E. clear RA RB. induction ns as [|x ns IH]; [destruct A|]. cbn [map] in N.
  inversion N as [|? ? NI N']; subst. destruct A as [->|A], B as [->|B]; [reflexivity| | |now apply IH].
  - elim NI. rewrite E. now apply in_map.
  - elim NI. rewrite <- E. now apply in_map.
Qed.
Definition sec_eff (sec k : bytes) (n : node) (x : cobs) (v : cval) : Prop :=
  exists o nm w, x = CO o /\ place o = Some [sec; nm] /\ reads_as k nm /\ n = NLeaf w /\ v = VO (value_of w).
Definition sec_fit (sec k : bytes) (n : node) : Prop :=
  forall o nm, place o = Some [sec; nm] -> reads_as k nm -> exists w, n = NLeaf w /\ of_kind (kind_of o) w.
Lemma section_entry sec fs k n c c' : section_ok sec fs -> bytes_ok k -> entry (plain fs) k n c = Some c' ->
  (forall x, outcome observe (sec_eff sec k n x) x c c') /\ sec_fit sec k n /\ cf_ifaces c' = cf_ifaces c.
Proof.
  intros (G & F1 & F2) B E. assert (good_names (map fst (plain fs))) as GP by now rewrite plain_names.
  assert (forall o nm, place o = Some [sec; nm] -> In nm (map fst fs)) as PN. { intros o nm P. destruct (F2 o nm P) as [f I]. apply in_map_iff. exists (nm, f). auto. }
  destruct (entry_cases (plain fs) k n c GP B) as [(nm & g & I & R & EQ)|[N EQ]]; rewrite EQ in E.
  - apply plain_in in I as (f & I & ->). destruct (F1 nm f I) as (o & P & S & _). apply S in E as (w & -> & K & GO & GN & CI').
    assert (forall o' nm', place o' = Some [sec; nm'] -> reads_as k nm' -> o' = o) as U.
    { intros o' nm' P' R'. assert (nm' = nm) as -> by (apply (names_unique (map fst fs) k); eauto). eapply place_inj; eassumption. }
    split; [|split; [|exact CI']].
    + intros [o'|x].
      * destruct (opt_dec o' o) as [->|ND].
        -- left. exists (VO (value_of w)). split; [|cbn; now rewrite GO]. exists o, nm, w. auto.
        -- right. split; [|cbn; now rewrite GN]. intros v (o2 & nm' & w' & X & P' & R' & _ & _). injection X as <-. apply ND. eauto.
      * right. split; [intros v (o2 & nm' & w' & X & _); discriminate X|]. cbn. now rewrite CI'.
    + intros o' nm' P' R'. rewrite (U o' nm' P' R'). eauto.
  - injection E as <-. split; [|split; [|reflexivity]].
    + intros x. right. split; [|reflexivity]. intros v (o & nm & w & -> & P & R & _). destruct (F2 o nm P) as [f I]. apply (N nm (fun _ => f)); [|exact R]. apply plain_in. eauto.
    + intros o nm P R. destruct (F2 o nm P) as [f I]. elim (N nm (fun _ => f)); [|exact R]. apply plain_in. eauto.
Qed.
Lemma section_entry_total sec fs k n c : section_ok sec fs -> bytes_ok k -> sec_fit sec k n -> entry (plain fs) k n c <> None.
Proof.
  intros (G & F1 & F2) B FT. assert (good_names (map fst (plain fs))) as GP by now rewrite plain_names.
  destruct (entry_cases (plain fs) k n c GP B) as [(nm & g & I & R & ->)|[N ->]]; [|discriminate].
  apply plain_in in I as (f & I & ->). destruct (F1 nm f I) as (o & P & _ & S). destruct (FT o nm P R) as (w & -> & K). now apply S.
Qed.

(* ------------------------------------------------------------------ interfaces *)

Definition isetter_for (o : iopt) (f : node -> iface_cfg -> option iface_cfg) : Prop :=
  (forall n c c', f n c = Some c' -> exists w, n = NLeaf w /\ of_kind (ikind o) w /\ iget o c' = ivalue o w /\ (forall o', o' <> o -> iget o' c' = iget o' c)) /\
  (forall w c, of_kind (ikind o) w -> f (NLeaf w) c <> None).
Lemma iface_good : good_names (map fst (plain iface_keys)). Proof. names. Qed.
Lemma iface_setters nm f : In (nm, f) iface_keys -> exists o, nm = iplace o /\ isetter_for o f.
Proof.
  intros [E|[E|[E|[]]]]; injection E as <- <-; [exists IPath|exists IType|exists ISpeed]; (split; [reflexivity|]); split.
  all: try (intros [[s|n|b]|] c c' E; try discriminate E; injection E as <-; eexists; (split; [reflexivity|]); (split; [exact I|]); (split; [reflexivity|]); intros [] N; first [reflexivity | elim (N eq_refl)]).
  all: intros [s|n|b] c K; try destruct K; discriminate.
Qed.
Lemma iface_places o : exists f, In (iplace o, f) iface_keys.
Proof. destruct o; eexists; cbn [iplace iface_keys In]; eauto. Qed.
Definition if_eff (k : bytes) (n : node) (o : iopt) (v : ConfigSpec.value) : Prop :=
  exists w, reads_as k (iplace o) /\ n = NLeaf w /\ v = ivalue o w.
Definition if_fit (k : bytes) (n : node) : Prop := forall o, reads_as k (iplace o) -> exists w, n = NLeaf w /\ of_kind (ikind o) w.
Lemma iopt_dec (o o' : iopt) : {o = o'} + {o <> o'}. Proof. decide equality. Qed.
Lemma iplace_inj o o' : iplace o = iplace o' -> o = o'. Proof. destruct o, o'; first [reflexivity | discriminate]. Qed.
Lemma iface_entry k n c c' : bytes_ok k -> entry (plain iface_keys) k n c = Some c' -> (forall o, outcome iget (if_eff k n o) o c c') /\ if_fit k n.
Proof.
  intros B E. assert (forall o, In (iplace o) (map fst (plain iface_keys))) as PN. { intros o. destruct (iface_places o) as [f I]. rewrite plain_names. apply in_map_iff. exists (iplace o, f). auto. }
  destruct (entry_cases (plain iface_keys) k n c iface_good B) as [(nm & g & I & R & EQ)|[N EQ]]; rewrite EQ in E.
  - apply plain_in in I as (f & I & ->). destruct (iface_setters nm f I) as (o & -> & S & _). apply S in E as (w & -> & K & GO & GN).
    assert (forall o', reads_as k (iplace o') -> o' = o) as U by (intros o' R'; apply iplace_inj; apply (names_unique (map fst (plain iface_keys)) k); auto using iface_good).
    split.
    + intros o'. destruct (iopt_dec o' o) as [->|ND].
      * left. exists (ivalue o w). split; [|exact GO]. exists w. auto.
      * right. split; [|now apply GN]. intros v (w' & R' & _). auto.
    + intros o' R'. rewrite (U o' R'). eauto.
  - injection E as <-. assert (forall o, ~ reads_as k (iplace o)) as NR. { intros o R. destruct (iface_places o) as [f I]. apply (N (iplace o) (fun _ => f)); [|exact R]. apply plain_in. eauto. }
    split; [|intros o R; now elim (NR o)]. intros o. right. split; [|reflexivity]. intros v (w & R & _). now apply (NR o).
Qed.
Lemma iface_entry_total k n c : bytes_ok k -> if_fit k n -> entry (plain iface_keys) k n c <> None.
Proof.
  intros B FT. destruct (entry_cases (plain iface_keys) k n c iface_good B) as [(nm & g & I & R & ->)|[N ->]]; [|discriminate].
  apply plain_in in I as (f & I & ->). destruct (iface_setters nm f I) as (o & -> & _ & S). destruct (FT o R) as (w & -> & K). now apply S.
Qed.
Lemma if_find_set m k v x : if_find (map_set m k v) x = if bytes_eqb k x then Some v else if_find m x.
Proof.
  induction m as [|[y w] m IH]; cbn [map_set if_find]; [reflexivity|]. destruct (bytes_eqb y k) eqn:E.
  - apply bytes_eqb_eq in E. subst y. cbn [if_find]. now destruct (bytes_eqb k x).
  - cbn [if_find]. rewrite IH. destruct (bytes_eqb y x) eqn:E2; [|reflexivity]. apply bytes_eqb_eq in E2. subst y.
    destruct (bytes_eqb k x) eqn:E3; [|reflexivity]. apply bytes_eqb_eq in E3. subst. rewrite (proj2 (bytes_eqb_eq x x) eq_refl) in E. discriminate E.
Qed.

(* ------------------------------------------------------------------ the whole configuration *)

Section Whole.
  Variable lax : bool.
  Variable order : path -> list (bytes * node) -> list (bytes * node).
  Variable t : tree.
  Hypothesis fair_order : fair order.
  Hypothesis names_ok : forall p n, In (p, n) t -> Forall bytes_ok p.
  Notation entries := (entries order t).
  Lemma strip_iff p q k : strip p q = Some [k] <-> q = p ++ [k].
  Proof.
    revert q. induction p as [|a p IH]; intros q; cbn [strip app].
    - split; [intros E; injection E as ->; reflexivity|intros ->; reflexivity].
    - destruct q as [|b q]; [split; discriminate|]. destruct (bytes_eqb a b) eqn:E.
      + apply bytes_eqb_eq in E. subst. rewrite IH. split; [intros ->; reflexivity|intros X; injection X as ->; reflexivity].
      + split; [discriminate|]. intros X. injection X as -> _. rewrite (proj2 (bytes_eqb_eq a a) eq_refl) in E. discriminate E.
  Qed.
  Lemma entries_iff p k n : In (k, n) (entries p) <-> In (p ++ [k], n) t.
  Proof.
    unfold TomlModel.entries. pose proof (fair_order p (children t p)) as PM. split.
    - intros I. apply (Permutation_in _ (Permutation_sym PM)) in I. unfold children in I. apply in_flat_map in I as ([q m] & I & S). cbn [fst snd] in S.
      destruct (strip p q) as [[|x [|y r]]|] eqn:E; cbn [In] in S; try contradiction. destruct S as [S|[]]. injection S as <- <-. apply strip_iff in E. now subst.
    - intros I. apply (Permutation_in _ PM). unfold children. apply in_flat_map. exists (p ++ [k], n). split; [exact I|]. cbn [fst snd]. rewrite (proj2 (strip_iff p (p ++ [k]) k) eq_refl). now left.
  Qed.
  Lemma entries_ok p k n : In (k, n) (entries p) -> bytes_ok k.
  Proof. intros I. apply entries_iff in I. apply names_ok in I. apply Forall_app in I as [_ I]. now inversion I. Qed.

  Definition iface_read (k x : bytes) (i : iface_cfg) : Prop := fill (plain iface_keys) (entries [k; x]) zero_iface = Some i.
  Lemma into_entries_find k l : forall m m', into_entries order t k l m = Some m' ->
    (forall x, (exists i, In (x, NTable) l /\ iface_read k x i /\ if_find m' x = Some i) \/ ((forall i, ~ (In (x, NTable) l /\ iface_read k x i)) /\ if_find m' x = if_find m x)) /\
    (forall x n, In (x, n) l -> n = NTable /\ exists i, iface_read k x i) /\ (NoDup (map fst m) -> NoDup (map fst m')).
  Proof.
    induction l as [|[x n] l IH]; intros m m' E; cbn [into_entries] in E.
    - injection E as <-. split; [intros x; right; split; [intros i [[] _]|reflexivity]|]. split; [intros x n []|auto].
    - destruct n as [v|]; [discriminate E|]. destruct (fill (plain iface_keys) (entries [k; x]) zero_iface) as [i|] eqn:F; [|discriminate E].
      destruct (IH _ _ E) as (H1 & H2 & H3). split; [|split].
      + intros y. destruct (H1 y) as [(j & I & R & Q)|[N Q]]; [left; exists j; split; [now right|auto]|]. rewrite if_find_set in Q. destruct (bytes_eqb x y) eqn:XY.
        * apply bytes_eqb_eq in XY. subst y. left. exists i. split; [now left|]. split; [exact F|exact Q].
        * right. split; [|exact Q]. intros j [[I|I] R]; [injection I as ->; rewrite (proj2 (bytes_eqb_eq y y) eq_refl) in XY; discriminate XY|]. now apply (N j).
      + intros y n [I|I]; [injection I as <- <-; split; [reflexivity|]; exists i; exact F|now apply H2].
      + intros ND. apply H3. now apply map_set_in.
  Qed.
  Lemma into_entries_total k l : (forall x n, In (x, n) l -> n = NTable /\ exists i, iface_read k x i) -> forall m, exists m', into_entries order t k l m = Some m'.
  Proof.
    induction l as [|[x n] l IH]; intros H m; [exists m; reflexivity|]. destruct (H x n (or_introl eq_refl)) as [-> [i R]]. cbn [into_entries]. unfold iface_read in R. rewrite R.
    apply IH. intros y n' I. apply H. now right.
  Qed.

  Definition top_eff (k : bytes) (n : node) (x : cobs) (v : cval) : Prop :=
    match x with
    | CO o => (exists nm w, place o = Some [nm] /\ reads_as k nm /\ n = NLeaf w /\ v = VO (value_of w)) \/
              (exists sec nm k' w, place o = Some [sec; nm] /\ reads_as k sec /\ n = NTable /\ In ([k; k'], NLeaf w) t /\ reads_as k' nm /\ v = VO (value_of w))
    | CI x => reads_as k (str "Interfaces") /\ n = NTable /\ exists i, In ([k; x], NTable) t /\ iface_read k x i /\ v = VI (Some i)
    end.
  Definition top_fit (k : bytes) (n : node) : Prop :=
    (forall o nm, place o = Some [nm] -> reads_as k nm -> exists w, n = NLeaf w /\ of_kind (kind_of o) w) /\
    (forall sec, In sec [str "Server"; str "Mqtt"; str "Vessel"] -> reads_as k sec -> n = NTable /\ forall k' n', In ([k; k'], n') t -> sec_fit sec k' n') /\
    (reads_as k (str "Interfaces") -> (n = NTable \/ lax = true) /\ (n = NTable -> forall x n', In ([k; x], n') t -> n' = NTable /\ exists i, iface_read k x i)).
  Lemma top_good : good_names (map fst (top_keys lax order t)). Proof. names. Qed.
  Definition top_names : list bytes := [str "LogLevel"; str "MapFile"; str "Server"; str "Mqtt"; str "Interfaces"; str "Vessel"].
  Lemma top_unique k a b : In a top_names -> In b top_names -> reads_as k a -> reads_as k b -> a = b.
  Proof. intros A B. apply (names_unique top_names k); [exact top_good|exact A|exact B]. Qed.
  Lemma place1 o nm : place o = Some [nm] -> nm = str "LogLevel" /\ o = LogLevel \/ nm = str "MapFile" /\ o = MapFile.
  Proof. intros P. destruct o; try discriminate P; injection P as <-; auto. Qed.
  Lemma place2 o sec nm : place o = Some [sec; nm] -> In sec [str "Server"; str "Mqtt"; str "Vessel"].
  Proof. intros P. destruct o; try discriminate P; injection P as <- _; cbn; auto. Qed.
  Lemma sec_top sec : In sec [str "Server"; str "Mqtt"; str "Vessel"] -> In sec top_names.
  Proof. cbn. tauto. Qed.

  Lemma top_section sec fs k n c c' : section_ok sec fs -> In sec [str "Server"; str "Mqtt"; str "Vessel"] -> bytes_ok k -> reads_as k sec ->
    into_section order t fs k n c = Some c' -> (forall x, outcome observe (top_eff k n x) x c c') /\ top_fit k n /\ cf_ifaces c' = cf_ifaces c.
  Proof.
    intros SO SI B R E. destruct n as [v|]; [discriminate E|]. cbn [into_section] in E.
    assert (forall a, In a top_names -> reads_as k a -> a = sec) as U by (intros a A RA; apply (top_unique k); auto using sec_top).
    split; [|split].
    - intros x. pose proof (fill_outcome observe (plain fs) (sec_eff sec) (entries [k])
        (fun k' n' a b I H => proj1 (section_entry sec fs k' n' a b SO (entries_ok _ _ _ I) H)) c c' E x) as O.
      revert O. apply outcome_iff. intros v. split; intros H.
      + destruct H as (k' & n' & I & o & nm & w & -> & P & R' & -> & ->). apply entries_iff in I. right. exists sec, nm, k', w. auto 7.
      + destruct x as [o|x]; cbn [top_eff] in H.
        * destruct H as [(nm & w & _ & _ & X & _)|(sec' & nm & k' & w & P & R' & _ & I & R2 & ->)]; [discriminate X|].
          assert (sec' = sec) as -> by (apply U; [apply sec_top; eapply place2; exact P|exact R']). exists k', (NLeaf w). split; [now apply entries_iff|]. exists o, nm, w. auto.
        * destruct H as [R' _]. assert (str "Interfaces" = sec) as <- by (apply U; [cbn; tauto|exact R']). cbn in SI. exfalso. clear -SI. repeat (destruct SI as [SI|SI]; [discriminate SI|]). destruct SI.
    - split; [|split].
      + intros o nm P R'. assert (nm = sec) as -> by (apply U; [destruct (place1 o nm P) as [[-> _]|[-> _]]; cbn; tauto|exact R']). apply place1 in P.
        exfalso. clear -P SI. destruct P as [[-> _]|[-> _]]; cbn in SI; repeat (destruct SI as [SI|SI]; [discriminate SI|]); destruct SI.
      + intros s SS R'. assert (s = sec) as -> by (apply U; [now apply sec_top|exact R']). split; [reflexivity|]. intros k' n' I.
        assert (In (k', n') (entries [k])) as I2 by now apply entries_iff. destruct (fill_each _ _ _ _ E _ _ I2) as (a & b & H). apply (section_entry sec fs k' n' a b SO (entries_ok _ _ _ I2) H).
      + intros R'. assert (str "Interfaces" = sec) as <- by (apply U; [cbn; tauto|exact R']). exfalso. clear -SI. cbn in SI. repeat (destruct SI as [SI|SI]; [discriminate SI|]). destruct SI.
    - apply (fill_keeps (plain fs) (fun c0 => cf_ifaces c0 = cf_ifaces c) (entries [k])) with (x := c) (y := c'); [|reflexivity|exact E].
      intros k' n' a b I PA H. rewrite <- PA. apply (section_entry sec fs k' n' a b SO (entries_ok _ _ _ I) H).
  Qed.
  Lemma top_leaf o0 nm0 f k n c c' : setter_for o0 f -> place o0 = Some [nm0] -> reads_as k nm0 -> f n c = Some c' ->
    (forall x, outcome observe (top_eff k n x) x c c') /\ top_fit k n /\ cf_ifaces c' = cf_ifaces c.
  Proof.
    intros [S _] P0 R E. apply S in E as (w & -> & K & GO & GN & CI').
    assert (In nm0 top_names) as NT by (destruct (place1 o0 nm0 P0) as [[-> _]|[-> _]]; cbn; tauto).
    assert (forall a, In a top_names -> reads_as k a -> a = nm0) as U by (intros a A RA; apply (top_unique k); auto).
    assert (forall a, In a [str "Server"; str "Mqtt"; str "Interfaces"; str "Vessel"] -> reads_as k a -> False) as NS.
    { intros a A RA. assert (a = nm0) as -> by (apply U; [cbn in *; tauto|exact RA]). clear -A P0. destruct (place1 _ _ P0) as [[-> _]|[-> _]]; cbn in A; repeat (destruct A as [A|A]; [discriminate A|]); destruct A. }
    assert (forall o nm, place o = Some [nm] -> reads_as k nm -> o = o0) as UO.
    { intros o nm P RA. assert (nm = nm0) as -> by (apply U; [destruct (place1 o nm P) as [[-> _]|[-> _]]; cbn; tauto|exact RA]). eapply place_inj; eassumption. }
    split; [|split; [|exact CI']].
    - intros [o|x].
      + destruct (opt_dec o o0) as [->|ND].
        * left. exists (VO (value_of w)). split; [|cbn; now rewrite GO]. left. exists nm0, w. auto.
        * right. split; [|cbn; now rewrite GN]. intros v [(nm & w' & P & RA & _)|(sec & nm & k' & w' & P & RA & _)]; [apply ND; eauto|].
          apply (NS sec); [|exact RA]. apply place2 in P. cbn in *. tauto.
      + right. split; [|cbn; now rewrite CI']. intros v [RA _]. apply (NS (str "Interfaces")); [cbn; tauto|exact RA].
    - split; [|split].
      + intros o nm P RA. rewrite (UO o nm P RA). eauto.
      + intros sec SS RA. elim (NS sec); [cbn in *; tauto|exact RA].
      + intros RA. elim (NS (str "Interfaces")); [cbn; tauto|exact RA].
  Qed.
  Lemma log_setter : setter_for LogLevel (into_string (fun x c => mkconfig x (cf_map c) (cf_server c) (cf_mqtt c) (cf_ifaces c) (cf_vessel c))). Proof. setter. Qed.
  Lemma map_setter : setter_for MapFile (into_string (fun x c => mkconfig (cf_log c) x (cf_server c) (cf_mqtt c) (cf_ifaces c) (cf_vessel c))). Proof. setter. Qed.
  Definition keyed (m : ifaces) : Prop := match m with Some l => NoDup (map fst l) | None => True end.
  Lemma top_ifaces k n c c' : bytes_ok k -> reads_as k (str "Interfaces") -> into_ifaces lax order t k n c = Some c' ->
    (forall x, outcome observe (top_eff k n x) x c c') /\ top_fit k n /\ (keyed (cf_ifaces c) -> keyed (cf_ifaces c')).
  Proof.
    intros B R E.
    assert (forall a, In a top_names -> reads_as k a -> a = str "Interfaces") as U by (intros a A RA; apply (top_unique k); [exact A|cbn; tauto|exact RA|exact R]).
    assert (forall o nm, place o = Some [nm] -> reads_as k nm -> False) as N1.
    { intros o nm P RA. apply place1 in P. assert (nm = str "Interfaces") as -> by (apply U; [destruct P as [[-> _]|[-> _]]; cbn; tauto|exact RA]). destruct P as [[P _]|[P _]]; discriminate P. }
    assert (forall sec, In sec [str "Server"; str "Mqtt"; str "Vessel"] -> reads_as k sec -> False) as N2.
    { intros sec SS RA. assert (sec = str "Interfaces") as -> by (apply U; [now apply sec_top|exact RA]). cbn in SS. clear -SS. repeat (destruct SS as [SS|SS]; [discriminate SS|]). destruct SS. }
    destruct n as [w|].
    - cbn [into_ifaces] in E. destruct lax eqn:L; [|discriminate E]. injection E as <-. split; [|split; [|auto]].
      + intros [o|x]; right; (split; [|reflexivity]).
        * intros v [(nm & w' & P & RA & _)|(sec & nm & k' & w' & P & RA & _)]; [eapply N1; eassumption|apply place2 in P; eapply N2; eassumption].
        * intros v (_ & X & _). discriminate X.
      + split; [|split].
        * intros o nm P RA. elim (N1 o nm P RA).
        * intros sec SS RA. elim (N2 sec SS RA).
        * intros _. rewrite L. split; [now right|]. intros X. discriminate X.
    - cbn [into_ifaces] in E. destruct (into_entries order t k (entries [k]) (match cf_ifaces c with Some m => m | None => [] end)) as [m'|] eqn:EN; [|discriminate E].
      injection E as <-. destruct (into_entries_find _ _ _ _ EN) as (H1 & H2 & H3). split; [|split].
      + intros [o|x].
        * right. split; [|now destruct o]. intros v [(nm & w' & P & RA & _)|(sec & nm & k' & w' & P & RA & _)]; [eapply N1; eassumption|apply place2 in P; eapply N2; eassumption].
        * destruct (H1 x) as [(i & I & RD & F)|[N F]].
          -- left. exists (VI (Some i)). split; [|cbn; now rewrite F]. split; [exact R|]. split; [reflexivity|]. exists i. apply entries_iff in I. auto.
          -- right. split; [|cbn; rewrite F; now destruct (cf_ifaces c)]. intros v (_ & _ & i & I & RD & _). apply (N i). split; [now apply entries_iff|exact RD].
      + split; [|split].
        * intros o nm P RA. elim (N1 o nm P RA).
        * intros sec SS RA. elim (N2 sec SS RA).
        * intros _. split; [now left|]. intros _ x n' I. apply H2. now apply entries_iff.
      + cbn [keyed cf_ifaces]. intros K. apply H3. destruct (cf_ifaces c); [exact K|constructor].
  Qed.
  Lemma top_entry k n c c' : bytes_ok k -> entry (top_keys lax order t) k n c = Some c' ->
    (forall x, outcome observe (top_eff k n x) x c c') /\ top_fit k n /\ (keyed (cf_ifaces c) -> keyed (cf_ifaces c')).
  Proof.
    intros B E. destruct (entry_cases (top_keys lax order t) k n c top_good B) as [(nm & f & I & R & EQ)|[N EQ]]; rewrite EQ in E; clear EQ.
    - assert (forall P Q (H : P /\ Q /\ cf_ifaces c' = cf_ifaces c), P /\ Q /\ (keyed (cf_ifaces c) -> keyed (cf_ifaces c'))) as W by (intros P Q (H1 & H2 & H3); rewrite H3; auto).
      destruct I as [I|[I|[I|[I|[I|[I|[]]]]]]]; injection I as <- <-.
      + apply W. exact (top_leaf LogLevel _ _ k n c c' log_setter eq_refl R E).
      + apply W. exact (top_leaf MapFile _ _ k n c c' map_setter eq_refl R E).
      + apply W. exact (top_section _ _ k n c c' server_section (or_introl eq_refl) B R E).
      + apply W. exact (top_section _ _ k n c c' mqtt_section (or_intror (or_introl eq_refl)) B R E).
      + exact (top_ifaces k n c c' B R E).
      + apply W. exact (top_section _ _ k n c c' vessel_section (or_intror (or_intror (or_introl eq_refl))) B R E).
    - injection E as <-. assert (forall a, In a top_names -> ~ reads_as k a) as NR.
      { intros a A RA. cbn [top_names In] in A. destruct A as [<-|[<-|[<-|[<-|[<-|[<-|[]]]]]]]; (eapply N; [|exact RA]); cbn [top_keys In]; eauto 8. }
      split; [|split; [|auto]].
      + intros [o|x]; right; (split; [|reflexivity]).
        * intros v [(nm & w & P & RA & _)|(sec & nm & k' & w & P & RA & _)]; eapply NR; [|exact RA| |exact RA].
          -- destruct (place1 o nm P) as [[-> _]|[-> _]]; cbn; tauto.
          -- apply sec_top. eapply place2. exact P.
        * intros v [RA _]. eapply NR; [|exact RA]. cbn. tauto.
      + split; [|split].
        * intros o nm P RA. elim (NR nm); [destruct (place1 o nm P) as [[-> _]|[-> _]]; cbn; tauto|exact RA].
        * intros sec SS RA. elim (NR sec); [now apply sec_top|exact RA].
        * intros RA. elim (NR (str "Interfaces")); [cbn; tauto|exact RA].
  Qed.
  Lemma top_entry_total k n c : bytes_ok k -> top_fit k n -> entry (top_keys lax order t) k n c <> None.
  Proof.
    intros B (F1 & F2 & F3). destruct (entry_cases (top_keys lax order t) k n c top_good B) as [(nm & f & I & R & ->)|[N ->]]; [|discriminate].
    assert (forall sec fs, section_ok sec fs -> In sec [str "Server"; str "Mqtt"; str "Vessel"] -> reads_as k sec -> into_section order t fs k n c <> None) as SEC.
    { intros sec fs SO SI RA. destruct (F2 sec SI RA) as [-> H]. cbn [into_section]. destruct (fill_total (plain fs) (entries [k])) with (x := c) as [y ->]; [|discriminate].
      intros k' n' I' x. apply (section_entry_total sec); [exact SO|eapply entries_ok; exact I'|]. apply H. apply entries_iff in I'. exact I'. }
    destruct I as [I|[I|[I|[I|[I|[I|[]]]]]]]; injection I as <- <-.
    - destruct (F1 LogLevel _ eq_refl R) as (w & -> & K). now apply log_setter.
    - destruct (F1 MapFile _ eq_refl R) as (w & -> & K). now apply map_setter.
    - apply (SEC (str "Server")); [exact server_section|cbn; tauto|exact R].
    - apply (SEC (str "Mqtt")); [exact mqtt_section|cbn; tauto|exact R].
    - destruct (F3 R) as [L H]. destruct n as [w|]; cbn [into_ifaces].
      + destruct L as [X| ->]; discriminate.
      + destruct (into_entries_total k (entries [k])) with (m := match cf_ifaces c with Some m => m | None => [] end) as [m' ->]; [|discriminate].
        intros x n' I. apply H; [reflexivity|]. apply entries_iff in I. exact I.
    - apply (SEC (str "Vessel")); [exact vessel_section|cbn; tauto|exact R].
  Qed.
  Lemma unify_ok : (exists c, unify lax order t = Some c) <-> forall k n, In ([k], n) t -> top_fit k n.
  Proof.
    split.
    - intros [c E] k n I. assert (In (k, n) (entries [])) as I2 by now apply entries_iff. destruct (fill_each _ _ _ _ E _ _ I2) as (a & b & H).
      apply (top_entry k n a b (entries_ok _ _ _ I2) H).
    - intros H. apply fill_total. intros k n I x. apply top_entry_total; [eapply entries_ok; exact I|]. apply H. now apply entries_iff in I.
  Qed.
  Lemma unify_says c : unify lax order t = Some c -> (forall x, outcome observe (fun v => exists k n, In ([k], n) t /\ top_eff k n x v) x zero_config c) /\ keyed (cf_ifaces c).
  Proof.
    intros E. split.
    - intros x. pose proof (fill_outcome observe (top_keys lax order t) top_eff (entries []) (fun k n a b I H => proj1 (top_entry k n a b (entries_ok _ _ _ I) H)) zero_config c E x) as O.
      revert O. apply outcome_iff. intros v. split; intros (k & n & I & T); exists k, n; (split; [|exact T]); [apply entries_iff in I; exact I|now apply entries_iff].
    - apply (fill_keeps (top_keys lax order t) (fun c0 => keyed (cf_ifaces c0)) (entries [])) with (x := zero_config) (y := c); [|exact I|exact E].
      intros k n a b IN K H. apply (top_entry k n a b (entries_ok _ _ _ IN) H). exact K.
  Qed.
  Lemma iface_ok k x : (exists i, iface_read k x i) <-> forall y n, In ([k; x; y], n) t -> if_fit y n.
  Proof.
    unfold iface_read. split.
    - intros [i E] y n I. assert (In (y, n) (entries [k; x])) as I2 by now apply entries_iff. destruct (fill_each _ _ _ _ E _ _ I2) as (a & b & H).
      apply (iface_entry y n a b (entries_ok _ _ _ I2) H).
    - intros H. apply fill_total. intros y n I z. apply iface_entry_total; [eapply entries_ok; exact I|]. apply H. now apply entries_iff in I.
  Qed.
  Lemma iface_says k x i : iface_read k x i -> forall o, outcome iget (fun v => exists y n, In ([k; x; y], n) t /\ if_eff y n o v) o zero_iface i.
  Proof.
    intros E o. pose proof (fill_outcome iget (plain iface_keys) if_eff (entries [k; x]) (fun y n a b I H => proj1 (iface_entry y n a b (entries_ok _ _ _ I) H)) zero_iface i E o) as O.
    revert O. apply outcome_iff. intros v. split; intros (y & n & I & T); exists y, n; (split; [|exact T]); [apply entries_iff in I; exact I|now apply entries_iff].
  Qed.
End Whole.
