(** AppsProps: the page of apps shows what the registry and the disk say, and its Install buttons
    install what is shown (C108). *)
From Coq Require Import ZArith Lia ZifyBool List.
From Verif Require Import GoBase BufFacts ApiModel ApiSpec ApiProps PackagesModel PackagesSpec PackagesProps JsonSpec JsonFacts JsonUnique UnjsonModel UnjsonSpec UnjsonLex UnjsonParse UnjsonDecode UnjsonTyped UnjsonProps PkgDiskModel PkgDiskSpec PkgDiskProps InstallModel InstallProps HtmlModel HtmlSpec HtmlProps AppsModel AppsSpec.
Open Scope Z_scope.
Open Scope list_scope.

(* ------------------------------------------------------------------ slices *)

Section Vec.
Context {T : Type} (dec : setter T) (zero : T) (ty : jtype).
Definition vec_ok (i : nat) (x : vec T) : Prop := (i <= vec_len x <= List.length (vec_slots x))%nat.
Definition vslot (j : nat) (x : vec T) : T := nth j (vec_slots x) zero.
Lemma vnth_blank (l : list T) k j : nth j (l ++ repeat zero k) zero = nth j l zero.
Proof.
  destruct (Nat.lt_ge_cases j (List.length l)) as [H|H]; [now apply app_nth1|].
  rewrite app_nth2 by exact H. rewrite (nth_overflow l) by exact H. apply nth_repeat.
Qed.
Lemma vroom_ok i x : vec_ok i x -> vec_ok (S i) (vec_room zero i x) /\ forall j, vslot j (vec_room zero i x) = vslot j x.
Proof.
  unfold vec_ok, vslot, vec_room. intros H. destruct (Nat.leb_spec (List.length (vec_slots x)) i) as [L|L].
  - assert (vec_len x = List.length (vec_slots x)) as E by lia. unfold vec_grow. rewrite E. rewrite firstn_all. cbn [vec_slots vec_len].
    destruct (Nat.leb_spec (List.length (vec_slots x)) i) as [L'|L']; [|lia]. cbn [vec_slots vec_len]. split; [|intros j; apply vnth_blank].
    rewrite app_length, repeat_length. set (c := List.length (vec_slots x)) in *.
    pose proof (Nat.div_mod c 2 ltac:(lia)). pose proof (Nat.mod_upper_bound c 2 ltac:(lia)). lia.
  - destruct (Nat.leb_spec (vec_len x) i) as [L'|L']; cbn [vec_slots vec_len]; (split; [lia|reflexivity]).
Qed.
Lemma vset_length i v (l : list T) : List.length (vec_set i v l) = List.length l.
Proof. revert i. induction l as [|x l IH]; intros [|i]; cbn [vec_set List.length]; auto. Qed.
Lemma vset_at i v (l : list T) : (i < List.length l)%nat -> forall j, nth j (vec_set i v l) zero = if Nat.eqb j i then v else nth j l zero.
Proof.
  revert i. induction l as [|x l IH]; intros i H j; [cbn in H; lia|]. destruct i as [|i]; cbn [vec_set].
  - destruct j; reflexivity.
  - destruct j as [|j]; [reflexivity|]. cbn [nth Nat.eqb]. apply IH. cbn [List.length] in H. lia.
Qed.
Hypothesis NULL : forall v, fst (dec GNull v) = v.
Lemma elements_slots l : forall i x, vec_ok i x ->
  let y := fst (into_elements dec zero l i x) in
  vec_len y = (i + List.length l)%nat /\ vec_ok 0 y /\
  forall j, vslot j y = if Nat.leb i j then fst (dec (nth (j - i) l GNull) (vslot j x)) else vslot j x.
Proof.
  induction l as [|g l IH]; intros i x H; cbn zeta.
  - cbn [into_elements fst vec_len List.length]. unfold vec_ok, vslot in *. cbn [vec_len vec_slots]. split; [lia|]. split; [lia|].
    intros j. destruct (Nat.leb i j); [|reflexivity]. destruct (j - i)%nat; cbn [nth]; now rewrite NULL.
  - cbn [into_elements]. destruct (vroom_ok i x H) as [R RS]. set (y := vec_room zero i x) in *. clearbody y.
    destruct (dec g (nth i (vec_slots y) zero)) as [v ok1] eqn:EV.
    assert (v = fst (dec g (vslot i x))) as V by (rewrite <- RS; unfold vslot; now rewrite EV).
    set (z := mkvec (vec_set i v (vec_slots y)) (vec_len y)).
    assert (vec_ok (S i) z) as Z by (unfold vec_ok, z in *; cbn [vec_len vec_slots]; rewrite vset_length; exact R).
    specialize (IH (S i) z Z). cbn zeta in IH. destruct (into_elements dec zero l (S i) z) as [w ok2]. cbn [fst] in *. destruct IH as (L & O & S').
    cbn [List.length]. split; [lia|]. split; [exact O|]. intros j. rewrite S'.
    assert (vslot j z = if Nat.eqb j i then v else vslot j x) as SZ.
    { unfold vslot at 1, z. cbn [vec_slots]. rewrite vset_at by (unfold vec_ok in R; lia). destruct (Nat.eqb j i); [reflexivity|apply RS]. }
    rewrite SZ. clear SZ. destruct (Nat.eqb_spec j i) as [EJ|NE]; [rewrite EJ|].
    + replace (Nat.leb (S i) i) with false by (symmetry; apply Nat.leb_gt; lia). rewrite Nat.leb_refl.
      rewrite Nat.sub_diag. cbn [nth]. exact V.
    + destruct (Nat.leb_spec (S i) j) as [LE|LE]; destruct (Nat.leb_spec i j) as [LE'|LE']; try lia; [|reflexivity].
      replace (j - i)%nat with (S (j - S i)) by lia. reflexivity.
Qed.
Hypothesis TY : typed dec ty.
Lemma elements_ok l : (forall g, In g l -> wfj g) -> forall i x, snd (into_elements dec zero l i x) = true <-> forall g, In g l -> fits ty g.
Proof.
  induction l as [|g l IH]; intros W i x; [split; [intros _ g []|reflexivity]|]. cbn [into_elements].
  pose proof (TY g (nth i (vec_slots (vec_room zero i x)) zero) (W g ltac:(now left))) as Tg. destruct (dec g _) as [v ok1]. cbn [snd] in Tg.
  specialize (IH ltac:(intros g' I; apply W; now right) (S i) (mkvec (vec_set i v (vec_slots (vec_room zero i x))) (vec_len (vec_room zero i x)))).
  destruct (into_elements dec zero l _ _) as [z ok2]. cbn [snd] in *.
  rewrite andb_true_iff, Tg, IH. split; [intros [A B] g' [<-|I]; auto|]. intros H. split; [apply H; now left|]. intros g' I. apply H. now right.
Qed.
Lemma typed_vec : typed (into_vec dec zero) (TList ty).
Proof.
  intros g x W. split.
  - destruct g as [|b|t|s|l|ms]; cbn [into_vec]; try discriminate; intros H; [apply fi_null|]. apply fi_list. destruct l as [|a l]; [intros g []|].
    inversion W as [| | | |? W'|]; subst. exact (proj1 (elements_ok (a :: l) W' 0 x) H).
  - intros H. inversion H as [| | | | | | |? l H']; subst; [reflexivity|]. cbn [into_vec]. destruct l as [|a l]; [reflexivity|].
    inversion W as [| | | |? W'|]; subst. now apply elements_ok.
Qed.
End Vec.

(* ------------------------------------------------------------------ the answer *)

Lemma links_names : good_names (map fst links_fields). Proof. names. Qed.
Lemma author_names : good_names (map fst author_fields). Proof. names. Qed.
Lemma pack_names : good_names (map fst pack_fields). Proof. names. Qed.
Lemma reg_names : good_names (map fst reg_fields). Proof. names. Qed.
Lemma answer_names : good_names (map fst answer_fields). Proof. names. Qed.
Definition pack_type : jtype := TRecord (texts [str "Name"; str "Version"; str "Description"] ++
  [(str "Links", TRecord (texts [str "Npm"; str "Homepage"; str "Repository"])); (str "Author", TRecord (texts [str "Name"; str "Email"]))]).
Definition object_type : jtype := TRecord [(str "Package", pack_type); (str "Path", TText); (str "Version", TText)].
Lemma links_typed : typed (into_struct links_fields) (TRecord (texts [str "Npm"; str "Homepage"; str "Repository"])).
Proof. apply typed_struct; [exact links_names|]. cbn [texts map app]. fields. Qed.
Lemma author_typed : typed (into_struct author_fields) (TRecord (texts [str "Name"; str "Email"])).
Proof. apply typed_struct; [exact author_names|]. cbn [texts map app]. fields. Qed.
Lemma pack_typed : typed (into_struct pack_fields) pack_type.
Proof.
  apply typed_struct; [exact pack_names|]. unfold pack_fields. cbn [texts map app].
  do 3 (apply Forall2_cons; [split; [reflexivity|cbn [snd]; scalar]|]).
  apply Forall2_cons; [split; [reflexivity|]|].
  { intros g x W. cbn [snd]. rewrite <- (links_typed g (pa_links x) W). destruct (into_struct links_fields g (pa_links x)). reflexivity. }
  apply Forall2_cons; [split; [reflexivity|]|apply Forall2_nil].
  intros g x W. cbn [snd]. rewrite <- (author_typed g (pa_author x) W). destruct (into_struct author_fields g (pa_author x)). reflexivity.
Qed.
Lemma reg_typed : typed (into_struct reg_fields) object_type.
Proof.
  apply typed_struct; [exact reg_names|]. unfold reg_fields.
  apply Forall2_cons; [split; [reflexivity|]|].
  { intros g x W. cbn [snd]. rewrite <- (pack_typed g (ro_package x) W). destruct (into_struct pack_fields g (ro_package x)). reflexivity. }
  fields.
Qed.
Lemma answer_typed : typed (into_struct answer_fields) registry_type.
Proof.
  apply typed_struct; [exact answer_names|]. apply Forall2_cons; [split; [reflexivity|]|apply Forall2_nil]. cbn [snd].
  apply (typed_vec (into_struct reg_fields) zero_reg object_type). exact reg_typed.
Qed.

(** One object. *)
Lemma author_says ms : keys_ok ms -> says a_text ms (str "Name") [] (au_name (fst (into_members author_fields ms zero_author))).
Proof. intros B. said author_names B author_fields au_name get_text text_last. Qed.
Lemma links_says ms : keys_ok ms -> says a_text ms (str "Npm") [] (ln_npm (fst (into_members links_fields ms zero_links))).
Proof. intros B. said links_names B links_fields ln_npm get_text text_last. Qed.
Lemma wf_keys ms : (forall k g, In (k, g) ms -> bytes_ok k /\ wfj g) -> keys_ok ms.
Proof. intros W k g I. now destruct (W k g I). Qed.
Lemma pack_says ms : (forall k g, In (k, g) ms -> bytes_ok k /\ wfj g) ->
  let p := fst (into_members pack_fields ms zero_pack) in
  says a_text ms (str "Name") [] (pa_name p) /\ says a_text ms (str "Version") [] (pa_version p) /\ says a_text ms (str "Description") [] (pa_description p) /\
  (exists l, inside (str "Links") ms l /\ says a_text l (str "Npm") [] (ln_npm (pa_links p))) /\
  (exists a, inside (str "Author") ms a /\ says a_text a (str "Name") [] (au_name (pa_author p))).
Proof.
  intros W. pose proof (wf_keys ms W) as B. cbn zeta. split; [|split; [|split; [|split]]].
  - said pack_names B pack_fields pa_name get_text text_last.
  - said pack_names B pack_fields pa_version get_text text_last.
  - said pack_names B pack_fields pa_description get_text text_last.
  - assert (ascii_text (str "Links")) as A by (pose proof (proj1 pack_names) as A; rewrite Forall_forall in A; apply A; cbn; auto 10).
    destruct (inside_struct links_fields (str "Links") ms zero_links A B) as (l & IN & E). exists l. split; [exact IN|].
    replace (pa_links (fst (into_members pack_fields ms zero_pack))) with (fst (into_members links_fields l zero_links)).
    + apply links_says. apply wf_keys. exact (inside_wf _ _ _ W IN).
    + rewrite <- E. symmetry. change zero_links with (pa_links zero_pack).
      refine (project pack_fields pa_links (str "Links") _ (fun g x => fst (into_struct links_fields g x)) pack_names _ _ _ ms zero_pack B); [member| |others].
      intros g x. cbv beta. destruct (into_struct links_fields g (pa_links x)). reflexivity.
  - assert (ascii_text (str "Author")) as A by (pose proof (proj1 pack_names) as A; rewrite Forall_forall in A; apply A; cbn; auto 10).
    destruct (inside_struct author_fields (str "Author") ms zero_author A B) as (l & IN & E). exists l. split; [exact IN|].
    replace (pa_author (fst (into_members pack_fields ms zero_pack))) with (fst (into_members author_fields l zero_author)).
    + apply author_says. apply wf_keys. exact (inside_wf _ _ _ W IN).
    + rewrite <- E. symmetry. change zero_author with (pa_author zero_pack).
      refine (project pack_fields pa_author (str "Author") _ (fun g x => fst (into_struct author_fields g x)) pack_names _ _ _ ms zero_pack B); [member| |others].
      intros g x. cbv beta. destruct (into_struct author_fields g (pa_author x)). reflexivity.
Qed.
Lemma reg_says ms : (forall k g, In (k, g) ms -> bytes_ok k /\ wfj g) -> object_says ms (fst (into_members reg_fields ms zero_reg)).
Proof.
  intros W. pose proof (wf_keys ms W) as B. split; [|split].
  - said reg_names B reg_fields ro_path get_text text_last.
  - said reg_names B reg_fields ro_version get_text text_last.
  - assert (ascii_text (str "Package")) as A by (pose proof (proj1 reg_names) as A; rewrite Forall_forall in A; apply A; cbn; auto 10).
    destruct (inside_struct pack_fields (str "Package") ms zero_pack A B) as (l & IN & E). exists l. split; [exact IN|].
    replace (ro_package (fst (into_members reg_fields ms zero_reg))) with (fst (into_members pack_fields l zero_pack)).
    + apply pack_says. exact (inside_wf _ _ _ W IN).
    + rewrite <- E. symmetry. change zero_pack with (ro_package zero_reg).
      refine (project reg_fields ro_package (str "Package") _ (fun g x => fst (into_struct pack_fields g x)) reg_names _ _ _ ms zero_reg B); [member| |others].
      intros g x. cbv beta. destruct (into_struct pack_fields g (ro_package x)). reflexivity.
Qed.

(** The objects: slot j holds what the members at place j say. *)
Definition get_vec (g : gj) (x : vec reg_object) : vec reg_object := fst (into_vec (into_struct reg_fields) zero_reg g x).
Definition reg_of (m : list (bytes * gj)) : reg_object := fst (into_members reg_fields m zero_reg).
Definition wf_members (m : list (bytes * gj)) : Prop := forall k g, In (k, g) m -> bytes_ok k /\ wfj g.
Lemma into_null (v : reg_object) : fst (into_struct reg_fields GNull v) = v. Proof. reflexivity. Qed.
Lemma object_shape g : fits object_type g -> g = GNull \/ exists ms, g = GObj ms.
Proof. intros H. exact (fits_record_shape _ _ H). Qed.
Lemma place_step l a j m : place j l m -> wf_members m -> (forall g, In g a -> wfj g /\ fits object_type g) ->
  exists m', place j (l ++ [a]) m' /\ wf_members m' /\ fst (into_struct reg_fields (nth j a GNull) (reg_of m)) = reg_of m'.
Proof.
  intros P W F. destruct (nth_error a j) as [g|] eqn:E.
  - rewrite (nth_error_nth a j GNull E). destruct (F g (nth_error_In a j E)) as [Wg Fg]. destruct (object_shape g Fg) as [->|[ms ->]].
    + exists m. split; [apply pl_other; [exact P|]; intros ms; rewrite E; discriminate|]. now split.
    + exists (m ++ ms). split; [now apply pl_object|]. split.
      * intros k g I. apply in_app_iff in I as [I|I]; [now apply W|]. inversion Wg as [| | | | |? M]; subst. now apply M.
      * cbn [into_struct]. unfold reg_of. now rewrite into_members_app.
  - rewrite nth_overflow by (now apply nth_error_None). exists m. split; [apply pl_other; [exact P|]; intros ms; rewrite E; discriminate|]. now split.
Qed.
Lemma objects_state ms : (forall k g, In (k, g) ms -> bytes_ok k /\ wfj g) -> (forall k g, In (k, g) ms -> reads_as k (str "Objects") -> fits (TList object_type) g) ->
  exists l, arrays (str "Objects") ms l /\
    let x := on_members get_vec (str "Objects") ms (mkvec [] 0) in
    vec_ok 0 x /\ vec_len x = last_len l /\ (forall j, exists m, place j l m /\ wf_members m /\ vslot zero_reg j x = reg_of m).
Proof.
  assert (ascii_text (str "Objects")) as A by (pose proof (proj1 answer_names) as A; rewrite Forall_forall in A; apply A; cbn; auto 10).
  assert (forall j, exists m, place j [] m /\ wf_members m /\ vslot zero_reg j (mkvec [] 0) = reg_of m) as W0.
  { intros j. exists []. split; [constructor|]. split; [intros k g []|]. unfold vslot. cbn [vec_slots]. now destruct j. }
  induction ms as [|[k g] ms IH] using rev_ind; intros B F.
  { exists []. split; [constructor|]. cbn zeta. unfold on_members. cbn [fold_left]. split; [unfold vec_ok; cbn; lia|]. split; [reflexivity|exact W0]. }
  destruct IH as (l & KL & H); [intros k' g' I; apply (B k' g'), in_app_iff; now left|intros k' g' I; apply F, in_app_iff; now left|].
  assert (bytes_ok k /\ wfj g) as [Bk Wg] by (apply (B k g), in_app_iff; right; now left).
  unfold on_members in *. rewrite fold_left_app. cbn [fold_left fst snd]. cbn zeta in *. set (x := fold_left _ ms (mkvec [] 0)) in *. clearbody x.
  destruct H as (O & LL & WD). destruct (EqualFold k (str "Objects")) eqn:E.
  2:{ exists l. split; [|auto]. apply ar_other; [exact KL|]. intros R. apply C64_case in R; [congruence|assumption..]. }
  apply C64_case in E; [|assumption..].
  pose proof (F k g ltac:(apply in_app_iff; right; now left) E) as FG.
  assert (forall g, g = GNull \/ g = GArr [] -> exists l', arrays (str "Objects") (ms ++ [(k, g)]) l' /\
    vec_ok 0 (get_vec g x) /\ vec_len (get_vec g x) = last_len l' /\ forall j, exists m, place j l' m /\ wf_members m /\ vslot zero_reg j (get_vec g x) = reg_of m) as RESET.
  { intros g0 G0. exists []. split; [eapply ar_reset; eauto|]. assert (get_vec g0 x = mkvec [] 0) as -> by (destruct G0 as [-> | ->]; reflexivity).
    split; [unfold vec_ok; cbn; lia|]. split; [reflexivity|exact W0]. }
  inversion FG as [| | | | | | |? a H']; subst; [apply RESET; now left|]. destruct a as [|g0 a]; [apply RESET; now right|].
  inversion Wg as [| | | |? Wa|]; subst.
  set (b := g0 :: a) in *. assert (b <> []) as NB by discriminate. assert (get_vec (GArr b) x = fst (into_elements (into_struct reg_fields) zero_reg b 0 x)) as -> by reflexivity. clearbody b.
  pose proof (elements_slots (into_struct reg_fields) zero_reg into_null b 0 x O) as P. cbn zeta in P. set (y := fst (into_elements _ _ b 0 x)) in *. clearbody y. destruct P as (L' & O' & S').
  exists (l ++ [b]). split; [now apply ar_array|]. split; [exact O'|]. split; [now rewrite last_len_snoc|].
  intros j. rewrite S'. rewrite Nat.sub_0_r. cbn [Nat.leb]. destruct (WD j) as (m & PM & WM & ->). 
  destruct (place_step l b j m PM WM) as (m' & PM' & WM' & EM); [intros g I; split; auto|]. exists m'. auto.
Qed.
Lemma objects_say ms : (forall k g, In (k, g) ms -> bytes_ok k /\ wfj g) -> fits registry_type (GObj ms) ->
  registry_says ms (vec_items (fst (into_members answer_fields ms (mkvec [] 0)))).
Proof.
  intros B F. assert (fst (into_members answer_fields ms (mkvec [] 0)) = on_members get_vec (str "Objects") ms (mkvec [] 0)) as ->.
  { refine (project answer_fields (fun x => x) (str "Objects") _ get_vec answer_names _ _ _ ms (mkvec [] 0) (wf_keys ms B)); [member|reflexivity|].
    intros n' st' g x [I|[]]. injection I as <- <-. now left. }
  destruct (objects_state ms B) as (l & KL & O & LL & WD).
  { intros k g I R. inversion F as [| | | | |? ? F'| |]; subst. apply (F' k g (str "Objects") (TList object_type)); [exact I|now left|exact R]. }
  exists l. split; [exact KL|]. set (x := on_members _ _ _ _) in *. clearbody x. unfold vec_items. rewrite LL.
  assert (l = [] \/ exists l' a, l = l' ++ [a]) as [->|(l' & a & ->)] by (destruct l as [|a l] using rev_ind; [now left|right; eauto]).
  - left. now split.
  - right. exists l', a. split; [reflexivity|]. rewrite last_len_snoc in *. unfold vec_ok in O.
    assert (List.length (firstn (List.length a) (vec_slots x)) = List.length a) as LE by (rewrite firstn_length; lia).
    split; [exact LE|]. intros i o N. assert (i < List.length a)%nat as LT by (rewrite <- LE; apply nth_error_Some; congruence).
    apply nth_error_nth with (d := zero_reg) in N. subst o.
    replace (nth i (firstn (List.length a) (vec_slots x)) zero_reg) with (vslot zero_reg i x).
    + destruct (WD i) as (m & PM & WM & ->). exists m. split; [exact PM|]. now apply reg_says.
    + unfold vslot. rewrite <- (firstn_skipn (List.length a) (vec_slots x)) at 1. apply app_nth1. lia.
Qed.

(** The objects are those the registry's answer lists; if it is not of the type, there are none. *)
Theorem C108_objects d body objects : bytes_ok body -> decode_registry d body = Some objects -> lists d body objects.
Proof.
  intros OK. unfold decode_registry. destruct (read_value d body) as [[g r]|] eqn:R; [|discriminate].
  destruct (into_struct answer_fields g (mkvec [] 0)) as [x ok] eqn:E. destruct ok; [|discriminate]. intros H. injection H as <-.
  destruct (decode_exact _ _ d body (mkvec [] 0) OK answer_typed) as [DE _]. destruct (DE g r R) as (SW & F & W); [now rewrite E|].
  exists g. split; [exact SW|]. split; [exact F|]. destruct (fits_record_shape _ _ F) as [->|[ms ->]].
  - left. cbn in E. injection E as <-. auto.
  - right. exists ms. split; [reflexivity|]. cbn [into_struct] in E. replace x with (fst (into_members answer_fields ms (mkvec [] 0))) by (now rewrite E).
    apply objects_say; [now inversion W|exact F].
Qed.
Theorem C108_refused d body : bytes_ok body ->
  decode_registry d body = None <-> forall g, starts_with d body g -> ~ fits registry_type g.
Proof.
  intros OK. destruct (decode_exact _ _ d body (mkvec [] 0) OK answer_typed) as [_ DE]. rewrite <- DE. unfold decode_registry. split.
  - intros H g r R. rewrite R in H. destruct (into_struct answer_fields g (mkvec [] 0)) as [x ok]. cbn [snd]. now destruct ok.
  - intros H. destruct (read_value d body) as [[g r]|]; [|reflexivity]. specialize (H g r eq_refl).
    destruct (into_struct answer_fields g (mkvec [] 0)) as [x ok]. cbn [snd] in H. now subst ok.
Qed.

(* ------------------------------------------------------------------ one meaning *)

Lemma arrays_unique n ms l l' : arrays n ms l -> arrays n ms l' -> l = l'.
Proof.
  intros H. revert l'. induction H as [|ms l k g H IH N|ms l k g H IH R G|ms l k a H IH R G]; intros l' H'.
  - inversion H' as [|ms' l0 k0 g0 H0 N0 E1 E2|ms' l0 k0 g0 H0 R0 G0 E1 E2|ms' l0 k0 a0 H0 R0 G0 E1 E2]; subst; try (destruct ms'; discriminate). reflexivity.
  - inversion H' as [E0|ms' l0 k0 g0 H0 N0 E1 E2|ms' l0 k0 g0 H0 R0 G0 E1 E2|ms' l0 k0 a0 H0 R0 G0 E1 E2]; subst; [destruct ms; discriminate|apply app_inj_tail in E1 as [<- E1]; injection E1 as <- <-..].
    + auto.
    + contradiction.
    + contradiction.
  - inversion H' as [E0|ms' l0 k0 g0 H0 N0 E1 E2|ms' l0 k0 g0 H0 R0 G0 E1 E2|ms' l0 k0 a0 H0 R0 G0 E1 E2]; subst; [destruct ms; discriminate|apply app_inj_tail in E1 as [<- E1]; injection E1 as <- <-..].
    + contradiction.
    + reflexivity.
    + destruct G as [G|G]; [discriminate|]. injection G as ->. contradiction.
  - inversion H' as [E0|ms' l0 k0 g0 H0 N0 E1 E2|ms' l0 k0 g0 H0 R0 G0 E1 E2|ms' l0 k0 a0 H0 R0 G0 E1 E2]; subst; [destruct ms; discriminate|apply app_inj_tail in E1 as [<- E1]; injection E1 as <- E1..].
    + contradiction.
    + subst g0. destruct G0 as [G0|G0]; [discriminate|]. injection G0 as ->. contradiction.
    + subst a0. f_equal. auto.
Qed.
Lemma place_unique i l m m' : place i l m -> place i l m' -> m = m'.
Proof.
  intros H. revert m'. induction H as [|l m a ms H IH N|l m a H IH N]; intros m' H'.
  - inversion H' as [|l0 m0 a0 ms0 H0 N0 E1 E2|l0 m0 a0 H0 N0 E1 E2]; subst; try (destruct l0; discriminate). reflexivity.
  - inversion H' as [E0|l0 m0 a0 ms0 H0 N0 E1 E2|l0 m0 a0 H0 N0 E1 E2]; subst; [destruct l; discriminate|apply app_inj_tail in E1 as [-> ->]..].
    + rewrite N in N0. injection N0 as <-. f_equal. auto.
    + elim (N0 ms N).
  - inversion H' as [E0|l0 m0 a0 ms0 H0 N0 E1 E2|l0 m0 a0 H0 N0 E1 E2]; subst; [destruct l; discriminate|apply app_inj_tail in E1 as [-> ->]..].
    + elim (N ms0 N0).
    + auto.
Qed.
Lemma inside_unique n ms l l' : inside n ms l -> inside n ms l' -> l = l'.
Proof.
  intros H. revert l'. induction H as [|k g r l N _ IH|k m r l R _ IH]; intros l' H'; inversion H' as [|k0 g0 r0 l0 N0 H0|k0 m0 r0 l0 R0 H0]; subst; auto.
  - destruct N as [N|N]; [contradiction|]. now elim (N m0).
  - destruct N0 as [N0|N0]; [contradiction|]. now elim (N0 m).
  - f_equal. auto.
Qed.
Lemma object_unique ms o o' : object_says ms o -> object_says ms o' -> as_shown o = as_shown o'.
Proof.
  intros (P & V & p & IP & N & PV & D & (l & IL & L) & (a & IA & A)) (P' & V' & p' & IP' & N' & PV' & D' & (l' & IL' & L') & (a' & IA' & A')).
  pose proof (inside_unique _ _ _ _ IP IP') as <-. pose proof (inside_unique _ _ _ _ IL IL') as <-. pose proof (inside_unique _ _ _ _ IA IA') as <-.
  unfold as_shown. f_equal; eapply says_unique; try eassumption; exact text_unique.
Qed.
Lemma starts_unique d body g g' : bytes_ok body -> (forall t, g <> GNum t) -> (forall t, g' <> GNum t) -> starts_with d body g -> starts_with d body g' -> g = g'.
Proof.
  intros OK N N' S S'. destruct (read_value_complete d body g OK N S) as [r R]. destruct (read_value_complete d body g' OK N' S') as [r' R']. congruence.
Qed.
Lemma lists_unique d body l l' : bytes_ok body -> lists d body l -> lists d body l' -> map as_shown l = map as_shown l'.
Proof.
  intros OK (g & S & F & H) (g' & S' & F' & H').
  assert (forall g, fits registry_type g -> forall t, g <> GNum t) as NN by (intros g0 F0 t ->; inversion F0).
  assert (g = g') as <- by (eapply starts_unique; eauto).
  destruct H as [[-> ->]|(ms & -> & l1 & A & H)], H' as [[E ->]|(ms' & E & l2 & A' & H')]; try discriminate; [reflexivity|].
  injection E as <-. pose proof (arrays_unique _ _ _ _ A A') as <-.
  destruct H as [[-> ->]|(p & a & -> & LE & H)], H' as [[E ->]|(p' & a' & E & LE' & H')]; try reflexivity; try (destruct p; discriminate); try (destruct p'; discriminate).
  apply app_inj_tail in E as [<- <-].
  apply nth_error_same. intros i. rewrite !nth_error_map. destruct (nth_error l i) as [o|] eqn:E, (nth_error l' i) as [o'|] eqn:E'; cbn [option_map]; try reflexivity.
  - f_equal. destruct (H i o E) as (m & PM & O), (H' i o' E') as (m' & PM' & O'). pose proof (place_unique _ _ _ _ PM PM') as <-. eapply object_unique; eassumption.
  - apply nth_error_None in E'. assert (i < List.length l)%nat by (apply nth_error_Some; congruence). lia.
  - apply nth_error_None in E. assert (i < List.length l')%nat by (apply nth_error_Some; congruence). lia.
Qed.

(* ------------------------------------------------------------------ the page *)

(** The row of an app: the registry's texts, and version and link if it is installed. *)
Definition row_shows (d : nat) (root : option (list (bytes * disk))) (o : reg_object) (row : list token) : Prop :=
  exists path version,
    row = app_row (visible (pa_name (ro_package o))) (visible (pa_version (ro_package o))) (visible (pa_description (ro_package o)))
            (visible (au_name (pa_author (ro_package o)))) (link (ln_npm (pa_links (ro_package o)))) path (visible version) /\
    ((exists location, installed_app d root (pa_name (ro_package o)) version location /\ path = Some (link (str "/apps" ++ location))) \/
     ((forall v l, ~ installed_app d root (pa_name (ro_package o)) v l) /\ version = ro_version o /\
      path = match ro_path o with [] => None | p => Some (link p) end)).
Definition disk_root_ok (root : option (list (bytes * disk))) : Prop := match root with Some l => disk_all l | None => True end.
Lemma row_right d root o : disk_root_ok root -> row_shows d root o (row_of (with_installed (installed_packages d root) (as_shown o))).
Proof.
  intros OK. unfold row_shows.
  assert (forall installed, (forall kv, find (fun kv => bytes_eqb (fst kv) (pa_name (ro_package o))) installed = Some kv -> installed_app d root (pa_name (ro_package o)) (pk_version (snd kv)) (pk_location (snd kv))) ->
    (find (fun kv => bytes_eqb (fst kv) (pa_name (ro_package o))) installed = None -> forall v l, ~ installed_app d root (pa_name (ro_package o)) v l) ->
    row_shows d root o (row_of (with_installed (Some installed) (as_shown o)))) as K.
  { intros installed H1 H2. unfold row_shows, with_installed. cbn [np_name as_shown]. destruct (find _ installed) as [kv|] eqn:E.
    - exists (Some (link (str "/apps" ++ pk_location (snd kv)))), (pk_version (snd kv)). split; [reflexivity|]. left. exists (pk_location (snd kv)). split; [now apply H1|reflexivity].
    - exists (match ro_path o with [] => None | p => Some (link p) end), (ro_version o). split; [|right; auto]. reflexivity. }
  assert ((forall v l, ~ installed_app d root (pa_name (ro_package o)) v l) -> row_shows d root o (row_of (with_installed None (as_shown o)))) as K0.
  { intros H. exists (match ro_path o with [] => None | p => Some (link p) end), (ro_version o). split; [reflexivity|right; auto]. }
  destruct root as [l|].
  2:{ apply K0. intros v loc (l & dir & x & ks & es & p & b & e & E & _). discriminate. }
  cbn [disk_root_ok] in OK. destruct (C106_exact d l OK) as [X Y].
  assert (level_readable l \/ ~ level_readable l) as [L|L].
  { destruct (installed_packages d (Some l)) as [r|] eqn:E; [left|right].
    - intros name es I. destruct (ApiModel.has_prefix (str "@") name) eqn:S; [left; now apply scope_prefix|].
      destruct (bytes_eqb name (str ".bin")) eqn:B; [right; left; now apply bytes_eqb_eq|]. right; right.
      assert (disk_all es) as AE by (pose proof (disk_in l OK _ _ I) as D; now inversion D).
      assert ((exists t, entry es (str "package.json") = Some (DFile (Some t))) \/ forall t, entry es (str "package.json") <> Some (DFile (Some t))) as [[t EN]|EN].
      { destruct (entry es (str "package.json")) as [[|[t|]|es']|]; first [now (left; eexists) | right; intros t0 H0; discriminate H0]. }
      + exists t. now apply entry_in.
      + exfalso. assert (~ level_readable l) as NL; [|apply Y in NL; discriminate NL].
        intros LR. destruct (LR name es I) as [Z|[Z|[t Z]]]; [apply scope_prefix in Z; rewrite Z in S; discriminate S|apply bytes_eqb_eq in Z; rewrite Z in B; discriminate B|].
        apply (EN t). now apply entry_in.
    - intros L. destruct (X L) as (r & E1 & _). discriminate E1. }
  - destruct (X L) as (r & E & H). rewrite E. apply K.
    + intros [k e] F. apply find_some in F as [I F]. cbn [fst snd] in *. apply bytes_eqb_eq in F. subst k.
      apply H in I as (name & x & ks & es & p & b & I & AD & LI & Q & S). exists l, name, x, ks, es, p, b, e. auto 10.
    + intros F v loc (l0 & dir & x & ks & es & p & b & e & E0 & _ & I & AD & LI & Q & S & _). injection E0 as <-.
      assert (In (pa_name (ro_package o), e) r) as IR by (apply H; exists dir, x, ks, es, p, b; auto).
      apply (find_none _ _ F) in IR. cbn [fst] in IR. assert (bytes_eqb (pa_name (ro_package o)) (pa_name (ro_package o)) = true) as X1 by now apply bytes_eqb_eq. congruence.
  - rewrite (Y L). apply K0. intros v loc (l0 & dir & x & ks & es & p & b & e & E0 & LR & _). injection E0 as <-. contradiction.
Qed.

(** The page of apps: a row for every object of the registry's answer, in order. *)
Theorem C108_page : exists first last, forall d root body objects, bytes_ok body -> disk_root_ok root -> lists d body objects ->
  exists rows, fst (apps_answer d true root (Some body)) = 200 /\ html (snd (apps_answer d true root (Some body))) (first ++ List.concat rows ++ last) /\
    Forall2 (row_shows d root) objects rows.
Proof.
  destruct C99_apps as (first & last & H). exists first, last. intros d root body objects OK RO L.
  destruct (decode_registry d body) as [os|] eqn:E.
  2:{ pose proof (proj1 (C108_refused d body OK) E) as E1. destruct L as (g & S & F & _). elim (E1 g S F). }
  pose proof (lists_unique d body _ _ OK (C108_objects d body os OK E) L) as EQ.
  destruct (H (installed_packages d root) (map as_shown os)) as (b & P & T).
  exists (map (fun o => row_of (with_installed (installed_packages d root) (as_shown o))) objects). unfold apps_answer. rewrite E, P. cbn [fst snd].
  split; [reflexivity|]. split.
  - rewrite EQ in T. rewrite flat_map_concat_map, map_map in T. exact T.
  - clear EQ T L. induction objects as [|o objects IH]; [constructor|]. cbn [map]. constructor; [now apply row_right|exact IH].
Qed.
(** Without such an answer the page is empty. *)
Theorem C108_empty d root body : bytes_ok body -> (forall g, starts_with d body g -> ~ fits registry_type g) ->
  apps_answer d true root (Some body) = (200, []) /\ apps_answer d true root None = (200, []).
Proof. intros OK H. pose proof (proj2 (C108_refused d body OK) H) as E. unfold apps_answer. rewrite E. auto. Qed.

(** Any method but GET is refused, whatever is installed and whatever the registry would answer. *)
Theorem C108_method d root registry :
  apps_answer d false root registry = (405, [77; 101; 116; 104; 111; 100; 32; 110; 111; 116; 32; 97; 108; 108; 111; 119; 101; 100; 10]).
Proof. reflexivity. Qed.

(* ------------------------------------------------------------------ the Install button *)

Lemma utf8_fun c s s' : utf8 c s -> utf8 c s' -> s = s'.
Proof. intros H H'. destruct H, H'; first [reflexivity | lia]. Qed.
Lemma utf8_texts_fun cs : forall s s', utf8_text s cs -> utf8_text s' cs -> s = s'.
Proof.
  induction cs as [|c cs IH]; intros s s' H H'; inversion H as [|c1 e1 r1 l1 U1 T1 A1 B1]; inversion H' as [|c2 e2 r2 l2 U2 T2 A2 B2]; subst; [reflexivity|].
  rewrite (utf8_fun _ _ _ U1 U2). f_equal. now apply IH.
Qed.
Lemma ascii_utf8 s : forallb (fun c => (0 <=? c) && (c <? 128)) s = true -> utf8_text s s.
Proof.
  intros H. rewrite forallb_forall in H. induction s as [|c s IH]; [constructor|]. change (c :: s) with ([c] ++ s) at 1. constructor; [|apply IH; intros x I; apply H; now right].
  specialize (H c (or_introl eq_refl)). constructor. lia.
Qed.
Lemma str_member d k s cs b : member cs s (JStr b) -> utf8_text k cs -> forall B, utf8_text B b -> lax_member d k s (GStr B).
Proof.
  intros M K B UB. inversion M as [w1 k0 ks w2 w3 s0 w4 v0 B1 K0 B2 B3 J B4 E1 E2 E3]. subst.
  inversion J as [| | | |s1 cs1 S E4 E5| | | |]; subst. destruct (string_lax _ _ K0) as (k1 & L1 & U1). destruct (string_lax _ _ S) as (x & L2 & U2).
  rewrite <- (utf8_texts_fun _ _ _ U1 K), <- (utf8_texts_fun _ _ _ U2 UB). constructor; try assumption. now constructor.
Qed.
Lemma request_lax d t name version : request_text t name version -> lax (S d) t (GObj [(str "package", GStr name); (str "version", GStr version)]).
Proof.
  intros (OK & cs & vs & U & V & J). inversion J as [| | | | | | | |s l NE M E1 E2]; subst.
  inversion M as [|k s1 v r l M1 M2 E1 E2]; subst. inversion M2 as [k s2 v M3 E1 E2|? ? ? ? ? ? M4]; subst; [|inversion M4].
  apply lx_obj. apply lm_cons; [|apply lm_one].
  - eapply str_member; [exact M1|apply ascii_utf8; reflexivity|exact U].
  - eapply str_member; [exact M3|apply ascii_utf8; reflexivity|exact V].
Qed.
Lemma request_decoded d t name version : request_text t name version -> decode_pkg (S d) t = Some (name, version).
Proof.
  intros R. destruct (read_value_complete (S d) t (GObj [(str "package", GStr name); (str "version", GStr version)])) as [r E].
  - apply R.
  - discriminate.
  - exists [], t, []. split; [now rewrite app_nil_r|]. split; [constructor|]. now apply request_lax.
  - unfold decode_pkg. rewrite E. reflexivity.
Qed.

Lemma kept_visible s : kept_text s -> visible s = s.
Proof.
  intros [N _]. unfold visible. induction s as [|c s IH]; [reflexivity|]. cbn [flat_map].
  destruct (Z.eqb_spec c 0) as [->|_]; [elim N; now left|]. cbn [app]. f_equal. apply IH. intros I. apply N. now right.
Qed.
Lemma row_inputs name version description author npm path installed :
  row_input (str "name") (app_row name version description author npm path installed) = Some name /\
  row_input (str "version") (app_row name version description author npm path installed) = Some version.
Proof. split; reflexivity. Qed.
(** Pressing Install in the row of an object installs that object, in the version shown. *)
Theorem C108_install d d' root o row yarn no_index t : row_shows d root o row ->
  kept_text (pa_name (ro_package o)) -> kept_text (pa_version (ro_package o)) -> pressed row t ->
  in_yarn (install_request (S d') yarn no_index true t) = Some (pa_name (ro_package o) ++ str "@" ++ pa_version (ro_package o)).
Proof.
  intros (path & version & -> & _) KN KV (p & v & EP & EV & R).
  destruct (row_inputs (visible (pa_name (ro_package o))) (visible (pa_version (ro_package o))) (visible (pa_description (ro_package o)))
            (visible (au_name (pa_author (ro_package o)))) (link (ln_npm (pa_links (ro_package o)))) path (visible version)) as [E1 E2].
  rewrite E1 in EP. rewrite E2 in EV. clear E1 E2. rewrite (kept_visible _ KN) in EP. rewrite (kept_visible _ KV) in EV.
  assert (p = pa_name (ro_package o)) as -> by congruence. assert (v = pa_version (ro_package o)) as -> by congruence. unfold install_request. rewrite (request_decoded d' t _ _ R). destruct (yarn _); reflexivity.
Qed.
Lemma utf8_bytes c e : utf8 c e -> bytes_ok e.
Proof. intros H. destruct H; unfold bytes_ok; repeat (apply Forall_cons; [unfold is_byte; Z.div_mod_to_equations; lia|]); apply Forall_nil. Qed.
Lemma utf8_text_bytes s cs : utf8_text s cs -> bytes_ok s.
Proof. induction 1 as [|c e r cs U _ IH]; [constructor|]. apply Forall_app. split; [now apply (utf8_bytes c)|exact IH]. Qed.
Lemma hex_bytes c v : JsonSpec.hex_value c v -> is_byte c.
Proof. unfold JsonSpec.hex_value, is_byte. lia. Qed.
Lemma hex4_bytes s v : JsonSpec.hex4 s v -> bytes_ok s.
Proof. intros (a & b & c & d & x & y & z & w & -> & A & B & C & D & _). apply hex_bytes in A, B, C, D. repeat (apply Forall_cons; [assumption|]). apply Forall_nil. Qed.
Lemma char_bytes s c : char_text s c -> bytes_ok s.
Proof.
  assert (is_byte 92 /\ is_byte 117) as [B1 B2] by (unfold is_byte; lia).
  intros [c' e U _ _ _|x c' I|h c' H _|h l a b H L _ _].
  - now apply (utf8_bytes c').
  - apply Forall_cons; [exact B1|]. apply Forall_cons; [|apply Forall_nil]. unfold is_byte. cbn [In] in I. repeat (destruct I as [I|I]; [apply pair_equal_spec in I as [<- _]; lia|]). destruct I.
  - apply hex4_bytes in H. now repeat (apply Forall_cons; [assumption|]).
  - apply hex4_bytes in H, L. apply Forall_app. split; now repeat (apply Forall_cons; [assumption|]).
Qed.
Lemma chars_bytes s cs : chars_text s cs -> bytes_ok s.
Proof. induction 1 as [|s c r cs C _ IH]; [constructor|]. apply Forall_app. split; [now apply (char_bytes s c)|exact IH]. Qed.
Lemma utf8_reads s cs : utf8_text s cs -> reads s cs.
Proof. induction 1; constructor; assumption. Qed.
(** Any name and version in UTF-8 has a request. *)
Lemma utf8_string s cs : utf8_text s cs -> exists b, bytes_ok b /\ json ([34] ++ b ++ [34]) (JStr cs).
Proof.
  intros U. destruct (json_string_ok s (utf8_text_bytes s cs U)) as (cs' & R & b & _ & C). exists b.
  rewrite (reads_fun _ _ _ (utf8_reads _ _ U) R). split; [now apply (chars_bytes b cs')|]. constructor. now exists b.
Qed.
Theorem C108_request d root o row : row_shows d root o row ->
  (exists cs, utf8_text (visible (pa_name (ro_package o))) cs) -> (exists vs, utf8_text (visible (pa_version (ro_package o))) vs) -> exists t, pressed row t.
Proof.
  intros (path & version & -> & _) [cs U] [vs V]. destruct (utf8_string _ _ U) as (b & OB & J), (utf8_string _ _ V) as (c & OC & K).
  exists (str "{""package"":""" ++ b ++ str """,""version"":""" ++ c ++ str """}"). eexists _, _. split; [exact (proj1 (row_inputs _ _ _ _ _ _ _))|].
  split; [exact (proj2 (row_inputs _ _ _ _ _ _ _))|]. split.
  { assert (forall s, forallb is_byteb s = true -> bytes_ok s) as BB by (intros s H; apply Forall_forall; intros x I; rewrite forallb_forall in H; specialize (H x I); unfold is_byteb in H; unfold is_byte; lia).
    repeat (apply Forall_app; split); try assumption; apply BB; reflexivity. }
  exists cs, vs. split; [exact U|]. split; [exact V|].
  replace (str "{""package"":""" ++ b ++ str """,""version"":""" ++ c ++ str """}") with
    ([123] ++ (([34] ++ str "package" ++ [34; 58] ++ ([34] ++ b ++ [34])) ++ [44] ++ ([34] ++ str "version" ++ [34; 58] ++ ([34] ++ c ++ [34]))) ++ [125]).
  2:{ cbn [str app]. rewrite <- !app_assoc. cbn [app]. rewrite <- !app_assoc. reflexivity. }
  constructor; [discriminate|]. constructor; [|constructor]; (apply bare_member; [apply ascii_readable; reflexivity|assumption]).
Qed.

(* ------------------------------------------------------------------ what the page makes of the answer *)

Lemma plain_text s : ~ In 0 s -> ~ In 38 s -> ~ In 60 s -> read SData s = Some (SData, text s).
Proof.
  unfold text. induction s as [|c s IH]; intros N0 N1 N2; [reflexivity|]. cbn [read]. unfold step.
  destruct (Z.eqb_spec c 0) as [->|_]; [elim N0; now left|]. destruct (Z.eqb_spec c 38) as [->|_]; [elim N1; now left|].
  destruct (Z.eqb_spec c 60) as [->|_]; [elim N2; now left|]. rewrite IH; [reflexivity|intros I; apply N0; now right|intros I; apply N1; now right|intros I; apply N2; now right].
Qed.
Lemma plain_value n l a s : ~ In 0 s -> ~ In 34 s -> ~ In 38 s -> forall v, read (SValue 34 n l a v) s = Some (SValue 34 n l a (v ++ s), []).
Proof.
  induction s as [|c s IH]; intros N0 N1 N2 v; [cbn; now rewrite app_nil_r|]. cbn [read]. unfold step.
  destruct (Z.eqb_spec c 0) as [->|_]; [elim N0; now left|]. destruct (Z.eqb_spec c 34) as [->|_]; [elim N1; now left|].
  destruct (Z.eqb_spec c 38) as [->|_]; [elim N2; now left|]. rewrite IH; [|intros I; apply N0; now right|intros I; apply N1; now right|intros I; apply N2; now right].
  now rewrite <- app_assoc.
Qed.
(** With an address and a name without special characters, the row gets a link with that name. *)
Theorem C108_cell url name : ~ In 0 url -> ~ In 34 url -> ~ In 38 url -> ~ In 0 name -> ~ In 38 name -> ~ In 60 name ->
  html (cell_markup url name) ([Start (str "a") [(str "href", url)]] ++ text name ++ [End (str "a")]).
Proof.
  intros U0 U1 U2 N0 N1 N2. unfold html, cell_markup.
  change ([Start (str "a") [(str "href", url)]] ++ text name ++ [End (str "a")]) with
    ([] ++ [] ++ [Start (str "a") [(str "href", url)]] ++ text name ++ [End (str "a")]).
  eapply read_app; [vm_compute; reflexivity|]. eapply read_app; [apply plain_value; assumption|].
  eapply read_app; [reflexivity|]. eapply read_app; [now apply plain_text|]. reflexivity.
Qed.
(** Expected: what the registry calls an app stays text.  An app can be called so that pressing
    its button, whether it can be installed or not, adds an element that runs a script. *)
Definition evil : bytes := str "<img src='x' onerror='alert(1)'>".
Definition evil_object := mkreg (mkpack evil (str "1.0") [] zero_links zero_author) [] [].
Theorem C108_inject_refuted : exists body o, bytes_ok body /\ lists 9 body [o] /\
  forall d d' root row yarn no_index t v row0, row_shows d root o row -> pressed row t ->
    (forall err, yarn (pa_name (ro_package o) ++ str "@" ++ pa_version (ro_package o)) = Some err -> exists cs, readable err cs) ->
    json (in_body (install_request (S d') yarn no_index true t)) v ->
    exists url tokens, row_link (page_installed (pa_version (ro_package o)) row0 (Some v)) = Some url /\
      html (cell_markup url (pa_name (ro_package o))) tokens /\
      In (Start (str "img") [(str "src", str "x"); (str "onerror", str "alert(1)")]) tokens.
Proof.
  set (body := str "{""objects"":[{""package"":{""name"":""<img src='x' onerror='alert(1)'>"",""version"":""1.0""}}]}").
  assert (bytes_ok body) as OK by (apply Forall_forall; intros x I; assert (forallb is_byteb body = true) as B by reflexivity; rewrite forallb_forall in B; specialize (B x I); unfold is_byteb in B; unfold is_byte; lia).
  exists body, evil_object. split; [exact OK|]. split; [apply C108_objects; [exact OK|vm_compute; reflexivity]|].
  intros d d' root row yarn no_index t v row0 RS PR Y J.
  change (pa_name (ro_package evil_object)) with evil in *. change (pa_version (ro_package evil_object)) with (str "1.0") in *.
  assert (decode_pkg (S d') t = Some (evil, str "1.0")) as D.
  { destruct RS as (path & version & -> & _), PR as (p & w & EP & EW & R).
    rewrite (proj1 (row_inputs _ _ _ _ _ _ _)) in EP. rewrite (proj2 (row_inputs _ _ _ _ _ _ _)) in EW.
    change (visible (pa_name (ro_package evil_object))) with evil in EP. change (visible (pa_version (ro_package evil_object))) with (str "1.0") in EW.
    assert (p = evil) as -> by congruence. assert (w = str "1.0") as -> by congruence.
    now apply request_decoded. }
  destruct (yarn (evil ++ str "@" ++ str "1.0")) as [err|] eqn:EY.
  - destruct (Y err eq_refl) as [cs RD]. exists (str "undefined"). eexists. split.
    + rewrite (C95_failed_shown_refuted (S d') yarn no_index t evil (str "1.0") err cs v row0 D EY RD J). reflexivity.
    + split; [vm_compute; reflexivity|]. vm_compute. auto.
  - exists (getPathForPackage evil (no_index evil)). 
    assert (readable (getPathForPackage evil (no_index evil)) (getPathForPackage evil (no_index evil))) as RD by (destruct (no_index evil); apply ascii_readable; vm_compute; reflexivity).
    rewrite (C95_shown (S d') yarn no_index t evil (str "1.0") _ v row0 D EY RD J).
    destruct (no_index evil); (eexists; split; [reflexivity|]; split; [vm_compute; reflexivity|]; vm_compute; auto).
Qed.
(** A non-trivial case: two objects, one of them installed. *)
Definition wind_object := mkreg (mkpack (str "wind") (str "1.3.0") (str "Wind & sails") (mklinks (str "https://npm/wind") [] []) (mkauthor (str "Ann") [])) [] [].
Definition tide_object := mkreg (mkpack (str "tide") (str "0.1") [] zero_links zero_author) [] [].
Definition example_body : bytes := str "{""total"":2,""objects"":[{""package"":{""name"":""wind"",""version"":""1.3.0"",""description"":""Wind & sails"",""links"":{""npm"":""https://npm/wind""},""author"":{""name"":""Ann""}}},{""package"":{""name"":""tide"",""version"":""0.1""}}]}".
Example C108_example : bytes_ok example_body /\ disk_root_ok (Some modules) /\ lists 100 example_body [wind_object; tide_object] /\
  kept_text (pa_name (ro_package wind_object)) /\ kept_text (pa_version (ro_package wind_object)) /\
  Forall2 (row_shows 100 (Some modules)) [wind_object; tide_object]
    [app_row (str "wind") (str "1.3.0") (str "Wind & sails") (str "Ann") (str "https://npm/wind") (Some (str "/apps/wind")) (str "1.2.0");
     app_row (str "tide") (str "0.1") [] [] [] None []] /\
  pressed (app_row (str "wind") (str "1.3.0") (str "Wind & sails") (str "Ann") (str "https://npm/wind") (Some (str "/apps/wind")) (str "1.2.0"))
    (str "{""package"":""wind"",""version"":""1.3.0""}").
Proof.
  assert (forall s, forallb is_byteb s = true -> bytes_ok s) as BB by (intros s H; apply Forall_forall; intros x I; rewrite forallb_forall in H; specialize (H x I); unfold is_byteb in H; unfold is_byte; lia).
  assert (bytes_ok example_body) as OK by (apply BB; reflexivity). pose proof modules_ok as M.
  split; [exact OK|]. split; [exact M|]. split; [apply C108_objects; [exact OK|vm_compute; reflexivity]|].
  split; [split; vm_compute; intuition discriminate|]. split; [split; vm_compute; intuition discriminate|]. split.
  - apply Forall2_cons; [|apply Forall2_cons; [|apply Forall2_nil]].
    + assert (row_of (with_installed (installed_packages 100 (Some modules)) (as_shown wind_object)) = app_row (str "wind") (str "1.3.0") (str "Wind & sails") (str "Ann") (str "https://npm/wind") (Some (str "/apps/wind")) (str "1.2.0")) as <- by (vm_compute; reflexivity). exact (row_right 100 (Some modules) wind_object M).
    + assert (row_of (with_installed (installed_packages 100 (Some modules)) (as_shown tide_object)) = app_row (str "tide") (str "0.1") [] [] [] None []) as <- by (vm_compute; reflexivity). exact (row_right 100 (Some modules) tide_object M).
  - exists (str "wind"), (str "1.3.0"). split; [reflexivity|]. split; [reflexivity|]. split; [apply BB; reflexivity|].
    exists (str "wind"), (str "1.3.0"). split; [apply ascii_utf8; reflexivity|]. split; [apply ascii_utf8; reflexivity|].
    change (str "{""package"":""wind"",""version"":""1.3.0""}") with
      ([123] ++ (([34] ++ str "package" ++ [34; 58] ++ ([34] ++ str "wind" ++ [34])) ++ [44] ++ ([34] ++ str "version" ++ [34; 58] ++ ([34] ++ str "1.3.0" ++ [34]))) ++ [125]).
    constructor; [discriminate|]. constructor; [|constructor]; (apply bare_member; [apply ascii_readable; reflexivity|apply readable_string, ascii_readable; reflexivity]).
Qed.
