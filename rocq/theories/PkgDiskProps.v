(** PkgDiskProps: the installed web apps are those whose package.json says so (C106). *)
From Coq Require Import ZArith Lia ZifyBool List.
From Verif Require Import GoBase ApiModel ApiSpec ApiProps PackagesModel PackagesSpec PackagesProps JsonSpec JsonUnique UnjsonModel UnjsonSpec UnjsonParse UnjsonDecode UnjsonTyped UnjsonProps PkgDiskModel PkgDiskSpec.
Open Scope Z_scope.
Open Scope list_scope.

(* ------------------------------------------------------------------ slices *)

Definition slice_ok (i : nat) (x : slice) : Prop := (i <= sl_len x <= List.length (sl_slots x))%nat.
Definition slot (j : nat) (x : slice) : bytes := nth j (sl_slots x) [].
Lemma nth_blank (l : list bytes) k j : nth j (l ++ repeat [] k) [] = nth j l [].
Proof.
  destruct (Nat.lt_ge_cases j (List.length l)) as [H|H]; [now apply app_nth1|].
  rewrite app_nth2 by exact H. rewrite (nth_overflow l) by exact H. apply nth_repeat.
Qed.
Lemma room_ok i x : slice_ok i x -> slice_ok (S i) (room i x) /\ forall j, slot j (room i x) = slot j x.
Proof.
  unfold slice_ok, slot, room. intros H. destruct (Nat.leb_spec (List.length (sl_slots x)) i) as [L|L].
  - assert (sl_len x = List.length (sl_slots x)) as E by lia. unfold grow. rewrite E. rewrite firstn_all. cbn [sl_slots sl_len].
    destruct (Nat.leb_spec (List.length (sl_slots x)) i) as [L'|L']; [|lia]. cbn [sl_slots sl_len]. split; [|intros j; apply nth_blank].
    rewrite app_length, repeat_length. set (c := List.length (sl_slots x)) in *.
    pose proof (Nat.div_mod c 2 ltac:(lia)). pose proof (Nat.mod_upper_bound c 2 ltac:(lia)). lia.
  - destruct (Nat.leb_spec (sl_len x) i) as [L'|L']; cbn [sl_slots sl_len]; (split; [lia|reflexivity]).
Qed.
Lemma set_nth_length i v l : List.length (set_nth i v l) = List.length l.
Proof. revert i. induction l as [|x l IH]; intros [|i]; cbn [set_nth List.length]; auto. Qed.
Lemma set_nth_at i v l : (i < List.length l)%nat -> forall j, nth j (set_nth i v l) [] = if Nat.eqb j i then v else nth j l [].
Proof.
  revert i. induction l as [|x l IH]; intros i H j; [cbn in H; lia|]. destruct i as [|i]; cbn [set_nth].
  - destruct j; reflexivity.
  - destruct j as [|j]; [reflexivity|]. cbn [nth Nat.eqb]. apply IH. cbn [List.length] in H. lia.
Qed.
Lemma into_items_slots l : forall i x, slice_ok i x ->
  let y := fst (into_items l i x) in
  sl_len y = (i + List.length l)%nat /\ slice_ok 0 y /\
  forall j, slot j y = if Nat.leb i j && Nat.ltb j (i + List.length l) then fst (into_string (nth (j - i) l GNull) (slot j x)) else slot j x.
Proof.
  induction l as [|g l IH]; intros i x H; cbn zeta.
  - cbn [into_items fst sl_len List.length]. unfold slice_ok, slot in *. cbn [sl_len sl_slots]. split; [lia|]. split; [lia|].
    intros j. replace (Nat.leb i j && Nat.ltb j (i + 0)) with false; [reflexivity|]. destruct (Nat.leb_spec i j), (Nat.ltb_spec j (i + 0)); try reflexivity. lia.
  - cbn [into_items]. destruct (room_ok i x H) as [R RS]. set (y := room i x) in *. clearbody y.
    destruct (into_string g (nth i (sl_slots y) [])) as [v ok1] eqn:EV.
    assert (v = fst (into_string g (slot i x))) as V by (rewrite <- RS; unfold slot; now rewrite EV).
    set (z := mkslice (set_nth i v (sl_slots y)) (sl_len y)).
    assert (slice_ok (S i) z) as Z by (unfold slice_ok, z in *; cbn [sl_len sl_slots]; rewrite set_nth_length; exact R).
    specialize (IH (S i) z Z). cbn zeta in IH. destruct (into_items l (S i) z) as [w ok2]. cbn [fst] in *. destruct IH as (L & O & S').
    cbn [List.length]. split; [lia|]. split; [exact O|]. intros j. rewrite S'.
    assert (slot j z = if Nat.eqb j i then v else slot j x) as SZ.
    { unfold slot at 1, z. cbn [sl_slots]. rewrite set_nth_at by (unfold slice_ok in R; lia). destruct (Nat.eqb j i); [reflexivity|apply RS]. }
    rewrite SZ. clear SZ. destruct (Nat.eqb_spec j i) as [EJ|NE]; [rewrite EJ|].
    + replace (Nat.leb (S i) i) with false by (symmetry; apply Nat.leb_gt; lia). cbn [andb].
      replace (Nat.leb i i && Nat.ltb i (i + S (List.length l))) with true by (symmetry; rewrite andb_true_iff, Nat.leb_le, Nat.ltb_lt; lia).
      rewrite Nat.sub_diag. cbn [nth]. exact V.
    + replace (Nat.leb (S i) j && Nat.ltb j (S i + List.length l)) with (Nat.leb i j && Nat.ltb j (i + S (List.length l))).
      2:{ destruct (Nat.leb_spec (S i) j), (Nat.leb_spec i j), (Nat.ltb_spec j (S i + List.length l)), (Nat.ltb_spec j (i + S (List.length l))); try reflexivity; lia. }
      destruct (Nat.leb_spec i j) as [LE|LE]; cbn [andb]; [|reflexivity]. destruct (Nat.ltb j (i + S (List.length l))); [|reflexivity].
      replace (j - i)%nat with (S (j - S i)) by lia. reflexivity.
Qed.
Lemma into_items_ok l : forall i x, snd (into_items l i x) = true <-> forall g, In g l -> fits TText g.
Proof.
  induction l as [|g l IH]; intros i x; [split; [intros _ g []|reflexivity]|]. cbn [into_items].
  pose proof (typed_text (nth i (sl_slots (room i x)) []) g) as T. destruct (into_string g _) as [v ok1]. cbn [snd] in T.
  specialize (IH (S i) (mkslice (set_nth i v (sl_slots (room i x))) (sl_len (room i x)))). destruct (into_items l _ _) as [z ok2]. cbn [snd] in *.
  rewrite andb_true_iff, T, IH. split; [intros [A B] g' [<-|I]; auto|]. intros H. split; [apply H; now left|]. intros g' I. apply H. now right.
Qed.
Lemma typed_strings : typed into_strings (TList TText).
Proof.
  intros g x W. split.
  - destruct g as [|b|t|s|l|ms]; cbn [into_strings]; try discriminate; intros H; [apply fi_null|]. apply fi_list. destruct l as [|a l]; [intros g []|].
    exact (proj1 (into_items_ok (a :: l) 0 x) H).
  - intros H. inversion H as [| | | | | | |? l H']; subst; [reflexivity|]. cbn [into_strings]. destruct l as [|a l]; [reflexivity|]. now apply into_items_ok.
Qed.
Lemma np_names : good_names (map fst np_fields). Proof. names. Qed.
Lemma np_typed : typed (into_struct np_fields) manifest_type.
Proof.
  apply typed_struct; [exact np_names|]. unfold np_fields. cbn [texts map app].
  do 4 (apply Forall2_cons; [split; [reflexivity|cbn [snd]; scalar]|]).
  apply Forall2_cons; [split; [reflexivity|]|apply Forall2_nil].
  intros g x W. cbn [snd]. rewrite <- (typed_strings g (np_keywords x) W). destruct (into_strings g (np_keywords x)). reflexivity.
Qed.

(* ------------------------------------------------------------------ keywords *)

Lemma word_step l a j w : word_at l j w -> word_at (l ++ [a]) j (fst (into_string (nth j a GNull) w)).
Proof.
  intros H. destruct (nth_error a j) as [g|] eqn:E.
  - rewrite (nth_error_nth a j GNull E). assert ((exists s, g = GStr s) \/ forall s, g <> GStr s) as [[s ->]|N] by (destruct g; eauto; right; discriminate).
    + left. exists l, a, []. split; [reflexivity|]. split; [exact E|]. intros y s' [].
    + assert (fst (into_string g w) = w) as -> by (destruct g; try reflexivity; now elim (N s)).
      destruct H as [(p & x & b & -> & X & L)|[-> L]].
      * left. exists p, x, (b ++ [a]). split; [now rewrite <- app_assoc|]. split; [exact X|]. intros y s I. apply in_app_iff in I as [I|[<-|[]]]; [now apply L|]. rewrite E. intros Q. injection Q as Q. now apply (N s).
      * right. split; [reflexivity|]. intros y s I. apply in_app_iff in I as [I|[<-|[]]]; [now apply L|]. rewrite E. intros Q. injection Q as Q. now apply (N s).
  - rewrite nth_overflow by (now apply nth_error_None). cbn [into_string fst].
    destruct H as [(p & x & b & -> & X & L)|[-> L]].
    + left. exists p, x, (b ++ [a]). split; [now rewrite <- app_assoc|]. split; [exact X|]. intros y s I. apply in_app_iff in I as [I|[<-|[]]]; [now apply L|]. rewrite E. discriminate.
    + right. split; [reflexivity|]. intros y s I. apply in_app_iff in I as [I|[<-|[]]]; [now apply L|]. rewrite E. discriminate.
Qed.
Definition get_strings (g : gj) (x : slice) : slice := fst (into_strings g x).
Definition last_len (l : list (list gj)) : nat := List.length (last l []).
Lemma last_len_snoc l a : last_len (l ++ [a]) = List.length a.
Proof. unfold last_len. now rewrite last_last. Qed.
Lemma keywords_state ms : keys_ok ms -> (forall k g, In (k, g) ms -> reads_as k (str "keywords") -> fits (TList TText) g) ->
  exists l, keyword_lists ms l /\
    let x := on_members get_strings (str "keywords") ms (mkslice [] 0) in
    slice_ok 0 x /\ sl_len x = last_len l /\ (forall j, word_at l j (slot j x)).
Proof.
  assert (ascii_text (str "keywords")) as A by (pose proof (proj1 np_names) as A; rewrite Forall_forall in A; apply A; cbn; auto 10).
  assert (forall j, word_at [] j []) as W0 by (intros j; right; split; [reflexivity|intros y s []]).
  induction ms as [|[k g] ms IH] using rev_ind; intros B F.
  { exists []. split; [constructor|]. cbn. split; [unfold slice_ok; cbn; lia|]. split; [reflexivity|]. intros j. destruct j; apply W0. }
  destruct IH as (l & KL & H); [intros k' g' I; apply (B k' g'), in_app_iff; now left|intros k' g' I; apply F, in_app_iff; now left|].
  assert (bytes_ok k) as Bk by (apply (B k g), in_app_iff; right; now left).
  unfold on_members in *. rewrite fold_left_app. cbn [fold_left fst snd]. cbn zeta in *. set (x := fold_left _ ms (mkslice [] 0)) in *. clearbody x.
  destruct H as (O & LL & WD). destruct (EqualFold k (str "keywords")) eqn:E.
  2:{ exists l. split; [|auto]. apply kl_other; [exact KL|]. intros R. apply C64_case in R; [congruence|assumption..]. }
  apply C64_case in E; [|assumption..].
  pose proof (F k g ltac:(apply in_app_iff; right; now left) E) as FG.
  assert (forall g, g = GNull \/ g = GArr [] -> exists l', keyword_lists (ms ++ [(k, g)]) l' /\
    slice_ok 0 (get_strings g x) /\ sl_len (get_strings g x) = last_len l' /\ forall j, word_at l' j (slot j (get_strings g x))) as RESET.
  { intros g0 G0. exists []. split; [eapply kl_reset; eauto|]. assert (get_strings g0 x = mkslice [] 0) as -> by (destruct G0 as [-> | ->]; reflexivity).
    split; [unfold slice_ok; cbn; lia|]. split; [reflexivity|]. intros j. destruct j; apply W0. }
  inversion FG as [| | | | | | |? a H']; subst; [apply RESET; now left|]. destruct a as [|g0 a]; [apply RESET; now right|].
  set (b := g0 :: a) in *. assert (b <> []) as NB by discriminate. assert (get_strings (GArr b) x = fst (into_items b 0 x)) as -> by reflexivity. clearbody b.
  pose proof (into_items_slots b 0 x O) as P. cbn zeta in P. set (y := fst (into_items b 0 x)) in *. clearbody y. destruct P as (L' & O' & S').
  exists (l ++ [b]). split; [now apply kl_array|]. split; [exact O'|]. split; [now rewrite last_len_snoc|].
  intros j. rewrite S'. rewrite Nat.sub_0_r. cbn [Nat.leb andb Nat.add]. pose proof (word_step l b j (slot j x) (WD j)) as WS.
  destruct (Nat.ltb_spec j (List.length b)) as [LT|GE]; [exact WS|]. rewrite nth_overflow in WS by exact GE. exact WS.
Qed.
Lemma keywords_say ms : keys_ok ms -> (forall k g, In (k, g) ms -> reads_as k (str "keywords") -> fits (TList TText) g) ->
  exists l, keyword_lists ms l /\ words l (slice_items (on_members get_strings (str "keywords") ms (mkslice [] 0))).
Proof.
  intros B F. destruct (keywords_state ms B F) as (l & KL & O & LL & WD). exists l. split; [exact KL|].
  set (x := on_members _ _ _ _) in *. clearbody x. unfold slice_items. rewrite LL.
  assert (l = [] \/ exists l' a, l = l' ++ [a]) as [->|(l' & a & ->)] by (destruct l as [|a l] using rev_ind; [now left|right; eauto]).
  - left. now split.
  - right. exists l', a. split; [reflexivity|]. rewrite last_len_snoc in *. unfold slice_ok in O.
    assert (List.length (firstn (List.length a) (sl_slots x)) = List.length a) as LE by (rewrite firstn_length; lia).
    split; [exact LE|]. intros i w N. assert (i < List.length a)%nat as LT by (rewrite <- LE; apply nth_error_Some; congruence).
    apply nth_error_nth with (d := []) in N. subst w. 
    replace (nth i (firstn (List.length a) (sl_slots x)) []) with (slot i x); [apply WD|].
    unfold slot. rewrite <- (firstn_skipn (List.length a) (sl_slots x)) at 1. apply app_nth1. lia.
Qed.

(* ------------------------------------------------------------------ one meaning *)

Lemma split_compare {A} (a : list A) x b a' x' b' : a ++ x :: b = a' ++ x' :: b' -> (x = x' /\ b = b') \/ In x b' \/ In x' b.
Proof.
  revert a'. induction a as [|y a IH]; intros [|y' a'] E; cbn [app] in E; injection E as E1 E2; subst.
  - auto.
  - right; right. apply in_app_iff. right. now left.
  - right; left. apply in_app_iff. right. now left.
  - now apply (IH a').
Qed.
Lemma says_unique {V} (P : gj -> V -> Prop) ms n v0 v v' : (forall g v v', P g v -> P g v' -> v = v') ->
  says P ms n v0 v -> says P ms n v0 v' -> v = v'.
Proof.
  intros PF [(a & k & g & b & -> & R & Q & L)|[-> L]] [(a' & k' & g' & b' & E & R' & Q' & L')|[-> L']].
  - apply split_compare in E as [[E _]|[E|E]].
    + injection E as <- <-. eauto.
    + elim (L' _ _ _ E R Q).
    + elim (L _ _ _ E R' Q').
  - elim (L' k g v); [|exact R|exact Q]. apply in_app_iff. right. now left.
  - elim (L k' g' v'); [|exact R'|exact Q']. rewrite E. apply in_app_iff. right. now left.
  - reflexivity.
Qed.
Lemma text_unique g v v' : a_text g v -> a_text g v' -> v = v'.
Proof. unfold a_text. congruence. Qed.
Lemma keyword_lists_unique ms l l' : keyword_lists ms l -> keyword_lists ms l' -> l = l'.
Proof.
  intros H. revert l'. induction H as [|ms l k g H IH N|ms l k g H IH R G|ms l k a H IH R G]; intros l' H'.
  - inversion H' as [|ms' l0 k0 g0 H0 N0 E1 E2|ms' l0 k0 g0 H0 R0 G0 E1 E2|ms' l0 k0 a0 H0 R0 G0 E1 E2]; subst; try (destruct ms'; discriminate). reflexivity.
  - inversion H' as [E0|ms' l0 k0 g0 H0 N0 E1 E2|ms' l0 k0 g0 H0 R0 G0 E1 E2|ms' l0 k0 a0 H0 R0 G0 E1 E2]; subst; [destruct ms; discriminate|apply app_inj_tail in E1 as [<- E1]; injection E1 as <- <-..].
    + auto.
    + contradiction.
    + contradiction.
  - inversion H' as [E0|ms' l0 k0 g0 H0 N0 E1 E2|ms' l0 k0 g0 H0 R0 G0 E1 E2|ms' l0 k0 a0 H0 R0 G0 E1 E2]; subst; [destruct ms; discriminate|apply app_inj_tail in E1 as [<- E1]; injection E1 as <- <-..].
    + contradiction.
    + reflexivity.
    + destruct G as [G|G]; [discriminate|]. injection G as ->. contradiction.
  - inversion H' as [E0|ms' l0 k0 g0 H0 N0 E1 E2|ms' l0 k0 g0 H0 R0 G0 E1 E2|ms' l0 k0 a0 H0 R0 G0 E1 E2]; subst; [destruct ms; discriminate|apply app_inj_tail in E1 as [<- E1]; injection E1 as <- E1..].
    + contradiction.
    + subst g0. destruct G0 as [G0|G0]; [discriminate|]. injection G0 as ->. contradiction.
    + subst a0. f_equal. auto.
Qed.
Lemma word_unique l i w w' : word_at l i w -> word_at l i w' -> w = w'.
Proof.
  intros [(a & x & b & -> & N & L)|[-> L]] [(a' & x' & b' & E & N' & L')|[-> L']].
  - apply split_compare in E as [[E _]|[E|E]].
    + subst x'. congruence.
    + elim (L' _ _ E N).
    + elim (L _ _ E N').
  - elim (L' x w); [|exact N]. apply in_app_iff. right. now left.
  - elim (L x' w'); [|exact N']. rewrite E. apply in_app_iff. right. now left.
  - reflexivity.
Qed.
Lemma nth_error_same {A} (l l' : list A) : (forall i, nth_error l i = nth_error l' i) -> l = l'.
Proof.
  revert l'. induction l as [|x l IH]; intros [|y l'] H; [reflexivity|specialize (H O); discriminate|specialize (H O); discriminate|].
  pose proof (H O) as H0. cbn in H0. injection H0 as <-. f_equal. apply IH. intros i. exact (H (S i)).
Qed.
Lemma words_unique l ws ws' : words l ws -> words l ws' -> ws = ws'.
Proof.
  intros [[-> ->]|(l1 & a & -> & N & W)] [[E ->]|(l2 & a' & E & N' & W')]; try (destruct l1; discriminate).
  - reflexivity.
  - destruct l2; discriminate.
  - apply app_inj_tail in E as [_ <-]. apply nth_error_same. intros i.
    destruct (nth_error ws i) as [w|] eqn:E1, (nth_error ws' i) as [w'|] eqn:E2.
    + f_equal. exact (word_unique _ i w w' (W i w E1) (W' i w' E2)).
    + apply nth_error_None in E2. assert (i < List.length ws)%nat by (apply nth_error_Some; congruence). lia.
    + apply nth_error_None in E1. assert (i < List.length ws')%nat by (apply nth_error_Some; congruence). lia.
    + reflexivity.
Qed.
(** A package.json says one thing only. *)
Lemma manifest_unique ms p p' : manifest_says ms p -> manifest_says ms p' -> p = p'.
Proof.
  intros (_ & V & N & L & l & K & W) (_ & V' & N' & L' & l' & K' & W'). pose proof (keyword_lists_unique _ _ _ K K') as <-.
  destruct p as [pv pn pl pk], p' as [pv' pn' pl' pk']. cbn [pk_version pk_name pk_location pk_keywords] in *. f_equal.
  - exact (says_unique _ _ _ _ _ _ text_unique V V').
  - exact (says_unique _ _ _ _ _ _ text_unique N N').
  - exact (says_unique _ _ _ _ _ _ text_unique L L').
  - exact (words_unique _ _ _ W W').
Qed.

(* ------------------------------------------------------------------ one package.json *)

Lemma np_fields_say ms : keys_ok ms -> fits manifest_type (GObj ms) ->
  let p := fst (into_members np_fields ms zero_np) in
  manifest_says ms (mkpkg (np_version p) (np_name p) (np_location p) (slice_items (np_keywords p))).
Proof.
  intros B F. cbn zeta. unfold manifest_says. cbn [pk_version pk_name pk_location pk_keywords].
  split; [exact F|]. split; [said np_names B np_fields np_version get_text text_last|].
  split; [said np_names B np_fields np_name get_text text_last|].
  split; [said np_names B np_fields np_location get_text text_last|].
  rewrite (project np_fields np_keywords (str "keywords") (fun g p => let '(x, ok) := into_strings g (np_keywords p) in
    (mknp (np_version p) (np_name p) (np_main p) (np_location p) x, ok)) get_strings np_names); [|member| |others|exact B].
  2:{ intros g x. unfold get_strings. cbv beta. destruct (into_strings g (np_keywords x)). reflexivity. }
  apply keywords_say; [exact B|]. intros k g I R. inversion F as [| | | | |? ? H| |]; subst. apply (H k g (str "keywords") _ I); [|exact R].
  cbn. auto 10.
Qed.
Theorem C106_manifest d t p : bytes_ok t -> decode_package d t = Some p <->
  (exists ms, lax_text d t (GObj ms) /\ manifest_says ms p) \/ lax_text d t GNull /\ p = mkpkg [] [] [] [].
Proof.
  intros OK. unfold decode_package.
  assert (forall g, lax_text d t g -> wfj g) as WF.
  { intros g (w & u & w' & _ & _ & _ & L). destruct lax_wf as (W & _). exact (W _ _ _ L). }
  assert (forall g p, lax_text d t g -> (let '(q, ok) := into_struct np_fields g zero_np in
      if ok then Some (mkpkg (np_version q) (np_name q) (np_location q) (slice_items (np_keywords q))) else None) = Some p ->
      (exists ms, g = GObj ms /\ manifest_says ms p) \/ g = GNull /\ p = mkpkg [] [] [] []) as A.
  { clear p. intros g p L. pose proof (WF g L) as W. pose proof (np_typed g zero_np W) as T. destruct g as [| | | | |ms]; try discriminate.
    - intros H. right. split; [reflexivity|]. cbn in H. now injection H as <-.
    - left. exists ms. split; [reflexivity|]. cbn [into_struct] in *.
      assert (keys_ok ms) as B by (inversion W as [| | | | |? M]; subst; intros k g I; now destruct (M k g I)).
      pose proof (np_fields_say ms B) as S. destruct (into_members np_fields ms zero_np) as [q ok]. cbn [fst snd] in *.
      destruct ok; [|discriminate]. injection H as <-. apply S. now apply T. }
  destruct (read_text d t) as [g|] eqn:R.
  - pose proof (proj1 (read_text_exact d t g OK) R) as L. split.
    + intros H. destruct (A g p L H) as [(ms & -> & S)|[-> ->]]; [left; eauto|right; auto].
    + intros H. assert (exists ms, g = GObj ms /\ manifest_says ms p \/ g = GNull /\ p = mkpkg [] [] [] []) as (ms & [[-> S]|[-> ->]]); [|clear H|reflexivity].
      { destruct H as [(ms & L' & S)|[L' ->]]; pose proof (lax_text_unique d t _ _ OK L L') as ->; [exists ms; auto|exists []; auto]. }
      pose proof (np_typed (GObj ms) zero_np (WF _ L)) as T. apply proj2 in T. specialize (T (proj1 S)).
      specialize (A (GObj ms)). destruct (into_struct np_fields (GObj ms) zero_np) as [q ok]. cbn [snd] in T. subst ok.
      destruct (A _ L eq_refl) as [(ms' & E & S')|[E _]]; [|discriminate]. injection E as <-. f_equal. exact (manifest_unique _ _ _ S' S).
  - split; [discriminate|]. intros H. exfalso. destruct H as [(ms & L & _)|[L _]]; apply (read_text_exact d t _ OK) in L; congruence.
Qed.

(* ------------------------------------------------------------------ the directories *)

Lemma nodes_eq d es : node_of d (DDir es) = NDir (json_of d es) (no_index es) (nodes_of d es).
Proof.
  cbn [node_of]. f_equal. unfold nodes_of. induction es as [|[k y] es IH]; [reflexivity|]. cbn [map fst snd]. now rewrite IH.
Qed.
Scheme disk_ind2 := Induction for disk_ok Sort Prop with disk_all_ind2 := Induction for disk_all Sort Prop.
Lemma nodes_keys d l : map fst (nodes_of d l) = map fst l.
Proof. unfold nodes_of. rewrite map_map. reflexivity. Qed.
Lemma disk_named d : forall l, disk_all l -> well_named_all (nodes_of d l).
Proof.
  apply (disk_all_ind2 (fun x _ => well_named (node_of d x)) (fun l _ => well_named_all (nodes_of d l))).
  - constructor.
  - intros. constructor.
  - intros es _ H. rewrite nodes_eq. now constructor.
  - constructor.
  - intros k x r F N _ H _ H'. cbn [nodes_of map fst snd]. constructor; [exact F| |exact H|exact H'].
    change (~ In k (map fst (nodes_of d r))). now rewrite nodes_keys.
Qed.
Lemma disk_in l : disk_all l -> forall k x, In (k, x) l -> disk_ok x.
Proof. induction 1 as [|k x r F N O A IH]; intros k' x' I; [destruct I|]. destruct I as [I|I]; [injection I as <- <-; exact O|eauto]. Qed.
Lemma entry_in l : disk_all l -> forall k x, entry l k = Some x <-> In (k, x) l.
Proof.
  induction 1 as [|k x r F N O A IH]; intros k' x'; [split; [discriminate|intros []]|]. cbn [entry In].
  destruct (bytes_eqb k k') eqn:E.
  - apply bytes_eqb_eq in E. subst k'. split; [intros H; injection H as <-; now left|]. intros [I|I]; [congruence|].
    elim N. apply in_map_iff. now exists (k, x').
  - rewrite IH. split; [auto|]. intros [I|I]; [|exact I]. injection I as -> ->. rewrite (proj2 (bytes_eqb_eq k' k') eq_refl) in E. discriminate.
Qed.
Lemma entry_none l k : entry l k = None <-> ~ In k (map fst l).
Proof.
  induction l as [|[n x] l IH]; [split; [intros _ []|reflexivity]|]. cbn [entry map fst In]. destruct (bytes_eqb n k) eqn:E.
  - apply bytes_eqb_eq in E. subst. split; [discriminate|]. intros H. elim H. now left.
  - rewrite IH. split; [|tauto]. intros H [-> |I]; [|auto]. rewrite (proj2 (bytes_eqb_eq k k) eq_refl) in E. discriminate.
Qed.
Lemma json_none d es : disk_all es -> json_of d es = None <-> ~ has_manifest es.
Proof.
  intros A. unfold json_of, has_manifest. destruct (entry es (str "package.json")) as [x|] eqn:E.
  - apply (entry_in es A) in E. split.
    + intros H (t & I). apply (entry_in es A) in E, I. rewrite E in I. injection I as ->. discriminate.
    + intros H. destruct x as [|[t|]|]; try reflexivity. elim H. eauto.
  - split; [|reflexivity]. intros _ (t & I). apply (entry_in es A) in I. congruence.
Qed.
Lemma json_some d es p : disk_all es -> json_of d es = Some (Some p) <->
  exists t, In (str "package.json", DFile (Some t)) es /\ decode_package d t = Some p.
Proof.
  intros A. unfold json_of. split.
  - destruct (entry es (str "package.json")) as [[|[t|]|]|] eqn:E; try discriminate. intros H. injection H as H. exists t.
    split; [now apply entry_in|exact H].
  - intros (t & I & D). apply (entry_in es A) in I. rewrite I. now rewrite D.
Qed.
Lemma index_lacks es : lacks_index es (no_index es).
Proof.
  unfold lacks_index, no_index. rewrite <- entry_none. destruct (entry es (str "index.html")); split; congruence.
Qed.
Lemma lacks_unique es b b' : lacks_index es b -> lacks_index es b' -> b = b'.
Proof. unfold lacks_index. intros H H'. destruct b, b'; try reflexivity; exfalso; intuition congruence. Qed.
Lemma nodes_in d l k n : In (k, n) (nodes_of d l) <-> exists x, In (k, x) l /\ n = node_of d x.
Proof.
  unfold nodes_of. rewrite in_map_iff. split; [intros ([k' x] & E & I); injection E as <- <-; eauto|]. intros (x & I & ->). exists (k, x). auto.
Qed.
Lemma level_same d l : disk_all l -> level_ok (nodes_of d l) <-> level_readable l.
Proof.
  intros A. split.
  - intros L name es I. pose proof (disk_in l A name (DDir es) I) as O. inversion O as [| |? AE]; subst.
    destruct (json_of d es) as [j|] eqn:J.
    + right. right. unfold json_of in J. destruct (entry es (str "package.json")) as [[|[t|]|]|] eqn:E; try discriminate. exists t. now apply entry_in.
    + destruct (L name (no_index es) (nodes_of d es)) as [S|S]; [|auto|auto]. apply nodes_in. exists (DDir es). split; [exact I|]. now rewrite nodes_eq, J.
  - intros L name b ns I. apply nodes_in in I as (x & I & E). pose proof (disk_in l A name x I) as O.
    destruct x as [|t|es]; try discriminate. rewrite nodes_eq in E. injection E as J _ _. inversion O as [| |? AE]; subst.
    destruct (L name es I) as [S|[S|S]]; [auto|auto|]. symmetry in J. apply (json_none d es AE) in J. contradiction.
Qed.
Lemma app_same d name n ks p b : web_app name n ks p b -> forall x, disk_ok x -> n = node_of d x -> exists es, app_dir d name x ks es p /\ lacks_index es b.
Proof.
  induction 1 as [name p b ns NS NB K|name j b ns m n ks p y S L I A IH]; intros x O E.
  - destruct x as [|t|es]; try discriminate. rewrite nodes_eq in E. injection E as J -> _. inversion O as [| |? AE]; subst.
    exists es. split; [|apply index_lacks]. symmetry in J. apply (json_some d es p AE) in J as (t & I & D).
    assert (bytes_ok t) as OK by (pose proof (disk_in es AE _ _ I) as X; inversion X as [|? X'|]; subst; now apply X').
    apply (C106_manifest d t p OK) in D as [(ms & LT & M)|[_ ->]]; [|destruct K]. exact (ad_here d name es t ms p NS NB I LT M K).
  - destruct x as [|t|es]; try discriminate. rewrite nodes_eq in E. injection E as _ _ ->. inversion O as [| |? AE]; subst.
    apply nodes_in in I as (x & I & ->). destruct (IH x (disk_in es AE m x I) eq_refl) as (es' & A' & LI). exists es'. split; [|exact LI].
    apply (ad_scoped d name es m x ks es' p S); [now apply (level_same d es AE)|exact I|exact A'].
Qed.
Lemma dir_same d name x ks es p : app_dir d name x ks es p -> disk_ok x -> web_app name (node_of d x) ks p (no_index es).
Proof.
  induction 1 as [name es t ms p NS NB I LT M K|name es m x ks es' p S L I A IH]; intros O; inversion O as [| |? AE]; subst; rewrite nodes_eq.
  - assert (bytes_ok t) as OK by (pose proof (disk_in es AE _ _ I) as X; inversion X as [|? X'|]; subst; now apply X').
    assert (json_of d es = Some (Some p)) as ->; [|now constructor]. apply (json_some d es p AE). exists t. split; [exact I|].
    apply (C106_manifest d t p OK). left. eauto.
  - apply app_scoped with (m := m) (n := node_of d x); [exact S|now apply (level_same d es AE)|apply nodes_in; eauto|].
    exact (IH (disk_in es AE m x I)).
Qed.

(** The apps listed are exactly the directories whose package.json names them as web apps. *)
Theorem C106_exact d l : disk_all l ->
  (level_readable l -> exists r, installed_packages d (Some l) = Some r /\
     forall k e, In (k, e) r <-> exists name x ks es p b, In (name, x) l /\ app_dir d name x ks es p /\ lacks_index es b /\
       k = slashed ks /\ shown_as p b e) /\
  (~ level_readable l -> installed_packages d (Some l) = None).
Proof.
  intros A. unfold installed_packages. cbn [option_map]. destruct (C71_exact (nodes_of d l) (disk_named d l A)) as [X Y].
  rewrite <- (level_same d l A). split; [|exact Y]. intros L. destruct (X L) as (r & E & H). exists r. split; [exact E|].
  intros k e. rewrite H. split.
  - intros (name & n & ks & p & b & I & W & -> & S). apply nodes_in in I as (x & I & ->).
    destruct (app_same d _ _ _ _ _ W x (disk_in l A _ _ I) eq_refl) as (es & AD & LI). exists name, x, ks, es, p, b. auto.
  - intros (name & x & ks & es & p & b & I & AD & LI & -> & S). exists name, (node_of d x), ks, p, b.
    split; [apply nodes_in; eauto|]. split; [|auto]. pose proof (dir_same d _ _ _ _ _ AD (disk_in l A _ _ I)) as W.
    now rewrite (lacks_unique es b (no_index es) LI (index_lacks es)).
Qed.

(* ------------------------------------------------------------------ examples *)

Definition manifest_file (s : bytes) : bytes * disk := (str "package.json", DFile (Some s)).
Definition wind_text : bytes := str "{""name"": ""wind"", ""version"": ""1.2.0"", ""main"": ""index.js"", ""Keywords"": [""sail"", ""signalk-webapp""], ""private"": true}".
Definition chart_text : bytes := str "{""name"":""@b/chart"",""keywords"":[""signalk-webapp""],""_location"":""/@b/chart""}".
Definition lodash_text : bytes := str "{""name"":""lodash"",""keywords"":[""modules"",""util""]}".
(** Keywords as one text, as npm does not write them: an error, and no app. *)
Definition text_text : bytes := str "{""name"":""tide"",""keywords"":""signalk-webapp""}".
Definition modules : list (bytes * disk) :=
  [(str ".bin", DDir []); (str ".yarn-integrity", DFile (Some (str "{}")));
   (str "@b", DDir [(str "chart", DDir [manifest_file chart_text])]);
   (str "lodash", DDir [manifest_file lodash_text]);
   (str "tide", DDir [manifest_file text_text]);
   (str "wind", DDir [(str "index.html", DFile (Some (str "<html>"))); manifest_file wind_text])].
Lemma ok_text s : forallb (fun c => (0 <=? c) && (c <? 256)) s = true -> disk_ok (DFile (Some s)).
Proof.
  intros H. constructor. intros s' E. injection E as <-. apply Forall_forall. intros c I. rewrite forallb_forall in H. specialize (H c I). unfold is_byte. lia.
Qed.
Definition name_check (n : bytes) : bool :=
  negb (bytes_eqb n []) && negb (existsb (Z.eqb 47) n) && negb (bytes_eqb n (str ".")) && negb (bytes_eqb n (str "..")).
Lemma name_checked n : name_check n = true -> file_name n.
Proof.
  unfold name_check. rewrite !andb_true_iff, !negb_true_iff. intros [[[A B] C] D].
  split; [intros ->; discriminate|]. split; [|split; intros ->; discriminate].
  intros I. assert (existsb (Z.eqb 47) n = true) as X by (apply existsb_exists; exists 47; split; [exact I|reflexivity]). congruence.
Qed.
Ltac disk_good := repeat first [apply da_nil | apply do_dir | apply ok_text; reflexivity | apply do_other
  | apply da_cons; [apply name_checked; reflexivity | vm_compute; intuition discriminate | | ]].
Lemma modules_ok : disk_all modules.
Proof. unfold modules, manifest_file. disk_good. Qed.
Example C106_example : disk_all modules /\ level_readable modules /\
  installed_packages 100 (Some modules) =
    Some [(str "@b/chart", mkpkg [] (str "@b/chart") (str "/@b/chart/public") [str "signalk-webapp"]);
          (str "wind", mkpkg (str "1.2.0") (str "wind") (str "/wind") [str "sail"; str "signalk-webapp"])].
Proof.
  split; [exact modules_ok|]. split; [|vm_compute; reflexivity]. intros name es I. unfold modules in I. cbn [In] in I.
  destruct I as [I|[I|[I|[I|[I|[I|[]]]]]]]; try discriminate I; apply pair_equal_spec in I as [<- I].
  - right. left. reflexivity.
  - left. now exists (str "b").
  - right. right. assert (es = [manifest_file lodash_text]) as -> by congruence. eexists. left. reflexivity.
  - right. right. assert (es = [manifest_file text_text]) as -> by congruence. eexists. left. reflexivity.
  - right. right. assert (es = [(str "index.html", DFile (Some (str "<html>"))); manifest_file wind_text]) as -> by congruence. eexists. right. left. reflexivity.
Qed.
(** An older text shines through a null: a package is listed although the last keywords it gives
    are [null]. *)
Theorem C106_null_refuted : exists t p ms, decode_package 100 t = Some p /\ In (str "signalk-webapp") (pk_keywords p) /\
  lax_text 100 t (GObj ms) /\ exists ms', ms = ms' ++ [(str "keywords", GArr [GNull])].
Proof.
  set (t := str "{""keywords"":[""signalk-webapp""],""keywords"":[null]}").
  exists t, (mkpkg [] [] [] [str "signalk-webapp"]), [(str "keywords", GArr [GStr (str "signalk-webapp")]); (str "keywords", GArr [GNull])].
  split; [vm_compute; reflexivity|]. split; [now left|]. split; [|eexists [_]; reflexivity].
  apply read_text_exact; [|vm_compute; reflexivity]. assert (disk_ok (DFile (Some t))) as O by (apply ok_text; reflexivity). inversion O as [|? H|]; subst. now apply H.
Qed.
