(** XmlDecode: what the reader stores is what the mapping file says. *)
From Coq Require Import ZArith Lia ZifyBool.
From Verif Require Import GoBase BufFacts Strconv NmeaTypes NmeaModel NmeaSpec SignalkModel SignalkSpec SignalkText JsonSpec JsonModel JsonFacts JsonUnique UnjsonModel UnjsonSpec UnjsonLex XmlModel XmlSpec XmlLex XmlParse XmlTree.
Open Scope Z_scope.
Open Scope list_scope.

(* ------------------------------------------------------------------ white space, numbers *)

Lemma uni_space_iff c : uni_space c = true <-> white c.
Proof. unfold uni_space, white. cbn [In]. lia. Qed.
Lemma drop_space_split cs : exists w, cs = w ++ drop_space cs /\ Forall white w.
Proof.
  induction cs as [|c cs (w & E & F)]; [exists []; auto|]. cbn [drop_space]. destruct (uni_space c) eqn:U.
  - exists (c :: w). split; [cbn [app]; congruence|]. constructor; [now apply uni_space_iff|exact F].
  - exists []. auto.
Qed.
Lemma drop_space_app w m : Forall white w -> (forall c r, m = c :: r -> ~ white c) -> drop_space (w ++ m) = m.
Proof.
  intros F N. induction F as [|c w W F IH]; cbn [app].
  - destruct m as [|c r]; [reflexivity|]. cbn [drop_space]. destruct (uni_space c) eqn:U; [|reflexivity]. elim (N c r eq_refl). now apply uni_space_iff.
  - cbn [drop_space]. now rewrite (proj2 (uni_space_iff c) W).
Qed.
Lemma utf8_text_cat a ca b cb : utf8_text a ca -> utf8_text b cb -> utf8_text (a ++ b) (ca ++ cb).
Proof. intros A B. induction A as [|c enc r cs U _ IH]; [exact B|]. rewrite <- app_assoc. cbn [app]. now constructor. Qed.
Lemma utf8_ascii d : Forall (fun c => 0 <= c < 128) d -> utf8_text d d.
Proof. induction 1 as [|c d C _ IH]; [constructor|]. apply (ut_char c [c] d d); [|exact IH]. constructor. exact C. Qed.
Lemma utf8_text_cut cs1 : forall cs2 t, utf8_text t (cs1 ++ cs2) -> exists a b, t = a ++ b /\ utf8_text a cs1 /\ utf8_text b cs2.
Proof.
  induction cs1 as [|c cs1 IH]; intros cs2 t H; [exists [], t; split; [reflexivity|]; split; [constructor|exact H]|]. cbn [app] in H. inversion H as [|? enc r ? U T]; subst.
  destruct (IH _ _ T) as (a & b & -> & A & B). exists (enc ++ a), b. split; [now rewrite app_assoc|]. split; [now constructor|exact B].
Qed.
Lemma trim_split t : bytes_ok t -> exists a b, t = a ++ trim_space t ++ b /\ white_text a /\ white_text b.
Proof.
  intros OK. unfold trim_space. destruct (runes (S (List.length t)) t) as [cs|] eqn:R.
  - apply runes_sound in R; [|exact OK]. destruct (drop_space_split cs) as (w1 & E1 & F1). destruct (drop_space_split (rev (drop_space cs))) as (w2 & E2 & F2).
    set (m := drop_space (rev (drop_space cs))) in *. assert (drop_space cs = rev m ++ rev w2) as E3 by (rewrite <- (rev_involutive (drop_space cs)), E2; apply rev_app_distr).
    rewrite E1, E3 in R. apply utf8_text_cut in R as (a & q & -> & A & Q). apply utf8_text_cut in Q as (d & b & -> & D & B). exists a, b.
    rewrite <- (utf8_text_flat _ _ D). split; [reflexivity|]. split; [exists w1; auto|]. exists (rev w2). split; [exact B|]. now apply Forall_rev.
  - exists [], []. cbn [app]. rewrite app_nil_r. split; [reflexivity|]. split; exists []; split; constructor.
Qed.
Lemma trim_unique a d b : white_text a -> white_text b -> Forall (fun c => 33 <= c < 127) d -> d <> [] -> trim_space (a ++ d ++ b) = d.
Proof.
  intros (ca & A & FA) (cb & B & FB) D N. unfold trim_space. assert (utf8_text d d) as UD by (apply utf8_ascii; eapply Forall_impl; [|exact D]; cbv beta; lia).
  rewrite (runes_complete _ (ca ++ d ++ cb)); [|apply utf8_text_cat; [exact A|now apply utf8_text_cat]|lia].
  assert (forall c r x y, d = x ++ c :: r ++ y -> ~ white c) as NW.
  { intros c r x y E. assert (33 <= c < 127) as C. { rewrite Forall_forall in D. apply D. rewrite E. apply in_elt. } unfold white. cbn [In]. lia. }
  rewrite (drop_space_app ca (d ++ cb) FA).
  2:{ intros c r E. destruct d as [|x d]; [contradiction|]. cbn [app] in E. apply (NW c [] [] d). cbn [app]. congruence. }
  rewrite rev_app_distr, (drop_space_app (rev cb) (rev d)); [|now apply Forall_rev|].
  - rewrite rev_involutive. symmetry. now apply utf8_text_flat.
  - intros c r E. apply (f_equal (@rev Z)) in E. rewrite rev_involutive in E. cbn [rev] in E. apply (NW c [] (rev r) []). cbn [app]. exact E.
Qed.
Lemma decimal_plain s v : decimal s v -> s <> [] /\ Forall (fun c => 33 <= c < 127) s.
Proof. intros (N & F & _). split; [exact N|]. eapply Forall_impl; [|exact F]. cbv beta. lia. Qed.
Lemma int_text_plain s v : int_text s v -> s <> [] /\ Forall (fun c => 33 <= c < 127) s.
Proof.
  intros [D|[(r & -> & D)|(r & -> & D)]]; [exact (decimal_plain _ _ D)| |]; (split; [discriminate|]); (constructor; [lia|exact (proj2 (decimal_plain _ _ D))]).
Qed.
Lemma copy_int_iff t n : bytes_ok t -> copy_int t = Some n <-> int_said t n.
Proof.
  intros OK. unfold copy_int, int_said. destruct t as [|c t].
  - split.
    + intros H. left. split; [reflexivity|congruence].
    + intros [[_ ->]|(a & d & b & E & _ & _ & I & _)]; [reflexivity|]. destruct (int_text_plain _ _ I) as [N _]. symmetry in E. apply app_eq_nil in E as [_ E]. apply app_eq_nil in E as [E _]. contradiction.
  - set (s := c :: t) in *. rewrite parse_int_iff by lia. change (64 - 1) with 63. split.
    + intros [I B]. right. destruct (trim_split s OK) as (a & b & E & A & W). exists a, (trim_space s), b. auto 6.
    + intros [[E _]|(a & d & b & E & A & W & I & B)]; [discriminate|]. rewrite E. destruct (int_text_plain _ _ I) as [N F]. rewrite trim_unique; auto.
Qed.
Lemma copy_uint_iff t n : bytes_ok t -> copy_uint32 t = Some n <-> pgn_said t n.
Proof.
  intros OK. unfold copy_uint32, pgn_said. destruct t as [|c t].
  - split.
    + intros H. left. split; [reflexivity|congruence].
    + intros [[_ ->]|(a & d & b & E & _ & _ & I & _)]; [reflexivity|]. destruct (decimal_plain _ _ I) as [N _]. symmetry in E. apply app_eq_nil in E as [_ E]. apply app_eq_nil in E as [E _]. contradiction.
  - set (s := c :: t) in *. assert (forall o, (match o with PUok m => Some m | _ => None end = Some n) <-> o = PUok n) as K by (intros [m| |m]; split; intros H; try discriminate; congruence).
    rewrite K, parse_uint_iff by lia. split.
    + intros [I B]. right. destruct (trim_split s OK) as (a & b & E & A & W). exists a, (trim_space s), b. auto 6.
    + intros [[E _]|(a & d & b & E & A & W & I & B)]; [discriminate|]. rewrite E. destruct (decimal_plain _ _ I) as [N F]. rewrite trim_unique; auto.
Qed.

(* ------------------------------------------------------------------ texts are bytes *)

Inductive tree_ok : xe -> Prop := TO n a t k : bytes_ok t -> Forall tree_ok k -> tree_ok (XE n a t k).
Lemma element_ok wide : (forall ds m x, element wide ds m x -> bytes_ok m -> tree_ok x) /\ (forall ds b t k, inner wide ds b t k -> bytes_ok b -> bytes_ok t /\ Forall tree_ok k).
Proof.
  apply element_inner_ind.
  - intros. constructor; constructor.
  - intros ds a b c q q' l t k r _ _ IH _ _ _ OK. apply bok_r, bok_l in OK. destruct (IH OK). now constructor.
  - intros ds s d (R & _) OK. split; [exact (run_ok _ _ _ _ R OK)|constructor].
  - intros ds s d m b t k (R & _) _ _ IH OK. pose proof (run_ok _ _ _ _ R (bok_l _ _ OK)). apply bok_r, bok_r in OK. destruct (IH OK). split; [now apply Forall_app|assumption].
  - intros ds s d m d' b t k (R & _) C _ IH OK. pose proof (run_ok _ _ _ _ R (bok_l _ _ OK)). destruct C as (w & -> & _ & R' & _). pose proof (run_ok _ _ _ _ R' (bok_l _ _ (bok_r _ _ (bok_l _ _ (bok_r _ _ OK))))).
    apply bok_r, bok_r in OK. destruct (IH OK). split; [apply Forall_app; split; [assumption|now apply Forall_app]|assumption].
  - intros ds s d m x b t k (R & _) _ IHE _ IH OK. pose proof (run_ok _ _ _ _ R (bok_l _ _ OK)). pose proof (IHE (bok_l _ _ (bok_r _ _ OK))). apply bok_r, bok_r in OK. destruct (IH OK).
    split; [now apply Forall_app|now constructor].
Qed.
Lemma document_ok wide s x : bytes_ok s -> xml_document wide s x -> tree_ok x.
Proof. intros OK (p & e & r & -> & _ & E). exact (proj1 (element_ok wide) _ _ _ E (bok_l _ _ (bok_r _ _ OK))). Qed.
Lemma tree_kids x : tree_ok x -> Forall tree_ok (x_kids x).
Proof. now destruct 1. Qed.
Lemma tree_text x : tree_ok x -> bytes_ok (x_text x).
Proof. now destruct 1. Qed.

(* ------------------------------------------------------------------ children *)

Lemma store_snoc {A} (put : xe -> A -> option A) ks k : forall x, store_all put (ks ++ [k]) x = match store_all put ks x with Some y => put k y | None => None end.
Proof. induction ks as [|h ks IH]; intros x; cbn [app store_all]; [now destruct (put k x)|]. destruct (put h x); [apply IH|reflexivity]. Qed.
Lemma store_step {A} (put : xe -> A -> option A) ks k (x : A) (G : A -> Prop) : (forall y, store_all put ks x = Some y <-> G y) ->
  forall o, store_all put (ks ++ [k]) x = Some o <-> exists y, G y /\ put k y = Some o.
Proof.
  intros H o. rewrite store_snoc. destruct (store_all put ks x) as [y|] eqn:S.
  - split; [intros P; exists y; split; [now apply H|exact P]|]. intros (z & Z1 & Z2). apply H in Z1. injection Z1 as <-. exact Z2.
  - split; [discriminate|]. intros (z & Z1 & _). apply H in Z1. discriminate.
Qed.
Lemma called_snoc n ks k : called n (ks ++ [k]) = called n ks ++ (if named n k then [k] else []).
Proof. unfold called, named. rewrite filter_app. cbn [filter]. reflexivity. Qed.
Lemma called_in n ks k : In k (called n ks) -> In k ks.
Proof. intros I. now apply filter_In in I. Qed.
Lemma last_cases {A} (l : list A) : l = [] \/ exists a k, l = a ++ [k].
Proof. destruct l as [|x l]; [now left|right]. destruct (exists_last (l := x :: l)) as (a & k & E); [discriminate|]. eauto. Qed.
Lemma last_text_total n ks : exists t, last_text n ks t.
Proof. unfold last_text. destruct (last_cases (called n ks)) as [E|(a & k & E)]; rewrite E; eauto 6. Qed.
Lemma last_text_snoc n ks k t : last_text n (ks ++ [k]) t <-> (if named n k then t = x_text k else last_text n ks t).
Proof.
  unfold last_text. rewrite called_snoc. destruct (named n k).
  - split; [|intros ->; left; eauto]. intros [(a & k' & E & ->)|(E & _)]; [apply app_inj_tail in E as [_ ->]; reflexivity|now destruct (called n ks)].
  - now rewrite app_nil_r.
Qed.
Lemma last_number_snoc said n ks k v : last_number said n (ks ++ [k]) v <-> (if named n k then (exists w, last_number said n ks w) /\ said (x_text k) v else last_number said n ks v).
Proof.
  unfold last_number. rewrite called_snoc. destruct (named n k); [|now rewrite app_nil_r]. split.
  - intros [A [(a & k' & E & S)|(E & _)]]; [|now destruct (called n ks)]. apply app_inj_tail in E as [_ ->]. split; [|exact S].
    assert (forall k, In k (called n ks) -> exists w, said (x_text k) w) as A' by (intros x I; apply A, in_or_app; now left).
    destruct (last_cases (called n ks)) as [E|(a' & k1 & E)]; [exists 0; split; [exact A'|right; auto]|]. destruct (A' k1) as [w W]; [rewrite E; apply in_elt|]. exists w. split; [exact A'|]. left. eauto.
  - intros [(w & A & _) S]. split; [|left; eauto]. intros x I. apply in_app_or in I as [I|[<-|[]]]; eauto.
Qed.
Lemma forall2_snoc {B} (P : xe -> B -> Prop) n ks k l : Forall2 P (called n (ks ++ [k])) l <->
  (if named n k then exists l' y, l = l' ++ [y] /\ Forall2 P (called n ks) l' /\ P k y else Forall2 P (called n ks) l).
Proof.
  rewrite called_snoc. destruct (named n k); [|now rewrite app_nil_r]. split.
  - intros F. apply Forall2_app_inv_l in F as (l1 & l2 & F1 & F2 & ->). inversion F2 as [|? y ? ? P1 F3]; subst. inversion F3; subst. exists l1, y. auto.
  - intros (l' & y & -> & F & P1). apply Forall2_app; [exact F|]. constructor; [exact P1|constructor].
Qed.
Lemma type_attr_iff l : forall v0 v, last_type l v0 v <-> v = type_attr l v0.
Proof.
  intros v0. unfold last_type, type_attr. induction l as [|[n w] l IH] using rev_ind; intros v.
  - cbn [fold_left map In]. split; [intros [(a & b & E & _)|[_ ->]]; [now destruct a|reflexivity]|right; auto].
  - rewrite fold_left_app. cbn [fold_left fst snd]. destruct (bytes_eqb n (str "type")) eqn:E.
    + apply bytes_eqb_eq in E. subst n. split.
      * intros [(a & b & E & N)|[N _]].
        -- destruct (last_cases b) as [->|(b' & k & ->)]; [apply app_inj_tail in E as [_ E]; congruence|].
           exfalso. rewrite app_comm_cons, app_assoc in E. apply app_inj_tail in E as [_ <-]. apply N. rewrite map_app. apply in_or_app. right. now left.
        -- exfalso. apply N. rewrite map_app. apply in_or_app. right. now left.
      * intros ->. left. exists l, []. split; [reflexivity|intros []].
    + assert (n <> str "type") as NN by (intros ->; now rewrite (proj2 (bytes_eqb_eq _ _) eq_refl) in E). rewrite <- IH. split.
      * intros [(a & b & E2 & N)|[N ->]].
        -- destruct (last_cases b) as [->|(b' & k & ->)]; [apply app_inj_tail in E2 as [_ E2]; congruence|].
           rewrite app_comm_cons, app_assoc in E2. apply app_inj_tail in E2 as [-> _]. left. exists a, b'. split; [reflexivity|]. intros I. apply N. rewrite map_app. apply in_or_app. now left.
        -- right. split; [|reflexivity]. intros I. apply N. rewrite map_app. apply in_or_app. now left.
      * intros [(a & b & -> & N)|[N ->]]; [left; exists a, (b ++ [(n, w)]); split; [now rewrite <- app_assoc|]|right; split; [|reflexivity]];
          rewrite map_app; intros I; apply in_app_or in I as [I|[I|[]]]; auto.
Qed.
Lemma type_attr_app a b v : type_attr (a ++ b) v = type_attr b (type_attr a v).
Proof. apply fold_left_app. Qed.

(** A child has one name. *)
Lemma named_eq n k : named n k = true -> x_name k = n.
Proof. apply bytes_eqb_eq. Qed.
Ltac one_name k := repeat match goal with
  | N : named ?n k = true |- context [named ?m k] => let H := fresh in assert (named m k = false) as H by (unfold named; rewrite (named_eq _ _ N); reflexivity); rewrite !H; clear H
  | N : named ?n k = true |- context [named ?n k] => rewrite !N
  | N : named ?n k = false |- context [named ?n k] => rewrite !N
  end.

(* ------------------------------------------------------------------ the types *)

Lemma condition_iff ks : Forall tree_ok ks -> forall c, store_all put_condition ks (mkcond [] 0 []) = Some c <->
  last_text (str "op") ks (c_op c) /\ last_number int_said (str "field") ks (c_field c) /\ last_text (str "value") ks (c_value c).
Proof.
  induction ks as [|k ks IH] using rev_ind; intros OK c.
  - cbn [store_all]. split.
    + intros H. injection H as <-. cbn [c_op c_field c_value]. split; [right; auto|]. split; [|right; auto]. split; [intros ? []|right; auto].
    + intros ([(a & k & E & _)|[_ E1]] & (_ & [(a2 & k2 & E2 & _)|[_ E2]]) & [(a' & k' & E' & _)|[_ E3]]); try (now destruct a); try (now destruct a2); try (now destruct a'). destruct c; cbn in *; congruence.
  - apply Forall_app in OK as [OK K]. inversion K as [|? ? TK _]; subst. specialize (IH OK). rewrite last_text_snoc, last_number_snoc, last_text_snoc.
    rewrite (store_step _ _ _ _ _ IH). unfold put_condition. destruct c as [o fi va]. cbn [c_op c_field c_value].
    destruct (named (str "op") k) eqn:N1; [|destruct (named (str "field") k) eqn:N2; [|destruct (named (str "value") k) eqn:N3]]; one_name k.
    + split.
      * intros ([o' f' v'] & (A & B & C) & E). injection E as <- <- <-. auto.
      * intros (-> & B & C). destruct (last_text_total (str "op") ks) as [t T]. exists (mkcond t fi va). auto.
    + split.
      * intros ([o' f' v'] & (A & B & C) & E). cbn [c_op c_field c_value] in *. destruct (copy_int (x_text k)) as [n|] eqn:CI; [|discriminate]. injection E as <- <- <-.
        split; [exact A|]. split; [|exact C]. split; [eauto|]. now apply copy_int_iff; [apply tree_text|].
      * intros (A & ([w W] & S) & C). exists (mkcond o w va). split; [auto|]. apply copy_int_iff in S; [|now apply tree_text]. now rewrite S.
    + split.
      * intros ([o' f' v'] & (A & B & C) & E). injection E as <- <- <-. auto.
      * intros (A & B & ->). destruct (last_text_total (str "value") ks) as [t T]. exists (mkcond o fi t). auto.
    + split.
      * intros ([o' f' v'] & (A & B & C) & E). injection E as <- <- <-. auto.
      * intros (A & B & C). exists (mkcond o fi va). auto.
Qed.

Definition kept (n : bytes) (ks : list xe) (v : bytes) : bytes := fold_left (fun v k => if named n k then x_text k else v) ks v.
Lemma kept_iff n ks : forall t, last_text n ks t <-> t = kept n ks [].
Proof.
  induction ks as [|k ks IH] using rev_ind; intros t.
  - cbn. split; [intros [(a & k & E & _)|[_ ->]]; [now destruct a|reflexivity]|intros ->; right; auto].
  - rewrite last_text_snoc. unfold kept. rewrite fold_left_app. cbn [fold_left]. destruct (named n k); [reflexivity|apply IH].
Qed.
Lemma kept_app n a b v : kept n (a ++ b) v = kept n b (kept n a v).
Proof. apply fold_left_app. Qed.
Lemma idfield_store ks : forall i, store_all put_idfield ks i = Some (mkidf (kept (str "id") ks (i_id i)) (kept (str "field") ks (i_field i))).
Proof.
  induction ks as [|k ks IH]; intros i; [now destruct i|]. cbn [store_all]. unfold kept. cbn [fold_left]. unfold put_idfield. destruct (named (str "id") k) eqn:N1; [|destruct (named (str "field") k) eqn:N2]; one_name k; rewrite IH; reflexivity.
Qed.
Lemma idfield_iff ks i : idfield_says ks i <-> i = mkidf (kept (str "id") ks []) (kept (str "field") ks []).
Proof. unfold idfield_says. rewrite !kept_iff. destruct i as [a b]. cbn [i_id i_field]. split; [intros [-> ->]; reflexivity|intros E; injection E as -> ->; auto]. Qed.
Lemma called_app n a b : called n (a ++ b) = called n a ++ called n b.
Proof. apply filter_app. Qed.
Lemma idfield_more ks k j : idfield_says (ks ++ k) j <-> exists i, idfield_says ks i /\ store_all put_idfield k i = Some j.
Proof.
  rewrite idfield_iff, !kept_app. split.
  - intros ->. eexists. split; [now apply idfield_iff|]. now rewrite idfield_store.
  - intros (i & I & S). apply idfield_iff in I. subst i. rewrite idfield_store in S. cbn [i_id i_field] in S. congruence.
Qed.
Lemma fieldset_iff ks : Forall tree_ok ks -> forall x f, store_all put_fieldset ks x = Some f <->
  fs_type f = fs_type x /\ exists l, fs_fields f = fs_fields x ++ l /\ Forall2 field_says (called (str "field") ks) l.
Proof.
  intros OK x. induction ks as [|k ks IH] using rev_ind; intros f.
  - cbn [store_all called filter]. destruct x as [t l], f as [t' l']. cbn [fs_type fs_fields]. split.
    + intros E. injection E as -> ->. split; [reflexivity|]. exists []. split; [now rewrite app_nil_r|constructor].
    + intros (-> & l0 & -> & F). inversion F; subst. now rewrite app_nil_r.
  - apply Forall_app in OK as [OK K]. inversion K as [|? ? TK _]; subst. specialize (IH OK). rewrite (store_step _ _ _ _ _ IH). setoid_rewrite forall2_snoc. unfold put_fieldset.
    destruct (named (str "field") k) eqn:N1.
    + split.
      * intros (y & (A & l & B & F) & E). destruct (copy_int (x_text k)) as [n|] eqn:CI; [|discriminate]. injection E as <-. cbn [fs_type fs_fields]. split; [exact A|].
        exists (l ++ [(type_attr (x_attrs k) [], n)]). split; [rewrite B; now rewrite app_assoc|]. exists l, (type_attr (x_attrs k) [], n). split; [reflexivity|]. split; [exact F|].
        split; [now apply type_attr_iff|]. now apply copy_int_iff; [apply tree_text|].
      * intros (A & l & B & l' & [ty n] & -> & F & [T I]). exists (mkfs (fs_type f) (fs_fields x ++ l')). split; [split; [exact A|]; exists l'; auto|].
        cbn [fst snd] in *. apply copy_int_iff in I; [|now apply tree_text]. rewrite I. apply type_attr_iff in T. cbn [fs_type fs_fields]. rewrite <- T, <- app_assoc, <- B. now destruct f.
    + split; [intros (y & Y & E); injection E as ->; exact Y|intros Y; exists f; auto].
Qed.
Lemma fieldset_more kss k f : tree_ok k -> fieldset_says (kss ++ [k]) f <->
  exists f', fieldset_says kss f' /\ store_all put_fieldset (x_kids k) (mkfs (type_attr (x_attrs k) (fs_type f')) (fs_fields f')) = Some f.
Proof.
  intros TK. unfold fieldset_says, attrs_of, content_of. rewrite !flat_map_app, called_app, type_attr_iff, type_attr_app. cbn [flat_map]. rewrite !app_nil_r. setoid_rewrite type_attr_iff. setoid_rewrite (fieldset_iff _ (tree_kids _ TK)).
  cbn [fs_type fs_fields]. split.
  - intros [T F]. apply Forall2_app_inv_l in F as (l1 & l2 & F1 & F2 & E). exists (mkfs (type_attr (flat_map x_attrs kss) []) l1). cbn [fs_type fs_fields]. eauto 7.
  - intros (f' & (T & F) & T' & l & E & F'). split; [congruence|]. rewrite E. now apply Forall2_app.
Qed.
Lemma last_number_nil said n v : last_number said n [] v <-> v = 0.
Proof. unfold last_number. cbn [called filter In]. split; [intros [_ [(a & k & E & _)|[_ ->]]]; [now destruct a|reflexivity]|intros ->; split; [intros ? []|right; auto]]. Qed.
Definition group_said (ks : list xe) (g : group) : Prop :=
  last_number pgn_said (str "pgn") ks (g_pgn g) /\ fieldset_says (called (str "fieldset") ks) (g_fieldset g) /\
  last_text (str "field") ks (g_field g) /\ idfield_says (content_of (called (str "multiplier") ks)) (g_mult g) /\
  idfield_says (content_of (called (str "classifier") ks)) (g_class g) /\ Forall2 condition_says (called (str "condition") ks) (g_conds g).
Lemma content_snoc a k : content_of (a ++ [k]) = content_of a ++ x_kids k.
Proof. unfold content_of. rewrite flat_map_app. cbn [flat_map]. now rewrite app_nil_r. Qed.
Lemma group_iff ks : Forall tree_ok ks -> forall g, store_all put_group ks no_group = Some g <-> group_said ks g.
Proof.
  induction ks as [|k ks IH] using rev_ind; intros OK g.
  - cbn [store_all]. unfold group_said. rewrite last_number_nil. cbn [called filter]. unfold fieldset_says, content_of, attrs_of. cbn [flat_map]. rewrite !idfield_iff, !kept_iff, type_attr_iff. cbn [called filter kept fold_left type_attr].
    destruct g as [pg [ty fl] fi mu cl co]. cbn [g_pgn g_fieldset g_field g_mult g_class g_conds fs_type fs_fields]. unfold no_group. split.
    + intros E. injection E as <- <- <- <- <- <- <-. repeat split; constructor.
    + intros (-> & (-> & F) & -> & -> & -> & F2). inversion F; inversion F2; reflexivity.
  - apply Forall_app in OK as [OK K]. inversion K as [|? ? TK _]; subst. specialize (IH OK). rewrite (store_step _ _ _ _ _ IH). clear IH. unfold group_said.
    destruct g as [pg fs fi mu cl co]. cbn [g_pgn g_fieldset g_field g_mult g_class g_conds]. rewrite last_number_snoc, last_text_snoc, forall2_snoc, !called_snoc. unfold put_group.
    destruct (named (str "pgn") k) eqn:N1; [|destruct (named (str "fieldset") k) eqn:N2; [|destruct (named (str "field") k) eqn:N3; [|destruct (named (str "multiplier") k) eqn:N4; [|destruct (named (str "classifier") k) eqn:N5; [|destruct (named (str "condition") k) eqn:N6]]]]]; one_name k; rewrite ?app_nil_r.
    + split.
      * intros (y & (A & B) & E). destruct (copy_uint32 (x_text k)) as [n|] eqn:C; [|discriminate]. injection E as <- <- <- <- <- <-. split; [|exact B]. split; [eauto|]. apply copy_uint_iff; [now apply tree_text|exact C].
      * intros ([[w W] S] & B). exists (mkgroup w fs fi mu cl co). split; [split; [exact W|exact B]|]. apply copy_uint_iff in S; [|now apply tree_text]. now rewrite S.
    + rewrite (fieldset_more _ _ _ TK). split.
      * intros (y & (A & B & C) & E). destruct (store_all put_fieldset _ _) as [f|] eqn:S; [|discriminate]. injection E as <- <- <- <- <- <-. split; [exact A|]. split; [eauto|exact C].
      * intros (A & (f' & B & S) & C). exists (mkgroup pg f' fi mu cl co). split; [split; [exact A|split; [exact B|exact C]]|]. cbn [g_fieldset g_pgn g_field g_mult g_class g_conds]. now rewrite S.
    + split.
      * intros (y & (A & B & C & D) & E). injection E as <- <- <- <- <- <-. split; [exact A|]. split; [exact B|]. split; [reflexivity|exact D].
      * intros (A & B & -> & D). destruct (last_text_total (str "field") ks) as [t T]. exists (mkgroup pg fs t mu cl co). split; [|reflexivity]. split; [exact A|]. split; [exact B|]. split; [exact T|exact D].
    + rewrite content_snoc, idfield_more. split.
      * intros (y & (A & B & C & D & F) & E). destruct (store_all put_idfield _ _) as [f|] eqn:S; [|discriminate]. injection E as <- <- <- <- <- <-. split; [exact A|]. split; [exact B|]. split; [exact C|]. split; [eauto|exact F].
      * intros (A & B & C & (i & D & S) & F). exists (mkgroup pg fs fi i cl co). split; [split; [exact A|]; split; [exact B|]; split; [exact C|]; split; [exact D|exact F]|]. cbn [g_mult g_pgn g_fieldset g_field g_class g_conds]. now rewrite S.
    + rewrite content_snoc, idfield_more. split.
      * intros (y & (A & B & C & D & F & G) & E). destruct (store_all put_idfield _ _) as [f|] eqn:S; [|discriminate]. injection E as <- <- <- <- <- <-. split; [exact A|]. split; [exact B|]. split; [exact C|]. split; [exact D|]. split; [eauto|exact G].
      * intros (A & B & C & D & (i & F & S) & G). exists (mkgroup pg fs fi mu i co). split; [split; [exact A|]; split; [exact B|]; split; [exact C|]; split; [exact D|]; split; [exact F|exact G]|]. cbn [g_class g_mult g_pgn g_fieldset g_field g_conds]. now rewrite S.
    + split.
      * intros (y & (A & B & C & D & F & G) & E). destruct (store_all put_condition _ _) as [c|] eqn:S; [|discriminate]. injection E as <- <- <- <- <- <-. split; [exact A|]. split; [exact B|]. split; [exact C|]. split; [exact D|]. split; [exact F|].
        exists (g_conds y), c. split; [reflexivity|]. split; [exact G|]. now apply (condition_iff _ (tree_kids _ TK)).
      * intros (A & B & C & D & F & l & c & -> & G & S). exists (mkgroup pg fs fi mu cl l). split; [split; [exact A|]; split; [exact B|]; split; [exact C|]; split; [exact D|]; split; [exact F|exact G]|].
        apply (condition_iff _ (tree_kids _ TK)) in S. now rewrite S.
    + split; [intros (y & Y & E); injection E as ->; exact Y|intros Y; exists (mkgroup pg fs fi mu cl co); auto].
Qed.
Lemma mapping_iff ks : Forall tree_ok ks -> forall m, store_all put_mapping ks (mkmapping [] []) = Some m <->
  last_text (str "path") ks (m_path m) /\ Forall2 group_says (called (str "parameter_group") ks) (m_groups m).
Proof.
  induction ks as [|k ks IH] using rev_ind; intros OK m.
  - cbn [store_all called filter]. rewrite kept_iff. destruct m as [p l]. cbn [m_path m_groups kept fold_left]. split; [intros E; injection E as <- <-; repeat constructor|]. intros [-> F]. now inversion F.
  - apply Forall_app in OK as [OK K]. inversion K as [|? ? TK _]; subst. specialize (IH OK). rewrite (store_step _ _ _ _ _ IH). clear IH. rewrite last_text_snoc, forall2_snoc. unfold put_mapping. destruct m as [p l]. cbn [m_path m_groups].
    destruct (named (str "path") k) eqn:N1; [|destruct (named (str "parameter_group") k) eqn:N2]; one_name k.
    + split.
      * intros (y & (A & B) & E). injection E as <- <-. auto.
      * intros (-> & B). destruct (last_text_total (str "path") ks) as [t T]. exists (mkmapping t l). auto.
    + split.
      * intros (y & (A & B) & E). destruct (store_all put_group _ _) as [g|] eqn:S; [|discriminate]. injection E as <- <-. split; [exact A|]. exists (m_groups y), g. split; [reflexivity|]. split; [exact B|]. now apply (group_iff _ (tree_kids _ TK)).
      * intros (A & l' & g & -> & B & S). exists (mkmapping p l'). split; [split; [exact A|exact B]|]. apply (group_iff _ (tree_kids _ TK)) in S. now rewrite S.
    + split; [intros (y & Y & E); injection E as ->; exact Y|intros Y; exists (mkmapping p l); auto].
Qed.
Lemma mappings_iff ks : Forall tree_ok ks -> forall t, store_all put_mappings ks [] = Some t <-> Forall2 mapping_says (called (str "mapping") ks) t.
Proof.
  induction ks as [|k ks IH] using rev_ind; intros OK t.
  - cbn [store_all called filter]. split; [intros E; injection E as <-; constructor|]. intros F. now inversion F.
  - apply Forall_app in OK as [OK K]. inversion K as [|? ? TK _]; subst. specialize (IH OK). rewrite (store_step _ _ _ _ _ IH). clear IH. rewrite forall2_snoc. unfold put_mappings. destruct (named (str "mapping") k) eqn:N1.
    + split.
      * intros (y & A & E). destruct (store_all put_mapping _ _) as [m|] eqn:S; [|discriminate]. injection E as <-. exists y, m. split; [reflexivity|]. split; [exact A|]. now apply (mapping_iff _ (tree_kids _ TK)).
      * intros (l & m & -> & A & S). exists l. split; [exact A|]. apply (mapping_iff _ (tree_kids _ TK)) in S. now rewrite S.
    + split; [intros (y & Y & E); injection E as ->; exact Y|intros Y; exists t; auto].
Qed.
Theorem parse_mappings_iff wide data t : bytes_ok data -> (parse_mappings wide data = Some t <-> exists x, xml_document wide data x /\ mappings_say x t).
Proof.
  intros OK. unfold parse_mappings, mappings_say. split.
  - destruct (read_document wide data) as [x|] eqn:R; [|discriminate]. apply read_document_iff in R; [|exact OK]. destruct (named (str "mappings") x) eqn:N; [|discriminate]. intros S. exists x. split; [exact R|].
    split; [now apply named_eq|]. apply (mappings_iff _ (tree_kids _ (document_ok _ _ _ OK R))). exact S.
  - intros (x & D & N & F). pose proof (proj2 (read_document_iff wide data x OK) D) as R. rewrite R. unfold named. rewrite (proj2 (bytes_eqb_eq _ _) N). now apply (mappings_iff _ (tree_kids _ (document_ok _ _ _ OK D))).
Qed.
