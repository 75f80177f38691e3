(** XmlTree: the elements and documents read are those of XmlSpec. *)
From Coq Require Import ZArith Lia ZifyBool.
From Verif Require Import GoBase BufFacts Strconv NmeaTypes NmeaModel NmeaSpec SignalkModel SignalkSpec JsonSpec JsonModel JsonFacts JsonUnique UnjsonModel UnjsonSpec UnjsonLex XmlModel XmlSpec XmlLex XmlParse.
Open Scope Z_scope.
Open Scope list_scope.

Notation in_force := XmlSpec.in_force.

(* ------------------------------------------------------------------ name spaces *)

Definition env (ds : list (qname * bytes)) : scope := fold_left declare ds [].
Lemma env_app (ds l : list ((bytes * bytes) * bytes)) : fold_left declare l (env ds) = env (ds ++ l).
Proof. unfold env. now rewrite fold_left_app. Qed.
Lemma declare_get e a p :
  (exists u, declaration a p u /\ scope_get (declare e a) p = Some u) \/ ((forall u, ~ declaration a p u) /\ scope_get (declare e a) p = scope_get e p).
Proof.
  destruct a as [[sp lo] v]. unfold declare, declaration. cbn [fst snd]. destruct (bytes_eqb sp (str "xmlns")) eqn:E.
  - apply bytes_eqb_eq in E. subst sp. cbn [scope_get]. destruct (bytes_eqb lo p) eqn:P.
    + apply bytes_eqb_eq in P. subst lo. left. exists v. auto.
    + right. split; [|reflexivity]. intros u [_ [H|[H _]]]; [|discriminate H]. injection H as ->. rewrite (proj2 (bytes_eqb_eq p p) eq_refl) in P. discriminate.
  - assert (sp <> str "xmlns") as N by (intros ->; now rewrite (proj2 (bytes_eqb_eq _ _) eq_refl) in E). clear E. destruct sp as [|s0 sp].
    + destruct (bytes_eqb lo (str "xmlns")) eqn:E.
      * apply bytes_eqb_eq in E. subst lo. cbn [scope_get]. destruct p as [|p0 p].
        -- left. exists v. split; [|reflexivity]. split; [reflexivity|]. right. auto.
        -- right. split; [|reflexivity]. intros u [_ [H|[_ H]]]; discriminate H.
      * right. split; [|reflexivity]. intros u [_ [H|[H _]]]; [injection H as H _; discriminate H|]. injection H as ->. rewrite (proj2 (bytes_eqb_eq _ _) eq_refl) in E. discriminate.
    + right. split; [|reflexivity]. intros u [_ [H|[H _]]]; [apply (f_equal fst) in H; now apply N|discriminate H].
Qed.
Lemma declaration_fun a p u v : declaration a p u -> declaration a p v -> u = v.
Proof. intros [-> _] [-> _]. reflexivity. Qed.
Lemma env_get ds p : match scope_get (env ds) p with Some u => in_force ds p u | None => undeclared ds p end.
Proof.
  induction ds as [|a ds IH] using rev_ind; [intros a u []|]. rewrite <- env_app. cbn [fold_left]. destruct (declare_get (env ds) a p) as [(u & D & ->)|(N & ->)].
  - exists ds, a, []. split; [reflexivity|]. split; [exact D|]. intros b v [].
  - destruct (scope_get (env ds) p) as [u|].
    + destruct IH as (x & b & y & -> & D & NB). exists x, b, (y ++ [a]). split; [now rewrite <- app_assoc|]. split; [exact D|]. intros b' v I. apply in_app_or in I as [I|[<-|[]]]; [now apply NB|apply N].
    + intros b u I. apply in_app_or in I as [I|[<-|[]]]; [now apply IH|apply N].
Qed.
Lemma in_force_fun ds p u v : in_force ds p u -> in_force ds p v -> u = v.
Proof.
  revert u v. induction ds as [|d ds IH] using rev_ind; intros u v (x & a & y & E & D & N) (x' & a' & y' & E' & D' & N'); [now destruct x|].
  destruct y as [|b y] using rev_ind; [apply app_inj_tail in E as [-> ->]|clear IHy; rewrite app_comm_cons, app_assoc in E; apply app_inj_tail in E as [-> ->]];
  (destruct y' as [|b' y'] using rev_ind; [apply app_inj_tail in E' as [E1 E2]|clear IHy'; rewrite app_comm_cons, app_assoc in E'; apply app_inj_tail in E' as [E1 E2]]).
  - subst. exact (declaration_fun _ _ _ _ D D').
  - exfalso. subst. apply (N' b' u); [apply in_or_app; right; now left|exact D].
  - exfalso. subst. apply (N a' v); [apply in_or_app; right; now left|exact D'].
  - eapply IH; [exists x, a, y; split; [reflexivity|]; split; [exact D|intros c w I; apply N; apply in_or_app; now left]|].
    exists x', a', y'. split; [exact E1|]. split; [exact D'|]. intros c w I. apply N'. apply in_or_app. now left.
Qed.
Lemma in_force_declared ds p u : in_force ds p u -> ~ undeclared ds p.
Proof. intros (x & a & y & -> & D & _) U. apply (U a u); [apply in_elt|exact D]. Qed.
Lemma env_some ds p u : scope_get (env ds) p = Some u <-> in_force ds p u.
Proof.
  pose proof (env_get ds p) as G. destruct (scope_get (env ds) p) as [v|]; split; intros H; try discriminate.
  - injection H as ->. exact G.
  - f_equal. exact (in_force_fun _ _ _ _ G H).
  - elim (in_force_declared _ _ _ H G).
Qed.
Lemma env_none ds p : scope_get (env ds) p = None <-> undeclared ds p.
Proof.
  pose proof (env_get ds p) as G. destruct (scope_get (env ds) p) as [v|]; split; intros H; try discriminate; auto. elim (in_force_declared _ _ _ G H).
Qed.
Lemma translate_expands (ds : list ((bytes * bytes) * bytes)) (q : bytes * bytes) : expands ds q (translate (env ds) q).
Proof.
  destruct q as [sp lo]. unfold translate, expands, xml_url. destruct (bytes_eqb sp (str "xmlns")) eqn:E1.
  { apply bytes_eqb_eq in E1. subst. split; [reflexivity|]. left. split; [now left|reflexivity]. }
  assert (sp <> str "xmlns") as N1 by (intros ->; now rewrite (proj2 (bytes_eqb_eq _ _) eq_refl) in E1).
  destruct (bytes_eqb sp (str "xml")) eqn:E2.
  { apply bytes_eqb_eq in E2. subst. cbn [fst snd]. split; [reflexivity|]. right. split; [exact N1|]. split; [discriminate|].
    eexists. split; [left; split; reflexivity|]. pose proof (env_get ds (str "http://www.w3.org/XML/1998/namespace")) as G. destruct (scope_get (env ds) _); [now left|right; auto]. }
  assert (sp <> str "xml") as N2 by (intros ->; now rewrite (proj2 (bytes_eqb_eq _ _) eq_refl) in E2).
  destruct (match sp with [] => bytes_eqb lo (str "xmlns") | _ :: _ => false end) eqn:E3.
  { destruct sp; [|discriminate]. apply bytes_eqb_eq in E3. subst. split; [reflexivity|]. left. split; [now right|reflexivity]. }
  assert ((sp, lo) <> ([], str "xmlns")) as N3. { intros H. injection H as -> ->. rewrite (proj2 (bytes_eqb_eq _ _) eq_refl) in E3. discriminate. }
  pose proof (env_get ds sp) as G. destruct (scope_get (env ds) sp) as [v|]; cbn [fst snd]; (split; [reflexivity|]); right; (split; [exact N1|]); (split; [exact N3|]); exists sp; (split; [right; auto|]); [now left|right; auto].
Qed.
Lemma expands_fun ds q r r' : expands ds q r -> expands ds q r' -> r = r'.
Proof.
  intros [S H] [S' H']. destruct H as [[A ->]|(N1 & N2 & p & P & F)], H' as [[A' ->]|(N1' & N2' & p' & P' & F')]; [reflexivity|tauto|tauto|].
  assert (p = p') as -> by (destruct P as [[? ->]|[? ->]], P' as [[? ->]|[? ->]]; congruence).
  destruct r as [a b], r' as [a' b']. cbn [fst snd] in *. f_equal; [|congruence].
  destruct F as [F|[U ->]], F' as [F'|[U' ->]]; [exact (in_force_fun _ _ _ _ F F')|elim (in_force_declared _ _ _ F U')|elim (in_force_declared _ _ _ F' U)|reflexivity].
Qed.
Lemma qname_eqb_eq a b : qname_eqb a b = true <-> a = b.
Proof.
  unfold qname_eqb. rewrite andb_true_iff, !bytes_eqb_eq. destruct a, b. cbn [fst snd]. split; [intros [-> ->]; reflexivity|intros H; now injection H as -> ->].
Qed.

(* ------------------------------------------------------------------ leading text *)

Lemma run_nil cd st t : run cd st [] t -> t = [].
Proof. intros H. inversion H as [| | | |s u r t' _ R _ E]; [reflexivity|]. destruct (reference_app _ _ [] R) as (v & -> & _). discriminate. Qed.
Lemma chunk_nil d : chunk [] d -> d = [].
Proof. intros (R & _). exact (run_nil _ _ _ R). Qed.
Lemma chunk_empty : chunk [] [].
Proof. split; [constructor|]. split; [exists []; split; constructor|]. intros (a & b & E). destruct a; discriminate. Qed.
Lemma chunk_open s d : chunk (60 :: s) d -> False.
Proof. intros (R & _). inversion R as [|? ? ? N| | |u v r t' _ RT _ E]; [now apply N|]. destruct (reference_app _ _ [] RT) as (w & -> & _). discriminate. Qed.
Definition opens (s : bytes) : Prop := s = [] \/ exists t, s = 60 :: t.
Lemma opens_app a b : opens (a ++ b) -> opens a.
Proof. intros [E|[t E]]; (destruct a as [|c a]; [now left|]); cbn [app] in E; [discriminate|]. right. exists a. congruence. Qed.
Lemma chunk_opens s d r : chunk s d -> opens (s ++ r) -> s = [] /\ d = [].
Proof. intros C O. apply opens_app in O as [->|[t ->]]; [split; [reflexivity|exact (chunk_nil _ C)]|elim (chunk_open _ _ C)]. Qed.
Lemma inner_lead wide ds u d b t k : chunk u d -> inner wide ds b t k -> opens b -> inner wide ds (u ++ b) (d ++ t) k.
Proof.
  intros C I O. inversion I as [ds' s d' CS|ds' s d' m r t' k' CS S IR|ds' s d' m e r t' k' CS S IR|ds' s d' m x r t' k' CS S IR]; subst.
  - rewrite <- (app_nil_r b) in O. destruct (chunk_opens _ _ _ CS O) as [-> ->]. rewrite !app_nil_r. now constructor.
  - destruct (chunk_opens _ _ _ CS O) as [-> ->]. cbn [app]. now apply in_silent.
  - destruct (chunk_opens _ _ _ CS O) as [-> ->]. cbn [app]. now apply in_cdata.
  - destruct (chunk_opens _ _ _ CS O) as [-> ->]. cbn [app]. now apply in_element.
Qed.
Lemma prolog_lead wide u d b : chunk u d -> prolog wide b -> opens b -> prolog wide (u ++ b).
Proof.
  intros C I O. inversion I as [s d' CS|s d' m r CS S IR|s d' m e r CS S IR]; subst.
  - rewrite <- (app_nil_r b) in O. destruct (chunk_opens _ _ _ CS O) as [-> ->]. rewrite !app_nil_r. now apply pr_chunk with d.
  - destruct (chunk_opens _ _ _ CS O) as [-> ->]. cbn [app]. now apply pr_silent with d.
  - destruct (chunk_opens _ _ _ CS O) as [-> ->]. cbn [app]. now apply pr_cdata with d e.
Qed.

(* ------------------------------------------------------------------ reading elements: sound *)

Lemma content_sound wide f : forall ds s t k n r, bytes_ok s -> content wide f (env ds) s = Some (t, k, n, r) ->
  exists b c, s = b ++ c ++ r /\ inner wide ds b t k /\ end_tag wide c n.
Proof.
  induction f as [|f IH]; intros ds s t k n r OK H; [discriminate|]. cbn [content] in H. destruct (raw_token wide s) as [[tk q]|] eqn:R; [|discriminate].
  destruct (raw_token_sound wide s tk q OK R) as (u & -> & NE & T). pose proof (bok_r _ _ OK) as OKq. destruct tk as [d| |m l b|m].
  - destruct (content wide f (env ds) q) as [[[[t' k'] n'] r']|] eqn:C; [|discriminate]. injection H as <- <- <- <-. destruct (IH _ _ _ _ _ _ OKq C) as (b & c & -> & I & ET).
    exists (u ++ b), c. split; [now rewrite <- app_assoc|]. split; [|exact ET]. inversion T as [s d' r0 _ CH O| s d' r0 CD| | |]; subst.
    + apply inner_lead; auto. exact (opens_app _ _ O).
    + apply (in_cdata wide ds [] [] u d b t' k' chunk_empty CD I).
  - destruct (IH _ _ _ _ _ _ OKq H) as (b & c & -> & I & ET). exists (u ++ b), c. split; [now rewrite <- app_assoc|]. split; [|exact ET]. inversion T; subst.
    exact (in_silent wide ds [] [] u b t k chunk_empty H0 I).
  - cbv zeta in H. rewrite env_app in H. inversion T as [| | |s r0 q0 l0 b0 ST|]; subst. destruct b.
    + destruct (content wide f (env ds) q) as [[[[t' k'] n'] r']|] eqn:C; [|discriminate]. injection H as <- <- <- <-. destruct (IH _ _ _ _ _ _ OKq C) as (b & c & -> & I & ET).
      exists (u ++ b), c. split; [now rewrite <- app_assoc|]. split; [|exact ET]. exact (in_element wide ds [] [] u _ b t' k' chunk_empty (el_empty wide ds u m l ST) I).
    + destruct (content wide f (env (ds ++ l)) q) as [[[[t1 k1] n1] r1]|] eqn:C1; [|discriminate]. destruct (IH _ _ _ _ _ _ OKq C1) as (b1 & c1 & -> & I1 & ET1).
      destruct (qname_eqb _ _) eqn:QE; [|discriminate]. apply qname_eqb_eq in QE. apply bok_r, bok_r in OKq.
      destruct (content wide f (env ds) r1) as [[[[t' k'] n'] r']|] eqn:C; [|discriminate]. injection H as <- <- <- <-. destruct (IH _ _ _ _ _ _ OKq C) as (b & c & -> & I & ET).
      exists ((u ++ b1 ++ c1) ++ b), c. split; [now rewrite <- !app_assoc|]. split; [|exact ET].
      refine (in_element wide ds [] [] _ _ b t' k' chunk_empty _ I). apply (el_full wide ds u b1 c1 m n1 l t1 k1 (translate (env (ds ++ l)) m)); auto; [apply translate_expands|rewrite QE; apply translate_expands].
  - injection H as <- <- <- <-. exists [], u. split; [reflexivity|]. split; [constructor; apply chunk_empty|]. now inversion T.
Qed.
Lemma document_sound wide f : forall s x, bytes_ok s -> document wide f s = Some x -> xml_document wide s x.
Proof.
  induction f as [|f IH]; intros s x OK H; [discriminate|]. cbn [document] in H. destruct (raw_token wide s) as [[tk q]|] eqn:R; [|discriminate].
  destruct (raw_token_sound wide s tk q OK R) as (u & -> & NE & T). pose proof (bok_r _ _ OK) as OKq. destruct tk as [d| |m l b|m]; [| | |discriminate].
  - destruct (IH _ _ OKq H) as (p & e & r & -> & P & E). exists (u ++ p), e, r. split; [now rewrite <- app_assoc|]. split; [|exact E]. inversion T as [s d' r0 _ CH O| s d' r0 CD| | |]; subst.
    + eapply prolog_lead; eauto. exact (opens_app _ _ O).
    + exact (pr_cdata wide [] [] u d p chunk_empty CD P).
  - destruct (IH _ _ OKq H) as (p & e & r & -> & P & E). exists (u ++ p), e, r. split; [now rewrite <- app_assoc|]. split; [|exact E]. inversion T; subst. exact (pr_silent wide [] [] u p chunk_empty H0 P).
  - cbv zeta in H. change (@nil (bytes * bytes)) with (env []) in H. rewrite env_app in H. cbn [app] in H. inversion T as [| | |s r0 q0 l0 b0 ST|]; subst. destruct b.
    + injection H as <-. exists [], u, q. split; [reflexivity|]. split; [apply pr_chunk with []; apply chunk_empty|]. now constructor.
    + destruct (content wide f (env l) q) as [[[[t1 k1] n1] r1]|] eqn:C1; [|discriminate]. destruct (content_sound wide _ _ _ _ _ _ _ OKq C1) as (b1 & c1 & -> & I1 & ET1).
      destruct (qname_eqb _ _) eqn:QE; [|discriminate]. apply qname_eqb_eq in QE. injection H as <-.
      exists [], (u ++ b1 ++ c1), r1. split; [cbn [app]; now rewrite <- !app_assoc|]. split; [apply pr_chunk with []; apply chunk_empty|].
      apply (el_full wide [] u b1 c1 m n1 l t1 k1 (translate (env l) m)); auto; cbn [app]; [apply translate_expands|rewrite QE; apply translate_expands].
Qed.

(* ------------------------------------------------------------------ reading elements: complete *)

Definition starts (s : bytes) : Prop := exists t, s = 60 :: t.
Lemma starts_app a b : starts a -> starts (a ++ b).
Proof. intros [t ->]. now exists (t ++ b). Qed.
Lemma starts_len a : starts a -> (1 <= List.length a)%nat.
Proof. intros [t ->]. cbn [List.length]. lia. Qed.
Lemma silent_starts wide m : silent wide m -> starts m.
Proof. intros [(b & -> & _)|[(n & w & d & -> & _)|(c & r & -> & _)]]; eexists; reflexivity. Qed.
Lemma cdata_starts m d : cdata_section m d -> starts m.
Proof. intros (b & -> & _). eexists; reflexivity. Qed.
Lemma start_tag_starts wide m q l b : start_tag wide m q l b -> starts m.
Proof. intros (n & a & -> & _). eexists; reflexivity. Qed.
Lemma end_tag_starts wide m q : end_tag wide m q -> starts m.
Proof. intros (n & a & -> & _). eexists; reflexivity. Qed.
Lemma element_starts wide ds m x : element wide ds m x -> starts m.
Proof. destruct 1; [eapply start_tag_starts; eauto|apply starts_app; eapply start_tag_starts; eauto]. Qed.

Definition lead (d : bytes) (x : option (bytes * list xe * qname * bytes)) := match x with Some (t, k, n, r) => Some (d ++ t, k, n, r) | None => None end.
Lemma content_chunk wide e s d y f : chunk s d -> starts y -> (List.length s <= f)%nat ->
  exists g, (f <= g + List.length s)%nat /\ content wide f e (s ++ y) = lead d (content wide g e y).
Proof.
  intros C Y L. destruct s as [|c s].
  - rewrite (chunk_nil _ C). exists f. cbn [List.length app]. split; [lia|]. destruct (content wide f e y) as [[[[? ?] ?] ?]|]; reflexivity.
  - cbn [List.length] in *. destruct f as [|f]; [lia|]. exists f. split; [lia|]. cbn [content]. rewrite (raw_token_app wide (c :: s) y (TChars d)); [reflexivity|]. constructor; [discriminate|exact C|now right].
Qed.
Lemma document_chunk wide s d y f : chunk s d -> starts y -> (List.length s <= f)%nat ->
  exists g, (f <= g + List.length s)%nat /\ document wide f (s ++ y) = document wide g y.
Proof.
  intros C Y L. destruct s as [|c s].
  - exists f. cbn [List.length app]. split; [lia|reflexivity].
  - cbn [List.length] in *. destruct f as [|f]; [lia|]. exists f. split; [lia|]. cbn [document]. rewrite (raw_token_app wide (c :: s) y (TChars d)); [reflexivity|]. constructor; [discriminate|exact C|now right].
Qed.

Scheme element_ind2 := Minimality for element Sort Prop
  with inner_ind2 := Minimality for inner Sort Prop.
Combined Scheme element_inner_ind from element_ind2, inner_ind2.

Definition reads_element (wide : bytes -> bool) (ds : list (qname * bytes)) (m : bytes) (x : xe) : Prop :=
  forall f r, (List.length m <= f)%nat ->
    content wide (S f) (env ds) (m ++ r) = match content wide f (env ds) r with Some (t, k, n, r') => Some (t, x :: k, n, r') | None => None end.
Definition reads_inner (wide : bytes -> bool) (ds : list (qname * bytes)) (b t : bytes) (k : list xe) : Prop :=
  forall f c q r, end_tag wide c q -> (List.length b + List.length c <= f)%nat -> content wide f (env ds) (b ++ c ++ r) = Some (t, k, q, r).
Lemma reads_both wide : (forall ds m x, element wide ds m x -> reads_element wide ds m x) /\ (forall ds b t k, inner wide ds b t k -> reads_inner wide ds b t k).
Proof.
  apply element_inner_ind.
  - intros ds s q l ST f r L. cbn [content]. rewrite (raw_token_app wide s r (TStart q l true)) by now constructor. reflexivity.
  - intros ds a b c q q' l t k e ST _ IH ET X X' f r L. rewrite !app_length in L. rewrite <- !app_assoc. cbn [content]. rewrite (raw_token_app wide a _ (TStart q l false)) by now constructor.
    cbv zeta. rewrite env_app. pose proof (starts_len _ (start_tag_starts _ _ _ _ _ ST)). rewrite (IH f c q' r ET) by lia.
    rewrite (expands_fun _ _ _ _ (translate_expands (ds ++ l) q) X), (expands_fun _ _ _ _ (translate_expands (ds ++ l) q') X'), (proj2 (qname_eqb_eq e e) eq_refl). reflexivity.
  - intros ds s d C f c q r ET L. pose proof (end_tag_starts _ _ _ ET) as SC. pose proof (starts_len _ SC). destruct (content_chunk wide (env ds) s d (c ++ r) f C (starts_app _ _ SC)) as (g & G & ->); [lia|].
    destruct g as [|g]; [lia|]. cbn [content]. rewrite (raw_token_app wide c r (TEnd q)) by now constructor. cbn [lead]. now rewrite app_nil_r.
  - intros ds s d m b t k C S _ IH f c q r ET L. rewrite !app_length in L. pose proof (silent_starts _ _ S) as SM. pose proof (starts_len _ SM). rewrite <- !app_assoc.
    destruct (content_chunk wide (env ds) s d (m ++ b ++ c ++ r) f C (starts_app _ _ SM)) as (g & G & ->); [lia|]. destruct g as [|g]; [lia|]. cbn [content].
    rewrite (raw_token_app wide m _ TSkip) by now constructor. now rewrite (IH g c q r ET) by lia.
  - intros ds s d m d' b t k C S _ IH f c q r ET L. rewrite !app_length in L. pose proof (cdata_starts _ _ S) as SM. pose proof (starts_len _ SM). rewrite <- !app_assoc.
    destruct (content_chunk wide (env ds) s d (m ++ b ++ c ++ r) f C (starts_app _ _ SM)) as (g & G & ->); [lia|]. destruct g as [|g]; [lia|]. cbn [content].
    rewrite (raw_token_app wide m _ (TChars d')) by now apply tk_cdata. now rewrite (IH g c q r ET) by lia.
  - intros ds s d m x b t k C EL IHE _ IH f c q r ET L. rewrite !app_length in L. pose proof (element_starts _ _ _ _ EL) as SM. pose proof (starts_len _ SM). pose proof (starts_len _ (end_tag_starts _ _ _ ET)).
    rewrite <- !app_assoc. destruct (content_chunk wide (env ds) s d (m ++ b ++ c ++ r) f C (starts_app _ _ SM)) as (g & G & ->); [lia|]. destruct g as [|g]; [lia|].
    rewrite (IHE g (b ++ c ++ r)) by lia. now rewrite (IH g c q r ET) by lia.
Qed.
Lemma element_document wide e x : element wide [] e x -> forall f r, (List.length e <= f)%nat -> document wide f (e ++ r) = Some x.
Proof.
  intros E f r L. destruct f as [|f]; [pose proof (starts_len _ (element_starts _ _ _ _ E)); lia|]. inversion E as [ds s q l ST|ds a b c q q' l t k u ST I ET X X']; subst.
  - cbn [document]. rewrite (raw_token_app wide e r (TStart q l true)) by now constructor. reflexivity.
  - rewrite !app_length in L. pose proof (starts_len _ (start_tag_starts _ _ _ _ _ ST)). rewrite <- !app_assoc. cbn [document]. rewrite (raw_token_app wide a _ (TStart q l false)) by now constructor.
    cbv zeta. change (@nil (bytes * bytes)) with (env []). rewrite env_app. rewrite (proj2 (reads_both wide) _ _ _ _ I f c q' r ET) by lia.
    rewrite (expands_fun _ _ _ _ (translate_expands ([] ++ l) q) X), (expands_fun _ _ _ _ (translate_expands ([] ++ l) q') X'), (proj2 (qname_eqb_eq u u) eq_refl). reflexivity.
Qed.
Lemma prolog_document wide p : prolog wide p -> forall e x f r, element wide [] e x -> (List.length p + List.length e <= f)%nat -> document wide f (p ++ e ++ r) = Some x.
Proof.
  induction 1 as [s d C|s d m b C S _ IH|s d m d' b C S _ IH]; intros e x f r E L; pose proof (element_starts _ _ _ _ E) as SE.
  - destruct (document_chunk wide s d (e ++ r) f C (starts_app _ _ SE)) as (g & G & ->); [lia|]. apply element_document; [exact E|lia].
  - rewrite !app_length in L. pose proof (silent_starts _ _ S) as SM. pose proof (starts_len _ SM). rewrite <- !app_assoc.
    destruct (document_chunk wide s d (m ++ b ++ e ++ r) f C (starts_app _ _ SM)) as (g & G & ->); [lia|]. destruct g as [|g]; [lia|]. cbn [document].
    rewrite (raw_token_app wide m _ TSkip) by now constructor. apply IH; [exact E|lia].
  - rewrite !app_length in L. pose proof (cdata_starts _ _ S) as SM. pose proof (starts_len _ SM). rewrite <- !app_assoc.
    destruct (document_chunk wide s d (m ++ b ++ e ++ r) f C (starts_app _ _ SM)) as (g & G & ->); [lia|]. destruct g as [|g]; [lia|]. cbn [document].
    rewrite (raw_token_app wide m _ (TChars d')) by now apply tk_cdata. apply IH; [exact E|lia].
Qed.
Theorem read_document_iff wide s x : bytes_ok s -> (read_document wide s = Some x <-> xml_document wide s x).
Proof.
  intros OK. split; [now apply document_sound|]. intros (p & e & r & -> & P & E). unfold read_document. apply prolog_document; [exact P|exact E|]. rewrite !app_length. lia.
Qed.
