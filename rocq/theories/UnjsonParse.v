(** UnjsonParse: the parser of UnjsonModel reads exactly the texts of UnjsonSpec. *)
From Coq Require Import ZArith Lia ZifyBool.
From Verif Require Import GoBase BufFacts Strconv StrconvFacts NmeaTypes NmeaModel NmeaSpec SignalkModel SignalkSpec JsonSpec JsonModel FtoaFacts JsonFacts JsonUnique UnjsonModel UnjsonSpec UnjsonLex.
Open Scope Z_scope.
Open Scope list_scope.

(* ------------------------------------------------------------------ what is read is a text *)

Lemma ok_app_r a b : bytes_ok (a ++ b) -> bytes_ok b.
Proof. intros H. now apply Forall_app in H as [_ H]. Qed.
Lemma ok_cons c b : bytes_ok (c :: b) -> bytes_ok b.
Proof. intros H. now inversion H. Qed.
Lemma literal_sound lit s : bytes_eqb (firstn (List.length lit) s) lit = true -> s = lit ++ skipn (List.length lit) s.
Proof. intros H. apply bytes_eqb_eq in H. rewrite <- H at 1. symmetry. apply firstn_skipn. Qed.
Lemma skip_ok s : bytes_ok s -> bytes_ok (skip_ws s).
Proof. intros H. destruct (skip_ws_sound s) as (w & E & _). rewrite E in H. exact (ok_app_r _ _ H). Qed.

Ltac assoc := repeat first [rewrite <- app_assoc | progress (cbn [app])]; reflexivity.
Definition value_sound (f : nat) : Prop := forall d s g r, bytes_ok s -> pvalue f d s = Some (g, r) -> exists t, s = t ++ r /\ lax d t g.
Definition items_sound (f : nat) : Prop := forall d s l r, bytes_ok s -> pitems f d s = Some (l, r) -> exists t, s = t ++ 93 :: r /\ lax_items d t l.
Definition members_sound (f : nat) : Prop := forall d s l r, bytes_ok s -> pmembers f d s = Some (l, r) -> exists t, s = t ++ 125 :: r /\ lax_members d t l.

Lemma string_sound r t r2 : bytes_ok r -> pstr (S (List.length r)) r = Some (t, r2) -> exists b, 34 :: r = b ++ r2 /\ lax_string b t.
Proof.
  intros OK H. destruct (pstr_sound _ _ _ _ OK H) as (b & cs & -> & LC & UT). exists ([34] ++ b ++ [34]).
  split; [cbn [app]; now rewrite <- app_assoc|]. exists b, cs. auto.
Qed.

Lemma parse_sound f : value_sound f /\ items_sound f /\ members_sound f.
Proof.
  induction f as [|f (IV & II & IM)]; [repeat split; intros d s g r _ H; discriminate H|]. split; [|split].
  - intros d s g r OK H. cbn [pvalue] in H. destruct s as [|c s]; [discriminate|]. pose proof (ok_cons _ _ OK) as OK'.
    destruct (Z.eqb_spec c 123) as [->|N1].
    { destruct d as [|d]; [discriminate|]. destruct (skip_ws_sound s) as (w & E & B & _). destruct (skip_ws s) as [|x r'] eqn:SW; [discriminate|].
      destruct (Z.eqb_spec x 125) as [->|NX].
      - injection H as <- <-. exists ([123] ++ w ++ [125]). split; [rewrite E; cbn [app]; now rewrite <- app_assoc|]. now apply lx_obj0.
      - destruct (pmembers f d s) as [[l r2]|] eqn:P; [|discriminate]. injection H as <- <-.
        destruct (IM _ _ _ _ OK' P) as (t & -> & L). exists ([123] ++ t ++ [125]). split; [cbn [app]; now rewrite <- app_assoc|]. now apply lx_obj. }
    destruct (Z.eqb_spec c 91) as [->|N2].
    { destruct d as [|d]; [discriminate|]. destruct (skip_ws_sound s) as (w & E & B & _). destruct (skip_ws s) as [|x r'] eqn:SW; [discriminate|].
      destruct (Z.eqb_spec x 93) as [->|NX].
      - injection H as <- <-. exists ([91] ++ w ++ [93]). split; [rewrite E; cbn [app]; now rewrite <- app_assoc|]. now apply lx_arr0.
      - destruct (pitems f d s) as [[l r2]|] eqn:P; [|discriminate]. injection H as <- <-.
        destruct (II _ _ _ _ OK' P) as (t & -> & L). exists ([91] ++ t ++ [93]). split; [cbn [app]; now rewrite <- app_assoc|]. now apply lx_arr. }
    destruct (Z.eqb_spec c 34) as [->|N3].
    { destruct (pstr (S (List.length s)) s) as [[t r2]|] eqn:P; [|discriminate]. injection H as <- <-.
      destruct (string_sound _ _ _ OK' P) as (b & E & LS). exists b. split; [exact E|]. now apply lx_str. }
    destruct (Z.eqb_spec c 116) as [->|N4].
    { destruct (bytes_eqb (firstn 4 (116 :: s)) (str "true")) eqn:E; [|discriminate]. injection H as <- <-.
      exists (str "true"). split; [exact (literal_sound (str "true") _ E)|constructor]. }
    destruct (Z.eqb_spec c 102) as [->|N5].
    { destruct (bytes_eqb (firstn 5 (102 :: s)) (str "false")) eqn:E; [|discriminate]. injection H as <- <-.
      exists (str "false"). split; [exact (literal_sound (str "false") _ E)|constructor]. }
    destruct (Z.eqb_spec c 110) as [->|N6].
    { destruct (bytes_eqb (firstn 4 (110 :: s)) (str "null")) eqn:E; [|discriminate]. injection H as <- <-.
      exists (str "null"). split; [exact (literal_sound (str "null") _ E)|constructor]. }
    destruct (pnum (c :: s)) as [[t r2]|] eqn:P; [|discriminate]. injection H as <- <-.
    destruct (pnum_sound _ _ _ P) as (E & m & e & N). exists t. split; [exact E|]. eapply lx_num. exact N.
  - intros d s l r OK H. cbn [pitems] in H. destruct (skip_ws_sound s) as (w & E & B & _). pose proof (skip_ok _ OK) as OK1.
    destruct (pvalue f d (skip_ws s)) as [[v r1]|] eqn:P; [|discriminate]. destruct (IV _ _ _ _ OK1 P) as (t & E1 & L). rewrite E1 in OK1.
    apply ok_app_r in OK1. destruct (skip_ws_sound r1) as (w' & E2 & B' & _). pose proof (skip_ok _ OK1) as OK2.
    destruct (skip_ws r1) as [|c r2]; [discriminate|]. destruct (Z.eqb_spec c 44) as [->|N].
    + destruct (pitems f d r2) as [[l2 r3]|] eqn:P2; [|discriminate]. injection H as <- <-.
      destruct (II _ _ _ _ (ok_cons _ _ OK2) P2) as (t2 & -> & L2). exists ((w ++ t ++ w') ++ [44] ++ t2).
      split; [rewrite E, E1, E2, <- !app_assoc; reflexivity|]. now apply li_cons.
    + destruct (Z.eqb_spec c 93) as [->|]; [|discriminate]. injection H as <- <-. exists (w ++ t ++ w').
      split; [rewrite E, E1, E2, <- !app_assoc; reflexivity|]. now apply li_one.
  - intros d s l r OK H. cbn [pmembers] in H. destruct (skip_ws_sound s) as (w1 & E & B1 & _). pose proof (skip_ok _ OK) as OK1.
    destruct (skip_ws s) as [|q s1]; [discriminate|]. destruct (Z.eqb_spec q 34) as [->|]; [|discriminate].
    destruct (pstr (S (List.length s1)) s1) as [[k r1]|] eqn:PS; [|discriminate].
    destruct (string_sound _ _ _ (ok_cons _ _ OK1) PS) as (b & E1 & LS). rewrite E1 in OK1. apply ok_app_r in OK1.
    destruct (skip_ws_sound r1) as (w2 & E2 & B2 & _). pose proof (skip_ok _ OK1) as OK2.
    destruct (skip_ws r1) as [|c r2]; [discriminate|]. destruct (Z.eqb_spec c 58) as [->|]; [|discriminate]. apply ok_cons in OK2.
    destruct (skip_ws_sound r2) as (w3 & E3 & B3 & _). pose proof (skip_ok _ OK2) as OK3.
    destruct (pvalue f d (skip_ws r2)) as [[v r3]|] eqn:P; [|discriminate]. destruct (IV _ _ _ _ OK3 P) as (t & E4 & L). rewrite E4 in OK3. apply ok_app_r in OK3.
    destruct (skip_ws_sound r3) as (w4 & E5 & B4 & _). pose proof (skip_ok _ OK3) as OK4.
    destruct (skip_ws r3) as [|c r4]; [discriminate|].
    assert (lax_member d k (w1 ++ b ++ w2 ++ [58] ++ w3 ++ t ++ w4) v) as M by (now constructor).
    destruct (Z.eqb_spec c 44) as [->|N].
    + destruct (pmembers f d r4) as [[l2 r5]|] eqn:P2; [|discriminate]. injection H as <- <-.
      destruct (IM _ _ _ _ (ok_cons _ _ OK4) P2) as (t2 & -> & L2). eexists. split; [|eapply lm_cons; [exact M|exact L2]].
      rewrite E, E1, E2, E3, E4, E5. assoc.
    + destruct (Z.eqb_spec c 125) as [->|]; [|discriminate]. injection H as <- <-. eexists. split; [|eapply lm_one; exact M].
      rewrite E, E1, E2, E3, E4, E5. assoc.
Qed.

(* ------------------------------------------------------------------ every text is read *)

Scheme lax_mind := Induction for lax Sort Prop
  with lax_items_mind := Induction for lax_items Sort Prop
  with lax_members_mind := Induction for lax_members Sort Prop
  with lax_member_mind := Induction for lax_member Sort Prop.
Combined Scheme lax_all from lax_mind, lax_items_mind, lax_members_mind, lax_member_mind.

Lemma lax_first d t g : lax d t g -> exists c q, t = c :: q /\ ~ is_blank c /\ c <> 93 /\ c <> 125.
Proof.
  unfold is_blank. cbn [In].
  destruct 1 as [d|d|d|d t m e H|d t s H|d w B|d s l I|d w B|d s l I]; try (eexists _, _; split; [reflexivity|]; repeat split; lia).
  - exists 110, [117; 108; 108]. split; [reflexivity|]; repeat split; lia.
  - exists 116, [114; 117; 101]. split; [reflexivity|]; repeat split; lia.
  - exists 102, [97; 108; 115; 101]. split; [reflexivity|]; repeat split; lia.
  - destruct (number_first _ _ _ H) as (c & q & -> & C). exists c, q. split; [reflexivity|]. unfold dig in C. repeat split; lia.
  - destruct H as (b & cs & -> & _). eexists _, _; split; [reflexivity|]; repeat split; lia.
Qed.
Lemma lax_stops d t g r : lax d t g -> stops is_blank (t ++ r).
Proof. intros H. destruct (lax_first _ _ _ H) as (c & q & -> & N & _). exact N. Qed.
Lemma lax_len d t g : lax d t g -> (1 <= List.length t)%nat.
Proof. intros H. destruct (lax_first _ _ _ H) as (c & q & -> & _). cbn [List.length]. lia. Qed.

Definition no_number (g : gj) : Prop := forall t, g <> GNum t.
Definition reads_value (d : nat) (t : bytes) (g : gj) : Prop := forall r f, bytes_ok (t ++ r) -> follow r \/ no_number g -> (List.length t <= f)%nat -> pvalue f d (t ++ r) = Some (g, r).
Definition reads_items (d : nat) (t : bytes) (l : list gj) : Prop :=
  (forall r, exists c q, skip_ws (t ++ r) = c :: q /\ c <> 93) /\
  forall r f, bytes_ok (t ++ 93 :: r) -> (List.length t < f)%nat -> pitems f d (t ++ 93 :: r) = Some (l, r).
Definition reads_members (d : nat) (t : bytes) (l : list (bytes * gj)) : Prop :=
  (forall r, exists c q, skip_ws (t ++ r) = c :: q /\ c <> 125) /\
  forall r f, bytes_ok (t ++ 125 :: r) -> (List.length t < f)%nat -> pmembers f d (t ++ 125 :: r) = Some (l, r).
Definition reads_member (d : nat) (k t : bytes) (g : gj) : Prop :=
  (forall r, exists c q, skip_ws (t ++ r) = c :: q /\ c <> 125) /\
  forall r f c, bytes_ok (t ++ c :: r) -> c = 44 \/ c = 125 -> (List.length t < f)%nat -> pmembers f d (t ++ c :: r) =
    if c =? 44 then match pmembers (f - 1) d r with Some (l, r5) => Some ((k, g) :: l, r5) | None => None end else Some ([(k, g)], r).

Lemma string_app b t r : lax_string b t -> bytes_ok (b ++ r) -> exists q, b = 34 :: q /\ pstr (S (List.length (q ++ r))) (q ++ r) = Some (t, r).
Proof.
  intros (b0 & cs & -> & LC & UT) OK. exists (b0 ++ [34]). split; [reflexivity|]. cbn [app] in OK. apply ok_cons in OK. rewrite <- app_assoc in *. cbn [app] in *.
  apply (pstr_app _ _ LC); [exact OK|exact UT|]. rewrite app_length. lia.
Qed.

Lemma literal_app lit r : bytes_eqb (firstn (List.length lit) (lit ++ r)) lit = true /\ skipn (List.length lit) (lit ++ r) = r.
Proof.
  rewrite firstn_app, Nat.sub_diag, firstn_all, skipn_app, Nat.sub_diag, skipn_all. cbn [firstn skipn app]. rewrite app_nil_r.
  split; [now apply bytes_eqb_eq|reflexivity].
Qed.

Lemma parse_complete :
  (forall d t g, lax d t g -> reads_value d t g) /\ (forall d t l, lax_items d t l -> reads_items d t l) /\
  (forall d t l, lax_members d t l -> reads_members d t l) /\ (forall d k t g, lax_member d k t g -> reads_member d k t g).
Proof.
  apply (lax_all (fun d t g _ => reads_value d t g) (fun d t l _ => reads_items d t l) (fun d t l _ => reads_members d t l) (fun d k t g _ => reads_member d k t g)).
  - intros d r f OK _ L. destruct f as [|f]; [cbn in L; lia|]. destruct (literal_app (str "null") r) as [A B].
    change (str "null" ++ r) with (110 :: 117 :: 108 :: 108 :: r) in *. change (List.length (str "null")) with 4%nat in A, B. cbn [pvalue]. change (110 =? 123) with false. change (110 =? 91) with false. change (110 =? 34) with false. change (110 =? 116) with false. change (110 =? 102) with false. change (110 =? 110) with true. cbv iota.
    now rewrite A, B.
  - intros d r f OK _ L. destruct f as [|f]; [cbn in L; lia|]. destruct (literal_app (str "true") r) as [A B].
    change (str "true" ++ r) with (116 :: 114 :: 117 :: 101 :: r) in *. cbn [pvalue]. change (116 =? 123) with false. change (116 =? 91) with false. change (116 =? 34) with false. change (116 =? 116) with true. cbv iota.
    change (List.length (str "true")) with 4%nat in A, B. now rewrite A, B.
  - intros d r f OK _ L. destruct f as [|f]; [cbn in L; lia|]. destruct (literal_app (str "false") r) as [A B].
    change (str "false" ++ r) with (102 :: 97 :: 108 :: 115 :: 101 :: r) in *. cbn [pvalue]. change (102 =? 123) with false. change (102 =? 91) with false. change (102 =? 34) with false. change (102 =? 116) with false. change (102 =? 102) with true. cbv iota.
    change (List.length (str "false")) with 5%nat in A, B. now rewrite A, B.
  - intros d t m e N r f OK FO L. destruct FO as [FO|NN]; [|elim (NN t); reflexivity].
    destruct (number_first _ _ _ N) as (c & q & E & C). pose proof (pnum_app _ _ _ _ N FO) as P. subst t. destruct f as [|f]; [cbn in L; lia|].
    cbn [app] in *. cbn [pvalue]. unfold dig in C.
    destruct (Z.eqb_spec c 123); [lia|]. destruct (Z.eqb_spec c 91); [lia|]. destruct (Z.eqb_spec c 34); [lia|]. destruct (Z.eqb_spec c 116); [lia|].
    destruct (Z.eqb_spec c 102); [lia|]. destruct (Z.eqb_spec c 110); [lia|]. now rewrite P.
  - intros d t s LS r f OK _ L. destruct (string_app _ _ r LS OK) as (q & -> & P). destruct f as [|f]; [cbn in L; lia|].
    cbn [app] in *. cbn [pvalue]. change (34 =? 123) with false. change (34 =? 91) with false. change (34 =? 34) with true. cbv iota. now rewrite P.
  - intros d w B r f OK _ L. rewrite <- !app_assoc. cbn [app]. destruct f as [|f]; [cbn in L; lia|]. cbn [pvalue]. change (91 =? 123) with false. change (91 =? 91) with true. cbv iota.
    rewrite (skip_ws_app w _ B), (skip_ws_stops (93 :: r)) by (apply blank_stops; auto). reflexivity.
  - intros d s l _ [IF II] r f OK _ L. rewrite <- !app_assoc in *. cbn [app] in *. destruct f as [|f]; [cbn in L; lia|]. cbn [pvalue]. change (91 =? 123) with false. change (91 =? 91) with true. cbv iota.
    destruct (IF (93 :: r)) as (c & q & E & N). rewrite E. destruct (Z.eqb_spec c 93); [contradiction|].
    cbn [List.length] in L. rewrite app_length in L. cbn [List.length] in L. rewrite (II r f); [reflexivity|exact (ok_cons _ _ OK)|lia].
  - intros d w B r f OK _ L. rewrite <- !app_assoc. cbn [app]. destruct f as [|f]; [cbn in L; lia|]. cbn [pvalue]. change (123 =? 123) with true. cbv iota.
    rewrite (skip_ws_app w _ B), (skip_ws_stops (125 :: r)) by (apply blank_stops; auto). reflexivity.
  - intros d s l _ [IF II] r f OK _ L. rewrite <- !app_assoc in *. cbn [app] in *. destruct f as [|f]; [cbn in L; lia|]. cbn [pvalue]. change (123 =? 123) with true. cbv iota.
    destruct (IF (125 :: r)) as (c & q & E & N). rewrite E. destruct (Z.eqb_spec c 125); [contradiction|].
    cbn [List.length] in L. rewrite app_length in L. cbn [List.length] in L. rewrite (II r f); [reflexivity|exact (ok_cons _ _ OK)|lia].
  - (* the last item *)
    intros d w s w' v B LV IV B'. split.
    + intros r. rewrite <- !app_assoc, (skip_ws_app w _ B), (skip_ws_stops _ (lax_stops _ _ _ _ LV)).
      destruct (lax_first _ _ _ LV) as (c & q & -> & _ & N & _). exists c, (q ++ w' ++ r). auto.
    + intros r f OK L. rewrite <- !app_assoc in *. rewrite !app_length in L. destruct f as [|f]; [lia|]. cbn [pitems].
      rewrite (skip_ws_app w _ B), (skip_ws_stops _ (lax_stops _ _ _ _ LV)).
      rewrite (IV _ f); [|exact (ok_app_r _ _ OK)|left; apply blank_follow; auto|lia].
      rewrite (skip_ws_app w' _ B'), (skip_ws_stops (93 :: r)) by (apply blank_stops; auto). reflexivity.
  - intros d w s w' v t l B LV IV B' _ [IF II]. split.
    + intros r. rewrite <- !app_assoc, (skip_ws_app w _ B), (skip_ws_stops _ (lax_stops _ _ _ _ LV)).
      destruct (lax_first _ _ _ LV) as (c & q & -> & _ & N & _). eexists c, _. split; [reflexivity|exact N].
    + intros r f OK L. rewrite <- !app_assoc in *. rewrite !app_length in L. cbn [List.length] in L. destruct f as [|f]; [lia|]. cbn [pitems].
      rewrite (skip_ws_app w _ B), (skip_ws_stops _ (lax_stops _ _ _ _ LV)). apply ok_app_r in OK.
      rewrite (IV _ f); [|exact OK|left; apply blank_follow; auto|lia]. apply ok_app_r, ok_app_r in OK.
      rewrite (skip_ws_app w' _ B'). cbn [app]. rewrite (skip_ws_stops (44 :: _)) by (apply blank_stops; auto). change (44 =? 44) with true. cbv iota.
      rewrite (II r f); [reflexivity| |lia]. exact (ok_cons _ _ OK).
  - intros d k s v _ [IF IM]. split; [exact IF|]. intros r f OK L. rewrite (IM r f 125 OK ltac:(auto) L). reflexivity.
  - intros d k s v t l _ [IF IM] _ [_ IMS]. split.
    + intros r. rewrite <- app_assoc. apply IF.
    + intros r f OK L. rewrite <- app_assoc in *. rewrite !app_length in L. cbn [List.length app] in *. rewrite (IM _ f 44 OK ltac:(auto)) by lia. change (44 =? 44) with true. cbv iota.
      apply ok_app_r, ok_cons in OK. rewrite (IMS r (f - 1)%nat OK) by lia. reflexivity.
  - intros d w1 t k w2 w3 s w4 v B1 LS B2 B3 LV IV B4. split.
    + intros r. rewrite <- !app_assoc, (skip_ws_app w1 _ B1). destruct LS as (b & cs & -> & _). rewrite <- !app_assoc.
      rewrite skip_ws_stops by (apply (blank_stops 34); auto). eexists 34, _. split; [reflexivity|lia].
    + intros r f c OK C L. rewrite <- !app_assoc in *. rewrite !app_length in L. destruct f as [|f]; [lia|]. cbn [pmembers].
      rewrite (skip_ws_app w1 _ B1). apply ok_app_r in OK. destruct (string_app _ _ _ LS OK) as (q & -> & P). cbn [app] in *.
      rewrite (skip_ws_stops (34 :: _)) by (apply blank_stops; auto). change (34 =? 34) with true. cbv iota. rewrite P.
      apply ok_cons, ok_app_r, ok_app_r, ok_cons, ok_app_r in OK.
      rewrite (skip_ws_app w2 _ B2), (skip_ws_stops (58 :: _)) by (apply blank_stops; auto). change (58 =? 58) with true. cbv iota.
      rewrite (skip_ws_app w3 _ B3), (skip_ws_stops _ (lax_stops _ _ _ _ LV)).
      rewrite (IV _ f); [|exact OK|left; apply blank_follow; [exact B4|lia]|lia].
      rewrite (skip_ws_app w4 _ B4), (skip_ws_stops (c :: r)) by (apply blank_stops; lia).
      replace (S f - 1)%nat with f by lia. destruct C as [->| ->]; reflexivity.
Qed.

(* ------------------------------------------------------------------ whole texts *)

Theorem read_text_exact d s g : bytes_ok s -> read_text d s = Some g <-> lax_text d s g.
Proof.
  intros OK. unfold read_text, read_value. split.
  - destruct (skip_ws_sound s) as (w & E & B & _). destruct (pvalue _ d (skip_ws s)) as [[v r]|] eqn:P; [|discriminate].
    destruct (skip_ws_sound r) as (w' & E' & B' & _). destruct (skip_ws r) as [|? ?]; [|discriminate]. intros H. injection H as ->.
    destruct (parse_sound (2 * List.length s + 2)) as (IV & _ & _). destruct (IV _ _ _ _ (skip_ok _ OK) P) as (t & E1 & L).
    exists w, t, w'. rewrite app_nil_r in E'. subst w'. split; [now rewrite <- E1|auto].
  - intros (w & t & w' & -> & B & B' & L). rewrite (skip_ws_app w _ B), (skip_ws_stops _ (lax_stops _ _ _ _ L)).
    destruct parse_complete as (PC & _). rewrite (PC _ _ _ L).
    + rewrite <- (app_nil_r w'), (skip_ws_app w' [] B'). reflexivity.
    + exact (ok_app_r _ _ OK).
    + left. destruct w' as [|c w']; [exact I|]. inversion B'; subst. cbn [follow]. auto.
    + rewrite !app_length. lia.
Qed.
(** Reading a value from a stream: anything may follow. *)
Theorem read_value_sound d s g r : bytes_ok s -> read_value d s = Some (g, r) -> exists w t, s = w ++ t ++ r /\ blank_text w /\ lax d t g.
Proof.
  intros OK H. destruct (skip_ws_sound s) as (w & E & B & _). destruct (parse_sound (2 * List.length s + 2)) as (IV & _ & _).
  destruct (IV _ _ _ _ (skip_ok _ OK) H) as (t & E1 & L). exists w, t. rewrite <- E1. auto.
Qed.
Theorem read_value_complete d s g : bytes_ok s -> no_number g -> starts_with d s g -> exists r, read_value d s = Some (g, r).
Proof.
  intros OK N (w & t & r & -> & B & L). unfold read_value. rewrite (skip_ws_app w _ B), (skip_ws_stops _ (lax_stops _ _ _ _ L)).
  destruct parse_complete as (PC & _). exists r. apply (PC _ _ _ L); [exact (ok_app_r _ _ OK)|auto|]. rewrite !app_length. lia.
Qed.
Theorem read_value_exact d s g : bytes_ok s -> no_number g -> (exists r, read_value d s = Some (g, r)) <-> starts_with d s g.
Proof.
  intros OK N. split; [|now apply read_value_complete]. intros [r H]. destruct (read_value_sound _ _ _ _ OK H) as (w & t & E & B & L). exists w, t, r. auto.
Qed.
Corollary lax_text_unique d s g g' : bytes_ok s -> lax_text d s g -> lax_text d s g' -> g = g'.
Proof. intros OK H H'. apply read_text_exact in H, H'; try assumption. congruence. Qed.
