(** TomlTwice: what is given twice is refused (C101). *)
From Verif Require Import GoBase ConfigModel ConfigSpec TomlModel TomlSpec TomlLex TomlTree TomlDecode TomlProps.
Open Scope Z_scope.
Open Scope list_scope.

Definition clean (p : path) : Prop := p <> [] /\ Forall (fun n => ~ In 46 n) p.
Lemma dotted_clean p : forall q, clean p -> clean q -> dotted p = dotted q -> p = q.
Proof.
  assert (forall (a b x y : bytes), ~ In 46 a -> ~ In 46 b -> a ++ 46 :: x = b ++ 46 :: y -> a = b /\ x = y) as SPLIT.
  { induction a as [|c a IH]; intros [|d b] x y NA NB E; cbn [app] in E.
    - injection E as ->. auto.
    - injection E as <- _. elim NB. now left.
    - injection E as -> _. elim NA. now left.
    - injection E as -> E. destruct (IH b x y) as [-> ->]; [intros I; apply NA; now right|intros I; apply NB; now right|exact E|auto]. }
  induction p as [|a p IH]; intros [|b q] [NP FP] [NQ FQ] E; try congruence. inversion FP as [|? ? A FP']; inversion FQ as [|? ? B FQ']; subst.
  destruct p as [|a' p], q as [|b' q].
  - cbn in E. congruence.
  - exfalso. cbn [dotted] in E. apply A. rewrite E. apply in_or_app. right. now left.
  - exfalso. cbn [dotted] in E. apply B. rewrite <- E. apply in_or_app. right. now left.
  - change (a ++ 46 :: dotted (a' :: p) = b ++ 46 :: dotted (b' :: q)) in E. apply SPLIT in E as [-> E]; [|exact A|exact B].
    f_equal. apply IH; [split; [discriminate|exact FP']|split; [discriminate|exact FQ']|exact E].
Qed.

(** A path that cannot be given any more. *)
Definition occupied (t : tree) (impl : list bytes) (p : path) : Prop := clean p /\ find_path t p <> None /\ ~ In (dotted p) impl.
Definition traced (t : tree) (impl : list bytes) : Prop := forall x, In x impl -> exists q, clean q /\ x = dotted q /\ find_path t q <> None.
Lemma find_more t p n q : find_path t q <> None -> find_path (t ++ [(p, n)]) q <> None.
Proof. rewrite find_snoc. destruct (find_path t q); [discriminate|congruence]. Qed.
Lemma find_new t p n : find_path t p = None -> find_path (t ++ [(p, n)]) p <> None.
Proof. intros F. apply (find_add t p n p n) in F. rewrite (proj2 F); [discriminate|auto]. Qed.

Lemma set_step s k n s' : clean (p_ctx s ++ [k]) -> traced (p_tree s) (p_impl s) -> set_value s k n = Some s' ->
  p_ctx s' = p_ctx s /\ traced (p_tree s') (p_impl s') /\ occupied (p_tree s') (p_impl s') (p_ctx s ++ [k]) /\
  ~ occupied (p_tree s) (p_impl s) (p_ctx s ++ [k]) /\ forall q, occupied (p_tree s) (p_impl s) q -> occupied (p_tree s') (p_impl s') q.
Proof.
  intros C T E. unfold set_value in E. cbv zeta in E. destruct (match p_ctx s with [] => Some NTable | _ => find_path (p_tree s) (p_ctx s) end) as [[v|]|]; try discriminate E.
  destruct (find_path (p_tree s) (p_ctx s ++ [k])) as [m|] eqn:F.
  - destruct (is_implicit s (p_ctx s ++ [k])) eqn:I; [|discriminate E]. injection E as <-. cbn [p_ctx p_tree p_impl].
    assert (forall x, In x (no_longer s (p_ctx s ++ [k])) <-> In x (p_impl s) /\ x <> dotted (p_ctx s ++ [k])) as NL.
    { intros x. unfold no_longer. rewrite filter_In, negb_true_iff. split; intros [A B]; (split; [exact A|]).
      - intros ->. now rewrite (proj2 (bytes_eqb_eq _ _) eq_refl) in B.
      - destruct (bytes_eqb _ x) eqn:Q; [|reflexivity]. apply bytes_eqb_eq in Q. congruence. }
    split; [reflexivity|]. split; [intros x X; apply NL in X as [X _]; auto|]. split.
    { split; [exact C|]. split; [congruence|]. intros X. apply NL in X as [_ X]. congruence. }
    split.
    { intros (_ & _ & N). apply N. unfold is_implicit in I. apply existsb_exists in I as (x & X & Q). apply bytes_eqb_eq in Q. now rewrite Q. }
    intros q (Q1 & Q2 & Q3). split; [exact Q1|]. split; [exact Q2|]. intros X. apply NL in X as [X _]. contradiction.
  - injection E as <-. cbn [p_ctx p_tree p_impl]. split; [reflexivity|]. split.
    { intros x X. destruct (T x X) as (q & Q1 & Q2 & Q3). exists q. split; [exact Q1|]. split; [exact Q2|]. now apply find_more. }
    split.
    { split; [exact C|]. split; [now apply find_new|]. intros X. destruct (T _ X) as (q & Q1 & Q2 & Q3). apply (dotted_clean _ _ C Q1) in Q2. subst q. congruence. }
    split; [intros (_ & X & _); congruence|]. intros q (Q1 & Q2 & Q3). split; [exact Q1|]. split; [now apply find_more|exact Q3].
Qed.
Lemma walk_step (rest : path) : forall (t : tree) (impl : list bytes) (done : path) t' impl', Forall (fun n => ~ In 46 n) (done ++ rest) -> traced t impl -> walk t impl done rest = Some (t', impl') ->
  traced t' impl' /\ forall q, occupied t impl q -> occupied t' impl' q.
Proof.
  induction rest as [|k r IH]; intros t impl done t' impl' F T E; cbn [walk] in E; cbv zeta in E.
  - injection E as <- <-. auto.
  - assert (done ++ k :: r = (done ++ [k]) ++ r) as EQ by now rewrite <- app_assoc. rewrite EQ in F.
    match type of E with match ?x with _ => _ end = _ => destruct x as [[v|]|] eqn:FD end; [discriminate E| |].
    + eapply IH; eauto.
    + assert (clean (done ++ [k])) as C by (split; [now destruct done|]; apply Forall_app in F; apply F).
      apply IH in E as [A B]; [|exact F|].
      * split; [exact A|]. intros q (Q1 & Q2 & Q3). apply B. split; [exact Q1|]. split; [now apply find_more|]. intros [X|X]; [|contradiction].
        apply (dotted_clean _ _ C Q1) in X. subst q. congruence.
      * intros x [<-|X].
        -- exists (done ++ [k]). split; [exact C|]. split; [reflexivity|now apply find_new].
        -- destruct (T x X) as (q & Q1 & Q2 & Q3). exists q. split; [exact Q1|]. split; [exact Q2|now apply find_more].
Qed.

Definition places (ctx : path) (l : list stmt) : list path := headers l ++ map fst (assigned ctx l).
Lemma parse_twice l : forall s s', Forall (fun n => ~ In 46 n) (p_ctx s) -> (forall p, In p (headers l) -> p <> []) -> (forall p, In p (places (p_ctx s) l) -> Forall (fun n => ~ In 46 n) p) ->
  traced (p_tree s) (p_impl s) -> parse s l = Some s' ->
  NoDup (places (p_ctx s) l) /\ forall p, In p (places (p_ctx s) l) -> ~ occupied (p_tree s) (p_impl s) p.
Proof.
  induction l as [|st l IH]; intros s s' FC NH FP T E; [split; [constructor|intros p []]|]. cbn [parse] in E. destruct (step s st) as [s1|] eqn:ES; [|discriminate E].
  destruct st as [p|k v]; cbn [step] in ES.
  - unfold places in *. cbn [headers assigned app] in *.
    assert (p <> []) as NP by (apply NH; now left). pose proof (FP p (or_introl eq_refl)) as FPP.
    rewrite (app_removelast_last [] NP) in FPP. apply Forall_app in FPP as [FR FL].
    destruct (walk _ _ [] (removelast p)) as [[t impl]|] eqn:W; [|discriminate ES].
    destruct (walk_step _ _ _ [] _ _ FR T W) as [T1 O1].
    destruct (set_value _ _ _) as [s2|] eqn:SV; [|discriminate ES]. injection ES as <-.
    apply set_step in SV as (C2 & T2 & OC & NO & KE); cbn [p_ctx p_tree p_impl] in *; [|split; [intros X; now apply app_eq_nil in X as [_ X]|apply Forall_app; auto]|exact T1].
    pose proof (app_removelast_last [] NP) as EP. assert (OC' := eq_ind_r (fun x => occupied (p_tree s2) (p_impl s2) x) OC EP). assert (NO' := eq_ind_r (fun x => ~ occupied t impl x) NO EP). clear OC NO. rename OC' into OC, NO' into NO.
    apply IH in E as [E1 E2]; cbn [p_ctx p_tree p_impl] in *; [| | |intros q I; apply FP; now right|exact T2].
    + split.
      * constructor; [|exact E1]. intros I. exact (E2 _ I OC).
      * intros q [<-|I] O; [exact (NO (O1 _ O))|exact (E2 _ I (KE _ (O1 _ O)))].
    + rewrite (app_removelast_last [] NP). apply Forall_app. auto.
    + intros q I. apply NH. now right.
  - unfold places in *. cbn [headers assigned map fst] in *.
    assert (Forall (fun n => ~ In 46 n) (p_ctx s ++ [k])) as FK by (apply FP; apply in_or_app; right; now left).
    apply set_step in ES as (C2 & T2 & OC & NO & KE); [|split; [intros X; now apply app_eq_nil in X as [_ X]|exact FK]|exact T].
    apply IH in E as [E1 E2]; rewrite ?C2 in *; [|exact FC|exact NH|intros q I; apply FP; apply in_app_or in I as [I|I]; apply in_or_app; [now left|right; now right]|exact T2].
    split.
    + apply NoDup_Add with (a := p_ctx s ++ [k]) (l := headers l ++ map fst (assigned (p_ctx s) l)); [apply Add_app|]. split; [exact E1|]. intros I. exact (E2 _ I OC).
    + intros q I O. apply in_app_or in I as [I|[<-|I]].
      * apply (E2 q); [apply in_or_app; now left|auto].
      * exact (NO O).
      * apply (E2 q); [apply in_or_app; now right|auto].
Qed.

(** C101: a file in which a table is named twice, or a value given twice, or a name stands for
    both, is refused. *)
Theorem C101_twice lax order other s l c : bytes_ok s -> toml_text s l -> undotted l -> toml_decode lax order other s = Some c ->
  NoDup (headers l ++ map fst (assigned [] l)).
Proof.
  intros B (D & Z0 & U) UD E. destruct (document_names s l D B) as [HN AN].
  unfold toml_decode in E. rewrite (proj2 (strange_iff s B) (conj Z0 U)), (proj2 (lex_iff s l) D) in E.
  destruct (parse_all l) as [t|] eqn:PA; [|discriminate E]. unfold parse_all in PA. destruct (parse (mkpstate [] [] []) l) as [s'|] eqn:P; [|discriminate PA].
  apply (parse_twice l (mkpstate [] [] []) s'); cbn [p_ctx p_tree p_impl]; [constructor| | |intros x []|exact P].
  - intros p I. rewrite Forall_forall in HN. now apply HN in I as [_ I].
  - intros p I. apply Forall_forall. intros n J. exact (UD p n I J).
Qed.

(** A port given twice. *)
Definition twice : bytes := str "[Server]" ++ [10] ++ str "Port = 80" ++ [10] ++ str "Port = 8080" ++ [10].
Lemma read_text s l : forallb (fun b => (0 <=? b) && (b <? 256)) s = true -> strange s = false -> lex (S (List.length s)) s = Ok l -> bytes_ok s /\ toml_text s l.
Proof.
  intros F S L. assert (bytes_ok s) as B by (apply Forall_forall; intros b I; rewrite forallb_forall in F; apply F in I; unfold is_byte; lia).
  split; [exact B|]. apply (strange_iff s B) in S as [Z0 U]. apply lex_iff in L. repeat split; auto.
Qed.
Example C101_twice_example lax order other : exists l, toml_text twice l /\ undotted l /\ ~ NoDup (headers l ++ map fst (assigned [] l)) /\ toml_decode lax order other twice = None.
Proof.
  eexists. destruct (read_text twice [SHead [str "Server"]; SSet (str "Port") (TInt 80); SSet (str "Port") (TInt 8080)]) as [B T]; [reflexivity|reflexivity|vm_compute; reflexivity|].
  split; [exact T|].
  assert (undotted [SHead [str "Server"]; SSet (str "Port") (TInt 80); SSet (str "Port") (TInt 8080)]) as UD.
  { intros p n I J. cbn [headers assigned app map fst In] in I. assert (n = str "Server" \/ n = str "Port") as [->| ->].
    { destruct I as [<-|[<-|[<-|[]]]]; cbn [In] in J; intuition congruence. }
    - intros X. vm_compute in X. intuition discriminate.
    - intros X. vm_compute in X. intuition discriminate. }
  split; [exact UD|].
  assert (~ NoDup (headers [SHead [str "Server"]; SSet (str "Port") (TInt 80); SSet (str "Port") (TInt 8080)] ++ map fst (assigned [] [SHead [str "Server"]; SSet (str "Port") (TInt 80); SSet (str "Port") (TInt 8080)]))) as ND.
  { intros N. cbn [headers assigned app map fst] in N. inversion N as [|? ? _ N2]; subst. inversion N2 as [|? ? X _]; subst. apply X. now left. }
  split; [exact ND|]. destruct (toml_decode lax order other twice) as [c|] eqn:E; [|reflexivity]. elim ND. eapply C101_twice; eauto.
Qed.
