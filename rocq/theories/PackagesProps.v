(** PackagesProps: installed web apps (C71) and their installation (C79). *)
From Coq Require Import Relations.
From Verif Require Import GoBase BufFacts ApiModel ApiProps PackagesModel PackagesSpec.
Open Scope Z_scope.
Open Scope list_scope.

Lemma join_slashed l : join_with 47 l = slashed l.
Proof. induction l as [|x [|y l] IH]; [reflexivity|reflexivity|]. change (x ++ 47 :: join_with 47 (y :: l) = x ++ 47 :: slashed (y :: l)). now rewrite IH. Qed.
Lemma slashed_cons x y l : slashed (x :: y :: l) = x ++ 47 :: slashed (y :: l).
Proof. reflexivity. Qed.
Lemma slashed_snoc l x : l <> [] -> slashed (l ++ [x]) = slashed l ++ 47 :: x.
Proof.
  induction l as [|y [|z l] IH]; intros N; [congruence|reflexivity|].
  change ((y :: z :: l) ++ [x]) with (y :: z :: (l ++ [x])). rewrite slashed_cons. change (z :: l ++ [x]) with ((z :: l) ++ [x]). rewrite IH by discriminate.
  rewrite slashed_cons, <- app_assoc. reflexivity.
Qed.
Lemma split_slashed l : l <> [] -> Forall (fun p => ~ In 47 p) l -> split_at 47 (slashed l) = l.
Proof.
  assert (forall p, ~ In 47 p -> split_at 47 p = [p]) as S1.
  { induction p as [|c p IH]; intros N; [reflexivity|]. cbn [split_at]. destruct (Z.eqb_spec c 47) as [->|NE]; [destruct N; now left|].
    rewrite IH; [reflexivity|]. intros I. apply N. now right. }
  assert (forall p s, ~ In 47 p -> split_at 47 (p ++ 47 :: s) = p :: split_at 47 s) as S2.
  { induction p as [|c p IH]; intros s N; [reflexivity|]. cbn [split_at app]. destruct (Z.eqb_spec c 47) as [->|NE]; [destruct N; now left|].
    rewrite IH; [reflexivity|]. intros I. apply N. now right. }
  induction l as [|x [|y l] IH]; intros N F; [congruence| |].
  - inversion F; subst. now apply S1.
  - inversion F; subst. rewrite slashed_cons, S2 by assumption. f_equal. apply IH; [discriminate|assumption].
Qed.
Lemma clean_elems_names rooted l : Forall file_name l -> forall stack, clean_elems rooted l stack = rev stack ++ l.
Proof.
  induction 1 as [|e l (N1 & N2 & N3 & N4) F IH]; intros stack; [cbn; now rewrite app_nil_r|].
  cbn [clean_elems]. rewrite !eqb_false by assumption. cbn [orb]. rewrite IH. cbn [rev]. now rewrite <- app_assoc.
Qed.
Lemma names_no_slash l : Forall file_name l -> Forall (fun p => ~ In 47 p) l.
Proof. intros F. eapply Forall_impl; [|exact F]. intros a (_ & H & _). exact H. Qed.
Lemma slashed_head l : l <> [] -> Forall file_name l -> exists c s, slashed l = c :: s /\ c <> 47.
Proof.
  intros N F. destruct l as [|x l]; [congruence|]. inversion F as [|? ? (N1 & N2 & _) _]; subst. destruct x as [|c x]; [congruence|].
  assert (c <> 47) as NC by (intros ->; apply N2; now left). exists c. destruct l as [|y l]; [exists x|exists (x ++ 47 :: slashed (y :: l))]; (split; [reflexivity|exact NC]).
Qed.
Lemma not_rooted (c : Z) (s : bytes) : c <> 47 -> match c :: s with 47 :: _ => true | _ => false end = false.
Proof. intros N. destruct c as [|p|p]; try reflexivity. do 6 (try (destruct p as [p|p|]; try reflexivity)). now destruct N. Qed.
Definition rooted (p : bytes) : bool := match p with 47 :: _ => true | _ => false end.
Lemma clean_eq p : p <> [] -> clean p = match clean_elems (rooted p) (split_at 47 p) [] with
  | [] => if rooted p then str "/" else str "."
  | l => (if rooted p then [47] else []) ++ join_with 47 l
  end.
Proof. destruct p; [congruence|reflexivity]. Qed.
Lemma clean_names l : l <> [] -> Forall file_name l -> clean (slashed l) = slashed l.
Proof.
  intros N F. destruct (slashed_head l N F) as (c & s & E & NC).
  rewrite clean_eq by (rewrite E; discriminate). rewrite (split_slashed l N (names_no_slash l F)).
  assert (rooted (slashed l) = false) as -> by (rewrite E; now apply not_rooted).
  rewrite (clean_elems_names false l F). cbn [rev app]. destruct l as [|x l]; [congruence|]. now rewrite join_slashed.
Qed.
Lemma clean_dot_names l : l <> [] -> Forall file_name l -> clean (slashed (str "." :: l)) = slashed l.
Proof.
  intros N F. destruct l as [|x l]; [congruence|]. rewrite clean_eq by discriminate.
  rewrite split_slashed; [|discriminate|constructor; [cbn; intuition discriminate|now apply names_no_slash]].
  change (rooted (slashed (str "." :: x :: l))) with false.
  change (clean_elems false (str "." :: x :: l) []) with (clean_elems false (x :: l) []).
  rewrite (clean_elems_names false (x :: l) F). cbn [rev app]. now rewrite join_slashed.
Qed.
Lemma clean_abs_names l : l <> [] -> Forall file_name l -> clean (47 :: slashed l) = 47 :: slashed l.
Proof.
  intros N F. rewrite clean_eq by discriminate. change (split_at 47 (47 :: slashed l)) with ([] :: split_at 47 (slashed l)).
  rewrite (split_slashed l N (names_no_slash l F)). change (rooted (47 :: slashed l)) with true.
  change (clean_elems true ([] :: l) []) with (clean_elems true l []).
  rewrite (clean_elems_names true l F). cbn [rev app]. destruct l as [|x l]; [congruence|]. now rewrite join_slashed.
Qed.

(* ------------------------------------------------------------ shortest paths *)

Fixpoint stack_of (abs : bool) (l s : list bytes) : list bytes :=
  match l with
  | [] => s
  | e :: r =>
      if bytes_eqb e [] || bytes_eqb e (str ".") then stack_of abs r s
      else if bytes_eqb e (str "..") then
        match s with
        | top :: below => if bytes_eqb top (str "..") then stack_of abs r (e :: s) else stack_of abs r below
        | [] => stack_of abs r (if abs then [] else [e])
        end
      else stack_of abs r (e :: s)
  end.
Lemma elems_stack abs l : forall s, clean_elems abs l s = rev (stack_of abs l s).
Proof.
  induction l as [|e l IH]; intros s; [reflexivity|]. cbn [clean_elems stack_of].
  destruct (bytes_eqb e [] || bytes_eqb e (str ".")); [apply IH|]. destruct (bytes_eqb e (str "..")); [|apply IH].
  destruct s as [|t s]; [apply IH|]. destruct (bytes_eqb t (str "..")); apply IH.
Qed.
Lemma stack_app abs a : forall b s, stack_of abs (a ++ b) s = stack_of abs b (stack_of abs a s).
Proof.
  induction a as [|e a IH]; intros b s; [reflexivity|]. cbn [app stack_of].
  destruct (bytes_eqb e [] || bytes_eqb e (str ".")); [apply IH|]. destruct (bytes_eqb e (str "..")); [|apply IH].
  destruct s as [|t s]; [apply IH|]. destruct (bytes_eqb t (str "..")); apply IH.
Qed.
Lemma shorter_stack abs l m : shorter abs l m -> stack_of abs l [] = stack_of abs m [].
Proof.
  intros [a b|a b|a x b (N1 & N2 & N3 & N4)|b ->].
  - rewrite !stack_app. reflexivity.
  - rewrite !stack_app. reflexivity.
  - rewrite !stack_app. generalize (stack_of abs a []). intros s. cbn [stack_of].
    rewrite (eqb_false x []), (eqb_false x (str ".")), (eqb_false x (str "..")) by assumption. reflexivity.
  - reflexivity.
Qed.
Lemma shortened_stack abs l m : shortened abs l m -> stack_of abs l [] = stack_of abs m [].
Proof. induction 1 as [|l m n S _ IH]; [reflexivity|]. now rewrite (shorter_stack abs l m S). Qed.
Lemma shortened_trans abs l m n : shortened abs l m -> shortened abs m n -> shortened abs l n.
Proof. induction 1 as [|l m k S _ IH]; intros H; [exact H|]. exact (sd_step abs l m n S (IH H)). Qed.
Lemma tidy_stack abs k names : Forall file_name names -> (abs = true -> k = O) ->
  rev (stack_of abs (repeat (str "..") k ++ names) []) = repeat (str "..") k ++ names.
Proof.
  intros F K. rewrite stack_app. rewrite <- elems_stack, clean_elems_names by exact F. f_equal.
  assert (forall j, stack_of abs (repeat (str "..") k) (repeat (str "..") j) = if abs then repeat (str "..") j else repeat (str "..") (k + j)) as H.
  { destruct abs.
    - rewrite (K eq_refl). reflexivity.
    - clear. induction k as [|k IH]; intros j; [reflexivity|].
      assert (stack_of false (repeat (str "..") (S k)) (repeat (str "..") j) = stack_of false (repeat (str "..") k) (repeat (str "..") (S j))) as -> by (destruct j; reflexivity).
      rewrite IH. f_equal. lia. }
  specialize (H O). cbn [repeat] in H. rewrite H. destruct abs; [now rewrite (K eq_refl)|]. rewrite Nat.add_0_r. clear.
  induction k as [|k IH]; [reflexivity|]. cbn [repeat rev]. rewrite IH. clear. induction k as [|k IH]; [reflexivity|]. cbn [repeat app]. now rewrite IH.
Qed.
(** The stack holds names above a run of .. elements. *)
Definition good_stack (abs : bool) (s : list bytes) : Prop :=
  exists k names, s = names ++ repeat (str "..") k /\ Forall file_name names /\ (abs = true -> k = O).
Lemma stack_reached abs l : Forall (fun e => ~ In 47 e) l -> forall s, good_stack abs s ->
  good_stack abs (stack_of abs l s) /\ shortened abs (rev s ++ l) (rev (stack_of abs l s)).
Proof.
  induction 1 as [|e l NS F IH]; intros s G; [split; [exact G|rewrite app_nil_r; constructor]|].
  cbn [stack_of]. destruct (bytes_eqb e []) eqn:E1.
  { apply bytes_eqb_eq in E1 as ->. cbn [orb]. destruct (IH s G) as [G' S]. split; [exact G'|]. exact (sd_step _ _ _ _ (sh_empty abs (rev s) l) S). }
  destruct (bytes_eqb e (str ".")) eqn:E2.
  { apply bytes_eqb_eq in E2 as ->. cbn [orb]. destruct (IH s G) as [G' S]. split; [exact G'|]. exact (sd_step _ _ _ _ (sh_dot abs (rev s) l) S). }
  cbn [orb]. destruct (bytes_eqb e (str "..")) eqn:E3.
  - apply bytes_eqb_eq in E3 as ->. destruct s as [|t s].
    + destruct abs.
      * destruct (IH [] G) as [G' S]. split; [exact G'|]. exact (sd_step _ _ _ _ (sh_top true l eq_refl) S).
      * apply (IH [str ".."]). exists 1%nat, []. split; [reflexivity|]. split; [constructor|discriminate].
    + destruct (bytes_eqb t (str "..")) eqn:E4.
      * apply bytes_eqb_eq in E4 as ->. destruct G as (k & names & E & FN & K).
        assert (good_stack abs (str ".." :: str ".." :: s)) as G2.
        { destruct names as [|x names]; [|exfalso; injection E as E5 _; inversion FN as [|? ? (_ & _ & _ & N4) _]; subst; now apply N4].
          exists (S k), []. split; [cbn [app repeat] in E |- *; now rewrite E|]. split; [constructor|]. intros A. specialize (K A). subst k. discriminate E. }
        destruct (IH _ G2) as [G' S]. split; [exact G'|]. revert S. cbn [rev]. now rewrite <- (app_assoc (rev s ++ [str ".."])).
      * destruct G as (k & names & E & FN & K). destruct names as [|x names].
        { exfalso. destruct k as [|k]; [discriminate E|]. injection E as E5 _. subst t. discriminate E4. }
        cbn [app] in E. injection E as <- E. inversion FN as [|? ? FX FN']; subst.
        assert (good_stack abs (names ++ repeat (str "..") k)) as G2 by (exists k, names; auto).
        destruct (IH _ G2) as [G' S]. split; [exact G'|]. cbn [rev]. rewrite <- app_assoc.
        exact (sd_step _ _ _ _ (sh_back abs (rev (names ++ repeat (str "..") k)) t l FX) S).
  - assert (file_name e) as FE.
    { split; [|split; [exact NS|split]]; intros ->; [discriminate E1|discriminate E2|discriminate E3]. }
    assert (good_stack abs (e :: s)) as G2.
    { destruct G as (k & names & -> & FN & K). exists k, (e :: names). split; [reflexivity|]. split; [constructor; assumption|exact K]. }
    destruct (IH _ G2) as [G' S]. split; [exact G'|]. revert S. cbn [rev]. now rewrite <- app_assoc.
Qed.
Lemma rev_repeat {A} (x : A) k : rev (repeat x k) = repeat x k.
Proof.
  induction k as [|k IH]; [reflexivity|]. cbn [repeat rev]. rewrite IH. clear. induction k as [|k IH]; [reflexivity|]. cbn [repeat app]. now rewrite IH.
Qed.
Lemma split_pieces p : p = slashed (split_at 47 p) /\ split_at 47 p <> [] /\ Forall (fun e => ~ In 47 e) (split_at 47 p).
Proof.
  induction p as [|c p (E & N & F)]; [split; [reflexivity|split; [discriminate|repeat constructor; intros []]]|].
  cbn [split_at]. destruct (Z.eqb_spec c 47) as [->|NC].
  - split; [|split; [discriminate|constructor; [intros []|exact F]]]. destruct (split_at 47 p) as [|x l]; [congruence|]. rewrite E at 1. reflexivity.
  - destruct (split_at 47 p) as [|x l]; [congruence|]. inversion F as [|? ? NX F']; subst. split; [|split; [discriminate|constructor; [intros [->|I]; [now apply NC|now apply NX]|exact F']]].
    destruct l; reflexivity.
Qed.
Lemma rooted_absolute p : rooted p = true <-> absolute p.
Proof.
  unfold absolute. split; [|intros (r & ->); reflexivity]. intros H. destruct p as [|c r]; [discriminate H|].
  exists r. destruct (Z.eqb_spec c 47) as [->|NC]; [reflexivity|]. exfalso. assert (rooted (c :: r) = false) by exact (not_rooted c r NC). congruence.
Qed.
(** filepath.Clean computes the shortest form of every path. *)
Theorem C71_clean p q : clean p = q <-> cleaned p q.
Proof.
  destruct p as [|c p0].
  { split; [intros <-; left; now split|]. intros [[_ ->]|[N _]]; [reflexivity|congruence]. }
  set (p := c :: p0). assert (p <> []) as NP by discriminate. rewrite clean_eq by exact NP. split.
  - intros H. right. split; [exact NP|]. destruct (split_pieces p) as (E & N & F).
    destruct (stack_reached (rooted p) (split_at 47 p) F []) as [(k & names & ES & FN & K) S]; [exists O, []; repeat split; constructor|].
    exists (rooted p), (split_at 47 p), k, (rev names). split; [apply rooted_absolute|]. split; [exact E|]. split; [exact N|]. split; [exact F|].
    rewrite ES in S. rewrite rev_app_distr, rev_repeat in S. split; [exact S|]. split; [now apply Forall_rev|]. split; [exact K|].
    rewrite elems_stack, ES, rev_app_distr, rev_repeat in H. destruct (repeat (str "..") k ++ rev names) as [|x l]; [left|right].
    + split; [reflexivity|]. symmetry. exact H.
    + split; [discriminate|]. rewrite <- H. rewrite join_slashed. destruct (rooted p); reflexivity.
  - intros [[E _]|(_ & abs & elems & k & names & A & E & N & F & S & FN & K & Q)]; [congruence|].
    assert (abs = rooted p) as ->.
    { pose proof (rooted_absolute p) as R. destruct abs, (rooted p); try reflexivity.
      - symmetry. apply R, A. reflexivity.
      - apply A, R. reflexivity. }
    assert (split_at 47 p = elems) as -> by (rewrite E; now apply split_slashed).
    rewrite elems_stack, (shortened_stack _ _ _ S), (tidy_stack _ _ _ FN K). destruct Q as [[Z ->]|[Z ->]].
    + rewrite Z. reflexivity.
    + destruct (repeat (str "..") k ++ names) as [|x l]; [congruence|]. rewrite join_slashed. destruct (rooted p); reflexivity.
Qed.
Example C71_clean_ex : cleaned (str "/a//b/./../c/") (str "/a/c") /\ cleaned (str "../x/../../y") (str "../../y") /\ cleaned (str "/..") (str "/").
Proof. rewrite <- !C71_clean. vm_compute. auto. Qed.

(** The path of a directory: the top one is written ./node_modules, the others without dot. *)
Definition path_of (ss : list bytes) : bytes :=
  match ss with [] => str "./node_modules" | _ => slashed (node_modules :: ss) end.
Lemma nm_name : file_name node_modules.
Proof. repeat split; try discriminate. vm_compute. intuition discriminate. Qed.
Lemma path_join2 a b : a <> [] -> b <> [] -> path_join [a; b] = clean (a ++ 47 :: b).
Proof. intros A B. unfold path_join. destruct a; [congruence|]. destruct b; [congruence|]. reflexivity. Qed.
Lemma path_join_of ss m : Forall file_name ss -> file_name m -> path_join [path_of ss; m] = slashed (node_modules :: ss ++ [m]).
Proof.
  intros F Fm. assert (m <> []) as NM by (now destruct Fm). assert (Forall file_name (node_modules :: ss ++ [m])) as FA.
  { constructor; [apply nm_name|]. apply Forall_app. split; [exact F|]. constructor; [exact Fm|constructor]. }
  rewrite path_join2; [|destruct ss; discriminate|exact NM].
  destruct ss as [|s ss].
  - change (path_of [] ++ 47 :: m) with (slashed (str "." :: [node_modules; m])). apply clean_dot_names; [discriminate|exact FA].
  - change (path_of (s :: ss)) with (slashed (node_modules :: s :: ss)). rewrite <- slashed_snoc by discriminate.
    apply (clean_names (node_modules :: s :: ss ++ [m])); [discriminate|exact FA].
Qed.
Lemma path_of_next ss m : Forall file_name ss -> file_name m -> path_join [path_of ss; m] = path_of (ss ++ [m]).
Proof. intros F Fm. rewrite path_join_of by assumption. unfold path_of. destruct ss; reflexivity. Qed.
Lemma contains_nm ss : contains_text (path_of ss) node_modules = true.
Proof.
  destruct ss as [|s ss]; [vm_compute; reflexivity|]. unfold path_of. rewrite slashed_cons.
  assert (forall a b, contains_text (a ++ b) a = true) as K; [|apply K].
  intros a b. destruct (a ++ b) as [|c r] eqn:E.
  - destruct a; [reflexivity|discriminate E].
  - cbn [contains_text]. apply orb_true_iff. left. rewrite <- E. apply has_prefix_app.
Qed.
Lemma key_of_path ss m : Forall file_name ss -> file_name m -> key_of (path_of ss) m = slashed (ss ++ [m]).
Proof.
  intros F Fm. unfold key_of. rewrite contains_nm, path_join_of by assumption. destruct ss as [|s ss]; reflexivity.
Qed.

(* ------------------------------------------------------------ scanning *)

Lemma node_induction (P : node -> Prop) : P NOther ->
  (forall j x es, Forall (fun kn => P (snd kn)) es -> P (NDir j x es)) -> forall n, P n.
Proof.
  intros H0 H1. fix IH 1. intros [|j x es]; [exact H0|]. apply H1. induction es as [|[k n] es IHl]; constructor; [apply IH|exact IHl].
Qed.
Lemma scope_prefix name : has_prefix (str "@") name = true <-> scope_name name.
Proof. unfold scope_name. rewrite has_prefix_iff. reflexivity. Qed.
Lemma scan_fix path l : (fix scan (l : list (bytes * node)) : option (list (bytes * package)) :=
                 match l with
                 | [] => Some []
                 | (k, m) :: r => match scan_dir path k m with
                                  | None => None
                                  | Some a => match scan r with None => None | Some b => Some (a ++ b) end
                                  end
                 end) l = scan_entries path l.
Proof. induction l as [|[k m] r IH]; [reflexivity|]. cbn [scan_entries]. rewrite IH. reflexivity. Qed.
Lemma contains_iff s e : contains s e = true <-> In e s.
Proof.
  unfold contains. rewrite existsb_exists. split.
  - intros (a & I & E). apply bytes_eqb_eq in E. now subst.
  - intros I. exists e. split; [exact I|]. now apply bytes_eqb_eq.
Qed.

Definition bad_entry (name : bytes) (n : node) : Prop := exists x es, n = NDir None x es /\ ~ scope_name name /\ name <> str ".bin".
Lemma located_shown p x : shown_as p x (located p x).
Proof.
  unfold shown_as, located. cbn [pk_version pk_name pk_keywords pk_location]. repeat split.
  exists (match pk_location p with [] => 47 :: pk_name p | l => l end). split; [destruct (pk_location p); [left|right]; split; congruence|].
  destruct x; [|reflexivity]. apply C71_clean. unfold path_join.
  assert (match pk_location p with [] => 47 :: pk_name p | l => l end <> []) as N by (destruct (pk_location p); discriminate).
  destruct (match pk_location p with [] => 47 :: pk_name p | l => l end) as [|c l]; [congruence|]. reflexivity.
Qed.
Lemma shown_unique p x e e' : shown_as p x e -> shown_as p x e' -> e = e'.
Proof.
  intros (A1 & A2 & A3 & b & B & C) (A1' & A2' & A3' & b' & B' & C'). destruct e, e'. cbn in *. subst. 
  assert (b = b') as -> by (destruct B as [[B ->]|[B ->]], B' as [[B' ->]|[B' ->]]; congruence).
  destruct x; [|now subst]. apply C71_clean in C, C'. now subst.
Qed.
Lemma wa_in l : well_named_all l -> forall k n, In (k, n) l -> file_name k /\ well_named n.
Proof.
  induction 1 as [|k n r F NI W WA IH]; intros k' n' I; [contradiction|]. destruct I as [I|I]; [injection I as <- <-; auto|eauto].
Qed.

Lemma scan_entries_spec path : forall l,
  (forall k n, In (k, n) l -> (bad_entry k n -> scan_dir path k n = None) /\ (~ bad_entry k n -> exists r, scan_dir path k n = Some r)) ->
  (level_ok l -> exists r, scan_entries path l = Some r /\ forall kv, In kv r <-> exists k n r', In (k, n) l /\ scan_dir path k n = Some r' /\ In kv r') /\
  (~ level_ok l -> scan_entries path l = None).
Proof.
  induction l as [|[k n] l IH]; intros H.
  - split.
    + intros _. exists []. split; [reflexivity|]. intros kv. split; [intros []|]. intros (k & n & r & [] & _).
    + intros N. destruct N. intros name x es [].
  - destruct IH as [IH1 IH2]; [intros k' n' I; apply H; now right|]. cbn [scan_entries]. destruct (H k n (or_introl eq_refl)) as [H1 H2].
    assert (bad_entry k n \/ ~ bad_entry k n) as DB.
    { unfold bad_entry. destruct n as [|[j|] x es]; [right; intros (? & ? & E & _); discriminate E|right; intros (? & ? & E & _); discriminate E|].
      destruct (has_prefix (str "@") k) eqn:S; [right; intros (? & ? & _ & NS & _); apply NS; now apply scope_prefix|].
      destruct (bytes_eqb k (str ".bin")) eqn:B; [right; intros (? & ? & _ & _ & NB); apply NB; now apply bytes_eqb_eq|].
      left. exists x, es. split; [reflexivity|]. split; [intros X; apply scope_prefix in X; congruence|]. intros X. apply bytes_eqb_eq in X. congruence. }
    assert (level_ok l \/ ~ level_ok l) as DL.
    { destruct (scan_entries path l) as [r|] eqn:E.
      - left. intros name x es I. destruct (has_prefix (str "@") name) eqn:S; [left; now apply scope_prefix|].
        destruct (bytes_eqb name (str ".bin")) eqn:B; [right; now apply bytes_eqb_eq|]. exfalso.
        assert (~ level_ok l) as NL.
        { intros L. destruct (L name x es I) as [X|X]; [apply scope_prefix in X; congruence|apply bytes_eqb_eq in X; congruence]. }
        specialize (IH2 NL). discriminate IH2.
      - right. intros L. destruct (IH1 L) as (r & X & _). discriminate X. }
    destruct DB as [B|NB].
    + rewrite (H1 B). split; [|reflexivity]. intros L. exfalso. destruct B as (x & es & -> & NS & NB). destruct (L k x es); [now left|contradiction|contradiction].
    + destruct (H2 NB) as (a & Ea). rewrite Ea. destruct DL as [L|NL].
      * destruct (IH1 L) as (r & Er & I). rewrite Er. split.
        -- intros _. eexists. split; [reflexivity|]. intros kv. rewrite in_app_iff, I. split.
           ++ intros [X|(k' & n' & r' & X1 & X2 & X3)]; [exists k, n, a; split; [now left|auto]|exists k', n', r'; split; [now right|auto]].
           ++ intros (k' & n' & r' & [X|X] & X2 & X3); [injection X as <- <-; left; congruence|right; eauto 6].
        -- intros NL. exfalso. apply NL. intros name x es [X|X]; [|eauto]. injection X as -> ->.
           destruct (has_prefix (str "@") name) eqn:S; [left; now apply scope_prefix|].
           destruct (bytes_eqb name (str ".bin")) eqn:B; [right; now apply bytes_eqb_eq|]. exfalso. apply NB. exists x, es.
           split; [reflexivity|]. split; [intros X; apply scope_prefix in X; congruence|]. intros X. apply bytes_eqb_eq in X. congruence.
      * rewrite (IH2 NL). split; [|reflexivity]. intros L. exfalso. apply NL. intros name x es I. apply (L name x es). now right.
Qed.

Lemma scan_dir_spec n : forall name ss, Forall file_name ss -> file_name name -> well_named n ->
  (bad_entry name n -> scan_dir (path_of ss) name n = None) /\
  (~ bad_entry name n -> exists r, scan_dir (path_of ss) name n = Some r /\
     forall k e, In (k, e) r <-> exists ks p x, web_app name n ks p x /\ k = slashed (ss ++ ks) /\ shown_as p x e).
Proof.
  induction n as [|j x es IH] using node_induction; intros name ss FS FN W.
  - split; [intros (? & ? & E & _); discriminate E|]. intros _. exists []. split; [reflexivity|]. intros k e. split; [intros []|].
    intros (ks & p & x & A & _). inversion A.
  - cbn [scan_dir]. destruct (has_prefix (str "@") name) eqn:S.
    + split; [intros (? & ? & _ & NS & _); exfalso; apply NS; now apply scope_prefix|]. intros _. rewrite scan_fix.
      assert (scope_name name) as SN by (now apply scope_prefix).
      rewrite path_of_next by assumption. inversion W as [|j0 x0 es0 WA]; subst.
      assert (Forall file_name (ss ++ [name])) as FS' by (apply Forall_app; split; [exact FS|constructor; [exact FN|constructor]]).
      assert (forall k n, In (k, n) es -> (bad_entry k n -> scan_dir (path_of (ss ++ [name])) k n = None) /\
        (~ bad_entry k n -> exists r, scan_dir (path_of (ss ++ [name])) k n = Some r /\
          forall k' e, In (k', e) r <-> exists ks p x, web_app k n ks p x /\ k' = slashed ((ss ++ [name]) ++ ks) /\ shown_as p x e)) as EACH.
      { intros k n I. rewrite Forall_forall in IH. destruct (wa_in es WA k n I) as [Fk Wn]. apply (IH (k, n) I k (ss ++ [name]) FS' Fk Wn). }
      destruct (scan_entries_spec (path_of (ss ++ [name])) es) as [SE1 SE2].
      { intros k n I. destruct (EACH k n I) as [E1 E2]. split; [exact E1|]. intros NB. destruct (E2 NB) as (r & E & _). eauto. }
      destruct (scan_entries (path_of (ss ++ [name])) es) as [r|] eqn:ER.
      * assert (level_ok es) as L.
        { intros m y fs I. destruct (has_prefix (str "@") m) eqn:Sm; [left; now apply scope_prefix|].
          destruct (bytes_eqb m (str ".bin")) eqn:Bm; [right; now apply bytes_eqb_eq|]. exfalso.
          assert (~ level_ok es) as NL.
          { intros L. destruct (L m y fs I) as [X|X]; [apply scope_prefix in X; congruence|apply bytes_eqb_eq in X; congruence]. }
          specialize (SE2 NL). discriminate SE2. }
        destruct (SE1 L) as (r' & X & IN). injection X as <-. exists r. split; [reflexivity|]. intros k e. rewrite IN. split.
        -- intros (m & n & r' & I & Er & Ik). destruct (EACH m n I) as [E1 E2].
           assert (~ bad_entry m n) as NB by (intros B; rewrite (E1 B) in Er; discriminate Er).
           destruct (E2 NB) as (r2 & Er2 & H). rewrite Er in Er2. injection Er2 as <-. apply H in Ik as (ks & p & y & A & K & SH).
           exists (name :: ks), p, y. split; [eapply app_scoped; eassumption|]. split; [rewrite K, <- app_assoc; reflexivity|exact SH].
        -- intros (ks & p & y & A & K & SH). inversion A as [? ? ? ? NS|? ? ? ? m n ks' ? ? _ _ I A']; subst; [contradiction|].
           destruct (EACH m n I) as [E1 E2].
           assert (~ bad_entry m n) as NB. { intros (y0 & fs & -> & B1 & B2). destruct (L m y0 fs I); contradiction. }
           destruct (E2 NB) as (r2 & Er2 & H). exists m, n, r2. split; [exact I|]. split; [exact Er2|]. apply H. exists ks', p, y.
           split; [exact A'|]. split; [rewrite <- app_assoc; reflexivity|exact SH].
      * exists []. split; [reflexivity|]. intros k e. split; [intros []|]. intros (ks & p & y & A & _).
        inversion A as [? ? ? ? NS|? ? ? ? m n ks' ? ? _ L I A']; subst; [contradiction|]. destruct (SE1 L) as (r & X & _). discriminate X.
    + assert (~ scope_name name) as NS by (intros X; apply scope_prefix in X; congruence).
      destruct (bytes_eqb name (str ".bin")) eqn:B.
      * apply bytes_eqb_eq in B. split; [intros (? & ? & _ & _ & NB); contradiction|]. intros _. exists []. split; [reflexivity|]. intros k e. split; [intros []|].
        intros (ks & p & y & A & _). inversion A; contradiction.
      * assert (name <> str ".bin") as NB by (intros X; apply bytes_eqb_eq in X; congruence).
        destruct j as [[p|]|].
        -- split; [intros (? & ? & E & _); discriminate E|]. intros _. destruct (contains (pk_keywords p) (str "signalk-webapp")) eqn:C.
           ++ eexists. split; [reflexivity|]. intros k e. rewrite key_of_path by assumption. split.
              ** intros [E|[]]. injection E as <- <-. exists [name], p, x. split; [apply app_here; [assumption|assumption|now apply contains_iff]|].
                 split; [reflexivity|apply located_shown].
              ** intros (ks & q & y & A & K & SH). inversion A; subst; [|contradiction]. left. f_equal. exact (shown_unique _ _ _ _ (located_shown _ _) SH).
           ++ exists []. split; [reflexivity|]. intros k e. split; [intros []|]. intros (ks & q & y & A & _). inversion A; subst; [|contradiction].
              match goal with H : In _ (pk_keywords _) |- _ => apply contains_iff in H; congruence end.
        -- split; [intros (? & ? & E & _); discriminate E|]. intros _. exists []. split; [reflexivity|]. intros k e. split; [intros []|].
           intros (ks & q & y & A & _). inversion A; contradiction.
        -- split; [reflexivity|]. intros NBE. destruct NBE. exists x, es. auto.
Qed.

(** C71: the list has an entry for exactly the web apps below node_modules and the scopes in it,
    under the app's path below node_modules; but it is empty (nil) if some package directory
    at the top has no readable package.json. *)
Theorem C71_exact l : well_named_all l ->
  (level_ok l -> exists r, getInstalledPackages (Some l) = Some r /\
     forall k e, In (k, e) r <-> exists name n ks p x, In (name, n) l /\ web_app name n ks p x /\ k = slashed ks /\ shown_as p x e) /\
  (~ level_ok l -> getInstalledPackages (Some l) = None).
Proof.
  intros WA. unfold getInstalledPackages. change (str "./node_modules") with (path_of []).
  assert (forall k n, In (k, n) l -> (bad_entry k n -> scan_dir (path_of []) k n = None) /\
    (~ bad_entry k n -> exists r, scan_dir (path_of []) k n = Some r /\
      forall k' e, In (k', e) r <-> exists ks p x, web_app k n ks p x /\ k' = slashed ks /\ shown_as p x e)) as EACH.
  { intros k n I. destruct (wa_in l WA k n I) as [Fk Wn]. exact (scan_dir_spec n k [] (Forall_nil _) Fk Wn). }
  destruct (scan_entries_spec (path_of []) l) as [S1 S2].
  { intros k n I. destruct (EACH k n I) as [E1 E2]. split; [exact E1|]. intros NB. destruct (E2 NB) as (r & E & _). eauto. }
  split; [|exact S2]. intros L. destruct (S1 L) as (r & E & IN). exists r. split; [exact E|]. intros k e. rewrite IN. split.
  - intros (m & n & r' & I & Er & Ik). destruct (EACH m n I) as [E1 E2].
    assert (~ bad_entry m n) as NB by (intros B; rewrite (E1 B) in Er; discriminate Er).
    destruct (E2 NB) as (r2 & Er2 & H). rewrite Er in Er2. injection Er2 as <-. apply H in Ik as (ks & p & x & A & K & SH). exists m, n, ks, p, x. auto.
  - intros (m & n & ks & p & x & I & A & K & SH). destruct (EACH m n I) as [E1 E2].
    assert (~ bad_entry m n) as NB. { intros (y0 & fs & -> & B1 & B2). destruct (L m y0 fs I); contradiction. }
    destruct (E2 NB) as (r2 & Er2 & H). exists m, n, r2. split; [exact I|]. split; [exact Er2|]. apply H. eauto 6.
Qed.
Theorem C71_no_directory : getInstalledPackages None = None.
Proof. reflexivity. Qed.

(** No two entries have the same key. *)
Lemma wa_unique l : well_named_all l -> forall k n n', In (k, n) l -> In (k, n') l -> n = n'.
Proof.
  induction 1 as [|k n r F NI W WA IH]; intros k' n1 n2 I1 I2; [contradiction|].
  destruct I1 as [I1|I1], I2 as [I2|I2].
  - congruence.
  - injection I1 as <- <-. destruct NI. apply in_map_iff. now exists (k, n2).
  - injection I2 as <- <-. destruct NI. apply in_map_iff. now exists (k, n1).
  - eauto.
Qed.
Lemma web_app_names name n ks p x : web_app name n ks p x -> file_name name -> well_named n -> Forall file_name ks /\ exists r, ks = name :: r.
Proof.
  induction 1 as [name p x es NS NB I|name j x es m n ks p y S L I A IH]; intros F W; [split; [constructor; [exact F|constructor]|eauto]|].
  inversion W as [|? ? ? WA]; subst. destruct (wa_in es WA m n I) as [Fm Wn]. destruct (IH Fm Wn) as [FK (r & ->)]. split; [constructor; assumption|eauto].
Qed.
Lemma web_app_fun n : forall name ks p x p' x', well_named n -> web_app name n ks p x -> web_app name n ks p' x' -> p = p' /\ x = x'.
Proof.
  induction n as [|j y es IH] using node_induction; intros name ks p x p' x' W A A'; [inversion A|].
  inversion W as [|? ? ? WA]; subst.
  inversion A as [? ? ? ? NS NB I|? ? ? ? m n0 ks0 ? ? S L I A0]; subst.
  - inversion A' as [|? ? ? ? m n0 ks0 ? ? S]; subst; [split; congruence|contradiction].
  - inversion A' as [? ? ? ? NS'|? ? ? ? m' n' ks' ? ? S' L' I' A1]; subst; [contradiction|].
    destruct (wa_in es WA m n0 I) as [Fm Wn]. destruct (wa_in es WA m' n' I') as [Fm' Wn'].
    destruct (web_app_names _ _ _ _ _ A0 Fm Wn) as [_ (r & E)]. destruct (web_app_names _ _ _ _ _ A1 Fm' Wn') as [_ (r' & E')].
    assert (m = m') as <- by congruence. assert (n0 = n') as <- by exact (wa_unique es WA m n0 n' I I').
    rewrite Forall_forall in IH. exact (IH (m, n0) I m ks0 p x p' x' Wn A0 A1).
Qed.
Lemma slashed_inj l l' : Forall file_name l -> Forall file_name l' -> l <> [] -> l' <> [] -> slashed l = slashed l' -> l = l'.
Proof.
  intros F F' N N' E. rewrite <- (split_slashed l N (names_no_slash l F)), <- (split_slashed l' N' (names_no_slash l' F')). now rewrite E.
Qed.
Theorem C71_keys l r : well_named_all l -> getInstalledPackages (Some l) = Some r ->
  forall k e e', In (k, e) r -> In (k, e') r -> e = e'.
Proof.
  intros WA G k e e' I I'. destruct (C71_exact l WA) as [X Y].
  assert (~ ~ level_ok l) as NN by (intros NL; rewrite (Y NL) in G; discriminate G).
  assert (level_ok l) as L.
  { intros name x es J. destruct (has_prefix (str "@") name) eqn:S; [left; now apply scope_prefix|].
    destruct (bytes_eqb name (str ".bin")) eqn:B; [right; now apply bytes_eqb_eq|]. exfalso. apply NN. intros L.
    destruct (L name x es J) as [Z|Z]; [apply scope_prefix in Z; congruence|apply bytes_eqb_eq in Z; congruence]. }
  destruct (X L) as (r' & G' & H). rewrite G in G'. injection G' as <-.
  apply H in I as (a & n & ks & p & x & In1 & A & K & SH). apply H in I' as (a' & n' & ks' & p' & x' & In2 & A' & K' & SH').
  destruct (wa_in l WA a n In1) as [Fa Wn]. destruct (wa_in l WA a' n' In2) as [Fa' Wn'].
  destruct (web_app_names _ _ _ _ _ A Fa Wn) as [FK (q & Q)]. destruct (web_app_names _ _ _ _ _ A' Fa' Wn') as [FK' (q' & Q')].
  assert (ks = ks') as <- by (apply slashed_inj; [assumption|assumption|congruence|congruence|congruence]).
  assert (a = a') as <- by congruence. assert (n = n') as <- by exact (wa_unique l WA a n n' In1 In2).
  destruct (web_app_fun n a ks p x p' x' Wn A A') as [<- <-]. exact (shown_unique _ _ _ _ SH SH').
Qed.

(* ------------------------------------------------------------ links *)

(** The link of an installed app: /apps, the location in its package.json (its name, if there
    is none), and /public unless the app has an index.html of its own. *)
Theorem C71_location l r k e : well_named_all l -> getInstalledPackages (Some l) = Some r -> In (k, e) r ->
  exists name n ks p x, In (name, n) l /\ web_app name n ks p x /\ k = slashed ks /\
    app_link (Some r) k = Some (str "/apps" ++ pk_location e) /\
    (pk_location p = [] -> forall names, pk_name p = slashed names -> names <> [] -> Forall file_name names ->
       pk_location e = str "/" ++ pk_name p ++ if x then str "/public" else []).
Proof.
  intros WA G I. destruct (C71_exact l WA) as [X Y].
  assert (level_ok l \/ ~ level_ok l) as [L|NL].
  { destruct (getInstalledPackages (Some l)) as [r0|] eqn:E0; [left|discriminate G].
    intros name x es J. destruct (has_prefix (str "@") name) eqn:S; [left; now apply scope_prefix|].
    destruct (bytes_eqb name (str ".bin")) eqn:B; [right; now apply bytes_eqb_eq|]. exfalso.
    assert (~ level_ok l) as NL.
    { intros L. destruct (L name x es J) as [Z|Z]; [apply scope_prefix in Z; congruence|apply bytes_eqb_eq in Z; congruence]. }
    specialize (Y NL). discriminate Y. }
  2:{ rewrite (Y NL) in G. discriminate G. }
  destruct (X L) as (r' & G' & H). rewrite G in G'. injection G' as <-.
  pose proof I as I0. apply H in I0 as (a & n & ks & p & x & In1 & A & K & SH). exists a, n, ks, p, x.
  split; [exact In1|]. split; [exact A|]. split; [exact K|]. split.
  - unfold app_link. destruct (find (fun kv => bytes_eqb (fst kv) k) r) as [kv|] eqn:FD.
    + apply find_some in FD as [I' E']. apply bytes_eqb_eq in E'. destruct kv as [k' e']. cbn [fst snd] in *. subst k'.
      now rewrite (C71_keys l r WA G k e' e I' I).
    + apply find_none with (x := (k, e)) in FD; [|exact I]. cbn [fst] in FD. assert (bytes_eqb k k = true) as T by (now apply bytes_eqb_eq). congruence.
  - intros LE names PN NE FN. destruct SH as (_ & _ & _ & base & [[_ ->]|[X' _]] & LOC); [|contradiction].
    destruct x; [|rewrite app_nil_r; exact LOC]. apply C71_clean in LOC. rewrite <- LOC. clear LOC.
    rewrite PN. destruct names as [|y names]; [congruence|].
    transitivity (47 :: slashed ((y :: names) ++ [str "public"])); [|rewrite slashed_snoc by discriminate; reflexivity].
    assert (Forall file_name ((y :: names) ++ [str "public"])) as FA.
    { apply Forall_app. split; [exact FN|]. constructor; [|constructor]. repeat split; try discriminate. vm_compute. intuition discriminate. }
    rewrite <- (clean_abs_names ((y :: names) ++ [str "public"])) by (assumption || discriminate).
    rewrite slashed_snoc by discriminate.
    (* //public: the empty element is dropped *)
    change ((47 :: slashed (y :: names)) ++ str "/" ++ str "/public") with (47 :: (slashed (y :: names) ++ [47; 47] ++ str "public")).
    rewrite !clean_eq by discriminate. change (rooted (47 :: slashed (y :: names) ++ [47; 47] ++ str "public")) with true.
    change (rooted (47 :: slashed (y :: names) ++ 47 :: str "public")) with true.
    assert (forall z, split_at 47 (47 :: slashed (y :: names) ++ 47 :: z) = [] :: (y :: names) ++ split_at 47 z) as SP.
    { intros z. change (split_at 47 (47 :: slashed (y :: names) ++ 47 :: z)) with ([] :: split_at 47 (slashed (y :: names) ++ 47 :: z)). f_equal.
      clear - FN. revert y FN. induction names as [|w ns IH]; intros y FN.
      - inversion FN as [|? ? (_ & NS & _) _]; subst. cbn [slashed app]. clear FN. revert NS. induction y as [|c y IHy]; intros NS; [reflexivity|].
        cbn [split_at app]. destruct (Z.eqb_spec c 47) as [->|]; [destruct NS; now left|]. rewrite IHy; [reflexivity|]. intros J. apply NS. now right.
      - inversion FN as [|? ? (_ & NS & _) FN']; subst. rewrite slashed_cons, <- app_assoc. change ((47 :: slashed (w :: ns)) ++ 47 :: z) with (47 :: (slashed (w :: ns) ++ 47 :: z)).
        transitivity (y :: split_at 47 (slashed (w :: ns) ++ 47 :: z)); [|rewrite IH by exact FN'; reflexivity].
        generalize (slashed (w :: ns) ++ 47 :: z). clear - NS. intros s. revert NS. induction y as [|c y IHy]; intros NS; [reflexivity|].
        cbn [split_at app]. destruct (Z.eqb_spec c 47) as [->|]; [destruct NS; now left|]. rewrite IHy; [reflexivity|]. intros J. apply NS. now right. }
    change ([47; 47] ++ str "public") with (47 :: (47 :: str "public")). rewrite !SP.
    change (split_at 47 (47 :: str "public")) with [[]; str "public"]. change (split_at 47 (str "public")) with [str "public"].
    assert (clean_elems true ([] :: (y :: names) ++ [[]; str "public"]) [] = clean_elems true ([] :: (y :: names) ++ [str "public"]) []) as ->; [|reflexivity].
    change (clean_elems true ((y :: names) ++ [[]; str "public"]) [] = clean_elems true ((y :: names) ++ [str "public"]) []).
    assert (forall st, clean_elems true ((y :: names) ++ [[]; str "public"]) st = clean_elems true ((y :: names) ++ [str "public"]) st) as Q; [|apply Q].
    generalize FN. generalize (y :: names). clear. induction 1 as [|e l (N1 & N2 & N3 & N4) F IH]; intros st; [reflexivity|].
    cbn [clean_elems app]. rewrite !eqb_false by assumption. cbn [orb]. apply IH.
Qed.

(** If, as npm has it, the app's name in package.json is its path below node_modules, and it
    says no other location, its link leads to its files. *)
Theorem C71_link_works l r k e late : well_named_all l -> getInstalledPackages (Some l) = Some r -> In (k, e) r ->
  (exists name n ks p x, In (name, n) l /\ web_app name n ks p x /\ k = slashed ks /\ pk_name p = k /\ pk_location p = []) ->
  exists url, app_link (Some r) k = Some url /\ (url = str "/apps/" ++ k \/ url = str "/apps/" ++ k ++ str "/public") /\
    route (map fst r) late url = HAppFiles.
Proof.
  intros WA G I (name & n & ks & p & x & In1 & A & K & PN & PL).
  destruct (C71_location l r k e WA G I) as (name' & n' & ks' & p' & x' & In1' & A' & K' & LK & LOC).
  destruct (wa_in l WA name n In1) as [Fa Wn]. destruct (wa_in l WA name' n' In1') as [Fa' Wn'].
  destruct (web_app_names _ _ _ _ _ A Fa Wn) as [FK (q & Q)]. destruct (web_app_names _ _ _ _ _ A' Fa' Wn') as [FK' (q' & Q')].
  assert (ks = ks') as <- by (apply slashed_inj; [assumption|assumption|congruence|congruence|congruence]).
  assert (name = name') as <- by congruence. assert (n = n') as <- by exact (wa_unique l WA name n n' In1 In1').
  destruct (web_app_fun n name ks p x p' x' Wn A A') as [<- <-].
  assert (ks <> []) as NK by congruence.
  specialize (LOC PL ks (eq_trans PN K) NK FK). rewrite PN in LOC. eexists. split; [exact LK|]. rewrite LOC.
  assert (In k (map fst r)) as IK by (apply in_map_iff; now exists (k, e)).
  split; [destruct x; [right|left; rewrite app_nil_r]; reflexivity|].
  change (str "/apps" ++ str "/" ++ k ++ (if x then str "/public" else [])) with (str "/apps/" ++ k ++ (if x then str "/public" else [])).
  now apply C76_app_files.
Qed.

(** Just after its installation: the address the program answers is below /apps/, ends in
    /public unless the app has an index.html, and leads to the files. *)
Theorem C71_installed_url names no_index apps late : names <> [] -> Forall file_name names ->
  getPathForPackage (slashed names) no_index = str "/apps/" ++ slashed names ++ (if no_index then str "/public" else []) /\
  (slashed names <> str "install" \/ no_index = true ->
   route apps (getPathForPackage (slashed names) no_index :: late) (getPathForPackage (slashed names) no_index) = HAppFiles).
Proof.
  intros N F.
  assert (getPathForPackage (slashed names) no_index = str "/apps/" ++ slashed names ++ (if no_index then str "/public" else [])) as E.
  { destruct (slashed_head names N F) as (c & s & E & _).
    assert (file_name (str "apps")) as FA by (repeat split; try discriminate; vm_compute; intuition discriminate).
    assert (file_name (str "public")) as FP by (repeat split; try discriminate; vm_compute; intuition discriminate).
    unfold getPathForPackage. destruct no_index.
    - transitivity (clean (47 :: slashed (str "apps" :: names ++ [str "public"]))).
      + unfold path_join. rewrite E. change (filter _ [str "/apps"; c :: s; str "public"]) with [str "/apps"; c :: s; str "public"]. rewrite <- E.
        cbn [join_with]. destruct names as [|y ns]; [congruence|].
        change (str "apps" :: (y :: ns) ++ [str "public"]) with ((str "apps" :: y :: ns) ++ [str "public"]). rewrite slashed_snoc by discriminate. rewrite slashed_cons.
        now rewrite <- ?app_assoc.
      + rewrite clean_abs_names; [|discriminate|constructor; [exact FA|apply Forall_app; split; [exact F|constructor; [exact FP|constructor]]]].
        destruct names as [|y ns]; [congruence|].
        change (str "apps" :: (y :: ns) ++ [str "public"]) with ((str "apps" :: y :: ns) ++ [str "public"]). rewrite slashed_snoc by discriminate. rewrite slashed_cons.
        rewrite <- app_assoc. reflexivity.
    - transitivity (clean (47 :: slashed (str "apps" :: names))).
      + unfold path_join. rewrite E. change (filter _ [str "/apps"; c :: s]) with [str "/apps"; c :: s]. rewrite <- E.
        destruct names as [|y ns]; [congruence|]. reflexivity.
      + rewrite clean_abs_names; [|discriminate|constructor; assumption]. destruct names as [|y ns]; [congruence|]. rewrite app_nil_r. reflexivity. }
  split; [exact E|]. intros H. rewrite E.
  rewrite <- (app_nil_r (slashed names ++ (if no_index then str "/public" else []))) at 2. apply C76_late_files; [now left|]. rewrite app_nil_r.
  destruct no_index.
  - intros X. apply (f_equal (fun v => existsb (Z.eqb 47) v)) in X. rewrite existsb_app in X. cbn in X. rewrite orb_true_r in X. discriminate X.
  - rewrite app_nil_r. destruct H as [H|H]; [exact H|discriminate H].
Qed.
(** For any name at all, the address is the shortest form of /apps/NAME or /apps/NAME/public. *)
Theorem C71_installed_path (name : bytes) (no_index : bool) :
  cleaned (str "/apps/" ++ name ++ (if no_index then str "/public" else [])) (getPathForPackage name no_index).
Proof.
  apply C71_clean. destruct name as [|c r]; [destruct no_index; reflexivity|].
  destruct no_index; [reflexivity|]. rewrite app_nil_r. reflexivity.
Qed.
(** Not for names with .. in them: the address can be any path of the program. *)
Theorem C71_installed_url_refuted : getPathForPackage (str "../admin") false = str "/admin".
Proof. reflexivity. Qed.
(** Nor does the link of an app work whose package.json has a location without slash. *)
Definition webapp (name loc : bytes) : package := mkpkg (str "1.2.0") name loc [str "sail"; str "signalk-webapp"].
Theorem C71_link_refuted : exists l r k, well_named_all l /\ getInstalledPackages (Some l) = Some r /\ In k (map fst r) /\
  exists url, app_link (Some r) k = Some url /\ route (map fst r) [] url = HNotFound.
Proof.
  exists [(str "wind", NDir (Some (Some (webapp (str "wind") (str "x")))) false [])]. eexists. exists (str "wind").
  split; [constructor; [repeat split; try discriminate; vm_compute; intuition discriminate|intros []|constructor; constructor|constructor]|].
  split; [vm_compute; reflexivity|]. split; [now left|]. eexists. split; [vm_compute; reflexivity|]. vm_compute. reflexivity.
Qed.

(** One directory without package.json at the top (.cache, say, which npm and yarn do leave
    there) hides every app. *)
Theorem C71_hidden_refuted : exists l name n ks p x, well_named_all l /\ In (name, n) l /\ web_app name n ks p x /\
  getInstalledPackages (Some l) = None /\ app_link (getInstalledPackages (Some l)) (slashed ks) = None.
Proof.
  exists [(str ".cache", NDir None true []); (str "wind", NDir (Some (Some (webapp (str "wind") []))) false [])], (str "wind").
  eexists. exists [str "wind"]. eexists. exists false.
  split.
  { constructor; [repeat split; try discriminate; vm_compute; intuition discriminate|vm_compute; intuition discriminate|constructor; constructor|].
    constructor; [repeat split; try discriminate; vm_compute; intuition discriminate|intros []|constructor; constructor|constructor]. }
  split; [right; now left|]. split; [apply app_here; [intros (r & E); vm_compute in E; discriminate E|vm_compute; discriminate|right; now left]|].
  split; vm_compute; reflexivity.
Qed.
(** In a scope, it hides the apps of the scope only; a package.json that is not JSON, only its
    own package. *)
Example C71_ex : getInstalledPackages (Some
    [(str ".bin", NDir None true []); (str "README", NOther);
     (str "@a", NDir None true [(str "broken", NDir None true []); (str "depth", NDir (Some (Some (webapp (str "@a/depth") []))) false [])]);
     (str "@b", NDir None true [(str "chart", NDir (Some (Some (webapp (str "@b/chart") []))) true [])]);
     (str "bad", NDir (Some None) true []);
     (str "lodash", NDir (Some (Some (mkpkg (str "4") (str "lodash") [] []))) true []);
     (str "wind", NDir (Some (Some (webapp (str "wind") (str "/wind")))) true [])]) =
  Some [(str "@b/chart", webapp (str "@b/chart") (str "/@b/chart/public")); (str "wind", webapp (str "wind") (str "/wind/public"))].
Proof. vm_compute. reflexivity. Qed.
Example C71_ex_names : well_named_all [(str "@b", NDir None true [(str "chart", NDir (Some (Some (webapp (str "@b/chart") []))) true [])])] /\
  level_ok [(str "@b", NDir None true [(str "chart", NDir (Some (Some (webapp (str "@b/chart") []))) true [])])].
Proof.
  split.
  - constructor; [repeat split; try discriminate; vm_compute; intuition discriminate|intros []| |constructor].
    constructor. constructor; [repeat split; try discriminate; vm_compute; intuition discriminate|intros []|constructor; constructor|constructor].
  - intros name x es [E|[]]. injection E as <- _ _. left. now exists (str "b").
Qed.

(* ------------------------------------------------------------ installation: C79 *)

Definition install_start (lines : nat) : list op * list op := (caller_ops, reporter_ops lines).
Definition install_reaches := clos_refl_trans _ install_step.

(** What every state of an installation looks like: before the meeting, both sides wait for
    each other; after it, the caller goes its own way and the reporter reads its lines. *)
Definition install_state (lines : nat) (s : list op * list op) : Prop :=
  (fst s = caller_ops /\ (snd s = reporter_ops lines \/ snd s = OReceive :: repeat OOther lines ++ [OSend])) \/
  (exists i j, (i <= 2)%nat /\ (j <= lines)%nat /\ fst s = repeat OOther i /\ snd s = repeat OOther j ++ [OSend]).
Lemma install_inv lines s : install_reaches (install_start lines) s -> install_state lines s.
Proof.
  intros R. apply clos_rt_rtn1 in R. induction R as [|s s' ST _ IH]; [left; split; [reflexivity|now left]|].
  destruct IH as [[E1 E2]|(i & j & Hi & Hj & E1 & E2)].
  - destruct s as [a b]. cbn [fst snd] in *. subst a. destruct E2 as [-> | ->].
    + inversion ST; subst. left. split; [reflexivity|now right].
    + inversion ST; subst. right. exists 2%nat, lines. cbn [fst snd]. repeat split; lia.
  - destruct s as [a b]. cbn [fst snd] in *. subst. destruct i as [|i], j as [|j]; cbn [repeat app] in ST; inversion ST; subst.
    + right. exists 0%nat, j. cbn [fst snd]. repeat split; lia.
    + right. exists i, 0%nat. cbn [fst snd]. repeat split; lia.
    + right. exists i, (S j). cbn [fst snd]. repeat split; lia.
    + right. exists (S i), j. cbn [fst snd]. repeat split; lia.
Qed.
(** C79: an installation never gets stuck before it has returned to the caller, and takes
    finitely many steps; but its reporter waits forever, in the end, for somebody to take its
    last message: every installation leaves one goroutine behind. *)
Theorem C79_leak lines s : install_reaches (install_start lines) s -> (forall s', ~ install_step s s') -> s = ([], [OSend]).
Proof.
  intros R T. destruct (install_inv lines s R) as [[E1 [E2|E2]]|(i & j & Hi & Hj & E1 & E2)]; destruct s as [a b]; cbn [fst snd] in *; subst.
  - exfalso. eapply T. apply is_reporter.
  - exfalso. eapply T. apply is_to_reporter.
  - destruct i; [|exfalso; eapply T; apply is_caller]. destruct j; [reflexivity|exfalso; eapply T; apply is_reporter].
Qed.
Theorem C79_never_ends lines s : install_reaches (install_start lines) s -> snd s <> [].
Proof.
  intros R. destruct (install_inv lines s R) as [[E1 [E2|E2]]|(i & j & Hi & Hj & E1 & E2)]; rewrite E2; [discriminate|discriminate|].
  destruct j; discriminate.
Qed.
(** From every state, at most [lines] + 4 steps in all, and the caller can always finish. *)
Inductive install_steps : nat -> list op * list op -> list op * list op -> Prop :=
| ist_0 s : install_steps 0 s s
| ist_S n s s' s'' : install_step s s' -> install_steps n s' s'' -> install_steps (S n) s s''.
Theorem C79_finite lines n s : install_steps n (install_start lines) s -> (n <= lines + 4)%nat.
Proof.
  revert n s.
  assert (forall n s s', install_steps n s s' -> (n + List.length (fst s') + List.length (snd s') <= List.length (fst s) + List.length (snd s))%nat) as K.
  { induction 1 as [s0|m s0 s1 s2 ST _ IH]; [lia|]. destruct ST; cbn [fst snd List.length] in *; lia. }
  assert (forall n s s', install_steps n s s' -> In OSend (fst s) -> ~ In OReceive (fst s) -> ~ In OSend (fst s') ->
    (n + 1 + List.length (fst s') + List.length (snd s') <= List.length (fst s) + List.length (snd s))%nat) as K2.
  { induction 1 as [s0|m s0 s1 s2 ST R IH]; intros I NR NI; [contradiction|]. destruct ST; cbn [fst snd] in *.
    - destruct I as [I|I]; [discriminate I|]. cbn [List.length]. assert (~ In OReceive a) as NR' by (intros X; apply NR; now right). specialize (IH I NR' NI). lia.
    - specialize (IH I NR NI). cbn [List.length]. lia.
    - pose proof (K _ _ _ R) as K1. cbn [fst snd List.length] in *. lia.
    - destruct NR. now left. }
  intros n s R. assert (install_reaches (install_start lines) s) as R'.
  { clear K K2. revert R. generalize (install_start lines). intros s0 R. induction R as [|m a b c ST _ IH]; [apply rt_refl|eapply rt_trans; [apply rt_step; exact ST|exact IH]]. }
  assert (List.length (reporter_ops lines) = lines + 3)%nat as LR by (unfold reporter_ops; rewrite !app_length, repeat_length; cbn; lia).
  destruct (install_inv lines s R') as [[E1 [E2|E2]]|(i & j & Hi & Hj & E1 & E2)].
  - pose proof (K _ _ _ R) as B. unfold install_start in B. cbn [fst snd] in B. rewrite E1, E2, LR in B. cbn in B. lia.
  - pose proof (K _ _ _ R) as B. unfold install_start in B. cbn [fst snd] in B. rewrite E1, E2, LR in B. cbn [List.length caller_ops] in B.
    rewrite app_length, repeat_length in B. cbn in B. lia.
  - pose proof (K2 _ _ _ R) as B. unfold install_start in B. cbn [fst snd] in B. rewrite E1, E2, LR in B. rewrite !app_length, !repeat_length in B. cbn in B.
    assert (n + 1 + i + (j + 1) <= 3 + (lines + 3))%nat; [|lia].
    apply B; [now left|intuition discriminate|]. intros X. clear - X. induction i; [destruct X|]. destruct X as [X|X]; [discriminate X|auto].
Qed.
Theorem C79_returns lines s : install_reaches (install_start lines) s -> exists b, install_reaches s ([], b).
Proof.
  intros R.
  assert (forall i b, install_reaches (repeat OOther i, b) ([], b)) as K.
  { induction i as [|i IH]; intros b; [apply rt_refl|]. eapply rt_trans; [apply rt_step; apply is_caller|apply IH]. }
  destruct (install_inv lines s R) as [[E1 [E2|E2]]|(i & j & Hi & Hj & E1 & E2)]; destruct s as [a b]; cbn [fst snd] in *; subst.
  - eexists. eapply rt_trans; [apply rt_step; apply is_reporter|]. eapply rt_trans; [apply rt_step; apply is_to_reporter|]. apply (K 2%nat).
  - eexists. eapply rt_trans; [apply rt_step; apply is_to_reporter|]. apply (K 2%nat).
  - eexists. apply K.
Qed.
(** The hypotheses of [C79_leak] can be met: the end is reached for any output of yarn. *)
Theorem C79_end_reached lines : install_reaches (install_start lines) ([], [OSend]) /\ forall s', ~ install_step ([], [OSend]) s'.
Proof.
  split; [|intros s' ST; inversion ST].
  eapply rt_trans; [apply rt_step; apply is_reporter|]. eapply rt_trans; [apply rt_step; apply is_to_reporter|].
  eapply rt_trans; [apply rt_step; apply is_caller|]. eapply rt_trans; [apply rt_step; apply is_caller|].
  change (([] ++ repeat OOther lines ++ [OSend])) with (repeat OOther lines ++ [OSend]).
  induction lines as [|m IH]; [apply rt_refl|]. eapply rt_trans; [apply rt_step; apply is_reporter|exact IH].
Qed.
