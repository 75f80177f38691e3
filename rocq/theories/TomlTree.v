(** TomlTree: what the parser of TomlModel builds from proper statements. *)
From Verif Require Import GoBase ApiProps TomlModel TomlSpec.
Open Scope Z_scope.
Open Scope list_scope.

Lemma path_eqb_eq p : forall q, path_eqb p q = true <-> p = q.
Proof.
  induction p as [|a p IH]; intros [|b q]; cbn [path_eqb]; try (split; [discriminate|discriminate]); [tauto|].
  rewrite andb_true_iff, bytes_eqb_eq, IH. split; [intros [-> ->]; reflexivity|intros E; injection E; auto].
Qed.
Lemma path_dec (p q : path) : {p = q} + {p <> q}.
Proof. destruct (path_eqb p q) eqn:E; [left; now apply path_eqb_eq|right; intros X; apply path_eqb_eq in X; congruence]. Qed.
Lemma find_snoc t p n q : find_path (t ++ [(p, n)]) q = match find_path t q with Some x => Some x | None => if path_eqb p q then Some n else None end.
Proof. induction t as [|[r m] t IH]; [reflexivity|]. cbn [app find_path]. now destruct (path_eqb r q). Qed.
Lemma find_in t p n : find_path t p = Some n -> In (p, n) t.
Proof.
  induction t as [|[r m] t IH]; [discriminate|]. cbn [find_path]. destruct (path_eqb r p) eqn:E.
  - intros H. injection H as ->. apply path_eqb_eq in E. subst. now left.
  - intros H. right. now apply IH.
Qed.
Lemma find_none t p : find_path t p = None <-> ~ In p (map fst t).
Proof.
  induction t as [|[r m] t IH]; [cbn; tauto|]. cbn [find_path map fst]. destruct (path_eqb r p) eqn:E.
  - apply path_eqb_eq in E. subst. split; [discriminate|intros N; elim N; now left].
  - rewrite IH. split; [intros N [X|X]; [|tauto]; apply path_eqb_eq in X; congruence|cbn; tauto].
Qed.
Lemma in_find t p n : NoDup (map fst t) -> In (p, n) t -> find_path t p = Some n.
Proof.
  induction t as [|[r m] t IH]; [intros _ []|]. cbn [map fst]. intros N [E|I]; cbn [find_path].
  - injection E as -> ->. now rewrite (proj2 (path_eqb_eq p p) eq_refl).
  - inversion N as [|? ? NI N']; subst. destruct (path_eqb r p) eqn:E; [|now apply IH]. apply path_eqb_eq in E. subst. elim NI. apply in_map_iff. exists (p, n). auto.
Qed.

(** The context after some statements. *)
Definition ctx_after (l : list stmt) : path := last (headers l) [].
Lemma headers_app a b : headers (a ++ b) = headers a ++ headers b.
Proof. induction a as [|[p|k v] a IH]; cbn [app headers]; [reflexivity|now rewrite IH|exact IH]. Qed.
Lemma assigned_snoc a k v : forall c, assigned c (a ++ [SSet k v]) = assigned c a ++ [(last (headers a) c ++ [k], v)].
Proof.
  induction a as [|[p|k' v'] a IH]; intros c; cbn [app assigned headers]; [reflexivity| |].
  - rewrite IH. assert (last (p :: headers a) c = last (headers a) p) as ->; [|reflexivity]. clear. revert p c.
    induction (headers a) as [|x l IH]; intros p c; [reflexivity|]. change (last (p :: x :: l) c) with (last (x :: l) c). rewrite !IH. reflexivity.
  - now rewrite IH.
Qed.
Lemma assigned_head a p : forall c, assigned c (a ++ [SHead p]) = assigned c a.
Proof. induction a as [|[q|k' v'] a IH]; intros c; cbn [app assigned]; [reflexivity|apply IH|now rewrite IH]. Qed.
Lemma assigned_more a b c : exists r, assigned c (a ++ b) = assigned c a ++ r.
Proof.
  revert c. induction a as [|[q|k' v'] a IH]; intros c; cbn [app assigned]; [eauto|apply IH|]. destruct (IH c) as [r ->]. exists r. reflexivity.
Qed.
Lemma last_in {A} (l : list A) d : l <> [] -> In (last l d) l.
Proof. induction l as [|x [|y l] IH]; [easy|now left|]. intros _. right. now apply IH. Qed.
Lemma nodup_app_l {A} (a b : list A) : NoDup (a ++ b) -> NoDup a.
Proof. induction a as [|x a IH]; cbn [app]; intros H; [constructor|]. inversion H as [|? ? NI N]; subst. constructor; [rewrite in_app_iff in NI; tauto|now apply IH]. Qed.
Lemma proper_less a b : proper (a ++ b) -> proper a.
Proof.
  intros (N1 & N2 & G & U). destruct (assigned_more a b []) as [r E]. assert (forall p v, gives a p v -> gives (a ++ b) p v) as GM.
  { unfold gives. intros p v. rewrite E, in_app_iff. auto. }
  assert (forall p, has_table a p -> has_table (a ++ b) p) as TM.
  { intros p [NE [q I]]. split; [exact NE|]. exists q. rewrite headers_app, in_app_iff. auto. }
  rewrite headers_app in N1. rewrite E, map_app in N2. split; [now apply nodup_app_l in N1|]. split; [now apply nodup_app_l in N2|]. split; [intros p v H T; apply (G p v); auto|]. intros p q H1 H2. apply U; auto.
Qed.

(** walk: the tables on the way. *)
Definition on_way (done rest q : path) : Prop := exists a b, a <> [] /\ rest = a ++ b /\ q = done ++ a.
Lemma on_way_cons done k r q : on_way done (k :: r) q <-> q = done ++ [k] \/ on_way (done ++ [k]) r q.
Proof.
  split.
  - intros (a & b & NE & E & ->). destruct a as [|x a]; [easy|]. cbn [app] in E. injection E as <- ->. destruct a as [|y a]; [now left|].
    right. exists (y :: a), b. repeat split; [discriminate|]. now rewrite <- app_assoc.
  - intros [->|(a & b & NE & -> & ->)].
    + exists [k], r. repeat split. discriminate.
    + exists (k :: a), b. repeat split; [discriminate|]. now rewrite <- app_assoc.
Qed.
Lemma walk_ok rest : forall t impl done, (forall q v, on_way done rest q -> find_path t q <> Some (NLeaf v)) -> NoDup (map fst t) ->
  exists t' impl', walk t impl done rest = Some (t', impl') /\ NoDup (map fst t') /\
    (forall q n, find_path t' q = Some n <-> find_path t q = Some n \/ (find_path t q = None /\ n = NTable /\ on_way done rest q)) /\
    (forall x, In x impl' <-> In x impl \/ exists q, find_path t q = None /\ on_way done rest q /\ x = dotted q).
Proof.
  induction rest as [|k rest IH]; intros t impl done L ND; cbn [walk].
  - exists t, impl. repeat split; auto; [intros [H|(_ & _ & (a & b & NE & E & _))]; [exact H|]|intros [H|(q & _ & (a & b & NE & E & _) & _)]; [exact H|]]; destruct a; easy.
  - destruct (find_path t (done ++ [k])) as [n|] eqn:F.
    + destruct n as [v|]. { elim (L (done ++ [k]) v); [|exact F]. apply on_way_cons. now left. }
      destruct (IH t impl (done ++ [k])) as (t' & impl' & W & N & T & X); [intros q v O; apply L; apply on_way_cons; now right|exact ND|].
      exists t', impl'. split; [exact W|]. split; [exact N|]. split.
      * intros q n. rewrite T, on_way_cons. split; [tauto|]. intros [H|(H & -> & [->|O])]; [tauto|congruence|tauto].
      * intros x. rewrite X. split; [intros [H|(q & H & O & E)]; [tauto|]|intros [H|(q & H & O & E)]; [tauto|]].
        -- right. exists q. rewrite on_way_cons. tauto.
        -- right. exists q. apply on_way_cons in O as [->|O]; [congruence|tauto].
    + destruct (IH (t ++ [(done ++ [k], NTable)]) (dotted (done ++ [k]) :: impl) (done ++ [k])) as (t' & impl' & W & N & T & X).
      * intros q v O. rewrite find_snoc. destruct (find_path t q) eqn:Q; [rewrite <- Q; apply L; apply on_way_cons; now right|]. destruct (path_eqb (done ++ [k]) q); discriminate.
      * rewrite map_app. cbn [map fst]. apply NoDup_rev in ND. rewrite <- (rev_involutive (map fst t ++ _)). apply NoDup_rev. rewrite rev_app_distr. cbn [rev app]. constructor; [|exact ND].
        rewrite <- in_rev. now apply find_none.
      * assert (forall q, find_path (t ++ [(done ++ [k], NTable)]) q = None <-> find_path t q = None /\ q <> done ++ [k]) as FN.
        { intros q. rewrite find_snoc. destruct (find_path t q); [split; [discriminate|intros [X0 _]; discriminate X0]|]. destruct (path_eqb (done ++ [k]) q) eqn:E.
          - apply path_eqb_eq in E. split; [discriminate|intros [_ X0]; congruence].
          - split; [|reflexivity]. intros _. split; [reflexivity|]. intros X0. symmetry in X0. apply path_eqb_eq in X0. congruence. }
        assert (forall q n, find_path (t ++ [(done ++ [k], NTable)]) q = Some n <-> find_path t q = Some n \/ (q = done ++ [k] /\ n = NTable)) as FS.
        { intros q n. rewrite find_snoc. destruct (find_path t q) as [m|] eqn:Q.
          - split; [tauto|]. intros [H|[-> _]]; [exact H|congruence].
          - destruct (path_eqb (done ++ [k]) q) eqn:E.
            + apply path_eqb_eq in E. split; [intros H; injection H as <-; auto|]. intros [H|[_ ->]]; [discriminate H|reflexivity].
            + split; [discriminate|]. intros [H|[-> _]]; [discriminate H|]. rewrite (proj2 (path_eqb_eq _ _) eq_refl) in E. discriminate E. }
        exists t', impl'. split; [exact W|]. split; [exact N|]. split.
        -- intros q n. rewrite T, FS, FN, on_way_cons. split.
           ++ intros [[H|[-> ->]]|([H1 H2] & -> & O)]; [tauto|right; auto|tauto].
           ++ intros [H|(H & -> & [->|O])]; [tauto|tauto|]. destruct (path_dec q (done ++ [k])) as [->|NQ]; tauto.
        -- intros x. rewrite X. cbn [In]. split.
           ++ intros [[<-|H]|(q & Q & O & ->)]; [right; exists (done ++ [k]); rewrite on_way_cons; auto|tauto|]. right. exists q. rewrite on_way_cons. apply FN in Q. tauto.
           ++ intros [H|(q & Q & O & ->)]; [tauto|]. apply on_way_cons in O as [->|O]; [tauto|]. destruct (path_dec q (done ++ [k])) as [->|NQ]; [tauto|]. right. exists q. rewrite FN. tauto.
Qed.

(** What the state holds after the statements l. *)
Definition built (l : list stmt) (s : pstate) : Prop :=
  (forall p v, find_path (p_tree s) p = Some (NLeaf v) <-> gives l p v) /\
  (forall p, find_path (p_tree s) p = Some NTable <-> has_table l p) /\
  (forall p, has_table l p -> (In (dotted p) (p_impl s) <-> ~ In p (headers l))) /\
  (forall x, In x (p_impl s) -> exists p, has_table l p /\ x = dotted p) /\
  p_ctx s = ctx_after l /\ NoDup (map fst (p_tree s)).
Lemma ctx_table l : Forall (fun p => p <> []) (headers l) -> ctx_after l <> [] -> has_table l (ctx_after l).
Proof.
  unfold ctx_after. intros F N. split; [exact N|]. exists []. rewrite app_nil_r. apply last_in. intros E. now rewrite E in N.
Qed.
Lemma find_add t p n q m : find_path t p = None -> find_path (t ++ [(p, n)]) q = Some m <-> find_path t q = Some m \/ (q = p /\ m = n).
Proof.
  intros F. rewrite find_snoc. destruct (find_path t q) as [x|] eqn:Q.
  - split; [tauto|]. intros [H|[-> _]]; [exact H|congruence].
  - destruct (path_eqb p q) eqn:E.
    + apply path_eqb_eq in E. subst. split; [intros H; injection H as <-; auto|]. intros [H|[_ ->]]; [discriminate H|reflexivity].
    + split; [discriminate|]. intros [H|[-> _]]; [discriminate H|]. rewrite (proj2 (path_eqb_eq _ _) eq_refl) in E. discriminate E.
Qed.
Lemma nodup_snoc {A} (l : list A) x : NoDup l -> ~ In x l -> NoDup (l ++ [x]).
Proof. intros N I. rewrite <- (rev_involutive (l ++ [x])). apply NoDup_rev. rewrite rev_app_distr. constructor; [now rewrite <- in_rev|now apply NoDup_rev]. Qed.
Lemma implicit_iff s p : is_implicit s p = true <-> In (dotted p) (p_impl s).
Proof.
  unfold is_implicit. rewrite existsb_exists. split.
  - intros (x & I & E). apply bytes_eqb_eq in E. now subst.
  - intros I. exists (dotted p). split; [exact I|]. now apply bytes_eqb_eq.
Qed.
Lemma no_longer_iff s p x : In x (no_longer s p) <-> In x (p_impl s) /\ x <> dotted p.
Proof.
  unfold no_longer. rewrite filter_In, negb_true_iff. destruct (bytes_eqb (dotted p) x) eqn:E.
  - apply bytes_eqb_eq in E. subst. split; [intros [_ X]; discriminate X|tauto].
  - split; [intros [H _]; split; [exact H|]; intros ->|tauto]. rewrite (proj2 (bytes_eqb_eq _ _) eq_refl) in E. discriminate E.
Qed.
Lemma has_table_snoc l p q : p <> [] -> has_table (l ++ [SHead p]) q <-> has_table l q \/ q = p \/ on_way [] (removelast p) q.
Proof.
  intros NP. unfold has_table. rewrite headers_app. cbn [headers]. split.
  - intros (NE & x & I). apply in_app_iff in I as [I|[I|[]]]; [eauto|]. right. destruct x as [|a x]; [rewrite app_nil_r in I; auto|].
    right. exists q. exists (removelast (a :: x)). rewrite I, removelast_app by discriminate. auto.
  - intros [(NE & x & I)|[->|(a & b & NE & E & ->)]].
    + split; [exact NE|]. exists x. rewrite in_app_iff. auto.
    + split; [exact NP|]. exists []. rewrite app_nil_r, in_app_iff. right. now left.
    + split; [exact NE|]. exists (b ++ [last p []]). rewrite in_app_iff. right. left. cbn [app]. rewrite app_assoc, <- E. now apply app_removelast_last.
Qed.
Lemma has_table_set l k v q : has_table (l ++ [SSet k v]) q <-> has_table l q.
Proof. unfold has_table. rewrite headers_app. cbn [headers]. now rewrite app_nil_r. Qed.
Lemma step_built l st s : Forall (fun p => p <> []) (headers (l ++ [st])) -> proper (l ++ [st]) -> built l s -> exists s', step s st = Some s' /\ built (l ++ [st]) s'.
Proof.
  intros NE PR (B1 & B2 & B3 & B4 & B5 & B6). destruct st as [p|k v]; cbn [step].
  - assert (p <> []) as NP. { rewrite headers_app in NE. apply Forall_app in NE as [_ NE]. now inversion NE. }
    destruct PR as (N1 & N2 & G & U). assert (forall q, has_table l q -> has_table (l ++ [SHead p]) q) as TM by (intros q H; apply has_table_snoc; auto).
    assert (forall q v, gives (l ++ [SHead p]) q v <-> gives l q v) as GE by (intros q v; unfold gives; now rewrite assigned_head).
    assert (forall q, on_way [] (removelast p) q -> q <> p) as OP.
    { intros q (a & b & _ & E & ->) X. cbn in X. subst a. apply (f_equal (@List.length bytes)) in E. rewrite app_length in E.
      pose proof (f_equal (@List.length bytes) (app_removelast_last [] NP)) as E2. rewrite app_length in E2. cbn in E2. unfold bytes in *. lia. }
    destruct (walk_ok (removelast p) (p_tree s) (p_impl s) []) as (t' & impl' & W & N & T & X); [|exact B6|].
    { intros q v O F. apply B1 in F. apply (G q v); [now apply GE|]. apply has_table_snoc; auto. }
    rewrite W. assert (removelast p ++ [last p []] = p) as PP by (symmetry; now apply app_removelast_last).
    unfold set_value. cbn [p_ctx p_tree p_impl]. rewrite PP.
    assert ((match removelast p with [] => Some NTable | _ :: _ => find_path t' (removelast p) end) = Some NTable) as ->.
    { destruct (removelast p) as [|a r] eqn:R; [reflexivity|]. rewrite T. destruct (find_path (p_tree s) (a :: r)) as [n|] eqn:F.
      - left. destruct n as [v|]; [|reflexivity]. exfalso. apply B1 in F. apply (G (a :: r) v); [now apply GE|]. apply has_table_snoc; [exact NP|]. right. right.
        rewrite R. exists (a :: r), []. rewrite app_nil_r. repeat split. discriminate.
      - right. repeat split. exists (a :: r), []. rewrite app_nil_r. repeat split. discriminate. }
    assert (headers (l ++ [SHead p]) = headers l ++ [p]) as HE by now rewrite headers_app.
    assert (~ In p (headers l)) as NI. { rewrite HE in N1. apply NoDup_rev in N1. rewrite rev_app_distr in N1. cbn in N1. inversion N1. now rewrite <- in_rev in *. }
    assert (forall q, In q (headers (l ++ [SHead p])) <-> In q (headers l) \/ q = p) as HI by (intros q; rewrite HE, in_app_iff; cbn; intuition).
    assert (forall q, has_table l q -> has_table (l ++ [SHead p]) p -> dotted q = dotted p -> q = p) as UP by (intros q H1 H2; apply U; auto).
    assert (has_table (l ++ [SHead p]) p) as TP by (apply has_table_snoc; auto).
    assert (forall q, find_path (p_tree s) q = None -> ~ has_table l q) as NT by (intros q F H; apply B2 in H; congruence).
    assert (forall q, on_way [] (removelast p) q -> has_table (l ++ [SHead p]) q) as TO by (intros q O; apply has_table_snoc; auto).
    destruct (find_path t' p) as [n|] eqn:F.
    + assert (find_path (p_tree s) p = Some NTable) as FT.
      { apply T in F as [F|(_ & _ & O)]; [|elim (OP p O eq_refl)]. destruct n as [v|]; [|exact F]. apply B1 in F. elim (G p v); [now apply GE|exact TP]. }
      pose proof (proj1 (B2 p) FT) as HT. pose proof (proj2 (B3 p HT) NI) as IM.
      rewrite (proj2 (implicit_iff (mkpstate t' (removelast p) impl') p)) by (cbn; apply X; now left).
      eexists. split; [reflexivity|]. repeat apply conj; cbn [p_tree p_ctx p_impl].
      * intros q v. rewrite GE, <- B1, T. split; [intros [H|(_ & H & _)]; [exact H|discriminate H]|auto].
      * intros q. rewrite has_table_snoc by exact NP. rewrite T, <- B2. destruct (find_path (p_tree s) q) as [m|] eqn:Q.
        -- split; [intros [H|(H & _)]; [auto|discriminate H]|]. intros [H|[->|O]]; [auto|rewrite FT in Q; auto|]. left. destruct m as [v|]; [|reflexivity]. apply B1 in Q. elim (G q v); [now apply GE|auto].
        -- split; [intros [H|(_ & _ & O)]; [discriminate H|auto]|]. intros [H|[->|O]]; [discriminate H|congruence|auto].
      * intros q HQ. change (no_longer _ p) with (no_longer (mkpstate t' (removelast p) impl') p). rewrite no_longer_iff. cbn [p_impl]. rewrite X, HI. split.
        -- intros [[I|(q' & FQ & O & E)] ND] [I2|I2]; subst; try tauto.
           ++ assert (has_table l q) as HL by (split; [apply HQ|exists []; now rewrite app_nil_r]). apply B3 in I; tauto.
           ++ assert (q = q') as <- by (apply U; auto). assert (has_table l q) as HL by (split; [apply HQ|exists []; now rewrite app_nil_r]). now apply NT in FQ.
        -- intros NIQ. split; [|intros E; apply NIQ; right; now apply U]. apply (has_table_snoc l p q NP) in HQ as [HQ|[->|O]]; [|tauto|].
           ++ left. apply B3; tauto.
           ++ destruct (find_path (p_tree s) q) as [m|] eqn:Q; [|right; exists q; auto]. left. apply B3; [|tauto]. apply B2. rewrite Q. destruct m as [v|]; [|reflexivity].
              apply B1 in Q. elim (G q v); [now apply GE|auto].
      * intros x I. change (no_longer _ p) with (no_longer (mkpstate t' (removelast p) impl') p) in I. apply no_longer_iff in I as [I _]. cbn [p_impl] in I. apply X in I as [I|(q & _ & O & ->)]; [|eauto].
        apply B4 in I as (q & HQ & ->). eauto.
      * unfold ctx_after. rewrite HE. now rewrite last_last.
      * exact N.
    + eexists. split; [reflexivity|]. 
      assert (find_path (p_tree s) p = None) as FN. { destruct (find_path (p_tree s) p) eqn:E; [|reflexivity]. assert (find_path t' p = Some n) by (apply T; now left). congruence. }
      repeat apply conj; cbn [p_tree p_ctx p_impl].
      * intros q v. rewrite GE, <- B1, find_add by exact F. rewrite T. split; [intros [[H|(_ & H & _)]|[_ H]]; [exact H|discriminate H|discriminate H]|auto].
      * intros q. rewrite has_table_snoc by exact NP. rewrite find_add by exact F. rewrite T, <- B2. destruct (find_path (p_tree s) q) as [m|] eqn:Q.
        -- split; [intros [[H|(H & _)]|[-> _]]; [auto|discriminate H|auto]|]. intros [H|[->|O]]; [auto|auto|]. left. left. destruct m as [v|]; [|reflexivity]. apply B1 in Q. elim (G q v); [now apply GE|auto].
        -- split; [intros [[H|(_ & _ & O)]|[-> _]]; [discriminate H|auto|auto]|]. intros [H|[->|O]]; [discriminate H|auto|auto].
      * intros q HQ. rewrite X, HI. split.
        -- intros [I|(q' & FQ & O & E)] [I2|I2]; subst.
           ++ assert (has_table l q) as HL by (split; [apply HQ|exists []; now rewrite app_nil_r]). apply B3 in I; tauto.
           ++ apply B4 in I as (q' & HQ' & E). assert (q' = p) as -> by (apply UP; auto). now apply NT in FN.
           ++ assert (q = q') as <- by (apply U; auto). assert (has_table l q) as HL by (split; [apply HQ|exists []; now rewrite app_nil_r]). now apply NT in FQ.
           ++ assert (p = q') as <- by (apply U; auto). elim (OP p O eq_refl).
        -- intros NIQ. apply (has_table_snoc l p q NP) in HQ as [HQ|[->|O]]; [|tauto|].
           ++ left. apply B3; tauto.
           ++ destruct (find_path (p_tree s) q) as [m|] eqn:Q; [|right; exists q; auto]. left. apply B3; [|tauto]. apply B2. rewrite Q. destruct m as [v|]; [|reflexivity].
              apply B1 in Q. elim (G q v); [now apply GE|auto].
      * intros x I. apply X in I as [I|(q & _ & O & ->)]; [|eauto]. apply B4 in I as (q & HQ & ->). eauto.
      * unfold ctx_after. rewrite HE. now rewrite last_last.
      * rewrite map_app. cbn [map fst]. apply nodup_snoc; [exact N|now apply find_none].
  - destruct PR as (N1 & N2 & G & U). set (p := ctx_after l ++ [k]).
    assert (forall q w, gives (l ++ [SSet k v]) q w <-> gives l q w \/ (q = p /\ w = v)) as GE.
    { intros q w. unfold gives. rewrite assigned_snoc, in_app_iff. cbn [In]. fold (ctx_after l). fold p. split; [intros [H|[H|[]]]; [auto|injection H; auto]|intros [H|[-> ->]]; auto]. }
    unfold set_value. rewrite B5. fold p.
    assert ((match ctx_after l with [] => Some NTable | _ :: _ => find_path (p_tree s) (ctx_after l) end) = Some NTable) as ->.
    { destruct (ctx_after l) eqn:C; [reflexivity|]. rewrite <- C. apply B2. apply ctx_table; [|congruence]. rewrite headers_app in NE. now apply Forall_app in NE. }
    destruct (find_path (p_tree s) p) as [n|] eqn:F.
    { exfalso. destruct n as [w|].
      - apply B1 in F. rewrite assigned_snoc, map_app in N2. cbn [map fst] in N2. fold (ctx_after l) in N2. fold p in N2. apply NoDup_rev in N2. rewrite rev_app_distr in N2. cbn in N2.
        inversion N2 as [|? ? NI _]. apply NI. rewrite <- in_rev. apply in_map_iff. exists (p, w). auto.
      - apply B2 in F. apply (G p v); [apply GE; auto|]. now apply has_table_set. }
    eexists. split; [reflexivity|]. repeat apply conj; cbn [p_tree p_ctx p_impl].
    + intros q w. rewrite find_add by exact F. rewrite GE, B1. split; (intros [H|[-> H]]; [auto|right; split; [reflexivity|congruence]]).
    + intros q. rewrite find_add by exact F. rewrite has_table_set, B2. split; [intros [H|[_ H]]; [auto|discriminate H]|auto].
    + intros q HQ. rewrite has_table_set in HQ. rewrite (B3 q HQ). rewrite headers_app. cbn [headers]. now rewrite app_nil_r.
    + intros x I. destruct (B4 x I) as (q & HQ & ->). exists q. now rewrite has_table_set.
    + unfold ctx_after. rewrite headers_app. cbn [headers]. now rewrite app_nil_r.
    + rewrite map_app. cbn [map fst]. apply nodup_snoc; [exact B6|now apply find_none].
Qed.
Lemma parse_built b : forall a s, Forall (fun p => p <> []) (headers (a ++ b)) -> proper (a ++ b) -> built a s -> exists s', parse s b = Some s' /\ built (a ++ b) s'.
Proof.
  induction b as [|st b IH]; intros a s NE PR B.
  - exists s. rewrite app_nil_r. auto.
  - assert (a ++ st :: b = (a ++ [st]) ++ b) as E by (rewrite <- app_assoc; reflexivity). rewrite E in *.
    destruct (step_built a st s) as (s1 & S & B1); [rewrite headers_app in NE; now apply Forall_app in NE|now apply proper_less in PR|exact B|].
    cbn [parse]. rewrite S. now apply IH.
Qed.
(** From proper statements the parser builds the tree of their values and tables. *)
Theorem parse_proper l : Forall (fun p => p <> []) (headers l) -> proper l -> exists t, parse_all l = Some t /\ NoDup (map fst t) /\
  (forall p v, In (p, NLeaf v) t <-> gives l p v) /\ (forall p, In (p, NTable) t <-> has_table l p).
Proof.
  intros NE PR. destruct (parse_built l [] (mkpstate [] [] []) NE PR) as (s & P & B1 & B2 & _ & _ & _ & B6).
  { repeat apply conj; cbn [p_tree p_impl p_ctx find_path].
    - intros p v. split; [discriminate|intros []].
    - intros p. split; [discriminate|]. intros [_ [q []]].
    - intros p [_ [q []]].
    - intros x [].
    - reflexivity.
    - constructor. }
  exists (p_tree s). unfold parse_all. rewrite P. split; [reflexivity|]. split; [exact B6|]. split.
  - intros p v. rewrite <- B1. split; [now apply in_find|apply find_in].
  - intros p. rewrite <- B2. split; [now apply in_find|apply find_in].
Qed.
