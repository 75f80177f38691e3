(** HubProps: C60 and C61. *)
From Coq Require Import Permutation.
From Verif Require Import GoBase HubModel HubSpec.
Open Scope list_scope.

#[local] Opaque in_dec.
#[local] Arguments remove_conn : simpl never.
Section Props.
Context {M : Type}.
Notation label := (label M).
Notation world := (world M).
Notation hstep := (@hstep M).
Notation hrun := (@hrun M).

(** Trace functions over a last action. *)
Lemma broadcasts_snoc (tr : list label) l :
  broadcasts (tr ++ [l]) = broadcasts tr ++ match l with LBroadcast m => [m] | _ => [] end.
Proof. unfold broadcasts. rewrite flat_map_app. cbn. now rewrite app_nil_r. Qed.
Lemma since_snoc c (tr : list label) l :
  In (LRegister c) tr ->
  since c (tr ++ [l]) = since c tr ++ match l with LBroadcast m => [m] | _ => [] end.
Proof.
  induction tr as [|x tr IH]; [intros []|]. intros H. destruct x; cbn [since app];
    try (apply IH; destruct H as [H|H]; [discriminate H|exact H]).
  destruct (Nat.eqb_spec c0 c) as [->|N].
  - apply broadcasts_snoc.
  - apply IH. destruct H as [H|H]; [congruence|exact H].
Qed.
Lemma since_unreg c (tr : list label) : ~ In (LRegister c) tr -> since c tr = [].
Proof.
  induction tr as [|x tr IH]; [reflexivity|]. intros H.
  assert (since c tr = []) as E by (apply IH; intro; apply H; now right).
  destruct x; cbn [since]; try exact E.
  destruct (Nat.eqb_spec c0 c) as [->|N]; [|exact E].
  exfalso. apply H. now left.
Qed.
Lemma since_register c (tr : list label) : ~ In (LRegister c) tr -> since c (tr ++ [LRegister c]) = [].
Proof.
  induction tr as [|x tr IH]; intros H.
  - cbn. now rewrite Nat.eqb_refl.
  - assert (since c (tr ++ [LRegister c]) = []) as E by (apply IH; intro; apply H; now right).
    destruct x; cbn [since app]; try exact E.
    destruct (Nat.eqb_spec c0 c) as [->|N]; [|exact E].
    exfalso. apply H. now left.
Qed.
Lemma attempts_snoc c (tr : list label) l :
  attempts c (tr ++ [l]) = attempts c tr ++
    match l with LWrite c' (FText m) _ => if Nat.eqb c' c then [m] else [] | _ => [] end.
Proof. unfold attempts. rewrite flat_map_app. cbn. now rewrite app_nil_r. Qed.
Lemma received_snoc c (tr : list label) l :
  received c (tr ++ [l]) = received c tr ++
    match l with LWrite c' (FText m) true => if Nat.eqb c' c then [m] else [] | _ => [] end.
Proof. unfold received. rewrite flat_map_app. cbn. now rewrite app_nil_r. Qed.
Lemma takes_snoc c (tr : list label) l :
  takes c (tr ++ [l]) = (takes c tr + match l with LTake c' => if Nat.eqb c' c then 1 else 0 | _ => 0 end)%nat.
Proof.
  unfold takes. rewrite filter_app, app_length. cbn.
  destruct l; cbn; try lia. destruct (Nat.eqb c0 c); cbn; lia.
Qed.
Lemma no_unreg_snoc (tr : list label) l : no_unregister (tr ++ [l]) -> no_unregister tr /\ (forall c, l <> LUnregister c).
Proof.
  intros H. split.
  - intros c I. apply (H c). apply in_or_app. now left.
  - intros c ->. apply (H c). apply in_or_app. right. now left.
Qed.
Lemma no_werr_snoc c (tr : list label) l : no_write_error c (tr ++ [l]) -> no_write_error c tr.
Proof. intros H f I. apply (H f). apply in_or_app. now left. Qed.

Lemma upd_same {A} (g : nat -> A) c v : upd g c v c = v.
Proof. unfold upd. now rewrite Nat.eqb_refl. Qed.
Lemma upd_other {A} (g : nat -> A) c v x : x <> c -> upd g c v x = g x.
Proof. unfold upd. intros. destruct (Nat.eqb_spec x c); congruence. Qed.
Lemma in_remove x c l : In x (remove_conn c l) <-> In x l /\ x <> c.
Proof.
  unfold remove_conn. rewrite filter_In. destruct (Nat.eqb_spec x c); cbn; intuition congruence.
Qed.
Lemma nodup_remove c l : NoDup l -> NoDup (remove_conn c l).
Proof. apply NoDup_filter. Qed.

Definition todo_of (w : world) : list nat := match w_hub w with HIdle => [] | HBcast _ t => t end.
Definition cur_of (w : world) : list M := match w_hub w with HIdle => [] | HBcast m _ => [m] end.

(** Everything known about client c after [tr]. *)
Record cinv (tr : list label) (w : world) (c : nat) : Prop := {
  ci_reg : In (LRegister c) tr <-> (w_pump w c <> None /\ w_pump w c <> Some PReg);
  ci_quiet : ~ In (LRegister c) tr ->
     w_chan w c = mkch [] false \/ w_pump w c = None;
  ci_quiet2 : ~ In (LRegister c) tr -> ~ In c (w_conns w) /\ attempts c tr = [] /\ takes c tr = O;
  ci_open : In c (w_conns w) -> ch_closed (w_chan w c) = false;
  ci_closed : In (LRegister c) tr -> ~ In c (w_conns w) -> ch_closed (w_chan w c) = true;
  ci_cap : (List.length (ch_q (w_chan w c)) <= send_cap)%nat;
  ci_stream : In (LRegister c) tr ->
     exists rest, since c tr = attempts c tr ++ pending w c ++ rest /\
       (In c (w_conns w) -> rest = if in_dec Nat.eq_dec c (todo_of w) then cur_of w else []);
  ci_takes : ch_closed (w_chan w c) = false -> takes c tr = List.length (attempts c tr ++ in_flight w c) }.

Record winv (tr : list label) (w : world) : Prop := {
  wi_nodup : NoDup (w_conns w);
  wi_todo : NoDup (todo_of w);
  wi_incl : forall c, In c (todo_of w) -> In c (w_conns w);
  wi_cur : forall m t, w_hub w = HBcast m t -> exists b, broadcasts tr = b ++ [m];
  wi_c : forall c, cinv tr w c }.

Lemma winv_init : winv [] hub_init.
Proof.
  constructor; cbn; try (now constructor); try easy.
  intros c. constructor; cbn; try easy; try tauto.
  unfold send_cap. lia.
Qed.

Lemma reg_dec (tr : list label) c : {In (LRegister c) tr} + {~ In (LRegister c) tr}.
Proof.
  induction tr as [|x tr [I|I]]; [now right|left; now right|].
  destruct x; try (right; intros [H|H]; [discriminate H|contradiction]).
  destruct (Nat.eq_dec c0 c) as [->|N]; [left; now left|].
  right; intros [H|H]; [congruence|contradiction].
Qed.
Lemma in_snoc {A} (x : A) tr l : In x (tr ++ [l]) <-> In x tr \/ x = l.
Proof. rewrite in_app_iff. cbn. intuition. Qed.

(** Steps that do not concern c and leave the hub's list and conns alone. *)
Lemma cinv_frame tr w w' l c :
  cinv tr w c ->
  w_chan w' c = w_chan w c -> w_pump w' c = w_pump w c ->
  (In c (w_conns w') <-> In c (w_conns w)) ->
  (In c (w_conns w) -> (In c (todo_of w') <-> In c (todo_of w))) ->
  (In c (w_conns w) -> In c (todo_of w) -> cur_of w' = cur_of w) ->
  (forall m, l <> LBroadcast m) -> l <> LRegister c ->
  (forall m b, l <> LWrite c (FText m) b) -> l <> LTake c ->
  cinv (tr ++ [l]) w' c.
Proof.
  intros [R Q Q2 O Cl Cp S T] EC EP EI ET EU NB NR NW NT.
  assert (In (LRegister c) (tr ++ [l]) <-> In (LRegister c) tr) as IR.
  { rewrite in_snoc. intuition congruence. }
  assert (attempts c (tr ++ [l]) = attempts c tr) as EA.
  { rewrite attempts_snoc. destruct l; try apply app_nil_r. destruct f; try apply app_nil_r.
    destruct (Nat.eqb_spec c0 c) as [->|]; [exfalso; eapply NW; reflexivity|apply app_nil_r]. }
  assert (takes c (tr ++ [l]) = takes c tr) as ETk.
  { rewrite takes_snoc. destruct l; try lia. destruct (Nat.eqb_spec c0 c) as [->|]; [congruence|lia]. }
  assert (In (LRegister c) tr -> since c (tr ++ [l]) = since c tr) as ES.
  { intros I. rewrite since_snoc by exact I. destruct l; try apply app_nil_r. exfalso; eapply NB; reflexivity. }
  assert (in_flight w' c = in_flight w c) as EF by (unfold in_flight; now rewrite EP).
  assert (pending w' c = pending w c) as EPd by (unfold pending; now rewrite EF, EC).
  constructor; rewrite ?IR, ?EC, ?EP, ?EA, ?ETk, ?EF, ?EPd.
  - exact R.
  - exact Q.
  - intros H. rewrite EI. now apply Q2.
  - intros H. apply O. now apply EI.
  - intros H1 H2. apply Cl; [exact H1|]. intro; apply H2; now apply EI.
  - exact Cp.
  - intros H. destruct (S H) as (rest & E & Er). exists rest. rewrite ES by exact H. split; [exact E|].
    intros I. apply EI in I. rewrite (Er I).
    destruct (in_dec Nat.eq_dec c (todo_of w)) as [i|i], (in_dec Nat.eq_dec c (todo_of w')) as [j|j].
    + symmetry. now apply EU.
    + exfalso. apply j. now apply ET.
    + exfalso. apply i. now apply ET.
    + reflexivity.
  - exact T.
Qed.

Lemma winv_step tr w l r :
  winv tr w -> hstep w l r -> (forall c, l <> LUnregister c) -> exists w', r = Ok w' /\ winv (tr ++ [l]) w'.
Proof.
  intros [ND NT IN CU WC] ST NU. inversion ST; subst.
  - (* open *)
    eexists; split; [reflexivity|]. constructor; cbn; auto.
    { intros m t E. destruct (CU m t E) as [b Hb]. exists b. rewrite broadcasts_snoc. now rewrite app_nil_r. }
    intros d. destruct (Nat.eq_dec d c) as [->|N].
    + destruct (WC c) as [R Q Q2 O Cl Cp S T].
      assert (~ In (LRegister c) tr) as NR by (rewrite R; rewrite H; intuition congruence).
      destruct (Q2 NR) as (N1 & N2 & N3).
      constructor; cbn; rewrite ?upd_same; cbn; auto.
      * rewrite in_snoc. split; [intros [?|?]; [tauto|discriminate]|intros [_ ?]; congruence].
      * intros _. rewrite attempts_snoc, takes_snoc, N2, N3. auto.
      * unfold todo_of. cbn. fold (todo_of w). intros I. exfalso. rewrite in_snoc in I. destruct I; [tauto|discriminate].
      * unfold send_cap. lia.
      * rewrite in_snoc. intros [?|?]; [tauto|discriminate].
      * intros _. rewrite takes_snoc, attempts_snoc, N2, N3. unfold in_flight. cbn. rewrite upd_same. reflexivity.
    + eapply cinv_frame; [apply WC|..]; cbn; rewrite ?upd_other by congruence; try reflexivity; try easy; try discriminate.
  - (* register *)
    eexists; split; [reflexivity|].
    assert (~ In (LRegister c) tr) as NR.
    { destruct (WC c) as [R _ _ _ _ _ _ _]. rewrite R. rewrite H0. intuition congruence. }
    destruct (WC c) as [R Q Q2 O Cl Cp S T]. destruct (Q2 NR) as (N1 & N2 & N3).
    destruct (in_dec Nat.eq_dec c (w_conns w)) as [i|i]; [tauto|].
    constructor; cbn.
    + constructor; assumption.
    + constructor.
    + intros ? [].
    + discriminate.
    + intros d. destruct (Nat.eq_dec d c) as [->|N].
      * assert (w_chan w c = mkch [] false) as EC by (destruct (Q NR) as [E|E]; [exact E|congruence]).
        constructor; cbn; rewrite ?upd_same, ?EC; cbn; auto.
        -- rewrite in_snoc. split; [intros _; split; congruence|auto].
        -- intros X. exfalso. apply X. rewrite in_snoc. auto.
        -- unfold send_cap; lia.
        -- intros _. exists []. rewrite since_register by exact NR. rewrite attempts_snoc, N2. cbn.
           unfold pending, in_flight. cbn. rewrite upd_same, EC. cbn. split; [reflexivity|]. reflexivity.
        -- intros _. rewrite takes_snoc, attempts_snoc, N2, N3. unfold in_flight. cbn. rewrite upd_same. reflexivity.
      * eapply cinv_frame; [apply WC|..]; cbn; rewrite ?upd_other by congruence; try reflexivity; try easy; try congruence.
        -- split; [intros [?|?]; [congruence|assumption]|now right].
        -- intros _. unfold todo_of. rewrite H. reflexivity.
        -- intros _ X. unfold todo_of in X. rewrite H in X. destruct X.
  - exfalso. eapply NU; reflexivity.
  - (* broadcast *)
    eexists; split; [reflexivity|]. constructor; cbn; auto.
    + eapply Permutation_NoDup; [symmetry; eassumption|assumption].
    + intros c I. eapply Permutation_in; eassumption.
    + intros m' t E. inversion E; subst. rewrite broadcasts_snoc. eauto.
    + intros c. destruct (WC c) as [R Q Q2 O Cl Cp S T]. 
      assert (In (LRegister c) (tr ++ [LBroadcast m]) <-> In (LRegister c) tr) as IR.
      { rewrite in_snoc. intuition congruence. }
      constructor; cbn; rewrite ?IR, ?attempts_snoc, ?takes_snoc, ?app_nil_r, ?Nat.add_0_r; auto.
      intros I. destruct (S I) as (rest & E & Er). rewrite since_snoc by exact I.
        exists (rest ++ [m]). split.
        -- rewrite E. unfold pending, in_flight. cbn. rewrite <- !app_assoc. reflexivity.
        -- intros J. rewrite (Er J).
           assert (todo_of w = []) as ET by (unfold todo_of; now rewrite H).
           destruct (in_dec Nat.eq_dec c (todo_of w)) as [X|_]; [rewrite ET in X; destruct X|].
           match goal with |- context [in_dec ?a ?b ?d] => destruct (in_dec a b d) as [i|i] end; [reflexivity|].
           exfalso. apply i. eapply Permutation_in; [symmetry; eassumption|exact J].
  - (* offer *)
    assert (In c (todo_of w)) as Ic by (unfold todo_of; rewrite H; now left).
    pose proof (IN c Ic) as Icc.
    destruct (WC c) as [R Q Q2 O Cl Cp S T].
    cbv zeta. rewrite (O Icc).
    assert (In (LRegister c) tr) as RG.
    { destruct (reg_dec tr c) as [X|X]; [exact X|]. destruct (Q2 X); tauto. }
    assert (NoDup (c :: todo)) as NDt by (unfold todo_of in NT; rewrite H in NT; exact NT).
    inversion NDt; subst.
    destruct (Nat.ltb (List.length (ch_q (w_chan w c))) send_cap) eqn:L.
    + apply Nat.ltb_lt in L. eexists; split; [reflexivity|]. constructor; cbn; auto.
      * intros d I. apply IN. unfold todo_of. rewrite H. now right.
      * intros m' t E. inversion E; subst. destruct (CU _ _ H) as [b Hb]. exists b.
        rewrite broadcasts_snoc, app_nil_r. exact Hb.
      * intros d. destruct (Nat.eq_dec d c) as [->|N].
        -- assert (In (LRegister c) (tr ++ [LOffer c m]) <-> In (LRegister c) tr) as IR.
           { rewrite in_snoc. intuition congruence. }
           constructor; cbn; rewrite ?IR, ?upd_same, ?attempts_snoc, ?takes_snoc, ?app_nil_r, ?Nat.add_0_r; cbn; auto; try tauto.
           ++ rewrite app_length. cbn. lia.
           ++ intros _. destruct (S RG) as (rest & E & Er). exists []. rewrite since_snoc, app_nil_r, E, (Er Icc) by exact RG.
              unfold pending, in_flight. cbn. rewrite upd_same. cbn.
              destruct (in_dec Nat.eq_dec c (todo_of w)) as [_|X]; [|tauto].
              unfold cur_of. rewrite H. rewrite app_nil_r, <- !app_assoc.
              split; [reflexivity|]. intros _.
              match goal with |- context [in_dec ?a ?b ?d] => destruct (in_dec a b d) as [X|_] end; [contradiction|reflexivity].
        -- eapply cinv_frame; [apply WC|..]; cbn; rewrite ?upd_other by congruence; try reflexivity; try easy; try congruence.
           ++ intros _. unfold todo_of. rewrite H. cbn. split; [auto|intros [?|?]; [congruence|assumption]].
           ++ intros _ _. unfold cur_of. now rewrite H.
    + apply Nat.ltb_ge in L. eexists; split; [reflexivity|]. constructor; cbn.
      * now apply nodup_remove.
      * assumption.
      * intros d I. rewrite in_remove. split; [apply IN; unfold todo_of; rewrite H; now right|]. intros ->. contradiction.
      * intros m' t E. inversion E; subst. destruct (CU _ _ H) as [b Hb]. exists b.
        rewrite broadcasts_snoc, app_nil_r. exact Hb.
      * intros d. destruct (Nat.eq_dec d c) as [->|N].
        -- assert (In (LRegister c) (tr ++ [LOffer c m]) <-> In (LRegister c) tr) as IR.
           { rewrite in_snoc. intuition congruence. }
           constructor; cbn; rewrite ?IR, ?upd_same, ?attempts_snoc, ?takes_snoc, ?app_nil_r, ?Nat.add_0_r; cbn; auto; try tauto.
           ++ intros I. exfalso. apply in_remove in I. tauto.
           ++ intros _. destruct (S RG) as (rest & E & Er). exists rest. rewrite since_snoc, app_nil_r, E by exact RG.
              unfold pending, in_flight. cbn. rewrite upd_same. cbn. split; [reflexivity|].
              intros I. apply in_remove in I. tauto.
        -- eapply cinv_frame; [apply WC|..]; cbn; rewrite ?upd_other by congruence; try reflexivity; try easy; try congruence.
           ++ rewrite in_remove. tauto.
           ++ intros _. unfold todo_of. rewrite H. cbn. split; [auto|intros [?|?]; [congruence|assumption]].
           ++ intros _ _. unfold cur_of. now rewrite H.
  - (* end *)
    eexists; split; [reflexivity|]. constructor; cbn; auto; try easy.
    { constructor. }
    intros d. eapply cinv_frame; [apply WC|..]; cbn; try reflexivity; try easy; try congruence.
    + intros _. unfold todo_of. rewrite H. reflexivity.
    + intros _ X. unfold todo_of in X. rewrite H in X. destruct X.
  - (* take msg *)
    eexists; split; [reflexivity|]. constructor; cbn; auto.
    { intros m' t E. destruct (CU m' t E) as [b' Hb]. exists b'. rewrite broadcasts_snoc. now rewrite app_nil_r. }
    intros d. destruct (Nat.eq_dec d c) as [->|N].
    + destruct (WC c) as [R Q Q2 O Cl Cp S T].
      assert (In (LRegister c) tr) as RG by (rewrite R, H; split; congruence).
      assert (In (LRegister c) (tr ++ [LTake c]) <-> In (LRegister c) tr) as IR.
      { rewrite in_snoc. intuition congruence. }
      constructor; cbn; rewrite ?IR, ?upd_same, ?attempts_snoc, ?takes_snoc, ?app_nil_r, ?Nat.eqb_refl; cbn; auto; try tauto.
      * split; [intros _; split; congruence|tauto].
      * intros I. specialize (O I). rewrite H0 in O. exact O.
      * intros I1 I2. specialize (Cl I1 I2). rewrite H0 in Cl. exact Cl.
      * rewrite H0 in Cp. cbn in Cp. lia.
      * intros _. destruct (S RG) as (rest & E & Er). exists rest. rewrite since_snoc, app_nil_r, E by exact RG.
        split; [|exact Er]. unfold pending, in_flight. cbn. rewrite !upd_same, H, H0. reflexivity.
      * intros F. rewrite T by (rewrite H0; exact F). unfold in_flight. cbn. rewrite upd_same, H, !app_length. cbn. lia.
    + eapply cinv_frame; [apply WC|..]; cbn; rewrite ?upd_other by congruence; try reflexivity; try easy; try congruence.
  - (* take closed *)
    eexists; split; [reflexivity|]. constructor; cbn; auto.
    { intros m' t E. destruct (CU m' t E) as [b' Hb]. exists b'. rewrite broadcasts_snoc. now rewrite app_nil_r. }
    intros d. destruct (Nat.eq_dec d c) as [->|N].
    + destruct (WC c) as [R Q Q2 O Cl Cp S T].
      assert (In (LRegister c) tr) as RG by (rewrite R, H; split; congruence).
      assert (In (LRegister c) (tr ++ [LTake c]) <-> In (LRegister c) tr) as IR.
      { rewrite in_snoc. intuition congruence. }
      constructor; cbn; rewrite ?IR, ?upd_same, ?attempts_snoc, ?takes_snoc, ?app_nil_r, ?Nat.eqb_refl; cbn; auto; try tauto.
      * split; [intros _; split; congruence|tauto].
      * intros _. destruct (S RG) as (rest & E & Er). exists rest. rewrite since_snoc, app_nil_r, E by exact RG.
        split; [|exact Er]. unfold pending, in_flight. cbn. rewrite upd_same, H. reflexivity.
      * rewrite H0. discriminate.
    + eapply cinv_frame; [apply WC|..]; cbn; rewrite ?upd_other by congruence; try reflexivity; try easy; try congruence.
  - (* tick *)
    eexists; split; [reflexivity|]. constructor; cbn; auto.
    { intros m' t E. destruct (CU m' t E) as [b' Hb]. exists b'. rewrite broadcasts_snoc. now rewrite app_nil_r. }
    intros d. destruct (Nat.eq_dec d c) as [->|N].
    + destruct (WC c) as [R Q Q2 O Cl Cp S T].
      assert (In (LRegister c) tr) as RG by (rewrite R, H; split; congruence).
      assert (In (LRegister c) (tr ++ [LTick c]) <-> In (LRegister c) tr) as IR.
      { rewrite in_snoc. intuition congruence. }
      constructor; cbn; rewrite ?IR, ?upd_same, ?attempts_snoc, ?takes_snoc, ?app_nil_r, ?Nat.add_0_r; cbn; auto; try tauto.
      * split; [intros _; split; congruence|tauto].
      * intros _. destruct (S RG) as (rest & E & Er). exists rest. rewrite since_snoc, app_nil_r, E by exact RG.
        split; [|exact Er]. unfold pending, in_flight. cbn. rewrite upd_same, H. reflexivity.
      * intros F. rewrite T by exact F. unfold in_flight. cbn. rewrite upd_same, H. reflexivity.
    + eapply cinv_frame; [apply WC|..]; cbn; rewrite ?upd_other by congruence; try reflexivity; try easy; try congruence.
  - (* write *)
    eexists; split; [reflexivity|]. constructor; cbn; auto.
    { intros m' t E. destruct (CU m' t E) as [b' Hb]. exists b'. rewrite broadcasts_snoc. now rewrite app_nil_r. }
    intros d. destruct (Nat.eq_dec d c) as [->|N].
    + destruct (WC c) as [R Q Q2 O Cl Cp S T].
      assert (In (LRegister c) tr) as RG by (rewrite R, H; split; congruence).
      assert (In (LRegister c) (tr ++ [LWrite c f ok]) <-> In (LRegister c) tr) as IR.
      { rewrite in_snoc. intuition congruence. }
      set (np := match f with FClose => PDone | _ => if ok then PWait else PDone end).
      assert (np <> PReg /\ forall x, np <> PWrite x) as [NP1 NP2] by (unfold np; destruct f, ok; split; congruence).
      constructor; cbn; fold np; rewrite ?IR, ?upd_same, ?takes_snoc, ?app_nil_r, ?Nat.add_0_r; cbn; auto; try tauto.
      * split; [intros _; split; congruence|tauto].
      * intros _. destruct (S RG) as (rest & E & Er). exists rest. rewrite since_snoc, app_nil_r, E by exact RG.
        split; [|exact Er]. rewrite attempts_snoc. unfold pending, in_flight. cbn. fold np. rewrite upd_same, H.
        assert (match np with PWrite (FText m) => [m] | _ => [] end = []) as EN.
        { destruct np; try reflexivity. exfalso; eapply NP2; reflexivity. }
        rewrite EN. destruct f; rewrite ?Nat.eqb_refl, ?app_nil_r, <- ?app_assoc; reflexivity.
      * intros F. rewrite T by exact F. rewrite attempts_snoc. unfold in_flight. cbn. fold np. rewrite upd_same, H.
        assert (match np with PWrite (FText m) => [m] | _ => [] end = []) as EN.
        { destruct np; try reflexivity. exfalso; eapply NP2; reflexivity. }
        rewrite EN. destruct f; rewrite ?Nat.eqb_refl, ?app_nil_r; reflexivity.
    + eapply cinv_frame; [apply WC|..]; cbn; rewrite ?upd_other by congruence; try reflexivity; try easy; try congruence.
Qed.

Lemma Ok_inj (a b : world) : Ok a = Ok b -> a = b.
Proof. intros H. now inversion H. Qed.

(** At an offer, the number of waiting messages in terms of the trace. *)
Lemma offer_count tr w c m todo :
  winv tr w -> w_hub w = HBcast m (c :: todo) ->
  (List.length (ch_q (w_chan w c)) = 256%nat <-> drops c tr).
Proof.
  intros I H.
  assert (In c (todo_of w)) as It by (unfold todo_of; rewrite H; now left).
  pose proof (wi_incl _ _ I _ It) as Ic. pose proof (wi_c _ _ I c) as CI.
  assert (In (LRegister c) tr) as RG.
  { destruct (reg_dec tr c) as [X|X]; [exact X|]. destruct (ci_quiet2 _ _ _ CI X); tauto. }
  destruct (ci_stream _ _ _ CI RG) as (rest & E & Er). rewrite (Er Ic) in E.
  destruct (in_dec Nat.eq_dec c (todo_of w)) as [_|X]; [|contradiction].
  unfold cur_of in E. rewrite H in E.
  pose proof (ci_takes _ _ _ CI (ci_open _ _ _ CI Ic)) as T.
  unfold drops. rewrite E, T. unfold pending. rewrite !app_length. cbn [List.length]. lia.
Qed.

(** What a step does to the membership of c: only an offer to c can end it, and it does so
    exactly when 256 messages wait. *)
Lemma drop_step tr w l r c :
  winv tr w -> hstep w l r -> (forall d, l <> LUnregister d) ->
  exists w', r = Ok w' /\
    (In c (w_conns w) ->
       In c (w_conns w') \/
       exists m, l = LOffer c m /\ drops c tr /\ ~ In c (w_conns w')).
Proof.
  intros I ST NL. inversion ST; subst; try (eexists; split; [reflexivity|]; cbn; auto; fail).
  - eexists; split; [reflexivity|]. cbn. intros J. left. destruct (in_dec Nat.eq_dec c0 (w_conns w)); [exact J|now right].
  - exfalso. eapply NL; reflexivity.
  - assert (In c0 (todo_of w)) as It by (unfold todo_of; rewrite H; now left).
    pose proof (wi_incl _ _ I _ It) as Ic.
    pose proof (wi_c _ _ I c0) as CI. cbv zeta. rewrite (ci_open _ _ _ CI Ic).
    destruct (Nat.ltb (List.length (ch_q (w_chan w c0))) send_cap) eqn:L.
    + eexists; split; [reflexivity|]. cbn. auto.
    + eexists; split; [reflexivity|]. cbn. intros J. destruct (Nat.eq_dec c c0) as [->|N].
      * right. exists m. split; [reflexivity|]. split; [|rewrite in_remove; tauto].
        apply (offer_count tr w c0 m todo I H). apply Nat.ltb_ge in L. pose proof (ci_cap _ _ _ CI). unfold send_cap in *. lia.
      * left. rewrite in_remove. auto.
Qed.

Lemma winv_run tr r : hrun tr r -> no_unregister tr -> exists w, r = Ok w /\ winv tr w.
Proof.
  intros R. induction R as [|tr w l r R IH ST]; intros NU.
  - eexists. split; [reflexivity|apply winv_init].
  - apply no_unreg_snoc in NU. destruct NU as [NU NL].
    destruct (IH NU) as (w0 & E & I). apply Ok_inj in E. subst w0.
    eapply winv_step; eassumption.
Qed.

Lemma run_prefix tr1 : forall tr2 r, hrun (tr1 ++ tr2) r -> exists r1, hrun tr1 r1 /\ (tr2 = [] -> r1 = r) /\ (tr2 <> [] -> r1 <> Crash).
Proof.
  intros tr2. induction tr2 as [|l tr2 IH] using rev_ind; intros r R.
  - rewrite app_nil_r in R. exists r. repeat split; [exact R|congruence].
  - rewrite app_assoc in R. inversion R as [E|tr w l' r' R1 ST E].
    + destruct (tr1 ++ tr2); discriminate E.
    + apply app_inj_tail in E. destruct E as [-> ->]. destruct (IH _ R1) as (r1 & R2 & E1 & E2).
      exists r1. split; [exact R2|]. split; [intros X; destruct tr2; discriminate X|]. intros _.
      destruct tr2 as [|x tr2]; [rewrite (E1 eq_refl); discriminate|apply E2; discriminate].
Qed.

(** A client's pump stops after the first failed write. *)
Lemma received_attempts tr w c : hrun tr (Ok w) ->
  received c tr = attempts c tr \/
  (w_pump w c = Some PDone /\ exists m, attempts c tr = received c tr ++ [m]).
Proof.
  intros R. remember (Ok w) as r eqn:Er. revert w Er.
  induction R as [|tr w0 l r R IH ST]; intros w Er; [left; reflexivity|].
  rewrite received_snoc, attempts_snoc.
  assert ((w_pump w0 c = Some PDone -> w_pump w c = Some PDone /\ (forall m b, l <> LWrite c (FText m) b))
          /\ (forall m, l = LWrite c (FText m) false -> w_pump w c = Some PDone)) as [K1 K2].
  { clear IH R. split.
    - intros P. destruct ST; cbv zeta in Er;
      repeat match type of Er with (if ?b then _ else _) = _ => destruct b end; try discriminate Er;
      apply Ok_inj in Er; subst w; cbn;
      (split; [first [exact P | match goal with |- upd _ ?d _ c = _ => destruct (Nat.eq_dec c d) as [->|N] end;
                                [congruence|rewrite upd_other by congruence; exact P]]|]);
      intros mm bb E; try discriminate E; inversion E; congruence.
    - intros m ->. subst r. inversion ST; subst. cbn. apply upd_same. }
  destruct (IH _ eq_refl) as [E|(E & m & Em)].
  - destruct l; rewrite ?app_nil_r; try (left; exact E).
    destruct f; rewrite ?app_nil_r; try (left; exact E).
    destruct (Nat.eqb_spec c0 c) as [->|N]; [|left; destruct ok; rewrite !app_nil_r; exact E].
    destruct ok; [left; now rewrite E|]. right. split; [eapply K2; reflexivity|].
    exists m. now rewrite E, app_nil_r.
  - right. destruct (K1 E) as [E' NW]. split; [exact E'|]. exists m.
    destruct l; rewrite ?app_nil_r; try exact Em.
    destruct f; rewrite ?app_nil_r; try exact Em.
    destruct (Nat.eqb_spec c0 c) as [->|N]; [exfalso; eapply NW; reflexivity|].
    destruct ok; rewrite !app_nil_r; exact Em.
Qed.
Lemma received_no_error (tr : list label) c : no_write_error c tr -> received c tr = attempts c tr.
Proof.
  induction tr as [|l tr IH] using rev_ind; intros H; [reflexivity|].
  rewrite received_snoc, attempts_snoc, IH by (eapply no_werr_snoc; eassumption). f_equal.
  destruct l; try reflexivity. destruct f; try reflexivity. destruct ok; [reflexivity|].
  destruct (Nat.eqb_spec c0 c) as [->|]; [|reflexivity]. exfalso. apply (H (FText m)). apply in_or_app. right. now left.
Qed.

(** * C60 *)

(** What a client receives is, at any moment, an initial part of the messages broadcast since
    its registration: in order, nothing left out in between, nothing twice, nothing else. *)
Theorem C60_prefix tr w c :
  hrun tr (Ok w) -> no_unregister tr -> In (LRegister c) tr ->
  exists rest, since c tr = received c tr ++ rest.
Proof.
  intros R NU RG. destruct (winv_run _ _ R NU) as (w' & E & I). apply Ok_inj in E. subst w'.
  destruct (ci_stream _ _ _ (wi_c _ _ I c) RG) as (rest & E & _).
  destruct (received_attempts tr w c R) as [Er|(_ & m & Em)].
  - rewrite Er. eauto.
  - rewrite Em in E. rewrite <- !app_assoc in E. eauto.
Qed.

(** Being dropped is decidable from the trace. *)
Lemma dropped_dec (tr : list label) c : dropped c tr \/ ~ dropped c tr.
Proof.
  induction tr as [|l tr [D|D]] using rev_ind.
  - right. intros (t1 & m & t2 & E & _). destruct t1; discriminate E.
  - left. destruct D as (t1 & m & t2 & -> & Dr). exists t1, m, (t2 ++ [l]). rewrite <- app_assoc. auto.
  - assert (forall t1 m t2, tr ++ [l] = t1 ++ LOffer c m :: t2 ->
           (t2 = [] /\ tr = t1 /\ l = LOffer c m) \/ exists t2', tr = t1 ++ LOffer c m :: t2') as SP.
    { intros t1 m t2 E. destruct t2 as [|x t2] using rev_ind.
      - apply app_inj_tail in E. destruct E as [-> ->]. auto.
      - right. rewrite app_comm_cons, app_assoc in E. apply app_inj_tail in E. destruct E as [-> _]. eauto. }
    destruct l; try (right; intros (t1 & m' & t2 & E & Dr); destruct (SP _ _ _ E) as [(_ & _ & X)|(t2' & X)];
      [discriminate X|apply D; exists t1, m', t2'; auto]).
    destruct (Nat.eq_dec c0 c) as [->|N].
    + destruct (Nat.eq_dec (List.length (since c tr)) (takes c tr + 257)) as [Dr|Dr].
      * left. exists tr, m, []. auto.
      * right. intros (t1 & m' & t2 & E & Dr'). destruct (SP _ _ _ E) as [(_ & <- & _)|(t2' & X)];
          [contradiction|apply D; exists t1, m', t2'; auto].
    + right. intros (t1 & m' & t2 & E & Dr'). destruct (SP _ _ _ E) as [(_ & _ & X)|(t2' & X)];
        [inversion X; congruence|apply D; exists t1, m', t2'; auto].
Qed.

(** A registered client is known to the hub unless it was dropped. *)
Lemma member_iff tr w c : hrun tr (Ok w) -> no_unregister tr -> In (LRegister c) tr ->
  (In c (w_conns w) <-> ~ dropped c tr).
Proof.
  intros R NU RG. remember (Ok w) as r eqn:Er. revert w Er.
  induction R as [|tr w0 l r R IH ST]; intros w Er; [destruct RG|]. subst r.
  assert (no_unregister tr /\ forall c, l <> LUnregister c) as [NU' NL] by (now apply no_unreg_snoc).
  destruct (winv_run _ _ R NU') as (w' & E & I0). apply Ok_inj in E. subst w'.
  assert (forall t1 m t2, tr ++ [l] = t1 ++ LOffer c m :: t2 ->
           (t2 = [] /\ tr = t1 /\ l = LOffer c m) \/ exists t2', tr = t1 ++ LOffer c m :: t2') as SP.
  { intros t1 m t2 E. destruct t2 as [|x t2] using rev_ind.
    - apply app_inj_tail in E. destruct E as [-> ->]. auto.
    - right. rewrite app_comm_cons, app_assoc in E. apply app_inj_tail in E. destruct E as [-> _]. eauto. }
  rewrite in_snoc in RG. destruct RG as [RG|<-].
  - specialize (IH NU' RG _ eq_refl).
    destruct (drop_step tr w0 l (Ok w) c I0 ST NL) as (w1 & E & D). apply Ok_inj in E. subst w1.
    destruct (in_dec Nat.eq_dec c (w_conns w0)) as [j|j].
    + destruct (D j) as [D1|(m & -> & D1 & D2)].
      * split; [intros _|intros _; exact D1]. intros (t1 & m & t2 & E & Dr).
        destruct (SP _ _ _ E) as [(-> & <- & ->)|(t2' & ->)].
        -- (* offered while 256 wait, yet still a member: impossible *)
           inversion ST; subst.
           assert (w_hub w0 = HBcast m (c :: todo)) as HH by assumption.
           apply (offer_count tr w0 c m todo I0 HH) in Dr.
           match goal with X : _ = Ok w |- _ => cbv zeta in X; rewrite (ci_open _ _ _ (wi_c _ _ I0 c) j) in X;
             assert (Nat.ltb (List.length (ch_q (w_chan w0 c))) send_cap = false) as LT
               by (apply Nat.ltb_ge; unfold send_cap; lia); rewrite LT in X; apply Ok_inj in X; subst w end.
           cbn in D1. apply in_remove in D1. tauto.
        -- apply IH in j. apply j. exists t1, m, t2'. auto.
      * split; [intros X; contradiction|]. intros X. exfalso. apply X. exists tr, m, []. auto.
    + assert (dropped c tr) as Dt.
      { destruct (dropped_dec tr c) as [d|d]; [exact d|]. exfalso. apply j. now apply IH. }
      split.
      * intros i. exfalso. apply j.
        inversion ST; subst;
          try (match goal with X : Ok _ = Ok w |- _ => apply Ok_inj in X; subst w end); try exact i.
        -- cbn in i. destruct (in_dec Nat.eq_dec c0 (w_conns w0)); [exact i|].
           destruct i as [->|i]; [|exact i]. exfalso.
           pose proof (proj1 (ci_reg _ _ _ (wi_c _ _ I0 c)) RG) as [_ K]. congruence.
        -- exfalso. eapply NL; reflexivity.
        -- match goal with X : _ = Ok w |- _ => cbv zeta in X; destruct (ch_closed (w_chan w0 c0)); [discriminate X|];
             destruct (Nat.ltb (List.length (ch_q (w_chan w0 c0))) send_cap); apply Ok_inj in X; subst w end.
           ++ exact i.
           ++ cbn in i. apply in_remove in i. tauto.
      * intros X. exfalso. apply X. destruct Dt as (t1 & m & t2 & -> & Dr). exists t1, m, (t2 ++ [l]).
        rewrite <- app_assoc. auto.
  - inversion ST; subst. cbn.
    assert (~ In (LRegister c) tr) as NR.
    { rewrite (ci_reg _ _ _ (wi_c _ _ I0 c)). intuition congruence. }
    split.
    + intros _ (t1 & m & t2 & E & Dr). destruct (SP _ _ _ E) as [(_ & _ & X)|(t2' & ->)]; [discriminate X|].
      unfold drops in Dr. rewrite since_unreg in Dr; [cbn in Dr; lia|]. intro; apply NR. apply in_or_app. now left.
    + intros _. destruct (in_dec Nat.eq_dec c (w_conns w0)); [assumption|now left].
Qed.

(** A client the hub has not dropped has, between two broadcasts, received or has waiting every
    message since its registration, unless a write to it failed; at most 256 wait. *)
Theorem C60_complete tr w c :
  hrun tr (Ok w) -> no_unregister tr -> no_write_error c tr ->
  In (LRegister c) tr -> ~ dropped c tr -> w_hub w = HIdle ->
  since c tr = received c tr ++ pending w c /\ (List.length (ch_q (w_chan w c)) <= 256)%nat.
Proof.
  intros R NU NE RG ND HI. destruct (winv_run _ _ R NU) as (w' & E & I). apply Ok_inj in E. subst w'.
  assert (In c (w_conns w)) as IC by (now apply (member_iff tr)).
  destruct (ci_stream _ _ _ (wi_c _ _ I c) RG) as (rest & E & Er). rewrite (Er IC) in E.
  assert (todo_of w = []) as ET by (unfold todo_of; now rewrite HI).
  destruct (in_dec Nat.eq_dec c (todo_of w)) as [X|_]; [rewrite ET in X; destruct X|].
  rewrite app_nil_r in E. rewrite received_no_error by exact NE. split; [exact E|].
  apply (ci_cap _ _ _ (wi_c _ _ I c)).
Qed.

(** A dropped client: it gets nothing after the message whose offer dropped it, everything
    before it stays available to it, and its channel is closed. *)
Theorem C60_dropped tr1 m c tr2 w :
  hrun (tr1 ++ LOffer c m :: tr2) (Ok w) -> no_unregister (tr1 ++ LOffer c m :: tr2) ->
  drops c tr1 ->
  since c tr1 = attempts c (tr1 ++ LOffer c m :: tr2) ++ pending w c ++ [m] /\
  ch_closed (w_chan w c) = true /\ ~ In c (w_conns w).
Proof.
  intros R NU Dr.
  assert (In (LRegister c) tr1) as RG.
  { destruct (reg_dec tr1 c) as [X|X]; [exact X|]. exfalso. unfold drops in Dr. rewrite since_unreg in Dr by exact X. cbn in Dr. lia. }
  assert (dropped c (tr1 ++ LOffer c m :: tr2)) as D by (exists tr1, m, tr2; auto).
  assert (In (LRegister c) (tr1 ++ LOffer c m :: tr2)) as RG2 by (apply in_or_app; now left).
  assert (~ In c (w_conns w)) as NI.
  { intros X. apply (member_iff _ _ _ R NU RG2) in X. contradiction. }
  destruct (winv_run _ _ R NU) as (w' & E & I). apply Ok_inj in E. subst w'.
  split; [|split; [apply (ci_closed _ _ _ (wi_c _ _ I c) RG2 NI)|exact NI]].
  clear NI I RG2. revert w R NU D. induction tr2 as [|l tr2 IH] using rev_ind; intros w R NU D.
  - inversion R as [E|tr w0 l r R0 ST E]; [destruct tr1; discriminate E|]. apply app_inj_tail in E. destruct E as [-> ->].
    apply no_unreg_snoc in NU. destruct NU as [NU _].
    destruct (winv_run _ _ R0 NU) as (w' & E & I). apply Ok_inj in E. subst w'. subst r.
    inversion ST; subst. assert (w_hub w0 = HBcast m (c :: todo)) as HH by assumption.
    assert (In c (todo_of w0)) as It by (unfold todo_of; rewrite HH; now left).
    pose proof (wi_incl _ _ I _ It) as Ic. pose proof (wi_c _ _ I c) as CI.
    pose proof (proj2 (offer_count _ _ _ _ _ I HH) Dr) as LQ.
    match goal with X : _ = Ok w |- _ => cbv zeta in X; rewrite (ci_open _ _ _ CI Ic) in X;
      assert (Nat.ltb (List.length (ch_q (w_chan w0 c))) send_cap = false) as LT
        by (apply Nat.ltb_ge; unfold send_cap; lia); rewrite LT in X; apply Ok_inj in X; subst w end.
    destruct (ci_stream _ _ _ CI RG) as (rest & E & Er). rewrite (Er Ic) in E.
    destruct (in_dec Nat.eq_dec c (todo_of w0)) as [_|X]; [|contradiction].
    unfold cur_of in E. rewrite HH in E. rewrite E, attempts_snoc, app_nil_r.
    unfold pending, in_flight. cbn. rewrite upd_same. reflexivity.
  - assert (hrun ((tr1 ++ LOffer c m :: tr2) ++ [l]) (Ok w)) as R' by (rewrite <- app_assoc; exact R).
    assert (no_unregister ((tr1 ++ LOffer c m :: tr2) ++ [l])) as NU2 by (rewrite <- app_assoc; exact NU).
    inversion R' as [E|tr w0 l' r R0 ST E]; [destruct tr1; discriminate E|]. apply app_inj_tail in E. destruct E as [-> ->].
    apply no_unreg_snoc in NU2. destruct NU2 as [NU2 NL]. subst r.
    assert (dropped c (tr1 ++ LOffer c m :: tr2)) as D2 by (exists tr1, m, tr2; auto).
    specialize (IH w0 R0 NU2 D2).
    assert (In (LRegister c) (tr1 ++ LOffer c m :: tr2)) as RG2 by (apply in_or_app; now left).
    assert (~ In c (w_conns w0)) as NI.
    { intros X. apply (member_iff _ _ _ R0 NU2 RG2) in X. contradiction. }
    destruct (winv_run _ _ R0 NU2) as (w' & E & I). apply Ok_inj in E. subst w'.
    replace (tr1 ++ LOffer c m :: tr2 ++ [l]) with ((tr1 ++ LOffer c m :: tr2) ++ [l]) by (rewrite <- app_assoc; reflexivity).
    rewrite attempts_snoc.
    rewrite IH at 1.
    inversion ST; subst; try (match goal with X : Ok _ = Ok w |- _ => apply Ok_inj in X; subst w end);
      rewrite ?app_nil_r; try reflexivity; unfold pending, in_flight; cbn.
    + destruct (Nat.eq_dec c c0) as [->|N]; [|now rewrite !upd_other by congruence].
      exfalso. pose proof (proj1 (ci_reg _ _ _ (wi_c _ _ I c0)) RG2) as [K _]. congruence.
    + destruct (Nat.eq_dec c c0) as [->|N]; [|now rewrite !upd_other by congruence].
      exfalso. pose proof (proj1 (ci_reg _ _ _ (wi_c _ _ I c0)) RG2) as [_ K]. congruence.
    + exfalso. eapply NL; reflexivity.
    + assert (c0 <> c) as N.
      { intros ->. apply NI. apply (wi_incl _ _ I). unfold todo_of.
        match goal with X : w_hub w0 = _ |- _ => rewrite X end. now left. }
      match goal with X : _ = Ok w |- _ => cbv zeta in X; destruct (ch_closed (w_chan w0 c0)); [discriminate X|];
             destruct (Nat.ltb (List.length (ch_q (w_chan w0 c0))) send_cap); apply Ok_inj in X; subst w end;
        cbn; now rewrite !upd_other by congruence.
    + destruct (Nat.eq_dec c c0) as [->|N]; [|now rewrite !upd_other by congruence].
      rewrite !upd_same. cbn. match goal with X : w_pump w0 c0 = _, Y : w_chan w0 c0 = _ |- _ => rewrite X, Y end. reflexivity.
    + destruct (Nat.eq_dec c c0) as [->|N]; [|now rewrite !upd_other by congruence].
      rewrite !upd_same. cbn. match goal with X : w_pump w0 c0 = _ |- _ => rewrite X end. reflexivity.
    + destruct (Nat.eq_dec c c0) as [->|N]; [|now rewrite !upd_other by congruence].
      rewrite !upd_same. cbn. match goal with X : w_pump w0 c0 = _ |- _ => rewrite X end. reflexivity.
    + destruct (Nat.eq_dec c c0) as [->|N].
      * rewrite !upd_same, Nat.eqb_refl. match goal with X : w_pump w0 c0 = _ |- _ => rewrite X end.
        destruct f, ok; cbn; rewrite ?app_nil_r, <- ?app_assoc; reflexivity.
      * rewrite !upd_other by congruence. destruct (Nat.eqb_spec c0 c); [congruence|].
        destruct f; rewrite ?app_nil_r; reflexivity.
Qed.
(** The hub drops a client exactly when it offers it a message while 256 are waiting. *)
Theorem C60_drop_iff tr w c :
  hrun tr (Ok w) -> no_unregister tr -> In (LRegister c) tr ->
  (dropped c tr <-> ~ In c (w_conns w)) /\ (dropped c tr <-> ch_closed (w_chan w c) = true).
Proof.
  intros R NU RG. pose proof (member_iff _ _ _ R NU RG) as MI.
  destruct (winv_run _ _ R NU) as (w' & E & I). apply Ok_inj in E. subst w'.
  assert (dropped c tr <-> ~ In c (w_conns w)) as A.
  { rewrite MI. destruct (dropped_dec tr c); tauto. }
  split; [exact A|]. rewrite A. pose proof (wi_c _ _ I c) as CI. split.
  - now apply (ci_closed _ _ _ CI).
  - intros C X. rewrite (ci_open _ _ _ CI X) in C. discriminate.
Qed.

Lemma run_snoc tr w l r : hrun tr (Ok w) -> hstep w l r -> hrun (tr ++ [l]) r.
Proof. intros. econstructor; eassumption. Qed.

(** A dropped client whose connection works still gets everything that was waiting, and then
    the closing frame: its pump can do so without anybody else acting. *)
Theorem C60_drained tr w c :
  hrun tr (Ok w) -> w_pump w c = Some PWait -> ch_closed (w_chan w c) = true ->
  exists tr' w', forallb (about c) tr' = true /\ hrun (tr ++ tr') (Ok w') /\
    received c (tr ++ tr') = received c tr ++ ch_q (w_chan w c) /\
    (exists tr0, tr' = tr0 ++ [LTake c; LWrite c FClose true]) /\ w_pump w' c = Some PDone.
Proof.
  remember (ch_q (w_chan w c)) as q eqn:Q. revert tr w Q.
  induction q as [|m q IH]; intros tr w Q R P C.
  - assert (w_chan w c = mkch [] true) as EC by (destruct (w_chan w c); cbn in *; congruence).
    pose proof (run_snoc _ _ _ _ R (st_take_closed M w c P EC)) as R1.
    set (w1 := mkw _ _ _ _) in R1.
    assert (w_pump w1 c = Some (PWrite FClose)) as P1 by (cbn; apply upd_same).
    pose proof (run_snoc _ _ _ _ R1 (st_write M w1 c FClose true P1)) as R2.
    exists [LTake c; LWrite c FClose true]. eexists. split; [cbn; now rewrite Nat.eqb_refl|].
    rewrite <- app_assoc in R2. cbn [app] in R2. split; [exact R2|].
    change [LTake c; LWrite c FClose true] with ([LTake c] ++ [@LWrite M c FClose true]).
    rewrite app_assoc, !received_snoc, !app_nil_r.
    split; [reflexivity|]. split; [exists []; reflexivity|]. cbn. now rewrite !upd_same.
  - assert (w_chan w c = mkch (m :: q) true) as EC by (destruct (w_chan w c); cbn in *; congruence).
    pose proof (run_snoc _ _ _ _ R (st_take_msg M w c m q true P EC)) as R1.
    set (w1 := mkw _ _ _ _) in R1.
    assert (w_pump w1 c = Some (PWrite (FText m))) as P1 by (cbn; apply upd_same).
    pose proof (run_snoc _ _ _ _ R1 (st_write M w1 c (FText m) true P1)) as R2.
    set (w2 := mkw _ _ _ _) in R2. rewrite <- app_assoc in R2. cbn [app] in R2.
    destruct (IH (tr ++ [LTake c; LWrite c (FText m) true]) w2) as (tr' & w' & A & B & D & (tr0 & E) & F).
    + cbn. now rewrite upd_same.
    + exact R2.
    + cbn. now rewrite upd_same.
    + cbn. now rewrite upd_same.
    + exists ([LTake c; LWrite c (FText m) true] ++ tr'), w'. rewrite app_assoc. 
      split; [rewrite forallb_app, A; cbn; now rewrite Nat.eqb_refl|]. split; [exact B|]. split.
      * rewrite D. change [LTake c; LWrite c (FText m) true] with ([@LTake M c] ++ [LWrite c (FText m) true]).
        rewrite app_assoc, !received_snoc, Nat.eqb_refl, app_nil_r, <- app_assoc. reflexivity.
      * split; [|exact F]. exists ([LTake c; LWrite c (FText m) true] ++ tr0). rewrite E, app_assoc. reflexivity.
Qed.

(** Other clients are unaffected: leaving out client d and everything about it from an execution
    gives an execution in which the hub and all other clients behave exactly as before. *)
Definition same_but (d : nat) (w w' : world) : Prop :=
  w_hub w' = match w_hub w with HIdle => HIdle | HBcast m t => HBcast m (remove_conn d t) end /\
  w_conns w' = remove_conn d (w_conns w) /\
  (forall c, c <> d -> w_chan w' c = w_chan w c /\ w_pump w' c = w_pump w c).

Lemma remove_perm d l l' : Permutation l l' -> Permutation (remove_conn d l) (remove_conn d l').
Proof.
  unfold remove_conn. induction 1; cbn.
  - constructor.
  - destruct (negb (Nat.eqb x d)); [now constructor|assumption].
  - destruct (negb (Nat.eqb x d)), (negb (Nat.eqb y d)); try apply Permutation_refl. apply perm_swap.
  - etransitivity; eassumption.
Qed.
Lemma remove_comm a b l : remove_conn a (remove_conn b l) = remove_conn b (remove_conn a l).
Proof.
  unfold remove_conn. induction l as [|x l IH]; [reflexivity|]. cbn.
  destruct (negb (Nat.eqb x a)) eqn:A, (negb (Nat.eqb x b)) eqn:B; cbn; rewrite ?A, ?B; cbn; now rewrite IH.
Qed.
Lemma remove_idem a l : remove_conn a (remove_conn a l) = remove_conn a l.
Proof.
  unfold remove_conn. induction l as [|x l IH]; [reflexivity|]. cbn.
  destruct (negb (Nat.eqb x a)) eqn:A; cbn; rewrite ?A; now rewrite IH.
Qed.

Theorem C60_others_unaffected tr w d :
  hrun tr (Ok w) ->
  exists w', hrun (filter (fun l => negb (about d l)) tr) (Ok w') /\ same_but d w w'.
Proof.
  intros R. remember (Ok w) as r eqn:Er. revert w Er.
  induction R as [|tr w0 l r R IH ST]; intros w Er.
  - apply Ok_inj in Er. subst w. exists hub_init. split; [constructor|]. repeat split.
  - subst r. destruct (IH _ eq_refl) as (v & Rv & HB & HC & HD). rewrite filter_app. cbn [filter].
    inversion ST; subst; try (match goal with X : Ok _ = Ok w |- _ => apply Ok_inj in X; subst w end); cbn [about].
    + destruct (Nat.eqb_spec c d) as [->|N]; cbn [negb].
      * exists v. rewrite app_nil_r. split; [exact Rv|]. split; [exact HB|]. split; [exact HC|].
        intros c Nc. cbn. rewrite !upd_other by congruence. auto.
      * eexists. split; [eapply run_snoc; [exact Rv|]; apply st_open; destruct (HD c N); congruence|].
        split; [exact HB|]. split; [exact HC|]. intros c' Nc. cbn.
        unfold upd. destruct (Nat.eqb c' c); [auto|]. now apply HD.
    + assert (w_hub v = HIdle) as HI by (rewrite HB; match goal with X : w_hub w0 = HIdle |- _ => rewrite X end; reflexivity).
      destruct (Nat.eqb_spec c d) as [->|N]; cbn [negb].
      * exists v. rewrite app_nil_r. split; [exact Rv|]. split; [exact HI|]. split.
        -- cbn. rewrite HC. destruct (in_dec Nat.eq_dec d (w_conns w0)); [reflexivity|].
           unfold remove_conn. cbn. rewrite Nat.eqb_refl. reflexivity.
        -- intros c Nc. cbn. rewrite !upd_other by congruence. auto.
      * eexists. split; [eapply run_snoc; [exact Rv|]; apply st_register; [exact HI|destruct (HD c N); congruence]|].
        split; [reflexivity|]. split.
        -- cbn. rewrite HC. destruct (in_dec Nat.eq_dec c (w_conns w0)) as [i|i], (in_dec Nat.eq_dec c (remove_conn d (w_conns w0))) as [j|j].
           ++ reflexivity.
           ++ exfalso. apply j. now apply in_remove.
           ++ exfalso. apply i. apply in_remove in j. tauto.
           ++ unfold remove_conn. cbn. destruct (Nat.eqb_spec c d); [congruence|reflexivity].
        -- intros c' Nc. cbn. unfold upd. destruct (HD c' Nc). destruct (Nat.eqb c' c); auto.
    + assert (w_hub v = HIdle) as HI by (rewrite HB; match goal with X : w_hub w0 = HIdle |- _ => rewrite X end; reflexivity).
      match goal with X : _ = Ok w |- _ => destruct (ch_closed (w_chan w0 c)) eqn:Cc; [discriminate X|]; apply Ok_inj in X; subst w end.
      destruct (Nat.eqb_spec c d) as [->|N]; cbn [negb].
      * exists v. rewrite app_nil_r. split; [exact Rv|]. split; [exact HI|]. split.
        -- cbn. rewrite HC, remove_idem. reflexivity.
        -- intros c Nc. cbn. rewrite !upd_other by congruence. auto.
      * destruct (HD c N) as [Ec Ep]. eexists. split.
        { eapply run_snoc; [exact Rv|].
          assert (w_pump v c <> None) as PN by congruence.
          pose proof (st_unregister M v c HI PN) as S. rewrite Ec, Cc in S. exact S. }
        split; [reflexivity|]. split.
        -- cbn. rewrite HC. apply remove_comm.
        -- intros c' Nc. cbn. unfold upd. destruct (HD c' Nc). destruct (Nat.eqb c' c); auto.
    + assert (w_hub v = HIdle) as HI by (rewrite HB; match goal with X : w_hub w0 = HIdle |- _ => rewrite X end; reflexivity).
      eexists. split.
      { eapply run_snoc; [exact Rv|]. apply (st_broadcast M v m (remove_conn d todo)); [exact HI|].
        rewrite HC. now apply remove_perm. }
      split; [reflexivity|]. split; [exact HC|]. intros c Nc. cbn. now apply HD.
    + assert (w_hub v = HBcast m (remove_conn d (c :: todo))) as HI
        by (rewrite HB; match goal with X : w_hub w0 = _ |- _ => rewrite X end; reflexivity).
      cbv zeta in *. destruct (ch_closed (w_chan w0 c)) eqn:Cc; [discriminate|].
      destruct (Nat.eqb_spec c d) as [->|N]; cbn [negb].
      * exists v. rewrite app_nil_r. split; [exact Rv|]. unfold remove_conn in HI. cbn in HI. rewrite Nat.eqb_refl in HI. cbn in HI. fold (remove_conn d todo) in HI.
        destruct (Nat.ltb (List.length (ch_q (w_chan w0 d))) send_cap);
          match goal with X : Ok _ = Ok w |- _ => apply Ok_inj in X; subst w end;
          (split; [exact HI|]); (split; [cbn; rewrite ?remove_idem; exact HC|]);
          intros c Nc; cbn; rewrite !upd_other by congruence; auto.
      * assert (w_hub v = HBcast m (c :: remove_conn d todo)) as HI2.
        { rewrite HI. unfold remove_conn. cbn. destruct (Nat.eqb_spec c d); [congruence|reflexivity]. }
        destruct (HD c N) as [Ec Ep].
        pose proof (st_offer M v m c (remove_conn d todo) HI2) as S. cbv zeta in S. rewrite Ec, Cc in S.
        destruct (Nat.ltb (List.length (ch_q (w_chan w0 c))) send_cap);
          match goal with X : Ok _ = Ok w |- _ => apply Ok_inj in X; subst w end;
          (eexists; split; [eapply run_snoc; [exact Rv|exact S]|]); (split; [reflexivity|]).
        -- split; [exact HC|]. intros c' Nc. cbn. unfold upd. destruct (HD c' Nc). destruct (Nat.eqb c' c); auto.
        -- split; [cbn; rewrite HC; apply remove_comm|]. intros c' Nc. cbn. unfold upd. destruct (HD c' Nc). destruct (Nat.eqb c' c); auto.
    + assert (w_hub v = HBcast m []) as HI by (rewrite HB; match goal with X : w_hub w0 = _ |- _ => rewrite X end; reflexivity).
      eexists. split; [eapply run_snoc; [exact Rv|]; eapply st_end; exact HI|].
      split; [reflexivity|]. split; [exact HC|]. intros c Nc. cbn. now apply HD.
    + destruct (Nat.eqb_spec c d) as [->|N]; cbn [negb].
      * exists v. rewrite app_nil_r. split; [exact Rv|]. split; [exact HB|]. split; [exact HC|].
        intros c Nc. cbn. rewrite !upd_other by congruence. auto.
      * destruct (HD c N) as [Ec Ep]. eexists. split; [eapply run_snoc; [exact Rv|]; eapply st_take_msg; [rewrite Ep; eassumption|rewrite Ec; eassumption]|].
        split; [exact HB|]. split; [exact HC|]. intros c' Nc. cbn. unfold upd. destruct (HD c' Nc). destruct (Nat.eqb c' c); auto.
    + destruct (Nat.eqb_spec c d) as [->|N]; cbn [negb].
      * exists v. rewrite app_nil_r. split; [exact Rv|]. split; [exact HB|]. split; [exact HC|].
        intros c Nc. cbn. rewrite !upd_other by congruence. auto.
      * destruct (HD c N) as [Ec Ep]. eexists. split; [eapply run_snoc; [exact Rv|]; eapply st_take_closed; [rewrite Ep; eassumption|rewrite Ec; eassumption]|].
        split; [exact HB|]. split; [exact HC|]. intros c' Nc. cbn. unfold upd. destruct (HD c' Nc). destruct (Nat.eqb c' c); auto.
    + destruct (Nat.eqb_spec c d) as [->|N]; cbn [negb].
      * exists v. rewrite app_nil_r. split; [exact Rv|]. split; [exact HB|]. split; [exact HC|].
        intros c Nc. cbn. rewrite !upd_other by congruence. auto.
      * destruct (HD c N) as [Ec Ep]. eexists. split; [eapply run_snoc; [exact Rv|]; eapply st_tick; rewrite Ep; eassumption|].
        split; [exact HB|]. split; [exact HC|]. intros c' Nc. cbn. unfold upd. destruct (HD c' Nc). destruct (Nat.eqb c' c); auto.
    + destruct (Nat.eqb_spec c d) as [->|N]; cbn [negb].
      * exists v. rewrite app_nil_r. split; [exact Rv|]. split; [exact HB|]. split; [exact HC|].
        intros c Nc. cbn. rewrite !upd_other by congruence. auto.
      * destruct (HD c N) as [Ec Ep]. eexists. split; [eapply run_snoc; [exact Rv|]; eapply st_write; rewrite Ep; eassumption|].
        split; [exact HB|]. split; [exact HC|]. intros c' Nc. cbn. unfold upd. destruct (HD c' Nc). destruct (Nat.eqb c' c); auto.
Qed.

(** * C61 *)

(** Without unregister requests the hub never panics: no send on a closed channel, no channel
    closed twice. *)
Theorem C61_no_panic tr r : hrun tr r -> no_unregister tr -> r <> Crash.
Proof. intros R NU. destruct (winv_run _ _ R NU) as (w & -> & _). discriminate. Qed.

(** While it serves a broadcast the hub can always take its next action, whatever the clients
    and their pumps are doing (it never waits for a client) ... *)
Theorem C61_never_waits tr w m todo :
  hrun tr (Ok w) -> no_unregister tr -> w_hub w = HBcast m todo ->
  exists l w', (l = LEndRange \/ exists c, l = LOffer c m) /\ hstep w l (Ok w').
Proof.
  intros R NU H. destruct todo as [|c todo].
  - exists LEndRange. eexists. split; [now left|]. eapply st_end; eassumption.
  - pose proof (st_offer M w m c todo H) as S.
    assert (forall r, hstep w (LOffer c m) r -> exists w', r = Ok w') as K.
    { intros r S'. pose proof (run_snoc _ _ _ _ R S') as R'.
      destruct (winv_run _ _ R') as (w' & E & _); [|eauto].
      intros d I. apply in_snoc in I. destruct I as [I|I]; [now apply (NU d)|discriminate I]. }
    destruct (K _ S) as (w' & E). rewrite E in S. eauto 6.
Qed.

(** Continuations of an execution. *)
Inductive hsteps : world -> list label -> world -> Prop :=
| hs_nil w : hsteps w [] w
| hs_snoc w tr w1 l w2 : hsteps w tr w1 -> hstep w1 l (Ok w2) -> hsteps w (tr ++ [l]) w2.

(** ... and at most one action per connected client separates it from serving again. *)
Theorem C61_bounded w m mid w' :
  hsteps w (LBroadcast m :: mid) w' -> existsb ends_range mid = false ->
  (List.length (filter is_offer mid) <= List.length (w_conns w))%nat.
Proof.
  intros S NE.
  enough (exists t, w_hub w' = HBcast m t /\ (List.length (filter is_offer mid) + List.length t = List.length (w_conns w))%nat) as (t & E & L) by lia.
  revert w' S NE. induction mid as [|l mid IH] using rev_ind; intros w' S NE.
  - inversion S as [|w0 tr w1 l w2 S0 ST E1 E]. change [LBroadcast m] with ([] ++ [@LBroadcast M m]) in E.
    apply app_inj_tail in E. destruct E as [-> ->]. inversion S0 as [z Ez|z1 z2 z3 z4 z5 z6 z7 z8 X]; [|destruct z2; discriminate X].
    subst. inversion ST; subst. cbn. eexists. split; [reflexivity|]. now apply Permutation_length.
  - rewrite app_comm_cons in S. inversion S as [|w0 tr w1 l0 w2 S0 ST E1 E].
    rewrite app_comm_cons in E. apply app_inj_tail in E. destruct E as [-> ->]. subst.
    rewrite existsb_app, orb_false_iff in NE. destruct NE as [NE NL]. cbn in NL. rewrite orb_false_r in NL.
    destruct (IH _ S0 NE) as (t & E & L). rewrite filter_app, app_length. cbn [filter].
    inversion ST; subst; try discriminate NL; try congruence; cbn [is_offer List.length];
      try (exists t; cbn; split; [exact E|lia]).
    match goal with X : w_hub w1 = HBcast ?mm (?cc :: ?tt) |- _ => rewrite X in E; inversion E; subst end.
    match goal with X : _ = Ok w' |- _ => cbv zeta in X;
      repeat match type of X with (if ?b then _ else _) = _ => destruct b end; try discriminate X; apply Ok_inj in X; subst w' end;
      cbn; cbn in L; eexists; (split; [reflexivity|lia]).
Qed.

(** Whoever is unregistered is closed for good: the hub does not survive a second unregistration,
    nor an offer of a message to it. *)
Lemma unregistered_closed tr w c : hrun tr (Ok w) -> In (LUnregister c) tr ->
  ch_closed (w_chan w c) = true /\ w_pump w c <> None.
Proof.
  intros R. remember (@Ok M w) as r eqn:Er. revert w Er. induction R as [|tr w0 l r R IH ST]; intros w Er I; [destruct I|].
  subst r. apply in_app_or in I as [I|[->|[]]].
  - destruct (IH _ eq_refl I) as [C P].
    inversion ST as [? d P0 E1 E2 E3|? d HI P0 E1 E2 E3|? d HI P0 E1 E2 E3|? m todo HI PE E1 E2 E3|? m d todo HB E1 E2 E3|? m HB E1 E2 E3|
      ? d m q b P0 CH E1 E2 E3|? d P0 CH E1 E2 E3|? d P0 E1 E2 E3|? d f ok P0 E1 E2 E3]; subst; cbn [w_chan w_pump].
    + destruct (Nat.eq_dec c d) as [->|N]; [congruence|]. rewrite !upd_other by exact N. auto.
    + split; [exact C|]. destruct (Nat.eq_dec c d) as [->|N]; [rewrite upd_same; discriminate|now rewrite upd_other].
    + destruct (ch_closed (w_chan w0 d)) eqn:CD; [discriminate E3|]. apply Ok_inj in E3. subst w. cbn [w_chan w_pump].
      split; [|exact P]. destruct (Nat.eq_dec c d) as [->|N]; [now rewrite upd_same|now rewrite upd_other].
    + auto.
    + cbv zeta in E3. destruct (ch_closed (w_chan w0 d)) eqn:CD; [discriminate E3|].
      assert (c <> d) as N by congruence.
      destruct (Nat.ltb _ _); apply Ok_inj in E3; subst w; cbn [w_chan w_pump]; rewrite upd_other by exact N; auto.
    + auto.
    + split.
      * destruct (Nat.eq_dec c d) as [->|N]; [rewrite upd_same; cbn [ch_closed]; rewrite CH in C; exact C|now rewrite upd_other].
      * destruct (Nat.eq_dec c d) as [->|N]; [rewrite upd_same; discriminate|now rewrite upd_other].
    + split; [exact C|]. destruct (Nat.eq_dec c d) as [->|N]; [rewrite upd_same; discriminate|now rewrite upd_other].
    + split; [exact C|]. destruct (Nat.eq_dec c d) as [->|N]; [rewrite upd_same; discriminate|now rewrite upd_other].
    + split; [exact C|]. destruct (Nat.eq_dec c d) as [->|N]; [rewrite upd_same; discriminate|now rewrite upd_other].
  - inversion ST as [| |? d HI P0 E1 E2 E3| | | | | | |]; subst. destruct (ch_closed (w_chan w0 c)) eqn:CD; [discriminate E3|].
    apply Ok_inj in E3. subst w. cbn [w_chan w_pump]. rewrite upd_same. auto.
Qed.
Theorem C61_unregister_once tr c r l : hrun (tr ++ [l]) r -> In (LUnregister c) tr -> l = LUnregister c \/ (exists m, l = LOffer c m) -> r = Crash.
Proof.
  intros R I L. inversion R as [E|tr0 w l0 r0 R0 ST E]; [destruct tr; discriminate E|]. apply app_inj_tail in E as [-> ->].
  destruct (unregistered_closed _ _ _ R0 I) as [C P].
  destruct L as [->|(m & ->)]; inversion ST; subst; cbv zeta; rewrite C; reflexivity.
Qed.

(** An unregister request for a client already dropped would kill the program. *)
Theorem C61_unregister_dropped tr w c :
  hrun tr (Ok w) -> no_unregister tr -> dropped c tr -> w_hub w = HIdle ->
  hstep w (LUnregister c) Crash.
Proof.
  intros R NU D HI.
  assert (In (LRegister c) tr) as RG.
  { destruct D as (t1 & m & t2 & -> & Dr). apply in_or_app. left.
    destruct (reg_dec t1 c) as [X|X]; [exact X|]. exfalso. unfold drops in Dr. rewrite since_unreg in Dr by exact X. cbn in Dr. lia. }
  destruct (C60_drop_iff _ _ _ R NU RG) as [_ CC]. apply CC in D.
  destruct (winv_run _ _ R NU) as (w' & E & I). apply Ok_inj in E. subst w'.
  pose proof (proj1 (ci_reg _ _ _ (wi_c _ _ I c)) RG) as [P _].
  pose proof (st_unregister M w c HI P) as S. rewrite D in S. exact S.
Qed.

(** A client whose pump takes nothing any more (for instance because writing to it failed) is
    dropped after at most 257 further broadcasts, and not before its channel is full. *)
Lemma stall_run c : forall (ms : list M) tr w,
  hrun tr (Ok w) -> w_hub w = HIdle -> w_conns w = [c] -> w_chan w c = mkch [] false ->
  (List.length ms <= 256)%nat ->
  exists w', hrun (tr ++ flat_map (fun m => [LBroadcast m; LOffer c m; LEndRange]) ms) (Ok w') /\
    w_hub w' = HIdle /\ w_conns w' = [c] /\ w_chan w' c = mkch ms false.
Proof.
  intros ms. induction ms as [|m ms IH] using rev_ind; intros tr w R HI HC Q L.
  - exists w. rewrite app_nil_r. auto.
  - rewrite app_length in L. cbn in L. destruct (IH _ _ R HI HC Q) as (w1 & R1 & HI1 & HC1 & Q1); [lia|].
    rewrite flat_map_app. cbn [flat_map]. rewrite app_nil_r.
    assert (Permutation [c] (w_conns w1)) as P by (rewrite HC1; constructor; constructor).
    pose proof (run_snoc _ _ _ _ R1 (st_broadcast M w1 m [c] HI1 P)) as R2.
    set (w2 := mkw _ _ _ _) in R2.
    pose proof (st_offer M w2 m c [] eq_refl) as S. subst w2; cbn [w_hub w_conns w_chan w_pump] in S; cbv zeta in S; rewrite Q1 in S; cbn [ch_q ch_closed] in S.
    assert (Nat.ltb (List.length ms) send_cap = true) as LT by (apply Nat.ltb_lt; unfold send_cap; lia).
    rewrite LT in S. pose proof (run_snoc _ _ _ _ R2 S) as R3. set (w3 := mkw _ _ _ _) in R3.
    pose proof (run_snoc _ _ _ _ R3 (st_end M w3 m eq_refl)) as R4.
    eexists. split; [rewrite <- !app_assoc in R4; cbn [app] in R4; rewrite app_assoc in R4|].
    + rewrite app_assoc. exact R4.
    + cbn. rewrite upd_same. auto.
Qed.

(** Concrete executions: a client registers and its pump never runs. *)
Definition stalled (c : nat) (ms : list M) : list label :=
  [LOpen c; LRegister c] ++ flat_map (fun m => [LBroadcast m; LOffer c m; LEndRange]) ms.
Lemma stalled_run c ms : (List.length ms <= 256)%nat ->
  exists w, hrun (stalled c ms) (Ok w) /\ w_hub w = HIdle /\ w_conns w = [c] /\ w_chan w c = mkch ms false.
Proof.
  intros L.
  pose proof (run_snoc _ _ _ _ (hr_nil M) (st_open M hub_init c eq_refl)) as R1. set (w1 := mkw _ _ _ _) in R1.
  assert (w_pump w1 c = Some PReg) as P1 by (cbn; apply upd_same).
  pose proof (run_snoc _ _ _ _ R1 (st_register M w1 c eq_refl P1)) as R2. set (w2 := mkw _ _ _ _) in R2.
  assert (w_conns w2 = [c]) as C2 by (cbn; destruct (in_dec Nat.eq_dec c []) as [[]|_]; reflexivity).
  assert (w_chan w2 c = mkch [] false) as Q2 by (cbn; apply upd_same).
  exact (stall_run c ms _ w2 R2 eq_refl C2 Q2 L).
Qed.

Lemma stalled_since c ms : since c (stalled c ms) = ms /\ takes c (stalled c ms) = O.
Proof.
  unfold stalled. cbn [app since]. rewrite Nat.eqb_refl. split.
  - induction ms as [|m ms IH]; [reflexivity|]. cbn in *. unfold broadcasts in IH. now rewrite IH.
  - unfold takes. cbn. induction ms as [|m ms IH]; [reflexivity|]. cbn. exact IH.
Qed.
Lemma stalled_no_unreg c ms : no_unregister (stalled c ms).
Proof.
  intros d I. unfold stalled in I. apply in_app_or in I. destruct I as [[I|[I|[]]]|I]; try discriminate I.
  apply in_flat_map in I. destruct I as (m & _ & [I|[I|[I|[]]]]); discriminate I.
Qed.

(** 256 unread messages are tolerated, the 257th drops the client. *)
Theorem C60_limit_exact c ms m :
  List.length ms = 256%nat ->
  (exists w, hrun (stalled c ms) (Ok w) /\ In c (w_conns w) /\ ~ dropped c (stalled c ms)) /\
  (exists w, hrun (stalled c ms ++ [LBroadcast m; LOffer c m; LEndRange]) (Ok w) /\
     dropped c (stalled c ms ++ [LBroadcast m; LOffer c m; LEndRange]) /\
     w_hub w = HIdle /\ w_conns w = [] /\ ch_q (w_chan w c) = ms).
Proof.
  intros L. destruct (stalled_run c ms) as (w1 & R1 & HI & HC & Q); [lia|]. destruct (stalled_since c ms) as [S T].
  assert (In (LRegister c) (stalled c ms)) as RG by (right; now left).
  split.
  - exists w1. split; [exact R1|]. assert (In c (w_conns w1)) as I by (rewrite HC; now left).
    split; [exact I|]. now apply (member_iff _ _ _ R1 (stalled_no_unreg c ms) RG).
  - assert (Permutation [c] (w_conns w1)) as P by (rewrite HC; constructor; constructor).
    pose proof (run_snoc _ _ _ _ R1 (st_broadcast M w1 m [c] HI P)) as R2.
    set (w2 := mkw _ _ _ _) in R2.
    pose proof (st_offer M w2 m c [] eq_refl) as ST. subst w2; cbn [w_hub w_conns w_chan w_pump] in ST; cbv zeta in ST; rewrite Q in ST; cbn [ch_q ch_closed] in ST.
    assert (Nat.ltb (List.length ms) send_cap = false) as LT by (apply Nat.ltb_ge; unfold send_cap; lia).
    rewrite LT in ST. pose proof (run_snoc _ _ _ _ R2 ST) as R3. set (w3 := mkw _ _ _ _) in R3.
    pose proof (run_snoc _ _ _ _ R3 (st_end M w3 m eq_refl)) as R4.
    eexists. split; [rewrite <- !app_assoc in R4; exact R4|].
    split.
    + exists (stalled c ms ++ [LBroadcast m]), m, [LEndRange]. split; [rewrite <- app_assoc; reflexivity|].
      unfold drops. rewrite since_snoc, takes_snoc, S, T, app_length, L by exact RG. cbn. lia.
    + cbn. rewrite upd_same, HC. split; [reflexivity|]. split; [|reflexivity]. unfold remove_conn. cbn. now rewrite Nat.eqb_refl.
Qed.
End Props.

(** The hypotheses of the theorems above are met: 256 and 257 broadcasts to a client that does
    not read; the program dies if that client is then unregistered. *)
Example C60_example : exists w : world Z,
  hrun (stalled 7 (repeat 5 256) ++ [LBroadcast 6; LOffer 7 6; LEndRange]) (Ok w) /\
  dropped 7 (stalled 7 (repeat 5 256) ++ [LBroadcast 6; LOffer 7 6; LEndRange]) /\
  hstep w (LUnregister 7) Crash.
Proof.
  destruct (C60_limit_exact 7 (repeat 5 256) 6) as [_ (w & R & D & HI & _ & _)]; [apply repeat_length|].
  exists w. split; [exact R|]. split; [exact D|]. apply (C61_unregister_dropped _ _ _ R); [|exact D|exact HI].
  intros d I. apply in_app_or in I. destruct I as [I|I]; [exact (stalled_no_unreg _ _ d I)|].
  destruct I as [I|[I|[I|[]]]]; discriminate I.
Qed.
(** A client is opened, registered and unregistered; a second unregistration ends the program. *)
Example C61_unregister_example : hrun ([LOpen 7; LRegister 7; LUnregister 7] ++ [LUnregister 7]) (@Crash Z) /\ In (@LUnregister Z 7) [LOpen 7; LRegister 7; LUnregister 7].
Proof.
  split; [|right; right; now left].
  pose proof (hr_snoc Z _ _ _ _ (hr_nil Z) (st_open Z hub_init 7 eq_refl)) as R1. set (w1 := mkw _ _ _ _) in R1.
  pose proof (hr_snoc Z _ _ _ _ R1 (st_register Z w1 7 eq_refl eq_refl)) as R2. set (w2 := mkw _ _ _ _) in R2.
  assert (w_pump w2 7 <> None) as P2 by discriminate.
  pose proof (hr_snoc Z _ _ _ _ R2 (st_unregister Z w2 7 eq_refl P2)) as R3. change (ch_closed (w_chan w2 7%nat)) with false in R3. cbv iota in R3. set (w3 := mkw _ _ _ _) in R3.
  assert (w_pump w3 7 <> None) as P3 by discriminate.
  exact (hr_snoc Z _ _ _ _ R3 (st_unregister Z w3 7 eq_refl P3)).
Qed.
