(** CanusbRegistry: proofs about AddFastPacket / isFastPacket (C01). *)
From Coq Require Import Sorting.Sorted.
From Verif Require Import GoBase BufFacts CanModel CanusbModel.

Definition ssorted (l : list Z) : Prop := StronglySorted Z.lt l.

Lemma add_fast_In l pgn x : In x (add_fast l pgn) <-> x = pgn \/ In x l.
Proof.
  induction l as [|v r IH]; cbn; [intuition|].
  destruct (Z.eqb_spec pgn v); [subst; cbn; intuition|].
  destruct (Z.ltb_spec pgn v); cbn; [intuition|]. rewrite IH. intuition.
Qed.

Lemma add_fast_sorted l pgn : ssorted l -> ssorted (add_fast l pgn).
Proof.
  unfold ssorted. induction l as [|v r IH]; intros S; cbn.
  - repeat constructor.
  - apply StronglySorted_inv in S as [S F].
    destruct (Z.eqb_spec pgn v); [constructor; assumption|].
    destruct (Z.ltb_spec pgn v).
    + constructor; [constructor; assumption|]. constructor; [assumption|].
      eapply Forall_impl; [|exact F]. cbn; intros; lia.
    + constructor; [auto|]. apply Forall_forall. intros x Hx.
      apply add_fast_In in Hx as [->|Hx]; [lia|]. rewrite Forall_forall in F. auto.
Qed.

Lemma ssorted_nth l i j x y :
  ssorted l -> zget l i = Some x -> zget l j = Some y -> i < j -> x < y.
Proof.
  unfold ssorted. revert i j. induction l as [|v r IH]; intros i j S Hi Hj Hij.
  - apply zget_some in Hi. change (zlen (@nil Z)) with 0 in Hi. lia.
  - apply StronglySorted_inv in S as [S F].
    pose proof (zget_some _ _ _ Hi). pose proof (zget_some _ _ _ Hj).
    rewrite (zget_cons_S v r j) in Hj by lia.
    destruct (Z.eq_dec i 0) as [->|].
    + rewrite zget_cons_0 in Hi. injection Hi as <-.
      rewrite Forall_forall in F. apply F. unfold zget in Hj.
      destruct (j - 1 <? 0); [discriminate|]. eapply nth_error_In; eassumption.
    + rewrite (zget_cons_S v r i) in Hi by lia. eapply IH; try eassumption. lia.
Qed.

Lemma zget_In {A} (l : list A) x : In x l <-> exists i, zget l i = Some x.
Proof.
  split.
  - intros H. apply In_nth_error in H as [n Hn]. exists (Z.of_nat n). unfold zget.
    destruct (Z.ltb_spec (Z.of_nat n) 0); [lia|]. now rewrite Nat2Z.id.
  - intros [i Hi]. unfold zget in Hi. destruct (i <? 0); [discriminate|]. eapply nth_error_In; eassumption.
Qed.

Lemma fp_search_ok fuel fp pgn i j :
  ssorted fp -> 0 <= i <= j -> j <= zlen fp -> (Z.to_nat (j - i) < fuel)%nat ->
  (forall k x, zget fp k = Some x -> k < i -> x < pgn) ->
  (forall k x, zget fp k = Some x -> j <= k -> pgn <= x) ->
  exists r, fp_search fuel fp pgn i j = Some r /\ i <= r <= j /\
    (forall k x, zget fp k = Some x -> k < r -> x < pgn) /\
    (forall k x, zget fp k = Some x -> r <= k -> pgn <= x).
Proof.
  intros S. revert i j. induction fuel as [|f IH]; intros i j Hij Hj Hf Lo Hi; [lia|].
  cbn. destruct (Z.ltb_spec i j) as [Hlt|Hge].
  - assert (0 <= (j - i) / 2 < j - i).
    { split; [apply Z.div_pos; lia|]. apply Z.div_lt; lia. }
    set (h := i + (j - i) / 2) in *.
    destruct (zget_lt fp h) as [v Hv]; [lia|]. rewrite Hv.
    destruct (Z.leb_spec pgn v); cbn.
    + destruct (IH i h) as (r & E & B & L & U); try lia; try assumption.
      { intros k x Hk Hle. destruct (Z.eq_dec k h) as [->|]; [congruence|].
        assert (v < x) by (eapply ssorted_nth; eauto; lia). lia. }
      exists r. split; [exact E|]. split; [lia|]. auto.
    + destruct (IH (h + 1) j) as (r & E & B & L & U); try lia; try assumption.
      { intros k x Hk Hle. destruct (Z.eq_dec k h) as [->|]; [congruence|].
        assert (x < v) by (eapply ssorted_nth; eauto; lia). lia. }
      exists r. split; [exact E|]. split; [lia|]. auto.
  - exists i. split; [reflexivity|]. split; [lia|]. split; [exact Lo|].
    intros k x Hk Hle. eapply Hi; [exact Hk|lia].
Qed.

(** isFastPacket on a strictly sorted list is membership. *)
Lemma isFastPacket_sorted fp pgn :
  ssorted fp -> exists b, isFastPacket fp pgn = Some b /\ (b = true <-> In pgn fp).
Proof.
  intros S. unfold isFastPacket. pose proof (zlen_nonneg fp).
  destruct (fp_search_ok (Datatypes.S (List.length fp)) fp pgn 0 (zlen fp)) as (r & E & B & L & U); try lia; auto.
  { unfold zlen. lia. }
  { intros k x Hk Hlt. apply zget_some in Hk. lia. }
  { intros k x Hk Hle. apply zget_some in Hk. lia. }
  rewrite E. destruct (Z.ltb_spec r (zlen fp)) as [Hr|Hr].
  - destruct (zget_lt fp r) as [v Hv]; [lia|]. rewrite Hv. exists (v =? pgn). split; [reflexivity|].
    rewrite Z.eqb_eq, zget_In. split; [intros ->; eauto|]. intros [k Hk].
    pose proof (U r v Hv ltac:(lia)).
    destruct (Z_lt_le_dec k r) as [Hlt|Hle]; [specialize (L _ _ Hk Hlt); lia|].
    destruct (Z.eq_dec k r) as [->|]; [congruence|].
    assert (v < pgn) by (eapply ssorted_nth; eauto; lia). lia.
  - exists false. split; [reflexivity|]. split; [discriminate|]. intros Hin.
    apply zget_In in Hin as [k Hk]. pose proof (zget_some _ _ _ Hk).
    specialize (L _ _ Hk ltac:(lia)). lia.
Qed.

Lemma fast_fold adds st :
  ssorted (cs_fast st) ->
  ssorted (cs_fast (fold_left AddFastPacket adds st)) /\
  (forall x, In x (cs_fast (fold_left AddFastPacket adds st)) <-> In x adds \/ In x (cs_fast st)) /\
  cs_partial (fold_left AddFastPacket adds st) = cs_partial st /\
  cs_group (fold_left AddFastPacket adds st) = cs_group st.
Proof.
  revert st. induction adds as [|a adds IH]; intros st S; cbn.
  - intuition.
  - destruct (IH (AddFastPacket st a)) as (S' & I & P & G); [apply add_fast_sorted; exact S|].
    split; [exact S'|]. split; [|split; assumption].
    intros x. rewrite I. cbn. rewrite add_fast_In. intuition.
Qed.

(** States reachable from the start of the program by registrations only have a sorted
    registry; [registry_ok] is the invariant all receive theorems assume. *)
Definition registry_ok (st : can_state) : Prop := ssorted (cs_fast st).

(** Never out of range, never out of fuel. *)
Lemma isFastPacket_total st pgn : registry_ok st -> isFastPacket (cs_fast st) pgn <> None.
Proof. intros S. destruct (isFastPacket_sorted _ pgn S) as (b & -> & _). discriminate. Qed.

Lemma isFastPacket_true st pgn :
  registry_ok st -> In pgn (cs_fast st) -> isFastPacket (cs_fast st) pgn = Some true.
Proof. intros S H. destruct (isFastPacket_sorted _ pgn S) as (b & -> & E). apply E in H. now subst. Qed.
Lemma isFastPacket_false st pgn :
  registry_ok st -> ~ In pgn (cs_fast st) -> isFastPacket (cs_fast st) pgn = Some false.
Proof.
  intros S H. destruct (isFastPacket_sorted _ pgn S) as (b & -> & E). destruct b; [|reflexivity].
  exfalso. apply H, E. reflexivity.
Qed.

Theorem registry_exact adds pgn :
  let st := fold_left AddFastPacket adds can_init in
  (In pgn adds -> isFastPacket (cs_fast st) pgn = Some true) /\
  (~ In pgn adds -> isFastPacket (cs_fast st) pgn = Some false).
Proof.
  cbn. destruct (fast_fold adds can_init) as (S & I & _ & _); [constructor|].
  split; intros H; [apply isFastPacket_true|apply isFastPacket_false]; try exact S.
  - apply I. now left.
  - intros H2. apply I in H2 as [H2|[]]. contradiction.
Qed.
