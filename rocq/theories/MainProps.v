(** MainProps: the consumer goroutine (C58, C59) and the registration of fast packets at
    start-up (C01, table part). *)
From Coq Require Import Sorting.Sorted Permutation.
From Verif Require Import GoBase BufFacts Strconv StrconvFacts CanModel CanusbModel CanusbRegistry CanusbProps NmeaTypes
  PgnTable NmeaModel SignalkModel SignalkSpec SignalkText MainModel MainSpec.
Open Scope list_scope.

(* ------------------------------------------------------------ C01: start-up *)

Lemma register_fast_In t : forall st x,
  In x (cs_fast (register_fast t st)) <-> In x (cs_fast st) \/ exists p, In p t /\ 8 < p_size p /\ p_pgn p = x.
Proof.
  unfold register_fast. induction t as [|p t IH]; intros st x; cbn [fold_left].
  - split; [tauto|]. intros [H|(p & [] & _)]. exact H.
  - rewrite IH. destruct (Z.ltb_spec 8 (p_size p)) as [L|L].
    + rewrite c01_add_grows. split.
      * intros [[->|H]|(q & I & S)]; [|tauto|]; right; [exists p|exists q]; cbn [In]; tauto.
      * intros [H|(q & [->|I] & S & E)]; [tauto| |]; [left; left; congruence|right; eauto].
    + split.
      * intros [H|(q & I & S)]; [tauto|right; exists q; cbn [In]; tauto].
      * intros [H|(q & [->|I] & S & E)]; [tauto|lia|right; eauto].
Qed.
Lemma register_fast_reachable t : forall st, can_reachable st -> can_reachable (register_fast t st).
Proof.
  unfold register_fast. induction t as [|p t IH]; intros st H; cbn [fold_left]; [exact H|].
  apply IH. destruct (8 <? p_size p); [|exact H]. now constructor.
Qed.

(** After the registrations made at start-up the fast packet PGNs are exactly the PGNs of the
    table entries with Size > 8, for any table. *)
Theorem C01_startup t pgn :
  exists b, isFastPacket (cs_fast (register_fast t can_init)) pgn = Some b /\
    (b = true <-> exists p, In p t /\ p_pgn p = pgn /\ 8 < p_size p).
Proof.
  destruct (c01_registry_exact_any (register_fast t can_init) pgn) as (b & E & B).
  { apply register_fast_reachable. constructor. }
  exists b. split; [exact E|]. rewrite B, register_fast_In. cbn. firstorder.
Qed.
Example C01_startup_example :
  isFastPacket (cs_fast (register_fast PgnList can_init)) 129029 = Some true /\
  isFastPacket (cs_fast (register_fast PgnList can_init)) 127250 = Some false.
Proof. split; vm_compute; reflexivity. Qed.

(** A stronger expectation fails: a PGN one of whose definitions describes more than the 8 bytes
    of a CAN frame need not be registered.  These are all such PGNs; their frames are never
    reassembled. *)
Definition described_bytes (p : pgn_def) : Z := (sum_sizes (p_fields p) + 7) / 8.
Definition never_reassembled : list Z :=
  [65240; 126208; 126720; 127503; 127504; 127506; 127510; 127513; 129028; 129302; 129538; 129541;
   129542; 129545; 129547; 129549; 129551; 129556; 129792; 129793; 129797; 129798; 129800; 129802;
   129803; 129805; 129806; 129807; 129808; 130064; 130065; 130066; 130067; 130068; 130069; 130070;
   130071; 130072; 130073; 130074; 130322; 130324; 130818; 130856].
Lemma described_sum p : sum_sizes (p_fields p) = fold_right Z.add 0 (map f_size (p_fields p)).
Proof. induction (p_fields p) as [|f l IH]; [reflexivity|]. cbn [sum_sizes map fold_right]. now rewrite <- IH. Qed.
Lemma long_check :
  forallb (fun p => implb ((8 <? described_bytes p) &&
      match isFastPacket (cs_fast (register_fast PgnList can_init)) (p_pgn p) with Some false => true | _ => false end)
    (existsb (Z.eqb (p_pgn p)) never_reassembled)) PgnList &&
  forallb (fun x => existsb (fun p => (p_pgn p =? x) && (8 <? described_bytes p)) PgnList &&
      match isFastPacket (cs_fast (register_fast PgnList can_init)) x with Some false => true | _ => false end) never_reassembled = true.
Proof. vm_compute. reflexivity. Qed.
Theorem C01_long_definitions_refuted pgn :
  (exists p, In p PgnList /\ p_pgn p = pgn /\ 8 * 8 < fold_right Z.add 0 (map f_size (p_fields p)) /\
     isFastPacket (cs_fast (register_fast PgnList can_init)) pgn = Some false) <->
  In pgn never_reassembled.
Proof.
  pose proof long_check as K. apply andb_true_iff in K as [K1 K2].
  rewrite forallb_forall in K1, K2. split.
  - intros (p & I & <- & L & F). specialize (K1 p I). rewrite F in K1.
    assert (8 < described_bytes p) as D.
    { unfold described_bytes. rewrite described_sum. pose proof Z.div_mod. Z.div_mod_to_equations. lia. }
    apply Z.ltb_lt in D. rewrite D in K1. cbn [andb implb] in K1.
    apply existsb_exists in K1 as (x & Ix & E). apply Z.eqb_eq in E. now subst x.
  - intros I. specialize (K2 _ I). apply andb_true_iff in K2 as [K2 K3].
    apply existsb_exists in K2 as (p & Ip & E). apply andb_true_iff in E as [E1 E2].
    exists p. split; [exact Ip|]. split; [lia|]. split.
    + unfold described_bytes in E2. rewrite described_sum in E2. apply Z.ltb_lt in E2. Z.div_mod_to_equations. lia.
    + destruct (isFastPacket _ _) as [[|]|]; congruence.
Qed.

(* ------------------------------------------------------------ texts *)

Lemma text_lt_trans a b c : text_lt a b -> text_lt b c -> text_lt a c.
Proof.
  rewrite <- !bytes_ltb_lt. revert b c. induction a as [|x a IH]; intros [|y b] [|z c]; cbn; try congruence.
  rewrite !orb_true_iff, !andb_true_iff. intros [L|[E L]] [L'|[E' L']]; try (left; lia).
  right. split; [lia|]. eapply IH; eassumption.
Qed.
Lemma text_lt_irrefl a : ~ text_lt a a.
Proof.
  rewrite <- bytes_ltb_lt. induction a as [|x a IH]; cbn; [discriminate|].
  rewrite Z.ltb_irrefl, Z.eqb_refl. cbn. exact IH.
Qed.

Lemma insert_perm k l : Permutation (insert k l) (k :: l).
Proof.
  induction l as [|x l IH]; cbn [insert]; [reflexivity|]. destruct (bytes_ltb k x); [reflexivity|].
  rewrite IH. apply perm_swap.
Qed.
Lemma sort_perm l : Permutation (sort_strings l) l.
Proof. induction l as [|x l IH]; cbn; [reflexivity|]. now rewrite insert_perm, IH. Qed.
Lemma insert_sorted k l : ~ In k l -> StronglySorted text_lt l -> StronglySorted text_lt (insert k l).
Proof.
  intros N S. induction S as [|x l S IH F]; cbn [insert].
  - repeat constructor.
  - destruct (bytes_ltb k x) eqn:E.
    + apply bytes_ltb_lt in E. constructor; [constructor; assumption|]. constructor; [exact E|].
      eapply Forall_impl; [|exact F]. intros y. now apply text_lt_trans.
    + apply text_order in E. assert (text_lt x k) as L by (destruct E as [->|L]; [destruct N; now left|exact L]).
      constructor; [apply IH; intros I; apply N; now right|].
      rewrite Forall_forall in *. intros y I. apply (Permutation_in _ (insert_perm k l)) in I as [->|I]; auto.
Qed.
Lemma sort_sorted l : NoDup l -> StronglySorted text_lt (sort_strings l).
Proof.
  induction 1 as [|x l N D IH]; cbn; [constructor|]. apply insert_sorted; [|exact IH].
  intros I. apply N. now apply (Permutation_in _ (sort_perm l)).
Qed.
Lemma sorted_unique (a b : list bytes) : StronglySorted text_lt a -> StronglySorted text_lt b ->
  (forall x, In x a <-> In x b) -> a = b.
Proof.
  revert b. induction a as [|x a IH]; intros [|y b] Sa Sb E; [reflexivity| | |].
  - exfalso. apply (E y). now left.
  - exfalso. apply (E x). now left.
  - apply StronglySorted_inv in Sa as [Sa Fa]. apply StronglySorted_inv in Sb as [Sb Fb].
    rewrite Forall_forall in Fa, Fb.
    assert (x = y) as ->.
    { destruct (proj1 (E x) (or_introl eq_refl)) as [->|I]; [reflexivity|].
      destruct (proj2 (E y) (or_introl eq_refl)) as [->|I']; [reflexivity|].
      exfalso. apply (text_lt_irrefl x). eapply text_lt_trans; [apply Fa|apply Fb]; assumption. }
    f_equal. apply IH; [assumption|assumption|]. intros z. split; intros I.
    + destruct (proj1 (E z) (or_intror I)) as [->|]; [|assumption]. exfalso. now apply (text_lt_irrefl z), Fa.
    + destruct (proj2 (E z) (or_intror I)) as [->|]; [|assumption]. exfalso. now apply (text_lt_irrefl z), Fb.
Qed.

(* ------------------------------------------------------------ counters *)

Lemma st_find_set l k v x : st_find (st_set l k v) x = if bytes_eqb k x then Some v else st_find l x.
Proof.
  induction l as [|[y n] l IH]; cbn [st_set st_find]; [reflexivity|].
  destruct (bytes_eqb y k) eqn:E; cbn [st_find].
  - apply bytes_eqb_eq in E. subst y. destruct (bytes_eqb k x); reflexivity.
  - destruct (bytes_eqb y x) eqn:E'; [|exact IH].
    destruct (bytes_eqb k x) eqn:E''; [|reflexivity].
    apply bytes_eqb_eq in E', E''. subst. rewrite (proj2 (bytes_eqb_eq x x) eq_refl) in E. discriminate.
Qed.
Lemma st_find_In l k : st_find l k <> None <-> In k (map fst l).
Proof.
  induction l as [|[y n] l IH]; cbn [st_find map In fst]; [tauto|].
  destruct (bytes_eqb y k) eqn:E.
  - apply bytes_eqb_eq in E. subst. split; [tauto|congruence].
  - rewrite IH. split; [tauto|]. intros [->|H]; [|exact H].
    rewrite (proj2 (bytes_eqb_eq k k) eq_refl) in E. discriminate.
Qed.
Lemma st_set_keys l k v : map fst (st_set l k v) = match st_find l k with Some _ => map fst l | None => map fst l ++ [k] end.
Proof.
  induction l as [|[y n] l IH]; cbn [st_set st_find map fst app]; [reflexivity|].
  destruct (bytes_eqb y k); cbn [map fst]; [reflexivity|]. rewrite IH. destruct (st_find l k); reflexivity.
Qed.

Lemma occurrences_snoc p ms m :
  occurrences p (ms ++ [m]) = occurrences p ms + (if rm_pgn (pm_header m) =? p then 1 else 0).
Proof.
  unfold occurrences. rewrite filter_app, zlen_app. cbn [filter]. destruct (_ =? p); reflexivity.
Qed.
Lemma occurrences_nonneg p ms : 0 <= occurrences p ms.
Proof. apply zlen_nonneg. Qed.

(** The consumer's variables after the messages ms. *)
Record counted (c : consumer) (ms : list parsed) : Prop := mkcd {
  cd_some : forall k n, st_find (c_log c) k = Some n <->
              exists p, k = itoa p /\ 0 < occurrences p ms /\ n = occurrences p ms mod 2 ^ 64;
  cd_nodup : NoDup (map fst (c_log c));
  cd_sorted : StronglySorted text_lt (c_pgns c);
  cd_keys : forall k, In k (c_pgns c) <-> In k (map fst (c_log c)) }.

Lemma counted_init : counted consumer_init [].
Proof.
  constructor; cbn; [|constructor|constructor|tauto].
  intros k n. split; [discriminate|]. intros (p & _ & H & _). change (occurrences p []) with 0 in H. lia.
Qed.

Lemma counted_step c ms m : counted c ms -> counted (count c (pm_header m)) (ms ++ [m]).
Proof.
  intros [CS ND SO KS]. set (q := rm_pgn (pm_header m)). unfold count. fold q.
  assert (forall p, p <> q -> occurrences p (ms ++ [m]) = occurrences p ms) as OO.
  { intros p N. rewrite occurrences_snoc. fold q. destruct (Z.eqb_spec q p); [congruence|lia]. }
  assert (occurrences q (ms ++ [m]) = occurrences q ms + 1) as OQ.
  { rewrite occurrences_snoc. fold q. rewrite Z.eqb_refl. reflexivity. }
  pose proof (occurrences_nonneg q ms) as NN.
  assert (forall x, (forall n, st_find (c_log c) (itoa q) = Some n -> x = u64 (n + 1)) ->
            (st_find (c_log c) (itoa q) = None -> x = 1) ->
            forall k n, st_find (st_set (c_log c) (itoa q) x) k = Some n <->
              exists p, k = itoa p /\ 0 < occurrences p (ms ++ [m]) /\ n = occurrences p (ms ++ [m]) mod 2 ^ 64) as K.
  { intros x X1 X2 k n. rewrite st_find_set. destruct (bytes_eqb (itoa q) k) eqn:E.
    - apply bytes_eqb_eq in E. subst k.
      assert (x = occurrences q (ms ++ [m]) mod 2 ^ 64) as EX.
      { rewrite OQ. destruct (st_find (c_log c) (itoa q)) as [n0|] eqn:F.
        - pose proof F as F'. apply CS in F' as (p & E & P & EN). apply itoa_inj_all in E. subst p.
          rewrite (X1 n0 eq_refl), EN. unfold u64. change 18446744073709551616 with (2 ^ 64).
          now rewrite Zplus_mod_idemp_l.
        - rewrite (X2 eq_refl). assert (occurrences q ms = 0) as ->; [|reflexivity].
          destruct (Z.eq_dec (occurrences q ms) 0) as [Z0|Z0]; [exact Z0|].
          assert (st_find (c_log c) (itoa q) = Some (occurrences q ms mod 2 ^ 64)) as C.
          { apply CS. exists q. split; [reflexivity|]. split; [lia|reflexivity]. }
          congruence. }
      split.
      + intros G. injection G as <-. exists q. split; [reflexivity|]. split; [rewrite OQ; lia|exact EX].
      + intros (p & E & P & ->). apply itoa_inj_all in E. subst p. now rewrite EX.
    - rewrite CS. split; intros (p & -> & P & ->).
      + assert (p <> q) as N by (intros ->; rewrite (proj2 (bytes_eqb_eq _ _) eq_refl) in E; discriminate).
        exists p. rewrite OO by exact N. auto.
      + assert (p <> q) as N by (intros ->; rewrite (proj2 (bytes_eqb_eq _ _) eq_refl) in E; discriminate).
        exists p. rewrite OO in * by exact N. auto. }
  destruct (st_find (c_log c) (itoa q)) as [n0|] eqn:F.
  - constructor; cbn [c_log c_pgns]; [| |exact SO|].
    + apply K; [intros n G; congruence|congruence].
    + rewrite st_set_keys, F. exact ND.
    + rewrite st_set_keys, F. exact KS.
  - assert (~ In (itoa q) (map fst (c_log c))) as NI by (rewrite <- st_find_In; congruence).
    constructor; cbn [c_log c_pgns].
    + apply K; [congruence|reflexivity].
    + rewrite st_set_keys, F. apply (Permutation_NoDup (Permutation_cons_append _ _)). constructor; assumption.
    + apply sort_sorted. apply (Permutation_NoDup (Permutation_cons_append _ _)). constructor; [now rewrite KS|].
      clear - SO. induction SO as [|x l S IH FA]; [constructor|]. constructor; [|exact IH].
      intros I. rewrite Forall_forall in FA. now apply (text_lt_irrefl x), FA.
    + intros k. rewrite st_set_keys, F.
      assert (In k (sort_strings (c_pgns c ++ [itoa q])) <-> In k (c_pgns c ++ [itoa q])) as -> .
      { split; apply Permutation_in; [apply sort_perm|symmetry; apply sort_perm]. }
      rewrite !in_app_iff, KS. reflexivity.
Qed.

Definition rows (c : consumer) : list (bytes * Z) := map (fun k => (k, st_get (c_log c) k)) (c_pgns c).

Lemma counted_rows c ms : counted c ms -> is_statistics ms (rows c).
Proof.
  intros [CS ND SO KS]. unfold rows. split.
  - clear KS. induction SO as [|x l S IH F]; cbn [map]; [constructor|]. constructor; [exact IH|].
    rewrite Forall_forall in *. intros y I. apply in_map_iff in I as (z & <- & I). cbn. auto.
  - intros k n. rewrite in_map_iff, <- CS. unfold st_get. split.
    + intros (x & E & I). injection E as -> <-. apply KS, st_find_In in I.
      destruct (st_find (c_log c) k); congruence.
    + intros H. exists k. rewrite H. split; [reflexivity|]. apply KS, st_find_In. congruence.
Qed.

Lemma join_separated l : json_join l = separated (str ",") l.
Proof.
  unfold separated. change (str ",") with [44].
  destruct l as [|x l]; [reflexivity|]. revert x. induction l as [|y l IH]; intros x.
  - cbn. now rewrite app_nil_r.
  - change (json_join (x :: y :: l)) with (x ++ [44] ++ json_join (y :: l)). rewrite (IH y).
    cbn [flat_map]. now rewrite <- app_assoc.
Qed.
Lemma counted_json c ms : counted c ms -> stats_json (c_log c) = object_text (rows c).
Proof.
  intros [_ ND SO KS]. unfold stats_json, object_text, rows. rewrite join_separated, !map_map.
  assert (sort_strings (map fst (c_log c)) = c_pgns c) as ->.
  { apply sorted_unique; [now apply sort_sorted|exact SO|]. intros x. rewrite KS.
    split; apply Permutation_in; [apply sort_perm|symmetry; apply sort_perm]. }
  do 2 f_equal. f_equal. apply map_ext. intros k. unfold json_member, quoted. cbn [fst snd].
  rewrite <- !app_assoc. reflexivity.
Qed.

(* ------------------------------------------------------------ one message, many messages *)

Section Consumer.
Variables (o : options) (tz : Z) (fmtv : gval -> bytes) (t : list pgn_def) (mp : mappings)
          (marshal : Z -> delta -> option bytes) (verbose : bool).
Notation handle1 := (handle o tz fmtv t mp marshal verbose).

(** What one message does, whatever happened before. *)
Lemma handle_inv c m order c' es : handle1 c m order = Ret (c', es) ->
  c' = count c (pm_header m) /\
  exists tl, es = (if shown o (pm_header m) then [EShow m] else []) ++
    (if o_ws o then [EStats (stats_json (c_log c'))] else []) ++
    (if o_stats o then EClear :: map (fun r => ELine (fst r) (snd r)) (rows c') else []) ++ tl /\
    tl = match sk_delta (mkenv tz fmtv t m) mp (vi_order order) with
         | Ret d => match marshal (vi_now order) d with
                    | Some b => (if o_ws o then [EDelta b] else []) ++ (if o_mqtt o then [EMqtt b] else [])
                    | None => []
                    end
         | _ => []
         end.
Proof.
  unfold handle, rows. intros H. rewrite map_map. cbn [fst snd].
  destruct (if shown o (pm_header m) then print_fields t m verbose else Ret []) as [l|e|w]; try discriminate.
  destruct (sk_delta _ mp (vi_order order)) as [d|e|w]; try discriminate.
  - destruct (marshal (vi_now order) d) as [b|]; injection H as <- <-; split; try reflexivity; eexists; (split; [|reflexivity]);
      [now rewrite <- ?app_assoc|now rewrite app_nil_r].
  - injection H as <- <-. split; [reflexivity|]. eexists. split; [|reflexivity]. now rewrite app_nil_r.
Qed.

Lemma handle_all_app c0 ms1 ms2 r : handle_all handle1 c0 (ms1 ++ ms2) = Ret r ->
  exists c1 es1 es2, handle_all handle1 c0 ms1 = Ret (c1, es1) /\ handle_all handle1 c1 ms2 = Ret (fst r, es2) /\ snd r = es1 ++ es2.
Proof.
  revert c0 r. induction ms1 as [|[m od] ms1 IH]; intros c0 r H.
  - cbn [app] in H. exists c0, [], (snd r). split; [reflexivity|]. split; [destruct r; exact H|reflexivity].
  - cbn [app handle_all] in *. destruct (handle1 c0 m od) as [[c' es]|e|w] eqn:E; try discriminate H.
    destruct (handle_all handle1 c' (ms1 ++ ms2)) as [[c'' ess]|e|w] eqn:E2; try discriminate H.
    injection H as <-. destruct (IH _ _ E2) as (c1 & es1 & es2 & H1 & H2 & H3). rewrite H1.
    cbn [fst snd] in *. exists c1, (es :: es1), es2. split; [reflexivity|]. split; [exact H2|]. now rewrite H3.
Qed.

Lemma handle_all_counted : forall ms c ess,
  handle_all handle1 consumer_init ms = Ret (c, ess) -> counted c (map fst ms).
Proof.
  induction ms as [|[m od] ms IH] using rev_ind; intros c ess H.
  - injection H as <- <-. exact counted_init.
  - apply handle_all_app in H as (c1 & es1 & es2 & H1 & H2 & _). cbn [fst] in H2.
    specialize (IH _ _ H1). cbn [handle_all] in H2.
    destruct (handle1 c1 m od) as [[c' es]|e|w] eqn:E; try discriminate H2. injection H2 as <- <-.
    destruct (handle_inv _ _ _ _ _ E) as [-> _]. rewrite map_app. cbn [map fst]. now apply counted_step.
Qed.

(** C58.  After each message - [ms] handled, [m] being handled - the snapshot sent to the
    statistics clients and the listing on the terminal are the table of counters of all
    messages up to and including [m]: every PGN seen, once, with the exact number of its
    messages, in the byte order of the decimal texts. *)
Theorem C58_statistics ms m order c ess :
  handle_all handle1 consumer_init (ms ++ [(m, order)]) = Ret (c, ess) ->
  exists es rest table, ess = rest ++ [es] /\ List.length rest = List.length ms /\
    is_statistics (map fst ms ++ [m]) table /\
    stats_sent es = (if o_ws o then [object_text table] else []) /\
    screen es = (if o_stats o then table else []) /\ clears es = (if o_stats o then 1 else 0)%nat.
Proof.
  intros H. pose proof (handle_all_counted _ _ _ H) as CD. rewrite map_app in CD. cbn [map fst] in CD.
  apply handle_all_app in H as (c1 & es1 & es2 & H1 & H2 & E). cbn [fst snd] in *.
  cbn [handle_all] in H2. destruct (handle1 c1 m order) as [[c' es]|e|w] eqn:Eh; try discriminate H2.
  injection H2 as <- <-. destruct (handle_inv _ _ _ _ _ Eh) as (_ & tl & Es & Et).
  exists es, es1, (rows c'). split; [exact E|]. split.
  { clear - H1. revert H1. generalize consumer_init. revert es1. induction ms as [|[m0 od] ms IH]; intros es1 c0 H.
    - injection H as _ <-. reflexivity.
    - cbn [handle_all] in H. destruct (handle1 c0 m0 od) as [[c' es]|e|w]; try discriminate H.
      destruct (handle_all handle1 c' ms) as [[c'' ess]|e|w] eqn:E2; try discriminate H.
      injection H as <- <-. cbn [List.length]. f_equal. eapply IH. exact E2. }
  split; [now apply counted_rows|].
  rewrite (counted_json _ _ CD) in Es.
  assert (stats_sent tl = [] /\ screen tl = [] /\ clears tl = 0%nat) as (T1 & T2 & T3).
  { rewrite Et. destruct (sk_delta _ mp (vi_order order)); [|auto|auto]. destruct (marshal (vi_now order) a); [|auto].
    destruct (o_ws o), (o_mqtt o); cbn; auto. }
  rewrite Es. unfold stats_sent, screen, clears in *.
  rewrite !flat_map_app, !filter_app, !app_length, T1, T2, T3.
  assert (forall l : list (bytes * Z), flat_map (fun e => match e with EStats b => [b] | _ => [] end) (map (fun r => ELine (fst r) (snd r)) l) = []) as A1
    by (induction l; auto).
  assert (forall l : list (bytes * Z), flat_map (fun e => match e with ELine k n => [(k, n)] | _ => [] end) (map (fun r => ELine (fst r) (snd r)) l) = l) as A2.
  { induction l as [|[k n] l IH]; cbn; [reflexivity|]. now rewrite IH. }
  assert (forall l : list (bytes * Z), filter (fun e => match e with EClear => true | _ => false end) (map (fun r => ELine (fst r) (snd r)) l) = []) as A3
    by (induction l; auto).
  destruct (shown o (pm_header m)), (o_ws o), (o_stats o); cbn [flat_map filter app List.length map Nat.add];
    rewrite ?A1, ?A2, ?A3; cbn; rewrite ?app_nil_r; auto.
Qed.

(** C59: exactly the messages matching every restriction given are displayed, none in
    statistics mode; -pgn 0, -source 255 and -dest 255 are no restriction. *)
Theorem C59_filter c m order c' es : handle1 c m order = Ret (c', es) ->
  displayed es = (if o_stats o then []
                  else if ((o_pgn o =? 0) || (o_pgn o =? rm_pgn (pm_header m))) &&
                          ((o_src o =? 255) || (o_src o =? rm_source (pm_header m))) &&
                          ((o_dst o =? 255) || (o_dst o =? rm_dest (pm_header m))) then [m] else []).
Proof.
  intros H. destruct (handle_inv _ _ _ _ _ H) as (_ & tl & -> & Et).
  assert (displayed tl = []) as T.
  { rewrite Et. destruct (sk_delta _ mp (vi_order order)); [|auto|auto]. destruct (marshal (vi_now order) a); [|auto].
    destruct (o_ws o), (o_mqtt o); cbn; auto. }
  unfold displayed in *. rewrite !flat_map_app, T.
  assert (forall l : list (bytes * Z), flat_map (fun e => match e with EShow x => [x] | _ => [] end) (map (fun r => ELine (fst r) (snd r)) l) = []) as A1
    by (induction l; auto).
  unfold shown. rewrite (Z.eqb_sym (o_pgn o) (rm_pgn (pm_header m))), (Z.eqb_sym (o_src o) (rm_source (pm_header m))), (Z.eqb_sym (o_dst o) (rm_dest (pm_header m))).
  destruct (o_stats o); cbn [negb]; rewrite ?andb_false_r, ?andb_true_r; [|destruct (_ && _ && _)];
    destruct (o_ws o); cbn; rewrite ?A1; reflexivity.
Qed.
End Consumer.

(** The display restrictions change nothing but the display (nor do they matter for the
    counters): two runs that differ in -pgn, -source and -dest only. *)
Definition same_switches (a b : options) : Prop :=
  o_stats a = o_stats b /\ o_ws a = o_ws b /\ o_mqtt a = o_mqtt b.
Theorem C59_only_display o o' tz fmtv t mp marshal v v' c m order r r' :
  same_switches o o' ->
  handle o tz fmtv t mp marshal v c m order = Ret r -> handle o' tz fmtv t mp marshal v' c m order = Ret r' ->
  fst r = fst r' /\ not_display (snd r) = not_display (snd r').
Proof.
  intros (E1 & E2 & E3) H H'. destruct r as [c1 es], r' as [c1' es'].
  apply handle_inv in H as (-> & tl & -> & Et). apply handle_inv in H' as (-> & tl' & -> & Et').
  cbn [fst snd]. split; [reflexivity|].
  assert (tl = tl') as ->. { rewrite Et, Et', E2, E3. reflexivity. }
  unfold not_display. rewrite !filter_app, E1, E2.
  destruct (shown o (pm_header m)), (shown o' (pm_header m)); reflexivity.
Qed.

(** What the stream clients and the MQTT broker get for one message: the same text, nothing if
    there is no delta. *)
Theorem C59_outputs o tz fmtv t mp marshal v c m order c' es :
  handle o tz fmtv t mp marshal v c m order = Ret (c', es) ->
  let text := match sk_delta (mkenv tz fmtv t m) mp (vi_order order) with
              | Ret d => match marshal (vi_now order) d with Some b => [b] | None => [] end
              | _ => []
              end in
  deltas_sent es = (if o_ws o then text else []) /\ published es = (if o_mqtt o then text else []).
Proof.
  intros H. destruct (handle_inv _ _ _ _ _ _ _ _ _ _ _ _ H) as (_ & tl & -> & Et). cbv zeta.
  unfold deltas_sent, published. rewrite !flat_map_app.
  assert (forall l : list (bytes * Z), flat_map (fun e => match e with EDelta b => [b] | _ => [] end) (map (fun r => ELine (fst r) (snd r)) l) = []) as A1
    by (induction l; auto).
  assert (forall l : list (bytes * Z), flat_map (fun e => match e with EMqtt b => [b] | _ => [] end) (map (fun r => ELine (fst r) (snd r)) l) = []) as A2
    by (induction l; auto).
  rewrite Et. destruct (sk_delta _ mp (vi_order order)) as [d|e|w]; [destruct (marshal (vi_now order) d)|..];
    destruct (shown o (pm_header m)), (o_ws o), (o_stats o), (o_mqtt o); cbn [flat_map app]; rewrite ?A1, ?A2; auto.
Qed.

(** The order is that of the texts, not of the numbers: 130306 is listed before 59904. *)
Definition demo (pgn : Z) : parsed := mkparsed (mkraw 2 pgn 7 255 0 []) 0 [].
Definition demo_opts := mkopts true 0 255 255 true false.
Example C58_example : exists c ess,
  handle_all (handle demo_opts 0 (fun _ => []) PgnList [] (fun _ _ => None) false) consumer_init
    (map (fun p => (demo p, mkvisit [] 0)) [59904; 130306; 59904]) = Ret (c, ess) /\
  map screen ess = [[(itoa 59904, 1)]; [(itoa 130306, 1); (itoa 59904, 1)]; [(itoa 130306, 1); (itoa 59904, 2)]] /\
  map stats_sent ess = [[str "{""59904"":1}"]; [str "{""130306"":1,""59904"":1}"]; [str "{""130306"":1,""59904"":2}"]].
Proof. do 2 eexists. split; [vm_compute; reflexivity|]. split; vm_compute; reflexivity. Qed.
Theorem C58_numeric_order_refuted :
  exists ms rows p q r1 r2 r3 n1 n2, is_statistics ms rows /\ rows = r1 ++ (itoa p, n1) :: r2 ++ (itoa q, n2) :: r3 /\ q < p.
Proof.
  destruct C58_example as (c & ess & H & _).
  apply handle_all_counted, counted_rows in H.
  exists (map demo [59904; 130306; 59904]), [(itoa 130306, 1); (itoa 59904, 2)], 130306, 59904, [], [], [], 1, 2.
  split; [|split; [reflexivity|lia]].
  rewrite map_map in H. cbn [fst] in H. destruct H as [S I]. split.
  - repeat constructor. apply bytes_ltb_lt. reflexivity.
  - intros k n. split.
    + intros [E|[E|[]]]; injection E as <- <-; [exists 130306|exists 59904]; (split; [reflexivity|split; [reflexivity|reflexivity]]).
    + intros (p & -> & P & ->). assert (p = 59904 \/ p = 130306) as [->| ->].
      { destruct (Z.eq_dec p 59904); [tauto|]. destruct (Z.eq_dec p 130306); [tauto|]. exfalso.
        unfold occurrences in P. cbn [map filter demo pm_header rm_pgn] in P.
        rewrite (proj2 (Z.eqb_neq 59904 p)), (proj2 (Z.eqb_neq 130306 p)) in P by congruence.
        change (0 < 0) in P. lia. }
      * right. left. reflexivity.
      * left. reflexivity.
Qed.
