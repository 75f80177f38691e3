(** SignalkSplit: for groups that do not get in each other's way, a delta is the sum of what
    each field contributes by itself and of what the fieldsets contribute. *)
From Coq Require Import Sorting.Permutation.
From Verif Require Import GoBase BufFacts Strconv StrconvFacts CanModel NmeaTypes NmeaModel NmeaSpec SignalkModel SignalkSpec
  SignalkTime SignalkText SignalkDelta.
Open Scope Z_scope.
Open Scope list_scope.

(* ------------------------------------------------------------------ merge *)
Definition has_key (m : bmap) (k : Z) : bool := existsb (fun kv => fst kv =? k) m.
Lemma has_key_In m k : has_key m k = true <-> In k (map fst m).
Proof.
  unfold has_key. rewrite existsb_exists, in_map_iff. split; intros [x [A B]]; exists x; split; auto; lia.
Qed.
Lemma b_get_absent m k : has_key m k = false -> b_get m k = false.
Proof.
  induction m as [|[a v] r IH]; cbn; [reflexivity|]. destruct (a =? k); [discriminate|]. exact IH.
Qed.
Lemma fold_put r : forall l k, NoDup (map fst r) ->
  b_get (fold_left (fun ret kv => b_put ret (fst kv) (snd kv)) r l) k = if has_key r k then b_get r k else b_get l k.
Proof.
  induction r as [|[a v] r IH]; intros l k ND; [reflexivity|]. cbn [map fst] in ND. apply NoDup_cons_iff in ND as [N ND].
  cbn [fold_left fst snd]. rewrite IH by exact ND. rewrite b_put_get.
  change (has_key ((a, v) :: r) k) with ((a =? k) || has_key r k). cbn [b_get].
  destruct (Z.eqb_spec a k) as [->|NE].
  - rewrite Z.eqb_refl. cbn [orb]. destruct (has_key r k) eqn:E; [|reflexivity]. apply has_key_In in E. contradiction.
  - cbn [orb]. destruct (has_key r k); [reflexivity|]. destruct (Z.eqb_spec k a); [lia|reflexivity].
Qed.
Lemma merge_get l r k : NoDup (map fst l) -> NoDup (map fst r) ->
  b_get (merge l r) k = if has_key r k then b_get r k else b_get l k.
Proof.
  intros NL NR. unfold merge. rewrite fold_put by exact NR. rewrite fold_put by exact NL.
  destruct (has_key r k); [reflexivity|]. destruct (has_key l k) eqn:E; [reflexivity|]. symmetry. now apply b_get_absent.
Qed.
Lemma b_put_keys m k v x : In x (map fst (b_put m k v)) <-> x = k \/ In x (map fst m).
Proof.
  induction m as [|[a y] r IH]; cbn.
  - intuition.
  - destruct (Z.eqb_spec a k) as [->|N]; cbn; [intuition|]. rewrite IH. intuition.
Qed.
Lemma b_put_nodup m k v : NoDup (map fst m) -> NoDup (map fst (b_put m k v)).
Proof.
  induction m as [|[a y] r IH]; cbn; intros ND; [constructor; [auto|constructor]|].
  apply NoDup_cons_iff in ND as [N ND]. destruct (Z.eqb_spec a k) as [->|NE]; cbn; constructor; auto.
  rewrite b_put_keys. intros [E|E]; [lia|contradiction].
Qed.
Lemma fold_put_nodup r : forall l, NoDup (map fst l) -> NoDup (map fst (fold_left (fun ret kv => b_put ret (fst kv) (snd kv)) r l)).
Proof. induction r as [|kv r IH]; intros l H; [exact H|]. cbn [fold_left]. apply IH. now apply b_put_nodup. Qed.
Lemma merge_nodup l r : NoDup (map fst (merge l r)).
Proof. unfold merge. apply fold_put_nodup. apply fold_put_nodup. constructor. Qed.

(* ------------------------------------------------------------------ the two halves of a step *)
Definition claimb (e : skenv) (fid : Z) (g : group) : bool :=
  hitb (rpt_of e) g fid && conds_match (e_fmt e) (g_conds g) (pm_data (e_msg e)).
Fixpoint plain_of (e : skenv) (fid : Z) (v : gval) (gs : list (bytes * group)) : list skvalue :=
  match gs with
  | [] => []
  | (path, g) :: r => if claimb e fid g then k_vals (push (mkst [] []) (pathb e (rpt_of e) fid path g) v) else plain_of e fid v r
  end.
Definition fstep (e : skenv) (pg : bytes * group) (s : skst) : skst :=
  let '(path, g) := pg in let data := pm_data (e_msg e) in
  match fs_fields (g_fieldset g) with
  | [] => s
  | _ => if has_all (g_fieldset g) data (k_used s) then
           let s' := push s (dot path) (VString (fst (fs_parse (e_tz e) (g_fieldset g) data))) in
           mkst (merge (k_used s') (snd (fs_parse (e_tz e) (g_fieldset g) data))) (k_vals s')
         else s
  end.
Definition fs_run (e : skenv) (gs : list (bytes * group)) (s : skst) : skst := fold_left (fun s pg => fstep e pg s) gs s.

Lemma push_used s p v : k_used (push s p v) = k_used s.
Proof. unfold push. destruct p; [reflexivity|]. destruct v; reflexivity. Qed.
Lemma push_app s p v : k_vals (push s p v) = k_vals s ++ k_vals (push (mkst [] []) p v).
Proof. unfold push. destruct p; cbn; [now rewrite app_nil_r|]. destruct v; cbn; now rewrite ?app_nil_r. Qed.

(** Keys fs_parse marks. *)
Lemma fs_parse_keys tz fs data k : has_key (snd (fs_parse tz fs data)) k = true ->
  b_get (snd (fs_parse tz fs data)) k = true /\ footprint fs k.
Proof.
  unfold fs_parse. destruct (bytes_eqb _ _); [|discriminate].
  destruct (dm_get data (fs_key (fs_fields fs) (str "date") 0)); try discriminate.
  destruct (dm_get data (fs_key (fs_fields fs) (str "time") 0)); try discriminate.
  destruct (civil _) as [[y m] d]. destruct (civil _) as [[y' m'] d']. cbn [snd].
  rewrite has_key_In, !b_put_keys, !b_put_get. cbn [map In]. unfold footprint. intros [->|[->|[]]]; rewrite ?Z.eqb_refl.
  - split; [reflexivity|]. right; right. apply fs_key_ok.
  - split; [destruct (_ =? _); reflexivity|]. right; left. apply fs_key_ok.
Qed.
Lemma fs_parse_nodup tz fs data : NoDup (map fst (snd (fs_parse tz fs data))).
Proof.
  unfold fs_parse. destruct (bytes_eqb _ _); [|constructor].
  destruct (dm_get data (fs_key (fs_fields fs) (str "date") 0)); try constructor.
  destruct (dm_get data (fs_key (fs_fields fs) (str "time") 0)); try constructor.
  destruct (civil _) as [[y m] d]. destruct (civil _) as [[y' m'] d']. cbn [snd].
  apply b_put_nodup, b_put_nodup. constructor.
Qed.
Definition nodup_used (s : skst) : Prop := NoDup (map fst (k_used s)).

Section Split.
Variable e : skenv.
Variable G : list (bytes * group).
Hypothesis SEP : separate (rpt_of e) G.
Definition named (k : Z) : Prop := exists path g, In (path, g) G /\ names_field (rpt_of e) g k.

Lemma sep_pure path g fid : In (path, g) G -> fs_fields (g_fieldset g) <> [] -> hitb (rpt_of e) g fid = false.
Proof.
  intros I N. destruct (hitb (rpt_of e) g fid) eqn:H; [|reflexivity]. apply hitb_ok in H as [fld [T _]].
  destruct (SEP _ _ _ _ I I N) as [A _]. elim (A fld T).
Qed.
Lemma sep_named path g k : In (path, g) G -> fs_fields (g_fieldset g) <> [] -> footprint (g_fieldset g) k -> ~ named k.
Proof. intros I N F [p' [g' [I' H]]]. destruct (SEP _ _ _ _ I I' N) as [_ B]. elim (B k H F). Qed.

(** The concrete state follows the fieldset state on fields nobody names. *)
Definition follows (s sf : skst) : Prop :=
  nodup_used s /\ nodup_used sf /\ forall k, ~ named k -> b_get (k_used s) k = b_get (k_used sf) k.

Lemma fstep_follows pg s sf : In pg G -> follows s sf ->
  follows (fstep e pg s) (fstep e pg sf) /\
  (forall k, named k -> b_get (k_used (fstep e pg s)) k = b_get (k_used s) k) /\
  (exists new, k_vals (fstep e pg s) = k_vals s ++ new /\ k_vals (fstep e pg sf) = k_vals sf ++ new).
Proof.
  destruct pg as [path g]. intros I F. destruct F as [N1 [N2 F]]. unfold fstep.
  destruct (fs_fields (g_fieldset g)) as [|f0 fr] eqn:E.
  { split; [split; auto|]. split; [auto|]. exists []. now rewrite !app_nil_r. }
  assert (fs_fields (g_fieldset g) <> []) as NE by congruence.
  assert (has_all (g_fieldset g) (pm_data (e_msg e)) (k_used s) = has_all (g_fieldset g) (pm_data (e_msg e)) (k_used sf)) as ->.
  { unfold has_all. clear E. assert (forall l, incl l (fs_fields (g_fieldset g)) ->
      forallb (fun f => negb (b_get (k_used s) (snd f) || blank (dm_get (pm_data (e_msg e)) (snd f)))) l =
      forallb (fun f => negb (b_get (k_used sf) (snd f) || blank (dm_get (pm_data (e_msg e)) (snd f)))) l) as H.
    { induction l as [|x l IH]; intros IN; [reflexivity|]. cbn [forallb]. rewrite IH by (intros z Hz; apply IN; now right).
      rewrite F; [reflexivity|]. eapply sep_named; eauto. left. apply in_map. apply IN. now left. }
    apply H. apply incl_refl. }
  destruct (has_all _ _ _).
  - cbn [k_used k_vals]. rewrite !push_used.
    split; [|split].
    + split; [apply merge_nodup|]. split; [apply merge_nodup|]. intros k NK. cbn [k_used].
      rewrite !merge_get by (auto using fs_parse_nodup). destruct (has_key _ _); auto.
    + intros k K. rewrite merge_get by (auto using fs_parse_nodup). destruct (has_key _ _) eqn:HK; [|reflexivity].
      apply fs_parse_keys in HK as [_ HK]. elim (sep_named _ _ _ I NE HK K).
    + eexists. split; apply push_app.
  - split; [split; auto|]. split; [auto|]. exists []. now rewrite !app_nil_r.
Qed.

Lemma block fid v gs : incl gs G -> forall s sf, follows s sf -> (named fid -> b_get (k_used s) fid = false) ->
  follows (pfield e gs (fid, v) s) (fs_run e gs sf) /\
  (forall k, named k -> k <> fid -> b_get (k_used (pfield e gs (fid, v) s)) k = b_get (k_used s) k) /\
  exists new, k_vals (fs_run e gs sf) = k_vals sf ++ new /\
    Permutation (k_vals (pfield e gs (fid, v) s)) (k_vals s ++ plain_of e fid v gs ++ new).
Proof.
  intros IN.
  (* after the field was claimed *)
  assert (forall gs, incl gs G -> forall s sf, follows s sf -> b_get (k_used s) fid = true -> named fid ->
    follows (pfield e gs (fid, v) s) (fs_run e gs sf) /\
    (forall k, named k -> k <> fid -> b_get (k_used (pfield e gs (fid, v) s)) k = b_get (k_used s) k) /\
    exists new, k_vals (fs_run e gs sf) = k_vals sf ++ new /\ k_vals (pfield e gs (fid, v) s) = k_vals s ++ new) as DONE.
  { clear gs IN. induction gs as [|[path g] gs IH]; intros IN s sf F U NM.
    - cbn. split; [exact F|]. split; [auto|]. exists []. now rewrite !app_nil_r.
    - assert (In (path, g) G) as I by (apply IN; now left).
      assert (pstep e fid v (path, g) s = fstep e (path, g) s) as ES.
      { unfold pstep, fstep. rewrite U. rewrite andb_false_r. reflexivity. }
      cbn [pfield fs_run fold_left fst snd]. rewrite ES.
      destruct (fstep_follows _ _ _ I F) as [F' [K' [new [V1 V2]]]].
      destruct (IH ltac:(intros z Hz; apply IN; now right) _ _ F' ltac:(rewrite K'; auto) NM) as [A [B [new' [C D]]]].
      split; [exact A|]. split; [intros k NK NE; rewrite <- (K' k NK); now apply B|].
      exists (new ++ new'). fold (fs_run e gs (fstep e (path, g) sf)). rewrite C, V2.
      change (fold_left (fun s0 pg => pstep e fid v pg s0) gs (fstep e (path, g) s)) with (pfield e gs (fid, v) (fstep e (path, g) s)).
      rewrite D, V1. now rewrite !app_assoc. }
  induction gs as [|[path g] gs IH]; intros s sf F U.
  - cbn. split; [exact F|]. split; [auto|]. exists []. rewrite !app_nil_r. split; reflexivity.
  - assert (In (path, g) G) as I by (apply IN; now left).
    assert (incl gs G) as IN' by (intros z Hz; apply IN; now right).
    cbn [pfield fs_run fold_left fst snd plain_of].
    change (fold_left (fun s0 pg => pstep e fid v pg s0) gs (pstep e fid v (path, g) s)) with (pfield e gs (fid, v) (pstep e fid v (path, g) s)).
    fold (fs_run e gs (fstep e (path, g) sf)).
    destruct (fs_fields (g_fieldset g)) as [|f0 fr] eqn:EF.
    + (* names a field *)
      assert (forall s, fstep e (path, g) s = s) as FS by (intros; unfold fstep; now rewrite EF). rewrite FS.
      unfold claimb. destruct (hitb (rpt_of e) g fid) eqn:H; cbn [andb].
      * assert (named fid) as NM by (exists path, g; split; [exact I|]; now apply hitb_ok).
        destruct (conds_match _ _ _) eqn:CM.
        -- assert (pstep e fid v (path, g) s = push (mkst (b_put (k_used s) fid true) (k_vals s)) (pathb e (rpt_of e) fid path g) v) as ->.
           { unfold pstep. rewrite H, (U NM), CM. reflexivity. }
           set (s1 := push _ _ _).
           assert (k_used s1 = b_put (k_used s) fid true) as U1 by (unfold s1; now rewrite push_used).
           assert (k_vals s1 = k_vals s ++ k_vals (push (mkst [] []) (pathb e (rpt_of e) fid path g) v)) as V1
             by (unfold s1; rewrite push_app; reflexivity).
           destruct F as [F1 [F2 F3]].
           assert (follows s1 sf) as F'.
           { split; [unfold nodup_used; rewrite U1; now apply b_put_nodup|]. split; [exact F2|]. intros k NK. rewrite U1, b_put_get.
             destruct (Z.eqb_spec k fid); [subst; contradiction|auto]. }
           destruct (DONE gs IN' s1 sf F' ltac:(rewrite U1, b_put_get, Z.eqb_refl; reflexivity) NM) as [A [B [new [C D]]]].
           split; [exact A|]. split.
           { intros k NK NE. rewrite (B k NK NE), U1, b_put_get. destruct (Z.eqb_spec k fid); [contradiction|reflexivity]. }
           exists new. split; [exact C|]. rewrite D, V1. rewrite <- app_assoc. reflexivity.
        -- assert (pstep e fid v (path, g) s = s) as ->.
           { unfold pstep. rewrite H, (U NM), CM. reflexivity. }
           apply IH; auto.
      * assert (pstep e fid v (path, g) s = s) as ->.
        { unfold pstep. rewrite H, EF. reflexivity. }
        apply IH; auto.
    + (* fieldset *)
      assert (fs_fields (g_fieldset g) <> []) as NE by congruence. pose proof (sep_pure _ _ fid I NE) as H.
      assert (pstep e fid v (path, g) s = fstep e (path, g) s) as -> by (unfold pstep, fstep; now rewrite H).
      unfold claimb. rewrite H. cbn [andb].
      destruct (fstep_follows _ _ _ I F) as [F' [K' [new [V1 V2]]]].
      destruct (IH IN' _ _ F' ltac:(intros NM; rewrite K'; auto)) as [A [B [new' [C D]]]].
      split; [exact A|]. split; [intros k NK NE'; rewrite <- (K' k NK); now apply B|].
      exists (new ++ new'). split; [rewrite C, V2; now rewrite !app_assoc|]. rewrite D, V1, <- app_assoc.
      apply Permutation_app_head. rewrite !app_assoc. apply Permutation_app_tail. apply Permutation_app_comm.
Qed.

Fixpoint fs_iter (n : nat) (s : skst) : skst := match n with O => s | S n' => fs_iter n' (fs_run e G s) end.
Lemma fs_run_app s : exists new, k_vals (fs_run e G s) = k_vals s ++ new.
Proof.
  unfold fs_run. generalize G as gs. intros gs. revert s. induction gs as [|pg gs IH]; intros s; [exists []; now rewrite app_nil_r|].
  cbn [fold_left]. destruct (IH (fstep e pg s)) as [new ->]. destruct pg as [path g]. unfold fstep.
  destruct (fs_fields (g_fieldset g)); [eauto|]. destruct (has_all _ _ _); [|eauto]. cbn [k_vals]. rewrite push_app, <- app_assoc. eauto.
Qed.
Lemma fs_run_vals s sf : k_used s = k_used sf ->
  k_used (fs_run e G s) = k_used (fs_run e G sf) /\ exists new, k_vals (fs_run e G s) = k_vals s ++ new /\ k_vals (fs_run e G sf) = k_vals sf ++ new.
Proof.
  unfold fs_run. generalize G as gs. intros gs. revert s sf. induction gs as [|[path g] gs IH]; intros s sf E.
  - split; [exact E|]. exists []. now rewrite !app_nil_r.
  - cbn [fold_left].
    assert (k_used (fstep e (path, g) s) = k_used (fstep e (path, g) sf) /\
      exists new, k_vals (fstep e (path, g) s) = k_vals s ++ new /\ k_vals (fstep e (path, g) sf) = k_vals sf ++ new) as [E' [new [V1 V2]]].
    { unfold fstep. destruct (fs_fields (g_fieldset g)); [split; [exact E|exists []; now rewrite !app_nil_r]|]. rewrite E.
      destruct (has_all _ _ _); [|split; [exact E|exists []; now rewrite !app_nil_r]]. cbn [k_used k_vals]. rewrite !push_used, E.
      split; [reflexivity|]. eexists. split; apply push_app. }
    destruct (IH _ _ E') as [A [new' [B C]]]. split; [exact A|]. exists (new ++ new'). rewrite B, C, V1, V2. now rewrite !app_assoc.
Qed.

Lemma loop_split order : forall s sf, NoDup (map fst order) -> follows s sf ->
  (forall k, In k (map fst order) -> named k -> b_get (k_used s) k = false) ->
  exists new, k_vals (fs_iter (List.length order) sf) = k_vals sf ++ new /\
    Permutation (k_vals (ploop e G order s))
      (k_vals s ++ flat_map (fun kv => plain_of e (fst kv) (snd kv) G) order ++ new).
Proof.
  induction order as [|[fid v] order IH]; intros s sf ND F U.
  - exists []. cbn. rewrite !app_nil_r. split; reflexivity.
  - cbn [map fst] in ND. apply NoDup_cons_iff in ND as [N ND].
    destruct (block fid v G (incl_refl _) s sf F ltac:(intros NM; apply U; [now left|exact NM])) as [A [B [new [C D]]]].
    destruct (IH _ _ ND A) as [new' [C' D']].
    { intros k K NM. rewrite B; [apply U; [now right|exact NM]|exact NM|]. intros ->. contradiction. }
    exists (new ++ new'). cbn [List.length fs_iter ploop fold_left flat_map fst snd]. split; [rewrite C', C; now rewrite !app_assoc|].
    change (fold_left (fun s0 kv => pfield e G kv s0) order (pfield e G (fid, v) s)) with (ploop e G order (pfield e G (fid, v) s)).
    rewrite D', D. rewrite <- !app_assoc. apply Permutation_app_head. apply Permutation_app_head.
    rewrite !app_assoc. apply Permutation_app_tail. apply Permutation_app_comm.
Qed.

(** The decomposition. *)
Theorem delta_split order : NoDup (map fst order) ->
  Permutation (k_vals (ploop e G order (mkst [] [])))
    (flat_map (fun kv => plain_of e (fst kv) (snd kv) G) order ++ k_vals (fs_iter (List.length order) (mkst [] []))).
Proof.
  intros ND. destruct (loop_split order (mkst [] []) (mkst [] []) ND) as [new [A B]].
  - split; [constructor|]. split; [constructor|]. auto.
  - reflexivity.
  - cbn [k_vals app] in A, B. rewrite A. exact B.
Qed.

End Split.

(* ------------------------------------------------------------------ what a field contributes *)
Lemma claimb_ok e fid g : NoDup (map fst (pm_data (e_msg e))) ->
  claimb e fid g = true <-> claims (e_fmt e) (pm_data (e_msg e)) (rpt_of e) g fid.
Proof. intros ND. unfold claimb, claims. now rewrite andb_true_iff, hitb_ok, conds_match_ok. Qed.
Lemma plain_ok e fid v gs : NoDup (map fst (pm_data (e_msg e))) -> all_ok e gs = true ->
  contributes (e_fmt e) (pm_data (e_msg e)) (rpt_of e) gs fid v (plain_of e fid v gs).
Proof.
  intros ND. induction gs as [|[path g] gs IH]; intros OK; cbn [plain_of].
  - left. split; [|reflexivity]. intros p g [].
  - cbn [all_ok forallb fst snd] in OK. apply andb_true_iff in OK as [OK1 OK]. destruct (claimb e fid g) eqn:C.
    + right. exists [], path, g, gs, (pathb e (rpt_of e) fid path g). split; [reflexivity|]. split; [intros p g' []|].
      split; [now apply claimb_ok|]. split; [now apply pathb_ok|].
      unfold push. destruct (pathb e (rpt_of e) fid path g) as [|c p] eqn:EP; [right; auto|].
      destruct v; cbn [k_vals]; try (left; repeat split; auto; discriminate). right. auto.
    + assert (~ claims (e_fmt e) (pm_data (e_msg e)) (rpt_of e) g fid) as NC by (rewrite <- claimb_ok by exact ND; congruence).
      destruct (IH OK) as [[A B]|[before [p [g' [after [q [A [B [C1 [D E]]]]]]]]]].
      * left. split; [|exact B]. intros p g' [X|X]; [injection X as <- <-; exact NC|eauto].
      * right. exists ((path, g) :: before), p, g', after, q. split; [now rewrite A|]. split; [|auto].
        intros p' g'' [X|X]; [injection X as <- <-; exact NC|eauto].
Qed.
Lemma plain_length e fid v gs : (List.length (plain_of e fid v gs) <= 1)%nat.
Proof.
  induction gs as [|[path g] gs IH]; cbn [plain_of]; [cbn; lia|]. destruct (claimb e fid g); [|exact IH].
  unfold push. destruct (pathb _ _ _ _ _); [cbn; lia|]. destruct v; cbn; lia.
Qed.

(** Without fieldsets there is nothing else. *)
Lemma fs_iter_none e gs n s : Forall (fun pg => fs_fields (g_fieldset (snd pg)) = []) gs -> fs_iter e gs n s = s.
Proof.
  intros F. assert (forall s, fs_run e gs s = s) as R.
  { intros s0. unfold fs_run. induction F as [|[path g] gs H F IH]; [reflexivity|]. cbn [fold_left]. cbn [snd] in H.
    assert (fstep e (path, g) s0 = s0) as -> by (unfold fstep; now rewrite H). exact IH. }
  revert s. induction n as [|n IH]; intros s; cbn [fs_iter]; [reflexivity|]. now rewrite R.
Qed.

(** With a single fieldset it contributes once, if it can be combined. *)
Lemma fs_run_single e before path g after s : Forall (fun pg => fs_fields (g_fieldset (snd pg)) = []) before ->
  Forall (fun pg => fs_fields (g_fieldset (snd pg)) = []) after ->
  fs_run e (before ++ (path, g) :: after) s = fstep e (path, g) s.
Proof.
  intros B A. unfold fs_run. rewrite fold_left_app. cbn [fold_left].
  pose proof (fs_iter_none e before 1 s B) as X. cbn [fs_iter] in X. unfold fs_run in X. rewrite X.
  pose proof (fs_iter_none e after 1 (fstep e (path, g) s) A) as Y. cbn [fs_iter] in Y. unfold fs_run in Y. exact Y.
Qed.
