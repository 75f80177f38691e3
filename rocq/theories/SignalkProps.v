(** SignalkProps: theorems C49-C53 (what Delta returns). *)
From Coq Require Import Sorting.Permutation.
From Verif Require Import GoBase BufFacts Strconv StrconvFacts CanModel NmeaTypes LookupTable PgnTable NmeaModel NmeaSpec
  NmeaProps1 NmeaParse NmeaProps2
  SignalkModel MapTable SignalkSpec SignalkTime SignalkText SignalkDelta SignalkSplit.
Open Scope Z_scope.
Open Scope list_scope.

(* ------------------------------------------------------------------ uniqueness of the texts *)
Lemma app_same_length {A} (a b c d : list A) : a ++ b = c ++ d -> List.length a = List.length c -> a = c /\ b = d.
Proof.
  revert c. induction a as [|x a IH]; intros [|y c] E L; cbn in L; try discriminate; [auto|].
  cbn in E. injection E as -> E. destruct (IH c E) as [-> ->]; auto.
Qed.
Lemma replaced_fun old new s t t' : replaced_once old new s t -> replaced_once old new s t' -> t = t'.
Proof.
  intros [(p & q & E & T & M)|[N T]] [(p' & q' & E' & T' & M')|[N' T']].
  - assert (List.length p = List.length p') as L by (pose proof (M _ _ E'); pose proof (M' _ _ E); lia).
    rewrite E in E'. destruct (app_same_length _ _ _ _ E' L) as [<- F]. apply app_inv_head in F. congruence.
  - elim (N' _ _ E).
  - elim (N _ _ E').
  - congruence.
Qed.
Lemma dotted_fun s p q : dotted s p -> dotted s q -> p = q.
Proof. intros H1 H2. apply to_dot_ok in H1, H2. congruence. Qed.
Lemma substituted_fun fmtv data x k p q q' : NoDup (map fst data) ->
  substituted fmtv data x k p q -> substituted fmtv data x k p q' -> q = q'.
Proof.
  intros ND [A B] [A' B'].
  destruct (nonempty (i_id x) && nonempty (i_field x)) eqn:E.
  - apply in_force_iff in E. destruct (A E) as (v & F & R). destruct (A' E) as (v' & F' & R').
    rewrite (field_value_fun _ _ _ _ ND F' F) in R'. eapply replaced_fun; eauto.
  - assert (~ in_force x) as N by (rewrite <- in_force_iff, E; discriminate). rewrite (B N), (B' N). reflexivity.
Qed.
Lemma path_for_fun fmtv data rpt path g fid q q' : NoDup (map fst data) ->
  path_for fmtv data rpt path g fid q -> path_for fmtv data rpt path g fid q' -> q = q'.
Proof.
  intros ND (p0 & p1 & A & B & C) (p0' & p1' & A' & B' & C').
  rewrite (dotted_fun _ _ _ A' A) in B'. rewrite (substituted_fun _ _ _ _ _ _ _ ND B' B) in C'.
  eapply substituted_fun; eauto.
Qed.

(* ------------------------------------------------------------------ the shape of a result *)
Lemma Ret_inj {A} (a b : A) : Ret a = Ret b -> a = b.
Proof. now injection 1. Qed.
Lemma Forall2_map_self {A B} (P : A -> B -> Prop) f l : (forall x, In x l -> P x (f x)) -> Forall2 P l (map f l).
Proof. induction l; cbn [map]; intros H; constructor; [apply H; now left|apply IHl; intros x I; apply H; now right]. Qed.
Lemma delta_inv e m order d : sk_delta e m order = Ret d ->
  (order <> [] /\ all_ok e (groups_for m (pgn_of e)) = true) /\
  let vs := k_vals (ploop e (groups_for m (pgn_of e)) order (mkst [] [])) in
  vs <> [] /\ d = mkdelta sk_context [mkupdate (pgn_of e) sk_device (rm_source (pm_header (e_msg e))) vs].
Proof.
  unfold sk_delta. intros H. destruct (sk_loop_pure e m order) as [P1 P2].
  assert (order <> []) as NE.
  { intros ->. rewrite P1 in H by auto. cbn in H. discriminate. }
  destruct (all_ok e (groups_for m (pgn_of e))) eqn:A.
  - split; [auto|]. rewrite P1 in H by auto. cbn [bind] in H. destruct (k_vals _) eqn:K; [discriminate|].
    apply Ret_inj in H. cbv zeta. split; [discriminate|]. now rewrite <- H.
  - destruct (P2 eq_refl NE) as [w W]. rewrite W in H. discriminate.
Qed.

Lemma all_ok_def e gs path g : all_ok e gs = true -> In (path, g) gs ->
  exists def, zget (e_table e) (pm_index (e_msg e)) = Some def /\ rpt_of e = p_rep def.
Proof.
  intros A I. unfold all_ok in A. rewrite forallb_forall in A. specialize (A _ I). cbn [fst snd] in A.
  unfold group_ok in A. unfold rpt_of. apply andb_prop in A as [_ A].
  destruct (zget _ _); [eauto|discriminate].
Qed.

(* ------------------------------------------------------------------ C49 *)

(** C49: whatever the order in which the fields are visited, a delta has one update, for the
    message's PGN and source, with at least one value, and every value is justified: it is a
    non-nil decoded value of a field claimed by a mapping for that PGN, under that mapping's
    path, or the text of such a mapping's fieldset, all of whose fields are there. *)
Theorem C49_sound e m order d :
  -86400 < e_tz e < 86400 -> NoDup (map fst (pm_data (e_msg e))) -> Permutation order (pm_data (e_msg e)) ->
  sk_delta e m order = Ret d ->
  exists def vs, zget (e_table e) (pm_index (e_msg e)) = Some def /\
    d = mkdelta (str "vessels.urn:mrn:signalk:uuid:c0d79334-4e25-4245-8892-54e8ccc8021d")
          [mkupdate (rm_pgn (pm_header (e_msg e))) (str "/dev/actisense") (rm_source (pm_header (e_msg e))) vs] /\
    vs <> [] /\ forall x, In x vs -> justified (e_tz e) (e_fmt e) m (p_rep def) (e_msg e) x.
Proof.
  intros HT ND PM H. destruct (delta_inv _ _ _ _ H) as [[NE A] [V D]].
  set (vs := k_vals (ploop e (groups_for m (pgn_of e)) order (mkst [] []))) in *.
  assert (forall x, In x vs -> justified (e_tz e) (e_fmt e) m (rpt_of e) (e_msg e) x) as J.
  { intros x I. refine (ploop_sound e m order x ND HT _ A (mkst [] []) _ I).
    - intros y Y. eapply Permutation_in; eauto.
    - intros y []. }
  destruct vs as [|x l] eqn:EV; [congruence|].
  destruct (J x (or_introl eq_refl)) as (path & g & G & _).
  apply groups_for_In in G. change (rm_pgn (pm_header (e_msg e))) with (pgn_of e) in G.
  destruct (all_ok_def _ _ _ _ A G) as (def & E1 & E2). rewrite E2 in J.
  exists def, (x :: l). split; [exact E1|]. split; [exact D|]. split; [discriminate|exact J].
Qed.

(** An example message: PGN 129026 decoded, with the shipped table; COG Reference "True". *)
Definition show (v : gval) : bytes :=
  match v with
  | VNil => str "<nil>" | VUint64 n => itoa n | VString s => s | _ => str "?"
  end.
Definition sk_msg (id : Z) (k : Z) (data : dmap) : parsed := mkparsed (mkraw 2 id 35 255 8 []) k data.
Definition values_of (o : outcome delta) : list skvalue :=
  match o with Ret d => flat_map u_values (d_updates d) | _ => [] end.

(* ------------------------------------------------------------------ C50, C52 *)

(** C50 and C52: when no group for the PGN gets in the way of another (in particular when none
    has a fieldset), every field contributes by itself: the values are the contributions of the
    fields, in the order visited, and those of the fieldsets. *)
Theorem C50_contributions e m order d def :
  NoDup (map fst (pm_data (e_msg e))) -> Permutation order (pm_data (e_msg e)) ->
  zget (e_table e) (pm_index (e_msg e)) = Some def ->
  (forall path g, group_of m (rm_pgn (pm_header (e_msg e))) path g -> fs_fields (g_fieldset g) = []) ->
  sk_delta e m order = Ret d ->
  exists per, Forall2 (fun kv out => contributes (e_fmt e) (pm_data (e_msg e)) (p_rep def)
                                       (groups_for m (rm_pgn (pm_header (e_msg e)))) (fst kv) (snd kv) out)
                      (pm_data (e_msg e)) per /\
    Forall (fun out => (List.length out <= 1)%nat) per /\
    Permutation (flat_map u_values (d_updates d)) (List.concat per).
Proof.
  intros ND PM E NF H. destruct (delta_inv _ _ _ _ H) as [[NE A] [V D]].
  set (G := groups_for m (pgn_of e)) in *. change (groups_for m (rm_pgn (pm_header (e_msg e)))) with G.
  assert (rpt_of e = p_rep def) as RP by (unfold rpt_of; now rewrite E).
  assert (Forall (fun pg => fs_fields (g_fieldset (snd pg)) = []) G) as FN.
  { apply Forall_forall. intros [path g] I. apply groups_for_In in I. exact (NF _ _ I). }
  assert (separate (rpt_of e) G) as SEP.
  { intros path g path' g' I _ N. rewrite Forall_forall in FN. elim N. exact (FN _ I). }
  assert (NoDup (map fst order)) as NO by (eapply Permutation_NoDup; [apply Permutation_sym, Permutation_map, PM|exact ND]).
  pose proof (delta_split e G SEP order NO) as S. rewrite fs_iter_none in S by exact FN. cbn [k_vals] in S. rewrite app_nil_r in S.
  set (f := fun kv : Z * gval => plain_of e (fst kv) (snd kv) G) in *.
  exists (map f (pm_data (e_msg e))). split; [|split].
  - apply Forall2_map_self. intros kv _. unfold f. rewrite <- RP. now apply plain_ok.
  - apply Forall_forall. intros out I. apply in_map_iff in I as (kv & <- & _). apply plain_length.
  - rewrite D. cbn [d_updates flat_map u_values]. rewrite app_nil_r, <- flat_map_concat_map.
    eapply Permutation_trans; [exact S|]. now apply Permutation_flat_map.
Qed.

(** C50: the first group claiming a field present in the message puts its value in the delta,
    if it is not nil and the path not empty. *)
Theorem C50_appears e m order def before path g after fid v q :
  NoDup (map fst (pm_data (e_msg e))) -> Permutation order (pm_data (e_msg e)) ->
  zget (e_table e) (pm_index (e_msg e)) = Some def ->
  separate (p_rep def) (groups_for m (rm_pgn (pm_header (e_msg e)))) ->
  groups_for m (rm_pgn (pm_header (e_msg e))) = before ++ (path, g) :: after ->
  (forall path' g', In (path', g') before -> ~ claims (e_fmt e) (pm_data (e_msg e)) (p_rep def) g' fid) ->
  claims (e_fmt e) (pm_data (e_msg e)) (p_rep def) g fid ->
  In (fid, v) (pm_data (e_msg e)) -> v <> VNil ->
  path_for (e_fmt e) (pm_data (e_msg e)) (p_rep def) path g fid q -> q <> [] ->
  (forall w, sk_delta e m order <> Panic w) ->
  exists d, sk_delta e m order = Ret d /\ In (mkval q v) (flat_map u_values (d_updates d)).
Proof.
  intros ND PM E SEP EG BF CL I NV PF NQ NP. set (G := groups_for m (rm_pgn (pm_header (e_msg e)))) in *.
  assert (rpt_of e = p_rep def) as RP by (unfold rpt_of; now rewrite E). rewrite <- RP in *.
  assert (NoDup (map fst order)) as NO by (eapply Permutation_NoDup; [apply Permutation_sym, Permutation_map, PM|exact ND]).
  assert (order <> []) as NE.
  { intros ->. apply Permutation_nil in PM. rewrite PM in I. destruct I. }
  unfold sk_delta in *. destruct (sk_loop_pure e m order) as [P1 P2].
  change (groups_for m (pgn_of e)) with G in *.
  destruct (all_ok e G) eqn:A.
  2: { destruct (P2 eq_refl NE) as [w W]. rewrite W in NP. now elim (NP w). }
  rewrite P1 by auto. cbn [bind]. pose proof (delta_split e G SEP order NO) as S.
  assert (plain_of e fid v G = [mkval q v]) as PL.
  { destruct (plain_ok e fid v G ND A) as [[N _]|(b & p' & g' & a & q' & EG' & B' & C' & P' & O)].
    - exfalso. eapply (N path g); [rewrite EG; apply in_or_app; right; now left|exact CL].
    - assert (b = before /\ (p', g') = (path, g)) as [-> X].
      { clear - EG EG' BF B' CL C'. rewrite EG in EG'. clear EG. revert b EG' B'. induction before as [|x l IH]; intros b EG B'.
        - destruct b as [|y b]; cbn in EG; [injection EG as -> -> ->; auto|]. injection EG as <- EG.
          exfalso. apply (B' path g); [now left|exact CL].
        - destruct b as [|y b]; cbn in EG; injection EG as -> EG.
          + exfalso. apply (BF p' g'); [now left|exact C'].
          + destruct (IH ltac:(intros; apply (BF path'); now right) b EG ltac:(intros; apply (B' path'); now right)) as [-> ->]. auto. }
      injection X as -> ->. rewrite (path_for_fun _ _ _ _ _ _ _ _ ND P' PF) in O. destruct O as [(_ & _ & O)|([O|O] & _)]; [exact O|contradiction|contradiction]. }
  assert (In (mkval q v) (k_vals (ploop e G order (mkst [] [])))) as IN.
  { eapply Permutation_in; [apply Permutation_sym, S|]. apply in_or_app. left. apply in_flat_map.
    exists (fid, v). split; [eapply Permutation_in; [apply Permutation_sym, PM|exact I]|]. cbn [fst snd]. rewrite PL. now left. }
  destruct (k_vals (ploop e G order (mkst [] []))) as [|x l]; [destruct IN|].
  eexists. split; [reflexivity|]. cbn [d_updates flat_map u_values]. now rewrite app_nil_r.
Qed.

(* ------------------------------------------------------------------ C51 *)

(** C51: there is never an empty update. *)
Theorem C51_never_empty e m order d : sk_delta e m order = Ret d ->
  exists u, d_updates d = [u] /\ u_values u <> [].
Proof. intros H. destruct (delta_inv _ _ _ _ H) as [_ [V ->]]. eexists. split; [reflexivity|exact V]. Qed.

(** A group that makes Delta crash on this message: its path is shorter than two bytes, the
    message's index is outside the table, or it has a multiplier and the definition no repeating
    fields. *)
Definition trouble (t : list pgn_def) (k : Z) (path : bytes) (g : group) : Prop :=
  (List.length path < 2)%nat \/ (forall def, zget t k <> Some def) \/
  (in_force (g_mult g) /\ exists def, zget t k = Some def /\ p_rep def = 0).
Lemma group_ok_trouble e path g : group_ok e path g = false <-> trouble (e_table e) (pm_index (e_msg e)) path g.
Proof.
  unfold group_ok, trouble. rewrite andb_false_iff. destruct (Z.leb_spec 2 (zlen path)) as [L|L]; unfold zlen in L.
  - destruct (zget (e_table e) (pm_index (e_msg e))) as [def|] eqn:E.
    + rewrite negb_false_iff, andb_true_iff, in_force_iff, Z.eqb_eq. split.
      * intros [?|[H1 H2]]; [discriminate|]. right. right. eauto.
      * intros [?|[H|(H & d & E' & H')]]; [lia|now elim (H def)|]. right. injection E' as <-. auto.
    + split; [|auto]. intros _. right. left. discriminate.
  - split; [intros _; left; lia|auto].
Qed.
Lemma all_ok_trouble e m : all_ok e (groups_for m (pgn_of e)) = false <->
  exists path g, group_of m (pgn_of e) path g /\ trouble (e_table e) (pm_index (e_msg e)) path g.
Proof.
  unfold all_ok. split.
  - intros H. assert (exists pg, In pg (groups_for m (pgn_of e)) /\ group_ok e (fst pg) (snd pg) = false) as (pg & I & F).
    { induction (groups_for m (pgn_of e)) as [|x l IH]; [discriminate|]. cbn [forallb] in H.
      destruct (group_ok e (fst x) (snd x)) eqn:X; [|exists x; split; [now left|exact X]].
      destruct (IH H) as (pg & I & F). exists pg. split; [now right|exact F]. }
    destruct pg as [path g]. exists path, g. apply groups_for_In in I. split; [exact I|]. now apply group_ok_trouble.
  - intros (path & g & I & T). apply groups_for_In in I. apply group_ok_trouble in T.
    destruct (forallb _ _) eqn:F; [|reflexivity]. rewrite forallb_forall in F. specialize (F _ I). cbn [fst snd] in F. congruence.
Qed.
(** C51: exactly when Delta crashes. *)
Theorem C51_panics_iff e m order : (exists w, sk_delta e m order = Panic w) <->
  order <> [] /\ exists path g, group_of m (rm_pgn (pm_header (e_msg e))) path g /\ trouble (e_table e) (pm_index (e_msg e)) path g.
Proof.
  change (rm_pgn (pm_header (e_msg e))) with (pgn_of e). rewrite <- all_ok_trouble. unfold sk_delta.
  destruct (sk_loop_pure e m order) as [P1 P2]. split.
  - intros [w W]. destruct order as [|x l]; [rewrite P1 in W by auto; discriminate|]. split; [discriminate|].
    destruct (all_ok e (groups_for m (pgn_of e))) eqn:A; [|reflexivity].
    rewrite P1 in W by auto. cbn [bind] in W. destruct (k_vals _); discriminate.
  - intros [NE A]. destruct (P2 A NE) as [w W]. exists w. now rewrite W.
Qed.
(** C51: without fieldsets, Delta fails exactly when no field contributes a value. *)
Theorem C51_error_iff e m order def :
  NoDup (map fst (pm_data (e_msg e))) -> Permutation order (pm_data (e_msg e)) ->
  zget (e_table e) (pm_index (e_msg e)) = Some def ->
  (forall path g, group_of m (rm_pgn (pm_header (e_msg e))) path g -> fs_fields (g_fieldset g) = []) ->
  (forall w, sk_delta e m order <> Panic w) ->
  ((exists x, sk_delta e m order = Err x) <->
   forall fid v, In (fid, v) (pm_data (e_msg e)) ->
     contributes (e_fmt e) (pm_data (e_msg e)) (p_rep def) (groups_for m (rm_pgn (pm_header (e_msg e)))) fid v []).
Proof.
  intros ND PM E NF NP. set (G := groups_for m (rm_pgn (pm_header (e_msg e)))) in *.
  assert (rpt_of e = p_rep def) as RP by (unfold rpt_of; now rewrite E). rewrite <- RP in *.
  assert (Forall (fun pg => fs_fields (g_fieldset (snd pg)) = []) G) as FN.
  { apply Forall_forall. intros [path g] I. apply groups_for_In in I. exact (NF _ _ I). }
  assert (separate (rpt_of e) G) as SEP.
  { intros path g path' g' I _ N. rewrite Forall_forall in FN. elim N. exact (FN _ I). }
  assert (NoDup (map fst order)) as NO by (eapply Permutation_NoDup; [apply Permutation_sym, Permutation_map, PM|exact ND]).
  unfold sk_delta in *. destruct (sk_loop_pure e m order) as [P1 P2]. change (groups_for m (pgn_of e)) with G in *.
  pose proof (delta_split e G SEP order NO) as S. rewrite fs_iter_none in S by exact FN. cbn [k_vals] in S. rewrite app_nil_r in S.
  assert (order = [] \/ all_ok e G = true) as C.
  { destruct order as [|x l]; [auto|]. right. destruct (all_ok e G); [reflexivity|].
    destruct (P2 eq_refl ltac:(discriminate)) as [w W]. rewrite W in NP. now elim (NP w). }
  destruct C as [->|A].
  - apply Permutation_nil in PM. rewrite PM. rewrite P1 by auto. cbn. split; [intros _ fid v []|eauto].
  - rewrite P1 by auto. cbn [bind].
    assert (forall fid v out, contributes (e_fmt e) (pm_data (e_msg e)) (rpt_of e) G fid v out -> out = [] -> plain_of e fid v G = []) as U.
    { intros fid v out [[N _]|(b & path & g & a & q & EG & B & CL & P & O)] EO.
      - clear - N ND. induction G as [|[p g] G IH]; [reflexivity|]. cbn [plain_of].
        destruct (claimb e fid g) eqn:X; [apply claimb_ok in X; [|exact ND]; elim (N p g); [now left|exact X]|].
        apply IH. intros p' g' I. apply (N p' g'). now right.
      - subst out. destruct O as [(_ & _ & O)|(O & _)]; [discriminate|].
        rewrite EG. clear - B CL P O ND A EG.
        assert (group_ok e path g = true) as GO.
        { unfold all_ok in A. rewrite forallb_forall in A. apply (A (path, g)). rewrite EG. apply in_or_app. right. now left. }
        clear A EG. induction b as [|[p' g'] b IH]; cbn [app plain_of].
        + assert (claimb e fid g = true) as -> by (apply claimb_ok; auto).
          rewrite (path_for_fun _ _ _ _ _ _ _ _ ND (pathb_ok e path g fid GO) P).
          destruct O as [->| ->]; [destruct q; reflexivity|reflexivity].
        + destruct (claimb e fid g') eqn:X; [apply claimb_ok in X; [|exact ND]; elim (B p' g'); [now left|exact X]|].
          apply IH. intros p g0 I. apply (B p g0). now right. }
    split.
    + intros [x X]. destruct (k_vals (ploop e G order (mkst [] []))) as [|y l] eqn:K; [|discriminate].
      apply Permutation_nil in S. intros fid v I.
      assert (plain_of e fid v G = []) as PL.
      { apply (Permutation_in _ (Permutation_sym PM)) in I. clear - S I. induction order as [|kv l IH]; [destruct I|].
        cbn [flat_map] in S. apply app_eq_nil in S as [S1 S2]. destruct I as [->|I]; [exact S1|auto]. }
      rewrite <- PL. now apply plain_ok.
    + intros H. assert (flat_map (fun kv => plain_of e (fst kv) (snd kv) G) order = []) as F.
      { assert (forall kv, In kv order -> plain_of e (fst kv) (snd kv) G = []) as Q.
        { intros [fid v] I. eapply U; [|reflexivity]. apply H. eapply Permutation_in; eauto. }
        clear - Q. induction order as [|kv l IH]; [reflexivity|]. cbn [flat_map]. rewrite (Q kv) by now left.
        apply IH. intros kv' I. apply Q. now right. }
      rewrite F in S. apply Permutation_sym, Permutation_nil in S. rewrite S. eauto.
Qed.

(* ------------------------------------------------------------------ C53 *)

(** C53: when the groups for the PGN do not get in each other's way, two visiting orders give
    the same values (as a multiset), or both fail the same way. *)
Theorem C53_order_irrelevant e m order order' def :
  NoDup (map fst (pm_data (e_msg e))) -> Permutation order (pm_data (e_msg e)) -> Permutation order' (pm_data (e_msg e)) ->
  zget (e_table e) (pm_index (e_msg e)) = Some def ->
  separate (p_rep def) (groups_for m (rm_pgn (pm_header (e_msg e)))) ->
  match sk_delta e m order, sk_delta e m order' with
  | Ret d, Ret d' => Permutation (flat_map u_values (d_updates d)) (flat_map u_values (d_updates d'))
  | Err x, Err x' => x = x'
  | Panic _, Panic _ => True
  | _, _ => False
  end.
Proof.
  intros ND PM PM' E SEP. set (G := groups_for m (rm_pgn (pm_header (e_msg e)))) in *.
  assert (rpt_of e = p_rep def) as RP by (unfold rpt_of; now rewrite E). rewrite <- RP in *.
  assert (NoDup (map fst order)) as NO by (eapply Permutation_NoDup; [apply Permutation_sym, Permutation_map, PM|exact ND]).
  assert (NoDup (map fst order')) as NO' by (eapply Permutation_NoDup; [apply Permutation_sym, Permutation_map, PM'|exact ND]).
  assert (Permutation order order') as PP by (eapply Permutation_trans; [exact PM|apply Permutation_sym, PM']).
  unfold sk_delta. destruct (sk_loop_pure e m order) as [P1 P2]. destruct (sk_loop_pure e m order') as [Q1 Q2].
  change (groups_for m (pgn_of e)) with G in *.
  destruct order as [|x l].
  { apply Permutation_nil in PP. subst order'. rewrite P1 by auto. cbn. reflexivity. }
  assert (order' <> []) as NE' by (intros ->; apply Permutation_sym, Permutation_nil in PP; discriminate).
  destruct (all_ok e G) eqn:A.
  - rewrite P1, Q1 by auto. cbn [bind].
    pose proof (delta_split e G SEP (x :: l) NO) as S. pose proof (delta_split e G SEP order' NO') as S'.
    rewrite (Permutation_length PP) in S.
    assert (Permutation (k_vals (ploop e G (x :: l) (mkst [] []))) (k_vals (ploop e G order' (mkst [] [])))) as R.
    { eapply Permutation_trans; [exact S|]. eapply Permutation_trans; [|apply Permutation_sym, S'].
      apply Permutation_app_tail. now apply Permutation_flat_map. }
    destruct (k_vals (ploop e G (x :: l) (mkst [] []))) as [|y r].
    + apply Permutation_nil in R. rewrite R. reflexivity.
    + destruct (k_vals (ploop e G order' (mkst [] []))) as [|y' r']; [apply Permutation_sym, Permutation_nil in R; discriminate|].
      cbn [d_updates flat_map u_values]. now rewrite !app_nil_r.
  - destruct (P2 eq_refl ltac:(discriminate)) as [w W]. destruct (Q2 eq_refl NE') as [w' W'].
    rewrite W, W'. cbn. exact I.
Qed.

(** C53: it matters in general.  A fieldset over fields 3 and 4 and a plain mapping of field 3:
    visiting 3 first gives the plain value only, visiting 1 first gives the combined text. *)
Definition bad_map : mappings :=
  [mkmapping (str "~/date") [mkgroup 126992 (mkfs [] []) (str "3") (mkidf [] []) (mkidf [] []) []];
   mkmapping (str "~/now") [mkgroup 126992 (mkfs (str "datetime") [(str "date", 3); (str "time", 4)]) [] (mkidf [] []) (mkidf [] []) []]].
Definition clock_data : dmap := [(3, VTime 1577836800 0); (4, VTime 3723 0)].
Theorem C53_order_matters_refuted : exists e m order order',
  NoDup (map fst (pm_data (e_msg e))) /\ Permutation order (pm_data (e_msg e)) /\ Permutation order' (pm_data (e_msg e)) /\
  values_of (sk_delta e m order) = [mkval (str "date") (VTime 1577836800 0)] /\
  values_of (sk_delta e m order') = [mkval (str "now") (VString (str "2020-01-01T01:02:03Z"))].
Proof.
  exists (mkenv 0 show PgnList (sk_msg 126992 0 clock_data)), bad_map, clock_data, (rev clock_data).
  split; [repeat constructor; cbn; intuition discriminate|]. split; [reflexivity|].
  split; [apply Permutation_sym, Permutation_rev|]. split; vm_compute; reflexivity.
Qed.

(* ------------------------------------------------------------------ the shipped tables *)
Definition plain_but (id : Z) (m : mappings) : bool :=
  forallb (fun mp => forallb (fun g => match fs_fields (g_fieldset g) with [] => true | _ => g_pgn g =? id end) (m_groups mp)) m.
Lemma plain_but_ok id m pgn path g : plain_but id m = true -> group_of m pgn path g -> fs_fields (g_fieldset g) <> [] -> pgn = id.
Proof.
  intros B (mp & I & _ & J & <-) N. unfold plain_but in B. rewrite forallb_forall in B. specialize (B _ I).
  rewrite forallb_forall in B. specialize (B _ J). destruct (fs_fields (g_fieldset g)); [now elim N|]. now apply Z.eqb_eq.
Qed.
Lemma no_int_text_nil k : ~ int_text [] k.
Proof. intros [[H _]|[(r & H & _)|(r & H & _)]]; [now elim H|discriminate|discriminate]. Qed.
Lemma datetime_footprint k : footprint (mkfs (str "datetime") [(str "date", 3); (str "time", 4)]) k -> k = 3 \/ k = 4.
Proof.
  intros [H|[H|H]].
  - cbn in H. intuition lia.
  - rewrite (keyed_fun _ _ _ _ H (fs_key_ok _ _)). vm_compute. auto.
  - rewrite (keyed_fun _ _ _ _ H (fs_key_ok _ _)). vm_compute. auto.
Qed.
Lemma groups_126992 : groups_for MapXml 126992 =
  [(str "~/system/currentTimeSource", mkgroup 126992 (mkfs [] []) (str "1") (mkidf [] []) (mkidf [] []) []);
   (str "~/system/currentTime",
    mkgroup 126992 (mkfs (str "datetime") [(str "date", 3); (str "time", 4)]) [] (mkidf [] []) (mkidf [] []) [])].
Proof. vm_compute. reflexivity. Qed.
(** The shipped mapping table's groups do not get in each other's way, for any PGN. *)
Theorem C53_shipped_separate rpt pgn : separate rpt (groups_for MapXml pgn).
Proof.
  intros path g path' g' I I' N.
  assert (pgn = 126992) as ->.
  { apply groups_for_In in I. eapply plain_but_ok; [|exact I|exact N]. vm_compute. reflexivity. }
  rewrite groups_126992 in I, I'. destruct I as [X|[X|[]]]; injection X as <- <-; [now elim N|].
  cbn [g_field g_fieldset]. split; [apply no_int_text_nil|].
  intros k NF FP. apply datetime_footprint in FP. apply hitb_ok in NF.
  destruct I' as [X|[X|[]]]; injection X as <- <-; cbn in NF; [|discriminate].
  assert (1 = k) by (apply Z.eqb_eq; exact NF). lia.
Qed.
(** Hence with the shipped tables the visiting order never matters. *)
Corollary C53_shipped tz fmtv msg order order' def :
  NoDup (map fst (pm_data msg)) -> Permutation order (pm_data msg) -> Permutation order' (pm_data msg) ->
  zget PgnList (pm_index msg) = Some def ->
  match sk_delta (mkenv tz fmtv PgnList msg) MapXml order, sk_delta (mkenv tz fmtv PgnList msg) MapXml order' with
  | Ret d, Ret d' => Permutation (flat_map u_values (d_updates d)) (flat_map u_values (d_updates d'))
  | Err x, Err x' => x = x'
  | Panic _, Panic _ => True
  | _, _ => False
  end.
Proof.
  intros ND P P' E. apply (C53_order_irrelevant (mkenv tz fmtv PgnList msg) MapXml order order' def ND P P' E).
  apply C53_shipped_separate.
Qed.

Definition safe_map (id : Z) (m : mappings) : bool :=
  forallb (fun mp => (2 <=? zlen (m_path mp)) &&
    forallb (fun g => negb (nonempty (i_id (g_mult g)) && nonempty (i_field (g_mult g))) || (g_pgn g =? id)) (m_groups mp)) m.
Lemma safe_map_ok id m t k pgn path g : safe_map id m = true -> group_of m pgn path g ->
  (exists def, zget t k = Some def /\ (pgn = id -> p_rep def <> 0)) -> ~ trouble t k path g.
Proof.
  intros B (mp & I & -> & J & <-) (def & E & R) T. unfold safe_map in B. rewrite forallb_forall in B. specialize (B _ I).
  apply andb_prop in B as [B1 B2]. apply Z.leb_le in B1. unfold zlen in B1.
  rewrite forallb_forall in B2. specialize (B2 _ J).
  destruct T as [T|[T|(T1 & d & T2 & T3)]]; [lia|now elim (T def)|].
  rewrite E in T2. injection T2 as <-. apply in_force_iff in T1. rewrite T1 in B2. cbn [negb orb] in B2.
  apply Z.eqb_eq in B2. now apply R.
Qed.
Lemma decoded_index fuel pl t m spare r : t <> [] -> table_ok t -> parse_packet fuel pl t m spare = Some (Ret r) ->
  exists p, zget t (pm_index r) = Some p.
Proof.
  intros TN TO H. destruct (packet_start t (rm_pgn m) TN) as (i & d0 & j & d1 & F1 & F2 & F3 & F4).
  rewrite (packet_unfold _ _ _ _ _ _ _ _ _ F1 F2) in H.
  destruct (parse_loop _ _ _ _ _ _ _) as [[s| |]|] eqn:E; try discriminate. injection H as <-. cbn [pm_index].
  assert (reach t (zlen (rm_data m)) i j s) as R.
  { refine (proj1 (loop_inv (reach t (zlen (rm_data m)) i j) pl t _ j _ _ fuel _ _ _ E)).
    - intros s0 s1 A S. change (zlen (rm_data m)) with (s_len (window (rm_data m) spare)).
      eapply reach_step; eauto. apply zlen_nonneg.
    - apply reach_init; [apply zlen_nonneg|exact F3]. }
  rewrite (r_index _ _ _ _ _ R). exists (ps_def s). apply (r_def _ _ _ _ _ R).
Qed.
Definition index_of (t : list pgn_def) (id : Z) : Z := match pgn_first t id with Ret (i, _) => i | _ => -1 end.
Lemma single_127503 : single PgnList 127503 (index_of PgnList 127503)
  (match zget PgnList (index_of PgnList 127503) with Some d => d | None => mkpgn "" "" 0 false 0 0 [] end).
Proof.
  assert (forall k p, zget PgnList k = Some p -> p_pgn p = 127503 -> k = index_of PgnList 127503) as U.
  { intros k p E P.
    destruct (packet_start PgnList 127503 PgnList_nonempty) as (i & d0 & j & d1 & F1 & F2 & F3 & F4).
    assert (i = j) as <-.
    { assert (pgn_first PgnList 127503 = Ret (i, d0) -> pgn_last PgnList 127503 = Ret (j, d1) ->
        match pgn_first PgnList 127503, pgn_last PgnList 127503 with Ret (a, _), Ret (b, _) => (a =? b) = true | _, _ => False end) as Q
        by (intros _ _; vm_compute; reflexivity).
      specialize (Q F1 F2). rewrite F1, F2 in Q. now apply Z.eqb_eq. }
    unfold index_of. rewrite F1.
    destruct (C28_first _ _ _ _ F1) as [[G1 G2]|[G _]]; [|elim (G k p); now split].
    destruct (C28_last _ _ _ _ F2) as [[H1 H2]|[G _]]; [|elim (G k p); now split].
    specialize (G2 k p (conj E P)). specialize (H2 k p (conj E P)). lia. }
  split; [|intros k p [E P]; now apply (U k p)].
  split; vm_compute; reflexivity.
Qed.
Lemma rep_127503 k p : defines PgnList 127503 k p -> p_rep p = 10.
Proof.
  intros D. destruct single_127503 as [[S1 S2] S]. pose proof (S _ _ D) as ->. destruct D as [D _].
  assert (match zget PgnList (index_of PgnList 127503) with Some d => p_rep d = 10 | None => False end) as Q by (vm_compute; reflexivity).
  rewrite D in Q. exact Q.
Qed.
(** With the shipped tables Delta never crashes, neither on a decoded message nor on one imported
    from CanBoat JSON. *)
Theorem C51_shipped_never_panics tz fmtv msg order w :
  (exists fuel pl m spare, parse_packet fuel pl PgnList m spare = Some (Ret msg)) \/ (exists c, NoDup (map fst (cb_fields c)) /\ from_canboat PgnList c = Ret msg) ->
  sk_delta (mkenv tz fmtv PgnList msg) MapXml order <> Panic w.
Proof.
  intros H P. destruct (proj1 (C51_panics_iff (mkenv tz fmtv PgnList msg) MapXml order) (ex_intro _ w P)) as (_ & path & g & G & T).
  cbn [e_msg e_table] in G, T. revert T. apply safe_map_ok with (id := 127503) (m := MapXml) (pgn := rm_pgn (pm_header msg)); [vm_compute; reflexivity|exact G|].
  destruct H as [(fuel & pl & m & spare & H)|(c & N & H)].
  - destruct (C39_header_and_keys _ _ _ _ _ _ H) as [-> _].
    destruct (decoded_index _ _ _ _ _ _ PgnList_nonempty PgnList_ok H) as (p & E). exists p. split; [exact E|].
    intros R. assert (defines PgnList 127503 (pm_index msg) p) as D.
    { pose proof single_127503 as S. set (i := index_of PgnList 127503) in *. clearbody i.
      revert S. generalize (match zget PgnList i with Some d => d | None => mkpgn "" "" 0 false 0 0 [] end). intros def S.
      rewrite <- R in S. destruct (C41_fields _ _ _ _ _ _ _ _ PgnList_ok (or_introl S) H) as [I _]. rewrite I in *.
      rewrite <- R. destruct S as [[S1 S2] _]. split; [exact E|]. rewrite E in S1. now injection S1 as <-. }
    rewrite (rep_127503 _ _ D). discriminate.
  - destruct (C46_fields _ _ _ N H) as (k & def & S & HD & HI & _). rewrite HD, HI. cbn [rm_pgn]. exists def.
    destruct S as [[S _]|(N0 & -> & S)].
    + split; [apply S|]. intros E. rewrite E in S. rewrite (rep_127503 _ _ S). discriminate.
    + split; [exact S|]. intros E. exfalso. rewrite E in N0. destruct single_127503 as [S1 _]. exact (N0 _ _ S1).
Qed.

(* ------------------------------------------------------------------ examples *)
Lemma keys_nodup (l : list Z) : (fix f l := match l with [] => true | x :: r => negb (existsb (Z.eqb x) r) && f r end) l = true -> NoDup l.
Proof.
  induction l as [|x l IH]; intros H; [constructor|]. apply andb_prop in H as [A B]. constructor; [|auto].
  intros I. assert (existsb (Z.eqb x) l = true) as C by (apply existsb_exists; exists x; split; [exact I|apply Z.eqb_refl]).
  rewrite C in A. discriminate.
Qed.
(** A wind message (PGN 130306), visited in another order than stored: two values, the fields of
    the two mappings whose condition (field 3 is "Apparent") holds; the instance is not mapped. *)
Definition wind : parsed := sk_msg 130306 (index_of PgnList 130306)
  [(0, VUint64 7); (1, VUint64 512); (2, VUint64 314); (3, VString (str "Apparent"))].
Definition wind_order : dmap := [(2, VUint64 314); (3, VString (str "Apparent")); (1, VUint64 512); (0, VUint64 7)].
Lemma wind_nodup : NoDup (map fst (pm_data wind)).
Proof. apply keys_nodup. reflexivity. Qed.
Lemma wind_perm : Permutation wind_order (pm_data wind).
Proof.
  unfold wind, wind_order, sk_msg. cbn [pm_data].
  apply Permutation_trans with [(0, VUint64 7); (2, VUint64 314); (3, VString (str "Apparent")); (1, VUint64 512)].
  - apply Permutation_sym. apply (Permutation_middle [(2, VUint64 314); (3, VString (str "Apparent")); (1, VUint64 512)] []).
  - constructor. apply Permutation_sym. apply (Permutation_middle [(2, VUint64 314); (3, VString (str "Apparent"))] []).
Qed.
Example C49_example : exists d,
  sk_delta (mkenv 0 show PgnList wind) MapXml wind_order = Ret d /\
  flat_map u_values (d_updates d) =
    [mkval (str "environment.wind.angleApparent") (VUint64 314); mkval (str "environment.wind.speedApparent") (VUint64 512)].
Proof. eexists. split; vm_compute; reflexivity. Qed.
(** The hypotheses of C50 are met by the wind message and its angle mapping (the second group). *)
Example C50_example : exists d, sk_delta (mkenv 0 show PgnList wind) MapXml wind_order = Ret d /\
  In (mkval (str "environment.wind.angleApparent") (VUint64 314)) (flat_map u_values (d_updates d)).
Proof.
  set (e := mkenv 0 show PgnList wind).
  assert (exists def, zget PgnList (pm_index wind) = Some def) as [def E].
  { destruct (zget PgnList (pm_index wind)) eqn:X; [eauto|]. exfalso. revert X. vm_compute. discriminate. }
  assert (group_ok e (m_path map_34) (hd (mkgroup 0 (mkfs [] []) [] (mkidf [] []) (mkidf [] []) []) (m_groups map_34)) = true) as GO by (vm_compute; reflexivity).
  assert (rpt_of e = p_rep def) as RP by (unfold rpt_of, e; cbn [e_table e_msg]; now rewrite E).
  refine (C50_appears e MapXml wind_order def [(m_path map_33, hd (mkgroup 0 (mkfs [] []) [] (mkidf [] []) (mkidf [] []) []) (m_groups map_33))]
    (m_path map_34) _ [] 2 (VUint64 314) _ wind_nodup wind_perm E _ _ _ _ _ _ _ _ _).
  - apply C53_shipped_separate.
  - vm_compute. reflexivity.
  - rewrite <- RP. intros p g [X|[]]. injection X as <- <-. intros C. apply (claimb_ok e) in C; [|exact wind_nodup]. revert C. vm_compute. discriminate.
  - rewrite <- RP. apply (claimb_ok e); [exact wind_nodup|]. vm_compute. reflexivity.
  - right. right. left. reflexivity.
  - discriminate.
  - rewrite <- RP. pose proof (pathb_ok e _ _ 2 GO) as P. replace (str "environment.wind.angleApparent") with (pathb e (rpt_of e) 2 (m_path map_34) (hd (mkgroup 0 (mkfs [] []) [] (mkidf [] []) (mkidf [] []) []) (m_groups map_34))) by (vm_compute; reflexivity). exact P.
  - discriminate.
  - intros w. vm_compute. discriminate.
Qed.
(** C51: a message whose PGN has no mapping fails, a multiplier without repeating fields crashes. *)
Example C51_example :
  sk_delta (mkenv 0 show PgnList (sk_msg 65240 3 [(0, VUint64 1)])) MapXml [(0, VUint64 1)] = Err "unknown PGN" /\
  sk_delta (mkenv 0 show PgnList (sk_msg 65240 0 [(0, VUint64 1)]))
    [mkmapping (str "~/a/{i}") [mkgroup 65240 (mkfs [] []) (str "0") (mkidf (str "i") (str "0")) (mkidf [] []) []]] [(0, VUint64 1)]
  = Panic "integer divide by zero".
Proof. split; vm_compute; reflexivity. Qed.
(** C53: system time (PGN 126992) with the shipped table, visited both ways. *)
Definition clock : parsed := sk_msg 126992 (index_of PgnList 126992)
  [(0, VUint64 1); (1, VString (str "GPS")); (2, VNil); (3, VTime 1577836800 0); (4, VTime 3723 0)].
Example C53_example :
  values_of (sk_delta (mkenv 0 show PgnList clock) MapXml (pm_data clock)) =
    [mkval (str "system.currentTime") (VString (str "2020-01-01T01:02:03Z")); mkval (str "system.currentTimeSource") (VString (str "GPS"))] /\
  values_of (sk_delta (mkenv 0 show PgnList clock) MapXml
    [(1, VString (str "GPS")); (4, VTime 3723 0); (3, VTime 1577836800 0); (0, VUint64 1); (2, VNil)]) =
    [mkval (str "system.currentTimeSource") (VString (str "GPS")); mkval (str "system.currentTime") (VString (str "2020-01-01T01:02:03Z"))].
Proof. split; vm_compute; reflexivity. Qed.
(** Two lines of an AC input status message (PGN 127503): the line number of the same repetition
    goes into the path. *)
Definition ac : parsed := sk_msg 127503 (index_of PgnList 127503)
  [(0, VUint64 4); (1, VUint64 2); (2, VUint64 1); (3, VUint64 0); (12, VUint64 2); (13, VUint64 3)].
Example C56_multiplier_example :
  values_of (sk_delta (mkenv 0 show PgnList ac) MapXml (pm_data ac)) =
    [mkval (str "electric.ac.4.numberOfLines") (VUint64 2);
     mkval (str "electric.ac.4.1.acceptability") (VUint64 0);
     mkval (str "electric.ac.4.2.acceptability") (VUint64 3)].
Proof. vm_compute. reflexivity. Qed.
