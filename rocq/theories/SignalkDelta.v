(** SignalkDelta: proofs about Delta's loops. *)
From Coq Require Import Sorting.Permutation.
From Verif Require Import GoBase BufFacts Strconv StrconvFacts CanModel NmeaTypes NmeaModel NmeaSpec SignalkModel SignalkSpec
  SignalkTime SignalkText.
Open Scope Z_scope.
Open Scope list_scope.

(* ------------------------------------------------------------------ maps *)
Lemma dm_get_value data k : field_value data k (dm_get data k).
Proof.
  unfold field_value. induction data as [|[a x] r IH]; cbn; [right; auto|].
  destruct (Z.eqb_spec a k) as [->|N]; [left; auto|].
  destruct IH as [IH|[IH1 IH2]]; [left; auto|]. right. split; [exact IH1|]. intros y [E|E]; [congruence|firstorder].
Qed.
Lemma field_value_fun data k v w : NoDup (map fst data) -> field_value data k v -> field_value data k w -> v = w.
Proof.
  unfold field_value. intros ND [A|[-> A]] [B|[-> B]]; auto; try (now elim (A w)); try (now elim (B v)).
  clear - ND A B. induction data as [|[a x] r IH]; [destruct A|]. cbn in ND. apply NoDup_cons_iff in ND as [N ND].
  destruct A as [A|A], B as [B|B]; auto.
  - congruence.
  - injection A as -> ->. elim N. apply in_map_iff. exists (k, w). auto.
  - injection B as -> ->. elim N. apply in_map_iff. exists (k, v). auto.
Qed.
Lemma field_value_get data k v : NoDup (map fst data) -> field_value data k v -> dm_get data k = v.
Proof. intros ND H. eapply field_value_fun; eauto using dm_get_value. Qed.

Lemma b_put_get m k v x : b_get (b_put m k v) x = if x =? k then v else b_get m x.
Proof.
  induction m as [|[a y] r IH]; cbn.
  - destruct (Z.eqb_spec k x); destruct (Z.eqb_spec x k); try reflexivity; lia.
  - destruct (Z.eqb_spec a k) as [->|N]; cbn.
    + destruct (Z.eqb_spec k x); destruct (Z.eqb_spec x k); try reflexivity; lia.
    + destruct (Z.eqb_spec a x); [destruct (Z.eqb_spec x k); [lia|reflexivity]|exact IH].
Qed.

(* ------------------------------------------------------------------ conditions *)
Lemma op_dec (c : condition) : 
  bytes_eqb (c_op c) (str "eq") = false -> bytes_eqb (c_op c) (str "lt") = false -> bytes_eqb (c_op c) (str "gt") = false ->
  bytes_eqb (c_op c) (str "le") = false -> bytes_eqb (c_op c) (str "ge") = false -> ~ known_op c.
Proof.
  intros A B C D E [H|[H|[H|[H|[H|[]]]]]]; symmetry in H; apply bytes_eqb_eq in H; congruence.
Qed.
Lemma conds_match_ok fmtv cs data : NoDup (map fst data) -> conds_match fmtv cs data = true <-> applies fmtv cs data.
Proof.
  intros ND. induction cs as [|c cs IH].
  - split; [|reflexivity]. intros _. exists [], []. split; [reflexivity|]. split; [auto|constructor].
  - cbn [conds_match].
    assert (known_op c -> forall b, (b = true <-> holds c (fmtv (dm_get data (c_field c)))) ->
      ((if b then conds_match fmtv cs data else false) = true <-> applies fmtv (c :: cs) data)) as K.
    { intros KO b Hb. split.
      - destruct b; [|discriminate]. intros H. apply IH in H as [known [rest [-> [R F]]]].
        exists (c :: known), rest. split; [reflexivity|]. split; [exact R|]. constructor; [|exact F].
        split; [exact KO|]. intros v V. rewrite <- (field_value_get _ _ _ ND V). now apply Hb.
      - intros [known [rest [E [R F]]]]. destruct known as [|c' known].
        { cbn in E. subst rest. destruct R as [R|[c' [r [R NK]]]]; [discriminate|]. injection R as -> ->. contradiction. }
        injection E as <- ->. apply Forall_cons_iff in F as [[_ Hc] F].
        replace b with true; [apply IH; exists known, rest; auto|]. symmetry. apply Hb. apply Hc. apply dm_get_value. }
    assert (forall x : bytes, (str "eq" = x -> False) -> True) by auto.
    destruct (bytes_eqb (c_op c) (str "eq")) eqn:E1.
    { apply bytes_eqb_eq in E1. rewrite <- (K ltac:(unfold known_op; rewrite E1; cbn; auto) (bytes_eqb (fmtv (dm_get data (c_field c))) (c_value c))).
      - destruct (bytes_eqb _ _); reflexivity.
      - rewrite bytes_eqb_eq. unfold holds. rewrite E1. split; [|intros H'; now apply H']. intros ->.
        repeat split; intros Z; try discriminate Z; auto. }
    destruct (bytes_eqb (c_op c) (str "lt")) eqn:E2.
    { apply bytes_eqb_eq in E2. rewrite <- (K ltac:(unfold known_op; rewrite E2; cbn; auto) (bytes_ltb (fmtv (dm_get data (c_field c))) (c_value c))).
      - destruct (bytes_ltb _ _); reflexivity.
      - rewrite bytes_ltb_lt. unfold holds. rewrite E2. split; [|intros H'; now apply H']. intros L.
        repeat split; intros Z; try discriminate Z; auto. }
    destruct (bytes_eqb (c_op c) (str "gt")) eqn:E3.
    { apply bytes_eqb_eq in E3. rewrite <- (K ltac:(unfold known_op; rewrite E3; cbn; auto) (bytes_ltb (c_value c) (fmtv (dm_get data (c_field c))))).
      - destruct (bytes_ltb _ _); reflexivity.
      - rewrite bytes_ltb_lt. unfold holds. rewrite E3. split; [|intros H'; now apply H']. intros L.
        repeat split; intros Z; try discriminate Z; auto. }
    destruct (bytes_eqb (c_op c) (str "le")) eqn:E4.
    { apply bytes_eqb_eq in E4. rewrite <- (K ltac:(unfold known_op; rewrite E4; cbn; auto) (negb (bytes_ltb (c_value c) (fmtv (dm_get data (c_field c)))))).
      - destruct (bytes_ltb _ _); reflexivity.
      - rewrite negb_true_iff, text_order. unfold holds. rewrite E4. split; [|intros H'; now apply H']. intros L.
        repeat split; intros Z; try discriminate Z; auto. }
    destruct (bytes_eqb (c_op c) (str "ge")) eqn:E5.
    { apply bytes_eqb_eq in E5. rewrite <- (K ltac:(unfold known_op; rewrite E5; cbn; auto 10) (negb (bytes_ltb (fmtv (dm_get data (c_field c))) (c_value c)))).
      - destruct (bytes_ltb _ _); reflexivity.
      - rewrite negb_true_iff, text_order. unfold holds. rewrite E5.
        split; [|intros H'; destruct H' as [_ [_ [_ [_ H']]]]; destruct (H' eq_refl); auto]. intros L.
        repeat split; intros Z; try discriminate Z. destruct L; auto. }
    split; [|reflexivity]. intros _. exists [], (c :: cs). split; [reflexivity|]. split; [|constructor].
    right. exists c, cs. split; [reflexivity|]. now apply op_dec.
Qed.

(* ------------------------------------------------------------------ one step, without panics *)
Definition rpt_of (e : skenv) : Z := match zget (e_table e) (pm_index (e_msg e)) with Some d => p_rep d | None => 0 end.
Definition dot (s : bytes) : bytes := skipn 2 (map (fun c => if c =? 47 then 46 else c) s).
Definition hitb (rpt : Z) (g : group) (fid : Z) : bool :=
  let mlt := if nonempty (i_id (g_mult g)) && nonempty (i_field (g_mult g)) then parse_int_value 32 (i_field (g_mult g)) else -1 in
  match parse_int 64 (g_field g) with
  | Some fld => ((mlt <? fld) && (-1 <? mlt) && (fld =? Z.rem fid rpt)) || (fld =? fid)
  | None => false
  end.
Definition pathb (e : skenv) (rpt fid : Z) (path : bytes) (g : group) : bytes :=
  match sk_path e rpt fid (dot path) g with Ret (p, _) => p | _ => [] end.
Definition pstep (e : skenv) (fid : Z) (v : gval) (pg : bytes * group) (s : skst) : skst :=
  let '(path, g) := pg in
  let data := pm_data (e_msg e) in
  if hitb (rpt_of e) g fid && negb (b_get (k_used s) fid) then
    if conds_match (e_fmt e) (g_conds g) data
    then push (mkst (b_put (k_used s) fid true) (k_vals s)) (pathb e (rpt_of e) fid path g) v else s
  else match fs_fields (g_fieldset g) with
       | [] => s
       | _ => if has_all (g_fieldset g) data (k_used s) then
                let s' := push s (dot path) (VString (fst (fs_parse (e_tz e) (g_fieldset g) data))) in
                mkst (merge (k_used s') (snd (fs_parse (e_tz e) (g_fieldset g) data))) (k_vals s')
              else s
       end.
(** Group g of a mapping with this path makes no trouble: long enough a path, an index in the
    table, and a repeating group if there is a multiplier. *)
Definition group_ok (e : skenv) (path : bytes) (g : group) : bool :=
  (2 <=? zlen path) && match zget (e_table e) (pm_index (e_msg e)) with
                       | None => false
                       | Some d => negb (nonempty (i_id (g_mult g)) && nonempty (i_field (g_mult g)) && (p_rep d =? 0))
                       end.
Definition pgn_of (e : skenv) : Z := rm_pgn (pm_header (e_msg e)).

Lemma sk_group_pure e fid v path g s :
  sk_group e fid v path g s =
    if negb (g_pgn g =? pgn_of e) then Ret s
    else if group_ok e path g then Ret (pstep e fid v (path, g) s)
    else Panic (if zlen path <? 2 then "slice bounds out of range" else
                match zget (e_table e) (pm_index (e_msg e)) with None => "index out of range" | Some _ => "integer divide by zero" end).
Proof.
  unfold sk_group, pgn_of. destruct (negb _); [reflexivity|]. unfold group_ok, to_dot.
  destruct (Z.ltb_spec (zlen path) 2) as [L|L].
  - destruct (Z.leb_spec 2 (zlen path)); [lia|]. reflexivity.
  - destruct (Z.leb_spec 2 (zlen path)); [|lia]. cbn [andb].
    change (skipn 2 (map (fun c : Z => if c =? 47 then 46 else c) path)) with (dot path).
    destruct (zget (e_table e) (pm_index (e_msg e))) as [def|] eqn:ED; [|reflexivity].
    assert (rpt_of e = p_rep def) as ER by (unfold rpt_of; now rewrite ED).
    unfold pstep, hitb, pathb. rewrite ER. unfold sk_path.
    destruct (nonempty (i_id (g_mult g)) && nonempty (i_field (g_mult g))) eqn:EM; cbn [andb negb].
    + destruct (p_rep def =? 0) eqn:EZ; [reflexivity|]. cbn [negb].
      destruct (_ && negb (b_get (k_used s) fid)); [destruct (conds_match _ _ _); reflexivity|].
      destruct (fs_fields (g_fieldset g)) eqn:EF; [reflexivity|]. destruct (has_all _ _ _); [|reflexivity].
      destruct (fs_parse _ _ _) as [txt u]. reflexivity.
    + destruct (_ && negb (b_get (k_used s) fid)); [destruct (conds_match _ _ _); reflexivity|].
      destruct (fs_fields (g_fieldset g)) eqn:EF; [reflexivity|]. destruct (has_all _ _ _); [|reflexivity].
      destruct (fs_parse _ _ _) as [txt u]. reflexivity.
Qed.

Lemma groups_for_cons mp m pgn : groups_for (mp :: m) pgn =
  map (fun g => (m_path mp, g)) (filter (fun g => g_pgn g =? pgn) (m_groups mp)) ++ groups_for m pgn.
Proof. reflexivity. Qed.
Lemma groups_for_In m pgn path g : In (path, g) (groups_for m pgn) <-> group_of m pgn path g.
Proof.
  unfold groups_for, group_of. rewrite in_flat_map. split.
  - intros [mp [I J]]. apply in_map_iff in J as [g' [E J]]. injection E as <- <-. apply filter_In in J as [J K].
    exists mp. repeat split; auto. lia.
  - intros [mp [I [-> [J K]]]]. exists mp. split; [exact I|]. apply in_map_iff. exists g. split; [reflexivity|].
    apply filter_In. split; [exact J|lia].
Qed.

Definition pfield (e : skenv) (gs : list (bytes * group)) (kv : Z * gval) (s : skst) : skst :=
  fold_left (fun s pg => pstep e (fst kv) (snd kv) pg s) gs s.
Definition all_ok (e : skenv) (gs : list (bytes * group)) : bool := forallb (fun pg => group_ok e (fst pg) (snd pg)) gs.

Lemma each_group e fid v path gl : forall s,
  let gs := map (fun g => (path, g)) (filter (fun g => g_pgn g =? pgn_of e) gl) in
  (all_ok e gs = true -> sk_each (sk_group e fid v path) gl s = Ret (pfield e gs (fid, v) s)) /\
  (all_ok e gs = false -> exists w, sk_each (sk_group e fid v path) gl s = Panic w).
Proof.
  induction gl as [|g gl IH]; intros s; cbn [sk_each filter]; [split; [reflexivity|discriminate]|].
  rewrite sk_group_pure. destruct (g_pgn g =? pgn_of e); cbn [negb map].
  - cbn [all_ok forallb fst snd]. destruct (group_ok e path g) eqn:G; cbn [andb bind].
    + apply IH.
    + split; [discriminate|]. eauto.
  - cbn [bind]. apply IH.
Qed.
Lemma sk_field_pure e m kv s : let gs := groups_for m (pgn_of e) in
  (all_ok e gs = true -> sk_field e m kv s = Ret (pfield e gs kv s)) /\
  (all_ok e gs = false -> exists w, sk_field e m kv s = Panic w).
Proof.
  destruct kv as [fid v]. unfold sk_field. cbn [fst snd]. revert s.
  induction m as [|mp m IH]; intros s; [split; [reflexivity|discriminate]|].
  cbv zeta. rewrite groups_for_cons. cbn [sk_each].
  unfold all_ok. rewrite forallb_app. fold (all_ok e (map (fun g => (m_path mp, g)) (filter (fun g => g_pgn g =? pgn_of e) (m_groups mp)))).
  fold (all_ok e (groups_for m (pgn_of e))).
  destruct (each_group e fid v (m_path mp) (m_groups mp) s) as [A B].
  destruct (all_ok e (map _ _)) eqn:O; cbn [andb].
  - rewrite (A eq_refl). cbn [bind]. unfold pfield. rewrite fold_left_app. apply IH.
  - destruct (B eq_refl) as [w ->]. cbn [bind]. split; [discriminate|]. eauto.
Qed.
Definition ploop (e : skenv) (gs : list (bytes * group)) (order : dmap) (s : skst) : skst :=
  fold_left (fun s kv => pfield e gs kv s) order s.
Lemma sk_each_pure e m order : forall s, let gs := groups_for m (pgn_of e) in
  (all_ok e gs = true \/ order = [] -> sk_each (sk_field e m) order s = Ret (ploop e gs order s)) /\
  (all_ok e gs = false -> order <> [] -> exists w, sk_each (sk_field e m) order s = Panic w).
Proof.
  induction order as [|kv order IH]; intros s; cbn [sk_each]; [split; [reflexivity|congruence]|].
  destruct (sk_field_pure e m kv s) as [A B]. split.
  - intros [O|O]; [|discriminate]. rewrite (A O). cbn [bind]. apply IH. now left.
  - intros O _. destruct (B O) as [w ->]. cbn. eauto.
Qed.
Lemma sk_loop_pure e m order : let gs := groups_for m (pgn_of e) in
  (all_ok e gs = true \/ order = [] -> sk_loop e m order = Ret (ploop e gs order (mkst [] []))) /\
  (all_ok e gs = false -> order <> [] -> exists w, sk_loop e m order = Panic w).
Proof. apply sk_each_pure. Qed.

(* ------------------------------------------------------------------ the step means what the specification says *)
Lemma nonempty_iff x : nonempty x = true <-> x <> [].
Proof. destruct x; cbn; split; congruence. Qed.
Lemma in_force_iff x : nonempty (i_id x) && nonempty (i_field x) = true <-> in_force x.
Proof. unfold in_force. now rewrite andb_true_iff, !nonempty_iff. Qed.
Lemma hitb_ok rpt g fid : hitb rpt g fid = true <-> names_field rpt g fid.
Proof.
  unfold hitb, names_field. split.
  - destruct (parse_int 64 (g_field g)) as [fld|] eqn:P; [|discriminate]. apply parse_int_iff in P as [T B]; [|lia].
    change (64 - 1) with 63 in B. intros H. exists fld. split; [exact T|]. split; [exact B|].
    apply orb_true_iff in H as [H|H]; [|left; lia]. right.
    destruct (nonempty (i_id (g_mult g)) && nonempty (i_field (g_mult g))) eqn:F; [|lia].
    apply in_force_iff in F. eexists. split; [exact F|]. split; [reflexivity|]. lia.
  - intros [fld [T [B C]]]. rewrite (proj2 (parse_int_iff 64 (g_field g) fld ltac:(lia))) by (split; [exact T|exact B]).
    destruct C as [C|[mlt [F [E [M C]]]]]; [apply orb_true_iff; right; lia|].
    apply in_force_iff in F. rewrite F, <- E. apply orb_true_iff. left. lia.
Qed.
Lemma substituted_if fmtv data x k p : 
  substituted fmtv data x k p (if nonempty (i_id x) && nonempty (i_field x) then replace_first p (braced (i_id x)) (fmtv (dm_get data k)) else p).
Proof.
  split; intros F.
  - rewrite (proj2 (in_force_iff x) F). exists (dm_get data k). split; [apply dm_get_value|].
    apply replace_first_ok. discriminate.
  - destruct (_ && _) eqn:E; [|reflexivity]. apply in_force_iff in E. contradiction.
Qed.
Lemma pathb_ok e path g fid : group_ok e path g = true ->
  path_for (e_fmt e) (pm_data (e_msg e)) (rpt_of e) path g fid (pathb e (rpt_of e) fid path g).
Proof.
  unfold group_ok. rewrite andb_true_iff. intros [L G].
  assert (zlen path <? 2 = false) as L' by lia. apply Z.leb_le in L.
  assert (to_dot path = Ret (dot path)) as D by (unfold to_dot; now rewrite L').
  unfold path_for. exists (dot path). eexists. split; [now apply to_dot_ok|]. split; [apply substituted_if|].
  cbv zeta. unfold pathb, sk_path, rpt_of in *. destruct (zget (e_table e) (pm_index (e_msg e))) as [def|]; [|discriminate].
  match goal with |- substituted ?f ?d ?x ?k ?p ?q => pose proof (substituted_if f d x k p) as S end.
  destruct (nonempty (i_id (g_mult g)) && nonempty (i_field (g_mult g))) eqn:F; cbn [andb negb] in *.
  - destruct (p_rep def =? 0); [discriminate|]. 
    replace (Z.quot (fid - parse_int_value 32 (i_field (g_mult g))) (p_rep def) * p_rep def + parse_int_value 32 (i_field (g_mult g)))
      with (parse_int_value 32 (i_field (g_mult g)) + p_rep def * Z.quot (fid - parse_int_value 32 (i_field (g_mult g))) (p_rep def)) by lia.
    exact S.
  - exact S.
Qed.

(* ------------------------------------------------------------------ fieldsets *)
Lemma fs_key_ok fs key : keyed fs key (fs_key (fs_fields fs) key 0).
Proof.
  unfold keyed. generalize 0 as a. induction (fs_fields fs) as [|[x v] l IH]; intros a; cbn [fs_key map fst].
  - right. auto.
  - destruct (bytes_eqb x key) eqn:E.
    + apply bytes_eqb_eq in E as ->. destruct (IH v) as [[pre [post [EQ N]]]|[N E2]].
      * left. exists ((key, v) :: pre), post. rewrite EQ at 1. auto.
      * left. exists [], l. rewrite E2. auto.
    + destruct (IH a) as [[pre [post [EQ N]]]|[N E2]].
      * left. exists ((x, v) :: pre), post. rewrite EQ at 1. auto.
      * right. split; [|exact E2]. intros [I|I]; [|auto]. subst x. assert (bytes_eqb key key = true) by now apply bytes_eqb_eq. congruence.
Qed.
Lemma keyed_fun fs key k k' : keyed fs key k -> keyed fs key k' -> k = k'.
Proof.
  assert (forall l pre post pre' post', l = pre ++ (key, k) :: post -> ~ In key (map fst post) ->
     l = pre' ++ (key, k') :: post' -> ~ In key (map fst post') -> k = k') as U.
  { intros l pre. revert l. induction pre as [|x pre IH]; intros l post pre' post' E N E' N'; subst l.
    - destruct pre' as [|x' pre']; cbn in E'; [congruence|]. injection E' as _ E'. subst post. elim N.
      rewrite map_app. apply in_or_app. right. now left.
    - destruct pre' as [|x' pre']; cbn in E'.
      + injection E' as _ E'. subst post'. elim N'. rewrite map_app. apply in_or_app. right. now left.
      + injection E' as _ E'. exact (IH _ post pre' post' eq_refl N E' N'). }
  intros [[pre [post [E N]]]|[N ->]] [[pre' [post' [E' N']]]|[N' ->]]; auto.
  - exact (U _ _ _ _ _ E N E' N').
  - elim N'. rewrite E, map_app. apply in_or_app. right. now left.
  - elim N. rewrite E', map_app. apply in_or_app. right. now left.
Qed.
Lemma combines_get fs data ds ts : NoDup (map fst data) -> combines fs data ds ts <->
  fs_type fs = str "datetime" /\ (exists dn, dm_get data (fs_key (fs_fields fs) (str "date") 0) = VTime ds dn) /\
  (exists tn, dm_get data (fs_key (fs_fields fs) (str "time") 0) = VTime ts tn).
Proof.
  intros ND. split.
  - intros [T [kd [kt [dn [tn [K1 [K2 [F1 F2]]]]]]]].
    rewrite (keyed_fun _ _ _ _ (fs_key_ok fs (str "date")) K1), (keyed_fun _ _ _ _ (fs_key_ok fs (str "time")) K2).
    rewrite (field_value_get _ _ _ ND F1), (field_value_get _ _ _ ND F2). eauto.
  - intros [T [[dn D] [tn E]]]. split; [exact T|]. do 4 eexists. split; [apply fs_key_ok|]. split; [apply fs_key_ok|].
    split; [rewrite <- D|rewrite <- E]; apply dm_get_value.
Qed.

Lemma shift_days n k : 0 <= k <= 30 -> let '(y, m, d) := civil n in let '(y', m', d') := civil k in
  date_days (y' + (y - 1970)) (m' + (m - 1)) (d' + (d - 1)) = n + k.
Proof.
  intros K. pose proof (civil_valid n) as V. destruct (civil n) as [[y m] d]. destruct V as [V E].
  assert (civil k = (1970, 1, 1 + k)) as ->.
  { rewrite <- (civil_of_date 1970 1 (1 + k)).
    - f_equal. rewrite date_days_valid by lia. change (year_start 1970) with 0. change (days_before 1 (leap 1970)) with 0. lia.
    - split; [lia|]. change (mlen 1970 1) with 31. lia. }
  replace (1970 + (y - 1970)) with y by lia. replace (1 + (m - 1)) with m by lia.
  rewrite date_days_valid in * by apply V. lia.
Qed.
Lemma fs_parse_ok tz fs data : NoDup (map fst data) -> -86400 < tz < 86400 -> fieldset_text tz fs data (fst (fs_parse tz fs data)).
Proof.
  intros ND HT. unfold fieldset_text. split.
  - intros ds ts C B1 B2. apply combines_get in C as [T [[dn D] [tn E]]]; [|exact ND].
    unfold fs_parse. rewrite D, E. apply bytes_eqb_eq in T. rewrite T.
    assert (0 <= (ts + tz) / 86400 <= 30) as K by dm.
    pose proof (shift_days ((ds + tz) / 86400) ((ts + tz) / 86400) K) as S.
    destruct (civil ((ds + tz) / 86400)) as [[y m] d]. destruct (civil ((ts + tz) / 86400)) as [[y' m'] d'].
    cbn [fst]. rewrite S. unfold datetime_text.
    apply rfc3339_ok; [|apply Z.mod_pos_bound; lia|exact HT].
    change (10 ^ 10) with 10000000000 in *. dm.
  - intros N. unfold fs_parse. destruct (bytes_eqb (fs_type fs) (str "datetime")) eqn:T; [|reflexivity].
    apply bytes_eqb_eq in T.
    destruct (dm_get data (fs_key (fs_fields fs) (str "date") 0)) eqn:D; try reflexivity.
    destruct (dm_get data (fs_key (fs_fields fs) (str "time") 0)) eqn:E; try reflexivity.
    elim (N sec sec0). apply combines_get; eauto.
Qed.
Lemma has_all_present fs data used : NoDup (map fst data) -> has_all fs data used = true -> all_present fs data.
Proof.
  unfold has_all, all_present. intros ND H key k v I V. rewrite forallb_forall in H. specialize (H _ I). cbn [snd] in H.
  rewrite (field_value_get _ _ _ ND V) in H. destruct v; try (split; discriminate); cbn in H; rewrite ?orb_true_r in H; try discriminate.
  split; [discriminate|]. intros E. injection E as ->. cbn in H. rewrite orb_true_r in H. discriminate.
Qed.

(* ------------------------------------------------------------------ soundness *)
Lemma push_vals s p v x : In x (k_vals (push s p v)) -> In x (k_vals s) \/ (x = mkval p v /\ p <> [] /\ v <> VNil).
Proof.
  unfold push. destruct p as [|c p]; [auto|]. destruct v; cbn [k_vals]; auto; rewrite in_app_iff; cbn [In];
    (intros [H|[H|[]]]; [auto|right; subst; repeat split; discriminate]).
Qed.
Lemma pstep_sound e m fid v path g s x : NoDup (map fst (pm_data (e_msg e))) -> -86400 < e_tz e < 86400 ->
  group_of m (pgn_of e) path g -> group_ok e path g = true -> In (fid, v) (pm_data (e_msg e)) ->
  In x (k_vals (pstep e fid v (path, g) s)) -> In x (k_vals s) \/ justified (e_tz e) (e_fmt e) m (rpt_of e) (e_msg e) x.
Proof.
  intros ND HT GO OK IF. unfold pstep. destruct (_ && _) eqn:H1.
  - destruct (conds_match _ _ _) eqn:CM; [|auto]. intros I. apply push_vals in I as [I|[-> [N1 N2]]]; [auto|right].
    apply andb_true_iff in H1 as [H1 _]. exists path, g. split; [exact GO|]. split; [exact N1|]. left. exists fid.
    cbn [v_value v_path]. repeat split; auto.
    + now apply hitb_ok.
    + now apply conds_match_ok.
    + now apply pathb_ok.
  - destruct (fs_fields (g_fieldset g)) eqn:EF; [auto|]. destruct (has_all _ _ _) eqn:HA; [|auto]. cbn [k_vals].
    intros I. apply push_vals in I as [I|[-> [N1 _]]]; [auto|right]. exists path, g. split; [exact GO|]. split; [exact N1|].
    right. eexists. split; [congruence|]. split; [eapply has_all_present; eauto|]. split; [apply fs_parse_ok; auto|].
    split; [reflexivity|]. cbn [v_path]. apply to_dot_ok. unfold to_dot.
    unfold group_ok in OK. apply andb_true_iff in OK as [OK _]. destruct (Z.ltb_spec (zlen path) 2); [lia|reflexivity].
Qed.
Lemma ploop_sound e m order x : NoDup (map fst (pm_data (e_msg e))) -> -86400 < e_tz e < 86400 ->
  incl order (pm_data (e_msg e)) -> all_ok e (groups_for m (pgn_of e)) = true -> 
  forall s, (forall y, In y (k_vals s) -> justified (e_tz e) (e_fmt e) m (rpt_of e) (e_msg e) y) ->
  In x (k_vals (ploop e (groups_for m (pgn_of e)) order s)) -> justified (e_tz e) (e_fmt e) m (rpt_of e) (e_msg e) x.
Proof.
  intros ND HT IN OK. induction order as [|[fid v] order IH]; intros s HS; [apply HS|].
  cbn [ploop fold_left]. apply IH; [intros z Hz; apply IN; now right|].
  assert (In (fid, v) (pm_data (e_msg e))) as IF by (apply IN; now left).
  assert (forall gs, incl gs (groups_for m (pgn_of e)) -> forall s, (forall y, In y (k_vals s) -> justified (e_tz e) (e_fmt e) m (rpt_of e) (e_msg e) y) ->
     forall y, In y (k_vals (pfield e gs (fid, v) s)) -> justified (e_tz e) (e_fmt e) m (rpt_of e) (e_msg e) y) as G.
  { induction gs as [|[path g] gs IHg]; intros GI s0 H0 y; [apply H0|]. cbn [pfield fold_left fst snd].
    apply IHg; [intros z Hz; apply GI; now right|]. intros y' I'.
    assert (In (path, g) (groups_for m (pgn_of e))) as I by (apply GI; now left).
    unfold all_ok in OK. rewrite forallb_forall in OK. specialize (OK _ I). cbn [fst snd] in OK.
    apply groups_for_In in I. eapply pstep_sound in I'; eauto. destruct I'; auto. }
  apply G; [apply incl_refl|exact HS].
Qed.
