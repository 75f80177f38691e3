(** SignalkProps2: theorems C54-C57 (conditions, fieldsets, paths, bookkeeping). *)
From Coq Require Import Sorting.Permutation.
From Verif Require Import GoBase BufFacts Strconv StrconvFacts CanModel NmeaTypes LookupTable PgnTable NmeaModel NmeaSpec
  NmeaExtract NmeaProps1 NmeaParse NmeaSingle NmeaProps2
  SignalkModel MapTable SignalkSpec SignalkTime SignalkText SignalkDelta SignalkSplit SignalkProps.
Open Scope Z_scope.
Open Scope list_scope.

(* ------------------------------------------------------------------ C54 *)

(** C54: a list of conditions matches iff every condition before the first unknown operator holds
    of the text of the field it names, compared as byte strings. *)
Theorem C54_conditions fmtv cs data : NoDup (map fst data) -> conds_match fmtv cs data = true <-> applies fmtv cs data.
Proof. apply conds_match_ok. Qed.
(** C54: with known operators only, every condition must hold. *)
Theorem C54_known fmtv cs data : NoDup (map fst data) -> (forall c, In c cs -> known_op c) ->
  (conds_match fmtv cs data = true <-> forall c v, In c cs -> field_value data (c_field c) v -> holds c (fmtv v)).
Proof.
  intros ND K. rewrite C54_conditions by exact ND. split.
  - intros (kn & rest & -> & R & F) c v I V. destruct R as [->|(x & r & -> & NK)].
    + rewrite app_nil_r in I. rewrite Forall_forall in F. destruct (F _ I) as [_ H]. auto.
    + elim NK. apply K. apply in_or_app. right. now left.
  - intros H. exists cs, []. split; [now rewrite app_nil_r|]. split; [now left|].
    apply Forall_forall. intros c I. split; [auto|]. intros v V. now apply H.
Qed.
(** C54: an unknown operator makes the rest be ignored. *)
Theorem C54_unknown_ignores_rest fmtv cs c rest data : ~ known_op c ->
  conds_match fmtv (cs ++ c :: rest) data = conds_match fmtv cs data.
Proof.
  intros NK. induction cs as [|x cs IH]; cbn [app conds_match].
  - assert (forall s, In s [str "eq"; str "lt"; str "gt"; str "le"; str "ge"] -> bytes_eqb (c_op c) s = false) as N.
    { intros s I. destruct (bytes_eqb (c_op c) s) eqn:E; [|reflexivity]. apply bytes_eqb_eq in E. elim NK. unfold known_op. now rewrite E. }
    rewrite !N by (cbn; tauto). reflexivity.
  - rewrite IH. reflexivity.
Qed.
(** C54: between numbers with equally many digits, text order is numeric order. *)
Lemma fold_split s a : fold_left (fun a c => 10 * a + (c - 48)) s a = a * 10 ^ Z.of_nat (List.length s) + fold_left (fun a c => 10 * a + (c - 48)) s 0.
Proof.
  revert a. induction s as [|c s IH]; intros a; cbn [fold_left List.length]; [cbn; lia|].
  rewrite IH, (IH (10 * 0 + (c - 48))). rewrite Nat2Z.inj_succ, Z.pow_succ_r by lia. lia.
Qed.
Lemma fold_bound s : Forall (fun c => 48 <= c <= 57) s -> 0 <= fold_left (fun a c => 10 * a + (c - 48)) s 0 < 10 ^ Z.of_nat (List.length s).
Proof.
  induction s as [|c s IH]; intros F; cbn [fold_left List.length]; [cbn; lia|].
  apply Forall_cons_iff in F as [Fc F]. specialize (IH F). rewrite fold_split. rewrite Nat2Z.inj_succ, Z.pow_succ_r by lia. nia.
Qed.
Theorem C54_same_width a b x y : decimal a x -> decimal b y -> List.length a = List.length b -> (text_lt a b <-> x < y).
Proof.
  intros (_ & Fa & ->) (_ & Fb & ->) L. rewrite <- bytes_ltb_lt. revert b Fb L. induction a as [|c a IH]; intros [|d b] Fb L; try discriminate L.
  - cbn. split; [discriminate|lia].
  - cbn [bytes_ltb fold_left]. apply Forall_cons_iff in Fa as [Fc Fa]. apply Forall_cons_iff in Fb as [Fd Fb].
    cbn [List.length] in L. assert (List.length a = List.length b) as L' by lia. specialize (IH Fa b Fb L').
    rewrite (fold_split a), (fold_split b). pose proof (fold_bound a Fa). pose proof (fold_bound b Fb). rewrite L' in *.
    assert (0 < 10 ^ Z.of_nat (List.length b)) by (apply Z.pow_pos_nonneg; lia).
    destruct (Z.ltb_spec c d); [cbn [orb]; split; [intros _; nia|reflexivity]|]. cbn [orb].
    destruct (Z.eqb_spec c d); cbn [andb]; [subst; rewrite IH; nia|]. split; [discriminate|nia].
Qed.
(** C54: between numbers of different width it is not: 10 counts as less than 9. *)
Theorem C54_numeric_order_refuted : exists data c,
  field_value data (c_field c) (VUint64 10) /\ c_op c = str "lt" /\ c_value c = itoa 9 /\ conds_match show [c] data = true.
Proof. exists [(1, VUint64 10)], (mkcond (str "lt") 1 (str "9")). split; [left; now left|]. repeat split; reflexivity. Qed.
Example C54_example :
  conds_match show [mkcond (str "eq") 3 (str "Apparent"); mkcond (str "ge") 1 (str "512")] (pm_data wind) = true /\
  conds_match show [mkcond (str "eq") 3 (str "True")] (pm_data wind) = false /\
  conds_match show [mkcond (str "ne") 1 (str "512"); mkcond (str "eq") 3 (str "True")] (pm_data wind) = true.
Proof. vm_compute. auto. Qed.

(* ------------------------------------------------------------------ C55 *)

(** C55: the text of a datetime fieldset (see [datetime_text]); "" when the fieldset is of
    another type or its fields are not times. *)
Theorem C55_text tz fs data : NoDup (map fst data) -> -86400 < tz < 86400 -> fieldset_text tz fs data (fst (fs_parse tz fs data)).
Proof. apply fs_parse_ok. Qed.

(** The instant (seconds since 1970-01-01T00:00:00Z) an RFC 3339 text denotes. *)
Definition denotes (t : bytes) (u : Z) : Prop :=
  exists n y m d s tz, calendar n y m d /\ 0 <= s < 86400 /\ -86400 < tz < 86400 /\ Z.rem tz 60 = 0 /\
    rfc3339_text y m d s tz t /\ u = 86400 * n + s - tz.
Lemma digits_app w x a s s' r r' : digits w x s -> digits w a s' -> s ++ r = s' ++ r' -> x = a /\ r = r'.
Proof.
  intros [L D] [L' D'] E. destruct (app_same_length _ _ _ _ E ltac:(congruence)) as [-> ->].
  destruct D as (_ & _ & ->). destruct D' as (_ & _ & ->). auto.
Qed.
(** A text denotes at most one instant. *)
Theorem denotes_fun t u u' : denotes t u -> denotes t u' -> u = u'.
Proof.
  intros (n & y & m & d & s & tz & C & S & T & R & (Y & M & D & h & mi & sc & z & DY & DM & DD & Dh & Dmi & Dsc & -> & Z) & ->)
         (n' & y' & m' & d' & s' & tz' & C' & S' & T' & R' & (Y' & M' & D' & h' & mi' & sc' & z' & DY' & DM' & DD' & Dh' & Dmi' & Dsc' & E & Z') & ->).
  destruct (digits_app _ _ _ _ _ _ _ DY DY' E) as (<- & E1). apply app_inv_head in E1.
  destruct (digits_app _ _ _ _ _ _ _ DM DM' E1) as (<- & E2). apply app_inv_head in E2.
  destruct (digits_app _ _ _ _ _ _ _ DD DD' E2) as (<- & E3). apply app_inv_head in E3.
  destruct (digits_app _ _ _ _ _ _ _ Dh Dh' E3) as (Eh & E4). apply app_inv_head in E4.
  destruct (digits_app _ _ _ _ _ _ _ Dmi Dmi' E4) as (Em & E5). apply app_inv_head in E5.
  destruct (digits_app _ _ _ _ _ _ _ Dsc Dsc' E5) as (Es & E6).
  assert (s = s') as <- by dm.
  assert (n = n') as <-.
  { apply calendar_civil in C as [C V]. apply calendar_civil in C' as [C' V'].
    pose proof (civil_valid n) as P. pose proof (civil_valid n') as P'. rewrite C in P. rewrite C' in P'. destruct P as [_ P]. destruct P' as [_ P']. lia. }
  assert (tz = tz') as <-; [|lia].
  destruct Z as [[-> ->]|(N & H & I & DH & DI & ->)]; destruct Z' as [[-> EZ]|(N' & H' & I' & DH' & DI' & EZ)].
  - reflexivity.
  - exfalso. rewrite EZ in E6. destruct (tz' <=? -60); discriminate.
  - exfalso. rewrite EZ in E6. destruct (tz <=? -60); discriminate.
  - rewrite EZ in E6. clear EZ E E1 E2 E3 E4 E5.
    assert ((tz <=? -60) = (tz' <=? -60)) as SG by (destruct (tz <=? -60), (tz' <=? -60); try reflexivity; discriminate E6).
    rewrite SG in E6. apply app_inv_head in E6. 
    destruct (digits_app _ _ _ _ _ _ _ DH DH' E6) as (EH & E7). apply app_inv_head in E7.
    rewrite <- (app_nil_r I), <- (app_nil_r I') in E7. destruct (digits_app _ _ _ _ _ _ _ DI DI' E7) as (EI & _).
    assert (Z.abs tz mod 60 = 0) by (rewrite <- Z.rem_mod_nonneg by lia; rewrite Z.rem_abs_l by lia; rewrite R; reflexivity).
    assert (Z.abs tz' mod 60 = 0) by (rewrite <- Z.rem_mod_nonneg by lia; rewrite Z.rem_abs_l by lia; rewrite R'; reflexivity).
    assert (Z.abs tz = Z.abs tz') by dm.
    destruct (Z.leb_spec tz (-60)); destruct (Z.leb_spec tz' (-60)); try discriminate; dm.
Qed.

(** C55: the date field decoded from day number D and the time field decoded from T seconds
    after midnight (in the local zone tz): the text denotes the message's instant exactly in the
    zone UTC.  East of UTC it is tz seconds early; west of UTC it shows the day before. *)
Theorem C55_instant tz fs data D T : NoDup (map fst data) -> -86400 < tz < 86400 -> Z.rem tz 60 = 0 ->
  0 <= D < 49711 -> 0 <= T < 31 * 86400 -> combines fs data (86400 * D) (T - tz) ->
  denotes (fst (fs_parse tz fs data)) (86400 * D + T + (if tz <? 0 then - 86400 - tz else - tz)).
Proof.
  intros ND HT HR HD HS C. pose proof (proj1 (C55_text tz fs data ND HT) _ _ C) as (y & m & d & CA & R); [change (10 ^ 10) with 10000000000; lia|lia|].
  replace (T - tz + tz) with T in * by lia.
  exists ((86400 * D + tz) / 86400 + T / 86400), y, m, d, (T mod 86400), tz.
  split; [exact CA|]. split; [apply Z.mod_pos_bound; lia|]. split; [exact HT|]. split; [exact HR|]. split; [exact R|].
  destruct (Z.ltb_spec tz 0); dm.
Qed.
Theorem C55_utc fs data D T : NoDup (map fst data) -> 0 <= D < 49711 -> 0 <= T < 31 * 86400 ->
  combines fs data (86400 * D) T -> denotes (fst (fs_parse 0 fs data)) (86400 * D + T).
Proof.
  intros ND HD HT C. replace T with (T - 0) in C by lia.
  pose proof (C55_instant 0 fs data D T ND ltac:(lia) eq_refl HD HT C) as H. cbn [Z.ltb Z.compare Z.opp] in H. now rewrite Z.add_0_r in H.
Qed.
Theorem C55_other_zones_refuted tz fs data D T : NoDup (map fst data) -> -86400 < tz < 86400 -> Z.rem tz 60 = 0 -> tz <> 0 ->
  0 <= D < 49711 -> 0 <= T < 31 * 86400 -> combines fs data (86400 * D) (T - tz) ->
  ~ denotes (fst (fs_parse tz fs data)) (86400 * D + T).
Proof.
  intros ND HT HR N HD HS C H. pose proof (denotes_fun _ _ _ H (C55_instant _ _ _ _ _ ND HT HR HD HS C)) as E.
  destruct (Z.ltb_spec tz 0); lia.
Qed.
(** 2020-01-01 01:02:03 UTC, decoded in three zones. *)
Definition clock_fs : fieldset := mkfs (str "datetime") [(str "date", 3); (str "time", 4)].
Definition clock_in (tz : Z) : dmap := [(3, VTime (86400 * 18262) 0); (4, VTime (3723 - tz) 0)].
Example C55_example :
  combines clock_fs (clock_in 7200) (86400 * 18262) (3723 - 7200) /\
  fst (fs_parse 0 clock_fs (clock_in 0)) = str "2020-01-01T01:02:03Z" /\
  fst (fs_parse 7200 clock_fs (clock_in 7200)) = str "2020-01-01T01:02:03+02:00" /\
  fst (fs_parse (-18000) clock_fs (clock_in (-18000))) = str "2019-12-31T01:02:03-05:00".
Proof.
  split; [|vm_compute; auto]. split; [reflexivity|]. exists 3, 4, 0, 0.
  split; [left; exists [], [(str "time", 4)]; split; [reflexivity|intros [H|[]]; discriminate]|].
  split; [left; exists [(str "date", 3)], []; split; [reflexivity|intros []]|].
  split; [left; left; reflexivity|left; right; left; reflexivity].
Qed.

Lemma present_all fs data : NoDup (map fst data) -> has_all fs data [] = true <-> all_present fs data.
Proof.
  intros ND. split; [now apply has_all_present|]. intros H. apply forallb_forall. intros [key k] I. cbn [snd b_get orb].
  destruct (H key k (dm_get data k) I (dm_get_value data k)) as [A B].
  destruct (dm_get data k) as [| | | | | | | |[|]| | |]; try reflexivity; congruence.
Qed.

Definition fieldset_values (tz : Z) (p : bytes) (fs : fieldset) (data : dmap) (out : list skvalue) : Prop :=
  exists t, fieldset_text tz fs data t /\
  ((p = [] \/ ~ all_present fs data) /\ out = [] \/
   p <> [] /\ all_present fs data /\ (exists ds ts, combines fs data ds ts) /\ out = [mkval p (VString t)] \/
   p <> [] /\ all_present fs data /\ (forall ds ts, ~ combines fs data ds ts) /\ t = [] /\ out = repeat (mkval p (VString [])) (List.length data)).

Lemma combines_dec fs data : NoDup (map fst data) -> (exists ds ts, combines fs data ds ts) \/ (forall ds ts, ~ combines fs data ds ts).
Proof.
  intros ND. destruct (bytes_eqb (fs_type fs) (str "datetime")) eqn:T.
  - apply bytes_eqb_eq in T.
    destruct (dm_get data (fs_key (fs_fields fs) (str "date") 0)) eqn:D;
      try (right; intros ds ts C; apply combines_get in C as (_ & [x C] & _); [congruence|exact ND]).
    destruct (dm_get data (fs_key (fs_fields fs) (str "time") 0)) eqn:E;
      try (right; intros ds ts C; apply combines_get in C as (_ & _ & [x C]); [congruence|exact ND]).
    left. exists sec, sec0. apply combines_get; eauto.
  - right. intros ds ts [C _]. apply bytes_eqb_eq in C. congruence.
Qed.

Lemma fs_iter_single e before path g after n : NoDup (map fst (pm_data (e_msg e))) -> -86400 < e_tz e < 86400 ->
  Forall (fun pg => fs_fields (g_fieldset (snd pg)) = []) before ->
  Forall (fun pg => fs_fields (g_fieldset (snd pg)) = []) after ->
  (In (str "date") (map fst (fs_fields (g_fieldset g))) \/ In (str "time") (map fst (fs_fields (g_fieldset g)))) ->
  n = List.length (pm_data (e_msg e)) -> n <> 0%nat ->
  fieldset_values (e_tz e) (dot path) (g_fieldset g) (pm_data (e_msg e))
    (k_vals (fs_iter e (before ++ (path, g) :: after) n (mkst [] []))).
Proof.
  intros ND HT B A KEY EN NZ. set (data := pm_data (e_msg e)) in *. set (fs := g_fieldset g) in *.
  exists (fst (fs_parse (e_tz e) fs data)). split; [now apply C55_text|].
  assert (forall s, fs_run e (before ++ (path, g) :: after) s = fstep e (path, g) s) as RUN by (intros; now apply fs_run_single).
  assert (exists x y, fs_fields fs = x :: y) as (x & y & EF).
  { destruct (fs_fields fs) eqn:E; [cbn in KEY; tauto|eauto]. }
  assert (forall s, fstep e (path, g) s = if has_all fs data (k_used s) then
      mkst (merge (k_used s) (snd (fs_parse (e_tz e) fs data))) (k_vals (push s (dot path) (VString (fst (fs_parse (e_tz e) fs data))))) else s) as STEP.
  { intros s. unfold fstep. fold fs data. rewrite EF. cbv zeta. rewrite push_used. reflexivity. }
  destruct (has_all fs data []) eqn:HA.
  2: { left. split; [right; rewrite <- present_all by exact ND; congruence|].
       assert (forall n, fs_iter e (before ++ (path, g) :: after) n (mkst [] []) = mkst [] []) as ->; [|reflexivity].
       induction n0 as [|k IH]; cbn [fs_iter]; [reflexivity|]. rewrite RUN, STEP. cbn [k_used]. now rewrite HA. }
  pose proof (proj1 (present_all fs data ND) HA) as PR.
  destruct (dot path) as [|c0 p0] eqn:EP.
  { left. split; [now left|].
    assert (forall n u, k_vals (fs_iter e (before ++ (path, g) :: after) n (mkst u [])) = []) as ->; [|reflexivity].
    induction n0 as [|k IH]; intros u; cbn [fs_iter]; [reflexivity|]. rewrite RUN, STEP. cbn [k_used].
    destruct (has_all fs data u); cbn [push k_vals]; apply IH. }
  destruct (combines_dec fs data ND) as [CO|NC].
  - right. left. split; [discriminate|]. split; [exact PR|]. split; [exact CO|].
    destruct n as [|n]; [congruence|]. cbn [fs_iter]. rewrite RUN, STEP. cbn [k_used push k_vals]. rewrite HA. cbn [app].
    assert (forall k u l, has_all fs data u = false -> fs_iter e (before ++ (path, g) :: after) k (mkst u l) = mkst u l) as STAY.
    { induction k as [|k IH]; intros u l N; cbn [fs_iter]; [reflexivity|]. rewrite RUN, STEP. cbn [k_used]. rewrite N. now apply IH. }
    rewrite STAY; [reflexivity|].
    destruct CO as (ds & ts & CO). apply combines_get in CO as (T & [dn DG] & [tn TG]); [|exact ND].
    assert (forall key, In key (map fst (fs_fields fs)) -> exists k', k' = fs_key (fs_fields fs) key 0 /\ In k' (map snd (fs_fields fs))) as KIN.
    { intros key I. exists (fs_key (fs_fields fs) key 0). split; [reflexivity|].
      pose proof (fs_key_ok fs key) as KO. set (kk := fs_key (fs_fields fs) key 0) in *. clearbody kk.
      destruct KO as [(pre & post & E & _)|[N _]]; [|contradiction].
      rewrite E, map_app. apply in_or_app. right. now left. }
    assert (exists key k', In (key, k') (fs_fields fs) /\ b_get (merge [] (snd (fs_parse (e_tz e) fs data))) k' = true) as (key & k' & I' & BG).
    { assert (forall k', (k' = fs_key (fs_fields fs) (str "date") 0 \/ k' = fs_key (fs_fields fs) (str "time") 0) ->
        b_get (merge [] (snd (fs_parse (e_tz e) fs data))) k' = true) as U.
      { intros k' K. rewrite merge_get by (constructor || apply fs_parse_nodup).
        assert (b_get (snd (fs_parse (e_tz e) fs data)) k' = true) as G.
        { unfold fs_parse. rewrite DG, TG. apply bytes_eqb_eq in T. rewrite T.
          destruct (civil ((ds + e_tz e) / 86400)) as [[? ?] ?]. destruct (civil ((ts + e_tz e) / 86400)) as [[? ?] ?].
          cbn [snd]. rewrite !b_put_get.
          destruct (Z.eqb_spec k' (fs_key (fs_fields fs) (str "time") 0)); [reflexivity|].
          destruct (Z.eqb_spec k' (fs_key (fs_fields fs) (str "date") 0)); [reflexivity|]. tauto. }
        rewrite G. destruct (has_key (snd (fs_parse (e_tz e) fs data)) k') eqn:HK; [reflexivity|].
        rewrite (b_get_absent _ _ HK) in G. discriminate. }
      destruct KEY as [K|K]; destruct (KIN _ K) as (k' & EK & IK); apply in_map_iff in IK as ([key k2] & E2 & I2);
        cbn [snd] in E2; subst k2; exists key, k'; (split; [exact I2|]); apply U; tauto. }
    unfold has_all. destruct (forallb _ _) eqn:F; [|reflexivity]. rewrite forallb_forall in F. specialize (F _ I'). cbn [snd] in F.
    rewrite BG in F. discriminate.
  - right. right. split; [discriminate|]. split; [exact PR|]. split; [exact NC|].
    assert (fs_parse (e_tz e) fs data = ([], [])) as FP.
    { unfold fs_parse. destruct (bytes_eqb (fs_type fs) (str "datetime")) eqn:T; [|reflexivity]. apply bytes_eqb_eq in T.
      destruct (dm_get data (fs_key (fs_fields fs) (str "date") 0)) eqn:DG; try reflexivity.
      destruct (dm_get data (fs_key (fs_fields fs) (str "time") 0)) eqn:TG; try reflexivity.
      elim (NC sec sec0). apply combines_get; eauto. }
    rewrite FP. cbn [fst]. split; [reflexivity|]. rewrite <- EN. clear EN NZ.
    assert (forall k l, k_vals (fs_iter e (before ++ (path, g) :: after) k (mkst [] l)) = l ++ repeat (mkval (c0 :: p0) (VString [])) k) as ->; [|reflexivity].
    induction k as [|k IH]; intros l; cbn [fs_iter repeat]; [now rewrite app_nil_r|]. rewrite RUN, STEP. cbn [k_used].
    rewrite HA, FP. cbn [fst snd push k_vals]. change (merge [] []) with (@nil (Z * bool)). rewrite IH, <- app_assoc. reflexivity.
Qed.

(** C55: what a fieldset adds to a delta, for a PGN with one fieldset (as in the shipped table)
    that names a date or a time: its text once when its fields are there and are times, nothing
    when one is missing -- and, when they are there but are not times (as after FromCanBoat),
    an empty text as many times as the message has fields. *)
Theorem C55_fieldset_once e m order d def before path g after p :
  NoDup (map fst (pm_data (e_msg e))) -> -86400 < e_tz e < 86400 -> Permutation order (pm_data (e_msg e)) ->
  zget (e_table e) (pm_index (e_msg e)) = Some def ->
  separate (p_rep def) (groups_for m (rm_pgn (pm_header (e_msg e)))) ->
  groups_for m (rm_pgn (pm_header (e_msg e))) = before ++ (path, g) :: after ->
  (forall path' g', In (path', g') (before ++ after) -> fs_fields (g_fieldset g') = []) ->
  (In (str "date") (map fst (fs_fields (g_fieldset g))) \/ In (str "time") (map fst (fs_fields (g_fieldset g)))) ->
  dotted path p -> sk_delta e m order = Ret d ->
  exists per out, Forall2 (fun kv out => contributes (e_fmt e) (pm_data (e_msg e)) (p_rep def)
                                       (groups_for m (rm_pgn (pm_header (e_msg e)))) (fst kv) (snd kv) out)
                      (pm_data (e_msg e)) per /\
    Permutation (flat_map u_values (d_updates d)) (List.concat per ++ out) /\
    fieldset_values (e_tz e) p (g_fieldset g) (pm_data (e_msg e)) out.
Proof.
  intros ND HT PM E SEP EG NF KEY DP H. destruct (delta_inv _ _ _ _ H) as [[NE A] [V D]].
  set (G := groups_for m (rm_pgn (pm_header (e_msg e)))) in *. change (groups_for m (pgn_of e)) with G in *.
  assert (rpt_of e = p_rep def) as RP by (unfold rpt_of; now rewrite E). rewrite <- RP in *.
  assert (NoDup (map fst order)) as NO by (eapply Permutation_NoDup; [apply Permutation_sym, Permutation_map, PM|exact ND]).
  pose proof (delta_split e G SEP order NO) as S.
  set (f := fun kv : Z * gval => plain_of e (fst kv) (snd kv) G) in *.
  exists (map f (pm_data (e_msg e))), (k_vals (fs_iter e G (List.length order) (mkst [] []))). split; [|split].
  - apply Forall2_map_self. intros kv _. now apply plain_ok.
  - rewrite D. cbn [d_updates flat_map u_values]. rewrite app_nil_r, <- flat_map_concat_map.
    eapply Permutation_trans; [exact S|]. apply Permutation_app_tail. now apply Permutation_flat_map.
  - assert (p = dot path) as ->.
    { apply to_dot_ok in DP. unfold to_dot in DP. destruct (zlen path <? 2); [discriminate|]. apply Ret_inj in DP. now rewrite <- DP. }
    rewrite EG. apply fs_iter_single; auto.
    + apply Forall_forall. intros [p' g'] I. apply (NF p'). apply in_or_app. now left.
    + apply Forall_forall. intros [p' g'] I. apply (NF p'). apply in_or_app. now right.
    + now apply Permutation_length.
    + destruct order; [congruence|discriminate].
Qed.

(** C55, end to end: a system time message (PGN 126992) of 8 bytes with a date and a time, decoded
    by ParsePacket and translated with the shipped tables, yields system.currentTime exactly once,
    with a text denoting the message's instant when the local zone is UTC. *)
Lemma single_126992 : single PgnList 126992 (index_of PgnList 126992) pgn_070.
Proof.
  split; [split; vm_compute; reflexivity|]. intros k p [E P].
  destruct (packet_start PgnList 126992 PgnList_nonempty) as (i & d0 & j & d1 & F1 & F2 & F3 & F4).
  assert (i = j) as <-.
  { assert (pgn_first PgnList 126992 = Ret (i, d0) -> pgn_last PgnList 126992 = Ret (j, d1) ->
      match pgn_first PgnList 126992, pgn_last PgnList 126992 with Ret (a, _), Ret (b, _) => (a =? b) = true | _, _ => False end) as Q
      by (intros _ _; vm_compute; reflexivity).
    specialize (Q F1 F2). rewrite F1, F2 in Q. now apply Z.eqb_eq. }
  unfold index_of. rewrite F1.
  destruct (C28_first _ _ _ _ F1) as [[G1 G2]|[G _]]; [|elim (G k p); now split].
  destruct (C28_last _ _ _ _ F2) as [[H1 H2]|[G _]]; [|elim (G k p); now split].
  specialize (G2 k p (conj E P)). specialize (H2 k p (conj E P)). lia.
Qed.
Lemma clock_fits k : (k < 5)%nat -> fits pgn_070 8 k.
Proof.
  intros H. unfold fits.
  do 5 (destruct k as [|k]; [eexists; split; [vm_compute; reflexivity|split; [intros C; exfalso; revert C; vm_compute; tauto|vm_compute; discriminate]]|]). lia.
Qed.
Lemma clock_decoded fuel pl m spare r : rm_pgn m = 126992 -> zlen (rm_data m) = 8 -> bytes_ok (rm_data m) ->
  parse_packet fuel pl PgnList m spare = Some (Ret r) ->
  let D := le_value (zsub (rm_data m) 2 4) in let T := le_value (zsub (rm_data m) 4 8) in
  D < 49711 -> T < 4294967295 ->
  In (3, VTime (86400 * D) 0) (pm_data r) /\ exists ns, In (4, VTime (T / 10000 - pl_tz pl) ns) (pm_data r).
Proof.
  intros HP HL HB H D T HD HT. pose proof single_126992 as S. rewrite <- HP in S.
  destruct (C41_fields _ _ _ _ _ _ _ _ PgnList_ok (or_introl S) H) as (_ & F & NF). rewrite HL in *.
  assert (5 <= List.length (pm_data r))%nat as L by (destruct (le_lt_dec 5 (List.length (pm_data r))); [assumption|elim NF; now apply clock_fits]).
  destruct (F 3%nat ltac:(lia)) as (_ & f & N & E). destruct (F 4%nat ltac:(lia)) as (_ & f' & N' & E').
  assert (f = mkfield "Date" 16 RES_DATE false (UStr "days") 0) as -> by (vm_compute in N; injection N as <-; reflexivity).
  assert (f' = mkfield "Time" 32 RES_TIME false (UStr "s") 0) as -> by (vm_compute in N'; injection N' as <-; reflexivity).
  unfold stored in E, E'. change (s_len (window (rm_data m) spare)) with (zlen (rm_data m)) in E, E'. rewrite HL in E, E'.
  change (start_of pgn_070 8 3) with 16 in E. change (start_of pgn_070 8 4) with 32 in E'.
  cbv zeta in E, E'. unfold extract_field in E, E'. cbn [f_res RES_DATE RES_TIME] in E, E'.
  change (width_in 8 (mkfield "Date" 16 RES_DATE false (UStr "days") 0)) with 16 in E.
  change (width_in 8 (mkfield "Time" 32 RES_TIME false (UStr "s") 0)) with 32 in E'.
  cbn [Z.eqb Pos.eqb orb] in E, E'.
  change (16 / 8 + (16 + 7) / 8) with (2 + 2) in E. change (16 / 8) with 2 in E.
  change (32 / 8 + (32 + 7) / 8) with (4 + 4) in E'. change (32 / 8) with 4 in E'.
  destruct (C34_dates (rm_data m) spare 2 HB ltac:(lia) ltac:(lia)) as (Q & _). change (2 + 2) with 4 in *. fold D in Q. rewrite (Q HD) in E.
  destruct (C35_times pl (rm_data m) spare 4 HB ltac:(lia) ltac:(lia)) as (Q' & _). change (4 + 4) with 8 in *. fold T in Q'.
  destruct (Q' HT) as (sec & ns & X & L1 & L2 & L3 & _). rewrite X in E'.
  assert (sec = T / 10000 - pl_tz pl) as ->.
  { clear - L1 L2 L3. cbv zeta in *. assert (sec + pl_tz pl = T / 10000); [|lia].
    revert L1 L2 L3. generalize (sec + pl_tz pl). intros a L1 L2 L3. clearbody T. dm. }
  apply nth_error_In in E, E'. split; [exact E|]. exists ns. exact E'.
Qed.
Theorem C55_system_time fuel pl fmtv m spare r order : rm_pgn m = 126992 -> zlen (rm_data m) = 8 -> bytes_ok (rm_data m) ->
  parse_packet fuel pl PgnList m spare = Some (Ret r) -> Permutation order (pm_data r) ->
  let D := le_value (zsub (rm_data m) 2 4) in let T := le_value (zsub (rm_data m) 4 8) in let tz := pl_tz pl in
  D < 49711 -> T < 4294967295 -> -86400 < tz < 86400 -> Z.rem tz 60 = 0 ->
  exists d t, sk_delta (mkenv tz fmtv PgnList r) MapXml order = Ret d /\
    denotes t (86400 * D + T / 10000 + (if tz <? 0 then - 86400 - tz else - tz)) /\
    forall v, In (mkval (str "system.currentTime") v) (flat_map u_values (d_updates d)) <-> v = VString t.
Proof.
  intros HP HL HB H PM D T tz HD HT HZ HR.
  destruct (clock_decoded _ _ _ _ _ HP HL HB H HD HT) as (I3 & ns & I4). fold D in I3. fold T in I4. fold tz in I4.
  destruct (C39_header_and_keys _ _ _ _ _ _ H) as [HH [n K]].
  assert (NoDup (map fst (pm_data r))) as ND by (rewrite K; apply FinFun.Injective_map_NoDup; [intros a b; lia|apply seq_NoDup]).
  set (e := mkenv tz fmtv PgnList r).
  assert (0 <= D) as D0.
  { pose proof (zsub_value (rm_data m) 2 4 HB ltac:(lia) ltac:(lia)). unfold D. lia. }
  assert (0 <= T) as T0.
  { pose proof (zsub_value (rm_data m) 4 8 HB ltac:(lia) ltac:(lia)). unfold T. lia. }
  assert (combines clock_fs (pm_data r) (86400 * D) (T / 10000 - tz)) as CO.
  { apply combines_get; [exact ND|]. split; [reflexivity|]. split.
    - exists 0. change (fs_key (fs_fields clock_fs) (str "date") 0) with 3. now apply dm_get_in.
    - exists ns. change (fs_key (fs_fields clock_fs) (str "time") 0) with 4. now apply dm_get_in. }
  assert (all_present clock_fs (pm_data r)) as AP.
  { intros key k v I V. destruct I as [I|[I|[]]]; injection I as <- <-.
    - rewrite (field_value_fun _ _ _ _ ND V (or_introl I3)). split; discriminate.
    - rewrite (field_value_fun _ _ _ _ ND V (or_introl I4)). split; discriminate. }
  pose proof (C55_instant tz clock_fs (pm_data r) D (T / 10000) ND HZ HR ltac:(lia) ltac:(split; dm) CO) as DN.
  set (t := fst (fs_parse tz clock_fs (pm_data r))) in *.
  assert (exists def, zget PgnList (pm_index r) = Some def) as [def E] by (eapply decoded_index; eauto using PgnList_nonempty, PgnList_ok).
  assert (rpt_of e = p_rep def) as RP by (unfold rpt_of, e; cbn [e_table e_msg]; now rewrite E).
  assert (pgn_of e = 126992) as PG by (unfold pgn_of, e; cbn [e_msg]; now rewrite HH).
  assert (separate (rpt_of e) (groups_for MapXml (pgn_of e))) as SEP by apply C53_shipped_separate.
  assert (NoDup (map fst order)) as NO by (eapply Permutation_NoDup; [apply Permutation_sym, Permutation_map, PM|exact ND]).
  assert (order <> []) as NE by (intros ->; apply Permutation_nil in PM; rewrite PM in I3; destruct I3).
  assert (all_ok e (groups_for MapXml (pgn_of e)) = true) as OK.
  { destruct (all_ok e (groups_for MapXml (pgn_of e))) eqn:X; [reflexivity|]. exfalso.
    apply all_ok_trouble in X.
    assert (exists w, sk_delta e MapXml order = Panic w) as [w W] by (apply C51_panics_iff; split; [exact NE|exact X]).
    revert W. apply C51_shipped_never_panics. left. eauto. }
  pose proof (delta_split e _ SEP order NO) as S.
  pose proof groups_126992 as GG. rewrite PG in *. rewrite GG in S, OK.
  set (g1 := mkgroup 126992 (mkfs [] []) (str "1") (mkidf [] []) (mkidf [] []) []) in *.
  set (g2 := mkgroup 126992 (mkfs (str "datetime") [(str "date", 3); (str "time", 4)]) [] (mkidf [] []) (mkidf [] []) []) in *.
  assert (k_vals (fs_iter e [(str "~/system/currentTimeSource", g1); (str "~/system/currentTime", g2)] (List.length order) (mkst [] [])) =
          [mkval (str "system.currentTime") (VString t)]) as FI.
  { pose proof (fs_iter_single e [(str "~/system/currentTimeSource", g1)] (str "~/system/currentTime") g2 [] (List.length order) ND HZ) as Q.
    destruct Q as (t' & TT & Q).
    - repeat constructor.
    - constructor.
    - left. left. reflexivity.
    - now apply Permutation_length.
    - destruct order; [congruence|discriminate].
    - change (g_fieldset g2) with clock_fs in *. change (pm_data (e_msg e)) with (pm_data r) in *.
      destruct Q as [([Q|Q] & _)|[(_ & _ & _ & Q)|(_ & _ & Q & _)]].
      + discriminate Q.
      + contradiction.
      + assert (t' = t) as ->; [|exact Q].
        pose proof (proj1 TT _ _ CO) as X1. pose proof (proj1 (C55_text tz clock_fs (pm_data r) ND HZ) _ _ CO) as X2.
        change (e_tz e) with tz in X1. change (10 ^ 10) with 10000000000 in *. 
        assert (0 <= T / 10000 - tz + tz < 31 * 86400) as B1 by (split; dm).
        specialize (X1 ltac:(lia) B1). specialize (X2 ltac:(lia) B1). fold t in X2.
        clear - X1 X2. destruct X1 as (y & mo & d & C & R). destruct X2 as (y' & mo' & d' & C' & R').
        pose proof (calendar_unique _ _ _ _ _ _ _ C C') as U. injection U as <- <- <-.
        destruct R as (Y & M & Dd & h & mi & sc & z & DY & DM & DD & Dh & Dmi & Dsc & -> & Z).
        destruct R' as (Y' & M' & Dd' & h' & mi' & sc' & z' & DY' & DM' & DD' & Dh' & Dmi' & Dsc' & -> & Z').
        assert (forall w x a b, digits w x a -> digits w x b -> a = b) as DU.
        { clear. intros w x a b [L1 D1] [L2 D2]. rewrite <- L2 in L1. clear L2. destruct D1 as (_ & F1 & E1). destruct D2 as (_ & F2 & E2).
          subst x. revert b L1 F2 E2. induction a as [|c a IH]; intros [|c' b] L F2 E; try discriminate L; [reflexivity|].
          apply Forall_cons_iff in F1 as [Fc F1]. apply Forall_cons_iff in F2 as [Fd F2]. cbn [List.length] in L.
          cbn [fold_left] in E. rewrite (fold_split a), (fold_split b) in E. pose proof (fold_bound a F1). pose proof (fold_bound b F2).
          assert (List.length a = List.length b) as L' by lia. rewrite L' in *.
          assert (c = c') as -> by nia. f_equal. apply (IH F1 b eq_refl F2). lia. }
        rewrite (DU _ _ _ _ DY DY'), (DU _ _ _ _ DM DM'), (DU _ _ _ _ DD DD'), (DU _ _ _ _ Dh Dh'), (DU _ _ _ _ Dmi Dmi'), (DU _ _ _ _ Dsc Dsc').
        destruct Z as [[Z1 ->]|(Z1 & H1 & I1 & DH & DI & ->)]; destruct Z' as [[Z2 ->]|(Z2 & H2 & I2 & DH' & DI' & ->)]; try contradiction; [reflexivity|].
        rewrite (DU _ _ _ _ DH DH'), (DU _ _ _ _ DI DI'). reflexivity.
      + elim (Q _ _ CO). }
  rewrite FI in S.
  assert (forall kv v, ~ In (mkval (str "system.currentTime") v) (plain_of e (fst kv) (snd kv) [(str "~/system/currentTimeSource", g1); (str "~/system/currentTime", g2)])) as NP.
  { intros [fid fv] v. cbn [fst snd plain_of]. destruct (claimb e fid g1).
    - assert (pathb e (rpt_of e) fid (str "~/system/currentTimeSource") g1 = str "system.currentTimeSource") as -> by reflexivity.
      unfold push. cbn. destruct fv; cbn; intros C; try (destruct C as [C|[]]; discriminate C); exact C.
    - assert (claimb e fid g2 = false) as ->; [|intros []]. reflexivity. }
  set (vs := k_vals (ploop e [(str "~/system/currentTimeSource", g1); (str "~/system/currentTime", g2)] order (mkst [] []))) in *.
  assert (vs <> []) as VN by (intros X; rewrite X in S; apply Permutation_nil in S; destruct (flat_map _ order); discriminate).
  unfold sk_delta. rewrite (proj1 (sk_loop_pure e MapXml order)) by (rewrite PG, GG; now left).
  rewrite PG, GG. cbn [bind]. fold vs. destruct vs as [|x l] eqn:EV; [congruence|].
  eexists. exists t. split; [reflexivity|]. split; [exact DN|].
  intros v. cbn [d_updates flat_map u_values]. rewrite app_nil_r. split.
  - intros I. apply (Permutation_in _ S), in_app_or in I as [I|I].
    + apply in_flat_map in I as (kv & _ & I). elim (NP kv v I).
    + destruct I as [I|[]]. now injection I.
  - intros ->. eapply Permutation_in; [apply Permutation_sym, S|]. apply in_or_app. right. now left.
Qed.
(** Its hypotheses are met, and after CanBoat import the same PGN gives empty texts, one per
    field. *)
Example C55_system_time_example :
  match parse_packet 100 pl0 PgnList (msg 126992 [0; 240; 0x56; 0x47; 0xb0; 0x15; 0x38; 0x02]) [] with
  | Some (Ret r) => values_of (sk_delta (mkenv 0 show PgnList r) MapXml (pm_data r))
  | _ => []
  end = [mkval (str "system.currentTime") (VString (str "2020-01-01T01:02:03Z")); mkval (str "system.currentTimeSource") (VString (str "GPS"))].
Proof. vm_compute. reflexivity. Qed.
Theorem C55_canboat_refuted : exists c r,
  from_canboat PgnList c = Ret r /\
  values_of (sk_delta (mkenv 0 show PgnList r) MapXml (pm_data r)) =
    [mkval (str "system.currentTime") (VString []); mkval (str "system.currentTime") (VString [])].
Proof.
  exists (mkcb 3 1 255 126992 [(str "Date", VString (str "2020.01.01")); (str "Time", VString (str "01:02:03"))]).
  eexists. split; [vm_compute; reflexivity|]. vm_compute. reflexivity.
Qed.

(* ------------------------------------------------------------------ C56 *)

(** C56: a path loses its first two bytes and has "." for "/"; a shorter path crashes. *)
Theorem C56_path s p : (to_dot s = Ret p <-> dotted s p) /\ ((exists w, to_dot s = Panic w) <-> (List.length s < 2)%nat).
Proof. split; [apply to_dot_ok|apply to_dot_panics]. Qed.
(** C56: a placeholder is replaced once, at its first occurrence. *)
Theorem C56_placeholder s old new t : old <> [] -> (replace_first s old new = t <-> replaced_once old new s t).
Proof.
  intros N. pose proof (replace_first_ok s old new N) as H. split; [intros <-; exact H|]. intros H'. eapply replaced_fun; eauto.
Qed.
(** C56: the multiplier field used for a field of the group is the one of the same repetition:
    field [fld] of the first repetition, seen k repetitions later, gets field [mlt] k repetitions
    later. *)
Theorem C56_same_repetition rpt mlt fld k : 0 < rpt -> mlt <= fld < mlt + rpt -> 0 <= k ->
  mlt + rpt * Z.quot (fld + k * rpt - mlt) rpt = mlt + k * rpt.
Proof.
  intros R F K. rewrite Z.quot_div_nonneg by nia. assert ((fld + k * rpt - mlt) / rpt = k) as ->; [|lia].
  symmetry. apply Z.div_unique with (fld - mlt); [left|]; nia.
Qed.
(** C56: which fields such a group names: every repetition's, if the field's number is below the
    size of the repeating group; otherwise only the first one's. *)
Theorem C56_repetitions rpt g fld fid : 0 < rpt -> 0 <= fid -> int_text (g_field g) fld -> fld < 2 ^ 63 ->
  in_force (g_mult g) -> 0 <= parse_int_value 32 (i_field (g_mult g)) < fld ->
  (names_field rpt g fid <-> fid = fld \/ (fld < rpt /\ exists k, 0 <= k /\ fid = fld + k * rpt)).
Proof.
  intros R F I B IF M. split.
  - intros (fld' & I' & B' & H). rewrite (int_text_fun _ _ _ I' I) in *. destruct H as [->|(mlt & _ & -> & _ & E)]; [now left|].
    right. rewrite Z.rem_mod_nonneg in E by lia. split; [pose proof (Z.mod_pos_bound fid rpt R); lia|].
    exists (fid / rpt). split; [apply Z.div_pos; lia|]. pose proof (Z.div_mod fid rpt). lia.
  - intros H. exists fld. split; [exact I|]. split; [change (2 ^ 63) with 9223372036854775808 in *; lia|].
    destruct H as [->|(L & k & K & ->)]; [now left|]. right. exists (parse_int_value 32 (i_field (g_mult g))).
    split; [exact IF|]. split; [reflexivity|]. split; [exact M|].
    rewrite Z.rem_mod_nonneg by nia. symmetry. rewrite Z.mod_add by lia. apply Z.mod_small. lia.
Qed.
(** So repetitions after the first are lost when the group starts late: with three fields before
    a group of two, no field but field 4 itself is named. *)
Theorem C56_late_group_refuted : exists rpt g, forall fid, 0 <= fid -> names_field rpt g fid -> fid = 4.
Proof.
  exists 2, (mkgroup 1 (mkfs [] []) (str "4") (mkidf (str "i") (str "3")) (mkidf [] []) []). intros fid F H.
  apply (C56_repetitions 2 _ 4) in H.
  - destruct H as [H|[H _]]; [exact H|lia].
  - lia.
  - exact F.
  - left. cbn. split; [discriminate|]. split; [constructor; [lia|constructor]|reflexivity].
  - lia.
  - split; discriminate.
  - vm_compute. split; [discriminate|reflexivity].
Qed.
Example C56_example : to_dot (str "~/electric/ac/{instance}") = Ret (str "electric.ac.{instance}") /\
  replace_first (str "electric.ac.{instance}") (str "{instance}") (str "4") = str "electric.ac.4" /\
  2 + 10 * Z.quot (13 - 2) 10 = 12.
Proof. vm_compute. auto. Qed.

(* ------------------------------------------------------------------ C57 *)

(** A map with distinct keys: what it holds for k. *)
Definition entry (m : bmap) (k : Z) (v : bool) : Prop := In (k, v) m.
(** C57: merge holds the right map's entries and those of the left map whose key the right map
    has not. *)
Lemma b_get_entry m k v : NoDup (map fst m) -> In (k, v) m -> b_get m k = v.
Proof.
  induction m as [|[a x] m IH]; intros N I; [destruct I|]. cbn [map fst] in N. apply NoDup_cons_iff in N as [N1 N2]. cbn [b_get].
  destruct I as [I|I]; [injection I as -> ->; now rewrite Z.eqb_refl|].
  destruct (Z.eqb_spec a k) as [->|]; [|auto]. elim N1. apply in_map_iff. now exists (k, v).
Qed.
Lemma fold_put_keys r : forall l k, In k (map fst (fold_left (fun ret kv => b_put ret (fst kv) (snd kv)) r l)) <-> In k (map fst l) \/ In k (map fst r).
Proof.
  induction r as [|[a v] r IH]; intros l k; cbn [fold_left map fst snd]; [cbn; tauto|]. rewrite IH, b_put_keys. cbn [In]. intuition congruence.
Qed.
Lemma get_In m k : In k (map fst m) -> NoDup (map fst m) -> In (k, b_get m k) m.
Proof.
  intros I N. apply in_map_iff in I as ([a v] & E & I). cbn [fst] in E. subst a. now rewrite (b_get_entry _ _ _ N I).
Qed.
Theorem C57_merge l r : NoDup (map fst l) -> NoDup (map fst r) ->
  NoDup (map fst (merge l r)) /\
  forall k v, entry (merge l r) k v <-> entry r k v \/ (entry l k v /\ ~ In k (map fst r)).
Proof.
  intros NL NR. pose proof (merge_nodup l r) as NM. split; [exact NM|]. unfold entry.
  assert (forall k, In k (map fst (merge l r)) <-> In k (map fst l) \/ In k (map fst r)) as KS.
  { intros k. unfold merge. rewrite !fold_put_keys. cbn. tauto. }
  intros k v. split.
  - intros I. pose proof (b_get_entry _ _ _ NM I) as G. rewrite merge_get in G by assumption.
    assert (In k (map fst (merge l r))) as IK by (apply in_map_iff; now exists (k, v)).
    destruct (has_key r k) eqn:HK.
    + left. rewrite <- G. apply get_In; [now apply has_key_In|exact NR].
    + right. assert (~ In k (map fst r)) as NK by (rewrite <- has_key_In, HK; discriminate). split; [|exact NK].
      rewrite <- G. apply KS in IK as [IK|IK]; [|contradiction]. now apply get_In.
  - intros H. assert (In k (map fst (merge l r)) /\ b_get (merge l r) k = v) as [IK G].
    { rewrite KS, merge_get by assumption. destruct H as [H|[H NK]].
      - assert (In k (map fst r)) as IK by (apply in_map_iff; now exists (k, v)). split; [now right|].
        pose proof (proj2 (has_key_In r k) IK) as ->. now apply b_get_entry.
      - assert (In k (map fst l)) as IK by (apply in_map_iff; now exists (k, v)). split; [now left|].
        destruct (has_key r k) eqn:HK; [apply has_key_In in HK; contradiction|]. now apply b_get_entry. }
    rewrite <- G. now apply get_In.
Qed.
(** C57: hasAll holds iff every field of the fieldset is there, neither nil nor "", and none is
    marked used. *)
Theorem C57_has_all fs data used : NoDup (map fst data) -> NoDup (map fst used) ->
  (has_all fs data used = true <-> all_present fs data /\ forall key k, In (key, k) (fs_fields fs) -> ~ entry used k true).
Proof.
  intros ND NU. split.
  - intros H. split; [eapply has_all_present; eauto|]. intros key k I E. unfold has_all in H. rewrite forallb_forall in H.
    specialize (H _ I). cbn [snd] in H. rewrite (b_get_entry _ _ _ NU E) in H. discriminate.
  - intros [A U]. apply forallb_forall. intros [key k] I. cbn [snd].
    destruct (A key k (dm_get data k) I (dm_get_value data k)) as [B C].
    assert (b_get used k = false) as ->.
    { destruct (b_get used k) eqn:G; [|reflexivity]. elim (U key k I). unfold entry. rewrite <- G. apply get_In; [|exact NU].
      destruct (has_key used k) eqn:HK; [now apply has_key_In|]. rewrite (b_get_absent _ _ HK) in G. discriminate. }
    destruct (dm_get data k) as [| | | | | | | |[|]| | |]; try reflexivity; congruence.
Qed.
Example C57_example : merge [(1, true); (2, true)] [(2, false); (5, true)] = [(1, true); (2, false); (5, true)] /\
  has_all clock_fs (clock_in 0) [(2, true)] = true /\ has_all clock_fs (clock_in 0) [(3, true)] = false.
Proof. vm_compute. auto. Qed.

(** C54, a consequence: the two shipped mappings for PGN 130820 never fire on a message decoded by
    ParsePacket.  They compare field 0 with "419" and "1855", but that field is a manufacturer
    code, which ParsePacket replaces by the company's name ("Fusion", "Furuno USA").  So Delta
    fails on every decoded message of that PGN. *)
Definition maker (v : gval) : Prop := v = VNil \/ exists x, v = name_or x (lk_name lookupCompanyCode (i64 x)).
Lemma maker_step pl d s f x : f_res f = RES_MANUFACTURER -> extract_at pl d s f = Ret x -> maker x.
Proof.
  intros R E. unfold extract_at, extract_field in E. rewrite R in E. cbn [RES_MANUFACTURER Z.eqb Pos.eqb orb] in E.
  unfold extract_manufacturer in E. destruct (extract_number _ _ _ _ _ _) as [[]| |]; try discriminate.
  apply Ret_inj in E. subst x. right. eauto.
Qed.
Definition first_maker (t : list pgn_def) (i : Z) : Prop :=
  exists def f, zget t i = Some def /\ zget (p_fields def) 0 = Some f /\ f_res f = RES_MANUFACTURER.
Lemma decoded_maker fuel pl m spare r i def : pgn_first PgnList (rm_pgn m) = Ret (i, def) -> first_maker PgnList i ->
  parse_packet fuel pl PgnList m spare = Some (Ret r) -> maker (dm_get (pm_data r) 0).
Proof.
  intros F1 (def0 & f0 & G1 & G2 & G3) H.
  destruct (packet_start PgnList (rm_pgn m) PgnList_nonempty) as (i' & d0 & j & d1 & F1' & F2 & F3 & F4).
  rewrite F1 in F1'. apply Ret_inj in F1'. injection F1' as <- <-. rewrite F3 in G1. injection G1 as <-.
  rewrite (packet_unfold _ _ _ _ _ _ _ _ _ F1 F2) in H.
  destruct (parse_loop _ _ _ _ _ _ _) as [[s| |]|] eqn:E; try discriminate. injection H as <-. cbn [pm_data].
  set (init := mkps i def 0 0 0 0 i []) in *.
  set (P := fun s => keys_inv s /\ (s = init \/ exists v rest, ps_data s = (0, v) :: rest /\ maker v)).
  assert (P s) as [_ Q].
  { refine (proj1 (loop_inv P pl PgnList _ j _ _ fuel _ _ _ E)).
    - intros s0 s1 [K A] S. destruct (keys_step _ _ _ _ _ _ _ K S) as [K1 [v0 ED]]. split; [exact K1|]. right.
      destruct A as [->|(v & rest & ED0 & M)].
      + apply step_next in S as (f & v & i2 & def2 & ix & Hf & _ & _ & -> & V). cbn [ps_def ps_idx init] in Hf. rewrite G2 in Hf. injection Hf as <-.
        cbn [advance mid ps_data ps_odx init dm_put]. exists v, []. split; [reflexivity|].
        destruct (extract_at _ _ _ _) as [x|e|p] eqn:EX; [|destruct V as [-> _]; now left|destruct V].
        destruct V as [-> _]. eapply maker_step; eauto.
      + exists v, (rest ++ [(ps_odx s0, v0)]). rewrite ED, ED0. split; [reflexivity|exact M].
    - split; [|now left]. exists 0%nat. split; reflexivity. }
  destruct Q as [->|(v & rest & -> & M)]; [now left|]. cbn. exact M.
Qed.
Lemma lk_name_names l k : lk_name l k = EmptyString \/ In (lk_name l k) (map snd l).
Proof.
  induction l as [|[a s] l IH]; [now left|]. cbn [lk_name map snd In]. destruct (a =? k); [right; now left|]. destruct IH; auto.
Qed.
Lemma i64_small n : 0 <= n < 2 ^ 62 -> i64 n = n.
Proof.
  intros H. unfold i64, sx. cbv zeta. change (64 - 1) with 63. change (2 ^ 62) with 4611686018427387904 in H.
  change (2 ^ 64) with 18446744073709551616. change (2 ^ 63) with 9223372036854775808. rewrite Z.mod_small by lia.
  destruct (Z.ltb_spec n 9223372036854775808); lia.
Qed.
Lemma maker_never v n : maker v -> lk_name lookupCompanyCode n <> EmptyString -> 0 <= n < 2 ^ 62 ->
  forallb (fun s => negb (bytes_eqb (str s) (itoa n))) (map snd lookupCompanyCode) = true -> itoa n <> str "<nil>" ->
  forall fmtv, (forall s, fmtv (VString s) = s) -> (forall k, fmtv (VUint64 k) = itoa k) -> fmtv VNil = str "<nil>" -> fmtv v <> itoa n.
Proof.
  intros M NM HN FA NN fmtv F1 F2 F3 E. destruct M as [->|(x & ->)]; [congruence|]. unfold name_or in E.
  destruct (lk_name_names lookupCompanyCode (i64 x)) as [L|L].
  - rewrite L in E. rewrite F2 in E. apply itoa_inj_all in E. subst x.
    assert (i64 n = n) as I by (apply i64_small; exact HN).
    congruence.
  - rewrite forallb_forall in FA. specialize (FA _ L).
    destruct (lk_name lookupCompanyCode (i64 x)) as [|c s] eqn:EL.
    + rewrite F2 in E. apply itoa_inj_all in E. subst x.
      assert (i64 n = n) as I by (apply i64_small; exact HN).
      congruence.
    + rewrite F1 in E. rewrite E in FA. rewrite (proj2 (bytes_eqb_eq (itoa n) (itoa n)) eq_refl) in FA. discriminate.
Qed.
Theorem C54_130820_never_maps_refuted fuel pl tz fmtv m spare r order d :
  (forall s, fmtv (VString s) = s) -> (forall k, fmtv (VUint64 k) = itoa k) -> fmtv VNil = str "<nil>" ->
  rm_pgn m = 130820 -> parse_packet fuel pl PgnList m spare = Some (Ret r) -> Permutation order (pm_data r) ->
  -86400 < tz < 86400 -> sk_delta (mkenv tz fmtv PgnList r) MapXml order <> Ret d.
Proof.
  intros F1 F2 F3 HP H PM HZ D.
  destruct (C39_header_and_keys _ _ _ _ _ _ H) as [HH [n K]].
  assert (NoDup (map fst (pm_data r))) as ND by (rewrite K; apply FinFun.Injective_map_NoDup; [intros a b; lia|apply seq_NoDup]).
  destruct (C49_sound (mkenv tz fmtv PgnList r) MapXml order d HZ ND PM D) as (def & vs & _ & _ & NE & J).
  cbn [e_msg e_fmt e_tz] in J. destruct vs as [|x vs]; [congruence|]. specialize (J x (or_introl eq_refl)).
  destruct J as (path & g & G & _ & J). rewrite HH, HP in G.
  assert (maker (dm_get (pm_data r) 0)) as MK.
  { destruct (packet_start PgnList (rm_pgn m) PgnList_nonempty) as (i & d0 & j & d1 & E1 & _ & E3 & _).
    refine (decoded_maker _ _ _ _ _ _ _ E1 _ H). exists d0.
    assert (pgn_first PgnList 130820 = Ret (202, pgn_202)) as Q by (vm_compute; reflexivity).
    rewrite HP, Q in E1. apply Ret_inj in E1. injection E1 as <- <-. eexists. split; [exact E3|]. split; reflexivity. }
  apply groups_for_In in G.
  assert (groups_for MapXml 130820 =
    [(m_path map_38, hd (mkgroup 0 (mkfs [] []) [] (mkidf [] []) (mkidf [] []) []) (m_groups map_38));
     (m_path map_39, hd (mkgroup 0 (mkfs [] []) [] (mkidf [] []) (mkidf [] []) []) (m_groups map_39))]) as GG by (vm_compute; reflexivity).
  rewrite GG in G. clear GG.
  assert (forall c rest, g_conds g = c :: rest -> c_op c = str "eq" -> c_field c = 0 -> forall k, c_value c = itoa k ->
    fmtv (dm_get (pm_data r) 0) = itoa k \/ fs_fields (g_fieldset g) <> []) as N.
  { intros c rest EC OP FL k VL. destruct J as [(fid & [_ A] & _)|(t & A & _)]; [left|now right].
    apply C54_conditions in A; [|exact ND]. rewrite EC in A. cbn [conds_match] in A. rewrite OP, FL, VL in A.
    change (bytes_eqb (str "eq") (str "eq")) with true in A. cbv iota in A.
    destruct (bytes_eqb (fmtv (dm_get (pm_data r) 0)) (itoa k)) eqn:E; [now apply bytes_eqb_eq|discriminate]. }
  destruct G as [G|[G|[]]]; injection G as <- <-.
  - destruct (N _ _ eq_refl eq_refl eq_refl 419 eq_refl) as [E|E]; [|now elim E].
    revert E. apply maker_never; auto; try (vm_compute; reflexivity); try (vm_compute; discriminate).
    vm_compute. split; [discriminate|reflexivity].
  - destruct (N _ _ eq_refl eq_refl eq_refl 1855 eq_refl) as [E|E]; [|now elim E].
    revert E. apply maker_never; auto; try (vm_compute; reflexivity); try (vm_compute; discriminate).
    vm_compute. split; [discriminate|reflexivity].
Qed.
(** A Fusion track message decodes, and maps to nothing. *)
Example C54_130820_example :
  match parse_packet 100 pl0 PgnList (msg 130820 [0xa3; 0x99; 5; 4; 0; 0; 0; 0; 0; 0; 0; 0]) [] with
  | Some (Ret r) => dm_get (pm_data r) 0 = VString (str "Fusion") /\ sk_delta (mkenv 0 show PgnList r) MapXml (pm_data r) = Err "unknown PGN"
  | _ => False
  end.
Proof. vm_compute. auto. Qed.
