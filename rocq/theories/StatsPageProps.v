(** StatsPageProps: the table of statistics shows what has been received (C109). *)
From Coq Require Import ZArith Lia ZifyBool List Sorting.Sorted Permutation.
From Verif Require Import GoBase BufFacts Strconv StrconvFacts CanModel NmeaTypes NmeaModel SignalkModel SignalkSpec MainModel MainSpec MainProps HubModel HubSpec HubProps
  PipelineModel PipelineSpec PipelineProofs PipelineProps JsonSpec JsonFacts JsonUnique JsonProps CanusbModel PgnTable MapTable JsonModel UnjsonModel UnjsonProps2 PipelineExamples WireSpec WireProps SignalkProps EndToEnd HtmlModel HtmlSpec HtmlProps AppsProps StatsPageModel StatsPageSpec.
Open Scope Z_scope.
Open Scope list_scope.

(* ------------------------------------------------------------------ setting members *)

Definition bytes_eq_dec : forall a b : bytes, {a = b} + {a <> b} := list_eq_dec Z.eq_dec.
Definition lacks (l : list bytes) (k : bytes) : bool := negb (existsb (bytes_eqb k) l).
Lemma lacks_iff l k : lacks l k = true <-> ~ In k l.
Proof.
  unfold lacks. rewrite negb_true_iff. split.
  - intros H I. assert (existsb (bytes_eqb k) l = true) as X by (apply existsb_exists; exists k; split; [exact I|now apply bytes_eqb_eq]). congruence.
  - intros N. destruct (existsb (bytes_eqb k) l) eqn:E; [|reflexivity]. apply existsb_exists in E as (x & I & Q). apply bytes_eqb_eq in Q. subst x. contradiction.
Qed.
Section Put.
Context {V : Type}.
Lemma put_keys k (v : V) l : map fst (put k v l) = map fst l ++ (if lacks (map fst l) k then [k] else []).
Proof.
  induction l as [|[k' v'] l IH]; cbn [put map fst]; [reflexivity|]. unfold lacks in *. cbn [existsb].
  destruct (bytes_eqb k' k) eqn:E.
  - apply bytes_eqb_eq in E. subst k'. cbn [map fst]. rewrite (proj2 (bytes_eqb_eq k k) eq_refl). cbn [orb negb]. now rewrite app_nil_r.
  - assert (bytes_eqb k k' = false) as E' by (destruct (bytes_eqb k k') eqn:Q; [apply bytes_eqb_eq in Q; subst k'; rewrite (proj2 (bytes_eqb_eq k k) eq_refl) in E; discriminate|reflexivity]).
    rewrite E'. cbn [map fst orb]. rewrite IH. reflexivity.
Qed.
Lemma put_in k (v : V) l : NoDup (map fst l) -> forall k' v', In (k', v') (put k v l) <-> (k' = k /\ v' = v) \/ (k' <> k /\ In (k', v') l).
Proof.
  induction l as [|[k0 v0] l IH]; intros ND k' v'; cbn [put].
  - split; [intros [E|[]]; injection E as <- <-; auto|]. intros [[-> ->]|[_ []]]. now left.
  - cbn [map fst] in ND. inversion ND as [|? ? NI ND']; subst. destruct (bytes_eqb k0 k) eqn:E.
    + apply bytes_eqb_eq in E. subst k0. cbn [In]. split.
      * intros [E|I]; [injection E as <- <-; auto|]. right. split; [|auto]. intros ->. apply NI. change k with (fst (k, v')). now apply in_map.
      * intros [[-> ->]|[NE [E|I]]]; [auto|injection E as <- <-; contradiction|auto].
    + assert (k0 <> k) as NE by (intros ->; rewrite (proj2 (bytes_eqb_eq k k) eq_refl) in E; discriminate).
      cbn [In]. rewrite (IH ND'). split.
      * intros [E0|[[-> ->]|[N I]]]; [injection E0 as <- <-; auto|auto|auto].
      * intros [[-> ->]|[N [E0|I]]]; auto.
Qed.
Lemma put_nodup k (v : V) l : NoDup (map fst l) -> NoDup (map fst (put k v l)).
Proof.
  intros ND. rewrite put_keys. destruct (lacks (map fst l) k) eqn:I; [|now rewrite app_nil_r]. apply lacks_iff in I.
  apply (Permutation_NoDup (l := k :: map fst l)); [|now constructor]. apply Permutation_cons_append.
Qed.
Definition put_all (es rows : list (bytes * V)) : list (bytes * V) := fold_left (fun l kv => put (fst kv) (snd kv) l) es rows.
Lemma put_all_spec es : forall rows, NoDup (map fst es) -> NoDup (map fst rows) ->
  NoDup (map fst (put_all es rows)) /\ map fst (put_all es rows) = map fst rows ++ filter (lacks (map fst rows)) (map fst es) /\
  forall k v, In (k, v) (put_all es rows) <-> In (k, v) es \/ (In (k, v) rows /\ ~ In k (map fst es)).
Proof.
  unfold put_all. induction es as [|[k0 v0] es IH]; intros rows NE NR; cbn [fold_left map fst snd].
  - split; [exact NR|]. split; [cbn; now rewrite app_nil_r|]. intros k v. cbn [In]. tauto.
  - cbn [map fst] in NE. inversion NE as [|? ? NI NE']; subst. destruct (IH (put k0 v0 rows) NE' (put_nodup _ _ _ NR)) as (A & B & C).
    split; [exact A|]. split.
    + rewrite B, put_keys, <- app_assoc. f_equal. cbn [filter].
      assert (filter (lacks (map fst rows ++ (if lacks (map fst rows) k0 then [k0] else []))) (map fst es) = filter (lacks (map fst rows)) (map fst es)) as F.
      { apply filter_ext_in. intros k I. apply eq_true_iff_eq. rewrite !lacks_iff, in_app_iff. split; [tauto|]. intros N [J|J]; [contradiction|].
        destruct (lacks (map fst rows) k0); [|destruct J]. destruct J as [<-|[]]. contradiction. }
      rewrite F. destruct (lacks (map fst rows) k0); reflexivity.
    + intros k v. rewrite C, (put_in k0 v0 rows NR). cbn [In]. split.
      * intros [I|[[[-> ->]|[N I]] J]]; [auto|auto|]. right. split; [exact I|]. intros [E|E]; [congruence|contradiction].
      * intros [[E|I]|[I J]]; [injection E as <- <-; right; auto|auto|]. right. split; [|tauto]. right. split; [|exact I]. intros ->. apply J. now left.
Qed.
Lemma put_all_new es : forall rows, NoDup (map fst (rows ++ es)) -> put_all es rows = rows ++ es.
Proof.
  unfold put_all. induction es as [|[k v] es IH]; intros rows ND; cbn [fold_left fst snd]; [now rewrite app_nil_r|].
  assert (put k v rows = rows ++ [(k, v)]) as ->.
  { clear IH. induction rows as [|[k' v'] rows IH']; [reflexivity|]. cbn [app map fst] in ND. inversion ND as [|? ? NI ND']; subst. cbn [put app].
    destruct (bytes_eqb k' k) eqn:E.
    - apply bytes_eqb_eq in E. subst k'. elim NI. rewrite map_app, in_app_iff. right. now left.
    - now rewrite (IH' ND'). }
  rewrite IH; rewrite <- app_assoc; [reflexivity|exact ND].
Qed.
End Put.

(* ------------------------------------------------------------------ the order of members *)

Lemma fold_digits s : fold_left (fun a c => 10 * a + (c - 48)) s 0 = dec_value s.
Proof.
  induction s as [|c s IH] using rev_ind; [reflexivity|]. rewrite fold_left_app, dec_value_snoc, IH. cbn [fold_left]. lia.
Qed.
Lemma index_itoa p : 0 <= p < 2 ^ 32 - 1 -> index_of (itoa p) = Some p.
Proof.
  intros H. unfold index_of. destruct (itoa_value p ltac:(lia)) as [D _]. rewrite fold_digits, D.
  rewrite (proj2 (bytes_eqb_eq _ _) eq_refl), (proj2 (Z.leb_le 0 p)), (proj2 (Z.ltb_lt p (2 ^ 32 - 1))) by lia. reflexivity.
Qed.
Section Enumerated.
Context {V : Type}.
Lemma by_index_perm n (kv : bytes * V) l : Permutation (by_index n kv l) ((n, kv) :: l).
Proof.
  induction l as [|[m x] l IH]; cbn [by_index]; [reflexivity|]. destruct (n <? m); [reflexivity|].
  rewrite IH. apply perm_swap.
Qed.
Lemma by_index_sorted n (kv : bytes * V) l : ~ In n (map fst l) -> StronglySorted Z.lt (map fst l) -> StronglySorted Z.lt (map fst (by_index n kv l)).
Proof.
  induction l as [|[m x] l IH]; intros N S; cbn [by_index map fst]; [repeat constructor|]. cbn [map fst In] in N, S. apply StronglySorted_inv in S as [S F].
  destruct (Z.ltb_spec n m) as [L|L]; cbn [map fst].
  - constructor; [now constructor|]. constructor; [exact L|]. rewrite Forall_forall in *. intros y I. specialize (F y I). lia.
  - constructor; [apply IH; tauto|]. rewrite Forall_forall in *. intros y I. assert (In y (n :: map fst l)) as J.
    { apply (Permutation_in (l := map fst (by_index n kv l))); [|exact I]. exact (Permutation_map fst (by_index_perm n kv l)). }
    destruct J as [<-|J]; [|now apply F]. destruct (Z.eq_dec m n) as [E|E]; [elim N; now left|lia].
Qed.
(** The members of an object whose names are different numbers come in the order of the numbers. *)
Lemma enumerated_numbers (ms : list (bytes * V)) : NoDup (map fst ms) -> (forall k, In k (map fst ms) -> exists p, k = itoa p /\ 0 <= p < 2 ^ 32 - 1) ->
  Permutation (enumerated ms) ms /\ exists ps, map fst (enumerated ms) = map itoa ps /\ StronglySorted Z.lt ps.
Proof.
  intros ND K. unfold enumerated. change (fold_left (fun o kv => put (fst kv) (snd kv) o) ms []) with (put_all ms []). rewrite put_all_new by exact ND. cbn [app].
  assert (filter (fun kv : bytes * V => match index_of (fst kv) with Some _ => false | None => true end) ms = []) as ->.
  { clear ND. induction ms as [|kv ms IH]; [reflexivity|]. cbn [filter]. destruct (K (fst kv)) as (p & E & R); [now left|]. rewrite E, index_itoa by exact R. apply IH. intros k I. apply K. now right. }
  rewrite app_nil_r.
  assert (forall l, let r := fold_left (fun l kv => match index_of (fst kv) with Some n => by_index n kv l | None => l end) ms l in
    (forall n kv, In (n, kv) l -> fst kv = itoa n) -> NoDup (map fst ms ++ map (fun x => fst (snd x)) l) -> StronglySorted Z.lt (map fst l) ->
    Permutation (map snd r) (ms ++ map snd l) /\ StronglySorted Z.lt (map fst r) /\ (forall n kv, In (n, kv) r -> fst kv = itoa n)) as G.
  { induction ms as [|kv ms IH]; intros l; cbn zeta; cbn [fold_left app map]; intros KL N S; [auto|].
    destruct (K (fst kv)) as (p & E & R); [now left|]. rewrite E, index_itoa by exact R. cbn [map app] in N, ND.
    pose proof (by_index_perm p kv l) as P.
    destruct (IH ltac:(now inversion ND) ltac:(intros k I; apply K; now right) (by_index p kv l)) as (A & B & C).
    - intros n x I. apply (Permutation_in _ P) in I as [I|I]; [injection I as <- <-; exact E|now apply KL].
    - apply (Permutation_NoDup (l := fst kv :: map fst ms ++ map (fun x => fst (snd x)) l)); [|exact N].
      rewrite (Permutation_map (fun x => fst (snd x)) P). cbn [map snd]. apply Permutation_middle.
    - apply by_index_sorted; [|exact S]. intros I. apply in_map_iff in I as ([n x] & <- & I). cbn [fst] in *. apply KL in I as Q. inversion N as [|? ? NI _]; subst.
      apply NI, in_app_iff. right. rewrite E, <- Q. change (fst x) with ((fun x => fst (snd x)) (n, x)). now apply in_map.
    - split; [|now split]. rewrite A, (Permutation_map snd P). cbn [map snd]. symmetry. apply Permutation_middle. }
  destruct (G [] ltac:(intros n kv []) ltac:(cbn [map]; rewrite app_nil_r; exact ND) ltac:(constructor)) as (A & B & C). cbn [map] in A. rewrite app_nil_r in A.
  split; [exact A|]. eexists. split; [|exact B]. rewrite !map_map. apply map_ext_in. intros [n kv] I. exact (C n kv I).
Qed.
End Enumerated.

(* ------------------------------------------------------------------ updates *)

Definition snapshot (rows : list (bytes * Z)) : jv := JObj (map (fun r => (fst r, JNum (snd r) 0)) rows).
Lemma occurrences_app p a b : occurrences p (a ++ b) = occurrences p a + occurrences p b.
Proof. unfold occurrences. rewrite filter_app. unfold zlen. rewrite app_length. lia. Qed.
Lemma occurrences_le p a : 0 <= occurrences p a <= zlen a.
Proof.
  unfold occurrences, zlen. enough (List.length (filter (fun m => Z.eqb (rm_pgn (pm_header m)) p) a) <= List.length a)%nat by lia.
  induction a as [|x a IH]; cbn [filter List.length]; [lia|]. destruct (_ =? p); cbn [List.length]; lia.
Qed.
Lemma occurrences_one p m : occurrences p [m] = if pgn_of m =? p then 1 else 0.
Proof. unfold occurrences, pgn_of. cbn [filter]. destruct (_ =? p); reflexivity. Qed.
Lemma occurrences_in p a : 0 < occurrences p a <-> In p (map pgn_of a).
Proof.
  induction a as [|m a IH]; [split; [intros H; elim (Z.lt_irrefl 0 H)|intros []]|]. change (m :: a) with ([m] ++ a). rewrite occurrences_app, occurrences_one. cbn [app map In].
  pose proof (occurrences_le p a). rewrite <- IH. destruct (Z.eqb_spec (pgn_of m) p) as [E|E].
  - split; [now left|lia].
  - split; [intros; right; lia|intros [?|?]; [contradiction|lia]].
Qed.
Section Page.
Variable js_text : jv -> bytes.
Hypothesis EX : exact_texts js_text.
Lemma sorted_nodup rows : StronglySorted (fun a b : bytes * Z => text_lt (fst a) (fst b)) rows -> NoDup (map fst rows).
Proof.
  induction 1 as [|[k n] rows _ IH F]; cbn [map fst]; [constructor|]. constructor; [|exact IH]. intros I. apply in_map_iff in I as (x & E & I).
  rewrite Forall_forall in F. specialize (F x I). cbn [fst] in *. rewrite E in F. now apply text_lt_irrefl in F.
Qed.
Lemma update_shows ms1 ms2 rows T : small ms2 -> zlen ms2 <= 2 ^ 53 -> (forall p, occurrences p ms1 <= occurrences p ms2) ->
  table_shows ms1 rows -> is_statistics ms2 T ->
  table_shows ms2 (on_stats js_text rows (snapshot T)) /\
  exists ps, StronglySorted Z.lt ps /\ (forall p, In p ps <-> 0 < occurrences p ms2) /\
    map fst (on_stats js_text rows (snapshot T)) = map fst rows ++ filter (lacks (map fst rows)) (map itoa ps).
Proof.
  intros SM LE MO [ND SH] [SO ST].
  assert (forall p, occurrences p ms2 mod 2 ^ 64 = occurrences p ms2) as MOD by (intros p; pose proof (occurrences_le p ms2); apply Z.mod_small; lia).
  assert (forall p, 0 < occurrences p ms2 -> 0 <= p < 2 ^ 32 - 1) as RG.
  { intros p O. apply occurrences_in, in_map_iff in O as (m & <- & I). unfold small in SM. rewrite Forall_forall in SM. now apply SM. }
  cbn [on_stats snapshot]. set (ms := map (fun r => (fst r, JNum (snd r) 0)) T).
  assert (map fst ms = map fst T) as KM by (unfold ms; rewrite map_map; reflexivity).
  assert (forall k, In k (map fst ms) <-> exists p, k = itoa p /\ 0 < occurrences p ms2) as KS.
  { intros k. rewrite KM. rewrite in_map_iff. split.
    - intros ([k' n] & <- & I). apply ST in I as (p & -> & O & _). now exists p.
    - intros (p & -> & O). exists (itoa p, occurrences p ms2). split; [reflexivity|]. apply ST. exists p. rewrite MOD. auto. }
  assert (NoDup (map fst ms)) as NM by (rewrite KM; now apply sorted_nodup).
  destruct (enumerated_numbers ms NM) as (P & ps & KP & SP).
  { intros k I. apply KS in I as (p & -> & O). exists p. auto. }
  set (es := map (fun kv : bytes * jv => (fst kv, js_text (snd kv))) (enumerated ms)).
  assert (forall l r, fold_left (stat_member js_text) l r = put_all (map (fun kv : bytes * jv => (fst kv, js_text (snd kv))) l) r) as FE.
  { induction l as [|kv l IH]; intros r; [reflexivity|]. cbn [fold_left map]. rewrite IH. reflexivity. }
  rewrite FE. fold es.
  assert (map fst es = map itoa ps) as KE by (unfold es; rewrite map_map; exact KP).
  assert (NoDup (map fst es)) as NE by (rewrite KE, <- KP; apply (Permutation_NoDup (l := map fst ms)); [symmetry; now apply Permutation_map|exact NM]).
  destruct (put_all_spec es rows NE ND) as (A & B & C). split; [split; [exact A|]|].
  - intros k v. rewrite C. split.
    + intros [I|[I N]].
      * unfold es in I. apply in_map_iff in I as ([k' w] & E & I). cbn [fst snd] in E. injection E as <- <-. apply (Permutation_in _ P) in I. unfold ms in I.
        apply in_map_iff in I as ([k2 n] & E & I). cbn [fst snd] in E. injection E as <- <-. apply ST in I as (p & -> & O & ->). exists p. rewrite MOD.
        split; [reflexivity|]. split; [exact O|]. apply EX. pose proof (occurrences_le p ms2). lia.
      * exfalso. apply N. apply SH in I as (p & -> & O & _). rewrite KE, <- KP. apply (Permutation_in (l := map fst ms)); [symmetry; now apply Permutation_map|].
        apply KS. exists p. split; [reflexivity|]. specialize (MO p). lia.
    + intros (p & -> & O & ->). left. unfold es. apply in_map_iff. exists (itoa p, JNum (occurrences p ms2) 0). cbn [fst snd]. split.
      * f_equal. apply EX. pose proof (occurrences_le p ms2). lia.
      * apply (Permutation_in (l := ms)); [now symmetry|]. unfold ms. apply in_map_iff. exists (itoa p, occurrences p ms2). split; [reflexivity|]. apply ST. exists p. rewrite MOD. auto.
  - exists ps. split; [exact SP|]. split; [|rewrite B, KE; reflexivity].
    intros p. assert (In p ps <-> In (itoa p) (map itoa ps)) as ->.
    { split; [apply in_map|]. intros I. apply in_map_iff in I as (q & E & I). apply itoa_inj_all in E. now subst q. }
    rewrite <- KP. assert (In (itoa p) (map fst (enumerated ms)) <-> In (itoa p) (map fst ms)) as ->.
    { split; apply Permutation_in; [now apply Permutation_map|symmetry; now apply Permutation_map]. }
    rewrite KS. split; [intros (q & E & O); apply itoa_inj_all in E; now subst q|intros O; now exists p].
Qed.
(** Snapshots after each of some further messages. *)
Inductive snapshots (ms : list parsed) : list parsed -> list jv -> Prop :=
| sn_end : snapshots ms [] []
| sn_next m later T vs : is_statistics (ms ++ [m]) T -> snapshots (ms ++ [m]) later vs -> snapshots ms (m :: later) (snapshot T :: vs).
Lemma fresh_ext ps : forall a b, (forall p, In p a <-> In p b) -> fresh a ps = fresh b ps.
Proof.
  induction ps as [|p ps IH]; intros a b E; [reflexivity|]. cbn [fresh].
  assert (existsb (Z.eqb p) a = existsb (Z.eqb p) b) as X.
  { apply eq_true_iff_eq. rewrite !existsb_exists. split; intros (x & I & Q); exists x; (split; [now apply E|exact Q]). }
  rewrite X. destruct (existsb (Z.eqb p) b); [now apply IH|]. f_equal. apply IH. intros q. cbn [In]. now rewrite E.
Qed.
Lemma filter_single (f : bytes -> bool) l a : NoDup l -> (forall x, In x l -> f x = true -> x = a) -> In a l -> f a = true -> filter f l = [a].
Proof.
  induction 1 as [|x l NI ND IH]; intros U I F; [destruct I|]. cbn [filter]. destruct (f x) eqn:E.
  - assert (x = a) as -> by (apply U; [now left|exact E]). f_equal. clear IH I. induction l as [|y l IH]; [reflexivity|]. cbn [filter].
    destruct (f y) eqn:Y; [|apply IH; [|now inversion ND|]].
    + assert (y = a) as -> by (apply U; [right; now left|exact Y]). elim NI. now left.
    + intros J. apply NI. now right.
    + intros z [J|J]; apply U; [now left|right; now right].
  - destruct I as [->|I]; [congruence|]. apply IH; auto. intros y J. apply U. now right.
Qed.
Lemma filter_none (f : bytes -> bool) l : (forall x, In x l -> f x = false) -> filter f l = [].
Proof. induction l as [|x l IH]; intros H; [reflexivity|]. cbn [filter]. rewrite (H x); [|now left]. apply IH. intros y I. apply H. now right. Qed.
Lemma lt_sorted_nodup ps : StronglySorted Z.lt ps -> NoDup ps.
Proof. induction 1 as [|p ps _ IH F]; constructor; [|exact IH]. intros I. rewrite Forall_forall in F. specialize (F p I). lia. Qed.
Lemma run_shows later : forall ms1 vs rows qs, snapshots ms1 later vs -> small (ms1 ++ later) -> zlen (ms1 ++ later) <= 2 ^ 53 ->
  table_shows ms1 rows -> map fst rows = map itoa qs ->
  table_shows (ms1 ++ later) (fold_left (on_stats js_text) vs rows) /\
  map fst (fold_left (on_stats js_text) vs rows) = map itoa (qs ++ fresh qs (map pgn_of later)).
Proof.
  induction later as [|m later IH]; intros ms1 vs rows qs SN SM LE SH KQ; inversion SN as [|? ? T vs' IS SN']; subst; cbn [fold_left map fresh].
  { rewrite !app_nil_r. auto. }
  assert (ms1 ++ m :: later = (ms1 ++ [m]) ++ later) as EA by (now rewrite <- app_assoc). rewrite EA in *.
  destruct (update_shows ms1 (ms1 ++ [m]) rows T) as (SH' & ps & SP & KP & KE).
  { unfold small in *. now apply Forall_app in SM as [SM _]. }
  { unfold zlen in *. rewrite app_length in LE. lia. }
  { intros p. rewrite occurrences_app. pose proof (occurrences_le p [m]). lia. }
  { exact SH. }
  { exact IS. }
  assert (forall p, In p qs <-> 0 < occurrences p ms1) as KQ'.
  { intros p. assert (In p qs <-> In (itoa p) (map fst rows)) as ->.
    { rewrite KQ. split; [apply in_map|]. intros I. apply in_map_iff in I as (q & E & I). apply itoa_inj_all in E. now subst q. }
    destruct SH as [_ SH]. rewrite in_map_iff. split.
    - intros ([k v] & E & I). cbn [fst] in E. subst k. apply SH in I as (q & E & O & _). apply itoa_inj_all in E. now subst q.
    - intros O. exists (itoa p, itoa (occurrences p ms1)). split; [reflexivity|]. apply SH. eauto. }
  set (p := pgn_of m) in *.
  assert (forall q, In q ps <-> In q qs \/ q = p) as PQ.
  { intros q. rewrite KP, KQ', occurrences_app, occurrences_one. fold p. pose proof (occurrences_le q ms1). destruct (Z.eqb_spec p q); [split; [auto|lia]|].
    split; [intros; left; lia|intros [?|?]; [lia|congruence]]. }
  assert (NoDup (map itoa ps)) as NP.
  { apply lt_sorted_nodup in SP. clear - SP. induction SP as [|q ps NI _ IH]; cbn [map]; constructor; [|exact IH]. intros I. apply in_map_iff in I as (x & E & I). apply itoa_inj_all in E. now subst x. }
  assert (map fst (on_stats js_text rows (snapshot T)) = map itoa (qs ++ if existsb (Z.eqb p) qs then [] else [p])) as KE'.
  { rewrite KE, KQ, map_app. f_equal. destruct (existsb (Z.eqb p) qs) eqn:X.
    - apply existsb_exists in X as (x & I & Q). apply Z.eqb_eq in Q. subst x. apply filter_none. intros k J. apply in_map_iff in J as (q & <- & J).
      destruct (lacks (map itoa qs) (itoa q)) eqn:L; [|reflexivity]. apply lacks_iff in L. elim L. apply in_map. apply PQ in J as [J| ->]; assumption.
    - assert (~ In p qs) as N by (intros I; assert (existsb (Z.eqb p) qs = true) as Y by (apply existsb_exists; exists p; split; [exact I|apply Z.eqb_refl]); congruence).
      apply filter_single; [exact NP| | |].
      + intros k J L. apply in_map_iff in J as (q & <- & J). apply lacks_iff in L. apply PQ in J as [J| ->]; [elim L; now apply in_map|reflexivity].
      + apply in_map. apply PQ. now right.
      + apply lacks_iff. intros J. apply in_map_iff in J as (q & E & J). apply itoa_inj_all in E. subst q. contradiction. }
  destruct (IH (ms1 ++ [m]) vs' (on_stats js_text rows (snapshot T)) _ SN' SM LE SH' KE') as [R1 R2]. split; [exact R1|]. rewrite R2. f_equal.
  destruct (existsb (Z.eqb p) qs); [now rewrite app_nil_r|]. rewrite <- app_assoc. cbn [app]. f_equal. f_equal. apply fresh_ext. intros q. rewrite in_app_iff. cbn [In]. tauto.
Qed.
(** A page that has received the snapshots from one message on. *)
Lemma first_shows ms1 m later T vs : is_statistics (ms1 ++ [m]) T -> snapshots (ms1 ++ [m]) later vs ->
  small ((ms1 ++ [m]) ++ later) -> zlen ((ms1 ++ [m]) ++ later) <= 2 ^ 53 ->
  table_shows ((ms1 ++ [m]) ++ later) (fold_left (on_stats js_text) (snapshot T :: vs) []) /\
  exists old, StronglySorted Z.lt old /\ (forall p, In p old <-> In p (map pgn_of (ms1 ++ [m]))) /\
    map fst (fold_left (on_stats js_text) (snapshot T :: vs) []) = map itoa (old ++ fresh old (map pgn_of later)).
Proof.
  intros IS SN SM LE. destruct (update_shows [] (ms1 ++ [m]) [] T) as (SH' & ps & SP & KP & KE).
  { unfold small in *. now apply Forall_app in SM as [SM _]. }
  { unfold zlen in *. rewrite app_length in LE. lia. }
  { intros p. apply occurrences_le. }
  { split; [constructor|]. intros k v. split; [intros []|]. intros (p & _ & O & _). elim (Z.lt_irrefl 0 O). }
  { exact IS. }
  cbn [fold_left].
  assert (map fst (on_stats js_text [] (snapshot T)) = map itoa ps) as KE'.
  { rewrite KE. cbn [map app]. clear. induction (map itoa ps) as [|x l IH]; [reflexivity|]. cbn [filter lacks existsb negb]. now f_equal. }
  destruct (run_shows later (ms1 ++ [m]) vs _ ps SN SM LE SH' KE') as [A B]. split; [exact A|]. exists ps. split; [exact SP|]. split; [|exact B].
  intros p. rewrite KP. apply occurrences_in.
Qed.
End Page.

(* ------------------------------------------------------------------ the whole program *)

Lemma first_register (c : nat) (q : list (label bytes)) : In (LRegister c) q -> exists earlier later, q = earlier ++ LRegister c :: later /\ ~ In (LRegister c) earlier.
Proof.
  induction q as [|x q IH]; intros RG; [destruct RG|].
  assert (x = LRegister c \/ x <> LRegister c) as [->|D].
  { destruct x as [d|d|d|m|d m| |d|d|d f ok]; try (right; congruence). destruct (Nat.eq_dec d c) as [->|]; [left; reflexivity|right; congruence]. }
  - exists [], q. split; [reflexivity|intros []].
  - destruct RG as [G|G]; [congruence|]. destruct (IH G) as (e & l & E & N). exists (x :: e), l. split; [cbn; now rewrite E|]. intros [I|I]; [congruence|contradiction].
Qed.
Lemma since_after (c : nat) (e l : list (label bytes)) : ~ In (LRegister c) e -> since c (e ++ LRegister c :: l) = broadcasts l.
Proof.
  induction e as [|x e IH]; cbn [app since]; intros N; [now rewrite Nat.eqb_refl|].
  assert (~ In (LRegister c) e) by (intros I; apply N; now right).
  destruct x; try (apply IH; assumption). destruct (Nat.eqb_spec c0 c) as [->|]; [destruct N; now left|now apply IH].
Qed.
Lemma skipn_nth {T} (l : list T) : forall i x, nth_error l i = Some x -> skipn i l = x :: skipn (S i) l.
Proof. induction l as [|y l IH]; intros [|i] x H; try discriminate; [injection H as ->; reflexivity|exact (IH i x H)]. Qed.
Lemma firstn_nth {T} (l : list T) : forall i x, nth_error l i = Some x -> firstn (S i) l = firstn i l ++ [x].
Proof.
  induction l as [|y l IH]; intros [|i] x H; try discriminate; [injection H as ->; reflexivity|].
  change (firstn (S (S i)) (y :: l)) with (y :: firstn (S i) l). rewrite (IH i x H). reflexivity.
Qed.
Lemma snapshots_from (ms : list parsed) tables : List.length tables = List.length ms ->
  (forall k t, nth_error tables k = Some t -> is_statistics (firstn (S k) ms) t) ->
  forall n i, (i + n <= List.length ms)%nat -> snapshots (firstn i ms) (firstn n (skipn i ms)) (map snapshot (firstn n (skipn i tables))).
Proof.
  intros LE ST. induction n as [|n IH]; intros i H; [constructor|].
  destruct (nth_error ms i) as [m|] eqn:EM; [|apply nth_error_None in EM; lia].
  destruct (nth_error tables i) as [t|] eqn:ET; [|apply nth_error_None in ET; lia].
  rewrite (skipn_nth _ _ _ EM).
  rewrite (skipn_nth _ _ _ ET).
  cbn [firstn map].
  pose proof (firstn_nth _ _ _ EM) as ES.
  constructor; rewrite <- ES; [now apply ST|]. apply IH. lia.
Qed.
Lemma snapshots_read texts vs tables : Forall (fun t => exists ms, is_statistics ms t) tables -> texts = map object_text tables -> Forall2 json texts vs -> vs = map snapshot tables.
Proof.
  intros F ->. revert vs. induction F as [|t tables (ms & IS) F IH]; intros vs H; inversion H as [|? v ? vs' J H']; subst; cbn [map]; [reflexivity|].
  f_equal; [|now apply IH]. apply (json_unique _ _ _ J). apply stats_object_json. apply Forall_forall. intros [k n] I. destruct IS as [_ IS]. apply IS in I as (p & -> & _). now exists p.
Qed.

Section Program.
Variables (tbl : list pgn_def) (maps : mappings) (opts : options) (pl : platform) (fmtv : gval -> bytes) (unmarshal : bytes -> option canboat)
          (marshal : Z -> delta -> option bytes) (verbose : bool).
Notation yrun := (yrun tbl maps opts pl fmtv unmarshal marshal verbose).
(** In every execution, a page open at the statistics socket that has received anything shows
    the numbers of an initial part of the messages handled: all those up to the one of the last
    snapshot it received.  The PGNs seen until the first snapshot come first, in ascending order,
    then each further one when it came. *)
Theorem C109_table js_text ifs tr s c vs : exact_texts js_text -> yrun ifs tr (YOk s) -> o_ws opts = true -> In (LRegister c) (stats_actions tr) ->
  received c (stats_actions tr) <> [] -> Forall2 json (received c (stats_actions tr)) vs ->
  let ms := map (fun h => snd (fst h)) (handled tr) in
  small ms -> zlen ms <= 2 ^ 53 ->
  exists earlier later, stats_actions tr = earlier ++ LRegister c :: later /\ ~ In (LRegister c) earlier /\
    let i := List.length (broadcasts earlier) in let n := (i + List.length (received c (stats_actions tr)))%nat in
    (n <= List.length ms)%nat /\
    let rows := fold_left (on_stats js_text) vs [] in
    table_shows (firstn n ms) rows /\
    exists old, StronglySorted Z.lt old /\ (forall p, In p old <-> In p (map pgn_of (firstn (S i) ms))) /\
      map fst rows = map itoa (old ++ fresh old (map pgn_of (skipn (S i) (firstn n ms)))).
Proof.
  intros EX R W RG NE F2. cbn zeta. set (ms := map (fun h => snd (fst h)) (handled tr)). intros SM LE.
  destruct (C62_stats_order _ _ _ _ _ _ _ _ _ _ _ R W) as (tables & SO & LT & ST).
  destruct (hubs_run _ _ _ _ _ _ _ _ _ _ _ R) as [_ [A1 A2]]. destruct (C60_prefix _ _ _ A1 A2 RG) as (rest & P).
  destruct (first_register _ _ RG) as (e & l & E & N). exists e, l. split; [exact E|]. split; [exact N|].
  fold ms in ST. assert (List.length tables = List.length ms) as LM by (unfold ms; rewrite map_length; exact LT).
  set (rc := received c (stats_actions tr)) in *. set (i := List.length (broadcasts e)).
  assert (exists post, map object_text tables = broadcasts e ++ rc ++ post) as [post EP].
  { rewrite <- SO. assert (broadcasts (stats_actions tr) = broadcasts e ++ broadcasts l) as -> by (rewrite E; unfold broadcasts; rewrite flat_map_app; reflexivity).
    rewrite <- (since_after c e l N), <- E, P. rewrite <- !app_assoc. eauto. }
  assert (i + List.length rc <= List.length ms)%nat as LN.
  { rewrite <- LM, <- (map_length object_text), EP, !app_length. unfold i. lia. }
  split; [exact LN|].
  assert (rc = map object_text (firstn (List.length rc) (skipn i tables))) as ER.
  { rewrite <- firstn_map, <- skipn_map, EP. unfold i. rewrite skipn_app, skipn_all, Nat.sub_diag. cbn [skipn app]. rewrite firstn_app, firstn_all, Nat.sub_diag. cbn [firstn]. now rewrite app_nil_r. }
  assert (vs = map snapshot (firstn (List.length rc) (skipn i tables))) as EV.
  { apply (snapshots_read rc); [|exact ER|exact F2]. apply Forall_forall. intros t I.
    assert (In t tables) as I'. { rewrite <- (firstn_skipn i tables). apply in_app_iff. right. rewrite <- (firstn_skipn (List.length rc) (skipn i tables)). apply in_app_iff. now left. }
    apply In_nth_error in I' as [k K]. eauto. }
  destruct (List.length rc) as [|n] eqn:EL; [destruct rc; [contradiction|discriminate]|].
  pose proof (snapshots_from ms tables LM ST (S n) i LN) as SN. rewrite <- EV in SN.
  assert (skipn (S i) (firstn (i + S n) ms) = firstn n (skipn (S i) ms)) as EK.
  { rewrite skipn_firstn_comm. f_equal. lia. }
  rewrite EK. clear EK.
  assert (i < List.length ms)%nat as LI by lia.
  destruct (nth_error ms i) as [m|] eqn:EM; [|apply nth_error_None in EM; lia].
  pose proof (skipn_nth _ _ _ EM) as EK.
  rewrite EK in SN. cbn [firstn] in SN. inversion SN as [|m0 later T vs' IS SN' E1 E2]. subst m0 later.
  pose proof (firstn_nth _ _ _ EM) as ES.
  assert (firstn (i + S n) ms = (firstn i ms ++ [m]) ++ firstn n (skipn (S i) ms)) as EF.
  { rewrite <- ES. rewrite <- (firstn_skipn (S i) ms) at 1. rewrite firstn_app, firstn_firstn, firstn_length. f_equal; [f_equal; lia|f_equal; lia]. }
  rewrite EF, ES. apply first_shows; [exact EX|exact IS|exact SN'| |].
  - rewrite <- EF. unfold small in *. rewrite <- (firstn_skipn (i + S n) ms) in SM. now apply Forall_app in SM as [SM _].
  - rewrite <- EF. unfold zlen in *. rewrite firstn_length. lia.
Qed.
End Program.

(* ------------------------------------------------------------------ new rows *)

(** The markup of a new row: link with the PGN, and the count. *)
Lemma itoa_no n c : ~ (48 <= c <= 57) -> c <> 45 -> ~ In c (itoa n).
Proof.
  intros H1 H2 I. destruct (Z.lt_ge_cases n 0) as [L|L].
  - rewrite itoa_neg in I by exact L. destruct I as [I|I]; [congruence|]. destruct (itoa_value (- n) ltac:(lia)) as (_ & F & _). rewrite Forall_forall in F. specialize (F c I). unfold dec_char in F. lia.
  - destruct (itoa_value n L) as (_ & F & _). rewrite Forall_forall in F. specialize (F c I). unfold dec_char in F. lia.
Qed.
Theorem C109_row p n : html (stat_markup (itoa p) (itoa n))
  ([Start (str "tr") []; Start (str "th") []; Start (str "a") [(str "href", str "#"); (str "data-pgn", itoa p)]] ++ text (itoa p) ++
   [End (str "th"); Start (str "td") []] ++ text (itoa n) ++ [End (str "td"); End (str "tr")]).
Proof.
  unfold html, stat_markup.
  change ([Start (str "tr") []; Start (str "th") []; Start (str "a") [(str "href", str "#"); (str "data-pgn", itoa p)]] ++ text (itoa p) ++ [End (str "th"); Start (str "td") []] ++ text (itoa n) ++ [End (str "td"); End (str "tr")])
    with ([Start (str "tr") []; Start (str "th") []] ++ [] ++ [Start (str "a") [(str "href", str "#"); (str "data-pgn", itoa p)]] ++ text (itoa p) ++ [End (str "th"); Start (str "td") []] ++ text (itoa n) ++ [End (str "td"); End (str "tr")]).
  eapply read_app; [vm_compute; reflexivity|]. eapply read_app; [apply plain_value; apply itoa_no; lia|].
  eapply read_app; [reflexivity|]. eapply read_app; [apply plain_text; apply itoa_no; lia|].
  eapply read_app; [vm_compute; reflexivity|]. eapply read_app; [apply plain_text; apply itoa_no; lia|]. vm_compute. reflexivity.
Qed.

(** A non-trivial case.  Expected by many: the PGNs are in order.  A page that joins after the
    first message gets two snapshots; its table has the counts of all three messages, and PGN
    129025 below 129026. *)
Definition stat_bus : list rd_event := course ++ course ++ line "T09F80105800FC10276400FFFF0000".
Definition one_message : list cmd := repeat (CStep 0) (List.length course) ++ [CTake 0 1609459200500000000; CDo; CDo].
Definition seen : list cmd := [CStats (LOffer 3 []); CStats LEndRange; CStats (LTake 3); CStats (LWrite 3 FClose true); CDo; CStream LEndRange].
Definition stat_cmds : list cmd := CStep 0 :: one_message ++ [CStats LEndRange; CDo; CStream LEndRange; CStats (LOpen 3); CStats (LRegister 3)] ++ one_message ++ seen ++ one_message ++ firstn 4 seen.
Definition some_text (v : jv) : bytes := match v with JNum n 0 => itoa n | _ => [] end.
Theorem C109_order_refuted : exact_texts some_text /\
  exists tr s vs, yrun PgnList MapXml opts_ws pl0 show (unmarshal_canboat (fun _ => 0) 99) (marshal_at (fun _ => None) false 0) false [bus stat_bus] tr (YOk s) /\
    o_ws opts_ws = true /\ In (LRegister 3) (stats_actions tr) /\
    received 3 (stats_actions tr) = [str "{""129026"":2}"; str "{""129025"":1,""129026"":2}"] /\ Forall2 json (received 3 (stats_actions tr)) vs /\
    small (map (fun h => snd (fst h)) (handled tr)) /\ zlen (map (fun h => snd (fst h)) (handled tr)) <= 2 ^ 53 /\
    fold_left (on_stats some_text) vs [] = [(str "129026", str "2"); (str "129025", str "1")].
Proof.
  split; [intros n _; reflexivity|].
  set (D := drive opts_ws pl0 show (unmarshal_canboat (fun _ => 0) 99) (marshal_at (fun _ => None) false 0) false stat_cmds [] (sys_init [bus stat_bus])).
  set (reg := fun l : label bytes => match l with LRegister c => Nat.eqb c 3 | _ => false end).
  assert (match D with Some (tr, _) => (existsb reg (stats_actions tr), (received 3 (stats_actions tr), map (fun h => pgn_of (snd (fst h))) (handled tr))) | None => (false, ([], [])) end
          = (true, ([str "{""129026"":2}"; str "{""129025"":1,""129026"":2}"], [129026; 129026; 129025]))) as K by (vm_compute; reflexivity).
  destruct D as [[tr s]|] eqn:ED; [|discriminate K]. exists tr, s, [snapshot [(str "129026", 2)]; snapshot [(str "129025", 1); (str "129026", 2)]].
  apply pair_equal_spec in K as [K1 K]. apply pair_equal_spec in K as [K2 K3]. split.
  { exact (drive_sound _ _ _ _ _ _ _ _ _ _ _ _ (yr_nil _ _ _ _ _ _ _ _ _) ED). }
  clear ED D. split; [reflexivity|]. split.
  { apply existsb_exists in K1 as (l & I & E). unfold reg in E. destruct l as [|c| | | | | | |]; try discriminate E. apply Nat.eqb_eq in E. subst c. exact I. }
  split; [exact K2|]. rewrite K2. split; [|split; [|split]].
  - constructor; [|constructor; [|constructor]].
    + apply (stats_object_json [(itoa 129026, 2)]). constructor; [now exists 129026|constructor].
    + apply (stats_object_json [(itoa 129025, 1); (itoa 129026, 2)]). constructor; [now exists 129025|]. constructor; [now exists 129026|constructor].
  - unfold small. apply Forall_forall. intros m I. assert (In (pgn_of m) [129026; 129026; 129025]) as J.
    { rewrite <- K3. rewrite <- map_map with (f := fun h : nat * parsed * visit => snd (fst h)) (g := pgn_of). now apply in_map. }
    cbn [In] in J. lia.
  - unfold zlen. rewrite map_length. rewrite <- (map_length (fun h => pgn_of (snd (fst h)))), K3. cbn. lia.
  - vm_compute. reflexivity.
Qed.
