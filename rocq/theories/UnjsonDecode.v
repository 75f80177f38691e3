(** UnjsonDecode: from read values to the program's variables. *)
From Coq Require Import ZArith Lia ZifyBool Reals Floats.SpecFloat.
From Verif Require Import GoBase BufFacts Strconv StrconvFacts NmeaTypes NmeaModel NmeaSpec SignalkModel SignalkSpec SignalkText ApiModel ApiSpec ApiProps ConfigModel JsonSpec JsonModel FtoaFacts JsonFacts JsonUnique UnjsonModel UnjsonSpec UnjsonLex UnjsonParse UnjsonFloat.
Open Scope Z_scope.
Open Scope list_scope.

(* ------------------------------------------------------------------ names *)

(** Names in a read value are made of bytes. *)
Inductive wfj : gj -> Prop :=
| wf_null : wfj GNull
| wf_bool b : wfj (GBool b)
| wf_num t m e : number_text t m e -> wfj (GNum t)
| wf_str s cs : utf8_text s cs -> wfj (GStr s)
| wf_arr l : (forall g, In g l -> wfj g) -> wfj (GArr l)
| wf_obj ms : (forall k g, In (k, g) ms -> bytes_ok k /\ wfj g) -> wfj (GObj ms).
Lemma utf8_bytes c enc : utf8 c enc -> bytes_ok enc.
Proof.
  unfold bytes_ok. intros [c' H|c' H|c' H N|c' H];
  repeat (apply Forall_cons; [unfold is_byte; Z.to_euclidean_division_equations; lia|]); apply Forall_nil.
Qed.
Lemma utf8_text_bytes s cs : utf8_text s cs -> bytes_ok s.
Proof. induction 1 as [|c enc r cs U _ IH]; [constructor|]. apply Forall_app. split; [eapply utf8_bytes; exact U|exact IH]. Qed.
Lemma lax_wf :
  (forall d t g, lax d t g -> wfj g) /\ (forall d t l, lax_items d t l -> forall g, In g l -> wfj g) /\
  (forall d t l, lax_members d t l -> forall k g, In (k, g) l -> bytes_ok k /\ wfj g) /\ (forall d k t g, lax_member d k t g -> bytes_ok k /\ wfj g).
Proof.
  apply (lax_all (fun d t g _ => wfj g) (fun d t l _ => forall g, In g l -> wfj g) (fun d t l _ => forall k g, In (k, g) l -> bytes_ok k /\ wfj g) (fun d k t g _ => bytes_ok k /\ wfj g)); try (intros; now constructor).
  - intros. econstructor. eassumption.
  - intros d t s (b & cs & _ & _ & U). econstructor. exact U.
  - intros d w s w' v _ _ IH _ g [<-|[]]. exact IH.
  - intros d w s w' v r l _ _ IH _ _ IHl g [<-|I]; [exact IH|now apply IHl].
  - intros d k s v _ IH k' g' [E|[]]. injection E as <- <-. exact IH.
  - intros d k s v r l _ IH _ IHl k' g' [E|I]; [injection E as <- <-; exact IH|now apply IHl].
  - intros d w1 t k w2 w3 s w4 v _ (b & cs & _ & _ & U) _ _ _ IH _. split; [eapply utf8_text_bytes; exact U|exact IH].
Qed.

Lemma reads_as_lower k n n' : reads_as k n -> reads_as k n' -> map lower n = map lower n'.
Proof.
  intros H. revert n'. induction H as [|c d s t C L _ IH|d s t L _ IH|d s t L _ IH]; intros n' H'; inversion H'; subst; try lia; cbn [map]; f_equal; auto; congruence.
Qed.
Lemma reads_as_refl n : ascii_text n -> reads_as n n.
Proof. induction 1; constructor; auto. Qed.
Definition good_names (ns : list bytes) : Prop := Forall ascii_text ns /\ NoDup (map (map lower) ns).

Lemma field_fold_some {F} (fs : list (bytes * F)) k f : field_fold fs k = Some f -> exists n, In (n, f) fs /\ EqualFold k n = true.
Proof.
  induction fs as [|[n g] fs IH]; [discriminate|]. cbn [field_fold]. destruct (EqualFold k n) eqn:E.
  - intros H. injection H as ->. exists n. split; [now left|exact E].
  - intros H. destruct (IH H) as (m & I & E'). exists m. split; [now right|exact E'].
Qed.
Lemma field_exact_some {F} (fs : list (bytes * F)) k f : field_exact fs k = Some f -> In (k, f) fs.
Proof.
  induction fs as [|[n g] fs IH]; [discriminate|]. cbn [field_exact]. destruct (bytes_eqb n k) eqn:E.
  - intros H. injection H as ->. apply bytes_eqb_eq in E. subst. now left.
  - intros H. right. auto.
Qed.
Lemma field_fold_none {F} (fs : list (bytes * F)) k : field_fold fs k = None -> forall n f, In (n, f) fs -> EqualFold k n = false.
Proof.
  induction fs as [|[n g] fs IH]; [intros _ n f []|]. cbn [field_fold]. destruct (EqualFold k n) eqn:E; [discriminate|].
  intros H m f [I|I]; [injection I as <- <-; exact E|eauto].
Qed.
(** The field for a member is the one whose name it is, whatever the case. *)
Lemma field_for_spec {F} (fs : list (bytes * F)) k : good_names (map fst fs) -> bytes_ok k ->
  (forall n f, In (n, f) fs -> reads_as k n -> field_for fs k = Some f) /\
  ((forall n f, In (n, f) fs -> ~ reads_as k n) -> field_for fs k = None).
Proof.
  intros [A ND] OK.
  assert (forall n f, In (n, f) fs -> (EqualFold k n = true <-> reads_as k n)) as EF.
  { intros n f I. apply C64_case; [exact OK|]. rewrite Forall_forall in A. apply A. apply in_map_iff. exists (n, f). auto. }
  assert (forall n f n' f', In (n, f) fs -> In (n', f') fs -> reads_as k n -> reads_as k n' -> f = f') as U.
  { intros n f n' f' I I' R R'. pose proof (reads_as_lower _ _ _ R R') as L. clear EF A R R'.
    induction fs as [|[m g] fs IH]; [destruct I|]. cbn [map fst] in ND. apply NoDup_cons_iff in ND as [N1 N2].
    destruct I as [I|I], I' as [I'|I'].
    - congruence.
    - injection I as -> ->. elim N1. rewrite L. apply in_map_iff. exists n'. split; [reflexivity|]. apply in_map_iff. exists (n', f'). auto.
    - injection I' as -> ->. elim N1. rewrite <- L. apply in_map_iff. exists n. split; [reflexivity|]. apply in_map_iff. exists (n, f). auto.
    - auto. }
  assert (forall n f, In (n, f) fs -> n = k -> reads_as k n) as RR.
  { intros n f I ->. apply reads_as_refl. rewrite Forall_forall in A. apply A. apply in_map_iff. exists (k, f). auto. }
  unfold field_for. split.
  - intros n f I R. destruct (field_exact fs k) as [f'|] eqn:E.
    + apply field_exact_some in E. f_equal. exact (U k f' n f E I (RR _ _ E eq_refl) R).
    + destruct (field_fold fs k) as [f'|] eqn:E'.
      * destruct (field_fold_some _ _ _ E') as (n' & I' & R'). f_equal. apply (U n' f' n f I' I); [now apply (EF n' f')|exact R].
      * pose proof (field_fold_none _ _ E' n f I) as C. apply (EF n f I) in R. congruence.
  - intros N. destruct (field_exact fs k) as [f'|] eqn:E.
    + apply field_exact_some in E. elim (N _ _ E). exact (RR _ _ E eq_refl).
    + destruct (field_fold fs k) as [f'|] eqn:E'; [|reflexivity]. destruct (field_fold_some _ _ _ E') as (n' & I' & R').
      elim (N _ _ I'). now apply (EF n' f').
Qed.
Lemma reads_as_dec k n : bytes_ok k -> ascii_text n -> {reads_as k n} + {~ reads_as k n}.
Proof.
  intros OK A. destruct (EqualFold k n) eqn:E; [left; now apply C64_case|right]. intros R. apply C64_case in R; [congruence|assumption..].
Qed.

(* ------------------------------------------------------------------ one field *)

(** The part v of a structure, under the members of an object. *)
Definition on_members {V} (dec : gj -> V -> V) (n : bytes) (ms : list (bytes * gj)) (v : V) : V :=
  fold_left (fun v kg => if EqualFold (fst kg) n then dec (snd kg) v else v) ms v.
Lemma project {T V} (fs : list (bytes * setter T)) (pi : T -> V) n st dec :
  good_names (map fst fs) -> In (n, st) fs ->
  (forall g x, pi (fst (st g x)) = dec g (pi x)) ->
  (forall n' st' g x, In (n', st') fs -> n' = n \/ pi (fst (st' g x)) = pi x) ->
  forall ms x, (forall k g, In (k, g) ms -> bytes_ok k) -> pi (fst (into_members fs ms x)) = on_members dec n ms (pi x).
Proof.
  intros G I D O ms. induction ms as [|[k g] ms IH]; intros x B; [reflexivity|]. cbn [into_members].
  assert (bytes_ok k) as Bk by (apply (B k g); now left).
  assert (ascii_text n) as A. { destruct G as [A _]. rewrite Forall_forall in A. apply A. apply in_map_iff. exists (n, st). auto. }
  set (p := match field_for fs k with Some f => f g x | None => (x, true) end).
  assert (pi (fst p) = if EqualFold k n then dec g (pi x) else pi x) as P.
  { unfold p. destruct (field_for_spec fs k G Bk) as [F1 F2]. destruct (EqualFold k n) eqn:E.
    - apply C64_case in E; [|assumption..]. rewrite (F1 n st I E). apply D.
    - destruct (field_for fs k) as [f|] eqn:FF; [|reflexivity].
      assert (exists n', In (n', f) fs /\ reads_as k n') as (n' & I' & R').
      { unfold field_for in FF. destruct (field_exact fs k) as [f'|] eqn:E1.
        - injection FF as ->. apply field_exact_some in E1. exists k. split; [exact E1|]. apply reads_as_refl. destruct G as [A' _]. rewrite Forall_forall in A'. apply A'. apply in_map_iff. exists (k, f). auto.
        - destruct (field_fold_some _ _ _ FF) as (n' & I' & R'). exists n'. split; [exact I'|]. apply C64_case; [exact Bk| |exact R'].
          destruct G as [A' _]. rewrite Forall_forall in A'. apply A'. apply in_map_iff. exists (n', f). auto. }
      destruct (O n' f g x I') as [->|K]; [|exact K]. apply C64_case in R'; [congruence|assumption..]. }
  clearbody p. destruct p as [x1 ok1]. cbn [fst] in P.
  specialize (IH x1 (fun k g H => B k g (or_intror H))). destruct (into_members fs ms x1) as [x2 ok2]. cbn [fst] in *.
  rewrite IH, P. unfold on_members. cbn [fold_left fst snd]. reflexivity.
Qed.

(** The last member counts. *)
Lemma says_last {V} (P : gj -> V -> Prop) (dec : gj -> V -> V) n ms :
  ascii_text n -> (forall k g, In (k, g) ms -> bytes_ok k) ->
  (forall g v, (P g (dec g v)) \/ (dec g v = v /\ forall w, ~ P g w)) ->
  forall v0, says P ms n v0 (on_members dec n ms v0).
Proof.
  intros A. induction ms as [|[k g] ms IH] using rev_ind; intros B D v0; [right; split; [reflexivity|intros k g w []]|].
  assert (forall k g, In (k, g) ms -> bytes_ok k) as B' by (intros k' g' I; apply (B k' g'), in_app_iff; now left).
  assert (bytes_ok k) as Bk by (apply (B k g), in_app_iff; right; now left).
  specialize (IH B' D v0). unfold on_members. rewrite fold_left_app. cbn [fold_left fst snd]. change (fold_left _ ms v0) with (on_members dec n ms v0).
  set (v := on_members dec n ms v0) in *. clearbody v.
  assert ((forall w, reads_as k n -> ~ P g w) -> says P (ms ++ [(k, g)]) n v0 v) as KEEP.
  { intros N. destruct IH as [(a & k1 & g1 & b & -> & R & PG & L)|[-> L]].
    - left. exists a, k1, g1, (b ++ [(k, g)]). split; [now rewrite <- app_assoc|]. split; [exact R|]. split; [exact PG|].
      intros k' g' w I R' Q. apply in_app_iff in I as [I|[I|[]]]; [exact (L _ _ _ I R' Q)|]. injection I as <- <-. exact (N w R' Q).
    - right. split; [reflexivity|]. intros k' g' w I R' Q. apply in_app_iff in I as [I|[I|[]]]; [exact (L _ _ _ I R' Q)|]. injection I as <- <-. exact (N w R' Q). }
  destruct (EqualFold k n) eqn:E.
  - apply C64_case in E; [|assumption..]. destruct (D g v) as [PG|[-> N]]; [|apply KEEP; auto].
    left. exists ms, k, g, []. split; [reflexivity|]. split; [exact E|]. split; [exact PG|]. intros k' g' w [].
  - apply KEEP. intros w R. apply C64_case in R; [congruence|assumption..].
Qed.

Definition get_text (g : gj) (v : bytes) : bytes := fst (into_string g v).
Definition get_bool (g : gj) (v : bool) : bool := fst (into_bool g v).
Definition get_int (g : gj) (v : Z) : Z := fst (into_int g v).
Definition get_uint (bits : Z) (g : gj) (v : Z) : Z := fst (into_uint bits g v).
Lemma text_last g v : a_text g (get_text g v) \/ (get_text g v = v /\ forall w, ~ a_text g w).
Proof. unfold a_text, get_text. destruct g; cbn; auto; right; (split; [reflexivity|discriminate]). Qed.
Lemma bool_last g v : a_bool g (get_bool g v) \/ (get_bool g v = v /\ forall w, ~ a_bool g w).
Proof. unfold a_bool, get_bool. destruct g; cbn; auto; right; (split; [reflexivity|discriminate]). Qed.
Lemma int_last g v : an_int g (get_int g v) \/ (get_int g v = v /\ forall w, ~ an_int g w).
Proof.
  unfold an_int, get_int. destruct g as [|b|t|s|l|ms]; cbn [into_int fst]; try (right; split; [reflexivity|intros w (t' & E & _); discriminate E]).
  destruct (parse_int 64 t) as [n|] eqn:E; cbn [fst].
  - left. exists t. split; [reflexivity|]. apply parse_int_iff in E; [exact E|lia].
  - right. split; [reflexivity|]. intros w (t' & Et & D). injection Et as <-. apply (parse_int_iff 64) in D; [congruence|lia].
Qed.
Lemma uint_last bits g v : 0 <= bits <= 64 -> a_natural bits g (get_uint bits g v) \/ (get_uint bits g v = v /\ forall w, ~ a_natural bits g w).
Proof.
  intros HB. unfold a_natural, get_uint. destruct g as [|b|t|s|l|ms]; cbn [into_uint fst]; try (right; split; [reflexivity|intros w (t' & E & _); discriminate E]).
  assert (2 ^ bits <= 2 ^ 64) by (apply Z.pow_le_mono_r; lia).
  assert (forall w, (exists t', GNum t = GNum t' /\ decimal t' w /\ w < 2 ^ bits) -> parse_uint 10 64 t = PUok w /\ w < 2 ^ bits) as K.
  { intros w (t' & E & D & L). injection E as <-. split; [|exact L]. apply parse_uint_iff; [lia|]. split; [exact D|lia]. }
  destruct (parse_uint 10 64 t) as [n| |n] eqn:E; cbn [fst].
  - apply parse_uint_iff in E; [|lia]. destruct (Z.ltb_spec n (2 ^ bits)) as [L|L]; cbn [fst].
    + left. exists t. split; [reflexivity|]. destruct E. auto.
    + right. split; [reflexivity|]. intros w X. destruct (K w X) as [Q L']. injection Q as <-. lia.
  - right. split; [reflexivity|]. intros w X. destruct (K w X) as [Q _]. discriminate Q.
  - right. split; [reflexivity|]. intros w X. destruct (K w X) as [Q _]. discriminate Q.
Qed.

(* ------------------------------------------------------------------ objects inside *)

Lemma on_members_inside {V} (dec : list (bytes * gj) -> V -> V) (sd : gj -> V -> V) n ms :
  ascii_text n -> (forall k g, In (k, g) ms -> bytes_ok k) ->
  (forall m v, sd (GObj m) v = dec m v) -> (forall g v, (forall m, g <> GObj m) -> sd g v = v) ->
  (forall a b v, dec (a ++ b) v = dec b (dec a v)) -> (forall v, dec [] v = v) ->
  forall v, exists l, inside n ms l /\ on_members sd n ms v = dec l v.
Proof.
  intros A B H1 H2 H3 H4. induction ms as [|[k g] ms IH]; intros v.
  - exists []. split; [constructor|]. now rewrite H4.
  - assert (bytes_ok k) as Bk by (apply (B k g); now left). unfold on_members. cbn [fold_left fst snd].
    specialize (IH (fun k g H => B k g (or_intror H))). destruct (EqualFold k n) eqn:E.
    + apply C64_case in E; [|assumption..]. assert ({m | g = GObj m} + {forall m, g <> GObj m}) as [[m ->]|N] by (destruct g; try (right; discriminate); left; eauto).
      * destruct (IH (sd (GObj m) v)) as (l & I & Q). exists (m ++ l). split; [now constructor|]. rewrite H3, <- (H1 m v). exact Q.
      * destruct (IH (sd g v)) as (l & I & Q). exists l. split; [constructor; auto|]. rewrite H2 in Q by exact N. rewrite H2 by exact N. exact Q.
    + destruct (IH v) as (l & I & Q). exists l. split; [|exact Q]. constructor; [|exact I]. left. intros R. apply C64_case in R; [congruence|assumption..].
Qed.
Lemma into_members_app {T} (fs : list (bytes * setter T)) a b x : fst (into_members fs (a ++ b) x) = fst (into_members fs b (fst (into_members fs a x))).
Proof.
  revert x. induction a as [|[k g] a IH]; intros x; [reflexivity|]. cbn [app into_members].
  destruct (match field_for fs k with Some f => f g x | None => (x, true) end) as [x1 ok1]. specialize (IH x1).
  destruct (into_members fs (a ++ b) x1) as [x2 ok2]. destruct (into_members fs a x1) as [x3 ok3]. exact IH.
Qed.
Lemma inside_struct {T} (fs : list (bytes * setter T)) n ms x :
  ascii_text n -> (forall k g, In (k, g) ms -> bytes_ok k) ->
  exists l, inside n ms l /\ on_members (fun g x => fst (into_struct fs g x)) n ms x = fst (into_members fs l x).
Proof.
  intros A B. apply (on_members_inside (fun l x => fst (into_members fs l x)) (fun g x => fst (into_struct fs g x)) n ms A B).
  - reflexivity.
  - intros g v N. destruct g; try reflexivity. elim (N ms0). reflexivity.
  - intros a b v. apply into_members_app.
  - reflexivity.
Qed.
Lemma inside_wf n ms l : (forall k g, In (k, g) ms -> bytes_ok k /\ wfj g) -> inside n ms l -> forall k g, In (k, g) l -> bytes_ok k /\ wfj g.
Proof.
  intros B H. induction H as [|k g r l _ _ IH|k m r l _ _ IH]; intros k' g' I.
  - destruct I.
  - apply IH; [|exact I]. intros k0 g0 I0. apply B. now right.
  - apply in_app_iff in I as [I|I].
    + destruct (B k (GObj m)) as [_ W]; [now left|]. inversion W; subst. auto.
    + apply IH; [|exact I]. intros k0 g0 I0. apply B. now right.
Qed.

(* ------------------------------------------------------------------ maps *)

Lemma map_set_in {T} (m : list (bytes * T)) k v : NoDup (map fst m) ->
  NoDup (map fst (map_set m k v)) /\ (forall x, In x (map fst (map_set m k v)) <-> x = k \/ In x (map fst m)) /\
  (forall x w, In (x, w) (map_set m k v) -> (x = k /\ w = v) \/ (x <> k /\ In (x, w) m)).
Proof.
  induction m as [|[y z] m IH]; intros ND.
  - cbn [map_set map fst]. split; [constructor; [intros []|constructor]|]. split; [cbn; intuition congruence|]. intros x w [E|[]]. injection E as <- <-. auto.
  - cbn [map fst] in ND. apply NoDup_cons_iff in ND as [N1 N2]. cbn [map_set]. destruct (bytes_eqb y k) eqn:E.
    + apply bytes_eqb_eq in E. subst y. cbn [map fst]. split; [constructor; assumption|]. split; [cbn; intuition congruence|].
      intros x w [Q|Q]; [injection Q as <- <-; auto|]. right. split; [|now right]. intros ->. apply N1. apply in_map_iff. exists (k, w). auto.
    + assert (y <> k) as NE by (intros ->; rewrite (proj2 (bytes_eqb_eq k k) eq_refl) in E; discriminate).
      destruct (IH N2) as (I1 & I2 & I3). cbn [map fst]. split.
      * constructor; [|exact I1]. intros C. apply I2 in C as [C|C]; contradiction.
      * split; [intros x; cbn [In]; rewrite I2; intuition congruence|]. intros x w [Q|Q]; [injection Q as <- <-; right; split; [exact NE|now left]|].
        destruct (I3 x w Q) as [C|[C1 C2]]; [auto|]. right. split; [exact C1|now right].
Qed.
Lemma entries_maps {T} (P : gj -> T -> Prop) (dec : setter T) zero : (forall g, wfj g -> P g (fst (dec g zero))) ->
  forall ms es m, (forall k g, In (k, g) ms -> bytes_ok k /\ wfj g) -> maps_to P es m -> maps_to P (es ++ ms) (fst (into_entries dec zero ms m)).
Proof.
  intros HP ms. induction ms as [|[k g] ms IH]; intros es m W (ND & K & L); [rewrite app_nil_r; repeat split; try assumption; apply K|].
  cbn [into_entries]. pose proof (HP g (proj2 (W k g (or_introl eq_refl)))) as PG. destruct (dec g zero) as [x ok1]. cbn [fst] in PG.
  destruct (map_set_in m k x ND) as (S1 & S2 & S3).
  assert (maps_to P (es ++ [(k, g)]) (map_set m k x)) as M.
  { split; [exact S1|]. split.
    - intros y. rewrite S2, map_app, in_app_iff, K. cbn [map fst In]. intuition congruence.
    - intros y w I. destruct (S3 y w I) as [[-> ->]|[N I']].
      + exists es, g, []. split; [reflexivity|]. split; [intros []|exact PG].
      + destruct (L y w I') as (a & g' & b & -> & NB & PG'). exists a, g', (b ++ [(k, g)]). split; [now rewrite <- app_assoc|]. split; [|exact PG'].
        rewrite map_app, in_app_iff. cbn [map fst In]. intuition congruence. }
  specialize (IH (es ++ [(k, g)]) _ (fun k g H => W k g (or_intror H)) M). rewrite <- app_assoc in IH. cbn [app] in IH.
  destruct (into_entries dec zero ms (map_set m k x)) as [m2 ok2]. exact IH.
Qed.
Lemma map_entries {T} (P : gj -> T -> Prop) (dec : setter T) zero n ms : (forall g, wfj g -> P g (fst (dec g zero))) ->
  ascii_text n -> (forall k g, In (k, g) ms -> bytes_ok k /\ wfj g) ->
  exists o, entries n ms o /\
    match o, on_members (fun g x => fst (into_map dec zero g x)) n ms None with
    | Some es, Some l => maps_to P es l | None, None => True | _, _ => False end.
Proof.
  intros HP A. induction ms as [|[k g] ms IH] using rev_ind; intros W; [exists None; split; [constructor|exact I]|].
  destruct IH as (o & E & M); [intros k' g' I'; apply W, in_app_iff; now left|].
  destruct (W k g) as [Bk Wg]; [apply in_app_iff; right; now left|].
  unfold on_members. rewrite fold_left_app. cbn [fold_left fst snd].
  change (fold_left _ ms None) with (on_members (fun g x => fst (into_map dec zero g x)) n ms None).
  set (x := on_members (fun g x => fst (into_map dec zero g x)) n ms None) in *. clearbody x.
  destruct (EqualFold k n) eqn:F.
  - apply C64_case in F; [|assumption..]. destruct g as [|b|t|s|l|m]; try (exists o; split; [apply en_other; [exact E|right; split; discriminate]|exact M]).
    + exists None. split; [eapply en_null; eassumption|exact I].
    + exists (Some (match o with Some a => a | None => [] end ++ m)). split; [now apply en_object|]. cbn [into_map].
      inversion Wg as [| | | | |? Wm]; subst.
      assert (maps_to P (match o with Some a => a | None => [] end) (match x with Some l => l | None => [] end)) as M0.
      { destruct o as [es|], x as [l|]; try contradiction M; [exact M|]. split; [constructor|]. split; [reflexivity|]. intros ? ? []. }
      pose proof (entries_maps P dec zero HP m _ _ Wm M0) as R. destruct (into_entries dec zero m _) as [m' ok]. exact R.
  - exists o. split; [|exact M]. apply en_other; [exact E|]. left. intros R. apply C64_case in R; [congruence|assumption..].
Qed.
