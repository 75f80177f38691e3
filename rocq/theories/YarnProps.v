(** YarnProps: progress reports and the end of an installation (C107). *)
From Coq Require Import ZArith Lia ZifyBool List Reals Floats.SpecFloat.
From Verif Require Import GoBase NmeaSpec ApiModel ApiSpec ApiProps PipelineModel PipelineSpec PipelineBoot ScannerModel ScannerProps JsonSpec JsonUnique SignalkSpec UnjsonModel UnjsonSpec UnjsonParse UnjsonFloat UnjsonDecode UnjsonTyped UnjsonProps PkgDiskProps YarnModel YarnSpec.
Open Scope Z_scope.
Open Scope list_scope.

(* ------------------------------------------------------------------ one line *)

Lemma yarn_names : good_names (map fst yarn_fields). Proof. names. Qed.
Lemma any_last (g v : gj) : g = g \/ (g = v /\ forall w : gj, ~ g = w).
Proof. now left. Qed.
Lemma yarn_says ms : keys_ok ms ->
  says a_text ms (str "type") [] (fst (fst (into_members yarn_fields ms ([], GNull)))) /\
  says (fun g v => g = v) ms (str "data") GNull (snd (fst (into_members yarn_fields ms ([], GNull)))).
Proof.
  intros B. split.
  - refine (field_says _ get_text text_last yarn_fields (@fst bytes gj) _ _ _ _ yarn_names _ _ _ B); [member|store|others].
  - refine (field_says _ (fun g _ => g) any_last yarn_fields (@snd bytes gj) _ _ _ ([], GNull) yarn_names _ _ _ B); [member|reflexivity|others].
Qed.
Lemma member_last ms n : match map_member ms n with Some g => last_member ms n g | None => forall g, ~ In (n, g) ms end.
Proof.
  unfold map_member. induction ms as [|[k v] ms IH] using rev_ind; [intros g []|]. rewrite fold_left_app. cbn [fold_left fst snd].
  destruct (bytes_eqb k n) eqn:E.
  - apply bytes_eqb_eq in E. subst. exists ms, []. split; [reflexivity|intros []].
  - assert (k <> n) as NE by (intros ->; rewrite (proj2 (bytes_eqb_eq n n) eq_refl) in E; discriminate).
    destruct (fold_left _ ms None) as [g|].
    + destruct IH as (a & b & -> & NI). exists a, (b ++ [(k, v)]). split; [now rewrite <- app_assoc|]. rewrite map_app, in_app_iff. cbn. intuition congruence.
    + intros g I. apply in_app_iff in I as [I|[I|[]]]; [exact (IH g I)|congruence].
Qed.
Lemma last_member_unique ms n g g' : last_member ms n g -> last_member ms n g' -> g = g'.
Proof.
  intros (a & b & -> & N) (a' & b' & E & N'). apply split_compare in E as [[E _]|[E|E]].
  - congruence.
  - elim N'. apply in_map_iff. now exists (n, g).
  - elim N. apply in_map_iff. now exists (n, g').
Qed.
Lemma float_member_spec ms n : (forall t, last_member ms n (GNum t) -> exists m e, number_text t m e) ->
  match float_member ms n with
  | Some x => exists t, last_member ms n (GNum t) /\ double_of t x
  | None => (forall t, ~ last_member ms n (GNum t)) \/ exists t, last_member ms n (GNum t) /\ too_large t
  end.
Proof.
  intros W. unfold float_member. pose proof (member_last ms n) as M. destruct (map_member ms n) as [g|].
  - assert ((exists t, g = GNum t) \/ forall t, g <> GNum t) as [[t ->]|N] by (destruct g; eauto; right; discriminate).
    + destruct (parse_float t) as [x|] eqn:P.
      * exists t. split; [exact M|]. intros m e NT. pose proof (parse_float_nearest t m e NT) as Q. now rewrite P in Q.
      * right. exists t. split; [exact M|]. intros m e NT. pose proof (parse_float_nearest t m e NT) as Q. now rewrite P in Q.
    + assert (match g with GNum t => parse_float t | _ => None end = None) as -> by (destruct g; try reflexivity; now elim (N t)).
      left. intros t M'. apply (N t). exact (last_member_unique ms n g (GNum t) M M').
  - left. intros t (a & b & -> & _). apply (M (GNum t)). apply in_app_iff. right. now left.
Qed.
(** Exactly the lines of type "step" are reported. *)
Theorem C107_line d line : bytes_ok line -> reports d line (one_line d line).
Proof.
  intros OK. unfold one_line.
  assert (forall data, step_line d line data -> exists ms, read_text d line = Some (GObj ms) /\ keys_ok ms /\
    says a_text ms (str "type") [] (str "step") /\ says (fun g v => g = v) ms (str "data") GNull data) as SL.
  { intros data (ms & L & T & D). exists ms. split; [now apply read_text_exact|]. split; [|auto]. destruct L as (w & t & w' & _ & _ & _ & L).
    intros k g I. now destruct (object_members _ _ _ L k g I). }
  assert (forall l, l = [] -> (forall data, ~ step_line d line data) -> reports d line l) as NOTHING.
  { intros l -> N. right. right. split; [reflexivity|]. intros data S. elim (N data S). }
  destruct (read_text d line) as [g|] eqn:R.
  2:{ apply NOTHING; [reflexivity|]. intros data S. destruct (SL data S) as (ms & E & _). discriminate. }
  assert ((exists ms, g = GObj ms) \/ forall ms, g <> GObj ms) as [[ms ->]|NO] by (destruct g; eauto; right; discriminate).
  2:{ assert (fst (into_struct yarn_fields g ([], GNull)) = ([], GNull)) as -> by (destruct g; try reflexivity; now elim (NO ms)).
      apply NOTHING; [reflexivity|]. intros data S. destruct (SL data S) as (ms & E & _). injection E as ->. now elim (NO ms). }
  pose proof (proj1 (read_text_exact d line _ OK) R) as L.
  assert (forall k g, In (k, g) ms -> bytes_ok k /\ wfj g) as W by (destruct L as (w & t & w' & _ & _ & _ & L); exact (object_members _ _ _ L)).
  assert (keys_ok ms) as B by (intros k g I; now destruct (W k g I)).
  cbn [into_struct]. destruct (yarn_says ms B) as [ST SD]. destruct (fst (into_members yarn_fields ms ([], GNull))) as [ty data]. cbn [fst snd] in *.
  destruct (bytes_eqb ty (str "step")) eqn:E.
  2:{ apply NOTHING; [reflexivity|]. intros data' S. destruct (SL data' S) as (ms' & Q & _ & T & _). injection Q as <-.
      pose proof (says_unique _ _ _ _ _ _ text_unique ST T) as ->. rewrite (proj2 (bytes_eqb_eq (str "step") (str "step")) eq_refl) in E. discriminate. }
  apply bytes_eqb_eq in E. subst ty.
  assert (step_line d line data) as S by (exists ms; auto).
  assert ((exists es, data = GObj es) \/ forall es, data <> GObj es) as [[es ->]|ND] by (destruct data; eauto; right; discriminate).
  2:{ right. left. exists data. split; [exact S|]. split; [exact ND|]. destruct data; try reflexivity. now elim (ND ms0). }
  assert (forall n t, last_member es n (GNum t) -> exists m e, number_text t m e) as NUM.
  { intros n t (a & b & -> & _).
    assert (exists k, In (k, GObj (a ++ (n, GNum t) :: b)) ms) as (k & I).
    { destruct SD as [(a' & k & g & b' & -> & _ & -> & _)|[E _]]; [|discriminate]. exists k. apply in_app_iff. right. now left. }
    destruct (W _ _ I) as [_ WO]. inversion WO as [| | | | |? H]; subst. destruct (H n (GNum t)) as [_ WN]; [apply in_app_iff; right; now left|].
    inversion WN; subst; eauto. }
  pose proof (float_member_spec es (str "current") (NUM _)) as FC. pose proof (float_member_spec es (str "total") (NUM _)) as FT.
  assert (forall data', step_line d line data' -> data' = GObj es) as UD.
  { intros data' S'. destruct (SL data' S') as (ms' & Q & _ & _ & D). injection Q as <-.
    refine (says_unique (fun g v => g = v) ms _ _ _ _ _ D SD). congruence. }
  destruct (float_member es (str "current")) as [c|], (float_member es (str "total")) as [t|].
  - destruct FC as (tc & MC & DC). destruct FT as (tt & MT & DT). left. exists es, tc, tt, c, t. auto 10.
  - right. right. split; [reflexivity|]. intros data' S'. exists es. split; [auto|]. destruct FT as [FT|FT]; auto.
  - right. right. split; [reflexivity|]. intros data' S'. exists es. split; [auto|]. destruct FC as [FC|FC]; auto.
  - right. right. split; [reflexivity|]. intros data' S'. exists es. split; [auto|]. destruct FC as [FC|FC]; auto.
Qed.

(* ------------------------------------------------------------------ the reporter *)

Lemma long_lines l x : 65536 <= zlen l -> ~ In 10 l -> file_lines (l ++ x) = [].
Proof.
  intros L N. pose proof (first_line_inv (l ++ x)) as F. destruct (first_line (l ++ x)) as [f [r|]]; destruct F as [F1 F2].
  - assert (65536 <= zlen f).
    { destruct (Z_le_gt_dec 65536 (zlen f)) as [G|G]; [exact G|]. exfalso. apply N.
      assert (nth_error (l ++ x) (List.length f) = Some 10) as X by (rewrite F2, nth_error_app2, Nat.sub_diag by lia; reflexivity).
      rewrite nth_error_app1 in X by (unfold zlen in *; lia). eapply nth_error_In; eassumption. }
    rewrite F2, file_lines_next by exact F1. now replace (65536 <=? zlen f) with true by lia.
  - rewrite app_nil_r in F2. rewrite file_lines_last; [|now rewrite F2|intros E; apply app_eq_nil in E as [E _]; rewrite E in L; unfold zlen in L; cbn in L; lia].
    assert (65536 <= zlen (l ++ x)) by (rewrite zlen_app; unfold zlen in *; lia). now replace (65536 <=? zlen (l ++ x)) with true by lia.
Qed.
Definition long_free (s : bytes) : Prop := forall a l b, s = a ++ l ++ b -> ~ long_run l.
Lemma long_free_prefix a b : long_free (a ++ b) -> long_free a.
Proof. intros H x l y E. apply (H x l (y ++ b)). rewrite E. now rewrite !app_assoc. Qed.

Section Runs.
Variables (d : nat) (cap : Z) (out : bytes).
Definition logs (text : bytes) : list report := flat_map (one_line d) (file_lines text).

(** What is true in every state; got is what the reporter has taken from the pipe. *)
Record yarn_inv (s : yarn_state) (got : bytes) : Prop := {
  yi_out : out = got ++ y_pipe s ++ y_left s;
  yi_cap : zlen (y_pipe s) <= Z.max 0 cap;
  yi_ended : y_ended s = true -> y_left s = [];
  yi_returned : y_returned s = true -> y_ended s = true;
  yi_reading : y_reading s = true -> exists don, got = don ++ y_buf s /\ (don = [] \/ exists x, don = x ++ [10]) /\ ~ In 10 (y_buf s) /\
    zlen (y_buf s) < 65536 /\ long_free got /\ y_log s = logs don /\ (forall x, file_lines (don ++ x) = file_lines don ++ file_lines x);
  yi_stopped : y_reading s = false -> y_log s = logs got /\
    (y_ended s = true /\ (y_pipe s = [] \/ y_returned s = true) /\ long_free got \/
     (forall x, logs (got ++ x) = logs got) /\ exists a l, got = a ++ l /\ long_run l /\ long_free (removelast got)) }.

Lemma zlen_nonneg (l : bytes) : 0 <= zlen l.
Proof. unfold zlen. lia. Qed.
Lemma zlen_cons c (l : bytes) : zlen (c :: l) = zlen l + 1.
Proof. unfold zlen. cbn [List.length]. lia. Qed.
Lemma short_line b x : ~ In 10 b -> zlen b < 65536 -> file_lines (b ++ 10 :: x) = drop_cr b :: file_lines x.
Proof. intros N L. rewrite file_lines_next by exact N. now replace (65536 <=? zlen b) with false by lia. Qed.
Lemma prefix_split {A} (x y u v : list A) : x ++ y = u ++ v -> (List.length u <= List.length x)%nat -> exists k, x = u ++ k.
Proof.
  revert x. induction u as [|c u IH]; intros x E L; [now exists x|]. destruct x as [|c' x]; cbn [app List.length] in *; [lia|].
  injection E as <- E. destruct (IH x E) as [k ->]; [lia|]. now exists k.
Qed.
Lemma suffix_split {A} (a b c e : list A) : a ++ b = c ++ e -> (List.length b <= List.length e)%nat -> exists m, e = m ++ b.
Proof.
  revert c. induction a as [|x a IH]; intros c E L.
  - cbn [app] in E. subst b. assert (c = []) as -> by (destruct c; [reflexivity|rewrite app_length in L; cbn in L; lia]). now exists [].
  - destruct c as [|y c]; cbn [app] in E.
    + exists (x :: a). symmetry. exact E.
    + injection E as _ E. exact (IH c E L).
Qed.
Lemma long_free_snoc got c : long_free got -> (forall a l, got ++ [c] = a ++ l -> ~ long_run l) -> long_free (got ++ [c]).
Proof.
  intros F H a l b E. destruct b as [|y b] using rev_ind.
  - rewrite app_nil_r in E. exact (H a l E).
  - rewrite !app_assoc in E. apply app_inj_tail in E as [E _]. rewrite <- app_assoc in E. exact (F a l b E).
Qed.

Lemma yarn_init : yarn_inv (yarn_start out) [].
Proof.
  split; cbn [yarn_start y_pipe y_left y_ended y_returned y_reading y_buf y_log]; try discriminate; try reflexivity.
  - unfold zlen. cbn. lia.
  - intros _. exists []. split; [reflexivity|]. split; [now left|]. split; [intros []|]. split; [unfold zlen; cbn; lia|]. split.
    + intros a l b E [L _]. symmetry in E. apply app_eq_nil in E as [_ E]. apply app_eq_nil in E as [E _]. subst l. unfold zlen in L. cbn in L. lia.
    + split; reflexivity.
Qed.
Lemma yarn_next s s' got : yarn_inv s got -> yarn_step d cap s s' -> exists got', yarn_inv s' got'.
Proof.
  intros [O C E R RD ST] H. destruct H as [c l p b r lg w H|p b r lg w|l p e b lg|c l p e b lg NC H|c l p e b lg NC H|l p e b lg w H|l p b r lg];
    cbn [y_pipe y_left y_ended y_returned y_reading y_buf y_log] in *.
  - exists got. split; cbn [y_pipe y_left y_ended y_returned y_reading y_buf y_log]; auto.
    + rewrite O. now rewrite <- app_assoc.
    + rewrite zlen_app. change (zlen [c]) with 1. pose proof (zlen_nonneg p). lia.
    + discriminate.
    + intros F. destruct (ST F) as [L [(X & _)|X]]; [discriminate|]. auto.
  - exists got. split; cbn [y_pipe y_left y_ended y_returned y_reading y_buf y_log]; auto.
    intros F. destruct (ST F) as [L [(X & _)|X]]; [discriminate|]. auto.
  - destruct (RD eq_refl) as (don & -> & DN & NB & LB & LF & -> & FL). exists ((don ++ b) ++ [10]).
    split; cbn [y_pipe y_left y_ended y_returned y_reading y_buf y_log]; auto; try discriminate.
    + rewrite O. now rewrite <- !app_assoc.
    + rewrite zlen_cons in C. lia.
    + intros _. exists ((don ++ b) ++ [10]). split; [now rewrite app_nil_r|]. split; [right; eauto|]. split; [intros []|]. split; [unfold zlen; cbn; lia|]. split.
      { apply long_free_snoc; [exact LF|]. intros a m Q [LM NM]. destruct m as [|y m] using rev_ind; [unfold zlen in LM; cbn in LM; lia|].
        rewrite app_assoc in Q. apply app_inj_tail in Q as [_ <-]. apply NM, in_app_iff. right. now left. }
      assert (file_lines ((don ++ b) ++ [10]) = file_lines don ++ [drop_cr b]) as FD by (rewrite <- app_assoc, FL, (short_line b []) by assumption; reflexivity).
      split; [unfold logs; rewrite FD, flat_map_app; cbn [flat_map]; now rewrite app_nil_r|].
      intros x. rewrite FD, <- !app_assoc. rewrite FL. cbn [app]. rewrite short_line by assumption. reflexivity.
  - destruct (RD eq_refl) as (don & -> & DN & NB & LB & LF & -> & FL). exists ((don ++ b) ++ [c]).
    split; cbn [y_pipe y_left y_ended y_returned y_reading y_buf y_log]; auto; try discriminate.
    + rewrite O. now rewrite <- !app_assoc.
    + rewrite zlen_cons in C. lia.
    + intros _. exists don. split; [now rewrite app_assoc|]. split; [exact DN|]. split; [intros I; apply in_app_iff in I as [I|[I|[]]]; [exact (NB I)|congruence]|].
      split; [rewrite zlen_app; change (zlen [c]) with 1; unfold scan_max in H; lia|]. split; [|auto].
      apply long_free_snoc; [exact LF|]. intros a m Q [LM NM]. rewrite <- app_assoc in Q.
      assert (exists k, m = k ++ (b ++ [c])) as (k & ->).
      { apply (suffix_split don (b ++ [c]) a m Q). rewrite app_length. cbn [List.length]. unfold zlen, scan_max in *. lia. }
      rewrite !app_assoc in Q. apply app_inj_tail in Q as [Q _]. apply app_inv_tail in Q. destruct k as [|y k] using rev_ind.
      * cbn [app] in LM. rewrite zlen_app in LM. change (zlen [c]) with 1 in LM. unfold scan_max in H. lia.
      * clear IHk. destruct DN as [->|(z & ->)]; [symmetry in Q; apply app_eq_nil in Q as [_ Q]; destruct k; discriminate|].
        rewrite app_assoc in Q. apply app_inj_tail in Q as [_ <-]. apply NM. rewrite <- app_assoc. apply in_app_iff. right. now left.
  - destruct (RD eq_refl) as (don & -> & DN & NB & LB & LF & -> & FL). exists ((don ++ b) ++ [c]).
    assert (~ In 10 (b ++ [c])) as NB' by (intros I; apply in_app_iff in I as [I|[I|[]]]; [exact (NB I)|congruence]).
    assert (zlen (b ++ [c]) = 65536) as LB' by (rewrite zlen_app; change (zlen [c]) with 1; unfold scan_max in H; lia).
    assert (forall x, file_lines (((don ++ b) ++ [c]) ++ x) = file_lines don) as FX.
    { intros x. rewrite <- !app_assoc, FL. rewrite app_assoc, long_lines by (assumption || lia). now rewrite app_nil_r. }
    split; cbn [y_pipe y_left y_ended y_returned y_reading y_buf y_log]; auto; try discriminate.
    + rewrite O. now rewrite <- !app_assoc.
    + rewrite zlen_cons in C. lia.
    + intros _. assert (forall x, logs (((don ++ b) ++ [c]) ++ x) = logs don) as LX by (intros x; unfold logs; now rewrite FX).
      assert (logs ((don ++ b) ++ [c]) = logs don) as L0 by (rewrite <- (LX []), app_nil_r; reflexivity).
      split; [now rewrite L0|]. right. split; [intros x; rewrite LX; now rewrite L0|]. exists don, (b ++ [c]). split; [now rewrite app_assoc|].
      split; [now split|]. rewrite removelast_last. exact LF.
  - destruct (RD eq_refl) as (don & -> & DN & NB & LB & LF & -> & FL). exists (don ++ b).
    split; cbn [y_pipe y_left y_ended y_returned y_reading y_buf y_log]; auto; try discriminate.
    intros _. split.
    + unfold logs. rewrite FL, flat_map_app. f_equal. destruct b as [|y b]; [reflexivity|]. rewrite file_lines_last by (assumption || discriminate).
      replace (65536 <=? zlen (y :: b)) with false by lia. cbn [flat_map]. now rewrite app_nil_r.
    + left. destruct H as [[-> ->]| ->]; auto.
  - exists got. split; cbn [y_pipe y_left y_ended y_returned y_reading y_buf y_log]; auto.
    intros F. destruct (ST F) as [L [(X & _ & Y)|X]]; auto 10.
Qed.
Lemma yarn_reach n s : yarn_run d cap n (yarn_start out) s -> exists got, yarn_inv s got.
Proof.
  intros H. remember (yarn_start out) as s0 eqn:E. induction H as [s|n s s' s'' _ IH ST]; subst; [exists []; apply yarn_init|].
  destruct (IH eq_refl) as (got & I). exact (yarn_next _ _ _ I ST).
Qed.

(* ------------------------------------------------------------------ theorems *)

Lemma logs_log text : bytes_ok text -> log_of d text (logs text).
Proof.
  intros OK. exists (file_lines text), (map (one_line d) (file_lines text)). split; [intros full last S; now apply C74_lines|]. split.
  - assert (Forall bytes_ok (file_lines text)) as F.
    { unfold file_lines. clear -OK. generalize (S (List.length text)). intros n. revert text OK. induction n as [|n IH]; intros text OK; [constructor|].
      destruct text as [|c t]; [constructor|]. cbn [scan_lines]. pose proof (first_line_inv (c :: t)) as F. destruct (first_line (c :: t)) as [l r]. destruct F as [_ F].
      destruct (scan_max <=? zlen l); [constructor|]. rewrite F in OK. apply Forall_app in OK as [OL OR].
      assert (bytes_ok (drop_cr l)) as D.
      { destruct (drop_cr_stripped l) as [Q|[Q _]]; [rewrite Q in OL; now apply Forall_app in OL as [OL _]|now rewrite Q]. }
      destruct r as [r|]; [|repeat constructor; exact D]. constructor; [exact D|]. apply IH. now inversion OR. }
    induction F as [|l ls OL _ IH]; [constructor|]. constructor; [now apply C107_line|exact IH].
  - unfold logs. apply flat_map_concat_map.
Qed.
(** At any time, what has been logged is what a part of the output, from its beginning, gives. *)
Theorem C107_log n s : bytes_ok out -> yarn_run d cap n (yarn_start out) s ->
  exists got rest, out = got ++ rest /\ log_of d got (y_log s).
Proof.
  intros OK H. destruct (yarn_reach n s H) as (got & [O _ _ _ RD ST]). destruct (y_reading s).
  - destruct (RD eq_refl) as (don & E & _ & _ & _ & _ & L & _). exists don, (y_buf s ++ y_pipe s ++ y_left s). split; [rewrite O, E; now rewrite <- app_assoc|].
    rewrite L. apply logs_log. rewrite O, E in OK. apply Forall_app in OK as [OK _]. now apply Forall_app in OK as [OK _].
  - destruct (ST eq_refl) as [L _]. exists got, (y_pipe s ++ y_left s). split; [exact O|]. rewrite L. apply logs_log. rewrite O in OK. now apply Forall_app in OK as [OK _].
Qed.
(** Nothing is missing if the reporter was done before Wait returned. *)
Theorem C107_complete n s : bytes_ok out -> yarn_run d cap n (yarn_start out) s -> y_reading s = false -> y_returned s = false -> log_of d out (y_log s).
Proof.
  intros OK H RF RR. destruct (yarn_reach n s H) as (got & [O _ E _ _ ST]). destruct (ST RF) as [L [(EN & [P|P] & _)|[X _]]].
  - rewrite P, (E EN) in O. rewrite app_nil_r in O. rewrite L, <- O. now apply logs_log.
  - congruence.
  - rewrite L, <- (X (y_pipe s ++ y_left s)), <- O. now apply logs_log.
Qed.
Definition fuel (s : yarn_state) : nat :=
  (2 * List.length (y_left s) + List.length (y_pipe s) + (if y_ended s then 0 else 1) + (if y_reading s then 1 else 0) + (if y_returned s then 0 else 1))%nat.
(** Every installation comes to an end ... *)
Theorem C107_finite n s : yarn_run d cap n (yarn_start out) s -> (n <= 2 * List.length out + 3)%nat.
Proof.
  intros H. assert (n + fuel s <= fuel (yarn_start out))%nat as K.
  { remember (yarn_start out) as s0 eqn:E. clear E. induction H as [s|n s s' s'' _ IH ST]; [lia|].
    enough (fuel s'' < fuel s')%nat by lia. clear IH. destruct ST; unfold fuel; cbn [y_left y_pipe y_ended y_reading y_returned List.length]; rewrite ?app_length; cbn [List.length]; try lia; destruct e; lia. }
  unfold fuel at 2 in K. cbn in K. lia.
Qed.
(** ... at which the request for it is answered, unless yarn wrote 65536 bytes without a line
    break and after them more than the pipe holds: then it waits forever. *)
Theorem C107_returns n s : 0 < cap -> yarn_run d cap n (yarn_start out) s -> stopped d cap s ->
  y_returned s = false <-> exists after, first_long out after /\ cap < zlen after.
Proof.
  intros CP H T. destruct (yarn_reach n s H) as (got & [O C E R RD ST]). split.
  - intros RR. destruct s as [l p e b r lg w]. cbn [y_pipe y_left y_ended y_returned y_reading y_buf y_log] in *. subst w.
    destruct e; [elim (T _ (yn_wait d cap l p b r lg))|]. destruct l as [|c l]; [elim (T _ (yn_end d cap p b r lg false))|].
    assert (cap <= zlen p) as FULL.
    { destruct (Z_lt_le_dec (zlen p) cap) as [X|X]; [|exact X]. elim (T _ (yn_write d cap c l p b r lg false X)). }
    destruct p as [|x p]; [unfold zlen in FULL; cbn in FULL; lia|]. destruct r.
    + exfalso. destruct (Z.eq_dec x 10) as [->|NX]; [exact (T _ (yn_newline d cap (c :: l) p false b lg))|].
      destruct (Z_lt_le_dec (zlen b + 1) scan_max) as [X|X]; [exact (T _ (yn_byte d cap x (c :: l) p false b lg NX X))|exact (T _ (yn_long d cap x (c :: l) p false b lg NX X))].
    + destruct (ST eq_refl) as [_ [(X & _)|[_ (a & m & -> & LR & LF)]]]; [discriminate|]. exists ((x :: p) ++ c :: l). split.
      * exists a, m. split; [now rewrite O, <- app_assoc|]. split; [exact LR|]. intros a' l' b' Q LR'.
        destruct (Nat.le_gt_cases (List.length a) (List.length a')) as [G|G]; [exact G|]. exfalso.
        rewrite O in Q. destruct LR as [L1 _], LR' as [L2 N2].
        assert (exists k, a ++ m = (a' ++ l') ++ k /\ k <> []) as (k & QK & NK).
        { assert (List.length (a' ++ l') < List.length (a ++ m))%nat as LT by (rewrite !app_length; unfold zlen in *; lia).
          rewrite (app_assoc a' l' b') in Q. destruct (prefix_split _ _ _ _ Q) as [k QK]; [lia|]. exists k. split; [exact QK|].
          intros ->. rewrite QK, app_nil_r in LT. lia. }
        destruct k as [|y k] using rev_ind; [congruence|]. rewrite QK, app_assoc, removelast_last, <- app_assoc in LF. exact (LF a' l' k eq_refl (conj L2 N2)).
      * rewrite zlen_app. rewrite (zlen_cons c l). pose proof (zlen_nonneg l). lia.
  - intros (after & (a & m & Q & LR & MIN) & LT). destruct (y_returned s) eqn:RR; [|reflexivity]. exfalso.
    pose proof (R eq_refl) as EN. rewrite (E EN), app_nil_r in O.
    assert (List.length got <= List.length (a ++ m))%nat as LG.
    { assert (long_free got -> List.length got <= List.length (a ++ m))%nat as K.
      { intros LF. destruct (Nat.le_gt_cases (List.length got) (List.length (a ++ m))) as [G|G]; [exact G|]. exfalso.
        rewrite O, (app_assoc a m after) in Q. destruct (prefix_split _ _ _ _ Q) as [k QK]; [lia|].
        apply (LF a m k); [|exact LR]. now rewrite QK, <- app_assoc. }
      destruct (y_reading s).
      - destruct (RD eq_refl) as (don & _ & _ & _ & _ & LF & _). exact (K LF).
      - destruct (ST eq_refl) as [_ [(_ & _ & LF)|[_ (a' & l' & -> & LR' & LF)]]]; [exact (K LF)|].
        destruct (Nat.le_gt_cases (List.length (a' ++ l')) (List.length (a ++ m))) as [G|G]; [exact G|]. exfalso.
        assert (exists k y, l' = k ++ [y]) as (k & y & ->).
        { destruct LR' as [L _]. clear -L. destruct l' as [|y l'] using rev_ind; [discriminate L|eauto]. }
        rename k into l'.
        rewrite (app_assoc a' l' [y]), removelast_last in LF. rewrite (app_assoc a' l' [y]), (app_length (a' ++ l') [y]) in G. cbn [List.length] in G.
        rewrite O, (app_assoc a m after), (app_assoc a' l' [y]), <- (app_assoc (a' ++ l')) in Q. destruct (prefix_split _ _ _ _ Q) as [k QK]; [lia|].
        apply (LF a m k); [|exact LR]. now rewrite QK, <- app_assoc. }
    apply (f_equal (@List.length _)) in Q. rewrite O in Q. rewrite app_assoc in Q. rewrite app_length, (app_length (a ++ m)) in Q. unfold zlen in *. lia.
Qed.
End Runs.

(** Some end is always reached. *)
Lemma step_or_stop d cap s : stopped d cap s \/ exists s', yarn_step d cap s s'.
Proof.
  destruct s as [l p e b r lg w]. destruct w.
  - destruct r; [right; eexists; apply yn_eof; now right|]. destruct e; [left; intros s' H; inversion H|].
    destruct l as [|c l]; [right; eexists; apply yn_end|]. destruct (Z_lt_le_dec (zlen p) cap) as [H|H]; [right; eexists; now apply yn_write|].
    left. intros s' X. inversion X; subst. lia.
  - destruct e; [right; eexists; apply yn_wait|]. destruct l as [|c l]; [right; eexists; apply yn_end|].
    destruct (Z_lt_le_dec (zlen p) cap) as [H|H]; [right; eexists; now apply yn_write|].
    destruct r.
    + destruct p as [|x p].
      * left. intros s' X. inversion X as [| | | | |? ? ? ? ? ? Y|]; subst; [lia|]. destruct Y as [[_ Y]|Y]; discriminate.
      * right. destruct (Z.eq_dec x 10) as [->|N]; [eexists; apply yn_newline|].
        destruct (Z_lt_le_dec (zlen b + 1) scan_max) as [X|X]; [eexists; now apply yn_byte|eexists; now apply yn_long].
    + left. intros s' X. inversion X; subst. lia.
Qed.
Theorem C107_ends d cap out : exists n s, yarn_run d cap n (yarn_start out) s /\ stopped d cap s.
Proof.
  assert (forall k n s, yarn_run d cap n (yarn_start out) s -> (2 * List.length out + 3 < n + k)%nat ->
    exists n s, yarn_run d cap n (yarn_start out) s /\ stopped d cap s) as K.
  { induction k as [|k IH]; intros n s H L; [pose proof (C107_finite d cap out n s H); lia|].
    destruct (step_or_stop d cap s) as [T|(s' & ST)]; [eauto|]. apply (IH (S n) s'); [econstructor; eassumption|lia]. }
  apply (K (2 * List.length out + 4)%nat 0%nat (yarn_start out)); [constructor|lia].
Qed.

Lemma run_trans d cap n m s s' s'' : yarn_run d cap n s s' -> yarn_run d cap m s' s'' -> exists k, yarn_run d cap k s s''.
Proof. intros H H'. induction H' as [s'|m s' t t' _ IH ST]; [eauto|]. destruct (IH H) as [k R]. exists (S k). econstructor; eassumption. Qed.
Definition leads d cap s s' : Prop := exists n, yarn_run d cap n s s'.
Lemma leads_step d cap s s' s'' : yarn_step d cap s s' -> leads d cap s' s'' -> leads d cap s s''.
Proof. intros ST [m H]. destruct (run_trans d cap 1 m s s' s'') as [k R]; [econstructor; [constructor|exact ST]|exact H|]. now exists k. Qed.
Lemma leads_refl d cap s : leads d cap s s.
Proof. exists 0%nat. constructor. Qed.
Lemma leads_trans d cap s s' s'' : leads d cap s s' -> leads d cap s' s'' -> leads d cap s s''.
Proof. intros [n H] [m H']. destruct (run_trans _ _ _ _ _ _ _ H H') as [k R]. now exists k. Qed.
Lemma writes d cap l : forall p b r lg w, zlen p + zlen l <= cap -> leads d cap (mkys l p false b r lg w) (mkys [] (p ++ l) false b r lg w).
Proof.
  induction l as [|c l IH]; intros p b r lg w L; [rewrite app_nil_r; apply leads_refl|]. rewrite (zlen_cons c l) in L. pose proof (zlen_nonneg l).
  eapply leads_step; [apply yn_write; lia|]. replace (p ++ c :: l) with ((p ++ [c]) ++ l) by now rewrite <- app_assoc.
  apply IH. rewrite zlen_app. change (zlen [c]) with 1. lia.
Qed.
Lemma reads d cap l : forall e b x p lg, ~ In 10 x -> zlen b + zlen x < 65536 -> leads d cap (mkys l (x ++ p) e b true lg false) (mkys l p e (b ++ x) true lg false).
Proof.
  intros e b x. revert b. induction x as [|c x IH]; intros b p lg N L; [rewrite app_nil_r; apply leads_refl|]. rewrite (zlen_cons c x) in L. pose proof (zlen_nonneg x).
  cbn [app]. eapply leads_step; [apply yn_byte; [intros ->; apply N; now left|unfold scan_max; lia]|].
  replace (b ++ c :: x) with ((b ++ [c]) ++ x) by now rewrite <- app_assoc. apply IH; [intros I; apply N; now right|].
  rewrite zlen_app. change (zlen [c]) with 1. lia.
Qed.
(** The reporter and Wait race: the same output, a step line, may be reported or not. *)
Definition step_text : bytes := str "{""type"":""step"",""data"":{""message"":""Linking"",""current"":3,""total"":4}}".
Theorem C107_lost_refuted : exists out s s', leads 100 65536 (yarn_start out) s /\ stopped 100 65536 s /\ y_log s = [] /\
  leads 100 65536 (yarn_start out) s' /\ stopped 100 65536 s' /\ y_log s' = [RProgress (S754_finite false 6755399441055744 (-51)) (S754_finite false 4503599627370496 (-50))].
Proof.
  exists (step_text ++ [10]). exists (mkys [] (step_text ++ [10]) true [] false [] true).
  exists (mkys [] [] true [] false [RProgress (S754_finite false 6755399441055744 (-51)) (S754_finite false 4503599627370496 (-50))] true).
  assert (zlen (@nil Z) + zlen (step_text ++ [10]) <= 65536) as L by (vm_compute; discriminate).
  assert (leads 100 65536 (yarn_start (step_text ++ [10])) (mkys [] (step_text ++ [10]) true [] true [] false)) as W.
  { eapply leads_trans; [apply writes; exact L|]. eapply leads_step; [apply yn_end|apply leads_refl]. }
  split; [|split; [|split; [reflexivity|split; [|split; [|reflexivity]]]]].
  - eapply leads_trans; [exact W|]. eapply leads_step; [apply yn_wait|]. eapply leads_step; [apply yn_eof; now right|]. apply leads_refl.
  - intros s' H. inversion H.
  - eapply leads_trans; [exact W|]. eapply leads_trans; [apply (reads 100 65536 [] true [] step_text [10] [])|].
    + assert (existsb (Z.eqb 10) step_text = false) as X by reflexivity. intros I.
      assert (existsb (Z.eqb 10) step_text = true) as Y by (apply existsb_exists; exists 10; split; [exact I|reflexivity]). congruence.
    + vm_compute. reflexivity.
    + eapply leads_step; [apply yn_newline|]. eapply leads_step; [apply yn_eof; left; split; reflexivity|]. eapply leads_step; [apply yn_wait|].
      match goal with |- leads _ _ ?a ?b => assert (a = b) as -> end; [vm_compute; reflexivity|apply leads_refl].
  - intros s' H. inversion H.
Qed.
(** A run without line break that fills the reporter and the pipe: no end of it is an answer. *)
Theorem C107_hangs_refuted : exists out, forall n s, yarn_run 100 65536 n (yarn_start out) s -> stopped 100 65536 s -> y_returned s = false.
Proof.
  set (k := Z.to_nat 65536). assert (zlen (repeat 65 k) = 65536) as L by (unfold zlen; rewrite repeat_length; unfold k; lia).
  exists (repeat 65 k ++ repeat 65 k ++ [65]). intros n s H T. apply (C107_returns 100 65536 _ n s ltac:(lia) H T).
  exists (repeat 65 k ++ [65]). split; [|rewrite zlen_app, L; reflexivity].
  exists [], (repeat 65 k). split; [reflexivity|]. split; [|intros; cbn; lia]. split; [exact L|]. intros I. apply repeat_spec in I. discriminate.
Qed.
Example C107_example : bytes_ok (step_text ++ [10]) /\ one_line 100 step_text = [RProgress (S754_finite false 6755399441055744 (-51)) (S754_finite false 4503599627370496 (-50))] /\
  one_line 100 (str "{""type"":""step""}") = [RNoData] /\ one_line 100 (str "{""type"":""info"",""data"":""x""}") = [] /\ one_line 100 (str "yarn add") = [].
Proof.
  split; [|vm_compute; auto]. apply Forall_forall. intros c I. assert (forallb (fun c => (0 <=? c) && (c <? 256)) (step_text ++ [10]) = true) as F by reflexivity.
  rewrite forallb_forall in F. specialize (F c I). unfold is_byte. lia.
Qed.
