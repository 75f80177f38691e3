(** XmlLex: the reader of XmlModel on characters, names, text and markup that says nothing. *)
From Coq Require Import ZArith Lia ZifyBool.
From Verif Require Import GoBase BufFacts Strconv NmeaTypes NmeaModel NmeaSpec SignalkModel SignalkSpec JsonSpec JsonModel JsonFacts JsonUnique UnjsonModel UnjsonSpec UnjsonLex XmlModel XmlSpec.
Open Scope Z_scope.
Open Scope list_scope.

Lemma bok_cons c s : bytes_ok (c :: s) -> bytes_ok s. Proof. now inversion 1. Qed.
Lemma bok_r a b : bytes_ok (a ++ b) -> bytes_ok b. Proof. intros H. apply Forall_app in H. tauto. Qed.
Lemma bok_l a b : bytes_ok (a ++ b) -> bytes_ok a. Proof. intros H. apply Forall_app in H. tauto. Qed.
Lemma prefix_iff p s : has_prefix p s = true <-> exists r, s = p ++ r.
Proof.
  revert s. induction p as [|a p IH]; intros s; cbn [has_prefix]. { split; [exists s; reflexivity|reflexivity]. }
  destruct s as [|b s]; [split; [discriminate|intros [r H]; discriminate]|]. rewrite andb_true_iff, IH, Z.eqb_eq. split.
  - intros [-> [r ->]]. now exists r.
  - intros [r H]. cbn [app] in H. injection H as -> ->. split; [reflexivity|now exists r].
Qed.
Lemma prefix_skip p s : has_prefix p s = true -> s = p ++ skipn (List.length p) s.
Proof. intros H. apply prefix_iff in H as [r ->]. now rewrite skipn_app, skipn_all, Nat.sub_diag. Qed.

(* ------------------------------------------------------------------ first occurrences *)

Lemma cut_sound p s : forall a b, cut p s = Some (a, b) -> first_at p a b s.
Proof.
  induction s as [|c s IH]; intros a b; cbn [cut]; destruct (has_prefix p _) eqn:E.
  - intros H. injection H as <- <-. split; [now apply prefix_skip|intros; cbn [List.length]; lia].
  - discriminate.
  - intros H. injection H as <- <-. split; [now apply prefix_skip|intros; cbn [List.length]; lia].
  - destruct (cut p s) as [[x y]|] eqn:C; [|discriminate]. intros H. injection H as <- <-. destruct (IH x y eq_refl) as [-> M].
    split; [reflexivity|]. intros [|d a'] b' H.
    + exfalso. cbn [app] in H. assert (has_prefix p (c :: x ++ p ++ y) = true) as T by (apply prefix_iff; exists b'; exact H). congruence.
    + cbn [app] in H. injection H as _ H. apply M in H. cbn [List.length]. lia.
Qed.
Lemma cut_first p a : forall b s, first_at p a b s -> cut p s = Some (a, b).
Proof.
  induction a as [|c a IH]; intros b s [-> M].
  - cbn [app]. assert (has_prefix p (p ++ b) = true) as T by (apply prefix_iff; now exists b).
    assert (skipn (List.length p) (p ++ b) = b) as K by now rewrite skipn_app, skipn_all, Nat.sub_diag.
    destruct (p ++ b) as [|x q] eqn:E; cbn [cut]; rewrite T, K; reflexivity.
  - cbn [app cut]. destruct (has_prefix p (c :: a ++ p ++ b)) eqn:E.
    + apply prefix_iff in E as [r E]. specialize (M [] r E). cbn [List.length] in M. lia.
    + rewrite (IH b (a ++ p ++ b)); [reflexivity|]. split; [reflexivity|]. intros a' b' H. specialize (M (c :: a') b'). cbn [List.length app] in M.
      rewrite H in M. specialize (M eq_refl). lia.
Qed.
Lemma cut_iff p s a b : cut p s = Some (a, b) <-> first_at p a b s.
Proof. split; [apply cut_sound|apply cut_first]. Qed.
(** What follows the pattern does not matter. *)
Lemma first_at_more p a b : first_at p a b (a ++ p ++ b) <-> first_at p a [] (a ++ p).
Proof.
  split; intros [_ M]; (split; [now rewrite ?app_nil_r|]).
  - intros a' b' H. apply (M a' (b' ++ b)). rewrite app_assoc, H, <- !app_assoc. reflexivity.
  - intros a' b' H. destruct (Nat.le_gt_cases (List.length a) (List.length a')) as [L|L]; [exact L|]. exfalso.
    assert (firstn (List.length (a ++ p)) (a ++ p ++ b) = a ++ p) as F by (rewrite app_assoc, firstn_app, Nat.sub_diag, firstn_all; cbn [firstn]; now rewrite app_nil_r).
    rewrite H in F. rewrite app_assoc, firstn_app in F. rewrite firstn_all2 in F by (rewrite !app_length; lia). rewrite <- app_assoc in F.
    symmetry in F. apply M in F. lia.
Qed.
Lemma first_at_single q v b : ~ In q v -> first_at [q] v b (v ++ [q] ++ b).
Proof.
  intros N. split; [reflexivity|]. intros a' b' H. destruct (Nat.le_gt_cases (List.length v) (List.length a')) as [L|L]; [exact L|].
  elim N. assert (nth_error (v ++ [q] ++ b) (List.length a') = Some q) as K by (rewrite H, nth_error_app2, Nat.sub_diag by lia; reflexivity).
  rewrite nth_error_app1 in K by exact L. now apply nth_error_In in K.
Qed.
Lemma first_single_notin q v b s : first_at [q] v b s -> ~ In q v.
Proof.
  intros [-> M] I. apply in_split in I as (x & y & ->). specialize (M x (y ++ [q] ++ b)). rewrite <- app_assoc in M. cbn [app] in M. specialize (M eq_refl).
  rewrite app_length in M. cbn [List.length] in M. lia.
Qed.

(* ------------------------------------------------------------------ characters *)

Lemma runes_sound f : forall s cs, bytes_ok s -> runes f s = Some cs -> utf8_text s cs.
Proof.
  induction f as [|f IH]; intros s cs OK H; [discriminate|]. cbn [runes] in H. destruct s as [|b s]; [injection H as <-; constructor|].
  destruct (decode_rune (b :: s)) as [[c n]|] eqn:D; [|discriminate]. destruct (runes f (skipn n (b :: s))) as [cs'|] eqn:R; [|discriminate].
  injection H as <-. destruct (decode_sound _ _ _ OK D) as (enc & r & E & -> & U). rewrite E in *. rewrite skipn_app, skipn_all, Nat.sub_diag in R. cbn [skipn app] in R.
  constructor; [exact U|]. apply IH; [now apply bok_r in OK|exact R].
Qed.
Lemma runes_complete s cs : utf8_text s cs -> forall f, (List.length s < f)%nat -> runes f s = Some cs.
Proof.
  induction 1 as [|c enc r cs U _ IH]; intros f L; (destruct f as [|f]; [lia|]); [reflexivity|]. cbn [runes].
  pose proof (decode_utf8 c enc r U) as D. pose proof (utf8_len _ _ U) as LU. rewrite app_length in L.
  destruct (enc ++ r) as [|x y] eqn:E. { apply (f_equal (@List.length Z)) in E. rewrite app_length in E. cbn [List.length] in E. lia. }
  rewrite D, <- E, skipn_app, skipn_all, Nat.sub_diag. cbn [skipn app]. rewrite IH by lia. reflexivity.
Qed.
Lemma in_char_range_iff c : in_char_range c = true <-> xml_char c.
Proof. unfold in_char_range, xml_char. lia. Qed.
Lemma checked_iff d : bytes_ok d -> checked d = true <-> xml_text d.
Proof.
  intros OK. unfold checked, xml_text. split.
  - destruct (runes _ d) as [cs|] eqn:R; [|discriminate]. intros H. exists cs. split; [now apply (runes_sound _ _ _ OK R)|].
    apply Forall_forall. intros c I. rewrite forallb_forall in H. now apply in_char_range_iff, H.
  - intros (cs & U & F). rewrite (runes_complete _ _ U) by lia. apply forallb_forall. intros c I. rewrite Forall_forall in F. now apply in_char_range_iff, F.
Qed.
Lemma checked_text d : xml_text d -> checked d = true.
Proof.
  intros (cs & U & F). unfold checked. rewrite (runes_complete _ _ U) by lia. apply forallb_forall. intros c I. rewrite Forall_forall in F. now apply in_char_range_iff, F.
Qed.

(* ------------------------------------------------------------------ names *)

Lemma name_byte_iff c : name_byte c = true <-> name_char c.
Proof. unfold name_byte, name_char, letter. lia. Qed.
Lemma span_name_sound s : forall n r, span_name s = (n, r) -> s = n ++ r /\ Forall name_char n /\ stops name_char r.
Proof.
  induction s as [|c s IH]; intros n r; cbn [span_name]. { intros H. injection H as <- <-. repeat constructor. }
  destruct (name_byte c) eqn:E.
  - destruct (span_name s) as [m q]. intros H. injection H as <- <-. destruct (IH m q eq_refl) as (-> & F & S). split; [reflexivity|]. split; [|exact S].
    constructor; [now apply name_byte_iff|exact F].
  - intros H. injection H as <- <-. split; [reflexivity|]. split; [constructor|]. cbn [stops]. intros N. apply name_byte_iff in N. congruence.
Qed.
Lemma span_name_app n r : Forall name_char n -> stops name_char r -> span_name (n ++ r) = (n, r).
Proof.
  intros F S. induction F as [|c n H _ IH]; cbn [app].
  - destruct r as [|c r]; [reflexivity|]. cbn [span_name]. destruct (name_byte c) eqn:E; [|reflexivity]. apply name_byte_iff in E. contradiction.
  - cbn [span_name]. apply name_byte_iff in H. now rewrite H, IH.
Qed.
Lemma is_name_iff wide n : Forall name_char n -> is_name wide n = true <-> name_text wide n.
Proof.
  intros F. unfold is_name, name_text. destruct (forallb (fun c => c <? 128) n) eqn:A.
  - assert (Forall (fun c => c < 128) n) as A' by (apply Forall_forall; intros c I; rewrite forallb_forall in A; specialize (A c I); lia).
    split.
    + destruct n as [|c n]; [discriminate|]. intros H. split; [exact F|]. left. split; [exact A'|]. exists c, n. split; [reflexivity|]. unfold letter. lia.
    + intros (_ & [(_ & c & r & -> & L)|(N & _)]); [unfold letter in L; lia|contradiction].
  - assert (~ Forall (fun c => c < 128) n) as A'. { intros H. rewrite Forall_forall in H. assert (forallb (fun c => c <? 128) n = true) by (apply forallb_forall; intros c I; specialize (H c I); lia). congruence. }
    split; [tauto|]. intros (_ & [(N & _)|(_ & W)]); [contradiction|exact W].
Qed.
Lemma read_name_iff wide s n r : read_name wide s = Some (n, r) <-> s = n ++ r /\ name_text wide n /\ not_name r.
Proof.
  unfold read_name. split.
  - destruct (span_name s) as [m q] eqn:E. destruct (span_name_sound _ _ _ E) as (-> & F & S). destruct q as [|c q]; [discriminate|].
    destruct (is_name wide m) eqn:N; [|discriminate]. intros H. injection H as <- <-. split; [reflexivity|]. split; [now apply is_name_iff|]. exists c, q. split; [reflexivity|exact S].
  - intros (-> & N & c & q & -> & S). pose proof N as [F _]. rewrite span_name_app by (auto; exact S). apply is_name_iff in N; [|exact F]. now rewrite N.
Qed.
Lemma name_not_nil wide n : name_text wide n -> (forall c r, n = c :: r -> name_char c).
Proof. intros [F _] c r ->. now inversion F. Qed.
Lemma split_colon_some n : forall a b, split_colon n = Some (a, b) -> n = a ++ [58] ++ b /\ ~ In 58 a.
Proof.
  induction n as [|c n IH]; intros a b; cbn [split_colon]; [discriminate|]. destruct (Z.eqb_spec c 58) as [->|N].
  - intros H. injection H as <- <-. split; [reflexivity|auto].
  - destruct (split_colon n) as [[x y]|]; [|discriminate]. intros H. injection H as <- <-. destruct (IH x y eq_refl) as [-> I]. split; [reflexivity|].
    intros [H|H]; [congruence|contradiction].
Qed.
Lemma split_colon_none n : split_colon n = None -> ~ In 58 n.
Proof.
  induction n as [|c n IH]; cbn [split_colon]; [auto|]. destruct (Z.eqb_spec c 58) as [->|N]; [discriminate|].
  destruct (split_colon n) as [[x y]|]; [discriminate|]. intros _ [H|H]; [congruence|]. now apply IH.
Qed.
Lemma ns_name_splits n : splits n (ns_name n).
Proof.
  unfold ns_name, splits. destruct (split_colon n) as [[a b]|] eqn:E; [left; now apply split_colon_some|right]. apply split_colon_none in E. auto.
Qed.
Lemma split_colon_app a b : ~ In 58 a -> split_colon (a ++ [58] ++ b) = Some (a, b).
Proof.
  induction a as [|c a IH]; intros N; [reflexivity|]. cbn [app split_colon]. destruct (Z.eqb_spec c 58) as [->|]; [elim N; now left|].
  cbn [app] in IH. rewrite IH; [reflexivity|]. intros H. apply N. now right.
Qed.
Lemma splits_fun n q : splits n q -> q = ns_name n.
Proof.
  intros H. unfold ns_name. destruct H as [[E N]|[N ->]].
  - rewrite E, (split_colon_app _ _ N). now destruct q.
  - destruct (split_colon n) as [[a b]|] eqn:E; [|reflexivity]. apply split_colon_some in E as [-> _]. elim N. apply in_or_app. right. now left.
Qed.

(* ------------------------------------------------------------------ references *)

Definition dig_of (hex : bool) (c v : Z) : Prop := hex_value c v /\ (v < 10 \/ hex = true).
Lemma span_base_sound hex s : forall d r, span_base hex s = (d, r) -> exists cs, s = cs ++ r /\ Forall2 (dig_of hex) cs d.
Proof.
  induction s as [|c s IH]; intros d r; cbn [span_base]. { intros H. injection H as <- <-. exists []. split; [reflexivity|constructor]. }
  destruct (hexv c) as [v|] eqn:E.
  - destruct ((v <? 10) || hex) eqn:B.
    + destruct (span_base hex s) as [d' r']. intros H. injection H as <- <-. destruct (IH d' r' eq_refl) as (cs & -> & F). exists (c :: cs). split; [reflexivity|].
      constructor; [|exact F]. split; [now apply hexv_value|]. destruct hex; [now right|left; lia].
    + intros H. injection H as <- <-. exists []. split; [reflexivity|constructor].
  - intros H. injection H as <- <-. exists []. split; [reflexivity|constructor].
Qed.
Lemma span_base_app hex cs d r : Forall2 (dig_of hex) cs d -> span_base hex (cs ++ 59 :: r) = (d, 59 :: r).
Proof.
  induction 1 as [|c v cs d [H B] _ IH]; [reflexivity|]. cbn [app span_base]. apply hexv_value in H. rewrite H.
  replace ((v <? 10) || hex) with true by (destruct hex; lia). now rewrite IH.
Qed.
Lemma base_value_snoc hex d v : base_value hex (d ++ [v]) = base_value hex d * (if hex then 16 else 10) + v.
Proof. unfold base_value. now rewrite fold_left_app. Qed.
Lemma number_in_digits (hex : bool) cs n : number_in (if hex then 16 else 10) cs n <-> exists d, d <> [] /\ Forall2 (dig_of hex) cs d /\ n = base_value hex d.
Proof.
  split.
  - induction 1 as [c v H L|ds n c v _ (d & N & F & ->) H L].
    + exists [v]. split; [discriminate|]. split; [|reflexivity]. constructor; [|constructor]. split; [exact H|]. destruct hex; [now right|now left].
    + exists (d ++ [v]). split; [now destruct d|]. split; [|now rewrite base_value_snoc]. apply Forall2_app; [exact F|]. constructor; [|constructor]. split; [exact H|]. destruct hex; [now right|now left].
  - intros (d & N & F & ->). revert cs F. induction d as [|v d IH] using rev_ind; [contradiction|]. intros cs F.
    apply Forall2_app_inv_r in F as (a & b & Fa & Fb & ->). inversion Fb as [|c ? ? ? [H B] Fn]; subst. inversion Fn; subst.
    assert (v < (if hex then 16 else 10)) as L by (unfold hex_value in H; destruct hex; destruct B; try discriminate; lia).
    destruct d as [|u d].
    + inversion Fa; subst. unfold base_value. cbn [app fold_left]. change (0 * (if hex then 16 else 10) + v) with v. now constructor.
    + rewrite base_value_snoc. constructor; [|exact H|exact L]. apply IH; [discriminate|exact Fa].
Qed.
Lemma number_in_pos base cs n : number_in base cs n -> 0 <= base -> 0 <= n.
Proof. induction 1 as [c v H|? ? ? ? _ IH H]; intros; unfold hex_value in H; [lia|]. specialize (IH H1). nia. Qed.

Lemma rune_text_ref n : 0 <= n <= 1114111 -> utf8 n (rune_text n) \/ (55296 <= n < 57344 /\ utf8 65533 (rune_text n)).
Proof.
  intros R. unfold rune_text. destruct ((55296 <=? n) && (n <? 57344)) eqn:E.
  - right. split; [lia|apply replacement_utf8].
  - left. apply encode_rune_utf8; lia.
Qed.
Lemma rune_text_utf8 n enc : utf8 n enc -> 0 <= n <= 1114111 /\ rune_text n = enc.
Proof.
  intros U. split; [destruct U; lia|]. unfold rune_text. replace ((55296 <=? n) && (n <? 57344)) with false by (destruct U; lia). symmetry. now apply utf8_encode.
Qed.
Lemma rune_text_surrogate n enc : 55296 <= n < 57344 -> utf8 65533 enc -> rune_text n = enc.
Proof.
  intros S U. unfold rune_text. replace ((55296 <=? n) && (n <? 57344)) with true by lia. rewrite (utf8_encode _ _ U). reflexivity.
Qed.
Lemma entity_in n c : entity n = Some c <-> In (n, c) [(str "lt", 60); (str "gt", 62); (str "amp", 38); (str "apos", 39); (str "quot", 34)].
Proof.
  unfold entity. cbn [In]. split.
  - repeat (match goal with |- context [bytes_eqb n ?k] => let E := fresh in destruct (bytes_eqb n k) eqn:E;
      [apply bytes_eqb_eq in E; let J := fresh in intros J; apply (f_equal (fun o => match o with Some z => z | None => 0 end)) in J; cbv beta iota in J; rewrite E, J; tauto|] end). discriminate.
  - intros [H|[H|[H|[H|[H|[]]]]]]; injection H as <- <-; reflexivity.
Qed.
Lemma reference_sound s t r : reference s = Some (t, r) -> exists u, 38 :: s = u ++ r /\ ref_text u t.
Proof.
  unfold reference. destruct s as [|c s]; [discriminate|]. destruct (Z.eqb_spec c 35) as [->|NC].
  - assert (forall (hex : bool) q, (let '(d, r2) := span_base hex q in
        match r2 with
        | e :: r3 => if e =? 59 then match d with [] => None | _ :: _ => if base_value hex d <=? 1114111 then Some (rune_text (base_value hex d), r3) else None end else None
        | [] => None end) = Some (t, r) -> exists cs n, q = cs ++ [59] ++ r /\ number_in (if hex then 16 else 10) cs n /\ (utf8 n t \/ 55296 <= n < 57344 /\ utf8 65533 t)) as K.
    { intros hex q. destruct (span_base hex q) as [d r2] eqn:E. destruct (span_base_sound _ _ _ _ E) as (cs & -> & F). destruct r2 as [|e r3]; [discriminate|].
      destruct (Z.eqb_spec e 59) as [->|]; [|discriminate]. destruct d as [|v d]; [discriminate|]. destruct (Z.leb_spec (base_value hex (v :: d)) 1114111) as [L|]; [|discriminate].
      intros H. injection H as <- <-. assert (number_in (if hex then 16 else 10) cs (base_value hex (v :: d))) as NI by (apply number_in_digits; exists (v :: d); split; [discriminate|auto]).
      exists cs, (base_value hex (v :: d)). split; [reflexivity|]. split; [exact NI|]. apply rune_text_ref. split; [|exact L]. apply number_in_pos in NI; [exact NI|destruct hex; lia]. }
    destruct s as [|x s].
    + intros H. apply (K false []) in H as (cs & n & E & _). destruct cs; discriminate.
    + destruct (Z.eqb_spec x 120) as [->|NX].
      * intros H. apply (K true s) in H as (cs & n & -> & NI & U). exists (str "&#x" ++ cs ++ str ";"). split; [cbn [str app]; now rewrite <- app_assoc|].
        destruct U as [U|[S U]]; [now apply rt_hex with n|now apply rt_hex_surrogate with n].
      * intros H. apply (K false (x :: s)) in H as (cs & n & E & NI & U). exists (str "&#" ++ cs ++ str ";"). split; [cbn [str app]; rewrite E, <- app_assoc; reflexivity|].
        destruct U as [U|[S U]]; [now apply rt_dec with n|now apply rt_dec_surrogate with n].
  - destruct (span_name (c :: s)) as [n r1] eqn:E. destruct (span_name_sound _ _ _ E) as (-> & F & S). destruct r1 as [|e r2]; [discriminate|].
    destruct (Z.eqb_spec e 59) as [->|]; [|discriminate]. destruct (entity n) as [x|] eqn:EN; [|discriminate]. intros H. injection H as <- <-.
    exists (str "&" ++ n ++ str ";"). split; [cbn [str app]; now rewrite <- app_assoc|]. constructor. now apply entity_in.
Qed.
Lemma reference_app u t r : ref_text u t -> exists v, u = 38 :: v /\ reference (v ++ r) = Some (t, r).
Proof.
  assert (forall (hex : bool) cs n, number_in (if hex then 16 else 10) cs n -> 0 <= n <= 1114111 ->
     exists c d, cs = c :: d /\ c <> 120 /\ (let '(d, r2) := span_base hex (cs ++ 59 :: r) in
        match r2 with
        | e :: r3 => if e =? 59 then match d with [] => None | _ :: _ => if base_value hex d <=? 1114111 then Some (rune_text (base_value hex d), r3) else None end else None
        | [] => None end) = Some (rune_text n, r)) as K.
  { intros hex cs n NI R. apply number_in_digits in NI as (d & N & F & ->). destruct d as [|v d]; [contradiction|]. inversion F as [|c ? cs' ? [H B] F']; subst.
    exists c, cs'. split; [reflexivity|]. split; [unfold hex_value in H; lia|]. rewrite (span_base_app _ _ _ _ F). change (59 =? 59) with true. cbv iota.
    replace (base_value hex (v :: d) <=? 1114111) with true by lia. reflexivity. }
  assert (forall (hex : bool) cs n, number_in (if hex then 16 else 10) cs n -> 0 <= n <= 1114111 -> reference ((if hex then [35; 120] else [35]) ++ cs ++ 59 :: r) = Some (rune_text n, r)) as K2.
  { intros hex cs n NI R. destruct (K hex cs n NI R) as (c & d & E & N & P). unfold reference. destruct hex; cbn [app].
    - change (35 =? 35) with true. change (120 =? 120) with true. cbv iota. exact P.
    - change (35 =? 35) with true. cbv iota. rewrite E in *. cbn [app] in *. destruct (Z.eqb_spec c 120); [contradiction|]. exact P. }
  assert (forall cs n, number_in 10 cs n -> 0 <= n) as P10 by (intros cs n NI; apply number_in_pos in NI; lia).
  assert (forall cs n, number_in 16 cs n -> 0 <= n) as P16 by (intros cs n NI; apply number_in_pos in NI; lia).
  intros [n c I|ds n enc NI U|ds n enc NI U|ds n enc NI S U|ds n enc NI S U].
  - exists (n ++ str ";"). split; [reflexivity|]. rewrite <- app_assoc. change (str ";" ++ r) with (59 :: r).
    pose proof (proj2 (entity_in n c) I) as EN.
    assert (Forall name_char n /\ exists x y, n = x :: y /\ x <> 35) as [F (x & y & EX & NX)].
    { cbn [In] in I. unfold name_char, letter. destruct I as [H|[H|[H|[H|[H|[]]]]]]; injection H as <- <-; (split; [cbn [str]; repeat (constructor; [cbn; lia|]); constructor|eexists _, _; split; [reflexivity|cbn; lia]]). }
    subst n. unfold reference. cbn [app]. destruct (Z.eqb_spec x 35); [contradiction|].
    change (x :: y ++ 59 :: r) with ((x :: y) ++ 59 :: r). rewrite span_name_app; [|exact F|cbn [stops]; unfold name_char, letter; lia].
    change (59 =? 59) with true. cbv iota. now rewrite EN.
  - destruct (rune_text_utf8 _ _ U) as [R <-]. exists ([35] ++ ds ++ str ";"). split; [reflexivity|]. rewrite <- !app_assoc. change (str ";" ++ r) with (59 :: r). now apply (K2 false).
  - destruct (rune_text_utf8 _ _ U) as [R <-]. exists ([35; 120] ++ ds ++ str ";"). split; [reflexivity|]. rewrite <- !app_assoc. change (str ";" ++ r) with (59 :: r). now apply (K2 true).
  - rewrite <- (rune_text_surrogate _ _ S U). exists ([35] ++ ds ++ str ";"). split; [reflexivity|]. rewrite <- !app_assoc. change (str ";" ++ r) with (59 :: r). apply (K2 false); [exact NI|lia].
  - rewrite <- (rune_text_surrogate _ _ S U). exists ([35; 120] ++ ds ++ str ";"). split; [reflexivity|]. rewrite <- !app_assoc. change (str ";" ++ r) with (59 :: r). apply (K2 true); [exact NI|lia].
Qed.
Lemma ref_text_len u t : ref_text u t -> (1 <= List.length u)%nat.
Proof. intros []; cbn [str app List.length]; lia. Qed.

(* ------------------------------------------------------------------ text *)

Lemma occurs_suffix p a b : occurs p b -> occurs p (a ++ b).
Proof. intros (x & y & ->). exists (a ++ x), y. now rewrite app_assoc. Qed.
Lemma occurs_cons p c b : occurs p (c :: b) -> (exists y, c :: b = p ++ y) \/ occurs p b.
Proof. intros ([|d x] & y & E); [left; now exists y|]. cbn [app] in E. injection E as _ ->. right. now exists x, y. Qed.
Lemma occurs_free p c0 a b : (exists q, p = c0 :: q) -> ~ In c0 a -> occurs p (a ++ b) -> occurs p b.
Proof.
  intros [q ->] N. induction a as [|c a IH]; [auto|]. cbn [app]. intros H. apply occurs_cons in H as [[y E]|H].
  - cbn [app] in E. injection E as -> _. elim N. now left.
  - apply IH; [|exact H]. intros I. apply N. now right.
Qed.
Lemma hex_value_no93 c v : hex_value c v -> c <> 93. Proof. unfold hex_value. lia. Qed.
Lemma number_no93 base cs n : number_in base cs n -> ~ In 93 cs.
Proof.
  induction 1 as [c v H|ds n c v _ IH H]; intros I.
  - destruct I as [->|[]]. now apply hex_value_no93 in H.
  - apply in_app_or in I as [I|[->|[]]]; [contradiction|]. now apply hex_value_no93 in H.
Qed.
Lemma ref_no93 u t : ref_text u t -> ~ In 93 u.
Proof.
  intros [n c I|ds n enc NI U|ds n enc NI U|ds n enc NI S U|ds n enc NI S U] J;
  try (apply number_no93 in NI; cbn [str app In] in J; repeat (destruct J as [J|J]; [cbn in J; lia|]); apply in_app_or in J as [J|[J|[]]]; [contradiction|cbn in J; lia]).
  cbn [In] in I. destruct I as [H|[H|[H|[H|[H|[]]]]]]; injection H as <- <-; cbn in J; lia.
Qed.
Lemma no_end_prefix b tail : ~ occurs (str "]]>") b -> match tail with [] => True | c :: _ => c <> 93 /\ c <> 62 end -> has_prefix [93; 93; 62] (b ++ tail) = false.
Proof.
  intros N T. destruct (has_prefix [93; 93; 62] (b ++ tail)) eqn:E; [|reflexivity]. exfalso. apply prefix_iff in E as [r E].
  destruct b as [|x [|y [|z b]]]; cbn [app] in E.
  - destruct tail as [|c t]; [discriminate|]. injection E as -> _. tauto.
  - injection E as -> E. destruct tail as [|c t]; [discriminate|]. injection E as -> _. tauto.
  - injection E as -> -> E. destruct tail as [|c t]; [discriminate|]. injection E as -> _. tauto.
  - injection E as -> -> -> E. apply N. exists [], b. reflexivity.
Qed.
Definition stop_of (q : option Z) (c : Z) : Prop := c = 60 \/ q = Some c.
Definition after (q : option Z) (r : bytes) : bytes := match q with None => r | Some x => x :: r end.
Definition after_ok (q : option Z) (r : bytes) : Prop := match q with None => r = [] \/ exists t, r = 60 :: t | Some x => True end.
Lemma text_loop_sound q : (forall x, q = Some x -> x = 34 \/ x = 39) -> forall f s d r, text_loop f q s = Some (d, r) ->
  exists b, s = b ++ after q r /\ after_ok q r /\ run false (stop_of q) b d /\ ~ occurs (str "]]>") b.
Proof.
  intros Q. induction f as [|f IH]; intros s d r H; [discriminate|]. cbn [text_loop] in H.
  assert (~ occurs (str "]]>") []) as NN by (intros (x & y & E); destruct x; discriminate).
  destruct s as [|c s].
  { destruct q; [discriminate|]. injection H as <- <-. exists []. split; [reflexivity|]. split; [now left|]. split; [constructor|exact NN]. }
  destruct (has_prefix [93; 93; 62] (c :: s)) eqn:HP; [discriminate|].
  assert (forall b, (exists t, c :: s = (c :: b) ++ t) -> ~ occurs (str "]]>") b -> ~ occurs (str "]]>") (c :: b)) as NO.
  { intros b [t E] N O. apply occurs_cons in O as [[y E2]|O]; [|contradiction]. assert (has_prefix [93; 93; 62] (c :: s) = true); [|congruence].
    apply prefix_iff. exists (y ++ t). rewrite E, E2, <- app_assoc. reflexivity. }
  destruct (Z.eqb_spec c 60) as [->|N60].
  { destruct q; [discriminate|]. injection H as <- <-. exists []. split; [reflexivity|]. split; [right; now exists s|]. split; [constructor|exact NN]. }
  destruct (match q with Some x => c =? x | None => false end) eqn:EQ.
  { destruct q as [x|]; [|discriminate]. injection H as <- <-. exists []. split; [cbn [app after]; f_equal; lia|]. split; [exact I|]. split; [constructor|exact NN]. }
  assert (~ stop_of q c) as NS. { intros [H1|H1]; [contradiction|]. rewrite H1 in EQ. lia. }
  destruct (Z.eqb_spec c 38) as [->|N38].
  { destruct (reference s) as [[t r']|] eqn:R; [|discriminate]. apply prepend_some in H as (d' & H & ->). destruct (reference_sound _ _ _ R) as (u & E & RT).
    destruct (IH _ _ _ H) as (b & -> & A & RN & N). exists (u ++ b). rewrite E, <- app_assoc. split; [reflexivity|]. split; [exact A|]. split; [now apply rn_ref|].
    intros O. apply N. revert O. apply (occurs_free _ 93); [now exists [93; 62]|]. now apply (ref_no93 _ _ RT). }
  destruct (Z.eqb_spec c 13) as [->|N13].
  { apply prepend_some in H as (d' & H & ->).
    assert (~ stop_of q 13) as N13. { intros [H1|H1]; [discriminate|]. apply Q in H1. lia. }
    assert ((exists s', s = 10 :: s' /\ text_loop f q s' = Some (d', r)) \/ ((forall x, s <> 10 :: x) /\ text_loop f q s = Some (d', r))) as [(s' & -> & H')|[NL H']].
    { destruct s as [|x s']; [right; split; [discriminate|exact H]|]. destruct (Z.eqb_spec x 10) as [->|NX]; [left; now exists s'|right]. split; [congruence|exact H]. }
    - destruct (IH _ _ _ H') as (b & -> & A & RN & N). exists (13 :: 10 :: b). split; [reflexivity|]. split; [exact A|]. split; [now apply rn_crlf|].
      intros O. apply N. revert O. change (13 :: 10 :: b) with ([13; 10] ++ b). apply (occurs_free _ 93); [now exists [93; 62]|]. cbn [In]. lia.
    - destruct (IH _ _ _ H') as (b & -> & A & RN & N). exists (13 :: b). split; [reflexivity|]. split; [exact A|]. split.
      + apply rn_cr; [exact N13| |exact RN]. intros x ->. eapply NL. cbn [app]. reflexivity.
      + apply NO; [|exact N]. now exists (after q r). }
  apply prepend_some in H as (d' & H & ->). destruct (IH _ _ _ H) as (b & -> & A & RN & N). exists (c :: b). split; [reflexivity|]. split; [exact A|]. split.
  - apply rn_byte; auto.
  - apply NO; [|exact N]. now exists (after q r).
Qed.
Lemma text_loop_app q b d : (forall x, q = Some x -> x = 34 \/ x = 39) -> run false (stop_of q) b d -> ~ occurs (str "]]>") b -> forall r f, after_ok q r -> (List.length b < f)%nat ->
  text_loop f q (b ++ after q r) = Some (d, r).
Proof.
  intros Q RN. induction RN as [|c b d NS N13 C RN IH|b d NS RN IH|b d NS NL RN IH|u t b d _ RT RN IH]; intros N r f A L; (destruct f as [|f]; [lia|]).
  - cbn [app]. destruct q as [x|]; cbn [after text_loop].
    + destruct (Q x eq_refl) as [-> | ->].
      * replace (has_prefix [93; 93; 62] (34 :: r)) with false by reflexivity. reflexivity.
      * replace (has_prefix [93; 93; 62] (39 :: r)) with false by reflexivity. reflexivity.
    + destruct A as [->|[t ->]]; reflexivity.
  - assert (~ occurs (str "]]>") b) as N' by (intros O; apply N; now apply (occurs_suffix _ [c])).
    assert (match after q r with [] => True | x :: _ => x <> 93 /\ x <> 62 end) as T.
    { destruct q as [x|]; cbn [after]; [destruct (Q x eq_refl); lia|]. destruct A as [->|[t ->]]; [exact I|lia]. }
    pose proof (no_end_prefix (c :: b) (after q r) N T) as HP. cbn [app] in *. cbn [text_loop]. rewrite HP.
    destruct (Z.eqb_spec c 60) as [->|]; [elim NS; now left|].
    replace (match q with Some x => c =? x | None => false end) with false by (destruct q as [x|]; [|reflexivity]; destruct (Z.eqb_spec c x) as [->|]; [elim NS; now right|reflexivity]).
    destruct (Z.eqb_spec c 38); [destruct C; congruence|]. destruct (Z.eqb_spec c 13); [contradiction|]. cbn [List.length] in L. rewrite (IH N' r f A) by lia. reflexivity.
  - assert (~ occurs (str "]]>") b) as N' by (intros O; apply N; now apply (occurs_suffix _ [13; 10])). cbn [app text_loop].
    change (has_prefix [93; 93; 62] (13 :: 10 :: b ++ after q r)) with false. change (13 =? 60) with false. change (13 =? 38) with false. change (13 =? 13) with true. change (10 =? 10) with true. cbv iota.
    replace (match q with Some x => 13 =? x | None => false end) with false by (destruct q as [x|]; [|reflexivity]; destruct (Q x eq_refl) as [-> | ->]; reflexivity).
    cbn [List.length] in L. rewrite (IH N' r f A) by lia. reflexivity.
  - assert (~ occurs (str "]]>") b) as N' by (intros O; apply N; now apply (occurs_suffix _ [13])). cbn [app text_loop].
    change (has_prefix [93; 93; 62] (13 :: b ++ after q r)) with false. change (13 =? 60) with false. change (13 =? 38) with false. change (13 =? 13) with true. cbv iota.
    replace (match q with Some x => 13 =? x | None => false end) with false by (destruct q as [x|]; [|reflexivity]; destruct (Q x eq_refl) as [-> | ->]; reflexivity).
    assert (forall x t, b ++ after q r = x :: t -> x <> 10) as NX.
    { destruct b as [|x b]; cbn [app].
      - destruct q as [y|]; cbn [after]; [intros x t E; injection E as <- _; destruct (Q y eq_refl); lia|]. destruct A as [->|[t ->]]; [discriminate|]. intros x t' E. injection E as <- _. lia.
      - intros y t E ->. injection E as -> _. now elim (NL b). }
    specialize (IH N' r f A). destruct (b ++ after q r) as [|x t]; [|destruct (Z.eqb_spec x 10) as [->|]; [now elim (NX 10 t eq_refl)|]];
    cbn [List.length] in L; rewrite IH by lia; reflexivity.
  - assert (~ occurs (str "]]>") b) as N' by (intros O; apply N; now apply (occurs_suffix _ u)). rewrite <- app_assoc.
    destruct (reference_app _ _ (b ++ after q r) RT) as (v & -> & R). rewrite app_length in L. cbn [List.length app] in *. cbn [text_loop].
    change (has_prefix [93; 93; 62] (38 :: v ++ b ++ after q r)) with false. change (38 =? 60) with false. change (38 =? 38) with true. cbv iota.
    replace (match q with Some x => 38 =? x | None => false end) with false by (destruct q as [x|]; [|reflexivity]; destruct (Q x eq_refl) as [-> | ->]; reflexivity).
    rewrite R, (IH N' r f A) by lia. reflexivity.
Qed.
Lemma run_stop cd (st st' : Z -> Prop) s t : (forall c, st' c -> st c) -> run cd st s t -> run cd st' s t.
Proof. intros W. induction 1; [constructor|apply rn_byte|apply rn_crlf|apply rn_cr|apply rn_ref]; auto. Qed.
Lemma utf8_ok c enc : utf8 c enc -> bytes_ok enc.
Proof.
  intros [x H|x H|x H N|x H]; repeat constructor; unfold is_byte;
  Z.to_euclidean_division_equations; lia.
Qed.
Lemma ref_ok u t : ref_text u t -> bytes_ok t.
Proof.
  intros [n c I|? ? ? ? U|? ? ? ? U|? ? ? ? ? U|? ? ? ? ? U]; try exact (utf8_ok _ _ U). cbn [In] in I.
  destruct I as [H|[H|[H|[H|[H|[]]]]]]; injection H as <- <-; repeat constructor; unfold is_byte; lia.
Qed.
Lemma run_ok cd st s t : run cd st s t -> bytes_ok s -> bytes_ok t.
Proof.
  induction 1 as [|c r t NS N13 C RN IH|r t NS RN IH|r t NS NL RN IH|u v r t CD RT RN IH]; intros OK.
  - constructor.
  - inversion OK; subst. constructor; [assumption|now apply IH].
  - apply bok_cons, bok_cons in OK. constructor; [unfold is_byte; lia|now apply IH].
  - apply bok_cons in OK. constructor; [unfold is_byte; lia|now apply IH].
  - apply bok_r in OK. apply Forall_app. split; [exact (ref_ok _ _ RT)|now apply IH].
Qed.
Lemma text_run_chunk s d r : bytes_ok s -> text_run None s = Some (d, r) -> exists b, s = b ++ r /\ (r = [] \/ exists t, r = 60 :: t) /\ chunk b d.
Proof.
  intros OK. unfold text_run. destruct (text_loop _ None s) as [[d' r']|] eqn:T; [|discriminate]. destruct (checked d') eqn:C; [|discriminate]. intros H. injection H as <- <-.
  destruct (text_loop_sound None ltac:(discriminate) _ _ _ _ T) as (b & -> & A & RN & N). cbn [after after_ok] in *. exists b. split; [reflexivity|]. split; [exact A|]. split; [|split; [|exact N]].
  - revert RN. apply run_stop. intros c ->. now left.
  - apply checked_iff; [|exact C]. apply (run_ok _ _ _ _ RN). exact (bok_l _ _ OK).
Qed.
Lemma chunk_text_run b d r : chunk b d -> r = [] \/ (exists t, r = 60 :: t) -> text_run None (b ++ r) = Some (d, r).
Proof.
  intros (RN & X & N) A. unfold text_run. change (b ++ r) with (b ++ after None r). rewrite (text_loop_app None b d); [now rewrite (checked_text _ X)|discriminate| |exact N|exact A|].
  - revert RN. apply run_stop. intros c [H|H]; [exact H|discriminate].
  - rewrite app_length. lia.
Qed.
Lemma text_run_value q s d r : bytes_ok s -> q = 34 \/ q = 39 -> text_run (Some q) s = Some (d, r) -> exists b, q :: s = b ++ r /\ attr_value b d.
Proof.
  intros OK Q. unfold text_run. destruct (text_loop _ (Some q) s) as [[d' r']|] eqn:T; [|discriminate]. destruct (checked d') eqn:C; [|discriminate]. intros H. injection H as <- <-.
  destruct (text_loop_sound (Some q) ltac:(intros x E; injection E as <-; exact Q) _ _ _ _ T) as (b & -> & A & RN & N). cbn [after after_ok] in *.
  exists ([q] ++ b ++ [q]). split; [cbn [app]; now rewrite <- app_assoc|]. exists q, b. split; [exact Q|]. split; [reflexivity|]. split; [|split; [|exact N]].
  - revert RN. apply run_stop. intros c [->| ->]; [now left|now right].
  - apply checked_iff; [|exact C]. apply (run_ok _ _ _ _ RN). exact (bok_l _ _ OK).
Qed.
Lemma value_text_run s d r : attr_value s d -> exists q v, s = q :: v /\ (q = 34 \/ q = 39) /\ text_run (Some q) (v ++ r) = Some (d, r).
Proof.
  intros (q & b & Q & -> & RN & X & N). exists q, (b ++ [q]). split; [reflexivity|]. split; [exact Q|]. unfold text_run. rewrite <- app_assoc.
  change (b ++ [q] ++ r) with (b ++ after (Some q) r). rewrite (text_loop_app (Some q) b d); [now rewrite (checked_text _ X)|intros x E; injection E as <-; exact Q| |exact N|exact I|].
  - revert RN. apply run_stop. intros c [H|H]; [now left|injection H as <-; now right].
  - rewrite app_length. cbn [List.length]. lia.
Qed.

(* ------------------------------------------------------------------ CDATA *)

Lemma line_ends_run s : run true (fun _ => False) s (line_ends false s).
Proof.
  assert (forall n s, (List.length s <= n)%nat -> run true (fun _ => False) s (line_ends false s)) as K.
  { clear s. induction n as [|n IH]; intros s L. { destruct s; [constructor|cbn [List.length] in L; lia]. }
    destruct s as [|c s]; [constructor|]. cbn [List.length] in L. cbn [line_ends]. destruct (Z.eqb_spec c 13) as [->|N].
    - destruct s as [|x s]; [cbn [line_ends]; apply rn_cr; [auto|discriminate|constructor]|]. cbn [line_ends List.length] in *. destruct (Z.eqb_spec x 13) as [->|N1].
      + apply rn_cr; [auto|discriminate|]. specialize (IH (13 :: s)). cbn [line_ends List.length] in IH. apply IH. lia.
      + destruct (Z.eqb_spec x 10) as [->|N2]; cbn [andb].
        * apply rn_crlf; [auto|]. apply IH. lia.
        * apply rn_cr; [auto|congruence|]. specialize (IH (x :: s)). cbn [line_ends List.length] in IH. replace (x =? 13) with false in IH by lia. rewrite andb_false_r in IH. apply IH. lia.
    - rewrite andb_false_r. apply rn_byte; auto. apply IH. lia. }
  apply (K (List.length s)). lia.
Qed.
Lemma run_cdata_fun st s t : run true st s t -> t = line_ends false s.
Proof.
  induction 1 as [|c r t NS N13 C RN IH|r t NS RN IH|r t NS NL RN IH|u v r t CD RT RN IH]; [reflexivity| | | |discriminate].
  - cbn [line_ends]. destruct (Z.eqb_spec c 13); [contradiction|]. rewrite andb_false_r. now rewrite <- IH.
  - cbn [line_ends]. change (13 =? 13) with true. change (10 =? 13) with false. change (10 =? 10) with true. cbn [andb]. now rewrite <- IH.
  - cbn [line_ends]. change (13 =? 13) with true. cbv iota. rewrite IH. f_equal. destruct r as [|x r]; [reflexivity|]. cbn [line_ends]. destruct (Z.eqb_spec x 10) as [->|]; [elim (NL r); reflexivity|].
    destruct (x =? 13); reflexivity.
Qed.
Lemma cdata_sound s d r : bytes_ok s -> cdata s = Some (d, r) -> exists m, str "<![CDATA[" ++ s = m ++ r /\ cdata_section m d.
Proof.
  intros OK. unfold cdata. destruct (cut [93; 93; 62] s) as [[b r']|] eqn:C; [|discriminate]. destruct (checked (line_ends false b)) eqn:K; [|discriminate]. intros H. injection H as <- <-.
  apply cut_iff in C. pose proof C as [E _]. exists (str "<![CDATA[" ++ b ++ str "]]>"). split; [rewrite E, <- !app_assoc; reflexivity|].
  exists b. split; [reflexivity|]. split; [apply (first_at_more (str "]]>") b r'); change (str "]]>") with [93; 93; 62]; now rewrite <- E|]. split; [apply line_ends_run|].
  apply checked_iff; [|exact K]. apply (run_ok _ _ _ _ (line_ends_run b)). rewrite E in OK. exact (bok_l _ _ OK).
Qed.
Lemma cdata_app m d r : cdata_section m d -> exists v, m = str "<![CDATA[" ++ v /\ cdata (v ++ r) = Some (d, r).
Proof.
  intros (b & -> & F & RN & X). exists (b ++ str "]]>"). split; [reflexivity|]. unfold cdata. rewrite <- app_assoc.
  rewrite (cut_first [93; 93; 62] b r); [|apply (proj2 (first_at_more (str "]]>") b r)); exact F]. rewrite <- (run_cdata_fun _ _ _ RN), (checked_text _ X). reflexivity.
Qed.
