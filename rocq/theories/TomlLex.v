(** TomlLex: the lexer of TomlModel accepts exactly the texts of TomlSpec. *)
From Coq Require Import ZifyBool.
From Verif Require Import GoBase Strconv SignalkModel SignalkSpec SignalkText NmeaSpec JsonSpec JsonFacts JsonUnique UnjsonModel UnjsonLex XmlModel XmlLex ConfigModel TomlModel TomlSpec.
Open Scope Z_scope.
Open Scope list_scope.

Notation tblank := TomlModel.is_blank.
Lemma is_blank_iff c : tblank c = true <-> blank c. Proof. unfold tblank, blank. lia. Qed.
Lemma is_nl_iff c : is_nl c = true <-> newline c. Proof. unfold is_nl, newline. lia. Qed.
Lemma bare_iff c : bare c = true <-> bare_char c. Proof. unfold bare, bare_char. lia. Qed.
Lemma is_blank_no c : ~ blank c -> tblank c = false. Proof. rewrite <- is_blank_iff. now destruct (tblank c). Qed.
Lemma is_nl_no c : ~ newline c -> is_nl c = false. Proof. rewrite <- is_nl_iff. now destruct (is_nl c). Qed.
Lemma skip_sound s : exists w, s = w ++ skip_blank s /\ blanks w /\ stops blank (skip_blank s).
Proof.
  induction s as [|c s (w & E & W & S)]; [exists []; repeat split; constructor|]. cbn [skip_blank]. destruct (tblank c) eqn:B.
  - exists (c :: w). split; [cbn; congruence|]. split; [constructor; [now apply is_blank_iff|exact W]|exact S].
  - exists []. repeat split; [constructor|]. cbn. intros X. apply is_blank_iff in X. congruence.
Qed.
Lemma skip_app w s : blanks w -> stops blank s -> skip_blank (w ++ s) = s.
Proof.
  induction 1 as [|c w B W IH]; intros S.
  - destruct s as [|c s]; [reflexivity|]. cbn in *. now rewrite is_blank_no.
  - cbn [app skip_blank]. rewrite (proj2 (is_blank_iff c) B). now apply IH.
Qed.
Lemma span_bare_sound s : forall n r, span_bare s = (n, r) -> s = n ++ r /\ Forall bare_char n /\ stops bare_char r.
Proof.
  induction s as [|c s IH]; intros n r E; cbn [span_bare] in E.
  - injection E as <- <-. repeat split; constructor.
  - destruct (bare c) eqn:B.
    + destruct (span_bare s) as [n' r'] eqn:S. injection E as <- <-. destruct (IH _ _ eq_refl) as (-> & F & P). repeat split; auto. constructor; [now apply bare_iff|exact F].
    + injection E as <- <-. repeat split; [constructor|]. cbn. rewrite <- bare_iff. congruence.
Qed.
Lemma span_bare_app n r : Forall bare_char n -> stops bare_char r -> span_bare (n ++ r) = (n, r).
Proof.
  induction 1 as [|c n B N IH]; intros S.
  - destruct r as [|c r]; [reflexivity|]. cbn in *. rewrite <- bare_iff in S. now destruct (bare c).
  - cbn [app span_bare]. rewrite (proj2 (bare_iff c) B), IH by exact S. reflexivity.
Qed.
Lemma drop_line_sound s : exists b, s = b ++ drop_line s /\ Forall (fun c => ~ newline c) b /\ (drop_line s = [] \/ exists c q, drop_line s = c :: q /\ newline c).
Proof.
  induction s as [|c s (b & E & F & S)]; [exists []; auto|]. cbn [drop_line]. destruct (is_nl c) eqn:N.
  - exists []. split; [reflexivity|]. split; [constructor|]. right. exists c, s. split; [reflexivity|now apply is_nl_iff].
  - exists (c :: b). split; [cbn; congruence|]. split; [|exact S]. constructor; [|exact F]. rewrite <- is_nl_iff. congruence.
Qed.
Lemma drop_line_app b r : Forall (fun c => ~ newline c) b -> r = [] \/ (exists c q, r = c :: q /\ newline c) -> drop_line (b ++ r) = r.
Proof.
  induction 1 as [|c b N F IH]; intros S.
  - destruct S as [->|(c & q & -> & N)]; [reflexivity|]. cbn. now rewrite (proj2 (is_nl_iff c) N).
  - cbn [app drop_line]. rewrite is_nl_no by exact N. now apply IH.
Qed.

(* ------------------------------------------------------------------ strings *)

Lemma before_ok p o d r : before p o = Ok (d, r) -> exists d', o = Ok (d', r) /\ d = p ++ d'.
Proof. unfold before. destruct o as [[x y]| |]; cbn [obind]; [|discriminate|discriminate]. intros E. injection E as <- <-. eauto. Qed.
Lemma obind_ok {A B} (o : out A) (f : A -> out B) b : obind o f = Ok b -> exists a, o = Ok a /\ f a = Ok b.
Proof. destruct o as [a| |]; cbn [obind]; [eauto|discriminate|discriminate]. Qed.
Lemma char_ok_utf8 n : 0 <= n -> char_ok n = true -> utf8 n (encode_rune n).
Proof. intros N H. unfold char_ok in H. apply encode_rune_utf8; lia. Qed.
Lemma utf8_char_ok n enc : utf8 n enc -> char_ok n = true /\ enc = encode_rune n.
Proof. intros U. split; [|now apply utf8_encode]. unfold char_ok. inversion U; subst; lia. Qed.
Lemma hexv4_pos a b c d v : hexv4 a b c d = Some v -> 0 <= v < 65536.
Proof. intros H. apply hexv4_hex4 in H. destruct H as (x0 & x1 & x2 & x3 & x & y & z & w & _ & H). unfold hex_value in H. lia. Qed.
Lemma escape1_sound e d : escape1 e = Some d -> escape [92; e] d.
Proof.
  unfold escape1. intros H.
  destruct (Z.eqb_spec e 98) as [->|]; [injection H as <-; exact es_b|]. destruct (Z.eqb_spec e 116) as [->|]; [injection H as <-; exact es_t|].
  destruct (Z.eqb_spec e 110) as [->|]; [injection H as <-; exact es_n|]. destruct (Z.eqb_spec e 102) as [->|]; [injection H as <-; exact es_f|].
  destruct (Z.eqb_spec e 114) as [->|]; [injection H as <-; exact es_r|]. destruct (Z.eqb_spec e 34) as [->|]; [injection H as <-; exact es_q|].
  destruct (Z.eqb_spec e 92) as [->|]; [injection H as <-; exact es_s|discriminate H].
Qed.
Lemma escape1_byte e d : escape1 e = Some d -> utf8 d [d].
Proof. unfold escape1. intros H. apply utf8_1. destruct (e =? 98), (e =? 116), (e =? 110), (e =? 102), (e =? 114), (e =? 34), (e =? 92); try discriminate H; injection H as <-; lia. Qed.
Lemma basic_sound_len : forall n s d r, (List.length s < n)%nat -> basic s = Ok (d, r) -> exists b, s = b ++ 34 :: r /\ string_body b d.
Proof.
  induction n as [|n IH]; intros s d r L H; [lia|]. destruct s as [|c s]; [discriminate H|]. cbn [basic] in H. cbn [List.length] in L.
  destruct (is_nl c) eqn:NL; [discriminate H|]. assert (~ newline c) as NC by (rewrite <- is_nl_iff; congruence).
  destruct (Z.eqb_spec c 34) as [->|N1]. { injection H as <- <-. exists []. split; [reflexivity|constructor]. }
  destruct (Z.eqb_spec c 92) as [->|N2].
  - destruct s as [|e s]; [discriminate H|]. cbn [List.length] in L. destruct (escape1 e) as [x|] eqn:E1.
    { apply before_ok in H as (d' & H & ->). apply IH in H as (b & -> & B); [|lia]. exists ([92; e] ++ b). split; [reflexivity|].
      apply (sb_escape [92; e] x [x]); [now apply escape1_sound|now apply (escape1_byte e)|exact B]. }
    destruct (Z.eqb_spec e 117) as [->|N3].
    { destruct s as [|a0 [|a1 [|a2 [|a3 s]]]]; try discriminate H. cbn [List.length] in L. destruct (hexv4 a0 a1 a2 a3) as [v|] eqn:V; [|discriminate H].
      destruct (char_ok v) eqn:K; [|discriminate H]. apply before_ok in H as (d' & H & ->). apply IH in H as (b & -> & B); [|lia].
      exists ((str "\u" ++ [a0; a1; a2; a3]) ++ b). split; [reflexivity|]. apply (sb_escape _ v (encode_rune v)); [|apply char_ok_utf8; [apply hexv4_pos in V; lia|exact K]|exact B].
      apply es_u. now apply hexv4_hex4. }
    destruct (Z.eqb_spec e 85) as [->|N4].
    { destruct s as [|a0 [|a1 [|a2 [|a3 [|b0 [|b1 [|b2 [|b3 s]]]]]]]]; try discriminate H. cbn [List.length] in L.
      destruct (hexv4 a0 a1 a2 a3) as [v|] eqn:V; [|discriminate H]. destruct (hexv4 b0 b1 b2 b3) as [u|] eqn:U; [|discriminate H].
      destruct (char_ok (v * 65536 + u)) eqn:K; [|discriminate H]. apply before_ok in H as (d' & H & ->). apply IH in H as (b & -> & B); [|lia].
      exists ((str "\U" ++ [a0; a1; a2; a3] ++ [b0; b1; b2; b3]) ++ b). split; [reflexivity|].
      apply (sb_escape _ (v * 65536 + u) (encode_rune (v * 65536 + u))); [|apply char_ok_utf8; [apply hexv4_pos in V, U; lia|exact K]|exact B].
      rewrite (Z.mul_comm v 65536). apply es_U; now apply hexv4_hex4. }
    destruct (e =? 47); discriminate H.
  - apply before_ok in H as (d' & H & ->). apply IH in H as (b & -> & B); [|lia]. exists (c :: b). split; [reflexivity|]. now constructor.
Qed.
Lemma basic_sound s d r : basic s = Ok (d, r) -> exists b, s = b ++ 34 :: r /\ string_body b d.
Proof. apply (basic_sound_len (S (List.length s))). lia. Qed.
Lemma basic_app b d r : string_body b d -> basic (b ++ 34 :: r) = Ok (d, r).
Proof.
  induction 1 as [|c b t N N1 N2 B IH|e c enc b t E U B IH]; [reflexivity| |].
  - cbn [app basic]. rewrite is_nl_no by exact N. destruct (Z.eqb_spec c 34); [easy|]. destruct (Z.eqb_spec c 92); [easy|]. now rewrite IH.
  - destruct (utf8_char_ok _ _ U) as [K EN]. destruct E as [| | | | | | |h n H|h m g n H G]; try (subst enc; cbn [app basic]; cbn; rewrite IH; reflexivity).
    + destruct H as (a0 & a1 & a2 & a3 & x & y & z & w & -> & H). subst enc. change ((str "\u" ++ [a0; a1; a2; a3]) ++ b) with (92 :: 117 :: a0 :: a1 :: a2 :: a3 :: b). cbn [app basic]. cbn [is_nl Z.eqb Pos.eqb orb escape1].
      rewrite (proj2 (hexv4_hex4 a0 a1 a2 a3 n)) by (exists a0, a1, a2, a3, x, y, z, w; auto). now rewrite K, IH.
    + destruct H as (a0 & a1 & a2 & a3 & x & y & z & w & -> & H). destruct G as (b0 & b1 & b2 & b3 & x' & y' & z' & w' & -> & G). subst enc.
      change ((str "\U" ++ [a0; a1; a2; a3] ++ [b0; b1; b2; b3]) ++ b) with (92 :: 85 :: a0 :: a1 :: a2 :: a3 :: b0 :: b1 :: b2 :: b3 :: b). cbn [app basic]. cbn [is_nl Z.eqb Pos.eqb orb escape1].
      rewrite (proj2 (hexv4_hex4 a0 a1 a2 a3 m)) by (exists a0, a1, a2, a3, x, y, z, w; auto).
      rewrite (proj2 (hexv4_hex4 b0 b1 b2 b3 n)) by (exists b0, b1, b2, b3, x', y', z', w'; auto). now rewrite (Z.mul_comm m), K, IH.
Qed.
Lemma raw_sound s : forall d r, raw s = Ok (d, r) -> s = d ++ 39 :: r /\ Forall (fun c => ~ newline c /\ c <> 39) d.
Proof.
  induction s as [|c s IH]; intros d r H; [discriminate H|]. cbn [raw] in H. destruct (is_nl c) eqn:NL; [discriminate H|].
  destruct (Z.eqb_spec c 39) as [->|N]; [injection H as <- <-; auto|]. apply before_ok in H as (d' & H & ->). apply IH in H as [-> F]. split; [reflexivity|].
  constructor; [|exact F]. split; [rewrite <- is_nl_iff; congruence|exact N].
Qed.
Lemma raw_app d r : Forall (fun c => ~ newline c /\ c <> 39) d -> raw (d ++ 39 :: r) = Ok (d, r).
Proof.
  induction 1 as [|c d [N1 N2] F IH]; [reflexivity|]. cbn [app raw]. rewrite is_nl_no by exact N1. destruct (Z.eqb_spec c 39); [easy|]. now rewrite IH.
Qed.
Lemma body_first b d : string_body b d -> (b = [] /\ d = []) \/ (exists c q, b = c :: q /\ c <> 34 /\ d <> []).
Proof.
  destruct 1 as [|c r t N N1 N2 B|e c enc r t E U B]; [now left| |].
  - right. exists c, r. repeat split; auto. discriminate.
  - right. apply utf8_head in U as (a & q & -> & _). destruct E; cbn; do 2 eexists; (split; [reflexivity|split; [discriminate|discriminate]]).
Qed.
Lemma quoted_sound q s d r : q = 34 \/ q = 39 -> quoted q s = Ok (d, r) -> exists b, q :: s = b ++ r /\ string_text b d /\ (d = [] -> r <> []).
Proof.
  intros Q H. unfold quoted in H. destruct s as [|c s]; [discriminate H|]. destruct (Z.eqb_spec c q) as [->|N].
  - destruct s as [|x s]; [discriminate H|]. destruct ((x =? q) || (128 <=? x)); [discriminate H|]. injection H as <- <-. exists [q; q]. split; [reflexivity|].
    split; [|discriminate]. destruct Q as [->| ->]; [exact (st_basic [] [] sb_end)|exact (st_raw [] (Forall_nil _))].
  - destruct Q as [->| ->]; cbn [Z.eqb Pos.eqb] in H.
    + apply basic_sound in H as (b & E & B). exists ([34] ++ b ++ [34]). split; [cbn; rewrite <- app_assoc; cbn; congruence|]. split; [now constructor|].
      intros ->. apply body_first in B as [[-> _]|(? & ? & _ & _ & X)]; [cbn in E; congruence|congruence].
    + apply raw_sound in H as [E F]. exists ([39] ++ d ++ [39]). split; [cbn; rewrite <- app_assoc; cbn; congruence|]. split; [now constructor|].
      intros ->. cbn in E. congruence.
Qed.
Lemma quoted_app b d r : string_text b d -> d <> [] \/ (exists c q, r = c :: q /\ 0 <= c < 128 /\ c <> 34 /\ c <> 39) ->
  exists q s, b = q :: s /\ (q = 34 \/ q = 39) /\ quoted q (s ++ r) = Ok (d, r).
Proof.
  destruct 1 as [b t B|b F]; intros H.
  - exists 34, (b ++ [34]). split; [reflexivity|]. split; [now left|]. rewrite <- app_assoc. cbn [app]. destruct (body_first _ _ B) as [[-> ->]|(c & q & -> & N & _)].
    + destruct H as [H|(c & q & -> & H1 & H2 & H3)]; [congruence|]. cbn [quoted app Z.eqb Pos.eqb]. unfold quoted. cbn [Z.eqb Pos.eqb].
      replace (c =? 34) with false by lia. replace (128 <=? c) with false by lia. reflexivity.
    + cbn [quoted app]. unfold quoted. destruct (Z.eqb_spec c 34); [easy|]. cbn [Z.eqb Pos.eqb]. change (c :: q ++ 34 :: r) with ((c :: q) ++ 34 :: r). now apply basic_app.
  - exists 39, (b ++ [39]). split; [reflexivity|]. split; [now right|]. rewrite <- app_assoc. cbn [app]. destruct b as [|c b].
    + destruct H as [H|(c & q & -> & H1 & H2 & H3)]; [congruence|]. cbn [app]. unfold quoted. cbn [Z.eqb Pos.eqb].
      replace (c =? 39) with false by lia. replace (128 <=? c) with false by lia. reflexivity.
    + cbn [app]. unfold quoted. assert (c <> 39) by (inversion F; tauto). destruct (Z.eqb_spec c 39); [easy|]. cbn [Z.eqb Pos.eqb]. change (c :: b ++ 39 :: r) with ((c :: b) ++ 39 :: r). now apply raw_app.
Qed.
Lemma name_part_sound s n r : name_part s = Ok (n, r) -> exists k, s = k ++ r /\ name_text k n.
Proof.
  unfold name_part. destruct s as [|c s]; [discriminate|]. intros H. apply obind_ok in H as ([n' r'] & H & N).
  assert (n' <> [] /\ n' = n /\ r' = r) as (NE & -> & ->). { destruct n'; [discriminate N|]. injection N as <- <-. repeat split; discriminate. }
  destruct ((c =? 34) || (c =? 39)) eqn:Q.
  - apply quoted_sound in H as (b & -> & S & _); [|lia]. exists b. split; [reflexivity|]. now constructor.
  - destruct (span_bare (c :: s)) as [m q] eqn:E. destruct m as [|x m]; [discriminate H|]. injection H as <- <-. apply span_bare_sound in E as (-> & F & _).
    exists (x :: m). split; [reflexivity|]. now constructor.
Qed.
Lemma name_part_app k n r : name_text k n -> stops bare_char r -> name_part (k ++ r) = Ok (n, r).
Proof.
  destruct 1 as [n NE F|s n S NE]; intros ST.
  - destruct n as [|c n]; [easy|]. cbn [app]. unfold name_part. assert (bare_char c) as BC by now inversion F.
    replace ((c =? 34) || (c =? 39)) with false by (unfold bare_char in BC; lia). change (c :: n ++ r) with ((c :: n) ++ r). now rewrite span_bare_app.
  - destruct (quoted_app s n r S (or_introl NE)) as (q & b & -> & Q & E). cbn [app]. unfold name_part. replace ((q =? 34) || (q =? 39)) with true by lia. rewrite E. cbn [obind].
    destruct n; [easy|reflexivity].
Qed.
Lemma name_first k n : name_text k n -> exists c q, k = c :: q /\ (bare_char c \/ c = 34 \/ c = 39).
Proof.
  destruct 1 as [n NE F|s n S NE].
  - destruct n as [|c n]; [easy|]. exists c, n. split; [reflexivity|]. left. now inversion F.
  - destruct S; cbn; eauto 6.
Qed.
Lemma name_stops k n r : name_text k n -> stops blank (k ++ r).
Proof. intros H. apply name_first in H as (c & q & -> & C). cbn. unfold blank, bare_char in *. lia. Qed.
Lemma names_sound f : forall s p r, names f s = Ok (p, r) -> exists m, s = m ++ 93 :: r /\ names_text m p.
Proof.
  induction f as [|f IH]; intros s p r H; [discriminate H|]. cbn [names] in H. apply obind_ok in H as ([n r1] & H & E).
  destruct (skip_sound s) as (w & -> & W & _). apply name_part_sound in H as (k & HK & K). rewrite HK. clear HK.
  destruct (skip_sound r1) as (w1 & -> & W1 & _). destruct (skip_blank r1) as [|c r2]; [discriminate E|].
  destruct (Z.eqb_spec c 46) as [->|N].
  - apply obind_ok in E as ([p' q] & E & X). injection X as <- <-. apply IH in E as (m & -> & M). exists (w ++ k ++ w1 ++ [46] ++ m). split; [now rewrite <- !app_assoc|].
    now constructor.
  - destruct (Z.eqb_spec c 93) as [->|]; [|discriminate E]. injection E as <- <-. exists (w ++ k ++ w1). split; [now rewrite <- !app_assoc|]. now constructor.
Qed.
Lemma blanks_bare w c r : blanks w -> ~ bare_char c -> stops bare_char (w ++ c :: r).
Proof. intros W. destruct W as [|x w B W]; cbn; [auto|]. unfold blank, bare_char in *. lia. Qed.
Lemma names_app m p : names_text m p -> forall r f, (List.length m < f)%nat -> names f (m ++ 93 :: r) = Ok (p, r).
Proof.
  induction 1 as [w s n w' W K W'|w s n w' m p W K W' M IH]; intros r f L; (destruct f as [|f]; [cbn in L; lia|]); cbn [names]; rewrite <- !app_assoc.
  - rewrite skip_app by (try exact W; eapply name_stops; exact K). rewrite (name_part_app s n) by (first [exact K | apply blanks_bare; [exact W'|unfold bare_char; lia]]).
    cbn [obind]. rewrite skip_app by (try exact W'; cbn; unfold blank; lia). reflexivity.
  - cbn [app]. rewrite skip_app by (try exact W; eapply name_stops; exact K). rewrite (name_part_app s n) by (first [exact K | apply blanks_bare; [exact W'|unfold bare_char; lia]]).
    cbn [obind]. rewrite skip_app by (try exact W'; cbn; unfold blank; lia). cbn [Z.eqb Pos.eqb]. rewrite IH; [reflexivity|]. rewrite !app_length in L. cbn in L. lia.
Qed.
Lemma key_sound s n r : key s = Ok (n, r) -> exists k w, s = k ++ w ++ 61 :: r /\ name_text k n /\ blanks w.
Proof.
  unfold key. intros H. apply obind_ok in H as ([n' r1] & H & E). apply name_part_sound in H as (k & -> & K). destruct (skip_sound r1) as (w & -> & W & _).
  destruct (skip_blank r1) as [|c r2]; [discriminate E|]. destruct (Z.eqb_spec c 61) as [->|]; [|discriminate E]. injection E as <- <-. eauto 6.
Qed.
Lemma key_app k n w r : name_text k n -> blanks w -> key (k ++ w ++ 61 :: r) = Ok (n, r).
Proof.
  intros K W. unfold key. rewrite (name_part_app k n) by (first [exact K | apply blanks_bare; [exact W|unfold bare_char; lia]]). cbn [obind].
  rewrite skip_app by (try exact W; cbn; unfold blank; lia). reflexivity.
Qed.

(* ------------------------------------------------------------------ values *)

Lemma decimal_dig d m : decimal d m -> Forall dig d. Proof. intros (_ & F & _). exact F. Qed.
Definition num_end (r : bytes) : Prop := match r with x :: _ => ~ (dig x \/ In x [46; 69; 101; 95; 45]) | [] => True end.
Lemma number_sound s v r : number s = Ok (v, r) -> exists b, s = b ++ r /\ value_text b v /\ exists n, v = TInt n.
Proof.
  unfold number. assert (exists sg s1, take_sign s = (sg, s1) /\ s = sg ++ s1 /\ (sg = [] \/ sg = str "+" \/ sg = str "-")) as (sg & s1 & -> & E & SG).
  { unfold take_sign. destruct s as [|c s]; [exists [], []; auto|]. destruct ((c =? 43) || (c =? 45)) eqn:Q; [|exists [], (c :: s); auto].
    exists [c], s. split; [reflexivity|]. split; [reflexivity|]. right. assert (c = 43 \/ c = 45) as [->| ->] by lia; auto. }
  destruct (span_digits s1) as [d r1] eqn:S. apply span_sound in S as (-> & F & ST). destruct d as [|c d]; [discriminate|].
  destruct ((c =? 48) && negb (empty d)) eqn:Z0; [discriminate|].
  destruct (match r1 with x :: _ => (x =? 46) || (x =? 69) || (x =? 101) || (x =? 95) || (x =? 45) | [] => false end); [discriminate|].
  destruct (parse_int 64 (sg ++ c :: d)) as [n|] eqn:P; [|discriminate]. intros H. injection H as <- <-. apply parse_int_iff in P as [IT R]; [|lia].
  exists (sg ++ c :: d). split; [rewrite E; now rewrite <- app_assoc|]. split; [|eauto].
  assert (exists m, decimal (c :: d) m) as [m M] by (eexists; split; [discriminate|split; [exact F|reflexivity]]).
  apply (vt_int sg (c :: d) m); [exact M| | |exact R].
  - destruct (Z.eqb_spec c 48) as [->|]; [left|right; intros q X; congruence]. destruct d; [reflexivity|discriminate Z0].
  - assert (forall x y, decimal x y -> forall z, decimal x z -> y = z) as U by (intros x y (_ & _ & ->) z (_ & _ & ->); reflexivity).
    assert (dig c) as DC by now inversion F. unfold dig in DC.
    assert (forall q x z, decimal (x :: q) z -> dig x) as DF by (intros q x z (_ & FD & _); now inversion FD).
    destruct SG as [->|[->| ->]]; destruct IT as [D|[(q & X & D)|(q & X & D)]].
    + left. split; [now left|]. exact (U _ _ D _ M).
    + cbn in X. injection X as X1 X2. lia.
    + cbn in X. injection X as X1 X2. lia.
    + apply DF in D. cbv in D. elim (proj1 D). reflexivity.
    + cbn in X. injection X as <-. left. split; [now right|]. exact (U _ _ D _ M).
    + cbn in X. discriminate X.
    + apply DF in D. cbv in D. elim (proj1 D). reflexivity.
    + cbn in X. discriminate X.
    + cbn in X. injection X as <-. right. split; [reflexivity|]. pose proof (U _ _ D _ M). lia.
Qed.
Lemma number_app s n r : value_text s (TInt n) -> num_end r -> number (s ++ r) = Ok (TInt n, r).
Proof.
  intros V E. inversion V as [|sg d m n' D Z0 SG R| |]; subst. unfold number.
  assert (d <> [] /\ Forall dig d) as [DN DF] by (destruct D as (? & ? & _); auto). destruct d as [|c d]; [easy|].
  assert (dig c) as DC by now inversion DF. 
  assert (take_sign ((sg ++ c :: d) ++ r) = (sg, (c :: d) ++ r)) as ->.
  { unfold take_sign. unfold dig in DC. destruct SG as [[[->| ->] _]|[-> _]]; cbn [app]; [replace ((c =? 43) || (c =? 45)) with false by lia; reflexivity|reflexivity|reflexivity]. }
  rewrite span_app; [|exact DF|].
  2: { destruct r as [|x r]; [exact I|]. cbn in E |- *. tauto. }
  assert ((c =? 48) && negb (empty d) = false) as ->.
  { destruct Z0 as [X|X]; [injection X as -> ->; reflexivity|]. destruct (Z.eqb_spec c 48) as [->|]; [elim (X d eq_refl)|reflexivity]. }
  assert ((match r with x :: _ => (x =? 46) || (x =? 69) || (x =? 101) || (x =? 95) || (x =? 45) | [] => false end) = false) as ->.
  { destruct r as [|x r]; [reflexivity|]. cbn in E. lia. }
  rewrite (proj2 (parse_int_iff 64 (sg ++ c :: d) n ltac:(lia))); [reflexivity|]. split; [|exact R].
  unfold int_text. destruct SG as [[[->| ->] ->]|[-> ->]].
  - now left.
  - right. left. exists (c :: d). auto.
  - right. right. exists (c :: d). split; [reflexivity|]. now rewrite Z.opp_involutive.
Qed.
Definition word_end (r : bytes) : Prop := match r with x :: _ => blank x \/ newline x | [] => True end.
Lemma word_sound b s v r : word b s = Ok (v, r) -> s = r /\ v = TBool b /\ word_end r.
Proof.
  unfold word. destruct s as [|c s].
  - intros H. injection H as <- <-. repeat split.
  - destruct (tblank c || is_nl c) eqn:E.
    + intros H. injection H as <- <-. repeat split. cbn. rewrite <- is_blank_iff, <- is_nl_iff. apply orb_true_iff in E. exact E.
    + destruct (c =? 35); discriminate.
Qed.
Lemma word_app b r : word_end r -> word b r = Ok (TBool b, r).
Proof. unfold word, word_end. destruct r as [|c r]; [reflexivity|]. rewrite <- is_blank_iff, <- is_nl_iff. intros H. apply orb_true_iff in H. now rewrite H. Qed.
Lemma prefix_at p s : has_prefix p s = true -> s = p ++ skipn (List.length p) s.
Proof. apply prefix_skip. Qed.
(** What may stand right after a value. *)
Definition value_end (v : scalar) (r : bytes) : Prop :=
  match v with
  | TStr [] => exists c q, r = c :: q /\ 0 <= c < 128 /\ c <> 34 /\ c <> 39
  | TStr _ => True
  | TInt _ => num_end r
  | TBool _ => word_end r
  end.
Lemma value_sound s v r : value s = Ok (v, r) -> exists b, s = b ++ r /\ value_text b v /\ (v = TStr [] -> r <> []) /\ ((exists x, v = TBool x) -> word_end r).
Proof.
  unfold value. destruct s as [|c s]; [discriminate|]. destruct ((c =? 34) || (c =? 39)) eqn:Q.
  { intros H. apply obind_ok in H as ([d r'] & H & E). injection E as <- <-. apply quoted_sound in H as (b & -> & S & N); [|lia].
    exists b. split; [reflexivity|]. split; [now constructor|]. split; [intros E; injection E as ->; now apply N|intros [x X]; discriminate X]. }
  destruct (is_digit c || (c =? 43) || (c =? 45)).
  { intros H. apply number_sound in H as (b & E & V & n & ->). exists b. split; [exact E|]. split; [exact V|]. split; [discriminate|intros [x X]; discriminate X]. }
  destruct ((c =? 91) || (c =? 123)); [discriminate|].
  destruct (has_prefix (str "true") (c :: s)) eqn:T.
  { intros H. apply prefix_at in T. apply word_sound in H as (E & -> & W). exists (str "true"). split; [rewrite T; f_equal; exact E|]. split; [constructor|]. split; [discriminate|auto]. }
  destruct (has_prefix (str "false") (c :: s)) eqn:F; [|discriminate].
  intros H. apply prefix_at in F. apply word_sound in H as (E & -> & W). exists (str "false"). split; [rewrite F; f_equal; exact E|]. split; [constructor|]. split; [discriminate|auto].
Qed.
Lemma value_app b v r : value_text b v -> value_end v r -> value (b ++ r) = Ok (v, r).
Proof.
  intros V E. destruct V as [s t S|sg d m n D Z0 SG R| |].
  - assert (t <> [] \/ (exists c q, r = c :: q /\ 0 <= c < 128 /\ c <> 34 /\ c <> 39)) as TE by (destruct t; [right; exact E|left; discriminate]).
    destruct (quoted_app s t r S TE) as (q & u & -> & Q & H).
    cbn [app value]. unfold value. replace ((q =? 34) || (q =? 39)) with true by lia. now rewrite H.
  - assert (exists c q, sg ++ d = c :: q /\ (dig c \/ c = 43 \/ c = 45)) as (c & q & EQ & C).
    { destruct D as (DN & DF & _). destruct SG as [[[->| ->] _]|[-> _]]; cbn; [|exists 43, d; auto|exists 45, d; auto]. destruct d as [|c d]; [easy|]. exists c, d. split; [reflexivity|]. left. now inversion DF. }
    pose proof (number_app (sg ++ d) n r (vt_int sg d m n D Z0 SG R) E) as N. rewrite EQ in N |- *. cbn [app] in *. unfold value.
    unfold dig in C. replace ((c =? 34) || (c =? 39)) with false by lia. replace (is_digit c || (c =? 43) || (c =? 45)) with true by (unfold is_digit; lia). exact N.
  - cbn [str app]. exact (word_app true r E).
  - exact (word_app false r E).
Qed.

(* ------------------------------------------------------------------ documents *)

Lemma line_ends_stops r : line_ends r -> stops blank r.
Proof. intros [->|(c & q & -> & H)]; cbn; [auto|]. unfold newline, blank in *. lia. Qed.
Lemma value_stops b v r : value_text b v -> stops blank (b ++ r).
Proof.
  destruct 1 as [s t S|sg d m n D Z0 SG R| |]; try (cbn; unfold blank; lia).
  - destruct S; cbn; unfold blank; lia.
  - destruct D as (DN & DF & _). destruct SG as [[[->| ->] _]|[-> _]]; cbn; try (unfold blank; lia). destruct d as [|c d]; [easy|].
    cbn. inversion DF; subst. unfold blank. lia.
Qed.
Lemma ended_ok f st r l : 
  match skip_blank r with
  | [] => Ok [st]
  | c :: r' => if is_nl c || (c =? 35) then obind (lex f (c :: r')) (fun l => Ok (st :: l)) else Bad
  end = Ok l -> exists w r' l', r = w ++ r' /\ blanks w /\ line_ends r' /\ l = st :: l' /\ (r' = [] /\ l' = [] \/ lex f r' = Ok l').
Proof.
  intros H. destruct (skip_sound r) as (w & E & W & _). rewrite E. destruct (skip_blank r) as [|c r'].
  - injection H as <-. exists w, [], []. repeat split; auto. now left.
  - destruct (is_nl c || (c =? 35)) eqn:N; [|discriminate H]. apply obind_ok in H as (l' & H & X). injection X as <-. exists w, (c :: r'), l'. repeat split; auto.
    right. exists c, r'. split; [reflexivity|]. rewrite <- is_nl_iff. lia.
Qed.
Lemma lex_sound f : forall s l, lex f s = Ok l -> document s l.
Proof.
  induction f as [|f IH]; intros s l H; [discriminate H|]. cbn [lex] in H. destruct s as [|c s]; [injection H as <-; constructor|].
  destruct (tblank c || is_nl c) eqn:B.
  { constructor; [|now apply IH]. rewrite <- is_blank_iff, <- is_nl_iff. now apply orb_true_iff. }
  destruct (Z.eqb_spec c 35) as [->|N1].
  { destruct (drop_line_sound s) as (b & E & F & S). rewrite E. apply (dc_comment b); [exact F|exact S|now apply IH]. }
  destruct (Z.eqb_spec c 91) as [->|N2].
  { destruct s as [|x s]; [discriminate H|]. destruct (x =? 91); [discriminate H|]. apply obind_ok in H as ([p r1] & H & E).
    apply names_sound in H as (m & -> & M). apply ended_ok in E as (w & r' & l' & -> & W & LE & -> & D).
    apply (dc_head m p w r' l' M W LE). destruct D as [[-> ->]|D]; [constructor|now apply IH]. }
  apply obind_ok in H as ([k r1] & H & E). apply key_sound in H as (k0 & w1 & -> & K & W1). apply obind_ok in E as ([v r2] & E & E2).
  destruct (skip_sound r1) as (w2 & -> & W2 & _). apply value_sound in E as (b & -> & V & V1 & V2). apply ended_ok in E2 as (w & r' & l' & -> & W & LE & -> & D).
  apply (dc_set k0 k w1 w2 b v w r' l' K W1 W2 V W LE).
  - split; [exact V1|]. intros X -> q ->. specialize (V2 X). cbn in V2. unfold blank, newline in V2. lia.
  - destruct D as [[-> ->]|D]; [constructor|now apply IH].
Qed.
Lemma ended_app f st w r : blanks w -> line_ends r -> 
  match skip_blank (w ++ r) with
  | [] => Ok [st]
  | c :: r' => if is_nl c || (c =? 35) then obind (lex f (c :: r')) (fun l => Ok (st :: l)) else Bad
  end = match r with [] => Ok [st] | _ => obind (lex f r) (fun l => Ok (st :: l)) end.
Proof.
  intros W L. rewrite skip_app by (try exact W; now apply line_ends_stops). destruct r as [|c r]; [reflexivity|].
  destruct L as [X|(c' & q & X & N)]; [discriminate X|]. injection X as <- <-. rewrite <- is_nl_iff in N. replace (is_nl c || (c =? 35)) with true by lia. reflexivity.
Qed.
Lemma follows_end v w r : blanks w -> line_ends r -> follows v w r -> value_end v (w ++ r).
Proof.
  intros W L [F1 F2]. destruct v as [t|n|b]; cbn [value_end].
  - destruct t; [|exact I]. specialize (F1 eq_refl). destruct W as [|x w B W]; cbn [app] in *.
    + destruct L as [->|(c & q & -> & N)]; [easy|]. exists c, q. split; [reflexivity|]. unfold newline in N. lia.
    + exists x, (w ++ r). split; [reflexivity|]. unfold blank in B. lia.
  - unfold num_end, dig. destruct W as [|x w B W]; cbn [app].
    + destruct L as [->|(c & q & -> & N)]; [exact I|]. unfold newline in N. cbn. lia.
    + unfold blank in B. cbn. lia.
  - unfold word_end. destruct W as [|x w B W]; cbn [app].
    + destruct L as [->|(c & q & -> & [N|N])]; [exact I|now right|]. subst c. elim (F2 (ex_intro _ b eq_refl) eq_refl q eq_refl).
    + now left.
Qed.
Lemma lex_app s l : document s l -> forall f, (List.length s < f)%nat -> lex f s = Ok l.
Proof.
  induction 1 as [|c r l B D IH|b r l F S D IH|s p w r l M W LE D IH|k n w1 w2 s v w r l K W1 W2 V W LE FO D IH]; intros f L; (destruct f as [|f]; [cbn in L; lia|]).
  - reflexivity.
  - cbn [lex]. rewrite <- is_blank_iff, <- is_nl_iff in B. apply orb_true_iff in B. rewrite B. apply IH. cbn in L. lia.
  - cbn [app lex]. cbn [tblank is_nl Z.eqb Pos.eqb orb]. rewrite drop_line_app by assumption. apply IH. cbn in L. rewrite app_length in L. lia.
  - cbn [app lex]. cbn [tblank is_nl Z.eqb Pos.eqb orb].
    assert (exists x q, s ++ 93 :: w ++ r = x :: q /\ x <> 91) as (x & q & E & NX).
    { assert (forall k n t, name_text k n -> forall w, blanks w -> exists x q, w ++ k ++ t = x :: q /\ x <> 91) as X.
      { intros k n t K w0 W0. destruct W0 as [|x w0 B W0]; cbn [app]; [|exists x, (w0 ++ k ++ t); split; [reflexivity|unfold blank in B; lia]].
        apply name_first in K as (c & q & -> & C). exists c, (q ++ t). split; [reflexivity|]. unfold bare_char in C. lia. }
      destruct M as [w0 s n w' W0 K W'|w0 s n w' m p W0 K W' M]; rewrite <- ?app_assoc; now eapply X; eauto. }
    rewrite E. replace (x =? 91) with false by lia. rewrite <- E.
    rewrite (names_app s p M (w ++ r)) by (rewrite !app_length; cbn; lia). cbn [obind]. rewrite ended_app by assumption.
    destruct r as [|c r]; [specialize (IH 1%nat ltac:(cbn; lia)); cbn in IH; injection IH as <-; reflexivity|]. rewrite IH; [reflexivity|]. cbn in L. rewrite !app_length in L. cbn in L. rewrite !app_length in L. cbn in L. cbn. lia.
  - destruct (name_first _ _ K) as (c & q & EK & C). cbn [app]. rewrite EK in *. cbn [app lex].
    assert (tblank c || is_nl c = false) as -> by (unfold tblank, is_nl; unfold bare_char in C; lia).
    replace (c =? 35) with false by (unfold bare_char in C; lia). replace (c =? 91) with false by (unfold bare_char in C; lia).
    change (c :: q ++ w1 ++ 61 :: w2 ++ s ++ w ++ r) with ((c :: q) ++ w1 ++ 61 :: w2 ++ s ++ w ++ r). rewrite (key_app _ n) by assumption. cbn [obind].
    rewrite skip_app by (try exact W2; eapply value_stops; exact V). rewrite (value_app s v) by (try exact V; now apply follows_end). cbn [obind].
    rewrite ended_app by assumption. destruct r as [|x r]; [specialize (IH 1%nat ltac:(cbn; lia)); cbn in IH; injection IH as <-; reflexivity|]. rewrite IH; [reflexivity|].
    cbn in L. rewrite !app_length in L. cbn in L. rewrite !app_length in L. cbn in L. cbn. lia.
Qed.
Theorem lex_iff s l : lex (S (List.length s)) s = Ok l <-> document s l.
Proof. split; [apply lex_sound|]. intros D. apply lex_app; [exact D|lia]. Qed.
Lemma strange_iff s : bytes_ok s -> strange s = false <-> ~ In 0 s /\ exists cs, utf8_text s cs.
Proof.
  intros B. unfold strange. rewrite orb_false_iff. assert (existsb (fun c => c =? 0) s = false <-> ~ In 0 s) as ->.
  { destruct (existsb (fun c => c =? 0) s) eqn:E.
    - apply existsb_exists in E as (x & I & X). apply Z.eqb_eq in X. subst. split; [discriminate|intros N; elim (N I)].
    - split; [|auto]. intros _ I. assert (existsb (fun c => c =? 0) s = true); [|congruence]. apply existsb_exists. exists 0. auto. }
  destruct (runes (S (List.length s)) s) as [cs|] eqn:R.
  - split; [|tauto]. intros [N _]. split; [exact N|]. exists cs. now apply runes_sound in R.
  - split; [intros [_ X]; discriminate X|]. intros [_ [cs U]]. rewrite (runes_complete s cs U) in R by lia. discriminate R.
Qed.
