(** UnjsonLex: the parser of UnjsonModel on white space, numbers and strings. *)
From Coq Require Import ZArith Lia ZifyBool.
From Verif Require Import GoBase BufFacts Strconv StrconvFacts NmeaTypes NmeaModel NmeaSpec SignalkModel SignalkSpec JsonSpec JsonModel FtoaFacts JsonFacts JsonUnique UnjsonModel UnjsonSpec.
Open Scope Z_scope.
Open Scope list_scope.

(* ------------------------------------------------------------------ white space *)

Lemma is_space_blank c : is_space c = true <-> is_blank c.
Proof. unfold is_space, is_blank. cbn [In]. lia. Qed.
Lemma skip_ws_app w s : blank_text w -> skip_ws (w ++ s) = skip_ws s.
Proof.
  induction 1 as [|c w H _ IH]; [reflexivity|]. cbn [app skip_ws].
  replace (is_space c) with true by (symmetry; now apply is_space_blank). exact IH.
Qed.
Lemma skip_ws_stops s : stops is_blank s -> skip_ws s = s.
Proof.
  destruct s as [|c s]; [reflexivity|]. cbn [stops skip_ws]. intros H.
  destruct (is_space c) eqn:E; [apply is_space_blank in E; contradiction|reflexivity].
Qed.
Lemma skip_ws_sound s : exists w, s = w ++ skip_ws s /\ blank_text w /\ stops is_blank (skip_ws s).
Proof.
  induction s as [|c s IH]; [exists []; repeat split; constructor|]. cbn [skip_ws].
  destruct (is_space c) eqn:E.
  - destruct IH as (w & E1 & B & S). exists (c :: w). split; [cbn [app]; now f_equal|]. split; [|exact S].
    constructor; [now apply is_space_blank|exact B].
  - exists []. split; [reflexivity|]. split; [constructor|]. cbn [stops]. intros H. apply is_space_blank in H. congruence.
Qed.
Lemma blank_app a b : blank_text a -> blank_text b -> blank_text (a ++ b).
Proof. intros. apply Forall_app. auto. Qed.

(* ------------------------------------------------------------------ numbers *)

Lemma is_digit_dig c : is_digit c = true <-> dig c.
Proof. unfold is_digit, dig. lia. Qed.
Lemma span_sound s : forall d r, span_digits s = (d, r) -> s = d ++ r /\ Forall dig d /\ stops dig r.
Proof.
  induction s as [|c s IH]; intros d r H; cbn [span_digits] in H.
  - injection H as <- <-. repeat split; constructor.
  - destruct (is_digit c) eqn:E.
    + destruct (span_digits s) as [d0 r0]. injection H as <- <-. destruct (IH _ _ eq_refl) as (-> & F & S).
      split; [reflexivity|]. split; [|exact S]. constructor; [now apply is_digit_dig|exact F].
    + injection H as <- <-. split; [reflexivity|]. split; [constructor|]. cbn [stops]. intros H. apply is_digit_dig in H. congruence.
Qed.
Lemma span_app d : forall r, Forall dig d -> stops dig r -> span_digits (d ++ r) = (d, r).
Proof.
  intros r F S. induction F as [|c d H F IH]; cbn [app].
  - destruct r as [|c r]; [reflexivity|]. cbn [span_digits stops] in *. destruct (is_digit c) eqn:E; [apply is_digit_dig in E; contradiction|reflexivity].
  - cbn [span_digits]. replace (is_digit c) with true by (symmetry; now apply is_digit_dig). now rewrite IH.
Qed.
Lemma dig_decimal d : d <> [] -> Forall dig d -> exists n, decimal d n.
Proof. intros N F. eexists. split; [exact N|]. split; [exact F|reflexivity]. Qed.

Lemma num_int_sound s ip r : num_int s = Some (ip, r) ->
  s = ip ++ r /\ Forall dig ip /\ ip <> [] /\ (ip = [48] \/ forall q, ip <> 48 :: q).
Proof.
  unfold num_int. destruct s as [|c s]; [discriminate|]. destruct (Z.eqb_spec c 48) as [->|N].
  - intros H. injection H as <- <-. split; [reflexivity|]. split; [constructor; [unfold dig; lia|constructor]|]. split; [discriminate|auto].
  - destruct (is_digit c) eqn:E; [|discriminate]. destruct (span_digits s) as [d r0] eqn:S. intros H. injection H as <- <-.
    destruct (span_sound _ _ _ S) as (-> & F & _). split; [reflexivity|]. split; [constructor; [now apply is_digit_dig|exact F]|].
    split; [discriminate|]. right. intros q Q. injection Q as Q _. congruence.
Qed.
Lemma num_int_app ip r : Forall dig ip -> ip <> [] -> (ip = [48] \/ forall q, ip <> 48 :: q) -> stops dig r -> num_int (ip ++ r) = Some (ip, r).
Proof.
  intros F N L S. destruct ip as [|c d]; [congruence|]. inversion F as [|? ? D F']; subst. cbn [app num_int].
  destruct (Z.eqb_spec c 48) as [->|C].
  - destruct L as [L|L]; [injection L as ->; reflexivity|elim (L d); reflexivity].
  - replace (is_digit c) with true by (symmetry; now apply is_digit_dig). now rewrite (span_app d r F' S).
Qed.
Lemma num_frac_sound s fp r : num_frac s = Some (fp, r) ->
  s = fp ++ r /\ exists fd, (fp = [] /\ fd = [] \/ fp = 46 :: fd /\ fd <> []) /\ Forall dig fd.
Proof.
  unfold num_frac. destruct s as [|c s].
  - intros H. injection H as <- <-. split; [reflexivity|]. exists []. split; [auto|constructor].
  - destruct (Z.eqb_spec c 46) as [->|N].
    + destruct (span_digits s) as [d r0] eqn:S. destruct d as [|x d]; [discriminate|]. intros H. injection H as <- <-.
      destruct (span_sound _ _ _ S) as (-> & F & _). split; [reflexivity|]. exists (x :: d). split; [right; split; [reflexivity|discriminate]|exact F].
    + intros H. injection H as <- <-. split; [reflexivity|]. exists []. split; [auto|constructor].
Qed.
Lemma num_frac_app fp fd r : (fp = [] /\ fd = [] \/ fp = 46 :: fd /\ fd <> []) -> Forall dig fd -> stops dig r -> stops (fun c => c = 46) r ->
  num_frac (fp ++ r) = Some (fp, r).
Proof.
  intros [[-> ->]|[-> N]] F S1 S2.
  - destruct r as [|c r]; [reflexivity|]. cbn [app num_frac stops] in *. destruct (Z.eqb_spec c 46); [contradiction|reflexivity].
  - cbn [app num_frac]. rewrite Z.eqb_refl, (span_app _ _ F S1). destruct fd; [congruence|reflexivity].
Qed.
Lemma num_exp_sound s ep r : num_exp s = Some (ep, r) ->
  s = ep ++ r /\ exists x, (ep = [] /\ x = 0 \/ exists c xd, (c = 101 \/ c = 69) /\ ep = c :: xd /\ int_text xd x).
Proof.
  unfold num_exp. destruct s as [|c s].
  - intros H. injection H as <- <-. split; [reflexivity|]. exists 0. auto.
  - destruct ((c =? 101) || (c =? 69)) eqn:E.
    2:{ intros H. injection H as <- <-. split; [reflexivity|]. exists 0. auto. }
    set (p := match s with x :: r' => if (x =? 43) || (x =? 45) then ([x], r') else ([], s) | [] => ([], s) end).
    assert (s = fst p ++ snd p /\ (fst p = [] \/ fst p = [43] \/ fst p = [45])) as [PS PF].
    { unfold p. destruct s as [|x s]; [auto|]. destruct ((x =? 43) || (x =? 45)) eqn:X; [|auto]. cbn [fst snd app].
      split; [reflexivity|]. assert (x = 43 \/ x = 45) as [->| ->] by lia; auto. }
    clearbody p. destruct p as [sg r1]. cbn [fst snd] in *. destruct (span_digits r1) as [d r0] eqn:S. destruct d as [|y d]; [discriminate|].
    intros H. injection H as <- <-. destruct (span_sound _ _ _ S) as (-> & F & _).
    split; [rewrite PS; cbn [app]; f_equal; now rewrite <- app_assoc|].
    destruct (dig_decimal (y :: d) ltac:(discriminate) F) as [n D].
    exists (match sg with 45 :: _ => - n | _ => n end). right. exists c, (sg ++ y :: d). split; [lia|]. split; [reflexivity|].
    destruct PF as [-> |[-> | ->]]; cbn [app].
    + left. exact D.
    + right. left. eexists. split; [reflexivity|exact D].
    + right. right. eexists. split; [reflexivity|]. now rewrite Z.opp_involutive.
Qed.
Lemma num_exp_app ep x r : (ep = [] /\ x = 0 \/ exists c xd, (c = 101 \/ c = 69) /\ ep = c :: xd /\ int_text xd x) ->
  stops dig r -> stops (fun c => c = 101 \/ c = 69) r -> num_exp (ep ++ r) = Some (ep, r).
Proof.
  intros [[-> ->]|(c & xd & C & -> & I)] S1 S2.
  - destruct r as [|c r]; [reflexivity|]. cbn [app num_exp stops] in *. destruct ((c =? 101) || (c =? 69)) eqn:E; [lia|reflexivity].
  - cbn [app num_exp]. replace ((c =? 101) || (c =? 69)) with true by lia.
    destruct I as [D|[(q & -> & D)|(q & -> & D)]]; destruct (decimal_dig _ _ D) as [N F].
    + destruct xd as [|y xd]; [congruence|]. cbn [app]. inversion F; subst. unfold dig in *.
      replace ((y =? 43) || (y =? 45)) with false by lia. change (y :: xd ++ r) with ((y :: xd) ++ r). rewrite span_app by assumption. reflexivity.
    + cbn [app]. change ((43 =? 43) || (43 =? 45)) with true. cbv iota beta. rewrite span_app by assumption. destruct q; [congruence|reflexivity].
    + cbn [app]. change ((45 =? 43) || (45 =? 45)) with true. cbv iota beta. rewrite span_app by assumption. destruct q; [congruence|reflexivity].
Qed.

Lemma pnum_sound s t r : pnum s = Some (t, r) -> s = t ++ r /\ exists m e, number_text t m e.
Proof.
  unfold pnum.
  set (p := match s with c :: r' => if c =? 45 then ([45], r') else ([], s) | [] => ([], s) end).
  assert (exists neg : bool, fst p = (if neg then [45] else []) /\ s = fst p ++ snd p) as (neg & EN & ES).
  { unfold p. destruct s as [|c s]; [exists false; auto|]. destruct (Z.eqb_spec c 45) as [->|]; [exists true|exists false]; auto. }
  clearbody p. destruct p as [sg s1]. cbn [fst snd] in *.
  destruct (num_int s1) as [[ip s2]|] eqn:E1; [|discriminate]. destruct (num_frac s2) as [[fp s3]|] eqn:E2; [|discriminate].
  destruct (num_exp s3) as [[ep s4]|] eqn:E3; [|discriminate]. intros H. injection H as <- <-.
  destruct (num_int_sound _ _ _ E1) as (-> & F1 & N1 & L1). destruct (num_frac_sound _ _ _ E2) as (-> & fd & FF & F2).
  destruct (num_exp_sound _ _ _ E3) as (-> & x & XX). split; [rewrite ES; now rewrite <- !app_assoc|].
  destruct (dig_decimal (ip ++ fd)) as [n D]; [destruct ip; [congruence|discriminate]|now apply Forall_app|].
  exists (if neg then - n else n), (x - zlen fd), neg, ip, fp, fd, ep, x, n. subst sg. auto 10.
Qed.
Lemma number_first t m e : number_text t m e -> exists c q, t = c :: q /\ (c = 45 \/ dig c).
Proof.
  intros (neg & ip & fp & fd & ep & x & n & -> & NI & _ & _ & _ & HD & _).
  destruct (decimal_dig _ _ HD) as [_ F]. apply Forall_app in F as [F _]. destruct ip as [|c ip]; [congruence|]. inversion F; subst.
  destruct neg; cbn [app]; eauto.
Qed.
Lemma pnum_app t m e r : number_text t m e -> follow r -> pnum (t ++ r) = Some (t, r).
Proof.
  intros (neg & ip & fp & fd & ep & x & n & -> & NI & LZ & HF & HE & HD & _) S.
  destruct (follow_stops _ S) as (S1 & S2 & S3).
  destruct (decimal_dig _ _ HD) as [_ DD]. apply Forall_app in DD as [DI DF].
  assert (stops dig (ep ++ r) /\ stops (fun c => c = 46) (ep ++ r)) as [P1 P2].
  { destruct HE as [[-> _]|(c & xd & C & -> & _)]; [auto|]. cbn. unfold dig. lia. }
  assert (stops dig (fp ++ ep ++ r)) as Q by (destruct HF as [[-> _]|[-> _]]; [exact P1|cbn; unfold dig; lia]).
  unfold pnum. rewrite <- !app_assoc.
  set (s := (if neg then [45] else []) ++ ip ++ fp ++ ep ++ r).
  match goal with |- (let '(_, _) := ?M in _) = _ => assert (M = ((if neg then [45] else []), ip ++ fp ++ ep ++ r)) as -> end.
  { unfold s. clear s. destruct neg; [reflexivity|]. destruct ip as [|c ip]; [congruence|]. inversion DI; subst. cbn [app]. unfold dig in *.
    replace (c =? 45) with false by lia. reflexivity. }
  cbv iota beta.
  rewrite num_int_app by assumption. rewrite (num_frac_app fp fd) by assumption. rewrite (num_exp_app ep x) by assumption. reflexivity.
Qed.

(* ------------------------------------------------------------------ strings *)

Lemma hexv_value c v : hexv c = Some v <-> hex_value c v.
Proof.
  unfold hexv, hex_value. destruct ((48 <=? c) && (c <=? 57)) eqn:E1; [split; [intros H; injection H as <-; lia|intros H; f_equal; lia]|].
  destruct ((97 <=? c) && (c <=? 102)) eqn:E2; [split; [intros H; injection H as <-; lia|intros H; f_equal; lia]|].
  destruct ((65 <=? c) && (c <=? 70)) eqn:E3; [split; [intros H; injection H as <-; lia|intros H; f_equal; lia]|].
  split; [discriminate|lia].
Qed.
Lemma hexv4_hex4 a b c d v : hexv4 a b c d = Some v <-> hex4 [a; b; c; d] v.
Proof.
  unfold hexv4, hex4. split.
  - destruct (hexv a) as [w|] eqn:Ea; [|discriminate]. destruct (hexv b) as [x|] eqn:Eb; [|discriminate].
    destruct (hexv c) as [y|] eqn:Ec; [|discriminate]. destruct (hexv d) as [z|] eqn:Ed; [|discriminate].
    intros H. injection H as <-. exists a, b, c, d, w, x, y, z. rewrite !hexv_value in *.
    split; [reflexivity|]. repeat (split; [assumption|]). lia.
  - intros (a' & b' & c' & d' & x & y & z & w & E & Ha & Hb & Hc & Hd & ->). injection E as <- <- <- <-.
    rewrite <- !hexv_value in *. rewrite Ha, Hb, Hc, Hd. f_equal. lia.
Qed.
Lemma getu4_sound s v r : getu4 s = Some (v, r) -> exists h, s = (92 :: 117 :: h) ++ r /\ hex4 h v.
Proof.
  unfold getu4. destruct s as [|q [|u [|a [|b [|c [|d s]]]]]]; try discriminate.
  destruct ((q =? 92) && (u =? 117)) eqn:E; [|discriminate]. destruct (hexv4 a b c d) as [w|] eqn:H; [|discriminate].
  intros X. injection X as <- <-. exists [a; b; c; d]. split; [|now apply hexv4_hex4]. assert (q = 92) as -> by lia. assert (u = 117) as -> by lia. reflexivity.
Qed.
Lemma getu4_app h v r : hex4 h v -> getu4 ((92 :: 117 :: h) ++ r) = Some (v, r).
Proof.
  intros H. pose proof H as (a & b & c & d & _ & _ & _ & _ & -> & _). cbn [app getu4]. rewrite !Z.eqb_refl. cbn [andb].
  now rewrite (proj2 (hexv4_hex4 a b c d v) H).
Qed.
Lemma hex4_range h v : hex4 h v -> 0 <= v < 65536.
Proof. intros (a & b & c & d & x & y & z & w & -> & H1 & H2 & H3 & H4 & ->). unfold hex_value in *. lia. Qed.

Lemma encode_rune_utf8 c : 0 <= c < 1114112 -> ~ 55296 <= c < 57344 -> utf8 c (encode_rune c).
Proof.
  intros R S. unfold encode_rune. destruct (Z.ltb_spec c 128); [constructor; lia|]. destruct (Z.ltb_spec c 2048); [constructor; lia|].
  destruct (Z.ltb_spec c 65536); constructor; lia.
Qed.
Lemma utf8_encode c enc : utf8 c enc -> enc = encode_rune c.
Proof.
  intros H. unfold encode_rune. destruct H;
  repeat (match goal with |- context [?a <? ?b] => destruct (Z.ltb_spec a b) end); try lia; reflexivity.
Qed.
Lemma utf8_text_flat cs s : utf8_text s cs -> s = flat_map encode_rune cs.
Proof. induction 1 as [|c enc r cs H _ IH]; [reflexivity|]. cbn [flat_map]. now rewrite <- (utf8_encode _ _ H), IH. Qed.
Lemma replacement_utf8 : utf8 65533 replacement.
Proof. change replacement with [224 + 65533 / 4096; 128 + 65533 / 64 mod 64; 128 + 65533 mod 64]. constructor; lia. Qed.

Lemma short_escape_sound x y : short_escape x = Some y -> char_text [92; x] y.
Proof.
  unfold short_escape. intros H. apply ct_short. cbn [In].
  repeat (match type of H with (if ?b then _ else _) = _ => destruct b eqn:? end; [injection H as <-|]); [| | | | | |discriminate H].
  - assert (x = 34 \/ x = 92 \/ x = 47) as [->|[->| ->]] by lia; auto.
  - replace x with 98 by lia. auto 10.
  - replace x with 102 by lia. auto 10.
  - replace x with 110 by lia. auto 10.
  - replace x with 114 by lia. auto 10.
  - replace x with 116 by lia. auto 10.
Qed.
Lemma short_escape_range x y : short_escape x = Some y -> 0 <= y < 128.
Proof.
  unfold short_escape. intros H.
  repeat (match type of H with (if ?b then _ else _) = _ => destruct b eqn:? end; [injection H as <-; lia|]). discriminate H.
Qed.
(** A character text starts as follows. *)
Lemma plain_byte b : 32 <= b < 128 -> b <> 34 -> b <> 92 -> char_text [b] b.
Proof. intros. apply ct_plain; try lia. constructor. lia. Qed.

Lemma prepend_some a o s r : prepend a o = Some (s, r) -> exists s', o = Some (s', r) /\ s = a ++ s'.
Proof. destruct o as [[s' r']|]; [|discriminate]. cbn [prepend]. intros H. injection H as <- <-. eauto. Qed.
Lemma getu4_ok s v r : bytes_ok s -> getu4 s = Some (v, r) -> bytes_ok r.
Proof. intros B H. destruct (getu4_sound _ _ _ H) as (h & -> & _). now apply Forall_app in B as [_ B]. Qed.

Lemma pstr_sound f : forall s t r, bytes_ok s -> pstr f s = Some (t, r) ->
  exists b cs, s = b ++ 34 :: r /\ lax_chars b cs /\ utf8_text t cs.
Proof.
  induction f as [|f IH]; intros s t r OK H; [discriminate|]. cbn [pstr] in H. destruct s as [|c s]; [discriminate|].
  inversion OK as [|? ? Bc OK']; subst. unfold is_byte in Bc.
  destruct (Z.eqb_spec c 34) as [->|N34]. { injection H as <- <-. exists [], []. repeat split; constructor. }
  destruct (Z.eqb_spec c 92) as [->|N92].
  { destruct s as [|x s]; [discriminate|]. destruct (Z.eqb_spec x 117) as [->|N117].
    - destruct (getu4 (92 :: 117 :: s)) as [[u r2]|] eqn:G; [|discriminate].
      pose proof (getu4_ok _ _ _ OK G) as OK2. destruct (getu4_sound _ _ _ G) as (h & EH & HH). rewrite EH.
      pose proof (hex4_range _ _ HH) as RU.
      destruct ((55296 <=? u) && (u <? 57344)) eqn:SU.
      + assert (forall r3 w, getu4 r2 = Some (w, r3) -> (u <? 56320) && ((56320 <=? w) && (w <? 57344)) = true ->
          prepend (encode_rune ((u - 55296) * 1024 + (w - 56320) + 65536)) (pstr f r3) = Some (t, r) ->
          exists b cs, (92 :: 117 :: h) ++ r2 = b ++ 34 :: r /\ lax_chars b cs /\ utf8_text t cs) as PAIR.
        { intros r3 w G2 C X. destruct (getu4_sound _ _ _ G2) as (l & -> & HL). apply prepend_some in X as (t' & X & ->).
          destruct (IH _ _ _ (getu4_ok _ _ _ OK2 G2) X) as (b & cs & -> & LC & UT).
          set (cp := (u - 55296) * 1024 + (w - 56320) + 65536).
          assert (char_text ((92 :: 117 :: h) ++ (92 :: 117 :: l)) cp) as CT.
          { replace cp with (65536 + 1024 * (u - 55296) + (w - 56320)) by (unfold cp; lia). apply ct_pair; try assumption; lia. }
          exists (((92 :: 117 :: h) ++ (92 :: 117 :: l)) ++ b), (cp :: cs). split; [now rewrite <- !app_assoc|].
          split; [now apply lc_char|]. constructor; [|exact UT]. apply encode_rune_utf8; unfold cp; lia. }
        assert ((forall l b' r', u < 56320 -> hex4 l b' -> 56320 <= b' < 57344 -> r2 <> (92 :: 117 :: l) ++ r') ->
          prepend replacement (pstr f r2) = Some (t, r) ->
          exists b cs, (92 :: 117 :: h) ++ r2 = b ++ 34 :: r /\ lax_chars b cs /\ utf8_text t cs) as LONE.
        { intros NL X. apply prepend_some in X as (t' & X & ->). destruct (IH _ _ _ OK2 X) as (b & cs & -> & LC & UT).
          exists ((92 :: 117 :: h) ++ b), (65533 :: cs). split; [now rewrite <- !app_assoc|]. split.
          - apply lc_lone with (a := u); [exact HH|lia| |exact LC]. intros l b' r' U L B' ->.
            apply (NL l b' (r' ++ 34 :: r) U L B'). now rewrite <- app_assoc.
          - apply ut_char; [exact replacement_utf8|exact UT]. }
        destruct (getu4 r2) as [[w r3]|] eqn:G2.
        * destruct ((u <? 56320) && ((56320 <=? w) && (w <? 57344))) eqn:C.
          -- exact (PAIR _ _ eq_refl C H).
          -- apply LONE; [|exact H]. intros l b' r' U L B' E. rewrite E, (getu4_app _ _ _ L) in G2. injection G2 as <- <-. lia.
        * apply LONE; [|exact H]. intros l b' r' U L B' E. rewrite E, (getu4_app _ _ _ L) in G2. discriminate.
      + apply prepend_some in H as (t' & X & ->). destruct (IH _ _ _ OK2 X) as (b & cs & -> & LC & UT).
        exists ((92 :: 117 :: h) ++ b), (u :: cs). split; [now rewrite <- !app_assoc|]. split.
        * apply lc_char; [|exact LC]. apply ct_hex; [exact HH|lia].
        * constructor; [|exact UT]. apply encode_rune_utf8; lia.
    - destruct (short_escape x) as [y|] eqn:SE; [|discriminate]. apply prepend_some in H as (t' & X & ->).
      inversion OK' as [|? ? _ OK2]; subst. destruct (IH _ _ _ OK2 X) as (b & cs & -> & LC & UT).
      exists ([92; x] ++ b), (y :: cs). split; [reflexivity|]. split; [apply lc_char; [now apply short_escape_sound|exact LC]|].
      constructor; [|exact UT]. constructor. now apply short_escape_range in SE. }
  destruct (Z.ltb_spec c 32); [discriminate|].
  destruct (Z.ltb_spec c 128).
  { apply prepend_some in H as (t' & X & ->). destruct (IH _ _ _ OK' X) as (b & cs & -> & LC & UT).
    exists ([c] ++ b), (c :: cs). split; [reflexivity|]. split; [apply lc_char; [now apply plain_byte|exact LC]|].
    constructor; [|exact UT]. constructor. lia. }
  destruct (decode_rune (c :: s)) as [[cp n]|] eqn:D.
  - destruct (decode_sound _ _ _ OK D) as (enc & q & E & -> & U). rewrite E in H.
    assert (firstn (List.length enc) (enc ++ q) = enc) as E1 by (rewrite firstn_app, Nat.sub_diag, firstn_all; apply app_nil_r).
    assert (skipn (List.length enc) (enc ++ q) = q) as E2 by (rewrite skipn_app, Nat.sub_diag, skipn_all; reflexivity).
    rewrite E1, E2 in H. apply prepend_some in H as (t' & X & ->). rewrite E in *. apply Forall_app in OK as [_ OK].
    destruct (IH _ _ _ OK X) as (b & cs & -> & LC & UT). exists (enc ++ b), (cp :: cs). split; [now rewrite <- app_assoc|].
    split; [|now constructor]. apply lc_char; [|exact LC]. destruct (utf8_head _ _ U) as (a & q' & -> & L1 & L2).
    assert (a = c) as -> by (injection E; auto). destruct (Z.lt_ge_cases cp 128) as [L|L]; [destruct (L1 L); lia|].
    apply ct_plain; [exact U|lia|lia|lia].
  - apply prepend_some in H as (t' & X & ->). destruct (IH _ _ _ OK' X) as (b & cs & -> & LC & UT).
    exists (c :: b), (65533 :: cs). split; [reflexivity|]. split; [|apply ut_char; [exact replacement_utf8|exact UT]].
    apply lc_bad; [lia| |exact LC]. intros cp enc r' U E.
    pose proof (decode_utf8 cp enc (r' ++ 34 :: r) U) as D'. rewrite app_assoc, <- E in D'. change ((c :: b) ++ 34 :: r) with (c :: b ++ 34 :: r) in D'. congruence.
Qed.

(** What does not contain the closing quote lies before it. *)
Lemma before_quote a : forall x b y, Forall (fun c => c <> 34) a -> a ++ x = b ++ 34 :: y -> exists z, b = a ++ z.
Proof.
  induction a as [|c a IH]; intros x b y F E; [exists b; reflexivity|]. inversion F; subst.
  destruct b as [|d b]; cbn [app] in E; injection E as -> E; [contradiction|].
  destruct (IH _ _ _ ltac:(eassumption) E) as [z ->]. exists z. reflexivity.
Qed.
Lemma hex4_noquote l v : hex4 l v -> Forall (fun c => c <> 34) (92 :: 117 :: l).
Proof.
  intros (a & b & c & d & x & y & z & w & -> & H1 & H2 & H3 & H4 & _). unfold hex_value in *.
  repeat constructor; lia.
Qed.
Lemma utf8_noquote c enc : utf8 c enc -> 128 <= c -> Forall (fun c => c <> 34) enc.
Proof.
  intros [c' H|c' H|c' H N|c' H] L; [lia| | |]; repeat (apply Forall_cons; [cbv beta; Z.to_euclidean_division_equations; lia|]); apply Forall_nil.
Qed.
Lemma prepend_eq a t r o : o = Some (t, r) -> prepend a o = Some (a ++ t, r).
Proof. intros ->. reflexivity. Qed.
Lemma short_escape_in x c : In (x, c) [(34, 34); (92, 92); (47, 47); (98, 8); (102, 12); (110, 10); (114, 13); (116, 9)] ->
  x <> 117 /\ short_escape x = Some c.
Proof. cbn [In]. intros I. repeat (destruct I as [I|I]; [injection I as <- <-; split; [lia|reflexivity]|]). contradiction. Qed.

Lemma pstr_app b cs : lax_chars b cs -> forall t r f, bytes_ok (b ++ 34 :: r) -> utf8_text t cs -> (List.length b < f)%nat ->
  pstr f (b ++ 34 :: r) = Some (t, r).
Proof.
  induction 1 as [|s c b cs CT _ IH|x b cs L NU _ IH|h a b cs HH RA NP _ IH]; intros t r f OK UT LF; (destruct f as [|f]; [lia|]).
  - inversion UT; subst. reflexivity.
  - inversion UT as [|? enc t' ? U UT']; subst. clear UT. rewrite <- app_assoc in *. apply Forall_app in OK as [OKs OK]. rewrite app_length in LF.
    assert (List.length s <> 0)%nat as NS. { destruct (char_first _ _ CT) as (? & ? & -> & _). cbn [List.length]. lia. }
    specialize (IH t' r f OK UT' ltac:(lia)).
    destruct CT as [c s U' C32 C34 C92|x c I|h c X NS'|h l a d X Y A B].
    + destruct (utf8_head _ _ U') as (a & q & Es & H1 & H2).
      assert (enc = s) as -> by (rewrite (utf8_encode _ _ U), (utf8_encode _ _ U'); reflexivity).
      destruct (Z.lt_ge_cases c 128) as [L|L].
      * destruct (H1 L) as [-> ->]. subst s. cbn [app pstr]. destruct (Z.eqb_spec c 34); [contradiction|]. destruct (Z.eqb_spec c 92); [contradiction|].
        destruct (Z.ltb_spec c 32); [lia|]. destruct (Z.ltb_spec c 128); [|lia]. now rewrite (prepend_eq _ _ _ _ IH).
      * specialize (H2 L). pose proof (decode_utf8 c s (b ++ 34 :: r) U') as D. subst s. cbn [app pstr] in *.
        destruct (Z.eqb_spec a 34); [lia|]. destruct (Z.eqb_spec a 92); [lia|]. destruct (Z.ltb_spec a 32); [lia|]. destruct (Z.ltb_spec a 128); [lia|].
        rewrite D. change (a :: q ++ b ++ 34 :: r) with ((a :: q) ++ b ++ 34 :: r).
        rewrite firstn_app, Nat.sub_diag, firstn_all, skipn_app, Nat.sub_diag, skipn_all. cbn [firstn skipn app]. rewrite app_nil_r.
        now rewrite (prepend_eq _ _ _ _ IH).
    + destruct (short_escape_in _ _ I) as [N SE]. cbn [app pstr]. change (92 =? 34) with false. change (92 =? 92) with true. cbv iota.
      destruct (Z.eqb_spec x 117); [contradiction|]. rewrite SE, (prepend_eq _ _ _ _ IH). f_equal. f_equal.
      rewrite (utf8_encode _ _ U). unfold encode_rune. apply short_escape_range in SE. destruct (Z.ltb_spec c 128); [reflexivity|lia].
    + pose proof (getu4_app h c (b ++ 34 :: r) X) as G. cbn [app] in G |- *. cbn [pstr]. change (92 =? 34) with false. change (92 =? 92) with true. change (117 =? 117) with true. cbv iota.
      rewrite G. replace ((55296 <=? c) && (c <? 57344)) with false by lia. rewrite (prepend_eq _ _ _ _ IH). now rewrite (utf8_encode _ _ U).
    + rewrite <- app_assoc. pose proof (getu4_app h a ((92 :: 117 :: l) ++ b ++ 34 :: r) X) as G. pose proof (getu4_app l d (b ++ 34 :: r) Y) as G2.
      cbn [app] in G, G2 |- *. cbn [pstr]. change (92 =? 34) with false. change (92 =? 92) with true. change (117 =? 117) with true. cbv iota.
      rewrite G. replace ((55296 <=? a) && (a <? 57344)) with true by lia. rewrite G2. replace ((a <? 56320) && ((56320 <=? d) && (d <? 57344))) with true by lia.
      rewrite (prepend_eq _ _ _ _ IH), (utf8_encode _ _ U). do 4 f_equal. lia.
  - inversion UT as [|? enc t' ? U UT']; subst. clear UT. cbn [List.length] in LF. cbn [app] in *. inversion OK as [|? ? Bx OK']; subst.
    specialize (IH t' r f OK' UT' ltac:(lia)). cbn [pstr].
    destruct (Z.eqb_spec x 34); [lia|]. destruct (Z.eqb_spec x 92); [lia|]. destruct (Z.ltb_spec x 32); [lia|]. destruct (Z.ltb_spec x 128); [lia|].
    destruct (decode_rune (x :: b ++ 34 :: r)) as [[cp nn]|] eqn:D.
    + destruct (decode_sound _ _ _ OK D) as (enc' & q & E & -> & U'). exfalso.
      destruct (utf8_head _ _ U') as (a & q' & Ee & H1 & H2).
      assert (x = a) by (subst enc'; injection E; auto).
      assert (128 <= cp) by (destruct (Z.lt_ge_cases cp 128) as [L'|L']; [destruct (H1 L'); lia|lia]).
      destruct (before_quote enc' q (x :: b) r) as [z Ez]; [eapply utf8_noquote; eassumption|symmetry; exact E|].
      exact (NU _ _ _ U' Ez).
    + rewrite (prepend_eq _ _ _ _ IH). now rewrite (utf8_encode _ _ U).
  - inversion UT as [|? enc t' ? U UT']; subst. clear UT. rewrite <- app_assoc in *. apply Forall_app in OK as [OKs OK]. rewrite app_length in LF. cbn [List.length] in LF.
    specialize (IH t' r f OK UT' ltac:(lia)).
    pose proof (getu4_app h a (b ++ 34 :: r) HH) as G. cbn [app] in G |- *. cbn [pstr]. change (92 =? 34) with false. change (92 =? 92) with true. change (117 =? 117) with true. cbv iota.
    rewrite G. replace ((55296 <=? a) && (a <? 57344)) with true by lia.
    assert (prepend replacement (pstr f (b ++ 34 :: r)) = Some (enc ++ t', r)) as R by (rewrite (prepend_eq _ _ _ _ IH); now rewrite (utf8_encode _ _ U)).
    destruct (getu4 (b ++ 34 :: r)) as [[w r3]|] eqn:G2; [|exact R].
    destruct ((a <? 56320) && ((56320 <=? w) && (w <? 57344))) eqn:C; [|exact R]. exfalso.
    destruct (getu4_sound _ _ _ G2) as (l & E & HL). destruct (before_quote (92 :: 117 :: l) r3 b r) as [z Ez]; [eapply hex4_noquote; eassumption|symmetry; exact E|].
    apply (NP l w z); try assumption; lia.
Qed.

(** Every text has its UTF-8 form. *)
Lemma lax_chars_utf8 b cs : lax_chars b cs -> exists t, utf8_text t cs.
Proof.
  induction 1 as [|s c b cs CT _ [t UT]|x b cs L NU _ [t UT]|h a b cs HH RA NP _ [t UT]].
  - exists []. constructor.
  - assert (0 <= c < 1114112 /\ ~ 55296 <= c < 57344) as [R S].
    { destruct CT as [c s U C32 C34 C92|x c I|h c X NS'|h l a d X Y A B].
      - destruct U; lia.
      - apply short_escape_in in I as [_ I]. apply short_escape_range in I. lia.
      - apply hex4_range in X. lia.
      - lia. }
    eexists. apply ut_char; [now apply encode_rune_utf8|exact UT].
  - eexists. apply ut_char; [exact replacement_utf8|exact UT].
  - eexists. apply ut_char; [exact replacement_utf8|exact UT].
Qed.
