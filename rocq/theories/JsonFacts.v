(** JsonFacts: the texts of JsonModel are JSON texts with the intended meaning. *)
From Coq Require Import ZArith Reals Lia Floats.SpecFloat ZifyBool.
From Flocq Require Import Core BinarySingleNaN.
From Verif Require Import GoBase BufFacts Strconv StrconvFacts CanModel NmeaTypes NmeaModel NmeaSpec NmeaFloat SignalkModel SignalkSpec SignalkTime SignalkText
  MainModel ApiModel FtoaModel JsonSpec FtoaFacts JsonModel.
Open Scope Z_scope.
Open Scope list_scope.

(* ------------------------------------------------------------------ UTF-8 *)

Ltac zdiv := Z.to_euclidean_division_equations; lia.

Lemma decode_utf8 c enc r : utf8 c enc -> decode_rune (enc ++ r) = Some (c, List.length enc).
Proof.
  intros H. destruct H; cbn [app decode_rune List.length].
  - replace (c <? 128) with true by lia. reflexivity.
  - assert (3 <= c / 64 - (-1) /\ c / 64 < 32) by zdiv. pose proof (Z.mod_pos_bound c 64 ltac:(lia)).
    replace (192 + c / 64 <? 128) with false by lia.
    replace ((194 <=? 192 + c / 64) && (192 + c / 64 <=? 223)) with true by lia.
    unfold cont. replace ((128 <=? 128 + c mod 64) && (128 + c mod 64 <=? 191)) with true by lia.
    do 2 f_equal. pose proof (Z.div_mod c 64). lia.
  - set (x := c / 4096). set (y := c / 64 mod 64). set (z := c mod 64).
    assert (c = 4096 * x + 64 * y + z /\ 0 <= y < 64 /\ 0 <= z < 64) as [E [Hy Hz]] by (unfold x, y, z; zdiv).
    assert (0 <= x < 16) by lia.
    replace (224 + x <? 128) with false by lia.
    replace ((194 <=? 224 + x) && (224 + x <=? 223)) with false by lia.
    replace ((224 <=? 224 + x) && (224 + x <=? 239)) with true by lia.
    unfold cont.
    replace (((if 224 + x =? 224 then 160 else 128) <=? 128 + y) && (128 + y <=? (if 224 + x =? 237 then 159 else 191)) && ((128 <=? 128 + z) && (128 + z <=? 191))) with true.
    2:{ destruct (Z.eqb_spec (224 + x) 224); destruct (Z.eqb_spec (224 + x) 237); lia. }
    do 2 f_equal. lia.
  - set (w := c / 262144). set (x := c / 4096 mod 64). set (y := c / 64 mod 64). set (z := c mod 64).
    assert (c = 262144 * w + 4096 * x + 64 * y + z /\ 0 <= x < 64 /\ 0 <= y < 64 /\ 0 <= z < 64) as [E [Hx [Hy Hz]]] by (unfold w, x, y, z; zdiv).
    assert (0 <= w < 5) by lia.
    replace (240 + w <? 128) with false by lia.
    replace ((194 <=? 240 + w) && (240 + w <=? 223)) with false by lia.
    replace ((224 <=? 240 + w) && (240 + w <=? 239)) with false by lia.
    replace ((240 <=? 240 + w) && (240 + w <=? 244)) with true by lia.
    unfold cont.
    replace (((if 240 + w =? 240 then 144 else 128) <=? 128 + x) && (128 + x <=? (if 240 + w =? 244 then 143 else 191)) && ((128 <=? 128 + y) && (128 + y <=? 191)) && ((128 <=? 128 + z) && (128 + z <=? 191))) with true.
    2:{ destruct (Z.eqb_spec (240 + w) 240); destruct (Z.eqb_spec (240 + w) 244); lia. }
    do 2 f_equal. lia.
Qed.

Lemma decode_sound s c n : bytes_ok s -> decode_rune s = Some (c, n) ->
  exists enc r, s = enc ++ r /\ n = List.length enc /\ utf8 c enc.
Proof.
  intros OK H. destruct s as [|a s]; [discriminate|]. cbn [decode_rune] in H.
  inversion OK as [|? ? Ba OK1]; subst. unfold is_byte in *.
  destruct (Z.ltb_spec a 128). { injection H as <- <-. exists [a], s. split; [reflexivity|]. split; [reflexivity|]. constructor. lia. }
  destruct ((194 <=? a) && (a <=? 223)) eqn:E1.
  { destruct s as [|b s]; [discriminate|]. unfold cont in H. destruct ((128 <=? b) && (b <=? 191)) eqn:E2; [|discriminate].
    injection H as <- <-. exists [a; b], s. split; [reflexivity|]. split; [reflexivity|].
    set (c := (a - 192) * 64 + (b - 128)). replace a with (192 + c / 64) by (unfold c; zdiv). replace b with (128 + c mod 64) by (unfold c; zdiv).
    constructor. unfold c. lia. }
  destruct ((224 <=? a) && (a <=? 239)) eqn:E3.
  { destruct s as [|b [|d s]]; try discriminate. unfold cont in H.
    destruct (((if a =? 224 then 160 else 128) <=? b) && (b <=? (if a =? 237 then 159 else 191)) && ((128 <=? d) && (d <=? 191))) eqn:E2; [|discriminate].
    injection H as <- <-. exists [a; b; d], s. split; [reflexivity|]. split; [reflexivity|].
    assert (B : 128 <= b <= 191) by (destruct (a =? 224); destruct (a =? 237); lia).
    set (c := (a - 224) * 4096 + (b - 128) * 64 + (d - 128)).
    replace [a; b; d] with [224 + c / 4096; 128 + c / 64 mod 64; 128 + c mod 64] by (unfold c; repeat f_equal; zdiv).
    constructor; unfold c; destruct (Z.eqb_spec a 224); destruct (Z.eqb_spec a 237); lia. }
  destruct ((240 <=? a) && (a <=? 244)) eqn:E4; [|discriminate].
  destruct s as [|b [|d [|e s]]]; try discriminate. unfold cont in H.
  destruct (((if a =? 240 then 144 else 128) <=? b) && (b <=? (if a =? 244 then 143 else 191)) && ((128 <=? d) && (d <=? 191)) && ((128 <=? e) && (e <=? 191))) eqn:E2; [|discriminate].
  injection H as <- <-. exists [a; b; d; e], s. split; [reflexivity|]. split; [reflexivity|].
  assert (B : 128 <= b <= 191) by (destruct (a =? 240); destruct (a =? 244); lia).
  set (c := (a - 240) * 262144 + (b - 128) * 4096 + (d - 128) * 64 + (e - 128)).
  replace [a; b; d; e] with [240 + c / 262144; 128 + c / 4096 mod 64; 128 + c / 64 mod 64; 128 + c mod 64] by (unfold c; repeat f_equal; zdiv).
  constructor; unfold c; destruct (Z.eqb_spec a 240); destruct (Z.eqb_spec a 244); lia.
Qed.

Lemma utf8_len c enc : utf8 c enc -> (1 <= List.length enc <= 4)%nat.
Proof. intros []; cbn [List.length]; lia. Qed.
Lemma utf8_head c enc : utf8 c enc -> exists a r, enc = a :: r /\ (c < 128 -> a = c /\ r = []) /\ (128 <= c -> 128 <= a).
Proof.
  intros [x H|x H|x H N|x H]; eexists _, _; (split; [reflexivity|]).
  - split; [auto|lia].
  - split; [lia|]. assert (0 <= x / 64) by (apply Z.div_pos; lia). lia.
  - split; [lia|]. assert (0 <= x / 4096) by (apply Z.div_pos; lia). lia.
  - split; [lia|]. assert (0 <= x / 262144) by (apply Z.div_pos; lia). lia.
Qed.

(* ------------------------------------------------------------------ strings *)

Lemma hexl_value n : 0 <= n < 16 -> hex_value (hexl n) n.
Proof. intros H. unfold hexl, hex_value. destruct (Z.ltb_spec n 10); lia. Qed.

Lemma json_ascii_char b : 0 <= b < 128 -> char_text (json_ascii b) b.
Proof.
  intros H. unfold json_ascii. destruct (html_safe b) eqn:S.
  - unfold html_safe in S. apply ct_plain; [constructor|..]; lia.
  - destruct ((b =? 92) || (b =? 34)) eqn:E1. { apply orb_prop in E1. destruct E1 as [E|E]; apply Z.eqb_eq in E; subst b; apply ct_short; cbn; auto. }
    destruct (Z.eqb_spec b 10) as [->|]. { apply ct_short. cbn. auto 10. }
    destruct (Z.eqb_spec b 13) as [->|]. { apply ct_short. cbn. auto 10. }
    destruct (Z.eqb_spec b 9) as [->|]. { apply ct_short. cbn. auto 10. }
    apply ct_hex; [|lia]. pose proof (Z.div_mod b 16). pose proof (Z.mod_pos_bound b 16 ltac:(lia)).
    assert (0 <= b / 16 < 16) by zdiv.
    exists 48, 48, (hexl (b / 16)), (hexl (b mod 16)), 0, 0, (b / 16), (b mod 16).
    split; [reflexivity|]. split; [left; lia|]. split; [left; lia|]. split; [now apply hexl_value|]. split; [now apply hexl_value|]. lia.
Qed.

Lemma json_body_skip n s : json_body n s = json_body 0 (skipn n s).
Proof.
  revert n. induction s as [|b r IH]; intros n; [destruct n; reflexivity|].
  destruct n as [|n]; [reflexivity|]. cbn [json_body skipn]. apply IH.
Qed.

Lemma json_body_ok n : forall s, (List.length s <= n)%nat -> bytes_ok s -> exists cs, reads s cs /\ chars_text (json_body 0 s) cs.
Proof.
  induction n as [|n IH]; intros s L OK.
  { destruct s; [|cbn in L; lia]. exists []. split; constructor. }
  destruct s as [|b r]. { exists []. split; constructor. }
  inversion OK as [|? ? Bb OK1]; subst. unfold is_byte in Bb. cbn [json_body]. cbn [List.length] in L.
  destruct (Z.ltb_spec b 128).
  - destruct (IH r ltac:(lia) OK1) as [cs [R C]]. exists (b :: cs). split.
    + change (b :: r) with ([b] ++ r). apply rd_char; [constructor; lia|assumption].
    + apply cs_char; [apply json_ascii_char; lia|assumption].
  - destruct (decode_rune (b :: r)) as [[c k]|] eqn:D.
    + destruct (decode_sound _ _ _ OK D) as [enc [r' [E [-> U]]]].
      pose proof (utf8_len _ _ U). destruct (utf8_head _ _ U) as [a [t [Et [H1 H2]]]].
      rewrite Et in E. cbn [app] in E. injection E as <- ->.
      rewrite json_body_skip. assert (LE : (List.length enc - 1 = List.length t)%nat) by (rewrite Et; cbn [List.length]; lia). rewrite LE. rewrite skipn_app, skipn_all, Nat.sub_diag. cbn [app skipn].
      assert (OK2 : bytes_ok r') by (apply Forall_app in OK1; tauto).
      destruct (IH r' ltac:(rewrite app_length in L; lia) OK2) as [cs [R C]].
      exists (c :: cs). split.
      * change (b :: t ++ r') with ((b :: t) ++ r'). rewrite <- Et. now apply rd_char.
      * apply cs_char; [|assumption].
        assert (128 <= c) by lia.
        destruct ((c =? 8232) || (c =? 8233)) eqn:LS.
        -- assert (c = 8232 \/ c = 8233) as CC by lia. apply ct_hex; [|lia].
           exists 50, 48, 50, (hexl (c mod 16)), 2, 0, 2, (c mod 16). split; [reflexivity|]. split; [left; lia|]. split; [left; lia|]. split; [left; lia|].
           split; [apply hexl_value; apply Z.mod_pos_bound; lia|]. destruct CC as [-> | ->]; reflexivity.
        -- change (b :: t ++ r') with ((b :: t) ++ r'). rewrite <- Et. rewrite firstn_app, firstn_all, Nat.sub_diag. cbn [firstn]. rewrite app_nil_r. apply ct_plain; [assumption|lia|lia|lia].
    + destruct (IH r ltac:(lia) OK1) as [cs [R C]]. exists (65533 :: cs). split.
      * apply rd_bad; [|assumption]. intros c enc r' U E. rewrite E in D. rewrite (decode_utf8 c enc r' U) in D. discriminate.
      * apply (cs_char [92; 117; 102; 102; 102; 100]); [|assumption]. apply (ct_hex [102; 102; 102; 100] 65533); [|lia].
        exists 102, 102, 102, 100, 15, 15, 15, 13. split; [reflexivity|]. unfold hex_value. lia.
Qed.

Theorem json_string_ok s : bytes_ok s -> exists cs, reads s cs /\ string_text (json_string s) cs.
Proof.
  intros OK. destruct (json_body_ok (List.length s) s (le_n _) OK) as [cs [R C]]. exists cs. split; [assumption|].
  exists (json_body 0 s). split; [reflexivity|assumption].
Qed.

Lemma app_same_len {A} (a a' b b' : list A) : List.length a = List.length a' -> a ++ b = a' ++ b' -> a = a' /\ b = b'.
Proof.
  revert a'. induction a as [|x a IH]; intros [|x' a'] L E; cbn in *; try lia; [auto|].
  injection E as -> E. destruct (IH a' ltac:(lia) E) as [-> ->]. auto.
Qed.
(** Reading is a function. *)
Lemma reads_fun s cs cs' : reads s cs -> reads s cs' -> cs = cs'.
Proof.
  intros H. revert cs'. induction H as [|c enc r cs U R IH|b r cs N R IH]; intros cs' H'.
  - inversion H' as [|? e ? ? U' ? E|]; subst; [reflexivity|]. destruct (utf8_len _ _ U'). apply app_eq_nil in E. destruct E; subst. cbn in *; lia.
  - inversion H' as [E|c' enc' r' ? U' R' E|b r' ? N R' E]; subst.
    + destruct (utf8_len _ _ U). symmetry in E. apply app_eq_nil in E. destruct E; subst. cbn in *; lia.
    + pose proof (decode_utf8 _ _ r U) as D1. pose proof (decode_utf8 _ _ r' U') as D2. rewrite E in D2. rewrite D1 in D2. injection D2 as -> L.
      destruct (app_same_len _ _ _ _ L (eq_sym E)) as [-> ->].
      f_equal. auto.
    + exfalso. apply (N c enc r U). congruence.
  - inversion H' as [|c' enc' r' ? U' R' E|]; subst.
    + exfalso. exact (N c' enc' r' U' (eq_sym E)).
    + f_equal; auto.
Qed.

(* ------------------------------------------------------------------ plain texts *)

Definition plain (c : Z) : Prop := 32 <= c < 128 /\ c <> 34 /\ c <> 92.
Lemma plain_text t : Forall plain t -> string_text (34 :: t ++ [34]) t.
Proof.
  intros H. exists t. split; [reflexivity|]. induction H as [|c t [H1 [H2 H3]] F IH]; [constructor|].
  change (c :: t) with ([c] ++ t) at 1. constructor; [|exact IH]. apply ct_plain; [constructor; lia|lia|assumption|assumption].
Qed.
Lemma plain_reads t : Forall plain t -> reads t t.
Proof.
  intros H. induction H as [|c t [H1 [H2 H3]] F IH]; [constructor|]. change (c :: t) with ([c] ++ t) at 1. apply rd_char; [constructor; lia|exact IH].
Qed.
Lemma ascii_reads t : Forall (fun c => 0 <= c < 128) t -> reads t t.
Proof.
  intros H. induction H as [|c t H1 F IH]; [constructor|]. change (c :: t) with ([c] ++ t) at 1. apply rd_char; [constructor; lia|exact IH].
Qed.
Lemma dec_plain s : Forall dec_char s -> Forall plain s.
Proof. intros H. eapply Forall_impl; [|exact H]. intros c. unfold dec_char, plain. lia. Qed.
Lemma decimal_plain s n : decimal s n -> Forall plain s.
Proof. intros [_ [F _]]. now apply dec_plain. Qed.
Lemma digits_plain w n s : digits w n s -> Forall plain s.
Proof. intros [_ D]. eapply decimal_plain; eauto. Qed.

(* ------------------------------------------------------------------ numbers *)

Lemma itoa_number n : number_text (itoa n) n 0.
Proof.
  assert (P : forall k, 0 <= k -> itoa k <> [] /\ (itoa k = [48] \/ forall r, itoa k <> 48 :: r) /\ decimal (itoa k ++ []) k).
  { intros k H. destruct (itoa_value k H) as [V [F NE]]. split; [assumption|]. split.
    - destruct (Z.eq_dec k 0) as [->|]; [left; reflexivity|right]. destruct (itoa_head k ltac:(lia)) as [c [r [E N]]]. rewrite E. intros r' K. injection K as K _. now apply N.
    - rewrite app_nil_r. now apply itoa_decimal. }
  destruct (Z_lt_le_dec n 0).
  - destruct (P (- n) ltac:(lia)) as [A [B C]]. exists true, (itoa (- n)), [], [], [], 0, (- n).
    rewrite !app_nil_r in *. rewrite itoa_neg by assumption. split; [reflexivity|]. split; [assumption|]. split; [assumption|]. split; [auto|]. split; [auto|]. split; [assumption|]. split; [lia|reflexivity].
  - destruct (P n ltac:(lia)) as [A [B C]]. exists false, (itoa n), [], [], [], 0, n.
    rewrite !app_nil_r in *. split; [reflexivity|]. split; [assumption|]. split; [assumption|]. split; [auto|]. split; [auto|]. split; [assumption|]. split; [lia|reflexivity].
Qed.

(* ------------------------------------------------------------------ base 64 *)

Lemma b64_char_digit v : 0 <= v < 64 -> b64_digit v (b64_char v).
Proof.
  intros H. unfold b64_char, b64_digit.
  destruct (Z.ltb_spec v 26); [left; lia|]. destruct (Z.ltb_spec v 52); [right; left; lia|]. destruct (Z.ltb_spec v 62); [right; right; left; lia|].
  destruct (Z.eqb_spec v 62); [right; right; right; left; auto|]. right; right; right; right. lia.
Qed.
Lemma b64_ok n : forall s, (List.length s <= n)%nat -> bytes_ok s -> base64 s (b64 s).
Proof.
  induction n as [|n IH]; intros s L OK; [destruct s; [constructor|cbn in L; lia]|].
  destruct s as [|a [|b [|c r]]]; [constructor|..].
  - inversion OK as [|? ? Ba _]; subst. unfold is_byte in *. cbn [b64].
    apply (b64_1 a (a / 4) (a mod 4 * 16)); [zdiv|apply b64_char_digit; zdiv|apply b64_char_digit; zdiv].
  - inversion OK as [|? ? Ba OK1]; subst. inversion OK1 as [|? ? Bb _]; subst. unfold is_byte in *. cbn [b64].
    apply (b64_2 a b (a / 4) (a mod 4 * 16 + b / 16) (b mod 16 * 4)); [zdiv|apply b64_char_digit; zdiv..].
  - inversion OK as [|? ? Ba OK1]; subst. inversion OK1 as [|? ? Bb OK2]; subst. inversion OK2 as [|? ? Bc OK3]; subst. unfold is_byte in *. cbn [b64].
    apply (b64_3 a b c (a / 4) (a mod 4 * 16 + b / 16) (b mod 16 * 4 + c / 64) (c mod 64)); [zdiv|apply b64_char_digit; zdiv..|].
    apply IH; [cbn in L; lia|assumption].
Qed.
Lemma b64_plain s t : base64 s t -> Forall plain t.
Proof.
  assert (P : forall v c, b64_digit v c -> plain c) by (unfold b64_digit, plain; intros; lia).
  intros H. induction H; repeat (constructor; [first [eapply P; eassumption | unfold plain; lia]|]); try constructor. assumption.
Qed.

(* ------------------------------------------------------------------ times *)

Lemma nano_ok ns : 0 <= ns < 10 ^ 9 -> fraction_text ns (nano_text ns) /\ Forall plain (nano_text ns).
Proof.
  intros H. unfold nano_text.
  assert (D : digits 9 ns (pad 9 (itoa ns))). { apply pad_digits; [apply itoa_decimal; lia|]. apply itoa_length; [exact H|lia]. }
  destruct D as [L D]. set (p := pad 9 (itoa ns)) in *. destruct (trim_spec p) as [k E].
  apply decimal_value in D. destruct D as [NE [F V]].
  assert (Last : forall r, trim_zeros p <> r ++ [48]).
  { intros r K. unfold trim_zeros in K. assert (drop_zeros (rev p) = 48 :: rev r) as Q. { rewrite <- (rev_involutive (drop_zeros (rev p))), K, rev_app_distr. reflexivity. }
    clear -Q. revert Q. generalize (rev p). intros l. induction l as [|c l IH]; cbn [drop_zeros]; [discriminate|].
    destruct (Z.eqb_spec c 48); [exact IH|]. intros Q. injection Q as -> _. now apply n. }
  assert (LT : (List.length (trim_zeros p) + k = 9)%nat). { rewrite <- L. rewrite E at 2. rewrite app_length, repeat_length. lia. }
  assert (VT : ns = dec_value (trim_zeros p) * 10 ^ Z.of_nat k). { rewrite V, E at 1. rewrite dec_value_app, dec_value_zeros, zlen_repeat. lia. }
  assert (FT : Forall dec_char (trim_zeros p)). { rewrite E in F. apply Forall_app in F. tauto. }
  destruct (trim_zeros p) as [|c r] eqn:T.
  - split; [left|constructor]. split; [|reflexivity]. rewrite VT. reflexivity.
  - split.
    + right. exists (c :: r), (dec_value (c :: r)). split; [reflexivity|]. split; [apply decimal_dv; [discriminate|assumption]|].
      assert (zlen (c :: r) = 9 - Z.of_nat k) by (unfold zlen; lia). split; [|split; [lia|assumption]].
      rewrite VT. do 2 f_equal. lia.
    + constructor; [unfold plain; lia|]. now apply dec_plain.
Qed.

Lemma civil_year_bounds n : let '(y, m, d) := civil n in (0 <= y < 10000 <-> -719528 <= n < 2932897).
Proof.
  pose proof (civil_valid n) as V. destruct (civil n) as [[y m] d] eqn:E. destruct V as [V EV].
  rewrite date_days_valid in EV by apply V.
  assert (year_start y <= n < year_start (y + 1)) as B.
  { rewrite year_start_next, <- days_before_total. destruct V as [V1 V2]. unfold mlen in V2. rewrite <- EV. clear -V1 V2.
    revert V2. months m; destruct (leap y); dbc; lia. }
  unfold year_start in B. split; intros; Z.div_mod_to_equations; lia.
Qed.

Lemma json_time_ok tz sec ns : 0 <= ns < 10 ^ 9 -> -86400 < tz < 86400 -> -719528 <= (sec + tz) / 86400 < 2932897 ->
  exists t, json_time tz sec ns = Some (34 :: t ++ [34]) /\ instant_text tz sec ns t /\ Forall plain t.
Proof.
  intros Hns Ht Hn. unfold json_time. cbv zeta. set (n := (sec + tz) / 86400) in *. set (s := (sec + tz) mod 86400).
  assert (Hs : 0 <= s < 86400) by (apply Z.mod_pos_bound; lia).
  pose proof (civil_calendar n) as C. pose proof (civil_valid n) as V. pose proof (civil_year_bounds n) as YB.
  destruct (civil n) as [[y m] d] eqn:E. destruct V as [V EV].
  assert (0 <= y < 10000) as Y by tauto.
  replace ((y <? 0) || (10000 <=? y)) with false by lia.
  eexists. split; [reflexivity|].
  destruct V as [V1 V2]. assert (mlen y m <= 31). { unfold mlen. months m; destruct (leap y); dbc; lia. }
  destruct (nano_ok ns Hns) as [NT NP].
  assert (A : Z.abs (Z.quot tz 60) = Z.abs tz / 60).
  { destruct (Z_lt_le_dec tz 0).
    - rewrite (Z.abs_neq tz) by lia. replace tz with (- (- tz)) at 1 by lia. rewrite Z.quot_opp_l by lia.
      rewrite Z.quot_div_nonneg by lia. rewrite Z.abs_opp, Z.abs_eq; [reflexivity|apply Z.div_pos; lia].
    - rewrite Z.quot_div_nonneg, Z.abs_eq, Z.abs_eq by (try lia; apply Z.div_pos; lia). reflexivity. }
  assert (D4 : digits 4 y (fmt_int y 4)) by (apply fmt_int_digits; cbn; lia).
  assert (D1 : digits 2 m (fmt_int m 2)) by (apply fmt_int_digits; cbn; lia).
  assert (D2 : digits 2 d (fmt_int d 2)) by (apply fmt_int_digits; cbn; lia).
  assert (D5 : digits 2 (s / 3600) (fmt_int (s / 3600) 2)) by (apply fmt_int_digits; [change (10 ^ Z.of_nat 2) with 100; zdiv|lia]).
  assert (D6 : digits 2 (s mod 3600 / 60) (fmt_int (s / 60 mod 60) 2)). { replace (s mod 3600 / 60) with (s / 60 mod 60) by zdiv. apply fmt_int_digits; [change (10 ^ Z.of_nat 2) with 100; zdiv|lia]. }
  assert (D7 : digits 2 (s mod 60) (fmt_int (s mod 60) 2)) by (apply fmt_int_digits; [change (10 ^ Z.of_nat 2) with 100; zdiv|lia]).
  assert (D8 : digits 2 (Z.abs tz / 3600) (fmt_int (Z.abs (Z.quot tz 60) / 60) 2)). { rewrite A. replace (Z.abs tz / 3600) with (Z.abs tz / 60 / 60) by zdiv. apply fmt_int_digits; [change (10 ^ Z.of_nat 2) with 100; zdiv|lia]. }
  assert (D9 : digits 2 (Z.abs tz mod 3600 / 60) (fmt_int (Z.abs (Z.quot tz 60) mod 60) 2)). { rewrite A. replace (Z.abs tz mod 3600 / 60) with (Z.abs tz / 60 mod 60) by zdiv. apply fmt_int_digits; [change (10 ^ Z.of_nat 2) with 100; zdiv|lia]. }
  assert (SG : (Z.quot tz 60 <? 0) = (tz <=? -60)).
  { destruct (Z_lt_le_dec tz 0).
    - replace tz with (- (- tz)) at 1 by lia. rewrite Z.quot_opp_l by lia. rewrite Z.quot_div_nonneg by lia.
      destruct (Z.ltb_spec (- (- tz / 60)) 0); destruct (Z.leb_spec tz (-60)); try reflexivity; exfalso; zdiv.
    - rewrite Z.quot_div_nonneg by lia. destruct (Z.ltb_spec (tz / 60) 0); destruct (Z.leb_spec tz (-60)); try reflexivity; exfalso; zdiv. }
  rewrite SG.
  set (z := if tz =? 0 then [90] else (if tz <=? -60 then [45] else [43]) ++ fmt_int (Z.abs (Z.quot tz 60) / 60) 2 ++ [58] ++ fmt_int (Z.abs (Z.quot tz 60) mod 60) 2).
  split.
  - exists y, m, d. split; [exact C|]. split; [lia|].
    exists (fmt_int y 4), (fmt_int m 2), (fmt_int d 2), (fmt_int (s / 3600) 2), (fmt_int (s / 60 mod 60) 2), (fmt_int (s mod 60) 2), (nano_text ns), z.
    repeat (split; [assumption|]). split; [reflexivity|].
    unfold z. destruct (Z.eqb_spec tz 0) as [->|NZ]; [left; auto|right]. split; [exact NZ|].
    exists (fmt_int (Z.abs (Z.quot tz 60) / 60) 2), (fmt_int (Z.abs (Z.quot tz 60) mod 60) 2). split; [assumption|]. split; [assumption|].
    destruct (tz <=? -60); reflexivity.
  - assert (PC : forall c, In c [45; 84; 58; 43; 90] -> Forall plain [c]). { intros c I. constructor; [|constructor]. unfold plain. cbn in I. lia. }
    assert (PZ : Forall plain z).
    { unfold z. destruct (tz =? 0); [apply PC; cbn; auto 10|]. apply Forall_app. split; [destruct (tz <=? -60); apply PC; cbn; auto 10|].
      apply Forall_app. split; [eapply digits_plain; eauto|]. apply Forall_app. split; [apply PC; cbn; auto 10|eapply digits_plain; eauto]. }
    repeat (apply Forall_app; split; [first [apply PC; cbn; auto 10 | eapply digits_plain; eassumption | assumption]|]). exact PZ.
Qed.
