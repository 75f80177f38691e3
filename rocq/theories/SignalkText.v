(** SignalkText: the model's text functions are the specification's. *)
From Verif Require Import GoBase BufFacts Strconv StrconvFacts CanModel NmeaTypes NmeaModel NmeaSpec SignalkModel SignalkSpec SignalkTime.
Open Scope Z_scope.
Open Scope list_scope.

(* ------------------------------------------------------------------ decimal numbers *)
Lemma fold_dec s a : fold_left (fun a c => 10 * a + (c - 48)) s a = pos_value 10 (map (fun c => c - 48) s) a.
Proof.
  revert a. induction s as [|c s IH]; intros a; [reflexivity|]. cbn [fold_left map pos_value].
  rewrite IH. unfold pos_value. cbn [fold_left]. f_equal. lia.
Qed.
Lemma decimal_value s v : decimal s v <-> s <> [] /\ Forall dec_char s /\ v = dec_value s.
Proof. unfold decimal. rewrite fold_dec. reflexivity. Qed.
Lemma itoa_decimal n : 0 <= n -> decimal (itoa n) n.
Proof. intros H. destruct (itoa_value n H) as [V [F N]]. apply decimal_value. auto. Qed.

Lemma dec_digits_length fuel : forall n acc w, 0 <= n < 10 ^ Z.of_nat w -> (0 < w)%nat ->
  (List.length (dec_digits fuel n acc) <= w + List.length acc)%nat.
Proof.
  induction fuel as [|f IH]; intros n acc w H W; cbn [dec_digits]; [lia|].
  destruct (Z.eqb_spec (n / 10) 0); [cbn [List.length]; lia|].
  destruct w as [|w]; [lia|]. rewrite Nat2Z.inj_succ, Z.pow_succ_r in H by lia.
  assert (0 <= n / 10 < 10 ^ Z.of_nat w) by (split; [apply Z.div_pos; lia|apply Z.div_lt_upper_bound; lia]).
  assert (0 < w)%nat. { destruct w; [|lia]. cbn in *. lia. }
  specialize (IH (n / 10) ((48 + n mod 10) :: acc) w ltac:(assumption) ltac:(assumption)). cbn [List.length] in IH. lia.
Qed.
Lemma itoa_length n w : 0 <= n < 10 ^ Z.of_nat w -> (0 < w)%nat -> (List.length (itoa n) <= w)%nat.
Proof.
  intros H W. unfold itoa. destruct (Z.ltb_spec n 0); [lia|].
  pose proof (dec_digits_length (S (Z.to_nat (Z.log2 n))) n [] w H W). cbn [List.length] in *. lia.
Qed.
Lemma decimal_zero s n : decimal s n -> decimal (48 :: s) n.
Proof. unfold decimal. intros [N [F ->]]. split; [discriminate|]. split; [constructor; [lia|exact F]|reflexivity]. Qed.
Lemma pad_digits w s n : decimal s n -> (List.length s <= w)%nat -> digits w n (pad w s).
Proof.
  revert s. induction w as [|w IH]; intros s D L.
  - destruct s; [destruct D; congruence|cbn in L; lia].
  - cbn [pad]. destruct (Nat.ltb_spec (List.length s) (S w)).
    + destruct (IH s D) as [L' D']; [lia|]. split; [cbn; lia|]. now apply decimal_zero.
    + split; [lia|exact D].
Qed.
Lemma fmt_int_digits n w : 0 <= n < 10 ^ Z.of_nat w -> (0 < w)%nat -> digits w n (fmt_int n w).
Proof.
  intros H W. unfold fmt_int. destruct (Z.ltb_spec n 0); [lia|].
  apply pad_digits; [apply itoa_decimal; lia|now apply itoa_length].
Qed.

(** The text a time stamp is formatted to. *)
Lemma rfc3339_ok n s tz : -719162 <= n < 2932897 -> 0 <= s < 86400 -> -86400 < tz < 86400 ->
  exists y m d, calendar n y m d /\ rfc3339_text y m d s tz (rfc3339 n s tz).
Proof.
  intros Hn Hs Ht. pose proof (civil_calendar n) as C. pose proof (civil_valid n) as V. unfold rfc3339.
  destruct (civil n) as [[y m] d] eqn:E. destruct V as [V EV]. exists y, m, d. split; [exact C|].
  assert (0 <= y < 10000) as Y.
  { rewrite date_days_valid in EV by apply V.
    assert (year_start y <= n < year_start (y + 1)) as B.
    { rewrite year_start_next, <- days_before_total. destruct V as [V1 V2]. unfold mlen in V2. rewrite <- EV. clear -V1 V2.
      revert V2. months m; destruct (leap y); dbc; lia. }
    assert (forall k, 365 * (k - 1970) - 495 * 1 <= year_start k + 0 \/ True) by auto.
    unfold year_start in B. Z.div_mod_to_equations. lia. }
  destruct V as [V1 V2]. assert (mlen y m <= 31). { unfold mlen. months m; destruct (leap y); dbc; lia. }
  exists (fmt_int y 4), (fmt_int m 2), (fmt_int d 2), (fmt_int (s / 3600) 2), (fmt_int (s / 60 mod 60) 2), (fmt_int (s mod 60) 2).
  eexists. split; [apply fmt_int_digits; cbn; lia|]. split; [apply fmt_int_digits; cbn; lia|]. split; [apply fmt_int_digits; cbn; lia|].
  split; [apply fmt_int_digits; [change (10 ^ Z.of_nat 2) with 100; dm|lia]|].
  split. { replace (s mod 3600 / 60) with (s / 60 mod 60) by dm. apply fmt_int_digits; [change (10 ^ Z.of_nat 2) with 100; dm|lia]. }
  split; [apply fmt_int_digits; [change (10 ^ Z.of_nat 2) with 100; dm|lia]|].
  split; [reflexivity|]. destruct (Z.eqb_spec tz 0) as [->|NZ]; [left; auto|right]. split; [exact NZ|].
  assert (Z.abs (Z.quot tz 60) = Z.abs tz / 60) as A.
  { destruct (Z_lt_le_dec tz 0).
    - rewrite (Z.abs_neq tz) by lia. replace tz with (- (- tz)) at 1 by lia. rewrite Z.quot_opp_l by lia.
      rewrite Z.quot_div_nonneg by lia. rewrite Z.abs_opp, Z.abs_eq; [reflexivity|apply Z.div_pos; lia].
    - rewrite Z.quot_div_nonneg, Z.abs_eq, Z.abs_eq by (try lia; apply Z.div_pos; lia). reflexivity. }
  exists (fmt_int (Z.abs (Z.quot tz 60) / 60) 2), (fmt_int (Z.abs (Z.quot tz 60) mod 60) 2). rewrite A.
  split. { replace (Z.abs tz / 3600) with (Z.abs tz / 60 / 60) by dm. apply fmt_int_digits; [change (10 ^ Z.of_nat 2) with 100; dm|lia]. }
  split. { replace (Z.abs tz mod 3600 / 60) with (Z.abs tz / 60 mod 60) by dm. apply fmt_int_digits; [change (10 ^ Z.of_nat 2) with 100; dm|lia]. }
  f_equal. assert ((Z.quot tz 60 <? 0) = (tz <=? -60)) as ->; [|reflexivity].
  destruct (Z_lt_le_dec tz 0).
  - replace tz with (- (- tz)) at 1 by lia. rewrite Z.quot_opp_l by lia. rewrite Z.quot_div_nonneg by lia.
    destruct (Z.ltb_spec (- (- tz / 60)) 0); destruct (Z.leb_spec tz (-60)); try reflexivity; exfalso; dm.
  - rewrite Z.quot_div_nonneg by lia. destruct (Z.ltb_spec (tz / 60) 0); destruct (Z.leb_spec tz (-60)); try reflexivity; exfalso; dm.
Qed.

(* ------------------------------------------------------------------ strconv.ParseInt *)
Lemma pu_loop_dec maxv s n v : 0 <= n -> pu_loop 10 maxv s n = PUok v ->
  Forall dec_char s /\ v = pos_value 10 (map (fun c => c - 48) s) n /\ v <= Z.max maxv n.
Proof.
  revert n. induction s as [|c s IH]; intros n Hn H; cbn [pu_loop] in H.
  - injection H as <-. split; [constructor|]. split; [reflexivity|lia].
  - destruct (digit_val c) as [d|] eqn:D; [|discriminate]. destruct (Z.leb_spec 10 d); [discriminate|].
    destruct (Z.ltb_spec maxv (n * 10 + d)); [discriminate|]. pose proof (digit_val_nonneg _ _ D).
    apply IH in H as [F [V B]]; [|lia]. unfold digit_val in D.
    assert (dec_char c /\ d = c - 48) as [DC ->].
    { unfold dec_char. destruct ((48 <=? c) && (c <=? 57)) eqn:E1; [injection D as <-; lia|].
      destruct ((97 <=? c) && (c <=? 122)) eqn:E2; [injection D as <-; lia|].
      destruct ((65 <=? c) && (c <=? 90)) eqn:E3; [injection D as <-; lia|discriminate]. }
    split; [constructor; auto|]. split; [exact V|lia].
Qed.
Lemma parse_uint_iff bits s v : 0 <= bits -> parse_uint 10 bits s = PUok v <-> decimal s v /\ v < 2 ^ bits.
Proof.
  intros HB. pose proof (Z.pow_pos_nonneg 2 bits ltac:(lia) HB). split.
  - intros P. assert (s <> []) as N by (intros ->; discriminate).
    unfold parse_uint in P. replace (match s with [] => PUsyntax | _ :: _ => pu_loop 10 (2 ^ bits - 1) s 0 end)
      with (pu_loop 10 (2 ^ bits - 1) s 0) in P by (destruct s; [congruence|reflexivity]).
    apply pu_loop_dec in P as [F [V B]]; [|lia]. split; [|lia]. apply decimal_value. auto.
  - intros [D B]. apply decimal_value in D as [N [F ->]]. apply parse_uint_dec; auto. lia.
Qed.
Lemma decimal_nonneg s v : decimal s v -> 0 <= v.
Proof.
  intros D. apply decimal_value in D as [N [F ->]]. apply pos_value_mono; [lia|lia|].
  clear - F. induction F; cbn; constructor; auto. unfold dec_char in *. lia.
Qed.
Lemma decimal_head c r v : decimal (c :: r) v -> 48 <= c <= 57.
Proof. intros [_ [F _]]. now apply Forall_cons_iff in F. Qed.
Lemma parse_uint_range bits s m : parse_uint 10 bits s = PUrange m -> m = 2 ^ bits - 1.
Proof.
  unfold parse_uint. destruct s as [|c s]; [discriminate|]. generalize (c :: s) as l. generalize 0 as n.
  intros n l. revert n. induction l as [|x l IH]; intros n H; cbn [pu_loop] in H; [discriminate|].
  destruct (digit_val x); [|discriminate]. destruct (10 <=? z); [discriminate|].
  destruct (_ <? _); [now injection H|eauto].
Qed.
(** strconv.ParseInt(s, 10, bits) succeeds exactly on decimal texts of the range. *)
Lemma parse_int_iff bits s v : 1 < bits -> parse_int bits s = Some v <-> int_text s v /\ - 2 ^ (bits - 1) <= v < 2 ^ (bits - 1).
Proof.
  intros HB. assert (2 ^ bits = 2 * 2 ^ (bits - 1)) as HP.
  { rewrite <- Z.pow_succ_r by lia. f_equal. lia. }
  pose proof (Z.pow_pos_nonneg 2 (bits - 1) ltac:(lia) ltac:(lia)) as PP.
  assert (2 <= 2 ^ (bits - 1)) as P2 by (change 2 with (2 ^ 1) at 1; apply Z.pow_le_mono_r; lia).
  unfold parse_int, parse_int_raw, int_text. split.
  - destruct s as [|c r]; [discriminate|].
    destruct (Z.eqb_spec c 45) as [->|N45].
    + cbn [orb Z.eqb Pos.eqb negb andb]. destruct (parse_uint 10 bits r) as [u| |u] eqn:P; try discriminate.
      * destruct (Z.ltb_spec (2 ^ (bits - 1)) u); [intros X; cbn in X; discriminate X|]. intros H'. cbn in H'. injection H' as <-.
        apply parse_uint_iff in P as [D B]; [|lia]. pose proof (decimal_nonneg _ _ D). split; [|lia].
        right; right. exists r. split; [reflexivity|]. now rewrite Z.opp_involutive.
      * apply parse_uint_range in P as ->. destruct (Z.ltb_spec (2 ^ (bits - 1)) (2 ^ bits - 1)); [intros X; cbn in X; discriminate X|lia].
    + cbn [negb andb].
      match goal with |- context [match parse_uint 10 bits ?x with _ => _ end] => set (body := x) end.
      destruct (parse_uint 10 bits body) as [u| |u] eqn:P; [| |].
      3: { apply parse_uint_range in P as ->. destruct (Z.leb_spec (2 ^ (bits - 1)) (2 ^ bits - 1)); [intros X; cbn in X; discriminate X|lia]. }
      2: { intros X. discriminate. }
      * destruct (Z.leb_spec (2 ^ (bits - 1)) u) as [Q|Q]; [intros X; cbn in X; discriminate X|]. intros H'. cbn in H'. injection H' as <-.
        apply parse_uint_iff in P as [D B]; [|lia]. pose proof (decimal_nonneg _ _ D). split; [|lia].
        unfold body in D. destruct (Z.eqb_spec c 43) as [->|]; cbn [orb] in D; [right; left; eauto|left; exact D].
  - intros [[D|[[r [-> D]]|[r [-> D]]]] B].
    + destruct s as [|c r]; [destruct D; congruence|]. pose proof (decimal_head _ _ _ D).
      destruct (Z.eqb_spec c 43); [lia|]. destruct (Z.eqb_spec c 45); [lia|]. cbn [orb negb andb].
      rewrite (proj2 (parse_uint_iff bits (c :: r) v ltac:(lia))) by (split; [exact D|lia]).
      destruct (Z.leb_spec (2 ^ (bits - 1)) v); [lia|reflexivity].
    + cbn [Z.eqb Pos.eqb orb negb andb].
      rewrite (proj2 (parse_uint_iff bits r v ltac:(lia))) by (split; [exact D|lia]).
      destruct (Z.leb_spec (2 ^ (bits - 1)) v); [lia|reflexivity].
    + cbn [Z.eqb Pos.eqb orb negb andb].
      rewrite (proj2 (parse_uint_iff bits r (- v) ltac:(lia))) by (split; [exact D|lia]).
      destruct (Z.ltb_spec (2 ^ (bits - 1)) (- v)); [lia|]. now rewrite Z.opp_involutive.
Qed.
Lemma int_text_fun s a b : int_text s a -> int_text s b -> a = b.
Proof.
  assert (forall s x y, decimal s x -> decimal s y -> x = y) as DF by (intros t x y [_ [_ ->]] [_ [_ ->]]; reflexivity).
  intros [A|[[r [-> A]]|[r [-> A]]]] [B|[[r' [E B]]|[r' [E B]]]]; try (injection E as <-); try (subst; discriminate); eauto;
    try (apply decimal_head in A; lia); try (apply decimal_head in B; lia);
    try (subst; apply decimal_head in A; lia).
  specialize (DF _ _ _ A B). lia.
Qed.

(* ------------------------------------------------------------------ byte-wise order *)
Lemma bytes_eqb_eq a b : bytes_eqb a b = true <-> a = b.
Proof.
  revert b. induction a as [|x a IH]; intros [|y b]; cbn; try (split; [discriminate|congruence]); [tauto|].
  rewrite andb_true_iff, IH, Z.eqb_eq. split; [intros [-> ->]; reflexivity|]. intros E. injection E. auto.
Qed.
Lemma bytes_ltb_lt a b : bytes_ltb a b = true <-> text_lt a b.
Proof.
  revert b. induction a as [|x a IH]; intros b.
  - destruct b as [|y b]; cbn.
    + split; [discriminate|]. intros [p [[c [r [E1 E2]]]|[c [d [r [r' [E1 [E2 _]]]]]]]]; [subst; discriminate|destruct p; discriminate].
    + split; [|reflexivity]. intros _. exists []. left. exists y, b. auto.
  - destruct b as [|y b]; cbn.
    + split; [discriminate|]. intros [p [[c [r [E1 E2]]]|[c [d [r [r' [E1 [E2 _]]]]]]]]; destruct p; discriminate.
    + rewrite orb_true_iff, andb_true_iff, IH, Z.eqb_eq, Z.ltb_lt. split.
      * intros [L|[-> [p [[c [r [-> ->]]]|[c [d [r [r' [-> [-> L]]]]]]]]]].
        -- exists []. right. exists x, y, a, b. auto.
        -- exists (y :: p). left. exists c, r. auto.
        -- exists (y :: p). right. exists c, d, r, r'. auto.
      * intros [p [[c [r [E1 E2]]]|[c [d [r [r' [E1 [E2 L]]]]]]]].
        -- subst p. cbn in E2. injection E2 as <- ->. right. split; [reflexivity|]. exists a. left. eauto.
        -- destruct p as [|z p]; cbn in *; injection E1 as -> ->; injection E2 as -> ->; [left; lia|].
           right. split; [reflexivity|]. exists p. right. exists c, d, r, r'. auto.
Qed.
Lemma text_order a b : bytes_ltb a b = false <-> b = a \/ text_lt b a.
Proof.
  rewrite <- bytes_ltb_lt. revert b. induction a as [|x a IH]; intros [|y b]; cbn; try (split; [auto; discriminate|auto]); try intuition congruence.
  destruct (Z.ltb_spec x y); destruct (Z.ltb_spec y x); destruct (Z.eqb_spec x y); destruct (Z.eqb_spec y x); cbn [orb andb]; try lia; subst;
    try (intuition congruence).
  rewrite IH. split; intros [A|A]; auto; left; congruence.
Qed.

(* ------------------------------------------------------------------ strings.Replace *)
Lemma has_prefix_iff p s : has_prefix p s = true <-> exists r, s = p ++ r.
Proof.
  revert s. induction p as [|a p IH]; intros s; cbn; [split; eauto|].
  destruct s as [|b s]; [split; [discriminate|intros [r E]; discriminate]|].
  rewrite andb_true_iff, IH, Z.eqb_eq. split; [intros [-> [r ->]]; exists r; reflexivity|].
  intros [r E]. injection E as -> ->. eauto.
Qed.
Lemma replace_first_ok s old new : old <> [] -> replaced_once old new s (replace_first s old new).
Proof.
  intros N. induction s as [|c s IH].
  - cbn [replace_first]. destruct (has_prefix old []) eqn:P.
    + apply has_prefix_iff in P as [r E]. destruct old; [congruence|discriminate].
    + right. split; [|reflexivity]. intros pre post E. destruct pre; [destruct old; [congruence|discriminate]|discriminate].
  - cbn [replace_first]. destruct (has_prefix old (c :: s)) eqn:P.
    + apply has_prefix_iff in P as [r E]. left. exists [], r. cbn [app]. rewrite E.
      rewrite skipn_app, skipn_all, Nat.sub_diag. cbn [skipn app]. split; [reflexivity|]. split; [reflexivity|]. intros. cbn. lia.
    + destruct IH as [[pre [post [E1 [E2 M]]]]|[M E2]].
      * left. exists (c :: pre), post. rewrite E2. split; [now rewrite E1|]. split; [reflexivity|].
        intros pre' post' E. destruct pre' as [|c' pre'].
        -- exfalso. cbn [app] in E. assert (has_prefix old (c :: s) = true); [|congruence]. apply has_prefix_iff. eauto.
        -- injection E as <- E. apply M in E. cbn. lia.
      * right. rewrite E2. split; [|reflexivity]. intros pre' post' E. destruct pre' as [|c' pre'].
        -- cbn [app] in E. assert (has_prefix old (c :: s) = true); [|congruence]. apply has_prefix_iff. eauto.
        -- injection E as <- E. now apply M in E.
Qed.
Lemma to_dot_ok s p : to_dot s = Ret p <-> dotted s p.
Proof.
  unfold to_dot, dotted. destruct s as [|a [|b r]].
  - split; [discriminate|]. intros [a [b [r [E _]]]]. discriminate.
  - split; [discriminate|]. intros [x [b [r [E _]]]]. discriminate.
  - destruct (Z.ltb_spec (zlen (a :: b :: r)) 2); [unfold zlen in *; cbn [List.length] in *; lia|].
    cbn [map skipn].
    assert (forall l l', Forall2 (fun c d => d = if c =? 47 then 46 else c) l l' <-> l' = map (fun c => if c =? 47 then 46 else c) l) as F.
    { clear. induction l as [|x l IH]; intros l'; split; intros H.
      - now inversion H. - subst. constructor.
      - inversion H; subst. cbn. f_equal. now apply IH.
      - subst. cbn. constructor; [reflexivity|]. now apply IH. }
    split.
    + intros E. injection E as <-. exists a, b, r. split; [reflexivity|]. now apply F.
    + intros [a' [b' [r' [E M]]]]. injection E as <- <- <-. apply F in M. now subst.
Qed.
Lemma to_dot_panics s : (exists w, to_dot s = Panic w) <-> (List.length s < 2)%nat.
Proof.
  unfold to_dot. destruct (Z.ltb_spec (zlen s) 2); unfold zlen in *; split; intros X; try lia; eauto.
  destruct X as [w E]. discriminate.
Qed.
