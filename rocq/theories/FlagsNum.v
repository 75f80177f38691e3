(** FlagsNum: strconv.ParseInt with base 0 accepts exactly the integers of FlagsSpec. *)
From Verif Require Import GoBase Strconv FlagsModel FlagsSpec.
From Coq Require Import ZifyBool.
Open Scope Z_scope.
Open Scope list_scope.

Lemma lower32_cases c : lower32 c = c \/ lower32 c = c + 32.
Proof.
  unfold lower32. change 32 with (2 ^ 5). destruct (Z.testbit c 5) eqn:B.
  - left. apply Z.bits_inj'. intros i Hi. rewrite Z.lor_spec, Z.pow2_bits_eqb by lia.
    destruct (Z.eqb_spec 5 i); [subst; now rewrite B|now rewrite orb_false_r].
  - right. assert (Z.land c (2 ^ 5) = 0) as L.
    { apply Z.bits_inj'. intros i Hi. rewrite Z.land_spec, Z.pow2_bits_eqb by lia. rewrite Z.bits_0.
      destruct (Z.eqb_spec 5 i); [subst; now rewrite B|now rewrite andb_false_r]. }
    rewrite Z.add_nocarry_lxor by exact L. symmetry. now apply Z.lxor_lor.
Qed.
Lemma lower32_low c : 97 <= c <= 122 -> lower32 c = c.
Proof.
  intros H. assert (forallb (fun c => lower32 c =? c) (map Z.of_nat (seq 97 26)) = true) as F by (vm_compute; reflexivity).
  rewrite forallb_forall in F. apply Z.eqb_eq, F. apply in_map_iff. exists (Z.to_nat c). split; [lia|]. apply in_seq. lia.
Qed.
Lemma lower32_up c : 65 <= c <= 90 -> lower32 c = c + 32.
Proof.
  intros H. assert (forallb (fun c => lower32 c =? c + 32) (map Z.of_nat (seq 65 26)) = true) as F by (vm_compute; reflexivity).
  rewrite forallb_forall in F. apply Z.eqb_eq, (F c). apply in_map_iff. exists (Z.to_nat c). split; [lia|]. apply in_seq. lia.
Qed.
Lemma lower32_letter c u : 97 <= u <= 122 -> lower32 c = u <-> (c = u \/ c = u - 32).
Proof.
  intros U. split.
  - intros E. destruct (lower32_cases c); lia.
  - intros [-> | ->]; [now apply lower32_low|]. rewrite lower32_up by lia. lia.
Qed.

(** The digit of one character, as the loop of ParseUint finds it. *)
Definition dig (c : Z) : option Z :=
  if (48 <=? c) && (c <=? 57) then Some (c - 48)
  else if (97 <=? lower32 c) && (lower32 c <=? 122) then Some (lower32 c - 97 + 10)
  else None.
Lemma dig_digit b c d : b <= 36 -> (dig c = Some d /\ d < b) <-> digit b c d.
Proof.
  intros B. unfold dig, digit. split.
  - intros [E L]. destruct ((48 <=? c) && (c <=? 57)) eqn:E1.
    + assert (d = c - 48) by congruence. lia.
    + destruct ((97 <=? lower32 c) && (lower32 c <=? 122)) eqn:E2; [|discriminate].
      assert (d = lower32 c - 97 + 10) by congruence. destruct (lower32_cases c); lia.
  - intros [R D]. destruct D as [[D ->] | [D D']].
    + replace ((48 <=? 48 + d) && (48 + d <=? 57)) with true by lia. split; [f_equal; lia|lia].
    + assert (lower32 c = 87 + d) as L by (apply lower32_letter; lia).
      replace ((48 <=? c) && (c <=? 57)) with false by lia. rewrite L. replace ((97 <=? 87 + d) && (87 + d <=? 122)) with true by lia.
      split; [f_equal; lia|lia].
Qed.
Lemma digit_not_under b c d : b <= 36 -> digit b c d -> c <> 95.
Proof. unfold digit. lia. Qed.
Lemma digit_nonneg b c d : digit b c d -> 0 <= d.
Proof. unfold digit. lia. Qed.

(** Digits and underscores after a digit, read from the left. *)
Inductive tail (b : Z) : Z -> bytes -> Z -> Prop :=
| t_end n : tail b n [] n
| t_digit n c d r m : digit b c d -> tail b (n * b + d) r m -> tail b n (c :: r) m
| t_under n c d r m : digit b c d -> tail b (n * b + d) r m -> tail b n (95 :: c :: r) m.

Lemma tail_snoc b n r m c d : tail b n r m -> digit b c d -> tail b n (r ++ [c]) (m * b + d) /\ tail b n (r ++ [95; c]) (m * b + d).
Proof.
  intros T. revert c d. induction T as [n|n c d r m D T IH|n c d r m D T IH]; intros c' d' D'; cbn [app].
  - split; [apply (t_digit b n c' d')|apply (t_under b n c' d')]; auto; constructor.
  - destruct (IH _ _ D'). split; eapply t_digit; eauto.
  - destruct (IH _ _ D'). split; eapply t_under; eauto.
Qed.
Lemma numeral_tail b s n : numeral b s n <-> exists c d r, s = c :: r /\ digit b c d /\ tail b d r n.
Proof.
  split.
  - induction 1 as [c d D|s n c d N IH D|s n c d N IH D].
    + exists c, d, []. repeat split; auto; try apply D. constructor.
    + destruct IH as (c0 & d0 & r & -> & D0 & T). exists c0, d0, (r ++ [c]). split; [reflexivity|]. split; [exact D0|]. eapply tail_snoc; eauto.
    + destruct IH as (c0 & d0 & r & -> & D0 & T). exists c0, d0, (r ++ [95; c]). split; [reflexivity|]. split; [exact D0|]. eapply tail_snoc; eauto.
  - intros (c & d & r & -> & D & T).
    assert (forall p k, numeral b p k -> tail b k r n -> numeral b (p ++ r) n) as K.
    { clear. intros p k N T. revert p N. induction T as [n|n c d r m D T IH|n c d r m D T IH]; intros p N.
      - now rewrite app_nil_r.
      - change (p ++ c :: r) with (p ++ [c] ++ r). rewrite app_assoc. apply IH. now constructor.
      - change (p ++ 95 :: c :: r) with (p ++ [95; c] ++ r). rewrite app_assoc. apply IH. now constructor. }
    apply (K [c] d); [now constructor|exact T].
Qed.

Definition under_char (s : bytes) : bool := existsb (Z.eqb 95) s.

(** The two loops together accept exactly the tails. *)
Lemma tail_ge b n s m : 1 <= b -> 0 <= n -> tail b n s m -> n <= m.
Proof.
  intros B N T. revert N. induction T as [n|n c d r m D T IH|n c d r m D T IH]; intros N; [lia| |]; apply digit_nonneg in D;
    (assert (n <= n * b + d) by nia); specialize (IH ltac:(nia)); lia.
Qed.

Definition hexbase (b : Z) : bool := b =? 16.
Definition okbase (b : Z) : Prop := b = 2 \/ b = 8 \/ b = 10 \/ b = 16.

Lemma under_digit b saw c d r : okbase b -> digit b c d -> under_loop (hexbase b) saw (c :: r) = under_loop (hexbase b) 48 r.
Proof.
  intros B D. cbn [under_loop].
  replace ((48 <=? c) && (c <=? 57) || hexbase b && (97 <=? lower32 c) && (lower32 c <=? 102)) with true; [reflexivity|].
  destruct D as [R [[D ->] | [D D']]].
  - symmetry. lia.
  - assert (b = 16) as -> by (unfold okbase in B; lia). unfold hexbase. cbn [Z.eqb Pos.eqb andb].
    assert (lower32 c = 87 + d) as -> by (apply lower32_letter; lia). symmetry. lia.
Qed.
Lemma loop_dig b M c r n u : c <> 95 -> pu0_loop b M (c :: r) n u =
  match dig c with
  | None => (PUsyntax, u)
  | Some d => if b <=? d then (PUsyntax, u) else if M <? n * b + d then (PUrange M, u) else pu0_loop b M r (n * b + d) u
  end.
Proof. intros N. cbn [pu0_loop]. replace (c =? 95) with false by lia. reflexivity. Qed.

Lemma under_none hex saw s : under_char s = false -> saw <> 95 -> under_loop hex saw s = true.
Proof.
  revert saw. induction s as [|c r IH]; intros saw U N; cbn [under_loop].
  - lia.
  - unfold under_char in *. cbn [existsb] in U. apply orb_false_iff in U as [U1 U2].
    destruct (_ || _); [now apply IH|]. replace (c =? 95) with false by lia. replace (saw =? 95) with false by lia. now apply IH.
Qed.

Lemma under_under hex r : under_loop hex 48 (95 :: r) = under_loop hex 95 r.
Proof.
  cbn [under_loop]. replace ((48 <=? 95) && (95 <=? 57) || hex && (97 <=? lower32 95) && (lower32 95 <=? 102)) with false
    by (change (lower32 95) with 127; cbn; now rewrite andb_false_r). reflexivity.
Qed.
Lemma loops_sound b M s : okbase b -> forall n u m u', pu0_loop b M s n u = (PUok m, u') ->
  u' = u || under_char s /\
  (under_loop (hexbase b) 48 s = true -> 0 <= n <= M -> tail b n s m /\ m <= M) /\
  (forall r, s = 95 :: r -> under_loop (hexbase b) 95 s = false).
Proof.
  intros B. assert (b <= 36) as B36 by (unfold okbase in B; lia).
  induction s as [|c r IH]; intros n u m u' E.
  - cbn [pu0_loop] in E. assert (m = n /\ u' = u) as [-> ->] by (split; congruence). split; [now rewrite orb_false_r|]. split; [intros _ H; split; [constructor|lia]|].
    intros; discriminate.
  - destruct (Z.eq_dec c 95) as [->|N].
    + cbn [pu0_loop Z.eqb Pos.eqb] in E. destruct (IH _ _ _ _ E) as (E1 & E2 & E3). split; [|split].
      * rewrite E1. unfold under_char. cbn [existsb Z.eqb Pos.eqb]. destruct u; reflexivity.
      * intros L H. cbn [under_loop] in L. replace ((48 <=? 95) && (95 <=? 57) || hexbase b && (97 <=? lower32 95) && (lower32 95 <=? 102)) with false in L
          by (change (lower32 95) with 127; cbn; now rewrite andb_false_r).
        cbn [Z.eqb Pos.eqb] in L.
        destruct r as [|c r]; [discriminate L|]. destruct (Z.eq_dec c 95) as [->|N].
        { now rewrite (E3 r eq_refl) in L. }
        rewrite loop_dig in E by exact N. destruct (dig c) as [d|] eqn:Ed; [|discriminate]. destruct (b <=? d) eqn:Eb; [discriminate|].
        assert (digit b c d) as D by (apply dig_digit; [lia|split; [exact Ed|lia]]).
        destruct (M <? n * b + d) eqn:EM; [discriminate|].
        rewrite under_digit with (d := d) in L by assumption.
        assert (under_loop (hexbase b) 48 (c :: r) = true) as L' by (now rewrite under_digit with (d := d)).
        destruct (E2 L' H) as [T1 T2]. split; [|exact T2]. inversion T1; subst; [|lia].
        eapply t_under; [eassumption|]. assumption.
      * intros r' _. cbn [under_loop]. replace ((48 <=? 95) && (95 <=? 57) || hexbase b && (97 <=? lower32 95) && (lower32 95 <=? 102)) with false
          by (change (lower32 95) with 127; cbn; now rewrite andb_false_r). reflexivity.
    + rewrite loop_dig in E by exact N. destruct (dig c) as [d|] eqn:Ed; [|discriminate]. destruct (b <=? d) eqn:Eb; [discriminate|].
      assert (digit b c d) as D by (apply dig_digit; [lia|split; [exact Ed|lia]]).
      destruct (M <? n * b + d) eqn:EM; [discriminate|]. destruct (IH _ _ _ _ E) as (E1 & E2 & E3). split; [|split].
      * rewrite E1. unfold under_char. cbn [existsb]. now replace (95 =? c) with false by lia.
      * intros L H. rewrite under_digit with (d := d) in L by assumption. pose proof (digit_nonneg _ _ _ D).
        destruct (E2 L) as [T1 T2]; [split; [unfold okbase in B; nia|lia]|]. split; [|exact T2]. eapply t_digit; eassumption.
      * intros r' X. assert (c = 95) by congruence. lia.
Qed.
Lemma loops_complete b M n s m : okbase b -> 0 <= n -> tail b n s m -> m <= M -> forall u,
  pu0_loop b M s n u = (PUok m, u || under_char s) /\ under_loop (hexbase b) 48 s = true.
Proof.
  intros B N T. assert (b <= 36) as B36 by (unfold okbase in B; lia). revert N.
  assert (forall n c d r m u, 0 <= n -> digit b c d -> tail b (n * b + d) r m -> m <= M ->
    pu0_loop b M (c :: r) n u = pu0_loop b M r (n * b + d) u) as K.
  { intros n0 c d r m0 u N0 D T0 L. rewrite loop_dig by (eapply digit_not_under; eauto).
    destruct (proj2 (dig_digit b c d B36) D) as [E1 E2]. rewrite E1. replace (b <=? d) with false by lia.
    pose proof (digit_nonneg _ _ _ D). apply tail_ge in T0; [|unfold okbase in B; lia|unfold okbase in B; nia].
    now replace (M <? n0 * b + d) with false by lia. }
  induction T as [n|n c d r m D T IH|n c d r m D T IH]; intros N L u.
  - cbn. now rewrite orb_false_r.
  - pose proof (digit_nonneg _ _ _ D). rewrite (K n c d r m) by assumption. destruct (IH ltac:(unfold okbase in B; nia) L u) as [I1 I2].
    rewrite I1. split; [|rewrite under_digit with (d := d) by assumption; exact I2]. unfold under_char. cbn [existsb].
    pose proof (digit_not_under _ _ _ B36 D). now replace (95 =? c) with false by lia.
  - pose proof (digit_nonneg _ _ _ D). change (pu0_loop b M (95 :: c :: r) n u) with (pu0_loop b M (c :: r) n true). rewrite (K n c d r m) by assumption. destruct (IH ltac:(unfold okbase in B; nia) L true) as [I1 I2].
    rewrite I1. split.
    + unfold under_char. cbn [existsb Z.eqb Pos.eqb orb]. now rewrite orb_true_r.
    + rewrite under_under. rewrite under_digit with (d := d) by assumption. exact I2.
Qed.

(* ------------------------------------------------------------ ParseUint *)


Definition pre (c b : Z) : Prop := prefix [48; c] b.
Lemma pre_okbase c b : pre c b -> okbase b.
Proof. intros H. inversion H; subst; unfold okbase; lia. Qed.
Lemma pre_letter c b : pre c b -> c <> 95 /\ forall d, ~ digit 8 c d.
Proof. intros H. unfold digit. inversion H; subst; split; intros; lia. Qed.
Lemma pre_cases c : (exists b, pre c b /\ (if lower32 c =? 98 then 2 else if lower32 c =? 111 then 8 else if lower32 c =? 120 then 16 else 0) = b /\
    ((lower32 c =? 98) || (lower32 c =? 111) || (lower32 c =? 120)) = true /\ (lower32 c =? 120) = hexbase b) \/
  ((lower32 c =? 98) = false /\ (lower32 c =? 111) = false /\ (lower32 c =? 120) = false /\ forall b, ~ pre c b).
Proof.
  destruct (lower32 c =? 98) eqn:E1; [left; exists 2|destruct (lower32 c =? 111) eqn:E2; [left; exists 8|destruct (lower32 c =? 120) eqn:E3; [left; exists 16|right]]].
  - apply Z.eqb_eq in E1. rewrite E1. repeat split. constructor. apply lower32_letter in E1; lia.
  - apply Z.eqb_eq in E2. rewrite E2. repeat split. constructor. apply lower32_letter in E2; lia.
  - repeat split. constructor. apply Z.eqb_eq, lower32_letter in E3; lia.
  - apply Z.eqb_neq in E1, E2, E3. repeat split; try reflexivity. intros b H.
    inversion H; subst; [apply E1|apply E2|apply E3]; apply lower32_letter; lia.
Qed.

Lemma under_char_cons c r : under_char (c :: r) = (95 =? c) || under_char r.
Proof. reflexivity. Qed.
Lemma no_under_ok s : under_char s = false -> underscore_ok s = true.
Proof.
  intros U. unfold underscore_ok.
  set (s' := match s with [] => s | c :: r => if (c =? 45) || (c =? 43) then r else s end).
  assert (under_char s' = false) as U'.
  { subst s'. destruct s as [|c r]; [exact U|]. destruct (_ || _); [|exact U]. rewrite under_char_cons in U. now apply orb_false_iff in U. }
  clearbody s'. clear U s. destruct s' as [|c [|d r]].
  - reflexivity.
  - destruct c as [|p|p]; try (apply under_none; [assumption|lia]). do 6 (try (destruct p as [p|p|]; try (apply under_none; [assumption|lia]))).
  - assert (under_loop false 94 (c :: d :: r) = true) as K by (apply under_none; [exact U'|lia]).
    assert (forall h, under_loop h 48 r = true) as K2 by (intros h; apply under_none; [rewrite !under_char_cons in U'; destruct (95 =? c), (95 =? d); try discriminate; exact U'|lia]).
    destruct c as [|p|p]; try exact K. do 6 (try (destruct p as [p|p|]; try exact K)). destruct (_ || _); [apply K2|exact K].
Qed.
Lemma match48 {A} (c : Z) (x y : A) : c <> 48 -> (match c with 48 => x | _ => y end) = y.
Proof. intros N. destruct c as [|p|p]; try reflexivity. do 6 (try (destruct p as [p|p|]; try reflexivity)). now destruct N. Qed.

Inductive shape (s : bytes) : Prop :=
| sh_empty : s = [] -> shape s
| sh_prefix c d r b : s = 48 :: c :: d :: r -> pre c b -> pick_base s = (b, d :: r) -> underscore_ok s = under_loop (hexbase b) 48 (d :: r) -> shape s
| sh_short c b : s = [48; c] -> pre c b -> pick_base s = (8, [c]) -> shape s
| sh_octal r : s = 48 :: r -> (forall c t b, r = c :: t -> ~ pre c b) -> pick_base s = (8, r) -> underscore_ok s = under_loop false 48 r -> shape s
| sh_sign c r : s = c :: r -> c = 43 \/ c = 45 -> pick_base s = (10, s) -> shape s
| sh_decimal c r : s = c :: r -> c <> 48 -> c <> 43 -> c <> 45 -> pick_base s = (10, s) -> underscore_ok s = under_loop false 94 s -> shape s.
Lemma shapes s : shape s.
Proof.
  destruct s as [|c r]; [now apply sh_empty|]. destruct (Z.eq_dec c 48) as [->|N].
  - destruct r as [|c [|d r]].
    + apply (sh_octal _ []); try reflexivity. intros; discriminate.
    + destruct (pre_cases c) as [(b & P & _ & _ & _)|(E1 & E2 & E3 & NP)].
      * now apply (sh_short _ c b).
      * apply (sh_octal _ [c]); try reflexivity; [intros c' t b H; assert (c' = c) as -> by congruence; apply NP|].
        cbn [underscore_ok Z.eqb Pos.eqb orb]. rewrite E1, E2, E3. cbn [orb]. reflexivity.
    + destruct (pre_cases c) as [(b & P & E & O & H)|(E1 & E2 & E3 & NP)].
      * apply (sh_prefix _ c d r b); try reflexivity; [exact P| |].
        -- unfold pick_base. destruct (lower32 c =? 98); [now subst|]. destruct (lower32 c =? 111); [now subst|]. destruct (lower32 c =? 120); [now subst|]. discriminate.
        -- unfold underscore_ok. cbn [Z.eqb Pos.eqb orb]. cbv zeta. rewrite O, H. reflexivity.
      * apply (sh_octal _ (c :: d :: r)); try reflexivity; [intros c' t b X; assert (c' = c) as -> by congruence; apply NP| |].
        -- unfold pick_base. now rewrite E1, E2, E3.
        -- unfold underscore_ok. cbn [Z.eqb Pos.eqb orb]. cbv zeta. rewrite E1, E2, E3. reflexivity.
  - assert (pick_base (c :: r) = (10, c :: r)) as PB.
    { unfold pick_base. destruct r as [|d [|e r]]; now rewrite match48. }
    destruct (Z.eq_dec c 43) as [->|N1]; [now apply (sh_sign _ 43 r); auto|]. destruct (Z.eq_dec c 45) as [->|N2]; [now apply (sh_sign _ 45 r); auto|].
    apply (sh_decimal _ c r); auto. unfold underscore_ok. replace ((c =? 45) || (c =? 43)) with false by lia. cbv zeta.
    destruct r as [|d r]; now rewrite match48.
Qed.

Lemma uint_split s n : parse_uint0 s = PUok n <->
  s <> [] /\ underscore_ok s = true /\ exists u, pu0_loop (fst (pick_base s)) (2 ^ 64 - 1) (snd (pick_base s)) 0 false = (PUok n, u).
Proof.
  assert (parse_uint0 s = match s with [] => PUsyntax | _ => match pu0_loop (fst (pick_base s)) (2 ^ 64 - 1) (snd (pick_base s)) 0 false with
      | (PUok n, true) => if underscore_ok s then PUok n else PUsyntax | (x, _) => x end end) as ->.
  { unfold parse_uint0. destruct s; [reflexivity|]. destruct (pick_base _); reflexivity. }
  split.
  - destruct s as [|c r]; [discriminate|]. remember (c :: r) as s eqn:Es. intros H. split; [congruence|].
    destruct (pu0_loop _ _ _ _ _) as [x u] eqn:E.
    assert (x = PUok n) as ->.
    { destruct x; destruct u; try discriminate H; try assumption. destruct (underscore_ok s); [exact H|discriminate]. }
    split; [|exists u; reflexivity]. destruct u; [destruct (underscore_ok s); [reflexivity|discriminate]|].
    apply no_under_ok. rewrite Es. destruct (shapes s) as [X|c' d r' b X P PB _|c' b X P PB|r' X _ PB _|c' r' X _ PB|c' r' X _ _ _ PB _]; try congruence;
      rewrite PB in E; cbn [fst snd] in E; apply loops_sound in E;
      try (unfold okbase; lia); try (eapply pre_okbase; eassumption); destruct E as [E _]; symmetry in E; cbn [orb] in E;
      assert (c :: r = s) as Y by congruence; rewrite Y, X; try exact E; rewrite ?under_char_cons in *; try exact E; try (rewrite X in E; exact E).
    apply pre_letter in P as [P _]. replace (95 =? c') with false by lia. exact E.
  - intros (N & U & u & E). destruct s; [contradiction|]. rewrite E, U. now destruct u.
Qed.

(** ParseUint with base 0 and 64 bits accepts exactly the literals below 2^64. *)
Theorem parse_uint0_spec s n : parse_uint0 s = PUok n <-> literal s n /\ n <= 2 ^ 64 - 1.
Proof.
  rewrite uint_split. split.
  - intros (N & U & u & E). destruct (shapes s) as [X|c d r b X P PB UO|c b X P PB|r X NP PB UO|c r X C PB|c r X C0 C1 C2 PB UO].
    + contradiction.
    + rewrite PB in E. cbn [fst snd] in E. rewrite UO in U. pose proof (pre_okbase _ _ P) as B.
      destruct (loops_sound _ _ _ B _ _ _ _ E) as (_ & K & _). destruct (K U) as [T L]; [lia|]. split; [|exact L].
      rewrite X. inversion T as [|n0 c0 d0 r0 m D T'|n0 c0 d0 r0 m D T']; subst.
      * apply (lit_prefix [48; c] b (d :: r)); [exact P|]. apply numeral_tail. exists d, d0, r. rewrite Z.mul_0_l, Z.add_0_l in T'. auto.
      * apply (lit_prefix_under [48; c] b (c0 :: r0)); [exact P|]. apply numeral_tail. exists c0, d0, r0. rewrite Z.mul_0_l, Z.add_0_l in T'. auto.
    + exfalso. rewrite PB in E. cbn [fst snd] in E. destruct (pre_letter _ _ P) as [N1 N2].
      rewrite loop_dig in E by exact N1. destruct (dig c) as [d|] eqn:Ed; [|discriminate]. destruct (8 <=? d) eqn:E8; [discriminate|].
      apply (N2 d). apply dig_digit; [lia|]. split; [exact Ed|lia].
    + rewrite PB in E. cbn [fst snd] in E. rewrite UO in U.
      destruct (loops_sound 8 _ _ (or_intror (or_introl eq_refl)) _ _ _ _ E) as (_ & K & _). destruct (K U) as [T L]; [lia|]. split; [|exact L].
      rewrite X. apply lit_octal. apply numeral_tail. exists 48, 0, r. split; [reflexivity|]. split; [unfold digit; lia|exact T].
    + exfalso. rewrite PB, X in E. cbn [fst snd] in E. rewrite loop_dig in E by lia. unfold dig in E. destruct C as [-> | ->]; discriminate E.
    + rewrite PB in E. cbn [fst snd] in E. rewrite UO in U. rewrite X in E, U.
      destruct (Z.eq_dec c 95) as [->|C3]; [discriminate U|].
      rewrite loop_dig in E by exact C3. destruct (dig c) as [d|] eqn:Ed; [|discriminate]. destruct (10 <=? d) eqn:E10; [discriminate|].
      assert (digit 10 c d) as D by (apply dig_digit; [lia|split; [exact Ed|lia]]). destruct (2 ^ 64 - 1 <? 0 * 10 + d) eqn:EM; [discriminate|].
      pose proof (under_digit 10 94 c d r ltac:(unfold okbase; lia) D) as UD. change (hexbase 10) with false in UD. rewrite UD in U.
      destruct (loops_sound 10 _ _ (or_intror (or_intror (or_introl eq_refl))) _ _ _ _ E) as (_ & K & _).
      pose proof (digit_nonneg _ _ _ D). destruct (K U) as [T L]; [lia|]. split; [|exact L].
      rewrite X. apply lit_decimal; [exact C0|]. apply numeral_tail. exists c, d, r. rewrite Z.mul_0_l, Z.add_0_l in T. auto.
  - intros [L M].
    assert (s <> []) as N.
    { intros ->. inversion L as [| |p b s' n' P H E|p b s' n' P H E]; destruct p; try discriminate; inversion P. }
    split; [exact N|].
    destruct L as [c s n C H|s n H|p b s n P H|p b s n P H].
    + apply numeral_tail in H as (c' & d & r & E & D & T). assert (c' = c /\ r = s) as [-> ->] by (split; congruence). clear E.
      assert (digit 10 c d) as D' by exact D. unfold digit in D'.
      destruct (shapes (c :: s)) as [X|c1 d1 r1 b X P PB UO|c1 b X P PB|r1 X NP PB UO|c1 r1 X C' PB|c1 r1 X C0 C1 C2 PB UO]; try (exfalso; congruence).
      { exfalso. assert (c1 = c) by congruence. lia. }
      rewrite PB, UO. cbn [fst snd].
      assert (tail 10 0 (c :: s) n) as T' by (apply (t_digit 10 0 c d); [exact D|now rewrite Z.mul_0_l, Z.add_0_l]).
      destruct (loops_complete 10 (2 ^ 64 - 1) 0 (c :: s) n ltac:(unfold okbase; lia) ltac:(lia) T' M false) as [G1 G2].
      split; [|eexists; exact G1]. pose proof (under_digit 10 94 c d s ltac:(unfold okbase; lia) D) as U1.
      pose proof (under_digit 10 48 c d s ltac:(unfold okbase; lia) D) as U2. change (hexbase 10) with false in *. congruence.
    + apply numeral_tail in H as (c' & d & r & E & D & T). assert (c' = 48 /\ r = s) as [-> ->] by (split; congruence). clear E.
      assert (d = 0) as -> by (unfold digit in D; lia).
      assert (forall c t b, s = c :: t -> ~ pre c b) as NP.
      { intros c t b X P. destruct (pre_letter _ _ P) as [N1 N2]. subst s. inversion T; subst; [eapply N2; eassumption|lia]. }
      destruct (shapes (48 :: s)) as [X|c1 d1 r1 b X P PB UO|c1 b X P PB|r1 X NP' PB UO|c1 r1 X C' PB|c1 r1 X C0 C1 C2 PB UO]; try (exfalso; congruence).
      * exfalso. apply (NP c1 (d1 :: r1) b); [congruence|exact P].
      * exfalso. apply (NP c1 [] b); [congruence|exact P].
      * assert (r1 = s) as -> by congruence. rewrite PB, UO. cbn [fst snd].
        destruct (loops_complete 8 (2 ^ 64 - 1) 0 s n ltac:(unfold okbase; lia) ltac:(lia) T M false) as [G1 G2]. split; [exact G2|eexists; exact G1].
      * exfalso. assert (c1 = 48) by congruence. lia.
    + apply numeral_tail in H as (c' & d & r & -> & D & T).
      assert (exists c, p = [48; c]) as (c & ->) by (inversion P; subst; eauto). cbn [app] in *. pose proof (pre_okbase _ _ P) as B.
      assert (tail b 0 (c' :: r) n) as T' by (apply (t_digit b 0 c' d); [exact D|now rewrite Z.mul_0_l, Z.add_0_l]).
      destruct (shapes (48 :: c :: c' :: r)) as [X|c1 d1 r1 b1 X P1 PB UO|c1 b1 X P1 PB|r1 X NP' PB UO|c1 r1 X C' PB|c1 r1 X C0 C1 C2 PB UO]; try (exfalso; congruence).
      * assert (c1 = c /\ d1 = c' /\ r1 = r) as (-> & -> & ->) by (repeat split; congruence). assert (b1 = b) as -> by (inversion P; inversion P1; subst; lia).
        rewrite PB, UO. cbn [fst snd]. destruct (loops_complete b (2 ^ 64 - 1) 0 (c' :: r) n B ltac:(lia) T' M false) as [G1 G2]. split; [exact G2|eexists; exact G1].
      * exfalso. apply (NP' c (c' :: r) b); [congruence|exact P].
      * exfalso. assert (c1 = 48) by congruence. lia.
    + apply numeral_tail in H as (c' & d & r & -> & D & T).
      assert (exists c, p = [48; c]) as (c & ->) by (inversion P; subst; eauto). cbn [app] in *. pose proof (pre_okbase _ _ P) as B.
      assert (tail b 0 (95 :: c' :: r) n) as T' by (apply (t_under b 0 c' d); [exact D|now rewrite Z.mul_0_l, Z.add_0_l]).
      destruct (shapes (48 :: c :: 95 :: c' :: r)) as [X|c1 d1 r1 b1 X P1 PB UO|c1 b1 X P1 PB|r1 X NP' PB UO|c1 r1 X C' PB|c1 r1 X C0 C1 C2 PB UO]; try (exfalso; congruence).
      * assert (c1 = c /\ d1 = 95 /\ r1 = c' :: r) as (-> & -> & ->) by (repeat split; congruence). assert (b1 = b) as -> by (inversion P; inversion P1; subst; lia).
        rewrite PB, UO. cbn [fst snd]. destruct (loops_complete b (2 ^ 64 - 1) 0 (95 :: c' :: r) n B ltac:(lia) T' M false) as [G1 G2]. split; [exact G2|eexists; exact G1].
      * exfalso. apply (NP' c (95 :: c' :: r) b); [congruence|exact P].
      * exfalso. assert (c1 = 48) by congruence. lia.
Qed.

Lemma range_max s m : parse_uint0 s = PUrange m -> m = 2 ^ 64 - 1.
Proof.
  assert (forall b M s n u m u', pu0_loop b M s n u = (PUrange m, u') -> m = M) as K.
  { intros b M s0. induction s0 as [|c r IH]; intros n u m0 u' E; [discriminate|].
    cbn [pu0_loop] in E. destruct (c =? 95); [eauto|]. destruct (if _ && _ then _ else _) as [d|]; [|discriminate].
    destruct (b <=? d); [discriminate|]. destruct (M <? _); [congruence|eauto]. }
  unfold parse_uint0. destruct s as [|c r]; [discriminate|]. destruct (pick_base _) as [b t]. destruct (pu0_loop _ _ _ _ _) as [[n| |x] [|]] eqn:E;
    try discriminate; try (destruct (underscore_ok _); discriminate); intros H; assert (x = m) by congruence; subst; eauto.
Qed.
Lemma numeral_nonneg b s n : 0 <= b -> numeral b s n -> 0 <= n.
Proof. intros B. induction 1 as [c d D|s n c d N IH D|s n c d N IH D]; apply digit_nonneg in D; nia. Qed.
Lemma literal_nonneg s n : literal s n -> 0 <= n.
Proof.
  destruct 1 as [c s n C H|s n H|p b s n P H|p b s n P H]; eapply numeral_nonneg; try eassumption; try lia; inversion P; lia.
Qed.
Lemma literal_sign c s n : literal (c :: s) n -> c <> 43 /\ c <> 45.
Proof.
  intros H. inversion H as [c0 s0 n0 C N E|s0 n0 N E|p b s0 n0 P N E|p b s0 n0 P N E]; subst.
  - apply numeral_tail in N as (c' & d & r & E & D & T). assert (c' = c) as -> by congruence. unfold digit in D. lia.
  - lia.
  - inversion P; subst; cbn [app] in E; assert (c = 48) by congruence; lia.
  - inversion P; subst; cbn [app] in E; assert (c = 48) by congruence; lia.
Qed.

(** ParseInt with base 0 accepts exactly the integers of the specification. *)
Theorem parse_int0_spec s z : parse_int0 s = Some z <-> integer s z.
Proof.
  destruct s as [|c r].
  { split; [discriminate|]. intros H. inversion H as [s0 n0 L B E| |]; subst. destruct (parse_uint0_spec [] z) as [_ K]. discriminate K. split; [exact L|lia]. }
  set (body := if (c =? 43) || (c =? 45) then r else c :: r).
  assert (parse_int0 (c :: r) = Some z <-> exists n, literal body n /\
    ((c =? 45) = false /\ n < 2 ^ 63 /\ z = n \/ (c =? 45) = true /\ n <= 2 ^ 63 /\ z = - n)) as ->.
  { unfold parse_int0. fold body. clearbody body. destruct (parse_uint0 body) as [n| |m] eqn:E.
    - apply parse_uint0_spec in E as [L M]. assert (forall n', literal body n' -> n' <= 2 ^ 63 -> n' = n) as U.
      { intros n' L' M'. assert (parse_uint0 body = PUok n') as E1 by (apply parse_uint0_spec; split; [exact L'|lia]).
        assert (parse_uint0 body = PUok n) as E2 by (apply parse_uint0_spec; now split). congruence. }
      split.
      + intros H. exists n. split; [exact L|]. destruct (c =? 45); cbn [negb andb] in H.
        * right. destruct (2 ^ 63 <? n) eqn:G; [discriminate|]. split; [reflexivity|]. split; [lia|congruence].
        * left. destruct (2 ^ 63 <=? n) eqn:G; [discriminate|]. split; [reflexivity|]. split; [lia|congruence].
      + intros (n' & L' & [(C & B & ->) | (C & B & ->)]); rewrite C; cbn [negb andb]; rewrite (U n' L') in * by lia.
        * now replace (2 ^ 63 <=? n) with false by lia.
        * now replace (2 ^ 63 <? n) with false by lia.
    - split; [discriminate|]. intros (n' & L' & B).
      assert (parse_uint0 body = PUok n') as E1 by (apply parse_uint0_spec; split; [exact L'|lia]). congruence.
    - apply range_max in E as E'. subst m. split.
      + destruct (c =? 45); discriminate.
      + intros (n' & L' & B). assert (parse_uint0 body = PUok n') as E1 by (apply parse_uint0_spec; split; [exact L'|lia]). congruence. }
  split.
  - intros (n & L & [(C & B & ->) | (C & B & ->)]); subst body.
    + destruct (c =? 43) eqn:C1; cbn [orb] in L.
      * apply Z.eqb_eq in C1 as ->. now constructor.
      * rewrite C in L. now constructor.
    + rewrite C, orb_true_r in L. apply Z.eqb_eq in C as ->. now constructor.
  - intros H. inversion H as [s0 n0 L B E|s0 n0 L B E|s0 n0 L B E]; subst; subst body.
    + apply literal_sign in L as L'. replace ((c =? 43) || (c =? 45)) with false by lia. exists z. split; [exact L|]. left. split; [lia|now split].
    + exists z. split; [exact L|]. left. split; [reflexivity|now split].
    + exists n0. split; [exact L|]. right. split; [reflexivity|now split].
Qed.
