(** UnjsonFloat: numbers of a JSON text become the nearest doubles. *)
From Coq Require Import ZArith Reals Lia Lra ZifyBool Floats.SpecFloat.
From Flocq Require Import Core BinarySingleNaN.
From Verif Require Import GoBase BufFacts Strconv StrconvFacts NmeaTypes NmeaModel NmeaSpec NmeaFloat NmeaProps1 SignalkModel SignalkSpec JsonSpec JsonModel FtoaFacts JsonFacts JsonUnique UnjsonModel UnjsonSpec UnjsonLex.
Open Scope Z_scope.
Open Scope list_scope.

Lemma decimal_num s n : decimal s n -> num_digits s = n /\ 0 <= n.
Proof.
  intros (_ & F & ->). split; [reflexivity|].
  assert (forall a, 0 <= a -> 0 <= fold_left (fun a c => 10 * a + (c - 48)) s a) as H.
  { induction F as [|c s C _ IH]; intros a A; cbn [fold_left]; [exact A|]. apply IH. lia. }
  apply H. lia.
Qed.
Lemma num_value_text t m e : number_text t m e -> exists neg n, num_value t = (neg, n, e) /\ 0 <= n /\ m = (if neg then - n else n).
Proof.
  intros (neg & ip & fp & fd & ep & x & n & -> & NI & LZ & HF & HE & HD & -> & ->). exists neg, n.
  destruct (decimal_num _ _ HD) as [DN NN]. destruct (decimal_dig _ _ HD) as [_ DD]. apply Forall_app in DD as [DI DF].
  assert (stops dig ep /\ stops (fun c => c = 46) ep) as [P1 P2] by (destruct HE as [[-> _]|(c & xd & C & -> & _)]; [split; exact I|cbn; unfold dig; lia]).
  assert (stops dig (fp ++ ep)) as Q by (destruct HF as [[-> _]|[-> _]]; [exact P1|cbn; unfold dig; lia]).
  split; [|auto]. unfold num_value. set (s := (if neg then [45] else []) ++ ip ++ fp ++ ep).
  match goal with |- (let '(_, _) := ?M in _) = _ => assert (M = (neg, ip ++ fp ++ ep)) as -> end.
  { unfold s. clear s. destruct neg; [reflexivity|]. destruct ip as [|c ip]; [congruence|]. inversion DI; subst. cbn [app]. unfold dig in *.
    replace (c =? 45) with false by lia. reflexivity. }
  cbv iota beta. rewrite (span_app ip _ DI Q). cbv iota beta.
  match goal with |- (let '(_, _) := ?M in _) = _ => assert (M = (fd, ep)) as -> end.
  { destruct HF as [[-> ->]|[-> _]]; cbn [app].
    - destruct ep as [|c ep]; [reflexivity|]. cbn [stops] in P2. destruct (Z.eqb_spec c 46); [contradiction|reflexivity].
    - change (46 =? 46) with true. cbv iota. now apply span_app. }
  cbv iota beta. rewrite DN. f_equal. f_equal.
  destruct HE as [[-> ->]|(c & xd & C & -> & I)]; [reflexivity|].
  destruct I as [D|[(q & -> & D)|(q & -> & D)]]; destruct (decimal_num _ _ D) as [DV _].
  - destruct (decimal_dig _ _ D) as [N F]. destruct xd as [|y xd]; [congruence|]. inversion F; subst. unfold dig in *.
    replace (y =? 45) with false by lia. now replace (y =? 43) with false by lia.
  - change (43 =? 45) with false. change (43 =? 43) with true. cbv iota. exact DV.
  - change (45 =? 45) with true. cbv iota. rewrite DV. lia.
Qed.

Lemma ratio_round (neg : bool) (n d : positive) :
  let r := (if neg then - (IZR (Zpos n) / IZR (Zpos d)) else IZR (Zpos n) / IZR (Zpos d))%R in
  let '(q, e, l) := SFdiv_core_binary 53 1024 (Zpos n) 0 (Zpos d) 0 in
  let x := SpecFloat.binary_round_aux 53 1024 neg q e l in
  if Rlt_bool (Rabs (nearest64 r)) (bpow radix2 1024) then float_is x (nearest64 r) else x = S754_infinity neg.
Proof.
  intros r. pose proof (Bdiv_correct_aux 53 1024 _ _ mode_NE neg n 0 false d 0) as V. cbn zeta in V.
  destruct (SFdiv_core_binary 53 1024 (Z.pos n) 0 (Z.pos d) 0) as [[mz ez] lz]. cbv zeta. destruct V as [V H].
  rewrite round_aux_equiv. replace (xorb neg false) with neg in * by (destruct neg; reflexivity). unfold r. clear r.
  assert ((@F2R radix2 {| Fnum := cond_Zopp neg (Z.pos n); Fexp := 0 |} / @F2R radix2 {| Fnum := cond_Zopp false (Z.pos d); Fexp := 0 |})%R
    = (if neg then - (IZR (Zpos n) / IZR (Zpos d)) else IZR (Zpos n) / IZR (Zpos d))%R) as E.
  { unfold F2R. cbn [Fnum Fexp cond_Zopp bpow]. rewrite !Rmult_1_r. destruct neg; cbn [cond_Zopp]; [|reflexivity].
    change (- Z.pos n) with (Z.opp (Zpos n)). rewrite opp_IZR. unfold Rdiv. ring. }
  rewrite E in H. rewrite n64.
  change (round_mode mode_NE) with ZnearestE in H. destruct (Rlt_bool _ _); [|exact H]. destruct H as [A [B _]]. split; assumption.
Qed.

(** The double of a number is the nearest one; a number is refused if that is out of range. *)
Theorem parse_float_nearest t m e : number_text t m e ->
  match parse_float t with
  | Some x => float_is x (nearest64 (ten_to m e))
  | None => (bpow radix2 1024 <= Rabs (nearest64 (ten_to m e)))%R
  end.
Proof.
  intros N. destruct (num_value_text _ _ _ N) as (neg & n & E & NN & ->). unfold parse_float. rewrite E.
  destruct n as [|p|p]; [|clear NN|lia].
  - replace (if neg then - 0 else 0) with 0 by (destruct neg; reflexivity). split; [reflexivity|]. unfold ten_to. rewrite Rmult_0_l, n64, round_0 by auto with typeclass_instances. reflexivity.
  - assert (exists a b, (if 0 <=? e then (Z.pos p * 10 ^ e, 1) else (Z.pos p, 10 ^ (- e))) = (Zpos a, Zpos b) /\
      ten_to (if neg then - Z.pos p else Z.pos p) e = (if neg then - (IZR (Zpos a) / IZR (Zpos b)) else IZR (Zpos a) / IZR (Zpos b))%R) as (a & b & -> & R).
    { destruct (Z.leb_spec 0 e) as [L|L].
      - assert (0 < 10 ^ e) as P by (apply Z.pow_pos_nonneg; lia). destruct (10 ^ e) as [|q|q] eqn:EQ; try lia. exists (p * q)%positive, 1%positive. split; [reflexivity|].
        unfold ten_to. replace e with (Z.of_nat (Z.to_nat e)) by lia. rewrite <- pow_powerRZ, pow_IZR, Z2Nat.id, EQ by lia.
        rewrite Pos2Z.inj_mul, mult_IZR. destruct neg; [change (- Z.pos p) with (Z.opp (Zpos p)); rewrite opp_IZR|]; field.
      - assert (0 < 10 ^ (- e)) as P by (apply Z.pow_pos_nonneg; lia). destruct (10 ^ (- e)) as [|q|q] eqn:EQ; try lia. exists p, q. split; [reflexivity|].
        unfold ten_to. replace e with (- Z.of_nat (Z.to_nat (- e))) at 1 by lia. rewrite powerRZ_neg', <- pow_powerRZ, pow_IZR, Z2Nat.id, EQ by lia.
        destruct neg; [change (- Z.pos p) with (Z.opp (Zpos p)); rewrite opp_IZR|]; field; apply not_0_IZR; lia. }
    pose proof (ratio_round neg a b) as H. cbv zeta in H. rewrite <- R in H. destruct (SFdiv_core_binary 53 1024 (Z.pos a) 0 (Z.pos b) 0) as [[q e'] l].
    set (x := SpecFloat.binary_round_aux 53 1024 neg q e' l) in *. clearbody x.
    destruct (Rlt_bool_spec (Rabs (nearest64 (ten_to (if neg then - Z.pos p else Z.pos p) e))) (bpow radix2 1024)) as [B|B].
    + destruct x; [exact H|destruct H; discriminate|exact H|exact H].
    + subst x. exact B.
Qed.
