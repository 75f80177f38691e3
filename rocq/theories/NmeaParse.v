(** NmeaParse: lemmas on ParsePacket's loop (toward C39-C44). *)
From Coq Require Import Floats.SpecFloat FinFun.
From Verif Require Import GoBase BufFacts Strconv CanModel NmeaTypes LookupTable NmeaModel NmeaSpec NmeaExtract.
Open Scope Z_scope.
Open Scope list_scope.

(* ------------------------------------------------------------------ data map *)
Definition zseq (n : nat) : list Z := map Z.of_nat (seq 0 n).
Lemma zseq_S n : zseq (S n) = zseq n ++ [Z.of_nat n].
Proof. unfold zseq. rewrite seq_S, map_app. reflexivity. Qed.
Lemma zseq_in n k : In k (zseq n) <-> 0 <= k < Z.of_nat n.
Proof.
  unfold zseq. rewrite in_map_iff. split.
  - intros [x [<- I]]. apply in_seq in I. lia.
  - intros H. exists (Z.to_nat k). split; [lia|]. apply in_seq. lia.
Qed.
Lemma dm_put_new m k v : ~ In k (map fst m) -> dm_put m k v = m ++ [(k, v)].
Proof.
  induction m as [|[a x] m IH]; intros H; [reflexivity|]. cbn [dm_put map fst] in *.
  destruct (Z.eqb_spec a k) as [->|N]; [elim H; now left|].
  rewrite IH; [reflexivity|]. intros I. apply H. now right.
Qed.
Lemma dm_put_seq m n v : map fst m = zseq n -> dm_put m (Z.of_nat n) v = m ++ [(Z.of_nat n, v)].
Proof. intros H. apply dm_put_new. rewrite H. intros I. apply zseq_in in I. lia. Qed.
Lemma dm_get_in m k v : NoDup (map fst m) -> In (k, v) m -> dm_get m k = v.
Proof.
  induction m as [|[a x] m IH]; intros N I; [destruct I|]. cbn in N. apply NoDup_cons_iff in N as [N1 N2].
  cbn [dm_get]. destruct I as [E|I].
  - injection E as -> ->. now rewrite Z.eqb_refl.
  - destruct (Z.eqb_spec a k) as [->|_]; [|now apply IH]. elim N1. change k with (fst (k, v)). now apply in_map.
Qed.
Lemma dm_get_none m k : ~ In k (map fst m) -> dm_get m k = VNil.
Proof.
  induction m as [|[a x] m IH]; intros H; [reflexivity|]. cbn [dm_get map fst] in *.
  destruct (Z.eqb_spec a k) as [->|N]; [elim H; now left|]. apply IH. intros I. apply H. now right.
Qed.
Lemma zseq_nodup n : NoDup (zseq n).
Proof. unfold zseq. apply FinFun.Injective_map_NoDup; [intros a b; lia|apply seq_NoDup]. Qed.
Lemma zseq_firstn n k : (k <= n)%nat -> firstn k (zseq n) = zseq k.
Proof.
  intros H. unfold zseq. rewrite firstn_map. f_equal. replace n with (k + (n - k))%nat by lia.
  rewrite seq_app. rewrite firstn_app. rewrite seq_length, Nat.sub_diag. cbn. rewrite app_nil_r.
  rewrite <- (seq_length k 0) at 1. apply firstn_all.
Qed.

(* ------------------------------------------------------------------ one step *)
Definition nbytes (len : Z) (f : field) : Z := Z.min ((f_size f + 7) / 8) len.
Definition nbits (len : Z) (f : field) : Z := Z.min (nbytes len f * 8) (f_size f).

Lemma nbits_width len f : 0 <= f_size f -> 0 <= len ->
  nbits len f = width_in len f /\ nbytes len f = (width_in len f + 7) / 8 /\ 0 <= width_in len f /\ 0 <= nbytes len f
  /\ width_in len f <= 8 * nbytes len f.
Proof.
  intros H1 H2. unfold nbits, nbytes, width_in.
  destruct (Z_le_dec ((f_size f + 7) / 8) len) as [C|C].
  - rewrite (Z.min_l _ len) by lia. assert (f_size f <= 8 * len) by dm.
    rewrite (Z.min_l (f_size f)) by lia. repeat split; try dm.
  - rewrite (Z.min_r _ len) by lia. assert (8 * len < f_size f) by dm.
    rewrite (Z.min_r (f_size f)) by lia. repeat split; try dm.
Qed.

Definition mid (s : pstate) (i' : Z) (def' : pgn_def) (ix' : Z) (v : gval) : pstate :=
  mkps i' def' (ps_idx s) (ps_odx s) (ps_byte s) (ps_bit s) ix' (dm_put (ps_data s) (ps_odx s) v).

Definition extract_at (pl : platform) (d : slice) (s : pstate) (f : field) : outcome gval :=
  extract_field pl d (ps_def s) (ps_data s) f (ps_byte s) (nbytes (s_len d) f + ps_byte s) (ps_bit s) (nbits (s_len d) f).
Definition choose_at (t : list pgn_def) (d : slice) (j : Z) (s : pstate) (f : field) (v : gval) : outcome (Z * pgn_def) :=
  choose (Z.to_nat (j - ps_i s + 1)) t d (f_res f) (ps_byte s) (nbytes (s_len d) f + ps_byte s) (ps_bit s)
         (nbits (s_len d) f) (ps_idx s) v (ps_i s) (ps_def s) f.

Inductive step_view (pl : platform) (t : list pgn_def) (d : slice) (j : Z) (one : bool) (s : pstate) : step_result -> Prop :=
| sv_end : zlen (p_fields (ps_def s)) <= ps_idx s -> step_view pl t d j one s (SStop s)
| sv_bad p : ps_idx s < 0 -> step_view pl t d j one s (SCrash p)
| sv_short f : zget (p_fields (ps_def s)) (ps_idx s) = Some f ->
    s_len d < ps_byte s \/ s_len d < nbytes (s_len d) f + ps_byte s -> step_view pl t d j one s (SStop s)
| sv_panic f p : zget (p_fields (ps_def s)) (ps_idx s) = Some f ->
    ps_byte s <= s_len d -> nbytes (s_len d) f + ps_byte s <= s_len d ->
    extract_at pl d s f = Panic p -> step_view pl t d j one s (SCrash p)
| sv_err f e : zget (p_fields (ps_def s)) (ps_idx s) = Some f ->
    ps_byte s <= s_len d -> nbytes (s_len d) f + ps_byte s <= s_len d ->
    extract_at pl d s f = Err e ->
    step_view pl t d j one s (SNext (advance (s_len d) (nbits (s_len d) f) (mid s (ps_i s) (ps_def s) (ps_index s) VNil)))
| sv_one f v : zget (p_fields (ps_def s)) (ps_idx s) = Some f ->
    ps_byte s <= s_len d -> nbytes (s_len d) f + ps_byte s <= s_len d ->
    extract_at pl d s f = Ret v -> one = true ->
    step_view pl t d j one s (SNext (advance (s_len d) (nbits (s_len d) f) (mid s (ps_i s) (ps_def s) (ps_index s) v)))
| sv_choose f v i' def' : zget (p_fields (ps_def s)) (ps_idx s) = Some f ->
    ps_byte s <= s_len d -> nbytes (s_len d) f + ps_byte s <= s_len d ->
    extract_at pl d s f = Ret v -> one = false -> choose_at t d j s f v = Ret (i', def') ->
    step_view pl t d j one s (SNext (advance (s_len d) (nbits (s_len d) f) (mid s i' def' i' v)))
| sv_choose_bad f v p : zget (p_fields (ps_def s)) (ps_idx s) = Some f ->
    ps_byte s <= s_len d -> nbytes (s_len d) f + ps_byte s <= s_len d ->
    extract_at pl d s f = Ret v -> one = false ->
    choose_at t d j s f v = Panic p \/ choose_at t d j s f v = Err p -> step_view pl t d j one s (SCrash p).

Lemma step_cases pl t d j one s : step_view pl t d j one s (parse_step pl t d j one s).
Proof.
  unfold parse_step. destruct (zlen (p_fields (ps_def s)) <=? ps_idx s) eqn:E1; [apply sv_end; lia|].
  destruct (zget (p_fields (ps_def s)) (ps_idx s)) as [f|] eqn:E2.
  2: { apply sv_bad. apply zget_none in E2. lia. }
  fold (nbytes (s_len d) f). fold (nbits (s_len d) f).
  destruct ((s_len d <? ps_byte s) || (s_len d <? nbytes (s_len d) f + ps_byte s)) eqn:E3.
  { eapply sv_short; [exact E2|lia]. }
  fold (extract_at pl d s f). destruct (extract_at pl d s f) as [v|e|p] eqn:E4.
  - destruct one eqn:E5.
    + eapply sv_one; eauto; lia.
    + fold (choose_at t d j s f v). destruct (choose_at t d j s f v) as [[i' def']|e|p] eqn:E6.
      * eapply sv_choose; eauto; lia.
      * eapply sv_choose_bad; eauto; lia.
      * eapply sv_choose_bad; eauto; lia.
  - eapply sv_err; eauto; lia.
  - eapply sv_panic; eauto; lia.
Qed.

(** Facts about a step that goes on, common to the three cases. *)
Lemma step_next pl t d j one s s' : parse_step pl t d j one s = SNext s' ->
  exists f v i' def' ix',
    zget (p_fields (ps_def s)) (ps_idx s) = Some f /\
    ps_byte s <= s_len d /\ nbytes (s_len d) f + ps_byte s <= s_len d /\
    s' = advance (s_len d) (nbits (s_len d) f) (mid s i' def' ix' v) /\
    (match extract_at pl d s f with
     | Ret x => v = x /\ (if one then i' = ps_i s /\ def' = ps_def s /\ ix' = ps_index s
                          else choose_at t d j s f v = Ret (i', def') /\ ix' = i')
     | Err _ => v = VNil /\ i' = ps_i s /\ def' = ps_def s /\ ix' = ps_index s
     | Panic _ => False
     end).
Proof.
  intros H. pose proof (step_cases pl t d j one s) as V. rewrite H in V. inversion V; subst; clear V.
  - exists f, VNil, (ps_i s), (ps_def s), (ps_index s). rewrite H4. auto 10.
  - exists f, v, (ps_i s), (ps_def s), (ps_index s). rewrite H4. auto 10.
  - exists f, v, i', def', i'. rewrite H4. auto 10.
Qed.

Lemma loop_unfold n pl t d j one s : parse_loop (S n) pl t d j one s =
  match parse_step pl t d j one s with
  | SStop s' => Some (Ret s') | SCrash p => Some (Panic p) | SNext s' => parse_loop n pl t d j one s'
  end.
Proof. reflexivity. Qed.

(** Any property preserved by going-on steps holds at the end. *)
Lemma loop_inv (P : pstate -> Prop) pl t d j one :
  (forall s s', P s -> parse_step pl t d j one s = SNext s' -> P s') ->
  forall n s s', P s -> parse_loop n pl t d j one s = Some (Ret s') -> P s' /\ parse_step pl t d j one s' = SStop s'.
Proof.
  intros HP. induction n as [|n IH]; intros s s' Hs H; [discriminate|].
  rewrite loop_unfold in H. destruct (parse_step pl t d j one s) as [s1|s1|p] eqn:E.
  - injection H as ->. assert (s' = s) as ->; [|split; assumption].
    pose proof (step_cases pl t d j one s) as V. rewrite E in V. inversion V; auto.
  - apply (IH s1 s'); eauto.
  - discriminate.
Qed.
Lemma loop_more n : forall m pl t d j one s r, (n <= m)%nat -> parse_loop n pl t d j one s = Some r -> parse_loop m pl t d j one s = Some r.
Proof.
  induction n as [|n IH]; intros m pl t d j one s r H E; [discriminate|]. destruct m as [|m]; [lia|].
  rewrite loop_unfold in *. destruct (parse_step pl t d j one s); auto. apply IH; [lia|exact E].
Qed.

(* ------------------------------------------------------------------ keys *)
Definition keys_inv (s : pstate) : Prop := exists n, ps_odx s = Z.of_nat n /\ map fst (ps_data s) = zseq n.
Lemma keys_step pl t d j one s s' : keys_inv s -> parse_step pl t d j one s = SNext s' ->
  keys_inv s' /\ exists v, ps_data s' = ps_data s ++ [(ps_odx s, v)].
Proof.
  intros [n [H1 H2]] E. apply step_next in E as [f [v [i' [def' [ix' [_ [_ [_ [-> _]]]]]]]]].
  cbn [advance mid ps_odx ps_data]. rewrite H1. rewrite (dm_put_seq _ n v H2).
  split; [|eauto]. exists (S n). split; [cbn [advance mid ps_odx]; lia|]. cbn [advance mid ps_data].
  rewrite H1, (dm_put_seq _ n v H2), map_app, H2, zseq_S. reflexivity.
Qed.

(* ------------------------------------------------------------------ choosing a definition *)

(** [required f N]: the definition asks for value N in field f ("=N" units). *)
Lemma choose_spec n : forall t d res sb eb sbit bits idx data i def f i' def',
  choose n t d res sb eb sbit bits idx data i def f = Ret (i', def') ->
  zget t i = Some def -> zget (p_fields def) idx = Some f ->
  i <= i' <= i + Z.of_nat n /\ zget t i' = Some def' /\ (exists f', zget (p_fields def') idx = Some f') /\
  forall k, i <= k < i' -> exists dk fk r x, zget t k = Some dk /\ zget (p_fields dk) idx = Some fk /\
    f_units fk = UStr (String "="%char r) /\ pu_value (parse_uint 10 64 (str r)) <> x /\
    (if is_manufacturer res then extract_number fk d sb eb sbit bits = Ret (VUint64 x) else data = VUint64 x).
Proof.
  induction n as [|n IH]; intros t d res sb eb sbit bits idx data i def f i' def' H Hd Hf; cbn [choose] in H.
  { injection H as <- <-. split; [lia|]. split; [exact Hd|]. split; [eauto|]. intros k Hk. lia. }
  destruct (if is_manufacturer res then _ else Ret data) as [data1|e|p] eqn:E1; try discriminate.
  assert (forall (a : Z) (b : pgn_def), Ret (a, b) = Ret (i', def') -> a = i -> b = def ->
     i <= i' <= i + Z.of_nat (S n) /\ zget t i' = Some def' /\ (exists f', zget (p_fields def') idx = Some f') /\
     forall k, i <= k < i' -> exists dk fk r x, zget t k = Some dk /\ zget (p_fields dk) idx = Some fk /\
    f_units fk = UStr (String "="%char r) /\ pu_value (parse_uint 10 64 (str r)) <> x /\
    (if is_manufacturer res then extract_number fk d sb eb sbit bits = Ret (VUint64 x) else data = VUint64 x)) as STAY.
  { intros a b E -> ->. injection E as <- <-. split; [lia|]. split; [exact Hd|]. split; [eauto|]. intros k Hk. lia. }
  destruct (f_units f) as [|[|c r]| | |] eqn:EU; try discriminate; try (now apply (STAY i def)).
  destruct (Ascii.eqb c "="%char) eqn:EC; [|now apply (STAY i def)].
  apply Ascii.eqb_eq in EC. subst c.
  destruct data1 as [|x| | | | | | | | | |]; try discriminate.
  destruct (Z.eqb_spec (pu_value (parse_uint 10 64 (str r))) x) as [EX|EX]; [now apply (STAY i def)|].
  destruct (zget t (i + 1)) as [d1|] eqn:E2; [|discriminate].
  destruct (zget (p_fields d1) idx) as [f1|] eqn:E3; [|discriminate].
  pose proof (IH _ _ _ _ _ _ _ _ _ _ _ _ _ _ H E2 E3) as [H1 [H2 [H3 H4]]].
  split; [lia|]. split; [exact H2|]. split; [exact H3|].
  intros k Hk. destruct (Z.eq_dec k i) as [->|Nk].
  - exists def, f, r, x. repeat split; auto. destruct (is_manufacturer res).
    + destruct (extract_number f d sb eb sbit bits) as [g|e|p]; try discriminate. exact E1.
    + injection E1 as ->. reflexivity.
  - destruct (H4 k) as [dk [fk [r' [x' [G1 [G2 [G3 [G4 G5]]]]]]]]; [lia|].
    exists dk, fk, r', x'. repeat split; auto. destruct (is_manufacturer res); [exact G5|].
    injection E1 as ->. injection G5 as ->. reflexivity.
Qed.

Lemma choose_no_err n : forall t d res sb eb sbit bits idx data i def f e,
  choose n t d res sb eb sbit bits idx data i def f <> Err e.
Proof.
  induction n as [|n IH]; intros t d res sb eb sbit bits idx data i def f e; cbn [choose]; [discriminate|].
  destruct (is_manufacturer res).
  - destruct (extract_number f d sb eb sbit bits) as [g|x|p]; try discriminate;
    destruct (f_units f) as [|[|c r]| | |]; try discriminate; destruct (Ascii.eqb c "="%char); try discriminate.
    destruct g; try discriminate. destruct (_ =? _); try discriminate.
    destruct (zget t (i + 1)) as [d1|]; try discriminate. destruct (zget (p_fields d1) idx); try discriminate. apply IH.
  - destruct (f_units f) as [|[|c r]| | |]; try discriminate; destruct (Ascii.eqb c "="%char); try discriminate.
    destruct data; try discriminate. destruct (_ =? _); try discriminate.
    destruct (zget t (i + 1)) as [d1|]; try discriminate. destruct (zget (p_fields d1) idx); try discriminate. apply IH.
Qed.

(* ------------------------------------------------------------------ reachable states *)
Definition table_ok (t : list pgn_def) : Prop :=
  Forall (fun p => 0 <= p_rep p <= zlen (p_fields p) /\ Forall (fun f => 0 <= f_size f) (p_fields p)) t.
Lemma table_ok_get t k p : table_ok t -> zget t k = Some p ->
  0 <= p_rep p <= zlen (p_fields p) /\ Forall (fun f => 0 <= f_size f) (p_fields p).
Proof.
  intros H E. unfold table_ok in H. rewrite Forall_forall in H. apply H.
  unfold zget in E. destruct (k <? 0); [discriminate|]. eapply nth_error_In; eauto.
Qed.
Lemma zget_Forall {A} (P : A -> Prop) l k x : Forall P l -> zget l k = Some x -> P x.
Proof.
  intros H E. rewrite Forall_forall in H. apply H.
  unfold zget in E. destruct (k <? 0); [discriminate|]. eapply nth_error_In; eauto.
Qed.

(** Facts true of every state of the loop started at definitions i..j of a well-formed table. *)
Record reach (t : list pgn_def) (len i j : Z) (s : pstate) : Prop := mkreach {
  r_i : i <= ps_i s <= Z.max i (if i =? j then i else j + 1);
  r_def : zget t (ps_i s) = Some (ps_def s);
  r_index : ps_index s = ps_i s;
  r_idx : 0 <= ps_idx s;
  r_byte : 0 <= ps_byte s <= len;
  r_bit : 0 <= ps_bit s < 8;
  r_keys : keys_inv s }.

Lemma reach_init t len i j def : 0 <= len -> zget t i = Some def -> reach t len i j (mkps i def 0 0 0 0 i []).
Proof.
  intros H1 H2. constructor; cbn; try lia; auto.
  exists 0%nat. split; reflexivity.
Qed.

Lemma advance_pos len bits s : 0 <= ps_bit s -> 0 <= bits ->
  8 * ps_byte (advance len bits s) + ps_bit (advance len bits s) = 8 * ps_byte s + ps_bit s + bits /\
  0 <= ps_bit (advance len bits s) < 8.
Proof. intros H1 H2. cbn [advance ps_byte ps_bit]. rewrite (Z.add_comm bits). dm. Qed.

Lemma reach_step pl t d i j s s' : table_ok t -> 0 <= s_len d -> reach t (s_len d) i j s ->
  parse_step pl t d j (i =? j) s = SNext s' -> reach t (s_len d) i j s'.
Proof.
  intros T HL R E. pose proof (keys_step _ _ _ _ _ _ _ (r_keys _ _ _ _ _ R) E) as [K _].
  destruct R as [R1 R2 R3 R4 R5 R6 _].
  apply step_next in E as [f [v [i' [def' [ix' [Hf [Hb [Hn [-> V]]]]]]]]].
  pose proof (table_ok_get _ _ _ T R2) as [Trep Tsz].
  pose proof (zget_Forall _ _ _ _ Tsz Hf) as Hsz. cbv beta in Hsz.
  pose proof (nbits_width (s_len d) f Hsz HL) as [W1 [W2 [W3 [W4 W5]]]]. rewrite W1 in *.
  assert (ps_i s <= i' <= Z.max i (if i =? j then i else j + 1) /\ zget t i' = Some def' /\ ix' = i' /\
          exists f', zget (p_fields def') (ps_idx s) = Some f') as [G1 [G2 [G3 [f' G4]]]].
  { destruct (extract_at pl d s f) as [x|e|p]; [|destruct V as [_ [-> [-> ->]]]; repeat split; eauto; lia|destruct V].
    destruct V as [-> V]. destruct (i =? j) eqn:Eij.
    - destruct V as [-> [-> ->]]. repeat split; eauto; lia.
    - destruct V as [V ->]. unfold choose_at in V.
      pose proof (choose_spec _ _ _ _ _ _ _ _ _ _ _ _ _ _ _ V R2 Hf) as [G1 [G2 [G3 _]]].
      repeat split; auto; try lia. }
  pose proof (table_ok_get _ _ _ T G2) as [Trep' _].
  pose proof (zget_some _ _ _ G4) as Hidx.
  pose proof (advance_pos (s_len d) (width_in (s_len d) f) (mid s i' def' ix' v) ltac:(cbn; lia) ltac:(lia)) as [P1 P2].
  cbn [mid ps_byte ps_bit] in P1.
  constructor; auto; cbn [advance mid ps_i ps_def ps_index ps_idx ps_byte ps_bit] in *; try lia; try tauto.
  - destruct (_ && _) eqn:EE; [|lia]. apply andb_true_iff in EE as [EE _]. apply andb_true_iff in EE as [EE _]. lia.
Qed.
