(** NmeaSingle: ParsePacket on a PGN with one definition (toward C41, C48). *)
From Coq Require Import Floats.SpecFloat.
From Verif Require Import GoBase BufFacts Strconv CanModel NmeaTypes LookupTable NmeaModel NmeaSpec NmeaExtract NmeaParse.
Open Scope Z_scope.
Open Scope list_scope.

Lemma mod_succ a r : 0 < r -> (a + 1) mod r = if a mod r =? r - 1 then 0 else a mod r + 1.
Proof.
  intros H. pose proof (Z.div_mod a r ltac:(lia)) as E. pose proof (Z.mod_pos_bound a r H).
  destruct (Z.eqb_spec (a mod r) (r - 1)) as [C|C].
  - symmetry. apply Z.mod_unique with (a / r + 1); [lia|]. rewrite C in E. lia.
  - symmetry. apply Z.mod_unique with (a / r); [lia|]. lia.
Qed.

(** The value ParsePacket stores for field f decoded at bit [start], given the fields already
    decoded. *)
Definition stored (pl : platform) (d : slice) (def : pgn_def) (dm : dmap) (f : field) (start : Z) : gval :=
  let w := width_in (s_len d) f in
  match extract_field pl d def dm f (start / 8) (start / 8 + (w + 7) / 8) (start mod 8) w with
  | Ret v => v | _ => VNil end.

Definition stored_at (pl : platform) (d : slice) (def : pgn_def) (data : dmap) (k : nat) : Prop :=
  exists f, nth_field def (Z.of_nat k) = Some f /\
    nth_error data k = Some (Z.of_nat k, stored pl d def (firstn k data) f (start_of def (s_len d) k)) /\
    let s := start_of def (s_len d) k in let w := width_in (s_len d) f in
    forall p, extract_field pl d def (firstn k data) f (s / 8) (s / 8 + (w + 7) / 8) (s mod 8) w <> Panic p.

Section Single.
Variables (pl : platform) (t : list pgn_def) (d : slice) (i : Z) (def : pgn_def).
Hypothesis (T : table_ok t) (HD : zget t i = Some def) (HL : 0 <= s_len d).
Notation nf := (zlen (p_fields def)).
Notation rep := (p_rep def).
Notation len := (s_len d).

Record sinv (s : pstate) (k : nat) : Prop := mksinv {
  s_reach : reach t len i i s;
  s_def : ps_def s = def;
  s_odx : ps_odx s = Z.of_nat k;
  s_keys : map fst (ps_data s) = zseq k;
  s_start : 8 * ps_byte s + ps_bit s = start_of def len k;
  s_where : (ps_idx s = (if Z.of_nat k <? nf then Z.of_nat k else nf - rep + (Z.of_nat k - nf) mod rep) /\
             ps_idx s < nf /\ (nf <= Z.of_nat k -> 0 < rep) /\
             (nf <= Z.of_nat k -> (Z.of_nat k - nf) mod rep = 0 -> ps_byte s < len))
            \/ (ps_idx s = nf /\ nf <= Z.of_nat k /\ (rep = 0 \/ ((Z.of_nat k - nf) mod rep = 0 /\ len <= ps_byte s)));
  s_vals : forall k', (k' < k)%nat -> fits def len k' /\ stored_at pl d def (ps_data s) k' }.

Lemma sinv_len s k : sinv s k -> List.length (ps_data s) = k.
Proof. intros H. rewrite <- (map_length fst), (s_keys _ _ H). unfold zseq. now rewrite map_length, seq_length. Qed.

Lemma sinv_init : sinv (mkps i def 0 0 0 0 i []) 0.
Proof.
  pose proof (zlen_nonneg (p_fields def)) as ZN. pose proof (table_ok_get _ _ _ T HD) as [TR _].
  constructor; cbn [ps_def ps_odx ps_data ps_byte ps_bit ps_idx]; auto.
  - now apply reach_init.
  - destruct (Z.eq_dec nf 0) as [E|E].
    + right. rewrite E. repeat split; try lia.
    + left. destruct (Z.ltb_spec (Z.of_nat 0) nf); [|lia]. repeat split; lia.
  - intros k' H. lia.
Qed.

Lemma stored_at_app data kv k : (k < List.length data)%nat -> stored_at pl d def data k -> stored_at pl d def (data ++ [kv]) k.
Proof.
  intros H [f [E1 E2]]. exists f. split; [exact E1|]. rewrite nth_error_app1 by exact H.
  rewrite firstn_app. replace (k - List.length data)%nat with 0%nat by lia. cbn [firstn]. now rewrite app_nil_r.
Qed.

Lemma sinv_field s k f : sinv s k -> zget (p_fields def) (ps_idx s) = Some f -> nth_field def (Z.of_nat k) = Some f.
Proof.
  intros H F. unfold nth_field. pose proof (zget_some _ _ _ F) as B.
  destruct (s_where _ _ H) as [[W1 [W2 [W3 W4]]]|[W1 _]]; [|lia].
  destruct (Z.ltb_spec (Z.of_nat k) nf).
  - now rewrite <- W1.
  - destruct (Z.ltb_spec 0 rep); [|lia]. now rewrite <- W1.
Qed.

Lemma sinv_pos s k : sinv s k -> ps_byte s = start_of def len k / 8 /\ ps_bit s = start_of def len k mod 8.
Proof. intros H. pose proof (s_start _ _ H) as E. pose proof (r_bit _ _ _ _ _ (s_reach _ _ H)). rewrite <- E. split; dm. Qed.

Lemma sinv_step s k s' : sinv s k -> parse_step pl t d i true s = SNext s' -> sinv s' (S k).
Proof.
  intros H E. assert (reach t len i i s') as R'.
  { eapply reach_step; [exact T|exact HL|apply (s_reach _ _ H)|]. rewrite Z.eqb_refl. exact E. }
  pose proof (sinv_pos _ _ H) as [PB Pb]. pose proof (sinv_len _ _ H) as LN.
  pose proof (s_reach _ _ H) as R. pose proof (r_bit _ _ _ _ _ R) as RB.
  apply step_next in E as [f [v [i' [def' [ix' [F [Hb [Hn [E' V]]]]]]]]].
  rewrite (s_def _ _ H) in F.
  assert (i' = ps_i s /\ def' = def /\ ix' = ps_index s) as [-> [-> ->]].
  { rewrite <- (s_def _ _ H). destruct (extract_at pl d s f) as [x|e|p]; tauto. }
  pose proof (table_ok_get _ _ _ T HD) as [TR Tsz].
  pose proof (zget_Forall _ _ _ _ Tsz F) as Hsz. cbv beta in Hsz.
  pose proof (nbits_width len f Hsz HL) as [W1 [W2 [W3 [W4 W5]]]].
  assert (v = stored pl d def (firstn k (ps_data s)) f (start_of def len k) /\
    let s0 := start_of def len k in let w := width_in len f in
    forall p, extract_field pl d def (firstn k (ps_data s)) f (s0 / 8) (s0 / 8 + (w + 7) / 8) (s0 mod 8) w <> Panic p) as [EV EP].
  { unfold stored. cbv zeta. rewrite <- PB, <- Pb, <- W2, <- W1.
    replace (firstn k (ps_data s)) with (ps_data s) by (rewrite <- LN; symmetry; apply firstn_all).
    rewrite (Z.add_comm (ps_byte s)). unfold extract_at in V. rewrite (s_def _ _ H) in V.
    destruct (extract_field _ _ _ _ _ _ _ _ _) as [x|e|p]; (split; [tauto|]); intros ? C; [discriminate|discriminate|destruct V]. }
  assert (ps_data s' = ps_data s ++ [(Z.of_nat k, v)]) as ED.
  { subst s'. cbn [advance mid ps_data]. rewrite (s_odx _ _ H). apply dm_put_seq. apply (s_keys _ _ H). }
  pose proof (sinv_field _ _ _ H F) as NF.
  rewrite W1 in E'.
  pose proof (advance_pos len (width_in len f) (mid s (ps_i s) def (ps_index s) v) ltac:(cbn; lia) ltac:(lia)) as [P1 P2].
  rewrite <- E' in P1, P2. cbn [mid ps_byte ps_bit] in P1.
  assert (start_of def len (S k) = start_of def len k + width_in len f) as SS by (cbn [start_of]; now rewrite NF).
  constructor.
  - exact R'.
  - now subst s'.
  - subst s'. cbn [advance mid ps_odx]. rewrite (s_odx _ _ H). lia.
  - rewrite ED, map_app, (s_keys _ _ H), zseq_S. reflexivity.
  - rewrite P1, SS. rewrite (s_start _ _ H). reflexivity.
  - assert (ps_idx s' = (if (ps_idx s =? nf - 1) && (0 <? rep) && (ps_byte s' <? len) then ps_idx s - rep else ps_idx s) + 1) as EI
      by (subst s'; reflexivity).
    pose proof (zget_some _ _ _ F) as IB.
    destruct (s_where _ _ H) as [[Q1 [Q2 [Q3 Q4]]]|[Q1 _]]; [|lia].
    replace (Z.of_nat (S k)) with (Z.of_nat k + 1) by lia.
    replace (Z.of_nat k + 1 - nf) with (Z.of_nat k - nf + 1) by lia.
    destruct (Z.eqb_spec (ps_idx s) (nf - 1)) as [CI|CI].
    + assert (nf <= Z.of_nat k + 1 /\ (0 < rep -> (Z.of_nat k - nf + 1) mod rep = 0)) as [K1 K2].
      { destruct (Z.ltb_spec (Z.of_nat k) nf) as [C|C].
        - split; [lia|]. intros HR. replace (Z.of_nat k - nf + 1) with 0 by lia. apply Z.mod_0_l. lia.
        - split; [lia|]. intros HR. rewrite mod_succ by lia. destruct (Z.eqb_spec ((Z.of_nat k - nf) mod rep) (rep - 1)); [reflexivity|lia]. }
      destruct (Z.ltb_spec 0 rep) as [CR|CR]; [destruct (Z.ltb_spec (ps_byte s') len) as [CB|CB]|]; cbn [andb] in EI.
      * left. destruct (Z.ltb_spec (Z.of_nat k + 1) nf); [lia|]. rewrite K2 by lia. repeat split; lia.
      * right. repeat split; try lia.
      * right. repeat split; lia.
    + cbn [andb] in EI. left. destruct (Z.ltb_spec (Z.of_nat k) nf) as [C|C].
      * destruct (Z.ltb_spec (Z.of_nat k + 1) nf); [|lia]. repeat split; lia.
      * destruct (Z.ltb_spec (Z.of_nat k + 1) nf); [lia|]. specialize (Q3 C).
        rewrite mod_succ by lia. destruct (Z.eqb_spec ((Z.of_nat k - nf) mod rep) (rep - 1)); [lia|].
        pose proof (Z.mod_pos_bound (Z.of_nat k - nf) rep ltac:(lia)). repeat split; try lia.
  - intros k' Hk'. rewrite ED. destruct (Nat.eq_dec k' k) as [->|N].
    + split.
      * exists f. split; [exact NF|]. rewrite <- PB, <- W2. split; [|lia].
        destruct (s_where _ _ H) as [[Q1 [Q2 [Q3 Q4]]]|[Q1 _]]; [exact Q4|pose proof (zget_some _ _ _ F); lia].
      * exists f. split; [exact NF|]. rewrite nth_error_app2 by lia. rewrite LN, Nat.sub_diag. cbn [nth_error].
        rewrite firstn_app. replace (k - List.length (ps_data s))%nat with 0%nat by lia. cbn [firstn]. rewrite app_nil_r, <- EV. split; [reflexivity|exact EP].
    + destruct (s_vals _ _ H k') as [A B]; [lia|]. split; [exact A|]. apply stored_at_app; [lia|exact B].
Qed.

Lemma sinv_stop s k : sinv s k -> parse_step pl t d i true s = SStop s -> ~ fits def len k.
Proof.
  intros H E [f [NF [G1 G2]]]. pose proof (sinv_pos _ _ H) as [PB Pb].
  pose proof (step_cases pl t d i true s) as V. rewrite E in V.
  remember (SStop s) as rr eqn:Er in V.
  destruct V as [Hx|q Hx|g F Hx|g q F B1 B2 EX|g e F B1 B2 EX|g v F B1 B2 EX EO|g v i' def' F B1 B2 EX EO EC|g v q F B1 B2 EX EO EC];
    try discriminate.
  - rewrite (s_def _ _ H) in Hx. destruct (s_where _ _ H) as [[Q1 [Q2 _]]|[Q1 [Q2 Q3]]]; [lia|].
    pose proof (table_ok_get _ _ _ T HD) as [TR _].
    destruct Q3 as [Q3|[Q3 Q4]].
    + unfold nth_field in NF. rewrite Q3 in NF. destruct (Z.ltb_spec (Z.of_nat k) nf); [lia|]. discriminate.
    + specialize (G1 Q2 Q3). lia.
  - rewrite (s_def _ _ H) in F. pose proof (sinv_field _ _ _ H F) as NF'. rewrite NF' in NF. injection NF as ->.
    pose proof (table_ok_get _ _ _ T HD) as [TR Tsz].
    pose proof (zget_Forall _ _ _ _ Tsz F) as Hsz. cbv beta in Hsz.
    pose proof (nbits_width len f Hsz HL) as [W1 [W2 [W3 [W4 W5]]]]. lia.
Qed.

Lemma single_loop fuel : forall s k s', sinv s k -> parse_loop fuel pl t d i true s = Some (Ret s') ->
  exists k', sinv s' k' /\ ~ fits def len k'.
Proof.
  induction fuel as [|m IH]; intros s k s' H E; [discriminate|]. rewrite loop_unfold in E.
  destruct (parse_step pl t d i true s) as [s1|s1|p] eqn:ES.
  - injection E as ->. assert (s' = s) as ->.
    { pose proof (step_cases pl t d i true s) as V. rewrite ES in V. inversion V; auto. }
    exists k. split; [exact H|]. now apply sinv_stop with s.
  - eapply IH; [|exact E]. eapply sinv_step; eauto.
  - discriminate.
Qed.
End Single.
