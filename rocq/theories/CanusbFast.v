(** CanusbFast: proofs about frameReceived's reassembly (C05-C11). *)
From Coq Require Import ZifyBool.
From Verif Require Import GoBase BufFacts Strconv StrconvFacts CanModel CanusbModel CanusbSpec CanusbRegistry CanusbParse.

(** Feeding parsed frames one after the other (what Read does between returns). *)
Fixpoint receive (st : can_state) (fs : list can_frame) : can_state * list (outcome can_frame) :=
  match fs with
  | [] => (st, [])
  | f :: r => let '(st1, o) := frame_step st f in
              let '(st2, os) := receive st1 r in (st2, o :: os)
  end.

Lemma receive_app st a b :
  receive st (a ++ b) =
  (let '(st1, o1) := receive st a in let '(st2, o2) := receive st1 b in (st2, o1 ++ o2)).
Proof.
  revert st. induction a as [|f a IH]; intros st; cbn [receive app].
  - destruct (receive st b). reflexivity.
  - destruct (frame_step st f) as [st1 o]. rewrite IH.
    destruct (receive st1 a) as [st2 o2]. destruct (receive st2 b). reflexivity.
Qed.

(* ------------------------------------------------------------ header byte and key *)
Lemma land_31 x : Z.land x 31 = x mod 32.
Proof. apply (Z.land_ones x 5). lia. Qed.
Lemma grp_bits x : Z.shiftr (Z.land x 112) 5 = hdr_group x mod 4.
Proof.
  unfold hdr_group. rewrite Z.shiftr_land. change (Z.shiftr 112 5) with (Z.ones 2).
  rewrite Z.land_ones, Z.shiftr_div_pow2 by lia. reflexivity.
Qed.

Lemma fp_uid_val g p s : 0 <= g < 4 -> 0 <= p < 2 ^ 18 -> is_byte s ->
  fp_uid g p s = g * 268435456 + p * 256 + s.
Proof.
  unfold fp_uid, is_byte. change (2 ^ 18) with 262144. intros Hg Hp Hs.
  rewrite !Z.shiftl_mul_pow2 by lia. change (2 ^ 28) with 268435456. change (2 ^ 8) with 256.
  rewrite (u32_id (g * 268435456)), (u32_id (p * 256)) by lia.
  rewrite (u32_id (g * 268435456 + p * 256)) by lia. apply u32_id. lia.
Qed.
Lemma fp_uid_inj g p s g' p' s' :
  0 <= g < 4 -> 0 <= p < 2 ^ 18 -> is_byte s -> 0 <= g' < 4 -> 0 <= p' < 2 ^ 18 -> is_byte s' ->
  fp_uid g p s = fp_uid g' p' s' -> g = g' /\ p = p' /\ s = s'.
Proof.
  intros. rewrite !fp_uid_val in * by assumption. unfold is_byte in *. change (2 ^ 18) with 262144 in *. lia.
Qed.

Definition uidf (f : can_frame) : Z :=
  fp_uid (hdr_group (frame_head f) mod 4) (rm_pgn (cf_raw f)) (rm_source (cf_raw f)).

Lemma uidf_same f g : frame_ok f -> frame_ok g -> (uidf f = uidf g <-> same_transfer f g).
Proof.
  intros (P1 & S1 & _) (P2 & S2 & _). unfold uidf, same_transfer. split.
  - intros E. apply fp_uid_inj in E; try assumption; try (apply Z.mod_pos_bound; lia). tauto.
  - intros (-> & -> & ->). reflexivity.
Qed.

Lemma same_transfer_refl f : same_transfer f f.
Proof. repeat split. Qed.
Lemma same_transfer_sym f g : same_transfer f g -> same_transfer g f.
Proof. unfold same_transfer. intuition. Qed.
Lemma same_transfer_trans f g h : same_transfer f g -> same_transfer g h -> same_transfer f h.
Proof. unfold same_transfer. intuition congruence. Qed.

Definition fast (st : can_state) (f : can_frame) : Prop := In (rm_pgn (cf_raw f)) (cs_fast st).
Lemma fast_dec st f : {fast st f} + {~ fast st f}.
Proof. apply in_dec, Z.eq_dec. Defined.

(* ------------------------------------------------------------ one step, by cases *)
Section Step.
Variable st : can_state.
Variable f : can_frame.
Hypothesis Hreg : registry_ok st.

Lemma step_single : ~ fast st f -> frame_step st f = (st, Ret f).
Proof.
  intros H. unfold frame_step. rewrite (isFastPacket_false st) by assumption. reflexivity.
Qed.

Lemma step_empty : fast st f -> rm_data (cf_raw f) = [] -> frame_step st f = (st, Panic "index out of range").
Proof.
  intros H E. unfold frame_step. rewrite (isFastPacket_true st) by assumption. rewrite E. reflexivity.
Qed.

Lemma step_first_short h : fast st f -> rm_data (cf_raw f) = [h] -> hdr_seq h = 0 ->
  frame_step st f = (mkcs (cs_fast st) (zdel (cs_partial st) (uidf f)) (cs_group st), Panic "index out of range").
Proof.
  intros H E S. unfold frame_step. rewrite (isFastPacket_true st) by assumption. rewrite E.
  rewrite zget_cons_0, land_31. unfold hdr_seq in S. rewrite S. cbn [Z.eqb].
  change (zget [h] 1) with (@None Z). unfold uidf, frame_head. rewrite E. cbn [hd].
  cbn [set_seqgrp cf_raw]. rewrite grp_bits. reflexivity.
Qed.

Definition first_msg (h L : Z) (d : bytes) : can_frame :=
  mkframe (mkraw (rm_priority (cf_raw f)) (rm_pgn (cf_raw f)) (rm_source (cf_raw f)) (rm_dest (cf_raw f)) L d)
          (cf_type f) (cf_id f) (hdr_group h mod 4) 0.

Lemma step_first h L d : fast st f -> rm_data (cf_raw f) = h :: L :: d -> hdr_seq h = 0 ->
  frame_step st f =
    if L <=? zlen d
    then (mkcs (cs_fast st) (zdel (cs_partial st) (uidf f)) (cs_group st), Ret (first_msg h L d))
    else (mkcs (cs_fast st) (zput (zdel (cs_partial st) (uidf f)) (uidf f) (first_msg h L d)) (cs_group st),
          Err "partial PGN").
Proof.
  intros H E S. unfold frame_step. rewrite (isFastPacket_true st) by assumption. rewrite E.
  rewrite zget_cons_0, land_31. unfold hdr_seq in S. rewrite S. cbn [Z.eqb].
  change (zget (h :: L :: d) 1) with (Some L). unfold uidf, frame_head. rewrite E. cbn [hd].
  cbn [set_seqgrp set_length set_data cf_raw cf_grp cf_seq cf_type cf_id rm_priority rm_pgn rm_source rm_dest rm_length rm_data skipn].
  rewrite grp_bits. unfold first_msg. destruct (L <=? zlen d); reflexivity.
Qed.

(** The frame delivered on its own. *)
Definition raw_msg (h : Z) : can_frame := set_seqgrp f (hdr_seq h) (hdr_group h mod 4).

Lemma step_cont h r : fast st f -> rm_data (cf_raw f) = h :: r -> hdr_seq h <> 0 ->
  frame_step st f =
    match cs_partial st (uidf f) with
    | None => (st, Ret (raw_msg h))
    | Some p =>
        if u8 (cf_seq p + 1) =? hdr_seq h then
          let p' := set_seqgrp (set_data p (rm_data (cf_raw p) ++ r)) (hdr_seq h) (cf_grp p) in
          if rm_length (cf_raw p) <=? zlen (rm_data (cf_raw p) ++ r)
          then (mkcs (cs_fast st) (zdel (cs_partial st) (uidf f)) (cs_group st), Ret p')
          else (mkcs (cs_fast st) (zput (cs_partial st) (uidf f) p') (cs_group st), Err "partial PGN")
        else (st, Ret (raw_msg h))
    end.
Proof.
  intros H E S. unfold frame_step. rewrite (isFastPacket_true st) by assumption. rewrite E.
  rewrite zget_cons_0, land_31. fold (hdr_seq h). destruct (Z.eqb_spec (hdr_seq h) 0) as [|_]; [contradiction|].
  unfold uidf, frame_head. rewrite E. cbn [hd].
  cbn [set_seqgrp cf_raw]. rewrite grp_bits. unfold raw_msg.
  destruct (cs_partial st _) as [p|]; [|reflexivity].
  destruct (u8 (cf_seq p + 1) =? hdr_seq h); [|reflexivity].
  cbn [skipn set_data set_seqgrp cf_raw rm_data rm_length cf_grp]. reflexivity.
Qed.
End Step.

(** The registry and the group counter never change while receiving; entries of other
    transfers never change. *)
Lemma step_frame st f st' o : registry_ok st -> frame_step st f = (st', o) ->
  cs_fast st' = cs_fast st /\ cs_group st' = cs_group st /\ (forall u, u <> uidf f -> cs_partial st' u = cs_partial st u).
Proof.
  intros R E.
  destruct (fast_dec st f) as [Hf|Hf].
  2:{ rewrite step_single in E by assumption. injection E as <- <-. auto. }
  destruct (rm_data (cf_raw f)) as [|h r] eqn:D.
  { rewrite step_empty in E by assumption. injection E as <- <-. auto. }
  destruct (Z.eq_dec (hdr_seq h) 0) as [S|S].
  - destruct r as [|L d].
    + rewrite (step_first_short st f R h) in E by assumption. injection E as <- <-. cbn. repeat split.
      intros u Hu. now apply zdel_other.
    + rewrite (step_first st f R h L d) in E by assumption.
      destruct (L <=? zlen d); injection E as <- <-; cbn; repeat split; intros u Hu;
        rewrite ?zput_other, ?zdel_other by assumption; reflexivity.
  - rewrite (step_cont st f R h r) in E by assumption.
    destruct (cs_partial st (uidf f)) as [p|]; [|injection E as <- <-; auto].
    destruct (_ =? _); [|injection E as <- <-; auto]. cbv zeta in E.
    destruct (_ <=? _); injection E as <- <-; cbn; repeat split; intros u Hu;
      rewrite ?zput_other, ?zdel_other by assumption; reflexivity.
Qed.

Lemma step_registry st f st' o : registry_ok st -> frame_step st f = (st', o) -> registry_ok st'.
Proof. intros R E. unfold registry_ok. destruct (step_frame _ _ _ _ R E) as (-> & _). exact R. Qed.

Lemma receive_registry st fs st' os : registry_ok st -> receive st fs = (st', os) ->
  registry_ok st' /\ cs_fast st' = cs_fast st /\ cs_group st' = cs_group st /\ List.length os = List.length fs.
Proof.
  revert st st' os. induction fs as [|f fs IH]; intros st st' os R E; cbn in E.
  - injection E as <- <-. auto.
  - destruct (frame_step st f) as [st1 o] eqn:E1. destruct (receive st1 fs) as [st2 os2] eqn:E2.
    injection E as <- <-. pose proof (step_registry _ _ _ _ R E1) as R1.
    destruct (step_frame _ _ _ _ R E1) as (F1 & G1 & _).
    destruct (IH _ _ _ R1 E2) as (R2 & F2 & G2 & L). cbn. repeat split; [assumption|congruence|congruence|lia].
Qed.

(* ------------------------------------------------------------ C06: reassembly *)
Definition on_wire (h0 : can_frame) (f : can_frame) (d : bytes) : Prop :=
  rm_data (cf_raw f) = d /\ rm_pgn (cf_raw f) = rm_pgn (cf_raw h0) /\ rm_source (cf_raw f) = rm_source (cf_raw h0).

Lemma hdr_split g k : 0 <= k < 32 -> hdr_group (hdr g k) = g /\ hdr_seq (hdr g k) = k.
Proof.
  intros H. unfold hdr_group, hdr_seq, hdr. split.
  - replace (32 * g + k) with (k + g * 32) by ring. rewrite Z.div_add, Z.div_small by lia. lia.
  - replace (32 * g + k) with (k + g * 32) by ring. rewrite Z.mod_add, Z.mod_small by lia. lia.
Qed.

Lemma uidf_hdr h0 f g k r : on_wire h0 f (hdr g k :: r) -> 0 <= k < 32 ->
  uidf f = fp_uid (g mod 4) (rm_pgn (cf_raw h0)) (rm_source (cf_raw h0)).
Proof.
  intros (D & P & S) Hk. unfold uidf, frame_head. rewrite D, P, S. cbn [hd].
  now destruct (hdr_split g k Hk) as [-> _].
Qed.

Definition total (cs : list bytes) : Z := zlen (List.concat cs).

Lemma cont_run h0 g : forall cs k st fs p acc,
  registry_ok st -> fast st h0 -> cs <> [] -> 1 <= k -> k + zlen cs <= 32 ->
  let u := fp_uid (g mod 4) (rm_pgn (cf_raw h0)) (rm_source (cf_raw h0)) in
  cs_partial st u = Some p -> cf_seq p = k - 1 -> rm_data (cf_raw p) = acc ->
  (forall i, (i < List.length cs)%nat -> zlen acc + total (firstn i cs) < rm_length (cf_raw p)) ->
  rm_length (cf_raw p) <= zlen acc + total cs ->
  Forall2 (on_wire h0) fs (cont_frames g k cs) ->
  exists st' m, receive st fs = (st', repeat (Err "partial PGN") (List.length cs - 1) ++ [Ret m]) /\
    cf_raw m = mkraw (rm_priority (cf_raw p)) (rm_pgn (cf_raw p)) (rm_source (cf_raw p)) (rm_dest (cf_raw p))
                     (rm_length (cf_raw p)) (acc ++ List.concat cs) /\
    cs_partial st' u = None /\ (forall v, v <> u -> cs_partial st' v = cs_partial st v).
Proof.
  induction cs as [|c cs IH]; intros k st fs p acc R F NE Hk Hlen u Hp Hseq Hacc Hlt Htot W; [congruence|].
  cbn [cont_frames] in W. inversion W as [|f d fs' ds' Wf Wr]; subst fs d ds'.
  rewrite zlen_cons in Hlen. pose proof (zlen_nonneg cs) as Hcs.
  assert (Uf : uidf f = u) by (apply (uidf_hdr h0 f g k c Wf); lia).
  destruct (hdr_split g k ltac:(lia)) as [Hg Hs].
  destruct Wf as (D & P & S).
  assert (Ff : fast st f) by (unfold fast; rewrite P; exact F).
  cbn [receive]. rewrite (step_cont st f R (hdr g k) c Ff D) by (rewrite Hs; lia).
  rewrite Uf, Hp, Hs, Hseq. replace (u8 (k - 1 + 1)) with k by (rewrite u8_id; unfold is_byte; lia).
  rewrite Z.eqb_refl. cbv zeta. rewrite Hacc, zlen_app.
  destruct cs as [|c' cs'].
  - unfold total in Htot. cbn [List.concat] in Htot. rewrite app_nil_r in Htot.
    replace (rm_length (cf_raw p) <=? zlen acc + zlen c) with true by lia.
    inversion Wr; subst fs'. cbn [receive].
    eexists _, _. split; [reflexivity|]. split; [|split].
    + cbn. now rewrite app_nil_r.
    + cbn. apply zdel_same.
    + intros v Hv. cbn. now apply zdel_other.
  - specialize (Hlt 1%nat ltac:(cbn; lia)) as H1. unfold total in H1. cbn [firstn List.concat] in H1.
    rewrite app_nil_r in H1.
    replace (rm_length (cf_raw p) <=? zlen acc + zlen c) with false by lia.
    set (p' := set_seqgrp (set_data p (acc ++ c)) k (cf_grp p)).
    set (st1 := mkcs (cs_fast st) (zput (cs_partial st) u p') (cs_group st)).
    destruct (IH (k + 1) st1 fs' p' (acc ++ c)) as (st' & m & E & M & N & O).
    + exact R.
    + exact F.
    + discriminate.
    + lia.
    + lia.
    + unfold st1; cbn. apply zput_same.
    + cbn. lia.
    + reflexivity.
    + intros i Hi. specialize (Hlt (Datatypes.S i) ltac:(cbn in *; lia)). unfold total in *.
      cbn [firstn List.concat] in Hlt. rewrite zlen_app in Hlt. rewrite zlen_app. cbn. lia.
    + unfold total in *. cbn [List.concat] in Htot. rewrite zlen_app in Htot. cbn [p' set_seqgrp set_data cf_raw rm_length].
      rewrite zlen_app. cbn [List.concat]. lia.
    + exact Wr.
    + rewrite E. eexists _, _. split; [|split; [|split]].
      * f_equal. replace (List.length (c :: c' :: cs') - 1)%nat with (Datatypes.S (List.length (c' :: cs') - 1)) by (cbn; lia).
        reflexivity.
      * rewrite M. cbn. now rewrite <- app_assoc.
      * exact N.
      * intros v Hv. rewrite O by assumption. unfold st1; cbn. now apply zput_other.
Qed.

(** In-order reception of one transfer, any chunk sizes. *)
Lemma transfer_run h0 g L c0 cs st fs :
  registry_ok st -> fast st h0 -> zlen cs <= 31 ->
  (forall i, (i < List.length cs)%nat -> zlen c0 + total (firstn i cs) < L) ->
  L <= zlen c0 + total cs ->
  Forall2 (on_wire h0) fs (transfer_data g L c0 cs) ->
  exists st' m, receive st fs = (st', repeat (Err "partial PGN") (List.length cs) ++ [Ret m]) /\
    (exists f0 r, fs = f0 :: r /\
     cf_raw m = mkraw (rm_priority (cf_raw f0)) (rm_pgn (cf_raw h0)) (rm_source (cf_raw h0)) (rm_dest (cf_raw f0))
                     L (c0 ++ List.concat cs)) /\
    let u := fp_uid (g mod 4) (rm_pgn (cf_raw h0)) (rm_source (cf_raw h0)) in
    cs_partial st' u = None /\ (forall v, v <> u -> cs_partial st' v = cs_partial st v).
Proof.
  intros R F Hn Hlt Htot W. unfold transfer_data in W.
  inversion W as [|f d fs' ds' Wf Wr]; subst fs d ds'.
  set (u := fp_uid (g mod 4) (rm_pgn (cf_raw h0)) (rm_source (cf_raw h0))).
  assert (Uf : uidf f = u) by (apply (uidf_hdr h0 f g 0 _ Wf); lia).
  destruct (hdr_split g 0 ltac:(lia)) as [Hg Hs].
  destruct Wf as (D & P & S).
  assert (Ff : fast st f) by (unfold fast; rewrite P; exact F).
  cbn [receive]. rewrite (step_first st f R (hdr g 0) L c0 Ff D Hs). rewrite Uf.
  destruct cs as [|c cs].
  - unfold total in Htot. cbn [List.concat] in Htot. rewrite zlen_nil in Htot.
    replace (L <=? zlen c0) with true by lia. inversion Wr; subst fs'. cbn [receive].
    eexists _, _. split; [reflexivity|]. split.
    + eexists _, _. split; [reflexivity|]. unfold first_msg. cbn [cf_raw List.concat].
      rewrite P, S, app_nil_r. reflexivity.
    + cbn. split; [apply zdel_same|]. intros v Hv. now apply zdel_other.
  - specialize (Hlt 0%nat ltac:(cbn; lia)) as H1. unfold total in H1. cbn [firstn List.concat] in H1.
    rewrite zlen_nil in H1. replace (L <=? zlen c0) with false by lia.
    set (p := first_msg f (hdr g 0) L c0).
    set (st1 := mkcs (cs_fast st) (zput (zdel (cs_partial st) u) u p) (cs_group st)).
    destruct (cont_run h0 g (c :: cs) 1 st1 fs' p c0) as (st' & m & E & M & N & O); try assumption.
    + discriminate.
    + lia.
    + lia.
    + unfold st1; cbn. apply zput_same.
    + reflexivity.
    + reflexivity.
    + rewrite E. eexists _, _. split; [|split].
      * f_equal. replace (List.length (c :: cs)) with (Datatypes.S (List.length (c :: cs) - 1)) at 2 by (cbn; lia).
        reflexivity.
      * eexists _, _. split; [reflexivity|]. rewrite M. unfold p, first_msg. cbn. now rewrite P, S.
      * cbn zeta. fold u. split; [exact N|]. intros v Hv. rewrite O by assumption. unfold st1; cbn.
        rewrite zput_other, zdel_other by assumption. reflexivity.
Qed.

(** Standard segmentation: 6 bytes, then 7 per frame. *)
Lemma chunks_concat b : (0 < b)%nat -> forall n l, (List.length l <= n)%nat -> List.concat (chunks n b l) = l.
Proof.
  intros Hb. induction n as [|n IH]; intros l Hl; destruct l as [|x l]; try reflexivity.
  - cbn in Hl. lia.
  - cbn [chunks List.concat]. rewrite IH.
    + apply firstn_skipn.
    + rewrite skipn_length. cbn [List.length] in *. lia.
Qed.

Lemma chunks_length b : (0 < b)%nat -> forall n l, (List.length l <= n)%nat ->
  zlen (chunks n b l) = (zlen l + Z.of_nat b - 1) / Z.of_nat b.
Proof.
  intros Hb. induction n as [|n IH]; intros l Hl; destruct l as [|x l].
  - cbn. rewrite zlen_nil. symmetry. apply Z.div_small. change (zlen (@nil byte)) with 0. lia.
  - cbn in Hl. lia.
  - cbn. rewrite zlen_nil. symmetry. apply Z.div_small. change (zlen (@nil byte)) with 0. lia.
  - cbn [chunks]. rewrite zlen_cons, IH.
    2:{ rewrite skipn_length. cbn [List.length] in *. lia. }
    destruct (le_lt_dec (List.length (x :: l)) b) as [Hle|Hgt].
    + rewrite skipn_all2 by assumption. change (zlen (@nil byte)) with 0.
      rewrite (Z.div_small (0 + _ - 1)) by lia.
      assert (1 <= zlen (x :: l) <= Z.of_nat b) by (unfold zlen; cbn [List.length] in *; lia).
      replace (zlen (x :: l) + Z.of_nat b - 1) with (zlen (x :: l) - 1 + 1 * Z.of_nat b) by ring.
      rewrite Z.div_add, Z.div_small by lia. lia.
    + rewrite zlen_skipn by lia.
      replace (zlen (x :: l) + Z.of_nat b - 1) with (zlen (x :: l) - Z.of_nat b + Z.of_nat b - 1 + 1 * Z.of_nat b) by ring.
      rewrite Z.div_add by lia. lia.
Qed.

Lemma chunks_prefix b : (0 < b)%nat -> forall n l i, (List.length l <= n)%nat -> (i < List.length (chunks n b l))%nat ->
  total (firstn i (chunks n b l)) = Z.of_nat i * Z.of_nat b /\ Z.of_nat i * Z.of_nat b < zlen l.
Proof.
  intros Hb. induction n as [|n IH]; intros l i Hl Hi; destruct l as [|x l]; try (cbn in Hi; lia).
  cbn [chunks] in *. destruct i as [|i].
  - cbn. split; [reflexivity|]. unfold zlen; cbn; lia.
  - cbn [firstn List.length] in *. unfold total. cbn [List.concat]. rewrite zlen_app.
    assert (Hne : skipn b (x :: l) <> []).
    { intros E. rewrite E in Hi. destruct n; cbn in Hi; lia. }
    assert (Hb' : (b < List.length (x :: l))%nat).
    { destruct (le_lt_dec (List.length (x :: l)) b); [|assumption]. exfalso. apply Hne. now apply skipn_all2. }
    destruct (IH (skipn b (x :: l)) i) as [E1 E2].
    + rewrite skipn_length. cbn [List.length] in *. lia.
    + lia.
    + unfold total in E1. rewrite E1, zlen_firstn by lia. rewrite zlen_skipn in E2 by lia. lia.
Qed.

Lemma fast_run h0 g payload pad st fs (b : Z) :
  0 < b -> registry_ok st -> fast st h0 ->
  (zlen (skipn 6 (payload ++ pad)) + b - 1) / b <= 31 ->
  (6 < zlen (payload ++ pad) -> (zlen (payload ++ pad) - 6 - 1) / b * b + 6 < zlen payload) ->
  let wire := payload ++ pad in
  Forall2 (on_wire h0) fs
    (transfer_data g (zlen payload) (firstn 6 wire) (chunks (List.length wire) (Z.to_nat b) (skipn 6 wire))) ->
  exists st' m n, receive st fs = (st', repeat (Err "partial PGN") n ++ [Ret m]) /\
    (exists f0 r, fs = f0 :: r /\
     cf_raw m = mkraw (rm_priority (cf_raw f0)) (rm_pgn (cf_raw h0)) (rm_source (cf_raw h0)) (rm_dest (cf_raw f0))
                     (zlen payload) (payload ++ pad)) /\
    let u := fp_uid (g mod 4) (rm_pgn (cf_raw h0)) (rm_source (cf_raw h0)) in
    cs_partial st' u = None /\ (forall v, v <> u -> cs_partial st' v = cs_partial st v).
Proof.
  intros Hb R F Hn Hlast wire W. fold wire in Hn, Hlast.
  set (cs := chunks (List.length wire) (Z.to_nat b) (skipn 6 wire)) in *.
  assert (Hlen : (List.length (skipn 6 wire) <= List.length wire)%nat) by (rewrite skipn_length; lia).
  assert (Hb' : (0 < Z.to_nat b)%nat) by lia.
  pose proof (chunks_concat _ Hb' _ _ Hlen) as Hcc. fold cs in Hcc.
  pose proof (chunks_length _ Hb' _ _ Hlen) as Hcl. fold cs in Hcl.
  rewrite Z2Nat.id in Hcl by lia.
  assert (Hpl : zlen payload <= zlen wire) by (unfold wire; rewrite zlen_app; pose proof (zlen_nonneg pad); lia).
  destruct (transfer_run h0 g (zlen payload) (firstn 6 wire) cs st fs R F) as (st' & m & E & M & U).
  - rewrite Hcl. exact Hn.
  - intros i Hi. destruct (chunks_prefix _ Hb' _ _ i Hlen Hi) as [E1 E2]. fold cs in E1. rewrite E1.
    rewrite Z2Nat.id in * by lia.
    assert (6 < zlen wire) as H6.
    { destruct (Z_lt_le_dec 6 (zlen wire)); [assumption|]. exfalso.
      rewrite skipn_all2 in E2 by (unfold zlen in *; lia). change (zlen (@nil byte)) with 0 in E2. nia. }
    specialize (Hlast H6). rewrite zlen_firstn by (unfold zlen in *; lia).
    rewrite zlen_skipn in E2 by (unfold zlen in *; lia).
    assert (Z.of_nat i <= (zlen wire - 6 - 1) / b) by (apply Z.div_le_lower_bound; lia).
    assert (Z.of_nat i * b <= (zlen wire - 6 - 1) / b * b) by (apply Z.mul_le_mono_nonneg_r; lia). lia.
  - unfold total. rewrite Hcc, <- zlen_app, firstn_skipn. exact Hpl.
  - exact W.
  - exists st', m, (List.length cs). split; [exact E|]. split; [|exact U].
    rewrite Hcc, firstn_skipn in M. exact M.
Qed.

(* ------------------------------------------------------------ C07: independence *)
Definition same_transferb (f g : can_frame) : bool :=
  (rm_source (cf_raw f) =? rm_source (cf_raw g)) && (rm_pgn (cf_raw f) =? rm_pgn (cf_raw g)) &&
  (hdr_group (frame_head f) mod 4 =? hdr_group (frame_head g) mod 4).
Lemma same_transferb_iff f g : same_transferb f g = true <-> same_transfer f g.
Proof. unfold same_transferb, same_transfer. rewrite !andb_true_iff, !Z.eqb_eq. tauto. Qed.

Lemma step_local st1 st2 f : registry_ok st1 -> cs_fast st1 = cs_fast st2 ->
  cs_partial st1 (uidf f) = cs_partial st2 (uidf f) ->
  snd (frame_step st1 f) = snd (frame_step st2 f) /\
  cs_partial (fst (frame_step st1 f)) (uidf f) = cs_partial (fst (frame_step st2 f)) (uidf f).
Proof.
  intros R EF EP. assert (R2 : registry_ok st2) by (unfold registry_ok in *; congruence).
  destruct (fast_dec st1 f) as [Hf|Hf].
  2:{ assert (~ fast st2 f) by (unfold fast in *; congruence).
      rewrite !step_single by assumption. auto. }
  assert (Hf2 : fast st2 f) by (unfold fast in *; congruence).
  destruct (rm_data (cf_raw f)) as [|h r] eqn:D.
  { rewrite !step_empty by assumption. auto. }
  destruct (Z.eq_dec (hdr_seq h) 0) as [S|S].
  - destruct r as [|L d].
    + rewrite (step_first_short st1 f R h), (step_first_short st2 f R2 h) by assumption.
      cbn. split; [reflexivity|]. now rewrite !zdel_same.
    + rewrite (step_first st1 f R h L d), (step_first st2 f R2 h L d) by assumption.
      destruct (L <=? zlen d); cbn; rewrite ?zput_same, ?zdel_same; auto.
  - rewrite (step_cont st1 f R h r), (step_cont st2 f R2 h r) by assumption. rewrite <- EP.
    destruct (cs_partial st1 (uidf f)) as [p|] eqn:EQ; [|cbn; split; [reflexivity|congruence]].
    destruct (_ =? _); [|cbn; split; [reflexivity|congruence]]. cbv zeta.
    destruct (_ <=? _); cbn; rewrite ?zput_same, ?zdel_same; auto.
Qed.

Definition outputs_for (k : can_frame) (fs : list can_frame) (os : list (outcome can_frame)) : list (outcome can_frame) :=
  map snd (filter (fun fo => same_transferb (fst fo) k) (combine fs os)).

Lemma receive_local k fs : forall st1 st2, registry_ok st1 -> frame_ok k -> Forall frame_ok fs ->
  cs_fast st1 = cs_fast st2 -> cs_partial st1 (uidf k) = cs_partial st2 (uidf k) ->
  outputs_for k fs (snd (receive st1 fs)) = snd (receive st2 (filter (fun f => same_transferb f k) fs)) /\
  cs_partial (fst (receive st1 fs)) (uidf k) =
  cs_partial (fst (receive st2 (filter (fun f => same_transferb f k) fs))) (uidf k).
Proof.
  induction fs as [|f fs IH]; intros st1 st2 R Kok Fok EF EP; [cbn; auto|].
  inversion Fok as [|? ? Fk Fr]; subst.
  assert (R2 : registry_ok st2) by (unfold registry_ok in *; congruence).
  cbn [receive filter]. destruct (frame_step st1 f) as [st1' o] eqn:E1.
  pose proof (step_frame _ _ _ _ R E1) as (F1 & _ & O1).
  pose proof (step_registry _ _ _ _ R E1) as R1.
  destruct (same_transferb f k) eqn:B.
  - assert (U : uidf f = uidf k) by (apply uidf_same; auto; now apply same_transferb_iff).
    cbn [receive]. destruct (frame_step st2 f) as [st2' o2] eqn:E2.
    pose proof (step_frame _ _ _ _ R2 E2) as (F2 & _ & _).
    destruct (step_local st1 st2 f R EF) as [Ho Hp]; [now rewrite U|].
    rewrite E1, E2 in Ho, Hp. cbn in Ho, Hp. subst o2. rewrite U in Hp.
    specialize (IH st1' st2' R1 Kok Fr ltac:(congruence) Hp).
    destruct (receive st1' fs) as [s1 o1]. destruct (receive st2' _) as [s2 o2]. cbn [fst snd] in *.
    unfold outputs_for in *. cbn [combine filter fst]. rewrite B. cbn [map snd]. destruct IH as [-> ->]. auto.
  - assert (U : uidf k <> uidf f).
    { intros U. symmetry in U. apply uidf_same in U; auto. apply same_transferb_iff in U. congruence. }
    specialize (IH st1' st2 R1 Kok Fr ltac:(congruence) ltac:(rewrite O1 by assumption; exact EP)).
    destruct (receive st1' fs) as [s1 o1]. cbn [fst snd] in *.
    unfold outputs_for in *. cbn [combine filter fst]. rewrite B. exact IH.
Qed.

(* ------------------------------------------------------------ C09: history invariant *)
Lemma subseq_app {A} (a l : list A) x : subseq a l -> subseq a (l ++ [x]).
Proof. intros H. induction H; cbn; constructor; assumption. Qed.
Lemma subseq_snoc {A} (a l : list A) x : subseq a l -> subseq (a ++ [x]) (l ++ [x]).
Proof.
  intros H. induction H; cbn.
  - induction l; cbn; [repeat constructor|constructor; assumption].
  - constructor; assumption.
  - constructor; assumption.
Qed.
Lemma numbered_snoc k fs f :
  numbered k fs -> hdr_seq (frame_head f) = k + zlen fs -> numbered k (fs ++ [f]).
Proof.
  revert k. induction fs as [|x fs IH]; intros k H E; cbn in *.
  - change (zlen (@nil can_frame)) with 0 in E. split; [lia|exact I].
  - destruct H as [H1 H2]. split; [exact H1|]. apply IH; [exact H2|]. rewrite zlen_cons in E. lia.
Qed.
Lemma cont_payload_snoc fs f : cont_payload (fs ++ [f]) = cont_payload fs ++ tl (rm_data (cf_raw f)).
Proof. unfold cont_payload. rewrite flat_map_app. cbn. now rewrite app_nil_r. Qed.

Definition hist_inv (h : list can_frame) (st : can_state) : Prop :=
  forall u p, cs_partial st u = Some p ->
    exists h1 f0 h2 L d0 fs,
      h = h1 ++ f0 :: h2 /\ uidf f0 = u /\ fast st f0 /\ first_frame f0 L d0 /\
      (forall x, In x h2 -> same_transfer f0 x -> ~ starts_transfer x) /\
      subseq fs h2 /\ Forall (same_transfer f0) fs /\ numbered 1 fs /\
      cf_raw p = mkraw (rm_priority (cf_raw f0)) (rm_pgn (cf_raw f0)) (rm_source (cf_raw f0))
                       (rm_dest (cf_raw f0)) L (d0 ++ cont_payload fs) /\
      zlen fs = cf_seq p /\ cf_seq p < 32.

(** Extending the history by a frame that does not restart any stored transfer. *)
Lemma hist_inv_skip h st st' f :
  Forall frame_ok h -> frame_ok f -> hist_inv h st ->
  cs_fast st' = cs_fast st -> (forall u p, cs_partial st' u = Some p -> cs_partial st u = Some p) ->
  (fast st f -> starts_transfer f -> cs_partial st' (uidf f) = None) ->
  hist_inv (h ++ [f]) st'.
Proof.
  intros Fh Ff I EF Sub Hn u p Hp. pose proof (Sub _ _ Hp) as Hp0.
  destruct (I u p Hp0) as (h1 & f0 & h2 & L & d0 & fs & E & U & FA & FF & N & SS & ST & NB & M & Z1 & Z2).
  exists h1, f0, (h2 ++ [f]), L, d0, fs. subst h. rewrite <- app_assoc. cbn [app].
  split; [reflexivity|]. split; [exact U|]. split; [unfold fast in *; congruence|]. split; [exact FF|]. split.
  { intros x Hx Hs. apply in_app_iff in Hx as [Hx|[<-|[]]]; [now apply N|].
    intros Hst. assert (U2 : uidf f0 = uidf f).
    { apply uidf_same; try assumption. apply Forall_app in Fh as [_ Fh]. now inversion Fh. }
    rewrite <- U, U2, Hn in Hp; [discriminate| |assumption].
    unfold fast in *. destruct Hs as (_ & <- & _). exact FA. }
  split; [now apply subseq_app|]. auto.
Qed.

Lemma hist_step h st f st' o :
  registry_ok st -> Forall frame_ok h -> frame_ok f -> hist_inv h st -> frame_step st f = (st', o) ->
  hist_inv (h ++ [f]) st' /\
  (forall m, o = Ret m ->
     (~ fast st f /\ m = f) \/
     (fast st f /\ ~ starts_transfer f /\ cf_raw m = cf_raw f) \/
     (fast st f /\ rm_length (cf_raw m) <= zlen (rm_data (cf_raw m)) /\
      exists fs, built_from (h ++ [f]) (cf_raw m) fs /\
                 (fs = [] /\ starts_transfer f \/ exists fs', fs = fs' ++ [f]))).
Proof.
  intros R Fh Ff I E.
  destruct (fast_dec st f) as [Hf|Hf].
  2:{ rewrite step_single in E by assumption. injection E as <- <-. split.
      - apply (hist_inv_skip h st); auto. intros Hf'; contradiction.
      - intros m [= <-]. auto. }
  destruct (rm_data (cf_raw f)) as [|hb r] eqn:D.
  { rewrite step_empty in E by assumption. injection E as <- <-. split.
    - apply (hist_inv_skip h st); auto. intros _ (hb & r & D' & _). congruence.
    - discriminate. }
  destruct (Z.eq_dec (hdr_seq hb) 0) as [S|S].
  - assert (Hst : starts_transfer f) by (exists hb, r; auto).
    destruct r as [|L d].
    + rewrite (step_first_short st f R hb) in E by assumption. injection E as <- <-. split; [|discriminate].
      apply (hist_inv_skip h st); auto; cbn.
      * intros u p. unfold zdel. destruct (u =? uidf f); [discriminate|auto].
      * intros _ _. apply zdel_same.
    + rewrite (step_first st f R hb L d) in E by assumption.
      assert (FF : first_frame f L d) by (exists hb; auto).
      destruct (Z.leb_spec L (zlen d)) as [HL|HL]; injection E as <- <-.
      * split.
        { apply (hist_inv_skip h st); auto; cbn.
          - intros u p. unfold zdel. destruct (u =? uidf f); [discriminate|auto].
          - intros _ _. apply zdel_same. }
        intros m [= <-]. right; right. split; [assumption|]. split; [exact HL|].
        exists []. split; [|auto]. exists h, f, [], L, d. split; [reflexivity|]. split; [exact FF|].
        split; [intros x []|]. split; [constructor|]. split; [constructor|]. split; [exact Logic.I|].
        unfold first_msg. cbn. now rewrite app_nil_r.
      * split; [|discriminate]. intros u p Hp. cbn in Hp.
        destruct (Z.eq_dec u (uidf f)) as [->|Hu].
        -- rewrite zput_same in Hp. injection Hp as <-.
           exists h, f, [], L, d, []. split; [reflexivity|]. split; [reflexivity|]. split; [exact Hf|]. split; [exact FF|].
           split; [intros x []|]. split; [constructor|]. split; [constructor|]. split; [exact Logic.I|].
           split; [unfold first_msg; cbn; now rewrite app_nil_r|]. split; [reflexivity|cbn; lia].
        -- rewrite zput_other, zdel_other in Hp by assumption.
           assert (I' : hist_inv (h ++ [f]) (mkcs (cs_fast st) (zdel (cs_partial st) (uidf f)) (cs_group st))).
           { apply (hist_inv_skip h st); auto; cbn.
             - intros u' p'. unfold zdel. destruct (u' =? uidf f); [discriminate|auto].
             - intros _ _. apply zdel_same. }
           apply (I' u p). cbn. now rewrite zdel_other.
  - assert (Hst : ~ starts_transfer f) by (intros (hb' & r' & D' & S'); congruence).
    rewrite (step_cont st f R hb r) in E by assumption.
    assert (Skip : hist_inv (h ++ [f]) st) by (apply (hist_inv_skip h st); auto; intros _ ?; contradiction).
    assert (Del : hist_inv (h ++ [f]) (mkcs (cs_fast st) (zdel (cs_partial st) (uidf f)) (cs_group st))).
    { apply (hist_inv_skip h st); auto; cbn.
      - intros u' p'. unfold zdel. destruct (u' =? uidf f); [discriminate|auto].
      - intros _ ?; contradiction. }
    destruct (cs_partial st (uidf f)) as [p|] eqn:Hp.
    2:{ injection E as <- <-. split; [exact Skip|]. intros m [= <-]. right; left. auto. }
    destruct (Z.eqb_spec (u8 (cf_seq p + 1)) (hdr_seq hb)) as [Hseq|Hseq].
    2:{ injection E as <- <-. split; [exact Skip|]. intros m [= <-]. right; left. auto. }
    cbv zeta in E.
    destruct (I _ p Hp) as (h1 & f0 & h2 & L & d0 & fs & Eh & U & FA & FF & N & SS & ST & NB & M & Z1 & Z2).
    pose proof (zlen_nonneg fs) as Zfs.
    rewrite u8_id in Hseq by (unfold is_byte; lia).
    assert (Hh : frame_head f = hb) by (unfold frame_head; rewrite D; reflexivity).
    assert (Sf : same_transfer f0 f).
    { apply uidf_same; auto. rewrite Eh in Fh. apply Forall_app in Fh as [_ Fh]. now inversion Fh. }
    set (p' := set_seqgrp (set_data p (rm_data (cf_raw p) ++ r)) (hdr_seq hb) (cf_grp p)) in *.
    assert (W : h ++ [f] = h1 ++ f0 :: (h2 ++ [f]) /\
                (forall x, In x (h2 ++ [f]) -> same_transfer f0 x -> ~ starts_transfer x) /\
                subseq (fs ++ [f]) (h2 ++ [f]) /\ Forall (same_transfer f0) (fs ++ [f]) /\ numbered 1 (fs ++ [f]) /\
                cf_raw p' = mkraw (rm_priority (cf_raw f0)) (rm_pgn (cf_raw f0)) (rm_source (cf_raw f0))
                       (rm_dest (cf_raw f0)) L (d0 ++ cont_payload (fs ++ [f])) /\
                zlen (fs ++ [f]) = cf_seq p' /\ cf_seq p' < 32).
    { split; [rewrite Eh, <- app_assoc; reflexivity|]. split.
      { intros x Hx Hs. apply in_app_iff in Hx as [Hx|[<-|[]]]; [now apply N|exact Hst]. }
      split; [now apply subseq_snoc|]. split; [apply Forall_app; auto|].
      split; [apply numbered_snoc; [exact NB|rewrite Hh; lia]|].
      split; [|split].
      - unfold p'. cbn. rewrite M. cbn. rewrite cont_payload_snoc, D. cbn [tl]. now rewrite <- app_assoc.
      - rewrite zlen_app. change (zlen [f]) with 1. unfold p'; cbn. lia.
      - unfold p'; cbn. unfold hdr_seq. pose proof (Z.mod_pos_bound hb 32). lia. }
    destruct W as (W1 & W2 & W3 & W4 & W5 & W6 & W7 & W8).
    destruct (Z.leb_spec (rm_length (cf_raw p)) (zlen (rm_data (cf_raw p) ++ r))) as [HL|HL]; injection E as <- <-.
    + split; [exact Del|]. intros m [= <-]. right; right. split; [exact Hf|].
      split; [unfold p'; cbn; exact HL|].
      exists (fs ++ [f]). split; [|eauto]. exists h1, f0, (h2 ++ [f]), L, d0.
      repeat (split; [assumption|]). exact W6.
    + split; [|discriminate]. intros u q Hq. cbn in Hq.
      destruct (Z.eq_dec u (uidf f)) as [->|Hu].
      * rewrite zput_same in Hq. injection Hq as <-.
        exists h1, f0, (h2 ++ [f]), L, d0, (fs ++ [f]). repeat (split; [assumption|]). exact W8.
      * rewrite zput_other in Hq by assumption. apply (Del u q). cbn. now rewrite zdel_other.
Qed.

Lemma hist_run : forall h st, registry_ok st -> cs_partial st = zempty -> Forall frame_ok h ->
  hist_inv h (fst (receive st h)) /\ registry_ok (fst (receive st h)) /\ cs_fast (fst (receive st h)) = cs_fast st.
Proof.
  induction h as [|f h IH] using rev_ind; intros st R Z0 Fh.
  - cbn. split; [|auto]. intros u p Hp. rewrite Z0 in Hp. discriminate.
  - apply Forall_app in Fh as [Fh Ff]. inversion Ff as [|? ? Hf _]; subst.
    destruct (IH st R Z0 Fh) as (Hi & R1 & F1). rewrite receive_app.
    destruct (receive st h) as [st1 o1] eqn:E1. cbn [receive fst] in *.
    destruct (frame_step st1 f) as [st2 o2] eqn:E2. cbn [fst].
    destruct (hist_step h st1 f st2 o2 R1 Fh Hf Hi E2) as [Hi2 _].
    split; [exact Hi2|]. split; [eapply step_registry; eassumption|].
    destruct (step_frame _ _ _ _ R1 E2) as (-> & _). exact F1.
Qed.

(* ------------------------------------------------------------ C10: gaps *)
Lemma gap_run k s p : forall fs st,
  registry_ok st -> frame_ok k -> Forall frame_ok fs -> fast st k -> cs_partial st (uidf k) = Some p ->
  cf_seq p = s -> 0 <= s < 32 ->
  (forall x, In x fs -> same_transfer x k -> exists h r, rm_data (cf_raw x) = h :: r /\ hdr_seq h <> 0 /\ hdr_seq h <> s + 1) ->
  cs_partial (fst (receive st fs)) (uidf k) = Some p /\
  outputs_for k fs (snd (receive st fs)) =
    map (fun f => Ret (raw_msg f (frame_head f))) (filter (fun f => same_transferb f k) fs).
Proof.
  induction fs as [|f fs IH]; intros st R K F Fk Hp Hs Hs32 Hno; [cbn; auto|].
  inversion F as [|? ? Ff Fr]; subst. cbn [receive filter].
  destruct (frame_step st f) as [st1 o] eqn:E1.
  pose proof (step_frame _ _ _ _ R E1) as (F1 & _ & O1). pose proof (step_registry _ _ _ _ R E1) as R1.
  assert (Fk1 : fast st1 k) by (unfold fast in *; congruence).
  assert (Hno' : forall x, In x fs -> same_transfer x k ->
     exists h r, rm_data (cf_raw x) = h :: r /\ hdr_seq h <> 0 /\ hdr_seq h <> cf_seq p + 1).
  { intros x Hx. apply Hno. now right. }
  destruct (same_transferb f k) eqn:B.
  - apply same_transferb_iff in B as Bs. assert (U : uidf f = uidf k) by (apply uidf_same; auto).
    destruct (Hno f (or_introl eq_refl) Bs) as (h & r & D & N0 & N1).
    assert (Ffs : fast st f) by (unfold fast in *; destruct Bs as (_ & -> & _); exact Fk).
    rewrite (step_cont st f R h r Ffs D N0), U, Hp in E1.
    rewrite u8_id in E1 by (unfold is_byte; lia).
    destruct (Z.eqb_spec (cf_seq p + 1) (hdr_seq h)) as [Eq|_]; [congruence|].
    injection E1 as <- <-.
    destruct (IH st R K Fr Fk Hp eq_refl Hs32 Hno') as [IH1 IH2].
    destruct (receive st fs) as [s2 o2]. cbn [fst snd] in *. split; [exact IH1|].
    unfold outputs_for in *. cbn [combine filter fst]. rewrite B. cbn [map snd]. rewrite IH2.
    f_equal. f_equal. unfold frame_head. now rewrite D.
  - assert (U : uidf k <> uidf f).
    { intros U. symmetry in U. apply uidf_same in U; auto. apply same_transferb_iff in U. congruence. }
    rewrite <- O1 in Hp by assumption.
    destruct (IH st1 R1 K Fr Fk1 Hp eq_refl Hs32 Hno') as [IH1 IH2].
    destruct (receive st1 fs) as [s2 o2]. cbn [fst snd] in *. split; [exact IH1|].
    unfold outputs_for in *. cbn [combine filter fst]. rewrite B. exact IH2.
Qed.

(* ------------------------------------------------------------ C11: crash set *)
Lemma step_panic st f : registry_ok st ->
  ((exists w, snd (frame_step st f) = Panic w) <->
   fast st f /\ (rm_data (cf_raw f) = [] \/ exists h, rm_data (cf_raw f) = [h] /\ hdr_seq h = 0)).
Proof.
  intros R. split.
  - intros [w H]. destruct (fast_dec st f) as [Hf|Hf].
    2:{ rewrite step_single in H by assumption. discriminate. }
    split; [exact Hf|].
    destruct (rm_data (cf_raw f)) as [|h r] eqn:D; [auto|].
    destruct (Z.eq_dec (hdr_seq h) 0) as [S|S].
    + destruct r as [|L d]; [right; eauto|]. exfalso.
      rewrite (step_first st f R h L d) in H by assumption. destruct (L <=? zlen d); discriminate.
    + exfalso. rewrite (step_cont st f R h r) in H by assumption.
      destruct (cs_partial st (uidf f)); [|discriminate]. destruct (_ =? _); [|discriminate]. cbv zeta in H.
      destruct (_ <=? _); discriminate.
  - intros [Hf [E|(h & E & S)]].
    + rewrite step_empty by assumption. cbn; eauto.
    + rewrite (step_first_short st f R h) by assumption. cbn; eauto.
Qed.
