(** WireFast: the reassembly of fast packets gives after every history of frames exactly what
    WireSpec.gives says. *)
From Verif Require Import GoBase BufFacts CanModel CanusbModel CanusbSpec CanusbRegistry CanusbParse CanusbFast NmeaTypes DeathSpec WireSpec DeathProps.
Open Scope Z_scope.
Open Scope list_scope.

Lemma snoc_cases {A} (l : list A) : l = [] \/ exists l' x, l = l' ++ [x].
Proof. destruct l as [|x l _] using rev_ind; [now left|right; eauto]. Qed.

Lemma collected_nil k fs : collected k [] fs -> fs = [].
Proof. intros H. inversion H as [|? ? ? ? ? ? E|? ? ? ? ? E]; subst; [reflexivity|destruct l; discriminate E|destruct l; discriminate E]. Qed.
Lemma collected_snoc k l x fs : collected k (l ++ [x]) fs ->
  (exists fs0, fs = fs0 ++ [x] /\ collected k l fs0 /\ same_transfer k x /\ hdr_seq (frame_head x) = zlen fs0 + 1) \/
  (collected k l fs /\ ~ (same_transfer k x /\ hdr_seq (frame_head x) = zlen fs + 1)).
Proof.
  intros H. inversion H as [E|l0 fs0 x0 C S N E|l0 fs0 x0 C N E]; subst.
  - destruct l; discriminate.
  - apply app_inj_tail in E as [-> ->]. left. eauto.
  - apply app_inj_tail in E as [-> ->]. right. auto.
Qed.
Lemma collected_fun k l : forall fs fs', collected k l fs -> collected k l fs' -> fs = fs'.
Proof.
  induction l as [|x l IH] using rev_ind; intros fs fs' A B; [apply collected_nil in A, B; congruence|].
  apply collected_snoc in A as [(a & -> & A & SA & NA)|[A NA]]; apply collected_snoc in B as [(b & -> & B & SB & NB)|[B NB]].
  - now rewrite (IH _ _ A B).
  - rewrite (IH _ _ A B) in *. elim NB. auto.
  - rewrite (IH _ _ A B) in *. elim NA. auto.
  - auto.
Qed.
Lemma collected_same k k' l fs : same_transfer k k' -> collected k l fs -> collected k' l fs.
Proof.
  intros S H. induction H as [|l fs x C IH SX N|l fs x C IH N]; [constructor|apply co_take; auto|apply co_skip; auto].
  - exact (same_transfer_trans _ _ _ (same_transfer_sym _ _ S) SX).
  - intros [X Y]. apply N. split; [exact (same_transfer_trans _ _ _ S X)|exact Y].
Qed.

Lemma first_starts f L d : first_frame f L d -> starts_transfer f.
Proof. intros (h & D & S). exists h, (L :: d). auto. Qed.
Lemma first_fun f L d L' d' : first_frame f L d -> first_frame f L' d' -> L = L' /\ d = d'.
Proof. intros (h & D & _) (h' & D' & _). rewrite D in D'. injection D' as _ -> ->. auto. Qed.
Lemma starts_seq f : starts_transfer f -> hdr_seq (frame_head f) = 0.
Proof. intros (h & r & D & S). unfold frame_head. now rewrite D. Qed.

Lemma in_progress_fun h k f0 L d0 fs f0' L' d0' fs' : in_progress h k f0 L d0 fs -> in_progress h k f0' L' d0' fs' ->
  f0 = f0' /\ L = L' /\ d0 = d0' /\ fs = fs'.
Proof.
  intros (h1 & h2 & E & S & F & N & C & _) (h1' & h2' & E' & S' & F' & N' & C' & _). rewrite E in E'. apply app_eq_app in E' as (l & [[Q1 Q2]|[Q1 Q2]]).
  - destruct l as [|x l]; cbn [app] in Q2.
    + injection Q2 as <- <-. destruct (first_fun _ _ _ _ _ F F') as [-> ->]. rewrite (collected_fun _ _ _ _ C C'). auto.
    + injection Q2 as <- ->. exfalso. apply (N' f0); [apply in_or_app; right; now left|exact S|eapply first_starts; eassumption].
  - destruct l as [|x l]; cbn [app] in Q2.
    + injection Q2 as <- <-. destruct (first_fun _ _ _ _ _ F F') as [-> ->]. rewrite (collected_fun _ _ _ _ C C'). auto.
    + injection Q2 as <- ->. exfalso. apply (N f0'); [apply in_or_app; right; now left|exact S'|eapply first_starts; eassumption].
Qed.
Lemma in_progress_same h k k' f0 L d0 fs : same_transfer k k' -> in_progress h k f0 L d0 fs -> in_progress h k' f0 L d0 fs.
Proof.
  intros S (h1 & h2 & E & SF & F & N & C & Z). exists h1, h2. split; [exact E|].
  split; [exact (same_transfer_trans _ _ _ (same_transfer_sym _ _ S) SF)|]. split; [exact F|]. split; [|split; [eapply collected_same; eassumption|exact Z]].
  intros x I X. apply N; [exact I|exact (same_transfer_trans _ _ _ S X)].
Qed.

(** One more frame. *)
Lemma in_progress_snoc h f k f0 L d0 fs : in_progress (h ++ [f]) k f0 L d0 fs ->
  (f0 = f /\ fs = [] /\ same_transfer k f /\ first_frame f L d0 /\ zlen d0 < L) \/
  (~ (same_transfer k f /\ starts_transfer f) /\
   ((exists fs0, fs = fs0 ++ [f] /\ in_progress h k f0 L d0 fs0 /\ same_transfer k f /\ hdr_seq (frame_head f) = zlen fs0 + 1 /\
       zlen (d0 ++ cont_payload fs) < L) \/
    (in_progress h k f0 L d0 fs /\ ~ (same_transfer k f /\ hdr_seq (frame_head f) = zlen fs + 1)))).
Proof.
  intros (h1 & h2 & E & S & F & N & C & Z). destruct (snoc_cases h2) as [->|(h2' & x & ->)].
  - apply app_inj_tail in E as [-> <-]. apply collected_nil in C as ->. left. rewrite app_nil_r in Z. auto.
  - rewrite app_comm_cons, app_assoc in E. apply app_inj_tail in E as [-> <-]. right. split.
    { intros [X Y]. apply (N f); [apply in_or_app; right; now left|exact X|exact Y]. }
    assert (forall x, In x h2' -> same_transfer k x -> ~ starts_transfer x) as N2 by (intros x X; apply N, in_or_app; now left).
    apply collected_snoc in C as [(fs0 & -> & C & SX & NX)|[C NX]].
    + left. exists fs0. split; [reflexivity|]. split; [|auto]. exists h1, h2'. repeat (split; [auto|]).
      rewrite cont_payload_snoc, !zlen_app in Z. rewrite zlen_app. pose proof (zlen_nonneg (tl (rm_data (cf_raw f)))). lia.
    + right. split; [|exact NX]. exists h1, h2'. auto 10.
Qed.
Lemma in_progress_first h f k L d0 : same_transfer k f -> first_frame f L d0 -> zlen d0 < L -> in_progress (h ++ [f]) k f L d0 [].
Proof. intros S F Z. exists h, []. split; [reflexivity|]. split; [exact S|]. split; [exact F|]. split; [intros x []|]. split; [constructor|]. cbn. now rewrite app_nil_r. Qed.
Lemma in_progress_take h f k f0 L d0 fs : in_progress h k f0 L d0 fs -> same_transfer k f -> hdr_seq (frame_head f) = zlen fs + 1 ->
  zlen (d0 ++ cont_payload (fs ++ [f])) < L -> in_progress (h ++ [f]) k f0 L d0 (fs ++ [f]).
Proof.
  intros (h1 & h2 & -> & S & F & N & C & Z) SF NF Z2. exists h1, (h2 ++ [f]). split; [now rewrite <- app_assoc|]. split; [exact S|]. split; [exact F|].
  split; [|split; [now apply co_take|exact Z2]]. intros x I X. apply in_app_or in I as [I|[<-|[]]]; [now apply N|]. intros Y. apply starts_seq in Y.
  pose proof (zlen_nonneg fs). lia.
Qed.
Lemma in_progress_skip h f k f0 L d0 fs : in_progress h k f0 L d0 fs -> ~ (same_transfer k f /\ starts_transfer f) ->
  ~ (same_transfer k f /\ hdr_seq (frame_head f) = zlen fs + 1) -> in_progress (h ++ [f]) k f0 L d0 fs.
Proof.
  intros (h1 & h2 & -> & S & F & N & C & Z) NS NX. exists h1, (h2 ++ [f]). split; [now rewrite <- app_assoc|]. split; [exact S|]. split; [exact F|].
  split; [|split; [now apply co_skip|exact Z]]. intros x I X Y. apply in_app_or in I as [I|[<-|[]]]; [now apply (N x)|]. apply NS. auto.
Qed.

(** The entries of the reassembly buffer are the transfers in progress. *)
Definition exact_inv (tbl : list pgn_def) (h : list can_frame) (st : can_state) : Prop :=
  Forall frame_ok h /\ forall k, frame_ok k -> fast_pgn tbl (rm_pgn (cf_raw k)) ->
    match cs_partial st (uidf k) with
    | Some p => exists f0 L d0 fs, in_progress h k f0 L d0 fs /\ cf_raw p = whole f0 L (d0 ++ cont_payload fs) /\ cf_seq p = zlen fs /\ zlen fs < 32
    | None => forall f0 L d0 fs, ~ in_progress h k f0 L d0 fs
    end.

Lemma exact_init tbl : exact_inv tbl [] can_init.
Proof. split; [constructor|]. intros k _ _. cbn. intros f0 L d0 fs (h1 & h2 & E & _). destruct h1; discriminate E. Qed.

Lemma exact_step tbl h st f st' o : registry_ok st -> (forall p, In p (cs_fast st) <-> fast_pgn tbl p) -> exact_inv tbl h st -> frame_ok f ->
  frame_step st f = (st', o) -> (forall w, o <> Panic w) ->
  exact_inv tbl (h ++ [f]) st' /\ gives tbl h f (match o with Ret m => Some (cf_raw m) | _ => None end).
Proof.
  intros R FT [FH I] FO ES NP. unfold exact_inv.
  assert (Forall frame_ok (h ++ [f])) as FH' by (apply Forall_app; split; [exact FH|now constructor]).
  assert (forall k, frame_ok k -> fast_pgn tbl (rm_pgn (cf_raw k)) -> ~ same_transfer k f -> match cs_partial st (uidf k) with
    | Some p => exists f0 L d0 fs, in_progress (h ++ [f]) k f0 L d0 fs /\ cf_raw p = whole f0 L (d0 ++ cont_payload fs) /\ cf_seq p = zlen fs /\ zlen fs < 32
    | None => forall f0 L d0 fs, ~ in_progress (h ++ [f]) k f0 L d0 fs
    end) as OTHER.
  { intros k KO KF NS. specialize (I k KO KF). destruct (cs_partial st (uidf k)) as [p|].
    - destruct I as (f0 & L & d0 & fs & P & Q). exists f0, L, d0, fs. split; [|exact Q]. apply in_progress_skip; tauto.
    - intros f0 L d0 fs P. apply in_progress_snoc in P as [(_ & _ & S & _)|[_ [(fs0 & _ & _ & S & _)|[P _]]]]; [auto|auto|]. exact (I _ _ _ _ P). }
  assert (forall k, frame_ok k -> uidf k = uidf f \/ ~ same_transfer k f) as DEC.
  { intros k KO. destruct (Z.eq_dec (uidf k) (uidf f)); [now left|right]. intros S. apply uidf_same in S; auto. }
  destruct (fast_dec st f) as [FA|FA].
  2:{ rewrite step_single in ES by assumption. injection ES as <- <-. split; [|apply gv_single; unfold fast in FA; now rewrite <- FT].
      split; [exact FH'|]. intros k KO KF. apply OTHER; auto. intros (_ & S & _). apply FA. unfold fast. rewrite <- S. now apply FT. }
  assert (fast_pgn tbl (rm_pgn (cf_raw f))) as FF by now apply FT.
  destruct (rm_data (cf_raw f)) as [|hb r] eqn:D.
  { rewrite step_empty in ES by assumption. injection ES as <- <-. now destruct (NP "index out of range"%string). }
  assert (forall L d, first_frame f L d -> hdr_seq hb = 0) as FST by (intros L d (x & X & Y); congruence).
  assert (hdr_seq (frame_head f) = hdr_seq hb) as HH by (unfold frame_head; now rewrite D).
  destruct (Z.eq_dec (hdr_seq hb) 0) as [S0|S0].
  - assert (starts_transfer f) as SF by (exists hb, r; auto).
    destruct r as [|L d]; [rewrite (step_first_short st f R hb) in ES by assumption; injection ES as <- <-; now destruct (NP "index out of range"%string)|].
    assert (first_frame f L d) as F1 by (exists hb; auto).
    pose proof (gv_first tbl h f L d FF F1) as GV.
    rewrite (step_first st f R hb L d) in ES by assumption. destruct (Z.leb_spec L (zlen d)) as [LE|GT]; injection ES as <- <-; (split; [split; [exact FH'|]|exact GV]).
    + intros k KO KF. cbn [cs_partial]. destruct (DEC k KO) as [U|NS].
      * rewrite U, zdel_same. apply uidf_same in U as U2; auto. intros f0 L1 d1 fs P.
        apply in_progress_snoc in P as [(-> & _ & _ & F2 & Z)|[X _]]; [|tauto]. destruct (first_fun _ _ _ _ _ F1 F2) as [-> ->]. lia.
      * rewrite zdel_other by (intros X; apply NS, uidf_same; auto). now apply OTHER.
    + intros k KO KF. cbn [cs_partial]. destruct (DEC k KO) as [U|NS].
      * rewrite U, zput_same. apply uidf_same in U as U2; auto. exists f, L, d, []. split; [now apply in_progress_first|]. cbn. rewrite app_nil_r. repeat split; reflexivity.
      * assert (uidf k <> uidf f) by (intros X; apply NS, uidf_same; auto). rewrite zput_other, zdel_other by auto. now apply OTHER.
  - assert (~ starts_transfer f) as NSF by (intros X; apply starts_seq in X; congruence).
    rewrite (step_cont st f R hb r) in ES by assumption. pose proof (I f FO FF) as IF. destruct (cs_partial st (uidf f)) as [p|] eqn:CP.
    + destruct IF as (f0 & L & d0 & fs & P & RAW & SEQ & LT). pose proof (zlen_nonneg fs).
      rewrite SEQ in ES. replace (u8 (zlen fs + 1)) with (zlen fs + 1) in ES by (unfold u8; rewrite Z.mod_small; lia).
      destruct (Z.eqb_spec (zlen fs + 1) (hdr_seq hb)) as [EQ|NE].
      * assert (rm_data (cf_raw p) ++ r = d0 ++ cont_payload (fs ++ [f])) as DD.
        { rewrite RAW, cont_payload_snoc, D. cbn [whole rm_data tl]. now rewrite app_assoc. }
        assert (hdr_seq (frame_head f) = zlen fs + 1) as EQ2 by congruence.
        pose proof (gv_next tbl h f f0 L d0 fs FF NSF P EQ2) as GV. cbv zeta in ES. rewrite DD in ES.
        assert (rm_length (cf_raw p) = L) as RL by now rewrite RAW. rewrite RL in ES.
        destruct (Z.leb_spec L (zlen (d0 ++ cont_payload (fs ++ [f])))) as [LE|GT]; injection ES as <- <-.
        -- split; [split; [exact FH'|]|].
           ++ intros k KO KF. cbn [cs_partial]. destruct (DEC k KO) as [U|NS].
              ** rewrite U, zdel_same. apply uidf_same in U as U2; auto. intros f1 L1 d1 fs1 P1.
                 apply in_progress_snoc in P1 as [(-> & _ & _ & F2 & Z)|[_ [(fs0 & -> & P1 & _ & _ & Z)|[P1 NX]]]]; [apply first_starts in F2; contradiction| |].
                 --- apply (in_progress_same _ _ f) in P1; [|exact U2]. destruct (in_progress_fun _ _ _ _ _ _ _ _ _ _ P P1) as (-> & -> & -> & ->). lia.
                 --- apply (in_progress_same _ _ f) in P1; [|exact U2]. destruct (in_progress_fun _ _ _ _ _ _ _ _ _ _ P P1) as (-> & -> & -> & ->). tauto.
              ** rewrite zdel_other by (intros X; apply NS, uidf_same; auto). now apply OTHER.
           ++ cbn [set_seqgrp set_data cf_raw]. rewrite RAW. cbn [whole rm_priority rm_pgn rm_source rm_dest rm_length]. exact GV.
        -- split; [split; [exact FH'|]|exact GV]. intros k KO KF. cbn [cs_partial]. destruct (DEC k KO) as [U|NS].
           ++ rewrite U, zput_same. apply uidf_same in U as U2; auto. exists f0, L, d0, (fs ++ [f]). split.
              { apply in_progress_take; auto. eapply in_progress_same; [apply same_transfer_sym; exact U2|exact P]. }
              cbn [set_seqgrp set_data cf_raw cf_seq]. rewrite RAW. split; [reflexivity|]. rewrite zlen_app. change (zlen [f]) with 1.
              assert (hdr_seq hb < 32) by (unfold hdr_seq; apply Z.mod_pos_bound; lia). lia.
           ++ rewrite zput_other by (intros X; apply NS, uidf_same; auto). now apply OTHER.
      * injection ES as <- <-. split; [split; [exact FH'|]|].
        -- intros k KO KF. destruct (DEC k KO) as [U|NS]; [|now apply OTHER]. rewrite U, CP. apply uidf_same in U as U2; auto.
           exists f0, L, d0, fs. split; [|auto]. apply in_progress_skip; [eapply in_progress_same; [apply same_transfer_sym; exact U2|exact P]|tauto|].
           intros [_ X]. congruence.
        -- cbn [raw_msg set_seqgrp cf_raw]. apply (gv_stray _ _ _ hb r FF D NSF). intros f1 L1 d1 fs1 P1 X.
           destruct (in_progress_fun _ _ _ _ _ _ _ _ _ _ P P1) as (_ & _ & _ & <-). congruence.
    + injection ES as <- <-. split; [split; [exact FH'|]|].
      * intros k KO KF. destruct (DEC k KO) as [U|NS]; [|now apply OTHER]. rewrite U, CP. apply uidf_same in U as U2; auto.
        intros f1 L1 d1 fs1 P1. apply in_progress_snoc in P1 as [(-> & _ & _ & F2 & _)|[_ [(fs0 & -> & P1 & _)|[P1 _]]]];
          [apply first_starts in F2; contradiction| |]; apply (in_progress_same _ _ f) in P1; auto; exact (IF _ _ _ _ P1).
      * cbn [raw_msg set_seqgrp cf_raw]. apply (gv_stray _ _ _ hb r FF D NSF). intros f1 L1 d1 fs1 P1. now apply IF in P1.
Qed.

(** What a frame gives is determined by the frames before, and every frame that does not end the
    program gives something or nothing. *)
Lemma gives_fun tbl h f o o' : gives tbl h f o -> gives tbl h f o' -> o = o'.
Proof.
  intros A B. destruct A as [N|L d F FF|f0 L d fs F NS P S|hb r F D NS P]; inversion B as [N'|L' d' F' FF'|f0' L' d' fs' F' NS' P' S'|hb' r' F' D' NS' P'];
    subst; try contradiction; try reflexivity; try (match goal with H : first_frame f _ _, N : ~ starts_transfer f |- _ => apply first_starts in H; contradiction end).
  - now destruct (first_fun _ _ _ _ _ FF FF') as [-> ->].
  - now destruct (in_progress_fun _ _ _ _ _ _ _ _ _ _ P P') as (-> & -> & -> & ->).
  - now elim (P' _ _ _ _ P).
  - now elim (P _ _ _ _ P').
Qed.
