(** WireProps: where the handled messages come from (C105), and the exact account of what ends the
    program (C85). *)
From Coq Require Import Permutation.
From Verif Require Import GoBase BufFacts CanModel CanusbModel CanusbSpec CanusbRegistry CanusbParse CanusbFast CanusbRead CanusbProps
  ActisenseModel ActisenseSpec ActisenseProofs ActisenseProps NmeaTypes PgnTable NmeaModel NmeaProps1 NmeaParse NmeaProps2 NmeaProps3 CrashSpec NmeaProps4
  SignalkModel MapTable SignalkProps MainModel MainProps HubModel HubProps PipelineModel PipelineSpec PipelineProofs PipelineProps PipelineBoot PipelineExamples LogProps DeathSpec DeathProps WireSpec WireFast WireAct.
Open Scope Z_scope.
Open Scope list_scope.

(* ------------------------------------------------------------ lines that are open *)

Definition open_line (done : list rd_event) (c : byte) (body : bytes) : Prop :=
  exists pre seg n, done = pre ++ seg /\ ~ In RErr seg /\ noticed 0 seg = c :: repeat c n ++ body /\ starts c /\ Forall not_start body.

Lemma noticed_app a : forall x b, exists y, noticed x (a ++ b) = noticed x a ++ noticed y b.
Proof.
  induction a as [|e a IH]; intros x b; [exists x; reflexivity|].
  destruct e as [z| |]; cbn [app noticed]; [destruct (IH z b) as [y E]|destruct (IH x b) as [y E]|destruct (IH x b) as [y E]];
    exists y; rewrite E; reflexivity.
Qed.
Lemma not_start_0 : not_start 0.
Proof. intros [[] H]; discriminate H. Qed.
Lemma not_start_13 : not_start 13.
Proof. intros [[] H]; discriminate H. Qed.
Lemma noticed_started seg c r : ~ In RErr seg -> noticed 0 seg = c :: r -> starts c -> forall x, noticed x seg = noticed 0 seg.
Proof.
  intros NE H S x. destruct seg as [|e seg]; [reflexivity|]. destruct e as [z| |]; [reflexivity| |].
  - cbn [noticed] in H. injection H as H _. subst c. now apply not_start_0 in S.
  - elim NE. now left.
Qed.
Lemma last_start (X Y B1 B2 : bytes) a b : X ++ a :: B1 = Y ++ b :: B2 -> starts a -> starts b -> Forall not_start B1 -> Forall not_start B2 ->
  a = b /\ B1 = B2.
Proof.
  intros E Sa Sb F1 F2. apply app_eq_app in E as (l & [[-> E]|[-> E]]).
  - destruct l as [|z l]; cbn [app] in E; [injection E; auto|]. injection E as -> E. exfalso. rewrite E in F2. apply Forall_app in F2 as [_ F2].
    inversion F2; subst. auto.
  - destruct l as [|z l]; cbn [app] in E; [injection E; auto|]. injection E as -> E. exfalso. rewrite E in F1. apply Forall_app in F1 as [_ F1].
    inversion F1; subst. auto.
Qed.
Lemma start_block c n (body : bytes) : c :: repeat c n ++ body = repeat c n ++ c :: body.
Proof. rewrite app_comm_cons, <- repeat_snoc, <- app_assoc. reflexivity. Qed.
Lemma open_unique done c body c' body' : open_line done c body -> open_line done c' body' -> c = c' /\ body = body'.
Proof.
  assert (forall a seg n1 n2 c body c' body', ~ In RErr seg -> noticed 0 seg = c :: repeat c n1 ++ body -> noticed 0 (a ++ seg) = c' :: repeat c' n2 ++ body' ->
    starts c -> starts c' -> Forall not_start body -> Forall not_start body' -> c = c' /\ body = body') as K.
  { clear. intros a seg n1 n2 c body c' body' NE H1 H2 S1 S2 F1 F2. destruct (noticed_app a 0 seg) as [y E].
    rewrite E, (noticed_started _ _ _ NE H1 S1 y), H1, !start_block, app_assoc in H2. eapply last_start; eauto. }
  intros (p1 & s1 & n1 & E1 & NE1 & N1 & S1 & F1) (p2 & s2 & n2 & E2 & NE2 & N2 & S2 & F2).
  rewrite E1 in E2. apply app_eq_app in E2 as (l & [[-> ->]|[-> ->]]).
  - exact (K l s1 n1 n2 c body c' body' NE1 N1 N2 S1 S2 F1 F2).
  - destruct (K l s2 n2 n1 c' body' c body NE2 N2 N1 S2 S1 F2 F1). auto.
Qed.

(** One more event. *)
Definition next_byte (c : byte) (b0 : bytes) (ev : rd_event) : byte := match ev with RByte x => x | _ => List.last (c :: b0) 0 end.
Lemma open_step done ev c body : open_line (done ++ [ev]) c body ->
  starts c /\ ev <> RErr /\ ((ev = RByte c /\ body = []) \/
  exists b0, open_line done c b0 /\ ((b0 = [] /\ body = [] /\ next_byte c b0 ev = c) \/ body = b0 ++ [next_byte c b0 ev])).
Proof.
  intros (pre & seg & n & E & NE & NO & S & F). destruct seg as [|e seg _] using rev_ind; [discriminate NO|].
  rewrite app_assoc in E. apply app_inj_tail in E as [-> ->].
  assert (e <> RErr) as NR by (intros ->; apply NE; apply in_or_app; right; now left).
  assert (~ In RErr seg) as NE2 by (intros X; apply NE, in_or_app; now left).
  split; [exact S|]. split; [exact NR|]. rewrite noticed_snoc in NO.
  destruct body as [|z b0 _] using rev_ind.
  - rewrite app_nil_r, <- repeat_snoc in NO. apply app_inj_tail in NO as [NO Z]. destruct n as [|n]; cbn [repeat] in NO.
    + left. destruct seg as [|x seg]; [|destruct x; discriminate NO]. destruct e; [cbn in Z; subst; auto| |congruence].
      cbn in Z. subst c. now apply not_start_0 in S.
    + right. exists []. split; [exists pre, seg, n; rewrite app_nil_r; auto|]. left. split; [reflexivity|]. split; [reflexivity|].
      unfold next_byte, seen_byte in *. destruct e; [exact Z|reflexivity|congruence].
  - right. rewrite app_comm_cons, app_assoc in NO. apply app_inj_tail in NO as [NO Z]. apply Forall_app in F as [F _].
    exists b0. split; [exists pre, seg, n; auto|]. right. f_equal. f_equal. rewrite <- Z. unfold seen_byte, next_byte. rewrite NO.
    destruct e; [reflexivity| |]; change ((c :: repeat c n) ++ b0) with (c :: repeat c n ++ b0); now rewrite last_repeat.
Qed.

Lemma can_line_open done ev l : can_line (done ++ [ev]) l ->
  exists c b0, open_line done c b0 /\ next_byte c b0 ev = 13 /\ l = c :: filter (fun b => negb (b =? 13)) b0 /\ ev <> RErr.
Proof.
  intros (pre & seg & c & n & body & E & NE & NO & S & F & L).
  assert (open_line (done ++ [ev]) c (body ++ [13])) as O.
  { exists pre, seg, n. repeat split; auto. apply Forall_app. split; [exact F|]. constructor; [apply not_start_13|constructor]. }
  apply open_step in O as [_ [NR [[-> B]|(b0 & O & [(_ & B & _)|B])]]]; [destruct body; discriminate B|destruct body; discriminate B|].
  apply app_inj_tail in B as [-> B]. exists c, b0. auto.
Qed.
Lemma open_nil c b0 : ~ open_line [] c b0.
Proof. intros (pre & seg & n & E & _ & N & _). symmetry in E. apply app_eq_nil in E as [_ ->]. discriminate N. Qed.
Lemma can_line_nil l : ~ can_line [] l.
Proof. intros (pre & seg & c & n & b & E & _ & N & _). symmetry in E. apply app_eq_nil in E as [_ ->]. discriminate N. Qed.

(* ------------------------------------------------------------ lines that have given a message *)

Definition closed (h : list entry) (i n : nat) (evs : list rd_event) : Prop :=
  exists e m, In e h /\ en_if e = i /\ en_out e = Some m /\ (en_pos e <= n)%nat /\ quiet (skipn (en_pos e) (firstn n evs)).

Lemma quiet_app a b : quiet (a ++ b) <-> quiet a /\ quiet b.
Proof.
  unfold quiet. split.
  - intros [N S]. split; (split; [intros X; apply N, in_or_app; auto|intros x X; apply S, in_or_app; auto]).
  - intros [[N1 S1] [N2 S2]]. split; [intros X; apply in_app_or in X as [X|X]; auto|intros x X; apply in_app_or in X as [X|X]; auto].
Qed.
Lemma skipn_snoc {A} (l : list A) x k : (k <= List.length l)%nat -> skipn k (l ++ [x]) = skipn k l ++ [x].
Proof. intros L. rewrite skipn_app. replace (k - List.length l)%nat with 0%nat by lia. reflexivity. Qed.
Lemma firstn_more {A} (l : list A) n x rest : l = firstn n l ++ x :: rest -> firstn (S n) l = firstn n l ++ [x] /\ (S n <= List.length l)%nat /\ l = firstn (S n) l ++ rest.
Proof.
  intros E. assert (List.length (firstn n l) = n) as L.
  { pose proof (f_equal (@List.length A) E) as Q. rewrite app_length in Q. cbn [List.length] in Q. pose proof (firstn_le_length n l). pose proof (firstn_length n l). lia. }
  assert (firstn (S n) l = firstn n l ++ [x]) as F.
  { rewrite E at 1. replace (S n) with (List.length (firstn n l) + 1)%nat by lia. rewrite firstn_app_2. reflexivity. }
  split; [exact F|]. split; [rewrite E, app_length; cbn [List.length]; lia|]. rewrite F, <- app_assoc. exact E.
Qed.

Lemma used_closed h i n evs : used_up h i n evs -> closed h i n evs.
Proof. intros (e & m & A & B & C & D & E). exists e, m. repeat split; auto; [lia|apply E|apply E]. Qed.
Lemma used_mono h i n evs e : used_up h i n evs -> used_up (h ++ [e]) i n evs.
Proof. intros (x & m & A & B). exists x, m. split; [apply in_or_app; now left|exact B]. Qed.

Lemma closed_back evs pos i h : (forall e, In e h -> en_if e = i -> (en_pos e <= pos)%nat) -> closed h i (S pos) evs -> used_up h i (S pos) evs.
Proof. intros B (e & m & A & C & D & E & F). exists e, m. split; [exact A|]. split; [exact C|]. split; [exact D|]. specialize (B e A C). split; [lia|exact F]. Qed.
Section Line.
Variables (evs : list rd_event) (pos : nat) (ev : rd_event) (i : nat).
Hypotheses (FI : firstn (S pos) evs = firstn pos evs ++ [ev]) (LE : (S pos <= List.length evs)%nat).
Lemma closed_used h : closed h i pos evs -> quiet [ev] -> used_up h i (S pos) evs.
Proof.
  intros (e & m & A & B & C & D & E) Q. exists e, m. split; [exact A|]. split; [exact B|]. split; [exact C|]. split; [lia|]. rewrite FI, skipn_snoc by (rewrite firstn_length; lia). now apply quiet_app.
Qed.
Lemma used_back h : used_up h i (S pos) evs -> closed h i pos evs /\ quiet [ev].
Proof.
  intros (e & m & A & B & C & D & E). rewrite FI, skipn_snoc in E by (rewrite firstn_length; lia). apply quiet_app in E as [E1 E2].
  split; [|exact E2]. exists e, m. split; [exact A|]. split; [exact B|]. split; [exact C|]. split; [lia|exact E1].
Qed.
End Line.

(* ------------------------------------------------------------ the reader of a canusb interface *)

(** can_reader, and: inside a line that has not given a message, or in one that has. *)
Definition reader (h : list entry) (i : nat) (evs : list rd_event) (n : nat) (r : can_rd) : Prop :=
  can_reader (firstn n evs) r /\ (cr_sof r = true -> ~ closed h i n evs) /\
  (cr_sof r = false -> forall c b0, open_line (firstn n evs) c b0 -> closed h i n evs).

Lemma reader_open done r : can_reader done r -> cr_sof r = true -> exists c body, open_line done c body /\ cr_rx r = List.last (c :: body) 0 /\
  cr_msg r = buf_of (c :: filter (fun b => negb (b =? 13)) body).
Proof.
  unfold can_reader. intros H SF. rewrite SF in H. destruct H as (pre & seg & c & n & body & D & NE & NO & SC & FN & M & RX). exists c, body.
  split; [exists pre, seg, n; auto|auto].
Qed.
Lemma no_cr (l : bytes) : ~ In 13 l -> filter (fun b => negb (b =? 13)) l = l.
Proof.
  induction l as [|x l IH]; intros N; [reflexivity|]. cbn [filter]. destruct (Z.eqb_spec x 13) as [->|X]; [elim N; now left|].
  cbn [negb]. f_equal. apply IH. intros Q. apply N. now right.
Qed.

(** The registry while an adapter is being read. *)
Definition registered (tbl : list pgn_def) (st : can_state) : Prop := forall p, fast_pgn tbl p -> In p (cs_fast st).

Lemma spells_frame l ty id data : frame_text l ty id data -> ParseFrame (buf_of l) = Ret (frame_of ty id data).
Proof. intros FT. apply (ParseFrame_accepts _ _ (buf_of_ok l)). rewrite buf_of_val. exists ty, id, data. auto. Qed.
Lemma frame_text_fun l ty id data ty' id' data' : frame_text l ty id data -> frame_text l ty' id' data' -> frame_of ty id data = frame_of ty' id' data'.
Proof. intros A B. apply spells_frame in A. apply spells_frame in B. congruence. Qed.

(** The frame at position n joins the history. *)
Definition joins (tbl : list pgn_def) (h : list entry) (i n : nat) (evs : list rd_event) (o : option raw_message) (h' : list entry) : Prop :=
  exists l ty id data, h' = h ++ [mken i n (frame_of ty id data) o] /\ can_line (firstn n evs) l /\ frame_text l ty id data /\
    ~ used_up h i n evs /\ gives tbl (map en_frame h) (frame_of ty id data) o.

Lemma can_byte_wire tbl st r i evs pos ev h : can_inv tbl st -> registered tbl st -> reader h i evs pos r -> exact_inv tbl (map en_frame h) st ->
  firstn (S pos) evs = firstn pos evs ++ [ev] -> (S pos <= List.length evs)%nat -> (forall e, In e h -> en_if e = i -> (en_pos e <= pos)%nat) ->
  complete h i pos evs ->
  match can_byte st r ev with
  | CMore r' st' => can_inv tbl st' /\ registered tbl st' /\ exists h', (h' = h \/ joins tbl h i (S pos) evs None h') /\
      reader h' i evs (S pos) r' /\ exact_inv tbl (map en_frame h') st' /\ complete h' i (S pos) evs
  | CMsg m st' => can_inv tbl st' /\ registered tbl st' /\ bytes_ok (rm_data m) /\ exists h', joins tbl h i (S pos) evs (Some m) h' /\
      reader h' i evs (S pos) can_rd0 /\ exact_inv tbl (map en_frame h') st' /\ complete h' i (S pos) evs
  | CErr => reader h i evs (S pos) can_rd0 /\ complete h i (S pos) evs
  | CPanic => exists l, can_line (firstn (S pos) evs) l /\ (cut_line l \/ headless tbl l)
  end.
Proof.
  intros CI RG (CR & ROT & ROF) EX FI LE BD CO. pose proof (can_byte_inv tbl st r (firstn pos evs) ev CI CR) as BASE. rewrite <- FI in BASE.
  (* what is complete before stays so *)
  assert (forall h', (h' = h \/ exists e, h' = h ++ [e]) ->
    (forall l ty id data, can_line (firstn (S pos) evs) l -> frame_text l ty id data -> used_up h' i (S pos) evs \/ exists o, In (mken i (S pos) (frame_of ty id data) o) h') ->
    complete h' i (S pos) evs) as CO'.
  { intros h' HH K k l ty id data L CL FT. destruct (Nat.eq_dec k (S pos)) as [->|NE]; [now apply (K l)|].
    destruct (CO k l ty id data) as [U|(o & U)]; [lia|exact CL|exact FT| |].
    - left. destruct HH as [->|(e & ->)]; [exact U|now apply used_mono].
    - right. exists o. destruct HH as [->|(e & ->)]; [exact U|apply in_or_app; now left]. }
  assert (ev = RErr \/ ev <> RErr) as [->|NR] by (destruct ev; [right; discriminate|right; discriminate|left; reflexivity]).
  { cbn [can_byte]. split.
    - split; [apply can_reader_0|]. split; [discriminate|]. intros _ c b0 O. rewrite FI in O. now apply open_step in O as (_ & X & _).
    - apply CO'; [now left|]. intros l ty id data CL. rewrite FI in CL. apply can_line_open in CL as (c & b0 & _ & _ & _ & X). congruence. }
  rewrite can_byte_core in * by exact NR. unfold can_core in *.
  set (b := match ev with RByte x => x | _ => cr_rx r end) in *.
  assert (is_sof b = false -> quiet [ev]) as QU.
  { intros SB. split; [intros [X|[]]; auto|]. intros x [->|[]]. subst b. intros X. apply sof_starts in X. congruence. }
  (* inside a line the byte seen is the reader's *)
  assert (forall c b0, cr_sof r = true -> open_line (firstn pos evs) c b0 -> next_byte c b0 ev = b /\ cr_msg r = buf_of (c :: filter (fun b => negb (b =? 13)) b0)) as SEEN.
  { intros c b0 SF O. destruct (reader_open _ r CR SF) as (c1 & b1 & O1 & RX & M). destruct (open_unique _ _ _ _ _ O O1) as [-> ->].
    split; [|exact M]. unfold next_byte. subst b. destruct ev; [reflexivity|now rewrite RX|congruence]. }
  (* no line of this reader ends here *)
  assert (cr_sof r = false \/ b <> 13 -> forall l ty id data, can_line (firstn (S pos) evs) l -> frame_text l ty id data ->
    used_up h i (S pos) evs \/ exists o, In (mken i (S pos) (frame_of ty id data) o) h) as NOLINE.
  { intros W l ty id data CL FT. rewrite FI in CL. apply can_line_open in CL as (c & b0 & O & NB & _ & _). left. destruct (cr_sof r) eqn:SF.
    - destruct W as [W|W]; [discriminate W|]. destruct (SEEN c b0 eq_refl O). congruence.
    - apply (closed_used evs pos ev); auto; [now apply (ROF eq_refl c b0)|]. split; [intros [X|[]]; auto|]. intros x [X|[]]. subst ev. cbn in NB. subst x. apply not_start_13. }
  assert (b <> 13 -> complete h i (S pos) evs) as COB by (intros B13; apply CO'; [now left|apply NOLINE; now right]).
  assert (~ closed h i pos evs -> ~ closed h i (S pos) evs) as NCL.
  { intros N C. apply N. apply (closed_back evs pos i h BD) in C. now apply (used_back evs pos ev) in C. }
  destruct (is_sof b) eqn:SB.
  { assert (b <> 13) as B13 by (intros X; rewrite X in SB; discriminate SB).
    destruct BASE as [B1 B2]. split; [exact B2|]. split; [exact RG|]. exists h. split; [now left|]. split; [|split; [exact EX|auto]].
    split; [exact B1|]. split; [|discriminate]. intros _ C. apply (closed_back evs pos i h BD) in C. apply (used_back evs pos ev) in C as [C Q]; [|exact FI|exact LE].
    subst b. destruct ev as [x| |]; [|destruct (cr_sof r) eqn:SF; [now apply ROT|]|congruence].
    - destruct Q as [_ Q]. apply (Q x); [now left|]. now apply sof_starts.
    - unfold can_reader in CR. rewrite SF in CR. congruence. }
  specialize (QU eq_refl).
  destruct (cr_sof r) eqn:SF.
  - specialize (ROT eq_refl). rewrite andb_true_r in *. destruct (Z.eqb_spec b 13) as [E13|N13].
    + destruct (reader_open _ r CR SF) as (c & body & O & RX & M). rewrite M in *. unfold frameReceived in *.
      set (l := c :: filter _ body) in *.
      assert (can_line (firstn (S pos) evs) l) as CL.
      { rewrite FI. destruct O as (pre & seg & n & D & NE & NO & SC & FN). exists pre, (seg ++ [ev]), c, n, body. rewrite D, app_assoc. split; [reflexivity|].
        split; [intros X; apply in_app_or in X as [X|[X|[]]]; auto|]. split; [|auto].
        rewrite noticed_snoc, NO. cbn [app]. f_equal. rewrite <- app_assoc. do 2 f_equal. f_equal.
        unfold seen_byte. rewrite NO, last_repeat, <- RX. exact E13. }
      assert (forall l' ty id data, can_line (firstn (S pos) evs) l' -> frame_text l' ty id data -> ParseFrame (buf_of l) = Ret (frame_of ty id data)) as SAME.
      { intros l' ty id data CL' FT. rewrite FI in CL'. apply can_line_open in CL' as (c1 & b1 & O1 & _ & -> & _).
        destruct (open_unique _ _ _ _ _ O1 O) as [-> ->]. exact (spells_frame _ _ _ _ FT). }
      destruct (ParseFrame (buf_of l)) as [f|e|e] eqn:PF.
      * pose proof (ParseFrame_ok _ _ (buf_of_ok l) PF) as FO.
        apply (ParseFrame_accepts _ _ (buf_of_ok l)) in PF as (ty & id & data & FT & Ef). rewrite buf_of_val in FT. fold (frame_of ty id data) in Ef. subst f.
        destruct (frame_step st (frame_of ty id data)) as [st' o] eqn:FS.
        pose proof (proj1 CI) as R.
        assert (forall p, In p (cs_fast st) <-> fast_pgn tbl p) as REG by (intros p; split; [apply (proj1 (proj2 CI))|apply RG]).
        assert ((forall w, o <> Panic w) -> exact_inv tbl (map en_frame h ++ [frame_of ty id data]) st' /\
          gives tbl (map en_frame h) (frame_of ty id data) (match o with Ret m => Some (cf_raw m) | _ => None end)) as STEP
          by (intros NP; eapply exact_step; eauto).
        assert (forall x, complete (h ++ [mken i (S pos) (frame_of ty id data) x]) i (S pos) evs) as COX.
        { intros x. apply CO'; [right; eauto|]. intros l' ty' id' data' CL' FT'. right. exists x. apply in_or_app. right. left.
          specialize (SAME _ _ _ _ CL' FT'). congruence. }
        assert (~ used_up h i (S pos) evs) as NU by (intros U; apply ROT; now apply (used_back evs pos ev) in U).
        assert (registered tbl st') as RG' by (unfold registered in *; destruct (step_frame _ _ _ _ R FS) as (-> & _); exact RG).
        destruct o as [g|e|w].
        -- destruct STEP as [EX' GV]; [discriminate|]. destruct BASE as (B1 & B2 & _). split; [exact B1|]. split; [exact RG'|]. split; [exact B2|].
           exists (h ++ [mken i (S pos) (frame_of ty id data) (Some (cf_raw g))]). split; [exists l, ty, id, data; auto|]. rewrite map_app. cbn [map en_frame].
           split; [|split; [exact EX'|apply COX]]. split; [apply can_reader_0|]. split; [discriminate|]. intros _ c1 b1 _.
           eexists _, (cf_raw g). split; [apply in_or_app; right; now left|]. cbn [en_if en_out en_pos]. split; [reflexivity|]. split; [reflexivity|]. split; [lia|].
           rewrite skipn_all2 by (rewrite firstn_length; lia). split; [intros []|intros x []].
        -- destruct STEP as [EX' GV]; [discriminate|]. destruct BASE as [B1 B2]. split; [exact B2|]. split; [exact RG'|].
           exists (h ++ [mken i (S pos) (frame_of ty id data) None]). split; [right; exists l, ty, id, data; auto|]. rewrite map_app. cbn [map en_frame].
           split; [|split; [exact EX'|apply COX]]. split; [exact B1|]. split; [|cbn; congruence]. intros _ (x & m & I & A & B & C & D). apply (NCL ROT).
           apply in_app_or in I as [I|[<-|[]]]; [exists x, m; auto|discriminate B].
        -- exact BASE.
      * destruct BASE as [B1 B2]. split; [exact B2|]. split; [exact RG|]. exists h. split; [now left|]. split; [|split; [exact EX|]].
        { split; [exact B1|]. split; [intros _; now apply NCL|cbn; congruence]. }
        apply CO'; [now left|]. intros l' ty id data CL' FT. specialize (SAME _ _ _ _ CL' FT). discriminate.
      * exact BASE.
    + destruct BASE as [B1 B2]. split; [exact B2|]. split; [exact RG|]. exists h. split; [now left|]. split; [|split; [exact EX|auto]].
      split; [exact B1|]. split; [intros _; now apply NCL|cbn; congruence].
  - rewrite andb_false_r in *. destruct BASE as [B1 B2]. split; [exact B2|]. split; [exact RG|]. exists h. split; [now left|].
    split; [|split; [exact EX|apply CO'; [now left|apply NOLINE; now left]]].
    split; [exact B1|]. split; [cbn; congruence|]. intros _ c b0 O. rewrite FI in O. apply open_step in O as (S1 & _ & [[-> ->]|(b1 & O1 & K)]).
    + exfalso. subst b. apply sof_starts in S1. congruence.
    + apply used_closed. apply (closed_used evs pos ev); auto. now apply (ROF eq_refl c b1).
Qed.

(* ------------------------------------------------------------ the whole program *)

Lemma exact_register tbl h st : exact_inv tbl h st -> exact_inv tbl h (register_fast tbl st) /\ registered tbl (register_fast tbl st) /\
  forall p, In p (cs_fast st) -> In p (cs_fast (register_fast tbl st)).
Proof.
  intros [HF HI]. assert (cs_partial (register_fast tbl st) = cs_partial st /\ forall p, In p (cs_fast (register_fast tbl st)) <-> fast_pgn tbl p \/ In p (cs_fast st)) as [P C].
  { unfold register_fast. assert (forall l s, cs_partial (fold_left (fun st p => if 8 <? p_size p then AddFastPacket st (p_pgn p) else st) l s) = cs_partial s /\
      forall p, In p (cs_fast (fold_left (fun st p => if 8 <? p_size p then AddFastPacket st (p_pgn p) else st) l s)) <-> fast_pgn l p \/ In p (cs_fast s)) as K; [|apply K].
    induction l as [|d l IH]; intros s; cbn [fold_left].
    - split; [reflexivity|]. intros p. split; [auto|]. intros [(x & [] & _)|X]; exact X.
    - destruct (IH (if 8 <? p_size d then AddFastPacket s (p_pgn d) else s)) as [-> IH2]. split; [destruct (8 <? p_size d); reflexivity|].
      intros p. rewrite IH2. destruct (Z.ltb_spec 8 (p_size d)) as [L|L].
      + cbn [AddFastPacket cs_fast]. rewrite add_fast_In. split.
        * intros [(x & I & X)|[->|X]]; [left; exists x; split; [now right|exact X]|left; exists d; split; [now left|auto]|auto].
        * intros [(x & [<-|I] & X1 & X2)|X]; [right; left; congruence|left; exists x; auto|auto].
      + split; [intros [(x & I & X)|X]; [left; exists x; split; [now right|exact X]|auto]|].
        intros [(x & [<-|I] & X1 & X2)|X]; [lia|left; exists x; auto|auto]. }
  split; [split; [exact HF|]|split; [intros p F; apply C; now left|intros p F; apply C; now right]].
  intros k KO KF. rewrite P. now apply HI.
Qed.

Lemma rising_snoc l : forall a n, rising a l -> Forall (fun x => (x < n)%nat) l -> (a < n)%nat -> rising a (l ++ [n]).
Proof.
  induction l as [|x l IH]; intros a n R F L; cbn [app rising]; [auto|]. destruct R as [R1 R2]. inversion F; subst. split; [exact R1|]. now apply IH.
Qed.
Lemma Forall2_nth {A B} (P : A -> B -> Prop) l l' k b : Forall2 P l l' -> nth_error l' k = Some b -> exists a, nth_error l k = Some a /\ P a b.
Proof.
  intros F. revert k. induction F as [|x y l l' p F IH]; intros [|k] H; try discriminate H; cbn [nth_error] in *; [injection H as <-; eauto|auto].
Qed.
Lemma Forall2_nth_l {A B} (P : A -> B -> Prop) l l' k a : Forall2 P l l' -> nth_error l k = Some a -> exists b, nth_error l' k = Some b /\ P a b.
Proof.
  intros F. revert k. induction F as [|x y l l' p F IH]; intros [|k] H; try discriminate H; cbn [nth_error] in *; [injection H as <-; eauto|auto].
Qed.
Lemma Forall2_len {A B} (P : A -> B -> Prop) l l' : Forall2 P l l' -> List.length l = List.length l'.
Proof. induction 1; cbn; congruence. Qed.
Lemma stripped_fun l a b : stripped l a -> stripped l b -> a = b.
Proof.
  intros [A|[A NA]] [B|[B NB]]; subst.
  - now apply app_inj_tail in B as [-> _].
  - now elim (NB a).
  - now elim (NA b).
  - reflexivity.
Qed.

Section Wire.
Variables (tbl : list pgn_def) (maps : mappings) (opts : options) (pl : platform) (fmtv : gval -> bytes) (unmarshal : bytes -> option canboat)
          (marshal : Z -> delta -> option bytes) (verbose : bool).
Notation tstep := (tstep tbl pl unmarshal).
Notation ystep := (ystep tbl maps opts pl fmtv unmarshal marshal verbose).
Notation yrun := (yrun tbl maps opts pl fmtv unmarshal marshal verbose).
Notation decodes := (decodes tbl pl unmarshal).
Notation usable := (usable tbl unmarshal).

(** Interface i, whose goroutine has the source [src]. *)
Definition src_wire (i : nat) (ifc : iface) (st : can_state) (h : list entry) (pos : nat) (src : source) : Prop :=
  match src with
  | SBoot j => j = ifc /\ pos = 0%nat
  | SCan _ r input => if_type ifc = str "canusb" /\ input_of ifc = firstn pos (input_of ifc) ++ input /\ (pos + List.length input = List.length (input_of ifc))%nat /\
      reader h i (input_of ifc) pos r /\ registered tbl st /\ complete h i pos (input_of ifc)
  | SAct r input => if_type ifc = str "actisense" /\ input_of ifc = firstn pos (input_of ifc) ++ input /\ (pos + List.length input = List.length (input_of ifc))%nat /\
      act_reader (firstn pos (input_of ifc)) r /\ r = act_after (firstn pos (input_of ifc))
  | SFile lines => if_type ifc = str "file" /\ file_lines (if_text ifc) = firstn pos (file_lines (if_text ifc)) ++ lines /\
      (pos + List.length lines = List.length (file_lines (if_text ifc)))%nat
  end.

Definition all_arrived (ifs : list iface) (h : list entry) (i n : nat) (ps : list (nat * item)) : Prop :=
  forall k it, In (k, it) ps <-> (k <= n)%nat /\ arrives_in ifs h i k it /\ usable it.

Definition wire_inv (ifs : list iface) (tr : list ylabel) (s : sys) : Prop :=
  List.length (y_threads s) = List.length ifs /\ can_inv tbl (y_can s) /\
  exists h pos, history tbl ifs h /\ exact_inv tbl (map en_frame h) (y_can s) /\
    (forall e, In e h -> (en_pos e <= pos (en_if e))%nat) /\
    forall i ifc t, nth_error ifs i = Some ifc -> nth_error (y_threads s) i = Some t ->
      src_wire i ifc (y_can s) h (pos i) (th_src t) /\
      exists ps, rising 0 (map fst ps) /\ all_arrived ifs h i (pos i) ps /\ Forall2 decodes (map snd ps) (handled_from i tr ++ outs t).

(** Facts about histories. *)
Lemma history_entry ifs h e : history tbl ifs h -> In e h ->
  exists ifc, nth_error ifs (en_if e) = Some ifc /\ if_type ifc = str "canusb" /\ (en_pos e <= List.length (input_of ifc))%nat /\
    exists l ty id data, en_frame e = frame_of ty id data /\ can_line (firstn (en_pos e) (input_of ifc)) l /\ frame_text l ty id data.
Proof.
  intros H. induction H as [|h i ifc n l ty id data o H IH HI TY LE BD CL FT NU GV]; intros I; [destruct I|].
  apply in_app_or in I as [I|[<-|[]]]; [auto|]. cbn [en_if en_pos en_frame]. exists ifc. repeat (split; [assumption|]). exists l, ty, id, data. auto.
Qed.
Lemma arrives_pos ifs h i n it : history tbl ifs h -> arrives_in ifs h i n it -> (0 < n)%nat.
Proof.
  intros HH A. destruct n; [|lia]. exfalso. inversion A as [f m I|ifc mm m HI TY L AM DE|? ? ? ? ? ? ? ? ?]; subst; [| |discriminate].
  - destruct (history_entry _ _ _ HH I) as (ifc & _ & _ & _ & l & ty & id & data & _ & CL & _). cbn [en_pos firstn] in CL. exact (can_line_nil _ CL).
  - cbn [firstn] in AM. destruct AM as (pre & seg & raw & _ & E & _ & N & _). symmetry in E. apply app_eq_nil in E as [_ ->]. discriminate N.
Qed.

(** Histories that agree on interface i. *)
Definition same_at (i : nat) (h h' : list entry) : Prop := forall e, en_if e = i -> (In e h <-> In e h').
Lemma same_at_refl i h : same_at i h h.
Proof. intros e _. tauto. Qed.
Lemma same_at_snoc i h e : en_if e <> i -> same_at i h (h ++ [e]).
Proof. intros N x X. split; [intros I; apply in_or_app; now left|]. intros I. apply in_app_or in I as [I|[<-|[]]]; [exact I|contradiction]. Qed.
Lemma closed_same i h h' n evs : same_at i h h' -> closed h i n evs -> closed h' i n evs.
Proof. intros S (e & m & A & B & C). exists e, m. split; [now apply S|auto]. Qed.
Lemma same_at_sym i h h' : same_at i h h' -> same_at i h' h.
Proof. intros S e E. now rewrite (S e E). Qed.
Lemma src_same i ifc st h h' pos src : same_at i h h' -> src_wire i ifc st h pos src -> src_wire i ifc st h' pos src.
Proof.
  intros S. destruct src; cbn [src_wire]; auto. intros (A & B & C & (R1 & R2 & R3) & D & E). split; [exact A|]. split; [exact B|]. split; [exact C|].
  split; [split; [exact R1|split]|split; [exact D|]].
  - intros X Y. apply (R2 X). eapply closed_same; [apply same_at_sym; exact S|exact Y].
  - intros X c b0 O. eapply closed_same; [exact S|]. now apply (R3 X c b0).
  - intros k l ty id data L CL FT. destruct (E k l ty id data L CL FT) as [(e & m & U1 & U2 & U3)|(o & U)].
    + left. exists e, m. split; [now apply S|auto].
    + right. exists o. now apply S.
Qed.
Lemma arrived_same ifs i h h' n ps : same_at i h h' -> all_arrived ifs h i n ps -> all_arrived ifs h' i n ps.
Proof.
  intros S A k it. rewrite (A k it).
  assert (arrives_in ifs h i k it <-> arrives_in ifs h' i k it) as Q; [|tauto].
  split; intros X; inversion X; subst; try (now eapply ar_actisense; eauto); try (now eapply ar_file; eauto);
    eapply ar_canusb; (apply S; [reflexivity|eassumption]).
Qed.
Lemma src_grows i ifc st st' h pos src : (forall p, In p (cs_fast st) -> In p (cs_fast st')) -> src_wire i ifc st h pos src -> src_wire i ifc st' h pos src.
Proof.
  intros M. destruct src; cbn [src_wire]; auto. intros (A & B & C & D & E & F). repeat (split; [assumption|]). split; [|exact F]. intros q Q. apply M, E, Q.
Qed.

(** A goroutine that has just been started. *)
Lemma boot_wire i ifs st ifc st' t' h : can_inv tbl st -> exact_inv tbl (map en_frame h) st -> boot tbl st ifc = TOk st' t' ->
  can_inv tbl st' /\ exact_inv tbl (map en_frame h) st' /\ (forall p, In p (cs_fast st) -> In p (cs_fast st')) /\ th_out t' = None /\
  (history tbl ifs h -> src_wire i ifc st' h 0 (th_src t')).
Proof.
  intros CI HI B. unfold boot in B. destruct (if_dev ifc) as [|[|] w input|] eqn:DV; try discriminate B.
  - destruct (bytes_eqb (if_type ifc) (str "canusb")) eqn:E1.
    + apply bytes_eqb_eq in E1. cbv zeta in B. destruct (OpenChannel _ w 221) as [[st1 w1] [p|e|e]] eqn:EO; try discriminate B.
      injection B as <- <-. apply open_same in EO; [|unfold is_byte; lia]. subst st1.
      pose proof (can_inv_register _ _ CI) as CI2. destruct (exact_register tbl _ st HI) as (HI2 & RG & MO).
      split; [exact CI2|]. split; [exact HI2|]. split; [exact MO|].
      split; [reflexivity|]. intros HH. cbn [th_src src_wire firstn app]. unfold input_of. rewrite DV. split; [exact E1|]. split; [reflexivity|]. split; [reflexivity|].
      split; [split; [apply can_reader_0|]|].
      { split; [discriminate|]. intros _ c b0 O. now apply open_nil in O. }
      split; [exact RG|]. intros k l ty id data L. replace k with 0%nat by lia. intros CL. cbn [firstn] in CL. now apply can_line_nil in CL.
    + destruct (bytes_eqb (if_type ifc) (str "actisense")) eqn:E2.
      * apply bytes_eqb_eq in E2. destruct (act_OpenChannel w) as [w1 [p|e|e]]; try discriminate B.
        destruct (GetOperatingMode p) as [q [x|e|e]]; try discriminate B; injection B as <- <-;
          (split; [exact CI|]; split; [exact HI|]; split; [auto|]; split; [reflexivity|]; intros _; cbn [th_src src_wire firstn app]; unfold input_of; rewrite DV;
           split; [exact E2|]; split; [reflexivity|]; split; [reflexivity|]; split; [apply act_reader_0, bt_nil|reflexivity]).
      * destruct (bytes_eqb (if_type ifc) (str "file")) eqn:E3; [|discriminate B]. apply bytes_eqb_eq in E3. injection B as <- <-.
        split; [exact CI|]. split; [exact HI|]. split; [auto|]. split; [reflexivity|]. intros _. cbn [th_src src_wire firstn app]. auto.
  - destruct (bytes_eqb (if_type ifc) (str "canusb")); [discriminate B|]. destruct (bytes_eqb (if_type ifc) (str "actisense")); [discriminate B|].
    destruct (bytes_eqb (if_type ifc) (str "file")) eqn:E3; [|discriminate B]. apply bytes_eqb_eq in E3. injection B as <- <-.
    split; [exact CI|]. split; [exact HI|]. split; [auto|]. split; [reflexivity|]. intros _. cbn [th_src src_wire firstn app]. auto.
Qed.

(** One more position, with or without an item. *)
Lemma arrived_none ifs h i n ps : all_arrived ifs h i n ps -> (forall it, arrives_in ifs h i (S n) it -> usable it -> False) -> all_arrived ifs h i (S n) ps.
Proof.
  intros A N k it. rewrite (A k it). split; [intros (L & X); split; [lia|exact X]|]. intros (L & X & Y). split; [|auto].
  destruct (Nat.eq_dec k (S n)) as [->|]; [destruct (N it X Y)|lia].
Qed.
Lemma arrived_one ifs h i n ps it0 : all_arrived ifs h i n ps -> arrives_in ifs h i (S n) it0 -> usable it0 ->
  (forall it, arrives_in ifs h i (S n) it -> usable it -> it = it0) -> all_arrived ifs h i (S n) (ps ++ [(S n, it0)]).
Proof.
  intros A B U N k it. rewrite in_app_iff, (A k it). split.
  - intros [(L & X)|[E|[]]]; [split; [lia|exact X]|]. injection E as <- <-. auto.
  - intros (L & X & Y). destruct (Nat.eq_dec k (S n)) as [->|]; [right; left; now rewrite (N it X Y)|]. left. split; [lia|auto].
Qed.
Lemma arrived_rising ifs h i n ps it0 : all_arrived ifs h i n ps -> rising 0 (map fst ps) -> rising 0 (map fst (ps ++ [(S n, it0)])).
Proof.
  intros A R. rewrite map_app. cbn [map fst]. apply rising_snoc; [exact R| |lia]. apply Forall_forall. intros x X. apply in_map_iff in X as ([k it] & <- & I). apply A in I as [I _]. cbn. lia.
Qed.

Lemma joins_history ifs h i ifc n evs o h' : history tbl ifs h -> nth_error ifs i = Some ifc -> if_type ifc = str "canusb" -> input_of ifc = evs ->
  (n <= List.length evs)%nat -> (forall e, In e h -> en_if e = i -> (en_pos e < n)%nat) -> joins tbl h i n evs o h' ->
  history tbl ifs h' /\ exists f, h' = h ++ [mken i n f o].
Proof. intros HH HI TY <- LE BD (l & ty & id & data & -> & CL & FT & NU & GV). split; [eapply hi_frame; eauto|eauto]. Qed.

(** Items of an interface of a type. *)
Lemma arrives_canusb ifs h i ifc n it : nth_error ifs i = Some ifc -> if_type ifc = str "canusb" -> arrives_in ifs h i n it ->
  exists f m, it = IRaw m /\ In (mken i n f (Some m)) h.
Proof.
  intros HI TY A. inversion A; subst; [eauto| |]; match goal with H : nth_error ifs i = Some ?x, T : if_type ?x = _ |- _ => rewrite HI in H; injection H as <-; rewrite TY in T; discriminate T end.
Qed.
Lemma arrives_act ifs h i ifc n it : history tbl ifs h -> nth_error ifs i = Some ifc -> if_type ifc = str "actisense" -> arrives_in ifs h i n it ->
  exists mm m, it = IRaw m /\ act_message (firstn n (input_of ifc)) mm /\ delivers mm m.
Proof.
  intros HH HI TY A. inversion A as [f m I|ifc' mm m HI' TY' L AM DE|ifc' full la k raw l HI' TY' E SP NT ST]; subst.
  - destruct (history_entry _ _ _ HH I) as (ifc' & H1 & H2 & _). cbn [en_if] in H1. rewrite HI in H1. injection H1 as <-. rewrite TY in H2. discriminate H2.
  - rewrite HI in HI'. injection HI' as <-. eauto.
  - rewrite HI in HI'. injection HI' as <-. rewrite TY in TY'. discriminate TY'.
Qed.
Lemma arrives_file ifs h i ifc n it : history tbl ifs h -> nth_error ifs i = Some ifc -> if_type ifc = str "file" -> arrives_in ifs h i n it ->
  exists k l, n = S k /\ it = ILine l /\ nth_error (file_lines (if_text ifc)) k = Some l.
Proof.
  intros HH HI TY A. inversion A as [f m I|ifc' mm m HI' TY' L AM DE|ifc' full la k raw l HI' TY' E SP NT ST]; subst.
  - destruct (history_entry _ _ _ HH I) as (ifc' & H1 & H2 & _). cbn [en_if] in H1. rewrite HI in H1. injection H1 as <-. rewrite TY in H2. discriminate H2.
  - rewrite HI in HI'. injection HI' as <-. rewrite TY in TY'. discriminate TY'.
  - rewrite HI in HI'. injection HI' as <-. exists k, l. split; [reflexivity|]. split; [reflexivity|].
    destruct (Forall2_nth_l _ _ _ _ _ (C74_lines _ _ _ SP) NT) as (l' & N' & S'). now rewrite (stripped_fun _ _ _ ST S').
Qed.
Lemma file_arrives ifs h i ifc k l : nth_error ifs i = Some ifc -> if_type ifc = str "file" -> nth_error (file_lines (if_text ifc)) k = Some l ->
  arrives_in ifs h i (S k) (ILine l).
Proof.
  intros HI TY NT. destruct (C74_splits (if_text ifc)) as (full & la & SP).
  destruct (Forall2_nth _ _ _ _ _ (C74_lines _ _ _ SP) NT) as (raw & R1 & R2). eapply ar_file; eauto.
Qed.

(** One step of interface i. *)
Lemma tstep_wire ifs i ifc st t st' t' h pos ps sent : nth_error ifs i = Some ifc -> input_ok ifc ->
  can_inv tbl st -> exact_inv tbl (map en_frame h) st -> history tbl ifs h -> (forall e, In e h -> en_if e = i -> (en_pos e <= pos)%nat) ->
  src_wire i ifc st h pos (th_src t) ->
  rising 0 (map fst ps) -> all_arrived ifs h i pos ps -> Forall2 decodes (map snd ps) (sent ++ outs t) ->
  tstep st t (TOk st' t') ->
  can_inv tbl st' /\ (forall p, In p (cs_fast st) -> In p (cs_fast st')) /\
  exists h' n ps', history tbl ifs h' /\ exact_inv tbl (map en_frame h') st' /\ (h' = h \/ exists f o, h' = h ++ [mken i n f o]) /\ (pos <= n)%nat /\
    src_wire i ifc st' h' n (th_src t') /\
    rising 0 (map fst ps') /\ all_arrived ifs h' i n ps' /\ Forall2 decodes (map snd ps') (sent ++ outs t').
Proof.
  intros HI IO CI EX HH BD SW RI AR F2 H.
  inversion H as [? j ES ET E|? p r ev rest r' ? B ES ET E|? p r ev rest B ES ET E| |
     ? p r ev rest m st1 st2 p' a fuel spare x B IF PP ES ET E| |
     ? r ev rest r' B ES ET E|? r ev rest B ES ET E| |? r ev rest m fuel spare x B PP ES ET E| |
     ? l rest x FC ES ET E|? l rest e FC ES ET E|]; subst; cbn [th_src th_out src_wire] in *; unfold outs in *; cbn [th_out] in *; rewrite ?app_nil_r in F2.
  - (* start *)
    destruct SW as (-> & P0). subst pos. destruct (boot_wire i ifs _ _ _ _ _ CI EX E) as (CI2 & EX2 & MO & O & SW).
    split; [exact CI2|]. split; [exact MO|]. exists h, 0%nat, ps. rewrite O, app_nil_r. auto 10.
  - (* canusb: more *)
    destruct SW as (TY & IN & LN & RD & RG & CO). destruct (firstn_more _ _ _ _ IN) as (FI & LE & IN2).
    pose proof (can_byte_wire tbl st r i _ pos ev h CI RG RD EX FI LE BD CO) as K. rewrite B in K. destruct K as (K1 & K2 & h' & K3 & K4 & K5 & K6).
    split; [exact K1|]. split; [intros q Q; now apply K2, (proj1 (proj2 CI))|]. exists h', (S pos), ps.
    assert (history tbl ifs h' /\ (h' = h \/ exists f, h' = h ++ [mken i (S pos) f None])) as [HH' HX].
    { destruct K3 as [->|K3]; [auto|]. destruct (joins_history ifs h i ifc (S pos) _ None h' HH HI TY eq_refl LE) as [A1 (f & A2)]; [|exact K3|eauto].
      intros e I J. specialize (BD e I J). lia. }
    split; [exact HH'|]. split; [exact K5|]. split; [destruct HX as [->|(f & ->)]; eauto|]. split; [lia|]. cbn [List.length] in LN. split.
    { split; [exact TY|]. split; [exact IN2|]. split; [lia|]. auto. }
    split; [exact RI|]. split; [|now rewrite app_nil_r]. apply arrived_none.
    { destruct HX as [->|(f & ->)]; [exact AR|]. intros k it. rewrite (AR k it). split; intros (L & X & Y); (split; [exact L|]; split; [|exact Y]).
      - destruct (arrives_canusb _ _ _ _ _ _ HI TY X) as (g & m & -> & J). eapply ar_canusb. apply in_or_app. left. exact J.
      - destruct (arrives_canusb _ _ _ _ _ _ HI TY X) as (g & m & -> & J). eapply ar_canusb. apply in_app_or in J as [J|[J|[]]]; [exact J|discriminate J]. }
    intros it X _. destruct (arrives_canusb _ _ _ _ _ _ HI TY X) as (g & m & -> & J).
    assert (In (mken i (S pos) g (Some m)) h) as J2 by (destruct HX as [->|(f & ->)]; [exact J|apply in_app_or in J as [J|[J|[]]]; [exact J|discriminate J]]).
    specialize (BD _ J2 eq_refl). cbn in BD. lia.
  - (* canusb: read error *)
    destruct SW as (TY & IN & LN & RD & RG & CO). destruct (firstn_more _ _ _ _ IN) as (FI & LE & IN2).
    pose proof (can_byte_wire tbl st' r i _ pos ev h CI RG RD EX FI LE BD CO) as K. rewrite B in K. destruct K as (K1 & K2).
    split; [exact CI|]. split; [auto|]. exists h, (S pos), ps. split; [exact HH|]. split; [exact EX|]. split; [now left|]. split; [lia|]. cbn [List.length] in LN. split.
    { split; [exact TY|]. split; [exact IN2|]. split; [lia|]. auto. }
    split; [exact RI|]. split; [|now rewrite app_nil_r]. apply arrived_none; [exact AR|].
    intros it X _. destruct (arrives_canusb _ _ _ _ _ _ HI TY X) as (g & m & -> & J). specialize (BD _ J eq_refl). cbn in BD. lia.
  - (* canusb: message *)
    destruct SW as (TY & IN & LN & RD & RG & CO). destruct (firstn_more _ _ _ _ IN) as (FI & LE & IN2).
    pose proof (can_byte_wire tbl st r i _ pos ev h CI RG RD EX FI LE BD CO) as K. rewrite B in K.
    destruct K as (K1 & K2 & K3 & h' & K4 & K5 & K6 & K7).
    destruct (claim_same st1 p m) as (p2 & EC). rewrite EC in IF. injection IF as <- <- _.
    split; [exact K1|]. split; [intros q Q; now apply K2, (proj1 (proj2 CI))|].
    exists h', (S pos), (ps ++ [(S pos, IRaw m)]).
    destruct (joins_history ifs h i ifc (S pos) _ (Some m) h' HH HI TY eq_refl LE) as [HH' (f & Eh)]; [intros e I J; specialize (BD e I J); lia|exact K4|].
    split; [exact HH'|]. split; [exact K6|]. split; [eauto|]. split; [lia|]. cbn [List.length] in LN. split.
    { split; [exact TY|]. split; [exact IN2|]. split; [lia|]. auto. }
    split; [eapply arrived_rising; eassumption|]. rewrite Eh. split.
    { apply arrived_one.
      - intros k it. rewrite (AR k it). split; intros (L & X & Y); (split; [exact L|]; split; [|exact Y]).
        + destruct (arrives_canusb _ _ _ _ _ _ HI TY X) as (g & m' & -> & J). eapply ar_canusb. apply in_or_app. left. exact J.
        + destruct (arrives_canusb _ _ _ _ _ _ HI TY X) as (g & m' & -> & J). eapply ar_canusb. apply in_app_or in J as [J|[J|[]]]; [exact J|].
          injection J as J _. lia.
      - eapply ar_canusb. apply in_or_app. right. now left.
      - exact I.
      - intros it X _. destruct (arrives_canusb _ _ _ _ _ _ HI TY X) as (g & m' & -> & J). apply in_app_or in J as [J|[J|[]]]; [|congruence].
        specialize (BD _ J eq_refl). cbn in BD. lia. }
    rewrite map_app. apply Forall2_app; [exact F2|]. constructor; [|constructor]. cbn. eauto.
  - (* actisense: more *)
    destruct SW as (TY & IN & LN & RD & RA). destruct (firstn_more _ _ _ _ IN) as (FI & LE & IN2).
    assert (input_of ifc = (firstn pos (input_of ifc) ++ [ev]) ++ rest) as IN3 by (rewrite <- FI; exact IN2).
    pose proof (input_ok_app _ _ _ IO IN3) as IB.
    pose proof (act_byte_inv r _ ev IB RD) as K. rewrite B in K.
    split; [exact CI|]. split; [auto|]. exists h, (S pos), ps. split; [exact HH|]. split; [exact EX|]. split; [now left|]. split; [lia|]. cbn [List.length] in LN. split.
    { split; [exact TY|]. split; [exact IN2|]. split; [lia|]. rewrite FI. split; [exact K|]. rewrite act_after_snoc, <- RA. unfold act_next. now rewrite B. }
    split; [exact RI|]. split; [|now rewrite app_nil_r]. apply arrived_none; [exact AR|].
    intros it X _. destruct (arrives_act _ _ _ _ _ _ HH HI TY X) as (mm & m & -> & AM & DE). rewrite FI in AM.
    pose proof (act_complete _ _ _ _ AM IB DE) as AC. rewrite <- RA in AC. congruence.
  - (* actisense: read error *)
    destruct SW as (TY & IN & LN & RD & RA). destruct (firstn_more _ _ _ _ IN) as (FI & LE & IN2).
    assert (input_of ifc = (firstn pos (input_of ifc) ++ [ev]) ++ rest) as IN3 by (rewrite <- FI; exact IN2).
    pose proof (input_ok_app _ _ _ IO IN3) as IB.
    pose proof (act_byte_inv r _ ev IB RD) as K. rewrite B in K.
    split; [exact CI|]. split; [auto|]. exists h, (S pos), ps. split; [exact HH|]. split; [exact EX|]. split; [now left|]. split; [lia|]. cbn [List.length] in LN. split.
    { split; [exact TY|]. split; [exact IN2|]. split; [lia|]. rewrite FI. split; [now apply act_reader_0|]. rewrite act_after_snoc, <- RA. unfold act_next. now rewrite B. }
    split; [exact RI|]. split; [|now rewrite app_nil_r]. apply arrived_none; [exact AR|].
    intros it X _. destruct (arrives_act _ _ _ _ _ _ HH HI TY X) as (mm & m & -> & AM & DE). rewrite FI in AM.
    pose proof (act_complete _ _ _ _ AM IB DE) as AC. rewrite <- RA in AC. congruence.
  - (* actisense: message *)
    destruct SW as (TY & IN & LN & RD & RA). destruct (firstn_more _ _ _ _ IN) as (FI & LE & IN2).
    assert (input_of ifc = (firstn pos (input_of ifc) ++ [ev]) ++ rest) as IN3 by (rewrite <- FI; exact IN2).
    pose proof (input_ok_app _ _ _ IO IN3) as IB.
    pose proof (act_byte_inv r _ ev IB RD) as K. rewrite B in K. destruct K as (K1 & mm & K2 & K3 & K4).
    split; [exact CI|]. split; [auto|]. exists h, (S pos), (ps ++ [(S pos, IRaw m)]). split; [exact HH|]. split; [exact EX|]. split; [now left|]. split; [lia|]. cbn [List.length] in LN. split.
    { split; [exact TY|]. split; [exact IN2|]. split; [lia|]. rewrite FI. split; [now apply act_reader_0|]. rewrite act_after_snoc, <- RA. unfold act_next. now rewrite B. }
    split; [eapply arrived_rising; eassumption|]. split.
    { apply arrived_one; [exact AR|eapply ar_actisense; eauto; now rewrite FI|exact I|].
      intros it X _. destruct (arrives_act _ _ _ _ _ _ HH HI TY X) as (mm' & m' & -> & AM & DE). rewrite FI in AM.
      pose proof (act_complete _ _ _ _ AM IB DE) as AC. rewrite <- RA in AC. congruence. }
    rewrite map_app. apply Forall2_app; [exact F2|]. constructor; [|constructor]. cbn. eauto.
  - (* a line *)
    destruct SW as (TY & IN & LN). destruct (firstn_more _ _ _ _ IN) as (FI & LE & IN2).
    assert (nth_error (file_lines (if_text ifc)) pos = Some l) as NT.
    { rewrite IN. assert (List.length (firstn pos (file_lines (if_text ifc))) = pos) as Q by (rewrite firstn_length; lia).
      rewrite nth_error_app2 by lia. rewrite Q, Nat.sub_diag. reflexivity. }
    split; [exact CI|]. split; [auto|]. exists h, (S pos), (ps ++ [(S pos, ILine l)]). split; [exact HH|]. split; [exact EX|]. split; [now left|]. split; [lia|]. cbn [List.length] in LN. split.
    { split; [exact TY|]. split; [exact IN2|]. lia. }
    split; [eapply arrived_rising; eassumption|]. split.
    { apply arrived_one; [exact AR|eapply file_arrives; eassumption|cbn; eauto|].
      intros it X _. destruct (arrives_file _ _ _ _ _ _ HH HI TY X) as (k & l' & Q & -> & N'). injection Q as <-. congruence. }
    rewrite map_app. apply Forall2_app; [exact F2|]. constructor; [|constructor]. exact FC.
  - (* a line that is not used *)
    destruct SW as (TY & IN & LN). destruct (firstn_more _ _ _ _ IN) as (FI & LE & IN2).
    assert (nth_error (file_lines (if_text ifc)) pos = Some l) as NT.
    { rewrite IN. assert (List.length (firstn pos (file_lines (if_text ifc))) = pos) as Q by (rewrite firstn_length; lia).
      rewrite nth_error_app2 by lia. rewrite Q, Nat.sub_diag. reflexivity. }
    split; [exact CI|]. split; [auto|]. exists h, (S pos), ps. split; [exact HH|]. split; [exact EX|]. split; [now left|]. split; [lia|]. cbn [List.length] in LN. split.
    { split; [exact TY|]. split; [exact IN2|]. lia. }
    split; [exact RI|]. split; [|now rewrite app_nil_r]. apply arrived_none; [exact AR|].
    intros it X Y. destruct (arrives_file _ _ _ _ _ _ HH HI TY X) as (k & l2 & Q & -> & N2). injection Q as <-. destruct Y as (y & Y). congruence.
Qed.

Lemma wire_init ifs : wire_inv ifs [] (sys_init ifs).
Proof.
  unfold wire_inv, sys_init. cbn [y_threads y_can]. rewrite map_length. split; [reflexivity|]. split; [apply can_inv_init|].
  exists [], (fun _ => 0%nat). split; [constructor|]. split; [apply exact_init|]. split; [intros e []|].
  intros i ifc t H1 H2. rewrite nth_error_map, H1 in H2. injection H2 as <-. cbn [th_src src_wire]. split; [auto|]. exists [].
  split; [exact I|]. split; [|constructor]. intros k it. split; [intros []|]. intros (L & A & _). apply arrives_pos in A; [lia|constructor].
Qed.

Lemma wire_run ifs tr s : Forall input_ok ifs -> yrun ifs tr (YOk s) -> wire_inv ifs tr s.
Proof.
  intros IO R. remember (YOk s) as r eqn:Er. revert s Er. induction R as [|tr s0 l r R IH ST]; intros s Er.
  - injection Er as <-. apply wire_init.
  - subst r. destruct (IH _ eq_refl) as (LEN & CI & h & pos & HH & EX & BD & ALL).
    assert (forall c es w1 w2, (forall i m od, l <> YHand i m od) -> wire_inv ifs (tr ++ [l]) (mksys (y_can s0) (y_threads s0) c es w1 w2)) as SAME.
    { intros c es w1 w2 NH. split; [exact LEN|]. cbn [y_threads y_can]. split; [exact CI|]. exists h, pos. split; [exact HH|]. split; [exact EX|]. split; [exact BD|]. intros i ifc t A B.
      rewrite handled_from_snoc. replace (match l with YHand j m _ => if Nat.eqb j i then [m] else [] | _ => [] end) with (@nil parsed).
      - rewrite app_nil_r. now apply ALL.
      - destruct l; try reflexivity. now destruct (NH i0 m order). }
    inversion ST as [? i t st' t' HT TS E1 E2| |? i src m order c' es HT TD PM HD E1 E2| |? b es w TD HB E1 E2|? b es w TD HB E1 E2
      |? e es TD N1 N2 E1 E2|? hl w N1 N2 HS E1 E2| |? hl w N1 N2 HS E1 E2|]; subst; try (apply SAME; congruence).
    + split; [cbn [y_threads]; now rewrite (set_thread_length _ _ _ _ HT)|]. cbn [y_threads y_can].
      assert (exists a, nth_error ifs i = Some a) as [a HA].
      { destruct (nth_error ifs i) eqn:X; [eauto|]. apply nth_error_None in X.
        assert (i < List.length (y_threads s0))%nat by (apply nth_error_Some; congruence). lia. }
      destruct (ALL _ _ _ HA HT) as (SW & ps & RI & AR & F2).
      assert (input_ok a) as IA by (rewrite Forall_forall in IO; apply IO; eapply nth_error_In; exact HA).
      assert (forall e, In e h -> en_if e = i -> (en_pos e <= pos i)%nat) as BDi by (intros e I J; specialize (BD e I); now rewrite J in BD).
      destruct (tstep_wire ifs i a _ _ _ _ h (pos i) ps _ HA IA CI EX HH BDi SW RI AR F2 TS)
        as (CI' & MO & h' & n & ps' & HH' & EX' & HX & LE & SW' & RI' & AR' & F2').
      split; [exact CI'|]. exists h', (fun j => if Nat.eqb j i then n else pos j). split; [exact HH'|]. split; [exact EX'|]. split.
      { intros e I. assert (In e h -> (en_pos e <= (if Nat.eqb (en_if e) i then n else pos (en_if e)))%nat) as Q.
        { intros J. specialize (BD e J). destruct (Nat.eqb_spec (en_if e) i) as [X|X]; [rewrite X in BD; lia|exact BD]. }
        destruct HX as [->|(f & o & ->)]; [now apply Q|]. apply in_app_or in I as [I|[<-|[]]]; [now apply Q|]. cbn [en_if en_pos]. now rewrite Nat.eqb_refl. }
      intros k ifc tk A B. rewrite handled_from_snoc, app_nil_r.
      rewrite (set_thread_nth _ _ _ _ k HT) in B. destruct (Nat.eqb_spec k i) as [->|N].
      * injection B as <-. rewrite HA in A. injection A as <-. split; [exact SW'|]. exists ps'. auto.
      * assert (same_at k h h') as SA by (destruct HX as [->|(f & o & ->)]; [apply same_at_refl|apply same_at_snoc; cbn; congruence]).
        destruct (ALL _ _ _ A B) as (SWk & pk & Rk & Ak & Fk). split; [eapply src_same; [exact SA|]; eapply src_grows; eauto|].
        exists pk. split; [exact Rk|]. split; [eapply arrived_same; eassumption|exact Fk].
    + split; [cbn [y_threads]; now rewrite (set_thread_length _ _ _ _ HT)|]. cbn [y_threads y_can]. split; [exact CI|].
      exists h, pos. split; [exact HH|]. split; [exact EX|]. split; [exact BD|]. intros k ifc tk A B. rewrite handled_from_snoc.
      rewrite (set_thread_nth _ _ _ _ k HT) in B. destruct (Nat.eqb_spec k i) as [->|N].
      * injection B as <-. rewrite Nat.eqb_refl. destruct (ALL _ _ _ A HT) as (SW & ps & RI & AR & F2). split; [exact SW|]. exists ps.
        unfold outs in *. cbn [th_out th_src] in *. rewrite app_nil_r. auto.
      * destruct (Nat.eqb_spec i k); [congruence|]. rewrite app_nil_r. now apply ALL.
Qed.

Lemma src_read i ifc st h n s t : nth_error (y_threads s) i = Some t -> src_wire i ifc st h n (th_src t) -> read_by ifc s i n.
Proof.
  intros HT SW. unfold read_by. rewrite HT. destruct t as [src o]. cbn [th_src] in SW. destruct src as [j|p r rest|r rest|lines]; cbn [src_wire] in SW.
  - apply SW.
  - apply SW.
  - apply SW.
  - destruct (C74_splits (if_text ifc)) as (full & la & SP). exists full, la. split; [exact SP|].
    rewrite (Forall2_len _ _ _ (C74_lines _ _ _ SP)). apply SW.
Qed.

(** C105.  There is a history of the frames of all canusb interfaces such that for every interface:
    of the first n pieces of its input (those it has read) no frame is missing in the history, and
    the messages handled and the one that may be waiting are the decoded forms of exactly those
    items that have arrived in these n pieces, in order. *)
Theorem C105_wire ifs tr s : Forall input_ok ifs -> yrun ifs tr (YOk s) ->
  exists h, history tbl ifs h /\ forall i ifc, nth_error ifs i = Some ifc ->
    exists n ps, read_by ifc s i n /\ (forall e, In e h -> en_if e = i -> (en_pos e <= n)%nat) /\ (if_type ifc = str "canusb" -> complete h i n (input_of ifc)) /\
      rising 0 (map fst ps) /\ (forall k it, In (k, it) ps <-> (k <= n)%nat /\ arrives_in ifs h i k it /\ usable it) /\
      Forall2 decodes (map snd ps) (handled_from i tr ++ waiting s i).
Proof.
  intros IO R. destruct (wire_run _ _ _ IO R) as (LEN & _ & h & pos & HH & _ & BD & ALL). exists h. split; [exact HH|]. intros i ifc HI.
  assert (exists t, nth_error (y_threads s) i = Some t) as [t HT].
  { destruct (nth_error (y_threads s) i) eqn:X; [eauto|]. apply nth_error_None in X. assert (i < List.length ifs)%nat by (apply nth_error_Some; congruence). lia. }
  destruct (ALL _ _ _ HI HT) as (SW & ps & RI & AR & F2). exists (pos i), ps. split; [eapply src_read; eassumption|].
  split; [intros e I <-; now apply BD|]. split.
  { intros TY. destruct (th_src t) as [j|p r rest|r rest|lines]; cbn [src_wire] in SW.
    - destruct SW as [_ ->]. intros k l ty id data L CL. replace k with 0%nat in CL by lia. cbn [firstn] in CL. now apply can_line_nil in CL.
    - apply SW.
    - destruct SW as [Q _]. rewrite TY in Q. discriminate Q.
    - destruct SW as [Q _]. rewrite TY in Q. discriminate Q. }
  split; [exact RI|]. split; [exact AR|]. unfold waiting. rewrite HT. exact F2.
Qed.

Lemma read_by_fun ifc s i n n' : read_by ifc s i n -> read_by ifc s i n' -> n = n'.
Proof.
  unfold read_by. intros A B. destruct (nth_error (y_threads s) i) as [[[j|p r rest|r rest|lines] o]|].
  - congruence.
  - lia.
  - lia.
  - destruct A as (f1 & l1 & S1 & E1), B as (f2 & l2 & S2 & E2). destruct (C74_unique _ _ _ _ _ S1 S2) as [-> ->]. lia.
  - destruct A.
Qed.

(** As long as the program runs, none of the messages that have arrived is fatal. *)
Lemma arrived_decodes ifs tr s : Forall input_ok ifs -> yrun ifs tr (YOk s) ->
  exists h, history tbl ifs h /\ forall i ifc n k it, nth_error ifs i = Some ifc -> read_by ifc s i n -> (k <= n)%nat -> arrives_in ifs h i k it -> usable it ->
    exists x, In x (handled_from i tr ++ waiting s i) /\ decodes it x.
Proof.
  intros IO R. destruct (C105_wire _ _ _ IO R) as (h & HH & ALL). exists h. split; [exact HH|]. intros i ifc n k it HI RB LE A U.
  destruct (ALL i ifc HI) as (n' & ps & RB' & _ & _ & _ & AR & F2).
  pose proof (read_by_fun _ _ _ _ _ RB RB') as <-.
  assert (In (k, it) ps) as I by (apply AR; auto). apply (in_map snd) in I. cbn [snd] in I.
  clear - F2 I. induction F2 as [|a x la lx D F IH]; [destruct I|]. destruct I as [->|I].
  - exists x. split; [now left|exact D].
  - destruct (IH I) as (y & Y1 & Y2). exists y. split; [now right|exact Y2].
Qed.

Lemma open_quiet a c b q : open_line a c b -> b <> [] -> quiet q -> exists more, open_line (a ++ q) c (b ++ more) /\ List.length more = List.length q.
Proof.
  intros O NB. induction q as [|ev q IH] using rev_ind; intros Q; [exists []; rewrite !app_nil_r; auto|].
  apply quiet_app in Q as [Q1 [Q2 Q3]]. destruct (IH Q1) as (more & (pre & seg & n & E & NE & NO & S & F) & L).
  set (x := seen_byte 0 seg ev). exists (more ++ [x]). split; [|rewrite !app_length; cbn; lia].
  exists pre, (seg ++ [ev]), n. split; [now rewrite !app_assoc, E|]. split; [intros X; apply in_app_or in X as [X|X]; auto|].
  split; [rewrite noticed_snoc, NO; fold x; cbn [app]; now rewrite !app_assoc|]. split; [exact S|]. rewrite app_assoc. apply Forall_app. split; [exact F|]. constructor; [|constructor].
  subst x. unfold seen_byte. destruct ev as [y| |].
  - apply Q3. now left.
  - rewrite NO. change (not_start (List.last ((c :: repeat c n) ++ (b ++ more)) 0)). assert (b ++ more <> []) as NM by (destruct b; [congruence|discriminate]).
    destruct (snoc_cases (b ++ more)) as [X|(z & y & X)]; [congruence|]. rewrite X, app_assoc, last_last. rewrite X in F. apply Forall_app in F as [_ F]. now inversion F.
  - elim Q2. now left.
Qed.
Lemma fresh_unused ifs h i ifc k l : history tbl ifs h -> nth_error ifs i = Some ifc -> (k <= List.length (input_of ifc))%nat ->
  fresh_line (firstn k (input_of ifc)) l -> ~ used_up h i k (input_of ifc).
Proof.
  intros HH HI LE FL (e & m & I & EI & _ & LT & Q). destruct (history_entry _ _ _ HH I) as (ifc' & H1 & _ & _ & l' & ty & id & data & _ & CL & _).
  rewrite EI, HI in H1. injection H1 as <-. destruct CL as (pre & seg & c & n & body & E1 & NE1 & N1 & S1 & F1 & _).
  assert (open_line (firstn (en_pos e) (input_of ifc)) c (body ++ [13])) as O1.
  { exists pre, seg, n. repeat split; auto. apply Forall_app. split; [exact F1|]. constructor; [apply not_start_13|constructor]. }
  destruct (open_quiet _ _ _ _ O1 ltac:(destruct body; discriminate) Q) as (more & O2 & LM).
  rewrite <- (firstn_skipn (en_pos e) (firstn k (input_of ifc))) in FL. rewrite firstn_firstn in FL. replace (Nat.min (en_pos e) k) with (en_pos e) in FL by lia.
  destruct FL as (pre' & seg' & c' & n' & body' & E2 & NE2 & N2 & S2 & F2 & N13 & _).
  assert (open_line (firstn (en_pos e) (input_of ifc) ++ skipn (en_pos e) (firstn k (input_of ifc))) c' (body' ++ [13])) as O3.
  { exists pre', seg', n'. repeat split; auto. apply Forall_app. split; [exact F2|]. constructor; [apply not_start_13|constructor]. }
  destruct (open_unique _ _ _ _ _ O2 O3) as [_ X]. rewrite skipn_length, firstn_length in LM. destruct (snoc_cases more) as [->|(z & y & ->)]; [cbn in LM; lia|].
  rewrite app_assoc in X. apply app_inj_tail in X as [X _]. apply N13. rewrite <- X, <- app_assoc. apply in_or_app. right. now left.
Qed.

(** Nothing is lost: of the part of its input that a canusb interface has read, every frame whose
    PGN needs no fast packets has been handled or is waiting, at the first carriage return that
    ends its line; of that part of the input of an NGT every message, and of that part of a file
    every line that is a message. *)
Theorem C105_complete ifs tr s i ifc n k l ty id data : Forall input_ok ifs -> yrun ifs tr (YOk s) -> nth_error ifs i = Some ifc -> if_type ifc = str "canusb" ->
  read_by ifc s i n -> (k <= n)%nat -> (k <= List.length (input_of ifc))%nat -> fresh_line (firstn k (input_of ifc)) l -> frame_text l ty id data -> ~ fast_pgn tbl (id_pgn id) ->
  exists x, In x (handled_from i tr ++ waiting s i) /\ decodes (IRaw (frame_message id data)) x.
Proof.
  intros IO R HI TY RB LE LI FL FT NF. destruct (C105_wire _ _ _ IO R) as (h & HH & ALL).
  destruct (ALL i ifc HI) as (n' & ps & RB' & _ & CO & _ & AR & F2).
  pose proof (read_by_fun _ _ _ _ _ RB RB') as <-.
  assert (can_line (firstn k (input_of ifc)) l) as CL.
  { destruct FL as (pre & seg & c & m & body & E & NE & NO & S & F & N13 & ->). exists pre, seg, c, m, body. repeat split; auto. now rewrite no_cr. }
  destruct (CO TY k l ty id data LE CL FT) as [U|(o & I)]; [now elim (fresh_unused _ _ _ _ _ _ HH HI LI FL)|].
  assert (o = Some (frame_message id data)) as ->.
  { clear - HH I NF. induction HH as [|h i0 ifc0 n0 l0 ty0 id0 data0 o0 HH IH H1 H2 H3 H4 H5 H6 H7 GV]; [destruct I|].
    apply in_app_or in I as [I|[I|[]]]; [auto|]. pose proof (f_equal en_frame I) as E. pose proof (f_equal en_out I) as E2. cbn [en_frame en_out] in E, E2. subst o0.
    rewrite E in GV. assert (~ fast_pgn tbl (rm_pgn (cf_raw (frame_of ty id data)))) as NF2 by exact NF.
    pose proof (gv_single tbl (map en_frame h) _ NF2) as G. exact (gives_fun _ _ _ _ _ GV G). }
  assert (In (k, IRaw (frame_message id data)) ps) as J by (apply AR; split; [exact LE|]; split; [eapply ar_canusb; exact I|exact Logic.I]).
  apply (in_map snd) in J. cbn [snd] in J. clear - F2 J. induction F2 as [|a x la lx D F IH]; [destruct J|]. destruct J as [->|J].
  - exists x. split; [now left|exact D].
  - destruct (IH J) as (y & Y1 & Y2). exists y. split; [now right|exact Y2].
Qed.
Theorem C105_complete_ngt ifs tr s i ifc n k mm m : Forall input_ok ifs -> yrun ifs tr (YOk s) -> nth_error ifs i = Some ifc -> if_type ifc = str "actisense" ->
  read_by ifc s i n -> (k <= n)%nat -> (k <= List.length (input_of ifc))%nat -> act_message (firstn k (input_of ifc)) mm -> delivers mm m ->
  exists x, In x (handled_from i tr ++ waiting s i) /\ decodes (IRaw m) x.
Proof.
  intros IO R HI TY RB LE LI AM DE. destruct (arrived_decodes _ _ _ IO R) as (h & HH & ALL). apply (ALL i ifc n k); auto; [eapply ar_actisense; eauto|exact I].
Qed.
Theorem C105_complete_file ifs tr s i ifc n full last k raw l y : Forall input_ok ifs -> yrun ifs tr (YOk s) -> nth_error ifs i = Some ifc -> if_type ifc = str "file" ->
  splits (if_text ifc) full last -> read_by ifc s i n -> (k < n)%nat -> nth_error (before_long (lines_of full last)) k = Some raw -> stripped raw l ->
  decodes (ILine l) y -> In y (handled_from i tr ++ waiting s i).
Proof.
  intros IO R HI TY SP RB LE NT ST DE. destruct (arrived_decodes _ _ _ IO R) as (h & HH & ALL).
  destruct (ALL i ifc n (S k) (ILine l)) as (x & X1 & X2); auto; [eapply ar_file; eauto|exists y; exact DE|]. cbn in DE, X2. congruence.
Qed.
End Wire.

(* ------------------------------------------------------------ one adapter *)

Lemma history_last tbl ifs h e : history tbl ifs (h ++ [e]) -> exists ifc l ty id data, history tbl ifs h /\ nth_error ifs (en_if e) = Some ifc /\ if_type ifc = str "canusb" /\
  (en_pos e <= List.length (input_of ifc))%nat /\ (forall x, In x h -> en_if x = en_if e -> (en_pos x < en_pos e)%nat) /\
  can_line (firstn (en_pos e) (input_of ifc)) l /\ frame_text l ty id data /\ en_frame e = frame_of ty id data /\ ~ used_up h (en_if e) (en_pos e) (input_of ifc) /\
  gives tbl (map en_frame h) (en_frame e) (en_out e).
Proof.
  intros H. inversion H as [E|h0 i ifc n l ty id data o HH H1 H2 H3 H4 H5 H6 H7 H8 E]; [destruct h; discriminate E|]. apply app_inj_tail in E as [<- <-].
  exists ifc, l, ty, id, data. cbn [en_if en_pos en_frame en_out]. auto 15.
Qed.
Lemma can_line_fun evs l l' : can_line evs l -> can_line evs l' -> l = l'.
Proof.
  destruct (snoc_cases evs) as [->|(d & ev & ->)]; [intros X; now apply can_line_nil in X|]. intros A B.
  apply can_line_open in A as (c & b & O & _ & -> & _). apply can_line_open in B as (c' & b' & O' & _ & -> & _). now destruct (open_unique _ _ _ _ _ O O') as [-> ->].
Qed.
Lemma complete_before h e i n evs : complete (h ++ [e]) i n evs -> (forall x, In x h -> (en_pos x < en_pos e)%nat) -> (en_pos e <= n)%nat -> (0 < en_pos e)%nat ->
  complete h i (pred (en_pos e)) evs.
Proof.
  intros C B L P k l ty id data LK CL FT. destruct (C k l ty id data) as [(x & m & I & U1 & U2 & U3 & U4)|(o & I)]; [lia|exact CL|exact FT| |].
  - left. exists x, m. apply in_app_or in I as [I|[<-|[]]]; [auto|lia].
  - right. exists o. apply in_app_or in I as [I|[E|[]]]; [auto|]. rewrite E in LK, P. cbn [en_pos] in LK, P. lia.
Qed.
Lemma complete_less h i n n' evs : complete h i n evs -> (n' <= n)%nat -> complete h i n' evs.
Proof. intros C L k l ty id data LK. apply C. lia. Qed.

Lemma history_unique tbl ifs i ifc : nth_error ifs i = Some ifc -> forall m h1 h2 n, (List.length h1 + List.length h2 <= m)%nat ->
  history tbl ifs h1 -> history tbl ifs h2 -> (forall e, In e h1 -> en_if e = i /\ (en_pos e <= n)%nat) -> (forall e, In e h2 -> en_if e = i /\ (en_pos e <= n)%nat) ->
  complete h1 i n (input_of ifc) -> complete h2 i n (input_of ifc) -> h1 = h2.
Proof.
  intros HI.
  assert (forall h e, history tbl ifs (h ++ [e]) -> (0 < en_pos e)%nat) as POS.
  { intros h e H. apply history_last in H as (ifc' & l & ty & id & data & _ & _ & _ & _ & _ & CL & _). destruct (en_pos e); [|lia]. cbn [firstn] in CL. now apply can_line_nil in CL. }
  (* h1 ends before the last entry of h2 *)
  assert (forall h1 h2 e n, history tbl ifs h1 -> history tbl ifs (h2 ++ [e]) -> (forall x, In x h1 -> en_if x = i /\ (en_pos x < en_pos e)%nat) ->
    (forall x, In x (h2 ++ [e]) -> en_if x = i /\ (en_pos x <= n)%nat) -> complete h1 i n (input_of ifc) -> complete (h2 ++ [e]) i n (input_of ifc) ->
    (history tbl ifs h2 -> complete h1 i (pred (en_pos e)) (input_of ifc) -> complete h2 i (pred (en_pos e)) (input_of ifc) -> h1 = h2) -> False) as LESS.
  { intros h1 h2 e n H1 H2 B1 B2 C1 C2 IH. pose proof (POS _ _ H2) as PE. destruct (B2 e) as [EI LN]; [apply in_or_app; right; now left|].
    apply history_last in H2 as (ifc' & l & ty & id & data & HH & H3 & _ & _ & BD & CL & FT & EF & NU & _). rewrite EI, HI in H3. injection H3 as <-.
    assert (forall x, In x h2 -> (en_pos x < en_pos e)%nat) as BD2.
    { intros x I. apply BD; [exact I|]. rewrite EI. apply B2. apply in_or_app. now left. }
    assert (h1 = h2) as -> by (apply IH; [exact HH|eapply complete_less; [exact C1|lia]|eapply complete_before; eassumption]).
    destruct (C1 (en_pos e) l ty id data LN CL FT) as [U|(o & I)]; [rewrite EI in NU; contradiction|]. apply BD2 in I. cbn in I. lia. }
  induction m as [|m IH]; intros h1 h2 n L H1 H2 B1 B2 C1 C2; destruct (snoc_cases h1) as [->|(h1' & e1 & ->)]; destruct (snoc_cases h2) as [->|(h2' & e2 & ->)];
    try reflexivity; try (rewrite ?app_length in L; cbn in L; lia).
  - exfalso. rewrite !app_length in L. cbn [List.length] in L. eapply (LESS [] h2' e2 n); eauto; [intros x []|]. intros H C C'. eapply (IH [] h2' (pred (en_pos e2))); eauto; [cbn [List.length]; lia|intros x []|].
    pose proof (POS _ _ H2). apply history_last in H2 as (qa & qb & qc & qd & qe & _ & _ & _ & _ & BD & _). intros x I. destruct (B2 x) as [X _]; [apply in_or_app; now left|]. split; [exact X|].
    destruct (B2 e2) as [Y _]; [apply in_or_app; right; now left|]. specialize (BD x I ltac:(congruence)). lia.
  - exfalso. rewrite !app_length in L. cbn [List.length] in L. eapply (LESS [] h1' e1 n); eauto; [intros x []|]. intros H C C'. eapply (IH [] h1' (pred (en_pos e1))); eauto; [cbn [List.length]; lia|intros x []|].
    pose proof (POS _ _ H1). apply history_last in H1 as (qa & qb & qc & qd & qe & _ & _ & _ & _ & BD & _). intros x I. destruct (B1 x) as [X _]; [apply in_or_app; now left|]. split; [exact X|].
    destruct (B1 e1) as [Y _]; [apply in_or_app; right; now left|]. specialize (BD x I ltac:(congruence)). lia.
  - rewrite !app_length in L. cbn [List.length] in L. pose proof (POS _ _ H1) as P1. pose proof (POS _ _ H2) as P2.
    destruct (B1 e1) as [I1 N1]; [apply in_or_app; right; now left|]. destruct (B2 e2) as [I2 N2]; [apply in_or_app; right; now left|].
    assert (forall x, In x h1' -> en_if x = i /\ (en_pos x < en_pos e1)%nat) as BB1.
    { destruct (history_last _ _ _ _ H1) as (qa & qb & qc & qd & qe & _ & _ & _ & _ & BD & _). intros x I. destruct (B1 x) as [X _]; [apply in_or_app; now left|]. split; [exact X|]. apply BD; [exact I|congruence]. }
    assert (forall x, In x h2' -> en_if x = i /\ (en_pos x < en_pos e2)%nat) as BB2.
    { destruct (history_last _ _ _ _ H2) as (qa & qb & qc & qd & qe & _ & _ & _ & _ & BD & _). intros x I. destruct (B2 x) as [X _]; [apply in_or_app; now left|]. split; [exact X|]. apply BD; [exact I|congruence]. }
    destruct (Nat.lt_trichotomy (en_pos e1) (en_pos e2)) as [LT|[EQ|GT]].
    + exfalso. eapply (LESS (h1' ++ [e1]) h2' e2 n); eauto.
      * intros x I. split; [apply B1, I|]. apply in_app_or in I as [I|[<-|[]]]; [apply BB1 in I; lia|exact LT].
      * intros HH C C'. eapply (IH (h1' ++ [e1]) h2' (pred (en_pos e2))); eauto; [rewrite app_length; cbn [List.length]; lia| |].
        -- intros x I. split; [apply B1, I|]. apply in_app_or in I as [I|[<-|[]]]; [apply BB1 in I; lia|lia].
        -- intros x I. apply BB2 in I. split; [apply I|lia].
    + destruct (history_last _ _ _ _ H1) as (ifa & la & tya & ida & da & HA & A1 & _ & _ & _ & CLa & FTa & EFa & _ & Ga).
      destruct (history_last _ _ _ _ H2) as (ifb & lb & tyb & idb & db & HB & A2 & _ & _ & _ & CLb & FTb & EFb & _ & Gb).
      rewrite I1, HI in A1. injection A1 as <-. rewrite I2, HI in A2. injection A2 as <-. rewrite EQ in CLa.
      rewrite (can_line_fun _ _ _ CLa CLb) in FTa. pose proof (frame_text_fun _ _ _ _ _ _ _ FTa FTb) as EF. rewrite <- EFa, <- EFb in EF.
      assert (h1' = h2') as ->.
      { eapply (IH h1' h2' (pred (en_pos e1))); eauto; [lia| | | |].
        - intros x I. apply BB1 in I. split; [apply I|lia].
        - intros x I. apply BB2 in I. split; [apply I|lia].
        - eapply complete_before; eauto. intros x I. now apply BB1 in I.
        - rewrite EQ. eapply complete_before; eauto. intros x I. now apply BB2 in I. }
      f_equal. f_equal. rewrite EF in Ga. pose proof (gives_fun _ _ _ _ _ Ga Gb) as EO. destruct e1, e2. cbn in *. congruence.
    + exfalso. eapply (LESS (h2' ++ [e2]) h1' e1 n); eauto.
      * intros x I. split; [apply B2, I|]. apply in_app_or in I as [I|[<-|[]]]; [apply BB2 in I; lia|exact GT].
      * intros HH C C'. eapply (IH (h2' ++ [e2]) h1' (pred (en_pos e1))); eauto; [rewrite app_length; cbn [List.length]; lia| |].
        -- intros x I. split; [apply B2, I|]. apply in_app_or in I as [I|[<-|[]]]; [apply BB2 in I; lia|lia].
        -- intros x I. apply BB1 in I. split; [apply I|lia].
Qed.

(** With one canusb interface the history holds its frames only, whatever the other interfaces are. *)
Lemma history_sole tbl ifs i ifc h : one_canusb ifs -> nth_error ifs i = Some ifc -> if_type ifc = str "canusb" -> history tbl ifs h -> forall e, In e h -> en_if e = i.
Proof.
  intros OC HI TY HH e I. destruct (history_entry _ _ _ _ HH I) as (ifj & J1 & J2 & _). destruct (Nat.eq_dec (en_if e) i) as [E|N]; [exact E|exfalso].
  assert (is_canusb ifc = true) as C1 by (unfold is_canusb; rewrite TY; reflexivity).
  assert (is_canusb ifj = true) as C2 by (unfold is_canusb; rewrite J2; reflexivity).
  assert (is_canusb ifj = false) by (eapply (one_canusb_other ifs i (en_if e)); eauto). congruence.
Qed.
Lemma history_move tbl ifs ifs' i ifc h : nth_error ifs i = Some ifc -> nth_error ifs' i = Some ifc -> (forall e, In e h -> en_if e = i) ->
  history tbl ifs h -> history tbl ifs' h.
Proof.
  intros HI HI' ON HH. induction HH as [|h j ifj n l ty id data o HH IH H1 H2 H3 H4 H5 H6 H7 H8]; [constructor|].
  assert (j = i) as -> by (apply (ON (mken j n (frame_of ty id data) o)); apply in_or_app; right; now left).
  rewrite HI in H1. injection H1 as <-. eapply hi_frame; eauto. apply IH. intros e I. apply ON. apply in_or_app. now left.
Qed.
Lemma rising_same (A : Type) (l : list (nat * A)) : forall l' a, rising a (map fst l) -> rising a (map fst l') -> (forall x, In x l <-> In x l') -> l = l'.
Proof.
  assert (forall (q : list (nat * A)) a x, rising a (map fst q) -> In x q -> (a < fst x)%nat) as LOW.
  { induction q as [|y q IH]; intros a x R I; [destruct I|]. cbn [map rising] in R. destruct R as [R1 R2]. destruct I as [->|I]; [exact R1|]. specialize (IH _ _ R2 I). lia. }
  induction l as [|x l IH]; intros [|y l'] a R R' E; [reflexivity|exfalso; apply (E y); now left|exfalso; apply (E x); now left|].
  cbn [map rising] in R, R'. destruct R as [R1 R2], R' as [R1' R2'].
  assert (x = y) as <-.
  { destruct (proj1 (E x) (or_introl eq_refl)) as [X|X]; [now symmetry|]. destruct (proj2 (E y) (or_introl eq_refl)) as [Y|Y]; [exact Y|].
    apply (LOW _ _ _ R2') in X. apply (LOW _ _ _ R2) in Y. lia. }
  f_equal. apply (IH l' (fst x)); [exact R2|exact R2'|]. intros z. split; intros I.
  - destruct (proj1 (E z) (or_intror I)) as [<-|J]; [|exact J]. apply (LOW _ _ _ R2) in I. lia.
  - destruct (proj2 (E z) (or_intror I)) as [<-|J]; [|exact J]. apply (LOW _ _ _ R2') in I. lia.
Qed.

(** C105: with at most one canusb interface, the messages of an interface are determined by what has
    been read from it: not by the other interfaces, the schedule, the clients or the options. *)
Theorem C105_function tbl maps maps' opts opts' pl fmtv fmtv' unmarshal marshal marshal' verbose verbose' ifs ifs' tr tr' s s' i ifc n :
  one_canusb ifs -> one_canusb ifs' -> Forall input_ok ifs -> Forall input_ok ifs' -> nth_error ifs i = Some ifc -> nth_error ifs' i = Some ifc ->
  yrun tbl maps opts pl fmtv unmarshal marshal verbose ifs tr (YOk s) -> yrun tbl maps' opts' pl fmtv' unmarshal marshal' verbose' ifs' tr' (YOk s') ->
  read_by ifc s i n -> read_by ifc s' i n ->
  exists items, Forall2 (decodes tbl pl unmarshal) items (handled_from i tr ++ waiting s i) /\
    Forall2 (decodes tbl pl unmarshal) items (handled_from i tr' ++ waiting s' i).
Proof.
  intros OC OC' IO IO' HI HI' R R' RB RB'.
  destruct (C105_wire _ _ _ _ _ _ _ _ _ _ _ IO R) as (h & HH & ALL). destruct (C105_wire _ _ _ _ _ _ _ _ _ _ _ IO' R') as (h' & HH' & ALL').
  destruct (ALL i ifc HI) as (n1 & ps & B1 & LE & CO & RI & AR & F2). destruct (ALL' i ifc HI') as (n2 & ps' & B2 & LE' & CO' & RI' & AR' & F2').
  pose proof (read_by_fun _ _ _ _ _ RB B1) as <-. pose proof (read_by_fun _ _ _ _ _ RB' B2) as <-.
  assert (forall k it, arrives_in ifs h i k it <-> arrives_in ifs' h' i k it) as SAME.
  { destruct (list_eq_dec Z.eq_dec (if_type ifc) (str "canusb")) as [TY|NT].
    - pose proof (history_sole _ _ _ _ _ OC HI TY HH) as ON. pose proof (history_sole _ _ _ _ _ OC' HI' TY HH') as ON'.
      assert (h = h') as <-.
      { apply (history_unique tbl ifs i ifc HI _ h h' n (le_n _)); [exact HH|exact (history_move _ _ _ _ _ _ HI' HI ON' HH')| | |exact (CO TY)|exact (CO' TY)].
        - intros e I. split; [auto|]. apply LE; auto.
        - intros e I. split; [auto|]. apply LE'; auto. }
      intros k it. split; intros A; [destruct (arrives_canusb _ _ _ _ _ _ HI TY A) as (f & m & -> & J)|destruct (arrives_canusb _ _ _ _ _ _ HI' TY A) as (f & m & -> & J)]; eapply ar_canusb; exact J.
    - assert (forall q hq k it, nth_error q i = Some ifc -> history tbl q hq -> arrives_in q hq i k it ->
        forall q' hq', nth_error q' i = Some ifc -> arrives_in q' hq' i k it) as MV.
      { intros q hq k it Q HQ A q' hq' Q'. inversion A as [f m I|ifc' mm m HA TA L AM DE|ifc' full la k0 raw l HA TA E SP NO ST]; subst.
        - destruct (history_entry _ _ _ _ HQ I) as (ifj & J1 & J2 & _). cbn [en_if] in J1. rewrite Q in J1. injection J1 as <-. contradiction.
        - rewrite Q in HA. injection HA as <-. eapply ar_actisense; eauto.
        - rewrite Q in HA. injection HA as <-. eapply ar_file; eauto. }
      intros k it. split; intros A; eapply MV; try exact A; eauto. }
  assert (ps = ps') as <-.
  { apply (rising_same item ps ps' 0%nat RI RI'). intros [k it]. rewrite (AR k it), (AR' k it), (SAME k it). reflexivity. }
  exists (map snd ps). auto.
Qed.

(* ------------------------------------------------------------ what ends the program *)

(** An interface goroutine that ends the program. *)
Lemma thread_ends maps opts pl fmtv unmarshal marshal verbose ifs tr0 s i t : Forall input_ok ifs ->
  yrun PgnList maps opts pl fmtv unmarshal marshal verbose ifs tr0 (YOk s) ->
  nth_error (y_threads s) i = Some t -> tstep PgnList pl unmarshal (y_can s) t TDead ->
  exists ifc, nth_error ifs i = Some ifc /\ ends PgnList ifs i ifc.
Proof.
  intros IO R0 HT TS. destruct (wire_run _ _ _ _ _ _ _ _ _ _ _ IO R0) as (LEN & CI & h & pos & HH & EX & BD & ALL).
  assert (exists ifc, nth_error ifs i = Some ifc) as [ifc HI].
  { destruct (nth_error ifs i) eqn:X; [eauto|]. apply nth_error_None in X. assert (i < List.length (y_threads s))%nat by (apply nth_error_Some; congruence). lia. }
  exists ifc. split; [exact HI|]. assert (input_ok ifc) as IA by (rewrite Forall_forall in IO; apply IO; eapply nth_error_In; exact HI).
  assert (forall e, In e h -> en_if e = i -> (en_pos e <= pos i)%nat) as BDi by (intros e I <-; now apply BD).
  destruct (ALL _ _ _ HI HT) as (SW & _). clear ALL.
  inversion TS as [? j ES ET E| | |? p r ev rest B ES ET E| |? p r ev rest m st1 B D ES ET E| | |
     ? r ev rest B ES ET E| |? r ev rest m fuel spare w B PP ES ET E| | |? l rest w FC ES ET E]; subst; cbn [th_src th_out src_wire] in *.
  - destruct SW as (-> & _). apply en_start. intros S. apply (boot_started PgnList (y_can s)) in S as (st' & t' & S). congruence.
  - destruct SW as (TY & IN & LN & RD & RG & CO). destruct (firstn_more _ _ _ _ IN) as (FI & LE & IN2).
    pose proof (can_byte_wire PgnList (y_can s) r i _ _ ev h CI RG RD EX FI LE BDi CO) as K. rewrite B in K. destruct K as (l & CL & K).
    eapply (en_line _ _ _ _ (firstn (S (pos i)) (input_of ifc)) rest l); [exact TY|exact IN2|exact CL|exact K].
  - destruct SW as (TY & IN & LN & RD & RG & CO). destruct (firstn_more _ _ _ _ IN) as (FI & LE & IN2).
    pose proof (can_byte_wire PgnList (y_can s) r i _ _ ev h CI RG RD EX FI LE BDi CO) as K. rewrite B in K.
    destruct K as (_ & _ & BO & h' & K3 & _).
    destruct (joins_history PgnList ifs h i ifc (S (pos i)) _ (Some m) h' HH HI TY eq_refl LE) as [HH' (f & ->)]; [|exact K3|].
    { intros e I J. specialize (BDi e I J). lia. }
    destruct D as [(st2 & p2 & w & D)|(fuel & spare & w & D)]; [destruct (claim_same st1 p m) as (p3 & EC); congruence|].
    apply (en_message _ _ _ _ (S (pos i)) m).
    + eexists. split; [exact HH'|]. eapply (ar_canusb _ _ _ _ f). apply in_or_app. right. now left.
    + apply (fatal_behind _ 0 (zlen spare)); [apply zlen_nonneg|]. apply (C43_exact pl m spare BO). eauto.
  - destruct SW as (TY & IN & LN & RD & _). destruct (firstn_more _ _ _ _ IN) as (FI & LE & IN2).
    assert (input_of ifc = (firstn (pos i) (input_of ifc) ++ [ev]) ++ rest) as IN3 by (rewrite <- FI; exact IN2).
    pose proof (act_byte_inv r _ ev (input_ok_app _ _ _ IA IN3) RD) as K. rewrite B in K. destruct K as (m & AM & CR).
    eapply (en_ngt _ _ _ _ _ rest m); eauto.
  - destruct SW as (TY & IN & LN & RD & _). destruct (firstn_more _ _ _ _ IN) as (FI & LE & IN2).
    assert (input_of ifc = (firstn (pos i) (input_of ifc) ++ [ev]) ++ rest) as IN3 by (rewrite <- FI; exact IN2).
    pose proof (act_byte_inv r _ ev (input_ok_app _ _ _ IA IN3) RD) as K. rewrite B in K. destruct K as (_ & mm & AM & BM & DE).
    apply (en_message _ _ _ _ (S (pos i)) m); [exists h; split; [exact HH|]; eapply ar_actisense; eauto; now rewrite FI|].
    assert (bytes_ok (rm_data m)) as BO by (eapply delivered_bytes; eassumption).
    apply (fatal_behind _ 0 (zlen spare)); [apply zlen_nonneg|]. apply (C43_exact pl m spare BO). eauto.
  - now destruct (import_no_panic unmarshal l w).
Qed.

(** C85, exactly: with the PGN table and the mapping it is shipped with, the program ends by itself
    only because of one of the causes [ends]; with another mapping perhaps because of a parameter
    group that makes Delta crash (C51). *)
Theorem C85_exact_any maps opts pl fmtv unmarshal marshal verbose ifs tr : distinct_members unmarshal -> Forall input_ok ifs ->
  yrun PgnList maps opts pl fmtv unmarshal marshal verbose ifs tr YDead ->
  (exists i ifc, nth_error ifs i = Some ifc /\ ends PgnList ifs i ifc) \/
  (exists x path g, decoded x /\ pm_data x <> [] /\ SignalkSpec.group_of maps (rm_pgn (pm_header x)) path g /\ trouble PgnList (pm_index x) path g).
Proof.
  intros DM IO R. inversion R as [|tr0 s l r R0 ST]; subst. destruct (sys_ok_run opts pl fmtv unmarshal marshal verbose DM maps ifs tr0 s IO R0) as (_ & LEN & TI).
  inversion ST as [|? i t HT TS E1 E2 E3| |? i src m od w HT TD PM HD E1 E2 E3| | | | |? l0 N1 N2 HS E1 E2 E3| |? l0 N1 N2 HS E1 E2 E3]; subst.
  - left. exists i. eapply thread_ends; eassumption.
  - right. destruct (nth_error ifs i) as [ifc|] eqn:HI.
    2:{ exfalso. apply nth_error_None in HI. assert (i < List.length (y_threads s))%nat by (apply nth_error_Some; congruence). lia. }
    destruct (TI _ _ _ HI HT) as [_ O]. specialize (O _ eq_refl). exists m.
    assert (exists w', sk_delta (mkenv (pl_tz pl) fmtv PgnList m) maps (vi_order od) = Panic w') as P.
    { unfold handle in HD. cbv zeta in HD.
      assert (exists l, (if shown opts (pm_header m) then print_fields PgnList m verbose else Ret []) = Ret l) as (l & E).
      { destruct (shown opts (pm_header m)); [|eauto]. destruct O as [(fuel & pl0 & m0 & spare & D)|(c0 & N & D)].
        - destruct (C48_print_any _ _ _ _ _ verbose D) as (def & l & _ & E & _). eauto.
        - destruct (C48_import _ _ _ verbose N D) as (def & l & _ & E & _). eauto. }
      rewrite E in HD. destruct (sk_delta _ _ _) as [d|e|e]; [|discriminate HD|eauto]. destruct (marshal (vi_now od) d); discriminate HD. }
    apply C51_panics_iff in P as (NE & path & g & G & T). exists path, g. split; [exact O|]. split; [|auto].
    intros X. rewrite X in PM. apply NE. now apply Permutation_nil, Permutation_sym.
  - exfalso. apply (proj1 (C62_hub_never_dies _ _ _ _ _ _ _ _ ifs tr0 s l0 R0)). exact ST.
  - exfalso. apply (proj2 (C62_hub_never_dies _ _ _ _ _ _ _ _ ifs tr0 s l0 R0)). exact ST.
Qed.
Theorem C85_exact opts pl fmtv unmarshal marshal verbose ifs tr : distinct_members unmarshal -> Forall input_ok ifs ->
  yrun PgnList MapXml opts pl fmtv unmarshal marshal verbose ifs tr YDead ->
  exists i ifc, nth_error ifs i = Some ifc /\ ends PgnList ifs i ifc.
Proof.
  intros DM IO R. destruct (C85_exact_any _ _ _ _ _ _ _ _ _ DM IO R) as [H|(x & path & g & D & NE & G & T)]; [exact H|]. exfalso.
  destruct (proj2 (C51_panics_iff (mkenv (pl_tz pl) fmtv PgnList x) MapXml (pm_data x)) (conj NE (ex_intro _ path (ex_intro _ g (conj G T))))) as [w P].
  exact (C51_shipped_never_panics (pl_tz pl) fmtv x (pm_data x) w D P).
Qed.


(** And conversely: while the program runs, no message that has arrived in the part of the input
    that has been read is fatal (whatever number of bytes lies behind it in its buffer). *)
Lemma act_bytes ifc n m : input_ok ifc -> act_message (firstn n (input_of ifc)) m -> bytes_ok m.
Proof.
  intros IO (pre & seg & raw & _ & E & _ & NO & CT). apply (content_bytes _ _ CT).
  assert (bytes_ok (noticed 0 seg)) as Q.
  { apply noticed_bytes; [unfold is_byte; lia|]. intros x X. apply IO. rewrite <- (firstn_skipn n). apply in_or_app. left. rewrite E. apply in_or_app. now right. }
  rewrite NO in Q. apply (Forall_app _ (16 :: raw) [16; 3]) in Q. apply Q.
Qed.
Lemma collected_in k l fs : collected k l fs -> forall x, In x fs -> In x l.
Proof.
  induction 1 as [|l fs y C IH S Q|l fs y C IH N]; intros x I; [destruct I| |].
  - apply in_app_or in I as [I|I]; apply in_or_app; [left|right]; auto.
  - apply in_or_app. left. auto.
Qed.
Lemma payload_bytes fs : (forall x, In x fs -> bytes_ok (rm_data (cf_raw x))) -> bytes_ok (cont_payload fs).
Proof.
  intros H. unfold cont_payload. apply Forall_forall. intros b I. apply in_flat_map in I as (f & F & B). specialize (H f F). unfold bytes_ok in H. rewrite Forall_forall in H.
  apply H. destruct (rm_data (cf_raw f)); [destruct B|now right].
Qed.
Lemma history_bytes tbl ifs h : history tbl ifs h -> (forall e, In e h -> bytes_ok (rm_data (cf_raw (en_frame e)))) /\
  forall e m, In e h -> en_out e = Some m -> bytes_ok (rm_data m).
Proof.
  induction 1 as [|h i ifc n l ty id data o HH [IH1 IH2] H1 H2 H3 H4 H5 H6 H7 H8]; [split; [intros e []|intros e m []]|].
  destruct (frame_text_id _ _ _ _ H6) as [_ BD]. assert (bytes_ok (rm_data (cf_raw (frame_of ty id data)))) as BF by exact BD.
  split; [intros e I; apply in_app_or in I as [I|[<-|[]]]; auto|]. intros e m I EO. apply in_app_or in I as [I|[<-|[]]]; [eapply IH2; eauto|]. cbn [en_out] in EO. subst o.
  assert (forall x, In x (map en_frame h) -> bytes_ok (rm_data (cf_raw x))) as IH3 by (intros x I; apply in_map_iff in I as (e & <- & I); auto).
  inversion H8 as [N E|L d0 F FF E|f0 L d0 fs F NS IP HS E|h0 r F D NS NP E].
  - exact BF.
  - destruct (L <=? zlen d0); [|discriminate E]. injection E as <-. destruct FF as (hd & D & _). cbn [whole rm_data]. rewrite D in BF. now inversion BF as [|? ? ? BF2]; inversion BF2.
  - destruct (L <=? zlen _); [|discriminate E]. injection E as <-. destruct IP as (h1 & h2 & EH & _ & FF & _ & CL & _). cbn [whole rm_data]. apply Forall_app. split.
    + destruct FF as (hd & D & _). assert (bytes_ok (rm_data (cf_raw f0))) as B0 by (apply IH3; rewrite EH; apply in_or_app; right; now left).
      rewrite D in B0. now inversion B0 as [|? ? ? BF2]; inversion BF2.
    + apply payload_bytes. intros x I. apply in_app_or in I as [I|[<-|[]]]; [|exact BF]. apply IH3. rewrite EH. apply in_or_app. right. right. eapply collected_in; eauto.
  - exact BF.
Qed.
Lemma arrived_bytes tbl ifs h i n m : Forall input_ok ifs -> history tbl ifs h -> arrives_in ifs h i n (IRaw m) -> bytes_ok (rm_data m).
Proof.
  intros IO HH A. inversion A as [f m' I|ifc mm m' HI TY L AM DE|]; subst.
  - eapply (proj2 (history_bytes _ _ _ HH)); [exact I|reflexivity].
  - eapply delivered_bytes; [|exact DE]. eapply act_bytes; [|exact AM]. rewrite Forall_forall in IO. apply IO. eapply nth_error_In. exact HI.
Qed.
Theorem C85_alive maps opts pl fmtv unmarshal marshal verbose ifs tr s : Forall input_ok ifs ->
  yrun PgnList maps opts pl fmtv unmarshal marshal verbose ifs tr (YOk s) ->
  exists h, history PgnList ifs h /\ (forall i ifc n, nth_error ifs i = Some ifc -> if_type ifc = str "canusb" -> read_by ifc s i n -> complete h i n (input_of ifc)) /\
    forall i ifc n k m, nth_error ifs i = Some ifc -> read_by ifc s i n -> (k <= n)%nat -> arrives_in ifs h i k (IRaw m) ->
      ~ forall spare, 0 <= spare -> fatal (rm_data m) spare (rm_pgn m).
Proof.
  intros IO R. destruct (C105_wire _ _ _ _ _ _ _ _ _ _ _ IO R) as (h & HH & ALL). exists h. split; [exact HH|]. split.
  { intros i ifc n HI TY RB. destruct (ALL i ifc HI) as (n' & ps & RB' & _ & CO & _). rewrite (read_by_fun _ _ _ _ _ RB RB'). auto. }
  intros i ifc n k m HI RB LE A FA. destruct (ALL i ifc HI) as (n' & ps & RB' & _ & _ & _ & AR & F2). pose proof (read_by_fun _ _ _ _ _ RB RB') as <-.
  assert (exists x, decodes PgnList pl unmarshal (IRaw m) x) as (x & fuel & spare & P).
  { assert (In (k, IRaw m) ps) as J by (apply AR; split; [exact LE|]; split; [exact A|exact I]). apply (in_map snd) in J. cbn [snd] in J.
    clear - F2 J. induction F2 as [|a x la lx D F IH]; [destruct J|]. destruct J as [->|J]; [eauto|auto]. }
  destruct (proj2 (C43_exact pl m spare (arrived_bytes _ _ _ _ _ _ IO HH A)) (FA _ (zlen_nonneg spare))) as (fuel' & w & P').
  pose proof (C40_result_unique _ _ _ _ _ _ _ _ P P'). discriminate.
Qed.

(** Two frames, one message: the transfer on bus A of PipelineExamples. *)
Example C105_example : exists h n f, history PgnList [busA] h /\ fast_pgn PgnList (rm_pgn (cf_raw f)) /\ ~ starts_transfer f /\
  In (mken 0 n f (Some (message [1; 2; 3; 4; 5; 6; 7; 8; 9; 255; 255; 255; 255]))) h.
Proof.
  set (M := message [1; 2; 3; 4; 5; 6; 7; 8; 9; 255; 255; 255; 255]).
  assert (delivered 0 (sched PgnList pl0 (fun _ => None) (repeat 0%nat (S (List.length frame_A0 + List.length frame_A1))) (sys_init [busA])) = Some M) as D by (vm_compute; reflexivity).
  destruct (delivered_run MapXml (mkopts false 0 255 255 true false) (fun _ => []) (fun _ => None) (fun _ _ => None) false _ _ _ D) as (s & x & R & W & X).
  assert (Forall input_ok [busA]) as IO.
  { constructor; [|constructor]. intros b I. assert (forallb (fun e => match e with RByte b => (0 <=? b) && (b <? 256) | _ => true end) (frame_A0 ++ frame_A1) = true) as K by (vm_compute; reflexivity).
    rewrite forallb_forall in K. specialize (K _ I). unfold is_byte. cbn in K. lia. }
  destruct (C105_wire _ _ _ _ _ _ _ _ _ _ _ IO R) as (h & HH & ALL). destruct (ALL 0%nat busA eq_refl) as (n0 & ps & _ & _ & _ & _ & AR & F2). rewrite W in F2.
  assert (exists p, In p ps /\ decodes PgnList pl0 (fun _ => None) (snd p) x) as ([n it] & IP & DC).
  { assert (In x (handled_from 0 (map YStep (repeat 0%nat (S (List.length frame_A0 + List.length frame_A1)))) ++ [x])) as J by (apply in_or_app; right; now left).
    revert F2 J. generalize (handled_from 0 (map YStep (repeat 0%nat (S (List.length frame_A0 + List.length frame_A1)))) ++ [x]) as q. clear. intros q F2. remember (map snd ps) as z eqn:Q.
    revert ps Q. induction F2 as [|a y l l' D F IH]; intros ps Q J; [destruct J|]. destruct ps as [|p ps]; [discriminate Q|]. injection Q as -> Q.
    destruct J as [->|J]; [exists p; split; [now left|exact D]|]. destruct (IH _ Q J) as (p' & P1 & P2). exists p'. split; [now right|exact P2]. }
  apply AR in IP as (_ & A & _). cbn [fst snd] in DC. destruct (arrives_canusb [busA] _ 0%nat busA n it eq_refl eq_refl A) as (f & m & -> & I).
  destruct DC as (fuel & spare & P). destruct (C39_header_and_keys _ _ _ _ _ _ P) as [H1 _]. rewrite X in H1. subst m.
  exists h, n, f. split; [exact HH|].
  assert (gives PgnList (map en_frame h) f (Some M) \/ exists h1, gives PgnList (map en_frame h1) f (Some M) /\ history PgnList [busA] h1) as G.
  { right. clear - HH I. induction HH as [|h i ifc k l ty id data o HH IH H1 H2 H3 H4 H5 H6 H7 H8]; [destruct I|]. apply in_app_or in I as [I|[I|[]]]; [auto|].
    exists h. split; [|exact HH]. pose proof (f_equal en_frame I) as E1. pose proof (f_equal en_out I) as E2. cbn [en_frame en_out] in E1, E2. now rewrite <- E1, <- E2. }
  assert (exists h1, gives PgnList (map en_frame h1) f (Some M) /\ history PgnList [busA] h1) as (h1 & GV & HH1) by (destruct G as [G|G]; eauto).
  assert (zlen (rm_data (cf_raw f)) <= 8) as SHORT.
  { destruct (history_entry _ _ _ _ HH I) as (ifc & _ & _ & _ & l & ty & id & data & EF & _ & FT). cbn [en_frame] in EF. rewrite EF. destruct FT as (a & b & c & d & _ & _ & _ & _ & L & _). exact L. }
  inversion GV as [N E|L d0 F FF E|f0 L d0 fs F NS IPR HS E|h0 r F DD NS NP E].
  - exfalso. rewrite E in SHORT. vm_compute in SHORT. now apply SHORT.
  - exfalso. destruct (L <=? zlen d0); [|discriminate E]. injection E as _ _ _ _ _ E. destruct FF as (hd & DD & _). rewrite DD in SHORT. subst d0. rewrite !zlen_cons in SHORT. vm_compute in SHORT. now apply SHORT.
  - split; [exact F|]. split; [exact NS|rewrite E; exact I].
  - exfalso. rewrite E in SHORT. vm_compute in SHORT. now apply SHORT.
Qed.
