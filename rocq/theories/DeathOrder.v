(** DeathOrder: adapters in order never end the program (C85), and examples. *)
From Coq Require Import Permutation.
From Verif Require Import GoBase BufFacts CanModel CanusbModel CanusbSpec CanusbRegistry CanusbParse CanusbFast CanusbRead CanusbProps
  ActisenseModel ActisenseSpec ActisenseProofs ActisenseProps NmeaTypes PgnTable NmeaModel
  SignalkModel MapTable MainModel MainProps HubModel PipelineModel PipelineSpec PipelineProofs PipelineProps PipelineBoot PipelineExamples
  NmeaProps2 DeathSpec DeathProps DeathKill.
Open Scope Z_scope.
Open Scope list_scope.

(* ------------------------------------------------------------ canusb lines *)

Lemma noticed_rbytes l : forall d, noticed d (map RByte l) = l.
Proof. induction l as [|b l IH]; intros d; [reflexivity|]. cbn [map noticed]. now rewrite IH. Qed.
Lemma map_app_inv {A B} (f : A -> B) l x y : map f l = x ++ y -> exists a b, l = a ++ b /\ x = map f a /\ y = map f b.
Proof.
  revert x. induction l as [|c l IH]; intros x H.
  - symmetry in H. apply app_eq_nil in H as [-> ->]. exists [], []. auto.
  - destruct x as [|z x]; cbn [app map] in H.
    + exists [], (c :: l). auto.
    + injection H as <- H. destruct (IH _ H) as (a & b & -> & -> & ->). exists (c :: a), b. auto.
Qed.

Lemma plain_filter l : Forall plain l -> filter (fun b => negb (b =? 13)) l = l.
Proof.
  induction 1 as [|b l [_ P] F IH]; [reflexivity|]. cbn [filter]. destruct (Z.eqb_spec b 13); [contradiction|]. cbn [negb]. now rewrite IH.
Qed.

Lemma line_in_stream items tail : forall P c n body Q,
  Forall (fun it => Forall not_start (fst it) /\ good_line (snd it)) items -> Forall not_start tail ->
  flat_map (fun it => fst it ++ snd it ++ [13]) items ++ tail = P ++ (c :: repeat c n ++ body ++ [13]) ++ Q -> starts c ->
  exists it x, In it items /\ c :: filter (fun b => negb (b =? 13)) body = snd it ++ x.
Proof.
  induction items as [|[noise line] items IH]; intros P c n body Q F T EQ SC.
  - exfalso. cbn [flat_map app] in EQ. assert (In c tail) as I by (rewrite EQ; apply in_or_app; right; now left).
    rewrite Forall_forall in T. exact (T c I SC).
  - inversion F as [|? ? [NS GL] F']; subst. cbn [fst snd] in *. destruct GL as (c0 & b0 & -> & SC0 & PB).
    cbn [flat_map fst snd] in EQ. rewrite <- !app_assoc in EQ. cbn [app] in EQ.
    set (S' := flat_map (fun it => fst it ++ snd it ++ [13]) items ++ tail) in *.
    apply app_eq_app in EQ as (U & [[E1 E2]|[E1 E2]]).
    + (* c inside the noise *)
      destruct U as [|u U].
      * rewrite app_nil_r in E1. subst P. cbn [app] in E2. symmetry in E2.
        injection E2 as <- E2.
        assert (n = O) as ->.
        { destruct n; [reflexivity|]. exfalso. cbn [repeat app] in E2. destruct b0 as [|x b0]; cbn [app] in E2.
          - injection E2 as E2 _. subst. destruct SC0 as [[] X]; discriminate X.
          - injection E2 as <- _. inversion PB as [|? ? [X _] _]. contradiction. }
        cbn [repeat app] in E2. rewrite <- app_assoc in E2. cbn [app] in E2.
        apply app_eq_app in E2 as (V & [[E3 E4]|[E3 E4]]).
        -- (* the line is a beginning *) destruct V as [|v V].
           ++ rewrite app_nil_r in E3. assert (body = b0) as -> by congruence. exists (noise, c0 :: b0), []. split; [now left|]. cbn [snd]. rewrite plain_filter by exact PB. rewrite app_nil_r. congruence.
           ++ exfalso. cbn [app] in E4. injection E4 as <- _. rewrite E3 in PB. apply Forall_app in PB as [_ PB]. inversion PB as [|? ? [_ X] _]. now apply X.
        -- exists (noise, c0 :: b0), (filter (fun b => negb (b =? 13)) V). split; [now left|]. cbn [snd]. rewrite E3, filter_app, plain_filter by exact PB. reflexivity.
      * exfalso. cbn [app] in E2. injection E2 as <- _. rewrite E1 in NS. apply Forall_app in NS as [_ NS]. inversion NS as [|? ? X _]. contradiction.
    + (* c later *)
      destruct U as [|u U].
      * rewrite app_nil_r in E1. subst P. cbn [app] in E2. injection E2 as <- E2.
        assert (n = O) as ->.
        { destruct n; [reflexivity|]. exfalso. cbn [repeat app] in E2. destruct b0 as [|x b0]; cbn [app] in E2.
          - injection E2 as E2 _. subst. destruct SC0 as [[] X]; discriminate X.
          - injection E2 as <- _. inversion PB as [|? ? [X _] _]. contradiction. }
        cbn [repeat app] in E2. rewrite <- app_assoc in E2. cbn [app] in E2.
        apply app_eq_app in E2 as (V & [[E3 E4]|[E3 E4]]).
        -- (* the line is a beginning *) destruct V as [|v V].
           ++ rewrite app_nil_r in E3. assert (body = b0) as -> by congruence. exists (noise, c0 :: b0), []. split; [now left|]. cbn [snd]. rewrite plain_filter by exact PB. rewrite app_nil_r. congruence.
           ++ exfalso. cbn [app] in E4. injection E4 as <- _. rewrite E3 in PB. apply Forall_app in PB as [_ PB]. inversion PB as [|? ? [_ X] _]. now apply X.
        -- exists (noise, c0 :: b0), (filter (fun b => negb (b =? 13)) V). split; [now left|]. cbn [snd]. rewrite E3, filter_app, plain_filter by exact PB. reflexivity.
      * (* after the start character of this line *)
        cbn [app] in E2. injection E2 as <- E2.
        assert (exists W, S' = W ++ (c :: repeat c n ++ body ++ [13]) ++ Q) as (W & EW).
        { assert (U ++ (c :: repeat c n ++ body ++ [13]) ++ Q = (b0 ++ [13]) ++ S') as E3 by (rewrite <- app_assoc; cbn [app]; symmetry; exact E2).
          apply app_eq_app in E3 as (V & [[E4 E5]|[E4 E5]]); [eauto|].
          destruct V as [|v V]; [exists []; symmetry; exact E5|]. exfalso. cbn [app] in E5. injection E5 as <- _.
          assert (In c (b0 ++ [13])) as I by (rewrite E4; apply in_or_app; right; now left).
          apply in_app_or in I as [I|[I|[]]].
          - rewrite Forall_forall in PB. now destruct (PB c I).
          - subst c. destruct SC as [[] X]; discriminate X. }
        destruct (IH _ _ _ _ _ F' T EW SC) as (it & x & I & E3). exists it, x. split; [now right|exact E3].
Qed.

Lemma frame_text_fun l ty id data x ty' id' data' : frame_text l ty id data -> frame_text (l ++ x) ty' id' data' -> x = [] /\ id' = id /\ data' = data.
Proof.
  intros H1 H2.
  assert (x = []) as ->.
  { destruct H1 as (i1 & c1 & d1 & s1 & E1 & L1 & _ & C1 & B1 & D1 & S1).
    destruct H2 as (i2 & c2 & d2 & s2 & E2 & L2 & _ & C2 & B2 & D2 & S2).
    rewrite E1 in E2. cbn [app] in E2. injection E2 as ET E2.
    assert (ty' = ty) as -> by (destruct ty, ty'; try reflexivity; discriminate ET).
    assert (i2 = i1 /\ c2 = c1) as [-> ->].
    { rewrite <- app_assoc in E2. apply app_eq_app in E2 as (V & [[E3 E4]|[E3 E4]]).
      - assert (V = []) as -> by (destruct V; [reflexivity|]; rewrite E3, zlen_app, zlen_cons in L1; pose proof (zlen_nonneg V); lia).
        rewrite app_nil_r in E3. cbn [app] in E4. injection E4 as E4 _. auto.
      - assert (V = []) as -> by (destruct V; [reflexivity|]; rewrite E3, zlen_app, zlen_cons in L2; pose proof (zlen_nonneg V); lia).
        rewrite app_nil_r in E3. cbn [app] in E4. injection E4 as E4 _. auto. }
    pose proof (hex_char_fun _ _ _ C1 C2) as HC. apply hex_bytes_len in D1, D2.
    rewrite <- app_assoc in E2. apply app_inv_head in E2. cbn [app] in E2. injection E2 as E2. apply (f_equal zlen) in E2. rewrite !zlen_app in E2.
    destruct x as [|z x]; [reflexivity|]. rewrite zlen_cons in E2. pose proof (zlen_nonneg x). lia. }
  split; [reflexivity|]. rewrite app_nil_r in H2.
  assert (ParseFrame (buf_of l) = Ret (mkframe (frame_message id data) ty id 0 0)) as P1 by (apply ParseFrame_accepts; [apply buf_of_ok|]; rewrite buf_of_val; eauto).
  assert (ParseFrame (buf_of l) = Ret (mkframe (frame_message id' data') ty' id' 0 0)) as P2 by (apply ParseFrame_accepts; [apply buf_of_ok|]; rewrite buf_of_val; eauto).
  rewrite P1 in P2. injection P2 as _ _ _ _ _ E1 _ E2. auto.
Qed.
Lemma frame_text_len l ty id data : frame_text l ty id data -> exists r, l = start_char ty :: r /\ id_digits ty + 5 <= zlen r.
Proof.
  intros (i1 & c1 & d1 & s1 & E1 & L1 & _ & C1 & B1 & D1 & S1). eexists. split; [exact E1|].
  rewrite zlen_app, zlen_cons, zlen_app. pose proof (zlen_nonneg d1). lia.
Qed.

Lemma can_in_order tbl items tail evs rest l :
  map RByte (flat_map (fun it => fst it ++ snd it ++ [13]) items ++ tail) = evs ++ rest ->
  Forall (fun it => Forall not_start (fst it) /\ fine_line tbl (snd it)) items -> Forall not_start tail ->
  can_line evs l -> ~ cut_line l /\ ~ headless tbl l /\ ~ fatal_frame l.
Proof.
  intros IN F T (pre & seg & c & n & body & -> & NE & NO & SC & FB & ->).
  apply map_app_inv in IN as (S1 & S2 & EQ & E1 & E2). symmetry in E1. apply map_app_inv in E1 as (P & X & -> & -> & ->). rewrite noticed_rbytes in NO. subst X.
  rewrite <- app_assoc in EQ.
  destruct (line_in_stream items tail P c n body S2) as (it & x & I & EL); [|exact T|exact EQ|exact SC|].
  { eapply Forall_impl; [|exact F]. intros it [A (B & _)]. auto. }
  rewrite EL. rewrite Forall_forall in F. destruct (F it I) as [_ (GL & ty & id & data & FT & NF & NB & LE)].
  destruct (frame_text_len _ _ _ _ FT) as (r & ER & LR). repeat split.
  - intros (ty' & r' & E & C). rewrite ER in E. cbn [app] in E. injection E as ET E. assert (ty' = ty) as -> by (destruct ty, ty'; try reflexivity; discriminate ET).
    assert (id_digits ty + 5 <= zlen r') as L by (rewrite <- E, zlen_app; pose proof (zlen_nonneg x); lia).
    destruct C as [[C1 C2]|[C1 _]]; lia.
  - intros (ty' & id' & data' & FT' & FP & C). destruct (frame_text_fun _ _ _ _ _ _ _ _ FT FT') as (-> & -> & ->).
    apply LE in FP. destruct C as [->|(h & -> & _)]; unfold zlen in FP; cbn in FP; lia.
  - intros (ty' & id' & data' & FT' & FP). destruct (frame_text_fun _ _ _ _ _ _ _ _ FT FT') as (-> & -> & ->). tauto.
Qed.

(* ------------------------------------------------------------ actisense messages *)

(** The messages completed by bytes, and where the reader stands then. *)
Definition sstate : Type := msg_state * bytes.
Definition scan1 (s : sstate) (b : byte) : sstate * list bytes :=
  match fst s with
  | MsgEscape => if b =? 3 then ((MsgStart, []), [snd s]) else if b =? 2 then ((MsgMessage, snd s), [])
                 else if b =? 16 then ((MsgMessage, snd s ++ [16]), []) else ((MsgStart, []), [])
  | MsgMessage => if b =? 16 then ((MsgEscape, snd s), []) else ((MsgMessage, snd s ++ [b]), [])
  | MsgStart => if b =? 16 then ((MsgEscape, snd s), []) else (s, [])
  end.
Fixpoint scan (s : sstate) (l : bytes) : sstate * list bytes :=
  match l with [] => (s, []) | b :: r => let '(s', t) := scan1 s b in let '(s'', ts) := scan s' r in (s'', t ++ ts) end.
Lemma scan_app a : forall s b, scan s (a ++ b) = let '(s', t) := scan s a in let '(s'', ts) := scan s' b in (s'', t ++ ts).
Proof.
  induction a as [|x a IH]; intros s b; cbn [app scan]; [destruct (scan s b); reflexivity|].
  destruct (scan1 s x) as [s1 t1]. rewrite IH. destruct (scan s1 a) as [s2 t2]. destruct (scan s2 b) as [s3 t3]. now rewrite app_assoc.
Qed.

Lemma content_app_nil raw m : content raw m -> raw = [] -> m = [].
Proof. intros C ->. inversion C; auto; match goal with H : _ ++ _ = [] |- _ => apply app_eq_nil in H as [_ H]; discriminate H end. Qed.
Lemma scan_content raw m : content raw m -> (raw = [] \/ exists raw', raw = 16 :: raw') ->
  scan (MsgStart, []) raw = ((match raw with [] => MsgStart | _ => MsgMessage end, m), []).
Proof.
  induction 1 as [|r m b C IH N|r m C IH|r m C IH]; intros H.
  - reflexivity.
  - destruct r as [|z r].
    { exfalso. destruct H as [H|(raw' & H)]; [discriminate H|]. cbn [app] in H. injection H as H _. contradiction. }
    destruct H as [H|(raw' & H)]; [discriminate H|]. cbn [app] in H. injection H as -> H.
    rewrite scan_app, IH by eauto. cbn [app]. cbn [scan scan1 fst snd]. destruct (Z.eqb_spec b 16); [contradiction|]. reflexivity.
  - destruct r as [|z r].
    + pose proof (content_app_nil _ _ C eq_refl) as ->. reflexivity.
    + destruct H as [H|(raw' & H)]; [discriminate H|]. cbn [app] in H. injection H as -> H.
      rewrite scan_app, IH by eauto. reflexivity.
  - destruct r as [|z r].
    + pose proof (content_app_nil _ _ C eq_refl) as ->. reflexivity.
    + destruct H as [H|(raw' & H)]; [discriminate H|]. cbn [app] in H. injection H as -> H.
      rewrite scan_app, IH by eauto. reflexivity.
Qed.

(** Inputs without errors or empty reads: a byte string that leaves the reader between messages. *)
Lemma between_scan evs : between evs -> forall l, evs = map RByte l -> fst (scan (MsgStart, []) l) = (MsgStart, []).
Proof.
  induction 1 as [|evs|evs b B IH N|evs B IH|evs seg raw x B IH (NE & NO & (m & C) & HR) N2 N16]; intros l E.
  - destruct l; [reflexivity|discriminate E].
  - exfalso. symmetry in E. apply map_app_inv in E as (u & v & _ & _ & E). destruct v as [|? [|]]; discriminate E.
  - symmetry in E. apply map_app_inv in E as (u & v & -> & E1 & E2). destruct v as [|y [|]]; try discriminate E2. injection E2 as ->.
    rewrite scan_app. specialize (IH u E1). destruct (scan (MsgStart, []) u) as [s t]. cbn [fst] in IH. subst s. cbn [scan scan1 fst snd].
    destruct (Z.eqb_spec y 16); [contradiction|]. reflexivity.
  - exfalso. symmetry in E. apply map_app_inv in E as (u & v & _ & _ & E). destruct v as [|? [|]]; discriminate E.
  - symmetry in E. apply map_app_inv in E as (u & v & -> & E1 & ->). rewrite noticed_rbytes in NO. subst v.
    rewrite scan_app. specialize (IH u E1). destruct (scan (MsgStart, []) u) as [s t]. cbn [fst] in IH. subst s.
    rewrite scan_app, (scan_content raw m C HR). cbn [scan scan1 fst snd].
    assert (scan1 (match raw with [] => MsgStart | _ => MsgMessage end, m) 16 = ((MsgEscape, m), [])) as -> by (destruct raw; reflexivity).
    unfold scan1. cbn [fst snd]. destruct (x =? 3); [reflexivity|]. destruct (Z.eqb_spec x 2); [contradiction|]. destruct (Z.eqb_spec x 16); [contradiction|]. reflexivity.
Qed.
Lemma message_scan l m rest : act_message (map RByte l) m -> In m (snd (scan (MsgStart, []) (l ++ rest))).
Proof.
  intros (pre & seg & raw & B & E & NE & NO & C). apply map_app_inv in E as (u & v & -> & -> & ->). rewrite noticed_rbytes in NO. subst v.
  rewrite <- app_assoc, scan_app. pose proof (between_scan _ B u eq_refl) as K. destruct (scan (MsgStart, []) u) as [s t]. cbn [fst] in K. subst s.
  change (16 :: raw ++ [16; 3]) with ((16 :: raw) ++ [16; 3]). rewrite <- app_assoc, scan_app, (scan_content (16 :: raw) m C ltac:(eauto)).
  cbn [app scan scan1 fst snd Z.eqb Pos.eqb]. destruct (scan (MsgStart, []) rest) as [s' ts]. cbn [snd app]. apply in_or_app. right. now left.
Qed.
Lemma scan_escaped m : forall l, scan (MsgMessage, l) (escaped m) = ((MsgMessage, l ++ m), []).
Proof.
  induction m as [|b m IH]; intros l; cbn [escaped]; [now rewrite app_nil_r|].
  destruct (Z.eqb_spec b 16) as [->|N]; cbn [scan scan1 fst snd Z.eqb Pos.eqb].
  - rewrite IH, <- app_assoc. reflexivity.
  - destruct (Z.eqb_spec b 16); [contradiction|]. rewrite IH, <- app_assoc. reflexivity.
Qed.
Lemma scan_noise l : Forall (fun b => b <> 16) l -> scan (MsgStart, []) l = ((MsgStart, []), []).
Proof. induction 1 as [|b l N F IH]; [reflexivity|]. cbn [scan scan1 fst snd]. destruct (Z.eqb_spec b 16); [contradiction|]. now rewrite IH. Qed.
Lemma scan_stream items tail : Forall (fun it => Forall (fun b => b <> 16) (fst it)) items -> Forall (fun b => b <> 16) tail ->
  snd (scan (MsgStart, []) (flat_map (fun it => fst it ++ on_line (snd it)) items ++ tail)) = map snd items.
Proof.
  intros F T. induction F as [|[noise m] items N F IH]; cbn [flat_map fst snd app map]; [now rewrite scan_noise|].
  rewrite <- !app_assoc, scan_app, scan_noise by exact N. unfold on_line. rewrite <- !app_assoc.
  set (rest := flat_map _ items ++ tail) in *. cbn [app scan scan1 fst snd Z.eqb Pos.eqb].
  rewrite scan_app, scan_escaped. cbn [app scan scan1 fst snd Z.eqb Pos.eqb]. destruct (scan (MsgStart, []) rest) as [s t]. cbn [snd app] in *. now rewrite IH.
Qed.

Lemma act_in_order items tail evs rest m :
  map RByte (flat_map (fun it => fst it ++ on_line (snd it)) items ++ tail) = evs ++ rest ->
  Forall (fun it => Forall (fun b => b <> 16) (fst it) /\ fine_message (snd it)) items -> Forall (fun b => b <> 16) tail ->
  act_message evs m -> fine_message m.
Proof.
  intros IN F T AM. apply map_app_inv in IN as (a & b & E & -> & _). apply (message_scan a m b) in AM.
  rewrite <- E, scan_stream in AM; [|eapply Forall_impl; [|exact F]; cbn; tauto|exact T].
  apply in_map_iff in AM as (it & <- & I). rewrite Forall_forall in F. apply (F it I).
Qed.

(* ------------------------------------------------------------ C85 *)

Lemma in_order_fine tbl i : in_order tbl i -> ~ deadly tbl i.
Proof.
  intros (S & C & A) [N|evs rest l TY IN CL D|evs rest m TY IN AM D].
  - contradiction.
  - destruct (C TY) as (items & tail & E & F & T). rewrite IN in E. symmetry in E. destruct (can_in_order tbl _ _ _ _ l E F T CL) as (N1 & N2 & N3). tauto.
  - destruct (A TY) as (items & tail & E & F & T). rewrite IN in E. symmetry in E. destruct (act_in_order _ _ _ _ m E F T AM) as (_ & N1 & N2).
    destruct D as [D|(r & D1 & D2)]; [contradiction|]. exact (N2 r D1 D2).
Qed.

(** The program never ends by itself when its adapters deliver complete frames and messages, none
    of them fatal (C43), and anything between them that does not look like a frame. *)
Theorem C85_in_order opts pl fmtv unmarshal marshal verbose ifs tr :
  distinct_members unmarshal -> Forall input_ok ifs -> Forall (in_order PgnList) ifs ->
  ~ yrun PgnList MapXml opts pl fmtv unmarshal marshal verbose ifs tr YDead.
Proof.
  intros DM IO F. apply C85_survives; [exact DM|exact IO|]. eapply Forall_impl; [|exact F]. intros i. apply in_order_fine.
Qed.
