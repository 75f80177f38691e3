(** PipelineBoot: start-up of an interface (C72), file interfaces (C74). *)
From Verif Require Import GoBase BufFacts CanModel CanusbModel CanusbProps ActisenseModel ActisenseProps NmeaTypes PgnTable NmeaModel
  SignalkModel MainModel HubModel PipelineModel PipelineSpec PipelineProofs PipelineProps.
Open Scope Z_scope.
Open Scope list_scope.

(* ------------------------------------------------------------ C72 *)

Lemma act_mode_never_panics p : forall q w, GetOperatingMode p <> (q, Panic w).
Proof.
  intros q w. unfold GetOperatingMode, act_write. destruct (w_write _ _) as [w1 [n [|]]]; discriminate.
Qed.

Lemma boot_started tbl st i : (exists st' t, boot tbl st i = TOk st' t) <-> startable i.
Proof.
  unfold boot, startable, writes_ok.
  destruct (if_dev i) as [|[|] w input|] eqn:D.
  - split; [intros (? & ? & H); discriminate H|intros []].
  - destruct (bytes_eqb (if_type i) (str "canusb")) eqn:E1.
    + apply bytes_eqb_eq in E1.
      destruct (c19_open (register_fast tbl st) w 221) as (line & _ & _ & O); [unfold is_byte; lia|]. cbv zeta in O.
      rewrite Nat.add_0_r.
      destruct (w_ans w (List.length (w_log w))) as [n1|] eqn:A1.
      { destruct O as (w' & e & O & _). rewrite O. split; [intros (? & ? & H); discriminate H|].
        intros [(_ & H & _)|H]; [discriminate H|rewrite H in E1; discriminate E1]. }
      destruct (w_ans w (List.length (w_log w) + 1)) as [n2|] eqn:A2.
      { destruct O as (w' & e & O & _). rewrite O. split; [intros (? & ? & H); discriminate H|].
        intros [(_ & _ & H)|H]; [discriminate H|rewrite H in E1; discriminate E1]. }
      destruct O as (w' & p & O & _). rewrite O. split; [|eauto]. intros _. left. auto.
    + destruct (bytes_eqb (if_type i) (str "actisense")) eqn:E2.
      * apply bytes_eqb_eq in E2. destruct (c27_open w) as (w1 & w2 & _ & _ & O).
        rewrite Nat.add_0_r, Nat.add_1_r.
        destruct (act_OpenChannel w) as [w' [p|e|e]].
        -- destruct O as (A1 & A2 & _). pose proof (act_mode_never_panics p) as NP.
           destruct (GetOperatingMode p) as [q [n|e|e]]; [| |now destruct (NP q e)]; (split; [intros _|eauto]); left; auto.
        -- split; [intros (? & ? & H); discriminate H|].
           intros [(_ & H1 & H2)|H]; [|rewrite H in E2; discriminate E2].
           destruct O as [(A & _)|(_ & A & _)]; congruence.
        -- destruct O.
      * destruct (bytes_eqb (if_type i) (str "file")) eqn:E3.
        -- apply bytes_eqb_eq in E3. split; [auto|eauto].
        -- split; [intros (? & ? & H); discriminate H|]. intros [([H|H] & _)|H];
             rewrite H in *; discriminate.
  - split; [intros (? & ? & H); discriminate H|intros []].
  - destruct (bytes_eqb (if_type i) (str "canusb")) eqn:E1.
    { apply bytes_eqb_eq in E1. split; [intros (? & ? & H); discriminate H|]. intros H. rewrite H in E1. discriminate E1. }
    destruct (bytes_eqb (if_type i) (str "actisense")) eqn:E2.
    { apply bytes_eqb_eq in E2. split; [intros (? & ? & H); discriminate H|]. intros H. rewrite H in E2. discriminate E2. }
    destruct (bytes_eqb (if_type i) (str "file")) eqn:E3.
    + apply bytes_eqb_eq in E3. split; [auto|eauto].
    + split; [intros (? & ? & H); discriminate H|]. intros H. rewrite H in E3. discriminate E3.
Qed.

(** C72: the first step of an interface's goroutine ends the program iff the interface cannot
    be started; otherwise the program goes on, and nothing but this goroutine and the registry
    of fast packets has changed. *)
Theorem C72_start tbl maps opts pl fmtv unmarshal marshal verbose s i ifc r :
  nth_error (y_threads s) i = Some (mkth (SBoot ifc) None) ->
  ystep tbl maps opts pl fmtv unmarshal marshal verbose s (YStep i) r ->
  (r = YDead <-> ~ startable ifc) /\
  (forall s', r = YOk s' -> startable ifc /\ waiting s' i = [] /\
     y_cons s' = y_cons s /\ y_todo s' = y_todo s /\ y_stream s' = y_stream s /\ y_stats s' = y_stats s /\
     forall j, j <> i -> nth_error (y_threads s') j = nth_error (y_threads s) j).
Proof.
  intros HT ST. pose proof (boot_started tbl (y_can s) ifc) as B.
  inversion ST as [s0 i0 t st' t' H1 TS E1 E2 E3|s0 i0 t H1 TS E1 E2 E3| | | | | | | | |]; subst;
    rewrite HT in H1; injection H1 as <-.
  - assert (boot tbl (y_can s) ifc = TOk st' t') as E by (inversion TS; congruence).
    assert (startable ifc) as S by (apply B; eauto).
    split; [split; [discriminate|intros N; now destruct N]|]. intros s' X. injection X as <-. cbn [y_cons y_todo y_stream y_stats y_threads].
    split; [exact S|]. split.
    { unfold waiting. cbn [y_threads]. rewrite (set_thread_nth _ _ _ _ i HT), Nat.eqb_refl.
      assert (th_out t' = None) as ->; [|reflexivity].
      unfold boot in E. destruct (if_dev ifc) as [|[|] w input|]; try discriminate E;
        repeat match type of E with (if ?b then _ else _) = _ => destruct b end; try discriminate E;
        try (injection E as _ <-; reflexivity).
      - destruct (OpenChannel _ _ _) as [[a b] [c|c|c]]; try discriminate E. injection E as _ <-. reflexivity.
      - destruct (act_OpenChannel _) as [a [c|c|c]]; try discriminate E.
        destruct (GetOperatingMode _) as [q [x|x|x]]; try discriminate E; injection E as _ <-; reflexivity. }
    repeat split; auto. intros j N. rewrite (set_thread_nth _ _ _ _ j HT). now destruct (Nat.eqb_spec j i).
  - assert (boot tbl (y_can s) ifc = TDead) as E.
    { inversion TS; subst; congruence. }
    split; [|discriminate]. split; [|reflexivity]. intros _ S. apply B in S as (st' & t' & S). congruence.
Qed.

Example C72_examples :
  startable (mkif (str "file") DOther []) /\
  startable (mkif (str "canusb") (DChar true (mkwport [] (fun _ => None)) []) []) /\
  ~ startable (mkif (str "actisense") DOther []) /\
  ~ startable (mkif (str "canusb") (DChar true (mkwport [] (fun k => if Nat.eqb k 1 then Some 0 else None)) []) []).
Proof.
  unfold startable, writes_ok. cbn. repeat split; auto.
  - discriminate.
  - intros [(_ & _ & H)|H]; discriminate H.
Qed.

(* ------------------------------------------------------------ C74 *)

Lemma first_line_split l : ~ In 10 l -> forall rest, first_line (l ++ 10 :: rest) = (l, Some rest).
Proof.
  intros N rest. induction l as [|c l IH]; cbn [app first_line]; [reflexivity|].
  destruct (Z.eqb_spec c 10) as [->|D]; [destruct N; now left|].
  rewrite IH by (intros I; apply N; now right). reflexivity.
Qed.
Lemma first_line_last l : ~ In 10 l -> first_line l = (l, None).
Proof.
  intros N. induction l as [|c l IH]; cbn [first_line]; [reflexivity|].
  destruct (Z.eqb_spec c 10) as [->|D]; [destruct N; now left|].
  rewrite IH by (intros I; apply N; now right). reflexivity.
Qed.
Lemma drop_cr_stripped l : stripped l (drop_cr l).
Proof.
  unfold stripped, drop_cr. destruct (rev l) as [|c r] eqn:E.
  - right. split; [reflexivity|]. intros x H. rewrite H, rev_app_distr in E. discriminate E.
  - assert (l = rev r ++ [c]) as H by (rewrite <- (rev_involutive l), E; reflexivity).
    destruct (Z.eq_dec c 13) as [->|N]; [left; exact H|].
    assert ((match c with 13 => rev r | _ => l end) = l) as ->.
    { destruct c as [|p|p]; try reflexivity. do 4 (destruct p as [p|p|]; try reflexivity). now destruct N. }
    right. split; [reflexivity|]. intros x X. rewrite X in H. apply app_inj_tail in H as [_ H]. congruence.
Qed.

Lemma scan_lines_spec : forall (full : list bytes) (last : bytes) (n : nat), Forall (fun l => ~ In 10 l) full -> ~ In 10 last ->
  Nat.lt (List.length (flat_map (fun l => l ++ [10]) full ++ last)) n ->
  Forall2 stripped (before_long (lines_of full last)) (scan_lines n (flat_map (fun l => l ++ [10]) full ++ last)).
Proof.
  induction full as [|l full IH]; intros last n F NL L.
  - cbn [flat_map app] in *. unfold lines_of. cbn [app]. destruct last as [|c last]; [destruct n; constructor|].
    destruct n as [|n]; [lia|]. cbn [scan_lines]. rewrite first_line_last by exact NL.
    cbn [before_long]. unfold scan_max, zlen.
    destruct (Z.ltb_spec (Z.of_nat (List.length (c :: last))) 65536); destruct (Z.leb_spec 65536 (Z.of_nat (List.length (c :: last)))); try lia.
    + constructor; [apply drop_cr_stripped|constructor].
    + constructor.
  - inversion F as [|? ? Nl F']; subst. cbn [flat_map] in *. unfold lines_of. cbn [app].
    replace ((l ++ [10]) ++ flat_map (fun l => l ++ [10]) full) with (l ++ 10 :: flat_map (fun l => l ++ [10]) full) in *
      by (rewrite <- app_assoc; reflexivity).
    rewrite <- app_assoc in *. cbn [app] in *. rewrite app_length in L. cbn [List.length] in L.
    destruct n as [|n]; [lia|]. cbn [before_long].
    assert (forall s, s <> [] -> scan_lines (S n) s = match first_line s with (l, rest) => if scan_max <=? zlen l then [] else match rest with Some r => drop_cr l :: scan_lines n r | None => [drop_cr l] end end) as U.
    { intros [|? ?] H; [now destruct H|reflexivity]. }
    rewrite U by (destruct l; discriminate). rewrite first_line_split by exact Nl. unfold scan_max, zlen.
    destruct (Z.ltb_spec (Z.of_nat (List.length l)) 65536); destruct (Z.leb_spec 65536 (Z.of_nat (List.length l))); try lia.
    + constructor; [apply drop_cr_stripped|]. apply IH; [exact F'|exact NL|lia].
    + constructor.
Qed.

(** C74: a file interface goes through the lines of its file before the first over-long one, in
    order, each without newline and carriage return ... *)
Theorem C74_lines content full last : splits content full last ->
  Forall2 stripped (before_long (lines_of full last)) (file_lines content).
Proof. intros (-> & F & N). unfold file_lines. apply scan_lines_spec; [exact F|exact N|lia]. Qed.
(** ... (every content is of this form, in one way) ... *)
Theorem C74_splits content : exists full last, splits content full last.
Proof.
  induction content as [|c s (full & last & -> & F & N)].
  - exists [], []. repeat split; auto.
  - destruct (Z.eq_dec c 10) as [->|D].
    + exists ([] :: full), last. split; [reflexivity|]. split; [constructor; [intros []|exact F]|exact N].
    + destruct full as [|l full].
      * exists [], (c :: last). split; [reflexivity|]. split; [constructor|]. intros [I|I]; [congruence|auto].
      * inversion F; subst. exists ((c :: l) :: full), last. split; [reflexivity|].
        split; [constructor; [|assumption]|exact N]. intros [I|I]; [congruence|auto].
Qed.
Theorem C74_unique content full last full' last' : splits content full last -> splits content full' last' ->
  full = full' /\ last = last'.
Proof.
  intros (E & F & N) (E' & F' & N'). subst content. revert full' F' E'.
  induction F as [|l full Nl F IH]; intros [|l' full'] F' E'; cbn [flat_map app] in E'.
  - auto.
  - exfalso. apply N. rewrite E'. rewrite !in_app_iff. cbn. auto.
  - exfalso. apply N'. rewrite <- E'. rewrite !in_app_iff. cbn. auto.
  - inversion F'; subst. rewrite <- !app_assoc in E'. cbn [app] in E'.
    match goal with Nl' : ~ In 10 l' |- _ => pose proof (first_line_split l' Nl' (flat_map (fun l => l ++ [10]) full' ++ last')) as B end.
    pose proof (first_line_split l Nl (flat_map (fun l => l ++ [10]) full ++ last)) as X.
    rewrite E', B in X. injection X as <- X. symmetry in X.
    match goal with F2 : Forall _ full' |- _ => destruct (IH _ F2 X) as [-> ->] end. auto.
Qed.
(** ... and these are what it hands over: in every execution, the messages handled from a file
    interface are the decoded forms of the usable lines. *)
Theorem C74_handled tbl maps opts pl fmtv unmarshal marshal verbose ifs tr s i ifc full last :
  one_canusb ifs -> yrun tbl maps opts pl fmtv unmarshal marshal verbose ifs tr (YOk s) ->
  nth_error ifs i = Some ifc -> startable ifc -> if_type ifc = str "file" -> splits (if_text ifc) full last ->
  exists lines done rest, Forall2 stripped (before_long (lines_of full last)) lines /\
    filter (usable tbl unmarshal) lines = done ++ rest /\
    Forall2 (fun l x => FromCanBoat unmarshal tbl l = Ret x) done (handled_from i tr ++ waiting s i) /\
    (exhausted s i -> rest = []).
Proof.
  intros OC R H ST T SP. exists (file_lines (if_text ifc)).
  destruct (C62_each_interface _ _ _ _ _ _ _ _ _ _ _ _ _ OC R H) as (done & rest & E & F2 & EX).
  assert (items tbl unmarshal ifc = map ILine (filter (usable tbl unmarshal) (file_lines (if_text ifc)))) as EI.
  { unfold items, startable in *. rewrite T in *. destruct (if_dev ifc) as [|[|] w inp|]; try contradiction; reflexivity. }
  rewrite EI in E. clear EI.
  assert (exists d r, filter (usable tbl unmarshal) (file_lines (if_text ifc)) = d ++ r /\ done = map ILine d /\ rest = map ILine r) as (d & r & E1 & E2 & E3).
  { revert E. generalize (filter (usable tbl unmarshal) (file_lines (if_text ifc))) as ls. clear. induction done as [|x done IH]; intros ls E.
    - exists [], ls. auto.
    - destruct ls as [|l ls]; [discriminate E|]. injection E as <- E. destruct (IH _ E) as (d & r & A & B & C).
      exists (l :: d), r. rewrite A, B. auto. }
  exists d, r. split; [now apply C74_lines|]. split; [exact E1|]. split.
  - rewrite E2 in F2. clear - F2. revert F2. generalize (handled_from i tr ++ waiting s i) as xs.
    induction d as [|l d IH]; intros xs F; inversion F; subst; constructor; [assumption|now apply IH].
  - intros X. specialize (EX X). rewrite E3 in EX. now destruct r.
Qed.
Example C74_example : file_lines (str "a" ++ [13; 10; 10] ++ str "bc") = [str "a"; []; str "bc"] /\
  splits (str "a" ++ [13; 10; 10] ++ str "bc") [str "a" ++ [13]; []] (str "bc").
Proof.
  split; [vm_compute; reflexivity|]. split; [reflexivity|]. split; [|cbn; intuition discriminate].
  repeat (apply Forall_cons; [cbn; intuition discriminate|]). apply Forall_nil.
Qed.
