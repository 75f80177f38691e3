(** PipelineProps: theorems about the running program (C62 and following). *)
From Coq Require Import Permutation.
From Verif Require Import GoBase BufFacts CanModel CanusbModel ActisenseModel NmeaTypes NmeaModel
  SignalkModel MainModel MainSpec MainProps HubModel HubSpec HubProps PipelineModel PipelineSpec PipelineProofs.
Open Scope list_scope.

Section Props.
Variables (tbl : list pgn_def) (maps : mappings) (opts : options) (pl : platform)
          (fmtv : gval -> bytes) (unmarshal : bytes -> option canboat)
          (marshal : Z -> delta -> option bytes) (verbose : bool).
Notation yrun := (yrun tbl maps opts pl fmtv unmarshal marshal verbose).
Notation ystep := (ystep tbl maps opts pl fmtv unmarshal marshal verbose).
Notation items := (items tbl unmarshal).
Notation decodes := (decodes tbl pl unmarshal).
Notation step1 := (handle opts (pl_tz pl) fmtv tbl maps marshal verbose).

(** C62.  In every execution, what the consumer has handled from interface i, followed by the
    one message that may be waiting, is the decoded form of an initial part of what that
    interface delivers by itself: each message once, in order, none left out, none invented,
    whatever the other interfaces do; and of everything once its input is used up. *)
Theorem C62_each_interface ifs tr s i ifc :
  one_canusb ifs -> yrun ifs tr (YOk s) -> nth_error ifs i = Some ifc ->
  exists done rest, items ifc = done ++ rest /\
    Forall2 decodes done (handled_from i tr ++ waiting s i) /\ (exhausted s i -> rest = []).
Proof.
  intros OC R H. destruct (sys_inv_run _ _ _ _ _ _ _ _ _ _ _ OC R) as [LEN INV].
  destruct (nth_error (y_threads s) i) as [t|] eqn:HT.
  - destruct (INV _ _ _ H HT) as (_ & _ & done & EI & F2). exists done. eexists. split; [exact EI|].
    unfold waiting, exhausted. rewrite HT. split; [exact F2|].
    destruct t as [src out]. cbn [th_src]. destruct src as [b|p r [|ev input]|r [|ev input]|[|l lines]]; cbn; tauto.
  - exfalso. apply nth_error_None in HT.
    assert (i < List.length ifs)%nat by (apply nth_error_Some; congruence). lia.
Qed.

(** Nothing else reaches the consumer: the whole sequence is an interleaving. *)
Theorem C62_only_interfaces ifs tr r i m od :
  yrun ifs tr r -> In (i, m, od) (handled tr) -> (i < List.length ifs)%nat.
Proof.
  intros R. assert (forall s, r = YOk s -> List.length (y_threads s) = List.length ifs) as K.
  { induction R as [|tr s0 l r R IH ST]; intros s Er; [injection Er as <-; apply map_length|].
    subst r. specialize (IH _ eq_refl). inversion ST; subst; cbn [y_threads]; try exact IH;
      erewrite set_thread_length; eassumption. }
  clear - R. induction R as [|tr s0 l r R IH ST]; [intros []|]. rewrite handled_snoc. intros I. apply in_app_or in I as [I|I]; [auto|].
  assert (List.length (y_threads s0) = List.length ifs) as L.
  { clear - R. remember (YOk s0) as r eqn:Er. revert s0 Er.
    induction R as [|tr s1 l r R IH ST]; intros s Er; [injection Er as <-; apply map_length|].
    subst r. specialize (IH _ eq_refl). inversion ST; subst; cbn [y_threads]; try exact IH;
      erewrite set_thread_length; eassumption. }
  rewrite <- L. inversion ST; subst; try (destruct I); try (injection H as <- <- <-); try contradiction;
    apply nth_error_Some; congruence.
Qed.

(* ------------------------------------------------------------ hubs *)

Lemma no_unreg_snoc (tr : list (label bytes)) l : no_unregister tr -> (forall c, l <> LUnregister c) -> no_unregister (tr ++ [l]).
Proof. intros N L c I. apply in_app_or in I as [I|[I|[]]]; [now apply (N c)|now apply (L c)]. Qed.

Lemma hubs_run ifs tr s : yrun ifs tr (YOk s) ->
  (hrun (stream_actions tr) (Ok (y_stream s)) /\ no_unregister (stream_actions tr)) /\
  (hrun (stats_actions tr) (Ok (y_stats s)) /\ no_unregister (stats_actions tr)).
Proof.
  intros R. remember (YOk s) as r eqn:Er. revert s Er.
  induction R as [|tr s0 l r R IH ST]; intros s Er.
  - injection Er as <-. repeat split; try constructor; intros c [].
  - subst r. destruct (IH _ eq_refl) as [[A1 A2] [B1 B2]].
    unfold stream_actions, stats_actions in *. rewrite !flat_map_app. cbn [flat_map].
    inversion ST; subst; cbn [y_stream y_stats]; rewrite ?app_nil_r; repeat split;
      try assumption; try (econstructor; eassumption); try (apply no_unreg_snoc; [assumption|congruence]).
    all: match goal with N1 : forall b, ?e <> EStats b, N2 : forall b, ?e <> EDelta b |- _ =>
           destruct e as [m0|b0| |k0 n0|b0|b0]; cbn; rewrite ?app_nil_r;
           first [assumption|now destruct (N1 b0)|now destruct (N2 b0)] end.
Qed.

(** What the hubs do inside the program is an execution of the hub by itself (so C60 and C61
    hold in the program), and no client is ever unregistered. *)
Theorem C62_hubs ifs tr s : yrun ifs tr (YOk s) ->
  hrun (stream_actions tr) (Ok (y_stream s)) /\ no_unregister (stream_actions tr) /\
  hrun (stats_actions tr) (Ok (y_stats s)) /\ no_unregister (stats_actions tr).
Proof. intros R. destruct (hubs_run _ _ _ R) as [[A B] [C D]]. auto. Qed.

(** A hub never kills the program. *)
Theorem C62_hub_never_dies ifs tr s l : yrun ifs tr (YOk s) ->
  ~ ystep s (YStream l) YDead /\ ~ ystep s (YStats l) YDead.
Proof.
  intros R. destruct (hubs_run _ _ _ R) as [[A1 A2] [B1 B2]]. split; intros ST; inversion ST; subst.
  - apply (C61_no_panic (stream_actions tr ++ [l]) Crash); [econstructor; eassumption|now apply no_unreg_snoc|reflexivity].
  - apply (C61_no_panic (stats_actions tr ++ [l]) Crash); [econstructor; eassumption|now apply no_unreg_snoc|reflexivity].
Qed.

(* ------------------------------------------------------------ the consumer *)

Definition msgs (tr : list ylabel) : list (parsed * visit) := map (fun h => (snd (fst h), snd h)) (handled tr).

Lemma handle_all_snoc c0 ms c1 es1 m od c2 es : handle_all step1 c0 ms = Ret (c1, es1) -> step1 c1 m od = Ret (c2, es) ->
  handle_all step1 c0 (ms ++ [(m, od)]) = Ret (c2, es1 ++ [es]).
Proof.
  revert c0 es1. induction ms as [|[m0 od0] ms IH]; intros c0 es1 H1 H2.
  - injection H1 as <- <-. cbn [app handle_all]. now rewrite H2.
  - cbn [app handle_all] in *. destruct (step1 c0 m0 od0) as [[c' es0]|e|w]; try discriminate H1.
    destruct (handle_all step1 c' ms) as [[c'' ess]|e|w] eqn:E; try discriminate H1. injection H1 as <- <-.
    rewrite (IH _ _ E H2). reflexivity.
Qed.

Lemma effects_snoc tr l : effects (tr ++ [l]) = effects tr ++ match l with YEffect e => [e] | _ => [] end.
Proof. unfold effects. rewrite flat_map_app. cbn [flat_map]. now rewrite app_nil_r. Qed.

(** The consumer does, in program order, what it has to do for one message after the other. *)
Lemma cons_run ifs tr s : yrun ifs tr (YOk s) ->
  exists ess, handle_all step1 consumer_init (msgs tr) = Ret (y_cons s, ess) /\
    effects tr ++ y_todo s = List.concat ess.
Proof.
  intros R. remember (YOk s) as r eqn:Er. revert s Er.
  induction R as [|tr s0 l r R IH ST]; intros s Er.
  - injection Er as <-. exists []. split; reflexivity.
  - subst r. destruct (IH _ eq_refl) as (ess & H & E). unfold msgs in *. rewrite handled_snoc, effects_snoc, map_app.
    inversion ST; subst; cbn [y_cons y_todo map]; rewrite ?app_nil_r; try (exists ess; split; [assumption|]).
    1, 6, 7: assumption.
    + exists (ess ++ [es]). split; [now apply handle_all_snoc with (y_cons s0)|].
      rewrite concat_app. cbn [List.concat]. rewrite app_nil_r, <- E.
      match goal with TD : y_todo s0 = [] |- _ => now rewrite TD, app_nil_r end.
    + rewrite <- app_assoc. cbn [app]. match goal with TD : y_todo s0 = _ :: _ |- _ => now rewrite <- TD end.
    + rewrite <- app_assoc. cbn [app]. match goal with TD : y_todo s0 = _ :: _ |- _ => now rewrite <- TD end.
    + rewrite <- app_assoc. cbn [app]. match goal with TD : y_todo s0 = _ :: _ |- _ => now rewrite <- TD end.
Qed.

Lemma broadcasts_stream tr : (forall l, In (YStream l) tr -> forall b, l <> LBroadcast b) ->
  broadcasts (stream_actions tr) = deltas_sent (effects tr).
Proof.
  induction tr as [|l tr IH]; intros N; [reflexivity|].
  unfold broadcasts, stream_actions, deltas_sent, effects in *. cbn [flat_map].
  rewrite !flat_map_app, IH by (intros; apply N; now right). f_equal.
  destruct l as [i|i m od|e|l|l]; try reflexivity.
  - destruct e; reflexivity.
  - cbn. destruct l; try reflexivity. exfalso. apply (N (LBroadcast m) (or_introl eq_refl) m eq_refl).
Qed.
Lemma broadcasts_stats tr : (forall l, In (YStats l) tr -> forall b, l <> LBroadcast b) ->
  broadcasts (stats_actions tr) = stats_sent (effects tr).
Proof.
  induction tr as [|l tr IH]; intros N; [reflexivity|].
  unfold broadcasts, stats_actions, stats_sent, effects in *. cbn [flat_map].
  rewrite !flat_map_app, IH by (intros; apply N; now right). f_equal.
  destruct l as [i|i m od|e|l|l]; try reflexivity.
  - destruct e; reflexivity.
  - cbn. destruct l; try reflexivity. exfalso. apply (N (LBroadcast m) (or_introl eq_refl) m eq_refl).
Qed.
Lemma no_inner_broadcast ifs tr r : yrun ifs tr r ->
  (forall l, In (YStream l) tr -> forall b, l <> LBroadcast b) /\ (forall l, In (YStats l) tr -> forall b, l <> LBroadcast b).
Proof.
  induction 1 as [|tr s0 l r R [IH1 IH2] ST]; [split; intros l []|].
  split; intros l0 I; apply in_app_or in I as [I|[I|[]]]; auto; subst l; inversion ST; subst; assumption.
Qed.

Lemma deltas_of_all : forall ms c0 c ess, handle_all step1 c0 ms = Ret (c, ess) ->
  deltas_sent (List.concat ess) =
  if o_ws opts then flat_map (fun h => delta_text tbl maps pl fmtv marshal (0%nat, fst h, snd h)) ms else [].
Proof.
  induction ms as [|[m od] ms IH]; intros c0 c ess H.
  - injection H as <- <-. now destruct (o_ws opts).
  - cbn [handle_all] in H. destruct (step1 c0 m od) as [[c' es]|e|w] eqn:E; try discriminate H.
    destruct (handle_all step1 c' ms) as [[c'' ess']|e|w] eqn:E2; try discriminate H. injection H as <- <-.
    cbn [List.concat flat_map]. unfold deltas_sent in *. rewrite flat_map_app, (IH _ _ _ E2).
    destruct (C59_outputs _ _ _ _ _ _ _ _ _ _ _ _ E) as [D _]. unfold deltas_sent in D. rewrite D.
    destruct (o_ws opts); reflexivity.
Qed.

(** The stream hub is given the texts of the deltas of the handled messages, in their order and
    nothing else; those not yet given to it are the last thing the consumer still has to do. *)
Theorem C62_stream_order ifs tr s : yrun ifs tr (YOk s) ->
  broadcasts (stream_actions tr) ++ deltas_sent (y_todo s) =
  if o_ws opts then flat_map (delta_text tbl maps pl fmtv marshal) (handled tr) else [].
Proof.
  intros R. destruct (cons_run _ _ _ R) as (ess & H & E). destruct (no_inner_broadcast _ _ _ R) as [N1 _].
  rewrite broadcasts_stream by exact N1. unfold deltas_sent in *. rewrite <- flat_map_app, E.
  fold (deltas_sent (List.concat ess)). rewrite (deltas_of_all _ _ _ _ H). destruct (o_ws opts); [|reflexivity].
  unfold msgs. rewrite !flat_map_concat_map, map_map. reflexivity.
Qed.

(** Every stream client receives a contiguous run of those texts, starting with the first one
    broadcast after its registration. *)
Theorem C62_clients ifs tr s c : yrun ifs tr (YOk s) -> o_ws opts = true -> In (LRegister c) (stream_actions tr) ->
  exists earlier later rest,
    stream_actions tr = earlier ++ LRegister c :: later /\ ~ In (LRegister c) earlier /\
    flat_map (delta_text tbl maps pl fmtv marshal) (handled tr) =
      broadcasts earlier ++ received c (stream_actions tr) ++ rest.
Proof.
  intros R W RG. pose proof (C62_stream_order _ _ _ R) as SO. rewrite W in SO.
  destruct (hubs_run _ _ _ R) as [[A1 A2] _]. destruct (C60_prefix _ _ _ A1 A2 RG) as (rest & P).
  assert (exists earlier later, stream_actions tr = earlier ++ LRegister c :: later /\ ~ In (LRegister c) earlier) as (e & l & E & N).
  { clear - RG. induction (stream_actions tr) as [|x q IH]; [destruct RG|].
    assert (x = LRegister c \/ x <> LRegister c) as [->|D].
    { destruct x as [d|d|d|m|d m| |d|d|d f ok]; try (right; congruence).
      destruct (Nat.eq_dec d c) as [->|]; [left; reflexivity|right; congruence]. }
    - exists [], q. split; [reflexivity|intros []].
    - destruct RG as [G|G]; [congruence|]. destruct (IH G) as (e & l & E & N).
      exists (x :: e), l. split; [cbn; now rewrite E|]. intros [I|I]; [congruence|contradiction]. }
  exists e, l. assert (since c (stream_actions tr) = broadcasts l) as SB.
  { rewrite E. clear - N. induction e as [|x e IH]; cbn [app since].
    - now rewrite Nat.eqb_refl.
    - assert (~ In (LRegister c) e) by (intros I; apply N; now right).
      destruct x; try (apply IH; assumption). destruct (Nat.eqb_spec c0 c) as [->|]; [destruct N; now left|now apply IH]. }
  exists (rest ++ deltas_sent (y_todo s)). split; [exact E|]. split; [exact N|].
  rewrite <- SO. replace (broadcasts (stream_actions tr)) with (broadcasts e ++ broadcasts l).
  - rewrite <- SB, P. now rewrite <- !app_assoc.
  - rewrite E. unfold broadcasts. rewrite flat_map_app. reflexivity.
Qed.

Lemma stats_of_all : forall ms c ess, o_ws opts = true -> handle_all step1 consumer_init ms = Ret (c, ess) ->
  exists tables, stats_sent (List.concat ess) = map object_text tables /\ List.length tables = List.length ms /\
    forall k tb, nth_error tables k = Some tb -> is_statistics (firstn (S k) (map fst ms)) tb.
Proof.
  intros ms c ess W. revert c ess. induction ms as [|[m od] ms IH] using rev_ind; intros c ess H.
  - injection H as <- <-. exists []. split; [reflexivity|]. split; [reflexivity|]. intros [|k] tb X; discriminate X.
  - destruct (C58_statistics _ _ _ _ _ _ _ _ _ _ _ _ H) as (es & rest & table & E & L & IS & S1 & _).
    apply handle_all_app in H as (c1 & es1 & es2 & H1 & H2 & E'). cbn [fst snd] in *.
    destruct (IH _ _ H1) as (tables & T1 & T2 & T3). rewrite W in S1.
    assert (es1 = rest) as ->.
    { cbn [handle_all] in H2. destruct (step1 c1 m od) as [[c' es']|e|w]; try discriminate H2. injection H2 as <- <-.
      rewrite E in E'. apply app_inj_tail in E' as [-> _]. reflexivity. }
    exists (tables ++ [table]). rewrite E, concat_app. unfold stats_sent in *. rewrite flat_map_app, T1.
    cbn [List.concat]. rewrite app_nil_r, S1, map_app, !app_length, T2. cbn [map List.length]. split; [reflexivity|].
    split; [reflexivity|]. intros k tb X. rewrite map_app. cbn [map fst].
    assert (List.length (map fst ms) = List.length tables) as LM by (rewrite map_length; lia).
    destruct (Nat.lt_ge_cases k (List.length tables)) as [A|A].
    + rewrite nth_error_app1 in X by exact A. rewrite firstn_app. replace (S k - List.length (map fst ms))%nat with 0%nat by lia.
      cbn [firstn]. rewrite app_nil_r. now apply T3.
    + rewrite nth_error_app2 in X by exact A. destruct (k - List.length tables)%nat as [|d] eqn:D; [|destruct d; discriminate X].
      injection X as <-. rewrite firstn_all2 by (rewrite app_length; cbn; lia). exact IS.
Qed.

(** The statistics hub is given one snapshot per handled message, the k-th being the table of
    counters over the first k messages. *)
Theorem C62_stats_order ifs tr s : yrun ifs tr (YOk s) -> o_ws opts = true ->
  exists tables, broadcasts (stats_actions tr) ++ stats_sent (y_todo s) = map object_text tables /\
    List.length tables = List.length (handled tr) /\
    forall k t, nth_error tables k = Some t -> is_statistics (firstn (S k) (map (fun h => snd (fst h)) (handled tr))) t.
Proof.
  intros R W. destruct (cons_run _ _ _ R) as (ess & H & E). destruct (no_inner_broadcast _ _ _ R) as [_ N1].
  destruct (stats_of_all _ _ _ W H) as (tables & T1 & T2 & T3). exists tables.
  rewrite broadcasts_stats by exact N1. unfold stats_sent in *. rewrite <- flat_map_app, E. split; [exact T1|].
  unfold msgs in *. rewrite map_length in T2. rewrite map_map in T3. cbn [fst] in T3. split; assumption.
Qed.

End Props.
