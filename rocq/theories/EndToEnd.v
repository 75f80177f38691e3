(** EndToEnd: the texts a stream client receives, traced back to what the interfaces delivered
    (C103). *)
From Coq Require Import Permutation FinFun.
From Verif Require Import GoBase BufFacts CanModel CanusbModel ActisenseModel NmeaTypes PgnTable NmeaModel NmeaProps2
  SignalkModel SignalkSpec SignalkDelta SignalkProps MapTable MainModel MainSpec MainProps HubModel HubSpec
  PipelineModel PipelineSpec PipelineProofs PipelineProps DeathSpec DeathProps
  JsonModel JsonSpec JsonLayout JsonProps UnjsonModel UnjsonProps2 PipelineExamples WireSpec WireProps.
Open Scope Z_scope.
Open Scope list_scope.

Section EndToEnd.
Variables (maps : mappings) (opts : options) (pl : platform) (fmtv : gval -> bytes) (unmarshal : bytes -> option canboat)
          (marshal : Z -> delta -> option bytes) (verbose : bool).
Hypothesis DM : distinct_members unmarshal.
Notation tstep := (tstep PgnList pl unmarshal).
Notation ystep := (ystep PgnList maps opts pl fmtv unmarshal marshal verbose).
Notation yrun := (yrun PgnList maps opts pl fmtv unmarshal marshal verbose).

(** A message that came off a bus has bytes for data. *)
Definition sound_out (t : thread) : Prop := forall x, th_out t = Some x -> bytes_ok (rm_data (pm_header x)).

Lemma tstep_sound st i t st' t' : input_ok i -> can_inv PgnList st -> th_inv i t -> tstep st t (TOk st' t') -> sound_out t'.
Proof.
  intros IO CI [SI OI] H.
  inversion H as [? j ES ET E|? p r ev rest r' ? B ES ET E|? p r ev rest B ES ET E| |
     ? p r ev rest m st1 st2 p' a fuel spare x B IF PP ES ET E| |
     ? r ev rest r' B ES ET E|? r ev rest B ES ET E| |? r ev rest m fuel spare x B PP ES ET E| |
     ? l rest x FC ES ET E|? l rest e FC ES ET E|]; subst; cbn [th_src th_out src_inv] in *; try (intros y; discriminate).
  - intros y X. exfalso. revert E X. unfold boot.
    destruct (if_dev j) as [|[|] w input|]; try discriminate; destruct (bytes_eqb (if_type j) (str "canusb")).
    all: try (cbv zeta; destruct (OpenChannel _ w 221) as [[st1 w1] [p|e|e]]; try discriminate; intros E; injection E as <- <-; discriminate).
    all: try discriminate.
    all: destruct (bytes_eqb (if_type j) (str "actisense")); try discriminate.
    all: try (destruct (act_OpenChannel w) as [w1 [p|e|e]]; try discriminate; destruct (GetOperatingMode p) as [q [z|e|e]]; try discriminate; intros E; injection E as <- <-; discriminate).
    all: destruct (bytes_eqb (if_type j) (str "file")); try discriminate; intros E; injection E as <- <-; discriminate.
  - intros y X. injection X as <-. destruct SI as (TY & done & IN & CR).
    pose proof (can_byte_inv PgnList st r done ev CI CR) as K. rewrite B in K.
    destruct (C39_header_and_keys _ _ _ _ _ _ PP) as [-> _]. tauto.
  - intros y X. injection X as <-. destruct SI as (TY & done & IN & AR). assert (input_of i = (done ++ [ev]) ++ rest) as IN2 by now rewrite <- app_assoc.
    pose proof (act_byte_inv r done ev (input_ok_app _ _ _ IO IN2) AR) as K. rewrite B in K. destruct K as (_ & mm & AM & BM & DE).
    destruct (C39_header_and_keys _ _ _ _ _ _ PP) as [-> _]. eapply delivered_bytes; eassumption.
  - intros y X. injection X as <-. revert FC. unfold FromCanBoat, from_canboat.
    destruct (pgn_first _ _) as [[f fp]| |]; try discriminate. destruct (pgn_last _ _) as [[g gp]| |]; try discriminate.
    destruct (negb _); [discriminate|]. intros FC. injection FC as <-. constructor.
Qed.

Lemma run_sound ifs tr r : Forall input_ok ifs -> yrun ifs tr r ->
  (forall s, r = YOk s -> forall i t, nth_error (y_threads s) i = Some t -> sound_out t) /\
  (forall i m od, In (i, m, od) (handled tr) -> bytes_ok (rm_data (pm_header m)) /\ Permutation (vi_order od) (pm_data m) /\ In m (handled_from i tr)).
Proof.
  intros IO R. induction R as [|tr s0 l r R [IH1 IH2] ST].
  - split; [|intros i m od []]. intros s Er i t H. injection Er as <-. cbn [sys_init y_threads] in H.
    rewrite nth_error_map in H. destruct (nth_error ifs i); [|discriminate]. injection H as <-. intros x; discriminate.
  - specialize (IH1 _ eq_refl). split.
    + intros s Er. subst r. pose proof (sys_ok_run opts pl fmtv unmarshal marshal verbose DM maps ifs tr s0 IO R) as (CI & LEN & TI).
      inversion ST as [? i t st' t' HT TS E1 E2 E3| |? i src m order c' es HT TD PM HD E1 E2 E3| | | | | | | |]; subst; cbn [y_threads]; try exact IH1.
      * destruct (nth_error ifs i) as [ifc|] eqn:HI.
        2:{ exfalso. apply nth_error_None in HI. assert (i < List.length (y_threads s0))%nat by (apply nth_error_Some; congruence). lia. }
        intros k tk H2. rewrite (set_thread_nth _ _ _ _ k HT) in H2. destruct (Nat.eqb_spec k i) as [->|N]; [|eauto].
        injection H2 as <-. rewrite Forall_forall in IO. eapply (tstep_sound _ ifc); [apply IO; eapply nth_error_In; eassumption|exact CI|eapply TI; eassumption|exact TS].
      * intros k tk H2. rewrite (set_thread_nth _ _ _ _ k HT) in H2. destruct (Nat.eqb_spec k i) as [->|N]; [|eauto].
        injection H2 as <-. intros x; discriminate.
    + intros i m od I. rewrite handled_snoc in I. rewrite handled_from_snoc. apply in_app_or in I as [I|I].
      { destruct (IH2 _ _ _ I) as (A & B & C). repeat split; [exact A|exact B|apply in_or_app; now left]. }
      assert (exists src, l = YHand i m od /\ nth_error (y_threads s0) i = Some (mkth src (Some m)) /\ Permutation (vi_order od) (pm_data m)) as (src & -> & HT & PM).
      { destruct l; try destruct I as []; try contradiction. injection H as -> -> ->. inversion ST; subst; eauto. }
      split; [exact (IH1 _ _ HT _ eq_refl)|]. split; [exact PM|]. rewrite Nat.eqb_refl. apply in_or_app. right. now left.
Qed.
End EndToEnd.

Lemma imported_once c x : from_canboat PgnList c = Ret x -> NoDup (map fst (pm_data x)).
Proof.
  unfold from_canboat. destruct (pgn_first _ _) as [[f fp]| |]; try discriminate. destruct (pgn_last _ _) as [[g gp]| |]; try discriminate.
  destruct (negb _); [discriminate|]. intros FC. injection FC as <-. cbn [pm_data].
  assert (forall l dd, NoDup (map fst dd) -> NoDup (map fst (fold_left (fun dd kv => import_field (p_fields fp) 0 (fst kv) (snd kv) dd) l dd))) as K.
  { induction l as [|[k v] l IH]; intros dd N; cbn [fold_left]; [exact N|]. apply IH. now apply import_in. }
  apply K. constructor.
Qed.

Lemma claim_unmapped path g : ~ group_of MapXml 60928 path g.
Proof.
  intros H. apply groups_for_In in H. assert (groups_for MapXml 60928 = []) as E by (vm_compute; reflexivity). rewrite E in H. destruct H.
Qed.

(** [b] is the JSON of the delta of one message that arrived on one of the interfaces
    (WireSpec.arrives) and was handled: the delta names that message's PGN and source, it is not empty, and each of its
    values is a value of that message under the path the map [mp] gives it
    (SignalkSpec.justified).  If the message came off a bus, reading the text as JSON gives this
    delta and nothing else, stamped with the time at which it was handled.  (An address claim of
    less than 7 bytes, should the map mention address claims, is left out: its last fields are
    made of bytes that are not part of it.) *)
Definition comes_from (mp : mappings) (pl : platform) (fmtv : gval -> bytes) (unmarshal : bytes -> option canboat) (other : Z -> option bytes) (nilb : bool)
    (ifs : list iface) (tr : list ylabel) (b : bytes) : Prop :=
  exists i n it x order now def vs d,
    arrives PgnList ifs i n it /\
    decodes PgnList pl unmarshal it x /\ In (i, x, mkvisit order now) (handled tr) /\
    zget PgnList (pm_index x) = Some def /\ vs <> [] /\ (forall v, In v vs -> justified (pl_tz pl) fmtv mp (p_rep def) x v) /\
    d = mkdelta (str "vessels.urn:mrn:signalk:uuid:c0d79334-4e25-4245-8892-54e8ccc8021d")
          [mkupdate (rm_pgn (pm_header x)) (str "/dev/actisense") (rm_source (pm_header x)) vs] /\
    marshal_at other nilb (pl_tz pl) now d = Some b /\
    forall m, it = IRaw m -> clock_ok (pl_tz pl) (now / 1000000000) (now mod 1000000000) ->
      (forall path g, ~ group_of mp 60928 path g) \/ rm_pgn m <> 60928 \/ 7 <= zlen (rm_data m) ->
      (exists v, json b v) /\ forall v, json b v -> delta_means (pl_tz pl) (now / 1000000000) (now mod 1000000000) d v.

Lemma text_traced mp opts pl fmtv tag depth verbose other nilb ifs tr s b :
  -86400 < pl_tz pl < 86400 -> paths_ok mp -> (forall v, encodable (pl_tz pl) v -> bytes_ok (fmtv v)) -> Forall input_ok ifs ->
  yrun PgnList mp opts pl fmtv (unmarshal_canboat tag depth) (marshal_at other nilb (pl_tz pl)) verbose ifs tr (YOk s) ->
  In b (flat_map (delta_text PgnList mp pl fmtv (marshal_at other nilb (pl_tz pl))) (handled tr)) ->
  comes_from mp pl fmtv (unmarshal_canboat tag depth) other nilb ifs tr b.
Proof.
  intros Z1 PO FO IO R I. pose proof (C94_distinct tag depth) as DM.
  apply in_flat_map in I as ([[i x] [order now]] & H & T). unfold delta_text in T. cbn [fst snd vi_order vi_now] in T.
  destruct (sk_delta _ mp order) as [d| |] eqn:SD; try destruct T as [].
  destruct (marshal_at other nilb (pl_tz pl) now d) as [b'|] eqn:MA; [|destruct T]. destruct T as [<-|[]].
  destruct (run_sound _ _ _ _ _ _ _ DM _ _ _ IO R) as [_ RS]. destruct (RS _ _ _ H) as (BO & PM & HF). cbn [vi_order] in PM.
  pose proof (C62_only_interfaces _ _ _ _ _ _ _ _ _ _ _ _ _ _ R H) as LT. destruct (nth_error ifs i) as [ifc|] eqn:HI; [|apply nth_error_None in HI; lia].
  destruct (C105_wire _ _ _ _ _ _ _ _ _ _ _ IO R) as (h & HH0 & ALL). destruct (ALL i ifc HI) as (n0 & ps & _ & _ & _ & _ & AR & F2).
  assert (exists p, In p ps /\ decodes PgnList pl (unmarshal_canboat tag depth) (snd p) x) as ([n it] & ID & DC).
  { clear - F2 HF. assert (In x (handled_from i tr ++ waiting s i)) as J by (apply in_or_app; now left). clear HF.
    remember (map snd ps) as q eqn:Q. revert ps Q. induction F2 as [|a y l l' D F IH]; intros ps Q; [destruct J|]. destruct ps as [|p ps]; [discriminate Q|]. injection Q as -> Q.
    destruct J as [->|J]; [exists p; split; [now left|exact D]|]. destruct (IH J _ Q) as (it & A & B). exists it. split; [now right|exact B]. }
  apply AR in ID as (_ & ID & _). cbn [fst snd] in DC.
  assert (NoDup (map fst (pm_data x))) as ND.
  { destruct it as [m|l]; cbn [decodes] in DC.
    - destruct DC as (fuel & spare & P). destruct (C39_header_and_keys _ _ _ _ _ _ P) as [_ [nk K]]. rewrite K.
      apply Injective_map_NoDup; [intros p q; lia|apply seq_NoDup].
    - unfold FromCanBoat in DC. now apply imported_once in DC. }
  destruct (C49_sound (mkenv (pl_tz pl) fmtv PgnList x) mp order d Z1 ND PM SD) as (def & vs & ED & EQ & NE & J). cbn [e_msg e_table e_tz e_fmt] in *.
  exists i, n, it, x, order, now, def, vs, d. split; [exists h; split; [exact HH0|exact ID]|]. split; [exact DC|]. split; [exact H|].
  split; [exact ED|]. split; [exact NE|]. split; [exact J|]. split; [exact EQ|]. split; [exact MA|].
  intros m -> CK NC. cbn [decodes] in DC. destruct DC as (fuel & spare & P).
  destruct (C39_header_and_keys _ _ _ _ _ _ P) as [HH _]. rewrite HH in *.
  assert (rm_pgn m = 60928 -> 7 <= zlen (rm_data m)) as N.
  { intros X. destruct NC as [NC|[NC|NC]]; [|contradiction|exact NC]. destruct vs as [|v vs']; [congruence|].
    destruct (J v (or_introl eq_refl)) as (path & g & G & _). rewrite HH, X in G. now apply NC in G. }
  rewrite (C44_only_the_message fuel pl m spare []) in P by exact N.
  destruct (C86_read _ _ _ _ other nilb _ _ _ _ _ _ _ Z1 CK PO FO BO (Forall_nil _) P PM SD) as (b2 & B1 & B2 & B3).
  unfold marshal_at in MA. rewrite B1 in MA. injection MA as ->. split; [exact B2|exact B3].
Qed.

(** C103.  Every text a client of the stream receives comes from a message some interface
    delivered. *)
Theorem C103_provenance mp opts pl fmtv tag depth verbose other nilb ifs tr s c b :
  -86400 < pl_tz pl < 86400 -> paths_ok mp -> (forall v, encodable (pl_tz pl) v -> bytes_ok (fmtv v)) -> Forall input_ok ifs -> o_ws opts = true ->
  yrun PgnList mp opts pl fmtv (unmarshal_canboat tag depth) (marshal_at other nilb (pl_tz pl)) verbose ifs tr (YOk s) ->
  In (LRegister c) (stream_actions tr) -> In b (received c (stream_actions tr)) ->
  comes_from mp pl fmtv (unmarshal_canboat tag depth) other nilb ifs tr b.
Proof.
  intros Z1 PO FO IO W R RG RC.
  destruct (C62_clients _ _ _ _ _ _ _ _ _ _ _ _ R W RG) as (earlier & later & rest & _ & _ & E).
  eapply text_traced; try eassumption. rewrite E. apply in_or_app. right. apply in_or_app. now left.
Qed.

(** The texts published over MQTT: those of the handled messages, in order, one each; the last
    may still be waiting. *)
Theorem C103_mqtt_order tbl maps opts pl fmtv unmarshal marshal verbose ifs tr s :
  yrun tbl maps opts pl fmtv unmarshal marshal verbose ifs tr (YOk s) ->
  published (effects tr) ++ published (y_todo s) =
  if o_mqtt opts then flat_map (delta_text tbl maps pl fmtv marshal) (handled tr) else [].
Proof.
  intros R. destruct (cons_run _ _ _ _ _ _ _ _ _ _ _ R) as (ess & H & E). unfold published in *. rewrite <- flat_map_app, E.
  clear - H. unfold msgs in H. remember consumer_init as c0 eqn:EC. clear EC. remember (y_cons s) as c1 eqn:EC. clear EC.
  revert c0 c1 ess H. induction (handled tr) as [|[[i m] od] ms IH]; intros c0 c1 ess H; cbn [map fst snd handle_all] in H.
  - injection H as _ <-. now destruct (o_mqtt opts).
  - destruct (handle _ _ _ _ _ _ _ c0 m od) as [[c' es]|e|w] eqn:E; try discriminate H.
    destruct (handle_all _ c' _) as [[c'' ess']|e|w] eqn:E2; try discriminate H. injection H as _ <-.
    cbn [List.concat flat_map]. rewrite flat_map_app, (IH _ _ _ E2).
    destruct (C59_outputs _ _ _ _ _ _ _ _ _ _ _ _ E) as [_ D]. unfold published in D. rewrite D.
    destruct (o_mqtt opts); reflexivity.
Qed.
(** ... so every published text comes from a message some interface delivered. *)
Theorem C103_mqtt mp opts pl fmtv tag depth verbose other nilb ifs tr s b :
  -86400 < pl_tz pl < 86400 -> paths_ok mp -> (forall v, encodable (pl_tz pl) v -> bytes_ok (fmtv v)) -> Forall input_ok ifs ->
  yrun PgnList mp opts pl fmtv (unmarshal_canboat tag depth) (marshal_at other nilb (pl_tz pl)) verbose ifs tr (YOk s) ->
  In (EMqtt b) (effects tr) ->
  comes_from mp pl fmtv (unmarshal_canboat tag depth) other nilb ifs tr b.
Proof.
  intros Z1 PO FO IO R I. eapply text_traced; try eassumption. pose proof (C103_mqtt_order _ _ _ _ _ _ _ _ _ _ _ R) as E.
  assert (In b (published (effects tr))) as J by (unfold published; apply in_flat_map; exists (EMqtt b); split; [exact I|now left]).
  destruct (o_mqtt opts).
  - rewrite <- E. apply in_or_app. now left.
  - apply app_eq_nil in E as [E _]. rewrite E in J. destruct J.
Qed.

(** The map the program is shipped with qualifies, and does not mention address claims. *)
Theorem C103_shipped : paths_ok MapXml /\ forall path g, ~ group_of MapXml 60928 path g.
Proof. split; [exact paths_MapXml|exact claim_unmapped]. Qed.

(* ------------------------------------------------------------ a complete execution *)

Section Drive.
Variables (opts : options) (pl : platform) (fmtv : gval -> bytes) (unmarshal : bytes -> option canboat)
          (marshal : Z -> delta -> option bytes) (verbose : bool).
Notation ystep := (ystep PgnList MapXml opts pl fmtv unmarshal marshal verbose).
Notation yrun := (yrun PgnList MapXml opts pl fmtv unmarshal marshal verbose).

Inductive cmd := CStep (k : nat) | CTake (k : nat) (now : Z) | CDo | CStream (l : label bytes) | CStats (l : label bytes).
Definition hub_do (w : world bytes) (l : label bytes) : option (world bytes) :=
  match l with
  | LOpen c => match w_pump w c with
      | None => Some (mkw (w_hub w) (w_conns w) (upd (w_chan w) c (mkch [] false)) (upd (w_pump w) c (Some PReg)))
      | Some _ => None end
  | LRegister c => match w_hub w, w_pump w c with
      | HIdle, Some PReg => Some (mkw HIdle (if in_dec Nat.eq_dec c (w_conns w) then w_conns w else c :: w_conns w) (w_chan w) (upd (w_pump w) c (Some PWait)))
      | _, _ => None end
  | LEndRange => match w_hub w with HBcast m [] => Some (mkw HIdle (w_conns w) (w_chan w) (w_pump w)) | _ => None end
  | LTake c => match w_pump w c, w_chan w c with
      | Some PWait, mkch (m :: q) b => Some (mkw (w_hub w) (w_conns w) (upd (w_chan w) c (mkch q b)) (upd (w_pump w) c (Some (PWrite (FText m)))))
      | _, _ => None end
  | _ => None
  end.
(** The offer to the next connection, and the pump's write (successful). *)
Definition hub_next (w : world bytes) (l : label bytes) : option (label bytes * world bytes) :=
  match l with
  | LOffer c _ => match w_hub w with
      | HBcast m (c' :: todo) =>
          if Nat.eqb c c' && negb (ch_closed (w_chan w c)) && Nat.ltb (List.length (ch_q (w_chan w c))) send_cap
          then Some (LOffer c m, mkw (HBcast m todo) (w_conns w) (upd (w_chan w) c (mkch (ch_q (w_chan w c) ++ [m]) false)) (w_pump w)) else None
      | _ => None end
  | LWrite c _ _ => match w_pump w c with
      | Some (PWrite (FText m)) => Some (LWrite c (FText m) true, mkw (w_hub w) (w_conns w) (w_chan w) (upd (w_pump w) c (Some PWait)))
      | _ => None end
  | l => match hub_do w l with Some w' => Some (l, w') | None => None end
  end.
Lemma hub_next_sound w l l' w' : hub_next w l = Some (l', w') ->
  hstep w l' (Ok w') /\ (forall b, l' <> LBroadcast b) /\ (forall c, l' <> LUnregister c).
Proof.
  destruct l as [c|c|c|m|c m| |c|c|c f ok]; cbn [hub_next hub_do]; try discriminate.
  - destruct (w_pump w c) eqn:E; [discriminate|]. intros H. injection H as <- <-. repeat split; [now constructor|discriminate|discriminate].
  - destruct (w_hub w) eqn:E1; [|discriminate]. destruct (w_pump w c) as [[| | |]|] eqn:E2; try discriminate. intros H. injection H as <- <-.
    repeat split; [now constructor|discriminate|discriminate].
  - destruct (w_hub w) as [|m' [|c' todo]] eqn:E1; try discriminate. destruct (Nat.eqb_spec c c') as [->|]; [|discriminate].
    destruct (ch_closed (w_chan w c')) eqn:E2; [discriminate|]. cbn [negb andb]. destruct (Nat.ltb _ send_cap) eqn:E3; [|discriminate].
    intros H. injection H as <- <-. repeat split; [|discriminate|discriminate].
    pose proof (st_offer _ w m' c' todo E1) as X. cbv zeta in X. rewrite E2, E3 in X. exact X.
  - destruct (w_hub w) as [|m' [|c' todo]] eqn:E1; try discriminate. intros H. injection H as <- <-. repeat split; [|discriminate|discriminate]. now apply st_end with (m := m').
  - destruct (w_pump w c) as [[| | |]|] eqn:E1; try discriminate. destruct (w_chan w c) as [[|m q] b] eqn:E2; try discriminate.
    intros H. injection H as <- <-. repeat split; [|discriminate|discriminate]. now apply st_take_msg.
  - destruct (w_pump w c) as [[| |[m| |]|]|] eqn:E1; try discriminate. intros H. injection H as <- <-. repeat split; [|discriminate|discriminate].
    exact (st_write _ w c (FText m) true E1).
Qed.

Definition drive1 (s : sys) (c : cmd) : option (ylabel * sys) :=
  match c with
  | CStep k => match step_of PgnList pl unmarshal s k with Some s' => Some (YStep k, s') | None => None end
  | CTake k now =>
      match nth_error (y_threads s) k, y_todo s with
      | Some (mkth src (Some m)), [] =>
          match handle opts (pl_tz pl) fmtv PgnList MapXml marshal verbose (y_cons s) m (mkvisit (pm_data m) now) with
          | Ret (c', es) => Some (YHand k m (mkvisit (pm_data m) now), mksys (y_can s) (set_thread (y_threads s) k (mkth src None)) c' es (y_stream s) (y_stats s))
          | _ => None
          end
      | _, _ => None
      end
  | CDo => match y_todo s with
      | EStats b :: es => match w_hub (y_stats s) with
          | HIdle => Some (YEffect (EStats b), mksys (y_can s) (y_threads s) (y_cons s) es (y_stream s) (mkw (HBcast b (w_conns (y_stats s))) (w_conns (y_stats s)) (w_chan (y_stats s)) (w_pump (y_stats s))))
          | _ => None end
      | EDelta b :: es => match w_hub (y_stream s) with
          | HIdle => Some (YEffect (EDelta b), mksys (y_can s) (y_threads s) (y_cons s) es (mkw (HBcast b (w_conns (y_stream s))) (w_conns (y_stream s)) (w_chan (y_stream s)) (w_pump (y_stream s))) (y_stats s))
          | _ => None end
      | e :: es => Some (YEffect e, mksys (y_can s) (y_threads s) (y_cons s) es (y_stream s) (y_stats s))
      | [] => None end
  | CStream l => match hub_next (y_stream s) l with Some (l', w) => Some (YStream l', mksys (y_can s) (y_threads s) (y_cons s) (y_todo s) w (y_stats s)) | None => None end
  | CStats l => match hub_next (y_stats s) l with Some (l', w) => Some (YStats l', mksys (y_can s) (y_threads s) (y_cons s) (y_todo s) (y_stream s) w) | None => None end
  end.
Lemma drive1_sound s c l s' : drive1 s c = Some (l, s') -> ystep s l (YOk s').
Proof.
  destruct c as [k|k now| |h|h]; cbn [drive1].
  - unfold step_of. destruct (nth_error (y_threads s) k) as [t|] eqn:E; [|discriminate].
    destruct (thread_step _ _ _ (y_can s) t) as [[st' t']|] eqn:E2; [|discriminate]. intros H. injection H as <- <-.
    eapply ys_thread; [exact E|]. now apply thread_step_sound.
  - destruct (nth_error (y_threads s) k) as [[src [m|]]|] eqn:E; try discriminate. destruct (y_todo s) eqn:T; [|discriminate].
    destruct (handle _ _ _ _ _ _ _ _ _ _) as [[c' es]|e|w] eqn:H; try discriminate. intros X. injection X as <- <-.
    eapply ys_hand; [exact E|exact T|apply Permutation_refl|exact H].
  - destruct (y_todo s) as [|e es] eqn:T; [discriminate|].
    destruct e; try (intros X; injection X as <- <-; eapply ys_other; [exact T|discriminate|discriminate]).
    + destruct (w_hub (y_stats s)) eqn:E; [|discriminate]. intros X. injection X as <- <-. eapply ys_stats; [exact T|]. apply st_broadcast; [exact E|apply Permutation_refl].
    + destruct (w_hub (y_stream s)) eqn:E; [|discriminate]. intros X. injection X as <- <-. eapply ys_delta; [exact T|]. apply st_broadcast; [exact E|apply Permutation_refl].
  - destruct (hub_next (y_stream s) h) as [[l' w]|] eqn:E; [|discriminate]. intros X. injection X as <- <-. apply hub_next_sound in E as (A & B & C). now apply ys_stream_hub.
  - destruct (hub_next (y_stats s) h) as [[l' w]|] eqn:E; [|discriminate]. intros X. injection X as <- <-. apply hub_next_sound in E as (A & B & C). now apply ys_stats_hub.
Qed.
Fixpoint drive (cs : list cmd) (tr : list ylabel) (s : sys) : option (list ylabel * sys) :=
  match cs with
  | [] => Some (tr, s)
  | c :: cs => match drive1 s c with Some (l, s') => drive cs (tr ++ [l]) s' | None => None end
  end.
Lemma drive_sound ifs : forall cs tr s tr' s', yrun ifs tr (YOk s) -> drive cs tr s = Some (tr', s') -> yrun ifs tr' (YOk s').
Proof.
  induction cs as [|c cs IH]; intros tr s tr' s' R H; cbn [drive] in H; [now injection H as <- <-|].
  destruct (drive1 s c) as [[l s1]|] eqn:E; [|discriminate]. eapply IH; [|exact H]. econstructor; [exact R|]. now apply drive1_sound in E.
Qed.
End Drive.

(** A client joins; the bus carries course over ground 1 rad (PGN 129026) from device 5; it is
    handled half a second into 2021; the client gets the text. *)
Definition course : list rd_event := line "T09F80205800FC10276400FFFF0000".
Definition course_cmds : list cmd :=
  [CStream (LOpen 7); CStream (LRegister 7)] ++ repeat (CStep 0) (S (List.length course)) ++ [CTake 0 1609459200500000000] ++
  repeat CDo 3 ++ [CStream (LOffer 7 []); CStream LEndRange; CStream (LTake 7); CStream (LWrite 7 FClose true)].
Example C103_example :
  Forall input_ok [bus course] /\
  exists tr s, yrun PgnList MapXml opts_ws pl0 show (unmarshal_canboat (fun _ => 0) 99) (marshal_at (fun _ => None) false 0) false [bus course] tr (YOk s) /\
    In (LRegister 7) (stream_actions tr) /\
    received 7 (stream_actions tr) = [str "{""context"":""vessels.urn:mrn:signalk:uuid:c0d79334-4e25-4245-8892-54e8ccc8021d"",""updates"":[{""source"":{""pgn"":129026,""device"":""/dev/actisense"",""src"":5},""timestamp"":""2021-01-01T00:00:00.5Z"",""values"":[{""path"":""navigation.courseOverGroundTrue"",""value"":57.29577951308232}]}]}"].
Proof.
  split.
  - constructor; [|constructor]. intros b I. cbn [input_of bus if_dev] in I.
    assert (forallb (fun e => match e with RByte b => (0 <=? b) && (b <? 256) | _ => true end) course = true) as K by (vm_compute; reflexivity).
    rewrite forallb_forall in K. specialize (K _ I). unfold is_byte. cbn in K. lia.
  - set (D := drive opts_ws pl0 show (unmarshal_canboat (fun _ => 0) 99) (marshal_at (fun _ => None) false 0) false course_cmds [] (sys_init [bus course])).
    set (reg := fun l : label bytes => match l with LRegister c => Nat.eqb c 7 | _ => false end).
    assert (match D with Some (tr, _) => (existsb reg (stream_actions tr), received 7 (stream_actions tr)) | None => (false, []) end
            = (true, [str "{""context"":""vessels.urn:mrn:signalk:uuid:c0d79334-4e25-4245-8892-54e8ccc8021d"",""updates"":[{""source"":{""pgn"":129026,""device"":""/dev/actisense"",""src"":5},""timestamp"":""2021-01-01T00:00:00.5Z"",""values"":[{""path"":""navigation.courseOverGroundTrue"",""value"":57.29577951308232}]}]}"])) as K by (vm_compute; reflexivity).
    destruct D as [[tr s]|] eqn:ED; [|discriminate K]. exists tr, s. split.
    { exact (drive_sound _ _ _ _ _ _ _ _ _ _ _ _ (yr_nil _ _ _ _ _ _ _ _ _) ED). }
    apply pair_equal_spec in K as [K1 K2]. split; [|exact K2]. apply existsb_exists in K1 as (l & I & E).
    unfold reg in E. destruct l as [|c| | | | | | |]; try discriminate E. apply Nat.eqb_eq in E. subst c. exact I.
Qed.
