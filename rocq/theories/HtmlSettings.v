(** HtmlSettings: the settings page as browsers read it (C99). *)
From Coq Require Import Lia ZifyBool.
From Verif Require Import GoBase Strconv StrconvFacts ApiModel ConfigModel ConfigSpec FormModel FormSpec PagesText HtmlModel HtmlSpec HtmlProps.
Open Scope Z_scope.
Open Scope list_scope.

Definition index_nodes := Eval vm_compute in match escaped index_gtpl with Some l => l | None => [] end.
Lemma index_nodes_ok : escaped index_gtpl = Some index_nodes.
Proof. vm_compute. reflexivity. Qed.


(** Reading a template with its actions: v gives the texts. *)
Fixpoint tread (v : bytes -> bytes) (tr : bytes -> bool) (s : state) (nd : enode) : option (state * list token) :=
  let list := fix list s ns :=
    match ns with
    | [] => Some (s, [])
    | nd :: r => match tread v tr s nd with
                 | Some (s1, t1) => match list s1 r with Some (s2, t2) => Some (s2, t1 ++ t2) | None => None end
                 | None => None
                 end
    end in
  match nd with
  | ELit l => read s l
  | EText p => match s with SData => Some (SData, text (v p)) | _ => None end
  | EAttr p => match s with SValue 34 n l a [] => Some (SValue 34 n l a (v p), []) | _ => None end
  | EIf p yes no => if tr p then list s yes else list s no
  | _ => None
  end.
Fixpoint treads (v : bytes -> bytes) (tr : bytes -> bool) (s : state) (ns : list enode) : option (state * list token) :=
  match ns with
  | [] => Some (s, [])
  | nd :: r => match tread v tr s nd with
               | Some (s1, t1) => match treads v tr s1 r with Some (s2, t2) => Some (s2, t1 ++ t2) | None => None end
               | None => None
               end
  end.
Lemma tread_if v tr s p yes no : tread v tr s (EIf p yes no) = if tr p then treads v tr s yes else treads v tr s no.
Proof.
  assert (forall ns s, (fix list s ns := match ns with [] => Some (s, []) | nd :: r => match tread v tr s nd with
      | Some (s1, t1) => match list s1 r with Some (s2, t2) => Some (s2, t1 ++ t2) | None => None end | None => None end end) s ns = treads v tr s ns) as K.
  { induction ns as [|nd ns IH]; intros s0; [reflexivity|]. cbn [treads]. destruct (tread v tr s0 nd) as [[s1 t1]|]; [|reflexivity]. now rewrite IH. }
  cbn [tread]. now rewrite !K.
Qed.
Lemma treads_ok e v : (forall p, v p = visible (value e p)) -> forall ns s s' ts,
  treads v (truth e) s ns = Some (s', ts) -> read s (exec [] e ns) = Some (s', ts).
Proof.
  intros V.
  assert (forall nd s s' ts, tread v (truth e) s nd = Some (s', ts) -> read s (exec_node [] e nd) = Some (s', ts)) as N.
  { fix IH 1. intros nd s s' ts.
    assert (forall ns, (forall nd, In nd ns -> forall s s' ts, tread v (truth e) s nd = Some (s', ts) -> read s (exec_node [] e nd) = Some (s', ts)) ->
      forall s s' ts, treads v (truth e) s ns = Some (s', ts) -> read s (flat_map (exec_node [] e) ns) = Some (s', ts)) as L.
    { induction ns as [|n0 ns IHn]; intros H s0 s0' ts0 E; [exact E|]. cbn [treads flat_map] in *. destruct (tread v (truth e) s0 n0) as [[s1 t1]|] eqn:E1; [|discriminate].
      destruct (treads v (truth e) s1 ns) as [[s2 t2]|] eqn:E2; [|discriminate]. injection E as <- <-. eapply read_app; [apply H; [now left|exact E1]|]. apply IHn; [|exact E2].
      intros nd' I. apply H. now right. }
    destruct nd as [l|p|p|p|p yes no|body].
    - intros E. exact E.
    - cbn [tread exec_node]. destruct s; try discriminate. intros E. injection E as <- <-. rewrite V. apply text_hole.
    - cbn [exec_node]. intros E. assert (exists n l a, s = SValue 34 n l a [] /\ s' = SValue 34 n l a (v p) /\ ts = []) as (n & l & a & -> & -> & ->); [|rewrite V; apply value_hole0].
      cbn [tread] in E. destruct s as [| | | | | | | | | | |q n l a w| | | | |]; try discriminate E.
      destruct q as [|q|q]; try discriminate E. repeat (destruct q as [q|q|]; try discriminate E). destruct w; [|discriminate E]. injection E as <- <-. now exists n, l, a.
    - discriminate.
    - rewrite tread_if. cbn [exec_node]. destruct (truth e p); apply L.
      + clear L. induction yes as [|y yes IHy]; intros nd [].  { subst nd. apply IH. } apply IHy. assumption.
      + clear L. induction no as [|y no IHy]; intros nd []. { subst nd. apply IH. } apply IHy. assumption.
    - discriminate. }
  induction ns as [|nd ns IHn]; intros s s' ts E; [exact E|]. cbn [treads] in E. unfold exec in *. cbn [flat_map].
  destruct (tread v (truth e) s nd) as [[s1 t1]|] eqn:E1; [|discriminate]. destruct (treads v (truth e) s1 ns) as [[s2 t2]|] eqn:E2; [|discriminate].
  injection E as <- <-. eapply read_app; [apply N; exact E1|apply IHn; exact E2].
Qed.
(** The tokens of the settings page. *)
Definition conditions (b0 b1 b2 b3 : bool) (p : bytes) : bool :=
  if bytes_eqb p (str ".Server.EnableWebsockets") then b0
  else if bytes_eqb p (str ".Server.UseTls") then b1
  else if bytes_eqb p (str ".Mqtt.Enable") then b2
  else if bytes_eqb p (str ".Mqtt.UseTls") then b3
  else false.
Definition index_tokens (v : bytes -> bytes) (b0 b1 b2 b3 : bool) : list token :=
  match treads v (conditions b0 b1 b2 b3) SData index_nodes with Some (_, ts) => ts | None => [] end.
Definition index_elements : list (bool * bytes) := Eval vm_compute in tags (index_tokens (fun _ => []) true true true true).
Lemma index_reads v b0 b1 b2 b3 : treads v (conditions b0 b1 b2 b3) SData index_nodes = Some (SData, index_tokens v b0 b1 b2 b3).
Proof. destruct b0, b1, b2, b3; vm_compute; reflexivity. Qed.
Lemma index_tags v b0 b1 b2 b3 : tags (index_tokens v b0 b1 b2 b3) = index_elements.
Proof. destruct b0, b1, b2, b3; vm_compute; reflexivity. Qed.
Definition id_path : list (string * string) :=
  [("vesselName", ".Vessel.Name"); ("vesselManufacturer", ".Vessel.Manufacturer"); ("vesselModel", ".Vessel.Model"); ("vesselYear", ".Vessel.Year");
   ("mmsi", ".Vessel.Mmsi"); ("callsign", ".Vessel.Callsign"); ("registration", ".Vessel.Registration"); ("uuid_0", ".Vessel.Uuid0");
   ("uuid_1", ".Vessel.Uuid1"); ("uuid_2", ".Vessel.Uuid2"); ("uuid_3", ".Vessel.Uuid3"); ("uuid_4", ".Vessel.Uuid4"); ("listenOn", ".Server.ListenOn");
   ("port", ".Server.Port"); ("mqttHost", ".Mqtt.Host"); ("mqttPort", ".Mqtt.Port"); ("mqttClientId", ".Mqtt.ClientId"); ("mqttUsername", ".Mqtt.Username");
   ("mqttPassword", ".Mqtt.Password")]%string.
Definition box_values (ids : list string) (ts : list token) : list (option (bytes * option bytes)) :=
  map (fun i => match by_id (str i) ts with Some (n, l) => Some (n, attribute (str "value") l) | None => None end) ids.
Lemma index_shows v b0 b1 b2 b3 : Forall (fun ip => shows (index_tokens v b0 b1 b2 b3) (fst ip) (v (str (snd ip)))) id_path.
Proof.
  assert (box_values (map fst id_path) (index_tokens v b0 b1 b2 b3) = map (fun ip : string * string => Some (str "input", Some (v (str (snd ip))))) id_path) as K
    by (destruct b0, b1, b2, b3; vm_compute; reflexivity).
  revert K. generalize id_path as l. generalize (index_tokens v b0 b1 b2 b3) as ts. intros ts. unfold box_values. induction l as [|[i p] l IH]; intros K; [constructor|].
  cbn [map fst snd] in K. pose proof (f_equal (hd None) K) as K1. cbn [hd] in K1.
  constructor; [|apply IH; exact (f_equal (@tl _) K)]. unfold shows. cbn [fst snd]. destruct (by_id (str i) ts) as [[n a]|]; [|discriminate]. exists a.
  assert (n = str "input" /\ attribute (str "value") a = Some (v (str p))) as [-> ->] by (split; congruence). now split.
Qed.
Definition box_ticks (ids : list string) (ts : list token) : list (option (bytes * option bytes * option bytes)) :=
  map (fun i => match by_id (str i) ts with Some (n, l) => Some (n, attribute (str "type") l, attribute (str "checked") l) | None => None end) ids.
Lemma index_ticked v b0 b1 b2 b3 : Forall (fun ib => ticked (index_tokens v b0 b1 b2 b3) (fst ib) (snd ib))
  [("enableWebsockets", b0); ("useTls", b1); ("mqttEnable", b2); ("mqttUseTls", b3)]%string.
Proof.
  assert (forall l : list (string * bool), box_ticks (map fst l) (index_tokens v b0 b1 b2 b3) =
          map (fun ib : string * bool => Some (str "input", Some (str "checkbox"), if snd ib then Some [] else None)) l ->
          Forall (fun ib => ticked (index_tokens v b0 b1 b2 b3) (fst ib) (snd ib)) l) as K.
  { generalize (index_tokens v b0 b1 b2 b3) as ts. intros ts. unfold box_ticks. induction l as [|[i x] l IH]; intros K; [constructor|].
    cbn [map fst snd] in K. pose proof (f_equal (hd None) K) as K1. cbn [hd] in K1.
    constructor; [|apply IH; exact (f_equal (@tl _) K)]. unfold ticked. cbn [fst snd]. destruct (by_id (str i) ts) as [[n a]|]; [|discriminate]. exists a.
    assert (n = str "input" /\ attribute (str "type") a = Some (str "checkbox") /\ attribute (str "checked") a = if x then Some [] else None) as (-> & -> & ->)
      by (split; [exact (f_equal (fun o => match o with Some (x, _, _) => x | None => [] end) K1)|split;
        [exact (f_equal (fun o => match o with Some (_, x, _) => x | None => None end) K1)|exact (f_equal (fun o => match o with Some (_, _, x) => x | None => None end) K1)]]).
    split; [reflexivity|]. split; [reflexivity|]. destruct x; split; intros X; first [congruence|now destruct X]. }
  apply K. destruct b0, b1, b2, b3; vm_compute; reflexivity.
Qed.
Lemma itoa_visible n : visible (itoa n) = itoa n.
Proof.
  apply visible_id. destruct (Z.neg_nonneg_cases n) as [H|H].
  - rewrite itoa_neg by exact H. constructor; [lia|]. destruct (itoa_value (- n)) as (_ & F & _); [lia|]. eapply Forall_impl; [|exact F]. unfold dec_char. cbv beta. lia.
  - destruct (itoa_value n H) as (_ & F & _). eapply Forall_impl; [|exact F]. unfold dec_char. cbv beta. lia.
Qed.
(** C99: whatever the settings are, the page has the same elements, and each box shows its
    setting. *)
Theorem C99_settings : exists elements, forall c, exists b ts,
  index_page c = Some b /\ html b ts /\ tags ts = elements /\
  (forall o x s, text_box o x \/ uuid_box o x -> get o c = VText s -> shows ts (box_id x) (visible s)) /\
  (forall o x n, number_box o x -> get o c = VInt n -> shows ts (box_id x) (itoa n)) /\
  (forall o x v, check_box o x -> get o c = VBool v -> ticked ts (check_id x) v).
Proof.
  exists index_elements. intros c. unfold index_page. rewrite index_nodes_ok. set (v := fun p => visible (value (config_env c) p)).
  set (b0 := sv_websockets (cf_server c)). set (b1 := sv_tls (cf_server c)). set (b2 := mq_enable (cf_mqtt c)). set (b3 := mq_tls (cf_mqtt c)).
  exists (exec [] (config_env c) index_nodes), (index_tokens v b0 b1 b2 b3). split; [reflexivity|]. split; [|split; [|split; [|split]]].
  - apply (treads_ok (config_env c) v (fun _ => eq_refl)). exact (index_reads v b0 b1 b2 b3).
  - apply index_tags.
  - intros o x s [[]|[]] G; injection G as <-.
    all: match goal with |- shows _ (box_id ?x) _ => let i := eval cbv in (box_id x) in
           let p := eval vm_compute in (match find (fun ip => String.eqb (fst ip) i) id_path with Some ip => snd ip | None => EmptyString end) in
           exact (proj1 (Forall_forall _ _) (index_shows v b0 b1 b2 b3) (i, p) ltac:(unfold id_path; cbn [In]; tauto)) end.
  - intros o x n X G. rewrite <- itoa_visible. destruct X; injection G as <-.
    all: match goal with |- shows _ (box_id ?x) _ => let i := eval cbv in (box_id x) in
           let p := eval vm_compute in (match find (fun ip => String.eqb (fst ip) i) id_path with Some ip => snd ip | None => EmptyString end) in
           exact (proj1 (Forall_forall _ _) (index_shows v b0 b1 b2 b3) (i, p) ltac:(unfold id_path; cbn [In]; tauto)) end.
  - pose proof (index_ticked v b0 b1 b2 b3) as T. apply Forall_cons_iff in T as [T0 T]. apply Forall_cons_iff in T as [T1 T].
    apply Forall_cons_iff in T as [T2 T]. apply Forall_cons_iff in T as [T3 _]. intros o x y [] G; injection G as <-; assumption.
Qed.
(** ... so the form (C80) starts with what the page says. *)
Theorem C99_form sanitize c : exists b ts, index_page c = Some b /\ html b ts /\
  (forall o x, text_box o x \/ uuid_box o x -> exists v, shows ts (box_id x) v /\ fm_text (shown (fun s => sanitize (visible s)) c) x = sanitize v) /\
  (forall o x, number_box o x -> exists n, shows ts (box_id x) (itoa n) /\ fm_text (shown (fun s => sanitize (visible s)) c) x = itoa n) /\
  (forall o x, check_box o x -> ticked ts (check_id x) (fm_check (shown (fun s => sanitize (visible s)) c) x)).
Proof.
  destruct C99_settings as [el H]. destruct (H c) as (b & ts & E & R & _ & T & N & C). exists b, ts. split; [exact E|]. split; [exact R|]. split; [|split].
  - intros o x X. assert (exists s, get o c = VText s /\ fm_text (shown (fun s => sanitize (visible s)) c) x = sanitize (visible s)) as (s & G & S) by (destruct X as [[]|[]]; eexists; split; reflexivity).
    exists (visible s). split; [exact (T o x s X G)|exact S].
  - intros o x X. assert (exists n, get o c = VInt n /\ fm_text (shown (fun s => sanitize (visible s)) c) x = itoa n) as (n & G & S) by (destruct X; eexists; split; reflexivity).
    exists n. split; [exact (N o x n X G)|exact S].
  - intros o x X. apply (C o x _ X). destruct X; reflexivity.
Qed.
Example C99_example : exists b ts, index_page (mkconfig [] [] (cf_server default_config) (cf_mqtt default_config) None
    (mkvessel (str """><script>") [] [] 0 0 [] [] [] [] [] [] [] [])) = Some b /\ html b ts /\ shows ts "vesselName" (str """><script>").
Proof.
  destruct C99_settings as [el H]. destruct (H (mkconfig [] [] (cf_server default_config) (cf_mqtt default_config) None (mkvessel (str """><script>") [] [] 0 0 [] [] [] [] [] [] [] [])))
    as (b & ts & E & R & _ & T & _). exists b, ts. split; [exact E|]. split; [exact R|]. exact (T VesselName Bname _ (or_introl tb_name) eq_refl).
Qed.
