(** JsonProps: C86-C90, what the program writes as JSON. *)
From Coq Require Import ZArith Reals Lia Floats.SpecFloat ZifyBool Permutation FinFun.
From Flocq Require Import Core BinarySingleNaN.
From Verif Require Import GoBase BufFacts Strconv StrconvFacts CanModel NmeaTypes PgnTable MapTable NmeaModel NmeaSpec NmeaFloat NmeaExtract NmeaProps1 NmeaParse NmeaProps2
  SignalkModel SignalkSpec SignalkTime SignalkText SignalkSplit SignalkDelta SignalkProps MainModel MainSpec MainProps ApiModel FormModel FormSpec FormProps FtoaModel JsonSpec FtoaFacts JsonModel JsonFacts JsonLayout JsonDecoded JsonUnique.
Open Scope Z_scope.
Open Scope list_scope.

(* ------------------------------------------------------------------ deltas *)

Definition value_fits (tz : Z) (x : skvalue) : Prop := bytes_ok (v_path x) /\ encodable tz (v_value x).
(** The paths of a mapping table are octets. *)
Definition paths_ok (m : mappings) : Prop := Forall (fun mp => bytes_ok (m_path mp)) m.

Lemma replace_first_ok old new : bytes_ok new -> forall s, bytes_ok s -> bytes_ok (replace_first s old new).
Proof.
  intros N. induction s as [|c s IH]; intros B; cbn [replace_first].
  - destruct (SignalkModel.has_prefix old []); [|constructor]. apply bytes_ok_app. split; [exact N|]. apply bytes_ok_skipn. exact B.
  - destruct (SignalkModel.has_prefix old (c :: s)).
    + apply bytes_ok_app. split; [exact N|]. now apply bytes_ok_skipn.
    + inversion B as [|? ? B1 B2]; subst. constructor; [exact B1|]. apply IH. exact B2.
Qed.
Lemma to_dot_ok s d : to_dot s = Ret d -> bytes_ok s -> bytes_ok d.
Proof.
  unfold to_dot. destruct (zlen s <? 2); [discriminate|]. intros H B. apply Ret_inj in H. subst d.
  apply bytes_ok_skipn. apply Forall_map. eapply Forall_impl; [|exact B]. intros c Hc. cbn beta. unfold is_byte in *. destruct (c =? 47); lia.
Qed.
Lemma itoa_ok n : 0 <= n -> bytes_ok (itoa n).
Proof.
  intros H. destruct (itoa_value n H) as [_ [F _]]. eapply Forall_impl; [|exact F]. unfold dec_char, is_byte. lia.
Qed.
Lemma pad_ok w s : bytes_ok s -> bytes_ok (pad w s).
Proof.
  intros B. induction w as [|w IH]; cbn [pad]; destruct (_ <? _)%nat; auto. constructor; [unfold is_byte; lia|exact IH].
Qed.
Lemma fmt_int_ok n w : bytes_ok (fmt_int n w).
Proof.
  unfold fmt_int. destruct (n <? 0) eqn:E.
  - constructor; [unfold is_byte; lia|]. apply pad_ok, itoa_ok. lia.
  - apply pad_ok, itoa_ok. lia.
Qed.
Lemma rfc3339_ok n s tz : bytes_ok (rfc3339 n s tz).
Proof.
  unfold rfc3339. destruct (civil n) as [[y m] d].
  repeat (apply bytes_ok_app; split; [first [apply fmt_int_ok|repeat constructor; unfold is_byte; lia]|]).
  destruct (tz =? 0); [repeat constructor; unfold is_byte; lia|]. cbv zeta.
  repeat (apply bytes_ok_app; split; [first [apply fmt_int_ok|destruct (_ <? 0); repeat constructor; unfold is_byte; lia|repeat constructor; unfold is_byte; lia]|]).
  apply fmt_int_ok.
Qed.
Lemma fs_parse_ok tz fs data : bytes_ok (fst (fs_parse tz fs data)).
Proof.
  unfold fs_parse. destruct (bytes_eqb _ _); [|constructor].
  destruct (dm_get data _); try (constructor). destruct (dm_get data _); try constructor.
  destruct (civil _) as [[y m] d]. destruct (civil _) as [[y' m'] d']. apply rfc3339_ok.
Qed.

Section Delta.
Variables (e : skenv) (m : mappings).
Hypothesis PO : paths_ok m.
Hypothesis FO : forall v, encodable (e_tz e) v -> bytes_ok (e_fmt e v).
Hypothesis MO : Forall (fun kv => encodable (e_tz e) (snd kv)) (pm_data (e_msg e)).
Let fits (s : skst) : Prop := Forall (value_fits (e_tz e)) (k_vals s).

Lemma push_fits s p v : fits s -> bytes_ok p -> encodable (e_tz e) v -> fits (push s p v).
Proof.
  intros H P V. unfold push. destruct p; [exact H|]. destruct v; try exact H;
    (apply Forall_app; split; [exact H|]; constructor; [|constructor]; split; assumption).
Qed.
Lemma get_fits d k : Forall (fun kv => encodable (e_tz e) (snd kv)) d -> encodable (e_tz e) (dm_get d k).
Proof.
  induction 1 as [|[a v] d H _ IH]; cbn [dm_get]; [exact I|]. cbn [snd] in H. destruct (_ =? _); assumption.
Qed.
Lemma sk_path_fits rpt fid dotted g p mlt : bytes_ok dotted -> sk_path e rpt fid dotted g = Ret (p, mlt) -> bytes_ok p.
Proof.
  unfold sk_path. intros D H.
  match type of H with context [replace_first ?a _ _] => idtac end.
  set (q := if nonempty (i_id (g_class g)) && nonempty (i_field (g_class g)) then _ else _) in H.
  assert (bytes_ok q) as Q by (unfold q; destruct (_ && _); [apply replace_first_ok; [apply FO, get_fits, MO|exact D]|exact D]).
  destruct (nonempty (i_id (g_mult g)) && _).
  - cbv zeta in H. destruct (rpt =? 0); [discriminate|]. apply Ret_inj in H. injection H as <- _. apply replace_first_ok; [apply FO, get_fits, MO|exact Q].
  - apply Ret_inj in H. injection H as <- _. exact Q.
Qed.
Lemma sk_group_fits fid v mp g s s' : bytes_ok mp -> encodable (e_tz e) v -> fits s ->
  sk_group e fid v mp g s = Ret s' -> fits s'.
Proof.
  intros B V F H. unfold sk_group in H. destruct (negb _); [apply Ret_inj in H; now subst|].
  destruct (to_dot mp) as [dotted| |] eqn:ED; try discriminate. pose proof (to_dot_ok _ _ ED B) as BD.
  destruct (zget _ _) as [def|]; [|discriminate]. cbv zeta in H.
  destruct (sk_path e (p_rep def) fid dotted g) as [[p mlt]| |] eqn:EP; try discriminate.
  pose proof (sk_path_fits _ _ _ _ _ _ BD EP) as BP.
  destruct (_ && negb _).
  - destruct (conds_match _ _ _); apply Ret_inj in H; subst s'; [|exact F]. apply push_fits; assumption.
  - destruct (fs_fields _); [apply Ret_inj in H; now subst|].
    destruct (has_all _ _ _); [|apply Ret_inj in H; now subst].
    pose proof (fs_parse_ok (e_tz e) (g_fieldset g) (pm_data (e_msg e))) as BT.
    destruct (fs_parse _ _ _) as [txt u]. cbn [fst] in BT. apply Ret_inj in H. subst s'. cbn [k_vals].
    change (fits (push s dotted (VString txt))). apply push_fits; assumption.
Qed.
Lemma sk_each_fits {A} (f : A -> skst -> outcome skst) (P : A -> Prop) :
  (forall x s s', P x -> fits s -> f x s = Ret s' -> fits s') ->
  forall l s s', Forall P l -> fits s -> sk_each f l s = Ret s' -> fits s'.
Proof.
  intros HF. induction l as [|x l IH]; intros s s' FA F H; cbn [sk_each] in H.
  - apply Ret_inj in H. now subst.
  - inversion FA; subst. unfold bind in H. destruct (f x s) as [s1| |] eqn:E; try discriminate. eauto.
Qed.
Theorem delta_fits order d : Forall (fun kv => encodable (e_tz e) (snd kv)) order -> sk_delta e m order = Ret d ->
  d_context d = sk_context /\ exists u, d_updates d = [u] /\ u_device u = sk_device /\ u_values u <> [] /\ Forall (value_fits (e_tz e)) (u_values u).
Proof.
  intros EO H. unfold sk_delta, bind in H. destruct (sk_loop e m order) as [s| |] eqn:L; try discriminate.
  assert (fits s) as F.
  { unfold sk_loop in L. assert (fits (mkst [] [])) as F00 by (constructor). refine (sk_each_fits _ _ _ _ _ _ EO F00 L).
    intros [fid v] s0 s1 V F0 H0. unfold sk_field in H0. refine (sk_each_fits _ _ _ _ _ _ PO F0 H0).
    intros mp s2 s3 B F2 H2. cbn [fst snd] in H2. refine (sk_each_fits _ (fun _ => True) _ _ _ _ _ F2 H2).
    - intros g s4 s5 _ F4 H4. exact (sk_group_fits _ _ _ _ _ _ B V F4 H4).
    - apply Forall_forall. auto. }
  destruct (k_vals s) as [|x l] eqn:E; [discriminate|]. apply Ret_inj in H. subst d. split; [reflexivity|].
  eexists. split; [reflexivity|]. split; [reflexivity|]. split; [discriminate|]. unfold fits in F. rewrite E in F. exact F.
Qed.
End Delta.

Lemma all_some_ok {A B C} (f : A -> option B) (P : B -> C -> Prop) (Q : A -> C -> Prop) l :
  Forall (fun x => exists b c, f x = Some b /\ P b c /\ Q x c) l ->
  exists bs cs, all_some (map f l) = Some bs /\ Forall2 P bs cs /\ Forall2 Q l cs.
Proof.
  induction 1 as [|x l (b & c & E & H1 & H2) _ (bs & cs & E' & H3 & H4)]; [exists [], []; repeat constructor|].
  exists (b :: bs), (c :: cs). cbn [map all_some]. rewrite E, E'. auto.
Qed.

Lemma ascii_name s : Forall (fun c => 0 <= c < 128) (str s) -> bytes_ok (str s) /\ reads (str s) (str s).
Proof. intros H. split; [apply bytes_ok_str|now apply ascii_reads]. Qed.
Ltac name := apply ascii_name; repeat constructor; lia.

(** A clock reading whose year has four digits. *)
Definition clock_ok (tz sec ns : Z) : Prop := 0 <= ns < 10 ^ 9 /\ -719528 <= (sec + tz) / 86400 < 2932897.

Lemma time_tree tz sec ns : -86400 < tz < 86400 -> clock_ok tz sec ns ->
  exists b t, json_time tz sec ns = Some b /\ tmeans (TAtom b) (JStr t) /\ instant_text tz sec ns t.
Proof.
  intros Z1 [N R]. destruct (json_time_ok tz sec ns N Z1 R) as [t [H [I P]]].
  exists (34 :: t ++ [34]), t. split; [exact H|]. split; [|exact I]. apply tm_atom, js_str, plain_text, P.
Qed.

Theorem delta_json other nilb tz sec ns d u : -86400 < tz < 86400 -> clock_ok tz sec ns ->
  d_context d = sk_context -> d_updates d = [u] -> u_device u = sk_device -> u_values u <> [] -> Forall (value_fits tz) (u_values u) ->
  exists b v, json_delta other nilb tz sec ns d = Some b /\ json b v /\ delta_means tz sec ns d v.
Proof.
  intros Z1 CK EC EU ED NE F. unfold json_delta, tree_delta. rewrite EU. cbn [map all_some].
  destruct (time_tree tz sec ns Z1 CK) as (tb & t & ET & TT & IT). rewrite ET.
  set (g := fun x => match json_value other nilb tz (v_value x) with Some b => Some (TObj [(str "path", ttext (v_path x)); (str "value", TAtom b)]) | None => None end).
  destruct (all_some_ok g tmeans (value_means tz) (u_values u)) as (bs & vs & EA & H1 & H2).
  { eapply Forall_impl; [|exact F]. intros x [BP EV]. destruct (json_value_ok other nilb tz _ Z1 EV) as (b & w & E & J & M).
    destruct (bytes_ok_reads _ BP) as [p RP].
    exists (TObj [(str "path", ttext (v_path x)); (str "value", TAtom b)]), (JObj [(str "path", JStr p); (str "value", w)]).
    unfold g. rewrite E. split; [reflexivity|]. split; [|exists p, w; auto].
    apply tm_obj. constructor; [split; [name|now apply tm_text]|]. constructor; [split; [name|now apply tm_atom]|constructor]. }
  rewrite EA. cbn [map all_some tslice].
  assert (reads sk_context sk_context) as RC by (apply ascii_reads; repeat constructor; lia).
  assert (reads sk_device sk_device) as RD by (apply ascii_reads; repeat constructor; lia).
  set (uv := JObj [(str "source", JObj [(str "pgn", JNum (u_pgn u) 0); (str "device", JStr sk_device); (str "src", JNum (u_src u) 0)]);
              (str "timestamp", JStr t); (str "values", JArr vs)]).
  eexists _, (JObj [(str "context", JStr sk_context); (str "updates", JArr [uv])]). split; [reflexivity|]. split.
  - apply compact_ok. apply tm_obj. constructor; [split; [name|]|constructor; [split; [name|]|constructor]]; cbn [snd].
    + rewrite EC. apply tm_text; [apply bytes_ok_str|exact RC].
    + apply tm_list. constructor; [|constructor]. apply tm_obj.
      constructor; [split; [name|]|constructor; [split; [name|]|constructor; [split; [name|]|constructor]]]; cbn [snd].
      * apply tm_obj. constructor; [split; [name|apply tm_num]|constructor; [split; [name|]|constructor; [split; [name|apply tm_num]|constructor]]]. cbn [snd].
        rewrite ED. apply tm_text; [apply bytes_ok_str|exact RD].
      * exact TT.
      * apply tm_slice; [|exact H1]. intros ->. apply F2_nil_l in H1. subst vs. inversion H2; congruence.
  - exists sk_context, [uv]. split; [now rewrite EC|]. split; [|reflexivity]. rewrite EU. constructor; [|constructor].
    exists sk_device, t, vs. rewrite ED. auto.
Qed.

Lemma paths_MapXml : paths_ok MapXml.
Proof.
  assert (forallb (fun mp => bytes_okb (m_path mp)) MapXml = true) as H by (vm_compute; reflexivity).
  unfold paths_ok. apply Forall_forall. intros mp I. rewrite forallb_forall in H. specialize (H mp I).
  unfold bytes_okb in H. rewrite forallb_forall in H. apply Forall_forall. intros c J. specialize (H c J). unfold is_byteb, is_byte in *. lia.
Qed.

(** C86: the delta of a decoded message is always written, never silently dropped, and its text
    is a JSON text that says what the delta says. *)
Theorem C86_written fuel pl fmtv mp other nilb sec ns m spare r order d :
  -86400 < pl_tz pl < 86400 -> clock_ok (pl_tz pl) sec ns -> paths_ok mp -> (forall v, encodable (pl_tz pl) v -> bytes_ok (fmtv v)) ->
  bytes_ok (rm_data m) -> bytes_ok spare -> parse_packet fuel pl PgnList m spare = Some (Ret r) -> Permutation order (pm_data r) ->
  sk_delta (mkenv (pl_tz pl) fmtv PgnList r) mp order = Ret d ->
  exists b v, json_delta other nilb (pl_tz pl) sec ns d = Some b /\ json b v /\ delta_means (pl_tz pl) sec ns d v.
Proof.
  intros Z1 CK PO FO B1 B2 P PM D.
  pose proof (decoded_encodable _ _ _ _ _ _ Z1 tame_PgnList B1 B2 P) as EN.
  assert (Forall (fun kv => encodable (pl_tz pl) (snd kv)) order) as EO.
  { rewrite Forall_forall in *. intros kv I. apply EN. eapply Permutation_in; eauto. }
  destruct (delta_fits (mkenv (pl_tz pl) fmtv PgnList r) mp PO FO EN order d EO D) as (EC & u & EU & ED & NE & F).
  now apply (delta_json other nilb (pl_tz pl) sec ns d u).
Qed.
(** ... so a client of the stream, and the broker, get it. *)
Theorem C86_sent o fuel pl fmtv mp verbose other nilb m spare r order d c c' es :
  -86400 < pl_tz pl < 86400 -> clock_ok (pl_tz pl) (vi_now order / 1000000000) (vi_now order mod 1000000000) -> paths_ok mp -> (forall v, encodable (pl_tz pl) v -> bytes_ok (fmtv v)) ->
  bytes_ok (rm_data m) -> bytes_ok spare -> parse_packet fuel pl PgnList m spare = Some (Ret r) -> Permutation (vi_order order) (pm_data r) ->
  sk_delta (mkenv (pl_tz pl) fmtv PgnList r) mp (vi_order order) = Ret d ->
  handle o (pl_tz pl) fmtv PgnList mp (marshal_at other nilb (pl_tz pl)) verbose c r order = Ret (c', es) ->
  exists b v, json b v /\ delta_means (pl_tz pl) (vi_now order / 1000000000) (vi_now order mod 1000000000) d v /\
    (o_ws o = true -> In (EDelta b) es) /\ (o_mqtt o = true -> In (EMqtt b) es).
Proof.
  intros Z1 CK PO FO B1 B2 P PM D H.
  destruct (C86_written _ _ _ _ other nilb _ _ _ _ _ _ _ Z1 CK PO FO B1 B2 P PM D) as (b & v & E & J & M).
  exists b, v. split; [exact J|]. split; [exact M|]. unfold handle in H.
  destruct (if MainModel.shown o (pm_header r) then _ else _); try discriminate. cbv zeta in H. unfold marshal_at in H. rewrite D, E in H.
  apply Ret_inj in H. injection H as <- <-.
  split; intros W; rewrite W; rewrite !in_app_iff; cbn; tauto.
Qed.
(** Course over ground 1 rad, received at the first half second of 2021 (PGN 129026). *)
Example C86_example :
  match parse_packet 100 pl0 PgnList (msg 129026 [0; 252; 16; 39; 100; 0; 255; 255]) [] with
  | Some (Ret r) =>
      match sk_delta (mkenv 0 show PgnList r) MapXml (pm_data r) with
      | Ret d => option_map (fun b => b) (json_delta (fun _ => None) false 0 1609459200 500000000 d) =
          Some (str "{""context"":""vessels.urn:mrn:signalk:uuid:c0d79334-4e25-4245-8892-54e8ccc8021d"",""updates"":[{""source"":{""pgn"":129026,""device"":""/dev/actisense"",""src"":1},""timestamp"":""2021-01-01T00:00:00.5Z"",""values"":[{""path"":""navigation.courseOverGroundTrue"",""value"":57.29577951308232}]}]}")
      | _ => False end
  | _ => False end.
Proof. vm_compute. reflexivity. Qed.

(* ------------------------------------------------------------------ messages *)

Lemma insert_perm {A} (kv : bytes * A) l : Permutation (insert_member kv l) (kv :: l).
Proof.
  induction l as [|x l IH]; cbn [insert_member]; [reflexivity|]. destruct (bytes_ltb _ _); [|reflexivity].
  rewrite IH. apply perm_swap.
Qed.
Lemma sort_members_perm {A} (l : list (bytes * A)) : Permutation (sort_members l) l.
Proof. unfold sort_members. induction l as [|x l IH]; cbn [fold_right]; [reflexivity|]. rewrite insert_perm. now constructor. Qed.

Lemma perm_map_inv {A B} (f : A -> B) l m : Permutation l (map f m) -> exists n, l = map f n /\ Permutation n m.
Proof.
  intros H. apply Permutation_map_inv in H as [n [E P]]. exists n. split; [exact E|]. now symmetry.
Qed.
Lemma itoa_numeral n : 0 <= n -> numeral n (itoa n).
Proof.
  intros H. destruct (itoa_value n H) as [V [F NE]]. split.
  - split; [exact NE|]. split; [exact F|]. rewrite dec_value_fold. fold (dec_value (itoa n)). now rewrite V.
  - destruct (Z.eq_dec n 0) as [->|N]; [left; reflexivity|]. right. intros r E.
    destruct (itoa_head n ltac:(lia)) as [c [r' [E' C]]]. congruence.
Qed.

(** C87: the JSON of a decoded message says what the message says: header, table index and every
    field under its number, nothing lost and nothing added. *)
Theorem C87_message fuel pl other nilb sec ns m spare r :
  -86400 < pl_tz pl < 86400 -> clock_ok (pl_tz pl) sec ns ->
  bytes_ok (rm_data m) -> bytes_ok spare -> parse_packet fuel pl PgnList m spare = Some (Ret r) ->
  exists b v, json_message other nilb (pl_tz pl) sec ns r = Some b /\ json b v /\ message_means (pl_tz pl) sec ns r v.
Proof.
  intros Z1 CK B1 B2 P. set (tz := pl_tz pl) in *.
  pose proof (decoded_encodable _ _ _ _ _ _ Z1 tame_PgnList B1 B2 P) as EN. fold tz in EN.
  destruct (C39_header_and_keys _ _ _ _ _ _ P) as [HH [n K]].
  assert (NoDup (map fst (pm_data r))) as ND by (rewrite K; apply Injective_map_NoDup; [intros a b; lia|apply seq_NoDup]).
  assert (Forall (fun kv => 0 <= fst kv) (pm_data r)) as NN.
  { apply Forall_forall. intros kv I. assert (In (fst kv) (map fst (pm_data r))) as J by now apply in_map.
    rewrite K in J. apply in_map_iff in J as [x [<- _]]. lia. }
  destruct (C47_json_keys _ ND) as [EJ _].
  destruct (perm_map_inv _ _ _ (eq_ind _ (fun x => Permutation (sort_members x) x) (sort_members_perm (map (fun kv => (itoa (fst kv), snd kv)) (pm_data r))) _ eq_refl)) as [flds [EF PF]].
  destruct (time_tree tz sec ns Z1 CK) as (tb & t & ET & TT & IT).
  unfold json_message, tree_message. fold tz. rewrite ET. unfold tree_data. rewrite EJ, EF, map_map.
  assert (Forall (fun kv => encodable tz (snd kv) /\ 0 <= fst kv) flds) as FF.
  { apply Forall_forall. intros kv I. rewrite Forall_forall in *. assert (In kv (pm_data r)) by (eapply Permutation_in; eauto). auto. }
  set (g := fun x : Z * gval => match json_value other nilb tz (snd (itoa (fst x), snd x)) with
                     | Some b => Some (fst (itoa (fst x), snd x), TAtom b) | None => None end).
  destruct (all_some_ok g (fun (kv : bytes * jt) (mm : list Z * jv) => (bytes_ok (fst kv) /\ reads (fst kv) (fst mm)) /\ tmeans (snd kv) (snd mm))
              (fun kv mm => numeral (fst kv) (fst mm) /\ jmeans tz (snd kv) (snd mm)) flds) as (bs & ms & EA & H1 & H2).
  { eapply Forall_impl; [|exact FF]. intros [k x] [EX KX]. cbn [fst snd] in *.
    destruct (json_value_ok other nilb tz x Z1 EX) as (b & w & E & J & M).
    exists (itoa k, TAtom b), (itoa k, w). unfold g. cbn [fst snd]. rewrite E. split; [reflexivity|]. split.
    - split; [|now apply tm_atom]. split; [now apply itoa_ok|]. apply ascii_reads.
      destruct (itoa_value k KX) as [_ [F _]]. eapply Forall_impl; [|exact F]. unfold dec_char. lia.
    - split; [now apply itoa_numeral|exact M]. }
  rewrite EA. cbv zeta.
  assert (bytes_ok (rm_data (pm_header r))) as BD by now rewrite HH.
  destruct (json_bytes_ok nilb tz (rm_data (pm_header r)) BD) as (dv & JD & MD).
  set (hv := JObj [(str "Timestamp", JStr t); (str "Priority", JNum (rm_priority (pm_header r)) 0); (str "Pgn", JNum (rm_pgn (pm_header r)) 0);
              (str "Source", JNum (rm_source (pm_header r)) 0); (str "Destination", JNum (rm_dest (pm_header r)) 0);
              (str "Length", JNum (rm_length (pm_header r)) 0); (str "Data", dv)]).
  eexists _, (JObj [(str "Header", hv); (str "Index", JNum (pm_index r) 0); (str "Data", JObj ms)]). split; [reflexivity|]. split.
  - apply compact_ok. apply tm_obj.
    constructor; [split; [name|]|constructor; [split; [name|]|constructor; [split; [name|]|constructor]]]; cbn [snd].
    + apply tm_obj. repeat (first [apply Forall2_nil|apply Forall2_cons; [split; [name|first [apply tm_num|exact TT|now apply tm_atom]]|]]).
    + apply tm_num.
    + apply tm_obj. exact H1.
  - exists hv, ms. split; [exists t, dv; auto|]. split; [|reflexivity]. exists flds. auto.
Qed.
Example C87_example :
  match parse_packet 100 pl0 PgnList (msg 129026 [0; 252; 16; 39; 100; 0; 255; 255]) [] with
  | Some (Ret r) => json_message (fun _ => None) false 0 1609459200 500000000 r =
      Some (str "{""Header"":{""Timestamp"":""2021-01-01T00:00:00.5Z"",""Priority"":3,""Pgn"":129026,""Source"":1,""Destination"":255,""Length"":8,""Data"":""APwQJ2QA//8=""},""Index"":106,""Data"":{""0"":0,""1"":""True"",""2"":""/A=="",""3"":57.29577951308232,""4"":1,""5"":""//8=""}}")
  | _ => False end.
Proof. vm_compute. reflexivity. Qed.

(* ------------------------------------------------------------------ statistics *)

Lemma itoa_plain n : Forall plain (itoa n).
Proof.
  assert (forall k, 0 <= k -> Forall plain (itoa k)) as P.
  { intros k H. destruct (itoa_value k H) as [_ [F _]]. now apply dec_plain. }
  destruct (Z.le_gt_cases 0 n) as [L|L]; [now apply P|].
  assert (itoa n = 45 :: itoa (- n)) as ->.
  { unfold itoa. replace (n <? 0) with true by lia. replace (- n <? 0) with false by lia. reflexivity. }
  constructor; [unfold plain; lia|]. apply P. lia.
Qed.
Lemma joined_separated l : joined [44] l = separated (str ",") l.
Proof.
  destruct l as [|x l]; [reflexivity|]. revert x. induction l as [|y l IH]; intros x; [cbn; now rewrite app_nil_r|].
  rewrite joined_cons, IH. cbn [separated flat_map]. now rewrite <- app_assoc.
Qed.
Lemma stats_object_json rows : Forall (fun r => exists p, fst r = itoa p) rows ->
  json (object_text rows) (JObj (map (fun r => (fst r, JNum (snd r) 0)) rows)).
Proof.
  intros F. unfold object_text. rewrite <- joined_separated. change (str "{") with [123]. change (str "}") with [125].
  destruct rows as [|r0 rows]; [exact (js_obj0 [] blank_nil)|]. apply js_obj; [discriminate|].
  set (l := r0 :: rows) in *.
  pose proof (members_joined [] [] [] (map (fun r : bytes * Z => (quoted (fst r), itoa (snd r))) l) blank_nil blank_nil blank_nil
    (map (fun r => (fst r, JNum (snd r) 0)) l)) as M.
  rewrite map_map in M. cbn [app fst snd] in M. rewrite app_nil_r in M. apply M; [|discriminate]. clear M.
  induction F as [|[k n] l' [p E] F IH]; cbn [map fst snd]; constructor; [|exact IH].
  cbn [fst snd] in *. subst k. split; [|apply js_num, itoa_number].
  change (quoted (itoa p)) with (34 :: itoa p ++ [34]). apply plain_text, itoa_plain.
Qed.
(** C88: what a statistics client gets after each message is a JSON object with one member per
    PGN seen so far, its counter. *)
Theorem C88_statistics o tz fmtv t mp marshal verbose ms m order c ess :
  handle_all (handle o tz fmtv t mp marshal verbose) consumer_init (ms ++ [(m, order)]) = Ret (c, ess) ->
  exists es rest table, ess = rest ++ [es] /\ is_statistics (map fst ms ++ [m]) table /\
    (o_ws o = true -> exists b, stats_sent es = [b] /\ json b (JObj (map (fun r => (fst r, JNum (snd r) 0)) table))).
Proof.
  intros H. destruct (C58_statistics _ _ _ _ _ _ _ _ _ _ _ _ H) as (es & rest & table & E1 & _ & E2 & E3 & _).
  exists es, rest, table. split; [exact E1|]. split; [exact E2|]. intros W. rewrite W in E3.
  eexists. split; [exact E3|]. apply stats_object_json. apply Forall_forall. intros [k n] I.
  destruct E2 as [_ E2]. apply E2 in I as (p & -> & _). now exists p.
Qed.
Example C88_example : json (str "{""129025"":2,""60928"":1}") (JObj [(str "129025", JNum 2 0); (str "60928", JNum 1 0)]).
Proof. apply (stats_object_json [(itoa 129025, 2); (itoa 60928, 1)]). constructor; [now exists 129025|]. constructor; [now exists 60928|constructor]. Qed.

(* ------------------------------------------------------------------ pages *)

(** C89: the page of the message index is a JSON text listing exactly the entries selected. *)
Lemma index_json l : Forall (fun e => bytes_ok (ie_details e)) l -> exists v, json (json_index l) v /\ index_means l v.
Proof.
  intros F. unfold json_index. destruct l as [|e0 l0].
  - exists JNull. split; [constructor|left; auto].
  - set (l := e0 :: l0) in *.
    assert (exists vs, Forall2 tmeans (map tree_entry l) vs /\ Forall2 entry_means l vs) as (vs & H1 & H2).
    { clearbody l. induction F as [|e l' B F IH]; [exists []; split; constructor|]. destruct IH as (vs & H1 & H2).
      destruct (bytes_ok_reads _ (bytes_ok_str (ie_name e))) as [a Ra]. destruct (bytes_ok_reads _ (bytes_ok_str (ie_category e))) as [b Rb].
      destruct (bytes_ok_reads _ (bytes_ok_str (ie_type e))) as [c Rc]. destruct (bytes_ok_reads _ B) as [d Rd].
      exists (JObj [(str "Pgn", JNum (ie_pgn e) 0); (str "Name", JStr a); (str "Category", JStr b);
              (str "Verified", JBool (ie_verified e)); (str "Size", JNum (ie_size e) 0);
              (str "RepeatingFields", JNum (ie_repeating e) 0); (str "Type", JStr c); (str "@Details", JStr d)] :: vs).
      cbn [map]. split; constructor; auto; [|exists a, b, c, d; auto 10].
      apply tm_obj.
      repeat (first [apply Forall2_nil|apply Forall2_cons; [split; [name|first [apply tm_num|apply tm_bool|now apply tm_text; [apply bytes_ok_str|]|apply tm_text; [first [exact B|apply bytes_ok_str]|assumption]]]|]]). }
    exists (JArr vs). split; [|right; split; [discriminate|exists vs; auto]].
    apply indent_ok. apply tm_slice; [discriminate|exact H1].
Qed.
Lemma index_from_ok t rest : forall i category typ, Forall (fun e => bytes_ok (ie_details e)) (index_from t rest i category typ).
Proof.
  induction rest as [|p rest IH]; intros i category typ; cbn [index_from]; [constructor|].
  destruct (_ && _); [apply IH|]. unfold GetPGNSummary. destruct (zget t i) as [def|]; [|apply IH]. cbv zeta.
  match goal with |- context [mkie ?a ?b ?c ?d ?e ?f ?g ?h] => set (en := mkie a b c d e f g h); assert (bytes_ok (ie_details en)) as B end.
  { cbn [ie_details]. apply bytes_ok_app. split; [apply bytes_ok_str|]. eapply Forall_impl; [|apply itoa_plain]. unfold plain, is_byte. lia. }
  assert (Forall (fun e => bytes_ok (ie_details e)) (en :: index_from t rest (i + 1) category typ)) as C by (constructor; [exact B|apply IH]).
  clearbody en. destruct (negb _); [|exact C]. repeat (destruct (_ && _); [exact C|]). apply IH.
Qed.
Theorem C89_index t category typ : exists v, json (json_index (MessagesIndex t category typ)) v /\ index_means (MessagesIndex t category typ) v.
Proof. apply index_json, index_from_ok. Qed.
Example C89_example : json_index (MessagesIndex [nth 106 PgnList (mkpgn "" "" 0 false 0 0 [])] [] []) = str "[
  {
    ""Pgn"": 129026,
    ""Name"": ""COG \u0026 SOG, Rapid Update"",
    ""Category"": ""Navigation"",
    ""Verified"": true,
    ""Size"": 8,
    ""RepeatingFields"": 0,
    ""Type"": ""Single Frame"",
    ""@Details"": ""/api/v1/messages/0""
  }
]".
Proof. vm_compute. reflexivity. Qed.

(** C90: "Generate new UUID" answers with a JSON object holding the five parts. *)
Theorem C90_uuid r : bytes_ok r -> List.length r = 16%nat ->
  exists p0 p1 p2 p3 p4, v4_parts p0 p1 p2 p3 p4 /\
    json (json_uuid (uuid_parts r)) (JObj [(str "uuid", JArr [JStr p0; JStr p1; JStr p2; JStr p3; JStr p4])]).
Proof.
  intros B L. destruct (C81_generate r (mkform (fun _ => []) (fun _ => false)) B L) as (p0 & p1 & p2 & p3 & p4 & V & E & _).
  exists p0, p1, p2, p3, p4. split; [exact V|]. rewrite E. unfold json_uuid. apply compact_ok, tm_obj.
  constructor; [split; [name|]|constructor]. cbn [snd map]. apply tm_slice; [discriminate|].
  destruct V as (_ & _ & _ & _ & _ & U & _).
  assert (forall p, Forall upper_hex p -> tmeans (ttext p) (JStr p)) as T.
  { intros p HU. apply tm_text; [|apply ascii_reads]; (eapply Forall_impl; [|exact HU]); unfold upper_hex, is_byte; lia. }
  apply Forall_app in U as [U0 U]. apply Forall_app in U as [U1 U]. apply Forall_app in U as [U2 U]. apply Forall_app in U as [U3 U4].
  repeat (constructor; [now apply T|]). constructor.
Qed.
Example C90_example : json_uuid (uuid_parts (repeat 171 16)) = str "{""uuid"":[""ABABABAB"",""ABAB"",""4BAB"",""ABAB"",""ABABABABABAB""]}".
Proof. vm_compute. reflexivity. Qed.

(* ------------------------------------------------------------------ readers *)

(** A reader of the text, whatever its method, gets what the delta says. *)
Theorem C86_read fuel pl fmtv mp other nilb sec ns m spare r order d :
  -86400 < pl_tz pl < 86400 -> clock_ok (pl_tz pl) sec ns -> paths_ok mp -> (forall v, encodable (pl_tz pl) v -> bytes_ok (fmtv v)) ->
  bytes_ok (rm_data m) -> bytes_ok spare -> parse_packet fuel pl PgnList m spare = Some (Ret r) -> Permutation order (pm_data r) ->
  sk_delta (mkenv (pl_tz pl) fmtv PgnList r) mp order = Ret d ->
  exists b, json_delta other nilb (pl_tz pl) sec ns d = Some b /\ (exists v, json b v) /\
    forall v, json b v -> delta_means (pl_tz pl) sec ns d v.
Proof.
  intros Z1 CK PO FO B1 B2 P PM D.
  destruct (C86_written _ _ _ _ other nilb sec ns _ _ _ _ _ Z1 CK PO FO B1 B2 P PM D) as (b & v & E & J & M).
  exists b. split; [exact E|]. split; [eauto|]. intros v' J'. now rewrite (json_unique _ _ _ J' J).
Qed.
Theorem C87_read fuel pl other nilb sec ns m spare r :
  -86400 < pl_tz pl < 86400 -> clock_ok (pl_tz pl) sec ns ->
  bytes_ok (rm_data m) -> bytes_ok spare -> parse_packet fuel pl PgnList m spare = Some (Ret r) ->
  exists b, json_message other nilb (pl_tz pl) sec ns r = Some b /\ (exists v, json b v) /\
    forall v, json b v -> message_means (pl_tz pl) sec ns r v.
Proof.
  intros Z1 CK B1 B2 P. destruct (C87_message _ _ other nilb sec ns _ _ _ Z1 CK B1 B2 P) as (b & v & E & J & M).
  exists b. split; [exact E|]. split; [eauto|]. intros v' J'. now rewrite (json_unique _ _ _ J' J).
Qed.

(** But a text that is not UTF-8 does not survive: two different datum names (PGN 129044, bytes
    E9 and EA are letters in Latin 1) give the same JSON. *)
Theorem C87_latin1_refuted : exists m m' r r', parse_packet 100 pl0 PgnList m [] = Some (Ret r) /\ parse_packet 100 pl0 PgnList m' [] = Some (Ret r') /\
  dm_get (pm_data r) 0 = VString [233; 65; 66; 67] /\ dm_get (pm_data r') 0 = VString [234; 65; 66; 67] /\
  forall other nilb tz, tree_data other nilb tz (pm_data r) = tree_data other nilb tz (pm_data r').
Proof.
  eexists (msg 129044 ([233; 65; 66; 67] ++ repeat 0 16)), (msg 129044 ([234; 65; 66; 67] ++ repeat 0 16)).
  eexists. eexists. split; [vm_compute; reflexivity|]. split; [vm_compute; reflexivity|]. split; [reflexivity|]. split; [reflexivity|].
  intros other nilb tz. reflexivity.
Qed.
