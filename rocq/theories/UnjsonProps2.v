(** UnjsonProps2: lines of files in CanBoat's format, from their text on (C94). *)
From Coq Require Import ZArith Lia ZifyBool Reals Floats.SpecFloat.
From Verif Require Import GoBase BufFacts CanModel NmeaTypes PgnTable NmeaModel NmeaSpec NmeaProps2
  SignalkModel MapTable MainModel HubModel PipelineModel PipelineSpec DeathSpec DeathOrder UnjsonModel UnjsonSpec UnjsonParse UnjsonDecode UnjsonTyped UnjsonProps.
Open Scope Z_scope.
Open Scope list_scope.

(* ------------------------------------------------------------------ C94 *)

Lemma field_for_in {F} (fs : list (bytes * F)) k f : field_for fs k = Some f -> exists n, In (n, f) fs.
Proof.
  unfold field_for. destruct (field_exact fs k) as [x|] eqn:E.
  - intros H. injection H as <-. exists k. now apply field_exact_some.
  - intros H. apply field_fold_some in H. destruct H as (n & H & _). eauto.
Qed.
Lemma into_entries_distinct {T} (dec : setter T) zero ms : forall m, NoDup (map fst m) -> NoDup (map fst (fst (into_entries dec zero ms m))).
Proof.
  induction ms as [|[k g] ms IH]; intros m N; [exact N|]. cbn [into_entries]. destruct (dec g zero) as [x ok].
  specialize (IH (map_set m k x)). destruct (into_entries dec zero ms (map_set m k x)) as [m2 ok2]. cbn [fst] in *. apply IH. now apply (map_set_in m k x N).
Qed.
(** Every line gives a map: no name twice. *)
Theorem C94_distinct tag d : distinct_members (unmarshal_canboat tag d).
Proof.
  intros s c. unfold unmarshal_canboat. destruct (read_text d s) as [g|]; [|discriminate]. intros H. injection H as <-.
  destruct g as [| | | | |ms]; try constructor. cbn [into_struct].
  assert (forall ms c, NoDup (map fst (cb_fields c)) -> NoDup (map fst (cb_fields (fst (into_members (canboat_fields tag) ms c))))) as H; [|apply H; constructor].
  clear. induction ms as [|[k g] ms IH]; intros c N; [exact N|]. cbn [into_members].
  destruct (field_for (canboat_fields tag) k) as [f|] eqn:F.
  2:{ specialize (IH c N). destruct (into_members (canboat_fields tag) ms c). exact IH. }
  assert (NoDup (map fst (cb_fields (fst (f g c))))) as N2.
  { apply field_for_in in F. destruct F as [n I]. cbn [canboat_fields In] in I.
    repeat (destruct I as [I|I]; [injection I as _ <-|]); try contradiction I.
    - exact N.
    - destruct (into_uint 8 g (cb_prio c)). exact N.
    - destruct (into_uint 8 g (cb_src c)). exact N.
    - destruct (into_uint 8 g (cb_dst c)). exact N.
    - destruct (into_uint 32 g (cb_pgn c)). exact N.
    - destruct g as [| | | | |es]; try exact N; [constructor|]. cbn [into_map].
      pose proof (into_entries_distinct (into_any tag) VNil es (cb_fields c) N) as K. destruct (into_entries (into_any tag) VNil es (cb_fields c)). exact K. }
  destruct (f g c) as [x1 ok1]. specialize (IH x1 N2). destruct (into_members (canboat_fields tag) ms x1). exact IH.
Qed.
(** What a line of a file says. *)
Theorem C94_line tag d s : bytes_ok s ->
  (unmarshal_canboat tag d s = None <-> forall g, ~ lax_text d s g) /\
  (forall c, unmarshal_canboat tag d s = Some c -> exists g, lax_text d s g /\
     ((exists ms, g = GObj ms /\ line_says tag ms c) \/ (forall ms, g <> GObj ms) /\ c = canboat_zero)).
Proof.
  intros OK. unfold unmarshal_canboat. destruct (read_text d s) as [g|] eqn:R.
  - pose proof (proj1 (read_text_exact d s g OK) R) as L. split; [split; [discriminate|intros H; elim (H g L)]|].
    intros c H. injection H as <-. exists g. split; [exact L|]. destruct g as [| | | | |ms]; try (right; split; [discriminate|reflexivity]).
    left. exists ms. split; [reflexivity|]. apply canboat_fields_say. destruct L as (w & t & w' & -> & _ & _ & L). eapply object_members; exact L.
  - split; [|discriminate]. split; [|reflexivity]. intros _ g L. apply (read_text_exact d s g OK) in L. congruence.
Qed.
(** From the text of a line to the message: its header, and a value for every field of the one
    definition of its PGN that the line names. *)
Theorem C94_message tag d s ms p : bytes_ok s -> lax_text d s (GObj ms) -> FromCanBoat (unmarshal_canboat tag d) PgnList s = Ret p ->
  let h := pm_header p in
  says (a_natural 8) ms (str "prio") 0 (rm_priority h) /\ says (a_natural 8) ms (str "src") 0 (rm_source h) /\
  says (a_natural 8) ms (str "dst") 0 (rm_dest h) /\ says (a_natural 32) ms (str "pgn") 0 (rm_pgn h) /\
  exists def o es, (single PgnList (rm_pgn h) (pm_index p) def \/ no_def PgnList (rm_pgn h) /\ pm_index p = 0 /\ zget PgnList 0 = Some def) /\
    entries (str "fields") ms o /\ es = match o with Some es => es | None => [] end /\
    (forall q v, In (q, v) (pm_data p) -> exists f a g b, zget (p_fields def) q = Some f /\
       es = a ++ (str (f_name f), g) :: b /\ ~ In (str (f_name f)) (map fst b) /\ any_value tag g v) /\
    (forall q f, zget (p_fields def) q = Some f -> In (str (f_name f)) (map fst es) -> exists v, In (q, v) (pm_data p)).
Proof.
  intros OK L H. unfold FromCanBoat in H.
  destruct (unmarshal_canboat tag d s) as [c|] eqn:U.
  2:{ elim (proj1 (proj1 (C94_line tag d s OK)) U _ L). }
  pose proof (C94_distinct tag d s c U) as N. destruct (proj2 (C94_line tag d s OK) c U) as (g & L' & [(ms' & -> & S)|[NO _]]).
  2:{ rewrite (lax_text_unique d s g (GObj ms) OK L' L) in NO. now elim (NO ms). }
  pose proof (lax_text_unique d s _ _ OK L' L) as E. injection E as ->. destruct S as (S1 & S2 & S3 & S4 & o & EN & MT).
  destruct (C46_fields PgnList c p N H) as (k & def & D & EH & EK & _ & DATA). cbv zeta. rewrite EH. cbn [rm_priority rm_source rm_dest rm_pgn].
  repeat (split; [assumption|]). exists def, o, (match o with Some es => es | None => [] end). rewrite EK. split; [exact D|]. split; [exact EN|]. split; [reflexivity|].
  destruct MT as (_ & KEYS & VALS). split.
  - intros q v I. apply DATA in I. destruct I as (f & F & I). destruct (VALS _ _ I) as (a & g & b & E & NI & A). exists f, a, g, b. auto.
  - intros q f F I. apply KEYS in I. apply in_map_iff in I. destruct I as ([n v] & E & I). cbn [fst] in E. subst n. exists v. apply DATA. eauto.
Qed.
(** The program with files read like this never ends by itself, under the conditions of C85. *)
Theorem C94_runs tag d opts pl fmtv marshal verbose ifs tr :
  Forall input_ok ifs -> Forall (in_order PgnList) ifs ->
  ~ yrun PgnList MapXml opts pl fmtv (unmarshal_canboat tag d) marshal verbose ifs tr YDead.
Proof. apply C85_in_order. apply C94_distinct. Qed.
Example C94_example : exists p,
  FromCanBoat (unmarshal_canboat (fun _ => 0) 99) PgnList
    (str "{""timestamp"":""2016-02-28T19:57:02.364Z"",""prio"":2,""src"":36,""dst"":255,""pgn"":127250,""description"":""Vessel Heading"",""fields"":{""Heading"":90.5,""Reference"":""Magnetic""}}") = Ret p /\
  pm_header p = mkraw 2 127250 36 255 0 [] /\ pm_data p = [(1, VFloat64 (S754_finite false 6368371348078592 (-46))); (4, VString (str "Magnetic"))].
Proof. eexists. split; [vm_compute; reflexivity|]. split; vm_compute; reflexivity. Qed.
