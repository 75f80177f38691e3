(** DetailsProps: the definitions as JSON: details page, -explain and the dialog (C98). *)
From Coq Require Import ZArith Reals Lia Lra Floats.SpecFloat ZifyBool Permutation.
From Flocq Require Import Core BinarySingleNaN.
From Verif Require Import GoBase Strconv StrconvFacts NmeaTypes NmeaModel NmeaSpec NmeaFloat NmeaProps1 PgnTable PgnTexts ApiModel FtoaModel FtoaFacts
  JsonModel JsonSpec JsonFacts JsonLayout JsonDecoded JsonUnique JsonProps JsonHtml DetailsModel DetailsSpec.
Open Scope Z_scope.
Open Scope list_scope.

(** Any order in which maps can be gone through. *)
Definition some_order {K} (ord : K -> lookup -> lookup) : Prop := forall k l, Permutation (ord k l) l.

Lemma texts_read s : exists cs, reads (str s) cs /\ tmeans (ttext (str s)) (JStr cs).
Proof. destruct (bytes_ok_reads _ (bytes_ok_str s)) as [cs R]. exists cs. split; [exact R|]. now apply tm_text; [apply bytes_ok_str|]. Qed.

Lemma lookup_tree l l' : Permutation l' l -> exists v, tmeans (tree_lookup l') v /\ lookup_means l v.
Proof.
  intros P.
  assert (exists vs, Forall2 tmeans (map (fun kv : Z * string => TObj [(str "Name", ttext (str (snd kv))); (str "Value", tnum (fst kv))]) l') vs /\ Forall2 named_value l' vs) as (vs & H1 & H2).
  { clear P. induction l' as [|[k s] l' (vs & I1 & I2)]; [exists []; split; constructor|]. destruct (texts_read s) as (cs & R & T).
    exists (JObj [(str "Name", JStr cs); (str "Value", JNum k 0)] :: vs). cbn [map fst snd]. split; constructor; auto; [|exists cs; auto].
    apply tm_obj. constructor; [split; [name|exact T]|]. constructor; [split; [name|apply tm_num]|constructor]. }
  unfold tree_lookup. destruct l' as [|x l'].
  - apply Permutation_nil in P. subst l. exists JNull. split; [apply tm_atom; constructor|]. exists [], []. repeat split; auto.
  - exists (JArr vs). split; [apply tm_slice; [discriminate|exact H1]|]. exists (x :: l'), vs. split; [exact P|]. split; [exact H2|].
    destruct l; [apply Permutation_sym, Permutation_nil in P; discriminate|reflexivity].
Qed.
Definition sub_keys_ok (u : units) : Prop := match u with USubLookup l => Forall (fun kv => 0 <= fst kv) l | _ => True end.
Lemma units_tree ord u : some_order ord -> sub_keys_ok u -> exists v, tmeans (tree_units ord u) v /\ units_means u v.
Proof.
  intros O K. destruct u as [|s|n|l|l]; cbn [tree_units].
  - exists JNull. split; [apply tm_atom; constructor|constructor].
  - destruct (texts_read s) as (cs & R & T). exists (JStr cs). split; [exact T|now constructor].
  - exists (JNum n 0). split; [apply tm_num|constructor].
  - destruct (lookup_tree l (ord 0 l) (O 0 l)) as (v & T & M). exists v. split; [exact T|now constructor].
  - destruct (perm_map_inv _ _ _ (sort_members_perm (map (fun kv => (itoa (fst kv), tree_lookup (ord (fst kv) (snd kv)))) l))) as (l' & E & P).
    rewrite E. cbn [sub_keys_ok] in K.
    assert (Forall (fun kv : Z * lookup => 0 <= fst kv) l') as K'.
    { apply Forall_forall. intros x I. rewrite Forall_forall in K. apply K. eapply Permutation_in; eauto. }
    assert (exists ms, Forall2 (fun (kv : bytes * jt) m => (bytes_ok (fst kv) /\ reads (fst kv) (fst m)) /\ tmeans (snd kv) (snd m))
        (map (fun kv => (itoa (fst kv), tree_lookup (ord (fst kv) (snd kv)))) l') ms /\
        Forall2 (fun kv m => numeral (fst kv) (fst m) /\ lookup_means (snd kv) (snd m)) l' ms) as (ms & H1 & H2).
    { clear E P. induction K' as [|[k x] l' KX K' (ms & I1 & I2)]; [exists []; split; constructor|]. cbn [fst] in KX.
      destruct (lookup_tree x (ord k x) (O k x)) as (v & T & M). exists ((itoa k, v) :: ms). cbn [map fst snd]. split; constructor; auto; cbn [fst snd].
      - split; [|exact T]. split; [now apply itoa_ok|]. apply ascii_reads. destruct (itoa_value k KX) as [_ [F _]]. eapply Forall_impl; [|exact F]. unfold dec_char. lia.
      - split; [now apply itoa_numeral|exact M]. }
    exists (JObj ms). split; [now apply tm_obj|]. now apply (um_tables l l').
Qed.
Lemma resolution_nearest r : tame r -> sf_is 53 1024 (res_f64 r) (nearest64 (resolution_value r)).
Proof.
  destruct r as [|k|p q]; intros T; cbn [res_f64 resolution_value].
  - repeat split. cbn [SF2R]. unfold nearest64. now rewrite round_0 by auto with typeclass_instances.
  - cbn [tame] in T. apply of_Z64. lia.
  - destruct T as [T1 T2].
    assert (Rabs (IZR (Z.pos p) / IZR (Z.pos q)) <= bpow radix2 900)%R as B.
    { rewrite Rabs_pos_eq; [exact T2|]. pose proof (bpow_gt_0 radix2 (-900)). lra. }
    unfold f64_of_ratio. rewrite n64. apply sf_ratio; [exact prec53|exact emax1024|]. rewrite <- n64.
    apply lt_bpow with 900; [lia|]. apply n64_le; [lia|exact B].
Qed.
Lemma field_tree ord f tx : some_order ord -> sub_keys_ok (f_units f) -> tame (f_res f) ->
  exists t v, tree_field ord f tx = Some t /\ tmeans t v /\ field_means f tx v.
Proof.
  intros O K T. destruct (resolution_nearest _ T) as (V & F & E).
  destruct (json_float_ok 53 1024 ltac:(reflexivity) (res_f64 (f_res f)) V F) as (s & m & e & H & N & R).
  destruct (texts_read (f_name f)) as (name' & R1 & T1). destruct (texts_read (fst tx)) as (ds & R2 & T2). destruct (texts_read (snd tx)) as (sk & R3 & T3).
  destruct (units_tree ord (f_units f) O K) as (u & T4 & M4).
  unfold tree_field. rewrite H. eexists _, (JObj [(str "Name", JStr name'); (str "Size", JNum (f_size f) 0); (str "Resolution", JNum m e); (str "Signed", JBool (f_signed f));
              (str "Units", u); (str "Description", JStr ds); (str "SignalkPath", JStr sk); (str "Offset", JNum (f_offset f) 0)]). split; [reflexivity|]. split.
  - apply tm_obj. repeat (first [apply Forall2_nil|apply Forall2_cons; [split; [name|first [apply tm_num|apply tm_bool|assumption|now apply tm_atom, js_num]]|]]).
  - exists name', m, e, u, ds, sk. repeat split; auto. destruct R as [_ R]. unfold nearest64 at 1. 
    transitivity (SF2R radix2 (res_f64 (f_res f))); [symmetry; exact R|exact E].
Qed.
Lemma fields_tree ord : some_order (fun jk : Z * Z => ord (fst jk) (snd jk)) -> forall fs tx j, Forall (fun f => sub_keys_ok (f_units f) /\ tame (f_res f)) fs -> List.length fs = List.length tx ->
  exists ts vs, all_some (tree_fields ord j fs tx) = Some ts /\ Forall2 tmeans ts vs /\ Forall2 (fun ft w => field_means (fst ft) (snd ft) w) (combine fs tx) vs.
Proof.
  intros O. induction fs as [|f fs IH]; intros [|x tx] j F L; try discriminate L.
  - exists [], []. repeat constructor.
  - inversion F as [|? ? [K T] F']; subst. injection L as L. destruct (IH tx (j + 1) F' L) as (ts & vs & E & H1 & H2).
    destruct (field_tree (ord j) f x) as (t & v & E1 & H3 & H4); auto.
    { intros k l. apply (O (j, k) l). }
    exists (t :: ts), (v :: vs). cbn [tree_fields all_some combine]. rewrite E1, E. repeat split; constructor; auto.
Qed.
(** Definitions that can be written, with their texts. *)
Definition writable (p : pgn_def) (tx : list (string * string)) : Prop :=
  p_fields p <> [] /\ List.length (p_fields p) = List.length tx /\ Forall (fun f => sub_keys_ok (f_units f) /\ tame (f_res f)) (p_fields p).
Lemma def_tree ord p tx : some_order (fun jk : Z * Z => ord (fst jk) (snd jk)) -> writable p tx ->
  exists t v, tree_def ord p tx = Some t /\ tmeans t v /\ definition_means p tx v.
Proof.
  intros O (NE & L & F). destruct (fields_tree ord O (p_fields p) tx 0 F L) as (ts & vs & E & H1 & H2).
  destruct (texts_read (p_desc p)) as (ds & R1 & T1). destruct (texts_read (p_cat p)) as (cat & R2 & T2).
  unfold tree_def. rewrite E. eexists _, (JObj [(str "Description", JStr ds); (str "Category", JStr cat); (str "Pgn", JNum (p_pgn p) 0); (str "IsKnown", JBool (p_known p));
              (str "Size", JNum (p_size p) 0); (str "RepeatingFields", JNum (p_rep p) 0); (str "FieldList", JArr vs)]). split; [reflexivity|]. split.
  - assert (ts <> []) as NT.
    { intros ->. inversion H1; subst vs. destruct (p_fields p) as [|f fs]; [contradiction|]. destruct tx as [|x tx]; [discriminate L|]. inversion H2. }
    apply tm_obj. repeat (first [apply Forall2_nil|apply Forall2_cons; [split; [name|first [apply tm_num|apply tm_bool|assumption|now apply tm_slice]]|]]).
  - exists ds, cat, vs. auto.
Qed.

Lemma shipped_writable : Forall2 writable PgnList PgnTexts.
Proof.
  assert (forall t x, List.length t = List.length x -> forallb (fun px => negb (List.length (p_fields (fst px)) =? 0)%nat && (List.length (p_fields (fst px)) =? List.length (snd px))%nat &&
     forallb (fun f => match f_units f with USubLookup l => forallb (fun kv => 0 <=? fst kv) l | _ => true end) (p_fields (fst px))) (combine t x) = true ->
     tame_table t -> Forall2 writable t x) as K.
  { induction t as [|p t IH]; intros [|x xs] L H T; try discriminate L; constructor.
    - cbn [combine forallb fst snd] in H. apply andb_true_iff in H as [H _]. apply andb_true_iff in H as [H H3]. apply andb_true_iff in H as [H1 H2].
      split; [|split].
      + intros X. rewrite X in H1. discriminate H1.
      + now apply Nat.eqb_eq.
      + apply Forall_forall. intros f I. split; [|apply (T p f); [now left|exact I]].
        rewrite forallb_forall in H3. specialize (H3 f I). unfold sub_keys_ok. destruct (f_units f); try exact Logic.I.
        apply Forall_forall. intros kv J. rewrite forallb_forall in H3. specialize (H3 kv J). lia.
    - cbn [combine forallb] in H. apply andb_true_iff in H as [_ H]. apply IH; [now injection L|exact H|]. intros p' f I. apply T. now right. }
  apply K; [vm_compute; reflexivity|vm_compute; reflexivity|apply tame_PgnList].
Qed.
Lemma zget_F2 {A B} (P : A -> B -> Prop) l m : Forall2 P l m -> forall i x, zget l i = Some x -> exists y, zget m i = Some y /\ P x y.
Proof.
  intros F i x. unfold zget. destruct (i <? 0); [discriminate|]. generalize (Z.to_nat i) as n. clear i. induction F as [|a b l m H F IH]; intros [|n] E; cbn [nth_error] in *; try discriminate.
  - exists b. split; [reflexivity|]. congruence.
  - eauto.
Qed.

(** C98: the page with the details of entry i is a JSON text, which says what the definition
    says, whatever the order of the maps. *)
Theorem C98_details ord i p : (forall j k l, Permutation (ord j k l) l) -> zget PgnList i = Some p ->
  exists b v tx, details_json ord PgnList PgnTexts i = Some b /\ zget PgnTexts i = Some tx /\ json b v /\ definition_means p tx v.
Proof.
  intros O E. destruct (zget_F2 _ _ _ shipped_writable i p E) as (tx & EX & W).
  destruct (def_tree ord p tx (fun jk l => O (fst jk) (snd jk) l) W) as (t & v & ET & TM & DM).
  exists (indent 0 t), v, tx. unfold details_json. rewrite E, EX, ET. split; [reflexivity|]. split; [reflexivity|]. split; [now apply indent_ok|exact DM].
Qed.
(** ... and it is the only thing the text says. *)
Theorem C98_read ord i p b v : (forall j k l, Permutation (ord j k l) l) -> zget PgnList i = Some p ->
  details_json ord PgnList PgnTexts i = Some b -> json b v -> exists tx, zget PgnTexts i = Some tx /\ definition_means p tx v.
Proof.
  intros O E D J. destruct (C98_details ord i p O E) as (b' & v' & tx & D' & EX & J' & M). assert (b' = b) as -> by congruence.
  rewrite (json_unique _ _ _ J J'). eauto.
Qed.
(** -explain prints one JSON list with all the definitions, in the order of the table, and a
    newline. *)
Theorem C98_explain ord : (forall i j k l, Permutation (ord i j k l) l) ->
  exists b vs, explain ord PgnList PgnTexts = Some (b ++ [10]) /\ json b (JArr vs) /\
    Forall2 (fun px v => definition_means (fst px) (snd px) v) (combine PgnList PgnTexts) vs.
Proof.
  intros O.
  assert (forall t x i, Forall2 writable t x -> exists ts vs, all_some (tree_defs ord i t x) = Some ts /\ Forall2 tmeans ts vs /\
    Forall2 (fun px v => definition_means (fst px) (snd px) v) (combine t x) vs) as K.
  { intros t x i W. revert i. induction W as [|p tx t x W1 W IH]; intros i; [exists [], []; repeat constructor|].
    destruct (IH (i + 1)) as (ts & vs & E & H1 & H2). destruct (def_tree (ord i) p tx (fun jk l => O i (fst jk) (snd jk) l) W1) as (d & v & E1 & H3 & H4).
    exists (d :: ts), (v :: vs). cbn [tree_defs all_some combine]. rewrite E1, E. repeat split; constructor; auto. }
  destruct (K _ _ 0 shipped_writable) as (ts & vs & E & H1 & H2). unfold explain. rewrite E.
  exists (indent 0 (tslice ts)), vs. split; [reflexivity|]. split; [|exact H2]. apply indent_ok, tm_slice; [|exact H1].
  intros ->. inversion H1; subst vs. inversion H2.
Qed.
(** The dialog of the statistics page shows the description, the PGN, the category and one line
    per field with its name ... *)
Theorem C98_dialog p tx v : List.length (p_fields p) = List.length tx -> definition_means p tx v ->
  exists ds cat items, reads (str (p_desc p)) ds /\ reads (str (p_cat p)) cat /\
    Forall2 (fun f item => exists n, reads (str (f_name f)) n /\ item = str "<li>" ++ n ++ str "</li>") (p_fields p) items /\
    show_pgn_data v = Some (JStr ds, JNum (p_pgn p) 0, JStr cat, items).
Proof.
  intros L (ds & cat & fs & R1 & R2 & F & ->).
  assert (exists items, Forall2 (fun f item => exists n, reads (str (f_name f)) n /\ item = str "<li>" ++ n ++ str "</li>") (p_fields p) items /\
     all_some (map field_item fs) = Some items) as (items & H1 & H2).
  { revert tx L fs F. generalize (p_fields p) as l. induction l as [|f l IH]; intros [|x tx] L fs F; try discriminate L; cbn [combine] in F.
    - inversion F; subst. exists []. split; [constructor|reflexivity].
    - inversion F as [|? w ? ws M F' E1 E2]; subst. injection L as L. destruct (IH tx L ws F') as (items & I1 & I2).
      destruct M as (n & m & e & u & d & s & Rn & _ & _ & _ & _ & ->). cbn [fst snd] in *.
      exists ((str "<li>" ++ n ++ str "</li>") :: items). split; [constructor; [eauto|exact I1]|]. cbn [map all_some]. rewrite I2. reflexivity. }
  exists ds, cat, items. split; [exact R1|]. split; [exact R2|]. split; [exact H1|].
  set (data := JObj _).
  assert (js_get (str "Description") data = Some (JStr ds)) as D1 by reflexivity. assert (js_get (str "Pgn") data = Some (JNum (p_pgn p) 0)) as D2 by reflexivity.
  assert (js_get (str "Category") data = Some (JStr cat)) as D3 by reflexivity. assert (js_get (str "FieldList") data = Some (JArr fs)) as D4 by reflexivity.
  unfold show_pgn_data. now rewrite D1, D2, D3, D4, H2.
Qed.
(** ... and no name in the table can be taken for markup. *)
Theorem C98_names p f : In p PgnList -> In f (p_fields p) -> no_markup (str (f_name f)).
Proof.
  intros Ip If. assert (forallb (fun p => forallb (fun f => forallb (fun c => negb ((c =? 38) || (c =? 60) || (c =? 62))) (str (f_name f))) (p_fields p)) PgnList = true) as K by (vm_compute; reflexivity).
  rewrite forallb_forall in K. specialize (K p Ip). rewrite forallb_forall in K. specialize (K f If). rewrite forallb_forall in K.
  apply Forall_forall. intros c I. specialize (K c I). lia.
Qed.
(** The beginning of the details of entry 1 (ISO Acknowledgement). *)
Example C98_example : exists rest, details_json (fun _ _ l => rev l) PgnList PgnTexts 1 = Some (str "{
  ""Description"": ""ISO Acknowledgement"",
  ""Category"": ""Mandatory"",
  ""Pgn"": 59392,
  ""IsKnown"": true,
  ""Size"": 8,
  ""RepeatingFields"": 0,
  ""FieldList"": [
    {
      ""Name"": ""Control"",
      ""Size"": 8,
      ""Resolution"": -9,
      ""Signed"": false,
      ""Units"": [
        {
          ""Name"": ""Address Busy"",
          ""Value"": 3
        }," ++ rest).
Proof. eexists. vm_compute. reflexivity. Qed.
