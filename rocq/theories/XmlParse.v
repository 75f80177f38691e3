(** XmlParse: the reader of XmlModel reads exactly the documents of XmlSpec. *)
From Coq Require Import ZArith Lia ZifyBool.
From Verif Require Import GoBase BufFacts Strconv NmeaTypes NmeaModel NmeaSpec SignalkModel SignalkSpec JsonSpec JsonModel JsonFacts JsonUnique UnjsonModel UnjsonSpec UnjsonLex XmlModel XmlSpec XmlLex.
Open Scope Z_scope.
Open Scope list_scope.

(* ------------------------------------------------------------------ markup that says nothing *)

Lemma proc_inst_declared p d v : declares p d v -> proc_inst p d = v.
Proof.
  intros (a & q & b & Q & F & N). unfold proc_inst. apply cut_iff in F. rewrite F. cbn [app].
  replace ((q =? 39) || (q =? 34)) with true by lia. pose proof (first_at_single q v b N) as K. apply cut_iff in K. cbn [app] in K. now rewrite K.
Qed.
Lemma proc_inst_declares p d : proc_inst p d <> [] -> declares p d (proc_inst p d).
Proof.
  unfold proc_inst. destruct (cut (p ++ [61]) d) as [[a [|q v]]|] eqn:C; try contradiction. destruct ((q =? 39) || (q =? 34)) eqn:Q; [|contradiction].
  destruct (cut [q] v) as [[x b]|] eqn:V; [|contradiction]. intros _. apply cut_iff in C, V. exists a, q, b. split; [lia|]. split; [|exact (first_single_notin _ _ _ _ V)].
  destruct V as [-> _]. exact C.
Qed.
Lemma label_iff e : utf8_label e = true <-> same_letters e (str "utf-8").
Proof.
  unfold utf8_label, same_letters. rewrite bytes_eqb_eq. assert (Forall (fun c => ~ 65 <= c <= 90) (str "utf-8")) as L by (cbn [str]; repeat constructor; cbn; lia).
  revert L. generalize (str "utf-8"). intros t L. split.
  - intros <-. clear L. induction e as [|c e IH]; cbn [map]; constructor; [|exact IH]. destruct ((65 <=? c) && (c <=? 90)) eqn:E; [right; lia|now left].
  - intros F. induction F as [|x y e t H F IH]; [reflexivity|]. inversion L; subst. cbn [map]. rewrite IH by assumption. f_equal.
    destruct ((65 <=? x) && (x <=? 90)) eqn:E; lia.
Qed.
Lemma declaration_iff d : declaration_ok d = true <->
  (forall v, declares (str "version") d v -> v = [] \/ v = str "1.0") /\ (forall v, declares (str "encoding") d v -> v = [] \/ same_letters v (str "utf-8")).
Proof.
  unfold declaration_ok. cbv zeta. rewrite andb_true_iff.
  assert (forall p (ok : bytes -> bool), (match proc_inst p d with [] => true | _ :: _ => ok (proc_inst p d) end = true) <-> (forall v, declares p d v -> v = [] \/ ok v = true)) as K.
  { intros p ok. split.
    - intros H v D. rewrite (proc_inst_declared _ _ _ D) in H. destruct v; [now left|now right].
    - intros H. destruct (proc_inst p d) as [|c v] eqn:E; [reflexivity|]. rewrite <- E. destruct (H (proc_inst p d)) as [N|N]; [apply proc_inst_declares; congruence|congruence|exact N]. }
  rewrite (K _ (fun v => bytes_eqb v (str "1.0"))), (K _ utf8_label). split; intros [A B]; (split; [intros v D; specialize (A v D)|intros v D; specialize (B v D)]).
  - destruct A as [A|A]; [now left|right; now apply bytes_eqb_eq].
  - destruct B as [B|B]; [now left|right; now apply label_iff].
  - destruct A as [A|A]; [now left|right; now apply bytes_eqb_eq].
  - destruct B as [B|B]; [now left|right; now apply label_iff].
Qed.
Lemma instruction_sound wide s r : instruction wide s = Some r -> exists u, str "<?" ++ s = u ++ r /\ instruction_text wide u.
Proof.
  unfold instruction. destruct (read_name wide s) as [[n q]|] eqn:R; [|discriminate]. apply read_name_iff in R as (-> & N & NN).
  destruct (skip_ws_sound q) as (w & E & B & S). destruct (cut [63; 62] (skip_ws q)) as [[d r2]|] eqn:C; [|discriminate]. apply cut_iff in C.
  destruct (bytes_eqb n (str "xml") && negb (declaration_ok d)) eqn:X; [discriminate|]. intros H. injection H as ->. pose proof C as [E2 _].
  exists (str "<?" ++ n ++ w ++ d ++ str "?>"). split; [rewrite E, E2, <- !app_assoc; reflexivity|]. exists n, w, d. split; [reflexivity|]. split; [exact N|]. split; [exact B|].
  rewrite E2 in *. split; [|split; [|split]].
  - destruct NN as (c & t & E3 & NC). rewrite E3 in E. destruct w as [|x w]; [destruct d as [|x d]|]; cbn [app] in *.
    + exists 63, [62]. split; [reflexivity|unfold name_char, letter; lia].
    + assert (c = x) as -> by congruence. eexists _, _. split; [reflexivity|exact NC].
    + assert (c = x) as -> by congruence. eexists _, _. split; [reflexivity|exact NC].
  - apply (first_at_more (str "?>") d r). exact C.
  - intros c t ->. exact S.
  - intros ->. apply declaration_iff. destruct (declaration_ok d); [reflexivity|discriminate X].
Qed.
Lemma not_name_app u r : not_name u -> not_name (u ++ r).
Proof. intros (c & t & -> & N). exists c, (t ++ r). auto. Qed.
Lemma instruction_app wide u r : instruction_text wide u -> exists v, u = str "<?" ++ v /\ instruction wide (v ++ r) = Some r.
Proof.
  intros (n & w & d & -> & N & B & NN & F & S & X). exists (n ++ w ++ d ++ str "?>"). split; [reflexivity|]. unfold instruction.
  rewrite <- app_assoc. rewrite (proj2 (read_name_iff wide _ n ((w ++ d ++ str "?>") ++ r))); [|split; [reflexivity|split; [exact N|now apply not_name_app]]].
  rewrite <- !app_assoc, (skip_ws_app w _ B), skip_ws_stops.
  2:{ destruct d as [|c d]; [cbn; lia|]. exact (S c d eq_refl). }
  rewrite (cut_first [63; 62] d r); [|apply (proj2 (first_at_more (str "?>") d r)); exact F].
  destruct (bytes_eqb n (str "xml")) eqn:E; [|reflexivity]. apply bytes_eqb_eq in E. rewrite (proj2 (declaration_iff d) (X E)). reflexivity.
Qed.
Lemma comment_sound s r : comment s = Some r -> exists u, str "<!--" ++ s = u ++ r /\ comment_text u.
Proof.
  unfold comment. destruct (cut [45; 45] s) as [[b [|c q]]|] eqn:C; try discriminate. destruct (Z.eqb_spec c 62) as [->|]; [|discriminate]. intros H. injection H as ->.
  apply cut_iff in C. pose proof C as [-> _]. exists (str "<!--" ++ b ++ str "-->"). split; [rewrite <- !app_assoc; reflexivity|]. exists b. split; [reflexivity|]. apply (first_at_more (str "--") b (62 :: r)). exact C.
Qed.
Lemma comment_app u r : comment_text u -> exists v, u = str "<!--" ++ v /\ comment (v ++ r) = Some r.
Proof.
  intros (b & -> & F). exists (b ++ str "-->"). split; [reflexivity|]. unfold comment. rewrite <- app_assoc. change (str "-->" ++ r) with ([45; 45] ++ 62 :: r).
  rewrite (cut_first [45; 45] b (62 :: r)); [reflexivity|]. apply (proj2 (first_at_more (str "--") b (62 :: r))). exact F.
Qed.

Lemma directive_sound f : forall st k s r, directive f st k s = Some r ->
  match st with
  | DPlain => exists b, s = b ++ r /\ directive_body k b
  | DQuote q => exists x b, s = x ++ [q] ++ b ++ r /\ ~ In q x /\ directive_body k b
  | DComment => exists c b, s = c ++ str "-->" ++ b ++ r /\ first_at (str "-->") c b (c ++ str "-->" ++ b) /\ directive_body k b
  end.
Proof.
  induction f as [|f IH]; intros st k s r H; [discriminate|]. cbn [directive] in H. destruct st as [|q|].
  - destruct s as [|c s]; [discriminate|]. destruct (Z.eqb_spec c 62) as [->|N62].
    { destruct k as [|k].
      - injection H as ->. exists [62]. split; [reflexivity|constructor].
      - apply IH in H as (b & -> & D). exists (62 :: b). split; [reflexivity|now constructor]. }
    destruct ((c =? 39) || (c =? 34)) eqn:Q.
    { apply IH in H as (x & b & -> & N & D). exists ([c] ++ x ++ [c] ++ b). split; [cbn [app]; now rewrite <- app_assoc|]. apply db_quote; auto. lia. }
    destruct (Z.eqb_spec c 60) as [->|N60].
    { destruct (has_prefix [33; 45; 45] s) eqn:P.
      - apply prefix_skip in P. change (List.length [33; 45; 45]) with 3%nat in P. apply IH in H as (x & b & E & F & D). rewrite P, E. exists (str "<!--" ++ x ++ str "-->" ++ b).
        split; [rewrite <- !app_assoc; reflexivity|]. now apply db_comment.
      - apply IH in H as (b & -> & D). exists (60 :: b). split; [reflexivity|]. apply db_open; [|exact D]. intros q ->.
        assert (has_prefix [33; 45; 45] ((str "!--" ++ q) ++ r) = true) by (apply prefix_iff; exists (q ++ r); now rewrite <- app_assoc). congruence. }
    apply IH in H as (b & -> & D). exists (c :: b). split; [reflexivity|]. apply db_byte; [cbn [In]; lia|exact D].
  - destruct s as [|c s]; [discriminate|]. destruct (Z.eqb_spec c q) as [->|N].
    + apply IH in H as (b & -> & D). exists [], b. split; [reflexivity|]. auto.
    + apply IH in H as (x & b & -> & NI & D). exists (c :: x), b. split; [reflexivity|]. split; [|exact D]. intros [E|E]; congruence.
  - destruct (cut [45; 45; 62] s) as [[c q]|] eqn:C; [|discriminate]. apply cut_iff in C. apply IH in H as (b & -> & D). exists c, b. pose proof C as [E _]. split; [exact E|]. split; [|exact D].
    rewrite E in C. apply (proj2 (first_at_more (str "-->") c b)). apply (proj1 (first_at_more (str "-->") c (b ++ r))). exact C.
Qed.
Lemma directive_last k b : directive_body k b -> exists x, b = x ++ [62].
Proof.
  induction 1 as [|k r _ [x ->]|k r _ _ [x ->]|k c r _ _ [x ->]|k q b r _ _ _ [x ->]|k c r _ _ [x ->]].
  - now exists [].
  - now exists (62 :: x).
  - now exists (60 :: x).
  - exists (str "<!--" ++ c ++ str "-->" ++ x). now rewrite <- !app_assoc.
  - exists ([q] ++ b ++ [q] ++ x). now rewrite <- !app_assoc.
  - now exists (c :: x).
Qed.
Lemma directive_app k b : directive_body k b -> forall f r, (List.length b < f)%nat -> directive f DPlain k (b ++ r) = Some r.
Proof.
  induction 1 as [|k b D IH|k b N D IH|k c b F D IH|k q x b Q N D IH|k c b N D IH]; intros f r L; (destruct f as [|f]; [lia|]); cbn [List.length] in L.
  - reflexivity.
  - cbn [app directive]. change (62 =? 62) with true. cbv iota. apply IH. lia.
  - cbn [app directive]. change (60 =? 62) with false. change ((60 =? 39) || (60 =? 34)) with false. change (60 =? 60) with true. cbv iota.
    replace (has_prefix [33; 45; 45] (b ++ r)) with false; [apply IH; lia|]. symmetry. destruct (has_prefix [33; 45; 45] (b ++ r)) eqn:P; [|reflexivity]. exfalso.
    apply prefix_iff in P as [t P]. destruct (directive_last _ _ D) as [x ->]. rewrite <- app_assoc in P.
    destruct x as [|x1 [|x2 [|x3 x]]]; cbn [app] in P; try discriminate P. injection P as -> -> -> P. apply (N (x ++ [62])). reflexivity.
  - rewrite !app_length in L. cbn [str List.length] in L. change ((str "<!--" ++ c ++ str "-->" ++ b) ++ r) with (60 :: 33 :: 45 :: 45 :: (c ++ str "-->" ++ b) ++ r). cbn [directive].
    change (60 =? 62) with false. change ((60 =? 39) || (60 =? 34)) with false. change (60 =? 60) with true. cbv iota.
    replace (has_prefix [33; 45; 45] (33 :: 45 :: 45 :: (c ++ str "-->" ++ b) ++ r)) with true by reflexivity. cbn [skipn]. destruct f as [|f]; [lia|]. cbn [directive].
    rewrite <- !app_assoc. rewrite (cut_first [45; 45; 62] c (b ++ r)). { apply IH. lia. }
    apply (proj2 (first_at_more (str "-->") c (b ++ r))). apply (proj1 (first_at_more (str "-->") c b)). exact F.
  - rewrite !app_length in L. cbn [List.length] in L. rewrite <- !app_assoc. cbn [app directive].
    replace (q =? 62) with false by lia. replace ((q =? 39) || (q =? 34)) with true by lia. cbv iota.
    assert (forall g, (List.length x + S (List.length b) < g)%nat -> directive g (DQuote q) k (x ++ q :: b ++ r) = Some r) as K.
    { clear L. induction x as [|c x IHx]; intros g L; (destruct g as [|g]; [cbn [List.length] in L; lia|]); cbn [app directive].
      - rewrite Z.eqb_refl. apply IH. cbn [List.length] in L. lia.
      - destruct (Z.eqb_spec c q) as [->|]; [elim N; now left|]. apply IHx; [intros I; apply N; now right|]. cbn [List.length] in L. lia. }
    apply K. lia.
  - cbn [app directive]. cbn [In] in N. replace (c =? 62) with false by lia. replace ((c =? 39) || (c =? 34)) with false by lia. replace (c =? 60) with false by lia. cbv iota. apply IH. lia.
Qed.

(* ------------------------------------------------------------------ tags *)

Definition tag_end (b : bool) : bytes := if b then str "/>" else str ">".
Lemma name_first wide n : name_text wide n -> exists c t, n = c :: t /\ name_char c.
Proof.
  intros [F [(_ & c & r & -> & L)|(N & _)]]; [exists c, r; split; [reflexivity|now left]|]. destruct n as [|c n]; [elim N; constructor|]. exists c, n. split; [reflexivity|now inversion F].
Qed.
Lemma name_char_plain c : name_char c -> ~ is_blank c /\ c <> 47 /\ c <> 62 /\ c <> 33 /\ c <> 63 /\ c <> 61.
Proof. unfold name_char, letter, is_blank. cbn [In]. lia. Qed.
Lemma bok_skip s : bytes_ok s -> bytes_ok (skip_ws s).
Proof. intros OK. destruct (skip_ws_sound s) as (w & E & _). rewrite E in OK. exact (bok_r _ _ OK). Qed.
Lemma attributes_sound wide f : forall s l b r, bytes_ok s -> attributes wide f s = Some (l, b, r) -> exists a, s = a ++ tag_end b ++ r /\ attr_list wide a l.
Proof.
  induction f as [|f IH]; intros s l b r OK H; [discriminate|]. cbn [attributes] in H. destruct (skip_ws_sound s) as (w & E & B & S). apply bok_skip in OK. destruct (skip_ws s) as [|c q]; [discriminate|].
  destruct (Z.eqb_spec c 47) as [->|N47].
  { destruct q as [|x q]; [discriminate|]. destruct (Z.eqb_spec x 62) as [->|]; [|discriminate]. injection H as <- <- <-. exists w. split; [exact E|now constructor]. }
  destruct (Z.eqb_spec c 62) as [->|N62]. { injection H as <- <- <-. exists w. split; [exact E|now constructor]. }
  destruct (read_name wide (c :: q)) as [[n r1]|] eqn:R; [|discriminate]. apply read_name_iff in R as (ER & N & NN). rewrite ER in E, OK. apply bok_r in OK.
  destruct (skip_ws_sound r1) as (w1 & E1 & B1 & _). apply bok_skip in OK. destruct (skip_ws r1) as [|e r2]; [discriminate|]. destruct (Z.eqb_spec e 61) as [->|]; [|discriminate]. apply bok_cons in OK.
  destruct (skip_ws_sound r2) as (w2 & E2 & B2 & _). apply bok_skip in OK. destruct (skip_ws r2) as [|x r3]; [discriminate|]. destruct ((x =? 34) || (x =? 39)) eqn:Q; [|discriminate].
  destruct (text_run (Some x) r3) as [[v r4]|] eqn:T; [|discriminate]. apply text_run_value in T as (u & EU & AV); [|exact (bok_cons _ _ OK)|lia]. rewrite EU in OK, E2. apply bok_r in OK.
  destruct (attributes wide f r4) as [[[l' b'] r5]|] eqn:A; [|discriminate]. injection H as <- <- <-. destruct (IH _ _ _ _ OK A) as (a & -> & AL).
  exists (w ++ n ++ w1 ++ [61] ++ w2 ++ u ++ a). split; [rewrite E, E1, E2; repeat (rewrite <- app_assoc || cbn [app]); reflexivity|]. econstructor; eauto. apply ns_name_splits.
Qed.
Lemma attributes_app wide a l : attr_list wide a l -> forall b r f, (List.length a < f)%nat -> attributes wide f (a ++ tag_end b ++ r) = Some (l, b, r).
Proof.
  induction 1 as [w B|w n q w1 w2 s v a l B N SP B1 B2 AV AL IH]; intros b r f L; (destruct f as [|f]; [lia|]); cbn [attributes].
  - rewrite (skip_ws_app w _ B), skip_ws_stops by (destruct b; cbn; lia). destruct b; reflexivity.
  - rewrite !app_length in L. cbn [List.length] in L. rewrite <- !app_assoc, (skip_ws_app w _ B). destruct (name_first _ _ N) as (c & t & EN & NC). pose proof (name_char_plain _ NC) as (P1 & P2 & P3 & _).
    assert (skip_ws (n ++ w1 ++ [61] ++ w2 ++ s ++ a ++ tag_end b ++ r) = c :: (t ++ w1 ++ [61] ++ w2 ++ s ++ a ++ tag_end b ++ r)) as SK by (rewrite EN; apply skip_ws_stops; exact P1).
    rewrite SK. destruct (Z.eqb_spec c 47); [contradiction|]. destruct (Z.eqb_spec c 62); [contradiction|].
    assert (c :: (t ++ w1 ++ [61] ++ w2 ++ s ++ a ++ tag_end b ++ r) = n ++ w1 ++ [61] ++ w2 ++ s ++ a ++ tag_end b ++ r) as EC by (rewrite EN; reflexivity). rewrite EC.
    rewrite (proj2 (read_name_iff wide _ n (w1 ++ [61] ++ w2 ++ s ++ a ++ tag_end b ++ r))).
    2:{ split; [reflexivity|]. split; [exact N|]. destruct w1 as [|x w1]; cbn [app]; eexists _, _; (split; [reflexivity|]); [unfold name_char, letter; lia|].
        inversion B1 as [|? ? BX]; subst. unfold blank in BX. cbn [In] in BX. unfold name_char, letter. lia. }
    rewrite (skip_ws_app w1 _ B1). cbn [app]. rewrite (skip_ws_stops (61 :: _)) by (cbn; lia). change (61 =? 61) with true. cbv iota. rewrite (skip_ws_app w2 _ B2).
    destruct (value_text_run _ _ (a ++ tag_end b ++ r) AV) as (x & u & -> & Q & T). cbn [app]. rewrite (skip_ws_stops (x :: _)) by (cbn; lia).
    replace ((x =? 34) || (x =? 39)) with true by lia. rewrite T, IH by lia. now rewrite (splits_fun _ _ SP).
Qed.

(* ------------------------------------------------------------------ tokens *)

Inductive tok (wide : bytes -> bool) : bytes -> bytes -> token -> Prop :=
| tk_chars s d r : s <> [] -> chunk s d -> r = [] \/ (exists t, r = 60 :: t) -> tok wide s r (TChars d)
| tk_cdata s d r : cdata_section s d -> tok wide s r (TChars d)
| tk_silent s r : silent wide s -> tok wide s r TSkip
| tk_start s r q l b : start_tag wide s q l b -> tok wide s r (TStart q l b)
| tk_end s r q : end_tag wide s q -> tok wide s r (TEnd q).
Lemma raw_token_sound wide s t r : bytes_ok s -> raw_token wide s = Some (t, r) -> exists u, s = u ++ r /\ u <> [] /\ tok wide u r t.
Proof.
  intros OK H. unfold raw_token in H. destruct s as [|c s]; [discriminate|]. destruct (Z.eqb_spec c 60) as [->|N60]; cbn [negb] in H.
  2:{ destruct (text_run None (c :: s)) as [[d r']|] eqn:T; [|discriminate]. injection H as <- <-. apply text_run_chunk in T as (b & E & A & C); [|exact OK].
      assert (b <> []). { intros ->. cbn [app] in E. destruct A as [->|[t ->]]; [discriminate|]. injection E as -> _. contradiction. }
      exists b. split; [exact E|]. split; [assumption|]. now apply tk_chars. }
  destruct s as [|x s]; [discriminate|]. pose proof (bok_cons _ _ OK) as OK1. pose proof (bok_cons _ _ OK1) as OK2. destruct (Z.eqb_spec x 47) as [->|N47].
  { destruct (read_name wide s) as [[n r2]|] eqn:R; [|discriminate]. apply read_name_iff in R as (-> & N & NN). destruct (skip_ws_sound r2) as (w & E & B & _).
    destruct (skip_ws r2) as [|y r3]; [discriminate|]. destruct (Z.eqb_spec y 62) as [->|]; [|discriminate]. injection H as <- <-. rewrite E.
    exists (str "</" ++ n ++ w ++ [62]). split; [rewrite <- !app_assoc; reflexivity|]. split; [discriminate|]. apply tk_end. exists n, w. split; [reflexivity|]. split; [exact N|]. split; [apply ns_name_splits|exact B]. }
  destruct (Z.eqb_spec x 63) as [->|N63].
  { destruct (instruction wide s) as [r2|] eqn:I; [|discriminate]. injection H as <- <-. destruct (instruction_sound _ _ _ I) as (u & E & IT). exists u. split; [exact E|].
    split; [intros ->; destruct IT as (? & ? & ? & E2 & _); discriminate|]. apply tk_silent. right. now left. }
  destruct (Z.eqb_spec x 33) as [->|N33].
  { destruct s as [|y s]; [discriminate|]. destruct (Z.eqb_spec y 45) as [->|N45].
    { destruct s as [|z s]; [discriminate|]. destruct (Z.eqb_spec z 45) as [->|]; [|discriminate]. destruct (comment s) as [r4|] eqn:C; [|discriminate]. injection H as <- <-.
      destruct (comment_sound _ _ C) as (u & E & CT). exists u. split; [exact E|]. split; [intros ->; destruct CT as (? & E2 & _); discriminate|]. apply tk_silent. now left. }
    destruct (Z.eqb_spec y 91) as [->|N91].
    { destruct (has_prefix (str "CDATA[") s) eqn:P; [|discriminate]. apply prefix_skip in P. change (List.length (str "CDATA[")) with 6%nat in P.
      destruct (cdata (skipn 6 s)) as [[d r3]|] eqn:C; [|discriminate]. injection H as <- <-. destruct (cdata_sound (skipn 6 s) d r3) as (m & E & CS); [|exact C|].
      - pose proof (bok_cons _ _ OK2) as OK3. rewrite P in OK3. exact (bok_r _ _ OK3).
      - exists m. rewrite P. split; [exact E|]. split; [intros ->; destruct CS as (? & E2 & _); discriminate|]. now apply tk_cdata. }
    destruct (directive (S (List.length s)) DPlain 0 s) as [r3|] eqn:D; [|discriminate]. injection H as <- <-. apply directive_sound in D as (b & -> & D).
    exists (str "<!" ++ y :: b). split; [reflexivity|]. split; [discriminate|]. apply tk_silent. right. right. exists y, b. auto. }
  destruct (read_name wide (x :: s)) as [[n r2]|] eqn:R; [|discriminate]. apply read_name_iff in R as (ER & N & NN). rewrite ER in *.
  destruct (attributes wide (S (List.length r2)) r2) as [[[l b] r3]|] eqn:A; [|discriminate]. injection H as <- <-. apply bok_r in OK1.
  destruct (attributes_sound _ _ _ _ _ _ OK1 A) as (a & -> & AL). exists ([60] ++ n ++ a ++ tag_end b). split; [rewrite <- !app_assoc; reflexivity|]. split; [discriminate|].
  apply tk_start. exists n, a. split; [reflexivity|]. split; [exact N|]. split; [apply ns_name_splits|]. split; [exact AL|].
  destruct NN as (c & t & E & NC). destruct a as [|c' a]; [eexists _, _; split; [reflexivity|unfold name_char, letter; lia]|]. cbn [app] in *. injection E as -> _. eexists _, _. split; [reflexivity|exact NC].
Qed.
Lemma raw_token_app wide u r t : tok wide u r t -> raw_token wide (u ++ r) = Some (t, r).
Proof.
  intros K; destruct K as [s d r0 NE C A|s d r0 C|s r0 S|s r0 q l b S|s r0 q S].
  - pose proof (chunk_text_run s d r0 C A) as T. destruct s as [|c s]; [contradiction|]. cbn [app] in *. unfold raw_token. destruct (Z.eqb_spec c 60) as [->|]; cbn [negb].
    + exfalso. destruct C as (RN & _ & _). inversion RN as [|? ? ? NS| | |u9 v9 ? ? _ RT _ E1]; subst; [now apply NS|]. destruct (reference_app _ _ [] RT) as (w & -> & _). discriminate E1.
    + now rewrite T.
  - destruct (cdata_app s d r0 C) as (v & -> & E). change ((str "<![CDATA[" ++ v) ++ r0) with (60 :: 33 :: 91 :: str "CDATA[" ++ v ++ r0). unfold raw_token. cbn [negb Z.eqb Pos.eqb].
    replace (has_prefix (str "CDATA[") (str "CDATA[" ++ v ++ r0)) with true by (symmetry; apply prefix_iff; now exists (v ++ r0)).
    change (skipn 6 (str "CDATA[" ++ v ++ r0)) with (v ++ r0). now rewrite E.
  - destruct S as [S|[S|S]].
    + destruct (comment_app s r0 S) as (v & -> & E). change ((str "<!--" ++ v) ++ r0) with (60 :: 33 :: 45 :: 45 :: v ++ r0). unfold raw_token. cbn [negb Z.eqb Pos.eqb]. now rewrite E.
    + destruct (instruction_app wide s r0 S) as (v & -> & E). change ((str "<?" ++ v) ++ r0) with (60 :: 63 :: v ++ r0). unfold raw_token. cbn [negb Z.eqb Pos.eqb]. now rewrite E.
    + destruct S as (c & b & -> & N1 & N2 & D). change ((str "<!" ++ c :: b) ++ r0) with (60 :: 33 :: c :: b ++ r0). unfold raw_token. cbn [negb Z.eqb Pos.eqb].
      destruct (Z.eqb_spec c 45); [contradiction|]. destruct (Z.eqb_spec c 91); [contradiction|]. rewrite (directive_app 0 b D) by (rewrite app_length; lia). reflexivity.
  - destruct S as (n & a & -> & N & SP & AL & NN). destruct (name_first _ _ N) as (c & t9 & EN & NC). pose proof (name_char_plain _ NC) as (_ & P2 & _ & P4 & P5 & _).
    rewrite <- !app_assoc. change (if b then str "/>" else str ">") with (tag_end b). unfold raw_token. cbn [app negb Z.eqb Pos.eqb].
    destruct n as [|c9 n]; [discriminate|]. injection EN as -> ->. cbn [app].
    destruct (Z.eqb_spec c 47); [contradiction|]. destruct (Z.eqb_spec c 63); [contradiction|]. destruct (Z.eqb_spec c 33); [contradiction|].
    rewrite (proj2 (read_name_iff wide _ (c :: t9) (a ++ tag_end b ++ r0))).
    2:{ split; [reflexivity|]. split; [exact N|]. destruct a as [|x a]; [destruct b; [exists 47, (62 :: r0)|exists 62, r0]; (split; [reflexivity|unfold name_char, letter; lia])|].
        destruct NN as (y & t' & EY & NY). cbn [app] in EY. injection EY as -> _. eexists _, _. split; [reflexivity|exact NY]. }
    rewrite (attributes_app wide a l AL) by (rewrite app_length; lia). now rewrite (splits_fun _ _ SP).
  - destruct S as (n & w & -> & N & SP & B). change ((str "</" ++ n ++ w ++ [62]) ++ r0) with (60 :: 47 :: (n ++ w ++ [62]) ++ r0). rewrite <- !app_assoc. unfold raw_token. cbn [negb Z.eqb Pos.eqb].
    rewrite (proj2 (read_name_iff wide _ n (w ++ [62] ++ r0))).
    2:{ split; [reflexivity|]. split; [exact N|]. destruct w as [|x w]; cbn [app]; eexists _, _; (split; [reflexivity|]); [unfold name_char, letter; lia|].
        inversion B as [|? ? BX]; subst. unfold blank in BX. cbn [In] in BX. unfold name_char, letter. lia. }
    rewrite (skip_ws_app w _ B). cbn [app]. rewrite (skip_ws_stops (62 :: r0)) by (cbn; lia). change (62 =? 62) with true. cbv iota. now rewrite (splits_fun _ _ SP).
Qed.
