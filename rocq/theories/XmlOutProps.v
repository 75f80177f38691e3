(** XmlOutProps: the definitions as XML (C110). *)
From Coq Require Import ZArith Reals Lia Lra Floats.SpecFloat ZifyBool Permutation.
From Flocq Require Import Core BinarySingleNaN.
From Verif Require Import GoBase Strconv StrconvFacts NmeaTypes NmeaModel NmeaSpec NmeaFloat NmeaProps1 PgnTable PgnTexts ApiModel ApiSpec ApiProps FtoaModel FtoaFacts
  JsonModel JsonSpec JsonFacts JsonLayout JsonProps JsonDecoded JsonForm SignalkSpec SignalkText UnjsonModel UnjsonLex XmlModel XmlSpec XmlLex XmlParse XmlTree DetailsModel DetailsSpec DetailsProps XmlOutModel XmlOutSpec.
Open Scope Z_scope.
Open Scope list_scope.

(* ------------------------------------------------------------------ texts *)

Lemma xml_escape_skip n s : xml_escape n s = xml_escape 0 (skipn n s).
Proof. revert n. induction s as [|b r IH]; intros n; [destruct n; reflexivity|]. destruct n as [|n]; [reflexivity|]. cbn [xml_escape skipn]. apply IH. Qed.
(** Text without a byte that XML takes for something else. *)
Lemma run_plain st s d : Forall (fun c => ~ st c /\ c <> 13 /\ c <> 38) s -> forall r, run false st r d -> run false st (s ++ r) (s ++ d).
Proof. induction 1 as [|c s (H1 & H2 & H3) _ IH]; intros r R; [exact R|]. cbn [app]. apply rn_byte; auto. Qed.
Lemma utf8_high c enc : utf8 c enc -> 128 <= c -> Forall (fun b => 128 <= b) enc.
Proof. intros [c' H|c' H|c' H N|c' H] L; [lia| | |]; repeat (apply Forall_cons; [cbv beta; Z.to_euclidean_division_equations; lia|]); apply Forall_nil. Qed.
Definition noend (s : bytes) : Prop := Forall (fun c => c <> 62) s.
Lemma noend_chunk s : noend s -> ~ occurs (str "]]>") s.
Proof. intros N (a & b & ->). unfold noend in N. rewrite Forall_forall in N. apply (N 62); [|reflexivity]. apply in_or_app. right. cbn. auto. Qed.
Lemma kept_char c d : kept c d -> xml_char d.
Proof. intros [[H ->]|[_ ->]]; [exact H|]. unfold xml_char. lia. Qed.
Notation text_stop := (fun c => c = 60).
Lemma number_1 base c v : JsonSpec.hex_value c v -> v < base -> number_in base [c] v.
Proof. intros. now constructor. Qed.
Lemma ref_34 : ref_text (str "&#34;") [34].
Proof. apply (rt_dec (str "34") 34); [|constructor; lia]. apply (ni_next 10 [51] 3 52 4); [apply number_1|..]; try (left; lia); lia. Qed.
Lemma ref_39 : ref_text (str "&#39;") [39].
Proof. apply (rt_dec (str "39") 39); [|constructor; lia]. apply (ni_next 10 [51] 3 57 9); [apply number_1|..]; try (left; lia); lia. Qed.
Lemma ref_9 : ref_text (str "&#x9;") [9].
Proof. apply (rt_hex (str "9") 9); [|constructor; lia]. apply (number_1 16 57 9); [unfold JsonSpec.hex_value; lia|lia]. Qed.
Lemma ref_10 : ref_text (str "&#xA;") [10].
Proof. apply (rt_hex (str "A") 10); [|constructor; lia]. apply (number_1 16 65 10); [unfold JsonSpec.hex_value; lia|lia]. Qed.
Lemma ref_13 : ref_text (str "&#xD;") [13].
Proof. apply (rt_hex (str "D") 13); [|constructor; lia]. apply (number_1 16 68 13); [unfold JsonSpec.hex_value; lia|lia]. Qed.
Lemma ref_named n c : In (n, c) [(str "lt", 60); (str "gt", 62); (str "amp", 38); (str "apos", 39); (str "quot", 34)] -> ref_text (str "&" ++ n ++ str ";") [c].
Proof. apply rt_name. Qed.
Ltac lit := try match goal with |- noend _ => unfold noend end; cbn; repeat first [apply Forall_nil | apply Forall_cons; [cbv beta; lia|]].
(** One character. *)
Lemma char_ref_ok c enc : utf8 c enc -> exists d t, kept c d /\ utf8 d t /\ noend (match xml_char_ref c with Some e => e | None => enc end) /\
  forall r u, run false text_stop r u -> run false text_stop (match xml_char_ref c with Some e => e | None => enc end ++ r) (t ++ u).
Proof.
  intros U. unfold xml_char_ref.
  assert (forall e, c < 128 -> 0 <= c -> xml_char c -> ref_text e [c] -> noend e -> exists d t, kept c d /\ utf8 d t /\ noend e /\
    forall r u, run false text_stop r u -> run false text_stop (e ++ r) (t ++ u)) as REF.
  { intros e L L0 X R N. exists c, [c]. split; [now left|]. split; [constructor; lia|]. split; [exact N|]. intros r u H. apply rn_ref; auto. }
  destruct (Z.eqb_spec c 34) as [->|N1]. { apply REF; [lia|lia|unfold xml_char; lia|exact ref_34|lit]. }
  destruct (Z.eqb_spec c 39) as [->|N2]. { apply REF; [lia|lia|unfold xml_char; lia|exact ref_39|lit]. }
  destruct (Z.eqb_spec c 38) as [->|N3]. { apply REF; [lia|lia|unfold xml_char; lia|apply (ref_named (str "amp")); cbn; auto 10|lit]. }
  destruct (Z.eqb_spec c 60) as [->|N4]. { apply REF; [lia|lia|unfold xml_char; lia|apply (ref_named (str "lt")); cbn; auto 10|lit]. }
  destruct (Z.eqb_spec c 62) as [->|N5]. { apply REF; [lia|lia|unfold xml_char; lia|apply (ref_named (str "gt")); cbn; auto 10|lit]. }
  destruct (Z.eqb_spec c 9) as [->|N6]. { apply REF; [lia|lia|unfold xml_char; lia|exact ref_9|lit]. }
  destruct (Z.eqb_spec c 10) as [->|N7]. { apply REF; [lia|lia|unfold xml_char; lia|exact ref_10|lit]. }
  destruct (Z.eqb_spec c 13) as [->|N8]. { apply REF; [lia|lia|unfold xml_char; lia|exact ref_13|lit]. }
  assert (Forall (fun b => b <> 60 /\ b <> 13 /\ b <> 38 /\ b <> 62) enc) as P.
  { destruct (Z.ltb_spec c 128) as [L|L].
    - destruct (utf8_head _ _ U) as (a & t & -> & H1 & _). destruct (H1 L) as [-> ->]. lit.
    - eapply Forall_impl; [|exact (utf8_high _ _ U L)]. cbv beta. lia. }
  destruct (in_char_range c) eqn:X.
  - exists c, enc. split; [left; split; [now apply in_char_range_iff|reflexivity]|]. split; [exact U|]. split; [eapply Forall_impl; [|exact P]; cbv beta; tauto|].
    intros r u H. apply run_plain; [|exact H]. eapply Forall_impl; [|exact P]. cbv beta. tauto.
  - exists 65533, replacement. split; [right; split; [|reflexivity]; intros Y; apply in_char_range_iff in Y; congruence|]. split; [exact replacement_utf8|].
    split; [lit|]. intros r u H. apply run_plain; [|exact H]. lit.
Qed.
Lemma escape_ok n : forall s, (List.length s <= n)%nat -> bytes_ok s ->
  exists cs ds t, reads s cs /\ Forall2 kept cs ds /\ utf8_text t ds /\ noend (xml_escape 0 s) /\ run false text_stop (xml_escape 0 s) t.
Proof.
  induction n as [|n IH]; intros s L OK; (destruct s as [|b r]; [exists [], [], []; repeat split; constructor|]); [cbn in L; lia|].
  cbn [List.length] in L. cbn [xml_escape]. destruct (decode_rune (b :: r)) as [[c k]|] eqn:D.
  - destruct (decode_sound _ _ _ OK D) as (enc & r' & E & -> & U). pose proof (utf8_len _ _ U) as LE.
    destruct (utf8_head _ _ U) as (a & t & Et & _). assert (r = t ++ r') as Er by (rewrite Et in E; cbn [app] in E; congruence).
    rewrite xml_escape_skip, Er. replace (List.length enc - 1)%nat with (List.length t) by (rewrite Et; cbn [List.length]; lia).
    rewrite skipn_app, skipn_all, Nat.sub_diag. cbn [app skipn].
    assert (bytes_ok r') as OK2 by (rewrite E in OK; apply Forall_app in OK; tauto).
    destruct (IH r') as (cs & ds & u & R & K & T & N & RN); [rewrite Er, app_length in L; lia|exact OK2|].
    destruct (char_ref_ok c enc U) as (d & v & KD & UD & ND & RD).
    assert (firstn (List.length enc) (b :: t ++ r') = enc) as ->.
    { rewrite <- Er, E, firstn_app, firstn_all, Nat.sub_diag. cbn [firstn]. apply app_nil_r. }
    exists (c :: cs), (d :: ds), (v ++ u). split; [rewrite <- Er, E; now apply rd_char|]. split; [now constructor|]. split; [now constructor|].
    split; [apply Forall_app; auto|]. now apply RD.
  - inversion OK as [|? ? _ OK1]; subst. destruct (IH r ltac:(lia) OK1) as (cs & ds & u & R & K & T & N & RN).
    exists (65533 :: cs), (65533 :: ds), (replacement ++ u). split.
    { apply rd_bad; [|assumption]. intros c enc r' U E. rewrite E in D. rewrite (decode_utf8 c enc r' U) in D. discriminate. }
    split; [constructor; [left; split; [unfold xml_char; lia|reflexivity]|exact K]|]. split; [constructor; [exact replacement_utf8|exact T]|].
    split; [apply Forall_app; split; [lit|exact N]|]. apply run_plain; [lit|exact RN].
Qed.
Lemma kept_chars cs ds : Forall2 kept cs ds -> Forall xml_char ds.
Proof. induction 1; constructor; eauto using kept_char. Qed.
Lemma text_ok s : exists t, shows (str s) t /\ chunk (xml_text_of s) t.
Proof.
  destruct (escape_ok (List.length (str s)) (str s) (le_n _) (bytes_ok_str s)) as (cs & ds & t & R & K & T & N & RN).
  exists t. split; [exists cs, ds; auto|]. split; [exact RN|]. split; [exists ds; split; [exact T|eapply kept_chars, K]|now apply noend_chunk].
Qed.
(** Texts of printable ASCII characters other than markup. *)
Definition simple (s : bytes) : Prop := Forall (fun c => 32 <= c < 127 /\ c <> 60 /\ c <> 62 /\ c <> 38) s.
Lemma simple_chunk s : simple s -> chunk s s.
Proof.
  intros S. split; [|split].
  - rewrite <- (app_nil_r s). apply run_plain; [eapply Forall_impl; [|exact S]; cbv beta; lia|constructor].
  - exists s. split; [|eapply Forall_impl; [|exact S]; cbv beta; unfold xml_char; lia].
    induction S as [|c s H S IH]; [constructor|]. apply (ut_char c [c]); [constructor; lia|exact IH].
  - apply noend_chunk. eapply Forall_impl; [|exact S]. cbv beta. lia.
Qed.
(** The text of valid XML characters is shown as it is. *)
Lemma shows_same s t : xml_text s -> shows s t -> t = s.
Proof.
  intros (cs & U & X) (cs' & ds & R & K & T).
  assert (reads s cs) as R0 by (clear - U; induction U; [apply rd_end|now apply rd_char]). pose proof (reads_fun _ _ _ R R0) as ->.
  assert (ds = cs) as ->.
  { clear - X K. induction K as [|c d cs ds H K IH]; [reflexivity|]. inversion X; subst. f_equal; [|auto]. destruct H as [[_ ->]|[H _]]; [reflexivity|contradiction]. }
  apply utf8_text_flat in U, T. congruence.
Qed.

(* ------------------------------------------------------------------ numbers *)

Lemma whole_ok n : whole n (itoa n) /\ chunk (itoa n) (itoa n).
Proof.
  assert (forall k, 0 <= k -> simple (itoa k)) as S.
  { intros k H. destruct (itoa_value k H) as (_ & F & _). eapply Forall_impl; [|exact F]. unfold dec_char. cbv beta. lia. }
  destruct (Z.ltb_spec n 0) as [H|H].
  - split; [right; split; [exact H|exists (itoa (- n)); split; [now apply itoa_neg|apply itoa_numeral; lia]]|].
    apply simple_chunk. rewrite itoa_neg by exact H. constructor; [lia|]. apply S. lia.
  - split; [left; split; [exact H|now apply itoa_numeral]|]. apply simple_chunk. now apply S.
Qed.
Lemma number_simple s m e : number_text s m e -> simple s.
Proof.
  intros (neg & ip & fp & fd & ep & x & n & -> & _ & _ & FP & EP & (_ & D & _) & _).
  assert (forall l, Forall (fun c => 48 <= c <= 57) l -> simple l) as S by (intros l H; eapply Forall_impl; [|exact H]; cbv beta; lia).
  apply Forall_app in D as [D1 D2]. apply Forall_app. split; [destruct neg; lit|]. apply Forall_app. split; [now apply S|]. apply Forall_app. split.
  - destruct FP as [[-> _]|[-> _]]; [constructor|]. constructor; [lia|now apply S].
  - destruct EP as [[-> _]|(c & xd & C & -> & I)]; [constructor|]. constructor; [lia|].
    destruct I as [I|[(r & -> & I)|(r & -> & I)]]; try (constructor; [lia|]); destruct I as (_ & F & _); now apply S.
Qed.
Lemma dec_value_cons c r : dec_value (c :: r) = (c - 48) * 10 ^ zlen r + dec_value r.
Proof. change (c :: r) with ([c] ++ r). rewrite dec_value_app. f_equal. Qed.
Lemma dec_value_bound ds : Forall dec_char ds -> 0 <= dec_value ds < 10 ^ zlen ds.
Proof.
  induction 1 as [|c r H _ IH]; [change (dec_value []) with 0; change (zlen []) with 0; lia|]. rewrite dec_value_cons, zlen_cons. unfold dec_char in H.
  replace (1 + zlen r) with (Z.succ (zlen r)) by lia. rewrite Z.pow_succ_r by apply zlen_nonneg. nia.
Qed.
Lemma stands_weighs ds dp m e : stands ds dp m e -> 0 < m /\ weighs m e (dp - 1).
Proof.
  intros (F & (c & r & E & N) & -> & ->). rewrite E in *. inversion F as [|? ? C F']; subst. unfold dec_char in C.
  pose proof (dec_value_bound r F') as B. pose proof (dec_value_bound _ F) as B2. rewrite dec_value_cons in *. pose proof (zlen_nonneg r). assert (0 < 10 ^ zlen r) by (apply Z.pow_pos_nonneg; lia).
  set (v := (c - 48) * 10 ^ zlen r + dec_value r) in *. assert (10 ^ zlen r <= v) as L by (unfold v; nia). split; [lia|].
  assert (0 < powerRZ 10 (dp - zlen (c :: r)))%R as P by (apply powerRZ_lt; lra).
  unfold weighs, ten_to. rewrite Rabs_pos_eq by (apply Rmult_le_pos; [apply IZR_le; lia|lra]).
  replace (dp - 1) with (zlen r + (dp - zlen (c :: r))) by (rewrite zlen_cons; lia).
  replace (zlen r + (dp - zlen (c :: r)) + 1) with (zlen (c :: r) + (dp - zlen (c :: r))) by (rewrite zlen_cons; lia).
  rewrite !powerRZ_add by lra. rewrite (ten_pos (zlen r)), (ten_pos (zlen (c :: r))) by apply zlen_nonneg. split.
  - apply Rmult_le_compat_r; [lra|]. apply IZR_le. exact L.
  - apply Rmult_lt_compat_r; [exact P|]. apply IZR_lt. tauto.
Qed.
Lemma fmt_e_text (neg : bool) ds dp m e : stands ds dp m e ->
  number_text ((if neg then [45] else []) ++ fmt_e ds dp) (signed neg m) e /\ In 101 ((if neg then [45] else []) ++ fmt_e ds dp).
Proof.
  intros (F & (c & r & E & N) & -> & ->).
  set (fr := match r with [] => [] | _ => 46 :: r end).
  assert (exists xd, fmt_e ds dp = c :: fr ++ 101 :: xd /\ int_text xd (dp - 1)) as (xd & G & IX).
  { subst ds. cbn [fmt_e]. cbv zeta. fold fr.
    set (xs := if Z.abs (dp - 1) <? 10 then 48 :: itoa (Z.abs (dp - 1)) else itoa (Z.abs (dp - 1))).
    assert (decimal xs (Z.abs (dp - 1))) as D.
    { unfold xs. destruct (Z.ltb_spec (Z.abs (dp - 1)) 10); [|apply itoa_decimal; lia]. rewrite itoa_digit by lia.
      split; [discriminate|]. split; [repeat constructor; lia|]. cbn [fold_left]. lia. }
    exists ((if dp - 1 <? 0 then 45 else 43) :: xs). split; [reflexivity|].
    destruct (Z.ltb_spec (dp - 1) 0).
    - right. right. exists xs. split; [reflexivity|]. now replace (- (dp - 1)) with (Z.abs (dp - 1)) by lia.
    - right. left. exists xs. split; [reflexivity|]. now replace (dp - 1) with (Z.abs (dp - 1)) at 1 by lia. }
  rewrite G. split; [|apply in_or_app; right; right; apply in_or_app; right; now left].
  exists neg, [c], fr, r, (101 :: xd), (dp - 1), (dec_value ds).
  split; [reflexivity|]. split; [discriminate|]. split; [right; intros r' K; injection K as K _; now apply N|].
  split; [unfold fr; destruct r; [left; auto|right; split; [reflexivity|discriminate]]|].
  split; [right; exists 101, xd; auto|]. split; [|split; [reflexivity|]].
  - rewrite E in *. apply decimal_dv; [discriminate|assumption].
  - rewrite E, zlen_cons. lia.
Qed.
Lemma weighs_signed s m e m' e' x : ten_to m' e' = ten_to m e -> weighs m e x -> weighs (signed s m') e' x.
Proof. intros E. unfold weighs. rewrite ten_to_signed, E. destruct s; [now rewrite Rabs_Ropp|auto]. Qed.
Lemma float_g_ok x : valid_binary 53 1024 x = true -> is_finite_SF x = true ->
  exists m e, number_text (float_g x) m e /\ nearest64 (ten_to m e) = SF2R radix2 x /\
    (m = 0 /\ ~ In 101 (float_g x) \/ exists w, weighs m e w /\ (In 101 (float_g x) <-> w < -4 \/ 6 <= w)).
Proof.
  intros V Fi. destruct x as [s|s| |s m e]; try discriminate Fi; cbn [float_g].
  - exists 0, 0. split; [|split].
    + exists s, [48], [], [], [], 0, 0. rewrite !app_nil_r. split; [reflexivity|]. split; [discriminate|]. split; [auto|]. split; [auto|]. split; [auto|].
      split; [|destruct s; split; reflexivity]. split; [discriminate|]. split; [repeat constructor; lia|reflexivity].
    + cbn [SF2R]. unfold nearest64, ten_to. now rewrite Rmult_0_l, round_0 by auto with typeclass_instances.
    + left. split; [reflexivity|]. destruct s; cbn; lia.
  - assert (V' : valid_binary 53 1024 (S754_finite false m e) = true) by exact V.
    destruct (shortest_rounds 53 1024 ltac:(reflexivity) m e V') as (ds & dp & n & x & -> & ST & RD).
    destruct (stands_weighs _ _ _ _ ST) as [NP W]. pose proof ST as (F & (c & r & E & NC) & _).
    assert (forall m' e', ten_to m' e' = ten_to n x -> nearest64 (ten_to (signed s m') e') = SF2R radix2 (S754_finite s m e)) as SR.
    { intros m' e' Q. rewrite ten_to_signed, Q. cbn [SF2R]. unfold F2R. cbn [Fnum Fexp]. unfold nearest64.
      destruct s; cbn [cond_Zopp].
      - rewrite round_NE_opp. change (Z.neg m) with (- Z.pos m). rewrite opp_IZR. change (FLT_exp (-1074) 53) with (SpecFloat.fexp 53 1024) in *. rewrite RD. ring.
      - exact RD. }
    destruct ((dp - 1 <? -4) || (6 <=? dp - 1)) eqn:X.
    + destruct (fmt_e_text s ds dp n x ST) as [T I]. exists (signed s n), x. split; [exact T|]. split; [now apply SR|]. right. exists (dp - 1).
      split; [now apply (weighs_signed s n x)|]. split; [lia|auto].
    + destruct (fmt_f_text s ds dp n x ST) as (m' & e' & T & Q). exists (signed s m'), e'. split; [exact T|]. split; [now apply SR|]. right. exists (dp - 1).
      split; [now apply (weighs_signed s n x)|]. split; [|lia]. intros I. apply in_app_or in I. destruct I as [I|I]; [destruct s; cbn in I; lia|].
      now apply fmt_f_no_e in I.
Qed.
Lemma resolution_ok r : tame r -> exists t, resolution_shown r t /\ chunk (float_g (res_f64 r)) t.
Proof.
  intros T. destruct (resolution_nearest _ T) as (V & F & E). destruct (float_g_ok _ V F) as (m & e & N & Q & W).
  exists (float_g (res_f64 r)). split; [exists m, e; split; [exact N|]; split; [congruence|exact W]|]. apply simple_chunk. eapply number_simple, N.
Qed.

(* ------------------------------------------------------------------ elements *)

Section Wide.
Context (wide : bytes -> bool).
Definition tag_name (n : string) : Prop := (exists c r, str n = c :: r /\ letter c) /\ Forall (fun c => name_char c /\ c < 128 /\ c <> 58) (str n).
Lemma tag_name_text n : tag_name n -> name_text wide (str n).
Proof. intros [H F]. split; [eapply Forall_impl; [|exact F]; cbv beta; tauto|]. left. split; [|exact H]. eapply Forall_impl; [|exact F]. cbv beta. tauto. Qed.
Lemma tag_name_splits n : tag_name n -> splits (str n) ([], str n).
Proof. intros [_ F]. right. split; [|reflexivity]. intros I. rewrite Forall_forall in F. specialize (F 58 I). cbv beta in F. tauto. Qed.
Lemma tag_element n b t k : tag_name n -> inner wide [] b t k -> element wide [] (in_tag n b) (XE (str n) [] t k).
Proof.
  intros N I. unfold in_tag. replace ([60] ++ str n ++ [62] ++ b ++ [60; 47] ++ str n ++ [62]) with (([60] ++ str n ++ [62]) ++ b ++ ([60; 47] ++ str n ++ [62])) by (rewrite <- !app_assoc; reflexivity).
  change (@nil (bytes * bytes)) with (local_attrs []). change (str n) with (snd (@nil Z, str n)) at 3.
  apply (el_full wide [] _ _ _ ([], str n) ([], str n) [] t k (translate (env ([] ++ [])) ([], str n))).
  - exists (str n), []. split; [reflexivity|]. split; [now apply tag_name_text|]. split; [now apply tag_name_splits|]. split; [apply al_end; constructor|].
    exists 62, []. split; [reflexivity|]. unfold name_char, letter. lia.
  - exact I.
  - exists (str n), []. split; [reflexivity|]. split; [now apply tag_name_text|]. split; [now apply tag_name_splits|constructor].
  - apply translate_expands.
  - apply translate_expands.
Qed.
Lemma leaf_ok n (P : bytes -> Prop) b : tag_name n -> (exists t, P t /\ chunk b t) -> exists x, leaf n P x /\ element wide [] (in_tag n b) x.
Proof. intros N (t & H & C). exists (XE (str n) [] t []). split; [exists t; auto|]. apply tag_element; [exact N|now constructor]. Qed.
(** Elements one after the other. *)
Inductive row : bytes -> list xe -> Prop :=
| row_nil : row [] []
| row_cons a x b ks : element wide [] a x -> row b ks -> row (a ++ b) (x :: ks).
Lemma row_inner b ks : row b ks -> inner wide [] b [] ks.
Proof. induction 1 as [|a x b ks E _ IH]; [apply in_chunk, chunk_empty|]. apply (in_element wide [] [] [] a x b [] ks); [apply chunk_empty|exact E|exact IH]. Qed.
Lemma row_app a ks b ks' : row a ks -> row b ks' -> row (a ++ b) (ks ++ ks').
Proof. induction 1 as [|a x b0 ks E _ IH]; intros R; [exact R|]. rewrite <- app_assoc. cbn [app]. constructor; auto. Qed.
Lemma row_one a x : element wide [] a x -> row a [x].
Proof. intros E. rewrite <- (app_nil_r a). constructor; [exact E|constructor]. Qed.
Ltac tagn := split; [eexists _, _; split; [reflexivity|unfold letter; cbn; lia]|cbn; repeat first [apply Forall_nil | apply Forall_cons; [cbv beta; unfold name_char, letter; lia|]]].
Lemma whole_leaf n k : tag_name n -> exists x, leaf n (whole k) x /\ element wide [] (in_tag n (itoa k)) x.
Proof. intros N. apply leaf_ok; [exact N|]. exists (itoa k). apply whole_ok. Qed.
Lemma text_leaf n s : tag_name n -> exists x, leaf n (shows (str s)) x /\ element wide [] (in_tag n (xml_text_of s)) x.
Proof. intros N. apply leaf_ok; [exact N|apply text_ok]. Qed.
Lemma bool_leaf n b : tag_name n -> exists x, leaf n (truth b) x /\ element wide [] (in_tag n (xml_bool b)) x.
Proof. intros N. apply leaf_ok; [exact N|]. exists (xml_bool b). split; [reflexivity|]. apply simple_chunk. destruct b; cbn; lit. Qed.
Lemma units_row u b : xml_units u = Some b -> exists ks, units_shown u ks /\ row b ks.
Proof.
  destruct u as [|s|n|l|l]; cbn [xml_units]; intros E; try discriminate E; injection E as <-; cbn [units_shown].
  - exists []. split; [reflexivity|constructor].
  - destruct (text_leaf "Units" s) as (x & L & X); [tagn|]. exists [x]. split; [eauto|now apply row_one].
  - destruct (whole_leaf "Units" n) as (x & L & X); [tagn|]. exists [x]. split; [eauto|now apply row_one].
  - exists []. split; [reflexivity|constructor].
Qed.
Lemma field_element f tx b : tame (f_res f) -> xml_field f tx = Some b -> exists x, field_shown f tx x /\ element wide [] b x.
Proof.
  intros T E. unfold xml_field in E. destruct (xml_units (f_units f)) as [u|] eqn:U; [|discriminate E]. injection E as <-.
  destruct (units_row _ _ U) as (us & US & UR).
  destruct (text_leaf "Name" (f_name f)) as (x1 & L1 & X1); [tagn|]. destruct (whole_leaf "Size" (f_size f)) as (x2 & L2 & X2); [tagn|].
  destruct (leaf_ok "Resolution" (resolution_shown (f_res f)) (float_g (res_f64 (f_res f)))) as (x3 & L3 & X3); [tagn|now apply resolution_ok|].
  destruct (bool_leaf "Signed" (f_signed f)) as (x4 & L4 & X4); [tagn|]. destruct (text_leaf "Description" (fst tx)) as (x5 & L5 & X5); [tagn|].
  destruct (text_leaf "SignalkPath" (snd tx)) as (x6 & L6 & X6); [tagn|]. destruct (whole_leaf "Offset" (f_offset f)) as (x7 & L7 & X7); [tagn|].
  exists (XE (str "FieldList") [] [] ([x1; x2; x3; x4] ++ us ++ [x5; x6; x7])). split.
  - exists [x1; x2; x3; x4], us, [x5; x6; x7]. split; [reflexivity|]. split; [exact US|]. split; repeat (constructor; [assumption|]); constructor.
  - apply tag_element; [tagn|]. apply row_inner. change ([x1; x2; x3; x4] ++ us ++ [x5; x6; x7]) with (x1 :: x2 :: x3 :: x4 :: us ++ [x5; x6; x7]).
    apply (row_cons _ _ _ _ X1), (row_cons _ _ _ _ X2), (row_cons _ _ _ _ X3), (row_cons _ _ _ _ X4), row_app, (row_cons _ _ _ _ X5), (row_cons _ _ _ _ X6), row_one, X7. exact UR.
Qed.
Lemma fields_row fs : forall tx b, Forall (fun f => tame (f_res f)) fs -> xml_fields fs tx = Some b ->
  exists ks, Forall2 (fun ft k => field_shown (fst ft) (snd ft) k) (combine fs tx) ks /\ row b ks.
Proof.
  induction fs as [|f fs IH]; intros [|x tx] b T E; cbn [xml_fields combine] in *; try (injection E as <-; exists []; split; constructor).
  inversion T as [|? ? T1 T2]; subst. destruct (xml_field f x) as [a|] eqn:E1; [|discriminate E]. destruct (xml_fields fs tx) as [c|] eqn:E2; [|discriminate E]. injection E as <-.
  destruct (field_element f x a T1 E1) as (k & S & X). destruct (IH tx c T2 E2) as (ks & F & R). exists (k :: ks). split; [constructor; [exact S|exact F]|now constructor].
Qed.
(** A definition without two-level lookups is written, ... *)
Lemma fields_written fs : forall tx, (forall f m, In f fs -> f_units f <> USubLookup m) -> exists b, xml_fields fs tx = Some b.
Proof.
  induction fs as [|f fs IH]; intros [|x tx] H; try (exists []; reflexivity). destruct (IH tx) as [b E]; [intros g m I; apply H; now right|].
  cbn [xml_fields]. unfold xml_field. pose proof (H f) as Hf. destruct (f_units f) as [|s|n|l|l]; cbn [xml_units]; rewrite ?E; try (eexists; reflexivity).
  exfalso. eapply Hf; [now left|reflexivity].
Qed.
(** C110: the XML page of a definition without two-level lookups, whatever its texts and numbers,
    is one XML element and nothing else, which shows what the definition says, but for the lookup
    tables. *)
Theorem C110_definition p tx : Forall (fun f => tame (f_res f)) (p_fields p) -> ~ two_level p ->
  exists b x, xml_def p tx = Some b /\ element wide [] b x /\ definition_shown p tx x.
Proof.
  intros T N. destruct (fields_written (p_fields p) tx) as [fb E]. { intros f m I U. apply N. now exists f, m. }
  destruct (fields_row _ _ _ T E) as (fs & FS & FR). unfold xml_def. rewrite E.
  destruct (text_leaf "Description" (p_desc p)) as (x1 & L1 & X1); [tagn|]. destruct (text_leaf "Category" (p_cat p)) as (x2 & L2 & X2); [tagn|].
  destruct (whole_leaf "Pgn" (p_pgn p)) as (x3 & L3 & X3); [tagn|]. destruct (bool_leaf "IsKnown" (p_known p)) as (x4 & L4 & X4); [tagn|].
  destruct (whole_leaf "Size" (p_size p)) as (x5 & L5 & X5); [tagn|]. destruct (whole_leaf "RepeatingFields" (p_rep p)) as (x6 & L6 & X6); [tagn|].
  exists (in_tag "Pgn" (in_tag "Description" (xml_text_of (p_desc p)) ++ in_tag "Category" (xml_text_of (p_cat p)) ++ in_tag "Pgn" (itoa (p_pgn p)) ++
         in_tag "IsKnown" (xml_bool (p_known p)) ++ in_tag "Size" (itoa (p_size p)) ++ in_tag "RepeatingFields" (itoa (p_rep p)) ++ fb)),
    (XE (str "Pgn") [] [] ([x1; x2; x3; x4; x5; x6] ++ fs)). split; [reflexivity|]. split.
  - apply tag_element; [tagn|]. apply row_inner. change ([x1; x2; x3; x4; x5; x6] ++ fs) with (x1 :: x2 :: x3 :: x4 :: x5 :: x6 :: fs). apply (row_cons _ _ _ _ X1), (row_cons _ _ _ _ X2), (row_cons _ _ _ _ X3), (row_cons _ _ _ _ X4), (row_cons _ _ _ _ X5), (row_cons _ _ _ _ X6), FR.
  - exists [x1; x2; x3; x4; x5; x6], fs. split; [reflexivity|]. split; [|exact FS]. repeat (constructor; [assumption|]); constructor.
Qed.
End Wide.
(** ... and the element is all the text says. *)
Lemma document_fun wide s x x' : xml_document wide s x -> xml_document wide s x' -> x = x'.
Proof.
  assert (forall y, xml_document wide s y -> read_document wide s = Some y) as K.
  { intros y (p & e & r & -> & P & E). unfold read_document. apply prolog_document; [exact P|exact E|]. rewrite !app_length. lia. }
  intros D D'. apply K in D, D'. congruence.
Qed.
Lemma element_is_document wide b x : element wide [] b x -> xml_document wide b x.
Proof. intros E. exists [], b, []. split; [now rewrite app_nil_r|]. split; [apply (pr_chunk wide [] []), chunk_empty|exact E]. Qed.
(** The page of every entry of the table but number 3 (PGN 60928). *)
Theorem C110_page wide i p : zget PgnList i = Some p -> i <> 3 ->
  exists tx x, zget PgnTexts i = Some tx /\ element wide [] (details_xml PgnList PgnTexts i) x /\ definition_shown p tx x.
Proof.
  intros E N. destruct (zget_F2 _ _ _ shipped_writable i p E) as (tx & EX & (_ & _ & W)).
  destruct (C110_definition wide p tx) as (b & x & B & X & S).
  - eapply Forall_impl; [|exact W]. cbv beta. tauto.
  - intros T. apply N, C65_xml_shipped. eauto.
  - exists tx, x. unfold details_xml. rewrite E, EX, B. auto.
Qed.
Theorem C110_read wide i p x : zget PgnList i = Some p -> i <> 3 -> xml_document wide (details_xml PgnList PgnTexts i) x ->
  exists tx, zget PgnTexts i = Some tx /\ definition_shown p tx x.
Proof.
  intros E N D. destruct (C110_page wide i p E N) as (tx & x' & EX & X & S). apply element_is_document in X.
  rewrite (document_fun _ _ _ _ D X). eauto.
Qed.
(** What the server answers to a key with the number of the PGN or of the entry, with and without
    .xml, for every key: JSON, XML, nothing (only for entry 3), or no answer. *)
Theorem C110_answer wide ord key : (forall i j k l, Permutation (ord i j k l) l) ->
  match details_body ord PgnList PgnTexts key with
  | None => forall d, MessageDetails PgnList key <> Ret d
  | Some b => exists i p tx, zget PgnList i = Some p /\ zget PgnTexts i = Some tx /\
      (~ extension key (str "xml") /\ (exists v, json b v /\ definition_means p tx v) \/
       extension key (str "xml") /\ (i <> 3 /\ (exists x, element wide [] b x /\ definition_shown p tx x) \/ i = 3 /\ b = []))
  end.
Proof.
  intros O. unfold details_body. destruct (MessageDetails PgnList key) as [d|e|] eqn:M; [|intros d; discriminate|intros d; discriminate].
  unfold MessageDetails in M. cbv zeta in M.
  set (o := if zlen PgnList <=? parse_int_value 32 (nth 0 (split_at 46 key) []) then match pgn_first PgnList (u32 (parse_int_value 32 (nth 0 (split_at 46 key) []))) with Ret (id, _) => zget PgnList id | _ => None end
     else zget PgnList (parse_int_value 32 (nth 0 (split_at 46 key) []))) in *.
  set (i := if zlen PgnList <=? parse_int_value 32 (nth 0 (split_at 46 key) []) then match pgn_first PgnList (u32 (parse_int_value 32 (nth 0 (split_at 46 key) []))) with Ret (id, _) => id | _ => 0 end
     else parse_int_value 32 (nth 0 (split_at 46 key) [])) in *.
  destruct o as [p|] eqn:EO; [|discriminate M].
  assert (zget PgnList i = Some p) as E.
  { unfold o, i in *. destruct (zlen PgnList <=? _); [|exact EO]. destruct (pgn_first _ _) as [[id ?]| |]; [exact EO|discriminate EO|discriminate EO]. }
  clearbody i. clear EO.
  assert (extension key (str "xml") <-> bytes_eqb (nth 1 (split_at 46 key) []) (str "xml") = true) as X by (rewrite extension_split, bytes_eqb_eq; split; congruence).
  assert (has_map p = true <-> i = 3) as HM.
  { rewrite <- C65_xml_shipped. unfold has_map. rewrite existsb_exists. split.
    - intros (f & I & F). exists p. split; [exact E|]. destruct (f_units f) eqn:U; try discriminate F. exists f. eauto.
    - intros (q & E' & f & m & I & U). assert (q = p) as -> by congruence. exists f. split; [exact I|]. now rewrite U. }
  destruct (bytes_eqb (nth 1 (split_at 46 key) []) (str "xml")).
  - destruct (has_map p).
    + injection M as <-. destruct (zget_F2 _ _ _ shipped_writable i p E) as (tx & EX & _). exists i, p, tx. split; [exact E|]. split; [exact EX|]. right. split; [now apply X|]. right. split; [now apply HM|reflexivity].
    + injection M as <-. assert (i <> 3) as N by (intros Y; apply HM in Y; discriminate Y). destruct (C110_page wide i p E N) as (tx & x & EX & H1 & H2).
      exists i, p, tx. split; [exact E|]. split; [exact EX|]. right. split; [now apply X|]. left. split; [exact N|]. eauto.
  - injection M as <-. destruct (C98_details (ord i) i p (O i) E) as (b & v & tx & D & EX & J & DM). rewrite D. exists i, p, tx. split; [exact E|]. split; [exact EX|].
    left. split; [intros Y; apply X in Y; discriminate Y|]. eauto.
Qed.
(** Entry 3 has a two-level lookup: its page is empty, as that of any definition with one. *)
Theorem C110_empty t texts i p tx : zget t i = Some p -> zget texts i = Some tx -> List.length (p_fields p) = List.length tx -> two_level p ->
  details_xml t texts i = [].
Proof.
  intros E EX L (f & m & I & U). unfold details_xml. rewrite E, EX. unfold xml_def.
  assert (xml_fields (p_fields p) tx = None) as ->; [|reflexivity].
  clear E EX. revert tx L. generalize dependent (p_fields p). induction l as [|g l IH]; intros I [|x tx] L; try discriminate L; [destruct I|].
  cbn [xml_fields]. destruct I as [->|I].
  - unfold xml_field. rewrite U. reflexivity.
  - rewrite (IH I tx ltac:(now injection L)). now destruct (xml_field g x).
Qed.
Theorem C110_entry3 : details_xml PgnList PgnTexts 3 = [].
Proof.
  destruct (proj2 (C65_xml_shipped 3) eq_refl) as (p & E & T). destruct (zget_F2 _ _ _ shipped_writable 3 p E) as (tx & EX & (_ & L & _)).
  exact (C110_empty _ _ _ _ _ E EX L T).
Qed.
(** The texts of a definition and of its fields. *)
Definition unit_texts (u : units) : list string := match u with UStr s => [s] | _ => [] end.
Definition texts_of (p : pgn_def) (tx : list (string * string)) : list string :=
  p_desc p :: p_cat p :: map f_name (p_fields p) ++ flat_map (fun f => unit_texts (f_units f)) (p_fields p) ++ map fst tx ++ map snd tx.
(** Every text of the table is shown as it is. *)
Theorem C110_verbatim i p tx s t : zget PgnList i = Some p -> zget PgnTexts i = Some tx -> In s (texts_of p tx) -> shows (str s) t -> t = str s.
Proof.
  intros E EX I H.
  assert (forallb (fun px => forallb (fun s => checked (str s)) (texts_of (fst px) (snd px))) (combine PgnList PgnTexts) = true) as K by (vm_compute; reflexivity).
  assert (In (p, tx) (combine PgnList PgnTexts)) as J.
  { clear K I H. unfold zget in E, EX. destruct (i <? 0); [discriminate E|]. revert E EX. generalize (Z.to_nat i) as n. generalize PgnTexts as m, PgnList as l. clear.
    induction m as [|y m IH]; intros [|x l] [|n] E EX; cbn [nth_error combine] in *; try discriminate E; try discriminate EX.
    - left. congruence.
    - right. eauto. }
  rewrite forallb_forall in K. specialize (K _ J). cbn [fst snd] in K. rewrite forallb_forall in K. specialize (K s I).
  apply shows_same; [|exact H]. apply checked_iff; [apply bytes_ok_str|exact K].
Qed.
(** Definitions with different lookup tables have the same page: unlike the JSON page (C98), the
    XML page does not say what the numbers of a lookup mean. *)
Theorem C110_tables p q tx : p_desc p = p_desc q -> p_cat p = p_cat q -> p_pgn p = p_pgn q -> p_known p = p_known q -> p_size p = p_size q -> p_rep p = p_rep q ->
  Forall2 same_but_tables (p_fields p) (p_fields q) -> xml_def p tx = xml_def q tx.
Proof.
  intros H1 H2 H3 H4 H5 H6 F. unfold xml_def. rewrite H1, H2, H3, H4, H5, H6.
  assert (xml_fields (p_fields p) tx = xml_fields (p_fields q) tx) as ->; [|reflexivity].
  revert tx. induction F as [|f g fs gs (N & S & R & G & O & U) F IH]; intros [|x tx]; cbn [xml_fields]; try reflexivity.
  rewrite IH. assert (xml_field f x = xml_field g x) as ->; [|reflexivity]. unfold xml_field. rewrite N, S, R, G, O.
  destruct U as [->|(l & l' & -> & ->)]; reflexivity.
Qed.
Theorem C110_lookups_refuted : ~ (forall p q tx b, xml_def p tx = Some b -> xml_def q tx = Some b -> p = q).
Proof.
  intros H. set (d l := mkpgn "d" "c" 1 true 8 0 [mkfield "f" 8 (RNeg 3) false (ULookup l) 0]).
  assert (d [(0, "Off"%string)] = d [(0, "On"%string)]) as E by (eapply (H _ _ [(""%string, ""%string)]); vm_compute; reflexivity). discriminate E.
Qed.
(** Entry 2, and a definition with everything that needs an escape. *)
Example C110_example : details_xml PgnList PgnTexts 2 =
  str "<Pgn><Description>ISO Request</Description><Category>Mandatory</Category><Pgn>59904</Pgn><IsKnown>true</IsKnown><Size>3</Size><RepeatingFields>0</RepeatingFields><FieldList><Name>PGN</Name><Size>24</Size><Resolution>-8</Resolution><Signed>false</Signed><Description></Description><SignalkPath></SignalkPath><Offset>0</Offset></FieldList></Pgn>".
Proof. vm_compute. reflexivity. Qed.
Definition odd_def : pgn_def := mkpgn "a<b & ""c"" 'd' >" "" 7 false 0 1
  [mkfield (String (Ascii.ascii_of_nat 1) (String (Ascii.ascii_of_nat 200) "x")) 0 (RPos 1 100000) true (UInt (-5)) (-2);
   mkfield "" 0 (RPos 1000000 1) true (UStr "m") 0; mkfield "" 0 (RPos 999999 1) true UNil 0].
Example C110_odd : xml_def odd_def [(""%string, "p"%string); (""%string, ""%string); (""%string, ""%string)] = Some (
  str "<Pgn><Description>a&lt;b &amp; &#34;c&#34; &#39;d&#39; &gt;</Description><Category></Category><Pgn>7</Pgn><IsKnown>false</IsKnown><Size>0</Size><RepeatingFields>1</RepeatingFields><FieldList><Name>" ++
  replacement ++ replacement ++
  str "x</Name><Size>0</Size><Resolution>1e-05</Resolution><Signed>true</Signed><Units>-5</Units><Description></Description><SignalkPath>p</SignalkPath><Offset>-2</Offset></FieldList><FieldList><Name></Name><Size>0</Size><Resolution>1e+06</Resolution><Signed>true</Signed><Units>m</Units><Description></Description><SignalkPath></SignalkPath><Offset>0</Offset></FieldList><FieldList><Name></Name><Size>0</Size><Resolution>999999</Resolution><Signed>true</Signed><Description></Description><SignalkPath></SignalkPath><Offset>0</Offset></FieldList></Pgn>").
Proof. vm_compute. reflexivity. Qed.
