(** XmlBytes: the texts of a mapping file that was accepted are made of bytes. *)
From Verif Require Import GoBase BufFacts NmeaTypes NmeaModel SignalkModel JsonModel JsonProps UnjsonModel XmlModel.
Open Scope Z_scope.
Open Scope list_scope.

Lemma runes_bytes : forall fuel s cs, runes fuel s = Some cs -> forallb in_char_range cs = true -> bytes_ok s.
Proof.
  induction fuel as [|f IH]; intros s cs R C; cbn [runes] in R; [discriminate|].
  destruct s as [|a r]; [constructor|]. destruct (decode_rune (a :: r)) as [[c n]|] eqn:D; [|discriminate].
  destruct (runes f (skipn n (a :: r))) as [cs'|] eqn:R'; [|discriminate]. injection R as <-. cbn [forallb] in C. apply andb_true_iff in C as [C1 C2].
  specialize (IH _ _ R' C2). rewrite <- (firstn_skipn n (a :: r)). apply Forall_app. split; [|exact IH].
  unfold decode_rune, cont in D. destruct (a <? 128) eqn:A1.
  { injection D as <- <-. cbn [firstn]. constructor; [|constructor]. unfold in_char_range in C1. unfold is_byte. lia. }
  destruct ((194 <=? a) && (a <=? 223)) eqn:A2.
  { destruct r as [|b r]; [discriminate|]. destruct (_ && _) eqn:B in D; [|discriminate]. injection D as _ <-. cbn [firstn].
    repeat constructor; unfold is_byte; lia. }
  destruct ((224 <=? a) && (a <=? 239)) eqn:A3.
  { destruct r as [|b [|d r]]; try discriminate. destruct (_ && _) eqn:B in D; [|discriminate]. injection D as _ <-. cbn [firstn].
    destruct (a =? 224), (a =? 237); repeat constructor; unfold is_byte; lia. }
  destruct ((240 <=? a) && (a <=? 244)) eqn:A4; [|discriminate].
  destruct r as [|b [|d [|e r]]]; try discriminate. destruct (_ && _) eqn:B in D; [|discriminate]. injection D as _ <-. cbn [firstn].
  destruct (a =? 240) eqn:?, (a =? 244) eqn:?; repeat constructor; unfold is_byte; lia.
Qed.
Lemma checked_bytes d : checked d = true -> bytes_ok d.
Proof. unfold checked. destruct (runes _ d) eqn:R; [|discriminate]. intros C. eapply runes_bytes; eassumption. Qed.

Inductive xok : xe -> Prop := xok_i n a t k : bytes_ok t -> Forall xok k -> xok (XE n a t k).

Lemma chars_ok wide s t r : raw_token wide s = Some (TChars t, r) -> bytes_ok t.
Proof.
  unfold raw_token. destruct s as [|c s]; [discriminate|]. destruct (negb (c =? 60)).
  - unfold text_run. destruct (text_loop _ _ _) as [[d q]|]; [|discriminate]. destruct (checked d) eqn:K; [|discriminate].
    intros H. injection H as <- _. now apply checked_bytes.
  - destruct s as [|x r1]; [discriminate|]. destruct (x =? 47).
    { destruct (read_name wide r1) as [[n r2]|]; [|discriminate]. destruct (skip_ws r2); [discriminate|]. destruct (_ =? 62); discriminate. }
    destruct (x =? 63). { destruct (instruction wide r1); discriminate. }
    destruct (x =? 33).
    2:{ destruct (read_name _ _) as [[n r2]|]; [|discriminate]. destruct (attributes _ _ _) as [[[l b] r3]|]; discriminate. }
    destruct r1 as [|y r2]; [discriminate|]. destruct (y =? 45).
    { destruct r2 as [|z r3]; [discriminate|]. destruct (z =? 45); [|discriminate]. destruct (comment r3); discriminate. }
    destruct (y =? 91).
    { destruct (has_prefix _ r2); [|discriminate]. unfold cdata. destruct (cut _ _) as [[d q]|]; [|discriminate].
      destruct (checked _) eqn:K; [|discriminate]. intros H. injection H as <- _. now apply checked_bytes. }
    destruct (directive _ _ _ r2); discriminate.
Qed.
Lemma content_ok wide : forall f e s t k n r, content wide f e s = Some (t, k, n, r) -> bytes_ok t /\ Forall xok k.
Proof.
  induction f as [|f IH]; intros e s t k n r H; cbn [content] in H; [discriminate|].
  destruct (raw_token wide s) as [[tok q]|] eqn:T; [|discriminate]. destruct tok as [tt| |n0 l b|n0].
  - destruct (content wide f e q) as [[[[t' k'] n'] r']|] eqn:C; [|discriminate]. injection H as <- <- <- <-.
    destruct (IH _ _ _ _ _ _ C) as [A B]. split; [|exact B]. apply Forall_app. split; [now apply chars_ok in T|exact A].
  - eauto.
  - destruct b.
    + destruct (content wide f e q) as [[[[t' k'] m] r2]|] eqn:C; [|discriminate]. injection H as <- <- <- <-.
      destruct (IH _ _ _ _ _ _ C) as [A B]. split; [exact A|]. constructor; [|exact B]. constructor; constructor.
    + destruct (content wide f (fold_left declare l e) q) as [[[[t1 k1] m1] r1]|] eqn:C1; [|discriminate].
      destruct (qname_eqb _ _); [|discriminate]. destruct (content wide f e r1) as [[[[t' k'] m] r2]|] eqn:C; [|discriminate]. injection H as <- <- <- <-.
      destruct (IH _ _ _ _ _ _ C) as [A B]. destruct (IH _ _ _ _ _ _ C1) as [A1 B1]. split; [exact A|]. constructor; [|exact B]. now constructor.
  - injection H as <- <- _ _. split; constructor.
Qed.
Lemma document_ok wide : forall f s x, document wide f s = Some x -> xok x.
Proof.
  induction f as [|f IH]; intros s x H; cbn [document] in H; [discriminate|].
  destruct (raw_token wide s) as [[tok q]|] eqn:T; [|discriminate]. destruct tok as [tt| |n0 l b|n0]; try discriminate; eauto.
  destruct b.
  - injection H as <-. constructor; constructor.
  - destruct (content wide f _ q) as [[[[t1 k1] m1] r1]|] eqn:C1; [|discriminate]. destruct (qname_eqb _ _); [|discriminate]. injection H as <-.
    apply content_ok in C1 as [A B]. now constructor.
Qed.

Lemma xok_text x : xok x -> bytes_ok (x_text x). Proof. now destruct 1. Qed.
Lemma xok_kids x : xok x -> Forall xok (x_kids x). Proof. now destruct 1. Qed.
Lemma store_ok {A} (P : A -> Prop) (put : xe -> A -> option A) : (forall k a a', xok k -> P a -> put k a = Some a' -> P a') ->
  forall ks a a', Forall xok ks -> P a -> store_all put ks a = Some a' -> P a'.
Proof.
  intros S. induction ks as [|k ks IH]; intros a a' F PA H; cbn [store_all] in H; [now injection H as <-|].
  destruct (put k a) as [y|] eqn:E; [|discriminate]. inversion F; subst. eapply IH; [eassumption| |exact H]. eapply S; eassumption.
Qed.
(** Every path of a table read from a file is made of bytes. *)
Lemma parsed_paths wide data t : parse_mappings wide data = Some t -> paths_ok t.
Proof.
  unfold parse_mappings. destruct (read_document wide data) as [x|] eqn:D; [|discriminate]. destruct (named _ x); [|discriminate].
  apply document_ok in D. intros H. eapply (store_ok paths_ok put_mappings); [|apply xok_kids, D| |exact H]; [|constructor].
  intros k a a' K PA S. unfold put_mappings in S. destruct (named _ k); [|now injection S as <-].
  destruct (store_all put_mapping _ _) as [m|] eqn:E; [|discriminate]. injection S as <-. apply Forall_app. split; [exact PA|]. constructor; [|constructor].
  eapply (store_ok (fun m => bytes_ok (m_path m)) put_mapping); [|apply xok_kids, K| |exact E]; [|constructor].
  intros k' m' m'' K' PM S. unfold put_mapping in S. destruct (named (str "path") k'); [injection S as <-; now apply xok_text|].
  destruct (named _ k'); [|now injection S as <-]. destruct (store_all put_group _ _); [|discriminate]. now injection S as <-.
Qed.
