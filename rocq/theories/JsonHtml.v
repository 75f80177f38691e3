(** JsonHtml: the JSON texts the program writes can stand inside a page: they contain none of
    < > & (C86, C87, C89). *)
From Coq Require Import ZArith Lia Floats.SpecFloat ZifyBool Permutation.
From Flocq Require Import BinarySingleNaN.
From Verif Require Import GoBase BufFacts Strconv StrconvFacts CanModel NmeaTypes PgnTable MapTable NmeaModel NmeaSpec
  SignalkModel SignalkSpec SignalkText MainModel ApiModel FtoaModel JsonSpec FtoaFacts JsonModel JsonFacts JsonLayout JsonDecoded JsonProps.
Open Scope Z_scope.
Open Scope list_scope.

(** None of the characters that mean something in HTML. *)
Definition no_markup (t : bytes) : Prop := ~ In 60 t /\ ~ In 62 t /\ ~ In 38 t.
Definition quiet (b : Z) : Prop := b <> 60 /\ b <> 62 /\ b <> 38.
Notation calm := (Forall quiet).
Lemma calm_no_markup t : calm t -> no_markup t.
Proof. intros F. rewrite Forall_forall in F. repeat split; intros I; apply F in I; unfold quiet in I; lia. Qed.
Lemma calm_app a b : calm (a ++ b) <-> calm a /\ calm b.
Proof. apply Forall_app. Qed.
Ltac calms := repeat (apply Forall_cons; [unfold quiet; lia|]); try apply Forall_nil.
Lemma dec_calm s : Forall dec_char s -> calm s.
Proof. apply Forall_impl. unfold dec_char, quiet. lia. Qed.
Lemma itoa_calm n : calm (itoa n).
Proof.
  assert (forall k, 0 <= k -> calm (itoa k)) as P by (intros k H; apply dec_calm, itoa_value, H).
  destruct (Z.le_gt_cases 0 n) as [L|L]; [now apply P|].
  assert (itoa n = 45 :: itoa (- n)) as -> by (unfold itoa; replace (n <? 0) with true by lia; replace (- n <? 0) with false by lia; reflexivity).
  constructor; [unfold quiet; lia|]. apply P. lia.
Qed.
Lemma pad_calm w s : calm s -> calm (pad w s).
Proof. intros B. induction w as [|w IH]; cbn [pad]; destruct (_ <? _)%nat; auto. constructor; [unfold quiet; lia|exact IH]. Qed.
Lemma fmt_int_calm n w : calm (fmt_int n w).
Proof. unfold fmt_int. destruct (n <? 0); [constructor; [unfold quiet; lia|]|]; apply pad_calm, itoa_calm. Qed.
Lemma trim_calm s : calm s -> calm (trim_zeros s).
Proof. intros C. destruct (trim_spec s) as [n E]. rewrite E in C. now apply calm_app in C. Qed.
Lemma nano_calm ns : calm (nano_text ns).
Proof.
  unfold nano_text. pose proof (trim_calm _ (pad_calm 9 _ (itoa_calm ns))) as C. destruct (trim_zeros _); [constructor|].
  constructor; [unfold quiet; lia|exact C].
Qed.
Lemma time_calm tz sec ns b : json_time tz sec ns = Some b -> calm b.
Proof.
  unfold json_time. destruct (civil _) as [[y m] d]. destruct (_ || _); [discriminate|]. intros H. injection H as <-.
  destruct (tz =? 0); cbv zeta; [|set (c := Z.quot tz 60 <? 0); clearbody c].
  - repeat first [apply Forall_nil|apply Forall_cons; [unfold quiet; lia|]|apply fmt_int_calm|apply nano_calm|apply calm_app; split].
  - repeat first [apply Forall_nil|apply Forall_cons; [unfold quiet; lia|]|apply fmt_int_calm|apply nano_calm|apply calm_app; split|destruct c].
Qed.
Lemma hexl_quiet n : 0 <= n < 16 -> quiet (hexl n).
Proof. unfold hexl, quiet. intros H. destruct (n <? 10) eqn:E; lia. Qed.
Lemma ascii_calm b : 0 <= b < 128 -> calm (json_ascii b).
Proof.
  intros H. unfold json_ascii. destruct (html_safe b) eqn:E.
  - constructor; [|constructor]. unfold html_safe in E. unfold quiet. lia.
  - destruct (Z.eqb_spec b 92); [subst; calms|]. destruct (Z.eqb_spec b 34); [subst; calms|]. cbn [orb].
    destruct (b =? 10); [calms|]. destruct (b =? 13); [calms|]. destruct (b =? 9); [calms|]. calms.
    constructor; [apply hexl_quiet; split; [apply Z.div_pos; lia|apply Z.div_lt_upper_bound; lia]|].
    constructor; [apply hexl_quiet, Z.mod_pos_bound; lia|constructor].
Qed.
Lemma body_calm n : forall s, (List.length s <= n)%nat -> bytes_ok s -> calm (json_body 0 s).
Proof.
  induction n as [|n IH]; intros s L OK. { destruct s; [constructor|cbn in L; lia]. }
  destruct s as [|b r]; [constructor|]. inversion OK as [|? ? Bb OK1]; subst. unfold is_byte in Bb. cbn [json_body]. cbn [List.length] in L.
  destruct (Z.ltb_spec b 128).
  - apply calm_app. split; [apply ascii_calm; lia|apply IH; [lia|assumption]].
  - destruct (decode_rune (b :: r)) as [[c k]|] eqn:D.
    + destruct (decode_sound _ _ _ OK D) as [enc [r' [E [-> U]]]].
      apply calm_app. split.
      * destruct (_ || _); [calms; constructor; [apply hexl_quiet, Z.mod_pos_bound; lia|constructor]|].
        rewrite E, firstn_app, firstn_all, Nat.sub_diag. cbn [firstn]. rewrite app_nil_r.
        assert (128 <= c). { destruct (utf8_head _ _ U) as [a [t [Et [H1 H2]]]]. rewrite Et in E. cbn [app] in E. injection E as E _. lia. }
        inversion U; subst; try lia; repeat (apply Forall_cons; [unfold quiet|]); try apply Forall_nil;
          Z.to_euclidean_division_equations; lia.
      * rewrite json_body_skip. apply IH; [rewrite skipn_length; lia|]. rewrite <- (firstn_skipn (List.length enc - 1) r) in OK1. apply Forall_app in OK1. tauto.
    + apply calm_app. split; [calms|apply IH; [lia|assumption]].
Qed.
Lemma string_calm s : bytes_ok s -> calm (json_string s).
Proof.
  intros OK. unfold json_string. constructor; [unfold quiet; lia|]. apply calm_app. split; [apply (body_calm (List.length s)); auto|calms].
Qed.
Lemma b64_quiet v : 0 <= v < 64 -> quiet (b64_char v).
Proof. intros H. unfold b64_char, quiet. destruct (v <? 26) eqn:A, (v <? 52) eqn:B, (v <? 62) eqn:C, (v =? 62); lia. Qed.
Lemma b64_calm n : forall s, (List.length s <= n)%nat -> bytes_ok s -> calm (b64 s).
Proof.
  induction n as [|n IH]; intros s L OK. { destruct s; [constructor|cbn in L; lia]. }
  destruct s as [|a [|b [|c r]]]; [constructor| | |]; cbn [b64]; cbn [List.length] in L;
    repeat match goal with H : bytes_ok (_ :: _) |- _ => inversion H; subst; clear H | H : Forall _ (_ :: _) |- _ => inversion H; subst; clear H end;
    unfold is_byte in *;
    repeat (apply Forall_cons; [first [apply b64_quiet; Z.to_euclidean_division_equations; lia|unfold quiet; lia]|]); try apply Forall_nil.
  apply IH; [lia|assumption].
Qed.
Lemma bytes_calm nilb s : bytes_ok s -> calm (json_bytes nilb s).
Proof.
  intros OK. destruct s as [|b s]; cbn [json_bytes]; [destruct nilb; cbn; calms|].
  constructor; [unfold quiet; lia|]. apply calm_app. split; [apply (b64_calm (List.length (b :: s))); auto|calms].
Qed.
Lemma decimal_calm s n : decimal s n -> calm s.
Proof. intros (_ & F & _). eapply Forall_impl; [|exact F]. cbv beta. unfold quiet. lia. Qed.
Lemma number_calm s m e : number_text s m e -> calm s.
Proof.
  intros (neg & ip & fp & fd & ep & x & n & -> & _ & _ & F & E & D & _). apply decimal_calm, calm_app in D. destruct D as [D1 D2].
  apply calm_app. split; [destruct neg; calms|]. apply calm_app. split; [exact D1|]. apply calm_app. split.
  - destruct F as [[-> _]|[-> _]]; [constructor|]. constructor; [unfold quiet; lia|exact D2].
  - destruct E as [[-> _]|(c & xd & C & -> & I)]; [constructor|]. constructor; [unfold quiet; lia|].
    destruct I as [I|[(r & -> & I)|(r & -> & I)]]; apply decimal_calm in I; [exact I| |]; (constructor; [unfold quiet; lia|exact I]).
Qed.
Lemma value_calm other nilb tz v b : encodable tz v -> json_value other nilb tz v = Some b -> calm b.
Proof.
  intros E H. destruct v as [|n|n|n|n|n|x|x|s|s|sec nsec|k]; cbn [json_value encodable] in *; try contradiction.
  1-6: injection H as <-; first [cbn; calms; fail|apply itoa_calm].
  - destruct E as [V F]. destruct (json_float_ok 24 128 _ x V F) as [s [m [e [H' [N R]]]]]. rewrite H' in H. injection H as <-. eapply number_calm; exact N.
  - destruct E as [V F]. destruct (json_float_ok 53 1024 _ x V F) as [s [m [e [H' [N R]]]]]. rewrite H' in H. injection H as <-. eapply number_calm; exact N.
  - injection H as <-. now apply string_calm.
  - injection H as <-. now apply bytes_calm.
  - eapply time_calm; exact H.
Qed.

(** A tree whose atoms and names are calm. *)
Fixpoint calm_tree (t : jt) : Prop :=
  match t with
  | TAtom b => calm b
  | TList l => fold_right (fun x P => calm_tree x /\ P) True l
  | TObj l => fold_right (fun kv P => (bytes_ok (fst kv) /\ calm_tree (snd kv)) /\ P) True l
  end.
Lemma all_list l : fold_right (fun x P => calm_tree x /\ P) True l <-> Forall calm_tree l.
Proof. induction l as [|x l IH]; cbn [fold_right]; [split; [constructor|auto]|]. rewrite IH. split; [intros [A B]; now constructor|intros H; inversion H; auto]. Qed.
Lemma all_obj l : fold_right (fun kv P => (bytes_ok (fst kv) /\ calm_tree (snd kv)) /\ P) True l <-> Forall (fun kv => bytes_ok (fst kv) /\ calm_tree (snd kv)) l.
Proof. induction l as [|x l IH]; cbn [fold_right]; [split; [constructor|auto]|]. rewrite IH. split; [intros [A B]; now constructor|intros H; inversion H; auto]. Qed.
Lemma joined_calm sep l : calm sep -> Forall calm l -> calm (joined sep l).
Proof.
  intros S F. induction F as [|x l C F IH]; [constructor|]. destruct l as [|y l]; [exact C|]. rewrite joined_cons. rewrite !calm_app. auto.
Qed.
Lemma compact_calm t : calm_tree t -> calm (compact t).
Proof.
  induction t as [b|l IH|l IH] using jt_rect'; cbn [calm_tree compact]; intros H; [exact H| |].
  - apply all_list in H. rewrite !calm_app. split; [calms|]. split; [|calms]. apply joined_calm; [calms|]. apply Forall_map. rewrite Forall_forall in *. auto.
  - apply all_obj in H. rewrite !calm_app. split; [calms|]. split; [|calms]. apply joined_calm; [calms|]. apply Forall_map. rewrite Forall_forall in *. intros [k v] I.
    specialize (IH _ I). specialize (H _ I). cbn [fst snd] in *. rewrite !calm_app. split; [apply string_calm; tauto|]. split; [calms|tauto].
Qed.
Lemma newline_calm d : calm (newline d).
Proof. unfold newline. constructor; [unfold quiet; lia|]. induction d as [|d IH]; cbn [repeat List.concat app]; [constructor|]. calms. exact IH. Qed.
Lemma indent_calm t : calm_tree t -> forall d, calm (indent d t).
Proof.
  induction t as [b|l IH|l IH] using jt_rect'; cbn [calm_tree]; intros H d; [exact H| |].
  - apply all_list in H. assert (Forall calm (map (indent (S d)) l)) as F by (apply Forall_map; rewrite Forall_forall in *; auto).
    cbn [indent]. destruct l as [|x l]; [calms|]. set (ts := map _ _) in *. clearbody ts. pose proof (newline_calm (S d)). pose proof (newline_calm d).
    rewrite !calm_app. repeat split; try assumption; try (calms; fail). apply joined_calm; [constructor; [unfold quiet; lia|assumption]|exact F].
  - apply all_obj in H. assert (Forall calm (map (fun kv : bytes * jt => match kv with (k, v) => json_string k ++ [58; 32] ++ indent (S d) v end) l)) as F.
    { apply Forall_map. rewrite Forall_forall in *. intros [k v] I. specialize (IH _ I). specialize (H _ I). cbn [fst snd] in *.
      rewrite !calm_app. split; [apply string_calm; tauto|]. split; [calms|]. apply IH. tauto. }
    cbn [indent]. destruct l as [|x l]; [calms|]. set (ts := map _ _) in *. clearbody ts. pose proof (newline_calm (S d)). pose proof (newline_calm d).
    rewrite !calm_app. repeat split; try assumption; try (calms; fail). apply joined_calm; [constructor; [unfold quiet; lia|assumption]|exact F].
Qed.
Lemma slice_calm l : Forall calm_tree l -> calm_tree (tslice l).
Proof. intros F. destruct l as [|x l]; [cbn; calms|]. cbn [tslice calm_tree]. now apply all_list. Qed.
Lemma all_some_in {A B} (f : A -> option B) l r : all_some (map f l) = Some r -> forall y, In y r -> exists x, In x l /\ f x = Some y.
Proof.
  revert r. induction l as [|x l IH]; intros r H y I; cbn [map all_some] in H; [injection H as <-; contradiction|].
  destruct (f x) as [b|] eqn:E; [|discriminate]. destruct (all_some (map f l)) as [r'|]; [|discriminate]. injection H as <-.
  destruct I as [<-|I]; [exists x; split; [now left|exact E]|]. destruct (IH r' eq_refl y I) as (x' & I' & E'). exists x'. split; [now right|exact E'].
Qed.
Lemma tree_atom b : calm b -> calm_tree (TAtom b).
Proof. auto. Qed.
Lemma tree_num n : calm_tree (tnum n).
Proof. apply itoa_calm. Qed.
Lemma tree_text s : bytes_ok s -> calm_tree (ttext s).
Proof. intros H. now apply string_calm. Qed.
Lemma tree_bool b : calm_tree (tbool b).
Proof. destruct b; cbn; calms. Qed.
Lemma tree_obj l : Forall (fun kv => bytes_ok (fst kv) /\ calm_tree (snd kv)) l -> calm_tree (TObj l).
Proof. apply all_obj. Qed.
Ltac tree := repeat first [apply tree_obj|apply Forall_cons; [split; cbn [fst snd]; [apply bytes_ok_str|]|]|apply Forall_nil|apply tree_num|apply tree_bool|apply tree_text|apply tree_atom].

(** Deltas, as sent to clients. *)
Theorem C86_no_markup fuel pl fmtv mp other nilb sec ns m spare r order d b :
  -86400 < pl_tz pl < 86400 -> paths_ok mp -> (forall v, encodable (pl_tz pl) v -> bytes_ok (fmtv v)) ->
  bytes_ok (rm_data m) -> bytes_ok spare -> parse_packet fuel pl PgnList m spare = Some (Ret r) -> Permutation order (pm_data r) ->
  sk_delta (mkenv (pl_tz pl) fmtv PgnList r) mp order = Ret d ->
  json_delta other nilb (pl_tz pl) sec ns d = Some b -> no_markup b.
Proof.
  intros Z1 PO FO B1 B2 P PM D J.
  pose proof (decoded_encodable _ _ _ _ _ _ Z1 tame_PgnList B1 B2 P) as EN.
  assert (Forall (fun kv => encodable (pl_tz pl) (snd kv)) order) as EO.
  { rewrite Forall_forall in *. intros kv I. apply EN. eapply Permutation_in; eauto. }
  destruct (delta_fits (mkenv (pl_tz pl) fmtv PgnList r) mp PO FO EN order d EO D) as (EC & u & EU & ED & NE & F).
  cbn [e_tz] in F. unfold json_delta, tree_delta in J. rewrite EU in J. cbn [map all_some] in J.
  destruct (json_time (pl_tz pl) sec ns) as [t|] eqn:T; [|discriminate].
  match type of J with context [all_some (map ?f (u_values u))] => destruct (all_some (map f (u_values u))) as [vs|] eqn:V; [|discriminate]; pose proof (all_some_in f (u_values u) vs V) as VI end.
  injection J as <-. apply calm_no_markup, (compact_calm (TObj [(str "context", ttext (d_context d)); (str "updates", tslice [TObj [(str "source", TObj [(str "pgn", tnum (u_pgn u)); (str "device", ttext (u_device u)); (str "src", tnum (u_src u))]);
                          (str "timestamp", TAtom t); (str "values", tslice vs)]])])). rewrite EC, ED. tree.
  - apply bytes_ok_str.
  - apply slice_calm. constructor; [|constructor]. tree.
    + apply bytes_ok_str.
    + eapply time_calm; exact T.
    + apply slice_calm. apply Forall_forall. intros y I. destruct (VI y I) as (x & IX & EX). rewrite Forall_forall in F. destruct (F x IX) as [BP EV].
      destruct (json_value other nilb (pl_tz pl) (v_value x)) as [vb|] eqn:EVb; [|discriminate].
      assert (y = TObj [(str "path", ttext (v_path x)); (str "value", TAtom vb)]) as -> by congruence. tree.
      * exact BP.
      * eapply value_calm; [exact EV|exact EVb].
Qed.
(** The page of the index. *)
Theorem C89_no_markup t category typ : no_markup (json_index (MessagesIndex t category typ)).
Proof.
  apply calm_no_markup, indent_calm, slice_calm. pose proof (index_from_ok t t 0 category typ) as F.
  assert (Forall (fun e => bytes_ok (ie_details e)) (MessagesIndex t category typ)) as G by exact F.
  apply Forall_map. eapply Forall_impl; [|exact G]. intros e B. cbv beta. unfold tree_entry. tree; first [exact B|apply bytes_ok_str].
Qed.
Example C89_no_markup_example : In 38 (str (p_desc (nth 106 PgnList (mkpgn "" "" 0 false 0 0 [])))).
Proof. vm_compute. tauto. Qed.
