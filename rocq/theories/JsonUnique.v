(** JsonUnique: a JSON text has one meaning (C91). *)
From Coq Require Import ZArith Lia ZifyBool.
From Verif Require Import GoBase BufFacts Strconv StrconvFacts NmeaTypes NmeaModel NmeaSpec SignalkModel SignalkSpec JsonSpec JsonModel FtoaFacts JsonFacts.
Open Scope Z_scope.
Open Scope list_scope.

(* ------------------------------------------------------------------ runs *)

Definition stops (P : Z -> Prop) (b : bytes) : Prop := match b with [] => True | c :: _ => ~ P c end.
Lemma run_unique (P : Z -> Prop) a : forall a' b b', Forall P a -> Forall P a' -> stops P b -> stops P b' ->
  a ++ b = a' ++ b' -> a = a' /\ b = b'.
Proof.
  induction a as [|x a IH]; intros [|y a'] b b' F F' S S' E; cbn [app] in E.
  - auto.
  - subst b. inversion F'; subst. contradiction.
  - subst b'. inversion F; subst. contradiction.
  - injection E as -> E. inversion F; inversion F'; subst. destruct (IH a' b b') as [-> ->]; auto.
Qed.
Definition is_blank (c : Z) : Prop := In c [32; 9; 10; 13].

(* ------------------------------------------------------------------ characters *)

Lemma hex_value_fun c v w : hex_value c v -> hex_value c w -> v = w.
Proof. unfold hex_value. lia. Qed.
Lemma hex4_prefix s s' v v' r r' : hex4 s v -> hex4 s' v' -> s ++ r = s' ++ r' -> s = s' /\ r = r' /\ v = v'.
Proof.
  intros (a & b & c & d & x & y & z & w & -> & H1 & H2 & H3 & H4 & ->) (a' & b' & c' & d' & x' & y' & z' & w' & -> & H1' & H2' & H3' & H4' & ->) E.
  cbn [app] in E. injection E as -> -> -> -> ->.
  rewrite (hex_value_fun _ _ _ H1 H1'), (hex_value_fun _ _ _ H2 H2'), (hex_value_fun _ _ _ H3 H3'), (hex_value_fun _ _ _ H4 H4'). auto.
Qed.
Lemma utf8_prefix c c' s s' r r' : utf8 c s -> utf8 c' s' -> s ++ r = s' ++ r' -> s = s' /\ r = r' /\ c = c'.
Proof.
  intros H H' E. pose proof (decode_utf8 c s r H) as D. pose proof (decode_utf8 c' s' r' H') as D'. rewrite E, D' in D.
  injection D as -> L. destruct (app_same_len s s' r r' (eq_sym L) E) as [-> ->]. auto.
Qed.
Lemma utf8_first c s : utf8 c s -> 32 <= c -> c <> 34 -> c <> 92 -> exists a t, s = a :: t /\ a <> 34 /\ a <> 92.
Proof.
  intros H L N M. destruct (utf8_head _ _ H) as (a & t & -> & H1 & H2). exists a, t. split; [reflexivity|].
  destruct (Z_lt_ge_dec c 128) as [C|C]; [destruct (H1 C); lia|specialize (H2 ltac:(lia)); lia].
Qed.
Lemma char_prefix s c : char_text s c -> forall s' c' r r', char_text s' c' -> s ++ r = s' ++ r' -> s = s' /\ r = r' /\ c = c'.
Proof.
  intros H s' c' r r' H' E.
  destruct H as [c s U L N M|x c I|h c X NS|h l a b X Y A B]; destruct H' as [c' s' U' L' N' M'|x' c' I'|h' c' X' NS'|h' l' a' b' X' Y' A' B'].
  - exact (utf8_prefix _ _ _ _ _ _ U U' E).
  - destruct (utf8_first _ _ U L N M) as (? & ? & -> & ? & ?). injection E as -> _. lia.
  - destruct (utf8_first _ _ U L N M) as (? & ? & -> & ? & ?). injection E as -> _. lia.
  - destruct (utf8_first _ _ U L N M) as (? & ? & -> & ? & ?). injection E as -> _. lia.
  - destruct (utf8_first _ _ U' L' N' M') as (? & ? & -> & ? & ?). injection E as <- _. lia.
  - injection E as -> ->. split; [reflexivity|]. split; [reflexivity|].
    assert (forall y d, In (y, d) [(34, 34); (92, 92); (47, 47); (98, 8); (102, 12); (110, 10); (114, 13); (116, 9)] ->
      d = if y =? 98 then 8 else if y =? 102 then 12 else if y =? 110 then 10 else if y =? 114 then 13 else if y =? 116 then 9 else y) as K.
    { intros y d J. cbn [In] in J. repeat (destruct J as [J|J]; [inversion J; reflexivity|]). contradiction. }
    apply K in I. apply K in I'. congruence.
  - injection E as -> _. cbn in I. repeat (destruct I as [I|I]; [discriminate I|]). contradiction.
  - injection E as -> _. cbn in I. repeat (destruct I as [I|I]; [discriminate I|]). contradiction.
  - destruct (utf8_first _ _ U' L' N' M') as (? & ? & -> & ? & ?). injection E as <- _. lia.
  - injection E as <- _. cbn in I'. repeat (destruct I' as [I'|I']; [discriminate I'|]). contradiction.
  - injection E as E. destruct (hex4_prefix _ _ _ _ _ _ X X' E) as (-> & -> & ->). auto.
  - rewrite <- app_assoc in E. injection E as E. destruct (hex4_prefix _ _ _ _ _ _ X X' E) as (_ & _ & ->). lia.
  - destruct (utf8_first _ _ U' L' N' M') as (? & ? & -> & ? & ?). injection E as <- _. lia.
  - injection E as <- _. cbn in I'. repeat (destruct I' as [I'|I']; [discriminate I'|]). contradiction.
  - rewrite <- app_assoc in E. injection E as E. destruct (hex4_prefix _ _ _ _ _ _ X X' E) as (_ & _ & <-). lia.
  - rewrite <- !app_assoc in E. injection E as E. destruct (hex4_prefix _ _ _ _ _ _ X X' E) as (-> & E2 & ->).
    injection E2 as E2. destruct (hex4_prefix _ _ _ _ _ _ Y Y' E2) as (-> & -> & ->). auto.
Qed.
Lemma char_first s c : char_text s c -> exists a t, s = a :: t /\ a <> 34.
Proof.
  intros H. destruct H as [c s U L N M|x c I|h c X NS|h l a b X Y A B].
  - destruct (utf8_first _ _ U L N M) as (a & t & -> & ? & ?). eauto.
  - exists 92, [x]. split; [reflexivity|lia].
  - exists 92, (117 :: h). split; [reflexivity|lia].
  - exists 92, ((117 :: h) ++ 92 :: 117 :: l). split; [reflexivity|lia].
Qed.
Lemma chars_prefix s cs : chars_text s cs -> forall s' cs' r r', chars_text s' cs' -> s ++ [34] ++ r = s' ++ [34] ++ r' -> s = s' /\ r = r' /\ cs = cs'.
Proof.
  induction 1 as [|a c s cs H _ IH]; intros s' cs' r r' H' E; destruct H' as [|a' c' s' cs' H' T'].
  - injection E as ->. auto.
  - destruct (char_first _ _ H') as (x & t & -> & N). injection E as <- _. contradiction.
  - destruct (char_first _ _ H) as (x & t & -> & N). injection E as -> _. contradiction.
  - rewrite <- !app_assoc in E. destruct (char_prefix _ _ H _ _ _ _ H' E) as (-> & E2 & ->).
    destruct (IH _ _ _ _ T' E2) as (-> & -> & ->). auto.
Qed.
Lemma string_prefix s cs s' cs' r r' : string_text s cs -> string_text s' cs' -> s ++ r = s' ++ r' -> s = s' /\ r = r' /\ cs = cs'.
Proof.
  intros (b & -> & H) (b' & -> & H') E. rewrite <- !app_assoc in E. injection E as E.
  destruct (chars_prefix _ _ H _ _ _ _ H' E) as (-> & -> & ->). auto.
Qed.

(* ------------------------------------------------------------------ numbers *)

(** What can come after a value inside a text. *)
Definition follow (r : bytes) : Prop := match r with [] => True | c :: _ => is_blank c \/ c = 44 \/ c = 93 \/ c = 125 end.
Definition dig (c : Z) : Prop := 48 <= c <= 57.
Lemma follow_stops r : follow r -> stops dig r /\ stops (fun c => c = 46) r /\ stops (fun c => c = 101 \/ c = 69) r.
Proof.
  destruct r as [|c r]; cbn [follow stops]; [auto|]. unfold is_blank, dig. cbn [In].
  intros H. repeat split; lia.
Qed.

Lemma decimal_fun s n n' : decimal s n -> decimal s n' -> n = n'.
Proof. intros (_ & _ & ->) (_ & _ & ->). reflexivity. Qed.
Lemma decimal_dig s n : decimal s n -> s <> [] /\ Forall dig s.
Proof. intros (N & F & _). auto. Qed.
Lemma stops_app P b r : stops P b -> (b = [] -> stops P r) -> stops P (b ++ r).
Proof. destruct b; cbn; auto. Qed.

Lemma int_prefix s x s' x' r r' : int_text s x -> int_text s' x' -> stops dig r -> stops dig r' -> s ++ r = s' ++ r' -> s = s' /\ r = r' /\ x = x'.
Proof.
  intros H H' S S' E.
  assert (forall a b n k, decimal a n -> decimal b k -> a ++ r = b ++ r' -> a = b /\ r = r' /\ n = k) as D.
  { intros a b n k Ha Hb Q. destruct (run_unique dig a b r r' (proj2 (decimal_dig _ _ Ha)) (proj2 (decimal_dig _ _ Hb)) S S' Q) as [-> ->].
    rewrite (decimal_fun _ _ _ Ha Hb). auto. }
  assert (forall a n c t, decimal a n -> a ++ r = c :: t -> dig c) as HD.
  { intros a n c t Ha Q. destruct (decimal_dig _ _ Ha) as [N F]. destruct a; [congruence|]. injection Q as -> _. now inversion F. }
  destruct H as [H|[(t & -> & H)|(t & -> & H)]]; destruct H' as [H'|[(t' & -> & H')|(t' & -> & H')]].
  - eauto.
  - apply (HD _ _ 43 (t' ++ r') H) in E. unfold dig in E. lia.
  - apply (HD _ _ 45 (t' ++ r') H) in E. unfold dig in E. lia.
  - symmetry in E. destruct (decimal_dig _ _ H') as [N F]. destruct s'; [congruence|]. injection E as -> _. inversion F; unfold dig in *; lia.
  - injection E as E. destruct (D _ _ _ _ H H' E) as (-> & -> & ->). auto.
  - discriminate E.
  - symmetry in E. destruct (decimal_dig _ _ H') as [N F]. destruct s'; [congruence|]. injection E as -> _. inversion F; unfold dig in *; lia.
  - discriminate E.
  - injection E as E. destruct (D _ _ _ _ H H' E) as (-> & -> & Q). split; [reflexivity|]. split; [reflexivity|lia].
Qed.

Lemma number_prefix s m e s' m' e' r r' : number_text s m e -> number_text s' m' e' -> follow r -> follow r' ->
  s ++ r = s' ++ r' -> s = s' /\ r = r' /\ m = m' /\ e = e'.
Proof.
  intros (neg & ip & fp & fd & ep & x & n & -> & NI & LZ & HF & HE & HD & -> & ->)
    (neg' & ip' & fp' & fd' & ep' & x' & n' & -> & NI' & LZ' & HF' & HE' & HD' & -> & ->) S S' E.
  destruct (follow_stops _ S) as (S1 & S2 & S3). destruct (follow_stops _ S') as (S1' & S2' & S3').
  destruct (decimal_dig _ _ HD) as [_ DD]. destruct (decimal_dig _ _ HD') as [_ DD'].
  apply Forall_app in DD as [DI DF]. apply Forall_app in DD' as [DI' DF'].
  assert (neg = neg' /\ ip ++ fp ++ ep ++ r = ip' ++ fp' ++ ep' ++ r') as [<- E1].
  { rewrite <- !app_assoc in E. destruct ip as [|a ip]; [congruence|]. destruct ip' as [|a' ip']; [congruence|].
    inversion DI; inversion DI'; subst. unfold dig in *. destruct neg, neg'; cbn [app] in E.
    - split; [reflexivity|]. cbn [app]. injection E as Q1 Q2. now rewrite Q1, Q2.
    - injection E as Q1 _. lia.
    - injection E as Q1 _. lia.
    - split; [reflexivity|exact E]. }
  clear E.
  assert (stops dig (ep ++ r) /\ stops (fun c => c = 46) (ep ++ r)) as [P1 P2].
  { destruct HE as [[-> _]|(c & xd & C & -> & _)]; [auto|]. cbn. unfold dig. lia. }
  assert (stops dig (ep' ++ r') /\ stops (fun c => c = 46) (ep' ++ r')) as [P1' P2'].
  { destruct HE' as [[-> _]|(c & xd & C & -> & _)]; [auto|]. cbn. unfold dig. lia. }
  assert (stops dig (fp ++ ep ++ r)) as Q by (destruct HF as [[-> _]|[-> _]]; [exact P1|cbn; unfold dig; lia]).
  assert (stops dig (fp' ++ ep' ++ r')) as Q' by (destruct HF' as [[-> _]|[-> _]]; [exact P1'|cbn; unfold dig; lia]).
  destruct (run_unique dig _ _ _ _ DI DI' Q Q' E1) as [<- E2]. clear E1 Q Q'.
  assert (fp = fp' /\ fd = fd' /\ ep ++ r = ep' ++ r') as (<- & <- & E3).
  { destruct HF as [[-> ->]|[-> NF]]; destruct HF' as [[-> ->]|[-> NF']]; cbn [app] in E2.
    - auto.
    - rewrite E2 in P2. cbn in P2. congruence.
    - rewrite <- E2 in P2'. cbn in P2'. congruence.
    - injection E2 as E2. destruct (run_unique dig _ _ _ _ DF DF' P1 P1' E2) as [<- E3]. auto. }
  clear E2.
  assert (ep = ep' /\ r = r' /\ x = x') as (<- & <- & <-).
  { destruct HE as [[-> ->]|(c & xd & C & -> & HX)]; destruct HE' as [[-> ->]|(c' & xd' & C' & -> & HX')]; cbn [app] in E3.
    - auto.
    - rewrite E3 in S3. cbn in S3. contradiction.
    - rewrite <- E3 in S3'. cbn in S3'. contradiction.
    - injection E3 as -> E3. destruct (int_prefix _ _ _ _ _ _ HX HX' S1 S1' E3) as (-> & -> & ->). auto. }
  rewrite (decimal_fun _ _ _ HD HD'). auto.
Qed.

(* ------------------------------------------------------------------ values *)

Scheme json_mind := Induction for json Sort Prop
  with items_mind := Induction for items Sort Prop
  with members_mind := Induction for members Sort Prop
  with member_mind := Induction for member Sort Prop.
Combined Scheme json_all from json_mind, items_mind, members_mind, member_mind.

(** The first character tells the kind of value. *)
Definition kind (v : jv) (c : Z) : Prop :=
  match v with
  | JNull => c = 110 | JBool true => c = 116 | JBool false => c = 102
  | JNum _ _ => c = 45 \/ dig c | JStr _ => c = 34 | JArr _ => c = 91 | JObj _ => c = 123
  end.
Lemma json_first s v : json s v -> exists c t, s = c :: t /\ kind v c.
Proof.
  destruct 1 as [| | |s m e H|s cs H|w B|s l N I|w B|s l N I]; cbn [kind]; try (eexists _, _; split; reflexivity).
  - destruct H as (neg & ip & fp & fd & ep & x & n & -> & NI & _ & _ & _ & HD & _).
    destruct (decimal_dig _ _ HD) as [_ F]. apply Forall_app in F as [F _]. destruct ip as [|c ip]; [congruence|]. inversion F; subst.
    destruct neg; eexists _, _; (split; [reflexivity|auto]).
  - destruct H as (b & -> & _). eexists _, _. split; reflexivity.
Qed.
Lemma kind_stops v c : kind v c -> ~ is_blank c /\ c <> 93 /\ c <> 125 /\ c <> 44 /\ c <> 58.
Proof. unfold is_blank, dig. cbn [In]. destruct v as [|[]| | | |]; cbn [kind]; unfold dig; lia. Qed.
Lemma json_stops s v r : json s v -> stops is_blank (s ++ r).
Proof. intros H. destruct (json_first _ _ H) as (c & t & -> & K). apply kind_stops in K. cbn. tauto. Qed.

Lemma blank_follow w c r : blank_text w -> c = 44 \/ c = 93 \/ c = 125 -> follow (w ++ c :: r).
Proof. intros B C. destruct w as [|x w]; cbn; [auto|]. inversion B; subst. auto. Qed.

Lemma items_split s l : items s l -> exists w s1 w' v, blank_text w /\ json s1 v /\ blank_text w' /\
  ((s = w ++ s1 ++ w' /\ l = [v]) \/ exists r l', s = (w ++ s1 ++ w') ++ [44] ++ r /\ l = v :: l' /\ items r l').
Proof. destruct 1 as [w s w' v B J B'|w s w' v r l B J B' I]; exists w, s, w', v; repeat split; auto. right. exists r, l. auto. Qed.

Definition unique_json (s : bytes) (v : jv) : Prop := forall s' v' r r', json s' v' -> s ++ r = s' ++ r' -> follow r -> follow r' -> s = s' /\ r = r' /\ v = v'.
Definition unique_items (s : bytes) (l : list jv) : Prop := forall s' l' r r', items s' l' -> s ++ [93] ++ r = s' ++ [93] ++ r' -> s = s' /\ r = r' /\ l = l'.
Definition unique_members (s : bytes) (l : list (list Z * jv)) : Prop := forall s' l' r r', members s' l' -> s ++ [125] ++ r = s' ++ [125] ++ r' -> s = s' /\ r = r' /\ l = l'.
Definition ends (r : bytes) : Prop := match r with c :: _ => c = 44 \/ c = 125 | [] => False end.
Definition unique_member (k : list Z) (s : bytes) (v : jv) : Prop := forall k' s' v' r r', member k' s' v' -> s ++ r = s' ++ r' -> ends r -> ends r' -> s = s' /\ r = r' /\ k = k' /\ v = v'.

Lemma other_kind s s' v v' r r' : json s v -> json s' v' -> s ++ r = s' ++ r' -> exists c, kind v c /\ kind v' c.
Proof.
  intros H H' E. destruct (json_first _ _ H) as (c & t & -> & K). destruct (json_first _ _ H') as (c' & t' & -> & K').
  injection E as <- _. eauto.
Qed.

Lemma items_not_empty s l w r r' : items s l -> blank_text w -> s ++ r <> w ++ 93 :: r'.
Proof.
  intros H B E. destruct (items_split _ _ H) as (w0 & s1 & w' & v & B0 & J & _ & X).
  assert (exists y, s ++ r = w0 ++ s1 ++ y) as [y Y].
  { destruct X as [[-> _]|(q & l' & -> & _ & _)]; rewrite <- !app_assoc; eauto. }
  rewrite Y in E. destruct (run_unique is_blank w0 w (s1 ++ y) (93 :: r') B0 B (json_stops _ _ _ J)) as [_ Q]; [cbn; unfold is_blank; cbn [In]; lia|exact E|].
  destruct (json_first _ _ J) as (c & t & -> & K). apply kind_stops in K. injection Q as -> _. tauto.
Qed.
Lemma member_not_empty k s v w r r' : member k s v -> blank_text w -> s ++ r <> w ++ 125 :: r'.
Proof.
  intros H B E. destruct H as [w1 k ks w2 w3 s w4 v B1 K _ _ _ _]. rewrite <- !app_assoc in E. destruct K as (b & -> & _).
  rewrite <- !app_assoc in E.
  assert (forall c y, c = 34 \/ c = 125 -> stops is_blank (c :: y)) as SB by (cbn; unfold is_blank; cbn [In]; lia).
  destruct (run_unique is_blank w1 w _ (125 :: r') B1 B (SB 34 _ ltac:(auto)) (SB 125 _ ltac:(auto)) E) as [_ Q].
  discriminate Q.
Qed.
Lemma members_not_empty s l w r r' : members s l -> blank_text w -> s ++ r <> w ++ 125 :: r'.
Proof.
  intros H B E. destruct H as [k s v M|k s v t l M I].
  - exact (member_not_empty _ _ _ _ _ _ M B E).
  - rewrite <- app_assoc in E. exact (member_not_empty _ _ _ _ _ _ M B E).
Qed.
Lemma blank_stops c r : c = 44 \/ c = 93 \/ c = 125 \/ c = 58 \/ c = 34 -> stops is_blank (c :: r).
Proof. cbn. unfold is_blank. cbn [In]. lia. Qed.

Theorem all_unique :
  (forall s v, json s v -> unique_json s v) /\ (forall s l, items s l -> unique_items s l) /\
  (forall s l, members s l -> unique_members s l) /\ (forall k s v, member k s v -> unique_member k s v).
Proof.
  apply (json_all (fun s v _ => unique_json s v) (fun s l _ => unique_items s l) (fun s l _ => unique_members s l) (fun k s v _ => unique_member k s v)).
  - intros s' v' r r' H' E _ _. destruct (other_kind _ _ _ _ _ _ js_null H' E) as (c & K & K'). cbn in K. subst c.
    destruct v' as [|[]| | | |]; cbn in K'; unfold dig in K'; try lia. inversion H'; subst. apply app_inv_head in E. auto.
  - intros s' v' r r' H' E _ _. destruct (other_kind _ _ _ _ _ _ js_true H' E) as (c & K & K'). cbn in K. subst c.
    destruct v' as [|[]| | | |]; cbn in K'; unfold dig in K'; try lia. inversion H'; subst. apply app_inv_head in E. auto.
  - intros s' v' r r' H' E _ _. destruct (other_kind _ _ _ _ _ _ js_false H' E) as (c & K & K'). cbn in K. subst c.
    destruct v' as [|[]| | | |]; cbn in K'; unfold dig in K'; try lia. inversion H'; subst. apply app_inv_head in E. auto.
  - intros s m e N s' v' r r' H' E F F'. destruct (other_kind _ _ _ _ _ _ (js_num _ _ _ N) H' E) as (c & K & K').
    destruct v' as [|[]| | | |]; cbn in K, K'; unfold dig in K, K'; try lia. inversion H' as [| | |? ? ? N'| | | | |]; subst.
    destruct (number_prefix _ _ _ _ _ _ _ _ N N' F F' E) as (-> & -> & -> & ->). auto.
  - intros s cs N s' v' r r' H' E F F'. destruct (other_kind _ _ _ _ _ _ (js_str _ _ N) H' E) as (c & K & K').
    destruct v' as [|[]| | | |]; cbn in K, K'; unfold dig in K, K'; try lia. inversion H' as [| | | |? ? N'| | | |]; subst.
    destruct (string_prefix _ _ _ _ _ _ N N' E) as (-> & -> & ->). auto.
  - intros w B s' v' r r' H' E F F'. destruct (other_kind _ _ _ _ _ _ (js_arr0 _ B) H' E) as (c & K & K').
    destruct v' as [|[]| | | |]; cbn in K, K'; unfold dig in K, K'; try lia.
    inversion H' as [| | | | |w' B'|s1 l1 N I| |]; subst; rewrite <- !app_assoc in E; injection E as E.
    + destruct (run_unique is_blank _ _ _ _ B B' (blank_stops 93 r ltac:(auto)) (blank_stops 93 r' ltac:(auto)) E) as [-> Q]. injection Q as ->. auto.
    + symmetry in E. elim (items_not_empty _ _ _ _ _ I B E).
  - intros s l N I IH s' v' r r' H' E F F'. destruct (other_kind _ _ _ _ _ _ (js_arr _ _ N I) H' E) as (c & K & K').
    destruct v' as [|[]| | | |]; cbn in K, K'; unfold dig in K, K'; try lia.
    inversion H' as [| | | | |w' B'|s1 l1 N1 I1| |]; subst; rewrite <- !app_assoc in E; injection E as E.
    + elim (items_not_empty _ _ _ _ _ I B' E).
    + destruct (IH _ _ _ _ I1 E) as (-> & -> & ->). auto.
  - intros w B s' v' r r' H' E F F'. destruct (other_kind _ _ _ _ _ _ (js_obj0 _ B) H' E) as (c & K & K').
    destruct v' as [|[]| | | |]; cbn in K, K'; unfold dig in K, K'; try lia.
    inversion H' as [| | | | | | |w' B'|s1 l1 N I]; subst; rewrite <- !app_assoc in E; injection E as E.
    + destruct (run_unique is_blank _ _ _ _ B B' (blank_stops 125 r ltac:(auto)) (blank_stops 125 r' ltac:(auto)) E) as [-> Q]. injection Q as ->. auto.
    + symmetry in E. elim (members_not_empty _ _ _ _ _ I B E).
  - intros s l N I IH s' v' r r' H' E F F'. destruct (other_kind _ _ _ _ _ _ (js_obj _ _ N I) H' E) as (c & K & K').
    destruct v' as [|[]| | | |]; cbn in K, K'; unfold dig in K, K'; try lia.
    inversion H' as [| | | | | | |w' B'|s1 l1 N1 I1]; subst; rewrite <- !app_assoc in E; injection E as E.
    + elim (members_not_empty _ _ _ _ _ I B' E).
    + destruct (IH _ _ _ _ I1 E) as (-> & -> & ->). auto.
  - (* one item *)
    intros w s w' v B J IH B' s0 l0 r r' H' E. destruct (items_split _ _ H') as (w0 & s1 & w1 & v1 & B0 & J1 & B1 & X).
    rewrite <- !app_assoc in E.
    assert (exists c y, (c = 44 \/ c = 93) /\ s0 ++ [93] ++ r' = w0 ++ s1 ++ w1 ++ c :: y) as (c & y & C & Y).
    { destruct X as [[-> _]|(q & l' & -> & _ & _)]; rewrite <- !app_assoc; [exists 93, r'|eexists 44, _]; (split; [auto|reflexivity]). }
    rewrite Y in E.
    destruct (run_unique is_blank _ _ _ _ B B0 (json_stops _ _ _ J) (json_stops _ _ _ J1) E) as [-> E1].
    destruct (IH _ _ _ _ J1 E1) as (-> & E2 & ->); [apply blank_follow; auto|apply blank_follow; [auto|lia]|].
    destruct (run_unique is_blank _ _ _ _ B' B1 (blank_stops 93 r ltac:(auto)) (blank_stops c y ltac:(lia)) E2) as [-> E3].
    injection E3 as <- <-. destruct X as [[-> ->]|(q & l' & -> & -> & _)].
    + rewrite <- !app_assoc in Y. do 3 apply app_inv_head in Y. injection Y as ->. auto.
    + rewrite <- !app_assoc in Y. do 3 apply app_inv_head in Y. discriminate Y.
  - intros w s w' v q l B J IH B' I IHI s0 l0 r r' H' E. destruct (items_split _ _ H') as (w0 & s1 & w1 & v1 & B0 & J1 & B1 & X).
    rewrite <- !app_assoc in E.
    assert (exists c y, (c = 44 \/ c = 93) /\ s0 ++ [93] ++ r' = w0 ++ s1 ++ w1 ++ c :: y) as (c & y & C & Y).
    { destruct X as [[-> _]|(q' & l' & -> & _ & _)]; rewrite <- !app_assoc; [exists 93, r'|eexists 44, _]; (split; [auto|reflexivity]). }
    rewrite Y in E.
    destruct (run_unique is_blank _ _ _ _ B B0 (json_stops _ _ _ J) (json_stops _ _ _ J1) E) as [-> E1].
    destruct (IH _ _ _ _ J1 E1) as (-> & E2 & ->); [apply blank_follow; auto|apply blank_follow; [auto|lia]|].
    destruct (run_unique is_blank _ _ _ _ B' B1 (blank_stops 44 (q ++ [93] ++ r) ltac:(auto)) (blank_stops c y ltac:(lia)) E2) as [-> E3].
    injection E3 as <- <-. destruct X as [[-> ->]|(q' & l' & -> & -> & I')].
    + rewrite <- !app_assoc in Y. do 3 apply app_inv_head in Y. discriminate Y.
    + rewrite <- !app_assoc in Y. do 3 apply app_inv_head in Y. injection Y as Y. symmetry in Y.
      destruct (IHI _ _ _ _ I' Y) as (-> & -> & ->). auto.
  - intros k s v M IH s0 l0 r r' H' E. destruct H' as [k' s' v' M'|k' s' v' q' l' M' I'].
    + destruct (IH _ _ _ _ _ M' E) as (-> & Q & -> & ->); [cbn; auto|cbn; auto|]. injection Q as ->. auto.
    + rewrite <- !app_assoc in E. destruct (IH _ _ _ _ _ M' E) as (_ & Q & _); [cbn; auto|cbn; auto|]. discriminate Q.
  - intros k s v q l M IH I IHI s0 l0 r r' H' E. rewrite <- !app_assoc in E. destruct H' as [k' s' v' M'|k' s' v' q' l' M' I'].
    + destruct (IH _ _ _ _ _ M' E) as (_ & Q & _); [cbn; auto|cbn; auto|]. discriminate Q.
    + rewrite <- !app_assoc in E. destruct (IH _ _ _ _ _ M' E) as (-> & Q & -> & ->); [cbn; auto|cbn; auto|]. injection Q as Q.
      destruct (IHI _ _ _ _ I' Q) as (-> & -> & ->). auto.
  - intros w1 k ks w2 w3 s w4 v B1 K B2 B3 J IH B4 k' s' v' r r' H' E R R'.
    destruct H' as [w1' k' ks' w2' w3' s' w4' v' B1' K' B2' B3' J' B4']. rewrite <- !app_assoc in E.
    assert (forall c cs y, string_text c cs -> stops is_blank (c ++ y)) as SS.
    { intros c cs y (b & -> & _). apply (blank_stops 34 ((b ++ [34]) ++ y)). auto. }
    destruct (run_unique is_blank _ _ _ _ B1 B1' (SS _ _ _ K) (SS _ _ _ K') E) as [-> E1].
    destruct (string_prefix _ _ _ _ _ _ K K' E1) as (-> & E2 & ->).
    destruct (run_unique is_blank _ _ _ _ B2 B2' (blank_stops 58 _ ltac:(auto)) (blank_stops 58 _ ltac:(auto)) E2) as [-> E3]. injection E3 as E3.
    destruct (run_unique is_blank _ _ _ _ B3 B3' (json_stops _ _ _ J) (json_stops _ _ _ J') E3) as [-> E4].
    destruct r as [|c r]; [contradiction|]. destruct r' as [|c' r']; [contradiction|]. cbn in R, R'.
    destruct (IH _ _ _ _ J' E4) as (-> & E5 & ->); [apply blank_follow; [auto|lia]|apply blank_follow; [auto|lia]|].
    destruct (run_unique is_blank _ _ _ _ B4 B4' (blank_stops c _ ltac:(lia)) (blank_stops c' _ ltac:(lia)) E5) as [-> E6].
    rewrite E6. auto.
Qed.

(** A text has at most one meaning. *)
Theorem json_unique s v v' : json s v -> json s v' -> v = v'.
Proof.
  intros H H'. destruct all_unique as [U _]. destruct (U s v H s v' [] [] H' eq_refl I I) as (_ & _ & E). exact E.
Qed.
