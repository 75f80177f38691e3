(** ApiProps: the HTTP interface (C63-C66, C76). *)
From Coq Require Import ZifyBool.
From Coq Require Import Relations.
From Verif Require Import GoBase BufFacts Strconv StrconvFacts CanModel CanusbModel NmeaTypes PgnTable NmeaModel NmeaSpec NmeaProps1
  MainModel MainProps ApiModel ApiSpec.
Open Scope Z_scope.
Open Scope list_scope.

(* ------------------------------------------------------------ C63 *)

Lemma class_total size : exists k, class_of size k.
Proof.
  destruct (Z_le_dec size 8); [now exists SingleFrame|]. destruct (Z_le_dec size 223); [exists FastPacket; cbn; lia|].
  destruct (Z_le_dec size 1785); [exists MultiPacket; cbn; lia|exists TooLarge; cbn; lia].
Qed.
Lemma class_unique size k k' : class_of size k -> class_of size k' -> k = k'.
Proof. destruct k, k'; cbn; intros; try reflexivity; lia. Qed.

(** C63: the summary of entry i repeats the entry's data and names its size class; there is one
    for exactly the indices of the table. *)
Theorem C63_summary t i e : GetPGNSummary t i = Some e <->
  exists p k, zget t i = Some p /\ class_of (p_size p) k /\
    e = mkie (p_pgn p) (p_desc p) (p_cat p) (p_known p) (p_size p) (p_rep p) (class_name k) (str "/api/v1/messages/" ++ itoa i).
Proof.
  unfold GetPGNSummary. destruct (zget t i) as [p|].
  - assert (exists k, class_of (p_size p) k /\
      (if p_size p <=? 8 then "Single Frame"%string
        else if (8 <? p_size p) && (p_size p <=? 223) then "Fast Packet"%string
        else if (223 <? p_size p) && (p_size p <=? 1785) then "ISO 11783 Multi-Packet"%string
        else "Invalid"%string) = class_name k) as (k & C & E).
    { destruct (Z.leb_spec (p_size p) 8); [exists SingleFrame; cbn; auto|].
      destruct (Z.ltb_spec 8 (p_size p)); [|lia]. destruct (Z.leb_spec (p_size p) 223); [exists FastPacket; cbn; split; [lia|reflexivity]|].
      destruct (Z.ltb_spec 223 (p_size p)); [|lia]. destruct (Z.leb_spec (p_size p) 1785); [exists MultiPacket; cbn; split; [lia|reflexivity]|].
      exists TooLarge. cbn. split; [lia|reflexivity]. }
    rewrite E. split.
    + intros H. injection H as <-. exists p, k. auto.
    + intros (q & k' & H & C' & ->). injection H as <-. now rewrite (class_unique _ _ _ C C').
  - split; [discriminate|]. intros (p & k & H & _). discriminate H.
Qed.

(** A PGN whose entries are all on one side of 8 bytes is reassembled by the CANUSB receive path
    iff its summaries do not say Single Frame. *)
Theorem C63_agrees t i p e : zget t i = Some p -> GetPGNSummary t i = Some e ->
  (forall q, In q t -> p_pgn q = p_pgn p -> (8 < p_size q <-> 8 < p_size p)) ->
  exists b, isFastPacket (cs_fast (register_fast t can_init)) (p_pgn p) = Some b /\
    (b = true <-> ie_type e <> "Single Frame"%string).
Proof.
  intros HZ HS SAME. destruct (C01_startup t (p_pgn p)) as (b & E & B). exists b. split; [exact E|].
  apply C63_summary in HS as (p' & k & H & C & ->). rewrite HZ in H. injection H as <-. cbn [ie_type].
  rewrite B. assert (In p t) as IP.
  { unfold zget in HZ. destruct (i <? 0); [discriminate|]. now apply nth_error_In in HZ. }
  split.
  - intros (q & I & EQ & L). apply (SAME q I EQ) in L. destruct k; cbn in C |- *; [lia|discriminate|discriminate|discriminate].
  - intros N. exists p. split; [exact IP|]. split; [reflexivity|]. destruct k; cbn in C, N; [now destruct N|lia|lia|lia].
Qed.
(** In the shipped table this is every PGN except two. *)
Lemma both_sides_check :
  forallb (fun p => forallb (fun q => implb (p_pgn q =? p_pgn p)
     (Bool.eqb (8 <? p_size q) (8 <? p_size p) || (p_pgn p =? 130816) || (p_pgn p =? 130820))) PgnList) PgnList = true.
Proof. vm_compute. reflexivity. Qed.
Theorem C63_shipped pgn : (exists p q, In p PgnList /\ In q PgnList /\ p_pgn p = pgn /\ p_pgn q = pgn /\ p_size p <= 8 < p_size q) <->
  pgn = 130816 \/ pgn = 130820.
Proof.
  split.
  - intros (p & q & Ip & Iq & Ep & Eq & L). pose proof both_sides_check as K. rewrite forallb_forall in K.
    specialize (K p Ip). rewrite forallb_forall in K. specialize (K q Iq).
    rewrite Ep, Eq, Z.eqb_refl in K. cbn [implb] in K.
    destruct (Z.ltb_spec 8 (p_size q)), (Z.ltb_spec 8 (p_size p)); cbn in K; lia.
  - assert (forall x, existsb (fun p => (p_pgn p =? x) && (p_size p <=? 8)) PgnList && existsb (fun p => (p_pgn p =? x) && (8 <? p_size p)) PgnList = true ->
      exists p q, In p PgnList /\ In q PgnList /\ p_pgn p = x /\ p_pgn q = x /\ p_size p <= 8 < p_size q) as K.
    { intros x H. apply andb_true_iff in H as [H1 H2]. apply existsb_exists in H1 as (p & Ip & H1). apply existsb_exists in H2 as (q & Iq & H2).
      exists p, q. repeat split; try assumption; lia. }
    intros [->| ->]; apply K; vm_compute; reflexivity.
Qed.
Example C63_example : exists e, GetPGNSummary PgnList 3 = Some e /\ ie_pgn e = 60928 /\ ie_type e = "Single Frame"%string /\
  ie_details e = str "/api/v1/messages/3".
Proof. eexists. vm_compute. auto. Qed.

(* ------------------------------------------------------------ C64: comparison of texts *)

Lemma lower_or c d : lower c = lower d -> c = d \/ (65 <= c <= 90 /\ d = c + 32) \/ (65 <= d <= 90 /\ c = d + 32).
Proof. unfold lower. destruct ((65 <=? c) && (c <=? 90)) eqn:E1, ((65 <=? d) && (d <=? 90)) eqn:E2; lia. Qed.

Ltac zb := repeat match goal with
  | |- context [Z.eqb ?a ?b] => destruct (Z.eqb_spec a b); try lia
  | |- context [Z.ltb ?a ?b] => destruct (Z.ltb_spec a b); try lia
  | |- context [Z.leb ?a ?b] => destruct (Z.leb_spec a b); try lia
  end; cbn [andb negb] in *.

Definition runes (l : list Z) : list (Z * Z) := flat_map (fun a => map (fun b => (a, b)) (map Z.of_nat (seq 0 128))) l.
Lemma ascii_in d : 0 <= d < 128 -> In d (map Z.of_nat (seq 0 128)).
Proof. intros H. apply in_map_iff. exists (Z.to_nat d). split; [lia|]. apply in_seq. lia. Qed.
Definition match_spec (c d : Z) : bool :=
  (lower c =? lower d) || ((c =? 8490) && (lower d =? 107)) || ((c =? 383) && (lower d =? 115)).
Lemma runes_check :
  forallb (fun cd => Bool.eqb (runes_fold (fst cd) (snd cd)) (match_spec (fst cd) (snd cd)))
    (runes (map Z.of_nat (seq 0 128) ++ [8490; 383; 65533])) = true.
Proof. vm_compute. reflexivity. Qed.
Lemma runes_fold_spec c d : (0 <= c < 128 \/ In c [8490; 383; 65533]) -> 0 <= d < 128 -> runes_fold c d = match_spec c d.
Proof.
  intros Hc Hd. pose proof runes_check as K. rewrite forallb_forall in K. specialize (K (c, d)).
  apply eqb_prop. apply K. unfold runes. apply in_flat_map. exists c. split.
  - apply in_or_app. destruct Hc as [Hc|Hc]; [left; now apply ascii_in|now right].
  - apply in_map_iff. exists d. split; [reflexivity|now apply ascii_in].
Qed.

(** What the first rune of a text can be. *)
Inductive first_rune : bytes -> Z -> bytes -> Prop :=
| fr_ascii c r : 0 <= c < 128 -> first_rune (c :: r) c r
| fr_kelvin r : first_rune (226 :: 132 :: 170 :: r) 8490 r
| fr_long_s r : first_rune (197 :: 191 :: r) 383 r
| fr_other c r : 128 <= c -> (forall x, c :: r <> 226 :: 132 :: 170 :: x) -> (forall x, c :: r <> 197 :: 191 :: x) ->
    first_rune (c :: r) 65533 r.
Lemma next_rune_first s : bytes_ok s -> s <> [] -> exists r rest, next_rune s = Some (r, rest) /\ first_rune s r rest.
Proof.
  intros OK N. destruct s as [|c s]; [now destruct N|]. inversion OK as [|? ? B _]; subst. unfold is_byte in B.
  destruct (Z.eq_dec c 197) as [->|N1].
  - destruct s as [|c2 s]; [exists 65533, []; split; [reflexivity|constructor; [lia|intros; discriminate|intros; discriminate]]|].
    destruct (Z.eq_dec c2 191) as [->|N2]; [exists 383, s; split; [reflexivity|constructor]|].
    exists 65533, (c2 :: s). split; [|constructor; [lia|intros; discriminate|intros x X; congruence]].
    unfold next_rune. destruct c2 as [|p|p]; try reflexivity. do 8 (destruct p as [p|p|]; try reflexivity). now destruct N2.
  - destruct (Z.eq_dec c 226) as [->|N3].
    + destruct s as [|c2 s]; [exists 65533, []; split; [reflexivity|constructor; [lia|intros; discriminate|intros; discriminate]]|].
      destruct (Z.eq_dec c2 132) as [->|N4].
      * destruct s as [|c3 s]; [exists 65533, [132]; split; [reflexivity|constructor; [lia|intros; discriminate|intros; discriminate]]|].
        destruct (Z.eq_dec c3 170) as [->|N5]; [exists 8490, s; split; [reflexivity|constructor]|].
        exists 65533, (132 :: c3 :: s). split; [|constructor; [lia|intros x X; congruence|intros; discriminate]].
        unfold next_rune. destruct c3 as [|p|p]; try reflexivity. do 8 (destruct p as [p|p|]; try reflexivity). now destruct N5.
      * exists 65533, (c2 :: s). split; [|constructor; [lia|intros x X; congruence|intros; discriminate]].
        unfold next_rune. destruct c2 as [|p|p]; try reflexivity. do 8 (destruct p as [p|p|]; try reflexivity). now destruct N4.
    + assert (next_rune (c :: s) = Some (if c <? 128 then c else 65533, s)) as ->.
      { unfold next_rune. destruct c as [|p|p]; try reflexivity. do 8 (destruct p as [p|p|]; try reflexivity);
          first [now destruct N1|now destruct N3|idtac]. }
      destruct (Z.ltb_spec c 128); eexists; eexists; (split; [reflexivity|]).
      * constructor. lia.
      * constructor; [lia|intros x X; congruence|intros x X; congruence].
Qed.
Lemma first_rune_fun s r r' rest rest' : first_rune s r rest -> first_rune s r' rest' -> r = r' /\ rest = rest'.
Proof. intros A B. inversion A; subst; inversion B; subst; auto; try lia; exfalso; congruence. Qed.
Lemma first_rune_ok s r rest : first_rune s r rest -> bytes_ok s -> bytes_ok rest.
Proof. intros A OK. inversion A; subst; repeat match goal with H : bytes_ok (_ :: _) |- _ => inversion H; subst; clear H | H : Forall is_byte (_ :: _) |- _ => inversion H; subst; clear H end; assumption. Qed.

Lemma reads_step s r rest d t : first_rune s r rest -> 0 <= d < 128 ->
  reads_as s (d :: t) <-> match_spec r d = true /\ reads_as rest t.
Proof.
  intros FR Hd. unfold match_spec.
  assert (0 <= lower d < 128) as LD by (unfold lower; destruct ((65 <=? d) && (d <=? 90)) eqn:E; lia).
  split.
  - intros R. inversion R as [|c d0 s0 t0 Hc L R0|d0 s0 t0 L R0|d0 s0 t0 L R0]; subst.
    + inversion FR; subst; try lia. rewrite (proj2 (Z.eqb_eq _ _) L). auto.
    + inversion FR; subst; try lia; [|exfalso; match goal with X : forall x, _ <> 226 :: 132 :: 170 :: x |- _ => exact (X _ eq_refl) end].
      rewrite (proj2 (Z.eqb_eq _ _) L). cbn. rewrite orb_true_r. auto.
    + inversion FR; subst; try lia; [|exfalso; match goal with X : forall x, _ <> 197 :: 191 :: x |- _ => exact (X _ eq_refl) end].
      rewrite (proj2 (Z.eqb_eq _ _) L). cbn. rewrite orb_true_r. auto.
  - intros [M R]. inversion FR; subst.
    + constructor; [assumption| |assumption]. apply orb_true_iff in M as [M|M]; [apply orb_true_iff in M as [M|M]|]; lia.
    + apply ra_kelvin; [|assumption]. change (lower 8490) with 8490 in M. lia.
    + apply ra_long_s; [|assumption]. change (lower 383) with 383 in M. lia.
    + exfalso. change (lower 65533) with 65533 in M. lia.
Qed.

(** strings.EqualFold against an ASCII text is "reads as". *)
Theorem C64_case s t : bytes_ok s -> ascii_text t -> (EqualFold s t = true <-> reads_as s t).
Proof.
  intros OK A. unfold EqualFold. revert s OK. induction A as [|d t Hd A IH]; intros s OK.
  - cbn [List.length equal_fold_loop]. destruct s as [|c s].
    + cbn. split; [constructor|reflexivity].
    + destruct (next_rune_first (c :: s) OK) as (r & rest & E & FR); [discriminate|]. rewrite E. cbn [next_rune].
      split; [discriminate|]. intros R. inversion R.
  - assert (next_rune (d :: t) = Some (d, t)) as ED.
    { destruct (next_rune_first (d :: t)) as (r' & rest' & E' & FR').
      - constructor; [unfold is_byte; lia|]. clear - A. induction A; constructor; [unfold is_byte; lia|assumption].
      - discriminate.
      - rewrite E'. inversion FR'; subst; try lia. reflexivity. }
    cbn [List.length]. remember (S (List.length t)) as n. cbn [equal_fold_loop]. rewrite ED.
    destruct s as [|c s].
    + cbn. split; [discriminate|intros R; inversion R].
    + destruct (next_rune_first (c :: s) OK) as (r & rest & E & FR); [discriminate|]. rewrite E.
      rewrite (reads_step _ _ _ _ _ FR Hd).
      rewrite <- (IH rest (first_rune_ok _ _ _ FR OK)).
      rewrite runes_fold_spec; [|inversion FR; subst; cbn; auto; lia|exact Hd].
      destruct (match_spec r d); [intuition|]. split; [discriminate|]. intros [X _]; discriminate X.
Qed.
(** For a query in ASCII this is equality of the lower case forms. *)
Theorem C64_ascii s t : ascii_text s -> ascii_text t -> (reads_as s t <-> map lower s = map lower t).
Proof.
  intros As At. split.
  - induction 1 as [|c d s t Hc L R IH|d s t L R IH|d s t L R IH]; [reflexivity| | |].
    + inversion As; inversion At; subst. cbn [map]. rewrite L. f_equal. now apply IH.
    + inversion As; subst. lia.
    + inversion As; subst. lia.
  - revert t At. induction As as [|c s Hc As IH]; intros [|d t] At E; try discriminate E; [constructor|].
    inversion At; subst. cbn [map] in E. injection E as E1 E2. constructor; auto.
Qed.
Example C64_case_examples : EqualFold (str "STEERING") (str "Steering") = true /\
  EqualFold ([197; 191] ++ str "teering") (str "Steering") = true /\ EqualFold (str "Steerin") (str "Steering") = false.
Proof. vm_compute. auto. Qed.

(* ------------------------------------------------------------ C64: the index *)

(** Entry p is wanted by a query. *)
Definition wanted (category typ : bytes) (p : pgn_def) : Prop :=
  (category = [] \/ reads_as category (str (p_cat p))) /\
  (typ = [] \/ exists k, class_of (p_size p) k /\ typ = class_letter k).

Lemma index_from_spec t category typ : bytes_ok category -> (forall p, In p t -> ascii_text (str (p_cat p))) ->
  forall rest before i, t = before ++ rest -> i = zlen before ->
  exists l, index_from t rest i category typ = l /\
  exists keep, Forall2 (fun k p => k = true <-> wanted category typ p) keep rest /\
    map Some l = flat_map (fun x : bool * Z => if fst x then [GetPGNSummary t (snd x)] else []) (combine keep (map (fun n => i + Z.of_nat n) (seq 0 (List.length rest)))).
Proof.
  intros OK AT. induction rest as [|p rest IH]; intros before i E Ei.
  - exists []. split; [reflexivity|]. exists []. split; [constructor|reflexivity].
  - destruct (IH (before ++ [p]) (i + 1)) as (l & L & keep & F2 & EL).
    { rewrite <- app_assoc. exact E. } { rewrite zlen_app. change (zlen [p]) with 1. lia. }
    cbn [index_from]. rewrite L.
    assert (In p t) as IP by (rewrite E; apply in_or_app; right; now left).
    assert (zget t i = Some p) as HZ.
    { subst. unfold zget. pose proof (zlen_nonneg before). destruct (Z.ltb_spec (zlen before) 0); [lia|]. unfold zlen. rewrite Nat2Z.id.
      rewrite nth_error_app2 by lia. now rewrite Nat.sub_diag. }
    assert (map (fun n => i + 1 + Z.of_nat n) (seq 0 (List.length rest)) = map (fun n => i + Z.of_nat n) (seq 1 (List.length rest))) as EM.
    { rewrite <- seq_shift, map_map. apply map_ext. intros n. lia. }
    rewrite EM in EL.
    assert (GetPGNSummary t i <> None) as NN by (unfold GetPGNSummary; rewrite HZ; discriminate).
    destruct (GetPGNSummary t i) as [e|] eqn:S; [|now destruct NN]. clear NN.
    assert (ie_size e = p_size p) as SZ.
    { apply C63_summary in S as (p' & k & H & _ & ->). rewrite HZ in H. now injection H as <-. }
    assert (negb (bytes_eqb category []) && negb (EqualFold category (str (p_cat p))) = true <->
            ~ (category = [] \/ reads_as category (str (p_cat p)))) as CAT.
    { rewrite <- (C64_case _ _ OK (AT p IP)), <- bytes_eqb_eq. destruct (bytes_eqb category []), (EqualFold category _); cbn; intuition congruence. }
    assert (exists keep1, (keep1 = true <-> wanted category typ p) /\
      (if negb (bytes_eqb category []) && negb (EqualFold category (str (p_cat p))) then l
       else if negb (bytes_eqb typ [])
         then if bytes_eqb typ (str "s") && (ie_size e <=? 8) then e :: l
              else if bytes_eqb typ (str "f") && (8 <? ie_size e) && (ie_size e <=? 223) then e :: l
              else if bytes_eqb typ (str "i") && (223 <? ie_size e) && (ie_size e <=? 1785) then e :: l
              else if bytes_eqb typ (str "o") && (1785 <? ie_size e) then e :: l else l
         else e :: l) = if keep1 then e :: l else l) as (keep1 & K1 & KE).
    { unfold wanted. rewrite SZ.
      destruct (negb (bytes_eqb category []) && negb (EqualFold category (str (p_cat p)))).
      { exists false. split; [|reflexivity]. split; [discriminate|]. intros [C _]. now destruct (proj1 CAT eq_refl). }
      assert (category = [] \/ reads_as category (str (p_cat p))) as C.
      { destruct (bytes_eqb category []) eqn:E0; [left; now apply bytes_eqb_eq|].
        destruct (EqualFold category (str (p_cat p))) eqn:E2; [right; now apply (C64_case _ _ OK (AT p IP))|].
        exfalso. assert (false = true) as X; [|discriminate X]. apply CAT. intros [X|X].
        - rewrite X in E0. discriminate E0.
        - apply (C64_case _ _ OK (AT p IP)) in X. congruence. }
      clear CAT. destruct (bytes_eqb typ []) eqn:ET; cbn [negb].
      { exists true. split; [|reflexivity]. apply bytes_eqb_eq in ET. tauto. }
      assert (typ <> []) as NT by (intros X; rewrite X in ET; discriminate ET).
      assert (forall k, class_of (p_size p) k -> typ = class_letter k -> exists keep1 : bool, (keep1 = true <->
         (category = [] \/ reads_as category (str (p_cat p))) /\ (typ = [] \/ (exists k0, class_of (p_size p) k0 /\ typ = class_letter k0))) /\ e :: l = (if keep1 then e :: l else l)) as YES.
      { intros k Ck Tk. exists true. split; [|reflexivity]. split; [|reflexivity]. intros _. split; [exact C|]. right. eauto. }
      destruct (bytes_eqb typ (str "s") && (p_size p <=? 8)) eqn:E1.
      { apply andb_true_iff in E1 as [E1 E1']. apply bytes_eqb_eq in E1. apply (YES SingleFrame); [cbn; lia|exact E1]. }
      destruct (bytes_eqb typ (str "f") && (8 <? p_size p) && (p_size p <=? 223)) eqn:E2.
      { apply andb_true_iff in E2 as [E2 E2']. apply andb_true_iff in E2 as [E2 E2'']. apply bytes_eqb_eq in E2. apply (YES FastPacket); [cbn; lia|exact E2]. }
      destruct (bytes_eqb typ (str "i") && (223 <? p_size p) && (p_size p <=? 1785)) eqn:E3.
      { apply andb_true_iff in E3 as [E3 E3']. apply andb_true_iff in E3 as [E3 E3'']. apply bytes_eqb_eq in E3. apply (YES MultiPacket); [cbn; lia|exact E3]. }
      destruct (bytes_eqb typ (str "o") && (1785 <? p_size p)) eqn:E4.
      { apply andb_true_iff in E4 as [E4 E4']. apply bytes_eqb_eq in E4. apply (YES TooLarge); [cbn; lia|exact E4]. }
      exists false. split; [|reflexivity]. split; [discriminate|]. intros [_ [X|(k & Ck & Tk)]]; [contradiction|].
      subst typ. destruct k; cbn in Ck; [change (bytes_eqb (class_letter SingleFrame) (str "s")) with true in E1
        |change (bytes_eqb (class_letter FastPacket) (str "f")) with true in E2
        |change (bytes_eqb (class_letter MultiPacket) (str "i")) with true in E3
        |change (bytes_eqb (class_letter TooLarge) (str "o")) with true in E4]; lia. }
    eexists. split; [reflexivity|]. rewrite KE. exists (keep1 :: keep). split; [constructor; assumption|].
    cbn [List.length seq map combine flat_map fst snd]. rewrite Z.add_0_r, S, <- EL. destruct keep1; reflexivity.
Qed.

(** C64: the index lists the summaries of exactly the wanted entries, in table order: the list
    of summaries of all indices with the unwanted left out. *)
Theorem C64_index t category typ : bytes_ok category -> (forall p, In p t -> ascii_text (str (p_cat p))) ->
  exists keep, Forall2 (fun k p => k = true <-> wanted category typ p) keep t /\
    map Some (MessagesIndex t category typ) =
      flat_map (fun x : bool * Z => if fst x then [GetPGNSummary t (snd x)] else []) (combine keep (map Z.of_nat (seq 0 (List.length t)))).
Proof.
  intros OK AT. destruct (index_from_spec t category typ OK AT t [] 0 eq_refl eq_refl) as (l & L & keep & F & E).
  exists keep. split; [exact F|]. unfold MessagesIndex. rewrite L, E. reflexivity.
Qed.
(** The categories of the shipped table are ASCII. *)
Theorem C64_shipped : forall p, In p PgnList -> ascii_text (str (p_cat p)).
Proof.
  assert (forallb (fun p => forallb (fun c => (0 <=? c) && (c <? 128)) (str (p_cat p))) PgnList = true) as K by (vm_compute; reflexivity).
  rewrite forallb_forall in K. intros p I. specialize (K p I). rewrite forallb_forall in K.
  apply Forall_forall. intros c Ic. specialize (K c Ic). lia.
Qed.
(** The four letters partition the table; any other letter lists nothing. *)
Theorem C64_partition category p : (category = [] \/ reads_as category (str (p_cat p))) ->
  exists k, wanted category (class_letter k) p /\ forall k', wanted category (class_letter k') p -> k' = k.
Proof.
  intros C. destruct (class_total (p_size p)) as (k & K). exists k. split.
  - split; [exact C|]. right. eauto.
  - intros k' [_ [X|(k2 & K2 & E)]]; [destruct k'; discriminate X|].
    rewrite (class_unique _ _ _ K K2). destruct k', k2; try reflexivity; vm_compute in E; discriminate E.
Qed.
Theorem C64_other_letter t category typ : bytes_ok category -> (forall p, In p t -> ascii_text (str (p_cat p))) ->
  typ <> [] -> (forall k, typ <> class_letter k) -> MessagesIndex t category typ = [].
Proof.
  intros OK AT N1 N2. destruct (C64_index t category typ OK AT) as (keep & F & E).
  assert (Forall (fun k => k = false) keep) as FF.
  { clear E. induction F as [|k p keep t' K F IH]; constructor; [|apply IH; intros q I; apply AT; now right].
    destruct k; [|reflexivity]. destruct (proj1 K eq_refl) as [_ [X|(c & _ & X)]]; [contradiction|now apply N2 in X]. }
  assert (forall l, flat_map (fun x : bool * Z => if fst x then [GetPGNSummary t (snd x)] else []) (combine keep l) = []) as Z0.
  { clear E F. induction FF as [|k keep -> FF IH]; intros [|x l]; try reflexivity. cbn. apply IH. }
  rewrite Z0 in E. now destruct (MessagesIndex t category typ).
Qed.
Example C64_example : map ie_pgn (MessagesIndex PgnList (str "mandatory") (str "i")) = [] /\
  List.length (MessagesIndex PgnList [] []) = List.length PgnList /\ MessagesIndex PgnList (str "STEERING") (str "f") <> MessagesIndex PgnList [] (str "f").
Proof. split; [vm_compute; reflexivity|]. split; [vm_compute; reflexivity|]. vm_compute. discriminate. Qed.

(* ------------------------------------------------------------ C65: the number of a key *)

Definition dv (s : bytes) (n : Z) : Z := pos_value 10 (map (fun c => c - 48) s) n.
Lemma dv_cons c s n : dv (c :: s) n = dv s (n * 10 + (c - 48)).
Proof. reflexivity. Qed.
Lemma dv_ge s n : 0 <= n -> Forall dec_char s -> n <= dv s n.
Proof.
  intros H F. revert n H. induction F as [|c s Hc F IH]; intros n H; [cbn; unfold dv; cbn; lia|].
  rewrite dv_cons. unfold dec_char in Hc. specialize (IH (n * 10 + (c - 48))). lia.
Qed.
Lemma dv_app p q n : dv (p ++ q) n = dv q (dv p n).
Proof. unfold dv. now rewrite map_app, pos_value_app. Qed.
Lemma not_dec c : ~ dec_char c -> match digit_val c with Some d => 10 <= d | None => True end.
Proof.
  unfold dec_char, digit_val. intros H. destruct ((48 <=? c) && (c <=? 57)) eqn:E1; [lia|].
  destruct ((97 <=? c) && (c <=? 122)) eqn:E2; [lia|]. destruct ((65 <=? c) && (c <=? 90)) eqn:E3; [lia|exact I].
Qed.
Lemma dec_char_dec c : {dec_char c} + {~ dec_char c}.
Proof. unfold dec_char. destruct (Z_le_dec 48 c), (Z_le_dec c 57); [left|right|right|right]; lia. Qed.
Lemma pu_loop_cases maxv s : forall n, 0 <= n <= maxv ->
  match pu_loop 10 maxv s n with
  | PUok v => Forall dec_char s /\ v = dv s n /\ v <= maxv
  | PUrange m => m = maxv /\ exists p q, s = p ++ q /\ Forall dec_char p /\ maxv < dv p n
  | PUsyntax => ~ Forall dec_char s /\ forall p q, s = p ++ q -> Forall dec_char p -> dv p n <= maxv
  end.
Proof.
  induction s as [|c s IH]; intros n Hn; cbn [pu_loop].
  - split; [constructor|]. split; [reflexivity|lia].
  - destruct (dec_char_dec c) as [D|D].
    + destruct (dec_char_digit c D) as [-> R]. destruct (Z.leb_spec 10 (c - 48)); [lia|].
      destruct (Z.ltb_spec maxv (n * 10 + (c - 48))) as [L|L].
      * split; [reflexivity|]. exists [c], s. split; [reflexivity|]. split; [constructor; [exact D|constructor]|]. exact L.
      * specialize (IH (n * 10 + (c - 48))). destruct (pu_loop 10 maxv s (n * 10 + (c - 48))).
        -- destruct IH as (F & V & B); [lia|]. split; [constructor; assumption|]. split; [exact V|exact B].
        -- destruct IH as (F & V); [lia|]. split; [intros X; inversion X; contradiction|].
           intros [|x p] q E Fp; [cbn; unfold dv; cbn; lia|]. injection E as <- E. inversion Fp; subst. rewrite dv_cons. eauto.
        -- destruct IH as (M & p & q & E & F & V); [lia|]. split; [exact M|]. exists (c :: p), q. subst s. split; [reflexivity|]. split; [constructor; assumption|]. exact V.
    + pose proof (not_dec c D) as ND.
      assert (~ Forall dec_char (c :: s) /\ (forall p q, c :: s = p ++ q -> Forall dec_char p -> dv p n <= maxv)) as X.
      { split; [intros X; inversion X; contradiction|]. intros [|x p] q E Fp; [cbn; unfold dv; cbn; lia|]. injection E as <- E. inversion Fp; subst. contradiction. }
      destruct (digit_val c) as [d|]; [|exact X]. destruct (Z.leb_spec 10 d); [exact X|lia].
Qed.

(** A text without its sign. *)
Definition unsigned (s : bytes) : bool * bytes :=
  match s with [] => (false, []) | c :: r => (c =? 45, if (c =? 43) || (c =? 45) then r else s) end.
Lemma decimal_prefix s p q n : s = p ++ q -> (decimal p n <-> exists ds, ds <> [] /\ Forall dec_char ds /\ snd (unsigned s) = ds ++ q /\
  p = firstn (List.length s - List.length q) s /\ n = if fst (unsigned s) then - dec_value ds else dec_value ds).
Proof.
  intros ->. split.
  - intros (sign & ds & N & F & E & H). exists ds. split; [exact N|]. split; [exact F|].
    rewrite app_length, Nat.add_sub, firstn_app, Nat.sub_diag, firstn_all. cbn [firstn]. rewrite app_nil_r.
    destruct ds as [|d ds]; [now destruct N|]. inversion F as [|? ? Hd F']; subst d l. unfold dec_char in Hd.
    destruct H as [[-> ->]|[[-> ->]|[-> ->]]]; subst p; cbn [app unsigned fst snd str].
    + replace (x =? 45) with false by lia. replace (x =? 43) with false by lia. auto.
    + cbn. auto.
    + cbn. auto.
  - intros (ds & N & F & U & P & ->). rewrite app_length, Nat.add_sub, firstn_app, Nat.sub_diag, firstn_all in P. clear P.
    destruct (p ++ q) as [|c r] eqn:E; [cbn in U; now destruct ds|].
    cbn [unsigned fst snd] in *. destruct ((c =? 43) || (c =? 45)) eqn:S.
    + subst r. replace (c :: ds ++ q) with ((c :: ds) ++ q) in E by reflexivity. apply app_inv_tail in E. subst p.
      exists [c], ds. split; [exact N|]. split; [exact F|]. split; [reflexivity|].
      destruct (Z.eqb_spec c 45); [right; right|right; left]; (split; [|reflexivity]); [now subst|]. replace c with 43 by lia. reflexivity.
    + assert (p = ds) as -> by (apply (app_inv_tail q); congruence).
      exists [], ds. split; [exact N|]. split; [exact F|]. split; [reflexivity|]. left. split; [reflexivity|].
      now replace (c =? 45) with false by lia.
Qed.
Lemma decimal_whole s n : decimal s n <-> exists ds, ds <> [] /\ Forall dec_char ds /\ snd (unsigned s) = ds /\
  n = if fst (unsigned s) then - dec_value ds else dec_value ds.
Proof.
  rewrite (decimal_prefix s s [] n) by (now rewrite app_nil_r). split; intros (ds & N & F & U & H).
  - exists ds. rewrite app_nil_r in U. tauto.
  - exists ds. rewrite app_nil_r. repeat split; try assumption. cbn [List.length]. now rewrite Nat.sub_0_r, firstn_all.
Qed.
Definition big_prefix (s : bytes) (n : Z) : Prop := exists p q, s = p ++ q /\ decimal p n /\ 2 ^ 32 <= Z.abs n.
Lemma big_prefix_iff s n : big_prefix s n <-> exists ds q, ds <> [] /\ Forall dec_char ds /\ snd (unsigned s) = ds ++ q /\
  2 ^ 32 <= dec_value ds /\ n = if fst (unsigned s) then - dec_value ds else dec_value ds.
Proof.
  split.
  - intros (p & q & E & D & B). apply (decimal_prefix s p q n E) in D as (ds & N & F & U & _ & ->). exists ds, q.
    assert (0 <= dec_value ds) by (change (0 <= dv ds 0); apply dv_ge; [lia|assumption]).
    repeat split; try assumption. destruct (fst (unsigned s)); lia.
  - intros (ds & q & N & F & U & B & E).
    assert (exists p, s = p ++ q) as (p & Ep).
    { destruct s as [|c r]; [cbn in U; now destruct ds|]. cbn [unsigned snd] in U. destruct ((c =? 43) || (c =? 45)).
      - exists (c :: ds). now subst r.
      - exists ds. exact U. }
    exists p, q. split; [exact Ep|]. split.
    + apply (decimal_prefix s p q n Ep). exists ds. repeat split; try assumption.
      rewrite Ep, app_length, Nat.add_sub, firstn_app, Nat.sub_diag, firstn_all. cbn. now rewrite app_nil_r.
    + destruct (fst (unsigned s)); lia.
Qed.
Lemma key_number_unique s v w : key_number s v -> key_number s w -> v = w.
Proof.
  assert (forall n m, decimal s n -> decimal s m -> n = m) as FU.
  { intros n m A B. apply decimal_whole in A as (ds & _ & _ & U & ->). apply decimal_whole in B as (ds' & _ & _ & U' & ->). now rewrite <- U, <- U'. }
  assert (forall n m, big_prefix s n -> big_prefix s m -> clamp32 n = clamp32 m) as FB.
  { intros n m A B. apply big_prefix_iff in A as (ds & q & _ & _ & _ & L & ->). apply big_prefix_iff in B as (ds' & q' & _ & _ & _ & L' & ->).
    unfold clamp32. destruct (fst (unsigned s)); lia. }
  intros [(n & D & ->)|(ND & H)] [(m & D' & ->)|(ND' & H')].
  - f_equal. now apply FU.
  - destruct ND'. eauto.
  - destruct ND. eauto.
  - destruct H as [(p & q & n & A & B & C & ->)|(NB & ->)], H' as [(p' & q' & n' & A' & B' & C' & ->)|(NB' & ->)].
    + apply FB; unfold big_prefix; eauto 6.
    + destruct NB'. eauto 8.
    + destruct NB. eauto 8.
    + reflexivity.
Qed.
Lemma piv_unsigned s : parse_int_value 32 s =
  match parse_uint 10 32 (snd (unsigned s)) with
  | PUsyntax => 0
  | PUok un | PUrange un => if fst (unsigned s) then Z.max (- 2 ^ 31) (- un) else Z.min un (2 ^ 31 - 1)
  end.
Proof.
  destruct s as [|c r]; [reflexivity|]. unfold parse_int_value, parse_int_raw. cbn [unsigned fst snd].
  cbv zeta. change (32 - 1) with 31. destruct (parse_uint 10 32 _) as [un| |un]; [|reflexivity|]; destruct (c =? 45); cbn [negb andb];
  repeat match goal with |- context [Z.leb ?a ?b] => destruct (Z.leb_spec a b) | |- context [Z.ltb ?a ?b] => destruct (Z.ltb_spec a b) end; cbn [fst]; lia.
Qed.
Lemma key_number_parse s : key_number s (parse_int_value 32 s).
Proof.
  rewrite piv_unsigned. unfold parse_uint.
  assert (snd (unsigned s) = [] -> key_number s 0) as Z0.
  { intros U. right. split.
    - intros (n & D). apply decimal_whole in D as (ds & N & _ & U' & _). congruence.
    - right. split; [|reflexivity]. intros (p & q & n & A & B & C). assert (big_prefix s n) as BP by (unfold big_prefix; eauto).
      apply big_prefix_iff in BP as (ds & q' & N & _ & U' & _). rewrite U in U'. destruct ds; [now destruct N|discriminate U']. }
  destruct (snd (unsigned s)) as [|c r] eqn:U; [now apply Z0|]. clear Z0.
  assert (0 <= 0 <= 2 ^ 32 - 1) as H0 by lia.
  pose proof (pu_loop_cases (2 ^ 32 - 1) (c :: r) 0 H0) as K.
  destruct (pu_loop 10 (2 ^ 32 - 1) (c :: r) 0) as [v| |m].
  - destruct K as (F & -> & B). left. exists (if fst (unsigned s) then - dec_value (c :: r) else dec_value (c :: r)). split.
    + apply decimal_whole. exists (c :: r). repeat split; try assumption. discriminate.
    + change (dv (c :: r) 0) with (dec_value (c :: r)) in *.
      assert (0 <= dec_value (c :: r)) by (change (0 <= dv (c :: r) 0); apply dv_ge; [lia|assumption]).
      unfold clamp32. destruct (fst (unsigned s)); lia.
  - destruct K as (NF & B). right. split.
    + intros (n & D). apply decimal_whole in D as (ds & N & F & U' & _). rewrite U in U'. subst ds. contradiction.
    + right. split; [|reflexivity]. intros (p & q & n & A' & B' & C). assert (big_prefix s n) as BP by (unfold big_prefix; eauto).
      apply big_prefix_iff in BP as (ds & q' & N & F & U' & L & _). rewrite U in U'. specialize (B ds q' U' F). change (dv ds 0) with (dec_value ds) in B. lia.
  - destruct K as (-> & p & q & E & F & B). change (dv p 0) with (dec_value p) in B.
    assert ((if fst (unsigned s) then Z.max (- 2 ^ 31) (- (2 ^ 32 - 1)) else Z.min (2 ^ 32 - 1) (2 ^ 31 - 1)) =
      clamp32 (if fst (unsigned s) then - dec_value p else dec_value p)) as ->.
    { unfold clamp32. destruct (fst (unsigned s)); lia. }
    destruct (Forall_dec _ dec_char_dec (c :: r)) as [FA|NF].
    + left. exists (if fst (unsigned s) then - dec_value (c :: r) else dec_value (c :: r)). split.
      * apply decimal_whole. exists (c :: r). repeat split; try assumption. discriminate.
      * assert (dec_value p <= dec_value (c :: r)) as L.
        { rewrite E. change (dv p 0 <= dv (p ++ q) 0). rewrite dv_app. rewrite E in FA. apply Forall_app in FA as [_ FA].
          apply dv_ge; [|assumption]. change (0 <= dec_value p). lia. }
        unfold clamp32. destruct (fst (unsigned s)); lia.
    + right. split.
      * intros (n & D). apply decimal_whole in D as (ds & N & F' & U' & _). rewrite U in U'. subst ds. contradiction.
      * left. assert (big_prefix s (if fst (unsigned s) then - dec_value p else dec_value p)) as (p' & q' & A & D & L).
        { apply big_prefix_iff. exists p, q. rewrite U. repeat split; try assumption; [|lia]. intros ->. cbn in B. unfold dec_value in B. cbn in B. lia. }
        eauto 8.
Qed.

(* ------------------------------------------------------------ C65: the parts of a key *)

Lemma split_at_head sep s : ~ In sep (hd [] (split_at sep s)) /\
  match split_at sep s with
  | [] => False
  | [h] => s = h
  | h :: t => exists r, s = h ++ sep :: r /\ t = split_at sep r
  end.
Proof.
  induction s as [|c s [IH1 IH2]]; [cbn; auto|]. cbn [split_at]. destruct (Z.eqb_spec c sep) as [->|N].
  - cbn [hd]. split; [auto|]. destruct (split_at sep s) as [|h t] eqn:E; [contradiction|]. exists s. rewrite E. auto.
  - destruct (split_at sep s) as [|h t]; [contradiction|]. cbn [hd] in *. split; [intros [X|X]; [congruence|contradiction]|].
    destruct t as [|h2 t]; [now subst|]. destruct IH2 as (r & -> & E). exists r. split; [reflexivity|exact E].
Qed.
Lemma before_dot_split key head : before_dot key head <-> head = nth 0 (split_at 46 key) [].
Proof.
  assert (forall a b x y : bytes, ~ In 46 a -> ~ In 46 b -> a ++ 46 :: x = b ++ 46 :: y -> a = b) as INJ.
  { induction a as [|c a IH]; intros [|d b] x y Na Nb E; [reflexivity| | |].
    - injection E as E _. subst d. destruct Nb. now left.
    - injection E as E _. subst c. destruct Na. now left.
    - injection E as -> E. f_equal. eapply IH; [..|exact E]; intros X; [apply Na|apply Nb]; now right. }
  pose proof (split_at_head 46 key) as [N H]. destruct (split_at 46 key) as [|h t]; [contradiction|]. cbn [hd nth] in *. split.
  - intros [NI E]. destruct t as [|h2 t].
    + subst key. destruct E as [E|(r & E)]; [now symmetry|]. destruct N. rewrite E. apply in_or_app. right. now left.
    + destruct H as (r & -> & _). destruct E as [E|(r' & E)].
      * destruct NI. rewrite <- E. apply in_or_app. right. now left.
      * symmetry. exact (INJ _ _ _ _ N NI E).
  - intros ->. split; [exact N|]. destruct t as [|h2 t]; [now left|]. right. destruct H as (r & E & _). eauto.
Qed.
Lemma extension_split key ext : extension key ext <-> ext = nth 1 (split_at 46 key) [].
Proof.
  pose proof (split_at_head 46 key) as [N H]. pose proof (before_dot_split key) as BD.
  destruct (split_at 46 key) as [|h t]; [contradiction|]. cbn [hd nth] in *.
  assert (forall head rest, ~ In 46 head -> key = head ++ 46 :: rest -> head = h) as HH.
  { intros head rest NI E. apply BD. split; [exact NI|]. right. eauto. }
  destruct t as [|h2 t].
  - subst h. split.
    + intros [[_ E]|(head & rest & NI & E & _)]; [exact E|]. destruct N. rewrite E. apply in_or_app. right. now left.
    + intros ->. left. auto.
  - destruct H as (r & E & T). split.
    + intros [[NI _]|(head & rest & NI & E2 & B)].
      * destruct NI. rewrite E. apply in_or_app. right. now left.
      * assert (head = h) as -> by eauto. assert (rest = r) as ->.
        { rewrite E in E2. apply app_inv_head in E2. now injection E2 as ->. }
        apply before_dot_split in B. rewrite B, <- T. reflexivity.
    + intros ->. right. exists h, r. split; [exact N|]. split; [exact E|]. apply before_dot_split. now rewrite <- T.
Qed.

(** C65: for every key: its parts and its number are defined, and they decide the page: a
    negative number gives no response (the handler panics), a number within the table its
    entry, a larger one the first entry with that PGN, or entry 0 when there is none; the
    extension xml asks for XML, which a two-level lookup cannot be turned into. *)
Definition is_page (t : list pgn_def) (k : Z) (ext : bytes) (r : outcome details) : Prop :=
  exists p, zget t k = Some p /\
    (ext <> str "xml" /\ r = Ret (DJson k) \/
     ext = str "xml" /\ (~ two_level p /\ r = Ret (DXml k) \/ two_level p /\ r = Ret DNone)).
Theorem C65_parts key : exists head ext v, before_dot key head /\ extension key ext /\ key_number head v /\
  (forall h e w, before_dot key h -> extension key e -> key_number h w -> h = head /\ e = ext /\ w = v).
Proof.
  exists (nth 0 (split_at 46 key) []), (nth 1 (split_at 46 key) []), (parse_int_value 32 (nth 0 (split_at 46 key) [])).
  split; [now apply before_dot_split|]. split; [now apply extension_split|]. split; [apply key_number_parse|].
  intros h e w A B C. apply before_dot_split in A. apply extension_split in B. subst. split; [reflexivity|]. split; [reflexivity|].
  exact (key_number_unique _ _ _ C (key_number_parse _)).
Qed.
Theorem C65_details t key head ext v : t <> [] -> before_dot key head -> extension key ext -> key_number head v ->
  (v < 0 -> exists m, MessageDetails t key = Panic m) /\
  (0 <= v < zlen t -> is_page t v ext (MessageDetails t key)) /\
  (zlen t <= v -> exists k, first_entry t v k /\ is_page t k ext (MessageDetails t key)).
Proof.
  intros NE A B C. apply before_dot_split in A. apply extension_split in B.
  pose proof (key_number_unique _ _ _ C (key_number_parse _)) as V.
  unfold MessageDetails. rewrite <- A, <- B, <- V.
  assert (forall k p, zget t k = Some p -> is_page t k ext
    (if bytes_eqb ext (str "xml") then Ret (if has_map p then DNone else DXml k) else Ret (DJson k))) as PAGE.
  { intros k p Z. exists p. split; [exact Z|]. destruct (bytes_eqb ext (str "xml")) eqn:E.
    - right. apply bytes_eqb_eq in E. split; [exact E|]. destruct (has_map p) eqn:M; [right|left]; (split; [|reflexivity]).
      + unfold has_map in M. apply existsb_exists in M as (f & I & F). destruct (f_units f) eqn:U; try discriminate F. exists f. eauto.
      + intros (f & m & I & U). assert (has_map p = true) as X; [|congruence]. apply existsb_exists. exists f. split; [exact I|]. now rewrite U.
    - left. split; [|reflexivity]. intros X. apply bytes_eqb_eq in X. congruence. }
  pose proof (zlen_nonneg t). split; [|split]; intros R.
  - replace (zlen t <=? v) with false by lia. unfold zget. replace (v <? 0) with true by lia. eauto.
  - replace (zlen t <=? v) with false by lia. destruct (zget t v) as [p|] eqn:Z; [now apply PAGE|].
    exfalso. unfold zget in Z. replace (v <? 0) with false in Z by lia. apply nth_error_None in Z. unfold zlen in R. lia.
  - replace (zlen t <=? v) with true by lia.
    assert (u32 v = v) as ->.
    { unfold u32. apply Z.mod_small. destruct C as [(n & _ & ->)|(_ & [(p & q & n & _ & _ & _ & ->)|(_ & ->)])]; unfold clamp32 in *; lia. }
    destruct (C28_total t v NE) as [(k & p & E) _]. rewrite E. exists k.
    pose proof (C28_first t v k p E) as F.
    assert (zget t k = Some p) as Z by (destruct F as [[[Z _] _]|(_ & -> & Z)]; exact Z).
    rewrite Z. split; [|now apply PAGE].
    destruct F as [[[_ P] MIN]|(ND & -> & _)].
    + left. exists p. split; [exact Z|]. split; [exact P|]. intros j q L Zj EQ. specialize (MIN j q (conj Zj EQ)). lia.
    + right. split; [|reflexivity]. intros j q Zj EQ. exact (ND j q (conj Zj EQ)).
Qed.
(** In the shipped table only entry 3 (PGN 60928) has no XML page. *)
Theorem C65_xml_shipped k : (exists p, zget PgnList k = Some p /\ two_level p) <-> k = 3.
Proof.
  assert (map fst (filter (fun x => has_map (snd x)) (combine (map Z.of_nat (seq 0 (List.length PgnList))) PgnList)) = [3]) as K by (vm_compute; reflexivity).
  assert (forall p, two_level p <-> has_map p = true) as HM.
  { intros p. unfold has_map. rewrite existsb_exists. split.
    - intros (f & m & I & U). exists f. split; [exact I|]. now rewrite U.
    - intros (f & I & U). destruct (f_units f) eqn:E; try discriminate U. exists f. eauto. }
  assert (forall (t : list pgn_def) b k p, zget t k = Some p -> In (b + k, p) (combine (map (fun n => b + Z.of_nat n) (seq 0 (List.length t))) t)) as IC.
  { induction t as [|q t IH]; intros b j p Z.
    - unfold zget in Z. destruct (j <? 0); [discriminate|]. now destruct (Z.to_nat j).
    - cbn [List.length seq map combine]. destruct (Z.eq_dec j 0) as [->|N].
      + left. cbn in Z. injection Z as <-. reflexivity.
      + right. pose proof (zget_some _ _ _ Z). rewrite zget_cons_S in Z by lia.
        specialize (IH (b + 1) (j - 1) p Z). replace (b + 1 + (j - 1)) with (b + j) in IH by lia.
        replace (map (fun n => b + Z.of_nat n) (seq 1 (List.length t))) with (map (fun n => b + 1 + Z.of_nat n) (seq 0 (List.length t))); [exact IH|].
        rewrite <- seq_shift, map_map. apply map_ext. intros n. lia. }
  split.
  - intros (p & Z & T). apply HM in T. specialize (IC PgnList 0 k p Z). rewrite Z.add_0_l in IC.
    assert (In k [3]) as I3; [|destruct I3 as [<-|[]]; reflexivity]. rewrite <- K. change k with (fst (k, p)). apply in_map. apply filter_In. split; [exact IC|exact T].
  - intros ->. destruct (zget PgnList 3) as [p|] eqn:Z; [|vm_compute in Z; discriminate Z]. exists p. split; [reflexivity|]. apply HM.
    assert (match zget PgnList 3 with Some p => has_map p | None => false end = true) as X by (vm_compute; reflexivity).
    now rewrite Z in X.
Qed.
(** Different readings of keys. *)
Example C65_examples :
  MessageDetails PgnList (str "5") = Ret (DJson 5) /\ MessageDetails PgnList (str "5.xml") = Ret (DXml 5) /\
  MessageDetails PgnList (str "+5.xml.json") = Ret (DXml 5) /\ MessageDetails PgnList (str "3.xml") = Ret DNone /\
  MessageDetails PgnList (str "130816") = Ret (DJson 180) /\ MessageDetails PgnList (str "abc") = Ret (DJson 0) /\
  MessageDetails PgnList (str "99999999999x") = Ret (DJson 0) /\
  (exists m, MessageDetails PgnList (str "-1") = Panic m).
Proof. repeat split; try (vm_compute; reflexivity). eexists. vm_compute. reflexivity. Qed.
Example C65_number_example : key_number (str "+12") 12 /\ key_number (str "4294967296x") (2 ^ 31 - 1) /\ key_number (str "12x") 0.
Proof.
  assert (forall s v, parse_int_value 32 s = v -> key_number s v) as K by (intros s v <-; apply key_number_parse).
  repeat split; apply K; vm_compute; reflexivity.
Qed.

(* ------------------------------------------------------------ C66 *)

Definition later : cmd_world -> cmd_world -> Prop := clos_refl_trans _ cmd_step.

Lemma cmd_no_receiver w : cmd_run w -> cw_receivers w = 0%nat.
Proof.
  induction 1 as [|w w' R IH S]; [reflexivity|]. destruct S; cbn [cw_receivers]; try assumption.
  - cbn in H. intuition congruence.
  - congruence.
Qed.
Lemma cmd_run_later w w' : cmd_run w -> later w w' -> cmd_run w'.
Proof. intros R L. induction L; eauto using cr_step. Qed.

(** Request i was a POST: it is waiting to be handled, or its handler is stuck, and all its
    client was sent is the complaint about its JSON. *)
Definition unanswered (w : cmd_world) (i : nat) : Prop :=
  exists b v, nth_error (cw_reqs w) i = Some (mkreq (QNew true v) []) \/
    nth_error (cw_reqs w) i = Some (mkreq QSending b) /\ (b = [] \/ b = str "Invalid JSON").

Lemma nth_replace {A} (l r : list A) x y i :
  nth_error (l ++ y :: r) i = if (i =? List.length l)%nat then Some y else nth_error (l ++ x :: r) i.
Proof.
  destruct (Nat.eqb_spec i (List.length l)) as [->|N].
  - rewrite nth_error_app2 by lia. now rewrite Nat.sub_diag.
  - destruct (lt_dec i (List.length l)); [rewrite !nth_error_app1 by lia; reflexivity|].
    rewrite !nth_error_app2 by lia. destruct (i - List.length l)%nat eqn:E; [lia|reflexivity].
Qed.
Lemma nth_at {A} (l r : list A) x : nth_error (l ++ x :: r) (List.length l) = Some x.
Proof. rewrite nth_error_app2 by lia. now rewrite Nat.sub_diag. Qed.
Lemma unanswered_step w w' i : cmd_run w -> cmd_step w w' -> unanswered w i -> unanswered w' i.
Proof.
  intros R S (b0 & v0 & U). pose proof (cmd_no_receiver w R) as N0.
  destruct S as [w post valid|w l r v b E|w l r v b E|w C|w l r b n E C].
  - exists b0, v0. cbn [cw_reqs]. assert (forall x, nth_error (cw_reqs w) i = Some x -> nth_error (cw_reqs w ++ [mkreq (QNew post valid) []]) i = Some x) as K.
    { intros x X. rewrite nth_error_app1; [exact X|]. apply nth_error_Some. congruence. }
    destruct U as [U|[U B]]; [left|right]; auto.
  - exists b0, v0. cbn [cw_reqs]. rewrite E in U. rewrite (nth_replace l r (mkreq (QNew false v) b)).
    destruct (Nat.eqb_spec i (List.length l)) as [->|N]; [|exact U]. rewrite nth_at in U. exfalso. destruct U as [U|[U _]]; discriminate U.
  - cbn [cw_reqs]. rewrite E in U. unfold unanswered. cbn [cw_reqs].
    destruct (Nat.eq_dec i (List.length l)) as [->|N].
    + rewrite nth_at in U. exists (b ++ if v then [] else str "Invalid JSON"), v0. right. rewrite nth_at. split; [reflexivity|].
      destruct U as [U|[U _]]; [|discriminate U]. injection U as _ ->. cbn [app]. destruct v; auto.
    + exists b0, v0. rewrite (nth_replace l r (mkreq (QNew true v) b)). rewrite (proj2 (Nat.eqb_neq _ _) N). exact U.
  - cbn in C. intuition congruence.
  - congruence.
Qed.

(** C66: a POST to the send endpoint, whatever its body, is never answered: in every later
    state of the program its handler is still waiting to run or stuck in the send, and the only
    text it may have written is the complaint about the JSON.  *)
Theorem C66_blocks w w' i v : cmd_run w -> nth_error (cw_reqs w) i = Some (mkreq (QNew true v) []) -> later w w' -> unanswered w' i.
Proof.
  intros R N L. assert (unanswered w i) as U by (exists [], v; now left). clear N. revert R U.
  induction L; intros R U; [eapply unanswered_step; eassumption|exact U|]. apply IHL2; [eapply cmd_run_later; eassumption|]. now apply IHL1.
Qed.
(** Every POST that arrives is of this kind, and its handler does get stuck. *)
Theorem C66_arrives w v : cmd_run w -> exists w', cmd_step w w' /\
  nth_error (cw_reqs w') (List.length (cw_reqs w)) = Some (mkreq (QNew true v) []) /\
  exists w'', cmd_step w' w'' /\ nth_error (cw_reqs w'') (List.length (cw_reqs w)) = Some (mkreq QSending (if v then [] else str "Invalid JSON")).
Proof.
  intros R. exists (mkcw (cw_reqs w ++ [mkreq (QNew true v) []]) (cw_receivers w)). split; [apply cs_arrive|]. split; [apply nth_at|].
  eexists. split; [eapply cs_post; reflexivity|]. apply nth_at.
Qed.
(** A stuck handler does not hold up others: a GET can be answered in any state. *)
Theorem C66_get w i v : nth_error (cw_reqs w) i = Some (mkreq (QNew false v) []) ->
  exists w', cmd_step w w' /\ nth_error (cw_reqs w') i = Some (mkreq QDone []) /\ forall j, j <> i -> nth_error (cw_reqs w') j = nth_error (cw_reqs w) j.
Proof.
  intros N. apply nth_error_split in N as (l & r & E & <-). eexists. split; [eapply cs_get; exact E|]. cbn [cw_reqs]. split; [apply nth_at|].
  intros j NE. rewrite E, (nth_replace l r (mkreq (QNew false v) [])). now rewrite (proj2 (Nat.eqb_neq _ _) NE).
Qed.
(** The number of stuck handlers only grows: each POST leaves one behind for the life of the
    program. *)
Definition stuck (w : cmd_world) : nat := List.length (filter (fun q => match q_state q with QSending => true | _ => false end) (cw_reqs w)).
Theorem C66_leak w w' : cmd_run w -> later w w' -> (stuck w <= stuck w')%nat.
Proof.
  intros R L. revert R. induction L as [w w' S| |w w1 w2 L1 IH1 L2 IH2]; intros R; [|lia|].
  - pose proof (cmd_no_receiver w R) as N0. unfold stuck. destruct S as [w post valid|w l r v b E|w l r v b E|w C|w l r b n E C]; cbn [cw_reqs];
      rewrite ?E, ?filter_app, ?app_length; cbn; rewrite ?filter_app, ?app_length; cbn; try lia; try congruence.
  - specialize (IH1 R). specialize (IH2 (cmd_run_later _ _ R L1)). lia.
Qed.
Theorem C66_unbounded n : exists w, cmd_run w /\ (n <= stuck w)%nat.
Proof.
  induction n as [|n (w & R & S)]; [exists cmd_init; split; [constructor|lia]|].
  exists (mkcw (cw_reqs w ++ [mkreq QSending []]) (cw_receivers w)). split.
  - eapply cr_step; [eapply cr_step; [exact R|apply (cs_arrive w true true)]|]. 
    eapply (cs_post (mkcw (cw_reqs w ++ [mkreq (QNew true true) []]) (cw_receivers w)) (cw_reqs w) [] true []). reflexivity.
  - unfold stuck in *. cbn [cw_reqs]. rewrite filter_app, app_length. cbn. lia.
Qed.
Example C66_example : cmd_run (mkcw [mkreq QSending (str "Invalid JSON"); mkreq QDone []] 0).
Proof.
  assert (cmd_run (mkcw [mkreq (QNew true false) []; mkreq (QNew false true) []] 0)) as R.
  { eapply cr_step; [eapply cr_step; [apply cr_init|apply (cs_arrive _ true false)]|].
    exact (cs_arrive (mkcw [mkreq (QNew true false) []] 0) false true). }
  assert (cmd_run (mkcw [mkreq QSending (str "Invalid JSON"); mkreq (QNew false true) []] 0)) as R2.
  { eapply cr_step; [exact R|]. exact (cs_post (mkcw [mkreq (QNew true false) []; mkreq (QNew false true) []] 0) [] [mkreq (QNew false true) []] false [] eq_refl). }
  eapply cr_step; [exact R2|].
  exact (cs_get (mkcw [mkreq QSending (str "Invalid JSON"); mkreq (QNew false true) []] 0) [mkreq QSending (str "Invalid JSON")] [] true [] eq_refl).
Qed.

(* ------------------------------------------------------------ C76: which handler gets a request *)

Lemma has_prefix_iff p s : has_prefix p s = true <-> exists r, s = p ++ r.
Proof.
  revert s. induction p as [|x p IH]; intros s.
  - cbn. split; [eauto|reflexivity].
  - destruct s as [|y s]; cbn [has_prefix].
    + split; [discriminate|]. intros (r & E). discriminate E.
    + rewrite andb_true_iff, IH, Z.eqb_eq. split.
      * intros [-> (r & ->)]. exists r. reflexivity.
      * intros (r & E). injection E as -> ->. eauto.
Qed.
Lemma has_prefix_app p s : has_prefix p (p ++ s) = true.
Proof. apply has_prefix_iff. eauto. Qed.
Lemma eqb_false a b : a <> b -> bytes_eqb a b = false.
Proof. intros N. destruct (bytes_eqb a b) eqn:E; [|reflexivity]. apply bytes_eqb_eq in E. contradiction. Qed.
Lemma eqb_prefix_false c s t r : has_prefix (c ++ s) t = false -> bytes_eqb (c ++ s ++ r) t = false.
Proof.
  intros P. apply eqb_false. intros E. assert (has_prefix (c ++ s) t = true) as X; [|congruence].
  apply has_prefix_iff. exists r. rewrite <- E. now rewrite app_assoc.
Qed.

(** Messages: below the API's base path, a non-empty key without a slash names a details page;
    anything else below /messages/ is not found. *)
Theorem C76_messages apps late key : 
  (key = [] -> route apps late (str "/signalk/v1/api/messages/" ++ key) = HIndex) /\
  (key <> [] -> ~ In 47 key -> route apps late (str "/signalk/v1/api/messages/" ++ key) = HDetails key) /\
  (In 47 key -> route apps late (str "/signalk/v1/api/messages/" ++ key) = HNotFound).
Proof.
  assert (key <> [] -> route apps late (str "/signalk/v1/api/messages/" ++ key) =
    if negb (existsb (Z.eqb 47) key) then HDetails key else HNotFound) as K.
  { intros N. unfold route.
    assert (forall w, (List.length w < 25)%nat -> bytes_eqb (str "/signalk/v1/api/messages/" ++ key) w = false) as SH.
    { intros w L. apply eqb_false. intros E. rewrite <- E, app_length in L. change (List.length (str "/signalk/v1/api/messages/")) with 25%nat in L. lia. }
    rewrite !SH by (cbn; lia). cbn [orb].
    change (str "/signalk/v1/api/messages/") with (str "/signalk/v1/api/" ++ str "messages/"). rewrite <- app_assoc, has_prefix_app.
    unfold api_router. change (skipn (List.length (str "/signalk/v1/api")) (str "/signalk/v1/api/" ++ str "messages/" ++ key)) with (str "/messages/" ++ key).
    assert (forall w, (List.length w <= 10)%nat -> bytes_eqb (str "/messages/" ++ key) w = false) as SH2.
    { intros w L. apply eqb_false. intros E. rewrite <- E, app_length in L. change (List.length (str "/messages/")) with 10%nat in L.
      destruct key; [now destruct N|cbn in L; lia]. }
    rewrite !SH2 by (cbn; lia). rewrite has_prefix_app. change (skipn 10 (str "/messages/" ++ key)) with key. cbn [andb].
    destruct (existsb (Z.eqb 47) key) eqn:E; cbn [negb]; [|reflexivity].
    rewrite eqb_false; [reflexivity|]. intros X. injection X as X. discriminate X. }
  split; [|split].
  - intros ->. vm_compute. reflexivity.
  - intros N NI. rewrite (K N). replace (existsb (Z.eqb 47) key) with false; [reflexivity|]. symmetry.
    destruct (existsb (Z.eqb 47) key) eqn:E; [|reflexivity]. apply existsb_exists in E as (x & I & E). apply Z.eqb_eq in E. subst. contradiction.
  - intros I. rewrite K by (intros ->; contradiction). replace (existsb (Z.eqb 47) key) with true; [reflexivity|]. symmetry.
    apply existsb_exists. exists 47. split; [exact I|reflexivity].
Qed.
(** What must not happen to get a path outside the fixed ones: an installed app that claims it. *)
Definition claimed (apps late : list bytes) (path : bytes) : Prop :=
  (exists k r, In k apps /\ path = str "/apps/" ++ k ++ r) \/ exists p r, In p late /\ path = p ++ r.

(** The link in a summary ("details") does not lead to the details page: its path is served by
    no handler, unless an app installed since start-up claims it. *)
Theorem C76_dead_link apps late i e t : GetPGNSummary t i = Some e -> ~ claimed apps late (ie_details e) ->
  route apps late (ie_details e) = HNotFound.
Proof.
  intros S NC. apply C63_summary in S as (p & k & _ & _ & ->). cbn [ie_details] in *.
  unfold route. set (tail := itoa i) in *. clearbody tail.
  replace (bytes_eqb (str "/api/v1/messages/" ++ tail) (str "/signalk/v1")) with false by reflexivity.
  replace (bytes_eqb (str "/api/v1/messages/" ++ tail) (str "/signalk/v1/api")) with false by reflexivity.
  replace (has_prefix (str "/signalk/v1/api/") (str "/api/v1/messages/" ++ tail)) with false by reflexivity.
  replace (has_prefix (str "/signalk/v1/") (str "/api/v1/messages/" ++ tail)) with false by reflexivity.
  replace (bytes_eqb (str "/api/v1/messages/" ++ tail) (str "/ws/stats")) with false by reflexivity.
  cbn [orb].
  unfold ui_router.
  destruct (existsb (fun k0 => has_prefix (str "/apps/" ++ k0) (str "/api/v1/messages/" ++ tail)) apps) eqn:E.
  { exfalso. apply existsb_exists in E as (x & _ & E). apply has_prefix_iff in E as (r & E). vm_compute in E. injection E. discriminate. }
  replace (has_prefix (str "/assets/") (str "/api/v1/messages/" ++ tail)) with false by reflexivity.
  replace (bytes_eqb (str "/api/v1/messages/" ++ tail) (str "/admin/uuid")) with false by reflexivity.
  replace (bytes_eqb (str "/api/v1/messages/" ++ tail) (str "/admin")) with false by reflexivity.
  replace (bytes_eqb (str "/api/v1/messages/" ++ tail) (str "/apps/install")) with false by reflexivity.
  replace (bytes_eqb (str "/api/v1/messages/" ++ tail) (str "/apps")) with false by reflexivity.
  replace (bytes_eqb (str "/api/v1/messages/" ++ tail) (str "/")) with false by reflexivity.
  match goal with |- context [existsb ?f late] => destruct (existsb f late) eqn:E2 end; [|reflexivity].
  exfalso. apply NC. right. apply existsb_exists in E2 as (x & I & E2). apply has_prefix_iff in E2 as (r & E2). eauto.
Qed.
Theorem C76_dead_link_refuted : exists apps late t i e, GetPGNSummary t i = Some e /\ (forall key, route apps late (ie_details e) <> HDetails key).
Proof.
  destruct (GetPGNSummary PgnList 5) as [e|] eqn:S; [|vm_compute in S; discriminate S].
  exists [], [], PgnList, 5, e. split; [exact S|]. intros key. rewrite (C76_dead_link [] [] 5 e PgnList S); [discriminate|].
  intros [(k & r & [] & _)|(p & r & [] & _)].
Qed.

(** The fixed paths, whatever apps are installed, except those below /apps/. *)
Theorem C76_fixed apps late :
  route apps late (str "/signalk/v1/stream") = HStream /\ route apps late (str "/signalk/v1/control") = HControl /\
  route apps late (str "/ws/stats") = HStats /\ route apps late (str "/signalk/v1/api/messages") = HIndex /\
  route apps late (str "/signalk/v1/api/control/send") = HSend /\ route apps late (str "/signalk/v1/api/") = HApiHome /\
  route apps late (str "/admin") = HAdmin /\ route apps late (str "/admin/uuid") = HUuid /\
  route apps late (str "/") = HHome /\ route apps late (str "/apps") = HApps.
Proof.
  assert (forall path, (forall r, path <> str "/apps/" ++ r) -> existsb (fun k => has_prefix (str "/apps/" ++ k) path) apps = false) as NA.
  { intros path N. match goal with |- ?x = false => destruct x eqn:E end; [|reflexivity]. apply existsb_exists in E as (x & _ & E). apply has_prefix_iff in E as (r & E).
    rewrite <- app_assoc in E. now apply N in E. }
  repeat split; try (vm_compute; reflexivity); unfold route, ui_router; rewrite NA; try (vm_compute; reflexivity);
    intros r E; vm_compute in E; discriminate E.
Qed.
(** The install page is served unless the key of an app installed at start-up is the start of
    the word install. *)
Theorem C76_install apps late : (route apps late (str "/apps/install") = HInstall <->
  ~ exists k r, In k apps /\ str "install" = k ++ r) /\
  ((exists k r, In k apps /\ str "install" = k ++ r) -> route apps late (str "/apps/install") = HAppFiles).
Proof.
  assert (route apps late (str "/apps/install") = if existsb (fun k => has_prefix (str "/apps/" ++ k) (str "/apps/install")) apps then HAppFiles else HInstall) as E.
  { unfold route, ui_router. match goal with |- context [if existsb ?f apps then _ else _] => destruct (existsb f apps) end; vm_compute; reflexivity. }
  assert (existsb (fun k => has_prefix (str "/apps/" ++ k) (str "/apps/install")) apps = true <-> exists k r, In k apps /\ str "install" = k ++ r) as K.
  { rewrite existsb_exists. change (str "/apps/install") with (str "/apps/" ++ str "install"). split.
    - intros (k & I & P). apply has_prefix_iff in P as (r & P). rewrite <- app_assoc in P. apply app_inv_head in P. eauto.
    - intros (k & r & I & P). exists k. split; [exact I|]. rewrite P, app_assoc. apply has_prefix_app. }
  rewrite E. match goal with |- context [existsb ?f apps] => destruct (existsb f apps) end.
  - split; [|reflexivity]. split; [discriminate|]. intros N. destruct N. now apply K.
  - split; [|intros H; apply K in H; discriminate H]. split; [|reflexivity]. intros _ H. apply K in H. discriminate H.
Qed.
(** The files of an app installed at start-up are served below its key, whatever else is
    installed; those of an app installed later below the path reported to the client, unless
    that path is one of the fixed ones. *)
Theorem C76_app_files apps late k r : In k apps -> route apps late (str "/apps/" ++ k ++ r) = HAppFiles.
Proof.
  intros I. unfold route. 
  assert (existsb (fun k0 => has_prefix (str "/apps/" ++ k0) (str "/apps/" ++ k ++ r)) apps = true) as E.
  { apply existsb_exists. exists k. split; [exact I|]. rewrite app_assoc. apply has_prefix_app. }
  unfold ui_router. rewrite E.
  replace (bytes_eqb (str "/apps/" ++ k ++ r) (str "/signalk/v1")) with false by reflexivity.
  replace (bytes_eqb (str "/apps/" ++ k ++ r) (str "/signalk/v1/api")) with false by reflexivity. reflexivity.
Qed.
Theorem C76_late_files apps late p r : In (str "/apps/" ++ p) late -> p ++ r <> str "install" ->
  route apps late (str "/apps/" ++ p ++ r) = HAppFiles.
Proof.
  intros I N. unfold route.
  assert (existsb (fun x => has_prefix x (str "/apps/" ++ p ++ r)) late = true) as E.
  { apply existsb_exists. exists (str "/apps/" ++ p). split; [exact I|]. rewrite app_assoc. apply has_prefix_app. }
  unfold ui_router. rewrite E.
  replace (bytes_eqb (str "/apps/" ++ p ++ r) (str "/signalk/v1")) with false by reflexivity.
  replace (bytes_eqb (str "/apps/" ++ p ++ r) (str "/signalk/v1/api")) with false by reflexivity.
  rewrite (eqb_false _ (str "/apps/install")); [match goal with |- context [existsb ?f apps] => destruct (existsb f apps) end; reflexivity|].
  change (str "/apps/install") with (str "/apps/" ++ str "install"). intros X. apply app_inv_head in X. contradiction.
Qed.
(** The fixed files of the pages, whatever apps are installed. *)
Theorem C76_assets apps late r : route apps late (str "/assets/" ++ r) = HAssets.
Proof.
  assert (existsb (fun k => has_prefix (str "/apps/" ++ k) (str "/assets/" ++ r)) apps = false) as E.
  { match goal with |- ?x = false => destruct x eqn:E end; [|reflexivity]. apply existsb_exists in E as (k & _ & E). discriminate E. }
  unfold route, ui_router. rewrite E. rewrite has_prefix_app.
  replace (bytes_eqb (str "/assets/" ++ r) (str "/signalk/v1")) with false by reflexivity.
  replace (bytes_eqb (str "/assets/" ++ r) (str "/signalk/v1/api")) with false by reflexivity. reflexivity.
Qed.
(** All other paths outside /signalk/v1/ are answered with "not found". *)
Theorem C76_not_found apps late path : (forall r, path <> str "/signalk/v1/" ++ r) ->
  (route apps late path = HNotFound <->
   ~ In path [str "/signalk/v1"; str "/ws/stats"; str "/admin/uuid"; str "/admin"; str "/apps/install"; str "/apps"; str "/"] /\
   ~ claimed apps late path /\ forall r, path <> str "/assets/" ++ r).
Proof.
  intros N.
  assert (forall w, bytes_eqb path w = true <-> path = w) as Q by (intros; apply bytes_eqb_eq).
  assert (has_prefix (str "/signalk/v1/") path = false) as H1.
  { destruct (has_prefix (str "/signalk/v1/") path) eqn:E; [|reflexivity]. apply has_prefix_iff in E as (r & E). now apply N in E. }
  assert (has_prefix (str "/signalk/v1/api/") path = false) as H2.
  { destruct (has_prefix (str "/signalk/v1/api/") path) eqn:E; [|reflexivity]. apply has_prefix_iff in E as (r & E).
    change (str "/signalk/v1/api/") with (str "/signalk/v1/" ++ str "api/") in E. rewrite <- app_assoc in E. now apply N in E. }
  assert (bytes_eqb path (str "/signalk/v1/api") = false) as H3.
  { apply eqb_false. change (str "/signalk/v1/api") with (str "/signalk/v1/" ++ str "api"). apply N. }
  unfold route, ui_router. rewrite H1, H2, H3, orb_false_r. cbn [In].
  destruct (bytes_eqb path (str "/signalk/v1")) eqn:E1; [apply Q in E1; split; [discriminate|intros (X & _); destruct X; auto]|].
  destruct (bytes_eqb path (str "/ws/stats")) eqn:E2; [apply Q in E2; split; [discriminate|intros (X & _); destruct X; auto]|].
  match goal with |- context [if existsb ?f apps then _ else _] => destruct (existsb f apps) eqn:E3 end.
  { split; [discriminate|]. intros (_ & X & _). destruct X. left. apply existsb_exists in E3 as (k & I & E3). apply has_prefix_iff in E3 as (r & E3).
    exists k, r. split; [exact I|]. now rewrite E3, <- app_assoc. }
  destruct (has_prefix (str "/assets/") path) eqn:E4; [apply has_prefix_iff in E4 as (r & E4); split; [discriminate|intros (_ & _ & X); now apply X in E4]|].
  destruct (bytes_eqb path (str "/admin/uuid")) eqn:E5; [apply Q in E5; split; [discriminate|intros (X & _); destruct X; auto]|].
  destruct (bytes_eqb path (str "/admin")) eqn:E6; [apply Q in E6; split; [discriminate|intros (X & _); destruct X; auto 8]|].
  destruct (bytes_eqb path (str "/apps/install")) eqn:E7; [apply Q in E7; split; [discriminate|intros (X & _); destruct X; auto 8]|].
  destruct (bytes_eqb path (str "/apps")) eqn:E8; [apply Q in E8; split; [discriminate|intros (X & _); destruct X; auto 8]|].
  destruct (bytes_eqb path (str "/")) eqn:E9; [apply Q in E9; split; [discriminate|intros (X & _); destruct X; auto 9]|].
  match goal with |- context [if existsb ?f late then _ else _] => destruct (existsb f late) eqn:E10 end.
  { split; [discriminate|]. intros (_ & X & _). destruct X. right. apply existsb_exists in E10 as (k & I & E10). apply has_prefix_iff in E10 as (r & E10). eauto. }
  split; [|reflexivity]. intros _.
  assert (forall w, bytes_eqb path w = false -> w <> path) as NE by (intros w X ->; rewrite (proj2 (bytes_eqb_eq _ _) eq_refl) in X; discriminate X).
  split; [|split].
  - intros [X|[X|[X|[X|[X|[X|[X|[]]]]]]]]; revert X; now apply NE.
  - intros [(k & r & I & X)|(p & r & I & X)].
    + assert (existsb (fun k => has_prefix (str "/apps/" ++ k) path) apps = true) as Y; [|congruence].
      apply existsb_exists. exists k. split; [exact I|]. apply has_prefix_iff. exists r. now rewrite X, <- app_assoc.
    + assert (existsb (fun p => has_prefix p path) late = true) as Y; [|congruence].
      apply existsb_exists. exists p. split; [exact I|]. apply has_prefix_iff. exists r. exact X.
  - intros r X. assert (has_prefix (str "/assets/") path = true) as Y by (apply has_prefix_iff; eauto). congruence.
Qed.
(** Everything below /signalk/v1/api/. *)
Theorem C76_api apps late r h : route apps late (str "/signalk/v1/api/" ++ r) = h <->
  (r = [] /\ h = HApiHome) \/
  ((r = str "messages" \/ r = str "messages/") /\ h = HIndex) \/
  (exists key, key <> [] /\ ~ In 47 key /\ r = str "messages/" ++ key /\ h = HDetails key) \/
  (r = str "control/send" /\ h = HSend) \/
  (r <> [] /\ r <> str "messages" /\ r <> str "messages/" /\ r <> str "control/send" /\
   (forall key, r = str "messages/" ++ key -> In 47 key) /\ h = HNotFound).
Proof.
  assert (route apps late (str "/signalk/v1/api/" ++ r) = api_router (str "/signalk/v1/api/" ++ r)) as ->.
  { unfold route. rewrite has_prefix_app.
    replace (bytes_eqb (str "/signalk/v1/api/" ++ r) (str "/signalk/v1")) with false by reflexivity.
    replace (bytes_eqb (str "/signalk/v1/api/" ++ r) (str "/signalk/v1/api")) with false by reflexivity. reflexivity. }
  unfold api_router. change (skipn (List.length (str "/signalk/v1/api")) (str "/signalk/v1/api/" ++ r)) with (str "/" ++ r).
  assert (forall w, bytes_eqb (str "/" ++ r) (str "/" ++ w) = bytes_eqb r w) as Q by (intros; reflexivity).
  rewrite (Q [] : bytes_eqb (str "/" ++ r) (str "/") = _), (Q (str "messages") : bytes_eqb (str "/" ++ r) (str "/messages") = _),
    (Q (str "messages/") : bytes_eqb (str "/" ++ r) (str "/messages/") = _), (Q (str "control/send") : bytes_eqb (str "/" ++ r) (str "/control/send") = _).
  change (has_prefix (str "/messages/") (str "/" ++ r)) with (has_prefix (str "messages/") r). change (skipn 10 (str "/" ++ r)) with (skipn 9 r).
  cbv zeta.
  assert (forall w, bytes_eqb r w = true -> r = w) as T by (intros w; apply bytes_eqb_eq).
  assert (forall w, bytes_eqb r w = false -> r <> w) as F by (intros w X ->; rewrite (proj2 (bytes_eqb_eq _ _) eq_refl) in X; discriminate X).
  assert (str "messages" <> [] /\ str "messages/" <> [] /\ str "control/send" <> [] /\ str "messages" <> str "control/send" /\ str "messages/" <> str "control/send") as (D1 & D2 & D3 & D4 & D5) by (repeat split; discriminate).
  assert (forall key, str "messages/" ++ key <> str "messages" /\ str "messages/" ++ key <> [] /\ str "messages/" ++ key <> str "control/send") as D6.
  { intros key. repeat split; try discriminate. }
  assert (forall key, str "messages/" ++ key = str "messages/" -> key = []) as D7.
  { intros key X. rewrite <- (app_nil_r (str "messages/")) in X at 2. now apply app_inv_head in X. }
  destruct (bytes_eqb r []) eqn:E0.
  { apply T in E0. subst r. split; [intros <-; left; auto|]. intros [[_ X]|[[[X|X] _]|[(k & _ & _ & X & _)|[[X _]|(X & _)]]]]; first [congruence | symmetry in X; now apply D6 in X]. }
  destruct (bytes_eqb r (str "messages")) eqn:E1.
  { apply T in E1. subst r. split; [intros <-; right; left; auto|].
    intros [[X _]|[[_ X]|[(k & _ & _ & X & _)|[[X _]|(_ & X & _)]]]]; try congruence. symmetry in X. now apply D6 in X. }
  destruct (bytes_eqb r (str "messages/")) eqn:E2.
  { apply T in E2. subst r. split; [intros <-; right; left; auto|].
    intros [[X _]|[[_ X]|[(k & K & _ & X & _)|[[X _]|(_ & _ & X & _)]]]]; try congruence. symmetry in X. now apply D7 in X. }
  apply F in E0, E1, E2.
  destruct (has_prefix (str "messages/") r) eqn:E3.
  - apply has_prefix_iff in E3 as (key & ->). change (skipn 9 (str "messages/" ++ key)) with key.
    assert (key <> []) as NK by (intros ->; now apply E2). destruct (D6 key) as (A & B & C).
    assert (bytes_eqb (str "messages/" ++ key) (str "control/send") = false) as -> by reflexivity.
    assert (forall key', str "messages/" ++ key = str "messages/" ++ key' -> key' = key) as I by (intros key' X; apply app_inv_head in X; congruence).
    destruct (existsb (Z.eqb 47) key) eqn:E4; cbn [negb andb].
    + assert (In 47 key) as IK by (apply existsb_exists in E4 as (x & Hx & E4); apply Z.eqb_eq in E4; now subst).
      split.
      * intros <-. right; right; right; right. repeat split; auto. intros key' X. now rewrite (I key' X).
      * intros [[X _]|[[[X|X] _]|[(k & _ & N & X & _)|[[X _]|(_ & _ & _ & _ & _ & X)]]]]; try congruence. apply I in X. subst. contradiction.
    + assert (~ In 47 key) as IK.
      { intros X. assert (existsb (Z.eqb 47) key = true) as Y by (apply existsb_exists; exists 47; split; [exact X|reflexivity]). congruence. }
      split.
      * intros <-. right; right; left. exists key. auto.
      * intros [[X _]|[[[X|X] _]|[(k & _ & N & X & ->)|[[X _]|(_ & _ & _ & _ & X & _)]]]]; try congruence.
        -- apply I in X. now subst.
        -- elim IK. now apply X.
  - assert (forall key, r <> str "messages/" ++ key) as NP.
    { intros key ->. rewrite has_prefix_app in E3. discriminate E3. }
    cbn [andb]. destruct (bytes_eqb r (str "control/send")) eqn:E5.
    + apply T in E5. split; [intros <-; right; right; right; left; auto|].
      intros [[X _]|[[[X|X] _]|[(k & _ & _ & X & _)|[[_ X]|(_ & _ & _ & X & _)]]]]; try congruence; try (now apply NP in X).
    + apply F in E5. split.
      * intros <-. right; right; right; right. repeat split; auto. intros key X. now apply NP in X.
      * intros [[X _]|[[[X|X] _]|[(k & _ & _ & X & _)|[[X _]|(_ & _ & _ & _ & _ & X)]]]]; try congruence; try (now apply NP in X).
Qed.
(** Redirected are exactly the two prefixes without their slash. *)
Theorem C76_redirect apps late path : route apps late path = HRedirect <-> path = str "/signalk/v1" \/ path = str "/signalk/v1/api".
Proof.
  split.
  - intros R. unfold route in R. destruct (bytes_eqb path (str "/signalk/v1") || bytes_eqb path (str "/signalk/v1/api")) eqn:E.
    + apply orb_true_iff in E as [E|E]; apply bytes_eqb_eq in E; auto.
    + exfalso. revert R. unfold api_router, ui_router. cbv zeta.
      repeat match goal with |- (if ?b then _ else _) = _ -> _ => destruct b end; discriminate.
  - intros [-> | ->]; reflexivity.
Qed.
(** Every other path below /signalk/v1/ and not below its api is answered by the websocket server. *)
Theorem C76_websockets apps late r : r <> str "api" -> (forall x, r <> str "api/" ++ x) ->
  route apps late (str "/signalk/v1/" ++ r) = if bytes_eqb r (str "stream") then HStream else if bytes_eqb r (str "control") then HControl else HWsOther.
Proof.
  intros N1 N2. unfold route. rewrite has_prefix_app.
  replace (bytes_eqb (str "/signalk/v1/" ++ r) (str "/signalk/v1")) with false by reflexivity.
  rewrite (eqb_false (str "/signalk/v1/" ++ r) (str "/signalk/v1/api")).
  2:{ change (str "/signalk/v1/api") with (str "/signalk/v1/" ++ str "api"). intros X. apply app_inv_head in X. contradiction. }
  replace (has_prefix (str "/signalk/v1/api/") (str "/signalk/v1/" ++ r)) with false.
  2:{ symmetry. destruct (has_prefix (str "/signalk/v1/api/") (str "/signalk/v1/" ++ r)) eqn:E; [|reflexivity]. apply has_prefix_iff in E as (x & E).
      change (str "/signalk/v1/api/") with (str "/signalk/v1/" ++ str "api/") in E. rewrite <- app_assoc in E. apply app_inv_head in E. now apply N2 in E. }
  reflexivity.
Qed.
Example C76_example : route [str "in"] [] (str "/apps/install") = HAppFiles /\ route [str "plotter"] [str "/apps/gauge/public"] (str "/apps/install") = HInstall /\
  route [] [str "/apps/gauge/public"] (str "/apps/gauge/public/index.html") = HAppFiles /\ route [] [] (str "/api/v1/messages/5") = HNotFound /\
  route [] [] (str "/signalk/v1/api/messages/5.xml") = HDetails (str "5.xml").
Proof. vm_compute. auto. Qed.
