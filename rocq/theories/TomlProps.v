(** TomlProps: reading and saving the configuration file (C101). *)
From Coq Require Import Permutation.
From Verif Require Import GoBase ApiModel ApiSpec ApiProps NmeaSpec JsonSpec ConfigModel ConfigSpec ConfigProps SaveProps UnjsonModel UnjsonDecode TomlModel TomlSpec TomlLex TomlTree TomlDecode.
Open Scope Z_scope.
Open Scope list_scope.

(* ------------------------------------------------------------------ the names of a text *)

Lemma body_bytes b t : string_body b t -> bytes_ok b -> bytes_ok t.
Proof.
  unfold bytes_ok. induction 1 as [|c r t N1 N2 N3 H IH|e c enc r t E U H IH]; intros B.
  - constructor.
  - inversion B; subst. constructor; auto.
  - apply Forall_app in B as [_ B]. apply Forall_app. split; [exact (utf8_bytes _ _ U)|auto].
Qed.
Lemma name_bytes k n : name_text k n -> bytes_ok k -> bytes_ok n /\ n <> [].
Proof.
  unfold bytes_ok. intros [m N F|s m S N] B; [auto|]. split; [|exact N]. destruct S as [b t S|b F].
  - apply (body_bytes b); [exact S|]. inversion B; subst. now apply Forall_app in H2 as [H2 _].
  - inversion B; subst. now apply Forall_app in H2 as [H2 _].
Qed.
Lemma names_bytes s p : names_text s p -> bytes_ok s -> Forall bytes_ok p /\ p <> [].
Proof.
  unfold bytes_ok. induction 1 as [w s n w' W N W'|w s n w' r p W N W' H IH]; intros B; (split; [|discriminate]); apply Forall_app in B as [_ B]; apply Forall_app in B as [B1 B2].
  - constructor; [now apply (name_bytes s)|constructor].
  - constructor; [now apply (name_bytes s)|]. apply Forall_app in B2 as [_ B2]. inversion B2; subst. now apply IH.
Qed.
Lemma document_names s l : document s l -> bytes_ok s ->
  Forall (fun p => Forall bytes_ok p /\ p <> []) (headers l) /\ forall ctx, Forall bytes_ok ctx -> Forall (fun e => Forall bytes_ok (fst e)) (assigned ctx l).
Proof.
  unfold bytes_ok. induction 1 as [|c r l C D IH|b r l C E D IH|s p w r l N W E D IH|k n w1 w2 s v w r l N W1 W2 V W E F D IH]; intros B.
  - split; [constructor|intros; constructor].
  - inversion B; subst. now apply IH.
  - apply Forall_app in B as [_ B]. apply Forall_app in B as [_ B]. now apply IH.
  - apply Forall_app in B as [_ B]. apply Forall_app in B as [B1 B]. apply Forall_app in B as [_ B]. apply Forall_app in B as [_ B].
    destruct (IH B) as [I1 I2]. destruct (names_bytes _ _ N B1). split; [constructor; auto|]. intros ctx _. cbn [assigned]. now apply I2.
  - apply Forall_app in B as [B1 B]. do 5 apply Forall_app in B as [_ B].
    destruct (IH B) as [I1 I2]. destruct (name_bytes _ _ N B1) as [N1 _]. split; [exact I1|]. intros ctx C. cbn [assigned]. constructor; [|now apply I2].
    cbn [fst]. apply Forall_app. split; [exact C|]. constructor; [exact N1|constructor].
Qed.
Lemma assigned_shape l : forall ctx p v, In (p, v) (assigned ctx l) -> exists q k, p = q ++ [k] /\ (q = ctx \/ In q (headers l)).
Proof.
  induction l as [|[h|k w] l IH]; intros ctx p v I; cbn [assigned headers In] in *; [destruct I| |].
  - destruct (IH h p v I) as (q & k & -> & H). exists q, k. split; [reflexivity|]. right. destruct H as [->|H]; auto.
  - destruct I as [I|I]; [injection I as <- <-; exists ctx, k; auto|]. destruct (IH ctx p v I) as (q & x & -> & H). exists q, x. auto.
Qed.
Lemma gives_table l p k v : gives l (p ++ [k]) v -> p <> [] -> has_table l p.
Proof.
  intros G N. apply assigned_shape in G as (q & x & E & H). apply app_inj_tail in E as [<- <-]. destruct H as [->|H]; [congruence|].
  split; [exact N|]. exists []. now rewrite app_nil_r.
Qed.
Lemma table_table l p q : has_table l (p ++ q) -> p <> [] -> has_table l p.
Proof. intros [_ [r H]] N. split; [exact N|]. exists (q ++ r). now rewrite app_assoc. Qed.

(* ------------------------------------------------------------------ reading *)

Section Read.
  Variable lax : bool.
  Variable order : path -> list (bytes * node) -> list (bytes * node).
  Variable l : list stmt.
  Variable t : tree.
  Hypothesis FO : fair order.
  Hypothesis NO : forall p n, In (p, n) t -> Forall bytes_ok p.
  Hypothesis TL : forall p v, In (p, NLeaf v) t <-> gives l p v.
  Hypothesis TT : forall p, In (p, NTable) t <-> has_table l p.
  Lemma spelled1 p nm : spelled p [nm] <-> exists k, p = [k] /\ reads_as k nm.
  Proof.
    unfold spelled. split.
    - intros H. inversion H as [|k ? p' ? R H']; subst. inversion H'; subst. eauto.
    - intros (k & -> & R). constructor; [exact R|constructor].
  Qed.
  Lemma spelled2 p a b : spelled p [a; b] <-> exists k x, p = [k; x] /\ reads_as k a /\ reads_as x b.
  Proof.
    unfold spelled. split.
    - intros H. inversion H as [|k ? p' ? R H']; subst. inversion H' as [|x ? p2 ? R2 H2]; subst. inversion H2; subst. eauto.
    - intros (k & x & -> & R & R2). constructor; [exact R|]. constructor; [exact R2|constructor].
  Qed.
  Lemma fits_iff : (forall k n, In ([k], n) t -> top_fit lax order t k n) <-> fits lax l.
  Proof.
    split.
    - intros H. unfold fits. repeat apply conj.
      + intros o q p P S. destruct (place_shape o q P) as [Q|[Q|(sec & nm & SI & Q)]].
        1, 2: rewrite Q in P, S; apply spelled1 in S as (k & -> & R); split;
            [intros HT; apply TT in HT; destruct (proj1 (H _ _ HT) _ _ P R) as (w & X & _); discriminate X
            |intros v G; apply TL in G; destruct (proj1 (H _ _ G) _ _ P R) as (w & X & K); injection X as ->; exact K].
        rewrite Q in P, S. apply spelled2 in S as (k & x & -> & R & R2).
        assert (has_table l [k] -> forall n, In ([k; x], n) t -> exists w, n = NLeaf w /\ of_kind (kind_of o) w) as K.
        { intros HT n I. apply TT in HT. destruct (H _ _ HT) as (_ & F2 & _). destruct (F2 sec SI R) as [_ F]. exact (F x n I o nm P R2). }
        split.
        * intros HT. destruct (K (table_table l [k] [x] HT ltac:(discriminate)) NTable) as (w & X & _); [now apply TT|discriminate X].
        * intros v G. destruct (K (gives_table l [k] x v G ltac:(discriminate)) (NLeaf v)) as (w & X & Y); [now apply TL|]. injection X as ->. exact Y.
      + intros s k v [SI|[L ->]] R G; apply TL in G; destruct (H _ _ G) as (_ & F2 & F3).
        * destruct (F2 k SI R) as [X _]. discriminate X.
        * destruct (F3 R) as [[X|X] _]; [discriminate X|congruence].
      + intros s k v R G. pose proof (gives_table l [s] k v G ltac:(discriminate)) as HT. apply TT in HT. destruct (H _ _ HT) as (_ & _ & F3).
        destruct (F3 R) as [_ F]. destruct (F eq_refl k (NLeaf v)) as [X _]; [now apply TL|discriminate X].
      + assert (forall s k f x, reads_as s (str "Interfaces") -> reads_as x (iplace f) -> has_table l [s; k] -> forall n, In ([s; k; x], n) t -> exists w, n = NLeaf w /\ of_kind (ikind f) w) as K.
        { intros s k f x R RX HT n I. pose proof (table_table l [s] [k] HT ltac:(discriminate)) as H1. apply TT in H1. destruct (H _ _ H1) as (_ & _ & F3).
          destruct (F3 R) as [_ F]. apply TT in HT. destruct (F eq_refl k NTable HT) as [_ E]. apply (proj1 (iface_ok order t FO NO s k) E x n I f RX). }
        intros s k f x R RX. split.
        * intros HT. destruct (K s k f x R RX (table_table l [s; k] [x] HT ltac:(discriminate)) NTable) as (w & X & _); [now apply TT|discriminate X].
        * intros v G. destruct (K s k f x R RX (gives_table l [s; k] x v G ltac:(discriminate)) (NLeaf v)) as (w & X & Y); [now apply TL|]. injection X as ->. exact Y.
    - intros (F1 & F2 & F3 & F4) k n I. repeat apply conj.
      + intros o nm P R. destruct (F1 o _ [k] P) as [N G]; [apply spelled1; eauto|]. destruct n as [v|]; [apply TL in I; eauto|]. apply TT in I. contradiction.
      + intros sec SI R. destruct n as [v|]; [apply TL in I; elim (F2 k sec v (or_introl SI) R I)|]. split; [reflexivity|].
        intros k' n' I' o nm P R'. destruct (F1 o _ [k; k'] P) as [N G]; [apply spelled2; eauto 6|]. destruct n' as [v|]; [apply TL in I'; eauto|]. apply TT in I'. contradiction.
      + intros R. split.
        * destruct n as [v|]; [|now left]. right. apply TL in I. destruct lax eqn:L; [reflexivity|]. elim (F2 k (str "Interfaces") v (or_intror (conj eq_refl eq_refl)) R I).
        * intros _ x n' I'. destruct n' as [v|]; [apply TL in I'; elim (F3 k x v R I')|]. split; [reflexivity|]. apply (iface_ok order t FO NO).
          intros y n2 I2 o RO. destruct (F4 k x o y R RO) as [N G]. destruct n2 as [v|]; [apply TL in I2; eauto|]. apply TT in I2. contradiction.
  Qed.
  Lemma off_zero o : get o zero_config = off (kind_of o). Proof. now destruct o. Qed.
  Lemma iface_find c k i : keyed (cf_ifaces c) -> iface_of c k i <-> observe (CI k) c = VI (Some i).
  Proof.
    unfold iface_of, observe, keyed. destruct (cf_ifaces c) as [m|]; intros K.
    - split; [intros (m' & E & I); injection E as <-; apply ConfigProps.find_in in I; [now rewrite I|exact K]|].
      intros E. exists m. split; [reflexivity|]. apply ConfigProps.find_in; [exact K|]. now injection E.
    - split; [intros (m' & E & I); discriminate E|discriminate].
  Qed.
  Lemma unify_reads c : unify lax order t = Some c -> says l c.
  Proof.
    intros E. destruct (unify_says lax order t FO NO c E) as [U K]. repeat apply conj.
    - intros o. assert (forall v, (exists k n, In ([k], n) t /\ top_eff order t k n (CO o) (VO v)) <-> exists w, sets l o w /\ v = value_of w) as EQ.
      { intros v. split.
        - intros (k & n & I & [(nm & w & P & R & -> & X)|(sec & nm & k' & w & P & R & -> & I' & R' & X)]); injection X as ->; exists w; (split; [|reflexivity]).
          + exists [nm], [k]. split; [exact P|]. split; [apply spelled1; eauto|now apply TL].
          + exists [sec; nm], [k; k']. split; [exact P|]. split; [apply spelled2; eauto 6|now apply TL].
        - intros (w & (q & p & P & S & G) & ->). destruct (place_shape o q P) as [Q|[Q|(sec & nm & SI & Q)]].
          1, 2: rewrite Q in P, S; apply spelled1 in S as (k & -> & R); exists k, (NLeaf w); split; [now apply TL|]; left; eexists; exists w; eauto.
          rewrite Q in P, S. apply spelled2 in S as (k & x & -> & R & R2). exists k, NTable. split; [apply TT; exact (gives_table l [k] x w G ltac:(discriminate))|].
          right. exists sec, nm, x, w. split; [exact P|]. split; [exact R|]. split; [reflexivity|]. split; [now apply TL|auto]. }
      destruct (U (CO o)) as [(v & S & O)|[N O]].
      + cbn [observe] in O. subst v. left. apply EQ in S as (w & S & V). eauto.
      + right. split; [|cbn [observe] in O; injection O as O; rewrite O; apply off_zero]. intros w S. apply (N (VO (value_of w))). apply EQ. eauto.
    - intros k i IF. apply iface_find in IF; [|exact K]. destruct (U (CI k)) as [(v & (s & n & I & T) & O)|[N O]]; [|rewrite IF in O; discriminate O].
      cbn [top_eff] in T. destruct T as (R & -> & j & I' & RD & ->). rewrite IF in O. injection O as <-. exists s. split; [split; [exact R|now apply TT]|].
      intros f. destruct (iface_says order t FO NO s k i RD f) as [(v & (y & n' & I2 & w & RY & -> & ->) & O2)|[N2 O2]].
      + left. exists w. split; [|exact O2]. exists y. split; [exact RY|now apply TL].
      + right. split; [|rewrite O2; now destruct f]. intros w (y & RY & G). apply (N2 (ivalue f w)). exists y, (NLeaf w). split; [now apply TL|]. exists w. auto.
    - intros s k [R HT]. destruct (U (CI k)) as [(v & (s' & n & I & T) & O)|[N O]].
      + cbn [top_eff] in T. destruct T as (R' & -> & j & I' & RD & ->). exists j. now apply iface_find.
      + exfalso. pose proof (table_table l [s] [k] HT ltac:(discriminate)) as H1. apply TT in H1. apply TT in HT.
        destruct (proj1 (unify_ok lax order t FO NO) (ex_intro _ c E) _ _ H1) as (_ & _ & F3). destruct (F3 R) as [_ F]. destruct (F eq_refl k NTable HT) as [_ [j RD]].
        apply (N (VI (Some j))). exists s, NTable. split; [exact H1|]. cbn [top_eff]. split; [exact R|]. split; [reflexivity|]. exists j. auto.
    - intros m EM. unfold keyed in K. now rewrite EM in K.
  Qed.
End Read.

(** C101: a text is read just if everything in it fits, and then the configuration is what the
    text says. *)
Theorem C101_read lax order other s l : bytes_ok s -> fair order -> toml_text s l -> proper l ->
  ((exists c, toml_decode lax order other s = Some c) <-> fits lax l) /\
  (forall c, toml_decode lax order other s = Some c -> says l c).
Proof.
  intros B FO (D & Z0 & U) PR. destruct (document_names s l D B) as [HN AN].
  assert (Forall (fun p => p <> []) (headers l)) as NE by (eapply Forall_impl; [|exact HN]; intros p [_ H]; exact H).
  destruct (parse_proper l NE PR) as (t & PA & ND & TL & TT).
  assert (forall p n, In (p, n) t -> Forall bytes_ok p) as NO.
  { intros p [v|] I.
    - apply TL in I. specialize (AN [] (Forall_nil _)). rewrite Forall_forall in AN. exact (AN _ I).
    - apply TT in I as [_ [q I]]. rewrite Forall_forall in HN. apply HN in I as [I _]. now apply Forall_app in I as [I _]. }
  assert (toml_decode lax order other s = unify lax order t) as ->.
  { unfold toml_decode. rewrite (proj2 (strange_iff s B) (conj Z0 U)), (proj2 (lex_iff s l) D), PA. reflexivity. }
  split.
  - rewrite (unify_ok lax order t FO NO). now apply fits_iff.
  - intros c E. eapply unify_reads; eassumption.
Qed.
