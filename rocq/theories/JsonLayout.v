(** JsonLayout: compact and indented layouts of the same tree are JSON texts with the same
    meaning, and values are encoded as what they mean (C86-C90). *)
From Coq Require Import ZArith Reals Lia Floats.SpecFloat ZifyBool Permutation.
From Flocq Require Import Core BinarySingleNaN.
From Verif Require Import GoBase BufFacts Strconv StrconvFacts CanModel NmeaTypes NmeaModel NmeaSpec NmeaFloat NmeaExtract NmeaProps1 NmeaParse
  SignalkModel SignalkSpec MainModel ApiModel FtoaModel JsonSpec FtoaFacts JsonModel JsonFacts.
Open Scope Z_scope.
Open Scope list_scope.

(* ------------------------------------------------------------------ trees *)

(** A tree stands for a value. *)
Inductive tmeans : jt -> jv -> Prop :=
| tm_atom b v : json b v -> tmeans (TAtom b) v
| tm_list l vs : Forall2 tmeans l vs -> tmeans (TList l) (JArr vs)
| tm_obj l ms : Forall2 (fun kv m => (bytes_ok (fst kv) /\ reads (fst kv) (fst m)) /\ tmeans (snd kv) (snd m)) l ms -> tmeans (TObj l) (JObj ms).

Fixpoint jt_rect' (P : jt -> Prop) (HA : forall b, P (TAtom b)) (HL : forall l, Forall P l -> P (TList l))
    (HO : forall l, Forall (fun kv => P (snd kv)) l -> P (TObj l)) (t : jt) : P t :=
  match t with
  | TAtom b => HA b
  | TList l => HL l ((fix go l := match l return Forall P l with
                                  | [] => Forall_nil _
                                  | x :: r => Forall_cons x (jt_rect' P HA HL HO x) (go r) end) l)
  | TObj l => HO l ((fix go l := match l return Forall (fun kv : bytes * jt => P (snd kv)) l with
                                  | [] => Forall_nil _
                                  | x :: r => Forall_cons x (jt_rect' P HA HL HO (snd x)) (go r) end) l)
  end.

Lemma joined_cons sep x y r : joined sep (x :: y :: r) = x ++ sep ++ joined sep (y :: r).
Proof. reflexivity. Qed.
Lemma items_joined n1 n2 l : blank_text n1 -> blank_text n2 -> forall vs, Forall2 json l vs -> l <> [] ->
  items (n1 ++ joined (44 :: n1) l ++ n2) vs.
Proof.
  intros B1 B2. induction l as [|s l IH]; intros vs F NE; [congruence|]. inversion F as [|? v ? vs' J F']; subst. clear F NE.
  destruct l as [|s' l].
  - inversion F'; subst. cbn [joined]. apply it_one; assumption.
  - rewrite joined_cons. specialize (IH vs' F' ltac:(discriminate)).
    replace (n1 ++ (s ++ (44 :: n1) ++ joined (44 :: n1) (s' :: l)) ++ n2)
      with ((n1 ++ s ++ []) ++ [44] ++ (n1 ++ joined (44 :: n1) (s' :: l) ++ n2))
      by (rewrite app_nil_r, <- !app_assoc; reflexivity).
    apply it_cons; try assumption. constructor.
Qed.
Lemma members_joined n1 n2 n3 l : blank_text n1 -> blank_text n2 -> blank_text n3 ->
  forall ms, Forall2 (fun ks (m : list Z * jv) => string_text (fst ks) (fst m) /\ json (snd ks) (snd m)) l ms -> l <> [] ->
  members (n1 ++ joined (44 :: n1) (map (fun ks => fst ks ++ [58] ++ n3 ++ snd ks) l) ++ n2) ms.
Proof.
  intros B1 B2 B3. induction l as [|[k s] l IH]; intros ms F NE; [congruence|].
  inversion F as [|? [kc v] ? ms' [K J] F']; subst. clear F NE. cbn [fst snd] in *.
  destruct l as [|s' l].
  - inversion F'; subst. cbn [map joined fst snd].
    replace (n1 ++ (k ++ [58] ++ n3 ++ s) ++ n2) with (n1 ++ k ++ [] ++ [58] ++ n3 ++ s ++ n2) by (rewrite <- !app_assoc; reflexivity).
    apply me_one. apply mb; try assumption. constructor.
  - specialize (IH ms' F' ltac:(discriminate)). cbn [map] in IH |- *. rewrite joined_cons. cbn [fst snd] in IH |- *.
    match goal with |- members (n1 ++ (?a ++ (44 :: n1) ++ ?r) ++ n2) _ =>
      replace (n1 ++ (a ++ (44 :: n1) ++ r) ++ n2) with ((n1 ++ k ++ [] ++ [58] ++ n3 ++ s ++ []) ++ [44] ++ (n1 ++ r ++ n2))
        by (rewrite app_nil_r, <- !app_assoc; reflexivity) end.
    apply me_cons; [|exact IH]. apply mb; try assumption; constructor.
Qed.

Lemma blank_nil : blank_text [].
Proof. constructor. Qed.
Lemma newline_blank n : blank_text (newline n).
Proof.
  unfold newline, blank_text. constructor; [cbn; auto|].
  induction n as [|n IH]; [constructor|]. cbn [repeat List.concat]. apply Forall_app. split; [|exact IH].
  repeat constructor; cbn; auto.
Qed.

Lemma names_ok {P : jt -> jv -> Prop} l ms :
  Forall2 (fun kv (m : list Z * jv) => (bytes_ok (fst kv) /\ reads (fst kv) (fst m)) /\ tmeans (snd kv) (snd m)) l ms ->
  forall (f : jt -> bytes), Forall (fun kv : bytes * jt => forall v, tmeans (snd kv) v -> json (f (snd kv)) v) l ->
  Forall2 (fun ks (m : list Z * jv) => string_text (fst ks) (fst m) /\ json (snd ks) (snd m)) (map (fun kv => (json_string (fst kv), f (snd kv))) l) ms.
Proof.
  induction 1 as [|[k t] [kc v] l ms [[B K] T] F IH]; intros f A; [constructor|]. cbn [fst snd map] in *.
  inversion A as [|? ? A1 A2]; subst. cbn [fst snd] in *. constructor; [|apply IH; exact A2]. cbn [fst snd].
  destruct (json_string_ok k B) as [cs [R S]]. rewrite (reads_fun _ _ _ K R). split; [exact S|]. apply A1. exact T.
Qed.

Lemma texts_ok l vs : Forall2 tmeans l vs -> forall (f : jt -> bytes), Forall (fun t => forall v, tmeans t v -> json (f t) v) l ->
  Forall2 json (map f l) vs.
Proof.
  induction 1 as [|t v l vs T F IH]; intros f A; [constructor|]. inversion A; subst. cbn [map]. constructor; auto.
Qed.

Lemma F2_nil_l {A B} (P : A -> B -> Prop) l : Forall2 P [] l -> l = [].
Proof. now inversion 1. Qed.
Lemma F2_ne {A B} (P : A -> B -> Prop) x l m : Forall2 P (x :: l) m -> m <> [].
Proof. now inversion 1. Qed.

Theorem compact_ok t : forall v, tmeans t v -> json (compact t) v.
Proof.
  induction t using jt_rect'; intros v T; inversion T; subst; clear T; cbn [compact].
  - assumption.
  - rename H1 into F. destruct l as [|x l].
    + apply F2_nil_l in F as ->. apply (js_arr0 []). constructor.
    + apply js_arr; [now apply F2_ne in F|].
      pose proof (items_joined [] [] (map compact (x :: l)) blank_nil blank_nil vs (texts_ok _ _ F compact H) ltac:(discriminate)) as I.
      cbn [app] in I. rewrite app_nil_r in I. exact I.
  - rename H1 into F. destruct l as [|x l].
    + apply F2_nil_l in F as ->. apply (js_obj0 []). constructor.
    + apply js_obj; [now apply F2_ne in F|].
      pose proof (members_joined [] [] [] (map (fun kv => (json_string (fst kv), compact (snd kv))) (x :: l)) blank_nil blank_nil blank_nil ms
                   (names_ok (P := tmeans) _ _ F compact H) ltac:(discriminate)) as I.
      rewrite map_map in I. cbn [app fst snd] in I. rewrite app_nil_r in I.
      erewrite map_ext; [exact I|]. intros [k t]. reflexivity.
Qed.

Theorem indent_ok t : forall n v, tmeans t v -> json (indent n t) v.
Proof.
  induction t using jt_rect'; intros n v T; inversion T; subst; clear T; cbn [indent].
  - assumption.
  - rename H1 into F. destruct l as [|x l].
    + apply F2_nil_l in F as ->. apply (js_arr0 []). constructor.
    + cbv beta iota. set (L := x :: l) in *.
      assert (A : Forall (fun t => forall v, tmeans t v -> json (indent (S n) t) v) L).
      { apply Forall_forall. intros t I. rewrite Forall_forall in H. intros v. apply H. exact I. }
      pose proof (items_joined (newline (S n)) (newline n) (map (indent (S n)) L) (newline_blank _) (newline_blank _) vs (texts_ok _ _ F _ A) ltac:(discriminate)) as I.
      replace ([91] ++ newline (S n) ++ joined (44 :: newline (S n)) (map (indent (S n)) L) ++ newline n ++ [93])
        with ([91] ++ (newline (S n) ++ joined (44 :: newline (S n)) (map (indent (S n)) L) ++ newline n) ++ [93]) by (rewrite <- !app_assoc; reflexivity).
      apply js_arr; [now apply F2_ne in F|exact I].
  - rename H1 into F. destruct l as [|x l].
    + apply F2_nil_l in F as ->. apply (js_obj0 []). constructor.
    + cbv beta iota. set (L := x :: l) in *.
      assert (A : Forall (fun kv : bytes * jt => forall v, tmeans (snd kv) v -> json (indent (S n) (snd kv)) v) L).
      { apply Forall_forall. intros t I. rewrite Forall_forall in H. intros v. apply H. exact I. }
      pose proof (members_joined (newline (S n)) (newline n) [32] (map (fun kv => (json_string (fst kv), indent (S n) (snd kv))) L)
                   (newline_blank _) (newline_blank _) ltac:(repeat constructor; cbn; auto) ms (names_ok (P := tmeans) _ _ F _ A) ltac:(discriminate)) as I.
      rewrite map_map in I. cbn [fst snd] in I.
      match goal with |- json ([123] ++ newline (S n) ++ ?j ++ newline n ++ [125]) _ =>
        replace ([123] ++ newline (S n) ++ j ++ newline n ++ [125]) with ([123] ++ (newline (S n) ++ j ++ newline n) ++ [125]) by (rewrite <- !app_assoc; reflexivity) end.
      apply js_obj; [now apply F2_ne in F|]. erewrite map_ext; [exact I|]. intros [k t]. reflexivity.
Qed.

(* ------------------------------------------------------------------ atoms *)

Lemma tm_num n : tmeans (tnum n) (JNum n 0).
Proof. apply tm_atom, js_num, itoa_number. Qed.
Lemma tm_text s cs : bytes_ok s -> reads s cs -> tmeans (ttext s) (JStr cs).
Proof.
  intros B R. apply tm_atom, js_str. destruct (json_string_ok s B) as [cs' [R' S]]. now rewrite (reads_fun _ _ _ R R').
Qed.
Lemma tm_bool b : tmeans (tbool b) (JBool b).
Proof. apply tm_atom. destruct b; constructor. Qed.
Lemma tm_slice l vs : l <> [] -> Forall2 tmeans l vs -> tmeans (tslice l) (JArr vs).
Proof. intros N F. destruct l; [congruence|]. now apply tm_list. Qed.

Lemma bytes_ok_reads s : bytes_ok s -> exists cs, reads s cs.
Proof. intros B. destruct (json_string_ok s B) as [cs [R _]]. eauto. Qed.

(* ------------------------------------------------------------------ values *)

(** The values that can be written: finite numbers, octets that are octets, years 0 to 9999. *)
Definition encodable (tz : Z) (v : gval) : Prop :=
  match v with
  | VFloat32 x => valid_binary 24 128 x = true /\ is_finite_SF x = true
  | VFloat64 x => valid_binary 53 1024 x = true /\ is_finite_SF x = true
  | VString s | VBytes s => bytes_ok s
  | VTime sec ns => 0 <= ns < 10 ^ 9 /\ -719528 <= (sec + tz) / 86400 < 2932897
  | VOther _ => False
  | _ => True
  end.

Lemma json_bytes_ok nilb tz s : bytes_ok s -> exists w, json (json_bytes nilb s) w /\ jmeans tz (VBytes s) w.
Proof.
  intros B. pose proof (b64_ok (List.length s) s ltac:(lia) B) as E. destruct s as [|b s].
  - cbn [json_bytes]. destruct nilb.
    + exists JNull. split; constructor.
    + exists (JStr []). split; [|apply jm_bytes; constructor]. apply js_str. exists []. split; [reflexivity|constructor].
  - exists (JStr (b64 (b :: s))). split; [|apply jm_bytes; exact E]. cbn [json_bytes]. apply js_str, plain_text, (b64_plain _ _ E).
Qed.

Theorem json_value_ok other nilb tz v : -86400 < tz < 86400 -> encodable tz v ->
  exists b w, json_value other nilb tz v = Some b /\ json b w /\ jmeans tz v w.
Proof.
  intros Z1 E. destruct v as [|n|n|n|n|n|x|x|s|s|sec nsec|k]; cbn [json_value encodable] in *; try contradiction.
  - exists (str "null"), JNull. repeat split; constructor.
  - eexists _, (JNum n 0). split; [reflexivity|]. split; [apply js_num, itoa_number|constructor].
  - eexists _, (JNum n 0). split; [reflexivity|]. split; [apply js_num, itoa_number|constructor].
  - eexists _, (JNum n 0). split; [reflexivity|]. split; [apply js_num, itoa_number|constructor].
  - eexists _, (JNum n 0). split; [reflexivity|]. split; [apply js_num, itoa_number|constructor].
  - eexists _, (JNum n 0). split; [reflexivity|]. split; [apply js_num, itoa_number|constructor].
  - destruct E as [V F]. destruct (json_float_ok 24 128 _ x V F) as [s [m [e [H [N R]]]]].
    exists s, (JNum m e). split; [exact H|]. split; [now apply js_num|]. apply jm_f32. exact R.
  - destruct E as [V F]. destruct (json_float_ok 53 1024 _ x V F) as [s [m [e [H [N R]]]]].
    exists s, (JNum m e). split; [exact H|]. split; [now apply js_num|]. apply jm_f64. exact R.
  - destruct (json_string_ok s E) as [cs [R S]]. exists (json_string s), (JStr cs). split; [reflexivity|]. split; [now apply js_str|now apply jm_text].
  - destruct (json_bytes_ok nilb tz s E) as [w [J M]]. exists (json_bytes nilb s), w. auto.
  - destruct E as [N R]. destruct (json_time_ok tz sec nsec N Z1 R) as [t [H [I P]]].
    exists (34 :: t ++ [34]), (JStr t). split; [exact H|]. split; [now apply js_str, plain_text|now apply jm_time].
Qed.
