(** HtmlProps: the pages as browsers read them (C99). *)
From Coq Require Import Lia ZifyBool.
From Verif Require Import GoBase Strconv StrconvFacts ApiModel ApiSpec ApiProps ConfigModel ConfigSpec PackagesModel FormModel FormSpec PagesText HtmlModel HtmlSpec.
Open Scope Z_scope.
Open Scope list_scope.

Lemma read_app a b : forall s s1 t1 s2 t2, read s a = Some (s1, t1) -> read s1 b = Some (s2, t2) -> read s (a ++ b) = Some (s2, t1 ++ t2).
Proof.
  induction a as [|c a IH]; intros s s1 t1 s2 t2 H1 H2.
  - injection H1 as <- <-. exact H2.
  - cbn [app read] in *. destruct (step s c) as [[s' t']|]; [|discriminate]. destruct (read s' a) as [[s'' t'']|] eqn:E; [|discriminate].
    injection H1 as <- <-. now rewrite (IH _ _ _ _ _ E H2), app_assoc.
Qed.
(** An escaped text in the page shows the text. *)
Lemma text_hole s : read SData (html_escape s) = Some (SData, text (visible s)).
Proof.
  induction s as [|c s IH]; [reflexivity|]. unfold html_escape, visible, text in *. cbn [flat_map]. rewrite map_app.
  eapply read_app; [|exact IH]. unfold html_char.
  destruct (Z.eqb_spec c 0) as [->|N0]; [reflexivity|]. destruct (Z.eqb_spec c 34) as [->|N1]; [reflexivity|].
  destruct (Z.eqb_spec c 38) as [->|N2]; [reflexivity|]. destruct (Z.eqb_spec c 39) as [->|N3]; [reflexivity|].
  destruct (Z.eqb_spec c 43) as [->|N4]; [reflexivity|]. destruct (Z.eqb_spec c 60) as [->|N5]; [reflexivity|].
  destruct (Z.eqb_spec c 62) as [->|N6]; [reflexivity|]. cbn [read map]. unfold step.
  rewrite (proj2 (Z.eqb_neq c 0) N0), (proj2 (Z.eqb_neq c 38) N2), (proj2 (Z.eqb_neq c 60) N5). reflexivity.
Qed.
Lemma value_hole q n l a s : q = 34 \/ q = 39 -> forall v, read (SValue q n l a v) (html_escape s) = Some (SValue q n l a (v ++ visible s), []).
Proof.
  intros Q. induction s as [|c s IH]; intros v; [cbn; now rewrite app_nil_r|]. unfold html_escape, visible in *. cbn [flat_map].
  change (@nil token) with (@nil token ++ []). rewrite app_assoc. eapply read_app; [|exact (IH _)]. unfold html_char.
  destruct (Z.eqb_spec c 0) as [->|N0]; [destruct Q as [-> | ->]; cbn; now rewrite <- !app_assoc|].
  destruct (Z.eqb_spec c 34) as [->|N1]; [destruct Q as [-> | ->]; reflexivity|].
  destruct (Z.eqb_spec c 38) as [->|N2]; [destruct Q as [-> | ->]; reflexivity|]. destruct (Z.eqb_spec c 39) as [->|N3]; [destruct Q as [-> | ->]; reflexivity|].
  destruct (Z.eqb_spec c 43) as [->|N4]; [destruct Q as [-> | ->]; reflexivity|]. destruct (Z.eqb_spec c 60) as [->|N5]; [destruct Q as [-> | ->]; reflexivity|].
  destruct (Z.eqb_spec c 62) as [->|N6]; [destruct Q as [-> | ->]; reflexivity|]. cbn [read]. unfold step.
  rewrite (proj2 (Z.eqb_neq c 0) N0), (proj2 (Z.eqb_neq c 38) N2). destruct (Z.eqb_spec c q) as [->|N]; [destruct Q; contradiction|]. reflexivity.
Qed.
Lemma value_hole0 n l a s : read (SValue 34 n l a []) (html_escape s) = Some (SValue 34 n l a (visible s), []).
Proof. exact (value_hole 34 n l a s (or_introl eq_refl) []). Qed.

(** h stands for the text v, in text and in values. *)
Definition stands_for (h v : bytes) : Prop :=
  read SData h = Some (SData, text v) /\ forall n l a, read (SValue 34 n l a []) h = Some (SValue 34 n l a v, []).
Lemma escape_stands s : stands_for (html_escape s) (visible s).
Proof. split; [apply text_hole|intros; apply value_hole0]. Qed.
Ltac gen s := let H := fresh "H" in pose proof (escape_stands s) as H; destruct H; generalize dependent (html_escape s); generalize dependent (visible s); intros.

Definition apps_nodes := Eval vm_compute in match escaped apps_gtpl with Some l => l | None => [] end.
Lemma apps_nodes_ok : escaped apps_gtpl = Some apps_nodes.
Proof. vm_compute. reflexivity. Qed.
(* ------------------------------------------------------------------ the list of apps *)

(** The address a link gets. *)
Definition link (u : bytes) : bytes := visible (url_normalize (url_filter u)).
Definition row_of (o : npm_object) : list token :=
  app_row (visible (np_name o)) (visible (np_version o)) (visible (np_description o)) (visible (np_author o)) (link (np_npm o))
    (match np_path o with [] => None | p => Some (link p) end) (visible (np_installed o)).
Ltac fld e n v := let l := eval vm_compute in (str n) in change (value e l) with v.
Ltac cnd e n v := let l := eval vm_compute in (str n) in change (truth e l) with v.
Ltac branch :=
  match goal with |- read _ ((if _ then _ else _) ++ _) = _ => idtac end; rewrite app_assoc;
  match goal with |- read ?s (((if ?b then ?x else ?y) ++ ?l) ++ _) = _ =>
    let r1 := eval vm_compute in (read s (x ++ l)) in let r2 := eval vm_compute in (read s (y ++ l)) in
    match r1 with Some (?q, ?u) => match r2 with Some (_, ?w) =>
      eapply (read_app _ _ s q (if b then u else w)); [destruct b; vm_compute; reflexivity|] end end end.
Ltac lit := eapply read_app; [vm_compute; reflexivity|].
Ltac hole :=
  match goal with
  | H : read SData ?h = _ |- read SData (?h ++ _) = _ => eapply read_app; [exact H|]
  | H : forall n l a, read (SValue 34 n l a []) ?h = _ |- read (SValue 34 _ _ _ []) (?h ++ _) = _ => eapply read_app; [apply H|]
  end.
Definition row_nodes : list enode := Eval vm_compute in match apps_nodes with [_; _; ERange b; _; _] => b | _ => [] end.
Lemma row_reads o : read SData (exec [] (app_env o) row_nodes) = Some (SData, row_of o).
Proof.
  unfold exec, row_nodes, row_of. cbn [flat_map exec_node].
  fld (app_env o) "$app.Package.Name"%string (np_name o).
  fld (app_env o) "$app.Package.Version"%string (np_version o).
  fld (app_env o) "$app.Package.Description"%string (np_description o).
  fld (app_env o) "$app.Package.Author.Name"%string (np_author o).
  fld (app_env o) "$app.Package.Links.Npm"%string (np_npm o).
  fld (app_env o) "$app.Path"%string (np_path o).
  fld (app_env o) "$app.Version"%string (np_installed o).
  let l := eval vm_compute in (str "$app.Path") in change (truth (app_env o) l) with (match np_path o with [] => false | _ => true end).
  unfold link. generalize (url_normalize (url_filter (np_npm o))) as npm, (np_name o) as name, (np_version o) as version, (np_description o) as description, (np_author o) as author, (np_installed o) as installed.
  intros npm name version description author installed.
  assert (forall a b r, read SData a = Some (SData, b) -> b = r -> read SData a = Some (SData, r)) as K by (intros; subst; assumption).
  gen npm. gen name. gen version. gen description. gen author. gen installed.
  destruct (np_path o) as [|p0 p]; [|generalize (url_normalize (url_filter (p0 :: p))) as path; intros path; gen path]; cbv iota; rewrite <- ?app_assoc.
  all: eapply K; [repeat (first [hole|lit]); reflexivity|unfold app_row; cbv iota; rewrite <- ?app_assoc; vm_compute; reflexivity].
Qed.

(** C99: the page with the apps consists of a fixed beginning, one row per app and a fixed end,
    and each row has the texts of its app where they belong: whatever the registry sends. *)
Theorem C99_apps : exists first last, forall installed objects, exists b,
  apps_page installed objects = Some b /\
  html b (first ++ flat_map (fun o => row_of (with_installed installed o)) objects ++ last).
Proof.
  unfold apps_page. rewrite apps_nodes_ok.
  assert (exists l1 l2 l3 l4, apps_nodes = [ELit l1; ELit l2; ERange row_nodes; ELit l3; ELit l4] /\
    exists t1 t2 t3 t4, read SData l1 = Some (SData, t1) /\ read SData l2 = Some (SData, t2) /\ read SData l3 = Some (SData, t3) /\ read SData l4 = Some (SData, t4))
    as (l1 & l2 & l3 & l4 & -> & t1 & t2 & t3 & t4 & R1 & R2 & R3 & R4).
  { do 4 eexists. split; [reflexivity|]. do 4 eexists. repeat split; vm_compute; reflexivity. }
  exists (t1 ++ t2), (t3 ++ t4). intros installed objects. eexists. split; [reflexivity|]. unfold html, exec. cbn [flat_map exec_node].
  rewrite <- app_assoc. eapply read_app; [exact R1|]. eapply read_app; [exact R2|]. eapply read_app with (s1 := SData).
  - induction objects as [|o objects IH]; [reflexivity|]. cbn [map flat_map]. eapply read_app; [apply row_reads|exact IH].
  - eapply read_app; [exact R3|]. rewrite app_nil_r. exact R4.
Qed.

(* ------------------------------------------------------------------ links *)

Lemma normalize_cons c r : url_normalize (c :: r) = (if url_keeps c r then [c] else [37; hexdigit (c / 16); hexdigit (c mod 16)]) ++ url_normalize r.
Proof. reflexivity. Qed.
Lemma hexdigit_range d : 0 <= d < 16 -> 48 <= hexdigit d <= 57 \/ 97 <= hexdigit d <= 102.
Proof. unfold hexdigit. destruct (d <? 10) eqn:E; lia. Qed.
Lemma keeps_char c r : url_keeps c r = true -> 33 <= c <= 126.
Proof.
  unfold url_keeps. intros H. apply orb_true_iff in H as [H|H]; [|lia]. apply orb_true_iff in H as [H|H]; [|lia]. apply orb_true_iff in H as [H|H]; [|unfold alpha in H; lia].
  apply existsb_exists in H as (x & Ix & Ex). apply Z.eqb_eq in Ex. subst x.
  assert (Forall (fun c => 33 <= c <= 126) (str "!#$&*+,/:;=?@[]-._~")) as F by (repeat constructor; vm_compute; discriminate).
  rewrite Forall_forall in F. now apply F.
Qed.
Lemma normalize_chars u : bytes_ok u -> Forall (fun c => 33 <= c <= 126) (url_normalize u).
Proof.
  induction 1 as [|c r B F IH]; [constructor|]. rewrite normalize_cons. apply Forall_app. split; [|exact IH].
  destruct (url_keeps c r) eqn:E; [constructor; [now apply keeps_char in E|constructor]|].
  assert (0 <= c / 16 < 16 /\ 0 <= c mod 16 < 16) as [H1 H2] by (unfold is_byte in B; Z.to_euclidean_division_equations; lia).
  pose proof (hexdigit_range _ H1). pose proof (hexdigit_range _ H2). repeat constructor; lia.
Qed.
Lemma visible_id s : Forall (fun c => 33 <= c <= 126) s -> visible s = s.
Proof. induction 1 as [|c s H F IH]; [reflexivity|]. unfold visible in *. cbn [flat_map]. destruct (Z.eqb_spec c 0); [lia|]. cbn [app]. now rewrite IH. Qed.
Lemma clean_id s : Forall (fun c => 33 <= c <= 126) s -> clean_url s = s.
Proof.
  intros F. unfold clean_url. assert (filter (fun c => negb (existsb (Z.eqb c) [9; 10; 13])) s = s) as ->.
  { induction F as [|c s H F IH]; [reflexivity|]. cbn [filter]. replace (negb (existsb (Z.eqb c) [9; 10; 13])) with true by (cbn [existsb]; lia). now rewrite IH. }
  destruct F as [|c s H F]; [reflexivity|]. replace (c <=? 32) with false by lia. reflexivity.
Qed.
Lemma link_id u : bytes_ok u -> link u = url_normalize (url_filter u).
Proof.
  intros B. unfold link. apply visible_id, normalize_chars. unfold url_filter. destruct (is_safe_url u); [exact B|apply Forall_forall; intros c I; (assert (forallb is_byteb (str "#ZgotmplZ") = true) as K by reflexivity; rewrite forallb_forall in K; specialize (K c I); unfold is_byteb in K; unfold is_byte; lia)].
Qed.
(** What is in front of the colon stays as it is. *)
Lemma scheme_kept u : forall s, scheme_rest (url_normalize u) = Some s ->
  exists p, before_colon u = Some p /\ map HtmlSpec.lower p = s /\ Forall (fun c => letter c = true \/ 48 <= c <= 57 \/ In c [43; 45; 46]) p.
Proof.
  induction u as [|c r IH]; intros s; [discriminate|]. rewrite normalize_cons. destruct (url_keeps c r) eqn:K.
  - cbn [app scheme_rest before_colon]. destruct (c =? 58); [intros H; injection H as <-; now exists []|].
    destruct (letter c || ((48 <=? c) && (c <=? 57)) || existsb (Z.eqb c) (str "+-.")) eqn:C; [|discriminate].
    destruct (scheme_rest (url_normalize r)) as [s'|] eqn:E; [|discriminate]. intros H. injection H as <-.
    destruct (IH s' eq_refl) as (p & -> & E2 & F). exists (c :: p). cbn [map]. rewrite E2. repeat split. constructor; [|exact F].
    destruct (letter c); [now left|]. right. change (str "+-.") with [43; 45; 46] in C. cbn [existsb orb] in C. cbn [In]. lia.
  - cbn [app scheme_rest]. replace (37 =? 58) with false by reflexivity. change (letter 37) with false. change (existsb (Z.eqb 37) (str "+-.")) with false. discriminate.
Qed.
(** C99: no link of the page runs a script or leaves http, https and mailto ... *)
Theorem C99_links u : bytes_ok u -> harmless (link u).
Proof.
  intros B. rewrite (link_id u B). unfold harmless, url_filter. destruct (is_safe_url u) eqn:S; [|reflexivity].
  unfold scheme. rewrite clean_id by now apply normalize_chars. destruct (url_normalize u) as [|c w] eqn:E; [exact I|].
  destruct (letter c); [|exact I]. destruct (scheme_rest (c :: w)) as [s|] eqn:R; [|exact I]. rewrite <- E in R.
  destruct (scheme_kept u s R) as (p & P & <- & F). unfold is_safe_url in S. rewrite P in S.
  assert (existsb (Z.eqb 47) p = false) as N.
  { destruct (existsb (Z.eqb 47) p) eqn:X; [|reflexivity]. apply existsb_exists in X as (x & Ix & Ex). apply Z.eqb_eq in Ex. subst x.
    rewrite Forall_forall in F. specialize (F 47 Ix). change (letter 47) with false in F. cbn [In] in F. lia. }
  rewrite N in S.
  assert (ascii_text p) as A.
  { eapply Forall_impl; [|exact F]. unfold letter. cbn [In]. intros x. cbv beta. lia. }
  assert (forall t, ascii_text (str t) -> EqualFold p (str t) = true -> map HtmlSpec.lower p = map HtmlSpec.lower (str t)) as K.
  { intros t T X. apply (C64_case p (str t)) in X; [|eapply Forall_impl; [|exact A]; unfold is_byte; cbv beta; lia|exact T]. now apply C64_ascii. }
  assert (forall t, forallb (fun c => (0 <=? c) && (c <? 128)) (str t) = true -> ascii_text (str t)) as AT.
  { intros t X. rewrite forallb_forall in X. apply Forall_forall. intros x Ix. specialize (X x Ix). lia. }
  apply orb_true_iff in S as [S|S]; [apply orb_true_iff in S as [S|S]|].
  - left. symmetry. now apply (K "http"%string), S; apply AT.
  - right. left. symmetry. now apply (K "https"%string), S; apply AT.
  - right. right. left. symmetry. now apply (K "mailto"%string), S; apply AT.
Qed.
(** ... and ordinary addresses are left as they are. *)
Lemma normalize_app a : Forall url_char a -> forall r, url_normalize (a ++ r) = a ++ url_normalize r.
Proof.
  induction 1 as [|c a H F IH]; intros r; [reflexivity|]. cbn [app]. rewrite normalize_cons, IH.
  assert (url_keeps c (a ++ r) = true) as ->; [|reflexivity]. unfold url_keeps. change alpha with letter.
  destruct H as [H|[H|H]].
  - rewrite H, orb_true_r. reflexivity.
  - replace ((48 <=? c) && (c <=? 57)) with true by lia. now rewrite orb_true_r.
  - replace (existsb (Z.eqb c) (str "!#$&*+,/:;=?@[]-._~")) with true; [reflexivity|]. symmetry. apply existsb_exists. exists c. split; [exact H|apply Z.eqb_refl].
Qed.
Theorem C99_kept p r : In p ["http://"; "https://"; "/"]%string -> Forall url_char r -> link (str p ++ r) = str p ++ r.
Proof.
  intros I F. unfold link.
  assert (is_safe_url (str p ++ r) = true) as S.
  { cbn [In] in I. destruct I as [<-|[<-|[<-|[]]]]; [reflexivity|reflexivity|]. change (str "/") with [47]. unfold is_safe_url. cbn [app before_colon].
    replace (47 =? 58) with false by reflexivity. destruct (before_colon r); reflexivity. }
  unfold url_filter. rewrite S.
  assert (Forall url_char (str p)) as P.
  { cbn [In] in I. destruct I as [<-|[<-|[<-|[]]]]; vm_compute; repeat (constructor; [first [left; reflexivity|right; right; tauto]|]); constructor. }
  rewrite normalize_app by exact P. rewrite <- (app_nil_r r) at 1. rewrite normalize_app by exact F. cbn [url_normalize]. rewrite app_nil_r.
  apply visible_id. apply Forall_app. assert (forall l, Forall url_char l -> Forall (fun c => 33 <= c <= 126) l) as K; [|split; apply K; assumption].
  intros l. apply Forall_impl. intros c [H|[H|H]]; [unfold letter in H; lia|lia|]. apply (keeps_char c []). unfold url_keeps.
  replace (existsb (Z.eqb c) (str "!#$&*+,/:;=?@[]-._~")) with true; [reflexivity|]. symmetry. apply existsb_exists. exists c. split; [exact H|apply Z.eqb_refl].
Qed.
(** An address that is left on the page leads where it led before: percent-decoded it is the same. *)
Lemma decode_escape c l : is_byte c -> percent_decode (37 :: hexdigit (c / 16) :: hexdigit (c mod 16) :: l) = c :: percent_decode l.
Proof.
  unfold is_byte. intros B. assert (forall d, 0 <= d < 16 -> hex_value (hexdigit d) = Some d) as H.
  { intros d D. unfold hexdigit, hex_value. destruct (d <? 10) eqn:E.
    - replace ((48 <=? 48 + d) && (48 + d <=? 57)) with true by lia. f_equal. lia.
    - replace ((48 <=? 87 + d) && (87 + d <=? 57)) with false by lia. replace ((65 <=? 87 + d) && (87 + d <=? 70)) with false by lia.
      replace ((97 <=? 87 + d) && (87 + d <=? 102)) with true by lia. f_equal. lia. }
  cbn [percent_decode]. rewrite !H by (Z.to_euclidean_division_equations; lia). cbn [Z.eqb Pos.eqb]. f_equal. Z.to_euclidean_division_equations; lia.
Qed.
Lemma hex_value_is_hex c : is_hex c = match hex_value c with Some _ => true | None => false end.
Proof.
  unfold is_hex, hex_value. destruct ((48 <=? c) && (c <=? 57)); [reflexivity|]. destruct ((97 <=? c) && (c <=? 102)) eqn:E.
  - replace ((65 <=? c) && (c <=? 70)) with false by lia. reflexivity.
  - destruct ((65 <=? c) && (c <=? 70)); reflexivity.
Qed.
Lemma hex_keeps c r : is_hex c = true -> url_keeps c r = true.
Proof. unfold is_hex, url_keeps, alpha. intros H. destruct (existsb (Z.eqb c) (str "!#$&*+,/:;=?@[]-._~")); [reflexivity|]. lia. Qed.
Lemma decode_plain c l : c <> 37 -> percent_decode (c :: l) = c :: percent_decode l.
Proof.
  intros N. destruct l as [|a [|b l]]; [reflexivity|reflexivity|]. cbn [percent_decode]. rewrite (proj2 (Z.eqb_neq c 37) N).
  destruct (hex_value a); [|reflexivity]. destruct (hex_value b); reflexivity.
Qed.
Lemma decode_normalize : forall n u, (List.length u <= n)%nat -> bytes_ok u -> percent_decode (url_normalize u) = percent_decode u.
Proof.
  induction n as [|n IH]; intros u L B; [destruct u; [reflexivity|cbn in L; lia]|]. destruct u as [|c r]; [reflexivity|]. inversion B as [|? ? Bc Br]; subst. cbn [List.length] in L.
  rewrite normalize_cons. destruct (Z.eq_dec c 37) as [->|N].
  - assert ((exists a b r', r = a :: b :: r' /\ is_hex a = true /\ is_hex b = true) \/ (url_keeps 37 r = false /\ percent_decode (37 :: r) = 37 :: percent_decode r)) as [(a & b & r' & -> & Ha & Hb)|[K D]].
    { destruct r as [|a [|b r']]; [right; split; reflexivity|right; split; reflexivity|].
      destruct (is_hex a) eqn:Ha; [destruct (is_hex b) eqn:Hb|]; [left; exists a, b, r'; auto|right|right].
      - split; [unfold url_keeps; rewrite Ha, Hb; reflexivity|]. rewrite hex_value_is_hex in Hb. cbn [percent_decode]. destruct (hex_value a); [|reflexivity]. destruct (hex_value b); [discriminate|reflexivity].
      - split; [unfold url_keeps; rewrite Ha; reflexivity|]. rewrite hex_value_is_hex in Ha. cbn [percent_decode]. destruct (hex_value a); [discriminate|reflexivity]. }
    + assert (url_keeps 37 (a :: b :: r') = true) as -> by (unfold url_keeps; rewrite Ha, Hb; reflexivity).
      rewrite !normalize_cons, !hex_keeps by assumption. cbn [app]. pose proof Ha as Ha'. pose proof Hb as Hb'. rewrite hex_value_is_hex in Ha', Hb'.
      cbn [percent_decode]. destruct (hex_value a); [|discriminate]. destruct (hex_value b); [|discriminate]. cbn [Z.eqb Pos.eqb]. f_equal.
      inversion Br as [|? ? ? Br1]; subst. inversion Br1; subst. apply IH; [cbn in L; lia|assumption].
    + rewrite K, D. cbn [app]. rewrite (decode_escape 37) by exact Bc. f_equal. apply IH; [lia|exact Br].
  - rewrite (decode_plain c r) by exact N. destruct (url_keeps c r).
    + cbn [app]. rewrite decode_plain by exact N. f_equal. apply IH; [lia|exact Br].
    + cbn [app]. rewrite decode_escape by exact Bc. f_equal. apply IH; [lia|exact Br].
Qed.
Lemma before_colon_some u p : before_colon u = Some p <-> (exists b, u = p ++ 58 :: b) /\ ~ In 58 p.
Proof.
  revert p. induction u as [|c u IH]; intros p; cbn [before_colon].
  - split; [discriminate|]. intros [(b & E) _]. destruct p; discriminate.
  - destruct (Z.eqb_spec c 58) as [->|N].
    + split; [intros E; injection E as <-; split; [now exists u|intros []]|]. intros [(b & E) NI]. destruct p as [|x p]; [reflexivity|]. injection E as <- _. exfalso. apply NI. now left.
    + destruct (before_colon u) as [q|] eqn:Q.
      * pose proof (proj1 (IH q) eq_refl) as [(b & ->) NI]. split.
        -- intros E. injection E as <-. split; [now exists b|]. intros [E|I]; [now apply N|exact (NI I)].
        -- intros [(b' & E) NI']. destruct p as [|x p]; [now injection E as E _|]. cbn [app] in E. injection E as <- E.
           assert (Some q = Some p) as K; [apply (IH p); split; [now exists b'|intros I; apply NI'; now right]|]. injection K as ->. reflexivity.
      * split; [discriminate|]. intros [(b' & E) NI']. destruct p as [|x p]; [now injection E as E _|]. cbn [app] in E. injection E as <- E. symmetry.
        assert (None = Some p) as K; [apply (IH p); split; [now exists b'|intros I; apply NI'; now right]|]. discriminate.
Qed.
Theorem C99_same_place u : bytes_ok u ->
  (forall p b, u = p ++ 58 :: b -> ~ In 58 p -> In 47 p \/ In (map HtmlSpec.lower p) [str "http"; str "https"; str "mailto"]) ->
  percent_decode (link u) = percent_decode u.
Proof.
  intros B H. rewrite (link_id u B). unfold url_filter. assert (is_safe_url u = true) as ->; [|now apply (decode_normalize (List.length u))].
  unfold is_safe_url. destruct (before_colon u) as [p|] eqn:P; [|reflexivity]. apply before_colon_some in P as [(b & ->) NI].
  destruct (H p b eq_refl NI) as [I|I].
  - assert (existsb (Z.eqb 47) p = true) as ->; [|reflexivity]. apply existsb_exists. exists 47. split; [exact I|apply Z.eqb_refl].
  - destruct (existsb (Z.eqb 47) p); [reflexivity|].
    assert (forall t, forallb (fun c => (0 <=? c) && (c <? 128)) (str t) = true -> ascii_text (str t)) as AT.
    { intros t X. rewrite forallb_forall in X. apply Forall_forall. intros x Ix. specialize (X x Ix). lia. }
    assert (forall t, forallb (fun c => (0 <=? c) && (c <? 128)) (str t) = true -> forallb (fun c => (97 <=? c) && (c <=? 122)) (str t) = true -> map HtmlSpec.lower p = str t -> EqualFold p (str t) = true) as K.
    { intros t X Y E. assert (map HtmlSpec.lower (str t) = str t) as L.
      { rewrite <- (map_id (str t)) at 2. apply map_ext_in. rewrite forallb_forall in Y. intros x Ix. specialize (Y x Ix). unfold HtmlSpec.lower. replace ((65 <=? x) && (x <=? 90)) with false by lia. reflexivity. }
      apply Forall_app in B as [Bp _]. apply (C64_case p (str t) Bp (AT t X)). apply C64_ascii; [|now apply AT|change (map HtmlSpec.lower p = map HtmlSpec.lower (str t)); now rewrite L].
      assert (forall x, In x p -> 0 <= x < 128) as Z0; [|apply Forall_forall; exact Z0]. intros x Ix. pose proof (in_map HtmlSpec.lower p x Ix) as I2. rewrite E in I2. rewrite forallb_forall in Y. specialize (Y _ I2).
      unfold HtmlSpec.lower in Y. destruct ((65 <=? x) && (x <=? 90)) eqn:Q; lia. }
    cbn [In] in I. destruct I as [I|[I|[I|[]]]]; symmetry in I; apply K in I; try reflexivity; rewrite I, ?orb_true_r; reflexivity.
Qed.
(** Every % of a link starts an escape: the links are addresses by RFC 3986's rules for %. *)
Lemma normalize_percent u : bytes_ok u -> forall a b, url_normalize u = a ++ 37 :: b -> exists x y b', b = x :: y :: b' /\ hex_value x <> None /\ hex_value y <> None.
Proof.
  induction 1 as [|c r B F IH]; intros a b E; [destruct a; discriminate|]. rewrite normalize_cons in E.
  assert (forall d, 0 <= d < 16 -> hex_value (hexdigit d) <> None /\ hexdigit d <> 37) as HD.
  { intros d D. unfold hexdigit. split; [|destruct (d <? 10) eqn:Q; lia]. pose proof (hex_value_is_hex (hexdigit d)) as K. unfold hexdigit in K. destruct (hex_value (if d <? 10 then 48 + d else 87 + d)); [discriminate|].
    unfold is_hex in K. destruct (d <? 10) eqn:Q; lia. }
  destruct (url_keeps c r) eqn:K.
  - destruct a as [|x a]; cbn [app] in E; injection E as Ec Er.
    + subst c. assert (exists p q r', r = p :: q :: r' /\ is_hex p = true /\ is_hex q = true) as (p & q & r' & -> & Hp & Hq).
      { unfold url_keeps in K. change (existsb (Z.eqb 37) (str "!#$&*+,/:;=?@[]-._~")) with false in K. change (alpha 37) with false in K. cbn [orb andb Z.leb Z.eqb Z.compare Pos.compare Pos.compare_cont Pos.eqb] in K.
        destruct r as [|p [|q r']]; [discriminate|discriminate|]. apply andb_true_iff in K as [K1 K2]. now exists p, q, r'. }
      rewrite !normalize_cons, !hex_keeps in Er by assumption. cbn [app] in Er. exists p, q, (url_normalize r'). rewrite hex_value_is_hex in Hp, Hq.
      split; [symmetry; exact Er|]. split; [destruct (hex_value p)|destruct (hex_value q)]; discriminate.
    + now apply (IH a b).
  - unfold is_byte in B. assert (0 <= c / 16 < 16 /\ 0 <= c mod 16 < 16) as [H1 H2] by (Z.to_euclidean_division_equations; lia).
    destruct (HD _ H1) as [V1 N1]. destruct (HD _ H2) as [V2 N2]. cbn [app] in E.
    destruct a as [|x [|y [|z a]]]; cbn [app] in E.
    + injection E as Er. eexists _, _, _. split; [symmetry; exact Er|]. auto.
    + injection E as _ E1 _. contradiction.
    + injection E as _ _ E2 _. contradiction.
    + injection E as _ _ _ Er. now apply (IH a b).
Qed.
Theorem C99_percent u : bytes_ok u -> forall a b, link u = a ++ 37 :: b -> exists x y b', b = x :: y :: b' /\ hex_value x <> None /\ hex_value y <> None.
Proof.
  intros B. rewrite (link_id u B). apply normalize_percent. unfold url_filter. destruct (is_safe_url u); [exact B|].
  apply Forall_forall; intros c I; (assert (forallb is_byteb (str "#ZgotmplZ") = true) as K by reflexivity; rewrite forallb_forall in K; specialize (K c I); unfold is_byteb in K; unfold is_byte; lia).
Qed.
Example C99_same_place_example : link (str "https://x.org/a%2Fb%zz") = str "https://x.org/a%2Fb%25zz".
Proof. reflexivity. Qed.

(** Links to installed apps stay on the server, under /apps. *)
Theorem C99_installed loc : bytes_ok loc -> link (str "/apps" ++ loc) = str "/apps" ++ url_normalize loc /\ scheme (link (str "/apps" ++ loc)) = None.
Proof.
  intros B. assert (link (str "/apps" ++ loc) = str "/apps" ++ url_normalize loc) as E.
  { rewrite link_id by (apply Forall_app; split; [|exact B]; repeat constructor; vm_compute; discriminate). unfold url_filter.
    assert (is_safe_url (str "/apps" ++ loc) = true) as ->.
    { unfold is_safe_url. change (str "/apps") with [47; 97; 112; 112; 115]. cbn [app before_colon Z.eqb Pos.eqb]. destruct (before_colon loc); reflexivity. }
    apply normalize_app. vm_compute. repeat (constructor; [first [left; reflexivity|right; right; tauto]|]). constructor. }
  split; [exact E|]. rewrite E. unfold scheme. rewrite clean_id; [reflexivity|]. apply Forall_app. split; [|now apply normalize_chars].
  repeat constructor; vm_compute; discriminate.
Qed.

Example C99_links_examples : link (str "javascript:alert(1)") = str "#ZgotmplZ" /\ link (str "https://www.npmjs.com/package/@signalk/freeboard-sk") = str "https://www.npmjs.com/package/@signalk/freeboard-sk" /\
  link (str "a b""c") = str "a%20b%22c".
Proof. vm_compute. auto. Qed.
