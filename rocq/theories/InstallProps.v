(** InstallProps: installing an app and the command endpoint, on the bytes of the requests
    (C95, C96). *)
From Coq Require Import ZArith Lia ZifyBool.
From Verif Require Import GoBase BufFacts CanModel NmeaTypes NmeaModel NmeaSpec ApiModel ApiSpec ConfigModel PackagesModel JsonSpec JsonUnique UnjsonModel UnjsonSpec UnjsonParse UnjsonDecode UnjsonTyped UnjsonProps InstallModel.
Open Scope Z_scope.
Open Scope list_scope.

(* ------------------------------------------------------------------ C95 *)

(** What a request to install asks for: the members Package and Version. *)
Lemma pkg_fields_say ms : keys_ok ms ->
  says a_text ms (str "Package") [] (fst (fst (into_members pkg_fields ms ([], [])))) /\ says a_text ms (str "Version") [] (snd (fst (into_members pkg_fields ms ([], [])))).
Proof.
  intros B. split.
  - said pkg_names B pkg_fields (@fst bytes bytes) get_text text_last.
  - said pkg_names B pkg_fields (@snd bytes bytes) get_text text_last.
Qed.
Definition asks (d : nat) (body name version : bytes) : Prop :=
  exists g, starts_with d body g /\ fits package_type g /\
    ((exists ms, g = GObj ms /\ says a_text ms (str "Package") [] name /\ says a_text ms (str "Version") [] version) \/
     g = GNull /\ name = [] /\ version = []).
Lemma decode_pkg_asks d body n v : bytes_ok body -> decode_pkg d body = Some (n, v) -> asks d body n v.
Proof.
  intros OK. unfold decode_pkg. destruct (read_value d body) as [[g r]|] eqn:R; [|discriminate].
  destruct (into_struct pkg_fields g ([], [])) as [x ok] eqn:E. destruct ok; [|discriminate]. intros H. injection H as ->.
  destruct (decode_exact _ _ d body ([], []) OK pkg_typed) as [DE _]. destruct (DE g r R) as (SW & F & W); [now rewrite E|].
  exists g. split; [exact SW|]. split; [exact F|]. destruct (fits_record_shape _ _ F) as [->|[ms ->]].
  - right. cbn in E. injection E as <- <-. auto.
  - left. exists ms. split; [reflexivity|]. cbn [into_struct] in E.
    assert (keys_ok ms) as K by (inversion W as [| | | | |? M]; subst; intros k g I; now destruct (M k g I)).
    destruct (pkg_fields_say ms K) as [A B]. rewrite E in A, B. auto.
Qed.
Lemma decode_pkg_none d body : bytes_ok body -> decode_pkg d body = None <-> forall g, starts_with d body g -> ~ fits package_type g.
Proof.
  intros OK. destruct (decode_exact _ _ d body ([], []) OK pkg_typed) as [_ DE]. rewrite <- DE. unfold decode_pkg. split.
  - intros H g r R. rewrite R in H. destruct (into_struct pkg_fields g ([], [])) as [x ok]. cbn [snd]. now destruct ok.
  - intros H. destruct (read_value d body) as [[g r]|]; [|reflexivity]. specialize (H g r eq_refl).
    destruct (into_struct pkg_fields g ([], [])) as [x ok]. cbn [snd] in H. now subst ok.
Qed.

(** yarn runs exactly for a posted request of the right type, with name@version. *)
Theorem C95_runs d yarn no_index post body : bytes_ok body ->
  (forall arg, in_yarn (install_request d yarn no_index post body) = Some arg ->
     post = true /\ exists name version, asks d body name version /\ arg = name ++ str "@" ++ version) /\
  (in_yarn (install_request d yarn no_index post body) = None <-> post = false \/ forall g, starts_with d body g -> ~ fits package_type g).
Proof.
  intros OK. rewrite <- (decode_pkg_none d body OK). unfold install_request. destruct post.
  2:{ cbn [in_yarn]. split; [discriminate|]. split; auto. }
  destruct (decode_pkg d body) as [[n v]|] eqn:E.
  - apply (decode_pkg_asks d body n v OK) in E.
    destruct (yarn (n ++ str "@" ++ v)); cbn [in_yarn]; (split; [intros arg H; injection H as <-; split; [reflexivity|exists n, v; auto]|]; split; [discriminate|intros [H|H]; discriminate]).
  - cbn [in_yarn]. split; [discriminate|]. split; auto.
Qed.

Definition readable (s : bytes) (cs : list Z) : Prop := utf8_text s cs /\ Forall (fun c => 32 <= c /\ c <> 34 /\ c <> 92) cs.
Lemma readable_chars s cs : readable s cs -> chars_text s cs.
Proof.
  intros [U F]. induction U as [|c enc r cs E U IH]; [constructor|]. inversion F as [|? ? (A & B & C) F']; subst.
  constructor; [now apply ct_plain|now apply IH].
Qed.
Lemma readable_string s cs : readable s cs -> json ([34] ++ s ++ [34]) (JStr cs).
Proof. intros H. constructor. exists s. split; [reflexivity|now apply readable_chars]. Qed.
Lemma ascii_readable s : forallb (fun c => (32 <=? c) && (c <? 128) && negb (c =? 34) && negb (c =? 92)) s = true -> readable s s.
Proof.
  intros H. rewrite forallb_forall in H. split.
  - induction s as [|c s IH]; [constructor|]. change (c :: s) with ([c] ++ s) at 1. constructor; [|apply IH; intros; apply H; now right].
    specialize (H c (or_introl eq_refl)). constructor. lia.
  - apply Forall_forall. intros c I. specialize (H c I). lia.
Qed.
Lemma blank_nil : blank_text []. Proof. constructor. Qed.
Lemma bare_member k t ks v : readable k ks -> json t v -> member ks ([34] ++ k ++ [34; 58] ++ t) v.
Proof.
  intros K J. replace ([34] ++ k ++ [34; 58] ++ t) with ([] ++ ([34] ++ k ++ [34]) ++ [] ++ [58] ++ [] ++ t ++ []) by (cbn [app]; now rewrite <- app_assoc, app_nil_r).
  constructor; try apply blank_nil; [|exact J]. exists k. split; [reflexivity|now apply readable_chars].
Qed.
(** The answers: JSON whenever the error or the path can be read as it is. *)
Theorem C95_answer d yarn no_index body name version : decode_pkg d body = Some (name, version) ->
  (forall err cs, yarn (name ++ str "@" ++ version) = Some err -> readable err cs ->
     json (in_body (install_request d yarn no_index true body)) (JObj [(str "result", JStr (str "error")); (str "message", JStr cs)]) /\
     in_route (install_request d yarn no_index true body) = None /\ in_status (install_request d yarn no_index true body) = 200) /\
  (forall cs, yarn (name ++ str "@" ++ version) = None -> readable (getPathForPackage name (no_index name)) cs ->
     json (in_body (install_request d yarn no_index true body)) (JObj [(str "result", JStr (str "ok")); (str "url", JStr cs); (str "dir", JStr (str "./node_modules"))]) /\
     in_route (install_request d yarn no_index true body) = Some (getPathForPackage name (no_index name)) /\ in_status (install_request d yarn no_index true body) = 200).
Proof.
  intros E. unfold install_request. rewrite E. split.
  - intros err cs -> R. cbn [in_body in_route in_status]. split; [|split; reflexivity].
    replace (str "{""result"":""error"",""message"":""" ++ err ++ str """}") with
      ([123] ++ (([34] ++ str "result" ++ [34; 58] ++ ([34] ++ str "error" ++ [34])) ++ [44] ++ ([34] ++ str "message" ++ [34; 58] ++ ([34] ++ err ++ [34]))) ++ [125]).
    2:{ cbn [str app]. rewrite <- !app_assoc. reflexivity. }
    constructor; [discriminate|]. constructor; [|constructor]; (apply bare_member; [apply ascii_readable; reflexivity|]).
    + apply readable_string, ascii_readable. reflexivity.
    + now apply readable_string.
  - intros cs -> R. cbn [in_body in_route in_status]. split; [|split; reflexivity]. set (path := getPathForPackage name (no_index name)) in *. clearbody path.
    replace (str "{""result"":""ok"",""url"":""" ++ path ++ str """,""dir"":""./node_modules""}") with
      ([123] ++ (([34] ++ str "result" ++ [34; 58] ++ ([34] ++ str "ok" ++ [34])) ++ [44] ++ ([34] ++ str "url" ++ [34; 58] ++ ([34] ++ path ++ [34])) ++ [44] ++
         ([34] ++ str "dir" ++ [34; 58] ++ ([34] ++ str "./node_modules" ++ [34]))) ++ [125]).
    2:{ cbn [str app]. rewrite <- !app_assoc. reflexivity. }
    constructor; [discriminate|]. constructor; [|constructor; [|constructor]]; (apply bare_member; [apply ascii_readable; reflexivity|]).
    + apply readable_string, ascii_readable. reflexivity.
    + now apply readable_string.
    + apply readable_string, ascii_readable. reflexivity.
Qed.
(** The page after an installation that worked: the row has the version and the link of the
    route that was added. *)
Theorem C95_shown d yarn no_index body name version cs v row : decode_pkg d body = Some (name, version) ->
  yarn (name ++ str "@" ++ version) = None -> readable (getPathForPackage name (no_index name)) cs ->
  json (in_body (install_request d yarn no_index true body)) v -> page_installed version row (Some v) = mkrow version (Some cs).
Proof.
  intros E Y R J. destruct (C95_answer d yarn no_index body name version E) as [_ A]. destruct (A cs Y R) as [J' _].
  rewrite (json_unique _ _ _ J J'). reflexivity.
Qed.
(** Expected: an app that could not be installed is not shown as installed.  Whatever error
    yarn ends with, if it can be read the page shows the version, with a link to "undefined". *)
Theorem C95_failed_shown_refuted d yarn no_index body name version err cs v row : decode_pkg d body = Some (name, version) ->
  yarn (name ++ str "@" ++ version) = Some err -> readable err cs ->
  json (in_body (install_request d yarn no_index true body)) v -> page_installed version row (Some v) = mkrow version (Some (str "undefined")).
Proof.
  intros E Y R J. destruct (C95_answer d yarn no_index body name version E) as [A _]. destruct (A err cs Y R) as [J' _].
  rewrite (json_unique _ _ _ J J'). reflexivity.
Qed.
(** Other methods: 405, and nothing is run; a body that is no such request: an empty answer. *)
Theorem C95_refused d yarn no_index body : bytes_ok body ->
  (install_request d yarn no_index false body = mkinst 405 (str "Method not allowed" ++ [10]) None None) /\
  ((forall g, starts_with d body g -> ~ fits package_type g) -> install_request d yarn no_index true body = mkinst 200 [] None None).
Proof.
  intros OK. split; [reflexivity|]. intros H. apply (decode_pkg_none d body OK) in H. unfold install_request. now rewrite H.
Qed.
Example C95_example :
  install_request 9 (fun _ => None) (fun _ => true) true (str "{""package"":""@signalk/maps"",""version"":""1.0""}") =
    mkinst 200 (str "{""result"":""ok"",""url"":""/apps/@signalk/maps/public"",""dir"":""./node_modules""}") (Some (str "@signalk/maps@1.0")) (Some (str "/apps/@signalk/maps/public")) /\
  in_body (install_request 9 (fun _ => Some (str "exit status 1")) (fun _ => true) true (str "{""package"":""x"",""version"":""1.0""}")) =
    str "{""result"":""error"",""message"":""exit status 1""}" /\
  readable (str "exit status 1") (str "exit status 1") /\
  install_request 9 (fun _ => None) (fun _ => true) true (str "{""package"":7}") = mkinst 200 [] None None.
Proof. split; [vm_compute; reflexivity|]. split; [vm_compute; reflexivity|]. split; [apply ascii_readable; reflexivity|vm_compute; reflexivity]. Qed.

(* ------------------------------------------------------------------ C96 *)

Lemma command_fields_say ms : keys_ok ms ->
  says a_text ms (str "req_type") [] (fst (fst (into_members command_fields ms ([], 0)))) /\ says (a_natural 32) ms (str "req_pgn") 0 (snd (fst (into_members command_fields ms ([], 0)))).
Proof.
  intros B. split.
  - said command_names B command_fields (@fst bytes Z) get_text text_last.
  - said command_names B command_fields (@snd bytes Z) (get_uint 32) (fun g v => uint_last 32 g v ltac:(lia)).
Qed.
(** The command that a posted body asks for; "Invalid JSON" exactly if the body is not of the
    type of a command. *)
Theorem C96_command d body : bytes_ok body ->
  (fst (send_request d true body) = [] \/ fst (send_request d true body) = str "Invalid JSON") /\
  (fst (send_request d true body) = str "Invalid JSON" <-> forall g, starts_with d body g -> ~ fits command_type g) /\
  (forall ms, starts_with d body (GObj ms) -> exists ty pgn, snd (send_request d true body) = Some (ty, pgn) /\
     says a_text ms (str "req_type") [] ty /\ says (a_natural 32) ms (str "req_pgn") 0 pgn) /\
  ((forall g, ~ starts_with d body g) -> snd (send_request d true body) = Some ([], 0)).
Proof.
  intros OK. destruct (decode_exact _ _ d body ([], 0) OK command_typed) as [_ DE]. rewrite <- DE. unfold send_request, decode_command.
  destruct (read_value d body) as [[g r]|] eqn:R.
  - destruct (into_struct command_fields g ([], 0)) as [x ok] eqn:E. cbn [fst snd]. split; [destruct ok; auto|]. split.
    + split.
      * intros H g' r' R'. injection R' as <- <-. rewrite E. cbn [snd]. destruct ok; [discriminate H|reflexivity].
      * intros H. specialize (H g r eq_refl). rewrite E in H. cbn [snd] in H. now subst ok.
    + split.
      2:{ intros N. exfalso. destruct (read_value_sound d body g r OK R) as (w & t & -> & BW & L). apply (N g). exists w, t, r. auto. }
      intros ms SW. destruct (read_value_complete d body (GObj ms) OK) as [r' R']; [intros t; discriminate|exact SW|]. rewrite R in R'. injection R' as -> _.
      assert (keys_ok ms) as K. { destruct SW as (w & t & r0 & _ & _ & L). intros k g I. now destruct (object_members d t ms L k g I). }
      destruct (command_fields_say ms K) as [A B]. cbn [into_struct] in E. rewrite E in A, B. destruct x as [ty pgn]. exists ty, pgn. auto.
  - cbn [fst snd]. split; [auto|]. split; [split; [discriminate|reflexivity]|]. split; [|reflexivity].
    intros ms SW. destruct (read_value_complete d body (GObj ms) OK) as [r' R']; [intros t; discriminate|exact SW|]. congruence.
Qed.
(** Expected: a body that is refused is not passed on.  Every POST passes a command on. *)
Theorem C96_invalid_sent_refuted d body : exists c, snd (send_request d true body) = Some c.
Proof. unfold send_request. destruct (decode_command d body) as [c ok]. cbn [snd]. eauto. Qed.
Theorem C96_get d body : send_request d false body = ([], None).
Proof. reflexivity. Qed.
Example C96_example :
  send_request 9 true (str "{""req_type"":""iso"",""req_pgn"":60928}") = ([], Some (str "iso", 60928)) /\
  send_request 9 true (str "{""req_type"":""iso"",""req_pgn"":-1}") = (str "Invalid JSON", Some (str "iso", 0)) /\
  send_request 9 true (str "{req}") = (str "Invalid JSON", Some ([], 0)).
Proof. repeat split; vm_compute; reflexivity. Qed.
