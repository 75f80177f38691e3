(** FormProps: the settings page (C80), generated UUIDs (C81), the links of the statistics
    table (C82). *)
From Coq Require Import Lia.
From Verif Require Import GoBase Strconv StrconvFacts NmeaTypes NmeaModel PgnTable ApiModel ApiSpec ApiProps
  ConfigModel ConfigSpec ConfigProps SaveProps FormModel FormSpec.
Open Scope Z_scope.
Open Scope list_scope.

(* ------------------------------------------------------------ C80: the settings page *)

Lemma first_set_kept x v y : first_set [x; v] y -> ~ unset x -> y = x.
Proof.
  intros [(a & b & E & F & _)|[F _]] N.
  - destruct a as [|x' a]; [now injection E as <- <-|]. injection E as <- E. inversion F; subst. contradiction.
  - inversion F; subst. contradiction.
Qed.
Lemma first_set_taken x v y : first_set [x; v] y -> unset x -> ~ unset v -> y = v.
Proof.
  intros [(a & b & E & F & NU)|[F _]] U N.
  - destruct a as [|x' [|v' a]].
    + injection E as <- <-. contradiction.
    + injection E as <- <- <-. reflexivity.
    + injection E as <- <- E. destruct a; discriminate E.
  - inversion F as [|? ? ? F2]; subst. inversion F2; subst. contradiction.
Qed.
Lemma first_set_none x v y : first_set [x; v] y -> unset x -> unset v -> unset y.
Proof.
  intros [(a & b & E & F & NU)|[F U']] U V; [|exact U'].
  destruct a as [|x' [|v' a]]; [injection E as <- <-; contradiction|injection E as <- <- <-; contradiction|]. injection E as <- <- E. destruct a; discriminate E.
Qed.
Lemma unset_same_kind o c c' : unset (get o c) -> unset (get o c') -> get o c' = get o c.
Proof.
  intros U V. destruct o; cbn [get] in *; destruct U as [U|[U|U]]; try discriminate U; destruct V as [V|[V|V]]; try discriminate V; congruence.
Qed.

Section Page.
Variables (sanitize : bytes -> bytes) (js_int : bytes -> option Z).

(** The page shows the running configuration, each option in its box. *)
Theorem C80_page c :
  (forall o b s, text_box o b -> get o c = VText s -> fm_text (shown sanitize c) b = sanitize s) /\
  (forall o b n, number_box o b -> get o c = VInt n -> fm_text (shown sanitize c) b = itoa n) /\
  (forall o b x, check_box o b -> get o c = VBool x -> fm_check (shown sanitize c) b = x) /\
  (forall o b s, uuid_box o b -> get o c = VText s -> fm_text (shown sanitize c) b = sanitize s) /\
  fm_text (shown sanitize c) Bcertificate = [].
Proof.
  split; [|split; [|split; [|split; [|reflexivity]]]]; intros o b s []; cbn; congruence.
Qed.

Lemma entered_total f : accepted js_int f -> forall o, exists v, entered js_int f o v.
Proof.
  intros A o.
  assert (forall o b, number_box o b -> exists v, entered js_int f o v) as N.
  { intros o' b H. specialize (A o' b H). destruct (js_int (fm_text f b)) as [n|] eqn:E; [|congruence]. exists (VInt n). eapply en_number; eauto. }
  assert (forall o b, text_box o b -> exists v, entered js_int f o v) as T.
  { intros o' b H. exists (VText (fm_text f b)). now apply en_text. }
  assert (forall o b, check_box o b -> exists v, entered js_int f o v) as C.
  { intros o' b H. exists (VBool (fm_check f b)). now apply en_check. }
  destruct o.
  all: first [ eapply T; constructor; fail | eapply N; constructor; fail | eapply C; constructor; fail
             | eexists; apply en_certificate | eexists; apply en_uuid | eexists; apply en_none; unfold no_box; cbn; tauto | idtac ].
  all: first [eapply T; constructor | eapply N; constructor | eapply C; constructor].
Qed.
Lemma submit_none f : submit js_int f = None <-> ~ accepted js_int f.
Proof.
  unfold submit, accepted. destruct (js_int (fm_text f Byear)) eqn:E1; [|split; [intros _ A; exact (A _ _ nb_year E1)|reflexivity]].
  destruct (js_int (fm_text f Bmmsi)) eqn:E2; [|split; [intros _ A; exact (A _ _ nb_mmsi E2)|reflexivity]].
  destruct (js_int (fm_text f Bport)) eqn:E3; [|split; [intros _ A; exact (A _ _ nb_port E3)|reflexivity]].
  destruct (js_int (fm_text f BmqttPort)) eqn:E4; [|split; [intros _ A; exact (A _ _ nb_mport E4)|reflexivity]].
  split; [discriminate|]. intros N. destruct N. intros o b []; congruence.
Qed.
Lemma submit_get f d : submit js_int f = Some d -> cf_ifaces d = None /\ forall o v, entered js_int f o v -> get o d = v.
Proof.
  unfold submit. destruct (js_int (fm_text f Byear)) as [y|] eqn:E1; [|discriminate]. destruct (js_int (fm_text f Bmmsi)) as [m|] eqn:E2; [|discriminate].
  destruct (js_int (fm_text f Bport)) as [p|] eqn:E3; [|discriminate]. destruct (js_int (fm_text f BmqttPort)) as [q|] eqn:E4; [|discriminate].
  intros H. injection H as <-. split; [reflexivity|]. intros o v [o' b []|o' b n [] J|o' b []| | |o' N]; cbn; try reflexivity; try congruence.
  unfold no_box in N. cbn in N. repeat (destruct N as [<-|N]; [reflexivity|]). contradiction.
Qed.

(** Pressing the button sets exactly the options that were not set, to what their boxes hold; it
    never adds an interface.  If a number is not accepted nothing changes. *)
Theorem C80_press nilp c f :
  (~ accepted js_int f -> press js_int nilp c f = (c, ABadRequest)) /\
  (accepted js_int f -> exists c', press js_int nilp c f = (c', AMerged) /\ cf_ifaces c' = cf_ifaces c /\
     (forall o v, entered js_int f o v -> first_set [get o c; v] (get o c')) /\
     (forall o, exists v, entered js_int f o v)).
Proof.
  split.
  - intros N. apply submit_none in N. unfold press. now rewrite N.
  - intros A. unfold press. destruct (submit js_int f) as [d|] eqn:E; [|apply submit_none in E; contradiction].
    destruct (submit_get f d E) as [NI G]. unfold admin_merge.
    pose proof (merge_ok nilp c d) as OK. pose proof (merge_ifaces nilp c d) as MI. pose proof (merge_get nilp c d) as MG.
    assert (merge_map nilp (cf_ifaces c) (cf_ifaces d) = (cf_ifaces c, true)) as EM by (rewrite NI; destruct (cf_ifaces c); reflexivity).
    rewrite EM in OK, MI, MG. cbn [fst snd] in *. destruct (Merge nilp c d) as [m ok]. cbn [fst snd] in *. subst ok. exists m.
    split; [reflexivity|]. split; [exact MI|]. split; [|now apply entered_total]. intros o v EN. rewrite MG, (G o v EN). unfold mval.
    destruct (unset_dec (get o c)) as [U|U].
    + pose proof (proj2 (unsetb_iff (get o c)) U) as UB. rewrite UB, andb_true_r. destruct (unset_dec v) as [V|V].
      * pose proof (proj2 (unsetb_iff v) V) as VB. rewrite VB. right. split; [constructor; [exact U|constructor; [exact V|constructor]]|exact U].
      * assert (unsetb v = false) as -> by (destruct (unsetb v) eqn:B; [apply unsetb_iff in B; contradiction|reflexivity]).
        left. exists [get o c], []. split; [reflexivity|]. split; [constructor; [exact U|constructor]|exact V].
    + assert (unsetb (get o c) = false) as -> by (destruct (unsetb (get o c)) eqn:B; [apply unsetb_iff in B; contradiction|reflexivity]).
      rewrite andb_false_r. left. exists [], [v]. split; [reflexivity|]. split; [constructor|exact U].
Qed.
Lemma press_cases nilp c f : (fst (press js_int nilp c f) = c) \/
  (accepted js_int f /\ cf_ifaces (fst (press js_int nilp c f)) = cf_ifaces c /\
   (forall o v, entered js_int f o v -> first_set [get o c; v] (get o (fst (press js_int nilp c f)))) /\
   (forall o, exists v, entered js_int f o v)).
Proof.
  destruct (C80_press nilp c f) as [NA A]. destruct (submit js_int f) as [d|] eqn:E.
  - assert (accepted js_int f) as AC.
    { intros o b H N. assert (~ accepted js_int f) as X by (intros Y; exact (Y o b H N)). apply submit_none in X. congruence. }
    right. split; [exact AC|]. destruct (A AC) as (c' & P & I & F & T). rewrite P. cbn [fst]. auto.
  - left. apply submit_none in E. now rewrite (NA E).
Qed.

(** An option that is set never changes again, whatever is entered and however often the button
    is pressed, and no interface is ever added or lost. *)
Theorem C80_fixed nilp fs : forall c,
  cf_ifaces (presses js_int nilp c fs) = cf_ifaces c /\
  forall o, ~ unset (get o c) -> get o (presses js_int nilp c fs) = get o c.
Proof.
  induction fs as [|f fs IH]; intros c; [split; reflexivity|]. unfold presses in *. cbn [fold_left].
  destruct (IH (fst (press js_int nilp c f))) as [I G].
  destruct (press_cases nilp c f) as [E|(A & E & F & T)]; [now rewrite E in *|].
  split; [congruence|]. intros o N. destruct (T o) as [v EN]. pose proof (first_set_kept _ _ _ (F o v EN) N) as K.
  rewrite G; congruence.
Qed.

(** Pressing the button on the page as it was loaded changes no option but the UUID; an unset
    UUID becomes the five texts shown, with dashes between. *)
Theorem C80_unmodified nilp c c' r : sanitize [] = [] -> js_int (str "0") = Some 0 ->
  press js_int nilp c (shown sanitize c) = (c', r) ->
  cf_ifaces c' = cf_ifaces c /\
  (forall o, o <> VesselUuid \/ ~ unset (get o c) -> get o c' = get o c) /\
  (unset (get VesselUuid c) -> accepted js_int (shown sanitize c) ->
     get VesselUuid c' = VText (dashed (map (fm_text (shown sanitize c)) uuid_boxes))).
Proof.
  intros S0 J0 P. destruct (C80_page c) as (PT & PN & PC & _ & PB). pose proof (press_cases nilp c (shown sanitize c)) as K.
  destruct (C80_press nilp c (shown sanitize c)) as [NA YA]. rewrite P in *. cbn [fst] in *.
  assert (dashed (map (fm_text (shown sanitize c)) uuid_boxes) <> []) as ND.
  { cbn [map uuid_boxes dashed]. intros E. apply app_eq_nil in E as [_ E]. discriminate E. }
  split; [destruct K as [->|(_ & -> & _)]; reflexivity|]. split.
  - intros o D. destruct K as [->|(A & _ & F & T)]; [reflexivity|]. destruct (T o) as [v EN]. specialize (F o v EN).
    destruct (unset_dec (get o c)) as [U|U]; [|now apply (first_set_kept _ _ _ F)]. destruct D as [D|D]; [|contradiction].
    apply unset_same_kind; [exact U|]. apply (first_set_none _ _ _ F U).
    destruct EN as [o b B|o b n B J|o b B| | |o B].
    + assert (exists s, get o c = VText s) as [s E] by (destruct B; cbn; eauto). rewrite (PT o b s B E). rewrite E in U.
      destruct U as [U|[U|U]]; try discriminate U. injection U as ->. rewrite S0. now right; right.
    + assert (exists s, get o c = VInt s) as [s E] by (destruct B; cbn; eauto). rewrite (PN o b s B E) in J. rewrite E in U.
      destruct U as [U|[U|U]]; try discriminate U. injection U as ->. change (itoa 0) with (str "0") in J. rewrite J0 in J. injection J as <-. now right; left.
    + assert (exists s, get o c = VBool s) as [s E] by (destruct B; cbn; eauto). rewrite (PC o b s B E). rewrite E in U.
      destruct U as [U|[U|U]]; try discriminate U. injection U as ->. now left.
    + rewrite PB. now right; right.
    + congruence.
    + now right; right.
  - intros U A. destruct (YA A) as (c2 & E & _ & F & _). injection E as <- _.
    apply (first_set_taken _ _ _ (F _ _ (en_uuid _ _)) U). intros [X|[X|X]]; try discriminate X. injection X as X. exact (ND X).
Qed.
End Page.

(** The boxes of the UUID keep showing what they showed when argo was started, whatever is
    entered: the saved UUID is shown after a restart only. *)
Theorem C80_uuid_shown sanitize js_int nilp fs : forall c b, In b uuid_boxes ->
  fm_text (shown sanitize (presses js_int nilp c fs)) b = fm_text (shown sanitize c) b.
Proof.
  assert (forall c f o, uuid_part o -> get o (fst (press js_int nilp c f)) = get o c) as ONE.
  { intros c f o U. destruct (press_cases js_int nilp c f) as [->|(A & _ & F & _)]; [reflexivity|].
    assert (entered js_int f o (VText [])) as EN.
    { apply en_none. unfold uuid_part, no_box in *. cbn in *. tauto. }
    specialize (F _ _ EN). destruct (unset_dec (get o c)) as [V|V]; [|exact (first_set_kept _ _ _ F V)].
    apply unset_same_kind; [exact V|]. apply (first_set_none _ _ _ F V). now right; right. }
  induction fs as [|f fs IH]; intros c b I; [reflexivity|]. unfold presses in *. cbn [fold_left]. rewrite (IH _ _ I).
  assert (forall o b, uuid_box o b -> forall s s', get o c = VText s -> get o (fst (press js_int nilp c f)) = VText s' ->
    fm_text (shown sanitize (fst (press js_int nilp c f))) b = fm_text (shown sanitize c) b) as K.
  { intros o b' B s s' E E'. pose proof (ONE c f o) as O. rewrite E, E' in O. destruct (C80_page sanitize c) as (_ & _ & _ & P & _).
    destruct (C80_page sanitize (fst (press js_int nilp c f))) as (_ & _ & _ & P' & _). rewrite (P o b' s B E), (P' o b' s' B E').
    assert (uuid_part o) as U by (destruct B; unfold uuid_part; cbn; tauto). apply O in U. now injection U as ->. }
  cbn in I. destruct I as [<-|[<-|[<-|[<-|[<-|[]]]]]].
  - eapply (K _ _ ub0); reflexivity.
  - eapply (K _ _ ub1); reflexivity.
  - eapply (K _ _ ub2); reflexivity.
  - eapply (K _ _ ub3); reflexivity.
  - eapply (K _ _ ub4); reflexivity.
Qed.

(** A UUID entered in the five boxes, saved for the first time, is the one the five boxes show
    after the next start. *)
Theorem C80_uuid_stored sanitize js_int nilp decode file log1 c f parts t fs fs' others log2 :
  start_config nilp (Some file) log1 = Some c -> unset (get VesselUuid c) -> accepted js_int f ->
  map (fm_text f) uuid_boxes = parts -> Forall (fun p => ~ In 45 p) parts ->
  holds decode t (fst (press js_int nilp c f)) -> f_conf fs <> None -> saving false (Some t) fs SDone fs' ->
  exists c2, start nilp decode (str "argo.conf") log2 fs' others = Some c2 /\
    get VesselUuid c2 = VText (dashed parts) /\
    map (fm_text (shown sanitize c2)) uuid_boxes = map sanitize parts.
Proof.
  intros ST U A EP ND (c' & D & G & _) NC SV. destruct (f_conf fs) as [old|] eqn:C; [|congruence].
  destruct (proj2 (C70_one_save _ _ _ _ _ C SV) eq_refl) as (_ & T & _). specialize (T t eq_refl).
  destruct (proj2 (C80_press js_int nilp c f) A) as (cp & P & _ & F & _). rewrite P in G. cbn [fst] in G.
  assert (get VesselUuid cp = VText (dashed parts)) as UU.
  { rewrite <- EP. apply (first_set_taken _ _ _ (F _ _ (en_uuid _ _)) U). intros [X|[X|X]]; try discriminate X. injection X as X.
    apply app_eq_nil in X as [_ X]. discriminate X. }
  assert (~ not_in_file VesselUuid) as NF by (unfold not_in_file, uuid_part; cbn; intuition discriminate).
  rewrite <- (G VesselUuid NF) in UU.
  unfold start, config_text. rewrite (proj2 (bytes_eqb_eq (str "argo.conf") (str "argo.conf")) eq_refl), T, D.
  destruct (C67_start nilp c' log2) as (r & s2 & R & S2 & _ & O2 & _ & _). exists s2. split; [exact S2|].
  destruct (C68_parts nilp c' r R) as (E1 & E2 & _).
  split. { rewrite (O2 VesselUuid ltac:(discriminate)), <- UU. cbn. now rewrite E1. }
  cbn [get] in UU. injection UU as UU. rewrite UU in E2. cbn [map uuid_boxes] in EP. destruct parts as [|p0 [|p1 [|p2 [|p3 [|p4 [|]]]]]]; try discriminate EP.
  assert (has_parts (dashed [p0; p1; p2; p3; p4]) [p0; p1; p2; p3; p4]) as HP by (split; [discriminate|]; split; [exact ND|reflexivity]).
  destruct (E2 _ _ _ _ _ HP) as (Q0 & Q1 & Q2 & Q3 & Q4).
  rewrite <- (O2 VesselUuid0) in Q0 by discriminate. rewrite <- (O2 VesselUuid1) in Q1 by discriminate. rewrite <- (O2 VesselUuid2) in Q2 by discriminate.
  rewrite <- (O2 VesselUuid3) in Q3 by discriminate. rewrite <- (O2 VesselUuid4) in Q4 by discriminate.
  destruct (C80_page sanitize s2) as (_ & _ & _ & PG & _). cbn [map uuid_boxes].
  now rewrite (PG _ _ _ ub0 Q0), (PG _ _ _ ub1 Q1), (PG _ _ _ ub2 Q2), (PG _ _ _ ub3 Q3), (PG _ _ _ ub4 Q4).
Qed.

(** Without a UUID in the file, saving the page without touching the UUID makes it four dashes
    for good: nothing entered later changes it. *)
Theorem C80_dashes_refuted sanitize js_int nilp c fs : sanitize [] = [] ->
  unset (get VesselUuid c) -> (forall o, uuid_part o -> unset (get o c)) -> accepted js_int (shown sanitize c) ->
  get VesselUuid (presses js_int nilp c (shown sanitize c :: fs)) = VText (str "----").
Proof.
  intros S0 U UP A. unfold presses. cbn [fold_left]. fold (presses js_int nilp (fst (press js_int nilp c (shown sanitize c))) fs).
  assert (forall o b, uuid_box o b -> fm_text (shown sanitize c) b = []) as Z.
  { intros o b B. assert (uuid_part o) as P by (destruct B; unfold uuid_part; cbn; tauto). apply UP in P.
    assert (exists s, get o c = VText s) as [s E] by (destruct B; cbn; eauto). destruct (C80_page sanitize c) as (_ & _ & _ & PG & _).
    rewrite (PG o b s B E). rewrite E in P. destruct P as [P|[P|P]]; try discriminate P. injection P as ->. exact S0. }
  destruct (proj2 (C80_press js_int nilp c (shown sanitize c)) A) as (cp & P & _ & F & _). rewrite P. cbn [fst].
  assert (get VesselUuid cp = VText (str "----")) as E.
  { assert (dashed (map (fm_text (shown sanitize c)) uuid_boxes) = str "----") as ED.
    { cbn [map uuid_boxes]. now rewrite (Z _ _ ub0), (Z _ _ ub1), (Z _ _ ub2), (Z _ _ ub3), (Z _ _ ub4). }
    pose proof (F _ _ (en_uuid _ _)) as FU. rewrite ED in FU. apply (first_set_taken _ _ _ FU U).
    intros [X|[X|X]]; discriminate X. }
  rewrite (proj2 (C80_fixed js_int nilp fs cp) VesselUuid); [exact E|]. rewrite E. intros [X|[X|X]]; discriminate X.
Qed.

(** A concrete form: parseInt as the identity on the numbers used here. *)
Definition sample_int (s : bytes) : option Z :=
  if empty s then Some 0 else let v := dec_value s in if (0 <=? v) && (v <? 2 ^ 63) then Some v else None.
Definition bare_config : config :=
  mkconfig [] [] (mkserver false false 0 [] [] [] [] []) (mkmqtt false false 0 [] [] [] [] []) None (mkvessel [] [] [] 0 0 [] [] [] [] [] [] [] []).
Definition sample_form : form :=
  mkform (fun b => match b with Bname => str "Minnow" | Byear => str "1964" | Bport => str "80"
    | Buuid0 => str "A" | Buuid1 => str "B" | Buuid2 => str "C" | Buuid3 => str "D" | Buuid4 => str "E" | _ => [] end) (fun _ => false).
Example C80_example nilp c : start_config nilp (Some bare_config) [] = Some c ->
  accepted sample_int sample_form /\
  get VesselName (presses sample_int nilp c [sample_form]) = VText (str "Minnow") /\
  get VesselYear (presses sample_int nilp c [sample_form]) = VInt 1964 /\
  get VesselUuid (presses sample_int nilp c [sample_form]) = VText (str "A-B-C-D-E") /\
  (* the port has a default and stays *)
  get ServerPort (presses sample_int nilp c [sample_form]) = VInt 8080.
Proof.
  intros S. split; [intros o b []; vm_compute; discriminate|].
  assert (S' : start_config nilp (Some bare_config) [] = start_config false (Some bare_config) []) by (destruct nilp; vm_compute; reflexivity).
  rewrite S' in S. vm_compute in S. injection S as <-. destruct nilp; vm_compute; auto.
Qed.
Example C80_dashes_example nilp c : start_config nilp (Some bare_config) [] = Some c ->
  unset (get VesselUuid c) /\ (forall o, uuid_part o -> unset (get o c)) /\ accepted sample_int (shown (fun s => s) c).
Proof.
  intros S.
  assert (S' : start_config nilp (Some bare_config) [] = start_config false (Some bare_config) []) by (destruct nilp; vm_compute; reflexivity).
  rewrite S' in S. vm_compute in S. injection S as <-. split; [now right; right|]. split.
  - intros o U. unfold uuid_part in U. cbn in U. destruct U as [<-|[<-|[<-|[<-|[<-|[]]]]]]; now right; right.
  - intros o b []; vm_compute; discriminate.
Qed.

(* ------------------------------------------------------------ C81: generated UUIDs *)

Definition hexu (d : Z) : Z := if d <? 10 then 48 + d else 55 + d.
Definition hexs (l : bytes) : bytes := flat_map (fun b => [hexu (b / 16); hexu (b mod 16)]) l.
Lemma upper_hexl d : 0 <= d < 16 -> upper (hexl d) = hexu d.
Proof.
  intros H. unfold hexl, hexu. destruct (d <? 10) eqn:E; unfold upper.
  - replace (97 <=? 48 + d) with false by lia. reflexivity.
  - replace (97 <=? 87 + d) with true by lia. replace (87 + d <=? 122) with true by lia. cbn [andb]. lia.
Qed.
Lemma upper_hexu d : 0 <= d < 16 -> upper_hex (hexu d).
Proof. intros H. unfold hexu, upper_hex. destruct (d <? 10) eqn:E; lia. Qed.
Lemma hexu_inj d e : 0 <= d < 16 -> 0 <= e < 16 -> hexu d = hexu e -> d = e.
Proof. intros H H'. unfold hexu. destruct (d <? 10) eqn:E, (e <? 10) eqn:E'; lia. Qed.
Lemma nibbles b : is_byte b -> 0 <= b / 16 < 16 /\ 0 <= b mod 16 < 16 /\ b = 16 * (b / 16) + b mod 16.
Proof. unfold is_byte. intros H. pose proof (Z.div_mod b 16 ltac:(lia)). pose proof (Z.mod_pos_bound b 16 ltac:(lia)). lia. Qed.
Lemma map_upper_hex l : bytes_ok l -> map upper (hex_bytes l) = hexs l.
Proof.
  induction 1 as [|b l B F IH]; [reflexivity|]. cbn [hex_bytes hexs flat_map map app]. destruct (nibbles b B) as (H1 & H2 & _).
  rewrite !upper_hexl by assumption. do 2 f_equal. exact IH.
Qed.
Lemma hexs_upper l : bytes_ok l -> Forall upper_hex (hexs l).
Proof.
  induction 1 as [|b l B F IH]; [constructor|]. cbn [hexs flat_map app]. destruct (nibbles b B) as (H1 & H2 & _).
  constructor; [now apply upper_hexu|]. constructor; [now apply upper_hexu|exact IH].
Qed.
Lemma hexs_length l : List.length (hexs l) = (2 * List.length l)%nat.
Proof. unfold hexs. induction l as [|b l IH]; [reflexivity|]. cbn [flat_map app List.length]. rewrite IH. lia. Qed.
Lemma hexs_inj l : forall m, bytes_ok l -> bytes_ok m -> hexs l = hexs m -> l = m.
Proof.
  induction l as [|b l IH]; intros [|c m] F G E; try discriminate E; [reflexivity|].
  inversion F as [|? ? B F']; inversion G as [|? ? C G']; subst. cbn [hexs flat_map app] in E. injection E as E1 E2 E.
  destruct (nibbles b B) as (H1 & H2 & H3), (nibbles c C) as (H4 & H5 & H6).
  apply hexu_inj in E1; [|assumption|assumption]. apply hexu_inj in E2; [|assumption|assumption].
  f_equal; [lia|]. now apply IH.
Qed.
Lemma hexs_onto k : forall s, List.length s = (2 * k)%nat -> Forall upper_hex s -> exists l, bytes_ok l /\ List.length l = k /\ hexs l = s.
Proof.
  induction k as [|k IH]; intros s L F; [destruct s; [|discriminate L]; exists []; repeat split; constructor|].
  destruct s as [|x [|y s]]; try (cbn in L; lia). inversion F as [|? ? X F1]; subst. inversion F1 as [|? ? Y F2]; subst.
  destruct (IH s ltac:(cbn in L; lia) F2) as (l & B & LL & E).
  assert (forall c, upper_hex c -> exists d, 0 <= d < 16 /\ hexu d = c) as DG.
  { intros c H. exists (if c <? 58 then c - 48 else c - 55). unfold upper_hex in H. unfold hexu. destruct (c <? 58) eqn:Q.
    - split; [lia|]. replace (c - 48 <? 10) with true by lia. lia.
    - split; [lia|]. replace (c - 55 <? 10) with false by lia. lia. }
  destruct (DG x X) as (d & Hd & <-), (DG y Y) as (e & He & <-). exists (16 * d + e :: l).
  assert ((16 * d + e) / 16 = d) as Q1 by (symmetry; apply (Z.div_unique _ _ _ e); lia).
  assert ((16 * d + e) mod 16 = e) as Q2 by (symmetry; apply (Z.mod_unique _ _ d); lia).
  split; [constructor; [unfold is_byte; lia|exact B]|]. split; [cbn; now rewrite LL|]. cbn [hexs flat_map app]. rewrite Q1, Q2. do 2 f_equal. exact E.
Qed.
Lemma all_bytes (P : Z -> bool) : forallb P (map Z.of_nat (seq 0 256)) = true -> forall b, is_byte b -> P b = true.
Proof.
  intros H b B. rewrite forallb_forall in H. apply H. apply in_map_iff. exists (Z.to_nat b). unfold is_byte in B. split; [lia|]. apply in_seq. lia.
Qed.
Lemma version_bits b : is_byte b -> Z.lor (Z.land b 15) 64 = 64 + b mod 16.
Proof. intros B. apply Z.eqb_eq. revert b B. apply all_bytes. vm_compute. reflexivity. Qed.
Lemma variant_bits b : is_byte b -> Z.lor (Z.land b 191) 128 = 128 + b mod 64.
Proof. intros B. apply Z.eqb_eq. revert b B. apply all_bytes. vm_compute. reflexivity. Qed.

Lemma upper_no_dash p : Forall upper_hex p -> ~ In 45 p.
Proof. intros F I. rewrite Forall_forall in F. apply F in I. unfold upper_hex in I. lia. Qed.
Lemma uuid_parts_eq r : bytes_ok r -> List.length r = 16%nat ->
  uuid_parts r = [hexs (firstn 4 r); hexs (firstn 2 (skipn 4 r)); hexs [64 + nth 6 r 0 mod 16; nth 7 r 0];
                  hexs [128 + nth 8 r 0 mod 64; nth 9 r 0]; hexs (skipn 10 r)] /\
  bytes_ok (firstn 4 r) /\ bytes_ok (firstn 2 (skipn 4 r)) /\ bytes_ok [64 + nth 6 r 0 mod 16; nth 7 r 0] /\
  bytes_ok [128 + nth 8 r 0 mod 64; nth 9 r 0] /\ bytes_ok (skipn 10 r).
Proof.
  intros B L. do 16 (destruct r as [|? r]; [discriminate L|]). destruct r; [|discriminate L]. clear L.
  unfold bytes_ok in B. repeat match goal with H : Forall _ (_ :: _) |- _ => inversion H; clear H; subst end.
  cbn [firstn skipn nth].
  assert (forall l, bytes_ok l -> Forall upper_hex (hexs l)) as HU by apply hexs_upper.
  match goal with |- _ = [hexs ?a; hexs ?b; hexs ?c; hexs ?d; hexs ?e] /\ _ =>
    assert (bytes_ok a) as Ba by (unfold bytes_ok; auto 10);
    assert (bytes_ok b) as Bb by (unfold bytes_ok; auto 10);
    assert (bytes_ok c) as Bc;
    [|assert (bytes_ok d) as Bd; [|assert (bytes_ok e) as Be by (unfold bytes_ok; auto 10); split; [|auto]]]
  end.
  - match goal with |- bytes_ok [64 + ?x mod 16; ?y] => pose proof (Z.mod_pos_bound x 16 ltac:(lia)) end. constructor; [unfold is_byte; lia|]. auto.
  - match goal with |- bytes_ok [128 + ?x mod 64; ?y] => pose proof (Z.mod_pos_bound x 64 ltac:(lia)) end. constructor; [unfold is_byte; lia|]. auto.
  - eapply parts_unique; [apply split_parts|]. unfold new_v4, uuid_string. cbn [firstn skipn nth app].
    rewrite version_bits, variant_bits by assumption. repeat (rewrite map_app; cbn [map]).
    change (upper 45) with 45. rewrite !map_upper_hex by assumption. split; [discriminate|]. split; [do 5 (apply Forall_cons; [apply upper_no_dash, HU; assumption|]); apply Forall_nil|reflexivity].
Qed.

(** "Generate new UUID" fills the five boxes with the parts of a version 4 UUID in upper case,
    whatever the random bytes are; saved, they make the UUID with dashes between. *)
Theorem C81_generate r f : bytes_ok r -> List.length r = 16%nat ->
  exists p0 p1 p2 p3 p4, v4_parts p0 p1 p2 p3 p4 /\
    uuid_parts r = [p0; p1; p2; p3; p4] /\
    map (fm_text (generate r f)) uuid_boxes = [p0; p1; p2; p3; p4] /\
    get_uuid (generate r f) = dashed [p0; p1; p2; p3; p4] /\
    has_parts (get_uuid (generate r f)) [p0; p1; p2; p3; p4] /\
    (forall b, ~ In b uuid_boxes -> fm_text (generate r f) b = fm_text f b) /\ fm_check (generate r f) = fm_check f.
Proof.
  intros B L. destruct (uuid_parts_eq r B L) as (E & B0 & B1 & B2 & B3 & B4).
  do 5 eexists. split; [|split; [exact E|split; [|split; [|split; [|split; [|reflexivity]]]]]].
  - do 16 (destruct r as [|? r]; [discriminate L|]). destruct r; [|discriminate L]. cbn [firstn skipn nth] in *.
    repeat split; try reflexivity.
    + apply Forall_app. split; [now apply hexs_upper|]. apply Forall_app. split; [now apply hexs_upper|].
      apply Forall_app. split; [now apply hexs_upper|]. apply Forall_app. split; now apply hexs_upper.
    + cbn [hexs flat_map app].
      match goal with |- exists r, hexu ((64 + ?x mod 16) / 16) :: ?t = _ => assert ((64 + x mod 16) / 16 = 4) as -> end.
      { pose proof (Z.mod_pos_bound z5 16 ltac:(lia)). symmetry. apply (Z.div_unique _ _ _ (z5 mod 16)); lia. }
      eexists. reflexivity.
    + cbn [hexs flat_map app]. do 2 eexists. split; [reflexivity|].
      match goal with |- In (hexu ((128 + ?x mod 64) / 16)) _ => pose proof (Z.mod_pos_bound x 64 ltac:(lia)) as M; set (y := x mod 64) in *; clearbody y end.
      assert ((128 + y) / 16 = 8 \/ (128 + y) / 16 = 9 \/ (128 + y) / 16 = 10 \/ (128 + y) / 16 = 11) as Q.
      { pose proof (Z.div_mod (128 + y) 16 ltac:(lia)). pose proof (Z.mod_pos_bound (128 + y) 16 ltac:(lia)). lia. }
      destruct Q as [->|[->|[->| ->]]]; vm_compute; auto.
  - cbn [map uuid_boxes generate fm_text]. now rewrite E.
  - unfold get_uuid. cbn [generate fm_text]. rewrite E. reflexivity.
  - unfold get_uuid. cbn [generate fm_text]. rewrite E. cbn [nth js_join]. split; [discriminate|].
    split; [do 5 (apply Forall_cons; [apply upper_no_dash, hexs_upper; assumption|]); apply Forall_nil|reflexivity].
  - intros b N. destruct b; try reflexivity; destruct N; cbn; tauto.
Qed.

(** Two generated UUIDs are equal exactly if the random bytes agree in the 122 bits used. *)
Theorem C81_distinct r r' : bytes_ok r -> List.length r = 16%nat -> bytes_ok r' -> List.length r' = 16%nat ->
  (uuid_parts r = uuid_parts r' <-> same_random r r').
Proof.
  intros B L B' L'. destruct (uuid_parts_eq r B L) as (E & B0 & B1 & B2 & B3 & B4).
  destruct (uuid_parts_eq r' B' L') as (E' & B0' & B1' & B2' & B3' & B4'). rewrite E, E'.
  do 16 (destruct r as [|? r]; [discriminate L|]). destruct r; [|discriminate L].
  do 16 (destruct r' as [|? r']; [discriminate L'|]). destruct r'; [|discriminate L']. cbn [firstn skipn nth] in *. clear E E' L L'. split.
  - intros H. assert (forall a b : list bytes, a = b -> forall i, nth i a [] = nth i b []) as N by (intros; congruence).
    pose proof (N _ _ H 0%nat) as H0. pose proof (N _ _ H 1%nat) as H1. pose proof (N _ _ H 2%nat) as H2. pose proof (N _ _ H 3%nat) as H3.
    pose proof (N _ _ H 4%nat) as H4. clear H N. cbn [nth] in *. apply hexs_inj in H0, H1, H2, H3, H4; try assumption.
    injection H0 as -> -> -> ->. injection H1 as -> ->. injection H4 as -> -> -> -> -> ->.
    assert (forall (a b c d : Z), [a; b] = [c; d] -> a = c /\ b = d) as J by (intros a b c d J; now injection J).
    apply J in H2 as [H2 ->]. apply J in H3 as [H3 ->].
    intros i I. assert (i = 0 \/ i = 1 \/ i = 2 \/ i = 3 \/ i = 4 \/ i = 5 \/ i = 6 \/ i = 7 \/ i = 8 \/ i = 9 \/ i = 10 \/ i = 11 \/ i = 12 \/ i = 13 \/ i = 14 \/ i = 15) as C by lia.
    repeat (destruct C as [->|C]; [first [vm_compute; reflexivity | cbn -[Z.modulo Z.add]; lia]|]). subst i. reflexivity.
  - intros S.
    pose proof (S 0 ltac:(lia)) as S0. pose proof (S 1 ltac:(lia)) as S1. pose proof (S 2 ltac:(lia)) as S2. pose proof (S 3 ltac:(lia)) as S3.
    pose proof (S 4 ltac:(lia)) as S4. pose proof (S 5 ltac:(lia)) as S5. pose proof (S 6 ltac:(lia)) as S6. pose proof (S 7 ltac:(lia)) as S7.
    pose proof (S 8 ltac:(lia)) as S8. pose proof (S 9 ltac:(lia)) as S9. pose proof (S 10 ltac:(lia)) as S10. pose proof (S 11 ltac:(lia)) as S11.
    pose proof (S 12 ltac:(lia)) as S12. pose proof (S 13 ltac:(lia)) as S13. pose proof (S 14 ltac:(lia)) as S14. pose proof (S 15 ltac:(lia)) as S15.
    vm_compute in S0, S1, S2, S3, S4, S5, S7, S9, S10, S11, S12, S13, S14, S15. cbn [Z.eqb Pos.eqb nth] in S6, S8. subst. now rewrite S6, S8.
Qed.

(** Every version 4 UUID can be generated. *)
Theorem C81_all p0 p1 p2 p3 p4 : v4_parts p0 p1 p2 p3 p4 ->
  exists r, bytes_ok r /\ List.length r = 16%nat /\ uuid_parts r = [p0; p1; p2; p3; p4].
Proof.
  intros (L0 & L1 & L2 & L3 & L4 & F & (v & E2) & (c & w & E3 & IC)).
  apply Forall_app in F as [F0 F]. apply Forall_app in F as [F1 F]. apply Forall_app in F as [F2 F]. apply Forall_app in F as [F3 F4].
  destruct (hexs_onto 4 p0 L0 F0) as (l0 & B0 & K0 & <-). destruct (hexs_onto 2 p1 L1 F1) as (l1 & B1 & K1 & <-).
  destruct (hexs_onto 2 p2 L2 F2) as (l2 & B2 & K2 & H2). destruct (hexs_onto 2 p3 L3 F3) as (l3 & B3 & K3 & H3).
  destruct (hexs_onto 6 p4 L4 F4) as (l4 & B4 & K4 & <-).
  assert (bytes_ok (l0 ++ l1 ++ l2 ++ l3 ++ l4)) as BB by (unfold bytes_ok in *; rewrite !Forall_app; auto).
  assert (List.length (l0 ++ l1 ++ l2 ++ l3 ++ l4) = 16%nat) as LL by (rewrite !app_length, K0, K1, K2, K3, K4; reflexivity).
  exists (l0 ++ l1 ++ l2 ++ l3 ++ l4). split; [exact BB|]. split; [exact LL|].
  rewrite (proj1 (uuid_parts_eq _ BB LL)).
  destruct l0 as [|a0 [|a1 [|a2 [|a3 [|]]]]]; try discriminate K0. destruct l1 as [|a4 [|a5 [|]]]; try discriminate K1.
  destruct l2 as [|a6 [|a7 [|]]]; try discriminate K2. destruct l3 as [|a8 [|a9 [|]]]; try discriminate K3.
  cbn [app firstn skipn nth]. inversion B2 as [|? ? B6 _]; inversion B3 as [|? ? B8 _]; subst.
  destruct (nibbles a6 B6) as (N1 & N2 & N3), (nibbles a8 B8) as (N4 & N5 & N6).
  assert (64 + a6 mod 16 = a6) as ->.
  { cbn [hexs flat_map app] in H2. injection H2 as H2 _ . assert (a6 / 16 = 4) as Q by (apply hexu_inj; [assumption|lia|exact H2]). lia. }
  assert (128 + a8 mod 64 = a8) as ->.
  { cbn [hexs flat_map app] in H3. injection H3 as H3 _ .
    assert (8 <= a8 / 16 <= 11) as Q.
    { cbn in IC. unfold hexu in H3. destruct (a8 / 16 <? 10) eqn:Q; lia. }
    pose proof (Z.div_mod a8 64 ltac:(lia)). pose proof (Z.mod_pos_bound a8 64 ltac:(lia)). lia. }
  congruence.
Qed.
Example C81_example :
  uuid_parts [222; 173; 190; 239; 1; 2; 255; 4; 255; 6; 7; 8; 9; 10; 11; 12] =
    [str "DEADBEEF"; str "0102"; str "4F04"; str "BF06"; str "0708090A0B0C"].
Proof. vm_compute. reflexivity. Qed.

(* ------------------------------------------------------------ C82: statistics links *)

Lemma itoa_decimal p : 0 <= p -> decimal (itoa p) p.
Proof.
  intros H. destruct (itoa_value p H) as (V & F & N). exists [], (itoa p). split; [exact N|]. split; [exact F|]. split; [reflexivity|].
  left. split; [reflexivity|now symmetry].
Qed.
Lemma dec_char_not c s : Forall dec_char s -> ~ dec_char c -> ~ In c s.
Proof. intros F N I. rewrite Forall_forall in F. now apply F in I. Qed.

(** The link of a PGN leads to the details page of its number, whatever apps there are. *)
Theorem C82_route apps late pgn : 0 <= pgn -> route apps late (stats_link (itoa pgn)) = HDetails (itoa pgn).
Proof.
  intros H. destruct (itoa_value pgn H) as (_ & F & N). apply C76_messages; [exact N|].
  apply (dec_char_not 47 _ F). unfold dec_char. lia.
Qed.
(** ... which shows the first entry for that PGN if the PGN is in the table. *)
Theorem C82_shows pgn k : In pgn (map p_pgn PgnList) -> pgn <> 0 -> first_entry PgnList pgn k ->
  MessageDetails PgnList (itoa pgn) = Ret (DJson k).
Proof.
  intros I NZ FE.
  assert (zlen PgnList <= pgn < 2 ^ 31) as [R1 R2].
  { apply in_map_iff in I as (p & <- & I).
    assert (forallb (fun p => (p_pgn p =? 0) || (zlen PgnList <=? p_pgn p) && (p_pgn p <? 2 ^ 31)) PgnList = true) as A by (vm_compute; reflexivity).
    rewrite forallb_forall in A. apply A in I. apply Bool.orb_true_iff in I. rewrite Bool.andb_true_iff in I. lia. }
  assert (0 <= pgn) as P by (pose proof (Zle_0_nat (List.length PgnList)); unfold zlen in R1; lia).
  destruct (itoa_value pgn P) as (V & F & N).
  assert (before_dot (itoa pgn) (itoa pgn)) as BD by (split; [apply (dec_char_not 46 _ F); unfold dec_char; lia|now left]).
  assert (extension (itoa pgn) []) as EX by (left; split; [apply (dec_char_not 46 _ F); unfold dec_char; lia|reflexivity]).
  assert (key_number (itoa pgn) pgn) as KN by (left; exists pgn; split; [now apply itoa_decimal|unfold clamp32; lia]).
  assert (PgnList <> []) as NE by discriminate.
  destruct (C65_details PgnList _ _ _ _ NE BD EX KN) as (_ & _ & D). destruct (D R1) as (k' & FE' & PG).
  assert (k' = k) as ->.
  { apply in_map_iff in I as (q0 & Q0 & I). apply In_nth_error in I as (n & I).
    assert (zget PgnList (Z.of_nat n) = Some q0) as ZN by (unfold zget; rewrite Nat2Z.id; replace (Z.of_nat n <? 0) with false by lia; exact I).
    destruct FE as [(p & Z1 & Q1 & M1)|[X _]]; [|exfalso; exact (X _ _ ZN Q0)].
    destruct FE' as [(p' & Z2 & Q2 & M2)|[X _]]; [|exfalso; exact (X _ _ ZN Q0)].
    destruct (Z.lt_trichotomy k k') as [X|[X|X]]; [|now symmetry|].
    - exfalso. exact (M2 _ _ X Z1 Q1).
    - exfalso. exact (M1 _ _ X Z2 Q2). }
  destruct PG as (p & Z1 & PG). destruct PG as [[_ PG]|[X _]]; [exact PG|vm_compute in X; discriminate X].
Qed.
Lemma details_number pgn : 0 <= pgn < 2 ^ 31 ->
  (pgn < zlen PgnList -> MessageDetails PgnList (itoa pgn) = Ret (DJson pgn)) /\
  (zlen PgnList <= pgn -> exists k, first_entry PgnList pgn k /\ MessageDetails PgnList (itoa pgn) = Ret (DJson k)).
Proof.
  intros [P R]. destruct (itoa_value pgn P) as (V & F & N).
  assert (before_dot (itoa pgn) (itoa pgn)) as BD by (split; [apply (dec_char_not 46 _ F); unfold dec_char; lia|now left]).
  assert (extension (itoa pgn) []) as EX by (left; split; [apply (dec_char_not 46 _ F); unfold dec_char; lia|reflexivity]).
  assert (key_number (itoa pgn) pgn) as KN by (left; exists pgn; split; [now apply itoa_decimal|unfold clamp32; lia]).
  assert (PgnList <> []) as NE by discriminate.
  assert (forall k, is_page PgnList k [] (MessageDetails PgnList (itoa pgn)) -> MessageDetails PgnList (itoa pgn) = Ret (DJson k)) as PG.
  { intros k (p & _ & [[_ PG]|[X _]]); [exact PG|vm_compute in X; discriminate X]. }
  destruct (C65_details PgnList _ _ _ _ NE BD EX KN) as (_ & D1 & D2). split.
  - intros L. apply PG, D1. lia.
  - intros L. destruct (D2 L) as (k & FE & Q). exists k. split; [exact FE|]. now apply PG.
Qed.
(** A PGN that is not in the table shows the entry for unknown PGNs (entry 0), or, if it is
    below 297 (the size of the table), the entry with that index, which has another PGN. *)
Theorem C82_not_in_table pgn : 0 < pgn < 2 ^ 31 -> ~ In pgn (map p_pgn PgnList) ->
  (zlen PgnList <= pgn -> MessageDetails PgnList (itoa pgn) = Ret (DJson 0)) /\
  (pgn < zlen PgnList -> MessageDetails PgnList (itoa pgn) = Ret (DJson pgn)).
Proof.
  intros R NI. destruct (details_number pgn ltac:(lia)) as [D1 D2]. split; [|exact D1]. intros L.
  destruct (D2 L) as (k & [(p & Z1 & Q & _)|[_ ->]] & E); [|exact E].
  exfalso. apply NI. rewrite <- Q. apply in_map. unfold zget in Z1. destruct (k <? 0); [discriminate Z1|]. eapply nth_error_In, Z1.
Qed.
Theorem C82_index_refuted : exists pgn p, 0 < pgn /\ MessageDetails PgnList (itoa pgn) = Ret (DJson pgn) /\
  zget PgnList pgn = Some p /\ p_pgn p <> pgn.
Proof.
  destruct (zget PgnList 5) as [p|] eqn:E; [|vm_compute in E; discriminate E]. exists 5, p. split; [lia|]. split; [vm_compute; reflexivity|]. split; [exact E|].
  vm_compute in E. injection E as <-. vm_compute. discriminate.
Qed.
Example C82_example : In 127488 (map p_pgn PgnList) /\ exists k, first_entry PgnList 127488 k /\ MessageDetails PgnList (itoa 127488) = Ret (DJson k) /\
  option_map p_desc (zget PgnList k) = Some "Engine Parameters, Rapid Update"%string.
Proof.
  split; [apply in_map_iff|].
  - destruct (find (fun p => p_pgn p =? 127488) PgnList) as [p|] eqn:E; [|vm_compute in E; discriminate E].
    exists p. apply find_some in E as [I E]. split; [lia|exact I].
  - destruct (details_number 127488 ltac:(lia)) as [_ D]. destruct D as (k & F & E); [vm_compute; discriminate|].
    exists k. split; [exact F|]. split; [exact E|]. vm_compute in E. injection E as <-. vm_compute. reflexivity.
Qed.
