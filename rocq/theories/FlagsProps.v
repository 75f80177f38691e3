(** FlagsProps: the command line (C97). *)
From Verif Require Import GoBase Strconv CanModel NmeaTypes MainModel LogModel FlagsModel FlagsSpec FlagsNum.
From Coq Require Import ZifyBool.
Open Scope Z_scope.
Open Scope list_scope.

(* ------------------------------------------------------------ proofs *)

Lemma parse_bool_spec s b : parse_bool s = Some b <-> truth s b.
Proof.
  unfold truth, parse_bool.
  destruct (existsb (bytes_eqb s) [str "1"; str "t"; str "T"; str "TRUE"; str "true"; str "True"]) eqn:E1.
  - apply existsb_exists in E1 as (x & I & E). apply bytes_eqb_eq in E. subst x. destruct b.
    + split; [intros _; exact I|reflexivity].
    + split; [discriminate|]. intros J. exfalso. cbn [In] in I. repeat (destruct I as [<-|I]; [vm_compute in J; intuition discriminate|]). destruct I.
  - assert (forall b', In s (map str (["1"; "t"; "T"; "TRUE"; "true"; "True"])%string) -> b' = true -> False) as N.
    { intros b' J _. assert (existsb (bytes_eqb s) [str "1"; str "t"; str "T"; str "TRUE"; str "true"; str "True"] = true) as K.
      { apply existsb_exists. exists s. split; [exact J|now apply bytes_eqb_eq]. } congruence. }
    destruct (existsb (bytes_eqb s) [str "0"; str "f"; str "F"; str "FALSE"; str "false"; str "False"]) eqn:E2.
    + apply existsb_exists in E2 as (x & I & E). apply bytes_eqb_eq in E. subst x. destruct b.
      * split; [discriminate|]. intros J. exfalso. now apply (N true J).
      * split; [intros _; exact I|reflexivity].
    + split; [discriminate|]. destruct b; intros J; exfalso; [now apply (N true J)|].
      assert (existsb (bytes_eqb s) [str "0"; str "f"; str "F"; str "FALSE"; str "false"; str "False"] = true) as K.
      { apply existsb_exists. exists s. split; [exact J|now apply bytes_eqb_eq]. } congruence.
Qed.

Definition apply_setting (a : command_args) (s : setting) : command_args :=
  match s with
  | SetSwitch FlagsSpec.Help v => mkargs v (a_explain a) (a_stats a) (a_pgn a) (a_src a) (a_dst a) (a_log a) (a_config a)
  | SetSwitch FlagsSpec.Explain v => mkargs (a_help a) v (a_stats a) (a_pgn a) (a_src a) (a_dst a) (a_log a) (a_config a)
  | SetSwitch Statistic v => mkargs (a_help a) (a_explain a) v (a_pgn a) (a_src a) (a_dst a) (a_log a) (a_config a)
  | SetNumber Pgn v => mkargs (a_help a) (a_explain a) (a_stats a) v (a_src a) (a_dst a) (a_log a) (a_config a)
  | SetNumber Source v => mkargs (a_help a) (a_explain a) (a_stats a) (a_pgn a) v (a_dst a) (a_log a) (a_config a)
  | SetNumber Dest v => mkargs (a_help a) (a_explain a) (a_stats a) (a_pgn a) (a_src a) v (a_log a) (a_config a)
  | SetText Log v => mkargs (a_help a) (a_explain a) (a_stats a) (a_pgn a) (a_src a) (a_dst a) v (a_config a)
  | SetText Config v => mkargs (a_help a) (a_explain a) (a_stats a) (a_pgn a) (a_src a) (a_dst a) (a_log a) v
  end.
Definition apply_all (l : list setting) (a : command_args) : command_args := fold_left apply_setting l a.

Lemma known n k : lookup_flag n = Some k ->
  (exists w, n = switch_name w /\ exists set, k = KBool set /\ forall v a, set v a = apply_setting a (SetSwitch w v)) \/
  (exists w, n = number_name w /\ exists set, k = KInt set /\ forall v a, set v a = apply_setting a (SetNumber w v)) \/
  (exists w, n = text_name w /\ exists set, k = KString set /\ forall v a, set v a = apply_setting a (SetText w v)).
Proof.
  unfold lookup_flag.
  repeat (match goal with |- context [bytes_eqb n ?x] => destruct (bytes_eqb n x) eqn:?E end;
    [match goal with H : bytes_eqb n ?x = true |- _ => apply bytes_eqb_eq in H; subst n end; intros H|]).
  9: discriminate.
  - left. exists FlagsSpec.Help. split; [reflexivity|]. eexists. split; [symmetry; f_equal; injection H as <-; reflexivity|reflexivity].
  - left. exists FlagsSpec.Explain. split; [reflexivity|]. eexists. split; [injection H as <-; reflexivity|reflexivity].
  - left. exists Statistic. split; [reflexivity|]. eexists. split; [injection H as <-; reflexivity|reflexivity].
  - right; left. exists Pgn. split; [reflexivity|]. eexists. split; [injection H as <-; reflexivity|reflexivity].
  - right; left. exists Source. split; [reflexivity|]. eexists. split; [injection H as <-; reflexivity|reflexivity].
  - right; left. exists Dest. split; [reflexivity|]. eexists. split; [injection H as <-; reflexivity|reflexivity].
  - right; right. exists Log. split; [reflexivity|]. eexists. split; [injection H as <-; reflexivity|reflexivity].
  - right; right. exists Config. split; [reflexivity|]. eexists. split; [injection H as <-; reflexivity|reflexivity].
Qed.

Lemma split_eq_join s : s = fst (split_eq s) ++ match snd (split_eq s) with Some v => 61 :: v | None => [] end.
Proof.
  induction s as [|c r IH]; [reflexivity|]. cbn [split_eq]. destruct (Z.eqb_spec c 61) as [->|N]; [reflexivity|].
  destruct (split_eq r) as [n v]. cbn [fst snd app] in *. now rewrite <- IH.
Qed.
Lemma split_name_join s n v : split_name s = (n, v) -> s = n ++ match v with Some v => 61 :: v | None => [] end.
Proof.
  destruct s as [|c r]; cbn [split_name]; [intros E; injection E as <- <-; reflexivity|].
  pose proof (split_eq_join r) as J. destruct (split_eq r) as [n' v']. cbn [fst snd] in J. intros E. injection E as <- <-. cbn [app]. now rewrite <- J.
Qed.
Lemma dash_other c : c <> 45 -> forall {A} (x y : A), (match c with 45 => x | _ => y end) = y.
Proof. intros N A x y. destruct c as [|p|p]; try reflexivity. do 6 (try (destruct p as [p|p|]; try reflexivity)). now destruct N. Qed.
Lemma classify_inv s :
  match classify s with
  | WStop => s = [] \/ s = str "-" \/ exists c r, s = c :: r /\ c <> 45
  | WStopSkip => s = str "--"
  | WBad => True
  | WFlag name => exists d, dash d /\ s = d ++ name
  end.
Proof.
  destruct s as [|c r]; [now left|]. destruct (Z.eq_dec c 45) as [->|N].
  2: { assert (classify (c :: r) = WStop) as -> by (unfold classify; now rewrite dash_other). right; right. eauto. }
  destruct r as [|c r]; [now right; left|]. destruct (Z.eq_dec c 45) as [->|N].
  - destruct r as [|c r]; [reflexivity|]. cbn [classify]. destruct (_ || _); [exact I|]. exists (str "--"). split; [now right|reflexivity].
  - assert (classify (45 :: c :: r) = if c =? 61 then WBad else WFlag (c :: r)) as ->.
    { cbn [classify]. now rewrite dash_other. }
    destruct (c =? 61); [exact I|]. exists (str "-"). split; [now left|reflexivity].
Qed.

Lemma parse_sound n : forall args, (List.length args <= n)%nat -> forall a a' rest, parse_args args a = FOk a' rest ->
  exists l, command_line args l /\ a' = apply_all l a.
Proof.
  induction n as [|n IH]; intros args L a a' rest H.
  { destruct args; [|cbn in L; lia]. cbn in H. injection H as <- <-. exists []. split; [constructor; constructor|reflexivity]. }
  destruct args as [|s args]. { cbn in H. injection H as <- <-. exists []. split; [constructor; constructor|reflexivity]. }
  cbn [List.length] in L. cbn [parse_args] in H. pose proof (classify_inv s) as C. destruct (classify s) as [| | |name].
  - injection H as <- <-. exists []. split; [|reflexivity]. constructor. destruct C as [-> | [-> | (c & r & -> & N)]]; [|now constructor|].
    + apply nm_word. discriminate.
    + apply nm_word. intros t E. congruence.
  - injection H as <- <-. exists []. split; [|reflexivity]. subst s. constructor. constructor.
  - discriminate.
  - destruct C as (d & D & ->). destruct (split_name name) as [nm v] eqn:ES. apply split_name_join in ES. subst name.
    destruct (lookup_flag nm) as [k|] eqn:EL; [|destruct (_ || _); discriminate].
    assert (forall ws s0 rst, option_words ws s0 -> (List.length rst <= n)%nat -> parse_args rst (apply_setting a s0) = FOk a' rest ->
        exists l, command_line (ws ++ rst) l /\ a' = apply_all l a) as K.
    { intros ws s0 rst OW LR E. destruct (IH rst LR _ _ _ E) as (l & CL & EA). exists (s0 :: l). split; [now constructor|]. exact EA. }
    destruct (known _ _ EL) as [(w & -> & set & -> & S) | [(w & -> & set & -> & S) | (w & -> & set & -> & S)]].
    + destruct (parse_bool _) as [b|] eqn:EB; [|discriminate]. apply parse_bool_spec in EB. rewrite S in H. destruct v as [v|].
      * apply (K [d ++ switch_name w ++ 61 :: v] (SetSwitch w b) args); [now constructor|lia|exact H].
      * rewrite app_nil_r. assert (b = true) as ->.
        { destruct b; [reflexivity|]. exfalso. vm_compute in EB. intuition discriminate. }
        apply (K [d ++ switch_name w] (SetSwitch w true) args); [now constructor|lia|exact H].
    + destruct v as [v|].
      * destruct (parse_int0 v) as [z|] eqn:EZ; [|discriminate]. apply parse_int0_spec in EZ. rewrite S in H.
        apply (K [d ++ number_name w ++ 61 :: v] (SetNumber w z) args); [now constructor|lia|exact H].
      * rewrite app_nil_r. destruct args as [|v args]; [discriminate|]. destruct (parse_int0 v) as [z|] eqn:EZ; [|discriminate]. apply parse_int0_spec in EZ. rewrite S in H.
        apply (K [d ++ number_name w; v] (SetNumber w z) args); [now constructor|cbn in L; lia|exact H].
    + destruct v as [v|].
      * rewrite S in H. apply (K [d ++ text_name w ++ 61 :: v] (SetText w v) args); [now constructor|lia|exact H].
      * rewrite app_nil_r. destruct args as [|v args]; [discriminate|]. rewrite S in H.
        apply (K [d ++ text_name w; v] (SetText w v) args); [now constructor|cbn in L; lia|exact H].
Qed.
Lemma step_switch d w v rest a : dash d -> parse_args ([d ++ switch_name w ++ str "=" ++ v] ++ rest) a =
  match parse_bool v with Some b => parse_args rest (apply_setting a (SetSwitch w b)) | None => FExit BadValue end.
Proof. intros [-> | ->]; destruct w; reflexivity. Qed.
Lemma step_number_eq d w v rest a : dash d -> parse_args ([d ++ number_name w ++ str "=" ++ v] ++ rest) a =
  match parse_int0 v with Some z => parse_args rest (apply_setting a (SetNumber w z)) | None => FExit BadValue end.
Proof. intros [-> | ->]; destruct w; reflexivity. Qed.
Lemma step_number d w v rest a : dash d -> parse_args ([d ++ number_name w; v] ++ rest) a =
  match parse_int0 v with Some z => parse_args rest (apply_setting a (SetNumber w z)) | None => FExit BadValue end.
Proof. intros [-> | ->]; destruct w; reflexivity. Qed.
Lemma parse_complete args l : command_line args l -> forall a, exists rest, parse_args args a = FOk (apply_all l a) rest.
Proof.
  induction 1 as [r N|ws s rest l OW CL IH]; intros a.
  - destruct N as [|r|r|w r N]; try (eexists; reflexivity). exists (w :: r). cbn [parse_args].
    assert (classify w = WStop) as ->; [|reflexivity]. pose proof (classify_inv w) as C. destruct w as [|c w]; [reflexivity|].
    unfold classify. rewrite dash_other; [reflexivity|]. intros ->. now apply (N w).
  - destruct (IH (apply_setting a s)) as (r & E). exists r. change (apply_all (s :: l) a) with (apply_all l (apply_setting a s)). rewrite <- E. clear E.
    destruct OW as [d w D|d w v b D T|d w v z D T|d w v z D T|d w v D|d w v D]; destruct D as [-> | ->].
    + destruct w; reflexivity.
    + destruct w; reflexivity.
    + apply parse_bool_spec in T. rewrite step_switch by (unfold dash; auto). now rewrite T.
    + apply parse_bool_spec in T. rewrite step_switch by (unfold dash; auto). now rewrite T.
    + apply parse_int0_spec in T. rewrite step_number_eq by (unfold dash; auto). now rewrite T.
    + apply parse_int0_spec in T. rewrite step_number_eq by (unfold dash; auto). now rewrite T.
    + apply parse_int0_spec in T. rewrite step_number by (unfold dash; auto). now rewrite T.
    + apply parse_int0_spec in T. rewrite step_number by (unfold dash; auto). now rewrite T.
    + destruct w; reflexivity.
    + destruct w; reflexivity.
    + destruct w; reflexivity.
    + destruct w; reflexivity.
Qed.

(** The fields of the options after a list of settings. *)
Lemma apply_all_fields l a :
  a_help (apply_all l a) = last_given (switch_of FlagsSpec.Help) l (a_help a) /\
  a_explain (apply_all l a) = last_given (switch_of FlagsSpec.Explain) l (a_explain a) /\
  a_stats (apply_all l a) = last_given (switch_of Statistic) l (a_stats a) /\
  a_pgn (apply_all l a) = last_given (number_of Pgn) l (a_pgn a) /\
  a_src (apply_all l a) = last_given (number_of Source) l (a_src a) /\
  a_dst (apply_all l a) = last_given (number_of Dest) l (a_dst a) /\
  a_log (apply_all l a) = last_given (text_of Log) l (a_log a) /\
  a_config (apply_all l a) = last_given (text_of Config) l (a_config a).
Proof.
  revert a. induction l as [|s l IH]; intros a; [repeat split|]. cbn [apply_all fold_left last_given].
  destruct (IH (apply_setting a s)) as (H1 & H2 & H3 & H4 & H5 & H6 & H7 & H8).
  unfold apply_all in *. rewrite H1, H2, H3, H4, H5, H6, H7, H8. destruct s as [[| |] v|[| |] v|[|] v]; repeat split.
Qed.

(* ------------------------------------------------------------ C97 *)

(** C97: a command line is accepted exactly if it is a sequence of options followed by the end,
    by "--", or by a word that is not an option; every option then has the value given last, or
    its default; -log is taken in upper case.  Everything else ends the program. *)
Theorem C97_options other args o : GetCommandLineOptions other args = Some o <->
  exists l, command_line args l /\
    a_help o = last_given (switch_of FlagsSpec.Help) l false /\
    a_explain o = last_given (switch_of FlagsSpec.Explain) l false /\
    a_stats o = last_given (switch_of Statistic) l false /\
    a_pgn o = last_given (number_of Pgn) l 0 /\
    a_src o = last_given (number_of Source) l 255 /\
    a_dst o = last_given (number_of Dest) l 255 /\
    a_log o = to_upper other (last_given (text_of Log) l []) /\
    a_config o = last_given (text_of Config) l (str "argo.conf").
Proof.
  unfold GetCommandLineOptions. split.
  - destruct (parse_args args default_args) as [a rest|e] eqn:E; [|discriminate]. intros H. injection H as <-.
    destruct (parse_sound (List.length args) args (le_n _) _ _ _ E) as (l & CL & ->). exists l. split; [exact CL|].
    destruct (apply_all_fields l default_args) as (H1 & H2 & H3 & H4 & H5 & H6 & H7 & H8).
    cbn [a_help a_explain a_stats a_pgn a_src a_dst a_log a_config].
    rewrite H1, H2, H3, H4, H5, H6, H7, H8. repeat split.
  - intros (l & CL & E1 & E2 & E3 & E4 & E5 & E6 & E7 & E8). destruct (parse_complete _ _ CL default_args) as (rest & E). rewrite E.
    destruct (apply_all_fields l default_args) as (H1 & H2 & H3 & H4 & H5 & H6 & H7 & H8). rewrite H1, H2, H3, H4, H5, H6, H7, H8.
    destruct o as [h x s p sr d lo c]. cbn [a_help a_explain a_stats a_pgn a_src a_dst a_log a_config] in *. subst. reflexivity.
Qed.
(** The reading of a command line is unique. *)
Theorem C97_unique args l l' : command_line args l -> command_line args l' ->
  (forall w d, last_given (switch_of w) l d = last_given (switch_of w) l' d) /\
  (forall w d, last_given (number_of w) l d = last_given (number_of w) l' d) /\
  (forall w d, last_given (text_of w) l d = last_given (text_of w) l' d).
Proof.
  intros H H'.
  assert (forall a, apply_all l a = apply_all l' a) as E.
  { intros a. destruct (parse_complete _ _ H a) as (r & E). destruct (parse_complete _ _ H' a) as (r' & E'). congruence. }
  repeat split.
  - intros w d. pose proof (apply_all_fields l (mkargs d d d 0 0 0 [] [])) as F. pose proof (apply_all_fields l' (mkargs d d d 0 0 0 [] [])) as F'.
    rewrite E in F. cbn [a_help a_explain a_stats] in *. destruct w; intuition congruence.
  - intros w d. pose proof (apply_all_fields l (mkargs false false false d d d [] [])) as F. pose proof (apply_all_fields l' (mkargs false false false d d d [] [])) as F'.
    rewrite E in F. cbn [a_pgn a_src a_dst] in *. destruct w; intuition congruence.
  - intros w d. pose proof (apply_all_fields l (mkargs false false false 0 0 0 d d)) as F. pose proof (apply_all_fields l' (mkargs false false false 0 0 0 d d)) as F'.
    rewrite E in F. cbn [a_log a_config] in *. destruct w; intuition congruence.
Qed.

(** What the program does: it exits exactly if the command line is not one; -help wins over
    -explain, and both win over everything else: no configuration is read then. *)
Theorem C97_start other args :
  (main_start other args = Exit2 <-> ~ exists l, command_line args l) /\
  (forall l, command_line args l ->
    main_start other args =
      if last_given (switch_of FlagsSpec.Help) l false then FlagsModel.Help
      else if last_given (switch_of FlagsSpec.Explain) l false then FlagsModel.Explain
      else Start (last_given (text_of Config) l (str "argo.conf")) (to_upper other (last_given (text_of Log) l []))
             (last_given (number_of Pgn) l 0) (last_given (number_of Source) l 255) (last_given (number_of Dest) l 255)
             (last_given (switch_of Statistic) l false)).
Proof.
  assert (forall l, command_line args l -> exists o, GetCommandLineOptions other args = Some o /\ 
    a_help o = last_given (switch_of FlagsSpec.Help) l false /\
    a_explain o = last_given (switch_of FlagsSpec.Explain) l false /\
    a_stats o = last_given (switch_of Statistic) l false /\
    a_pgn o = last_given (number_of Pgn) l 0 /\
    a_src o = last_given (number_of Source) l 255 /\
    a_dst o = last_given (number_of Dest) l 255 /\
    a_log o = to_upper other (last_given (text_of Log) l []) /\
    a_config o = last_given (text_of Config) l (str "argo.conf")) as K.
  { intros l CL. eexists (mkargs _ _ _ _ _ _ _ _). cbn [a_help a_explain a_stats a_pgn a_src a_dst a_log a_config]. split; [|repeat split; reflexivity].
    apply C97_options. exists l. repeat split. exact CL. }
  split.
  - unfold main_start. split.
    + intros H (l & CL). destruct (K l CL) as (o & E & _). rewrite E in H. destruct (a_help o); [discriminate|]. destruct (a_explain o); discriminate.
    + intros N. destruct (GetCommandLineOptions other args) as [o|] eqn:E; [|reflexivity]. exfalso. apply N. apply C97_options in E as (l & CL & _). eauto.
  - intros l CL. destruct (K l CL) as (o & E & H1 & H2 & H3 & H4 & H5 & H6 & H7 & H8). unfold main_start.
    rewrite E, H1, H2, H3, H4, H5, H6, H7, H8. reflexivity.
Qed.

(** Numbers are read as in Go source text, in 64 bits. *)
Theorem C97_numbers s z : parse_int0 s = Some z <-> integer s z.
Proof. apply parse_int0_spec. Qed.

(** A number for -source or -dest that is no address hides every message. *)
Theorem C97_no_address o ws mqtt h : 0 <= rm_source h < 256 -> 0 <= rm_dest h < 256 ->
  ~ 0 <= a_src o < 256 \/ ~ 0 <= a_dst o < 256 -> MainModel.shown (consumer_options o ws mqtt) h = false.
Proof. intros S D H. unfold MainModel.shown, consumer_options. cbn [o_pgn o_src o_dst o_stats]. lia. Qed.

(** The expectation that a switch can be turned off by a following word fails: the word ends the
    options, the switch is on, and everything after it is ignored. *)
Theorem C97_switch_word_refuted other rest :
  main_start other (str "-statistic" :: str "false" :: rest) = Start (str "argo.conf") [] 0 255 255 true.
Proof.
  destruct (C97_start other (str "-statistic" :: str "false" :: rest)) as [_ K].
  rewrite (K [SetSwitch Statistic true]); [reflexivity|].
  apply (cl_option [str "-statistic"]); [apply (ow_switch (str "-") Statistic); now left|]. apply cl_end. apply nm_word. intros t E. discriminate E.
Qed.

(** Examples: three accepted lines and four that are not. *)
Example C97_example : main_start (fun s => s) [str "--log=debug"; str "-pgn"; str "0x1_F503"; str "-source"; str "010"; str "-config"; str "-help"; str "-"; str "-bad"] =
  Start (str "-help") (str "DEBUG") 128259 8 255 false.
Proof. vm_compute. reflexivity. Qed.
Example C97_example_line : command_line [str "--log=debug"; str "-pgn"; str "0x1_F503"; str "x"] [SetText Log (str "debug"); SetNumber Pgn 128259].
Proof.
  apply (cl_option [str "--log=debug"] (SetText Log (str "debug"))); [apply (ow_text_eq (str "--") Log (str "debug")); now right|].
  apply (cl_option [str "-pgn"; str "0x1_F503"] (SetNumber Pgn 128259)); [|apply cl_end, nm_word; intros t E; discriminate E].
  apply (ow_number (str "-") Pgn); [now left|]. apply C97_numbers. vm_compute. reflexivity.
Qed.
Example C97_example_help : main_start (fun s => s) [str "-explain"; str "-help=T"] = FlagsModel.Help.
Proof. vm_compute. reflexivity. Qed.
Example C97_example_bad :
  map (main_start (fun s => s)) [[str "-h"]; [str "-pgn"]; [str "-pgn=1__0"]; [str "-pgn"; str "9223372036854775808"]; [str "-statistic=yes"]] = [Exit2; Exit2; Exit2; Exit2; Exit2].
Proof. vm_compute. reflexivity. Qed.
Example C97_example_hidden : exists o, GetCommandLineOptions (fun s => s) [str "-source"; str "256"] = Some o /\ a_src o = 256.
Proof. eexists. split; vm_compute; reflexivity. Qed.
