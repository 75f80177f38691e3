(** LogProps: the log (C83), the two lines per message (C84, C48). *)
From Coq Require Import Lia ZifyBool.
From Verif Require Import GoBase Strconv StrconvFacts CanModel NmeaTypes NmeaModel NmeaSpec NmeaSafe NmeaProps2 NmeaProps3 PgnTable
  ApiModel ApiSpec ApiProps MainModel MainSpec ConfigModel ConfigSpec ConfigProps LogModel LogSpec.
Open Scope Z_scope.
Open Scope list_scope.

(* ------------------------------------------------------------ C83: the level *)

Definition rank (l : level) : Z :=
  match l with Critical => 0 | Error => 1 | Warning => 2 | Notice => 3 | Info => 4 | Debug => 5 end.
Lemma level_ascii l : ascii_text (level_name l).
Proof. apply Forall_forall. intros c I. assert (forallb (fun c => (0 <=? c) && (c <? 128)) (level_name l) = true) as H by (destruct l; vm_compute; reflexivity).
  rewrite forallb_forall in H. apply H in I. lia. Qed.
Lemma reads_as_lower s t : reads_as s t -> forall t', reads_as s t' -> map lower t = map lower t'.
Proof.
  induction 1 as [|c d s t Hc L R IH|d s t L R IH|d s t L R IH]; intros t' R'; inversion R'; subst; try reflexivity; try lia; cbn [map]; f_equal; try congruence; auto.
Qed.
Lemma names_unique s l m : names s l -> names s m -> l = m.
Proof.
  intros A B. pose proof (reads_as_lower _ _ A _ B) as E. destruct l, m; try reflexivity; vm_compute in E; discriminate E.
Qed.
Lemma find_level_spec s : bytes_ok s ->
  (forall l, names s l -> LogLevelOf s = Some (rank l)) /\ (no_level s -> LogLevelOf s = None).
Proof.
  intros B.
  assert (forall l, EqualFold s (level_name l) = true <-> names s l) as Q by (intros l; apply C64_case; [exact B|apply level_ascii]).
  unfold LogLevelOf, level_names. cbn [find_level].
  change (str "CRITICAL") with (level_name Critical). change (str "ERROR") with (level_name Error). change (str "WARNING") with (level_name Warning).
  change (str "NOTICE") with (level_name Notice). change (str "INFO") with (level_name Info). change (str "DEBUG") with (level_name Debug).
  split.
  - intros l N.
    assert (forall m, EqualFold s (level_name m) = true -> m = l) as U by (intros m E; apply Q in E; exact (names_unique _ _ _ E N)).
    destruct (EqualFold s (level_name Critical)) eqn:E0; [now rewrite <- (U _ E0)|]. destruct (EqualFold s (level_name Error)) eqn:E1; [now rewrite <- (U _ E1)|].
    destruct (EqualFold s (level_name Warning)) eqn:E2; [now rewrite <- (U _ E2)|]. destruct (EqualFold s (level_name Notice)) eqn:E3; [now rewrite <- (U _ E3)|].
    destruct (EqualFold s (level_name Info)) eqn:E4; [now rewrite <- (U _ E4)|]. destruct (EqualFold s (level_name Debug)) eqn:E5; [now rewrite <- (U _ E5)|].
    apply Q in N. destruct l; congruence.
  - intros N. assert (forall m, EqualFold s (level_name m) = false) as F.
    { intros m. destruct (EqualFold s (level_name m)) eqn:E; [|reflexivity]. apply Q in E. now apply N in E. }
    now rewrite !F.
Qed.

(** The level in force comes from the option -log (in upper case), else from the file, else it
    is INFO. *)
Theorem C83_source nilp file opt other : exists c s, start_config nilp (Some file) (to_upper other opt) = Some c /\
  level_text (to_upper other opt) file s /\ cf_log c = s.
Proof.
  destruct (C67_start nilp file (to_upper other opt)) as (r & c & R & S & _ & _ & L0 & L1).
  destruct (C67_read nilp file) as (r' & R' & _ & H). rewrite R in R'. injection R' as <-.
  destruct (H LogLevel) as (H1 & H2 & _); [unfold uuid_part; cbn; intuition discriminate|].
  exists c. destruct (list_eq_dec Z.eq_dec (to_upper other opt) []) as [E|E].
  - rewrite (L0 E) in *. exists (cf_log r). split; [exact S|]. split; [|reflexivity].
    destruct (list_eq_dec Z.eq_dec (cf_log file) []) as [F|F].
    + right; right. split; [exact E|]. split; [exact F|].
      assert (unset (get LogLevel file)) as U by (cbn; rewrite F; now right; right). specialize (H2 U _ d_log). cbn in H2. now injection H2.
    + right; left. split; [exact E|]. split; [exact F|].
      assert (~ unset (get LogLevel file)) as U by (cbn; intros [U|[U|U]]; try discriminate U; injection U as U; contradiction). specialize (H1 U). cbn in H1. now injection H1.
  - exists (cf_log c). split; [exact S|]. split; [|reflexivity]. left. split; [exact E|]. specialize (L1 E). cbn in L1. now injection L1.
Qed.

(** What the text means: NONE, in upper case, silences the log; a level's name, in any case, lets
    through the records up to that level; any other text lets everything through.  Fields without
    a value are printed in the last case, with DEBUG, and with NONE. *)
Theorem C83_level s : bytes_ok s ->
  (s = str "NONE" -> forall k, written (set_up s) (rank k) = false) /\
  (forall l, names s l -> forall k, written (set_up s) (rank k) = true <-> rank k <= rank l) /\
  (no_level s -> s <> str "NONE" -> forall k, written (set_up s) (rank k) = true) /\
  (verbose_of (set_up s) = true <-> names s Debug \/ no_level s).
Proof.
  intros B. destruct (find_level_spec s B) as [F1 F2].
  assert (no_level (str "NONE")) as NN.
  { intros l N. apply C64_ascii in N; [destruct l; vm_compute in N; discriminate N| |apply level_ascii].
    apply Forall_forall. intros c I. assert (forallb (fun c => (0 <=? c) && (c <? 128)) (str "NONE") = true) as H0 by (vm_compute; reflexivity).
    rewrite forallb_forall in H0. apply H0 in I. lia. }
  assert (no_level s \/ exists l, names s l) as D.
  { destruct (LogLevelOf s) as [z|] eqn:E.
    - right. assert (exists l, EqualFold s (level_name l) = true) as [l Q].
      { unfold LogLevelOf, level_names in E. cbn [find_level] in E.
        destruct (EqualFold s (str "CRITICAL")) eqn:E0; [now exists Critical|]. destruct (EqualFold s (str "ERROR")) eqn:E1; [now exists Error|].
        destruct (EqualFold s (str "WARNING")) eqn:E2; [now exists Warning|]. destruct (EqualFold s (str "NOTICE")) eqn:E3; [now exists Notice|].
        destruct (EqualFold s (str "INFO")) eqn:E4; [now exists Info|]. destruct (EqualFold s (str "DEBUG")) eqn:E5; [now exists Debug|]. discriminate E. }
      exists l. apply C64_case in Q; [exact Q|exact B|apply level_ascii].
    - left. intros l N. pose proof (F1 l N) as Y. congruence. }
  unfold set_up. destruct (bytes_eqb s (str "NONE")) eqn:E.
  - apply bytes_eqb_eq in E. subst s. split; [|split; [|split]].
    + intros _ k. reflexivity.
    + intros l N. now apply NN in N.
    + congruence.
    + split; [intros _; now right|reflexivity].
  - assert (s <> str "NONE") as NE by (intros ->; rewrite (proj2 (bytes_eqb_eq _ _) eq_refl) in E; discriminate E).
    split; [congruence|]. split; [|split].
    + intros l N k. rewrite (F1 l N). unfold written. cbn [lg_discard lg_level negb andb]. lia.
    + intros N _ k. rewrite (F2 N). unfold written. cbn [lg_discard lg_level negb andb]. destruct k; reflexivity.
    + destruct D as [N|[l N]].
      * rewrite (F2 N). split; [now right|reflexivity].
      * rewrite (F1 l N). unfold verbose_of. cbn [lg_level]. split.
        -- intros X. left. destruct l; try discriminate X. exact N.
        -- intros [X|X]; [|now apply X in N]. now rewrite (names_unique _ _ _ N X).
Qed.
(** A level or NONE given with -log may be written in any (ASCII) case. *)
Theorem C83_option_case other opt l : ascii_text opt ->
  (map lower opt = map lower (level_name l) -> names (to_upper other opt) l) /\
  (map lower opt = str "none" -> to_upper other opt = str "NONE").
Proof.
  intros A. unfold to_upper.
  assert (forallb (fun c => c <? 128) opt = true) as -> by (apply forallb_forall; intros c I; unfold ascii_text in A; rewrite Forall_forall in A; apply A in I; lia).
  assert (forall c, 0 <= c < 128 -> 0 <= to_upper_char c < 128 /\ lower (to_upper_char c) = lower c) as K.
  { intros c Hc. unfold to_upper_char, lower.
    destruct ((97 <=? c) && (c <=? 122)) eqn:E1; [|now split]. split; [lia|].
    replace ((65 <=? c - 32) && (c - 32 <=? 90)) with true by lia. replace ((65 <=? c) && (c <=? 90)) with false by lia. lia. }
  assert (ascii_text (map to_upper_char opt) /\ map lower (map to_upper_char opt) = map lower opt) as [A' L].
  { clear - A K. induction A as [|c s Hc A IH]; [split; [constructor|reflexivity]|]. destruct IH as [I1 I2]. destruct (K c Hc) as [K1 K2].
    split; [constructor; assumption|]. cbn [map]. congruence. }
  split.
  - intros E. apply C64_ascii; [exact A'|apply level_ascii|congruence].
  - intros E. clear A' L K.
    assert (forall c u, 97 <= u <= 122 -> lower c = u -> to_upper_char c = u - 32) as U.
    { intros c u Hu. unfold lower, to_upper_char. destruct ((65 <=? c) && (c <=? 90)) eqn:E1.
      - intros <-. replace ((97 <=? c) && (c <=? 122)) with false by lia. lia.
      - intros ->. replace ((97 <=? u) && (u <=? 122)) with true by lia. lia. }
    destruct opt as [|a [|b [|c [|d [|]]]]]; try discriminate E. cbn [map] in *. change (str "none") with [110; 111; 110; 101] in E. injection E as E1 E2 E3 E4.
    rewrite (U a 110), (U b 111), (U c 110), (U d 101) by (lia || assumption). reflexivity.
Qed.
(** In the configuration file NONE must be in upper case: "none" logs everything. *)
Theorem C83_none_refuted nilp : exists file c, cf_log file = str "none" /\ start_config nilp (Some file) [] = Some c /\
  forall k, written (set_up (cf_log c)) (rank k) = true.
Proof.
  exists (mkconfig (str "none") (cf_map default_config) (cf_server default_config) (cf_mqtt default_config) None (cf_vessel default_config)).
  eexists. split; [reflexivity|]. split; [destruct nilp; vm_compute; reflexivity|]. intros []; vm_compute; reflexivity.
Qed.

(* ------------------------------------------------------------ C48, C84: the texts *)

Lemma firstn_all_but {A} (l : list A) x : firstn (List.length (l ++ [x]) - 1) (l ++ [x]) = l.
Proof. rewrite app_length. cbn [List.length]. replace (List.length l + 1 - 1)%nat with (List.length l) by lia. rewrite firstn_app, Nat.sub_diag, firstn_all. cbn. apply app_nil_r. Qed.

(** The value of a field as it is printed. *)
Definition value_text (text : gval -> bytes) (v : gval) : bytes := match v with VNil => str "nil" | v => text v end.
(** The text of the line of a decoded message: time, priority, source, destination, PGN and name
    between spaces, then, if there are fields, a colon and the fields with semicolons between;
    without fields there is not even the colon. *)
Theorem C48_text text ts t p verbose pp l : zget t (pm_index p) = Some pp -> print_fields t p verbose = Ret l ->
  msg_print text ts t p verbose = Ret (
    separated (str " ") [ts; itoa (rm_priority (pm_header p)); itoa (rm_source (pm_header p)); itoa (rm_dest (pm_header p));
                         itoa (rm_pgn (pm_header p)); str (p_desc pp)] ++
    match l with
    | [] => []
    | _ => str ":" ++ separated (str ";") (map (fun e => str " " ++ itoa (fst (fst e)) ++ str "." ++ str (snd (fst e)) ++ str " = " ++ value_text text (snd e)) l)
    end).
Proof.
  intros ZG P. unfold msg_print. rewrite ZG, P. cbv zeta. f_equal. unfold separated. cbn [flat_map].
  set (f := fun e : Z * string * gval => str " " ++ itoa (fst (fst e)) ++ str "." ++ str (snd (fst e)) ++ str " = " ++ value_text text (snd e)).
  assert (forall e, field_text text e = f e ++ str ";") as FT.
  { intros [[i n] v]. subst f. cbn [field_text fst snd]. unfold value_text. rewrite <- !app_assoc. reflexivity. }
  change (str " ") with [32]. change (str ":") with [58]. rewrite !app_nil_r.
  destruct l as [|e l].
  - cbn [flat_map]. rewrite !app_nil_r.
    match goal with |- firstn _ ?x = ?y => replace x with (y ++ [58]) by (rewrite <- !app_assoc; reflexivity) end. apply firstn_all_but.
  - assert (forall e l, flat_map (field_text text) (e :: l) = match map f (e :: l) with [] => [] | x :: r => x ++ flat_map (fun y => str ";" ++ y) r end ++ str ";") as FM.
    { clear P e l. intros e l. revert e. induction l as [|e2 l IH]; intros e; cbn [flat_map map]; [rewrite FT, !app_nil_r; reflexivity|].
      rewrite FT. change (field_text text e2 ++ flat_map (field_text text) l) with (flat_map (field_text text) (e2 :: l)). rewrite IH. cbn [map]. now rewrite <- !app_assoc. }
    rewrite FM. change (str ";") with [59].
    match goal with |- firstn _ ?x = ?y => replace x with (y ++ [59]) by (rewrite <- !app_assoc; reflexivity) end. apply firstn_all_but.
Qed.

Lemma hex_ok b : is_byte b -> hex_byte [hex_digit (b / 16); hex_digit (b mod 16)] b.
Proof.
  intros B. unfold is_byte in B. exists (hex_digit (b / 16)), (hex_digit (b mod 16)). split; [reflexivity|].
  pose proof (Z.div_mod b 16 ltac:(lia)). pose proof (Z.mod_pos_bound b 16 ltac:(lia)). unfold hex_digit, lower_hex, hex_value.
  destruct (b / 16 <? 10) eqn:E1, (b mod 16 <? 10) eqn:E2; repeat split; try lia;
    repeat match goal with |- context [?x <? 58] => destruct (x <? 58) eqn:?; try lia end.
Qed.
(** The text of the raw dump. *)
Theorem C84_text ts m : bytes_ok (rm_data m) -> exists ws, Forall2 hex_byte ws (rm_data m) /\
  raw_print ts m = separated (str " ") [ts; itoa (rm_priority m); itoa (rm_source m); itoa (rm_dest m); itoa (rm_pgn m); itoa (rm_length m) ++ str ":"] ++
    str " " ++ separated (str " ") ws.
Proof.
  intros B. exists (map (fun b => [hex_digit (b / 16); hex_digit (b mod 16)]) (rm_data m)). split.
  - induction B as [|b l Hb B IH]; [constructor|]. cbn [map]. constructor; [now apply hex_ok|exact IH].
  - assert (hex_spaced (rm_data m) = separated (str " ") (map (fun b => [hex_digit (b / 16); hex_digit (b mod 16)]) (rm_data m))) as E.
    { clear. induction (rm_data m) as [|b l IH]; [reflexivity|]. destruct l as [|b2 l]; [reflexivity|].
      change (hex_spaced (b :: b2 :: l)) with (hex_digit (b / 16) :: hex_digit (b mod 16) :: 32 :: hex_spaced (b2 :: l)). rewrite IH.
      cbn [map separated flat_map]. reflexivity. }
    unfold raw_print. rewrite E. unfold separated at 2. cbn [flat_map]. change (str " ") with [32]. change (str ":") with [58].
    rewrite ?app_nil_r, <- !app_assoc. reflexivity.
Qed.
Lemma word_cut c : forall a b x y : bytes, ~ In c a -> ~ In c b -> a ++ c :: x = b ++ c :: y -> a = b /\ x = y.
Proof.
  induction a as [|d a IH]; intros [|e b] x y Na Nb E.
  - injection E as E. auto.
  - injection E as E _. subst. destruct Nb. now left.
  - injection E as E _. subst. destruct Na. now left.
  - injection E as -> E. destruct (IH b x y) as [-> ->]; [..|exact E|auto]; intros X; [apply Na|apply Nb]; now right.
Qed.
Lemma hex_spaced_inj l : forall l', bytes_ok l -> bytes_ok l' -> hex_spaced l = hex_spaced l' -> l = l'.
Proof.
  assert (forall b b', is_byte b -> is_byte b' -> hex_digit (b / 16) = hex_digit (b' / 16) -> hex_digit (b mod 16) = hex_digit (b' mod 16) -> b = b') as K.
  { intros b b' B B' E1 E2. unfold is_byte in *. pose proof (Z.div_mod b 16 ltac:(lia)). pose proof (Z.mod_pos_bound b 16 ltac:(lia)).
    pose proof (Z.div_mod b' 16 ltac:(lia)). pose proof (Z.mod_pos_bound b' 16 ltac:(lia)). unfold hex_digit in *.
    destruct (b / 16 <? 10) eqn:?, (b' / 16 <? 10) eqn:?, (b mod 16 <? 10) eqn:?, (b' mod 16 <? 10) eqn:?; lia. }
  induction l as [|b l IH]; intros [|b' l'] B B' E; [reflexivity|destruct l'; discriminate E|destruct l; discriminate E|].
  inversion B as [|? ? Hb Bl]; inversion B' as [|? ? Hb' Bl']; subst.
  assert (exists z z', hex_spaced (b :: l) = hex_digit (b / 16) :: hex_digit (b mod 16) :: z /\ hex_spaced (b' :: l') = hex_digit (b' / 16) :: hex_digit (b' mod 16) :: z' /\
    (z = z' -> hex_spaced l = hex_spaced l')) as (z & z' & Q & Q' & R).
  { destruct l as [|c l], l' as [|c' l']; do 2 eexists; (split; [reflexivity|]); (split; [reflexivity|]); intros X; try reflexivity; try discriminate X.
    injection X as X. exact X. }
  rewrite Q, Q' in E. injection E as E1 E2 E3. f_equal; [now apply K|]. apply IH; auto.
Qed.
(** Nothing is lost in it: the time stamp (a text without spaces), all header fields and the data
    can be read back from the line. *)
Theorem C84_lossless ts ts' m m' : ~ In 32 ts -> ~ In 32 ts' -> bytes_ok (rm_data m) -> bytes_ok (rm_data m') ->
  (forall x, In x [m; m'] -> 0 <= rm_priority x /\ 0 <= rm_source x /\ 0 <= rm_dest x /\ 0 <= rm_pgn x /\ 0 <= rm_length x) ->
  raw_print ts m = raw_print ts' m' -> ts = ts' /\ m = m'.
Proof.
  intros N N' B B' P E. destruct (P m ltac:(now left)) as (P1 & P2 & P3 & P4 & P5). destruct (P m' ltac:(right; now left)) as (P1' & P2' & P3' & P4' & P5').
  assert (forall c n, 0 <= n -> (c = 32 \/ c = 58) -> ~ In c (itoa n)) as D.
  { intros c n Hn Hc I. destruct (itoa_value n Hn) as (_ & F & _). rewrite Forall_forall in F. apply F in I. unfold dec_char in I. lia. }
  unfold raw_print in E. cbn [app] in E.
  apply word_cut in E as [-> E]; [|assumption|assumption].
  apply word_cut in E as [E1 E]; [|apply D; auto|apply D; auto]. apply word_cut in E as [E2 E]; [|apply D; auto|apply D; auto].
  apply word_cut in E as [E3 E]; [|apply D; auto|apply D; auto]. apply word_cut in E as [E4 E]; [|apply D; auto|apply D; auto].
  apply word_cut in E as [E5 E]; [|apply D; auto|apply D; auto]. injection E as E.
  apply itoa_inj_all in E1, E2, E3, E4, E5. apply hex_spaced_inj in E; [|assumption|assumption]. split; [reflexivity|].
  destruct m, m'; cbn in *; congruence.
Qed.
Example C84_example : raw_print (str "2016-01-01-00:00:00.000") (mkraw 2 127250 7 255 3 [0; 171; 16]) = str "2016-01-01-00:00:00.000 2 7 255 127250 3: 00 ab 10".
Proof. vm_compute. reflexivity. Qed.

(* ------------------------------------------------------------ C48: imported messages *)

Lemma print_import def verbose data : forall n i acc, 0 <= i -> i + Z.of_nat n <= zlen (p_fields def) ->
  exists l, print_loop n def verbose data i i acc = Ret (rev acc ++ l) /\
    map (fun e => fst (fst e)) l = filter (fun k => match dm_get data k with VNil => verbose | _ => true end) (map (fun k => i + Z.of_nat k) (seq 0 n)) /\
    Forall (fun e => exists f, zget (p_fields def) (fst (fst e)) = Some f /\ snd (fst e) = f_name f /\ snd e = dm_get data (fst (fst e))) l.
Proof.
  induction n as [|n IH]; intros i acc Hi Hn.
  - exists []. cbn. rewrite app_nil_r. repeat split; constructor.
  - destruct (zget_lt (p_fields def) i ltac:(lia)) as [f F]. cbn [print_loop]. rewrite F.
    assert (forall acc', exists l,
      print_loop n def verbose data (i + 1) ((if (0 <? p_rep def) && (i =? zlen (p_fields def) - 1) then i - p_rep def else i) + 1) acc' = Ret (rev acc' ++ l) /\
      map (fun e => fst (fst e)) l = filter (fun k => match dm_get data k with VNil => verbose | _ => true end) (map (fun k => i + Z.of_nat k) (seq 1 n)) /\
      Forall (fun e => exists f, zget (p_fields def) (fst (fst e)) = Some f /\ snd (fst e) = f_name f /\ snd e = dm_get data (fst (fst e))) l) as NX.
    { intros acc'. destruct n as [|n]; [exists []; cbn; rewrite app_nil_r; repeat split; constructor|].
      replace (i =? zlen (p_fields def) - 1) with false by lia. rewrite andb_false_r.
      destruct (IH (i + 1) acc' ltac:(lia) ltac:(lia)) as (l & L1 & L2 & L3). exists l. split; [exact L1|]. split; [|exact L3].
      rewrite L2. f_equal. rewrite <- seq_shift, map_map. apply map_ext. intros k. lia. }
    change (seq 0 (S n)) with (0%nat :: seq 1 n). cbn [map]. replace (i + Z.of_nat 0) with i by lia. cbn [filter].
    assert (forall v, dm_get data i = v -> match v with VNil => verbose | _ => true end = true -> exists l,
      print_loop n def verbose data (i + 1) ((if (0 <? p_rep def) && (i =? zlen (p_fields def) - 1) then i - p_rep def else i) + 1) ((i, f_name f, v) :: acc) = Ret (rev acc ++ l) /\
      map (fun e => fst (fst e)) l = i :: filter (fun k => match dm_get data k with VNil => verbose | _ => true end) (map (fun k => i + Z.of_nat k) (seq 1 n)) /\
      Forall (fun e => exists f, zget (p_fields def) (fst (fst e)) = Some f /\ snd (fst e) = f_name f /\ snd e = dm_get data (fst (fst e))) l) as NY.
    { intros v V SH. destruct (NX ((i, f_name f, v) :: acc)) as (l & L1 & L2 & L3). exists ((i, f_name f, v) :: l).
      split; [rewrite L1; cbn [rev]; now rewrite <- app_assoc|]. split; [cbn [map fst]; now rewrite L2|]. constructor; [|exact L3].
      exists f. cbn [fst snd]. auto. }
    destruct (dm_get data i) eqn:G; try (apply (NY _ eq_refl); reflexivity).
    destruct verbose; [apply (NY _ eq_refl); reflexivity|]. exact (NX acc).
Qed.
(** Print of an imported message never goes out of range.  It looks at as many positions as
    there are fields in the message, starting from the first. *)
Theorem C48_import t c p verbose : NoDup (map fst (cb_fields c)) -> from_canboat t c = Ret p ->
  exists def l, zget t (pm_index p) = Some def /\ print_fields t p verbose = Ret l /\
    map (fun e => fst (fst e)) l = filter (fun k => match dm_get (pm_data p) k with VNil => verbose | _ => true end) (map Z.of_nat (seq 0 (List.length (pm_data p)))) /\
    Forall (fun e => exists f, zget (p_fields def) (fst (fst e)) = Some f /\ snd (fst e) = f_name f /\ snd e = dm_get (pm_data p) (fst (fst e))) l.
Proof.
  intros N H. destruct (C46_fields t c p N H) as (k & def & S & _ & E & ND & F).
  assert (zget t (pm_index p) = Some def) as Z by (rewrite E; destruct S as [[[Q _] _]|(_ & -> & Q)]; exact Q).
  assert (Z.of_nat (List.length (pm_data p)) <= zlen (p_fields def)) as L.
  { assert (List.length (map fst (pm_data p)) <= List.length (map Z.of_nat (seq 0 (List.length (p_fields def)))))%nat as Q.
    { apply NoDup_incl_length; [exact ND|]. intros q I. apply in_map_iff in I as ([q' v] & <- & I). cbn [fst]. apply F in I as (f & G & _).
      apply zget_some in G. unfold zlen in G. apply in_map_iff. exists (Z.to_nat q'). split; [lia|]. apply in_seq. lia. }
    rewrite !map_length, seq_length in Q. unfold zlen. lia. }
  destruct (print_import def verbose (pm_data p) (List.length (pm_data p)) 0 [] ltac:(lia) ltac:(lia)) as (l & L1 & L2 & L3).
  exists def, l. split; [exact Z|]. unfold print_fields. rewrite Z. cbn [rev app] in L1. split; [exact L1|]. split; [exact L2|exact L3].
Qed.
(** So a field of an imported message need not be shown: here the only one is not. *)
Theorem C48_import_refuted : exists c p v, from_canboat PgnList c = Ret p /\ In (1, v) (pm_data p) /\ v <> VNil /\
  print_fields PgnList p true <> Ret [] /\ (forall l, print_fields PgnList p true = Ret l -> ~ exists n, In (1, n, v) l).
Proof.
  exists (mkcb 2 7 255 127250 [(str "Heading", VFloat64 (f64_of_Z 90))]). do 2 eexists. split; [vm_compute; reflexivity|]. split; [left; reflexivity|]. split; [discriminate|].
  split; [vm_compute; discriminate|]. intros l E. vm_compute in E. injection E as <-. intros (n & [X|[]]). discriminate X.
Qed.

(* ------------------------------------------------------------ C83: the lines of a message *)

(** Which lines a message that passes the filter leaves in the log: both at level DEBUG, or if
    the level's text means nothing; only the decoded one at level INFO; else none. *)
Theorem C83_lines s text ts o t p line : bytes_ok s -> MainModel.shown o (pm_header p) = true ->
  msg_print text ts t p (verbose_of (set_up s)) = Ret line ->
  exists ls, log_lines (set_up s) text ts o t p = Ret ls /\
    (names s Debug \/ no_level s /\ s <> str "NONE" -> ls = [raw_print ts (pm_header p); line]) /\
    (names s Info -> ls = [line]) /\
    (s = str "NONE" \/ names s Notice \/ names s Warning \/ names s Error \/ names s Critical -> ls = []).
Proof.
  intros B S M. destruct (C83_level s B) as (L0 & L1 & L2 & _).
  unfold log_lines. rewrite S, M. eexists. split; [reflexivity|].
  change 5 with (rank Debug). change 4 with (rank Info). split; [|split].
  - intros [N|[N X]]; [rewrite (proj2 (L1 _ N Debug)), (proj2 (L1 _ N Info)) by (cbn; lia); reflexivity|]. now rewrite !(L2 N X).
  - intros N. rewrite (proj2 (L1 _ N Info)) by (cbn; lia). destruct (written (set_up s) (rank Debug)) eqn:E; [|reflexivity].
    apply (L1 _ N) in E. cbn in E. lia.
  - assert (forall l, names s l -> rank l < 4 -> written (set_up s) (rank Debug) = false /\ written (set_up s) (rank Info) = false) as K.
    { intros l N R. split; [destruct (written (set_up s) (rank Debug)) eqn:E|destruct (written (set_up s) (rank Info)) eqn:E]; try reflexivity; apply (L1 _ N) in E; cbn in E; lia. }
    intros [X|[N|[N|[N|N]]]]; [now rewrite !(L0 X)|..]; destruct (K _ N ltac:(cbn; lia)) as [-> ->]; reflexivity.
Qed.
(** Every message decoded with the shipped table has such a line. *)
Theorem C83_decoded fuel pl m spare r text ts verbose : parse_packet fuel pl PgnList m spare = Some (Ret r) ->
  exists line, msg_print text ts PgnList r verbose = Ret line.
Proof.
  intros H. destruct (C48_print_any fuel pl m spare r verbose H) as (def & l & Z & P & _). eexists. exact (C48_text text ts PgnList r verbose def l Z P).
Qed.
Definition sample_msg : parsed :=
  match parse_packet 100 (mkplatform 0 (fun _ => 0) (fun _ => 0)) PgnList (mkraw 2 127488 7 255 8 [0; 0; 4; 255; 255; 1; 255; 255]) [] with
  | Some (Ret r) => r
  | _ => mkparsed (mkraw 0 0 0 0 0 []) 0 []
  end.
Example C83_example : log_lines (set_up (str "debug")) (fun _ => str "?") (str "T") (mkopts false 0 255 255 true false) PgnList sample_msg =
  Ret [str "T 2 7 255 127488 8: 00 00 04 ff ff 01 ff ff";
       str "T 2 7 255 127488 Engine Parameters, Rapid Update: 0.Engine Instance = ?; 1.Engine Speed = ?; 2.Engine Boost Pressure = nil; 3.Engine Tilt/Trim = ?"] /\
  log_lines (set_up (str "NONE")) (fun _ => str "?") (str "T") (mkopts false 0 255 255 true false) PgnList sample_msg = Ret [].
Proof. split; vm_compute; reflexivity. Qed.
