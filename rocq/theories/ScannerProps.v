(** ScannerProps: the lines of a file do not depend on how it is read (C74). *)
From Verif Require Import GoBase PipelineModel PipelineSpec PipelineBoot ScannerModel.
From Coq Require Import ZifyBool.
Open Scope Z_scope.
Open Scope list_scope.

Lemma first_line_inv s : let '(l, r) := first_line s in
  ~ In 10 l /\ s = l ++ match r with Some r => 10 :: r | None => [] end.
Proof.
  induction s as [|c s IH]; cbn [first_line]; [split; [intros []|reflexivity]|].
  destruct (Z.eqb_spec c 10) as [->|N]; [split; [intros []|reflexivity]|].
  destruct (first_line s) as [l r]. destruct IH as [I1 I2]. split; [intros [E|I]; [congruence|auto]|]. cbn [app]. now rewrite <- I2.
Qed.
Lemma zlen_app (a b : bytes) : zlen (a ++ b) = zlen a + zlen b.
Proof. unfold zlen. rewrite app_length. lia. Qed.
Lemma scan_fuel n m s : (List.length s < n)%nat -> (List.length s < m)%nat -> scan_lines n s = scan_lines m s.
Proof.
  revert m s. induction n as [|n IH]; intros m s L M; [lia|]. destruct m as [|m]; [lia|].
  destruct s as [|c s]; [reflexivity|]. cbn [scan_lines]. pose proof (first_line_inv (c :: s)) as F.
  destruct (first_line (c :: s)) as [l r]. destruct F as [_ F]. destruct (_ <=? _); [reflexivity|]. destruct r as [r|]; [|reflexivity].
  f_equal. apply IH; apply (f_equal (@List.length _)) in F; rewrite app_length in F; cbn [List.length] in *; lia.
Qed.
Lemma file_lines_next l r : ~ In 10 l -> file_lines (l ++ 10 :: r) = if 65536 <=? zlen l then [] else drop_cr l :: file_lines r.
Proof.
  intros N. unfold file_lines.
  assert (forall n s, s <> [] -> scan_lines (S n) s = match first_line s with (l, rest) => if scan_max <=? zlen l then [] else match rest with Some r => drop_cr l :: scan_lines n r | None => [drop_cr l] end end) as U.
  { intros n [|? ?] H; [now destruct H|reflexivity]. }
  rewrite U by (destruct l; discriminate). rewrite first_line_split by exact N. change scan_max with 65536. destruct (65536 <=? zlen l); [reflexivity|].
  f_equal. apply scan_fuel; rewrite ?app_length; cbn [List.length]; lia.
Qed.
Lemma file_lines_last l : ~ In 10 l -> l <> [] -> file_lines l = if 65536 <=? zlen l then [] else [drop_cr l].
Proof.
  intros N E. unfold file_lines. destruct l as [|c l]; [now destruct E|]. cbn [scan_lines]. rewrite first_line_last by exact N. reflexivity.
Qed.

(** What holds in every round. *)
Definition sc_inv (s : scanner) (rest : bytes) : Prop :=
  0 <= sc_start s /\ sc_start s + zlen (sc_held s) <= sc_len s <= 65536 /\ (sc_err s = true -> rest = [] /\ zlen (sc_held s) < 65536) /\
  (0 < sc_start s -> 0 < sc_len s) /\ (sc_len s = 0 \/ 4096 <= sc_len s).
Definition measure (s : scanner) (rest : bytes) : nat :=
  (2 * List.length rest + List.length (sc_held s) + if sc_err s then 0 else 1)%nat.

Lemma round_spec k s rest : sc_inv s rest ->
  match scan_round k s rest with
  | RToken t s' => sc_inv s' rest /\ (measure s' rest < measure s rest)%nat /\
      file_lines (sc_held s ++ rest) = t :: file_lines (sc_held s' ++ rest)
  | RStop => file_lines (sc_held s ++ rest) = []
  | RMore s' rest' => sc_inv s' rest' /\ (measure s' rest' < measure s rest)%nat /\ sc_held s' ++ rest' = sc_held s ++ rest
  end.
Proof.
  intros (S0 & S1 & S2 & S3 & S4). destruct s as [held start len err]. cbn [sc_held sc_start sc_len sc_err] in *.
  unfold scan_round. cbn [sc_held sc_start sc_len sc_err].
  assert (0 <= zlen held) as ZH by (unfold zlen; lia).
  assert (match (if (0 <? zlen held) || err then ScanLines held err else None) with
    | Some (adv, tok) => (exists l r, ~ In 10 l /\ held = l ++ 10 :: r /\ adv = zlen l + 1 /\ tok = drop_cr l) \/
                         (err = true /\ ~ In 10 held /\ held <> [] /\ adv = zlen held /\ tok = drop_cr held)
    | None => ~ In 10 held /\ (err = true -> held = [])
    end) as SP.
  { destruct ((0 <? zlen held) || err) eqn:E0.
    - unfold ScanLines. destruct (err && (zlen held =? 0)) eqn:E1.
      + assert (held = []) as -> by (destruct held; [reflexivity|unfold zlen in E1; cbn [List.length] in E1; lia]). split; [intros []|reflexivity].
      + pose proof (first_line_inv held) as F. destruct (first_line held) as [l [r|]]; destruct F as [F1 F2].
        * left. exists l, r. auto.
        * rewrite app_nil_r in F2. subst l. destruct err; [|split; [exact F1|discriminate]].
          right. repeat split; auto. intros ->. discriminate E1.
    - apply orb_false_iff in E0 as [E0 ->]. assert (held = []) as -> by (destruct held; [reflexivity|unfold zlen in E0; cbn [List.length] in E0; lia]).
      split; [intros []|reflexivity]. }
  destruct (if (0 <? zlen held) || err then ScanLines held err else None) as [[adv tok]|].
  - destruct SP as [(l & r & N & -> & -> & ->) | (-> & N & HN & -> & ->)].
    + rewrite !zlen_app in *. assert (0 <= zlen l) by (unfold zlen; lia). assert (zlen (10 :: r) = zlen r + 1) as Zr by (unfold zlen; cbn [List.length]; lia).
      assert (0 <= zlen r) by (unfold zlen; lia).
      assert (skipn (Z.to_nat (zlen l + 1)) (l ++ 10 :: r) = r) as ->.
      { replace (Z.to_nat (zlen l + 1)) with (List.length (l ++ [10])) by (rewrite app_length; unfold zlen; cbn [List.length]; lia).
        replace (l ++ 10 :: r) with ((l ++ [10]) ++ r) by (rewrite <- app_assoc; reflexivity). rewrite skipn_app, skipn_all, Nat.sub_diag. reflexivity. }
      cbn [sc_held]. split; [|split].
      * unfold sc_inv. cbn [sc_held sc_start sc_len sc_err]. split; [lia|]. split; [lia|]. split; [intros E; apply S2 in E as [E1 E2]; split; [exact E1|lia]|]. split; [lia|exact S4].
      * unfold measure. cbn [sc_held sc_err]. rewrite app_length. cbn [List.length]. destruct err; lia.
      * rewrite <- app_assoc. cbn [app]. rewrite file_lines_next by exact N. now replace (65536 <=? zlen l) with false by lia.
    + destruct (S2 eq_refl) as [-> B].
      assert (skipn (Z.to_nat (zlen held)) held = []) as -> by (unfold zlen; rewrite Nat2Z.id; apply skipn_all).
      assert (0 < List.length held)%nat by (destruct held; [contradiction|cbn; lia]).
      cbn [sc_held]. split; [|split].
      * unfold sc_inv. cbn [sc_held sc_start sc_len sc_err]. change (zlen (@nil byte)) with 0. split; [lia|]. split; [lia|]. split; [intros _; split; [reflexivity|lia]|]. split; [lia|exact S4].
      * unfold measure. cbn [sc_held sc_err List.length]. lia.
      * rewrite !app_nil_r. rewrite file_lines_last by assumption. now replace (65536 <=? zlen held) with false by lia.
  - destruct SP as [N HE]. destruct err.
    { rewrite (HE eq_refl). destruct (S2 eq_refl) as [-> _]. reflexivity. }
    cbv zeta.
    set (start1 := if (0 <? start) && ((start + zlen held =? len) || (len / 2 <? start)) then 0 else start).
    assert (0 <= start1 <= start /\ (start1 + zlen held = len -> start1 = 0)) as [B1 B2].
    { subst start1. destruct ((0 <? start) && ((start + zlen held =? len) || (len / 2 <? start))) eqn:E; [lia|]. lia. }
    clearbody start1. unfold max_token, start_size.
    destruct ((start1 + zlen held =? len) && (65536 <=? len)) eqn:EF.
    + assert (start1 = 0 /\ zlen held = 65536) as [_ L] by lia.
      pose proof (first_line_inv (held ++ rest)) as F. destruct (first_line (held ++ rest)) as [l [r|]]; destruct F as [F1 F2].
      * assert (65536 <= zlen l).
        { destruct (Z_le_gt_dec 65536 (zlen l)) as [G|G]; [exact G|]. exfalso. apply N.
          assert (nth_error (held ++ rest) (List.length l) = Some 10) as X by (rewrite F2, nth_error_app2, Nat.sub_diag by lia; reflexivity).
          rewrite nth_error_app1 in X by (unfold zlen in *; lia). eapply nth_error_In; eassumption. }
        rewrite F2, file_lines_next by exact F1. now replace (65536 <=? zlen l) with true by lia.
      * rewrite app_nil_r in F2. rewrite file_lines_last; [|now rewrite F2|intros E; apply app_eq_nil in E as [E _]; rewrite E in L; discriminate L].
        assert (65536 <= zlen (held ++ rest)) by (rewrite zlen_app; unfold zlen in *; lia). now replace (65536 <=? zlen (held ++ rest)) with true by lia.
    + set (len2 := if start1 + zlen held =? len then Z.min (if len * 2 =? 0 then 4096 else len * 2) 65536 else len).
      set (start2 := if start1 + zlen held =? len then 0 else start1).
      assert (0 <= start2 /\ start2 + zlen held < len2 /\ 4096 <= len2 <= 65536 /\ zlen held < 65536) as (C1 & C2 & C3 & C4).
      { subst len2 start2. destruct (start1 + zlen held =? len) eqn:E; destruct (len * 2 =? 0) eqn:E'; lia. }
      clearbody len2 start2. destruct rest as [|c rest].
      * split; [|split; [|reflexivity]].
        -- unfold sc_inv. cbn [sc_held sc_start sc_len sc_err]. split; [lia|]. split; [lia|]. split; [intros _; split; [reflexivity|lia]|]. split; lia.
        -- unfold measure. cbn [sc_held sc_err List.length]. lia.
      * set (n := Z.to_nat (Z.max 1 (Z.min k (len2 - (start2 + zlen held))))).
        assert (1 <= n <= Z.to_nat (len2 - (start2 + zlen held)))%nat as [D1 D2] by (subst n; lia). clearbody n.
        split; [|split].
        -- assert (zlen (firstn n (c :: rest)) <= Z.of_nat n) by (unfold zlen; rewrite firstn_length; lia).
           unfold sc_inv. cbn [sc_held sc_start sc_len sc_err]. rewrite zlen_app. split; [lia|]. split; [lia|]. split; [intros; discriminate|]. split; lia.
        -- unfold measure. cbn [sc_held sc_err]. rewrite app_length, firstn_length, skipn_length. cbn [List.length]. lia.
        -- cbn [sc_held]. rewrite <- app_assoc. now rewrite firstn_skipn.
Qed.

Lemma scan_all_spec : forall fuel reads i s rest, sc_inv s rest -> (measure s rest < fuel)%nat ->
  scan_all fuel reads i s rest = Some (file_lines (sc_held s ++ rest)).
Proof.
  induction fuel as [|f IH]; intros reads i s rest I M; [lia|]. cbn [scan_all]. pose proof (round_spec (reads i) s rest I) as R.
  destruct (scan_round (reads i) s rest) as [t s'| |s' rest'].
  - destruct R as (I' & M' & E). rewrite (IH reads (S i) s' rest I') by lia. now rewrite E.
  - now rewrite R.
  - destruct R as (I' & M' & E). rewrite (IH reads (S i) s' rest' I') by lia. now rewrite E.
Qed.

(** C74: however the reads cut the file into pieces, the loop of Scan ends and yields the lines of
    the file before the first one of 65536 or more bytes. *)
Theorem C74_scanner content full last reads : splits content full last ->
  exists fuel lines, scan_all fuel reads 0 new_scanner content = Some lines /\
    Forall2 stripped (before_long (lines_of full last)) lines.
Proof.
  intros SP. exists (S (measure new_scanner content)), (file_lines content). split.
  - rewrite scan_all_spec; [reflexivity| |lia]. unfold sc_inv, new_scanner. cbn [sc_held sc_start sc_len sc_err]. change (zlen (@nil byte)) with 0.
    split; [lia|]. split; [lia|]. split; [intros; discriminate|]. split; [lia|now left].
  - now apply C74_lines.
Qed.
(** ... the same lines for any two ways of reading. *)
Theorem C74_reads content reads reads' fuel fuel' lines lines' :
  scan_all fuel reads 0 new_scanner content = Some lines -> scan_all fuel' reads' 0 new_scanner content = Some lines' -> lines = lines'.
Proof.
  assert (forall f g r i s rest l, scan_all f r i s rest = Some l -> (f <= g)%nat -> scan_all g r i s rest = Some l) as MONO.
  { induction f as [|f IH]; intros g r i s rest l H L; [discriminate|]. destruct g as [|g]; [lia|]. cbn [scan_all] in *.
    destruct (scan_round (r i) s rest) as [t s'| |s' rest']; [|exact H|].
    - destruct (scan_all f r (S i) s' rest) as [x|] eqn:E; [|discriminate]. rewrite (IH g _ _ _ _ _ E) by lia. exact H.
    - apply (IH g) in H; [exact H|lia]. }
  assert (forall r f l, scan_all f r 0 new_scanner content = Some l -> l = file_lines content) as K.
  { intros r f l H. apply (MONO f (f + S (measure new_scanner content))%nat) in H; [|lia].
    rewrite scan_all_spec in H; [symmetry; cbn [new_scanner sc_held app] in H; congruence| |lia]. unfold sc_inv, new_scanner. cbn [sc_held sc_start sc_len sc_err]. change (zlen (@nil byte)) with 0.
    split; [lia|]. split; [lia|]. split; [intros; discriminate|]. split; [lia|now left]. }
  intros H H'. apply K in H, H'. congruence.
Qed.
Example C74_scanner_example : scan_all 40 (fun i => Z.of_nat i - 3) 0 new_scanner (str "ab" ++ [13; 10; 10] ++ str "cd" ++ [13]) = Some [str "ab"; []; str "cd"].
Proof. vm_compute. reflexivity. Qed.
Example C74_scanner_long : scan_all 40 (fun _ => 100000) 0 new_scanner (str "ab" ++ [10] ++ repeat 65 (Z.to_nat 65536) ++ [10] ++ str "cd") = Some [str "ab"].
Proof. vm_compute. reflexivity. Qed.
Example C74_scanner_fits : option_map (map zlen) (scan_all 40 (fun _ => 100000) 0 new_scanner (repeat 65 (Z.to_nat 65535) ++ [10] ++ str "cd")) = Some [65535; 2].
Proof. vm_compute. reflexivity. Qed.
