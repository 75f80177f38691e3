(** NmeaProps4: exactly which messages crash ParsePacket (C43). *)
From Coq Require Import Floats.SpecFloat ZifyBool.
From Verif Require Import GoBase BufFacts Strconv StrconvFacts CanModel NmeaTypes LookupTable PgnTable NmeaModel NmeaSpec
  NmeaExtract NmeaParse NmeaTerm NmeaSafe NmeaProps1 NmeaProps2 CrashSpec NmeaCrash.
Open Scope Z_scope.
Open Scope list_scope.

Definition panics_on (pl : platform) (m : raw_message) (spare : bytes) : Prop :=
  exists fuel p, parse_packet fuel pl PgnList m spare = Some (Panic p).
Definition start_state (i : Z) (def : pgn_def) : pstate := mkps i def 0 0 0 0 i [].

Lemma crashes_from pl m spare i def j def' : pgn_first PgnList (rm_pgn m) = Ret (i, def) -> pgn_last PgnList (rm_pgn m) = Ret (j, def') ->
  panics_on pl m spare <-> panics_from pl PgnList (rm_data m) spare j (i =? j) (start_state i def).
Proof.
  intros E1 E2. unfold panics_on, panics_from, start_state. split; intros (fuel & p & H); exists fuel, p.
  - rewrite (packet_unfold _ _ _ _ _ _ _ _ _ E1 E2) in H. destruct (parse_loop _ _ _ _ _ _ _) as [[s|e|q]|]; try discriminate H. now injection H as <-.
  - rewrite (packet_unfold _ _ _ _ _ _ _ _ _ E1 E2). now rewrite H.
Qed.
Lemma stands_start i def : zget PgnList i = Some def -> p_rep def = 0 -> stands PgnList (start_state i def) (p_fields def) 0 0.
Proof. intros Z R. unfold stands, start_state. cbn [ps_i ps_def ps_idx ps_odx ps_byte ps_bit ps_index ps_data]. repeat split; auto; lia. Qed.

(** PGNs with one definition and a text. *)
Lemma single_exact pl m spare i def p z : bytes_ok (rm_data m) -> pgn_first PgnList (rm_pgn m) = Ret (i, def) -> pgn_last PgnList (rm_pgn m) = Ret (i, def) ->
  zget PgnList i = Some def -> p_rep def = 0 -> tail_ok 0 true i (p_fields def) 0 0 = true -> texts (p_fields def) 0 0 = [(p, z)] ->
  panics_on pl m spare <-> text_overflow (rm_data m) p z.
Proof.
  intros HB E1 E2 Z R T TX. rewrite (crashes_from _ _ _ _ _ _ _ E1 E2). rewrite Z.eqb_refl.
  rewrite (tail_iff pl PgnList (rm_data m) spare i true HB (p_fields def) (start_state i def) 0 0); [|now apply stands_start| |lia|lia].
  - rewrite TX. split; [intros (p' & z' & [I|[]] & O); injection I as <- <-; exact O|]. intros O. exists p, z. split; [now left|exact O].
  - exact T.
Qed.

(** Messages without data. *)
Definition returns (o : option (outcome parsed)) : bool := match o with Some (Ret _) => true | _ => false end.
Lemma empty_returns pl m spare : rm_data m = [] -> In (rm_pgn m) [130816; 130820; 130842; 130847; 262211; 262212; 262213] -> ~ panics_on pl m spare.
Proof.
  intros D I (fuel & p & H). rewrite (C44_only_the_message fuel pl m spare []) in H by (intros E; rewrite E in I; cbn [In] in I; lia).
  destruct (parse_packet 1000 pl PgnList m []) as [o|] eqn:E.
  - pose proof (C40_result_unique _ _ _ _ _ _ _ _ H E) as <-. 
    assert (returns (parse_packet 1000 pl PgnList m []) = true) as R; [|rewrite E in R; discriminate R].
    destruct m as [a b c d e dat]. cbn [rm_data rm_pgn] in *. subst dat. clear - I. destruct pl as [tz u n].
    cbn [In] in I. repeat (destruct I as [<-|I]; [vm_compute; reflexivity|]). destruct I.
  - assert (returns (parse_packet 1000 pl PgnList m []) = true) as R; [|rewrite E in R; discriminate R].
    destruct m as [a b c d e dat]. cbn [rm_data rm_pgn] in *. subst dat. clear - I. destruct pl as [tz u n].
    cbn [In] in I. repeat (destruct I as [<-|I]; [vm_compute; reflexivity|]). destruct I.
Qed.

(** Splitting off the bits of one byte. *)
Lemma byte_bits D k b w : zget D k = Some b -> 0 <= b < 256 -> 0 <= w <= 8 -> bits (le_value (zsub D k (k + 1))) 0 w = b mod 2 ^ w.
Proof.
  intros G B W. pose proof (zget_some _ _ _ G) as R.
  assert (zsub D k (k + 1) = [b]) as ->.
  { unfold zsub. replace (k + 1 - k) with 1 by lia. rewrite (skipn_zget _ _ _ G). reflexivity. }
  unfold le_value. cbn [fold_right]. unfold bits. rewrite Z.pow_0_r, Z.div_1_r. f_equal. lia.
Qed.

(** A field that chooses among definitions whose other fields crash through their texts only. *)
Definition branch (j idx i x byte bit : Z) : option (list (Z * Z)) :=
  match pick (Z.to_nat (j - i + 1)) PgnList idx x i with
  | None => None
  | Some i' =>
      match zget PgnList i' with
      | None => None
      | Some def' =>
          let fs := skipn (Z.to_nat (idx + 1)) (p_fields def') in
          if (p_rep def' =? 0) && tail_ok j false i' fs byte bit then Some (texts fs byte bit) else None
      end
  end.
Lemma branch_iff pl D spare j s f fs byte bit i idx x T : bytes_ok D -> stands PgnList s (f :: fs) byte bit -> ps_i s = i -> ps_idx s = idx ->
  0 <= byte -> 0 <= bit < 8 -> 0 < f_size f -> byte + full_bytes f <= zlen D -> asking f = true ->
  chain_clean PgnList idx i (Z.to_nat (j - i + 1)) = true ->
  x = bits (le_value (zsub D byte (byte + full_bytes f))) bit (f_size f) ->
  branch j idx i x (byte + (f_size f + bit) / 8) ((bit + f_size f) mod 8) = Some T ->
  panics_from pl PgnList D spare j false s <-> exists p z, In (p, z) T /\ text_overflow D p z.
Proof.
  intros HB ST <- <- PB BB S C A CC EX BR.
  pose proof (ask_iff pl PgnList D spare j false HB s f fs byte bit x ST PB ltac:(lia) S C eq_refl A CC EX) as AK.
  unfold branch in BR. destruct (pick _ PgnList (ps_idx s) x (ps_i s)) as [i'|]; [|discriminate BR].
  destruct AK as (def' & Z' & K). rewrite Z' in BR. cbv zeta in BR.
  destruct (Z.eqb_spec (p_rep def') 0) as [R|]; [|discriminate BR]. cbn [andb] in BR.
  destruct (tail_ok _ _ _ _ _ _) eqn:TO; [|discriminate BR]. injection BR as <-.
  destruct (K R) as (s2 & ST2 & I2 & _ & _ & _ & K2). rewrite K2.
  rewrite (tail_iff pl PgnList D spare j false HB _ _ _ _ ST2); [reflexivity|rewrite I2; exact TO|apply Z.mod_pos_bound; lia|].
  assert (0 <= (f_size f + bit) / 8) by (apply Z.div_pos; lia). lia.
Qed.

(** PGN 130842. *)
Lemma ais_exact pl m spare : bytes_ok (rm_data m) -> rm_pgn m = 130842 ->
  panics_on pl m spare <-> exists b, zget (rm_data m) 2 = Some b /\ 2 <= b mod 64.
Proof.
  intros HB PG. set (D := rm_data m) in *.
  assert (pgn_first PgnList (rm_pgn m) = Ret (254, pgn_254)) as E1 by (rewrite PG; vm_compute; reflexivity).
  assert (pgn_last PgnList (rm_pgn m) = Ret (255, pgn_255)) as E2 by (rewrite PG; vm_compute; reflexivity).
  pose proof (stands_start 254 pgn_254 eq_refl eq_refl) as ST.
  destruct (Z.eq_dec (zlen D) 0) as [N0|N0].
  { assert (D = []) as DE by (destruct D; [reflexivity|rewrite zlen_cons in N0; pose proof (zlen_nonneg D); lia]).
    split; [intros X; elim (empty_returns pl m spare DE); [rewrite PG; cbn; tauto|exact X]|].
    intros (b & G & _). apply zget_some in G. lia. }
  pose proof (zlen_nonneg D) as LD.
  rewrite (crashes_from _ _ _ _ _ _ _ E1 E2). change (254 =? 255) with false. fold D.
  change (p_fields pgn_254) with (firstn 3 (p_fields pgn_254) ++ skipn 3 (p_fields pgn_254)) in ST.
  assert (fit D (firstn 3 (p_fields pgn_254)) 0 0 = ((2 <=? zlen D) && ((2 <=? zlen D) && ((2 <=? zlen D) && true)))%bool) as FT by reflexivity.
  destruct (Z_lt_dec (zlen D) 2) as [N1|N1].
  { split; [|intros (b & G & _); apply zget_some in G; lia]. intros X. exfalso. revert X.
    eapply head_cut; [exact ST|reflexivity|lia|lia|lia| |rewrite FT; lia].
    cbn [skipn p_fields pgn_254]. repeat (constructor; [reflexivity|]). constructor. }
  destruct (head_iff pl PgnList D spare 255 false _ _ _ 0 0 ST eq_refl ltac:(lia) ltac:(lia) ltac:(rewrite FT; lia)) as (s1 & ST1 & I1 & D1 & X1 & IFF).
  rewrite IFF. change (ps_i s1 = 254) in I1. change (ps_idx s1 = 3) in X1.
  change (fst (after (firstn 3 (p_fields pgn_254)) 0 0)) with 2 in ST1. change (snd (after (firstn 3 (p_fields pgn_254)) 0 0)) with 0 in ST1.
  destruct (zget D 2) as [b|] eqn:G.
  2: { split; [|intros (b & X & _); discriminate X]. apply zget_none in G. intros X. exfalso. revert X.
       eapply stop_iff; [exact ST1|lia|reflexivity|]. cbn. lia. }
  pose proof (zget_some _ _ _ G) as RG. assert (0 <= b < 256) as BB by exact (zget_Forall _ _ _ _ HB G).
  assert (b mod 64 = bits (le_value (zsub D 2 (2 + full_bytes (mkfield "Message ID" 6 (RPos 1 1) false (UStr "=0") 0)))) 0 6) as EV.
  { change (full_bytes _) with 1. rewrite (byte_bits D 2 b 6 G BB ltac:(lia)). reflexivity. }
  pose proof (Z.mod_pos_bound b 64 ltac:(lia)) as MB.
  destruct (Z_lt_dec (b mod 64) 2) as [X|X].
  - assert (branch 255 3 254 (b mod 64) 2 6 = Some []) as BR.
    { assert (b mod 64 = 0 \/ b mod 64 = 1) as [->| ->] by lia; vm_compute; reflexivity. }
    rewrite (branch_iff pl D spare 255 s1 _ _ 2 0 254 3 (b mod 64) [] HB ST1 I1 X1 ltac:(lia) ltac:(lia) ltac:(reflexivity) ltac:(cbn; lia) eq_refl ltac:(vm_compute; reflexivity) EV BR).
    split; [intros (p & z & [] & _)|]. intros (b' & E & L). injection E as <-. lia.
  - split; [intros _; exists b; split; [reflexivity|lia]|]. intros _.
    pose proof (ask_iff pl PgnList D spare 255 false HB s1 _ _ 2 0 (b mod 64) ST1 ltac:(lia) ltac:(lia) ltac:(reflexivity) ltac:(cbn; lia) eq_refl eq_refl) as AK.
    rewrite I1, X1 in AK. specialize (AK ltac:(vm_compute; reflexivity) EV). change (Z.to_nat (255 - 254 + 1)) with 2%nat in AK.
    assert (pick 2 PgnList 3 (b mod 64) 254 = None) as PK; [|rewrite PK in AK; exact AK].
    { cbn [pick]. change (field_of PgnList 254 3) with (Some (mkfield "Message ID" 6 (RPos 1 1) false (UStr "=0") 0)).
      change (field_of PgnList (254 + 1) 3) with (Some (mkfield "Message ID" 6 (RPos 1 1) false (UStr "=1") 0)).
      change (field_of PgnList (254 + 1 + 1) 3) with (@None field). cbn [asked f_units].
      change (pu_value (parse_uint 10 64 (str "0"))) with 0. change (pu_value (parse_uint 10 64 (str "1"))) with 1.
      cbn [Ascii.eqb Bool.eqb]. destruct (Z.eqb_spec 0 (b mod 64)); [lia|]. destruct (Z.eqb_spec 1 (b mod 64)); [lia|]. reflexivity. }
Qed.

Lemma company_head D : 2 <= zlen D -> bits (le_value (zsub D 0 2)) 0 11 = company D.
Proof.
  intros L. destruct D as [|a [|b r]]; [unfold zlen in L; cbn in L; lia|unfold zlen in L; cbn in L; lia|].
  unfold company, bits, zsub, le_value. change (Z.to_nat (2 - 0)) with 2%nat. change (Z.to_nat 0) with 0%nat. cbn [skipn firstn fold_right].
  rewrite Z.pow_0_r, !Z.div_1_r. set (v := fold_right _ 0 r).
  replace (a + 256 * (b + 256 * v)) with (a + 256 * (b + 256 * 0) + 32 * v * 2 ^ 11) by (change (2 ^ 11) with 2048; lia).
  now rewrite Z.mod_add by lia.
Qed.
Lemma company_range D : 0 <= company D < 2048.
Proof. unfold company, bits. apply (Z.mod_pos_bound _ (2 ^ 11)). lia. Qed.
Lemma below_all P n x : forallb P (map Z.of_nat (seq 0 n)) = true -> 0 <= x < Z.of_nat n -> P x = true.
Proof. intros H R. rewrite forallb_forall in H. apply H. apply in_map_iff. exists (Z.to_nat x). split; [lia|]. apply in_seq. lia. Qed.
Definition pairb (a b : Z * Z) : bool := (fst a =? fst b) && (snd a =? snd b).
Fixpoint same_list (a b : list (Z * Z)) : bool :=
  match a, b with [], [] => true | x :: a', y :: b' => pairb x y && same_list a' b' | _, _ => false end.
Lemma same_list_eq a : forall b, same_list a b = true -> a = b.
Proof.
  induction a as [|[x1 x2] a IH]; intros [|[y1 y2] b] H; try discriminate H; [reflexivity|]. cbn [same_list pairb fst snd] in H.
  apply andb_true_iff in H as [H1 H2]. apply IH in H2 as ->. unfold pairb in H1. cbn [fst snd] in H1. f_equal. f_equal; lia.
Qed.
Definition is_some_list (o : option (list (Z * Z))) (l : list (Z * Z)) : bool := match o with Some l' => same_list l' l | None => false end.
Lemma is_some_list_eq o l : is_some_list o l = true -> o = Some l.
Proof. destruct o; [|discriminate]. cbn [is_some_list]. intros H. apply same_list_eq in H. now subst. Qed.

(** A message of one byte that starts with a choosing field. *)
Definition short_pick (j i x : Z) : bool :=
  match pick (Z.to_nat (j - i + 1)) PgnList 0 x i with
  | None => false
  | Some i' => match zget PgnList i' with
               | None => false
               | Some def' => match zget (p_fields def') 1 with Some g => 0 <? f_size g | None => true end && (p_rep def' =? 0)
               end
  end.
Lemma short_ask pl D spare j i def f fs : bytes_ok D -> zlen D = 1 -> zget PgnList i = Some def -> p_rep def = 0 -> p_fields def = f :: fs ->
  asking f = true -> 8 <= f_size f -> chain_clean PgnList 0 i (Z.to_nat (j - i + 1)) = true ->
  forallb (short_pick j i) (map Z.of_nat (seq 0 256)) = true ->
  ~ panics_from pl PgnList D spare j false (start_state i def).
Proof.
  intros HB N Z R PF A S CC SP. pose proof (stands_start i def Z R) as ST. rewrite PF in ST. assert (zget (p_fields (ps_def (start_state i def))) (ps_idx (start_state i def)) = Some f) as F by (eapply (stands_field PgnList D); exact ST).
  assert (1 <= (f_size f + 7) / 8) as FB by (apply Z.div_le_lower_bound; lia).
  assert (nbytes (zlen D) f = 1) as NB by (unfold nbytes; lia). assert (nbits (zlen D) f = 8) as NW by (unfold nbits; lia).
  pose proof (ask_step pl PgnList D spare j false HB (start_state i def) f F Z ltac:(cbn; lia) ltac:(cbn; lia) ltac:(lia)) as K.
  rewrite NB, NW in K. change (ps_byte (start_state i def)) with 0 in K. change (ps_bit (start_state i def)) with 0 in K. change (ps_idx (start_state i def)) with 0 in K. change (ps_i (start_state i def)) with i in K.
  specialize (K ltac:(lia) eq_refl A). cbv zeta in K. specialize (K CC). change (1 + 0) with 1 in K.
  set (x := bits _ _ _) in K. assert (0 <= x < 256) as RX by (unfold x, bits; apply (Z.mod_pos_bound _ (2 ^ 8)); lia).
  pose proof (below_all _ 256 x SP ltac:(lia)) as PX. unfold short_pick in PX.
  destruct (pick _ PgnList 0 x i) as [i'|]; [|discriminate PX]. destruct K as (def' & v & Z' & E). rewrite Z' in PX.
  rewrite (panics_next pl PgnList D spare j false _ _ E). apply andb_true_iff in PX as [PX RP]. 
  pose proof (stands_jump PgnList D (start_state i def) f fs 0 0 8 v i' def' ST Z' ltac:(lia)) as ST'.
  change (Z.to_nat (ps_idx (start_state i def) + 1)) with 1%nat in ST'. set (s' := advance _ _ _) in *.
  destruct (skipn 1 (p_fields def')) as [|g r] eqn:EG; [eapply panics_stop, stands_end; exact ST'|].
  assert (zget (p_fields def') 1 = Some g) as ZG by (destruct (p_fields def') as [|? [|? ?]]; try discriminate EG; cbn [skipn] in EG; injection EG as <- _; reflexivity).
  rewrite ZG in PX. eapply stop_iff; [exact ST'|cbn; lia|lia|].
  assert (1 <= full_bytes g) by (unfold full_bytes; apply Z.div_le_lower_bound; lia). change (0 + (8 + 0) / 8) with 1. lia.
Qed.

(** PGN 130820. *)
Definition fusion_of (id : Z) : list (Z * Z) := map (fun e => (snd (fst e), snd e)) (filter (fun e => fst (fst e) =? id) fusion_texts).
Lemma fusion_company : forallb (fun x => (x =? 419) || is_some_list (branch 238 0 202 x 1 3) []) (map Z.of_nat (seq 0 2048)) = true.
Proof. vm_compute. reflexivity. Qed.
Lemma fusion_ids : forallb (fun x => (x =? 20) || is_some_list (branch 238 3 202 x 3 0) (fusion_of x)) (map Z.of_nat (seq 0 256)) = true.
Proof. vm_compute. reflexivity. Qed.
Lemma fusion_commands : forallb (fun x => is_some_list (branch 238 5 216 x 5 0) []) (map Z.of_nat (seq 0 256)) = true.
Proof. vm_compute. reflexivity. Qed.
Lemma fusion_of_in id p z : In (p, z) (fusion_of id) <-> In (id, p, z) fusion_texts.
Proof.
  unfold fusion_of. rewrite in_map_iff. split.
  - intros ([[a b] c] & E & I). cbn [fst snd] in E. injection E as <- <-. apply filter_In in I as [I F]. cbn [fst] in F. assert (a = id) as -> by lia. exact I.
  - intros I. exists (id, p, z). split; [reflexivity|]. apply filter_In. split; [exact I|]. cbn [fst]. lia.
Qed.

Lemma fusion_exact pl m spare : bytes_ok (rm_data m) -> rm_pgn m = 130820 ->
  panics_on pl m spare <-> company (rm_data m) = 419 /\ exists id p z, zget (rm_data m) 2 = Some id /\ In (id, p, z) fusion_texts /\ text_overflow (rm_data m) p z.
Proof.
  intros HB PG. set (D := rm_data m) in *.
  assert (pgn_first PgnList (rm_pgn m) = Ret (202, pgn_202)) as E1 by (rewrite PG; vm_compute; reflexivity).
  assert (pgn_last PgnList (rm_pgn m) = Ret (238, pgn_238)) as E2 by (rewrite PG; vm_compute; reflexivity).
  pose proof (stands_start 202 pgn_202 eq_refl eq_refl) as ST.
  assert (zlen D < 2 -> ~ (company D = 419 /\ exists id p z, zget D 2 = Some id /\ In (id, p, z) fusion_texts /\ text_overflow D p z)) as SHORT.
  { intros L (_ & id & p & z & G & _). apply zget_some in G. lia. }
  destruct (Z.eq_dec (zlen D) 0) as [N0|N0].
  { assert (D = []) as DE by (destruct D; [reflexivity|rewrite zlen_cons in N0; pose proof (zlen_nonneg D); lia]).
    split; [intros X; elim (empty_returns pl m spare DE); [rewrite PG; cbn; tauto|exact X]|]. intros X. elim (SHORT ltac:(lia) X). }
  pose proof (zlen_nonneg D) as LD.
  rewrite (crashes_from _ _ _ _ _ _ _ E1 E2). change (202 =? 238) with false. fold D.
  destruct (Z.eq_dec (zlen D) 1) as [N1|N1].
  { split; [|intros X; elim (SHORT ltac:(lia) X)]. intros X. exfalso. revert X.
    eapply short_ask; [exact HB|exact N1|vm_compute; reflexivity|reflexivity|reflexivity|reflexivity|cbn; lia|vm_compute; reflexivity|vm_compute; reflexivity]. }
  pose proof (company_head D ltac:(lia)) as CH. pose proof (company_range D) as CR.
  destruct (Z.eq_dec (company D) 419) as [C|C].
  2: { rewrite (branch_iff pl D spare 238 _ _ _ 0 0 202 0 (company D) [] HB ST eq_refl eq_refl ltac:(lia) ltac:(lia) ltac:(reflexivity) ltac:(cbn; lia) eq_refl ltac:(vm_compute; reflexivity) ltac:(symmetry; exact CH)).
       - split; [intros (p & z & [] & _)|]. intros [X _]. lia.
       - pose proof (below_all _ 2048 (company D) fusion_company ltac:(lia)) as K. cbv beta in K. apply orb_true_iff in K as [K|K]; [lia|]. apply is_some_list_eq in K. exact K. }
  pose proof (ask_iff pl PgnList D spare 238 false HB (start_state 202 pgn_202) _ _ 0 0 419 ST ltac:(lia) ltac:(lia) ltac:(reflexivity) ltac:(cbn; lia) eq_refl eq_refl ltac:(vm_compute; reflexivity)
    ltac:(rewrite <- C; symmetry; exact CH)) as AK.
  assert (pick (Z.to_nat (238 - ps_i (start_state 202 pgn_202) + 1)) PgnList (ps_idx (start_state 202 pgn_202)) 419 (ps_i (start_state 202 pgn_202)) = Some 202) as PK by (vm_compute; reflexivity).
  rewrite PK in AK. clear PK. destruct AK as (def' & ZD & K). assert (def' = pgn_202) as -> by (change (zget PgnList 202) with (Some pgn_202) in ZD; congruence).
  destruct (K eq_refl) as (s1 & ST1 & I1 & D1 & X1 & _ & IFF). rewrite IFF. clear K IFF.
  change (ps_idx s1 = 1) in X1. change (stands PgnList s1 (firstn 2 (skipn 1 (p_fields pgn_202)) ++ skipn 3 (p_fields pgn_202)) 1 3) in ST1.
  assert (fit D (firstn 2 (skipn 1 (p_fields pgn_202))) 1 3 = ((2 <=? zlen D) && ((2 <=? zlen D) && true))%bool) as FT by reflexivity.
  destruct (head_iff pl PgnList D spare 238 false _ _ _ 1 3 ST1 ltac:(rewrite I1; vm_compute; reflexivity) ltac:(lia) ltac:(lia) ltac:(rewrite FT; lia)) as (s2 & ST2 & I2 & D2 & X2 & IFF2).
  rewrite IFF2. clear IFF2. rewrite I1 in I2. rewrite X1 in X2. change (ps_idx s2 = 3) in X2.
  change (stands PgnList s2 (skipn 3 (p_fields pgn_202)) 2 0) in ST2.
  destruct (zget D 2) as [b|] eqn:G.
  2: { split; [|intros (_ & id & p & z & X & _); discriminate X]. apply zget_none in G. intros X. exfalso. revert X.
       eapply stop_iff; [exact ST2|lia|reflexivity|]. cbn. lia. }
  pose proof (zget_some _ _ _ G) as RG. assert (0 <= b < 256) as BB by exact (zget_Forall _ _ _ _ HB G).
  assert (b = bits (le_value (zsub D 2 (2 + full_bytes (mkfield "Message ID" 8 (RPos 1 1) false (UStr "=1") 0)))) 0 8) as EV.
  { change (full_bytes _) with 1. rewrite (byte_bits D 2 b 8 G BB ltac:(lia)). symmetry. apply Z.mod_small. lia. }
  destruct (Z.eq_dec b 20) as [B20|B20].
  2: { rewrite (branch_iff pl D spare 238 _ _ _ 2 0 202 3 b (fusion_of b) HB ST2 I2 X2 ltac:(lia) ltac:(lia) ltac:(reflexivity) ltac:(cbn; lia) eq_refl ltac:(vm_compute; reflexivity) EV).
       - split.
         + intros (p & z & I & O). split; [exact C|]. exists b, p, z. split; [reflexivity|]. split; [now apply fusion_of_in|exact O].
         + intros (_ & id & p & z & E & I & O). injection E as <-. exists p, z. split; [now apply fusion_of_in|exact O].
       - pose proof (below_all _ 256 b fusion_ids ltac:(lia)) as K. cbv beta in K. apply orb_true_iff in K as [K|K]; [lia|]. apply is_some_list_eq in K. exact K. }
  rewrite B20 in EV |- *. assert (~ (company D = 419 /\ exists id p z, Some 20 = Some id /\ In (id, p, z) fusion_texts /\ text_overflow D p z)) as NO.
  { intros (_ & id & p & z & E & I & _). injection E as <-. unfold fusion_texts in I. cbn [In] in I.
    repeat (destruct I as [I|I]; [discriminate I|]). exact I. }
  split; [|intros X; elim (NO X)]. intros X. exfalso. revert X.
  pose proof (ask_iff pl PgnList D spare 238 false HB s2 _ _ 2 0 20 ST2 ltac:(lia) ltac:(lia) ltac:(reflexivity) ltac:(cbn; lia) eq_refl eq_refl) as AK.
  rewrite I2, X2 in AK. specialize (AK ltac:(vm_compute; reflexivity) EV).
  assert (pick (Z.to_nat (238 - 202 + 1)) PgnList 3 20 202 = Some 216) as PK by (vm_compute; reflexivity). rewrite PK in AK. clear PK.
  destruct AK as (def' & ZD2 & K). assert (def' = pgn_216) as -> by (change (zget PgnList 216) with (Some pgn_216) in ZD2; congruence).
  destruct (K eq_refl) as (s3 & ST3 & I3 & D3 & X3 & _ & IFF). rewrite IFF. clear K IFF.
  change (ps_idx s3 = 4) in X3. change (stands PgnList s3 (firstn 1 (skipn 4 (p_fields pgn_216)) ++ skipn 5 (p_fields pgn_216)) 3 0) in ST3.
  assert (fit D (firstn 1 (skipn 4 (p_fields pgn_216))) 3 0 = ((4 <=? zlen D) && true)%bool) as FT3 by reflexivity.
  destruct (Z_lt_dec (zlen D) 4) as [N4|N4].
  { eapply head_cut; [exact ST3|rewrite I3; vm_compute; reflexivity|lia|lia|lia| |rewrite FT3; lia].
    cbn [skipn p_fields pgn_216]. repeat (constructor; [reflexivity|]). constructor. }
  destruct (head_iff pl PgnList D spare 238 false _ _ _ 3 0 ST3 ltac:(rewrite I3; vm_compute; reflexivity) ltac:(lia) ltac:(lia) ltac:(rewrite FT3; lia)) as (s4 & ST4 & I4 & D4 & X4 & IFF4).
  rewrite IFF4. clear IFF4. rewrite I3 in I4. rewrite X3 in X4. change (ps_idx s4 = 5) in X4. change (stands PgnList s4 (skipn 5 (p_fields pgn_216)) 4 0) in ST4.
  destruct (zget D 4) as [c|] eqn:G4.
  2: { apply zget_none in G4. eapply stop_iff; [exact ST4|lia|reflexivity|]. cbn. lia. }
  pose proof (zget_some _ _ _ G4) as RG4. assert (0 <= c < 256) as CB by exact (zget_Forall _ _ _ _ HB G4).
  rewrite (branch_iff pl D spare 238 _ _ _ 4 0 216 5 c [] HB ST4 I4 X4 ltac:(lia) ltac:(lia) ltac:(reflexivity) ltac:(cbn; lia) eq_refl ltac:(vm_compute; reflexivity)).
  - intros (p & z & [] & _).
  - change (full_bytes _) with 1. change (f_size _) with 8. rewrite (byte_bits D 4 c 8 G4 CB ltac:(lia)). symmetry. apply Z.mod_small. lia.
  - pose proof (below_all _ 256 c fusion_commands ltac:(lia)) as K. cbv beta in K. apply is_some_list_eq in K. exact K.
Qed.

(** PGN 130816. *)
Definition sonichub_of (id : Z) : list (Z * Z) := map (fun e => (snd e, 32)) (filter (fun e => fst e =? id) sonichub_texts).
Lemma sonichub_of_in id p z : In (p, z) (sonichub_of id) <-> In (id, p) sonichub_texts /\ z = 32.
Proof.
  unfold sonichub_of. rewrite in_map_iff. split.
  - intros ([a b] & E & I). cbn [fst snd] in E. injection E as <- <-. apply filter_In in I as [I F]. cbn [fst] in F. assert (a = id) as -> by lia. auto.
  - intros [I ->]. exists (id, p). split; [reflexivity|]. apply filter_In. split; [exact I|]. cbn [fst]. lia.
Qed.
Lemma sonichub_275 : forallb (fun x => is_some_list (branch 198 4 180 x 4 0) (if x =? 4 then [(11, 32)] else sonichub_of x)) (map Z.of_nat (seq 0 256)) = true.
Proof. vm_compute. reflexivity. Qed.
Lemma sonichub_other : forallb (fun x => is_some_list (branch 198 4 182 x 4 0) (sonichub_of x)) (map Z.of_nat (seq 0 256)) = true.
Proof. vm_compute. reflexivity. Qed.
Definition is_pick (o : option Z) (k : Z) : bool := match o with Some x => x =? k | None => false end.
Lemma is_pick_eq o k : is_pick o k = true -> o = Some k.
Proof. destruct o; [|discriminate]. cbn [is_pick]. intros H. f_equal. lia. Qed.
Lemma sonichub_company : forallb (fun x => is_pick (pick 19 PgnList 0 x 180) (if x =? 275 then 180 else 181)) (map Z.of_nat (seq 0 2048)) = true.
Proof. vm_compute. reflexivity. Qed.
Lemma sonichub_industry : forallb (fun x => is_pick (pick 18 PgnList 2 x 181) 182) (map Z.of_nat (seq 0 8)) = true.
Proof. vm_compute. reflexivity. Qed.

Lemma sonichub_exact pl m spare : bytes_ok (rm_data m) -> rm_pgn m = 130816 ->
  panics_on pl m spare <-> exists id, zget (rm_data m) 3 = Some id /\
    ((exists p, In (id, p) sonichub_texts /\ text_overflow (rm_data m) p 32) \/ (company (rm_data m) = 275 /\ id = 4 /\ text_overflow (rm_data m) 11 32)).
Proof.
  intros HB PG. set (D := rm_data m) in *.
  assert (pgn_first PgnList (rm_pgn m) = Ret (180, pgn_180)) as E1 by (rewrite PG; vm_compute; reflexivity).
  assert (pgn_last PgnList (rm_pgn m) = Ret (198, pgn_198)) as E2 by (rewrite PG; vm_compute; reflexivity).
  pose proof (stands_start 180 pgn_180 eq_refl eq_refl) as ST.
  match goal with |- _ <-> ?R => assert (zlen D < 3 -> ~ R) as SHORT end.
  { intros L (id & G & _). apply zget_some in G. lia. }
  destruct (Z.eq_dec (zlen D) 0) as [N0|N0].
  { assert (D = []) as DE by (destruct D; [reflexivity|rewrite zlen_cons in N0; pose proof (zlen_nonneg D); lia]).
    split; [intros X; elim (empty_returns pl m spare DE); [rewrite PG; cbn; tauto|exact X]|]. intros X. elim (SHORT ltac:(lia) X). }
  pose proof (zlen_nonneg D) as LD.
  rewrite (crashes_from _ _ _ _ _ _ _ E1 E2). change (180 =? 198) with false. fold D.
  destruct (Z.eq_dec (zlen D) 1) as [N1|N1].
  { split; [|intros X; elim (SHORT ltac:(lia) X)]. intros X. exfalso. revert X.
    eapply short_ask; [exact HB|exact N1|vm_compute; reflexivity|reflexivity|reflexivity|reflexivity|cbn; lia|vm_compute; reflexivity|vm_compute; reflexivity]. }
  pose proof (company_head D ltac:(lia)) as CH. pose proof (company_range D) as CR.
  pose proof (ask_iff pl PgnList D spare 198 false HB (start_state 180 pgn_180) _ _ 0 0 (company D) ST ltac:(lia) ltac:(lia) ltac:(reflexivity) ltac:(cbn; lia) eq_refl eq_refl ltac:(vm_compute; reflexivity)
    ltac:(symmetry; exact CH)) as AK.
  change (Z.to_nat (198 - ps_i (start_state 180 pgn_180) + 1)) with 19%nat in AK. change (ps_idx (start_state 180 pgn_180)) with 0 in AK. change (ps_i (start_state 180 pgn_180)) with 180 in AK.
  pose proof (below_all _ 2048 (company D) sonichub_company ltac:(lia)) as PK. cbv beta in PK. apply is_pick_eq in PK. rewrite PK in AK. clear PK.
  destruct (Z.eqb_spec (company D) 275) as [C|C].
  - destruct AK as (def' & ZD & K). assert (def' = pgn_180) as -> by (change (zget PgnList 180) with (Some pgn_180) in ZD; congruence).
    destruct (K eq_refl) as (s1 & ST1 & I1 & D1 & X1 & _ & IFF). rewrite IFF. clear K IFF.
    change (ps_idx s1 = 1) in X1. change (stands PgnList s1 (firstn 3 (skipn 1 (p_fields pgn_180)) ++ skipn 4 (p_fields pgn_180)) 1 3) in ST1.
    assert (fit D (firstn 3 (skipn 1 (p_fields pgn_180))) 1 3 = ((2 <=? zlen D) && ((2 <=? zlen D) && ((3 <=? zlen D) && true)))%bool) as FT by reflexivity.
    destruct (Z_lt_dec (zlen D) 3) as [N2|N2].
    { split; [|intros X; elim (SHORT N2 X)]. intros X. exfalso. revert X.
      eapply head_cut; [exact ST1|rewrite I1; vm_compute; reflexivity|lia|lia|lia| |rewrite FT; lia].
      cbn [skipn p_fields pgn_180]. repeat (constructor; [reflexivity|]). constructor. }
    destruct (head_iff pl PgnList D spare 198 false _ _ _ 1 3 ST1 ltac:(rewrite I1; vm_compute; reflexivity) ltac:(lia) ltac:(lia) ltac:(rewrite FT; lia)) as (s2 & ST2 & I2 & D2 & X2 & IFF2).
    rewrite IFF2. clear IFF2. rewrite I1 in I2. rewrite X1 in X2. change (ps_idx s2 = 4) in X2.
    change (stands PgnList s2 (skipn 4 (p_fields pgn_180)) 3 0) in ST2.
    destruct (zget D 3) as [b|] eqn:G.
    2: { split; [|intros (id & X & _); discriminate X]. apply zget_none in G. intros X. exfalso. revert X.
         eapply stop_iff; [exact ST2|lia|reflexivity|]. cbn. lia. }
    pose proof (zget_some _ _ _ G) as RG. assert (0 <= b < 256) as BB by exact (zget_Forall _ _ _ _ HB G).
    rewrite (branch_iff pl D spare 198 _ _ _ 3 0 180 4 b (if b =? 4 then [(11, 32)] else sonichub_of b) HB ST2 I2 X2 ltac:(lia) ltac:(lia) ltac:(reflexivity) ltac:(cbn; lia) eq_refl ltac:(vm_compute; reflexivity)).
    + destruct (Z.eqb_spec b 4) as [B4|B4].
      * subst b. split.
        -- intros (p & z & [I|[]] & O). injection I as <- <-. exists 4. split; [reflexivity|]. right. auto.
        -- intros (id & E & X). injection E as <-. exists 11, 32. split; [now left|]. destruct X as [(p & I & _)|(_ & _ & O)]; [|exact O].
           exfalso. unfold sonichub_texts in I. cbn [In] in I. repeat (destruct I as [I|I]; [discriminate I|]). exact I.
      * split.
        -- intros (p & z & I & O). apply sonichub_of_in in I as [I ->]. exists b. split; [reflexivity|]. left. eauto.
        -- intros (id & E & X). injection E as <-. destruct X as [(p & I & O)|(_ & X & _)]; [|congruence].
           exists p, 32. split; [now apply sonichub_of_in|exact O].
    + change (full_bytes _) with 1. change (f_size _) with 8. rewrite (byte_bits D 3 b 8 G BB ltac:(lia)). symmetry. apply Z.mod_small. lia.
    + pose proof (below_all _ 256 b sonichub_275 ltac:(lia)) as K. cbv beta in K. apply is_some_list_eq in K. exact K.
  - destruct AK as (def' & ZD & K). assert (def' = pgn_181) as -> by (change (zget PgnList 181) with (Some pgn_181) in ZD; congruence).
    destruct (K eq_refl) as (s1 & ST1 & I1 & D1 & X1 & _ & IFF). rewrite IFF. clear K IFF.
    change (ps_idx s1 = 1) in X1. change (stands PgnList s1 (firstn 1 (skipn 1 (p_fields pgn_181)) ++ skipn 2 (p_fields pgn_181)) 1 3) in ST1.
    assert (fit D (firstn 1 (skipn 1 (p_fields pgn_181))) 1 3 = ((2 <=? zlen D) && true)%bool) as FT by reflexivity.
    destruct (head_iff pl PgnList D spare 198 false _ _ _ 1 3 ST1 ltac:(rewrite I1; vm_compute; reflexivity) ltac:(lia) ltac:(lia) ltac:(rewrite FT; lia)) as (s2 & ST2 & I2 & D2 & X2 & IFF2).
    rewrite IFF2. clear IFF2. rewrite I1 in I2. rewrite X1 in X2. change (ps_idx s2 = 2) in X2.
    change (stands PgnList s2 (skipn 2 (p_fields pgn_181)) 1 5) in ST2.
    set (y := bits (le_value (zsub D 1 2)) 5 3). assert (0 <= y < 8) as YR by (unfold y, bits; apply (Z.mod_pos_bound _ (2 ^ 3)); lia).
    pose proof (ask_iff pl PgnList D spare 198 false HB s2 _ _ 1 5 y ST2 ltac:(lia) ltac:(lia) ltac:(reflexivity) ltac:(cbn; lia) eq_refl eq_refl) as AK.
    rewrite I2, X2 in AK. specialize (AK ltac:(vm_compute; reflexivity) eq_refl).
    change (Z.to_nat (198 - 181 + 1)) with 18%nat in AK. pose proof (below_all _ 8 y sonichub_industry ltac:(lia)) as PK. cbv beta in PK. apply is_pick_eq in PK. rewrite PK in AK. clear PK.
    destruct AK as (def' & ZD2 & K). assert (def' = pgn_182) as -> by (change (zget PgnList 182) with (Some pgn_182) in ZD2; congruence).
    destruct (K eq_refl) as (s3 & ST3 & I3 & D3 & X3 & _ & IFF). rewrite IFF. clear K IFF.
    change (ps_idx s3 = 3) in X3. change (stands PgnList s3 (firstn 1 (skipn 3 (p_fields pgn_182)) ++ skipn 4 (p_fields pgn_182)) 2 0) in ST3.
    assert (fit D (firstn 1 (skipn 3 (p_fields pgn_182))) 2 0 = ((3 <=? zlen D) && true)%bool) as FT3 by reflexivity.
    destruct (Z_lt_dec (zlen D) 3) as [N2|N2].
    { split; [|intros X; elim (SHORT N2 X)]. intros X. exfalso. revert X.
      eapply head_cut; [exact ST3|rewrite I3; vm_compute; reflexivity|lia|lia|lia| |rewrite FT3; lia].
      cbn [skipn p_fields pgn_182]. repeat (constructor; [reflexivity|]). constructor. }
    destruct (head_iff pl PgnList D spare 198 false _ _ _ 2 0 ST3 ltac:(rewrite I3; vm_compute; reflexivity) ltac:(lia) ltac:(lia) ltac:(rewrite FT3; lia)) as (s4 & ST4 & I4 & D4 & X4 & IFF4).
    rewrite IFF4. clear IFF4. rewrite I3 in I4. rewrite X3 in X4. change (ps_idx s4 = 4) in X4. change (stands PgnList s4 (skipn 4 (p_fields pgn_182)) 3 0) in ST4.
    destruct (zget D 3) as [b|] eqn:G.
    2: { split; [|intros (id & X & _); discriminate X]. apply zget_none in G. intros X. exfalso. revert X.
         eapply stop_iff; [exact ST4|lia|reflexivity|]. cbn. lia. }
    pose proof (zget_some _ _ _ G) as RG. assert (0 <= b < 256) as BB by exact (zget_Forall _ _ _ _ HB G).
    rewrite (branch_iff pl D spare 198 _ _ _ 3 0 182 4 b (sonichub_of b) HB ST4 I4 X4 ltac:(lia) ltac:(lia) ltac:(reflexivity) ltac:(cbn; lia) eq_refl ltac:(vm_compute; reflexivity)).
    + split.
      * intros (p & z & I & O). apply sonichub_of_in in I as [I ->]. exists b. split; [reflexivity|]. left. eauto.
      * intros (id & E & X). injection E as <-. destruct X as [(p & I & O)|(X & _)]; [|congruence].
        exists p, 32. split; [now apply sonichub_of_in|exact O].
    + change (full_bytes _) with 1. change (f_size _) with 8. rewrite (byte_bits D 3 b 8 G BB ltac:(lia)). symmetry. apply Z.mod_small. lia.
    + pose proof (below_all _ 256 b sonichub_other ltac:(lia)) as K. cbv beta in K. apply is_some_list_eq in K. exact K.
Qed.

(** PGN 60928. *)
Definition function_field : field := mkfield "Device Function" 8 RES_LOOKUP2 false (USubLookup lookupDeviceFunction) 6.
Lemma function_number D spare sb eb sbit w : 0 <= sb <= eb -> eb <= s_cap (window D spare) ->
  (exists e, extract_number function_field (window D spare) sb eb sbit w = Err e) \/ (exists x, extract_number function_field (window D spare) sb eb sbit w = Ret (VFloat64 x)).
Proof.
  intros H1 H2. unfold extract_number, sub_or_panic, s_sub.
  replace ((0 <=? sb) && (sb <=? eb) && (eb <=? s_cap (window D spare))) with true by lia.
  cbv zeta. destruct (8 <? eb - sb); [eauto|]. destruct (negb _); [eauto|]. right. change (res_scales (f_res function_field)) with true. cbv iota. eauto.
Qed.
Lemma function_panics pl D spare dm sb eb sbit w : 0 <= sb <= eb -> eb <= s_cap (window D spare) -> dm_get dm 6 = VNil ->
  (exists p, extract_field pl (window D spare) pgn_003 dm function_field sb eb sbit w = Panic p) <-> zlen D + zlen spare < 7.
Proof.
  intros H1 H2 DG. assert (s_cap (window D spare) = zlen D + zlen spare) as CAP by (unfold s_cap, window; cbn [s_arr]; apply zlen_app).
  unfold extract_field. cbn [function_field f_res RES_LOOKUP2 f_offset]. cbn [Z.eqb Pos.eqb orb]. rewrite DG.
  change (field_offsets pgn_003 6) with (@Ret (Z * Z * Z * Z) (6, 7, 1, 7)). fold function_field.
  destruct (Z_lt_dec (zlen D + zlen spare) 7) as [C|C].
  - split; [auto|]. intros _. unfold extract_number at 1, sub_or_panic. rewrite s_sub_none by lia. eauto.
  - split; [|lia]. intros [p X]. exfalso.
    destruct (function_number D spare 6 7 1 7 ltac:(lia) ltac:(lia)) as [[e E]|[x E]]; rewrite E in X; [discriminate X|].
    unfold extract_sublookup in X. destruct (function_number D spare sb eb sbit w H1 H2) as [[e E']|[y E']]; rewrite E' in X; discriminate X.
Qed.

Definition field3 (k : Z) : field := match zget (p_fields pgn_003) k with Some f => f | None => function_field end.
Lemma claim_step pl D spare k byte bit data w byte' bit' : zget (p_fields pgn_003) k = Some (field3 k) -> extract_safe (field3 k) = true ->
  0 <= byte -> 0 <= f_size (field3 k) -> nbytes (zlen D) (field3 k) + byte <= zlen D -> nbits (zlen D) (field3 k) = w ->
  byte' = byte + (w + bit) / 8 -> bit' = (bit + w) mod 8 ->
  exists v, panics_from pl PgnList D spare 3 true (mkps 3 pgn_003 k k byte bit 3 data) <->
            panics_from pl PgnList D spare 3 true (mkps 3 pgn_003 (k + 1) (k + 1) byte' bit' 3 (dm_put data k v)).
Proof.
  intros F ES PB S FI <- -> ->. pose proof (zlen_nonneg D) as LD.
  assert (0 <= nbytes (zlen D) (field3 k)) as NB. { unfold nbytes. assert (0 <= (f_size (field3 k) + 7) / 8) by (apply Z.div_pos; lia). lia. }
  destruct (plain_step pl PgnList D spare 3 true (mkps 3 pgn_003 k k byte bit 3 data) (field3 k) F PB S FI) as (v & E); [|reflexivity|reflexivity|].
  - intros p. unfold extract_at. cbn [ps_def ps_data ps_byte ps_bit]. change (s_len (window D spare)) with (zlen D). apply extract_no_panic; auto; lia.
  - exists v. rewrite (panics_next pl PgnList D spare 3 true _ _ E). unfold advance, mid. cbn [ps_i ps_def ps_idx ps_odx ps_byte ps_bit ps_index ps_data].
    change (0 <? p_rep pgn_003) with false. rewrite andb_false_r, andb_false_l. reflexivity.
Qed.
Lemma claim_run pl D spare byte : byte = 0 /\ zlen D = 0 \/ byte = 5 /\ 6 <= zlen D -> exists v0 v1 v2 v3,
  panics_from pl PgnList D spare 3 true (start_state 3 pgn_003) <-> panics_from pl PgnList D spare 3 true (mkps 3 pgn_003 4 4 byte 0 3 [(0, v0); (1, v1); (2, v2); (3, v3)]).
Proof.
  intros [[-> N]|[-> N]].
  - destruct (claim_step pl D spare 0 0 0 [] 0 0 0 eq_refl eq_refl) as (v0 & K0); [lia|vm_compute; discriminate|rewrite N; vm_compute; discriminate|rewrite N; reflexivity|reflexivity|reflexivity|].
    destruct (claim_step pl D spare 1 0 0 [(0, v0)] 0 0 0 eq_refl eq_refl) as (v1 & K1); [lia|vm_compute; discriminate|rewrite N; vm_compute; discriminate|rewrite N; reflexivity|reflexivity|reflexivity|].
    destruct (claim_step pl D spare 2 0 0 [(0, v0); (1, v1)] 0 0 0 eq_refl eq_refl) as (v2 & K2); [lia|vm_compute; discriminate|rewrite N; vm_compute; discriminate|rewrite N; reflexivity|reflexivity|reflexivity|].
    destruct (claim_step pl D spare 3 0 0 [(0, v0); (1, v1); (2, v2)] 0 0 0 eq_refl eq_refl) as (v3 & K3); [lia|vm_compute; discriminate|rewrite N; vm_compute; discriminate|rewrite N; reflexivity|reflexivity|reflexivity|].
    exists v0, v1, v2, v3. unfold start_state. rewrite K0, K1, K2, K3. reflexivity.
  - assert (forall k b, b + full_bytes (field3 k) <= 6 -> 0 < f_size (field3 k) -> 0 <= b -> nbytes (zlen D) (field3 k) + b <= zlen D /\ nbits (zlen D) (field3 k) = f_size (field3 k)) as FW.
    { intros k b C S B. destruct (full_width D (field3 k) b S ltac:(lia) B) as [A1 A2]. split; [lia|exact A2]. }
    destruct (FW 0 0 ltac:(vm_compute; discriminate) eq_refl ltac:(lia)) as [A1 A2]. destruct (FW 1 2 ltac:(vm_compute; discriminate) eq_refl ltac:(lia)) as [B1 B2].
    destruct (FW 2 4 ltac:(vm_compute; discriminate) eq_refl ltac:(lia)) as [C1 C2]. destruct (FW 3 4 ltac:(vm_compute; discriminate) eq_refl ltac:(lia)) as [D1 D2].
    destruct (claim_step pl D spare 0 0 0 [] 21 2 5 eq_refl eq_refl) as (v0 & K0); [lia|vm_compute; discriminate|exact A1|exact A2|reflexivity|reflexivity|].
    destruct (claim_step pl D spare 1 2 5 [(0, v0)] 11 4 0 eq_refl eq_refl) as (v1 & K1); [lia|vm_compute; discriminate|exact B1|exact B2|reflexivity|reflexivity|].
    destruct (claim_step pl D spare 2 4 0 [(0, v0); (1, v1)] 3 4 3 eq_refl eq_refl) as (v2 & K2); [lia|vm_compute; discriminate|exact C1|exact C2|reflexivity|reflexivity|].
    destruct (claim_step pl D spare 3 4 3 [(0, v0); (1, v1); (2, v2)] 5 5 0 eq_refl eq_refl) as (v3 & K3); [lia|vm_compute; discriminate|exact D1|exact D2|reflexivity|reflexivity|].
    exists v0, v1, v2, v3. unfold start_state. rewrite K0, K1, K2, K3. reflexivity.
Qed.

Lemma claim_exact pl m spare : bytes_ok (rm_data m) -> rm_pgn m = 60928 ->
  panics_on pl m spare <-> (zlen (rm_data m) = 0 \/ zlen (rm_data m) = 6) /\ zlen (rm_data m) + zlen spare < 7.
Proof.
  intros HB PG. set (D := rm_data m) in *.
  assert (pgn_first PgnList (rm_pgn m) = Ret (3, pgn_003)) as E1 by (rewrite PG; vm_compute; reflexivity).
  assert (pgn_last PgnList (rm_pgn m) = Ret (3, pgn_003)) as E2 by (rewrite PG; vm_compute; reflexivity).
  pose proof (stands_start 3 pgn_003 eq_refl eq_refl) as ST.
  rewrite (crashes_from _ _ _ _ _ _ _ E1 E2). change (3 =? 3) with true. fold D.
  pose proof (zlen_nonneg D) as LD. pose proof (zlen_nonneg spare) as LS.
  change (p_fields pgn_003) with (firstn 4 (p_fields pgn_003) ++ skipn 4 (p_fields pgn_003)) in ST.
  assert (fit D (firstn 4 (p_fields pgn_003)) 0 0 = ((3 <=? zlen D) && ((4 <=? zlen D) && ((5 <=? zlen D) && ((5 <=? zlen D) && true))))%bool) as FT by reflexivity.
  destruct (Z_lt_dec (zlen D) 5) as [N5|N5]; [destruct (Z.eq_dec (zlen D) 0) as [N0|N0]|destruct (Z.eq_dec (zlen D) 5) as [N5'|N5']].
  2: { split; [|lia]. intros X. exfalso. revert X. eapply head_cut; [exact ST|reflexivity|lia|lia|lia| |rewrite FT; lia].
       cbn [skipn p_fields pgn_003]. repeat (constructor; [reflexivity|]). constructor. }
  2: { split; [|lia]. destruct (head_iff pl PgnList D spare 3 true _ _ _ 0 0 ST eq_refl ltac:(lia) ltac:(lia) ltac:(rewrite FT; lia)) as (s1 & ST1 & I1 & D1 & X1 & IFF).
       rewrite IFF. intros X. exfalso. revert X. eapply stop_iff; [exact ST1|reflexivity|reflexivity|]. change (zlen D < 6). lia. }
  1, 2: assert (exists byte, byte = 0 /\ zlen D = 0 \/ byte = 5 /\ 6 <= zlen D) as (byte & BC) by (first [exists 0; lia|exists 5; lia]);
    destruct (claim_run pl D spare byte BC) as (v0 & v1 & v2 & v3 & IFF); rewrite IFF; clear IFF; set (s := mkps _ _ _ _ _ _ _ _);
    assert (nbytes (zlen D) function_field + byte <= zlen D /\ (byte = 0 -> nbits (zlen D) function_field = 0) /\ (byte = 5 -> nbits (zlen D) function_field = 8)) as (FI & W0 & W5);
    [unfold nbits, nbytes; cbn [function_field f_size]; change ((8 + 7) / 8) with 1; lia|];
    assert (0 <= nbytes (zlen D) function_field) as NB by (unfold nbytes; cbn [function_field f_size]; change ((8 + 7) / 8) with 1; lia);
    pose proof (function_panics pl D spare (ps_data s) byte (nbytes (zlen D) function_field + byte) 0 (nbits (zlen D) function_field) ltac:(lia)
      ltac:(unfold s_cap, window; cbn [s_arr]; rewrite zlen_app; lia) eq_refl) as FP;
    change (extract_field pl (window D spare) pgn_003 (ps_data s) function_field byte (nbytes (zlen D) function_field + byte) 0 (nbits (zlen D) function_field))
      with (extract_at pl (window D spare) s function_field) in FP;
    destruct (Z_lt_dec (zlen D + zlen spare) 7) as [C|C].
  1, 3: split; [intros _; lia|]; intros _; apply FP in C as (p & X); eapply panics_crash; eapply (panic_step pl PgnList D spare 3 true s function_field p eq_refl); [cbn; lia|cbn; lia|exact FI|exact X].
  1, 2: split; [|lia]; intros X; exfalso; revert X;
    destruct (plain_step pl PgnList D spare 3 true s function_field eq_refl) as (v & E); [cbn; lia|cbn; lia|exact FI|intros p X; apply C, FP; eauto|reflexivity|reflexivity|];
    rewrite (panics_next pl PgnList D spare 3 true _ _ E).
  - assert (byte = 0) as -> by lia. rewrite W0 by reflexivity.
    eapply (zero_safe pl PgnList D spare 3 true HB (skipn 5 (p_fields pgn_003)) _ 0 N0); [|lia|reflexivity].
    unfold stands, advance, mid, s. cbn [ps_i ps_def ps_idx ps_odx ps_byte ps_bit ps_index ps_data].
    change (0 <? p_rep pgn_003) with false. rewrite andb_false_r, andb_false_l. repeat split; lia || reflexivity.
  - assert (byte = 5) as -> by lia. rewrite W5 by reflexivity.
    rewrite (tail_iff pl PgnList D spare 3 true HB (skipn 5 (p_fields pgn_003)) _ 6 0); [|clear|reflexivity|lia|lia].
    + intros (p & z & I & _). vm_compute in I. exact I.
    + unfold stands, advance, mid, s. cbn [ps_i ps_def ps_idx ps_odx ps_byte ps_bit ps_index ps_data].
      change (0 <? p_rep pgn_003) with false. rewrite andb_false_r, andb_false_l. repeat split; lia || reflexivity.
Qed.

(** C43: the decoder crashes on exactly these messages, for every PGN, length, content and memory
    behind the message. *)
Theorem C43_exact pl m spare : bytes_ok (rm_data m) ->
  (exists fuel p, parse_packet fuel pl PgnList m spare = Some (Panic p)) <-> fatal (rm_data m) (zlen spare) (rm_pgn m).
Proof.
  intros HB. change (panics_on pl m spare <-> fatal (rm_data m) (zlen spare) (rm_pgn m)).
  destruct (in_dec Z.eq_dec (rm_pgn m) crashing_pgns) as [I|I].
  2: { split.
       - intros (fuel & p & H). now apply C43_no_panic in H.
       - intros F. elim I. unfold crashing_pgns. cbn [In]. destruct F; try tauto. lia. }
  unfold crashing_pgns in I. cbn [In] in I. destruct I as [I|[I|[I|[I|[I|[I|[I|[I|[]]]]]]]]]; symmetry in I.
  - rewrite claim_exact by assumption. rewrite I. split.
    + intros [A B]. now constructor.
    + intros F. remember 60928 as g. destruct F; try discriminate Heqg; [auto|lia].
  - rewrite sonichub_exact by assumption. rewrite I. split.
    + intros (id & G & [(p & J & O)|(C & -> & O)]); [eapply fatal_sonichub; eauto|now apply fatal_sonichub_fm].
    + intros F. remember 130816 as g. destruct F; try discriminate Heqg; [eauto 8|eauto 8|lia].
  - rewrite fusion_exact by assumption. rewrite I. split.
    + intros (C & id & p & z & G & J & O). eapply fatal_fusion; eauto.
    + intros F. remember 130820 as g. destruct F; try discriminate Heqg; [eauto 8|lia].
  - rewrite ais_exact by assumption. rewrite I. split.
    + intros (b & G & L). eapply fatal_ais_24; eauto.
    + intros F. remember 130842 as g. destruct F; try discriminate Heqg; [eauto|lia].
  - rewrite (single_exact pl m spare 262 pgn_262 2 2 HB ltac:(rewrite I; vm_compute; reflexivity) ltac:(rewrite I; vm_compute; reflexivity) eq_refl eq_refl ltac:(vm_compute; reflexivity) ltac:(vm_compute; reflexivity)). rewrite I. split.
    + apply fatal_serial.
    + intros F. remember 130847 as g. destruct F; try discriminate Heqg; [assumption|lia].
  - rewrite (single_exact pl m spare 283 pgn_283 11 1 HB ltac:(rewrite I; vm_compute; reflexivity) ltac:(rewrite I; vm_compute; reflexivity) eq_refl eq_refl ltac:(vm_compute; reflexivity) ltac:(vm_compute; reflexivity)). rewrite I. split.
    + apply fatal_info. lia.
    + intros F. remember 262211 as g. destruct F; try discriminate Heqg. assumption.
  - rewrite (single_exact pl m spare 284 pgn_284 11 1 HB ltac:(rewrite I; vm_compute; reflexivity) ltac:(rewrite I; vm_compute; reflexivity) eq_refl eq_refl ltac:(vm_compute; reflexivity) ltac:(vm_compute; reflexivity)). rewrite I. split.
    + apply fatal_info. lia.
    + intros F. remember 262212 as g. destruct F; try discriminate Heqg. assumption.
  - rewrite (single_exact pl m spare 285 pgn_285 11 1 HB ltac:(rewrite I; vm_compute; reflexivity) ltac:(rewrite I; vm_compute; reflexivity) eq_refl eq_refl ltac:(vm_compute; reflexivity) ltac:(vm_compute; reflexivity)). rewrite I. split.
    + apply fatal_info. lia.
    + intros F. remember 262213 as g. destruct F; try discriminate Heqg. assumption.
Qed.
(** Every kind occurs, with ordinary lengths. *)
Example fatal_examples :
  fatal (repeat 0 6) 0 60928 /\ fatal ([19; 153; 0; 8; 0; 0; 0] ++ repeat 255 32) 0 130816 /\
  fatal ([163; 153; 2; 0; 0; 0; 0; 0; 248] ++ repeat 0 4) 0 130820 /\ fatal [65; 159; 24] 0 130842 /\
  fatal [19; 153; 254; 0] 0 130847 /\ fatal (repeat 0 11 ++ [245]) 0 262211 /\ ~ fatal (repeat 0 11 ++ [244]) 0 262211 /\
  ~ fatal [65; 159; 1] 0 130842 /\ ~ fatal (repeat 0 6) 2 60928.
Proof.
  assert (forall D p z, (p + z <=? zlen D) && match zget D p with Some n => 256 <=? p + n | None => false end = true -> text_overflow D p z) as TO.
  { intros D p z H. unfold text_overflow. destruct (zget D p) as [n|]; [|lia]. split; [lia|]. exists n. split; [reflexivity|lia]. }
  split; [apply fatal_address_claim; [now right|vm_compute; reflexivity]|].
  split; [apply (fatal_sonichub _ _ 8 7); [reflexivity|now left|apply TO; reflexivity]|].
  split; [apply (fatal_fusion _ _ 2 8 5); [reflexivity|reflexivity|now left|apply TO; reflexivity]|].
  split; [apply (fatal_ais_24 _ _ 24); [reflexivity|vm_compute; discriminate]|].
  split; [apply fatal_serial, TO; reflexivity|]. split; [apply fatal_info; [lia|apply TO; reflexivity]|].
  split; [|split].
  - intros F. remember 262211 as g. destruct F; try discriminate Heqg. destruct H0 as (_ & b & E & L). vm_compute in E. injection E as <-. lia.
  - intros F. remember 130842 as g. destruct F; try discriminate Heqg; [|lia]. vm_compute in H. injection H as <-. vm_compute in H0. now elim H0.
  - intros F. remember 60928 as g. destruct F; try discriminate Heqg; [|lia]. vm_compute in H0. discriminate H0.
Qed.

Lemma fatal_behind D a b pgn : a <= b -> fatal D b pgn -> fatal D a pgn.
Proof.
  intros L F. destruct F; [apply fatal_address_claim; [assumption|lia]|eapply fatal_sonichub; eauto|now apply fatal_sonichub_fm|eapply fatal_fusion; eauto|eapply fatal_ais_24; eauto|now apply fatal_serial|now apply fatal_info].
Qed.
