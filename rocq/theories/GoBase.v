(** GoBase: the small part of the Go language the models are written in.

    - every Go integer is a [Z]; a fixed-width type is a [Z] kept in range by an
      explicit wrap ([u8], [u16], [u32], [u64], [i8] ...), written wherever the Go code's
      arithmetic can wrap;
    - a byte is a [Z] in [0,256); a Go string and a []byte of which only the contents
      matter are [bytes := list Z];
    - a []byte whose capacity matters is a [slice]: backing array from the slice's
      first element up to its capacity, and a length;
    - a call that may return an error or panic is an [outcome]. *)
From Coq Require Export ZArith List Bool Lia String Ascii.
From Coq Require Import ZifyBool.
Export ListNotations.
Open Scope Z_scope.
Open Scope list_scope.

Notation byte := Z (only parsing).
Definition bytes := list byte.

(** Result of a Go call: normal return, non-nil error, or run-time panic (a panic in a
    goroutine that nobody recovers kills the whole argo process). *)
Inductive outcome (A : Type) : Type :=
| Ret (a : A)
| Err (e : string)
| Panic (why : string).
Arguments Ret {A} _.
Arguments Err {A} _.
Arguments Panic {A} _.

(** Fixed-width integer conversions of the Go specification ("Conversions between numeric
    types": truncate to the result size). *)
Definition u8 (x : Z) : Z := x mod 256.
Definition u16 (x : Z) : Z := x mod 65536.
Definition u32 (x : Z) : Z := x mod 4294967296.
Definition u64 (x : Z) : Z := x mod 18446744073709551616.
Definition sx (w : Z) (x : Z) : Z :=      (* two's complement reading of the low w bits *)
  let y := x mod 2 ^ w in if y <? 2 ^ (w - 1) then y else y - 2 ^ w.
Definition i8 (x : Z) : Z := sx 8 x.
Definition i16 (x : Z) : Z := sx 16 x.
Definition i32 (x : Z) : Z := sx 32 x.
Definition i64 (x : Z) : Z := sx 64 x.

(** Go shifts: a count at or above the width gives 0 (left and unsigned right shift). *)
Definition shl64 (x n : Z) : Z := u64 (Z.shiftl x n).
Definition shr64 (x n : Z) : Z := Z.shiftr (u64 x) n.

Definition is_byte (b : Z) : Prop := 0 <= b < 256.
Definition is_byteb (b : Z) : bool := (0 <=? b) && (b <? 256).
Definition bytes_ok (l : bytes) : Prop := Forall is_byte l.
Definition bytes_okb (l : bytes) : bool := forallb is_byteb l.

Definition zlen {A} (l : list A) : Z := Z.of_nat (List.length l).

(** Index expression l[i] on contents (None = index out of range, a panic). *)
Definition zget {A} (l : list A) (i : Z) : option A :=
  if i <? 0 then None else nth_error l (Z.to_nat i).

(** Contents of l[a:b] for in-range bounds. *)
Definition zsub {A} (l : list A) (a b : Z) : list A :=
  firstn (Z.to_nat (b - a)) (skipn (Z.to_nat a) l).

(** A []byte value: [s_arr] is the backing array from the slice's first element up to its
    capacity, [s_len] its length. *)
Record slice := mkslice { s_arr : bytes; s_len : Z }.
Definition s_cap (s : slice) : Z := zlen (s_arr s).
Definition s_val (s : slice) : bytes := firstn (Z.to_nat (s_len s)) (s_arr s).
Definition slice_ok (s : slice) : Prop := 0 <= s_len s <= s_cap s.
(** s[i]: bounds-checked against the length. *)
Definition s_get (s : slice) (i : Z) : option byte :=
  if (0 <=? i) && (i <? s_len s) then zget (s_arr s) i else None.
(** s[a:b]: bounds-checked against the CAPACITY, as in Go. *)
Definition s_sub (s : slice) (a b : Z) : option slice :=
  if (0 <=? a) && (a <=? b) && (b <=? s_cap s)
  then Some (mkslice (skipn (Z.to_nat a) (s_arr s)) (b - a)) else None.
Definition full_slice (l : bytes) : slice := mkslice l (zlen l).

(** append(s, b) with the runtime's growth for []byte: a nil slice gets capacity 8 (the
    smallest size class), a full one doubles.  (Every Go release doubles up to 256 bytes, and
    8, 16, ..., 256 are size classes; above that, releases differ, but the code modelled here
    can observe a capacity only up to 256.)  New memory is zeroed. *)
Definition s_append (s : slice) (b : byte) : slice :=
  let n := Z.to_nat (s_len s) in
  if s_len s <? s_cap s
  then mkslice (firstn n (s_arr s) ++ b :: skipn (S n) (s_arr s)) (s_len s + 1)
  else let newcap := if s_cap s =? 0 then 8%nat else (2 * List.length (s_arr s))%nat in
       mkslice (firstn n (s_arr s) ++ b :: repeat 0 (newcap - S n)) (s_len s + 1).
Definition nil_slice : slice := mkslice [] 0.

(** list update l[i] = v for an index in range. *)
Definition list_set (l : bytes) (i : Z) (v : byte) : bytes :=
  firstn (Z.to_nat i) l ++ v :: skipn (S (Z.to_nat i)) l.

(** copy(dst[at:], src): overwrites as many bytes as fit. *)
Definition copy_at (dst : bytes) (at_ : Z) (src : bytes) : bytes :=
  let a := Z.to_nat at_ in
  let n := Nat.min (List.length src) (List.length dst - a) in
  firstn a dst ++ firstn n src ++ skipn (a + n) dst.

(** Go strings are byte sequences; literals of the source are written as Coq strings. *)
Fixpoint str (s : string) : bytes :=
  match s with
  | EmptyString => []
  | String c r => Z.of_nat (nat_of_ascii c) :: str r
  end.

Fixpoint bytes_eqb (a b : bytes) : bool :=
  match a, b with
  | [], [] => true
  | x :: a', y :: b' => (x =? y) && bytes_eqb a' b'
  | _, _ => false
  end.

(** Go's string < : lexicographic on bytes. *)
Fixpoint bytes_ltb (a b : bytes) : bool :=
  match a, b with
  | _, [] => false
  | [], _ :: _ => true
  | x :: a', y :: b' => (x <? y) || ((x =? y) && bytes_ltb a' b')
  end.

(** Maps with integer keys, as total functions. *)
Definition zmap (A : Type) := Z -> option A.
Definition zempty {A} : zmap A := fun _ => None.
Definition zput {A} (m : zmap A) (k : Z) (v : A) : zmap A :=
  fun x => if x =? k then Some v else m x.
Definition zdel {A} (m : zmap A) (k : Z) : zmap A :=
  fun x => if x =? k then None else m x.

(** An io.ReadWriteCloser as argo sees it.
    Writing: [w_log] is everything handed to Write so far (oldest first); [w_ans k] says
    what the k-th Write answers: [None] = all bytes accepted, nil error; [Some n] = error
    after n bytes. *)
Record wport := mkwport { w_log : list bytes; w_ans : nat -> option Z }.
Definition w_write (p : wport) (b : bytes) : wport * (Z * bool) :=
  (mkwport (w_log p ++ [b]) (w_ans p),
   match w_ans p (List.length (w_log p)) with
   | None => (zlen b, true)
   | Some n => (n, false)
   end).

(** Reading one byte at a time (both drivers pass a 1-byte buffer): the port delivers a
    byte, or returns (0, nil) leaving the buffer as it was, or returns an error. *)
Inductive rd_event := RByte (b : byte) | RZero | RErr.

(** Keep these folded under simpl/cbn (no logical content). *)
#[global] Arguments zlen {A} l : simpl never.
#[global] Arguments zget {A} l i : simpl never.
#[global] Arguments zsub {A} l a b : simpl never.
#[global] Arguments u8 x : simpl never.
#[global] Arguments u16 x : simpl never.
#[global] Arguments u32 x : simpl never.
#[global] Arguments u64 x : simpl never.
#[global] Arguments sx w x : simpl never.

(** Basic facts *)
Lemma zlen_app {A} (a b : list A) : zlen (a ++ b) = zlen a + zlen b.
Proof. unfold zlen. rewrite app_length. lia. Qed.
Lemma zlen_cons {A} (x : A) l : zlen (x :: l) = 1 + zlen l.
Proof. unfold zlen. simpl List.length. lia. Qed.
Lemma zlen_nil {A} : zlen (@nil A) = 0.
Proof. reflexivity. Qed.
Lemma zlen_nonneg {A} (l : list A) : 0 <= zlen l.
Proof. unfold zlen. lia. Qed.
Lemma zlen_0 {A} (l : list A) : zlen l = 0 -> l = [].
Proof. destruct l; [reflexivity|]. rewrite zlen_cons. pose proof (zlen_nonneg l). lia. Qed.

Lemma zget_lt {A} (l : list A) i : 0 <= i < zlen l -> exists x, zget l i = Some x.
Proof.
  intros H. unfold zget. destruct (i <? 0) eqn:E; [lia|].
  destruct (nth_error l (Z.to_nat i)) eqn:N; [eauto|].
  apply nth_error_None in N. unfold zlen in H. lia.
Qed.
Lemma zget_some {A} (l : list A) i x : zget l i = Some x -> 0 <= i < zlen l.
Proof.
  unfold zget. destruct (i <? 0) eqn:E; [discriminate|]. intros N.
  assert (nth_error l (Z.to_nat i) <> None) as N' by congruence.
  apply nth_error_Some in N'. unfold zlen. lia.
Qed.
Lemma zget_none {A} (l : list A) i : zget l i = None <-> (i < 0 \/ zlen l <= i).
Proof.
  split.
  - intros H. destruct (Z_lt_dec i 0); [tauto|]. right.
    destruct (Z_le_dec (zlen l) i); [assumption|].
    destruct (zget_lt l i) as [x Hx]; [lia|congruence].
  - intros H. destruct (zget l i) eqn:E; [|reflexivity].
    apply zget_some in E. lia.
Qed.
Lemma zget_nth {A} (l : list A) i d : 0 <= i < zlen l -> zget l i = Some (nth (Z.to_nat i) l d).
Proof.
  intros H. unfold zget. destruct (i <? 0) eqn:E; [lia|].
  apply nth_error_nth'. unfold zlen in H. lia.
Qed.
Lemma zget_app_l {A} (a b : list A) i : i < zlen a -> zget (a ++ b) i = zget a i.
Proof.
  intros H. unfold zget. destruct (i <? 0) eqn:E; [reflexivity|].
  apply nth_error_app1. unfold zlen in H. lia.
Qed.
Lemma zget_app_r {A} (a b : list A) i : zlen a <= i -> zget (a ++ b) i = zget b (i - zlen a).
Proof.
  intros H. pose proof (zlen_nonneg a). unfold zget.
  destruct (i <? 0) eqn:E; [lia|]. destruct (i - zlen a <? 0) eqn:E2; [lia|].
  rewrite nth_error_app2 by (unfold zlen in H; lia).
  f_equal. unfold zlen. lia.
Qed.
Lemma zget_cons_0 {A} (x : A) l : zget (x :: l) 0 = Some x.
Proof. reflexivity. Qed.
Lemma zget_cons_S {A} (x : A) l i : 0 < i -> zget (x :: l) i = zget l (i - 1).
Proof.
  intros H. change (x :: l) with ([x] ++ l). rewrite zget_app_r; [reflexivity|].
  change (zlen [x]) with 1. lia.
Qed.

Lemma zsub_length {A} (l : list A) a b :
  0 <= a -> a <= b -> b <= zlen l -> zlen (zsub l a b) = b - a.
Proof.
  intros Ha Hab Hb. unfold zsub, zlen in *. rewrite firstn_length, skipn_length. lia.
Qed.
Lemma bytes_eqb_eq a b : bytes_eqb a b = true <-> a = b.
Proof.
  revert b. induction a as [|x a IH]; intros [|y b]; cbn; try (split; congruence).
  rewrite andb_true_iff, IH, Z.eqb_eq. split; [intros [-> ->]; reflexivity|].
  intros E; inversion E; auto.
Qed.
Lemma u8_byte x : is_byte (u8 x).
Proof. unfold u8, is_byte. apply Z.mod_pos_bound. lia. Qed.
Lemma u8_id x : is_byte x -> u8 x = x.
Proof. unfold u8, is_byte. intros. apply Z.mod_small. lia. Qed.
Lemma u32_id x : 0 <= x < 4294967296 -> u32 x = x.
Proof. unfold u32. apply Z.mod_small. Qed.
Lemma u64_id x : 0 <= x < 18446744073709551616 -> u64 x = x.
Proof. unfold u64. apply Z.mod_small. Qed.
Lemma zput_same {A} (m : zmap A) k v : zput m k v k = Some v.
Proof. unfold zput. now rewrite Z.eqb_refl. Qed.
Lemma zput_other {A} (m : zmap A) k v x : x <> k -> zput m k v x = m x.
Proof. unfold zput. intros. destruct (Z.eqb_spec x k); congruence. Qed.
Lemma zdel_same {A} (m : zmap A) k : zdel m k k = None.
Proof. unfold zdel. now rewrite Z.eqb_refl. Qed.
Lemma zdel_other {A} (m : zmap A) k x : x <> k -> zdel m k x = m x.
Proof. unfold zdel. intros. destruct (Z.eqb_spec x k); congruence. Qed.
