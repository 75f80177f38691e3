(** StatsPageModel: the table of statistics on the settings page, /repo/assets/js/site.js:44-64. *)
From Coq Require Import ZArith.
From Verif Require Import GoBase Strconv JsonSpec.
Open Scope Z_scope.
Open Scope list_scope.

(** Setting a member of an object (and the first row with a key): in its place, or at the end. *)
Fixpoint put {V} (k : bytes) (v : V) (l : list (bytes * V)) : list (bytes * V) :=
  match l with
  | [] => [(k, v)]
  | (k', v') :: r => if bytes_eqb k' k then (k', v) :: r else (k', v') :: put k v r
  end.
(** Names of members that count as array indices (ECMAScript 6.1.7): the decimal numbers up to
    2^32 - 2. *)
Definition index_of (k : bytes) : option Z :=
  let n := fold_left (fun a c => 10 * a + (c - 48)) k 0 in
  if bytes_eqb (itoa n) k && (0 <=? n) && (n <? 2 ^ 32 - 1) then Some n else None.
Fixpoint by_index {V} (n : Z) (kv : bytes * V) (l : list (Z * (bytes * V))) : list (Z * (bytes * V)) :=
  match l with
  | [] => [(n, kv)]
  | (m, x) :: r => if n <? m then (n, kv) :: l else (m, x) :: by_index n kv r
  end.
(** The members of a parsed object in the order of for-in, which $.each uses: indices ascending,
    then the others as they came (ECMAScript 10.1.11.1). *)
Definition enumerated {V} (ms : list (bytes * V)) : list (bytes * V) :=
  let o := fold_left (fun o kv => put (fst kv) (snd kv) o) ms [] in
  map snd (fold_left (fun l kv => match index_of (fst kv) with Some n => by_index n kv l | None => l end) o []) ++
  filter (fun kv => match index_of (fst kv) with Some _ => false | None => true end) o.

Section Page.
(** The text of a value in JavaScript (String(v)). *)
Variable js_text : jv -> bytes.
(** site.js:51-55, 56-57: rows are a key, in the link, and a count; the first link with the key
    is looked for, and the cell beside it set; or a row is added. *)
Definition stat_member (rows : list (bytes * bytes)) (kv : bytes * jv) : list (bytes * bytes) := put (fst kv) (js_text (snd kv)) rows.
(** ws.onmessage, site.js:47-63, on a parsed message.  Simplified: the program sends objects
    only; on other values nothing happens here. *)
Definition on_stats (rows : list (bytes * bytes)) (v : jv) : list (bytes * bytes) :=
  match v with JObj ms => fold_left stat_member (enumerated ms) rows | _ => rows end.
End Page.
(** The markup of a new row, site.js:56-57. *)
Definition stat_markup (k v : bytes) : bytes :=
  str "<tr><th><a href=""#"" data-pgn=""" ++ k ++ str """>" ++ k ++ str "</th><td>" ++ v ++ str "</td></tr>".
