(** ScannerModel: the bufio.Scanner the file interface reads with (/repo/main/argo.go:301-305;
    library code of Go 1.13): its buffer, how it grows, and its reads.  PipelineModel's
    [file_lines] says what comes out; ScannerProps proves that it does, however the reads split
    the file. *)
From Verif Require Import GoBase PipelineModel.
Open Scope Z_scope.
Open Scope list_scope.

(** The scanner: the bytes of buf[start:end], start, len(buf), and whether err is set.  (What
    the buffer holds elsewhere is never looked at.) *)
Record scanner := mksc { sc_held : bytes; sc_start : Z; sc_len : Z; sc_err : bool }.
(** bufio.NewScanner: no buffer yet. *)
Definition new_scanner : scanner := mksc [] 0 0 false.
(** MaxScanTokenSize and startBufSize. *)
Definition max_token : Z := 65536.
Definition start_size : Z := 4096.

(** bufio.ScanLines(data, atEOF): how far to advance and the token, or nothing. *)
Definition ScanLines (data : bytes) (atEOF : bool) : option (Z * bytes) :=
  if atEOF && (zlen data =? 0) then None
  else match first_line data with
       | (l, Some _) => Some (zlen l + 1, drop_cr l)
       | (l, None) => if atEOF then Some (zlen data, drop_cr data) else None
       end.

(** One round of the loop of Scanner.Scan.  [rest] is what is left of the file; [k] is how many
    bytes the read of this round would like to return: at least one, at most what fits and what
    is there; none and EOF at the end of the file. *)
Inductive round_result := RToken (t : bytes) (s : scanner) | RStop | RMore (s : scanner) (rest : bytes).
Definition scan_round (k : Z) (s : scanner) (rest : bytes) : round_result :=
  let split := if (0 <? zlen (sc_held s)) || sc_err s then ScanLines (sc_held s) (sc_err s) else None in
  match split with
  | Some (adv, tok) => RToken tok (mksc (skipn (Z.to_nat adv) (sc_held s)) (sc_start s + adv) (sc_len s) (sc_err s))
  | None =>
      if sc_err s then RStop
      else
        let endp := sc_start s + zlen (sc_held s) in
        let start1 := if (0 <? sc_start s) && ((endp =? sc_len s) || (sc_len s / 2 <? sc_start s)) then 0 else sc_start s in
        let end1 := start1 + zlen (sc_held s) in
        if (end1 =? sc_len s) && (max_token <=? sc_len s) then RStop   (* ErrTooLong *)
        else
          let full := end1 =? sc_len s in
          let len2 := if full then Z.min (if sc_len s * 2 =? 0 then start_size else sc_len s * 2) max_token else sc_len s in
          let start2 := if full then 0 else start1 in
          let space := len2 - (start2 + zlen (sc_held s)) in
          match rest with
          | [] => RMore (mksc (sc_held s) start2 len2 true) []
          | _ => let n := Z.to_nat (Z.max 1 (Z.min k space)) in
                 RMore (mksc (sc_held s ++ firstn n rest) start2 len2 false) (skipn n rest)
          end
  end.

(** Scan until it returns false (argo.go:304): all tokens; [reads i] is the wish of round i. *)
Fixpoint scan_all (fuel : nat) (reads : nat -> Z) (i : nat) (s : scanner) (rest : bytes) : option (list bytes) :=
  match fuel with
  | O => None
  | S f =>
      match scan_round (reads i) s rest with
      | RToken t s' => match scan_all f reads (S i) s' rest with Some l => Some (t :: l) | None => None end
      | RStop => Some []
      | RMore s' rest' => scan_all f reads (S i) s' rest'
      end
  end.
