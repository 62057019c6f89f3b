(** Model of gsmmodem/util.py. *)
From Verif Require Export Base DateModel.

(** [s[:-n]] and [s[-n:]] for n > 0 *)
Definition drop_last (n : nat) (s : str) : str := firstn (length s - n) s.
Definition last_n (n : nat) (s : str) : str := skipn (length s - n) s.

(** parseTextModeTimeStr, util.py:30-45.  The argument of the outer int() is the
    float product [int(timeStr[-3:]) * 0.25]: at most three characters give an
    integer below 1000 in absolute value, for which the product is exact, and
    int() truncates towards zero: [Z.quot _ 4].  The zone is evaluated (44) before
    the date (45).  SimpleOffsetTzInfo (9-25): utcoffset is that number of hours. *)
Definition parseTextModeTimeStr (timeStr : str) : res datetime :=
  let msgTime := drop_last 3 timeStr in
  let* q := py_int 10 (last_n 3 timeStr) in
  let tzOffsetHours := Z.quot q 4 in
  strptime_text msgTime (Some (td_of_hours tzOffsetHours)).

(** ** Searching a list of lines *)

(** lineStartingWith, util.py:47-55 *)
Fixpoint lineStartingWith (string : str) (lines : list str) : option str :=
  match lines with
  | [] => None
  | line :: lines' => if startswith line string then Some line else lineStartingWith string lines'
  end.

Section Pattern.
(** A compiled pattern is its [match] method: the match object or None. *)
Context {M : Type}.
Definition pattern := str -> option M.

(** lineMatchingPattern, util.py:77-94; lineMatching, util.py:57-75, is the same
    after compiling its first argument *)
Fixpoint lineMatchingPattern (p : pattern) (lines : list str) : option M :=
  match lines with
  | [] => None
  | line :: lines' => match p line with Some m => Some m | None => lineMatchingPattern p lines' end
  end.

(** allLinesMatchingPattern, util.py:96-110 *)
Definition allLinesMatchingPattern (p : pattern) (lines : list str) : list M :=
  fold_left (fun result line => match p line with Some m => result ++ [m] | None => result end) lines [].
End Pattern.
Arguments pattern : clear implicits.
