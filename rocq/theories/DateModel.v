(** datetime / timedelta / strptime, the part gsmmodem uses.

    This file models Python's standard library (datetime, _strptime) as used by
    gsmmodem/pdu.py:494-526 and gsmmodem/util.py:30-45; it is part of the trusted
    reading of the code. *)
From Verif Require Export Base.

(** datetime.timedelta, as its total number of microseconds.  Python keeps it
    normalised as (days, seconds, microseconds) with 0 <= seconds < 86400 and
    0 <= microseconds < 10^6; [td_days] and [td_seconds] are those attributes. *)
Definition timedelta := Z.
Definition us_per_s : Z := 1000000.
Definition us_per_day : Z := 86400 * us_per_s.
Definition td_days (t : timedelta) : Z := t / us_per_day.
Definition td_seconds (t : timedelta) : Z := (t mod us_per_day) / us_per_s.
Definition td_of_seconds (s : Z) : timedelta := s * us_per_s.
Definition td_of_minutes (m : Z) : timedelta := td_of_seconds (m * 60).
Definition td_of_hours (h : Z) : timedelta := td_of_seconds (h * 3600).

(** datetime.datetime; [utcoff] is what [utcoffset()] returns, [None] for a
    naive datetime (tzinfo is None). *)
Record datetime := mk_datetime {
  dt_year : Z; dt_month : Z; dt_day : Z;
  dt_hour : Z; dt_minute : Z; dt_second : Z; dt_us : Z;
  dt_utcoff : option timedelta }.

Definition is_leap (y : Z) : bool :=
  (y mod 4 =? 0) && (negb (y mod 100 =? 0) || (y mod 400 =? 0)).
Definition days_in_month (y m : Z) : Z :=
  if m =? 2 then (if is_leap y then 29 else 28)
  else if (m =? 4) || (m =? 6) || (m =? 9) || (m =? 11) then 30 else 31.

(** The range checks of the datetime constructor. *)
Definition valid_fields (y mo d h mi s : Z) : bool :=
  (1 <=? y) && (y <=? 9999) && (1 <=? mo) && (mo <=? 12) && (1 <=? d) && (d <=? days_in_month y mo)
  && (0 <=? h) && (h <=? 23) && (0 <=? mi) && (mi <=? 59) && (0 <=? s) && (s <=? 59).

Definition datetime_new (y mo d h mi s : Z) (off : option timedelta) : res datetime :=
  if valid_fields y mo d h mi s then Ok (mk_datetime y mo d h mi s 0 off) else Err ValueError.

(** Two-digit text of a number below 100, zero padded: strftime's %y %m %d ... *)
Definition two_digits (n : Z) : str := [48 + n / 10; 48 + n mod 10].

(** timestamp.strftime('%y%m%d%H%M%S') *)
Definition strftime_ymdHMS (t : datetime) : str :=
  two_digits (dt_year t mod 100) ++ two_digits (dt_month t) ++ two_digits (dt_day t)
  ++ two_digits (dt_hour t) ++ two_digits (dt_minute t) ++ two_digits (dt_second t).

(** ** strptime

    _strptime compiles the format to a regular expression and takes the first
    match in backtracking order; then it requires the whole string to be
    consumed, and finally the datetime constructor checks the ranges.  A field
    parser returns its possible matches (value, rest of the string) in the order
    the regex engine tries them. *)
Definition field := str -> list (Z * str).

Definition dig (c : Z) : Z := c - 48.
Definition in_cls (lo hi c : Z) : bool := (lo <=? c) && (c <=? hi).
(** two-character alternative [lo1-hi1][lo2-hi2] on digits *)
Definition alt2 (lo1 hi1 lo2 hi2 : Z) : field := fun s =>
  match s with
  | a :: b :: s' => if in_cls (48 + lo1) (48 + hi1) a && in_cls (48 + lo2) (48 + hi2) b
                    then [(dig a * 10 + dig b, s')] else []
  | _ => []
  end.
Definition alt1 (lo hi : Z) : field := fun s =>
  match s with
  | a :: s' => if in_cls (48 + lo) (48 + hi) a then [(dig a, s')] else []
  | _ => []
  end.
(** ' [1-9]' (space padded day) *)
Definition alt_sp (lo hi : Z) : field := fun s =>
  match s with
  | 32 :: a :: s' => if in_cls (48 + lo) (48 + hi) a then [(dig a, s')] else []
  | _ => []
  end.
Definition orf (f g : field) : field := fun s => f s ++ g s.

(** %y = \d\d ; %m = 1[0-2]|0[1-9]|[1-9] ; %d = 3[0-1]|[1-2]\d|0[1-9]|[1-9]| [1-9] ;
    %H = 2[0-3]|[0-1]\d|\d ; %M = [0-5]\d|\d ; %S = 6[0-1]|[0-5]\d|\d *)
Definition f_y : field := alt2 0 9 0 9.
Definition f_m : field := orf (alt2 1 1 0 2) (orf (alt2 0 0 1 9) (alt1 1 9)).
Definition f_d : field :=
  orf (alt2 3 3 0 1) (orf (alt2 1 2 0 9) (orf (alt2 0 0 1 9) (orf (alt1 1 9) (alt_sp 1 9)))).
Definition f_H : field := orf (alt2 2 2 0 3) (orf (alt2 0 1 0 9) (alt1 0 9)).
Definition f_M : field := orf (alt2 0 5 0 9) (alt1 0 9).
Definition f_S : field := orf (alt2 6 6 0 1) (orf (alt2 0 5 0 9) (alt1 0 9)).
(** a literal character of the format *)
Definition f_lit (c : Z) : field := fun s =>
  match s with a :: s' => if a =? c then [(0, s')] else [] | [] => [] end.

(** All matches of a sequence of fields, in backtracking order. *)
Fixpoint match_fields (fs : list field) (s : str) : list (list Z * str) :=
  match fs with
  | [] => [([], s)]
  | f :: fs' => flat_map (fun vs => map (fun r => (fst vs :: fst r, snd r)) (match_fields fs' (snd vs))) (f s)
  end.

(** %y: POSIX two-digit years *)
Definition full_year (y : Z) : Z := if y <=? 68 then 2000 + y else 1900 + y.

Definition strptime_fields (fs : list field) (pick : list Z -> option (Z * Z * Z * Z * Z * Z))
    (s : str) (off : option timedelta) : res datetime :=
  match match_fields fs s with
  | [] => Err ValueError                         (* time data does not match format *)
  | (vs, rest) :: _ =>
      match rest with
      | _ :: _ => Err ValueError                 (* unconverted data remains *)
      | [] => match pick vs with
              | Some (y, mo, d, h, mi, se) => datetime_new (full_year y) mo d h mi se off
              | None => Err ValueError
              end
      end
  end.

(** datetime.strptime(s, '%y%m%d%H%M%S').replace(tzinfo=...) *)
Definition strptime_ymdHMS (s : str) (off : option timedelta) : res datetime :=
  strptime_fields [f_y; f_m; f_d; f_H; f_M; f_S]
    (fun vs => match vs with [y; mo; d; h; mi; se] => Some (y, mo, d, h, mi, se) | _ => None end) s off.

(** datetime.strptime(s, '%y/%m/%d,%H:%M:%S').replace(tzinfo=...) *)
Definition strptime_text (s : str) (off : option timedelta) : res datetime :=
  strptime_fields [f_y; f_lit 47; f_m; f_lit 47; f_d; f_lit 44; f_H; f_lit 58; f_M; f_lit 58; f_S]
    (fun vs => match vs with [y; _; mo; _; d; _; h; _; mi; _; se] => Some (y, mo, d, h, mi, se) | _ => None end) s off.
