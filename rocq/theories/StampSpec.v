(** What a timestamp field is read as, in terms of its semi-octets (half octets). *)
From Verif Require Import Base DateModel PduSpec.

(** [semis n it ds rest]: the semi-octets of at most [n] octets, the lower one of each
    first.  A filler (15) in the upper half ends the field. *)
Inductive semis : nat -> list Z -> list Z -> list Z -> Prop :=
| se_full it : semis 0 it [] it
| se_end n : semis n [] [] []
| se_filler n o it : o / 16 = 15 -> semis (S n) (o :: it) [o mod 16] it
| se_two n o it ds rest : o / 16 <> 15 -> semis n it ds rest -> semis (S n) (o :: it) (o mod 16 :: o / 16 :: ds) rest.

(** Reading month, day, hour, minute and second from decimal semi-octets: each is two
    digits wide ([true]) or one ([false]). *)
Definition limits : list (Z * Z) := [(1, 12); (1, 31); (0, 23); (0, 59); (0, 61)].
Fixpoint reads (bs : list (Z * Z)) (widths : list bool) (ds vs rest : list Z) : Prop :=
  match bs, widths with
  | [], [] => vs = [] /\ rest = ds
  | (lo, hi) :: bs', true :: ws => exists a b ds' vs', ds = a :: b :: ds' /\ vs = 10 * a + b :: vs' /\ 0 <= a <= 9 /\ 0 <= b <= 9 /\ lo <= 10 * a + b <= hi /\ reads bs' ws ds' vs' rest
  | (lo, hi) :: bs', false :: ws => exists a ds' vs', ds = a :: ds' /\ vs = a :: vs' /\ lo <= a <= 9 /\ reads bs' ws ds' vs' rest
  | _, _ => False
  end.
(** wide numbers first: [w] is tried before [w'] *)
Definition earlier (w w' : list bool) : Prop := exists p x y, w = p ++ true :: x /\ w' = p ++ false :: y.
(** two digits of the year, then the first way to read the other numbers, wherever it
    ends; it has to end with the digits *)
Definition date_read (ds : list Z) (year mo d h mi s : Z) : Prop :=
  exists a b ds' ws, ds = a :: b :: ds' /\ 0 <= a <= 9 /\ 0 <= b <= 9 /\ 1969 <= year <= 2068 /\ year mod 100 = 10 * a + b /\
    reads limits ws ds' [mo; d; h; mi; s] [] /\ forall ws' vs' rest', reads limits ws' ds' vs' rest' -> ~ earlier ws' ws.
(** the last two semi-octets: the zone, in quarter hours *)
Definition zone_read (a b q : Z) : Prop := 0 <= b <= 9 /\ (0 <= a <= 7 /\ q = 10 * a + b \/ 8 <= a <= 15 /\ q = - (10 * (a - 8) + b)).
(** a timestamp read from semi-octets *)
Definition stamp_read (ds : list Z) (t : datetime) : Prop :=
  exists date a b q, ds = date ++ [a; b] /\ date_read date (dt_year t) (dt_month t) (dt_day t) (dt_hour t) (dt_minute t) (dt_second t) /\
    real_date (dt_year t) (dt_month t) (dt_day t) /\ real_time (dt_hour t) (dt_minute t) (dt_second t) /\ dt_us t = 0 /\
    zone_read a b q /\ dt_utcoff t = Some (td_of_minutes (15 * q)).

(** [t'] has the date and hour of [t], this minute and second and this zone *)
Definition same_hour (t t' : datetime) (mi s q : Z) : Prop :=
  dt_year t' = dt_year t /\ dt_month t' = dt_month t /\ dt_day t' = dt_day t /\ dt_hour t' = dt_hour t /\ dt_minute t' = mi /\ dt_second t' = s /\ dt_us t' = 0 /\
  dt_utcoff t' = Some (td_of_minutes (15 * q)).
