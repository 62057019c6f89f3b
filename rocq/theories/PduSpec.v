(** Specification vocabulary for SMS PDUs, written from 3GPP TS 23.038 and
    23.040 and independent of the definitions in [PduModel]. *)
From Verif Require Import Base DateModel.

(** ** Bit streams *)

(** Bit [k] of a sequence of [w]-bit groups, least significant bit first;
    bits beyond the end are 0. *)
Definition bit (w : Z) (l : list Z) (k : Z) : bool :=
  Z.testbit (nth (Z.to_nat (k / w)) l 0) (k mod w).

Definition octets_ok (l : list Z) : Prop := Forall (fun x => 0 <= x < 256) l.
Definition septets_ok (l : list Z) : Prop := Forall (fun x => 0 <= x < 128) l.

Definition len {A} (l : list A) : Z := Z.of_nat (length l).

(** TS 23.038 section 6.1.2.1: [octets] is the packed form of [septets] after
    [fill] fill bits: as many octets as are needed, fill and padding bits zero. *)
Definition septet_stream (fill : Z) (septets octets : list Z) : Prop :=
  octets_ok octets /\
  8 * (len octets - 1) < fill + 7 * len septets <= 8 * len octets /\
  forall k, 0 <= k ->
    bit 8 octets k = if k <? fill then false else bit 7 septets (k - fill).

(** ** Semi-octets (TS 23.040 section 9.1.2.3) *)
Definition digits_ok (d : str) : Prop := Forall (fun c => 48 <= c <= 57) d.

(** digit at position [i], or the filler 1111 past the end *)
Definition digit_or_fill (d : str) (i : nat) : Z :=
  match nth_error d i with Some c => c - 48 | None => 15 end.

Definition semi_octets (d : str) (octets : list Z) : Prop :=
  octets_ok octets /\
  2 * len octets = len d + (len d) mod 2 /\
  forall i, (i < length octets)%nat ->
    nth i octets 0 = digit_or_fill d (2 * i) + 16 * digit_or_fill d (2 * i + 1).

(** ** The GSM 7-bit default alphabet (TS 23.038 section 6.2.1), and its
    extension table (6.2.1.1).  Code points given explicitly; position 0x1B
    (escape) is [None], as are unused extension positions. *)
Definition ts23038_basic : list (option Z) :=
  map Some
   [0x40; 0xA3; 0x24; 0xA5; 0xE8; 0xE9; 0xF9; 0xEC; 0xF2; 0xC7; 0x0A; 0xD8; 0xF8; 0x0D; 0xC5; 0xE5;
    0x394; 0x5F; 0x3A6; 0x393; 0x39B; 0x3A9; 0x3A0; 0x3A8; 0x3A3; 0x398; 0x39E]
  ++ [None] ++
  map Some
   [0xC6; 0xE6; 0xDF; 0xC9;
    0x20; 0x21; 0x22; 0x23; 0xA4; 0x25; 0x26; 0x27; 0x28; 0x29; 0x2A; 0x2B; 0x2C; 0x2D; 0x2E; 0x2F;
    0x30; 0x31; 0x32; 0x33; 0x34; 0x35; 0x36; 0x37; 0x38; 0x39; 0x3A; 0x3B; 0x3C; 0x3D; 0x3E; 0x3F;
    0xA1; 0x41; 0x42; 0x43; 0x44; 0x45; 0x46; 0x47; 0x48; 0x49; 0x4A; 0x4B; 0x4C; 0x4D; 0x4E; 0x4F;
    0x50; 0x51; 0x52; 0x53; 0x54; 0x55; 0x56; 0x57; 0x58; 0x59; 0x5A; 0xC4; 0xD6; 0xD1; 0xDC; 0xA7;
    0xBF; 0x61; 0x62; 0x63; 0x64; 0x65; 0x66; 0x67; 0x68; 0x69; 0x6A; 0x6B; 0x6C; 0x6D; 0x6E; 0x6F;
    0x70; 0x71; 0x72; 0x73; 0x74; 0x75; 0x76; 0x77; 0x78; 0x79; 0x7A; 0xE4; 0xF6; 0xF1; 0xFC; 0xE0].

(** (position, character) *)
Definition ts23038_ext : list (Z * Z) :=
  [(0x0A, 0x0C); (0x14, 0x5E); (0x28, 0x7B); (0x29, 0x7D); (0x2F, 0x5C); (0x3C, 0x5B);
   (0x3D, 0x7E); (0x3E, 0x5D); (0x40, 0x7C); (0x65, 0x20AC)].

(** The standard's encoding of one character, as a relation. *)
Inductive std_septets : Z -> list Z -> Prop :=
| std_basic c i : nth_error ts23038_basic i = Some (Some c) -> std_septets c [Z.of_nat i]
| std_ext c p : In (p, c) ts23038_ext -> std_septets c [0x1B; p].

Inductive std_text : str -> list Z -> Prop :=
| std_nil : std_text [] []
| std_cons c s t r : std_septets c s -> std_text t r -> std_text (c :: t) (s ++ r).

(** ** Representable relative validity periods (TS 23.040 section 9.2.3.12.1),
    in seconds. *)
Definition ts23040_relative_vp (o : Z) : Z :=
  if o <=? 143 then (o + 1) * 300
  else if o <=? 167 then 43200 + (o - 143) * 1800
  else if o <=? 196 then (o - 166) * 86400
  else (o - 192) * 604800.

(** ** Time stamps (TS 23.040 section 9.2.3.11): seven octets, each the two
    decimal digits of a value with the tens digit in the low nibble; the time
    zone counts quarter hours and has its sign in bit 3. *)
Definition swapped_bcd (v : Z) : Z := v / 10 + 16 * (v mod 10).
Definition ts23040_timestamp (year month day hour minute second quarters : Z) : list Z :=
  [swapped_bcd (year mod 100); swapped_bcd month; swapped_bcd day;
   swapped_bcd hour; swapped_bcd minute; swapped_bcd second;
   swapped_bcd (Z.abs quarters) + if quarters <? 0 then 8 else 0].

(** Gregorian calendar *)
Definition leap_year (y : Z) : Prop := y mod 4 = 0 /\ (y mod 100 <> 0 \/ y mod 400 = 0).
Definition month_lengths : list Z := [31; 28; 31; 30; 31; 30; 31; 31; 30; 31; 30; 31].
Definition real_date (y m d : Z) : Prop :=
  1 <= m <= 12 /\ 1 <= d /\
  (d <= nth (Z.to_nat (m - 1)) month_lengths 0 \/ (m = 2 /\ d = 29 /\ leap_year y)).
Definition real_time (h mi s : Z) : Prop := 0 <= h <= 23 /\ 0 <= mi <= 59 /\ 0 <= s <= 59.

(** A time stamp an SMS can carry, [q] being its UTC offset in quarter hours. *)
Definition sms_time (t : datetime) (q : Z) : Prop :=
  1969 <= dt_year t <= 2068 /\ real_date (dt_year t) (dt_month t) (dt_day t) /\
  real_time (dt_hour t) (dt_minute t) (dt_second t) /\ dt_us t = 0 /\
  -80 < q < 80 /\ dt_utcoff t = Some (td_of_minutes (15 * q)).

(** ** What the library can encode, in terms of the standard's tables *)

(** basic characters: those of the standard except the section sign, plus
    grave accent and ESC *)
Definition lib_basic (c : Z) : Prop :=
  (In (Some c) ts23038_basic /\ c <> 0xA7) \/ c = 0x60 \/ c = 0x1B.
(** extension characters: those of the standard except form feed *)
Definition lib_ext (c : Z) : Prop := (exists p, In (p, c) ts23038_ext) /\ c <> 0x0C.

(** [encodable c]: what the library accepts *)
Definition encodable (c : Z) : Prop := lib_basic c \/ lib_ext c.

(** septets a character takes *)
Definition weight_spec (c w : Z) : Prop := (lib_basic c /\ w = 1) \/ (lib_ext c /\ w = 2).
Inductive text_weight : str -> Z -> Prop :=
| tw_nil : text_weight [] 0
| tw_cons c w t n : weight_spec c w -> text_weight t n -> text_weight (c :: t) (w + n).


(** ** UCS-2, big-endian, BMP characters *)
Definition bmp (t : str) : Prop := Forall (fun c => 0 <= c < 65536) t.
Fixpoint ucs2_be (t : str) : list Z :=
  match t with [] => [] | c :: t' => c / 256 :: c mod 256 :: ucs2_be t' end.

Definition in_octet (o : Z) : Prop := 0 <= o <= 255.
