(** Specification vocabulary for encodeSmsSubmitPdu.  Only the data types of its
    arguments and results (validity, pdu, sms ...) are taken from [PduModel],
    and the address encoder, which C13 and C14 are about. *)
From Verif Require Import Base DateModel PduModel PduSpec SmsSpec.

(** ** Limits *)
(** characters that go into one PDU, and into one part of a concatenated message *)
Definition max_chars (gsm7 : bool) : Z := if gsm7 then 160 else 70.
Definition part_chars (gsm7 : bool) : nat := if gsm7 then 153%nat else 67%nat.

(** the [i]-th group of [k] characters *)
Definition chunk (k i : nat) (text : str) : str := firstn k (skipn (i * k) text).

(** the number of PDUs the library produces *)
Definition pdu_count (gsm7 : bool) (text : str) : Z :=
  if max_chars gsm7 <? len text then len text / max_chars gsm7 + 1 else 1.

(** ** Alphabet: GSM-7 when every character is encodable; UCS-2 when there is an
    unencodable one and the first such is not U+00FF *)
Definition uses_gsm7 (text : str) (gsm7 : bool) : Prop :=
  (gsm7 = true /\ Forall encodable text) \/
  (gsm7 = false /\ exists p c q, text = p ++ c :: q /\ Forall encodable p /\ ~ encodable c /\ c <> 255).

(** ** Arguments *)
(** a destination or service centre number of at most [digits] digits, or an
    alphanumeric one of at most 145 septets *)
Definition address_ok (a : str) (digits : Z) : Prop :=
  (exists d ton, phone_number a d ton /\ len d <= digits) \/
  (a <> [] /\ (forall d ton, ~ phone_number a d ton) /\ Forall encodable a /\ exists n, text_weight a n /\ n <= 145).
Definition smsc_ok (smsc : option str) : Prop :=
  match smsc with Some (c :: s) => address_ok (c :: s) 508 | _ => True end.

(** validity periods that can be represented *)
Definition validity_ok (v : validity) : Prop :=
  match v with
  | VNone => True
  | VRelative t => 300 * us_per_s <= t < 442 * us_per_day
  | VAbsolute t => exists q, sms_time t q
  | VOther => False
  end.
(** TP-VPF *)
Definition vpf_of (v : validity) : Z := match v with VRelative _ => 2 | VAbsolute _ => 3 | _ => 0 end.

(** ** The fields of a produced PDU *)
Definition smsc_enc (smsc : option str) (o : list Z) : Prop :=
  match smsc with
  | Some (c :: s) => encodeAddressField (c :: s) true = Ok o
  | _ => o = [0]
  end.
(** [w] is the division into fields of the octets of [p] *)
Definition fields (number : str) (smsc : option str) (v : validity) (p : pdu) (w : submit) : Prop :=
  pdu_data p = submit_octets w /\ smsc_enc smsc (s_smsc w) /\
  encodeAddressField number false = Ok (s_dest w) /\
  len (s_vp w) = match v with VRelative _ => 1 | VAbsolute _ => 7 | _ => 0 end.

(** ** What a receiver using this library reads *)
Definition text_received (gsm7 : bool) (fill : Z) (t t' : str) : Prop :=
  if gsm7 then gsm7_received fill t t' else t' = t.
Definition no_esc (a : option str) : Prop := match a with Some s => ~ In 27 s | None => True end.
Inductive smsc_received : option str -> option str -> Prop :=
| sr_none : smsc_received None None
| sr_empty : smsc_received (Some []) None
| sr_some a a' : a <> [] -> address_received a a' -> smsc_received (Some a) (Some a').
(** a relative period is rounded down to a representable one *)
Inductive validity_received : validity -> dvalidity -> Prop :=
| vr_none : validity_received VNone DVNone
| vr_relative t o : in_octet o -> ts23040_relative_vp o * us_per_s <= t ->
    (forall o', in_octet o' -> ts23040_relative_vp o' * us_per_s <= t -> ts23040_relative_vp o' <= ts23040_relative_vp o) ->
    validity_received (VRelative t) (DVRelative (ts23040_relative_vp o * us_per_s))
| vr_absolute t q : sms_time t q -> validity_received (VAbsolute t) (DVAbsolute t).

(** the concatenation element of part [i] of [n] *)
Definition concat_element (ref n i : Z) : ie := mk_ie 0 3 [ref; n; i] (IEConcat ref n i).

(** ** When the library accepts a call *)
Definition part_ok (gsm7 : bool) (text : str) (i : nat) : Prop :=
  if gsm7 then
    if 160 <? len text then exists n, text_weight (chunk 153 i text) n /\ n <= 248
    else text <> [] /\ exists n, text_weight text n /\ n <= 255
  else if 70 <? len text then bmp (chunk 67 i text) else bmp text.
Definition validity_encodes (v : validity) : Prop :=
  match v with
  | VNone => True
  | VRelative t => 300 * us_per_s <= t < 442 * us_per_day
  | VAbsolute t => dt_utcoff t <> None
  | VOther => False
  end.

(** every Python datetime satisfies this *)
Definition py_datetime (t : datetime) : Prop :=
  1 <= dt_year t <= 9999 /\ real_date (dt_year t) (dt_month t) (dt_day t) /\
  real_time (dt_hour t) (dt_minute t) (dt_second t) /\ 0 <= dt_us t < us_per_s /\
  match dt_utcoff t with Some off => - us_per_day < off < us_per_day | None => True end.

(** ** Results *)
(** the text of a decoded SMS-SUBMIT *)
Definition text_of (m : sms) (t : str) : Prop :=
  match sms_type m with
  | SmsSubmit _ _ _ _ _ t' => t' = t
  | _ => False
  end.

Definition part_of (gsm7 : bool) (i : nat) (text : str) : str :=
  if max_chars gsm7 <? len text then chunk (part_chars gsm7) i text else text.

(** the flash flag changes one octet *)
Definition with_flash (w : submit) : submit :=
  mk_submit (s_smsc w) (s_first w) (s_ref w) (s_dest w) (s_pid w) (s_dcs w + 16) (s_vp w) (s_udl w) (s_ud w).

Definition flash_pair number smsc v (p p' : pdu) : Prop :=
  pdu_tpduLength p' = pdu_tpduLength p /\
  exists w, fields number smsc v p w /\ pdu_data p' = submit_octets (with_flash w).
