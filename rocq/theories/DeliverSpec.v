(** Specification vocabulary for received PDUs, from TS 23.040.  Only the data
    types of decodeSmsPdu's result are taken from [PduModel]. *)
From Verif Require Import Base DateModel PduModel PduSpec SmsSpec.

(** ** User data headers (section 9.2.3.24): a length octet and information
    elements (identifier, length, data).  The four kinds of element the library
    interprets must have the length the standard gives them. *)
Record element := mk_element { el_id : Z; el_data : list Z }.
Definition element_ok (e : element) : Prop :=
  in_octet (el_id e) /\ octets_ok (el_data e) /\ len (el_data e) <= 255 /\
  (el_id e = 0 -> len (el_data e) = 3) /\ (el_id e = 8 -> len (el_data e) = 4) /\
  (el_id e = 4 -> len (el_data e) = 2) /\ (el_id e = 5 -> len (el_data e) = 4).
Definition element_octets (e : element) : list Z := el_id e :: len (el_data e) :: el_data e.
Definition header_octets (es : list element) : list Z :=
  len (List.concat (map element_octets es)) :: List.concat (map element_octets es).
Definition header_ok (es : list element) : Prop :=
  Forall element_ok es /\ len (List.concat (map element_octets es)) <= 255.

(** 16-bit value of two octets *)
Definition word (l : list Z) (i : nat) : Z := 256 * nth i l 0 + nth (S i) l 0.

(** the object the library should make of an element *)
Definition element_object (e : element) (o : ie) : Prop :=
  ie_id o = el_id e /\ ie_dataLength o = len (el_data e) /\ ie_data o = el_data e /\
  ie_special o =
    (if el_id e =? 0 then IEConcat (nth 0 (el_data e) 0) (nth 1 (el_data e) 0) (nth 2 (el_data e) 0)
     else if el_id e =? 8 then IEConcat (word (el_data e) 0) (nth 2 (el_data e) 0) (nth 3 (el_data e) 0)
     else if el_id e =? 4 then IEPort (nth 0 (el_data e) 0) (nth 1 (el_data e) 0)
     else if el_id e =? 5 then IEPort (word (el_data e) 0) (word (el_data e) 2)
     else IEPlain).

(** ** User data as the network sends it, in the three alphabets; [alphabet] is
    bits 3-2 of the data coding scheme.  [s] are the septets of a GSM-7 text. *)
Inductive sent_text : Z -> list Z -> str -> Z -> list Z -> Prop :=
| sent_gsm7 hdr t s v : std_text t s -> septet_stream (fill_bits (len hdr)) s v ->
    sent_text 0 hdr t ((8 * len hdr + fill_bits (len hdr)) / 7 + len s) (hdr ++ v)
| sent_8bit hdr t : octets_ok t -> sent_text 1 hdr t (len hdr + len t) (hdr ++ t)
| sent_ucs2 hdr t : bmp t -> sent_text 2 hdr t (len hdr + 2 * len t) (hdr ++ ucs2_be t).

(** data coding schemes of the general group (bits 7-6 zero) *)
Definition general_dcs (dcs alphabet : Z) : Prop :=
  0 <= dcs < 64 /\ (dcs / 4) mod 4 = alphabet.

(** message type and header flag of the first octet *)
Definition mti (first : Z) : Z := first mod 4.
Definition udhi (first : Z) : bool := Z.odd (first / 64).

(** optional header *)
Definition header_of (first : Z) (es : option (list element)) (hdr : list Z) : Prop :=
  match es with
  | None => udhi first = false /\ hdr = []
  | Some l => udhi first = true /\ header_ok l /\ hdr = header_octets l
  end.

(** ** SMS-DELIVER (9.2.2.1) and SMS-STATUS-REPORT (9.2.2.3), behind the service
    centre address *)
Definition deliver_octets (smsc : list Z) (first : Z) (oa : list Z) (pid dcs : Z) (scts : list Z)
    (udl : Z) (ud : list Z) : list Z :=
  smsc ++ [first] ++ oa ++ [pid; dcs] ++ scts ++ [udl] ++ ud.
Definition status_report_octets (smsc : list Z) (first mr : Z) (ra scts dt : list Z) (status : Z)
    (optional : list Z) : list Z :=
  smsc ++ [first; mr] ++ ra ++ scts ++ dt ++ [status] ++ optional.
Definition timestamp_of (t : datetime) (q : Z) : list Z :=
  ts23040_timestamp (dt_year t) (dt_month t) (dt_day t) (dt_hour t) (dt_minute t) (dt_second t) q.

(** An address the library reads back in full: numeric, or alphanumeric and free
    of the characters it does not know and of the final-'@' exception. *)
Inductive address_read (o : list Z) (a : str) : str -> Prop :=
| read_numeric : type_of_number (nth 1 o 0) <> 5 -> address_read o a a
| read_alpha a' : type_of_number (nth 1 o 0) = 5 -> ~ In 0xA7 a -> ~ In 0x0C a -> gsm7_received 0 a a' ->
    address_read o a a'.

(** What the library reads from the text *)
Inductive text_read (alphabet : Z) (hdr : list Z) (t : str) : str -> Prop :=
| read_gsm7 t' : alphabet = 0 -> (hdr = [] \/ fill_bits (len hdr) <> 0) ->
    gsm7_received (fill_bits (len hdr)) t t' -> text_read alphabet hdr t t'
| read_gsm7_first s u t' : alphabet = 0 -> hdr <> [] -> fill_bits (len hdr) = 0 ->
    (* the header ends on a septet boundary: the first septet is lost, that is the
       first character, or only the escape of a first character with one *)
    std_text t s -> std_text u (tl s) ->
    gsm7_received 7 u t' \/ (u = [] /\ t' = []) -> text_read alphabet hdr t t'
| read_octets : alphabet <> 0 -> text_read alphabet hdr t t.

(** ** Arbitrary input *)
Definition decode_exn (e : exn) : Prop :=
  e = EncodingError \/ e = StopIteration \/ e = ValueError \/ e = IndexError \/ e = TypeError.
Definition hex_digit (c : Z) : Prop := 48 <= c <= 57 \/ 65 <= c <= 70 \/ 97 <= c <= 102.
Definition hex_string (s : str) : Prop := (exists k, length s = (2 * k)%nat) /\ Forall hex_digit s.
(** TP-MTI of a decoded message *)
Definition body_type (b : sms_body) : Z :=
  match b with SmsDeliver _ _ _ _ _ => 0 | SmsSubmit _ _ _ _ _ _ => 1 | SmsStatusReport _ _ _ _ _ => 2 end.

(** [c] is the digit for [x], in either case; [s] is hexadecimal text for [data] *)
Definition hex_of (x c : Z) : Prop := (0 <= x <= 9 /\ c = 48 + x) \/ (10 <= x <= 15 /\ (c = 55 + x \/ c = 87 + x)).
Inductive hex_text : list Z -> str -> Prop :=
| hex_nil : hex_text [] []
| hex_cons b l a c s : 0 <= b < 256 -> hex_of (b / 16) a -> hex_of (b mod 16) c -> hex_text l s -> hex_text (b :: l) (a :: c :: s).

(** ** Information elements as objects: field values in range *)
Definition ie_well_formed (o : ie) : Prop :=
  match ie_special o with
  | IEPlain => 0 <= ie_id o < 256 /\ ie_id o <> 0 /\ ie_id o <> 4 /\ ie_id o <> 5 /\ ie_id o <> 8 /\
      octets_ok (ie_data o) /\ ie_dataLength o = len (ie_data o) /\ len (ie_data o) <= 255
  | IEConcat r p k => 0 <= r < 65536 /\ 0 <= p < 256 /\ 0 <= k < 256
  | IEPort d s => 0 <= d < 65536 /\ 0 <= s < 65536
  end.
Definition ie_same (o o' : ie) : Prop :=
  match ie_special o with
  | IEPlain => o' = o
  | sp => ie_special o' = sp
  end.
