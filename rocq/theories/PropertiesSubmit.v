(** Properties C13-C21 and C58: address fields and encodeSmsSubmitPdu. *)
From Verif Require Import Base DateModel PduModel PduSpec SmsSpec SubmitSpec AddressProofs SubmitProofs SubmitFinal.

(** C13: phone numbers survive the address field. *)
Theorem C13_phone_number_roundtrip : forall a d ton, phone_number a d ton ->
  (len d <= 255 -> exists v, semi_octets d v /\
     encodeAddressField a false = Ok (len d :: 128 + 16 * ton + 1 :: v) /\
     forall tail, decodeAddressField ((len d :: 128 + 16 * ton + 1 :: v) ++ tail) false
                  = Ok ((Some a, len v + 2), tail)) /\
  (255 < len d -> encodeAddressField a false = Err ValueError) /\
  (len d <= 508 -> exists v, semi_octets d v /\
     encodeAddressField a true = Ok (len v + 1 :: 128 + 16 * ton + 1 :: v) /\
     forall tail, decodeAddressField ((len v + 1 :: 128 + 16 * ton + 1 :: v) ++ tail) true
                  = Ok ((Some a, len v + 2), tail)) /\
  (508 < len d -> encodeAddressField a true = Err ValueError).
Proof. exact phone_final. Qed.
Print Assumptions C13_phone_number_roundtrip.
Example C13_example : phone_number (lit "+27831234567") (lit "27831234567") 1 /\
  encodeAddressField (lit "+27831234567") false = Ok [11; 0x91; 0x72; 0x38; 0x21; 0x43; 0x65; 0xF7].
Proof.
  split; [|reflexivity]. split; [|split; [discriminate|right; split; reflexivity]].
  repeat constructor; compute; discriminate.
Qed.

(** C14: alphanumeric addresses, the length octet they get, and what is read back. *)
Theorem C14_alphanumeric_roundtrip : forall a n sm, alphanumeric a -> Forall encodable a -> text_weight a n ->
  (n <= 145 -> exists s v l, encodeGsm7 a false = Ok s /\ septet_stream 0 s v /\
     encodeAddressField a sm = Ok (l :: 0xD0 :: v) /\
     l = (7 * n + 3) / 4 + (if 4 <=? n mod 8 then 1 else 0) /\
     (~ In 27 a -> exists a', gsm7_received 0 a a' /\ forall tail, octets_ok tail ->
        decodeAddressField ((l :: 0xD0 :: v) ++ tail) sm = Ok ((Some a', len v + 2), tail))) /\
  (145 < n -> encodeAddressField a sm = Err ValueError).
Proof. exact alpha_final. Qed.
Print Assumptions C14_alphanumeric_roundtrip.
Example C14_example : encodeAddressField (lit "Ship") false = Ok [8; 0xD0; 0x53; 0x74; 0x1A; 0x0E] /\
  decodeAddressField [8; 0xD0; 0x53; 0x74; 0x1A; 0x0E; 9] false = Ok ((Some (lit "Ship"), 6), [9]).
Proof. split; reflexivity. Qed.

(** C15: a message that fits one PDU. *)
Theorem C15_single_part_roundtrip : forall number text ref v smsc srr rd fl gsm7 pdus,
  encodeSmsSubmitPdu number text ref v smsc srr rd fl = Ok pdus ->
  uses_gsm7 text gsm7 -> len text <= max_chars gsm7 ->
  ~ In 27 text -> ~ In 27 number -> no_esc smsc -> validity_ok v ->
  exists p smsc' n number' dv text', pdus = [p] /\
    address_received number number' /\ text_received gsm7 0 text text' /\
    smsc_received smsc smsc' /\ validity_received v dv /\
    decodeSmsPdu (pdu_str (pdu_data p)) = Ok (mk_sms smsc' n (SmsSubmit ref (Some number') 0 dv None text')) /\
    decodeSmsPdu_bytes (pdu_data p) = decodeSmsPdu (pdu_str (pdu_data p)).
Proof. exact single_roundtrip. Qed.
Print Assumptions C15_single_part_roundtrip.
Example C15_example :
  match encodeSmsSubmitPdu (lit "+27831234567") (lit "Hi {x}") 7 (VRelative (td_of_hours 1)) None true false false with
  | Ok [p] => decodeSmsPdu (pdu_str (pdu_data p)) =
      Ok (mk_sms None 21 (SmsSubmit 7 (Some (lit "+27831234567")) 0 (DVRelative (td_of_hours 1)) None (lit "Hi {x}")))
  | _ => False
  end.
Proof. vm_compute. reflexivity. Qed.
(** the exception: a final '@' at a multiple of 8 septets is not received *)
Example C15_final_at :
  match encodeSmsSubmitPdu (lit "123") (lit "abcdefg@") 7 VNone None true false false with
  | Ok [p] => decodeSmsPdu_bytes (pdu_data p) =
      Ok (mk_sms None 16 (SmsSubmit 7 (Some (lit "123")) 0 DVNone None (lit "abcdefg")))
  | _ => False
  end.
Proof. vm_compute. reflexivity. Qed.

(** C16: concatenation headers number the parts. *)
Theorem C16_parts_numbered : forall number text ref v smsc srr rd fl gsm7 pdus,
  encodeSmsSubmitPdu number text ref v smsc srr rd fl = Ok pdus ->
  uses_gsm7 text gsm7 -> max_chars gsm7 < len text ->
  forall i p, nth_error pdus i = Some p ->
    exists w, fields number smsc v p w /\
      user_data gsm7 (concat_header ref (len pdus) (Z.of_nat i + 1)) (chunk (part_chars gsm7) i text) (s_udl w) (s_ud w) /\
    (~ In 27 text -> ~ In 27 number -> no_esc smsc -> validity_ok v ->
     exists smsc' n number' dv text',
      address_received number number' /\ text_received gsm7 1 (chunk (part_chars gsm7) i text) text' /\
      smsc_received smsc smsc' /\ validity_received v dv /\
      decodeSmsPdu (pdu_str (pdu_data p)) =
        Ok (mk_sms smsc' n (SmsSubmit ref (Some number') 0 dv
              (Some [concat_element ref (len pdus) (Z.of_nat i + 1)]) text'))).
Proof. exact parts_numbered. Qed.
Print Assumptions C16_parts_numbered.
Example C16_example :
  match encodeSmsSubmitPdu (lit "123") (repeat 120 200) 9 VNone None true false false with
  | Ok [p; q] => decodeSmsPdu_bytes (pdu_data q) =
      Ok (mk_sms None 57 (SmsSubmit 9 (Some (lit "123")) 0 DVNone (Some [concat_element 9 2 2]) (repeat 120 47)))
  | _ => False
  end.
Proof. vm_compute. reflexivity. Qed.

(** C17: how much of a long text is transmitted. *)
Theorem C17_transmitted_text : forall number text ref v smsc srr rd fl gsm7 pdus,
  encodeSmsSubmitPdu number text ref v smsc srr rd fl = Ok pdus ->
  uses_gsm7 text gsm7 -> max_chars gsm7 < len text ->
  ~ In 27 text -> ~ In 27 number -> no_esc smsc -> validity_ok v ->
  let n := len text / max_chars gsm7 + 1 in
  let k := Z.of_nat (part_chars gsm7) in
  len pdus = n /\
  exists sent, Forall2 (fun p t => exists m t', decodeSmsPdu (pdu_str (pdu_data p)) = Ok m /\
                   text_received gsm7 1 t t' /\ text_of m t') pdus sent /\
    List.concat sent = firstn (Z.to_nat (n * k)) text /\
    (List.concat sent = text <-> len text <= n * k).
Proof. exact transmitted. Qed.
Print Assumptions C17_transmitted_text.
Theorem C17_truncated_lengths : forall l (gsm7 : bool), max_chars gsm7 < l ->
  let sent := (l / max_chars gsm7 + 1) * Z.of_nat (part_chars gsm7) in
  (l < (if gsm7 then 307 else 135) -> l <= sent) /\
  (l = (if gsm7 then 307 else 135) -> sent < l) /\
  ((if gsm7 then 3520 else 1610) <= l -> sent < l).
Proof. exact truncation_final. Qed.
Print Assumptions C17_truncated_lengths.
Example C17_example :
  match encodeSmsSubmitPdu (lit "123") (repeat 120 306 ++ [121]) 9 VNone None true false false with
  | Ok pdus => len pdus = 2 /\ max_chars true < len (repeat 120 306 ++ [121])
  | _ => False
  end.
Proof. vm_compute. split; reflexivity. Qed.

(** C18: the 140-octet limit. *)
Theorem C18_user_data_limit : forall number text ref v smsc srr rd fl gsm7 pdus,
  encodeSmsSubmitPdu number text ref v smsc srr rd fl = Ok pdus -> uses_gsm7 text gsm7 ->
  forall i p, nth_error pdus i = Some p ->
    exists w, fields number smsc v p w /\
     (gsm7 = false -> len (s_ud w) <= 140 /\ s_udl w <= 140) /\
     (gsm7 = true -> exists n, text_weight (part_of gsm7 i text) n /\
        (len (s_ud w) <= 140 <-> n <= (if 160 <? len text then 153 else 160)) /\
        (s_udl w <= 160 <-> n <= (if 160 <? len text then 153 else 160))) /\
     (Forall lib_basic text -> len (s_ud w) <= 140 /\ s_udl w <= 160).
Proof. exact octet_limit. Qed.
Print Assumptions C18_user_data_limit.
(** 81 braces are 162 septets: the single PDU has 142 octets of user data *)
Example C18_example :
  match encodeSmsSubmitPdu (lit "12") (repeat 123 81) 9 VNone None true false false with
  | Ok [p] => nth 8 (pdu_data p) 0 = 162 /\ len (pdu_data p) = 9 + 142
  | _ => False
  end.
Proof. vm_compute. split; reflexivity. Qed.

(** C19: the alphabet, and the flash flag. *)
Theorem C19_alphabet_choice : forall number text ref v smsc srr rd fl pdus,
  encodeSmsSubmitPdu number text ref v smsc srr rd fl = Ok pdus ->
  exists gsm7, uses_gsm7 text gsm7 /\
    Forall (fun p => exists w, fields number smsc v p w /\ s_dcs w = data_coding gsm7 fl) pdus.
Proof. exact alphabet_choice. Qed.
Print Assumptions C19_alphabet_choice.
Theorem C19_alphabet_typeerror : forall number text ref v smsc srr rd fl p q,
  text = p ++ 255 :: q -> Forall encodable p -> validity_encodes v -> (forall t, v = VAbsolute t -> py_datetime t) ->
  encodeSmsSubmitPdu number text ref v smsc srr rd fl = Err TypeError.
Proof. exact alphabet_typeerror. Qed.
Print Assumptions C19_alphabet_typeerror.
Theorem C19_flash_only_class : forall number text ref v smsc srr rd,
  match encodeSmsSubmitPdu number text ref v smsc srr rd false with
  | Err e => encodeSmsSubmitPdu number text ref v smsc srr rd true = Err e
  | Ok pdus => exists pdus', encodeSmsSubmitPdu number text ref v smsc srr rd true = Ok pdus' /\
                 Forall2 (flash_pair number smsc v) pdus pdus'
  end.
Proof. exact flash_only. Qed.
Print Assumptions C19_flash_only_class.
(** the division of a PDU into fields is unique *)
Theorem C19_fields_unique : forall number smsc v p w w',
  fields number smsc v p w -> fields number smsc v p w' -> w = w'.
Proof. exact fields_unique. Qed.
Print Assumptions C19_fields_unique.
Example C19_example : encodeSmsSubmitPdu (lit "12") [120; 255] 0 VNone None true false false = Err TypeError /\
  match encodeSmsSubmitPdu (lit "12") [120; 0x4E2D; 255] 0 VNone None true false true with
  | Ok [p] => nth 7 (pdu_data p) 0 = 0x18
  | _ => False
  end.
Proof. vm_compute. split; reflexivity. Qed.

(** C20: the reported TPDU length. *)
Theorem C20_tpdu_length : forall number text ref v smsc srr rd fl pdus,
  encodeSmsSubmitPdu number text ref v smsc srr rd fl = Ok pdus ->
  Forall (fun p => exists w, fields number smsc v p w /\
    pdu_tpduLength p = len (tpdu_octets w) + (len (s_smsc w) - 1)) pdus.
Proof. exact tpdu_length. Qed.
Print Assumptions C20_tpdu_length.
Example C20_example :
  match encodeSmsSubmitPdu (lit "12") (lit "a") 0 VNone None true false false,
        encodeSmsSubmitPdu (lit "12") (lit "a") 0 VNone (Some (lit "+2711")) true false false with
  | Ok [p], Ok [q] => pdu_tpduLength p = 9 /\ pdu_tpduLength q = 12 /\
      skipn 4 (pdu_data q) = skipn 1 (pdu_data p) (* the same nine octets *)
  | _, _ => False
  end.
Proof. vm_compute. repeat split; reflexivity. Qed.

(** C21: the first octet. *)
Theorem C21_first_octet : forall number text ref v smsc srr rd fl gsm7 pdus,
  encodeSmsSubmitPdu number text ref v smsc srr rd fl = Ok pdus -> uses_gsm7 text gsm7 ->
  Forall (fun p => exists w, fields number smsc v p w /\
    s_first w = submit_first rd (vpf_of v) srr (max_chars gsm7 <? len text) /\ s_ref w = ref /\ s_pid w = 0) pdus.
Proof. exact first_octet_flags. Qed.
Print Assumptions C21_first_octet.
Example C21_example :
  match encodeSmsSubmitPdu (lit "12") (lit "a") 3 (VRelative (td_of_hours 2)) None true true false with
  | Ok [p] => firstn 3 (pdu_data p) = [0; 0x35; 3]
  | _ => False
  end.
Proof. vm_compute. reflexivity. Qed.

(** C10: a relative validity period under five minutes (or negative) is refused. *)
Theorem C10_validity_too_short : forall number text ref t smsc srr rd fl pdus, t < 300 * us_per_s ->
  encodeSmsSubmitPdu number text ref VNone smsc srr rd fl = Ok pdus ->
  encodeSmsSubmitPdu number text ref (VRelative t) smsc srr rd fl = Err ValueError.
Proof. exact submit_short. Qed.
Print Assumptions C10_validity_too_short.
Example C10_short_example :
  (exists pdus, encodeSmsSubmitPdu (lit "12") (lit "hi") 0 VNone None true false false = Ok pdus) /\
  encodeSmsSubmitPdu (lit "12") (lit "hi") 0 (VRelative (300 * us_per_s - 1)) None true false false = Err ValueError /\
  encodeSmsSubmitPdu (lit "12") (lit "hi") 0 (VRelative (- us_per_day)) None true false false = Err ValueError.
Proof. split; [eexists|split]; vm_compute; reflexivity. Qed.

(** C58: exactly which calls are accepted. *)
Theorem C58_accepted_calls : forall number text ref v smsc srr rd fl,
  (forall t, v = VAbsolute t -> py_datetime t) ->
  (exists pdus, encodeSmsSubmitPdu number text ref v smsc srr rd fl = Ok pdus) <->
  exists gsm7, uses_gsm7 text gsm7 /\ address_ok number 255 /\ smsc_ok smsc /\ 0 <= ref <= 255 /\
    validity_encodes v /\ (max_chars gsm7 < len text -> pdu_count gsm7 text <= 255) /\
    forall i, (i < Z.to_nat (pdu_count gsm7 text))%nat -> part_ok gsm7 text i.
Proof. exact encode_accepts. Qed.
Print Assumptions C58_accepted_calls.
Example C58_example :
  encodeSmsSubmitPdu (lit "12") [] 0 VNone None true false false = Err StopIteration /\
  encodeSmsSubmitPdu (lit "12") (repeat 120 161) 256 VNone None true false false = Err ValueError /\
  encodeSmsSubmitPdu (lit "12") [0x1F600] 0 VNone None true false false = Err ValueError.
Proof. vm_compute. repeat split; reflexivity. Qed.
