(** Properties C22-C27: decodeSmsPdu. *)
From Verif Require Import Base DateModel PduModel PduSpec SmsSpec DeliverSpec DecodeProofs DecodeTotal.

(** C22: arbitrary input. *)
Theorem C22_exceptions : forall s,
  (forall e, decodeSmsPdu s = Err e -> decode_exn e) /\
  (~ hex_string s -> decodeSmsPdu s = Err EncodingError).
Proof. exact decode_total. Qed.
Print Assumptions C22_exceptions.
Theorem C22_exceptions_bytes : forall data e, decodeSmsPdu_bytes data = Err e -> decode_exn e.
Proof. exact decode_bytes_total. Qed.
Print Assumptions C22_exceptions_bytes.
Theorem C22_message_type : forall smsc smscf first rest, std_smsc smsc smscf -> 0 <= first < 256 ->
  match decodeSmsPdu_bytes (smscf ++ first :: rest) with
  | Ok m => sms_smsc m = smsc /\ sms_tpdu_length m = len (first :: rest) /\ body_type (sms_type m) = mti first
  | Err e => mti first = 3 -> e = EncodingError
  end /\ (mti first = 3 -> exists e, decodeSmsPdu_bytes (smscf ++ first :: rest) = Err e).
Proof. exact decode_type. Qed.
Print Assumptions C22_message_type.
(** each of the five exceptions does occur *)
Example C22_example :
  decodeSmsPdu (lit "0G") = Err EncodingError /\ decodeSmsPdu [] = Err StopIteration /\
  decodeSmsPdu_bytes [0; 0; 1; 0x81; 0xF1; 0; 0; 0x21; 0x20; 0x03; 0; 0; 0; 0; 0] = Err ValueError /\
  decodeSmsPdu_bytes ([0; 0x40; 1; 0x81; 0xF1; 0; 0] ++ [0x21; 0x20; 0x10; 0; 0; 0; 0] ++ [4; 3; 8; 1; 7]) = Err IndexError /\
  decodeSmsPdu_bytes ([0; 0; 1; 0x81; 0xF1; 0; 0] ++ [0x21; 0x20; 0x10; 0; 0; 0; 0] ++ [0]) = Err TypeError.
Proof. vm_compute. repeat split; reflexivity. Qed.

(** C23: SMS-DELIVER. *)
Theorem C23_deliver : forall smsc smscf first oa oaf pid dcs alphabet t q es hdr text udl ud,
  std_smsc smsc smscf -> 0 <= first < 256 -> mti first = 0 -> std_address oa oaf ->
  (type_of_number (nth 1 oaf 0) = 5 -> ~ In 0xA7 oa /\ ~ In 0x0C oa) ->
  in_octet pid -> general_dcs dcs alphabet -> sms_time t q -> header_of first es hdr ->
  sent_text alphabet hdr text udl ud -> udl <= 255 ->
  (alphabet = 0 -> text <> [] /\ ~ In 0xA7 text /\ ~ In 0x0C text) ->
  exists oa' udh text', address_read oaf oa oa' /\ text_read alphabet hdr text text' /\
    match es, udh with None, None => True | Some l, Some os => Forall2 element_object l os | _, _ => False end /\
    let data := deliver_octets smscf first oaf pid dcs (timestamp_of t q) udl ud in
    decodeSmsPdu_bytes data = Ok (mk_sms smsc (len data - len smscf) (SmsDeliver (Some oa') pid t udh text')) /\
    decodeSmsPdu (pdu_str data) = decodeSmsPdu_bytes data.
Proof. exact deliver_final. Qed.
Print Assumptions C23_deliver.
Example C23_example :
  decodeSmsPdu (lit "07917238010010F5040BC87238880900F10000993092516195800AE8329BFD4697D9EC37") =
  Ok (mk_sms (Some (lit "+27831000015")) 28 (SmsDeliver (Some (lit "27838890001")) 0
        (mk_datetime 1999 3 29 15 16 59 0 (Some (td_of_minutes 120))) None (lit "hellohello"))).
Proof. vm_compute. reflexivity. Qed.

(** C24: a header that ends on a septet boundary costs the first septet. *)
Theorem C24_first_character_lost : forall alphabet hdr t t', alphabet = 0 -> hdr <> [] ->
  fill_bits (len hdr) = 0 -> t <> [] -> ~ In 0xA7 t -> ~ In 0x0C t -> text_read alphabet hdr t t' -> t' <> t.
Proof. exact first_lost. Qed.
Print Assumptions C24_first_character_lost.
Theorem C24_text_after_header : forall first es hdr alphabet t udl ud, header_of first es hdr ->
  sent_text alphabet hdr t udl ud ->
  (alphabet = 0 -> t <> [] /\ ~ In 0xA7 t /\ ~ In 0x0C t) ->
  exists udh t', decodeUserData ud udl alphabet (udhi first) = Ok (udh, t') /\
    match es, udh with None, None => True | Some l, Some os => Forall2 element_object l os | _, _ => False end /\
    text_read alphabet hdr t t'.
Proof. exact decode_user_data. Qed.
Print Assumptions C24_text_after_header.
(** "hello" after the 7-octet header of a 16-bit-reference concatenation: "ello";
    and a euro sign there becomes an 'e' *)
Example C24_example :
  decodeUserData ([6; 8; 4; 1; 2; 3; 1] ++ [0xE8; 0x32; 0x9B; 0xFD; 0x06]) 13 0 true =
    Ok (Some [mk_ie 8 4 [1; 2; 3; 1] (IEConcat 258 3 1)], lit "ello") /\
  decodeUserData ([6; 8; 4; 1; 2; 3; 1] ++ [0x9B; 0x32; 0x1A]) 11 0 true =
    Ok (Some [mk_ie 8 4 [1; 2; 3; 1] (IEConcat 258 3 1)], lit "eh").
Proof. vm_compute. split; reflexivity. Qed.

(** C25: SMS-STATUS-REPORT. *)
Theorem C25_status_report : forall smsc smscf first mr ra raf t1 q1 t2 q2 status optional,
  std_smsc smsc smscf -> 0 <= first < 256 -> mti first = 2 -> in_octet mr -> std_address ra raf ->
  (type_of_number (nth 1 raf 0) = 5 -> ~ In 0xA7 ra /\ ~ In 0x0C ra) ->
  sms_time t1 q1 -> sms_time t2 q2 -> in_octet status -> octets_ok optional ->
  exists ra', address_read raf ra ra' /\
    let data := status_report_octets smscf first mr raf (timestamp_of t1 q1) (timestamp_of t2 q2) status optional in
    decodeSmsPdu_bytes data = Ok (mk_sms smsc (len data - len smscf) (SmsStatusReport mr (Some ra') t1 t2 status)) /\
    decodeSmsPdu (pdu_str data) = decodeSmsPdu_bytes data.
Proof. exact status_report_final. Qed.
Print Assumptions C25_status_report.
Example C25_example :
  decodeSmsPdu (lit "0006D60B911326880736F4111011719551401110117195714000") =
  Ok (mk_sms None 25 (SmsStatusReport 214 (Some (lit "+31628870634"))
        (mk_datetime 2011 1 11 17 59 15 0 (Some (td_of_minutes 60)))
        (mk_datetime 2011 1 11 17 59 17 0 (Some (td_of_minutes 60))) 0)).
Proof. vm_compute. reflexivity. Qed.

(** C26: information elements. *)
Theorem C26_element_roundtrip : forall o rest, ie_well_formed o ->
  exists w, ie_encode o = Ok w /\ octets_ok w /\
    exists o', ie_decode (w ++ rest) = Ok (o', rest) /\ ie_same o o' /\ ie_len o' = len w.
Proof. exact ie_roundtrip. Qed.
Print Assumptions C26_element_roundtrip.
Example C26_example : ie_encode (mk_ie 0 0 [] (IEConcat 0x1234 5 2)) = Ok [8; 4; 0x12; 0x34; 5; 2] /\
  ie_encode (mk_ie 4 0 [] (IEPort 9200 80)) = Ok [5; 4; 0x23; 0xF0; 0; 80] /\
  ie_decode [8; 4; 0x12; 0x34; 5; 2; 99] = Ok (mk_ie 8 4 [0x12; 0x34; 5; 2] (IEConcat 0x1234 5 2), [99]).
Proof. vm_compute. repeat split; reflexivity. Qed.

(** C27: hexadecimal text. *)
Theorem C27_hex_text : forall data, octets_ok data ->
  hex_text data (pdu_str data) /\ Forall (fun c => 48 <= c <= 57 \/ 65 <= c <= 70) (pdu_str data) /\
  len (pdu_str data) = 2 * len data /\
  forall s, hex_text data s -> decodeSmsPdu s = decodeSmsPdu_bytes data.
Proof. exact hex_final. Qed.
Print Assumptions C27_hex_text.
Example C27_example : pdu_str [0x0F; 0xA0] = lit "0FA0" /\ hex_text [0x0F; 0xA0] (lit "0fa0").
Proof.
  split; [reflexivity|].
  assert (L : forall x c, 0 <= x <= 9 -> c = 48 + x -> hex_of x c) by (left; auto).
  assert (R : forall x c, 10 <= x <= 15 -> c = 87 + x -> hex_of x c) by (right; auto).
  apply hex_cons; [lia|apply L; [compute; split; discriminate|reflexivity]|apply R; [compute; split; discriminate|reflexivity]|].
  apply hex_cons; [lia|apply R; [compute; split; discriminate|reflexivity]|apply L; [compute; split; discriminate|reflexivity]|apply hex_nil].
Qed.
