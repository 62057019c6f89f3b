(** Theorems about timestamps of any octets. *)
From Verif Require Import Base DateModel PduModel PduSpec SmsSpec DeliverSpec TimeProofs StampSpec StampProofs StampFinal.

(** C103: exactly what the octets of a timestamp field are read as. *)
Theorem C103_exact : forall it t rest, octets_ok it -> (decodeTimestamp it = Ok (t, rest) <-> exists ds, semis 7 it ds rest /\ stamp_read ds t).
Proof. exact stamp_exact. Qed.
Print Assumptions C103_exact.
(** seven octets without a filler: the timestamp of the standard, and every other error *)
Theorem C103_whole : forall os rest t, length os = 7%nat -> octets_ok (os ++ rest) -> Forall (fun o => o / 16 <> 15) os -> (decodeTimestamp (os ++ rest) = Ok (t, rest) <->
  exists q a b, sms_time t q /\ os = firstn 6 (ts23040_timestamp (dt_year t) (dt_month t) (dt_day t) (dt_hour t) (dt_minute t) (dt_second t) q) ++ [a + 16 * b] /\ zone_read a b q).
Proof. exact stamp_whole. Qed.
Print Assumptions C103_whole.
(** without its last octet every timestamp is read as another one *)
Theorem C103_missing_zone : forall t q, sms_time t q -> exists t', decodeTimestamp (firstn 6 (ts23040_timestamp (dt_year t) (dt_month t) (dt_day t) (dt_hour t) (dt_minute t) (dt_second t) q)) = Ok (t', []) /\
  same_hour t t' (dt_minute t / 10) (dt_minute t mod 10) (dt_second t).
Proof. exact stamp_short. Qed.
Print Assumptions C103_missing_zone.
(** with a filler for the units of the zone too, unless the tens are no digit *)
Theorem C103_filled_zone : forall t q z rest, sms_time t q -> 0 <= z <= 15 -> octets_ok rest ->
  (z <= 9 -> exists t' q', zone_read (dt_second t mod 10) z q' /\ same_hour t t' (dt_minute t) (dt_second t / 10) q' /\
     decodeTimestamp (firstn 6 (ts23040_timestamp (dt_year t) (dt_month t) (dt_day t) (dt_hour t) (dt_minute t) (dt_second t) q) ++ z + 240 :: rest) = Ok (t', rest)) /\
  (9 < z -> decodeTimestamp (firstn 6 (ts23040_timestamp (dt_year t) (dt_month t) (dt_day t) (dt_hour t) (dt_minute t) (dt_second t) q) ++ z + 240 :: rest) = Err ValueError).
Proof. exact stamp_filled. Qed.
Print Assumptions C103_filled_zone.
(** so a message with such a zone is received with a wrong time and nothing else wrong *)
Theorem C103_message : forall smsc smscf first oa oaf pid dcs alphabet t q z es hdr text udl ud,
  std_smsc smsc smscf -> 0 <= first < 256 -> mti first = 0 -> std_address oa oaf ->
  (type_of_number (nth 1 oaf 0) = 5 -> ~ In 0xA7 oa /\ ~ In 0x0C oa) ->
  in_octet pid -> general_dcs dcs alphabet -> sms_time t q -> 0 <= z <= 9 -> header_of first es hdr ->
  sent_text alphabet hdr text udl ud -> udl <= 255 ->
  (alphabet = 0 -> text <> [] /\ ~ In 0xA7 text /\ ~ In 0x0C text) ->
  exists oa' udh text' t' q', address_read oaf oa oa' /\ text_read alphabet hdr text text' /\
    match es, udh with None, None => True | Some l, Some os => Forall2 element_object l os | _, _ => False end /\
    zone_read (dt_second t mod 10) z q' /\ same_hour t t' (dt_minute t) (dt_second t / 10) q' /\
    let data := deliver_octets smscf first oaf pid dcs (firstn 6 (timestamp_of t q) ++ [z + 240]) udl ud in
    decodeSmsPdu (pdu_str data) = Ok (mk_sms smsc (len data - len smscf) (SmsDeliver (Some oa') pid t' udh text')).
Proof. exact deliver_filled. Qed.
Print Assumptions C103_message.
(** 29 March 1999, 15:16:59 +2:00: without its zone octet, 15:01:06 and the zone +14:45;
    with F0 for it, 15:16:05 and -2:30; and the message of C23_example with F0 *)
Example C103_example :
  let t := mk_datetime 1999 3 29 15 16 59 0 (Some (td_of_minutes 120)) in
  sms_time t 8 /\ decodeTimestamp [0x99; 0x30; 0x92; 0x51; 0x61; 0x95; 0x80] = Ok (t, []) /\
  decodeTimestamp [0x99; 0x30; 0x92; 0x51; 0x61; 0x95] = Ok (mk_datetime 1999 3 29 15 1 6 0 (Some (td_of_minutes 885)), []) /\
  decodeTimestamp [0x99; 0x30; 0x92; 0x51; 0x61; 0x95; 0xF0] = Ok (mk_datetime 1999 3 29 15 16 5 0 (Some (td_of_minutes (-150))), []) /\
  decodeSmsPdu (lit "07917238010010F5040BC87238880900F10000993092516195F00AE8329BFD4697D9EC37") =
  Ok (mk_sms (Some (lit "+27831000015")) 28 (SmsDeliver (Some (lit "27838890001")) 0
        (mk_datetime 1999 3 29 15 16 5 0 (Some (td_of_minutes (-150)))) None (lit "hellohello"))).
Proof.
  cbv zeta. split; [|vm_compute; auto]. unfold sms_time, real_date, real_time, leap_year; cbn [dt_year dt_month dt_day dt_hour dt_minute dt_second dt_us dt_utcoff]. repeat split; try lia; try reflexivity. left. vm_compute. discriminate.
Qed.
