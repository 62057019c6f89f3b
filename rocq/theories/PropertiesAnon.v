(** Property C102: messages without a sender, or without a text. *)
From Verif Require Import Base DateModel UtilModel UtilProofs PduModel PduSpec SmsSpec DeliverSpec ModemCore ModemSpec SendSpec TrackSpec CoverageSpec SmsModel StoreSpec ListSpec AnonSpec AnonProofs AnonFinal.

(** C102: a message whose originating address has no digits.  Its type-of-address octet is taken for
    the protocol identifier, and everything behind it is read one octet early: messages of other years
    than xx01 to xx12, or of the last days of a month, cannot be decoded at all; of the others the time
    is wrong in every field. *)
Theorem C102_no_sender : forall smsc smscf first toa pid dcs t q udl ud, std_smsc smsc smscf -> 0 <= first < 256 -> mti first = 0 -> in_octet toa -> in_octet pid -> in_octet dcs ->
  sms_time t q -> in_octet udl -> octets_ok ud ->
  let data := deliver_octets smscf first (no_address toa) pid dcs (timestamp_of t q) udl ud in
  decodeSmsPdu (pdu_str data) = decodeSmsPdu_bytes data /\
  (~ mistakable t -> decodeSmsPdu_bytes data = Err ValueError) /\
  (forall m, decodeSmsPdu_bytes data = Ok m -> sms_smsc m = smsc /\ exists got udh text, sms_type m = SmsDeliver None toa got udh text /\ one_field_late t got).
Proof. exact no_sender. Qed.
Print Assumptions C102_no_sender.
Definition cet (y mo d h mi s : Z) : datetime := mk_datetime y mo d h mi s 0 (Some (td_of_minutes 60)).
Lemma cet_time y mo d h mi s : 1969 <= y <= 2068 -> valid_fields y mo d h mi s = true -> sms_time (cet y mo d h mi s) 4.
Proof. intros Hy V. apply TimeProofs.valid_fields_spec in V as (_ & D & T). unfold sms_time, cet. cbn. repeat split; try lia; apply D || apply T. Qed.
(** "Hi" without a sender, of 2026-11-16 and of 2010-07-20 *)
Definition anonymous_hi (t : datetime) : list Z := deliver_octets [0] 0 (no_address 0x80) 0 0 (timestamp_of t 4) 2 [0xC8; 0x34].
Example C102_no_sender_example :
  (sms_time (cet 2026 11 16 8 30 0) 4 /\ ~ mistakable (cet 2026 11 16 8 30 0) /\ pdu_str (anonymous_hi (cet 2026 11 16 8 30 0)) = lit "00000080000062116180030040" ++ lit "02C834" /\
   decodeSmsPdu (lit "0000008000006211618003004002C834") = Err ValueError) /\
  (sms_time (cet 2010 7 20 8 30 4) 4 /\ mistakable (cet 2010 7 20 8 30 4) /\
   decodeSmsPdu_bytes (anonymous_hi (cet 2010 7 20 8 30 4)) = Ok (mk_sms None 15 (SmsDeliver None 0x80 (cet 2000 10 7 20 8 30) None [36; 0x394; 83]))).
Proof.
  split; (split; [apply cet_time; [lia|reflexivity]|]).
  - split; [unfold mistakable; cbn; lia|]. split; vm_compute; reflexivity.
  - split; [unfold mistakable; cbn; lia|]. vm_compute; reflexivity.
Qed.
(** the same for a status report whose recipient address has no digits; the status it gives is the time
    zone of the time of delivery *)
Theorem C102_no_recipient : forall smsc smscf first mr toa t1 q1 t2 q2 status optional, std_smsc smsc smscf -> 0 <= first < 256 -> mti first = 2 -> in_octet mr -> in_octet toa ->
  sms_time t1 q1 -> sms_time t2 q2 -> in_octet status -> octets_ok optional ->
  let data := status_report_octets smscf first mr (no_address toa) (timestamp_of t1 q1) (timestamp_of t2 q2) status optional in
  decodeSmsPdu (pdu_str data) = decodeSmsPdu_bytes data /\
  (~ mistakable t1 \/ ~ mistakable t2 -> decodeSmsPdu_bytes data = Err ValueError) /\
  (forall m, decodeSmsPdu_bytes data = Ok m -> sms_smsc m = smsc /\ exists got1 got2 z, sms_type m = SmsStatusReport mr None got1 got2 z /\
     one_field_late t1 got1 /\ one_field_late t2 got2 /\ timestamp_of t2 q2 = firstn 6 (timestamp_of t2 q2) ++ [z]).
Proof. exact no_recipient. Qed.
Print Assumptions C102_no_recipient.
Example C102_no_recipient_example :
  let data y := status_report_octets [0] 2 9 (no_address 0x80) (timestamp_of (cet y 7 20 8 30 4) 4) (timestamp_of (cet y 7 20 8 31 4) 4) 0 [] in
  decodeSmsPdu_bytes (data 2026) = Err ValueError /\ ~ mistakable (cet 2026 7 20 8 30 4) /\
  decodeSmsPdu_bytes (data 2010) = Ok (mk_sms None 19 (SmsStatusReport 9 None (cet 2008 10 7 20 8 30) (cet 2004 10 7 20 8 31) 64)).
Proof. split; [vm_compute; reflexivity|]. split; [unfold mistakable; cbn; lia|]. vm_compute; reflexivity. Qed.

(** a message in the default alphabet without text cannot be decoded, with or without a user data header *)
Theorem C102_no_text : forall smsc smscf first oa oaf pid dcs t q, std_smsc smsc smscf -> 0 <= first < 256 -> mti first = 0 -> std_address oa oaf ->
  (type_of_number (nth 1 oaf 0) = 5 -> ~ In 0xA7 oa /\ ~ In 0x0C oa) -> in_octet pid -> general_dcs dcs 0 -> sms_time t q -> udhi first = false ->
  let data := deliver_octets smscf first oaf pid dcs (timestamp_of t q) 0 [] in
  decodeSmsPdu_bytes data = Err TypeError /\ decodeSmsPdu (pdu_str data) = Err TypeError.
Proof. exact no_text. Qed.
Print Assumptions C102_no_text.
Theorem C102_only_header : forall smsc smscf first oa oaf pid dcs t q es udl, std_smsc smsc smscf -> 0 <= first < 256 -> mti first = 0 -> std_address oa oaf ->
  (type_of_number (nth 1 oaf 0) = 5 -> ~ In 0xA7 oa /\ ~ In 0x0C oa) -> in_octet pid -> general_dcs dcs 0 -> sms_time t q ->
  udhi first = true -> header_ok es -> in_octet udl ->
  let data := deliver_octets smscf first oaf pid dcs (timestamp_of t q) udl (header_octets es) in
  decodeSmsPdu_bytes data = Err StopIteration /\ decodeSmsPdu (pdu_str data) = Err StopIteration.
Proof. exact only_header. Qed.
Print Assumptions C102_only_header.
(** from "12", empty; and with a header (ports 2948 and 9200) but no text.  The same in UCS-2 is decoded. *)
Example C102_no_text_example :
  let data first dcs udl ud := deliver_octets [0] first [2; 0x81; 0x21] 0 dcs (timestamp_of (cet 2026 11 16 8 30 0) 4) udl ud in
  let ports := [mk_element 5 [11; 132; 35; 240]] in
  std_address (lit "12") [2; 0x81; 0x21] /\ header_ok ports /\ udhi 64 = true /\ mti 64 = 0 /\ general_dcs 0 0 /\
  decodeSmsPdu_bytes (data 0 0 0 []) = Err TypeError /\ decodeSmsPdu_bytes (data 64 0 8 (header_octets ports)) = Err StopIteration /\
  decodeSmsPdu_bytes (data 0 8 0 []) = Ok (mk_sms None 14 (SmsDeliver (Some (lit "12")) 0 (cet 2026 11 16 8 30 0) None [])).
Proof.
  split. { apply (addr_plain [49; 50] 0x81 [0x21]); try discriminate; try (unfold in_octet; lia); [apply Forall_cons; [lia|apply Forall_cons; [lia|apply Forall_nil]]|].
    split; [repeat constructor; lia|]. split; [reflexivity|]. intros [|i] Hi; [reflexivity|cbn in Hi; lia]. }
  split. { split; [|vm_compute; discriminate]. apply Forall_cons; [|apply Forall_nil]. unfold element_ok, in_octet. cbn [el_id el_data]. split; [lia|].
    split; [repeat constructor; lia|]. split; [vm_compute; discriminate|]. repeat split; try lia; reflexivity. }
  split; [reflexivity|]. split; [reflexivity|]. split; [split; [lia|reflexivity]|]. repeat split; vm_compute; reflexivity.
Qed.

(** What such a message does to an application: listStoredSms raises the exception when it comes to it,
    and deletes nothing; the messages before and after it are not returned ... *)
Theorem C102_listing : forall status memory delete w x w', 0 <= status -> smsTextMode (dev w) = false -> listStoredSms status memory delete w = Done x w' ->
  exists evs, trace w' = trace w ++ evs /\
  (((exists e, x = Err e) /\ failures evs) \/
   exists e0 e1 e2 p answer, evs = e0 ++ e1 ++ e2 /\ selected memory (dev w) e0 /\ decimal status p /\
     exchange (lit "AT+CMGL=" ++ p) [13] e1 (Ok answer) /\ forall e, breaks_off answer e -> x = Err e /\ e2 = []).
Proof. exact listing_breaks. Qed.
Print Assumptions C102_listing.
(** ... so that processStoredSms hands over nothing, and the message is still there at the next attempt ... *)
Theorem C102_processing : forall unreadOnly w x w', smsTextMode (dev w) = false -> processStoredSms unreadOnly w = Done x w' ->
  exists evs, trace w' = trace w ++ evs /\
  (((exists e, x = Err e) /\ failures evs) \/
   exists e1 e2 answer, evs = e1 ++ e2 /\ exchange (lit "AT+CMGL=" ++ (if unreadOnly then lit "0" else lit "1")) [13] e1 (Ok answer) /\
     forall e, breaks_off answer e -> x = Err e /\ e2 = []).
Proof. exact process_breaks. Qed.
Print Assumptions C102_processing.
(** ... and its notification is not handed over either *)
Theorem C102_notification : forall mem ds line w x w', indication (lit "+CMTI:") mem ds line -> smsTextMode (dev w) = false -> handleSmsReceived line w = Done x w' ->
  exists evs, trace w' = trace w ++ evs /\
  (((exists e, x = Err e) /\ failures evs) \/
   exists e0 e1 e2 answer, evs = e0 ++ e1 ++ e2 /\ selected (Some mem) (dev w) e0 /\ exchange (lit "AT+CMGR=" ++ ds) [13] e1 (Ok answer) /\
     forall head stat bad more e, answer = head :: bad :: more -> pdu_header head stat -> decodeSmsPdu bad = Err e -> x = Err e /\ e2 = []).
Proof. exact received_breaks. Qed.
Print Assumptions C102_notification.
(** a good message, the one of 2026 above, and another good one *)
Definition sample : str := lit "07917283010010F5040BC87238880900F10000993092516195800AE8329BFD4697D9EC37".
Definition nameless : str := lit "0000008000006211618003004002C834".
Definition clogged : list str := [lit "+CMGL: 4,1,,28"; sample; lit "+CMGL: 7,1,,15"; nameless; lit "+CMGL: 12,1,,28"; sample; lit "OK"].
Definition commands (w : world) : list str := flat_map (fun e => match e with EWrite t _ => [t] | _ => [] end) (trace w).
Lemma entry_header i ss more line : line = lit "+CMGL: " ++ i ++ 44 :: ss ++ 44 :: more -> digits i -> digits ss -> ~ In 10 more -> cmgl_header line (dec_value i) (dec_value ss).
Proof.
  intros -> D1 D2 N. exists [32], i, [], ss, more, []. rewrite app_nil_r. split; [reflexivity|]. split; [repeat constructor|]. split; auto. split; auto. split; [constructor|]. split; auto.
  split; auto. split; auto. left; auto.
Qed.
Lemma digits_ex s : s <> [] -> forallb is_digit s = true -> digits s.
Proof. intros N F. split; auto. apply Forall_forall. rewrite forallb_forall in F. auto. Qed.
Example C102_example : breaks_off clogged ValueError /\
  (exists w, listStoredSms 1 None true (start modem_init [Lines clogged; Lines [lit "OK"]; Lines [lit "OK"]]) = Done (Err ValueError) w /\ commands w = [lit "AT+CMGL=1" ++ [13]]) /\
  (exists w, processStoredSms false (start modem_init [Lines clogged; Lines [lit "OK"]; Lines [lit "OK"]]) = Done (Err ValueError) w /\ commands w = [lit "AT+CMGL=1" ++ [13]]) /\
  (exists w, handleSmsReceived (lit "+CMTI: ""SM"",7") (start modem_init [Lines [lit "OK"]; Lines [lit "+CMGR: 0,,15"; nameless; lit "OK"]; Lines [lit "OK"]]) = Done (Err ValueError) w /\
     commands w = [lit "AT+CPMS=""SM""" ++ [13]; lit "AT+CMGR=7" ++ [13]]).
Proof.
  split.
  { destruct (decodeSmsPdu sample) as [d|] eqn:E; [|vm_compute in E; discriminate].
    assert (W : exists s, message_of 1 d s) by (vm_compute in E; injection E as <-; eexists; eapply mo_deliver; reflexivity). destruct W as (s & Ms).
    apply (bo_entry [lit "+CMGL: 4,1,,28"; sample] [(4, s)] (lit "+CMGL: 7,1,,15") 7 1 nameless ValueError [lit "+CMGL: 12,1,,28"; sample; lit "OK"]).
    - apply (wf_entry _ 4 1 _ d); auto; [|constructor]. apply (entry_header (lit "4") (lit "1") (lit ",28")); [reflexivity| | |cbn; intuition discriminate]; apply digits_ex; (discriminate || reflexivity).
    - apply (entry_header (lit "7") (lit "1") (lit ",15")); [reflexivity| | |cbn; intuition discriminate]; apply digits_ex; (discriminate || reflexivity).
    - vm_compute. reflexivity.
    - discriminate. }
  repeat split; eexists; split; vm_compute; reflexivity.
Qed.
