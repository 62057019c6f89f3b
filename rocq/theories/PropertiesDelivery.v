(** From one modem to another: a message sent, carried by the network and received; replies. *)
From Verif Require Import Base DateModel PduModel PduSpec SmsSpec SubmitSpec DeliverSpec FieldProofs AddressProofs ModemCore ModemSpec SmsModel SendSpec SendProofs TrackSpec CoverageSpec StoreSpec
  DecodeTotal PropertiesStore NetworkModel NetworkSpec NetworkProofs.
From Coq Require Import Permutation.

(** C81: every part a successful sendSms transmits is an SMS-SUBMIT to the number
    given, and only to it; when the network has handed it to a modem driven by the same
    library, handling the notification passes one message with the sender's number,
    the network's time and service centre and the part's text, up to the final '@'
    the decoder may drop. *)
Theorem C81_delivered : forall number d ton text fl wt m1 sc1 obj w1 gsm7, phone_number number d ton -> ~ In 27 text -> uses_gsm7 text gsm7 ->
  smsTextMode m1 = false -> sendSms number text fl wt (start m1 sc1) = Done (Ok obj) w1 ->
  exists pdus answer, transmits pdus (trace w1) (Ok answer) /\ len pdus = pdu_count gsm7 text /\
    forall i p, nth_error pdus i = Some p -> (exists w, submit_of (pdu_data p) number w) /\
    forall to from t smsc data stat content, forwards (pdu_data p) to from t smsc data -> stored_as data stat content ->
      to = number /\ exists text', text_received gsm7 (part_fill gsm7 text) (part_of gsm7 i text) text' /\
      reads_as false content (Received stat (Some from) t text' smsc) /\
      forall m2 d2 mem ds line sc2 w2 d2', in_sync m2 d2 -> smsTextMode m2 = false -> indication (lit "+CMTI:") mem ds line ->
        stored d2 mem (dec_value ds) = Some content ->
        handleSmsReceived line (start m2 sc2) = Done (Ok tt) w2 -> plays d2 (trace w2) d2' ->
        passed (trace w2) = [Received stat (Some from) t text' smsc] /\ stored d2' mem (dec_value ds) = None.
Proof. exact end_to_end. Qed.
Print Assumptions C81_delivered.
(** all parts received, in order: together they are the text, if the parts have room
    for it and it has no '@' *)
Theorem C81_whole : forall gsm7 text received, whole gsm7 text -> len received = pdu_count gsm7 text ->
  (forall i t', nth_error received i = Some t' -> text_received gsm7 (part_fill gsm7 text) (part_of gsm7 i text) t') -> List.concat received = text.
Proof. exact reassembled. Qed.
Print Assumptions C81_whole.
(** But nothing says in which order: parts with the same text are handed out as the
    same object, though their PDUs carry their numbers. *)
Theorem C81_order_lost : forall number d ton text fl ref gsm7 pdus i p j p' from t smsc data data' to to' stat content content' s s',
  phone_number number d ton -> ~ In 27 text -> uses_gsm7 text gsm7 ->
  encodeSmsSubmitPdu number text ref VNone None true false fl = Ok pdus ->
  nth_error pdus i = Some p -> nth_error pdus j = Some p' -> part_of gsm7 i text = part_of gsm7 j text ->
  forwards (pdu_data p) to from t smsc data -> forwards (pdu_data p') to' from t smsc data' ->
  stored_as data stat content -> stored_as data' stat content' ->
  handed_as false content s -> handed_as false content' s' -> s = s'.
Proof. exact order_lost. Qed.
Print Assumptions C81_order_lost.
(** No program can put the parts together from the objects it is given: the parts of
    one text in some order, and those of another text in theirs, are the same objects. *)
Theorem C81_no_reassembly : forall number d ton fl fl' ref ref' gsm7 ps order from t smsc stat objs objs',
  let ps' := map (fun i => nth i ps []) order in
  phone_number number d ton -> ~ In 27 (List.concat ps) -> uses_gsm7 (List.concat ps) gsm7 -> uses_gsm7 (List.concat ps') gsm7 ->
  (2 <= length ps)%nat -> Forall (fun p => length p = part_chars gsm7) ps -> Permutation order (seq 0 (length ps)) ->
  Forall2 (fun i s => part_received number (List.concat ps) ref fl i from t smsc stat s) order objs ->
  Forall2 (fun i s => part_received number (List.concat ps') ref' fl' i from t smsc stat s) (seq 0 (length ps)) objs' ->
  objs = objs' /\ (List.concat ps <> List.concat ps' -> forall f : list stored_sms -> str, f objs = List.concat ps -> f objs' <> List.concat ps').
Proof. exact no_reassembly. Qed.
Print Assumptions C81_no_reassembly.

(** C82: a reply to a message from a number is addressed to that number: its parts are
    SMS-SUBMITs to the sender and to nobody else.  The address field has the digits of
    the one received; international numbers stay international, all others (also
    unknown, network-specific and abbreviated ones) are sent as national. *)
Theorem C82_reply : forall from oaf stat t text smsc message m sc obj w, std_address from oaf -> type_of_number (nth 1 oaf 0) <> 5 ->
  smsTextMode m = false -> reply (Received stat (Some from) t text smsc) message (start m sc) = Done (Ok obj) w ->
  exists pdus answer, transmits pdus (trace w) (Ok answer) /\ pdus <> [] /\
    forall i p, nth_error pdus i = Some p -> (exists f, submit_of (pdu_data p) from f) /\
      forall to f, submit_of (pdu_data p) to f -> to = from /\ reply_field oaf (s_dest f).
Proof. exact reply_sent. Qed.
Print Assumptions C82_reply.
(** there and back: a reply, forwarded, is a message of the other's number to the sender *)
Theorem C82_answered : forall from oaf stat t text smsc message m sc obj w gsm7, std_address from oaf -> type_of_number (nth 1 oaf 0) <> 5 ->
  ~ In 27 message -> uses_gsm7 message gsm7 ->
  smsTextMode m = false -> reply (Received stat (Some from) t text smsc) message (start m sc) = Done (Ok obj) w ->
  exists pdus answer, transmits pdus (trace w) (Ok answer) /\ len pdus = pdu_count gsm7 message /\
    forall i p to own t2 smsc2 data stat2 content, nth_error pdus i = Some p -> forwards (pdu_data p) to own t2 smsc2 data -> stored_as data stat2 content ->
      to = from /\ exists message', text_received gsm7 (part_fill gsm7 message) (part_of gsm7 i message) message' /\
      reads_as false content (Received stat2 (Some own) t2 message' smsc2).
Proof. exact reply_answered. Qed.
Print Assumptions C82_answered.
(** A sender that is no number but a text of digits (or + and digits): the reply goes to
    the subscriber with that number. *)
Theorem C82_digits : forall a d ton stat t text smsc message m sc obj w, phone_number a d ton ->
  smsTextMode m = false -> reply (Received stat (Some a) t text smsc) message (start m sc) = Done (Ok obj) w ->
  exists pdus answer, transmits pdus (trace w) (Ok answer) /\
    forall i p to f, nth_error pdus i = Some p -> submit_of (pdu_data p) to f -> to = a /\ type_of_number (nth 1 (s_dest f) 0) = ton.
Proof. exact reply_to_digits. Qed.
Print Assumptions C82_digits.
(** in text mode: the number as it was received, between quotes *)
Theorem C82_text : forall number stat t text smsc message m sc x w, smsTextMode m = true ->
  reply (Received stat (Some number) t text smsc) message (start m sc) = Done x w ->
  exists y, final_answer y x /\
    ((exists e, y = Err e /\ exchange (lit "AT+CMGS=""" ++ number ++ lit """") [13] (trace w) y) \/
     exists a1 e1 e2, trace w = e1 ++ e2 /\ exchange (lit "AT+CMGS=""" ++ number ++ lit """") [13] e1 (Ok a1) /\ exchange message [26] e2 y).
Proof. exact reply_text. Qed.
Print Assumptions C82_text.
(** a message without a number: in PDU mode an error, and nothing is written; in text
    mode a message to "None" *)
Theorem C82_no_number : forall stat t text smsc message m sc,
  (smsTextMode m = false -> exists e, reply (Received stat None t text smsc) message (start m sc) = Done (Err e) (start m sc)) /\
  (smsTextMode m = true -> forall x w, reply (Received stat None t text smsc) message (start m sc) = Done x w ->
     exists e1 e2 y, trace w = e1 ++ e2 /\ exchange (lit "AT+CMGS=""None""") [13] e1 y).
Proof. exact reply_none. Qed.
Print Assumptions C82_no_number.

(** ** Examples *)
Definition result {A} (o : out A) : option (res A) := match o with Done x _ => Some x | Stuck _ => None end.
Definition caller : str := lit "+27821234567".
Definition callee : str := lit "0839999999".
Definition long_text : str := repeat 97 160 ++ lit "{b}".
Definition the_parts : list pdu := match encodeSmsSubmitPdu callee long_text 0 VNone None true false false with Ok l => l | Err _ => [] end.
Definition part (i : nat) : list Z := pdu_data (nth i the_parts (mk_pdu [] 0)).
(** the address has 10 digits, seven octets with its length and type *)
Definition cut (d : list Z) : submit :=
  mk_submit (firstn 1 d) (nth 1 d 0) (nth 2 d 0) (firstn 7 (skipn 3 d)) (nth 10 d 0) (nth 11 d 0) [] (nth 12 d 0) (skipn 13 d).
Definition noon : datetime := mk_datetime 2013 5 1 12 0 0 0 (Some (td_of_minutes 120)).
Definition handed (i : nat) : list Z :=
  let w := cut (part i) in deliver_octets [0] 0x44 (11 :: 0x91 :: semi (tl caller)) (s_pid w) (s_dcs w) (timestamp_of noon 8) (s_udl w) (s_ud w).
Definition received (i : nat) : list str := [lit "+CMGR: 0,,50"; pdu_str (handed i)].
Lemma all_digits (s : str) : forallb (fun c => (48 <=? c) && (c <=? 57)) s = true -> digits_ok s.
Proof. intro H. apply Forall_forall. intros c Hc. rewrite forallb_forall in H. specialize (H c Hc). apply andb_true_iff in H as [A B]. apply Z.leb_le in A, B. auto. Qed.
Lemma callee_phone : phone_number callee callee 2.
Proof. split; [apply all_digits; reflexivity|]. split; [discriminate|auto]. Qed.
Lemma cut_parts : forall i, (i < 2)%nat -> submit_of (part i) callee (cut (part i)).
Proof.
  intros i Hi. assert (i = 0 \/ i = 1)%nat as [->| ->] by lia.
  all: split; [vm_compute; reflexivity|split; [vm_compute; reflexivity|split; [exists None; exact smsc_none|split; [|vm_compute; reflexivity]]]].
  all: match goal with |- std_address _ ?x => replace x with (len callee :: 0xA1 :: semi callee) by (vm_compute; reflexivity) end.
  all: apply addr_plain; [apply all_digits; reflexivity|discriminate|vm_compute; discriminate|unfold in_octet; lia|vm_compute; discriminate|vm_compute; discriminate|].
  all: apply semi_spec, all_digits; reflexivity.
Qed.
Lemma both_forwarded : forall i, (i < 2)%nat -> forwards (part i) callee caller noon None (handed i).
Proof.
  intros i Hi. unfold handed. apply forward with (first := 0x44) (q := 8); [apply cut_parts; auto|constructor|lia|reflexivity| | |vm_compute; discriminate|].
  - assert (i = 0 \/ i = 1)%nat as [->| ->] by lia; vm_compute; reflexivity.
  - change caller with (43 :: tl caller). change 11 with (len (tl caller)). apply addr_international; [apply all_digits; reflexivity|discriminate|vm_compute; discriminate|unfold in_octet; lia|reflexivity|].
    apply semi_spec, all_digits; reflexivity.
  - unfold sms_time, real_date, real_time, noon. cbn. repeat split; try lia. left. discriminate.
Qed.
Lemma both_stored : forall i, (i < 2)%nat -> stored_as (handed i) 0 (received i).
Proof.
  intros i Hi. exists (lit "+CMGR: 0,,50"), (pdu_str (handed i)). split; [reflexivity|]. split.
  - exists (lit "0"), [], [], [], (lit "50"), []. split; [reflexivity|]. split; [repeat constructor|]. split; [auto|]. split; [cbn; tauto|]. split; [auto|].
    split; [apply digits_ex; [discriminate|reflexivity]|]. split; [left; reflexivity|reflexivity].
  - apply pdu_str_hex. apply Forall_forall. intros x Hx.
    assert (forallb (fun x => (0 <=? x) && (x <? 256)) (handed i) = true) as F by (assert (i = 0 \/ i = 1)%nat as [->| ->] by lia; vm_compute; reflexivity).
    rewrite forallb_forall in F. specialize (F x Hx). apply andb_true_iff in F as [A B]. apply Z.leb_le in A. apply Z.ltb_lt in B. auto.
Qed.
(** two parts: sent, forwarded, stored and notified; the callback gets the text *)
Example C81_example : uses_gsm7 long_text true /\ whole true long_text /\
  result (sendSms callee long_text false false (start modem_init [Lines [lit "> "]; Lines [lit "+CMGS: 7"; lit "OK"]; Lines [lit "> "]; Lines [lit "+CMGS: 8"; lit "OK"]])) = Some (Ok 0%nat) /\
  length the_parts = 2%nat /\
  map (fun i => match handleSmsReceived (lit "+CMTI: ""ME"",5") (start modem_init [Lines [lit "OK"]; Lines (received i ++ [lit "OK"]); Lines [lit "OK"]]) with
                | Done _ w => passed (trace w) | Stuck _ => [] end) [0%nat; 1%nat] =
    [[Received 0 (Some caller) noon (firstn 153 long_text) None]; [Received 0 (Some caller) noon (skipn 153 long_text) None]].
Proof.
  split; [|split; [|vm_compute; auto]].
  - left. split; auto. apply Forall_forall. intros c Hc. unfold long_text in Hc. apply in_app_or in Hc as [Hc|Hc].
    + apply repeat_spec in Hc as ->. left. left. split; [vm_compute; tauto|discriminate].
    + cbn in Hc. destruct Hc as [<-|[<-|[<-|[]]]]; [right; split; [exists 0x28; vm_compute; tauto|discriminate]
        |left; left; split; [vm_compute; tauto|discriminate]|right; split; [exists 0x29; vm_compute; tauto|discriminate]].
  - split; [intros _; vm_compute; discriminate|]. intros _ Hc. unfold long_text in Hc. apply in_app_or in Hc as [Hc|Hc]; [apply repeat_spec in Hc; discriminate|].
    cbn in Hc. intuition discriminate.
Qed.
(** two texts, "aa...abb...b" and "bb...baa...a": the parts of the one swapped, and of
    the other *)
Definition full (c : Z) : str := repeat c 153.
Definition object_of_part (text : str) (ref : Z) (i : nat) : list stored_sms :=
  match encodeSmsSubmitPdu callee text ref VNone None true false false with
  | Ok l => let w := cut (pdu_data (nth i l (mk_pdu [] 0))) in
      let d := deliver_octets [0] 0x44 (11 :: 0x91 :: semi (tl caller)) (s_pid w) (s_dcs w) (timestamp_of noon 8) (s_udl w) (s_ud w) in
      match handleSmsReceived (lit "+CMTI: ""ME"",5") (start modem_init [Lines [lit "OK"]; Lines [lit "+CMGR: 0,,50"; pdu_str d; lit "OK"]; Lines [lit "OK"]]) with
      | Done _ w => passed (trace w) | Stuck _ => [] end
  | Err _ => [] end.
Example C81_swapped :
  Forall (fun p => length p = part_chars true) [full 97; full 98] /\ uses_gsm7 (List.concat [full 97; full 98]) true /\ uses_gsm7 (List.concat [full 98; full 97]) true /\
  map (object_of_part (full 97 ++ full 98) 0) [1%nat; 0%nat] = map (object_of_part (full 98 ++ full 97) 7) [0%nat; 1%nat] /\
  map (object_of_part (full 98 ++ full 97) 7) [0%nat; 1%nat] = [[Received 0 (Some caller) noon (full 98) None]; [Received 0 (Some caller) noon (full 97) None]].
Proof.
  split; [repeat constructor|]. split; [|split; [|vm_compute; auto]].
  all: left; split; auto; apply Forall_forall; intros c Hc; unfold full in Hc; cbn [List.concat] in Hc; rewrite app_nil_r in Hc; apply in_app_or in Hc as [Hc|Hc]; apply repeat_spec in Hc as ->.
  all: left; left; split; [vm_compute; tauto|discriminate].
Qed.
(** a service number of unknown type: the reply is sent to a national number *)
Definition unknown_field : list Z := 5 :: 0x81 :: semi (lit "12345").
Definition replied := reply (Received 0 (Some (lit "12345")) noon (lit "Hi") None) (lit "STOP") (start modem_init [Lines [lit "> "]; Lines [lit "+CMGS: 7"; lit "OK"]]).
Example C82_example : std_address (lit "12345") unknown_field /\ type_of_number (nth 1 unknown_field 0) <> 5 /\ result replied = Some (Ok 0%nat) /\
  match replied with Done _ w => flat_map (fun e => match e with EWrite t _ => [t] | _ => [] end) (trace w) | Stuck _ => [] end =
    [lit "AT+CMGS=14" ++ [13]; lit "00210005A12143F500000453EA130A" ++ [26]].
Proof.
  split; [|split; [discriminate|vm_compute; auto]].
  change 5 with (len (lit "12345")). apply addr_plain; [apply all_digits; reflexivity|discriminate|vm_compute; discriminate|unfold in_octet; lia|vm_compute; discriminate|vm_compute; discriminate|].
  apply semi_spec, all_digits; reflexivity.
Qed.
