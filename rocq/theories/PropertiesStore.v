(** The message store: notifications, reading, listing, deleting. *)
From Coq Require Import Permutation.
From Verif Require Import Base DateModel PduModel ModemCore ModemSpec MonadProofs SendSpec TrackSpec CoverageSpec SmsModel StoreSpec StoreProofs ListSpec ListProofs ProcessProofs
  StoreFinal HandlerModel HandlerSpec HandlerProofs.

Definition sample : str := lit "07917283010010F5040BC87238880900F10000993092516195800AE8329BFD4697D9EC37".
Definition sample_sms (stat : Z) : stored_sms := Received stat (Some (lit "27838890001")) (mk_datetime 1999 3 29 15 16 59 0 (Some (td_of_seconds 7200))) (lit "hellohello") (Some (lit "+27381000015")).
Definition sample_lines : list str := [lit "+CMGR: 1,,28"; sample].

(** C46: over any session, the callbacks together with the arrivals explain the store:
    a message passed to the callback was in the indicated cell, is the one that was
    stored there, and is gone afterwards; nothing else changes. *)
Theorem C46_session : forall m d acts m' d', in_sync m d -> session m d acts m' d' ->
  in_sync m' d' /\ replay (smsTextMode m) (stored d) acts (stored d').
Proof. intros m d acts m' d' S H. destruct (session_replay m d acts m' d' S H) as (A & _ & B). exact (conj A B). Qed.
Print Assumptions C46_session.
(** one notification: it hands over the message that is stored there, once; or, when
    a command fails or the message cannot be read, nothing, and the store stays *)
Theorem C46_notification : forall m d mem ds line sc x w d', in_sync m d -> indication (lit "+CMTI:") mem ds line ->
  handleSmsReceived line (start m sc) = Done x w -> plays d (trace w) d' ->
  match x with
  | Ok _ => exists s content evs, trace w = evs ++ [ESms s] /\ passed evs = [] /\ plays d evs d' /\
      stored d mem (dec_value ds) = Some content /\ handed_as (smsTextMode m) content s /\
      forall mem' j, stored d' mem' j = put (stored d) mem (dec_value ds) None mem' j
  | Err _ => passed (trace w) = [] /\ (forall mem' j, stored d' mem' j = stored d mem' j) /\
      (failures (trace w) \/ exists content, stored d mem (dec_value ds) = Some content /\ forall s, ~ reads_as (smsTextMode m) content s)
  end.
Proof. intros m d mem ds line sc x w d' S I H P. exact (proj2 (proj2 (notification m d mem ds line sc x w d' S I H P))). Qed.
Print Assumptions C46_notification.
(** other lines do nothing *)
Theorem C46_other_lines : forall m line sc, (forall mem ds, ~ indication (lit "+CMTI:") mem ds line) ->
  handleSmsReceived line (start m sc) = Done (Ok tt) (start m sc).
Proof. exact no_notification. Qed.
Print Assumptions C46_other_lines.

Lemma digits_ex (s : str) : s <> [] -> forallb is_digit s = true -> digits s.
Proof. intros N F. split; auto. apply Forall_forall. apply forallb_forall. auto. Qed.
Lemma ok_good : good_answer [lit "OK"].
Proof. exists [], (lit "OK"). split; [reflexivity|apply good_ok]. Qed.
Lemma sample_reads : reads_as false sample_lines (sample_sms 1).
Proof.
  destruct (decodeSmsPdu sample) as [d|] eqn:E; [|vm_compute in E; discriminate].
  eapply ra_pdu with (d := d) (stat := 1).
  - exists (lit "1"), [], [], [], (lit "28"), []. split; [reflexivity|]. split; [repeat constructor|]. split; [auto|]. split; [cbn; tauto|]. split; [auto|].
    split; [apply digits_ex; [discriminate|reflexivity]|]. split; [left; reflexivity|reflexivity].
  - exact E.
  - vm_compute in E. injection E as <-. eapply mo_deliver. reflexivity.
Qed.
Definition empty_device : device := mk_device (lit "SM") (fun _ _ => None).
(** a busy reply, a message in ME and then a failing read; the memory is switched *)
Example C46_example : exists m' d', session modem_init empty_device
  [Arrived (lit "ME") 5 sample_lines; Arrived (lit "SM") 5 sample_lines; Passed (lit "ME") 5 (sample_sms 1)] m' d' /\
  stored d' (lit "ME") 5 = None /\ stored d' (lit "SM") 5 = Some sample_lines.
Proof.
  set (d1 := mk_device (lit "SM") (put (stored empty_device) (lit "ME") 5 (Some sample_lines))).
  set (d2 := mk_device (lit "SM") (put (stored d1) (lit "SM") 5 (Some sample_lines))).
  set (d3 := mk_device (lit "ME") (stored d2)). set (d4 := mk_device (lit "ME") (put (stored d3) (lit "ME") 5 None)).
  set (sc := [Lines [lit "+CME ERROR: 14"]; Lines [lit "OK"]; Lines (sample_lines ++ [lit "OK"]); Lines [lit "OK"]]).
  destruct (handleSmsReceived (lit "+CMTI: ""ME"",5") (start modem_init sc)) as [x w|w] eqn:H; [|vm_compute in H; discriminate].
  assert (B : busy_reply 14 (Lines [lit "+CME ERROR: 14"])).
  { split; [right; reflexivity|]. exists [], (lit "+CME ERROR: 14"), 69. split; [reflexivity|]. split; [auto|]. exists (lit "14"), []. split; [reflexivity|].
    split; [apply digits_ex; [discriminate|reflexivity]|]. split; [left; reflexivity|reflexivity]. }
  assert (I : indication (lit "+CMTI:") (lit "ME") (lit "5") (lit "+CMTI: ""ME"",5")).
  { exists [32], []. split; [reflexivity|]. split; [repeat constructor|]. split; [discriminate|]. split; [cbn; intuition discriminate|].
    split; [apply digits_ex; [discriminate|reflexivity]|left; reflexivity]. }
  assert (D5 : digits (lit "5")) by (apply digits_ex; [discriminate|reflexivity]).
  assert (P : plays d2 (trace w) d4 /\ passed (trace w) = [sample_sms 1]).
  { pose proof H as H0. vm_compute in H0. injection H0 as _ <-. cbn [trace]. split; [|reflexivity].
    eapply pl_write; [apply (an_busy d2 _ 14); exact B|]. repeat apply pl_sleep.
    eapply pl_write; [apply (an_select d2 (lit "ME") [lit "OK"]); [cbn; intuition discriminate|apply ok_good]|]. repeat apply pl_sleep.
    eapply pl_write; [apply (an_read d3 (lit "5") sample_lines); [exact D5|reflexivity]|].
    eapply pl_write; [apply (an_delete d3 (lit "5") [lit "OK"]); [exact D5|apply ok_good]|]. repeat apply pl_sleep. apply pl_sms. apply pl_nil. }
  destruct P as [P Ps]. exists (dev w), d4. split; [|split; reflexivity].
  assert (S := se_notify modem_init empty_device _ _ _ _ _ _ _ _ _ _
    (se_arrive modem_init empty_device _ _ _ (lit "SM") 5 sample_lines
      (se_arrive modem_init empty_device _ _ _ (lit "ME") 5 sample_lines (se_nil modem_init empty_device) eq_refl) eq_refl) I H P).
  rewrite Ps in S. exact S.
Qed.

(** C47: any number of notification handlers at the same time, interleaving at every
    attempt at a command and around the shared attribute.  When all messages arrive
    in one memory, the deletions and arrivals explain the store, and every message
    taken out of it is handed to the callback exactly once (or is about to be).
    [attribute]: what the program believes to be selected. *)
Theorem C47_one_memory : forall mode mem attr d acts told s, ~ In 34 mem -> (attr = Some mem -> sel d = mem) ->
  runs mode (mk_system attr d []) acts told s -> Forall (arrives_in mem) acts ->
  replay mode (stored d) acts (stored (modem_device s)) /\ Permutation (taken_out acts) (told ++ in_flight (handlers s)).
Proof. intros mode mem attr d acts told s Q Sy R F. destruct (one_memory mode mem attr d acts told s Q Sy R F) as [_ _ A _ B]. exact (conj A B). Qed.
Print Assumptions C47_one_memory.
(** With two memories this fails, for every pair of memories and all messages in
    them: the handler of the one deletes the unread message of the other, which is
    never handed over, and its own message stays. *)
Theorem C47_two_memories : forall mode mem1 mem2 ds c1 c2 s1 d, mem1 <> mem2 -> mem1 <> [] -> ~ In 34 mem1 -> mem2 <> [] -> ~ In 34 mem2 -> digits ds ->
  reads_as mode c1 s1 -> let i := dec_value ds in stored d mem1 i = None -> stored d mem2 i = None ->
  exists s e, runs mode (mk_system None d []) [Arrived mem1 i c1; Arrived mem2 i c2; Passed mem1 i s1] [s1] s /\
    handlers s = [mk_handler mem1 ds (Delivered s1); mk_handler mem2 ds (Failed e)] /\
    stored (modem_device s) mem1 i = Some c1 /\ stored (modem_device s) mem2 i = None.
Proof. exact two_memories. Qed.
Print Assumptions C47_two_memories.
(** a handler that is left alone does what the method does *)
Theorem C47_handler_is_method : forall m mem ds line sc x w, indication (lit "+CMTI:") mem ds line -> handleSmsReceived line (start m sc) = Done x w ->
  exists p, alone (smsTextMode m) mem ds (memRead m) Compare (asked (trace w)) (passed (trace w)) (memRead (dev w)) p /\ ended p x.
Proof. exact alone_is_method. Qed.
Print Assumptions C47_handler_is_method.
(** the same schedule with the other order of the two messages' memories *)
Example C47_example : exists s e, runs false (mk_system None empty_device [])
    [Arrived (lit "ME") 3 sample_lines; Arrived (lit "SM") 3 sample_lines; Passed (lit "ME") 3 (sample_sms 1)] [sample_sms 1] s /\
  handlers s = [mk_handler (lit "ME") (lit "3") (Delivered (sample_sms 1)); mk_handler (lit "SM") (lit "3") (Failed e)] /\
  stored (modem_device s) (lit "ME") 3 = Some sample_lines /\ stored (modem_device s) (lit "SM") 3 = None.
Proof.
  apply (C47_two_memories false (lit "ME") (lit "SM") (lit "3") sample_lines sample_lines (sample_sms 1) empty_device); try discriminate; try reflexivity.
  - cbn; intuition discriminate.
  - cbn; intuition discriminate.
  - apply digits_ex; [discriminate|reflexivity].
  - apply sample_reads.
Qed.

(** C48: a listing in PDU mode *)
Theorem C48_listing : forall status memory delete w x w', 0 <= status -> smsTextMode (dev w) = false -> listStoredSms status memory delete w = Done x w' ->
  exists evs, trace w' = trace w ++ evs /\
  (((exists e, x = Err e) /\ failures evs) \/
   exists e0 e1 e2 p answer, evs = e0 ++ e1 ++ e2 /\ selected memory (dev w) e0 /\ decimal status p /\
     exchange (lit "AT+CMGL=" ++ p) [13] e1 (Ok answer) /\
     forall es, well_formed answer es -> x = Ok (map snd es) /\ (if delete then cleared status es e2 else e2 = [])).
Proof. exact listing_pdu. Qed.
Print Assumptions C48_listing.
(** the texts put on the wire *)
Definition on_wire (w : world) : list str := flat_map (fun e => match e with EWrite t _ => [t] | _ => [] end) (trace w).
Definition sample_listing : list str := [lit "+CMGL: 4,1,,28"; sample; lit "+CMGL: 12,0,,28"; sample; lit "OK"].
Lemma header_ex line is ss more : line = lit "+CMGL:" ++ [32] ++ is ++ 44 :: [] ++ ss ++ 44 :: more ++ [] -> digits is -> digits ss -> ~ In 10 more ->
  cmgl_header line (dec_value is) (dec_value ss).
Proof.
  intros -> D1 D2 N. exists [32], is, [], ss, more, []. split; [reflexivity|]. split; [repeat constructor|]. split; [auto|]. split; [auto|].
  split; [constructor|]. split; [auto|]. split; [auto|]. split; [auto|left; auto].
Qed.
Lemma sample_message (stat : Z) : exists d, decodeSmsPdu sample = Ok d /\ message_of stat d (sample_sms stat).
Proof. destruct (decodeSmsPdu sample) as [d|] eqn:E; [|vm_compute in E; discriminate]. exists d. split; auto. vm_compute in E. injection E as <-. eapply mo_deliver. reflexivity. Qed.
Lemma no_header_ok : no_cmgl_header (lit "OK").
Proof. intros i st (sp1 & is & sp2 & ss & more & nl & E & _). discriminate E. Qed.
Example C48_example : well_formed sample_listing [(4, sample_sms 1); (12, sample_sms 0)] /\
  (forall delete, exists w', listStoredSms 1 (Some (lit "SM")) delete
      (start modem_init [Lines [lit "OK"]; Lines sample_listing; Lines [lit "OK"]; Lines [lit "OK"]]) = Done (Ok [sample_sms 1; sample_sms 0]) w' /\
    on_wire w' = [lit "AT+CPMS=""SM""" ++ [13]; lit "AT+CMGL=1" ++ [13]] ++ (if delete then [lit "AT+CMGD=4,0" ++ [13]; lit "AT+CMGD=12,0" ++ [13]] else [])).
Proof.
  split.
  - destruct (sample_message 1) as (d & D & M1). destruct (sample_message 0) as (d' & D' & M2). unfold sample_listing.
    apply (wf_entry _ 4 1 _ d _); auto.
    { apply (header_ex _ (lit "4") (lit "1") (lit ",28")); [reflexivity| | |cbn; intuition discriminate]; apply digits_ex; (discriminate || reflexivity). }
    apply (wf_entry _ 12 0 _ d' _); auto.
    { apply (header_ex _ (lit "12") (lit "0") (lit ",28")); [reflexivity| | |cbn; intuition discriminate]; apply digits_ex; (discriminate || reflexivity). }
    apply wf_other; [apply no_header_ok|constructor].
  - intros []; eexists; split; vm_compute; reflexivity.
Qed.

(** C49: an entry whose PDU line cannot be decoded, followed by another one: that
    one's message is returned with the status, and deleted with the index, of the
    first; its own index is not deleted (unless another entry has it) *)
Theorem C49_shifted : forall head1 i1 st1 bad head2 i2 st2 pdu d s rest es status memory delete w x w', 0 <= status -> smsTextMode (dev w) = false ->
  cmgl_header head1 i1 st1 -> undecodable bad -> cmgl_header head2 i2 st2 -> decodeSmsPdu pdu = Ok d -> message_of st1 d s -> well_formed rest es ->
  listStoredSms status memory delete w = Done x w' ->
  exists evs, trace w' = trace w ++ evs /\
  (((exists e, x = Err e) /\ failures evs) \/
   exists e0 e1 e2 p answer, evs = e0 ++ e1 ++ e2 /\ selected memory (dev w) e0 /\ decimal status p /\
     exchange (lit "AT+CMGL=" ++ p) [13] e1 (Ok answer) /\
     (answer = head1 :: bad :: head2 :: pdu :: rest -> x = Ok (s :: map snd es) /\ (if delete then cleared status ((i1, s) :: es) e2 else e2 = []))).
Proof. exact shifted. Qed.
Print Assumptions C49_shifted.
(** message 12 is unread, and returned as read; message 4 is deleted *)
Example C49_example : undecodable (lit "not hexadecimal") /\
  exists w', listStoredSms 1 None true (start modem_init
      [Lines [lit "+CMGL: 4,1,,28"; lit "not hexadecimal"; lit "+CMGL: 12,0,,28"; sample; lit "OK"]; Lines [lit "OK"]]) = Done (Ok [sample_sms 1]) w' /\
    on_wire w' = [lit "AT+CMGL=1" ++ [13]; lit "AT+CMGD=4,0" ++ [13]].
Proof. split; [vm_compute; reflexivity|]. eexists; split; vm_compute; reflexivity. Qed.

(** C50: whenever a message is passed to the callback, it has already been deleted:
    handling a notification, the cell is empty at that moment ... *)
Theorem C50_notification : forall m d mem ds line sc x w d', in_sync m d -> indication (lit "+CMTI:") mem ds line ->
  handleSmsReceived line (start m sc) = Done x w -> plays d (trace w) d' -> forall pre s post, trace w = pre ++ ESms s :: post ->
  post = [] /\ passed pre = [] /\ exists d1 content, plays d pre d1 /\ stored d mem (dec_value ds) = Some content /\ handed_as (smsTextMode m) content s /\
    stored d1 mem (dec_value ds) = None.
Proof. exact crash_notification. Qed.
Print Assumptions C50_notification.
(** ... when handling it never ends, nothing has been passed; *)
Theorem C50_unfinished : forall line m sc w, handleSmsReceived line (start m sc) = Stuck w -> passed (trace w) = [].
Proof. exact received_unfinished. Qed.
Print Assumptions C50_unfinished.
Example C50_unfinished_example : exists w, handleSmsReceived (lit "+CMTI: ""SM"",7") (start modem_init [Lines [lit "OK"]; Lines (sample_lines ++ [lit "OK"])]) = Stuck w /\
  on_wire w = [lit "AT+CPMS=""SM""" ++ [13]; lit "AT+CMGR=7" ++ [13]].
Proof. eexists. split; [vm_compute; reflexivity|]. vm_compute; reflexivity. Qed.
(** ... and in processStoredSms, also when it fails or is stuck later, all messages
    of the listing have been deleted before the first is passed: a crash in between
    loses them *)
Theorem C50_processing : forall unreadOnly m sc pre s post, trace (last_of (processStoredSms unreadOnly (start m sc))) = pre ++ ESms s :: post ->
  handing (smsTextMode m) pre s.
Proof. exact crash_process. Qed.
Print Assumptions C50_processing.
Example C50_example : exists w' before, processStoredSms true (start modem_init [Lines sample_listing; Lines [lit "OK"]; Lines [lit "OK"]]) = Done (Ok tt) w' /\
  trace w' = before ++ [ESms (sample_sms 1); ESms (sample_sms 0)] /\ on_wire w' = [lit "AT+CMGL=0" ++ [13]; lit "AT+CMGD=4,0" ++ [13]; lit "AT+CMGD=12,0" ++ [13]] /\
  passed before = [].
Proof.
  eexists. exists [EWrite (lit "AT+CMGL=0" ++ [13]) (Some (Lines sample_listing)); EWrite (lit "AT+CMGD=4,0" ++ [13]) (Some (Lines [lit "OK"]));
                   EWrite (lit "AT+CMGD=12,0" ++ [13]) (Some (Lines [lit "OK"]))].
  split; [vm_compute; reflexivity|]. repeat split; vm_compute; reflexivity.
Qed.
(** the second deletion fails: both messages are lost to the callback, the first one
    is also lost to the modem *)
Example C50_lost : exists w', processStoredSms true (start modem_init [Lines sample_listing; Lines [lit "OK"]; Lines [lit "ERROR"]]) = Done (Err (CommandError (Some (lit "AT+CMGD=12,0")))) w' /\
  passed (trace w') = [] /\ on_wire w' = [lit "AT+CMGL=0" ++ [13]; lit "AT+CMGD=4,0" ++ [13]; lit "AT+CMGD=12,0" ++ [13]].
Proof. eexists. split; [vm_compute; reflexivity|]. split; vm_compute; reflexivity. Qed.

(** C60: reading gives the message of the cell asked for and changes nothing;
    deleting removes that cell's and no other *)
Theorem C60_read : forall mem ds m sc x w d d', ~ In 34 mem -> digits ds -> in_sync m d -> readStoredSms ds (Some mem) (start m sc) = Done x w -> plays d (trace w) d' ->
  read_spec (smsTextMode m) mem (dec_value ds) d d' (trace w) x.
Proof. exact read_at. Qed.
Print Assumptions C60_read.
Theorem C60_read_selected : forall ds m sc x w d d', digits ds -> readStoredSms ds None (start m sc) = Done x w -> plays d (trace w) d' ->
  read_spec (smsTextMode m) (sel d) (dec_value ds) d d' (trace w) x.
Proof. exact read_current. Qed.
Print Assumptions C60_read_selected.
Theorem C60_delete : forall mem ds m sc x w d d', ~ In 34 mem -> digits ds -> in_sync m d -> deleteStoredSms ds (Some mem) (start m sc) = Done x w -> plays d (trace w) d' ->
  delete_spec mem (dec_value ds) d d' (trace w) x.
Proof. exact delete_at. Qed.
Print Assumptions C60_delete.
Definition two_stored : device := mk_device (lit "SM") (put (put (fun _ _ => None) (lit "ME") 7 (Some sample_lines)) (lit "SM") 7 (Some [lit "other"])).
Example C60_example : in_sync modem_init two_stored /\ exists w d', readStoredSms (lit "7") (Some (lit "ME"))
    (start modem_init [Lines [lit "OK"]; Lines (sample_lines ++ [lit "OK"])]) = Done (Ok (sample_sms 1)) w /\ plays two_stored (trace w) d' /\ sel d' = lit "ME".
Proof.
  split; [discriminate|]. eexists. exists (mk_device (lit "ME") (stored two_stored)). split; [vm_compute; reflexivity|]. split; [|reflexivity]. cbn [trace].
  eapply pl_write; [apply (an_select two_stored (lit "ME") [lit "OK"]); [cbn; intuition discriminate|apply ok_good]|].
  eapply pl_write; [apply (an_read (mk_device (lit "ME") (stored two_stored)) (lit "7") sample_lines); [apply digits_ex; [discriminate|reflexivity]|reflexivity]|]. apply pl_nil.
Qed.

(** selecting the memories: no other memory can be selected for writing; the one for
    reading is selected with one command, if it is not already *)
Theorem C60_memory : forall rd wm w x w', setSmsMemory rd wm w = Done x w' ->
  (wm <> None /\ wm <> memWrite (dev w) /\ x = Err TypeError /\ w' = w) \/
  ((wm = None \/ wm = memWrite (dev w)) /\
   (((rd = None \/ rd = memRead (dev w)) /\ x = Ok tt /\ w' = w) \/
    exists mem evs r, rd = Some mem /\ rd <> memRead (dev w) /\ trace w' = trace w ++ evs /\ exchange (lit "AT+CPMS=" ++ 34 :: mem ++ [34]) [13] evs r /\
      memWrite (dev w') = memWrite (dev w) /\
      match r with Ok _ => x = Ok tt /\ memRead (dev w') = rd | Err e => x = Err e /\ memRead (dev w') = memRead (dev w) end)).
Proof. exact memory_set. Qed.
Print Assumptions C60_memory.
Example C60_example_memory : exists w', setSmsMemory (Some (lit "SM")) None (start modem_init [Lines [lit "OK"]]) = Done (Ok tt) w' /\ memRead (dev w') = Some (lit "SM") /\
  setSmsMemory (Some (lit "SM")) (Some (lit "ME")) w' = Done (Err TypeError) w'.
Proof. eexists. split; [vm_compute; reflexivity|]. split; reflexivity. Qed.

(** C61: a listing in text mode.  A message is what stands between two headers,
    without any "OK" lines; one that has no lines left is left out, and not
    deleted either. *)
Theorem C61_text_listing : forall status memory delete w x w', 0 <= status -> smsTextMode (dev w) = true -> listStoredSms status memory delete w = Done x w' ->
  exists evs, trace w' = trace w ++ evs /\
  (((exists e, x = Err e) /\ failures evs) \/ (x = Err ValueError /\ forall s, ~ status_named s status) \/
   exists e0 e1 e2 name answer, evs = e0 ++ e1 ++ e2 /\ selected memory (dev w) e0 /\ status_named name status /\
     exchange (lit "AT+CMGL=" ++ 34 :: name ++ [34]) [13] e1 (Ok answer) /\
     forall es, taken_text answer es -> x = Ok (map snd es) /\ (if delete then cleared status es e2 else e2 = [])).
Proof. exact listing_text. Qed.
Print Assumptions C61_text_listing.
Definition text_modem : modem := set_smsTextMode true modem_init.
Definition text_time : datetime := mk_datetime 2013 2 3 15 31 49 0 (Some (td_of_seconds 7200)).
(** message 2 has two lines and an "OK" line; message 5 is empty *)
Example C61_example : exists w', listStoredSms 0 None true (start text_modem
      [Lines [lit "+CMGL: 2,""REC UNREAD"",""+27821234567"",,""13/02/03,15:31:49+08"""; lit "one"; lit "OK"; lit "two";
              lit "+CMGL: 5,""REC UNREAD"",""+27821234567"",,""13/02/03,15:31:49+08"""; lit "OK"]; Lines [lit "OK"]; Lines [lit "OK"]])
    = Done (Ok [Received 0 (Some (lit "+27821234567")) text_time (lit "one" ++ [10] ++ lit "two") None]) w' /\
    on_wire w' = [lit "AT+CMGL=""REC UNREAD""" ++ [13]; lit "AT+CMGD=2,0" ++ [13]].
Proof. eexists; split; vm_compute; reflexivity. Qed.
