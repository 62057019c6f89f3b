(** Properties C41-C45: commands, sending SMS, delivery status (modem.py). *)
From Verif Require Import Base PduModel DeliverSpec ModemCore ModemSpec SmsModel SendSpec TrackSpec ModemFinal.

(** C41: a response that is returned ends in a line that is no error. *)
Theorem C41_never_error : forall data term w ls w', write_with data term true w = Done (Ok ls) w' ->
  exists before line, ls = before ++ [line] /\ good_line line.
Proof. exact never_error. Qed.
Print Assumptions C41_never_error.
(** what each reply that is not "busy" leads to, and that it leads to nothing else *)
Theorem C41_outcome : forall data term r rest m tr x, not_busy r ->
  outcome data r x <-> exists w', write_with data term true (mk_world m (r :: rest) tr) = Done x w'.
Proof. exact judged. Qed.
Print Assumptions C41_outcome.
Theorem C41_one_outcome : forall data r x y, outcome data r x -> outcome data r y -> x = y.
Proof. exact outcome_fun. Qed.
Print Assumptions C41_one_outcome.
(** with parseError=False no reply becomes an error *)
Theorem C41_unparsed : forall data term w x w', write_with data term false w = Done x w' -> exists r rest, script w = r :: rest /\
  match x with
  | Ok ls => r = Lines ls /\ ls <> []
  | Err e => (r = Lines [] /\ e = IndexError) \/ (exists ls d, r = NoReply ls /\ e = TimeoutException d)
  end.
Proof. exact unparsed. Qed.
Print Assumptions C41_unparsed.
Definition result {A} (o : out A) : option (res A) := match o with Done x _ => Some x | Stuck _ => None end.
Example C41_example :
  map (fun l => result (write (lit "ATX") (start modem_init [Lines [lit "a"; l]])))
    [lit "OK"; lit "+CME ERROR: 11"; lit "+CME ERROR: 012"; lit "+CMS ERROR: 330"; lit "+CMS ERROR: 11"; lit "my ERROR"; lit "COMMAND NOT SUPPORT"; lit "+CME ERROR: 14"]
  = [Some (Ok [lit "a"; lit "OK"]); Some (Err (PinRequiredError (lit "ATX") 11)); Some (Err (PukRequiredError (lit "ATX") 12));
     Some (Err (SmscNumberUnknownError (lit "ATX") 330)); Some (Err (CmsError (lit "ATX") 11)); Some (Err (CommandError (Some (lit "ATX"))));
     Some (Err (CommandError (Some (lit "ATX(COMMAND NOT SUPPORT)")))); None].
Proof. reflexivity. Qed.
Example C41_unparsed_example : result (write_noparse (lit "AT+CREG?") (start modem_init [Lines [lit "ERROR"]])) = Some (Ok [lit "ERROR"]).
Proof. reflexivity. Qed.

(** C42: any number of busy replies. *)
Theorem C42_retried : forall data term busy codes last rest m tr x, all_busy busy codes -> not_busy last -> outcome data last x ->
  exists w', write_with data term true (mk_world m (busy ++ last :: rest) tr) = Done x w' /\
    script w' = rest /\ trace w' = tr ++ attempts (data ++ term) (writeWait m) busy last /\
    writes_of (attempts (data ++ term) (writeWait m) busy last) = repeat (data ++ term) (S (length busy)) /\
    writeWait (dev w') = match codes, x with
      | [], _ => writeWait m
      | c :: _, Ok _ => if c =? 515 then 1 else 0
      | _, Err _ => writeWait m + 2 * Z.of_nat (length busy)
      end /\ dev w' = set_writeWait (writeWait (dev w')) m.
Proof. exact retried. Qed.
Print Assumptions C42_retried.
(** a modem that stays busy is asked for ever *)
Theorem C42_busy_forever : forall data term busy codes m tr, all_busy busy codes ->
  exists w', write_with data term true (mk_world m busy tr) = Stuck w' /\ script w' = [].
Proof. exact busy_forever. Qed.
Print Assumptions C42_busy_forever.
Example C42_example : write (lit "AT") (start modem_init [Lines [lit "+CME ERROR: 14"]; Lines [lit "+CMS ERROR: 515"]; Lines [lit "OK"]]) =
  Done (Ok [lit "OK"]) (mk_world modem_init []
    [EWrite [65; 84; 13] (Some (Lines [lit "+CME ERROR: 14"])); ESleep 2; EWrite [65; 84; 13] (Some (Lines [lit "+CMS ERROR: 515"])); ESleep 2; ESleep 4;
     EWrite [65; 84; 13] (Some (Lines [lit "OK"])); ESleep 4]).
Proof. reflexivity. Qed.
Example C42_failed_retry : match write (lit "AT") (start modem_init [Lines [lit "+CME ERROR: 14"]; Lines [lit "ERROR"]]) with
  | Done (Err _) w => writeWait (dev w) = 2 | _ => False end.
Proof. reflexivity. Qed.

(** C43: the reference of the next message is an octet: one more than the last
    reference that the modem gave, 0 after 255 or more. *)
Theorem C43_counter : forall refs m, sends modem_init refs m ->
  0 <= smsRef m <= 255 /\ smsRef m = match rev refs with [] => 0 | n :: _ => if n <? 255 then n + 1 else 0 end.
Proof. exact counter. Qed.
Print Assumptions C43_counter.
Definition answer (n : string) : list reply := [Lines [lit "> "]; Lines [lit "+CMGS: " ++ lit n; lit "OK"]].
Definition after {A} (o : out A) : modem := state_after o.
Definition hello : modem -> string -> out nat := fun m n => sendSms (lit "+27821234567") (lit "Hi") false false (start m (answer n)).
Definition m1 := Eval vm_compute in after (hello modem_init "254").
Definition m2 := Eval vm_compute in after (hello m1 "255").
Example C43_example : sends modem_init [254; 255] m2 /\ smsRef m1 = 255 /\ smsRef m2 = 0.
Proof.
  assert (Q : forall n, ~ In 45 (lit n) -> quiet_minus (answer n)).
  { intros n N ls l [[= <-]|[[= <-]|[]]] I S.
    - destruct I as [<-|[]]. destruct S as [r S]. discriminate.
    - destruct I as [<-|[<-|[]]]; [|destruct S as [r S]; discriminate]. intro X. apply N. cbn in X. repeat (destruct X as [X|X]; [discriminate X|]). exact X. }
  split; [|split; reflexivity].
  eapply (sends_ok modem_init [254] m1 (lit "+27821234567") (lit "Hi") false false (answer "255") 1%nat (mk_world m2 _ _) (mk_sent _ _ 255 None)).
  - eapply (sends_ok modem_init [] modem_init (lit "+27821234567") (lit "Hi") false false (answer "254") 0%nat (mk_world m1 _ _) (mk_sent _ _ 254 None)); [constructor|apply Q; cbn; intuition discriminate| |].
    + vm_compute. reflexivity.
    + reflexivity.
  - apply Q; cbn; intuition discriminate.
  - vm_compute. reflexivity.
  - reflexivity.
Qed.

(** C44: in PDU mode every part is announced and transmitted, in order, until the
    first error; the call succeeds only after all of them, when the last answer
    contains a reference. *)
Theorem C44_parts : forall destination text fl wt w pdus, smsTextMode (dev w) = false ->
  encodeSmsSubmitPdu destination text (smsRef (dev w)) VNone None true false fl = Ok pdus ->
  match sendSms destination text fl wt w with
  | Done x w' => exists evs y, trace w' = trace w ++ evs /\ transmits pdus evs y /\ final_answer y x
  | Stuck w' => exists evs, trace w' = trace w ++ evs /\ transmitting pdus evs
  end.
Proof. exact sends_parts. Qed.
Print Assumptions C44_parts.
(** a message that cannot be encoded: nothing is written *)
Theorem C44_unencodable : forall destination text fl wt w e, smsTextMode (dev w) = false ->
  encodeSmsSubmitPdu destination text (smsRef (dev w)) VNone None true false fl = Err e -> sendSms destination text fl wt w = Done (Err e) w.
Proof. exact SendProofs.send_unencodable. Qed.
Print Assumptions C44_unencodable.
(** the object returned *)
Theorem C44_object : forall d t fl wt w obj w', sendSms d t fl wt w = Done (Ok obj) w' ->
  exists a n, In (Lines a) (script w) /\ reference_in a n /\ nth_error (sentObjs (dev w')) obj = Some (mk_sent d t n None).
Proof. exact sent_object. Qed.
Print Assumptions C44_object.
Definition sent_texts {A} (o : out A) : list str := match o with Done _ w => writes_of (trace w) | Stuck w => writes_of (trace w) end.
Definition two_parts : str := repeat 97 161.
Example C44_example :
  let o := sendSms (lit "+27821234567") two_parts false false (start modem_init (answer "7" ++ answer "8")) in
  result o = Some (Ok 0%nat) /\ map (firstn 20) (sent_texts o) =
    [lit "AT+CMGS=153" ++ [13]; lit "0061000B917228214365"; lit "AT+CMGS=27" ++ [13]; lit "0061000B917228214365"].
Proof. vm_compute. auto. Qed.
(** the second part is refused: that is the end; the answer without a "+CMGS:" line
    to the last part is an error although everything was transmitted *)
Example C44_refused :
  let o := sendSms (lit "+27821234567") two_parts false false (start modem_init (answer "7" ++ [Lines [lit "+CMS ERROR: 500"]])) in
  result o = Some (Err (CmsError (lit "AT+CMGS=27") 500)) /\ length (sent_texts o) = 3%nat.
Proof. vm_compute. auto. Qed.
Example C44_no_reference :
  let o := sendSms (lit "+27821234567") (lit "Hi") false false (start modem_init [Lines [lit "> "]; Lines [lit "OK"]]) in
  (exists e, result o = Some (Err e)) /\ length (sent_texts o) = 2%nat.
Proof. vm_compute. eauto. Qed.

(** C45: after any history of sends (successful or not) and status reports, the
    status of each message sent. *)
Theorem C45_status : forall hs m k r later, happens modem_init hs m -> sent_as k hs = Some (r, later) ->
  exists s, nth_error (sentObjs m) k = Some s /\ s_reference s = r /\ status_for (verdict_for r later None) (sent_status s).
Proof. exact delivery. Qed.
Print Assumptions C45_status.
(** the objects are the messages sent *)
Theorem C45_objects : forall hs m, happens modem_init hs m -> forall k, nth_error (sentObjs m) k <> None <-> sent_as k hs <> None.
Proof. exact delivery_count. Qed.
Print Assumptions C45_objects.
(** a message, a report for another reference, and the report that it failed *)
Definition report_replies (ref code : string) : list reply :=
  [Lines [lit "OK"]; Lines [lit "+CMGR: 0,,28"; lit "07917248014000F306" ++ lit ref ++ lit "0B917272000000F0" ++ lit "21107041530040" ++ lit "21107041630040" ++ lit code; lit "OK"];
   Lines [lit "OK"]].
Definition m3 := Eval vm_compute in after (hello modem_init "5").
Definition cdsi : str := lit "+CDSI: ""SM"",3".
Definition m4 := Eval vm_compute in after (handleSmsStatusReport cdsi (start m3 (report_replies "09" "00"))).
Definition m5 := Eval vm_compute in after (handleSmsStatusReport cdsi (start m4 (tl (report_replies "05" "40")))).
Lemma cdsi_indication : indication (lit "+CDSI:") (lit "SM") (lit "3") cdsi.
Proof.
  exists [32], []. split; [reflexivity|]. split; [repeat constructor|]. split; [discriminate|]. split; [cbn; intuition discriminate|].
  split; [split; [discriminate|repeat constructor]|left; reflexivity].
Qed.
Example C45_example : happens modem_init [Sent 5; Reported 9 0; Reported 5 64] m5 /\
  sent_as 0 [Sent 5; Reported 9 0; Reported 5 64] = Some (5, [Reported 9 0; Reported 5 64]) /\
  map sent_status (sentObjs m4) = [0] /\ map sent_status (sentObjs m5) = [2].
Proof.
  split; [|repeat split; reflexivity].
  eapply (hp_reported modem_init [Sent 5; Reported 9 0] m4 cdsi (lit "SM") (lit "3") (tl (report_replies "05" "40")) _ 5 _ _ _ 64 _ (mk_world m5 _ _)); [|exact cdsi_indication|vm_compute; reflexivity|vm_compute; reflexivity].
  eapply (hp_reported modem_init [Sent 5] m3 cdsi (lit "SM") (lit "3") (report_replies "09" "00") _ 9 _ _ _ 0 _ (mk_world m4 _ _)); [|exact cdsi_indication|vm_compute; reflexivity|vm_compute; reflexivity].
  eapply (hp_sent modem_init [] modem_init (lit "+27821234567") (lit "Hi") false false (answer "5") 0%nat (mk_world m3 _ _) (mk_sent _ _ 5 None)); [constructor|vm_compute; reflexivity|reflexivity].
Qed.
