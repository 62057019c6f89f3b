(** C79, C80: several threads use one modem object.  Each theorem is closed by a lemma
    of SenderProofs, SenderFinal or SenderLink; an example stands beside it. *)
From Verif Require Import Base PduModel PduSpec ModemCore ModemSpec SendSpec TrackSpec CoverageSpec SmsModel StoreSpec StoreLemmas WaitSpec
  SenderModel SenderSpec SenderProofs SenderFinal SenderLink.

Definition at_first : shared := mk_shared 0 [] [] None [] 0.
Definition to_ann : job := mk_job (lit "111") (lit "Hi Ann") false false.
Definition to_bob : job := mk_job (lit "222") (lit "Hi Bob") false false.
Definition ann_waits : job := mk_job (lit "111") (lit "Hi Ann") false true.
Definition bob_waits : job := mk_job (lit "222") (lit "Hi Bob") false true.
Lemma seven : digits (lit "7"). Proof. split; [discriminate|repeat constructor]. Qed.
Lemma nine : digits (lit "9"). Proof. split; [discriminate|repeat constructor]. Qed.
Ltac encodes := right; eexists; vm_compute; reflexivity.

(** C79: calls of sendSms share the port.  Whatever other calls and commands do at the
    same time: a call that returns has had every part of its message accepted, in
    order, each under its own announcement if the modem is not busy between
    announcement and text; the returned object has the number from the modem's last
    answer to this thread.  A call that raises has had a beginning accepted. *)
Theorem C79_sent : forall mode h ls s i j x, runs mode (mk_system h Idle []) ls s -> nth_error (sy_threads s) i = Some (Sending j (Over x)) ->
  match x with
  | Ok obj => exists reference ps answer n o, message_parts mode j reference ps /\ map snd (accepted_of i ls) = map snd ps /\ (Forall patient ls -> accepted_of i ls = ps) /\
      last_heard i ls (Lines answer) /\ reference_in answer n /\ nth_error (sh_objs (sy_shared s)) obj = Some o /\
      s_number o = j_number j /\ s_text o = j_text j /\ s_reference o = n
  | Err _ => accepted_of i ls = [] \/ exists reference done rest, message_parts mode j reference (done ++ rest) /\ map snd (accepted_of i ls) = map snd done /\
      (Forall patient ls -> accepted_of i ls = done)
  end.
Proof. exact sent_all. Qed.
Print Assumptions C79_sent.
Example C79_sent_example : exists ls s o1 o2 ps1 ps2, runs false (mk_system at_first Idle []) ls s /\ sy_threads s = [Sending to_ann (Over (Ok o1)); Sending to_bob (Over (Ok o2))] /\
  message_parts false to_ann 0 ps1 /\ accepted_of 0 ls = ps1 /\ message_parts false to_bob 0 ps2 /\ accepted_of 1 ls = ps2.
Proof. apply (same_reference false at_first to_ann to_bob (lit "7") (lit "9")); [encodes|encodes|exact seven|exact nine|reflexivity|reflexivity]. Qed.
(** A message is accepted only right after its announcement, with no other write
    between; of the same call, if the modem is not busy there. *)
Theorem C79_right_after : forall mode h ls s l1 who t r c b l2, runs mode (mk_system h Idle []) ls s -> ls = l1 ++ LPut who t r (Some (c, b)) :: l2 ->
  exists i k l0 r0 mid, who = Some i /\ t = b ++ [26] /\ l1 = l0 ++ LPut (Some k) (c ++ [13]) r0 None :: mid /\ Forall no_write mid /\ (Forall patient l1 -> k = i).
Proof. exact right_after. Qed.
Print Assumptions C79_right_after.
Example C79_right_after_example : let c := lit "AT+CMGS=""111""" in exists s,
  runs true (mk_system at_first Idle []) ([LPut (Some 0%nat) (c ++ [13]) (Lines [lit "> "]) None] ++
    LPut (Some 0%nat) (lit "Hi Ann" ++ [26]) (Lines [lit "+CMGS: 7"; lit "OK"]) (Some (c, lit "Hi Ann")) :: []) s.
Proof. destruct (text_run at_first (lit "111") (lit "Hi Ann") false (lit "7") seven) as (h' & R). eexists. exact R. Qed.
(** Violated: the lock is held for one write only.  A command of another thread between
    the announcement and the message makes the call fail, and is lost. *)
Theorem C79_disturbed : forall mode h j o, ~ announcement o -> encodable mode j (sh_ref h) ->
  exists c b ps s e, message_parts mode j (sh_ref h) ((c, b) :: ps) /\
    runs mode (mk_system h Idle []) [LPut (Some 0%nat) (c ++ [13]) (Lines [lit "> "]) None; LPut None (o ++ [13]) (NoReply []) None;
                                     LPut (Some 0%nat) (b ++ [26]) (Lines [lit "+CMS ERROR: 304"]) None] s /\
    sy_threads s = [Sending j (Over (Err e))].
Proof. exact disturbed. Qed.
Print Assumptions C79_disturbed.
Example C79_disturbed_example : encodable false to_ann 0 /\ ~ announcement (lit "AT+CSQ").
Proof. split; [encodes|]. intros (t & X). discriminate X. Qed.
(** Two calls can make each other fail. *)
Theorem C79_both_fail : forall mode h j1 j2, encodable mode j1 (sh_ref h) -> encodable mode j2 (sh_ref h) ->
  exists c1 b1 ps1 c2 b2 ps2 s e1 e2, message_parts mode j1 (sh_ref h) ((c1, b1) :: ps1) /\ message_parts mode j2 (sh_ref h) ((c2, b2) :: ps2) /\
    runs mode (mk_system h Idle []) [LPut (Some 0%nat) (c1 ++ [13]) (Lines [lit "> "]) None; LPut (Some 1%nat) (c2 ++ [13]) (NoReply []) None;
                                     LPut (Some 0%nat) (b1 ++ [26]) (Lines [lit "+CMS ERROR: 304"]) None] s /\
    sy_threads s = [Sending j1 (Over (Err e1)); Sending j2 (Over (Err e2))].
Proof. exact both_fail. Qed.
Print Assumptions C79_both_fail.
Example C79_both_fail_example : encodable false to_ann (sh_ref at_first) /\ encodable false to_bob (sh_ref at_first).
Proof. split; encodes. Qed.
(** In text mode, with a modem that is busy after the announcement: the first call
    returns as if its text had been sent, but the text went to the other number. *)
Theorem C79_misdirected : forall h n1 t1 f1 n2 t2 f2 w2, exists ls s obj st,
  runs true (mk_system h Idle []) ls s /\ sy_threads s = [Sending (mk_job n1 t1 f1 false) (Over (Ok obj)); Sending (mk_job n2 t2 f2 w2) st] /\
  accepted_any ls = [(lit "AT+CMGS=" ++ 34 :: n2 ++ [34], t1)].
Proof. exact misdirected. Qed.
Print Assumptions C79_misdirected.
Example C79_misdirected_example : exists ls s obj st,
  runs true (mk_system at_first Idle []) ls s /\ sy_threads s = [Sending to_ann (Over (Ok obj)); Sending to_bob st] /\
  accepted_any ls = [(lit "AT+CMGS=""222""", lit "Hi Ann")].
Proof. exact (misdirected at_first (lit "111") (lit "Hi Ann") false (lit "222") (lit "Hi Bob") false false). Qed.
(** A call left alone does what the method does, with the same commands, answers and
    attributes. *)
Theorem C79_alone : forall j m sc h x w, sees m h -> sendSms (j_number j) (j_text j) (j_flash j) (j_wait j) (start m sc) = Done x w ->
  exists h' st, alone (smsTextMode m) j h Encode (asked (trace w)) h' st /\ sees (dev w) h' /\
    st = match x with Ok obj => if j_wait j then Await obj else Over (Ok obj) | Err e => Over (Err e) end.
Proof. exact sender_is_method. Qed.
Print Assumptions C79_alone.
Example C79_alone_example : sees modem_init at_first /\ exists w,
  sendSms (lit "111") (lit "Hi Ann") false false (start modem_init [Lines [lit "+CMS ERROR: 515"]; Lines [lit "> "]; Lines [lit "+CMGS: 7"; lit "OK"]]) = Done (Ok 0%nat) w /\ length (asked (trace w)) = 3%nat.
Proof. split; [unfold sees; cbn; repeat (split; [solve [auto]|]); intros e X; discriminate X|]. eexists. split; vm_compute; reflexivity. Qed.

(** C80: calls of sendSms and handlers of reports share the attributes.  The number
    for the next message is from 0 to 255, except between a call's noting 256 and
    putting it back. *)
Theorem C80_number : forall mode h ls s, runs mode (mk_system h Idle []) ls s -> 0 <= sh_ref h <= 255 -> Forall modem_numbers ls ->
  0 <= sh_ref (sy_shared s) <= 256 /\ (sh_ref (sy_shared s) = 256 -> exists t, In t (sy_threads s) /\ counting t).
Proof. exact number_range. Qed.
Print Assumptions C80_number.
Example C80_number_example : exists ls s, runs true (mk_system at_first Idle []) ls s /\ ls <> [] /\ Forall modem_numbers ls.
Proof.
  destruct (text_run at_first (lit "111") (lit "Hi Ann") false (lit "7") seven) as (h' & R). do 2 eexists. split; [exact R|]. split; [discriminate|].
  constructor; [|constructor; [|constructor]]; intro n; apply numbers_of; vm_compute; auto; split; discriminate.
Qed.
(** In that moment a call of another thread raises without sending anything. *)
Theorem C80_number_race : forall h j1 j2, encodable false j1 (sh_ref h) -> exists ls s e,
  runs false (mk_system h Idle []) ls s /\ sy_threads s = [Sending j1 (Check 255); Sending j2 (Over (Err e))] /\ accepted_of 1 ls = [].
Proof. exact number_race. Qed.
Print Assumptions C80_number_race.
Example C80_number_race_example : encodable false to_ann (sh_ref at_first).
Proof. encodes. Qed.
(** Two messages can carry the same reference number. *)
Theorem C80_same_reference : forall mode h j1 j2 n1 n2, encodable mode j1 (sh_ref h) -> encodable mode j2 (sh_ref h) -> digits n1 -> digits n2 -> j_wait j1 = false -> j_wait j2 = false ->
  exists ls s o1 o2 ps1 ps2, runs mode (mk_system h Idle []) ls s /\ sy_threads s = [Sending j1 (Over (Ok o1)); Sending j2 (Over (Ok o2))] /\
    message_parts mode j1 (sh_ref h) ps1 /\ accepted_of 0 ls = ps1 /\ message_parts mode j2 (sh_ref h) ps2 /\ accepted_of 1 ls = ps2.
Proof. exact same_reference. Qed.
Print Assumptions C80_same_reference.
Example C80_same_reference_example : encodable false to_ann (sh_ref at_first) /\ encodable false to_bob (sh_ref at_first) /\ digits (lit "7").
Proof. split; [encodes|]. split; [encodes|exact seven]. Qed.
(** A call that waits for its report returns only after some report has been handled... *)
Theorem C80_waited : forall mode h ls s i j obj, runs mode (mk_system h Idle []) ls s -> sh_set h = [] ->
  nth_error (sy_threads s) i = Some (Sending j (Over (Ok obj))) -> j_wait j = true ->
  exists k r code, nth_error (sy_threads s) k = Some (Reporting r code (Handled (Ok tt))).
Proof. exact waited_for. Qed.
Print Assumptions C80_waited.
Example C80_waited_example : exists ls s i obj, runs false (mk_system at_first Idle []) ls s /\ nth_error (sy_threads s) i = Some (Sending bob_waits (Over (Ok obj))).
Proof.
  destruct (wrong_wakes false at_first ann_waits bob_waits (lit "7") (lit "9") 0) as (ls & s & o1 & o2 & s1 & s2 & R & E & _);
    [encodes|encodes|exact seven|exact nine|discriminate|reflexivity|reflexivity|constructor|].
  exists ls, s, 1%nat, o2. rewrite E. auto.
Qed.
(** ... and when a report is handled while it waits for the current event, it returns. *)
Theorem C80_in_time : forall mode s0 l s1 ls s2 i j obj e k r code x, sh_event (sy_shared s0) = Some e -> nth_error (sy_threads s0) i = Some (Sending j (Waiting obj e)) ->
  nth_error (sy_threads s0) k = Some (Reporting r code Fire) -> sys_step mode s0 l s1 -> nth_error (sy_threads s1) k <> Some (Reporting r code Fire) ->
  runs mode s1 ls s2 -> nth_error (sy_threads s2) i = Some (Sending j (Over x)) -> x = Ok obj.
Proof. exact in_time. Qed.
Print Assumptions C80_in_time.
Example C80_in_time_example : let h := mk_shared 0 [] [] (Some 0%nat) [] 1 in let h1 := fire 0 h in
  sys_step false (mk_system h Idle [Sending ann_waits (Waiting 0 0); Reporting 7 0 Fire]) [] (mk_system h1 Idle [Sending ann_waits (Waiting 0 0); Reporting 7 0 (Handled (Ok tt))]) /\
  runs false (mk_system h1 Idle [Sending ann_waits (Waiting 0 0); Reporting 7 0 (Handled (Ok tt))]) [] (mk_system (put_event None h1) Idle [Sending ann_waits (Over (Ok 0%nat)); Reporting 7 0 (Handled (Ok tt))]).
Proof.
  split.
  - apply (sy_handle false _ Idle [Sending ann_waits (Waiting 0 0); Reporting 7 0 Fire] 1 7 0 Fire false); [reflexivity|constructor; reflexivity].
  - apply (rn_step _ _ [] (mk_system (fire 0 (mk_shared 0 [] [] (Some 0%nat) [] 1)) Idle [Sending ann_waits (Woken 0); Reporting 7 0 (Handled (Ok tt))]) []).
    + apply (rn_step _ _ [] (mk_system (fire 0 (mk_shared 0 [] [] (Some 0%nat) [] 1)) Idle [Sending ann_waits (Waiting 0 0); Reporting 7 0 (Handled (Ok tt))]) []); [constructor|].
      apply (sy_quiet false _ Idle [Sending ann_waits (Waiting 0 0); Reporting 7 0 (Handled (Ok tt))] 0 _ (Waiting 0 0)); [reflexivity|]. constructor. left. reflexivity.
    + apply (sy_quiet false _ Idle [Sending ann_waits (Woken 0); Reporting 7 0 (Handled (Ok tt))] 0 _ (Woken 0)); [reflexivity|constructor].
Qed.
(** ... but it need not be its own.  Violated: with two calls waiting, the report for
    the first wakes the second, which returns without a report; the first one times
    out, although its object has the report. *)
Theorem C80_wrong_wakes : forall mode h j1 j2 n1 n2 code, encodable mode j1 (sh_ref h) -> encodable mode j2 (following (dec_value n1)) -> digits n1 -> digits n2 -> dec_value n1 <> dec_value n2 ->
  j_wait j1 = true -> j_wait j2 = true -> fresh h ->
  exists ls s o1 o2 s1 s2, runs mode (mk_system h Idle []) ls s /\
    sy_threads s = [Sending j1 (Over (Err (TimeoutException None))); Sending j2 (Over (Ok o2)); Reporting (dec_value n1) code (Handled (Ok tt))] /\
    nth_error (sh_objs (sy_shared s)) o1 = Some s1 /\ s_number s1 = j_number j1 /\ s_text s1 = j_text j1 /\ s_reference s1 = dec_value n1 /\ s_report s1 = Some code /\
    nth_error (sh_objs (sy_shared s)) o2 = Some s2 /\ s_number s2 = j_number j2 /\ s_text s2 = j_text j2 /\ s_reference s2 = dec_value n2 /\ s_report s2 = None.
Proof. exact wrong_wakes. Qed.
Print Assumptions C80_wrong_wakes.
Example C80_wrong_wakes_example : encodable false ann_waits (sh_ref at_first) /\ encodable false bob_waits (following (dec_value (lit "7"))) /\ fresh at_first.
Proof. split; [encodes|]. split; [encodes|constructor]. Qed.
(** When the wait times out while the report is being handled, nobody is told: the
    handler raises. *)
Theorem C80_nobody_told : forall mode h j n code, encodable mode j (sh_ref h) -> digits n -> j_wait j = true -> fresh h -> let r := dec_value n in
  exists ls s, runs mode (mk_system h Idle []) ls s /\
    sy_threads s = [Sending j (Over (Err (TimeoutException None))); Reporting r code (Handled (Err AttributeError))] /\ told_of ls = [].
Proof. exact nobody_told. Qed.
Print Assumptions C80_nobody_told.
Example C80_nobody_told_example : encodable false ann_waits (sh_ref at_first) /\ digits (lit "7") /\ fresh at_first.
Proof. split; [encodes|]. split; [exact seven|constructor]. Qed.
(** When one wait ends while another call is about to wait, that call raises
    AttributeError, although its message was sent. *)
Theorem C80_no_event : forall mode h j1 j2 n1 n2, encodable mode j1 (sh_ref h) -> encodable mode j2 (following (dec_value n1)) -> digits n1 -> digits n2 -> j_wait j1 = true -> j_wait j2 = true -> fresh h ->
  exists ls s ps, runs mode (mk_system h Idle []) ls s /\ sy_threads s = [Sending j1 (Over (Err (TimeoutException None))); Sending j2 (Over (Err AttributeError))] /\
    message_parts mode j2 (following (dec_value n1)) ps /\ accepted_of 1 ls = ps.
Proof. exact no_event. Qed.
Print Assumptions C80_no_event.
Example C80_no_event_example : encodable false ann_waits (sh_ref at_first) /\ encodable false bob_waits (following (dec_value (lit "255"))).
Proof. split; encodes. Qed.
(** A report handled before sendSms has recorded the message is not attached to it. *)
Theorem C80_too_early : forall mode h j n code, encodable mode j (sh_ref h) -> digits n -> j_wait j = false -> sh_event h = None -> zget (sh_table h) (dec_value n) = None ->
  exists ls s obj o, runs mode (mk_system h Idle []) ls s /\
    sy_threads s = [Sending j (Over (Ok obj)); Reporting (dec_value n) code (Handled (Ok tt))] /\ told_of ls = [(dec_value n, code)] /\
    nth_error (sh_objs (sy_shared s)) obj = Some o /\ s_reference o = dec_value n /\ s_report o = None.
Proof. exact too_early. Qed.
Print Assumptions C80_too_early.
Example C80_too_early_example : encodable false to_ann (sh_ref at_first) /\ sh_event at_first = None /\ zget (sh_table at_first) 7 = None.
Proof. split; [encodes|auto]. Qed.
(** Left alone, the wait and the handler do what the methods do. *)
Theorem C80_wait_alone : forall j m sc h obj x w, sees m h -> reportEvent m <> None -> sendSms_wait (start m sc) = Done x w ->
  exists h' st, alone (smsTextMode m) j h (Await obj) [] h' st /\ sees (dev w) h' /\ st = match x with Ok _ => Over (Ok obj) | Err e => Over (Err e) end.
Proof. exact wait_is_method. Qed.
Print Assumptions C80_wait_alone.
Example C80_wait_alone_example : let m := set_reportEvent (Some true) modem_init in sees m (mk_shared 0 [] [] (Some 0%nat) [0%nat] 1) /\ exists w, sendSms_wait (start m []) = Done (Ok tt) w.
Proof. split; [|eexists; reflexivity]. unfold sees; cbn. do 3 (split; [reflexivity|]). split; [exists 0%nat; cbn; tauto|]. split; [repeat constructor|]. intros e X. injection X as <-. lia. Qed.
Theorem C80_report_alone : forall line mem idx m sc h u w, sees m h -> indication (lit "+CDSI:") mem idx line -> handleSmsStatusReport line (start m sc) = Done (Ok u) w ->
  exists st r nb t1 t2 code w1 h', readStoredSms idx (Some mem) (start m sc) = Done (Ok (Report st r nb t1 t2 code)) w1 /\
    alone_report r code h Lookup (length (told_reports (trace w))) h' (Handled (Ok tt)) /\ sees (dev w) h'.
Proof. exact report_is_method. Qed.
Print Assumptions C80_report_alone.
Example C80_report_alone_example : indication (lit "+CDSI:") (lit "SM") (lit "3") (lit "+CDSI: ""SM"",3") /\ exists w,
  handleSmsStatusReport (lit "+CDSI: ""SM"",3") (start modem_init
    [Lines [lit "OK"]; Lines [lit "+CMGR: 0,,24"; lit "07917248014000F506B70AA18092020000317071518590803170715185418000"; lit "OK"]; Lines [lit "OK"]]) = Done (Ok tt) w /\
  length (told_reports (trace w)) = 1%nat.
Proof.
  split; [|eexists; split; vm_compute; reflexivity].
  exists [32], []. split; [reflexivity|]. split; [repeat constructor|]. split; [discriminate|]. split; [cbn; intuition discriminate|]. split; [split; [discriminate|repeat constructor]|left; reflexivity].
Qed.
