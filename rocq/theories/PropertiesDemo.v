(** Properties: the example programs. *)
From Verif Require Gsm7Proofs.
From Verif Require Import Base RegexModel DateModel UtilModel PduModel PduSpec SmsSpec SubmitSpec DeliverSpec FieldProofs AddressProofs DecodeTotal ModemCore ModemSpec MonadProofs SendSpec TrackSpec CoverageSpec SmsModel StoreSpec CallModel CallSpec NotifyModel PollSpec BookSpec UssdModel UssdSpec CallbackModel CallbackSpec CallProofs NetworkSpec DemoModel DemoSpec DemoProofs.

(** C85: sms_handler_demo answers a message with one message to its sender, in which the
    sender finds the first 20 characters; a status report ends in AttributeError. *)
Theorem C85_reply : forall from oaf stat t text smsc m sc w message gsm7, std_address from oaf -> type_of_number (nth 1 oaf 0) <> 5 -> ~ In 27 text ->
  thanks text message -> uses_gsm7 message gsm7 -> smsTextMode m = false ->
  demo_sms (Received stat (Some from) t text smsc) (start m sc) = Done (Ok tt) w ->
  exists p answer, transmits [p] (trace w) (Ok answer) /\ (exists f, submit_of (pdu_data p) from f /\ reply_field oaf (s_dest f)) /\
    forall to own t2 smsc2 data stat2 content, forwards (pdu_data p) to own t2 smsc2 data -> stored_as data stat2 content ->
      to = from /\ reads_as false content (Received stat2 (Some own) t2 message smsc2).
Proof. exact sms_demo_replies. Qed.
Print Assumptions C85_reply.
Theorem C85_report : forall stat r n t1 t2 d w, demo_sms (Report stat r n t1 t2 d) w = Done (Err AttributeError) w.
Proof. exact sms_demo_report. Qed.
Print Assumptions C85_report.
(** Two such programs that once write to each other do not stop; from the third answer
    on it is always the same text. *)
Theorem C85_echo : forall t k u, (3 <= k)%nat -> echoes t k u -> u = lit "SMS received: ""SMS received: ""SMS r...""".
Proof. exact echoes_settle. Qed.
Print Assumptions C85_echo.

(** incoming_call_demo: nothing at the first ring; from the second on the call is
    answered, the tones are played and it is hung up, or hung up at once if the modem
    cannot play tones.  A caller who hangs up during the pause makes it raise. *)
Theorem C85_first_ring : forall env n c w, nth_error (callObjs (dev w)) n = Some c -> c_ringCount c < 2 -> demo_incoming env n w = Done (Ok tt) w.
Proof. exact first_ring. Qed.
Print Assumptions C85_first_ring.
Theorem C85_no_tones : forall env n c w, nth_error (callObjs (dev w)) n = Some c -> 2 <= c_ringCount c -> dtmfSupport (dev w) = false ->
  demo_incoming env n w = hangup n w.
Proof. exact no_tones. Qed.
Print Assumptions C85_no_tones.
Theorem C85_incoming : forall env n c w x w', nth_error (callObjs (dev w)) n = Some c -> 0 <= c_id c -> 2 <= c_ringCount c -> dtmfSupport (dev w) = true -> keeps_call n env ->
  demo_incoming env n w = Done x w' -> demo_answers n c env w x w'.
Proof. exact second_ring. Qed.
Print Assumptions C85_incoming.

(** dial_callback_demo: the callback of an answered call plays the tones and hangs up,
    which calls it once more; then the call is not answered and the program stops
    waiting.  It does not stop waiting when hanging up fails. *)
Theorem C85_unanswered : forall env e k n c w, nth_error (callObjs (dev w)) n = Some c -> c_answered c = false ->
  on_status (dial_demo env e (S k)) n w = Done (Ok tt) (mk_world (dev w) (script w) (trace w ++ [ESleep 0])).
Proof. exact status_unanswered. Qed.
Print Assumptions C85_unanswered.
Theorem C85_dialled : forall env e k n c w x w', nth_error (callObjs (dev w)) n = Some c -> 0 <= c_id c -> c_answered c = true -> c_callback c = true -> keeps_call n env ->
  on_status (dial_demo env e (S (S k))) n w = Done x w' -> tones_dialled n env [ESleep 0] [ESleep 0] w x w'.
Proof. exact status_answered. Qed.
Print Assumptions C85_dialled.
(** dial_polling_demo: it waits while the call is active and not answered, then does the
    same; the loop ends only when the call is not active *)
Theorem C85_polling : forall n was envs w x w' c, Forall (keeps_call n) envs -> nth_error (callObjs (dev w)) n = Some c -> 0 <= c_id c -> c_callback c = false ->
  demo_loop envs n was w = Done x w' ->
  exists before rest w1, envs = before ++ rest /\ awaits n before w w1 /\ looks n was rest w1 x w'.
Proof. exact polls_call. Qed.
Print Assumptions C85_polling.
(** ussd_demo: the session is closed exactly when the answer leaves it open *)
Theorem C85_ussd : forall m s sc env ns x w', (forall w1, sendUssd_start s (start m sc) = Done (Ok None) w1 -> exists w2, env w1 = Done (Ok tt) w2 /\ ussd_notified w1 ns w2) ->
  demo_ussd env s (start m sc) = Done x w' -> ussd_shown s ns (trace w') x.
Proof. exact ussd_demo. Qed.
Print Assumptions C85_ussd.

Definition on_wire (w : world) : list str := flat_map (fun e => match e with EWrite t _ => [t] | _ => [] end) (trace w).
Definition ok : reply := Lines [lit "OK"].
Definition result {A} (o : out A) : option (res A) * list str * list bool := (match o with Done x _ => Some x | _ => None end, on_wire (last_of o), map c_active (callObjs (dev (last_of o)))).
(** an incoming call that has rung twice, on a Huawei modem *)
Definition the_caller : call := mk_call 1 true None (Some (lit "+123")) false false true true 2.
Definition ringing2 : modem := set_dtmfHuawei true (set_dtmfSupport true (set_callObjs [the_caller] (set_activeCalls [(1, 0%nat)] modem_init))).
Definition hung_up : M unit := modify (fun m => set_activeCalls [] (set_callObjs (update (callObjs m) 0 now_ended) m)).
Definition sent (l : list str) : list str := map (fun s => s ++ [13]) l.
Definition tones_text : str :=
  lit "AT^DTMF=1,9;^DTMF=1,5;^DTMF=1,1;^DTMF=1,5;^DTMF=1,9;^DTMF=1,9;^DTMF=1,9;^DTMF=1,9;^DTMF=1,5;^DTMF=1,5;^DTMF=1,9;^DTMF=1,5;^DTMF=1,1".
Lemma keeps_nothing n : keeps_call n (ret tt). Proof. intros w c H. exists c. auto. Qed.
Lemma keeps_hung_up : keeps_call 0 hung_up.
Proof. intros w c H. exists (now_ended c). cbn. destruct (callObjs (dev w)); [discriminate|]. injection H as ->. auto. Qed.
Example C85_example_incoming :
  nth_error (callObjs ringing2) 0 = Some the_caller /\ keeps_call 0 (ret tt) /\
  result (demo_incoming (ret tt) 0 (start ringing2 [ok; ok; ok])) = (Some (Ok tt), sent [lit "ATA"; tones_text; lit "ATH"], [false]) /\
  result (demo_incoming (ret tt) 0 (start ringing2 [ok; Lines [lit "+CME ERROR: 3"]; ok])) = (Some (Ok tt), sent [lit "ATA"; tones_text; lit "ATH"], [false]) /\
  result (demo_incoming (ret tt) 0 (start ringing2 [ok; Lines [lit "ERROR"]; ok])) = (Some (Err (CommandError (Some tones_text))), sent [lit "ATA"; tones_text; lit "ATH"], [false]).
Proof. split; auto. split; [apply keeps_nothing|]. repeat split; vm_compute; reflexivity. Qed.
(** the caller hangs up during the pause *)
Example C85_example_gone : keeps_call 0 hung_up /\ result (demo_incoming hung_up 0 (start ringing2 [ok])) = (Some (Err InvalidStateException), sent [lit "ATA"], [false]).
Proof. split; [apply keeps_hung_up|vm_compute; reflexivity]. Qed.
Example C85_example_rings : result (demo_incoming (ret tt) 0 (start (set_callObjs [mk_call 1 true None None false false true true 1] ringing2) [])) = (Some (Ok tt), [], [true]) /\
  result (demo_incoming (ret tt) 0 (start (set_dtmfSupport false ringing2) [ok])) = (Some (Ok tt), sent [lit "ATH"], [false]).
Proof. split; vm_compute; reflexivity. Qed.

(** a call that has been answered, with a status callback *)
Definition talking : modem := set_callObjs [mk_call 1 false (Some 0) (Some (lit "123")) true true true false 0] ringing2.
Definition waits_ended (o : out unit) : nat := length (filter (fun e => match e with ESleep 0 => true | _ => false end) (trace (last_of o))).
Example C85_example_dialled : let o := on_status (dial_demo (ret tt) ValueError 7) 0 (start talking [ok; ok]) in
  result o = (Some (Ok tt), sent [tones_text; lit "ATH"], [false]) /\ waits_ended o = 2%nat.
Proof. split; vm_compute; reflexivity. Qed.
(** ATH is refused: nobody ever stops waiting *)
Example C85_example_waits : let o := on_status (dial_demo (ret tt) ValueError 7) 0 (start talking [ok; Lines [lit "ERROR"]]) in
  result o = (Some (Err (CommandError (Some (lit "ATH")))), sent [tones_text; lit "ATH"], [true]) /\ waits_ended o = 0%nat.
Proof. split; vm_compute; reflexivity. Qed.
Example C85_example_unanswered : let o := on_status (dial_demo hung_up ValueError 7) 0 (start talking []) in result o = (Some (Ok tt), [], [false]) /\ waits_ended o = 1%nat.
Proof. split; vm_compute; reflexivity. Qed.
(** two pauses, the call is answered in the second *)
Definition picks_up : M unit := modify (fun m => set_callObjs (update (callObjs m) 0 (with_answered true)) m).
Definition calling1 : modem := set_callObjs [mk_call 1 false (Some 0) (Some (lit "123")) false false true false 0] ringing2.
Example C85_example_polling : Forall (keeps_call 0) [ret tt; picks_up; ret tt; ret tt] /\
  result (demo_loop [ret tt; picks_up; ret tt; ret tt] 0 false (start calling1 [ok; ok])) = (Some (Ok (Some true)), sent [tones_text; lit "ATH"], [false]) /\
  result (demo_loop [ret tt; hung_up; ret tt] 0 false (start calling1 [])) = (Some (Ok (Some false)), [], [false]) /\
  result (demo_loop [ret tt; ret tt] 0 false (start calling1 [])) = (Some (Ok None), [], [true]).
Proof.
  split; [|repeat split; vm_compute; reflexivity].
  assert (keeps_call 0 picks_up). { intros w c H. exists (with_answered true c). cbn. destruct (callObjs (dev w)); [discriminate|]. injection H as ->. auto. }
  repeat constructor; auto using keeps_nothing.
Qed.

Definition menu : M unit := handleUssd [lit "+CUSD: 1,""1 Balance"",15"].
Definition goodbye : M unit := handleUssd [lit "+CUSD: 2,""Bye"",15"].
Example C85_example_ussd :
  result (demo_ussd menu (lit "*101#") (start modem_init [ok; ok])) = (Some (Ok tt), sent [lit "AT+CUSD=1,""*101#"",15"; lit "AT+CUSD=2"], []) /\
  result (demo_ussd goodbye (lit "*101#") (start modem_init [ok])) = (Some (Ok tt), sent [lit "AT+CUSD=1,""*101#"",15"], []) /\
  result (demo_ussd (ret tt) (lit "*101#") (start modem_init [ok])) = (Some (Err (TimeoutException None)), sent [lit "AT+CUSD=1,""*101#"",15"], []) /\
  (forall w1, sendUssd_start (lit "*101#") (start modem_init [ok; ok]) = Done (Ok None) w1 -> exists w2, menu w1 = Done (Ok tt) w2 /\ ussd_notified w1 [[lit "+CUSD: 1,""1 Balance"",15"]] w2).
Proof.
  split; [vm_compute; reflexivity|]. split; [vm_compute; reflexivity|]. split; [vm_compute; reflexivity|].
  intros w1 H. vm_compute in H. injection H as <-. eexists. split; [vm_compute; reflexivity|]. eapply un_cons; [vm_compute; reflexivity|constructor].
Qed.

Definition noon : datetime := mk_datetime 2013 5 1 12 0 0 0 (Some (td_of_minutes 120)).
Definition a_message : stored_sms := Received 0 (Some (lit "12345")) noon (lit "Hello there, how are you today?") None.
Definition its_sender : list Z := 5 :: 0x81 :: semi (lit "12345").
Definition thanked : str := lit "SMS received: ""Hello there, how are...""".
Lemma all_digits (s : str) : forallb (fun c => (48 <=? c) && (c <=? 57)) s = true -> digits_ok s.
Proof. intro H. apply Forall_forall. intros c Hc. rewrite forallb_forall in H. specialize (H c Hc). apply andb_true_iff in H as [A B]. apply Z.leb_le in A, B. auto. Qed.
Example C85_example_reply : std_address (lit "12345") its_sender /\ type_of_number (nth 1 its_sender 0) <> 5 /\
  thanks (lit "Hello there, how are you today?") thanked /\ uses_gsm7 thanked true /\
  exists w, demo_sms a_message (start modem_init [Lines [lit "> "]; Lines [lit "+CMGS: 7"; lit "OK"]]) = Done (Ok tt) w /\
    map (firstn 11) (on_wire w) = [lit "AT+CMGS=45" ++ [13]; lit "00210005A12"].
Proof.
  split.
  { change 5 with (len (lit "12345")). apply addr_plain; [apply all_digits; reflexivity|discriminate|vm_compute; discriminate|unfold in_octet; lia|vm_compute; discriminate|vm_compute; discriminate|].
    apply semi_spec, all_digits; reflexivity. }
  split; [discriminate|]. split; [apply (th_long (lit "Hello there, how are") (lit " you today?")); [reflexivity|discriminate]|].
  split; [left; split; auto; destruct (encodeGsm7 thanked false) eqn:E; [exact (Gsm7Proofs.encode_ok_inv _ _ E)|vm_compute in E; discriminate]|].
  eexists. split; vm_compute; reflexivity.
Qed.
Example C85_example_echo : echoes (lit "Hi") 2 (lit "SMS received: ""SMS received: ""Hi""""") /\ echoes (lit "Hi") 3 (lit "SMS received: ""SMS received: ""SMS r...""").
Proof.
  assert (E : echoes (lit "Hi") 2 (lit "SMS received: ""SMS received: ""Hi""""")).
  { eapply ec_next; [eapply ec_next; [apply ec_first|apply th_short; cbn; lia]|]. apply th_short. cbn. lia. }
  split; auto. eapply ec_next; [exact E|]. apply (th_long (lit "SMS received: ""SMS r") (lit "eceived: ""Hi""""")); [reflexivity|discriminate].
Qed.
