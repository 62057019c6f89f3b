(** Texts of others within answers of the modem. *)
From Verif Require Import Base DateModel PduModel ModemCore ModemSpec SmsModel SendSpec TrackSpec CoverageSpec StoreSpec ListSpec BookSpec NotifyModel.
From Verif Require Import SerialModel SerialSpec SerialProofs SpoofSpec SpoofProofs SpoofRead.

(** C105: the response to a command whose answer consists of a header, a text and OK, is
    the header, the text up to its first line that looks like a final result, and that
    line; the whole answer if there is none. *)
Theorem C105_response : forall tr s tr0 i mid ls tr2 h body rest, run s_init tr s -> no_timeouts tr ->
  labels tr = tr0 ++ LStart i :: mid ++ LReturn i ls :: tr2 -> Forall not_over mid -> (forall x, ~ in_flight tr0 x) ->
  handed_of (mid ++ tr2) = map (fun l => (l, true)) (h :: body ++ lit "OK" :: rest) -> ~ final_line h ->
  forall before last, cut_off body before last -> ls = h :: before ++ [last].
Proof. exact response_cut. Qed.
Print Assumptions C105_response.
Theorem C105_either : forall lines, exists before last, cut_off lines before last.
Proof. exact cut_off_some. Qed.
Print Assumptions C105_either.

(** a message with a line "OK" in it, and a notification of another message behind *)
Definition header : str := lit "+CMGR: ""REC UNREAD"",""+27821234567"",,""13/02/03,15:31:49+08""".
Definition trap : list str := [lit "Hi"; lit "OKAY?"; lit "+CMTI: ""SM"",7"].
Definition sent_time : datetime := mk_datetime 2013 2 3 15 31 49 0 (Some (td_of_seconds 7200)).
Lemma not_final l : is_term l = false -> ~ final_line l.
Proof. intros E F. apply is_term_spec in F. congruence. Qed.
Lemma no_cr l : existsb (Z.eqb 13) l = false -> no_crlf l.
Proof. intros E (a & b & ->). rewrite !existsb_app in E. cbn in E. rewrite orb_true_r in E. discriminate. Qed.
Example C105_example_cut : cut_off trap [lit "Hi"] (lit "OKAY?").
Proof. apply (co_short [lit "Hi"] (lit "OKAY?") [lit "+CMTI: ""SM"",7"]); [repeat constructor; apply not_final; reflexivity|]. apply is_term_spec. reflexivity. Qed.
Lemma header_fields : text_header header (lit "REC UNREAD") (lit "+27821234567") (lit "13/02/03,15:31:49+08").
Proof.
  exists [], []. repeat split; try discriminate; try (left; reflexivity); intro H; repeat (destruct H as [H|H]; [discriminate|]); destruct H.
Qed.

(** What is read, for a cut text that ends with a success. *)
Theorem C105_read : forall ds head status number time n t before last sc w, smsTextMode (dev w) = true ->
  text_header head status number time -> status_named status n -> parseTextModeTimeStr time = Ok t -> good_line last ->
  script w = Lines (head :: before ++ [last]) :: sc ->
  exists w', readStoredSms ds None w = Done (Ok (Received n (Some number) t (text_of before) None)) w' /\
    dev w' = dev w /\ script w' = sc /\ passed (trace w') = passed (trace w) /\ writes_of (trace w') = writes_of (trace w) ++ [lit "AT+CMGR=" ++ ds ++ [13]].
Proof. exact read_short. Qed.
Print Assumptions C105_read.
(** Upon the notification of the message: the shortened text is handed out, and the
    message deleted. *)
Theorem C105_shortened : forall mem ds line head status number time n t before last sc w, smsTextMode (dev w) = true -> memRead (dev w) = Some mem ->
  indication (lit "+CMTI:") mem ds line ->
  text_header head status number time -> status_named status n -> parseTextModeTimeStr time = Ok t -> good_line last ->
  script w = Lines (head :: before ++ [last]) :: Lines [lit "OK"] :: sc ->
  exists w', handleSmsReceived line w = Done (Ok tt) w' /\ passed (trace w') = passed (trace w) ++ [Received n (Some number) t (text_of before) None] /\
    writes_of (trace w') = writes_of (trace w) ++ [lit "AT+CMGR=" ++ ds ++ [13]; lit "AT+CMGD=" ++ ds ++ lit ",0" ++ [13]].
Proof. exact handed_short. Qed.
Print Assumptions C105_shortened.
Definition reading : modem := set_memRead (Some (lit "SM")) (set_smsTextMode true modem_init).
Lemma indicated : indication (lit "+CMTI:") (lit "SM") (lit "3") (lit "+CMTI: ""SM"",3").
Proof.
  exists [32], []. split; [reflexivity|]. split; [repeat constructor|]. split; [discriminate|]. split; [intros [H|[H|[]]]; discriminate|].
  split; [split; [discriminate|repeat constructor]|left; reflexivity].
Qed.
Lemma okay_good : good_line (lit "OKAY?").
Proof. split; [|discriminate]. intro H. apply WriteProofs.contains_iff in H. discriminate. Qed.
Example C105_example_shortened : exists w', handleSmsReceived (lit "+CMTI: ""SM"",3") (start reading [Lines [header; lit "Hi"; lit "OKAY?"]; Lines [lit "OK"]]) = Done (Ok tt) w' /\
  passed (trace w') = [Received 0 (Some (lit "+27821234567")) sent_time (lit "Hi") None] /\
  writes_of (trace w') = [lit "AT+CMGR=3" ++ [13]; lit "AT+CMGD=3,0" ++ [13]].
Proof.
  apply (handed_short (lit "SM") (lit "3") (lit "+CMTI: ""SM"",3") header (lit "REC UNREAD") (lit "+27821234567") (lit "13/02/03,15:31:49+08") 0 sent_time [lit "Hi"] (lit "OKAY?") []);
    try reflexivity; [apply indicated|apply header_fields|cbn; auto|apply okay_good].
Qed.

(** With a line that looks like an error, the message can be neither read nor handed
    out, and is not deleted. *)
Theorem C105_unreadable : forall mem ds line head before last sc w, memRead (dev w) = Some mem ->
  indication (lit "+CMTI:") mem ds line -> ~ good_line last -> not_busy (Lines (head :: before ++ [last])) ->
  script w = Lines (head :: before ++ [last]) :: sc ->
  exists e w', handleSmsReceived line w = Done (Err e) w' /\ passed (trace w') = passed (trace w) /\
    writes_of (trace w') = writes_of (trace w) ++ [lit "AT+CMGR=" ++ ds ++ [13]].
Proof. exact handed_not. Qed.
Print Assumptions C105_unreadable.
Example C105_example_unreadable : exists e w', handleSmsReceived (lit "+CMTI: ""SM"",3") (start reading [Lines [header; lit "ERROR 404"]]) = Done (Err e) w' /\ passed (trace w') = [] /\
  writes_of (trace w') = [lit "AT+CMGR=3" ++ [13]].
Proof. eexists. eexists. split; [vm_compute; reflexivity|]. split; vm_compute; reflexivity. Qed.

(** With a line that says "busy", the program asks for the message again and again. *)
Theorem C105_endless : forall mem ds line code head before last k w, memRead (dev w) = Some mem ->
  indication (lit "+CMTI:") mem ds line -> busy_reply code (Lines (head :: before ++ [last])) ->
  script w = repeat (Lines (head :: before ++ [last])) k ->
  exists w', handleSmsReceived line w = Stuck w' /\ passed (trace w') = passed (trace w) /\
    writes_of (trace w') = writes_of (trace w) ++ repeat (lit "AT+CMGR=" ++ ds ++ [13]) k.
Proof. exact handed_never. Qed.
Print Assumptions C105_endless.
Example C105_example_endless : busy_reply 515 (Lines (header :: [] ++ [lit "+CMS ERROR: 515"])).
Proof.
  split; [left; reflexivity|]. exists [header], (lit "+CMS ERROR: 515"), 83. split; [reflexivity|]. split; [auto|]. exists (lit "515"), [].
  split; [reflexivity|]. split; [split; [discriminate|repeat constructor]|]. split; [left; reflexivity|reflexivity].
Qed.

(** ** What becomes of the lines behind *)
(** They can arrive as a notification, with the OK of the command. *)
Theorem C105_notified : forall i data head before last after, no_crlf head -> ~ final_line head -> Forall no_crlf (before ++ last :: after) ->
  Forall (fun l => ~ final_line l) before -> final_line last ->
  possible (turn i data (head :: before ++ [last]) (not_blank (head :: before ++ [last])) ++
            map LChar (on_wire (after ++ [lit "OK"])) ++ [LCallback (not_blank after ++ [lit "OK"])]).
Proof. exact left_over_notified. Qed.
Print Assumptions C105_notified.
(** A line of them that looks like the notification of a message or of a report is taken
    for one that the modem sent. *)
Theorem C105_believed : forall before line after w, Forall (unrelated (callUpdates (dev w))) before -> ~ ModemSpec.substring (lit "RING") line ->
  (exists s, line = lit "+CMTI" ++ s \/ line = lit "+CDSI" ++ s) ->
  handleNotification (before ++ line :: after) w = handleNotification [line] w.
Proof. exact taken_for_notice. Qed.
Print Assumptions C105_believed.
(** Or they are returned as the response to the next command; then every command gets
    the answer to the one before it, however many there are. *)
Theorem C105_shifted : forall i data head before last after cs, no_crlf head -> ~ final_line head -> Forall no_crlf (before ++ last :: after) ->
  Forall (fun l => ~ final_line l) before -> final_line last -> Forall (fun l => ~ final_line l) after -> Forall (fun c => plain_answer (snd c)) cs ->
  possible (turn i data (head :: before ++ [last]) (not_blank (head :: before ++ [last])) ++ late_turns (after ++ [lit "OK"]) cs).
Proof. exact left_over_answers. Qed.
Print Assumptions C105_shifted.
Example C105_example_notified : possible (turn 0 (lit "AT+CMGR=3" ++ [13]) [header; lit "Hi"; lit "OKAY?"] [header; lit "Hi"; lit "OKAY?"] ++
  map LChar (on_wire [lit "+CMTI: ""SM"",7"; lit "OK"]) ++ [LCallback [lit "+CMTI: ""SM"",7"; lit "OK"]]).
Proof.
  apply (left_over_notified 0 (lit "AT+CMGR=3" ++ [13]) header [lit "Hi"] (lit "OKAY?") [lit "+CMTI: ""SM"",7"]);
    [apply no_cr; reflexivity|apply not_final; reflexivity|repeat constructor; apply no_cr; reflexivity|repeat constructor; apply not_final; reflexivity|apply is_term_spec; reflexivity].
Qed.
(** the number of a message is read, and it is deleted, on behalf of the text *)
Example C105_example_believed : exists w', handleNotification [lit "+CMTI: ""SM"",7"; lit "OK"] (start reading [Lines [header; lit "private"; lit "OK"]; Lines [lit "OK"]]) = Done (Ok tt) w' /\
  writes_of (trace w') = [lit "AT+CMGR=7" ++ [13]; lit "AT+CMGD=7,0" ++ [13]].
Proof. eexists. split; vm_compute; reflexivity. Qed.
(** the deletion gets the OK of the reading; the signal strength is then asked for and
    the answer is that of the deletion *)
Example C105_example_shifted : possible (turn 0 (lit "AT+CMGR=3" ++ [13]) [header; lit "Hi"; lit "OKAY?"] [header; lit "Hi"; lit "OKAY?"] ++
  turn 0 (lit "AT+CMGD=3,0" ++ [13]) [lit "OK"] [lit "OK"] ++
  turn 1 (lit "AT+CSQ" ++ [13]) [lit "+CMS ERROR: 321"] [lit "+CMS ERROR: 321"] ++
  turn 1 (lit "AT+CREG?" ++ [13]) [lit "+CSQ: 18,99"; []; lit "OK"] [lit "+CSQ: 18,99"; lit "OK"]).
Proof.
  apply (left_over_answers 0 (lit "AT+CMGR=3" ++ [13]) header [lit "Hi"] (lit "OKAY?") []
    [(0%nat, lit "AT+CMGD=3,0" ++ [13], [lit "+CMS ERROR: 321"]); (1%nat, lit "AT+CSQ" ++ [13], [lit "+CSQ: 18,99"; []; lit "OK"]); (1%nat, lit "AT+CREG?" ++ [13], [lit "OK"])]);
    [apply no_cr; reflexivity|apply not_final; reflexivity|repeat constructor; apply no_cr; reflexivity|repeat constructor; apply not_final; reflexivity|apply is_term_spec; reflexivity|constructor|].
  repeat constructor.
  - exists [], (lit "+CMS ERROR: 321"). split; [reflexivity|]. split; [repeat constructor; apply no_cr; reflexivity|]. split; [constructor|apply is_term_spec; reflexivity].
  - exists [lit "+CSQ: 18,99"; []], (lit "OK"). split; [reflexivity|]. split; [repeat constructor; apply no_cr; reflexivity|].
    split; [repeat constructor; apply not_final; reflexivity|apply is_term_spec; reflexivity].
  - exists [], (lit "OK"). split; [reflexivity|]. split; [repeat constructor; apply no_cr; reflexivity|]. split; [constructor|apply is_term_spec; reflexivity].
Qed.

(** ** Listings *)
(** A line of a text that looks like the header of an entry makes one: the listing
    contains a message nobody sent, and the message of that index is deleted. *)
Theorem C105_forged : forall status name head i st nb time n t body forged i' st' nb' time' n' t' body' sc w,
  smsTextMode (dev w) = true -> status_named name status -> status <> 4 -> i <> i' ->
  cmgl_text head i st nb time -> status_named st n -> parseTextModeTimeStr time = Ok t -> Forall no_cmgl_text body -> kept body <> [] ->
  cmgl_text forged i' st' nb' time' -> status_named st' n' -> parseTextModeTimeStr time' = Ok t' -> Forall no_cmgl_text body' -> kept body' <> [] ->
  script w = Lines (head :: (body ++ forged :: body') ++ [lit "OK"]) :: Lines [lit "OK"] :: Lines [lit "OK"] :: sc ->
  exists ds ds' w', decimal i ds /\ decimal i' ds' /\
    listStoredSms status None true w = Done (Ok [Received n (Some nb) t (text_of (kept body)) None; Received n' (Some nb') t' (text_of (kept body')) None]) w' /\
    writes_of (trace w') = writes_of (trace w) ++ [lit "AT+CMGL=" ++ 34 :: name ++ [34; 13]; lit "AT+CMGD=" ++ ds ++ lit ",0" ++ [13]; lit "AT+CMGD=" ++ ds' ++ lit ",0" ++ [13]].
Proof. exact forged_listed. Qed.
Print Assumptions C105_forged.
Example C105_example_forged : exists w', listStoredSms 0 None true (start reading [Lines
    [lit "+CMGL: 2,""REC UNREAD"",""+27821234567"",,""13/02/03,15:31:49+08"""; lit "Hi";
     lit "+CMGL: 5,""REC READ"",""+15550100"",,""13/02/03,15:31:49+08"""; lit "Pay me"; lit "OK"]; Lines [lit "OK"]; Lines [lit "OK"]]) =
  Done (Ok [Received 0 (Some (lit "+27821234567")) sent_time (lit "Hi") None; Received 1 (Some (lit "+15550100")) sent_time (lit "Pay me") None]) w' /\
  writes_of (trace w') = [lit "AT+CMGL=""REC UNREAD""" ++ [13]; lit "AT+CMGD=2,0" ++ [13]; lit "AT+CMGD=5,0" ++ [13]].
Proof. eexists. split; vm_compute; reflexivity. Qed.
(** A listing of all messages that is cut off in the first one: it alone is returned, in
    part, and all are deleted. *)
Theorem C105_unseen : forall head i st nb time n t before last sc w,
  smsTextMode (dev w) = true -> cmgl_text head i st nb time -> status_named st n -> parseTextModeTimeStr time = Ok t -> Forall no_cmgl_text (before ++ [last]) ->
  good_line last -> kept (before ++ [last]) <> [] ->
  script w = Lines (head :: before ++ [last]) :: Lines [lit "OK"] :: sc ->
  exists w', listStoredSms 4 None true w = Done (Ok [Received n (Some nb) t (text_of (kept (before ++ [last]))) None]) w' /\
    writes_of (trace w') = writes_of (trace w) ++ [lit "AT+CMGL=" ++ 34 :: lit "ALL" ++ [34; 13]; lit "AT+CMGD=1,4" ++ [13]].
Proof. exact cut_listing_deletes. Qed.
Print Assumptions C105_unseen.
Example C105_example_unseen : exists w', listStoredSms 4 None true (start reading [Lines
    [lit "+CMGL: 2,""REC UNREAD"",""+27821234567"",,""13/02/03,15:31:49+08"""; lit "Hi"; lit "OK"]; Lines [lit "OK"]]) =
  Done (Ok [Received 0 (Some (lit "+27821234567")) sent_time (lit "Hi") None]) w' /\
  writes_of (trace w') = [lit "AT+CMGL=""ALL""" ++ [13]; lit "AT+CMGD=1,4" ++ [13]].
Proof. eexists. split; vm_compute; reflexivity. Qed.
