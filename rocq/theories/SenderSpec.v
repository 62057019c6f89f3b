(** Several calls of sendSms, handlers of status reports and other commands at the
    same time. *)
From Verif Require Import Base PduModel PduSpec ModemCore ModemSpec SendSpec TrackSpec CoverageSpec SmsModel StoreSpec SenderModel.

(** ** The modem's side *)
(** It takes commands, or is in the middle of taking a message after the announcement
    [c]: then everything up to Ctrl-Z belongs to the message.  [spoiled]: something
    has been put into it already. *)
Inductive port := Idle | Prompted (c : str) (spoiled : bool).
Definition announcement (c : str) : Prop := starts_with (lit "AT+CMGS=") c.
(** What it makes of a text and answers, and the message accepted by that, with its
    announcement.  Outside a message it may be busy with or refuse anything; it accepts
    nothing that something else has been put into, and answers nothing inside a
    message.  (The texts of messages contain no Ctrl-Z.) *)
Inductive takes : port -> str -> reply -> port -> option (str * str) -> Prop :=
| tk_announce c ls : announcement c -> good_answer ls -> takes Idle (c ++ [13]) (Lines ls) (Prompted c false) None
| tk_refuse text r : (forall ls, r = Lines ls -> ~ good_answer ls) -> takes Idle text r Idle None
| tk_command c r : ~ announcement c -> takes Idle (c ++ [13]) r Idle None
| tk_accept c b ls : good_answer ls -> takes (Prompted c false) (b ++ [26]) (Lines ls) Idle (Some (c, b))
| tk_reject c sp b r : (forall ls, r = Lines ls -> ~ good_answer ls) -> takes (Prompted c sp) (b ++ [26]) r Idle None
| tk_swallow c sp t : takes (Prompted c sp) (t ++ [13]) (NoReply []) (Prompted c true) None.

(** ** The threads *)
Inductive thread := Sending (j : job) (st : stage) | Reporting (r code : Z) (st : rstage).
Record system := mk_system { sy_shared : shared; sy_port : port; sy_threads : list thread }.

(** What can be observed: text put on the wire by a call of sendSms (the number of its
    thread) or by anything else (None), with the reply and the message accepted;
    a call of the callback for reports. *)
Inductive label :=
| LPut (who : option nat) (text : str) (r : reply) (accepted : option (str * str))
| LTold (r code : Z).
(** What can happen: a call of sendSms starts; a handler has read and deleted a report; a
    thread makes a step, with the modem answering; any other command is written. *)
Inductive sys_step (mode : bool) : system -> list label -> system -> Prop :=
| sy_call h p ts j : sys_step mode (mk_system h p ts) [] (mk_system h p (ts ++ [Sending j Encode]))
| sy_report h p ts r code : sys_step mode (mk_system h p ts) [] (mk_system h p (ts ++ [Reporting r code Lookup]))
| sy_quiet h p ts i j st h' st' : nth_error ts i = Some (Sending j st) -> sender_step mode j h st None h' st' ->
    sys_step mode (mk_system h p ts) [] (mk_system h' p (update ts i (fun _ => Sending j st')))
| sy_put h p ts i j st text r h' st' p' a : nth_error ts i = Some (Sending j st) -> sender_step mode j h st (Some (text, r)) h' st' -> takes p text r p' a ->
    sys_step mode (mk_system h p ts) [LPut (Some i) text r a] (mk_system h' p' (update ts i (fun _ => Sending j st')))
| sy_handle h p ts i r code st told h' st' : nth_error ts i = Some (Reporting r code st) -> report_step r code h st told h' st' ->
    sys_step mode (mk_system h p ts) (if told then [LTold r code] else []) (mk_system h' p (update ts i (fun _ => Reporting r code st')))
| sy_other h p ts c r p' a : ~ announcement c -> takes p (c ++ [13]) r p' a -> sys_step mode (mk_system h p ts) [LPut None (c ++ [13]) r a] (mk_system h p' ts).
Inductive runs (mode : bool) (s : system) : list label -> system -> Prop :=
| rn_nil : runs mode s [] s
| rn_step ls s1 l s2 : runs mode s ls s1 -> sys_step mode s1 l s2 -> runs mode s (ls ++ l) s2.

(** ** What is said about it *)
(** the parts of a message, in the order in which they are to be sent *)
Definition message_parts (mode : bool) (j : job) (reference : Z) (ps : list (str * str)) : Prop :=
  if mode then ps = [(lit "AT+CMGS=" ++ 34 :: j_number j ++ [34], j_text j)]
  else exists pdus, encodeSmsSubmitPdu (j_number j) (j_text j) reference VNone None true false (j_flash j) = Ok pdus /\
    Forall2 (fun p x => announces p (fst x) /\ carries p (snd x)) pdus ps.
(** the messages of a thread that have been accepted, with their announcements *)
Definition accepted_of (i : nat) (ls : list label) : list (str * str) :=
  flat_map (fun l => match l with LPut (Some k) _ _ (Some a) => if Nat.eqb k i then [a] else [] | _ => [] end) ls.
Definition accepted_any (ls : list label) : list (str * str) :=
  flat_map (fun l => match l with LPut _ _ _ (Some a) => [a] | _ => [] end) ls.
(** a modem that is busy says so when a message is announced *)
Definition patient (l : label) : Prop := match l with LPut _ text r _ => (exists b, text = b ++ [26]) -> not_busy r | LTold _ _ => True end.
Definition no_write (l : label) : Prop := match l with LPut _ _ _ _ => False | LTold _ _ => True end.
Definition told_of (ls : list label) : list (Z * Z) := flat_map (fun l => match l with LTold r c => [(r, c)] | _ => [] end) ls.
(** the numbers that a modem gives to messages: 0 to 255 *)
Definition modem_numbers (l : label) : Prop :=
  match l with LPut (Some _) _ (Lines ls) _ => forall n, reference_in ls n -> 0 <= n <= 255 | _ => True end.
(** the last thing that a thread has heard *)
Definition put_by (i : nat) (l : label) : Prop := exists t r a, l = LPut (Some i) t r a.
Definition last_heard (i : nat) (ls : list label) (r : reply) : Prop :=
  exists l1 t a l2, ls = l1 ++ LPut (Some i) t r a :: l2 /\ Forall (fun l => ~ put_by i l) l2.
(** the message can be encoded *)
Definition encodable (mode : bool) (j : job) (reference : Z) : Prop :=
  mode = true \/ exists pdus, encodeSmsSubmitPdu (j_number j) (j_text j) reference VNone None true false (j_flash j) = Ok pdus.

(** ** A thread on its own: what it puts on the wire with the replies *)
Inductive alone (mode : bool) (j : job) : shared -> stage -> list (str * option reply) -> shared -> stage -> Prop :=
| al_refl h st : alone mode j h st [] h st
| al_quiet h st h1 st1 asks h2 st2 : sender_step mode j h st None h1 st1 -> alone mode j h1 st1 asks h2 st2 -> alone mode j h st asks h2 st2
| al_put h st text r h1 st1 asks h2 st2 : sender_step mode j h st (Some (text, r)) h1 st1 -> alone mode j h1 st1 asks h2 st2 ->
    alone mode j h st ((text, Some r) :: asks) h2 st2.
(** the same for a handler of a report; [told]: how often the callback has been called *)
Inductive alone_report (r code : Z) : shared -> rstage -> nat -> shared -> rstage -> Prop :=
| ar_refl h st : alone_report r code h st 0 h st
| ar_step h st b h1 st1 told h2 st2 : report_step r code h st b h1 st1 -> alone_report r code h1 st1 told h2 st2 ->
    alone_report r code h st ((if b then 1 else 0) + told) h2 st2.
(** the attributes of a modem object *)
Definition sees (m : modem) (h : shared) : Prop :=
  sh_ref h = smsRef m /\ sh_objs h = sentObjs m /\ sh_table h = sentTable m /\
  match reportEvent m with
  | None => sh_event h = None
  | Some b => exists e, sh_event h = Some e /\ (b = true <-> In e (sh_set h))
  end /\
  Forall (fun e => (e < sh_made h)%nat) (sh_set h) /\ (forall e, sh_event h = Some e -> (e < sh_made h)%nat).

(** between noting the number of a message and wrapping round *)
Definition counting (t : thread) : Prop := match t with Sending _ (Check _) | Sending _ (Reset _) => True | _ => False end.
(** the number that is used after the number [n] *)
Definition following (n : Z) : Z := if n <? 255 then n + 1 else 0.
(** an Event that is still to be made has not been set *)
Definition fresh (h : shared) : Prop := Forall (fun e => (e < sh_made h)%nat) (sh_set h).
