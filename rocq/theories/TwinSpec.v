(** Several modems in one process.  Call.dtmfSupport and Call.DTMF_COMMAND_BASE are class
    attributes (modem.py:1210-1211), set by connect (210, 259-260, 270, 281): every modem
    of the process has the same. *)
From Verif Require Import Base RegexModel ModemCore TrackSpec SmsModel CallModel UssdModel NotifyModel ConnectModel PollModel CoverageSpec SetupSpec.
From Verif Require NetworkModel.

(** the class attributes, and a modem that sees them *)
Record tones := mk_tones { t_huawei : bool; t_support : bool }.
Definition tones_of (m : modem) : tones := mk_tones (dtmfHuawei m) (dtmfSupport m).
Definition wear (t : tones) (m : modem) : modem := set_dtmfHuawei (t_huawei t) (set_dtmfSupport (t_support t) m).

(** what the application and the handlers of notifications can do with a modem, except
    connecting it and sending tones *)
Inductive usual : forall A, M A -> Prop :=
| us_write data term parse : usual _ (write_with data term parse)
| us_nowait data : usual _ (write_nowait data)
| us_signal : usual _ signalStrength
| us_manufacturer : usual _ manufacturer
| us_model : usual _ model
| us_imei : usual _ imei
| us_imsi : usual _ imsi
| us_revision : usual _ revision
| us_network : usual _ networkName
| us_commands : usual _ supportedCommands
| us_coverage timer : usual _ (waitForNetworkCoverage timer)
| us_mode b : usual _ (set_text_mode b)
| us_smsc : usual _ get_smsc
| us_set_smsc n : usual _ (set_smsc n)
| us_send n t flash wait : usual _ (sendSms n t flash wait)
| us_send_wait : usual _ sendSms_wait
| us_reply s t : usual _ (NetworkModel.reply s t)
| us_read i mem : usual _ (readStoredSms i mem)
| us_delete i mem : usual _ (deleteStoredSms i mem)
| us_delete_many flag mem : usual _ (deleteMultipleStoredSms flag mem)
| us_list st mem del : usual _ (listStoredSms st mem del)
| us_process unread : usual _ (processStoredSms unread)
| us_ussd s : usual _ (sendUssd_start s)
| us_ussd_end : usual _ sendUssd_finish
| us_ussd_reply u s : usual _ (ussd_reply u s)
| us_ussd_cancel u : usual _ (ussd_cancel u)
| us_dial n cb : usual _ (dial_start n cb)
| us_dial_end n cb : usual _ (dial_finish n cb)
| us_poll al timeout : usual _ (pollCallStatus al timeout)
| us_answer n : usual _ (answer n)
| us_hangup n : usual _ (hangup n)
| us_notified lines : usual _ (handleNotification lines).
Inductive deed_kind := Usual | Connecting | Toning.
Inductive deed_of : deed_kind -> forall A, M A -> Prop :=
| do_usual A c : usual A c -> deed_of Usual A c
| do_connect pin : deed_of Connecting _ (connect pin)
| do_tones n s : deed_of Toning _ (sendDtmfTone n s).

(** The modems of the process.  Entries of a history: modem [i] did [c], against the
    script, with this result and these events. *)
Record process := mk_process { own : nat -> modem; shared : tones }.
Inductive entry := Did (i : nat) (k : deed_kind) (A : Type) (c : M A) (sc : list reply) (x : res A) (evs : list event).
Definition who (e : entry) : nat := match e with Did i _ _ _ _ _ _ => i end.
Definition sort_of (e : entry) : deed_kind := match e with Did _ k _ _ _ _ _ => k end.
Definition put (f : nat -> modem) (i : nat) (m : modem) : nat -> modem := fun j => if Nat.eqb j i then m else f j.
Inductive history : process -> list entry -> process -> Prop :=
| hi_nil p : history p [] p
| hi_deed p i k A (c : M A) sc x w ds q : deed_of k A c -> c (start (wear (shared p) (own p i)) sc) = Done x w ->
    history (mk_process (put (own p) i (dev w)) (tones_of (dev w))) ds q -> history p (Did i k A c sc x (trace w) :: ds) q.
(** the entries of one modem *)
Definition only (i : nat) (ds : list entry) : list entry := filter (fun e => Nat.eqb (who e) i) ds.
(** the connecting entries *)
Definition connecting (ds : list entry) : list entry := filter (fun e => match sort_of e with Connecting => true | _ => false end) ds.
(** a connection that succeeds, with what it found out *)
Inductive found : entry -> option (list str) -> call_table -> Prop :=
| fo_connect i c sc evs commands k : repertoire (asked evs) commands -> kind_of commands (asked evs) k -> found (Did i Connecting unit c sc (Ok tt) evs) commands k.
Definition succeeded (e : entry) : Prop := match e with Did _ _ _ _ _ (Ok _) _ => True | _ => False end.
