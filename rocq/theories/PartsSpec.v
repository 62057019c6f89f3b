(** Long messages: the reference in the headers of the parts, and the number by which the
    message is tracked. *)
From Verif Require Import Base PduModel PduSpec SmsSpec SubmitSpec DeliverSpec ModemCore ModemSpec SmsModel SendSpec TrackSpec.

(** What the device took, with its answers: what was written ended by Ctrl-Z and answered
    without an error *)
Inductive took : list event -> list (str * list str) -> Prop :=
| took_none : took [] []
| took_part text ls line evs l : good_line line -> took evs l ->
    took (EWrite (text ++ [26]) (Some (Lines (ls ++ [line]))) :: evs) ((text, ls ++ [line]) :: l)
| took_other e evs l : (forall text ls line, e = EWrite (text ++ [26]) (Some (Lines (ls ++ [line]))) -> ~ good_line line) -> took evs l ->
    took (e :: evs) l.
Definition trace_after {A} (o : out A) : list event := match o with Done _ w => trace w | Stuck w => trace w end.

(** the text needs more than one PDU, and this is their number *)
Definition long (text : str) (n : Z) : Prop := exists gsm7, uses_gsm7 text gsm7 /\ max_chars gsm7 < len text /\ n = len text / max_chars gsm7 + 1.

(** [hex] is the hexadecimal text of an SMS-SUBMIT to [to] that says it is part [i + 1] of [n]
    of message [r], and carries those characters of [text] *)
Definition part_of (to text : str) (r n : Z) (i : nat) (hex : str) : Prop :=
  exists gsm7 w, uses_gsm7 text gsm7 /\ hex_text (submit_octets w) hex /\ s_smsc w = [0] /\ s_vp w = [] /\
    s_first w = submit_first false 0 true true /\ encodeAddressField to false = Ok (s_dest w) /\
    user_data gsm7 (concat_header r n (Z.of_nat i + 1)) (chunk (part_chars gsm7) i text) (s_udl w) (s_ud w).
Definition parts_with (to text : str) (r n : Z) (tk : list (str * list str)) : Prop :=
  forall i hex answer, nth_error tk i = Some (hex, answer) -> part_of to text r n i hex.

(** A call of sendSms: what the device took, and the number of the object when the call
    returned *)
Record call := mk_call { c_to : str; c_text : str; c_took : list (str * list str); c_number : option Z }.
Inductive calls (m : modem) : list call -> modem -> Prop :=
| calls_none : calls m [] m
| calls_returned cs m1 d t fl wt sc obj w s tk : calls m cs m1 ->
    sendSms d t fl wt (start m1 sc) = Done (Ok obj) w -> nth_error (sentObjs (dev w)) obj = Some s -> took (trace w) tk ->
    calls m (cs ++ [mk_call d t tk (Some (s_reference s))]) (dev w)
| calls_failed cs m1 d t fl wt sc tk : calls m cs m1 ->
    (forall obj w, sendSms d t fl wt (start m1 sc) <> Done (Ok obj) w) -> took (trace_after (sendSms d t fl wt (start m1 sc))) tk ->
    calls m (cs ++ [mk_call d t tk None]) (state_after (sendSms d t fl wt (start m1 sc))).

(** the device numbers what it takes consecutively, modulo 256 *)
Inductive counting : Z -> list (str * list str) -> Z -> Prop :=
| counting_none c : counting c [] c
| counting_one c text answer l c' : reference_in answer c -> counting ((c + 1) mod 256) l c' -> counting c ((text, answer) :: l) c'.
