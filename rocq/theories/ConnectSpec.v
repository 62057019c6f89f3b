(** Specification vocabulary for connecting. *)
From Verif Require Import Base ModemCore ModemSpec SendSpec TrackSpec CoverageSpec.

(** ** The SIM PIN *)
Definition pin_command (p : str) : str := lit "AT+CPIN=" ++ 34 :: p ++ [34].
Definition sends_pin (text : str) : Prop := starts_with (lit "AT+CPIN=") text.
(** the lines that came, in time or not *)
Definition lines_in (r : reply) : list str := match r with Lines ls => ls | NoReply ls => ls end.
(** the first "+CPIN" line is "+CPIN: READY" *)
Definition sim_ready (r : reply) : Prop :=
  exists before after, lines_in r = before ++ lit "+CPIN: READY" :: after /\ Forall (fun l => ~ starts_with (lit "+CPIN") l) before.
Definition pin_query : str := lit "AT+CPIN?" ++ [13].

(** What connect does about the PIN: nothing; or, after a query for which the SIM was
    not ready, it sends the PIN, again only after a busy reply, and never after
    that.  [sent]: the replies. *)
Definition is_busy (r : reply) : Prop := exists code, busy_reply code r.
Definition no_pin (l : list (str * option reply)) : Prop := Forall (fun q => ~ sends_pin (fst q)) l.
Definition pin_use (pin : option str) (l : list (str * option reply)) : Prop :=
  no_pin l \/
  exists p before rq sent after, pin = Some p /\
    l = before ++ (pin_query, Some rq) :: map (ask (pin_command p)) sent ++ after /\
    no_pin before /\ no_pin after /\ ~ sim_ready rq /\ Forall is_busy (removelast sent).
(** the SIM is unlocked: it was ready, or accepted the PIN *)
Definition unlocked (pin : option str) (l : list (str * option reply)) : Prop :=
  (exists rq, In (pin_query, Some rq) l /\ sim_ready rq) \/
  (exists p ls, pin = Some p /\ In (ask (pin_command p) (Lines ls)) l /\ good_answer ls).

(** ** The service centre *)
Definition csca_set (n : str) : str := lit "AT+CSCA=""" ++ n ++ [34].
Definition csca_query : str := lit "AT+CSCA?".
(** A modem's service centre number over a sequence of commands and answers: setting it
    sets it when accepted, answers to queries are true, setting the text mode
    parameters or resetting the modem can change it in any way, other commands do not
    change it. *)
Inductive centre_step : option str -> str * option reply -> option str -> Prop :=
| cs_set n ls c : good_answer ls -> centre_step c (ask (csca_set n) (Lines ls)) (Some n)
| cs_not_set n r c c' : (forall ls, r = Lines ls -> ~ good_answer ls) -> centre_step c (ask (csca_set n) r) c'
| cs_told ls n : good_answer ls -> first_says csca_line ls n -> centre_step (Some n) (ask csca_query (Lines ls)) (Some n)
| cs_untold r c : (forall ls n, r = Lines ls -> good_answer ls -> ~ first_says csca_line ls n) -> centre_step c (ask csca_query r) c
| cs_reset t r c c' : starts_with (lit "AT+CSMP") t \/ starts_with (lit "ATZ") t -> centre_step c (t, r) c'
| cs_other t r c : ~ starts_with (lit "AT+CSCA") t -> ~ starts_with (lit "AT+CSMP") t -> ~ starts_with (lit "ATZ") t -> centre_step c (t, r) c.
Inductive centre : option str -> list (str * option reply) -> option str -> Prop :=
| ce_nil c : centre c [] c
| ce_cons c q c' l c'' : centre_step c q c' -> centre c' l c'' -> centre c (q :: l) c''.
Definition csmp : str := lit "AT+CSMP=49,167,0,0" ++ [13].
(** the modem does not tell its number: it says nothing of the form, or that there is none *)
Definition untold (r : reply) : Prop :=
  (exists ls, r = Lines ls /\ good_answer ls /\ nothing_said csca_line ls) \/ (exists before line, r = Lines (before ++ [line]) /\ cm_error 83 330 line).
