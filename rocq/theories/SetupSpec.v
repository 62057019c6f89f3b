(** Specification vocabulary for what connect finds out and sets up. *)
From Verif Require Import Base ModemCore ModemSpec SendSpec CoverageSpec TrackSpec SmsModel.

(** ** Answers *)
(** the modem did what the command [c] asks, or refused it; [l]: commands and answers *)
Definition accepted (c : str) (l : list (str * option reply)) : Prop := exists ls, In (ask c (Lines ls)) l /\ good_answer ls.
Definition refusal (r : reply) : Prop := not_busy r /\ exists before line, r = Lines (before ++ [line]) /\ ~ good_line line.
Definition refused_command (c : str) (l : list (str * option reply)) : Prop := exists r, In (ask c r) l /\ refusal r.
(** the command [c] was put on the wire *)
Definition sent (c : str) (l : list (str * option reply)) : Prop := In (c ++ [13]) (map fst l).

(** the only command of the method [q] is [t], perhaps repeated *)
Definition queries {A} (t : string) (q : M A) : Prop := forall w,
  match q w with Done _ w' | Stuck w' => exists used, script w = used ++ script w' /\ asked (trace w') = asked (trace w) ++ map (ask (lit t)) used end.

(** ** AT+CLAC: the commands a modem knows *)
(** [s] is these fields with [sep] between them *)
Definition fields (sep s : str) (l : list str) : Prop := l <> [] /\ s = join sep l /\ Forall (fun f => ~ ModemSpec.substring sep f) l.
(** [t] is [s] without white space around it *)
Definition bare (s t : str) : Prop := exists a b, s = a ++ t ++ b /\ blank a /\ blank b /\
  (forall c r, t = c :: r -> is_space c = false) /\ (forall r c, t = r ++ [c] -> is_space c = false).
(** one line: the commands, separated by commas, possibly after "+CLAC" and one more
    character; several: one command a line *)
Definition without_clac (line s : str) : Prop :=
  (~ starts_with (lit "+CLAC") line /\ s = line) \/ (line = lit "+CLAC" /\ s = []) \/ exists c, line = lit "+CLAC" ++ c :: s.
Inductive listed : list str -> list str -> Prop :=
| li_line line final s l : without_clac line s -> fields [44] s l -> listed [line; final] l
| li_lines l1 l2 ls final l : Forall2 bare (l1 :: l2 :: ls) l -> listed (l1 :: l2 :: ls ++ [final]) l.
(** what an answer to AT+CLAC tells *)
Definition heard (r : reply) (x : option (list str)) : Prop :=
  match x with Some cs => exists ls, r = Lines ls /\ good_answer ls /\ listed ls cs | None => refusal r \/ exists line, r = Lines [line] /\ good_line line end.
(** what is known about the commands after AT+CLAC *)
Inductive repertoire : list (str * option reply) -> option (list str) -> Prop :=
| rp_some l ls cs : In (ask (lit "AT+CLAC") (Lines ls)) l -> good_answer ls -> listed ls cs -> repertoire l (Some cs)
| rp_short l line : In (ask (lit "AT+CLAC") (Lines [line])) l -> good_line line -> repertoire l None
| rp_refused l : refused_command (lit "AT+CLAC") l -> repertoire l None.

(** ** The kind of modem, which decides how call updates are recognized *)
Definition knows (commands : option (list str)) (c : string) : Prop := exists cs, commands = Some cs /\ In (lit c) cs.
(** the name of the manufacturer is "huawei", in small or capital letters *)
Definition same_letter (x y : Z) : Prop := x = y \/ (65 <= x <= 90 /\ y = x + 32).
Definition by_huawei (l : list (str * option reply)) : Prop :=
  exists name more, In (ask (lit "AT+CGMI") (Lines (name :: more))) l /\ good_answer (name :: more) /\ Forall2 same_letter name (lit "huawei").
Definition not_huawei (l : list (str * option reply)) : Prop :=
  exists name more, In (ask (lit "AT+CGMI") (Lines (name :: more))) l /\ good_answer (name :: more) /\ ~ Forall2 same_letter name (lit "huawei").
(** not recognized by its commands, nor by its answer to AT+WIND? *)
Definition unrecognized (commands : option (list str)) (l : list (str * option reply)) : Prop :=
  match commands with
  | Some _ => ~ knows commands "+WIND" /\ ~ knows commands "+ZPAS" /\ (knows commands "^DTMF" -> knows commands "+VTS")
  | None => refused_command (lit "AT+WIND?") l
  end.
Inductive kind_of (commands : option (list str)) (l : list (str * option reply)) : call_table -> Prop :=
| k_wavecom : knows commands "+WIND" -> kind_of commands l TWavecom
| k_wavecom_old : commands = None -> accepted (lit "AT+WIND?") l -> kind_of commands l TWavecom
| k_zte : knows commands "+ZPAS" -> ~ knows commands "+WIND" -> kind_of commands l TZte
| k_huawei : knows commands "^DTMF" -> ~ knows commands "+VTS" -> ~ knows commands "+WIND" -> ~ knows commands "+ZPAS" -> kind_of commands l THuawei
| k_huawei_name : unrecognized commands l -> by_huawei l -> kind_of commands l THuawei
| k_zte_answer : unrecognized commands l -> not_huawei l -> accepted (lit "AT+ZPAS?") l -> kind_of commands l TZte
| k_unknown : unrecognized commands l -> not_huawei l -> refused_command (lit "AT+ZPAS?") l -> kind_of commands l TNone.
(** the settings for each kind, from [m] to [m'] *)
Definition dtmf_known (commands : option (list str)) (k : call_table) : Prop :=
  knows commands "+VTS" \/ k = THuawei \/ (commands = None /\ (k = TWavecom \/ k = TZte)).
Record configured (m m' : modem) (commands : option (list str)) (k : call_table) : Prop := {
  cf_table : callUpdates m' = match k with TNone => callUpdates m | _ => k end;
  (* without notifications the status is polled *)
  cf_poll : mustPoll m' = true <-> k = TNone;
  (* the answer to ATD comes at once, except from Wavecom and ZTE modems *)
  cf_atd : waitAtd m' = match k with TNone => true | THuawei => waitAtd m | _ => false end;
  (* ZTE modems do not tell that a call is initiated *)
  cf_init : waitInit m' = match k with TZte => false | _ => waitInit m end;
  cf_dtmf : dtmfSupport m' = true <-> dtmfSupport m = true \/ dtmf_known commands k;
  cf_huawei : dtmfHuawei m' = true <-> dtmfHuawei m = true \/ k = THuawei }.
(** voice calls and plain USSD, where there is a choice *)
Definition sends_option (commands : option (list str)) (l : list (str * option reply)) : Prop :=
  (sent (lit "AT^CVOICE=0") l <-> knows commands "^CVOICE") /\ (sent (lit "AT^USSDMODE=0") l <-> knows commands "^USSDMODE").
(** "+WIND: 50": the notifications that are wanted *)
Definition wind_value (ls : list str) (v : Z) : Prop :=
  exists before line after, ls = before ++ line :: after /\ starts_with (lit "+WIND:") line /\
    Forall (fun l => ~ starts_with (lit "+WIND:") l) before /\ number_text v (skipn 7 line).
Definition wind_on (l : list (str * option reply)) : Prop :=
  (exists ls, In (ask (lit "AT+WIND?") (Lines ls)) l /\ good_answer ls /\ wind_value ls 50) \/ accepted (lit "AT+WIND=50") l.

(** ** Message storage *)
(** the best memory in a list of memories: the first of ME, SM and SR that is in it *)
Definition offers (item : str) (mem : string) : Prop := ModemSpec.substring (34 :: lit mem ++ [34]) item.
Inductive best : str -> option str -> Prop :=
| be_me i : offers i "ME" -> best i (Some (lit """ME"""))
| be_sm i : ~ offers i "ME" -> offers i "SM" -> best i (Some (lit """SM"""))
| be_sr i : ~ offers i "ME" -> ~ offers i "SM" -> offers i "SR" -> best i (Some (lit """SR"""))
| be_none i : ~ offers i "ME" -> ~ offers i "SM" -> ~ offers i "SR" -> best i None.
(** the answer to AT+CPMS=?: the first "+CPMS" line, from its first space on, in the
    parts between "),(" *)
Definition storages (ls : list str) (items : list str) : Prop :=
  exists before line after a s, ls = before ++ line :: after /\ Forall (fun l => ~ starts_with (lit "+CPMS") l) before /\
    starts_with (lit "+CPMS") line /\ line = a ++ 32 :: s /\ ~ In 32 a /\ fields (lit "),(") s items.
Definition chosen (b : option str) : str := match b with Some m => m | None => [] end.
(** storage: refused, unusable (an empty part), or each set to the best memory *)
Inductive storage (l : list (str * option reply)) : option (list (option str)) -> Prop :=
| st_refused : refused_command (lit "AT+CPMS=?") l -> storage l None
| st_unusable ls items : In (ask (lit "AT+CPMS=?") (Lines ls)) l -> good_answer ls -> storages ls items -> In [] items -> storage l None
| st_set ls items bs : In (ask (lit "AT+CPMS=?") (Lines ls)) l -> good_answer ls -> storages ls items -> ~ In [] items -> Forall2 best items bs ->
    accepted (lit "AT+CPMS=" ++ join [44] (map chosen bs)) l -> storage l (Some bs).
(** the memory that is read: the best one of the first part *)
Definition memory_of (st : option (list (option str))) (old : option str) : option str :=
  match st with Some (Some mem :: _) => Some mem | _ => old end.

(** ** The message mode of the modem *)
Definition mode_command (text : bool) : str := lit "AT+CMGF=" ++ [if text then 49 else 48].
Inductive mode_step : bool -> str * option reply -> bool -> Prop :=
| mo_set b ls c : good_answer ls -> mode_step c (ask (mode_command b) (Lines ls)) b
| mo_refused b ls c : ~ good_answer ls -> mode_step c (ask (mode_command b) (Lines ls)) c
| mo_late b ls c c' : mode_step c (ask (mode_command b) (NoReply ls)) c'
| mo_reset t r c c' : starts_with (lit "ATZ") t -> mode_step c (t, r) c'
| mo_other t r c : ~ starts_with (lit "AT+CMGF") t -> ~ starts_with (lit "ATZ") t -> mode_step c (t, r) c.
Inductive mode_after : bool -> list (str * option reply) -> bool -> Prop :=
| ma_nil c : mode_after c [] c
| ma_cons c q c' l c'' : mode_step c q c' -> mode_after c' l c'' -> mode_after c (q :: l) c''.
(** a history of assignments to smsTextMode: the modem object, and the commands; an
    assignment may fail, but not for lack of an answer *)
Inductive switched : modem -> list reply -> list bool -> modem -> list (str * option reply) -> Prop :=
| sw_nil m sc : switched m sc [] m []
| sw_cons m sc b bs x w m' l : set_text_mode b (start m sc) = Done x w -> (forall d, x <> Err (TimeoutException d)) -> switched (dev w) (script w) bs m' l ->
    switched m sc (b :: bs) m' (asked (trace w) ++ l).
