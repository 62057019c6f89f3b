(** Specification vocabulary for the example programs. *)
From Verif Require Import Base ModemCore ModemSpec MonadProofs SendSpec TrackSpec CoverageSpec SmsModel CallModel CallSpec NotifyModel PollSpec BookSpec UssdModel UssdSpec CallbackModel CallbackSpec DemoModel.

(** ** The reply of sms_handler_demo: the first 20 characters, quoted *)
Inductive thanks : str -> str -> Prop :=
| th_short t : (length t <= 20)%nat -> thanks t (lit "SMS received: """ ++ t ++ lit """")
| th_long p q : length p = 20%nat -> q <> [] -> thanks (p ++ q) (lit "SMS received: """ ++ p ++ lit "...""").
(** what two such programs write to each other, after a first message *)
Inductive echoes (t : str) : nat -> str -> Prop :=
| ec_first : echoes t 0 t
| ec_next k u v : echoes t k u -> thanks u v -> echoes t (S k) v.

(** ** Calls *)
(** what other threads do keeps the call, its id and whether it has a callback *)
Definition keeps_call (n : nat) (env : M unit) : Prop :=
  forall w c, nth_error (callObjs (dev w)) n = Some c -> exists c', nth_error (callObjs (dev (last_of (env w)))) n = Some c' /\ c_id c' = c_id c /\ c_callback c' = c_callback c.
(** the tones of call [c] are sent, or refused because the call is not answered *)
Inductive toned (m : modem) (c : call) (tones : str) : list event -> res unit -> Prop :=
| to_sent base s y evs x : c_answered c = true -> tone_base (dtmfHuawei m) (c_id c) base -> tone_list base tones s -> exchange (lit "AT" ++ s) [13] evs y -> tone_result y x -> toned m c tones evs x
| to_refused : c_answered c = false -> toned m c tones [] (Err InvalidStateException).
(** The outcome of the tones [x1] and of hanging up [x2]; exceptions that are [caught]. *)
Inductive outcome_of (caught : exn -> Prop) : res unit -> res unit -> res unit -> Prop :=
| oo_fine : outcome_of caught (Ok tt) (Ok tt) (Ok tt)
| oo_caught e : caught e -> outcome_of caught (Err e) (Ok tt) (Ok tt)
| oo_raised e : ~ caught e -> outcome_of caught (Err e) (Ok tt) (Err e)
| oo_busy x e : outcome_of caught x (Err e) (Err e).
Definition interrupted (e : exn) : Prop := exists code, e = InterruptedException code.
(** CommandError and what is derived from it *)
Definition command_failed (e : exn) : Prop := is_CommandError e = true.

(** incoming_call_demo, from the second ring on *)
Inductive tones_played (n : nat) (env : M unit) (w : world) : res unit -> world -> Prop :=
| tp_env e w1 : env (calling (ESleep 20) w) = Done (Err e) w1 -> tones_played n env w (Err e) w1
| tp_gone w1 c : env (calling (ESleep 20) w) = Done (Ok tt) w1 -> nth_error (callObjs (dev w1)) n = Some c -> c_answered c = false ->
    tones_played n env w (Err InvalidStateException) w1
| tp_played w1 c e1 x1 w2 e2 x2 w3 x : env (calling (ESleep 20) w) = Done (Ok tt) w1 -> nth_error (callObjs (dev w1)) n = Some c -> c_answered c = true ->
    toned (dev w1) c (lit "9515999955951") e1 x1 -> trace w2 = trace w1 ++ e1 -> same_but_wait (dev w1) (dev w2) ->
    hangs_up n c (book_of (dev w2)) x2 e2 (book_of (dev w3)) -> trace w3 = trace w2 ++ e2 -> outcome_of interrupted x1 x2 x -> tones_played n env w x w3.
Inductive demo_answers (n : nat) (c : call) (env : M unit) (w : world) : res unit -> world -> Prop :=
| da_refused e evs w1 : answers n c (book_of (dev w)) (Err e) evs (book_of (dev w1)) -> trace w1 = trace w ++ evs -> demo_answers n c env w (Err e) w1
| da_picked evs w1 x w' : answers n c (book_of (dev w)) (Ok tt) evs (book_of (dev w1)) -> trace w1 = trace w ++ evs -> tones_played n env w1 x w' -> demo_answers n c env w x w'.

(** dial_callback_demo and dial_polling_demo when the call has been answered; [marks] is
    what follows when nothing goes wrong with hanging up, [told] what its callback does *)
Inductive tones_dialled (n : nat) (env : M unit) (told marks : list event) (w : world) : res unit -> world -> Prop :=
| td_env e w1 : env (calling (ESleep 30) w) = Done (Err e) w1 -> tones_dialled n env told marks w (Err e) w1
| td_gone w1 w2 c : env (calling (ESleep 30) w) = Done (Ok tt) w1 -> nth_error (callObjs (dev w1)) n = Some c -> c_active c = false ->
    dev w2 = dev w1 -> trace w2 = trace w1 ++ marks -> tones_dialled n env told marks w (Ok tt) w2
| td_played w1 c e1 x1 w2 e2 w3 x : env (calling (ESleep 30) w) = Done (Ok tt) w1 -> nth_error (callObjs (dev w1)) n = Some c -> c_active c = true ->
    toned (dev w1) c (lit "9515999955951") e1 x1 -> trace w2 = trace w1 ++ e1 -> same_but_wait (dev w1) (dev w2) ->
    hangs_up n c (book_of (dev w2)) (Ok tt) e2 (book_of (dev w3)) -> trace w3 = trace w2 ++ e2 ++ told ++ marks ->
    outcome_of (fun e => interrupted e \/ command_failed e) x1 (Ok tt) x -> tones_dialled n env told marks w x w3
| td_failed w1 c e1 x1 w2 e2 e w3 : env (calling (ESleep 30) w) = Done (Ok tt) w1 -> nth_error (callObjs (dev w1)) n = Some c -> c_active c = true ->
    toned (dev w1) c (lit "9515999955951") e1 x1 -> trace w2 = trace w1 ++ e1 -> same_but_wait (dev w1) (dev w2) ->
    hangs_up n c (book_of (dev w2)) (Err e) e2 (book_of (dev w3)) -> trace w3 = trace w2 ++ e2 -> tones_dialled n env told marks w (Err e) w3.
(** waiting, while the call is active and not answered *)
Inductive awaits (n : nat) : list (M unit) -> world -> world -> Prop :=
| aw_here w : awaits n [] w w
| aw_pause env envs w w1 w2 c : nth_error (callObjs (dev w)) n = Some c -> c_active c = true -> c_answered c = false ->
    env (calling (ESleep 5) w) = Done (Ok tt) w1 -> awaits n envs w1 w2 -> awaits n (env :: envs) w w2.
(** How the loop of dial_polling_demo goes on after that. *)
Inductive looks (n : nat) (was : bool) : list (M unit) -> world -> res (option bool) -> world -> Prop :=
| lo_over envs w c : nth_error (callObjs (dev w)) n = Some c -> c_active c = false -> looks n was envs w (Ok (Some was)) w
| lo_still w c : nth_error (callObjs (dev w)) n = Some c -> c_active c = true -> looks n was [] w (Ok None) w
| lo_failed env envs w c e w1 : nth_error (callObjs (dev w)) n = Some c -> c_active c = true -> c_answered c = false ->
    env (calling (ESleep 5) w) = Done (Err e) w1 -> looks n was (env :: envs) w (Err e) w1
| lo_tones env envs w c x w1 : nth_error (callObjs (dev w)) n = Some c -> c_active c = true -> c_answered c = true ->
    tones_dialled n env [] [] w x w1 -> (x = Ok tt -> exists c1, nth_error (callObjs (dev w1)) n = Some c1 /\ c_active c1 = false) ->
    looks n was (env :: envs) w (match x with Ok _ => Ok (Some true) | Err e => Err e end) w1.

(** ** ussd_demo *)
(** the answer, in the acknowledgement [ls] or in the notifications [ns] after it *)
Inductive ussd_answer (ls : list str) (ns : list (list str)) : res ussd -> Prop :=
| ua_now l : In l ls -> starts_with (lit "+CUSD") l -> ussd_answer ls ns (parseCusdResponse ls)
| ua_later : length ls = 1%nat \/ Forall (fun l => ~ starts_with (lit "+CUSD") l) ls ->
    ussd_answer ls ns (match last_response ns with Some u => Ok u | None => Err (TimeoutException None) end).
(** the session is closed if it is open *)
Inductive ussd_closed (u : ussd) : list event -> res unit -> Prop :=
| uc_ended : u_active u = false -> ussd_closed u [] (Ok tt)
| uc_cancelled evs y : u_active u = true -> exchange (lit "AT+CUSD=2") [13] evs y -> ussd_closed u evs (match y with Ok _ => Ok tt | Err e => Err e end).
Inductive ussd_shown (s : str) (ns : list (list str)) : list event -> res unit -> Prop :=
| us_refused first e : exchange (ussd_command s) [13] first (Err e) -> ussd_shown s ns first (Err e)
| us_failed first ls e : exchange (ussd_command s) [13] first (Ok ls) -> ussd_answer ls ns (Err e) -> ussd_shown s ns first (Err e)
| us_answered first ls u second x : exchange (ussd_command s) [13] first (Ok ls) -> ussd_answer ls ns (Ok u) -> ussd_closed u second x -> ussd_shown s ns (first ++ second) x.
