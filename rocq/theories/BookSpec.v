(** Specification vocabulary for the table of active calls. *)
From Verif Require Import Base ModemCore ModemSpec SendSpec TrackSpec CallModel NotifyModel PollSpec.

(** ** What is kept about calls *)
Record book := mk_book {
  b_calls : list call;              (* all the calls there have been *)
  b_table : list (Z * nat);         (* the active ones, by id *)
  b_dialling : option bool;         (* whether dial() waits, and whether it has been told *)
  b_dialled : option (Z * Z) }.     (* the id and type it was told *)
Definition book_of (m : modem) : book := mk_book (callObjs m) (activeCalls m) (dialEvent m) (dialResponse m).
Definition ids (b : book) : list Z := map fst (b_table b).

(** the table without an id; with an id entered, in its old place or at the end *)
Inductive without (id : Z) : list (Z * nat) -> list (Z * nat) -> Prop :=
| wo_nil : without id [] []
| wo_gone n t t' : without id t t' -> without id ((id, n) :: t) t'
| wo_kept j n t t' : j <> id -> without id t t' -> without id ((j, n) :: t) ((j, n) :: t').
Inductive entered (id : Z) (n : nat) : list (Z * nat) -> list (Z * nat) -> Prop :=
| en_end : entered id n [] [(id, n)]
| en_over k t : entered id n ((id, k) :: t) ((id, n) :: t)
| en_next j k t t' : j <> id -> entered id n t t' -> entered id n ((j, k) :: t) ((j, k) :: t').
(** one call changes *)
Definition at_call (n : nat) (f : call -> call) (l l' : list call) : Prop :=
  (forall c, nth_error l n = Some c -> nth_error l' n = Some (f c)) /\ (forall k, k <> n -> nth_error l' k = nth_error l k) /\ length l' = length l.
Definition now_answered (c : call) : call := mk_call (c_id c) (c_incoming c) (c_type c) (c_number c) (c_callback c) true (c_active c) (c_ringing c) (c_ringCount c).
Definition now_ended (c : call) : call := mk_call (c_id c) (c_incoming c) (c_type c) (c_number c) (c_callback c) false false (c_ringing c) (c_ringCount c).

(** ** Reports about calls *)
(** A call ends: it is marked inactive and unanswered, and removed from the table.
    The id 0, and ids that are not in use, are ignored. *)
Inductive ends_call (id : Z) (b : book) : book -> Prop :=
| ec_unknown : id = 0 \/ ~ In id (ids b) -> ends_call id b b
| ec_ended n calls table : id <> 0 -> In (id, n) (b_table b) -> at_call n now_ended (b_calls b) calls -> without id (b_table b) table ->
    ends_call id b (mk_book calls table (b_dialling b) (b_dialled b)).
Inductive takes_report (b : book) : report -> res unit -> book -> Prop :=
| tk_nobody id ty : b_dialling b = None -> takes_report b (Initiated id ty) (Ok tt) b
| tk_initiated id ty : b_dialling b <> None -> takes_report b (Initiated id ty) (Ok tt) (mk_book (b_calls b) (b_table b) (Some true) (Some (id, ty)))
| tk_answered id n calls : In (id, n) (b_table b) -> at_call n now_answered (b_calls b) calls ->
    takes_report b (Answered id) (Ok tt) (mk_book calls (b_table b) (b_dialling b) (b_dialled b))
| tk_unknown id : ~ In id (ids b) -> takes_report b (Answered id) (Err KeyError) b
| tk_ended id b' : ends_call id b b' -> takes_report b (CallEnded (Some id)) (Ok tt) b'
| tk_rejected id b' : ends_call id b b' -> takes_report b (Rejected (Some id)) (Ok tt) b'
| tk_ended_none : takes_report b (CallEnded None) (Ok tt) b
| tk_rejected_none : takes_report b (Rejected None) (Ok tt) b.

(** the status callback of call [n], if it has one *)
Definition status_told (n : nat) (c : call) (evs : list event) : Prop := if c_callback c then evs = [EStatus n] else evs = [].
(** The callbacks for a report: that of the call which is answered or ends. *)
Definition status_of (b : book) (n : nat) (evs : list event) : Prop := match nth_error (b_calls b) n with Some c => status_told n c evs | None => evs = [] end.
Inductive tells (b : book) : report -> list event -> Prop :=
| tl_initiated id ty : tells b (Initiated id ty) []
| tl_answered id n evs : In (id, n) (b_table b) -> status_of b n evs -> tells b (Answered id) evs
| tl_unknown id : ~ In id (ids b) -> tells b (Answered id) []
| tl_ended r id n evs : r = CallEnded (Some id) \/ r = Rejected (Some id) -> id <> 0 -> In (id, n) (b_table b) -> status_of b n evs -> tells b r evs
| tl_ignored r id : r = CallEnded (Some id) \/ r = Rejected (Some id) -> id = 0 \/ ~ In id (ids b) -> tells b r []
| tl_none r : r = CallEnded None \/ r = Rejected None -> tells b r [].

(** the first outgoing call in the table that is not answered *)
Definition outgoing_unanswered (b : book) (n : nat) : Prop := exists c, nth_error (b_calls b) n = Some c /\ c_incoming c = false /\ c_answered c = false.
Inductive first_unanswered (b : book) : option (Z * nat) -> Prop :=
| fu_some t1 id n t2 : b_table b = t1 ++ (id, n) :: t2 -> outgoing_unanswered b n -> Forall (fun e => ~ outgoing_unanswered b (snd e)) t1 -> first_unanswered b (Some (id, n))
| fu_none : Forall (fun e => ~ outgoing_unanswered b (snd e)) (b_table b) -> first_unanswered b None.

(** What the modem says about calls (modem.py:253-280).  [Anonymous]: without an id. *)
Inductive news := News (r : report) | SomeAnswered | SomeRejected.
Definition digit (d : Z) : Prop := is_digit d = true.
Inductive call_news : call_table -> str -> news -> Prop :=
| cn_orig d t nl : digit d -> digit t -> line_end nl -> call_news THuawei (lit "^ORIG:" ++ [d; 44; t] ++ nl) (News (Initiated (d - 48) (t - 48)))
| cn_conn d t nl : digit d -> digit t -> line_end nl -> call_news THuawei (lit "^CONN:" ++ [d; 44; t] ++ nl) (News (Answered (d - 48)))
| cn_cend d t ds ds2 nl : digit d -> digit t -> digits ds -> digits ds2 -> line_end nl ->
    call_news THuawei (lit "^CEND:" ++ [d; 44; t; 44] ++ ds ++ [44] ++ ds2 ++ nl) (News (CallEnded (Some (d - 48))))
| cn_wind5 d nl : digit d -> line_end nl -> call_news TWavecom (lit "+WIND: 5," ++ [d] ++ nl) (News (Initiated (d - 48) 1))
| cn_ok nl : line_end nl -> call_news TWavecom (lit "OK" ++ nl) SomeAnswered
| cn_wind6 d nl : digit d -> line_end nl -> call_news TWavecom (lit "+WIND: 6," ++ [d] ++ nl) (News (CallEnded (Some (d - 48))))
| cn_connect nl : line_end nl -> call_news TZte (lit "CONNECT" ++ nl) SomeAnswered
| cn_hangup sp ds nl : blank sp -> digits ds -> line_end nl -> call_news TZte (lit "HANGUP:" ++ sp ++ ds ++ nl) (News (CallEnded (Some (dec_value ds))))
| cn_zte_ok nl : line_end nl -> call_news TZte (lit "OK" ++ nl) SomeRejected.
Inductive takes_news (b : book) : news -> res unit -> book -> Prop :=
| tn_report r x b' : takes_report b r x b' -> takes_news b (News r) x b'
| tn_answered id n x b' : first_unanswered b (Some (id, n)) -> takes_report b (Answered id) x b' -> takes_news b SomeAnswered x b'
| tn_rejected id n x b' : first_unanswered b (Some (id, n)) -> takes_report b (CallEnded (Some id)) x b' -> takes_news b SomeRejected x b'
| tn_none w : first_unanswered b None -> w = SomeAnswered \/ w = SomeRejected -> takes_news b w (Ok tt) b.
Inductive tells_news (b : book) : news -> list event -> Prop :=
| tw_report r evs : tells b r evs -> tells_news b (News r) evs
| tw_answered id n evs : first_unanswered b (Some (id, n)) -> tells b (Answered id) evs -> tells_news b SomeAnswered evs
| tw_rejected id n evs : first_unanswered b (Some (id, n)) -> tells b (CallEnded (Some id)) evs -> tells_news b SomeRejected evs
| tw_none w : first_unanswered b None -> w = SomeAnswered \/ w = SomeRejected -> tells_news b w [].

(** ** Histories *)
(** what is done with calls: by the application, by notifications, by the poller *)
Inductive call_op :=
| Dial (number : str) (callback : bool)           (* dial(), up to waiting *)
| DialEnd (number : str) (callback : bool)        (* dial(), after waiting *)
| Answer (n : nat) | Hangup (n : nat) | Tones (n : nat) (tones : str)
| Notification (lines : list str)
| Polled (r : report).
Definition handles_report (r : report) : M unit :=
  match r with
  | Initiated id ty => handleCallInitiated None id ty
  | Answered id => handleCallAnswered None id
  | CallEnded id => handleCallEnded None id false
  | Rejected id => handleCallRejected None id
  end.
Definition ignoring {A} (c : M A) : M unit := c ;;; ret tt.
Definition perform (o : call_op) : M unit :=
  match o with
  | Dial number cb => ignoring (dial_start number cb)
  | DialEnd number cb => ignoring (dial_finish number cb)
  | Answer n => answer n
  | Hangup n => hangup n
  | Tones n t => sendDtmfTone n t
  | Notification lines => handleNotification lines
  | Polled r => handles_report r
  end.
(** methods of calls are called on calls that there are *)
Definition applicable (o : call_op) (m : modem) : Prop :=
  match o with Answer n | Hangup n | Tones n _ => (n < length (callObjs m))%nat | _ => True end.
(** What was done one after the other, with the attributes before and after each.  An
    operation may fail, or never finish.  In between, everything that does not
    belong to calls may change in any way. *)
Inductive call_history : list (modem * call_op * modem) -> modem -> Prop :=
| ch_start m : callObjs m = [] -> activeCalls m = [] -> call_history [] m
| ch_op hs m o sc : call_history hs m -> applicable o m -> call_history (hs ++ [(m, o, state_after (perform o (start m sc)))]) (state_after (perform o (start m sc)))
| ch_other hs m m' : call_history hs m -> callObjs m' = callObjs m -> activeCalls m' = activeCalls m -> call_history hs m'.

(** the table lists calls that are active, under their own ids, no id twice *)
Definition sound_book (b : book) : Prop :=
  NoDup (ids b) /\ forall id n, In (id, n) (b_table b) -> exists c, nth_error (b_calls b) n = Some c /\ c_id c = id /\ c_active c = true.
(** the active calls are in the table *)
Definition complete_book (b : book) : Prop :=
  forall n c, nth_error (b_calls b) n = Some c -> c_active c = true -> In (c_id c, n) (b_table b).
(** a new call gets an id that is not in use; hangup() is not called for a call that
    has ended while another has its id *)
Definition no_clash (m : modem) (o : call_op) (m' : modem) : Prop :=
  (forall c, nth_error (callObjs m') (length (callObjs m)) = Some c -> ~ In (c_id c) (ids (book_of m))) /\
  (forall n c, o = Hangup n -> nth_error (callObjs m) n = Some c -> c_active c = false -> ~ In (c_id c) (ids (book_of m))).
(** calls whose ids are counted by the program, not told by the modem; a call leaves
    the table only when it is the last in it *)
Definition counted (m : modem) (o : call_op) (m' : modem) : Prop :=
  (forall number cb, o <> DialEnd number cb) /\
  forall a id b, ids (book_of m) = a ++ id :: b -> b <> [] -> In id (ids (book_of m')).
(** 1, 2, ..., k *)
Definition count_up (k : nat) : list Z := map (fun i => Z.of_nat i + 1) (seq 0 k).

(** ** Methods *)
(** lines that concern no handler *)
Definition unrelated (t : call_table) (line : str) : Prop :=
  ~ ModemSpec.substring (lit "RING") line /\ (forall s, line <> lit "+CMTI" ++ s /\ line <> lit "+CUSD" ++ s /\ line <> lit "+CDSI" ++ s) /\
  forall n, ~ call_news t line n.
(** hanging up a call that rings, stops the ringing *)
Definition hushed (c : call) : call :=
  mk_call (c_id c) (c_incoming c) (c_type c) (c_number c) (c_callback c) (c_answered c) (c_active c) (if c_incoming c then false else c_ringing c) (c_ringCount c).
Definition picked_up (c : call) : call :=
  mk_call (c_id c) (c_incoming c) (c_type c) (c_number c) (c_callback c) true (c_active c) false (c_ringCount c).
(** What hangup() of call [n] does: [evs] are the commands and callbacks.  ATH is sent
    unless the call has ended; the call's id is freed. *)
Inductive hangs_up (n : nat) (c : call) (b : book) : res unit -> list event -> book -> Prop :=
| hu_ended calls table : c_active c = false -> at_call n hushed (b_calls b) calls -> without (c_id c) (b_table b) table ->
    hangs_up n c b (Ok tt) [] (mk_book calls table (b_dialling b) (b_dialled b))
| hu_done calls table evs told a : c_active c = true -> exchange (lit "ATH") [13] evs (Ok a) -> status_told n c told ->
    at_call n (fun c => now_ended (hushed c)) (b_calls b) calls -> without (c_id c) (b_table b) table ->
    hangs_up n c b (Ok tt) (evs ++ told) (mk_book calls table (b_dialling b) (b_dialled b))
| hu_failed calls evs e : c_active c = true -> exchange (lit "ATH") [13] evs (Err e) -> at_call n hushed (b_calls b) calls ->
    hangs_up n c b (Err e) evs (mk_book calls (b_table b) (b_dialling b) (b_dialled b)).
(** answer(): only while the call rings *)
Inductive answers (n : nat) (c : call) (b : book) : res unit -> list event -> book -> Prop :=
| an_silent : c_ringing c = false -> answers n c b (Ok tt) [] b
| an_done calls evs told a : c_ringing c = true -> exchange (lit "ATA") [13] evs (Ok a) -> status_told n c told -> at_call n picked_up (b_calls b) calls ->
    answers n c b (Ok tt) (evs ++ told) (mk_book calls (b_table b) (b_dialling b) (b_dialled b))
| an_failed evs e : c_ringing c = true -> exchange (lit "ATA") [13] evs (Err e) -> answers n c b (Err e) evs b.
