(** Model of gsmmodem/modem.py: the table of active calls, changed by several threads.

    Every notification is handled in a thread of its own (modem.py:847-855), while threads
    of the application dial, answer and hang up.  All of
    them use the dict activeCalls and the Call objects in it, without a lock.  Here each
    step is one access to the dict, or to an attribute of a Call; what a thread does in
    between concerns only itself.  (CallModel.v has the same methods, one at a time.)

    A loop over the values of the dict raises RuntimeError when the dict has another size
    than at the beginning of the loop.  While the dict is as it was, the loop goes through
    it in order.  When it is another dict of the same size, the loop may get any entry
    next, or end (in CPython that depends on the layout of the hash table).

    Left out: what comes before line 924 in _handleIncomingCall (the number and the type
    of the call are given here; it concerns the dict in no way), and dial() up to the entry
    of its call (CallModel.v, MeetModel.v).  Commands may end in any way.  Callbacks do
    nothing, as in CallModel.v. *)
From Verif Require Export Base UtilModel ModemCore SmsModel CallModel.

(** Call objects, numbered in the order of their creation, and activeCalls *)
Record phone := mk_phone { p_calls : list call; p_table : list (Z * nat) }.
Definition call_at (p : phone) (n : nat) : call := nth n (p_calls p) no_call.
Definition alter (n : nat) (f : call -> call) (p : phone) : phone := mk_phone (update (p_calls p) n f) (p_table p).
Definition enter (c : call) (p : phone) : phone := mk_phone (p_calls p ++ [c]) (zset (p_table p) (c_id c) (length (p_calls p))).
Definition remove (id : Z) (p : phone) : phone := mk_phone (p_calls p) (zdel (p_table p) id).

(** How a thread ends: normally, with an exception, or with RuntimeError ("dictionary
    changed size during iteration") *)
Inductive outcome := Fine | Raised (e : exn) | SizeChanged.
Definition outcome_of (x : res unit) : outcome := match x with Ok _ => Fine | Err e => Raised e end.

(** A loop over the dict that began when it was [seen], and has made [pos] turns *)
Record loop := mk_loop { seen : list (Z * nat); pos : nat }.
Definition further (l : loop) : loop := mk_loop (seen l) (S (pos l)).
Inductive turn := Yields (n : nat) | Ends | Breaks | Unclear.
Definition entry_eqb (a b : Z * nat) : bool := (fst a =? fst b) && Nat.eqb (snd a) (snd b).
Definition next_turn (p : phone) (l : loop) : turn :=
  if Nat.eqb (length (p_table p)) (length (seen l)) then
    if list_eqb entry_eqb (p_table p) (seen l) then match nth_error (seen l) (pos l) with Some (_, n) => Yields n | None => Ends end
    else Unclear
  else Breaks.

(** Where a thread is: what it does next.
    _handleCallEnded and _handleCallRejected, modem.py:966-989; [filter]: filterUnanswered *)
Inductive end_stage :=
| ESearch (filter : bool)                          (* 973: the loop begins *)
| ELoop (filter : bool) (l : loop)                 (* 973: its next turn *)
| ELook (filter : bool) (l : loop) (n : nat)       (* 974-977 *)
| ETest (id : Z)                                   (* 978 *)
| EGet1 (id : Z)                                   (* 979: activeCalls[callId] *)
| EUnanswer (id : Z) (n : nat)                     (* 979: .answered = False *)
| EGet2 (id : Z)                                   (* 980 *)
| EStop (id : Z) (n : nat)                         (* 980: .active = False *)
| EDel (id : Z)                                    (* 981 *)
| EOver (x : outcome).
(** _handleCallAnswered, modem.py:949-964 *)
Inductive answered_stage :=
| ASearch | ALoop (l : loop) | ALook (l : loop) (n : nat)       (* 958-959 *)
| AGet (id : Z)                                    (* 955, 964 *)
| AAnswer (n : nat)                                (* 955, 960, 964 *)
| AOver (x : outcome).
(** Call.hangup and IncomingCall.hangup, modem.py:1272-1282, 1318-1321 *)
Inductive hang_stage :=
| HHush                                            (* 1320 *)
| HActive                                          (* 1277 *)
| HWrite                                           (* 1278 *)
| HUnanswer                                        (* 1279 *)
| HStop                                            (* 1280 *)
| HIn                                              (* 1281 *)
| HDel                                             (* 1282 *)
| HOver (x : outcome).
(** IncomingCall.answer, modem.py:1308-1316 *)
Inductive pick_stage :=
| PRinging                                         (* 1312 *)
| PWrite                                           (* 1313 *)
| PHush                                            (* 1314 *)
| PAnswer                                          (* 1315 *)
| POver (x : outcome).
(** _handleIncomingCall, modem.py:924-933 *)
Inductive ring_stage :=
| RSearch                                          (* 925: the loop begins *)
| RLoop (l : loop) (found : option nat)            (* 925: its next turn *)
| RLook (l : loop) (found : option nat) (n : nat)  (* 926-928: the number; reading ringCount *)
| RCount (l : loop) (n : nat) (k : Z)              (* 928: writing ringCount *)
| RLen                                             (* 930 *)
| REnter (id : Z)                                  (* 931-932 *)
| RTell (n : nat)                                  (* 933 *)
| ROver (x : outcome).
(** dial, modem.py:724-728, or from 737 on with the id it was told *)
Inductive dial_stage :=
| DLen                                             (* 724 *)
| DEnter (id : Z) (ty : Z)                         (* 726-727, 737-738 *)
| DOver (n : nat).                                 (* it returns the call *)
Inductive thread :=
| TEnd (st : end_stage)
| TAnswered (st : answered_stage)
| THang (n : nat) (st : hang_stage)
| TPick (n : nat) (st : pick_stage)
| TRing (number : option str) (callType : option str) (st : ring_stage)
| TDial (number : str) (callback : bool) (st : dial_stage).

(** What is done, for the statements.  [LFound]: the handler of an end, or hangup(),
    finds the call [n] under [id]; [LGone]: it is removed; [LStatus]: the status callback; [LRing]: the callback for incoming calls. *)
Inductive label :=
| LStart (i : nat) (t : thread)
| LFound (i : nat) (id : Z) (n : nat)
| LStatus (i n : nat)
| LGone (i : nat) (id : Z) (n : nat)
| LEntered (i : nat) (id : Z) (n : nat)
| LRing (i n : nat)
| LWrote (i : nat) (cmd : str) (x : res unit)
| LQuiet (i : nat).

(** The answered setter, modem.py:1235-1239.  (The callback function of a Call never
    changes.) *)
Definition mark (i n : nat) (b : bool) (p : phone) : phone * label :=
  (alter n (with_answered b) p, if c_callback (call_at p n) then LStatus i n else LQuiet i).
(** del activeCalls[id] *)
Definition delete (i : nat) (id : Z) (p : phone) : phone * outcome * label :=
  match zget (p_table p) id with
  | Some n => (remove id p, Fine, LGone i id n)
  | None => (p, Raised KeyError, LQuiet i)
  end.

(** A step that needs no input.  [t]: what the loop gives *)
Definition end_turn (filter : bool) (l : loop) (t : turn) : option end_stage :=
  match t with
  | Yields n => Some (ELook filter l n)
  | Ends => Some (EOver Fine)                      (* 978: callId is None *)
  | Breaks => Some (EOver SizeChanged)
  | Unclear => None
  end.
Definition end_go (i : nat) (p : phone) (st : end_stage) : option (phone * end_stage * label) :=
  match st with
  | ESearch f => Some (p, ELoop f (mk_loop (p_table p) 0), LQuiet i)
  | ELoop f l => match end_turn f l (next_turn p l) with Some st' => Some (p, st', LQuiet i) | None => None end
  | ELook f l n =>
      if negb (c_incoming (call_at p n)) && (negb f || negb (c_answered (call_at p n)))
      then Some (p, ETest (c_id (call_at p n)), LQuiet i) else Some (p, ELoop f (further l), LQuiet i)
  | ETest id =>
      if id =? 0 then Some (p, EOver Fine, LQuiet i)
      else match zget (p_table p) id with Some n => Some (p, EGet1 id, LFound i id n) | None => Some (p, EOver Fine, LQuiet i) end
  | EGet1 id => match zget (p_table p) id with Some n => Some (p, EUnanswer id n, LQuiet i) | None => Some (p, EOver (Raised KeyError), LQuiet i) end
  | EUnanswer id n => let (p', e) := mark i n false p in Some (p', EGet2 id, e)
  | EGet2 id => match zget (p_table p) id with Some n => Some (p, EStop id n, LQuiet i) | None => Some (p, EOver (Raised KeyError), LQuiet i) end
  | EStop id n => Some (alter n (with_active false) p, EDel id, LQuiet i)
  | EDel id => let '(p', x, e) := delete i id p in Some (p', EOver x, e)
  | EOver _ => None
  end.
Definition answered_turn (l : loop) (t : turn) : option answered_stage :=
  match t with Yields n => Some (ALook l n) | Ends => Some (AOver Fine) | Breaks => Some (AOver SizeChanged) | Unclear => None end.
Definition answered_go (i : nat) (p : phone) (st : answered_stage) : option (phone * answered_stage * label) :=
  match st with
  | ASearch => Some (p, ALoop (mk_loop (p_table p) 0), LQuiet i)
  | ALoop l => match answered_turn l (next_turn p l) with Some st' => Some (p, st', LQuiet i) | None => None end
  | ALook l n =>
      if negb (c_answered (call_at p n)) && negb (c_incoming (call_at p n)) then Some (p, AAnswer n, LQuiet i) else Some (p, ALoop (further l), LQuiet i)
  | AGet id => match zget (p_table p) id with Some n => Some (p, AAnswer n, LQuiet i) | None => Some (p, AOver (Raised KeyError), LQuiet i) end
  | AAnswer n => let (p', e) := mark i n true p in Some (p', AOver Fine, e)
  | AOver _ => None
  end.
Definition hang_go (i n : nat) (p : phone) (st : hang_stage) : option (phone * hang_stage * label) :=
  match st with
  | HHush => Some (if c_incoming (call_at p n) then alter n (with_ringing false) p else p, HActive, LQuiet i)
  | HActive => Some (p, if c_active (call_at p n) then HWrite else HIn, LQuiet i)
  | HWrite => None
  | HUnanswer => let (p', e) := mark i n false p in Some (p', HStop, e)
  | HStop => Some (alter n (with_active false) p, HIn, LQuiet i)
  | HIn => match zget (p_table p) (c_id (call_at p n)) with Some m => Some (p, HDel, LFound i (c_id (call_at p n)) m) | None => Some (p, HOver Fine, LQuiet i) end
  | HDel => let '(p', x, e) := delete i (c_id (call_at p n)) p in Some (p', HOver x, e)
  | HOver _ => None
  end.
Definition pick_go (i n : nat) (p : phone) (st : pick_stage) : option (phone * pick_stage * label) :=
  match st with
  | PRinging => Some (p, if c_ringing (call_at p n) then PWrite else POver Fine, LQuiet i)
  | PWrite => None
  | PHush => Some (alter n (with_ringing false) p, PAnswer, LQuiet i)
  | PAnswer => let (p', e) := mark i n true p in Some (p', POver Fine, e)
  | POver _ => None
  end.
(** a Call has no attribute ringCount *)
Definition ring_turn (l : loop) (found : option nat) (t : turn) : option ring_stage :=
  match t with
  | Yields n => Some (RLook l found n)
  | Ends => Some (match found with Some n => RTell n | None => RLen end)
  | Breaks => Some (ROver SizeChanged)
  | Unclear => None
  end.
Definition ring_go (i : nat) (number callType : option str) (p : phone) (st : ring_stage) : option (phone * ring_stage * label) :=
  match st with
  | RSearch => Some (p, RLoop (mk_loop (p_table p) 0) None, LQuiet i)
  | RLoop l found => match ring_turn l found (next_turn p l) with Some st' => Some (p, st', LQuiet i) | None => None end
  | RLook l found n =>
      Some (p, if opt_str_eqb (c_number (call_at p n)) number then
                 if c_incoming (call_at p n) then RCount l n (c_ringCount (call_at p n) + 1) else ROver (Raised AttributeError)
               else RLoop (further l) found, LQuiet i)
  | RCount l n k => Some (alter n (with_ringCount k) p, RLoop (further l) (Some n), LQuiet i)
  | RLen => Some (p, REnter (Z.of_nat (length (p_table p)) + 1), LQuiet i)
  | REnter id => match new_incoming number id callType with
                 | Ok c => Some (enter c p, RTell (length (p_calls p)), LEntered i id (length (p_calls p)))
                 | Err e => Some (p, ROver (Raised e), LQuiet i)
                 end
  | RTell n => Some (p, ROver Fine, LRing i n)
  | ROver _ => None
  end.
Definition dial_go (i : nat) (number : str) (callback : bool) (p : phone) (st : dial_stage) : option (phone * dial_stage * label) :=
  match st with
  | DLen => Some (p, DEnter (Z.of_nat (length (p_table p)) + 1) 0, LQuiet i)
  | DEnter id ty => Some (enter (new_call id ty number callback) p, DOver (length (p_calls p)), LEntered i id (length (p_calls p)))
  | DOver _ => None
  end.
Definition go (i : nat) (p : phone) (t : thread) : option (phone * thread * label) :=
  match t with
  | TEnd st => match end_go i p st with Some (p', st', l) => Some (p', TEnd st', l) | None => None end
  | TAnswered st => match answered_go i p st with Some (p', st', l) => Some (p', TAnswered st', l) | None => None end
  | THang n st => match hang_go i n p st with Some (p', st', l) => Some (p', THang n st', l) | None => None end
  | TPick n st => match pick_go i n p st with Some (p', st', l) => Some (p', TPick n st', l) | None => None end
  | TRing nb ty st => match ring_go i nb ty p st with Some (p', st', l) => Some (p', TRing nb ty st', l) | None => None end
  | TDial nb cb st => match dial_go i nb cb p st with Some (p', st', l) => Some (p', TDial nb cb st', l) | None => None end
  end.
(** The command of hangup() or answer() ends. *)
Definition written (i : nat) (t : thread) (x : res unit) : option (thread * label) :=
  match t with
  | THang n HWrite => Some (THang n (match x with Ok _ => HUnanswer | Err e => HOver (Raised e) end), LWrote i (lit "ATH") x)
  | TPick n PWrite => Some (TPick n (match x with Ok _ => PHush | Err e => POver (Raised e) end), LWrote i (lit "ATA") x)
  | _ => None
  end.
(** A loop over a dict that is not what it was, though as large: [o] comes next, or nothing. *)
Definition some_turn (o : option nat) : turn := match o with Some n => Yields n | None => Ends end.
Definition blurred (i : nat) (p : phone) (t : thread) (o : option nat) : option (thread * label) :=
  let known := match o with Some n => existsb (fun e => Nat.eqb (snd e) n) (p_table p) | None => true end in
  let unclear l := match next_turn p l with Unclear => known | _ => false end in
  match t with
  | TEnd (ELoop f l) => if unclear l then match end_turn f l (some_turn o) with Some st => Some (TEnd st, LQuiet i) | None => None end else None
  | TAnswered (ALoop l) => if unclear l then match answered_turn l (some_turn o) with Some st => Some (TAnswered st, LQuiet i) | None => None end else None
  | TRing nb ty (RLoop l found) => if unclear l then match ring_turn l found (some_turn o) with Some st => Some (TRing nb ty st, LQuiet i) | None => None end else None
  | _ => None
  end.

(** Threads at their beginning.  Methods of calls are called on calls that there are;
    answer() is a method of incoming ones. *)
Definition begins (p : phone) (t : thread) : bool :=
  match t with
  | TEnd (ESearch _) | TEnd (ETest _) | TAnswered ASearch | TAnswered (AGet _) | TRing _ _ RSearch | TDial _ _ DLen | TDial _ _ (DEnter _ _) => true
  | THang n HHush => Nat.ltb n (length (p_calls p))
  | TPick n PRinging => Nat.ltb n (length (p_calls p)) && c_incoming (call_at p n)
  | _ => false
  end.
Record system := mk_system { sy_phone : phone; sy_threads : list thread }.
Inductive action := ABegin (t : thread) | AGo (i : nat) | AWritten (i : nat) (x : res unit) | ABlurred (i : nat) (o : option nat).
Definition act (s : system) (a : action) : option (system * label) :=
  let p := sy_phone s in let ts := sy_threads s in
  match a with
  | ABegin t => if begins p t then Some (mk_system p (ts ++ [t]), LStart (length ts) t) else None
  | AGo i => match nth_error ts i with
             | Some t => match go i p t with Some (p', t', l) => Some (mk_system p' (update ts i (fun _ => t')), l) | None => None end
             | None => None
             end
  | AWritten i x => match nth_error ts i with
             | Some t => match written i t x with Some (t', l) => Some (mk_system p (update ts i (fun _ => t')), l) | None => None end
             | None => None
             end
  | ABlurred i o => match nth_error ts i with
             | Some t => match blurred i p t o with Some (t', l) => Some (mk_system p (update ts i (fun _ => t')), l) | None => None end
             | None => None
             end
  end.
(** executions: steps in the order in which they are made *)
Inductive run (s : system) : list label -> system -> Prop :=
| run_nil : run s [] s
| run_snoc ls s1 a s2 l : run s ls s1 -> act s1 a = Some (s2, l) -> run s (ls ++ [l]) s2.
