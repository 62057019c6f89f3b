(** Model of gsmmodem/modem.py: calls, their notifications, DTMF tones.

    The methods run one at a time (see ModemCore.v).  A dict is taken to list its
    entries in the order of their insertion (Python 3.7 and later; before, the order is
    arbitrary).  Callbacks given by the application return normally and do not call
    methods themselves; in CallbackModel.v they do anything. *)
From Verif Require Export Base RegexModel UtilModel ModemCore SmsModel.

(** ** Call objects *)
Definition no_call : call := mk_call 0 false None None false false false false 0.
(** the object with a number *)
Definition the_call (m : modem) (n : nat) : call := nth n (callObjs m) no_call.
Definition change_call (n : nat) (f : call -> call) : M unit := modify (fun m => set_callObjs (update (callObjs m) n f) m).

Definition with_answered (b : bool) (c : call) : call :=
  mk_call (c_id c) (c_incoming c) (c_type c) (c_number c) (c_callback c) b (c_active c) (c_ringing c) (c_ringCount c).
Definition with_active (b : bool) (c : call) : call :=
  mk_call (c_id c) (c_incoming c) (c_type c) (c_number c) (c_callback c) (c_answered c) b (c_ringing c) (c_ringCount c).
Definition with_ringing (b : bool) (c : call) : call :=
  mk_call (c_id c) (c_incoming c) (c_type c) (c_number c) (c_callback c) (c_answered c) (c_active c) b (c_ringCount c).
Definition with_ringCount (k : Z) (c : call) : call :=
  mk_call (c_id c) (c_incoming c) (c_type c) (c_number c) (c_callback c) (c_answered c) (c_active c) (c_ringing c) k.

(** answered setter, modem.py:1235-1239 *)
Definition set_answered (n : nat) (b : bool) : M unit :=
  change_call n (with_answered b) ;;;
  do m <- get;
  if c_callback (the_call m n) then tell (EStatus n) else ret tt.

(** creating a Call and entering it into activeCalls: modem.py:728-729, 739-740, 931-932 *)
Definition add_call (c : call) : M nat :=
  do m <- get;
  modify (fun m => set_activeCalls (zset (activeCalls m) (c_id c) (length (callObjs m))) (set_callObjs (callObjs m ++ [c]) m)) ;;;
  ret (length (callObjs m)).

(** Call.__init__, modem.py:1213-1230 *)
Definition new_call (id : Z) (ty : Z) (number : str) (callback : bool) : call := mk_call id false (Some ty) (Some number) callback false true false 0.
(** IncomingCall.__init__, modem.py:1290-1306 (ton and callerName left out) *)
Definition new_incoming (number : option str) (id : Z) (callType : option str) : res call :=
  let* ty := match callType with
             | Some s => if str_eqb s (lit "VOICE") then Ok (Some 0) else Err KeyError     (* CALL_TYPE_MAP, line 1287 *)
             | None => Ok None
             end in
  Ok (mk_call id true ty number false false true true 1).

(** Call.hangup, modem.py:1272-1282, and IncomingCall.hangup, 1318-1321 *)
Definition hangup (n : nat) : M unit :=
  do m <- get;
  (if c_incoming (the_call m n) then change_call n (with_ringing false) else ret tt) ;;;
  (if c_active (the_call m n) then
     write (lit "ATH") ;;; set_answered n false ;;; change_call n (with_active false)
   else ret tt) ;;;
  do m <- get;
  match zget (activeCalls m) (c_id (the_call m n)) with
  | Some _ => modify (fun m => set_activeCalls (zdel (activeCalls m) (c_id (the_call m n))) m)
  | None => ret tt
  end.
(** IncomingCall.answer, modem.py:1308-1316 *)
Definition answer (n : nat) : M unit :=
  do m <- get;
  if c_ringing (the_call m n) then
    write (lit "ATA") ;;; change_call n (with_ringing false) ;;; set_answered n true
  else ret tt.

(** ** DTMF *)
(** str.format with positional arguments of one digit.  Other replacement fields are
    not modelled (a ValueError here). *)
Fixpoint py_format (t : str) (args : list str) : res str :=
  match t with
  | [] => Ok []
  | c :: r =>
      if c =? 123 then
        match r with
        | [] => Err ValueError
        | d :: r =>
            if d =? 123 then let* s := py_format r args in Ok (123 :: s)
            else
              match r with
              | [] => Err ValueError
              | e :: r =>
                  if (e =? 125) && is_digit d then
                    match nth_error args (Z.to_nat (d - 48)) with
                    | Some a => let* s := py_format r args in Ok (a ++ s)
                    | None => Err IndexError
                    end
                  else Err ValueError
              end
        end
      else if c =? 125 then
        match r with
        | [] => Err ValueError
        | d :: r => if d =? 125 then let* s := py_format r args in Ok (125 :: s) else Err ValueError
        end
      else let* s := py_format r args in Ok (c :: s)
  end.
(** Call.DTMF_COMMAND_BASE.format(cid=self.id), modem.py:1210, 262 *)
Definition dtmf_base (m : modem) (id : Z) : str :=
  if dtmfHuawei m then lit "^DTMF=" ++ str_of_Z id ++ lit "," else lit "+VTS=".
(** the command, modem.py:1252-1257 *)
Definition dtmf_command (base tones : str) : res str :=
  match tones with
  | t0 :: ((_ :: _) as rest) =>
      py_format (lit "AT{0}{1};{0}" ++ join (lit ";{0}") (map (fun c => [c]) rest)) [base; [t0]]
  | _ => py_format (lit "AT{0}{1}") [base; tones]
  end.
(** Call.sendDtmfTone, modem.py:1241-1270 *)
Definition sendDtmfTone (n : nat) (tones : str) : M unit :=
  do m <- get;
  if c_answered (the_call m n) then
    do cmd <- lift (dtmf_command (dtmf_base m (c_id (the_call m n))) tones);
    try_except (write cmd ;;; ret tt)
      (fun e => match cme_code e with
                | Some code => if code =? 30 then Some (raise (InterruptedException 30))
                               else if code =? 3 then Some (raise (InterruptedException 3)) else None
                | None => None
                end)
  else raise InvalidStateException.

(** ** dial, modem.py:701-742 *)
(** up to the wait in line 735: the new call when none is waited for (720-730), or
    None.  The poller started in line 733 is modelled in PollModel.v. *)
Definition atd (number : str) : M unit :=
  do m <- get;
  if waitAtd m then write (lit "ATD" ++ number ++ lit ";") ;;; ret tt else write_nowait (lit "ATD" ++ number ++ lit ";").
Definition dial_start (number : str) (callback : bool) : M (option nat) :=
  do m <- get;
  if waitInit m then
    modify (set_dialEvent (Some false)) ;;;
    try_except (atd number) (fun e => Some (modify (set_dialEvent None) ;;; raise e)) ;;;
    ret None
  else
    atd number ;;;
    do m <- get;
    do n <- add_call (new_call (Z.of_nat (length (activeCalls m)) + 1) 0 number callback);
    ret (Some n).
(** from the end of the wait (735-742): the event has been set by then, or the wait
    has timed out *)
Definition dial_finish (number : str) (callback : bool) : M nat :=
  do m <- get;
  match dialEvent m with
  | Some true =>
      modify (set_dialEvent None) ;;;
      match dialResponse m with
      | Some (id, ty) => add_call (new_call id ty number callback)
      | None => raise TypeError
      end
  | Some false => modify (set_dialEvent None) ;;; raise (TimeoutException None)
  | None => raise AttributeError
  end.

(** ** Notifications *)
(** modem.py:119: '\+CLIP:\s*Q(\+{0,1}\d+)Q,(\d+).*$' *)
Definition CLIP_REGEX : re :=
  RLit (lit "+CLIP:") ;; star c_space ;; RLit (lit """") ;; RGrp (opt (c_is 43) ;; plus c_digit) ;; RLit (lit """,") ;; RGrp (plus c_digit) ;; star c_any ;; REol.

(** [s.split(' ', 1)[1]] *)
Fixpoint after_space (s : str) : option str :=
  match s with [] => None | c :: s' => if c =? 32 then Some s' else after_space s' end.

(** lines 924-928.  A Call has no attribute ringCount. *)
Fixpoint ring_each (entries : list (Z * nat)) (number : option str) (found : option nat) : M (option nat) :=
  match entries with
  | [] => ret found
  | (_, n) :: es =>
      do m <- get;
      if opt_str_eqb (c_number (the_call m n)) number then
        if c_incoming (the_call m n) then
          change_call n (with_ringCount (c_ringCount (the_call m n) + 1)) ;;; ring_each es number (Some n)
        else raise AttributeError
      else ring_each es number found
  end.
(** _handleIncomingCall, modem.py:890-933 *)
Definition handleIncomingCall (lines : list str) : M unit :=
  match lines with
  | [] => raise IndexError
  | ringLine :: lines =>
      do m <- get;
      do callType <-
        (if crc m then
           match after_space ringLine with
           | Some t => ret (Some t)
           | None =>
               try_except (write (lit "AT+CRC=1") ;;; ret None)
                 (fun e => if is_CommandError e then Some (modify (set_crc false) ;;; ret None) else None)
           end
         else ret None);
      do m <- get;
      let callerNumber :=
        match lines with
        | clipLine :: _ =>
            if clip m then match re_match CLIP_REGEX clipLine with Some w => Some (group 1 w) | None => None end else None
        | [] => None
        end in
      do found <- ring_each (activeCalls m) callerNumber None;
      do n <- (match found with
               | Some n => ret n
               | None =>
                   do m <- get;
                   do c <- lift (new_incoming callerNumber (Z.of_nat (length (activeCalls m)) + 1) callType);
                   add_call c
               end);
      tell (ERing n)
  end.

(** [groups]: the groups of the match object, None when there is none *)
Definition int_of (g : list str) (k : nat) : M Z := match nth_error g k with Some s => lift (py_int 10 s) | None => raise IndexError end.

(** _handleCallInitiated, modem.py:935-947 *)
Definition handleCallInitiated (groups : option (list str)) (callId callType : Z) : M unit :=
  do m <- get;
  match dialEvent m with
  | None => ret tt
  | Some _ =>
      (match groups with
       | Some g =>
           do id <- int_of g 0;
           do ty <- (match g with _ :: _ :: _ => int_of g 1 | _ => ret 1 end);
           modify (set_dialResponse (Some (id, ty)))
       | None => modify (set_dialResponse (Some (callId, callType)))
       end) ;;;
      modify (set_dialEvent (Some true))
  end.

(** the first entry with a property *)
Definition find_call (m : modem) (p : call -> bool) : option nat :=
  option_map snd (find (fun e => p (the_call m (snd e))) (activeCalls m)).
(** self.activeCalls[callId].answered = True *)
Definition answered_by_id (callId : Z) : M unit :=
  do m <- get;
  match zget (activeCalls m) callId with Some n => set_answered n true | None => raise KeyError end.
(** _handleCallAnswered, modem.py:949-964 *)
Definition handleCallAnswered (groups : option (list str)) (callId : Z) : M unit :=
  match groups with
  | Some g =>
      match g with
      | _ :: _ :: _ => do id <- int_of g 0; answered_by_id id
      | _ =>
          do m <- get;
          match find_call m (fun c => negb (c_answered c) && negb (c_incoming c)) with
          | Some n => set_answered n true
          | None => ret tt
          end
      end
  | None => answered_by_id callId
  end.

(** _handleCallEnded, modem.py:966-981 *)
Definition handleCallEnded (groups : option (list str)) (callId : option Z) (filterUnanswered : bool) : M unit :=
  do callId <-
    (match groups with
     | Some (g :: gs) => do id <- int_of (g :: gs) 0; ret (Some id)
     | Some [] =>
         do m <- get;
         match find_call m (fun c => negb (c_incoming c) && (negb filterUnanswered || negb (c_answered c))) with
         | Some n => ret (Some (c_id (the_call m n)))
         | None => ret callId
         end
     | None => ret callId
     end);
  match callId with
  | None => ret tt
  | Some id =>
      if id =? 0 then ret tt                       (* "if callId": 0 is false *)
      else
        do m <- get;
        match zget (activeCalls m) id with
        | Some n =>
            set_answered n false ;;;
            change_call n (with_active false) ;;;
            modify (fun m => set_activeCalls (zdel (activeCalls m) id) m)
        | None => ret tt
        end
  end.
(** _handleCallRejected, modem.py:983-989 *)
Definition handleCallRejected (groups : option (list str)) (callId : option Z) : M unit := handleCallEnded groups callId true.

(** The tables of call status updates, modem.py:253-280.  In connect() the default
    values of the other parameters are used. *)
Definition call_updates (t : call_table) : list (re * (list str -> M unit)) :=
  let initiated g := handleCallInitiated (Some g) 0 1 in
  let answered g := handleCallAnswered (Some g) 0 in
  let ended g := handleCallEnded (Some g) None false in
  let rejected g := handleCallRejected (Some g) None in
  let d := RGrp (RCls c_digit) in
  match t with
  | TNone => []
  | THuawei =>
      [(RLit (lit "^ORIG:") ;; d ;; RLit (lit ",") ;; d ;; REol, initiated);
       (RLit (lit "^CONN:") ;; d ;; RLit (lit ",") ;; d ;; REol, answered);
       (RLit (lit "^CEND:") ;; d ;; RLit (lit ",") ;; d ;; RLit (lit ",") ;; RGrpPlus c_digit ;; RLit (lit ",") ;; RGrpPlus c_digit ;; REol, ended)]
  | TWavecom =>
      [(RLit (lit "+WIND: 5,") ;; d ;; REol, initiated);
       (RLit (lit "OK") ;; REol, answered);
       (RLit (lit "+WIND: 6,") ;; d ;; REol, ended)]
  | TZte =>
      [(RLit (lit "CONNECT") ;; REol, answered);
       (RLit (lit "HANGUP:") ;; star c_space ;; RGrp (plus c_digit) ;; REol, ended);
       (RLit (lit "OK") ;; REol, rejected)]
  end.
Fixpoint try_updates (ups : list (re * (list str -> M unit))) (line : str) : option (M unit) :=
  match ups with
  | [] => None
  | (r, h) :: ups' => match re_match r line with Some w => Some (h (groups w)) | None => try_updates ups' line end
  end.
