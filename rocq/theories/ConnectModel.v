(** Model of gsmmodem/modem.py: connect. *)
From Verif Require Export Base RegexModel UtilModel ModemCore SmsModel CallModel.

(** [s.split(c)] for one character, and [s.split(sep)] for a longer separator *)
Fixpoint split_char (c : Z) (s : str) : list str :=
  match s with
  | [] => [[]]
  | x :: s' => if x =? c then [] :: split_char c s' else match split_char c s' with p :: ps => (x :: p) :: ps | [] => [[x]] end
  end.
Fixpoint split_on_aux (fuel : nat) (sep s : str) : list str :=
  match fuel with
  | O => [s]
  | S f =>
      match s with
      | [] => [[]]
      | x :: s' =>
          if startswith s sep then [] :: split_on_aux f sep (skipn (length sep) s)
          else match split_on_aux f sep s' with p :: ps => (x :: p) :: ps | [] => [[x]] end
      end
  end.
Definition split_on (sep s : str) : list str := split_on_aux (S (length s)) sep s.
(** [s.lower()], ASCII letters only *)
Definition lower (s : str) : str := map (fun c => if (65 <=? c) && (c <=? 90) then c + 32 else c) s.
Definition mem_str (s : str) (l : list str) : bool := existsb (str_eqb s) l.

(** supportedCommands, modem.py:499-518 *)
Definition supportedCommands : M (option (list str)) :=
  try_except
    (do response <- write (lit "AT+CLAC");
     match response with
     | [commands; _] =>
         let commands := if startswith commands (lit "+CLAC") then skipn 6 commands else commands in
         ret (Some (split_char 44 commands))
     | _ :: _ :: _ :: _ => ret (Some (map strip (removelast response)))
     | _ => ret None
     end)
    (fun e => if is_CommandError e then Some (ret None) else None).

(** [int(line[7:])] for an optional line: subscripting None is a TypeError *)
Definition int_from_7 (line : option str) : res Z :=
  match line with Some l => py_int 10 (skipn 7 l) | None => Err TypeError end.
(** except CommandError: *)
Definition on_CommandError {A} (k : M A) : exn -> option (M A) := fun e => if is_CommandError e then Some k else None.
Definition forget {A} (c : M A) : M unit := c ;;; ret tt.

(** _unlockSim, modem.py:366-385 *)
Definition unlockSim (pin : option str) : M unit :=
  do cpinResponse <-
    try_except (do ls <- write (lit "AT+CPIN?"); ret (lineStartingWith (lit "+CPIN") ls))
      (fun e => match e with
                | TimeoutException (Some data) =>
                    match lineStartingWith (lit "+CPIN") data with Some l => Some (ret (Some l)) | None => None end
                | _ => None
                end);
  if opt_str_eqb cpinResponse (Some (lit "+CPIN: READY")) then ret tt
  else match pin with
       | Some p => forget (write (lit "AT+CPIN=""" ++ p ++ lit """"))
       | None => raise (PinRequiredError (lit "AT+CPIN") 11)
       end.

(** modem.py:176-200: reset, echo, functionality, PIN *)
Definition connect_reset (pin : option str) : M unit :=
  do pinCheckComplete <-
    try_except (write (lit "ATZ") ;;; ret false)
      (on_CommandError
         (write_noparse (lit "AT+CMEE=1") ;;; unlockSim pin ;;; write (lit "ATZ") ;;; ret true));
  write (lit "ATE0") ;;;
  try_except
    (do ls <- write (lit "AT+CFUN?");
     do cfun <- lift (int_from_7 (lineStartingWith (lit "+CFUN:") ls));
     if negb (cfun =? 1) then forget (write (lit "AT+CFUN=1")) else ret tt)
    (on_CommandError (ret tt)) ;;;
  write (lit "AT+CMEE=1") ;;;
  if pinCheckComplete then ret tt else unlockSim pin.

(** modem.py:205-247: which table of call updates to use (0: none) *)
Definition connect_hint (commands : option (list str)) : M Z :=
  do he <-
    (match commands with
     | Some cs =>
         (if mem_str (lit "^CVOICE") cs then forget (write_noparse (lit "AT^CVOICE=0")) else ret tt) ;;;
         do h <- (if mem_str (lit "+VTS") cs then modify (set_dtmfSupport true) ;;; ret 0
                  else ret (if mem_str (lit "^DTMF") cs then 1 else 0));
         (if mem_str (lit "^USSDMODE") cs then forget (write_noparse (lit "AT^USSDMODE=0")) else ret tt) ;;;
         ret (if mem_str (lit "+WIND") cs then (2, true) else if mem_str (lit "+ZPAS") cs then (3, false) else (h, false))
     | None => ret (0, true)
     end);
  let (hint, enableWind) := he : Z * bool in
  do hint <-
    (if enableWind then
       do wind <- try_except (do ls <- write (lit "AT+WIND?"); ret (Some (lineStartingWith (lit "+WIND:") ls)))
                    (on_CommandError (ret None));
       match wind with
       | None => ret hint
       | Some w =>
           do v <- lift (int_from_7 w);
           (if negb (v =? 50) then forget (write (lit "AT+WIND=50")) else ret tt) ;;; ret 2
       end
     else ret hint);
  if hint =? 0 then
    do man <- manufacturer;
    if str_eqb (lower man) (lit "huawei") then ret 1
    else try_except (write (lit "AT+ZPAS?") ;;; ret 3) (on_CommandError (ret 0))
  else ret hint.

(** modem.py:249-287 *)
Definition connect_table (commands : option (list str)) (hint : Z) : M unit :=
  let old_dtmf := match commands with None => modify (set_dtmfSupport true) | Some _ => ret tt end in
  if hint =? 1 then
    modify (set_callUpdates THuawei) ;;; modify (set_mustPoll false) ;;; modify (set_dtmfHuawei true) ;;; modify (set_dtmfSupport true)
  else if hint =? 2 then
    modify (set_callUpdates TWavecom) ;;; modify (set_waitAtd false) ;;; modify (set_mustPoll false) ;;; old_dtmf
  else if hint =? 3 then
    modify (set_callUpdates TZte) ;;; modify (set_waitAtd false) ;;; modify (set_mustPoll false) ;;; modify (set_waitInit false) ;;; old_dtmf
  else modify (set_mustPoll true) ;;; modify (set_waitAtd true).

(** modem.py:292-308: message mode and service centre *)
Definition connect_sms : M unit :=
  do m <- get;
  write (lit "AT+CMGF=" ++ str_of_Z (if smsTextMode m then 1 else 0)) ;;;
  do currentSmscNumber <-
    (match smscNumber m with
     | Some n => write (lit "AT+CSCA=""" ++ n ++ lit """") ;;; ret (Some n)
     | None => get_smsc
     end);
  (match currentSmscNumber with Some _ => modify (set_smscNumber None) | None => ret tt end) ;;;
  write_noparse (lit "AT+CSMP=49,167,0,0") ;;;
  match currentSmscNumber with
  | Some n =>
      do now <- get_smsc;
      if negb (opt_str_eqb now (Some n)) then set_smsc n else ret tt
  | None => ret tt
  end.

(** modem.py:310-341: message storage.  The quotes are part of the memory's name. *)
Definition preferred : list str := [lit """ME"""; lit """SM"""; lit """SR"""].
Definition first_preferred (item : str) : option str := find (fun m => contains item m) preferred.
Definition connect_memory : M unit :=
  do cpms <- try_except (do ls <- write (lit "AT+CPMS=?"); ret (Some (lineStartingWith (lit "+CPMS") ls)))
               (on_CommandError (ret None));
  match cpms with
  | None => modify (set_smsReadSupported false)
  | Some None => raise AttributeError
  | Some (Some cpmsLine) =>
      match after_space cpmsLine with
      | None => raise IndexError
      | Some s =>
          let cpmsSupport := split_on (lit "),(") s in
          if existsb (fun i => match i with [] => true | _ => false end) cpmsSupport then modify (set_smsReadSupported false)
          else
            (match cpmsSupport with
             | i0 :: _ => match first_preferred i0 with Some m => modify (set_memRead (Some m)) | None => ret tt end
             | [] => ret tt
             end) ;;;
            forget (write (lit "AT+CPMS=" ++ join (lit ",")
              (map (fun i => match first_preferred i with Some m => m | None => [] end) cpmsSupport)))
      end
  end.

(** modem.py:343-364 *)
Definition connect_notifications : M unit :=
  do m <- get;
  (if smsReadSupported m then
     try_except (forget (write (lit "AT+CNMI=2,1,0,2"))) (on_CommandError (modify (set_smsReadSupported false)))
   else ret tt) ;;;
  do clipOk <- try_except (write (lit "AT+CLIP=1") ;;; ret true) (on_CommandError (ret false));
  (if clipOk : bool then
     modify (set_clip true) ;;;
     do crcOk <- try_except (write (lit "AT+CRC=1") ;;; ret true) (on_CommandError (ret false));
     modify (set_crc crcOk)
   else modify (set_clip false)) ;;;
  forget (write_noparse (lit "AT+CVHU=0")).

(** connect, modem.py:164-364.  Opening the port (serial_comms.py:49-59) sets alive. *)
Definition connect (pin : option str) : M unit :=
  modify (set_alive true) ;;;
  connect_reset pin ;;;
  do commands <- supportedCommands;
  do hint <- connect_hint commands;
  connect_table commands hint ;;;
  write_noparse (lit "AT+COPS=3,0") ;;;
  connect_sms ;;;
  connect_memory ;;;
  connect_notifications.
