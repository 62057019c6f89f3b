(** Model of tools/gsmtermlib/terminal.py: the terminals.

    The console part works in Python 2 only (os.read gives the keys as byte strings, which
    are compared with str, lines 86-91 and 272), so a str is a list of bytes here and
    isspace() knows six characters.  One key at a time; the lines that the
    read thread prints (227-236) are in NoticeModel.v.  Windows is not modelled. *)
From Verif Require Export Base TrieModel.

(** str.isspace of one character, str.strip, str.upper, str.lower (Python 2) *)
Definition tspace (c : Z) : bool := ((9 <=? c) && (c <=? 13)) || (c =? 32).
Fixpoint tlstrip (s : str) : str := match s with c :: s' => if tspace c then tlstrip s' else s | [] => [] end.
Definition tstrip (s : str) : str := rev (tlstrip (rev (tlstrip s))).
Definition tupper : str -> str := map (fun c => if (97 <=? c) && (c <=? 122) then c - 32 else c).
Definition tlower : str -> str := map (fun c => if (65 <=? c) && (c <=? 90) then c + 32 else c).
(** [s.split(' ', 1)]: what follows the first space *)
Fixpoint tsplit (s : str) : option str := match s with [] => None | c :: s' => if c =? 32 then Some s' else tsplit s' end.
(** [s * n] *)
Definition times (s : str) (n : Z) : str := List.concat (repeat s (Z.to_nat n)).
Definition zlen {A} (l : list A) : Z := Z.of_nat (length l).

(** ** Keys, lines 63-69, 111, 178-182 *)
Definition CURSOR_UP : str := [27; 91; 65].
Definition CURSOR_DOWN : str := [27; 91; 66].
Definition CURSOR_LEFT : str := [27; 91; 68].
Definition CURSOR_RIGHT : str := [27; 91; 67].
Definition DELETE : str := [27; 91; 51; 126].
Definition HOME : str := [27; 79; 72].
Definition END_ : str := [27; 79; 70].
Definition EXIT_CHARACTER : str := [29].
Definition EXIT_CHARACTER_2 : str := [4].
Definition BACKSPACE_CHARACTER : str := [127].
Definition CTRL_Z_CHARACTER : str := [26].
Definition ESC_CHARACTER : str := [27].
Definition WRITE_TERM : str := [13].

(** ** RawTerm._inputLoop, lines 142-168: what is written to the port and to the
    screen (self.echo is True) *)
Fixpoint raw_loop (keys : list str) : str * str :=
  match keys with
  | [] => ([], [])
  | c :: keys' =>
      if str_eqb c EXIT_CHARACTER then ([], [])                  (* self.stop() *)
      else
        let (port, screen) := raw_loop keys' in
        if str_eqb c [10] then (WRITE_TERM ++ port, c ++ screen) else (c ++ port, c ++ screen)
  end.

(** ** GsmTerm *)
(** a tuple of atcommands.py: the first two fields, the number of fields; of the third and
    fourth field (None, or a tuple) the number of fields of each item *)
Record help := mk_help { h_category : str; h_name : str; h_fields : Z; h_values : option (list Z); h_returns : option (list Z) }.
(** what the terminal does.  [OText]: text for the user other than the input line (help,
    lists, messages), which is not modelled. *)
Inductive tout :=
| OScreen (s : str)                  (* sys.stdout.write *)
| OText
| OSerial (s : str)                  (* self.serial.write *)
| OCommand (s : str)                 (* self.write with expectedResponseTermSeq '> ' *)
| OClose.                            (* self.close() *)
(** self.inputBuffer (one character per item), history, historyPos, cursorPos,
    _typingSms, alive, PROMPT and SMS_PROMPT *)
Record term := mk_term {
  buf : str; hist : list str; hpos : Z; cur : Z; typing : bool; alive : bool; prompt : str; sms_prompt : str }.
Definition set_line (b : str) (c : Z) (t : term) : term := mk_term b (hist t) (hpos t) c (typing t) (alive t) (prompt t) (sms_prompt t).
Definition set_hist (h : list str) (p : Z) (t : term) : term := mk_term (buf t) h p (cur t) (typing t) (alive t) (prompt t) (sms_prompt t).
Definition set_typing (b : bool) (t : term) : term := mk_term (buf t) (hist t) (hpos t) (cur t) b (alive t) (prompt t) (sms_prompt t).
Definition set_alive (b : bool) (t : term) : term := mk_term (buf t) (hist t) (hpos t) (cur t) (typing t) b (prompt t) (sms_prompt t).
Definition set_sms_prompt (p : str) (t : term) : term := mk_term (buf t) (hist t) (hpos t) (cur t) (typing t) (alive t) (prompt t) p.

(** The surroundings: the completion data, the categories, the files (None: cannot be
    opened; else the lines), and whether colours are used. *)
Record env := mk_env { completion : trie (option help); categories : list str; files : str -> option (list str); useColor : bool }.

(** the state of a run: the terminal, what self.write will give for an AT+CMGS command (None: a
    TimeoutException; at the end of the list too), and what has been done *)
Record tworld := mk_tworld { tm : term; answers : list (option (list str)); outs : list tout }.
Definition T (A : Type) := tworld -> res A * tworld.
Definition tret {A} (x : A) : T A := fun w => (Ok x, w).
Definition traise {A} (e : exn) : T A := fun w => (Err e, w).
Definition tbind {A B} (c : T A) (f : A -> T B) : T B := fun w =>
  match c w with (Ok x, w') => f x w' | (Err e, w') => (Err e, w') end.
Notation "'tdo' p '<-' c ';' k" := (tbind c (fun p => k)) (at level 200, p pattern, c at level 100, k at level 200, right associativity).
Notation "c ;> k" := (tbind c (fun _ => k)) (at level 199, right associativity).
Definition tget : T term := fun w => (Ok (tm w), w).
Definition tput (f : term -> term) : T unit := fun w => (Ok tt, mk_tworld (f (tm w)) (answers w) (outs w)).
Definition emit (o : tout) : T unit := fun w => (Ok tt, mk_tworld (tm w) (answers w) (outs w ++ [o])).

(** _color, lines 216-221 *)
Definition color (e : env) (seq msg : str) : str := if useColor e then seq ++ msg ++ lit (String (ascii_of_nat 27) "[0m") else msg.
Definition COLOR_GREEN : str := lit (String (ascii_of_nat 27) "[1;32m").

(** _refreshInputPrompt, lines 589-593 *)
Definition refresh (clearLen : Z) : T unit :=
  tdo t <- tget;
  let termPrompt := if typing t then sms_prompt t else prompt t in
  let endPoint := if 0 <? clearLen then clearLen else zlen (buf t) in
  emit (OScreen ([13] ++ termPrompt ++ buf t ++ times [32] (clearLen - zlen (buf t)) ++ times CURSOR_LEFT (endPoint - cur t))).
(** _removeInputPrompt, lines 595-597 *)
Definition removePrompt : T unit :=
  tdo t <- tget;
  emit (OScreen ([13] ++ times [32] (zlen (if typing t then sms_prompt t else prompt t) + zlen (buf t)) ++ [13])).

(** _addToHistory, lines 238-241 *)
Definition addToHistory (h : list str) (command : str) : list str :=
  let h := h ++ [command] in if 100 <? zlen h then skipn 1 h else h.

(** _handleCtrlZ, _handleEsc, lines 286-303 *)
Definition handleCtrlZ : T unit :=
  tdo t <- tget;
  if typing t then
    emit (OSerial (buf t)) ;> emit (OSerial CTRL_Z_CHARACTER) ;>
    tput (fun t => set_line [] 0 (set_typing false t)) ;> emit (OScreen [10]) ;> refresh 0
  else tret tt.
Definition handleEsc : T unit :=
  tdo t <- tget;
  if typing t then emit (OSerial ESC_CHARACTER) ;> tput (fun t => set_line [] 0 (set_typing false t)) else tret tt.
(** _exit, lines 305-309, with stop (136-140) called by the input thread *)
Definition exit_ : T unit := removePrompt ;> emit OText ;> tput (set_alive false) ;> emit OClose.
(** lines 311-366 *)
Definition cursorLeft : T unit :=
  tdo t <- tget;
  if 0 <? cur t then tput (fun t => set_line (buf t) (cur t - 1) t) ;> emit (OScreen CURSOR_LEFT) else tret tt.
Definition cursorRight : T unit :=
  tdo t <- tget;
  if cur t <? zlen (buf t) then tput (fun t => set_line (buf t) (cur t + 1) t) ;> emit (OScreen CURSOR_RIGHT) else tret tt.
(** [self.history[self.historyPos]] with an index that is not negative *)
Definition recall (pos clearLen : Z) : T unit :=
  tdo t <- tget;
  tput (set_hist (hist t) pos) ;>
  match nth_error (hist t) (Z.to_nat pos) with
  | Some line => tput (set_line line (zlen line)) ;> refresh clearLen
  | None => traise IndexError
  end.
Definition cursorUp : T unit :=
  tdo t <- tget; if 0 <? hpos t then recall (hpos t - 1) (zlen (buf t)) else tret tt.
Definition cursorDown : T unit :=
  tdo t <- tget; if hpos t <? zlen (hist t) - 1 then recall (hpos t + 1) (zlen (buf t)) else tret tt.
Definition handleBackspace : T unit :=
  tdo t <- tget;
  if 0 <? cur t then
    let b := firstn (Z.to_nat (cur t - 1)) (buf t) ++ skipn (Z.to_nat (cur t)) (buf t) in
    tput (set_line b (cur t - 1)) ;> refresh (zlen b + 1)
  else tret tt.
Definition handleDelete : T unit :=
  tdo t <- tget;
  if cur t <? zlen (buf t) then
    let b := firstn (Z.to_nat (cur t)) (buf t) ++ skipn (Z.to_nat (cur t + 1)) (buf t) in
    tput (set_line b (cur t)) ;> refresh (zlen b + 1)
  else tret tt.
Definition handleHome : T unit := tput (fun t => set_line (buf t) 0 t) ;> tdo t <- tget; refresh (zlen (buf t)).
Definition handleEnd : T unit := tput (fun t => set_line (buf t) (zlen (buf t)) t) ;> tdo t <- tget; refresh (zlen (buf t)).

(** _printGeneralHelp and _printCommandHelp, lines 470-531; the text is left out.  Of a
    tuple with more than two fields the fifth is used (line 501), then the third, each item
    of which must be a pair (515, 528), and the fourth. *)
Definition refresh_line : T unit := tdo t <- tget; refresh (zlen (buf t)).
Definition pairs (v : option (list Z)) : bool := match v with Some l => forallb (Z.eqb 2) l | None => true end.
Definition printCommandHelp (e : env) (command : str) : T unit :=
  if zlen (tstrip command) =? 0 then emit OText ;> refresh_line
  else
    match t_get (completion e) (tupper (tstrip command)) with
    | Ok (Some h) =>
        emit OText ;>
        (if h_fields h =? 2 then refresh_line
         else if h_fields h <? 5 then traise IndexError
         else if negb (pairs (h_values h) && pairs (h_returns h)) then traise ValueError
         else emit OText ;> refresh_line)
    | Ok None | Err KeyError => emit OText ;> refresh_line
    | Err x => traise x
    end.
(** __printCommandSyntax, lines 570-584: of each value the first field (581) *)
Definition printCommandSyntax (e : env) (command : str) : T unit :=
  match t_get (completion e) command with
  | Ok (Some h) =>
      if 2 <? h_fields h then
        if existsb (Z.eqb 0) (match h_values h with Some l => l | None => [] end) then traise IndexError
        else emit OText ;> refresh_line
      else tret tt
  | Ok None => tret tt
  | Err x => traise x
  end.
(** [s[-1]] and the like, for a string long enough *)
Definition from_end (s : str) (k : nat) : Z := nth (length s - k) s 0.

(** _doCommandCompletion, lines 533-568 *)
Definition commandCompletion (e : env) : T unit :=
  tdo t <- tget;
  let prefix := tupper (tstrip (buf t)) in
  match t_keys (completion e) (Some prefix) with
  | [] =>
      match prefix with
      | [] => traise IndexError
      | _ => if from_end prefix 1 =? 61 then printCommandSyntax e (removelast prefix) else tret tt
      end
  | [m] =>
      if str_eqb m prefix then printCommandSyntax e prefix
      else tput (set_line m (zlen m)) ;> refresh (zlen m)
  | _ =>
      let commonPrefix := t_longestCommonPrefix (completion e) (buf t) in
      tput (set_line commonPrefix (zlen commonPrefix)) ;>
      emit (OScreen [10]) ;> emit OText ;> emit (OScreen [10]) ;> refresh (zlen commonPrefix)
  end.

(** self.write(..., waitForResponse=True, timeout=3, expectedResponseTermSeq='> '), line
    456 *)
Definition prompt_for (s : str) : T (option (list str)) := fun w =>
  match answers w with
  | [] => (Ok None, mk_tworld (tm w) [] (outs w ++ [OCommand s]))
  | a :: l => (Ok a, mk_tworld (tm w) l (outs w ++ [OCommand s]))
  end.
(** lines 449-468 *)
Definition submit (e : env) (inputStr : str) : T unit :=
  if 0 <? zlen inputStr then
    if startswith (tlower inputStr) (lit "at+cmgs=") then
      tput (set_typing true) ;> emit (OScreen [10]) ;>
      tdo r <- prompt_for (inputStr ++ WRITE_TERM);
      (match r with
       | None => tput (set_typing false)
       | Some (l :: _) => emit OText ;> tput (set_sms_prompt (color e COLOR_GREEN l))
       | Some [] => traise IndexError
       end) ;> refresh 0
    else emit (OSerial inputStr) ;> emit (OSerial WRITE_TERM) ;> emit (OScreen [10])
  else emit (OScreen [10]).
(** lines 441-447; [again]: self._doConfirmInput *)
Fixpoint load (again : T unit) (lines : list str) : T unit :=
  match lines with
  | [] => tret tt
  | line :: lines' =>
      let atCommand := tstrip line in
      (if (0 <? zlen atCommand) && negb (nth 0 atCommand 0 =? 35) then
         tput (fun t => set_line atCommand (cur t) t) ;> refresh (zlen atCommand) ;> again
       else tret tt) ;> load again lines'
  end.
(** lines 409-413, 420-425: commandHelp[1], commandHelp[0] for each command *)
Definition listCommands (e : env) : T unit :=
  emit (OScreen [10]) ;> emit OText ;>
  if existsb (fun k => match t_get (completion e) k with Ok None => true | _ => false end) (t_keys (completion e) None) then traise TypeError
  else refresh_line.
(** _doConfirmInput, lines 368-468 *)
Definition confirm_with (e : env) (again : T unit) : T unit :=
  tdo t <- tget;
  if typing t then
    emit (OSerial (firstn (Z.to_nat (cur t)) (buf t))) ;> tput (set_line (skipn (Z.to_nat (cur t)) (buf t)) 0) ;> emit (OScreen [10]) ;> refresh 0
  else if 0 <? zlen (buf t) then
    let inputStr := tstrip (buf t) in
    tput (set_line [] 0) ;>
    (if 0 <? zlen inputStr then
       let h := addToHistory (hist t) inputStr in tput (set_hist h (zlen h))
     else tret tt) ;>
    if (2 <? zlen inputStr) && (nth 0 inputStr 0 =? 63) then printCommandHelp e (skipn 1 inputStr)
    else if (2 <? zlen inputStr) && (from_end inputStr 1 =? from_end inputStr 2) && (from_end inputStr 2 =? 63) then
      printCommandHelp e (firstn (length inputStr - (if from_end inputStr 3 =? 61 then 3 else 2)) inputStr)
    else
      let inputStrLower := tlower inputStr in
      if startswith inputStrLower (lit "help") then printCommandHelp e (skipn 5 inputStr)
      else if startswith inputStrLower (lit "ls") then
        if str_eqb inputStrLower (lit "lscat") then emit (OScreen [10]) ;> emit OText ;> refresh_line
        else if str_eqb inputStrLower (lit "ls") then listCommands e
        else
          match tsplit inputStrLower with
          | Some category =>
              if existsb (str_eqb (tlower category)) (map tlower (categories e)) then listCommands e
              else submit e inputStr
          | None => submit e inputStr
          end
      else if startswith inputStrLower (lit "load") then
        match tsplit inputStr with
        | Some name =>
            match files e (tstrip name) with
            | None => emit OText ;> refresh_line
            | Some lines =>
                emit (OScreen [10]) ;> load again lines
            end
        | None => submit e inputStr
        end
      else submit e inputStr
  else emit (OScreen [10]).

(** [fuel]: the depth of files loaded by files *)
Fixpoint confirm (e : env) (fuel : nat) : T unit :=
  confirm_with e (match fuel with O => traise OutOfFuel | S fuel' => confirm e fuel' end).

(** one round of _inputLoop, lines 266-284.  [limit]: how deep files may load files before Python
    gives up. *)
Definition isPrintable (c : Z) : bool := ((33 <=? c) && (c <=? 126)) || tspace c.
Definition press (e : env) (limit : nat) (c : str) : T unit :=
  if str_eqb c EXIT_CHARACTER || str_eqb c EXIT_CHARACTER_2 then exit_
  else if str_eqb c CURSOR_LEFT then cursorLeft
  else if str_eqb c CURSOR_RIGHT then cursorRight
  else if str_eqb c CURSOR_UP then cursorUp
  else if str_eqb c CURSOR_DOWN then cursorDown
  else if str_eqb c [10] then confirm e limit
  else if str_eqb c [9] then commandCompletion e
  else if str_eqb c CTRL_Z_CHARACTER then handleCtrlZ
  else if str_eqb c ESC_CHARACTER then handleEsc
  else if str_eqb c BACKSPACE_CHARACTER then handleBackspace
  else if str_eqb c DELETE then handleDelete
  else if str_eqb c HOME then handleHome
  else if str_eqb c END_ then handleEnd
  else
    match c with
    | [ch] =>
        if isPrintable ch then
          tput (fun t => set_line (firstn (Z.to_nat (cur t)) (buf t) ++ [ch] ++ skipn (Z.to_nat (cur t)) (buf t)) (cur t + 1) t) ;> refresh 0
        else tret tt
    | _ => tret tt
    end.
(** the loop: an exception ends it, as does self.alive being False *)
Fixpoint input_loop (e : env) (limit : nat) (keys : list str) : T unit :=
  match keys with
  | [] => tret tt
  | c :: keys' =>
      tdo t <- tget;
      if alive t then
        (fun w => match press e limit c w with (Err x, w') => (tput (set_alive false) ;> traise x) w' | r => r end) ;>
        input_loop e limit keys'
      else tret tt
  end.
