(** Model of tools/gsmtermlib/terminal.py: what the terminal does with lines from the
    modem.  All answers arrive in this way, except those to AT+CMGS. *)
From Verif Require Export Base TrieModel TermModel.

(** lines 184-195 *)
Definition COLOR_RED : str := lit (String (ascii_of_nat 27) "[1;31m").
Definition COLOR_CYAN : str := lit (String (ascii_of_nat 27) "[1;36m").
Definition set_prompt (p : str) (t : term) : term := mk_term (buf t) (hist t) (hpos t) (cur t) (typing t) (alive t) p (sms_prompt t).
(** '\n'.join(lines) *)
Fixpoint join_lines (lines : list str) : str :=
  match lines with [] => [] | [l] => l | l :: ls => l ++ [10] ++ join_lines ls end.
(** GsmTerm._handleModemNotification, lines 226-235 (in the read thread).  lines[0] and
    lines[-1] of an empty list raise IndexError. *)
Definition handleModemNotification (e : env) (lines : list str) : T unit :=
  removePrompt ;>
  tdo t <- tget;
  (if typing t then match lines with l :: _ => tput (set_prompt (color e COLOR_CYAN l)) | [] => traise IndexError end else tret tt) ;>
  match rev lines with
  | [] => traise IndexError
  | l :: _ => emit (OScreen (color e (if str_eqb l (lit "ERROR") then COLOR_RED else COLOR_CYAN) (join_lines lines) ++ [10])) ;> refresh 0
  end.
(** RawTerm._handleModemNotification, lines 120-122: what is printed *)
Definition raw_notification (lines : list str) : str := List.concat (map (fun l => l ++ [10]) lines).
(** GsmTerm._cursorLeft, lines 311-316, with [between] done by the read thread after
    cursorPos is decreased and before the screen's cursor is moved *)
Definition cursorLeft_interrupted (between : T unit) : T unit :=
  tdo t <- tget;
  if 0 <? cur t then tput (fun t => set_line (buf t) (cur t - 1) t) ;> between ;> emit (OScreen CURSOR_LEFT) else tret tt.
