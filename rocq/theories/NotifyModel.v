(** Model of gsmmodem/modem.py: which handler gets a notification. *)
From Verif Require Export CallModel UssdModel.

(** __threadedHandleModemNotification, modem.py:857-888: [lines] is what is handed to
    handlers of several lines, [rest] what is left of the loop *)
Fixpoint notify_each (lines rest : list str) : M unit :=
  match rest with
  | [] => ret tt
  | line :: rest' =>
      if contains line (lit "RING") then handleIncomingCall lines
      else if startswith line (lit "+CMTI") then handleSmsReceived line
      else if startswith line (lit "+CUSD") then handleUssd lines
      else if startswith line (lit "+CDSI") then handleSmsStatusReport line
      else
        do m <- get;
        match try_updates (call_updates (callUpdates m)) line with
        | Some h => h
        | None => notify_each lines rest'
        end
  end.
Definition handleNotification (lines : list str) : M unit := notify_each lines lines.
