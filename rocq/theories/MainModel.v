(** Model of main of tools/sendsms.py, lines 44-79, behind the parsing of the arguments,
    with the port that may be missing and the line that is read.  The name raw_input
    exists in Python 2 only: nothing in the file defines it (lines 9-13 are its only
    module-level imports).  What follows sendSms is ToolModel's sendsms_end. *)
From Verif Require Export ToolModel.

(** what the user gives: a line, or the end of the input *)
Inductive keyboard := Types (line : str) | AtEnd.
(** How the program ends: as in ToolModel, or with an exception of reading the line. *)
Inductive mend := Ends (e : pend) | NameError | EofError.
Inductive mprogress := Over (outs : list pout) (e : mend) | Sending (outs : list pout) (obj : nat).

(** raw_input('> '), line 69: an exception of this line is not caught *)
Definition raw_input (python3 : bool) (k : keyboard) : str + mend :=
  if python3 then inr NameError else match k with Types line => inl line | AtEnd => inr EofError end.

(** lines 44-79 *)
Definition main (python3 : bool) (port pin : option str) (deliver : bool) (destination : str) (k : keyboard) (timer : list bool) : M mprogress :=
  match port with
  | None =>
      ret (Over [Complain (lit "Error: No port specified. Please specify the port to which the GSM modem is connected using the -i argument.")] (Ends (Exits 1)))
  | Some port =>
      let outs := [Say (lit "Connecting to GSM modem on " ++ port ++ lit "...")] in
      do r <- attempt (connect pin);
      match r with
      | Err (PinRequiredError _ _) => ret (Over (outs ++ [Complain said_pin_required]) (Ends (Exits 1)))
      | Err (IncorrectPinError _ _) => ret (Over (outs ++ [Complain said_pin_wrong]) (Ends (Exits 1)))
      | Err e => ret (Over outs (Ends (Uncaught e)))
      | Ok _ =>
          let outs := outs ++ [Say (lit "Checking for network coverage...")] in
          do r <- attempt (waitForNetworkCoverage timer);
          match r with
          | Err (TimeoutException _) => ret (Over (outs ++ [Say said_no_signal; CloseModem]) (Ends (Exits 1)))
          | Err e => ret (Over outs (Ends (Uncaught e)))
          | Ok _ =>
              let outs := outs ++ [Say (10 :: lit "Please type your message and press enter to send it:")] in
              match raw_input python3 k with
              | inr e => ret (Over outs e)
              | inl text =>
                  let outs := outs ++ [Say (if deliver then 10 :: lit "Sending SMS and waiting for delivery report..."
                                            else 10 :: lit "Sending SMS message...")] in
                  do r <- attempt (sendSms destination text false deliver);
                  match r with
                  | Err (TimeoutException _) => ret (Over (outs ++ [Say said_timed_out; CloseModem]) (Ends (Exits 1)))
                  | Err e => ret (Over outs (Ends (Uncaught e)))
                  | Ok obj => ret (Sending outs obj)
                  end
              end
          end
      end
  end.
