(** Model of main of tools/identify-modem.py, lines 42-86, behind the parsing of the
    arguments. *)
From Verif Require Export ToolModel.

(** What the program writes: its arguments (line 44; the object that holds them, as it
    is), a line, a label with a text or with the list of lines of an answer behind
    it, a line to standard error; the call modem.close(), which it does not make. *)
Inductive iout := Arguments (port : str) (pin : option str) (debug : bool) | Line (text : str) | Value (label text : str) | Answer (label : str) (lines : list str)
                | Wrong (text : str) | Closes.
Definition iresult : Type := list iout * pend.

(** print(label, q): an exception of q is not caught *)
Definition say_value {A} (put : A -> iout) (q : M A) (outs : list iout) (k : list iout -> M iresult) : M iresult :=
  do r <- attempt q;
  match r with Ok v => k (outs ++ [put v]) | Err e => ret (outs, Uncaught e) end.

(** lines 59-74: label and command *)
Definition debug_table : list (str * str) :=
  [(lit "ATI", lit "ATI"); (lit "AT+CGMI:", lit "AT+CGMI"); (lit "AT+CGMM:", lit "AT+CGMM"); (lit "AT+CGMR:", lit "AT+CGMR"); (lit "AT+CFUN=?:", lit "AT+CFUN=?");
   (lit "AT+WIND=?:", lit "AT+WIND=?"); (lit "AT+WIND?:", lit "AT+WIND?"); (lit "AT+CPMS=?:", lit "AT+CPMS=?"); (lit "AT+CNMI=?:", lit "AT+CNMI=?");
   (lit "AT+CVHU=?:", lit "AT+CVHU=?"); (lit "AT+CSMP?:", lit "AT+CSMP?"); (lit "AT+GCAP:", lit "AT+GCAP"); (lit "AT+CPIN?", lit "AT+CPIN?"); (lit "AT+CLAC:", lit "AT+CLAC")].
Fixpoint print_answers (table : list (str * str)) (outs : list iout) : M iresult :=
  match table with
  | [] => ret (outs ++ [Line []], Exits 0)
  | (label, c) :: more => say_value (Answer label) (write_noparse c) outs (print_answers more)
  end.
(** lines 76-86 *)
Definition or_na (x : option str) : str := match x with Some s => s | None => lit "N/A" end.
Definition or_none (x : option str) : str := match x with Some s => s | None => lit "None" end.
Definition print_information (outs : list iout) : M iresult :=
  say_value (Value (lit "Manufacturer:")) manufacturer outs (fun outs =>
  say_value (Value (lit "Model:")) model outs (fun outs =>
  say_value (fun x => Value (lit "Revision:") (or_na x)) (twice revision) outs (fun outs =>
  say_value (fun x => Value (10 :: lit "IMEI:") (or_na x)) (twice (always imei)) outs (fun outs =>
  say_value (fun x => Value (lit "IMSI:") (or_na x)) (twice (always imsi)) outs (fun outs =>
  say_value (fun x => Value (10 :: lit "Network:") (or_none x)) networkName outs (fun outs =>
  say_value (fun x => Value (lit "Signal strength:") (str_of_Z x)) signalStrength outs (fun outs =>
  ret (outs ++ [Line []], Exits 0)))))))).

Definition identify_main (port : str) (pin : option str) (debug : bool) : M iresult :=
  let outs := [Arguments port pin debug; Line (lit "Connecting to GSM modem on " ++ port ++ lit "...")] in
  do r <- attempt (connect pin);
  match r with
  | Err (PinRequiredError _ _) => ret (outs ++ [Wrong said_pin_required], Exits 1)
  | Err (IncorrectPinError _ _) => ret (outs ++ [Wrong said_pin_wrong], Exits 1)
  | Err e => ret (outs, Uncaught e)
  | Ok _ =>
      if debug then print_answers debug_table (outs ++ [Line (10 :: lit "== MODEM DEBUG INFORMATION ==" ++ [10])])
      else print_information (outs ++ [Line (10 :: lit "== MODEM INFORMATION ==" ++ [10])])
  end.
