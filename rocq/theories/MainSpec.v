(** Specification vocabulary for sendsms.py and the line it reads. *)
From Verif Require Import Base ModemCore ModemSpec SmsModel SendSpec TrackSpec CoverageSpec ConnectSpec SetupSpec ToolModel ToolSpec MainModel.

(** there is no line to send *)
Definition nothing_read (python3 : bool) (k : keyboard) : Prop := python3 = true \/ k = AtEnd.
(** what C77 says of a run, as a run of the whole program *)
Definition whole (o : out progress) : out mprogress :=
  match o with
  | Done (Ok (Ended outs e)) w => Done (Ok (Over outs (Ends e))) w
  | Done (Ok (SentOff outs obj)) w => Done (Ok (Sending outs obj)) w
  | Done (Err e) w => Done (Err e) w
  | Stuck w => Stuck w
  end.
Definition asking : pout := Say (10 :: lit "Please type your message and press enter to send it:").

(** how the program ends if there is no line; [tr]: the events.  In [nr_line] the SIM is
    unlocked and there is a signal. *)
Inductive not_read (python3 : bool) (port : str) (pin : option str) (tr : list event) : list pout -> mend -> Prop :=
| nr_pin_required : not_read python3 port pin tr [hello port; Complain (lit "Error: SIM card PIN required. Please specify a PIN with the -p argument.")] (Ends (Exits 1))
| nr_pin_wrong : not_read python3 port pin tr [hello port; Complain (lit "Error: Incorrect SIM card PIN entered.")] (Ends (Exits 1))
| nr_not_connected x : not_read python3 port pin tr [hello port] (Ends (Uncaught x))
| nr_no_signal : unlocked pin (asked tr) ->
    not_read python3 port pin tr [hello port; checking; Say (lit "Network signal strength is not sufficient, please adjust modem position/antenna and try again."); CloseModem] (Ends (Exits 1))
| nr_no_network x : unlocked pin (asked tr) -> not_read python3 port pin tr [hello port; checking] (Ends (Uncaught x))
| nr_line A B : asked tr = A ++ B -> unlocked pin A -> covered B -> not_read python3 port pin tr [hello port; checking; asking] (if python3 then NameError else EofError).
