(** Specification vocabulary for identify-modem.py as a whole. *)
From Verif Require Import Base ModemCore ModemSpec SmsModel SendSpec CoverageSpec ConnectSpec ErrorModel ErrorSpec ToolModel ToolSpec IdentModel.

Definition greeting (port : str) (pin : option str) (debug : bool) : list iout :=
  [Arguments port pin debug; Line (lit "Connecting to GSM modem on " ++ port ++ lit "...")].
Definition title (debug : bool) : iout := Line (10 :: (if debug then lit "== MODEM DEBUG INFORMATION ==" else lit "== MODEM INFORMATION ==") ++ [10]).

(** the values that are printed, given what C78 says that the modem said *)
Definition or_else (x : option str) (t : str) : str := match x with Some s => s | None => t end.
Definition values (i : identity) (signal_text : str) : list str :=
  [i_manufacturer i; i_model i; or_else (i_revision i) (lit "N/A"); or_else (i_imei i) (lit "N/A"); or_else (i_imsi i) (lit "N/A"); or_else (i_network i) (lit "None"); signal_text].
Definition labels : list str :=
  [lit "Manufacturer:"; lit "Model:"; lit "Revision:"; 10 :: lit "IMEI:"; lit "IMSI:"; 10 :: lit "Network:"; lit "Signal strength:"].
(** some of the values, with their labels *)
Definition labelled (vs : list str) : list iout := map (fun p => Value (fst p) (snd p)) (combine labels vs).
Definition info_commands : list str := map lit ["AT+CGMI"; "AT+CGMM"; "AT+CGMR"; "AT+CGSN"; "AT+CIMI"; "AT+COPS?"; "AT+CSQ"]%string.
Definition dump_commands_list : list str :=
  map lit ["ATI"; "AT+CGMI"; "AT+CGMM"; "AT+CGMR"; "AT+CFUN=?"; "AT+WIND=?"; "AT+WIND?"; "AT+CPMS=?"; "AT+CNMI=?"; "AT+CVHU=?"; "AT+CSMP?"; "AT+GCAP"; "AT+CPIN?"; "AT+CLAC"]%string.
(** the label of an answer: the command with a colon, which two of them lack *)
Definition answer_label (c l : str) : Prop := if str_eqb c (lit "ATI") || str_eqb c (lit "AT+CPIN?") then l = c else l = c ++ [58].
Definition answered (o : iout) (p : str * list str) : Prop := exists l, o = Answer l (snd p) /\ answer_label (fst p) l.

(** the ways to end: having printed everything, exiting with 1 for the sake of the PIN,
    or with an exception that is not caught, perhaps with a part printed *)
Definition ends_well (port : str) (pin : option str) (debug : bool) (tr : list event) (outs : list iout) : Prop :=
  exists A l os, asked tr = A ++ l /\ pin_use pin A /\ unlocked pin A /\ outs = greeting port pin debug ++ title debug :: os ++ [Line []] /\
    if debug then exists x, l = map (fun p => ask (fst p) (Lines (snd p))) x /\ map fst x = dump_commands_list /\ Forall2 answered os x
    else exists i t, identified l i /\ shown_as (AInt (i_signal i)) t /\ os = labelled (values i t).
Definition part (debug : bool) (os : list iout) : Prop :=
  if debug then exists x, Forall2 answered os x /\ (length x < 14)%nat /\ map fst x = firstn (length x) dump_commands_list
  else exists vs, (length vs < 7)%nat /\ os = labelled vs.
Definition ends_badly (port : str) (pin : option str) (debug : bool) (tr : list event) (outs : list iout) (e : exn) : Prop :=
  outs = greeting port pin debug /\ (forall m o, e <> PinRequiredError m o /\ e <> IncorrectPinError m o) \/
  unlocked pin (asked tr) /\ exists os, outs = greeting port pin debug ++ title debug :: os /\ part debug os.

(** ** Values and answers one by one *)
(** a label, the commands and answers, and the value printed for them *)
Inductive printed : str -> list (str * option reply) -> str -> Prop :=
| pr_manufacturer l v more : answers "AT+CGMI" l (v :: more) -> printed (lit "Manufacturer:") l v
| pr_model l v more : answers "AT+CGMM" l (v :: more) -> printed (lit "Model:") l v
| pr_no_revision l : declines "AT+CGMR" l -> printed (lit "Revision:") l (lit "N/A")
| pr_lost_revision l l' v more : answers "AT+CGMR" l (v :: more) -> declines "AT+CGMR" l' -> printed (lit "Revision:") (l ++ l') (lit "N/A")
| pr_revision l l' v v' more more' : answers "AT+CGMR" l (v :: more) -> answers "AT+CGMR" l' (v' :: more') -> printed (lit "Revision:") (l ++ l') v'
| pr_imei l l' ls v more : answers "AT+CGSN" l ls -> answers "AT+CGSN" l' (v :: more) -> printed (10 :: lit "IMEI:") (l ++ l') v
| pr_imsi l l' ls v more : answers "AT+CIMI" l ls -> answers "AT+CIMI" l' (v :: more) -> printed (lit "IMSI:") (l ++ l') v
| pr_network l ls v : answers "AT+COPS?" l ls -> first_says cops_line ls v -> printed (10 :: lit "Network:") l v
| pr_no_network l ls : answers "AT+COPS?" l ls -> nothing_said cops_line ls -> printed (10 :: lit "Network:") l (lit "None")
| pr_signal l ls s v : answers "AT+CSQ" l ls -> signal ls s -> shown_as (AInt s) v -> printed (lit "Signal strength:") l v.
(** the values printed under the first of some labels, and what is asked for them; what
    is asked behind the last of them leads to nothing that is printed *)
Inductive given : list str -> list (str * option reply) -> list str -> Prop :=
| gn_no_more ls rest : given ls rest []
| gn_one label ls l l' v vs : printed label l v -> given ls l' vs -> given (label :: ls) (l ++ l') (v :: vs).
