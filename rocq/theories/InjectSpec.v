(** What a modem makes of the characters it is sent (V.250, 3GPP TS 27.005), as far as
    arguments of methods can matter to it.  Lower-case "at", the repetition "A/" and
    modems that take several commands without semicolons are left out. *)
From Verif Require Import Base ModemCore ModemSpec MonadProofs TrackSpec SendSpec CoverageSpec.

(** the lines ended by a carriage return; what comes behind the last is not yet read *)
Fixpoint cr_lines (s : str) : list str :=
  match s with
  | [] => []
  | c :: s' => if c =? 13 then [] :: cr_lines s' else match cr_lines s' with l :: ls => (c :: l) :: ls | [] => [] end
  end.
(** a semicolon ends a command, unless it is inside double quotes *)
Fixpoint cut (quoted : bool) (s : str) : list str :=
  match s with
  | [] => [[]]
  | c :: s' =>
      if (c =? 59) && negb quoted then [] :: cut false s'
      else match cut (if c =? 34 then negb quoted else quoted) s' with p :: ps => (c :: p) :: ps | [] => [[c]] end
  end.
Definition commands (line : str) : list str :=
  match line with
  | a :: t :: body => if (a =? 65) && (t =? 84) then filter (fun p => match p with [] => false | _ => true end) (cut false body) else []
  | _ => []
  end.
(** the commands that are carried out when the modem waits for commands *)
Definition orders (text : str) : list str := flat_map commands (cr_lines text).
(** the message that is taken when the modem waits for one: up to Ctrl-Z, with what comes
    behind that; None: abandoned (escape), or not ended *)
Fixpoint message (text : str) : option (str * str) :=
  match text with
  | [] => None
  | c :: s => if c =? 26 then Some ([], s) else if c =? 27 then None
              else match message s with Some (t, r) => Some (c :: t, r) | None => None end
  end.

(** harmless arguments: between quotes, elsewhere, as text of a message *)
Definition quotable (s : str) : Prop := ~ In 13 s /\ ~ In 34 s.
Definition bare (s : str) : Prop := ~ In 13 s /\ ~ In 34 s /\ ~ In 59 s.
Definition textual (s : str) : Prop := ~ In 26 s /\ ~ In 27 s.
Definition in_quotes (s : str) : str := [34] ++ s ++ [34].
(** the name of a command: up to "=" or "?" *)
Fixpoint verb (c : str) : str :=
  match c with [] => [] | x :: c' => if (x =? 61) || (x =? 63) then [] else x :: verb c' end.

(** everything that a method puts on the wire *)
Definition sent {A} (c : M A) (m : modem) (sc : list reply) : list str := writes_of (trace (last_of (c (start m sc)))).
(** one command, from a list *)
Definition one_of (cs : list str) (t : str) : Prop := exists c, In c cs /\ orders t = [c].
Definition memory_order (memory : option str) : list str :=
  match memory with Some mem => [lit "+CPMS=" ++ in_quotes mem] | None => [] end.
Definition opt_all (P : str -> Prop) (o : option str) : Prop := match o with Some s => P s | None => True end.
(** the service centre's numbers that the modem reports have no quotes and no carriage returns *)
Definition honest (r : reply) : Prop :=
  match r with Lines ls | NoReply ls => Forall (fun l => forall n, csca_line l n -> quotable n) ls end.
(** the commands of connect(), apart from unlocking the SIM card *)
Definition setup_verbs : list str :=
  [lit "Z"; lit "E0"; lit "+CMEE"; lit "+CFUN"; lit "+CLAC"; lit "^CVOICE"; lit "^USSDMODE"; lit "+WIND"; lit "+CGMI"; lit "+ZPAS"; lit "+COPS"; lit "+CMGF"; lit "+CSCA"; lit "+CSMP"; lit "+CPMS"; lit "+CNMI"; lit "+CLIP"; lit "+CRC"; lit "+CVHU"].
Definition unlock_orders (pin : option str) : list str :=
  lit "+CPIN?" :: match pin with Some p => [lit "+CPIN=" ++ in_quotes p] | None => [] end.
(** a tone; braces have a meaning to str.format *)
Definition tone (c : Z) : Prop := c <> 13 /\ c <> 34 /\ c <> 59 /\ c <> 123 /\ c <> 125.
(** the commands sent because of a notification *)
Definition handler_verbs : list str := [lit "+CRC"; lit "+CPMS"; lit "+CMGR"; lit "+CMGD"].
(** an argument in quotes that ends the quotes, gives another command and takes up the quotes
    again; [after] and [before] are what the method writes behind and before its argument *)
Definition smuggle (a : str) (after : str) (c : str) (before : str) (b : str) : str :=
  a ++ [34] ++ after ++ lit ";" ++ c ++ lit ";" ++ before ++ [34] ++ b.
