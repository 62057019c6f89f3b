(** Specification vocabulary for USSD. *)
From Verif Require Import Base ModemCore ModemSpec SendSpec UssdModel.

(** the end of the text of an item: a quote, a comma and a digit *)
Definition stop (s : str) : Prop := exists d r, s = 34 :: 44 :: d :: r /\ is_digit d = true.
(** [s] starts with the item +CUSD: <status>,"<text>",<digits>, followed by [rest];
    the text reaches to the first stop *)
Definition cusd_at (s : str) (status : Z) (text rest : str) : Prop :=
  exists sp ds, s = lit "+CUSD:" ++ sp ++ status :: 44 :: 34 :: text ++ 34 :: 44 :: ds ++ rest /\
    blank sp /\ is_digit status = true /\ digits ds /\ (forall d r, rest = d :: r -> is_digit d = false) /\
    (forall a b, text ++ 34 :: 44 :: ds ++ rest = a ++ b -> stop b -> (length text <= length a)%nat).
(** the items in a string, from left to right; what is between them is skipped *)
Inductive cusd_items : str -> list (Z * str) -> Prop :=
| ci_end : cusd_items [] []
| ci_item s status text rest l : cusd_at s status text rest -> cusd_items rest l -> cusd_items s ((status, text) :: l)
| ci_skip c s l : (forall status text rest, ~ cusd_at (c :: s) status text rest) -> cusd_items s l -> cusd_items (c :: s) l.

(** what several items mean together: the text is that of the last one that is no
    release, the session goes on when all have status 1 *)
Definition release (i : Z * str) : Prop := fst i = 50.
Definition last_text (l : list (Z * str)) (text : option str) : Prop :=
  (text = None /\ Forall release l) \/ exists a s t b, l = a ++ (s, t) :: b /\ s <> 50 /\ Forall release b /\ text = Some t.
Definition all_go_on (l : list (Z * str)) : Prop := Forall (fun i => fst i = 49) l.
(** the result for the items found *)
Inductive cusd_result : list (Z * str) -> res ussd -> Prop :=
| cr_none : cusd_result [] (Err IndexError)
| cr_one s t u : u_message u = Some t -> (u_active u = true <-> s = 49) -> cusd_result [(s, t)] (Ok u)
| cr_several i j l u : last_text (i :: j :: l) (u_message u) -> (u_active u = true <-> all_go_on (i :: j :: l)) -> cusd_result (i :: j :: l) (Ok u).
(** a notification line as a modem writes it, with a text without quotes *)
Definition cusd_line (line : str) (i : Z * str) : Prop :=
  exists sp ds, line = lit "+CUSD:" ++ sp ++ fst i :: 44 :: 34 :: snd i ++ 34 :: 44 :: ds /\
    blank sp /\ is_digit (fst i) = true /\ ~ In 34 (snd i) /\ digits ds.

(** ** Sessions *)
Definition ussd_command (s : str) : str := lit "AT+CUSD=1,""" ++ s ++ [34; 44; 49; 53].
(** notifications handled one after the other; a handler that raises does not stop the
    next one *)
Inductive ussd_notified : world -> list (list str) -> world -> Prop :=
| un_nil w : ussd_notified w [] w
| un_cons w lines ns x w1 w2 : handleUssd lines w = Done x w1 -> ussd_notified w1 ns w2 -> ussd_notified w (lines :: ns) w2.
(** the response in the last notification that has one *)
Fixpoint last_response (ns : list (list str)) : option ussd :=
  match ns with
  | [] => None
  | lines :: ns' => match last_response ns' with
                    | Some u => Some u
                    | None => match parseCusdResponse lines with Ok u => Some u | Err _ => None end
                    end
  end.
