(** Specification vocabulary for the command level of modem.py. *)
From Verif Require Import Base ModemCore.

(** decimal digits, and the number they denote *)
Definition digits (ds : str) : Prop := ds <> [] /\ Forall (fun c => is_digit c = true) ds.
Definition dec_value (ds : str) : Z := fold_left (fun a c => 10 * a + (c - 48)) ds 0.
(** '$' also matches before a final line feed *)
Definition line_end (nl : str) : Prop := nl = [] \/ nl = [10].
Definition substring (p s : str) : Prop := exists a b, s = a ++ p ++ b.

(** ** Status lines *)
(** "+CME ERROR: <code>" (kind 69, 'E') and "+CMS ERROR: <code>" (kind 83, 'S') *)
Definition cm_error (kind code : Z) (line : str) : Prop :=
  (kind = 69 \/ kind = 83) /\
  exists ds nl, line = lit "+CM" ++ [kind] ++ lit " ERROR: " ++ ds ++ nl /\ digits ds /\ line_end nl /\ code = dec_value ds.
Definition error_line (line : str) : Prop := substring (lit "ERROR") line.
Definition not_supported (line : str) : Prop := line = lit "COMMAND NOT SUPPORT".
Definition good_line (line : str) : Prop := ~ error_line line /\ ~ not_supported line.
Definition busy_code (code : Z) : Prop := code = 515 \/ code = 14.
(** a reply that says "try again later" *)
Definition busy_reply (code : Z) (r : reply) : Prop :=
  busy_code code /\ exists ls line kind, r = Lines (ls ++ [line]) /\ cm_error kind code line.
Definition not_busy (r : reply) : Prop := forall code, ~ busy_reply code r.

(** the exception for an error code *)
Inductive exception_for (command : str) : Z -> Z -> exn -> Prop :=
| ef_pin : exception_for command 69 11 (PinRequiredError command 11)
| ef_wrong_pin : exception_for command 69 16 (IncorrectPinError command 16)
| ef_puk : exception_for command 69 12 (PukRequiredError command 12)
| ef_cme c : c <> 11 -> c <> 16 -> c <> 12 -> exception_for command 69 c (CmeError command c)
| ef_smsc : exception_for command 83 330 (SmscNumberUnknownError command 330)
| ef_cms c : c <> 330 -> exception_for command 83 c (CmsError command c).

(** what becomes of a command whose reply is not "busy" *)
Inductive outcome (command : str) : reply -> res (list str) -> Prop :=
| oc_silent : outcome command (NoReply []) (Err (TimeoutException None))
| oc_late l ls : outcome command (NoReply (l :: ls)) (Err (TimeoutException (Some (l :: ls))))
| oc_empty : outcome command (Lines []) (Err IndexError)
| oc_good ls line : good_line line -> outcome command (Lines (ls ++ [line])) (Ok (ls ++ [line]))
| oc_code ls line kind code e : cm_error kind code line -> ~ busy_code code -> exception_for command kind code e ->
    outcome command (Lines (ls ++ [line])) (Err e)
| oc_error ls line : error_line line -> (forall kind code, ~ cm_error kind code line) ->
    outcome command (Lines (ls ++ [line])) (Err (CommandError (Some command)))
| oc_unsupported ls : outcome command (Lines (ls ++ [lit "COMMAND NOT SUPPORT"]))
    (Err (CommandError (Some (command ++ lit "(COMMAND NOT SUPPORT)")))).

(** ** What was put on the wire *)
Definition writes_of (tr : list event) : list str :=
  flat_map (fun e => match e with EWrite t _ => [t] | _ => [] end) tr.
Definition sleeps_of (tr : list event) : list Z :=
  flat_map (fun e => match e with ESleep t => [t] | _ => [] end) tr.

(** The events of a command: attempts answered "busy", then the last.  After each
    answer the program sleeps [wait] if that is positive, and before a retry it
    raises [wait] by 0.2s and sleeps again. *)
Definition pause (wait : Z) : list event := if 0 <? wait then [ESleep wait] else [].
Fixpoint attempts (text : str) (wait : Z) (busy : list reply) (last : reply) : list event :=
  match busy with
  | [] => EWrite text (Some last) :: match last with Lines _ => pause wait | NoReply _ => [] end
  | b :: bs => EWrite text (Some b) :: pause wait ++ ESleep (wait + 2) :: attempts text (wait + 2) bs last
  end.

(** every reply is "busy", with these codes *)
Definition all_busy (busy : list reply) (codes : list Z) : Prop := Forall2 (fun r c => busy_reply c r) busy codes.

(** [text] was put on the wire, again after each busy reply, until the answer gave
    [x] *)
Definition exchange (command term : str) (evs : list event) (x : res (list str)) : Prop :=
  exists wait busy codes r, evs = attempts (command ++ term) wait busy r /\ all_busy busy codes /\ not_busy r /\ outcome command r x.

(** the decimal notation of a number *)
Definition decimal (n : Z) (ds : str) : Prop := digits ds /\ dec_value ds = n /\ (ds = [48] \/ forall ds', ds <> 48 :: ds').
