(** Specification vocabulary: answers that contain texts written by others. *)
From Verif Require Import Base SerialModel SerialSpec.

(** Lines on the wire.  Blank ones are never handed over. *)
Definition on_wire (lines : list str) : str := flat_map (fun l => l ++ crlf) lines.
Definition not_blank (lines : list str) : list str := filter nonempty lines.
Definition no_crlf (l : str) : Prop := ~ occurs crlf l.

(** What is left of the lines of a text behind which the modem sends OK, and the line
    taken for the final result: the text ends before its first line that looks like
    one. *)
Inductive cut_off : list str -> list str -> str -> Prop :=
| co_whole lines : Forall (fun l => ~ final_line l) lines -> cut_off lines lines (lit "OK")
| co_short before last after : Forall (fun l => ~ final_line l) before -> final_line last -> cut_off (before ++ last :: after) before last.

(** What of an execution a modem and the users of the port see: characters read,
    commands sent, responses and time-outs, notifications, threads that die. *)
Definition outside (l : label) : bool :=
  match l with LTau | LLine _ _ | LAppend _ _ | LNotify _ | LStart _ => false | _ => true end.
Definition possible (seen : list label) : Prop :=
  exists tr s, run s_init tr s /\ no_timeouts tr /\ filter outside (labels tr) = seen.

(** One command, whose answer is read up to its last line, and its response. *)
Definition turn (i : nat) (data : str) (read response : list str) : list label :=
  LSend i data true :: map LChar (on_wire read) ++ [LReturn i response].
(** Commands with their answers; what is read after each command, and returned, is what
    was left of the answer to the command before. *)
Fixpoint late_turns (owing : list str) (cs : list (nat * str * list str)) : list label :=
  match cs with
  | [] => []
  | (i, data, answer) :: cs' => turn i data owing (not_blank owing) ++ late_turns answer cs'
  end.
(** an answer: lines, of which the last one is a final result and no other *)
Definition plain_answer (ls : list str) : Prop :=
  exists body fin, ls = body ++ [fin] /\ Forall no_crlf ls /\ Forall (fun l => ~ final_line l) body /\ final_line fin.
