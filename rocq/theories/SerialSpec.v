(** Specification vocabulary for the serial port layer. *)
From Verif Require Import Base SerialModel.

Definition crlf : str := [13; 10].
Definition occurs (p s : str) : Prop := exists a b, s = a ++ p ++ b.
Definition suffix_of (p s : str) : Prop := exists a, s = a ++ p.

(** the characters that arrived, time-outs left out *)
Fixpoint received (input : list (option Z)) : str :=
  match input with [] => [] | Some c :: r => c :: received r | None :: r => received r end.

(** [s] is cut after each CRLF: the pieces, and what is left *)
Definition cut_at_crlf (s : str) (pieces : list str) (left : str) : Prop :=
  s = List.concat (map (fun p => p ++ crlf) pieces) ++ left /\
  (forall p, In p pieces -> ~ occurs crlf p) /\ ~ occurs crlf left.
Definition nonempty (s : str) : bool := match s with [] => false | _ => true end.

(** With a prompt: a segment ends with CRLF or with the prompt, at the first
    opportunity. *)
Definition complete (prompt : str) (s : str) : Prop := suffix_of crlf s \/ suffix_of prompt s.
Definition first_complete (prompt : str) (s : str) : Prop :=
  complete prompt s /\ forall a b, s = a ++ b -> a <> [] -> b <> [] -> ~ complete prompt a.
Definition none_complete (prompt : str) (s : str) : Prop := forall a b, s = a ++ b -> a <> [] -> ~ complete prompt a.
(** what becomes of a segment *)
Inductive handed_over : str -> option (str * bool) -> Prop :=
| ho_blank : handed_over crlf None
| ho_line l : l <> [] -> handed_over (l ++ crlf) (Some (l, true))
| ho_prompt s : ~ suffix_of crlf s -> handed_over s (Some (s, false)).
Fixpoint somes {A} (l : list (option A)) : list A :=
  match l with [] => [] | Some x :: r => x :: somes r | None :: r => somes r end.

(** Final result lines. *)
Definition final_line (line : str) : Prop :=
  (exists r, line = lit "OK" ++ r) \/ (exists r, line = lit "ERROR" ++ r) \/
  (exists c d r, (c = 69 \/ c = 83) /\ is_digit d = true /\ line = lit "+CM" ++ [c] ++ lit " ERROR: " ++ d :: r) \/
  line = lit "COMMAND NOT SUPPORT" \/ line = lit "COMMAND NOT SUPPORT" ++ [10].

(** ** Executions *)
Definition labels (tr : list (action * label)) : list label := map snd tr.
Definition is_timeout (l : label) : bool := match l with LTimeout _ _ => true | _ => false end.
(** no wait times out: neither completed nor about to be *)
Definition no_timeouts (tr : list (action * label)) : Prop :=
  forall i w l, In (AWrite i w, l) tr -> in_timeout w = false.

(** Whenever a writing thread moves, the read thread is waiting for input. *)
Definition handled_atomically (tr : list (action * label)) : Prop :=
  forall tr1 i w l tr2 s, tr = tr1 ++ (AWrite i w, l) :: tr2 -> run s_init tr1 s -> exists buf, reader s = RIdle buf.

(** the lines handed to _handleLineRead, the lines added to a response, the lines
    added to the notification buffer, and the notifications delivered *)
Definition lines_of (tr : list label) : list str := flat_map (fun l => match l with LLine x _ => [x] | _ => [] end) tr.
Definition routed_of (tr : list label) : list str :=
  flat_map (fun l => match l with LAppend x _ => [x] | LNotify x => [x] | _ => [] end) tr.
Definition notified_of (tr : list label) : list str := flat_map (fun l => match l with LNotify x => [x] | _ => [] end) tr.
Definition callbacks_of (tr : list label) : list (list str) := flat_map (fun l => match l with LCallback x => [x] | _ => [] end) tr.
Definition appended_of (tr : list label) : list (str * bool) := flat_map (fun l => match l with LAppend x c => [(x, c)] | _ => [] end) tr.
Definition chars_of (tr : list label) : str := flat_map (fun l => match l with LChar c => [c] | _ => [] end) tr.

(** the lines handed to _handleLineRead, with the flag *)
Definition handed_of (tr : list label) : list (str * bool) := flat_map (fun l => match l with LLine x c => [(x, c)] | _ => [] end) tr.

(** Line [x] has been handed over and not yet been put anywhere. *)
Definition not_routed (l : label) : Prop := match l with LLine _ _ | LAppend _ _ | LNotify _ => False | _ => True end.
Definition in_flight (tr : list label) (x : str * bool) : Prop :=
  exists a b, tr = a ++ LLine (fst x) (snd x) :: b /\ Forall not_routed b.
(** A write has created its response event and not yet returned. *)
Definition not_over (l : label) : Prop := match l with LStart _ | LReturn _ _ | LTimeout _ _ => False | _ => True end.
Definition write_open (tr : list label) : Prop :=
  exists a i b, tr = a ++ LStart i :: b /\ Forall not_over b.

(** a line that ends the response: a prompt that was waited for, or a final line *)
Definition ends_response (x : str * bool) : Prop := snd x = false \/ final_line (fst x).

(** The command that has been sent and not yet answered, after a trace; [None]
    also when the trace breaks the rule that there is at most one. *)
Inductive wire := Free | Busy (i : nat) | Broken.
Definition wire_step (w : wire) (l : label) : wire :=
  match w, l with
  | Broken, _ => Broken
  | Free, LSend i _ true => Busy i
  | Free, LSend _ _ false => Free
  | Free, LReturn _ _ | Free, LTimeout _ _ => Broken
  | Busy _, LSend _ _ _ => Broken
  | Busy i, LReturn j _ | Busy i, LTimeout j _ => if (i =? j)%nat then Free else Broken
  | _, _ => w
  end.
Definition wire_after (tr : list label) : wire := fold_left wire_step tr Free.
