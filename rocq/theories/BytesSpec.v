From Verif Require Import Base SerialModel SerialSpec BytesModel.

(** what a port delivers that gives strings, or bytes objects: [None] for a time-out *)
Definition as_str (c : option Z) : datum := DStr (match c with Some c => [c] | None => [] end).
Definition as_bytes (c : option Z) : datum := DBytes (match c with Some c => [c] | None => [] end).
(** the read thread reads no character *)
Definition nothing_read (tr : list (action * label)) : Prop :=
  Forall (fun x => match fst x with ARead i => in_char i = None | AWrite _ _ => True end) tr.
(** characters of strings, no prompt being expected *)
Definition as_strings (s : str) : list (option str * datum) := map (fun c => (None, DStr [c])) s.
