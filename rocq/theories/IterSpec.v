(** What an iteration over a trie should give. *)
From Verif Require Import Base TrieModel TrieSpec IterModel.

(** [turns] are the outcomes of next() for an iteration over [keys]: the keys in order,
    the end, and from then on StopIteration *)
Definition outcome_at (py37 : bool) (keys : list str) (n : nat) : turn :=
  match nth_error keys n with
  | Some k => Yields k
  | None => if (n =? length keys)%nat && py37 then RaisesRuntimeError else Stops
  end.

Section S.
Context {V : Type}.
(** the statements of a history *)
Definition ops_of (acts : list (act V)) : list (op V) :=
  flat_map (fun a => match a with AOp o => [o] | ANext => [] end) acts.
Definition nexts (acts : list (act V)) : nat :=
  length (filter (fun a => match a with ANext => true | AOp _ => false end) acts).
End S.
