(** Specification vocabulary for the trie after deletions. *)
From Verif Require Import Base TrieModel.

Section S.
Context {V : Type}.
(** the characters [k] lead along the branches to a node that has neither branches nor a key *)
Fixpoint dead_end (t : trie V) (k : str) : Prop :=
  match k with
  | [] => slots t = [] /\ entry t = None
  | c :: k' => match dget c (slots t) with Some t' => dead_end t' k' | None => False end
  end.
End S.
