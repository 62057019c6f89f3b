(** Property C100: iterating over the trie of tools/gsmtermlib/trie.py. *)
From Verif Require Import Base TrieModel TrieSpec IterModel IterSpec IterProofs.

(** C100: the trie is used in any way before the first next() and between all others.
    The keys stored at the first next() come, each once, whatever happens meanwhile; the next() after
    the last one raises RuntimeError (StopIteration before Python 3.7), all later ones StopIteration. *)
Theorem C100_iteration : forall V py37 (ops : list (op V)) before acts, nexts before = 0%nat ->
  let turns := iterate py37 (run ops) Fresh (before ++ ANext :: acts) in
  exists keys, NoDup keys /\ (forall k, In k keys <-> present (run (ops ++ ops_of before)) k) /\
    length turns = S (nexts acts) /\ forall n x, nth_error turns n = Some x -> x = outcome_at py37 keys n.
Proof. exact @iter_gives. Qed.
Print Assumptions C100_iteration.
Example C100_example :
  let acts := [ANext; AOp (Del (lit "BYE")); AOp (Set_ (lit "C") 5); ANext; ANext; ANext; ANext] in
  let ops := [Set_ (lit "ATD") 1; Set_ (lit "BYE") 4] in
  iterate true (run ops) Fresh (AOp (Set_ (lit "ATH") 2) :: acts) =
    [Yields (lit "ATD"); Yields (lit "ATH"); Yields (lit "BYE"); RaisesRuntimeError; Stops] /\
  iterate false (run ops) Fresh (AOp (Set_ (lit "ATH") 2) :: acts) =
    [Yields (lit "ATD"); Yields (lit "ATH"); Yields (lit "BYE"); Stops; Stops].
Proof. vm_compute. split; reflexivity. Qed.
