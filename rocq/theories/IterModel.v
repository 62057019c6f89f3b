(** Model of tools/gsmtermlib/trie.py: __iter__, lines 182-185.

    The generator runs when next() is called on it: its first step makes the list of the
    keys, line 183.  A [raise StopIteration] within a generator (line 185) arrives as
    RuntimeError in Python 3.7 and later ([py37]), before it just ends the iteration. *)
From Verif Require Export Base TrieModel.

Inductive generator :=
| Fresh                              (* not begun *)
| At (rest : list str)               (* waiting at the yield; the rest of the list *)
| Over.
Inductive turn := Yields (k : str) | RaisesRuntimeError | Stops.

Section I.
Context {V : Type} (py37 : bool).
(** the loop of lines 183-184 and line 185, up to the next yield *)
Definition resume (l : list str) : turn * generator :=
  match l with
  | k :: rest => (Yields k, At rest)
  | [] => (if py37 then RaisesRuntimeError else Stops, Over)
  end.
Definition gen_next (t : trie V) (g : generator) : turn * generator :=
  match g with
  | Fresh => resume (t_keys t None)
  | At rest => resume rest
  | Over => (Stops, Over)
  end.

(** The trie is used while it is being iterated over *)
Inductive act := AOp (o : op V) | ANext.
Fixpoint iterate (t : trie V) (g : generator) (acts : list act) : list turn :=
  match acts with
  | [] => []
  | AOp o :: acts' => iterate (step t o) g acts'
  | ANext :: acts' => let (x, g') := gen_next t g in x :: iterate t g' acts'
  end.
End I.
Arguments act : clear implicits.
