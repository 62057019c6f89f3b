(** Specification vocabulary for the trie: strings, prefixes and an ordinary
    dictionary. *)
From Verif Require Import Base TrieModel.

Definition prefix_of (p k : str) : Prop := exists r, k = p ++ r.
Definition proper_prefix (p k : str) : Prop := prefix_of p k /\ p <> k.

Section S.
Context {V : Type}.
(** [k] has the value [v], respectively some value *)
Definition stored (t : trie V) (k : str) (v : V) : Prop := t_get t k = Ok v.
Definition present (t : trie V) (k : str) : Prop := exists v, stored t k v.

(** ** An ordinary dictionary *)
Definition dict := str -> option V.
Definition d_empty : dict := fun _ => None.
Definition d_set (d : dict) (k : str) (v : V) : dict := fun k' => if str_eqb k' k then Some v else d k'.
Definition d_del (d : dict) (k : str) : dict := fun k' => if str_eqb k' k then None else d k'.
Definition d_step (d : dict) (o : op V) : dict :=
  match o with Set_ k v => d_set d k v | Del k => d_del d k end.
Definition d_run (ops : list (op V)) : dict := fold_left d_step ops d_empty.

(** no inserted key is a proper prefix of a key present at that moment *)
Fixpoint prefix_ordered_from (d : dict) (ops : list (op V)) : Prop :=
  match ops with
  | [] => True
  | o :: ops' =>
      match o with
      | Set_ k _ => forall k', d k' <> None -> ~ proper_prefix k k'
      | Del _ => True
      end /\ prefix_ordered_from (d_step d o) ops'
  end.
Definition prefix_ordered (ops : list (op V)) : Prop := prefix_ordered_from d_empty ops.

Definition insert_only (ops : list (op V)) : Prop := forall o, In o ops -> exists k v, o = Set_ k v.

(** ** Longest common prefix of a set of strings *)
Definition is_lcp (P : str -> Prop) (r : str) : Prop :=
  (forall k, P k -> prefix_of r k) /\ forall r', (forall k, P k -> prefix_of r' k) -> prefix_of r' r.

(** ** Where a key is stored: the number of characters of [k] that are spelled by
    branches; the others are kept in the node reached. *)
Fixpoint branch_depth (t : trie V) (k : str) : nat :=
  match k with
  | [] => 0
  | c :: k' => match dget c (slots t) with Some t' => S (branch_depth t' k') | None => 0 end
  end.
End S.
Arguments dict : clear implicits.
