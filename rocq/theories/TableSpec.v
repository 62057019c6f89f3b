(** Specification vocabulary for the table of commands. *)
From Verif Require Import Base TrieModel TrieSpec TermModel TermSpec EntrySpec CommandData.
(** the last entry for [k] *)
Definition defined_as (k : str) (v : option help) : Prop := exists a b, ATCOMMANDS = a ++ (k, v) :: b /\ ~ In k (map fst b).
