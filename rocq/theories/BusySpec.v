(** What is asked of several threads whose commands are answered "busy". *)
From Verif Require Import Base ModemCore ModemSpec BusyModel.

(** what thread [i] has written, and the replies *)
Definition sent_by (i : nat) (ls : list (nat * blabel)) : list (str * reply) :=
  flat_map (fun il => if Nat.eqb (fst il) i then match snd il with BSent text r => [(text, r)] | _ => [] end else []) ls.
(** the number of busy replies *)
Inductive busies : list (nat * blabel) -> nat -> Prop :=
| bu_nil : busies [] 0
| bu_busy ls n i text r code : busies ls n -> busy_reply code r -> busies (ls ++ [(i, BSent text r)]) (S n)
| bu_other ls n i l : busies ls n -> (forall text r, l = BSent text r -> not_busy r) -> busies (ls ++ [(i, l)]) n.
Definition no_busy (ls : list (nat * blabel)) : Prop := forall i text r, In (i, BSent text r) ls -> not_busy r.
(** every call has returned a response *)
Definition all_returned (s : bstate) : Prop := forall t, In t (b_threads s) -> exists ls, b_place t = BEnd (Ok ls).
(** the events of an execution *)
Definition events_of (ls : list (nat * blabel)) : list event :=
  flat_map (fun il => match snd il with BSent text r => [EWrite text (Some r)] | BSlept d => [ESleep d] | _ => [] end) ls.
(** replies of the examples *)
Definition busy14 : reply := Lines [lit "+CME ERROR: 14"].
Definition busy515 : reply := Lines [lit "+CMS ERROR: 515"].
Definition good : reply := Lines [lit "OK"].
