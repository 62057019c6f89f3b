(** Who holds the port, and how the calls of write() end (LifeModel: with close(),
    connect() and errors of the port). *)
From Verif Require Import SerialModel LifeModel LifeSpec.

(** the thread moves *)
Definition moves (i : nat) (x : laction * llabel) : bool := match fst x with DWrite j _ _ => Nat.eqb j i | _ => false end.
(** a call that waits for an answer starts: it is about to write its command *)
Definition starts (i : nat) (l : llabel) : bool := match l with LBase (LStart j) => Nat.eqb j i | _ => false end.
(** it ends: with the response, with TimeoutException, or with the exception of
    serial.write *)
Definition outcome (i : nat) (l : llabel) : bool :=
  match l with LBase (LReturn j _) | LBase (LTimeout j _) | LFail j true => Nat.eqb j i | _ => false end.
Definition count (f : llabel -> bool) (ls : list llabel) : nat := length (filter f ls).
(** between the two *)
Definition pending (s : life) (i : nat) : bool :=
  match writer (base s) i with WSend _ | WLoad | WWait _ | WClrEvt _ | WClrExp _ | WRet _ => true | _ => false end.
(** the thread waits for an answer that is not complete *)
Definition waits (s : life) (i : nat) : Prop := exists e, writer (base s) i = WWait e /\ is_set (base s) e = false.
