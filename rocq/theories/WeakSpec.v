(** What is claimed about the dictionary of sent messages (C112). *)
From Verif Require Import WeakModel.

(** What an observer sees that does not read modem.sentSms: messages sent, reports that
    arrive, and how each is passed on. *)
Definition visible (x : waction * wlabel) : bool :=
  match fst x, snd x with
  | WSend _, _ | WDrop _, _ | WWaits _, _ | WReport _ _, _ => true
  | _, QSignalled _ | _, QCalled _ => true
  | _, _ => false
  end.
Definition nothing_ends (tr : list (waction * wlabel)) : Prop := forall i, ~ In (WEnd i) (map fst tr).
Definition no_key_error (tr : list (waction * wlabel)) : Prop := forall ref rep, ~ In (QKeyError ref rep) (map snd tr).
(** the effects of the steps of handler [k] *)
Fixpoint effects_of (k : nat) (tr : list (waction * wlabel)) : list wlabel :=
  match tr with
  | [] => []
  | (WStep j, QNothing) :: r => effects_of k r
  | (WStep j, l) :: r => if Nat.eqb j k then l :: effects_of k r else effects_of k r
  | _ :: r => effects_of k r
  end.
(** the reports in the order in which they arrived *)
Fixpoint arrived (tr : list (waction * wlabel)) : list (Z * Z) :=
  match tr with
  | [] => []
  | (WReport ref rep, _) :: r => (ref, rep) :: arrived r
  | _ :: r => arrived r
  end.
Definition told (rep : Z) (l : wlabel) : Prop := l = QSignalled rep \/ l = QCalled rep.
(** the report that was stored last in object [i] *)
Fixpoint last_stored (i : nat) (tr : list (waction * wlabel)) (o : option Z) : option Z :=
  match tr with
  | [] => o
  | (_, QStored rep j) :: r => last_stored i r (if Nat.eqb j i then Some rep else o)
  | _ :: r => last_stored i r o
  end.
(** the references of the messages sent, in their order *)
Fixpoint sent_refs (tr : list (waction * wlabel)) : list Z :=
  match tr with
  | [] => []
  | (WSend ref, _) :: r => ref :: sent_refs r
  | _ :: r => sent_refs r
  end.
Definition is_newest (tr : list (waction * wlabel)) (ref : Z) (i : nat) : Prop :=
  nth_error (sent_refs tr) i = Some ref /\ forall j, (i < j)%nat -> nth_error (sent_refs tr) j <> Some ref.
Definition has_ended (tr : list (waction * wlabel)) (i : nat) : Prop := In (WEnd i) (map fst tr).
(** is a sendSms waiting after [tr]? *)
Fixpoint waiting (tr : list (waction * wlabel)) (b : bool) : bool :=
  match tr with
  | [] => b
  | (WWaits b', _) :: r => waiting r b'
  | _ :: r => waiting r b
  end.
Fixpoint steps_of (k : nat) (tr : list (waction * wlabel)) : nat :=
  match tr with
  | [] => 0
  | (WStep j, _) :: r => if Nat.eqb j k then S (steps_of k r) else steps_of k r
  | _ :: r => steps_of k r
  end.
(** handler [k] makes a step, its [n]-th (from 0), after [a] *)
Definition step_after (k n : nat) (a : list (waction * wlabel)) (l : wlabel) (tr : list (waction * wlabel)) : Prop :=
  (exists b, tr = a ++ (WStep k, l) :: b) /\ steps_of k a = n.
(** does the application (or the frame of sendSms) refer to message [i] after [tr]?  [n]
    messages were sent before. *)
Fixpoint held (i n : nat) (tr : list (waction * wlabel)) (b : bool) : bool :=
  match tr with
  | [] => b
  | (WSend _, _) :: r => held i (S n) r (Nat.eqb n i || b)
  | (WDrop j, _) :: r => held i n r (if Nat.eqb j i then false else b)
  | (WFetch _, QFetched j) :: r => held i n r (Nat.eqb j i || b)
  | _ :: r => held i n r b
  end.
