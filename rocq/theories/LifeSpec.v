(** Vocabulary for the life of a connection. *)
From Verif Require Import Base SerialModel SerialSpec LifeModel.

Definition llabels (tr : list (laction * llabel)) : list llabel := map snd tr.
(** SerialModel's part of a trace *)
Definition base_labels (tr : list llabel) : list label := flat_map (fun l => match l with LBase x => [x] | _ => [] end) tr.

(** something is read, sorted or passed on *)
Definition delivers (l : llabel) : Prop :=
  match l with
  | LBase (LChar _) | LBase (LLine _ _) | LBase (LAppend _ _) | LBase (LNotify _) | LBase (LCallback _) | LBase (LDied _) => True
  | _ => False
  end.
(** something is sent *)
Definition sends (l : llabel) : Prop := match l with LBase (LSend _ _ _) => True | _ => False end.

(** steps of the read thread *)
Definition reader_moves (x : laction * llabel) : bool := match fst x with DRead _ _ => true | _ => false end.

(** An execution of SerialModel that the one with connect and close goes through:
    the steps with a label of SerialModel. *)
Fixpoint erase (tr : list (laction * llabel)) : list (action * label) :=
  match tr with
  | [] => []
  | (DRead i _, LBase l) :: r => (ARead i, l) :: erase r
  | (DWrite i w _, LBase l) :: r => (AWrite i w, l) :: erase r
  | _ :: r => erase r
  end.

(** As many errors of the read thread as calls of the error callback, or one more. *)
Definition errors (tr : list llabel) : nat := length (filter (fun l => match l with LError => true | _ => false end) tr).
Definition fatals (tr : list llabel) : nat := length (filter (fun l => match l with LFatal => true | _ => false end) tr).

(** Nothing is left over from earlier: no event, no prompt expected, no line of a
    notification, the lock free, the read buffer empty. *)
Definition like_new (s : life) : Prop :=
  up s = true /\ is_open s = true /\ loop s = PTest /\ reader (base s) = RIdle [] /\
  lock (base s) = None /\ evt (base s) = None /\ expect (base s) = None /\ notif (base s) = [] /\
  forall i, writer (base s) i = WIdle.

(** neither the start of a write nor a line that ends a response *)
Definition no_end (l : llabel) : Prop :=
  match l with LBase (LStart _) => False | LBase (LLine x c) => ~ ends_response (x, c) | _ => True end.
