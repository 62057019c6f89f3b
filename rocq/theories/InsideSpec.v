(** Vocabulary for callbacks that use the port. *)
From Verif Require Import Base SerialModel SerialSpec LifeModel LifeSpec CrowdModel CrowdSpec InsideModel.

Definition ilabels (tr : list (iaction * ilabel)) : list ilabel := map snd tr.
(** LifeModel's part of a trace *)
Definition life_labels (tr : list ilabel) : list llabel := flat_map (fun l => match l with IL x => [x] | _ => [] end) tr.

(** the callback neither raises nor calls close() *)
Definition writes_only (l : ilabel) : Prop := match l with IExn _ | INoJoin => False | _ => True end.
(** a step of the callback *)
Definition by_callback (x : iaction * ilabel) : bool := match fst x with OAct _ => false | _ => true end.

(** connect() is called only when every read thread has ended, or is in its
    fatal error callback *)
Definition when_down (tr : list (caction * clabel)) : Prop :=
  forall tr1 l tr2 s, tr = tr1 ++ (CConnect, l) :: tr2 -> crun c_init tr1 s -> Forall (fun t => fst t = PGone \/ fst t = PFatal) (threads s).
(** the labels without those of the error callback *)
Definition but_fatal (tr : list llabel) : list llabel := filter (fun l => match l with LFatal => false | _ => true end) tr.
(** read threads that are in their error callback *)
Definition pending (ts : list (lphase * rpc)) : nat := length (filter (fun t => match fst t with PFatal => true | _ => false end) ts).
(** nobody else closes or connects, and the callback raises no SerialException *)
Definition untouched (l : ilabel) : Prop := l <> IL LClosing /\ l <> IL LConnect /\ l <> IExn true.
