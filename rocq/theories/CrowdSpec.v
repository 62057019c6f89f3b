(** Specification vocabulary for several read threads. *)
From Verif Require Import Base SerialModel SerialSpec LifeModel LifeSpec SpoofSpec CrowdModel.

Definition clabels (tr : list (caction * clabel)) : list clabel := map snd tr.
(** what a read thread does; what anybody does, in order *)
Definition labels_of (k : nat) (tr : list clabel) : list label :=
  base_labels (flat_map (fun x => match fst x with Some j => if (j =? k)%nat then [snd x] else [] | None => [] end) tr).
Definition all_labels (tr : list clabel) : list label := base_labels (map snd tr).
(** all steps but those of one thread *)
Definition labels_beside (k : nat) (tr : list clabel) : list label :=
  base_labels (flat_map (fun x => match fst x with Some j => if (j =? k)%nat then [] else [snd x] | None => [snd x] end) tr).

(** steps of read thread [k] *)
Definition moves_of (k : nat) (tr : list (caction * clabel)) : nat :=
  length (filter (fun x => match fst x with CRead j _ _ => (j =? k)%nat | _ => false end) tr).

(** connect() is called only when all read threads have ended *)
Definition one_at_a_time (tr : list (caction * clabel)) : Prop :=
  forall tr1 l tr2 s, tr = tr1 ++ (CConnect, l) :: tr2 -> crun c_init tr1 s -> Forall (fun t => fst t = PGone) (threads s).
(** such an execution as one of LifeModel *)
Definition single (a : caction) : laction :=
  match a with CRead _ i e => DRead i e | CWrite i w e => DWrite i w e | CClose => DClose | CConnect => DConnect end.

(** Characters with the thread that reads them: [true] the new one, [false] the old one. *)
Definition taken_by (who : bool) (cs : list (bool * Z)) : str := map snd (filter (fun x => Bool.eqb (fst x) who) cs).
