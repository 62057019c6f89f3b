(** Specification vocabulary for calls and several threads. *)
From Verif Require Import Base ModemCore CallModel BookSpec RaceModel.

Definition at_thread (s : system) (i : nat) (t : thread) : Prop := nth_error (sy_threads s) i = Some t.
Definition has_call (s : system) (n : nat) (c : call) : Prop := nth_error (p_calls (sy_phone s)) n = Some c.
Definition listed (s : system) (id : Z) (n : nat) : Prop := In (id, n) (p_table (sy_phone s)).
(** how a thread has ended *)
Inductive over : thread -> outcome -> Prop :=
| ov_end x : over (TEnd (EOver x)) x
| ov_answered x : over (TAnswered (AOver x)) x
| ov_hang n x : over (THang n (HOver x)) x
| ov_pick n x : over (TPick n (POver x)) x
| ov_ring nb ty x : over (TRing nb ty (ROver x)) x
| ov_dial nb cb n : over (TDial nb cb (DOver n)) Fine.
Definition quiet (s : system) : Prop := Forall (fun t => exists x, over t x) (sy_threads s).
(** what C51 says about the table *)
Definition book_at (s : system) : book := mk_book (p_calls (sy_phone s)) (p_table (sy_phone s)) None None.
(** calls are listed under their own ids, no id twice *)
Definition indexed (s : system) : Prop :=
  NoDup (map fst (p_table (sy_phone s))) /\ forall id n, listed s id n -> exists c, has_call s n c /\ c_id c = id.
(** what never changes in a call *)
Definition same_party (c c' : call) : Prop :=
  c_id c' = c_id c /\ c_incoming c' = c_incoming c /\ c_type c' = c_type c /\ c_number c' = c_number c /\ c_callback c' = c_callback c.
(** the call has ended: it is inactive and not in the table *)
Definition gone (s : system) (n : nat) : Prop := (exists c, has_call s n c /\ c_active c = false) /\ forall id, ~ listed s id n.

(** A thread about to remove what is listed under the id: it is at line 980 or 981, or in
    hangup() of a call with this id. *)
Definition removing (s : system) (id : Z) (t : thread) : Prop :=
  (exists n, t = TEnd (EStop id n)) \/ t = TEnd (EDel id) \/
  exists n st c, t = THang n st /\ (forall x, st <> HOver x) /\ has_call s n c /\ c_id c = id.
(** An id is given to a new call when it is neither in use nor about to be removed;
    hangup() is not called for a call whose id another call has. *)
Definition careful_step (s : system) (l : label) : Prop :=
  match l with
  | LEntered _ id _ => (forall n, ~ listed s id n) /\ Forall (fun t => ~ removing s id t) (sy_threads s)
  | LStart _ (THang n HHush) => forall c m, has_call s n c -> listed s (c_id c) m -> m = n
  | _ => True
  end.
Inductive careful (s : system) : list label -> system -> Prop :=
| cf_nil : careful s [] s
| cf_snoc ls s1 a s2 l : careful s ls s1 -> act s1 a = Some (s2, l) -> careful_step s1 l -> careful s (ls ++ [l]) s2.

Definition by_thread (l : label) : nat :=
  match l with LStart i _ | LFound i _ _ | LStatus i _ | LGone i _ _ | LEntered i _ _ | LRing i _ | LWrote i _ _ | LQuiet i => i end.
Definition of_thread (a : action) (i : nat) : Prop := match a with ABegin _ => False | AGo j | AWritten j _ | ABlurred j _ => j = i end.
(** the calls of which thread [i] has told the callback for incoming calls *)
Fixpoint told_by (i : nat) (ls : list label) : list nat :=
  match ls with
  | [] => []
  | LRing j n :: ls => if Nat.eqb j i then n :: told_by i ls else told_by i ls
  | _ :: ls => told_by i ls
  end.
(** [i] finds the call [n] under [id], and another thread removes what is under that id *)
Definition robbed (i : nat) (id : Z) (n : nat) (ls : list label) : Prop :=
  exists l1 l2 j m, ls = l1 ++ LFound i id n :: l2 /\ j <> i /\ In (LGone j id m) l2.

(** ** One thread on its own *)
(** [xs]: how its commands end; [told]: the calls whose status callback is called *)
Inductive solo (i : nat) : phone -> thread -> list (res unit) -> list event -> phone -> thread -> Prop :=
| so_end p t : solo i p t [] [] p t
| so_go p t p1 t1 l xs evs p2 t2 : go i p t = Some (p1, t1, l) -> solo i p1 t1 xs evs p2 t2 ->
    solo i p t xs (match l with LStatus _ n => [EStatus n] | LRing _ n => [ERing n] | _ => [] end ++ evs) p2 t2
| so_write p t x t1 l xs evs p2 t2 : written i t x = Some (t1, l) -> solo i p t1 xs evs p2 t2 -> solo i p t (x :: xs) evs p2 t2.
Definition unit_res {A} (x : res A) : res unit := match x with Ok _ => Ok tt | Err e => Err e end.
Definition phone_of (m : modem) : phone := mk_phone (callObjs m) (activeCalls m).

(** threads that begin with a loop over the table *)
Definition loops (t : thread) : bool := match t with TEnd (ESearch _) | TAnswered ASearch | TRing _ _ _ => true | _ => false end.
(** how many steps thread [i] has made, its beginning not counted *)
Definition steps (i : nat) (ls : list label) : nat := length (filter (fun l => match l with LStart _ _ => false | _ => Nat.eqb (by_thread l) i end) ls).
(** a call in the table, and nothing else *)
Definition only (c : call) : system := mk_system (mk_phone [c] [(c_id c, 0%nat)]) [].
Definition none : system := mk_system (mk_phone [] []) [].

(** What a step that is recorded as [l] does *)
Definition meant (s : system) (l : label) (s' : system) : Prop :=
  match l with
  | LFound _ id n => listed s id n /\ sy_phone s' = sy_phone s
  | LGone _ id n => listed s id n /\ (forall j m, listed s' j m <-> listed s j m /\ j <> id) /\ p_calls (sy_phone s') = p_calls (sy_phone s)
  | LEntered _ id n => n = length (p_calls (sy_phone s)) /\ (exists c, p_calls (sy_phone s') = p_calls (sy_phone s) ++ [c] /\ c_id c = id /\ c_active c = true) /\
      forall j m, listed s' j m <-> (j, m) = (id, n) \/ listed s j m /\ j <> id
  | LStatus _ n => (exists c, has_call s n c /\ c_callback c = true) /\ p_table (sy_phone s') = p_table (sy_phone s)
  | _ => p_table (sy_phone s') = p_table (sy_phone s) /\ length (p_calls (sy_phone s')) = length (p_calls (sy_phone s))
  end.

(** A thread at a turn of its loop [l]; what it goes on with when the loop gives it a
    call, when the loop ends, and when it raises *)
Inductive at_turn : thread -> loop -> (nat -> thread) -> thread -> thread -> Prop :=
| tn_end f l : at_turn (TEnd (ELoop f l)) l (fun n => TEnd (ELook f l n)) (TEnd (EOver Fine)) (TEnd (EOver SizeChanged))
| tn_answered l : at_turn (TAnswered (ALoop l)) l (fun n => TAnswered (ALook l n)) (TAnswered (AOver Fine)) (TAnswered (AOver SizeChanged))
| tn_ring nb ty l found : at_turn (TRing nb ty (RLoop l found)) l (fun n => TRing nb ty (RLook l found n))
    (TRing nb ty (match found with Some n => RTell n | None => RLen end)) (TRing nb ty (ROver SizeChanged)).
(** What a loop over a dict gives: the entry whose turn it is, if the dict is what it was;
    RuntimeError, if its size is another; otherwise any entry, or the end. *)
Inductive gives (table : list (Z * nat)) (l : loop) : option (option nat) -> Prop :=
| gv_next id n : table = seen l -> nth_error table (pos l) = Some (id, n) -> gives table l (Some (Some n))
| gv_end : table = seen l -> (length table <= pos l)%nat -> gives table l (Some None)
| gv_any id n : length table = length (seen l) -> table <> seen l -> In (id, n) table -> gives table l (Some (Some n))
| gv_stop : length table = length (seen l) -> table <> seen l -> gives table l (Some None)
| gv_size : length table <> length (seen l) -> gives table l None.
