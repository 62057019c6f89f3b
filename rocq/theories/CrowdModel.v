(** Model of several read threads (gsmmodem/serial_comms.py:45-58, 83-118), around
    LifeModel.

    connect() starts a read thread whether or not there is one already; the threads
    share all attributes, also [self.serial] and [self.alive].  So it is enough to call
    connect() again after it raised: GsmModem.connect (gsmmodem/modem.py:164-380)
    calls SerialComms.connect first and does not close the port when a command
    fails or the PIN is missing or wrong.

    The port delivers characters to whichever thread asks for one.  Simplified: a
    thread that was already waiting for a character when connect() replaced
    [self.serial] still waits for one of the old object, which is the same device; it is
    treated as waiting for one of the new object. *)
From Verif Require Export LifeModel.

Record crowd := mk_crowd {
  shared : sstate;                     (* without [reader], which is not used *)
  c_up : bool;                         (* self.alive *)
  c_open : bool;                       (* the port is open *)
  threads : list (lphase * rpc);       (* the read threads, in the order of their start *)
  c_owner : opc }.

(** After the first connect (45-52). *)
Definition c_init : crowd := mk_crowd s_init true true [(PTest, RIdle [])] OIdle.

(** The object as one of the read threads sees it. *)
Definition seen_by (s : crowd) (t : lphase * rpc) : life :=
  mk_life (set_reader (shared s) (snd t)) (c_up s) (c_open s) (fst t) (c_owner s).
Definition nobody : lphase * rpc := (PGone, RIdle []).
Fixpoint put_nth {A} (n : nat) (x : A) (l : list A) : list A :=
  match l, n with
  | [], _ => []
  | _ :: r, O => x :: r
  | y :: r, S m => y :: put_nth m x r
  end.

Inductive caction := CRead (k : nat) (i : rin) (err : bool) | CWrite (i : nat) (w : win) (err : bool) | CClose | CConnect.

(** [None, l]: a step of another thread; [Some k, l]: one of read thread [k] *)
Definition clabel : Type := option nat * llabel.
Definition back (s : crowd) (x : life) (ts : list (lphase * rpc)) : crowd :=
  mk_crowd (set_reader (base x) (RIdle [])) (up x) (is_open x) ts (owner x).
Definition cact (s : crowd) (a : caction) : option (crowd * clabel) :=
  match a with
  | CRead k i err =>                                             (* 83-118 *)
      match nth_error (threads s) k with
      | None => None
      | Some t =>
          match loop_step (seen_by s t) i err with
          | Some (x, l) => Some (back s x (put_nth k (loop x, reader (base x)) (threads s)), (Some k, l))
          | None => None
          end
      end
  | CWrite i w err =>                                            (* 120-141 *)
      match life_write (seen_by s nobody) i w err with
      | Some (x, l) => Some (back s x (threads s), (None, l))
      | None => None
      end
  | CClose =>                                                    (* 54-58: joins the thread started last *)
      match close_step (seen_by s (last (threads s) nobody)) with
      | Some (x, l) => Some (back s x (threads s), (None, l))
      | None => None
      end
  | CConnect =>                                                  (* 45-52 *)
      match c_owner s with
      | OIdle => Some (mk_crowd (shared s) true true (threads s ++ [(PTest, RIdle [])]) OIdle, (None, LConnect))
      | _ => None
      end
  end.

(** [crun s tr s']: a finite execution *)
Inductive crun : crowd -> list (caction * clabel) -> crowd -> Prop :=
| crun_nil s : crun s [] s
| crun_snoc s tr s' a l s'' : crun s tr s' -> cact s' a = Some (s'', l) -> crun s (tr ++ [(a, l)]) s''.
