(** Model of connect, close and the end of the read thread
    (gsmmodem/serial_comms.py:45-58, 83-118), around SerialModel.

    One thread, the owner, calls connect() and close(), one call after the other, and
    connect() only when there is no read thread (connecting twice starts a second
    one: CrowdModel).  The other threads write.  A step is one
    access to something the threads share, as in SerialModel.

    Not modelled here: what the two callbacks do; they return at once (InsideModel has
    callbacks that write, close and raise).  A failing close() of the port is not
    modelled. *)
From Verif Require Export SerialModel.

(** Where the read thread is in _readLoop. *)
Inductive lphase :=
| PTest          (* 92: while self.alive *)
| PIter          (* 93-108: SerialModel's [reader] says where *)
| PDown          (* 112: self.alive = False *)
| PShut          (* 113-116: self.serial.close() *)
| PFatal         (* 118: self.fatalErrorCallback(e) *)
| PGone.         (* the thread has ended *)
(** Where the owner is. *)
Inductive opc :=
| OIdle
| OJoin          (* 57: self.rxThread.join() *)
| OClose.        (* 58: self.serial.close() *)

Record life := mk_life {
  base : sstate;
  up : bool;               (* self.alive *)
  is_open : bool;          (* the port is open *)
  loop : lphase;
  owner : opc }.

(** After connect (45-52) on a new object. *)
Definition l_init : life := mk_life s_init true true PTest OIdle.

(** What can be observed, beside SerialModel's labels. *)
Inductive llabel :=
| LBase (l : label)
| LStep                                 (* nothing to see *)
| LEnd                                  (* the read loop finds alive False *)
| LError                                (* SerialException in the read thread *)
| LFatal                                (* fatalErrorCallback called *)
| LClosing                              (* close() called *)
| LClosed                               (* close() returns *)
| LConnect                              (* connect() *)
| LFail (i : nat) (wait : bool).        (* serial.write raises, and so does write() *)

(** The read thread, lines 92-118.  [err]: the call of the port, read (93) or
    inWaiting (73), raises SerialException. *)
Definition loop_step (s : life) (i : rin) (err : bool) : option (life * llabel) :=
  match loop s with
  | PTest => if up s then Some (mk_life (base s) (up s) (is_open s) PIter (owner s), LStep)
             else Some (mk_life (base s) (up s) (is_open s) PGone (owner s), LEnd)
  | PIter =>
      let uses_port := match reader (base s) with RIdle _ | RNote2 => true | _ => false end in
      if uses_port && err then Some (mk_life (base s) (up s) (is_open s) PDown (owner s), LError)
      else match read_step (base s) i with
           | Some (b, l) =>
               Some (mk_life b (up s) (is_open s)
                             (match reader b with RIdle _ => PTest | RDead _ _ => PGone | _ => PIter end) (owner s), LBase l)
           | None => None
           end
  | PDown => Some (mk_life (base s) false (is_open s) PShut (owner s), LStep)
  | PShut => Some (mk_life (base s) (up s) false PFatal (owner s), LStep)
  | PFatal => Some (mk_life (base s) (up s) (is_open s) PGone (owner s), LFatal)
  | PGone => None
  end.

(** write(), lines 120-141.  [err]: serial.write raises; it always does when the port
    is closed.  The with statement releases the lock; _responseEvent and
    _expectResponseTermSeq stay as they are. *)
Definition life_write (s : life) (i : nat) (w : win) (err : bool) : option (life * llabel) :=
  let fails := err || negb (is_open s) in
  let go := match write_step (base s) i w with
            | Some (b, l) => Some (mk_life b (up s) (is_open s) (loop s) (owner s), LBase l)
            | None => None
            end in
  match writer (base s) i with
  | WSend _ => if fails then Some (mk_life (set_writer (base s) i WRel) (up s) (is_open s) (loop s) (owner s), LFail i true) else go
  | WSendNW _ => if fails then Some (mk_life (set_writer (base s) i WRel) (up s) (is_open s) (loop s) (owner s), LFail i false) else go
  | _ => go
  end.

(** close(), lines 54-58 *)
Definition close_step (s : life) : option (life * llabel) :=
  match owner s with
  | OIdle => Some (mk_life (base s) false (is_open s) (loop s) OJoin, LClosing)
  | OJoin => match loop s with
             | PGone => Some (mk_life (base s) (up s) (is_open s) (loop s) OClose, LStep)
             | _ => None
             end
  | OClose => Some (mk_life (base s) (up s) false (loop s) OIdle, LClosed)
  end.

(** connect(), lines 45-52, in one step.  The new read thread starts with an empty
    rxBuffer (91). *)
Definition connect_step (s : life) : option (life * llabel) :=
  match owner s, loop s with
  | OIdle, PGone => Some (mk_life (set_reader (base s) (RIdle [])) true true PTest OIdle, LConnect)
  | _, _ => None
  end.

Inductive laction := DRead (i : rin) (err : bool) | DWrite (i : nat) (w : win) (err : bool) | DClose | DConnect.
Definition lact (s : life) (a : laction) : option (life * llabel) :=
  match a with
  | DRead i err => loop_step s i err
  | DWrite i w err => life_write s i w err
  | DClose => close_step s
  | DConnect => connect_step s
  end.

(** [lrun s tr s']: a finite execution *)
Inductive lrun : life -> list (laction * llabel) -> life -> Prop :=
| lrun_nil s : lrun s [] s
| lrun_snoc s tr s' a l s'' : lrun s tr s' -> lact s' a = Some (s'', l) -> lrun s (tr ++ [(a, l)]) s''.
