(** Model of callbacks that use the port they come from
    (gsmmodem/serial_comms.py:54-58, 71-78, 83-141), around LifeModel.

    notifyCallback (77) and fatalErrorCallback (118) run in the read thread.  Here a
    callback does what it likes: it calls write() any number of times, calls close(),
    catches exceptions or not, returns or raises; the schedule says which.  (GsmModem's
    own notifyCallback, modem.py:847-855, starts a thread and returns; its
    fatalErrorCallback does nothing.)  LifeModel's callbacks return at once.

    Simplified: the callback does not call connect() (CrowdModel has executions in which
    connect() is called while fatalErrorCallback runs). *)
From Verif Require Export LifeModel.

(** Whether the read thread is in a callback. *)
Inductive place :=
| Outside
| InNote        (* 77: notifyCallback, called with _notification *)
| InFatal.      (* 118: fatalErrorCallback *)
Record inner := mk_inner { outer : life; within : place }.
Definition i_init : inner := mk_inner l_init Outside.

(** The read thread's number among the threads that write. *)
Definition me : nat := 0.

Inductive ilabel :=
| IL (l : llabel)
| IReturn                    (* the callback returns *)
| IExn (port : bool)         (* the callback raises; [port]: SerialException *)
| INoJoin.                   (* close() in the callback: RuntimeError, "cannot join current thread" *)

Inductive iaction :=
| OAct (a : laction)                 (* anybody outside the callback *)
| InWrite (w : win) (err : bool)     (* the callback begins a write(), or goes on with it *)
| InClose                            (* the callback calls close() *)
| InReturn
| InRaise (port : bool).

Definition quiet (s : life) : bool := match writer (base s) me with WIdle => true | _ => false end.
Definition lift (p : place) (r : option (life * llabel)) : option (inner * ilabel) :=
  match r with Some (x, l) => Some (mk_inner x p, IL l) | None => None end.
Definition with_loop (s : life) (p : lphase) : life := mk_life (base s) (up s) (is_open s) p (owner s).

Definition iact (s : inner) (a : iaction) : option (inner * ilabel) :=
  let x := outer s in
  match within s, a with
  | Outside, OAct (DRead i err) =>
      match loop x, reader (base x) with
      | PIter, RNote2 =>                                               (* 73 *)
          if err then lift Outside (lact x (DRead i err))
          else if in_empty i then Some (mk_inner x InNote, IL (LBase (LCallback (notif (base x)))))
          else lift Outside (lact x (DRead i err))
      | PFatal, _ => Some (mk_inner x InFatal, IL LFatal)               (* 118 *)
      | _, _ => lift Outside (lact x (DRead i err))
      end
  | _, OAct (DRead _ _) => None                                        (* the read thread is in the callback *)
  | p, OAct (DWrite j w err) => if (j =? me)%nat then None else lift p (lact x (DWrite j w err))
  | p, OAct a' => lift p (lact x a')
  | Outside, _ => None
  | p, InWrite w err => lift p (life_write x me w err)                 (* 120-141 *)
  | p, InClose =>                                                      (* 56-57 *)
      if quiet x then Some (mk_inner (mk_life (base x) false (is_open x) (loop x) (owner x)) p, INoJoin) else None
  | InNote, InReturn =>                                                (* 78 *)
      if quiet x then
        let b := base x in
        Some (mk_inner (mk_life (mk_s (lock b) (evt b) (is_set b) (expect b) (resp b) (heap b) (fresh b) [] (RIdle []) (writer b))
                                (up x) (is_open x) PTest (owner x)) Outside, IReturn)
      else None
  | InFatal, InReturn => if quiet x then Some (mk_inner (with_loop x PGone) Outside, IReturn) else None
  | InNote, InRaise port =>                                            (* 111: only SerialException is caught *)
      if quiet x then Some (mk_inner (with_loop x (if port then PDown else PGone)) Outside, IExn port) else None
  | InFatal, InRaise port => if quiet x then Some (mk_inner (with_loop x PGone) Outside, IExn port) else None
  end.

(** [irun s tr s']: a finite execution *)
Inductive irun : inner -> list (iaction * ilabel) -> inner -> Prop :=
| irun_nil s : irun s [] s
| irun_snoc s tr s' a l s'' : irun s tr s' -> iact s' a = Some (s'', l) -> irun s (tr ++ [(a, l)]) s''.
