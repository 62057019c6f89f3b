(** Model of [GsmModem.sentSms], a WeakValueDictionary (gsmmodem/modem.py:145), as
    sendSms fills it (656-658) and _handleSmsStatusReport uses it (1011-1018), with the
    objects it refers to coming to an end.

    A SentSms object ends some time after nothing refers to it any more (CPython: at
    once; other implementations: when they collect).  References are held by the
    application, or by the frame of sendSms until it returns or raises ([kept]), and by
    a handler between finding an object and changing it ([HSet]).  A dictionary entry
    whose object has ended counts as absent: WeakValueDictionary.__contains__ and
    __getitem__ test that.

    Simplified: the event of a waiting sendSms is set or not ([waits]); its races with
    the handlers are the subject of C80 (SenderModel). *)
From Verif Require Export Base.

Record sent := mk_sent { s_ref : Z; s_report : option Z; kept : bool; ended : bool }.
(** The handler of one notification, once the report has been read (1009-1018);
    a report is its TP-MR and what else is in it (a number here). *)
Inductive hpc :=
| HTest (ref rep : Z)             (* 1012: report.reference in self.sentSms *)
| HGet (ref rep : Z)              (* 1013: self.sentSms[report.reference] *)
| HSet (rep : Z) (i : nat)        (* 1013: .report = report *)
| HTell (rep : Z)                 (* 1014-1018 *)
| HOver.

Record weak := mk_weak {
  sents : list sent;              (* all objects ever created *)
  table : list (Z * nat);         (* self.sentSms: the first entry for a key counts *)
  handlers : list hpc;
  waits : bool }.                 (* self._smsStatusReportEvent is not None *)
Definition w_start : weak := mk_weak [] [] [] false.

Inductive waction :=
| WSend (ref : Z)                 (* 656-658 *)
| WDrop (i : nat)                 (* the last reference outside the handlers goes *)
| WEnd (i : nat)                  (* the object is destroyed *)
| WFetch (ref : Z)                (* the application reads modem.sentSms[ref] *)
| WWaits (b : bool)               (* 660, 662, 664 *)
| WReport (ref rep : Z)           (* 1003-1010: a report has been read *)
| WStep (k : nat).                (* handler [k] makes a step *)
Inductive wlabel :=
| QNothing
| QFetched (i : nat)
| QAbsent                         (* KeyError, in the application *)
| QStored (rep : Z) (i : nat)     (* 1013 done *)
| QSignalled (rep : Z)            (* 1016 *)
| QCalled (rep : Z)               (* 1018: smsStatusReportCallback(report) *)
| QKeyError (ref rep : Z).        (* 1013 raises; the handler's thread ends *)

Fixpoint entry (t : list (Z * nat)) (ref : Z) : option nat :=
  match t with
  | [] => None
  | (r, i) :: t' => if r =? ref then Some i else entry t' ref
  end.
Definition alive (s : weak) (i : nat) : bool :=
  match nth_error (sents s) i with
  | Some o => negb (ended o)
  | None => false
  end.
(** what sentSms.get(ref) finds *)
Definition lookup (s : weak) (ref : Z) : option nat :=
  match entry (table s) ref with
  | Some i => if alive s i then Some i else None
  | None => None
  end.
Fixpoint change {A} (n : nat) (f : A -> A) (l : list A) : list A :=
  match l, n with
  | [], _ => []
  | x :: r, O => f x :: r
  | x :: r, S m => x :: change m f r
  end.
Definition set_kept (b : bool) (o : sent) : sent := mk_sent (s_ref o) (s_report o) b (ended o).
Definition set_ended (o : sent) : sent := mk_sent (s_ref o) (s_report o) (kept o) true.
Definition set_report (rep : Z) (o : sent) : sent := mk_sent (s_ref o) (Some rep) (kept o) (ended o).
Definition with_sents (s : weak) l : weak := mk_weak l (table s) (handlers s) (waits s).
Definition with_handler (s : weak) k h : weak := mk_weak (sents s) (table s) (change k (fun _ => h) (handlers s)) (waits s).
Definition in_hand (i : nat) (h : hpc) : bool := match h with HSet _ j => Nat.eqb i j | _ => false end.

Definition handler_step (s : weak) (k : nat) (h : hpc) : option (weak * wlabel) :=
  match h with
  | HTest ref rep =>
      match lookup s ref with
      | Some _ => Some (with_handler s k (HGet ref rep), QNothing)
      | None => Some (with_handler s k (HTell rep), QNothing)
      end
  | HGet ref rep =>
      match lookup s ref with
      | Some i => Some (with_handler s k (HSet rep i), QNothing)
      | None => Some (with_handler s k HOver, QKeyError ref rep)
      end
  | HSet rep i => Some (with_handler (with_sents s (change i (set_report rep) (sents s))) k (HTell rep), QStored rep i)
  | HTell rep => Some (with_handler s k HOver, if waits s then QSignalled rep else QCalled rep)
  | HOver => None
  end.
Definition wact (s : weak) (a : waction) : option (weak * wlabel) :=
  match a with
  | WSend ref =>
      Some (mk_weak (sents s ++ [mk_sent ref None true false]) ((ref, length (sents s)) :: table s) (handlers s) (waits s), QNothing)
  | WDrop i => Some (with_sents s (change i (set_kept false) (sents s)), QNothing)
  | WEnd i =>
      match nth_error (sents s) i with
      | Some o => if kept o || existsb (in_hand i) (handlers s) then None else Some (with_sents s (change i set_ended (sents s)), QNothing)
      | None => None
      end
  | WFetch ref =>
      match lookup s ref with
      | Some i => Some (with_sents s (change i (set_kept true) (sents s)), QFetched i)
      | None => Some (s, QAbsent)
      end
  | WWaits b => Some (mk_weak (sents s) (table s) (handlers s) b, QNothing)
  | WReport ref rep => Some (mk_weak (sents s) (table s) (handlers s ++ [HTest ref rep]) (waits s), QNothing)
  | WStep k =>
      match nth_error (handlers s) k with
      | Some h => handler_step s k h
      | None => None
      end
  end.

(** [wruns s tr s']: a finite execution *)
Inductive wruns : weak -> list (waction * wlabel) -> weak -> Prop :=
| wruns_nil s : wruns s [] s
| wruns_cons s a l s' tr s'' : wact s a = Some (s', l) -> wruns s' tr s'' -> wruns s ((a, l) :: tr) s''.
