(** GsmModem.write in several threads: the delay _writeWait is shared.

    Modelled: GsmModem.write (modem.py:387-446, waitForResponse and parseError True), of
    any number of threads, one access to self._writeWait, one sleep or one exchange with
    the modem at a time; `self._writeWait += 0.2' is a load and a store.  An exchange
    (SerialComms.write) is one step, since the port's lock is held during it (C38, C90).
    As in ModemCore, the delay is counted in tenths of a second (no rounding of floats);
    there is no limit to the depth of the recursion. *)
From Verif Require Import Base ModemCore.

Inductive bplace :=
| BSend                       (* 413: super(GsmModem, self).write(...) *)
| BTest (ls : list str)       (* 414: if self._writeWait > 0 *)
| BPause (ls : list str)      (* 415: time.sleep(self._writeWait) *)
| BLoad (code : Z)            (* 427: self._writeWait += 0.2, the load *)
| BStore (code v : Z)         (* 427, the store *)
| BAgain (code : Z)           (* 430-431: time.sleep(self._writeWait), and the call of self.write *)
| BReturn (ls : list str)     (* 433-437: a call returns its response to the call it retries for *)
| BEnd (x : res (list str)).  (* the outermost call has returned or raised *)
(** a call of write: its arguments, and the codes of the busy replies of the calls
    that wait for it (the innermost first) *)
Record bthread := mkB { b_data : str; b_term : str; b_codes : list Z; b_place : bplace }.
Record bstate := mkBS { b_wait : Z; b_threads : list bthread }.

Inductive blabel :=
| BQuiet
| BSent (text : str) (r : reply)  (* written, and the reply *)
| BSlept (d : Z)                  (* time.sleep(d) *)
| BRaised                         (* the delay has been raised *)
| BReset.                         (* the delay has been set to 0.1 or 0 *)

(** lines 416-446 after the pause: what becomes of a response *)
Definition judged (data : str) (ls : list str) : bplace :=
  match rev ls with
  | [] => BEnd (Err IndexError)
  | cmdStatusLine :: _ =>
      match judge data cmdStatusLine with
      | VAccept => BReturn ls
      | VRaise e => BEnd (Err e)
      | VBusy code => BLoad code
      end
  end.
(** a step of a thread: the delay, the thread, what is seen; [r] is the reply, if a
    command is sent *)
Definition bstep1 (wait : Z) (t : bthread) (r : reply) : option (Z * bthread * blabel) :=
  let 'mkB data term codes p := t in
  let goto p' l := Some (wait, mkB data term codes p', l) in
  match p with
  | BSend =>
      goto (match r with NoReply [] => BEnd (Err (TimeoutException None)) | NoReply ls => BEnd (Err (TimeoutException (Some ls))) | Lines ls => BTest ls end)
        (BSent (data ++ term) r)
  | BTest ls => goto (if 0 <? wait then BPause ls else judged data ls) BQuiet
  | BPause ls => goto (judged data ls) (BSlept wait)
  | BLoad code => goto (BStore code wait) BQuiet
  | BStore code v => Some (v + 2, mkB data term codes (BAgain code), BRaised)
  | BAgain code => Some (wait, mkB data term (code :: codes) BSend, BSlept wait)
  | BReturn ls =>
      match codes with
      | [] => goto (BEnd (Ok ls)) BQuiet
      | code :: rest => Some (if code =? 515 then 1 else 0, mkB data term rest (BReturn ls), BReset)
      end
  | BEnd _ => None
  end.
Fixpoint put_at {A} (n : nat) (x : A) (l : list A) : list A :=
  match l, n with
  | [], _ => []
  | _ :: t, O => x :: t
  | h :: t, S m => h :: put_at m x t
  end.
Inductive bstep (s : bstate) (i : nat) (l : blabel) (s' : bstate) : Prop :=
| bstep_intro t r wait t' : nth_error (b_threads s) i = Some t -> bstep1 (b_wait s) t r = Some (wait, t', l) ->
    s' = mkBS wait (put_at i t' (b_threads s)) -> bstep s i l s'.
(** an execution: the threads take turns in any order *)
Inductive brun (s0 : bstate) : list (nat * blabel) -> bstate -> Prop :=
| brun_nil : brun s0 [] s0
| brun_snoc ls s i l s' : brun s0 ls s -> bstep s i l s' -> brun s0 (ls ++ [(i, l)]) s'.
(** threads about to call write *)
Definition bstart (wait : Z) (jobs : list (str * str)) : bstate := mkBS wait (map (fun j => mkB (fst j) (snd j) [] BSend) jobs).
