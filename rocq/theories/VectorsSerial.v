(** Cases of the test suite of the repository, /repo/test/test_serial_comms.py, on the
    model of serial_comms.py: a check of the model, not of the properties.

    Not replayed: test_noCallback (no notifyCallbackFunc) and test_readLoopException
    (C76's LifeModel has the failing port). *)
From Verif Require Import Base SerialModel.

(** ** test_serial_comms.py *)
(** The read thread takes these characters; inWaiting() counts the rest.  What it calls
    back, and the state. *)
Fixpoint feed (fuel : nat) (s : sstate) (cs : str) : list (list str) * sstate :=
  match fuel with
  | O => ([], s)
  | S n =>
      let go (i : rin) (rest : str) :=
        match read_step s i with
        | Some (s', l) => let '(out, s'') := feed n s' rest in (match l with LCallback ls => ls :: out | _ => out end, s'')
        | None => ([], s)
        end in
      match reader s, cs with
      | RIdle _, [] => ([], s)
      | RIdle _, c :: cs' => go (mk_rin (Some c) (match cs' with [] => true | _ => false end)) cs'
      | _, _ => go (mk_rin None (match cs with [] => true | _ => false end)) cs
      end
  end.
Definition crlf (l : str) : str := l ++ [13; 10].
Definition enough (cs : str) : nat := 10 * S (length cs).
(** test_callback, lines 99-118 *)
Example callback : map (fun ls => fst (feed (enough (List.concat (map crlf ls))) s_init (List.concat (map crlf ls)))) [[lit "ABC"]; [lit " blah blah blah "; lit "12345"]] =
  [[[lit "ABC"]]; [[lit " blah blah blah "; lit "12345"]]].
Proof. reflexivity. Qed.
(** A call of write: as far as it goes on its own; with [late], the wait times out.  What
    it returned or raised last. *)
Fixpoint write_on (fuel : nat) (s : sstate) (op : wop) (late : bool) (out : option label) : sstate * option label :=
  match fuel with
  | O => (s, out)
  | S n => match write_step s 0 (mk_win op late) with
           | Some (s', l) => match writer s' 0%nat with
                             | WIdle => (s', out)
                             | _ => write_on n s' op late (match l with LReturn _ _ | LTimeout _ _ => Some l | _ => out end)
                             end
           | None => (s, out)
           end
  end.
Definition call_write (s : sstate) (op : wop) (answer : list str) (late : bool) : sstate * option label :=
  let '(s1, _) := write_on 20 s op false None in
  let cs := List.concat (map crlf answer) in
  let '(_, s2) := feed (enough cs) s1 cs in
  write_on 20 s2 op late None.
(** test_write, lines 181-195: each answered write followed by one that does not wait *)
Definition waits : wop := mk_wop (lit "test" ++ [13]) true None.
Definition no_wait : wop := mk_wop (lit "test2" ++ [13]) false None.
Fixpoint writes (s : sstate) (answers : list (list str)) : list (option label) :=
  match answers with
  | [] => []
  | a :: answers' => let '(s1, out) := call_write s waits a false in let '(s2, out2) := write_on 20 s1 no_wait false None in out :: out2 :: writes s2 answers'
  end.
Example write_ : writes s_init [[lit "OK"]; [lit "ERROR"]; [lit "first line"; lit "second line"; lit "OK"]; [lit "COMMAND NOT SUPPORT"]] =
  [Some (LReturn 0 [lit "OK"]); None; Some (LReturn 0 [lit "ERROR"]); None; Some (LReturn 0 [lit "first line"; lit "second line"; lit "OK"]); None; Some (LReturn 0 [lit "COMMAND NOT SUPPORT"]); None].
Proof. reflexivity. Qed.
(** test_writeTimeout, test_writeTimeout_data, test_writeTimeout_noData, lines 197-221 *)
Example timeout : snd (call_write s_init waits [] true) = Some (LTimeout 0 []) /\ snd (call_write s_init waits [lit "abc"] true) = Some (LTimeout 0 [lit "abc"]).
Proof. split; reflexivity. Qed.
