(** C118: busy replies when several threads use the modem, sharing the delay. *)
From Verif Require Import Base ModemCore ModemSpec BusyModel BusySpec BusyProofs.

(** In every execution of any number of threads, each call that has ended has sent its
    own command only, again after each busy reply, and its result is that of the first
    reply that is not busy; *)
Theorem C118_own : forall wait jobs ls s i t x, brun (bstart wait jobs) ls s -> nth_error (b_threads s) i = Some t -> b_place t = BEnd x ->
  exists data term busy codes r, nth_error jobs i = Some (data, term) /\ sent_by i ls = map (fun r => (data ++ term, r)) (busy ++ [r]) /\
    all_busy busy codes /\ not_busy r /\ outcome data r x.
Proof. exact own_answer. Qed.
Print Assumptions C118_own.
(** and a call that has not ended can go on, whatever the others do; *)
Theorem C118_moves : forall s i t, nth_error (b_threads s) i = Some t -> (forall x, b_place t <> BEnd x) -> exists l s', bstep s i l s'.
Proof. exact can_move. Qed.
Print Assumptions C118_moves.
(** no sleep is negative, and none is longer than the first delay, or 0.1s, and 0.2s
    for each busy reply; *)
Theorem C118_bound : forall wait jobs ls s n, 0 <= wait -> brun (bstart wait jobs) ls s -> busies ls n ->
  (0 <= b_wait s <= Z.max wait 1 + 2 * Z.of_nat n) /\ forall i d, In (i, BSlept d) ls -> 0 <= d <= Z.max wait 1 + 2 * Z.of_nat n.
Proof. exact delay_bound. Qed.
Print Assumptions C118_bound.
(** when all calls have returned a response the delay is what it was, if no reply was
    busy, and otherwise 0 or 0.1s. *)
Theorem C118_rest : forall wait jobs ls s, brun (bstart wait jobs) ls s -> all_returned s ->
  (no_busy ls /\ b_wait s = wait) \/ (~ no_busy ls /\ (b_wait s = 0 \/ b_wait s = 1)).
Proof. exact delay_at_rest. Qed.
Print Assumptions C118_rest.
(** One thread does what the model of the whole call (C42) does: the same events, the
    same result, the same delay. *)
Theorem C118_alone : forall wait data term ls s t x, brun (bstart wait [(data, term)]) ls s -> In t (b_threads s) -> b_place t = BEnd x ->
  exists busy codes last, all_busy busy codes /\ not_busy last /\ outcome data last x /\ events_of ls = attempts (data ++ term) wait busy last /\
    forall m rest, writeWait m = wait -> exists w', write_with data term true (mk_world m (busy ++ last :: rest) []) = Done x w' /\ trace w' = events_of ls /\ writeWait (dev w') = b_wait s.
Proof. exact alone. Qed.
Print Assumptions C118_alone.
(** With two threads the delay is not kept: a call whose command was answered "busy" can
    send it again without any pause, since the other has reset the delay; *)
Theorem C118_no_pause : forall d1 t1 d2 t2, exists ls s, brun (bstart 0 [(d1, t1); (d2, t2)]) ls s /\
  ls = [(0, BSent (d1 ++ t1) busy14); (1, BSent (d2 ++ t2) busy14); (0, BQuiet); (1, BQuiet);
        (0, BQuiet); (0, BRaised); (0, BSlept 2); (0, BSent (d1 ++ t1) good); (0, BQuiet); (0, BSlept 2);
        (1, BQuiet); (1, BRaised); (0, BReset); (1, BSlept 0); (1, BSent (d2 ++ t2) good)]%nat.
Proof. exact immediate_retry. Qed.
Print Assumptions C118_no_pause.
(** of two raises one can be lost; *)
Theorem C118_lost : forall d1 t1 d2 t2, exists ls s, brun (bstart 0 [(d1, t1); (d2, t2)]) ls s /\ b_wait s = 2 /\
  ls = [(0, BSent (d1 ++ t1) busy14); (1, BSent (d2 ++ t2) busy14); (0, BQuiet); (1, BQuiet); (0, BQuiet); (1, BQuiet); (0, BRaised); (1, BRaised)]%nat.
Proof. exact lost_raise. Qed.
Print Assumptions C118_lost.
(** a call whose command was answered at once sleeps because of another's busy reply; *)
Theorem C118_slowed : forall d1 t1 d2 t2, exists ls s, brun (bstart 0 [(d1, t1); (d2, t2)]) ls s /\
  ls = [(0, BSent (d1 ++ t1) busy14); (0, BQuiet); (0, BQuiet); (0, BRaised); (1, BSent (d2 ++ t2) good); (1, BQuiet); (1, BSlept 2); (1, BQuiet)]%nat /\
  exists t, nth_error (b_threads s) 1 = Some t /\ b_place t = BEnd (Ok [lit "OK"]).
Proof. exact slowed. Qed.
Print Assumptions C118_slowed.
(** and with the same commands and replies of both the delay that remains can be either. *)
Theorem C118_either : forall d1 t1 d2 t2 w, w = 0 \/ w = 1 -> exists ls s, brun (bstart 0 [(d1, t1); (d2, t2)]) ls s /\ all_returned s /\ b_wait s = w /\
  sent_by 0 ls = [(d1 ++ t1, busy515); (d1 ++ t1, good)] /\ sent_by 1 ls = [(d2 ++ t2, busy14); (d2 ++ t2, good)].
Proof. exact last_decides. Qed.
Print Assumptions C118_either.
(** the replies are what they are called *)
Example C118_replies : busy_reply 14 busy14 /\ busy_reply 515 busy515 /\ not_busy good.
Proof. exact (conj busy14_is (conj busy515_is good_not_busy)). Qed.
(** an execution of two calls to the end: C118_own, C118_bound and C118_rest apply *)
Example C118_example : exists ls s n, brun (bstart 0 [(lit "AT+CSQ", [13]); (lit "AT", [13])]) ls s /\ all_returned s /\ busies ls n /\ n = 2%nat /\ b_wait s = 1 /\
  sent_by 1 ls = [(lit "AT" ++ [13], busy14); (lit "AT" ++ [13], good)].
Proof.
  destruct (bplay (bstart 0 [(lit "AT+CSQ", [13]); (lit "AT", [13])])
    [(0, busy515); (1, busy14); (0, na); (1, na); (0, na); (0, na); (1, na); (1, na); (0, na); (1, na); (0, good); (1, good); (0, na); (0, na); (1, na); (1, na); (1, na); (1, na); (0, na); (0, na)]%nat) as [[ls s]|] eqn:P; [|vm_compute in P; discriminate].
  exists ls, s, 2%nat. split; [eapply play; exact P|]. vm_compute in P. injection P as <- <-. split; [intros t [<-|[<-|[]]]; eexists; reflexivity|].
  split; [|repeat split; reflexivity].
  repeat (match goal with |- busies ?l _ => let r := eval cbv in (rev l) in match r with
    | ?x :: ?y => let z := eval cbv in (rev y) in change l with (z ++ [x]) | [] => idtac end end;
    first [exact bu_nil | apply bu_other; [|solve [intros ? ? E; first [discriminate E|injection E as _ <-; exact good_not_busy]]]
      | eapply bu_busy; [|first [exact busy14_is | exact busy515_is]]]).
Qed.
(** a call alone: C118_alone applies *)
Example C118_alone_example : exists ls s t, brun (bstart 0 [(lit "AT", [13])]) ls s /\ b_threads s = [t] /\ b_place t = BEnd (Ok [lit "OK"]) /\
  events_of ls = [EWrite (lit "AT" ++ [13]) (Some busy14); ESleep 2; EWrite (lit "AT" ++ [13]) (Some good); ESleep 2].
Proof.
  destruct (bplay (bstart 0 [(lit "AT", [13])]) [(0, busy14); (0, na); (0, na); (0, na); (0, na); (0, good); (0, na); (0, na); (0, na); (0, na)]%nat) as [[ls s]|] eqn:P; [|vm_compute in P; discriminate].
  exists ls, s. eexists. split; [eapply play; exact P|]. vm_compute in P. injection P as <- <-. repeat split; reflexivity.
Qed.
