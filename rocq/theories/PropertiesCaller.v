(** Calls that ring several times. *)
From Verif Require Import Base ModemCore ModemSpec SendSpec TrackSpec CallModel NotifyModel BookSpec DialSpec CallerSpec CallerProofs WriteProofs.

(** C121: while nothing but rings happens to calls, they are the different numbers that
    have been given with rings, "no number" counting as one of them: each caller has
    one call, which has rung as often as this number came, and which the application
    is given each time; the calls are numbered in the order of their first rings. *)
Theorem C121_callers : forall m cs ns m', activeCalls m = [] -> rung_by m cs ns m' ->
  exists callers, NoDup callers /\ (forall c, In c callers <-> In c cs) /\ by_first_ring callers cs /\ one_each (callObjs m) callers cs (callObjs m') (activeCalls m') /\
    Forall2 (fun c n => exists i, n = (length (callObjs m) + i)%nat /\ nth_error callers i = Some c) cs ns.
Proof. exact rung. Qed.
Print Assumptions C121_callers.
(** a number that is given with every ring: one call *)
Theorem C121_one_caller : forall m cs ns m' c, activeCalls m = [] -> rung_by m cs ns m' -> cs <> [] -> Forall (eq c) cs ->
  exists ty, callObjs m' = callObjs m ++ [mk_call 1 true ty c false false true true (Z.of_nat (length cs))] /\
    activeCalls m' = [(1, length (callObjs m))] /\ Forall (eq (length (callObjs m))) ns.
Proof. exact one_caller. Qed.
Print Assumptions C121_one_caller.
(** A number that is given with some of the rings only: there are two active calls, one
    of them without a number. *)
Theorem C121_two_calls : forall m cs ns m' c d, activeCalls m = [] -> rung_by m cs ns m' -> In c cs -> In d cs -> c <> d ->
  exists id1 n1 c1 id2 n2 c2, id1 <> id2 /\ n1 <> n2 /\ In (id1, n1) (activeCalls m') /\ In (id2, n2) (activeCalls m') /\
    nth_error (callObjs m') n1 = Some c1 /\ nth_error (callObjs m') n2 = Some c2 /\ c_number c1 = c /\ c_number c2 = d /\
    c_active c1 = true /\ c_active c2 = true /\ c_ringCount c1 = times c cs /\ c_ringCount c2 = times d cs.
Proof. exact two_callers. Qed.
Print Assumptions C121_two_calls.

Definition clipping : modem := set_clip true modem_init.
Definition number : str := lit "+27821234567".
Definition clip_text : str := lit "+CLIP: ""+27821234567"",145,,,,0".
Lemma clip_ex : clip_line clip_text number.
Proof.
  exists [32], [43], (lit "27821234567"), (lit "145"), (lit ",,,,0"), []. repeat split; try discriminate; auto; try (repeat constructor; fail). vm_compute. intuition discriminate.
Qed.
Lemma ring_ex : ModemSpec.substring (lit "RING") (lit "RING").
Proof. exists [], []. reflexivity. Qed.
Lemma clip_unrelated : unrelated TNone clip_text.
Proof.
  split; [intro E; apply contains_iff in E; discriminate E|split].
  - intro s. repeat split; discriminate.
  - intros n N. inversion N.
Qed.
(** One call rings three times.  The first time there is a pause before the +CLIP line,
    which comes as a notification of its own. *)
Example C121_example : exists m', rung_by clipping [None; Some number; Some number] [0; 1; 1]%nat m' /\
  callObjs m' = [mk_call 1 true None None false false true true 1; mk_call 2 true None (Some number) false false true true 2] /\ activeCalls m' = [(1, 0%nat); (2, 1%nat)].
Proof.
  destruct (handleNotification [lit "RING"] (start clipping [])) as [x1 w1|] eqn:X1; [|discriminate X1]. pose proof X1 as Y1. vm_compute in Y1. injection Y1 as E1 W1. subst x1.
  destruct (handleNotification [lit "RING"; clip_text] (start (dev w1) [])) as [x2 w2|] eqn:X2; [|rewrite <- W1 in X2; discriminate X2]. pose proof X2 as Y2. rewrite <- W1 in Y2. vm_compute in Y2. injection Y2 as E2 W2. subst x2.
  destruct (handleNotification [lit "RING"; clip_text] (start (dev w2) [])) as [x3 w3|] eqn:X3; [|rewrite <- W2 in X3; discriminate X3]. pose proof X3 as Y3. rewrite <- W2 in Y3. vm_compute in Y3. injection Y3 as E3 W3. subst x3.
  exists (dev w3). split; [|rewrite <- W3; split; reflexivity].
  apply (rb_ring clipping [None; Some number] [0; 1]%nat (dev w2) [] (lit "RING") [clip_text] [] w3 (Some number) 1%nat);
    [|constructor|apply ring_ex|exact X3|apply ca_given; [rewrite <- W2; reflexivity|apply clip_ex]|rewrite <- W3; left; reflexivity].
  apply (rb_ring clipping [None] [0]%nat (dev w1) [] (lit "RING") [clip_text] [] w2 (Some number) 1%nat);
    [|constructor|apply ring_ex|exact X2|apply ca_given; [rewrite <- W1; reflexivity|apply clip_ex]|rewrite <- W2; left; reflexivity].
  apply (rb_other clipping [None] [0]%nat (dev w1) [clip_text] [] (Ok tt) (start (dev w1) [])); [|rewrite <- W1; constructor; [apply clip_unrelated|constructor]|rewrite <- W1; reflexivity].
  apply (rb_ring clipping [] [] clipping [] (lit "RING") [] [] w1 None 0%nat); [constructor|constructor|apply ring_ex|exact X1|apply ca_alone|rewrite <- W1; left; reflexivity].
Qed.
Example C121_one_caller_example : exists m', rung_by clipping [Some number; Some number] [0; 0]%nat m' /\
  callObjs m' = [mk_call 1 true None (Some number) false false true true 2].
Proof.
  destruct (handleNotification [lit "RING"; clip_text] (start clipping [])) as [x1 w1|] eqn:X1; [|discriminate X1]. pose proof X1 as Y1. vm_compute in Y1. injection Y1 as E1 W1. subst x1.
  destruct (handleNotification [lit "RING"; clip_text] (start (dev w1) [])) as [x2 w2|] eqn:X2; [|rewrite <- W1 in X2; discriminate X2]. pose proof X2 as Y2. rewrite <- W1 in Y2. vm_compute in Y2. injection Y2 as E2 W2. subst x2.
  exists (dev w2). split; [|rewrite <- W2; reflexivity].
  apply (rb_ring clipping [Some number] [0]%nat (dev w1) [] (lit "RING") [clip_text] [] w2 (Some number) 0%nat);
    [|constructor|apply ring_ex|exact X2|apply ca_given; [rewrite <- W1; reflexivity|apply clip_ex]|rewrite <- W2; left; reflexivity].
  apply (rb_ring clipping [] [] clipping [] (lit "RING") [clip_text] [] w1 (Some number) 0%nat); [constructor|constructor|apply ring_ex|exact X1|apply ca_given; [reflexivity|apply clip_ex]|rewrite <- W1; left; reflexivity].
Qed.
