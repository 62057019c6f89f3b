(** The port is given back. *)
From Verif Require Import Base SerialModel LifeModel LifeSpec LifeProofs YieldSpec YieldProofs.

(** C98: a thread holds the port exactly while it is in a call of write() *)
Theorem C98_owner : forall tr s i, lrun l_init tr s -> (lock (base s) = Some i <-> writer (base s) i <> WIdle).
Proof. exact owner_calls. Qed.
Print Assumptions C98_owner.
(** the holder can always go on, unless it waits for an answer; then the time-out lets
    it; and any thread can take a free port *)
Theorem C98_goes_on : forall tr s i w err, lrun l_init tr s -> lock (base s) = Some i \/ lock (base s) = None ->
  (exists s' l, lact s (DWrite i w err) = Some (s', l)) \/ (waits s i /\ in_timeout w = false).
Proof. exact owner_moves. Qed.
Print Assumptions C98_goes_on.
(** after at most ten of its own steps the port has been given back, whatever the others
    do, also when the read thread is dead, the port closed or failing *)
Theorem C98_yields : forall tr0 s tr s' i, lrun l_init tr0 s -> lock (base s) = Some i -> lrun s tr s' -> (10 <= length (filter (moves i) tr))%nat ->
  exists tr1 s1 tr2, tr = tr1 ++ tr2 /\ lrun s tr1 s1 /\ lrun s1 tr2 s' /\ lock (base s1) = None.
Proof. exact owner_yields. Qed.
Print Assumptions C98_yields.
(** each call that starts waiting for an answer has exactly one outcome *)
Theorem C98_outcome : forall tr s i, lrun l_init tr s ->
  count (starts i) (llabels tr) = (count (outcome i) (llabels tr) + if pending s i then 1 else 0)%nat.
Proof. exact one_outcome. Qed.
Print Assumptions C98_outcome.
(** thread 0 writes to a port whose read thread ended after an error; thread 1 to one that
    never answers *)
Definition late (data : str) : win := mk_win (mk_wop data true None) true.
Definition to_failed : list laction := [rt; DRead (mk_rin None true) true; rt; rt; rt] ++ repeat (DWrite 0 (late (lit "AT")) false) 6 ++ repeat (DWrite 1 (late (lit "AT")) false) 4.
Definition to_silent : list laction := repeat (DWrite 1 (late (lit "AT")) false) 11 ++ [DWrite 0 (late (lit "AT")) false].
Example C98_example : exists tr1 s1 tr2 s2, lrun l_init tr1 s1 /\ lock (base s1) = Some 1%nat /\ count (outcome 0) (llabels tr1) = 1%nat /\ pending s1 1 = true /\
  lrun l_init tr2 s2 /\ lock (base s2) = Some 0%nat /\ In (LBase (LTimeout 1 [])) (llabels tr2) /\ (10 <= length (filter (moves 1) tr2))%nat.
Proof.
  destruct (lexec l_init to_failed) as [[tr1 s1]|] eqn:X; [|vm_compute in X; discriminate]. destruct (lexec l_init to_silent) as [[tr2 s2]|] eqn:Y; [|vm_compute in Y; discriminate].
  exists tr1, s1, tr2, s2. split; [eapply lexec_run; eauto|]. split; [vm_compute in X; injection X as <- <-; reflexivity|]. split; [vm_compute in X; injection X as <- <-; reflexivity|].
  split; [vm_compute in X; injection X as <- <-; reflexivity|]. split; [eapply lexec_run; eauto|]. vm_compute in Y. injection Y as <- <-. split; [reflexivity|]. split; [cbn; tauto|]. cbn. lia.
Qed.
