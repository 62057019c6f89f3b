(** Property C114: callbacks that use the port they come from. *)
From Verif Require Import Base SerialModel SerialSpec LifeModel LifeSpec CrowdModel CrowdSpec InsideModel InsideSpec CrowdProofs InsideProofs.

(** C114: a callback that writes is as good, or as bad, as another thread that writes
    while the read thread stands still; so C35-C40, C75 and C76 hold. *)
Theorem C114_writes : forall tr s, irun i_init tr s -> Forall writes_only (ilabels tr) ->
  exists tr' x, lrun l_init tr' x /\ llabels tr' = life_labels (ilabels tr) /\ (within s = Outside -> x = outer s).
Proof. exact inside_writes. Qed.
Print Assumptions C114_writes.
(** While the callback runs, nothing is read, sorted or passed on. *)
Theorem C114_holds : forall s tr s', irun s tr s' -> within s <> Outside -> ~ In IReturn (ilabels tr) -> (forall p, ~ In (IExn p) (ilabels tr)) ->
  within s' = within s /\ Forall (fun l => ~ delivers l) (life_labels (ilabels tr)).
Proof. exact inside_holds. Qed.
Print Assumptions C114_holds.
(** So its commands never get an answer: write() never returns and raises
    TimeoutException without lines, whatever the modem sends. *)
Theorem C114_unanswered : forall tr s ls, irun i_init tr s ->
  ~ In (IL (LBase (LReturn me ls))) (ilabels tr) /\ (In (IL (LBase (LTimeout me ls))) (ilabels tr) -> ls = []) /\ ~ In (IL (LBase (LCrashW me))) (ilabels tr).
Proof. exact inside_unanswered. Qed.
Print Assumptions C114_unanswered.
(** The answer comes later, as a notification: the callback is called with it. *)
Theorem C114_late : exists tr s, irun i_init tr s /\ filter shown (ilabels tr) =
  [IL (LBase (LCallback [lit "RING"])); IL (LBase (LSend me (lit "AT+CLCC") true)); IL (LBase (LTimeout me [])); IReturn;
   IL (LBase (LCallback [lit "+CLCC: 1"; lit "OK"]))].
Proof. exact inside_late. Qed.
Print Assumptions C114_late.
(** If the callback writes next and another thread is waiting for an answer, that
    thread's command times out first, whatever the modem sends. *)
Theorem C114_blocks : forall tr0 s i e tr w err l s', irun i_init tr0 s -> within s <> Outside -> i <> me ->
  writer (base (outer s)) i = WWait e -> is_set (base (outer s)) e = false ->
  irun s (tr ++ [(InWrite w err, l)]) s' -> forallb (fun x => negb (by_callback x)) tr = true ->
  exists a ls b, ilabels tr = a ++ IL (LBase (LTimeout i ls)) :: b /\ forall ls, ~ In (IL (LBase (LReturn i ls))) a.
Proof. exact inside_blocks. Qed.
Print Assumptions C114_blocks.
(** RING comes while thread 1 is about to ask for the signal strength; the callback
    asks too. *)
Example C114_blocks_example : exists tr0 s tr s',
  iexec i_init (arrives (lit "RING") true ++ other_asks 1 (lit "AT+CSQ") true 6) = Some (tr0, s) /\
  within s = InNote /\ (exists e, writer (base (outer s)) 1 = WWait e /\ is_set (base (outer s)) e = false) /\
  iact s (InWrite (mk_win (mk_wop (lit "AT+CLCC") true None) true) false) = None /\
  iexec s (other_asks 1 (lit "AT+CSQ") true 5 ++ asks (lit "AT+CLCC") true 11) = Some (tr, s') /\
  filter shown (ilabels tr) = [IL (LBase (LTimeout 1 [])); IL (LBase (LSend me (lit "AT+CLCC") true)); IL (LBase (LTimeout me []))].
Proof.
  eexists _, _, _, _. split; [vm_compute; reflexivity|]. split; [reflexivity|]. split; [eexists; split; reflexivity|]. split; [reflexivity|].
  split; [vm_compute; reflexivity|]. reflexivity.
Qed.
(** After the callback has called close() (RuntimeError), or has raised, nothing is
    read or passed on until the next connect(), and no command that starts is
    answered. *)
Theorem C114_stopped : forall tr s a x b, irun i_init tr s -> ilabels tr = a ++ x :: b -> x = INoJoin \/ (exists p, x = IExn p) -> ~ In (IL LConnect) b ->
  Forall (fun l => ~ delivers l) (life_labels b) /\
  forall b1 i b2 j ls, b = b1 ++ IL (LBase (LStart i)) :: b2 -> ~ In (IL (LBase (LReturn j ls))) b2.
Proof. exact inside_stopped. Qed.
Print Assumptions C114_stopped.
(** close() in the notification callback does not close the port. *)
Theorem C114_open : forall tr0 s s1 tr s', irun i_init tr0 s -> within s = InNote -> owner (outer s) = OIdle -> iact s InClose = Some (s1, INoJoin) ->
  irun s1 tr s' -> Forall untouched (ilabels tr) -> is_open (outer s') = true.
Proof. exact inside_open. Qed.
Print Assumptions C114_open.
Example C114_open_example : exists tr0 s s1 tr s',
  iexec i_init (arrives (lit "RING") true) = Some (tr0, s) /\ within s = InNote /\ owner (outer s) = OIdle /\ iact s InClose = Some (s1, INoJoin) /\
  iexec s1 ([InRaise false] ++ other_asks 1 (lit "AT+CSQ") true 11) = Some (tr, s') /\
  filter shown (ilabels tr) = [IExn false; IL (LBase (LSend 1 (lit "AT+CSQ") true)); IL (LBase (LTimeout 1 []))] /\ loop (outer s') = PGone.
Proof.
  eexists _, _, _, _, _. split; [vm_compute; reflexivity|]. split; [reflexivity|]. split; [reflexivity|]. split; [reflexivity|].
  split; [vm_compute; reflexivity|]. split; reflexivity.
Qed.
(** The lines of a notification whose callback raised come again, with the next
    notification. *)
Theorem C114_again : forall tr s a ls b p c ls2 d, irun i_init tr s ->
  ilabels tr = a ++ IL (LBase (LCallback ls)) :: b ++ IExn p :: c ++ IL (LBase (LCallback ls2)) :: d -> ~ In IReturn b -> ~ In IReturn c ->
  exists more, ls2 = ls ++ more.
Proof. exact inside_again. Qed.
Print Assumptions C114_again.
Example C114_again_example : exists tr s,
  iexec i_init (arrives (lit "RING") true ++ [InRaise false; OAct DClose; OAct DClose; OAct DClose; OAct DConnect] ++ arrives (lit "NO CARRIER") true) = Some (tr, s) /\
  filter shown (ilabels tr) = [IL (LBase (LCallback [lit "RING"])); IExn false; IL LClosing; IL LClosed; IL LConnect; IL (LBase (LCallback [lit "RING"; lit "NO CARRIER"]))].
Proof. eexists _, _. split; [vm_compute; reflexivity|]. reflexivity. Qed.
(** connect() in the error callback is as good as connect() after it: the labels are
    those of an execution of LifeModel, except for the places of the calls of the
    error callback. *)
Theorem C114_reconnects : forall tr s, crun c_init tr s -> when_down tr ->
  exists tr', lrun l_init tr' (seen_by s (last (threads s) nobody)) /\
    but_fatal (llabels tr') = but_fatal (map snd (clabels tr)) /\
    fatals (llabels tr') = (fatals (map snd (clabels tr)) + pending (removelast (threads s)))%nat.
Proof. exact reconnects. Qed.
Print Assumptions C114_reconnects.
(** the port fails, the callback connects, the old thread ends while the new one reads *)
Example C114_reconnects_example : exists tr s, cexec c_init [ct 0; CRead 0 (mk_rin None true) true; ct 0; ct 0; CConnect; ct 1; ct 1; ct 0; ct 1] = Some (tr, s) /\
  map snd (clabels tr) = [LStep; LError; LStep; LStep; LConnect; LStep; LBase LTau; LFatal; LStep] /\ map fst (threads s) = [PGone; PIter].
Proof. eexists _, _. split; [vm_compute; reflexivity|]. split; reflexivity. Qed.
