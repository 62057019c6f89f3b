(** Property C112: sent messages that the application no longer refers to. *)
From Verif Require Import Base WeakModel WeakSpec WeakProofs.

(** C112: messages that the application keeps do not depend on when others end: without
    a KeyError, all is as if no object ended. *)
Theorem C112_as_if : forall tr s, wruns w_start tr s -> no_key_error tr ->
  exists tr' s', wruns w_start tr' s' /\ nothing_ends tr' /\ filter visible tr' = filter visible tr /\
    forall i o, nth_error (sents s) i = Some o -> ended o = false ->
      exists o', nth_error (sents s') i = Some o' /\ s_ref o' = s_ref o /\ s_report o' = s_report o.
Proof. exact as_if. Qed.
Print Assumptions C112_as_if.
(** two messages, the first one given up; both reports arrive *)
Example C112_as_if_example : exists tr s, wexec w_start [WSend 7; WDrop 0; WSend 8; WEnd 0; WReport 7 70; WReport 8 80; WStep 1; WStep 0; WStep 1; WStep 1; WStep 1; WStep 0] = Some (tr, s) /\
  map snd (filter visible tr) = [QNothing; QNothing; QNothing; QNothing; QNothing; QCalled 80; QCalled 70] /\
  map s_report (sents s) = [None; Some 80] /\ map ended (sents s) = [true; false].
Proof. eexists _, _. split; [vm_compute; reflexivity|]. vm_compute. auto. Qed.
Theorem C112_kept : forall tr s i, wruns w_start tr s -> held i 0 tr false = true -> (i < length (sent_refs tr))%nat -> ~ has_ended tr i.
Proof. exact kept_alive. Qed.
Print Assumptions C112_kept.
(** The report of a message is the one stored last in it. *)
Theorem C112_report : forall tr s i o, wruns w_start tr s -> nth_error (sents s) i = Some o -> s_report o = last_stored i tr None.
Proof. exact report_last. Qed.
Print Assumptions C112_report.
(** modem.sentSms finds the newest message with a reference, unless that one has ended. *)
Theorem C112_found : forall tr s ref i, wruns w_start tr s -> (lookup s ref = Some i <-> is_newest tr ref i /\ ~ has_ended tr i).
Proof. exact found_newest. Qed.
Print Assumptions C112_found.
(** A handler that is through has passed its report on, to the sendSms that waits at
    that moment or else to the callback.  Before, it stored it in the newest message
    with that reference at the time of its second step, or in none, if at the time of
    its first step there was none or it had ended.  Or it raised KeyError and did nothing else. *)
Theorem C112_dealt_with : forall tr s k, wruns w_start tr s -> (k < length (handlers s))%nat -> wact s (WStep k) = None ->
  exists ref rep, nth_error (arrived tr) k = Some (ref, rep) /\
    (effects_of k tr = [QKeyError ref rep] \/
     exists a l, (exists n, step_after k n a l tr) /\ l = (if waiting a false then QSignalled rep else QCalled rep) /\
       ((effects_of k tr = [l] /\ exists a', step_after k 0 a' QNothing tr /\ forall i, is_newest a' ref i -> has_ended a' i) \/
        (exists i a', effects_of k tr = [QStored rep i; l] /\ step_after k 1 a' QNothing tr /\ is_newest a' ref i /\ ~ has_ended a' i))).
Proof. exact dealt_exactly. Qed.
Print Assumptions C112_dealt_with.
Example C112_dealt_with_example : exists tr s, wexec w_start [WSend 7; WReport 7 70; WReport 9 90; WStep 0; WStep 0; WWaits true; WStep 0; WStep 1; WStep 0; WStep 1] = Some (tr, s) /\
  wact s (WStep 0) = None /\ wact s (WStep 1) = None /\ effects_of 0 tr = [QStored 70 0; QSignalled 70] /\ effects_of 1 tr = [QSignalled 90].
Proof. eexists _, _. split; [vm_compute; reflexivity|]. vm_compute. auto. Qed.
(** KeyError happens only if a message with that reference ends between the test and
    the access; and it does happen. *)
Theorem C112_key_error : forall tr s k s' ref rep, wruns w_start tr s -> wact s (WStep k) = Some (s', QKeyError ref rep) ->
  exists a b i o, tr = a ++ (WStep k, QNothing) :: b /\ ~ In (WStep k) (map fst b) /\
    In (WEnd i) (map fst b) /\ nth_error (sents s) i = Some o /\ s_ref o = ref.
Proof. exact key_error. Qed.
Print Assumptions C112_key_error.
Theorem C112_lost : forall ref rep, exists tr s, wruns w_start tr s /\ arrived tr = [(ref, rep)] /\ effects_of 0 tr = [QKeyError ref rep] /\
  map fst tr = [WSend ref; WWaits true; WReport ref rep; WStep 0; WWaits false; WDrop 0; WEnd 0; WStep 0].
Proof. exact report_lost. Qed.
Print Assumptions C112_lost.
(** Once a reference has been used again, later reports do not reach the older message. *)
Theorem C112_used_again : forall a s0 r l b s i o, wruns w_start a s0 -> nth_error (sents s0) i = Some o -> s_ref o = r -> wruns s0 ((WSend r, l) :: b) s ->
  forall k rep, (length (arrived a) <= k)%nat -> ~ In (QStored rep i) (effects_of k b).
Proof. exact used_again. Qed.
Print Assumptions C112_used_again.
(** Messages 0 and 1 have the reference 7; the first one stays without a report, also
    when the second one has ended. *)
Example C112_used_again_example : exists tr s, wexec w_start [WSend 7; WSend 7; WDrop 1; WEnd 1; WReport 7 70; WStep 0; WStep 0] = Some (tr, s) /\
  effects_of 0 tr = [QCalled 70] /\ map s_report (sents s) = [None; None] /\ lookup s 7 = None.
Proof. eexists _, _. split; [vm_compute; reflexivity|]. vm_compute. auto. Qed.
(** The dictionary has at most as many entries as there are messages that have not ended. *)
Theorem C112_size : forall tr s rs, wruns w_start tr s -> NoDup rs -> (forall r, In r rs -> lookup s r <> None) ->
  (length rs <= length (filter (fun o => negb (ended o)) (sents s)))%nat.
Proof. exact not_larger. Qed.
Print Assumptions C112_size.
