(** Properties C35-C40: serial_comms.py. *)
From Verif Require Import Base RegexModel SerialModel SerialSpec SerialProofs ThreadProofs LockProofs ResponseProofs DeathProofs SerialFinal.

(** C35: framing.  The read loop with no prompt expected hands over the non-empty
    pieces between CRLFs and keeps the rest. *)
Theorem C35_lines : forall input calls left, rx_run None [] input = (calls, left) ->
  exists pieces, cut_at_crlf (received input) pieces left /\ calls = map (fun l => (l, true)) (filter nonempty pieces).
Proof. exact rx_frames_crlf. Qed.
Print Assumptions C35_lines.
(** there is only one way of cutting *)
Theorem C35_unique : forall s p1 l1 p2 l2, cut_at_crlf s p1 l1 -> cut_at_crlf s p2 l2 -> p1 = p2 /\ l1 = l2.
Proof. exact cut_unique. Qed.
Print Assumptions C35_unique.
Example C35_example : rx_run None [] (map Some (lit "A") ++ [None; Some 13; None; Some 10; Some 13; Some 10; Some 13; Some 66; Some 13; Some 10; Some 67])
  = ([(lit "A", true); ([13; 66], true)], lit "C").
Proof. reflexivity. Qed.
(** with a prompt expected *)
Theorem C35_prompt : forall prompt input calls left, rx_run (Some prompt) [] input = (calls, left) ->
  exists segs outs, received input = List.concat segs ++ left /\ Forall (first_complete prompt) segs /\
    Forall2 handed_over segs outs /\ calls = somes outs /\ none_complete prompt left.
Proof. exact rx_frames_prompt. Qed.
Print Assumptions C35_prompt.
Example C35_prompt_example : rx_run (Some (lit "> ")) [] (map Some ([13; 10] ++ lit "> " ++ lit "X"))
  = ([(lit "> ", false)], lit "X").
Proof. reflexivity. Qed.
(** any number of writing threads, any schedule: the characters read are the
    segments handed over, in order, and what is in the buffer; no line handed over
    contains a CRLF *)
Theorem C35_schedules : forall tr s, run s_init tr s ->
  exists segs outs left, chars_of (labels tr) = List.concat segs ++ left /\ Forall2 handed_over segs outs /\
    handed_of (labels tr) = somes outs /\ Forall (fun x => ~ occurs crlf (fst x)) (somes outs) /\
    (forall buf, reader s = RIdle buf -> left = buf /\ ~ occurs crlf buf).
Proof. exact chars_framed_final. Qed.
Print Assumptions C35_schedules.
Example C35_schedules_example : seen (sch_command 0 (lit "AT") ++ sch_ring) =
  Some [LStart 0; LSend 0 (lit "AT") true; LLine (lit "OK") true; LAppend (lit "OK") true; LReturn 0 [lit "OK"];
        LLine (lit "RING") true; LNotify (lit "RING"); LCallback [lit "RING"]].
Proof. reflexivity. Qed.

(** C36: every line handed over is added to exactly one of response and
    notification, in order, except at most one that is being handled (or was when
    the thread died). *)
Theorem C36_routed : forall tr s, run s_init tr s -> exists fl, lines_of (labels tr) = routed_of (labels tr) ++ fl /\
  (length fl <= 1)%nat /\ forall buf, reader s = RIdle buf -> fl = [].
Proof. exact lines_routed_final. Qed.
Print Assumptions C36_routed.
Theorem C36_notified : forall tr s, run s_init tr s ->
  List.concat (callbacks_of (labels tr)) ++ notif s = notified_of (labels tr).
Proof. exact notified_kept. Qed.
Print Assumptions C36_notified.
(** a line is added to a response only if a write was open when it was handed over;
    a line handed over while no write is open goes to the notification *)
Theorem C36_response_lines : forall tr s tr1 x c tr2, run s_init tr s -> labels tr = tr1 ++ LAppend x c :: tr2 ->
  exists a b, tr1 = a ++ LLine x c :: b /\ Forall not_routed b /\ write_open a.
Proof. exact appended_open. Qed.
Print Assumptions C36_response_lines.
Theorem C36_unsolicited : forall tr s tr1 x c b l tr3, run s_init tr s -> labels tr = tr1 ++ LLine x c :: b ++ l :: tr3 ->
  ~ write_open tr1 -> Forall not_routed b -> (exists y d, l = LAppend y d) \/ (exists y, l = LNotify y) -> l = LNotify x.
Proof. exact unsolicited_notified. Qed.
Print Assumptions C36_unsolicited.
Example C36_example : exists tr s, run s_init tr s /\ routed_of (labels tr) = [lit "OK"; lit "RING"] /\
  notified_of (labels tr) = [lit "RING"] /\ callbacks_of (labels tr) = [[lit "RING"]].
Proof.
  destruct (exec s_init (sch_command 0 (lit "AT") ++ sch_ring)) as [[tr s]|] eqn:X; [|vm_compute in X; discriminate].
  exists tr, s. split; [eapply exec_run; eauto|]. vm_compute in X. injection X as <- <-. vm_compute. auto.
Qed.

(** C37: which lines end a response. *)
Theorem C37_final_line : forall line, is_term line = true <-> final_line line.
Proof. exact is_term_spec. Qed.
Print Assumptions C37_final_line.
Example C37_final_line_example : is_term (lit "OKAY") = true /\ is_term (lit "+CME ERROR: 1") = true /\
  is_term (lit "+CME ERROR: x") = false /\ is_term (lit "COMMAND NOT SUPPORT!") = false /\ is_term (lit " OK") = false.
Proof. vm_compute. auto. Qed.
(** What a write returns: the lines handed over since it started, up to and
    including the first one that ends a response - if no line was being handled
    at the start, and no write ever timed out. *)
Theorem C37_response : forall tr s tr0 i mid ls tr2, run s_init tr s -> no_timeouts tr ->
  labels tr = tr0 ++ LStart i :: mid ++ LReturn i ls :: tr2 -> Forall not_over mid -> (forall x, ~ in_flight tr0 x) ->
  exists pre fin rest, handed_of mid = pre ++ fin :: rest /\
    Forall (fun x => ~ ends_response x) pre /\ ends_response fin /\ ls = map fst (pre ++ [fin]).
Proof. exact response_exact. Qed.
Print Assumptions C37_response.
Example C37_response_example : exists tr s mid, run s_init tr s /\ no_timeouts tr /\
  labels tr = repeat LTau 3 ++ LStart 0 :: mid ++ [LReturn 0 [lit "OK"]; LTau] /\ Forall not_over mid /\ (forall x, ~ in_flight (repeat LTau 3) x).
Proof.
  destruct (exec s_init (sch_command 0 (lit "AT"))) as [[tr s]|] eqn:X; [|vm_compute in X; discriminate].
  exists tr, s, (firstn 18 (skipn 4 (labels tr))). split; [eapply exec_run; eauto|]. split; [eapply exec_no_timeouts; eauto; reflexivity|].
  vm_compute in X. injection X as <- <-. split; [reflexivity|]. split; [vm_compute; repeat constructor|].
  intros x (a & b & E & _). cbn in E. repeat (destruct a as [|? a]; cbn in E; try discriminate).
Qed.

(** C38: mutual exclusion, any number of threads, any schedule. *)
Theorem C38_one_command : forall tr s, run s_init tr s -> wire_after (labels tr) <> Broken.
Proof. exact one_command. Qed.
Print Assumptions C38_one_command.
Theorem C38_sends_locked : forall tr s a s' i d w, run s_init tr s -> act s a = Some (s', LSend i d w) ->
  lock s = Some i /\ lock s' = Some i.
Proof. exact send_locked. Qed.
Print Assumptions C38_sends_locked.
(** a write neither finds its event gone nor its response missing *)
Theorem C38_writes_never_crash : forall tr s i, run s_init tr s -> ~ In (LCrashW i) (labels tr).
Proof. exact never_crash. Qed.
Print Assumptions C38_writes_never_crash.
Example C38_example : wire_after [LSend 0 [] true; LSend 1 [] true] = Broken /\
  seen (repeat (ws 0 (lit "AT")) 6 ++ [ws 1 (lit "AT")]) = None /\
  seen (sch_command 0 (lit "A") ++ sch_command 1 (lit "B")) =
    Some [LStart 0; LSend 0 (lit "A") true; LLine (lit "OK") true; LAppend (lit "OK") true; LReturn 0 [lit "OK"];
          LStart 1; LSend 1 (lit "B") true; LLine (lit "OK") true; LAppend (lit "OK") true; LReturn 1 [lit "OK"]].
Proof. vm_compute. auto. Qed.

(** C39: whose lines a response consists of. *)
Theorem C39_no_crosstalk : forall tr s tr1 i ls tr2, run s_init tr s -> no_timeouts tr -> labels tr = tr1 ++ LReturn i ls :: tr2 ->
  exists tr0 mid stale pre fin rest, tr1 = tr0 ++ LStart i :: mid /\ Forall not_over mid /\
    (stale = [] \/ exists x, stale = [x] /\ in_flight tr0 x) /\
    stale ++ handed_of mid = pre ++ fin :: rest /\
    Forall (fun x => ~ ends_response x) pre /\ ends_response fin /\ ls = map fst (pre ++ [fin]).
Proof. exact response_lines. Qed.
Print Assumptions C39_no_crosstalk.
Example C39_example : exists tr s tr1, run s_init tr s /\ no_timeouts tr /\ labels tr = tr1 ++ LReturn 1 [lit "OK"] :: [LTau] /\ In (LReturn 0 [lit "OK"]) tr1.
Proof.
  destruct (exec s_init (sch_command 0 (lit "AT") ++ sch_command 1 (lit "ATZ"))) as [[tr s]|] eqn:X; [|vm_compute in X; discriminate].
  exists tr, s, (firstn (length tr - 2) (labels tr)). split; [eapply exec_run; eauto|]. split; [eapply exec_no_timeouts; eauto; reflexivity|].
  vm_compute in X. injection X as <- <-. split; [reflexivity|]. cbn. tauto.
Qed.
(** the exception happens: RING, handed over before the write started, becomes part
    of its response *)
Theorem C39_stale_line : exists tr s tr0 mid, run s_init tr s /\ no_timeouts tr /\
  labels tr = tr0 ++ LStart 1 :: mid ++ [LReturn 1 [lit "RING"; lit "+CSQ: 9,9"; lit "OK"]] /\
  ~ In (LStart 1) mid /\ handed_of mid = [(lit "+CSQ: 9,9", true); (lit "OK", true)].
Proof. exact stale_possible. Qed.
Print Assumptions C39_stale_line.
(** with time-outs the late answer to one command is returned for the next *)
Theorem C39_late_answer : exists tr s tr0 mid, run s_init tr s /\
  labels tr = tr0 ++ LSend 1 (lit "AT+CREG?") true :: mid ++ [LReturn 1 [lit "+CSQ: 9,9"; lit "OK"]] /\
  In (LSend 0 (lit "AT+CSQ") true) tr0 /\ In (LTimeout 0 []) tr0.
Proof. exact late_possible. Qed.
Print Assumptions C39_late_answer.

(** C40: the read thread can die, of two exceptions and no other. *)
Theorem C40_crash_possible : exists tr s, run s_init tr s /\ no_timeouts tr /\ reader s = RDead AttributeError (Some (lit "RING")).
Proof. exact crash_possible. Qed.
Print Assumptions C40_crash_possible.
Theorem C40_crash_possible_prompt : exists tr s, run s_init tr s /\ no_timeouts tr /\ reader s = RDead TypeError None.
Proof. exact crash_possible2. Qed.
Print Assumptions C40_crash_possible_prompt.
Theorem C40_crash_kinds : forall tr s e x, run s_init tr s -> reader s = RDead e x -> e = AttributeError \/ e = TypeError.
Proof. exact death_kinds. Qed.
Print Assumptions C40_crash_kinds.
(** not if each line is handled without a writer moving in between *)
Theorem C40_alive_if_atomic : forall tr s e x, run s_init tr s -> handled_atomically tr -> reader s <> RDead e x.
Proof. exact atomic_alive. Qed.
Print Assumptions C40_alive_if_atomic.
Example C40_atomic_example : exists tr s, run s_init tr s /\ handled_atomically tr /\ routed_of (labels tr) = [lit "OK"; lit "RING"; lit "OK"].
Proof.
  destruct (exec s_init (sch_command 0 (lit "AT") ++ sch_ring ++ sch_command 1 (lit "AT"))) as [[tr s]|] eqn:X; [|vm_compute in X; discriminate].
  exists tr, s. split; [eapply exec_run; eauto|]. split; [exact (exec_atomic _ _ _ _ X eq_refl)|]. vm_compute in X. injection X as <- <-. reflexivity.
Qed.
(** after its death nothing is read or delivered any more, and no write that starts
    returns *)
Theorem C40_dead_is_silent : forall tr0 s e x tr s', run s_init tr0 s -> reader s = RDead e x -> run s tr s' ->
  reader s' = RDead e x /\ handed_of (labels tr) = [] /\ routed_of (labels tr) = [] /\ callbacks_of (labels tr) = [] /\
  (forall tr1 i tr2 j ls, labels tr = tr1 ++ LStart i :: tr2 -> ~ In (LReturn j ls) tr2).
Proof. exact dead_silent. Qed.
Print Assumptions C40_dead_is_silent.
