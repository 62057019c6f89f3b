(** C116: assigning smsTextMode while other threads use the modem for messages. *)
From Verif Require Import Base UtilModel PduModel ModemCore SmsModel StoreSpec ModeModel ModeSpec ModeProofs ModePairProofs ModeReadProofs.

(** assignments of the value that is set already change nothing *)
Theorem C116_steady : forall s ls s', settled s -> (forall new, In (STest new) (threads s) -> new = attr s) -> mrun any s ls s' ->
  Forall (fun il => right (snd il)) ls /\ attr s' = attr s /\ mode s' = mode s /\ (forall i b o, ~ In (i, Switch b o) ls).
Proof. exact steady. Qed.
Print Assumptions C116_steady.

(** if assignments are made one at a time, a call during which none is carried out goes
    right, and between them the program and the modem agree *)
Theorem C116_call : forall s l1 s1 i p l2 s2, settled s -> mrun one_change s l1 s1 -> nth_error (threads s1) i = Some p -> in_use p = false ->
  mrun no_change s1 l2 s2 -> forall l, In (i, l) l2 -> right l.
Proof. exact quiet_call. Qed.
Print Assumptions C116_call.
Theorem C116_agree : forall s ls s', settled s -> mrun one_change s ls s' -> no_change s' ->
  attr s' = mode s' /\ compiled s' /\ (deliver_re s' = true -> report_re s' = true).
Proof. exact one_agree. Qed.
Print Assumptions C116_agree.
(** two threads assign, a third sends two parts and a fourth reads *)
Example C116_two_calls :
  let s := mkM false false false false true [STest true; STest false; ULook 1; RCommand] in
  settled s /\ exists ls s', mrun one_change s ls s' /\ no_change s' /\ attr s' = false /\ Forall (fun il => right (snd il)) ls /\
    In (0%nat, Switch true true) ls /\ In (1%nat, Switch false true) ls /\ In (2%nat, Used true true) ls /\ In (3%nat, Taken false false Fine) ls.
Proof.
  split; [repeat split; discriminate|]. eexists. eexists. split.
  - eapply (play_run one_change oneb oneb_one (map (fun i => (i, true, false)) [0; 0; 0; 0; 0; 0; 0; 2; 2; 1; 1; 1; 1; 1; 3; 3; 3]%nat)). vm_compute. reflexivity.
  - cbn. repeat split; auto 20; repeat constructor.
Qed.

(** a call beside one assignment: a command in the form of the mode just left, a
    response taken as of the wrong mode, either way round *)
Theorem C116_beside : forall a more,
  (exists ls s', mrun one_change (mkM a a true true true [STest (negb a); ULook more]) ls s' /\ In (1%nat, Used a (negb a)) ls) /\
  (exists ls s', mrun one_change (mkM a a true true true [STest (negb a); RCommand]) ls s' /\ In (1%nat, Taken a (negb a) Refused) ls) /\
  (exists ls s', mrun one_change (mkM a a true true true [STest (negb a); RCommand]) ls s' /\ In (1%nat, Taken (negb a) a Refused) ls).
Proof. intros a more. exact (conj (late_command a more) (conj (late_look a) (early_look a))). Qed.
Print Assumptions C116_beside.
(** a message is never misread: reading in the wrong mode is refused.  First for the
    responses themselves (C46), then for all executions. *)
Theorem C116_response : forall b lines s more, reads_as b lines s ->
  (if b then parse_cmgr_pdu (lines ++ more) else parse_cmgr_text (lines ++ more)) = Err parse_failed.
Proof. exact other_mode. Qed.
Print Assumptions C116_response.
Theorem C116_not_misread : forall s ls s', mrun any s ls s' -> forall i answer form, In (i, Taken answer form Fine) ls -> answer = form.
Proof. exact never_wrong. Qed.
Print Assumptions C116_not_misread.
Example C116_response_example :
  parse_cmgr_text [lit "+CMGR: 0,,24"; lit "07917238010010F5040BC87238880900F10000993092516195800AE8329BFD4697D9EC37"; lit "OK"] = Err parse_failed /\
  parse_cmgr_pdu [lit "+CMGR: ""REC READ"",""+27820001111"",,""12/01/31,10:00:00+08"""; lit "hello"; lit "OK"] = Err parse_failed.
Proof. vm_compute. auto. Qed.

(** the regular expressions: AttributeError needs one that has never been compiled *)
Theorem C116_compiled : forall s ls s', deliver_re s = true -> report_re s = true -> pdu_re s = true -> mrun any s ls s' ->
  forall i answer form, ~ In (i, Taken answer form NoneMatch) ls.
Proof. exact never_none. Qed.
Print Assumptions C116_compiled.
Theorem C116_not_compiled :
  (exists ls s', mrun one_change (mkM false false false false true [STest true; RCommand]) ls s' /\ In (1%nat, Taken true true NoneMatch) ls) /\
  (exists ls s', mrun one_change (mkM false false false false true [STest true; RCommand]) ls s' /\ deliver_re s' = true /\ In (1%nat, Taken true true NoneMatch) ls) /\
  (exists ls s', mrun one_change (mkM true true true true false [STest false; RCommand]) ls s' /\ In (1%nat, Taken false false NoneMatch) ls).
Proof. exact (conj early_text (conj early_report early_pdu)). Qed.
Print Assumptions C116_not_compiled.

(** assignments at the same time: two cannot end in disagreement, three can *)
Theorem C116_two : forall s ls s', settled s -> (count assignment s <= 2)%nat -> mrun any s ls s' -> no_change s' -> attr s' = mode s'.
Proof. exact two_agree. Qed.
Print Assumptions C116_two.
Theorem C116_three : forall a, exists ls s', mrun any (mkM a a true true true [STest (negb a); STest (negb a); STest a]) ls s' /\
  threads s' = [Ended Fine; Ended Fine; Ended Fine] /\ attr s' = a /\ mode s' = negb a.
Proof. exact three. Qed.
Print Assumptions C116_three.
(** the disagreement lasts until the value that is not believed to be set is assigned *)
Theorem C116_stuck : forall s ls s', rested s -> attr s <> mode s -> (forall new, In (STest new) (threads s) -> new = attr s) -> mrun any s ls s' ->
  attr s' = attr s /\ mode s' = mode s /\ Forall (fun il => wrong (snd il)) ls /\ (forall i b o, ~ In (i, Switch b o) ls).
Proof. exact stuck. Qed.
Print Assumptions C116_stuck.
Theorem C116_repair : forall s ls s' new i, rested s -> compiled s -> (deliver_re s = true -> report_re s = true) -> mrun one_change s ls s' -> no_change s' ->
  In (i, Switch new true) ls -> attr s' = mode s'.
Proof. exact repair. Qed.
Print Assumptions C116_repair.
(** in disagreement: the same value again, a message sent, a message read; then the
    other value *)
Example C116_lasting :
  let s := mkM false true true true true [STest false; ULook 0; RCommand; STest true] in
  rested s /\ attr s <> mode s /\ exists ls s', mrun one_change s ls s' /\ no_change s' /\ attr s' = true /\ mode s' = true /\
    In (1%nat, Used false true) ls /\ In (2%nat, Taken true false Refused) ls /\ In (3%nat, Switch true true) ls.
Proof.
  split; [repeat split|]. split; [discriminate|]. eexists. eexists. split.
  - eapply (play_run one_change oneb oneb_one (map (fun i => (i, true, false)) [0; 1; 1; 2; 2; 2; 3; 3; 3; 3; 3]%nat)). vm_compute. reflexivity.
  - cbn. repeat split; auto 20.
Qed.
