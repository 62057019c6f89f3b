(** The serial port with a modem at its other end. *)
From Verif Require Import Base SerialModel SerialSpec WireSpec WireProofs.

(** C90: every response returned is the modem's answer to the command, in order, with lines
    among it that came unasked; the other lines that came unasked, and no others, are
    notifications *)
Theorem C90_responses : forall w, reached w -> exists cs waiting unasked open seen coming,
  commands w = cs ++ waiting /\ (length waiting <= 1)%nat /\ served cs (responses w) unasked /\
  merged (unasked ++ open) (notified w) seen /\ texts (announced w) = seen ++ coming /\
  (lock (port w) = None -> waiting = [] /\ open = []) /\ (reader (port w) = RIdle [] -> queue w = [] -> coming = []).
Proof. exact served_all. Qed.
Print Assumptions C90_responses.
(** if nothing comes unasked, it is exactly the answer *)
Theorem C90_exact : forall w, reached w -> announced w = [] -> notified w = [] /\
  exists cs waiting, commands w = cs ++ waiting /\ (length waiting <= 1)%nat /\ (lock (port w) = None -> waiting = []) /\
    responses w = map (fun c => (fst (fst c), texts (snd c))) cs.
Proof. exact exact_answers. Qed.
Print Assumptions C90_exact.
(** and the read thread does not die *)
Theorem C90_alive : forall w e lost, reached w -> announced w = [] -> reader (port w) <> RDead e lost.
Proof. exact reader_lives. Qed.
Print Assumptions C90_alive.
(** When the modem has sent its answer and everything is read, the command waits no longer. *)
Theorem C90_answered : forall w i e buf, reached w -> owed w = [] -> queue w = [] -> reader (port w) = RIdle buf ->
  writer (port w) i = WWait e -> is_set (port w) e = true.
Proof. exact all_answered. Qed.
Print Assumptions C90_answered.
(** Everything is read: the read thread makes a step unless it has died or there is nothing to
    read, at most ten for each character. *)
Theorem C90_moves : forall w, (forall e l, reader (port w) <> RDead e l) ->
  (exists buf, reader (port w) = RIdle buf /\ queue w = []) \/ exists w', read_thread w w'.
Proof. exact read_moves. Qed.
Print Assumptions C90_moves.
Theorem C90_rests : exists f : wired -> nat, f wired_init = 0%nat /\
  (forall w w', read_thread w w' -> (f w' < f w)%nat) /\
  (forall w w', wstep w w' -> read_thread w w' \/ exists sent, queue w' = queue w ++ sent /\ (f w' = f w + 10 * length sent)%nat).
Proof. exact read_bounded. Qed.
Print Assumptions C90_rests.

(** RING before the answer to AT+CSQ becomes part of the response, RING after it a notification *)
Definition csq : wop := mk_wop (lit "AT+CSQ") true None.
Definition answer : list seg := [Blank; Line (lit "+CSQ: 9,9"); Blank; Line (lit "OK")].
Definition session : list move_ :=
  repeat (MWrite csq) 4 ++ [MSend answer; MWrite csq; MAnnounce (Line (lit "RING"))] ++ repeat MAnswer 4 ++ [MAnnounce (Line (lit "RING"))] ++
  repeat MRead 180 ++ repeat (MWrite csq) 5.
Lemma session_legal : Forall legal session.
Proof.
  assert (W : legal (MWrite csq)) by (left; reflexivity).
  assert (R : legal (MAnnounce (Line (lit "RING")))) by (apply good_inner; reflexivity).
  assert (A : legal (MSend answer)).
  { intro e. exists [Blank; Line (lit "+CSQ: 9,9"); Blank], (Line (lit "OK")). split; [reflexivity|].
    split; [repeat (apply Forall_cons; [first [exact I | apply good_inner; reflexivity]|]); apply Forall_nil|apply good_ending; reflexivity]. }
  unfold session. repeat (apply Forall_app; split); try (apply Forall_forall; intros x X; apply repeat_spec in X; subst x; first [exact W|exact I]);
    repeat (apply Forall_cons; [assumption|]); apply Forall_nil.
Qed.
Example C90_example : exists w, reached w /\ responses w = [(0%nat, [lit "RING"; lit "+CSQ: 9,9"; lit "OK"])] /\ notified w = [lit "RING"] /\
  lock (port w) = None /\ queue w = [] /\ reader (port w) = RIdle [] /\ texts (announced w) = [lit "RING"; lit "RING"].
Proof.
  destruct (plays wired_init session) as [w|] eqn:E; [|vm_compute in E; discriminate]. exists w.
  split; [eapply plays_reached; [constructor|exact session_legal|exact E]|]. vm_compute in E. injection E as <-. vm_compute. auto 10.
Qed.
(** the same session without RING, when everything is read *)
Definition quiet_session : list move_ := repeat (MWrite csq) 4 ++ [MSend answer; MWrite csq] ++ repeat MAnswer 4 ++ repeat MRead 120.
Example C90_quiet_example : exists w e, reached w /\ announced w = [] /\ owed w = [] /\ queue w = [] /\ reader (port w) = RIdle [] /\
  writer (port w) 0%nat = WWait e /\ responses w = [] /\ (exists w', plays w (repeat (MWrite csq) 4) = Some w' /\ responses w' = [(0%nat, texts answer)]).
Proof.
  destruct (plays wired_init quiet_session) as [w|] eqn:E; [|vm_compute in E; discriminate]. exists w, 1%nat.
  split.
  - eapply plays_reached; [constructor| |exact E].
    pose proof session_legal as L. rewrite Forall_forall in *. intros x X. unfold quiet_session in X. rewrite !in_app_iff in X.
    destruct X as [X|[X|[X|X]]]; [| | |apply repeat_spec in X; subst x; exact I]; apply L; unfold session; rewrite !in_app_iff; cbn [In] in *; tauto.
  - vm_compute in E. injection E as <-. vm_compute. repeat (split; [reflexivity|]). eexists. split; reflexivity.
Qed.
