(** Notifications that arrive together. *)
From Verif Require Import Base DateModel PduModel SerialModel SerialSpec SerialProofs DeathProofs SerialFinal ModemCore ModemSpec MonadProofs SendSpec TrackSpec CoverageSpec SmsModel StoreSpec StoreProofs NotifyModel BookSpec BatchSpec BatchProofs BatchHandler.

(** C120: what the read thread makes of lines sent unasked while no command runs: a
    line after which more is waiting, is held, and a line after which the input
    pauses, is passed on together with all that is held. *)
Theorem C120_batches : forall ps tr s, pieces_only ps -> run s_init tr s -> only_reads tr -> port_follows ps tr ->
  chars_of (labels tr) = sent_text ps -> reader s = RIdle [] -> batched [] ps (callbacks_of (labels tr)) (notif s).
Proof. exact batches. Qed.
Print Assumptions C120_batches.
(** With any number of writing threads and any schedule: each line that is added to the
    notification is held or passed on, by what the port says just then. *)
Theorem C120_any_schedule : forall tr s, run s_init tr s ->
  exists ps p held, asked tr ps p /\ batched [] ps (callbacks_of (labels tr)) held /\ notif s = held ++ match p with Some x => [x] | None => [] end.
Proof. exact any_schedule. Qed.
Print Assumptions C120_any_schedule.
(** lines that arrive together are one call of the callback *)
Theorem C120_together : forall ls l tr s, let ps := map (fun l => (l, false)) ls ++ [(l, true)] in
  Forall (fun l => l <> []) ls -> l <> [] -> pieces_only ps -> run s_init tr s -> only_reads tr -> port_follows ps tr ->
  chars_of (labels tr) = sent_text ps -> reader s = RIdle [] -> callbacks_of (labels tr) = [ls ++ [l]] /\ notif s = [].
Proof. intros ls l tr s ps F N Pc R O P C Rd. exact (batched_fun _ _ _ _ (batches ps tr s Pc R O P C Rd) _ _ (batched_together ls l F N)). Qed.
Print Assumptions C120_together.
(** lines with pauses between them are one call each *)
Theorem C120_apart : forall ls tr s, let ps := map (fun l => (l, true)) ls in
  Forall (fun l => l <> []) ls -> pieces_only ps -> run s_init tr s -> only_reads tr -> port_follows ps tr ->
  chars_of (labels tr) = sent_text ps -> reader s = RIdle [] -> callbacks_of (labels tr) = map (fun l => [l]) ls /\ notif s = [].
Proof. intros ls tr s ps F Pc R O P C Rd. exact (batched_fun _ _ _ _ (batches ps tr s Pc R O P C Rd) _ _ (batched_apart ls F)). Qed.
Print Assumptions C120_apart.
(** A line that is held stays so, whatever commands are sent and answered, until
    another line arrives unasked.  [s]: the read thread is not between adding a line
    and asking for more. *)
Theorem C120_held : forall s tr s', run s tr s' -> reader s <> RNote2 -> notified_of (labels tr) = [] ->
  notif s' = notif s /\ callbacks_of (labels tr) = [].
Proof. intros s tr s' R N E. destruct (held s tr s' R N E) as (A & B & _). exact (conj A B). Qed.
Print Assumptions C120_held.
(** Of the lines of one call at most one leads to a callback of the application. *)
Theorem C120_one : forall lines m sc, match handleNotification lines (start m sc) with Done _ w | Stuck w => (length (told (trace w)) <= 1)%nat end.
Proof.
  intros lines m sc. destruct (at_most_one lines (start m sc)) as (evs & T & L). cbn [trace start app] in T. destruct (handleNotification lines (start m sc)) as [x w|w]; cbn [last_of] in T; rewrite T; exact L.
Qed.
Print Assumptions C120_one.
(** What follows a message indication, a status report indication or news about a
    call, changes nothing. *)
Theorem C120_rest_lost : forall before line after w, Forall (unrelated (callUpdates (dev w))) before -> ~ ModemSpec.substring (lit "RING") line ->
  (exists s, line = lit "+CMTI" ++ s \/ line = lit "+CDSI" ++ s) \/ (exists n, call_news (callUpdates (dev w)) line n) ->
  handleNotification (before ++ line :: after) w = handleNotification [line] w.
Proof. exact rest_ignored. Qed.
Print Assumptions C120_rest_lost.
(** Two messages indicated together: the first is handed over and deleted, unless its
    commands fail; the second stays where it is and is not handed over. *)
Theorem C120_second_message : forall before line1 mid line2 after m d mem ds mem2 ds2 sc x w d', in_sync m d -> Forall (unrelated (callUpdates m)) before ->
  indication (lit "+CMTI:") mem ds line1 -> ~ ModemSpec.substring (lit "RING") line1 -> indication (lit "+CMTI:") mem2 ds2 line2 ->
  (mem2, dec_value ds2) <> (mem, dec_value ds) ->
  handleNotification (before ++ line1 :: mid ++ line2 :: after) (start m sc) = Done x w -> plays d (trace w) d' ->
  match x with
  | Ok _ => exists s content, passed (trace w) = [s] /\ stored d mem (dec_value ds) = Some content /\ handed_as (smsTextMode m) content s /\ stored d' mem (dec_value ds) = None
  | Err _ => passed (trace w) = []
  end /\ stored d' mem2 (dec_value ds2) = stored d mem2 (dec_value ds2).
Proof. exact one_of_two. Qed.
Print Assumptions C120_second_message.

(** *** Examples *)
Definition one : str := lit "+CMTI: ""SM"",1".
Definition two : str := lit "+CMTI: ""SM"",2".
(** one line, more waiting after it or not *)
Definition line_in (l : str) (pause : bool) : list action :=
  feed (l ++ crlf) ++ [rs; rs; ARead (mk_rin None pause)].
Lemma no_crlf_ex l : forallb (fun c => negb (c =? 10)) l = true -> ~ occurs crlf l.
Proof. intros F (a & b & E). rewrite forallb_forall in F. specialize (F 10). rewrite E in F. discriminate F. apply in_or_app. right. right. left. reflexivity. Qed.
Lemma reads_ex as_ tr s : exec s_init as_ = Some (tr, s) -> forallb (fun a => match a with ARead _ => true | _ => false end) as_ = true -> only_reads tr.
Proof. intros X F i w l I. apply exec_actions in X. subst as_. rewrite forallb_forall in F. specialize (F _ (in_map fst _ _ I)). discriminate F. Qed.
Lemma digits_ex (s : str) : s <> [] -> forallb is_digit s = true -> digits s.
Proof. intros N F. split; auto. apply Forall_forall. apply forallb_forall. auto. Qed.
(** two indications without a pause between them, a blank line before each *)
Example C120_example : exists tr s, let ps := [([], false); (one, false); ([], false); (two, true)] in
  run s_init tr s /\ only_reads tr /\ pieces_only ps /\ port_follows ps tr /\ chars_of (labels tr) = sent_text ps /\ reader s = RIdle [] /\
  callbacks_of (labels tr) = [[one; two]] /\ batched [] ps [[one; two]] [].
Proof.
  destruct (exec s_init (feed crlf ++ line_in one false ++ feed crlf ++ line_in two true)) as [[tr s]|] eqn:X; [|vm_compute in X; discriminate].
  exists tr, s. cbv zeta. split; [eapply exec_run; eauto|]. split; [eapply reads_ex; eauto|]. split; [repeat constructor; apply no_crlf_ex; reflexivity|]. vm_compute in X. injection X as <- <-.
  split; [apply port_ex; vm_compute; reflexivity|]. split; [reflexivity|]. split; [reflexivity|]. split; [reflexivity|].
  apply ba_blank. apply ba_more; [discriminate|]. apply ba_blank. apply (ba_over [one] two); [discriminate|constructor].
Qed.
(** together and apart *)
Example C120_together_example : exists tr s, let ps := map (fun l => (l, false)) [one] ++ [(two, true)] in
  run s_init tr s /\ only_reads tr /\ pieces_only ps /\ port_follows ps tr /\ chars_of (labels tr) = sent_text ps /\ reader s = RIdle [].
Proof.
  destruct (exec s_init (line_in one false ++ line_in two true)) as [[tr s]|] eqn:X; [|vm_compute in X; discriminate].
  exists tr, s. cbv zeta. split; [eapply exec_run; eauto|]. split; [eapply reads_ex; eauto|]. split; [repeat constructor; apply no_crlf_ex; reflexivity|]. vm_compute in X. injection X as <- <-.
  split; [apply port_ex; vm_compute; reflexivity|]. split; reflexivity.
Qed.
Example C120_apart_example : exists tr s, let ps := map (fun l => (l, true)) [one; two] in
  run s_init tr s /\ only_reads tr /\ pieces_only ps /\ port_follows ps tr /\ chars_of (labels tr) = sent_text ps /\ reader s = RIdle [].
Proof.
  destruct (exec s_init (line_in one true ++ line_in two true)) as [[tr s]|] eqn:X; [|vm_compute in X; discriminate].
  exists tr, s. cbv zeta. split; [eapply exec_run; eauto|]. split; [eapply reads_ex; eauto|]. split; [repeat constructor; apply no_crlf_ex; reflexivity|]. vm_compute in X. injection X as <- <-.
  split; [apply port_ex; vm_compute; reflexivity|]. split; reflexivity.
Qed.
(** An indication is read, and before the read thread asks for more, the answer to a
    command begins to arrive: the indication is held while that command and another
    are answered.  Then the phone rings: both lines are one call, and the first is
    what is done. *)
Example C120_held_example : exists tr1 s1 tr2 s2 tr3 s3, run s_init tr1 s1 /\ reader s1 = RIdle [] /\ notif s1 = [one] /\
  run s1 tr2 s2 /\ notified_of (labels tr2) = [] /\ filter (fun l => match l with LReturn _ _ => true | _ => false end) (labels tr2) = [LReturn 0 [lit "OK"]; LReturn 1 [lit "OK"]] /\
  notif s2 = [one] /\ run s2 tr3 s3 /\ callbacks_of (labels tr3) = [[one; lit "RING"]].
Proof.
  destruct (exec s_init (line_in one false)) as [[tr1 s1]|] eqn:X1; [|vm_compute in X1; discriminate].
  destruct (exec s1 (sch_command 0 (lit "AT") ++ sch_command 1 (lit "AT"))) as [[tr2 s2]|] eqn:X2; [|vm_compute in X1; injection X1 as <- <-; vm_compute in X2; discriminate].
  destruct (exec s2 sch_ring) as [[tr3 s3]|] eqn:X3; [|vm_compute in X1; injection X1 as <- <-; vm_compute in X2; injection X2 as <- <-; vm_compute in X3; discriminate].
  exists tr1, s1, tr2, s2, tr3, s3. split; [eapply exec_run; eauto|]. pose proof X1 as Y1. vm_compute in Y1. injection Y1 as _ Y1. split; [subst s1; reflexivity|]. split; [subst s1; reflexivity|].
  split; [eapply exec_run; eauto|]. pose proof X2 as Y2. rewrite <- Y1 in Y2. vm_compute in Y2. injection Y2 as Y2 Y3. split; [subst tr2; reflexivity|]. split; [subst tr2; reflexivity|]. split; [subst s2; reflexivity|].
  split; [eapply exec_run; eauto|]. rewrite <- Y3 in X3. vm_compute in X3. injection X3 as <- _. reflexivity.
Qed.
(** the whole of it as one run, with the commands between the two lines *)
Example C120_any_schedule_example : exists tr s, run s_init tr s /\ notified_of (labels tr) = [one; lit "RING"] /\
  filter (fun l => match l with LReturn _ _ => true | _ => false end) (labels tr) = [LReturn 0 [lit "OK"]; LReturn 1 [lit "OK"]] /\
  callbacks_of (labels tr) = [[one; lit "RING"]] /\ batched [] [(one, false); (lit "RING", true)] [[one; lit "RING"]] [].
Proof.
  destruct (exec s_init (line_in one false ++ sch_command 0 (lit "AT") ++ sch_command 1 (lit "AT") ++ sch_ring)) as [[tr s]|] eqn:X; [|vm_compute in X; discriminate].
  exists tr, s. split; [eapply exec_run; eauto|]. vm_compute in X. injection X as <- _. split; [reflexivity|]. split; [reflexivity|]. split; [reflexivity|].
  apply ba_more; [discriminate|]. apply (ba_over [one] (lit "RING")); [discriminate|constructor].
Qed.
Definition sample : str := lit "07917283010010F5040BC87238880900F10000993092516195800AE8329BFD4697D9EC37".
Definition sample_lines : list str := [lit "+CMGR: 1,,28"; sample].
Definition sample_sms : stored_sms := Received 1 (Some (lit "27838890001")) (mk_datetime 1999 3 29 15 16 59 0 (Some (td_of_seconds 7200))) (lit "hellohello") (Some (lit "+27381000015")).
Lemma indicates i line : digits i -> line = lit "+CMTI:" ++ [32] ++ 34 :: lit "SM" ++ [34; 44] ++ i ++ [] -> indication (lit "+CMTI:") (lit "SM") i line.
Proof. intros D ->. exists [32], []. split; [reflexivity|]. split; [repeat constructor|]. split; [discriminate|]. split; [cbn; intuition discriminate|]. split; [exact D|left; reflexivity]. Qed.
Lemma ok_good : good_answer [lit "OK"].
Proof. exists [], (lit "OK"). split; [reflexivity|apply good_ok]. Qed.
(** both messages are stored; the second is not handed over and stays *)
Example C120_second_message_example : let d := mk_device (lit "SM") (fun mem i => if str_eqb mem (lit "SM") && ((i =? 1) || (i =? 2)) then Some sample_lines else None) in
  let sc := [Lines [lit "OK"]; Lines (sample_lines ++ [lit "OK"]); Lines [lit "OK"]] in
  exists w d', handleNotification [one; two] (start modem_init sc) = Done (Ok tt) w /\ plays d (trace w) d' /\ in_sync modem_init d /\
  indication (lit "+CMTI:") (lit "SM") (lit "1") one /\ indication (lit "+CMTI:") (lit "SM") (lit "2") two /\ told (trace w) = [ESms sample_sms] /\ stored d' (lit "SM") 2 = Some sample_lines.
Proof.
  intros d sc. destruct (handleNotification [one; two] (start modem_init sc)) as [x w|w] eqn:H; [|vm_compute in H; discriminate].
  assert (D1 : digits (lit "1")) by (apply digits_ex; [discriminate|reflexivity]). assert (D2 : digits (lit "2")) by (apply digits_ex; [discriminate|reflexivity]).
  set (d2 := mk_device (lit "SM") (stored d)). set (d' := mk_device (lit "SM") (put (stored d2) (lit "SM") 1 None)). exists w, d'.
  pose proof H as H0. vm_compute in H0. injection H0 as <- <-. split; [reflexivity|]. cbn [trace]. split.
  { eapply pl_write; [apply (an_select d (lit "SM") [lit "OK"]); [cbn; intuition discriminate|apply ok_good]|]. repeat apply pl_sleep.
    eapply pl_write; [apply (an_read d2 (lit "1") sample_lines); [exact D1|reflexivity]|].
    eapply pl_write; [apply (an_delete d2 (lit "1") [lit "OK"]); [exact D1|apply ok_good]|]. repeat apply pl_sleep. apply pl_sms. apply pl_nil. }
  split; [intros x E _; discriminate E|]. split; [apply indicates; [exact D1|reflexivity]|]. split; [apply indicates; [exact D2|reflexivity]|]. split; reflexivity.
Qed.
