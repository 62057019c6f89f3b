(** Calls whose end is not noticed. *)
From Verif Require Import Base ModemCore ModemSpec SendSpec TrackSpec CallModel NotifyModel PollSpec BookSpec DialSpec StaleSpec StaleProofs.

(** C86: an active call becomes inactive only by hangup(), a notification of its end, a
    notification that a call was refused (on modems that send these), or the poller *)
Theorem C86_ended : forall o m sc n c c', sound_book (book_of m) -> applicable o m -> nth_error (callObjs m) n = Some c -> c_active c = true ->
  nth_error (callObjs (state_after (perform o (start m sc)))) n = Some c' -> c_active c' = false -> ends_by (callUpdates m) (book_of m) n (c_id c) o.
Proof. exact who_ends. Qed.
Print Assumptions C86_ended.
(** when none of these happens to a call in the table, it stays there, however long the
    modem is used *)
Theorem C86_stays : forall m hs m' id n, later m hs m' -> sound_book (book_of m) -> complete_book (book_of m) -> In (id, n) (activeCalls m) ->
  (forall m1 o m2, In (m1, o, m2) hs -> ~ ends_by (callUpdates m1) (book_of m1) n id o /\ no_clash m1 o m2) ->
  sound_book (book_of m') /\ complete_book (book_of m') /\ In (id, n) (activeCalls m').
Proof. exact call_stays. Qed.
Print Assumptions C86_stays.
(** on a modem whose notifications about calls are not known only hangup() and the poller
    end a call (the poller is started only by dial()) *)
Theorem C86_unknown_modem : forall b n id o, ends_by TNone b n id o -> o = Hangup n \/ exists r, o = Polled r.
Proof. exact none_ends. Qed.
Print Assumptions C86_unknown_modem.
(** while a call from this number is in the table, the next call from it is taken for
    another ring of that call *)
Theorem C86_rings_old : forall before line after m sc n id c number, sound_book (book_of m) -> Forall (unrelated (callUpdates m)) before -> ModemSpec.substring (lit "RING") line ->
  let lines := before ++ line :: after in
  caller (clip m) lines number -> only_one (book_of m) number (id, n) -> nth_error (callObjs m) n = Some c ->
  match handleNotification lines (start m sc) with
  | Done (Ok _) w => exists evs, trace w = evs ++ [ERing n] /\ activeCalls (dev w) = activeCalls m /\ length (callObjs (dev w)) = length (callObjs m) /\ nth_error (callObjs (dev w)) n = Some (rung c)
  | _ => crc m = true /\ exists ring rest, lines = ring :: rest /\ ~ In 32 ring
  end.
Proof. exact rings_old. Qed.
Print Assumptions C86_rings_old.
(** and when that call had been answered, answer() returns without sending anything *)
Theorem C86_not_picked_up : forall n c w, nth_error (callObjs (dev w)) n = Some c -> c_ringing c = false -> answer n w = Done (Ok tt) w.
Proof. exact not_picked_up. Qed.
Print Assumptions C86_not_picked_up.

Definition caller_lines : list str := [lit "RING"; lit "+CLIP: ""+27821234567"",145,,,,0"].
Definition plain : modem := set_clip true modem_init.
Definition rung_once : modem := state_after (perform (Notification caller_lines) (start plain [])).
Definition talking : modem := state_after (perform (Answer 0) (start rung_once [Lines [lit "OK"]])).
Definition gone : modem := state_after (perform (Notification [lit "NO CARRIER"]) (start talking [])).
Definition rung_again : modem := state_after (perform (Notification caller_lines) (start gone [])).
Lemma talking_book : sound_book (book_of talking) /\ complete_book (book_of talking).
Proof.
  split; [split|].
  - constructor; [intros []|constructor].
  - intros id n [[= <- <-]|[]]. eexists. split; [reflexivity|]. split; reflexivity.
  - intros [|n] c H Ac; [|destruct n; discriminate H]. vm_compute in H. injection H as <-. left. reflexivity.
Qed.
(** a call is answered, the caller hangs up and the modem says so in its way; the caller's
    next call is not answered *)
Example C86_example : later talking [(talking, Notification [lit "NO CARRIER"], gone)] gone /\ callUpdates talking = TNone /\
  (~ ends_by (callUpdates talking) (book_of talking) 0 1 (Notification [lit "NO CARRIER"]) /\ no_clash talking (Notification [lit "NO CARRIER"]) gone) /\
  activeCalls gone = [(1, 0%nat)] /\ caller (clip gone) caller_lines (Some (lit "+27821234567")) /\ only_one (book_of gone) (Some (lit "+27821234567")) (1, 0%nat) /\
  (exists w, handleNotification caller_lines (start gone []) = Done (Ok tt) w /\ trace w = [ERing 0%nat] /\ length (callObjs (dev w)) = 1%nat) /\
  answer 0 (start rung_again [Lines [lit "OK"]]) = Done (Ok tt) (start rung_again [Lines [lit "OK"]]).
Proof.
  split; [apply (lt_op talking [] talking (Notification [lit "NO CARRIER"]) []); [constructor|exact Logic.I]|]. split; [reflexivity|]. split; [split|].
  - intro H. destruct (none_ends _ _ _ _ H) as [E|(r & E)]; discriminate E.
  - split; [intros c H; discriminate H|intros n c H; discriminate H].
  - split; [reflexivity|]. split; [|split; [|split; [eexists; split; [vm_compute; reflexivity|split; reflexivity]|reflexivity]]].
    + apply ca_given; [reflexivity|]. exists [32], [43], (lit "27821234567"), (lit "145"), (lit ",,,,0"), []. repeat split; try discriminate; auto; try (repeat constructor; fail). vm_compute. intuition discriminate.
    + split; [left; reflexivity|]. split; [eexists; split; [reflexivity|split; reflexivity]|]. intros e' [<-|[]] N. destruct N; reflexivity.
Qed.
