(** C93: the table of active calls, changed by several threads.  Each theorem is closed by
    a lemma of RaceProofs, RaceFinal, RaceHow, RaceCases or RaceLink; an example stands
    beside it. *)
From Verif Require Import Base UtilModel ModemCore ModemSpec SmsModel CallModel TrackSpec CoverageSpec BookSpec DialSpec RaceModel RaceSpec RaceProofs RaceInv RaceFinal RaceHow RaceCases RaceLink.

Definition anna : call := mk_call 1 true (Some 0) (Some (lit "+4912345")) false false true true 1.
Definition berta : call := mk_call 1 false (Some 0) (Some (lit "0815")) true true true false 0.
Ltac by_steps l := apply (exec_run l); vm_compute; reflexivity.
(** hangup() and the handler of ^CEND: *)
Definition both_end : list action := [ABegin (THang 0 HHush); AGo 0; AGo 0; AWritten 0 (Ok tt); AGo 0; AGo 0; AGo 0; ABegin (TEnd (ETest 1)); AGo 1; AGo 1; AGo 1; AGo 1; AGo 1; AGo 1; AGo 0]%nat.
Lemma only_indexed c : indexed (only c).
Proof. split; [repeat constructor; auto|]. intros id n [H|[]]. injection H as <- <-. exists c. split; reflexivity. Qed.

(** Calls stay listed under their own ids, and no id is in the table twice. *)
Theorem C93_index : forall s ls s', indexed s -> run s ls s' -> indexed s'.
Proof. exact indexed_run. Qed.
Print Assumptions C93_index.
Example C93_index_example : exists ls s', indexed (only berta) /\ run (only berta) ls s' /\ (length ls = 15)%nat.
Proof. eexists _, _. split; [apply only_indexed|]. split; [by_steps both_end|reflexivity]. Qed.

(** Whatever threads do, a call keeps its id, its number, its kind and its callback; once
    it is inactive it stays so; and once it is out of the table it does not come back. *)
Theorem C93_never_back : forall s ls s' n c, run s ls s' -> has_call s n c ->
  exists c', has_call s' n c' /\ same_party c c' /\ (c_active c' = true -> c_active c = true) /\ forall id, listed s' id n -> listed s id n.
Proof. exact run_keeps. Qed.
Print Assumptions C93_never_back.
Example C93_never_back_example : exists ls s', run (only anna) ls s' /\ has_call (only anna) 0 anna /\ p_table (sy_phone s') = [].
Proof. eexists _, _. split; [by_steps both_end|split; reflexivity]. Qed.

(** hangup(), whatever happens meanwhile: it raises what its command raises; otherwise its
    call is inactive and out of the table, and if it raises KeyError then because another
    thread has removed the call that it had found. *)
Theorem C93_hung_up : forall s ls s' i n x, indexed s -> run s ls s' -> (length (sy_threads s) <= i)%nat -> at_thread s' i (THang n (HOver x)) ->
  (exists e, x = Raised e /\ In (LWrote i (lit "ATH") (Err e)) ls) \/
  gone s' n /\ (x = Fine \/ x = Raised KeyError /\ exists c m, has_call s' n c /\ robbed i (c_id c) m ls).
Proof. exact hung_how. Qed.
Print Assumptions C93_hung_up.
Example C93_hung_up_example : exists ls s', indexed (only anna) /\ run (only anna) ls s' /\ at_thread s' 0 (THang 0 (HOver (Raised KeyError))).
Proof. eexists _, _. split; [apply only_indexed|]. split; [by_steps both_end|reflexivity]. Qed.

(** A handler of the end of a call: it has found none (and ends normally, or with
    RuntimeError because the table has grown or shrunk), or the call that it has found is
    out of the table; KeyError again only when another thread has removed it. *)
Theorem C93_ended : forall s ls s' i x, indexed s -> run s ls s' -> (length (sy_threads s) <= i)%nat -> at_thread s' i (TEnd (EOver x)) ->
  ((x = Fine \/ x = SizeChanged) /\ forall id n, ~ In (LFound i id n) ls) \/
  exists id n, In (LFound i id n) ls /\ (forall id', ~ listed s' id' n) /\ (x = Fine \/ x = Raised KeyError /\ robbed i id n ls).
Proof. exact ended_how. Qed.
Print Assumptions C93_ended.
Example C93_ended_example : exists ls s', indexed (only anna) /\ run (only anna) ls s' /\ at_thread s' 1 (TEnd (EOver Fine)) /\ In (LFound 1 1 0) ls.
Proof. eexists _, _. split; [apply only_indexed|]. split; [by_steps both_end|]. split; [reflexivity|]. cbn. tauto. Qed.

(** A handler of RING that ends normally has told the callback for incoming calls exactly
    once, of a call of this caller.  Otherwise it has told it nothing: the table has
    changed its size, the caller's number is that of an outgoing call, or the call is of an
    unknown type. *)
Theorem C93_rung : forall s ls s' i number ty x, indexed s -> run s ls s' -> (length (sy_threads s) <= i)%nat -> at_thread s' i (TRing number ty (ROver x)) ->
  (x = Fine /\ exists n c, told_by i ls = [n] /\ has_call s' n c /\ c_incoming c = true /\ c_number c = number) \/
  told_by i ls = [] /\ (x = SizeChanged \/ x = Raised AttributeError \/ x = Raised KeyError).
Proof. exact rung_how. Qed.
Print Assumptions C93_rung.
Definition rings_again : list action := [ABegin (TRing (Some (lit "+4912345")) None RSearch); AGo 0; AGo 0; AGo 0; AGo 0; AGo 0; AGo 0]%nat.
Example C93_rung_example : exists ls s', indexed (only anna) /\ run (only anna) ls s' /\ at_thread s' 0 (TRing (Some (lit "+4912345")) None (ROver Fine)).
Proof. eexists _, _. split; [apply only_indexed|]. split; [by_steps rings_again|reflexivity]. Qed.

(** dial() returns the call that it has entered into the table. *)
Theorem C93_dialled : forall s ls s' i number cb n, indexed s -> run s ls s' -> (length (sy_threads s) <= i)%nat -> at_thread s' i (TDial number cb (DOver n)) ->
  exists c, In (LEntered i (c_id c) n) ls /\ has_call s' n c /\ c_incoming c = false /\ c_number c = Some number /\ c_callback c = cb.
Proof. exact dialled_how. Qed.
Print Assumptions C93_dialled.
Definition dials : list action := [ABegin (TDial (lit "110") true DLen); AGo 0; AGo 0]%nat.
Example C93_dialled_example : exists ls s', indexed (only anna) /\ run (only anna) ls s' /\ at_thread s' 0 (TDial (lit "110") true (DOver 1)).
Proof. eexists _, _. split; [apply only_indexed|]. split; [by_steps dials|reflexivity]. Qed.

(** What the handlers of answers, and answer(), can end with *)
Theorem C93_answered : forall s ls s' i x, indexed s -> run s ls s' -> (length (sy_threads s) <= i)%nat -> at_thread s' i (TAnswered (AOver x)) -> x = Fine \/ x = Raised KeyError \/ x = SizeChanged.
Proof. exact answered_how. Qed.
Print Assumptions C93_answered.
Example C93_answered_example : exists ls s', indexed (only berta) /\ run (only berta) ls s' /\ at_thread s' 0 (TAnswered (AOver (Raised KeyError))).
Proof. eexists _, _. split; [apply only_indexed|]. split; [by_steps ([ABegin (TAnswered (AGet 5)); AGo 0]%nat)|reflexivity]. Qed.
Theorem C93_picked_up : forall s ls s' i n x, indexed s -> run s ls s' -> (length (sy_threads s) <= i)%nat -> at_thread s' i (TPick n (POver x)) ->
  x = Fine \/ exists e, x = Raised e /\ In (LWrote i (lit "ATA") (Err e)) ls.
Proof. exact picked_how. Qed.
Print Assumptions C93_picked_up.
Example C93_picked_up_example : exists ls s', indexed (only anna) /\ run (only anna) ls s' /\ at_thread s' 0 (TPick 0 (POver (Raised (TimeoutException None)))).
Proof. eexists _, _. split; [apply only_indexed|]. split; [by_steps ([ABegin (TPick 0 PRinging); AGo 0; AWritten 0 (Err (TimeoutException None))]%nat)|reflexivity]. Qed.

(** The loops over the table: their turns are what the table, as it is now, and the one at
    the beginning allow, and nothing else.  They end with RuntimeError exactly when the
    number of calls has changed. *)
Theorem C93_loops : forall p before t after l look stop broke s', at_turn t l look stop broke ->
  (exists a lab, of_thread a (length before) /\ act (mk_system p (before ++ t :: after)) a = Some (s', lab)) <->
  exists o, gives (p_table p) l o /\ s' = mk_system p (before ++ match o with Some (Some n) => look n | Some None => stop | None => broke end :: after).
Proof. exact turned. Qed.
Print Assumptions C93_loops.
Example C93_loops_example : act (mk_system (mk_phone [anna; berta] [(1, 0%nat)]) [TEnd (ELoop false (mk_loop [(1, 0%nat); (2, 1%nat)] 1))]) (AGo 0) =
  Some (mk_system (mk_phone [anna; berta] [(1, 0%nat)]) [TEnd (EOver SizeChanged)], LQuiet 0).
Proof. reflexivity. Qed.

(** What is recorded of an execution is what happens in it. *)
Theorem C93_recorded : forall s a s' l, indexed s -> act s a = Some (s', l) -> meant s l s'.
Proof. exact means. Qed.
Print Assumptions C93_recorded.
Example C93_recorded_example : exists s', indexed (mk_system (sy_phone (only anna)) [TEnd (EDel 1)]) /\ act (mk_system (sy_phone (only anna)) [TEnd (EDel 1)]) (AGo 0) = Some (s', LGone 0 1 0).
Proof. eexists. split; [exact (only_indexed anna)|reflexivity]. Qed.

(** When ids are given with care - to no new call while they are in use, or about to be
    removed - every active call is in the table at every moment, whatever threads there are; *)
Theorem C93_complete : forall s ls s', quiet s -> sound_book (book_at s) -> complete_book (book_at s) -> careful s ls s' -> complete_book (book_at s').
Proof. exact careful_complete. Qed.
Print Assumptions C93_complete.
(** when all threads have ended, only active calls are in it; *)
Theorem C93_sound : forall s ls s', quiet s -> sound_book (book_at s) -> complete_book (book_at s) -> careful s ls s' -> quiet s' -> sound_book (book_at s').
Proof. exact careful_sound. Qed.
Print Assumptions C93_sound.
(** and a call whose end has been handled is inactive and out of the table. *)
Theorem C93_gone : forall s ls s' i id n x, quiet s -> sound_book (book_at s) -> complete_book (book_at s) -> careful s ls s' -> (length (sy_threads s) <= i)%nat ->
  at_thread s' i (TEnd (EOver x)) -> In (LFound i id n) ls -> gone s' n.
Proof. exact careful_gone. Qed.
Print Assumptions C93_gone.
Definition ends_then_rings : list action := both_end ++ [ABegin (TRing None None RSearch); AGo 2; AGo 2; AGo 2; AGo 2; AGo 2]%nat.
Ltac with_care := first [exact I
  | intros c m H L; injection H as <-; destruct L as [L|[]]; injection L as <-; reflexivity
  | split; [intros n []|]; repeat constructor; (intros [(n & H)|[H|(n & st & c & H & N & _)]]; try discriminate H; injection H as _ <-; eapply N; reflexivity)].
Ltac careful_by l := lazymatch l with nil => apply cf_nil | ?a :: ?r => eapply (careful_cons _ a); [vm_compute; reflexivity|with_care|careful_by r] end.
Lemma careful_example : exists ls s', careful (only anna) ls s' /\ quiet s' /\ at_thread s' 1 (TEnd (EOver Fine)) /\ In (LFound 1 1 0) ls /\ p_table (sy_phone s') = [(1, 1%nat)].
Proof.
  eexists _, _. split; [let l := eval cbv in ends_then_rings in careful_by l|]. split; [repeat constructor; eexists; constructor|]. split; [reflexivity|]. split; [cbn; tauto|reflexivity].
Qed.
Lemma only_quiet c : quiet (only c).
Proof. constructor. Qed.
Lemma only_book c : c_active c = true -> sound_book (book_at (only c)) /\ complete_book (book_at (only c)).
Proof.
  intro A. split.
  - split; [repeat constructor; auto|]. intros id n [H|[]]. injection H as <- <-. exists c. repeat split; auto.
  - intros [|n] c' H; [injection H as <-; cbn; auto|destruct n; discriminate H].
Qed.
Example C93_careful_example : quiet (only anna) /\ sound_book (book_at (only anna)) /\ complete_book (book_at (only anna)) /\
  exists ls s', careful (only anna) ls s' /\ quiet s' /\ at_thread s' 1 (TEnd (EOver Fine)) /\ In (LFound 1 1 0) ls /\ p_table (sy_phone s') = [(1, 1%nat)].
Proof. split; [apply only_quiet|]. split; [apply only_book; reflexivity|]. split; [apply only_book; reflexivity|]. exact careful_example. Qed.

(** A thread that has not ended can always go on; no thread waits for another. *)
Theorem C93_goes_on : forall s i t, at_thread s i t -> (exists x, over t x) \/ exists a s' l, of_thread a i /\ act s a = Some (s', l).
Proof. exact can_move. Qed.
Print Assumptions C93_goes_on.
Example C93_goes_on_example : at_thread (mk_system (sy_phone (only anna)) [TEnd (EDel 1)]) 0 (TEnd (EDel 1)) /\ forall x, ~ over (TEnd (EDel 1)) x.
Proof. split; [reflexivity|]. intros x H. inversion H. Qed.
(** hangup(), answer(), the end of dial() and the handlers that know the id of their call
    make seven steps at most, whatever the other threads do. *)
Theorem C93_bounded : forall s ls s' i t, run s ls s' -> In (LStart i t) ls -> loops t = false -> (steps i ls <= 7)%nat.
Proof. exact bounded. Qed.
Print Assumptions C93_bounded.
Example C93_bounded_example : exists ls s', run (only anna) ls s' /\ In (LStart 0 (THang 0 HHush)) ls /\ steps 0 ls = 7%nat.
Proof. eexists _, _. split; [by_steps both_end|]. split; [cbn; tauto|reflexivity]. Qed.

(** ** What can go wrong *)
(** For every active call: hangup() raises KeyError when the end of the call is handled at
    the wrong moment, though all went well; *)
Theorem C93_hangup_raises : forall c, c_active c = true -> c_id c <> 0 ->
  exists ls s', run (only c) ls s' /\ at_thread s' 0 (THang 0 (HOver (Raised KeyError))) /\ at_thread s' 1 (TEnd (EOver Fine)) /\ gone s' 0.
Proof. exact hangup_robbed. Qed.
Print Assumptions C93_hangup_raises.
Example C93_hangup_raises_example : c_active anna = true /\ c_id anna <> 0.
Proof. split; [reflexivity|discriminate]. Qed.
(** or the handler does. *)
Theorem C93_handler_raises : forall c, c_active c = true -> c_id c <> 0 ->
  exists ls s', run (only c) ls s' /\ at_thread s' 0 (THang 0 (HOver Fine)) /\ at_thread s' 1 (TEnd (EOver (Raised KeyError))) /\ gone s' 0.
Proof. exact handler_robbed. Qed.
Print Assumptions C93_handler_raises.
Example C93_handler_raises_example : c_active berta = true /\ c_id berta <> 0.
Proof. split; [reflexivity|discriminate]. Qed.
(** Two RINGs of one caller, handled at once, make two calls with one id; the callback is
    told of both; the first, though active, is not in the table. *)
Theorem C93_rings_twice : forall number, exists ls s', run none ls s' /\
  at_thread s' 0 (TRing number None (ROver Fine)) /\ at_thread s' 1 (TRing number None (ROver Fine)) /\ told_by 0 ls = [0%nat] /\ told_by 1 ls = [1%nat] /\
  (exists c, has_call s' 0 c /\ c_number c = number /\ c_active c = true /\ c_ringCount c = 1) /\ (exists c, has_call s' 1 c /\ c_number c = number /\ c_active c = true /\ c_ringCount c = 1) /\
  p_table (sy_phone s') = [(1, 1%nat)].
Proof. exact rung_twice. Qed.
Print Assumptions C93_rings_twice.
(** A RING whose handler meets the end of a call is lost: RuntimeError, no callback, no
    call. *)
Theorem C93_ring_lost : forall c number ty, c_active c = true -> c_id c <> 0 ->
  exists ls s', run (only c) ls s' /\ at_thread s' 0 (TRing number ty (ROver SizeChanged)) /\ told_by 0 ls = [] /\ length (p_calls (sy_phone s')) = 1%nat /\ p_table (sy_phone s') = [].
Proof. exact ring_lost. Qed.
Print Assumptions C93_ring_lost.
Example C93_ring_lost_example : c_active berta = true /\ c_id berta <> 0.
Proof. split; [reflexivity|discriminate]. Qed.
(** A call that ends while answer() waits for its command is marked as answered when it is
    over. *)
Theorem C93_answered_late : forall c, c_incoming c = true -> c_active c = true -> c_ringing c = true -> c_id c <> 0 ->
  exists ls s', run (only c) ls s' /\ at_thread s' 0 (TPick 0 (POver Fine)) /\ gone s' 0 /\ exists c', has_call s' 0 c' /\ c_answered c' = true.
Proof. exact answered_late. Qed.
Print Assumptions C93_answered_late.
Example C93_answered_late_example : c_incoming anna = true /\ c_active anna = true /\ c_ringing anna = true /\ c_id anna <> 0.
Proof. repeat split; discriminate. Qed.
(** Two RINGs of a known caller, handled at once: the callback is told twice, but
    ringCount grows by one. *)
Theorem C93_ring_uncounted : forall c ty, c_incoming c = true ->
  exists ls s', run (only c) ls s' /\ at_thread s' 0 (TRing (c_number c) ty (ROver Fine)) /\ at_thread s' 1 (TRing (c_number c) ty (ROver Fine)) /\ told_by 0 ls = [0%nat] /\ told_by 1 ls = [0%nat] /\
    exists c', has_call s' 0 c' /\ c_ringCount c' = c_ringCount c + 1.
Proof. exact ring_uncounted. Qed.
Print Assumptions C93_ring_uncounted.
Example C93_ring_uncounted_example : c_incoming anna = true.
Proof. reflexivity. Qed.
(** Two threads dial at once: their calls have the same id, and one is not in the table. *)
Theorem C93_dials_twice : forall n1 n2 cb1 cb2, exists ls s', run none ls s' /\ at_thread s' 0 (TDial n1 cb1 (DOver 0)) /\ at_thread s' 1 (TDial n2 cb2 (DOver 1)) /\
  has_call s' 0 (new_call 1 0 n1 cb1) /\ has_call s' 1 (new_call 1 0 n2 cb2) /\ p_table (sy_phone s') = [(1, 1%nat)].
Proof. exact dialled_twice. Qed.
Print Assumptions C93_dials_twice.
(** hangup() of one call removes another from the table: the end of the first is handled
    in between, and a new one is given its id.  (So care is needed in C93_complete.) *)
Theorem C93_wrong_removed : forall c number, c_active c = true -> c_id c = 1 ->
  exists ls s', run (only c) ls s' /\ at_thread s' 0 (THang 0 (HOver Fine)) /\ told_by 2 ls = [1%nat] /\ (exists c', has_call s' 1 c' /\ c_number c' = number /\ c_active c' = true) /\ p_table (sy_phone s') = [].
Proof. exact wrong_removed. Qed.
Print Assumptions C93_wrong_removed.
Example C93_wrong_removed_example : c_active berta = true /\ c_id berta = 1.
Proof. split; reflexivity. Qed.

(** ** One thread on its own does what the method does (CallModel.v) *)
Theorem C93_is_ended : forall id f m sc i x w, handleCallEnded None (Some id) f (start m sc) = Done x w ->
  solo i (phone_of m) (TEnd (ETest id)) [] (trace w) (phone_of (dev w)) (TEnd (EOver (outcome_of x))).
Proof. exact ended_by_id. Qed.
Print Assumptions C93_is_ended.
Theorem C93_is_ended_somewhere : forall f m sc i x w, handleCallEnded (Some []) None f (start m sc) = Done x w ->
  solo i (phone_of m) (TEnd (ESearch f)) [] (trace w) (phone_of (dev w)) (TEnd (EOver (outcome_of x))).
Proof. exact ended_somewhere. Qed.
Print Assumptions C93_is_ended_somewhere.
Theorem C93_is_ended_numbered : forall g gs id f m sc i x w, py_int 10 g = Ok id -> handleCallEnded (Some (g :: gs)) None f (start m sc) = Done x w ->
  solo i (phone_of m) (TEnd (ETest id)) [] (trace w) (phone_of (dev w)) (TEnd (EOver (outcome_of x))).
Proof. exact ended_numbered. Qed.
Print Assumptions C93_is_ended_numbered.
Definition with_call (c : call) : modem := set_callObjs [c] (set_activeCalls [(c_id c, 0%nat)] modem_init).
Example C93_is_ended_example : exists w, handleCallEnded (Some [lit "1"]) None false (start (with_call berta) []) = Done (Ok tt) w /\ trace w = [EStatus 0] /\ p_table (phone_of (dev w)) = [].
Proof. eexists. split; [vm_compute; reflexivity|]. split; reflexivity. Qed.
Theorem C93_is_answered : forall groups callId m sc i x w, handleCallAnswered groups callId (start m sc) = Done x w ->
  match groups with
  | None => solo i (phone_of m) (TAnswered (AGet callId)) [] (trace w) (phone_of (dev w)) (TAnswered (AOver (outcome_of x)))
  | Some (g :: _ :: _) => forall id, py_int 10 g = Ok id -> solo i (phone_of m) (TAnswered (AGet id)) [] (trace w) (phone_of (dev w)) (TAnswered (AOver (outcome_of x)))
  | Some _ => solo i (phone_of m) (TAnswered ASearch) [] (trace w) (phone_of (dev w)) (TAnswered (AOver (outcome_of x)))
  end.
Proof. exact answered_is. Qed.
Print Assumptions C93_is_answered.
Definition waiting : call := mk_call 1 false (Some 0) (Some (lit "0815")) true false true false 0.
Example C93_is_answered_example : exists w, handleCallAnswered (Some []) 0 (start (with_call waiting) []) = Done (Ok tt) w /\ trace w = [EStatus 0].
Proof. eexists. split; [vm_compute; reflexivity|reflexivity]. Qed.
Theorem C93_is_hangup : forall n m sc i x w, (n < length (callObjs m))%nat -> hangup n (start m sc) = Done x w ->
  exists xs evs told, trace w = evs ++ told /\ solo i (phone_of m) (THang n HHush) xs told (phone_of (dev w)) (THang n (HOver (outcome_of x))) /\
    if c_active (the_call m n) then exists r, xs = [unit_res r] /\ exchange (lit "ATH") [13] evs r else xs = [] /\ evs = [].
Proof. exact hung_up. Qed.
Print Assumptions C93_is_hangup.
Example C93_is_hangup_example : exists w, (0 < length (callObjs (with_call anna)))%nat /\ hangup 0 (start (with_call anna) [Lines [lit "OK"]]) = Done (Ok tt) w.
Proof. eexists. split; [repeat constructor|vm_compute; reflexivity]. Qed.
Theorem C93_is_answer : forall n m sc i x w, (n < length (callObjs m))%nat -> answer n (start m sc) = Done x w ->
  exists xs evs told, trace w = evs ++ told /\ solo i (phone_of m) (TPick n PRinging) xs told (phone_of (dev w)) (TPick n (POver (outcome_of x))) /\
    if c_ringing (the_call m n) then exists r, xs = [unit_res r] /\ exchange (lit "ATA") [13] evs r else xs = [] /\ evs = [].
Proof. exact picked. Qed.
Print Assumptions C93_is_answer.
Example C93_is_answer_example : exists w, (0 < length (callObjs (with_call anna)))%nat /\ answer 0 (start (with_call anna) [Lines [lit "OK"]]) = Done (Ok tt) w.
Proof. eexists. split; [repeat constructor|vm_compute; reflexivity]. Qed.
Theorem C93_is_incoming : forall ring rest m sc i x w, handleIncomingCall (ring :: rest) (start m sc) = Done x w ->
  (exists e crc', x = Err e /\ DialSpec.ring_kind (crc m) ring (trace w) (Err e) crc' /\ phone_of (dev w) = phone_of m) \/
  exists evs kind crc' number tr, trace w = evs ++ tr /\ DialSpec.ring_kind (crc m) ring evs (Ok kind) crc' /\ caller (clip m) (ring :: rest) number /\
    solo i (phone_of m) (TRing number kind RSearch) [] tr (phone_of (dev w)) (TRing number kind (ROver (outcome_of x))).
Proof. exact rung_is. Qed.
Print Assumptions C93_is_incoming.
Example C93_is_incoming_example : exists w, handleIncomingCall [lit "RING"; lit "+CLIP: ""+4912345"",145"] (start (set_clip true (with_call anna)) []) = Done (Ok tt) w /\
  trace w = [ERing 0] /\ map c_ringCount (callObjs (dev w)) = [2].
Proof. eexists. split; [vm_compute; reflexivity|]. split; reflexivity. Qed.
Theorem C93_is_dial : forall number cb m sc i r w, waitInit m = false -> dial_start number cb (start m sc) = Done r w ->
  match r with
  | Ok (Some n) => solo i (phone_of m) (TDial number cb DLen) [] [] (phone_of (dev w)) (TDial number cb (DOver n))
  | Ok None => False
  | Err _ => phone_of (dev w) = phone_of m
  end.
Proof. exact dialled_at_once. Qed.
Print Assumptions C93_is_dial.
Example C93_is_dial_example : exists w, waitInit (set_waitInit false (with_call anna)) = false /\
  dial_start (lit "110") true (start (set_waitInit false (with_call anna)) [Lines [lit "OK"]]) = Done (Ok (Some 1%nat)) w.
Proof. eexists. split; [reflexivity|vm_compute; reflexivity]. Qed.
Theorem C93_is_dial_told : forall number cb m sc i r w, dial_finish number cb (start m sc) = Done r w ->
  match r with
  | Ok n => exists id ty, dialResponse m = Some (id, ty) /\ solo i (phone_of m) (TDial number cb (DEnter id ty)) [] [] (phone_of (dev w)) (TDial number cb (DOver n))
  | Err _ => phone_of (dev w) = phone_of m
  end.
Proof. exact dialled_later. Qed.
Print Assumptions C93_is_dial_told.
Example C93_is_dial_told_example : exists w, dial_finish (lit "110") true (start (set_dialEvent (Some true) (set_dialResponse (Some (4, 0)) (with_call anna))) []) = Done (Ok 1%nat) w.
Proof. eexists. vm_compute. reflexivity. Qed.
(** and a thread on its own is one of the executions. *)
Theorem C93_alone : forall i p t xs evs p' t' ts, solo i p t xs evs p' t' -> nth_error ts i = Some t ->
  exists ls, run (mk_system p ts) ls (mk_system p' (update ts i (fun _ => t'))).
Proof. exact (fun i p t xs evs p' t' ts S N => solo_run i p t xs evs p' t' S ts N). Qed.
Print Assumptions C93_alone.
Example C93_alone_example : solo 0 (phone_of (with_call anna)) (TDial (lit "1") false (DEnter 2 0)) [] [] (enter (new_call 2 0 (lit "1") false) (phone_of (with_call anna))) (TDial (lit "1") false (DOver 1)).
Proof. eapply solo_entered; [reflexivity|apply so_end]. Qed.
