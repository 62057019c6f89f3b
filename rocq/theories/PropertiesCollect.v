(** The message store: several threads at once. *)
From Coq Require Import Permutation.
From Verif Require Import Base DateModel PduModel ModemCore ModemSpec MonadProofs SendSpec TrackSpec CoverageSpec SmsModel StoreSpec StoreProofs ListSpec ListProofs ProcessProofs
  StoreFinal HandlerModel HandlerSpec HandlerProofs CollectModel CollectSpec CollectProofs CollectFinal CollectCases CollectLink.

(** C94: any number of threads that handle notifications and any number of calls of
    processStoredSms and of listStoredSms with delete, interleaving at every attempt at
    a command and around the shared attribute.  In every run the arrivals and the
    removals explain the store. *)
Theorem C94_store : forall mode s obs s', evolves mode any_step s obs s' -> ledger mode (stored (machine s)) obs (stored (machine s')).
Proof. intros mode s obs s'. exact (store_explained mode any_step s obs s'). Qed.
Print Assumptions C94_store.
(** With one memory, messages that can be read, and no deletion of everything: when
    at most one thread at a time is between reading and deleting, every removed message
    is given to the application exactly once, or is in the hands of a thread that is
    still going to, or was dropped by one that failed with it. *)
Theorem C94_once : forall mode mem attr d obs s, ~ In 34 mem -> sel d = mem -> (forall i content, stored d mem i = Some content -> readable mode content) ->
  evolves mode one_at_a_time (mk_site attr d []) obs s -> Forall (ordinary mode mem) obs ->
  exists ss, Forall2 (says mode) (gone obs) ss /\ Permutation (told obs ++ dropped obs ++ flat_map holds (threads s)) ss.
Proof. exact given_once. Qed.
Print Assumptions C94_once.
(** With any interleaving, this holds of the removed messages when the modem does not
    reuse an index that some thread is still going to delete; but there can be further
    ones: a message can be given more than once. *)
Theorem C94_kept : forall mode mem attr d obs s, ~ In 34 mem -> sel d = mem -> (forall i content, stored d mem i = Some content -> readable mode content) ->
  evolves mode no_reuse (mk_site attr d []) obs s -> Forall (ordinary mode mem) obs ->
  exists ss extra, Forall2 (says mode) (gone obs) ss /\ Permutation (told obs ++ dropped obs ++ flat_map holds (threads s)) (ss ++ extra).
Proof. exact none_lost. Qed.
Print Assumptions C94_kept.
(** and nothing is given that was not in the store or arrived *)
Theorem C94_known : forall mode mem attr d obs s, ~ In 34 mem -> sel d = mem -> (forall i content, stored d mem i = Some content -> readable mode content) ->
  evolves mode no_reuse (mk_site attr d []) obs s -> Forall (ordinary mode mem) obs ->
  forall m, In m (told obs) -> exists content, ((exists i, stored d mem i = Some content) \/ In content (came obs)) /\ says mode content m.
Proof. exact none_invented. Qed.
Print Assumptions C94_known.
(** Without the conditions this fails, for all messages, indices and statuses: a
    message is given twice, by its handler and by processStoredSms; *)
Theorem C94_twice : forall mode mem ds c1 s1 p answer d, mem <> [] -> ~ In 34 mem -> digits ds -> reads_as mode c1 s1 -> status_param mode (stat_of s1) p ->
  good_answer answer -> describes mode answer [(dec_value ds, s1)] -> sel d = mem -> (forall i, stored d mem i = None) -> stat_of s1 <> 4 ->
  let i := dec_value ds in exists s,
  evolves mode no_reuse (mk_site (Some mem) d []) [Came mem i c1; Began (mk_collector None true [stat_of s1] CCompare); Gone mem i c1; Told s1; Told s1] s /\
  threads s = [Notified (mk_handler mem ds (Delivered s1)); Collecting (mk_collector None true [] CDone)].
Proof. intros mode mem ds c1 s1 p answer d N Q D R Sp G De Sl Em N4. exact (given_twice mode mem ds c1 s1 (stat_of s1) p answer d N Q D R Sp G De Sl Em eq_refl N4). Qed.
Print Assumptions C94_twice.
(** a message that arrives in the same cell meanwhile is deleted unread, while the
    earlier one is given twice; *)
Theorem C94_reused : forall mode mem ds c1 s1 p answer d c2, mem <> [] -> ~ In 34 mem -> digits ds -> reads_as mode c1 s1 -> status_param mode (stat_of s1) p ->
  good_answer answer -> describes mode answer [(dec_value ds, s1)] -> sel d = mem -> (forall i, stored d mem i = None) -> stat_of s1 <> 4 ->
  let i := dec_value ds in exists s,
  evolves mode any_step (mk_site (Some mem) d [])
    [Came mem i c1; Began (mk_collector None true [stat_of s1] CCompare); Gone mem i c1; Told s1; Came mem i c2; Gone mem i c2; Told s1] s /\
  threads s = [Notified (mk_handler mem ds (Delivered s1)); Collecting (mk_collector None true [] CDone); Notified (mk_handler mem ds Compare)] /\
  forall k, stored (machine s) mem k = None.
Proof. intros mode mem ds c1 s1 p answer d c2 N Q D R Sp G De Sl Em N4. exact (other_lost mode mem ds c1 s1 (stat_of s1) p answer d N Q D R Sp G De Sl Em c2 eq_refl N4). Qed.
Print Assumptions C94_reused.
(** and a message in another memory, which its handler selects between the listing and
    the deletion, is deleted unread, while the listed one stays. *)
Theorem C94_elsewhere : forall mode mem ds c1 s1 p answer d mem2 c2, mem <> [] -> ~ In 34 mem -> digits ds -> reads_as mode c1 s1 -> status_param mode (stat_of s1) p ->
  good_answer answer -> describes mode answer [(dec_value ds, s1)] -> sel d = mem -> (forall i, stored d mem i = None) -> stat_of s1 <> 4 ->
  mem2 <> mem -> mem2 <> [] -> ~ In 34 mem2 -> let i := dec_value ds in stored d mem2 i = None -> exists s,
  evolves mode any_step (mk_site (Some mem) d []) [Came mem i c1; Began (mk_collector None true [stat_of s1] CCompare); Came mem2 i c2; Gone mem2 i c2; Told s1] s /\
  threads s = [Collecting (mk_collector None true [] CDone); Notified (mk_handler mem2 ds Remember)] /\ stored (machine s) mem i = Some c1 /\ stored (machine s) mem2 i = None.
Proof.
  intros mode mem ds c1 s1 p answer d mem2 c2 N Q D R Sp G De Sl Em N4 Nm N2 Q2 i E2.
  exact (elsewhere_lost mode mem ds c1 s1 (stat_of s1) p answer d N Q D R Sp G De Sl Em mem2 c2 Nm N2 Q2 E2 eq_refl N4).
Qed.
Print Assumptions C94_elsewhere.
(** a collector that is left alone does what the methods do *)
Theorem C94_is_list : forall m st memory sc x w, listStoredSms st memory true (start m sc) = Done x w -> exists p given,
  lone (smsTextMode m) memory false (memRead m) [st] CCompare (asked (trace w)) given (memRead (dev w)) [st] p /\
  match x with Ok ms => p = CDone /\ given = ms | Err e => p = CFail e /\ given = [] end.
Proof. exact lone_list. Qed.
Print Assumptions C94_is_list.
Theorem C94_is_process : forall m unread sc x w, processStoredSms unread (start m sc) = Done x w -> exists sts p,
  lone (smsTextMode m) None true (memRead m) (if unread then [0] else [1; 0]) CCompare (asked (trace w)) (passed (trace w)) (memRead (dev w)) sts p /\
  match x with Ok _ => p = CDone | Err e => p = CFail e end.
Proof. exact lone_process. Qed.
Print Assumptions C94_is_process.
(** the handler of +CDSI left alone makes the steps of the handler of +CMTI up to the
    deletion: it too is one of the threads of C94.  A received message, which it does
    not expect, it has deleted and does not give to the application. *)
Theorem C94_is_report : forall m mem ds line sc x w, indication (lit "+CDSI:") mem ds line -> handleSmsStatusReport line (start m sc) = Done x w -> exists p,
  alone (smsTextMode m) mem ds (memRead m) Compare (asked (trace w)) [] (memRead (dev w)) p /\
  match x with
  | Ok _ => exists st r n t d v, p = Deliver (Report st r n t d v)
  | Err e => p = Failed e \/ e = AttributeError /\ exists st n t text c, p = Deliver (Received st n t text c)
  end.
Proof. exact lone_report. Qed.
Print Assumptions C94_is_report.
(** a received message behind +CDSI: read, deleted, and AttributeError *)
Example C94_is_report_example : indication (lit "+CDSI:") (lit "SM") (lit "3") (lit "+CDSI: ""SM"",3") /\ exists w,
  handleSmsStatusReport (lit "+CDSI: ""SM"",3") (start modem_init
    [Lines [lit "OK"]; Lines [lit "+CMGR: 1,,28"; lit "07917283010010F5040BC87238880900F10000993092516195800AE8329BFD4697D9EC37"; lit "OK"]; Lines [lit "OK"]]) = Done (Err AttributeError) w /\
  length (asked (trace w)) = 3%nat.
Proof.
  split; [|eexists; split; vm_compute; reflexivity].
  exists [32], []. split; [reflexivity|]. split; [repeat constructor|]. split; [discriminate|]. split; [cbn; intuition discriminate|]. split; [split; [discriminate|repeat constructor]|left; reflexivity].
Qed.

Definition sample : str := lit "07917283010010F5040BC87238880900F10000993092516195800AE8329BFD4697D9EC37".
Definition sample_sms (stat : Z) : stored_sms := Received stat (Some (lit "27838890001")) (mk_datetime 1999 3 29 15 16 59 0 (Some (td_of_seconds 7200))) (lit "hellohello") (Some (lit "+27381000015")).
Definition sample_lines : list str := [lit "+CMGR: 1,,28"; sample].
Definition sample_list : list str := [lit "+CMGL: 5,1,,28"; sample; lit "OK"].
Lemma digits_ex (s : str) : s <> [] -> forallb is_digit s = true -> digits s.
Proof. intros N F. split; auto. apply Forall_forall. apply forallb_forall. auto. Qed.
Lemma sample_ok : exists d, decodeSmsPdu sample = Ok d /\ message_of 1 d (sample_sms 1).
Proof.
  destruct (decodeSmsPdu sample) as [d|] eqn:E; [|vm_compute in E; discriminate]. exists d. split; auto.
  vm_compute in E. injection E as <-. eapply mo_deliver. reflexivity.
Qed.
Lemma sample_reads : reads_as false sample_lines (sample_sms 1).
Proof.
  destruct sample_ok as (d & E & M). eapply ra_pdu with (d := d) (stat := 1); auto.
  exists (lit "1"), [], [], [], (lit "28"), []. split; [reflexivity|]. split; [repeat constructor|]. split; [auto|]. split; [cbn; tauto|]. split; [auto|].
  split; [apply digits_ex; [discriminate|reflexivity]|]. split; [left; reflexivity|reflexivity].
Qed.
Lemma sample_described : good_answer sample_list /\ describes false sample_list [(5, sample_sms 1)].
Proof.
  split; [exists [lit "+CMGL: 5,1,,28"; sample], (lit "OK"); split; [reflexivity|apply good_ok]|].
  destruct sample_ok as (d & E & M). apply (wf_entry _ 5 1 sample d); auto.
  - exists [32], (lit "5"), [], (lit "1"), (lit ",28"), []. split; [reflexivity|]. split; [repeat constructor|]. split; [apply digits_ex; [discriminate|reflexivity]|]. split; [reflexivity|].
    split; [constructor|]. split; [apply digits_ex; [discriminate|reflexivity]|]. split; [reflexivity|]. split; [cbn; intuition discriminate|left; reflexivity].
  - apply wf_other; [|constructor]. intros i st (sp1 & is & sp2 & ss & more & nl & F & _). cbn in F. discriminate F.
Qed.
Definition empty_device : device := mk_device (lit "SM") (fun _ _ => None).
Lemma sm_fine : ~ In 34 (lit "SM") /\ lit "SM" <> [] /\ digits (lit "5").
Proof. split; [cbn; intuition discriminate|]. split; [discriminate|apply digits_ex; [discriminate|reflexivity]]. Qed.
(** processStoredSms alone: the conditions of C94_once are met *)
Example C94_once_example : exists s,
  evolves false one_at_a_time (mk_site (Some (lit "SM")) empty_device [])
    [Came (lit "SM") 5 sample_lines; Began (mk_collector None true [1] CCompare); Gone (lit "SM") 5 sample_lines; Told (sample_sms 1)] s /\
  Forall (ordinary false (lit "SM")) [Came (lit "SM") 5 sample_lines; Began (mk_collector None true [1] CCompare); Gone (lit "SM") 5 sample_lines; Told (sample_sms 1)].
Proof.
  destruct sample_described as [G De]. destruct sm_fine as (Q & N & D).
  destruct (collected_once false (lit "SM") (lit "5") sample_lines (sample_sms 1) 1 (lit "1") sample_list empty_device N Q D sample_reads) as (s & H & _); auto; try discriminate.
  - split; [apply digits_ex; [discriminate|reflexivity]|]. split; [reflexivity|]. right. intros ds' F. discriminate F.
  - exists s. split; [exact H|]. constructor; [|constructor; [|repeat constructor]].
    + split; [reflexivity|]. exists (sample_sms 1). apply sample_reads.
    + split; [left; reflexivity|]. repeat constructor; discriminate.
Qed.
Example C94_twice_example : exists s, evolves false no_reuse (mk_site (Some (lit "SM")) empty_device [])
    [Came (lit "SM") 5 sample_lines; Began (mk_collector None true [1] CCompare); Gone (lit "SM") 5 sample_lines; Told (sample_sms 1); Told (sample_sms 1)] s.
Proof.
  destruct sample_described as [G De]. destruct sm_fine as (Q & N & D).
  destruct (C94_twice false (lit "SM") (lit "5") sample_lines (sample_sms 1) (lit "1") sample_list empty_device N Q D sample_reads) as (s & H & _); auto; try discriminate.
  - split; [apply digits_ex; [discriminate|reflexivity]|]. split; [reflexivity|]. right. intros ds' F. discriminate F.
  - exists s. exact H.
Qed.

(** C95: listing all messages with deletion never loses a message.  Violated, for all
    messages and places: one that arrives between the listing and AT+CMGD=1,4 is removed
    and given to nobody; the handler of its notification fails. *)
Theorem C95_lost : forall mode mem ds c1 s1 p answer d es c2, mem <> [] -> ~ In 34 mem -> digits ds -> reads_as mode c1 s1 -> status_param mode 4 p ->
  good_answer answer -> describes mode answer [(dec_value ds, s1)] -> sel d = mem -> (forall i, stored d mem i = None) ->
  digits es -> dec_value es <> dec_value ds -> let i := dec_value ds in let j := dec_value es in exists s e,
  evolves mode any_step (mk_site (Some mem) d [])
    [Came mem i c1; Began (mk_collector None false [4] CCompare); Came mem j c2; Gone mem i c1; Gone mem j c2; Told s1] s /\
  threads s = [Collecting (mk_collector None false [4] CDone); Notified (mk_handler mem es (Failed e))] /\ forall k, stored (machine s) mem k = None.
Proof.
  intros mode mem ds c1 s1 p answer d es c2 N Q D R Sp G De Sl Em D2 Ne.
  exact (wiped_lost mode mem ds c1 s1 4 p answer d N Q D R Sp G De Sl Em es c2 eq_refl D2 Ne).
Qed.
Print Assumptions C95_lost.
(** These are the only ones: what AT+CMGD=1,4 removes is among the listed messages or
    arrived after the listing, whatever the other threads did in between. *)
Theorem C95_only_newer : forall mode memory hd sts attr d text r g d1 attr1 ms ts obs s r2 g2 d2,
  thread_step mode attr (Collecting (mk_collector memory hd (4 :: sts) CList)) (Some (text, r)) [] attr1 (Collecting (mk_collector memory hd (4 :: sts) (CWipe ms))) ->
  serves mode d text r g d1 -> (forall i content, stored d (sel d) i = Some content -> readable mode content) ->
  evolves mode any_step (mk_site attr1 d1 ts) obs s -> sel (machine s) = sel d -> serves mode (machine s) (lit "AT+CMGD=1,4" ++ [13]) r2 g2 d2 ->
  forall i content, In (i, content) g2 -> (exists m, In m ms /\ says mode content m) \/ (exists k, In (Came (sel d) i k) obs /\ marks mode k content).
Proof. exact only_newer. Qed.
Print Assumptions C95_only_newer.
Example C95_example : exists s e, evolves false any_step (mk_site (Some (lit "SM")) empty_device [])
    [Came (lit "SM") 5 sample_lines; Began (mk_collector None false [4] CCompare); Came (lit "SM") 7 sample_lines; Gone (lit "SM") 5 sample_lines; Gone (lit "SM") 7 sample_lines; Told (sample_sms 1)] s /\
  threads s = [Collecting (mk_collector None false [4] CDone); Notified (mk_handler (lit "SM") (lit "7") (Failed e))].
Proof.
  destruct sample_described as [G De]. destruct sm_fine as (Q & N & D).
  destruct (C95_lost false (lit "SM") (lit "5") sample_lines (sample_sms 1) (lit "4") sample_list empty_device (lit "7") sample_lines N Q D sample_reads) as (s & e & H & T & _); auto; try discriminate.
  - split; [apply digits_ex; [discriminate|reflexivity]|]. split; [reflexivity|]. right. intros ds' F. discriminate F.
  - apply digits_ex; [discriminate|reflexivity].
  - exists s, e. split; [exact H|exact T].
Qed.
