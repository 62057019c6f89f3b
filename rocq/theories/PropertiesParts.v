(** Property C104: the parts of a long message, the reference in their headers and the number
    by which the message is tracked (modem.py:646-658). *)
From Verif Require Import Base PduModel PduSpec SmsSpec SubmitSpec DeliverSpec Gsm7Proofs ModemCore ModemSpec SmsModel SendSpec TrackSpec PartsSpec PartsProofs.

(** every part that the device took in a call says that it belongs to the message with the
    number that the modem object had when the call began *)
Theorem C104_parts : forall d t fl wt m sc tk n, smsTextMode m = false -> long t n -> took (trace_after (sendSms d t fl wt (start m sc))) tk ->
  parts_with d t (smsRef m) n tk.
Proof. exact call_parts. Qed.
Print Assumptions C104_parts.

(** with a device that numbers what it takes consecutively, long messages less than 256 parts
    apart have different references, if all calls before returned and at least one did *)
Theorem C104_different : forall m cs1 a cs2 b m' c c' na nb, smsTextMode m = false -> calls m (cs1 ++ a :: cs2 ++ [b]) m' ->
  Forall (fun x => c_number x <> None) (cs1 ++ a :: cs2) -> cs1 <> [] -> 0 <= c < 256 ->
  counting c (flat_map c_took (cs1 ++ a :: cs2)) c' -> len (flat_map c_took (a :: cs2)) < 256 -> long (c_text a) na -> long (c_text b) nb ->
  exists r r', r <> r' /\ parts_with (c_to a) (c_text a) r na (c_took a) /\ parts_with (c_to b) (c_text b) r' nb (c_took b).
Proof. exact other_reference. Qed.
Print Assumptions C104_different.

(** the next long message after a call that failed, also one of which parts were taken, has the
    same reference *)
Theorem C104_same : forall m cs1 a cs2 b m' na nb, smsTextMode m = false -> calls m (cs1 ++ a :: cs2 ++ [b]) m' ->
  Forall (fun c => c_number c = None) (a :: cs2) -> long (c_text a) na -> long (c_text b) nb ->
  exists r, parts_with (c_to a) (c_text a) r na (c_took a) /\ parts_with (c_to b) (c_text b) r nb (c_took b).
Proof. exact same_reference. Qed.
Print Assumptions C104_same.

(** the message is tracked by the device's number for its last part *)
Theorem C104_tracked : forall hs m1 d t fl wt sc obj w tk later m2, happens modem_init hs m1 -> smsTextMode m1 = false ->
  sendSms d t fl wt (start m1 sc) = Done (Ok obj) w -> took (trace w) tk -> happens (dev w) later m2 ->
  exists r s, tk <> [] /\ reference_in (last (map snd tk) []) r /\ nth_error (sentObjs m2) obj = Some s /\ s_reference s = r /\
    status_for (verdict_for r later None) (sent_status s).
Proof. exact tracked_by. Qed.
Print Assumptions C104_tracked.

(** a report for a number that is not that of the last part, such as that of another part,
    becomes the status of the earlier message that was tracked by this number *)
Theorem C104_other : forall hs m1 k r l d t fl wt sc obj w tk code m2, happens modem_init hs m1 -> smsTextMode m1 = false ->
  sent_as k hs = Some (r, l) -> ~ In (Sent r) l ->
  sendSms d t fl wt (start m1 sc) = Done (Ok obj) w -> took (trace w) tk -> ~ reference_in (last (map snd tk) []) r ->
  happens (dev w) [Reported r code] m2 ->
  (exists s, nth_error (sentObjs m2) k = Some s /\ status_for (Some code) (sent_status s)) /\
  (exists s, nth_error (sentObjs m2) obj = Some s /\ sent_status s = 0).
Proof. exact other_message. Qed.
Print Assumptions C104_other.

(** ** Examples *)
Definition xs : str := repeat 120 200.
Definition ys : str := repeat 121 200.
Definition to : str := lit "+27821234567".
Definition prompt : reply := Lines [lit "> "].
Definition cmgs (n : string) : reply := Lines [lit "+CMGS: " ++ lit n; lit "OK"].
Lemma xs_long : long xs 2.
Proof.
  exists true. split; [left; split; [reflexivity|]|split; reflexivity].
  destruct (encodeGsm7 xs false) eqn:E; [eapply encode_ok_inv; eauto|vm_compute in E; discriminate].
Qed.
Lemma ys_long : long ys 2.
Proof.
  exists true. split; [left; split; [reflexivity|]|split; reflexivity].
  destruct (encodeGsm7 ys false) eqn:E; [eapply encode_ok_inv; eauto|vm_compute in E; discriminate].
Qed.
Ltac taken := repeat first [apply took_none | apply took_else; [vm_compute; reflexivity|] | apply took_step; [vm_compute; reflexivity|vm_compute; reflexivity|]].

(** the first part of one message is taken, the second refused; then another message is sent:
    the receiver gets part 1 of 2 of both with the same reference *)
Definition half : out nat := Eval vm_compute in sendSms to xs false false (start modem_init [prompt; cmgs "7"; Lines [lit "+CMS ERROR: 500"]]).
Definition m1 : modem := Eval vm_compute in state_after half.
Definition whole : out nat := Eval vm_compute in sendSms to ys false false (start m1 [prompt; cmgs "8"; prompt; cmgs "9"]).
Definition w2 : world := Eval vm_compute in match whole with Done _ w => w | Stuck w => w end.
Example C104_example_same : exists a b, calls modem_init [a; b] (dev w2) /\ c_number a = None /\ c_number b = Some 9 /\
  length (c_took a) = 1%nat /\ length (c_took b) = 2%nat /\
  parts_with to xs 0 2 (c_took a) /\ parts_with to ys 0 2 (c_took b).
Proof.
  assert (Ea : sendSms to xs false false (start modem_init [prompt; cmgs "7"; Lines [lit "+CMS ERROR: 500"]]) = half) by (vm_compute; reflexivity).
  assert (Eb : sendSms to ys false false (start m1 [prompt; cmgs "8"; prompt; cmgs "9"]) = whole) by (vm_compute; reflexivity).
  eassert (Ka : took (trace_after half) _) by (unfold half; cbn [trace_after trace]; taken).
  eassert (Kb : took (trace_after whole) _) by (unfold whole; cbn [trace_after trace]; taken).
  eexists (mk_call to xs _ None), (mk_call to ys _ (Some 9)). split.
  - eapply (calls_returned _ [_] m1 to ys false false [prompt; cmgs "8"; prompt; cmgs "9"] 0%nat w2 (mk_sent to ys 9 None)); [|exact Eb|reflexivity|exact Kb].
    change m1 with (state_after half). rewrite <- Ea in Ka |- *. eapply (calls_failed _ [] modem_init to xs false false [prompt; cmgs "7"; Lines [lit "+CMS ERROR: 500"]]); [constructor| |exact Ka].
    intros obj w E. rewrite Ea in E. discriminate E.
  - cbn [c_took c_number]. do 4 (split; [reflexivity|]). split.
    + rewrite <- Ea in Ka. apply (call_parts _ _ _ _ modem_init _ _ 2 eq_refl xs_long Ka).
    + rewrite <- Eb in Kb. apply (call_parts _ _ _ _ m1 _ _ 2 eq_refl ys_long Kb).
Qed.

(** three calls that return, with a device that counts from 254 *)
Definition wa : world := Eval vm_compute in match sendSms to (lit "Hi") false false (start modem_init [prompt; cmgs "254"]) with Done _ w => w | Stuck w => w end.
Definition wb : world := Eval vm_compute in match sendSms to xs false false (start (dev wa) [prompt; cmgs "255"; prompt; cmgs "0"]) with Done _ w => w | Stuck w => w end.
Definition wc : world := Eval vm_compute in match sendSms to ys false false (start (dev wb) [prompt; cmgs "1"; prompt; cmgs "2"]) with Done _ w => w | Stuck w => w end.
Lemma is_reference (l rest : list str) line n ds : l = line :: rest -> startswith line (lit "+CMGS:") = true -> skipn 7 line = ds -> digits ds -> dec_value ds = n -> reference_in l n.
Proof.
  intros -> S K D <-. exists line. split.
  - exists [], rest. split; [reflexivity|]. split; [apply SendProofs.starts_with_iff; exact S|constructor].
  - rewrite K. pose proof (nt ds [] [] D (Forall_nil _) (Forall_nil _)) as N. cbn [app] in N. rewrite app_nil_r in N. exact N.
Qed.
Ltac number := eapply is_reference; [reflexivity|reflexivity|reflexivity|split; [discriminate|repeat constructor]|reflexivity].
Example C104_example_different : exists a b c, calls modem_init [a; b; c] (dev wc) /\ Forall (fun x => c_number x <> None) [a; b] /\
  counting 254 (flat_map c_took [a; b]) 1 /\ len (flat_map c_took [b]) = 2 /\ c_text b = xs /\ c_text c = ys /\
  smsRef (dev wa) = 255 /\ smsRef (dev wb) = 1.
Proof.
  eassert (Ka : took (trace wa) _) by (unfold wa; cbn [trace]; taken).
  eassert (Kb : took (trace wb) _) by (unfold wb; cbn [trace]; taken).
  eassert (Kc : took (trace wc) _) by (unfold wc; cbn [trace]; taken).
  eexists (mk_call to (lit "Hi") _ (Some 254)), (mk_call to xs _ (Some 0)), (mk_call to ys _ (Some 2)). split.
  - eapply (calls_returned _ [_; _] (dev wb) to ys false false [prompt; cmgs "1"; prompt; cmgs "2"] 2%nat wc (mk_sent to ys 2 None)); [|vm_compute; reflexivity|reflexivity|exact Kc].
    eapply (calls_returned _ [_] (dev wa) to xs false false [prompt; cmgs "255"; prompt; cmgs "0"] 1%nat wb (mk_sent to xs 0 None)); [|vm_compute; reflexivity|reflexivity|exact Kb].
    eapply (calls_returned _ [] modem_init to (lit "Hi") false false [prompt; cmgs "254"] 0%nat wa (mk_sent to (lit "Hi") 254 None)); [constructor|vm_compute; reflexivity|reflexivity|exact Ka].
  - cbn [c_took c_text c_number flat_map app]. split; [do 2 (constructor; [discriminate|]); constructor|].
    split; [|repeat split; reflexivity]. do 3 (apply counting_one; [number|cbv [Z.modulo Z.add Z.div_eucl Z.pos_div_eucl]; cbn]). constructor.
Qed.

(** A message gets the number 8.  A long one gets 8 and 9: the device counts again from there.
    The report that its first part failed becomes the status of the old message; the long one
    is delivered when its last part is. *)
Definition report_replies (ref code : string) : list reply :=
  [Lines [lit "OK"]; Lines [lit "+CMGR: 0,,28"; lit "07917248014000F306" ++ lit ref ++ lit "0B917272000000F0" ++ lit "21107041530040" ++ lit "21107041630040" ++ lit code; lit "OK"];
   Lines [lit "OK"]].
Definition cdsi : str := lit "+CDSI: ""SM"",3".
Definition world_of {A} (o : out A) : world := match o with Done _ w => w | Stuck w => w end.
Definition w3 : world := Eval vm_compute in world_of (sendSms to (lit "Hi") false false (start modem_init [prompt; cmgs "8"])).
Definition w4 : world := Eval vm_compute in world_of (sendSms to xs false false (start (dev w3) [prompt; cmgs "8"; prompt; cmgs "9"])).
Definition w5 : world := Eval vm_compute in world_of (handleSmsStatusReport cdsi (start (dev w4) (report_replies "08" "40"))).
Definition w6 : world := Eval vm_compute in world_of (handleSmsStatusReport cdsi (start (dev w5) (tl (report_replies "09" "00")))).
Lemma cdsi_indication : indication (lit "+CDSI:") (lit "SM") (lit "3") cdsi.
Proof.
  exists [32], []. split; [reflexivity|]. split; [repeat constructor|]. split; [discriminate|]. split; [cbn; intuition discriminate|].
  split; [split; [discriminate|repeat constructor]|left; reflexivity].
Qed.
Example C104_example_other : happens modem_init [Sent 8] (dev w3) /\ smsTextMode (dev w3) = false /\ sent_as 0 [Sent 8] = Some (8, []) /\
  sendSms to xs false false (start (dev w3) [prompt; cmgs "8"; prompt; cmgs "9"]) = Done (Ok 1%nat) w4 /\
  (exists tk, took (trace w4) tk /\ reference_in (snd (hd ([], []) tk)) 8 /\ reference_in (last (map snd tk) []) 9) /\
  happens (dev w4) [Reported 8 64] (dev w5) /\ map sent_status (sentObjs (dev w5)) = [2; 0] /\
  happens (dev w4) [Reported 8 64; Reported 9 0] (dev w6) /\ map sent_status (sentObjs (dev w6)) = [2; 1].
Proof.
  assert (H5 : happens (dev w4) [Reported 8 64] (dev w5)).
  { eapply (hp_reported (dev w4) [] (dev w4) cdsi (lit "SM") (lit "3") (report_replies "08" "40") _ 8 _ _ _ 64 _ w5); [constructor|exact cdsi_indication|vm_compute; reflexivity|vm_compute; reflexivity]. }
  split; [eapply (hp_sent modem_init [] modem_init to (lit "Hi") false false [prompt; cmgs "8"] 0%nat w3 (mk_sent to (lit "Hi") 8 None)); [constructor|vm_compute; reflexivity|reflexivity]|].
  split; [reflexivity|]. split; [reflexivity|]. split; [vm_compute; reflexivity|].
  split; [eexists; split; [unfold w4; cbn [trace]; taken|]; cbn [map snd hd last]; split; number|].
  split; [exact H5|]. split; [reflexivity|]. split; [|reflexivity].
  eapply (hp_reported (dev w4) [Reported 8 64] (dev w5) cdsi (lit "SM") (lit "3") (tl (report_replies "09" "00")) _ 9 _ _ _ 0 _ w6); [exact H5|exact cdsi_indication|vm_compute; reflexivity|vm_compute; reflexivity].
Qed.
