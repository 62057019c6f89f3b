(** Theorems: what connect finds out and sets up, the message mode, simple queries. *)
From Verif Require Import Base ModemCore ModemSpec SendSpec CoverageSpec TrackSpec SmsModel CallModel ConnectModel UssdModel UssdSpec SetupSpec SetupProofs SetupFinal.

(** C59: the identity of the modem is the first line of the first answer that is not
    "busy"; the revision is None when the modem refuses. *)
Theorem C59_identity : forall q t w x, In (q, t) [(manufacturer, "AT+CGMI"); (model, "AT+CGMM"); (imei, "AT+CGSN"); (imsi, "AT+CIMI")]%string ->
  queries t q /\ ((exists w', q w = Done (Ok x) w') <-> exists busy codes more rest, script w = busy ++ Lines (x :: more) :: rest /\ all_busy busy codes /\ good_answer (x :: more)).
Proof. exact identity_exact. Qed.
Print Assumptions C59_identity.
Theorem C59_revision : forall w x, (exists w', revision w = Done (Ok x) w') <->
  match x with
  | Some x => exists busy codes more rest, script w = busy ++ Lines (x :: more) :: rest /\ all_busy busy codes /\ good_answer (x :: more)
  | None => exists busy codes r rest, script w = busy ++ r :: rest /\ all_busy busy codes /\ refusal r
  end.
Proof. exact revision_exact. Qed.
Print Assumptions C59_revision.
(** the commands that a modem says it knows *)
Theorem C59_commands : forall w x, (exists w', supportedCommands w = Done (Ok x) w') <->
  exists busy codes r rest, script w = busy ++ r :: rest /\ all_busy busy codes /\ heard r x.
Proof. exact commands_exact. Qed.
Print Assumptions C59_commands.
(** each query puts its command on the wire, and nothing else *)
Theorem C59_asked : queries "AT+CGMI" manufacturer /\ queries "AT+CGMM" model /\ queries "AT+CGSN" imei /\ queries "AT+CIMI" imsi /\ queries "AT+CGMR" revision /\
  queries "AT+CSQ" signalStrength /\ queries "AT+COPS?" networkName /\ queries "AT+CSCA?" get_smsc /\ queries "AT+CLAC" supportedCommands.
Proof. exact queries_exact. Qed.
Print Assumptions C59_asked.
Definition answer_of {A} (o : out A) : option (res A) := match o with Done x _ => Some x | Stuck _ => None end.
Example C59_example_identity :
  answer_of (imei (start modem_init [Lines [lit "+CME ERROR: 14"]; Lines [lit "0123456"; lit "OK"]])) = Some (Ok (lit "0123456")) /\
  answer_of (revision (start modem_init [Lines [lit "+CMS ERROR: 330"]])) = Some (Ok None) /\
  answer_of (supportedCommands (start modem_init [Lines [lit "+CLAC:+CLIP,+WIND"; lit "OK"]])) = Some (Ok (Some [lit "+CLIP"; lit "+WIND"])) /\
  answer_of (supportedCommands (start modem_init [Lines [lit "+CLIP "; lit " +WIND"; lit "OK"]])) = Some (Ok (Some [lit "+CLIP"; lit "+WIND"])) /\
  answer_of (supportedCommands (start modem_init [Lines [lit "OK"]])) = Some (Ok None).
Proof. vm_compute. auto 6. Qed.
(** a space after the colon becomes part of the first name *)
Example C59_example_space : heard (Lines [lit "+CLAC: +CLIP,+WIND"; lit "OK"]) (Some [lit " +CLIP"; lit "+WIND"]).
Proof.
  exists [lit "+CLAC: +CLIP,+WIND"; lit "OK"]. split; [reflexivity|]. split.
  - exists [lit "+CLAC: +CLIP,+WIND"], (lit "OK"). split; [reflexivity|]. split; [|discriminate]. intros (a & b & E).
    assert (L : length (lit "OK") = length (a ++ lit "ERROR" ++ b)) by (rewrite E; reflexivity). rewrite !app_length in L. cbn in L. lia.
  - eapply li_line; [right; right; exists 58; reflexivity|]. split; [discriminate|]. split; [reflexivity|].
    repeat constructor; intros (a & b & E); assert (X : In 44 (a ++ [44] ++ b)) by (rewrite in_app_iff; cbn; auto); rewrite <- E in X; cbn in X; intuition discriminate.
Qed.

(** C72: what connect finds out about the modem decides how calls are followed. *)
Theorem C72_calls : forall pin m sc w, connect pin (start m sc) = Done (Ok tt) w -> exists commands k,
  repertoire (asked (trace w)) commands /\ kind_of commands (asked (trace w)) k /\ configured m (dev w) commands k /\ sends_option commands (asked (trace w)) /\
  (accepted (lit "AT+WIND?") (asked (trace w)) -> wind_on (asked (trace w))).
Proof. exact (fun pin m sc w H => proj1 (connect_features pin m sc w H)). Qed.
Print Assumptions C72_calls.
(** the number of a caller is expected exactly when the modem agreed to tell it, and
    the extended form of RING exactly when it agreed to that *)
Theorem C72_caller : forall pin m sc w, connect pin (start m sc) = Done (Ok tt) w ->
  (clip (dev w) = true <-> accepted (lit "AT+CLIP=1") (asked (trace w))) /\ (clip (dev w) = false -> refused_command (lit "AT+CLIP=1") (asked (trace w))) /\
  (clip (dev w) = true -> (crc (dev w) = true <-> accepted (lit "AT+CRC=1") (asked (trace w)))) /\
  (clip (dev w) = false -> crc (dev w) = crc m /\ ~ sent (lit "AT+CRC=1") (asked (trace w))).
Proof. exact (fun pin m sc w H => proj1 (proj2 (connect_features pin m sc w H))). Qed.
Print Assumptions C72_caller.
(** messages are announced exactly when the storage could be set and the modem agreed *)
Theorem C72_storage : forall pin m sc w, connect pin (start m sc) = Done (Ok tt) w -> exists st,
  storage (asked (trace w)) st /\ memRead (dev w) = memory_of st (memRead m) /\
  (sent (lit "AT+CNMI=2,1,0,2") (asked (trace w)) <-> smsReadSupported m = true /\ st <> None) /\
  (smsReadSupported (dev w) = true <-> smsReadSupported m = true /\ st <> None /\ accepted (lit "AT+CNMI=2,1,0,2") (asked (trace w))).
Proof. exact (fun pin m sc w H => proj2 (proj2 (connect_features pin m sc w H))). Qed.
Print Assumptions C72_storage.
(** After the first connect of the process (C97: what the later ones find) each setting
    is that of the kind of modem. *)
Theorem C72_first : forall pin sc w, connect pin (start modem_init sc) = Done (Ok tt) w ->
  (exists commands k, repertoire (asked (trace w)) commands /\ kind_of commands (asked (trace w)) k /\ callUpdates (dev w) = k /\ (mustPoll (dev w) = true <-> k = TNone) /\
     (waitAtd (dev w) = true <-> k = TNone \/ k = THuawei) /\ (waitInit (dev w) = true <-> k <> TZte) /\ (dtmfSupport (dev w) = true <-> dtmf_known commands k) /\ (dtmfHuawei (dev w) = true <-> k = THuawei)) /\
  (crc (dev w) = true -> clip (dev w) = true) /\
  exists st, storage (asked (trace w)) st /\ memRead (dev w) = memory_of st None /\ (smsReadSupported (dev w) = true <-> st <> None /\ accepted (lit "AT+CNMI=2,1,0,2") (asked (trace w))).
Proof. exact first_connect. Qed.
Print Assumptions C72_first.
Definition ok : reply := Lines [lit "OK"].
Definition huawei : list reply :=
  [ok; ok; Lines [lit "+CFUN: 1"; lit "OK"]; ok; Lines [lit "+CPIN: READY"; lit "OK"]; Lines [lit "+CLAC:+CLIP,^CVOICE,^DTMF,^USSDMODE"; lit "OK"]; ok; ok; ok; ok;
   Lines [lit "+CSCA: ""+2782"",145"; lit "OK"]; ok; Lines [lit "+CSCA: ""+2782"",145"; lit "OK"]; Lines [lit "+CPMS: (""SM"",""ME""),(""SM"",""ME""),(""SM"")"; lit "OK"]; ok; ok; ok; Lines [lit "ERROR"]; ok].
Definition wavecom : list reply :=
  [ok; ok; Lines [lit "ERROR"]; ok; Lines [lit "+CPIN: READY"; lit "OK"]; Lines [lit "ERROR"]; Lines [lit "+WIND: 0"; lit "OK"]; ok; ok; ok;
   Lines [lit "+CSCA: ""+2782"",145"; lit "OK"]; ok; Lines [lit "+CSCA: ""+2782"",145"; lit "OK"]; Lines [lit "ERROR"]; Lines [lit "ERROR"]; ok].
Definition connected (sc : list reply) := match connect None (start modem_init sc) with
  | Done (Ok _) w => Some (callUpdates (dev w), mustPoll (dev w), waitAtd (dev w), (clip (dev w), crc (dev w)), (smsReadSupported (dev w), memRead (dev w)), length (script w))
  | _ => None end.
Example C72_example :
  connected huawei = Some (THuawei, false, true, (true, false), (true, Some (lit """ME""")), 0%nat) /\
  connected wavecom = Some (TWavecom, false, false, (false, false), (false, None), 0%nat).
Proof. vm_compute. auto. Qed.

(** C73: smsTextMode tells the mode that the modem is in. *)
Theorem C73_connect : forall pin m sc w c c', connect pin (start m sc) = Done (Ok tt) w -> mode_after c (asked (trace w)) c' -> c' = smsTextMode m /\ smsTextMode (dev w) = smsTextMode m.
Proof. exact connect_mode. Qed.
Print Assumptions C73_connect.
Theorem C73_set : forall b m sc x w, set_text_mode b (start m sc) = Done x w ->
  match x with Ok _ => smsTextMode (dev w) = b | Err _ => smsTextMode (dev w) = smsTextMode m end /\
  (b = smsTextMode m \/ alive m = false -> x = Ok tt /\ trace w = []) /\
  (b <> smsTextMode m -> alive m = true -> exists y, exchange (mode_command b) [13] (trace w) y /\ x = match y with Ok _ => Ok tt | Err e => Err e end).
Proof. exact text_mode_set. Qed.
Print Assumptions C73_set.
(** so it is throughout, unless the modem leaves a change of mode without an answer *)
Theorem C73_history : forall m sc bs m' l c, switched m sc bs m' l -> alive m = true -> mode_after (smsTextMode m) l c -> c = smsTextMode m'.
Proof. exact modes_agree. Qed.
Print Assumptions C73_history.
Example C73_example : exists w l, connect None (start modem_init huawei) = Done (Ok tt) w /\ alive (dev w) = true /\ smsTextMode (dev w) = false /\
  switched (dev w) [ok; Lines [lit "+CMS ERROR: 302"]] [true; true; false] (set_smsTextMode true (dev w)) l /\ length l = 2%nat /\ mode_after false l true.
Proof.
  do 2 eexists. split; [vm_compute; reflexivity|]. split; [reflexivity|]. split; [reflexivity|]. split.
  - eapply sw_cons; [vm_compute; reflexivity|discriminate|]. eapply sw_cons; [vm_compute; reflexivity|discriminate|]. eapply sw_cons; [vm_compute; reflexivity|discriminate|]. apply sw_nil.
  - split; [reflexivity|]. eapply ma_cons; [apply (mo_set true [lit "OK"])|].
    + exists [], (lit "OK"). split; [reflexivity|]. split; [|discriminate]. intros (a & b & E).
      assert (L : length (lit "OK") = length (a ++ lit "ERROR" ++ b)) by (rewrite E; reflexivity). rewrite !app_length in L. cbn in L. lia.
    + eapply ma_cons; [apply (mo_refused false [lit "+CMS ERROR: 302"])|constructor]. intros (b & l & E & G & _). apply G. exists (lit "+CMS "), (lit ": 302").
      destruct b as [|x [|y b]]; [injection E as <-; reflexivity|discriminate E|discriminate E].
Qed.

(** C63: replying to a USSD session and cancelling it. *)
Theorem C63_reply : forall u s m sc x w, ussd_reply u s (start m sc) = Done x w ->
  (u_active u = false -> x = Err InvalidStateException /\ w = start m sc) /\
  (u_active u = true -> exists y, exchange (ussd_command s) [13] (trace w) y /\
     match y with
     | Err e => x = Err e /\ ussdEvent (dev w) = None
     | Ok ls => (x = Ok None /\ ussdEvent (dev w) = Some false /\ (length ls = 1%nat \/ Forall (fun l => ~ starts_with (lit "+CUSD") l) ls)) \/
                (x = match parseCusdResponse ls with Ok u => Ok (Some u) | Err e => Err e end /\ ussdEvent (dev w) = None /\ exists l, In l ls /\ starts_with (lit "+CUSD") l)
     end).
Proof. exact reply_does. Qed.
Print Assumptions C63_reply.
Theorem C63_cancel : forall u m sc x w, ussd_cancel u (start m sc) = Done x w ->
  (u_active u = false -> x = Ok tt /\ w = start m sc) /\
  (u_active u = true -> exists y, exchange (lit "AT+CUSD=2") [13] (trace w) y /\ x = match y with Ok _ => Ok tt | Err e => Err e end).
Proof. exact cancel_does. Qed.
Print Assumptions C63_cancel.
Example C63_example_reply : exists w1 w2, ussd_reply (mk_ussd true (Some (lit "1. Balance"))) (lit "1") (start modem_init [ok]) = Done (Ok None) w1 /\
  ussd_cancel (mk_ussd true None) (start modem_init [ok]) = Done (Ok tt) w2 /\ trace w2 <> [] /\
  ussd_reply (mk_ussd false None) (lit "1") (start modem_init [ok]) = Done (Err InvalidStateException) (start modem_init [ok]).
Proof. do 2 eexists. split; [vm_compute; reflexivity|]. split; [vm_compute; reflexivity|]. split; [discriminate|reflexivity]. Qed.
