(** Connecting: the SIM PIN and the service centre number. *)
From Verif Require Import Base ModemCore ModemSpec MonadProofs SendSpec TrackSpec CoverageSpec CoverageProofs ConnectModel ConnectSpec ConnectProofs CentreProofs.

(** C53: whatever the modem answers, the PIN is sent only after a query for which the
    SIM was not ready, only when one was given, and at most once apart from busy
    retries. *)
Theorem C53_pin : forall pin m sc, pin_use pin (asked (trace (last_of (connect pin (start m sc))))).
Proof. exact connect_pin. Qed.
Print Assumptions C53_pin.
(** connect succeeds only with an unlocked SIM *)
Theorem C53_unlocked : forall pin m sc w, connect pin (start m sc) = Done (Ok tt) w -> unlocked pin (asked (trace w)).
Proof. exact connect_ok. Qed.
Print Assumptions C53_unlocked.
(** without a PIN a locked SIM is reported as PinRequiredError *)
Theorem C53_no_pin : forall m sc ls, let w := last_of (connect None (start m sc)) in
  In (pin_query, Some (Lines ls)) (asked (trace w)) -> good_answer ls -> ~ sim_ready (Lines ls) ->
  connect None (start m sc) = Done (Err (PinRequiredError (lit "AT+CPIN") 11)) w.
Proof. exact connect_no_pin. Qed.
Print Assumptions C53_no_pin.

Definition ok : reply := Lines [lit "OK"].
Definition says (l : str) : reply := Lines [l; lit "OK"].
Definition error : reply := Lines [lit "ERROR"].
(** a modem that wants the PIN at once; the PIN is answered "busy" first *)
Definition pin_script : list reply :=
  [error; ok; says (lit "+CPIN: SIM PIN"); Lines [lit "+CME ERROR: 14"]; ok; ok; ok; says (lit "+CFUN: 1"); ok;
   error; error; says (lit "ACME"); error; ok; ok; says (lit "+CSCA: ""+2782"",145"); ok; Lines [lit "+CMS ERROR: 330"]; ok;
   says (lit "+CPMS: (""SM"",""ME""),(""SM"")"); ok; ok; ok; ok; ok].
Example C53_example : exists w, connect (Some (lit "1234")) (start modem_init pin_script) = Done (Ok tt) w /\
  map fst (firstn 6 (asked (trace w))) = [lit "ATZ" ++ [13]; lit "AT+CMEE=1" ++ [13]; pin_query; pin_command (lit "1234") ++ [13]; pin_command (lit "1234") ++ [13]; lit "ATZ" ++ [13]] /\
  smscNumber (dev w) = Some (lit "+2782").
Proof. eexists. split; [vm_compute; reflexivity|split; vm_compute; reflexivity]. Qed.
Example C53_example_no_pin : exists w, connect None (start modem_init pin_script) = Done (Err (PinRequiredError (lit "AT+CPIN") 11)) w.
Proof. eexists. vm_compute. reflexivity. Qed.
(** the PIN is also sent when the modem says OK without saying anything about the PIN *)
Example C53_example_blind : exists w, connect (Some (lit "1234")) (start modem_init [ok; ok; error; ok; ok; Lines [lit "+CME ERROR: 16"]]) = Done (Err (IncorrectPinError (pin_command (lit "1234")) 16)) w /\
  asked (trace w) = map (fun c => (lit c ++ [13], Some ok)) ["ATZ"%string; "ATE0"%string] ++ [(lit "AT+CFUN?" ++ [13], Some error)] ++
    map (fun c => (lit c ++ [13], Some ok)) ["AT+CMEE=1"%string; "AT+CPIN?"%string] ++ [ask (pin_command (lit "1234")) (Lines [lit "+CME ERROR: 16"])].
Proof. eexists. split; vm_compute; reflexivity. Qed.

(** C62: the service centre number survives connecting.  Afterwards the number
    remembered is the modem's, and was before the text mode parameters were set. *)
Theorem C62_service_centre : forall pin m sc w, connect pin (start m sc) = Done (Ok tt) w -> exists a r b,
  asked (trace w) = a ++ (csmp, Some r) :: b /\
  (forall n, smscNumber m = Some n -> smscNumber (dev w) = Some n) /\
  match smscNumber (dev w) with
  | Some n => (forall c c1, centre c a c1 -> c1 = Some n) /\ (forall c c1, centre c b c1 -> c1 = Some n)
  | None => exists r, In (ask csca_query r) a /\ untold r
  end.
Proof. exact centre_kept. Qed.
Print Assumptions C62_service_centre.
(** the modem forgets its number when the parameters are set, and is told it again *)
Example C62_example : exists w a r b, connect (Some (lit "1234")) (start modem_init pin_script) = Done (Ok tt) w /\
  asked (trace w) = a ++ (csmp, r) :: b /\ smscNumber (dev w) = Some (lit "+2782") /\
  In (ask csca_query (says (lit "+CSCA: ""+2782"",145"))) a /\ In (ask (csca_set (lit "+2782")) ok) b.
Proof.
  eexists. exists (firstn 16 (asked (trace (last_of (connect (Some (lit "1234")) (start modem_init pin_script)))))), (Some ok),
    (skipn 17 (asked (trace (last_of (connect (Some (lit "1234")) (start modem_init pin_script)))))).
  split; [vm_compute; reflexivity|]. split; [vm_compute; reflexivity|]. split; [reflexivity|]. split; vm_compute; tauto.
Qed.
