(** Properties C54 and C59: network registration, signal strength, simple queries. *)
From Verif Require Import Base ModemCore ModemSpec SmsModel TrackSpec CoverageSpec CoverageProofs CoverageTimer QueryProofs.

(** C54: when waitForNetworkCoverage returns, the modem was first searching, then
    registered (or gave no registration status), then without signal or busy, and
    finally reported the strength that is returned. *)
Theorem C54_returns : forall timer w ss w', waitForNetworkCoverage timer w = Done (Ok ss) w' ->
  exists S r1 W r2, script w = S ++ r1 :: W ++ r2 :: script w' /\ Forall searching S /\ registered r1 /\ Forall weak W /\ strong r2 ss /\
    asked (trace w') = asked (trace w) ++ map (ask (lit "AT+CREG?")) (S ++ [r1]) ++ map (ask (lit "AT+CSQ")) (W ++ [r2]).
Proof. exact coverage_returns. Qed.
Print Assumptions C54_returns.
(** and it does return on such replies, unless the timer fires *)
Theorem C54_complete : forall timer w S r1 W r2 ss rest, Forall (fun b => b = false) timer -> script w = S ++ r1 :: W ++ r2 :: rest ->
  Forall searching S -> registered r1 -> Forall weak W -> strong r2 ss -> exists w', waitForNetworkCoverage timer w = Done (Ok ss) w' /\ script w' = rest.
Proof. exact coverage_complete. Qed.
Print Assumptions C54_complete.
(** InvalidStateException: raised when the registration is denied or the modem does
    not search, and only then *)
Theorem C54_denied : forall timer w w', waitForNetworkCoverage timer w = Done (Err InvalidStateException) w' ->
  exists S r, script w = S ++ r :: script w' /\ Forall searching S /\ refused r.
Proof. exact coverage_denied. Qed.
Print Assumptions C54_denied.
Theorem C54_refused : forall timer w S r rest, Forall (fun b => b = false) timer -> script w = S ++ r :: rest -> Forall searching S -> refused r ->
  exists w', waitForNetworkCoverage timer w = Done (Err InvalidStateException) w'.
Proof. exact coverage_refused. Qed.
Print Assumptions C54_refused.
(** it times out only when the timer has fired or the modem is silent *)
Theorem C54_timeout : forall timer w d w', waitForNetworkCoverage timer w = Done (Err (TimeoutException d)) w' ->
  In true timer \/ exists ls, In (NoReply ls) (script w).
Proof. exact coverage_timeout. Qed.
Print Assumptions C54_timeout.
(** Once the timer has fired no further command is sent: TimeoutException follows the
    round under way, if that gave nothing, while searching *)
Theorem C54_fired : forall w S rest more, script w = S ++ rest -> Forall searching S -> exists w',
  waitForNetworkCoverage (repeat false (length S) ++ true :: more) w = Done (Err (TimeoutException None)) w' /\ script w' = rest.
Proof. exact fired_searching. Qed.
Print Assumptions C54_fired.
(** and while waiting for a signal (a round ends with a reply that is not busy); *)
Theorem C54_fired_later : forall w S r1 cs rest more, script w = S ++ r1 :: List.concat cs ++ rest -> Forall searching S -> registered r1 -> Forall weak_round cs -> exists w',
  waitForNetworkCoverage (repeat false (length S + 1 + length cs) ++ true :: more) w = Done (Err (TimeoutException None)) w' /\ script w' = rest.
Proof. exact fired_registered. Qed.
Print Assumptions C54_fired_later.
(** a signal found in a round that began in time is returned, even if the timer fires
    during that round, however long it takes *)
Theorem C54_in_time : forall w S r1 cs busy codes ls ss rest more, script w = S ++ r1 :: List.concat cs ++ busy ++ Lines ls :: rest -> Forall searching S -> registered r1 -> Forall weak_round cs ->
  all_busy busy codes -> strong (Lines ls) ss -> exists w',
  waitForNetworkCoverage (repeat false (length S + 1 + length cs) ++ false :: more) w = Done (Ok ss) w' /\ script w' = rest.
Proof. exact found_in_time. Qed.
Print Assumptions C54_in_time.
Definition creg (s : string) : reply := Lines [lit "+CREG: 0," ++ lit s; lit "OK"].
Definition csq (s : string) : reply := Lines [lit "+CSQ: " ++ lit s ++ lit ",99"; lit "OK"].
Definition value {A} (o : out A) : option (res A) := match o with Done x _ => Some x | Stuck _ => None end.
Example C54_example :
  value (waitForNetworkCoverage [false; false] (start modem_init [creg "2"; creg "4"; creg "5"; csq "99"; csq "0"; Lines [lit "+CME ERROR: 14"]; csq "18"])) = Some (Ok 18) /\
  value (waitForNetworkCoverage [] (start modem_init [creg "2"; creg "3"])) = Some (Err InvalidStateException) /\
  value (waitForNetworkCoverage [false; true] (start modem_init [creg "2"; creg "1"; csq "10"])) = Some (Err (TimeoutException None)) /\
  value (waitForNetworkCoverage [] (start modem_init [Lines [lit "ERROR"]; csq "10"])) = Some (Ok 10).
Proof. vm_compute. auto. Qed.
Example C54_fired_example :
  let sc := [creg "2"; creg "1"; Lines [lit "+CME ERROR: 14"]; csq "0"; csq "18"] in
  let left o := match o with Done x w => Some (x, length (script w)) | Stuck _ => None end in
  left (waitForNetworkCoverage [false; false; false; true] (start modem_init sc)) = Some (Err (TimeoutException None), 1%nat) /\
  left (waitForNetworkCoverage [false; false; false; false; true] (start modem_init sc)) = Some (Ok 18, 0%nat).
Proof. vm_compute. auto. Qed.
Example C54_example_hyp : searching (creg "2") /\ registered (creg "5") /\ weak (csq "99") /\ strong (csq "18") 18 /\ refused (creg "0").
Proof.
  assert (R : forall c s, is_digit c = true -> s = c - 48 -> registration [lit "+CREG: 0," ++ [c]; lit "OK"] s).
  { intros c s D ->. exists [], (lit "+CREG: 0," ++ [c]), [lit "OK"]. split; [reflexivity|]. split; [|constructor]. exists [32], 48, c, [].
    split; [reflexivity|]. split; [repeat constructor|]. split; [reflexivity|]. split; [auto|]. split; [left; reflexivity|reflexivity]. }
  assert (G : forall l, good_answer [l; lit "OK"]).
  { intro l. exists [l], (lit "OK"). split; [reflexivity|]. split; [intros (a & b & X)|discriminate].
    assert (L : length (lit "OK") = length (a ++ lit "ERROR" ++ b)) by (rewrite X; reflexivity). rewrite !app_length in L. cbn in L. lia. }
  split; [exists [lit "+CREG: 0," ++ [50]; lit "OK"], 2; split; [reflexivity|split; [apply R; reflexivity|cbn; intuition discriminate]]|].
  split; [exists [lit "+CREG: 0," ++ [53]; lit "OK"]; split; [reflexivity|split; [discriminate|right; left; apply R; reflexivity]]|].
  split; [right; exists [lit "+CSQ: 99,99"; lit "OK"], (-1); split; [reflexivity|split; [apply G|split; [|lia]]]|].
  { exists (lit "+CSQ: 99,99"), [lit "OK"], 99. split; [reflexivity|split; [|reflexivity]]. exists [32], (lit "99"), (lit "99"). repeat split; [repeat constructor|discriminate|repeat constructor]. }
  split; [exists [lit "+CSQ: 18,99"; lit "OK"]; split; [reflexivity|split; [apply G|split; [|lia]]]|].
  { exists (lit "+CSQ: 18,99"), [lit "OK"], 18. split; [reflexivity|split; [|reflexivity]]. exists [32], (lit "18"), (lit "99"). repeat split; [repeat constructor|discriminate|repeat constructor]. }
  exists [lit "+CREG: 0," ++ [48]; lit "OK"]. split; [reflexivity|left; apply R; reflexivity].
Qed.

(** C59: signalStrength returns exactly what the first line of the first answer that
    is not "busy" says. *)
Theorem C59_signal : forall w ss, (exists w', signalStrength w = Done (Ok ss) w') <->
  exists busy codes ls rest, script w = busy ++ Lines ls :: rest /\ all_busy busy codes /\ good_answer ls /\ signal ls ss.
Proof. exact strength_exact. Qed.
Print Assumptions C59_signal.
(** networkName likewise *)
Theorem C59_network : forall w x, (exists w', networkName w = Done (Ok x) w') <->
  exists busy codes ls rest, script w = busy ++ Lines ls :: rest /\ all_busy busy codes /\ good_answer ls /\
    match x with Some name => first_says cops_line ls name | None => nothing_said cops_line ls end.
Proof. exact network_exact. Qed.
Print Assumptions C59_network.
(** the SMSC number is asked for until the modem tells it, and then remembered *)
Theorem C59_smsc : forall w x w', smscNumber (dev w) = None -> get_smsc w = Done (Ok x) w' ->
  match x with
  | Some n => exists busy codes ls, script w = busy ++ Lines ls :: script w' /\ all_busy busy codes /\ good_answer ls /\ first_says csca_line ls n /\ smscNumber (dev w') = Some n
  | None => smscNumber (dev w') = None /\ ((exists busy codes ls, script w = busy ++ Lines ls :: script w' /\ all_busy busy codes /\ good_answer ls /\ nothing_said csca_line ls) \/
      exists busy codes before line, script w = busy ++ Lines (before ++ [line]) :: script w' /\ all_busy busy codes /\ cm_error 83 330 line)
  end.
Proof. exact smsc_asked. Qed.
Print Assumptions C59_smsc.
Theorem C59_smsc_exact : forall w x, smscNumber (dev w) = None -> (exists w', get_smsc w = Done (Ok x) w') <->
  exists busy codes ls rest, script w = busy ++ Lines ls :: rest /\ all_busy busy codes /\
    (good_answer ls /\ match x with Some n => first_says csca_line ls n | None => nothing_said csca_line ls end \/
     x = None /\ exists before line, ls = before ++ [line] /\ cm_error 83 330 line).
Proof. exact smsc_exact. Qed.
Print Assumptions C59_smsc_exact.
Theorem C59_smsc_cached : forall w n, smscNumber (dev w) = Some n -> get_smsc w = Done (Ok (Some n)) w.
Proof. exact smsc_cached. Qed.
Print Assumptions C59_smsc_cached.
Example C59_example :
  value (networkName (start modem_init [Lines [lit "+COPS: 0,0,""voda,com"",2"; lit "OK"]])) = Some (Ok (Some (lit "voda,com"))) /\
  value (networkName (start modem_init [Lines [lit "+COPS: 0"; lit "OK"]])) = Some (Ok None) /\
  value ((do a <- get_smsc; do b <- get_smsc; ret (a, b)) (start modem_init [Lines [lit "+CSCA: ""+2782"",145"; lit "OK"]])) = Some (Ok (Some (lit "+2782"), Some (lit "+2782"))) /\
  value (get_smsc (start modem_init [Lines [lit "+CMS ERROR: 330"]])) = Some (Ok None).
Proof. vm_compute. auto. Qed.
