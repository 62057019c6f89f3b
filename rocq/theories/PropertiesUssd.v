(** USSD. *)
From Verif Require Import Base ModemCore ModemSpec MonadProofs SendSpec TrackSpec UssdModel UssdSpec UssdProofs.

(** C55: what a response means.  One line: *)
Theorem C55_one_line : forall l, match parseCusdResponse [l] with
  | Ok u => exists status text rest, cusd_at l status text rest /\ u_message u = Some text /\ (u_active u = true <-> status = 49)
  | Err e => e = AttributeError /\ forall status text rest, ~ cusd_at l status text rest
  end.
Proof. exact parse_one. Qed.
Print Assumptions C55_one_line.
(** several lines: a response can go over several lines, and there can be several *)
Theorem C55_lines : forall l1 l2 ls, exists items, cusd_items (join [13; 10] (l1 :: l2 :: ls)) items /\ cusd_result items (parseCusdResponse (l1 :: l2 :: ls)).
Proof. exact parse_many. Qed.
Print Assumptions C55_lines.
(** the items are determined by the lines, *)
Theorem C55_items_unique : forall s l l', cusd_items s l -> cusd_items s l' -> l = l'.
Proof. intros s l l' H H'. exact (items_fun s l H l' H'). Qed.
Print Assumptions C55_items_unique.
(** and are those the modem sent, when it sends one a line *)
Theorem C55_sent : forall l1 l2 ls items, Forall2 cusd_line (l1 :: l2 :: ls) items -> cusd_result items (parseCusdResponse (l1 :: l2 :: ls)).
Proof. exact parse_plain. Qed.
Print Assumptions C55_sent.
(** a menu followed by a release, a text over two lines with a quote in it, a line
    without a text; a second item hidden in a text that contains the end of an item *)
Example C55_example :
  parseCusdResponse [lit "+CUSD: 1,""Menu"",15"; lit "+CUSD: 2,""bye"",0"] = Ok (mk_ussd false (Some (lit "Menu"))) /\
  parseCusdResponse [lit "+CUSD:1,""a ""b"""; lit "c"",15"; lit "OK"] = Ok (mk_ussd true (Some (lit "a ""b""" ++ [13; 10] ++ lit "c"))) /\
  parseCusdResponse [lit "+CUSD: 2"] = Err AttributeError /\
  parseCusdResponse [lit "+CUSD: 1,""dial "",1 or "",2"",15"] = Ok (mk_ussd true (Some (lit "dial "))).
Proof. vm_compute. auto. Qed.
Example C55_example_sent : exists items, Forall2 cusd_line [lit "+CUSD: 1,""Menu"",15"; lit "+CUSD: 2,""bye"",0"] items.
Proof.
  exists [(49, lit "Menu"); (50, lit "bye")]. constructor; [|constructor; [|constructor]].
  - exists [32], (lit "15"). split; [reflexivity|]. split; [repeat constructor|]. split; [reflexivity|]. split; [cbn; lia|]. split; [discriminate|repeat constructor].
  - exists [32], (lit "0"). split; [reflexivity|]. split; [repeat constructor|]. split; [reflexivity|]. split; [cbn; lia|]. split; [discriminate|repeat constructor].
Qed.

(** C63: a call of sendUssd whose response does not come with the acknowledgement gets
    the response of the last notification before it stops waiting, or times out; in
    any case later notifications are not waited for. *)
Theorem C63_response : forall m s sc w1 ns w2 x w3, sendUssd_start s (start m sc) = Done (Ok None) w1 -> ussd_notified w1 ns w2 -> sendUssd_finish w2 = Done x w3 ->
  ussdEvent (dev w3) = None /\ trace w3 = trace w1 /\ x = match last_response ns with Some u => Ok (Some u) | None => Err (TimeoutException None) end.
Proof. exact session_result. Qed.
Print Assumptions C63_response.
(** it waits only when the acknowledgement contains no response *)
Theorem C63_waits : forall m s sc w, sendUssd_start s (start m sc) = Done (Ok None) w -> ussdEvent (dev w) = Some false /\
  exists ls evs, trace w = evs /\ exchange (ussd_command s) [13] evs (Ok ls) /\ (length ls = 1%nat \/ Forall (fun l => ~ starts_with (lit "+CUSD") l) ls).
Proof. exact start_waits. Qed.
Print Assumptions C63_waits.
(** otherwise the response is the one in it, or the error of the command *)
Theorem C63_at_once : forall m s sc x w, sendUssd_start s (start m sc) = Done x w -> x <> Ok None -> ussdEvent (dev w) = None /\ exists y, exchange (ussd_command s) [13] (trace w) y /\
  match y with Err e => x = Err e | Ok ls => (exists l, In l ls /\ starts_with (lit "+CUSD") l) /\ x = match parseCusdResponse ls with Ok u => Ok (Some u) | Err e => Err e end end.
Proof. exact start_answers. Qed.
Print Assumptions C63_at_once.
(** a notification that nobody waits for is dropped *)
Theorem C63_not_waiting : forall w lines, ussdEvent (dev w) = None -> handleUssd lines w = Done (Ok tt) w.
Proof. exact handle_idle. Qed.
Print Assumptions C63_not_waiting.
Example C63_example : exists w1 w2 w3, sendUssd_start (lit "*100#") (start modem_init [Lines [lit "+CME ERROR: 14"]; Lines [lit "OK"]]) = Done (Ok None) w1 /\
  ussd_notified w1 [[lit "+CUSD: 0"]; [lit "+CUSD: 1,""Menu"",15"]] w2 /\
  sendUssd_finish w2 = Done (Ok (Some (mk_ussd true (Some (lit "Menu"))))) w3.
Proof.
  do 3 eexists. split; [vm_compute; reflexivity|]. split.
  - eapply un_cons; [vm_compute; reflexivity|]. eapply un_cons; [vm_compute; reflexivity|]. apply un_nil.
  - vm_compute. reflexivity.
Qed.
Example C63_example_at_once : exists w, sendUssd_start (lit "*100#") (start modem_init [Lines [lit "+CUSD: 2,""bye"",15"; lit "OK"]]) = Done (Ok (Some (mk_ussd false (Some (lit "bye"))))) w.
Proof. eexists. vm_compute. reflexivity. Qed.
