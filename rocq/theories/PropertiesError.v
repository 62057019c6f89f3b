(** The modem's errors as the application sees them. *)
From Verif Require Import Base ModemCore ModemSpec DemoModel ErrorModel ErrorSpec ErrorProofs.

(** C96: the error for +CME ERROR: n carries the command, the family and the number;
    [except] clauses catch it by its number; its text names the number. *)
Theorem C96_cme : forall command n, 0 <= n -> exists o, construct CCme [AStr command; AInt n] = Ok o /\ carries o command (lit "CME") n /\
  (forall d, caught o d = true <-> d = CBase \/ d = CCommand \/ d = CCme \/ d = CSecurity /\ security_number n \/ exists r, own_class (lit "CME") n d r) /\
  exists t, text o = Some t /\ error_text (lit "CME") n t.
Proof. exact cme_whole. Qed.
Print Assumptions C96_cme.
Theorem C96_cms : forall command n, 0 <= n -> exists o, construct CCms [AStr command; AInt n] = Ok o /\ carries o command (lit "CMS") n /\
  (forall d, caught o d = true <-> d = CBase \/ d = CCommand \/ d = CCms \/ exists r, own_class (lit "CMS") n d r) /\
  exists t, text o = Some t /\ error_text (lit "CMS") n t.
Proof. exact cms_whole. Qed.
Print Assumptions C96_cms.
(** the text tells which error it was *)
Theorem C96_text : forall f n f' n' t, length f = length f' -> error_text f n t -> error_text f' n' t -> f = f' /\ n = n'.
Proof. exact text_tells. Qed.
Print Assumptions C96_text.
Example C96_example :
  (exists o, construct CCme [AStr (lit "AT+CPIN?"); AInt 11] = Ok o /\ text o = Some (lit "CME 11 (SIM card PIN is required)") /\ caught o CPin = true /\ caught o CWrongPin = false) /\
  (exists o, construct CCme [AStr (lit "ATZ"); AInt 100] = Ok o /\ text o = Some (lit "CME 100") /\ caught o CSecurity = false) /\
  (exists o, construct CCms [AStr (lit "AT+CMGS=18"); AInt 330] = Ok o /\ text o = Some (lit "CMS 330 (SMSC number not set)") /\ caught o CCme = false) /\
  (exists o, construct CCms [AStr (lit "AT+CMGS=18"); AInt 11] = Ok o /\ text o = Some (lit "CMS 11") /\ caught o CPin = false).
Proof. repeat split; eexists; split; try reflexivity; split; try reflexivity; try (split; reflexivity). Qed.

(** the classes with a number of their own need no number *)
Theorem C96_own : forall family n c r a, own_class family n c r -> construct c [a] = construct (if str_eqb family (lit "CME") then CCme else CCms) [a; AInt n].
Proof. exact call_one. Qed.
Print Assumptions C96_own.
(** Any class of a family, called with any number: command, family and number are as
    given; the class is that of the number if it has one, else the called one.  So a
    PinRequiredError with another number than 11 exists only if it was constructed with
    that number, and PinRequiredError(command, 12) is no PinRequiredError. *)
Theorem C96_direct : forall c a n,
  (In c [CCme; CSecurity; CPin; CWrongPin; CPuk] -> exists o, construct c [a; AInt n] = Ok o /\
     (attr o (lit "command") = Some a /\ attr o (lit "type") = Some (AStr (lit "CME")) /\ attr o (lit "code") = Some (AInt n)) /\
     ((exists r, own_class (lit "CME") n (o_class o) r) \/ ordinary_number (lit "CME") n /\ o_class o = c)) /\
  (In c [CCms; CSmsc] -> exists o, construct c [a; AInt n] = Ok o /\
     (attr o (lit "command") = Some a /\ attr o (lit "type") = Some (AStr (lit "CMS")) /\ attr o (lit "code") = Some (AInt n)) /\
     ((exists r, own_class (lit "CMS") n (o_class o) r) \/ ordinary_number (lit "CMS") n /\ o_class o = c)).
Proof. exact direct. Qed.
Print Assumptions C96_direct.
Example C96_direct_example :
  (exists o, construct CPin [AStr (lit "AT"); AInt 12] = Ok o /\ o_class o = CPuk /\ caught o CPin = false) /\
  (exists o, construct CPin [AStr (lit "AT"); AInt 99] = Ok o /\ o_class o = CPin /\ text o = Some (lit "CME 99 (SIM card PIN is required)")).
Proof. split; eexists; repeat split. Qed.
(** the plain error *)
Theorem C96_plain : forall command, exists o, construct CCommand [AStr command] = Ok o /\ (exists u, construct CCommand [] = Ok u /\ text u = Some [] /\ o_class u = CCommand) /\
  attr o (lit "command") = Some (AStr command) /\ attr o (lit "type") = Some ANone /\ attr o (lit "code") = Some ANone /\ text o = Some command /\
  forall d, caught o d = true <-> d = CBase \/ d = CCommand.
Proof. exact plain. Qed.
Print Assumptions C96_plain.
(** a plain error with any arguments: without a family or without a number the text is
    the command *)
Theorem C96_any_plain : forall command type code, exists o, construct CCommand [command; type; code] = Ok o /\ o_class o = CCommand /\
  attr o (lit "command") = Some command /\ attr o (lit "type") = Some type /\ attr o (lit "code") = Some code /\
  (type <> ANone -> code <> ANone -> text o = Some (show type ++ lit " " ++ show code)) /\
  (type = ANone \/ code = ANone -> command <> ANone -> text o = Some (show command)) /\
  (type = ANone \/ code = ANone -> command = ANone -> text o = Some []) /\
  construct CCommand [command; type] = construct CCommand [command; type; ANone] /\ construct CCommand [command] = construct CCommand [command; ANone; ANone] /\
  construct CCommand [] = construct CCommand [ANone; ANone; ANone].
Proof. exact any_plain. Qed.
Print Assumptions C96_any_plain.
Example C96_any_plain_example : exists o, construct CCommand [AStr (lit "ATZ"); AStr (lit "CME")] = Ok o /\ text o = Some (lit "ATZ").
Proof. eexists. split; reflexivity. Qed.
(** the numbers of arguments; a wrong one is a TypeError, except for a class that is
    given the number of another *)
Theorem C96_arguments : forall c args, (exists o, construct c args = Ok o) /\ (takes c (length args) \/ astray c args) \/
  construct c args = Err TypeError /\ ~ (takes c (length args) \/ astray c args).
Proof. exact count_args. Qed.
Print Assumptions C96_arguments.
Example C96_arguments_example : construct CCme [AStr (lit "AT")] = Err TypeError /\ construct CPin [AStr (lit "AT"); AInt 11; ANone] = Err TypeError /\
  exists o, construct CPin [AStr (lit "AT"); AInt 12; ANone] = Ok o.
Proof. split; [reflexivity|]. split; [reflexivity|]. eexists. reflexivity. Qed.
(** which [except] clauses catch which class *)
Theorem C96_handlers : forall c d, issubclass c d = true <-> In d (handlers c).
Proof. exact issub_handlers. Qed.
Print Assumptions C96_handlers.
(** the data of a timeout and the cause of an interruption *)
Theorem C96_carried : forall a b, (exists o, construct CTimeout [a] = Ok o /\ attr o (lit "data") = Some a /\ o_class o = CTimeout) /\
  (exists o, construct CTimeout [] = Ok o /\ attr o (lit "data") = Some ANone) /\
  (exists o, construct CInterrupted [a; b] = Ok o /\ attr o (lit "cause") = Some b /\ text o = Some (show a) /\ o_class o = CInterrupted) /\
  exists o, construct CInterrupted [a] = Ok o /\ attr o (lit "cause") = Some ANone /\ text o = Some (show a).
Proof. exact carried. Qed.
Print Assumptions C96_carried.

(** what these texts are *)
Theorem C96_shown : forall a, shown_as a (show a).
Proof. exact show_is. Qed.
Print Assumptions C96_shown.
Example C96_shown_example : shown_as (AInt (-17)) (lit "-17") /\ shown_as ANone (lit "None") /\ ~ shown_as (AInt 17) (lit "017").
Proof. split; [|split]; [exact (show_is (AInt (-17)))|reflexivity|]. intros (_ & _ & [H|H]); [discriminate H|]. destruct (H (lit "17")). reflexivity. Qed.

(** What write raises for an error line: the error of C96_cme and C96_cms; and
    [except CommandError] catches the refusals of the modem and nothing else. *)
Theorem C96_raised : forall data ls line kind n e, outcome data (Lines (ls ++ [line])) (Err e) -> cm_error kind n line -> ~ busy_code n ->
  exists o family, object_of e = Some o /\ carries o data family n /\ (kind = 69 /\ family = lit "CME" \/ kind = 83 /\ family = lit "CMS") /\ exists t, text o = Some t /\ error_text family n t.
Proof. exact raised. Qed.
Print Assumptions C96_raised.
Theorem C96_refusals : forall data r e, not_busy r -> outcome data r (Err e) -> ((exists c, class_of e = Some c /\ issubclass c CCommand = true) <->
  exists ls line, r = Lines (ls ++ [line]) /\ (error_line line \/ line = lit "COMMAND NOT SUPPORT")).
Proof. exact refusals. Qed.
Print Assumptions C96_refusals.
(** the exceptions of the other model files are these objects, and the tests these files
    make on them are isinstance *)
Theorem C96_is_model : forall command n e,
  (exists o, object_of (mk_CmeError command n) = Some o /\ construct CCme [AStr command; AInt n] = Ok o) /\
  (exists o, object_of (mk_CmsError command n) = Some o /\ construct CCms [AStr command; AInt n] = Ok o) /\
  (forall o, object_of e = Some o -> class_of e = Some (o_class o)) /\
  (is_CommandError e = true <-> exists c, class_of e = Some c /\ issubclass c CCommand = true) /\
  (is_Interrupted e = true <-> exists c, class_of e = Some c /\ issubclass c CInterrupted = true) /\
  (cme_code e = Some n <-> exists o, object_of e = Some o /\ caught o CCme = true /\ attr o (lit "code") = Some (AInt n)) /\
  ((e = EncodingError <-> class_of e = Some CEncoding) /\ ((exists d, e = TimeoutException d) <-> class_of e = Some CTimeout) /\ (e = InvalidStateException <-> class_of e = Some CInvalid) /\
   (forall c, exists o, object_of (CommandError (Some c)) = Some o /\ construct CCommand [AStr c] = Ok o) /\ exists o, object_of (CommandError None) = Some o /\ construct CCommand [] = Ok o).
Proof. exact is_model. Qed.
Print Assumptions C96_is_model.
Example C96_raised_example : exists e, outcome (lit "AT+CPIN?") (Lines [lit "+CME ERROR: 11"]) (Err e) /\ cm_error 69 11 (lit "+CME ERROR: 11") /\ class_of e = Some CPin.
Proof.
  assert (C : cm_error 69 11 (lit "+CME ERROR: 11")).
  { split; [left; reflexivity|]. exists (lit "11"), []. split; [reflexivity|]. split; [split; [discriminate|repeat constructor]|]. split; [left; reflexivity|reflexivity]. }
  exists (PinRequiredError (lit "AT+CPIN?") 11). split; [|split; [exact C|reflexivity]]. apply (oc_code _ [] _ 69 11); auto; [intros [F|F]; discriminate F|constructor].
Qed.
