(** Specification vocabulary for the network queries. *)
From Verif Require Import Base ModemCore ModemSpec SendSpec.

(** "+CREG: <n>,<status>" *)
Definition creg_line (line : str) (status : Z) : Prop :=
  exists sp n s nl, line = lit "+CREG:" ++ sp ++ [n; 44; s] ++ nl /\ blank sp /\ is_digit n = true /\ is_digit s = true /\
    line_end nl /\ status = s - 48.
(** the first such line of a response *)
Definition registration (ls : list str) (status : Z) : Prop :=
  exists before line after, ls = before ++ line :: after /\ creg_line line status /\ Forall (fun l => forall s, ~ creg_line l s) before.
Definition no_registration (ls : list str) : Prop := Forall (fun l => forall s, ~ creg_line l s) ls.

(** "+CSQ: <strength>,..." in the first line; 99 stands for "unknown" *)
Definition csq_line (line : str) (strength : Z) : Prop :=
  exists sp ds more, line = lit "+CSQ:" ++ sp ++ ds ++ 44 :: more /\ blank sp /\ digits ds /\ strength = dec_value ds.
Definition signal (ls : list str) (ss : Z) : Prop :=
  exists line more strength, ls = line :: more /\ csq_line line strength /\ ss = (if strength =? 99 then -1 else strength).
Definition good_answer (ls : list str) : Prop := exists before line, ls = before ++ [line] /\ good_line line.

(** ** The replies while waiting for network coverage *)
(** not registered but searching *)
Definition searching (r : reply) : Prop :=
  exists ls status, r = Lines ls /\ registration ls status /\ ~ In status [0; 1; 3; 5].
(** registered, or no registration status *)
Definition registered (r : reply) : Prop :=
  exists ls, r = Lines ls /\ ls <> [] /\ (registration ls 1 \/ registration ls 5 \/ no_registration ls).
Definition refused (r : reply) : Prop :=
  exists ls, r = Lines ls /\ (registration ls 0 \/ registration ls 3).
(** asked for the signal strength the modem is busy, or there is no signal *)
Definition weak (r : reply) : Prop :=
  (exists code, busy_reply code r) \/ exists ls ss, r = Lines ls /\ good_answer ls /\ signal ls ss /\ ss <= 0.
Definition strong (r : reply) (ss : Z) : Prop :=
  exists ls, r = Lines ls /\ good_answer ls /\ signal ls ss /\ 0 < ss.

(** asked for the signal strength: busy replies, then no signal *)
Definition weak_round (c : list reply) : Prop :=
  exists busy codes ls ss, c = busy ++ [Lines ls] /\ all_busy busy codes /\ good_answer ls /\ signal ls ss /\ ss <= 0.

(** what was asked, and the answers *)
Definition asked (tr : list event) : list (str * option reply) :=
  flat_map (fun e => match e with EWrite t r => [(t, r)] | _ => [] end) tr.
Definition ask (command : str) (r : reply) : str * option reply := (command ++ [13], Some r).

(** ** Other queries *)
(** "+COPS: <mode>,<format>,"<name>"" with optionally a comma and digits behind *)
Definition cops_line (line name : str) : Prop :=
  exists m f comma ds nl, line = lit "+COPS: " ++ [m; 44; f; 44; 34] ++ name ++ 34 :: comma ++ ds ++ nl /\
    is_digit m = true /\ is_digit f = true /\ name <> [] /\ ~ In 10 name /\ (comma = [] \/ comma = [44]) /\
    Forall (fun c => is_digit c = true) ds /\ line_end nl.
(** "+CSCA: "<number>",<type>" *)
Definition csca_line (line number : str) : Prop :=
  exists sp ds nl, line = lit "+CSCA:" ++ sp ++ 34 :: number ++ [34; 44] ++ ds ++ nl /\
    blank sp /\ number <> [] /\ ~ In 44 number /\ digits ds /\ line_end nl.
(** the first line of a response that says something of a kind *)
Definition first_says {X} (says : str -> X -> Prop) (ls : list str) (x : X) : Prop :=
  exists before line after, ls = before ++ line :: after /\ says line x /\ Forall (fun l => forall y, ~ says l y) before.
Definition nothing_said {X} (says : str -> X -> Prop) (ls : list str) : Prop := Forall (fun l => forall y, ~ says l y) ls.
