(** Several notification handlers at the same time. *)
From Verif Require Import Base PduModel ModemCore ModemSpec SendSpec TrackSpec CoverageSpec SmsModel StoreSpec HandlerModel.

Record handler := mk_handler { h_memory : str; h_index : str; h_place : place }.
Record system := mk_system { attribute : option str; modem_device : device; handlers : list handler }.

(** the handler has just taken its message out of the store *)
Definition took (h : handler) (p : place) : list act :=
  match h_place h, p with
  | Erase _, Deliver s => [Passed (h_memory h) (dec_value (h_index h)) s]
  | _, _ => []
  end.
Definition handed (said : option stored_sms) : list stored_sms := match said with Some s => [s] | None => [] end.

(** What can happen: a message arrives in a free cell, and a thread is started for its
    notification; one of the threads makes a step, with the device answering.  A step
    is labelled with the arrivals and the deletions of messages by their handlers
    ([Passed]), and with the messages handed to the callback. *)
Inductive sys_step (mode : bool) : system -> list act -> list stored_sms -> system -> Prop :=
| sys_arrive attr d hs mem ds content : mem <> [] -> ~ In 34 mem -> digits ds -> stored d mem (dec_value ds) = None ->
    sys_step mode (mk_system attr d hs) [Arrived mem (dec_value ds) content] []
      (mk_system attr (mk_device (sel d) (put (stored d) mem (dec_value ds) (Some content))) (hs ++ [mk_handler mem ds Compare]))
| sys_quiet before h after attr d said attr' p :
    handler_step mode (h_memory h) (h_index h) attr (h_place h) None said attr' p ->
    sys_step mode (mk_system attr d (before ++ h :: after)) [] (handed said)
      (mk_system attr' d (before ++ mk_handler (h_memory h) (h_index h) p :: after))
| sys_write before h after attr d text r d' said attr' p :
    handler_step mode (h_memory h) (h_index h) attr (h_place h) (Some (text, r)) said attr' p -> answers d text r d' ->
    sys_step mode (mk_system attr d (before ++ h :: after)) (took h p) (handed said)
      (mk_system attr' d' (before ++ mk_handler (h_memory h) (h_index h) p :: after)).
Inductive runs (mode : bool) (s : system) : list act -> list stored_sms -> system -> Prop :=
| rs_nil : runs mode s [] [] s
| rs_step acts told s1 a t s2 : runs mode s acts told s1 -> sys_step mode s1 a t s2 -> runs mode s (acts ++ a) (told ++ t) s2.

(** only messages for one memory arrive *)
Definition arrives_in (mem : str) (a : act) : Prop := match a with Arrived m _ _ => m = mem | Passed _ _ _ => True end.
(** the messages taken out of the store; those not handed over yet *)
Definition taken_out (acts : list act) : list stored_sms := flat_map (fun a => match a with Passed _ _ s => [s] | _ => [] end) acts.
Definition in_flight (hs : list handler) : list stored_sms := flat_map (fun h => match h_place h with Deliver s => [s] | _ => [] end) hs.

(** One handler on its own: what it puts on the wire with the replies, and what it
    hands over. *)
Inductive alone (mode : bool) (memory i : str) : option str -> place -> list (str * option reply) -> list stored_sms -> option str -> place -> Prop :=
| al_refl attr p : alone mode memory i attr p [] [] attr p
| al_quiet attr p said attr1 p1 asks told attr2 p2 : handler_step mode memory i attr p None said attr1 p1 ->
    alone mode memory i attr1 p1 asks told attr2 p2 -> alone mode memory i attr p asks (handed said ++ told) attr2 p2
| al_write attr p text r said attr1 p1 asks told attr2 p2 : handler_step mode memory i attr p (Some (text, r)) said attr1 p1 ->
    alone mode memory i attr1 p1 asks told attr2 p2 -> alone mode memory i attr p ((text, Some r) :: asks) (handed said ++ told) attr2 p2.
(** how a handler has ended *)
Definition ended (p : place) (x : res unit) : Prop :=
  match x with Ok _ => exists s, p = Delivered s | Err e => p = Failed e end.
