(** Threads that collect stored messages, next to threads that handle notifications:
    the modem's store, the threads together, and what is observed. *)
From Coq Require Import Permutation.
From Verif Require Import Base PduModel ModemCore ModemSpec SendSpec TrackSpec CoverageSpec SmsModel StoreSpec ListSpec HandlerModel HandlerSpec CollectModel.

(** ** Messages *)
Definition stat_of (s : stored_sms) : Z := match s with Received st _ _ _ _ => st | Report st _ _ _ _ _ => st end.
(** equal, perhaps apart from the status (unread, read) *)
Definition same_sms (s s' : stored_sms) : Prop :=
  match s, s' with
  | Received _ n t x c, Received _ n' t' x' c' => n = n' /\ t = t' /\ x = x' /\ c = c'
  | Report _ r n t d v, Report _ r' n' t' d' v' => r = r' /\ n = n' /\ t = t' /\ d = d' /\ v = v'
  | _, _ => False
  end.
(** the text of a stored message can be read, and says this *)
Definition readable (mode : bool) (content : list str) : Prop := exists s, reads_as mode content s.
Definition says (mode : bool) (content : list str) (s : stored_sms) : Prop := exists s', reads_as mode content s' /\ same_sms s' s.

(** ** The device *)
(** A modem may change the status of messages when they are read or listed: the cells
    in use are the same, and the messages are the same apart from that. *)
Definition marks (mode : bool) (content content' : list str) : Prop :=
  content' = content \/ exists s s', reads_as mode content s /\ reads_as mode content' s' /\ same_sms s s'.
Definition touched (mode : bool) (c c' : cells) : Prop := forall mem i,
  match c mem i, c' mem i with
  | None, None => True
  | Some content, Some content' => marks mode content content'
  | _, _ => False
  end.
(** what a response to AT+CMGL says *)
Definition describes (mode : bool) (answer : list str) (es : list (Z * stored_sms)) : Prop :=
  if mode then taken_text answer es else well_formed answer es.
Definition wiped (c : cells) (mem : str) : cells := fun m i => if str_eqb m mem then None else c m i.

(** What it answers and does, and which messages it removes.  It may always be busy or
    fail, and then does nothing.  AT+CMGL lists the messages of the selected memory
    that have the status (4: all of them). *)
Inductive serves (mode : bool) (d : device) : str -> reply -> list (Z * list str) -> device -> Prop :=
| sv_busy text code r : busy_reply code r -> serves mode d text r [] d
| sv_fail text r : failing r -> serves mode d text r [] d
| sv_select mem ls : ~ In 34 mem -> good_answer ls ->
    serves mode d (lit "AT+CPMS=" ++ 34 :: mem ++ [34; 13]) (Lines ls) [] (mk_device mem (stored d))
| sv_read ds content c' : digits ds -> stored d (sel d) (dec_value ds) = Some content -> touched mode (stored d) c' ->
    serves mode d (lit "AT+CMGR=" ++ ds ++ [13]) (Lines (content ++ [lit "OK"])) [] (mk_device (sel d) c')
| sv_delete ds ls : digits ds -> good_answer ls ->
    serves mode d (lit "AT+CMGD=" ++ ds ++ lit ",0" ++ [13]) (Lines ls)
      (match stored d (sel d) (dec_value ds) with Some content => [(dec_value ds, content)] | None => [] end)
      (mk_device (sel d) (put (stored d) (sel d) (dec_value ds) None))
| sv_list st p answer es c' : status_param mode st p -> good_answer answer -> describes mode answer es -> NoDup (map fst es) ->
    (forall i s, In (i, s) es <-> exists content, stored d (sel d) i = Some content /\ reads_as mode content s /\ (st = 4 \/ stat_of s = st)) ->
    touched mode (stored d) c' ->
    serves mode d (lit "AT+CMGL=" ++ p ++ [13]) (Lines answer) [] (mk_device (sel d) c')
| sv_wipe ls gone : good_answer ls -> NoDup (map fst gone) -> (forall i content, In (i, content) gone <-> stored d (sel d) i = Some content) ->
    serves mode d (lit "AT+CMGD=1,4" ++ [13]) (Lines ls) gone (mk_device (sel d) (wiped (stored d) (sel d))).

(** ** Threads *)
Record collector := mk_collector { c_memory : option str; c_handing : bool; c_statuses : list Z; c_spot : spot }.
Inductive thread := Notified (h : handler) | Collecting (c : collector).
Record site := mk_site { believed : option str; machine : device; threads : list thread }.

Inductive thread_step (mode : bool) : option str -> thread -> option (str * reply) -> list stored_sms -> option str -> thread -> Prop :=
| ts_handler attr h lab said attr' p : handler_step mode (h_memory h) (h_index h) attr (h_place h) lab said attr' p ->
    thread_step mode attr (Notified h) lab (handed said) attr' (Notified (mk_handler (h_memory h) (h_index h) p))
| ts_collector attr c lab said attr' sts p : collector_step mode (c_memory c) (c_handing c) attr (c_statuses c) (c_spot c) lab said attr' sts p ->
    thread_step mode attr (Collecting c) lab said attr' (Collecting (mk_collector (c_memory c) (c_handing c) sts p)).

(** the messages that a thread has read and is going to delete, with their indices *)
Definition member (is : list Z) (e : Z * stored_sms) : bool := existsb (Z.eqb (fst e)) is.
Definition claims (t : thread) : list (Z * stored_sms) :=
  match t with
  | Notified h => match h_place h with Erase s => [(dec_value (h_index h), s)] | _ => [] end
  | Collecting c => match c_spot c with CErase messages listed rest => filter (member rest) (combine listed messages) | _ => [] end
  end.
(** the messages that it has deleted and is going to give to the application *)
Definition holds (t : thread) : list stored_sms :=
  match t with
  | Notified h => match h_place h with Deliver s => [s] | _ => [] end
  | Collecting c =>
      match c_spot c with
      | CErase messages listed rest => map snd (filter (fun e => negb (member rest e)) (combine listed messages))
      | CHand messages => messages
      | _ => []
      end
  end.
Definition failed (t : thread) : bool :=
  match t with
  | Notified h => match h_place h with Failed _ => true | _ => false end
  | Collecting c => match c_spot c with CFail _ => true | _ => false end
  end.

(** ** What is observed *)
Inductive seen :=
| Came (mem : str) (i : Z) (content : list str)   (* a message arrives *)
| Began (c : collector)                           (* the application calls a method *)
| Gone (mem : str) (i : Z) (content : list str)   (* the modem removes a message *)
| Told (s : stored_sms)                           (* a message is given to the application *)
| Dropped (s : stored_sms).                       (* a thread fails with the deleted message in its hands *)

(** A message arrives in a free cell; a thread is started for its notification, if
    there is one.  The application calls a method in some thread.  One of the threads
    makes a step, with the device answering. *)
Inductive site_step (mode : bool) : site -> list seen -> site -> Prop :=
| ss_arrive attr d ts mem ds content (notified : bool) : mem <> [] -> ~ In 34 mem -> digits ds -> stored d mem (dec_value ds) = None ->
    site_step mode (mk_site attr d ts) [Came mem (dec_value ds) content]
      (mk_site attr (mk_device (sel d) (put (stored d) mem (dec_value ds) (Some content)))
        (ts ++ if notified then [Notified (mk_handler mem ds Compare)] else []))
| ss_begin attr d ts c : c_spot c = CCompare -> c_statuses c <> [] ->
    site_step mode (mk_site attr d ts) [Began c] (mk_site attr d (ts ++ [Collecting c]))
| ss_quiet before t after attr d said attr' t' : thread_step mode attr t None said attr' t' ->
    site_step mode (mk_site attr d (before ++ t :: after)) (map Told said) (mk_site attr' d (before ++ t' :: after))
| ss_write before t after attr d text r gone d' said attr' t' : thread_step mode attr t (Some (text, r)) said attr' t' -> serves mode d text r gone d' ->
    site_step mode (mk_site attr d (before ++ t :: after))
      (map (fun e => Gone (sel d) (fst e) (snd e)) gone ++ map Told said ++ (if failed t' then map Dropped (holds t) else []))
      (mk_site attr' d' (before ++ t' :: after)).
(** runs, all of whose steps have the property [P] *)
Inductive evolves (mode : bool) (P : site -> list seen -> site -> Prop) (s : site) : list seen -> site -> Prop :=
| ev_nil : evolves mode P s [] s
| ev_step obs s1 a s2 : evolves mode P s obs s1 -> site_step mode s1 a s2 -> P s1 a s2 -> evolves mode P s (obs ++ a) s2.

Definition any_step (s1 : site) (a : list seen) (s2 : site) : Prop := True.
(** no message arrives in a cell that some thread is still going to delete *)
Definition no_reuse (s1 : site) (a : list seen) (s2 : site) : Prop := forall mem i content t, In (Came mem i content) a -> In t (threads s1) -> ~ In i (map fst (claims t)).
(** at most one thread at a time has messages that it has read and is going to delete *)
Definition one_at_a_time (s1 : site) (a : list seen) (s2 : site) : Prop :=
  (length (filter (fun t => match claims t with [] => false | _ => true end) (threads s2)) <= 1)%nat.

(** all messages are in one memory and can be read; the methods called work on it, and
    none deletes with AT+CMGD=1,4 *)
Definition ordinary (mode : bool) (mem : str) (o : seen) : Prop :=
  match o with
  | Came m _ content => m = mem /\ readable mode content
  | Began c => (c_memory c = None \/ c_memory c = Some mem) /\ Forall (fun st => 0 <= st /\ st <> 4) (c_statuses c)
  | _ => True
  end.
Definition came (obs : list seen) : list (list str) := flat_map (fun o => match o with Came _ _ c => [c] | _ => [] end) obs.
Definition gone (obs : list seen) : list (list str) := flat_map (fun o => match o with Gone _ _ c => [c] | _ => [] end) obs.
Definition told (obs : list seen) : list stored_sms := flat_map (fun o => match o with Told s => [s] | _ => [] end) obs.
Definition dropped (obs : list seen) : list stored_sms := flat_map (fun o => match o with Dropped s => [s] | _ => [] end) obs.

(** what the observations say about the store, up to changes of status *)
Inductive ledger (mode : bool) : cells -> list seen -> cells -> Prop :=
| lg_nil c c' : touched mode c c' -> ledger mode c [] c'
| lg_came c c1 mem i content obs c' : touched mode c c1 -> c1 mem i = None -> ledger mode (put c1 mem i (Some content)) obs c' ->
    ledger mode c (Came mem i content :: obs) c'
| lg_gone c c1 mem i content obs c' : touched mode c c1 -> c1 mem i = Some content -> ledger mode (put c1 mem i None) obs c' ->
    ledger mode c (Gone mem i content :: obs) c'
| lg_other c o obs c' : (match o with Came _ _ _ | Gone _ _ _ => False | _ => True end) -> ledger mode c obs c' -> ledger mode c (o :: obs) c'.

(** One collector on its own: what it puts on the wire with the replies, and what it
    gives to the application. *)
Inductive lone (mode : bool) (memory : option str) (handing : bool) :
  option str -> list Z -> spot -> list (str * option reply) -> list stored_sms -> option str -> list Z -> spot -> Prop :=
| ln_refl attr sts p : lone mode memory handing attr sts p [] [] attr sts p
| ln_quiet attr sts p said attr1 sts1 p1 asks told attr2 sts2 p2 : collector_step mode memory handing attr sts p None said attr1 sts1 p1 ->
    lone mode memory handing attr1 sts1 p1 asks told attr2 sts2 p2 -> lone mode memory handing attr sts p asks (said ++ told) attr2 sts2 p2
| ln_write attr sts p text r said attr1 sts1 p1 asks told attr2 sts2 p2 : collector_step mode memory handing attr sts p (Some (text, r)) said attr1 sts1 p1 ->
    lone mode memory handing attr1 sts1 p1 asks told attr2 sts2 p2 -> lone mode memory handing attr sts p ((text, Some r) :: asks) (said ++ told) attr2 sts2 p2.
