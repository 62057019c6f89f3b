(** What AT+CMGL responses say, and what listing and deleting do. *)
From Verif Require Import Base DateModel UtilModel PduModel ModemCore ModemSpec SendSpec TrackSpec CoverageSpec SmsModel StoreSpec.

(** ** PDU mode *)
(** "+CMGL: <index>,<stat>,..." *)
Definition cmgl_header (line : str) (index stat : Z) : Prop :=
  exists sp1 is sp2 ss more nl, line = lit "+CMGL:" ++ sp1 ++ is ++ 44 :: sp2 ++ ss ++ 44 :: more ++ nl /\
    blank sp1 /\ digits is /\ index = dec_value is /\ blank sp2 /\ digits ss /\ stat = dec_value ss /\ ~ In 10 more /\ line_end nl.
Definition no_cmgl_header (line : str) : Prop := forall i st, ~ cmgl_header line i st.
(** a line that does not decode at all *)
Definition undecodable (line : str) : Prop := decodeSmsPdu line = Err EncodingError.

(** A response made of well-formed entries: a header with the PDU right behind it.
    Other lines may stand between the entries, such as the final "OK". *)
Inductive well_formed : list str -> list (Z * stored_sms) -> Prop :=
| wf_nil : well_formed [] []
| wf_other line lines es : no_cmgl_header line -> well_formed lines es -> well_formed (line :: lines) es
| wf_entry head i stat pdu d s lines es : cmgl_header head i stat -> decodeSmsPdu pdu = Ok d -> message_of stat d s ->
    well_formed lines es -> well_formed (head :: pdu :: lines) ((i, s) :: es).

(** What the program takes from a response: behind a header, the first line that
    decodes is its PDU, wherever that line belongs. *)
Inductive taken_pdu : list str -> list (Z * stored_sms) -> Prop :=
| tp_nil : taken_pdu [] []
| tp_other line lines es : no_cmgl_header line -> taken_pdu lines es -> taken_pdu (line :: lines) es
| tp_entry head i stat junk pdu d s lines es : cmgl_header head i stat -> Forall undecodable junk -> decodeSmsPdu pdu = Ok d -> message_of stat d s ->
    taken_pdu lines es -> taken_pdu (head :: junk ++ pdu :: lines) ((i, s) :: es)
| tp_cut head i stat junk : cmgl_header head i stat -> Forall undecodable junk -> taken_pdu (head :: junk) [].

(** ** Text mode *)
(** "+CMGL: <index>,"<status>","<number>",<alpha>,"<time>"" *)
Definition cmgl_text (line : str) (index : Z) (status number time : str) : Prop :=
  exists is alpha nl, line = lit "+CMGL: " ++ is ++ [44; 34] ++ status ++ [34; 44; 34] ++ number ++ [34; 44] ++ alpha ++ [44; 34] ++ time ++ 34 :: nl /\
    digits is /\ index = dec_value is /\ status <> [] /\ ~ In 34 status /\ number <> [] /\ ~ In 34 number /\ ~ In 44 alpha /\
    time <> [] /\ ~ In 34 time /\ line_end nl.
Definition no_cmgl_text (line : str) : Prop := forall i st nb t, ~ cmgl_text line i st nb t.
(** the lines of a text that are kept *)
Definition kept (body : list str) : list str := filter (fun l => negb (str_eqb l (lit "OK"))) body.
(** a header and the lines up to the next one *)
Inductive taken_text : list str -> list (Z * stored_sms) -> Prop :=
| tt_nil : taken_text [] []
| tt_other line lines es : no_cmgl_text line -> taken_text lines es -> taken_text (line :: lines) es
| tt_entry head i status number time body n t lines es : cmgl_text head i status number time -> Forall no_cmgl_text body -> header_next lines ->
    kept body <> [] -> status_named status n -> parseTextModeTimeStr time = Ok t -> taken_text lines es ->
    taken_text (head :: body ++ lines) ((i, Received n (Some number) t (text_of (kept body)) None) :: es)
| tt_empty head i status number time body lines es : cmgl_text head i status number time -> Forall no_cmgl_text body -> header_next lines ->
    kept body = [] -> taken_text lines es -> taken_text (head :: body ++ lines) es
with header_next : list str -> Prop :=
| hn_end : header_next []
| hn_head line lines i st nb t : cmgl_text line i st nb t -> header_next (line :: lines).
Definition taken (mode : bool) (answer : list str) (es : list (Z * stored_sms)) : Prop :=
  if mode then taken_text answer es else taken_pdu answer es.

(** ** Commands *)
(** "AT+CMGD=<i>,0" for each of the indices, all successful *)
Inductive deletes : list Z -> list event -> Prop :=
| dl_nil : deletes [] []
| dl_cons i is ds evs1 evs2 a : decimal i ds -> exchange (lit "AT+CMGD=" ++ ds ++ lit ",0") [13] evs1 (Ok a) -> deletes is evs2 ->
    deletes (i :: is) (evs1 ++ evs2).
(** the distinct indices of some entries *)
Definition indices_of (es : list (Z * stored_sms)) (is : list Z) : Prop := NoDup is /\ forall i, In i is <-> In i (map fst es).
(** what stands for a status in the AT+CMGL command *)
Definition status_param (mode : bool) (status : Z) (p : str) : Prop :=
  if mode then exists name, status_named name status /\ p = 34 :: name ++ [34] else decimal status p.
(** the deletions of a listing: each index, or everything *)
Definition cleared (status : Z) (es : list (Z * stored_sms)) (evs : list event) : Prop :=
  if status =? 4 then exists a, exchange (lit "AT+CMGD=1,4") [13] evs (Ok a)
  else exists is, indices_of es is /\ deletes is evs.
(** selecting the memory: nothing, or one command *)
Definition selected (memory : option str) (m : modem) (evs : list event) : Prop :=
  (evs = [] /\ (memory = None \/ memory = memRead m)) \/
  (exists mem a, memory = Some mem /\ memRead m <> memory /\ exchange (lit "AT+CPMS=" ++ 34 :: mem ++ [34]) [13] evs (Ok a)).

(** ** processStoredSms *)
(** one round: the messages with one status are listed and deleted, then handed over *)
Definition round (mode : bool) (status : Z) (es : list (Z * stored_sms)) (evs : list event) : Prop :=
  exists p answer e1 e2, status_param mode status p /\ exchange (lit "AT+CMGL=" ++ p) [13] e1 (Ok answer) /\ taken mode answer es /\
    cleared status es e2 /\ evs = e1 ++ e2 ++ map (fun e => ESms (snd e)) es.
Inductive rounds (mode : bool) : list Z -> list event -> Prop :=
| rd_nil : rounds mode [] []
| rd_cons st sts es evs1 evs2 : round mode st es evs1 -> rounds mode sts evs2 -> rounds mode (st :: sts) (evs1 ++ evs2).
(** when a message is handed over: its round's listing has been received, and the
    messages of the listing have all been deleted; those before it have been handed
    over *)
Definition handing (mode : bool) (pre : list event) (s : stored_sms) : Prop :=
  exists earlier st p answer e1 e2 es before i after, pre = earlier ++ e1 ++ e2 ++ map (fun e => ESms (snd e)) before /\
    status_param mode st p /\ exchange (lit "AT+CMGL=" ++ p) [13] e1 (Ok answer) /\ taken mode answer es /\ es = before ++ (i, s) :: after /\
    exists is, indices_of es is /\ deletes is e2.
