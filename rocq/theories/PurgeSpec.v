(** Deleting messages by their status: a modem whose messages have one. *)
From Verif Require Import Base DateModel UtilModel PduModel ModemCore ModemSpec SendSpec TrackSpec CoverageSpec SmsModel StoreSpec.

(** memories with the status and the lines of each message; the statuses are
    0 (unread), 1 (read), 2 (stored, not sent), 3 (sent) *)
Definition shelves := str -> Z -> option (Z * list str).
Record keeper := mk_keeper { chosen : str; kept : shelves }.

(** what AT+CMGD=1,<flag> removes (3GPP TS 27.005, 3.5.4) *)
Definition removes (flag st : Z) : bool :=
  if flag =? 1 then st =? 1
  else if flag =? 2 then (st =? 1) || (st =? 3)
  else if flag =? 3 then (st =? 1) || (st =? 3) || (st =? 2)
  else true.
Definition purged (c : shelves) (mem : str) (flag : Z) : shelves := fun m i =>
  match c m i with
  | Some (st, content) => if str_eqb m mem && removes flag st then None else Some (st, content)
  | None => None
  end.
(** What it answers and does.  It may always be busy or fail, and then does
    nothing.  AT+CMGD=<i>,0 removes one message. *)
Inductive minds (k : keeper) : str -> reply -> keeper -> Prop :=
| mi_busy text code r : busy_reply code r -> minds k text r k
| mi_fail text r : failing r -> minds k text r k
| mi_select mem ls : ~ In 34 mem -> good_answer ls ->
    minds k (lit "AT+CPMS=" ++ 34 :: mem ++ [34; 13]) (Lines ls) (mk_keeper mem (kept k))
| mi_delete ds ls : digits ds -> good_answer ls ->
    minds k (lit "AT+CMGD=" ++ ds ++ lit ",0" ++ [13]) (Lines ls)
      (mk_keeper (chosen k) (fun m i => if same_cell m i (chosen k) (dec_value ds) then None else kept k m i))
| mi_purge ds flag ls : digits ds -> 1 <= flag <= 4 -> good_answer ls ->
    minds k (lit "AT+CMGD=" ++ ds ++ 44 :: [48 + flag; 13]) (Lines ls) (mk_keeper (chosen k) (purged (kept k) (chosen k) flag)).
(** the modem behind a trace *)
Inductive minded (k : keeper) : list event -> keeper -> Prop :=
| md_nil : minded k [] k
| md_write text r evs k1 k2 : minds k text r k1 -> minded k1 evs k2 -> minded k (EWrite text (Some r) :: evs) k2
| md_sleep t evs k2 : minded k evs k2 -> minded k (ESleep t :: evs) k2.
(** as [in_sync] *)
Definition known (m : modem) (k : keeper) : Prop := forall x, memRead m = Some x -> ~ In 34 x -> chosen k = x.
