(** Specification vocabulary for notifications that arrive together. *)
From Verif Require Import Base SerialModel SerialSpec ModemCore.

(** What a modem sends unasked: pieces ended by CRLF, each with whether the input
    pauses after it.  Blank pieces are what modems put between lines. *)
Definition arrival : Type := str * bool.
Definition sent_text (ps : list arrival) : str := List.concat (map (fun p => fst p ++ crlf) ps).
Definition pieces_only (ps : list arrival) : Prop := Forall (fun p => ~ occurs crlf (fst p)) ps.

(** no thread writes *)
Definition only_reads (tr : list (action * label)) : Prop := forall i w l, ~ In (AWrite i w, l) tr.
(** When inWaiting() is asked, right after a line has been added to the notification,
    nothing is waiting exactly if a piece after which the input pauses has just been
    read. *)
Definition port_follows (ps : list arrival) (tr : list (action * label)) : Prop :=
  forall tr1 a x i l tr2, tr = tr1 ++ (a, LNotify x) :: (ARead i, l) :: tr2 ->
  (in_empty i = true <-> exists before p after, ps = before ++ (p, true) :: after /\
     chars_of (labels tr1) = sent_text (before ++ [(p, true)])).

(** [batched held ps calls left]: with [held] already collected, the pieces [ps] lead
    to [calls] of the callback, and [left] stays collected. *)
Inductive batched : list str -> list arrival -> list (list str) -> list str -> Prop :=
| ba_end a : batched a [] [] a
| ba_blank a b r cs lf : batched a r cs lf -> batched a (([], b) :: r) cs lf
| ba_more a l r cs lf : l <> [] -> batched (a ++ [l]) r cs lf -> batched a ((l, false) :: r) cs lf
| ba_over a l r cs lf : l <> [] -> batched [] r cs lf -> batched a ((l, true) :: r) ((a ++ [l]) :: cs) lf.

(** [asked tr ps p]: the lines that were added to the notification, each with what
    inWaiting() == 0 said afterwards; [p]: a line for which it has not been asked yet. *)
Inductive asked : list (action * label) -> list arrival -> option str -> Prop :=
| as_nil : asked [] [] None
| as_note tr ps i x : asked tr ps None -> asked (tr ++ [(ARead i, LNotify x)]) ps (Some x)
| as_ask tr ps x i l : asked tr ps (Some x) -> asked (tr ++ [(ARead i, l)]) (ps ++ [(x, in_empty i)]) None
| as_read tr ps i l : asked tr ps None -> (forall x, l <> LNotify x) -> asked (tr ++ [(ARead i, l)]) ps None
| as_write tr ps p j w l : asked tr ps p -> asked (tr ++ [(AWrite j w, l)]) ps p.

(** the callbacks of the application that were called *)
Definition told (evs : list event) : list event :=
  filter (fun e => match e with ESms _ | EReport _ | ERing _ | EStatus _ => true | EWrite _ _ | ESleep _ => false end) evs.
