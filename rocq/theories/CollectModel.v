(** Model of gsmmodem/modem.py:744-762 processStoredSms and 764-845 listStoredSms (with
    delete=True) running in a thread of the application, next to the threads that
    handle notifications (HandlerModel.v).

    As there, the threads share the attribute _smsMemReadDelete and the serial port,
    and interleave between attempts at commands and around the accesses to the
    attribute. *)
From Coq Require Import Permutation.
From Verif Require Export Base RegexModel UtilModel PduModel ModemCore SmsModel HandlerModel.

(** Where such a thread is.  The comments give the lines of modem.py that come next. *)
Inductive spot :=
| CCompare                           (* 779, 532-541: readDelete != self._smsMemReadDelete *)
| CSelect                            (* 542: AT+CPMS *)
| CRemember                          (* 543: self._smsMemReadDelete = readDelete *)
| CList                              (* 780-837: AT+CMGL, and what it makes of the response *)
| CErase (messages : list stored_sms) (listed rest : list Z)
                                     (* 842-843: AT+CMGD for the indices [rest]; [listed]: delMessages *)
| CWipe (messages : list stored_sms) (* 839-841: AT+CMGD=1,4 *)
| CHand (messages : list stored_sms) (* 844, 761-762: returning them, or the callbacks *)
| CDone
| CFail (e : exn).                   (* the method ends with an exception *)

Definition next_spot (here : spot) (x : option (res (list str))) (go : list str -> spot) : spot :=
  match x with
  | Some (Ok ls) => go ls
  | Some (Err e) => CFail e
  | None => here
  end.
(** lines 784-791, 815: the command; there is none for an unknown status in text mode *)
Definition list_command (textMode : bool) (status : Z) : option str :=
  if textMode then option_map (fun s => lit "AT+CMGL=""" ++ s ++ lit """") (status_text status)
  else Some (lit "AT+CMGL=" ++ str_of_Z status).
(** lines 792-811, 816-837 *)
Definition list_lines (textMode : bool) (lines : list str) : res listing :=
  if textMode then list_text lines None [] ([], []) else list_pdu lines None ([], []).

(** A step: the attribute, the statuses still to be listed (the current one first) and
    the place before; what is put on the wire and the reply (if anything is); the
    messages given to the application; the attribute, statuses and place after.
    [handing]: processStoredSms, which hands each message to the callback; otherwise
    listStoredSms, which returns them together.  [order]: the order in which the set
    delMessages is enumerated, which can be any. *)
Inductive collector_step (textMode : bool) (memory : option str) (handing : bool) :
  option str -> list Z -> spot -> option (str * reply) -> list stored_sms -> option str -> list Z -> spot -> Prop :=
| cs_compare attr sts :
    collector_step textMode memory handing attr sts CCompare None [] attr sts
      (match memory with Some _ => if opt_str_eqb memory attr then CList else CSelect | None => CList end)
| cs_select mem attr sts r : let command := lit "AT+CPMS=""" ++ mem ++ lit """" in memory = Some mem ->
    collector_step textMode memory handing attr sts CSelect (Some (command ++ CR, r)) [] attr sts (next_spot CSelect (attempt command r) (fun _ => CRemember))
| cs_remember attr sts :
    collector_step textMode memory handing attr sts CRemember None [] memory sts CList
| cs_unknown attr st sts : list_command textMode st = None ->
    collector_step textMode memory handing attr (st :: sts) CList None [] attr (st :: sts) (CFail ValueError)
| cs_list attr st sts r command order : list_command textMode st = Some command -> (forall l, Permutation l (order l)) ->
    collector_step textMode memory handing attr (st :: sts) CList (Some (command ++ CR, r)) [] attr (st :: sts)
      (next_spot CList (attempt command r) (fun ls =>
         match list_lines textMode ls with
         | Ok l => if st =? 4 then CWipe (fst l) else CErase (fst l) (snd l) (order (snd l))
         | Err e => CFail e
         end))
| cs_erase attr sts messages listed i rest r : let command := lit "AT+CMGD=" ++ str_of_Z i ++ lit ",0" in
    collector_step textMode memory handing attr sts (CErase messages listed (i :: rest)) (Some (command ++ CR, r)) [] attr sts
      (next_spot (CErase messages listed (i :: rest)) (attempt command r) (fun _ => CErase messages listed rest))
| cs_erased attr sts messages listed :
    collector_step textMode memory handing attr sts (CErase messages listed []) None [] attr sts (CHand messages)
| cs_wipe attr sts messages r : let command := lit "AT+CMGD=1,4" in
    collector_step textMode memory handing attr sts (CWipe messages) (Some (command ++ CR, r)) [] attr sts
      (next_spot (CWipe messages) (attempt command r) (fun _ => CHand messages))
| cs_return attr sts messages : handing = false ->
    collector_step textMode memory handing attr sts (CHand messages) None messages attr sts CDone
| cs_hand attr sts s messages : handing = true ->
    collector_step textMode memory handing attr sts (CHand (s :: messages)) None [s] attr sts (CHand messages)
| cs_next attr st sts : handing = true ->
    collector_step textMode memory handing attr (st :: sts) (CHand []) None [] attr sts (match sts with [] => CDone | _ => CCompare end).
