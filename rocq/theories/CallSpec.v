(** Specification vocabulary for calls. *)
From Verif Require Import Base ModemCore ModemSpec SendSpec TrackSpec.

(** ** DTMF *)
(** the command for one tone: "+VTS=<t>", or "^DTMF=<id>,<t>" on Huawei modems *)
Definition tone_base (huawei : bool) (id : Z) (base : str) : Prop :=
  if huawei then exists ds, decimal id ds /\ base = lit "^DTMF=" ++ ds ++ [44] else base = lit "+VTS=".
(** AT<base><t1>;<base><t2>;...;<base><tn> *)
Inductive tone_list (base : str) : str -> str -> Prop :=
| tl_one t : tone_list base [t] (base ++ [t])
| tl_more t ts s : tone_list base ts s -> tone_list base (t :: ts) (base ++ t :: 59 :: s).
Definition no_brace (s : str) : Prop := ~ In 123 s /\ ~ In 125 s.
(** what the outcome of the command makes of the call of sendDtmfTone *)
Inductive tone_result : res (list str) -> res unit -> Prop :=
| to_ok a : tone_result (Ok a) (Ok tt)
| to_interrupted c code : code = 30 \/ code = 3 -> tone_result (Err (CmeError c code)) (Err (InterruptedException code))
| to_error e : (forall c code, e = CmeError c code -> code <> 30 /\ code <> 3) -> tone_result (Err e) (Err e).
