(** Specification vocabulary for calls that ring several times. *)
From Verif Require Import Base ModemCore ModemSpec TrackSpec CallModel NotifyModel BookSpec DialSpec.

Definition caller_dec (a b : option str) : {a = b} + {a <> b}.
Proof. decide equality. apply (list_eq_dec Z.eq_dec). Defined.
(** how often [c] rang *)
Definition times (c : option str) (cs : list (option str)) : Z := Z.of_nat (count_occ caller_dec cs c).

(** Notifications one after the other: [cs] are the callers of those that rang ([None]:
    without a number), [ns] the calls that the application was given.  A ring that is
    refused (an exception) does not count; other notifications may come in between,
    and everything that does not belong to calls may change in any way. *)
Inductive rung_by (m : modem) : list (option str) -> list nat -> modem -> Prop :=
| rb_nil : rung_by m [] [] m
| rb_ring cs ns m1 before line after sc w c n : rung_by m cs ns m1 -> Forall (unrelated (callUpdates m1)) before -> ModemSpec.substring (lit "RING") line ->
    handleNotification (before ++ line :: after) (start m1 sc) = Done (Ok tt) w -> caller (clip m1) (before ++ line :: after) c -> In (ERing n) (trace w) ->
    rung_by m (cs ++ [c]) (ns ++ [n]) (dev w)
| rb_refused cs ns m1 before line after sc w e : rung_by m cs ns m1 -> Forall (unrelated (callUpdates m1)) before -> ModemSpec.substring (lit "RING") line ->
    handleNotification (before ++ line :: after) (start m1 sc) = Done (Err e) w -> rung_by m cs ns (dev w)
| rb_other cs ns m1 lines sc x w : rung_by m cs ns m1 -> Forall (unrelated (callUpdates m1)) lines ->
    handleNotification lines (start m1 sc) = Done x w -> rung_by m cs ns (dev w)
| rb_else cs ns m1 m2 : rung_by m cs ns m1 -> callObjs m2 = callObjs m1 -> activeCalls m2 = activeCalls m1 -> rung_by m cs ns m2.

(** [callers] are in the order in which they first rang *)
Definition by_first_ring (callers cs : list (option str)) : Prop :=
  forall i j c d, (i < j)%nat -> nth_error callers i = Some c -> nth_error callers j = Some d -> exists before after, cs = before ++ c :: after /\ ~ In d before.

(** The calls there are then: one for each of the different callers, in the order in
    which they first rang, with ids 1, 2, ... *)
Definition one_each (old : list call) (callers cs : list (option str)) (calls : list call) (table : list (Z * nat)) : Prop :=
  length calls = (length old + length callers)%nat /\
  (forall j, (j < length old)%nat -> nth_error calls j = nth_error old j) /\
  (forall i c, nth_error callers i = Some c -> exists ty,
     nth_error calls (length old + i) = Some (mk_call (Z.of_nat i + 1) true ty c false false true true (times c cs))) /\
  table = map (fun i => (Z.of_nat i + 1, (length old + i)%nat)) (seq 0 (length callers)).
