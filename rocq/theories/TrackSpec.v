(** Histories of calls of sendSms and of status report notifications. *)
From Verif Require Import Base PduModel ModemCore ModemSpec SmsModel SendSpec.

(** the world in which a method is called: the modem object, and what the device
    will answer *)
Definition start (m : modem) (sc : list reply) : world := mk_world m sc [].
Definition state_after {A} (o : out A) : modem := match o with Done _ w => dev w | Stuck w => dev w end.

(** Calls of sendSms one after the other, from attributes [m] to [m']; [refs]: the
    references of the messages that were sent.  A call may also fail, or never
    return. *)
Inductive sends (m : modem) : list Z -> modem -> Prop :=
| sends_nil : sends m [] m
| sends_ok refs m1 d t fl wt sc obj w s : sends m refs m1 -> quiet_minus sc ->
    sendSms d t fl wt (start m1 sc) = Done (Ok obj) w -> nth_error (sentObjs (dev w)) obj = Some s ->
    sends m (refs ++ [s_reference s]) (dev w)
| sends_failed refs m1 d t fl wt sc e w : sends m refs m1 -> quiet_minus sc ->
    sendSms d t fl wt (start m1 sc) = Done (Err e) w -> sends m refs (dev w)
| sends_hangs refs m1 d t fl wt sc w : sends m refs m1 -> quiet_minus sc ->
    sendSms d t fl wt (start m1 sc) = Stuck w -> sends m refs (dev w).

(** Sends and status reports, handled one after the other.  A report counts when its
    handler is done without an exception; the report is what readStoredSms returns
    for the memory and index of the notification. *)
Inductive happens (m : modem) : list happening -> modem -> Prop :=
| hp_nil : happens m [] m
| hp_sent hs m1 d t fl wt sc obj w s : happens m hs m1 ->
    sendSms d t fl wt (start m1 sc) = Done (Ok obj) w -> nth_error (sentObjs (dev w)) obj = Some s ->
    happens m (hs ++ [Sent (s_reference s)]) (dev w)
| hp_send_failed hs m1 d t fl wt sc : happens m hs m1 ->
    (forall obj w, sendSms d t fl wt (start m1 sc) <> Done (Ok obj) w) ->
    happens m hs (state_after (sendSms d t fl wt (start m1 sc)))
| hp_reported hs m1 line mem idx sc st r nb t1 t2 code w1 w : happens m hs m1 ->
    indication (lit "+CDSI:") mem idx line ->
    readStoredSms idx (Some mem) (start m1 sc) = Done (Ok (Report st r nb t1 t2 code)) w1 ->
    handleSmsStatusReport line (start m1 sc) = Done (Ok tt) w ->
    happens m (hs ++ [Reported r code]) (dev w)
| hp_report_failed hs m1 line sc : happens m hs m1 ->
    (forall w, handleSmsStatusReport line (start m1 sc) <> Done (Ok tt) w) \/
    (forall mem idx, ~ indication (lit "+CDSI:") mem idx line) ->
    happens m hs (state_after (handleSmsStatusReport line (start m1 sc)))
| hp_wait hs m1 sc : happens m hs m1 -> happens m hs (state_after (sendSms_wait (start m1 sc))).
