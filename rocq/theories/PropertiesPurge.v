(** C117: deleting messages by their status. *)
From Verif Require Import Base UtilModel PduModel ModemCore ModemSpec SendSpec TrackSpec CoverageSpec SmsModel StoreSpec PurgeSpec PurgeProofs StoreProofs.

Theorem C117_delete : forall flag memory m sc x w k k', (forall mem, memory = Some mem -> ~ In 34 mem) -> known m k ->
  deleteMultipleStoredSms flag memory (start m sc) = Done x w -> minded k (trace w) k' ->
  known (dev w) k' /\
  match x with
  | Ok _ => 1 <= flag <= 4 /\ forall mem' i, kept k' mem' i = purged (kept k) (match memory with Some mem => mem | None => chosen k end) flag mem' i
  | Err e => kept k' = kept k /\ (1 <= flag <= 4 /\ failures (trace w) \/ ~ (1 <= flag <= 4) /\ e = ValueError /\ trace w = [] /\ k' = k)
  end.
Proof. exact purge_by_status. Qed.
Print Assumptions C117_delete.
Theorem C117_left : forall flag c mem mem' i st content, 1 <= flag <= 4 ->
  purged c mem flag mem' i = Some (st, content) <->
  c mem' i = Some (st, content) /\ (mem' <> mem \/ flag = 1 /\ st <> 1 \/ flag = 2 /\ st <> 1 /\ st <> 3 \/ flag = 3 /\ st <> 1 /\ st <> 2 /\ st <> 3).
Proof. exact left_after. Qed.
Print Assumptions C117_left.

(** four messages in SM, one for each status, and one in ME; the memory SM is selected
    (the modem is busy at first), then what has been read and sent is deleted *)
Definition five_kept : keeper := mk_keeper (lit "ME") (fun m i =>
  if str_eqb m (lit "SM") then if (0 <=? i) && (i <=? 3) then Some (i, [lit "a"]) else None
  else if str_eqb m (lit "ME") && (i =? 1) then Some (1, [lit "b"]) else None).
Example C117_example : known modem_init five_kept /\ exists w k',
  deleteMultipleStoredSms 2 (Some (lit "SM")) (start modem_init [Lines [lit "+CMS ERROR: 515"]; Lines [lit "OK"]; Lines [lit "OK"]]) = Done (Ok tt) w /\
  minded five_kept (trace w) k' /\ map (fun i => option_map fst (kept k' (lit "SM") i)) [0; 1; 2; 3] = [Some 0; None; Some 2; None] /\
  option_map fst (kept k' (lit "ME") 1) = Some 1.
Proof.
  split; [discriminate|]. eexists. eexists. split; [vm_compute; reflexivity|]. split.
  - cbn [trace]. eapply md_write; [apply (mi_busy _ _ 515)|].
    + split; [left; reflexivity|]. exists [], (lit "+CMS ERROR: 515"), 83. split; [reflexivity|]. split; [auto|]. exists (lit "515"), [].
      repeat split; [discriminate|repeat constructor|left; reflexivity].
    + apply md_sleep. eapply md_write; [apply (mi_select five_kept (lit "SM") [lit "OK"]); [cbn; intuition discriminate|]|].
      * exists [], (lit "OK"). split; [reflexivity|apply good_ok].
      * apply md_sleep. eapply md_write; [apply (mi_purge (mk_keeper (lit "SM") (kept five_kept)) (lit "1") 2 [lit "OK"]); [split; [discriminate|repeat constructor]|lia|]|].
        -- exists [], (lit "OK"). split; [reflexivity|apply good_ok].
        -- apply md_sleep. apply md_nil.
  - vm_compute. auto.
Qed.
