(** Property C111: connect() called twice; several read threads. *)
From Verif Require Import Base RegexModel SerialModel SerialSpec LifeModel LifeSpec SpoofSpec CrowdModel CrowdSpec CrowdProofs.

(** C111: if connect() is called only when there is no read thread, all is as in
    LifeModel (C75, C76). *)
Theorem C111_one_at_a_time : forall tr s, crun c_init tr s -> one_at_a_time tr ->
  lrun l_init (map (fun x => (single (fst x), snd (snd x))) tr) (seen_by s (last (threads s) nobody)).
Proof. exact crowd_alone. Qed.
Print Assumptions C111_one_at_a_time.
(** Otherwise each thread makes lines of the characters that it happens to read. *)
Theorem C111_own_lines : forall tr s k ph r, crun c_init tr s -> nth_error (threads s) k = Some (ph, r) ->
  exists segs outs left, chars_of (labels_of k (clabels tr)) = List.concat segs ++ left /\ Forall2 handed_over segs outs /\
    handed_of (labels_of k (clabels tr)) = somes outs /\ Forall (fun x => ~ occurs crlf (fst x)) (somes outs) /\
    (forall buf, r = RIdle buf -> left = buf /\ ~ occurs crlf buf).
Proof. exact own_lines. Qed.
Print Assumptions C111_own_lines.
(** So the response can lack any of the characters of the answer. *)
Theorem C111_stolen : forall i data ls cs, plain_answer ls -> taken_by true cs = on_wire ls -> no_crlf (taken_by false cs) ->
  exists tr s, crun c_init ((CConnect, (None, LConnect)) :: tr) s /\ chars_of (all_labels (clabels tr)) = map snd cs /\
    filter outside (labels_beside 0 (clabels tr)) = turn i data ls (not_blank ls) /\ handed_of (labels_of 0 (clabels tr)) = [].
Proof. exact stolen. Qed.
Print Assumptions C111_stolen.
(** the signal strength 18 is returned as 1 *)
Definition csq_chars : list (bool * Z) :=
  map (fun c => (negb (c =? 56), c)) (on_wire [lit "+CSQ: 18,99"; []; lit "OK"]).
Example C111_stolen_example : map snd csq_chars = on_wire [lit "+CSQ: 18,99"; []; lit "OK"] /\
  taken_by true csq_chars = on_wire [lit "+CSQ: 1,99"; []; lit "OK"] /\ no_crlf (taken_by false csq_chars) /\
  plain_answer [lit "+CSQ: 1,99"; []; lit "OK"] /\ not_blank [lit "+CSQ: 1,99"; []; lit "OK"] = [lit "+CSQ: 1,99"; lit "OK"].
Proof.
  split; [reflexivity|]. split; [reflexivity|]. split; [intros (a & b & E); destruct a as [|x [|y a]]; discriminate|]. split; [|reflexivity].
  exists [lit "+CSQ: 1,99"; []], (lit "OK"). split; [reflexivity|].
  assert (N : forall l, ~ In 10 l -> no_crlf l) by (exact no_lf_crlf).
  assert (T : forall l, is_term l = false -> ~ final_line l) by (intros l E F; apply SerialProofs.is_term_spec in F; congruence).
  split; [repeat constructor; apply N; cbn; intuition discriminate|]. split; [repeat constructor; apply T; reflexivity|]. left. exists []. reflexivity.
Qed.
(** And every command can time out, whatever the modem answers. *)
Theorem C111_silence : forall i data answer,
  exists tr s, crun c_init ((CConnect, (None, LConnect)) :: tr) s /\ chars_of (all_labels (clabels tr)) = answer /\
    filter outside (labels_beside 0 (clabels tr)) = LSend i data true :: map LChar (filter (fun c => negb (c =? 10)) answer) ++ [LTimeout i []] /\
    handed_of (labels_of 0 (clabels tr)) = [].
Proof. exact silence. Qed.
Print Assumptions C111_silence.
(** close() waits for the thread started last only: another one can report an error,
    or hand over a line, after it returned; but each ends soon. *)
Theorem C111_late_error : exists tr s a b, crun c_init tr s /\ clabels tr = a ++ (None, LClosed) :: b /\ ~ In LConnect (map snd b) /\ In (Some 0%nat, LFatal) b.
Proof. exact late_error. Qed.
Print Assumptions C111_late_error.
Theorem C111_late_line : exists tr s a b, crun c_init tr s /\ clabels tr = a ++ (None, LClosed) :: b /\ ~ In LConnect (map snd b) /\
  callbacks_of (all_labels b) = [[lit "RING"]].
Proof. exact late_line. Qed.
Print Assumptions C111_late_line.
Theorem C111_ends : forall s tr s' k, c_up s = false -> crun s tr s' -> ~ In LConnect (map snd (clabels tr)) -> (moves_of k tr <= 13)%nat.
Proof. exact crowd_ends. Qed.
Print Assumptions C111_ends.
Example C111_ends_example : exists tr s tr2 s', cexec c_init [CConnect; ct 0; CClose] = Some (tr, s) /\ c_up s = false /\
  cexec s [ct 0; ct 0; ct 1; CClose; CClose] = Some (tr2, s') /\ moves_of 0 tr2 = 2%nat /\ map fst (threads s') = [PGone; PGone].
Proof. eexists _, _, _, _. split; [vm_compute; reflexivity|]. split; [reflexivity|]. split; [vm_compute; reflexivity|]. vm_compute. auto. Qed.
