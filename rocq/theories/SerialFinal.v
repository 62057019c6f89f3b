(** The serial port theorems in the form stated in PropertiesSerial.v, and the
    schedules used there. *)
From Verif Require Import Base RegexModel RegexProofs SerialModel SerialSpec SerialProofs ThreadProofs LockProofs ResponseProofs DeathProofs.

Lemma last_line_unique a b a' b' p c q d : a ++ LLine p c :: b = a' ++ LLine q d :: b' ->
  Forall not_routed b -> Forall not_routed b' -> a = a' /\ p = q /\ c = d /\ b = b'.
Proof.
  intros E F F'. apply app_eq_app in E as (k & [[-> E]|[-> E]]); destruct k as [|x k]; cbn in E.
  - injection E as <- <- <-. rewrite app_nil_r. auto.
  - injection E as <- ->. apply Forall_app in F' as [_ F']. inversion F'; subst. contradiction.
  - injection E as <- <- <-. rewrite app_nil_r. auto.
  - injection E as <- ->. apply Forall_app in F as [_ F]. inversion F; subst. contradiction.
Qed.
Lemma chars_framed_final tr s : run s_init tr s ->
  exists segs outs left, chars_of (labels tr) = List.concat segs ++ left /\ Forall2 handed_over segs outs /\
    handed_of (labels tr) = somes outs /\ Forall (fun x => ~ occurs crlf (fst x)) (somes outs) /\
    (forall buf, reader s = RIdle buf -> left = buf /\ ~ occurs crlf buf).
Proof.
  intro R. destruct (chars_framed _ _ R) as (C & segs & outs & left & E1 & E2 & E3 & E4 & L). exists segs, outs, left.
  repeat split; auto; rewrite H in *; auto.
Qed.
Lemma lines_routed_final tr s : run s_init tr s -> exists fl, lines_of (labels tr) = routed_of (labels tr) ++ fl /\
  (length fl <= 1)%nat /\ forall buf, reader s = RIdle buf -> fl = [].
Proof.
  intro R. exists (inflight (reader s)). split; [apply lines_routed; auto|]. split; [|intros buf ->; reflexivity].
  destruct (reader s) as [ | | | | | | | | | | | |e [|]]; cbn; lia.
Qed.
Lemma note_flight tr s tr1 y tr2 : run s_init tr s -> labels tr = tr1 ++ LNotify y :: tr2 -> exists c, in_flight tr1 (y, c).
Proof.
  intros R E. apply labels_split in E as (ta & z & tb & -> & <- & <-). apply run_split in R as (m & R1 & R2).
  change ((z, LNotify y) :: tb) with ([(z, LNotify y)] ++ tb) in R2. apply run_split in R2 as (m2 & R2 & _). apply run_one in R2.
  pose proof (reader_in_flight _ _ R1) as F. destruct z as [ri|i w].
  - cbn [act] in R2. unfold read_step in R2. cbv zeta in R2. destruct (reader m).
    all: repeat match type of R2 with context [match ?x with _ => _ end] => destruct x; try discriminate R2 end; try discriminate R2.
    injection R2 as _ ->. exact F.
  - cbn [act] in R2. unfold write_step in R2. cbv zeta in R2.
    repeat match type of R2 with context [match ?x with _ => _ end] => destruct x; try discriminate R2 end; try discriminate R2.
Qed.
Lemma unsolicited_notified tr s tr1 x c b l tr3 : run s_init tr s -> labels tr = tr1 ++ LLine x c :: b ++ l :: tr3 ->
  ~ write_open tr1 -> Forall not_routed b -> (exists y d, l = LAppend y d) \/ (exists y, l = LNotify y) -> l = LNotify x.
Proof.
  intros R E NO F H. assert (E0 : labels tr = (tr1 ++ LLine x c :: b) ++ l :: tr3) by (rewrite E, <- app_assoc; reflexivity).
  clear E. rename E0 into E. destruct H as [(y & d & ->)|(y & ->)].
  - destruct (appended_open _ _ _ _ _ _ R E) as (a' & b' & E' & F' & W). apply last_line_unique in E' as (-> & _); auto. contradiction.
  - destruct (note_flight _ _ _ _ _ R E) as (d & a' & b' & E' & F'). cbn in E'. apply last_line_unique in E' as (_ & -> & _); auto.
Qed.
Lemma one_command tr s : run s_init tr s -> wire_after (labels tr) <> Broken.
Proof. intros R. rewrite (wire_kept _ _ R). unfold wire_of. destruct (lock s) as [i|]; [destruct (busy_pc (writer s i))|]; discriminate. Qed.

Lemma response_lines tr s tr1 i ls tr2 : run s_init tr s -> no_timeouts tr -> labels tr = tr1 ++ LReturn i ls :: tr2 ->
  exists tr0 mid stale pre fin rest, tr1 = tr0 ++ LStart i :: mid /\ Forall not_over mid /\
    (stale = [] \/ exists x, stale = [x] /\ in_flight tr0 x) /\
    stale ++ handed_of mid = pre ++ fin :: rest /\
    Forall (fun x => ~ ends_response x) pre /\ ends_response fin /\ ls = map fst (pre ++ [fin]).
Proof.
  intros R NT E. destruct (returned _ _ _ _ _ _ R NT E) as (hs & (tr0 & mid & stale & E1 & F & S & ->) & pre & fin & rest & E2 & P & FN & EL).
  exists tr0, mid, stale, pre, fin, rest. repeat split; auto.
Qed.
Lemma last_start_unique a b a' b' i j : a ++ LStart i :: b = a' ++ LStart j :: b' -> Forall not_over b -> Forall not_over b' -> a = a' /\ i = j /\ b = b'.
Proof.
  intros E F F'. apply app_eq_app in E as (k & [[-> E]|[-> E]]); destruct k as [|x k]; cbn in E.
  - injection E as <- <-. rewrite app_nil_r. auto.
  - injection E as <- ->. apply Forall_app in F' as [_ F']. inversion F'; subst. contradiction.
  - injection E as <- <-. rewrite app_nil_r. auto.
  - injection E as <- ->. apply Forall_app in F as [_ F]. inversion F; subst. contradiction.
Qed.
Lemma response_exact tr s tr0 i mid ls tr2 : run s_init tr s -> no_timeouts tr ->
  labels tr = tr0 ++ LStart i :: mid ++ LReturn i ls :: tr2 -> Forall not_over mid -> (forall x, ~ in_flight tr0 x) ->
  exists pre fin rest, handed_of mid = pre ++ fin :: rest /\
    Forall (fun x => ~ ends_response x) pre /\ ends_response fin /\ ls = map fst (pre ++ [fin]).
Proof.
  intros R NT E F NF. destruct (response_lines tr s (tr0 ++ LStart i :: mid) i ls tr2 R NT) as (a & m & st & pre & fin & rest & E1 & F1 & S & H).
  { rewrite E, <- app_assoc. reflexivity. }
  apply last_start_unique in E1 as (-> & _ & ->); auto. exists pre, fin, rest. destruct S as [->|(x & -> & C)]; auto. exfalso. eapply NF; eauto.
Qed.
Lemma atomic_alive tr s e x : run s_init tr s -> handled_atomically tr -> reader s <> RDead e x.
Proof. intros R A E. pose proof (safe_if_atomic _ _ R A) as S. unfold rsafe in S. rewrite E in S. exact S. Qed.
Lemma dead_silent tr0 s e x tr s' : run s_init tr0 s -> reader s = RDead e x -> run s tr s' ->
  reader s' = RDead e x /\ handed_of (labels tr) = [] /\ routed_of (labels tr) = [] /\ callbacks_of (labels tr) = [] /\
  (forall tr1 i tr2 j ls, labels tr = tr1 ++ LStart i :: tr2 -> ~ In (LReturn j ls) tr2).
Proof.
  intros R0 E R. assert (D : is_dead s) by (exists e, x; auto). destruct (dead_stays _ _ _ R D) as [E' F]. split; [congruence|].
  assert (K : forall A (f : label -> list A), (forall l, ~ by_reader l -> f l = []) -> flat_map f (labels tr) = []).
  { intros A f Hf. clear - F Hf. induction F as [|l ls N _ IH]; cbn; auto. rewrite (Hf l N), IH. reflexivity. }
  repeat split; try (apply K; intros l N; destruct l; auto; exfalso; apply N; exact I).
  intros. eapply dead_no_return; eauto.
Qed.

(** ** Schedules *)
Definition rd (c : Z) : action := ARead (mk_rin (Some c) false).
Definition rs : action := ARead (mk_rin None true).
Definition ws (i : nat) (data : str) : action := AWrite i (mk_win (mk_wop data true None) false).
Definition wt (i : nat) : action := AWrite i (mk_win (mk_wop [] true None) true).
(** characters of a line, each followed by the test for a prompt; the last one is not *)
Fixpoint feed (s : str) : list action :=
  match s with [] => [] | [c] => [rd c] | c :: r => rd c :: rs :: feed r end.
(** one command with its answer *)
Definition sch_command (i : nat) (data : str) : list action :=
  repeat (ws i data) 6 ++ feed (lit "OK" ++ crlf) ++ repeat rs 6 ++ repeat (ws i data) 5.
(** an unsolicited line *)
Definition sch_ring : list action := feed (lit "RING" ++ crlf) ++ repeat rs 3.
(** the answer has come, and another line arrives before the writer has woken up:
    the first test of the event has been made *)
Definition sch_race : list action :=
  repeat (ws 0 (lit "AT")) 6 ++ feed (lit "OK" ++ crlf) ++ repeat rs 6 ++ feed (lit "RING" ++ crlf) ++ repeat rs 1.
(** the writer wakes up and clears the event; the reader makes the second test *)
Definition sch_crash : list action := sch_race ++ repeat (ws 0 []) 2 ++ [rs].
(** the writer returns and the next write starts, before the second test *)
Definition sch_stale : list action :=
  sch_race ++ repeat (ws 0 []) 5 ++ repeat (ws 1 (lit "AT+CSQ")) 6 ++ repeat rs 4 ++
  feed (lit "+CSQ: 9,9" ++ crlf) ++ repeat rs 5 ++ feed (lit "OK" ++ crlf) ++ repeat rs 6 ++ repeat (ws 1 []) 4.
(** a write times out; its answer arrives during the next write *)
Definition sch_late : list action :=
  repeat (ws 0 (lit "AT+CSQ")) 6 ++ repeat (wt 0) 5 ++ repeat (ws 1 (lit "AT+CREG?")) 6 ++
  feed (lit "+CSQ: 9,9" ++ crlf) ++ repeat rs 5 ++ feed (lit "OK" ++ crlf) ++ repeat rs 6 ++ repeat (ws 1 []) 4.

Definition outcome (as_ : list action) : option (list label) :=
  match exec s_init as_ with Some (tr, _) => Some (filter (fun l => match l with LTau | LChar _ => false | _ => true end) (labels tr)) | None => None end.

Lemma exec_actions s as_ tr s' : exec s as_ = Some (tr, s') -> map fst tr = as_.
Proof.
  revert s tr s'. induction as_ as [|a r IH]; intros s tr s' H; cbn in H; [injection H as <- <-; reflexivity|].
  destruct (act s a) as [[m l]|] eqn:A; [|discriminate]. destruct (exec m r) as [[t e]|] eqn:X; [|discriminate].
  injection H as <- <-. cbn. f_equal. eauto.
Qed.
Definition no_timeoutb (a : action) : bool := match a with AWrite _ w => negb (in_timeout w) | ARead _ => true end.
Lemma exec_no_timeouts s as_ tr s' : exec s as_ = Some (tr, s') -> forallb no_timeoutb as_ = true -> no_timeouts tr.
Proof.
  intros X F i w l I. apply exec_actions in X. subst as_. rewrite forallb_forall in F.
  specialize (F (AWrite i w) (in_map fst _ _ I)). cbn in F. destruct (in_timeout w); auto; discriminate.
Qed.
Fixpoint atomicb (s : sstate) (as_ : list action) : bool :=
  match as_ with
  | [] => true
  | a :: r => match a with AWrite _ _ => match reader s with RIdle _ => true | _ => false end | ARead _ => true end &&
              match act s a with Some (s', _) => atomicb s' r | None => true end
  end.
Lemma exec_atomic s as_ tr s' : exec s as_ = Some (tr, s') -> atomicb s as_ = true ->
  forall tr1 i w l tr2 m, tr = tr1 ++ (AWrite i w, l) :: tr2 -> run s tr1 m -> exists buf, reader m = RIdle buf.
Proof.
  revert s tr s'. induction as_ as [|a r IH]; intros s tr s' X B tr1 i w l tr2 m E R; cbn in X.
  - injection X as <- <-. destruct tr1; discriminate.
  - destruct (act s a) as [[k l']|] eqn:A; [|discriminate]. destruct (exec k r) as [[t e]|] eqn:X'; [|discriminate].
    injection X as <- <-. cbn [atomicb] in B. rewrite A in B. apply andb_prop in B as [B1 B2]. destruct tr1 as [|y tr1].
    + cbn in E. injection E as -> -> ->. apply run_nil_inv in R as <-. destruct (reader s); try discriminate. eauto.
    + cbn in E. injection E as <- ->. change ((a, l') :: tr1) with ([(a, l')] ++ tr1) in R. apply run_split in R as (k' & R1 & R2).
      apply run_one in R1. assert (k' = k) as -> by congruence. eapply IH; eauto.
Qed.

Definition visible (l : label) : bool := match l with LTau | LChar _ => false | _ => true end.
Definition seen (as_ : list action) : option (list label) :=
  match exec s_init as_ with Some (tr, _) => Some (filter visible (labels tr)) | None => None end.
Lemma seen_run as_ ls : seen as_ = Some ls -> exists tr s, run s_init tr s /\ filter visible (labels tr) = ls /\ map fst tr = as_.
Proof.
  unfold seen. destruct (exec s_init as_) as [[tr s]|] eqn:X; [|discriminate]. intros [= <-]. exists tr, s.
  split; [eapply exec_run; eauto|]. split; auto. eapply exec_actions; eauto.
Qed.
Lemma seen_in tr ls l : filter visible (labels tr) = ls -> In l ls -> In l (labels tr).
Proof. intros <- I. apply filter_In in I. tauto. Qed.

Lemma crash_possible : exists tr s, run s_init tr s /\ no_timeouts tr /\ reader s = RDead AttributeError (Some (lit "RING")).
Proof.
  destruct (exec s_init sch_crash) as [[tr s]|] eqn:X; [|vm_compute in X; discriminate].
  exists tr, s. split; [eapply exec_run; eauto|]. split; [eapply exec_no_timeouts; eauto; reflexivity|].
  vm_compute in X. injection X as <- <-. reflexivity.
Qed.
Lemma stale_possible : exists tr s tr0 mid, run s_init tr s /\ no_timeouts tr /\
  labels tr = tr0 ++ LStart 1 :: mid ++ [LReturn 1 [lit "RING"; lit "+CSQ: 9,9"; lit "OK"]] /\
  ~ In (LStart 1) mid /\ handed_of mid = [(lit "+CSQ: 9,9", true); (lit "OK", true)].
Proof.
  destruct (exec s_init sch_stale) as [[tr s]|] eqn:X; [|vm_compute in X; discriminate].
  exists tr, s, (firstn 39 (labels tr)), (removelast (skipn 40 (labels tr))).
  split; [eapply exec_run; eauto|]. split; [eapply exec_no_timeouts; eauto; reflexivity|].
  vm_compute in X. injection X as <- <-. vm_compute. repeat split. intuition discriminate.
Qed.
Lemma late_possible : exists tr s tr0 mid, run s_init tr s /\
  labels tr = tr0 ++ LSend 1 (lit "AT+CREG?") true :: mid ++ [LReturn 1 [lit "+CSQ: 9,9"; lit "OK"]] /\
  In (LSend 0 (lit "AT+CSQ") true) tr0 /\ In (LTimeout 0 []) tr0.
Proof.
  destruct (exec s_init sch_late) as [[tr s]|] eqn:X; [|vm_compute in X; discriminate].
  exists tr, s, (firstn 15 (labels tr)), (removelast (skipn 16 (labels tr))).
  split; [eapply exec_run; eauto|]. 
  vm_compute in X. injection X as <- <-. vm_compute. repeat split; tauto.
Qed.

(** a write that waits for a prompt; the next character arrives before the writer
    has cleared the prompt *)
Definition wp (i : nat) (data prompt : str) : action := AWrite i (mk_win (mk_wop data true (Some prompt)) false).
Definition sch_prompt : list action :=
  repeat (wp 0 (lit "AT+CMGS=9") (lit "> ")) 6 ++ [rd 62; rs; rs; rs; rd 32; rs; rs; rs] ++ repeat rs 6.
Definition sch_crash2 : list action := sch_prompt ++ [rd 65; rs] ++ repeat (ws 0 []) 3 ++ [rs].
Lemma crash_possible2 : exists tr s, run s_init tr s /\ no_timeouts tr /\ reader s = RDead TypeError None.
Proof.
  destruct (exec s_init sch_crash2) as [[tr s]|] eqn:X; [|vm_compute in X; discriminate].
  exists tr, s. split; [eapply exec_run; eauto|]. split; [eapply exec_no_timeouts; eauto; reflexivity|].
  vm_compute in X. injection X as <- <-. reflexivity.
Qed.
(** only these two exceptions *)
Lemma death_kinds tr s e x : run s_init tr s -> reader s = RDead e x -> e = AttributeError \/ e = TypeError.
Proof.
  intros R E. assert (match reader s with RDead e _ => e = AttributeError \/ e = TypeError | _ => True end) as P; [|rewrite E in P; auto].
  clear E. apply (run_inv (fun s => match reader s with RDead e _ => e = AttributeError \/ e = TypeError | _ => True end)) with (s := s_init) (tr := tr); auto; [|exact I].
  clear. intros s a s' l P H. destruct a as [ri|i w]; cbn [act] in H.
  - unfold read_step in H. cbv zeta in H. destruct (reader s) eqn:ER; break_step H; cbn; rewrite ?ER; auto.
  - rewrite (write_reader _ _ _ _ _ H). auto.
Qed.
