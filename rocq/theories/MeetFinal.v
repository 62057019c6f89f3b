(** Several threads that send USSD strings or dial: the statements. *)
From Verif Require Import Base UtilModel UtilProofs SmsModel TrackProofs MeetModel MeetSpec MeetProofs.

Section Meet.
Context {R : Type} (k : kind R).
Implicit Types (s : system R) (ls : list (label R)) (h : shared R).

Lemma ends s ls s' i x : idle s -> run k s ls s' -> (length (sy_threads s) <= i)%nat -> at_thread s' i (Calling (Over x)) -> ending k i ls x.
Proof. intros I H L T. destruct (g_thr _ _ _ _ _ (ginv_run k _ _ _ I H) _ _ T) as [[? _]|[_ E]]; [lia|exact E]. Qed.
Lemma handler_ends s ls s' j c x : idle s -> run k s ls s' -> (length (sy_threads s) <= j)%nat -> at_thread s' j (Handling c (Handled x)) ->
  In (LNotified j c) ls /\ handled_as c j ls x.
Proof.
  intros I H L T. destruct (g_thr _ _ _ _ _ (ginv_run k _ _ _ I H) _ _ T) as [[? _]|[_ (N & _ & E)]]; [lia|]. split; auto.
  destruct E as [->|[(e & -> & -> & E)|[-> E]]]; [constructor|apply handled_bad; auto|apply handled_nothing; auto].
Qed.
Lemma idle_again s ls s' : idle s -> run k s ls s' -> Forall ended (sy_threads s') -> idle s'.
Proof.
  intros I H F. pose proof (ginv_run k _ _ _ I H) as G. split; [|split; [|exact F]].
  - destruct (sh_event (sy_shared s')) eqn:E; auto. exfalso. destruct (g_open _ _ _ _ _ G) as (i & st & T & O); [congruence|].
    apply nth_error_In in T. rewrite Forall_forall in F. apply F in T. destruct st; cbn in *; tauto.
  - apply Forall_forall. apply (g_set _ _ _ _ _ G).
Qed.
Lemma ending_tail i j ls x : ending k i (LCalled j :: ls) x -> ending k i ls x.
Proof.
  intros E. destruct E as [e I|a y I K|a b c j0 r I K E L O|a b c I K E|a b c I K E].
  - apply end_write. destruct I as [I|I]; [discriminate|auto].
  - eapply end_ack; eauto. destruct I as [I|I]; [discriminate|auto].
  - destruct b as [|l b]; [destruct I|]. injection E as <- E. destruct I as [I|I]; [discriminate|]. eapply (end_took k i ls a b c j0 r); eauto.
    + cbn in L. destruct (last_stored b); [auto|discriminate].
    + destruct O as (o1 & o2 & o3 & O). destruct o1 as [|l o1]; [discriminate O|]. injection O as <- O. exists o1, o2, o3. auto.
  - destruct b as [|l b]; [destruct I|]. injection E as <- E. destruct I as [I|I]; [discriminate|]. eapply (end_timeout k i ls a b c); eauto.
  - destruct b as [|l b]; [destruct I|]. injection E as <- E. destruct I as [I|I]; [discriminate|]. eapply (end_nothing k i ls a b c); eauto.
Qed.
Lemma alone_ends s s1 i ls s' x : idle s -> act k s ACall = Some (s1, LCalled i) -> run k s1 ls s' -> no_call ls -> at_thread s' i (Calling (Over x)) ->
  ending_alone k i ls x /\ sh_event (sy_shared s') = None.
Proof.
  intros I A H N T. destruct (sinv_run k _ _ _ _ _ I A H N) as [(S1 & (st & T' & S2) & S3 & S4 & S5) G].
  unfold at_thread in *. rewrite T in T'. injection T' as <-. split; [|tauto].
  assert (E : ending k i ls x). { apply (ending_tail i i). destruct (g_thr _ _ _ _ _ G _ _ T) as [[L _]|[_ E]]; [|exact E]. cbn in A. injection A as _ <-. lia. }
  destruct E as [e Ie|a y Ie K|a b c j r Ie K -> L O|a b c Ie K ->|a b c Ie K ->].
  - apply alone_write; auto.
  - eapply alone_ack; eauto.
  - eapply alone_took; eauto.
  - eapply alone_timeout; eauto.
  - destruct S4. apply in_or_app. right. left. auto.
Qed.
Lemma alone_table s s1 i ls s' r : (forall a, k_ack k a = None) -> idle s -> act k s ACall = Some (s1, LCalled i) -> run k s1 ls s' -> no_call ls ->
  at_thread s' i (Calling (Over r)) ->
  sh_calls (sy_shared s') = match r with Ok (Some r) => match k_key k r with Some id => zset (sh_calls (sy_shared s)) id i | None => sh_calls (sy_shared s) end | _ => sh_calls (sy_shared s) end.
Proof.
  intros K I A H N T. destruct (sinv_run k _ _ _ _ _ I A H N) as [(S1 & (st & T' & S2) & _) G].
  unfold at_thread in *. rewrite T in T'. injection T' as <-. destruct S2 as [_ [S2|(a & y & X & _)]]; auto. rewrite K in X. discriminate.
Qed.
Lemma wakes s ls s' i e j : idle s -> run k s ls s' -> at_thread s' i (Calling (Waiting e)) -> In (LFired j e) ls ->
  act k s' (AGiveUp i) = None /\ exists s2 l, act k s' (AGo i) = Some (s2, l) /\ at_thread s2 i (Calling Woken).
Proof.
  intros I H T F. pose proof (g_fired _ _ _ _ _ (ginv_run k _ _ _ I H) _ _ F) as S. apply existsb_in in S. cbn. pose proof T as T0. unfold at_thread in T. rewrite T. cbn. rewrite S. split; auto.
  eexists _, _. split; [reflexivity|]. eapply at_update_same; exact T0.
Qed.
Lemma run_app s ls s1 ls' s2 : run k s ls s1 -> run k s1 ls' s2 -> run k s (ls ++ ls') s2.
Proof. intros H H'. induction H' as [|ls' s3 a s4 l H' IH A]; [rewrite app_nil_r; auto|]. rewrite app_assoc. eapply run_snoc; eauto. Qed.
(** where a call is after it has been woken *)
Definition served (e : nat) (st : stage R) : Prop :=
  match st with Waiting e' => e' = e | Woken | Take | Enter _ _ => True | Over x => exists r, x = Ok (Some r) | _ => False end.
Lemma served_run s ls s1 i e j ls' s2 : idle s -> run k s ls s1 -> at_thread s1 i (Calling (Waiting e)) -> In (LFired j e) ls -> run k s1 ls' s2 ->
  exists st, at_thread s2 i (Calling st) /\ served e st.
Proof.
  intros I H T F H'. induction H' as [|ls' s3 a s4 l H' IH A]; [eexists; split; [exact T|reflexivity]|].
  destruct IH as (st & T' & Sv). pose proof (ginv_run k _ _ _ I (run_app _ _ _ _ _ H H')) as G.
  assert (St : In e (sh_set (sy_shared s3))) by (apply (g_fired _ _ _ _ _ G j), in_or_app; auto). apply existsb_in in St.
  assert (Keep : forall h' j' t', j' <> i -> exists st, at_thread (mk_system h' (update (sy_threads s3) j' (fun _ => t'))) i (Calling st) /\ served e st).
  { intros. exists st. split; auto. apply at_update_other; auto. }
  unfold at_thread in T'. destruct a as [|c|j'|j' x|j']; cbn in A.
  - injection A as <- <-. exists st. split; auto. unfold at_thread. cbn. rewrite nth_error_app1; auto. apply nth_error_Some. congruence.
  - injection A as <- <-. exists st. split; auto. unfold at_thread. cbn. rewrite nth_error_app1; auto. apply nth_error_Some. congruence.
  - destruct (Nat.eq_dec j' i) as [->|Ne].
    2:{ destruct (nth_error (sy_threads s3) j') as [[st1|c st1]|]; [destruct (caller_go _ _ _ _) as [[[h' st'] l']|]|destruct (handler_go _ _ _ _) as [[[h' st'] l']|]|]; try discriminate; injection A as <- <-; apply Keep; auto. }
    rewrite T' in A. destruct (caller_go k i (sy_shared s3) st) as [[[h' st'] l']|] eqn:C; [|discriminate]. injection A as <- <-.
    exists st'. split; [eapply at_update_same; exact T'|]. destruct st as [| |x| |e'| | |id r| |x]; cbn in Sv; try contradiction; cbn in C; try discriminate.
    + subst e'. rewrite St in C. injection C as <- <- <-. exact Logic.I.
    + injection C as <- <- <-. exact Logic.I.
    + destruct (sh_response (sy_shared s3)) as [r|] eqn:E.
      * injection C as <- <- <-. destruct (k_key k r); cbn; eauto.
      * exfalso. destruct (g_thr _ _ _ _ _ G _ _ T') as [[_ []]|[_ [_ Ln]]]. destruct (last_stored (ls ++ ls')) as [[j0 r0]|] eqn:L; [|congruence]. destruct (g_last _ _ _ _ _ G _ _ L) as [X _]. congruence.
    + injection C as <- <- <-. cbn. eauto.
  - destruct (Nat.eq_dec j' i) as [->|Ne].
    + rewrite T' in A. destruct st; try discriminate. destruct Sv.
    + destruct (nth_error (sy_threads s3) j') as [[[]|]|]; try discriminate. injection A as <- <-. apply Keep; auto.
  - destruct (Nat.eq_dec j' i) as [->|Ne].
    + rewrite T' in A. destruct st as [| | | |e'| | | | |]; try discriminate. cbn in Sv. subst e'. rewrite St in A. discriminate.
    + destruct (nth_error (sy_threads s3) j') as [[st1|]|]; try discriminate. destruct st1; try discriminate. destruct (existsb _ _); [discriminate|]. injection A as <- <-. apply Keep; auto.
Qed.
Lemma served_ends s ls s1 i e j ls' s2 x : idle s -> run k s ls s1 -> at_thread s1 i (Calling (Waiting e)) -> In (LFired j e) ls -> run k s1 ls' s2 ->
  at_thread s2 i (Calling (Over x)) -> exists r, x = Ok (Some r).
Proof. intros I H T F H' T'. destruct (served_run _ _ _ _ _ _ _ _ I H T F H') as (st & T2 & Sv). unfold at_thread in *. rewrite T' in T2. injection T2 as <-. exact Sv. Qed.
Lemma forgotten s ls s1 i e j e' s2 ls' s3 st : idle s -> run k s ls s1 -> (length (sy_threads s) <= i)%nat -> at_thread s1 i (Calling (Waiting e)) -> (forall j, ~ In (LFired j e) ls) ->
  act k s1 (AGo j) = Some (s2, LEvent j e') -> run k s2 ls' s3 -> at_thread s3 i (Calling st) ->
  st = Waiting e \/ st = GivenUp \/ st = Over (Err (TimeoutException None)).
Proof.
  intros I H Ln T F A H' T3. pose proof (ginv_run k _ _ _ I H) as G.
  pose proof (g_waits _ _ _ _ _ G _ _ T) as L.
  assert (M : (sh_made (sy_shared s) <= e)%nat) by (destruct (g_thr _ _ _ _ _ G _ _ T) as [[? _]|[_ [_ ?]]]; lia).
  assert (NI : ~ In e (sh_set (sy_shared s1))) by (intro X; apply (g_src _ _ _ _ _ G) in X as [X|(j0 & X)]; [lia|exact (F _ X)]).
  cbn in A. destruct (nth_error (sy_threads s1) j) as [[st1|c st1]|] eqn:Tj; [| |discriminate].
  2:{ destruct (handler_go j c (sy_shared s1) st1) as [[[h' st'] l']|] eqn:C; [|discriminate]. injection A as <- ->. destruct st1; cbn in C; [destruct (sh_event (sy_shared s1))|destruct c|destruct (sh_event (sy_shared s1))|]; discriminate. }
  destruct (caller_go k j (sy_shared s1) st1) as [[[h' st'] l']|] eqn:C; [|discriminate]. injection A as <- ->.
  assert (st1 = Begin) as ->. { destruct st1; cbn in C; auto; try discriminate; [destruct (sh_event (sy_shared s1))|destruct (existsb _ _)|destruct (sh_response (sy_shared s1))]; discriminate. }
  cbn in C. injection C as <- <- <-.
  assert (Ne : i <> j) by (intros ->; unfold at_thread in T; congruence).
  destruct (forgotten_run k _ _ _ i e H') as [X _]; cbn; auto; [apply at_update_other; auto|intro Q; injection Q as Q; lia|].
  unfold at_thread in *. rewrite T3 in X. destruct X as [X|[X|X]]; injection X as ->; auto.
Qed.

(** executions from lists of steps *)
Fixpoint exec s (l : list (action R)) : option (list (label R) * system R) :=
  match l with
  | [] => Some ([], s)
  | a :: l' => match act k s a with Some (s1, lb) => match exec s1 l' with Some (ls, s2) => Some (lb :: ls, s2) | None => None end | None => None end
  end.
Lemma exec_run l : forall s ls s', exec s l = Some (ls, s') -> run k s ls s'.
Proof.
  induction l as [|a l IH]; intros s ls s' H; cbn in H; [injection H as <- <-; constructor|].
  destruct (act k s a) as [[s1 lb]|] eqn:A; [|discriminate]. destruct (exec s1 l) as [[ls1 s2]|] eqn:E; [|discriminate]. injection H as <- <-. eapply run_first; eauto.
Qed.
End Meet.

(** ** What goes wrong *)
Definition ok : res (list str) := Ok [lit "OK"].
Definition goes {R} (i n : nat) : list (action R) := repeat (AGo i) n.
(** sequences of steps: [n] steps end a call that is woken *)
Definition stale_steps {R} (r : R) n : list (action R) :=
  [ACall; AGo 0%nat; AWriteEnds 0%nat ok; AGo 0%nat; ANotified (Ok r); AGo 1%nat; AGiveUp 0%nat; AGo 0%nat;
   ACall; AGo 2%nat; AWriteEnds 2%nat ok; AGo 2%nat; AGo 1%nat; AGo 1%nat] ++ goes 2 n.
Definition shared_steps {R} (r : R) n : list (action R) :=
  [ACall; ACall; AGo 0%nat; AGo 1%nat; AWriteEnds 0%nat ok; AWriteEnds 1%nat ok; AGo 0%nat; AGo 1%nat; ANotified (Ok r); AGo 2%nat; AGo 2%nat; AGo 2%nat] ++ goes 0 n ++ goes 1 n.
Definition stolen_steps {R} (r : R) n : list (action R) :=
  [ACall; AGo 0%nat; AWriteEnds 0%nat ok; AGo 0%nat; ACall; AGo 1%nat; AWriteEnds 1%nat ok; AGo 1%nat; ANotified (Ok r); AGo 2%nat; AGo 2%nat; AGo 2%nat] ++ goes 1 n ++ [AGiveUp 0%nat; AGo 0%nat].
Definition cleared_steps {R} (e : exn) : list (action R) :=
  [ACall; ACall; AGo 0%nat; AGo 1%nat; AWriteEnds 0%nat ok; AWriteEnds 1%nat (Err e); AGo 1%nat; AGo 0%nat].
Definition late_steps {R} (r : R) : list (action R) :=
  [ACall; AGo 0%nat; AWriteEnds 0%nat ok; AGo 0%nat; ANotified (Ok r); AGo 1%nat; AGiveUp 0%nat; AGo 0%nat; AGo 1%nat; AGo 1%nat].

Lemma ussd_ack a : match k_ack ussd_kind a with Some y => ussd_in_ack a /\ y = parseCusdResponse a | None => ~ ussd_in_ack a end.
Proof.
  unfold k_ack, ussd_kind. destruct a as [|a [|b l]]; [intros [L _]; cbn in L; lia..|]. pose proof (starting_with_spec (lit "+CUSD") (a :: b :: l)) as S.
  destruct (lineStartingWith (lit "+CUSD") (a :: b :: l)) as [x|].
  - split; auto. split; [cbn; lia|]. destruct S as (p & q & E & (r & Er) & _). exists x, r. split; auto. rewrite E. apply in_or_app. right. left. auto.
  - intros [_ (x & r & I & E)]. apply (S x I). eauto.
Qed.
