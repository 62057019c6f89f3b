(** Proofs about calls and several threads: what can always go on, and what can go wrong. *)
From Verif Require Import Base ModemCore SmsModel CallModel TrackProofs ModemSpec BookSpec BookProofs RingProofs RaceModel RaceSpec RaceProofs RaceInv.

(** as split_step, from the inside *)
Ltac inside H := repeat match type of H with context [match ?x with _ => _ end] => match x with context [match _ with _ => _ end] => fail 1 | _ => destruct x end end; try discriminate H.
Lemma over_or t : (exists x, over t x) \/ forall x, ~ over t x.
Proof. destruct t as [st|st|n st|n st|nb ty st|nb cb st]; destruct st; try (left; eexists; once constructor; fail); right; intros x H; inversion H. Qed.
Theorem can_move s i t : at_thread s i t -> (exists x, over t x) \/ exists a s' l, of_thread a i /\ act s a = Some (s', l).
Proof.
  intro T. unfold at_thread in T.
  assert (G : forall p' t' l, go i (sy_phone s) t = Some (p', t', l) -> exists a s' l, of_thread a i /\ act s a = Some (s', l)).
  { intros p' t' l H. exists (AGo i). cbn. rewrite T, H. eauto. }
  assert (W : forall t' l, written i t (Ok tt) = Some (t', l) -> exists a s' l, of_thread a i /\ act s a = Some (s', l)).
  { intros t' l H. exists (AWritten i (Ok tt)). cbn [act]. rewrite T, H. cbn. eauto. }
  assert (B : forall t' l, blurred i (sy_phone s) t None = Some (t', l) -> exists a s' l, of_thread a i /\ act s a = Some (s', l)).
  { intros t' l H. exists (ABlurred i None). cbn [act]. rewrite T, H. cbn. eauto. }
  destruct t as [st|st|n st|n st|nb ty st|nb cb st]; destruct st; try (left; eexists; once constructor; fail); right;
    try (eapply G; reflexivity); try (eapply W; reflexivity); unfold go, end_go, answered_go, hang_go, pick_go, ring_go, dial_go, delete, mark in G; unfold blurred in B; cbn [some_turn] in B;
    try match goal with l : loop |- _ => destruct (next_turn (sy_phone s) l); cbn in G, B end; try (eapply G; reflexivity); try (eapply B; reflexivity);
    repeat match type of G with context [match ?x with _ => _ end] => match x with context [match _ with _ => _ end] => fail 1 | _ => destruct x end end; try (eapply G; reflexivity); eapply B; reflexivity.
Qed.

(** ** Threads without loops *)
Definition still (t : thread) : option nat :=
  match t with
  | TEnd (ETest _) => Some 6 | TEnd (EGet1 _) => Some 5 | TEnd (EUnanswer _ _) => Some 4 | TEnd (EGet2 _) => Some 3 | TEnd (EStop _ _) => Some 2 | TEnd (EDel _) => Some 1 | TEnd (EOver _) => Some 0
  | TAnswered (AGet _) => Some 2 | TAnswered (AAnswer _) => Some 1 | TAnswered (AOver _) => Some 0
  | THang _ HHush => Some 7 | THang _ HActive => Some 6 | THang _ HWrite => Some 5 | THang _ HUnanswer => Some 4 | THang _ HStop => Some 3 | THang _ HIn => Some 2 | THang _ HDel => Some 1 | THang _ (HOver _) => Some 0
  | TPick _ PRinging => Some 4 | TPick _ PWrite => Some 3 | TPick _ PHush => Some 2 | TPick _ PAnswer => Some 1 | TPick _ (POver _) => Some 0
  | TDial _ _ DLen => Some 2 | TDial _ _ (DEnter _ _) => Some 1 | TDial _ _ (DOver _) => Some 0
  | _ => None
  end%nat.
Lemma still_step i p t p' t' l k : thread_step i p t p' t' l -> still t = Some k -> exists k', still t' = Some k' /\ (k' < k)%nat.
Proof.
  intros [H|[(x & H & ->)|(o & H & ->)]] S; destruct t as [st|st|n st|n st|nb ty st|nb cb st]; destruct st; cbn [still] in S; try discriminate S; injection S as <-;
    cbn [go end_go answered_go hang_go pick_go ring_go dial_go written blurred] in H; try discriminate H; unfold mark, delete in H; inside H; injection H; intros; subst; cbn [still]; try (destruct x); try match goal with |- context [if ?b then _ else _] => destruct b end; eexists; (split; [reflexivity|lia]).
Qed.
Lemma steps_app i l1 l2 : steps i (l1 ++ l2) = (steps i l1 + steps i l2)%nat.
Proof. unfold steps. rewrite filter_app, app_length. auto. Qed.
Lemma act_threads s a s' l : act s a = Some (s', l) -> (length (sy_threads s) <= length (sy_threads s'))%nat.
Proof. intro A. destruct (act_inv _ _ _ _ A) as [(t & _ & -> & _)|(i & t & t' & p' & _ & _ & ->)]; cbn; [rewrite app_length; lia|rewrite update_length; lia]. Qed.
Lemma start_fresh s ls s' : run s ls s' -> forall i t, In (LStart i t) ls -> (length (sy_threads s) <= i)%nat.
Proof.
  induction 1 as [|ls s1 a s2 l R IH A]; intros i t I; [contradiction|]. apply in_app_iff in I as [I|[->|[]]]; [eauto|].
  destruct (labels_run _ _ _ R) as [Le _]. destruct (act_inv _ _ _ _ A) as [(u & _ & _ & E)|(j & u & u' & p' & _ & St & _)]; [injection E as -> _; auto|].
  exfalso. destruct St as [H|[(x & H & _)|(o & H & _)]]; destruct u as [st|st|n st|n st|nb ty st|nb cb st]; destruct st; cbn [go end_go answered_go hang_go pick_go ring_go dial_go written blurred] in H; try discriminate H; unfold mark, delete in H; inside H; try discriminate H; injection H; intros; subst; try discriminate.
Qed.
Theorem bounded s ls s' i t : run s ls s' -> In (LStart i t) ls -> loops t = false -> (steps i ls <= 7)%nat.
Proof.
  assert (H : run s ls s' -> forall i t, In (LStart i t) ls -> loops t = false -> exists u k, at_thread s' i u /\ still u = Some k /\ (steps i ls + k <= 7)%nat).
  { induction 1 as [|ls s1 a s2 l R IH A]; intros j u I L; [contradiction|]. destruct (labels_run _ _ _ R) as [_ Lb].
    destruct (act_inv _ _ _ _ A) as [(v & B & Es & El)|(k & v & v' & p' & T & St & Es)].
    - subst s2 l. apply in_app_iff in I as [I|[I|[]]].
      + destruct (IH _ _ I L) as (w & k & T & S & Le). exists w, k. split; [unfold at_thread in *; cbn [sy_threads]; rewrite nth_error_app1; auto; apply nth_error_Some; congruence|]. split; auto. rewrite steps_app. cbn. lia.
      + injection I as <- <-. assert (Z0 : steps (length (sy_threads s1)) ls = 0%nat).
        { unfold steps. assert (F : forall l0, In l0 ls -> by_thread l0 <> length (sy_threads s1)) by (intros l0 I0; specialize (Lb _ I0); lia).
          clear - F. induction ls as [|x ls IH]; auto. cbn [filter]. assert (N : Nat.eqb (by_thread x) (length (sy_threads s1)) = false) by (apply Nat.eqb_neq; apply F; left; auto).
          destruct x; try (cbn in N |- *; rewrite ?N; apply IH; intros l0 I0; apply F; right; exact I0). }
        exists v. unfold at_thread. cbn [sy_threads]. rewrite nth_error_app2, Nat.sub_diag by auto. rewrite steps_app, Z0. destruct v as [st|st|n st|n st|nb ty st|nb cb st]; destruct st; cbn in B, L; try discriminate; cbn; eexists; (split; [reflexivity|split; [reflexivity|lia]]).
    - assert (Bt := step_by _ _ _ _ _ _ St). apply in_app_iff in I as [I|[I|[]]].
      + destruct (IH _ _ I L) as (w & m & T' & S & Le). rewrite steps_app. unfold at_thread in *. subst s2. cbn [sy_threads]. rewrite update_nth. destruct (Nat.eqb_spec k j) as [->|N].
        * rewrite T'. assert (w = v) by congruence. subst w. destruct (still_step _ _ _ _ _ _ _ St S) as (m' & S' & Lt). exists v', m'. split; auto. split; auto. assert (steps j [l] <= 1)%nat; [|lia]. unfold steps. cbn. destruct l; cbn; try lia; destruct (Nat.eqb _ _); cbn; lia.
        * exists w, m. split; auto. split; auto. assert (steps j [l] = 0)%nat; [|lia]. unfold steps. cbn. destruct l; cbn in Bt |- *; subst; auto; destruct (Nat.eqb_spec k j); cbn; auto; congruence.
      + exfalso. subst l. destruct St as [H|[(x & H & _)|(o & H & _)]]; destruct v as [st|st|n st|n st|nb ty st|nb cb st]; destruct st; cbn [go end_go answered_go hang_go pick_go ring_go dial_go written blurred] in H; try discriminate H; unfold mark, delete in H; inside H; try discriminate H; injection H; intros; subst; discriminate. }
  intros R I L. destruct (H R i t I L) as (u & k & _ & _ & Le). lia.
Qed.

(** ** Executions *)
Fixpoint exec (s : system) (acts : list action) : option (list label * system) :=
  match acts with
  | [] => Some ([], s)
  | a :: acts => match act s a with
                 | Some (s1, l) => match exec s1 acts with Some (ls, s2) => Some (l :: ls, s2) | None => None end
                 | None => None
                 end
  end.
Lemma run_cat s l1 s1 : run s l1 s1 -> forall l2 s2, run s1 l2 s2 -> run s (l1 ++ l2) s2.
Proof. intros R1 l2 s2 R2. induction R2 as [|ls sa a sb l R IH A]; [rewrite app_nil_r; auto|]. rewrite app_assoc. eapply run_snoc; eauto. Qed.
Lemma exec_run acts : forall s ls s', exec s acts = Some (ls, s') -> run s ls s'.
Proof.
  induction acts as [|a acts IH]; intros s ls s' H; cbn [exec] in H; [injection H as <- <-; constructor|].
  destruct (act s a) as [[s1 l]|] eqn:A; [|discriminate]. destruct (exec s1 acts) as [[ls1 s2]|] eqn:E; [|discriminate]. injection H as <- <-.
  apply (run_cat s [l] s1); [|apply IH; auto]. apply (run_snoc s [] s a); [constructor|auto].
Qed.

(** ** What can go wrong *)
Ltac executed acts := match goal with |- exists ls s', run ?s ls s' /\ _ =>
  let E := fresh "E" in destruct (exec s acts) as [[ls s']|] eqn:E; [exists ls, s'; split; [exact (exec_run _ _ _ _ E)|]|exfalso] end.
Ltac cleaned E c := destruct c as [cid inc cty nb cb ans act ring rc]; destruct inc, cb; cbn [c_id c_active c_ringing c_incoming c_number c_ringCount] in *; subst; try discriminate;
  repeat (progress (cbv -[Z.eqb Z.add opt_str_eqb] in E; rewrite ?Z.eqb_refl in E; repeat match goal with H : (_ =? _) = false |- _ => rewrite H in E end)); try discriminate E;
  injection E as <- <-.
Definition go_on (i k : nat) : list action := repeat (AGo i) k.
Lemma gone_only s n c : has_call s n c -> c_active c = false -> p_table (sy_phone s) = [] -> gone s n.
Proof. intros H A T. split; [eauto|]. intros id. unfold listed. rewrite T. auto. Qed.

Theorem hangup_robbed c : c_active c = true -> c_id c <> 0 ->
  exists ls s', run (only c) ls s' /\ at_thread s' 0 (THang 0 (HOver (Raised KeyError))) /\ at_thread s' 1 (TEnd (EOver Fine)) /\ gone s' 0.
Proof.
  intros Ac Ni. apply Z.eqb_neq in Ni.
  executed ([ABegin (THang 0 HHush)] ++ go_on 0 2 ++ [AWritten 0 (Ok tt)] ++ go_on 0 3 ++ [ABegin (TEnd (ETest (c_id c)))] ++ go_on 1 6 ++ go_on 0 1).
  - cleaned E c; (split; [reflexivity|]; split; [reflexivity|]; eapply gone_only; reflexivity).
  - cleaned E c.
Qed.
Theorem handler_robbed c : c_active c = true -> c_id c <> 0 ->
  exists ls s', run (only c) ls s' /\ at_thread s' 0 (THang 0 (HOver Fine)) /\ at_thread s' 1 (TEnd (EOver (Raised KeyError))) /\ gone s' 0.
Proof.
  intros Ac Ni. apply Z.eqb_neq in Ni.
  executed ([ABegin (THang 0 HHush)] ++ go_on 0 2 ++ [AWritten 0 (Ok tt)] ++ go_on 0 3 ++ [ABegin (TEnd (ETest (c_id c)))] ++ go_on 1 5 ++ go_on 0 1 ++ go_on 1 1).
  - cleaned E c; (split; [reflexivity|]; split; [reflexivity|]; eapply gone_only; reflexivity).
  - cleaned E c.
Qed.
(** two RINGs of one caller, handled at once *)
Theorem rung_twice number : exists ls s', run none ls s' /\
  at_thread s' 0 (TRing number None (ROver Fine)) /\ at_thread s' 1 (TRing number None (ROver Fine)) /\ told_by 0 ls = [0%nat] /\ told_by 1 ls = [1%nat] /\
  (exists c, has_call s' 0 c /\ c_number c = number /\ c_active c = true /\ c_ringCount c = 1) /\ (exists c, has_call s' 1 c /\ c_number c = number /\ c_active c = true /\ c_ringCount c = 1) /\
  p_table (sy_phone s') = [(1, 1%nat)].
Proof.
  executed ([ABegin (TRing number None RSearch); ABegin (TRing number None RSearch)] ++ go_on 0 3 ++ go_on 1 3 ++ go_on 0 2 ++ go_on 1 2).
  - cbv -[Z.eqb] in E. injection E as <- <-. repeat (split; [try reflexivity; eexists; repeat (split; [reflexivity|]); reflexivity|]). reflexivity.
  - discriminate E.
Qed.
(** a RING is lost when a call ends meanwhile *)
Theorem ring_lost c number ty : c_active c = true -> c_id c <> 0 ->
  exists ls s', run (only c) ls s' /\ at_thread s' 0 (TRing number ty (ROver SizeChanged)) /\ told_by 0 ls = [] /\ length (p_calls (sy_phone s')) = 1%nat /\ p_table (sy_phone s') = [].
Proof.
  intros Ac Ni. apply Z.eqb_neq in Ni. executed ([ABegin (TRing number ty RSearch); AGo 0; ABegin (TEnd (ETest (c_id c)))] ++ go_on 1 6 ++ go_on 0 1).
  - cleaned E c; repeat (split; [reflexivity|]); reflexivity.
  - cleaned E c.
Qed.
(** a call that has ended is answered *)
Theorem answered_late c : c_incoming c = true -> c_active c = true -> c_ringing c = true -> c_id c <> 0 ->
  exists ls s', run (only c) ls s' /\ at_thread s' 0 (TPick 0 (POver Fine)) /\ gone s' 0 /\ exists c', has_call s' 0 c' /\ c_answered c' = true.
Proof.
  intros In Ac Ri Ni. apply Z.eqb_neq in Ni. executed ([ABegin (TPick 0 PRinging); AGo 0; AWritten 0 (Ok tt); ABegin (TEnd (ETest (c_id c)))] ++ go_on 1 6 ++ go_on 0 2).
  - cleaned E c; (split; [reflexivity|]; split; [eapply gone_only; reflexivity|]; eexists; split; reflexivity).
  - cleaned E c.
Qed.
(** two RINGs of a known caller: two callbacks, counted as one *)
Theorem ring_uncounted c ty : c_incoming c = true ->
  exists ls s', run (only c) ls s' /\ at_thread s' 0 (TRing (c_number c) ty (ROver Fine)) /\ at_thread s' 1 (TRing (c_number c) ty (ROver Fine)) /\ told_by 0 ls = [0%nat] /\ told_by 1 ls = [0%nat] /\
    exists c', has_call s' 0 c' /\ c_ringCount c' = c_ringCount c + 1.
Proof.
  intros In. assert (O : opt_str_eqb (c_number c) (c_number c) = true). { destruct (opt_str_eqb_spec (c_number c) (c_number c)); auto. }
  executed ([ABegin (TRing (c_number c) ty RSearch); ABegin (TRing (c_number c) ty RSearch)] ++ go_on 0 3 ++ go_on 1 3 ++ go_on 0 3 ++ go_on 1 3);
  destruct c as [cid inc cty nb cb ans act ring rc]; cbn [c_id c_active c_ringing c_incoming c_number c_ringCount] in *; subst inc;
    (repeat (progress (cbv -[Z.eqb Z.add opt_str_eqb] in E; rewrite ?Z.eqb_refl, ?O in E))); [|discriminate E].
  injection E as <- <-. repeat (split; [reflexivity|]). eexists. split; reflexivity.
Qed.
(** two calls made at once have the same id, and one is not in the table *)
Theorem dialled_twice n1 n2 cb1 cb2 : exists ls s', run none ls s' /\ at_thread s' 0 (TDial n1 cb1 (DOver 0)) /\ at_thread s' 1 (TDial n2 cb2 (DOver 1)) /\
  has_call s' 0 (new_call 1 0 n1 cb1) /\ has_call s' 1 (new_call 1 0 n2 cb2) /\ p_table (sy_phone s') = [(1, 1%nat)].
Proof.
  executed ([ABegin (TDial n1 cb1 DLen); ABegin (TDial n2 cb2 DLen)] ++ go_on 0 1 ++ go_on 1 1 ++ go_on 0 1 ++ go_on 1 1).
  - cbv -[Z.eqb new_call] in E. injection E as <- <-. repeat (split; [reflexivity|]). reflexivity.
  - discriminate E.
Qed.
(** hangup() of one call removes another, which has just begun, from the table *)
Theorem wrong_removed c number : c_active c = true -> c_id c = 1 ->
  exists ls s', run (only c) ls s' /\ at_thread s' 0 (THang 0 (HOver Fine)) /\ told_by 2 ls = [1%nat] /\ (exists c', has_call s' 1 c' /\ c_number c' = number /\ c_active c' = true) /\ p_table (sy_phone s') = [].
Proof.
  intros Ac Ni.
  executed ([ABegin (THang 0 HHush)] ++ go_on 0 2 ++ [AWritten 0 (Ok tt)] ++ go_on 0 3 ++ [ABegin (TEnd (ETest 1))] ++ go_on 1 6 ++ [ABegin (TRing number None RSearch)] ++ go_on 2 5 ++ go_on 0 1).
  - destruct c as [cid [] cty nb [] ans ca ring rc]; cbn [c_id c_active] in *; subst; vm_compute in E; injection E as <- <-; repeat (split; [try reflexivity; eexists; repeat (split; [reflexivity|]); reflexivity|]); reflexivity.
  - destruct c as [cid [] cty nb [] ans ca ring rc]; cbn [c_id c_active] in *; subst; vm_compute in E; discriminate E.
Qed.
