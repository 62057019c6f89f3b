(** Proofs about calls and several threads: how the threads end. *)
From Verif Require Import Base ModemCore SmsModel CallModel TrackProofs ModemSpec BookSpec BookProofs RaceModel RaceSpec RaceProofs RaceInv RaceFinal.

Theorem ended_how s ls s' i x : indexed s -> run s ls s' -> (length (sy_threads s) <= i)%nat -> at_thread s' i (TEnd (EOver x)) ->
  ((x = Fine \/ x = SizeChanged) /\ forall id n, ~ In (LFound i id n) ls) \/
  exists id n, In (LFound i id n) ls /\ (forall id', ~ listed s' id' n) /\ (x = Fine \/ x = Raised KeyError /\ robbed i id n ls).
Proof. intros Ix R L T. pose proof (allok_run _ _ _ Ix R i _ L T) as H. cbn in H. destruct H as [[H U]|(id & n & F & _ & _ & G & X)]; [left; auto|]. right. exists id, n. auto. Qed.
Theorem hung_how s ls s' i n x : indexed s -> run s ls s' -> (length (sy_threads s) <= i)%nat -> at_thread s' i (THang n (HOver x)) ->
  (exists e, x = Raised e /\ In (LWrote i (lit "ATH") (Err e)) ls) \/
  gone s' n /\ (x = Fine \/ x = Raised KeyError /\ exists c m, has_call s' n c /\ robbed i (c_id c) m ls).
Proof. intros Ix R L T. pose proof (allok_run _ _ _ Ix R i _ L T) as H. cbn in H. destruct H as (c & C & [H|(A & G & X)]); [left; auto|]. right. split; [split; eauto|]. destruct X as [X|(X & m & Rb)]; eauto 6. Qed.
Theorem rung_how s ls s' i number ty x : indexed s -> run s ls s' -> (length (sy_threads s) <= i)%nat -> at_thread s' i (TRing number ty (ROver x)) ->
  (x = Fine /\ exists n c, told_by i ls = [n] /\ has_call s' n c /\ c_incoming c = true /\ c_number c = number) \/
  told_by i ls = [] /\ (x = SizeChanged \/ x = Raised AttributeError \/ x = Raised KeyError).
Proof. intros Ix R L T. pose proof (allok_run _ _ _ Ix R i _ L T) as H. cbn in H. destruct H as [(X & n & Tb & c & C & I & E)|H]; auto. left. split; auto. exists n, c. auto. Qed.
Theorem dialled_how s ls s' i number cb n : indexed s -> run s ls s' -> (length (sy_threads s) <= i)%nat -> at_thread s' i (TDial number cb (DOver n)) ->
  exists c, In (LEntered i (c_id c) n) ls /\ has_call s' n c /\ c_incoming c = false /\ c_number c = Some number /\ c_callback c = cb.
Proof. intros Ix R L T. pose proof (allok_run _ _ _ Ix R i _ L T) as H. cbn in H. destruct H as (id & c & I & C & <- & H). exists c. auto. Qed.
Theorem answered_how s ls s' i x : indexed s -> run s ls s' -> (length (sy_threads s) <= i)%nat -> at_thread s' i (TAnswered (AOver x)) -> x = Fine \/ x = Raised KeyError \/ x = SizeChanged.
Proof. intros Ix R L T. exact (allok_run _ _ _ Ix R i _ L T). Qed.
Theorem picked_how s ls s' i n x : indexed s -> run s ls s' -> (length (sy_threads s) <= i)%nat -> at_thread s' i (TPick n (POver x)) -> x = Fine \/ exists e, x = Raised e /\ In (LWrote i (lit "ATA") (Err e)) ls.
Proof. intros Ix R L T. exact (allok_run _ _ _ Ix R i _ L T). Qed.

(** ** What is recorded is what happens *)
Ltac inner H := repeat match type of H with context [match ?x with _ => _ end] => match x with context [match _ with _ => _ end] => fail 1 | _ => destruct x eqn:? end end; try discriminate H.
Lemma found_means s i t p' t' j id n : thread_step i (sy_phone s) t p' t' (LFound j id n) -> listed s id n /\ p' = sy_phone s.
Proof.
  intros [H|[(x & H & ->)|(o & H & ->)]].
  - destruct t as [st|st|k st|k st|nb ty st|nb cb st]; destruct st; cbn [go end_go answered_go hang_go pick_go ring_go dial_go] in H; try discriminate H; unfold mark, delete in H; inner H; injection H; intros; subst; (split; [apply zget_listed; assumption|reflexivity]).
  - destruct t as [st|st|k st|k st|nb ty st|nb cb st]; destruct st; discriminate H.
  - destruct t as [st|st|k st|k st|nb ty st|nb cb st]; destruct st; cbn in H; try discriminate H; inner H; discriminate H.
Qed.
Lemma status_means s i t p' t' j n : thread_step i (sy_phone s) t p' t' (LStatus j n) -> exists c, has_call s n c /\ c_callback c = true.
Proof.
  assert (K : forall n, c_callback (call_at (sy_phone s) n) = true -> exists c, has_call s n c /\ c_callback c = true).
  { intros k H. unfold call_at in H. unfold has_call. destruct (nth_error (p_calls (sy_phone s)) k) as [c|] eqn:E.
    - rewrite (nth_error_nth _ _ _ E) in H. eauto.
    - rewrite nth_overflow in H by (apply nth_error_None; auto). discriminate H. }
  intros [H|[(x & H & ->)|(o & H & ->)]].
  - destruct t as [st|st|k st|k st|nb ty st|nb cb st]; destruct st; cbn [go end_go answered_go hang_go pick_go ring_go dial_go] in H; try discriminate H; unfold mark, delete in H; inner H; injection H; intros; subst; apply K; assumption.
  - destruct t as [st|st|k st|k st|nb ty st|nb cb st]; destruct st; discriminate H.
  - destruct t as [st|st|k st|k st|nb ty st|nb cb st]; destruct st; cbn in H; try discriminate H; inner H; discriminate H.
Qed.
Theorem means s a s' l : indexed s -> act s a = Some (s', l) -> meant s l s'.
Proof.
  intros Ix A. destruct (act_inv _ _ _ _ A) as [(t & _ & -> & ->)|(i & t & t' & p' & _ & St & ->)]; [split; reflexivity|].
  pose proof (step_effect _ _ _ _ _ _ St) as Ef. destruct l; cbn [meant sy_phone];
    try (apply (found_means _ _ _ _ _ _ _ _ St)); try (split; [exact (status_means _ _ _ _ _ _ _ St)|]); inversion Ef as [l0 Pl E1 E2|k f l0 T Pl E1 E2|c0 Ac E1 E2|id' k Z0 E1 E2]; subst; try contradiction; cbn; try (split; [reflexivity|]); rewrite ?update_length; auto.
  - split; [apply zget_listed; auto|]. split; [|reflexivity]. intros j m. unfold listed. cbn. rewrite (without_in _ _ _ (zdel_without _ _)). cbn. tauto.
  - split; [eauto|]. intros j m. unfold listed. cbn. rewrite (entered_in _ _ _ _ (zset_entered _ _ _) (proj1 Ix)). cbn. tauto.
Qed.

(** ** Loops *)
Lemma entries_eqb a b : list_eqb entry_eqb a b = true <-> a = b.
Proof.
  revert b. induction a as [|[x n] a IH]; intros [|[y m] b]; cbn; try (split; congruence). unfold entry_eqb at 1. cbn [fst snd]. rewrite !andb_true_iff, IH, Z.eqb_eq, Nat.eqb_eq. split; [intros [[-> ->] ->]; auto|intros [= -> -> ->]; auto].
Qed.
Lemma known_iff (table : list (Z * nat)) n : existsb (fun e => Nat.eqb (snd e) n) table = true <-> exists id, In (id, n) table.
Proof. rewrite existsb_exists. split; [intros ([id m] & I & E); apply Nat.eqb_eq in E; cbn in E; subst; eauto|intros (id & I); exists (id, n); split; auto; apply Nat.eqb_refl]. Qed.
Lemma update_here {A} (b : list A) t a f : update (b ++ t :: a) (length b) f = b ++ f t :: a.
Proof. induction b; cbn; congruence. Qed.
Lemma nth_here {A} (b : list A) t a : nth_error (b ++ t :: a) (length b) = Some t.
Proof. induction b; auto. Qed.
Definition goes (look : nat -> thread) (stop broke : thread) (o : option (option nat)) : thread :=
  match o with Some (Some n) => look n | Some None => stop | None => broke end.
Theorem turned p before t after l look stop broke s' : at_turn t l look stop broke ->
  (exists a lab, of_thread a (length before) /\ act (mk_system p (before ++ t :: after)) a = Some (s', lab)) <->
  exists o, gives (p_table p) l o /\ s' = mk_system p (before ++ match o with Some (Some n) => look n | Some None => stop | None => broke end :: after).
Proof.
  intro T.
  assert (G : forall lab s', act (mk_system p (before ++ t :: after)) (AGo (length before)) = Some (s', lab) <->
    lab = LQuiet (length before) /\ exists o, match next_turn p l with Yields n => o = Some (Some n) | Ends => o = Some None | Breaks => o = None | Unclear => False end /\
      s' = mk_system p (before ++ goes look stop broke o :: after)).
  { intros lab s1. cbn [act sy_phone sy_threads]. rewrite nth_here. destruct T; cbn [go end_go answered_go ring_go]; destruct (next_turn p l) as [n| | |]; cbn [end_turn answered_turn ring_turn];
      rewrite ?update_here; (split; [intro H; inversion H; subst; split; auto; eexists; split; reflexivity|intros (-> & o & E & ->); try (destruct E; fail); subst o; reflexivity]). }
  assert (W : forall x, act (mk_system p (before ++ t :: after)) (AWritten (length before) x) = None).
  { intro x. cbn [act sy_phone sy_threads]. rewrite nth_here. destruct T; reflexivity. }
  assert (B : forall o lab s', act (mk_system p (before ++ t :: after)) (ABlurred (length before) o) = Some (s', lab) <->
    lab = LQuiet (length before) /\ next_turn p l = Unclear /\ (forall n, o = Some n -> exists id, In (id, n) (p_table p)) /\
      s' = mk_system p (before ++ goes look stop broke (Some o) :: after)).
  { intros o lab s1. cbn [act sy_phone sy_threads]. rewrite nth_here.
    assert (K : (match o with Some n => existsb (fun e => Nat.eqb (snd e) n) (p_table p) | None => true end = true) <-> forall n, o = Some n -> exists id, In (id, n) (p_table p)).
    { destruct o as [n|]; [rewrite known_iff; split; [intros H m [= <-]; auto|auto]|split; [discriminate|auto]]. }
    destruct T; cbn [blurred]; destruct (next_turn p l) as [n| | |]; try (split; [discriminate|intros (_ & F & _); discriminate F]);
      destruct (match o with Some n => existsb (fun e => Nat.eqb (snd e) n) (p_table p) | None => true end); destruct o as [n|]; cbn [some_turn end_turn answered_turn ring_turn]; rewrite ?update_here;
      (split; [intro H; inversion H; subst; repeat split; auto; apply K; auto|intros (-> & _ & F & ->); try reflexivity; apply K in F; discriminate F]). }
  unfold next_turn in G, B. destruct (Nat.eqb_spec (length (p_table p)) (length (seen l))) as [E|E].
  - destruct (list_eqb entry_eqb (p_table p) (seen l)) eqn:Eq.
    + apply entries_eqb in Eq. destruct (nth_error (seen l) (pos l)) as [[id n]|] eqn:Nt.
      * split.
        -- intros ([t1|j|j x|j o] & lab & O & A); cbn in O; try contradiction; subst j; [|rewrite W in A; discriminate A|apply B in A as (_ & F & _); discriminate F].
           apply G in A as (_ & o & -> & ->). exists (Some (Some n)). split; auto. apply (gv_next _ _ id); congruence.
        -- intros (o & Gv & ->). exists (AGo (length before)), (LQuiet (length before)). split; [reflexivity|]. apply G. split; auto. exists (Some (Some n)). split; auto. unfold goes.
           inversion Gv as [id' n' E1 E2|E1 E2|id' n' E1 E2 E3|E1 E2|E1]; subst; try congruence.
           apply nth_error_None in E2. congruence.
      * split.
        -- intros ([t1|j|j x|j o] & lab & O & A); cbn in O; try contradiction; subst j; [|rewrite W in A; discriminate A|apply B in A as (_ & F & _); discriminate F].
           apply G in A as (_ & o & -> & ->). exists (Some None). split; auto. apply gv_end; auto. apply nth_error_None. congruence.
        -- intros (o & Gv & ->). exists (AGo (length before)), (LQuiet (length before)). split; [reflexivity|]. apply G. split; auto. exists (Some None). split; auto. unfold goes.
           inversion Gv as [id' n' E1 E2|E1 E2|id' n' E1 E2 E3|E1 E2|E1]; subst; try congruence.
    + assert (Ne : p_table p <> seen l) by (intro F; apply entries_eqb in F; congruence). split.
      * intros ([t1|j|j x|j o] & lab & O & A); cbn in O; try contradiction; subst j; [apply G in A as (_ & o & [] & _)|rewrite W in A; discriminate A|].
        apply B in A as (_ & _ & K & ->). exists (Some o). split; auto. destruct o as [n|]; [|apply gv_stop; auto]. destruct (K n eq_refl) as (id & I). eapply gv_any; eauto.
      * intros (o & Gv & ->). inversion Gv as [id' n' E1 E2|E1 E2|id' n' E1 E2 E3|E1 E2|E1]; subst; try congruence.
        -- exists (ABlurred (length before) (Some n')), (LQuiet (length before)). split; [reflexivity|]. apply B. repeat split; auto. intros m [= <-]. eauto.
        -- exists (ABlurred (length before) None), (LQuiet (length before)). split; [reflexivity|]. apply B. repeat split; auto. discriminate.
  - split.
    + intros ([t1|j|j x|j o] & lab & O & A); cbn in O; try contradiction; subst j; [|rewrite W in A; discriminate A|apply B in A as (_ & F & _); discriminate F].
      apply G in A as (_ & o & -> & ->). exists None. split; auto. apply gv_size; auto.
    + intros (o & Gv & ->). exists (AGo (length before)), (LQuiet (length before)). split; [reflexivity|]. apply G. split; auto. exists None. split; auto. unfold goes.
      inversion Gv as [id' n' E1 E2|E1 E2|id' n' E1 E2 E3|E1 E2|E1]; subst; try congruence; rewrite ?E1 in E; congruence.
Qed.
