(** Proofs about several read threads. *)
From Verif Require Import Base RegexModel SerialModel SerialSpec LifeModel LifeSpec SpoofSpec CrowdModel CrowdSpec RegexProofs SerialProofs ThreadProofs LifeProofs SpoofProofs.

Lemma clabels_app a b : clabels (a ++ b) = clabels a ++ clabels b.
Proof. apply map_app. Qed.
Lemma base_app a b : base_labels (a ++ b) = base_labels a ++ base_labels b.
Proof. apply flat_map_app. Qed.
Lemma crun_join s t1 m : crun s t1 m -> forall t2 s', crun m t2 s' -> crun s (t1 ++ t2) s'.
Proof. intros R t2 s' R2. induction R2 as [|m t2 k a l k' R2 IH A]; [rewrite app_nil_r; auto|]. rewrite app_assoc. econstructor; eauto. Qed.
Lemma crun_one s a l s' : cact s a = Some (s', l) -> crun s [(a, l)] s'.
Proof. intro A. apply (crun_snoc s [] s a l s'); [constructor|auto]. Qed.
Lemma put_same {A} (l : list A) : forall k x, (k < length l)%nat -> nth_error (put_nth k x l) k = Some x.
Proof. induction l as [|y l IH]; intros [|k] x H; cbn in *; try lia; auto. apply IH. lia. Qed.
Lemma put_other {A} (l : list A) : forall k j x, j <> k -> nth_error (put_nth k x l) j = nth_error l j.
Proof. induction l as [|y l IH]; intros [|k] [|j] x H; cbn in *; try congruence; auto. Qed.
Lemma put_last {A} (l : list A) y x : put_nth (length l) x (l ++ [y]) = l ++ [x].
Proof. induction l as [|z l IH]; cbn; congruence. Qed.
Lemma set_own s : set_reader s (reader s) = s.
Proof. destruct s; reflexivity. Qed.

Lemma write_view s r i w : write_step (set_reader s r) i w = match write_step s i w with Some (s', l) => Some (set_reader s' r, l) | None => None end.
Proof.
  unfold write_step. cbn [set_reader writer lock evt is_set expect resp heap fresh notif reader].
  destruct (writer s i) as [|op|op|op|op| |ev|ok|ok|ok|op| |]; try reflexivity;
    try (destruct (lock s); reflexivity); try (destruct (evt s); reflexivity); try (destruct (resp s); reflexivity).
  - destruct (w_wait op); [destruct (w_expected op) as [[|]|]|]; reflexivity.
  - destruct (is_set s ev); [reflexivity|destruct (in_timeout w); reflexivity].
Qed.
Lemma write_reader s i w s' l : write_step s i w = Some (s', l) -> reader s' = reader s.
Proof. intro H. unfold write_step in H. break_step H; reflexivity. Qed.
Lemma life_write_view b r r' u o p p' ow i w e :
  life_write (mk_life (set_reader b r) u o p ow) i w e =
  match life_write (mk_life (set_reader b r') u o p' ow) i w e with
  | Some (x, l) => Some (mk_life (set_reader (base x) r) (up x) (is_open x) p (owner x), l)
  | None => None
  end.
Proof.
  unfold life_write. cbn [base up is_open loop owner]. rewrite (write_view b r), (write_view b r'). cbn [set_reader writer].
  destruct (write_step b i w) as [[b' l']|]; destruct (writer b i); try reflexivity; destruct (e || negb o); reflexivity.
Qed.

(** ** One thread at a time *)
Theorem crowd_alone tr s : crun c_init tr s -> one_at_a_time tr ->
  lrun l_init (map (fun x => (single (fst x), snd (snd x))) tr) (seen_by s (last (threads s) nobody)).
Proof.
  intros R O.
  enough (K : lrun l_init (map (fun x => (single (fst x), snd (snd x))) tr) (seen_by s (last (threads s) nobody)) /\ reader (shared s) = RIdle [] /\
    exists ts t, threads s = ts ++ [t] /\ Forall (fun t => fst t = PGone) ts) by tauto.
  remember c_init as s0 eqn:E0. induction R as [s|s tr s' a l s'' R IH H].
  { subst. split; [constructor|]. split; [reflexivity|]. exists [], (PTest, RIdle []). split; auto. }
  subst s. destruct IH as (IL & IR & ts & t & ET & F); auto.
  { intros tr1 l1 tr2 s1 E. apply (O tr1 l1 (tr2 ++ [(a, l)]) s1). rewrite E, <- app_assoc. reflexivity. }
  specialize (O tr l []). rewrite map_app. cbn [map]. rewrite ET, last_last in IL. destruct a as [k i e|i w e| |]; cbn [cact single fst snd] in *.
  - destruct (nth_error (threads s') k) as [t'|] eqn:N; [|discriminate]. destruct (loop_step (seen_by s' t') i e) as [[x lb]|] eqn:LS; [|discriminate].
    injection H as <- <-. rewrite ET in N. destruct (Nat.lt_ge_cases k (length ts)) as [Lk|Lk].
    { rewrite nth_error_app1 in N by auto. apply nth_error_In in N. rewrite Forall_forall in F. specialize (F _ N). unfold loop_step, seen_by in LS. cbn in LS. rewrite F in LS. discriminate. }
    rewrite nth_error_app2 in N by auto. destruct (k - length ts)%nat as [|d] eqn:D; cbn in N; [|destruct d; discriminate]. injection N as ->.
    assert (k = length ts) as -> by lia. split; [|split; [reflexivity|]].
    + cbn [back threads]. rewrite ET, put_last, last_last. econstructor; [exact IL|]. cbn [lact snd]. rewrite LS. f_equal. f_equal.
      unfold seen_by, back. cbn. destruct x as [b u o p w]. cbn. f_equal. unfold set_reader. destruct b; reflexivity.
    + exists ts, (loop x, reader (base x)). cbn [back threads]. rewrite ET, put_last. auto.
  - destruct (life_write (seen_by s' nobody) i w e) as [[x lb]|] eqn:LS; [|discriminate]. injection H as <- <-. cbn [snd back threads].
    split; [|split; [reflexivity|exists ts, t; auto]]. rewrite ET, last_last. econstructor; [exact IL|]. cbn [lact].
    unfold seen_by in *. cbn [fst snd nobody] in *. rewrite (life_write_view (shared s') (snd t) (RIdle []) _ _ (fst t) PGone), LS. reflexivity.
  - rewrite ET, last_last in H. destruct (close_step (seen_by s' t)) as [[x lb]|] eqn:LS; [|discriminate]. injection H as <- <-. cbn [snd back threads].
    split; [|split; [reflexivity|exists ts, t; auto]]. rewrite last_last. econstructor; [exact IL|]. cbn [lact]. rewrite LS. f_equal. f_equal.
    unfold close_step in LS. cbv zeta in LS. unfold seen_by in *. cbn in *. break_step LS; reflexivity.
  - destruct (c_owner s') eqn:Ow; try discriminate. injection H as <- <-. cbn [snd threads]. specialize (O s' eq_refl R). rewrite ET in O. apply Forall_app in O as [_ O]. inversion O as [|? ? Pt _]; subst.
    split; [|split; [exact IR|exists (ts ++ [t]), (PTest, RIdle []); rewrite ET; split; auto; apply Forall_app; auto]].
    rewrite last_last. econstructor; [exact IL|]. cbn [lact]. unfold connect_step, seen_by. cbn. rewrite Ow, Pt. reflexivity.
Qed.

(** ** The lines of each thread *)
Definition framed (r : rpc) (C : str) (H : list (str * bool)) : Prop :=
  rclean r /\ exists segs outs left, C = List.concat segs ++ left /\ Forall2 handed_over segs outs /\
    H = somes outs /\ Forall (fun x => ~ occurs crlf (fst x)) (somes outs) /\ rleft r left.
Definition char_in (l : label) : str := match l with LChar c => [c] | _ => [] end.
Definition line_in (l : label) : list (str * bool) := match l with LLine x c => [(x, c)] | _ => [] end.
Lemma framed_read s i s' l C HH : framed (reader s) C HH -> read_step s i = Some (s', l) -> framed (reader s') (C ++ char_in l) (HH ++ line_in l).
Proof.
  intros (CL & segs & outs & left & E & F & HO & FC & L) H. 
  assert (same : forall r, rclean r -> rleft r left -> match l with LChar _ | LLine _ _ => False | _ => True end -> framed r (C ++ char_in l) (HH ++ line_in l)).
  { intros r Cr Lr Q. split; auto. exists segs, outs, left. destruct l; try contradiction; cbn [char_in line_in]; rewrite !app_nil_r; auto. }
  unfold read_step in H. cbv zeta in H. destruct (reader s) eqn:ER.
  - destruct (in_char i) as [c|]; [|injection H as <- <-; rewrite ER; apply same; auto].
    cbn in L, CL. subst left. destruct (ends_with (buf ++ [c]) RX_EOL_SEQ) eqn:EC.
    + apply ends_with_spec in EC as [x Ex]. rewrite Ex in H. change RX_EOL_SEQ with crlf in *.
      rewrite app_length in H. replace (length x + length crlf - length crlf)%nat with (length x) in H by lia.
      rewrite (proj1 (firstn_app_all x crlf)) in H. pose proof (crlf_line _ _ _ CL Ex) as NX.
      destruct x as [|d x]; injection H as <- <-; cbn [set_reader reader rclean char_in line_in]; unfold framed.
      * split; [apply no_occurs_nil|]. exists (segs ++ [crlf]), (outs ++ [None]), []. rewrite E, concat_app.
        cbn [List.concat]. rewrite !app_nil_r, <- app_assoc, Ex. split; [reflexivity|].
        split; [apply Forall2_app; auto; constructor; constructor|].
        assert (somes (outs ++ [None]) = somes outs) as -> by (clear; induction outs as [|[|] ? IH]; cbn; rewrite ?IH; auto).
        repeat split; auto.
      * split; auto. exists segs, outs, ((d :: x) ++ crlf). rewrite E, <- app_assoc, Ex, app_nil_r.
        repeat split; auto. discriminate.
    + injection H as <- <-. apply ends_with_false in EC. unfold framed. cbn [set_reader reader rclean rleft char_in line_in]. split.
      { intro O. apply CL. eapply occurs_snoc; eauto. }
      exists segs, outs, (buf ++ [c]). rewrite E, <- app_assoc, app_nil_r. repeat split; auto.
  - destruct L as [-> NS]. destruct (expect s); injection H as <- <-; apply same; auto; split; auto.
  - destruct L as [-> NS]. destruct (expect s); injection H as <- <-; apply same; auto; try split; auto; exact I.
  - destruct L as [-> NS]. destruct (expect s); [destruct str_eqb|]; injection H as <- <-; apply same; auto; split; auto.
  - assert (rclean (reader s') /\ rleft (reader s') [] /\ l = LLine line chk) as (CS & LS & ->)
      by (destruct (evt s); injection H as <- <-; cbn; auto).
    split; auto. exists (segs ++ [left]), (outs ++ [Some (line, chk)]), [].
    cbn [char_in line_in]. rewrite E, HO, concat_app. cbn [List.concat]. rewrite !app_nil_r. split; auto.
    assert (somes (outs ++ [Some (line, chk)]) = somes outs ++ [(line, chk)]) as -> by (clear; induction outs as [|[|] ? IH]; cbn; rewrite ?IH; auto).
    split. { apply Forall2_app; auto. constructor; [|constructor]. destruct chk; cbn in L; destruct L as [-> N]; constructor; auto. }
    split; auto. split; auto. apply Forall_app; split; auto.
  - destruct (evt s) as [e|]; [destruct (is_set s e)|]; injection H as <- <-; apply same; auto; exact I.
  - destruct (resp s) as [e|]; injection H as <- <-; apply same; auto; exact I.
  - injection H as <- <-. apply same; auto.
  - destruct (negb chk || is_term line); injection H as <- <-; apply same; auto; try exact I; try apply no_occurs_nil.
  - destruct (evt s) as [e|]; injection H as <- <-; apply same; auto; try exact I; try apply no_occurs_nil.
  - injection H as <- <-. apply same; auto.
  - destruct (in_empty i); injection H as <- <-; apply same; auto; try apply no_occurs_nil.
  - discriminate.
Qed.
Lemma labels_of_snoc k tr x : labels_of k (tr ++ [x]) = labels_of k tr ++ match x with (Some j, LBase l) => if (j =? k)%nat then [l] else [] | _ => [] end.
Proof.
  unfold labels_of. rewrite flat_map_app, base_app. f_equal. destruct x as [[j|] l]; cbn; [|reflexivity]. destruct (j =? k)%nat; cbn; destruct l; reflexivity.
Qed.
Lemma chars_app a b : chars_of (a ++ b) = chars_of a ++ chars_of b. Proof. apply flat_map_app. Qed.
Lemma handed_app a b : handed_of (a ++ b) = handed_of a ++ handed_of b. Proof. apply flat_map_app. Qed.
Lemma no_lines : forall k tr s, crun c_init tr s -> nth_error (threads s) k = None -> labels_of k (clabels tr) = [].
Proof.
  intros k tr s R. remember c_init as s0 eqn:E0. induction R as [s|s tr s' a l s'' R IH H]; [reflexivity|]. subst s. intro N. rewrite clabels_app. cbn [clabels map snd]. fold (clabels tr).
  rewrite labels_of_snoc. unfold cact in H. destruct a as [j i e|i w e| |].
  - destruct (nth_error (threads s') j) as [t|] eqn:Nj; [|discriminate]. destruct (loop_step (seen_by s' t) i e) as [[x lb]|]; [|discriminate]. injection H as <- <-. cbn [back threads] in N.
    assert (j <> k). { intros ->. rewrite put_same in N; [discriminate|]. apply nth_error_Some. congruence. }
    rewrite put_other in N by auto. rewrite IH by auto. destruct lb; auto. apply Nat.eqb_neq in H. rewrite H. reflexivity.
  - destruct (life_write _ _ _ _) as [[x lb]|]; [|discriminate]. injection H as <- <-. rewrite IH; auto.
  - destruct (close_step _) as [[x lb]|]; [|discriminate]. injection H as <- <-. rewrite IH; auto.
  - destruct (c_owner s'); try discriminate. injection H as <- <-. cbn [threads] in N. apply nth_error_None in N. rewrite app_length in N. rewrite IH; auto. apply nth_error_None. lia.
Qed.
Lemma thread_framed k tr s : crun c_init tr s -> forall t, nth_error (threads s) k = Some t ->
  framed (snd t) (chars_of (labels_of k (clabels tr))) (handed_of (labels_of k (clabels tr))).
Proof.
  assert (F0 : framed (RIdle []) [] []). { split; [apply no_occurs_nil|]. exists [], [], []. repeat split; auto; constructor. }
  intros R. remember c_init as s0 eqn:E0. induction R as [s|s tr s' a l s'' R IH H]; intros t N.
  { subst. destruct k as [|[|k]]; cbn in N; try discriminate. injection N as <-. exact F0. }
  subst s. specialize (IH eq_refl). rewrite clabels_app. cbn [clabels map snd]. fold (clabels tr).
  rewrite labels_of_snoc. unfold cact in H. destruct a as [j i e|i w e| |].
  - destruct (nth_error (threads s') j) as [t'|] eqn:Nj; [|discriminate]. destruct (loop_step (seen_by s' t') i e) as [[x lb]|] eqn:LS; [|discriminate]. injection H as <- <-. cbn [back threads] in N.
    destruct (Nat.eqb_spec j k) as [->|Nk].
    + rewrite put_same in N by (apply nth_error_Some; congruence). injection N as <-. cbn [snd]. specialize (IH t' Nj). unfold loop_step in LS. cbn [seen_by loop up base owner is_open] in LS.
      destruct (fst t'); try discriminate; try (injection LS as <- <-; cbn; rewrite app_nil_r; exact IH).
      * destruct (c_up s'); injection LS as <- <-; cbn; rewrite app_nil_r; exact IH.
      * destruct (_ && e); [injection LS as <- <-; cbn; rewrite app_nil_r; exact IH|].
        destruct (read_step (set_reader (shared s') (snd t')) i) as [[b q]|] eqn:RS; [|discriminate]. injection LS as <- <-. cbn [base].
        rewrite chars_app, handed_app. apply (framed_read _ _ _ _ (chars_of (labels_of k (clabels tr))) (handed_of (labels_of k (clabels tr)))) in RS; [|exact IH].
        replace (chars_of [q]) with (char_in q) by (destruct q; reflexivity). replace (handed_of [q]) with (line_in q) by (destruct q; reflexivity). exact RS.
    + rewrite put_other in N by auto. assert (match lb with LBase l => [] | _ => [] end = @nil label) as E by (destruct lb; reflexivity). destruct lb; rewrite app_nil_r; apply IH; auto.
  - destruct (life_write _ _ _ _) as [[x lb]|]; [|discriminate]. injection H as <- <-. rewrite app_nil_r. apply IH; auto.
  - destruct (close_step _) as [[x lb]|]; [|discriminate]. injection H as <- <-. rewrite app_nil_r. apply IH; auto.
  - destruct (c_owner s'); try discriminate. injection H as <- <-. cbn [threads] in N. rewrite app_nil_r. destruct (Nat.lt_ge_cases k (length (threads s'))) as [Lk|Lk].
    + rewrite nth_error_app1 in N by auto. apply IH; auto.
    + rewrite (no_lines k tr s' R) by (apply nth_error_None; auto). rewrite nth_error_app2 in N by auto. destruct (k - length (threads s'))%nat as [|d]; cbn in N; [injection N as <-; exact F0|destruct d; discriminate].
Qed.
Theorem own_lines tr s k ph r : crun c_init tr s -> nth_error (threads s) k = Some (ph, r) ->
  exists segs outs left, chars_of (labels_of k (clabels tr)) = List.concat segs ++ left /\ Forall2 handed_over segs outs /\
    handed_of (labels_of k (clabels tr)) = somes outs /\ Forall (fun x => ~ occurs crlf (fst x)) (somes outs) /\
    (forall buf, r = RIdle buf -> left = buf /\ ~ occurs crlf buf).
Proof.
  intros R N. destruct (thread_framed k tr s R _ N) as (CL & segs & outs & left & C & F & HO & FC & L). exists segs, outs, left.
  repeat split; auto; cbn [snd] in *; subst r; cbn in *; auto.
Qed.

(** ** The end of the threads *)
Definition trank (t : lphase * rpc) : nat := match fst t with PGone => 0 | PTest | PFatal => 1 | PShut => 2 | PDown => 3 | PIter => rrank (snd t) end.
Lemma trank_le t : (trank t <= 13)%nat.
Proof. unfold trank, rrank. destruct (fst t); try lia. destruct (snd t); lia. Qed.
Lemma trank_read s t i e x l : c_up s = false -> loop_step (seen_by s t) i e = Some (x, l) -> (trank (loop x, reader (base x)) < trank t)%nat /\ up x = false.
Proof.
  intros U H. unfold loop_step in H. cbn [seen_by loop up base owner is_open] in H. cbv zeta in H. unfold trank. destruct (fst t) eqn:P; try discriminate H; try (injection H as <- <-; cbn; split; auto; lia).
  - rewrite U in H. injection H as <- <-. cbn. split; auto.
  - destruct (match reader (set_reader (shared s) (snd t)) with RIdle _ | RNote2 => true | _ => false end && e) eqn:UE.
    + injection H as <- <-. cbn. split; auto. cbn in UE. destruct (snd t); try discriminate UE; cbn; lia.
    + destruct (read_step (set_reader (shared s) (snd t)) i) as [[b k]|] eqn:X; [|discriminate]. injection H as <- <-. cbn. split; auto.
      apply rrank_read in X as [X1 [(buf & E)|X2]]; cbn in X1; [rewrite E; lia|]. cbn in X2. destruct (reader b) eqn:RB; cbn in *; lia.
Qed.
Theorem crowd_ends s tr s' k : c_up s = false -> crun s tr s' -> ~ In LConnect (map snd (clabels tr)) -> (moves_of k tr <= 13)%nat.
Proof.
  intros U R N.
  enough (K : (moves_of k tr + match nth_error (threads s') k with Some t => trank t | None => 0 end <= match nth_error (threads s) k with Some t => trank t | None => 0 end)%nat /\ c_up s' = false).
  { destruct K as [K _]. destruct (nth_error (threads s) k) as [t|]; [pose proof (trank_le t)|]; lia. }
  induction R as [s|s tr s' a l s'' R IH H]; [cbn; split; [lia|auto]|]. rewrite clabels_app, map_app in N.
  destruct IH as [IH U']; auto. { intro I. apply N, in_or_app. auto. }
  unfold moves_of in *. rewrite filter_app, app_length. unfold cact in H. destruct a as [j i e|i w e| |]; cbn [filter fst].
  - destruct (nth_error (threads s') j) as [t|] eqn:Nj; [|discriminate]. destruct (loop_step (seen_by s' t) i e) as [[x lb]|] eqn:LS; [|discriminate]. injection H as <- <-.
    destruct (trank_read _ _ _ _ _ _ U' LS) as [Rk Ux]. cbn [back threads c_up]. split; auto. destruct (Nat.eqb_spec j k) as [->|Nk].
    + rewrite put_same by (apply nth_error_Some; congruence). rewrite Nj in IH. cbn [length]. lia.
    + rewrite put_other by auto. cbn [length]. lia.
  - destruct (life_write _ _ _ _) as [[x lb]|] eqn:LS; [|discriminate]. injection H as <- <-. apply life_write_shape in LS as (E & _). cbn in *. split; [lia|congruence].
  - destruct (close_step _) as [[x lb]|] eqn:LS; [|discriminate]. injection H as <- <-. cbn. split; [lia|]. unfold close_step in LS. cbn in LS. break_step LS; auto.
  - destruct (c_owner s'); try discriminate. injection H as <- <-. exfalso. apply N, in_or_app. right. left. reflexivity.
Qed.

(** ** An old thread that takes some of the characters *)
Definition phase_of (r : rpc) : lphase := match r with RIdle _ => PTest | RDead _ _ => PGone | _ => PIter end.
Definition pair_state (old : str) (s : sstate) : crowd :=
  mk_crowd (set_reader s (RIdle [])) true true [(PTest, RIdle old); (phase_of (reader s), reader s)] OIdle.
Definition clabelled (s : crowd) (ls : list clabel) (s' : crowd) : Prop := exists tr, crun s tr s' /\ clabels tr = ls.
Lemma clab_one s a l s' : cact s a = Some (s', l) -> clabelled s [l] s'.
Proof. intro A. exists [(a, l)]. split; auto. apply crun_one. auto. Qed.
Lemma clab_join s l1 m l2 s' : clabelled s l1 m -> clabelled m l2 s' -> clabelled s (l1 ++ l2) s'.
Proof. intros (t1 & R1 & <-) (t2 & R2 & <-). exists (t1 ++ t2). split; [eapply crun_join; eauto|]. apply clabels_app. Qed.
(** the new thread, or a writing thread *)
Lemma new_moves old s a s' l : act s a = Some (s', l) ->
  exists ls, clabelled (pair_state old s) ls (pair_state old s') /\ labels_of 0 ls = [] /\ labels_beside 0 ls = [l] /\ all_labels ls = [l].
Proof.
  intro A. destruct a as [i|i w]; cbn [act] in A.
  - assert (RS : cact (mk_crowd (set_reader s (RIdle [])) true true [(PTest, RIdle old); (PIter, reader s)] OIdle) (CRead 1 i false) = Some (pair_state old s', (Some 1%nat, LBase l))).
    { unfold cact. cbn [threads nth_error]. unfold loop_step, seen_by. cbn [loop up base owner is_open shared fst snd]. rewrite andb_false_r, set_reader_twice, set_own, A.
      cbn. unfold pair_state, back. cbn [base up is_open owner loop]. destruct (reader s') eqn:E; cbn; rewrite ?E; reflexivity. }
    destruct (reader s) eqn:Er.
    1: { exists [(Some 1%nat, LStep); (Some 1%nat, LBase l)]. split; [|split; [reflexivity|split; reflexivity]].
         change [(Some 1%nat, LStep); (Some 1%nat, LBase l)] with ([(Some 1%nat, LStep)] ++ [(Some 1%nat, LBase l)]). eapply clab_join; [|eapply clab_one; exact RS].
         apply clab_one with (a := CRead 1 i false). unfold cact, pair_state. cbn [threads nth_error]. rewrite Er. reflexivity. }
    all: exists [(Some 1%nat, LBase l)]; split; [|split; [reflexivity|split; reflexivity]]; apply clab_one with (a := CRead 1 i false); unfold pair_state at 1; rewrite Er; cbn [phase_of]; try exact RS.
  - exists [(None, LBase l)]. split; [|split; [reflexivity|split; reflexivity]]. apply clab_one with (a := CWrite i w false). unfold cact.
    assert (LW : life_write (seen_by (pair_state old s) nobody) i w false = Some (mk_life (set_reader s' (RIdle [])) true true PGone OIdle, LBase l)).
    { unfold life_write, seen_by, pair_state. cbn [base up is_open loop owner shared fst snd nobody c_up c_open c_owner]. rewrite set_reader_twice, write_view, A. cbn [set_reader writer].
      destruct (writer s i); reflexivity. }
    rewrite LW. unfold back, pair_state. cbn [base up is_open owner threads]. rewrite (write_reader _ _ _ _ _ A). reflexivity.
Qed.
(** the old thread reads a character *)
Lemma old_takes old s c : expect s = None -> ends_with (old ++ [c]) RX_EOL_SEQ = false ->
  clabelled (pair_state old s) [(Some 0%nat, LStep); (Some 0%nat, LBase (LChar c)); (Some 0%nat, LBase LTau)] (pair_state (old ++ [c]) s).
Proof.
  intros X N. change [(Some 0%nat, LStep); (Some 0%nat, LBase (LChar c)); (Some 0%nat, LBase LTau)] with ([(Some 0%nat, LStep)] ++ [(Some 0%nat, LBase (LChar c))] ++ [(Some 0%nat, LBase LTau)]).
  eapply clab_join; [apply clab_one with (a := CRead 0 someone false); unfold cact, pair_state; cbn; reflexivity|].
  eapply clab_join; [apply clab_one with (a := CRead 0 (mk_rin (Some c) false) false)|apply clab_one with (a := CRead 0 someone false)].
  - unfold cact. cbn [back threads nth_error put_nth]. unfold loop_step, seen_by. cbn [loop up base owner is_open shared fst snd]. rewrite andb_false_r. unfold read_step. cbn [set_reader reader in_char snd]. cbv zeta. rewrite N. cbn. reflexivity.
  - unfold cact. cbn. rewrite X. cbn. reflexivity.
Qed.
Lemma no_expect tr s : run s_init tr s -> no_prompts tr -> expect s = None /\ forall i op, writer s i = WCheck op -> w_expected op = None.
Proof.
  intros R P. remember s_init as s0 eqn:E0. induction R as [s|s tr s' a l s'' R IH H]; [subst; split; [reflexivity|discriminate]|]. subst s.
  destruct IH as [X W]; auto. { intros i w k I. apply (P i w k). apply in_or_app. auto. }
  destruct a as [i|i w]; cbn [act] in H.
  - unfold read_step in H. cbv zeta in H. break_step H; cbn; auto; split; auto; congruence.
  - assert (Pw : w_expected (in_op w) = None) by (apply (P i w l); apply in_or_app; right; left; reflexivity).
    unfold write_step in H. cbv zeta in H. break_step H; cbn; split; auto; try congruence;
      try (intros j q Hj; unfold upd in Hj; destruct (j =? i)%nat; try discriminate; try (eapply W; eauto; fail); injection Hj as <-; exact Pw).
    specialize (W _ _ E). congruence.
Qed.
Lemma labels_of_app k a b : labels_of k (a ++ b) = labels_of k a ++ labels_of k b.
Proof. unfold labels_of. rewrite flat_map_app, base_app. reflexivity. Qed.
Lemma beside_app k a b : labels_beside k (a ++ b) = labels_beside k a ++ labels_beside k b.
Proof. unfold labels_beside. rewrite flat_map_app, base_app. reflexivity. Qed.
Lemma all_app a b : all_labels (a ++ b) = all_labels a ++ all_labels b.
Proof. unfold all_labels. rewrite map_app, base_app. reflexivity. Qed.
Lemma taken_app w a b : taken_by w (a ++ b) = taken_by w a ++ taken_by w b.
Proof. unfold taken_by. rewrite filter_app, map_app. reflexivity. Qed.
Lemma no_crlf_front a b : no_crlf (a ++ b) -> no_crlf a.
Proof. intros N O. apply N. apply occurs_app. auto. Qed.
Lemma weave tr s : run s_init tr s -> no_prompts tr -> forall cs, taken_by true cs = chars_of (labels tr) -> no_crlf (taken_by false cs) ->
  exists ls, clabelled (pair_state [] s_init) ls (pair_state (taken_by false cs) s) /\ chars_of (all_labels ls) = map snd cs /\
    labels_beside 0 ls = labels tr /\ handed_of (labels_of 0 ls) = [].
Proof.
  intros R P.
  assert (steal : forall s tr, run s_init tr s -> no_prompts tr -> forall cs c, no_crlf (taken_by false (cs ++ [(false, c)])) ->
    (exists ls, clabelled (pair_state [] s_init) ls (pair_state (taken_by false cs) s) /\ chars_of (all_labels ls) = map snd cs /\ labels_beside 0 ls = labels tr /\ handed_of (labels_of 0 ls) = []) ->
    exists ls, clabelled (pair_state [] s_init) ls (pair_state (taken_by false (cs ++ [(false, c)])) s) /\ chars_of (all_labels ls) = map snd (cs ++ [(false, c)]) /\ labels_beside 0 ls = labels tr /\ handed_of (labels_of 0 ls) = []).
  { clear. intros s tr R P cs c N (ls & L & C & B & H). rewrite taken_app in *. change (taken_by false [(false, c)]) with [c] in *.
    destruct (no_expect tr s R P) as [X _]. exists (ls ++ [(Some 0%nat, LStep); (Some 0%nat, LBase (LChar c)); (Some 0%nat, LBase LTau)]).
    split; [eapply clab_join; [exact L|apply old_takes; auto]|].
    - apply (not_complete (taken_by false cs ++ [c]) (taken_by false cs) c []); auto.
    - rewrite all_app, chars_app, C, map_app. split; [reflexivity|]. rewrite beside_app, B, labels_of_app, handed_app, H. split; [apply app_nil_r|reflexivity]. }
  remember s_init as s0 eqn:E0. induction R as [s|s tr s' a l s'' R IH A].
  - induction cs as [|[b c] cs IHc] using rev_ind; intros T N.
    + exists []. split; [subst; exists []; split; [constructor|reflexivity]|]. repeat split; reflexivity.
    + rewrite taken_app in T. cbn [labels map chars_of flat_map] in T. apply app_eq_nil in T as [T1 T2]. destruct b; [discriminate|]. apply steal; auto; [constructor|]. apply IHc; auto.
      rewrite taken_app in N. eapply no_crlf_front; eauto.
  - subst s. assert (P' : no_prompts tr) by (intros i w k I; apply (P i w k); apply in_or_app; auto). specialize (IH eq_refl P' steal).
    rewrite labels_app. cbn [labels map snd]. fold (labels tr). rewrite chars_app.
    assert (new : forall cs1, taken_by true cs1 = chars_of (labels tr) -> no_crlf (taken_by false cs1) -> forall cs, cs = cs1 ++ match l with LChar c => [(true, c)] | _ => [] end ->
      exists ls, clabelled (pair_state [] s_init) ls (pair_state (taken_by false cs) s'') /\ chars_of (all_labels ls) = map snd cs /\ labels_beside 0 ls = labels tr ++ [l] /\ handed_of (labels_of 0 ls) = []).
    { intros cs1 T1 N1 cs ->. destruct (IH cs1 T1 N1) as (ls & L & C & B & H). destruct (new_moves (taken_by false cs1) s' a s'' l A) as (k & Lk & Ok & Bk & Ak).
      exists (ls ++ k). rewrite taken_app, map_app. replace (taken_by false (match l with LChar c => [(true, c)] | _ => [] end)) with (@nil Z) by (destruct l; reflexivity). rewrite app_nil_r.
      split; [eapply clab_join; eauto|]. rewrite all_app, chars_app, C, Ak, beside_app, B, Bk, labels_of_app, Ok, app_nil_r. repeat split; auto. destruct l; reflexivity. }
    induction cs as [|[b c] cs IHc] using rev_ind; intros T N.
    + destruct l; cbn in T; try (symmetry in T; apply app_eq_nil in T as [T ?]; try discriminate; eapply new with (cs1 := []); eauto).
    + destruct b.
      * rewrite taken_app in T, N. change (taken_by true [(true, c)]) with [c] in T. change (taken_by false [(true, c)]) with (@nil Z) in N. rewrite app_nil_r in N.
        destruct l as [|d| | | | | | | | | |]; cbn [chars_of flat_map] in T; rewrite ?app_nil_r in T.
        2: { apply app_inj_tail in T as [T ->]. eapply new with (cs1 := cs); eauto. }
        all: eapply new with (cs1 := cs ++ [(true, c)]); [rewrite taken_app; exact T|rewrite taken_app; change (taken_by false [(true, c)]) with (@nil Z); rewrite app_nil_r; exact N|rewrite app_nil_r; reflexivity].
      * pose proof (run_snoc _ _ _ _ _ _ R A) as R2.
        destruct (steal s'' (tr ++ [(a, l)]) R2 P cs c N) as (ls & L & C & B & H).
        { rewrite labels_app. cbn [labels map snd]. fold (labels tr). apply IHc; [rewrite taken_app in T; change (taken_by true [(false, c)]) with (@nil Z) in T; rewrite app_nil_r in T; exact T|]. rewrite taken_app in N. eapply no_crlf_front; eauto. }
        rewrite labels_app in B. exists ls. auto.
Qed.

Lemma chars_outside ls : chars_of (filter outside ls) = chars_of ls.
Proof. unfold chars_of. induction ls as [|[] ls IH]; cbn; rewrite ?IH; auto. Qed.
Lemma chars_map cs : chars_of (map LChar cs) = cs.
Proof. unfold chars_of. induction cs as [|c cs IH]; cbn; rewrite ?IH; auto. Qed.
Lemma twice : cact c_init CConnect = Some (pair_state [] s_init, (None, LConnect)).
Proof. reflexivity. Qed.
Theorem stolen i data ls cs : plain_answer ls -> taken_by true cs = on_wire ls -> no_crlf (taken_by false cs) ->
  exists tr s, crun c_init ((CConnect, (None, LConnect)) :: tr) s /\ chars_of (all_labels (clabels tr)) = map snd cs /\
    filter outside (labels_beside 0 (clabels tr)) = turn i data ls (not_blank ls) /\ handed_of (labels_of 0 (clabels tr)) = [].
Proof.
  intros PA T N. destruct (takes_turn [] i data ls s_init PA init_between) as (s' & (tr & R & [_ P] & E) & _).
  destruct (weave tr s' R P cs) as (k & (ctr & CR & CL) & C & B & H); auto.
  { rewrite T, <- chars_outside, E. unfold turn. change (LSend i data true :: ?x) with ([LSend i data true] ++ x). rewrite !chars_app, chars_map. cbn. rewrite app_nil_r. reflexivity. }
  exists ctr, (pair_state (taken_by false cs) s'). split; [|subst k; rewrite C, B, E, H; auto].
  change ((CConnect, (None, LConnect)) :: ctr) with ([(CConnect, (@None nat, LConnect))] ++ ctr). eapply crun_join; [apply crun_one; exact twice|exact CR].
Qed.
(** a command whose answer does not become a line, and its time-out *)
Lemma silent_run i data l : no_crlf l -> exists tr s, run s_init tr s /\ no_prompts tr /\
  filter outside (labels tr) = LSend i data true :: map LChar l ++ [LTimeout i []].
Proof.
  intro N. destruct (starts [] s_init i data init_between) as (s1 & e & r & G1 & [L E Ne X P H Rd Me Ot Nt]).
  assert (G2 : goes s1 (map LChar l) (set_reader s1 (RIdle l))).
  { rewrite <- (set_own s1) at 1. rewrite Rd. apply some_chars with (l := l); auto. }
  destruct (goes_trans _ _ _ _ _ G1 G2) as (t1 & R1 & [_ P1] & E1). destruct s1 as [lk ev se ex rp hp fr nt rd wr]. fields. subst lk ev ex rp rd nt.
  set (w := mk_win (mk_wop [] true None) true).
  assert (A : exists s2 s3 s4 s5, write_step (mk_s (Some i) (Some e) se None (Some r) hp fr [] (RIdle l) wr) i w = Some (s2, LTau) /\ write_step s2 i w = Some (s3, LTau) /\
    write_step s3 i w = Some (s4, LTau) /\ write_step s4 i w = Some (s5, LTimeout i [])).
  { eexists _, _, _, _. split; [unfold write_step; fields; rewrite Me, Ne; reflexivity|]. split; [unfold write_step; fields; rewrite !upd_at; reflexivity|].
    split; [unfold write_step; fields; rewrite !upd_at; reflexivity|]. unfold write_step; fields; rewrite !upd_at, H; reflexivity. }
  destruct A as (s2 & s3 & s4 & s5 & A2 & A3 & A4 & A5).
  exists (t1 ++ [(AWrite i w, LTau)] ++ [(AWrite i w, LTau)] ++ [(AWrite i w, LTau)] ++ [(AWrite i w, LTimeout i [])]), s5. split; [|split].
  - rewrite !app_assoc. repeat (econstructor; [|eassumption]). exact R1.
  - intros j v k I. apply in_app_iff in I as [I|I]; [eapply P1; eauto|]. cbn in I. destruct I as [I|[I|[I|[I|[]]]]]; injection I as <- <- <-; reflexivity.
  - rewrite labels_app, filter_app, E1. reflexivity.
Qed.
Lemma no_lf_crlf l : ~ In 10 l -> no_crlf l.
Proof. intros N (a & b & ->). apply N. apply in_or_app. right. right. left. reflexivity. Qed.
Theorem silence i data answer :
  exists tr s, crun c_init ((CConnect, (None, LConnect)) :: tr) s /\ chars_of (all_labels (clabels tr)) = answer /\
    filter outside (labels_beside 0 (clabels tr)) = LSend i data true :: map LChar (filter (fun c => negb (c =? 10)) answer) ++ [LTimeout i []] /\
    handed_of (labels_of 0 (clabels tr)) = [].
Proof.
  set (cs := map (fun c => (negb (c =? 10), c)) answer).
  assert (T1 : taken_by true cs = filter (fun c => negb (c =? 10)) answer).
  { unfold cs, taken_by. clear. induction answer as [|c l IH]; [reflexivity|]. cbn. destruct (c =? 10); cbn; rewrite IH; reflexivity. }
  assert (T2 : forall x, In x (taken_by false cs) -> x = 10).
  { unfold cs, taken_by. clear. intros x I. apply in_map_iff in I as ([b y] & <- & I). apply filter_In in I as [I F]. apply in_map_iff in I as (z & E & _). injection E as <- <-. cbn in *. destruct (Z.eqb_spec z 10); auto; discriminate. }
  destruct (silent_run i data (taken_by true cs)) as (tr & s' & R & P & E).
  { apply no_lf_crlf. rewrite T1. intro I. apply filter_In in I as [_ I]. discriminate. }
  destruct (weave tr s' R P cs) as (k & (ctr & CR & CL) & C & B & H); auto.
  { rewrite <- (chars_outside (labels tr)), E. change (LSend i data true :: ?x) with ([LSend i data true] ++ x). rewrite !chars_app, chars_map. cbn. rewrite app_nil_r. reflexivity. }
  { intros (a & b & X). assert (13 = 10) by (apply T2; rewrite X; apply in_or_app; right; left; reflexivity). discriminate. }
  exists ctr, (pair_state (taken_by false cs) s'). split; [|subst k; rewrite C, B, E, H, T1].
  - change ((CConnect, (None, LConnect)) :: ctr) with ([(CConnect, (@None nat, LConnect))] ++ ctr). eapply crun_join; [apply crun_one; exact twice|exact CR].
  - split; auto. unfold cs. rewrite map_map. apply map_id.
Qed.

(** ** After close() *)
Fixpoint cexec (s : crowd) (as_ : list caction) : option (list (caction * clabel) * crowd) :=
  match as_ with
  | [] => Some ([], s)
  | a :: r => match cact s a with
              | Some (s', l) => match cexec s' r with Some (tr, s'') => Some ((a, l) :: tr, s'') | None => None end
              | None => None
              end
  end.
Lemma cexec_run as_ : forall s tr s', cexec s as_ = Some (tr, s') -> crun s tr s'.
Proof.
  induction as_ as [|a r IH]; intros s tr s' H; cbn in H; [injection H as <- <-; constructor|].
  destruct (cact s a) as [[s1 l]|] eqn:A; [|discriminate]. destruct (cexec s1 r) as [[t s2]|] eqn:X; [|discriminate]. injection H as <- <-.
  change ((a, l) :: t) with ([(a, l)] ++ t). eapply crun_join; [apply crun_one; eauto|eauto].
Qed.
Definition ct (k : nat) : caction := CRead k (mk_rin None true) false.
(** connect() twice; the old thread waits for a character; close(): the new thread ends, close() returns *)
Definition sch_twice_closed : list caction := [CConnect; ct 0; CClose; ct 1; CClose; CClose].
Theorem late_error : exists tr s a b, crun c_init tr s /\ clabels tr = a ++ (None, LClosed) :: b /\ ~ In LConnect (map snd b) /\ In (Some 0%nat, LFatal) b.
Proof.
  destruct (cexec c_init (sch_twice_closed ++ [CRead 0 (mk_rin None true) true; ct 0; ct 0; ct 0])) as [[tr s]|] eqn:X; [|vm_compute in X; discriminate].
  exists tr, s. apply cexec_run in X as R. vm_compute in X. injection X as <- <-.
  eexists [_; _; _; _; _], _. split; [exact R|]. split; [reflexivity|]. cbn. intuition discriminate.
Qed.
(** the old thread still hands a line over after close() has returned *)
Theorem late_line : exists tr s a b, crun c_init tr s /\ clabels tr = a ++ (None, LClosed) :: b /\ ~ In LConnect (map snd b) /\
  callbacks_of (all_labels b) = [[lit "RING"]].
Proof.
  set (feed := flat_map (fun c => [ct 0; CRead 0 (mk_rin (Some c) false) false; ct 0]) (lit "RING" ++ [13])).
  destruct (cexec c_init ([CConnect] ++ feed ++ [ct 0; CClose; ct 1; CClose; CClose; CRead 0 (mk_rin (Some 10) true) false; ct 0; ct 0; ct 0])) as [[tr s]|] eqn:X; [|vm_compute in X; discriminate].
  exists tr, s. apply cexec_run in X as R. vm_compute in X. injection X as <- <-.
  eexists [_; _; _; _; _; _; _; _; _; _; _; _; _; _; _; _; _; _; _; _], _. split; [exact R|]. split; [reflexivity|]. split; [cbn; intuition discriminate|reflexivity].
Qed.
