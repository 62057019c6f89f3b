(** Two assignments at the same time, three, and one beside another call. *)
From Verif Require Import Base ModeModel ModeSpec ModeProofs.

(** ** Two *)
Definition pending (p : place) : bool := match p with STest _ | SCommand _ | SStore _ => true | _ => false end.
Definition good (a m : bool) (l : list place) : bool :=
  match l with
  | [] => Bool.eqb a m
  | [SStore n] => Bool.eqb m n
  | [_] => Bool.eqb a m
  | [p; q] =>
      let stores := match p, q with SStore _, _ => true | _, SStore _ => true | _, _ => false end in
      let fit x := match x with SCommand n | SStore n => Bool.eqb n (negb a) | _ => true end in
      fit p && fit q && Bool.eqb m (if stores then negb a else a)
  | _ => false
  end.
Lemma good_step s i l s' : good (attr s) (mode s) (filter pending (threads s)) = true -> mstep s i l s' ->
  good (attr s') (mode s') (filter pending (threads s')) = true.
Proof.
  intros G St. step_cases St. subst s'. cbn [attr mode threads]. destruct (filter_set pending (threads s) i p N) as [l1 [l2 [A B]]].
  rewrite B. rewrite A in G. clear A B N. destruct s as [a m d r u ts]. cbn [attr mode threads] in G.
  assert (Len : (length l1 + length l2 + (if pending p then 1 else 0) <= 2)%nat).
  { destruct l1 as [|x [|y [|z l1]]], l2 as [|x' [|y' [|z' l2]]], (pending p); cbn in *; try lia;
      repeat match goal with G : match ?v with _ => _ end = true |- _ => destruct v; try discriminate end. }
  destruct p as [n|n| n| | | | | | | k|form [|k]| |an|an|an|an|e]; cbn in *; try discriminate;
  repeat match goal with H : (if ?b then _ else _) = _ |- _ => destruct b eqn:?; cbn in H end; injection M as <- <- <-; cbn [attr mode];
  try exact G; try (destruct a; exact G); try (destruct d; exact G); try (destruct u; exact G); try (destruct ok; exact G);
  destruct l1 as [|x [|y l1]], l2 as [|x' [|y' l2]]; cbn in Len; try lia; cbn in *;
  try (destruct x); try (destruct x'); try (destruct n); destruct a, m; cbn in *; auto; try discriminate;
  repeat match goal with b : bool |- _ => destruct b; cbn in *; auto; try discriminate end.
Qed.
Lemma two_agree s ls s' : settled s -> (count assignment s <= 2)%nat -> mrun any s ls s' -> no_change s' -> attr s' = mode s'.
Proof.
  intros [R [A _]] C Run N. assert (E : forall ts, Forall (fun p => changing p = false /\ in_use p = false) ts -> filter pending ts = filter assignment ts).
  { intros ts F. induction F as [|p ts [Cp _] F IH]; [reflexivity|]. cbn. rewrite IH. destruct p; try discriminate; reflexivity. }
  specialize (E _ (rested_all s R)). unfold count in C. rewrite <- E in C.
  destruct (mrun_inv any (fun x => good (attr x) (mode x) (filter pending (threads x)) = true) (fun _ _ => True)) with (s := s) (ls := ls) (s' := s') as [G _]; auto.
  - intros x i l x' _ _ Gx St. split; auto. eapply good_step; eauto.
  - rewrite E in *. pose proof (fun p => proj1 (filter_In assignment p (threads s))) as AA. rewrite A.
    destruct (filter assignment (threads s)) as [|p [|q [|? ?]]]; cbn in C; try lia.
    + destruct (mode s); reflexivity.
    + destruct (AA p (or_introl eq_refl)) as [_ Ap]. destruct p; try discriminate. cbn. destruct (mode s); reflexivity.
    + destruct (AA p (or_introl eq_refl)) as [_ Ap]. destruct (AA q (or_intror (or_introl eq_refl))) as [_ Aq].
      destruct p, q; try discriminate. cbn. destruct (mode s); reflexivity.
  - assert (E' : forall p, In p (filter pending (threads s')) -> exists n, p = STest n).
    { intros p I. apply filter_In in I as [I P]. destruct (In_nth_error _ _ I) as [j J]. pose proof (none_in changing _ N j p J) as Cp.
      destruct p; try discriminate. eauto. }
    destruct (filter pending (threads s')) as [|p [|q [|? ?]]]; cbn in G; [..|destruct p; discriminate].
    + apply eqb_prop. exact G.
    + destruct (E' p (or_introl eq_refl)) as [n ->]. apply eqb_prop. exact G.
    + destruct (E' p (or_introl eq_refl)) as [n ->]. destruct (E' q (or_intror (or_introl eq_refl))) as [n' ->]. cbn in G.
      symmetry. apply eqb_prop. exact G.
Qed.

(** ** Executions, given as who moves and how the modem answers *)
Fixpoint play (f : mstate -> bool) (s : mstate) (moves : list (nat * bool * bool)) : option (list (nat * mlabel) * mstate) :=
  if f s then
    match moves with
    | [] => Some ([], s)
    | (i, ok, rp) :: rest =>
        match nth_error (threads s) i with
        | None => None
        | Some p =>
            match mstep1 s p ok rp with
            | None => None
            | Some (s1, p', l) =>
                match play f (mkM (attr s1) (mode s1) (deliver_re s1) (report_re s1) (pdu_re s1) (set_at i p' (threads s))) rest with
                | None => None
                | Some (ls, s') => Some ((i, l) :: ls, s')
                end
            end
        end
    end
  else None.
Lemma play_run (P : mstate -> Prop) f (H : forall x, f x = true -> P x) moves : forall s ls s', play f s moves = Some (ls, s') -> mrun P s ls s'.
Proof.
  induction moves as [|[[i ok] rp] moves IH]; intros s ls s' E; cbn in E; (destruct (f s) eqn:F; [apply H in F|discriminate]); [injection E as <- <-; constructor; exact F|].
  destruct (nth_error (threads s) i) as [p|] eqn:N; [|discriminate]. destruct (mstep1 s p ok rp) as [[[s1 p'] l]|] eqn:M; [|discriminate].
  destruct (play f _ moves) as [[ls1 s1']|] eqn:P1; [|discriminate]. injection E as <- <-.
  econstructor; [exact F| |exact (IH _ _ _ P1)]. econstructor; eauto.
Qed.
Definition oneb (s : mstate) : bool := Nat.leb (count changing s) 1.
Lemma oneb_one x : oneb x = true -> one_change x. Proof. apply Nat.leb_le. Qed.

(** three assignments, two of one value and one of the other *)
Lemma three a : exists ls s', mrun any (mkM a a true true true [STest (negb a); STest (negb a); STest a]) ls s' /\
  threads s' = [Ended Fine; Ended Fine; Ended Fine] /\ attr s' = a /\ mode s' = negb a.
Proof.
  pose proof (play_run any (fun _ => true) (fun _ _ => I) (map (fun i => (i, true, false)) [0; 1; 0; 0; 2; 2; 1; 1; 2; 0; 0; 1; 1; 2; 2]%nat)
    (mkM a a true true true [STest (negb a); STest (negb a); STest a])) as H.
  destruct a; (eexists; eexists; split; [apply H; vm_compute; reflexivity|cbn; auto]).
Qed.
Ltac played moves := eexists; eexists; split; [eapply (play_run one_change oneb oneb_one moves); vm_compute; reflexivity|cbn; tauto].
(** one assignment, beside one call: a command in the form of the mode just left *)
Lemma late_command a more : exists ls s', mrun one_change (mkM a a true true true [STest (negb a); ULook more]) ls s' /\ In (1%nat, Used a (negb a)) ls.
Proof. destruct a, more; played (map (fun i => (i, true, false)) [1; 0; 0; 1]%nat). Qed.
(** a response in the form of the mode just left *)
Lemma late_look a : exists ls s', mrun one_change (mkM a a true true true [STest (negb a); RCommand]) ls s' /\ In (1%nat, Taken a (negb a) Refused) ls.
Proof.
  destruct a; [played (map (fun i => (i, true, false)) [1; 0; 0; 0; 1; 1]%nat)|played (map (fun i => (i, true, false)) [1; 0; 0; 0; 1; 1; 1]%nat)].
Qed.
(** the modem has changed already, the program not yet *)
Lemma early_look a : exists ls s', mrun one_change (mkM a a true true true [STest (negb a); RCommand]) ls s' /\ In (1%nat, Taken (negb a) a Refused) ls.
Proof.
  destruct a; [played (map (fun i => (i, true, false)) [0; 0; 1; 1; 1; 1]%nat)|played (map (fun i => (i, true, false)) [0; 0; 1; 1; 1]%nat)].
Qed.
(** the first assignment of a mode: the attribute says text (PDU) mode before the
    regular expressions for it are there *)
Lemma early_text : exists ls s', mrun one_change (mkM false false false false true [STest true; RCommand]) ls s' /\ In (1%nat, Taken true true NoneMatch) ls.
Proof. played (map (fun i => (i, true, false)) [0; 0; 0; 1; 1; 1]%nat). Qed.
Lemma early_report : exists ls s', mrun one_change (mkM false false false false true [STest true; RCommand]) ls s' /\ deliver_re s' = true /\
  In (1%nat, Taken true true NoneMatch) ls.
Proof. played (map (fun i => (i, true, true)) [0; 0; 0; 0; 0; 0; 1; 1; 1; 1]%nat). Qed.
Lemma early_pdu : exists ls s', mrun one_change (mkM true true true true false [STest false; RCommand]) ls s' /\ In (1%nat, Taken false false NoneMatch) ls.
Proof. played (map (fun i => (i, true, false)) [0; 0; 0; 1; 1; 1]%nat). Qed.
