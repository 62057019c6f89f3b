(** Proofs about ModeModel. *)
From Verif Require Import Base ModeModel ModeSpec.

Lemma filter_set (f : place -> bool) ts i p : nth_error ts i = Some p -> exists l1 l2, filter f ts = l1 ++ (if f p then [p] else []) ++ l2 /\
  forall p', filter f (set_at i p' ts) = l1 ++ (if f p' then [p'] else []) ++ l2.
Proof.
  revert i. induction ts as [|q ts IH]; intros i E; destruct i; cbn in E; try discriminate.
  - injection E as ->. exists [], (filter f ts). split; [cbn; destruct (f p); reflexivity|intros p'; cbn; destruct (f p'); reflexivity].
  - destruct (IH i E) as [l1 [l2 [A B]]]. exists (if f q then q :: l1 else l1), l2. split; [|intros p']; cbn; rewrite ?A, ?B; destruct (f q); reflexivity.
Qed.
Lemma nth_set {A} (ts : list A) i j x y : nth_error ts i = Some y -> nth_error (set_at i x ts) j = if Nat.eqb i j then Some x else nth_error ts j.
Proof.
  revert i j. induction ts as [|t ts IH]; intros i j E; destruct i; cbn in E; try discriminate.
  - destruct j; reflexivity.
  - destruct j; cbn; [reflexivity|]. apply IH. exact E.
Qed.
Lemma nth_filter (f : place -> bool) ts i p : nth_error ts i = Some p -> f p = true -> In p (filter f ts).
Proof. intros E F. apply filter_In. split; auto. eapply nth_error_In; eauto. Qed.
Lemma none_in (f : place -> bool) ts : length (filter f ts) = 0%nat -> forall i p, nth_error ts i = Some p -> f p = false.
Proof.
  intros H i p E. destruct (f p) eqn:F; auto. pose proof (nth_filter f ts i p E F) as I. destruct (filter f ts); [destruct I|discriminate].
Qed.

Lemma mrun_P (P : mstate -> Prop) s ls s' : mrun P s ls s' -> P s /\ P s'.
Proof. intros R. induction R; tauto. Qed.
Lemma mrun_mono (P Q : mstate -> Prop) s ls s' : (forall x, P x -> Q x) -> mrun P s ls s' -> mrun Q s ls s'.
Proof. intros H R. induction R; econstructor; eauto. Qed.
Lemma mrun_inv (P I : mstate -> Prop) (L : nat -> mlabel -> Prop) :
  (forall s i l s', P s -> P s' -> I s -> mstep s i l s' -> I s' /\ L i l) ->
  forall s ls s', mrun P s ls s' -> I s -> I s' /\ Forall (fun il => L (fst il) (snd il)) ls.
Proof.
  intros H s ls s' R. induction R as [|s i l s1 ls s' Ps St R IH]; intros Is; [auto|].
  destruct (H s i l s1 Ps (proj1 (mrun_P _ _ _ _ R)) Is St) as [I1 L1]. destruct (IH I1). auto.
Qed.

(** what a step does, by the place it is made from *)
Ltac step_cases St :=
  let p := fresh "p" in let ok := fresh "ok" in let rp := fresh "rp" in let s1 := fresh "s1" in let p' := fresh "p'" in
  let N := fresh "N" in let M := fresh "M" in let E := fresh "E" in
  destruct St as [p ok rp s1 p' N M E].

(** ** At most one assignment at a time *)
Definition one_inv (flag : bool) (s : mstate) : Prop :=
  match filter changing (threads s) with
  | [] => (flag = true -> attr s = mode s) /\ compiled s /\ (deliver_re s = true -> report_re s = true)
  | SCommand _ :: _ => (flag = true -> attr s = mode s) /\ compiled s /\ (deliver_re s = true -> report_re s = true)
  | SStore n :: _ => mode s = n /\ compiled s /\ (deliver_re s = true -> report_re s = true)
  | SMode :: _ => attr s = mode s /\ (deliver_re s = true -> report_re s = true)
  | SText :: _ | SText1 :: _ => attr s = mode s /\ attr s = true /\ (deliver_re s = true -> report_re s = true)
  | SText2 :: _ => attr s = mode s /\ attr s = true /\ deliver_re s = true
  | _ => attr s = mode s /\ attr s = false /\ (deliver_re s = true -> report_re s = true)
  end.
Lemma one_step flag s i l s' : one_change s -> one_change s' -> one_inv flag s -> mstep s i l s' ->
  one_inv (match l with Switch _ true => true | _ => flag end) s'.
Proof.
  unfold one_change, count, one_inv. intros C C' I St. step_cases St. subst s'. cbn [threads attr mode deliver_re report_re pdu_re] in *.
  destruct (filter_set changing (threads s) i p N) as [l1 [l2 [A B]]]. specialize (B p'). rewrite B in *. rewrite A in *.
  rewrite !app_length in *.
  assert (Z : changing p = true -> l1 = [] /\ l2 = []).
  { intros Hc. rewrite Hc in C. cbn in C. destruct l1, l2; cbn in C; try lia; auto. }
  assert (Z' : changing p' = true -> l1 = [] /\ l2 = []).
  { intros Hc. rewrite Hc in C'. cbn in C'. destruct l1, l2; cbn in C'; try lia; auto. }
  destruct s as [a m d r u ts]. unfold mstep1, compiled in *. cbn [threads attr mode deliver_re report_re pdu_re] in *.
  destruct p as [n|n| n| | | | | | | k|form [|k]| |an|an|an|an|e]; destruct a, d, r, u, ok; cbn [changing] in *; repeat match goal with
    | H : (if ?b then _ else _) = Some _ |- _ => let E := fresh "E" in destruct b eqn:E
    | H : None = Some _ |- _ => discriminate H
    | H : Some _ = Some _ |- _ => injection H as <- <- <-
    end; cbn [threads attr mode deliver_re report_re pdu_re changing] in *;
  repeat match goal with
    | |- context [if ?b then _ else _] => let E := fresh "E" in destruct b eqn:E; cbn [changing] in *
    end;
  try (destruct (Z eq_refl) as [-> ->]); try (destruct (Z' eq_refl) as [-> ->]); cbn [app] in *; try solve [intuition congruence].
Qed.

Lemma one_runs flag s ls s' : mrun one_change s ls s' -> one_inv flag s ->
  one_inv (flag || existsb (fun il => match snd il with Switch _ true => true | _ => false end) ls) s'.
Proof.
  intros R. revert flag. induction R as [|s i l s1 ls s' Ps St R IH]; intros flag I; cbn [existsb snd]; [rewrite orb_false_r; exact I|].
  pose proof (one_step flag s i l s1 Ps (proj1 (mrun_P _ _ _ _ R)) I St) as I1. specialize (IH _ I1).
  destruct l; try exact IH. destruct ok; cbn [orb] in IH; [rewrite orb_true_r; exact IH|exact IH].
Qed.
Lemma settled_one s : settled s -> one_inv true s.
Proof. intros [[N _] [A [K D]]]. unfold one_inv, no_change, count in *. destruct (filter changing (threads s)); [auto|discriminate]. Qed.
Lemma inv_rest flag s : one_inv flag s -> no_change s -> (flag = true -> attr s = mode s) /\ compiled s /\ (deliver_re s = true -> report_re s = true).
Proof. unfold one_inv, no_change, count. destruct (filter changing (threads s)); [auto|discriminate]. Qed.

(** one at a time: the program and the modem agree whenever no assignment is being
    carried out *)
Lemma one_agree s ls s' : settled s -> mrun one_change s ls s' -> no_change s' ->
  attr s' = mode s' /\ compiled s' /\ (deliver_re s' = true -> report_re s' = true).
Proof.
  intros S R N. pose proof (one_runs true s ls s' R (settled_one s S)) as I. destruct (inv_rest _ _ I N) as [A B]. auto.
Qed.
(** ... and an assignment that the modem has accepted ends a disagreement *)
Lemma repair s ls s' new i : rested s -> compiled s -> (deliver_re s = true -> report_re s = true) -> mrun one_change s ls s' -> no_change s' ->
  In (i, Switch new true) ls -> attr s' = mode s'.
Proof.
  intros [N _] K D R N' H. assert (I0 : one_inv false s).
  { unfold one_inv, no_change, count in *. destruct (filter changing (threads s)); [|discriminate]. repeat split; auto. discriminate. }
  pose proof (one_runs false s ls s' R I0) as I. destruct (inv_rest _ _ I N') as [A _]. apply A. cbn. apply existsb_exists.
  exists (i, Switch new true). auto.
Qed.

(** ** A call during which no assignment is carried out *)
Definition fits (s : mstate) (p : place) : Prop :=
  match p with
  | UCommand form _ => form = attr s
  | RLook an => an = attr s
  | RText an | RText2 an => an = true /\ attr s = true
  | RPdu an => an = false /\ attr s = false
  | STest _ | SCommand _ | SStore _ | SMode | SText | SText1 | SText2 | SPdu | SPdu1 => True
  | ULook _ | RCommand | Ended _ => True
  end.
Definition same_shared (s s' : mstate) : Prop :=
  attr s' = attr s /\ mode s' = mode s /\ deliver_re s' = deliver_re s /\ report_re s' = report_re s /\ pdu_re s' = pdu_re s.
Lemma idle_step s p ok rp s1 p' l : changing p = false -> mstep1 s p ok rp = Some (s1, p', l) -> s1 = s.
Proof. intros C M. destruct s as [a m d r u ts]. destruct p; cbn in *; try discriminate; repeat match goal with H : (if ?b then _ else _) = _ |- _ => destruct b end; injection M as <- <- <-; reflexivity. Qed.
Lemma fits_step s p ok rp s1 p' l : changing p = false -> attr s = mode s -> compiled s -> fits s p -> mstep1 s p ok rp = Some (s1, p', l) ->
  fits s p' /\ right l.
Proof.
  intros C A K F M. destruct s as [a m d r u ts]. unfold compiled in *. cbn in *. subst m.
  destruct p as [n|n| n| | | | | | | k|form [|k]| |an|an|an|an|e]; cbn in *; try discriminate;
  destruct a, ok; cbn in *; try discriminate; repeat match goal with H : _ /\ _ |- _ => destruct H | H : _ = true |- _ => rewrite H in * | H : _ = false |- _ => rewrite H in * end; cbn in *;
  repeat match goal with H : (if ?b then _ else _) = _ |- _ => destruct b end; try (injection M as <- <- <-); cbn; auto; try discriminate; try congruence; destruct n; cbn; auto.
Qed.
Lemma quiet_call s l1 s1 i p l2 s2 : settled s -> mrun one_change s l1 s1 -> nth_error (threads s1) i = Some p -> in_use p = false ->
  mrun no_change s1 l2 s2 -> forall l, In (i, l) l2 -> right l.
Proof.
  intros S R N U R2. pose proof (proj1 (mrun_P _ _ _ _ R2)) as N1. destruct (one_agree _ _ _ S R N1) as [A [K _]].
  destruct (mrun_inv no_change (fun x => attr x = mode x /\ compiled x /\ exists q, nth_error (threads x) i = Some q /\ fits x q)
    (fun j l => j = i -> right l)) with (s := s1) (ls := l2) (s' := s2) as [_ F]; auto.
  - intros x j l x' Nx _ [Ax [Kx [q [Nq Fq]]]] St. step_cases St.
    pose proof (none_in changing (threads x) Nx j p0 N0) as Cp. pose proof (idle_step _ _ _ _ _ _ _ Cp M) as ->. subst x'.
    split; [split; [exact Ax|split; [exact Kx|]]|].
    + destruct (Nat.eq_dec j i) as [->|ne].
      * exists p'. split; [cbn [threads]; rewrite (nth_set _ _ _ _ _ N0), Nat.eqb_refl; reflexivity|].
        rewrite Nq in N0. injection N0 as <-. exact (proj1 (fits_step _ _ _ _ _ _ _ Cp Ax Kx Fq M)).
      * exists q. split; [cbn [threads]; rewrite (nth_set _ _ _ _ _ N0); rewrite (proj2 (Nat.eqb_neq _ _) ne); exact Nq|exact Fq].
    + intros ->. rewrite Nq in N0. injection N0 as <-. exact (proj2 (fits_step _ _ _ _ _ _ _ Cp Ax Kx Fq M)).
  - split; [auto|split; [auto|]]. exists p. split; [auto|]. destruct p; cbn in *; try discriminate; auto.
  - intros l I. rewrite Forall_forall in F. exact (F (i, l) I eq_refl).
Qed.

(** ** No assignment of the other value *)
Definition calm (a : bool) (p : place) : Prop := changing p = false /\ (forall new, p = STest new -> new = a).
Lemma calm_step s p ok rp s1 p' l : calm (attr s) p -> mstep1 s p ok rp = Some (s1, p', l) -> calm (attr s) p' /\ (forall b o, l <> Switch b o).
Proof.
  intros [C T] M. destruct s as [a m d r u ts]. cbn in *. destruct p as [n|n| n| | | | | | | k|form [|k]| |an|an|an|an|e]; cbn in *; try discriminate;
  try (rewrite (T _ eq_refl), eqb_reflx in M); repeat match goal with H : (if ?b then _ else _) = _ |- _ => destruct b end; injection M as <- <- <-;
  (split; [|intros; congruence]); split; try (intros; congruence); try (destruct ok; cbn; auto); try (destruct a; cbn; auto); congruence.
Qed.
Lemma Forall_set {A} (P : A -> Prop) l i x : Forall P l -> P x -> Forall P (set_at i x l).
Proof. intros F H. revert i. induction F; intros [|i]; cbn; auto. Qed.
Lemma rested_all s : rested s -> Forall (fun p => changing p = false /\ in_use p = false) (threads s).
Proof.
  intros [C U]. apply Forall_forall. intros p I. destruct (In_nth_error _ _ I) as [i E].
  split; [exact (none_in changing _ C i p E)|exact (none_in in_use _ U i p E)].
Qed.
Lemma steady s ls s' : settled s -> (forall new, In (STest new) (threads s) -> new = attr s) -> mrun any s ls s' ->
  Forall (fun il => right (snd il)) ls /\ attr s' = attr s /\ mode s' = mode s /\ (forall i b o, ~ In (i, Switch b o) ls).
Proof.
  intros [R [A [K _]]] T Run. pose proof (rested_all s R) as Q.
  destruct (mrun_inv any (fun x => same_shared s x /\ Forall (fun p => calm (attr x) p /\ fits x p) (threads x))
    (fun _ l => right l /\ forall b o, l <> Switch b o)) with (s := s) (ls := ls) (s' := s') as [[SS _] F]; auto.
  - intros x j l x' _ _ [SS Fx] St. step_cases St. pose proof (proj1 (Forall_forall _ _) Fx p (nth_error_In _ _ N)) as [Cp Fp].
    pose proof (idle_step _ _ _ _ _ _ _ (proj1 Cp) M) as ->. assert (A' : attr x = mode x /\ compiled x).
    { unfold same_shared, compiled in *. destruct SS as [-> [-> [-> [-> ->]]]]. auto. }
    destruct (fits_step _ _ _ _ _ _ _ (proj1 Cp) (proj1 A') (proj2 A') Fp M) as [F1 F2]. destruct (calm_step _ _ _ _ _ _ _ Cp M) as [C1 C2].
    subst x'. split; [|split; auto]. split; [exact SS|]. cbn [threads]. apply Forall_set; [exact Fx|split; auto].
  - split; [repeat split|]. apply Forall_forall. intros p I. pose proof (proj1 (Forall_forall _ _) Q p I) as [C U]. split.
    + split; auto. intros new ->. auto.
    + destruct p; cbn in *; try discriminate; auto.
  - destruct SS as [-> [-> _]]. split; [eapply Forall_impl; [|exact F]; cbn; tauto|]. repeat split; auto.
    intros i b o I. rewrite Forall_forall in F. destruct (F _ I) as [_ X]. exact (X b o eq_refl).
Qed.

(** ** A disagreement lasts *)
Definition misfits (s : mstate) (p : place) : Prop :=
  match p with
  | UCommand form _ => form = attr s
  | RLook an => an = mode s
  | RText an | RText2 an => an = false /\ attr s = true
  | RPdu an => an = true /\ attr s = false
  | STest _ | SCommand _ | SStore _ | SMode | SText | SText1 | SText2 | SPdu | SPdu1 => True
  | ULook _ | RCommand | Ended _ => True
  end.
Lemma misfits_step s p ok rp s1 p' l : changing p = false -> attr s <> mode s -> misfits s p -> mstep1 s p ok rp = Some (s1, p', l) ->
  misfits s p' /\ wrong l.
Proof.
  intros C A F M. destruct s as [a m d r u ts]. cbn in *. assert (m = negb a) as -> by (destruct a, m; cbn in *; congruence).
  destruct p as [n|n| n| | | | | | | k|form [|k]| |an|an|an|an|e]; cbn in *; try discriminate; try match type of F with _ /\ _ => destruct F as [-> F] end;
  destruct a, ok, d, r, u; cbn in *; try discriminate; injection M as <- <- <-; cbn; auto; try (split; congruence); try (destruct n; cbn; auto);
  try (subst; repeat split; congruence).
Qed.
Lemma stuck s ls s' : rested s -> attr s <> mode s -> (forall new, In (STest new) (threads s) -> new = attr s) -> mrun any s ls s' ->
  attr s' = attr s /\ mode s' = mode s /\ Forall (fun il => wrong (snd il)) ls /\ (forall i b o, ~ In (i, Switch b o) ls).
Proof.
  intros R A T Run. pose proof (rested_all s R) as Q.
  destruct (mrun_inv any (fun x => same_shared s x /\ Forall (fun p => calm (attr x) p /\ misfits x p) (threads x))
    (fun _ l => wrong l /\ forall b o, l <> Switch b o)) with (s := s) (ls := ls) (s' := s') as [[SS _] F]; auto.
  - intros x j l x' _ _ [SS Fx] St. step_cases St. pose proof (proj1 (Forall_forall _ _) Fx p (nth_error_In _ _ N)) as [Cp Fp].
    pose proof (idle_step _ _ _ _ _ _ _ (proj1 Cp) M) as ->. assert (A' : attr x <> mode x).
    { destruct SS as [-> [-> _]]. auto. }
    destruct (misfits_step _ _ _ _ _ _ _ (proj1 Cp) A' Fp M) as [F1 F2]. destruct (calm_step _ _ _ _ _ _ _ Cp M) as [C1 C2].
    subst x'. split; [|split; auto]. split; [exact SS|]. cbn [threads]. apply Forall_set; [exact Fx|split; auto].
  - split; [repeat split|]. apply Forall_forall. intros p I. pose proof (proj1 (Forall_forall _ _) Q p I) as [C U]. split.
    + split; auto. intros new ->. auto.
    + destruct p; cbn in *; try discriminate; auto.
  - destruct SS as [-> [-> _]]. repeat split; auto; [eapply Forall_impl; [|exact F]; cbn; tauto|].
    intros i b o I. rewrite Forall_forall in F. destruct (F _ I) as [_ X]. exact (X b o eq_refl).
Qed.

(** ** The regular expressions *)
Lemma never_none s ls s' : deliver_re s = true -> report_re s = true -> pdu_re s = true -> mrun any s ls s' ->
  forall i answer form, ~ In (i, Taken answer form NoneMatch) ls.
Proof.
  intros D R U Run.
  destruct (mrun_inv any (fun x => deliver_re x = true /\ report_re x = true /\ pdu_re x = true)
    (fun _ l => forall answer form, l <> Taken answer form NoneMatch)) with (s := s) (ls := ls) (s' := s') as [_ F]; auto.
  - intros x j l x' _ _ [Dx [Rx Ux]] St. step_cases St. destruct x as [a m d r u ts]. cbn in *. subst d r u x'. cbn in *.
    destruct p as [n|n| n| | | | | | | k|form [|k]| |an|an|an|an|e]; cbn in *; try discriminate;
    repeat match goal with H : (if ?b then _ else _) = _ |- _ => destruct b end; injection M as <- <- <-; cbn; repeat split; try congruence;
    intros; destruct an; congruence.
  - intros i answer form I. rewrite Forall_forall in F. exact (F _ I answer form eq_refl).
Qed.
Lemma never_wrong s ls s' : mrun any s ls s' -> forall i answer form, In (i, Taken answer form Fine) ls -> answer = form.
Proof.
  intros Run. destruct (mrun_inv any (fun x => True) (fun _ l => forall answer form, l = Taken answer form Fine -> answer = form))
    with (s := s) (ls := ls) (s' := s') as [_ F]; auto.
  - intros x j l x' _ _ _ St. split; auto. step_cases St. destruct x as [a m d r u ts]. cbn in *.
    destruct p as [n|n| n| | | | | | | k|form [|k]| |an|an|an|an|e]; cbn in *; try discriminate;
    repeat match goal with H : (if ?b then _ else _) = _ |- _ => let E := fresh in destruct b eqn:E end; injection M as <- <- <-; intros; try congruence.
    + destruct an; cbn in *; congruence.
    + destruct r, an; cbn in *; congruence.
    + destruct u, an; cbn in *; congruence.
  - intros i answer form I. rewrite Forall_forall in F. exact (F _ I answer form eq_refl).
Qed.
