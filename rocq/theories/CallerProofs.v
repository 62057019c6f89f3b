(** Proofs about calls that ring several times. *)
From Coq Require FinFun.
From Verif Require Import Base ModemCore ModemSpec WriteProofs MonadProofs SendSpec TrackSpec CoverageSpec CallModel NotifyModel BookSpec DialSpec CallFinal RingProofs CallerSpec.

Lemma times_snoc c d cs : times c (cs ++ [d]) = times c cs + (if caller_dec d c then 1 else 0).
Proof. unfold times. rewrite count_occ_app. cbn. destruct (caller_dec d c); lia. Qed.
Lemma no_ring_exchange c t evs r n : exchange c t evs r -> ~ In (ERing n) evs.
Proof.
  intros (wait & busy & codes & rr & -> & _). revert wait. assert (P : forall w, ~ In (ERing n) (pause w)) by (intro w; unfold pause; destruct (0 <? w); cbn; intuition discriminate).
  induction busy as [|b busy IH]; intro wait; cbn [attempts].
  - destruct rr; cbn [In]; intros [H|H]; try discriminate; [apply (P wait); auto|auto].
  - cbn [In]. intros [H|H]; [discriminate|]. apply in_app_iff in H as [H|H]; [apply (P wait); auto|]. cbn [In] in H. destruct H as [H|H]; [discriminate|]. apply (IH (wait + 2)); auto.
Qed.
Lemma no_ring_kind crc line evs x crc' n : ring_kind crc line evs x crc' -> ~ In (ERing n) evs.
Proof. destruct 1; cbn; auto; eapply no_ring_exchange; eauto. Qed.

Definition entry (k i : nat) : Z * nat := (Z.of_nat i + 1, (k + i)%nat).
Lemma entered_end id n t : (forall e, In e t -> fst e <> id) -> forall t', entered id n t t' -> t' = t ++ [(id, n)].
Proof.
  intros H t' E. induction E as [|k t|j k t t' N E IH]; auto.
  - destruct (H (id, k)); cbn; auto.
  - cbn [app]. rewrite IH; auto. intros e I. apply H. right. auto.
Qed.
Lemma in_entries k j e : In e (map (entry k) (seq 0 j)) <-> exists i, (i < j)%nat /\ e = entry k i.
Proof. rewrite in_map_iff. split; intros (i & A & B); exists i; [apply in_seq in B; split; [lia|auto]|split; auto; apply in_seq; lia]. Qed.

Lemma Forall2_weaken {A B} (P Q : A -> B -> Prop) l l' : (forall a b, P a b -> Q a b) -> Forall2 P l l' -> Forall2 Q l l'.
Proof. induction 2; constructor; auto. Qed.

Section Book.
Context (old : list call).
Notation k := (length old).
Definition explained (cs : list (option str)) (ns : list nat) (calls : list call) (table : list (Z * nat)) : Prop :=
  exists callers, NoDup callers /\ (forall c, In c callers <-> In c cs) /\ by_first_ring callers cs /\ one_each old callers cs calls table /\
    Forall2 (fun c n => exists i, n = (k + i)%nat /\ nth_error callers i = Some c) cs ns.

Lemma explained_sound cs ns b : explained cs ns (b_calls b) (b_table b) -> sound_book b.
Proof.
  intros (callers & _ & _ & _ & (L & _ & C & T) & _). split.
  - unfold ids. rewrite T, map_map. cbn [fst]. apply FinFun.Injective_map_NoDup; [|apply seq_NoDup]. intros x y H. lia.
  - intros id n I. rewrite T in I. apply in_entries in I as (i & H & [= -> ->]). destruct (nth_error callers i) as [c|] eqn:E; [|apply nth_error_None in E; lia].
    destruct (C i c E) as (ty & N). eexists. split; [exact N|]. auto.
Qed.
Lemma explained_ring cs ns b c kind evs b' n : explained cs ns (b_calls b) (b_table b) -> takes_ring b c kind evs (Ok tt) b' -> In (ERing n) evs ->
  explained (cs ++ [c]) (ns ++ [n]) (b_calls b') (b_table b').
Proof.
  intros (callers & ND & Set_ & Ord & (L & Old & C & T) & F) R I. inversion R as [ty n' b1 O K A _ _| |t1 id n' t2 b1 E S F1 F2 Rg|]; subst.
  - destruct I as [I|[]]. injection I as ->. destruct A as (-> & Cs & En). cbn [c_id] in En.
    assert (Len : length (b_table b) = length callers) by (rewrite T, map_length, seq_length; auto). rewrite Len in *.
    assert (Nc : ~ In c callers).
    { intro J. apply In_nth_error in J as (i & J). destruct (C i c J) as (ty' & N). rewrite Forall_forall in O. destruct (O (entry k i)) as (c0 & N0 & D).
      - rewrite T. apply in_entries. exists i. split; auto. apply nth_error_Some. congruence.
      - cbn [entry snd] in N0. rewrite N in N0. injection N0 as <-. apply D. reflexivity. }
    apply entered_end in En. 2:{ intros e J. rewrite T in J. apply in_entries in J as (i & H & ->). cbn [entry fst]. lia. }
    exists (callers ++ [c]). split; [|split; [|split; [|split; [split; [|split; [|split]]|]]]].
    + apply NoDup_rev in ND. replace (callers ++ [c]) with (rev (c :: rev callers)) by (cbn; rewrite rev_involutive; auto). apply NoDup_rev. constructor; auto. rewrite <- in_rev. auto.
    + intro d. rewrite !in_app_iff, Set_. tauto.
    + intros i j d e H N1 N2. assert (j < length (callers ++ [c]))%nat by (apply nth_error_Some; congruence). rewrite app_length in *. cbn [length] in *. rewrite nth_error_app1 in N1 by lia.
      destruct (Nat.lt_ge_cases j (length callers)) as [Lt|Ge].
      * rewrite nth_error_app1 in N2 by auto. destruct (Ord i j d e H N1 N2) as (bf & af & -> & Nb). exists bf, (af ++ [c]). rewrite <- app_assoc. split; auto.
      * rewrite nth_error_app2 in N2 by auto. replace (j - length callers)%nat with 0%nat in N2 by lia. injection N2 as <-. assert (Id : In d cs) by (apply Set_; eapply nth_error_In; eauto).
        apply in_split in Id as (bf & af & ->). exists bf, (af ++ [c]). rewrite <- app_assoc. split; auto. intro J. apply Nc. apply Set_. apply in_or_app. auto.
    + rewrite Cs, !app_length, L. cbn. lia.
    + intros j H. rewrite Cs, nth_error_app1 by lia. apply Old; auto.
    + intros i d H. rewrite Cs. destruct (Nat.lt_ge_cases i (length callers)) as [Lt|Ge].
      * rewrite nth_error_app1 in H by auto. destruct (C i d H) as (ty' & N). exists ty'. rewrite nth_error_app1 by lia. rewrite N, times_snoc. destruct (caller_dec c d) as [->|]; [destruct Nc; eapply nth_error_In; eauto|].
        rewrite Z.add_0_r. reflexivity.
      * rewrite nth_error_app2 in H by auto. destruct (i - length callers)%nat as [|q] eqn:Q; [|destruct q; discriminate]. injection H as <-. assert (i = length callers) as -> by lia.
        exists ty. rewrite nth_error_app2 by lia. replace (k + length callers - length (b_calls b))%nat with 0%nat by lia. cbn [nth_error]. rewrite times_snoc. destruct (caller_dec c c); [|contradiction].
        assert (times c cs = 0) as ->; [|reflexivity]. unfold times. rewrite (proj1 (count_occ_not_In caller_dec cs c)); auto. rewrite <- Set_. auto.
    + rewrite En, T, app_length. cbn [length]. rewrite Nat.add_1_r, seq_S, map_app. cbn [map]. rewrite L. reflexivity.
    + apply Forall2_app.
      * eapply Forall2_weaken; [|exact F]. intros d x (i & -> & H). exists i. split; auto. rewrite nth_error_app1; auto. apply nth_error_Some. congruence.
      * constructor; [|constructor]. exists (length callers). split; [lia|]. rewrite nth_error_app2, Nat.sub_diag by lia. reflexivity.
  - destruct I as [I|[]]. injection I as ->. destruct Rg as (Len & Tab & _ & _ & Rung & Kept).
    assert (J : In (id, n) (b_table b)) by (rewrite E; apply in_or_app; right; left; auto). pose proof J as J0. rewrite T in J. apply in_entries in J as (i & Hi & [= -> ->]).
    destruct S as (c0 & N0 & Num & _). cbn [snd] in N0. destruct (nth_error callers i) as [d|] eqn:Ed; [|apply nth_error_None in Ed; lia].
    destruct (C i d Ed) as (ty & N). rewrite N in N0. injection N0 as <-. cbn [c_number] in Num. subst d.
    assert (Ic : In c callers) by (eapply nth_error_In; eauto).
    assert (Un : forall i', nth_error callers i' = Some c -> i' = i). { intros i' H. rewrite NoDup_nth_error in ND. apply ND; [apply nth_error_Some; congruence|congruence]. }
    exists callers. split; auto. split; [|split; [|split; [split; [|split; [|split]]|]]].
    + intro d. rewrite in_app_iff, <- Set_. cbn. split; auto. intros [H|[<-|[]]]; auto.
    + intros i1 i2 d e H N1 N2. destruct (Ord i1 i2 d e H N1 N2) as (bf & af & -> & Nb). exists bf, (af ++ [c]). rewrite <- app_assoc. auto.
    + congruence.
    + intros j H. rewrite Kept; auto. intros e Ie Se. rewrite T in Ie. apply in_entries in Ie as (i' & _ & ->). cbn [entry snd] in Se. lia.
    + intros i' d H. destruct (C i' d H) as (ty' & N'). exists ty'. rewrite times_snoc. destruct (caller_dec c d) as [<-|D].
      * assert (J : In (entry k i') (b_table b)) by (rewrite T; apply in_entries; exists i'; split; auto; apply nth_error_Some; congruence).
        exact (Rung (entry k i') _ J N' eq_refl).
      * rewrite Kept, N', Z.add_0_r; auto. intros e Ie Se. rewrite T in Ie. apply in_entries in Ie as (i2 & _ & ->). cbn [entry snd] in Se. assert (i2 = i') as -> by lia. eexists. split; [exact N'|]. cbn. congruence.
    + congruence.
    + apply Forall2_app; auto. constructor; [|constructor]. exists i. auto.
Qed.
Lemma explained_refused cs ns b c kind evs e b' : explained cs ns (b_calls b) (b_table b) -> takes_ring b c kind evs (Err e) b' -> b' = b.
Proof.
  intros (callers & ND & Set_ & Ord & (L & Old & C & T) & F) R. inversion R as [| | |t1 en t2 b1 E S F1 Rg]; subst; auto.
  exfalso. assert (J : In en (b_table b)) by (rewrite E; apply in_or_app; right; left; auto). rewrite T in J. apply in_entries in J as (i & Hi & ->).
  destruct S as (c0 & N0 & _ & Inc). cbn [entry snd] in N0. destruct (nth_error callers i) as [d|] eqn:Ed; [|apply nth_error_None in Ed; lia]. destruct (C i d Ed) as (ty & N). rewrite N in N0. injection N0 as <-. discriminate Inc.
Qed.
End Book.

Theorem rung m cs ns m' : activeCalls m = [] -> rung_by m cs ns m' -> explained (callObjs m) cs ns (callObjs m') (activeCalls m').
Proof.
  intros E. induction 1 as [|cs ns m1 before line after sc w c n R IH U H X Ca I|cs ns m1 before line after sc w e R IH U H X|cs ns m1 lines sc x w R IH U X|cs ns m1 m2 R IH E1 E2].
  - exists []. split; [constructor|]. split; [tauto|]. split; [intros [|] ? ? ? ? ?; discriminate|]. split; [|constructor]. split; [cbn; lia|]. split; auto. split; [intros [|] ? ?; discriminate|exact E].
  - pose proof (ring_noted before line after m1 sc (explained_sound _ cs ns (book_of m1) IH) U H) as N. cbv zeta in N. rewrite X in N.
    inversion N as [|ring rest evs kind crc' number tr x b' El Rk Ca' Tr]; subst. rewrite (caller_fun _ _ _ _ Ca Ca') in *.
    assert (I' : In (ERing n) tr). { rewrite <- H0 in I. apply in_app_iff in I as [I|I]; auto. destruct (no_ring_kind _ _ _ _ _ _ Rk I). }
    exact (explained_ring (callObjs m) cs ns (book_of m1) number kind tr (book_of (dev w)) n IH Tr I').
  - pose proof (ring_noted before line after m1 sc (explained_sound _ cs ns (book_of m1) IH) U H) as N. cbv zeta in N. rewrite X in N.
    assert (B : book_of (dev w) = book_of m1).
    { remember (book_of (dev w)) as b2. remember (book_of m1) as b1. assert (IH1 : explained (callObjs m) cs ns (b_calls b1) (b_table b1)) by (subst b1; exact IH). inversion N as [ring rest evs e' crc' El Rk|ring rest evs kind crc' number tr x b' El Rk Ca' Tr]; [congruence|]. exact (explained_refused (callObjs m) cs ns b1 _ _ _ _ _ IH1 Tr). }
    injection B as B1 B2 _ _. rewrite B1, B2. exact IH.
  - rewrite nothing_noted in X by auto. injection X as <- <-. exact IH.
  - rewrite E1, E2. exact IH.
Qed.
Lemma nth_ext_error {A} (l l' : list A) : (forall i, nth_error l i = nth_error l' i) -> l = l'.
Proof.
  revert l'. induction l as [|x l IH]; intros [|y l'] H; auto; try (specialize (H 0%nat); discriminate H). pose proof (H 0%nat) as H0. injection H0 as ->. f_equal. apply IH. intro i. exact (H (S i)).
Qed.
Theorem one_caller m cs ns m' c : activeCalls m = [] -> rung_by m cs ns m' -> cs <> [] -> Forall (eq c) cs ->
  exists ty, callObjs m' = callObjs m ++ [mk_call 1 true ty c false false true true (Z.of_nat (length cs))] /\
    activeCalls m' = [(1, length (callObjs m))] /\ Forall (eq (length (callObjs m))) ns.
Proof.
  intros E R N F. destruct (rung m cs ns m' E R) as (callers & ND & Set_ & Ord & (L & Old & C & T) & F2). rewrite Forall_forall in F.
  assert (callers = [c]) as ->.
  { assert (A : forall d, In d callers -> d = c) by (intros d I; symmetry; apply F; apply Set_; auto).
    destruct callers as [|d [|e l]].
    - destruct cs as [|x cs]; [contradiction|]. destruct (proj2 (Set_ x)); left; auto.
    - rewrite (A d); [auto|left; auto].
    - exfalso. inversion ND as [|? ? X _]; subst. apply X. rewrite (A d), (A e); [left; auto|right; left; auto|left; auto]. }
  destruct (C 0%nat c eq_refl) as (ty & N0). exists ty. rewrite Nat.add_0_r in N0. split; [|split].
  - apply nth_ext_error. intro i. destruct (Nat.lt_trichotomy i (length (callObjs m))) as [H|[->|H]].
    + rewrite nth_error_app1 by auto. apply Old; auto.
    + rewrite nth_error_app2, Nat.sub_diag by auto. cbn [nth_error]. rewrite N0. unfold times. replace (count_occ caller_dec cs c) with (length cs); auto. clear - F. induction cs as [|x cs IH]; cbn; auto.
      destruct (caller_dec x c) as [_|D]; [|destruct D; symmetry; apply F; left; auto]. rewrite IH; auto. intros y I. apply F. right. auto.
    + rewrite (proj2 (nth_error_None (callObjs m') i)) by (rewrite L; cbn; lia). symmetry. apply nth_error_None. rewrite app_length. cbn. lia.
  - rewrite T. cbn. rewrite Nat.add_0_r. reflexivity.
  - clear - F2. induction F2 as [|x n cs ns (i & -> & I) F2 IH]; constructor; auto. destruct i as [|[|i]]; try discriminate. lia.
Qed.
Theorem two_callers m cs ns m' c d : activeCalls m = [] -> rung_by m cs ns m' -> In c cs -> In d cs -> c <> d ->
  exists id1 n1 c1 id2 n2 c2, id1 <> id2 /\ n1 <> n2 /\ In (id1, n1) (activeCalls m') /\ In (id2, n2) (activeCalls m') /\
    nth_error (callObjs m') n1 = Some c1 /\ nth_error (callObjs m') n2 = Some c2 /\ c_number c1 = c /\ c_number c2 = d /\
    c_active c1 = true /\ c_active c2 = true /\ c_ringCount c1 = times c cs /\ c_ringCount c2 = times d cs.
Proof.
  intros E R I1 I2 D. destruct (rung m cs ns m' E R) as (callers & ND & Set_ & Ord & (L & Old & C & T) & F2).
  apply Set_ in I1, I2. apply In_nth_error in I1 as (i & I1), I2 as (j & I2). destruct (C i c I1) as (ty1 & N1), (C j d I2) as (ty2 & N2).
  assert (i <> j) by congruence. assert (i < length callers)%nat by (apply nth_error_Some; congruence). assert (j < length callers)%nat by (apply nth_error_Some; congruence).
  exists (Z.of_nat i + 1), (length (callObjs m) + i)%nat. eexists. exists (Z.of_nat j + 1), (length (callObjs m) + j)%nat. eexists.
  split; [lia|]. split; [lia|]. split; [rewrite T; apply in_entries; exists i; auto|]. split; [rewrite T; apply in_entries; exists j; auto|]. split; [exact N1|]. split; [exact N2|]. repeat split.
Qed.
