(** The dictionary of sent messages while its objects come to an end (C112). *)
From Coq Require Import Lia.
From Verif Require Import WeakModel WeakSpec.

Lemma change_same {A} n (f : A -> A) l : nth_error (change n f l) n = option_map f (nth_error l n).
Proof. revert n. induction l as [|x l IH]; intros [|n]; cbn; auto. Qed.
Lemma change_other {A} n m (f : A -> A) l : n <> m -> nth_error (change n f l) m = nth_error l m.
Proof. revert n m. induction l as [|x l IH]; intros [|n] [|m] N; cbn; auto; try congruence. Qed.
Lemma change_length {A} n (f : A -> A) l : length (change n f l) = length l.
Proof. revert n. induction l as [|x l IH]; intros [|n]; cbn; auto. Qed.
Lemma change_id {A} n (l : list A) : change n (fun x => x) l = l.
Proof. revert n. induction l as [|x l IH]; intros [|n]; cbn; congruence. Qed.
Lemma nth_snoc {A} (l : list A) x n : nth_error (l ++ [x]) n = if Nat.eqb n (length l) then Some x else nth_error l n.
Proof.
  destruct (Nat.eqb_spec n (length l)) as [->|N]; [rewrite nth_error_app2, Nat.sub_diag by lia; reflexivity|].
  destruct (Nat.ltb_spec n (length l)); [apply nth_error_app1; auto|].
  rewrite nth_error_app2 by lia. assert (E : (n - length l > 0)%nat) by lia. destruct (n - length l)%nat as [|m] eqn:D; [lia|].
  cbn. rewrite (proj2 (nth_error_None l n)) by lia. destruct m; reflexivity.
Qed.
Lemma change_nth {A} n (f : A -> A) l m : nth_error (change n f l) m = if Nat.eqb n m then option_map f (nth_error l m) else nth_error l m.
Proof. destruct (Nat.eqb_spec n m) as [->|N]; [apply change_same|apply change_other; auto]. Qed.
Lemma change_In {A} n (f : A -> A) l x : In x (change n f l) -> In x l \/ exists y, nth_error l n = Some y /\ x = f y.
Proof.
  revert n. induction l as [|z l IH]; intros [|n] I; cbn in *; auto.
  - destruct I as [<-|I]; eauto.
  - destruct I as [<-|I]; auto. destruct (IH _ I) as [J|(y & J & K)]; eauto.
Qed.

(** The invariant: the table leads to objects with the key as reference; objects kept
    or in the hand of a handler have not ended. *)
Record good (s : weak) : Prop := {
  g_table : forall r i, entry (table s) r = Some i -> exists o, nth_error (sents s) i = Some o /\ s_ref o = r;
  g_kept : forall i o, nth_error (sents s) i = Some o -> kept o = true -> ended o = false;
  g_hand : forall k rep i, nth_error (handlers s) k = Some (HSet rep i) -> exists o, nth_error (sents s) i = Some o /\ ended o = false }.
Lemma good_start : good w_start.
Proof. split; cbn; try discriminate; intros [|]; discriminate. Qed.
Lemma in_hand_some s i k rep : nth_error (handlers s) k = Some (HSet rep i) -> existsb (in_hand i) (handlers s) = true.
Proof. intros E. apply existsb_exists. exists (HSet rep i). split; [eapply nth_error_In; eauto|apply Nat.eqb_refl]. Qed.
Lemma lookup_some s r i : lookup s r = Some i -> entry (table s) r = Some i /\ alive s i = true.
Proof. unfold lookup. destruct (entry (table s) r) as [j|]; [|discriminate]. destruct (alive s j) eqn:A; [|discriminate]. intros [= <-]. auto. Qed.
Lemma alive_some s i : alive s i = true -> exists o, nth_error (sents s) i = Some o /\ ended o = false.
Proof. unfold alive. destruct (nth_error (sents s) i) as [o|]; [|discriminate]. exists o. split; [reflexivity|]. destruct (ended o); auto; discriminate. Qed.
Lemma lookup_object s r i : good s -> lookup s r = Some i -> exists o, nth_error (sents s) i = Some o /\ s_ref o = r /\ ended o = false.
Proof.
  intros G L. apply lookup_some in L as (E & A). apply alive_some in A as (o & O & N). destruct (g_table _ G _ _ E) as (o' & O' & R).
  rewrite O in O'. injection O' as <-. eauto.
Qed.

(** What a step does to the objects: their references stay. *)
Lemma sents_grow s a l s' i o : wact s a = Some (s', l) -> nth_error (sents s) i = Some o ->
  exists o', nth_error (sents s') i = Some o' /\ s_ref o' = s_ref o.
Proof.
  intros W O.
  assert (C : forall n f, (forall x, s_ref (f x) = s_ref x) -> exists o', nth_error (change n f (sents s)) i = Some o' /\ s_ref o' = s_ref o).
  { intros n f F. rewrite change_nth, O. destruct (Nat.eqb n i); cbn; eauto. }
  destruct a; cbn [wact] in W.
  - injection W as <- <-. cbn [sents]. rewrite nth_error_app1; eauto. apply nth_error_Some. congruence.
  - injection W as <- <-. apply C. auto.
  - destruct (nth_error (sents s) i0) as [q|]; [|discriminate]. destruct (kept q || existsb (in_hand i0) (handlers s)); [discriminate|].
    injection W as <- <-. apply C. auto.
  - destruct (lookup s ref) as [j|]; injection W as <- <-; [apply C; auto|eauto].
  - injection W as <- <-. eauto.
  - injection W as <- <-. eauto.
  - destruct (nth_error (handlers s) k) as [h|]; [|discriminate]. destruct h; cbn [handler_step] in W.
    + destruct (lookup s ref); injection W as <- <-; eauto.
    + destruct (lookup s ref); injection W as <- <-; eauto.
    + injection W as <- <-. cbn [sents with_handler with_sents]. apply C. auto.
    + injection W as <- <-. eauto.
    + discriminate.
Qed.
Lemma good_act s a l s' : good s -> wact s a = Some (s', l) -> good s'.
Proof.
  intros G W. split.
  - intros r i E.
    assert (T : (exists ref, a = WSend ref) \/ table s' = table s).
    { destruct a; cbn [wact] in W; [left; eauto|right..].
      - injection W as <- <-. reflexivity.
      - destruct (nth_error (sents s) i0) as [q|]; [|discriminate]. destruct (kept q || existsb (in_hand i0) (handlers s)); [discriminate|]. injection W as <- <-. reflexivity.
      - destruct (lookup s ref); injection W as <- <-; reflexivity.
      - injection W as <- <-. reflexivity.
      - injection W as <- <-. reflexivity.
      - destruct (nth_error (handlers s) k) as [h|]; [|discriminate].
        destruct h; cbn [handler_step] in W; try (destruct (lookup s ref)); try discriminate; injection W as <- <-; reflexivity. }
    destruct T as [(ref & ->)|T].
    + cbn [wact] in W. injection W as <- <-. cbn [table entry] in E. cbn [sents]. destruct (Z.eqb_spec ref r) as [->|N].
      * injection E as <-. rewrite nth_snoc, Nat.eqb_refl. cbn. eauto.
      * destruct (g_table _ G _ _ E) as (o & O & R). exists o. split; [|auto]. rewrite nth_error_app1; auto. apply nth_error_Some. congruence.
    + rewrite T in E. destruct (g_table _ G _ _ E) as (o & O & R). destruct (sents_grow _ _ _ _ _ _ W O) as (o' & O' & R'). exists o'. split; [auto|congruence].
  - intros i o O K.
    assert (C : forall n f, nth_error (change n f (sents s)) i = Some o -> (forall q, nth_error (sents s) n = Some q -> kept (f q) = true -> ended (f q) = false) -> ended o = false).
    { intros n f E F. rewrite change_nth in E. destruct (Nat.eqb_spec n i) as [->|N]; [|exact (g_kept _ G _ _ E K)].
      destruct (nth_error (sents s) i) as [q|]; [|discriminate]. cbn in E. injection E as <-. apply F; auto. }
    destruct a; cbn [wact] in W.
    + injection W as <- <-. cbn [sents] in O. rewrite nth_snoc in O. destruct (Nat.eqb i (length (sents s))); [injection O as <-; reflexivity|exact (g_kept _ G _ _ O K)].
    + injection W as <- <-. apply (C _ _ O). cbn. discriminate.
    + destruct (nth_error (sents s) i0) as [q|] eqn:Q; [|discriminate]. destruct (kept q || existsb (in_hand i0) (handlers s)) eqn:B; [discriminate|].
      injection W as <- <-. apply (C _ _ O). intros q' Q'. rewrite Q in Q'. injection Q' as <-. cbn. destruct (kept q); discriminate.
    + destruct (lookup s ref) as [j|] eqn:L; injection W as <- <-; [|exact (g_kept _ G _ _ O K)].
      apply (C _ _ O). intros q Q _. destruct (lookup_object _ _ _ G L) as (o' & O' & _ & N). rewrite Q in O'. injection O' as ->. exact N.
    + injection W as <- <-. exact (g_kept _ G _ _ O K).
    + injection W as <- <-. exact (g_kept _ G _ _ O K).
    + destruct (nth_error (handlers s) k) as [h|] eqn:H; [|discriminate]. destruct h; cbn [handler_step] in W.
      * destruct (lookup s ref); injection W as <- <-; exact (g_kept _ G _ _ O K).
      * destruct (lookup s ref); injection W as <- <-; exact (g_kept _ G _ _ O K).
      * injection W as <- <-. apply (C _ _ O). intros q Q _. destruct (g_hand _ G _ _ _ H) as (o' & O' & N). rewrite Q in O'. injection O' as ->. exact N.
      * injection W as <- <-. exact (g_kept _ G _ _ O K).
      * discriminate.
  - intros k rep i H.
    assert (C : forall n f, (forall q, nth_error (sents s) i = Some q -> n = i -> ended (f q) = ended q) -> forall k, nth_error (handlers s) k = Some (HSet rep i) ->
        exists o, nth_error (change n f (sents s)) i = Some o /\ ended o = false).
    { intros n f F k' E. destruct (g_hand _ G _ _ _ E) as (o & O & N). rewrite change_nth, O. destruct (Nat.eqb_spec n i) as [->|]; cbn; [|eauto].
      exists (f o). split; [reflexivity|]. rewrite F; auto. }
    destruct a; cbn [wact] in W.
    + injection W as <- <-. cbn [sents handlers] in *. destruct (g_hand _ G _ _ _ H) as (o & O & N). exists o. split; [|auto].
      rewrite nth_error_app1; auto. apply nth_error_Some. congruence.
    + injection W as <- <-. cbn [sents handlers with_sents] in *. eapply C; [|exact H]; auto.
    + destruct (nth_error (sents s) i0) as [q|] eqn:Q; [|discriminate]. destruct (kept q || existsb (in_hand i0) (handlers s)) eqn:B; [discriminate|].
      injection W as <- <-. cbn [sents handlers with_sents] in *. eapply C; [|exact H]. intros q' _ ->.
      rewrite (in_hand_some _ _ _ _ H), Bool.orb_true_r in B. discriminate.
    + destruct (lookup s ref) as [j|] eqn:L; injection W as <- <-; [|exact (g_hand _ G _ _ _ H)]. cbn [sents handlers with_sents] in *. eapply C; [|exact H]; auto.
    + injection W as <- <-. exact (g_hand _ G _ _ _ H).
    + injection W as <- <-. cbn [handlers sents] in *. rewrite nth_snoc in H. destruct (Nat.eqb k (length (handlers s))); [discriminate|exact (g_hand _ G _ _ _ H)].
    + destruct (nth_error (handlers s) k0) as [h|] eqn:E; [|discriminate].
      assert (D : forall h', nth_error (handlers (with_handler s k0 h')) k = Some (HSet rep i) -> h' = HSet rep i \/ nth_error (handlers s) k = Some (HSet rep i)).
      { intros h' X. cbn [with_handler handlers] in X. rewrite change_nth in X. destruct (Nat.eqb_spec k0 k) as [->|]; [|auto]. rewrite E in X. cbn in X. injection X as ->. auto. }
      destruct h; cbn [handler_step] in W.
      * destruct (lookup s ref); injection W as <- <-; destruct (D _ H) as [X|X]; try discriminate; exact (g_hand _ G _ _ _ X).
      * destruct (lookup s ref) as [j|] eqn:L; injection W as <- <-; destruct (D _ H) as [X|X]; try discriminate; try exact (g_hand _ G _ _ _ X).
        injection X as -> ->. destruct (lookup_object _ _ _ G L) as (o & O & _ & N). eauto.
      * injection W as <- <-. cbn [sents with_handler with_sents] in *. destruct (D _ H) as [X|X]; [discriminate|]. eapply C; [|exact X]; auto.
      * injection W as <- <-; destruct (D _ H) as [X|X]; try discriminate; exact (g_hand _ G _ _ _ X).
      * discriminate.
Qed.
Lemma good_run s tr s' : good s -> wruns s tr s' -> good s'.
Proof. intros G R. induction R; auto. apply IHR. eapply good_act; eauto. Qed.
Lemma wruns_app s tr s' tr2 s2 : wruns s tr s' -> wruns s' tr2 s2 -> wruns s (tr ++ tr2) s2.
Proof. intros R. induction R; intros; cbn; auto. econstructor; eauto. Qed.
Lemma wruns_snoc s tr s' a l s2 : wruns s tr s' -> wact s' a = Some (s2, l) -> wruns s (tr ++ [(a, l)]) s2.
Proof. intros R W. eapply wruns_app; [exact R|]. econstructor; [exact W|constructor]. Qed.
Lemma wruns_snoc_inv s tr a l s2 : wruns s (tr ++ [(a, l)]) s2 -> exists s', wruns s tr s' /\ wact s' a = Some (s2, l).
Proof.
  revert s. induction tr as [|[b m] tr IH]; intros s R; inversion R; subst.
  - inversion H5; subst. exists s. split; [constructor|auto].
  - apply IH in H5 as (s1 & R' & W). exists s1. split; [econstructor; eauto|auto].
Qed.

(** ** KeyError: an object with that reference ended after the test *)
Lemma alive_act s a l s' i : wact s a = Some (s', l) -> alive s i = true -> alive s' i = true \/ a = WEnd i.
Proof.
  intros W A. destruct (alive_some _ _ A) as (o & O & N).
  assert (C : forall n f, (n = i -> forall q, ended (f q) = ended q) -> forall t h w, alive (mk_weak (change n f (sents s)) t h w) i = true).
  { intros n f F t h w. unfold alive. cbn [sents]. rewrite change_nth, O. destruct (Nat.eqb_spec n i) as [->|]; cbn; [rewrite F by auto|]; rewrite N; reflexivity. }
  destruct a; cbn [wact] in W.
  - left. injection W as <- <-. unfold alive. cbn [sents]. rewrite nth_error_app1, O, N by (apply nth_error_Some; congruence). reflexivity.
  - left. injection W as <- <-. apply C. auto.
  - destruct (nth_error (sents s) i0) as [q|]; [|discriminate]. destruct (kept q || existsb (in_hand i0) (handlers s)); [discriminate|].
    injection W as <- <-. destruct (Nat.eq_dec i0 i) as [->|D]; [auto|]. left. apply C. congruence.
  - left. destruct (lookup s ref) as [j|]; injection W as <- <-; [apply C; auto|auto].
  - injection W as <- <-. auto.
  - injection W as <- <-. auto.
  - left. destruct (nth_error (handlers s) k) as [h|]; [|discriminate]. destruct h; cbn [handler_step] in W.
    + destruct (lookup s ref); injection W as <- <-; auto.
    + destruct (lookup s ref); injection W as <- <-; auto.
    + injection W as <- <-. apply C. auto.
    + injection W as <- <-. auto.
    + discriminate.
Qed.
Lemma entry_act s a l s' r i : wact s a = Some (s', l) -> entry (table s) r = Some i -> entry (table s') r = Some i \/ (a = WSend r /\ lookup s' r = Some (length (sents s))).
Proof.
  intros W E. destruct a; cbn [wact] in W.
  - injection W as <- <-. cbn [table entry]. destruct (Z.eqb_spec ref r) as [->|]; [|auto]. right. split; [reflexivity|].
    unfold lookup, alive. cbn [table sents entry]. rewrite Z.eqb_refl, nth_snoc, Nat.eqb_refl. reflexivity.
  - injection W as <- <-. auto.
  - destruct (nth_error (sents s) i0) as [q|]; [|discriminate]. destruct (kept q || existsb (in_hand i0) (handlers s)); [discriminate|]. injection W as <- <-. auto.
  - destruct (lookup s ref); injection W as <- <-; auto.
  - injection W as <- <-. auto.
  - injection W as <- <-. auto.
  - destruct (nth_error (handlers s) k) as [h|]; [|discriminate].
    destruct h; cbn [handler_step] in W; try (destruct (lookup s ref)); try discriminate; injection W as <- <-; auto.
Qed.
Lemma found_act s a l s' r i : wact s a = Some (s', l) -> lookup s r = Some i -> (exists j, lookup s' r = Some j) \/ a = WEnd i.
Proof.
  intros W L. apply lookup_some in L as (E & A). destruct (alive_act _ _ _ _ _ W A) as [A'|]; [|auto]. left.
  destruct (entry_act _ _ _ _ _ _ W E) as [E'|(_ & L')]; [|eauto]. unfold lookup. rewrite E', A'. eauto.
Qed.
Lemma handler_act s a l s' k h : wact s a = Some (s', l) -> nth_error (handlers s') k = Some h -> nth_error (handlers s) k = Some h \/ a = WStep k \/
  (exists ref rep, a = WReport ref rep /\ h = HTest ref rep /\ k = length (handlers s)).
Proof.
  intros W H. destruct a; cbn [wact] in W.
  - injection W as <- <-. auto.
  - injection W as <- <-. auto.
  - destruct (nth_error (sents s) i) as [q|]; [|discriminate]. destruct (kept q || existsb (in_hand i) (handlers s)); [discriminate|]. injection W as <- <-. auto.
  - destruct (lookup s ref); injection W as <- <-; auto.
  - injection W as <- <-. auto.
  - injection W as <- <-. cbn [handlers] in H. rewrite nth_snoc in H. destruct (Nat.eqb_spec k (length (handlers s))); [|auto]. injection H as <-. right. right. eauto.
  - destruct (Nat.eq_dec k0 k) as [->|N]; [auto|]. left. destruct (nth_error (handlers s) k0) as [h0|]; [|discriminate].
    assert (D : forall h', nth_error (change k0 (fun _ => h') (handlers s)) k = Some h -> nth_error (handlers s) k = Some h) by (intros h'; rewrite change_other; auto).
    destruct h0; cbn [handler_step] in W; try (destruct (lookup s ref)); try discriminate; injection W as <- <-; cbn [handlers with_handler with_sents] in H; eapply D; exact H.
Qed.
(** where a handler between 1012 and 1013 comes from *)
Lemma getting tr : forall s k ref rep, wruns w_start tr s -> nth_error (handlers s) k = Some (HGet ref rep) ->
  exists a b s1, tr = a ++ (WStep k, QNothing) :: b /\ ~ In (WStep k) (map fst b) /\
    wruns s1 b s /\ (exists i, lookup s1 ref = Some i) /\ good s1.
Proof.
  induction tr as [|[a l] tr IH] using rev_ind; intros s k ref rep R H; [inversion R; subst; destruct k; discriminate|].
  apply wruns_snoc_inv in R as (s0 & R & W).
  assert (D : forall a0 b0, tr = a0 ++ b0 -> tr ++ [(a, l)] = a0 ++ b0 ++ [(a, l)]) by (intros a0 b0 ->; rewrite app_assoc; reflexivity).
  destruct (handler_act _ _ _ _ _ _ W H) as [H0|[->|(? & ? & _ & E & _)]]; [| |discriminate].
  - destruct (IH _ _ _ _ R H0) as (a0 & b0 & s1 & -> & N & R1 & L & G).
    assert (Na : a <> WStep k).
    { intros ->. cbn [wact] in W. rewrite H0 in W. cbn [handler_step] in W. destruct (lookup s0 ref); injection W as <- <-; cbn [with_handler handlers] in H; rewrite change_same, H0 in H; discriminate. }
    exists a0, (b0 ++ [(a, l)]), s1. split; [rewrite <- app_assoc; reflexivity|]. split.
    + rewrite map_app, in_app_iff. cbn. intros [I|[I|[]]]; auto.
    + split; [eapply wruns_snoc; eauto|auto].
  - cbn [wact] in W. destruct (nth_error (handlers s0) k) as [h|] eqn:H0; [|discriminate].
    assert (E : forall h' x, nth_error (handlers (with_handler x k h')) k = Some (HGet ref rep) -> handlers x = handlers s0 -> h' = HGet ref rep).
    { intros h' x X Y. cbn [with_handler handlers] in X. rewrite Y, change_same, H0 in X. injection X as ->. reflexivity. }
    destruct h; cbn [handler_step] in W.
    + destruct (lookup s0 ref0) as [i|] eqn:L; injection W as <- <-; [|specialize (E _ _ H eq_refl); discriminate].
      specialize (E _ _ H eq_refl). injection E as -> ->. exists tr, [], (with_handler s0 k (HGet ref rep)). split; [reflexivity|]. split; [cbn; auto|].
      split; [constructor|]. split; [exists i; exact L|].
      eapply good_act with (a := WStep k); [eapply good_run; [exact good_start|exact R]|]. cbn [wact]. rewrite H0. cbn [handler_step]. rewrite L. reflexivity.
    + destruct (lookup s0 ref0); injection W as <- <-; specialize (E _ _ H eq_refl); discriminate.
    + injection W as <- <-; specialize (E _ _ H eq_refl); discriminate.
    + injection W as <- <-; specialize (E _ _ H eq_refl); discriminate.
    + discriminate.
Qed.
Lemma sents_run s tr s' i o : wruns s tr s' -> nth_error (sents s) i = Some o -> exists o', nth_error (sents s') i = Some o' /\ s_ref o' = s_ref o.
Proof.
  intros R. revert o. induction R; intros o O; [eauto|]. destruct (sents_grow _ _ _ _ _ _ H O) as (o1 & O1 & E1). destruct (IHR _ O1) as (o2 & O2 & E2). exists o2. split; congruence.
Qed.
Lemma goes_absent s tr s' r : good s -> wruns s tr s' -> (exists i, lookup s r = Some i) -> lookup s' r = None ->
  exists i o, In (WEnd i) (map fst tr) /\ nth_error (sents s') i = Some o /\ s_ref o = r.
Proof.
  intros G R. induction R; intros (i & L) N; [congruence|].
  destruct (found_act _ _ _ _ _ _ H L) as [L'| ->].
  - destruct (IHR (good_act _ _ _ _ G H) L' N) as (j & o & I & O & E). exists j, o. split; [right; auto|auto].
  - destruct (lookup_object _ _ _ G L) as (o & O & E & _).
    destruct (sents_run s ((WEnd i, l) :: tr) s'' i o) as (o' & O' & E'); [econstructor; eauto|auto|]. exists i, o'. split; [left; reflexivity|]. split; congruence.
Qed.
Theorem key_error tr s k s' ref rep : wruns w_start tr s -> wact s (WStep k) = Some (s', QKeyError ref rep) ->
  exists a b i o, tr = a ++ (WStep k, QNothing) :: b /\ ~ In (WStep k) (map fst b) /\
    In (WEnd i) (map fst b) /\ nth_error (sents s) i = Some o /\ s_ref o = ref.
Proof.
  intros R W. cbn [wact] in W. destruct (nth_error (handlers s) k) as [h|] eqn:H; [|discriminate]. destruct h; cbn [handler_step] in W.
  - destruct (lookup s ref0); discriminate.
  - destruct (lookup s ref0) eqn:L; [discriminate|]. injection W as W -> ->. destruct (getting _ _ _ _ _ R H) as (a & b & s1 & -> & N & R1 & L1 & G1).
    destruct (goes_absent _ _ _ _ G1 R1 L1 L) as (i & o & I & O & E). exists a, b, i, o. auto.
  - discriminate.
  - destruct (waits s); discriminate.
  - discriminate.
Qed.

(** ** What becomes of a report *)
Lemma effects_app k a b : effects_of k (a ++ b) = effects_of k a ++ effects_of k b.
Proof.
  induction a as [|[x l] a IH]; [reflexivity|]. destruct x; cbn [effects_of List.app]; auto.
  destruct l; auto; destruct (Nat.eqb k0 k); cbn [List.app]; rewrite ?IH; reflexivity.
Qed.
Lemma arrived_app a b : arrived (a ++ b) = arrived a ++ arrived b.
Proof. induction a as [|[x l] a IH]; [reflexivity|]. destruct x; cbn [arrived List.app]; rewrite ?IH; auto. Qed.
Definition refers (s : weak) (i : nat) (ref : Z) : Prop := exists o, nth_error (sents s) i = Some o /\ s_ref o = ref.
Lemma refers_act s a l s' i ref : wact s a = Some (s', l) -> refers s i ref -> refers s' i ref.
Proof. intros W (o & O & E). destruct (sents_grow _ _ _ _ _ _ W O) as (o' & O' & E'). exists o'. split; congruence. Qed.
(** [history s ref rep h es]: a handler of the report at [h] has had the effects [es] *)
Definition history (s : weak) (ref rep : Z) (h : hpc) (es : list wlabel) : Prop :=
  match h with
  | HTest r p | HGet r p => r = ref /\ p = rep /\ es = []
  | HSet p i => p = rep /\ es = [] /\ refers s i ref
  | HTell p => p = rep /\ (es = [] \/ exists i, es = [QStored rep i] /\ refers s i ref)
  | HOver => es = [QKeyError ref rep] \/ (exists l, told rep l /\ es = [l]) \/ (exists i l, told rep l /\ es = [QStored rep i; l] /\ refers s i ref)
  end.
Lemma history_act s a l s' ref rep h es : wact s a = Some (s', l) -> history s ref rep h es -> history s' ref rep h es.
Proof.
  intros W. destruct h; cbn [history]; auto.
  - intros (-> & -> & F). repeat split; auto. eapply refers_act; eauto.
  - intros (-> & [->|(i & -> & F)]); split; auto. right. exists i. split; auto. eapply refers_act; eauto.
  - intros [E|[E|(i & l' & T & E & F)]]; auto. right. right. exists i, l'. repeat split; auto. eapply refers_act; eauto.
Qed.
Lemma no_effect k a l : a <> WStep k -> effects_of k [(a, l)] = [].
Proof. intros N. destruct a; auto. cbn [effects_of]. destruct l; auto; destruct (Nat.eqb_spec k0 k); congruence. Qed.
Lemma own_effect k l : effects_of k [(WStep k, l)] = match l with QNothing => [] | _ => [l] end.
Proof. cbn [effects_of]. rewrite Nat.eqb_refl. destruct l; reflexivity. Qed.
Lemma arrives s a l s' : wact s a = Some (s', l) ->
  (exists ref rep, a = WReport ref rep /\ length (handlers s') = S (length (handlers s)) /\ arrived [(a, l)] = [(ref, rep)]) \/
  (arrived [(a, l)] = [] /\ length (handlers s') = length (handlers s) /\ forall ref rep, a <> WReport ref rep).
Proof.
  intros W. destruct a; cbn [wact] in W.
  - injection W as <- <-. right. repeat split; discriminate.
  - injection W as <- <-. right. repeat split; discriminate.
  - destruct (nth_error (sents s) i) as [q|]; [|discriminate]. destruct (kept q || existsb (in_hand i) (handlers s)); [discriminate|]. injection W as <- <-. right. repeat split; discriminate.
  - destruct (lookup s ref); injection W as <- <-; right; repeat split; discriminate.
  - injection W as <- <-. right. repeat split; discriminate.
  - injection W as <- <-. left. exists ref, rep. cbn [handlers]. rewrite app_length. cbn. repeat split. lia.
  - right. split; [reflexivity|]. split; [|discriminate]. destruct (nth_error (handlers s) k) as [h|]; [|discriminate].
    destruct h; cbn [handler_step] in W; try (destruct (lookup s ref)); try discriminate; injection W as <- <-; apply change_length.
Qed.
Lemma arrived_handlers tr : forall s, wruns w_start tr s -> length (arrived tr) = length (handlers s).
Proof.
  induction tr as [|[a l] tr IH] using rev_ind; intros s R; [inversion R; reflexivity|].
  apply wruns_snoc_inv in R as (s0 & R & W). rewrite arrived_app, app_length, (IH _ R).
  destruct (arrives _ _ _ _ W) as [(ref & rep & _ & E & ->)|(-> & -> & _)]; [rewrite E|]; cbn; lia.
Qed.
Lemma effects_none tr : forall s k, wruns w_start tr s -> (length (handlers s) <= k)%nat -> effects_of k tr = [].
Proof.
  induction tr as [|[a l] tr IH] using rev_ind; intros s k R L; [reflexivity|].
  apply wruns_snoc_inv in R as (s0 & R & W). rewrite effects_app, (IH _ _ R); [|destruct (arrives _ _ _ _ W) as [(? & ? & _ & E & _)|(_ & E & _)]; lia].
  apply no_effect. intros ->. pose proof W as W0. cbn [wact] in W. rewrite (proj2 (nth_error_None (handlers s0) k)) in W; [discriminate|].
  clear W. rename W0 into W. destruct (arrives _ _ _ _ W) as [(? & ? & _ & E & _)|(_ & E & _)]; lia.
Qed.
Lemma histories tr : forall s k h, wruns w_start tr s -> nth_error (handlers s) k = Some h ->
  exists ref rep, nth_error (arrived tr) k = Some (ref, rep) /\ history s ref rep h (effects_of k tr).
Proof.
  induction tr as [|[a l] tr IH] using rev_ind; intros s k h R H; [inversion R; subst; destruct k; discriminate|].
  apply wruns_snoc_inv in R as (s0 & R & W). rewrite effects_app, arrived_app.
  assert (K : forall x, nth_error (arrived tr) k = Some x -> nth_error (arrived tr ++ arrived [(a, l)]) k = Some x).
  { intros x X. rewrite nth_error_app1; auto. apply nth_error_Some. congruence. }
  assert (D : a = WStep k \/ a <> WStep k) by (destruct a; try (right; discriminate); destruct (Nat.eq_dec k0 k) as [->|]; [auto|right; congruence]).
  destruct D as [->|N].
  - pose proof W as W0. cbn [wact] in W. destruct (nth_error (handlers s0) k) as [h0|] eqn:H0; [|discriminate].
    destruct (IH _ _ _ R H0) as (ref & rep & A & Hi). exists ref, rep. split; [apply K; auto|]. rewrite own_effect.
    assert (E : forall h' x, nth_error (handlers (with_handler x k h')) k = Some h -> handlers x = handlers s0 -> h = h').
    { intros h' x X Y. cbn [with_handler handlers] in X. rewrite Y, change_same, H0 in X. injection X as ->. reflexivity. }
    destruct h0; cbn [handler_step] in W.
    + destruct (lookup s0 ref0); injection W as <- <-; rewrite (E _ _ H eq_refl); destruct Hi as (-> & -> & ->); cbn; auto.
    + destruct Hi as (-> & -> & ->). destruct (lookup s0 ref) as [i|] eqn:L; injection W as <- <-; rewrite (E _ _ H eq_refl); cbn; auto.
      repeat split; auto. destruct (lookup_object _ _ _ (good_run _ _ _ good_start R) L) as (o & O & F & _). exists o. auto.
    + injection W as <- <-. rewrite (E _ _ H eq_refl). destruct Hi as (-> & -> & F). cbn [history List.app]. split; [reflexivity|]. right. exists i. split; [reflexivity|].
      eapply refers_act; eauto.
    + injection W as <- <-. rewrite (E _ _ H eq_refl). destruct Hi as (-> & [->|(i & -> & F)]); cbn [history List.app]; right.
      * left. destruct (waits s0); eexists; (split; [|reflexivity]); [left|right]; reflexivity.
      * right. destruct (waits s0); eexists _, _; (split; [|split; [reflexivity|eapply refers_act; eauto]]); [left|right]; reflexivity.
    + discriminate.
  - rewrite (no_effect _ _ _ N), app_nil_r. destruct (handler_act _ _ _ _ _ _ W H) as [H0|[X|(ref & rep & -> & -> & ->)]]; [|contradiction|].
    + destruct (IH _ _ _ R H0) as (ref & rep & A & Hi). exists ref, rep. split; [apply K; auto|]. eapply history_act; eauto.
    + exists ref, rep. cbn [arrived]. rewrite nth_snoc, (arrived_handlers _ _ R), Nat.eqb_refl. split; [reflexivity|]. cbn. rewrite (effects_none _ _ _ R) by lia. auto.
Qed.
(** ** Which message a report is stored in, and who is told *)
Lemma refs_app a b : sent_refs (a ++ b) = sent_refs a ++ sent_refs b.
Proof. induction a as [|[x l] a IH]; [reflexivity|]. destruct x; cbn [sent_refs List.app]; rewrite ?IH; auto. Qed.
Lemma waiting_app a b : forall o, waiting (a ++ b) o = waiting b (waiting a o).
Proof. induction a as [|[x l] a IH]; intros o; [reflexivity|]. destruct x; cbn [waiting List.app]; auto. Qed.
Lemma steps_app k a b : steps_of k (a ++ b) = (steps_of k a + steps_of k b)%nat.
Proof. induction a as [|[x l] a IH]; [reflexivity|]. destruct x; cbn [steps_of List.app]; rewrite ?IH; auto. destruct (Nat.eqb k0 k); lia. Qed.
(** what the objects are, in terms of the actions *)
Lemma refs_sents tr : forall s, wruns w_start tr s -> map s_ref (sents s) = sent_refs tr.
Proof.
  assert (C : forall n f l, (forall q, s_ref (f q) = s_ref q) -> map s_ref (change n f l) = map s_ref l).
  { intros n f l F. revert n. induction l as [|x l IH]; intros [|n]; cbn; rewrite ?F, ?IH; auto. }
  induction tr as [|[a l] tr IH] using rev_ind; intros s R; [inversion R; reflexivity|].
  apply wruns_snoc_inv in R as (s0 & R & W). rewrite refs_app, <- (IH _ R). destruct a; cbn [wact] in W; cbn [sent_refs]; rewrite ?app_nil_r.
  - injection W as <- <-. cbn [sents]. rewrite map_app. reflexivity.
  - injection W as <- <-. apply C. auto.
  - destruct (nth_error (sents s0) i) as [q|]; [|discriminate]. destruct (kept q || existsb (in_hand i) (handlers s0)); [discriminate|]. injection W as <- <-. apply C. auto.
  - destruct (lookup s0 ref); injection W as <- <-; [apply C|]; auto.
  - injection W as <- <-. reflexivity.
  - injection W as <- <-. reflexivity.
  - destruct (nth_error (handlers s0) k) as [h|]; [|discriminate].
    destruct h; cbn [handler_step] in W; try (destruct (lookup s0 ref)); try discriminate; injection W as <- <-; cbn [sents with_handler with_sents]; auto.
Qed.
Lemma ended_iff tr : forall s i o, wruns w_start tr s -> nth_error (sents s) i = Some o -> (ended o = true <-> has_ended tr i).
Proof.
  induction tr as [|[a l] tr IH] using rev_ind; intros s i o R O; [inversion R; subst; destruct i; discriminate|].
  apply wruns_snoc_inv in R as (s0 & R & W). unfold has_ended. rewrite map_app, in_app_iff.
  assert (New : forall j, (length (sents s0) <= j)%nat -> ~ has_ended tr j).
  { clear - R. revert s0 R. induction tr as [|[a l] tr IH] using rev_ind; intros s0 R j L; [intros []|].
    apply wruns_snoc_inv in R as (s1 & R & W). unfold has_ended. rewrite map_app, in_app_iff.
    assert (LE : (length (sents s1) <= length (sents s0))%nat).
    { destruct (Nat.leb_spec (length (sents s1)) (length (sents s0))) as [|Lt]; [auto|].
      destruct (nth_error (sents s1) (length (sents s0))) as [q|] eqn:Q; [|apply nth_error_None in Q; lia].
      destruct (sents_grow _ _ _ _ _ _ W Q) as (q' & Q' & _). assert (X : nth_error (sents s0) (length (sents s0)) <> None) by congruence. apply nth_error_Some in X. lia. }
    intros [I|[I|[]]]; [apply (IH _ R j); [lia|exact I]|]. cbn in I. subst a. cbn [wact] in W. destruct (nth_error (sents s1) j) as [q|] eqn:Q; [|discriminate].
    assert (X : nth_error (sents s1) j <> None) by congruence. apply nth_error_Some in X. lia. }
  assert (C : forall n f, nth_error (change n f (sents s0)) i = Some o -> (forall q, ended (f q) = ended q) -> (forall j, a <> WEnd j) -> ended o = true <-> In (WEnd i) (map fst tr) \/ In (WEnd i) (map fst [(a, l)])).
  { intros n f E F N. rewrite change_nth in E.
    assert (Z : ended o = true <-> In (WEnd i) (map fst tr)).
    { destruct (Nat.eqb n i); [|exact (IH _ _ _ R E)]. destruct (nth_error (sents s0) i) as [q|] eqn:Q; [|discriminate]. injection E as <-. rewrite F. exact (IH _ _ _ R Q). }
    rewrite Z. split; [auto|]. intros [|[X|[]]]; [auto|]. destruct (N _ X). }
  assert (S : nth_error (sents s0) i = Some o -> (forall j, a <> WEnd j) -> ended o = true <-> In (WEnd i) (map fst tr) \/ In (WEnd i) (map fst [(a, l)])).
  { intros E N. apply (C 0%nat (fun x => x)); auto. rewrite change_id. auto. }
  destruct a; cbn [wact] in W.
  - injection W as <- <-. cbn [sents] in O. rewrite nth_snoc in O. destruct (Nat.eqb_spec i (length (sents s0))) as [->|]; [|apply S; [auto|discriminate]].
    injection O as <-. cbn [ended]. split; [discriminate|]. intros [X|[X|[]]]; [|discriminate]. destruct (New _ (le_n _) X).
  - injection W as <- <-. eapply C; [exact O|auto|discriminate].
  - destruct (nth_error (sents s0) i0) as [q|] eqn:Q; [|discriminate]. destruct (kept q || existsb (in_hand i0) (handlers s0)) eqn:B; [discriminate|]. injection W as <- <-.
    cbn [sents with_sents] in O. rewrite change_nth in O. destruct (Nat.eqb_spec i0 i) as [E|N].
    + subst. rewrite Q in O. injection O as <-. split; [intros _; right; left; reflexivity|reflexivity].
    + rewrite (IH _ _ _ R O). unfold has_ended. split; [auto|]. intros [|[X|[]]]; [auto|]. cbn in X. congruence.
  - destruct (lookup s0 ref); injection W as <- <-; [eapply C; [exact O|auto|discriminate]|apply S; [auto|discriminate]].
  - injection W as <- <-. apply S; [auto|discriminate].
  - injection W as <- <-. apply S; [auto|discriminate].
  - destruct (nth_error (handlers s0) k) as [h|]; [|discriminate].
    destruct h; cbn [handler_step] in W; try (destruct (lookup s0 ref)); try discriminate; injection W as <- <-; try (solve [apply S; [exact O|discriminate]]).
    eapply C; [exact O|auto|discriminate].
Qed.
Lemma table_newest tr : forall s ref i, wruns w_start tr s -> (entry (table s) ref = Some i <-> is_newest tr ref i).
Proof.
  induction tr as [|[a l] tr IH] using rev_ind; intros s ref i R.
  { inversion R; subst. split; [discriminate|]. intros [E _]. destruct i; discriminate. }
  apply wruns_snoc_inv in R as (s0 & R & W).
  assert (D : (exists r, a = WSend r) \/ (table s = table s0 /\ sent_refs [(a, l)] = [])).
  { destruct a; cbn [wact] in W; [left; eauto|right; cbn [sent_refs]; split; [|reflexivity]..].
    - injection W as <- <-. reflexivity.
    - destruct (nth_error (sents s0) i0) as [q|]; [|discriminate]. destruct (kept q || existsb (in_hand i0) (handlers s0)); [discriminate|]. injection W as <- <-. reflexivity.
    - destruct (lookup s0 ref0); injection W as <- <-; reflexivity.
    - injection W as <- <-. reflexivity.
    - injection W as <- <-. reflexivity.
    - destruct (nth_error (handlers s0) k) as [h|]; [|discriminate].
      destruct h; cbn [handler_step] in W; try (destruct (lookup s0 ref0)); try discriminate; injection W as <- <-; reflexivity. }
  unfold is_newest. rewrite refs_app. destruct D as [(r & ->)|(-> & ->)]; [|rewrite app_nil_r; apply (IH _ _ _ R)].
  cbn [wact] in W. injection W as <- <-. cbn [table entry sent_refs]. assert (Ln : length (sents s0) = length (sent_refs tr)) by (rewrite <- (refs_sents _ _ R), map_length; reflexivity).
  destruct (Z.eqb_spec r ref) as [->|N].
  - split.
    + intros [= <-]. rewrite Ln. rewrite nth_snoc, Nat.eqb_refl. split; [reflexivity|]. intros j L. rewrite (proj2 (nth_error_None _ _)); [discriminate|]. rewrite app_length. cbn. lia.
    + intros [A B]. f_equal. rewrite Ln. destruct (Nat.ltb_spec i (length (sent_refs tr))) as [L|L].
      * specialize (B _ L). rewrite nth_snoc, Nat.eqb_refl in B. congruence.
      * rewrite nth_snoc in A. destruct (Nat.eqb_spec i (length (sent_refs tr))); [auto|]. rewrite (proj2 (nth_error_None _ _)) in A; [discriminate|lia].
  - rewrite (IH _ _ _ R). unfold is_newest. split; intros [A B].
    + split; [rewrite nth_error_app1; [auto|apply nth_error_Some; congruence]|]. intros j L. rewrite nth_snoc. destruct (Nat.eqb j (length (sent_refs tr))); [congruence|auto].
    + rewrite nth_snoc in A. destruct (Nat.eqb i (length (sent_refs tr))); [congruence|]. split; [auto|]. intros j L E. apply (B j L). rewrite nth_error_app1; [auto|apply nth_error_Some; congruence].
Qed.
Theorem found_newest tr s ref i : wruns w_start tr s -> (lookup s ref = Some i <-> is_newest tr ref i /\ ~ has_ended tr i).
Proof.
  intros R. rewrite <- (table_newest _ _ _ _ R). split.
  - intros L. destruct (lookup_some _ _ _ L) as (E & A). split; [auto|]. apply alive_some in A as (o & O & N). rewrite <- (ended_iff _ _ _ _ R O). congruence.
  - intros (E & N). unfold lookup. rewrite E. destruct (g_table _ (good_run _ _ _ good_start R) _ _ E) as (o & O & _). unfold alive. rewrite O.
    rewrite <- (ended_iff _ _ _ _ R O) in N. destruct (ended o); [congruence|reflexivity].
Qed.
Lemma waits_run tr : forall s, wruns w_start tr s -> waits s = waiting tr false.
Proof.
  induction tr as [|[a l] tr IH] using rev_ind; intros s R; [inversion R; reflexivity|].
  apply wruns_snoc_inv in R as (s0 & R & W). rewrite waiting_app, <- (IH _ R). destruct a; cbn [wact] in W; cbn [waiting].
  - injection W as <- <-. reflexivity.
  - injection W as <- <-. reflexivity.
  - destruct (nth_error (sents s0) i) as [q|]; [|discriminate]. destruct (kept q || existsb (in_hand i) (handlers s0)); [discriminate|]. injection W as <- <-. reflexivity.
  - destruct (lookup s0 ref); injection W as <- <-; reflexivity.
  - injection W as <- <-. reflexivity.
  - injection W as <- <-. reflexivity.
  - destruct (nth_error (handlers s0) k) as [h|]; [|discriminate].
    destruct h; cbn [handler_step] in W; try (destruct (lookup s0 ref)); try discriminate; injection W as <- <-; reflexivity.
Qed.
Definition untracked (a : list (waction * wlabel)) (ref : Z) : Prop := forall i, is_newest a ref i -> has_ended a i.
Definition tracked (a : list (waction * wlabel)) (ref : Z) (i : nat) : Prop := is_newest a ref i /\ ~ has_ended a i.
(** where handler [k] is after [tr], and how it came there *)
Definition course (k : nat) (ref rep : Z) (h : hpc) (tr : list (waction * wlabel)) : Prop :=
  match h with
  | HTest r p => r = ref /\ p = rep /\ steps_of k tr = 0%nat
  | HGet r p => r = ref /\ p = rep /\ steps_of k tr = 1%nat
  | HSet p i => p = rep /\ steps_of k tr = 2%nat /\ exists a, step_after k 1 a QNothing tr /\ tracked a ref i
  | HTell p => p = rep /\ ((effects_of k tr = [] /\ exists a, step_after k 0 a QNothing tr /\ untracked a ref) \/
                         (exists i a, effects_of k tr = [QStored rep i] /\ step_after k 1 a QNothing tr /\ tracked a ref i))
  | HOver => effects_of k tr = [QKeyError ref rep] \/
             exists a l, (exists n, step_after k n a l tr) /\ l = (if waiting a false then QSignalled rep else QCalled rep) /\
               ((effects_of k tr = [l] /\ exists a', step_after k 0 a' QNothing tr /\ untracked a' ref) \/
                (exists i a', effects_of k tr = [QStored rep i; l] /\ step_after k 1 a' QNothing tr /\ tracked a' ref i))
  end.
Lemma step_after_snoc k n a l tr x : step_after k n a l tr -> step_after k n a l (tr ++ [x]).
Proof. intros ((b & ->) & E). split; [|auto]. exists (b ++ [x]). rewrite <- app_assoc. reflexivity. Qed.
Lemma step_now k n l tr : steps_of k tr = n -> step_after k n tr l (tr ++ [(WStep k, l)]).
Proof. intros E. split; [exists []; reflexivity|auto]. Qed.
Lemma steps_other k a l : a <> WStep k -> steps_of k [(a, l)] = 0%nat.
Proof. intros N. destruct a; auto. cbn [steps_of]. destruct (Nat.eqb_spec k0 k); [congruence|auto]. Qed.
Lemma steps_own k l : steps_of k [(WStep k, l)] = 1%nat.
Proof. cbn [steps_of]. rewrite Nat.eqb_refl. reflexivity. Qed.
Lemma course_snoc k ref rep h tr a l : a <> WStep k -> course k ref rep h tr -> course k ref rep h (tr ++ [(a, l)]).
Proof.
  intros N. destruct h; cbn [course]; rewrite ?effects_app, ?steps_app, ?(no_effect _ _ l N), ?(steps_other _ _ l N), ?app_nil_r, ?Nat.add_0_r; auto.
  - intros (A & B & a' & C & D). repeat split; auto. exists a'. split; [apply step_after_snoc; auto|auto].
  - intros (A & [(B & a' & C & D)|(i & a' & B & C & D)]); split; auto; [left; split; [auto|]; exists a'|right; exists i, a'; split; [auto|]]; (split; [apply step_after_snoc; auto|auto]).
  - intros [A|(a0 & l0 & (n & C0) & D0 & [(B & a' & C & D)|(i & a' & B & C & D)])]; [auto|right..].
    + exists a0, l0. split; [exists n; apply step_after_snoc; auto|]. split; [auto|]. left. split; [auto|]. exists a'. split; [apply step_after_snoc; auto|auto].
    + exists a0, l0. split; [exists n; apply step_after_snoc; auto|]. split; [auto|]. right. exists i, a'. split; [auto|]. split; [apply step_after_snoc; auto|auto].
Qed.
Lemma steps_none tr : forall s k, wruns w_start tr s -> (length (handlers s) <= k)%nat -> steps_of k tr = 0%nat.
Proof.
  induction tr as [|[a l] tr IH] using rev_ind; intros s k R L; [reflexivity|].
  apply wruns_snoc_inv in R as (s0 & R & W). assert (L0 : (length (handlers s0) <= k)%nat) by (destruct (arrives _ _ _ _ W) as [(? & ? & _ & E & _)|(_ & E & _)]; lia).
  rewrite steps_app, (IH _ _ R L0), steps_other; [reflexivity|]. intros ->. cbn [wact] in W. rewrite (proj2 (nth_error_None (handlers s0) k)) in W; [discriminate|auto].
Qed.
Lemma no_effects tr : forall s k h, wruns w_start tr s -> nth_error (handlers s) k = Some h ->
  match h with HTest _ _ | HGet _ _ | HSet _ _ => effects_of k tr = [] | _ => True end.
Proof. intros s k h R H. destruct (histories _ _ _ _ R H) as (ref & rep & _ & X). destruct h; cbn [history] in X; intuition. Qed.
Lemma has_ended_dec tr i : has_ended tr i \/ ~ has_ended tr i.
Proof.
  unfold has_ended. induction (map fst tr) as [|a l IH]; [right; intros []|]. destruct IH as [I|I]; [left; right; auto|].
  destruct a; try (right; intros [X|X]; [discriminate|auto]). destruct (Nat.eq_dec i0 i) as [->|]; [left; left; auto|right; intros [X|X]; [congruence|auto]].
Qed.
Lemma courses tr : forall s k h, wruns w_start tr s -> nth_error (handlers s) k = Some h ->
  exists ref rep, nth_error (arrived tr) k = Some (ref, rep) /\ course k ref rep h tr.
Proof.
  induction tr as [|[a l] tr IH] using rev_ind; intros s k h R H; [inversion R; subst; destruct k; discriminate|].
  apply wruns_snoc_inv in R as (s0 & R & W). rewrite arrived_app.
  assert (K : forall x, nth_error (arrived tr) k = Some x -> nth_error (arrived tr ++ arrived [(a, l)]) k = Some x).
  { intros x X. rewrite nth_error_app1; auto. apply nth_error_Some. congruence. }
  assert (D : a = WStep k \/ a <> WStep k) by (destruct a; try (right; discriminate); destruct (Nat.eq_dec k0 k) as [->|]; [auto|right; congruence]).
  destruct D as [->|N].
  - cbn [wact] in W. destruct (nth_error (handlers s0) k) as [h0|] eqn:H0; [|discriminate].
    destruct (IH _ _ _ R H0) as (ref & rep & A & Hi). exists ref, rep. split; [apply K; auto|].
    pose proof (no_effects _ _ _ _ R H0) as NE.
    assert (E : forall h' x, nth_error (handlers (with_handler x k h')) k = Some h -> handlers x = handlers s0 -> h = h').
    { intros h' x X Y. cbn [with_handler handlers] in X. rewrite Y, change_same, H0 in X. injection X as ->. reflexivity. }
    destruct h0 as [r p|r p|p j|p|]; cbn [handler_step] in W.
    + destruct Hi as (-> & -> & S). destruct (lookup s0 ref) as [i|] eqn:L; injection W as <- <-; rewrite (E _ _ H eq_refl); cbn [course].
      * rewrite steps_app, steps_own, S. auto.
      * split; [reflexivity|]. left. rewrite effects_app, own_effect, app_nil_r. split; [exact NE|]. exists tr. split; [apply step_now; auto|].
        intros i Ni. destruct (has_ended_dec tr i) as [|X]; [auto|]. exfalso. assert (Y : lookup s0 ref = Some i) by (apply (found_newest _ _ _ _ R); auto). congruence.
    + destruct Hi as (-> & -> & S). destruct (lookup s0 ref) as [i|] eqn:L; injection W as <- <-; rewrite (E _ _ H eq_refl); cbn [course].
      * rewrite steps_app, steps_own, S. repeat split; auto. exists tr. split; [apply step_now; auto|]. apply (found_newest _ _ _ _ R). auto.
      * left. rewrite effects_app, own_effect, NE. reflexivity.
    + destruct Hi as (-> & S & a & C & T). injection W as <- <-. rewrite (E _ _ H eq_refl). cbn [course]. split; [reflexivity|]. right. exists j, a.
      rewrite effects_app, own_effect, NE. split; [reflexivity|]. split; [apply step_after_snoc; auto|auto].
    + injection W as <- <-. rewrite (E _ _ H eq_refl). cbn [course]. right. exists tr, (if waits s0 then QSignalled rep else QCalled rep). destruct Hi as (-> & Hi).
      split; [eexists; apply step_now; reflexivity|]. split; [rewrite (waits_run _ _ R); reflexivity|]. rewrite effects_app, own_effect.
      replace (match (if waits s0 then QSignalled rep else QCalled rep) with QNothing => [] | _ => [if waits s0 then QSignalled rep else QCalled rep] end)
        with [if waits s0 then QSignalled rep else QCalled rep] by (destruct (waits s0); reflexivity).
      destruct Hi as [(B & a & C & T)|(i & a & B & C & T)]; rewrite B; [left|right].
      * split; [reflexivity|]. exists a. split; [apply step_after_snoc; auto|auto].
      * exists i, a. split; [reflexivity|]. split; [apply step_after_snoc; auto|auto].
    + discriminate.
  - destruct (handler_act _ _ _ _ _ _ W H) as [H0|[X|(ref & rep & -> & -> & ->)]]; [|contradiction|].
    + destruct (IH _ _ _ R H0) as (ref & rep & A & Hi). exists ref, rep. split; [apply K; auto|]. apply course_snoc; auto.
    + exists ref, rep. cbn [arrived]. rewrite nth_snoc, (arrived_handlers _ _ R), Nat.eqb_refl. split; [reflexivity|]. cbn [course]. rewrite steps_app, (steps_none _ _ _ R) by lia. auto.
Qed.
Theorem dealt_exactly tr s k : wruns w_start tr s -> (k < length (handlers s))%nat -> wact s (WStep k) = None ->
  exists ref rep, nth_error (arrived tr) k = Some (ref, rep) /\
    (effects_of k tr = [QKeyError ref rep] \/
     exists a l, (exists n, step_after k n a l tr) /\ l = (if waiting a false then QSignalled rep else QCalled rep) /\
       ((effects_of k tr = [l] /\ exists a', step_after k 0 a' QNothing tr /\ forall i, is_newest a' ref i -> has_ended a' i) \/
        (exists i a', effects_of k tr = [QStored rep i; l] /\ step_after k 1 a' QNothing tr /\ is_newest a' ref i /\ ~ has_ended a' i))).
Proof.
  intros R L W. cbn [wact] in W. destruct (nth_error (handlers s) k) as [h|] eqn:H; [|apply nth_error_None in H; lia].
  assert (E : h = HOver) by (destruct h; cbn [handler_step] in W; try (destruct (lookup s ref)); congruence). subst h.
  exact (courses _ _ _ _ R H).
Qed.

(** ** Objects that are kept are there *)
Lemma held_app i a b : forall n o, held i n (a ++ b) o = held i (n + length (sent_refs a)) b (held i n a o).
Proof.
  induction a as [|[x l] a IH]; intros n o; [cbn; f_equal; lia|].
  destruct x; cbn [held sent_refs List.app length]; auto.
  - rewrite IH. f_equal. lia.
  - destruct l; auto.
Qed.
Lemma kept_held tr : forall s i o, wruns w_start tr s -> nth_error (sents s) i = Some o -> kept o = held i 0 tr false.
Proof.
  induction tr as [|[a l] tr IH] using rev_ind; intros s i o R O; [inversion R; subst; destruct i; discriminate|].
  apply wruns_snoc_inv in R as (s0 & R & W). rewrite held_app, <- (refs_sents _ _ R), map_length. cbn [Nat.add].
  assert (C : forall n f, nth_error (change n f (sents s0)) i = Some o -> (forall q, kept (f q) = kept q) -> kept o = held i 0 tr false).
  { intros n f E F. rewrite change_nth in E. destruct (Nat.eqb n i); [|exact (IH _ _ _ R E)].
    destruct (nth_error (sents s0) i) as [q|] eqn:Q; [|discriminate]. injection E as <-. rewrite F. exact (IH _ _ _ R Q). }
  assert (D : forall n v, nth_error (change n (set_kept v) (sents s0)) i = Some o -> kept o = if Nat.eqb n i then v else held i 0 tr false).
  { intros n v E. rewrite change_nth in E. destruct (Nat.eqb n i); [|exact (IH _ _ _ R E)]. destruct (nth_error (sents s0) i); [|discriminate]. injection E as <-. reflexivity. }
  destruct a; cbn [wact] in W; cbn [held].
  - injection W as <- <-. cbn [sents] in O. rewrite nth_snoc in O. destruct (Nat.eqb_spec i (length (sents s0))) as [E|N].
    + injection O as <-. rewrite E, Nat.eqb_refl. reflexivity.
    + replace (Nat.eqb (length (sents s0)) i) with false by (symmetry; apply Nat.eqb_neq; auto). exact (IH _ _ _ R O).
  - injection W as <- <-. exact (D _ _ O).
  - destruct (nth_error (sents s0) i0) as [q|]; [|discriminate]. destruct (kept q || existsb (in_hand i0) (handlers s0)); [discriminate|]. injection W as <- <-. exact (C _ _ O ltac:(auto)).
  - destruct (lookup s0 ref) as [j|]; injection W as <- <-; [|exact (IH _ _ _ R O)]. rewrite (D _ _ O). destruct (Nat.eqb j i); reflexivity.
  - injection W as <- <-. exact (IH _ _ _ R O).
  - injection W as <- <-. exact (IH _ _ _ R O).
  - destruct (nth_error (handlers s0) k) as [h|]; [|discriminate].
    destruct h; cbn [handler_step] in W; try (destruct (lookup s0 ref)); try discriminate; injection W as <- <-; cbn [sents with_handler with_sents] in O; try exact (IH _ _ _ R O).
    exact (C _ _ O ltac:(auto)).
Qed.
Theorem kept_alive tr s i : wruns w_start tr s -> held i 0 tr false = true -> (i < length (sent_refs tr))%nat -> ~ has_ended tr i.
Proof.
  intros R H L. rewrite <- (refs_sents _ _ R), map_length in L. destruct (nth_error (sents s) i) as [o|] eqn:O; [|apply nth_error_None in O; lia].
  rewrite <- (ended_iff _ _ _ _ R O). rewrite (g_kept _ (good_run _ _ _ good_start R) _ _ O); [discriminate|]. rewrite (kept_held _ _ _ _ R O). exact H.
Qed.

(** ** The attribute [report] *)
Lemma last_app i a b : forall o, last_stored i (a ++ b) o = last_stored i b (last_stored i a o).
Proof. induction a as [|[x l] a IH]; intros o; [reflexivity|]. destruct l; cbn [last_stored List.app]; auto. Qed.
Theorem report_last tr : forall s i o, wruns w_start tr s -> nth_error (sents s) i = Some o -> s_report o = last_stored i tr None.
Proof.
  induction tr as [|[a l] tr IH] using rev_ind; intros s i o R O; [inversion R; subst; destruct i; discriminate|].
  apply wruns_snoc_inv in R as (s0 & R & W). rewrite last_app.
  assert (New : forall j, (length (sents s0) <= j)%nat -> last_stored j tr None = None).
  { clear - R. revert s0 R. induction tr as [|[a l] tr IH] using rev_ind; intros s0 R j L; [reflexivity|].
    apply wruns_snoc_inv in R as (s1 & R & W). rewrite last_app.
    assert (LE : (length (sents s1) <= length (sents s0))%nat).
    { destruct (Nat.leb_spec (length (sents s1)) (length (sents s0))) as [|Lt]; [auto|].
      destruct (nth_error (sents s1) (length (sents s0))) as [q|] eqn:Q; [|apply nth_error_None in Q; lia].
      destruct (sents_grow _ _ _ _ _ _ W Q) as (q' & Q' & _). assert (nth_error (sents s0) (length (sents s0)) <> None) by congruence. apply nth_error_Some in H. lia. }
    rewrite (IH _ R) by lia. destruct l; try reflexivity. cbn [last_stored]. destruct (Nat.eqb_spec i j) as [->|]; [|reflexivity]. exfalso.
    destruct a; cbn [wact] in W; try discriminate.
    - destruct (nth_error (sents s1) i) as [q|]; [|discriminate]. destruct (kept q || existsb (in_hand i) (handlers s1)); discriminate.
    - destruct (lookup s1 ref); discriminate.
    - destruct (nth_error (handlers s1) k) as [h|] eqn:H; [|discriminate]. destruct h; cbn [handler_step] in W; try (destruct (lookup s1 ref)); try discriminate; [|destruct (waits s1); discriminate].
      injection W as W -> ->. destruct (g_hand _ (good_run _ _ _ good_start R) _ _ _ H) as (q & Q & _). assert (nth_error (sents s1) j <> None) by congruence. apply nth_error_Some in H0. lia. }
  assert (C : forall n f, nth_error (change n f (sents s0)) i = Some o -> (forall q, s_report (f q) = s_report q) -> s_report o = last_stored i tr None).
  { intros n f E F. rewrite change_nth in E. destruct (Nat.eqb n i); [|exact (IH _ _ _ R E)].
    destruct (nth_error (sents s0) i) as [q|] eqn:Q; [|discriminate]. injection E as <-. rewrite F. exact (IH _ _ _ R Q). }
  destruct a; cbn [wact] in W.
  - injection W as <- <-. cbn [sents last_stored] in *. rewrite nth_snoc in O. destruct (Nat.eqb_spec i (length (sents s0))) as [->|]; [injection O as <-; rewrite New; auto|exact (IH _ _ _ R O)].
  - injection W as <- <-. exact (C _ _ O ltac:(auto)).
  - destruct (nth_error (sents s0) i0) as [q|] eqn:Q; [|discriminate]. destruct (kept q || existsb (in_hand i0) (handlers s0)) eqn:B; [discriminate|]. injection W as <- <-. exact (C _ _ O ltac:(auto)).
  - destruct (lookup s0 ref); injection W as <- <-; [exact (C _ _ O ltac:(auto))|exact (IH _ _ _ R O)].
  - injection W as <- <-. exact (IH _ _ _ R O).
  - injection W as <- <-. exact (IH _ _ _ R O).
  - destruct (nth_error (handlers s0) k) as [h|]; [|discriminate]. destruct h as [ref rep|ref rep|rep m|rep|]; cbn [handler_step] in W.
    + destruct (lookup s0 ref); injection W as <- <-; exact (IH _ _ _ R O).
    + destruct (lookup s0 ref); injection W as <- <-; exact (IH _ _ _ R O).
    + injection W as <- <-. cbn [sents with_handler with_sents last_stored] in *. rewrite change_nth in O. destruct (Nat.eqb_spec m i) as [E|N]; [|exact (IH _ _ _ R O)].
      destruct (nth_error (sents s0) i); [|discriminate]. injection O as <-. reflexivity.
    + destruct (waits s0); injection W as <- <-; exact (IH _ _ _ R O).
    + discriminate.
Qed.

(** ** A reference used again *)
Lemma used_again_run s tr s' r i j n : wruns s tr s' -> entry (table s) r = Some j -> i <> j -> (i < length (sents s))%nat -> refers s i r -> good s ->
  (forall k rep, (n <= k)%nat -> nth_error (handlers s) k <> Some (HSet rep i)) -> forall k rep, (n <= k)%nat -> ~ In (QStored rep i) (effects_of k tr).
Proof.
  intros R. revert j. induction R; intros j E N L F G Hh k rep Lk; [auto|].
  change ((a, l) :: tr) with ([(a, l)] ++ tr). rewrite effects_app, in_app_iff. intros [X|X].
  - assert (Y : a = WStep k /\ l = QStored rep i).
    { destruct a; try contradiction. cbn [effects_of] in X. destruct l; try contradiction; destruct (Nat.eqb_spec k0 k) as [E0|]; try contradiction; destruct X as [X|[]]; try discriminate.
      subst. injection X as -> ->. auto. }
    destruct Y as (-> & ->). cbn [wact] in H. destruct (nth_error (handlers s) k) as [h|] eqn:Hk; [|discriminate].
    destruct h; cbn [handler_step] in H; try (destruct (lookup s ref)); try discriminate; [|destruct (waits s); discriminate].
    injection H as H -> ->. exact (Hh _ _ Lk Hk).
  - destruct F as (o & O & Fo). destruct (sents_grow _ _ _ _ _ _ H O) as (o' & O' & Fo').
    assert (E' : exists j', entry (table s') r = Some j' /\ i <> j').
    { destruct (entry_act _ _ _ _ _ _ H E) as [E'|(_ & E')]; [eauto|]. apply lookup_some in E' as (E' & _). exists (length (sents s)). split; [auto|lia]. }
    destruct E' as (j' & E' & N'). revert X. eapply IHR with (j := j'); eauto.
    + apply nth_error_Some. congruence.
    + exists o'. split; congruence.
    + eapply good_act; eauto.
    + clear k rep Lk. intros k p Lk Hk. destruct (handler_act _ _ _ _ _ _ H Hk) as [H0|[->|(? & ? & _ & Z & _)]]; [exact (Hh _ _ Lk H0)| |discriminate].
      cbn [wact] in H. destruct (nth_error (handlers s) k) as [h|] eqn:Hk0; [|discriminate].
      assert (D : forall h' x, nth_error (handlers (with_handler x k h')) k = Some (HSet p i) -> handlers x = handlers s -> h' = HSet p i).
      { intros h' x Y Z. cbn [with_handler handlers] in Y. rewrite Z, change_same, Hk0 in Y. injection Y as ->. reflexivity. }
      destruct h; cbn [handler_step] in H; try discriminate.
      * destruct (lookup s ref); injection H as <- <-; specialize (D _ _ Hk eq_refl); discriminate.
      * destruct (lookup s ref) as [q|] eqn:Lq; injection H as <- <-; specialize (D _ _ Hk eq_refl); [|discriminate]. injection D as -> ->.
        destruct (lookup_object _ _ _ G Lq) as (o2 & O2 & F2 & _). rewrite O in O2. injection O2 as ->. apply lookup_some in Lq as (Lq & _). congruence.
      * injection H as <- <-; specialize (D _ _ Hk eq_refl); discriminate.
      * injection H as <- <-; specialize (D _ _ Hk eq_refl); discriminate.
Qed.
Theorem used_again a s0 r l b s i o : wruns w_start a s0 -> nth_error (sents s0) i = Some o -> s_ref o = r -> wruns s0 ((WSend r, l) :: b) s ->
  forall k rep, (length (arrived a) <= k)%nat -> ~ In (QStored rep i) (effects_of k b).
Proof.
  intros R O F R2 k rep L. rewrite (arrived_handlers _ _ R) in L. inversion R2 as [|? ? ? s1 ? ? W R3]; subst. cbn [wact] in W. injection W as <- <-.
  assert (Li : (i < length (sents s0))%nat) by (apply nth_error_Some; congruence).
  revert k rep L. apply (used_again_run _ _ _ (s_ref o) i (length (sents s0)) (length (handlers s0)) R3).
  - cbn [table entry]. rewrite Z.eqb_refl. reflexivity.
  - lia.
  - cbn [sents]. rewrite app_length. cbn. lia.
  - exists o. split; [|reflexivity]. cbn [sents]. rewrite nth_error_app1; auto.
  - eapply good_act with (a := WSend (s_ref o)); [exact (good_run _ _ _ good_start R)|reflexivity].
  - intros k rep L. cbn [handlers]. rewrite (proj2 (nth_error_None _ _) L). discriminate.
Qed.

(** ** The dictionary does not grow beyond the objects that there are *)
Lemma distinct_bound {A B} (f : A -> option B) (l : list A) (rs : list B) :
  NoDup rs -> (forall r, In r rs -> exists x, In x l /\ f x = Some r) -> (length rs <= length l)%nat.
Proof.
  intros N I. transitivity (length (flat_map (fun x => match f x with Some r => [r] | None => [] end) l)).
  - apply NoDup_incl_length; [auto|]. intros r Ir. destruct (I _ Ir) as (x & Ix & E). apply in_flat_map. exists x. split; [auto|]. rewrite E. left. reflexivity.
  - clear. induction l as [|x l IH]; cbn; [auto|]. rewrite app_length. destruct (f x); cbn; lia.
Qed.
Theorem not_larger tr s rs : wruns w_start tr s -> NoDup rs -> (forall r, In r rs -> lookup s r <> None) ->
  (length rs <= length (filter (fun o => negb (ended o)) (sents s)))%nat.
Proof.
  intros R N I. apply (distinct_bound (fun o => Some (s_ref o))); [auto|]. intros r Ir. specialize (I _ Ir).
  destruct (lookup s r) as [i|] eqn:L; [|congruence]. destruct (lookup_object _ _ _ (good_run _ _ _ good_start R) L) as (o & O & F & E).
  exists o. split; [|congruence]. apply filter_In. split; [eapply nth_error_In; eauto|]. rewrite E. reflexivity.
Qed.

(** ** As if no object ended *)
Record alike (s t : weak) : Prop := {
  k_table : table s = table t;
  k_handlers : handlers s = handlers t;
  k_waits : waits s = waits t;
  k_length : length (sents s) = length (sents t);
  k_report : forall i o o', nth_error (sents s) i = Some o -> nth_error (sents t) i = Some o' -> s_ref o = s_ref o' /\ (ended o = false -> s_report o = s_report o');
  k_none : forall i o', nth_error (sents t) i = Some o' -> ended o' = false;
  k_good : good t }.
Lemma alike_change s t n f g : alike s t -> (forall q, s_ref (f q) = s_ref q) -> (forall q, s_ref (g q) = s_ref q) -> (forall q, ended (f q) = false -> ended q = false) -> (forall q, ended (g q) = ended q) ->
  (forall q q', nth_error (sents s) n = Some q -> nth_error (sents t) n = Some q' -> ended (f q) = false -> s_report q = s_report q' -> s_report (f q) = s_report (g q')) ->
  forall i o o', nth_error (change n f (sents s)) i = Some o -> nth_error (change n g (sents t)) i = Some o' -> s_ref o = s_ref o' /\ (ended o = false -> s_report o = s_report o').
Proof.
  intros K F1 G1 F2 G2 P i o o'. rewrite !change_nth. destruct (Nat.eqb_spec n i) as [->|]; [|apply (k_report _ _ K)].
  destruct (nth_error (sents s) i) as [q|] eqn:Q; [|discriminate]. destruct (nth_error (sents t) i) as [q'|] eqn:Q'; [|discriminate].
  cbn. intros [= <-] [= <-]. rewrite F1, G1. destruct (k_report _ _ K _ _ _ Q Q') as (A & B). split; [auto|]. intros E. apply P; auto.
Qed.
Lemma alike_handler s t k h : alike s t -> good (with_handler t k h) -> alike (with_handler s k h) (with_handler t k h).
Proof. intros [A B C D E F G] G'. split; cbn; auto. rewrite B. reflexivity. Qed.
Lemma alike_lookup s t r : alike s t -> lookup t r = entry (table s) r.
Proof.
  intros K. unfold lookup. rewrite (k_table _ _ K). destruct (entry (table t) r) as [i|] eqn:E; [|reflexivity].
  destruct (g_table _ (k_good _ _ K) _ _ E) as (o & O & _). unfold alive. rewrite O, (k_none _ _ K _ _ O). reflexivity.
Qed.
Lemma lookup_none s r : lookup s r = None -> entry (table s) r = None \/ exists i, entry (table s) r = Some i /\ alive s i = false.
Proof. unfold lookup. destruct (entry (table s) r) as [i|]; [|auto]. destruct (alive s i) eqn:A; [discriminate|]. eauto. Qed.
Lemma one s a l s' : wact s a = Some (s', l) -> wruns s [(a, l)] s'.
Proof. intros W. econstructor; [exact W|constructor]. Qed.

Lemma as_if_step s t a l s' : good s -> alike s t -> wact s a = Some (s', l) -> (forall ref rep, l <> QKeyError ref rep) ->
  exists tr t', wruns t tr t' /\ nothing_ends tr /\ filter visible tr = filter visible [(a, l)] /\ alike s' t'.
Proof.
  intros Gs K W NK.
  assert (Same : forall t', wact t a = Some (t', l) -> (forall i, a <> WEnd i) -> alike s' t' ->
      exists tr t', wruns t tr t' /\ nothing_ends tr /\ filter visible tr = filter visible [(a, l)] /\ alike s' t').
  { intros t' Wt NE K'. exists [(a, l)], t'. split; [apply one; auto|]. split; [|split; [reflexivity|auto]]. intros i [X|[]]. exact (NE i X). }
  destruct a; cbn [wact] in W.
  - injection W as <- <-. eapply Same; [reflexivity|discriminate|]. destruct K as [A B C D E F G]. split; cbn; auto.
    + rewrite A, D. reflexivity.
    + rewrite !app_length. cbn. lia.
    + intros i o o'. rewrite !nth_snoc, D. destruct (Nat.eqb i (length (sents t))); [intros [= <-] [= <-]; auto|apply E].
    + intros i o'. rewrite nth_snoc. destruct (Nat.eqb i (length (sents t))); [intros [= <-]; auto|apply F].
    + eapply good_act with (a := WSend ref); [exact G|reflexivity].
  - injection W as <- <-. eapply Same; [reflexivity|discriminate|]. pose proof K as K0. destruct K as [A B C D E F G]. split; cbn; auto.
    + rewrite !change_length. auto.
    + apply alike_change; auto.
    + intros j o'. rewrite change_nth. destruct (Nat.eqb_spec i j) as [->|]; [|apply F]. destruct (nth_error (sents t) j) eqn:Q; [|discriminate]. intros [= <-]. apply (F _ _ Q).
    + eapply good_act with (a := WDrop i); [exact G|reflexivity].
  - destruct (nth_error (sents s) i) as [q|] eqn:Q; [|discriminate]. destruct (kept q || existsb (in_hand i) (handlers s)); [discriminate|].
    injection W as <- <-. exists [], t. split; [constructor|]. split; [intros j []|]. split; [reflexivity|]. pose proof K as K0. destruct K as [A B C D E F G]. split; cbn; auto.
    + rewrite change_length. auto.
    + rewrite <- (change_id i (sents t)). apply alike_change; auto; try discriminate.
  - destruct (lookup s ref) as [j|]; injection W as <- <-.
    + exists [], t. split; [constructor|]. split; [intros x []|]. split; [reflexivity|]. pose proof K as K0. destruct K as [A B C D E F G]. split; cbn; auto.
      * rewrite change_length. auto.
      * rewrite <- (change_id j (sents t)). apply alike_change; auto.
    + exists [], t. split; [constructor|]. split; [intros x []|]. auto.
  - injection W as <- <-. eapply Same; [reflexivity|discriminate|]. destruct K as [A B C D E F G]. split; cbn; auto.
    eapply good_act with (a := WWaits b); [exact G|reflexivity].
  - injection W as <- <-. eapply Same; [reflexivity|discriminate|]. destruct K as [A B C D E F G]. split; cbn; auto; [congruence|].
    eapply good_act with (a := WReport ref rep); [exact G|reflexivity].
  - destruct (nth_error (handlers s) k) as [h|] eqn:H; [|discriminate].
    assert (Ht : nth_error (handlers t) k = Some h) by (rewrite <- (k_handlers _ _ K); auto).
    assert (Wt : wact t (WStep k) = handler_step t k h) by (cbn [wact]; rewrite Ht; reflexivity).
    destruct h as [ref rep|ref rep|rep j|rep|]; cbn [handler_step] in W, Wt; try rewrite (alike_lookup _ _ ref K) in Wt.
    + destruct (lookup s ref) as [i|] eqn:L; injection W as <- <-.
      * apply lookup_some in L as (L & _). rewrite L in Wt. eapply Same; [exact Wt|discriminate|]. apply alike_handler; auto. eapply good_act; [apply (k_good _ _ K)|exact Wt].
      * destruct (lookup_none _ _ L) as [L'|(i & L' & Dead)]; rewrite L' in Wt.
        { eapply Same; [exact Wt|discriminate|]. apply alike_handler; auto. eapply good_act; [apply (k_good _ _ K)|exact Wt]. }
        set (t1 := with_handler t k (HGet ref rep)) in *.
        assert (G1 : good t1) by (eapply good_act; [apply (k_good _ _ K)|exact Wt]).
        assert (H1 : nth_error (handlers t1) k = Some (HGet ref rep)) by (cbn; rewrite change_same, Ht; reflexivity).
        assert (L1 : lookup t1 ref = Some i) by (rewrite <- L'; apply (alike_lookup _ _ ref K)).
        set (t2 := with_handler t1 k (HSet rep i)).
        assert (W2 : wact t1 (WStep k) = Some (t2, QNothing)) by (cbn [wact]; rewrite H1; cbn [handler_step]; rewrite L1; reflexivity).
        assert (G2 : good t2) by (eapply good_act; [exact G1|exact W2]).
        assert (H2 : nth_error (handlers t2) k = Some (HSet rep i)) by (cbn [t2 with_handler handlers]; rewrite change_same, H1; reflexivity).
        set (t3 := with_handler (with_sents t2 (change i (set_report rep) (sents t2))) k (HTell rep)).
        assert (W3 : wact t2 (WStep k) = Some (t3, QStored rep i)) by (cbn [wact]; rewrite H2; reflexivity).
        assert (G3 : good t3) by (eapply good_act; [exact G2|exact W3]).
        exists [(WStep k, QNothing); (WStep k, QNothing); (WStep k, QStored rep i)], t3.
        split; [econstructor; [exact Wt|]; econstructor; [exact W2|]; apply one; exact W3|].
        split; [intros x [X|[X|[X|[]]]]; discriminate|]. split; [reflexivity|].
        assert (Hc : forall X (l : list X) a b c, change k (fun _ => c) (change k (fun _ => b) (change k (fun _ => a) l)) = change k (fun _ => c) l).
        { clear. intros X l a b c. revert k. induction l as [|x l IH]; intros [|k]; cbn; congruence. }
        pose proof K as K0. destruct K as [A B C D E F G]. split; cbn [t3 t2 t1 with_handler with_sents table handlers waits sents]; auto.
        -- rewrite Hc, B. reflexivity.
        -- rewrite change_length. auto.
        -- rewrite <- (change_id i (sents s)). apply alike_change; auto. intros q q' Q _ E0. unfold alive in Dead. rewrite Q in Dead. rewrite E0 in Dead. discriminate.
        -- intros x o'. rewrite change_nth. destruct (Nat.eqb_spec i x) as [->|]; [|apply F]. destruct (nth_error (sents t) x) eqn:Q; [|discriminate]. intros [= <-]. apply (F _ _ Q).
    + destruct (lookup s ref) as [i|] eqn:L; injection W as <- <-; [|exfalso; eapply NK; reflexivity].
      apply lookup_some in L as (L & _). rewrite L in Wt. eapply Same; [exact Wt|discriminate|]. apply alike_handler; auto. eapply good_act; [apply (k_good _ _ K)|exact Wt].
    + injection W as <- <-. eapply Same; [exact Wt|discriminate|]. assert (G' := good_act _ _ _ _ (k_good _ _ K) Wt). pose proof K as K0. destruct K as [A B C D E F G]. split; cbn; auto.
      * rewrite B. reflexivity.
      * rewrite !change_length. auto.
      * apply alike_change; auto.
      * intros x o'. rewrite change_nth. destruct (Nat.eqb_spec j x) as [->|]; [|apply F]. destruct (nth_error (sents t) x) eqn:Q; [|discriminate]. intros [= <-]. apply (F _ _ Q).
    + rewrite <- (k_waits _ _ K) in Wt. injection W as <- <-. eapply Same; [exact Wt|discriminate|]. apply alike_handler; auto. eapply good_act; [apply (k_good _ _ K)|exact Wt].
    + discriminate.
Qed.
Theorem as_if tr s : wruns w_start tr s -> no_key_error tr ->
  exists tr' s', wruns w_start tr' s' /\ nothing_ends tr' /\ filter visible tr' = filter visible tr /\
    forall i o, nth_error (sents s) i = Some o -> ended o = false ->
      exists o', nth_error (sents s') i = Some o' /\ s_ref o' = s_ref o /\ s_report o' = s_report o.
Proof.
  intros R N.
  assert (X : exists tr' s', wruns w_start tr' s' /\ nothing_ends tr' /\ filter visible tr' = filter visible tr /\ alike s s').
  { revert s R N. induction tr as [|[a l] tr IH] using rev_ind; intros s R N.
    - inversion R; subst. exists [], w_start. split; [constructor|]. split; [intros i []|]. split; [reflexivity|]. split; auto; try exact good_start; intros [|]; discriminate.
    - apply wruns_snoc_inv in R as (s0 & R & W). destruct (IH _ R) as (tr1 & t & R1 & N1 & V1 & K1).
      { intros ref rep I. apply (N ref rep). rewrite map_app, in_app_iff. auto. }
      destruct (as_if_step _ _ _ _ _ (good_run _ _ _ good_start R) K1 W) as (tr2 & t' & R2 & N2 & V2 & K2).
      { intros ref rep ->. apply (N ref rep). rewrite map_app, in_app_iff. cbn. auto. }
      exists (tr1 ++ tr2), t'. split; [eapply wruns_app; eauto|]. split; [intros i; rewrite map_app, in_app_iff; intros [I|I]; [exact (N1 _ I)|exact (N2 _ I)]|].
      split; [rewrite !filter_app; congruence|auto]. }
  destruct X as (tr' & s' & R' & N' & V & K). exists tr', s'. repeat split; auto. intros i o O E.
  destruct (nth_error (sents s') i) as [o'|] eqn:O'.
  - destruct (k_report _ _ K _ _ _ O O') as (A & B). exists o'. repeat split; auto. symmetry. auto.
  - apply nth_error_None in O'. assert (nth_error (sents s) i <> None) by congruence. apply nth_error_Some in H. pose proof (k_length _ _ K). lia.
Qed.
Fixpoint wexec (s : weak) (l : list waction) : option (list (waction * wlabel) * weak) :=
  match l with
  | [] => Some ([], s)
  | a :: r =>
      match wact s a with
      | Some (s', q) => match wexec s' r with Some (tr, s'') => Some ((a, q) :: tr, s'') | None => None end
      | None => None
      end
  end.
Lemma wexec_runs l : forall s tr s', wexec s l = Some (tr, s') -> wruns s tr s'.
Proof.
  induction l as [|a l IH]; intros s tr s'; cbn [wexec]; [intros [= <- <-]; constructor|].
  destruct (wact s a) as [[s1 q]|] eqn:W; [|discriminate]. destruct (wexec s1 l) as [[tr1 s2]|] eqn:E; [|discriminate].
  intros [= <- <-]. econstructor; eauto.
Qed.
(** A report that arrives while sendSms gives up waiting for it. *)
Theorem report_lost ref rep : exists tr s, wruns w_start tr s /\ arrived tr = [(ref, rep)] /\ effects_of 0 tr = [QKeyError ref rep] /\
  map fst tr = [WSend ref; WWaits true; WReport ref rep; WStep 0; WWaits false; WDrop 0; WEnd 0; WStep 0].
Proof.
  assert (E : exists tr s, wexec w_start [WSend ref; WWaits true; WReport ref rep; WStep 0; WWaits false; WDrop 0; WEnd 0; WStep 0] = Some (tr, s) /\
    arrived tr = [(ref, rep)] /\ effects_of 0 tr = [QKeyError ref rep] /\ map fst tr = [WSend ref; WWaits true; WReport ref rep; WStep 0; WWaits false; WDrop 0; WEnd 0; WStep 0]).
  { unfold wexec, wact, w_start, with_sents, with_handler, handler_step, lookup, alive. cbn. rewrite Z.eqb_refl. cbn. rewrite Z.eqb_refl. cbn. eexists _, _. split; [reflexivity|]. auto. }
  destruct E as (tr & s & E & A). exists tr, s. split; [eapply wexec_runs; eauto|auto].
Qed.
