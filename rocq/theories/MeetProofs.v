(** Several threads that send USSD strings or dial: the invariants. *)
From Verif Require Import Base UtilModel SmsModel TrackProofs MeetModel MeetSpec.

Section Meet.
Context {R : Type} (k : kind R).
Implicit Types (s : system R) (ls : list (label R)) (t : thread R) (h : shared R).

Lemma last_stored_snoc ls (l : label R) : last_stored (ls ++ [l]) = match l with LStored j r => Some (j, r) | _ => last_stored ls end.
Proof. induction ls as [|a ls IH]; cbn; [destruct l; reflexivity|]. rewrite IH. destruct l; auto. Qed.
Lemma last_stored_mono ls (l : label R) : last_stored ls <> None -> last_stored (ls ++ [l]) <> None.
Proof. rewrite last_stored_snoc. destruct l; auto; discriminate. Qed.
Lemma in_order_snoc {A} (x y : A) (ls : list A) l : in_order x y ls -> in_order x y (ls ++ [l]).
Proof. intros (a & b & c & ->). exists a, b, (c ++ [l]). rewrite <- !app_assoc. cbn. rewrite <- app_assoc. auto. Qed.
Lemma in_order_last {A} (x y : A) (ls : list A) : In x ls -> in_order x y (ls ++ [y]).
Proof. intros (a & b & ->)%in_split. exists a, b, []. rewrite <- app_assoc. auto. Qed.
Lemma ending_snoc i ls l x : ending k i ls x -> ending k i (ls ++ [l]) x.
Proof.
  intros [e I|a y I K|a b c j r I K -> L O|a b c I K ->|a b c I K ->].
  - apply end_write, in_or_app; auto.
  - eapply end_ack; eauto. apply in_or_app; auto.
  - eapply (end_took k i _ a b (c ++ [l]) j r); eauto. rewrite <- app_assoc. auto.
  - eapply (end_timeout k i _ a b (c ++ [l])); eauto. rewrite <- app_assoc. auto.
  - eapply (end_nothing k i _ a b (c ++ [l])); eauto. rewrite <- app_assoc. auto.
Qed.

Definition acked i ls := exists a, In (LWrote i (Ok a)) ls /\ k_ack k a = None.
Definition tinv (n0 m0 : nat) ls i t : Prop :=
  ((i < n0)%nat /\ ended t) \/ ((n0 <= i)%nat /\
  match t with
  | Calling st => match st with
      | Begin | Write => True
      | Cancel x => exists y, In (LWrote i y) ls /\ after_write k y = Cancel x
      | Await => acked i ls
      | Waiting e => acked i ls /\ (m0 <= e)%nat
      | Woken | Take => acked i ls /\ last_stored ls <> None
      | Enter id r => ending k i ls (Ok (Some r)) /\ k_key k r = Some id
      | GivenUp => ending k i ls (Err (TimeoutException None))
      | Over x => ending k i ls x
      end
  | Handling c st => In (LNotified i c) ls /\ (st = Fire -> last_stored ls <> None) /\
      match st with
      | Test => True
      | Store => In (LTested i) ls
      | Fire => In (LTested i) ls /\ exists r, c = Ok r
      | Handled x => x = Ok tt \/ (exists e, c = Err e /\ x = Err e /\ In (LTested i) ls) \/ (x = Err AttributeError /\ in_order (LTested i) (LNothing i) ls)
      end
  end).
Lemma acked_snoc i ls l : acked i ls -> acked i (ls ++ [l]).
Proof. intros (a & I & K). exists a. split; auto. apply in_or_app; auto. Qed.
Lemma tinv_snoc n0 m0 ls l i t : tinv n0 m0 ls i t -> tinv n0 m0 (ls ++ [l]) i t.
Proof.
  intros [?|[L H]]; [left; auto|right; split; auto]. destruct t as [[| |x| |e| | |id r| |x]|c st]; auto.
  - destruct H as (y & I & E). exists y. split; auto. apply in_or_app; auto.
  - apply acked_snoc; auto.
  - destruct H. split; auto using acked_snoc.
  - destruct H. split; auto using acked_snoc, last_stored_mono.
  - destruct H. split; auto using acked_snoc, last_stored_mono.
  - destruct H. split; auto using ending_snoc.
  - auto using ending_snoc.
  - auto using ending_snoc.
  - destruct H as (I & F & H). split; [apply in_or_app; auto|]. split; [intro E; apply last_stored_mono; auto|].
    destruct st; auto; [apply in_or_app; auto|destruct H; split; auto; apply in_or_app; auto|].
    destruct H as [?|[(e & ? & ? & ?)|[? ?]]]; [auto|right; left; exists e; repeat split; auto; apply in_or_app; auto|right; right; auto using in_order_snoc].
Qed.
Definition opens (st : stage R) : Prop := match st with Write | Cancel _ | Await | Waiting _ | Woken | GivenUp => True | _ => False end.
Record ginv (n0 m0 : nat) ls s : Prop := mk_ginv {
  g_made : (m0 <= sh_made (sy_shared s))%nat;
  g_set : forall e, In e (sh_set (sy_shared s)) -> (e < sh_made (sy_shared s))%nat;
  g_event : forall e, sh_event (sy_shared s) = Some e -> (m0 <= e < sh_made (sy_shared s))%nat;
  g_new : forall e, In e (sh_set (sy_shared s)) -> (e < m0)%nat \/ last_stored ls <> None;
  g_last : forall j r, last_stored ls = Some (j, r) -> sh_response (sy_shared s) = Some r /\ in_order (LNotified j (Ok r)) (LStored j r) ls;
  g_thr : forall i t, at_thread s i t -> tinv n0 m0 ls i t;
  g_open : sh_event (sy_shared s) <> None -> exists i st, at_thread s i (Calling st) /\ opens st;
  g_len : (n0 <= length (sy_threads s))%nat;
  g_fired : forall j e, In (LFired j e) ls -> In e (sh_set (sy_shared s));
  g_src : forall e, In e (sh_set (sy_shared s)) -> (e < m0)%nat \/ exists j, In (LFired j e) ls;
  g_waits : forall i e, at_thread s i (Calling (Waiting e)) -> (e < sh_made (sy_shared s))%nat }.

Lemma ginv_idle s : idle s -> ginv (length (sy_threads s)) (sh_made (sy_shared s)) [] s.
Proof.
  intros (E & S & T). rewrite Forall_forall in S, T. constructor; auto.
  - intros e H. congruence.
  - intros j r H. discriminate.
  - intros i t H. left. split; [apply nth_error_Some; congruence|]. apply T. eapply nth_error_In; eauto.
  - congruence.
  - intros j e [].
  - intros i e H. apply nth_error_In in H. apply T in H. destruct H.
Qed.
Lemma nth_snoc {A} (l : list A) x i y : nth_error (l ++ [x]) i = Some y -> nth_error l i = Some y \/ (i = length l /\ y = x).
Proof.
  intro H. destruct (Nat.lt_ge_cases i (length l)) as [L|L].
  - rewrite nth_error_app1 in H by auto. auto.
  - rewrite nth_error_app2 in H by auto. destruct (i - length l)%nat as [|[|n]] eqn:E; cbn in H; try discriminate. right. split; [lia|congruence].
Qed.
Lemma at_update s h i t0 t' j t : at_thread s i t0 -> at_thread (mk_system h (update (sy_threads s) i (fun _ => t'))) j t ->
  (j = i /\ t = t') \/ (j <> i /\ at_thread s j t).
Proof.
  unfold at_thread. cbn. intro E. rewrite update_nth. destruct (Nat.eqb_spec i j) as [<-|N].
  - rewrite E. cbn. intro H. left. split; congruence.
  - right. auto.
Qed.
Lemma at_update_same s h i t0 t' : at_thread s i t0 -> at_thread (mk_system h (update (sy_threads s) i (fun _ => t'))) i t'.
Proof. unfold at_thread. cbn. intro E. rewrite update_nth, Nat.eqb_refl, E. auto. Qed.
Lemma at_update_other s h i t' j t : j <> i -> at_thread s j t -> at_thread (mk_system h (update (sy_threads s) i (fun _ => t'))) j t.
Proof. unfold at_thread. cbn. intros N E. rewrite update_nth. destruct (Nat.eqb_spec i j); congruence. Qed.

(** one thread goes on *)
Lemma ginv_thread n0 m0 ls s i t0 t' h' (l : label R) :
  ginv n0 m0 ls s -> at_thread s i t0 ->
  (sh_made (sy_shared s) <= sh_made h')%nat ->
  (forall e, In e (sh_set h') -> In e (sh_set (sy_shared s)) \/ (sh_event (sy_shared s) = Some e /\ last_stored ls <> None /\ exists j, l = LFired j e)) ->
  (forall e, In e (sh_set (sy_shared s)) -> In e (sh_set h')) ->
  (forall e, sh_event h' = Some e -> sh_event (sy_shared s) = Some e \/ (e = sh_made (sy_shared s) /\ sh_made h' = S e)) ->
  (match l with LStored j r => j = i /\ sh_response h' = Some r /\ In (LNotified j (Ok r)) ls
              | LFired _ e => sh_response h' = sh_response (sy_shared s) /\ In e (sh_set h')
              | _ => sh_response h' = sh_response (sy_shared s) end) ->
  tinv n0 m0 (ls ++ [l]) i t' ->
  (forall e, t' = Calling (Waiting e) -> sh_event (sy_shared s) = Some e) ->
  (sh_event h' <> None -> (exists st, t' = Calling st /\ opens st) \/ (sh_event (sy_shared s) <> None /\ forall st, t0 = Calling st -> ~ opens st)) ->
  ginv n0 m0 (ls ++ [l]) (mk_system h' (update (sy_threads s) i (fun _ => t'))).
Proof.
  intros G T Md Sn Sk Ev Re Ti Wa Op. destruct G as [G1 G2 G3 G4 G5 G6 G7 G8 G9 G10 G11]. constructor; cbn [sy_shared sy_threads].
  - lia.
  - intros e H. apply Sn in H as [H|[H _]]; [apply G2 in H|apply G3 in H]; lia.
  - intros e H. apply Ev in H as [H|[-> H]]; [apply G3 in H|]; lia.
  - intros e H. apply Sn in H as [H|(_ & H & _)]; [apply G4 in H as [H|H]; [auto|]|]; right; apply last_stored_mono; tauto.
  - intros j r H. rewrite last_stored_snoc in H.
    destruct l; try (destruct (G5 _ _ H) as [A B]; split; [destruct Re; congruence || congruence|apply in_order_snoc; exact B]).
    injection H as -> ->. destruct Re as (-> & B & C). split; [auto|apply in_order_last; auto].
  - intros j t H. apply (at_update s h' i t0) in H as [[-> ->]|[N H]]; auto. apply tinv_snoc. auto.
  - intro H. apply Op in H as [(st & -> & O)|[H N]].
    + exists i, st. split; auto. eapply at_update_same; eauto.
    + destruct (G7 H) as (j & st & A & O). exists j, st. split; auto. apply at_update_other; auto. intros ->. unfold at_thread in *. rewrite T in A. injection A as ->. exact (N _ eq_refl O).
  - rewrite update_length. auto.
  - intros j e H. apply in_app_or in H as [H|[->|[]]]; eauto. apply Re.
  - intros e H. apply Sn in H as [H|(_ & _ & j & ->)]; [apply G10 in H as [H|(j & H)]; [auto|]; right; exists j; apply in_or_app; auto|]. right. exists j. apply in_or_app. right. left. auto.
  - intros j e H. apply (at_update s h' i t0) in H as [[-> H]|[N H]]; auto.
    + symmetry in H. apply Wa in H. apply G3 in H. lia.
    + apply G11 in H. lia.
Qed.
Lemma existsb_in e l : existsb (Nat.eqb e) l = true <-> In e l.
Proof. rewrite existsb_exists. split; [intros (x & I & E); apply Nat.eqb_eq in E; congruence|intro I; exists e; rewrite Nat.eqb_refl; auto]. Qed.
Lemma In_snoc {A} (x : A) l : In x (l ++ [x]). Proof. apply in_or_app. right. left. auto. Qed.
Ltac old := let H := fresh in intros ? H; left; exact H.
Ltac same := let H := fresh in intros ? H; exact H.
Lemma ginv_act n0 m0 ls s a s' (l : label R) : ginv n0 m0 ls s -> act k s a = Some (s', l) -> ginv n0 m0 (ls ++ [l]) s'.
Proof.
  intros G A. destruct a as [|c|i|i x|i]; cbn in A.
  - injection A as <- <-. destruct G as [G1 G2 G3 G4 G5 G6 G7 G8 G9 G10 G11]. constructor; cbn [sy_shared sy_threads]; auto.
    + intros e H. apply G4 in H as [H|H]; auto. right. apply last_stored_mono; auto.
    + intros j r H. rewrite last_stored_snoc in H. apply G5 in H as [H H']. split; auto using in_order_snoc.
    + intros i t H. apply nth_snoc in H as [H|[-> ->]]; [apply tinv_snoc; auto|]. right. cbn. auto.
    + intro H. destruct (G7 H) as (i & st & B & O). exists i, st. split; auto. unfold at_thread in *. cbn. rewrite nth_error_app1; auto. apply nth_error_Some. congruence.
    + rewrite app_length. lia.
    + intros j e H. apply in_app_or in H as [H|[H|[]]]; [eauto|discriminate].
    + intros e H. apply G10 in H as [H|(j & H)]; auto. right. exists j. apply in_or_app; auto.
    + intros i e H. apply nth_snoc in H as [H|[_ H]]; [eauto|discriminate].
  - injection A as <- <-. destruct G as [G1 G2 G3 G4 G5 G6 G7 G8 G9 G10 G11]. constructor; cbn [sy_shared sy_threads]; auto.
    + intros e H. apply G4 in H as [H|H]; auto. right. apply last_stored_mono; auto.
    + intros j r H. rewrite last_stored_snoc in H. apply G5 in H as [H H']. split; auto using in_order_snoc.
    + intros i t H. apply nth_snoc in H as [H|[-> ->]]; [apply tinv_snoc; auto|]. right. cbn. split; auto. split; [apply In_snoc|split; [discriminate|auto]].
    + intro H. destruct (G7 H) as (i & st & B & O). exists i, st. split; auto. unfold at_thread in *. cbn. rewrite nth_error_app1; auto. apply nth_error_Some. congruence.
    + rewrite app_length. lia.
    + intros j e H. apply in_app_or in H as [H|[H|[]]]; [eauto|discriminate].
    + intros e H. apply G10 in H as [H|(j & H)]; auto. right. exists j. apply in_or_app; auto.
    + intros i e H. apply nth_snoc in H as [H|[_ H]]; [eauto|discriminate].
  - destruct (nth_error (sy_threads s) i) as [[st|c st]|] eqn:T; [| |discriminate].
    + destruct (caller_go k i (sy_shared s) st) as [[[h' st'] l']|] eqn:C; [|discriminate]. injection A as <- <-.
      pose proof (g_thr _ _ _ _ G _ _ T) as I. destruct I as [[_ I]|[Ln I]].
      { destruct st; cbn in I; try contradiction. discriminate. }
      destruct st as [| |x| |e| | |id r| |x]; cbn in C; try discriminate.
      * injection C as <- <- <-. eapply ginv_thread; eauto; cbn; auto; try (intros; tauto); try (intros; discriminate).
        -- intros e H. injection H as <-. auto.
        -- right. cbn. auto.
      * injection C as <- <- <-. eapply ginv_thread; eauto; cbn; auto; try (intros; tauto); try (intros; discriminate); try discriminate.
        right. split; auto. apply ending_snoc. destruct I as (y & Iy & Ey). unfold after_write in Ey. destruct y as [a|e].
        -- destruct (k_ack k a) as [x'|] eqn:K; [|discriminate]. injection Ey as ->. eapply end_ack; eauto.
        -- injection Ey as <-. apply end_write. auto.
      * destruct (sh_event (sy_shared s)) as [e|] eqn:E; injection C as <- <- <-; (eapply ginv_thread; eauto; cbn; rewrite ?E; auto; try (intros; tauto); try (intros; discriminate)).
        -- right. split; auto. split; [apply acked_snoc; auto|]. apply (g_event _ _ _ _ G) in E. lia.
        -- intros e' H. congruence.
        -- intro H. left. exists (Waiting e). cbn. auto.
        -- right. split; auto. destruct I as (a & Ia & Ka). eapply (end_nothing k i _ a ls []); eauto.
      * destruct (existsb (Nat.eqb e) (sh_set (sy_shared s))) eqn:X; [|discriminate]. injection C as <- <- <-. eapply ginv_thread; eauto; cbn; auto; try (intros; tauto); try (intros; discriminate).
        -- right. split; auto. destruct I as [I Le]. split; [apply acked_snoc; auto|]. apply last_stored_mono. apply existsb_in in X. apply (g_new _ _ _ _ G) in X as [X|X]; auto. lia.
        -- intro H. left. exists Woken. cbn. auto.
      * injection C as <- <- <-. eapply ginv_thread; eauto; cbn; auto; try (intros; tauto); try (intros; discriminate); try discriminate.
        right. split; auto. destruct I. split; [apply acked_snoc|apply last_stored_mono]; auto.
      * destruct I as [(a & Ia & Ka) Ne]. destruct (last_stored ls) as [[j r]|] eqn:L; [|congruence]. destruct (g_last _ _ _ _ G _ _ L) as [Hr Ho]. rewrite Hr in C. injection C as <- <- <-.
        assert (E : ending k i (ls ++ [LTook i r]) (Ok (Some r))) by (eapply (end_took k i _ a ls [] j r); eauto).
        eapply ginv_thread; eauto; cbn; auto; try (intros; tauto); try (intros; discriminate).
        -- right. split; auto. destruct (k_key k r) eqn:Kk; auto.
        -- intros e H. destruct (k_key k r); discriminate.
        -- intro H. right. split; auto. intros st E'. injection E' as <-. auto.
      * injection C as <- <- <-. eapply ginv_thread; eauto; cbn; auto; try (intros; tauto); try (intros; discriminate).
        -- right. split; auto. destruct I. apply ending_snoc; auto.
        -- intro H. right. split; auto. intros st E'. injection E' as <-. auto.
      * injection C as <- <- <-. eapply ginv_thread; eauto; cbn; auto; try (intros; tauto); try (intros; discriminate); try discriminate.
        right. split; auto. apply ending_snoc; auto.
    + destruct (handler_go i c (sy_shared s) st) as [[[h' st'] l']|] eqn:C; [|discriminate]. injection A as <- <-.
      pose proof (g_thr _ _ _ _ G _ _ T) as I. destruct I as [[_ I]|[Ln (I & F & J)]].
      { destruct st; cbn in I; try contradiction. discriminate. }
      assert (Op : forall st' h', sh_event h' = sh_event (sy_shared s) -> sh_event h' <> None -> (exists st, Handling c st' = Calling st /\ opens st) \/ (sh_event (sy_shared s) <> None /\ forall st0, Handling c st = Calling st0 -> ~ opens st0)).
      { intros st1 h1 E N. right. split; [congruence|]. intros; discriminate. }
      destruct st as [| | |x]; cbn in C; try discriminate.
      * destruct (sh_event (sy_shared s)) eqn:E; injection C as <- <- <-; (eapply ginv_thread; eauto; cbn; rewrite ?E; auto; try (intros; tauto); try (intros; discriminate));
          try (right; split; auto; cbn; split; [apply in_or_app; auto|split; [discriminate|auto; apply In_snoc]]).
        intro H. right. split; auto. intros; discriminate.
      * destruct c as [r|e]; injection C as <- <- <-; (eapply ginv_thread; eauto; cbn; auto; try (intros; tauto); try (intros; discriminate)).
        -- right. split; auto. cbn. split; [apply in_or_app; auto|]. split; [intros _; rewrite last_stored_snoc; discriminate|]. split; [apply in_or_app; auto|eauto].
        -- right. split; auto. cbn. split; [apply in_or_app; auto|]. split; [discriminate|]. right. left. exists e. repeat split; auto. apply in_or_app; auto.
      * destruct (sh_event (sy_shared s)) as [e|] eqn:E; injection C as <- <- <-; (eapply ginv_thread; eauto; cbn; rewrite ?E; auto; try (intros; tauto); try (intros; discriminate)).
        -- intros e' [<-|H]; eauto 6.
        -- right. split; auto. cbn. split; [apply in_or_app; auto|split; [discriminate|auto]].
        -- intro H. right. split; auto. intros; discriminate.
        -- right. split; auto. cbn. split; [apply in_or_app; auto|split; [discriminate|]]. right. right. split; auto. apply in_order_last. apply J.
  - destruct (nth_error (sy_threads s) i) as [[[]|]|] eqn:T; try discriminate. injection A as <- <-.
    pose proof (g_thr _ _ _ _ G _ _ T) as I. destruct I as [[_ []]|[Ln I]].
    eapply ginv_thread; eauto; cbn; auto; try (intros; tauto); try (intros; discriminate).
    + right. split; auto. destruct (after_write k x) eqn:E; unfold after_write in E; destruct x as [a|er]; cbn in E; try discriminate; try (destruct (k_ack k a) eqn:K; discriminate).
      * exists (Ok a). split; [apply In_snoc|exact E].
      * exists (Err er). split; [apply In_snoc|exact E].
      * destruct (k_ack k a) eqn:K; [discriminate|]. exists a. split; [apply In_snoc|auto].
    + intros e H. unfold after_write in H. destruct x as [a|er]; [destruct (k_ack k a)|]; discriminate.
    + intro H. left. exists (after_write k x). split; auto. unfold after_write. destruct x as [a|e]; cbn; auto. destruct (k_ack k a); cbn; auto.
  - destruct (nth_error (sy_threads s) i) as [[[]|]|] eqn:T; try discriminate. destruct (existsb (Nat.eqb e) (sh_set (sy_shared s))) eqn:X; [discriminate|]. injection A as <- <-.
    pose proof (g_thr _ _ _ _ G _ _ T) as I. destruct I as [[_ []]|[Ln [(a & Ia & Ka) _]]].
    eapply ginv_thread; eauto; cbn; auto; try (intros; tauto); try (intros; discriminate).
    + right. split; auto. eapply (end_timeout k i _ a ls []); eauto.
    + intro H. left. exists GivenUp. cbn. auto.
Qed.
(** a step of one thread leaves the others alone *)
Lemma run_first s a s1 (l : label R) ls s' : act k s a = Some (s1, l) -> run k s1 ls s' -> run k s (l :: ls) s'.
Proof. intros A H. induction H; [apply (run_snoc k s [] s a); [constructor|auto]|]. eapply (run_snoc k s (l :: ls)); eauto. Qed.
Lemma ginv_run s ls s' : idle s -> run k s ls s' -> ginv (length (sy_threads s)) (sh_made (sy_shared s)) ls s'.
Proof. intros I H. induction H; [apply ginv_idle; auto|eapply ginv_act; eauto]. Qed.

(** ** Only one call *)
Definition sinv i e0 (c0 : list (Z * nat)) ls s : Prop :=
  (forall j st, at_thread s j (Calling st) -> j <> i -> ended (Calling st)) /\
  (exists st, at_thread s i (Calling st) /\
    match st with
    | Begin => sh_event (sy_shared s) = None /\ sh_made (sy_shared s) = e0 /\ sh_calls (sy_shared s) = c0
    | Write | Cancel _ | Await | Woken | GivenUp => sh_event (sy_shared s) = Some e0 /\ sh_calls (sy_shared s) = c0
    | Waiting e => e = e0 /\ sh_event (sy_shared s) = Some e0 /\ sh_calls (sy_shared s) = c0
    | Take => sh_event (sy_shared s) = None /\ sh_calls (sy_shared s) = c0
    | Enter id r => sh_event (sy_shared s) = None /\ sh_calls (sy_shared s) = c0 /\ k_key k r = Some id
    | Over x => sh_event (sy_shared s) = None /\ (sh_calls (sy_shared s) = match x with Ok (Some r) => match k_key k r with Some id => zset c0 id i | None => c0 end | _ => c0 end
        \/ (exists a y, k_ack k a = Some y /\ x = weaken y /\ sh_calls (sy_shared s) = c0))
    end) /\
  (forall j e, In (LFired j e) ls -> e = e0) /\
  ~ In (LNothing i) ls /\
  (forall b a, ls = b ++ LGaveUp i :: a -> forall j e, ~ In (LFired j e) b).
Lemma gave_snoc i ls (l : label R) : l <> LGaveUp i -> (forall b a, ls = b ++ LGaveUp i :: a -> forall j e, ~ In (LFired j e) b) ->
  forall b a, ls ++ [l] = b ++ LGaveUp i :: a -> forall j e, ~ In (LFired j e) b.
Proof.
  intros N H b a E. destruct (exists_last (l := LGaveUp i :: a)) as (a' & l' & Ea); [discriminate|]. rewrite Ea, app_assoc in E. apply app_inj_tail in E as [E <-].
  destruct a' as [|x a']; cbn in Ea; [injection Ea as <-; congruence|]. injection Ea as <- Ea. eapply H. exact E.
Qed.
Lemma gave_now i ls : (forall j e, ~ In (LFired j e) ls) -> forall b a, ls ++ [LGaveUp i] = b ++ LGaveUp i :: a -> forall j e, ~ In (LFired (R := R) j e) b.
Proof.
  intros H b a E j e I. destruct (exists_last (l := LGaveUp (R := R) i :: a)) as (a' & l' & Ea); [discriminate|]. rewrite Ea, app_assoc in E. apply app_inj_tail in E as [E _]. apply (H j e). rewrite E. apply in_or_app; auto.
Qed.
Lemma In_snoc_inv {A} (x y : A) l : In x (l ++ [y]) -> In x l \/ y = x.
Proof. intro H. apply in_app_or in H as [H|[H|[]]]; auto. Qed.

Lemma sinv_act n0 m0 i e0 c0 ls pre s a s' (l : label R) : ginv n0 m0 (pre ++ ls) s -> sinv i e0 c0 ls s -> act k s a = Some (s', l) -> (forall j, l <> LCalled j) -> sinv i e0 c0 (ls ++ [l]) s'.
Proof.
  intros G (S1 & (st & T & S2) & S3 & S4 & S5) A NC. destruct a as [|c|j|j x|j]; cbn in A.
  - injection A as <- <-. destruct (NC _ eq_refl).
  - injection A as <- <-. repeat split.
    + intros j st' H Ne. apply nth_snoc in H as [H|[_ H]]; [eauto|discriminate].
    + exists st. split; [|exact S2]. unfold at_thread in *. cbn. rewrite nth_error_app1; auto. apply nth_error_Some. congruence.
    + intros j e H. apply In_snoc_inv in H as [H|H]; [eauto|discriminate].
    + intro H. apply In_snoc_inv in H as [H|H]; [eauto|discriminate].
    + apply gave_snoc; [discriminate|auto].
  - destruct (nth_error (sy_threads s) j) as [[st1|c st1]|] eqn:Tj; [| |discriminate].
    + destruct (caller_go k j (sy_shared s) st1) as [[[h' st'] l']|] eqn:C; [|discriminate]. injection A as <- <-.
      assert (j = i) as ->. { destruct (Nat.eq_dec j i) as [|N]; auto. pose proof (S1 _ _ Tj N) as X. destruct st1; cbn in X; try contradiction. discriminate. }
      unfold at_thread in T. rewrite T in Tj. injection Tj as <-. fold (at_thread s i (Calling st)) in T.
      assert (D : (forall j st0, at_thread (mk_system h' (update (sy_threads s) i (fun _ => Calling st'))) j (Calling st0) -> j <> i -> ended (Calling st0))).
      { intros j st0 H Ne. apply (at_update s h' i _ _ _ _ T) in H as [[-> _]|[_ H]]; [congruence|eauto]. }
      pose proof (at_update_same s h' i _ (Calling st') T) as D2.
      assert (P : forall l0 : label R, (forall j e, l0 <> LFired j e) -> l0 <> LNothing i -> l0 <> LGaveUp i ->
                (forall j e, In (LFired j e) (ls ++ [l0]) -> e = e0) /\ ~ In (LNothing i) (ls ++ [l0]) /\ (forall b a, ls ++ [l0] = b ++ LGaveUp i :: a -> forall j e, ~ In (LFired j e) b)).
      { intros l0 N1 N2 N3. repeat split; [| |apply gave_snoc; auto].
        - intros j e H. apply In_snoc_inv in H as [H|H]; [eauto|destruct (N1 _ _ H)].
        - intro H. apply In_snoc_inv in H as [H|H]; auto. }
      assert (Q : (forall j e, l' <> LFired j e) -> l' <> LNothing i -> l' <> LGaveUp i -> forall X : Prop, X -> X /\ (forall j e, In (LFired j e) (ls ++ [l']) -> e = e0) /\ ~ In (LNothing i) (ls ++ [l']) /\ (forall b a, ls ++ [l'] = b ++ LGaveUp i :: a -> forall j e, ~ In (LFired j e) b)) by (intros; split; auto).
      clear P. split; [exact D|]. clear D.
      destruct st as [| |x| |e| | |id r| |x]; cbn in C; try discriminate.
      * injection C as <- <- <-. apply Q; try (intros; discriminate). exists Write. split; [exact D2|]. cbn. destruct S2 as (_ & -> & ->). auto.
      * injection C as <- <- <-. apply Q; try (intros; discriminate). eexists. split; [exact D2|]. cbn. destruct S2 as (E & ->). split; auto.
        destruct (g_thr _ _ _ _ G _ _ T) as [[_ []]|[_ (y & _ & Ey)]]. unfold after_write in Ey. destruct y as [a|er].
        -- destruct (k_ack k a) as [x'|] eqn:K; [|discriminate]. injection Ey as ->. right. exists a, x. auto.
        -- injection Ey as <-. left. auto.
      * destruct S2 as (E & Ec). rewrite E in C. injection C as <- <- <-. apply Q; try (intros; discriminate). eexists. split; [exact D2|]. cbn. auto.
      * destruct (existsb _ _); [|discriminate]. injection C as <- <- <-. apply Q; try (intros; discriminate). eexists. split; [exact D2|]. cbn. tauto.
      * injection C as <- <- <-. apply Q; try (intros; discriminate). eexists. split; [exact D2|]. cbn. tauto.
      * destruct (sh_response (sy_shared s)) eqn:Er.
        -- injection C as <- <- <-. apply Q; try (intros; discriminate). eexists. split; [exact D2|]. cbn. destruct (k_key k r) eqn:K; [tauto|]. rewrite K. tauto.
        -- exfalso. destruct (g_thr _ _ _ _ G _ _ T) as [[_ []]|[_ [_ Ln]]]. destruct (last_stored (pre ++ ls)) as [[j0 r0]|] eqn:L; [|congruence]. destruct (g_last _ _ _ _ G _ _ L) as [X _]. congruence.
      * injection C as <- <- <-. apply Q; try (intros; discriminate). eexists. split; [exact D2|]. cbn. destruct S2 as (E & Ec & K). split; auto. left. rewrite K, Ec. auto.
      * injection C as <- <- <-. apply Q; try (intros; discriminate). eexists. split; [exact D2|]. cbn. destruct S2 as (E & Ec). auto.
    + destruct (handler_go j c (sy_shared s) st1) as [[[h' st'] l']|] eqn:C; [|discriminate]. injection A as <- <-.
      assert (Ne : i <> j) by (intros ->; unfold at_thread in T; congruence).
      assert (X : sh_event h' = sh_event (sy_shared s) /\ sh_calls h' = sh_calls (sy_shared s) /\ sh_made h' = sh_made (sy_shared s) /\ l' <> LNothing i /\ l' <> LGaveUp i /\ (forall j e, l' = LFired j e -> sh_event (sy_shared s) = Some e)).
      { destruct st1; cbn in C; [destruct (sh_event (sy_shared s)) eqn:E|destruct c|destruct (sh_event (sy_shared s)) eqn:E|discriminate]; injection C as <- <- <-; cbn; repeat split; auto; intros; try congruence. }
      destruct X as (X1 & X2 & X3 & X4 & X5 & X6). split; [|split; [|split; [|split]]].
      * intros j0 st0 H N0. apply (at_update s h' j _ _ _ _ Tj) in H as [[_ H]|[_ H]]; [discriminate|eauto].
      * exists st. split; [apply at_update_other; auto|]. cbn [sy_shared]. rewrite X1, X2, X3. exact S2.
      * intros j0 e H. apply In_snoc_inv in H as [H|H]; [eauto|]. apply X6 in H. destruct st; (destruct S2 as (S2 & S2' & _) || destruct S2 as (S2 & S2')); congruence.
      * intro H. apply In_snoc_inv in H as [H|H]; auto.
      * apply gave_snoc; auto.
  - destruct (nth_error (sy_threads s) j) as [[st1|]|] eqn:Tj; try discriminate. destruct st1; try discriminate. injection A as <- <-.
    assert (j = i) as ->. { destruct (Nat.eq_dec j i) as [|N]; auto. destruct (S1 _ _ Tj N). }
    unfold at_thread in T. rewrite T in Tj. injection Tj as ->. fold (at_thread s i (Calling Write)) in T.
    split; [|split; [|split; [|split]]].
    + intros j st0 H Ne. apply (at_update s _ i _ _ _ _ T) in H as [[-> _]|[_ H]]; [congruence|eauto].
    + eexists. split; [eapply at_update_same; exact T|]. cbn. unfold after_write. destruct x as [a|er]; [destruct (k_ack k a)|]; auto.
    + intros j e H. apply In_snoc_inv in H as [H|H]; [eauto|discriminate].
    + intro H. apply In_snoc_inv in H as [H|H]; [auto|discriminate].
    + apply gave_snoc; [discriminate|auto].
  - destruct (nth_error (sy_threads s) j) as [[st1|]|] eqn:Tj; try discriminate. destruct st1 as [| | | |e| | | | |]; try discriminate. destruct (existsb (Nat.eqb e) (sh_set (sy_shared s))) eqn:X; [discriminate|]. injection A as <- <-.
    assert (j = i) as ->. { destruct (Nat.eq_dec j i) as [|N]; auto. destruct (S1 _ _ Tj N). }
    unfold at_thread in T. rewrite T in Tj. injection Tj as ->. fold (at_thread s i (Calling (Waiting e))) in T. destruct S2 as (-> & S2).
    split; [|split; [|split; [|split]]].
    + intros j st0 H Ne. apply (at_update s _ i _ _ _ _ T) in H as [[-> _]|[_ H]]; [congruence|eauto].
    + eexists. split; [eapply at_update_same; exact T|]. cbn. auto.
    + intros j e H. apply In_snoc_inv in H as [H|H]; [eauto|discriminate].
    + intro H. apply In_snoc_inv in H as [H|H]; [auto|discriminate].
    + apply gave_now. intros j e H. pose proof (S3 _ _ H) as ->. assert (Y : In e0 (sh_set (sy_shared s))) by (apply (g_fired _ _ _ _ G j); apply in_or_app; auto). apply existsb_in in Y. congruence.
Qed.

Lemma sinv_run s s1 i ls s' : idle s -> act k s ACall = Some (s1, LCalled i) -> run k s1 ls s' -> no_call ls ->
  sinv i (sh_made (sy_shared s)) (sh_calls (sy_shared s)) ls s' /\ ginv (length (sy_threads s)) (sh_made (sy_shared s)) (LCalled i :: ls) s'.
Proof.
  intros I A H. assert (G : ginv (length (sy_threads s)) (sh_made (sy_shared s)) (LCalled i :: ls) s') by (apply ginv_run; auto; eapply run_first; eauto).
  intro N. split; [|exact G]. clear G. induction H as [|ls s2 a s3 l H IH B].
  - cbn in A. injection A as <- <-. destruct I as (E & _ & F). repeat split; auto.
    + intros j st H Ne. apply nth_snoc in H as [H|[-> _]]; [|congruence]. rewrite Forall_forall in F. apply F. eapply nth_error_In; eauto.
    + exists Begin. split; [unfold at_thread; cbn; rewrite nth_error_app2, Nat.sub_diag; auto|auto].
    + intros j e [].
    + intros b a' Hb. destruct b; discriminate.
  - assert (N' : no_call ls) by (intros j Hj; apply (N j), in_or_app; auto). eapply (sinv_act _ _ _ _ _ ls [LCalled i]); eauto.
    + cbn. apply (ginv_run s); auto. eapply run_first; eauto.
    + intros j ->. apply (N j), In_snoc.
Qed.

(** ** A call that is left waiting *)
Lemma forgotten_run s ls s' i e : run k s ls s' -> at_thread s i (Calling (Waiting e)) -> (e < sh_made (sy_shared s))%nat -> sh_event (sy_shared s) <> Some e -> ~ In e (sh_set (sy_shared s)) ->
  (at_thread s' i (Calling (Waiting e)) \/ at_thread s' i (Calling GivenUp) \/ at_thread s' i (Calling (Over (Err (TimeoutException None))))) /\
  (e < sh_made (sy_shared s'))%nat /\ sh_event (sy_shared s') <> Some e /\ ~ In e (sh_set (sy_shared s')).
Proof.
  intros H T L E S. induction H as [|ls s1 a s2 l H IH A]; [auto|]. destruct IH as (T' & L' & E' & S'). clear T L E S H.
  destruct a as [|c|j|j x|j]; cbn in A.
  - injection A as <- <-. cbn. split; auto. unfold at_thread in *. cbn. destruct T' as [T'|[T'|T']]; rewrite nth_error_app1 by (apply nth_error_Some; congruence); auto.
  - injection A as <- <-. cbn. split; auto. unfold at_thread in *. cbn. destruct T' as [T'|[T'|T']]; rewrite nth_error_app1 by (apply nth_error_Some; congruence); auto.
  - destruct (nth_error (sy_threads s1) j) as [[st1|c st1]|] eqn:Tj; [| |discriminate].
    + destruct (caller_go k j (sy_shared s1) st1) as [[[h' st'] l']|] eqn:C; [|discriminate]. injection A as <- <-. cbn [sy_shared].
      assert (X : (e < sh_made h')%nat /\ sh_event h' <> Some e /\ ~ In e (sh_set h')).
      { destruct st1; cbn in C; try discriminate.
        - injection C as <- <- <-. cbn. repeat split; auto. intro Q. injection Q as Q. lia.
        - injection C as <- <- <-. cbn. repeat split; auto. discriminate.
        - destruct (sh_event (sy_shared s1)) eqn:Q; injection C as <- <- <-; cbn; auto. rewrite Q. auto. rewrite Q. auto.
        - destruct (existsb _ _); [|discriminate]. injection C as <- <- <-. auto.
        - injection C as <- <- <-. cbn. repeat split; auto. discriminate.
        - destruct (sh_response (sy_shared s1)); injection C as <- <- <-; auto.
        - injection C as <- <- <-. cbn. auto.
        - injection C as <- <- <-. cbn. repeat split; auto. discriminate. }
      split; [|exact X]. destruct (Nat.eq_dec i j) as [<-|Ne].
      2:{ destruct T' as [T'|[T'|T']]; [left|right; left|right; right]; apply at_update_other; auto. }
      unfold at_thread in T'. destruct T' as [T'|[T'|T']]; rewrite T' in Tj; injection Tj as <-; cbn in C; try discriminate.
      * destruct (existsb (Nat.eqb e) (sh_set (sy_shared s1))) eqn:Q; [apply existsb_in in Q; contradiction|discriminate].
      * injection C as <- <- <-. right. right. eapply at_update_same. exact T'.
    + destruct (handler_go j c (sy_shared s1) st1) as [[[h' st'] l']|] eqn:C; [|discriminate]. injection A as <- <-. cbn [sy_shared].
      assert (Ne : i <> j) by (intros ->; unfold at_thread in T'; destruct T' as [T'|[T'|T']]; congruence).
      split; [destruct T' as [T'|[T'|T']]; [left|right; left|right; right]; apply at_update_other; auto|].
      destruct st1; cbn in C; [destruct (sh_event (sy_shared s1)) eqn:Q|destruct c|destruct (sh_event (sy_shared s1)) eqn:Q|discriminate]; injection C as <- <- <-; cbn; rewrite ?Q; repeat split; auto; try congruence.
      intros [->|?]; congruence.
  - destruct (nth_error (sy_threads s1) j) as [[st1|]|] eqn:Tj; try discriminate. destruct st1; try discriminate. injection A as <- <-. cbn [sy_shared]. split; auto.
    destruct (Nat.eq_dec i j) as [<-|Ne]; [unfold at_thread in T'; destruct T' as [T'|[T'|T']]; congruence|].
    destruct T' as [T'|[T'|T']]; [left|right; left|right; right]; apply at_update_other; auto.
  - destruct (nth_error (sy_threads s1) j) as [[st1|]|] eqn:Tj; try discriminate. destruct st1; try discriminate. destruct (existsb _ _); [discriminate|]. injection A as <- <-. cbn [sy_shared]. split; auto.
    destruct (Nat.eq_dec i j) as [<-|Ne]; [right; left; eapply at_update_same; exact Tj|].
    destruct T' as [T'|[T'|T']]; [left|right; left|right; right]; apply at_update_other; auto.
Qed.
End Meet.
