(** Proofs about the table of active calls. *)
From Verif Require Import Base RegexModel ModemCore ModemSpec WriteProofs MonadProofs SendSpec SendProofs TrackSpec TrackProofs CoverageSpec CoverageProofs StoreLemmas SmsModel CallModel UssdModel NotifyModel PollModel PollSpec BookSpec ConnectModel ConnectProofs CentreProofs.

(** ** Tables *)
Lemma zdel_without t id : without id t (zdel t id).
Proof.
  induction t as [|[j n] t IH]; cbn; [constructor|]. destruct (Z.eqb_spec j id) as [->|N]; cbn; constructor; auto.
Qed.
Lemma without_fun id t t1 t2 : without id t t1 -> without id t t2 -> t1 = t2.
Proof. intro H. revert t2. induction H as [|n t t' H IH|j n t t' N H IH]; intros t2 H2; inversion H2; subst; auto; try congruence. f_equal. auto. Qed.
Lemma without_in id t t' : without id t t' -> forall e, In e t' <-> In e t /\ fst e <> id.
Proof.
  induction 1 as [|n t t' H IH|j n t t' N H IH]; intro e; cbn; [tauto| |]; rewrite IH.
  - split; [tauto|]. intros [[<-|X] Y]; auto. cbn in Y. congruence.
  - split; [intros [<-|[X Y]]; auto|tauto].
Qed.
Lemma without_ids id t t' : without id t t' -> forall j, In j (map fst t') <-> In j (map fst t) /\ j <> id.
Proof.
  intros H j. rewrite !in_map_iff. split.
  - intros (e & <- & I). apply (without_in _ _ _ H) in I as [I N]. eauto.
  - intros [(e & <- & I) N]. exists e. split; auto. apply (without_in _ _ _ H). auto.
Qed.
Lemma without_nodup id t t' : without id t t' -> NoDup (map fst t) -> NoDup (map fst t').
Proof.
  intro H. induction H as [|n t t' H IH|j n t t' N H IH]; cbn; intro D; inversion D; subst; auto. constructor; auto.
  rewrite (without_ids _ _ _ H). tauto.
Qed.
Lemma without_fresh id t t' : without id t t' -> ~ In id (map fst t) -> t' = t.
Proof. induction 1 as [|n t t' H IH|j n t t' N H IH]; cbn; intro X; auto; [tauto|]. f_equal. apply IH. tauto. Qed.
Lemma zset_entered t id n : entered id n t (zset t id n).
Proof. induction t as [|[j k] t IH]; cbn; [constructor|]. destruct (Z.eqb_spec j id) as [->|N]; constructor; auto. Qed.
Lemma entered_in id n t t' : entered id n t t' -> NoDup (map fst t) -> forall e, In e t' <-> e = (id, n) \/ In e t /\ fst e <> id.
Proof.
  induction 1 as [|k t|j k t t' N H IH]; cbn; intros D e.
  - intuition.
  - inversion D as [|? ? X Y]; subst. split.
    + intros [<-|I]; auto. right. split; auto. intro E. apply X. rewrite <- E. apply in_map. auto.
    + intros [->|[[<-|I] E]]; auto. cbn in E. congruence.
  - inversion D; subst. rewrite IH by auto. split; [intros [<-|[->|[I E]]]; auto|]. intros [->|[[<-|I] E]]; auto.
Qed.
Lemma entered_ids id n t t' : entered id n t t' -> forall j, In j (map fst t') <-> j = id \/ In j (map fst t).
Proof. induction 1 as [|k t|j k t t' N H IH]; cbn; intro i; [intuition|intuition|]. rewrite IH. intuition. Qed.
Lemma entered_nodup id n t t' : entered id n t t' -> NoDup (map fst t) -> NoDup (map fst t').
Proof.
  induction 1 as [|k t|j k t t' N H IH]; cbn; intro D; inversion D; subst; constructor; auto.
  rewrite (entered_ids _ _ _ _ H). intuition.
Qed.
Lemma entered_fresh id n t t' : entered id n t t' -> ~ In id (map fst t) -> t' = t ++ [(id, n)].
Proof. induction 1 as [|k t|j k t t' N H IH]; cbn; intro X; auto; [tauto|]. f_equal. apply IH. tauto. Qed.
Lemma zget_in {A} (t : list (Z * A)) id n : zget t id = Some n -> In (id, n) t.
Proof. induction t as [|[j k] t IH]; cbn; [discriminate|]. destruct (Z.eqb_spec j id) as [->|N]; auto. intro E. injection E as ->. auto. Qed.
Lemma zget_none {A} (t : list (Z * A)) id : zget t id = None -> ~ In id (map fst t).
Proof. induction t as [|[j k] t IH]; cbn; auto. destruct (Z.eqb_spec j id) as [->|N]; [discriminate|]. intros E [X|X]; auto. exact (IH E X). Qed.
Lemma update_at l n (f : call -> call) : at_call n f l (update l n f).
Proof.
  split; [|split; [|apply update_length]].
  - intros c H. rewrite update_nth, Nat.eqb_refl, H. auto.
  - intros k N. rewrite update_nth. destruct (Nat.eqb_spec n k); congruence.
Qed.
Lemma at_then n f g l l' l'' : at_call n f l l' -> at_call n g l' l'' -> at_call n (fun c => g (f c)) l l''.
Proof. intros (A1 & A2 & A3) (B1 & B2 & B3). split; [|split; [|congruence]]; [intros; apply B1; auto|]. intros k N. rewrite B2, A2; auto. Qed.

(** ** What one operation does to the book *)
Definition same_call (c c' : call) : Prop := c_id c' = c_id c /\ c_active c' = c_active c.
Definition flags (l l' : list call) : Prop := length l' = length l /\ forall k c, nth_error l k = Some c -> exists c', nth_error l' k = Some c' /\ same_call c c'.
Definition flags_but (n : nat) (l l' : list call) : Prop := length l' = length l /\
  forall k c, nth_error l k = Some c -> exists c', nth_error l' k = Some c' /\ c_id c' = c_id c /\ (k <> n -> c_active c' = c_active c) /\ (k = n -> c_active c' = false).
Inductive change (m : modem) (o : call_op) (m' : modem) : Prop :=
| ch_flags : flags (callObjs m) (callObjs m') -> activeCalls m' = activeCalls m -> change m o m'
| ch_new c : callObjs m' = callObjs m ++ [c] -> c_active c = true -> entered (c_id c) (length (callObjs m)) (activeCalls m) (activeCalls m') ->
    (exists number cb, o = DialEnd number cb) \/ c_id c = Z.of_nat (length (activeCalls m)) + 1 -> change m o m'
| ch_end n c : nth_error (callObjs m) n = Some c -> flags_but n (callObjs m) (callObjs m') -> without (c_id c) (activeCalls m) (activeCalls m') ->
    o = Hangup n \/ In (c_id c, n) (activeCalls m) -> change m o m'.
Lemma flags_refl l : flags l l. Proof. split; auto. intros k c H. exists c. repeat split; auto. Qed.
Lemma flags_trans l1 l2 l3 : flags l1 l2 -> flags l2 l3 -> flags l1 l3.
Proof.
  intros [A1 A2] [B1 B2]. split; [congruence|]. intros k c H. apply A2 in H as (c1 & H & S1). apply B2 in H as (c2 & H & S2). exists c2. split; auto.
  destruct S1, S2. split; congruence.
Qed.
Lemma flags_update l n f : (forall c, same_call c (f c)) -> flags l (update l n f).
Proof.
  intro H. split; [apply update_length|]. intros k c E. rewrite update_nth. destruct (Nat.eqb_spec n k) as [->|N].
  - rewrite E. cbn. eauto.
  - exists c. repeat split; auto.
Qed.
Lemma change_same m o m' : callObjs m' = callObjs m -> activeCalls m' = activeCalls m -> change m o m'.
Proof. intros E1 E2. apply ch_flags; auto. rewrite E1. apply flags_refl. Qed.

Definition calls_of (m : modem) : list call * list (Z * nat) := (callObjs m, activeCalls m).
Lemma change_keeps m m' o : calls_of m' = calls_of m -> change m o m'.
Proof. intro E. injection E as E1 E2. apply change_same; auto. Qed.
(** state_after and last_of *)
Lemma after_last {A} (x : out A) : state_after x = dev (last_of x). Proof. destruct x; auto. Qed.

(** *** methods that leave the calls alone *)
Lemma keeps_read i mem : keeps calls_of (readStoredSms i mem).
Proof. unfold readStoredSms, setSmsMemory. keeps_all. Qed.
Lemma keeps_delete i mem : keeps calls_of (deleteStoredSms i mem).
Proof. unfold deleteStoredSms, setSmsMemory. keeps_all. Qed.
Lemma keeps_received l : keeps calls_of (handleSmsReceived l).
Proof. unfold handleSmsReceived. keeps_all; first [apply keeps_read|apply keeps_delete]. Qed.
Lemma keeps_report l : keeps calls_of (handleSmsStatusReport l).
Proof. unfold handleSmsStatusReport. keeps_all; first [apply keeps_read|apply keeps_delete]. Qed.
Lemma keeps_ussd l : keeps calls_of (handleUssd l).
Proof. unfold handleUssd. keeps_all. Qed.
Lemma keeps_tones n t : keeps calls_of (sendDtmfTone n t).
Proof. unfold sendDtmfTone. keeps_all. Qed.
Lemma keeps_initiated g i t : keeps calls_of (handleCallInitiated g i t).
Proof. unfold handleCallInitiated, int_of. keeps_all. Qed.
Lemma keeps_atd n : keeps calls_of (atd n).
Proof. unfold atd. keeps_all. Qed.

(** *** calls *)
Lemma set_answered_run n b w : exists tr, set_answered n b w = Done (Ok tt) (mk_world (set_callObjs (update (callObjs (dev w)) n (with_answered b)) (dev w)) (script w) (trace w ++ tr)) /\ asked tr = [].
Proof.
  unfold set_answered, change_call, mbind, modify, get. cbn [dev]. destruct (c_callback _); [exists [EStatus n]|exists []]; split; auto. cbn. rewrite app_nil_r. auto.
Qed.
Lemma update_update {A} (l : list A) n f g : update (update l n f) n g = update l n (fun x => g (f x)).
Proof. revert n. induction l as [|x l IH]; intros [|n]; cbn; auto. f_equal. auto. Qed.
Lemma the_call_nth m n c : nth_error (callObjs m) n = Some c -> the_call m n = c.
Proof. intro H. unfold the_call. apply nth_error_nth. auto. Qed.
Lemma flags_but_update l n f : (forall c, c_id (f c) = c_id c /\ c_active (f c) = false) -> flags_but n l (update l n f).
Proof.
  intro H. split; [apply update_length|]. intros k c E. rewrite update_nth. destruct (Nat.eqb_spec n k) as [->|N].
  - rewrite E. cbn. exists (f c). split; auto. split; [apply H|]. split; [congruence|]. intros _. apply H.
  - exists c. repeat split; auto. congruence.
Qed.
Lemma flags_then_but n l l1 l2 : flags l l1 -> flags_but n l1 l2 -> flags_but n l l2.
Proof.
  intros [A1 A2] [B1 B2]. split; [congruence|]. intros k c H. apply A2 in H as (c1 & H & S1 & S2). apply B2 in H as (c2 & H & T1 & T2 & T3). exists c2. repeat split; auto; [congruence|]. intro N. rewrite T2; auto.
Qed.
Lemma change_add c m m1 o w : calls_of (dev w) = calls_of m -> c_active c = true ->
  (exists number cb, o = DialEnd number cb) \/ c_id c = Z.of_nat (length (activeCalls m)) + 1 ->
  m1 = dev (last_of (add_call c w)) -> change m o m1.
Proof.
  intros E A I ->. injection E as E1 E2. unfold add_call, mbind, get, modify. cbn [last_of ret dev].
  eapply (ch_new _ _ _ c); cbn; auto; [congruence|]. rewrite E1, E2. apply zset_entered.
Qed.
Lemma change_dial number cb w : change (dev w) (Dial number cb) (dev (last_of (ignoring (dial_start number cb) w))).
Proof.
  unfold ignoring, dial_start, mbind at 1, mbind at 1, get. cbn beta iota. destruct (waitInit (dev w)) eqn:E.
  - apply change_keeps.
    match goal with |- calls_of (dev (last_of (match ?c w with _ => _ end))) = _ => set (c0 := c) end.
    assert (K : keeps calls_of c0). { unfold c0. keeps_all; try apply keeps_atd. }
    specialize (K w). destruct (c0 w) as [[?|?] w1|w1]; auto.
  - pose proof (keeps_atd number w) as K. unfold mbind at 1. destruct (atd number w) as [[[]|e] w1|w1]; cbn [last_of] in *; try (apply change_keeps; exact K).
    unfold mbind at 1, get. unfold mbind at 1. set (c := new_call _ _ _ _).
    assert (H : change (dev w) (Dial number cb) (dev (last_of (add_call c w1)))).
    { apply (change_add c _ _ _ w1); auto. right. cbn. injection K as K1 K2. rewrite K2. auto. }
    destruct (add_call c w1) as [[?|?] w2|w2]; auto.
Qed.
Lemma change_dial_end number cb w : change (dev w) (DialEnd number cb) (dev (last_of (ignoring (dial_finish number cb) w))).
Proof.
  unfold ignoring, dial_finish, mbind at 1, mbind at 1, get. cbn beta iota. destruct (dialEvent (dev w)) as [[|]|].
  - unfold mbind at 1, modify. destruct (dialResponse (dev w)) as [[id ty]|]; [|apply change_same; auto].
    set (c := new_call _ _ _ _). set (w1 := mk_world _ _ _).
    assert (H : change (dev w) (DialEnd number cb) (dev (last_of (add_call c w1)))). { apply (change_add c _ _ _ w1); eauto. }
    destruct (add_call c w1) as [[?|?] w2|w2]; auto.
  - unfold mbind at 1, modify. cbn. apply change_same; auto.
  - cbn. apply change_same; auto.
Qed.
Lemma change_answer n w : change (dev w) (Answer n) (dev (last_of (answer n w))).
Proof.
  unfold answer, mbind at 1, get. destruct (c_ringing _); [|apply change_same; auto].
  unfold mbind at 1. pose proof (keeps_write calls_of (lit "ATA") CR true (fun _ _ => eq_refl) w) as K. unfold write. destruct (write_with _ _ _ w) as [[ls|e] w1|w1]; cbn [last_of] in *; try (apply change_keeps; exact K).
  injection K as K1 K2. unfold mbind at 1, change_call, modify. set (w2 := mk_world _ _ _). destruct (set_answered_run n true w2) as (tr & E & _). rewrite E. cbn [last_of dev].
  apply ch_flags; [|cbn; auto]. cbn. rewrite <- K1. eapply flags_trans; apply flags_update; intro c; split; auto.
Qed.
Lemma change_hangup n w : (n < length (callObjs (dev w)))%nat -> change (dev w) (Hangup n) (dev (last_of (hangup n w))).
Proof.
  intro Hn. destruct (nth_error (callObjs (dev w)) n) as [c|] eqn:Hc; [|apply nth_error_None in Hc; lia].
  unfold hangup, mbind at 1, get. rewrite (the_call_nth _ _ _ Hc).
  assert (R : exists w1, (if c_incoming c then change_call n (with_ringing false) else ret tt) w = Done (Ok tt) w1 /\ activeCalls (dev w1) = activeCalls (dev w) /\ flags (callObjs (dev w)) (callObjs (dev w1))).
  { destruct (c_incoming c); eexists; (split; [reflexivity|]); (split; [reflexivity|]); [|apply flags_refl]. cbn. apply flags_update. intro; split; auto. }
  destruct R as (w1 & R & T1 & F1). unfold mbind at 1. rewrite R. clear R.
  destruct (proj2 F1 _ _ Hc) as (c1 & Hc1 & S1 & S2).
  assert (D : forall w2 l, activeCalls (dev w2) = activeCalls (dev w) -> callObjs (dev w2) = l -> flags_but n (callObjs (dev w)) l -> change (dev w) (Hangup n)
     (dev (last_of ((do m <- get; match zget (activeCalls m) (c_id (the_call m n)) with Some _ => modify (fun m => set_activeCalls (zdel (activeCalls m) (c_id (the_call m n))) m) | None => ret tt end) w2)))).
  { intros w2 l E1 E2 F. unfold mbind, get. destruct (proj2 F _ _ Hc) as (c2 & Hc2 & S3 & _). rewrite <- E2 in Hc2. rewrite (the_call_nth _ _ _ Hc2), S3.
    destruct (zget (activeCalls (dev w2)) (c_id c)) as [k|] eqn:G; cbn [last_of modify ret dev].
    - eapply (ch_end _ _ _ n c); auto; cbn; [congruence|]. rewrite E1, (the_call_nth _ _ _ Hc2), S3. apply zdel_without.
    - apply zget_none in G. eapply (ch_end _ _ _ n c); auto; cbn; [congruence|]. rewrite E1 in *. rewrite <- (without_fresh (c_id c) (activeCalls (dev w)) (zdel (activeCalls (dev w)) (c_id c))) at 2; auto; apply zdel_without. }
  destruct (c_active c) eqn:Ac.
  - unfold mbind at 1. unfold mbind at 1. pose proof (keeps_write calls_of (lit "ATH") CR true (fun _ _ => eq_refl) w1) as K. unfold write. destruct (write_with _ _ _ w1) as [[ls|e] w2|w2]; cbn [last_of] in *;
      injection K as K1 K2; [|apply ch_flags; [rewrite K1; auto|congruence]|apply ch_flags; [rewrite K1; auto|congruence]].
    unfold mbind at 1. destruct (set_answered_run n false w2) as (tr & E & _). rewrite E. unfold change_call at 1, modify at 1. cbn iota.
    eapply D; cbn; [congruence|reflexivity|]. eapply flags_then_but; [exact F1|]. rewrite update_update, K1. apply flags_but_update. intro; split; auto.
  - unfold mbind at 1. cbn [ret]. eapply D; [auto|reflexivity|]. split; [apply F1|]. intros k c0 E. destruct (proj2 F1 _ _ E) as (c' & E' & A1 & A2). exists c'. repeat split; auto. intros ->. congruence.
Qed.
Lemma ended_run id w : exists w', (do m <- get;
        match zget (activeCalls m) id with
        | Some n =>
            set_answered n false ;;;
            change_call n (with_active false) ;;;
            modify (fun m => set_activeCalls (zdel (activeCalls m) id) m)
        | None => ret tt
        end) w = Done (Ok tt) w' /\ script w' = script w /\ asked (trace w') = asked (trace w) /\
  match zget (activeCalls (dev w)) id with
  | Some n => exists l, dev w' = set_activeCalls (zdel (activeCalls (dev w)) id) (set_callObjs l (dev w)) /\ at_call n now_ended (callObjs (dev w)) l /\ l = update (callObjs (dev w)) n now_ended
  | None => w' = w
  end.
Proof.
  unfold mbind at 1, get. destruct (zget _ id) as [n|]; [|exists w; auto]. unfold mbind at 1. destruct (set_answered_run n false w) as (tr & E & At). rewrite E.
  eexists. split; [reflexivity|]. cbn. split; auto. split; [rewrite asked_app, At, app_nil_r; auto|].
  exists (update (callObjs (dev w)) n now_ended). split; [|split; auto; apply update_at]. rewrite update_update. reflexivity.
Qed.
Definition pure {A} (c : M A) : Prop := forall w, exists x, c w = Done x w.
Lemma pure_bind {A B} (c : M A) (k : A -> M B) : pure c -> (forall x, pure (k x)) -> pure (mbind c k).
Proof. intros P Q w. unfold mbind. destruct (P w) as ([a|e] & ->); eauto. apply Q. Qed.
Lemma pure_ret {A} (x : A) : pure (ret x). Proof. intro w. eexists. reflexivity. Qed.
Lemma pure_raise {A} e : pure (@raise A e). Proof. intro w. eexists. reflexivity. Qed.
Lemma pure_lift {A} (x : res A) : pure (lift x). Proof. intro w. eexists. reflexivity. Qed.
Lemma pure_get : pure get. Proof. intro w. eexists. reflexivity. Qed.
Ltac pure_tac := repeat first
  [ apply pure_bind; [|intros ?] | apply pure_ret | apply pure_raise | apply pure_lift | apply pure_get
  | match goal with |- pure (match ?b with _ => _ end) => destruct b end ].
Lemma pure_int g k : pure (int_of g k). Proof. unfold int_of. pure_tac. Qed.
Lemma change_ended o g cid fu w : sound_book (book_of (dev w)) -> change (dev w) o (dev (last_of (handleCallEnded g cid fu w))).
Proof.
  intros [Nd Sd]. unfold handleCallEnded. unfold mbind at 1.
  match goal with |- context [match ?c w with _ => _ end] => assert (P : pure c) by (pure_tac; apply pure_int); destruct (P w) as ([x|e] & ->) end; [|apply change_same; auto].
  destruct x as [id|]; [|apply change_same; auto]. destruct (id =? 0); [apply change_same; auto|].
  destruct (ended_run id w) as (w' & R & _ & _ & E). rewrite R. cbn [last_of]. destruct (zget (activeCalls (dev w)) id) as [n|] eqn:G; [|subst; apply change_same; auto].
  destruct E as (l & E & _ & El). apply zget_in in G. destruct (Sd _ _ G) as (c & Hc & I & A). cbn in Hc. eapply (ch_end _ _ _ n c); auto; rewrite ?E; cbn.
  - subst l. apply flags_but_update. intro; split; auto.
  - rewrite I. apply zdel_without.
  - rewrite I. auto.
Qed.
Lemma change_set_answered o n b w : change (dev w) o (dev (last_of (set_answered n b w))).
Proof. destruct (set_answered_run n b w) as (tr & -> & _). apply ch_flags; auto. apply flags_update. intro; split; auto. Qed.
Lemma change_answered o g id w : change (dev w) o (dev (last_of (handleCallAnswered g id w))).
Proof.
  assert (A : forall i w, change (dev w) o (dev (last_of (answered_by_id i w)))).
  { intros i w0. unfold answered_by_id, mbind, get. destruct (zget _ i); [apply change_set_answered|apply change_same; auto]. }
  unfold handleCallAnswered. destruct g as [[|g0 [|g1 gs]]|]; auto; unfold mbind at 1.
  - cbn [get]. destruct (find_call _ _); [apply change_set_answered|apply change_same; auto].
  - cbn [get]. destruct (find_call _ _); [apply change_set_answered|apply change_same; auto].
  - destruct (pure_int (g0 :: g1 :: gs) 0 w) as ([x|e] & ->); auto. apply change_same; auto.
Qed.
(** *** incoming calls *)
Definition ring_again (n : nat) (w : world) : world := mk_world (set_callObjs (update (callObjs (dev w)) n (with_ringCount (c_ringCount (the_call (dev w) n) + 1))) (dev w)) (script w) (trace w).
Lemma ring_step id n es number found w : ring_each ((id, n) :: es) number found w =
  if opt_str_eqb (c_number (the_call (dev w) n)) number then (if c_incoming (the_call (dev w) n) then ring_each es number (Some n) (ring_again n w) else Done (Err AttributeError) w)
  else ring_each es number found w.
Proof. cbn [ring_each]. unfold mbind, get. destruct (opt_str_eqb _ _); auto. destruct (c_incoming _); auto. Qed.
Lemma ring_flags es number : forall found w, activeCalls (dev (last_of (ring_each es number found w))) = activeCalls (dev w) /\ flags (callObjs (dev w)) (callObjs (dev (last_of (ring_each es number found w)))).
Proof.
  induction es as [|[id n] es IH]; intros found w; [cbn; auto using flags_refl|]. rewrite ring_step.
  destruct (opt_str_eqb _ _); [|apply IH]. destruct (c_incoming _); [|cbn; auto using flags_refl].
  destruct (IH (Some n) (ring_again n w)) as [H1 H2]. split; [exact H1|]. eapply flags_trans; [|exact H2]. cbn. apply flags_update. intro; split; auto.
Qed.
Lemma ring_found es number n w w1 : ring_each es number (Some n) w <> Done (Ok None) w1.
Proof.
  revert n w. induction es as [|[j k] es IH]; intros n w; [discriminate|]. rewrite ring_step. destruct (opt_str_eqb _ _); auto. destruct (c_incoming _); auto. discriminate.
Qed.
Lemma ring_new es number : forall w w1, ring_each es number None w = Done (Ok None) w1 -> w1 = w.
Proof.
  induction es as [|[id n] es IH]; intros w w1 H; [injection H as <-; auto|]. rewrite ring_step in H.
  destruct (opt_str_eqb _ _); eauto. destruct (c_incoming _); [|discriminate]. apply ring_found in H. contradiction.
Qed.
Lemma new_incoming_ok number id ty c : new_incoming number id ty = Ok c -> c_id c = id /\ c_active c = true.
Proof. unfold new_incoming. destruct ty as [s|]; cbn; [destruct (str_eqb _ _); [|discriminate]|]; intro H; injection H as <-; auto. Qed.
Lemma change_incoming o lines w : change (dev w) o (dev (last_of (handleIncomingCall lines w))).
Proof.
  destruct lines as [|ring lines]; [apply change_same; auto|]. cbn [handleIncomingCall]. unfold mbind at 1, get. cbn beta iota. unfold mbind at 1.
  match goal with |- context [match ?c w with _ => _ end] => assert (K : keeps calls_of c) by keeps_all; specialize (K w); destruct (c w) as [[ty|e] w1|w1] end; cbn [last_of] in K; try (apply change_keeps; exact K).
  unfold mbind at 1. cbn beta iota. set (number := match lines with [] => None | _ => _ end). unfold mbind at 1.
  destruct (ring_flags (activeCalls (dev w1)) number None w1) as [H1 H2]. injection K as K1 K2.
  assert (G : change (dev w) o (dev (last_of (ring_each (activeCalls (dev w1)) number None w1)))). { apply ch_flags; [rewrite <- K1; auto|congruence]. }
  destruct (ring_each (activeCalls (dev w1)) number None w1) as [[[n|]|e] w2|w2] eqn:R; cbn [last_of] in *; auto.
  - apply ring_new in R as ->. unfold mbind at 1. unfold mbind at 1. unfold mbind at 1, lift. cbn beta iota. destruct (new_incoming _ _ _) as [c|e] eqn:N; auto. apply new_incoming_ok in N as [I A].
    set (x := add_call c w1). assert (C : change (dev w) o (dev (last_of x))). { apply (change_add c _ _ _ w1); auto; [unfold calls_of; congruence|]. right. rewrite I, K2. auto. }
    destruct x as [[k|e] w2|w2]; auto.
Qed.
(** *** notifications *)
Lemma change_news o t line k w : sound_book (book_of (dev w)) -> try_updates (call_updates t) line = Some k -> change (dev w) o (dev (last_of (k w))).
Proof.
  intros Sd H. assert (I : exists g, k = handleCallInitiated (Some g) 0 1 \/ k = handleCallAnswered (Some g) 0 \/ k = handleCallEnded (Some g) None false \/ k = handleCallRejected (Some g) None).
  { destruct t; cbn [call_updates try_updates] in H; repeat match type of H with (match ?x with _ => _ end) = _ => destruct x end; try discriminate H; injection H as <-;
    eexists; first [left; reflexivity|right; left; reflexivity|right; right; left; reflexivity|right; right; right; reflexivity]. }
  destruct I as (g & [->|[->|[->| ->]]]).
  - apply change_keeps. apply keeps_initiated.
  - apply change_answered.
  - apply change_ended. auto.
  - apply change_ended. auto.
Qed.
Lemma change_notification o lines : forall rest w, sound_book (book_of (dev w)) -> change (dev w) o (dev (last_of (notify_each lines rest w))).
Proof.
  induction rest as [|line rest IH]; intros w Sd; cbn [notify_each]; [apply change_same; auto|].
  destruct (contains _ _); [apply change_incoming|]. destruct (startswith _ _); [apply change_keeps, keeps_received|]. destruct (startswith _ _); [apply change_keeps, keeps_ussd|].
  destruct (startswith _ _); [apply change_keeps, keeps_report|]. unfold mbind, get. destruct (try_updates _ line) as [k|] eqn:E; auto. eapply change_news; eauto.
Qed.
Lemma change_report o r w : sound_book (book_of (dev w)) -> change (dev w) o (dev (last_of (handles_report r w))).
Proof.
  intro Sd. destruct r; cbn [handles_report].
  - apply change_keeps, keeps_initiated.
  - apply change_answered.
  - apply change_ended; auto.
  - apply change_ended; auto.
Qed.
Lemma perform_change o m sc : sound_book (book_of m) -> applicable o m -> change m o (state_after (perform o (start m sc))).
Proof.
  intros Sd Ap. rewrite after_last. destruct o; cbn [perform].
  - apply (change_dial number callback (start m sc)).
  - apply (change_dial_end number callback (start m sc)).
  - apply (change_answer n (start m sc)).
  - apply (change_hangup n (start m sc)). auto.
  - apply change_keeps, (keeps_tones n tones (start m sc)).
  - apply (change_notification _ lines lines (start m sc)). auto.
  - apply (change_report _ r (start m sc)). auto.
Qed.

(** ** Histories *)
Lemma change_sound m o m' : sound_book (book_of m) -> change m o m' -> sound_book (book_of m').
Proof.
  intros [Nd Sd] C. unfold sound_book, ids in *. cbn [book_of b_calls b_table] in *. destruct C as [F E|c E A En _|n c Hc F W Or].
  - rewrite E. split; auto. intros id n I. destruct (Sd _ _ I) as (c & Hc & X & Y). destruct (proj2 F _ _ Hc) as (c' & Hc' & X' & Y'). exists c'. repeat split; congruence.
  - split; [eapply entered_nodup; eauto|]. intros id n I. apply (entered_in _ _ _ _ En Nd) in I as [I|[I N]].
    + injection I as -> ->. exists c. rewrite E, nth_error_app2, Nat.sub_diag by lia. auto.
    + destruct (Sd _ _ I) as (c' & Hc & X & Y). exists c'. rewrite E, nth_error_app1; auto. apply nth_error_Some. congruence.
  - split; [eapply without_nodup; eauto|]. intros id k I. apply (without_in _ _ _ W) in I as [I N]. cbn in N. destruct (Sd _ _ I) as (c' & Hc' & X & Y).
    destruct (proj2 F _ _ Hc') as (c2 & Hc2 & X2 & Y2 & _). exists c2. repeat split; auto; try congruence. rewrite Y2; auto. intros ->. congruence.
Qed.
Lemma book_other m m' : callObjs m' = callObjs m -> activeCalls m' = activeCalls m -> sound_book (book_of m) -> sound_book (book_of m').
Proof. unfold sound_book, ids. cbn. intros -> ->. auto. Qed.
Theorem history_sound hs m : call_history hs m -> sound_book (book_of m).
Proof.
  induction 1 as [m E1 E2|hs m o sc H IH Ap|hs m m' H IH E1 E2].
  - unfold sound_book, ids. cbn. rewrite E2. split; [constructor|]. intros id n [].
  - eapply change_sound; eauto. apply perform_change; auto.
  - eapply book_other; eauto.
Qed.
Lemma change_complete m o m' : sound_book (book_of m) -> complete_book (book_of m) -> no_clash m o m' -> change m o m' -> complete_book (book_of m').
Proof.
  intros [Nd Sd] Cp [N1 N2] C. unfold complete_book, ids in *. cbn [book_of b_calls b_table] in *. destruct C as [F E|c E A En _|n c Hc F W Or]; intros k c' Hk Ak.
  - assert (Hl : (k < length (callObjs m))%nat). { rewrite <- (proj1 F). apply nth_error_Some. congruence. }
    destruct (nth_error (callObjs m) k) as [c|] eqn:Hc; [|apply nth_error_None in Hc; lia]. destruct (proj2 F _ _ Hc) as (c2 & H2 & X & Y). assert (c2 = c') by congruence. subst c2. rewrite E, X. apply Cp; congruence.
  - apply (entered_in _ _ _ _ En Nd). rewrite E in Hk. destruct (Nat.lt_ge_cases k (length (callObjs m))) as [L|L].
    + rewrite nth_error_app1 in Hk by auto. right. split; auto. cbn. intro X. specialize (Cp _ _ Hk Ak). apply (N1 c); [rewrite E, nth_error_app2, Nat.sub_diag by lia; auto|]. rewrite <- X. apply (in_map fst) in Cp. auto.
    + rewrite nth_error_app2 in Hk by auto. destruct (k - length (callObjs m))%nat as [|j] eqn:Ej; [|destruct j; discriminate]. injection Hk as <-. left. f_equal. lia.
  - assert (Hl : (k < length (callObjs m))%nat). { rewrite <- (proj1 F). apply nth_error_Some. congruence. }
    destruct (nth_error (callObjs m) k) as [c0|] eqn:H0; [|apply nth_error_None in H0; lia]. destruct (proj2 F _ _ H0) as (c2 & H2 & X & Y & Z0). assert (c2 = c') by congruence. subst c2.
    destruct (Nat.eq_dec k n) as [->|Nk]; [rewrite Z0 in Ak by auto; discriminate|]. rewrite Y in Ak by auto. specialize (Cp _ _ H0 Ak) as I0.
    apply (without_in _ _ _ W). rewrite X. split; auto. cbn. intro Eq.
    assert (In (c_id c, n) (activeCalls m) -> False). { intro I1. rewrite <- Eq in I1. apply Nk. clear - Nd I0 I1. induction (activeCalls m) as [|[j q] t IH]; [contradiction I0|]. cbn in Nd, I0, I1. inversion Nd as [|? ? D1 D2]; subst.
      destruct I0 as [I0|I0], I1 as [I1|I1]; auto; try congruence; exfalso; apply D1; [injection I0 as -> ->; apply (in_map fst) in I1; auto|injection I1 as -> ->; apply (in_map fst) in I0; auto]. }
    destruct Or as [->|I1]; auto. destruct (c_active c) eqn:Ac; [apply H, Cp; auto|]. apply (N2 n c); auto. rewrite <- Eq. apply (in_map fst) in I0. auto.
Qed.
Theorem history_complete hs m : call_history hs m -> (forall m1 o m2, In (m1, o, m2) hs -> no_clash m1 o m2) -> complete_book (book_of m).
Proof.
  induction 1 as [m E1 E2|hs m o sc H IH Ap|hs m m' H IH E1 E2]; intro N.
  - unfold complete_book. cbn. rewrite E1. intros [|n] c X; discriminate X.
  - assert (Sd := history_sound _ _ H). eapply change_complete; [apply Sd|apply IH; intros; apply N; apply in_or_app; auto|apply N; apply in_or_app; right; left; reflexivity|apply perform_change; auto].
  - unfold complete_book. cbn. rewrite E1, E2. apply IH. auto.
Qed.
(** counted ids *)
Lemma count_up_next k : count_up (S k) = count_up k ++ [Z.of_nat k + 1].
Proof. unfold count_up. rewrite seq_S, map_app. reflexivity. Qed.
Lemma count_up_in k z : In z (count_up k) <-> 1 <= z <= Z.of_nat k.
Proof.
  unfold count_up. rewrite in_map_iff. split.
  - intros (i & <- & I). apply in_seq in I. lia.
  - intro H. exists (Z.to_nat (z - 1)). split; [lia|]. apply in_seq. lia.
Qed.
Lemma count_up_length k : length (count_up k) = k. Proof. unfold count_up. rewrite map_length, seq_length. auto. Qed.
Lemma without_last id t t' : without id t t' -> NoDup (map fst t) -> (forall a j b, map fst t = a ++ j :: b -> b <> [] -> In j (map fst t')) -> map fst t' = map fst t \/ exists a, map fst t = a ++ [id] /\ map fst t' = a.
Proof.
  intros W Nd H. destruct (in_dec Z.eq_dec id (map fst t)) as [I|I].
  2:{ left. rewrite (without_fresh _ _ _ W); auto. }
  right. apply in_split in I as (a & b & E). exists a. destruct b as [|z b].
  - split; auto. clear H. revert a E. induction W as [|n t t' W IH|j n t t' N W IH]; intros a E; cbn in E.
    + destruct a; discriminate.
    + cbn in Nd. inversion Nd as [|? ? D1 D2]; subst. destruct a as [|x a]; cbn in E; inversion E as [[E1 E2]]; subst.
      * destruct t; [|discriminate]. inversion W. auto.
      * exfalso. apply D1. rewrite ?E2, ?E1. apply in_or_app. right. left. auto.
    + cbn in Nd. inversion Nd as [|? ? D1 D2]; subst. destruct a as [|x a]; cbn in E; inversion E as [[E1 E2]]; subst; [congruence|]. cbn. f_equal. auto.
  - exfalso. assert (X : In id (map fst t')) by (apply (H a id (z :: b)); [auto|discriminate]). apply (without_ids _ _ _ W) in X. tauto.
Qed.
Theorem history_counted hs m : call_history hs m -> (forall m1 o m2, In (m1, o, m2) hs -> counted m1 o m2) ->
  ids (book_of m) = count_up (length (activeCalls m)) /\ forall m1 o m2 c, In (m1, o, m2) hs -> nth_error (callObjs m2) (length (callObjs m1)) = Some c -> ~ In (c_id c) (ids (book_of m1)).
Proof.
  induction 1 as [m E1 E2|hs m o sc H IH Ap|hs m m' H IH E1 E2]; intro N.
  - unfold ids. cbn. rewrite E2. split; [auto|intros m1 o m2 c []].
  - destruct IH as [I F]; [intros; apply N; apply in_or_app; auto|]. assert (Sd := history_sound _ _ H). set (m' := state_after _) in *.
    assert (C : change m o m') by (apply perform_change; auto). assert (Ct : counted m o m') by (apply N; apply in_or_app; right; left; auto).
    assert (L : forall l : list (Z * nat), length (map fst l) = length l) by (intro; apply map_length).
    unfold ids in *. cbn [book_of b_table] in *. destruct Ct as [C1 C2]. unfold ids in C2. cbn [book_of b_table] in C2.
    assert (Fr : forall c, nth_error (callObjs m') (length (callObjs m)) = Some c -> ~ In (c_id c) (map fst (activeCalls m))).
    { intros c Hc. destruct C as [Fl E|c0 E A En Or|n c0 Hc0 Fl W Or].
      - exfalso. assert (X : (length (callObjs m) < length (callObjs m'))%nat) by (apply nth_error_Some; congruence). rewrite (proj1 Fl) in X. lia.
      - rewrite E, nth_error_app2, Nat.sub_diag in Hc by lia. injection Hc as <-. destruct Or as [(nb & cb & ->)|Or]; [destruct (C1 nb cb eq_refl)|]. rewrite I, Or, count_up_in. lia.
      - exfalso. assert (X : (length (callObjs m) < length (callObjs m'))%nat) by (apply nth_error_Some; congruence). rewrite (proj1 Fl) in X. lia. }
    split.
    + destruct C as [Fl E|c0 E A En Or|n c0 Hc0 Fl W Or].
      * rewrite E. auto.
      * assert (X : ~ In (c_id c0) (map fst (activeCalls m))) by (apply Fr; rewrite E, nth_error_app2, Nat.sub_diag by lia; auto).
        rewrite (entered_fresh _ _ _ _ En X), map_app, app_length. cbn [map fst length]. rewrite Nat.add_1_r, count_up_next, <- I. destruct Or as [(nb & cb & ->)|Or]; [destruct (C1 nb cb eq_refl)|rewrite Or; auto].
      * destruct (without_last _ _ _ W (proj1 Sd) C2) as [E|(a & Ea & Ea')].
        -- rewrite <- (L (activeCalls m')), E, L. auto.
        -- rewrite <- (L (activeCalls m')), Ea'. rewrite <- L, Ea, app_length, Nat.add_1_r, count_up_next in I. apply app_inj_tail in I as [I _]. auto.
    + intros m1 o1 m2 c In1 Hc. apply in_app_or in In1 as [In1|[In1|[]]]; eauto. injection In1 as <- <- <-. auto.
  - destruct (IH N) as [I F]. unfold ids in *. cbn in *. rewrite E2. auto.
Qed.
