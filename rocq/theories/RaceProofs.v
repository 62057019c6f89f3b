(** Proofs about calls and several threads. *)
From Verif Require Import Base ModemCore SmsModel CallModel TrackProofs BookSpec BookProofs RaceModel RaceSpec.

(** ** Single steps *)
Definition thread_step (i : nat) (p : phone) (t : thread) (p' : phone) (t' : thread) (l : label) : Prop :=
  go i p t = Some (p', t', l) \/ (exists x, written i t x = Some (t', l) /\ p' = p) \/ (exists o, blurred i p t o = Some (t', l) /\ p' = p).
Lemma act_inv s a s' l : act s a = Some (s', l) ->
  (exists t, begins (sy_phone s) t = true /\ s' = mk_system (sy_phone s) (sy_threads s ++ [t]) /\ l = LStart (length (sy_threads s)) t) \/
  exists i t t' p', nth_error (sy_threads s) i = Some t /\ thread_step i (sy_phone s) t p' t' l /\ s' = mk_system p' (update (sy_threads s) i (fun _ => t')).
Proof.
  unfold act. intro H. destruct a as [t|i|i x|i o].
  - left. destruct (begins _ t) eqn:B; [|discriminate]. injection H as <- <-. eauto.
  - right. destruct (nth_error _ i) as [t|] eqn:N; [|discriminate]. destruct (go _ _ t) as [[[p' t'] l']|] eqn:G; [|discriminate]. injection H as <- <-. exists i, t, t', p'. split; auto. split; auto. left. auto.
  - right. destruct (nth_error _ i) as [t|] eqn:N; [|discriminate]. destruct (written _ t x) as [[t' l']|] eqn:G; [|discriminate]. injection H as <- <-. exists i, t, t', (sy_phone s). split; auto. split; auto. right. left. eauto.
  - right. destruct (nth_error _ i) as [t|] eqn:N; [|discriminate]. destruct (blurred _ _ t o) as [[t' l']|] eqn:G; [|discriminate]. injection H as <- <-. exists i, t, t', (sy_phone s). split; auto. split; auto. right. right. eauto.
Qed.
Lemma call_at_is p n c : nth_error (p_calls p) n = Some c -> call_at p n = c.
Proof. intro H. unfold call_at. rewrite (nth_error_nth _ _ _ H). auto. Qed.
Lemma call_at_alter p n f k : (n < length (p_calls p))%nat -> call_at (alter n f p) k = if Nat.eqb n k then f (call_at p k) else call_at p k.
Proof.
  intro L. unfold call_at, alter. cbn. destruct (Nat.eqb_spec n k) as [->|N].
  - destruct (nth_error (p_calls p) k) as [c|] eqn:E; [|apply nth_error_None in E; lia]. rewrite (nth_error_nth _ _ no_call E). apply nth_error_nth. rewrite update_nth, Nat.eqb_refl, E. auto.
  - destruct (nth_error (p_calls p) k) as [c|] eqn:E.
    + rewrite (nth_error_nth _ _ no_call E). apply nth_error_nth. rewrite update_nth. destruct (Nat.eqb_spec n k); congruence.
    + rewrite !nth_overflow; auto; [apply nth_error_None; auto|]. rewrite update_length. apply nth_error_None. auto.
Qed.

(** what a step does to the calls and the table *)
Definition plain (i : nat) (l : label) : Prop :=
  match l with LStart _ _ | LGone _ _ _ | LEntered _ _ _ => False | _ => by_thread l = i end.
Definition tame (f : call -> call) : Prop := forall c, same_party c (f c) /\ (c_active (f c) = true -> c_active c = true).
Inductive effect (i : nat) (p : phone) : phone -> label -> Prop :=
| ef_same l : plain i l -> effect i p p l
| ef_alter n f l : tame f -> plain i l -> effect i p (alter n f p) l
| ef_enter c : c_active c = true -> effect i p (enter c p) (LEntered i (c_id c) (length (p_calls p)))
| ef_gone id n : zget (p_table p) id = Some n -> effect i p (remove id p) (LGone i id n).
Lemma tame_answered b : tame (with_answered b). Proof. intro c. repeat split; auto. Qed.
Lemma tame_active : tame (with_active false). Proof. intro c. repeat split; auto. cbn. discriminate. Qed.
Lemma tame_ringing b : tame (with_ringing b). Proof. intro c. repeat split; auto. Qed.
Lemma tame_count k : tame (with_ringCount k). Proof. intro c. repeat split; auto. Qed.
#[export] Hint Resolve tame_answered tame_active tame_ringing tame_count : race.
Lemma mark_effect i n b p p' l : mark i n b p = (p', l) -> effect i p p' l.
Proof. unfold mark. intro H. injection H as <- <-. apply ef_alter; [apply tame_answered|]. destruct (c_callback _); reflexivity. Qed.
Lemma delete_effect i id p p' x l : delete i id p = (p', x, l) -> effect i p p' l.
Proof. unfold delete. destruct (zget _ id) as [n|] eqn:E; intro H; injection H as <- <- <-; [apply ef_gone; auto|apply ef_same; reflexivity]. Qed.
Ltac case_of H := match type of H with context [match ?x with _ => _ end] => first [is_var x; destruct x|destruct x eqn:?] end.
Ltac split_step H := repeat (try discriminate H; match type of H with Some _ = Some _ => fail 1 | _ => case_of H end).
Lemma step_effect i p t p' t' l : thread_step i p t p' t' l -> effect i p p' l.
Proof.
  intros [H|[(x & H & ->)|(o & H & ->)]].
  - destruct t as [st|st|n st|n st|nb ty st|nb cb st]; cbn [go] in H.
    + destruct (end_go i p st) as [[[p1 st1] l1]|] eqn:G; [|discriminate]. injection H as <- _ <-.
      destruct st; cbn [end_go] in G; try discriminate; split_step G; injection G as <- <- <-; try (apply ef_same; reflexivity); eauto using mark_effect, delete_effect. apply ef_alter; auto with race. reflexivity.
    + destruct (answered_go i p st) as [[[p1 st1] l1]|] eqn:G; [|discriminate]. injection H as <- _ <-.
      destruct st; cbn [answered_go] in G; try discriminate; split_step G; injection G as <- <- <-; try (apply ef_same; reflexivity); eauto using mark_effect.
    + destruct (hang_go i n p st) as [[[p1 st1] l1]|] eqn:G; [|discriminate]. injection H as <- _ <-.
      destruct st; cbn [hang_go] in G; try discriminate; split_step G; injection G as <- <- <-; try (destruct (c_incoming _)); try (apply ef_same; reflexivity); try (apply ef_alter; auto with race; reflexivity); eauto using mark_effect, delete_effect.
    + destruct (pick_go i n p st) as [[[p1 st1] l1]|] eqn:G; [|discriminate]. injection H as <- _ <-.
      destruct st; cbn [pick_go] in G; try discriminate; split_step G; injection G as <- <- <-; try (apply ef_same; reflexivity); try (apply ef_alter; auto with race; reflexivity); eauto using mark_effect.
    + destruct (ring_go i nb ty p st) as [[[p1 st1] l1]|] eqn:G; [|discriminate]. injection H as <- _ <-.
      destruct st; cbn [ring_go] in G; try discriminate; split_step G; injection G as <- <- <-; try (apply ef_same; reflexivity); try (apply ef_alter; auto with race; reflexivity).
      match goal with E : new_incoming _ _ _ = Ok ?c |- _ => pose proof (new_incoming_ok _ _ _ _ E) as [<- A] end. apply ef_enter. auto.
    + destruct (dial_go i nb cb p st) as [[[p1 st1] l1]|] eqn:G; [|discriminate]. injection H as <- _ <-.
      destruct st; cbn [dial_go] in G; try discriminate; injection G as <- <- <-; try (apply ef_same; reflexivity). apply (ef_enter i p (new_call id ty nb cb)). reflexivity.
  - apply ef_same. destruct t; cbn in H; try discriminate; destruct st; cbn in H; try discriminate; injection H as _ <-; reflexivity.
  - apply ef_same. destruct t; cbn in H; try discriminate; destruct st; cbn in H; try discriminate; split_step H; injection H as _ <-; reflexivity.
Qed.

(** ** What never comes back *)
Lemma effect_call i p p' l n c : effect i p p' l -> nth_error (p_calls p) n = Some c ->
  exists c', nth_error (p_calls p') n = Some c' /\ same_party c c' /\ (c_active c' = true -> c_active c = true).
Proof.
  intros [l0 _|k f l0 T _|c0 _|id k _] H; cbn.
  - exists c. repeat split; auto.
  - rewrite update_nth. destruct (Nat.eqb k n); [rewrite H; cbn; exists (f c)|exists c]; repeat split; auto; apply T.
  - exists c. rewrite nth_error_app1; [repeat split; auto|]. apply nth_error_Some. congruence.
  - exists c. repeat split; auto.
Qed.
Lemma zset_in {A} (t : list (Z * A)) k x e : In e (zset t k x) -> e = (k, x) \/ In e t.
Proof.
  induction t as [|[j y] t IH]; cbn; [intuition|]. destruct (Z.eqb_spec j k) as [->|N]; cbn; intuition.
Qed.
Lemma effect_listed i p p' l id n : effect i p p' l -> (n < length (p_calls p))%nat -> In (id, n) (p_table p') -> In (id, n) (p_table p).
Proof.
  intros [l0 _|k f l0 T _|c0 _|id' k _] L; cbn; auto.
  - intro I. apply zset_in in I as [I|I]; auto. injection I as _ ->. lia.
  - intro I. apply (without_in _ _ _ (zdel_without _ _)) in I as [I _]. auto.
Qed.
Lemma effect_grows i p p' l : effect i p p' l -> (length (p_calls p) <= length (p_calls p'))%nat.
Proof. intros []; cbn; auto; rewrite ?update_length, ?app_length; cbn; lia. Qed.
Lemma same_party_trans a b c : same_party a b -> same_party b c -> same_party a c.
Proof. unfold same_party. intuition congruence. Qed.
Lemma run_keeps s ls s' n c : run s ls s' -> has_call s n c ->
  exists c', has_call s' n c' /\ same_party c c' /\ (c_active c' = true -> c_active c = true) /\ forall id, listed s' id n -> listed s id n.
Proof.
  induction 1 as [|ls s1 a s2 l H IH A]; intro C; [exists c; repeat split; auto|]. destruct (IH C) as (c1 & C1 & S1 & A1 & L1).
  destruct (act_inv _ _ _ _ A) as [(t & _ & -> & _)|(i & t & t' & p' & _ & St & ->)].
  - exists c1. repeat split; auto; apply S1.
  - apply step_effect in St. unfold has_call, listed in *. cbn [sy_phone] in *. destruct (effect_call _ _ _ _ _ _ St C1) as (c2 & C2 & S2 & A2). exists c2.
    split; auto. split; [eapply same_party_trans; eauto|]. split; auto. intros id I. apply L1. eapply effect_listed; eauto. apply nth_error_Some. congruence.
Qed.
Lemma indexed_step s a s' l : indexed s -> act s a = Some (s', l) -> indexed s'.
Proof.
  intros [Nd Ix] A. destruct (act_inv _ _ _ _ A) as [(t & _ & -> & _)|(i & t & t' & p' & _ & St & ->)]; [split; auto|]. apply step_effect in St.
  unfold indexed, listed, has_call in *. cbn [sy_phone] in *.
  assert (O : forall id n, In (id, n) (p_table (sy_phone s)) -> exists c, nth_error (p_calls p') n = Some c /\ c_id c = id).
  { intros id n I. destruct (Ix _ _ I) as (c & C & E). destruct (effect_call _ _ _ _ _ _ St C) as (c' & C' & (S' & _) & _). exists c'. split; auto. congruence. }
  inversion St as [l0 Pl E1 E2|k f l0 T Pl E1 E2|c0 Ac E1 E2|id k Z0 E1 E2]; subst; auto.
  - cbn [enter p_table p_calls]. split; [eapply entered_nodup; [apply zset_entered|auto]|]. intros id n I. apply zset_in in I as [I|I]; [|apply O; auto]. injection I as -> ->.
    exists c0. rewrite nth_error_app2, Nat.sub_diag by lia. auto.
  - cbn [remove p_table p_calls]. split; [eapply without_nodup; [apply zdel_without|auto]|]. intros j n I. apply (without_in _ _ _ (zdel_without _ _)) in I as [I _]. apply O. auto.
Qed.
Lemma indexed_run s ls s' : indexed s -> run s ls s' -> indexed s'.
Proof. intros I R. induction R as [|ls s1 a s2 l H IH A]; auto. eapply indexed_step; eauto. Qed.
