(** Proofs about calls and several threads: what holds in all executions. *)
From Verif Require Import Base ModemCore SmsModel CallModel TrackProofs ModemSpec BookSpec BookProofs RaceModel RaceSpec RaceProofs.

(** [i] has found nothing yet; it has found [n] under [id], where something still is unless another thread has removed it *)
Definition unfound (i : nat) (ls : list label) : Prop := forall id n, ~ In (LFound i id n) ls.
Definition found (ls : list label) (s : system) (i : nat) (id : Z) (n : nat) : Prop :=
  In (LFound i id n) ls /\ (forall id' n', In (LFound i id' n') ls -> id' = id /\ n' = n) /\ (exists c, has_call s n c /\ c_id c = id) /\ ((exists m, listed s id m) \/ robbed i id n ls).
Definition end_ok (ls : list label) (s : system) (i : nat) (st : end_stage) : Prop :=
  match st with
  | ESearch _ | ELoop _ _ | ELook _ _ _ | ETest _ => unfound i ls
  | EGet1 id | EUnanswer id _ | EGet2 id | EStop id _ | EDel id => exists n, found ls s i id n
  | EOver x => (x = Fine \/ x = SizeChanged) /\ unfound i ls \/
      exists id n, In (LFound i id n) ls /\ (forall id' n', In (LFound i id' n') ls -> id' = id /\ n' = n) /\ (exists c, has_call s n c /\ c_id c = id) /\ (forall id', ~ listed s id' n) /\
        (x = Fine \/ x = Raised KeyError /\ robbed i id n ls)
  end.
Definition hang_ok (ls : list label) (s : system) (i n : nat) (st : hang_stage) : Prop :=
  exists c, has_call s n c /\
  match st with
  | HIn => c_active c = false
  | HDel => c_active c = false /\ exists m, In (LFound i (c_id c) m) ls /\ ((exists k, listed s (c_id c) k) \/ robbed i (c_id c) m ls)
  | HOver x => (exists e, x = Raised e /\ In (LWrote i (lit "ATH") (Err e)) ls) \/
      (c_active c = false /\ (forall id, ~ listed s id n) /\ (x = Fine \/ x = Raised KeyError /\ exists m, robbed i (c_id c) m ls))
  | _ => True
  end.
Definition answered_ok (st : answered_stage) : Prop := match st with AOver x => x = Fine \/ x = Raised KeyError \/ x = SizeChanged | _ => True end.
Definition pick_ok (ls : list label) (i : nat) (st : pick_stage) : Prop :=
  match st with POver x => x = Fine \/ exists e, x = Raised e /\ In (LWrote i (lit "ATA") (Err e)) ls | _ => True end.
(** a call from a number *)
Definition from (s : system) (number : option str) (n : nat) : Prop := exists c, has_call s n c /\ c_incoming c = true /\ c_number c = number.
Definition ring_ok (ls : list label) (s : system) (i : nat) (number : option str) (st : ring_stage) : Prop :=
  match st with
  | RSearch | RLen | REnter _ => told_by i ls = []
  | RLoop _ f => told_by i ls = [] /\ forall n, f = Some n -> from s number n
  | RLook _ f n => told_by i ls = [] /\ (forall n, f = Some n -> from s number n) /\ exists c, has_call s n c
  | RCount _ n _ => told_by i ls = [] /\ from s number n
  | RTell n => told_by i ls = [] /\ from s number n
  | ROver x => (x = Fine /\ exists n, told_by i ls = [n] /\ from s number n) \/ (told_by i ls = [] /\ (x = SizeChanged \/ x = Raised AttributeError \/ x = Raised KeyError))
  end.
Definition dial_ok (ls : list label) (s : system) (i : nat) (number : str) (cb : bool) (st : dial_stage) : Prop :=
  match st with
  | DOver n => exists id c, In (LEntered i id n) ls /\ has_call s n c /\ c_id c = id /\ c_incoming c = false /\ c_number c = Some number /\ c_callback c = cb
  | _ => True
  end.
Definition ok (ls : list label) (s : system) (i : nat) (t : thread) : Prop :=
  match t with
  | TEnd st => end_ok ls s i st
  | TAnswered st => answered_ok st
  | THang n st => hang_ok ls s i n st
  | TPick _ st => pick_ok ls i st
  | TRing nb _ st => ring_ok ls s i nb st
  | TDial nb cb st => dial_ok ls s i nb cb st
  end.

(** ** What others do *)
(** from [s] to [s'], with the step [l] of another thread *)
Record next (i : nat) (s : system) (l : label) (s' : system) : Prop := {
  nx_calls : forall n c, has_call s n c -> exists c', has_call s' n c' /\ same_party c c' /\ (c_active c' = true -> c_active c = true);
  nx_listed : forall id n c, has_call s n c -> listed s' id n -> listed s id n;
  nx_under : forall id, (exists m, listed s id m) -> (exists m, listed s' id m) \/ exists j m, l = LGone j id m /\ j <> i;
  nx_by : by_thread l <> i }.
Lemma zset_under {A} (t : list (Z * A)) k x id : (exists m, In (id, m) t) -> exists m, In (id, m) (zset t k x).
Proof.
  intros (m & I). induction t as [|[j y] t IH]; cbn in *; [contradiction|]. destruct (Z.eqb_spec j k) as [->|N]; cbn.
  - destruct I as [I|I]; [injection I as -> ->; eauto|eauto].
  - destruct I as [I|I]; [injection I as -> ->; eauto|]. destruct (IH I) as (m' & I'). eauto.
Qed.
Lemma next_act s a s' l i : act s a = Some (s', l) -> by_thread l <> i -> next i s l s'.
Proof.
  intros A B. destruct (act_inv _ _ _ _ A) as [(t & _ & -> & ->)|(j & t & t' & p' & _ & St & ->)].
  - split; auto; try (intros n c H; exists c; repeat split; auto).
  - apply step_effect in St. split; auto; unfold has_call, listed; cbn [sy_phone].
    + intros n c H. eapply effect_call; eauto.
    + intros id n c H L. eapply effect_listed; eauto. apply nth_error_Some. congruence.
    + intros id U. inversion St as [l0 Pl E1 E2|k f l0 T Pl E1 E2|c0 Ac E1 E2|id' k Z0 E1 E2]; subst; auto.
      * left. apply zset_under. auto.
      * destruct (Z.eq_dec id' id) as [->|N]; [right; exists j, k; auto|]. left. destruct U as (m & I). exists m. cbn. apply (without_in _ _ _ (zdel_without _ _)). auto.
Qed.
Lemma from_next i s l s' nb n : next i s l s' -> from s nb n -> from s' nb n.
Proof. intros N (c & H & I & E). destruct (nx_calls _ _ _ _ N _ _ H) as (c' & H' & S & _). exists c'. repeat split; auto; [transitivity (c_incoming c); [apply S|auto]|transitivity (c_number c); [apply S|auto]]. Qed.
Lemma rings_app i l1 l2 : told_by i (l1 ++ l2) = told_by i l1 ++ told_by i l2.
Proof. induction l1 as [|l l1 IH]; auto. destruct l; cbn; auto. destruct (Nat.eqb _ _); cbn; auto. f_equal; auto. Qed.
Lemma rings_other i l ls : by_thread l <> i -> told_by i (ls ++ [l]) = told_by i ls.
Proof. intro B. rewrite rings_app. destruct l; cbn in *; rewrite ?app_nil_r; auto. destruct (Nat.eqb_spec i0 i); [contradiction|]. apply app_nil_r. Qed.
Lemma rings_plain i l ls : (forall n, l <> LRing i n) -> told_by i (ls ++ [l]) = told_by i ls.
Proof. intro B. rewrite rings_app. destruct l; cbn in *; rewrite ?app_nil_r; auto. destruct (Nat.eqb_spec i0 i) as [->|N]; [exfalso; eapply B; reflexivity|]. apply app_nil_r. Qed.
Lemma robbed_app i id n ls l : robbed i id n ls -> robbed i id n (ls ++ [l]).
Proof. intros (l1 & l2 & j & m & -> & N & I). exists l1, (l2 ++ [l]), j, m. rewrite <- app_assoc. cbn. split; auto. split; auto. apply in_or_app. auto. Qed.
Lemma robbed_new i id n ls j m : In (LFound i id n) ls -> j <> i -> robbed i id n (ls ++ [LGone j id m]).
Proof. intros I N. apply in_split in I as (l1 & l2 & ->). exists l1, (l2 ++ [LGone j id m]), j, m. rewrite <- app_assoc. cbn. split; auto. split; auto. apply in_or_app. cbn. auto. Qed.
Lemma found_other i l ls id n : by_thread l <> i -> In (LFound i id n) (ls ++ [l]) -> In (LFound i id n) ls.
Proof. intros B I. apply in_app_or in I as [I|[->|[]]]; auto. exfalso. apply B. reflexivity. Qed.
Lemma found_next ls s i id n l s' : next i s l s' -> found ls s i id n -> found (ls ++ [l]) s' i id n.
Proof.
  intros Nx (F & U & (c & H & E) & K). split; [apply in_or_app; auto|]. split; [|split].
  - intros id' n' I. apply U. eapply found_other; eauto. apply Nx.
  - destruct (nx_calls _ _ _ _ Nx _ _ H) as (c' & H' & S & _). exists c'. split; auto. transitivity (c_id c); auto. apply S.
  - destruct K as [K|K]; [|right; apply robbed_app; auto]. destruct (nx_under _ _ _ _ Nx _ K) as [K'|(j & m & -> & N)]; auto. right. apply robbed_new; auto.
Qed.
Lemma ok_next ls s i t l s' : next i s l s' -> ok ls s i t -> ok (ls ++ [l]) s' i t.
Proof.
  intros Nx H. pose proof (nx_by _ _ _ _ Nx) as B.
  assert (UF : unfound i ls -> unfound i (ls ++ [l])). { intros U id n I. eapply U, found_other; eauto. }
  destruct t as [st|st|n st|n st|nb ty st|nb cb st]; cbn [ok] in *; auto.
  - destruct st; cbn [end_ok] in *; auto; try (destruct H as (k & H); exists k; eapply found_next; eauto).
    destruct H as [[X U]|(id & n & F & U & (c & C & E) & G & X)]; [left; auto|]. right. exists id, n. split; [apply in_or_app; auto|]. split; [|split; [|split]].
    + intros id' n' I. apply U. eapply found_other; eauto.
    + destruct (nx_calls _ _ _ _ Nx _ _ C) as (c' & C' & S & _). exists c'. split; auto. transitivity (c_id c); auto. apply S.
    + intros id' L. eapply G, nx_listed; eauto.
    + destruct X as [X|[X R]]; auto using robbed_app.
  - destruct H as (c & C & H). destruct (nx_calls _ _ _ _ Nx _ _ C) as (c' & C' & (S & _) & A). exists c'. split; auto.
    assert (IA : c_active c = false -> c_active c' = false). { intro. destruct (c_active c'); auto. rewrite A in *; auto. }
    destruct st; auto.
    + destruct H as (Ia & m & F & K). split; auto. exists m. rewrite S. split; [apply in_or_app; auto|]. destruct K as [K|K]; [|right; apply robbed_app; auto]. destruct (nx_under _ _ _ _ Nx _ K) as [K'|(j & m' & -> & N)]; auto. right. apply robbed_new; auto.
    + destruct H as [(e & -> & W)|(Ia & G & X)]; [left; exists e; split; auto; apply in_or_app; auto|]. right. split; auto. split; [intros id L; eapply G, nx_listed; eauto|].
      destruct X as [X|[X (m & R)]]; auto. right. split; auto. exists m. rewrite S. apply robbed_app. auto.
  - destruct st; cbn [pick_ok] in *; auto. destruct H as [H|(e & -> & W)]; auto. right. exists e. split; auto. apply in_or_app. auto.
  - pose proof (fun k => from_next i s l s' nb k Nx) as FN. destruct st; cbn [ring_ok] in *; rewrite ?rings_other by auto; auto.
    + destruct H. split; eauto.
    + destruct H as (R & F & (c & C)). split; auto. split; eauto. destruct (nx_calls _ _ _ _ Nx _ _ C) as (c' & C' & _). eauto.
    + destruct H; split; eauto.
    + destruct H; split; eauto.
    + destruct H as [(E & n & R & F)|H]; auto. left. split; auto. exists n. split; eauto.
  - destruct st; cbn [dial_ok] in *; auto. destruct H as (id & c & L & C & E1 & E2 & E3 & E4). destruct (nx_calls _ _ _ _ Nx _ _ C) as (c' & C' & (S1 & S2 & S3 & S4 & S5) & _).
    exists id, c'. split; [apply in_or_app; auto|]. repeat split; congruence.
Qed.

(** ** What a thread does itself *)
Lemma list_eqb_is {A} (e : A -> A -> bool) : (forall x y, e x y = true -> x = y) -> forall a b, list_eqb e a b = true -> a = b.
Proof. intros H. induction a as [|x a IH]; intros [|y b] E; cbn in E; try discriminate; auto. apply andb_prop in E as [E1 E2]. f_equal; auto. Qed.
Lemma entry_eqb_is a b : entry_eqb a b = true -> a = b.
Proof. destruct a, b. unfold entry_eqb. cbn. intro E. apply andb_prop in E as [E1 E2]. apply Z.eqb_eq in E1. apply Nat.eqb_eq in E2. congruence. Qed.
Lemma turn_listed p l n : next_turn p l = Yields n -> exists id, In (id, n) (p_table p).
Proof.
  unfold next_turn. destruct (Nat.eqb _ _); [|discriminate]. destruct (list_eqb _ _ _) eqn:E; [|discriminate]. apply (list_eqb_is _ entry_eqb_is) in E.
  destruct (nth_error _ _) as [[id k]|] eqn:N; [|discriminate]. intro H. injection H as <-. exists id. rewrite E. eapply nth_error_In; eauto.
Qed.
Lemma known_listed (t : list (Z * nat)) n : existsb (fun e => Nat.eqb (snd e) n) t = true -> exists id, In (id, n) t.
Proof. intro H. apply existsb_exists in H as ([id k] & I & E). apply Nat.eqb_eq in E. cbn in E. subst. eauto. Qed.
Lemma opt_str_is (a b : option str) : opt_str_eqb a b = true -> a = b.
Proof. unfold opt_str_eqb. destruct a, b; try discriminate; auto. intro E. f_equal. apply (list_eqb_is Z.eqb); auto. intros x y. apply Z.eqb_eq. Qed.
Lemma zget_listed s id n : zget (p_table (sy_phone s)) id = Some n -> listed s id n.
Proof. apply zget_in. Qed.
Lemma zget_unlisted s id : zget (p_table (sy_phone s)) id = None -> forall n, ~ listed s id n.
Proof. intros E n I. apply zget_none in E. apply E. apply in_map_iff. exists (id, n). auto. Qed.
Lemma incoming_is number id ty c : new_incoming number id ty = Ok c -> c_number c = number /\ c_incoming c = true.
Proof. unfold new_incoming. destruct ty as [s|]; cbn; [destruct (str_eqb _ _); [|discriminate]|]; intro H; injection H as <-; auto. Qed.
Lemma incoming_error number id ty e : new_incoming number id ty = Err e -> e = KeyError.
Proof. unfold new_incoming. destruct ty as [s|]; cbn; [destruct (str_eqb _ _); [discriminate|]|discriminate]. intro H. injection H as <-. auto. Qed.

Section Own.
Context (ls : list label) (s : system) (i : nat) (Ix : indexed s).
Lemma unfound_quiet l : unfound i ls -> (forall id n, l <> LFound i id n) -> unfound i (ls ++ [l]).
Proof. intros U N id n I. apply in_app_or in I as [I|[I|[]]]; [eapply U; eauto|eapply N; eauto]. Qed.
Lemma found_quiet id n l s' : found ls s i id n -> (forall id n, l <> LFound i id n) ->
  (forall c, has_call s n c -> exists c', has_call s' n c' /\ c_id c' = c_id c) -> (forall m, listed s id m -> listed s' id m) -> found (ls ++ [l]) s' i id n.
Proof.
  intros (F & U & (c & H & E) & K) N C L. split; [apply in_or_app; auto|]. split; [|split].
  - intros id' n' I. apply in_app_or in I as [I|[I|[]]]; [apply U; auto|exfalso; eapply N; eauto].
  - destruct (C _ H) as (c' & H' & E'). exists c'. split; auto. congruence.
  - destruct K as [(m & K)|K]; [left; eauto|right; apply robbed_app; auto].
Qed.
Lemma found_missing id n : found ls s i id n -> (forall m, ~ listed s id m) -> (forall id', ~ listed s id' n) /\ robbed i id n ls.
Proof.
  intros (F & U & (c & H & E) & K) N. split.
  - intros id' L. destruct (proj2 Ix _ _ L) as (c' & H' & E'). assert (c' = c) as -> by (unfold has_call in *; congruence). rewrite <- E', E in L. eapply N; eauto.
  - destruct K as [(m & K)|K]; auto. exfalso. eapply N; eauto.
Qed.
Definition sys (p : phone) : system := mk_system p (sy_threads s).
Lemma alter_call n f k c : tame f -> has_call s k c -> exists c', has_call (sys (alter n f (sy_phone s))) k c' /\ c_id c' = c_id c.
Proof. intros T H. destruct (effect_call i _ _ (LQuiet i) _ _ (ef_alter i (sy_phone s) n f (LQuiet i) T eq_refl) H) as (c' & H' & (S & _) & _). exists c'. auto. Qed.
Lemma mark_found n0 b p' l id n : mark i n0 b (sy_phone s) = (p', l) -> found ls s i id n -> found (ls ++ [l]) (sys p') i id n.
Proof.
  intros M F. unfold mark in M. injection M as <- <-. apply found_quiet; auto.
  - intros. destruct (c_callback _); discriminate.
  - intros c H. apply alter_call; auto with race.
Qed.
Lemma remove_listed id s' : sy_phone s' = remove id (sy_phone s) -> forall j n, listed s' j n <-> listed s j n /\ j <> id.
Proof. intros E j n. unfold listed. rewrite E. cbn. apply (without_in _ _ _ (zdel_without _ _)). Qed.

Lemma same_found id n l : found ls s i id n -> (forall id n, l <> LFound i id n) -> found (ls ++ [l]) (sys (sy_phone s)) i id n.
Proof. intros F N. apply found_quiet; auto. intros c H. exists c. auto. Qed.
Lemma end_over_found id n l x : found ls s i id n -> (forall m, ~ listed s id m) -> (forall id n, l <> LFound i id n) -> x = Raised KeyError -> end_ok (ls ++ [l]) (sys (sy_phone s)) i (EOver x).
Proof.
  intros F N Q ->. destruct (found_missing _ _ F N) as [G R]. destruct F as (F & U & C & K). right. exists id, n. split; [apply in_or_app; auto|]. split; [|split; [exact C|split; [exact G|]]].
  - intros id' n' I. apply in_app_or in I as [I|[I|[]]]; [apply U; auto|exfalso; eapply Q; eauto].
  - right. split; auto. apply robbed_app. auto.
Qed.
Lemma end_own st p' st' l : end_go i (sy_phone s) st = Some (p', st', l) -> end_ok ls s i st -> end_ok (ls ++ [l]) (sys p') i st'.
Proof.
  intros G H. assert (Q : forall id n, LQuiet i <> LFound i id n) by discriminate.
  destruct st; cbn [end_go] in G; cbn [end_ok] in H.
  - injection G as <- <- <-. cbn. apply unfound_quiet; auto.
  - destruct (next_turn _ _); cbn [end_turn] in G; try discriminate; injection G as <- <- <-; cbn; try (left; split; auto); apply unfound_quiet; auto.
  - destruct (_ && _) in G; injection G as <- <- <-; cbn; apply unfound_quiet; auto.
  - destruct (id =? 0); [injection G as <- <- <-; cbn; left; split; auto; apply unfound_quiet; auto|].
    destruct (zget _ id) as [n|] eqn:E; injection G as <- <- <-; [|cbn; left; split; auto; apply unfound_quiet; auto]. apply zget_listed in E. exists n. split; [apply in_or_app; cbn; auto|]. split; [|split].
    + intros id' n' I. apply in_app_or in I as [I|[I|[]]]; [exfalso; eapply H; eauto|injection I as <- <-; auto].
    + destruct (proj2 Ix _ _ E) as (c & C & X). exists c. auto.
    + left. exists n. auto.
  - destruct H as (k & F). destruct (zget _ id) as [n|] eqn:E; injection G as <- <- <-; [exists k; apply same_found; auto|]. eapply end_over_found; eauto. apply zget_unlisted. auto.
  - destruct H as (k & F). destruct (mark i n false (sy_phone s)) as [p1 l1] eqn:M. injection G as <- <- <-. exists k. eapply mark_found; eauto.
  - destruct H as (k & F). destruct (zget _ id) as [n|] eqn:E; injection G as <- <- <-; [exists k; apply same_found; auto|]. eapply end_over_found; eauto. apply zget_unlisted. auto.
  - destruct H as (k & F). injection G as <- <- <-. exists k. apply found_quiet; auto. intros c C. apply alter_call; auto with race.
  - destruct H as (k & F). unfold delete in G. destruct (zget _ id) as [n|] eqn:E; injection G as <- <- <-; [|eapply end_over_found; eauto; apply zget_unlisted; auto].
    destruct F as (F & U & (c & C & Ec) & K). right. exists id, k. split; [apply in_or_app; auto|]. split; [|split; [exists c; auto|split; auto]].
    + intros id' n' I. apply in_app_or in I as [I|[I|[]]]; [apply U; auto|discriminate].
    + intros id' L. apply (remove_listed id) in L as [L N]; auto. destruct (proj2 Ix _ _ L) as (c' & C' & E'). apply N. rewrite <- E', <- Ec. unfold has_call in *. congruence.
  - discriminate.
Qed.
Lemma hang_own n st p' st' l : hang_go i n (sy_phone s) st = Some (p', st', l) -> hang_ok ls s i n st -> hang_ok (ls ++ [l]) (sys p') i n st'.
Proof.
  intros G (c & C & H). pose proof (call_at_is _ _ _ C) as Ec. assert (AL : forall f, tame f -> exists c', has_call (sys (alter n f (sy_phone s))) n c' /\ c_id c' = c_id c) by (intros; apply alter_call; auto).
  destruct st; cbn [hang_go] in G; try discriminate.
  - injection G as <- <- <-. destruct (c_incoming _); [|exists c; auto]. destruct (AL (with_ringing false)) as (c' & C' & _); [auto with race|]. exists c'. auto.
  - injection G as <- <- <-. exists c. split; auto. rewrite Ec. destruct (c_active c) eqn:A; auto.
  - unfold mark in G. injection G as <- <- <-. destruct (AL (with_answered false)) as (c' & C' & _); [auto with race|]. exists c'. auto.
  - injection G as <- <- <-. exists (with_active false c). split; auto. unfold has_call, sys, alter. cbn. rewrite update_nth, Nat.eqb_refl, C. auto.
  - rewrite Ec in G. destruct (zget _ (c_id c)) as [m|] eqn:E; injection G as <- <- <-; exists c; (split; [exact C|]).
    + split; auto. exists m. split; [apply in_or_app; cbn; auto|]. left. exists m. apply zget_listed. auto.
    + right. split; auto. split; auto. intros id L. destruct (proj2 Ix _ _ L) as (c' & C' & E'). apply (zget_unlisted _ _ E n). assert (c' = c) as -> by (unfold has_call in *; congruence). rewrite E'. exact L.
  - rewrite Ec in G. destruct H as (Ia & m & F & K). unfold delete in G. destruct (zget _ (c_id c)) as [k|] eqn:E; injection G as <- <- <-; exists c; (split; [exact C|]); right; (split; [auto|]).
    + split; auto. intros id L. apply (remove_listed (c_id c)) in L as [L N]; auto. destruct (proj2 Ix _ _ L) as (c' & C' & E'). apply N. rewrite <- E'. unfold has_call in *. congruence.
    + split.
      * intros id L. destruct (proj2 Ix _ _ L) as (c' & C' & E'). apply (zget_unlisted _ _ E n). assert (c' = c) as -> by (unfold has_call in *; congruence). rewrite E'. exact L.
      * right. split; auto. exists m. apply robbed_app. destruct K as [(k & K)|K]; auto. exfalso. eapply zget_unlisted; eauto.
Qed.
Lemma from_alter nb n f k : tame f -> from s nb k -> from (sys (alter n f (sy_phone s))) nb k.
Proof.
  intros T (c & H & A & B). destruct (effect_call i _ _ (LQuiet i) _ _ (ef_alter i (sy_phone s) n f (LQuiet i) T eq_refl) H) as (c' & H' & (S1 & S2 & S3 & S4 & S5) & _). exists c'. repeat split; auto; congruence.
Qed.
Lemma ring_turn_ok nb l f t st' : told_by i ls = [] -> (forall n, f = Some n -> from s nb n) -> (forall n, t = Yields n -> exists id, listed s id n) -> ring_turn l f t = Some st' -> ring_ok (ls ++ [LQuiet i]) (sys (sy_phone s)) i nb st'.
Proof.
  intros R F Y T. assert (R' : told_by i (ls ++ [LQuiet i]) = []). { rewrite rings_plain; auto. discriminate. }
  destruct t; cbn in T; try discriminate; injection T as <-.
  - split; auto. split; auto. destruct (Y _ eq_refl) as (id & L). destruct (proj2 Ix _ _ L) as (c & C & _). exists c. auto.
  - destruct f; cbn; auto. split; auto. apply F. auto.
  - right. auto.
Qed.
Lemma ring_own nb ty st p' st' l : ring_go i nb ty (sy_phone s) st = Some (p', st', l) -> ring_ok ls s i nb st -> ring_ok (ls ++ [l]) (sys p') i nb st'.
Proof.
  intros G H. assert (Q : told_by i (ls ++ [LQuiet i]) = told_by i ls). { apply rings_plain. discriminate. }
  destruct st; cbn [ring_go ring_ok] in G, H; try discriminate.
  - injection G as <- <- <-. cbn. split; [congruence|discriminate].
  - destruct (ring_turn _ _ _) as [st1|] eqn:T; [|discriminate]. injection G as <- <- <-. destruct H as [R F]. eapply ring_turn_ok; eauto. intros n E. apply turn_listed in E. exact E.
  - injection G as <- <- <-. destruct H as (R & F & (c & C)). rewrite (call_at_is _ _ _ C). destruct (opt_str_eqb _ _) eqn:O; [|cbn; split; auto; congruence].
    apply opt_str_is in O. destruct (c_incoming c) eqn:I; cbn; [|right; split; auto; congruence]. split; [congruence|]. exists c. auto.
  - injection G as <- <- <-. destruct H as (R & F). cbn. split; [congruence|]. intros k0 E. injection E as <-. apply from_alter; auto with race.
  - injection G as <- <- <-. cbn. congruence.
  - destruct (new_incoming nb id ty) as [c|e] eqn:N; injection G as <- <- <-; cbn.
    + rewrite rings_plain by discriminate. split; auto. apply incoming_is in N as [N1 N2]. exists c. repeat split; auto. unfold has_call, sys, enter. cbn. rewrite nth_error_app2, Nat.sub_diag by lia. auto.
    + right. split; [congruence|]. apply incoming_error in N. subst. auto.
  - injection G as <- <- <-. destruct H as (R & F). cbn. left. split; auto. exists n. rewrite rings_app, R. cbn. rewrite Nat.eqb_refl. auto.
Qed.
Lemma ok_own t p' t' l : thread_step i (sy_phone s) t p' t' l -> ok ls s i t -> ok (ls ++ [l]) (sys p') i t'.
Proof.
  intros [G|[(x & G & ->)|(o & G & ->)]] H.
  - destruct t as [st|st|n st|n st|nb ty st|nb cb st]; cbn [go ok] in *.
    + destruct (end_go i _ st) as [[[p1 st1] l1]|] eqn:E; [|discriminate]. injection G as <- <- <-. eapply end_own; eauto.
    + destruct (answered_go i _ st) as [[[p1 st1] l1]|] eqn:E; [|discriminate]. injection G as <- <- <-.
      destruct st; cbn [answered_go] in E; try discriminate; split_step E; injection E as <- <- <-; cbn; auto.
      destruct (next_turn _ _) in Heqo; cbn in Heqo; try discriminate; injection Heqo as <-; cbn; auto.
    + destruct (hang_go i n _ st) as [[[p1 st1] l1]|] eqn:E; [|discriminate]. injection G as <- <- <-. eapply hang_own; eauto.
    + destruct (pick_go i n _ st) as [[[p1 st1] l1]|] eqn:E; [|discriminate]. injection G as <- <- <-.
      destruct st; cbn [pick_go] in E; try discriminate; split_step E; injection E as <- <- <-; cbn; auto. destruct (c_ringing _); cbn; auto.
    + destruct (ring_go i nb ty _ st) as [[[p1 st1] l1]|] eqn:E; [|discriminate]. injection G as <- <- <-. eapply ring_own; eauto.
    + destruct (dial_go i nb cb _ st) as [[[p1 st1] l1]|] eqn:E; [|discriminate]. injection G as <- <- <-.
      destruct st; cbn [dial_go] in E; try discriminate; injection E as <- <- <-; cbn; auto. exists id, (new_call id ty nb cb). split; [apply in_or_app; cbn; auto|]. split; auto.
      unfold has_call, sys, enter. cbn. rewrite nth_error_app2, Nat.sub_diag by lia. auto.
  - destruct t as [st|st|n st|n st|nb ty st|nb cb st]; cbn [written ok] in *; try discriminate; destruct st; try discriminate; injection G as <- <-.
    + destruct H as (c & C & _). exists c. split; auto. destruct x; auto. left. exists e. split; auto. apply in_or_app. cbn. auto.
    + destruct x; cbn; auto. right. exists e. split; auto. apply in_or_app. cbn. auto.
  - destruct t as [st|st|n st|n st|nb ty st|nb cb st]; cbn [blurred ok] in *; try discriminate; destruct st; try discriminate; cbn [end_ok answered_ok ring_ok] in *.
    + destruct (match next_turn _ _ with Unclear => _ | _ => _ end); [|discriminate]. destruct o; cbn in G; injection G as <- <-; cbn; try (left; split; auto); apply unfound_quiet; auto; discriminate.
    + destruct (match next_turn _ _ with Unclear => _ | _ => _ end); [|discriminate]. destruct o; cbn in G; injection G as <- <-; cbn; auto.
    + destruct (next_turn _ _) eqn:T; try discriminate. destruct (match o with Some _ => _ | None => _ end) eqn:K; [|discriminate].
      destruct (ring_turn _ _ _) as [st1|] eqn:R; [|discriminate]. injection G as <- <-. destruct H as [H1 H2]. eapply ring_turn_ok; eauto. intros n E. destruct o; cbn in E; [|discriminate]. injection E as <-. apply known_listed in K. exact K.
Qed.
End Own.

(** ** All executions *)
Definition allok (k : nat) (ls : list label) (s : system) : Prop := forall i t, (k <= i)%nat -> at_thread s i t -> ok ls s i t.
Lemma step_by i p t p' t' l : thread_step i p t p' t' l -> by_thread l = i.
Proof.
  intro St. apply step_effect in St. inversion St; subst; auto; destruct l; cbn in *; auto; contradiction.
Qed.
(** labels of threads that there are *)
Lemma labels_run s ls s' : run s ls s' -> (length (sy_threads s) <= length (sy_threads s'))%nat /\ forall l, In l ls -> (by_thread l < length (sy_threads s'))%nat.
Proof.
  induction 1 as [|ls s1 a s2 l H [L IH] A]; [split; auto; intros l []|].
  destruct (act_inv _ _ _ _ A) as [(t & _ & -> & ->)|(i & t & t' & p' & Ti & St & ->)]; cbn [sy_threads].
  - rewrite app_length. cbn. split; [lia|]. intros l I. apply in_app_or in I as [I|[<-|[]]]; [apply IH in I; lia|cbn; lia].
  - rewrite update_length. split; auto. intros l0 I. apply in_app_or in I as [I|[<-|[]]]; auto. rewrite (step_by _ _ _ _ _ _ St). apply nth_error_Some. congruence.
Qed.
Lemma fresh_labels s ls s' : run s ls s' -> unfound (length (sy_threads s')) ls /\ told_by (length (sy_threads s')) ls = [].
Proof.
  intro R. destruct (labels_run _ _ _ R) as [_ L]. split.
  - intros id n I. apply L in I. cbn in I. lia.
  - revert L. generalize (length (sy_threads s')). clear. intros k. induction ls as [|l ls IH]; intro L; auto. destruct l; cbn; try (apply IH; intros; apply L; cbn; auto).
    destruct (Nat.eqb_spec i k) as [->|N]; [specialize (L (LRing k n) (or_introl eq_refl)); cbn in L; lia|]. apply IH. intros; apply L; cbn; auto.
Qed.
Lemma allok_run s ls s' : indexed s -> run s ls s' -> allok (length (sy_threads s)) ls s'.
Proof.
  intros Ix R. induction R as [|ls s1 a s2 l R IH A].
  - intros i t L H. exfalso. assert (i < length (sy_threads s))%nat by (apply nth_error_Some; unfold at_thread in H; congruence). lia.
  - pose proof (indexed_run _ _ _ Ix R) as Ix1. intros i t L H. destruct (Nat.eq_dec (by_thread l) i) as [E|N].
    + destruct (act_inv _ _ _ _ A) as [(t0 & B & -> & ->)|(j & t1 & t2 & p' & Tj & St & ->)].
      * cbn in E. subst i. unfold at_thread in H. cbn [sy_threads] in H. rewrite nth_error_app2, Nat.sub_diag in H by lia. injection H as <-.
        destruct (fresh_labels _ _ _ R) as [U Rg]. assert (U' : unfound (length (sy_threads s1)) (ls ++ [LStart (length (sy_threads s1)) t0])). { apply unfound_quiet; auto. discriminate. }
        assert (Rg' : told_by (length (sy_threads s1)) (ls ++ [LStart (length (sy_threads s1)) t0]) = []). { rewrite rings_plain; auto. discriminate. }
        destruct t0 as [st|st|n st|n st|nb ty st|nb cb st]; destruct st; cbn [begins] in B; try discriminate; cbn; auto.
        apply Nat.ltb_lt in B. destruct (nth_error (p_calls (sy_phone s1)) n) as [c|] eqn:E; [|apply nth_error_None in E; lia]. exists c. auto.
      * rewrite (step_by _ _ _ _ _ _ St) in E. subst j. unfold at_thread in H. cbn [sy_threads] in H. rewrite update_nth, Nat.eqb_refl, Tj in H. cbn in H. injection H as <-.
        exact (ok_own ls s1 i Ix1 t1 p' t2 l St (IH i t1 L Tj)).
    + eapply ok_next; [eapply next_act; eauto|]. apply IH; auto. unfold at_thread in *.
      destruct (act_inv _ _ _ _ A) as [(t0 & B & -> & ->)|(j & t1 & t2 & p' & Tj & St & ->)]; cbn [sy_threads by_thread] in *.
      * destruct (Nat.lt_ge_cases i (length (sy_threads s1))) as [Lt|Ge]; [rewrite nth_error_app1 in H; auto|]. rewrite nth_error_app2 in H by lia. destruct (i - length (sy_threads s1))%nat eqn:D; [lia|]. cbn in H. destruct n; discriminate.
      * rewrite (step_by _ _ _ _ _ _ St) in N. rewrite update_nth in H. destruct (Nat.eqb_spec j i); [contradiction|]. auto.
Qed.
