(** The response of a write: which lines it consists of. *)
From Verif Require Import Base RegexModel RegexProofs SerialModel SerialSpec SerialProofs ThreadProofs LockProofs.

Definition since (tr : list label) (i : nat) (hs : list (str * bool)) : Prop :=
  exists tr0 mid stale, tr = tr0 ++ LStart i :: mid /\ Forall not_over mid /\
    (stale = [] \/ exists x, stale = [x] /\ in_flight tr0 x) /\ hs = stale ++ handed_of mid.
Definition goes_on (x : str * bool) : Prop := ~ ends_response x.
Definition ended (hs : list (str * bool)) (ls : list str) : Prop :=
  exists pre fin rest, hs = pre ++ fin :: rest /\ Forall goes_on pre /\ ends_response fin /\ ls = map fst (pre ++ [fin]).
Definition rquiet (r : rpc) : Prop := match r with RResp _ _ | RApp _ _ _ | RTerm _ _ | RSet _ _ => False | _ => True end.
Definition pending (s : sstate) (r : nat) (hs : list (str * bool)) : Prop :=
  match reader s with
  | RIsSet l c | RResp l c => exists pre, hs = pre ++ [(l, c)] /\ Forall goes_on pre /\ heap s r = map fst pre
  | RApp l c r' => r' = r /\ exists pre, hs = pre ++ [(l, c)] /\ Forall goes_on pre /\ heap s r = map fst pre
  | RTerm l c => exists pre, hs = pre ++ [(l, c)] /\ Forall goes_on pre /\ heap s r = map fst (pre ++ [(l, c)])
  | RSet l c => exists pre, hs = pre ++ [(l, c)] /\ Forall goes_on pre /\ heap s r = map fst (pre ++ [(l, c)]) /\ ends_response (l, c)
  | _ => Forall goes_on hs /\ heap s r = map fst hs
  end.
Definition filling (s : sstate) (e r : nat) (hs : list (str * bool)) : Prop :=
  if is_set s e then ended hs (heap s r) /\ rquiet (reader s) else pending s r hs.

Lemma since_snoc tr i hs l : since tr i hs -> not_over l -> since (tr ++ [l]) i (hs ++ handed_of [l]).
Proof.
  intros (a & b & st & -> & F & S & ->) N. exists a, (b ++ [l]), st. rewrite <- app_assoc. split; auto. split; [apply Forall_app; auto|].
  split; auto. unfold handed_of. rewrite flat_map_app, app_assoc. reflexivity.
Qed.
Lemma ended_snoc hs ls x : ended hs ls -> ended (hs ++ x) ls.
Proof. intros (p & f & r & -> & H). exists p, f, (r ++ x). rewrite <- app_assoc. auto. Qed.
Lemma term_ends l c : negb c || is_term l = true <-> ends_response (l, c).
Proof. unfold ends_response. rewrite orb_true_iff, is_term_spec. cbn. destruct c; cbn; intuition congruence. Qed.

Lemma filling_read s i s' l e r hs : evt s = Some e -> resp s = Some r -> filling s e r hs -> read_step s i = Some (s', l) ->
  filling s' e r (hs ++ handed_of [l]).
Proof.
  intros He Hr F H. unfold filling in *. destruct (is_set s e) eqn:IS.
  - destruct F as [D Q].
    assert (is_set s' e = true /\ heap s' r = heap s r /\ rquiet (reader s')) as (-> & -> & Q').
    { unfold read_step in H. cbv zeta in H. unfold rquiet in Q. destruct (reader s) eqn:ER; try contradiction; try rewrite He in H; try rewrite IS in H;
        break_step H; cbn; rewrite ?ER; auto. }
    split; auto. apply ended_snoc; auto.
  - unfold read_step in H. cbv zeta in H. unfold pending in *. destruct (reader s) eqn:ER.
    1: { break_step H; cbn; rewrite ?ER, IS, app_nil_r; auto. }
    all: rewrite ?He, ?Hr in H.
    1,2,3: break_step H; cbn; rewrite IS, app_nil_r; auto.
    + injection H as <- <-. cbn. rewrite IS. destruct F as [F E]. eauto.
    + rewrite IS in H. injection H as <- <-. cbn. rewrite IS, app_nil_r. auto.
    + injection H as <- <-. cbn. rewrite IS, app_nil_r. auto.
    + injection H as <- <-. cbn. rewrite IS, app_nil_r. destruct F as (-> & pre & -> & F & E). exists pre. rewrite upd_same, E, map_app. auto.
    + destruct F as (pre & -> & F & E). destruct (negb chk || is_term line) eqn:T; injection H as <- <-; cbn; rewrite IS, app_nil_r.
      * exists pre. repeat split; auto. apply term_ends; auto.
      * split; auto. apply Forall_app. split; auto. constructor; auto. intro C. apply term_ends in C. congruence.
    + injection H as <- <-. cbn. rewrite upd_same, app_nil_r. split; auto. destruct F as (pre & -> & F & E & C). exists pre, (line, chk), []. auto.
    + injection H as <- <-. cbn. rewrite IS, app_nil_r. auto.
    + break_step H; cbn; rewrite IS, app_nil_r; auto.
    + discriminate.
Qed.
Lemma quiet_read s i s' l : evt s = None -> rquiet (reader s) -> read_step s i = Some (s', l) -> rquiet (reader s') /\ heap s' = heap s.
Proof.
  intros He Q H. unfold read_step in H. cbv zeta in H. unfold rquiet in Q. destruct (reader s) eqn:ER; try contradiction; try rewrite He in H;
    break_step H; cbn; rewrite ?ER; auto.
Qed.

Definition track (s : sstate) (tr : list label) : Prop :=
  match lock s with
  | None => rquiet (reader s)
  | Some i =>
    match writer s i with
    | WSend _ | WLoad | WWait _ => exists e r hs, evt s = Some e /\ resp s = Some r /\ since tr i hs /\ filling s e r hs
    | WClrEvt ok => ok = true /\ exists e r hs, evt s = Some e /\ resp s = Some r /\ since tr i hs /\ filling s e r hs /\ is_set s e = true
    | WClrExp ok | WRet ok => ok = true /\ rquiet (reader s) /\ exists r hs, resp s = Some r /\ since tr i hs /\ ended hs (heap s r)
    | WSetEvt _ => rquiet (reader s) /\ exists r, resp s = Some r /\ heap s r = []
    | _ => rquiet (reader s)
    end
  end.
Lemma reader_flight tr s : run s_init tr s -> match reader s with RIsSet l c => in_flight (labels tr) (l, c) | _ => True end.
Proof. intro R. pose proof (reader_in_flight _ _ R) as F. destruct (reader s); auto. Qed.

Lemma set_mono s i s' l e : read_step s i = Some (s', l) -> is_set s e = true -> is_set s' e = true.
Proof.
  intros H IS. unfold read_step in H. cbv zeta in H. break_step H; cbn; auto. unfold upd. destruct (e =? n)%nat; auto.
Qed.
Lemma tracked tr s : run s_init tr s -> no_timeouts tr -> track s (labels tr).
Proof.
  intro R. remember s_init as s0 eqn:E0. induction R as [s|s tr s' a l s'' R IH H]; subst; [intros; exact I|]. intro NT.
  assert (NT' : no_timeouts tr) by (intros i w k I; apply (NT i w k), in_or_app; auto).
  specialize (IH eq_refl NT'). pose proof (run_locked _ _ R) as L. pose proof (reader_flight _ _ R) as FL.
  rewrite labels_app. cbn [labels map snd]. fold (labels tr) in *. destruct a as [ri|i w]; cbn [act] in H.
  - destruct (locked_read _ _ _ _ L H) as (E1 & E2 & E3 & E4 & E5 & _). pose proof (reader_not_over _ _ _ _ H) as NO.
    unfold track in *. rewrite E1, E5, E2, E3. unfold locked in L. destruct (lock s') as [k|].
    2: { apply (quiet_read _ _ _ _ (proj1 L) IH H). }
    destruct L as [P _]. destruct (writer s' k); cbn in P; try contradiction.
    + apply (quiet_read _ _ _ _ P IH H).
    + apply (quiet_read _ _ _ _ P IH H).
    + destruct IH as (Q & r & Hr & Hh). destruct (quiet_read _ _ _ _ (proj1 P) Q H) as [Q' ->]. split; auto. exists r. auto.
    + destruct IH as (e & r & hs & He & Hr & S & F). exists e, r. eexists. split; auto. split; auto.
      split; [apply since_snoc; eauto|]. eapply filling_read; eauto.
    + destruct IH as (e & r & hs & He & Hr & S & F). exists e, r. eexists. split; auto. split; auto.
      split; [apply since_snoc; eauto|]. eapply filling_read; eauto.
    + destruct IH as (e1 & r & hs & He & Hr & S & F). exists e1, r. eexists. split; auto. split; auto.
      split; [apply since_snoc; eauto|]. eapply filling_read; eauto.
    + destruct IH as (-> & e & r & hs & He & Hr & S & F & IS). split; auto. exists e, r. eexists. split; auto. split; auto.
      split; [apply since_snoc; eauto|]. split; [eapply filling_read; eauto|eapply set_mono; eauto].
    + destruct IH as (-> & Q & r & hs & Hr & S & D). destruct (quiet_read _ _ _ _ (proj1 P) Q H) as [Q' ->]. split; auto. split; auto.
      exists r. eexists. split; auto. split; [apply since_snoc; eauto|apply ended_snoc; auto].
    + destruct IH as (-> & Q & r & hs & Hr & S & D). destruct (quiet_read _ _ _ _ (proj1 P) Q H) as [Q' ->]. split; auto. split; auto.
      exists r. eexists. split; auto. split; [apply since_snoc; eauto|apply ended_snoc; auto].
    + apply (quiet_read _ _ _ _ P IH H).
    + apply (quiet_read _ _ _ _ P IH H).
  - assert (NW : in_timeout w = false) by (apply (NT i w l), in_or_app; right; left; reflexivity).
    unfold write_step in H. cbv zeta in H. destruct (writer s' i) eqn:W.
    1: { unfold track in IH. destruct (lock s') eqn:LK; [discriminate|]. injection H as <- <-. unfold track. cbn. rewrite upd_same. exact IH. }
    all: destruct (locked_owner _ _ _ L W ltac:(discriminate)) as (LK & P & O); unfold track in IH; rewrite LK, W in IH.
    + break_step H; unfold track; cbn; rewrite LK, upd_same; exact IH.
    + injection H as <- <-. unfold track; cbn; rewrite LK, upd_same. split; auto. exists (fresh s'). rewrite upd_same. auto.
    + injection H as <- <-. unfold track; cbn; rewrite LK, upd_same. destruct IH as (Q & r & Hr & Hh).
      exists (fresh s'), r, (match reader s' with RIsSet x c => [(x, c)] | _ => [] end). split; auto. split; auto. split.
      { exists (labels tr), [], (match reader s' with RIsSet x c => [(x, c)] | _ => [] end). split; auto. split; auto.
        rewrite app_nil_r. split; auto. destruct (reader s'); auto. right. exists (line, chk). auto. }
      unfold filling. cbn. rewrite upd_same. unfold pending. cbn. destruct (reader s'); cbn in Q; try contradiction; auto.
      exists []. auto.
    + injection H as <- <-. unfold track; cbn; rewrite LK, upd_same. destruct IH as (e & r & hs & He & Hr & S & F). exists e, r, (hs ++ []).
      split; auto. split; auto. split; [apply (since_snoc _ _ _ (LSend i (w_data op) true)); auto; exact I|rewrite app_nil_r; auto].
    + destruct IH as (e & r & hs & He & Hr & S & F). rewrite He in H.
      injection H as <- <-. unfold track; cbn; rewrite LK, upd_same. exists e, r, (hs ++ []).
      split; auto. split; auto. split; [apply (since_snoc _ _ _ LTau); auto; exact I|rewrite app_nil_r; auto].
    + destruct IH as (e1 & r & hs & He & Hr & S & F). destruct P as (r1 & Pe & _). rewrite NW in H. destruct (is_set s' e) eqn:IS; [|discriminate].
      injection H as <- <-. unfold track; cbn; rewrite LK, upd_same. split; auto. exists e1, r, (hs ++ []).
      split; auto. split; auto. split; [apply (since_snoc _ _ _ LTau); auto; exact I|rewrite app_nil_r; auto]. split; auto. congruence.
    + injection H as <- <-. destruct IH as (-> & e & r & hs & He & Hr & S & F & IS). unfold track; cbn; rewrite LK, upd_same. split; auto.
      unfold filling in F. rewrite IS in F. destruct F as [D Q]. split; auto. exists r, (hs ++ []).
      split; auto. split; [apply (since_snoc _ _ _ LTau); auto; exact I|rewrite app_nil_r; auto].
    + injection H as <- <-. destruct IH as (-> & Q & r & hs & Hr & S & D). unfold track; cbn; rewrite LK, upd_same. split; auto.
      split; auto. exists r, (hs ++ []). split; auto. split; [apply (since_snoc _ _ _ LTau); auto; exact I|rewrite app_nil_r; auto].
    + destruct IH as (-> & Q & r & hs & Hr & S & D). rewrite Hr in H. injection H as <- <-. unfold track; cbn; rewrite LK, upd_same. auto.
    + injection H as <- <-. unfold track; cbn; rewrite LK, upd_same. auto.
    + injection H as <- <-. unfold track; cbn. auto.
    + discriminate.
Qed.

Lemma returned tr s tr1 i ls tr2 : run s_init tr s -> no_timeouts tr -> labels tr = tr1 ++ LReturn i ls :: tr2 ->
  exists hs, since tr1 i hs /\ ended hs ls.
Proof.
  intros R NT E. apply labels_split in E as (ta & y & tb & -> & <- & <-). apply run_split in R as (m & R1 & R2).
  change ((y, LReturn i ls) :: tb) with ([(y, LReturn i ls)] ++ tb) in R2. apply run_split in R2 as (m2 & R2 & _). apply run_one in R2.
  assert (NT' : no_timeouts ta) by (intros j w k I; apply (NT j w k), in_or_app; auto).
  pose proof (tracked _ _ R1 NT') as T. pose proof (run_locked _ _ R1) as L. destruct y as [ri|j w]; cbn [act] in R2.
  - apply reader_not_over in R2. contradiction.
  - unfold write_step in R2. cbv zeta in R2. destruct (writer m j) eqn:W;
      repeat match type of R2 with context [match ?x with _ => _ end] => destruct x eqn:?; try discriminate R2 end; try discriminate R2.
    injection R2 as _ -> <-. destruct (locked_owner _ _ _ L W ltac:(discriminate)) as (LK & P & O). unfold track in T. rewrite LK, W in T.
    destruct T as (_ & _ & r & hs & Hr & S & D). exists hs. split; auto. congruence.
Qed.
