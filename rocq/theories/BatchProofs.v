(** Proofs about notifications that arrive together: the read thread. *)
From Verif Require Import Base SerialModel SerialSpec TrieProofs SerialProofs BatchSpec.

Lemma sent_app a b : sent_text (a ++ b) = sent_text a ++ sent_text b.
Proof. unfold sent_text. rewrite map_app, concat_app. reflexivity. Qed.
Lemma labels_snoc tr a l : labels (tr ++ [(a, l)]) = labels tr ++ [l].
Proof. unfold labels. rewrite map_app. reflexivity. Qed.
Lemma chars_snoc ls l : chars_of (ls ++ [l]) = chars_of ls ++ match l with LChar c => [c] | _ => [] end.
Proof. unfold chars_of. rewrite flat_map_app. cbn. rewrite app_nil_r. reflexivity. Qed.
Lemma calls_snoc ls l : callbacks_of (ls ++ [l]) = callbacks_of ls ++ match l with LCallback x => [x] | _ => [] end.
Proof. unfold callbacks_of. rewrite flat_map_app. cbn. rewrite app_nil_r. reflexivity. Qed.
Lemma batched_app a d cs m r cs2 lf : batched a d cs m -> batched m r cs2 lf -> batched a (d ++ r) (cs ++ cs2) lf.
Proof. induction 1; intro H2; cbn [app]; auto; constructor; auto. Qed.

Lemma ends_crlf s : ends_with s RX_EOL_SEQ = true <-> exists y, s = y ++ crlf.
Proof.
  unfold ends_with. split.
  - intro H. destruct (str_eqb_spec (skipn (length s - length RX_EOL_SEQ) s) RX_EOL_SEQ) as [E|]; [|discriminate].
    exists (firstn (length s - length RX_EOL_SEQ) s). rewrite <- (firstn_skipn (length s - length RX_EOL_SEQ) s) at 1. rewrite E. reflexivity.
  - intros [y ->]. rewrite app_length. change (length crlf) with 2%nat. change (length RX_EOL_SEQ) with 2%nat. replace (length y + 2 - 2)%nat with (length y) by lia.
    rewrite skipn_app, skipn_all, Nat.sub_diag. reflexivity.
Qed.
(** a piece ends at its own CRLF *)
Lemma piece_end p y x : ~ occurs crlf p -> p ++ crlf = (y ++ crlf) ++ x -> x = [].
Proof.
  intros N E. destruct x as [|c x]; auto. exfalso. destruct (exists_last (l := c :: x)) as (x1 & d & X); [discriminate|]. rewrite X in E.
  change crlf with ([13] ++ [10]) in E at 1. rewrite !app_assoc in E. apply app_inj_tail in E as [E _].
  destruct x1 as [|e x1 _] using rev_ind.
  - rewrite app_nil_r in E. change crlf with ([13] ++ [10]) in E. rewrite !app_assoc in E. apply app_inj_tail in E as [_ E]. discriminate.
  - rewrite app_assoc in E. apply app_inj_tail in E as [E _]. apply N. exists y, x1. rewrite E, <- app_assoc. reflexivity.
Qed.
Lemma sent_length ps : (length (sent_text ps) >= 2 * length ps)%nat.
Proof. induction ps as [|p ps IH]; cbn; [lia|]. unfold sent_text in *. cbn [map List.concat]. rewrite !app_length. cbn [length crlf]. lia. Qed.
Lemma sent_prefix a b c d : a ++ b = c ++ d -> sent_text a = sent_text c -> a = c.
Proof.
  intros E H. apply app_eq_app in E as (k & [[-> _]|[-> _]]); rewrite sent_app in H; pose proof (sent_length k) as L;
    apply (f_equal (@length Z)) in H; rewrite app_length in H; destruct k; cbn [length] in *; try (rewrite app_nil_r; reflexivity); lia.
Qed.

Section Pieces.
Context (ps : list arrival) (Pc : pieces_only ps).

Definition follows (tr : list (action * label)) (s : sstate) : Prop :=
  evt s = None /\ expect s = None /\ exists done rest, ps = done ++ rest /\
  match reader s with
  | RIdle buf | RExp1 buf =>
      chars_of (labels tr) = sent_text done ++ buf /\
      (buf = [] \/ exists p b r x, rest = (p, b) :: r /\ p ++ crlf = buf ++ x /\ x <> []) /\
      batched [] done (callbacks_of (labels tr)) (notif s)
  | RHave line chk => exists d b, done = d ++ [(line, b)] /\ line <> [] /\ chars_of (labels tr) = sent_text done /\
      batched [] d (callbacks_of (labels tr)) (notif s)
  | RNote line => exists d b, done = d ++ [(line, b)] /\ line <> [] /\ chars_of (labels tr) = sent_text done /\
      batched [] d (callbacks_of (labels tr)) (notif s)
  | RNote2 => exists d line b held tr1 a, done = d ++ [(line, b)] /\ line <> [] /\ chars_of (labels tr) = sent_text done /\
      batched [] d (callbacks_of (labels tr)) held /\ notif s = held ++ [line] /\
      tr = tr1 ++ [(a, LNotify line)] /\ chars_of (labels tr1) = chars_of (labels tr)
  | _ => False
  end.

Lemma follows_run tr s : run s_init tr s -> only_reads tr -> port_follows ps tr -> (exists more, chars_of (labels tr) ++ more = sent_text ps) -> follows tr s.
Proof.
  remember s_init as s0 eqn:E0. induction 1 as [s|s tr s' a l s'' R IH A]; intros O P M; subst.
  { split; [reflexivity|]. split; [reflexivity|]. exists [], ps. split; auto. cbn. split; auto. split; auto. constructor. }
  destruct a as [i|j w]; [|exfalso; apply (O j w l); apply in_or_app; right; left; auto].
  assert (F : follows tr s').
  { apply IH; auto.
    - intros j w x I. apply (O j w x). apply in_or_app. auto.
    - intros tr1 a x k y tr2 E. apply (P tr1 a x k y (tr2 ++ [(ARead i, l)])). rewrite E, <- app_assoc. reflexivity.
    - destruct M as [m M]. rewrite labels_snoc, chars_snoc, <- app_assoc in M. eauto. }
  clear IH. destruct F as (Ev & Ex & done & rest & E & F). cbn [act] in A. unfold read_step in A. unfold follows.
  rewrite labels_snoc, chars_snoc, calls_snoc. destruct M as [more M]. rewrite labels_snoc, chars_snoc in M.
  destruct (reader s') as [buf|buf|buf|buf n|line chk|line chk|line chk|line chk r|line chk|line chk|line| |e x] eqn:Rd; try contradiction.
  - destruct F as (Ch & Bu & B). destruct (in_char i) as [c|].
    2:{ injection A as <- <-. split; auto. split; auto. exists done, rest. split; auto. rewrite Rd, !app_nil_r. auto. }
    assert (Lx : l = LChar c) by (destruct (ends_with _ _) in A; injection A as _ <-; reflexivity). subst l.
    rewrite Ch, E, sent_app, <- !app_assoc in M. apply app_inv_head in M.
    assert (Q : exists p b r x', rest = (p, b) :: r /\ p ++ crlf = (buf ++ [c]) ++ x').
    { destruct Bu as [->|(p & b & r & x & -> & X & N)].
      - destruct rest as [|[p b] r]; [discriminate|]. unfold sent_text in M. cbn [map List.concat fst] in M. exists p, b, r.
        destruct p as [|q p]; cbn [app crlf] in M; injection M as -> _; cbn [app]; eexists; split; reflexivity.
      - destruct x as [|x0 x]; [contradiction|]. exists p, b, r, x. split; auto. rewrite X. unfold sent_text in M. cbn [map List.concat fst] in M.
        rewrite X in M. rewrite <- app_assoc in M. apply app_inv_head in M. injection M as -> _. rewrite <- app_assoc. reflexivity. }
    destruct Q as (p & b & r & x & -> & X).
    assert (Np : ~ occurs crlf p). { unfold pieces_only in Pc. rewrite E in Pc. apply Forall_app in Pc as [_ Q]. inversion Q; auto. }
    destruct (ends_with (buf ++ [c]) RX_EOL_SEQ) eqn:Ew.
    + apply ends_crlf in Ew as [y Y]. rewrite Y in X. pose proof (piece_end p y x Np X) as ->. rewrite app_nil_r in X. apply app_inv_tail in X. subst y.
      rewrite Y in A. rewrite app_length in A. change (length crlf) with 2%nat in A. change (length RX_EOL_SEQ) with 2%nat in A. replace (length p + 2 - 2)%nat with (length p) in A by lia.
      rewrite firstn_app, firstn_all, Nat.sub_diag in A. cbn [firstn] in A. rewrite app_nil_r in A.
      assert (T : chars_of (labels tr) ++ [c] = sent_text (done ++ [(p, b)])).
      { rewrite Ch, sent_app, <- app_assoc. unfold sent_text at 3. cbn [map List.concat fst]. rewrite app_nil_r. f_equal. exact Y. }
      destruct p as [|p0 p]; injection A as <- ; cbn [reader set_reader evt expect notif].
      * split; auto. split; auto. exists (done ++ [([], b)]), r. rewrite <- app_assoc. split; auto. rewrite !app_nil_r. split; auto. split; auto.
        rewrite <- (app_nil_r (callbacks_of _)). eapply batched_app; eauto. repeat constructor.
      * split; auto. split; auto. exists (done ++ [(p0 :: p, b)]), r. rewrite <- app_assoc. split; auto. exists done, b. rewrite app_nil_r. repeat split; auto. discriminate.
    + injection A as <-. cbn [reader set_reader evt expect notif]. split; auto. split; auto. exists done, ((p, b) :: r). split; auto. rewrite Ch, <- app_assoc, app_nil_r. split; auto. split; auto.
      right. exists p, b, r, x. split; auto. split; auto. intros ->. rewrite app_nil_r in X. assert (ends_with (buf ++ [c]) RX_EOL_SEQ = true) by (apply ends_crlf; eauto). congruence.
  - destruct F as (Ch & Bu & B). rewrite Ex in A. injection A as <- <-. cbn [reader set_reader evt expect notif]. split; auto. split; auto. exists done, rest. rewrite !app_nil_r. auto.
  - rewrite Ev in A. injection A as <- <-. destruct F as (d & b & F). cbn [reader set_reader evt expect notif]. split; auto. split; auto. exists done, rest. split; auto. exists d, b. rewrite !app_nil_r. auto.
  - injection A as <- <-. destruct F as (d & b & F1 & F2 & F3 & F4). cbn [reader evt expect notif]. split; auto. split; auto. exists done, rest. split; auto.
    exists d, line, b, (notif s'), tr, (ARead i). rewrite !app_nil_r. repeat (split; [solve [auto]|]). auto.
  - destruct F as (d & line & b & held & tr1 & a & F1 & F2 & F3 & F4 & F5 & F6 & F7).
    assert (Pp : in_empty i = true <-> b = true).
    { rewrite (P tr1 a line i l []) by (rewrite F6, <- app_assoc; reflexivity). rewrite F7, F3. split.
      - intros (bf & p & af & Eb & T). rewrite E in Eb. assert (D : done = bf ++ [(p, true)]) by (eapply sent_prefix; [|exact T]; rewrite Eb, <- app_assoc; reflexivity).
        rewrite F1 in D. apply app_inj_tail in D as [_ D]. congruence.
      - intros ->. exists d, line, rest. rewrite E, F1, <- app_assoc. auto. }
    destruct (in_empty i); injection A as <- <-; cbn [reader set_reader evt expect notif]; (split; [solve [auto]|]; split; [solve [auto]|]); exists done, rest; (split; [solve [auto]|]); rewrite !app_nil_r; (split; [solve [auto]|]); (split; [solve [auto]|]).
    + assert (b = true) as -> by tauto. rewrite F1, F5. eapply batched_app; [exact F4|]. repeat constructor; auto.
    + destruct b; [destruct Pp as [_ Pp]; discriminate (Pp eq_refl)|]. rewrite F1, F5. rewrite <- (app_nil_r (callbacks_of _)). eapply batched_app; [exact F4|]. repeat constructor; auto.
Qed.
End Pieces.

Lemma batches ps tr s : pieces_only ps -> run s_init tr s -> only_reads tr -> port_follows ps tr -> chars_of (labels tr) = sent_text ps -> reader s = RIdle [] ->
  batched [] ps (callbacks_of (labels tr)) (notif s).
Proof.
  intros Pc R O P C Rd. destruct (follows_run ps Pc tr s R O P) as (_ & _ & done & rest & E & F); [exists []; rewrite app_nil_r; auto|].
  rewrite Rd in F. destruct F as (Ch & _ & B). rewrite app_nil_r in Ch. rewrite C in Ch.
  assert (ps = done) as <-; auto. eapply sent_prefix; [|exact Ch]. rewrite app_nil_r. exact E.
Qed.

(** ** What that comes to *)
Lemma batched_fun a ps cs lf : batched a ps cs lf -> forall cs' lf', batched a ps cs' lf' -> cs = cs' /\ lf = lf'.
Proof.
  induction 1 as [a|a b r cs lf H IH|a l r cs lf N H IH|a l r cs lf N H IH]; intros cs' lf' H'; inversion H'; subst; try contradiction; auto.
  destruct (IH _ _ ltac:(eassumption)) as [-> ->]. auto.
Qed.
Lemma batched_held ls : forall a, Forall (fun l => l <> []) ls -> batched a (map (fun l => (l, false)) ls) [] (a ++ ls).
Proof.
  induction ls as [|l ls IH]; intros a F; cbn [map]; [rewrite app_nil_r; constructor|]. inversion F as [|? ? H1 H2]; subst. constructor; auto.
  replace (a ++ l :: ls) with ((a ++ [l]) ++ ls) by (rewrite <- app_assoc; reflexivity). apply IH; auto.
Qed.
Lemma batched_together ls l : Forall (fun l => l <> []) ls -> l <> [] -> batched [] (map (fun l => (l, false)) ls ++ [(l, true)]) [ls ++ [l]] [].
Proof. intros F N. change [ls ++ [l]] with ([] ++ [ls ++ [l]]). eapply batched_app; [apply (batched_held ls []); auto|]. constructor; auto. constructor. Qed.
Lemma batched_apart ls : Forall (fun l => l <> []) ls -> batched [] (map (fun l => (l, true)) ls) (map (fun l => [l]) ls) [].
Proof. induction 1 as [|l ls N F IH]; cbn [map]; [constructor|]. apply (ba_over [] l); auto. Qed.

(** ** What is held stays held *)
Lemma held_step s a s' l : act s a = Some (s', l) -> (forall x, l <> LNotify x) -> reader s <> RNote2 ->
  notif s' = notif s /\ (forall x, l <> LCallback x) /\ reader s' <> RNote2.
Proof.
  intros A Nl N. destruct a as [i|j w]; cbn [act] in A.
  - unfold read_step in A. destruct (reader s) eqn:Rd; try contradiction;
      repeat match type of A with context [match ?b with _ => _ end] => destruct b end; try discriminate A; injection A as <- <-; try (destruct (Nl _ eq_refl)); cbn [notif reader set_reader];
      (split; [reflexivity|]; split; [intros ? ?; discriminate|]); try discriminate; try congruence.
  - unfold write_step in A. repeat match type of A with context [match ?b with _ => _ end] => destruct b end; try discriminate A; injection A as <- <-; cbn [notif reader set_writer];
      (split; [reflexivity|]; split; [intros ? ?; discriminate|]); auto.
Qed.
Lemma held s tr s' : run s tr s' -> reader s <> RNote2 -> notified_of (labels tr) = [] ->
  notif s' = notif s /\ callbacks_of (labels tr) = [] /\ reader s' <> RNote2.
Proof.
  induction 1 as [s|s tr s' a l s'' R IH A]; intros N E; [auto|]. rewrite labels_snoc in *. unfold notified_of in E. rewrite flat_map_app in E. apply app_eq_nil in E as [E1 E2].
  destruct (IH N E1) as (I1 & I2 & I3). assert (Nl : forall x, l <> LNotify x) by (intros x ->; discriminate E2).
  destruct (held_step _ _ _ _ A Nl I3) as (S1 & S2 & S3). rewrite S1, calls_snoc, I2. split; auto. split; auto. destruct l; auto. destruct (S2 _ eq_refl).
Qed.

(** ** Any schedule *)
Definition full (r : rpc) : Prop :=
  match r with
  | RExp1 b | RExp2 b | RExp3 b _ | RHave b _ | RIsSet b _ | RResp b _ | RApp b _ _ | RNote b => b <> []
  | _ => True
  end.
Lemma full_step s i s' l : read_step s i = Some (s', l) -> full (reader s) -> full (reader s').
Proof.
  intros A F. unfold read_step in A. destruct (reader s) eqn:Rd; cbn [full] in F.
  - destruct (in_char i) as [c|]; [|injection A as <- <-; rewrite Rd; exact I]. destruct (ends_with _ _); [|injection A as <- <-; cbn; destruct buf; discriminate].
    destruct (firstn _ _); injection A as <- <-; cbn; [exact I|discriminate].
  - destruct (expect s); injection A as <- <-; cbn; auto.
  - destruct (expect s); injection A as <- <-; cbn; auto.
  - destruct (expect s); [destruct (str_eqb _ _)|]; injection A as <- <-; cbn; auto.
  - destruct (evt s); injection A as <- <-; cbn; auto.
  - destruct (evt s); [destruct (is_set s _)|]; injection A as <- <-; cbn; auto.
  - destruct (resp s); injection A as <- <-; cbn; auto.
  - injection A as <- <-. cbn. auto.
  - destruct (negb chk || is_term line); injection A as <- <-; cbn; auto.
  - destruct (evt s); injection A as <- <-; cbn; auto.
  - injection A as <- <-. cbn. auto.
  - destruct (in_empty i); injection A as <- <-; cbn; auto.
  - discriminate.
Qed.
Lemma write_keeps s j w s' l : write_step s j w = Some (s', l) -> reader s' = reader s /\ notif s' = notif s /\ (forall x, l <> LCallback x) /\ (forall x, l <> LNotify x).
Proof.
  intro A. unfold write_step in A. repeat match type of A with context [match ?b with _ => _ end] => destruct b end; try discriminate A; injection A as <- <-; cbn [notif reader set_writer];
    repeat split; intros ? ?; discriminate.
Qed.
Definition flush (p : option str) : list str := match p with Some x => [x] | None => [] end.
Theorem any_schedule tr s : run s_init tr s -> exists ps p held, asked tr ps p /\ batched [] ps (callbacks_of (labels tr)) held /\ notif s = held ++ flush p.
Proof.
  intro R. assert (G : full (reader s) /\ exists ps p held, asked tr ps p /\ batched [] ps (callbacks_of (labels tr)) held /\ notif s = held ++ flush p /\
    (forall x, p = Some x -> x <> []) /\ (reader s = RNote2 <-> p <> None)).
  2:{ destruct G as (_ & ps & p & held & A & B & C & _). eauto 6. }
  remember s_init as s0 eqn:E0. induction R as [s|s tr s' a l s'' R IH A]; subst.
  { split; [exact I|]. exists [], None, []. split; [constructor|]. split; [constructor|]. split; [reflexivity|]. split; [discriminate|]. split; [discriminate|tauto]. }
  destruct (IH eq_refl) as (F & ps & p & held & As & B & N & Np & Rn). clear IH. rewrite labels_snoc, calls_snoc. destruct a as [i|j w]; cbn [act] in A.
  - pose proof (full_step _ _ _ _ A F) as F'. split; auto. destruct (reader s') eqn:Rd.
    12:{ destruct p as [x|]; [|destruct (proj1 Rn eq_refl); auto]. assert (Nx : x <> []) by auto. cbn [flush] in N. unfold read_step in A. rewrite Rd in A. exists (ps ++ [(x, in_empty i)]), None.
      destruct (in_empty i) eqn:Ei; injection A as <- <-; cbn [notif reader set_reader flush]; [exists []|exists (held ++ [x])]; rewrite ?app_nil_r;
        (split; [rewrite <- Ei; apply as_ask; exact As|]); (split; [|split; [auto|split; [discriminate|split; [discriminate|tauto]]]]).
      - eapply batched_app; [exact B|]. rewrite N. repeat constructor; auto.
      - rewrite <- (app_nil_r (callbacks_of _)). eapply batched_app; [exact B|]. repeat constructor; auto. }
    11:{ assert (p = None) as -> by (destruct p; auto; assert (RNote line = RNote2) by (apply Rn; discriminate); discriminate). unfold read_step in A. rewrite Rd in A. injection A as <- <-. cbn [notif reader].
      exists ps, (Some line), held. cbn [flush] in *. rewrite !app_nil_r in *. split; [apply as_note; auto|]. split; auto. rewrite N. split; auto. split; [intros x [= <-]; exact F|]. split; [discriminate|auto]. }
    all: assert (p = None) as -> by (destruct p as [x0|]; auto; exfalso; assert (X : Some x0 <> None) by discriminate; apply Rn in X; discriminate X).
    all: assert (Nl : forall x, l <> LNotify x) by (intros x ->; unfold read_step in A; rewrite Rd in A; repeat match type of A with context [match ?b with _ => _ end] => destruct b end; discriminate A).
    all: assert (N2 : reader s' <> RNote2) by (rewrite Rd; discriminate).
    all: destruct (held_step s' (ARead i) s'' l A Nl N2) as (S1 & S2 & S3).
    all: exists ps, None, held; (split; [apply as_read; auto|]); rewrite S1; (split; [|split; [auto|split; [discriminate|split; [intro; contradiction|tauto]]]]).
    all: destruct l; rewrite ?app_nil_r; auto; destruct (S2 _ eq_refl).
  - destruct (write_keeps _ _ _ _ _ A) as (W1 & W2 & W3 & W4). rewrite W1, W2. split; auto. exists ps, p, held. split; [apply as_write; auto|]. split; [|auto].
    destruct l; rewrite ?app_nil_r; auto. destruct (W3 _ eq_refl).
Qed.

(** ** Examples *)
Definition pauses_at (ps : list arrival) (t : str) : bool :=
  existsb (fun k => match nth_error ps k with Some (_, true) => str_eqb t (sent_text (firstn (S k) ps)) | _ => false end) (seq 0 (length ps)).
Fixpoint port_check (ps : list arrival) (t : str) (tr : list (action * label)) : bool :=
  match tr with
  | [] => true
  | (a, l) :: r =>
      match l, r with LNotify _, (ARead i, _) :: _ => Bool.eqb (in_empty i) (pauses_at ps t) | _, _ => true end &&
      port_check ps (t ++ match l with LChar c => [c] | _ => [] end) r
  end.
Lemma pauses_spec ps t : pauses_at ps t = true <-> exists before p after, ps = before ++ (p, true) :: after /\ t = sent_text (before ++ [(p, true)]).
Proof.
  unfold pauses_at. rewrite existsb_exists. split.
  - intros (k & _ & H). destruct (nth_error ps k) as [[p [|]]|] eqn:E; try discriminate. destruct (str_eqb_spec t (sent_text (firstn (S k) ps))) as [->|]; [|discriminate].
    pose proof E as E'. apply nth_error_split in E as (bf & af & -> & L). exists bf, p, af. split; auto. rewrite firstn_app. replace (S k - length bf)%nat with 1%nat by lia. rewrite firstn_all2 by lia. reflexivity.
  - intros (bf & p & af & -> & ->). exists (length bf). split; [apply in_seq; rewrite app_length; cbn; lia|]. rewrite nth_error_app2, Nat.sub_diag by lia. cbn [nth_error].
    rewrite firstn_app. replace (S (length bf) - length bf)%nat with 1%nat by lia. rewrite firstn_all2 by lia. cbn [firstn]. destruct (str_eqb_spec (sent_text (bf ++ [(p, true)])) (sent_text (bf ++ [(p, true)]))); auto.
Qed.
Lemma port_ex ps tr : port_check ps [] tr = true -> port_follows ps tr.
Proof.
  intros H tr1 a x i l tr2 E. rewrite <- pauses_spec. assert (G : forall t tr1 tr, port_check ps t tr = true -> tr = tr1 ++ (a, LNotify x) :: (ARead i, l) :: tr2 ->
    in_empty i = pauses_at ps (t ++ chars_of (labels tr1))).
  { clear. intros t tr1. revert t. induction tr1 as [|[a' l'] tr1 IH]; intros t tr H ->; cbn [app port_check] in H; apply andb_true_iff in H as [H1 H2].
    - apply eqb_prop in H1. cbn. rewrite app_nil_r. exact H1.
    - specialize (IH _ _ H2 eq_refl). rewrite IH. unfold labels, chars_of. cbn [map snd flat_map]. rewrite <- app_assoc. reflexivity. }
  rewrite (G [] tr1 tr H E). reflexivity.
Qed.
