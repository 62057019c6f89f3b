From Verif Require Import Base RegexModel RegexProofs UtilModel PduModel PduSpec FieldProofs SubmitProofs DecodeTotal ModemCore ModemSpec WriteProofs LangProofs MonadProofs TrackSpec CoverageSpec QueryProofs
  SmsModel SerialProofs SendProofs UssdModel CallModel NotifyModel ConnectModel InjectSpec.

(** ** Reading what was written *)
Lemma cr_lines_app a b : ~ In 13 a -> cr_lines (a ++ 13 :: b) = a :: cr_lines b.
Proof.
  induction a as [|c a IH]; intro H; [reflexivity|]. cbn [List.app cr_lines]. destruct (Z.eqb_spec c 13) as [->|N]; [destruct H; left; auto|].
  rewrite IH; auto. intro I. apply H. right. auto.
Qed.
Lemma cr_lines_none a : ~ In 13 a -> cr_lines a = [].
Proof.
  induction a as [|c a IH]; intro H; [reflexivity|]. cbn [cr_lines]. destruct (Z.eqb_spec c 13) as [->|N]; [destruct H; left; auto|].
  rewrite IH; auto. intro I. apply H. right. auto.
Qed.
(** put in front of the first piece *)
Definition onto (a : str) (ps : list str) : list str := match ps with p :: ps => (a ++ p) :: ps | [] => [a] end.
Lemma cut_ne q s : cut q s <> [].
Proof. destruct s as [|c s]; cbn; [discriminate|]. destruct (_ && _); [discriminate|]. destruct (cut _ s); discriminate. Qed.
Fixpoint after_quotes (q : bool) (s : str) : bool := match s with [] => q | c :: s' => after_quotes (if c =? 34 then negb q else q) s' end.
Lemma cut_app a b : ~ In 59 a -> forall q, cut q (a ++ b) = onto a (cut (after_quotes q a) b).
Proof.
  induction a as [|c a IH]; intros H q; cbn [List.app after_quotes].
  - pose proof (cut_ne q b). destruct (cut q b); [congruence|reflexivity].
  - cbn [cut]. destruct (Z.eqb_spec c 59) as [->|N]; [destruct H; left; auto|]. cbn [andb]. rewrite IH by (intro I; apply H; right; auto).
    set (q' := if c =? 34 then negb q else q). pose proof (cut_ne (after_quotes q' a) b). destruct (cut _ b); [congruence|reflexivity].
Qed.
Lemma cut_inside s b : ~ In 34 s -> cut true (s ++ b) = onto s (cut true b).
Proof.
  induction s as [|c s IH]; intro H; cbn [List.app].
  - pose proof (cut_ne true b). destruct (cut true b); [congruence|reflexivity].
  - cbn [cut]. rewrite andb_false_r. destruct (Z.eqb_spec c 34) as [->|N]; [destruct H; left; auto|]. rewrite IH by (intro I; apply H; right; auto).
    pose proof (cut_ne true b). destruct (cut true b); [congruence|reflexivity].
Qed.
Lemma onto_onto a b ps : onto a (onto b ps) = onto (a ++ b) ps.
Proof. destruct ps; cbn [onto]; rewrite ?app_assoc; reflexivity. Qed.
Lemma cut_quotes p s b : ~ In 59 p -> after_quotes false p = false -> ~ In 34 s -> cut false (p ++ in_quotes s ++ b) = onto (p ++ in_quotes s) (cut false b).
Proof.
  intros Hp Hq Hs. rewrite cut_app by auto. rewrite Hq. unfold in_quotes. rewrite <- !app_assoc. change ([34] ++ s ++ [34] ++ b) with (34 :: s ++ 34 :: b).
  cbn [cut andb]. change (34 =? 59) with false. cbn [andb]. change (34 =? 34) with true. cbn [negb]. rewrite cut_inside by auto.
  cbn [cut negb]. rewrite andb_false_r. change (34 =? 34) with true. cbv iota. cbn [negb]. pose proof (cut_ne false b). destruct (cut false b) as [|x xs]; [congruence|]. cbn [onto]. rewrite <- !app_assoc. reflexivity.
Qed.
Lemma cut_free a : ~ In 59 a -> cut false a = [a].
Proof. intro H. rewrite <- (app_nil_r a) at 1. rewrite cut_app by auto. destruct (after_quotes false a); cbn; rewrite app_nil_r; auto. Qed.
Definition filled (p : str) : bool := match p with [] => false | _ => true end.
Lemma orders_at body : ~ In 13 body -> orders ((lit "AT" ++ body) ++ CR) = filter filled (cut false body).
Proof.
  intro H. unfold orders, CR. rewrite cr_lines_app; [|change (lit "AT" ++ body) with (65 :: 84 :: body); intros [E|[E|E]]; try discriminate; auto].
  cbn [flat_map cr_lines]. rewrite app_nil_r. reflexivity.
Qed.
(** one command, without semicolons *)
Lemma orders_free body : bare body \/ (~ In 13 body /\ ~ In 59 body) -> body <> [] -> orders ((lit "AT" ++ body) ++ CR) = [body].
Proof.
  intros H N. assert (~ In 13 body /\ ~ In 59 body) as [A B] by (destruct H as [(?&?&?)|]; auto).
  rewrite orders_at, cut_free by auto. cbn [filter]. destruct body; [congruence|reflexivity].
Qed.
(** one command with an argument in quotes *)
Lemma orders_quoted p s b : ~ In 13 p -> ~ In 59 p -> after_quotes false p = false -> quotable s -> ~ In 13 b -> ~ In 59 b ->
  orders ((lit "AT" ++ p ++ in_quotes s ++ b) ++ CR) = [p ++ in_quotes s ++ b].
Proof.
  intros P1 P2 P3 [S1 S2] B1 B2. rewrite orders_at.
  - rewrite cut_quotes, cut_free by auto. cbn [onto filter filled]. rewrite <- app_assoc. destruct p; reflexivity.
  - unfold in_quotes. rewrite !in_app_iff. cbn [In]. intros [?|[[[?|[]]|[?|[?|[]]]]|?]]; auto; discriminate.
Qed.
Lemma message_text t b : textual t -> message (t ++ 26 :: b) = Some (t, b).
Proof.
  intros [A B]. induction t as [|c t IH]; [reflexivity|]. cbn [List.app message].
  destruct (Z.eqb_spec c 26) as [->|N]; [destruct A; left; auto|]. destruct (Z.eqb_spec c 27) as [->|N']; [destruct B; left; auto|].
  rewrite IH; auto; intro I; [apply A|apply B]; right; auto.
Qed.

(** numbers *)
Lemma digit_bare s : Forall (fun c => is_digit c = true) s -> bare s.
Proof.
  intro F. rewrite Forall_forall in F. repeat split; intro I; apply F in I; discriminate.
Qed.
Lemma dec_digits_digits f n : 0 <= n -> Forall (fun c => is_digit c = true) (dec_digits f n).
Proof.
  revert n. induction f as [|f IH]; intros n H; cbn [dec_digits]; [constructor|].
  assert (S1 : forall d, 0 <= d < 10 -> is_digit (48 + d) = true) by (intros d Hd; unfold is_digit; apply andb_true_intro; split; apply Z.leb_le; lia).
  destruct (Z.ltb_spec n 10).
  - repeat constructor. apply S1; lia.
  - apply Forall_app. split; [apply IH, Z.div_pos; lia|]. repeat constructor. apply S1. apply Z.mod_pos_bound. lia.
Qed.
Lemma bare_app a b : bare a -> bare b -> bare (a ++ b).
Proof. intros (A1 & A2 & A3) (B1 & B2 & B3). repeat split; rewrite in_app_iff; intros [I|I]; auto. Qed.
Lemma str_of_Z_bare n : bare (str_of_Z n).
Proof.
  unfold str_of_Z. destruct (Z.ltb_spec n 0).
  - apply (bare_app [45]); [repeat split; intros [I|[]]; discriminate|]. apply digit_bare, dec_digits_digits. lia.
  - apply digit_bare, dec_digits_digits. lia.
Qed.
Ltac bare_lit := repeat split; cbn; intuition discriminate.

(** ** Every text that a method writes *)
Section Says.
  Context (J : modem -> Prop) (H : reply -> Prop).
  Definition says {A} (P : str -> Prop) (Q : A -> Prop) (c : M A) : Prop := forall w, J (dev w) -> Forall H (script w) ->
    J (dev (last_of (c w))) /\ Forall H (script (last_of (c w))) /\
    (exists evs, trace (last_of (c w)) = trace w ++ evs /\ Forall P (writes_of evs)) /\
    (forall x w', c w = Done (Ok x) w' -> Q x).
  Context (HJ : forall v m, J m -> J (set_writeWait v m)).

  Lemma says_weak {A} (P P' : str -> Prop) (Q Q' : A -> Prop) c : says P Q c -> (forall t, P t -> P' t) -> (forall x, Q x -> Q' x) -> says P' Q' c.
  Proof.
    intros S HP HQ w Jw Hw. destruct (S w Jw Hw) as (A1 & A2 & (evs & T & F) & A3). repeat split; auto; [|intros; apply HQ; eauto].
    exists evs. split; auto. eapply Forall_impl; eauto.
  Qed.
  Lemma quiet (tr : list event) (P : str -> Prop) : exists evs, tr = tr ++ evs /\ Forall P (writes_of evs).
  Proof. exists []. rewrite app_nil_r. split; auto. constructor. Qed.
  Lemma says_ret {A} P (Q : A -> Prop) x : Q x -> says P Q (ret x).
  Proof. intros q w Jw Hw. cbn. repeat split; auto; [apply quiet|]. intros ? ? [= <- _]. auto. Qed.
  Lemma says_raise {A} P (Q : A -> Prop) e : says P Q (raise e).
  Proof. intros w Jw Hw. cbn. repeat split; auto; [apply quiet|]. intros ? ? [=]. Qed.
  Lemma says_lift {A} P (Q : A -> Prop) (r : res A) : (forall x, r = Ok x -> Q x) -> says P Q (lift r).
  Proof. intros q w Jw Hw. cbn. repeat split; auto; [apply quiet|]. intros ? ? [= E _]. auto. Qed.
  Lemma says_get P : says P J get.
  Proof. intros w Jw Hw. cbn. repeat split; auto; [apply quiet|]. intros ? ? [= <- _]. auto. Qed.
  Lemma says_modify P (Q : unit -> Prop) f : Q tt -> (forall m, J m -> J (f m)) -> says P Q (modify f).
  Proof. intros q Hf w Jw Hw. cbn. repeat split; auto; [apply quiet|]. intros [] ? _. auto. Qed.
  Lemma says_tell P (Q : unit -> Prop) e : Q tt -> (forall t r, e <> EWrite t r) -> says P Q (tell e).
  Proof.
    intros q He w Jw Hw. cbn. repeat split; auto; [|intros [] ? _; auto]. exists [e]. split; auto. unfold writes_of. cbn.
    destruct e; try solve [constructor]. destruct (He text r eq_refl).
  Qed.
  Lemma writes_app a b : writes_of (a ++ b) = writes_of a ++ writes_of b. Proof. apply flat_map_app. Qed.
  Lemma says_bind {A B} P (Q : A -> Prop) (R : B -> Prop) c (k : A -> M B) : says P Q c -> (forall x, Q x -> says P R (k x)) -> says P R (mbind c k).
  Proof.
    intros S1 S2 w Jw Hw. destruct (S1 w Jw Hw) as (A1 & A2 & (evs & T & F) & A3). unfold mbind.
    destruct (c w) as [[x|e] w1|w1]; cbn [last_of] in *; try (repeat split; eauto; intros; discriminate).
    destruct (S2 x (A3 _ _ eq_refl) w1 A1 A2) as (B1 & B2 & (evs' & T' & F') & B3). repeat split; auto.
    exists (evs ++ evs'). rewrite T', T, app_assoc, writes_app. split; auto. apply Forall_app. auto.
  Qed.
  Lemma says_try {A} P (Q : A -> Prop) c h : says P Q c -> (forall e k, h e = Some k -> says P Q k) -> says P Q (try_except c h).
  Proof.
    intros S1 S2 w Jw Hw. destruct (S1 w Jw Hw) as (A1 & A2 & (evs & T & F) & A3). unfold try_except.
    destruct (c w) as [[x|e] w1|w1]; cbn [last_of] in *; try (repeat split; eauto; intros; discriminate).
    destruct (h e) as [k|] eqn:E; [|cbn [last_of]; repeat split; eauto; intros; discriminate].
    destruct (S2 e k E w1 A1 A2) as (B1 & B2 & (evs' & T' & F') & B3). repeat split; auto.
    exists (evs ++ evs'). rewrite T', T, app_assoc, writes_app. split; auto. apply Forall_app. auto.
  Qed.
  Lemma paused_app wait tr : exists evs, paused wait tr = tr ++ evs /\ writes_of evs = [].
  Proof. unfold paused. destruct (0 <? wait); [exists [ESleep wait]; auto|exists []; rewrite app_nil_r; auto]. Qed.
  Lemma write_on_says (P : str -> Prop) data term pe : P (data ++ term) -> forall sc m tr, J m -> Forall H sc ->
    let o := write_on sc m tr data term pe in
    J (dev (last_of o)) /\ Forall H (script (last_of o)) /\ (exists evs, trace (last_of o) = tr ++ evs /\ Forall P (writes_of evs)) /\
    (forall x w', o = Done (Ok x) w' -> H (Lines x)).
  Proof.
    intro Pd. induction sc as [|r sc IH]; intros m tr Jm Hs; cbn [write_on].
    - cbn. repeat split; auto; [apply quiet|intros; discriminate].
    - inversion Hs as [|? ? Hr Hs']; subst.
      assert (E1 : forall tr', tr' = tr ++ [EWrite (data ++ term) (Some r)] -> exists evs, tr' = tr ++ evs /\ Forall P (writes_of evs)).
      { intros ? ->. exists [EWrite (data ++ term) (Some r)]. split; auto. repeat constructor; auto. }
      cbv zeta. destruct r as [ls|[|l ls]]; [|cbn; repeat split; auto; intros; discriminate|cbn; repeat split; auto; intros; discriminate].
      destruct (paused_app (writeWait m) (tr ++ [EWrite (data ++ term) (Some (Lines ls))])) as (pe' & Ep & Wp).
      assert (E2 : exists evs, paused (writeWait m) (tr ++ [EWrite (data ++ term) (Some (Lines ls))]) = tr ++ evs /\ Forall P (writes_of evs)).
      { rewrite Ep. exists (EWrite (data ++ term) (Some (Lines ls)) :: pe'). rewrite <- app_assoc. split; auto. cbn. fold (writes_of pe'). rewrite Wp. repeat constructor; auto. }
      destruct (rev ls) as [|line l]; [cbn; repeat split; auto; intros; discriminate|].
      destruct pe; [|cbn; repeat split; auto; intros ? ? [= <- _]; auto].
      destruct (judge data line) as [|e|code]; [cbn; repeat split; auto; intros ? ? [= <- _]; auto|cbn; repeat split; auto; intros; discriminate|].
      destruct E2 as (ev2 & E2 & F2). rewrite E2. set (m' := set_writeWait (writeWait m + 2) m).
      specialize (IH m' ((tr ++ ev2) ++ [ESleep (writeWait m')]) (HJ _ _ Jm) Hs'). cbv zeta in IH.
      destruct IH as (I1 & I2 & (ev3 & T3 & F3) & I4).
      assert (T4 : exists evs, trace (last_of (write_on sc m' ((tr ++ ev2) ++ [ESleep (writeWait m')]) data term true)) = tr ++ evs /\ Forall P (writes_of evs)).
      { rewrite T3. exists (ev2 ++ ESleep (writeWait m') :: ev3). rewrite <- !app_assoc. split; auto. rewrite writes_app. apply Forall_app. split; auto. }
      destruct (write_on sc m' _ data term true) as [[x|e] w|w]; cbn [last_of dev script trace] in *; repeat split; auto.
      intros ? ? [= <- _]. eapply I4. reflexivity.
  Qed.
  Lemma says_write_with (P : str -> Prop) data term pe : P (data ++ term) -> says P (fun ls => H (Lines ls)) (write_with data term pe).
  Proof. intros Pd w Jw Hw. apply (write_on_says P data term pe Pd (script w) (dev w) (trace w) Jw Hw). Qed.
  Lemma says_nowait (P : str -> Prop) (Q : unit -> Prop) data : Q tt -> P (data ++ CR) -> says P Q (write_nowait data).
  Proof.
    intros q Pd w Jw Hw. cbn. repeat split; auto; [|intros [] ? _; auto].
    destruct (paused_app (writeWait (dev w)) (trace w ++ [EWrite (data ++ CR) None])) as (pe & -> & Wp). exists (EWrite (data ++ CR) None :: pe).
    rewrite <- app_assoc. split; auto. cbn. fold (writes_of pe). rewrite Wp. repeat constructor; auto.
  Qed.
End Says.
Definition anyQ {A} : A -> Prop := fun _ => True.
Lemma says_start {A} (J : modem -> Prop) (H : reply -> Prop) (P : str -> Prop) (Q : A -> Prop) c m sc : says J H P Q c -> J m -> Forall H sc -> Forall P (sent c m sc).
Proof. intros S Jm Hs. destruct (S (start m sc) Jm Hs) as (_ & _ & (evs & T & F) & _). unfold sent. rewrite T. cbn. auto. Qed.

(** ** The methods *)
Definition anyJ (m : modem) : Prop := True.
Definition anyH (r : reply) : Prop := True.
Lemma anyJ_wait v m : anyJ m -> anyJ (set_writeWait v m). Proof. auto. Qed.
Lemma all_any (sc : list reply) : Forall anyH sc. Proof. apply Forall_forall. intros; exact I. Qed.
Lemma said {A} (P : str -> Prop) (c : M A) : says anyJ anyH P anyQ c -> forall m sc, Forall P (sent c m sc).
Proof. intros S m sc. eapply says_start; [apply S|exact I|apply all_any]. Qed.
(** the steps that write nothing *)
Ltac still :=
  first [ apply says_ret; exact I | apply says_raise | apply says_lift; intros; exact I | apply says_modify; [exact I|intros; exact I]
        | apply says_tell; [exact I|discriminate] ].
Ltac bind_any := eapply says_bind with (Q := anyQ); [|intros ? _].
Ltac write_any_ P := eapply says_weak; [apply (says_write_with anyJ anyH anyJ_wait P)|auto|intros; exact I].
Ltac steps P :=
  repeat first
  [ still
  | eapply says_bind with (Q := anyQ); [|intros ? _]
  | (eapply says_weak; [apply (says_get anyJ anyH P)|auto|intros; exact I])
  | apply says_try; [|intros ? ? ?]
  | match goal with E : Some _ = Some _ |- _ => injection E as <- end
  | match goal with E : None = Some _ |- _ => discriminate E end
  | match goal with E : (if ?b then _ else _) = Some _ |- _ => destruct b end
  | match goal with E : (match ?b with _ => _ end) = Some _ |- _ => destruct b end
  | match goal with |- says _ _ _ _ (if ?b then _ else _) => destruct b end
  | match goal with |- says _ _ _ _ (match ?b with _ => _ end) => destruct b end ].


Lemma ussd_text s : quotable s -> orders ((lit "AT+CUSD=1,""" ++ s ++ lit """,15") ++ CR) = [lit "+CUSD=1," ++ in_quotes s ++ lit ",15"].
Proof.
  intro H. rewrite <- (orders_quoted (lit "+CUSD=1,") s (lit ",15")); auto; try solve [bare_lit | reflexivity].
  f_equal. f_equal. unfold in_quotes. rewrite <- !app_assoc. reflexivity.
Qed.
Lemma ussd_says s : quotable s -> forall m sc, Forall (fun t => orders t = [lit "+CUSD=1," ++ in_quotes s ++ lit ",15"]) (sent (sendUssd_start s) m sc).
Proof.
  intro Hs. apply said. unfold sendUssd_start. set (P := fun t => orders t = _). steps P.
  unfold write. write_any_ P. apply ussd_text. auto.
Qed.
Lemma dial_text n : bare n -> orders ((lit "ATD" ++ n ++ lit ";") ++ CR) = [lit "D" ++ n].
Proof.
  intros (A & B & C). change (lit "ATD" ++ n ++ lit ";") with (lit "AT" ++ (lit "D" ++ n ++ [59])). rewrite orders_at.
  - rewrite app_assoc, cut_app by (cbn; intros [E|E]; [discriminate|auto]).
    assert (Q : forall q s, ~ In 34 s -> after_quotes q s = q).
    { intros q s. revert q. induction s as [|c s IH]; intros q Hq; [reflexivity|]. cbn. destruct (Z.eqb_spec c 34) as [->|N]; [destruct Hq; left; auto|]. apply IH. intro I. apply Hq. right. auto. }
    rewrite Q by (cbn; intros [E|E]; [discriminate|auto]). cbn [cut andb negb onto]. change (59 =? 59) with true. cbn. rewrite app_nil_r. reflexivity.
  - cbn. rewrite in_app_iff. cbn. intuition discriminate.
Qed.
Lemma dial_says n callback : bare n -> forall m sc, Forall (fun t => orders t = [lit "D" ++ n]) (sent (dial_start n callback) m sc).
Proof.
  intro Hn. apply said. unfold dial_start. set (P := fun t => orders t = _).
  unfold atd, add_call. steps P.
  all: first [unfold write; write_any_ P; apply dial_text; auto|apply says_nowait; [exact I|apply dial_text; auto]].
Qed.
Lemma quoted_text p s : ~ In 13 p -> ~ In 59 p -> after_quotes false p = false -> quotable s -> orders ((lit "AT" ++ p ++ lit """" ++ s ++ lit """") ++ CR) = [p ++ in_quotes s].
Proof.
  intros A B C D. pose proof (orders_quoted p s [] A B C D ltac:(auto) ltac:(auto)) as O. rewrite !app_nil_r in O. exact O.
Qed.
Lemma centre_says n : quotable n -> forall m sc, Forall (fun t => orders t = [lit "+CSCA=" ++ in_quotes n]) (sent (set_smsc n) m sc).
Proof.
  intro Hn. apply said. unfold set_smsc. set (P := fun t => orders t = _). steps P. unfold write. write_any_ P.
  apply (quoted_text (lit "+CSCA=") n); auto; try solve [bare_lit | reflexivity].
Qed.
Lemma pdu_says number text flash report m sc : smsTextMode m = false ->
  Forall (fun t => (exists n, 0 <= n /\ orders t = [lit "+CMGS=" ++ str_of_Z n]) \/
                   (exists hex, Forall (fun c => 48 <= c <= 57 \/ 65 <= c <= 70) hex /\ message t = Some (hex, []) /\ orders t = []))
    (sent (sendSms number text flash report) m sc).
Proof.
  intro Hm. set (P := fun t => _ \/ _).
  assert (S : says (fun m => smsTextMode m = false) anyH P anyQ (sendSms number text flash report)).
  { assert (HJ : forall v m, smsTextMode m = false -> smsTextMode (set_writeWait v m) = false) by auto.
    unfold sendSms. eapply says_bind; [apply says_get|]. cbv beta. intros m0 E. rewrite E.
    eapply says_bind with (Q := anyQ).
    - eapply says_bind with (Q := fun pdus => Forall (fun p => octets_ok (pdu_data p) /\ 0 <= pdu_tpduLength p) pdus).
      + apply says_lift. intros pdus Ep. apply pdus_fine in Ep. apply Ep.
      + intros pdus F. generalize (@None str). induction F as [|p pdus [Fo Fl] _ IH]; intro r; cbn [send_pdus]; [apply says_ret; exact I|].
        eapply says_bind with (Q := anyQ).
        * eapply says_weak; [apply (says_write_with _ _ HJ P)|auto|intros; exact I]. left. exists (pdu_tpduLength p). split; auto.
          apply (orders_free (lit "+CMGS=" ++ str_of_Z (pdu_tpduLength p))); [|discriminate]. left. apply bare_app; [bare_lit|apply str_of_Z_bare].
        * intros ? _. eapply says_bind with (Q := anyQ); [|intros; apply IH].
          eapply says_weak; [apply (says_write_with _ _ HJ P)|auto|intros; exact I]. right. exists (pdu_str (pdu_data p)).
          destruct (hex_final _ Fo) as (_ & Fh & _). rewrite Forall_forall in Fh. split; [apply Forall_forall; auto|]. split.
          -- apply message_text. split; intro I; apply Fh in I; lia.
          -- unfold orders. rewrite cr_lines_none; auto. unfold CTRL_Z. rewrite in_app_iff. cbn. intros [I|[I|[]]]; [apply Fh in I; lia|discriminate].
    - intros [line|] _; [|apply says_raise].
      repeat first [ apply says_ret; exact I | apply says_lift; intros; exact I | apply says_modify; [exact I|intros; assumption] | eapply says_bind with (Q := anyQ); [|intros ? _]
        | (eapply says_weak with (P := P); [apply says_get|auto|intros; exact I]) | match goal with |- says _ _ _ _ (if ?b then _ else _) => destruct b end ]. }
  eapply says_start; [apply S|auto|apply all_any].
Qed.
Lemma text_says number text flash report m sc : smsTextMode m = true -> quotable number -> textual text ->
  Forall (fun t => orders t = [lit "+CMGS=" ++ in_quotes number] \/ (message t = Some (text, []) /\ (~ In 13 text -> orders t = [])))
    (sent (sendSms number text flash report) m sc).
Proof.
  intros Hm Hn Ht. set (P := fun t => _ \/ _).
  assert (S : says (fun m => smsTextMode m = true) anyH P anyQ (sendSms number text flash report)).
  { assert (HJ : forall v m, smsTextMode m = true -> smsTextMode (set_writeWait v m) = true) by auto.
    unfold sendSms. eapply says_bind; [apply says_get|]. cbv beta. intros m0 E. rewrite E.
    eapply says_bind with (Q := anyQ).
    - unfold send_text. eapply says_bind with (Q := anyQ).
      + eapply says_weak; [apply (says_write_with _ _ HJ P)|auto|intros; exact I]. left.
        apply (quoted_text (lit "+CMGS=") number); auto; try solve [bare_lit | reflexivity].
      + intros ? _. eapply says_bind with (Q := anyQ); [|intros; apply says_ret; exact I].
        eapply says_weak; [apply (says_write_with _ _ HJ P)|auto|intros; exact I]. right. split; [apply message_text; auto|].
        intro N. unfold orders. rewrite cr_lines_none; auto. unfold CTRL_Z. rewrite in_app_iff. cbn. intros [I|[I|[]]]; [auto|discriminate].
    - intros [line|] _; [|apply says_raise].
      repeat first [ apply says_ret; exact I | apply says_lift; intros; exact I | apply says_modify; [exact I|intros; assumption] | eapply says_bind with (Q := anyQ); [|intros ? _]
        | (eapply says_weak with (P := P); [apply says_get|auto|intros; exact I]) | match goal with |- says _ _ _ _ (if ?b then _ else _) => destruct b end ]. }
  eapply says_start; [apply S|auto|apply all_any].
Qed.

(** *** Stored messages *)
Section Stored.
  Context (P : str -> Prop).
  Lemma memory_says memory : (forall t mem, memory = Some mem -> orders t = [lit "+CPMS=" ++ in_quotes mem] -> P t) -> opt_all quotable memory ->
    says anyJ anyH P anyQ (setSmsMemory memory None).
  Proof.
    intros HP Hm. unfold setSmsMemory. destruct memory as [mem|]; steps P. unfold write. write_any_ P.
    eapply HP; [reflexivity|]. apply (quoted_text (lit "+CPMS=") mem); auto; try solve [bare_lit | reflexivity].
  Qed.
  Lemma free_says c : (forall t, orders t = [c] -> P t) -> (bare c \/ ~ In 13 c /\ ~ In 59 c) -> c <> [] -> says anyJ anyH P anyQ (write (lit "AT" ++ c)).
  Proof. intros HP Hc N. unfold write. write_any_ P. apply HP, orders_free; auto. Qed.
  Lemma read_says_ index memory : (forall t mem, memory = Some mem -> orders t = [lit "+CPMS=" ++ in_quotes mem] -> P t) ->
    (forall t, orders t = [lit "+CMGR=" ++ index] -> P t) -> bare index -> opt_all quotable memory -> says anyJ anyH P anyQ (readStoredSms index memory).
  Proof.
    intros H1 H2 Hi Hm. unfold readStoredSms. bind_any; [apply memory_says; auto|]. bind_any; [|steps P].
    apply (free_says (lit "+CMGR=" ++ index)); [auto|left; apply bare_app; [bare_lit|auto]|discriminate].
  Qed.
  Lemma delete_says_ index memory : (forall t mem, memory = Some mem -> orders t = [lit "+CPMS=" ++ in_quotes mem] -> P t) ->
    (forall t, orders t = [lit "+CMGD=" ++ index ++ lit ",0"] -> P t) -> bare index -> opt_all quotable memory -> says anyJ anyH P anyQ (deleteStoredSms index memory).
  Proof.
    intros H1 H2 Hi Hm. unfold deleteStoredSms. bind_any; [apply memory_says; auto|]. bind_any; [|steps P].
    apply (free_says (lit "+CMGD=" ++ index ++ lit ",0")); [auto|left; repeat apply bare_app; auto; bare_lit|discriminate].
  Qed.
  Lemma multiple_says_ flag memory : (forall t mem, memory = Some mem -> orders t = [lit "+CPMS=" ++ in_quotes mem] -> P t) ->
    (forall t, orders t = [lit "+CMGD=1," ++ str_of_Z flag] -> P t) -> opt_all quotable memory -> says anyJ anyH P anyQ (deleteMultipleStoredSms flag memory).
  Proof.
    intros H1 H2 Hm. unfold deleteMultipleStoredSms. destruct (_ && _); [|apply says_raise]. bind_any; [apply memory_says; auto|]. bind_any; [|steps P].
    apply (free_says (lit "+CMGD=1," ++ str_of_Z flag)); [auto|left; apply bare_app; [bare_lit|apply str_of_Z_bare]|discriminate].
  Qed.
  Lemma list_says_ status memory delete : (forall t mem, memory = Some mem -> orders t = [lit "+CPMS=" ++ in_quotes mem] -> P t) ->
    (forall t s, orders t = [lit "+CMGL=" ++ s] -> P t) -> (forall t s, orders t = [lit "+CMGD=" ++ s] -> P t) -> opt_all quotable memory ->
    says anyJ anyH P anyQ (listStoredSms status memory delete).
  Proof.
    intros H1 H2 H3 Hm. unfold listStoredSms. bind_any; [apply memory_says; auto|]. bind_any; [steps P|]. bind_any.
    - destruct (smsTextMode _).
      + destruct (status_text status) as [s|] eqn:E; [|apply says_raise]. bind_any; [|steps P].
        unfold write. write_any_ P. eapply H2. apply (quoted_text (lit "+CMGL=") s); try solve [bare_lit | reflexivity].
        unfold status_text in E. destruct (find _ _) as [p|] eqn:F; [|discriminate]. apply find_some in F as [F _]. injection E as <-.
        repeat (destruct F as [<-|F]; [bare_lit|]). destruct F.
      + bind_any; [|steps P]. apply (free_says (lit "+CMGL=" ++ str_of_Z status)); [eauto|left; apply bare_app; [bare_lit|apply str_of_Z_bare]|discriminate].
    - bind_any; [|steps P]. destruct delete; [|steps P]. destruct (status =? 4).
      + apply multiple_says_; try exact I; [discriminate|]. intros t. apply (H3 t (lit "1," ++ str_of_Z 4)).
      + match goal with |- says _ _ _ _ (delete_each ?l) => generalize l end. intro d. induction d as [|i d IH]; cbn [delete_each]; [steps P|]. bind_any; [|apply IH].
        apply delete_says_; try exact I; [discriminate|eauto|apply str_of_Z_bare].
  Qed.
End Stored.
Lemma one_intro cs c t : In c cs -> orders t = [c] -> one_of cs t.
Proof. intros. exists c. auto. Qed.
Lemma read_says index memory : bare index -> opt_all quotable memory -> forall m sc,
  Forall (one_of (memory_order memory ++ [lit "+CMGR=" ++ index])) (sent (readStoredSms index memory) m sc).
Proof.
  intros. apply said, read_says_; auto; intros t.
  - intros mem -> E. eapply one_intro; [|apply E]. left. auto.
  - intro E. eapply one_intro; [|apply E]. apply in_app_iff. right. left. auto.
Qed.
Lemma delete_says index memory : bare index -> opt_all quotable memory -> forall m sc,
  Forall (one_of (memory_order memory ++ [lit "+CMGD=" ++ index ++ lit ",0"])) (sent (deleteStoredSms index memory) m sc).
Proof.
  intros. apply said, delete_says_; auto; intros t.
  - intros mem -> E. eapply one_intro; [|apply E]. left. auto.
  - intro E. eapply one_intro; [|apply E]. apply in_app_iff. right. left. auto.
Qed.
Lemma multiple_says flag memory : opt_all quotable memory -> forall m sc,
  Forall (one_of (memory_order memory ++ [lit "+CMGD=1," ++ str_of_Z flag])) (sent (deleteMultipleStoredSms flag memory) m sc).
Proof.
  intros. apply said, multiple_says_; auto; intros t.
  - intros mem -> E. eapply one_intro; [|apply E]. left. auto.
  - intro E. eapply one_intro; [|apply E]. apply in_app_iff. right. left. auto.
Qed.
Lemma list_says status memory delete : opt_all quotable memory -> forall m sc,
  Forall (fun t => exists c, orders t = [c] /\ (In c (memory_order memory) \/ verb c = lit "+CMGL" \/ verb c = lit "+CMGD")) (sent (listStoredSms status memory delete) m sc).
Proof.
  intros. apply said, list_says_; auto; intros t.
  - intros mem -> E. eexists. split; [apply E|]. left. left. auto.
  - intros s E. eexists. split; [apply E|]. auto.
  - intros s E. eexists. split; [apply E|]. auto.
Qed.

(** *** Tones *)
Lemma join_tones base t0 ts : tone t0 -> Forall tone ts -> forall args, nth_error args 0 = Some base ->
  py_format (join (lit ";{0}") (map (fun c => [c]) (t0 :: ts))) args = Ok (t0 :: flat_map (fun c => 59 :: base ++ [c]) ts).
Proof.
  intros H0 F args E. revert t0 H0. induction F as [|t ts Ht F IH]; intros t0 (A & B & C & D & G).
  - cbn. destruct (Z.eqb_spec t0 123); [congruence|]. destruct (Z.eqb_spec t0 125); [congruence|]. reflexivity.
  - change (join (lit ";{0}") (map (fun c => [c]) (t0 :: t :: ts))) with (t0 :: 59 :: 123 :: 48 :: 125 :: join (lit ";{0}") (map (fun c => [c]) (t :: ts))).
    cbn [py_format]. destruct (Z.eqb_spec t0 123); [congruence|]. destruct (Z.eqb_spec t0 125); [congruence|].
    change (59 =? 123) with false. change (59 =? 125) with false. change (123 =? 123) with true. change (48 =? 123) with false. change (125 =? 125) with true. change (is_digit 48) with true. cbv iota.
    cbn [andb]. change (Z.to_nat (48 - 48)) with 0%nat. rewrite E. rewrite IH by auto. cbn [bind flat_map List.app]. rewrite <- ?app_assoc. reflexivity.
Qed.
Lemma tones_command base t0 ts : tone t0 -> Forall tone ts -> dtmf_command base (t0 :: ts) = Ok (lit "AT" ++ base ++ t0 :: flat_map (fun c => 59 :: base ++ [c]) ts).
Proof.
  intros H0 F. destruct ts as [|t1 ts].
  - reflexivity.
  - unfold dtmf_command. inversion F; subst.
    change (lit "AT{0}{1};{0}" ++ join (lit ";{0}") (map (fun c => [c]) (t1 :: ts))) with (65 :: 84 :: 123 :: 48 :: 125 :: 123 :: 49 :: 125 :: 59 :: 123 :: 48 :: 125 :: join (lit ";{0}") (map (fun c => [c]) (t1 :: ts))).
    set (j := join _ _). assert (J : py_format j [base; [t0]] = Ok (t1 :: flat_map (fun c => 59 :: base ++ [c]) ts)) by (apply join_tones; auto).
    clearbody j. cbn [py_format Z.eqb Pos.eqb]. change ((125 =? 125) && is_digit 48) with true. change ((125 =? 125) && is_digit 49) with true. cbv iota.
    change (Z.to_nat (48 - 48)) with 0%nat. change (Z.to_nat (49 - 48)) with 1%nat. cbn [nth_error]. rewrite J. cbn [bind flat_map List.app]. rewrite <- ?app_assoc. reflexivity.
Qed.
Lemma after_plain s : ~ In 34 s -> forall q, after_quotes q s = q.
Proof.
  induction s as [|c s IH]; intros H q; [reflexivity|]. cbn. destruct (Z.eqb_spec c 34) as [->|N]; [destruct H; left; auto|]. apply IH. intro I. apply H. right. auto.
Qed.
Lemma cut_bare a b : bare a -> cut false (a ++ 59 :: b) = a :: cut false b.
Proof. intros (A & B & C). rewrite cut_app, after_plain by auto. cbn. rewrite app_nil_r. auto. Qed.
Lemma cut_tones base t0 ts : bare base -> tone t0 -> Forall tone ts ->
  cut false (base ++ t0 :: flat_map (fun c => 59 :: base ++ [c]) ts) = map (fun c => base ++ [c]) (t0 :: ts).
Proof.
  intros Hb H0 F. revert t0 H0. induction F as [|t ts Ht F IH]; intros t0 (A & B & C & _).
  - cbn [flat_map map]. apply cut_free. destruct Hb as (_ & _ & Hb). rewrite in_app_iff. cbn. intuition.
  - cbn [flat_map]. cbn [List.app]. rewrite <- app_assoc. change (base ++ t0 :: 59 :: base ++ [t] ++ flat_map (fun c => 59 :: base ++ [c]) ts) with (base ++ [t0] ++ 59 :: base ++ t :: flat_map (fun c => 59 :: base ++ [c]) ts).
    rewrite app_assoc, cut_bare, IH by (auto; apply bare_app; auto; repeat split; cbn; intuition). reflexivity.
Qed.
Lemma base_bare m id : bare (dtmf_base m id).
Proof. unfold dtmf_base. destruct (dtmfHuawei m); [repeat apply bare_app; try apply str_of_Z_bare|]; bare_lit. Qed.
Lemma tones_orders base t0 ts : bare base -> base <> [] -> tone t0 -> Forall tone ts ->
  orders ((lit "AT" ++ base ++ t0 :: flat_map (fun c => 59 :: base ++ [c]) ts) ++ CR) = map (fun c => base ++ [c]) (t0 :: ts).
Proof.
  intros Hb N H0 F. rewrite orders_at.
  - rewrite cut_tones by auto. assert (X : forall l, filter filled (map (fun c : Z => base ++ [c]) l) = map (fun c => base ++ [c]) l).
    { induction l as [|c l IH]; [reflexivity|]. cbn [map filter]. rewrite IH. destruct base; [congruence|reflexivity]. }
    apply X.
  - destruct Hb as (Hb & _ & _). destruct H0 as (H0 & _). rewrite in_app_iff. intros [I|[I|I]]; [auto|auto|]. apply in_flat_map in I as (c & Ic & I). rewrite Forall_forall in F.
    destruct (F c Ic) as (Hc & _). destruct I as [I|I]; [discriminate|]. apply in_app_iff in I as [I|[I|[]]]; auto.
Qed.
Lemma tones_says n t0 ts m sc : tone t0 -> Forall tone ts -> Forall (fun t => orders t = map (fun c => dtmf_base m (c_id (the_call m n)) ++ [c]) (t0 :: ts)) (sent (sendDtmfTone n (t0 :: ts)) m sc).
Proof.
  intros H0 F. set (P := fun t => _ = _). set (base := dtmf_base m (c_id (the_call m n))) in P.
  assert (S : forall w, dev w = m -> Forall P (writes_of (trace w)) -> Forall P (writes_of (trace (last_of (sendDtmfTone n (t0 :: ts) w))))).
  { intros w E Fw. unfold sendDtmfTone. unfold mbind at 1. unfold get. rewrite E. destruct (c_answered (the_call m n)); [|auto].
    fold base. rewrite tones_command by auto. unfold mbind at 1. cbn [lift].
    set (cmd := lit "AT" ++ base ++ _).
    assert (S : says anyJ anyH P (@anyQ unit) (try_except (write cmd ;;; ret tt) (fun e => match cme_code e with Some code => if code =? 30 then Some (raise (InterruptedException 30)) else if code =? 3 then Some (raise (InterruptedException 3)) else None | None => None end))).
    { steps P. unfold write. write_any_ P. apply tones_orders; auto; [apply base_bare|]. unfold base, dtmf_base. destruct (dtmfHuawei m); discriminate. }
    destruct (S w Logic.I (all_any _)) as (_ & _ & (evs & T & Fe) & _). unfold lift. rewrite T, writes_app. apply Forall_app. auto. }
  apply S; [reflexivity|constructor].
Qed.

(** *** Notifications *)
Lemma in_app_l {A} (x : A) a b : ~ In x (a ++ b) -> ~ In x a /\ ~ In x b.
Proof. rewrite in_app_iff. tauto. Qed.
Lemma indication_bare r line w : (r = CMTI_REGEX \/ r = CDSI_REGEX) -> re_match r line = Some w -> ~ In 13 line -> quotable (group 1 w) /\ bare (group 2 w).
Proof.
  destruct w as [[t g] rest]. intros Hr H N. apply re_match_some in H as [-> L].
  assert (X : exists a b mem ds, t = a ++ mem ++ b /\ g = [mem; ds] /\ ~ In 34 mem /\ Forall (fun c => is_digit c = true) ds).
  { destruct Hr as [->| ->]; [unfold CMTI_REGEX in L|unfold CDSI_REGEX in L]; lang_inv L; apply (c_not_not_in 34) in F0.
    - exists (lit "+CMTI:" ++ a ++ [34]), (lit """," ++ a1 ++ []), a0, a1. rewrite <- !app_assoc. auto.
    - exists (lit "+CDSI:" ++ a ++ [34]), (lit """," ++ a1 ++ []), a0, a1. rewrite <- !app_assoc. auto. }
  destruct X as (a & b & mem & ds & -> & -> & Q & D). unfold group. cbn [groups fst snd nth Nat.sub].
  apply in_app_l in N as [N _]. apply in_app_l in N as [_ N]. apply in_app_l in N as [N _]. split; [split; auto|apply digit_bare; auto].
Qed.
Section Notified.
  Let P (t : str) : Prop := exists c, orders t = [c] /\ In (verb c) handler_verbs.
  Lemma notified_intro c t : In (verb c) handler_verbs -> orders t = [c] -> P t.
  Proof. intros. exists c. auto. Qed.
  Lemma stored_indication r line w : (r = CMTI_REGEX \/ r = CDSI_REGEX) -> re_match r line = Some w -> ~ In 13 line ->
    says anyJ anyH P anyQ (readStoredSms (group 2 w) (Some (group 1 w))) /\ says anyJ anyH P anyQ (deleteStoredSms (group 2 w) None).
  Proof.
    intros Hr E N. destruct (indication_bare _ _ _ Hr E N) as [Q B]. split.
    - apply read_says_; auto; intros t; [intros mem _|]; intro O; (eapply notified_intro; [|apply O]); cbn; auto.
    - apply delete_says_; auto; try exact I; [discriminate|]. intros t O. eapply notified_intro; [|apply O]. cbn. auto 6.
  Qed.
  Lemma ring_says l : says anyJ anyH P anyQ (handleIncomingCall l).
  Proof.
    assert (R : forall es number found, says anyJ anyH P anyQ (ring_each es number found)).
    { induction es as [|[i n] es IH]; intros number found; cbn [ring_each]; [steps P|]. bind_any; [steps P|]. destruct (opt_str_eqb _ _); [|apply IH].
      destruct (c_incoming _); [|steps P]. bind_any; [unfold change_call; steps P|apply IH]. }
    unfold handleIncomingCall. destruct l as [|l0 l]; [steps P|]. bind_any; [steps P|]. bind_any; [|bind_any; [steps P|bind_any; [apply R|unfold add_call; steps P]]].
    unfold add_call. steps P.
    apply (free_says P (lit "+CRC=1")); [intros t O; eapply notified_intro; [|apply O]; cbn; auto|right; bare_lit|discriminate].
  Qed.
  Lemma updates_say t line h : try_updates (call_updates t) line = Some h -> says anyJ anyH P anyQ h.
  Proof.
    assert (A : forall n, says anyJ anyH P anyQ (set_answered n true)) by (intro; unfold set_answered, change_call; steps P).
    assert (B : forall n, says anyJ anyH P anyQ (set_answered n false)) by (intro; unfold set_answered, change_call; steps P).
    assert (HI : forall g, says anyJ anyH P anyQ (handleCallInitiated (Some g) 0 1)) by (intro; unfold handleCallInitiated, int_of; steps P).
    assert (HA : forall g, says anyJ anyH P anyQ (handleCallAnswered (Some g) 0)) by (intro; unfold handleCallAnswered, answered_by_id, int_of, set_answered, change_call; steps P).
    assert (HE : forall g b, says anyJ anyH P anyQ (handleCallEnded (Some g) None b)) by (intros; unfold handleCallEnded, int_of, set_answered, change_call; steps P).
    unfold call_updates, handleCallRejected. destruct t; cbn [try_updates]; intro E; try discriminate;
      repeat match type of E with match re_match ?r ?l with _ => _ end = _ => destruct (re_match r l) end; try discriminate; injection E as <-; first [apply HI | apply HE | apply HA].
  Qed.
  Lemma notified_says lines : Forall (fun l => ~ In 13 l) lines -> forall m sc, Forall P (sent (handleNotification lines) m sc).
  Proof.
    intro F. apply said. unfold handleNotification. generalize lines at 1. intro all. induction F as [|l lines N F IH]; cbn [notify_each]; [steps P|].
    destruct (contains l (lit "RING")); [apply ring_says|].
    destruct (startswith l (lit "+CMTI")).
    { unfold handleSmsReceived. destruct (re_match CMTI_REGEX l) as [w|] eqn:E; [|steps P]. destruct (stored_indication _ _ _ (or_introl eq_refl) E N) as [S1 S2].
      bind_any; [apply S1|]. bind_any; [apply S2|steps P]. }
    destruct (startswith l (lit "+CUSD")); [unfold handleUssd; steps P|].
    destruct (startswith l (lit "+CDSI")).
    { unfold handleSmsStatusReport. destruct (re_match CDSI_REGEX l) as [w|] eqn:E; [|steps P]. destruct (stored_indication _ _ _ (or_intror eq_refl) E N) as [S1 S2].
      bind_any; [apply S1|]. bind_any; [apply S2|steps P]. }
    bind_any; [steps P|]. destruct (try_updates _ l) as [h|] eqn:E; [eapply updates_say; eauto|apply IH].
  Qed.
End Notified.

(** *** Setting up *)
Section Setup.
  Context (pin : option str).
  Let J (m : modem) : Prop := opt_all quotable (smscNumber m).
  Let P (t : str) : Prop := exists c, orders t = [c] /\ (In c (unlock_orders pin) \/ In (verb c) setup_verbs).
  Lemma J_wait v m : J m -> J (set_writeWait v m). Proof. auto. Qed.
  Lemma setup_fixed c : bare c -> c <> [] -> In (verb c) setup_verbs \/ In c (unlock_orders pin) -> P ((lit "AT" ++ c) ++ CR).
  Proof. intros B N V. exists c. split; [apply orders_free; auto|]. tauto. Qed.
  Ltac still_ :=
    first [ apply says_ret; exact I | apply says_raise | apply says_lift; intros; exact I | apply says_modify; [exact I|intros; assumption] ].
  Ltac write_fixed := unfold write, write_noparse; eapply says_weak; [apply (says_write_with J honest J_wait P)|auto|intros; exact I];
    match goal with |- P (?d ++ CR) => let d' := eval cbv in d in match d' with 65 :: 84 :: ?c => change (P ((lit "AT" ++ c) ++ CR)); apply setup_fixed; [bare_lit|discriminate|cbn; tauto] end end.
  Ltac steps_ :=
    repeat first
    [ still_
    | eapply says_bind with (Q := anyQ); [|intros ? _]
    | (eapply says_weak; [apply (says_get J honest P)|auto|intros; exact I])
    | apply says_try; [|intros ? ? ?]
    | match goal with E : Some _ = Some _ |- _ => injection E as <- end
    | match goal with E : None = Some _ |- _ => discriminate E end
    | match goal with E : (if ?b then _ else _) = Some _ |- _ => destruct b end
    | match goal with E : (match ?b with _ => _ end) = Some _ |- _ => destruct b end
    | write_fixed
    | match goal with |- says _ _ _ _ (if ?b then _ else _) => destruct b end
    | match goal with |- says _ _ _ _ (match ?b with _ => _ end) => destruct b end ].
  Ltac bind_ := eapply says_bind with (Q := anyQ); [|intros ? _].
  Context (Hpin : opt_all quotable pin).
  Lemma centre_text n : quotable n -> P ((lit "AT+CSCA=""" ++ n ++ lit """") ++ CR).
  Proof.
    intro Hn. exists (lit "+CSCA=" ++ in_quotes n). split; [|right; cbn; tauto]. apply (quoted_text (lit "+CSCA=") n); auto; try solve [bare_lit | reflexivity].
  Qed.
  Lemma unlock_says : says J honest P anyQ (unlockSim pin).
  Proof.
    unfold unlockSim, forget. bind_; [steps_|]. destruct (opt_str_eqb _ _); [steps_|]. destruct pin as [p|] eqn:Ep; [|steps_]. bind_; [|steps_].
    unfold write. eapply says_weak; [apply (says_write_with J honest J_wait P)|auto|intros; exact I].
    exists (lit "+CPIN=" ++ in_quotes p). split; [|left; unfold unlock_orders; rewrite ?Ep; right; left; auto].
    apply (quoted_text (lit "+CPIN=") p); auto; try solve [bare_lit | reflexivity].
  Qed.
  Lemma centre_says_get : says J honest P (opt_all quotable) get_smsc.
  Proof.
    unfold get_smsc. eapply says_bind; [apply says_get|]. cbv beta. intros m Jm. unfold J in Jm. destruct (smscNumber m) as [n|]; [apply says_ret; auto|].
    eapply says_bind with (Q := fun r => match r with Some ls => honest (Lines ls) | None => True end).
    - apply says_try; [|intros e k E; destruct e; try discriminate; injection E as <-; apply says_ret; exact I].
      eapply says_bind; [|intros ls Hl; apply says_ret; exact Hl]. unfold write. apply (says_write_with J honest J_wait P).
      change (P ((lit "AT" ++ lit "+CSCA?") ++ CR)). apply setup_fixed; [bare_lit|discriminate|cbn; tauto].
    - intros [ls|] Hl; [|apply says_ret; exact I].
      pose proof (line_matching_says CSCA_REGEX csca_line (group 1) ls csca_match csca_match_inv) as L. destruct (line_matching CSCA_REGEX ls) as [w|]; [|apply says_ret; exact I].
      destruct L as (before & line & after & -> & Lc & _). cbn [honest] in Hl. rewrite Forall_forall in Hl. assert (Q : quotable (group 1 w)) by (apply (Hl line); auto; apply in_app_iff; right; left; auto).
      eapply says_bind with (Q := anyQ); [apply says_modify; [exact I|intros; exact Q]|]. intros _ _. apply says_ret. exact Q.
  Qed.
  Lemma set_says n : quotable n -> says J honest P anyQ (set_smsc n).
  Proof.
    intro Hn. unfold set_smsc. eapply says_bind with (Q := anyQ); [eapply says_weak; [apply (says_get J honest P)|auto|intros; exact I]|]. intros m _.
    destruct (negb _); [|steps_]. bind_; [|apply says_modify; [exact I|intros; exact Hn]]. destruct (alive m); [|steps_]. bind_; [|steps_].
    unfold write. eapply says_weak; [apply (says_write_with J honest J_wait P)|auto|intros; exact I]. apply centre_text. auto.
  Qed.
  Lemma sms_says : says J honest P anyQ connect_sms.
  Proof.
    unfold connect_sms. eapply says_bind; [apply says_get|]. cbv beta. intros m Jm. bind_.
    { destruct (smsTextMode m); write_fixed. }
    eapply says_bind with (Q := opt_all quotable).
    { unfold J in Jm. destruct (smscNumber m) as [n|]; [|apply centre_says_get]. bind_; [|apply says_ret; exact Jm].
      unfold write. eapply says_weak; [apply (says_write_with J honest J_wait P)|auto|intros; exact I]. apply centre_text. auto. }
    intros c Hc. bind_; [destruct c; [apply says_modify; [exact I|intros; exact I]|steps_]|]. bind_; [write_fixed|].
    destruct c as [n|]; [|steps_]. bind_; [eapply says_weak; [apply centre_says_get|auto|intros; exact I]|]. destruct (negb _); [apply set_says; auto|steps_].
  Qed.
  Lemma memory_text items : P ((lit "AT+CPMS=" ++ join (lit ",") (map (fun i => match first_preferred i with Some m => m | None => [] end) items)) ++ CR).
  Proof.
    set (f := fun i => _). assert (F : forall i x, In x (f i) -> x <> 13 /\ x <> 59).
    { intros i x. unfold f, first_preferred. destruct (find _ preferred) as [s|] eqn:E; [|intros []]. apply find_some in E as [E _].
      repeat (destruct E as [<-|E]; [cbn; intuition (subst; discriminate)|]). destruct E. }
    assert (G : forall x, In x (join (lit ",") (map f items)) -> x <> 13 /\ x <> 59).
    { induction items as [|i items IH]; [intros x []|]. intros x. destruct items as [|i2 items]; [apply F|].
      change (join (lit ",") (map f (i :: i2 :: items))) with (f i ++ lit "," ++ join (lit ",") (map f (i2 :: items))). rewrite !in_app_iff.
      intros [I|[[<-|[]]|I]]; [eapply F; eauto|split; discriminate|auto]. }
    exists (lit "+CPMS=" ++ join (lit ",") (map f items)). split; [|right; cbn; tauto].
    apply (orders_free (lit "+CPMS=" ++ join (lit ",") (map f items))); [|discriminate]. right.
    split; intro I; apply in_app_iff in I as [I|I]; try (apply G in I; tauto); revert I; cbn; intuition discriminate.
  Qed.
  Lemma memory_setup : says J honest P anyQ connect_memory.
  Proof.
    unfold connect_memory, on_CommandError, forget. bind_; [steps_|]. destruct x as [[line|]|]; [|steps_|steps_]. destruct (after_space line) as [s|]; [|steps_].
    cbv zeta. destruct (existsb _ _); [steps_|]. bind_; [steps_|]. bind_; [|steps_].
    unfold write. eapply says_weak; [apply (says_write_with J honest J_wait P)|auto|intros; exact I]. apply memory_text.
  Qed.
  Lemma connect_says_ : says J honest P anyQ (connect pin).
  Proof.
    unfold connect. bind_; [steps_|]. bind_.
    { unfold connect_reset, on_CommandError, forget. eapply says_bind with (Q := anyQ); [|intros complete _].
      { apply says_try; [steps_|]. intros e k E. destruct (is_CommandError e); [|discriminate]. injection E as <-.
        bind_; [steps_|]. bind_; [apply unlock_says|steps_]. }
      bind_; [steps_|]. bind_; [steps_|]. bind_; [steps_|]. destruct complete; [steps_|apply unlock_says]. }
    bind_; [unfold supportedCommands; steps_|].
    bind_; [unfold connect_hint, on_CommandError, forget, manufacturer, query_first, first_line; steps_|].
    bind_; [unfold connect_table; steps_|]. bind_; [steps_|]. bind_; [apply sms_says|]. bind_; [apply memory_setup|].
    unfold connect_notifications, on_CommandError, forget. steps_.
  Qed.
  Lemma connect_says m sc : opt_all quotable (smscNumber m) -> Forall honest sc -> Forall P (sent (connect pin) m sc).
  Proof. intros Jm Hs. eapply says_start; [apply connect_says_|exact Jm|exact Hs]. Qed.
End Setup.

(** ** Smuggled commands *)
Lemma smuggle_orders p a after c b : bare p -> bare after -> quotable a -> quotable b -> bare c -> c <> [] -> p <> [] ->
  orders ((lit "AT" ++ p ++ [34] ++ smuggle a after c p b ++ [34] ++ after) ++ CR) = [p ++ in_quotes a ++ after; c; p ++ in_quotes b ++ after].
Proof.
  intros (P1 & P2 & P3) (A1 & A2 & A3) Ha Hb Hc Nc Np.
  assert (E : p ++ [34] ++ smuggle a after c p b ++ [34] ++ after = p ++ in_quotes a ++ (after ++ 59 :: c ++ 59 :: p ++ in_quotes b ++ after)).
  { unfold smuggle, in_quotes. change (lit ";") with [59]. rewrite <- !app_assoc. reflexivity. }
  rewrite E. destruct Ha as [Ha1 Ha2], Hb as [Hb1 Hb2]. pose proof Hc as (C1 & C2 & C3). rewrite orders_at.
  - rewrite cut_quotes by (auto; apply after_plain; auto). rewrite cut_bare by (repeat split; auto). rewrite cut_bare by auto.
    rewrite cut_quotes by (auto; apply after_plain; auto). rewrite cut_free by auto. cbn [onto filter].
    rewrite <- !app_assoc. destruct p; [congruence|]. destruct c; [congruence|]. reflexivity.
  - unfold in_quotes. repeat (rewrite ?in_app_iff; cbn [In List.app]). intuition discriminate.
Qed.

(** the first text that a method writes *)
Definition writes_first {A} (t : str) (c : M A) : Prop := forall w, script w <> [] -> exists r evs, trace (last_of (c w)) = trace w ++ EWrite t r :: evs.
Definition grows {A} (c : M A) : Prop := says anyJ anyH (fun _ => True) anyQ c.
Lemma grows_trace {A} (c : M A) w : grows c -> exists evs, trace (last_of (c w)) = trace w ++ evs.
Proof. intro G. destruct (G w I (all_any _)) as (_ & _ & (evs & T & _) & _). eauto. Qed.
Lemma first_bind {A B} t (c : M A) (k : A -> M B) : writes_first t c -> (forall x, grows (k x)) -> writes_first t (mbind c k).
Proof.
  intros W G w N. destruct (W w N) as (r & evs & T). unfold mbind. destruct (c w) as [[x|e] w1|w1]; cbn [last_of] in *; eauto.
  destruct (grows_trace (k x) w1 (G x)) as [evs' T']. exists r, (evs ++ evs'). rewrite T', T, <- app_assoc. reflexivity.
Qed.
Lemma first_try {A} t (c : M A) h : writes_first t c -> (forall e k, h e = Some k -> grows k) -> writes_first t (try_except c h).
Proof.
  intros W G w N. destruct (W w N) as (r & evs & T). unfold try_except. destruct (c w) as [[x|e] w1|w1]; cbn [last_of] in *; eauto.
  destruct (h e) as [k|] eqn:E; [|cbn; eauto]. destruct (grows_trace k w1 (G _ _ E)) as [evs' T']. exists r, (evs ++ evs'). rewrite T', T, <- app_assoc. reflexivity.
Qed.
Lemma first_write data term pe : writes_first (data ++ term) (write_with data term pe).
Proof.
  intros [m sc tr] N. cbn [script] in N. destruct sc as [|r sc]; [congruence|]. unfold write_with. cbn [script dev trace write_on].
  destruct r as [ls|[|l ls]]; [|cbn; exists (Some (NoReply [])), []; reflexivity|cbn; eexists _, []; reflexivity].
  destruct (paused_app (writeWait m) (tr ++ [EWrite (data ++ term) (Some (Lines ls))])) as (pe' & Ep & _). cbv zeta. rewrite Ep, <- app_assoc.
  destruct (rev ls) as [|line l]; [cbn; eexists _, _; reflexivity|]. destruct pe; [|cbn; eexists _, _; reflexivity].
  destruct (judge data line); [cbn; eexists _, _; reflexivity|cbn; eexists _, _; reflexivity|].
  set (m' := set_writeWait _ m). set (tr' := _ ++ [ESleep _]).
  destruct (write_on_says anyJ anyH anyJ_wait (fun _ => True) data term true I sc m' tr' I (all_any _)) as (_ & _ & (evs & T & _) & _). cbv zeta in T.
  eexists _, _; destruct (write_on sc m' tr' data term true) as [[x|e] w|w]; cbn [last_of trace] in *; rewrite T; unfold tr'; cbn [List.app]; rewrite <- !app_assoc; reflexivity.
Qed.
Lemma first_sent {A} t (c : M A) m r rest : writes_first t c -> exists ts, sent c m (r :: rest) = t :: ts.
Proof. intro W. destruct (W (start m (r :: rest)) ltac:(discriminate)) as (x & evs & T). unfold sent. rewrite T. cbn. eauto. Qed.
Lemma first_sent_at {A} t (c : M A) m r rest : (exists x evs, trace (last_of (c (start m (r :: rest)))) = EWrite t x :: evs) -> exists ts, sent c m (r :: rest) = t :: ts.
Proof. intros (x & evs & T). unfold sent. rewrite T. cbn. eauto. Qed.
Lemma first_modify {B} t f (c : M B) : writes_first t c -> writes_first t (modify f ;;; c).
Proof. intros W w N. unfold mbind. cbn [modify]. apply (W (mk_world (f (dev w)) (script w) (trace w)) N). Qed.
Definition true_ (t : str) : Prop := True.
Ltac grow := unfold grows; steps true_.
Ltac grow_write := unfold grows; unfold write, write_noparse; eapply says_weak; [apply (says_write_with anyJ anyH anyJ_wait true_); exact I|auto|intros; exact I].
Lemma smuggled_ussd c a b m r rest : bare c -> c <> [] -> quotable a -> quotable b ->
  exists t ts, sent (sendUssd_start (smuggle a (lit ",15") c (lit "+CUSD=1,") b)) m (r :: rest) = t :: ts /\
    orders t = [lit "+CUSD=1," ++ in_quotes a ++ lit ",15"; c; lit "+CUSD=1," ++ in_quotes b ++ lit ",15"].
Proof.
  intros Hc Nc Ha Hb. set (arg := smuggle _ _ _ _ _). edestruct (first_sent ((lit "AT+CUSD=1,""" ++ arg ++ lit """,15") ++ CR) (sendUssd_start arg) m r rest) as [ts E].
  2:{ exists ((lit "AT+CUSD=1,""" ++ arg ++ lit """,15") ++ CR), ts. split; [exact E|].
      apply (smuggle_orders (lit "+CUSD=1,") a (lit ",15") c b); auto; try discriminate; bare_lit. }
  unfold sendUssd_start. apply first_modify. apply first_bind; [|intro; grow]. apply first_try; [apply first_write|]. intros e k [= <-]. grow.
Qed.
Lemma smuggled_dial c n callback m r rest : bare c -> c <> [] -> bare n ->
  exists t ts, sent (dial_start (n ++ lit ";" ++ c) callback) m (r :: rest) = t :: ts /\ orders t = [lit "D" ++ n; c].
Proof.
  intros Hc Nc Hn. set (arg := n ++ _). edestruct (first_sent ((lit "ATD" ++ arg ++ lit ";") ++ CR) (dial_start arg callback) m r rest) as [ts E].
  2:{ exists ((lit "ATD" ++ arg ++ lit ";") ++ CR), ts. split; [exact E|].
      assert (X : lit "ATD" ++ arg ++ lit ";" = lit "AT" ++ ((lit "D" ++ n) ++ 59 :: (c ++ [59]))) by (unfold arg; rewrite <- !app_assoc; reflexivity).
      rewrite X. rewrite orders_at.
      - rewrite !cut_bare by (auto; apply bare_app; auto; bare_lit). cbn [cut filter filled List.app]. destruct c; [congruence|reflexivity].
      - destruct Hc as (C1 & _), Hn as (N1 & _). repeat (rewrite ?in_app_iff; cbn [In List.app lit]). cbn. repeat (rewrite ?in_app_iff; cbn [In List.app]). intuition discriminate. }
  assert (F : writes_first ((lit "ATD" ++ arg ++ lit ";") ++ CR) (atd arg)).
  { intros w N. unfold atd. unfold mbind at 1. unfold get. destruct (waitAtd (dev w)).
    - apply (first_bind _ (write (lit "ATD" ++ arg ++ lit ";"))); auto; [apply first_write|intro; grow].
    - unfold write_nowait. cbn [last_of trace]. destruct (paused_app (writeWait (dev w)) (trace w ++ [EWrite ((lit "ATD" ++ arg ++ lit ";") ++ CR) None])) as (pe & -> & _). exists None, pe. rewrite <- app_assoc. reflexivity. }
  intros w N. unfold dial_start. unfold mbind at 1. unfold get at 1. destruct (waitInit (dev w)).
  - refine (first_modify _ _ _ _ w N). apply first_bind; [|intro; grow]. apply first_try; auto. intros e k [= <-]. grow.
  - refine (first_bind _ _ _ F _ w N). intro. unfold add_call. grow.
Qed.
Lemma smuggled_centre c a b m r rest : bare c -> c <> [] -> quotable a -> quotable b -> alive m = true -> smscNumber m <> Some (smuggle a [] c (lit "+CSCA=") b) ->
  exists t ts, sent (set_smsc (smuggle a [] c (lit "+CSCA=") b)) m (r :: rest) = t :: ts /\ orders t = [lit "+CSCA=" ++ in_quotes a; c; lit "+CSCA=" ++ in_quotes b].
Proof.
  intros Hc Nc Ha Hb Al Ne. set (arg := smuggle _ _ _ _ _) in *. edestruct (first_sent_at ((lit "AT+CSCA=""" ++ arg ++ lit """") ++ CR) (set_smsc arg) m r rest) as [ts E].
  2:{ exists ((lit "AT+CSCA=""" ++ arg ++ lit """") ++ CR), ts. split; [exact E|].
      pose proof (smuggle_orders (lit "+CSCA=") a [] c b) as O. rewrite !app_nil_r in O. apply O; auto; try discriminate; bare_lit. }
  unfold set_smsc. unfold mbind at 1. unfold get. cbn [start dev].
  assert (X : opt_str_eqb (Some arg) (smscNumber m) = false).
  { destruct (smscNumber m) as [n|]; [|reflexivity]. cbn. destruct (str_eqb arg n) eqn:Q; [|reflexivity]. apply SerialProofs.str_eqb_true in Q. congruence. }
  rewrite X. cbn [negb]. rewrite Al.
  change (exists x evs, trace (last_of (((write (lit "AT+CSCA=""" ++ arg ++ lit """") ;;; ret tt) ;;; modify (set_smscNumber (Some arg))) (start m (r :: rest)))) = trace (start m (r :: rest)) ++ EWrite ((lit "AT+CSCA=""" ++ arg ++ lit """") ++ CR) x :: evs).
  apply first_bind; [|intro; grow|discriminate]. apply first_bind; [apply first_write|intro; grow].
Qed.
Lemma first_number number text flash report m r rest : smsTextMode m = true ->
  exists ts, sent (sendSms number text flash report) m (r :: rest) = ((lit "AT+CMGS=""" ++ number ++ lit """") ++ CR) :: ts.
Proof.
  intro Hm. apply first_sent_at. unfold sendSms. unfold mbind at 1. unfold get at 1. cbn [start dev]. rewrite Hm.
  match goal with |- exists x evs, trace (last_of (?c ?w)) = _ => change (exists x evs, trace (last_of (c w)) = trace w ++ EWrite ((lit "AT+CMGS=""" ++ number ++ lit """") ++ CR) x :: evs);
    assert (F : writes_first ((lit "AT+CMGS=""" ++ number ++ lit """") ++ CR) c) end.
  2:{ apply F. discriminate. }
  apply first_bind.
  - unfold send_text. apply first_bind; [apply first_write|]. intro. grow. grow_write.
  - intros [line|]; grow.
Qed.
Lemma smuggled_number c a b text flash report m r rest : bare c -> c <> [] -> quotable a -> quotable b -> smsTextMode m = true ->
  exists t ts, sent (sendSms (smuggle a [] c (lit "+CMGS=") b) text flash report) m (r :: rest) = t :: ts /\ orders t = [lit "+CMGS=" ++ in_quotes a; c; lit "+CMGS=" ++ in_quotes b].
Proof.
  intros Hc Nc Ha Hb Hm. edestruct first_number as [ts E]; [exact Hm|]. eexists _, ts. split; [apply E|].
  pose proof (smuggle_orders (lit "+CMGS=") a [] c b) as O. rewrite !app_nil_r in O. apply O; auto; try discriminate; bare_lit.
Qed.
Lemma smuggled_text c a number flash report m ls line r rest : bare c -> c <> [] -> textual a -> smsTextMode m = true -> good_line line ->
  exists t1 t2 ts more, sent (sendSms number (a ++ [26] ++ lit "AT" ++ c ++ [13]) flash report) m (Lines (ls ++ [line]) :: r :: rest) = t1 :: t2 :: ts /\
    message t2 = Some (a, more) /\ orders more = [c].
Proof.
  intros Hc Nc Ha Hm G. set (text := a ++ _).
  assert (X : exists x1 x2 evs, trace (last_of (sendSms number text flash report (start m (Lines (ls ++ [line]) :: r :: rest)))) = EWrite ((lit "AT+CMGS=""" ++ number ++ lit """") ++ CR) x1 :: pause (writeWait m) ++ EWrite (text ++ CTRL_Z) x2 :: evs).
  { unfold sendSms. unfold mbind at 1. unfold get at 1. cbn [start dev]. rewrite Hm. unfold send_text. rewrite bind_assoc.
    erewrite bind_run; [|apply (write_good _ _ ls line (r :: rest)); [reflexivity|auto]].
    match goal with |- exists x1 x2 evs, trace (last_of (?c ?w)) = _ => assert (F : writes_first (text ++ CTRL_Z) c); [|destruct (F w ltac:(discriminate)) as (x2 & evs & ->)] end.
    - intros w N. rewrite bind_assoc. revert w N. apply first_bind; [apply first_write|]. intro y. apply says_bind with (Q := anyQ); [apply says_ret; exact I|]. intros [l|] _; grow.
    - cbn [trace]. eexists _, x2, evs. cbn [start trace List.app dev]. reflexivity. }
  destruct X as (x1 & x2 & evs & T). unfold sent. rewrite T.
  assert (Y : writes_of (pause (writeWait m)) = []) by (unfold pause; destruct (0 <? _); reflexivity).
  exists ((lit "AT+CMGS=""" ++ number ++ lit """") ++ CR), (text ++ CTRL_Z), (writes_of evs), ((lit "AT" ++ c ++ [13]) ++ CTRL_Z). split.
  - change (EWrite ?t ?x :: ?l) with ([EWrite t x] ++ l). rewrite !writes_app, Y. reflexivity.
  - split.
    + unfold text. rewrite <- app_assoc. cbn [List.app]. rewrite message_text by auto. reflexivity.
    + pose proof (orders_free c (or_introl Hc) Nc) as O. unfold orders in *. change (lit "AT" ++ c ++ [13]) with ((65 :: 84 :: c) ++ [13]) in *. rewrite <- app_assoc. cbn [List.app] in *.
      destruct Hc as (C1 & _). change (65 :: 84 :: c ++ 13 :: CTRL_Z) with ((65 :: 84 :: c) ++ 13 :: CTRL_Z). unfold CR in O. change ((lit "AT" ++ c) ++ [13]) with ((65 :: 84 :: c) ++ 13 :: []) in O.
      assert (N : ~ In 13 (65 :: 84 :: c)) by (cbn; intuition discriminate). rewrite cr_lines_app in * by auto. cbn [flat_map] in *. rewrite (cr_lines_none CTRL_Z) by (cbn; intuition discriminate). exact O.
Qed.
Lemma smuggled_pin c a b r rest : bare c -> c <> [] -> quotable a -> quotable b ->
  let ok := Lines [lit "OK"] in
  exists t, In t (sent (connect (Some (smuggle a [] c (lit "+CPIN=") b))) modem_init (ok :: ok :: Lines [lit "+CFUN: 1"; lit "OK"] :: ok :: Lines [lit "+CPIN: SIM PIN"; lit "OK"] :: r :: rest)) /\
    orders t = [lit "+CPIN=" ++ in_quotes a; c; lit "+CPIN=" ++ in_quotes b].
Proof.
  intros Hc Nc Ha Hb ok. set (arg := smuggle _ _ _ _ _). exists ((lit "AT+CPIN=""" ++ arg ++ lit """") ++ CR). split.
  2:{ pose proof (smuggle_orders (lit "+CPIN=") a [] c b) as O. rewrite !app_nil_r in O. apply O; auto; try discriminate; bare_lit. }
  set (ask := fun t ls => EWrite (lit t ++ CR) (Some (Lines ls))).
  set (w5 := mk_world (set_alive true modem_init) (r :: rest) [ask "ATZ"%string [lit "OK"]; ask "ATE0"%string [lit "OK"]; ask "AT+CFUN?"%string [lit "+CFUN: 1"; lit "OK"]; ask "AT+CMEE=1"%string [lit "OK"]; ask "AT+CPIN?"%string [lit "+CPIN: SIM PIN"; lit "OK"]]).
  unfold sent, connect. unfold mbind at 1. unfold modify at 1. cbn [start dev script trace].
  set (K := fun _ : unit => _). set (w0 := mk_world _ _ _).
  assert (R : connect_reset (Some arg) w0 = forget (write (lit "AT+CPIN=""" ++ arg ++ lit """")) w5) by reflexivity.
  unfold mbind. rewrite R.
  assert (F : writes_first ((lit "AT+CPIN=""" ++ arg ++ lit """") ++ CR) (forget (write (lit "AT+CPIN=""" ++ arg ++ lit """")))) by (apply first_bind; [apply first_write|intro; grow]).
  destruct (F w5 ltac:(discriminate)) as (x & evs & T).
  assert (In1 : forall evs', In ((lit "AT+CPIN=""" ++ arg ++ lit """") ++ CR) (writes_of ((trace w5 ++ EWrite ((lit "AT+CPIN=""" ++ arg ++ lit """") ++ CR) x :: evs) ++ evs'))).
  { intro evs'. rewrite !writes_app. apply in_app_iff. left. apply in_app_iff. right. left. auto. }
  destruct (forget _ w5) as [[u|e] w6|w6]; cbn [last_of] in *; try (rewrite T; rewrite <- (app_nil_r (_ ++ _ :: _)); apply In1).
  assert (G : exists evs', trace (last_of (K u w6)) = trace w6 ++ evs'); [|destruct G as [evs' ->]; rewrite T; apply In1].
  apply grows_trace. unfold grows, K, supportedCommands, connect_hint, connect_table, connect_sms, connect_memory, connect_notifications, get_smsc, set_smsc, on_CommandError, forget, manufacturer, query_first, first_line.
  repeat first [progress (steps true_) | grow_write].
Qed.
Lemma tones_final n t0 ts m sc : tone t0 -> Forall tone ts ->
  Forall (fun t => exists base, (base = lit "+VTS=" \/ base = lit "^DTMF=" ++ str_of_Z (c_id (the_call m n)) ++ lit ",") /\
    orders t = map (fun c => base ++ [c]) (t0 :: ts)) (sent (sendDtmfTone n (t0 :: ts)) m sc).
Proof.
  intros H0 F. eapply Forall_impl; [|apply tones_says; eauto]. cbv beta. intros t E. eexists. split; [|apply E]. unfold dtmf_base. destruct (dtmfHuawei m); auto.
Qed.
Lemma smuggled_all c : bare c -> c <> [] ->
  (forall a b m r rest, quotable a -> quotable b ->
     exists t ts, sent (sendUssd_start (smuggle a (lit ",15") c (lit "+CUSD=1,") b)) m (r :: rest) = t :: ts /\
       orders t = [lit "+CUSD=1," ++ in_quotes a ++ lit ",15"; c; lit "+CUSD=1," ++ in_quotes b ++ lit ",15"]) /\
  (forall n callback m r rest, bare n ->
     exists t ts, sent (dial_start (n ++ lit ";" ++ c) callback) m (r :: rest) = t :: ts /\ orders t = [lit "D" ++ n; c]) /\
  (forall a b m r rest, quotable a -> quotable b -> alive m = true -> smscNumber m <> Some (smuggle a [] c (lit "+CSCA=") b) ->
     exists t ts, sent (set_smsc (smuggle a [] c (lit "+CSCA=") b)) m (r :: rest) = t :: ts /\
       orders t = [lit "+CSCA=" ++ in_quotes a; c; lit "+CSCA=" ++ in_quotes b]) /\
  (forall a b text flash report m r rest, quotable a -> quotable b -> smsTextMode m = true ->
     exists t ts, sent (sendSms (smuggle a [] c (lit "+CMGS=") b) text flash report) m (r :: rest) = t :: ts /\
       orders t = [lit "+CMGS=" ++ in_quotes a; c; lit "+CMGS=" ++ in_quotes b]) /\
  (forall a number flash report m ls line r rest, textual a -> smsTextMode m = true -> good_line line ->
     exists t1 t2 ts more, sent (sendSms number (a ++ [26] ++ lit "AT" ++ c ++ [13]) flash report) m (Lines (ls ++ [line]) :: r :: rest) = t1 :: t2 :: ts /\
       message t2 = Some (a, more) /\ orders more = [c]) /\
  (forall a b r rest, quotable a -> quotable b ->
     let ok := Lines [lit "OK"] in
     exists t, In t (sent (connect (Some (smuggle a [] c (lit "+CPIN=") b))) modem_init
         (ok :: ok :: Lines [lit "+CFUN: 1"; lit "OK"] :: ok :: Lines [lit "+CPIN: SIM PIN"; lit "OK"] :: r :: rest)) /\
       orders t = [lit "+CPIN=" ++ in_quotes a; c; lit "+CPIN=" ++ in_quotes b]).
Proof.
  intros Hc Nc. split; [|split; [|split; [|split; [|split]]]]; intros.
  - apply smuggled_ussd; auto.
  - apply smuggled_dial; auto.
  - apply smuggled_centre; auto.
  - apply smuggled_number; auto.
  - apply smuggled_text; auto.
  - apply smuggled_pin; auto.
Qed.
