(** Proofs about incoming calls. *)
From Verif Require Import Base RegexModel RegexProofs UtilModel UtilSpec UtilProofs ModemCore ModemSpec WriteProofs MonadProofs PollProofs SmsModel SendSpec SendProofs LangProofs CoverageSpec CoverageProofs CentreProofs ReadProofs QueryProofs
  ModemFinal TrackSpec TrackProofs CallModel NotifyModel PollModel PollSpec BookSpec BookProofs CallProofs CallFinal DialSpec DialProofs TrieProofs.

(** ** The caller's number *)
Lemma seq_grp a r t g rest : lang (RGrp a ;; r) t g rest <-> exists t1 t2 g1 g2, t = t1 ++ t2 /\ g = t1 :: g1 ++ g2 /\ lang a t1 g1 (t2 ++ rest) /\ lang r t2 g2 rest.
Proof.
  cbn. split.
  - intros (t1 & t2 & g1 & g2 & -> & -> & (g' & -> & L) & H). exists t1, t2, g', g2. auto.
  - intros (t1 & t2 & g1 & g2 & -> & -> & L & H). exists t1, t2, (t1 :: g1), g2. repeat split; auto. eauto.
Qed.
Lemma clip_sound line m : re_match CLIP_REGEX line = Some m -> clip_line line (group 1 m).
Proof.
  destruct m as [[t g] rest]. intro H. apply re_match_some in H as [-> L]. unfold CLIP_REGEX in L.
  apply seq_lit in L as (t1 & -> & L). apply seq_star in L as (sp & t2 & -> & B & L). apply seq_lit in L as (t3 & -> & L). apply seq_grp in L as (n & t4 & g1 & g2 & -> & -> & Ln & L).
  apply seq_opt in Ln as (pl & ds & -> & P & Ln). assert (D : digits ds /\ g1 = []).
  { destruct Ln as (F & Le & _ & ->). split; auto. split; auto. intros ->. cbn in Le. lia. }
  destruct D as [D ->].
  lang_inv L. unfold group. cbn [groups fst snd nth Nat.sub]. exists sp, pl, ds, a, a0, rest. split; [|split; [auto|]].
  - rewrite app_nil_r. appn. auto.
  - split; [exact B|]. split; [destruct P as [->|(c & -> & C)]; auto; right; apply Z.eqb_eq in C; subst; auto|]. split; [auto|]. split; [split; auto|]. split; [|auto].
    rewrite Forall_forall in F0. intro I. apply F0 in I. discriminate.
Qed.
Lemma no_quote plus ds : (plus = [] \/ plus = [43]) -> digits ds -> Forall (fun c => c_not 34 c = true) (plus ++ ds).
Proof.
  intros P [_ D]. apply c_not_not_in. rewrite in_app_iff. intros [I|I].
  - destruct P as [->| ->]; cbn in I; [tauto|]. destruct I as [I|[]]. discriminate.
  - rewrite Forall_forall in D. apply D in I. discriminate.
Qed.
Lemma clip_fun line n n' : clip_line line n -> clip_line line n' -> n = n'.
Proof.
  intros (sp & pl & ds & ds2 & more & nl & -> & -> & B & P & D & D2 & M & E) (sp' & pl' & ds' & ds2' & more' & nl' & H & -> & B' & P' & D' & D2' & M' & E').
  apply app_inv_head in H. cbn [app] in H. apply (span_unique is_space) in H as [_ H]; auto; [|reflexivity|reflexivity]. injection H as H.
  pose proof (no_quote _ _ P D). pose proof (no_quote _ _ P' D').
  apply (span_unique (c_not 34)) in H as [H _]; auto; reflexivity.
Qed.
Lemma clip_complete line n : clip_line line n -> exists m, re_match CLIP_REGEX line = Some m.
Proof.
  intros (sp & pl & ds & ds2 & more & nl & -> & -> & B & P & [N D] & [N2 D2] & M & E). destruct (re_match CLIP_REGEX _) as [m|] eqn:R; [eauto|]. exfalso.
  eapply (proj1 (re_match_none _ _) R (lit "+CLIP:" ++ sp ++ [34] ++ (pl ++ ds) ++ [34; 44] ++ ds2 ++ more) [pl ++ ds; ds2] nl); [appn; auto|]. unfold CLIP_REGEX.
  apply seq_lit. eexists. split; [reflexivity|]. apply seq_star. do 2 eexists. split; [reflexivity|]. split; [exact B|]. apply seq_lit. eexists. split; [reflexivity|].
  apply seq_grp. exists (pl ++ ds), ([34; 44] ++ ds2 ++ more), [], [ds2]. split; [auto|]. split; [auto|]. split.
  - apply seq_opt. exists pl, ds. split; [auto|]. split; [destruct P as [->| ->]; eauto|]. cbn. repeat split; auto. destruct ds; [congruence|cbn; lia].
  - apply seq_lit. eexists. split; [reflexivity|]. apply seq_gplus. exists ds2, more, []. repeat split; auto. apply seq_star. exists more, []. rewrite app_nil_r. repeat split; auto.
    rewrite Forall_forall. intros c I. unfold c_any. destruct (Z.eqb_spec c 10) as [->|]; [contradiction|auto].
Qed.
Lemma caller_spec (cl : bool) ring rest :
  caller cl (ring :: rest) (match rest with
        | clipLine :: _ => if cl then match re_match CLIP_REGEX clipLine with Some w => Some (group 1 w) | None => None end else None
        | [] => None
        end).
Proof.
  destruct rest as [|line rest]; [apply ca_alone|]. destruct cl; [|apply ca_off; auto]. destruct (re_match CLIP_REGEX line) as [m|] eqn:R.
  - apply ca_given; auto. apply clip_sound. auto.
  - apply ca_other. intros n H. apply clip_complete in H as [m H]. congruence.
Qed.
Lemma caller_fun cl lines a b : caller cl lines a -> caller cl lines b -> a = b.
Proof.
  intros A B. inversion A; subst; inversion B; subst; auto; try congruence.
  - f_equal. eapply clip_fun; eauto.
  - exfalso. match goal with H : forall number, ~ clip_line _ number |- _ => eapply H; eauto end.
  - exfalso. match goal with H : forall number, ~ clip_line _ number |- _ => eapply H; eauto end.
Qed.

(** ** Extended codes *)
Lemma after_space_spec s : match after_space s with Some k => exists a, s = a ++ 32 :: k /\ ~ In 32 a | None => ~ In 32 s end.
Proof.
  induction s as [|c s IH]; cbn; auto. destruct (Z.eqb_spec c 32) as [->|N].
  - exists []. auto.
  - destruct (after_space s) as [k|].
    + destruct IH as (a & -> & Na). exists (c :: a). cbn. intuition.
    + cbn. intuition.
Qed.
Definition kind_asked (m : modem) (ringLine : str) : M (option str) :=
  (if crc m then
           match after_space ringLine with
           | Some t => ret (Some t)
           | None =>
               try_except (write (lit "AT+CRC=1") ;;; ret None)
                 (fun e => if is_CommandError e then Some (modify (set_crc false) ;;; ret None) else None)
           end
         else ret None).
Lemma kind_run ring w : match kind_asked (dev w) ring w with
  | Done x w' => exists evs, ring_kind (crc (dev w)) ring evs x (crc (dev w')) /\ trace w' = trace w ++ evs /\ book_of (dev w') = book_of (dev w) /\ clip (dev w') = clip (dev w)
  | Stuck _ => crc (dev w) = true /\ ~ In 32 ring
  end.
Proof.
  unfold kind_asked. destruct (crc (dev w)) eqn:C.
  - pose proof (after_space_spec ring) as A. destruct (after_space ring) as [k|].
    + destruct A as (a & -> & N). exists []. cbn [ret]. rewrite C, app_nil_r. split; [constructor; auto|auto].
    + unfold try_except, mbind at 1. destruct (write (lit "AT+CRC=1") w) as [[ls|e] w1|w1] eqn:W.
      * destruct (write_frame _ _ _ _ _ W) as [v D]. destruct (exchange_of _ _ _ _ _ W) as (evs & T & X). cbn [ret]. exists evs. split; [|rewrite D; auto]. replace (crc (dev w1)) with true by (rewrite D; auto). eapply rk_again; eauto.
      * destruct (write_frame _ _ _ _ _ W) as [v D]. destruct (exchange_of _ _ _ _ _ W) as (evs & T & X). destruct (is_CommandError e) eqn:CE.
        -- unfold mbind, modify, ret. cbn [dev trace]. exists evs. split; [eapply rk_refused; eauto|]. rewrite D. auto.
        -- exists evs. split; [|rewrite D; auto]. replace (crc (dev w1)) with true by (rewrite D; auto). eapply rk_failed; eauto.
      * auto.
  - exists []. cbn [ret]. rewrite C, app_nil_r. split; [constructor; auto|auto].
Qed.

(** ** The table is searched *)
Definition found_in (b : book) (number : option str) (t : list (Z * nat)) (f : option nat) : Prop :=
  match f with
  | None => Forall (other_number b number) t
  | Some n => exists t1 id t2, t = t1 ++ (id, n) :: t2 /\ same_number b number true (id, n) /\ Forall (fun e => other_number b number e \/ same_number b number true e) t1 /\ Forall (other_number b number) t2
  end.
Lemma found_fine b number t f : found_in b number t f -> Forall (fun e => other_number b number e \/ same_number b number true e) t.
Proof.
  destruct f as [n|]; cbn.
  - intros (t1 & id & t2 & -> & S & F1 & F2). apply Forall_app. split; auto. constructor; auto. eapply Forall_impl; [|exact F2]. auto.
  - intro F. eapply Forall_impl; [|exact F]. auto.
Qed.
Lemma rings_skip b number t e b' : other_number b number e -> rings b number t b' -> rings b number (t ++ [e]) b'.
Proof.
  intros (c & Hc & N) (L & T & D1 & D2 & R & O). split; auto. split; auto. split; auto. split; auto. split.
  - intros e' c' I Hc' N'. apply in_app_or in I as [I|[<-|[]]]; [eauto|]. congruence.
  - intros n H. apply O. intros e' I E. apply H; auto. apply in_or_app; auto.
Qed.
Lemma rings_again b number t id n rest m c : b_table b = t ++ (id, n) :: rest -> sound_book b -> rings b number t (book_of m) -> nth_error (b_calls b) n = Some c -> c_number c = number ->
  nth_error (callObjs m) n = Some c /\ rings b number (t ++ [(id, n)]) (book_of (set_callObjs (update (callObjs m) n rung) m)).
Proof.
  intros Tb [Nd Sd] (L & T & D1 & D2 & R & O) Hc Nc. unfold ids in Nd. rewrite Tb in *.
  assert (U : forall e, In e t -> snd e <> n).
  { intros [id' n'] I E. cbn in E. subst n'. destruct (Sd id' n) as (c1 & H1 & I1 & _); [apply in_or_app; auto|]. destruct (Sd id n) as (c2 & H2 & I2 & _); [apply in_or_app; right; left; auto|].
    assert (id' = id) by congruence. subst id'. rewrite map_app in Nd. cbn in Nd. apply NoDup_remove_2 in Nd. apply Nd. apply in_or_app. left. cbn in *. rewrite <- H. exact (in_map fst _ _ I). }
  assert (Hm : nth_error (callObjs m) n = Some c). { cbn in O. rewrite O; auto. intros e I E. destruct (U e I E). }
  split; [exact Hm|]. cbn in L. split; [cbn; rewrite update_length; auto|]. split; [rewrite Tb; exact T|]. split; [exact D1|]. split; [exact D2|]. cbn. split.
  - intros e c' I Hc' N'. rewrite update_nth. apply in_app_or in I as [I|[<-|[]]].
    + destruct (Nat.eqb_spec n (snd e)) as [E|_]; [destruct (U e I); auto|]. apply R; auto.
    + cbn in *. rewrite Nat.eqb_refl, Hm. cbn. congruence.
  - intros k H. rewrite update_nth. destruct (Nat.eqb_spec n k) as [<-|N].
    + destruct (H (id, n)) as (c' & Hc' & N'); [apply in_or_app; right; left; auto|auto|]. cbn in Hc'. congruence.
    + apply O. intros e I E. apply H; auto. apply in_or_app; auto.
Qed.
Lemma opt_str_eqb_spec a b : reflect (a = b) (opt_str_eqb a b).
Proof.
  unfold opt_str_eqb. destruct a as [a|], b as [b|]; try (constructor; congruence). destruct (str_eqb_spec a b); constructor; congruence.
Qed.
Lemma rings_frame b number t m : rings b number t (book_of m) -> forall n c, nth_error (b_calls b) n = Some c -> exists c', nth_error (callObjs m) n = Some c' /\ c_number c' = c_number c /\ c_incoming c' = c_incoming c.
Proof.
  intros (L & T & D1 & D2 & R & O) n c Hc. cbn in *.
  destruct (in_dec Nat.eq_dec n (map snd t)) as [I|N].
  - apply in_map_iff in I as (e & <- & I). destruct (opt_str_eqb_spec (c_number c) number) as [E|N].
    + exists (rung c). rewrite (R e c); auto.
    + exists c. rewrite O; auto. intros e' I' E. exists c. rewrite E. auto.
  - exists c. rewrite O; auto. intros e I E. destruct N. apply in_map_iff. eauto.
Qed.
Lemma ring_search b number : sound_book b -> forall es t f w, b_table b = t ++ es -> found_in b number t f -> rings b number t (book_of (dev w)) ->
  exists l, match ring_each es number f w with
  | Done (Ok f') w' => w' = mk_world (set_callObjs l (dev w)) (script w) (trace w) /\ found_in b number (b_table b) f' /\ rings b number (b_table b) (book_of (dev w'))
  | Done (Err e) w' => w' = mk_world (set_callObjs l (dev w)) (script w) (trace w) /\ e = AttributeError /\
      exists t1 e0 t2, b_table b = t1 ++ e0 :: t2 /\ same_number b number false e0 /\ Forall (fun e => other_number b number e \/ same_number b number true e) t1 /\ rings b number t1 (book_of (dev w'))
  | Stuck _ => False
  end.
Proof.
  intro Sd. induction es as [|[id n] es IH]; intros t f w Tb F R.
  - exists (callObjs (dev w)). cbn. rewrite app_nil_r in Tb. subst t. split; [destruct w as [d s tr]; destruct d; reflexivity|]. auto.
  - rewrite ring_step. destruct (proj2 Sd id n) as (c & Hc & _); [rewrite Tb; apply in_or_app; right; left; auto|].
    destruct (rings_frame _ _ _ _ R _ _ Hc) as (c1 & Hc1 & N1 & I1). rewrite (the_call_nth _ _ _ Hc1), N1, I1.
    assert (Tb' : b_table b = (t ++ [(id, n)]) ++ es) by (rewrite <- app_assoc; auto).
    destruct (opt_str_eqb_spec (c_number c) number) as [E|Ne].
    + destruct (c_incoming c) eqn:Ic.
      * destruct (rings_again _ _ _ _ _ _ _ _ Tb Sd R Hc E) as [Hm Ra].
        assert (Rw : ring_again n w = mk_world (set_callObjs (update (callObjs (dev w)) n rung) (dev w)) (script w) (trace w)).
        { unfold ring_again. rewrite (the_call_nth _ _ _ Hc1). assert (c1 = c) by congruence. subst c1. rewrite (update_ext_at _ n _ rung c Hc1); auto. }
        rewrite Rw. destruct (IH (t ++ [(id, n)]) (Some n) (mk_world (set_callObjs (update (callObjs (dev w)) n rung) (dev w)) (script w) (trace w)) Tb') as (l & H); auto.
        { exists t, id, []. repeat split; auto; [|eapply found_fine; eauto]. exists c. auto. }
        exists l. destruct (ring_each _ _ _ _) as [[f'|e] w'|w']; auto.
      * exists (callObjs (dev w)). split; [destruct w as [d s tr]; destruct d; reflexivity|]. split; auto. exists t, (id, n), es. split; auto. split; [exists c; auto|]. split; [eapply found_fine; eauto|auto].
    + assert (O : other_number b number (id, n)) by (exists c; auto). apply (IH (t ++ [(id, n)])); auto; [|apply rings_skip; auto].
      destruct f as [k|]; cbn in *.
      * destruct F as (t1 & id1 & t2 & -> & S & F1 & F2). exists t1, id1, (t2 ++ [(id, n)]). rewrite <- app_assoc. repeat split; auto. apply Forall_app; auto.
      * apply Forall_app; auto.
Qed.
Lemma rings_nil b number : rings b number [] b.
Proof. repeat split; auto. intros e c []. Qed.
Lemma new_incoming_kind number id kind : match new_incoming number id kind with
  | Ok c => exists ty, kind_of_call kind (Ok ty) /\ c = mk_call id true ty number false false true true 1
  | Err e => kind_of_call kind (Err e)
  end.
Proof.
  unfold new_incoming. destruct kind as [s|]; [destruct (str_eqb_spec s (lit "VOICE")) as [->|N]|].
  - exists (Some 0). split; [constructor|auto].
  - constructor. auto.
  - exists None. split; [constructor|auto].
Qed.
Theorem incoming_does lines m sc : lines <> [] -> sound_book (book_of m) ->
  match handleIncomingCall lines (start m sc) with
  | Done x w => incoming (crc m) (clip m) (book_of m) lines (trace w) x (crc (dev w)) (book_of (dev w))
  | Stuck _ => crc m = true /\ exists ring rest, lines = ring :: rest /\ ~ In 32 ring
  end.
Proof.
  intros Ne Sd. destruct lines as [|ring rest]; [congruence|]. cbn [handleIncomingCall]. unfold mbind at 1, get at 1. cbn [dev start]. fold (kind_asked m ring). unfold mbind at 1.
  pose proof (kind_run ring (start m sc)) as K. cbn [dev start] in K. destruct (kind_asked m ring (start m sc)) as [[kind|e] w1|w1].
  - destruct K as (evs & K & T & B & C). cbn [trace start app] in T. unfold mbind at 1, get at 1. cbn beta iota. set (number := match rest with [] => None | _ => _ end).
    assert (Ca : caller (clip m) (ring :: rest) number). { unfold number. rewrite C. apply caller_spec. }
    clearbody number. assert (B1 : activeCalls (dev w1) = b_table (book_of m)) by (rewrite <- B; auto). rewrite B1.
    destruct (ring_search (book_of m) number Sd (b_table (book_of m)) [] None w1) as (l & H); auto; [constructor|rewrite B; apply rings_nil|].
    unfold mbind at 1. destruct (ring_each _ number None w1) as [[f|e] w2|w2] eqn:Rg.
    + destruct H as (W2 & F & R). destruct f as [n|]; cbn in F.
      * destruct F as (t1 & id & t2 & Tb & S & F1 & F2). unfold mbind, ret, tell. cbn [trace dev]. rewrite W2. cbn [trace dev]. rewrite T.
        refine (ic_rings _ _ _ _ ring rest evs kind _ number _ _ _ eq_refl K Ca _). rewrite W2 in R. eapply tr_again; eauto.
      * apply ring_new in Rg. subst w2. unfold mbind at 1, mbind at 1, get. cbn beta iota. unfold mbind at 1, lift. rewrite B1. pose proof (new_incoming_kind number (Z.of_nat (length (b_table (book_of m))) + 1) kind) as N. destruct (new_incoming _ _ _) as [c|e].
        -- destruct (adds_run c w1) as (w3 & R3 & A & E1 & E2 & S3 & T3 & C3). rewrite R3. unfold tell. cbn [trace dev]. rewrite T3, T, C3. refine (ic_rings _ _ _ _ ring rest evs kind _ number _ _ _ eq_refl K Ca _).
           rewrite B in *. destruct N as (ty & Kd & ->). eapply tr_new; eauto.
        -- rewrite T. rewrite B. replace evs with (evs ++ []) at 1 by apply app_nil_r. refine (ic_rings _ _ _ _ ring rest evs kind _ number _ _ _ eq_refl K Ca _). apply tr_kind; auto.
    + destruct H as (W2 & -> & t1 & e0 & t2 & Tb & S & F & R). rewrite W2 in *. cbn [trace dev]. rewrite T. replace evs with (evs ++ []) at 1 by apply app_nil_r.
      refine (ic_rings _ _ _ _ ring rest evs kind _ number _ _ _ eq_refl K Ca _). eapply tr_crossing; eauto.
    + contradiction H.
  - destruct K as (evs & K & T & B & C). cbn [trace start app] in T. rewrite T, B. eapply ic_failed; eauto.
  - destruct K as [K1 K2]. split; eauto.
Qed.
Theorem ring_noted before line after m sc : sound_book (book_of m) -> Forall (unrelated (callUpdates m)) before -> ModemSpec.substring (lit "RING") line ->
  let lines := before ++ line :: after in
  match handleNotification lines (start m sc) with
  | Done x w => incoming (crc m) (clip m) (book_of m) lines (trace w) x (crc (dev w)) (book_of (dev w))
  | Stuck _ => crc m = true /\ exists ring rest, lines = ring :: rest /\ ~ In 32 ring
  end.
Proof.
  intros Sd F H lines. unfold handleNotification. assert (E : notify_each lines lines (start m sc) = handleIncomingCall lines (start m sc)).
  { unfold lines at 2. rewrite unrelated_skip by auto. cbn [notify_each]. apply contains_iff in H. rewrite H. auto. }
  rewrite E. apply incoming_does; auto. unfold lines. destruct before; discriminate.
Qed.
