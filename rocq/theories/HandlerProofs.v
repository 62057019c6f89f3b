(** Proofs about several notification handlers at the same time. *)
From Coq Require Import Permutation.
From Verif Require Import Base PduModel RegexModel ModemCore ModemSpec WriteProofs MonadProofs SendSpec TrackSpec CoverageSpec CoverageProofs
  SmsModel StoreSpec StoreLemmas ReadProofs StoreProofs HandlerModel HandlerSpec TrieProofs.

(** ** One attempt *)
Lemma attempt_some command r x : not_busy r -> outcome command r x -> attempt command r = Some x.
Proof. intros NB O. unfold attempt. rewrite (write_outcome _ _ _ _ _ _ x) by auto. auto. Qed.
Lemma attempt_none command r code : busy_reply code r -> attempt command r = None.
Proof.
  intro B. assert (A : all_busy [r] [code]) by (constructor; [exact B|constructor]). unfold attempt. destruct (write_stuck command CR [r] [code] A modem_init []) as (w & E & _). rewrite E. auto.
Qed.
Lemma attempt_cases command r : (exists code, busy_reply code r /\ attempt command r = None) \/
  (exists ls, attempt command r = Some (Ok ls) /\ r = Lines ls /\ good_answer ls) \/
  (exists e, attempt command r = Some (Err e) /\ failing r).
Proof.
  destruct (reply_cases command r) as [(code & B)|(NB & x & O)]; [left; exists code; split; auto; eapply attempt_none; eauto|right].
  pose proof (attempt_some _ _ _ NB O) as A. destruct x as [ls|e].
  - left. exists ls. split; auto. apply outcome_ok in O as [-> (l0 & l & -> & G)]. split; auto. exists l0, l. auto.
  - right. exists e. split; auto. eapply outcome_err_failing; eauto.
Qed.
Lemma busy_still d text code r d' : busy_reply code r -> answers d text r d' -> d' = d.
Proof. intros B A. eapply answers_still; eauto. eapply busy_no_good; eauto. Qed.
Lemma failing_still d text r d' : failing r -> answers d text r d' -> d' = d.
Proof. intros [_ F] A. eapply answers_still; eauto. Qed.

(** ** The invariant *)
Definition waiting (h : handler) : bool := match h_place h with Compare | Select | Remember | Fetch | Erase _ => true | _ => false end.
Definition past_select (p : place) : Prop := match p with Remember | Fetch | Erase _ | Deliver _ | Delivered _ => True | _ => False end.
Definition index_of (h : handler) : Z := dec_value (h_index h).
Definition fine (mode : bool) (mem : str) (d : device) (h : handler) : Prop :=
  h_memory h = mem /\ digits (h_index h) /\ (past_select (h_place h) -> sel d = mem) /\
  (waiting h = true -> exists content, stored d mem (index_of h) = Some content /\ forall s, h_place h = Erase s -> handed_as mode content s).
Record inv (mode : bool) (mem : str) (c0 : cells) (acts : list act) (told : list stored_sms) (s : system) : Prop := {
  inv_attr : attribute s = Some mem -> sel (modem_device s) = mem;
  inv_fine : Forall (fine mode mem (modem_device s)) (handlers s);
  inv_store : replay mode c0 acts (stored (modem_device s));
  inv_once : NoDup (map index_of (filter waiting (handlers s)));
  inv_told : Permutation (taken_out acts) (told ++ in_flight (handlers s)) }.

Lemma same_cell_refl m i : same_cell m i m i = true.
Proof. unfold same_cell. destruct (str_eqb_spec m m); [|tauto]. rewrite Z.eqb_refl; auto. Qed.
Lemma same_cell_index m i j : same_cell m i m j = true <-> i = j.
Proof.
  unfold same_cell. destruct (str_eqb_spec m m); [|tauto]. cbn. apply Z.eqb_eq.
Qed.
Lemma put_here c mem i x : put c mem i x mem i = x.
Proof. unfold put. rewrite same_cell_refl. auto. Qed.
Lemma put_index c mem i x j : j <> i -> put c mem i x mem j = c mem j.
Proof. intro N. unfold put. destruct (same_cell mem j mem i) eqn:E; auto. apply same_cell_index in E. tauto. Qed.
Lemma replay_same mode c acts c1 c2 : (forall m i, c1 m i = c2 m i) -> replay mode c acts c1 -> replay mode c acts c2.
Proof. intros E. apply replay_ext; auto. Qed.

Lemma fine_dev mode mem d d' h : (sel d = mem -> sel d' = mem) -> stored d' = stored d -> fine mode mem d h -> fine mode mem d' h.
Proof. intros S St (H1 & H2 & H3 & H4). split; auto. split; auto. split; auto. rewrite St. auto. Qed.
Lemma map_mid {A B} (f : A -> B) l x r : map f (l ++ x :: r) = map f l ++ f x :: map f r.
Proof. rewrite map_app. auto. Qed.
Lemma filter_mid {A} (f : A -> bool) l x r : filter f (l ++ x :: r) = filter f l ++ (if f x then x :: filter f r else filter f r).
Proof. rewrite filter_app. auto. Qed.
Definition flight (h : handler) : list stored_sms := match h_place h with Deliver s => [s] | _ => [] end.
Lemma in_flight_mid l h r : in_flight (l ++ h :: r) = in_flight l ++ flight h ++ in_flight r.
Proof. unfold in_flight. rewrite flat_map_app. auto. Qed.
Lemma once_mid l h h' r : index_of h' = index_of h -> (waiting h' = true -> waiting h = true) ->
  NoDup (map index_of (filter waiting (l ++ h :: r))) -> NoDup (map index_of (filter waiting (l ++ h' :: r))).
Proof.
  intros E W. rewrite !filter_mid, !map_app. destruct (waiting h') eqn:E'.
  - rewrite W by auto. cbn. rewrite E. auto.
  - destruct (waiting h); auto. cbn. apply NoDup_remove_1.
Qed.

Lemma advance mode mem c0 acts told attr d before h after attr' d' p t :
  inv mode mem c0 acts told (mk_system attr d (before ++ h :: after)) ->
  let h' := mk_handler (h_memory h) (h_index h) p in
  (attr' = Some mem -> sel d' = mem) -> (sel d = mem -> sel d' = mem) -> stored d' = stored d ->
  fine mode mem d' h' -> (waiting h' = true -> waiting h = true) -> flight h = t ++ flight h' ->
  inv mode mem c0 acts (told ++ t) (mk_system attr' d' (before ++ h' :: after)).
Proof.
  intros [I1 I2 I3 I4 I5] h' A S St F W Fl. cbn [attribute modem_device handlers] in *. split; cbn [attribute modem_device handlers]; auto.
  - assert (K : forall l, Forall (fine mode mem d) l -> Forall (fine mode mem d') l) by (intros l; apply Forall_impl; intros; eapply fine_dev; eauto).
    apply Forall_app in I2 as [Fb Fa]. inversion Fa as [|? ? Fh Fa']. subst. apply Forall_app. split; auto.
  - rewrite St. auto.
  - eapply once_mid; [|apply W|apply I4]. reflexivity.
  - rewrite in_flight_mid in *. rewrite Fl in I5. rewrite I5, <- !app_assoc. apply Permutation_app_head. apply Permutation_app_swap_app.
Qed.

Ltac at_handler Fh I :=
  match type of I with inv ?mode ?mem _ _ _ (mk_system ?attr ?d (?b ++ ?h :: ?a)) =>
    assert (Fh : fine mode mem d h) by (destruct I as [_ I2 _ _ _]; cbn [modem_device handlers] in I2; apply Forall_app in I2 as [_ I2]; inversion I2; auto) end.

Lemma inv_quiet mode mem c0 acts told before h after attr d said attr' p :
  inv mode mem c0 acts told (mk_system attr d (before ++ h :: after)) ->
  handler_step mode (h_memory h) (h_index h) attr (h_place h) None said attr' p ->
  inv mode mem c0 acts (told ++ handed said) (mk_system attr' d (before ++ mk_handler (h_memory h) (h_index h) p :: after)).
Proof.
  intros I H. at_handler Fh I. destruct Fh as (Hm & Hd & Hs & Hw). destruct h as [hm hi hp]. cbn [h_memory h_index h_place] in *. subst hm.
  pose proof (inv_attr _ _ _ _ _ _ I) as IA. cbn [attribute modem_device] in IA. unfold waiting in Hw. cbn [h_place] in Hw.
  remember None as lb eqn:L. destruct H as [attr|attr r command|attr|attr r command|attr s r command|attr s]; try discriminate L; clear L.
  - apply (advance mode mem c0 acts told attr d before (mk_handler mem hi Compare)); auto.
    + destruct (Hw eq_refl) as (content & C & _). split; auto. split; auto. cbn [h_memory h_index h_place]. destruct (opt_str_eqb (Some mem) attr) eqn:E.
      * split; [|intros _; exists content; split; auto; discriminate]. intros _. destruct attr as [x|]; [|discriminate]. cbn in E.
        destruct (str_eqb_spec mem x) as [<-|]; [|discriminate]. auto.
      * split; [intros []|intros _; exists content; split; auto; discriminate].
    + destruct (opt_str_eqb (Some mem) attr); auto.
  - assert (Sl : sel d = mem) by (apply Hs; exact Logic.I). apply (advance mode mem c0 acts told attr d before (mk_handler mem hi Remember)); auto.
    destruct (Hw eq_refl) as (content & C & _). split; auto. split; auto. cbn. split; auto. intros _. exists content. split; auto. discriminate.
  - apply (advance mode mem c0 acts told attr d before (mk_handler mem hi (Deliver s))); cbn; auto.
    split; auto. split; auto. cbn. split; auto. discriminate.
Qed.

Lemma inv_write mode mem c0 acts told before h after attr d text r d' said attr' p : ~ In 34 mem ->
  inv mode mem c0 acts told (mk_system attr d (before ++ h :: after)) ->
  handler_step mode (h_memory h) (h_index h) attr (h_place h) (Some (text, r)) said attr' p -> answers d text r d' ->
  inv mode mem c0 (acts ++ took h p) (told ++ handed said) (mk_system attr' d' (before ++ mk_handler (h_memory h) (h_index h) p :: after)).
Proof.
  intros Q I H An. at_handler Fh I. pose proof Fh as Fh0. destruct Fh as (Hm & Hd & Hs & Hw). destruct h as [hm hi hp]. cbn [h_memory h_index h_place] in *. subst hm.
  pose proof (inv_attr _ _ _ _ _ _ I) as IA. cbn [attribute modem_device] in IA. unfold waiting in Hw. cbn [h_place] in Hw.
  assert (Same : forall p', hp = p' -> waiting (mk_handler mem hi p') = true -> d' = d ->
    inv mode mem c0 (acts ++ []) (told ++ []) (mk_system attr d' (before ++ mk_handler mem hi p' :: after))) by (intros p' <- _ ->; rewrite !app_nil_r; auto).
  assert (Fail : forall e, waiting (mk_handler mem hi hp) = true -> d' = d ->
    inv mode mem c0 (acts ++ []) (told ++ []) (mk_system attr d' (before ++ mk_handler mem hi (Failed e) :: after))).
  { intros e W ->. rewrite app_nil_r. apply (advance mode mem c0 acts told attr d before (mk_handler mem hi hp)); auto.
    - split; auto. split; auto. split; [intros []|discriminate].
    - destruct hp; try discriminate W; auto. }
  remember (Some (text, r)) as lb eqn:L. destruct H as [attr|attr r0 command|attr|attr r0 command|attr s r0 command|attr s]; try discriminate L; injection L as <- ->; subst command.
  - destruct (attempt_cases (lit "AT+CPMS=""" ++ mem ++ lit """") r) as [(code & B & ->)|[(ls & -> & -> & G)|(e & -> & F)]]; cbn [next].
    + apply Same; auto. eapply busy_still; eauto.
    + apply select_answer in An as [->|]; auto; [|tauto]. cbn. rewrite app_nil_r.
      apply (advance mode mem c0 acts told attr d before (mk_handler mem hi Select)); auto. destruct (Hw eq_refl) as (content & C & _).
      split; auto. split; auto. cbn. split; auto. intros _. exists content. split; auto. discriminate.
    + apply Fail; auto. eapply failing_still; eauto.
  - destruct (attempt_cases (lit "AT+CMGR=" ++ hi) r) as [(code & B & ->)|[(ls & -> & -> & G)|(e & -> & F)]]; cbn [next].
    + apply Same; auto. eapply busy_still; eauto.
    + apply (read_answer _ _ _ _ Hd G) in An as (-> & content & C & ->). rewrite Hs in C by exact Logic.I.
      destruct (if mode then parse_cmgr_text (content ++ [lit "OK"]) else parse_cmgr_pdu (content ++ [lit "OK"])) as [s|e] eqn:E; [|apply Fail; auto].
      unfold took. cbn [h_place handed]. rewrite app_nil_r. apply (advance mode mem c0 acts told attr d before (mk_handler mem hi Fetch)); auto.
      split; auto. split; auto. cbn. split; auto. intros _. exists content. split; auto. intros s' X. injection X as <-. split.
      * intros s' R. apply (reads_ok _ _ _ (lit "OK")) in R. congruence.
      * intro Md. subst mode. apply read_pdu_inv. auto.
    + apply Fail; auto. eapply failing_still; eauto.
  - destruct (attempt_cases (lit "AT+CMGD=" ++ hi ++ lit ",0") r) as [(code & B & ->)|[(ls & -> & -> & G)|(e & -> & F)]]; cbn [next].
    + apply Same; auto. eapply busy_still; eauto.
    + apply (delete_answer _ _ _ _ Hd G) in An as ->. assert (Sl : sel d = mem) by (apply Hs; exact Logic.I). rewrite Sl.
      destruct (Hw eq_refl) as (content & C & Ha). specialize (Ha s eq_refl). unfold index_of in C. cbn [h_index] in C.
      destruct I as [I1 I2 I3 I4 I5]. cbn [attribute modem_device handlers] in *. unfold took. cbn [h_place h_memory h_index handed]. rewrite app_nil_r.
      rewrite filter_mid, map_app in I4. cbn [waiting h_place map] in I4. pose proof (NoDup_remove_2 _ _ _ I4) as No.
      assert (K : forall h, waiting h = true -> In h before \/ In h after -> index_of h <> dec_value hi).
      { intros h W J E. apply No. change (index_of (mk_handler mem hi (Erase s))) with (dec_value hi). rewrite <- E. apply in_app_iff.
        destruct J; [left|right]; apply in_map; apply filter_In; auto. }
      assert (K2 : forall h, In h before \/ In h after -> fine mode mem d h -> fine mode mem (mk_device mem (put (stored d) mem (dec_value hi) None)) h).
      { intros h J (H1 & H2 & H3 & H4). split; auto. split; auto. split; auto. intro W. cbn [stored]. rewrite put_index; auto. }
      split; cbn [attribute modem_device handlers sel stored]; auto.
      * apply Forall_app in I2 as [Fb Fa]. inversion Fa as [|? ? Fh Fa']. subst x l. rewrite Forall_forall in Fb, Fa'. apply Forall_app. split; [|constructor].
        -- apply Forall_forall. auto.
        -- split; auto. split; auto. cbn. split; auto. discriminate.
        -- apply Forall_forall. auto.
      * eapply replay_app; [exact I3|]. econstructor; eauto. constructor. auto.
      * rewrite filter_mid, map_app. cbn [waiting h_place]. apply NoDup_remove_1 in I4. auto.
      * unfold taken_out in *. rewrite flat_map_app. cbn [flat_map app]. rewrite in_flight_mid in *. cbn [flight h_place] in *. cbn [app] in I5 |- *.
        rewrite I5, <- !app_assoc. do 2 apply Permutation_app_head. apply (Permutation_app_comm (in_flight after) [s]).
    + apply Fail; auto. eapply failing_still; eauto.
Qed.

Lemma inv_arrive mode mem c0 acts told attr d hs ds content : digits ds -> stored d mem (dec_value ds) = None ->
  inv mode mem c0 acts told (mk_system attr d hs) ->
  inv mode mem c0 (acts ++ [Arrived mem (dec_value ds) content]) (told ++ [])
    (mk_system attr (mk_device (sel d) (put (stored d) mem (dec_value ds) (Some content))) (hs ++ [mk_handler mem ds Compare])).
Proof.
  intros D Fr [I1 I2 I3 I4 I5]. cbn [attribute modem_device handlers] in *.
  assert (K : forall h, In h hs -> waiting h = true -> index_of h <> dec_value ds).
  { intros h J W E. rewrite Forall_forall in I2. destruct (I2 h J) as (_ & _ & _ & Hw). destruct (Hw W) as (x & C & _). rewrite E in C. congruence. }
  split; cbn [attribute modem_device handlers sel stored]; auto.
  - apply Forall_app. split.
    + rewrite Forall_forall in *. intros h J. destruct (I2 h J) as (H1 & H2 & H3 & H4). split; auto. split; auto. split; auto. intro W. cbn [stored]. rewrite put_index; auto.
    + constructor; auto. split; auto. split; auto. cbn. split; [intros []|]. intros _. exists content. split; [apply put_here|discriminate].
  - eapply replay_app; [exact I3|]. constructor; auto. constructor. auto.
  - rewrite filter_app, map_app. cbn. apply (Permutation_NoDup (Permutation_app_comm [dec_value ds] (map index_of (filter waiting hs)))).
    cbn. constructor; auto. intro J. apply in_map_iff in J as (h & E & J). apply filter_In in J as [J W]. apply (K h J W). auto.
  - unfold taken_out, in_flight in *. rewrite !flat_map_app. cbn. rewrite !app_nil_r. auto.
Qed.

(** ** The theorem about one memory *)
Theorem one_memory mode mem attr d acts told s : ~ In 34 mem -> (attr = Some mem -> sel d = mem) -> runs mode (mk_system attr d []) acts told s ->
  Forall (arrives_in mem) acts -> inv mode mem (stored d) acts told s.
Proof.
  intros Q Sy H. induction H as [|acts told s1 a t s2 H IH St]; intro F.
  - split; cbn; auto; constructor. auto.
  - apply Forall_app in F as [F Fa]. specialize (IH F). destruct St as [attr1 d1 hs m ds content N Q1 D Fr|before h after attr1 d1 said attr' p Hs|before h after attr1 d1 text r d' said attr' p Hs An].
    + inversion Fa as [|? ? E _]. cbn in E. subst m. apply inv_arrive; auto.
    + rewrite app_nil_r. apply (inv_quiet _ _ _ _ _ _ _ _ _ _ _ _ _ IH Hs).
    + eapply inv_write; eauto.
Qed.

(** ** A handler on its own is the method *)
Lemma alone_app mode mem i a1 p1 k1 t1 a2 p2 k2 t2 a3 p3 : alone mode mem i a1 p1 k1 t1 a2 p2 -> alone mode mem i a2 p2 k2 t2 a3 p3 ->
  alone mode mem i a1 p1 (k1 ++ k2) (t1 ++ t2) a3 p3.
Proof.
  induction 1 as [|attr p said b1 q1 asks told b2 q2 H _ IH|attr p text r said b1 q1 asks told b2 q2 H _ IH]; intro K; auto.
  - rewrite <- app_assoc. eapply al_quiet; eauto.
  - rewrite <- app_assoc. cbn. eapply al_write; eauto.
Qed.
Lemma alone_write mode mem i attr here go command w x w' : write command w = Done x w' ->
  (forall r, handler_step mode mem i attr here (Some (command ++ CR, r)) None attr (next here (attempt command r) go)) ->
  exists evs v, trace w' = trace w ++ evs /\ dev w' = set_writeWait v (dev w) /\ passed evs = [] /\
    alone mode mem i attr here (asked evs) [] attr (match x with Ok ls => go ls | Err e => Failed e end).
Proof.
  intros H St. apply write_done in H as (busy & codes & r & _ & B & NB & O & D & T).
  exists (attempts (command ++ CR) (writeWait (dev w)) busy r). eexists. split; auto. split; [exact D|]. split; [apply passed_attempts|].
  rewrite asked_attempts. clear T D. induction B as [|b c busy codes B _ IH].
  - cbn. pose proof (St r) as S1. rewrite (attempt_some _ _ _ NB O) in S1. apply (al_write _ _ _ _ _ _ _ _ _ _ _ _ _ _ S1). destruct x; constructor.
  - cbn [app map]. pose proof (St b) as S1. rewrite (attempt_none _ _ _ B) in S1. apply (al_write _ _ _ _ _ _ _ _ _ _ _ _ _ _ S1). exact IH.
Qed.

Theorem alone_is_method m mem ds line sc x w : indication (lit "+CMTI:") mem ds line -> handleSmsReceived line (start m sc) = Done x w ->
  exists p, alone (smsTextMode m) mem ds (memRead m) Compare (asked (trace w)) (passed (trace w)) (memRead (dev w)) p /\ ended p x.
Proof.
  intros I H. apply indication_match in I as (t & rest & E). rewrite <- cmti_is in E.
  unfold handleSmsReceived in H. rewrite E in H. unfold group in H. cbn [groups fst snd nth Nat.sub] in H.
  (* selecting the memory *)
  assert (Sel : forall y w1, setSmsMemory (Some mem) None (start m sc) = Done y w1 ->
    smsTextMode (dev w1) = smsTextMode m /\ passed (trace w1) = [] /\
    alone (smsTextMode m) mem ds (memRead m) Compare (asked (trace w1)) [] (memRead (dev w1)) (match y with Ok _ => Fetch | Err e => Failed e end)).
  { intros y w1 Hs. unfold setSmsMemory in Hs. unfold mbind at 1, get in Hs. cbn [start dev] in Hs.
    pose proof (st_compare (smsTextMode m) mem ds (memRead m)) as Sc. destruct (opt_str_eqb (Some mem) (memRead m)) eqn:Eq; cbn [negb] in Hs.
    - injection Hs as <- <-. cbn. split; auto. split; auto. apply (al_quiet _ _ _ _ _ _ _ _ _ _ _ _ Sc). constructor.
    - apply bind_done in Hs as [(ls & w2 & H1 & Hs)|(e & H1 & ->)].
      + apply (alone_write (smsTextMode m) mem ds (memRead m) Select (fun _ => Remember)) in H1 as (evs & v & T & D & P & A); [|intro r; apply st_select].
        unfold modify in Hs. injection Hs as <- <-. cbn [start trace app dev] in *. rewrite T, D. cbn [memRead set_memRead set_writeWait]. split; auto. split; auto.
        apply (al_quiet _ _ _ _ _ _ _ _ _ _ _ _ Sc). rewrite <- (app_nil_r (asked evs)). apply (alone_app _ _ _ _ _ _ [] _ _ _ [] _ _ A).
        apply (al_quiet _ _ _ _ _ _ _ _ _ _ _ _ (st_remember _ _ _ _)). constructor.
      + apply (alone_write (smsTextMode m) mem ds (memRead m) Select (fun _ => Remember)) in H1 as (evs & v & T & D & P & A); [|intro r; apply st_select].
        cbn [start trace app dev] in *. rewrite T, D. split; auto. split; auto. apply (al_quiet _ _ _ _ _ _ _ _ _ _ _ _ Sc). exact A. }
  (* reading *)
  assert (Rd : forall y w1, readStoredSms ds (Some mem) (start m sc) = Done y w1 ->
    smsTextMode (dev w1) = smsTextMode m /\ passed (trace w1) = [] /\
    alone (smsTextMode m) mem ds (memRead m) Compare (asked (trace w1)) [] (memRead (dev w1)) (match y with Ok s => Erase s | Err e => Failed e end)).
  { intros y w1 Hr. unfold readStoredSms in Hr. apply bind_done in Hr as [([] & w2 & H1 & Hr)|(e & H1 & ->)]; [|apply (Sel _ _ H1)].
    destruct (Sel _ _ H1) as (M1 & P1 & A1). apply bind_done in Hr as [(ls & w3 & H2 & Hr)|(e & H2 & ->)].
    - apply (alone_write (smsTextMode m) mem ds (memRead (dev w2)) Fetch (fun ls => match (if smsTextMode m then parse_cmgr_text ls else parse_cmgr_pdu ls) with Ok s => Erase s | Err e => Failed e end))
        in H2 as (evs & v & T & D & P & A); [|intro r; apply st_fetch].
      unfold mbind, get, lift in Hr. injection Hr as Hy <-. rewrite T, D in *. cbn [memRead set_writeWait smsTextMode] in *. rewrite passed_app, P1, P, asked_app. split; auto. split; auto.
      rewrite M1 in Hy. apply (alone_app _ _ _ _ _ _ [] _ _ _ [] _ _ A1). subst y. exact A.
    - apply (alone_write (smsTextMode m) mem ds (memRead (dev w2)) Fetch (fun ls => match (if smsTextMode m then parse_cmgr_text ls else parse_cmgr_pdu ls) with Ok s => Erase s | Err e => Failed e end))
        in H2 as (evs & v & T & D & P & A); [|intro r; apply st_fetch].
      rewrite T, D. cbn [memRead set_writeWait smsTextMode]. rewrite passed_app, P1, P, asked_app. split; auto. split; auto. apply (alone_app _ _ _ _ _ _ [] _ _ _ [] _ _ A1 A). }
  apply bind_done in H as [(s & w1 & H1 & H)|(e & H1 & ->)].
  - destruct (Rd _ _ H1) as (M1 & P1 & A1). apply bind_done in H as [([] & w2 & H2 & H)|(e & H2 & ->)].
    + unfold deleteStoredSms in H2. apply bind_done in H2 as [([] & w3 & H3 & H2)|(e & H3 & E3)]; [|discriminate E3].
      assert (w3 = w1) as -> by (unfold setSmsMemory, mbind, get in H3; cbn in H3; injection H3 as <-; auto). clear H3.
      apply bind_done in H2 as [(ls & w3 & H3 & H2)|(e & H3 & E3)]; [|discriminate E3]. injection H2 as <-.
      apply (alone_write (smsTextMode m) mem ds (memRead (dev w1)) (Erase s) (fun _ => Deliver s)) in H3 as (evs & v & T & D & P & A); [|intro r; apply st_erase].
      injection H as <- <-. cbn [trace dev]. rewrite T, D. cbn [memRead set_writeWait]. exists (Delivered s). split; [|cbn; eauto].
      rewrite !asked_app, !passed_app, P1, P. cbn [app]. apply (alone_app _ _ _ _ _ _ [] _ _ _ _ _ _ (alone_app _ _ _ _ _ _ [] _ _ _ [] _ _ A1 A)).
      apply (al_quiet _ _ _ _ _ _ _ _ _ _ _ _ (st_deliver _ _ _ _ _)). constructor.
    + unfold deleteStoredSms in H2. apply bind_done in H2 as [([] & w3 & H3 & H2)|(e' & H3 & E3)].
      2: { unfold setSmsMemory, mbind, get in H3. cbn in H3. discriminate H3. }
      assert (w3 = w1) as -> by (unfold setSmsMemory, mbind, get in H3; cbn in H3; injection H3 as <-; auto). clear H3.
      apply bind_done in H2 as [(ls & w3 & H3 & H2)|(e' & H3 & E3)]; [discriminate H2|]. injection E3 as <-.
      apply (alone_write (smsTextMode m) mem ds (memRead (dev w1)) (Erase s) (fun _ => Deliver s)) in H3 as (evs & v & T & D & P & A); [|intro r; apply st_erase].
      rewrite T, D. exists (Failed e). split; [|reflexivity]. rewrite asked_app, passed_app, P1, P. apply (alone_app _ _ _ _ _ _ [] _ _ _ [] _ _ A1 A).
  - destruct (Rd _ _ H1) as (M1 & P1 & A1). exists (Failed e). rewrite P1. split; [exact A1|reflexivity].
Qed.

(** ** Two memories: a message is lost *)
Lemma attempt_good command ls : good_answer ls -> attempt command (Lines ls) = Some (Ok ls).
Proof. intros (b & l & -> & G). apply attempt_some; [apply good_not_busy; auto|constructor; auto]. Qed.
Definition no_message : reply := Lines [lit "+CMS ERROR: 321"].
Lemma no_message_failing : failing no_message.
Proof.
  assert (E : exists e, attempt [] no_message = Some (Err e)) by (vm_compute; eauto). destruct E as (e & E).
  destruct (attempt_cases [] no_message) as [(code & B & A)|[(ls & A & _)|(e' & _ & F)]]; auto; congruence.
Qed.
Lemma no_message_attempt command : attempt command no_message = Some (Err (CmsError command 321)).
Proof. vm_compute. reflexivity. Qed.

Theorem two_memories mode mem1 mem2 ds c1 c2 s1 d : mem1 <> mem2 -> mem1 <> [] -> ~ In 34 mem1 -> mem2 <> [] -> ~ In 34 mem2 -> digits ds ->
  reads_as mode c1 s1 -> let i := dec_value ds in stored d mem1 i = None -> stored d mem2 i = None ->
  exists s e, runs mode (mk_system None d []) [Arrived mem1 i c1; Arrived mem2 i c2; Passed mem1 i s1] [s1] s /\
    handlers s = [mk_handler mem1 ds (Delivered s1); mk_handler mem2 ds (Failed e)] /\
    stored (modem_device s) mem1 i = Some c1 /\ stored (modem_device s) mem2 i = None.
Proof.
  intros Ne N1 Q1 N2 Q2 D R i F1 F2.
  assert (Good : good_answer [lit "OK"]) by (exists [], (lit "OK"); split; auto; apply good_ok).
  assert (GoodC : good_answer (c1 ++ [lit "OK"])) by (exists c1, (lit "OK"); split; auto; apply good_ok).
  set (dA := mk_device (sel d) (put (stored d) mem1 i (Some c1))).
  set (dB := mk_device (sel dA) (put (stored dA) mem2 i (Some c2))).
  assert (NB : same_cell mem2 i mem1 i = false) by (unfold same_cell; destruct (str_eqb_spec mem2 mem1); auto; congruence).
  assert (NB' : same_cell mem1 i mem2 i = false) by (unfold same_cell; destruct (str_eqb_spec mem1 mem2); auto; congruence).
  pose proof (rs_nil mode (mk_system None d [])) as R0.
  assert (Ra := rs_step _ _ _ _ _ _ _ _ R0 (sys_arrive mode None d [] mem1 ds c1 N1 Q1 D F1)). fold i dA in Ra.
  assert (F2' : stored dA mem2 i = None) by (cbn; unfold put; rewrite NB; auto).
  assert (Rb := rs_step _ _ _ _ _ _ _ _ Ra (sys_arrive mode None dA _ mem2 ds c2 N2 Q2 D F2')). fold i dB in Rb. clear R0 Ra.
  set (g := mk_handler mem2 ds Compare) in *.
  (* the first handler up to AT+CMGD *)
  assert (R1 := rs_step _ _ _ _ _ _ _ _ Rb (sys_quiet mode [] (mk_handler mem1 ds Compare) [g] None dB None None Select (st_compare mode mem1 ds None))).
  set (d1 := mk_device mem1 (stored dB)).
  assert (S2 : sys_step mode (mk_system None dB ([] ++ mk_handler mem1 ds Select :: [g])) [] [] (mk_system None d1 ([] ++ mk_handler mem1 ds Remember :: [g]))).
  { assert (St := st_select mode mem1 ds None (Lines [lit "OK"])). cbv zeta in St. rewrite attempt_good in St by auto.
    apply (sys_write mode [] (mk_handler mem1 ds Select) [g] None dB _ _ d1 _ _ _ St).
    replace ((lit "AT+CPMS=""" ++ mem1 ++ lit """") ++ CR) with (lit "AT+CPMS=" ++ 34 :: mem1 ++ [34; 13]) by (cbn; rewrite <- app_assoc; auto). constructor; auto. }
  assert (R2 := rs_step _ _ _ _ _ _ _ _ R1 S2).
  assert (R3 := rs_step _ _ _ _ _ _ _ _ R2 (sys_quiet mode [] (mk_handler mem1 ds Remember) [g] None d1 None (Some mem1) Fetch (st_remember mode mem1 ds None))).
  assert (S4 : sys_step mode (mk_system (Some mem1) d1 ([] ++ mk_handler mem1 ds Fetch :: [g])) [] [] (mk_system (Some mem1) d1 ([] ++ mk_handler mem1 ds (Erase s1) :: [g]))).
  { assert (St := st_fetch mode mem1 ds (Some mem1) (Lines (c1 ++ [lit "OK"]))). cbv zeta in St. rewrite attempt_good in St by auto. cbn [next] in St.
    apply (reads_ok _ _ _ (lit "OK")) in R. rewrite R in St.
    apply (sys_write mode [] (mk_handler mem1 ds Fetch) [g] (Some mem1) d1 _ _ d1 _ _ _ St).
    replace ((lit "AT+CMGR=" ++ ds) ++ CR) with (lit "AT+CMGR=" ++ ds ++ [13]) by (cbn; auto). apply (an_read d1); auto.
    change (put (put (stored d) mem1 i (Some c1)) mem2 i (Some c2) mem1 i = Some c1). unfold put. rewrite NB', same_cell_refl. auto. }
  assert (R4 := rs_step _ _ _ _ _ _ _ _ R3 S4). clear R1 R2 R3 S2 S4 Rb.
  (* the second up to AT+CMGR *)
  set (k := mk_handler mem1 ds (Erase s1)) in *. cbn [app] in R4.
  assert (Sc : handler_step mode mem2 ds (Some mem1) Compare None None (Some mem1) Select).
  { assert (Sc := st_compare mode mem2 ds (Some mem1)). cbn [opt_str_eqb] in Sc. destruct (str_eqb_spec mem2 mem1); [congruence|auto]. }
  assert (R5 := rs_step _ _ _ _ _ _ _ _ R4 (sys_quiet mode [k] g [] (Some mem1) d1 None (Some mem1) Select Sc)).
  set (d2 := mk_device mem2 (stored dB)).
  assert (S6 : sys_step mode (mk_system (Some mem1) d1 ([k] ++ mk_handler mem2 ds Select :: [])) [] [] (mk_system (Some mem1) d2 ([k] ++ mk_handler mem2 ds Remember :: []))).
  { assert (St := st_select mode mem2 ds (Some mem1) (Lines [lit "OK"])). cbv zeta in St. rewrite attempt_good in St by auto.
    apply (sys_write mode [k] (mk_handler mem2 ds Select) [] (Some mem1) d1 _ _ d2 _ _ _ St).
    replace ((lit "AT+CPMS=""" ++ mem2 ++ lit """") ++ CR) with (lit "AT+CPMS=" ++ 34 :: mem2 ++ [34; 13]) by (cbn; rewrite <- app_assoc; auto).
    apply (an_select d1); auto. }
  assert (R6 := rs_step _ _ _ _ _ _ _ _ R5 S6).
  assert (R7 := rs_step _ _ _ _ _ _ _ _ R6 (sys_quiet mode [k] (mk_handler mem2 ds Remember) [] (Some mem1) d2 None (Some mem2) Fetch (st_remember mode mem2 ds (Some mem1)))).
  clear R4 R5 R6 S6 Sc.
  (* the first deletes in the wrong memory, and delivers *)
  set (d3 := mk_device mem2 (put (stored dB) mem2 i None)).
  assert (S8 : sys_step mode (mk_system (Some mem2) d2 ([] ++ k :: [mk_handler mem2 ds Fetch])) [Passed mem1 i s1] [] (mk_system (Some mem2) d3 ([] ++ mk_handler mem1 ds (Deliver s1) :: [mk_handler mem2 ds Fetch]))).
  { assert (St := st_erase mode mem1 ds (Some mem2) s1 (Lines [lit "OK"])). cbv zeta in St. rewrite attempt_good in St by auto.
    apply (sys_write mode [] k [mk_handler mem2 ds Fetch] (Some mem2) d2 _ _ d3 _ _ _ St).
    replace ((lit "AT+CMGD=" ++ ds ++ lit ",0") ++ CR) with (lit "AT+CMGD=" ++ ds ++ lit ",0" ++ [13]) by (cbn; rewrite <- app_assoc; auto).
    apply (an_delete d2); auto. }
  assert (R8 := rs_step _ _ _ _ _ _ _ _ R7 S8).
  assert (R9 := rs_step _ _ _ _ _ _ _ _ R8 (sys_quiet mode [] (mk_handler mem1 ds (Deliver s1)) [mk_handler mem2 ds Fetch] (Some mem2) d3 (Some s1) (Some mem2) (Delivered s1) (st_deliver mode mem1 ds (Some mem2) s1))).
  (* the second finds nothing *)
  assert (S10 : sys_step mode (mk_system (Some mem2) d3 ([mk_handler mem1 ds (Delivered s1)] ++ mk_handler mem2 ds Fetch :: [])) [] []
    (mk_system (Some mem2) d3 ([mk_handler mem1 ds (Delivered s1)] ++ mk_handler mem2 ds (Failed (CmsError (lit "AT+CMGR=" ++ ds) 321)) :: []))).
  { assert (St := st_fetch mode mem2 ds (Some mem2) no_message). cbv zeta in St. rewrite no_message_attempt in St. cbn [next] in St.
    apply (sys_write mode [mk_handler mem1 ds (Delivered s1)] (mk_handler mem2 ds Fetch) [] (Some mem2) d3 _ _ d3 _ _ _ St). apply an_fail. apply no_message_failing. }
  assert (R10 := rs_step _ _ _ _ _ _ _ _ R9 S10).
  eexists. eexists. split; [exact R10|]. split; [reflexivity|]. cbn. unfold put. rewrite same_cell_refl, NB', same_cell_refl. auto.
Qed.
