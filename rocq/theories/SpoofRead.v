(** What is made of responses that contain a text written by others. *)
From Verif Require Import Base RegexModel RegexProofs DateModel UtilModel PduModel ModemCore ModemSpec WriteProofs MonadProofs SmsModel SendSpec TrackSpec CoverageSpec StoreLemmas StoreSpec ReadProofs StoreProofs ListSpec ListProofs ProcessProofs StoreFinal
  BookSpec NotifyModel CallFinal.
From Verif Require Import SerialSpec SpoofSpec SpoofProofs.

Lemma writes_pause_more wait evs : writes_of (pause wait ++ evs) = writes_of evs.
Proof. rewrite writes_of_app, writes_pause. reflexivity. Qed.
Lemma ok_alone : good_line (lit "OK").
Proof. apply good_ok. Qed.

(** ** Reading one message *)
Lemma read_unfold ds w : readStoredSms ds None w =
  mbind (write (lit "AT+CMGR=" ++ ds)) (fun msgData => mbind get (fun m => lift (if smsTextMode m then parse_cmgr_text msgData else parse_cmgr_pdu msgData))) w.
Proof. reflexivity. Qed.
Lemma read_short ds head status number time n t before last sc w : smsTextMode (dev w) = true ->
  text_header head status number time -> status_named status n -> parseTextModeTimeStr time = Ok t -> good_line last ->
  script w = Lines (head :: before ++ [last]) :: sc ->
  exists w', readStoredSms ds None w = Done (Ok (Received n (Some number) t (text_of before) None)) w' /\
    dev w' = dev w /\ script w' = sc /\ passed (trace w') = passed (trace w) /\ writes_of (trace w') = writes_of (trace w) ++ [lit "AT+CMGR=" ++ ds ++ [13]].
Proof.
  intros Md Th Sn Pt G S. rewrite read_unfold. eexists. split.
  - erewrite bind_run; [|apply (write_good _ _ (head :: before) last sc); auto]. unfold mbind, get, lift. cbn [dev]. rewrite Md.
    rewrite (read_text head status number time before last n t); auto.
  - cbn [dev script trace]. split; auto. split; auto. rewrite passed_app, writes_of_app. split.
    + cbn [passed flat_map]. change (flat_map _ (pause ?x)) with (passed (pause x)). destruct (0 <? writeWait (dev w)) eqn:P; unfold pause; rewrite P; cbn; rewrite ?app_nil_r; auto.
    + f_equal. change (writes_of (?e :: ?r)) with ([(lit "AT+CMGR=" ++ ds) ++ CR] ++ writes_of r). rewrite writes_pause, app_nil_r. unfold CR. rewrite <- app_assoc. reflexivity.
Qed.
Lemma bad_reply before last : ~ good_line last -> not_busy (Lines (before ++ [last])) -> forall data,
  exists e, outcome data (Lines (before ++ [last])) (Err e).
Proof.
  intros B NB data. destruct (reply_cases data (Lines (before ++ [last]))) as [(c & H)|[_ (x & O)]]; [destruct (NB c H)|].
  destruct x as [ls|e]; [|eauto]. apply outcome_ok in O as (E & l0 & line & -> & G). injection E as E. apply app_inj_tail in E as [-> ->]. contradiction.
Qed.
Lemma one_write data w r : writes_of (trace w ++ EWrite data (Some r) :: pause (writeWait (dev w))) = writes_of (trace w) ++ [data] /\
  passed (trace w ++ EWrite data (Some r) :: pause (writeWait (dev w))) = passed (trace w).
Proof.
  rewrite writes_of_app, passed_app. split.
  - f_equal. change (writes_of (?e :: ?x)) with ([data] ++ writes_of x). rewrite writes_pause, app_nil_r. reflexivity.
  - change (passed (EWrite data (Some r) :: ?x)) with (passed x). unfold pause. destruct (0 <? _); cbn; apply app_nil_r.
Qed.
Lemma read_error ds head before last sc w : ~ good_line last -> not_busy (Lines (head :: before ++ [last])) ->
  script w = Lines (head :: before ++ [last]) :: sc ->
  exists e w', readStoredSms ds None w = Done (Err e) w' /\
    dev w' = dev w /\ script w' = sc /\ passed (trace w') = passed (trace w) /\ writes_of (trace w') = writes_of (trace w) ++ [lit "AT+CMGR=" ++ ds ++ [13]].
Proof.
  intros B NB S. rewrite read_unfold. destruct (bad_reply (head :: before) last B NB (lit "AT+CMGR=" ++ ds)) as [e O]. exists e. eexists. split.
  - unfold mbind at 1. rewrite (write_simple _ _ _ sc (Err e) S NB O). reflexivity.
  - cbn [dev script trace]. split; auto. split; auto. destruct (one_write ((lit "AT+CMGR=" ++ ds) ++ CR) w (Lines (head :: before ++ [last]))) as [-> ->]. split; auto.
Qed.
Lemma always_busy data term r code : busy_reply code r -> forall k m tr, exists w, write_on (repeat r k) m tr data term true = Stuck w /\ passed (trace w) = passed tr /\
  writes_of (trace w) = writes_of tr ++ repeat (data ++ term) k.
Proof.
  intros B. induction k as [|k IH]; intros m tr; cbn [repeat].
  - eexists. split; [reflexivity|]. cbn [trace]. rewrite app_nil_r. auto.
  - rewrite (write_busy _ _ _ _ _ _ _ B).
    destruct (IH (set_writeWait (writeWait m + 2) m) (tr ++ EWrite (data ++ term) (Some r) :: pause (writeWait m) ++ [ESleep (writeWait m + 2)])) as (w & -> & P & W).
    exists w. split; auto. rewrite P, W, writes_of_app, passed_app. split.
    + change (passed (EWrite (data ++ term) (Some r) :: ?x)) with (passed x). unfold pause. destruct (0 <? _); cbn; apply app_nil_r.
    + rewrite <- app_assoc. f_equal. change (writes_of (EWrite (data ++ term) (Some r) :: ?x)) with ([data ++ term] ++ writes_of x). rewrite writes_pause_more. reflexivity.
Qed.
Lemma read_endless ds code head before last k w : busy_reply code (Lines (head :: before ++ [last])) ->
  script w = repeat (Lines (head :: before ++ [last])) k ->
  exists w', readStoredSms ds None w = Stuck w' /\ passed (trace w') = passed (trace w) /\ writes_of (trace w') = writes_of (trace w) ++ repeat (lit "AT+CMGR=" ++ ds ++ [13]) k.
Proof.
  intros B S. rewrite read_unfold. unfold mbind at 1, write, write_with. rewrite S.
  destruct (always_busy (lit "AT+CMGR=" ++ ds) CR _ _ B k (dev w) (trace w)) as (w' & -> & P & W). exists w'. auto.
Qed.

(** ** The handler of the notification *)
Lemma same_memory mem w : memRead (dev w) = Some mem -> setSmsMemory (Some mem) None w = Done (Ok tt) w.
Proof.
  intro E. unfold setSmsMemory, mbind, get. rewrite E. unfold opt_str_eqb. replace (str_eqb mem mem) with true; [reflexivity|].
  symmetry. apply TrieProofs.str_eqb_refl.
Qed.
Lemma read_there ds mem w : memRead (dev w) = Some mem -> readStoredSms ds (Some mem) w = readStoredSms ds None w.
Proof. intro E. unfold readStoredSms. erewrite bind_run; [|apply same_memory; auto]. reflexivity. Qed.
Lemma handler_unfold mem ds line w : indication (lit "+CMTI:") mem ds line -> memRead (dev w) = Some mem ->
  handleSmsReceived line w = mbind (readStoredSms ds None) (fun s => mbind (deleteStoredSms ds None) (fun _ => tell (ESms s))) w.
Proof.
  intros I E. apply indication_match in I as (t & rest & M). rewrite <- cmti_is in M. unfold handleSmsReceived. rewrite M. unfold group. cbn [groups fst snd nth Nat.sub].
  unfold mbind at 1 3. rewrite (read_there ds mem w E). reflexivity.
Qed.
Lemma handed_short mem ds line head status number time n t before last sc w : smsTextMode (dev w) = true -> memRead (dev w) = Some mem ->
  indication (lit "+CMTI:") mem ds line ->
  text_header head status number time -> status_named status n -> parseTextModeTimeStr time = Ok t -> good_line last ->
  script w = Lines (head :: before ++ [last]) :: Lines [lit "OK"] :: sc ->
  exists w', handleSmsReceived line w = Done (Ok tt) w' /\ passed (trace w') = passed (trace w) ++ [Received n (Some number) t (text_of before) None] /\
    writes_of (trace w') = writes_of (trace w) ++ [lit "AT+CMGR=" ++ ds ++ [13]; lit "AT+CMGD=" ++ ds ++ lit ",0" ++ [13]].
Proof.
  intros Md Mm I Th Sn Pt G S. rewrite (handler_unfold mem ds line w I Mm).
  destruct (read_short ds _ _ _ _ _ _ _ _ _ w Md Th Sn Pt G S) as (w1 & R & D & S1 & P & W).
  erewrite bind_run by exact R. unfold deleteStoredSms. eexists. split.
  - erewrite bind_run.
    2:{ erewrite bind_run; [|reflexivity]. erewrite bind_run; [|apply (write_good _ w1 [] (lit "OK") sc S1 ok_alone)]. reflexivity. }
    reflexivity.
  - cbn [trace]. destruct (one_write ((lit "AT+CMGD=" ++ ds ++ lit ",0") ++ CR) w1 (Lines ([] ++ [lit "OK"]))) as [W1 P1].
    rewrite passed_app, writes_of_app. cbn [app] in W1, P1 |- *. rewrite W1, P1, P, W. split; auto. cbn [writes_of flat_map]. rewrite app_nil_r, <- app_assoc. unfold CR. rewrite <- !app_assoc. reflexivity.
Qed.
Lemma handed_not mem ds line head before last sc w : memRead (dev w) = Some mem ->
  indication (lit "+CMTI:") mem ds line -> ~ good_line last -> not_busy (Lines (head :: before ++ [last])) ->
  script w = Lines (head :: before ++ [last]) :: sc ->
  exists e w', handleSmsReceived line w = Done (Err e) w' /\ passed (trace w') = passed (trace w) /\
    writes_of (trace w') = writes_of (trace w) ++ [lit "AT+CMGR=" ++ ds ++ [13]].
Proof.
  intros Mm I B NB S. rewrite (handler_unfold mem ds line w I Mm). destruct (read_error ds _ _ _ _ w B NB S) as (e & w1 & R & D & S1 & P & W).
  exists e, w1. split; auto. unfold mbind at 1. rewrite R. reflexivity.
Qed.
Lemma handed_never mem ds line code head before last k w : memRead (dev w) = Some mem ->
  indication (lit "+CMTI:") mem ds line -> busy_reply code (Lines (head :: before ++ [last])) ->
  script w = repeat (Lines (head :: before ++ [last])) k ->
  exists w', handleSmsReceived line w = Stuck w' /\ passed (trace w') = passed (trace w) /\
    writes_of (trace w') = writes_of (trace w) ++ repeat (lit "AT+CMGR=" ++ ds ++ [13]) k.
Proof.
  intros Mm I B S. rewrite (handler_unfold mem ds line w I Mm). destruct (read_endless ds code _ _ _ k w B S) as (w1 & R & P & W).
  exists w1. split; auto. unfold mbind at 1. rewrite R. reflexivity.
Qed.

(** ** Notifications *)
Theorem taken_for_notice before line after w : Forall (unrelated (callUpdates (dev w))) before -> ~ ModemSpec.substring (lit "RING") line ->
  (exists s, line = lit "+CMTI" ++ s \/ line = lit "+CDSI" ++ s) ->
  handleNotification (before ++ line :: after) w = handleNotification [line] w.
Proof.
  intros F NR (s & L). unfold handleNotification. rewrite unrelated_skip by auto. cbn [notify_each].
  destruct (contains line (lit "RING")) eqn:E; [apply contains_iff in E; contradiction|].
  assert (P : forall p, startswith (p ++ s) p = true) by (intro p; apply startswith_app; eauto).
  assert (Nx : forall p, length p = 5%nat -> p <> lit "+CDSI" -> startswith (lit "+CDSI" ++ s) p = false).
  { intros p Lp Np. destruct (startswith _ p) eqn:X; auto. exfalso. apply startswith_app in X as [r X]. apply Np.
    apply (f_equal (firstn 5)) in X. rewrite (firstn_app 5 p r), Lp in X. cbn [Nat.sub] in X. rewrite firstn_O, app_nil_r, (firstn_all2 p) in X by lia. symmetry. exact X. }
  destruct L as [->| ->]; [rewrite P; reflexivity|]. rewrite (Nx (lit "+CMTI")), (Nx (lit "+CUSD")), P; try reflexivity; discriminate.
Qed.

(** ** Listings *)
Lemma list_run status name answer es delete sc w : smsTextMode (dev w) = true -> status_named name status -> good_answer answer -> taken_text answer es ->
  script w = Lines answer :: sc ->
  listStoredSms status None delete w =
    mbind (if delete then (if status =? 4 then deleteMultipleStoredSms 4 None else delete_each (fold_left add_del (map fst es) [])) else ret tt) (fun _ => ret (map snd es))
      (mk_world (dev w) sc (trace w ++ EWrite ((lit "AT+CMGL=" ++ 34 :: name ++ [34]) ++ CR) (Some (Lines answer)) :: pause (writeWait (dev w)))).
Proof.
  intros Md Sn (b & l & -> & G) T S. unfold listStoredSms. erewrite bind_run; [|reflexivity]. erewrite bind_run; [|reflexivity]. rewrite Md.
  apply status_text_iff in Sn. rewrite Sn.
  erewrite bind_run.
  2:{ erewrite bind_run; [|apply (write_good _ w b l sc S G)]. unfold lift. rewrite (taken_text_start _ _ T). reflexivity. }
  reflexivity.
Qed.
Lemma delete_run i sc w : 0 <= i -> script w = Lines [lit "OK"] :: sc -> exists ds w', decimal i ds /\ deleteStoredSms (str_of_Z i) None w = Done (Ok tt) w' /\ script w' = sc /\
  writes_of (trace w') = writes_of (trace w) ++ [lit "AT+CMGD=" ++ ds ++ lit ",0" ++ [13]].
Proof.
  intros Hi S. exists (str_of_Z i). eexists. split; [apply str_of_Z_decimal; auto|]. split.
  - unfold deleteStoredSms. erewrite bind_run; [|reflexivity]. erewrite bind_run; [|apply (write_good _ w [] (lit "OK") sc S ok_alone)]. reflexivity.
  - cbn [script trace]. split; auto. destruct (one_write ((lit "AT+CMGD=" ++ str_of_Z i ++ lit ",0") ++ CR) w (Lines ([] ++ [lit "OK"]))) as [-> _].
    unfold CR. rewrite <- !app_assoc. reflexivity.
Qed.
Lemma ok_not_header : no_cmgl_text (lit "OK").
Proof. intros i st nb t (is & alpha & nl & E & _). discriminate. Qed.
Lemma kept_ok body : kept (body ++ [lit "OK"]) = kept body.
Proof. unfold kept. rewrite filter_app. cbn. apply app_nil_r. Qed.
Definition entry_text (body : list str) : str := text_of (kept body).

Lemma forged_taken head i st nb time n t body forged i' st' nb' time' n' t' body' :
  cmgl_text head i st nb time -> status_named st n -> parseTextModeTimeStr time = Ok t -> Forall no_cmgl_text body -> kept body <> [] ->
  cmgl_text forged i' st' nb' time' -> status_named st' n' -> parseTextModeTimeStr time' = Ok t' -> Forall no_cmgl_text body' -> kept body' <> [] ->
  taken_text (head :: (body ++ forged :: body') ++ [lit "OK"])
    [(i, Received n (Some nb) t (text_of (kept body)) None); (i', Received n' (Some nb') t' (text_of (kept body')) None)].
Proof.
  intros H Sn Pt F K H' Sn' Pt' F' K'. rewrite <- app_assoc. cbn [app]. eapply tt_entry; eauto; [econstructor; eauto|].
  rewrite <- (kept_ok body'). rewrite <- (app_nil_r (body' ++ [lit "OK"])) at 1. eapply tt_entry; eauto; [|constructor|rewrite kept_ok; auto|constructor].
  apply Forall_app. split; auto. constructor; auto. apply ok_not_header.
Qed.
Lemma cmgl_index_nonneg line i st nb t : cmgl_text line i st nb t -> 0 <= i.
Proof.
  intros (is & alpha & nl & _ & [_ F] & -> & _). unfold dec_value. assert (V : forall ds acc, Forall (fun c => is_digit c = true) ds -> 0 <= acc -> 0 <= fold_left (fun a c => 10 * a + (c - 48)) ds acc).
  { clear. induction ds as [|c ds IH]; intros acc F H; cbn; auto. inversion F as [|? ? H1 H2]; subst. apply IH; auto. apply digit_range in H1. lia. }
  apply V; auto. lia.
Qed.
Theorem forged_listed status name head i st nb time n t body forged i' st' nb' time' n' t' body' sc w :
  smsTextMode (dev w) = true -> status_named name status -> status <> 4 -> i <> i' ->
  cmgl_text head i st nb time -> status_named st n -> parseTextModeTimeStr time = Ok t -> Forall no_cmgl_text body -> kept body <> [] ->
  cmgl_text forged i' st' nb' time' -> status_named st' n' -> parseTextModeTimeStr time' = Ok t' -> Forall no_cmgl_text body' -> kept body' <> [] ->
  script w = Lines (head :: (body ++ forged :: body') ++ [lit "OK"]) :: Lines [lit "OK"] :: Lines [lit "OK"] :: sc ->
  exists ds ds' w', decimal i ds /\ decimal i' ds' /\
    listStoredSms status None true w = Done (Ok [Received n (Some nb) t (text_of (kept body)) None; Received n' (Some nb') t' (text_of (kept body')) None]) w' /\
    writes_of (trace w') = writes_of (trace w) ++ [lit "AT+CMGL=" ++ 34 :: name ++ [34; 13]; lit "AT+CMGD=" ++ ds ++ lit ",0" ++ [13]; lit "AT+CMGD=" ++ ds' ++ lit ",0" ++ [13]].
Proof.
  intros Md Sn Ns Ni H S1 T1 F1 K1 H' S2 T2 F2 K2 S.
  pose proof (forged_taken _ _ _ _ _ _ _ _ _ _ _ _ _ _ _ _ H S1 T1 F1 K1 H' S2 T2 F2 K2) as Tk.
  assert (Ga : good_answer (head :: (body ++ forged :: body') ++ [lit "OK"])) by (exists (head :: body ++ forged :: body'), (lit "OK"); split; [reflexivity|apply ok_alone]).
  rewrite (list_run status name _ _ true _ w Md Sn Ga Tk S).
  replace (status =? 4) with false by (symmetry; apply Z.eqb_neq; auto). cbn [map fst snd fold_left].
  assert (Ed : add_del (add_del [] i) i' = [i; i']).
  { unfold add_del. cbn. replace (i' =? i) with false by (symmetry; apply Z.eqb_neq; auto). reflexivity. }
  rewrite Ed. cbn [delete_each].
  set (w1 := mk_world _ _ _). destruct (delete_run i (Lines [lit "OK"] :: sc) w1) as (ds & w2 & D & R2 & Sc2 & W2); [eapply cmgl_index_nonneg; eauto|reflexivity|].
  destruct (delete_run i' sc w2) as (ds' & w3 & D' & R3 & Sc3 & W3); [eapply cmgl_index_nonneg; eauto|auto|].
  exists ds, ds', w3. split; auto. split; auto. split.
  - erewrite bind_run; [reflexivity|]. erewrite bind_run by exact R2. erewrite bind_run by exact R3. reflexivity.
  - rewrite W3, W2. unfold w1. cbn [trace]. destruct (one_write ((lit "AT+CMGL=" ++ 34 :: name ++ [34]) ++ CR) w (Lines (head :: (body ++ forged :: body') ++ [lit "OK"]))) as [-> _].
    rewrite <- !app_assoc. unfold CR. cbn [app]. rewrite <- !app_assoc. reflexivity.
Qed.
Theorem cut_listing_deletes head i st nb time n t before last sc w :
  smsTextMode (dev w) = true -> cmgl_text head i st nb time -> status_named st n -> parseTextModeTimeStr time = Ok t -> Forall no_cmgl_text (before ++ [last]) ->
  good_line last -> kept (before ++ [last]) <> [] ->
  script w = Lines (head :: before ++ [last]) :: Lines [lit "OK"] :: sc ->
  exists w', listStoredSms 4 None true w = Done (Ok [Received n (Some nb) t (text_of (kept (before ++ [last]))) None]) w' /\
    writes_of (trace w') = writes_of (trace w) ++ [lit "AT+CMGL=" ++ 34 :: lit "ALL" ++ [34; 13]; lit "AT+CMGD=1,4" ++ [13]].
Proof.
  intros Md H S1 T1 F1 G K S.
  assert (Tk : taken_text (head :: before ++ [last]) [(i, Received n (Some nb) t (text_of (kept (before ++ [last]))) None)]).
  { rewrite <- (app_nil_r (before ++ [last])) at 1. eapply tt_entry; eauto; constructor. }
  assert (Ga : good_answer (head :: before ++ [last])) by (exists (head :: before), last; auto).
  assert (Sn : status_named (lit "ALL") 4) by (cbn; auto 8).
  rewrite (list_run 4 (lit "ALL") _ _ true _ w Md Sn Ga Tk S).
  cbn [Z.eqb Pos.eqb map snd]. set (w1 := mk_world _ _ _).
  eexists. split.
  - erewrite bind_run; [reflexivity|]. unfold deleteMultipleStoredSms. cbn [Z.ltb Z.leb Z.compare Pos.compare Pos.compare_cont andb].
    erewrite bind_run; [|reflexivity]. erewrite bind_run; [|apply (write_good _ w1 [] (lit "OK") sc eq_refl ok_alone)]. reflexivity.
  - cbn [trace]. destruct (one_write ((lit "AT+CMGD=1," ++ str_of_Z 4) ++ CR) w1 (Lines ([] ++ [lit "OK"]))) as [-> _]. unfold w1. cbn [trace].
    destruct (one_write ((lit "AT+CMGL=" ++ 34 :: lit "ALL" ++ [34]) ++ CR) w (Lines (head :: before ++ [last]))) as [-> _].
    rewrite <- app_assoc. reflexivity.
Qed.
