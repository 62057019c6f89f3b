(** Proofs about identify-modem.py as a whole. *)
From Verif Require Import Base ModemCore ModemSpec WriteProofs MonadProofs SmsModel SendSpec TrackSpec CoverageSpec CoverageProofs ConnectModel ConnectSpec ConnectProofs SetupSpec ErrorModel ErrorSpec ErrorProofs ToolModel ToolSpec ToolProofs IdentModel IdentSpec.

Lemma say_done {A} (put : A -> iout) q outs k w : say_value put q outs k w =
  match q w with Done (Ok v) w' => k (outs ++ [put v]) w' | Done (Err e) w' => Done (Ok (outs, Uncaught e)) w' | Stuck w' => Stuck w' end.
Proof. unfold say_value. rewrite attempt_done. destruct (q w) as [[v|e] w'|w']; reflexivity. Qed.
Lemma bind_done {A B} (q : M A) (k : A -> M B) w : mbind q k w = match q w with Done (Ok v) w' => k v w' | Done (Err e) w' => Done (Err e) w' | Stuck w' => Stuck w' end.
Proof. unfold mbind. destruct (q w) as [[v|e] w'|w']; reflexivity. Qed.

Theorem information outs w :
  match identify w with
  | Done (Ok i) w' => exists t, shown_as (AInt (i_signal i)) t /\ print_information outs w = Done (Ok (outs ++ labelled (values i t) ++ [Line []], Exits 0)) w'
  | Done (Err e) w' => exists vs, (length vs < 7)%nat /\ print_information outs w = Done (Ok (outs ++ labelled vs, Uncaught e)) w'
  | Stuck w' => print_information outs w = Stuck w'
  end.
Proof.
  unfold identify, print_information. rewrite bind_done, say_done. destruct (manufacturer w) as [[a|e] w1|w1]; [| |reflexivity]; [|exists []; rewrite app_nil_r; split; [cbn; lia|reflexivity]].
  rewrite bind_done, say_done. destruct (model w1) as [[b|e] w2|w2]; [| |reflexivity]; [|exists [a]; split; [cbn; lia|reflexivity]].
  rewrite bind_done, say_done. destruct (twice revision w2) as [[c|e] w3|w3]; [| |reflexivity]; [|exists [a; b]; rewrite <- !app_assoc; split; [cbn; lia|reflexivity]].
  rewrite bind_done, say_done. destruct (twice (always imei) w3) as [[d|e] w4|w4]; [| |reflexivity]; [|exists [a; b; or_na c]; rewrite <- !app_assoc; split; [cbn; lia|reflexivity]].
  rewrite bind_done, say_done. destruct (twice (always imsi) w4) as [[f|e] w5|w5]; [| |reflexivity]; [|exists [a; b; or_na c; or_na d]; rewrite <- !app_assoc; split; [cbn; lia|reflexivity]].
  rewrite bind_done, say_done. destruct (networkName w5) as [[g|e] w6|w6]; [| |reflexivity]; [|exists [a; b; or_na c; or_na d; or_na f]; rewrite <- !app_assoc; split; [cbn; lia|reflexivity]].
  rewrite bind_done, say_done. destruct (signalStrength w6) as [[h|e] w7|w7]; [| |reflexivity]; [|exists [a; b; or_na c; or_na d; or_na f; or_none g]; rewrite <- !app_assoc; split; [cbn; lia|reflexivity]].
  unfold ret. exists (str_of_Z h). split; [apply (show_is (AInt h))|]. rewrite <- !app_assoc. reflexivity.
Qed.

Lemma dumped table : Forall (fun p => answer_label (snd p) (fst p)) table -> forall outs w,
  match debug_dump (map snd table) w with
  | Done (Ok x) w' => exists os, Forall2 answered os x /\ print_answers table outs w = Done (Ok (outs ++ os ++ [Line []], Exits 0)) w'
  | Done (Err e) w' => exists os x, Forall2 answered os x /\ (length x < length table)%nat /\ map fst x = firstn (length x) (map snd table) /\ print_answers table outs w = Done (Ok (outs ++ os, Uncaught e)) w'
  | Stuck w' => print_answers table outs w = Stuck w'
  end.
Proof.
  induction 1 as [|[label c] table L F IH]; intros outs w; cbn [map snd debug_dump print_answers].
  - exists []. split; [constructor|reflexivity].
  - rewrite bind_done, say_done. destruct (write_noparse c w) as [[ls|e] w1|w1]; [| |reflexivity].
    2:{ exists [], []. split; [constructor|]. split; [cbn; lia|]. split; [reflexivity|]. rewrite app_nil_r. reflexivity. }
    rewrite bind_done. specialize (IH (outs ++ [Answer label ls]) w1). assert (A : answered (Answer label ls) (c, ls)) by (exists label; auto).
    destruct (debug_dump (map snd table) w1) as [[x|e] w2|w2]; auto.
    + destruct IH as (os & H & E). exists (Answer label ls :: os). split; [constructor; auto|]. rewrite E, <- !app_assoc. reflexivity.
    + destruct IH as (os & x & H & Lx & Px & E). exists (Answer label ls :: os), ((c, ls) :: x). split; [constructor; auto|]. split; [cbn; lia|]. split; [cbn; congruence|]. rewrite E, <- !app_assoc. reflexivity.
Qed.
Lemma table_labels : Forall (fun p => answer_label (snd p) (fst p)) debug_table.
Proof. unfold debug_table. repeat constructor. Qed.
Theorem answers_dumped outs w :
  match debug_dump debug_commands w with
  | Done (Ok x) w' => exists os, Forall2 answered os x /\ print_answers debug_table outs w = Done (Ok (outs ++ os ++ [Line []], Exits 0)) w'
  | Done (Err e) w' => exists os x, Forall2 answered os x /\ (length x < 14)%nat /\ map fst x = firstn (length x) dump_commands_list /\ print_answers debug_table outs w = Done (Ok (outs ++ os, Uncaught e)) w'
  | Stuck w' => print_answers debug_table outs w = Stuck w'
  end.
Proof. exact (dumped debug_table table_labels outs w). Qed.

Theorem ident_connected port pin (debug : bool) w w1 : connect pin w = Done (Ok tt) w1 ->
  if debug then
    match debug_dump debug_commands w1 with
    | Done (Ok x) w' => exists os, Forall2 answered os x /\ identify_main port pin debug w = Done (Ok (greeting port pin debug ++ title debug :: os ++ [Line []], Exits 0)) w'
    | Done (Err e) w' => exists os x, Forall2 answered os x /\ (length x < 14)%nat /\ map fst x = firstn (length x) dump_commands_list /\
        identify_main port pin debug w = Done (Ok (greeting port pin debug ++ title debug :: os, Uncaught e)) w'
    | Stuck w' => identify_main port pin debug w = Stuck w'
    end
  else
    match identify w1 with
    | Done (Ok i) w' => exists t, shown_as (AInt (i_signal i)) t /\ identify_main port pin debug w = Done (Ok (greeting port pin debug ++ title debug :: labelled (values i t) ++ [Line []], Exits 0)) w'
    | Done (Err e) w' => exists vs, (length vs < 7)%nat /\ identify_main port pin debug w = Done (Ok (greeting port pin debug ++ title debug :: labelled vs, Uncaught e)) w'
    | Stuck w' => identify_main port pin debug w = Stuck w'
    end.
Proof.
  intro C. unfold identify_main. rewrite attempt_done, C. destruct debug; [exact (answers_dumped (greeting port pin true ++ [title true]) w1)|exact (information (greeting port pin false ++ [title false]) w1)].
Qed.
Theorem ident_refused port pin (debug : bool) w x w1 : connect pin w = Done (Err x) w1 ->
  exists outs e, identify_main port pin debug w = Done (Ok (outs, e)) w1 /\
    match x with
    | PinRequiredError _ _ => outs = greeting port pin debug ++ [Wrong (lit "Error: SIM card PIN required. Please specify a PIN with the -p argument.")] /\ e = Exits 1
    | IncorrectPinError _ _ => outs = greeting port pin debug ++ [Wrong (lit "Error: Incorrect SIM card PIN entered.")] /\ e = Exits 1
    | _ => outs = greeting port pin debug /\ e = Uncaught x
    end.
Proof. intro C. unfold identify_main. rewrite attempt_done, C. destruct x; do 2 eexists; (split; [reflexivity|split; reflexivity]). Qed.

Definition of_list (cs : list str) (e : event) : Prop := match e with EWrite t _ => exists c, In c cs /\ t = c ++ [13] | _ => True end.
Lemma only_say {A} P (put : A -> iout) q outs k : only P q -> (forall os, only P (k os)) -> only P (say_value put q outs k).
Proof.
  intros Q K w. rewrite say_done. destruct (Q w) as (e1 & T1 & F1). destruct (q w) as [[v|e] w'|w']; cbn [last_of] in *; eauto.
  destruct (K (outs ++ [put v]) w') as (e2 & T2 & F2). exists (e1 ++ e2). rewrite T2, T1, <- app_assoc. split; auto. apply Forall_app; auto.
Qed.
Lemma only_command cs c pe : In c cs -> only (of_list cs) (write_with c CR pe).
Proof. intro I. apply only_write; [intro r; cbn; eauto|intro; exact Logic.I]. Qed.
Lemma only_answers cs table : Forall (fun p => In (snd p) cs) table -> forall outs, only (of_list cs) (print_answers table outs).
Proof. induction 1 as [|[l c] table I F IH]; intro outs; cbn [print_answers]; [apply only_ret|]. apply only_say; [apply only_command; exact I|auto]. Qed.
Lemma only_query c : In c info_commands -> only (of_list info_commands) (query_first c).
Proof. intro I. unfold query_first, first_line, write. apply only_bind; [apply only_command; auto|intro ls]. destruct ls; [apply only_raise|apply only_ret]. Qed.
Lemma only_revision : only (of_list info_commands) revision.
Proof.
  unfold revision. apply only_try; [apply only_bind; [apply only_query; cbn; auto 8|intro; apply only_ret]|]. intros e k H. destruct (is_CommandError e); [injection H as <-; apply only_ret|discriminate].
Qed.
Lemma only_twice {A} P (q : M (option A)) : only P q -> only P (twice q).
Proof. intro Q. unfold twice. apply only_bind; auto. intros [x|]; auto. apply only_ret. Qed.
Lemma only_always {A} P (q : M A) : only P q -> only P (always q).
Proof. intro Q. unfold always. apply only_bind; auto. intro. apply only_ret. Qed.
Lemma only_information outs : only (of_list info_commands) (print_information outs).
Proof.
  unfold print_information. apply only_say; [apply only_query; cbn; auto|intro]. apply only_say; [apply only_query; cbn; auto|intro]. apply only_say; [apply only_twice, only_revision|intro].
  apply only_say; [apply only_twice, only_always, only_query; cbn; auto 8|intro]. apply only_say; [apply only_twice, only_always, only_query; cbn; auto 8|intro].
  apply only_say; [unfold networkName, write; apply only_bind; [apply only_command; cbn; auto 10|intro; apply only_ret]|intro].
  apply only_say; [|intro; apply only_ret]. unfold signalStrength, first_line, write. only_tac. apply only_command. cbn. auto 10.
Qed.
Lemma listed_asked cs evs : Forall (of_list cs) evs -> Forall (fun q => exists c, In c cs /\ fst q = c ++ [13]) (asked evs).
Proof. induction 1 as [|e evs H F IH]; [constructor|]. destruct e; cbn [asked flat_map app]; auto. Qed.
Theorem ident_order port pin (debug : bool) sc : let w := last_of (identify_main port pin debug (start modem_init sc)) in
  exists A B, asked (trace w) = A ++ B /\ pin_use pin A /\ (B <> [] -> unlocked pin A) /\
    Forall (fun q => exists c, In c (if debug then dump_commands_list else info_commands) /\ fst q = c ++ [13]) B.
Proof.
  cbn zeta. pose proof (connect_pin pin modem_init sc) as PU. unfold identify_main. rewrite attempt_done.
  destruct (connect pin (start modem_init sc)) as [[[]|x] w|w] eqn:Co; cbn [last_of] in PU.
  - assert (O : forall outs : list iout, only (of_list (if debug then dump_commands_list else info_commands)) (if debug then print_answers debug_table outs else print_information outs)).
    { intro outs. destruct debug; [apply only_answers; unfold debug_table; repeat (constructor; [cbn; auto 20|]); constructor|apply only_information]. }
    pose proof (connect_ok pin modem_init sc w Co) as U. set (g := [_; _]). destruct (O (g ++ [title debug]) w) as (evs & T & F). exists (asked (trace w)), (asked evs). rewrite <- asked_app, <- T.
    split; [destruct debug; reflexivity|]. split; [exact PU|]. split; [auto|]. apply listed_asked. exact F.
  - exists (asked (trace w)), []. rewrite app_nil_r. split; [destruct x; reflexivity|]. split; [exact PU|]. split; [intros []; auto|constructor].
  - exists (asked (trace w)), []. rewrite app_nil_r. split; [reflexivity|]. split; [exact PU|]. split; [intros []; auto|constructor].
Qed.
Theorem ident_ends port pin (debug : bool) sc x w : identify_main port pin debug (start modem_init sc) = Done x w ->
  exists outs e, x = Ok (outs, e) /\
    match e with
    | Exits 0 => ends_well port pin debug (trace w) outs
    | Exits c => c = 1 /\ exists t, outs = greeting port pin debug ++ [Wrong t] /\
        (t = lit "Error: SIM card PIN required. Please specify a PIN with the -p argument." \/ t = lit "Error: Incorrect SIM card PIN entered.")
    | Uncaught e => ends_badly port pin debug (trace w) outs e
    end.
Proof.
  intro H. destruct (connect pin (start modem_init sc)) as [[[]|y] w1|w1] eqn:Co.
  - pose proof (connect_ok pin modem_init sc w1 Co) as U. pose proof (connect_pin pin modem_init sc) as PU. rewrite Co in PU. cbn [last_of] in PU.
    pose proof (ident_connected port pin debug _ _ Co) as I.
    assert (G : exists A B, asked (trace w) = A ++ B /\ A = asked (trace w1)).
    { unfold identify_main in H. rewrite attempt_done, Co in H. set (g := [_; _]) in H. destruct debug.
      - assert (O : only (of_list dump_commands_list) (print_answers debug_table (g ++ [title true]))) by (apply only_answers; unfold debug_table; repeat (constructor; [cbn; auto 20|]); constructor).
        destruct (O w1) as (evs & T & F). change (print_answers debug_table (g ++ [title true]) w1 = Done x w) in H. rewrite H in T. cbn [last_of] in T. rewrite T, asked_app. eauto.
      - destruct (only_information (g ++ [title false]) w1) as (evs & T & F). change (print_information (g ++ [title false]) w1 = Done x w) in H. rewrite H in T. cbn [last_of] in T. rewrite T, asked_app. eauto. }
    assert (Uw : unlocked pin (asked (trace w))) by (destruct G as (A & B & -> & ->); apply unlocked_app; auto).
    destruct debug.
    + destruct (debug_dump debug_commands w1) as [[d|e] w2|w2] eqn:D; [| |congruence].
      * destruct I as (os & F & E). rewrite E in H. injection H as <- <-. do 2 eexists. split; [reflexivity|]. cbn. apply dump_commands in D as [T M].
        exists (asked (trace w1)), (map (fun p => ask (fst p) (Lines (snd p))) d), os. split; [exact T|]. split; [exact PU|]. split; [exact U|]. split; [reflexivity|]. exists d. auto.
      * destruct I as (os & d & F & L & M & E). rewrite E in H. injection H as <- <-. do 2 eexists. split; [reflexivity|]. cbn. right. split; [exact Uw|]. exists os. split; [reflexivity|]. exists d. auto.
    + destruct (identify w1) as [[i|e] w2|w2] eqn:D; [| |congruence].
      * destruct I as (t & S & E). rewrite E in H. injection H as <- <-. do 2 eexists. split; [reflexivity|]. cbn. apply identify_spec in D as (l & T & D).
        exists (asked (trace w1)), l, (labelled (values i t)). split; [exact T|]. split; [exact PU|]. split; [exact U|]. split; [reflexivity|]. exists i, t. auto.
      * destruct I as (vs & L & E). rewrite E in H. injection H as <- <-. do 2 eexists. split; [reflexivity|]. cbn. right. split; [exact Uw|]. eexists. split; [reflexivity|]. exists vs. auto.
  - destruct (ident_refused port pin debug _ _ _ Co) as (outs & e & E & R). rewrite E in H. injection H as <- <-. exists outs, e. split; [reflexivity|].
    destruct y; destruct R as [-> ->]; first [split; [reflexivity|eexists; split; [reflexivity|auto]]|left; split; [reflexivity|intros ? ?; split; discriminate]].
  - unfold identify_main in H. rewrite attempt_done, Co in H. discriminate H.
Qed.

(** ** Values and answers one by one *)
Definition chained (outs : list iout) (ls : list str) (w : world) (m : M iresult) : Prop := forall o e w', m w = Done (Ok (o, e)) w' ->
  exists l vs tail, asked (trace w') = asked (trace w) ++ l /\ given ls l vs /\ o = outs ++ map (fun p => Value (fst p) (snd p)) (combine ls vs) ++ tail /\
    match e with Exits c => c = 0 /\ length vs = length ls /\ tail = [Line []] | Uncaught _ => (length vs < length ls)%nat /\ tail = [] end.
Lemma chain_say {A} P label (f : A -> str) q outs k ls w : only P q ->
  (forall v w1, q w = Done (Ok v) w1 -> exists l, asked (trace w1) = asked (trace w) ++ l /\ printed label l (f v)) ->
  (forall outs w1, chained outs ls w1 (k outs)) -> chained outs (label :: ls) w (say_value (fun v => Value label (f v)) q outs k).
Proof.
  intros O Q K o e w' H. rewrite say_done in H. destruct (q w) as [[v|x] w1|w1] eqn:E; [| |discriminate].
  - destruct (Q v w1 eq_refl) as (l & T & Pr). destruct (K _ _ _ _ _ H) as (l' & vs & tail & T' & G & Eo & M). exists (l ++ l'), (f v :: vs), tail. rewrite T', T, app_assoc. split; [reflexivity|].
    split; [constructor; auto|]. split; [rewrite Eo, <- !app_assoc; reflexivity|]. destruct e; cbn [length]; intuition lia.
  - injection H as <- <- <-. destruct (O w) as (evs & T & _). rewrite E in T. cbn [last_of] in T. exists (asked evs), [], []. rewrite T, asked_app. split; [reflexivity|]. split; [constructor|].
    split; [cbn; rewrite !app_nil_r; reflexivity|]. split; [cbn; lia|reflexivity].
Qed.
Lemma chain_end outs w : chained outs [] w (fun w => Done (Ok (outs ++ [Line []], Exits 0)) w).
Proof. intros o e w' H. injection H as <- <- <-. exists [], [], [Line []]. rewrite app_nil_r. repeat split. constructor. Qed.
Lemma revision_printed x w w1 : twice revision w = Done (Ok x) w1 -> exists l, asked (trace w1) = asked (trace w) ++ l /\ printed (lit "Revision:") l (or_na x).
Proof.
  unfold twice. intro Hc. apply bind_ok in Hc as (y & wx & H1 & H2). apply revision_asked in H1 as (l1 & T1 & A1). destruct y as [y|].
  - apply revision_asked in H2 as (l2 & T2 & A2). exists (l1 ++ l2). split; [rewrite T2, T1, app_assoc; auto|]. destruct A1 as (more & A1). destruct x as [x|]; cbn [answers_or_declines] in A2.
    + destruct A2 as (more' & A2). eapply pr_revision; eauto.
    + eapply pr_lost_revision; eauto.
  - unfold ret in H2. injection H2 as <- <-. exists l1. split; auto. constructor. exact A1.
Qed.
Lemma information_chained outs w : chained outs labels w (print_information outs).
Proof.
  unfold print_information, labels.
  apply (chain_say (of_list info_commands) _ (fun v => v)); [apply only_query; cbn; auto| |clear; intros outs w].
  { intros v w1 H. apply first_asked in H as (l & more & T & A). exists l. split; auto. econstructor; eauto. }
  apply (chain_say (of_list info_commands) _ (fun v => v)); [apply only_query; cbn; auto| |clear; intros outs w].
  { intros v w1 H. apply first_asked in H as (l & more & T & A). exists l. split; auto. econstructor; eauto. }
  apply (chain_say (of_list info_commands) _ or_na); [apply only_twice, only_revision| |clear; intros outs w].
  { intros v w1 H. apply revision_printed. exact H. }
  apply (chain_say (of_list info_commands) _ or_na); [apply only_twice, only_always, only_query; cbn; auto 8| |clear; intros outs w].
  { intros v w1 H. apply twice_asked in H as (y & l & l' & ls & more & -> & T & A & A'). exists (l ++ l'). split; auto. eapply pr_imei; eauto. }
  apply (chain_say (of_list info_commands) _ or_na); [apply only_twice, only_always, only_query; cbn; auto 8| |clear; intros outs w].
  { intros v w1 H. apply twice_asked in H as (y & l & l' & ls & more & -> & T & A & A'). exists (l ++ l'). split; auto. eapply pr_imsi; eauto. }
  apply (chain_say (of_list info_commands) _ or_none); [unfold networkName, write; apply only_bind; [apply only_command; cbn; auto 10|intro; apply only_ret]| |clear; intros outs w].
  { intros v w1 H. apply network_asked in H as (l & ls & T & A & N). exists l. split; auto. destruct v; [eapply pr_network|eapply pr_no_network]; eauto. }
  apply (chain_say (of_list info_commands) _ str_of_Z); [unfold signalStrength, first_line, write; only_tac; apply only_command; cbn; auto 10| |clear; intros outs w; apply chain_end].
  intros v w1 H. apply strength_ok in H as (busy & codes & sg & _ & B & G & S & T). eexists. split; [exact T|]. eapply pr_signal; [exists busy, codes; auto|exact S|apply (show_is (AInt v))].
Qed.
Theorem ident_given port pin w w1 outs e w' : connect pin w = Done (Ok tt) w1 -> identify_main port pin false w = Done (Ok (outs, e)) w' ->
  exists l vs tail, asked (trace w') = asked (trace w1) ++ l /\ given labels l vs /\ outs = greeting port pin false ++ title false :: labelled vs ++ tail /\
    match e with Exits c => c = 0 /\ length vs = 7%nat /\ tail = [Line []] | Uncaught _ => (length vs < 7)%nat /\ tail = [] end.
Proof.
  intros C H. unfold identify_main in H. rewrite attempt_done, C in H. apply (information_chained (greeting port pin false ++ [title false])) in H.
  destruct H as (l & vs & tail & T & G & E & M). exists l, vs, tail. split; [exact T|]. split; [exact G|]. split; [rewrite E, <- app_assoc; reflexivity|exact M].
Qed.
Lemma answers_chained table : Forall (fun p => answer_label (snd p) (fst p)) table -> forall outs w o e w', print_answers table outs w = Done (Ok (o, e)) w' ->
  exists x os rest tail, asked (trace w') = asked (trace w) ++ map (fun p => ask (fst p) (Lines (snd p))) x ++ rest /\ Forall2 answered os x /\ o = outs ++ os ++ tail /\
    map fst x = firstn (length x) (map snd table) /\
    match e with Exits c => c = 0 /\ length x = length table /\ rest = [] /\ tail = [Line []] | Uncaught _ => (length x < length table)%nat /\ tail = [] end.
Proof.
  induction 1 as [|[label c] table L F IH]; intros outs w o e w' H; cbn [print_answers] in H.
  - unfold ret in H. injection H as <- <- <-. exists [], [], [], [Line []]. rewrite app_nil_r. repeat split; constructor.
  - rewrite say_done in H. destruct (write_noparse c w) as [[ls|y] w1|w1] eqn:W; [| |discriminate].
    + assert (D : debug_dump [c] w = Done (Ok [(c, ls)]) w1) by (cbn [debug_dump]; rewrite bind_done, W; reflexivity).
      apply dump_spec in D as (rs & T & <- & _). cbn [map fst snd] in T. destruct (IH _ _ _ _ _ H) as (x & os & rest & tail & T' & A & E & M & R).
      exists ((c, ls) :: x), (Answer label ls :: os), rest, tail. split; [rewrite T', T, <- !app_assoc; reflexivity|]. split; [constructor; auto; exists label; auto|].
      split; [rewrite E, <- !app_assoc; reflexivity|]. split; [cbn; congruence|]. destruct e; cbn [length]; intuition lia.
    + injection H as <- <- <-. assert (O : only (of_list [c]) (write_noparse c)) by (apply only_command; cbn; auto). destruct (O w) as (evs & T & _). rewrite W in T. cbn [last_of] in T.
      exists [], [], (asked evs), []. rewrite T, asked_app. split; [reflexivity|]. split; [constructor|]. split; [cbn; rewrite !app_nil_r; reflexivity|]. split; [reflexivity|]. split; [cbn; lia|reflexivity].
Qed.
Theorem ident_given_debug port pin w w1 outs e w' : connect pin w = Done (Ok tt) w1 -> identify_main port pin true w = Done (Ok (outs, e)) w' ->
  exists x os rest tail, asked (trace w') = asked (trace w1) ++ map (fun p => ask (fst p) (Lines (snd p))) x ++ rest /\ Forall2 answered os x /\
    outs = greeting port pin true ++ title true :: os ++ tail /\ map fst x = firstn (length x) dump_commands_list /\
    match e with Exits c => c = 0 /\ length x = 14%nat /\ rest = [] /\ tail = [Line []] | Uncaught _ => (length x < 14)%nat /\ tail = [] end.
Proof.
  intros C H. unfold identify_main in H. rewrite attempt_done, C in H. apply (answers_chained debug_table table_labels (greeting port pin true ++ [title true])) in H.
  destruct H as (x & os & rest & tail & T & A & E & M & R). exists x, os, rest, tail. split; [exact T|]. split; [exact A|]. split; [rewrite E, <- app_assoc; reflexivity|]. split; [exact M|exact R].
Qed.
