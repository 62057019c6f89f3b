(** Proofs about the phases of connect. *)
From Verif Require Import Base RegexModel RegexProofs UtilModel ModemCore ModemSpec WriteProofs MonadProofs SendSpec SendProofs TrackSpec CoverageSpec CoverageProofs QueryProofs TrieProofs ModemFinal SmsModel CallModel RingProofs ConnectModel ConnectSpec ConnectProofs CentreProofs UssdModel UssdSpec UssdProofs SetupSpec SetupProofs.

(** ** The kind of modem *)
Definition table_for (hint : Z) : call_table := if hint =? 1 then THuawei else if hint =? 2 then TWavecom else if hint =? 3 then TZte else TNone.
Lemma kind_mono commands a l b k : kind_of commands l k -> kind_of commands (a ++ l ++ b) k.
Proof.
  assert (I : forall q, In q l -> In q (a ++ l ++ b)) by (intros q H; apply in_or_app; right; apply in_or_app; auto).
  assert (Ac : forall t, accepted t l -> accepted t (a ++ l ++ b)) by (intros t (ls & H & G); exists ls; auto).
  assert (Re : forall t, refused_command t l -> refused_command t (a ++ l ++ b)) by (intros t (ls & H & G); exists ls; auto).
  assert (U : unrecognized commands l -> unrecognized commands (a ++ l ++ b)) by (unfold unrecognized; destruct commands; auto).
  assert (H1 : by_huawei l -> by_huawei (a ++ l ++ b)) by (intros (n & ls & H & G); exists n, ls; destruct G; auto).
  assert (H2 : not_huawei l -> not_huawei (a ++ l ++ b)) by (intros (n & ls & H & G); exists n, ls; destruct G; auto).
  intros [K|E K|K N|K N1 N2 N3|K1 K2|K1 K2 K3|K1 K2 K3].
  - apply k_wavecom; auto.
  - apply k_wavecom_old; auto.
  - apply k_zte; auto.
  - apply k_huawei; auto.
  - apply k_huawei_name; auto.
  - apply k_zte_answer; auto.
  - apply k_unknown; auto.
Qed.
Lemma knows_iff cs c : knows (Some cs) c <-> mem_str (lit c) cs = true.
Proof. rewrite mem_str_spec. unfold knows. split; [intros (cs' & [= <-] & H); auto|eauto]. Qed.
Lemma knows_not cs c : ~ knows (Some cs) c <-> mem_str (lit c) cs = false.
Proof. rewrite knows_iff. destruct (mem_str (lit c) cs); split; auto; congruence. Qed.
Lemma noparse_said t w ls w' : write_noparse t w = Done (Ok ls) w' -> exists r v, asked (trace w') = asked (trace w) ++ [ask t r] /\ dev w' = set_writeWait v (dev w).
Proof.
  intro H. unfold write_noparse in H. pose proof (write_noparse_any t CR w) as S. destruct (script w) as [|r rest]; [congruence|].
  destruct S as (x & S & _). rewrite S in H. injection H as -> <-. cbn [dev trace]. exists r, (writeWait (dev w)). split; [apply asked_settled|]. destruct (dev w); reflexivity.
Qed.
(** a command only some modems are given *)
Lemma option_said (b : bool) t w w' : (if b then forget (write_noparse t) else ret tt) w = Done (Ok tt) w' -> exists l v, asked (trace w') = asked (trace w) ++ l /\ dev w' = set_writeWait v (dev w) /\
  (sent t l <-> b = true) /\ forall t', t' <> t -> foreign t' l.
Proof.
  destruct b; intro H.
  - unfold forget in H. apply bind_ok in H as (ls & w1 & W & H). injection H as <-. apply noparse_said in W as (r & v & T & D). exists [ask t r], v. repeat split; auto.
    + intros _. left. reflexivity.
    + intros t' N. constructor; [|constructor]. cbn. intro E. apply app_inj_tail in E as [E _]. auto.
  - unfold ret in H. injection H as <-. exists [], (writeWait (dev w)). rewrite app_nil_r. split; auto. split; [destruct (dev w); reflexivity|]. split; [split; [intros []|discriminate]|intros; constructor].
Qed.
Lemma foreign_refused t l : foreign t l -> ~ refused_command t l.
Proof. intros F (ls & I & _). unfold foreign in F. rewrite Forall_forall in F. apply (F _ I). auto. Qed.
Lemma int_from_spec lines v : int_from_7 (lineStartingWith (lit "+WIND:") lines) = Ok v -> wind_value lines v.
Proof.
  intro H. pose proof (first_line_iff (lit "+WIND:") lines) as F. destruct (lineStartingWith (lit "+WIND:") lines) as [l|]; [|discriminate].
  destruct F as (b & a & -> & S & F). exists b, l, a. split; auto. split; auto. split; auto. apply py_int_iff. auto.
Qed.
Lemma sent_app t a b : sent t (a ++ b) <-> sent t a \/ sent t b.
Proof. unfold sent. rewrite map_app, in_app_iff. tauto. Qed.
(** hint and enableWind as connect computes them from the list of commands *)
Definition first_hint (commands : option (list str)) (h : Z) (wind : bool) : Prop :=
  match commands with
  | None => h = 0 /\ wind = true
  | Some _ => (wind = true <-> knows commands "+WIND") /\ (wind = true -> h = 2) /\
      (wind = false -> (h = 3 /\ knows commands "+ZPAS") \/ (h = 1 /\ ~ knows commands "+ZPAS" /\ knows commands "^DTMF" /\ ~ knows commands "+VTS") \/
        (h = 0 /\ ~ knows commands "+ZPAS" /\ (knows commands "^DTMF" -> knows commands "+VTS")))
  end.
(** any command but these two *)
Definition options_foreign (l : list (str * option reply)) : Prop := forall t, t <> lit "AT^CVOICE=0" -> t <> lit "AT^USSDMODE=0" -> foreign t l.
Lemma hint_first commands w h wind w' :
  (match commands with
     | Some cs =>
         (if mem_str (lit "^CVOICE") cs then forget (write_noparse (lit "AT^CVOICE=0")) else ret tt) ;;;
         do h <- (if mem_str (lit "+VTS") cs then modify (set_dtmfSupport true) ;;; ret 0
                  else ret (if mem_str (lit "^DTMF") cs then 1 else 0));
         (if mem_str (lit "^USSDMODE") cs then forget (write_noparse (lit "AT^USSDMODE=0")) else ret tt) ;;;
         ret (if mem_str (lit "+WIND") cs then (2, true) else if mem_str (lit "+ZPAS") cs then (3, false) else (h, false))
     | None => ret (0, true)
   end) w = Done (Ok (h, wind)) w' ->
  exists l v d, asked (trace w') = asked (trace w) ++ l /\ dev w' = set_writeWait v (set_dtmfSupport d (dev w)) /\ (d = true <-> dtmfSupport (dev w) = true \/ knows commands "+VTS") /\
    sends_option commands l /\ options_foreign l /\ first_hint commands h wind.
Proof.
  destruct commands as [cs|].
  - intro H. apply bind_ok in H as ([] & w1 & H1 & H). apply option_said in H1 as (l1 & v1 & T1 & D1 & S1 & F1).
    apply bind_ok in H as (h0 & w2 & H2 & H).
    assert (K : trace w2 = trace w1 /\ exists d, dev w2 = set_dtmfSupport d (dev w1) /\ (d = true <-> dtmfSupport (dev w1) = true \/ knows (Some cs) "+VTS") /\
      ((h0 = 0 /\ (knows (Some cs) "^DTMF" -> knows (Some cs) "+VTS")) \/ (h0 = 1 /\ ~ knows (Some cs) "+VTS" /\ knows (Some cs) "^DTMF"))).
    { pose proof (knows_iff cs "+VTS") as Kv. pose proof (knows_iff cs "^DTMF") as Kd. destruct (mem_str (lit "+VTS") cs).
      - unfold mbind, modify, ret in H2. injection H2 as <- <-. split; auto. exists true. split; auto. tauto.
      - assert (Nv : ~ knows (Some cs) "+VTS") by (intro X; apply Kv in X; discriminate).
        unfold ret in H2. injection H2 as <- <-. split; auto. exists (dtmfSupport (dev w1)). split; [destruct (dev w1); reflexivity|]. split; [tauto|].
        destruct (mem_str (lit "^DTMF") cs); [right; tauto|left; split; auto]. intro X. apply Kd in X. discriminate. }
    destruct K as (T2 & d & D2 & Sd & K). apply bind_ok in H as ([] & w3 & H3 & H). apply option_said in H3 as (l3 & v3 & T3 & D3 & S3 & F3).
    unfold ret in H. injection H as E <-. exists (l1 ++ l3), v3, d. split; [rewrite T3, T2, T1, app_assoc; auto|]. split; [rewrite D3, D2, D1; reflexivity|].
    split; [rewrite D1 in Sd; exact Sd|]. split; [|split].
    + unfold sends_option. rewrite !sent_app, S1, S3, !knows_iff. split.
      * split; [intros [X|X]; auto; exfalso; eapply foreign_sent; [|exact X]; apply F3; discriminate|auto].
      * split; [intros [X|X]; auto; exfalso; eapply foreign_sent; [|exact X]; apply F1; discriminate|auto].
    + intros t N1 N2. apply foreign_app. auto.
    + unfold first_hint. pose proof (knows_iff cs "+WIND") as Kw. pose proof (knows_iff cs "+ZPAS") as Kz. destruct (mem_str (lit "+WIND") cs); [injection E as <- <-; split; [tauto|split; [auto|discriminate]]|].
      assert (Nw : ~ knows (Some cs) "+WIND") by (intro X; apply Kw in X; discriminate).
      destruct (mem_str (lit "+ZPAS") cs); injection E as <- <-; (split; [split; [discriminate|tauto]|split; [discriminate|]]); intros _; [left; tauto|].
      assert (Nz : ~ knows (Some cs) "+ZPAS") by (intro X; apply Kz in X; discriminate). right. tauto.
  - unfold ret. intro H. injection H as <- <- <-. exists [], (writeWait (dev w)), (dtmfSupport (dev w)). rewrite app_nil_r. split; auto. split; [destruct (dev w); reflexivity|].
    assert (NK : forall c, ~ knows None c) by (intros c (cs & X & _); discriminate). split; [split; [auto|intros [X|X]; [auto|destruct (NK _ X)]]|].
    split; [split; (split; [intros []|intro X; destruct (NK _ X)])|]. split; [intros t _ _; constructor|]. cbn. auto.
Qed.
(** the answer to AT+WIND? *)
Lemma hint_wind hint w h w' :
  (do wind <- try_except (do ls <- write (lit "AT+WIND?"); ret (Some (lineStartingWith (lit "+WIND:") ls))) (on_CommandError (ret None));
   match wind with
   | None => ret hint
   | Some w => do v <- lift (int_from_7 w); (if negb (v =? 50) then forget (write (lit "AT+WIND=50")) else ret tt) ;;; ret 2
   end) w = Done (Ok h) w' ->
  exists l v, asked (trace w') = asked (trace w) ++ l /\ dev w' = set_writeWait v (dev w) /\ (forall t, t <> lit "AT+WIND?" -> t <> lit "AT+WIND=50" -> foreign t l) /\
    ((h = 2 /\ accepted (lit "AT+WIND?") l /\ wind_on l) \/ (h = hint /\ refused_command (lit "AT+WIND?") l /\ ~ accepted (lit "AT+WIND?") l)).
Proof.
  intro H. apply bind_ok in H as (wind & w1 & H1 & H). unfold try_except in H1. destruct (mbind _ _ w) as [[y|e] w2|w2] eqn:E; [| |discriminate].
  - injection H1 as -> ->. apply bind_ok in E as (ls & w2 & W & E). unfold ret in E. injection E as <- <-. apply write_accepted in W as (l & v & T & S & G & D).
    apply bind_ok in H as (n & w3 & L & H). unfold lift in L. injection L as L <-. apply int_from_spec in L. apply bind_ok in H as ([] & w4 & H & R). unfold ret in R. injection R as <- <-.
    destruct (Z.eqb_spec n 50) as [->|N]; cbn [negb] in H.
    + unfold ret in H. injection H as <-. exists l, v. split; auto. split; auto. split; [intros t N1 _; eapply said_foreign; [exact S|congruence]|]. left. split; auto.
      split; [eapply said_accepted; eauto|]. left. exists ls. split; [apply said_in; auto|auto].
    + unfold forget in H. apply bind_ok in H as (l2 & w5 & W2 & R). unfold ret in R. injection R as <-. apply write_accepted in W2 as (l2' & v2 & T2 & S2 & G2 & D2).
      exists (l ++ l2'), v2. split; [rewrite T2, T, app_assoc; auto|]. split; [rewrite D2, D; reflexivity|].
      split; [intros t N1 N2; apply foreign_app; split; eapply said_foreign; eauto; congruence|]. left. split; auto. split; [apply accepted_app; left; eapply said_accepted; eauto|].
      right. apply accepted_app. right. eapply said_accepted; eauto.
  - apply bind_done in E as [(ls & w3 & _ & E)|(e' & W & E)]; [discriminate|]. injection E as <-. unfold on_CommandError in H1. destruct (is_CommandError e) eqn:C; [|discriminate].
    unfold ret in H1. injection H1 as <- <-. unfold ret in H. injection H as <- <-. apply write_said in W as (l & r & v & T & S & NB & O & D). exists l, v. split; auto. split; auto.
    split; [intros t N1 _; eapply said_foreign; [exact S|congruence]|]. right. split; auto. apply (said_refused _ _ r); auto. eapply not_good_refusal; eauto.
Qed.
(** the name of the manufacturer, and the answer to AT+ZPAS? *)
Lemma hint_name w h w' :
  (do man <- manufacturer; if str_eqb (lower man) (lit "huawei") then ret 1 else try_except (write (lit "AT+ZPAS?") ;;; ret 3) (on_CommandError (ret 0))) w = Done (Ok h) w' ->
  exists l v, asked (trace w') = asked (trace w) ++ l /\ dev w' = set_writeWait v (dev w) /\ (forall t, t <> lit "AT+CGMI" -> t <> lit "AT+ZPAS?" -> foreign t l) /\
    ((h = 1 /\ by_huawei l) \/ (h = 3 /\ not_huawei l /\ accepted (lit "AT+ZPAS?") l) \/ (h = 0 /\ not_huawei l /\ refused_command (lit "AT+ZPAS?") l)).
Proof.
  intro H. apply bind_ok in H as (man & w1 & H1 & H). unfold manufacturer, query_first in H1. apply bind_ok in H1 as (ls & w2 & W & H1). apply write_accepted in W as (l & v & T & S & G & D).
  destruct ls as [|l1 more]; [discriminate|]. unfold first_line, ret in H1. injection H1 as -> <-. destruct (str_eqb (lower man) (lit "huawei")) eqn:E.
  - unfold ret in H. injection H as <- <-. exists l, v. split; auto. split; auto. split; [intros t N1 _; eapply said_foreign; [exact S|congruence]|]. left. split; auto.
    exists man, more. split; [apply said_in; auto|]. split; auto. apply lower_huawei; auto.
  - assert (NH : not_huawei l).
    { exists man, more. split; [apply said_in; auto|]. split; auto. intro X. apply lower_huawei in X. congruence. }
    apply (try_said (lit "AT+ZPAS?") (fun _ => ret 3) 3 0) in H as (l2 & r & v2 & T2 & S2 & D2 & H); [|reflexivity]. exists (l ++ l2), v2.
    split; [rewrite T2, T, app_assoc; auto|]. split; [rewrite D2, D; reflexivity|]. split; [intros t N1 N2; apply foreign_app; split; eapply said_foreign; eauto; congruence|].
    assert (NH2 : not_huawei (l ++ l2)) by (destruct NH as (n & m & I & X); exists n, m; split; auto; apply in_or_app; auto).
    destruct H as [(-> & ls & -> & G2)|(-> & R)]; right; [left|right]; (split; [reflexivity|split; [exact NH2|]]).
    + apply accepted_app. right. eapply said_accepted; eauto.
    + apply refused_app. right. apply (said_refused _ _ _ S2 R).
Qed.
Lemma hint_said commands w h w' : connect_hint commands w = Done (Ok h) w' ->
  exists l v d, asked (trace w') = asked (trace w) ++ l /\ dev w' = set_writeWait v (set_dtmfSupport d (dev w)) /\ (d = true <-> dtmfSupport (dev w) = true \/ knows commands "+VTS") /\
    sends_option commands l /\ kind_of commands l (table_for h) /\ (accepted (lit "AT+WIND?") l -> wind_on l).
Proof.
  intro H. unfold connect_hint in H. apply bind_ok in H as ([h0 wind] & w1 & H1 & H). apply hint_first in H1 as (l1 & v1 & d & T1 & D1 & Sd & SO & F1 & FH).
  apply bind_ok in H as (h1 & w2 & H2 & H).
  assert (K2 : exists l2 v2, asked (trace w2) = asked (trace w1) ++ l2 /\ dev w2 = set_writeWait v2 (dev w1) /\ (forall t, t <> lit "AT+WIND?" -> t <> lit "AT+WIND=50" -> foreign t l2) /\
    ((wind = true /\ h1 = 2 /\ accepted (lit "AT+WIND?") l2 /\ wind_on l2) \/ (h1 = h0 /\ (wind = true -> refused_command (lit "AT+WIND?") l2) /\ ~ accepted (lit "AT+WIND?") l2))).
  { destruct wind.
    - apply hint_wind in H2 as (l2 & v2 & T2 & D2 & F2 & K). exists l2, v2. split; auto. split; auto. split; auto. destruct K as [(-> & A & W)|(-> & R & N)]; [left; auto|right; auto].
    - unfold ret in H2. injection H2 as <- <-. exists [], (writeWait (dev w1)). rewrite app_nil_r. split; auto. split; [destruct (dev w1); reflexivity|]. split; [constructor|].
      right. split; auto. split; [discriminate|]. intros (ls & [] & _). }
  destruct K2 as (l2 & v2 & T2 & D2 & F2 & K2).
  assert (K3 : exists l3 v3, asked (trace w') = asked (trace w2) ++ l3 /\ dev w' = set_writeWait v3 (dev w2) /\ (forall t, t <> lit "AT+CGMI" -> t <> lit "AT+ZPAS?" -> foreign t l3) /\
    ((h1 <> 0 /\ h = h1) \/ (h1 = 0 /\ ((h = 1 /\ by_huawei l3) \/ (h = 3 /\ not_huawei l3 /\ accepted (lit "AT+ZPAS?") l3) \/ (h = 0 /\ not_huawei l3 /\ refused_command (lit "AT+ZPAS?") l3))))).
  { destruct (Z.eqb_spec h1 0) as [->|N].
    - apply hint_name in H as (l3 & v3 & T3 & D3 & F3 & K). exists l3, v3. auto 8.
    - unfold ret in H. injection H as <- <-. exists [], (writeWait (dev w2)). rewrite app_nil_r. split; auto. split; [destruct (dev w2); reflexivity|]. split; [constructor|auto]. }
  destruct K3 as (l3 & v3 & T3 & D3 & F3 & K3). clear H H2. exists (l1 ++ l2 ++ l3), v3, d. split; [rewrite T3, T2, T1, !app_assoc; auto|]. split; [rewrite D3, D2, D1; reflexivity|]. split; auto.
  split; [|split].
  - unfold sends_option in *. rewrite !sent_app. split.
    + rewrite <- (proj1 SO). split; [intros [X|[X|X]]; auto; exfalso; eapply foreign_sent; try exact X; [apply F2|apply F3]; discriminate|auto].
    + rewrite <- (proj2 SO). split; [intros [X|[X|X]]; auto; exfalso; eapply foreign_sent; try exact X; [apply F2|apply F3]; discriminate|auto].
  - destruct K2 as [(-> & -> & A & W)|(-> & R & N)].
    + (* AT+WIND? accepted *)
      destruct K3 as [(_ & ->)|(X & _)]; [|discriminate]. change (table_for 2) with TWavecom. destruct commands as [cs|].
      * apply k_wavecom. apply FH. auto.
      * apply k_wavecom_old; auto. apply accepted_app. right. apply accepted_app. left. auto.
    + assert (Ks : unrecognized commands (l1 ++ l2 ++ l3) -> ((h = 1 /\ by_huawei l3) \/ (h = 3 /\ not_huawei l3 /\ accepted (lit "AT+ZPAS?") l3) \/ (h = 0 /\ not_huawei l3 /\ refused_command (lit "AT+ZPAS?") l3)) -> kind_of commands (l1 ++ l2 ++ l3) (table_for h)).
      { assert (I3 : forall q, In q l3 -> In q (l1 ++ l2 ++ l3)) by (intros; rewrite !in_app_iff; auto).
        intros U [(-> & B)|[(-> & B & C)|(-> & B & C)]].
        - apply k_huawei_name; auto. destruct B as (n & m & I & X). exists n, m. auto.
        - apply k_zte_answer; auto; [destruct B as (n & m & I & X); exists n, m; auto|]. destruct C as (ls & I & X). exists ls. auto.
        - apply k_unknown; auto; [destruct B as (n & m & I & X); exists n, m; auto|]. destruct C as (ls & I & X). exists ls. auto. }
      destruct commands as [cs|].
      * destruct FH as (W1 & W2 & W3). destruct wind.
        -- destruct K3 as [(_ & ->)|(X & _)]; [|rewrite W2 in X by auto; discriminate]. rewrite W2 by auto. apply k_wavecom. apply W1. auto.
        -- assert (NW : ~ knows (Some cs) "+WIND") by (intro X; apply W1 in X; discriminate). destruct (W3 eq_refl) as [(-> & Z)|[(-> & Z1 & Z2 & Z3)|(-> & Z1 & Z2)]].
           ++ destruct K3 as [(_ & ->)|(X & _)]; [|discriminate]. apply k_zte; auto.
           ++ destruct K3 as [(_ & ->)|(X & _)]; [|discriminate]. apply k_huawei; auto.
           ++ destruct K3 as [(X & _)|(_ & K3)]; [congruence|]. apply Ks; auto. cbn. auto.
      * destruct FH as (-> & ->). destruct K3 as [(X & _)|(_ & K3)]; [congruence|]. apply Ks; auto. cbn. apply refused_app. right. apply refused_app. auto.
  - intro A. apply accepted_app in A as [A|A]; [exfalso; eapply foreign_accepted; [|exact A]; apply F1; discriminate|].
    apply accepted_app in A as [A|A]; [|exfalso; eapply foreign_accepted; [|exact A]; apply F3; discriminate].
    destruct K2 as [(_ & _ & _ & W)|(_ & _ & N)]; [|contradiction].
    destruct W as [(ls & I & X)|W]; [left; exists ls; split; auto; rewrite !in_app_iff; auto|right; apply accepted_app; right; apply accepted_app; auto].
Qed.

(** ** What the other phases leave alone *)
Definition settings (m : modem) := (callUpdates m, mustPoll m, waitAtd m, waitInit m, dtmfSupport m, dtmfHuawei m).
Definition reading (m : modem) := (smsReadSupported m, memRead m, clip m, crc m).
Lemma reset_keeps pin : keeps settings (connect_reset pin) /\ keeps reading (connect_reset pin) /\ keeps smsTextMode (connect_reset pin).
Proof. unfold connect_reset, forget. split; [|split]; keeps_all; try (apply keeps_unlock; intros; reflexivity). Qed.
Lemma table_keeps cs h : keeps reading (connect_table cs h) /\ keeps smsTextMode (connect_table cs h).
Proof. unfold connect_table. split; keeps_all. Qed.
Lemma smsc_keeps {X} (f : modem -> X) : (forall v m, f (set_writeWait v m) = f m) -> (forall v m, f (set_smscNumber v m) = f m) -> keeps f get_smsc /\ forall n, keeps f (set_smsc n).
Proof.
  intros H1 H2. split; [|intro n].
  - unfold get_smsc. repeat first [apply keeps_bind; [|intros ?] | apply keeps_get | apply keeps_ret | apply keeps_modify; auto | match goal with |- keeps _ (match ?b with _ => _ end) => destruct b end].
    apply keeps_try; [apply keeps_bind; [apply keeps_write; auto|intro; apply keeps_ret]|]. intros e k E. destruct e; try discriminate E. injection E as <-. apply keeps_ret.
  - unfold set_smsc. repeat first [apply keeps_bind; [|intros ?] | apply keeps_get | apply keeps_ret | apply keeps_modify; auto | apply keeps_write; auto | match goal with |- keeps _ (if ?b then _ else _) => destruct b end].
Qed.
Lemma sms_keeps {X} (f : modem -> X) : (forall v m, f (set_writeWait v m) = f m) -> (forall v m, f (set_smscNumber v m) = f m) -> keeps f connect_sms.
Proof.
  intros H1 H2. destruct (smsc_keeps f H1 H2) as [G S]. unfold connect_sms, write, write_noparse.
  repeat first [exact G | apply S | apply keeps_bind; [|intros ?] | apply keeps_get | apply keeps_ret | apply keeps_modify; auto | apply keeps_write; auto
    | match goal with |- keeps _ (if ?b then _ else _) => destruct b end | match goal with |- keeps _ (match ?b with _ => _ end) => destruct b end].
Qed.
Lemma memory_keeps : keeps settings connect_memory /\ keeps (fun m => (clip m, crc m, smsTextMode m)) connect_memory.
Proof. unfold connect_memory, forget. split; keeps_all. Qed.
Lemma notifications_keep : keeps settings connect_notifications /\ keeps (fun m => (memRead m, smsTextMode m)) connect_notifications.
Proof. unfold connect_notifications, forget. split; keeps_all. Qed.
(** commands used in one phase only *)
Definition special : list str := [lit "AT+CLIP=1"; lit "AT+CRC=1"; lit "AT+CNMI=2,1,0,2"; lit "AT+WIND?"; lit "AT^CVOICE=0"; lit "AT^USSDMODE=0"].
Definition plain (e : event) : Prop := match e with EWrite x _ => Forall (fun t => x <> t ++ [13]) special | _ => True end.
Ltac plain_w := apply only_write; [intro; cbn [plain]; unfold special; repeat (apply Forall_cons; [discriminate|]); apply Forall_nil|intro; exact Logic.I].
Ltac plain_tac := only_tac; try plain_w; handler_tac; only_tac; try plain_w.
Lemma plain_unlock pin : only plain (unlockSim pin).
Proof. unfold unlockSim, forget. plain_tac. Qed.
Lemma plain_reset pin : only plain (connect_reset pin).
Proof. unfold connect_reset, forget. plain_tac; try apply plain_unlock. Qed.
Lemma plain_commands : only plain supportedCommands.
Proof. unfold supportedCommands. plain_tac. Qed.
Lemma plain_table cs h : only plain (connect_table cs h).
Proof. unfold connect_table. plain_tac. Qed.
Lemma plain_cops : only plain (write_noparse (lit "AT+COPS=3,0")).
Proof. plain_w. Qed.
Lemma plain_get : only plain get_smsc.
Proof. unfold get_smsc. plain_tac. Qed.
Lemma plain_set n : only plain (set_smsc n).
Proof. unfold set_smsc. plain_tac. Qed.
Lemma plain_sms : only plain connect_sms.
Proof. unfold connect_sms. plain_tac; first [apply plain_get|apply plain_set|idtac]. Qed.
Lemma plain_memory : only plain connect_memory.
Proof. unfold connect_memory, forget. plain_tac. Qed.
Lemma plain_said {A} (c : M A) w x w' : only plain c -> c w = Done x w' -> exists l, asked (trace w') = asked (trace w) ++ l /\ forall t, In t special -> foreign t l.
Proof.
  intros O H. destruct (O w) as (evs & T & F). rewrite H in T. cbn in T. exists (asked evs). rewrite T, asked_app. split; auto. intros t I.
  clear - F I. induction F as [|e evs H _ IH]; [constructor|]. destruct e; cbn; auto. constructor; auto. cbn [plain] in H. rewrite Forall_forall in H. apply (H t I).
Qed.

(** ** The settings for calls *)
Lemma table_said commands h w w' m d : connect_table commands h w = Done (Ok tt) w' -> settings (dev w) = settings (set_dtmfSupport d m) ->
  (d = true <-> dtmfSupport m = true \/ knows commands "+VTS") -> trace w' = trace w /\ exists m2, settings (dev w') = settings m2 /\ configured m m2 commands (table_for h).
Proof.
  intros H E Sd.
  assert (NC : forall P : Prop, commands <> None -> (commands = None /\ P) -> False) by (intros P X [Y _]; auto).
  unfold connect_table in H. unfold table_for. injection E as E1 E2 E3 E4 E5 E6.
  destruct (h =? 1); [|destruct (h =? 2); [|destruct (h =? 3)]].
  - unfold mbind, modify in H. injection H as <-. split; auto. eexists. split; [reflexivity|]. constructor; cbn; unfold dtmf_known; try congruence.
    + split; discriminate.
    + split; auto.
    + split; auto.
  - assert (D : trace w' = trace w /\ settings (dev w') = (TWavecom, false, false, waitInit m, match commands with None => true | Some _ => d end, dtmfHuawei m)).
    { unfold mbind, modify in H. destruct commands; unfold ret in H; injection H as <-; split; auto; unfold settings; cbn; congruence. }
    destruct D as [T D]. split; auto. exists (dev w'). split; auto. unfold settings in D. injection D as D1 D2 D3 D4 D5 D6. constructor; unfold dtmf_known; try congruence.
    + rewrite D2. split; discriminate.
    + rewrite D5. destruct commands as [cs|]; [|split; auto 8]. assert (X1 : TWavecom <> THuawei) by discriminate. assert (X2 : Some cs <> None) by discriminate. tauto.
    + rewrite D6. split; [auto|intros [X|X]; [auto|discriminate]].
  - assert (D : trace w' = trace w /\ settings (dev w') = (TZte, false, false, false, match commands with None => true | Some _ => d end, dtmfHuawei m)).
    { unfold mbind, modify in H. destruct commands; unfold ret in H; injection H as <-; split; auto; unfold settings; cbn; congruence. }
    destruct D as [T D]. split; auto. exists (dev w'). split; auto. unfold settings in D. injection D as D1 D2 D3 D4 D5 D6. constructor; unfold dtmf_known; try congruence.
    + rewrite D2. split; discriminate.
    + rewrite D5. destruct commands as [cs|]; [|split; auto 8]. assert (X1 : TZte <> THuawei) by discriminate. assert (X2 : Some cs <> None) by discriminate. tauto.
    + rewrite D6. split; [auto|intros [X|X]; [auto|discriminate]].
  - unfold mbind, modify in H. injection H as <-. split; auto. eexists. split; [reflexivity|]. constructor; cbn; unfold dtmf_known; try congruence.
    + split; auto.
    + rewrite E5. cbn. rewrite Sd. split; [intros [X|X]; auto|]. intros [X|[X|[X|[X Y]]]]; auto; [discriminate|]. destruct Y; discriminate.
    + rewrite E6. cbn. split; [auto|intros [X|X]; [auto|discriminate]].
Qed.

(** ** Message storage *)
Lemma offers_iff i mem : contains i (34 :: lit mem ++ [34]) = true <-> offers i mem.
Proof. apply contains_iff. Qed.
Lemma best_spec i : best i (first_preferred i).
Proof.
  pose proof (offers_iff i "ME") as A. pose proof (offers_iff i "SM") as B. pose proof (offers_iff i "SR") as C. unfold first_preferred, preferred, find.
  change (34 :: lit "ME" ++ [34]) with (lit """ME""") in A. change (34 :: lit "SM" ++ [34]) with (lit """SM""") in B. change (34 :: lit "SR" ++ [34]) with (lit """SR""") in C.
  destruct (contains i (lit """ME""")); [apply be_me; tauto|]. assert (NA : ~ offers i "ME") by (intro X; apply A in X; discriminate).
  destruct (contains i (lit """SM""")); [apply be_sm; tauto|]. assert (NB : ~ offers i "SM") by (intro X; apply B in X; discriminate).
  destruct (contains i (lit """SR""")); [apply be_sr; tauto|]. assert (NC : ~ offers i "SR") by (intro X; apply C in X; discriminate).
  apply be_none; auto.
Qed.
Lemma memory_said w w' : connect_memory w = Done (Ok tt) w' -> exists l st, asked (trace w') = asked (trace w) ++ l /\ storage l st /\
  smsReadSupported (dev w') = (match st with Some _ => smsReadSupported (dev w) | None => false end) /\ memRead (dev w') = memory_of st (memRead (dev w)).
Proof.
  intro H. unfold connect_memory in H. apply bind_ok in H as (cpms & w1 & H1 & H). unfold try_except in H1. destruct (mbind _ _ w) as [[y|e] w2|w2] eqn:E; [| |discriminate].
  - injection H1 as -> ->. apply bind_ok in E as (ls & w2 & W & E). unfold ret in E. injection E as <- <-. apply write_accepted in W as (l & v & T & S & G & D).
    pose proof (first_line_iff (lit "+CPMS") ls) as F. destruct (lineStartingWith (lit "+CPMS") ls) as [line|]; [|discriminate]. destruct F as (b & a & E & Sw & F).
    pose proof (after_space_spec line) as A. destruct (after_space line) as [s|]; [|discriminate]. destruct A as (p & El & Np). cbv zeta in H. pose proof (split_on_spec s) as Fs.
    assert (St : storages ls (split_on (lit "),(") s)) by (exists b, line, a, p, s; auto 8).
    match type of H with (if ?x then _ else _) _ = _ => destruct x eqn:X end.
    + unfold modify in H. injection H as <-. exists l, None. cbn [dev trace]. split; auto. split; [|split; [reflexivity|rewrite D; reflexivity]].
      apply (st_unusable l ls (split_on (lit "),(") s)); auto; [apply said_in; auto|]. apply existsb_exists in X as (i & I & X). destruct i; [auto|discriminate].
    + apply bind_ok in H as ([] & w3 & H3 & H). unfold forget in H. apply bind_ok in H as (ls2 & w4 & W & H). unfold ret in H. injection H as <-.
      apply write_accepted in W as (l2 & v2 & T2 & S2 & G2 & D2). exists (l ++ l2), (Some (map first_preferred (split_on (lit "),(") s))).
      assert (K : trace w3 = trace w2 /\ smsReadSupported (dev w3) = smsReadSupported (dev w2) /\ memRead (dev w3) = memory_of (Some (map first_preferred (split_on (lit "),(") s))) (memRead (dev w2))).
      { destruct (split_on (lit "),(") s) as [|i0 its]; [unfold ret in H3; injection H3 as <-; auto|]. cbn [map memory_of]. destruct (first_preferred i0); [unfold modify in H3|unfold ret in H3]; injection H3 as <-; auto. }
      destruct K as (T3 & R3 & M3). split; [rewrite T2, T3, T, app_assoc; auto|]. split; [|split; [transitivity (smsReadSupported (dev w3)); [rewrite D2; reflexivity|rewrite R3, D; reflexivity]|transitivity (memRead (dev w3)); [rewrite D2; reflexivity|rewrite M3, D; reflexivity]]].
      apply (st_set (l ++ l2) ls (split_on (lit "),(") s)); auto.
      * apply in_or_app. left. apply said_in. auto.
      * intro I. assert (true = false); [|discriminate]. rewrite <- X. symmetry. apply existsb_exists. exists []. auto.
      * clear. induction (split_on (lit "),(") s); constructor; auto. apply best_spec.
      * apply accepted_app. right. apply (said_accepted _ _ ls2); auto. rewrite map_map. exact S2.
  - apply bind_done in E as [(ls & w3 & _ & E)|(e' & W & E)]; [discriminate|]. injection E as <-. unfold on_CommandError in H1. destruct (is_CommandError e) eqn:C; [|discriminate].
    unfold ret in H1. injection H1 as <- <-. unfold modify in H. injection H as <-. apply write_said in W as (l & r & v & T & S & NB & O & D). exists l, None. cbn [dev trace].
    split; auto. split; [|split; [reflexivity|rewrite D; reflexivity]]. apply st_refused. apply (said_refused _ _ r); auto. eapply not_good_refusal; eauto.
Qed.

(** ** Notifications *)
Lemma notifications_said w w' : connect_notifications w = Done (Ok tt) w' -> exists l, asked (trace w') = asked (trace w) ++ l /\
  (clip (dev w') = true <-> accepted (lit "AT+CLIP=1") l) /\ (clip (dev w') = false -> refused_command (lit "AT+CLIP=1") l) /\
  (clip (dev w') = true -> (crc (dev w') = true <-> accepted (lit "AT+CRC=1") l)) /\ (clip (dev w') = false -> crc (dev w') = crc (dev w) /\ ~ sent (lit "AT+CRC=1") l) /\
  (smsReadSupported (dev w') = true <-> smsReadSupported (dev w) = true /\ accepted (lit "AT+CNMI=2,1,0,2") l) /\
  (sent (lit "AT+CNMI=2,1,0,2") l <-> smsReadSupported (dev w) = true) /\
  (forall t, In t [lit "AT+WIND?"; lit "AT^CVOICE=0"; lit "AT^USSDMODE=0"] -> foreign t l).
Proof.
  intro H. unfold connect_notifications in H. unfold mbind at 1, get in H. apply bind_ok in H as ([] & w1 & H1 & H).
  assert (K1 : exists l v b, asked (trace w1) = asked (trace w) ++ l /\ dev w1 = set_writeWait v (set_smsReadSupported b (dev w)) /\ (b = true <-> smsReadSupported (dev w) = true /\ accepted (lit "AT+CNMI=2,1,0,2") l) /\
    (sent (lit "AT+CNMI=2,1,0,2") l <-> smsReadSupported (dev w) = true) /\ forall t, t <> lit "AT+CNMI=2,1,0,2" -> foreign t l).
  { destruct (smsReadSupported (dev w)) eqn:R.
    - unfold try_except in H1. destruct (forget (write (lit "AT+CNMI=2,1,0,2")) w) as [[y|e] w2|w2] eqn:E; [| |discriminate].
      + injection H1 as -> ->. unfold forget in E. apply bind_ok in E as (ls & w2 & W & E). injection E as <-. apply write_accepted in W as (l & v & T & S & G & D). exists l, v, true.
        split; auto. split; [rewrite D, <- R; destruct (dev w); reflexivity|]. split; [split; [intros _; split; [auto|eapply said_accepted; eauto]|auto]|].
        split; [split; [auto|intros _; apply (in_map fst _ _ (said_in _ _ _ S))]|]. intros t N. eapply said_foreign; [exact S|congruence].
      + unfold forget in E. apply bind_done in E as [(ls & w3 & _ & E)|(e' & W & E)]; [discriminate|]. injection E as <-. unfold on_CommandError in H1. destruct (is_CommandError e) eqn:C; [|discriminate].
        unfold modify in H1. injection H1 as <-. apply write_said in W as (l & r & v & T & S & NB & O & D). exists l, v, false. cbn [dev trace]. split; auto. split; [rewrite D; reflexivity|].
        split; [split; [discriminate|intros [_ X]; exfalso; revert X; apply (said_refused _ _ r); auto; eapply not_good_refusal; eauto]|].
        split; [split; [auto|intros _; apply (in_map fst _ _ (said_in _ _ _ S))]|]. intros t N. eapply said_foreign; [exact S|congruence].
    - unfold ret in H1. injection H1 as <-. exists [], (writeWait (dev w)), false. rewrite app_nil_r. split; auto. split; [rewrite <- R; destruct (dev w); reflexivity|].
      split; [split; [discriminate|intros [X _]; discriminate]|]. split; [split; [intros []|discriminate]|]. intros; constructor. }
  destruct K1 as (l1 & v1 & b & T1 & D1 & B1 & S1 & F1). clear H1.
  apply bind_ok in H as (clipOk & w2 & H2 & H). apply (try_said (lit "AT+CLIP=1") (fun _ => ret true) true false) in H2 as (l2 & r2 & v2 & T2 & S2 & D2 & K2); [|reflexivity].
  apply bind_ok in H as ([] & w3 & H3 & H).
  assert (F2 : forall t, t <> lit "AT+CLIP=1" -> foreign t l2) by (intros t N; eapply said_foreign; [exact S2|congruence]).
  assert (K3 : exists l3 v3, asked (trace w3) = asked (trace w2) ++ l3 /\ (forall t, t <> lit "AT+CRC=1" -> foreign t l3) /\ smsReadSupported (dev w3) = b /\
    ((clipOk = true /\ exists c, dev w3 = set_writeWait v3 (set_crc c (set_clip true (dev w2))) /\ (c = true <-> accepted (lit "AT+CRC=1") l3)) \/
     (clipOk = false /\ dev w3 = set_writeWait v3 (set_clip false (dev w2)) /\ l3 = []))).
  { assert (Rb : smsReadSupported (dev w2) = b) by (rewrite D2, D1; reflexivity).
    destruct clipOk.
    - unfold mbind at 1, modify at 1 in H3. apply bind_ok in H3 as (crcOk & w4 & H4 & H3). apply (try_said (lit "AT+CRC=1") (fun _ => ret true) true false) in H4 as (l3 & r3 & v3 & T3 & S3 & D3 & K3); [|reflexivity].
      unfold modify in H3. injection H3 as <-. cbn [trace dev] in *. exists l3, v3. split; auto. split; [intros t N; eapply said_foreign; [exact S3|congruence]|]. split; [rewrite D3; exact Rb|].
      left. split; auto. exists crcOk. split; [rewrite D3; reflexivity|]. destruct K3 as [(-> & ls & -> & G)|(-> & R)]; [split; auto; intros _; eapply said_accepted; eauto|].
      split; [discriminate|]. intro X. exfalso. revert X. apply (said_refused _ _ _ S3 R).
    - unfold modify in H3. injection H3 as <-. cbn [trace dev]. exists [], (writeWait (dev w2)). rewrite app_nil_r. split; auto. split; [intros; constructor|]. split; auto. }
  destruct K3 as (l3 & v3 & T3 & F3 & Rb & K3). clear H3.
  unfold forget in H. apply bind_ok in H as (ls & w4 & W & H). unfold ret in H. injection H as <-. apply noparse_said in W as (r4 & v4 & T4 & D4).
  assert (F4 : forall t, t <> lit "AT+CVHU=0" -> foreign t [ask (lit "AT+CVHU=0") r4]).
  { intros t N. constructor; [|constructor]. cbn [fst ask]. intro E. apply app_inj_tail in E as [E _]. congruence. }
  exists (l1 ++ l2 ++ l3 ++ [ask (lit "AT+CVHU=0") r4]). split; [rewrite T4, T3, T2, T1, <- !app_assoc; auto|].
  assert (A : forall t, accepted t (l1 ++ l2 ++ l3 ++ [ask (lit "AT+CVHU=0") r4]) <-> accepted t l1 \/ accepted t l2 \/ accepted t l3 \/ accepted t [ask (lit "AT+CVHU=0") r4]) by (intro; rewrite !accepted_app; tauto).
  assert (Se : forall t, sent t (l1 ++ l2 ++ l3 ++ [ask (lit "AT+CVHU=0") r4]) <-> sent t l1 \/ sent t l2 \/ sent t l3 \/ sent t [ask (lit "AT+CVHU=0") r4]) by (intro; rewrite !sent_app; tauto).
  assert (Cl : clip (dev w4) = clipOk) by (rewrite D4; destruct K3 as [(-> & c & -> & _)|(-> & -> & _)]; reflexivity).
  assert (Rd : smsReadSupported (dev w4) = b) by (rewrite D4; exact Rb).
  rewrite !A, !Se, Cl, Rd.
  assert (N : forall t l, foreign t l -> ~ accepted t l /\ ~ sent t l) by (intros; split; [apply foreign_accepted|apply foreign_sent]; auto).
  split; [|split; [|split; [|split; [|split; [|split]]]]].
  - pose proof (N _ _ (F1 (lit "AT+CLIP=1") ltac:(discriminate))). pose proof (N _ _ (F3 (lit "AT+CLIP=1") ltac:(discriminate))). pose proof (N _ _ (F4 (lit "AT+CLIP=1") ltac:(discriminate))).
    destruct K2 as [(-> & ls2 & -> & G)|(-> & R)].
    + pose proof (said_accepted _ _ _ S2 G). tauto.
    + destruct (said_refused _ _ _ S2 R) as [_ X]. split; [discriminate|tauto].
  - intros ->. destruct K2 as [(X & _)|(_ & R)]; [discriminate|]. destruct (said_refused _ _ _ S2 R) as [X _]. apply refused_app. right. apply refused_app. auto.
  - intros ->. destruct K3 as [(_ & c & D3 & X)|(X & _)]; [|discriminate]. rewrite D4, D3. cbn [crc set_writeWait set_crc]. rewrite X.
    pose proof (N _ _ (F1 (lit "AT+CRC=1") ltac:(discriminate))). pose proof (N _ _ (F2 (lit "AT+CRC=1") ltac:(discriminate))). pose proof (N _ _ (F4 (lit "AT+CRC=1") ltac:(discriminate))). tauto.
  - intros ->. destruct K3 as [(X & _)|(_ & D3 & ->)]; [discriminate|]. split; [rewrite D4, D3, D2, D1; reflexivity|].
    pose proof (N _ _ (F1 (lit "AT+CRC=1") ltac:(discriminate))). pose proof (N _ _ (F2 (lit "AT+CRC=1") ltac:(discriminate))). pose proof (N _ _ (F4 (lit "AT+CRC=1") ltac:(discriminate))).
    assert (~ sent (lit "AT+CRC=1") []) by (intros []). tauto.
  - pose proof (N _ _ (F2 (lit "AT+CNMI=2,1,0,2") ltac:(discriminate))). pose proof (N _ _ (F3 (lit "AT+CNMI=2,1,0,2") ltac:(discriminate))). pose proof (N _ _ (F4 (lit "AT+CNMI=2,1,0,2") ltac:(discriminate))). tauto.
  - pose proof (N _ _ (F2 (lit "AT+CNMI=2,1,0,2") ltac:(discriminate))). pose proof (N _ _ (F3 (lit "AT+CNMI=2,1,0,2") ltac:(discriminate))). pose proof (N _ _ (F4 (lit "AT+CNMI=2,1,0,2") ltac:(discriminate))). tauto.
  - intros t I. assert (X : t <> lit "AT+CNMI=2,1,0,2" /\ t <> lit "AT+CLIP=1" /\ t <> lit "AT+CRC=1" /\ t <> lit "AT+CVHU=0").
    { destruct I as [<-|[<-|[<-|[]]]]; repeat split; discriminate. }
    destruct X as (X1 & X2 & X3 & X4). rewrite !foreign_app. auto.
Qed.
