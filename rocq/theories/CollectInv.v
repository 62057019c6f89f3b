(** The invariant of threads that collect stored messages. *)
From Coq Require Import Permutation.
From Verif Require Import Base PduModel RegexModel ModemCore ModemSpec WriteProofs MonadProofs SendSpec SendProofs TrackSpec CoverageSpec CoverageProofs
  SmsModel StoreSpec StoreLemmas ReadProofs StoreProofs ListSpec ListProofs ProcessProofs StoreFinal HandlerModel HandlerSpec HandlerProofs CollectModel CollectSpec CollectProofs TrieProofs.

(** permutations of concatenations *)
Lemma p_there {A} (a b r r' : list A) : Permutation r (a ++ r') -> Permutation (b ++ r) (a ++ b ++ r').
Proof. intro H. rewrite H. apply Permutation_app_swap_app. Qed.
Lemma p_last {A} (a : list A) : Permutation a (a ++ []).
Proof. rewrite app_nil_r. auto. Qed.
Lemma p_step {A} (a l r r' : list A) : Permutation r (a ++ r') -> Permutation l r' -> Permutation (a ++ l) r.
Proof. intros H K. rewrite H, K. auto. Qed.
Ltac front := first [apply Permutation_refl | apply p_last | eapply p_there; front].
Ltac perms := first [apply Permutation_refl | apply p_last | eapply p_step; [front|perms]].
Ltac perm := rewrite <- ?app_assoc; perms.

Section Invariant.
Context (mode : bool) (mem : str) (strict : bool) (c0 : cells).

(** a message that a thread is going to delete is the one in the cell; when not
    [strict], the cell may also be empty *)
Definition claim_ok (c : cells) (e : Z * stored_sms) : Prop :=
  (strict = false /\ c mem (fst e) = None) \/ exists content, c mem (fst e) = Some content /\ says mode content (snd e).
Definition fine_spot (p : spot) : Prop :=
  match p with
  | CErase ms ls rest => length ls = length ms /\ NoDup ls /\ NoDup rest /\ incl rest ls /\ Forall (fun i => 0 <= i) rest
  | CWipe _ => False
  | _ => True
  end.
Definition fine_thread (t : thread) : Prop :=
  match t with
  | Notified h => h_memory h = mem /\ digits (h_index h)
  | Collecting c => (c_memory c = None \/ c_memory c = Some mem) /\ Forall (fun st => 0 <= st /\ st <> 4) (c_statuses c) /\ fine_spot (c_spot c)
  end.
Definition busy (t : thread) : bool := match claims t with [] => false | _ => true end.
Definition known (obs : list seen) (content : list str) : Prop := (exists i, c0 mem i = Some content) \/ In content (came obs).
Definition known_sms (obs : list seen) (s : stored_sms) : Prop := exists content, known obs content /\ says mode content s.

Record sane (obs : list seen) (s : site) : Prop := {
  sn_sel : sel (machine s) = mem;
  sn_read : forall i content, stored (machine s) mem i = Some content -> readable mode content;
  sn_known : forall i content, stored (machine s) mem i = Some content -> exists k, known obs k /\ marks mode k content;
  sn_fine : Forall fine_thread (threads s);
  sn_claims : Forall (fun t => Forall (claim_ok (stored (machine s))) (claims t)) (threads s);
  sn_busy : strict = true -> (length (filter busy (threads s)) <= 1)%nat;
  sn_told : Forall (known_sms obs) (told obs ++ dropped obs);
  sn_hand : Forall (fun t => Forall (known_sms obs) (holds t ++ map snd (claims t))) (threads s);
  sn_count : exists ss extra, Forall2 (says mode) (gone obs) ss /\ Permutation (told obs ++ dropped obs ++ flat_map holds (threads s)) (ss ++ extra) /\
    (strict = true -> extra = []) }.

(** ** One thread *)
(** what a step of the thread [t] can be: nothing is removed ... *)
Definition gentle (d : device) (t : thread) (g : list (Z * list str)) (said : list stored_sms) (d' : device) (t' : thread) : Prop :=
  touched mode (stored d) (stored d') /\ g = [] /\
  Permutation (said ++ (if failed t' then holds t else []) ++ holds t') (holds t) /\
  (incl (claims t') (claims t) \/ (claims t = [] /\ forall e, In e (claims t') -> exists content, stored d mem (fst e) = Some content /\ reads_as mode content (snd e))).
(** ... or a message that it has read *)
Definition taking (d : device) (t : thread) (g : list (Z * list str)) (said : list stored_sms) (d' : device) (t' : thread) : Prop :=
  exists i s, In (i, s) (claims t) /\ incl (claims t') (claims t) /\ ~ In i (map fst (claims t')) /\ said = [] /\ failed t' = false /\
    Permutation (holds t') (s :: holds t) /\ stored d' = put (stored d) mem i None /\
    g = (match stored d mem i with Some content => [(i, content)] | None => [] end).

Lemma member_in is (e : Z * stored_sms) : member is e = true <-> In (fst e) is.
Proof.
  unfold member. rewrite existsb_exists. split; [intros (j & J & E); apply Z.eqb_eq in E; subst; auto|intro I; exists (fst e); split; auto; apply Z.eqb_refl].
Qed.
Lemma combine_fst (ls : list Z) (ms : list stored_sms) : length ls = length ms -> map fst (combine ls ms) = ls.
Proof. revert ms. induction ls as [|i ls IH]; intros [|s ms] H; cbn in *; try discriminate; auto. f_equal. auto. Qed.
Lemma combine_snd (ls : list Z) (ms : list stored_sms) : length ls = length ms -> map snd (combine ls ms) = ms.
Proof. revert ms. induction ls as [|i ls IH]; intros [|s ms] H; cbn in *; try discriminate; auto. f_equal. auto. Qed.
Lemma take_one (es : list (Z * stored_sms)) : NoDup (map fst es) -> forall i s rest, In (i, s) es -> ~ In i rest ->
  Permutation (map snd (filter (fun e => negb (member rest e)) es)) (s :: map snd (filter (fun e => negb (member (i :: rest) e)) es)).
Proof.
  induction es as [|[j x] es IH]; intros N i s rest I R; [contradiction|]. cbn [map fst] in N. inversion N as [|? ? N1 N2]; subst. destruct I as [[= -> ->]|I].
  - cbn [filter]. assert (M1 : member rest (i, s) = false) by (destruct (member rest (i, s)) eqn:X; auto; apply member_in in X; tauto).
    assert (M2 : member (i :: rest) (i, s) = true) by (apply member_in; left; auto). rewrite M1, M2. cbn [negb map snd]. apply perm_skip.
    assert (E : filter (fun e => negb (member rest e)) es = filter (fun e => negb (member (i :: rest) e)) es); [|rewrite E; auto].
    apply filter_ext_in. intros [k y] K. f_equal. unfold member. cbn [existsb fst]. destruct (Z.eqb_spec k i) as [->|]; auto. exfalso. apply N1. apply (in_map fst) in K. auto.
  - assert (Nj : j <> i) by (intros ->; apply N1; apply (in_map fst) in I; auto). cbn [filter].
    assert (M : member (i :: rest) (j, x) = member rest (j, x)) by (unfold member; cbn [existsb fst]; destruct (Z.eqb_spec j i); [tauto|auto]). rewrite M.
    specialize (IH N2 i s rest I R). destruct (negb (member rest (j, x))); auto. cbn [map snd]. rewrite IH. apply perm_swap.
Qed.

(** parts of the command texts *)
Lemma erase_text i : 0 <= i -> digits (str_of_Z i) /\ dec_value (str_of_Z i) = i.
Proof. intro H. destruct (str_of_Z_decimal i H) as (A & B & _). auto. Qed.

Lemma step_quiet attr t said attr' t' : fine_thread t -> thread_step mode attr t None said attr' t' ->
  fine_thread t' /\ (failed t' = true -> holds t = []) /\ forall d, gentle d t [] said d t'.
Proof.
  intros F H. remember (@None (str * reply)) as lab eqn:L. destruct H as [attr h lab said attr' p H|attr c lab said attr' sts p H]; subst lab; cbn [fine_thread] in *.
  - split; auto. split; [destruct h as [hm hi hp]; cbn [h_memory h_index h_place failed holds] in *; inversion H; subst; auto; try discriminate; destruct (opt_str_eqb _ _); discriminate|].
    intro d. split; [apply touched_refl|]. split; auto. destruct h as [hm hi hp]. cbn [h_memory h_index h_place] in *.
    remember (@None (str * reply)) as lab eqn:L. destruct H as [a|a r command|a|a r command|a s r command|a s]; try discriminate L; cbn.
    + destruct (match a with Some y => str_eqb hm y | None => false end); cbn; (split; [auto|left; intros e []]).
    + split; [auto|left; intros e []].
    + split; [auto|left; intros e []].
  - destruct F as (Fm & Fs & Fp). destruct c as [cm ch cs cp]. cbn [c_memory c_handing c_statuses c_spot] in *.
    remember (@None (str * reply)) as lab eqn:L.
    destruct H as [a sts|m a sts r command E|a sts|a st sts E|a st sts r command order E Po|a sts ms ls i rest r command|a sts ms ls|a sts ms r command|a sts ms E|a sts s ms E|a st sts E];
      try discriminate L; cbn [fine_spot] in *.
    + split; [split; auto; split; auto; destruct cm; [destruct (opt_str_eqb (Some s) a)|]; exact Logic.I|].
      split; [auto|]. intro d. split; [apply touched_refl|]. split; auto. destruct cm; [destruct (opt_str_eqb (Some s) a)|]; cbn; (split; [auto|left; intros e []]).
    + split; [cbn; auto|]. split; [cbn; auto; discriminate|]. intro d. split; [apply touched_refl|]. split; auto. cbn. split; [auto|left; intros e []].
    + split; [cbn; auto|]. split; [cbn; auto; discriminate|]. intro d. split; [apply touched_refl|]. split; auto. cbn. split; [auto|left; intros e []].
    + split; [cbn; auto|]. split; [cbn; auto; discriminate|]. intro d. split; [apply touched_refl|]. split; auto. cbn [failed holds claims c_spot app]. split; [|left; intros e []].
      destruct Fp as (Le & _). assert (X : filter (fun e => negb (member [] e)) (combine ls ms) = combine ls ms).
      { clear. induction (combine ls ms) as [|e l IH]; auto. cbn [filter]. rewrite IH. auto. }
      rewrite X, combine_snd by auto. auto.
    + split; [cbn; auto|]. split; [cbn; auto; discriminate|]. intro d. split; [apply touched_refl|]. split; auto. cbn. rewrite app_nil_r. split; [auto|left; intros e []].
    + split; [cbn; auto|]. split; [cbn; auto; discriminate|]. intro d. split; [apply touched_refl|]. split; auto. cbn. split; [auto|left; intros e []].
    + inversion Fs; subst. split; [split; auto; split; auto; destruct sts; exact Logic.I|]. split; [auto|]. intro d. split; [apply touched_refl|]. split; auto.
      destruct sts; cbn; (split; [auto|left; intros e []]).
Qed.

(** a busy or a failing attempt *)
Lemma stays d t text r g d' : (forall ls, r = Lines ls -> ~ good_answer ls) -> serves mode d text r g d' -> gentle d t g [] d' t \/ failed t = true.
Proof.
  intros N S. apply serves_still in S as [-> ->]; auto. destruct (failed t) eqn:F; [auto|left]. split; [apply touched_refl|]. split; auto. split; [rewrite F; cbn; auto|left; apply incl_refl].
Qed.
Lemma falls d t t' text r g d' : (forall ls, r = Lines ls -> ~ good_answer ls) -> serves mode d text r g d' -> failed t' = true -> holds t' = [] -> claims t' = [] ->
  gentle d t g [] d' t'.
Proof.
  intros N S F H C. apply serves_still in S as [-> ->]; auto. split; [apply touched_refl|]. split; auto. rewrite F, H, C, app_nil_r. split; [cbn; auto|left; intros e []].
Qed.

Lemma step_write attr t text r said attr' t' d g d' : ~ In 34 mem -> fine_thread t -> sel d = mem -> (forall i content, stored d mem i = Some content -> readable mode content) ->
  thread_step mode attr t (Some (text, r)) said attr' t' -> serves mode d text r g d' ->
  fine_thread t' /\ sel d' = mem /\ (gentle d t g said d' t' \/ taking d t g said d' t').
Proof.
  intros Q F Sl Rd H Sv. remember (Some (text, r)) as lab eqn:L. destruct H as [attr h lab said attr' p H|attr c lab said attr' sts p H]; subst lab; cbn [fine_thread] in *.
  - destruct F as [Fm Fd]. destruct h as [hm hi hp]. cbn [h_memory h_index h_place] in *. subst hm.
    split; [auto|]. remember (Some (text, r)) as lab eqn:L.
    destruct H as [a|a r0 command|a|a r0 command|a s r0 command|a s]; try discriminate L; injection L as <- ->; subst command; cbn [handed].
    + destruct (attempt_cases (lit "AT+CPMS=""" ++ mem ++ lit """") r) as [(code & B & ->)|[(ls & -> & -> & G)|(e & -> & Fl)]]; cbn [next].
      * pose proof (serves_busy _ _ _ _ _ _ _ B Sv) as [_ ->]. split; auto. left.
        destruct (stays d (Notified (mk_handler mem hi Select)) _ _ _ _ (busy_no_good _ _ B) Sv) as [X|X]; [auto|discriminate X].
      * apply select_serves in Sv as [-> ->]; auto. split; auto. left. split; [apply touched_refl|]. split; auto. cbn. split; [auto|left; intros x []].
      * pose proof (serves_failing _ _ _ _ _ _ Fl Sv) as [_ ->]. split; auto. left. destruct Fl as [_ Fl]. apply (falls _ _ _ _ _ _ _ Fl Sv); auto.
    + destruct (attempt_cases (lit "AT+CMGR=" ++ hi) r) as [(code & B & ->)|[(ls & -> & -> & G)|(e & -> & Fl)]]; cbn [next].
      * pose proof (serves_busy _ _ _ _ _ _ _ B Sv) as [_ ->]. split; auto. left.
        destruct (stays d (Notified (mk_handler mem hi Fetch)) _ _ _ _ (busy_no_good _ _ B) Sv) as [X|X]; [auto|discriminate X].
      * apply read_serves in Sv as (-> & content & c' & C & -> & T & ->); auto. rewrite Sl in *. split; auto. left. destruct (Rd _ _ C) as (s & R).
        pose proof (reads_ok _ _ _ (lit "OK") R) as Pa. rewrite Pa. split; auto. split; auto. cbn. split; [auto|]. right. split; auto. intros x [<-|[]]. cbn. eauto.
      * pose proof (serves_failing _ _ _ _ _ _ Fl Sv) as [_ ->]. split; auto. left. destruct Fl as [_ Fl]. apply (falls _ _ _ _ _ _ _ Fl Sv); auto.
    + destruct (attempt_cases (lit "AT+CMGD=" ++ hi ++ lit ",0") r) as [(code & B & ->)|[(ls & -> & -> & G)|(e & -> & Fl)]]; cbn [next].
      * pose proof (serves_busy _ _ _ _ _ _ _ B Sv) as [_ ->]. split; auto. left.
        destruct (stays d (Notified (mk_handler mem hi (Erase s))) _ _ _ _ (busy_no_good _ _ B) Sv) as [X|X]; [auto|discriminate X].
      * apply delete_serves in Sv as [-> ->]; auto. rewrite Sl in *. split; auto. right. exists (dec_value hi), s. cbn. split; auto. split; [intros x []|]. auto 8.
      * pose proof (serves_failing _ _ _ _ _ _ Fl Sv) as [_ ->]. split; auto. left. destruct Fl as [_ Fl]. apply (falls _ _ _ _ _ _ _ Fl Sv); auto.
  - destruct F as (Fm & Fs & Fp). destruct c as [cm ch cs cp]. cbn [c_memory c_handing c_statuses c_spot] in *. remember (Some (text, r)) as lab eqn:L.
    destruct H as [a sts|m a sts r0 command E|a sts|a st sts E|a st sts r0 command order E Po|a sts ms ls i rest r0 command|a sts ms ls|a sts ms r0 command|a sts ms E|a sts s ms E|a st sts E];
      try discriminate L; injection L as <- ->; try subst command; cbn [fine_spot] in *.
    + assert (Em : m = mem) by (destruct Fm; congruence). subst m.
      destruct (attempt_cases (lit "AT+CPMS=""" ++ mem ++ lit """") r) as [(code & B & ->)|[(l & -> & -> & G)|(e & -> & Fl)]]; cbn [next_spot].
      * pose proof (serves_busy _ _ _ _ _ _ _ B Sv) as [_ ->]. split; auto. split; auto. left.
        destruct (stays d (Collecting (mk_collector cm ch sts CSelect)) _ _ _ _ (busy_no_good _ _ B) Sv) as [X|X]; [auto|discriminate X].
      * apply select_serves in Sv as [-> ->]; auto. split; auto. split; auto. left. split; [apply touched_refl|]. split; auto. cbn. split; [auto|left; intros x []].
      * pose proof (serves_failing _ _ _ _ _ _ Fl Sv) as [_ ->]. split; auto. split; auto. left. destruct Fl as [_ Fl]. apply (falls _ _ _ _ _ _ _ Fl Sv); auto.
    + inversion Fs as [|? ? [S0 S4] Fs']. subst.
      destruct (attempt_cases command r) as [(code & B & ->)|[(l & -> & -> & G)|(e & -> & Fl)]]; cbn [next_spot].
      * pose proof (serves_busy _ _ _ _ _ _ _ B Sv) as [_ ->]. split; auto. split; auto. left.
        destruct (stays d (Collecting (mk_collector cm ch (st :: sts) CList)) _ _ _ _ (busy_no_good _ _ B) Sv) as [X|X]; [auto|discriminate X].
      * apply (list_serves _ _ st) in Sv as (-> & es & c' & De & Nd & I & T & ->); auto. rewrite (describes_lines _ _ _ De Nd). cbn [fst snd].
        destruct (Z.eqb_spec st 4) as [|_]; [tauto|]. cbn [fine_spot sel]. pose proof (Po (map fst es)) as Pe. split; [split; auto; split; auto|].
        { split; [rewrite !map_length; auto|]. split; auto. split; [eapply Permutation_NoDup; eauto|]. split; [intros x X; eapply Permutation_in; [apply Permutation_sym|]; eauto|].
          eapply Permutation_Forall; [exact Pe|]. apply describes_nonneg in De. apply Forall_forall. intros x X. apply in_map_iff in X as (e & <- & X). rewrite Forall_forall in De. auto. }
        split; auto. left. split; auto. split; auto. cbn [failed holds claims c_spot app]. rewrite combine_split.
        assert (M : forall e, In e es -> member (order (map fst es)) e = true).
        { intros e X. apply member_in. eapply Permutation_in; [exact Pe|]. apply in_map. auto. }
        split.
        -- assert (X : filter (fun e => negb (member (order (map fst es)) e)) es = []); [|rewrite X; auto].
           destruct (filter _ es) as [|e l0] eqn:X; auto. assert (J : In e (filter (fun e => negb (member (order (map fst es)) e)) es)) by (rewrite X; left; auto).
           apply filter_In in J as [J1 J2]. rewrite M in J2 by auto. discriminate.
        -- right. split; auto. intros e J. apply filter_In in J as [J _]. destruct e as [j s]. apply I in J as (content & C & R & _). rewrite Sl in C. cbn [fst snd]. eauto.
      * pose proof (serves_failing _ _ _ _ _ _ Fl Sv) as [_ ->]. split; auto. split; auto. left. destruct Fl as [_ Fl]. apply (falls _ _ _ _ _ _ _ Fl Sv); auto.
    + destruct Fp as (Le & N1 & N2 & In1 & Nn). inversion Nn as [|? ? Ni Nn']. inversion N2 as [|? ? Nr N2']. subst. destruct (erase_text _ Ni) as [Di Dv].
      destruct (attempt_cases (lit "AT+CMGD=" ++ str_of_Z i ++ lit ",0") r) as [(code & B & ->)|[(l & -> & -> & G)|(e & -> & Fl)]]; cbn [next_spot].
      * pose proof (serves_busy _ _ _ _ _ _ _ B Sv) as [_ ->]. split; [split; auto; split; auto; cbn; auto 8|]. split; auto. left.
        destruct (stays d (Collecting (mk_collector cm ch sts (CErase ms ls (i :: rest)))) _ _ _ _ (busy_no_good _ _ B) Sv) as [X|X]; [auto|discriminate X].
      * apply delete_serves in Sv as [-> ->]; auto. rewrite Dv. cbn [fine_spot sel stored]. split; [split; auto; split; auto; repeat split; auto; intros x X; apply In1; right; auto|].
        split; auto. right. unfold taking. cbn [claims c_spot failed holds stored].
        assert (Ii : In i (map fst (combine ls ms))) by (rewrite combine_fst by auto; apply In1; left; auto). apply in_map_iff in Ii as ([i' s] & E' & Ii). cbn in E'. subst i'.
        exists i, s. split; [apply filter_In; split; auto; apply member_in; left; auto|]. split.
        { intros e X. apply filter_In in X as [X1 X2]. apply filter_In. split; auto. apply member_in. apply member_in in X2. right. auto. }
        split; [intro X; apply in_map_iff in X as ([j x] & E' & X); cbn in E'; subst j; apply filter_In in X as [_ X]; apply member_in in X; cbn in X; tauto|].
        split; auto. split; auto. split; [apply take_one; auto; rewrite combine_fst; auto|]. rewrite Sl. auto.
      * pose proof (serves_failing _ _ _ _ _ _ Fl Sv) as [_ ->]. split; [cbn; auto|]. split; auto. left. destruct Fl as [_ Fl]. apply (falls _ _ _ _ _ _ _ Fl Sv); auto.
    + contradiction.
Qed.

(** ** The whole *)
Lemma claim_touched c c' e : touched mode c c' -> claim_ok c e -> claim_ok c' e.
Proof.
  intros T [[S N]|(content & C & Sa)]; [left; split; auto; apply (touched_none _ _ _ _ _ T); auto|]. right.
  destruct (touched_some _ _ _ _ _ _ T C) as (content' & C' & M). exists content'. split; auto. apply (marks_says _ _ _ _ M); auto.
Qed.
Lemma says_of content s : reads_as mode content s -> says mode content s.
Proof. intro R. exists s. split; auto. apply same_refl. Qed.
Lemma known_more a obs x : known obs x -> known (obs ++ a) x.
Proof. intros [K|K]; [left; auto|right]. unfold came. rewrite flat_map_app. apply in_app_iff. auto. Qed.
Lemma known_sms_more a obs s : known_sms obs s -> known_sms (obs ++ a) s.
Proof. intros (k & K & S). exists k. split; auto. apply known_more. auto. Qed.
Lemma live_known obs (c : cells) e : (forall i content, c mem i = Some content -> exists k, known obs k /\ marks mode k content) ->
  (exists content, c mem (fst e) = Some content /\ reads_as mode content (snd e)) -> known_sms obs (snd e).
Proof.
  intros K (content & C & R). destruct (K _ _ C) as (k & Kk & M). exists k. split; auto. apply (marks_says _ _ _ _ M). apply says_of. auto.
Qed.
Lemma forall_mid {A} (P : A -> Prop) l x r : Forall P (l ++ x :: r) <-> Forall P l /\ P x /\ Forall P r.
Proof.
  rewrite Forall_app. split.
  - intros [F G]. inversion G; auto.
  - intros (F & X & G). split; auto.
Qed.
Lemma flat_mid {A B} (f : A -> list B) l x r : flat_map f (l ++ x :: r) = flat_map f l ++ f x ++ flat_map f r.
Proof. rewrite flat_map_app. auto. Qed.
(** a busy thread is the only one *)
Lemma only_busy before t after : (length (filter busy (before ++ t :: after)) <= 1)%nat -> busy t = true -> forall u, In u (before ++ after) -> claims u = [].
Proof.
  intros L B u I. rewrite filter_mid, B, app_length in L. cbn [length] in L. destruct (claims u) as [|e0 l0] eqn:C; auto. exfalso.
  assert (X : busy u = true) by (unfold busy; rewrite C; auto).
  assert (Y : forall l, In u l -> (1 <= length (filter busy l))%nat).
  { intros l J. destruct (filter busy l) eqn:E; [|cbn; lia]. assert (In u (filter busy l)) by (apply filter_In; auto). rewrite E in H. contradiction. }
  apply in_app_iff in I as [I|I]; apply Y in I; lia.
Qed.
Lemma told_map l : told (map Told l) = l.
Proof. induction l; cbn; f_equal; auto. Qed.
Lemma gone_told l : gone (map Told l) = [].
Proof. induction l; cbn; auto. Qed.
Lemma dropped_told l : dropped (map Told l) = [].
Proof. induction l; cbn; auto. Qed.
Lemma came_told l : came (map Told l) = [].
Proof. induction l; cbn; auto. Qed.
Lemma told_dropped l : told (map Dropped l) = [].
Proof. induction l; cbn; auto. Qed.
Lemma gone_dropped l : gone (map Dropped l) = [].
Proof. induction l; cbn; auto. Qed.
Lemma dropped_map l : dropped (map Dropped l) = l.
Proof. induction l; cbn; f_equal; auto. Qed.
Lemma came_dropped l : came (map Dropped l) = [].
Proof. induction l; cbn; auto. Qed.
Lemma told_gone m (g : list (Z * list str)) : told (map (fun e => Gone m (fst e) (snd e)) g) = [].
Proof. induction g; cbn; auto. Qed.
Lemma gone_map m (g : list (Z * list str)) : gone (map (fun e => Gone m (fst e) (snd e)) g) = map snd g.
Proof. induction g; cbn; f_equal; auto. Qed.
Lemma dropped_gone m (g : list (Z * list str)) : dropped (map (fun e => Gone m (fst e) (snd e)) g) = [].
Proof. induction g; cbn; auto. Qed.
Lemma came_gone m (g : list (Z * list str)) : came (map (fun e => Gone m (fst e) (snd e)) g) = [].
Proof. induction g; cbn; auto. Qed.

Lemma gone_app3 a b c : gone (a ++ b ++ c) = gone a ++ gone b ++ gone c.
Proof. unfold gone. rewrite !flat_map_app. auto. Qed.
Lemma told_app3 a b c : told (a ++ b ++ c) = told a ++ told b ++ told c.
Proof. unfold told. rewrite !flat_map_app. auto. Qed.
Lemma dropped_app3 a b c : dropped (a ++ b ++ c) = dropped a ++ dropped b ++ dropped c.
Proof. unfold dropped. rewrite !flat_map_app. auto. Qed.
Lemma came_app3 a b c : came (a ++ b ++ c) = came a ++ came b ++ came c.
Proof. unfold came. rewrite !flat_map_app. auto. Qed.

(** a step of one thread, in the whole *)
Lemma advance_site obs before t after attr d attr' d' t' g said a :
  sane obs (mk_site attr d (before ++ t :: after)) -> fine_thread t' -> sel d' = mem -> gentle d t g said d' t' \/ taking d t g said d' t' ->
  gone a = map snd g -> told a = said -> dropped a = (if failed t' then holds t else []) -> came a = [] ->
  (strict = true -> (length (filter busy (before ++ t' :: after)) <= 1)%nat) ->
  sane (obs ++ a) (mk_site attr' d' (before ++ t' :: after)).
Proof.
  intros [I1 I2 I3 I4 I5 I6 I7 I8 I9] F Sl H Ag At Ad Ac Bz. cbn [machine threads] in *.
  apply forall_mid in I4 as (F1 & F2 & F3). apply forall_mid in I5 as (C1 & C2 & C3). apply forall_mid in I8 as (H1 & H2 & H3).
  assert (Ks : forall x, known_sms obs x -> known_sms (obs ++ a) x) by (intros; apply known_sms_more; auto).
  assert (To : told (obs ++ a) = told obs ++ said) by (unfold told in *; rewrite flat_map_app; congruence).
  assert (Dr : dropped (obs ++ a) = dropped obs ++ (if failed t' then holds t else [])) by (unfold dropped in *; rewrite flat_map_app; congruence).
  assert (Go : gone (obs ++ a) = gone obs ++ map snd g) by (unfold gone in *; rewrite flat_map_app; congruence).
  (* the cells: nothing new *)
  assert (Cells : forall i content', stored d' mem i = Some content' -> exists content, stored d mem i = Some content /\ marks mode content content').
  { destruct H as [(T & _)|(i & s & _ & _ & _ & _ & _ & _ & E & _)]; intros j content' C'; [eapply touched_back; eauto|].
    rewrite E in C'. unfold put in C'. destruct (same_cell mem j mem i); [discriminate|]. exists content'. split; auto. apply marks_refl. }
  assert (Kn : forall x, In x (holds t ++ map snd (claims t)) -> known_sms obs x) by (rewrite <- Forall_forall; auto).
  (* messages in the hands of this thread *)
  assert (Hand : forall x, In x (said ++ (if failed t' then holds t else []) ++ holds t') -> known_sms obs x).
  { intros x X. apply Kn. destruct H as [(_ & _ & P & _)|(i & s & In1 & _ & _ & E1 & E2 & P & _)].
    - apply in_app_iff. left. eapply Permutation_in; eauto.
    - rewrite E1, E2 in X. cbn [app] in X. apply (Permutation_in _ P) in X. apply in_app_iff. destruct X as [<-|X]; [right|left; auto]. apply (in_map snd) in In1. auto. }
  assert (Cl : forall x, In x (map snd (claims t')) -> known_sms obs x).
  { intros x X. destruct H as [(_ & _ & _ & [Ci|(_ & Cn)])|(i & s & _ & Ci & _)].
    - apply Kn. apply in_app_iff. right. apply in_map_iff in X as (e & <- & X). apply in_map. auto.
    - apply in_map_iff in X as (e & <- & X). eapply live_known; eauto.
    - apply Kn. apply in_app_iff. right. apply in_map_iff in X as (e & <- & X). apply in_map. auto. }
  split; cbn [machine threads]; auto.
  - intros i content' C'. destruct (Cells _ _ C') as (content & C & M). eapply marks_readable; eauto.
  - intros i content' C'. destruct (Cells _ _ C') as (content & C & M). destruct (I3 _ _ C) as (k & K & M'). exists k. split; [apply known_more; auto|eapply marks_trans; eauto].
  - apply forall_mid. auto.
  - destruct H as [(T & _ & _ & Ci)|(i & s & In1 & Ci & Ni & _ & _ & _ & E & _)].
    + apply forall_mid. split; [|split].
      * eapply Forall_impl; [|exact C1]. intros u. apply Forall_impl. intros e. apply claim_touched. auto.
      * apply Forall_forall. intros e X. destruct Ci as [Ci|(_ & Cn)].
        -- rewrite Forall_forall in C2. eapply claim_touched; eauto.
        -- destruct (Cn _ X) as (content & C & R). eapply claim_touched; eauto. right. exists content. split; auto. apply says_of. auto.
      * eapply Forall_impl; [|exact C3]. intros u. apply Forall_impl. intros e. apply claim_touched. auto.
    + assert (Other : forall e, fst e <> i -> claim_ok (stored d) e -> claim_ok (stored d') e).
      { intros e Ne. rewrite E. unfold claim_ok. rewrite put_index; auto. }
      assert (Rest : forall u, In u (before ++ after) -> Forall (claim_ok (stored d)) (claims u) -> Forall (claim_ok (stored d')) (claims u)).
      { intros u Iu Fu. destruct strict eqn:St.
        - rewrite (only_busy before t after); auto. unfold busy. destruct (claims t); [contradiction|auto].
        - rewrite Forall_forall in *. intros e Ie. destruct (Z.eq_dec (fst e) i) as [Ee|Ne]; [|apply Other; auto]. left. split; auto. rewrite E, Ee, put_here. auto. }
      apply forall_mid. split; [|split].
      * rewrite Forall_forall in C1 |- *. intros u Iu. apply Rest; [apply in_app_iff; auto|apply C1; auto].
      * rewrite Forall_forall in C2 |- *. intros e Ie. apply Other; [|apply C2; auto]. intros <-. apply Ni. apply in_map. auto.
      * rewrite Forall_forall in C3 |- *. intros u Iu. apply Rest; [apply in_app_iff; auto|apply C3; auto].
  - apply Forall_forall. intros x X. rewrite To, Dr in X. rewrite Forall_forall in I7. rewrite !in_app_iff in X. apply Ks.
    destruct X as [[X|X]|[X|X]]; [apply I7; apply in_app_iff; auto|apply Hand; apply in_app_iff; auto|apply I7; apply in_app_iff; auto|apply Hand; rewrite !in_app_iff; auto].
  - apply forall_mid. split; [|split].
    + eapply Forall_impl; [|exact H1]. intros u. apply Forall_impl. auto.
    + apply Forall_forall. intros x X. apply Ks. apply in_app_iff in X as [X|X]; [apply Hand; rewrite !in_app_iff; auto|auto].
    + eapply Forall_impl; [|exact H3]. intros u. apply Forall_impl. auto.
  - destruct I9 as (ss & extra & F2' & P & St). rewrite To, Dr, Go. rewrite flat_mid in *.
    assert (X : exists ss' extra', Forall2 (says mode) (map snd g) ss' /\ (strict = true -> extra' = []) /\
      Permutation (said ++ (if failed t' then holds t else []) ++ holds t') (holds t ++ ss' ++ extra')).
    { destruct H as [(_ & -> & Pm & _)|(i & s & In1 & _ & _ & E1 & E2 & Pm & _ & ->)]; [|rewrite E1, E2].
      - exists [], []. cbn. rewrite app_nil_r. auto.
      - rewrite Forall_forall in C2. destruct (C2 _ In1) as [(Sf & N)|(content & C & Sa)]; cbn [fst snd] in *.
        + rewrite N. exists [], [s]. cbn [map app]. split; auto. split; [congruence|]. rewrite Pm. apply Permutation_cons_append.
        + rewrite C. exists [s], []. cbn [map app]. split; auto. split; auto. rewrite Pm. apply Permutation_cons_append. }
    destruct X as (ss' & extra' & F3' & Se & Px). exists (ss ++ ss'), (extra ++ extra'). split; [apply Forall2_app; auto|]. split.
    + set (dr := if failed t' then holds t else []) in *.
      transitivity ((said ++ dr ++ holds t') ++ (told obs ++ dropped obs ++ flat_map holds before ++ flat_map holds after)).
      { perm. }
      rewrite Px.
      transitivity ((told obs ++ dropped obs ++ flat_map holds before ++ holds t ++ flat_map holds after) ++ ss' ++ extra').
      { perm. }
      rewrite P. perm.
    + intro Sx. rewrite St, Se by auto. auto.
Qed.

Lemma sane_arrive obs attr d ts ds content (nf : bool) : digits ds -> stored d mem (dec_value ds) = None -> readable mode content ->
  (strict = false -> forall t, In t ts -> ~ In (dec_value ds) (map fst (claims t))) ->
  sane obs (mk_site attr d ts) ->
  sane (obs ++ [Came mem (dec_value ds) content]) (mk_site attr (mk_device (sel d) (put (stored d) mem (dec_value ds) (Some content)))
    (ts ++ if nf then [Notified (mk_handler mem ds Compare)] else [])).
Proof.
  intros D N R Free [I1 I2 I3 I4 I5 I6 I7 I8 I9]. cbn [machine threads] in *. set (new := if nf then [Notified (mk_handler mem ds Compare)] else []).
  assert (Ks : forall a x, known_sms obs x -> known_sms (obs ++ a) x) by (intros; apply known_sms_more; auto).
  assert (Nw : flat_map holds new = [] /\ filter busy new = [] /\ Forall fine_thread new /\ (forall t, In t new -> holds t = [] /\ claims t = [])).
  { subst new. destruct nf; cbn; (split; [auto|]; split; [auto|]; split; [repeat constructor; auto; apply D|]); [intros t [<-|[]]|intros t []]. auto. }
  destruct Nw as (Nh & Nb & Nf & Ne).
  split; cbn [machine threads sel stored]; auto.
  - intros i x. unfold put. destruct (same_cell mem i mem (dec_value ds)); [intros [= <-]; auto|apply I2].
  - intros i x. unfold put. destruct (same_cell mem i mem (dec_value ds)).
    + intros [= <-]. exists content. split; [|apply marks_refl]. right. unfold came. rewrite flat_map_app. apply in_app_iff. right. left. auto.
    + intro C. destruct (I3 _ _ C) as (k & K & M). exists k. split; auto. apply known_more. auto.
  - apply Forall_app. auto.
  - apply Forall_app. split.
    + rewrite Forall_forall in I5 |- *. intros t It. specialize (I5 t It). rewrite Forall_forall in I5 |- *. intros e Ie.
      assert (X : fst e <> dec_value ds).
      { intro E. destruct (I5 e Ie) as [(Sf & _)|(x & C & _)]; [|rewrite E in C; congruence]. apply (Free Sf t It). rewrite <- E. apply in_map. auto. }
      specialize (I5 e Ie). unfold claim_ok in *. rewrite put_index; auto.
    + apply Forall_forall. intros t It. destruct (Ne t It) as [_ ->]. constructor.
  - intro S. rewrite filter_app, Nb, app_nil_r. auto.
  - assert (X : told (obs ++ [Came mem (dec_value ds) content]) ++ dropped (obs ++ [Came mem (dec_value ds) content]) = told obs ++ dropped obs).
    { unfold told, dropped. rewrite !flat_map_app. cbn. rewrite !app_nil_r. auto. }
    rewrite X. eapply Forall_impl; [|exact I7]. auto.
  - apply Forall_app. split; [eapply Forall_impl; [|exact I8]; intros t; apply Forall_impl; auto|]. apply Forall_forall. intros t It. destruct (Ne t It) as [-> ->]. constructor.
  - destruct I9 as (ss & extra & F2 & P & St). exists ss, extra. unfold gone, told, dropped in *. rewrite !flat_map_app, Nh. cbn [flat_map app]. rewrite !app_nil_r. auto.
Qed.
Lemma sane_begin obs attr d ts c : c_spot c = CCompare -> (c_memory c = None \/ c_memory c = Some mem) -> Forall (fun st => 0 <= st /\ st <> 4) (c_statuses c) ->
  sane obs (mk_site attr d ts) -> sane (obs ++ [Began c]) (mk_site attr d (ts ++ [Collecting c])).
Proof.
  intros E M S [I1 I2 I3 I4 I5 I6 I7 I8 I9]. cbn [machine threads] in *.
  assert (Nc : claims (Collecting c) = []) by (cbn; rewrite E; auto). assert (Nh : holds (Collecting c) = []) by (cbn; rewrite E; auto).
  split; cbn [machine threads]; auto.
  - intros i x C. destruct (I3 _ _ C) as (k & K & Mk). exists k. split; auto. apply known_more. auto.
  - apply Forall_app. split; auto. constructor; auto. cbn. rewrite E. cbn. auto.
  - apply Forall_app. split; auto. constructor; auto. rewrite Nc. constructor.
  - intro St. rewrite filter_app. cbn [filter]. unfold busy at 2. rewrite Nc, app_nil_r. auto.
  - assert (X : told (obs ++ [Began c]) ++ dropped (obs ++ [Began c]) = told obs ++ dropped obs) by (unfold told, dropped; rewrite !flat_map_app; cbn; rewrite !app_nil_r; auto).
    rewrite X. eapply Forall_impl; [|exact I7]. intros x. apply known_sms_more.
  - apply Forall_app. split; [eapply Forall_impl; [|exact I8]; intros t; apply Forall_impl; intros x; apply known_sms_more|]. constructor; auto. rewrite Nc, Nh. constructor.
  - destruct I9 as (ss & extra & F2 & P & St). exists ss, extra. unfold gone, told, dropped in *. rewrite !flat_map_app. cbn [flat_map]. rewrite Nh. cbn [app]. rewrite !app_nil_r. auto.
Qed.
End Invariant.

Theorem always_sane mode mem (strict : bool) attr d obs s : ~ In 34 mem -> sel d = mem -> (forall i content, stored d mem i = Some content -> readable mode content) ->
  evolves mode (if strict then one_at_a_time else no_reuse) (mk_site attr d []) obs s -> Forall (ordinary mode mem) obs -> sane mode mem strict (stored d) obs s.
Proof.
  intros Q Sl Rd H. induction H as [|obs s1 a s2 H IH St Pr]; intro F.
  - split; cbn [machine threads told dropped gone flat_map app filter length]; auto.
    + intros i content C. exists content. split; [left; eauto|apply marks_refl].
    + exists [], []. auto.
  - apply Forall_app in F as [F Fa]. specialize (IH F). clear H F.
    destruct St as [attr1 d1 ts m ds content nf N Q1 D E|attr1 d1 ts c E N|before t after attr1 d1 said attr' t' T|before t after attr1 d1 text r g d' said attr' t' T Sv].
    + apply Forall_inv in Fa. destruct Fa as [-> R]. apply sane_arrive; auto. intros -> t It. unfold no_reuse in Pr. cbn [threads] in Pr. eapply Pr; eauto. left. eauto.
    + apply Forall_inv in Fa. destruct Fa as [M Ss]. apply sane_begin; auto.
    + pose proof (sn_fine _ _ _ _ _ _ IH) as Fi. cbn [threads] in Fi. apply forall_mid in Fi as (_ & Ft & _).
      destruct (step_quiet mode mem _ _ _ _ _ Ft T) as (Ft' & Fh & G). eapply (advance_site mode mem strict _ obs before t after attr1 d1 attr' d1 t' [] said); eauto.
      * apply (sn_sel _ _ _ _ _ _ IH).
      * apply gone_told.
      * apply told_map.
      * rewrite dropped_told. destruct (failed t'); auto. symmetry. auto.
      * apply came_told.
      * intros ->. exact Pr.
    + pose proof (sn_fine _ _ _ _ _ _ IH) as Fi. cbn [threads] in Fi. apply forall_mid in Fi as (_ & Ft & _).
      destruct (step_write mode mem _ _ _ _ _ _ _ _ _ _ Q Ft (sn_sel _ _ _ _ _ _ IH) (sn_read _ _ _ _ _ _ IH) T Sv) as (Ft' & Sl' & G).
      eapply (advance_site mode mem strict _ obs before t after attr1 d1 attr' d' t' g said); eauto.
      * rewrite gone_app3, gone_map, gone_told. destruct (failed t'); [rewrite gone_dropped|]; cbn; rewrite !app_nil_r; auto.
      * rewrite told_app3, told_gone, told_map. destruct (failed t'); [rewrite told_dropped|]; cbn; rewrite ?app_nil_r; auto.
      * rewrite dropped_app3, dropped_gone, dropped_told. destruct (failed t'); [rewrite dropped_map|]; auto.
      * rewrite came_app3, came_gone, came_told. destruct (failed t'); [rewrite came_dropped|]; auto.
      * intros ->. exact Pr.
Qed.
