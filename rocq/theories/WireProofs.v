(** Proofs about the serial port with a modem at its other end. *)
From Verif Require Import Base SerialModel SerialSpec RegexProofs SerialProofs ModemCore ModemSpec WriteProofs WireSpec.

Lemma merged_snoc_l {A} (a b c : list A) x : merged a b c -> merged (a ++ [x]) b (c ++ [x]).
Proof. induction 1; cbn [List.app]; repeat constructor; auto. Qed.
Lemma merged_snoc_r {A} (a b c : list A) x : merged a b c -> merged a (b ++ [x]) (c ++ [x]).
Proof. induction 1; cbn [List.app]; repeat constructor; auto. Qed.
Lemma merged_right {A} (b : list A) : merged [] b b.
Proof. induction b; constructor; auto. Qed.
Lemma merged_left {A} (b : list A) : merged b [] b.
Proof. induction b; constructor; auto. Qed.
Lemma merged_no_right {A} (a c : list A) : merged a [] c -> c = a.
Proof. intro H. remember [] as b eqn:E. induction H; try discriminate; auto. f_equal. auto. Qed.

(** ** Segments *)
Definition okseg (x : seg) : Prop := match x with Line l => proper_line l | _ => True end.
Lemma inner_ok x : inner x -> okseg x.
Proof. destruct x; cbn; tauto. Qed.
Lemma ending_ok e x : ending e x -> okseg x.
Proof. destruct x; cbn; tauto. Qed.
Lemma answers_ok e xs : answers e xs -> Forall okseg xs.
Proof.
  intros (body & fin & -> & F & E). apply Forall_app. split; [eapply Forall_impl; [apply inner_ok|auto]|].
  constructor; [eapply ending_ok; eauto|constructor].
Qed.
Lemma answers_cons e x xs : answers e (x :: xs) -> (xs = [] /\ ending e x) \/ (answers e xs /\ inner x).
Proof.
  intros (body & fin & E & F & H). destruct body as [|y body].
  - injection E as -> ->. auto.
  - injection E as <- ->. inversion F; subst. right. split; [exists body, fin; auto|auto].
Qed.
Lemma answers_nil e : ~ answers e [].
Proof. intros (body & fin & E & _). destruct body; discriminate. Qed.

Lemma occurs_crlf_snoc l : occurs crlf (l ++ [13]) -> occurs crlf l.
Proof.
  intros (a & b & E). destruct b as [|z b _] using rev_ind.
  - exfalso. change (a ++ crlf ++ []) with (a ++ [13] ++ [10]) in E. rewrite app_assoc in E. apply app_inj_tail in E as [_ E]. discriminate.
  - rewrite !app_assoc in E. apply app_inj_tail in E as [-> _]. exists a, b. rewrite <- !app_assoc. reflexivity.
Qed.
Lemma occurs_prompt_snoc l : occurs prompt (l ++ [13]) -> occurs prompt l.
Proof.
  intros (a & b & E). destruct b as [|z b _] using rev_ind.
  - exfalso. change (a ++ prompt ++ []) with (a ++ [62] ++ [32]) in E. rewrite app_assoc in E. apply app_inj_tail in E as [_ E]. discriminate.
  - rewrite !app_assoc in E. apply app_inj_tail in E as [-> _]. exists a, b. rewrite <- !app_assoc. reflexivity.
Qed.
Lemma line_prefix l b y : l ++ crlf = b ++ y -> y <> [] -> exists z, l ++ [13] = b ++ z.
Proof.
  intros E N. destruct y as [|c y _] using rev_ind; [congruence|]. change crlf with ([13] ++ [10]) in E.
  rewrite !app_assoc in E. apply app_inj_tail in E as [E _]. eauto.
Qed.
Lemma suffix_occurs p b z : suffix_of p b -> occurs p (b ++ z).
Proof. intros [a ->]. exists a, z. rewrite <- app_assoc. reflexivity. Qed.

(** a line is complete exactly at the end of its segment *)
Lemma crlf_at x b y : okseg x -> encode x = b ++ y -> suffix_of crlf b -> y = [] /\ exists l, b = l ++ crlf /\ x = match l with [] => Blank | _ => Line l end.
Proof.
  intros O E S. destruct x as [l| |]; cbn [encode] in E.
  - destruct O as (N & C & _). destruct y as [|c y].
    + split; auto. rewrite app_nil_r in E. exists l. split; [auto|]. destruct l; [congruence|reflexivity].
    + exfalso. destruct (line_prefix _ _ _ E) as [z Ez]; [discriminate|]. apply C, occurs_crlf_snoc. rewrite Ez. apply suffix_occurs; auto.
  - destruct S as [a ->]. rewrite <- app_assoc in E. destruct a as [|? [|? [|? a]]]; change crlf with [13; 10] in E; change prompt with [62; 32] in E; cbn in E; try discriminate.
    injection E as E. split; [auto|]. exists []. split; reflexivity.
  - exfalso. destruct S as [a ->]. rewrite <- app_assoc in E. destruct a as [|? [|? [|? a]]]; change crlf with [13; 10] in E; change prompt with [62; 32] in E; cbn in E; discriminate.
Qed.
Lemma crlf_end x b : encode x = b -> ~ suffix_of crlf b -> x = Prompt.
Proof. intros <- N. destruct x as [l| |]; auto; exfalso; apply N; cbn [encode]; [exists l|exists []]; auto. Qed.
(** so is the prompt *)
Lemma prompt_at x b y : okseg x -> encode x = b ++ y -> (y = [] -> x = Prompt) -> suffix_of prompt b -> x = Prompt /\ y = [] /\ b = prompt.
Proof.
  intros O E C S. destruct x as [l| |]; cbn [encode] in E.
  - exfalso. destruct y as [|c y]; [discriminate (C eq_refl)|]. destruct O as (_ & _ & P).
    destruct (line_prefix _ _ _ E) as [z Ez]; [discriminate|]. apply P, occurs_prompt_snoc. rewrite Ez. apply suffix_occurs; auto.
  - exfalso. destruct S as [a ->]. rewrite <- app_assoc in E. destruct a as [|? [|? [|? a]]]; change crlf with [13; 10] in E; change prompt with [62; 32] in E; cbn in E; discriminate.
  - split; auto. destruct S as [a ->]. rewrite <- app_assoc in E. destruct a as [|? [|? [|? a]]]; change crlf with [13; 10] in E; change prompt with [62; 32] in E; cbn in E; try discriminate.
    injection E as <-. auto.
Qed.

(** ** The invariant *)
Definition pc (s : sstate) : wpc := match lock s with Some i => writer s i | None => WIdle end.
Definition okop (op : wop) : Prop := w_expected op = None \/ w_expected op = Some prompt.
Definition isopen (s : sstate) : Prop := exists e, evt s = Some e /\ is_set s e = false.
Definition resp_lines (s : sstate) : list str := match resp s with Some r => heap s r | None => [] end.

Inductive ph := Quiet | Opened | Out | Answered.
Definition phase (s : sstate) : ph :=
  match pc s with
  | WSend _ => Opened
  | WLoad | WWait _ => match evt s with Some e => if is_set s e then Answered else Out | None => Quiet end
  | WClrEvt _ | WClrExp _ | WRet _ => Answered
  | _ => Quiet
  end.
(** [x]: the prompt that the command waiting expects *)
Definition control (x : option str) (s : sstate) : Prop :=
  (forall j, lock s <> Some j -> writer s j = WIdle) /\ (expect s = None \/ expect s = Some prompt) /\
  match pc s with
  | WIdle | WRel | WSendNW _ => evt s = None /\ expect s = None
  | WCheck op => evt s = None /\ expect s = None /\ okop op
  | WSetResp op => evt s = None /\ expect s = w_expected op /\ okop op
  | WSetEvt op => evt s = None /\ expect s = w_expected op /\ exists r, resp s = Some r /\ heap s r = []
  | WSend op => isopen s /\ expect s = w_expected op /\ exists r, resp s = Some r
  | WLoad => exists e, evt s = Some e /\ (is_set s e = false -> expect s = x) /\ exists r, resp s = Some r
  | WWait e => evt s = Some e /\ (is_set s e = false -> expect s = x) /\ exists r, resp s = Some r
  | WClrEvt ok => ok = true /\ (exists e, evt s = Some e /\ is_set s e = true) /\ exists r, resp s = Some r
  | WClrExp ok => ok = true /\ evt s = None /\ exists r, resp s = Some r
  | WRet ok => ok = true /\ evt s = None /\ expect s = None /\ exists r, resp s = Some r
  | WFail => False
  end.

Definition cat (pend : list (bool * seg)) : str := flat_map (fun p : bool * seg => encode (snd p)) pend.
Definition ans (pend : list (bool * seg)) : list seg := flat_map (fun p : bool * seg => if fst p then [snd p] else []) pend.
Definition uns (pend : list (bool * seg)) : list seg := flat_map (fun p : bool * seg => if fst p then [] else [snd p]) pend.
Definition seg_of (line : str) (chk : bool) : seg := if chk then Line line else Prompt.
Definition carried (r : rpc) : option (str * bool) :=
  match r with
  | RHave l c | RIsSet l c | RResp l c | RApp l c _ => Some (l, c)
  | RNote l => Some (l, true)
  | RDead _ (Some l) => Some (l, true)
  | _ => None
  end.
Definition fl_ans (ft : bool) (r : rpc) : list seg :=
  if ft then match carried r with Some (l, c) => [seg_of l c] | None => [] end else [].
Definition fl_uns (ft : bool) (r : rpc) : list str :=
  if ft then [] else match carried r with Some (l, _) => [l] | None => [] end.

Definition framed (buf q : str) (pend : list (bool * seg)) : Prop :=
  buf ++ q = cat pend /\ (buf = [] \/ exists t x y rest, pend = (t, x) :: rest /\ encode x = buf ++ y /\ y <> []).
Definition scanned (buf q : str) (pend : list (bool * seg)) : Prop :=
  buf ++ q = cat pend /\ buf <> [] /\ exists t x y rest, pend = (t, x) :: rest /\ encode x = buf ++ y /\ (y = [] -> x = Prompt).
Definition line_ok (ft : bool) (line : str) (chk : bool) : Prop :=
  (chk = false -> line = prompt) /\ (ft = false -> inner (seg_of line chk)).
Definition reader_ok (s : sstate) (q : str) (pend : list (bool * seg)) (ft : bool) : Prop :=
  match reader s with
  | RIdle b => framed b q pend
  | RExp1 b | RExp2 b => scanned b q pend
  | RExp3 b n => scanned b q pend /\ n = length prompt
  | RHave l c | RIsSet l c => q = cat pend /\ line_ok ft l c
  | RResp l c => q = cat pend /\ line_ok ft l c /\ isopen s
  | RApp l c r => q = cat pend /\ line_ok ft l c /\ isopen s /\ resp s = Some r
  | RTerm l c => q = cat pend /\ line_ok ft l c /\ isopen s /\ (ft = true -> phase s = Out)
  | RSet l c => q = cat pend /\ phase s = Out /\ ft = true
  | RNote l => q = cat pend /\ ft = false
  | RNote2 => q = cat pend
  | RDead _ _ => True
  end.
Definition ends_it (c : bool) (l : str) : Prop := c = false \/ final_line l.
Definition rem_ok (s : sstate) (ft : bool) (x : option str) (rem : list seg) : Prop :=
  match reader s with
  | RTerm l c => if ft then (rem = [] /\ ends_it c l) \/ (answers x rem /\ ~ ends_it c l) else answers x rem
  | RSet _ _ => rem = []
  | _ => answers x rem
  end.
Definition story (w : wired) (x : option str) (ft : bool) (rem : list seg) (unasked notes : list str) : Prop :=
  match phase (port w) with
  | Quiet => rem = [] /\ served (commands w) (responses w) unasked /\ notes = []
  | Opened => rem = [] /\ served (commands w) (responses w) unasked /\ notes = resp_lines (port w)
  | Out => exists cs i d a done, commands w = cs ++ [(i, d, a)] /\ lock (port w) = Some i /\ served cs (responses w) unasked /\
      texts a = done ++ texts rem /\ merged done notes (resp_lines (port w)) /\ rem_ok (port w) ft x rem
  | Answered => exists cs i d a, commands w = cs ++ [(i, d, a)] /\ lock (port w) = Some i /\ served cs (responses w) unasked /\
      rem = [] /\ merged (texts a) notes (resp_lines (port w))
  end.
Definition inv_at (w : wired) (x : option str) (pend : list (bool * seg)) (ft : bool) (unasked notes seen : list str) : Prop :=
  control x (port w) /\ reader_ok (port w) (queue w) pend ft /\
  Forall (fun p => okseg (snd p)) pend /\ Forall okseg (owed w) /\ Forall (fun p => fst p = false -> inner (snd p)) pend /\
  story w x ft (fl_ans ft (reader (port w)) ++ ans pend ++ owed w) unasked notes /\
  texts (announced w) = seen ++ fl_uns ft (reader (port w)) ++ texts (uns pend) /\ (merged (unasked ++ notes) (notified w) seen /\ exists gone, announced w = gone ++ uns pend).
Definition inv (w : wired) : Prop := exists x pend ft unasked notes seen, inv_at w x pend ft unasked notes seen.

Lemma cat_app a b : cat (a ++ b) = cat a ++ cat b.
Proof. apply flat_map_app. Qed.
Lemma ans_app a b : ans (a ++ b) = ans a ++ ans b.
Proof. apply flat_map_app. Qed.
Lemma uns_app a b : uns (a ++ b) = uns a ++ uns b.
Proof. apply flat_map_app. Qed.
Lemma texts_app a b : texts (a ++ b) = texts a ++ texts b.
Proof. apply flat_map_app. Qed.

Lemma phase_open x s : control x s -> isopen s -> (phase s = Opened \/ phase s = Out) /\ exists r, resp s = Some r.
Proof.
  intros (_ & _ & C) (e & E & U). unfold phase. destruct (pc s); try tauto;
    try (destruct C as (C & _); congruence).
  - rewrite E, U. destruct C as (? & ? & ? & C). auto.
  - rewrite E, U. destruct C as (? & ? & C). auto.
  - exfalso. destruct C as (_ & (e' & E' & U') & _). congruence.
  - exfalso. destruct C as (_ & C & _). congruence.
  - exfalso. destruct C as (_ & C & _). congruence.
Qed.
Lemma out_open x s : control x s -> phase s = Out -> isopen s /\ expect s = x.
Proof.
  intros (_ & _ & C) P. unfold phase in P. destruct (pc s); try discriminate.
  - destruct C as (e & E & X & _). rewrite E in P. destruct (is_set s e) eqn:U; [discriminate|]. split; [exists e; auto|auto].
  - destruct C as (E & X & _). rewrite E in P. destruct (is_set s e) eqn:U; [discriminate|]. split; [exists e; auto|auto].
Qed.
Lemma story_rem w x ft rem u n : story w x ft rem u n -> rem <> [] -> phase (port w) = Out.
Proof. unfold story. destruct (phase (port w)); auto; [tauto|tauto|]. intros (? & ? & ? & ? & _ & _ & _ & E & _). congruence. Qed.
Lemma story_reader w w' x ft ft' rem rem' u n : story w x ft rem u n -> commands w' = commands w -> responses w' = responses w ->
  phase (port w') = phase (port w) -> lock (port w') = lock (port w) -> resp_lines (port w') = resp_lines (port w) -> rem' = rem ->
  (phase (port w) = Out -> rem_ok (port w) ft x rem -> rem_ok (port w') ft' x rem) -> story w' x ft' rem' u n.
Proof.
  intros S E1 E2 E3 E4 E5 -> H. unfold story in *. rewrite E1, E2, E3, E4, E5. destruct (phase (port w)); auto.
  destruct S as (cs & i & d & a & done & S1 & S2 & S3 & S4 & S5 & S6). exists cs, i, d, a, done. auto 10.
Qed.

(** the modem sends something *)
Lemma step_announce w x : inv w -> inner x ->
  inv (mk_wired (port w) (queue w ++ encode x) (owed w) (commands w) (responses w) (announced w ++ [x]) (notified w)).
Proof.
  intros (e & pend & ft & u & n & seen & C & R & K1 & K2 & K3 & S & A & G) I.
  exists e, (pend ++ [(false, x)]), ft, u, n, seen. split; [exact C|].
  split; [|split; [apply Forall_app; split; auto; constructor; [apply inner_ok; auto|constructor]|split; [auto|
    split; [apply Forall_app; split; auto; constructor; auto|]]]].
  - assert (CA : cat (pend ++ [(false, x)]) = cat pend ++ encode x) by (rewrite cat_app; cbn; rewrite app_nil_r; reflexivity).
    unfold reader_ok in *. cbn [port queue]. destruct (reader (port w)); try solve [constructor | rewrite CA; intuition congruence].
    + destruct R as [R1 R2]. split; [rewrite CA, <- R1, app_assoc; reflexivity|]. destruct R2 as [->|(t & y & z & rest & -> & R2)]; [auto|].
      right. exists t, y, z, (rest ++ [(false, x)]). auto.
    + destruct R as (R1 & R2 & t & y & z & rest & -> & R3). split; [rewrite CA, <- R1, app_assoc; reflexivity|]. split; [auto|].
      exists t, y, z, (rest ++ [(false, x)]). auto.
    + destruct R as (R1 & R2 & t & y & z & rest & -> & R3). split; [rewrite CA, <- R1, app_assoc; reflexivity|]. split; [auto|].
      exists t, y, z, (rest ++ [(false, x)]). auto.
    + destruct R as ((R1 & R2 & t & y & z & rest & -> & R3) & R4). split; [|auto]. split; [rewrite CA, <- R1, app_assoc; reflexivity|]. split; [auto|].
      exists t, y, z, (rest ++ [(false, x)]). auto.
  - split; [|split; [|destruct G as [G [gone EG]]; split; [exact G|exists gone; cbn [announced]; rewrite EG, uns_app, app_assoc; reflexivity]]].
    + cbn [port owed commands responses]. rewrite ans_app. cbn [ans flat_map List.app fst]. rewrite app_nil_r. exact S.
    + cbn [port announced]. rewrite texts_app, A, uns_app, texts_app, <- !app_assoc. reflexivity.
Qed.
Lemma step_answer w x rest : inv w -> owed w = x :: rest ->
  inv (mk_wired (port w) (queue w ++ encode x) rest (commands w) (responses w) (announced w) (notified w)).
Proof.
  intros (e & pend & ft & u & n & seen & C & R & K1 & K2 & K3 & S & A & G) E. rewrite E in K2, S. inversion K2 as [|? ? O1 O2]; subst.
  exists e, (pend ++ [(true, x)]), ft, u, n, seen. split; [exact C|].
  split; [|split; [apply Forall_app; split; auto|split; [auto|
    split; [apply Forall_app; split; auto; constructor; [discriminate|constructor]|]]]].
  - assert (CA : cat (pend ++ [(true, x)]) = cat pend ++ encode x) by (rewrite cat_app; cbn; rewrite app_nil_r; reflexivity).
    unfold reader_ok in *. cbn [port queue]. destruct (reader (port w)); try solve [constructor | rewrite CA; intuition congruence].
    + destruct R as [R1 R2]. split; [rewrite CA, <- R1, app_assoc; reflexivity|]. destruct R2 as [->|(t & y & z & rs & -> & R2)]; [auto|].
      right. exists t, y, z, (rs ++ [(true, x)]). auto.
    + destruct R as (R1 & R2 & t & y & z & rs & -> & R3). split; [rewrite CA, <- R1, app_assoc; reflexivity|]. split; [auto|].
      exists t, y, z, (rs ++ [(true, x)]). auto.
    + destruct R as (R1 & R2 & t & y & z & rs & -> & R3). split; [rewrite CA, <- R1, app_assoc; reflexivity|]. split; [auto|].
      exists t, y, z, (rs ++ [(true, x)]). auto.
    + destruct R as ((R1 & R2 & t & y & z & rs & -> & R3) & R4). split; [|auto]. split; [rewrite CA, <- R1, app_assoc; reflexivity|]. split; [auto|].
      exists t, y, z, (rs ++ [(true, x)]). auto.
  - split; [|split; [|destruct G as [G [gone EG]]; split; [exact G|exists gone; cbn [announced]; rewrite EG, uns_app; cbn; rewrite app_nil_r; reflexivity]]].
    + cbn [port owed commands responses]. rewrite ans_app. cbn [ans flat_map List.app fst snd]. rewrite <- app_assoc. exact S.
    + cbn [port announced]. rewrite A, uns_app, texts_app. cbn. rewrite app_nil_r. reflexivity.
Qed.

Lemma fl_ans_none ft r : carried r = None -> fl_ans ft r = [].
Proof. unfold fl_ans. intros ->. destruct ft; reflexivity. Qed.
Lemma fl_uns_none ft r : carried r = None -> fl_uns ft r = [].
Proof. unfold fl_uns. intros ->. destruct ft; reflexivity. Qed.
Lemma encode_some x : encode x <> [].
Proof. destruct x as [l| |]; cbn; [destruct l|..]; discriminate. Qed.
Lemma framed_char buf c q pend : framed buf (c :: q) pend ->
  exists t x y rest, pend = (t, x) :: rest /\ encode x = buf ++ c :: y /\ q = y ++ cat rest.
Proof.
  intros [E [->|(t & x & y & rest & -> & F & N)]].
  - destruct pend as [|[t x] rest]; [discriminate|]. cbn [cat flat_map snd List.app] in E. destruct (encode x) as [|c' y] eqn:F.
    + destruct (encode_some _ F).
    + cbn in E. injection E as <- ->. exists t, x, y, rest. auto.
  - cbn [cat flat_map snd] in E. rewrite F, <- app_assoc in E. apply app_inv_head in E. destruct y as [|c' y]; [congruence|].
    cbn in E. injection E as <- ->. exists t, x, y, rest. auto.
Qed.

Lemma step_char w buf c q e s l : inv w -> reader (port w) = RIdle buf -> queue w = c :: q ->
  read_step (port w) (mk_rin (Some c) e) = Some (s, l) -> inv (note w s q l).
Proof.
  intros (x & pend & ft & u & n & seen & C & R & K1 & K2 & K3 & S & A & G) ER EQ H.
  unfold reader_ok in R. rewrite ER, EQ in R. unfold read_step in H. rewrite ER in H. cbn [in_char] in H. cbv zeta in H.
  destruct (framed_char _ _ _ _ R) as (t & y & z & rest & -> & F & ->).
  inversion K1 as [|? ? O1 O2]; subst. inversion K3 as [|? ? I1 I2]; subst. cbn [fst snd] in *.
  replace (buf ++ c :: z) with ((buf ++ [c]) ++ z) in F by (rewrite <- app_assoc; reflexivity).
  rewrite ER in S, A. rewrite (fl_ans_none ft (RIdle buf) eq_refl) in S. rewrite (fl_uns_none ft (RIdle buf) eq_refl) in A. cbn [List.app] in S, A.
  destruct (ends_with (buf ++ [c]) RX_EOL_SEQ) eqn:EW.
  - apply ends_with_spec in EW. change RX_EOL_SEQ with crlf in *. destruct (crlf_at _ _ _ O1 F EW) as (-> & b & Eb & Ey).
    rewrite Eb in H. rewrite app_length in H. replace (length b + length crlf - length crlf)%nat with (length b) in H by lia.
    rewrite (proj1 (firstn_app_all b crlf)) in H. destruct b as [|b0 b].
    + injection H as <- <-. subst y. exists x, rest, ft, u, n, seen. cbn [port note owed commands responses announced notified queue].
      split; [exact C|]. split; [split; [reflexivity|auto]|]. split; [auto|]. split; [auto|]. split; [auto|].
      split; [|split; [|destruct G as [G [gone EG]]; split; [exact G|]; cbn [note announced]; rewrite EG; destruct t; [exists gone; reflexivity|eexists (gone ++ [_]); rewrite <- app_assoc; reflexivity]]].
      * cbn [note port owed announced set_reader reader]. rewrite (fl_ans_none ft (RIdle []) eq_refl). cbn [List.app].
        destruct t; cbn [ans flat_map fst snd List.app] in S.
        -- assert (P : phase (port w) = Out) by (eapply story_rem; [exact S|discriminate]). unfold story in *. cbn [port note commands responses].
           change (phase (set_reader (port w) (RIdle []))) with (phase (port w)). rewrite P in *.
           destruct S as (cs & i & d & a & done & S1 & S2 & S3 & S4 & S5 & S6). exists cs, i, d, a, done.
           split; [auto|]. split; [auto|]. split; [auto|]. split; [exact S4|]. split; [exact S5|].
           unfold rem_ok in *. rewrite ER in S6. cbn [note port owed announced set_reader reader]. destruct (answers_cons _ _ _ S6) as [[_ []]|[S7 _]]. exact S7.
        -- eapply story_reader; [exact S|reflexivity..|]. intros _ S6. unfold rem_ok in *. rewrite ER in S6. exact S6.
      * cbn [note port owed announced set_reader reader]; rewrite A. rewrite (fl_uns_none ft (RIdle []) eq_refl).
        destruct t; reflexivity.
    + injection H as <- <-. subst y. exists x, rest, t, u, n, seen. cbn [port note owed commands responses announced notified queue].
      split; [exact C|]. split; [split; [reflexivity|]; split; [discriminate|exact I1]|]. split; [auto|]. split; [auto|]. split; [auto|].
      split; [|split; [|destruct G as [G [gone EG]]; split; [exact G|]; cbn [note announced]; rewrite EG; destruct t; [exists gone; reflexivity|eexists (gone ++ [_]); rewrite <- app_assoc; reflexivity]]].
      * eapply story_reader; [exact S|reflexivity..|cbn [note port owed set_reader reader]; destruct t; reflexivity|].
        intros _ S6. unfold rem_ok in *. rewrite ER in S6. exact S6.
      * cbn [note port owed announced set_reader reader]; rewrite A. destruct t; reflexivity.
  - apply ends_with_false in EW. change RX_EOL_SEQ with crlf in EW. injection H as <- <-.
    exists x, ((t, y) :: rest), ft, u, n, seen. cbn [port note owed commands responses announced notified queue].
    split; [exact C|]. split; [|split; [auto|split; [auto|split; [auto|split; [|split; [|exact G]]]]]].
    + unfold reader_ok. cbn [note port owed announced set_reader reader]. split; [|split].
      * cbn [cat flat_map snd]. rewrite F, <- !app_assoc. reflexivity.
      * destruct buf; discriminate.
      * exists t, y, z, rest. split; [auto|]. split; [auto|]. intros ->. rewrite app_nil_r in F. eapply crlf_end; eauto.
    + eapply story_reader; [exact S|reflexivity..|cbn [note port owed set_reader reader]; destruct ft; reflexivity|].
      intros _ S6. unfold rem_ok in *. rewrite ER in S6. exact S6.
    + cbn [note port owed announced set_reader reader]; rewrite A. destruct ft; reflexivity.
Qed.

Ltac frame := split; [assumption|split; [assumption|split; [assumption|]]].
Ltac tidy := cbn [note port owed announced notified commands responses queue set_reader reader] in *.
(** the reader moves on without taking or giving anything *)
Lemma move w r x pend ft u n seen l : inv_at w x pend ft u n seen ->
  (forall i ls, l <> LReturn i ls) -> (forall y, l <> LNotify y) -> carried r = carried (reader (port w)) ->
  reader_ok (set_reader (port w) r) (queue w) pend ft ->
  (phase (port w) = Out -> rem_ok (port w) ft x (fl_ans ft (reader (port w)) ++ ans pend ++ owed w) ->
   rem_ok (set_reader (port w) r) ft x (fl_ans ft (reader (port w)) ++ ans pend ++ owed w)) ->
  inv (note w (set_reader (port w) r) (queue w) l).
Proof.
  intros (C & R & K1 & K2 & K3 & S & A & G) L1 L2 EC R' H. exists x, pend, ft, u, n, seen.
  split; [exact C|]. split; [exact R'|]. frame. split; [|split].
  - eapply story_reader; [exact S|reflexivity| |reflexivity..| |exact H].
    + destruct l; try reflexivity. exfalso. eapply L1. reflexivity.
    + tidy. unfold fl_ans. rewrite EC. reflexivity.
  - tidy. rewrite A. unfold fl_uns. rewrite EC. reflexivity.
  - tidy. destruct l; try exact G. exfalso. eapply L2. reflexivity.
Qed.

Lemma prompt_waits w x pend ft u n seen buf y rest t : inv_at w x pend ft u n seen -> pend = (t, y) :: rest -> y = Prompt ->
  carried (reader (port w)) = None -> (forall l c, reader (port w) <> RTerm l c) -> (forall l c, reader (port w) <> RSet l c) ->
  reader (port w) = buf -> expect (port w) = Some prompt.
Proof.
  intros (C & R & K1 & K2 & K3 & S & A & G) -> -> EC N1 N2 _. inversion K3 as [|? ? I1 _]; subst. cbn [fst snd] in I1.
  destruct t; [|destruct (I1 eq_refl)]. rewrite (fl_ans_none _ _ EC) in S. cbn [ans flat_map fst snd List.app] in S.
  assert (P : phase (port w) = Out) by (eapply story_rem; [exact S|discriminate]).
  unfold story in S. rewrite P in S. destruct S as (cs & i & d & a & done & _ & _ & _ & _ & _ & S).
  assert (answers x (Prompt :: ans rest ++ owed w)) as S'.
  { unfold rem_ok in S. destruct (reader (port w)) eqn:ER; try exact S; exfalso; [eapply N1|eapply N2]; reflexivity. }
  destruct (out_open _ _ C P) as [_ ->]. destruct (answers_cons _ _ _ S') as [[_ E]|[_ []]]. exact E.
Qed.

Lemma step_handle w e s l : inv w -> (forall buf, reader (port w) <> RIdle buf) ->
  read_step (port w) (mk_rin None e) = Some (s, l) -> inv (note w s (queue w) l).
Proof.
  intros (x & pend & ft & u & n & seen & V) NI H. pose proof V as (C & R & K1 & K2 & K3 & S & A & G).
  pose proof C as (_ & CE & _). unfold read_step in H.
  destruct (reader (port w)) as [b|b|b|b k|ln c|ln c|ln c|ln c r|ln c|ln c|ln| |ex lost] eqn:ER.
  - destruct (NI _ eq_refl).
  - (* RExp1 *) unfold reader_ok in R. rewrite ER in R. destruct R as (R1 & R2 & t & y & z & rest & EP & F & Z).
    destruct (expect (port w)) as [ex|] eqn:EX; injection H as <- <-.
    + eapply move; [exact V|discriminate..|rewrite ER; reflexivity| |].
      * unfold reader_ok. tidy. split; [auto|]. split; [auto|]. exists t, y, z, rest. auto.
      * unfold rem_ok. rewrite ER. tidy. auto.
    + eapply move; [exact V|discriminate..|rewrite ER; reflexivity| |].
      * unfold reader_ok. tidy. split; [auto|]. right. exists t, y, z, rest. split; [auto|]. split; [auto|]. intro Z0.
        assert (expect (port w) = Some prompt); [|congruence].
        eapply prompt_waits; [exact V|exact EP|auto|rewrite ER; auto|rewrite ER; discriminate..|exact ER].
      * unfold rem_ok. rewrite ER. tidy. auto.
  - (* RExp2 *) unfold reader_ok in R. rewrite ER in R. destruct (expect (port w)) as [ex|] eqn:EX; injection H as <- <-.
    + eapply move; [exact V|discriminate..|rewrite ER; reflexivity| |].
      * unfold reader_ok. tidy. split; [auto|]. destruct CE as [|[= ->]]; [discriminate|reflexivity].
      * unfold rem_ok. rewrite ER. tidy. auto.
    + eapply move; [exact V|discriminate..|rewrite ER; reflexivity|exact I|].
      unfold rem_ok. rewrite ER. tidy. auto.
  - (* RExp3 *) unfold reader_ok in R. rewrite ER in R. destruct R as ((R1 & R2 & t & y & z & rest & EP & F & Z) & ->).
    subst pend. inversion K1 as [|? ? O1 O2]; subst. cbn [snd] in O1.
    assert (J : ~ suffix_of prompt b \/ expect (port w) = None -> z = [] -> False).
    { intros J Z0. assert (EX : expect (port w) = Some prompt).
      { eapply prompt_waits; [exact V|reflexivity|auto|rewrite ER; auto|rewrite ER; discriminate..|exact ER]. }
      destruct J as [J|J]; [|congruence]. apply J. rewrite (Z Z0) in F. subst z. rewrite app_nil_r in F. rewrite <- F. exists []. reflexivity. }
    assert (Q : ~ suffix_of prompt b \/ expect (port w) = None -> inv (note w (set_reader (port w) (RIdle b)) (queue w) LTau)).
    { intro J'. eapply move; [exact V|discriminate..|rewrite ER; reflexivity| |].
      - unfold reader_ok. tidy. split; [auto|]. right. exists t, y, z, rest. split; [auto|]. split; [auto|]. intro Z0. exact (J J' Z0).
      - unfold rem_ok. rewrite ER. tidy. auto. }
    destruct (expect (port w)) as [ex|] eqn:EX; [|injection H as <- <-; auto].
    assert (ex = prompt) as -> by (destruct CE as [|[= ->]]; [discriminate|reflexivity]).
    destruct (str_eqb (skipn (length b - length prompt) b) prompt) eqn:EB; injection H as <- <-.
    + assert (SB : suffix_of prompt b) by (apply ends_with_spec; exact EB).
      destruct (prompt_at _ _ _ O1 F Z SB) as (-> & -> & ->).
      inversion K3 as [|? ? I1 I2]; subst. cbn [fst snd] in I1. destruct t; [|destruct (I1 eq_refl)].
       rewrite (fl_ans_none ft (RExp3 prompt _) eq_refl) in S. rewrite (fl_uns_none ft (RExp3 prompt _) eq_refl) in A.
      exists x, rest, true, u, n, seen. split; [exact C|]. split; [|split; [auto|split; [auto|split; [auto|split; [|split; [|exact G]]]]]].
      * unfold reader_ok. tidy. split; [|split; [auto|discriminate]]. cbn [cat flat_map snd] in R1. apply app_inv_head in R1. exact R1.
      * eapply story_reader; [exact S|reflexivity..|]. intros _ S6. unfold rem_ok in *. rewrite ER in S6. exact S6.
      * tidy. rewrite A. reflexivity.
    + apply Q. left. rewrite <- ends_with_spec. unfold ends_with. congruence.
  - (* RHave *) unfold reader_ok in R. rewrite ER in R. destruct (evt (port w)) as [ev|] eqn:EV; injection H as <- <-.
    + eapply move; [exact V|discriminate..|rewrite ER; reflexivity|exact R|]. unfold rem_ok. rewrite ER. tidy. auto.
    + assert (ft = false) as ->.
      { destruct ft; [|reflexivity]. exfalso. assert (P : phase (port w) = Out) by (eapply story_rem; [exact S|discriminate]).
        destruct (out_open _ _ C P) as [(? & E & _) _]. congruence. }
      destruct R as [R1 [R2 R3]]. destruct c; [|destruct (R3 eq_refl)].
      eapply move; [exact V|discriminate..|rewrite ER; reflexivity|split; auto|]. unfold rem_ok. rewrite ER. tidy. auto.
  - (* RIsSet *) unfold reader_ok in R. rewrite ER in R.
    assert (NO : ~ isopen (port w) -> ft = false /\ c = true).
    { intro N. assert (ft = false) as ->.
      { destruct ft; [|reflexivity]. exfalso. assert (P : phase (port w) = Out) by (eapply story_rem; [exact S|discriminate]).
        destruct (out_open _ _ C P) as [O _]. auto. }
      split; [auto|]. destruct R as [_ [_ R3]]. destruct c; [auto|destruct (R3 eq_refl)]. }
    destruct (evt (port w)) as [ev|] eqn:EV; [destruct (is_set (port w) ev) eqn:ES|]; injection H as <- <-.
    + destruct NO as [-> ->]; [intros (? & E & ?); congruence|].
      eapply move; [exact V|discriminate..|rewrite ER; reflexivity|split; [apply R|auto]|]. unfold rem_ok. rewrite ER. tidy. auto.
    + eapply move; [exact V|discriminate..|rewrite ER; reflexivity| |]. { split; [apply R|]. split; [apply R|]. exists ev. auto. }
      unfold rem_ok. rewrite ER. tidy. auto.
    + destruct NO as [-> ->]; [intros (? & E & ?); congruence|].
      eapply move; [exact V|discriminate..|rewrite ER; reflexivity|exact I|]. unfold rem_ok. rewrite ER. tidy. auto.
  - (* RResp *) unfold reader_ok in R. rewrite ER in R. destruct R as (R1 & R2 & R3). destruct (phase_open _ _ C R3) as [_ [r Er]].
    rewrite Er in H. injection H as <- <-.
    eapply move; [exact V|discriminate..|rewrite ER; reflexivity| |unfold rem_ok; rewrite ER; tidy; auto].
    unfold reader_ok. tidy. auto.
  - (* RApp *) unfold reader_ok in R. rewrite ER in R. destruct R as (R1 & R2 & R3 & R4). injection H as <- <-.
    destruct (phase_open _ _ C R3) as [P _].
    set (s' := mk_s _ _ _ _ _ _ _ _ _ _).
    assert (RL : resp_lines s' = resp_lines (port w) ++ [ln]).
    { unfold resp_lines, s', upd. cbn [resp heap]. rewrite R4, Nat.eqb_refl. reflexivity. }
    assert (C' : control x s').
    { destruct C as (C1 & C2 & C3). split; [exact C1|]. split; [exact C2|]. change (pc s') with (pc (port w)). destruct (pc (port w)); try exact C3.
      exfalso. destruct R3 as (ev & E & _). destruct C3 as [E' _]. congruence. }
    assert (RO : forall f, line_ok f ln c -> (f = true -> phase (port w) = Out) -> reader_ok s' (queue w) pend f).
    { intros f L PO. unfold reader_ok, s'. tidy. split; [exact R1|]. split; [exact L|]. split; [exact R3|exact PO]. }
     destruct ft; cbn [fl_ans fl_uns carried] in S, A.
    + assert (PO : phase (port w) = Out) by (eapply story_rem; [exact S|discriminate]).
      exists x, pend, true, u, n, seen. split; [exact C'|]. split; [apply RO; auto|]. frame. split; [|split; [exact A|exact G]].
      unfold story in *. tidy. change (phase s') with (phase (port w)). rewrite PO in *.
      destruct S as (cs & i & d & a & done & S1 & S2 & S3 & S4 & S5 & S6). exists cs, i, d, a, (done ++ [ln]).
      split; [auto|]. split; [auto|]. split; [auto|].
      assert (TX : text (seg_of ln c) = [ln]) by (destruct R2 as [R2 _]; destruct c; cbn; [reflexivity|rewrite R2; reflexivity]).
      split; [rewrite S4; cbn [List.app]; unfold texts; cbn [flat_map]; rewrite TX, <- app_assoc; reflexivity|].
      split; [rewrite RL; apply merged_snoc_l; auto|].
      unfold rem_ok in *. rewrite ER in S6. unfold s'. tidy. change (fl_ans true (RTerm ln c)) with (@nil seg). cbn [List.app] in *.
      destruct (answers_cons _ _ _ S6) as [[-> Q]|[Q1 Q2]].
      * left. split; [reflexivity|]. destruct c; [right; apply Q|left; reflexivity].
      * right. split; [exact Q1|]. destruct c; [|destruct Q2]. intros [|Q3]; [discriminate|]. apply Q2, Q3.
    + exists x, pend, false, u, (n ++ [ln]), (seen ++ [ln]). split; [exact C'|]. split; [apply RO; [auto|discriminate]|]. frame.
      split; [|split; [tidy; rewrite A, <- app_assoc; reflexivity|tidy; destruct G as [G EG]; split; [rewrite app_assoc; apply merged_snoc_l; exact G|exact EG]]].
      unfold story in *. tidy. change (phase s') with (phase (port w)). destruct P as [P|P]; rewrite P in *.
      * destruct S as (S1 & S2 & S3). split; [exact S1|]. split; [exact S2|]. rewrite RL, S3. reflexivity.
      * destruct S as (cs & i & d & a & done & S1 & S2 & S3 & S4 & S5 & S6). exists cs, i, d, a, done.
        split; [auto|]. split; [auto|]. split; [auto|]. split; [exact S4|]. split; [rewrite RL; apply merged_snoc_r; auto|].
        unfold rem_ok in *. rewrite ER in S6. exact S6.
  - (* RTerm *) unfold reader_ok in R. rewrite ER in R. destruct R as (R1 & R2 & R3 & R4).
    assert (TE : negb c || is_term ln = true <-> ends_it c ln).
    { unfold ends_it. rewrite orb_true_iff, is_term_spec, negb_true_iff. tauto. }
    destruct (negb c || is_term ln) eqn:ET; injection H as <- <-.
    + assert (EI : ends_it c ln) by (apply TE; auto).
      destruct ft.
      * eapply move; [exact V|discriminate..|rewrite ER; reflexivity| |].
        -- unfold reader_ok. tidy. split; [auto|]. split; [apply R4; auto|auto].
        -- unfold rem_ok. rewrite ER. tidy. intros _ [[-> _]|[_ N]]; [reflexivity|tauto].
      * exfalso. destruct R2 as [_ R2]. specialize (R2 eq_refl). destruct c; [|destruct R2]. destruct R2 as [_ R2]. destruct EI as [|EI]; [discriminate|auto].
    + eapply move; [exact V|discriminate..|rewrite ER; reflexivity| |].
      * unfold reader_ok. tidy. split; [exact R1|auto].
      * unfold rem_ok. rewrite ER. tidy. intros _ Q. destruct ft; [|exact Q]. destruct Q as [[_ Q]|[Q _]]; [|exact Q]. apply TE in Q. discriminate.
  - (* RSet *) unfold reader_ok in R. rewrite ER in R. destruct R as (R1 & R2 & ->).
    destruct (out_open _ _ C R2) as [(ev & EV & ES) EX]. rewrite EV in H. injection H as <- <-.
    set (s' := mk_s _ _ _ _ _ _ _ _ _ _).
    assert (P' : phase s' = Answered).
    { unfold phase, s' in *. change (pc (mk_s _ _ _ _ _ _ _ _ _ _)) with (pc (port w)). destruct (pc (port w)); try discriminate;
      cbn [evt is_set]; unfold upd; rewrite Nat.eqb_refl; reflexivity. }
     exists x, pend, true, u, n, seen. split; [|split; [split; [exact R1|auto]|]].
    + destruct C as (C1 & C2 & C3). change (control x s'). unfold control. replace (pc s') with (pc (port w)) by reflexivity.
      split; [exact C1|]. split; [exact C2|]. unfold s'. cbn [evt is_set expect resp heap]. unfold phase in R2. destruct (pc (port w)); try discriminate.
      * destruct C3 as (e0 & E0 & X & Y). exists ev. split; [auto|]. split; [|auto]. unfold upd. rewrite Nat.eqb_refl. discriminate.
      * destruct C3 as (E0 & X & Y). match goal with |- Some ev = Some ?z /\ _ => assert (z = ev) as -> by congruence end. split; [auto|]. split; [|auto]. unfold upd. rewrite Nat.eqb_refl. discriminate.
    + frame. split; [|split; [exact A|exact G]]. unfold story in *. tidy. rewrite P'. rewrite R2 in S.
      destruct S as (cs & i & d & a & done & S1 & S2 & S3 & S4 & S5 & S6). exists cs, i, d, a.
      unfold rem_ok in S6. rewrite ER in S6. split; [auto|]. split; [exact S2|]. split; [auto|]. split; [exact S6|].
      rewrite S4, S6. cbn. rewrite app_nil_r. exact S5.
  - (* RNote *) unfold reader_ok in R. rewrite ER in R. destruct R as [R1 ->]. injection H as <- <-.
     cbn [fl_ans fl_uns carried] in S, A.
    exists x, pend, false, u, n, (seen ++ [ln]). split; [exact C|]. split; [exact R1|]. frame. split; [|split].
    + eapply story_reader; [exact S|reflexivity..|]. unfold rem_ok. rewrite ER. auto.
    + tidy. rewrite A, <- app_assoc. reflexivity.
    + tidy. destruct G as [G EG]. split; [apply merged_snoc_r; exact G|exact EG].
  - (* RNote2 *) unfold reader_ok in R. rewrite ER in R.  destruct e; cbn [in_empty] in H; injection H as <- <-.
    + exists x, pend, ft, u, n, seen. split; [exact C|]. split; [split; [exact R|auto]|]. frame. split; [|split].
      * eapply story_reader; [exact S|reflexivity..|]. unfold rem_ok. rewrite ER. auto.
      * exact A.
      * exact G.
    + eapply move; [exact V|discriminate..|rewrite ER; reflexivity| |unfold rem_ok; rewrite ER; tidy; auto]. unfold reader_ok. tidy. split; [exact R|auto].
  - discriminate.
Qed.

Lemma reader_frame s s' q pend ft : reader_ok s q pend ft -> reader s' = reader s -> (isopen s -> isopen s') ->
  (isopen s -> resp s' = resp s) -> (phase s = Out -> phase s' = Out) -> reader_ok s' q pend ft.
Proof.
  unfold reader_ok. intros R -> O E P. destruct (reader s); auto.
  - destruct R as (? & ? & ?). auto.
  - destruct R as (? & ? & ? & ?). rewrite E; auto.
  - destruct R as (? & ? & ? & ?). auto 6.
  - destruct R as (? & ? & ?). auto.
Qed.
Lemma rem_frame s s' ft x rem : rem_ok s ft x rem -> reader s' = reader s -> rem_ok s' ft x rem.
Proof. unfold rem_ok. intros R ->. exact R. Qed.
Lemma upd_same {A} (f : nat -> A) i y : upd f i y i = y.
Proof. unfold upd. rewrite Nat.eqb_refl. reflexivity. Qed.
Lemma upd_other {A} (f : nat -> A) i y j : j <> i -> upd f i y j = f j.
Proof. intro N. unfold upd. destruct (Nat.eqb_spec j i); [congruence|reflexivity]. Qed.
Lemma owner_others s i y : (forall j, lock s <> Some j -> writer s j = WIdle) -> lock s = Some i ->
  forall j, Some i <> Some j -> upd (writer s) i y j = WIdle.
Proof. intros F L j N. rewrite upd_other by congruence. apply F. congruence. Qed.
Lemma not_open_none s : evt s = None -> ~ isopen s.
Proof. intros E (e & E' & _). congruence. Qed.

(** a step of the writing side that changes nothing the reader relies on *)
Lemma write_keeps w s' l x x' pend ft u n u' n' seen : inv_at w x pend ft u n seen -> control x' s' -> reader s' = reader (port w) ->
  (isopen (port w) -> isopen s' /\ resp s' = resp (port w)) -> (phase (port w) = Out -> phase s' = Out) -> (forall y, l <> LNotify y) ->
  (story w x ft (fl_ans ft (reader (port w)) ++ ans pend ++ owed w) u n ->
   story (note w s' (queue w) l) x' ft (fl_ans ft (reader (port w)) ++ ans pend ++ owed w) u' n') ->
  u' ++ n' = u ++ n -> inv (note w s' (queue w) l).
Proof.
  intros (C & R & K1 & K2 & K3 & S & A & G) C' ER O P L ST E. exists x', pend, ft, u', n', seen.
  split; [exact C'|]. split; [eapply reader_frame; [exact R|exact ER|intro; apply O; auto|intro; apply O; auto|exact P]|]. frame.
  tidy. rewrite ER. split; [auto|]. split; [exact A|]. rewrite E. destruct l; try exact G. exfalso. eapply L. reflexivity.
Qed.

Lemma step_write w i op s l : inv w -> okop op -> (forall j d, l <> LSend j d true) ->
  write_step (port w) i (mk_win op false) = Some (s, l) -> inv (note w s (queue w) l).
Proof.
  intros (x & pend & ft & u & n & seen & V) OK NL H. pose proof V as (C & _). destruct C as (C1 & C2 & C3).
  assert (OW : lock (port w) = Some i \/ (lock (port w) = None /\ writer (port w) i = WIdle)).
  { destruct (lock (port w)) as [j|] eqn:L.
    - destruct (Nat.eq_dec j i) as [->|N]; [auto|]. unfold write_step in H. rewrite (C1 i) in H by congruence. rewrite L in H. discriminate.
    - right. split; [auto|]. apply C1. discriminate. }
  destruct OW as [L|[L W]].
  2:{ unfold pc in C3. rewrite L in C3. destruct C3 as [CE CX]. unfold write_step in H. rewrite W, L in H. injection H as <- <-.
      assert (PQ : phase (port w) = Quiet) by (unfold phase, pc; rewrite L; reflexivity).
      eapply (write_keeps _ _ _ x x); [exact V| |reflexivity|intro O; destruct (not_open_none _ CE O)|congruence|discriminate| |reflexivity].
      - split; [|split; [exact C2|]].
        + cbn [lock writer in_op]. intros j N. rewrite upd_other by congruence. apply C1. rewrite L. discriminate.
        + unfold pc. cbn [lock writer in_op]. rewrite upd_same. auto.
      - unfold story. tidy. replace (phase (mk_s _ _ _ _ _ _ _ _ _ _)) with Quiet by (unfold phase, pc; cbn [lock writer]; rewrite upd_same; reflexivity).
        rewrite PQ. auto. }
  unfold pc in C3. rewrite L in C3. unfold write_step in H. 
  assert (PH : phase (port w) = match writer (port w) i with
    | WSend _ => Opened
    | WLoad | WWait _ => match evt (port w) with Some e => if is_set (port w) e then Answered else Out | None => Quiet end
    | WClrEvt _ | WClrExp _ | WRet _ => Answered
    | _ => Quiet end) by (unfold phase, pc; rewrite L; reflexivity).
  destruct (writer (port w) i) as [|o|o|o|o| |ev|ok|ok|ok|o| |] eqn:W.
  - rewrite L in H. discriminate.
  - (* WCheck *) destruct C3 as (CE & CX & CO).
    assert (Q : forall ex y, (ex = None \/ ex = Some prompt) ->
      match y with WSetResp o' => ex = w_expected o' /\ okop o' | WSendNW _ => ex = None | _ => False end ->
      inv (note w (mk_s (lock (port w)) (evt (port w)) (is_set (port w)) ex (resp (port w)) (heap (port w)) (fresh (port w)) (notif (port w))
        (reader (port w)) (upd (writer (port w)) i y)) (queue w) LTau)).
    { intros ex y X Y. eapply (write_keeps _ _ _ x x); [exact V| |reflexivity|intro O; destruct (not_open_none _ CE O)|congruence|discriminate| |reflexivity].
      - split; [|split; [exact X|]].
        + cbn [lock writer]. rewrite L. apply owner_others; auto.
        + unfold pc. cbn [lock writer evt expect]. rewrite L, upd_same. destruct y; tauto.
      - unfold story. tidy. rewrite PH. replace (phase (mk_s _ _ _ _ _ _ _ _ _ _)) with Quiet; [auto|].
        unfold phase, pc. cbn [lock writer]. rewrite L, upd_same. destruct y; tauto. }
    destruct (w_wait o).
    + destruct CO as [EO|EO]; rewrite EO in H; injection H as <- <-.
      * unfold set_writer. rewrite CX. apply Q; [auto|]. rewrite EO. split; [auto|]. left. auto.
      * apply (Q (Some prompt)); [auto|]. rewrite EO. split; [auto|]. right. auto.
    + injection H as <- <-. unfold set_writer. rewrite CX. apply Q; auto.
  - (* WSetResp *) destruct C3 as (CE & CX & CO). injection H as <- <-.
    eapply (write_keeps _ _ _ x x); [exact V| |reflexivity|intro O; destruct (not_open_none _ CE O)|congruence|discriminate| |reflexivity].
    + split; [|split; [exact C2|]].
      * cbn [lock writer]. rewrite L. apply owner_others; auto.
      * unfold pc. cbn [lock writer evt expect resp heap]. rewrite L, upd_same. split; [auto|]. split; [auto|]. exists (fresh (port w)). rewrite upd_same. auto.
    + unfold story. tidy. rewrite PH. replace (phase (mk_s _ _ _ _ _ _ _ _ _ _)) with Quiet; [auto|].
      unfold phase, pc. cbn [lock writer]. rewrite L, upd_same. auto.
  - (* WSetEvt *) destruct C3 as (CE & CX & r & CR & CH). injection H as <- <-.
    eapply (write_keeps _ _ _ x x); [exact V| |reflexivity|intro O; destruct (not_open_none _ CE O)|congruence|discriminate| |reflexivity].
    + split; [|split; [exact C2|]].
      * cbn [lock writer]. rewrite L. apply owner_others; auto.
      * unfold pc. cbn [lock writer evt expect resp heap]. rewrite L, upd_same. split; [|eauto]. exists (fresh (port w)). cbn [evt is_set]. rewrite upd_same. auto.
    + unfold story. tidy. rewrite PH. replace (phase (mk_s _ _ _ _ _ _ _ _ _ _)) with Opened.
      * intros (S1 & S2 & S3). split; [auto|]. split; [auto|]. unfold resp_lines. cbn [resp heap]. rewrite CR, CH. auto.
      * unfold phase, pc. cbn [lock writer]. rewrite L, upd_same. auto.
  - (* WSend *) injection H as <- <-. exfalso. eapply NL. reflexivity.
  - (* WLoad *) destruct C3 as (ev & CE & CX & CR). rewrite CE in H. injection H as <- <-.
    assert (P' : phase (set_writer (port w) i (WWait ev)) = phase (port w)).
    { rewrite PH. unfold phase, pc, set_writer. cbn [lock writer evt is_set]. rewrite L, upd_same. reflexivity. }
    eapply (write_keeps _ _ _ x x); [exact V| |reflexivity|auto|congruence|discriminate| |reflexivity].
    + split; [|split; [exact C2|]].
      * cbn [set_writer lock writer]. rewrite L. apply owner_others; auto.
      * unfold pc, set_writer. cbn [lock writer evt is_set expect resp]. rewrite L, upd_same. eauto.
    + intro S. eapply story_reader; [exact S|try reflexivity; auto..|]. intros _ R. eapply rem_frame; [exact R|reflexivity].
  - (* WWait *) destruct C3 as (CE & CX & CR). cbn [in_timeout] in H. destruct (is_set (port w) ev) eqn:ES; [|discriminate]. injection H as <- <-.
    assert (PA : phase (port w) = Answered) by (rewrite PH, CE, ES; reflexivity).
    assert (P' : phase (set_writer (port w) i (WClrEvt true)) = phase (port w)).
    { rewrite PA. unfold phase, pc, set_writer. cbn [lock writer evt is_set]. rewrite L, upd_same. reflexivity. }
    eapply (write_keeps _ _ _ x x); [exact V| |reflexivity|auto|congruence|discriminate| |reflexivity].
    + split; [|split; [exact C2|]].
      * cbn [set_writer lock writer]. rewrite L. apply owner_others; auto.
      * unfold pc, set_writer. cbn [lock writer evt is_set expect resp]. rewrite L, upd_same. eauto.
    + intro S. eapply story_reader; [exact S|try reflexivity; auto..|]. congruence.
  - (* WClrEvt *) destruct C3 as (-> & (ev & CE & CS) & CR). injection H as <- <-.
    eapply (write_keeps _ _ _ x x); [exact V| |reflexivity|intros (e & E & F); congruence|congruence|discriminate| |reflexivity].
    + split; [|split; [exact C2|]].
      * cbn [set_writer lock writer]. rewrite L. apply owner_others; auto.
      * unfold pc. cbn [lock writer evt is_set expect resp]. rewrite L, upd_same. auto.
    + intro S. eapply story_reader; [exact S|try reflexivity; auto..|congruence].
      cbn [note port]. rewrite PH. unfold phase, pc. cbn [lock writer]. rewrite L, upd_same. reflexivity.
  - (* WClrExp *) destruct C3 as (-> & CE & CR). injection H as <- <-.
    eapply (write_keeps _ _ _ x x); [exact V| |reflexivity|intros (e & E & F); congruence|congruence|discriminate| |reflexivity].
    + split; [|split; [auto|]].
      * cbn [set_writer lock writer]. rewrite L. apply owner_others; auto.
      * unfold pc. cbn [lock writer evt is_set expect resp]. rewrite L, upd_same. auto.
    + intro S. eapply story_reader; [exact S|try reflexivity; auto..|congruence].
      cbn [note port]. rewrite PH. unfold phase, pc. cbn [lock writer]. rewrite L, upd_same. reflexivity.
  - (* WRet *) destruct C3 as (-> & CE & CX & r & CR). rewrite CR in H. injection H as <- <-.
    eapply (write_keeps _ _ _ _ x _ _ u n (u ++ n) []); [exact V| |reflexivity|intros (e & E & F); congruence|congruence|discriminate| |apply app_nil_r].
    + split; [|split; [exact C2|]].
      * cbn [set_writer lock writer]. rewrite L. apply owner_others; auto.
      * unfold pc. cbn [set_writer lock writer evt is_set expect resp]. rewrite L, upd_same. auto.
    + unfold story. tidy. rewrite PH. intros (cs & j & d & a & S1 & S2 & S3 & S4 & S5).
      replace (phase (set_writer (port w) i WRel)) with Quiet.
      * split; [auto|]. split; [|auto]. rewrite S1. unfold resp_lines in S5. rewrite CR in S5. assert (j = i) as -> by congruence. constructor; auto.
      * unfold phase, pc. cbn [set_writer lock writer]. rewrite L, upd_same. reflexivity.
  - (* WSendNW *) destruct C3 as (CE & CX). injection H as <- <-.
    eapply (write_keeps _ _ _ x x); [exact V| |reflexivity|intro O; destruct (not_open_none _ CE O)|congruence|discriminate| |reflexivity].
    + split; [|split; [exact C2|]].
      * cbn [set_writer lock writer]. rewrite L. apply owner_others; auto.
      * unfold pc. cbn [set_writer lock writer evt is_set expect resp]. rewrite L, upd_same. auto.
    + intro S. eapply story_reader; [exact S|try reflexivity; auto..|congruence].
      cbn [note port]. rewrite PH. unfold phase, pc. cbn [set_writer lock writer]. rewrite L, upd_same. reflexivity.
  - (* WRel *) destruct C3 as (CE & CX). injection H as <- <-.
    eapply (write_keeps _ _ _ x x); [exact V| |reflexivity|intro O; destruct (not_open_none _ CE O)|congruence|discriminate| |reflexivity].
    + split; [|split; [exact C2|]].
      * cbn [lock writer]. intros j _. destruct (Nat.eq_dec j i) as [->|N]; [apply upd_same|]. rewrite upd_other by auto. apply C1. rewrite L. congruence.
      * unfold pc. cbn [lock]. auto.
    + unfold story. tidy. rewrite PH. auto.
  - discriminate.
Qed.

Lemma step_send w i op y s d a : inv w -> writer (port w) i = WSend op -> answers (w_expected op) a ->
  write_step (port w) i y = Some (s, LSend i d true) ->
  inv (mk_wired s (queue w) a (commands w ++ [(i, d, a)]) (responses w) (announced w) (notified w)).
Proof.
  intros (x & pend & ft & u & n & seen & V) W N H. pose proof V as (C & R & K1 & K2 & K3 & S & A & G). destruct C as (C1 & C2 & C3).
  assert (L : lock (port w) = Some i).
  { destruct (lock (port w)) as [j|] eqn:L; [destruct (Nat.eq_dec j i) as [->|NE]; [auto|]|]; rewrite C1 in W by congruence; discriminate. }
  unfold write_step in H. rewrite W in H. injection H as <- <-. unfold pc in C3. rewrite L, W in C3. destruct C3 as (CO & CX & CR).
  pose proof CO as (ev & CE & CS).
  assert (PO : phase (port w) = Opened) by (unfold phase, pc; rewrite L, W; reflexivity).
  assert (P' : phase (set_writer (port w) i WLoad) = Out).
  { unfold phase, pc, set_writer. cbn [lock writer evt is_set]. rewrite L, upd_same, CE, CS. reflexivity. }
  unfold story in S. rewrite PO in S. destruct S as (S1 & S2 & S3). apply app_eq_nil in S1 as [S0 S1]. apply app_eq_nil in S1 as [S1 _].
  exists (w_expected op), pend, ft, u, n, seen. split; [|split; [|split; [auto|split; [eapply answers_ok; eauto|split; [auto|split; [|split; [exact A|exact G]]]]]]].
  - split; [|split; [exact C2|]].
    + cbn [port set_writer lock writer]. rewrite L. apply owner_others; auto.
    + unfold pc, set_writer. cbn [port lock writer evt is_set expect resp]. rewrite L, upd_same. eauto.
  - eapply reader_frame; [exact R|reflexivity|auto|auto|congruence].
  - unfold story. cbn [port commands responses owed]. rewrite P'. change (reader (set_writer (port w) i WLoad)) with (reader (port w)).
    rewrite S0, S1. cbn [List.app]. exists (commands w), i, (w_data op), a, []. split; [auto|]. split; [exact L|]. split; [auto|]. split; [auto|].
    split; [change (resp_lines (set_writer (port w) i WLoad)) with (resp_lines (port w)); rewrite S3; apply merged_right|].
    unfold rem_ok. cbn [set_writer reader]. unfold reader_ok in R. destruct (reader (port w)) eqn:ER; auto.
    + destruct ft; [|auto]. destruct R as (_ & _ & _ & R). rewrite R in PO by auto. discriminate.
    + destruct R as (_ & R & _). congruence.
Qed.

Lemma inv_init : inv wired_init.
Proof.
  exists None, [], false, [], [], []. split; [split; [reflexivity|split; [auto|split; reflexivity]]|].
  split; [split; [reflexivity|auto]|]. repeat split; try constructor. exists []. reflexivity.
Qed.
Lemma reached_inv w : reached w -> inv w.
Proof.
  induction 1 as [|w w' _ IH H]; [apply inv_init|]. destruct H.
  - apply step_announce; auto.
  - apply step_answer; auto.
  - eapply step_char; eauto.
  - eapply step_handle; eauto.
  - eapply step_write; eauto.
  - eapply step_send; eauto.
Qed.

(** ** What follows *)
Lemma cat_nil pend : cat pend = [] -> pend = [].
Proof. destruct pend as [|[t x] rest]; auto. cbn [cat flat_map snd]. intro E. apply app_eq_nil in E as [E _]. destruct (encode_some _ E). Qed.
Lemma served_length cs rs u : served cs rs u -> length cs = length rs.
Proof. induction 1; auto. rewrite !app_length. cbn. lia. Qed.

Lemma served_all w : reached w -> exists cs waiting unasked open seen coming, commands w = cs ++ waiting /\ (length waiting <= 1)%nat /\
  served cs (responses w) unasked /\ merged (unasked ++ open) (notified w) seen /\ texts (announced w) = seen ++ coming /\
  (lock (port w) = None -> waiting = [] /\ open = []) /\ (reader (port w) = RIdle [] -> queue w = [] -> coming = []).
Proof.
  intro V. apply reached_inv in V as (x & pend & ft & u & n & seen & C & R & K1 & K2 & K3 & S & A & G & _).
  assert (Z : reader (port w) = RIdle [] -> queue w = [] -> fl_uns ft (reader (port w)) ++ texts (uns pend) = []).
  { intros ER EQ. unfold reader_ok in R. rewrite ER, EQ in R. destruct R as [R _]. rewrite ER, (cat_nil pend) by auto. destruct ft; reflexivity. }
  assert (PQ : lock (port w) = None -> phase (port w) = Quiet) by (intro L; unfold phase, pc; rewrite L; reflexivity).
  unfold story in S. destruct (phase (port w)) eqn:P.
  - destruct S as (_ & S & N). exists (commands w), [], u, n, seen, (fl_uns ft (reader (port w)) ++ texts (uns pend)).
    rewrite app_nil_r. split; [auto|]. split; [auto|]. split; [auto|]. split; [auto|]. split; [auto|]. split; [auto|exact Z].
  - destruct S as (_ & S & N). exists (commands w), [], u, n, seen, (fl_uns ft (reader (port w)) ++ texts (uns pend)).
    rewrite app_nil_r. split; [auto|]. split; [auto|]. split; [auto|]. split; [auto|]. split; [auto|]. split; [intro L; discriminate (PQ L)|exact Z].
  - destruct S as (cs & i & d & a & done & E & L & S & _). exists cs, [(i, d, a)], u, n, seen, (fl_uns ft (reader (port w)) ++ texts (uns pend)).
    split; [auto|]. split; [auto|]. split; [auto|]. split; [auto|]. split; [auto|]. split; [congruence|exact Z].
  - destruct S as (cs & i & d & a & E & L & S & _). exists cs, [(i, d, a)], u, n, seen, (fl_uns ft (reader (port w)) ++ texts (uns pend)).
    split; [auto|]. split; [auto|]. split; [auto|]. split; [auto|]. split; [auto|]. split; [congruence|exact Z].
Qed.

Lemma merged_nil {A} (a b : list A) : merged a b [] -> a = [] /\ b = [].
Proof. intro M. inversion M. auto. Qed.
Lemma served_exact cs rs u : served cs rs u -> u = [] -> rs = map (fun c => (fst (fst c), texts (snd c))) cs.
Proof.
  induction 1 as [|cs rs u i d a ls notes _ IH M]; intro E; [reflexivity|]. apply app_eq_nil in E as [E1 E2]. subst notes.
  rewrite map_app. cbn [map fst snd]. rewrite <- IH by auto. apply merged_no_right in M. subst. reflexivity.
Qed.
Lemma exact_answers w : reached w -> announced w = [] -> notified w = [] /\
  exists cs waiting, commands w = cs ++ waiting /\ (length waiting <= 1)%nat /\ (lock (port w) = None -> waiting = []) /\
    responses w = map (fun c => (fst (fst c), texts (snd c))) cs.
Proof.
  intros V E. destruct (served_all _ V) as (cs & wt & u & o & seen & cm & C & L & S & M & T & Q & _). rewrite E in T. cbn in T.
  symmetry in T. apply app_eq_nil in T as [-> ->]. apply merged_nil in M as [M1 M2]. apply app_eq_nil in M1 as [-> ->].
  split; [auto|]. exists cs, wt. split; [auto|]. split; [auto|]. split; [apply Q|]. eapply served_exact; eauto.
Qed.

(** once everything is read, the answer is there *)
Lemma all_answered w i e buf : reached w -> owed w = [] -> queue w = [] -> reader (port w) = RIdle buf ->
  writer (port w) i = WWait e -> is_set (port w) e = true.
Proof.
  intros V EO EQ ER W. apply reached_inv in V as (x & pend & ft & u & n & seen & C & R & K1 & K2 & K3 & S & A & G).
  destruct (is_set (port w) e) eqn:ES; auto. exfalso. pose proof C as (C1 & _ & C3).
  assert (L : lock (port w) = Some i).
  { destruct (lock (port w)) as [j|] eqn:L; [destruct (Nat.eq_dec j i) as [->|NE]; [auto|]|]; rewrite C1 in W by congruence; discriminate. }
  unfold pc in C3. rewrite L, W in C3. destruct C3 as (CE & _).
  assert (P : phase (port w) = Out) by (unfold phase, pc; rewrite L, W, CE, ES; reflexivity).
  unfold story in S. rewrite P in S. destruct S as (cs & j & d & a & done & _ & _ & _ & _ & _ & S). unfold rem_ok in S. rewrite ER in S.
  unfold reader_ok in R. rewrite ER, EQ in R. rewrite (fl_ans_none ft (RIdle buf) eq_refl), EO, app_nil_r in S. cbn [List.app] in S.
  destruct R as [R B]. rewrite app_nil_r in R. destruct B as [->|(t & y & z & rest & -> & F & N)].
  - rewrite (cat_nil pend) in S by auto. exact (answers_nil _ S).
  - cbn [cat flat_map snd] in R. rewrite F, <- app_assoc in R. rewrite <- (app_nil_r buf) in R at 1. apply app_inv_head in R.
    symmetry in R. apply app_eq_nil in R as [R _]. auto.
Qed.

(** with a modem that sends nothing unasked the read thread does not die *)
Definition lively (w : wired) : Prop := announced w = [] ->
  match reader (port w) with RDead _ _ => False | RExp2 _ | RExp3 _ _ => expect (port w) = Some prompt | _ => True end.
Lemma all_asked w x pend ft u n seen : inv_at w x pend ft u n seen -> announced w = [] ->
  (forall t y rest, pend = (t, y) :: rest -> t = true) /\ (carried (reader (port w)) <> None -> ft = true).
Proof.
  intros (C & R & K1 & K2 & K3 & S & A & G & gone & EG) E. rewrite E in *. symmetry in EG. apply app_eq_nil in EG as [_ EG].
  split.
  - intros [|] y rest ->; [reflexivity|discriminate EG].
  - intro N. cbn in A. symmetry in A. apply app_eq_nil in A as [_ A]. apply app_eq_nil in A as [A _]. destruct ft; [auto|]. unfold fl_uns in A.
    destruct (carried (reader (port w))) as [[? ?]|]; [discriminate|congruence].
Qed.
(** while the read thread looks for a prompt, a command is waiting *)
Lemma scanning_out w x pend ft u n seen b : inv_at w x pend ft u n seen -> announced w = [] ->
  (reader (port w) = RExp2 b \/ exists k, reader (port w) = RExp3 b k) -> phase (port w) = Out.
Proof.
  intros V E ER. destruct (all_asked _ _ _ _ _ _ _ V E) as [T _]. destruct V as (C & R & K1 & K2 & K3 & S & _).
  assert (N : carried (reader (port w)) = None) by (destruct ER as [->|[k ->]]; reflexivity).
  assert (exists t y rest, pend = (t, y) :: rest) as (t & y & rest & EP).
  { unfold reader_ok in R. destruct ER as [ER|[k ER]]; rewrite ER in R; [|destruct R as [R _]]; destruct R as (_ & _ & t & y & _ & rest & -> & _); eauto. }
  eapply story_rem; [exact S|]. rewrite (fl_ans_none _ _ N), EP, (T _ _ _ EP). discriminate.
Qed.
Lemma out_write x s i y s' l : control x s -> phase s = Out -> write_step s i y = Some (s', l) -> expect s' = expect s \/ in_timeout y = true.
Proof.
  intros (C1 & _ & C3) P H.
  assert (L : lock s = Some i).
  { destruct (lock s) as [j|] eqn:L; [destruct (Nat.eq_dec j i) as [->|NE]; [auto|]|].
    - unfold write_step in H. rewrite C1, L in H by congruence. discriminate.
    - unfold phase, pc in P. rewrite L in P. discriminate. }
  unfold phase, pc in P. rewrite L in P. unfold pc in C3. rewrite L in C3. unfold write_step in H. destruct (writer s i); try discriminate.
  - destruct (evt s) as [ev|]; [|discriminate]. injection H as <- _. auto.
  - destruct C3 as (CE & _). rewrite CE in P. destruct (is_set s e); [discriminate|]. destruct (in_timeout y); [auto|discriminate].
Qed.
Lemma lively_step w w' : inv w -> lively w -> wstep w w' -> lively w'.
Proof.
  intros (x & pend & ft & u & n & seen & V) Y H E'. pose proof V as (C & R & K1 & K2 & K3 & S & _). pose proof C as (_ & C2 & _).
  assert (WR : forall s i y l, announced w = [] -> write_step (port w) i y = Some (s, l) -> in_timeout y = false -> reader s = reader (port w) ->
    match reader s with RDead _ _ => False | RExp2 _ | RExp3 _ _ => expect s = Some prompt | _ => True end).
  { intros s i y l E HW IT ES. specialize (Y E). rewrite ES. destruct (reader (port w)) eqn:ER; auto.
    - destruct (out_write x _ _ _ _ _ C (scanning_out _ _ _ _ _ _ _ buf V E (or_introl ER)) HW) as [->|]; [auto|congruence].
    - destruct (out_write x _ _ _ _ _ C (scanning_out _ _ _ _ _ _ _ buf V E (or_intror (ex_intro _ _ ER))) HW) as [->|]; [auto|congruence]. }
  assert (RW : forall s i y l, write_step (port w) i y = Some (s, l) -> reader s = reader (port w)).
  { intros s i y l HW. unfold write_step in HW. destruct (writer (port w) i); repeat match goal with
      | H : match ?z with _ => _ end = Some _ |- _ => destruct z; try discriminate
      | H : (if ?z then _ else _) = Some _ |- _ => destruct z; try discriminate end; try discriminate; injection HW as <- _; reflexivity. }
  destruct H as [w y I|w y rest EO|w buf c q e s l ER EQ H|w e s l NI H|w i op s l OK NL H|w i op y s d a W N H]; cbn [note port announced] in *.
  - destruct (announced w); discriminate.
  - exact (Y E').
  - unfold read_step in H. rewrite ER in H. cbn [in_char] in H. destruct (ends_with (buf ++ [c]) RX_EOL_SEQ); injection H as <- _; [|exact I].
    cbn [set_reader reader]. destruct (firstn _ _); exact I.
  - specialize (Y E'). destruct (all_asked _ _ _ _ _ _ _ V E') as [_ FT]. unfold read_step in H. unfold reader_ok in R. destruct (reader (port w)) eqn:ER.
    + destruct (NI _ eq_refl).
    + destruct (expect (port w)) as [ex|] eqn:EX; injection H as <- _; cbn [set_reader reader expect]; [|exact I].
      destruct C2 as [|C2]; [discriminate|]. rewrite EX. exact C2.
    + rewrite Y in H. injection H as <- _. exact Y.
    + rewrite Y in H. destruct (str_eqb _ _); injection H as <- _; exact I.
    + destruct (evt (port w)); injection H as <- _; exact I.
    + rewrite FT in S by (rewrite ?ER; discriminate).
      assert (P : phase (port w) = Out) by (eapply story_rem; [exact S|discriminate]).
      destruct (out_open _ _ C P) as [(ev & EV & ES) _]. rewrite EV, ES in H. injection H as <- _. exact I.
    + destruct R as (_ & _ & R). destruct (phase_open _ _ C R) as [_ [r Er]]. rewrite Er in H. injection H as <- _. exact I.
    + injection H as <- _. exact I.
    + destruct (negb chk || is_term line); injection H as <- _; exact I.
    + destruct R as (_ & R & _). destruct (out_open _ _ C R) as [(ev & EV & ES) _]. rewrite EV in H. injection H as <- _. exact I.
    + injection H as <- _. exact I.
    + destruct (in_empty _); injection H as <- _; exact I.
    + discriminate.
  - eapply WR; eauto.
  - specialize (Y E'). pose proof H as H'. unfold write_step in H'. rewrite W in H'. injection H' as <- _. exact Y.
Qed.
Lemma reader_lives w ex lost : reached w -> announced w = [] -> reader (port w) <> RDead ex lost.
Proof.
  intros V E ER. assert (Y : lively w).
  { clear E ER. induction V as [|w w' V IH H]; [intros _; exact I|]. eapply lively_step; [apply reached_inv; exact V|exact IH|exact H]. }
  specialize (Y E). rewrite ER in Y. exact Y.
Qed.

(** ** The read thread comes to rest *)
Definition effort (r : rpc) : nat :=
  match r with
  | RIdle _ => 0 | RExp1 _ => 9 | RExp2 _ => 8 | RExp3 _ _ => 7 | RHave _ _ => 6 | RIsSet _ _ => 5 | RResp _ _ => 4 | RApp _ _ _ => 3
  | RTerm _ _ => 2 | RSet _ _ => 1 | RNote _ => 2 | RNote2 => 1 | RDead _ _ => 0
  end.
Definition work (w : wired) : nat := (10 * length (queue w) + effort (reader (port w)))%nat.
Lemma read_works w w' : read_thread w w' -> (work w' < work w)%nat.
Proof.
  intros (i & s & l & q & H & -> & D). unfold work. cbn [note queue port]. unfold read_step in H. destruct (in_char i) as [c|].
  - destruct D as [-> [buf ER]]. rewrite ER in *. cbn [length effort]. destruct (ends_with _ _); injection H as <- _; cbn [set_reader reader effort];
      [destruct (firstn _ _); cbn [effort]|]; lia.
  - destruct D as [-> NI]. destruct (reader (port w)) eqn:ER; try solve [destruct (NI _ eq_refl)]; repeat match goal with
      | H : match ?z with _ => _ end = Some _ |- _ => destruct z; try discriminate
      | H : (if ?z then _ else _) = Some _ |- _ => destruct z; try discriminate end; try discriminate;
      injection H as <- _; cbn [set_reader reader effort]; lia.
Qed.
(** how much there is to read *)
Lemma read_bounded : exists f : wired -> nat, f wired_init = 0%nat /\
  (forall w w', read_thread w w' -> (f w' < f w)%nat) /\
  (forall w w', wstep w w' -> read_thread w w' \/ exists sent, queue w' = queue w ++ sent /\ (f w' = f w + 10 * length sent)%nat).
Proof.
  exists work. split; [reflexivity|]. split; [apply read_works|]. intros w w' H.
  assert (RW : forall s i y l, write_step (port w) i y = Some (s, l) -> reader s = reader (port w)).
  { intros s i y l HW. unfold write_step in HW. destruct (writer (port w) i); repeat match goal with
      | H : match ?z with _ => _ end = Some _ |- _ => destruct z; try discriminate
      | H : (if ?z then _ else _) = Some _ |- _ => destruct z; try discriminate end; try discriminate; injection HW as <- _; reflexivity. }
  destruct H as [w y I|w y rest EO|w buf c q e s l ER EQ H|w e s l NI H|w i op s l OK NL H|w i op y s d a W N H]; unfold work; cbn [note port queue].
  - right. exists (encode y). split; [auto|]. rewrite app_length. lia.
  - right. exists (encode y). split; [auto|]. rewrite app_length. lia.
  - left. exists (mk_rin (Some c) e), s, l, q. cbn [in_char]. eauto 6.
  - left. exists (mk_rin None e), s, l, (queue w). cbn [in_char]. auto 6.
  - right. exists []. rewrite app_nil_r. split; [auto|]. rewrite (RW _ _ _ _ H). cbn [length]. lia.
  - right. exists []. rewrite app_nil_r. split; [auto|]. rewrite (RW _ _ _ _ H). cbn [length]. lia.
Qed.
(** it moves as long as there is something to do *)
Lemma read_moves w : (forall e l, reader (port w) <> RDead e l) -> (exists buf, reader (port w) = RIdle buf /\ queue w = []) \/ exists w', read_thread w w'.
Proof.
  intro ND. destruct (reader (port w)) eqn:ER; try (right;
    assert (exists s l, read_step (port w) (mk_rin None true) = Some (s, l)) as (s & l & H) by
      (unfold read_step; rewrite ER; repeat match goal with |- context [match ?z with _ => _ end] => destruct z | |- context [if ?z then _ else _] => destruct z end; eauto);
    exists (note w s (queue w) l), (mk_rin None true), s, l, (queue w); split; [exact H|]; split; [reflexivity|]; cbn [in_char]; split; [reflexivity|rewrite ER; discriminate]).
  - destruct (queue w) as [|c q] eqn:EQ; [left; eauto|right].
    assert (exists s l, read_step (port w) (mk_rin (Some c) true) = Some (s, l)) as (s & l & H).
    { unfold read_step. rewrite ER. cbn [in_char]. destruct (ends_with _ _); eauto. }
    exists (note w s q l), (mk_rin (Some c) true), s, l, q. split; [exact H|]. split; [reflexivity|]. cbn [in_char]. rewrite ER. eauto.
  - destruct (ND _ _ eq_refl).
Qed.

(** ** Executions for examples, thread 0 writing *)
Inductive move_ := MAnnounce (x : seg) | MAnswer | MRead | MWrite (op : wop) | MSend (a : list seg).
Definition play (w : wired) (m : move_) : option wired :=
  match m with
  | MAnnounce x => Some (mk_wired (port w) (queue w ++ encode x) (owed w) (commands w) (responses w) (announced w ++ [x]) (notified w))
  | MAnswer => match owed w with
               | x :: rest => Some (mk_wired (port w) (queue w ++ encode x) rest (commands w) (responses w) (announced w) (notified w))
               | [] => None
               end
  | MRead => match reader (port w), queue w with
             | RIdle _, [] => Some w
             | RIdle _, c :: q => match read_step (port w) (mk_rin (Some c) true) with Some (s, l) => Some (note w s q l) | None => None end
             | _, q => match read_step (port w) (mk_rin None true) with Some (s, l) => Some (note w s q l) | None => None end
             end
  | MWrite op => match write_step (port w) 0 (mk_win op false) with
                 | Some (s, LSend _ _ true) => None
                 | Some (s, l) => Some (note w s (queue w) l)
                 | None => None
                 end
  | MSend a => match writer (port w) 0%nat, write_step (port w) 0 (mk_win (mk_wop [] true None) false) with
               | WSend op, Some (s, LSend 0%nat d true) =>
                   Some (mk_wired s (queue w) a (commands w ++ [(0%nat, d, a)]) (responses w) (announced w) (notified w))
               | _, _ => None
               end
  end.
Definition legal (m : move_) : Prop :=
  match m with MAnnounce x => inner x | MWrite op => okop op | MSend a => forall e, answers e a | _ => True end.
Lemma play_reached w m w' : reached w -> legal m -> play w m = Some w' -> reached w'.
Proof.
  intros R L H. destruct m as [x| | |op|a]; cbn [play] in H.
  - injection H as <-. eapply rc_step; [exact R|]. apply ws_announce. exact L.
  - destruct (owed w) as [|x rest] eqn:E; [discriminate|]. injection H as <-. eapply rc_step; [exact R|]. apply ws_answer. exact E.
  - assert (HD : forall q, (forall buf, reader (port w) <> RIdle buf) -> q = queue w ->
      match read_step (port w) (mk_rin None true) with Some (s, l) => Some (note w s q l) | None => None end = Some w' -> reached w').
    { intros q N -> H'. destruct (read_step (port w) (mk_rin None true)) as [[s l]|] eqn:E; [|discriminate]. injection H' as <-.
      eapply rc_step; [exact R|]. eapply ws_handle; eauto. }
    destruct (reader (port w)) eqn:ER; try (eapply HD; [discriminate|reflexivity|exact H]).
    destruct (queue w) as [|c q] eqn:EQ; [injection H as <-; exact R|].
    destruct (read_step (port w) (mk_rin (Some c) true)) as [[s l]|] eqn:E; [|discriminate]. injection H as <-.
    eapply rc_step; [exact R|]. eapply ws_char; eauto.
  - destruct (write_step (port w) 0 (mk_win op false)) as [[s l]|] eqn:E; [|discriminate].
    assert (l <> LSend 0%nat [] true -> (forall j d, l <> LSend j d true) -> Some (note w s (queue w) l) = Some w' -> reached w') as Q.
    { intros _ N [= <-]. eapply rc_step; [exact R|]. eapply ws_write; eauto. }
    destruct l; try (apply Q; [discriminate..|exact H]). destruct wait; [discriminate|]. apply Q; [discriminate..|exact H].
  - destruct (writer (port w) 0%nat) eqn:W; try discriminate. destruct (write_step _ _ _) as [[s [| | | | | | | |[|j] d [|]| | |]]|] eqn:E; try discriminate.
    injection H as <-. eapply rc_step; [exact R|]. eapply ws_send; eauto.
Qed.
Fixpoint plays (w : wired) (ms : list move_) : option wired :=
  match ms with [] => Some w | m :: ms' => match play w m with Some w' => plays w' ms' | None => None end end.
Lemma plays_reached ms : forall w w', reached w -> Forall legal ms -> plays w ms = Some w' -> reached w'.
Proof.
  induction ms as [|m ms IH]; intros w w' R F H; cbn [plays] in H; [injection H as <-; exact R|].
  inversion F; subst. destruct (play w m) as [w1|] eqn:E; [|discriminate]. eapply IH; [|eassumption|exact H]. eapply play_reached; eauto.
Qed.
Definition good (l : str) : bool := match l with [] => false | _ => true end && negb (contains l crlf) && negb (contains l prompt).
Lemma good_proper l : good l = true -> proper_line l.
Proof.
  unfold good. rewrite !andb_true_iff, !negb_true_iff. intros [[A B] C]. split; [destruct l; [discriminate|discriminate]|]. split; intro O.
  - assert (contains l crlf = true) by (apply contains_iff; exact O). congruence.
  - assert (contains l prompt = true) by (apply contains_iff; exact O). congruence.
Qed.
Lemma good_inner l : good l = true -> is_term l = false -> inner (Line l).
Proof. intros G T. split; [apply good_proper; auto|]. rewrite <- is_term_spec. congruence. Qed.
Lemma good_ending e l : good l = true -> is_term l = true -> ending e (Line l).
Proof. intros G T. split; [apply good_proper; auto|apply is_term_spec; auto]. Qed.
