(** GSM-7 text encoding: proofs. *)
From Verif Require Import Base PduModel PduSpec SeptetProofs.
From Coq Require Import ZifyBool.
Ltac Zify.zify_post_hook ::= Z.div_mod_to_equations.

#[local] Arguments GSM7_BASIC : simpl never.
#[local] Arguments ts23038_basic : simpl never.
#[local] Arguments ts23038_ext : simpl never.
#[local] Arguments GSM7_EXTENDED : simpl never.

Lemma find_char_spec c l : forall i, 0 <= i ->
  (find_char c l i = -1 /\ ~ In c l) \/
  (exists k, find_char c l i = i + Z.of_nat k /\ nth_error l k = Some c).
Proof.
  induction l as [|d l IH]; intros i Hi; simpl; [auto|].
  destruct (Z.eqb_spec c d) as [->|Hn].
  - right. exists 0%nat. split; [lia|reflexivity].
  - destruct (IH (i + 1) ltac:(lia)) as [[E Hin]|(k & E & Hk)].
    + left. split; auto. intros [?|?]; [congruence|auto].
    + right. exists (S k). split; [lia|exact Hk].
Qed.

Lemma basic_find c : (find_char c GSM7_BASIC 0 = -1 /\ ~ In c GSM7_BASIC) \/
  (exists k, find_char c GSM7_BASIC 0 = Z.of_nat k /\ nth_error GSM7_BASIC k = Some c /\ (k < 128)%nat).
Proof.
  destruct (find_char_spec c GSM7_BASIC 0 ltac:(lia)) as [H|(k & E & H)]; [auto|].
  right. exists k. split; [lia|split; auto].
  assert (nth_error GSM7_BASIC k <> None) as Hn by congruence.
  apply nth_error_Some in Hn. exact Hn.
Qed.

Lemma basic_all (P : Z -> Prop) (f : Z -> bool) :
  forallb f GSM7_BASIC = true -> (forall c, f c = true -> P c) -> forall c, In c GSM7_BASIC -> P c.
Proof. intros H HP c Hc. apply HP. rewrite forallb_forall in H. auto. Qed.

Definition opt_eqb (a b : option Z) : bool :=
  match a, b with Some x, Some y => x =? y | None, None => true | _, _ => false end.
Lemma opt_eqb_eq a b : opt_eqb a b = true -> a = b.
Proof. destruct a, b; simpl; intros; try discriminate; auto. f_equal; lia. Qed.

Lemma in_basic_iff c : In c GSM7_BASIC <-> lib_basic c.
Proof.
  split.
  - revert c. apply (basic_all _ (fun c => (existsb (opt_eqb (Some c)) ts23038_basic && negb (c =? 0xA7))
       || (c =? 0x60) || (c =? 0x1B))); [vm_compute; reflexivity|].
    intros c H. apply orb_true_iff in H as [H|H]; [apply orb_true_iff in H as [H|H]|].
    + left. apply andb_true_iff in H as [H H'].
      apply existsb_exists in H as (x & Hx & E). apply opt_eqb_eq in E. subst. split; auto. lia.
    + right; left; lia.
    + right; right; lia.
  - intros [[H Hn]|[->| ->]]; try (vm_compute; tauto).
    assert (forallb (fun o => match o with Some c => (c =? 0xA7) || existsb (Z.eqb c) GSM7_BASIC | None => true end)
              ts23038_basic = true) as F by (vm_compute; reflexivity).
    rewrite forallb_forall in F. specialize (F _ H). cbv beta iota in F.
    apply orb_true_iff in F as [F|F]; [lia|].
    apply existsb_exists in F as (x & Hx & E). assert (c = x) as -> by lia. exact Hx.
Qed.

(** the per-character encoder *)
Inductive enc1 := EBasic (i : Z) | EExt (v : Z) | EBad | EType.
Definition classify (c : Z) : enc1 :=
  let idx := find_char c GSM7_BASIC 0 in
  if negb (idx =? -1) then EBasic idx
  else match assoc c GSM7_EXTENDED with
       | Some (VChr v) => EExt v
       | Some (VInt _) => EType
       | None => EBad
       end.

Lemma encodeGsm7_cons c t d : encodeGsm7 (c :: t) d =
  match classify c with
  | EBasic i => let* r := encodeGsm7 t d in Ok (i :: r)
  | EExt v => let* r := encodeGsm7 t d in Ok (27 :: v :: r)
  | EType => Err TypeError
  | EBad => if negb d then Err ValueError else encodeGsm7 t d
  end.
Proof.
  cbn [encodeGsm7]. unfold classify. destruct (negb (find_char c GSM7_BASIC 0 =? -1)); auto.
  destruct (assoc c GSM7_EXTENDED) as [[]|]; auto.
Qed.

Lemma assoc_in {B} k (l : list (Z * B)) v : assoc k l = Some v -> In (k, v) l.
Proof.
  induction l as [|[k' v'] l IH]; simpl; [discriminate|].
  destruct (Z.eqb_spec k k'); [intros [= ->]; left; congruence|auto].
Qed.
Lemma assoc_none {B} k (l : list (Z * B)) : assoc k l = None -> forall v, ~ In (k, v) l.
Proof.
  induction l as [|[k' v'] l IH]; simpl; [auto|].
  destruct (Z.eqb_spec k k'); [discriminate|]. intros H v [E|E]; [congruence|]. eapply IH; eauto.
Qed.

Lemma classify_basic c i : classify c = EBasic i ->
  lib_basic c /\ 0 <= i < 128 /\ nth_error GSM7_BASIC (Z.to_nat i) = Some c.
Proof.
  unfold classify. destruct (basic_find c) as [[E Hn]|(k & E & Hk & Hl)]; rewrite E.
  - change (negb (-1 =? -1)) with false; cbv iota. destruct (assoc c GSM7_EXTENDED) as [[]|]; discriminate.
  - replace (negb (Z.of_nat k =? -1)) with true by lia. intros [= <-].
    rewrite Nat2Z.id. repeat split; auto; try lia. apply in_basic_iff. eapply nth_error_In; eauto.
Qed.

Definition ext_char_ok (cv : Z * ext_value) : bool :=
  match snd cv with
  | VChr v => existsb (fun pc => (fst pc =? v) && (snd pc =? fst cv)) ts23038_ext
              && negb (fst cv =? 0x0C) && (0 <=? v) && (v <? 128) && list_eqb Z.eqb (ext_lookup v GSM7_EXTENDED) [fst cv]
  | VInt _ => fst cv =? 255
  end.

Lemma list_eqb_eq {A} (e : A -> A -> bool) : (forall x y, e x y = true <-> x = y) ->
  forall a b, list_eqb e a b = true <-> a = b.
Proof.
  intro H. induction a as [|x a IH]; intros [|y b]; simpl; split; intro E; try discriminate; auto.
  - apply andb_true_iff in E as [E1 E2]. apply H in E1. apply IH in E2. congruence.
  - injection E as -> ->. apply andb_true_iff. split; [apply H; auto|apply IH; auto].
Qed.
Lemma str_eqb_eq a b : str_eqb a b = true <-> a = b.
Proof. apply list_eqb_eq. apply Z.eqb_eq. Qed.

Lemma classify_ext c v : classify c = EExt v ->
  lib_ext c /\ In (v, c) ts23038_ext /\ ~ In c GSM7_BASIC /\ 0 <= v < 128 /\ ext_lookup v GSM7_EXTENDED = [c].
Proof.
  unfold classify. destruct (basic_find c) as [[E Hn]|(k & E & Hk & Hl)]; rewrite E.
  2:{ replace (negb (Z.of_nat k =? -1)) with true by lia. discriminate. }
  change (negb (-1 =? -1)) with false; cbv iota. destruct (assoc c GSM7_EXTENDED) as [[v'|]|] eqn:A; try discriminate. intros [= ->].
  apply assoc_in in A.
  assert (forallb ext_char_ok GSM7_EXTENDED = true) as F by (vm_compute; reflexivity).
  rewrite forallb_forall in F. specialize (F _ A). unfold ext_char_ok in F. cbn [fst snd] in F.
  rewrite !andb_true_iff in F. destruct F as ((((F & F1) & F2) & F3) & F4).
  apply existsb_exists in F as ([p q] & Hin & F). cbn [fst snd] in F.
  assert (p = v /\ q = c) as [-> ->] by lia.
  repeat split; auto; try lia.
  - exists v. exact Hin.
  - apply str_eqb_eq. exact F4.
Qed.

Lemma classify_type c : classify c = EType -> c = 255.
Proof.
  unfold classify. destruct (negb _); [discriminate|].
  destruct (assoc c GSM7_EXTENDED) as [[v'|n]|] eqn:A; try discriminate. intros _.
  apply assoc_in in A.
  assert (forallb ext_char_ok GSM7_EXTENDED = true) as F by (vm_compute; reflexivity).
  rewrite forallb_forall in F. specialize (F _ A). unfold ext_char_ok in F. cbn [fst snd] in F. lia.
Qed.

Lemma classify_bad c : classify c = EBad -> ~ lib_basic c /\ ~ lib_ext c /\ c <> 255.
Proof.
  unfold classify. destruct (basic_find c) as [[E Hn]|(k & E & Hk & Hl)]; rewrite E.
  2:{ replace (negb (Z.of_nat k =? -1)) with true by lia. discriminate. }
  change (negb (-1 =? -1)) with false; cbv iota. destruct (assoc c GSM7_EXTENDED) as [[v'|]|] eqn:A; try discriminate. intros _.
  split; [rewrite <- in_basic_iff; auto|]. split.
  - intros [[p Hp] Hff].
    assert (forallb (fun pc => (snd pc =? 0x0C) || match assoc (snd pc) GSM7_EXTENDED with Some _ => true | None => false end) ts23038_ext = true) as F by (vm_compute; reflexivity).
    rewrite forallb_forall in F. specialize (F _ Hp). cbn [snd] in F. rewrite A in F. lia.
  - intros ->. vm_compute in A. discriminate.
Qed.

Lemma basic_ext_disjoint c : lib_basic c -> lib_ext c -> False.
Proof.
  rewrite <- in_basic_iff. intros Hb [[p Hp] _].
  assert (forallb (fun pc => negb (existsb (Z.eqb (snd pc)) GSM7_BASIC)) ts23038_ext = true) as F by (vm_compute; reflexivity).
  rewrite forallb_forall in F. specialize (F _ Hp). cbn [snd] in F.
  apply negb_true_iff in F. assert (existsb (Z.eqb c) GSM7_BASIC = true) as T; [|congruence].
  apply existsb_exists. exists c. split; auto. lia.
Qed.

Lemma not_basic_255 : ~ lib_basic 255.
Proof.
  rewrite <- in_basic_iff. intro H.
  assert (existsb (Z.eqb 255) GSM7_BASIC = true) as E by (apply existsb_exists; eauto using Z.eqb_refl).
  vm_compute in E. discriminate.
Qed.
Lemma not_ext_255 : ~ lib_ext 255.
Proof.
  intros [[p H] _].
  assert (existsb (fun pc => snd pc =? 255) ts23038_ext = true) as E by (apply existsb_exists; eexists; split; [exact H|reflexivity]).
  vm_compute in E. discriminate.
Qed.

Lemma classify_encodable c : encodable c ->
  (exists i, classify c = EBasic i /\ lib_basic c) \/ (exists v, classify c = EExt v /\ lib_ext c).
Proof.
  intros H. destruct (classify c) eqn:E.
  - left. exists i. split; auto. apply (classify_basic _ _ E).
  - right. exists v. split; auto. apply (classify_ext _ _ E).
  - apply classify_bad in E. unfold encodable in H. tauto.
  - apply classify_type in E. subst. destruct H; [apply not_basic_255 in H|apply not_ext_255 in H]; tauto.
Qed.
Lemma classify_not_encodable c : ~ encodable c -> c <> 255 -> classify c = EBad.
Proof.
  intros H Hn. destruct (classify c) eqn:E; auto.
  - apply classify_basic in E. unfold encodable in H. tauto.
  - apply classify_ext in E. unfold encodable in H. tauto.
  - apply classify_type in E. congruence.
Qed.
Lemma classify_255 : classify 255 = EType.
Proof. vm_compute. reflexivity. Qed.

Lemma encode_ok t : Forall encodable t -> forall d, exists r, encodeGsm7 t d = Ok r /\
  septets_ok r /\ text_weight t (len r).
Proof.
  induction 1 as [|c t Hc Ht IH]; intro d.
  - exists []. repeat constructor.
  - rewrite encodeGsm7_cons. destruct (IH d) as (r & -> & Hr & Hw). cbn [bind].
    destruct (classify_encodable c Hc) as [(i & E & Hb)|(v & E & Hb)]; rewrite E.
    + exists (i :: r). split; auto. split.
      * constructor; auto. apply classify_basic in E. tauto.
      * rewrite len_cons, Z.add_comm. constructor; auto. left; auto.
    + exists (27 :: v :: r). split; auto. split.
      * constructor; [lia|]. constructor; auto. apply classify_ext in E. tauto.
      * rewrite !len_cons. replace (len r + 1 + 1) with (2 + len r) by lia. constructor; auto. right; auto.
Qed.

Lemma encode_ok_inv t : forall r, encodeGsm7 t false = Ok r -> Forall encodable t.
Proof.
  induction t as [|c t IH]; intros r; [constructor|]. rewrite encodeGsm7_cons.
  destruct (classify c) eqn:E; try discriminate;
    destruct (encodeGsm7 t false) eqn:F; try discriminate; intros _; constructor; eauto.
  - left. apply (classify_basic _ _ E).
  - right. apply (classify_ext _ _ E).
Qed.

Lemma encode_first_bad p c q : Forall encodable p -> ~ encodable c ->
  encodeGsm7 (p ++ c :: q) false = Err (if c =? 255 then TypeError else ValueError).
Proof.
  induction 1 as [|x p Hx Hp IH]; intros Hc; simpl app; rewrite encodeGsm7_cons.
  - destruct (Z.eqb_spec c 255) as [->|Hn].
    + rewrite classify_255. reflexivity.
    + rewrite classify_not_encodable by auto. reflexivity.
  - rewrite IH by auto. destruct (classify_encodable x Hx) as [(i & -> & _)|(v & -> & _)]; reflexivity.
Qed.

Lemma encode_discard t f : (forall c, f c = true <-> encodable c) -> ~ In 255 t ->
  encodeGsm7 t true = encodeGsm7 (filter f t) false.
Proof.
  intros Hf Hn. induction t as [|c t IH]; [reflexivity|].
  rewrite encodeGsm7_cons. simpl filter.
  assert (~ In 255 t) as Hn' by (intro; apply Hn; right; auto).
  specialize (IH Hn').
  destruct (f c) eqn:E.
  - apply Hf in E. rewrite encodeGsm7_cons.
    destruct (classify_encodable c E) as [(i & -> & _)|(v & -> & _)]; rewrite IH; reflexivity.
  - rewrite classify_not_encodable; auto.
    + intro F. apply Hf in F. congruence.
    + intros ->. apply Hn. left; auto.
Qed.

(** ** Round trip *)
Lemma basic_27 i : 0 <= i < 128 -> nth_error GSM7_BASIC (Z.to_nat i) = Some 27 -> i = 27.
Proof.
  intros Hi H.
  assert (forallb (fun k => match nth_error GSM7_BASIC k with Some 27 => (k =? 27)%nat | _ => true end) (seq 0 128) = true) as F by (vm_compute; reflexivity).
  rewrite forallb_forall in F. specialize (F (Z.to_nat i)).
  rewrite H in F. specialize (F ltac:(apply in_seq; lia)). lia.
Qed.
Lemma basic_27' : nth_error GSM7_BASIC 27 = Some 27.
Proof. reflexivity. Qed.

Lemma gsm7_roundtrip t : forall d r, ~ In 27 t -> Forall encodable t -> encodeGsm7 t d = Ok r -> decodeGsm7 r = Ok t.
Proof.
  induction t as [|c t IH]; intros d r Hn He; [intros [= <-]; reflexivity|].
  rewrite encodeGsm7_cons. inversion He as [|? ? Hc Ht]; subst.
  assert (~ In 27 t) as Hn' by (intro; apply Hn; right; auto).
  destruct (classify_encodable c Hc) as [(i & E & _)|(v & E & _)]; rewrite E;
    destruct (encodeGsm7 t d) as [r'|] eqn:F; try discriminate; intros [= <-];
    specialize (IH d r' Hn' Ht F); cbn [decodeGsm7].
  - apply classify_basic in E as (_ & Hi & Hk).
    destruct (Z.eqb_spec i 27) as [->|Hne].
    + change (Z.to_nat 27) with 27%nat in Hk. rewrite basic_27' in Hk. exfalso. apply Hn. left. congruence.
    + rewrite Hk, IH. reflexivity.
  - apply classify_ext in E as (_ & _ & _ & _ & El).
    rewrite Z.eqb_refl, El, IH. reflexivity.
Qed.

(** ** The standard's tables *)
Lemma std_table_decode : forall i, (i < 128)%nat -> i <> 0x1B%nat -> i <> 0x5F%nat ->
  exists c, nth_error ts23038_basic i = Some (Some c) /\ decodeGsm7 [Z.of_nat i] = Ok [c] /\ encodeGsm7 [c] false = Ok [Z.of_nat i].
Proof.
  intros i Hi H1 H2.
  assert (forallb (fun i => (i =? 27)%nat || (i =? 95)%nat ||
     match nth_error ts23038_basic i with
     | Some (Some c) => match decodeGsm7 [Z.of_nat i], encodeGsm7 [c] false with
                        | Ok [c'], Ok [i'] => (c =? c') && (i' =? Z.of_nat i) | _, _ => false end
     | _ => false end) (seq 0 128) = true) as F by (vm_compute; reflexivity).
  rewrite forallb_forall in F. specialize (F i ltac:(apply in_seq; lia)).
  apply orb_true_iff in F as [F|F]; [apply orb_true_iff in F as [F|F]; apply Nat.eqb_eq in F; lia|].
  destruct (nth_error ts23038_basic i) as [[c|]|]; try discriminate.
  exists c. split; auto.
  destruct (decodeGsm7 [Z.of_nat i]) as [[|c' [|]]|]; try discriminate.
  destruct (encodeGsm7 [c] false) as [[|i' [|]]|]; try discriminate.
  apply andb_true_iff in F as [F1 F2]. apply Z.eqb_eq in F1, F2. subst. auto.
Qed.

Lemma std_ext_decode : forall p, 0 <= p < 128 -> p <> 0x0A ->
  (forall c, In (p, c) ts23038_ext -> decodeGsm7 [0x1B; p] = Ok [c] /\ encodeGsm7 [c] false = Ok [0x1B; p]) /\
  ((forall c, ~ In (p, c) ts23038_ext) -> decodeGsm7 [0x1B; p] = Ok []).
Proof.
  intros p Hp Hn.
  assert (forallb (fun i => let p := Z.of_nat i in (p =? 10) ||
     match find (fun pc => fst pc =? p) ts23038_ext with
     | Some (_, c) => forallb (fun pc => negb (fst pc =? p) || (snd pc =? c)) ts23038_ext &&
           match decodeGsm7 [27; p], encodeGsm7 [c] false with
           | Ok [c'], Ok [27; p'] => (c' =? c) && (p' =? p) | _, _ => false end
     | None => match decodeGsm7 [27; p] with Ok [] => true | _ => false end
     end) (seq 0 128) = true) as F by (vm_compute; reflexivity).
  rewrite forallb_forall in F. specialize (F (Z.to_nat p) ltac:(apply in_seq; lia)).
  cbv zeta in F. rewrite Z2Nat.id in F by lia.
  apply orb_true_iff in F as [F|F]; [lia|].
  destruct (find _ ts23038_ext) as [[p' c]|] eqn:Fd.
  - apply find_some in Fd as [Hin E]. cbn [fst] in E. assert (p' = p) as -> by lia.
    apply andb_true_iff in F as [Fu F]. rewrite forallb_forall in Fu.
    split; [|intro Ha; exfalso; eapply Ha; eauto].
    intros c2 Hin2. specialize (Fu _ Hin2). cbn [fst snd] in Fu. assert (c2 = c) as -> by lia.
    destruct (decodeGsm7 [27; p]) as [[|c' [|]]|]; try discriminate.
    destruct (encodeGsm7 [c] false) as [[|a [|b [|]]]|]; try discriminate.
    all: try (destruct a as [|q|q]; try discriminate; repeat (destruct q; try discriminate)).
    apply andb_true_iff in F as [F1 F2]. split; f_equal; f_equal; try lia. f_equal. lia.
  - split.
    + intros c Hin. exfalso. pose proof (find_none _ _ Fd _ Hin) as N. cbn [fst] in N. lia.
    + intros _. destruct (decodeGsm7 [27; p]) as [[|]|]; try discriminate. reflexivity.
Qed.

(** Encoding of texts the standard can represent (no section sign, no form
    feed) is the standard's encoding. *)
Lemma std_septets_encode c s : std_septets c s -> c <> 0xA7 -> c <> 0x0C ->
  encodable c /\ c <> 27 /\ forall t d, encodeGsm7 (c :: t) d = (let* r := encodeGsm7 t d in Ok (s ++ r)).
Proof.
  intros H Hs Hf. destruct H as [c i Hi|c p Hp].
  - assert (Hi' : (i < 128)%nat).
    { assert (nth_error ts23038_basic i <> None) as N by congruence. apply nth_error_Some in N. exact N. }
    assert (i <> 0x1B%nat) by (intros ->; vm_compute in Hi; discriminate).
    assert (i <> 0x5F%nat) by (intros ->; vm_compute in Hi; congruence).
    destruct (std_table_decode i Hi') as (c' & Hc & Hd & Hen); auto.
    assert (c' = c) as -> by congruence.
    assert (encodable c) as Hec by (eapply encode_ok_inv in Hen; inversion Hen; auto).
    split; auto. split.
    + intros ->. assert (encodeGsm7 [27] false = Ok [27]) as E27 by (vm_compute; reflexivity).
      rewrite E27 in Hen. injection Hen as E. lia.
    + intros t d. rewrite encodeGsm7_cons. rewrite encodeGsm7_cons in Hen.
      destruct (classify c) eqn:E; cbn in Hen; try discriminate. injection Hen as ->. reflexivity.
  - assert (0 <= p < 128 /\ p <> 10).
    { assert (forallb (fun pc => (snd pc =? 0x0C) || ((0 <=? fst pc) && (fst pc <? 128) && negb (fst pc =? 10))) ts23038_ext = true) as F by (vm_compute; reflexivity).
      rewrite forallb_forall in F. specialize (F _ Hp). cbn [fst snd] in F. lia. }
    destruct (std_ext_decode p) as [Hx _]; try tauto.
    destruct (Hx _ Hp) as [Hd Hen].
    assert (encodable c) as Hec by (eapply encode_ok_inv in Hen; inversion Hen; auto).
    split; auto. split.
    + intros ->. vm_compute in Hen. discriminate.
    + intros t d. rewrite encodeGsm7_cons. rewrite encodeGsm7_cons in Hen.
      destruct (classify c) eqn:E; cbn in Hen; try discriminate. injection Hen as ->. reflexivity.
Qed.

Lemma std_text_encode t s : std_text t s -> ~ In 0xA7 t -> ~ In 0x0C t ->
  encodeGsm7 t false = Ok s /\ ~ In 27 t.
Proof.
  induction 1 as [|c s t r Hc Ht IH]; intros Hs Hf; [auto|].
  simpl in Hs, Hf.
  destruct (std_septets_encode c s Hc) as (He & Hn & Hen); [tauto|tauto|].
  destruct IH as [E Hi]; [tauto|tauto|].
  split.
  - rewrite Hen, E. reflexivity.
  - intros [?|?]; auto.
Qed.

(** conversely, every text the library encodes, without grave accent and ESC,
    is encoded as the standard says *)
Lemma encode_std_text t : forall s, encodeGsm7 t false = Ok s -> ~ In 0x60 t -> ~ In 0x1B t -> std_text t s.
Proof.
  induction t as [|c t IH]; intros s E Hg He.
  - injection E as <-. constructor.
  - pose proof (encode_ok_inv _ _ E) as F. inversion F as [|? ? Hc Ht]; subst.
    assert (Hs : exists sc, std_septets c sc /\ c <> 0xA7 /\ c <> 0x0C).
    { destruct Hc as [[[Hi Hn]|[->| ->]]|[[p Hp] Hn]].
      - apply In_nth_error in Hi as [i Hi]. exists [Z.of_nat i]. split; [constructor; auto|]. split; auto.
        intros ->.
        assert (In (Some 0x0C) ts23038_basic) as B by (eapply nth_error_In; eauto).
        assert (existsb (opt_eqb (Some 0x0C)) ts23038_basic = true) as X by (apply existsb_exists; eexists; split; [exact B|reflexivity]).
        vm_compute in X. discriminate.
      - exfalso. apply Hg. left; auto.
      - exfalso. apply He. left; auto.
      - exists [0x1B; p]. split; [constructor; auto|]. split; auto. intros ->.
        assert (existsb (fun pc => snd pc =? 0xA7) ts23038_ext = true) as X by (apply existsb_exists; eexists; split; [exact Hp|reflexivity]).
        vm_compute in X. discriminate. }
    destruct Hs as (sc & Hs & Ha & Hff).
    destruct (std_septets_encode c sc Hs Ha Hff) as (_ & _ & Hen).
    rewrite Hen in E. destruct (encodeGsm7 t false) as [r|] eqn:Er; [|discriminate]. injection E as <-.
    constructor; auto. apply IH; auto; intro; [apply Hg|apply He]; right; auto.
Qed.

Lemma std_text_septets t s : std_text t s -> septets_ok s.
Proof.
  induction 1 as [|c s t r Hc Ht IH]; [constructor|]. apply Forall_app; split; auto.
  destruct Hc as [c i Hi|c p Hp].
  - assert (nth_error ts23038_basic i <> None) as N by congruence. apply nth_error_Some in N.
    change (length ts23038_basic) with 128%nat in N. constructor; [lia|constructor].
  - assert (forallb (fun pc => (0 <=? fst pc) && (fst pc <? 128)) ts23038_ext = true) as F by (vm_compute; reflexivity).
    rewrite forallb_forall in F. specialize (F _ Hp). cbn [fst] in F.
    constructor; [lia|]. constructor; [lia|constructor].
Qed.
