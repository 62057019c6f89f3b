(** Septet packing and unpacking: proofs.  A sequence of [w]-bit groups is
    identified with the integer it denotes in base 2^w, least significant group
    first. *)
From Verif Require Import Base PduModel PduSpec.
From Coq Require Import ZifyBool.
Ltac Zify.zify_post_hook ::= Z.div_mod_to_equations.

#[global] Arguments Z.mul : simpl never.
#[global] Arguments Z.add : simpl never.
#[global] Arguments Z.sub : simpl never.
#[global] Arguments Z.pow : simpl never.
#[global] Arguments Z.opp : simpl never.
#[global] Arguments Z.of_nat : simpl never.
#[global] Arguments Z.to_nat : simpl never.

Fixpoint vle (B : Z) (l : list Z) : Z :=
  match l with [] => 0 | x :: r => x + B * vle B r end.

Definition in_base (B : Z) (l : list Z) : Prop := Forall (fun x => 0 <= x < B) l.

Lemma len_cons {A} (x : A) l : len (x :: l) = len l + 1.
Proof. unfold len; simpl length; lia. Qed.
Lemma len_nil {A} : len (@nil A) = 0.
Proof. reflexivity. Qed.
Lemma len_app {A} (a b : list A) : len (a ++ b) = len a + len b.
Proof. unfold len; rewrite app_length; lia. Qed.
Lemma len_nonneg {A} (l : list A) : 0 <= len l.
Proof. unfold len; lia. Qed.
#[global] Hint Rewrite @len_cons @len_nil @len_app : len.

Lemma vle_app B a b : vle B (a ++ b) = vle B a + B ^ len a * vle B b.
Proof.
  induction a as [|x a IH]; [rewrite (@len_nil Z), Z.pow_0_r; cbn [app vle]; lia|].
  rewrite len_cons, Z.pow_add_r by (try apply len_nonneg; lia).
  cbn [app vle]. rewrite IH. ring.
Qed.

Lemma vle_bound B l : 0 < B -> in_base B l -> 0 <= vle B l < B ^ len l.
Proof.
  intros HB H. induction H as [|x l Hx Hl IH]; [rewrite (@len_nil Z), Z.pow_0_r; cbn [vle]; lia|].
  rewrite len_cons, Z.pow_add_r by (try apply len_nonneg; lia).
  simpl vle. rewrite Z.pow_1_r. nia.
Qed.

Lemma vle_inj B a : 0 < B -> forall b, in_base B a -> in_base B b ->
  length a = length b -> vle B a = vle B b -> a = b.
Proof.
  intro HB. induction a as [|x a IH]; intros [|y b] Ha Hb Hl Hv; try discriminate; auto.
  inversion Ha; inversion Hb; subst. simpl in *.
  assert (x = y).
  { assert ((x + B * vle B a) mod B = (y + B * vle B b) mod B) as E by congruence.
    rewrite !(Z.mul_comm B), !Z_mod_plus_full, !Z.mod_small in E by lia. exact E. }
  subst y. f_equal. apply IH; auto. nia.
Qed.

Lemma testbit_vle w l k : 0 < w -> in_base (2 ^ w) l -> 0 <= k ->
  Z.testbit (vle (2 ^ w) l) k = bit w l k.
Proof.
  intros Hw H. revert k. induction H as [|x l Hx Hl IH]; intros k Hk.
  - unfold bit. simpl. destruct (Z.to_nat (k / w)); rewrite !Z.testbit_0_l; reflexivity.
  - unfold bit. simpl vle.
    assert (Hp : 0 < 2 ^ w) by (apply Z.pow_pos_nonneg; lia).
    destruct (Z.ltb_spec k w).
    + rewrite Z.div_small, Z.mod_small by lia. simpl.
      rewrite <- (Z.mod_pow2_bits_low (x + _) w k) by lia.
      rewrite (Z.mul_comm (2 ^ w)), Z_mod_plus_full, Z.mod_small by lia. reflexivity.
    + replace (k / w) with ((k - w) / w + 1)
        by (rewrite <- Z.div_add by lia; f_equal; lia).
      replace (k mod w) with ((k - w) mod w)
        by (replace k with (k - w + 1 * w) at 2 by lia; rewrite Z_mod_plus_full; reflexivity).
      rewrite Z2Nat.inj_add by (try apply Z.div_pos; lia).
      change (Z.to_nat 1) with 1%nat. rewrite Nat.add_1_r. simpl nth.
      change (Z.testbit (nth (Z.to_nat ((k - w) / w)) l 0) ((k - w) mod w)) with (bit w l (k - w)).
      rewrite <- IH by lia.
      replace k with ((k - w) + w) at 1 by lia.
      rewrite <- Z.div_pow2_bits by lia.
      f_equal. rewrite (Z.mul_comm (2 ^ w)), Z.div_add, Z.div_small by lia. lia.
Qed.

(** the integer form of [septet_stream] *)
Definition stream_val (fill : Z) (septets octets : list Z) : Prop :=
  in_base 256 octets /\
  8 * (len octets - 1) < fill + 7 * len septets <= 8 * len octets /\
  vle 256 octets = 2 ^ fill * vle 128 septets.

Lemma stream_val_spec fill s o : 0 <= fill -> septets_ok s ->
  (stream_val fill s o <-> septet_stream fill s o).
Proof.
  intros Hf Hs.
  assert (forall k, 0 <= k -> in_base 256 o ->
     Z.testbit (vle 256 o) k = bit 8 o k) as T8
   by (intros; apply (testbit_vle 8); auto; lia).
  assert (forall k, 0 <= k -> Z.testbit (2 ^ fill * vle 128 s) k =
      if k <? fill then false else bit 7 s (k - fill)) as T7.
  { intros k Hk. rewrite Z.mul_comm. destruct (Z.ltb_spec k fill).
    - apply Z.mul_pow2_bits_low; lia.
    - rewrite Z.mul_pow2_bits by lia. apply (testbit_vle 7); auto; lia. }
  split.
  - intros (Ho & Hl & Hv). repeat split; auto; try tauto.
    intros k Hk. rewrite <- T8, <- T7, Hv by auto. reflexivity.
  - intros (Ho & Hl & Hb). repeat split; auto; try tauto.
    apply Z.bits_inj'. intros k Hk. rewrite T8, T7 by auto. auto.
Qed.

(** ** Packing *)

Lemma lor_add a b n : 0 <= n -> a mod 2 ^ n = 0 -> 0 <= b < 2 ^ n -> Z.lor a b = a + b.
Proof.
  intros Hn Ha Hb. rewrite <- Z.lxor_lor, Z.add_nocarry_lxor; auto.
  - apply Z.bits_inj'. intros k Hk. rewrite Z.land_spec, Z.testbit_0_l.
    destruct (Z.ltb_spec k n).
    + rewrite <- (Z.mod_pow2_bits_low a n k), Ha, Z.testbit_0_l by lia. reflexivity.
    + rewrite <- (Z.mod_small b (2 ^ n)), Z.mod_pow2_bits_high by lia. apply andb_false_r.
  - apply Z.bits_inj'. intros k Hk. rewrite Z.land_spec, Z.testbit_0_l.
    destruct (Z.ltb_spec k n).
    + rewrite <- (Z.mod_pow2_bits_low a n k), Ha, Z.testbit_0_l by lia. reflexivity.
    + rewrite <- (Z.mod_small b (2 ^ n)), Z.mod_pow2_bits_high by lia. apply andb_false_r.
Qed.

Lemma land127 x : Z.land x 127 = x mod 128.
Proof. change 127 with (Z.ones 7). apply Z.land_ones. lia. Qed.
Lemma land255 x : Z.land x 255 = x mod 256.
Proof. change 255 with (Z.ones 8). apply Z.land_ones. lia. Qed.

Ltac pow2 := repeat match goal with
  | |- context [2 ^ ?e] => let v := eval vm_compute in (2 ^ e) in
       lazymatch v with Zpos _ => change (2 ^ e) with v end end.
Ltac seven s := 
  let H := fresh in
  assert (s = 0 \/ s = 1 \/ s = 2 \/ s = 3 \/ s = 4 \/ s = 5 \/ s = 6) as H by lia;
  destruct H as [->|[->|[->|[->|[->|[->| ->]]]]]].

Lemma pack_octet shift septet prev : 0 <= shift < 7 -> 0 <= septet < 128 -> 0 <= prev < 128 ->
  let b := Z.lor (Z.land (Z.shiftl septet (7 - shift)) 255) (Z.shiftr prev shift) in
  0 <= b < 256 /\
  b + 256 * Z.shiftr septet (shift + 1) = Z.shiftr prev shift + 2 ^ (7 - shift) * septet.
Proof.
  intros Hs Hx Hp b.
  assert (b = (septet * 2 ^ (7 - shift)) mod 256 + prev / 2 ^ shift) as ->.
  { unfold b. rewrite land255, Z.shiftl_mul_pow2, Z.shiftr_div_pow2 by lia.
    apply (lor_add _ _ (7 - shift)); [lia| |].
    - seven shift; pow2; clear b; lia.
    - seven shift; pow2; clear b; lia. }
  rewrite !Z.shiftr_div_pow2 by lia.
  seven shift; pow2; lia.
Qed.

Lemma pack_loop_spec octets : septets_ok octets -> forall shift prev,
  0 <= shift <= 7 -> 0 <= prev < 128 ->
  exists r, packSeptets_loop octets shift prev = Ok r /\
    in_base 256 r /\
    8 * (len r - 1) < 7 - shift + 7 * len octets <= 8 * len r /\
    vle 256 r = Z.shiftr prev shift + 2 ^ (7 - shift) * vle 128 octets.
Proof.
  induction 1 as [|x l Hx Hl IH]; intros shift prev Hs Hp.
  - simpl. destruct (Z.ltb_spec shift 0); [lia|].
    destruct (Z.eqb_spec shift 7) as [->|Hn]; simpl.
    + exists []. rewrite Z.shiftr_div_pow2 by lia. rewrite Z.div_small by (simpl; lia).
      autorewrite with len. repeat split; try constructor; simpl; lia.
    + exists [Z.shiftr prev shift]. autorewrite with len.
      rewrite Z.shiftr_div_pow2 by lia.
      assert (0 <= shift < 7) as Hs' by lia; clear Hn Hs H.
      assert (0 <= prev / 2 ^ shift < 256) by (seven shift; pow2; lia).
      split; [reflexivity|split; [apply Forall_cons; [assumption|apply Forall_nil]|split; [lia|]]]. cbn [vle]; set (q := prev / _); clearbody q; lia.
  - simpl packSeptets_loop. rewrite land127, (Z.mod_small x) by lia.
    destruct (Z.eqb_spec shift 7) as [->|Hn].
    + destruct (IH 0 x ltac:(lia) Hx) as (r & -> & Hr & HL & HV).
      exists r. autorewrite with len. repeat split; auto; try lia.
      rewrite HV. change (Z.shiftr x 0) with x. simpl vle.
      rewrite Z.shiftr_div_pow2 by lia. rewrite Z.div_small by (simpl; lia).
      change (2 ^ (7 - 0)) with 128. change (2 ^ (7 - 7)) with 1. lia.
    + replace ((shift <? 0) || (7 <? shift)) with false by lia.
      destruct (IH (shift + 1) x ltac:(lia) Hx) as (r & -> & Hr & HL & HV).
      destruct (pack_octet shift x prev ltac:(lia) Hx Hp) as [Hb He].
      cbn [bind]. eexists; split; [reflexivity|].
      autorewrite with len. repeat split; try lia.
      * constructor; auto.
      * simpl vle. rewrite HV.
        rewrite Z.mul_add_distr_l, Z.add_assoc, He.
        replace (256 * (2 ^ (7 - (shift + 1)) * vle 128 l)) with (2 ^ (7 - shift) * (128 * vle 128 l)); [ring|].
        replace (7 - shift) with (7 - (shift + 1) + 1) by lia.
        rewrite (Z.pow_add_r 2 (7 - (shift + 1)) 1) by lia. ring.
Qed.

(** number of fill bits a padBits argument stands for *)
Definition fill_of_pad (padBits : Z) : Z := if padBits =? 0 then 0 else 7 - padBits.

Lemma packSeptets_spec s pad : septets_ok s -> 0 <= pad <= 6 -> (pad = 0 -> s <> []) ->
  exists o, packSeptets s pad = Ok o /\ stream_val (fill_of_pad pad) s o.
Proof.
  intros Hs Hp Hn. unfold packSeptets, fill_of_pad, stream_val.
  destruct (Z.eqb_spec pad 0) as [->|H0].
  - destruct s as [|x s]; [specialize (Hn eq_refl); congruence|].
    inversion Hs; subst. cbn [next bind].
    destruct (pack_loop_spec s H2 0 x ltac:(lia) H1) as (r & -> & Hr & HL & HV).
    exists r. split; auto. split; auto. autorewrite with len. split; [lia|].
    rewrite HV. change (Z.shiftr x 0) with x. simpl vle. change (2 ^ (7 - 0)) with 128.
    change (2 ^ 0) with 1. lia.
  - destruct (pack_loop_spec s Hs pad 0 ltac:(lia) ltac:(lia)) as (r & -> & Hr & HL & HV).
    exists r. split; auto. split; auto. split; [lia|].
    rewrite HV, Z.shiftr_0_l. lia.
Qed.

Lemma packSeptets_nil : packSeptets [] 0 = Err StopIteration.
Proof. reflexivity. Qed.

(** ** Unpacking *)

Lemma unpack_octet s o p : 1 <= s < 7 -> 0 <= o < 256 -> 0 <= p < 256 ->
  let b := Z.lor (Z.land (Z.shiftl o s) 127) (Z.shiftr p (8 - s)) in
  0 <= b < 128 /\
  b + 128 * Z.shiftr o (8 - (s + 1)) = Z.shiftr p (8 - s) + 2 ^ s * o.
Proof.
  intros Hs Ho Hp b.
  assert (b = (o * 2 ^ s) mod 128 + p / 2 ^ (8 - s)) as ->.
  { unfold b. rewrite land127, Z.shiftl_mul_pow2, Z.shiftr_div_pow2 by lia.
    apply (lor_add _ _ s); [lia| |]; clear b; seven s; pow2; lia. }
  rewrite !Z.shiftr_div_pow2 by lia.
  seven s; pow2; lia.
Qed.

(** What remains pending before the loop: nothing for [None]. *)
Definition pending (prev : option Z) (shift : Z) : Z :=
  match prev with Some p => Z.shiftr p (8 - shift) | None => 0 end.
(** number of pending bits *)
Definition pending_bits (prev : option Z) (shift : Z) : Z :=
  match prev with Some _ => shift | None => 0 end.

(** The stream of all full septets of [m] octets after [k] pending bits has
    [(8m + k) / 7] groups; the last one is dropped by the code when the pending
    bits at the end are exactly seven zero bits. *)
Definition unpack_result (out : list Z) (k v m : Z) : Prop :=
  septets_ok out /\
  exists rest, 0 <= rest /\
  vle 128 out + 128 ^ len out * rest = v /\
  ((len out = (k + 8 * m) / 7 /\ ((k + 8 * m) mod 7 = 0 -> last out 0 <> 0)) \/
   (len out = (k + 8 * m) / 7 - 1 /\ (k + 8 * m) mod 7 = 0 /\ rest = 0)).

Lemma last_cons0 (b : Z) l : last l 0 <> 0 -> last (b :: l) 0 <> 0.
Proof. destruct l; [simpl; congruence|auto]. Qed.

Lemma unpack_end_spec shift p : 1 <= shift <= 7 -> 0 <= p < 256 ->
  exists out, unpackSeptets_end shift (Some p) = Ok out /\
  unpack_result out shift (Z.shiftr p (8 - shift)) 0.
Proof.
  intros Hs Hp. unfold unpackSeptets_end.
  assert (0 <= Z.shiftr p (8 - shift)) by (apply Z.shiftr_nonneg; lia).
  destruct (Z.eqb_spec shift 7) as [->|Hn].
  - change (8 - 7) with 1 in *. assert (Z.shiftr p 1 < 128) by (rewrite Z.shiftr_div_pow2 by lia; pow2; lia).
    destruct (Z.eqb_spec (Z.shiftr p 1) 0) as [E|E]; simpl negb; cbv iota.
    + exists []. split; auto. split; [constructor|]. exists 0. rewrite E. cbn [vle]. autorewrite with len. rewrite Z.pow_0_r. lia.
    + exists [Z.shiftr p 1]. split; auto. split; [repeat constructor; lia|]. exists 0. cbn [vle last]. autorewrite with len. change (0 + 1) with 1. rewrite Z.pow_1_r. lia.
  - exists []. split; auto. split; [constructor|]. exists (Z.shiftr p (8 - shift)).
    cbn [vle]. autorewrite with len. rewrite Z.pow_0_r. lia.
Qed.

(** [n] octets are left to read; [i] already counted. *)
Lemma unpack_loop_spec octets : octets_ok octets -> forall n i prev shift,
  1 <= shift <= 7 -> (prev = None -> shift = 7 /\ octets <> []) ->
  (forall p, prev = Some p -> 0 <= p < 256) ->
  match n with Some m => i + 1 <= m | None => True end ->
  let taken := match n with Some m => firstn (Z.to_nat (m - i)) octets | None => octets end in
  let left := match n with Some m => skipn (Z.to_nat (m - i)) octets | None => [] end in
  exists out, unpackSeptets_loop octets n i prev shift = Ok (out, left) /\
    unpack_result out (pending_bits prev shift)
      (pending prev shift + 2 ^ pending_bits prev shift * vle 256 taken) (len taken).
Proof.
  induction 1 as [|x l Hx Hl IH]; intros n i prev shift Hs Hnone Hsome Hn taken left.
  - destruct prev as [p|]; [|destruct (Hnone eq_refl) as [_ F]; congruence].
    simpl. destruct (unpack_end_spec shift p Hs (Hsome p eq_refl)) as (e & -> & He).
    cbn [bind]. assert (taken = []) as -> by (unfold taken; destruct n; auto; destruct (Z.to_nat _); auto).
    assert (left = []) as -> by (unfold left; destruct n; auto; destruct (Z.to_nat _); auto).
    exists e. split; auto. simpl vle. rewrite Z.mul_0_r, Z.add_0_r. exact He.
  - assert (Htk : taken = x :: match n with Some m => firstn (Z.to_nat (m - (i+1))) l | None => l end).
    { unfold taken; destruct n as [m|]; auto.
      replace (Z.to_nat (m - i)) with (S (Z.to_nat (m - (i+1)))) by lia. reflexivity. }
    assert (Hlf : left = match n with Some m => skipn (Z.to_nat (m - (i+1))) l | None => [] end).
    { unfold left; destruct n as [m|]; auto.
      replace (Z.to_nat (m - i)) with (S (Z.to_nat (m - (i+1)))) by lia. reflexivity. }
    clearbody taken left. subst taken left.
    (* the continuation after this octet *)
    assert (Hcont : forall sh, 1 <= sh <= 7 -> exists out,
      (if match n with Some m => i + 1 =? m | None => false end
       then let* e := unpackSeptets_end sh (Some x) in Ok (e, l)
       else unpackSeptets_loop l n (i + 1) (Some x) sh)
      = Ok (out, match n with Some m => skipn (Z.to_nat (m - (i+1))) l | None => [] end) /\
      let tl := match n with Some m => firstn (Z.to_nat (m - (i+1))) l | None => l end in
      unpack_result out sh (Z.shiftr x (8 - sh) + 2 ^ sh * vle 256 tl) (len tl)).
    { intros sh Hsh. destruct n as [m|]; [destruct (Z.eqb_spec (i + 1) m) as [E|E]|].
      - replace (Z.to_nat (m - (i + 1))) with 0%nat by lia.
        destruct (unpack_end_spec sh x Hsh Hx) as (e & -> & He). exists e. split; auto.
        cbv zeta. simpl firstn. simpl vle. rewrite Z.mul_0_r, Z.add_0_r. exact He.
      - destruct (IH (Some m) (i + 1) (Some x) sh Hsh ltac:(discriminate) ltac:(congruence) ltac:(cbv beta iota in *; lia)) as (out & Ho & Hr).
        eauto.
      - destruct (IH None (i + 1) (Some x) sh Hsh ltac:(discriminate) ltac:(congruence) I) as (out & Ho & Hr).
        eauto. }
    set (tl := match n with Some m => firstn (Z.to_nat (m - (i+1))) l | None => l end) in *.
    set (lf := match n with Some m => skipn (Z.to_nat (m - (i+1))) l | None => [] end) in *.
    cbn [unpackSeptets_loop].
    assert (Hfit : match n with Some m => i + 1 <=? m | None => true end = true) by (destruct n; [lia|reflexivity]).
    rewrite Hfit.
    destruct (Z.eqb_spec shift 7) as [->|Hn7].
    + destruct (Hcont 1 ltac:(lia)) as (out & Ho & Hso & rest & Hr & Hv & Hlen).
      set (out1 := match prev with Some p => [Z.shiftr p 1] | None => [] end).
      exists (out1 ++ Z.land x 127 :: out). split.
      { destruct (match n with Some m => _ | None => false end).
        - destruct (unpackSeptets_end 1 (Some x)) eqn:E; [|discriminate Ho].
          cbn [bind] in Ho |- *. injection Ho as <- <-. reflexivity.
        - rewrite Ho. reflexivity. }
      rewrite land127.
      assert (Hxx : x mod 128 + 128 * Z.shiftr x (8 - 1) = x)
        by (rewrite Z.shiftr_div_pow2 by lia; pow2; lia).
      change (2 ^ 1) with 2 in Hv.
      unfold out1, pending, pending_bits in *.
      destruct prev as [p|].
      * specialize (Hsome p eq_refl). change (8 - 7) with 1.
        assert (0 <= Z.shiftr p 1 < 128) by (rewrite Z.shiftr_div_pow2 by lia; pow2; lia).
        split; [simpl; constructor; [lia|constructor; [lia|exact Hso]]|].
        exists rest. split; auto. cbn [app vle]. autorewrite with len.
        replace (len out + 1 + 1) with (len out + 2) by lia.
        rewrite (Z.pow_add_r 128 (len out) 2) by (try apply len_nonneg; lia).
        change (2 ^ 7) with 128. change (128 ^ 2) with 16384.
        split; [|destruct Hlen as [[Hl1 Hl2]|Hlen]; [left; split; [lia|intro; repeat apply last_cons0; apply Hl2; lia]|right; lia]].
        set (P := Z.shiftr p 1) in *. clearbody P.
        transitivity (P + 128 * (x mod 128 + 128 * (vle 128 out + 128 ^ len out * rest))); [ring|].
        rewrite Hv. clear - Hxx. lia.
      * split; [simpl; constructor; [lia|exact Hso]|].
        exists rest. split; auto. simpl app. cbn [vle]. autorewrite with len.
        rewrite (Z.pow_add_r 128 (len out) 1) by (try apply len_nonneg; lia).
        split; [|destruct Hlen as [[Hl1 Hl2]|Hlen]; [left; split; [lia|intro; repeat apply last_cons0; apply Hl2; lia]|right; lia]].
        change (2 ^ 0) with 1. change (128 ^ 1) with 128.
        transitivity (x mod 128 + 128 * (vle 128 out + 128 ^ len out * rest)); [ring|].
        rewrite Hv. clear - Hxx. lia.
    + destruct prev as [p|]; [|destruct (Hnone eq_refl); lia].
      specialize (Hsome p eq_refl).
      destruct (unpack_octet shift x p ltac:(lia) Hx Hsome) as [Hb He].
      set (b := Z.lor _ _) in *.
      destruct (Hcont (shift + 1) ltac:(lia)) as (out & Ho & Hso & rest & Hr & Hv & Hlen).
      exists (b :: out). split.
      { destruct (match n with Some m => _ | None => false end).
        - destruct (unpackSeptets_end (shift + 1) (Some x)) eqn:E; [|discriminate Ho].
          cbn [bind] in Ho |- *. injection Ho as <- <-. reflexivity.
        - rewrite Ho. reflexivity. }
      unfold pending, pending_bits.
      split; [constructor; auto|]. exists rest. split; auto.
      cbn [vle]. autorewrite with len.
      rewrite (Z.pow_add_r 128 (len out) 1) by (try apply len_nonneg; lia).
      split; [|destruct Hlen as [[Hl1 Hl2]|Hlen]; [left; split; [lia|intro; repeat apply last_cons0; apply Hl2; lia]|right; lia]].
      change (128 ^ 1) with 128.
      transitivity (b + 128 * (vle 128 out + 128 ^ len out * rest)); [ring|].
      rewrite Hv, Z.mul_add_distr_l, Z.add_assoc, He.
      rewrite (Z.pow_add_r 2 shift 1) by lia. ring.
Qed.

Lemma unpackSeptets_None_spec o n : octets_ok o -> o <> [] ->
  match n with Some m => 1 <= m | None => True end ->
  let taken := match n with Some m => firstn (Z.to_nat m) o | None => o end in
  let left := match n with Some m => skipn (Z.to_nat m) o | None => [] end in
  exists out, unpackSeptets o n None 7 = Ok (out, left) /\
    unpack_result out 0 (vle 256 taken) (len taken).
Proof.
  intros Ho Hne Hn taken left. unfold unpackSeptets.
  destruct (unpack_loop_spec o Ho n 0 None 7) as (out & E & H); try lia; try discriminate; auto.
  exists out. cbn [pending pending_bits] in H. rewrite Z.pow_0_r, Z.mul_1_l, Z.add_0_l in H.
  unfold taken, left in *. destruct n as [m|]; rewrite ?Z.sub_0_r in *; auto.
Qed.

(** What unpacking returns for the packed form of [s]: [s], except that a final
    zero septet is dropped when the stream fills its last octet. *)
Definition lossy (fill : Z) (s : list Z) : list Z :=
  if ((fill + 7 * len s) mod 8 =? 0) && (last s 1 =? 0) then removelast s else s.

Lemma septets_last_big (s : list Z) : in_base 128 s -> last s 0 <> 0 -> 128 ^ (len s - 1) <= vle 128 s.
Proof.
  induction 1 as [|x l Hx Hl IH]; intros Hz; [simpl in Hz; congruence|].
  destruct l as [|y l].
  - simpl in *. autorewrite with len. change (0 + 1 - 1) with 0. rewrite Z.pow_0_r. lia.
  - assert (last (y :: l) 0 <> 0) as H by exact Hz. specialize (IH H).
    autorewrite with len in *. 
    replace (len l + 1 + 1 - 1) with (1 + (len l + 1 - 1)) by lia.
    rewrite Z.pow_add_r by (pose proof (len_nonneg l); lia).
    cbn [vle] in *. rewrite Z.pow_1_r. lia.
Qed.

Lemma vle_snoc B l x : vle B (l ++ [x]) = vle B l + B ^ len l * x.
Proof. rewrite vle_app. cbn [vle]. ring. Qed.

Lemma unpack_result_unique out K v m fill s :
  septets_ok s ->
  unpack_result out K v m -> v = vle 128 s ->
  K + 8 * m - 8 < 7 * len s <= K + 8 * m ->
  (K + 8 * m + fill) mod 8 = 0 ->
  out = lossy fill s.
Proof.
  intros Hs (Ho & rest & Hr & Hv & Hl) -> Hb Hf.
  pose proof (vle_bound 128 s ltac:(lia) Hs) as Bs.
  pose proof (vle_bound 128 out ltac:(lia) Ho) as Bo.
  pose proof (len_nonneg s) as Ls. pose proof (len_nonneg out) as Lo.
  assert (Hsame : len out = len s -> out = s).
  { intro E. apply (vle_inj 128); auto; try lia; [unfold len in E; lia|].
    rewrite E in *. clear - Bs Bo Hv Hr. set (P := 128 ^ len s) in *. clearbody P.
    assert (rest = 0 \/ 1 <= rest) as [->|Hr1] by lia; [lia|].
    pose proof (Z.mul_le_mono_nonneg_l 1 rest P ltac:(lia) Hr1). lia. }
  assert (Hnl : ((fill + 7 * len s) mod 8 =? 0) && (last s 1 =? 0) = false -> lossy fill s = s)
    by (unfold lossy; intros ->; auto).
  destruct Hl as [[Hl Hz]|(Hl & Hm & ->)].
  - assert (len out = len s \/ len out = len s + 1) as [E|E] by lia.
    + rewrite Hsame by auto. symmetry.
      destruct (_ && _) eqn:C; [|auto]. exfalso.
      apply andb_true_iff in C as [C1 C2].
      specialize (Hz ltac:(lia)). rewrite Hsame in Hz by auto.
      destruct s as [|x s]; [discriminate|]. 
      assert (last (x :: s) 1 = last (x :: s) 0) as E1
        by (clear; revert x; induction s as [|y s IH]; intro x; [reflexivity|exact (IH y)]).
      lia.
    + exfalso. specialize (Hz ltac:(lia)).
      pose proof (septets_last_big out Ho Hz) as Hbig.
      replace (len out - 1) with (len s) in Hbig by lia.
      clear - Hbig Bs Bo Hv Hr. set (P := 128 ^ len s) in *. set (Q := 128 ^ len out) in *. clearbody P Q. nia.
  - assert (len out = len s \/ len out = len s - 1) as [E|E] by lia.
    + rewrite Hsame by auto. symmetry. apply Hnl. 
      apply andb_false_iff. left. lia.
    + rewrite Z.mul_0_r, Z.add_0_r in Hv.
      assert (Es : s = out ++ [0]).
      { apply (vle_inj 128); auto; try lia.
        - apply Forall_app; split; auto. constructor; [lia|constructor].
        - rewrite app_length. unfold len in *. simpl. lia.
        - rewrite vle_snoc. lia. }
      unfold lossy. rewrite Es at 2. rewrite last_last.
      replace ((fill + 7 * len s) mod 8 =? 0) with true by lia.
      simpl. rewrite Es, removelast_last. reflexivity.
Qed.

(** Unpacking a packed stream without fill bits. *)
Lemma unpack_stream0 s o n : septets_ok s -> s <> [] -> stream_val 0 s o ->
  match n with Some m => len o <= m | None => True end ->
  unpackSeptets o n None 7 = Ok (lossy 0 s, []).
Proof.
  intros Hs Hne (Ho & HL & Hv) Hn.
  assert (0 < len s) by (destruct s; [congruence|]; rewrite len_cons; pose proof (len_nonneg s); lia).
  assert (Hoe : o <> []) by (intros ->; rewrite (@len_nil Z) in HL; lia).
  destruct (unpackSeptets_None_spec o n Ho Hoe) as (out & E & H0).
  { destruct n; auto. lia. }
  assert (Ht : match n with Some m => firstn (Z.to_nat m) o | None => o end = o)
    by (destruct n; auto; apply firstn_all2; unfold len in *; lia).
  assert (Hl : match n with Some m => skipn (Z.to_nat m) o | None => [] end = [])
    by (destruct n; auto; apply skipn_all2; unfold len in *; lia).
  rewrite Ht, Hl in *. rewrite E. f_equal. f_equal.
  rewrite Z.pow_0_r, Z.mul_1_l in Hv.
  apply (unpack_result_unique out 0 (vle 256 o) (len o)); auto; lia.
Qed.

(** Reading exactly the octets of a field from a longer stream. *)
Lemma unpack_stream0_prefix s o tail : septets_ok s -> s <> [] -> stream_val 0 s o ->
  octets_ok tail ->
  unpackSeptets (o ++ tail) (Some (len o)) None 7 = Ok (lossy 0 s, tail).
Proof.
  intros Hs Hne (Ho & HL & Hv) Htl.
  assert (0 < len s) by (destruct s; [congruence|]; rewrite len_cons; pose proof (len_nonneg s); lia).
  assert (Hoe : o ++ tail <> []) by (intros E; apply app_eq_nil in E as [-> _]; rewrite (@len_nil Z) in HL; lia).
  destruct (unpackSeptets_None_spec (o ++ tail) (Some (len o))) as (out & E & H0); auto.
  { apply Forall_app; auto. }
  { lia. }
  cbv zeta in *. assert (Hto : Z.to_nat (len o) = length o) by (unfold len; lia). rewrite Hto in *.
  rewrite skipn_app, skipn_all, Nat.sub_diag in E.
  rewrite firstn_app, firstn_all, Nat.sub_diag in H0. simpl in E, H0. rewrite app_nil_r in H0.
  rewrite E. f_equal. f_equal.
  rewrite Z.pow_0_r, Z.mul_1_l in Hv.
  apply (unpack_result_unique out 0 (vle 256 o) (len o)); auto; lia.
Qed.

(** Unpacking a packed stream that starts with [fill] fill bits, the way
    _decodeUserData does it: first octet read in advance, shift = 8 - fill. *)
Lemma unpack_stream_fill s p o fill n : septets_ok s -> 1 <= fill <= 6 -> stream_val fill s (p :: o) ->
  len o < n -> 
  unpackSeptets o (Some n) (Some p) (8 - fill) = Ok (lossy fill s, []).
Proof.
  intros Hs Hf (Ho & HL & Hv) Hn. inversion Ho; subst.
  pose proof (len_nonneg o).
  destruct (unpack_loop_spec o H2 (Some n) 0 (Some p) (8 - fill)) as (out & E & H0);
    try discriminate; try lia; try congruence.
  cbv zeta in *. rewrite firstn_all2 in H0 by (unfold len in *; lia).
  rewrite skipn_all2 in E by (unfold len in *; lia).
  unfold unpackSeptets. rewrite E. f_equal. f_equal.
  cbn [pending pending_bits] in H0. rewrite len_cons in *.
  eapply unpack_result_unique; [exact Hs|exact H0| |lia|lia].
  rewrite Z.shiftr_div_pow2 by lia. cbn [vle] in Hv.
  replace (8 - (8 - fill)) with fill by lia. set (V := vle 256 o) in *. clearbody V.
  assert (256 = 2 ^ fill * 2 ^ (8 - fill)) as E256
    by (rewrite <- Z.pow_add_r by lia; replace (fill + (8 - fill)) with 8 by lia; reflexivity).
  assert (0 < 2 ^ fill) by (apply Z.pow_pos_nonneg; lia).
  apply (Z.mul_reg_l _ _ (2 ^ fill)); [lia|]. rewrite <- Hv, E256.
  assert (p mod 2 ^ fill = 0).
  { assert ((p + 256 * V) mod 2 ^ fill = 0) as M
      by (rewrite Hv, Z.mul_comm; apply Z_mod_mult).
    rewrite E256 in M. replace (p + 2 ^ fill * 2 ^ (8 - fill) * V)
      with (p + (2 ^ (8 - fill) * V) * 2 ^ fill) in M by ring.
    rewrite Z_mod_plus_full in M. exact M. }
  assert (p = 2 ^ fill * (p / 2 ^ fill)) as Ep by (rewrite (Z.div_mod p (2 ^ fill)) at 1; lia).
  rewrite Z.mul_add_distr_l, <- Ep. ring.
Qed.
