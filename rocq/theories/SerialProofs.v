(** Proofs about line framing and final result lines. *)
From Verif Require Import Base RegexModel RegexProofs SerialModel SerialSpec.

Lemma str_eqb_true a b : str_eqb a b = true <-> a = b.
Proof.
  revert b. induction a as [|x a IH]; intros [|y b]; unfold str_eqb in *; cbn [list_eqb]; try (split; congruence).
  rewrite andb_true_iff, IH, Z.eqb_eq. split; [intros [-> ->]; auto|intros [= -> ->]; auto].
Qed.
Lemma ends_with_spec b s : ends_with b s = true <-> suffix_of s b.
Proof.
  unfold ends_with. rewrite str_eqb_true. split.
  - intro E. exists (firstn (length b - length s) b). rewrite <- E at 2. symmetry. apply firstn_skipn.
  - intros [a ->]. rewrite app_length. replace (length a + length s - length s)%nat with (length a) by lia.
    apply firstn_app_all.
Qed.
Lemma ends_with_false b s : ends_with b s = false <-> ~ suffix_of s b.
Proof. rewrite <- ends_with_spec. destruct (ends_with b s); split; congruence. Qed.

Lemma snoc_split {A} (s a b : list A) c : s ++ [c] = a ++ b -> b <> [] -> exists b', s = a ++ b'.
Proof.
  intros E N. destruct (exists_last N) as (b' & d & ->). rewrite app_assoc in E. apply app_inj_tail in E as [-> _]. eauto.
Qed.

Definition frame_ok (e s : str) (calls : list (str * bool)) (left : str) : Prop :=
  exists segs outs, s = List.concat segs ++ left /\ Forall (first_complete e) segs /\
    Forall2 handed_over segs outs /\ calls = somes outs /\ none_complete e left.

Lemma none_complete_nil e : none_complete e [].
Proof. intros a b E N. symmetry in E. apply app_eq_nil in E as [-> _]. congruence. Qed.

Lemma first_complete_snoc e buf c : none_complete e buf -> complete e (buf ++ [c]) -> first_complete e (buf ++ [c]).
Proof.
  intros N C. split; auto. intros a b E Na Nb. apply snoc_split in E as [b' ->]; auto. eapply N; eauto.
Qed.
Lemma none_complete_snoc e buf c : none_complete e buf -> ~ complete e (buf ++ [c]) -> none_complete e (buf ++ [c]).
Proof.
  intros N C a b E Na. destruct b as [|x b].
  - rewrite app_nil_r in E. subst. auto.
  - apply snoc_split in E as [b' ->]; [|discriminate]. eapply N; eauto.
Qed.

Lemma rx_frames e input : forall buf calls left, none_complete e buf -> rx_run (Some e) buf input = (calls, left) ->
  frame_ok e (buf ++ received input) calls left.
Proof.
  induction input as [|[c|] input IH]; intros buf calls left N E; cbn [rx_run received] in *.
  - injection E as <- <-. exists [], []. rewrite app_nil_r. repeat split; auto; constructor.
  - cbn [rx_step] in E. cbv zeta in E. destruct (ends_with (buf ++ [c]) RX_EOL_SEQ) eqn:EC.
    + pose proof EC as EC0. apply ends_with_spec in EC0 as [l El]. rewrite El in E.
      change (length RX_EOL_SEQ) with (length crlf) in E. change RX_EOL_SEQ with crlf in *.
      rewrite app_length in E. replace (length l + length crlf - length crlf)%nat with (length l) in E by lia.
      rewrite (proj1 (firstn_app_all l crlf)) in E.
      destruct (rx_run (Some e) [] input) as [calls' left'] eqn:R. injection E as <- <-.
      destruct (IH _ _ _ (none_complete_nil e) R) as (segs & outs & E1 & F1 & F2 & E2 & NL). cbn [app] in E1.
      assert (FC : first_complete e (buf ++ [c])) by (apply first_complete_snoc; auto; left; exists l; auto).
      exists ((buf ++ [c]) :: segs). exists ((match l with [] => None | _ => Some (l, true) end) :: outs).
      cbn [List.concat]. rewrite E1. split; [rewrite <- !app_assoc; reflexivity|]. split; [constructor; auto|].
      split; [constructor; auto; rewrite El; destruct l; constructor; discriminate|]. split; auto. rewrite E2. destruct l; reflexivity.
    + apply ends_with_false in EC. change RX_EOL_SEQ with crlf in EC. destruct (ends_with (buf ++ [c]) e) eqn:EP.
      * apply ends_with_spec in EP. destruct (rx_run (Some e) [] input) as [calls' left'] eqn:R. injection E as <- <-.
        destruct (IH _ _ _ (none_complete_nil e) R) as (segs & outs & E1 & F1 & F2 & E2 & NL). cbn [app] in E1.
        exists ((buf ++ [c]) :: segs), (Some (buf ++ [c], false) :: outs). cbn [List.concat]. rewrite E1.
        split; [rewrite <- !app_assoc; reflexivity|]. split; [constructor; auto; apply first_complete_snoc; auto; right; auto|].
        split; [constructor; auto; constructor; auto|]. split; auto. cbn [somes]. rewrite E2. reflexivity.
      * apply ends_with_false in EP. destruct (rx_run (Some e) (buf ++ [c]) input) as [calls' left'] eqn:R. injection E as <- <-.
        replace (buf ++ c :: received input) with ((buf ++ [c]) ++ received input) by (rewrite <- app_assoc; reflexivity).
        apply IH; auto. apply none_complete_snoc; auto. intros [|]; auto.
  - cbn [rx_step] in E. destruct (rx_run (Some e) buf input) as [calls' left'] eqn:R. injection E as <- <-. eapply IH; eauto.
Qed.
Lemma rx_frames_prompt e input calls left : rx_run (Some e) [] input = (calls, left) ->
  exists segs outs, received input = List.concat segs ++ left /\ Forall (first_complete e) segs /\
    Forall2 handed_over segs outs /\ calls = somes outs /\ none_complete e left.
Proof. intro E. apply (rx_frames e input [] calls left (none_complete_nil e) E). Qed.

Lemma rx_step_none buf d : rx_step None buf d = rx_step (Some crlf) buf d.
Proof.
  destruct d as [c|]; cbn [rx_step]; auto. cbv zeta. change RX_EOL_SEQ with crlf. destruct (ends_with (buf ++ [c]) crlf); reflexivity.
Qed.
Lemma rx_run_none input : forall buf, rx_run None buf input = rx_run (Some crlf) buf input.
Proof. induction input as [|d input IH]; intro buf; cbn [rx_run]; auto. rewrite rx_step_none. destruct (rx_step (Some crlf) buf d). rewrite IH. reflexivity. Qed.

Lemma first_complete_crlf s : first_complete crlf s -> exists p, s = p ++ crlf /\ ~ occurs crlf p.
Proof.
  intros [C F]. assert (suffix_of crlf s) as [p ->] by (destruct C; auto). exists p. split; auto.
  intros (a & b & ->). apply (F (a ++ crlf) (b ++ crlf)).
  - rewrite <- !app_assoc. reflexivity.
  - destruct a; discriminate.
  - destruct b; discriminate.
  - left. exists a. reflexivity.
Qed.
Lemma none_complete_crlf s : none_complete crlf s -> ~ occurs crlf s.
Proof.
  intros N (a & b & ->). apply (N (a ++ crlf) b).
  - rewrite <- !app_assoc. reflexivity.
  - destruct a; discriminate.
  - left. exists a. reflexivity.
Qed.
Lemma rx_frames_crlf input calls left : rx_run None [] input = (calls, left) ->
  exists pieces, cut_at_crlf (received input) pieces left /\ calls = map (fun l => (l, true)) (filter nonempty pieces).
Proof.
  rewrite rx_run_none. intro E. destruct (rx_frames_prompt _ _ _ _ E) as (segs & outs & E1 & F1 & F2 & E2 & N).
  assert (G : exists pieces, segs = map (fun p => p ++ crlf) pieces /\ (forall p, In p pieces -> ~ occurs crlf p) /\
    somes outs = map (fun l => (l, true)) (filter nonempty pieces)).
  { clear E E1 E2. revert F1. induction F2 as [|s o segs outs H F2 IH]; intro F1.
    - exists []. repeat split; auto.
    - inversion F1 as [|? ? Fs F1']; subst. destruct (IH F1') as (ps & -> & P & S).
      destruct (first_complete_crlf _ Fs) as (p & -> & Np). exists (p :: ps). split; auto. split; [intros q [<-|]; auto|].
      assert (o = match p with [] => None | _ => Some (p, true) end) as ->.
      { inversion H as [E0|l Nl El|s Ns]; subst.
        - destruct p as [|? [|? [|]]]; try discriminate; reflexivity.
        - apply app_inv_tail in El. subst l. destruct p; [congruence|reflexivity].
        - exfalso. apply Ns. exists p. reflexivity. }
      destruct p; cbn [somes filter nonempty map]; rewrite S; reflexivity. }
  destruct G as (ps & -> & P & S). exists ps. split; [|rewrite E2; auto]. split; [auto|]. split; auto. apply none_complete_crlf; auto.
Qed.

Lemma occurs_cons c p s : occurs p s -> occurs p (c :: s).
Proof. intros (a & b & ->). exists (c :: a), b. reflexivity. Qed.
Lemma cut_first p q x y : ~ occurs crlf p -> ~ occurs crlf q -> p ++ crlf ++ x = q ++ crlf ++ y -> p = q /\ x = y.
Proof.
  revert q. induction p as [|c p IH]; intros q Np Nq E.
  - destruct q as [|a [|b q]]; cbn in E.
    + injection E as ->. auto.
    + injection E as E1 E2 E3. congruence.
    + exfalso. injection E as <- <- E. apply Nq. exists [], q. reflexivity.
  - destruct q as [|a q].
    + exfalso. destruct p as [|b p]; cbn in E.
      * injection E as E1 E2 E3. congruence.
      * injection E as -> -> E. apply Np. exists [], p. reflexivity.
    + cbn in E. injection E as -> E. destruct (IH q) as [-> ->]; auto.
      * intro O. apply Np, occurs_cons, O.
      * intro O. apply Nq, occurs_cons, O.
Qed.
Lemma cut_unique s p1 l1 p2 l2 : cut_at_crlf s p1 l1 -> cut_at_crlf s p2 l2 -> p1 = p2 /\ l1 = l2.
Proof.
  revert s p2. induction p1 as [|p p1 IH]; intros s p2 (E1 & P1 & L1) (E2 & P2 & L2); cbn [map List.concat] in E1.
  - destruct p2 as [|q p2]; cbn [map List.concat] in E2; [cbn [app] in *; subst; auto|].
    exfalso. apply L1. cbn [app] in E1. rewrite <- E1, E2. exists q. eexists. rewrite <- !app_assoc. reflexivity.
  - destruct p2 as [|q p2]; cbn [map List.concat] in E2.
    + exfalso. apply L2. cbn [app] in E2. rewrite <- E2, E1. exists p. eexists. rewrite <- !app_assoc. reflexivity.
    + rewrite E1 in E2. rewrite <- !app_assoc in E2.
      apply cut_first in E2 as [<- E2]; [|apply P1; left; auto|apply P2; left; auto].
      destruct (IH (List.concat (map (fun p => p ++ crlf) p1) ++ l1) p2) as [<- <-]; auto.
      * split; [reflexivity|]. split; auto. intros r I. apply P1. right. auto.
      * split; [exact E2|]. split; auto. intros r I. apply P2. right. auto.
Qed.

(** ** Final result lines *)
Lemma is_term_spec line : is_term line = true <-> final_line line.
Proof.
  unfold is_term, final_line. destruct (re_match RESPONSE_TERM line) as [[[t g] rest]|] eqn:E.
  - split; auto. intros _. apply re_match_some in E as [-> L]. cbn [RESPONSE_TERM lang] in L.
    destruct L as [[-> _]|[[-> _]|[L|L]]].
    + left. eauto.
    + right. left. eauto.
    + right. right. left. destruct L as (g' & -> & t1 & t2 & g1 & g2 & -> & -> & [-> ->] & t3 & t4 & g3 & g4 & -> & -> & (c & -> & Hc & ->)
        & t5 & t6 & g5 & g6 & -> & -> & [-> ->] & F & Hl & _ & ->).
      destruct t6 as [|d t6]; [cbn in Hl; lia|]. inversion F; subst. exists c, d, (t6 ++ rest).
      split; [apply orb_true_iff in Hc; rewrite !Z.eqb_eq in Hc; auto|]. split; auto.
    + destruct L as (t1 & t2 & g1 & g2 & -> & -> & (g' & -> & -> & ->) & -> & -> & [->| ->]); rewrite ?app_nil_r; tauto.
  - split; [discriminate|]. intro H. exfalso. pose proof (proj1 (re_match_none _ _) E) as N. cbn [RESPONSE_TERM lang] in N.
    destruct H as [[r ->]|[[r ->]|[(c & d & r & Hc & Hd & ->)|H]]].
    + apply (N (lit "OK") [] r); auto.
    + apply (N (lit "ERROR") [] r); auto.
    + eapply (N (lit "+CM" ++ [c] ++ lit " ERROR: " ++ [d]) [_] r); [rewrite <- !app_assoc; reflexivity|].
      right. right. left. exists []. split; [reflexivity|].
      exists (lit "+CM"), ([c] ++ lit " ERROR: " ++ [d]), [], []. split; [reflexivity|]. split; [reflexivity|]. split; [auto|].
      exists [c], (lit " ERROR: " ++ [d]), [], []. split; [reflexivity|]. split; [reflexivity|].
      split; [exists c; split; [auto|split; [destruct Hc as [->| ->]; reflexivity|auto]]|].
      exists (lit " ERROR: "), [d], [], []. split; [reflexivity|]. split; [reflexivity|]. split; [auto|].
      split; [constructor; auto|]. split; [cbn; lia|]. auto.
    + assert (forall nl, line = lit "COMMAND NOT SUPPORT" ++ nl -> nl = [] \/ nl = [10] -> False) as C.
      { intros nl El Hn. eapply (N (lit "COMMAND NOT SUPPORT") [_] nl); auto. right. right. right.
        exists (lit "COMMAND NOT SUPPORT"), [], [lit "COMMAND NOT SUPPORT"], []. rewrite app_nil_r.
        split; [reflexivity|]. split; [reflexivity|]. split; [exists []; auto|]. auto. }
      destruct H as [->| ->]; [apply (C []); auto; rewrite app_nil_r; auto|apply (C [10]); auto].
Qed.
