(** Facts about exceptions.py. *)
From Verif Require Import Base ModemCore ModemSpec WriteProofs ModemFinal DemoModel ErrorModel ErrorSpec.

Lemma issub_handlers c d : issubclass c d = true <-> In d (handlers c).
Proof. destruct c, d; vm_compute; (split; [intro H; try discriminate H; tauto|intuition (try discriminate; auto)]). Qed.

(** the class for a number *)
Definition cme_class (n : Z) (c : cls) : cls := if n =? 11 then CPin else if n =? 16 then CWrongPin else if n =? 12 then CPuk else c.
Definition cms_class (n : Z) (c : cls) : cls := if n =? 330 then CSmsc else c.
Lemma cme_classes n c : (own_class (lit "CME") n (cme_class n c) (lit " (" ++ description (cme_class n c) ++ lit ")")) \/ ordinary_number (lit "CME") n /\ cme_class n c = c.
Proof.
  unfold cme_class. destruct (Z.eqb_spec n 11) as [->|]; [left; apply oc_pin; reflexivity|].
  destruct (Z.eqb_spec n 16) as [->|]; [left; apply oc_wrong; reflexivity|]. destruct (Z.eqb_spec n 12) as [->|]; [left; apply oc_puk; reflexivity|].
  right. split; auto. intros d r H. inversion H; subst; try lia. discriminate.
Qed.
Lemma cms_classes n c : (own_class (lit "CMS") n (cms_class n c) (lit " (" ++ description (cms_class n c) ++ lit ")")) \/ ordinary_number (lit "CMS") n /\ cms_class n c = c.
Proof.
  unfold cms_class. destruct (Z.eqb_spec n 330) as [->|]; [left; apply oc_smsc; reflexivity|].
  right. split; auto. intros d r H. inversion H; subst; try lia; discriminate.
Qed.
Definition in_cme (c : cls) : Prop := c = CCme \/ c = CSecurity \/ c = CPin \/ c = CWrongPin \/ c = CPuk.
Definition in_cms (c : cls) : Prop := c = CCms \/ c = CSmsc.
Lemma call_cme c a n : in_cme c -> construct c [a; AInt n] = Ok (cme_init (cme_class n c) a (AInt n)).
Proof.
  intro C. unfold construct, cme_class. cbn [call]. replace (issubclass c CCme) with true by (destruct C as [->|[->|[->|[->| ->]]]]; reflexivity). cbn [equals].
  destruct (Z.eqb_spec n 11) as [->|]; [destruct C as [->|[->|[->|[->| ->]]]]; reflexivity|].
  destruct (Z.eqb_spec n 16) as [->|]; [destruct C as [->|[->|[->|[->| ->]]]]; reflexivity|].
  destruct (Z.eqb_spec n 12) as [->|]; destruct C as [->|[->|[->|[->| ->]]]]; reflexivity.
Qed.
Lemma call_cms c a n : in_cms c -> construct c [a; AInt n] = Ok (cms_init (cms_class n c) a (AInt n)).
Proof.
  intro C. unfold construct, cms_class. cbn [call]. replace (issubclass c CCme) with false by (destruct C as [->| ->]; reflexivity).
  replace (issubclass c CCms) with true by (destruct C as [->| ->]; reflexivity). cbn [equals].
  destruct (Z.eqb_spec n 330) as [->|]; destruct C as [->| ->]; reflexivity.
Qed.
Lemma call_one family n c r a : own_class family n c r -> construct c [a] = construct (if str_eqb family (lit "CME") then CCme else CCms) [a; AInt n].
Proof. intro H. inversion H; subst; reflexivity. Qed.
Lemma cme_carries c a n : let o := cme_init c a (AInt n) in attr o (lit "command") = Some a /\ attr o (lit "type") = Some (AStr (lit "CME")) /\ attr o (lit "code") = Some (AInt n).
Proof. repeat split. Qed.
Lemma cms_carries c a n : let o := cms_init c a (AInt n) in attr o (lit "command") = Some a /\ attr o (lit "type") = Some (AStr (lit "CMS")) /\ attr o (lit "code") = Some (AInt n).
Proof. repeat split. Qed.
(** the texts *)
Lemma text_of c a f n : text (command_init c a (AStr f) (AInt n)) =
  Some (f ++ lit " " ++ str_of_Z n ++ (if 0 <? Z.of_nat (length (description c)) then lit " (" ++ description c ++ lit ")" else [])).
Proof. reflexivity. Qed.
Lemma cme_text n c a : 0 <= n -> description c = [] -> exists t, text (cme_init (cme_class n c) a (AInt n)) = Some t /\ error_text (lit "CME") n t.
Proof.
  intros N D. eexists. split; [apply text_of|]. exists (str_of_Z n). eexists. split; [apply str_of_Z_decimal; auto|]. split; [reflexivity|].
  unfold cme_class. destruct (Z.eqb_spec n 11) as [->|N1]; [left; exists CPin; apply oc_pin; reflexivity|].
  destruct (Z.eqb_spec n 16) as [->|N2]; [left; exists CWrongPin; apply oc_wrong; reflexivity|]. destruct (Z.eqb_spec n 12) as [->|N3]; [left; exists CPuk; apply oc_puk; reflexivity|].
  right. rewrite D. split; auto. intros d r H. inversion H; subst; try lia. discriminate.
Qed.
Lemma cms_text n c a : 0 <= n -> description c = [] -> exists t, text (cms_init (cms_class n c) a (AInt n)) = Some t /\ error_text (lit "CMS") n t.
Proof.
  intros N D. eexists. split; [apply text_of|]. exists (str_of_Z n). eexists. split; [apply str_of_Z_decimal; auto|]. split; [reflexivity|].
  unfold cms_class. destruct (Z.eqb_spec n 330) as [->|N1]; [left; exists CSmsc; apply oc_smsc; reflexivity|].
  right. rewrite D. split; auto. intros d r H. inversion H; subst; try lia; discriminate.
Qed.
Lemma cme_whole command n : 0 <= n -> exists o, construct CCme [AStr command; AInt n] = Ok o /\ carries o command (lit "CME") n /\
  (forall d, caught o d = true <-> d = CBase \/ d = CCommand \/ d = CCme \/ d = CSecurity /\ security_number n \/ exists r, own_class (lit "CME") n d r) /\
  exists t, text o = Some t /\ error_text (lit "CME") n t.
Proof.
  intro N. eexists. split; [apply call_cme; left; auto|]. split; [apply cme_carries|]. split; [|apply cme_text; auto].
  intro d. unfold caught. cbn [cme_init command_init o_class]. rewrite issub_handlers. destruct (cme_classes n CCme) as [H|[H E]].
  - inversion H as [K E2 E3 E4|K E2 E3 E4|K E2 E3 E4|K E2 E3 E4]; try discriminate K; subst n; cbn [In handlers cme_class Z.eqb Pos.eqb]; unfold security_number;
      (split; [intros [<-|[<-|[<-|[<-|[<-|[]]]]]]; eauto 12|intros [->|[->|[->|[[-> _]|(r & F)]]]]; auto 8; inversion F; auto]).
  - rewrite E. cbn [In handlers]. split; [intuition auto|]. intros [->|[->|[->|[[-> F]|(r & F)]]]]; auto; exfalso.
    + unfold security_number in F. destruct F as [-> |[-> | ->]]; eapply H; [apply oc_pin|apply oc_puk|apply oc_wrong]; reflexivity.
    + exact (H _ _ F).
Qed.
Lemma cms_whole command n : 0 <= n -> exists o, construct CCms [AStr command; AInt n] = Ok o /\ carries o command (lit "CMS") n /\
  (forall d, caught o d = true <-> d = CBase \/ d = CCommand \/ d = CCms \/ exists r, own_class (lit "CMS") n d r) /\
  exists t, text o = Some t /\ error_text (lit "CMS") n t.
Proof.
  intro N. eexists. split; [apply call_cms; left; auto|]. split; [apply cms_carries|]. split; [|apply cms_text; auto].
  intro d. unfold caught. cbn [cms_init command_init o_class]. rewrite issub_handlers. destruct (cms_classes n CCms) as [H|[H E]].
  - inversion H as [K E2 E3 E4|K E2 E3 E4|K E2 E3 E4|K E2 E3 E4]; try discriminate K; subst n; cbn [In handlers cms_class Z.eqb Pos.eqb];
      (split; [intros [<-|[<-|[<-|[<-|[]]]]]; eauto 12|intros [->|[->|[->|(r & F)]]]; auto 8; inversion F; subst; auto; discriminate]).
  - rewrite E. cbn [In handlers]. split; [intuition auto|]. intros [->|[->|[->|(r & F)]]]; auto. exfalso. exact (H _ _ F).
Qed.
(** the number can be read back from the text *)
Lemma digits_part ds r ds' r' : digits ds -> digits ds' -> (r = [] \/ exists t, r = 32 :: t) -> (r' = [] \/ exists t, r' = 32 :: t) -> ds ++ r = ds' ++ r' -> ds = ds'.
Proof.
  intros [_ D] [_ D'] R R'. revert ds' D'. induction D as [|x ds X D IH]; intros ds' D' E.
  - destruct ds' as [|y ds']; auto. inversion D' as [|? ? Y]; subst. cbn in E. destruct R as [->|[t ->]]; [discriminate E|]. injection E as <- E. discriminate Y.
  - destruct ds' as [|y ds'].
    + cbn in E. destruct R' as [->|[t ->]]; [discriminate E|]. injection E as -> E. discriminate X.
    + inversion D' as [|? ? Y D2]; subst. cbn in E. injection E as -> E. f_equal. apply IH; auto.
Qed.
Lemma remark_form f n r : ((exists c, own_class f n c r) \/ ordinary_number f n /\ r = []) -> r = [] \/ exists t, r = 32 :: t.
Proof. intros [[c H]|[_ ->]]; auto. right. inversion H; subst; eexists; reflexivity. Qed.
Lemma text_tells f n f' n' t : length f = length f' -> error_text f n t -> error_text f' n' t -> f = f' /\ n = n'.
Proof.
  intros L (ds & r & (D & V & _) & -> & R) (ds' & r' & (D' & V' & _) & E & R').
  assert (S : firstn (length f) (f ++ lit " " ++ ds ++ r) = firstn (length f) (f' ++ lit " " ++ ds' ++ r')) by (rewrite E; auto).
  rewrite (firstn_app (length f) f), firstn_all, Nat.sub_diag in S. rewrite L in S. rewrite (firstn_app (length f') f'), firstn_all, Nat.sub_diag in S.
  cbn [firstn] in S. rewrite !app_nil_r in S. subst f'. split; auto. apply app_inv_head in E. apply app_inv_head in E.
  apply digits_part in E; auto; [congruence| |]; eapply remark_form; eauto.
Qed.
(** how many arguments *)
Lemma plain_call c args : issubclass c CCme = false -> issubclass c CCms = false -> construct c args = init c args.
Proof. intros A B. unfold construct. cbn [call]. rewrite A, B. cbn [bind o_class]. destruct c; try discriminate; reflexivity. Qed.
Lemma not_astray c args : c <> CPin -> c <> CPuk -> c <> CWrongPin -> ~ astray c args.
Proof. intros A B C (a & n & rest & d & r & _ & [->|[->| ->]] & _); auto. Qed.
(** the first branch of __new__ *)
Definition number_of (args : list arg) : option Z := match args with _ :: AInt n :: _ => Some n | _ => None end.
Lemma cme_call c args : in_cme c -> construct c args =
  match number_of args with
  | Some n => if issubclass (cme_class n c) c then init (cme_class n c) args else construct (cme_class n c) [hd ANone args]
  | None => init c args
  end.
Proof.
  intro C. destruct args as [|a [|code rest]].
  - cbn [number_of]. unfold construct. cbn [call]. destruct C as [->|[->|[->|[->| ->]]]]; reflexivity.
  - cbn [number_of]. unfold construct. cbn [call]. destruct C as [->|[->|[->|[->| ->]]]]; reflexivity.
  - destruct code as [|s|n|i s]; cbn [number_of hd].
    1,2,4: unfold construct; cbn [call]; destruct C as [->|[->|[->|[->| ->]]]]; reflexivity.
    unfold cme_class. unfold construct at 1. cbn [call equals]. replace (issubclass c CCme) with true by (destruct C as [->|[->|[->|[->| ->]]]]; reflexivity).
    destruct (Z.eqb_spec n 11) as [->|]; [destruct C as [->|[->|[->|[->| ->]]]]; reflexivity|].
    destruct (Z.eqb_spec n 16) as [->|]; [destruct C as [->|[->|[->|[->| ->]]]]; reflexivity|].
    destruct (Z.eqb_spec n 12) as [->|]; destruct C as [->|[->|[->|[->| ->]]]]; reflexivity.
Qed.
Lemma cms_call c args : in_cms c -> construct c args = match number_of args with Some n => init (cms_class n c) args | None => init c args end.
Proof.
  intro C. destruct args as [|a [|code rest]].
  - unfold construct. cbn [call number_of]. destruct C as [->| ->]; reflexivity.
  - unfold construct. cbn [call number_of]. destruct C as [->| ->]; reflexivity.
  - destruct code as [|s|n|i s]; cbn [number_of].
    1,2,4: unfold construct; cbn [call]; destruct C as [->| ->]; reflexivity.
    unfold cms_class. unfold construct. cbn [call equals]. replace (issubclass c CCme) with false by (destruct C as [->| ->]; reflexivity).
    replace (issubclass c CCms) with true by (destruct C as [->| ->]; reflexivity).
    destruct (Z.eqb_spec n 330) as [->|]; destruct C as [->| ->]; reflexivity.
Qed.
Lemma init_takes c args : (exists o, init c args = Ok o) /\ takes c (length args) \/ init c args = Err TypeError /\ ~ takes c (length args).
Proof. destruct c, args as [|a [|b [|d [|e l]]]]; cbn [length takes init]; (left; split; [eexists; reflexivity|lia || exact I]) || (right; split; [reflexivity|lia]). Qed.
Lemma numbered n args : number_of args = Some n -> exists a rest, args = a :: AInt n :: rest.
Proof. destruct args as [|a [|[|s|k|i s] rest]]; cbn; intro H; try discriminate. injection H as ->. eauto. Qed.
Lemma count_args c args : (exists o, construct c args = Ok o) /\ (takes c (length args) \/ astray c args) \/ construct c args = Err TypeError /\ ~ (takes c (length args) \/ astray c args).
Proof.
  assert (P : construct c args = init c args -> ~ astray c args -> (exists o, construct c args = Ok o) /\ (takes c (length args) \/ astray c args) \/ construct c args = Err TypeError /\ ~ (takes c (length args) \/ astray c args)).
  { intros -> A. destruct (init_takes c args) as [[? ?]|[? ?]]; [left|right]; tauto. }
  destruct (issubclass c CCme) eqn:M.
  - assert (C : in_cme c) by (unfold in_cme; destruct c; try discriminate M; tauto). pose proof (cme_call c args C) as K. destruct (number_of args) as [n|] eqn:N.
    + destruct (numbered _ _ N) as (a & rest & ->). cbn [hd] in K. destruct (issubclass (cme_class n c) c) eqn:S.
      * assert (T : takes c (length (a :: AInt n :: rest)) <-> takes (cme_class n c) (length (a :: AInt n :: rest))).
        { unfold cme_class in *. cbn [length]. destruct C as [->|[->|[->|[->| ->]]]]; destruct (n =? 11); try discriminate S; destruct (n =? 16); try discriminate S; destruct (n =? 12); try discriminate S; cbn; lia. }
        assert (A : ~ astray c (a :: AInt n :: rest)).
        { intros (a' & n' & rest' & d & r & [= <- <- <-] & Cs & O & D). unfold cme_class in S. inversion O as [_ X Y|_ X Y|_ X Y|X]; subst; try discriminate X;
            destruct Cs as [->|[->| ->]]; cbn in S; try discriminate S; auto. }
        rewrite K. destruct (init_takes (cme_class n c) (a :: AInt n :: rest)) as [[? ?]|[? ?]]; [left|right]; tauto.
      * unfold cme_class in S, K. left. destruct (Z.eqb_spec n 11) as [->|N1]; [|destruct (Z.eqb_spec n 16) as [->|N2]; [|destruct (Z.eqb_spec n 12) as [->|N3]]].
        1-3: split; [rewrite K; eexists; reflexivity|]; right; do 5 eexists; split; [reflexivity|];
          (split; [destruct C as [->|[->|[->|[->| ->]]]]; try discriminate S; auto|]).
        -- split; [apply oc_pin; reflexivity|intros <-; discriminate S].
        -- split; [apply oc_wrong; reflexivity|intros <-; discriminate S].
        -- split; [apply oc_puk; reflexivity|intros <-; discriminate S].
        -- exfalso. destruct c; discriminate S.
    + apply P; auto. intros (a & n & rest & d & r & -> & _). discriminate N.
  - destruct (issubclass c CCms) eqn:M2.
    + assert (C : in_cms c) by (unfold in_cms; destruct c; try discriminate M2; tauto). pose proof (cms_call c args C) as K.
      assert (A : ~ astray c args) by (apply not_astray; destruct C as [->| ->]; discriminate).
      destruct (number_of args) as [n|] eqn:N; [|apply P; auto]. destruct (numbered _ _ N) as (a & rest & ->).
      assert (T : takes c (length (a :: AInt n :: rest)) <-> takes (cms_class n c) (length (a :: AInt n :: rest))).
      { unfold cms_class. cbn [length]. destruct C as [->| ->]; destruct (n =? 330); cbn; lia. }
      rewrite K. destruct (init_takes (cms_class n c) (a :: AInt n :: rest)) as [[? ?]|[? ?]]; [left|right]; tauto.
    + apply P; [apply plain_call; auto|]. apply not_astray; intros ->; discriminate M.
Qed.

(** ** The exceptions of the other model files *)
Lemma class_object e o : object_of e = Some o -> class_of e = Some (o_class o).
Proof. destruct e as [| | | | | | | |d| |c|[c|]|c n|c n|c n|c n|c n|c n]; cbn; intro H; try discriminate; injection H as <-; reflexivity. Qed.
Lemma cme_is command n : exists o, object_of (mk_CmeError command n) = Some o /\ construct CCme [AStr command; AInt n] = Ok o.
Proof.
  rewrite call_cme by (left; auto). unfold mk_CmeError, cme_class. destruct (Z.eqb_spec n 11) as [->|]; [eexists; split; reflexivity|]. destruct (Z.eqb_spec n 16) as [->|]; [eexists; split; reflexivity|].
  destruct (Z.eqb_spec n 12) as [->|]; eexists; split; reflexivity.
Qed.
Lemma cms_is command n : exists o, object_of (mk_CmsError command n) = Some o /\ construct CCms [AStr command; AInt n] = Ok o.
Proof. rewrite call_cms by (left; auto). unfold mk_CmsError, cms_class. destruct (Z.eqb_spec n 330) as [->|]; eexists; split; reflexivity. Qed.
Lemma command_caught e : is_CommandError e = true <-> exists c, class_of e = Some c /\ issubclass c CCommand = true.
Proof. destruct e; cbn; (split; [intro H; try discriminate H; eexists; split; reflexivity|intros (c' & [= <-] & H); try discriminate H; reflexivity]). Qed.
Lemma code_read e n : cme_code e = Some n <-> exists o, object_of e = Some o /\ caught o CCme = true /\ attr o (lit "code") = Some (AInt n).
Proof.
  destruct e as [| | | | | | | |d| |c|[c|]|c k|c k|c k|c k|c k|c k]; cbn; (split; [intros [= <-]; eexists; repeat split|intros (o & [= <-] & C & A)]); try discriminate C; cbn in A; injection A as ->; auto.
Qed.
(** ** What write raises *)
Lemma exception_object command kind n e : exception_for command kind n e ->
  object_of e = match construct (if kind =? 69 then CCme else CCms) [AStr command; AInt n] with Ok o => Some o | Err _ => None end.
Proof.
  intro H. inversion H; subst; try reflexivity; cbn [Z.eqb Pos.eqb]; (rewrite call_cme by (left; auto); unfold cme_class) || (rewrite call_cms by (left; auto); unfold cms_class).
  - destruct (Z.eqb_spec n 11); [lia|]. destruct (Z.eqb_spec n 16); [lia|]. destruct (Z.eqb_spec n 12); [lia|]. reflexivity.
  - destruct (Z.eqb_spec n 330); [lia|]. reflexivity.
Qed.
Lemma value_nonneg ds : digits ds -> 0 <= dec_value ds.
Proof.
  intros [_ F]. unfold dec_value. assert (V : forall ds acc, Forall (fun c => is_digit c = true) ds -> 0 <= acc -> 0 <= fold_left (fun a c => 10 * a + (c - 48)) ds acc).
  { clear. induction ds as [|c ds IH]; intros acc F H; cbn; auto. inversion F as [|? ? H1 H2]; subst. apply IH; auto. apply digit_range in H1. lia. }
  apply V; auto. lia.
Qed.
Lemma raised data ls line kind n e : outcome data (Lines (ls ++ [line])) (Err e) -> cm_error kind n line -> ~ busy_code n ->
  exists o family, object_of e = Some o /\ carries o data family n /\ (kind = 69 /\ family = lit "CME" \/ kind = 83 /\ family = lit "CMS") /\ exists t, text o = Some t /\ error_text family n t.
Proof.
  intros O C B. assert (N : 0 <= n) by (destruct C as (_ & ds & nl & _ & D & _ & ->); apply value_nonneg; apply D).
  assert (X : exists e0, exception_for data kind n e0 /\ outcome data (Lines (ls ++ [line])) (Err e0)).
  { destruct (judge_code data kind n line C) as [_ J]. destruct (J B) as (e0 & E0 & _). exists e0. split; auto. eapply oc_code; eauto. }
  destruct X as (e0 & E0 & O0). assert (E : Err e = Err (A:=list str) e0) by (eapply outcome_fun; eauto). injection E as ->.
  pose proof (exception_object _ _ _ _ E0) as Ob. destruct C as ([->| ->] & _).
  - destruct (cme_whole data n N) as (o & K & Ca & _ & T). cbn [Z.eqb Pos.eqb] in Ob. rewrite K in Ob. exists o, (lit "CME"). auto 8.
  - destruct (cms_whole data n N) as (o & K & Ca & _ & T). cbn [Z.eqb Pos.eqb] in Ob. rewrite K in Ob. exists o, (lit "CMS"). auto 8.
Qed.
(** except CommandError catches the refusals of the modem and nothing else *)
Definition refusal (r : reply) : Prop := exists ls line, r = Lines (ls ++ [line]) /\ (error_line line \/ line = lit "COMMAND NOT SUPPORT").
Lemma refusals data r e : not_busy r -> outcome data r (Err e) -> (exists c, class_of e = Some c /\ issubclass c CCommand = true) <-> refusal r.
Proof.
  intros NB O. rewrite <- command_caught. inversion O as [| | | |ls line kind n e0 C B F|ls line E C|ls]; subst; cbn [is_CommandError].
  - split; [discriminate|]. intros (ls & line & F & _). discriminate F.
  - split; [discriminate|]. intros (ls' & line & F & _). discriminate F.
  - split; [discriminate|]. intros (ls' & line & F & _). injection F as F. destruct ls'; discriminate F.
  - split; [intros _|intros _; inversion F; reflexivity]. exists ls, line. split; auto. left. eapply cm_is_error; eauto.
  - split; auto. intros _. exists ls, line. auto.
  - split; auto. intros _. exists ls, (lit "COMMAND NOT SUPPORT"). auto.
Qed.
Lemma direct c a n :
  (In c [CCme; CSecurity; CPin; CWrongPin; CPuk] -> exists o, construct c [a; AInt n] = Ok o /\
     (attr o (lit "command") = Some a /\ attr o (lit "type") = Some (AStr (lit "CME")) /\ attr o (lit "code") = Some (AInt n)) /\
     ((exists r, own_class (lit "CME") n (o_class o) r) \/ ordinary_number (lit "CME") n /\ o_class o = c)) /\
  (In c [CCms; CSmsc] -> exists o, construct c [a; AInt n] = Ok o /\
     (attr o (lit "command") = Some a /\ attr o (lit "type") = Some (AStr (lit "CMS")) /\ attr o (lit "code") = Some (AInt n)) /\
     ((exists r, own_class (lit "CMS") n (o_class o) r) \/ ordinary_number (lit "CMS") n /\ o_class o = c)).
Proof.
  split; intro C.
  - eexists. split; [apply call_cme; unfold in_cme; cbn in C; intuition auto|]. split; [apply cme_carries|]. cbn [cme_init command_init o_class].
    destruct (cme_classes n c) as [H|H]; eauto.
  - eexists. split; [apply call_cms; unfold in_cms; cbn in C; intuition auto|]. split; [apply cms_carries|]. cbn [cms_init command_init o_class].
    destruct (cms_classes n c) as [H|H]; eauto.
Qed.
Lemma plain command : exists o, construct CCommand [AStr command] = Ok o /\ (exists u, construct CCommand [] = Ok u /\ text u = Some [] /\ o_class u = CCommand) /\
  attr o (lit "command") = Some (AStr command) /\ attr o (lit "type") = Some ANone /\ attr o (lit "code") = Some ANone /\ text o = Some command /\
  forall d, caught o d = true <-> d = CBase \/ d = CCommand.
Proof.
  eexists. split; [reflexivity|]. split; [eexists; repeat split|]. repeat (split; [reflexivity|]). intro d. unfold caught. cbn [o_class command_init]. rewrite issub_handlers. cbn. intuition auto.
Qed.
Lemma carried a b : (exists o, construct CTimeout [a] = Ok o /\ attr o (lit "data") = Some a /\ o_class o = CTimeout) /\
  (exists o, construct CTimeout [] = Ok o /\ attr o (lit "data") = Some ANone) /\
  (exists o, construct CInterrupted [a; b] = Ok o /\ attr o (lit "cause") = Some b /\ text o = Some (show a) /\ o_class o = CInterrupted) /\
  exists o, construct CInterrupted [a] = Ok o /\ attr o (lit "cause") = Some ANone /\ text o = Some (show a).
Proof. repeat split; eexists; repeat split. Qed.
Lemma any_plain command type code : exists o, construct CCommand [command; type; code] = Ok o /\ o_class o = CCommand /\
  attr o (lit "command") = Some command /\ attr o (lit "type") = Some type /\ attr o (lit "code") = Some code /\
  (type <> ANone -> code <> ANone -> text o = Some (show type ++ lit " " ++ show code)) /\
  (type = ANone \/ code = ANone -> command <> ANone -> text o = Some (show command)) /\
  (type = ANone \/ code = ANone -> command = ANone -> text o = Some []) /\
  construct CCommand [command; type] = construct CCommand [command; type; ANone] /\ construct CCommand [command] = construct CCommand [command; ANone; ANone] /\
  construct CCommand [] = construct CCommand [ANone; ANone; ANone].
Proof.
  eexists. split; [reflexivity|]. do 4 (split; [reflexivity|]). split; [|split; [|split]]; [| | |repeat split].
  - intros T C. unfold text. cbn [command_init o_args description length Z.of_nat]. destruct type; [congruence| | |]; destruct code; try congruence; cbn [is_none negb andb show]; rewrite app_nil_r; reflexivity.
  - intros [->| ->] C; unfold text; cbn [command_init o_args is_none negb andb]; [|destruct type; cbn [is_none negb andb]]; destruct command; try congruence; reflexivity.
  - intros [->| ->] ->; unfold text; cbn [command_init o_args is_none negb andb]; [reflexivity|]; destruct type; reflexivity.
Qed.
Lemma classes e : 
  (e = EncodingError <-> class_of e = Some CEncoding) /\ ((exists d, e = TimeoutException d) <-> class_of e = Some CTimeout) /\ (e = InvalidStateException <-> class_of e = Some CInvalid) /\
  (forall c, exists o, object_of (CommandError (Some c)) = Some o /\ construct CCommand [AStr c] = Ok o) /\ exists o, object_of (CommandError None) = Some o /\ construct CCommand [] = Ok o.
Proof.
  split; [|split; [|split; [|split]]].
  1-3: destruct e; cbn; (split; [intro H; try discriminate H; try (destruct H as [? H]; discriminate H); reflexivity|intro H; try discriminate H; eauto]).
  - intro c. eexists. split; reflexivity.
  - eexists. split; reflexivity.
Qed.
Lemma is_model command n e :
  (exists o, object_of (mk_CmeError command n) = Some o /\ construct CCme [AStr command; AInt n] = Ok o) /\
  (exists o, object_of (mk_CmsError command n) = Some o /\ construct CCms [AStr command; AInt n] = Ok o) /\
  (forall o, object_of e = Some o -> class_of e = Some (o_class o)) /\
  (is_CommandError e = true <-> exists c, class_of e = Some c /\ issubclass c CCommand = true) /\
  (is_Interrupted e = true <-> exists c, class_of e = Some c /\ issubclass c CInterrupted = true) /\
  (cme_code e = Some n <-> exists o, object_of e = Some o /\ caught o CCme = true /\ attr o (lit "code") = Some (AInt n)) /\
  ((e = EncodingError <-> class_of e = Some CEncoding) /\ ((exists d, e = TimeoutException d) <-> class_of e = Some CTimeout) /\ (e = InvalidStateException <-> class_of e = Some CInvalid) /\
   (forall c, exists o, object_of (CommandError (Some c)) = Some o /\ construct CCommand [AStr c] = Ok o) /\ exists o, object_of (CommandError None) = Some o /\ construct CCommand [] = Ok o).
Proof.
  split; [apply cme_is|]. split; [apply cms_is|]. split; [apply class_object|]. split; [apply command_caught|]. split; [|split; [apply code_read|apply classes]].
  destruct e; cbn; (split; [intro H; try discriminate H; eexists; split; reflexivity|intros (c' & [= <-] & H); try discriminate H; reflexivity]).
Qed.

Theorem show_is a : shown_as a (show a).
Proof.
  destruct a as [|s|n|i s]; try reflexivity. cbn [show shown_as]. destruct (Z.leb_spec 0 n) as [H|H]; [apply str_of_Z_decimal; auto|].
  exists (str_of_Z (- n)). split; [apply str_of_Z_decimal; lia|]. unfold str_of_Z. destruct n as [|p|p]; try lia. reflexivity.
Qed.
