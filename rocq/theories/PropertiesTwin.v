(** Several modems in one process. *)
From Verif Require Import Base RegexModel ModemCore ModemSpec TrackSpec CoverageSpec SetupSpec SmsModel CallModel CallSpec ConnectModel TwinSpec TwinProofs TwinFinal.

(** C97: what one modem does is independent of the others, as far as it sends no tones:
    taking away everything the others do leaves a history with the same results and the
    same events, and the modem in the same state *)
Theorem C97_apart : forall p ds q i, history p ds q ->
  ((forall e, In e ds -> who e = i -> sort_of e <> Toning) -> exists q', history p (only i ds) q' /\ forall t, wear t (own q' i) = wear t (own q i)) /\
  ((forall e, In e ds -> who e <> i -> sort_of e <> Connecting) ->
     exists q', history p (only i ds) q' /\ (forall t, wear t (own q' i) = wear t (own q i)) /\ shared q' = shared q).
Proof. exact twins_apart. Qed.
Print Assumptions C97_apart.
(** the class attributes change only when a modem is connected, and what is set once is
    set for good *)
Theorem C97_kept : forall p ds q, history p ds q -> (forall e, In e ds -> sort_of e <> Connecting) -> shared q = shared p.
Proof. exact twins_kept. Qed.
Print Assumptions C97_kept.
Theorem C97_grow : forall p ds q, history p ds q ->
  (t_huawei (shared p) = true -> t_huawei (shared q) = true) /\ (t_support (shared p) = true -> t_support (shared q) = true).
Proof. exact twins_grow. Qed.
Print Assumptions C97_grow.
(** they depend on all the modems connected so far: one Huawei modem is enough *)
Theorem C97_any : forall p ds q, history p ds q -> (forall e, In e ds -> sort_of e = Connecting -> succeeded e) ->
  exists ks, Forall2 (fun e ck => found e (fst ck) (snd ck)) (connecting ds) ks /\
    (t_huawei (shared q) = true <-> t_huawei (shared p) = true \/ exists ck, In ck ks /\ snd ck = THuawei) /\
    (t_support (shared q) = true <-> t_support (shared p) = true \/ exists ck, In ck ks /\ dtmf_known (fst ck) (snd ck)).
Proof. exact twins_tones. Qed.
Print Assumptions C97_any.
(** and they decide which command sends the tones of every modem *)
Theorem C97_tones : forall p ds q i n s sc x evs, history p (ds ++ [Did i Toning unit (sendDtmfTone n s) sc x evs]) q -> exists p', history p ds p' /\
  (forall c, nth_error (callObjs (own p' i)) n = Some c -> c_answered c = true -> 0 <= c_id c -> s <> [] -> no_brace s ->
     exists base l y, tone_base (t_huawei (shared p')) (c_id c) base /\ tone_list base s l /\ exchange (lit "AT" ++ l) [13] evs y /\ tone_result y x).
Proof. exact twins_sent. Qed.
Print Assumptions C97_tones.
(** so the tones of a Wavecom modem go out as the command of Huawei modems once such a
    modem has been connected as well *)
Definition ok : reply := Lines [lit "OK"].
Definition huawei : list reply :=
  [ok; ok; Lines [lit "+CFUN: 1"; lit "OK"]; ok; Lines [lit "+CPIN: READY"; lit "OK"]; Lines [lit "+CLAC:+CLIP,^CVOICE,^DTMF,^USSDMODE"; lit "OK"]; ok; ok; ok; ok;
   Lines [lit "+CSCA: ""+2782"",145"; lit "OK"]; ok; Lines [lit "+CSCA: ""+2782"",145"; lit "OK"]; Lines [lit "+CPMS: (""SM"",""ME""),(""SM"",""ME""),(""SM"")"; lit "OK"]; ok; ok; ok; Lines [lit "ERROR"]; ok].
Definition wavecom : list reply :=
  [ok; ok; Lines [lit "ERROR"]; ok; Lines [lit "+CPIN: READY"; lit "OK"]; Lines [lit "ERROR"]; Lines [lit "+WIND: 0"; lit "OK"]; ok; ok; ok;
   Lines [lit "+CSCA: ""+2782"",145"; lit "OK"]; ok; Lines [lit "+CSCA: ""+2782"",145"; lit "OK"]; Lines [lit "ERROR"]; Lines [lit "ERROR"]; ok].
Definition two_modems : process :=
  mk_process (fun i => match i with O => set_callObjs [mk_call 12 false (Some 0) (Some (lit "0821234567")) false true true false 0] modem_init | _ => modem_init end) (mk_tones false false).
Definition tone_write (evs : list event) (s : string) : Prop := In (EWrite (lit s ++ [13]) (Some ok)) evs.
Theorem C97_crossed : exists e1 e2 e3 e4 q q',
  history two_modems [Did 0 Connecting unit (connect None) wavecom (Ok tt) e1; Did 1 Connecting unit (connect None) huawei (Ok tt) e2;
                      Did 0 Toning unit (sendDtmfTone 0 (lit "5")) [ok] (Ok tt) e3] q /\ tone_write e3 "AT^DTMF=12,5" /\
  history two_modems [Did 0 Connecting unit (connect None) wavecom (Ok tt) e1; Did 0 Toning unit (sendDtmfTone 0 (lit "5")) [ok] (Ok tt) e4] q' /\ tone_write e4 "AT+VTS=5" /\
  callUpdates (own q 0) = TWavecom /\ callUpdates (own q' 0) = TWavecom.
Proof.
  do 6 eexists. split.
  { eapply hi_deed; [apply do_connect|vm_compute; reflexivity|]. eapply hi_deed; [apply do_connect|vm_compute; reflexivity|].
    eapply hi_deed; [apply do_tones|vm_compute; reflexivity|]. apply hi_nil. }
  split; [left; reflexivity|]. split.
  { eapply hi_deed; [apply do_connect|vm_compute; reflexivity|]. eapply hi_deed; [apply do_tones|vm_compute; reflexivity|]. apply hi_nil. }
  split; [left; reflexivity|]. split; reflexivity.
Qed.
Print Assumptions C97_crossed.
(** a modem that asks for its signal strength and its service centre while the other one
    is connected: nothing crosses *)
Example C97_example : exists e1 e2 e3 q q',
  let ds := [Did 0 Usual _ signalStrength [Lines [lit "+CSQ: 18,99"; lit "OK"]] (Ok 18) e1; Did 1 Connecting unit (connect None) huawei (Ok tt) e2;
             Did 0 Usual _ get_smsc [Lines [lit "+CSCA: ""+2782"",145"; lit "OK"]] (Ok (Some (lit "+2782"))) e3] in
  history two_modems ds q /\ (forall e, In e ds -> who e = 0%nat -> sort_of e <> Toning) /\ history two_modems (only 0 ds) q' /\
  t_huawei (shared q) = true /\ t_huawei (shared q') = false /\ smscNumber (own q' 0) = Some (lit "+2782").
Proof.
  set (ds e1 e2 e3 := [Did 0 Usual _ signalStrength [Lines [lit "+CSQ: 18,99"; lit "OK"]] (Ok 18) e1; Did 1 Connecting unit (connect None) huawei (Ok tt) e2;
             Did 0 Usual _ get_smsc [Lines [lit "+CSCA: ""+2782"",145"; lit "OK"]] (Ok (Some (lit "+2782"))) e3]).
  assert (H : exists e1 e2 e3 q, history two_modems (ds e1 e2 e3) q /\ t_huawei (shared q) = true /\ smscNumber (own q 0) = Some (lit "+2782")).
  { do 4 eexists. split; [|split].
    { eapply hi_deed; [apply do_usual, us_signal|vm_compute; reflexivity|]. eapply hi_deed; [apply do_connect|vm_compute; reflexivity|].
      eapply hi_deed; [apply do_usual, us_smsc|vm_compute; reflexivity|]. apply hi_nil. }
    all: reflexivity. }
  destruct H as (e1 & e2 & e3 & q & H & T & N). assert (S : forall e, In e (ds e1 e2 e3) -> who e = 0%nat -> sort_of e <> Toning) by (intros e [<-|[<-|[<-|[]]]]; discriminate).
  destruct (proj1 (twins_apart _ _ _ 0%nat H) S) as (q' & H' & W). exists e1, e2, e3, q, q'. split; [exact H|]. split; [exact S|]. split; [exact H'|]. split; [exact T|]. split.
  - rewrite (twins_kept _ _ _ H'); [reflexivity|]. intros e [<-|[<-|[]]]; discriminate.
  - specialize (W (mk_tones false false)). apply (f_equal smscNumber) in W. cbn in W. rewrite W. exact N.
Qed.
