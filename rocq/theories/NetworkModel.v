(** ReceivedSms.reply, modem.py:57-59. *)
From Verif Require Import Base DateModel PduModel ModemCore SmsModel.

(** encodeSmsSubmitPdu(None, message, reference) (pdu.py:238-355) up to line 585,
    where None has no isalnum(): what can fail before is the choice of the alphabet
    (277-284), the header of the first part (289-315) and the reference (322). *)
Definition encode_to_None (message : str) (reference : Z) : res (list pdu) :=
  let* alphabet := submit_alphabet message in
  let len := Z.of_nat (length message) in
  let* _ := (if MAX_MESSAGE_LENGTH alphabet <? len
             then concat_encode reference (len / MAX_MESSAGE_LENGTH alphabet + 1) 1 else Ok []) in
  let* _ := byte reference in
  Err AttributeError.

(** modem.py:57-59: self._gsmModem.sendSms(self.number, message).  A StatusReport has
    no such method.  A message whose originating address is empty has the number None
    (pdu.py:570-571): in PDU mode sendSms (646) fails then; in text mode format() writes
    the word "None" (643), and the SentSms object gets the number None, here the text. *)
Definition reply (s : stored_sms) (message : str) : M nat :=
  match s with
  | Received _ (Some number) _ _ _ => sendSms number message false false
  | Received _ None _ _ _ =>
      do m <- get;
      if smsTextMode m then sendSms (lit "None") message false false
      else do _ <- lift (encode_to_None message (smsRef m)); raise AttributeError
  | Report _ _ _ _ _ _ => raise AttributeError
  end.
