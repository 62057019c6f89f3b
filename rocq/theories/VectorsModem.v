(** Cases of the test suite of the repository, /repo/test/test_modem.py and /repo/test/fakemodems.py,
    on the models of modem.py: a check of the models, not of the properties.

    The tables are those of the fake modems, without the line ends.  The answers set up by the
    write callbacks of the tests are given as scripts.  Not replayed: test_dialCallback, which
    is nested in test_dial and never run by the test suite either. *)
From Verif Require Import Base ModemCore SmsModel CallModel UssdModel NotifyModel ConnectModel PollModel.
From Verif Require SerialModel NetworkModel.

(** fakemodems.py:6-48 FakeModem, with the attributes of the classes derived from it.
    [f_slow]: lines 168-172, [f_clears]: 390-394 and 481-485, [f_ussd]: 335-341 *)
Record fake := mk_fake {
  f_responses : list (str * list str); f_noPin : list str; f_simBusy : list str; f_pinLock : bool; f_pinOk : list str;
  f_smsc : option str; f_simCount : nat; f_busyCount : nat; f_cfun : option Z; f_slow : bool; f_clears : bool; f_ussd : bool }.
Definition set_busy n f := mk_fake (f_responses f) (f_noPin f) (f_simBusy f) (f_pinLock f) (f_pinOk f) (f_smsc f) (f_simCount f) n (f_cfun f) (f_slow f) (f_clears f) (f_ussd f).
Definition set_sim n f := mk_fake (f_responses f) (f_noPin f) (f_simBusy f) (f_pinLock f) (f_pinOk f) (f_smsc f) n (f_busyCount f) (f_cfun f) (f_slow f) (f_clears f) (f_ussd f).
Definition set_fsmsc s f := mk_fake (f_responses f) (f_noPin f) (f_simBusy f) (f_pinLock f) (f_pinOk f) s (f_simCount f) (f_busyCount f) (f_cfun f) (f_slow f) (f_clears f) (f_ussd f).
Definition set_cfun c f := mk_fake (f_responses f) (f_noPin f) (f_simBusy f) (f_pinLock f) (f_pinOk f) (f_smsc f) (f_simCount f) (f_busyCount f) c (f_slow f) (f_clears f) (f_ussd f).
Definition set_ussd u f := mk_fake (f_responses f) (f_noPin f) (f_simBusy f) (f_pinLock f) (f_pinOk f) (f_smsc f) (f_simCount f) (f_busyCount f) (f_cfun f) (f_slow f) (f_clears f) u.
Definition set_responses r f := mk_fake r (f_noPin f) (f_simBusy f) (f_pinLock f) (f_pinOk f) (f_smsc f) (f_simCount f) (f_busyCount f) (f_cfun f) (f_slow f) (f_clears f) (f_ussd f).
Definition set_noPin n f := mk_fake (f_responses f) n (f_simBusy f) (f_pinLock f) (f_pinOk f) (f_smsc f) (f_simCount f) (f_busyCount f) (f_cfun f) (f_slow f) (f_clears f) (f_ussd f).
Definition respond (cmd : str) (ls : list str) (f : fake) : fake := set_responses ((cmd, ls) :: f_responses f) f.
Definition set_pinLock (b : bool) f :=
  mk_fake ((lit "AT+CPIN?", (if b then lit "+CPIN: SIM PIN" else lit "+CPIN: READY") :: f_pinOk f) :: f_responses f)
    (f_noPin f) (f_simBusy f) b (f_pinOk f) (f_smsc f) (f_simCount f) (f_busyCount f) (f_cfun f) (f_slow f) (f_clears f) (f_ussd f).
Definition in_strs (s : str) (l : list str) : bool := existsb (str_eqb s) l.
Definition look (f : fake) (cmd : str) : list str :=
  match find (fun p => str_eqb (fst p) cmd) (f_responses f) with Some p => snd p | None => [lit "OK"] end.
(** getResponse *)
Definition getResponse (f : fake) (cmd : str) : list str * fake :=
  if f_slow f && str_eqb cmd (lit "AT+CFUN=1") then ([lit "OK"], set_busy 2 f)
  else if f_ussd f && startswith cmd (lit "AT+CUSD=1") then ([lit "ERROR"], f)
  else
  let f := if f_clears f && negb (f_pinLock f) && startswith cmd (lit "AT+CSMP=") then set_fsmsc None f else f in
  let f := if startswith cmd (lit "AT^USSDMODE=") then set_ussd (str_eqb cmd (lit "AT^USSDMODE=1")) f else f in
  match f_busyCount f with
  | S n => ([lit "+CME ERROR: 515"], set_busy n f)
  | O =>
      if f_pinLock f && negb (startswith cmd (lit "AT+CPIN")) && negb (in_strs cmd (f_noPin f)) then ([lit "+CME ERROR: 11"], f)
      else
        let sim := negb (startswith cmd (lit "AT+CPIN=""")) && in_strs cmd (f_simBusy f) in
        let f := if startswith cmd (lit "AT+CPIN=""") then set_pinLock false f else f in
        match sim, f_simCount f with
        | true, S n => ([lit "+CME ERROR: 14"], set_sim n f)
        | _, _ =>
            match f_cfun f, str_eqb cmd (lit "AT+CFUN?"), str_eqb cmd (lit "AT+CSCA?") with
            | Some c, true, _ => ([lit "+CFUN: " ++ str_of_Z c; lit "OK"], f)
            | _, _, true => (match f_smsc f with Some n => [lit "+CSCA: """ ++ n ++ lit """,145"; lit "OK"] | None => [lit "OK"] end, f)
            | _, _, _ => (look f cmd, f)
            end
        end
  end.
(** the lines up to the end of the response; without an end, the wait times out *)
Fixpoint until_term (ls : list str) : option (list str) :=
  match ls with
  | [] => None
  | l :: ls' => if SerialModel.is_term l then Some [l] else match until_term ls' with Some r => Some (l :: r) | None => None end
  end.
Definition reply_of (cmd : str) (ls : list str) : reply :=
  if startswith cmd (lit "AT+CMGS=") then Lines [lit "> "] else match until_term ls with Some r => Lines r | None => NoReply ls end.
(** running a method against a fake modem: whenever it waits for one more answer,
    the fake modem is asked for it *)
Fixpoint drive {A} (fuel : nat) (c : M A) (m : modem) (f : fake) (sc : list reply) : option (res A * modem * fake * list event) :=
  match fuel with
  | O => None
  | S fuel' =>
      match c (mk_world m sc []) with
      | Done r w => Some (r, dev w, f, trace w)
      | Stuck _ =>
          match c (mk_world m (sc ++ [NoReply []]) []) with
          | Done _ w | Stuck w =>
              (* the (length sc)-th answered write *)
              match nth_error (flat_map (fun e => match e with EWrite t (Some _) => [t] | _ => [] end) (trace w)) (length sc) with
              | Some t => let cmd := removelast t in let (ls, f') := getResponse f cmd in drive fuel' c m f' (sc ++ [reply_of cmd ls])
              | None => None
              end
          end
      end
  end.
Definition run {A} (c : M A) (m : modem) (f : fake) := drive 100 c m f [].
Definition written (tr : list event) : list str := flat_map (fun e => match e with EWrite t _ => [t] | _ => [] end) tr.
(** a method against given answers *)
Definition with_lines {A} (c : M A) (m : modem) (replies : list (list str)) : option (res A * list str) :=
  match c (mk_world m (map Lines replies) []) with Done r w => Some (r, written (trace w)) | Stuck _ => None end.

(** fakemodems.py:97-102 GenericTestModem *)
Definition generic : fake := set_pinLock false (mk_fake
  [((lit "AT+CPMS=?"), [(lit "+CPMS: (""ME"",""MT"",""SM"",""SR""),(""ME"",""MT"",""SM"",""SR""),(""ME"",""MT"",""SM"",""SR"")"); (lit "OK")]);
   ((lit "AT+CLAC"), [(lit "ERROR")]);
   ((lit "AT+WIND?"), [(lit "ERROR")]);
   ((lit "AT+WIND=50"), [(lit "ERROR")]);
   ((lit "AT+ZPAS?"), [(lit "ERROR")]);
   ((lit "AT+CPIN?"), [(lit "+CPIN: READY"); (lit "OK")])]
  [(lit "ATZ"); (lit "ATE0"); (lit "AT+CFUN?"); (lit "AT+CFUN=1"); (lit "AT+CMEE=1")] [] false [lit "OK"] None 0 0 (Some 1) false false false).
(** fakemodems.py:151-165 WavecomMultiband900E1800 *)
Definition wavecom : fake := set_pinLock false (mk_fake
  [((lit "AT+CGMI"), [(lit " WAVECOM MODEM"); (lit "OK")]);
   ((lit "AT+CGMM"), [(lit " MULTIBAND  900E  1800"); (lit "OK")]);
   ((lit "AT+CGMR"), [(lit "ERROR")]);
   ((lit "AT+CIMI"), [(lit "111111111111111"); (lit "OK")]);
   ((lit "AT+CGSN"), [(lit "111111111111111"); (lit "OK")]);
   ((lit "AT+CLAC"), [(lit "ERROR")]);
   ((lit "AT+WIND?"), [(lit "+WIND: 0"); (lit "OK")]);
   ((lit "AT+WIND=50"), [(lit "OK")]);
   ((lit "AT+ZPAS?"), [(lit "ERROR")]);
   ((lit "AT+CPMS=""SM"",""SM"",""SR"""), [(lit "ERROR")]);
   ((lit "AT+CPMS=?"), [(lit "+CPMS: ((""SM"",""BM"",""SR""),(""SM""))"); (lit "OK")]);
   ((lit "AT+CPMS=""SM"",""SM"""), [(lit "+CPMS: 14,50,14,50"); (lit "OK")]);
   ((lit "AT+CNMI=2,1,0,2"), [(lit "OK")]);
   ((lit "AT+CVHU=0"), [(lit "ERROR")]);
   ((lit "AT+CPIN?"), [(lit "+CPIN: READY")])]
  [(lit "ATZ"); (lit "ATE0"); (lit "AT+CFUN?"); (lit "AT+CFUN=1"); (lit "AT+CMEE=1")] [] false [] None 0 0 (Some 1) true false false).
(** fakemodems.py:214-238 HuaweiK3715 *)
Definition k3715 : fake := set_pinLock false (mk_fake
  [((lit "AT+CGMI"), [(lit "huawei"); (lit "OK")]);
   ((lit "AT+CGMM"), [(lit "K3715"); (lit "OK")]);
   ((lit "AT+CGMR"), [(lit "11.104.05.00.00"); (lit "OK")]);
   ((lit "AT+CIMI"), [(lit "111111111111111"); (lit "OK")]);
   ((lit "AT+CGSN"), [(lit "111111111111111"); (lit "OK")]);
   ((lit "AT+CPMS=?"), [(lit "+CPMS: (""ME"",""MT"",""SM"",""SR""),(""ME"",""MT"",""SM"",""SR""),(""ME"",""MT"",""SM"",""SR"")"); (lit "OK")]);
   ((lit "AT+WIND?"), [(lit "ERROR")]);
   ((lit "AT+WIND=50"), [(lit "ERROR")]);
   ((lit "AT+ZPAS?"), [(lit "ERROR")]);
   ((lit "AT+CLAC"), [(lit "+CLAC:&C,&D,&E,&F,&S,&V,&W,E,I,L,M,Q,V,X,Z,T,P,\S,\V,%V,D,A,H,O,S0,S2,S3,S4,S5,S6,S7,S8,S9,S10,S11,S30,S103,S104,+FCLASS,+ICF,+IFC,+IPR,+GMI,+GMM,+GMR,+GCAP,+GSN,+DR,+DS,+WS46,+CLAC,+CCLK,+CBST,+CRLP,+CV120,+CHSN,+CSSN,+CREG,+CGREG,+CFUN,+GCAP,+CSCS,+CSTA,+CR,+CEER,+CRC,+CMEE,+CGDCONT,+CGDSCONT,+CGTFT,+CGEQREQ,+CGEQMIN,+CGQREQ,+CGQMIN,+CGEQNEG,+CGEREP,+CGPADDR,+CGCLASS,+CGSMS,+CSMS,+CMGF,+CSAS,+CRES,+CSCA,+CSMP,+CSDH,+CSCB,+FDD,+FAR,+FCL,+FIT,+ES,+ESA,+CMOD,+CVHU,+CGDATA,+CSQ,+CBC,+CPAS,+CPIN,+CMEC,+CGATT,+CGACT,+CGCMOD,+CPBS,+CPBR,+CPBF,+CPBW,+CPMS,+CNMI,+CMGL,+CMGR,+CMGS,+CMSS,+CMGW,+CMGD,+CMGC,+CNMA,+CMMS,+FTS,+FRS,+FTH,+FRH,+FTM,+FRM,+CHUP,+CCFC,+CCUG,+COPS,+CLCK,+CPWD,+CUSD,+CAOC,+CACM,+CAMM,+CPUC,+CCWA,+CHLD,+CIMI,+CGMI,+CGMM,+CGMR,+CGSN,+CNUM,+CSIM,+CRSM,+CCLK,+CLVL,+CMUT,+CLCC,+COPN,+CPOL,+CPLS,+CTZR,+CTZU,+CLAC,+CLIP,+COLP,+CDIP,+CTFR,+CLIR,$QCSIMSTAT,$QCCNMI,$QCCLR,$QCDMG,$QCDMR,$QCDNSP,$QCDNSS,$QCTER,$QCSLOT,$QCPINSTAT,$QCPDPP,$QCPDPLT,$QCPWRDN,$QCDGEN,$BREW,$QCSYSMODE,^CVOICE,^DDSETEX,^pcmrecord,^SYSINFO,^SYSCFG,^IMSICHG,^HS,^DTMF,^EARST,^CDUR,^LIGHT,^CPBR,^CPBW,^HWVER,^HVER,^DSFLOWCLR,^DSFLOWQRY,^DSFLOWRPT,^SPN,^PORTSEL,^CPIN,^PNN,^OPL,^CPNN,^SN,^CARDLOCK,^BOOT,^FHVER,^CURC,^FREQLOCK,^HSDPA,^HSUPA,^CARDMODE,^U2DIAG,^CELLMODE,^HSPA,^SCSIOVERTIME,^SETPID,^ADCTEMP,^OPWORD,^CPWORD,^DISLOG,^ANQUERY,^RSCPCFG,^ECIOCFG,"); (lit "OK")]);
   ((lit "AT+CPIN?"), [(lit "+CPIN: READY"); (lit "OK")])]
  [(lit "ATZ"); (lit "ATE0"); (lit "AT+CFUN?"); (lit "AT+CFUN=1"); (lit "AT+CMEE=1")] [] false [lit "OK"] None 0 0 (Some 1) false false false).
(** fakemodems.py:273-331 HuaweiE1752 *)
Definition e1752 : fake := set_pinLock false (mk_fake
  [((lit "AT+CGMI"), [(lit "huawei"); (lit "OK")]);
   ((lit "AT+CGMM"), [(lit "E1752"); (lit "OK")]);
   ((lit "AT+CGMR"), [(lit "11.126.13.00.00"); (lit "OK")]);
   ((lit "AT+CIMI"), [(lit "111111111111111"); (lit "OK")]);
   ((lit "AT+CGSN"), [(lit "111111111111111"); (lit "OK")]);
   ((lit "AT+CPMS=?"), [(lit "+CPMS: (""ME"",""MT"",""SM"",""SR""),(""ME"",""MT"",""SM"",""SR""),(""ME"",""MT"",""SM"",""SR"")"); (lit "OK")]);
   ((lit "AT+WIND?"), [(lit "COMMAND NOT SUPPORT")]);
   ((lit "AT+WIND=50"), [(lit "COMMAND NOT SUPPORT")]);
   ((lit "AT+ZPAS?"), [(lit "COMMAND NOT SUPPORT")]);
   ((lit "AT+CLAC"), [(lit "&C" ++ [13]); (lit "&D" ++ [13]); (lit "&F" ++ [13]); (lit "&V" ++ [13]); (lit "E" ++ [13]); (lit "I" ++ [13]); (lit "L" ++ [13]); (lit "M" ++ [13]); (lit "Q" ++ [13]); (lit "V" ++ [13]); (lit "X" ++ [13]); (lit "Z" ++ [13]); (lit "T" ++ [13]); (lit "P" ++ [13]); (lit "D" ++ [13]); (lit "A" ++ [13]); (lit "H" ++ [13]); (lit "O" ++ [13]); (lit "S0" ++ [13]); (lit "S2" ++ [13]); (lit "S3" ++ [13]); (lit "S4" ++ [13]); (lit "S5" ++ [13]); (lit "S6" ++ [13]); (lit "S7" ++ [13]); (lit "S8" ++ [13]); (lit "S9" ++ [13]); (lit "S10" ++ [13]); (lit "S11" ++ [13]); (lit "S30" ++ [13]); (lit "S103" ++ [13]); (lit "S104" ++ [13]); (lit "+FCLASS" ++ [13]); (lit "+ICF" ++ [13]); (lit "+IFC" ++ [13]); (lit "+IPR" ++ [13]); (lit "+GMI" ++ [13]); (lit "+GMM" ++ [13]); (lit "+GMR" ++ [13]); (lit "+GCAP" ++ [13]); (lit "+GSN" ++ [13]); (lit "+DR" ++ [13]); (lit "+DS" ++ [13]); (lit "+WS46" ++ [13]); (lit "+CLAC" ++ [13]); (lit "+CCLK" ++ [13]); (lit "+CBST" ++ [13]); (lit "+CRLP" ++ [13]); (lit "+CV120" ++ [13]); (lit "+CHSN" ++ [13]); (lit "+CSSN" ++ [13]); (lit "+CREG" ++ [13]); (lit "+CGREG" ++ [13]); (lit "+CFUN" ++ [13]); (lit "+GCAP" ++ [13]); (lit "+CSCS" ++ [13]); (lit "+CSTA" ++ [13]); (lit "+CR" ++ [13]); (lit "+CEER" ++ [13]); (lit "+CRC" ++ [13]); (lit "+CMEE" ++ [13]); (lit "+CGDCONT" ++ [13]); (lit "+CGDSCONT" ++ [13]); (lit "+CGTFT" ++ [13]); (lit "+CGEQREQ" ++ [13]); (lit "+CGEQMIN" ++ [13]); (lit "+CGQREQ" ++ [13]); (lit "+CGQMIN" ++ [13]); (lit "+CGEQNEG" ++ [13]); (lit "+CGEREP" ++ [13]); (lit "+CGPADDR" ++ [13]); (lit "+CGCLASS" ++ [13]); (lit "+CGSMS" ++ [13]); (lit "+CSMS" ++ [13]); (lit "+CMGF" ++ [13]); (lit "+CSAS" ++ [13]); (lit "+CRES" ++ [13]); (lit "+CSCA" ++ [13]); (lit "+CSMP" ++ [13]); (lit "+CSDH" ++ [13]); (lit "+CSCB" ++ [13]); (lit "+FDD" ++ [13]); (lit "+FAR" ++ [13]); (lit "+FCL" ++ [13]); (lit "+FIT" ++ [13]); (lit "+ES" ++ [13]); (lit "+ESA" ++ [13]); (lit "+CMOD" ++ [13]); (lit "+CVHU" ++ [13]); (lit "+CGDATA" ++ [13]); (lit "+CSQ" ++ [13]); (lit "+CBC" ++ [13]); (lit "+CPAS" ++ [13]); (lit "+CPIN" ++ [13]); (lit "+CMEC" ++ [13]); (lit "+CKPD" ++ [13]); (lit "+CIND" ++ [13]); (lit "+CMER" ++ [13]); (lit "+CGATT" ++ [13]); (lit "+CGACT" ++ [13]); (lit "+CGCMOD" ++ [13]); (lit "+CPBS" ++ [13]); (lit "+CPBR" ++ [13]); (lit "+CPBF" ++ [13]); (lit "+CPBW" ++ [13]); (lit "+CPMS" ++ [13]); (lit "+CNMI" ++ [13]); (lit "+CMGL" ++ [13]); (lit "+CMGR" ++ [13]); (lit "+CMGS" ++ [13]); (lit "+CMSS" ++ [13]); (lit "+CMGW" ++ [13]); (lit "+CMGD" ++ [13]); (lit "+CMGC" ++ [13]); (lit "+CNMA" ++ [13]); (lit "+CMMS" ++ [13]); (lit "+FTS" ++ [13]); (lit "+FRS" ++ [13]); (lit "+FTH" ++ [13]); (lit "+FRH" ++ [13]); (lit "+FTM" ++ [13]); (lit "+FRM" ++ [13]); (lit "+CHUP" ++ [13]); (lit "+CCFC" ++ [13]); (lit "+CCUG" ++ [13]); (lit "+COPS" ++ [13]); (lit "+CLCK" ++ [13]); (lit "+CPWD" ++ [13]); (lit "+CUSD" ++ [13]); (lit "+CAOC" ++ [13]); (lit "+CACM" ++ [13]); (lit "+CAMM" ++ [13]); (lit "+CPUC" ++ [13]); (lit "+CCWA" ++ [13]); (lit "+CHLD" ++ [13]); (lit "+CIMI" ++ [13]); (lit "+CGMI" ++ [13]); (lit "+CGMM" ++ [13]); (lit "+CGMR" ++ [13]); (lit "+CGSN" ++ [13]); (lit "+CNUM" ++ [13]); (lit "+CSIM" ++ [13]); (lit "+CRSM" ++ [13]); (lit "+CCLK" ++ [13]); (lit "+CLVL" ++ [13]); (lit "+CMUT" ++ [13]); (lit "+CLCC" ++ [13]); (lit "+COPN" ++ [13]); (lit "+CPOL" ++ [13]); (lit "+CPLS" ++ [13]); (lit "+CTZR" ++ [13]); (lit "+CTZU" ++ [13]); (lit "+CLAC" ++ [13]); (lit "+CLIP" ++ [13]); (lit "+COLP" ++ [13]); (lit "+CDIP" ++ [13]); (lit "+CTFR" ++ [13]); (lit "+CLIR" ++ [13]); (lit "$QCSIMSTAT" ++ [13]); (lit "$QCCNMI" ++ [13]); (lit "$QCCLR" ++ [13]); (lit "$QCDMG" ++ [13]); (lit "$QCDMR" ++ [13]); (lit "$QCDNSP" ++ [13]); (lit "$QCDNSS" ++ [13]); (lit "$QCTER" ++ [13]); (lit "$QCSLOT" ++ [13]); (lit "$QCPINSTAT" ++ [13]); (lit "$QCPDPP" ++ [13]); (lit "$QCPDPLT" ++ [13]); (lit "$QCPWRDN" ++ [13]); (lit "$QCDGEN" ++ [13]); (lit "$BREW" ++ [13]); (lit "$QCSYSMODE" ++ [13]); (lit "$QCCTM" ++ [13]); (lit "^RFSWITCH" ++ [13]); (lit "^SOFTSWITCH" ++ [13]); (lit "^FLIGHTMODESAVE" ++ [13]); (lit "^IMSICHG" ++ [13]); (lit "^STSF" ++ [13]); (lit "^STGI" ++ [13]); (lit "^STGR" ++ [13]); (lit "^CELLMODE" ++ [13]); (lit "^SYSINFO" ++ [13]); (lit "^DIALMODE" ++ [13]); (lit "^SYSCFG" ++ [13]); (lit "^SYSCONFIG" ++ [13]); (lit "^HS" ++ [13]); (lit "^DTMF" ++ [13]); (lit "^CPBR" ++ [13]); (lit "^CPBW" ++ [13]); (lit "^HWVER" ++ [13]); (lit "^HVER" ++ [13]); (lit "^DSFLOWCLR" ++ [13]); (lit "^DSFLOWQRY" ++ [13]); (lit "^DSFLOWRPT" ++ [13]); (lit "^SPN" ++ [13]); (lit "^PORTSEL" ++ [13]); (lit "^CPIN" ++ [13]); (lit "^SN" ++ [13]); (lit "^EARST" ++ [13]); (lit "^CARDLOCK" ++ [13]); (lit "^CARDUNLOCK" ++ [13]); (lit "^ATRECORD" ++ [13]); (lit "^CDUR" ++ [13]); (lit "^BOOT" ++ [13]); (lit "^FHVER" ++ [13]); (lit "^CURC" ++ [13]); (lit "^FREQLOCK" ++ [13]); (lit "^FREQPREF" ++ [13]); (lit "^HSPA" ++ [13]); (lit "^HSUPA" ++ [13]); (lit "^GPSTYPE" ++ [13]); (lit "^HSDPA" ++ [13]); (lit "^GLASTERR" ++ [13]); (lit "^CARDMODE" ++ [13]); (lit "^U2DIAG" ++ [13]); (lit "^RSTRIGGER" ++ [13]); (lit "^SETPID" ++ [13]); (lit "^SCSITIMEOUT" ++ [13]); (lit "^CQI" ++ [13]); (lit "^GETPORTMODE" ++ [13]); (lit "^CVOICE" ++ [13]); (lit "^DDSETEX" ++ [13]); (lit "^pcmrecord" ++ [13]); (lit "^CSNR" ++ [13]); (lit "^CMSR" ++ [13]); (lit "^CMMT" ++ [13]); (lit "^CMGI" ++ [13]); (lit "^RDCUST" ++ [13]); (lit "^OPWORD" ++ [13]); (lit "^CPWORD" ++ [13]); (lit "^DISLOG" ++ [13]); (lit "^FPLMN" ++ [13]); (lit "^FPLMNCTRL" ++ [13]); (lit "^ANQUERY" ++ [13]); (lit "^RSCPCFG" ++ [13]); (lit "^ECIOCFG" ++ [13]); (lit "^IMSICHECK" ++ [13]); (lit "^USSDMODE" ++ [13]); (lit "^SLOTCFG" ++ [13]); (lit "^YJCX" ++ [13]); (lit "^NDISDUP" ++ [13]); (lit "^DHCP" ++ [13]); (lit "^AUTHDATA" ++ [13]); (lit "^CRPN" ++ [13]); (lit "^ICCID" ++ [13]); (lit "^NVMBN" ++ [13]); (lit "^RXDIV" ++ [13]); (lit "^DNSP" ++ [13]); (lit "^DNSS" ++ [13]); (lit "^WPDST" ++ [13]); (lit "^WPDOM" ++ [13]); (lit "^WPDFR" ++ [13]); (lit "^WPQOS" ++ [13]); (lit "^WPDSC" ++ [13]); (lit "^WPDGP" ++ [13]); (lit "^WPEND" ++ [13]); (lit "^WNICT" ++ [13]); (lit "^SOCKETCONT" ++ [13]); (lit "^WPURL" ++ [13]); (lit "^WMOLR" ++ [13]); (lit "^SECTIME" ++ [13]); (lit "^WPDNP" ++ [13]); (lit "^WPDDL" ++ [13]); (lit "^WPDCP" ++ [13]); (lit "OK")]);
   ((lit "AT+CPIN?"), [(lit "+CPIN: READY"); (lit "OK")])]
  [(lit "ATZ"); (lit "ATE0"); (lit "AT+CFUN?"); (lit "AT+CFUN=1"); (lit "AT+CMEE=1")] [] false [lit "OK"] None 0 0 (Some 1) false false true).
(** fakemodems.py:377-388 QualcommM6280 *)
Definition m6280 : fake := set_pinLock false (mk_fake
  [((lit "AT+CGMI"), [(lit "QUALCOMM INCORPORATED"); (lit "OK")]);
   ((lit "AT+CGMM"), [(lit "M6280"); (lit "OK")]);
   ((lit "AT+CGMR"), [(lit "M6280_V1.0.0 M6280_V1.0.0 1 [Sep 4 2008 12:00:00]"); (lit "OK")]);
   ((lit "AT+CIMI"), [(lit "111111111111111"); (lit "OK")]);
   ((lit "AT+CGSN"), [(lit "111111111111111"); (lit "OK")]);
   ((lit "AT+CLAC"), [(lit "ERROR")]);
   ((lit "AT+WIND?"), [(lit "ERROR")]);
   ((lit "AT+WIND=50"), [(lit "ERROR")]);
   ((lit "AT+ZPAS?"), [(lit "+BEARTYPE: ""UMTS"",""CS_PS"""); (lit "OK")]);
   ((lit "AT+CPMS=?"), [(lit "+CPMS: (""ME"",""MT"",""SM"",""SR""),(""ME"",""MT"",""SM"",""SR""),(""ME"",""MT"",""SM"",""SR"")"); (lit "OK")]);
   ((lit "AT+CVHU=0"), [(lit "+CVHU: (0-1)"); (lit "OK")]);
   ((lit "AT+CPIN?"), [(lit "+CPIN: READY"); (lit "OK")])]
  [] [(lit "AT+CSCA?")] false [lit "OK"] None 0 0 (Some 1) false true false).
(** fakemodems.py:442-479 ZteK3565Z *)
Definition k3565 : fake := set_pinLock false (mk_fake
  [((lit "AT+CGMI"), [(lit "ZTE INCORPORATED"); (lit "OK")]);
   ((lit "AT+CGMM"), [(lit "K3565-Z"); (lit "OK")]);
   ((lit "AT+CGMR"), [(lit "BD_P673A2V1.0.0B09"); (lit "OK")]);
   ((lit "AT+CFUN?"), [(lit "+CFUN: (0-1,4-7),(0-1)"); (lit "OK")]);
   ((lit "AT+CIMI"), [(lit "111111111111111"); (lit "OK")]);
   ((lit "AT+CGSN"), [(lit "111111111111111"); (lit "OK")]);
   ((lit "AT+CLAC"), [(lit "&C"); (lit "&D"); (lit "&E"); (lit "&F"); (lit "&S"); (lit "&V"); (lit "&W"); (lit "E"); (lit "I"); (lit "L"); (lit "M"); (lit "Q"); (lit "V"); (lit "X"); (lit "Z"); (lit "T"); (lit "P"); (lit "\Q"); (lit "\S"); (lit "\V"); (lit "%V"); (lit "D"); (lit "A"); (lit "H"); (lit "O"); (lit "S0"); (lit "S2"); (lit "S3"); (lit "S4"); (lit "S5"); (lit "S6"); (lit "S7"); (lit "S8"); (lit "S9"); (lit "S10"); (lit "S11"); (lit "S30"); (lit "S103"); (lit "S104"); (lit "+FCLASS"); (lit "+ICF"); (lit "+IFC"); (lit "+IPR"); (lit "+GMI"); (lit "+GMM"); (lit "+GMR"); (lit "+GCAP"); (lit "+GSN"); (lit "+DR"); (lit "+DS"); (lit "+WS46"); (lit "+CBST"); (lit "+CRLP"); (lit "+CV120"); (lit "+CHSN"); (lit "+CSSN"); (lit "+CREG"); (lit "+CGREG"); (lit "+CFUN"); (lit "+GCAP"); (lit "+CSCS"); (lit "+CSTA"); (lit "+CR"); (lit "+CEER"); (lit "+CRC"); (lit "+CMEE"); (lit "+CGDCONT"); (lit "+CGDSCONT"); (lit "+CGTFT"); (lit "+CGEQREQ"); (lit "+CGEQMIN"); (lit "+CGQREQ"); (lit "+CGQMIN"); (lit "+CGEREP"); (lit "+CGPADDR"); (lit "+CGDATA"); (lit "+CGCLASS"); (lit "+CGSMS"); (lit "+CSMS"); (lit "+CMGF"); (lit "+CSAS"); (lit "+CRES"); (lit "+CSCA"); (lit "+CSMP"); (lit "+CSDH"); (lit "+CSCB"); (lit "+FDD"); (lit "+FAR"); (lit "+FCL"); (lit "+FIT"); (lit "+ES"); (lit "+ESA"); (lit "+CMOD"); (lit "+CVHU"); (lit "+CSQ"); (lit "+ZRSSI"); (lit "+CBC"); (lit "+CPAS"); (lit "+CPIN"); (lit "+CMEC"); (lit "+CKPD"); (lit "+CGATT"); (lit "+CGACT"); (lit "+CGCMOD"); (lit "+CPBS"); (lit "+CPBR"); (lit "+ZCPBR"); (lit "+ZUSIM"); (lit "+CPBF"); (lit "+CPBW"); (lit "+ZCPBW"); (lit "+CPMS"); (lit "+CNMI"); (lit "+CMGL"); (lit "+CMGR"); (lit "+CMGS"); (lit "+CMSS"); (lit "+CMGW"); (lit "+CMGD"); (lit "+CMGC"); (lit "+CNMA"); (lit "+CMMS"); (lit "+CHUP"); (lit "+CCFC"); (lit "+CCUG"); (lit "+COPS"); (lit "+CLCK"); (lit "+CPWD"); (lit "+CUSD"); (lit "+CAOC"); (lit "+CACM"); (lit "+CAMM"); (lit "+CPUC"); (lit "+CCWA"); (lit "+CHLD"); (lit "+CIMI"); (lit "+CGMI"); (lit "+CGMM"); (lit "+CGMR"); (lit "+CGSN"); (lit "+CNUM"); (lit "+CSIM"); (lit "+CRSM"); (lit "+CCLK"); (lit "+CLVL"); (lit "+CMUT"); (lit "+CLCC"); (lit "+COPN"); (lit "+CPOL"); (lit "+CPLS"); (lit "+CTZR"); (lit "+CTZU"); (lit "+CLAC"); (lit "+CLIP"); (lit "+COLP"); (lit "+CDIP"); (lit "+CTFR"); (lit "+CLIR"); (lit "$QCSIMSTAT"); (lit "$QCCNMI"); (lit "$QCCLR"); (lit "$QCDMG"); (lit "$QCDMR"); (lit "$QCDNSP"); (lit "$QCDNSS"); (lit "$QCTER"); (lit "$QCSLOT"); (lit "$QCPINSTAT"); (lit "$QCPDPP"); (lit "$QCPDPLT"); (lit "$QCPWRDN"); (lit "$QCDGEN"); (lit "$BREW"); (lit "$QCSYSMODE"); (lit "OK")]);
   ((lit "AT+WIND?"), [(lit "ERROR")]);
   ((lit "AT+WIND=50"), [(lit "ERROR")]);
   ((lit "AT+ZPAS?"), [(lit "+BEARTYPE: ""UMTS"",""CS_PS"""); (lit "OK")]);
   ((lit "AT+CPMS=?"), [(lit "+CPMS: (""ME"",""MT"",""SM"",""SR""),(""ME"",""MT"",""SM"",""SR""),(""ME"",""MT"",""SM"",""SR"")"); (lit "OK")]);
   ((lit "AT+CVHU=0"), [(lit "+CVHU: (0-1)"); (lit "OK")]);
   ((lit "AT+CPIN?"), [(lit "+CPIN: READY"); (lit "OK")])]
  [] [] false [lit "OK"] None 0 0 (Some 1) false true false).
(** fakemodems.py:539-558 NokiaN79 *)
Definition n79 : fake := set_pinLock false (mk_fake
  [((lit "AT+CGMI"), [(lit "Nokia"); (lit "OK")]);
   ((lit "AT+CGMM"), [(lit "Nokia N79"); (lit "OK")]);
   ((lit "AT+CGMR"), [(lit "V ICPR72_08w44.1"); (lit "24-11-08"); (lit "RM-348"); (lit "(c) Nokia"); (lit "11.049"); (lit "OK")]);
   ((lit "AT+CIMI"), [(lit "111111111111111"); (lit "OK")]);
   ((lit "AT+CGSN"), [(lit "111111111111111"); (lit "OK")]);
   ((lit "AT+CNMI=2,1,0,2"), [(lit "ERROR")]);
   ((lit "AT+CLAC"), [(lit "ERROR")]);
   ((lit "AT+WIND?"), [(lit "ERROR")]);
   ((lit "AT+WIND=50"), [(lit "ERROR")]);
   ((lit "AT+ZPAS?"), [(lit "ERROR")]);
   ((lit "AT+CPMS=""SM"",""SM"",""SR"""), [(lit "ERROR")]);
   ((lit "AT+CPMS=?"), [(lit "+CPMS: (),(),()"); (lit "OK")]);
   ((lit "AT+CPMS?"), [(lit "+CPMS: ,,,,,,,,"); (lit "OK")]);
   ((lit "AT+CPMS=,,"), [(lit "ERROR")]);
   ((lit "AT+CPMS=""SM"",""SM"""), [(lit "ERROR")]);
   ((lit "AT+CSMP?"), [(lit "+CSMP: 49,167,0,0"); (lit "OK")]);
   ((lit "AT+GCAP"), [(lit "+GCAP: +CGSM,+DS,+W"); (lit "OK")]);
   ((lit "AT+CVHU=0"), [(lit "OK")]);
   ((lit "AT+CPIN?"), [(lit "+CPIN: READY"); (lit "OK")])]
  [(lit "ATZ"); (lit "ATE0"); (lit "AT+CFUN?"); (lit "AT+CFUN=1"); (lit "AT+CMEE=1")] [] false [lit "OK"] None 0 0 (Some 1) false false false).
Definition createModems : list fake := [k3715; e1752; wavecom; m6280; k3565; n79].
Definition connected (f : fake) : modem := match run (connect None) modem_init f with Some (Ok _, m, _, _) => m | _ => modem_init end.
Definition connected_fake (f : fake) : fake := match run (connect None) modem_init f with Some (Ok _, _, f', _) => f' | _ => f end.
Definition gen : modem := connected generic.

(** connecting to each of them succeeds; the settings after it *)
Example connect_all : forallb (fun f => match run (connect None) modem_init f with Some (Ok _, m, _, _) => alive m | _ => false end) (generic :: createModems) = true.
Proof. vm_compute. reflexivity. Qed.
Example connect_tables : map (fun f => callUpdates (connected f)) (generic :: createModems) = [TNone; THuawei; THuawei; TWavecom; TZte; TZte; TNone].
Proof. vm_compute. reflexivity. Qed.
Example connect_polls : map (fun f => mustPoll (connected f)) (generic :: createModems) = [true; false; false; false; false; false; true].
Proof. vm_compute. reflexivity. Qed.
(** test_modem.py:137-194: simple queries *)
Example manufacturer_0 : with_lines manufacturer gen [[(lit "huawei"); lit "OK"]] = Some (Ok (lit "huawei"), [(lit "AT+CGMI" ++ [13])]).
Proof. vm_compute. repeat split. Qed.
Example manufacturer_1 : with_lines manufacturer gen [[(lit "ABCDefgh1235"); lit "OK"]] = Some (Ok (lit "ABCDefgh1235"), [(lit "AT+CGMI" ++ [13])]).
Proof. vm_compute. repeat split. Qed.
Example manufacturer_2 : with_lines manufacturer gen [[(lit "Some Random Manufacturer"); lit "OK"]] = Some (Ok (lit "Some Random Manufacturer"), [(lit "AT+CGMI" ++ [13])]).
Proof. vm_compute. repeat split. Qed.
Example model_0 : with_lines model gen [[(lit "K3715"); lit "OK"]] = Some (Ok (lit "K3715"), [(lit "AT+CGMM" ++ [13])]).
Proof. vm_compute. repeat split. Qed.
Example model_1 : with_lines model gen [[(lit "1324-Qwerty"); lit "OK"]] = Some (Ok (lit "1324-Qwerty"), [(lit "AT+CGMM" ++ [13])]).
Proof. vm_compute. repeat split. Qed.
Example model_2 : with_lines model gen [[(lit "Some Random Model"); lit "OK"]] = Some (Ok (lit "Some Random Model"), [(lit "AT+CGMM" ++ [13])]).
Proof. vm_compute. repeat split. Qed.
Example imei_0 : with_lines imei gen [[(lit "012345678912345"); lit "OK"]] = Some (Ok (lit "012345678912345"), [(lit "AT+CGSN" ++ [13])]).
Proof. vm_compute. repeat split. Qed.
Example imsi_0 : with_lines imsi gen [[(lit "987654321012345"); lit "OK"]] = Some (Ok (lit "987654321012345"), [(lit "AT+CIMI" ++ [13])]).
Proof. vm_compute. repeat split. Qed.
Example revision_0 : with_lines revision gen [[(lit "1"); lit "OK"]] = Some (Ok (Some (lit "1")), [(lit "AT+CGMR" ++ [13])]).
Proof. vm_compute. repeat split. Qed.
Example revision_1 : with_lines revision gen [[(lit "1324-56768-23414"); lit "OK"]] = Some (Ok (Some (lit "1324-56768-23414")), [(lit "AT+CGMR" ++ [13])]).
Proof. vm_compute. repeat split. Qed.
Example revision_2 : with_lines revision gen [[(lit "r987"); lit "OK"]] = Some (Ok (Some (lit "r987")), [(lit "AT+CGMR" ++ [13])]).
Proof. vm_compute. repeat split. Qed.
Example revision_none : with_lines revision gen [[lit "ERROR"]] = Some (Ok None, [(lit "AT+CGMR" ++ [13])]).
Proof. vm_compute. repeat split. Qed.
Example networkName_0 : with_lines networkName gen [[(lit "+COPS: 0,0,""MTN"",2"); lit "OK"]] = Some (Ok (Some (lit "MTN")), [(lit "AT+COPS?" ++ [13])]).
Proof. vm_compute. repeat split. Qed.
Example networkName_1 : with_lines networkName gen [[(lit "+COPS: 0,0,""I OMNITEL"""); lit "OK"]] = Some (Ok (Some (lit "I OMNITEL")), [(lit "AT+COPS?" ++ [13])]).
Proof. vm_compute. repeat split. Qed.
Example networkName_2 : with_lines networkName gen [[(lit "SOME RANDOM RESPONSE"); lit "OK"]] = Some (Ok None, [(lit "AT+COPS?" ++ [13])]).
Proof. vm_compute. repeat split. Qed.
(** test_modem.py:196-218 test_supportedCommands *)
Example supported_0 : with_lines supportedCommands gen [[(lit "+CLAC:&C,D,E,\S,+CGMM,^DTMF"); (lit "OK")]] = Some (Ok (Some [(lit "&C"); (lit "D"); (lit "E"); (lit "\S"); (lit "+CGMM"); (lit "^DTMF")]), [(lit "AT+CLAC" ++ [13])]).
Proof. vm_compute. repeat split. Qed.
Example supported_1 : with_lines supportedCommands gen [[(lit "+CLAC:Z"); (lit "OK")]] = Some (Ok (Some [(lit "Z")]), [(lit "AT+CLAC" ++ [13])]).
Proof. vm_compute. repeat split. Qed.
Example supported_2 : with_lines supportedCommands gen [[(lit "FGH,RTY,UIO"); (lit "OK")]] = Some (Ok (Some [(lit "FGH"); (lit "RTY"); (lit "UIO")]), [(lit "AT+CLAC" ++ [13])]).
Proof. vm_compute. repeat split. Qed.
Example supported_3 : with_lines supportedCommands gen [[(lit "A"); (lit "BCD"); (lit "EFGH"); (lit "OK")]] = Some (Ok (Some [(lit "A"); (lit "BCD"); (lit "EFGH")]), [(lit "AT+CLAC" ++ [13])]).
Proof. vm_compute. repeat split. Qed.
Example supported_4 : with_lines supportedCommands gen [[(lit "Q" ++ [13]); (lit "QWERTY" ++ [13]); (lit "^DTMF" ++ [13]); (lit "OK")]] = Some (Ok (Some [(lit "Q"); (lit "QWERTY"); (lit "^DTMF")]), [(lit "AT+CLAC" ++ [13])]).
Proof. vm_compute. repeat split. Qed.
Example supported_none_0 : with_lines supportedCommands gen [[lit "ERROR"]] = Some (Ok None, [(lit "AT+CLAC" ++ [13])]).
Proof. vm_compute. repeat split. Qed.
Example supported_none_1 : with_lines supportedCommands gen [[lit "OK"]] = Some (Ok None, [(lit "AT+CLAC" ++ [13])]).
Proof. vm_compute. repeat split. Qed.
(** test_modem.py:220-255 test_smsc *)
Example smsc_0 : with_lines get_smsc gen [[lit "OK"]] = Some (Ok None, [(lit "AT+CSCA?" ++ [13])]).
Proof. vm_compute. repeat split. Qed.
Example smsc_1 : with_lines get_smsc gen [[lit "+CSCA: ""+12345678"",145"; lit "OK"]] = Some (Ok (Some (lit "+12345678")), [(lit "AT+CSCA?" ++ [13])]).
Proof. vm_compute. repeat split. Qed.
Example smsc_set : with_lines (set_smsc (lit "+12345678") ;;; do a <- get_smsc; set_smsc (lit "+12345678") ;;; do b <- get_smsc; ret (a, b)) gen [[lit "OK"]] = Some (Ok (Some (lit "+12345678"), Some (lit "+12345678")), [(lit "AT+CSCA=""+12345678""" ++ [13])]).
Proof. vm_compute. repeat split. Qed.
Example smsc_330 : with_lines get_smsc gen [[lit "+CMS ERROR: 330"]] = Some (Ok None, [(lit "AT+CSCA?" ++ [13])]).
Proof. vm_compute. repeat split. Qed.
(** test_modem.py:257-275 test_signalStrength *)
Example signal_0 : with_lines signalStrength gen [[lit "+CSQ: 18,99"; lit "OK"]] = Some (Ok 18, [(lit "AT+CSQ" ++ [13])]).
Proof. vm_compute. repeat split. Qed.
Example signal_1 : with_lines signalStrength gen [[lit "+CSQ:4,0"; lit "OK"]] = Some (Ok 4, [(lit "AT+CSQ" ++ [13])]).
Proof. vm_compute. repeat split. Qed.
Example signal_2 : with_lines signalStrength gen [[lit "+CSQ: 99,99"; lit "OK"]] = Some (Ok (-1), [(lit "AT+CSQ" ++ [13])]).
Proof. vm_compute. repeat split. Qed.
Example signal_error : with_lines signalStrength gen [[lit "OK"]] = Some (Err (CommandError None), [(lit "AT+CSQ" ++ [13])]).
Proof. vm_compute. repeat split. Qed.
(** test_modem.py:277-327: waiting for coverage *)
Example coverage_nocreg_0 : option_map fst (with_lines (waitForNetworkCoverage []) gen [[lit "OK"]; [lit "+CSQ: 82,99"; lit "OK"]]) = Some (Ok 82).
Proof. vm_compute. repeat split. Qed.
Example coverage_nocreg_1 : option_map fst (with_lines (waitForNetworkCoverage []) gen [[lit "OK"]; [lit "+CSQ: 99,99"; lit "OK"]; [lit "+CSQ: 99,99"; lit "OK"]; [lit "+CSQ: 47,99"; lit "OK"]]) = Some (Ok 47).
Proof. vm_compute. repeat split. Qed.
Example coverage_0 : option_map fst (with_lines (waitForNetworkCoverage []) gen [[lit "+CREG: 0,2"; lit "OK"]; [lit "+CREG: 0,2"; lit "OK"]; [lit "+CREG: 0,1"; lit "OK"]; [lit "+CSQ: 82,99"; lit "OK"]]) = Some (Ok 82).
Proof. vm_compute. repeat split. Qed.
Example coverage_1 : option_map fst (with_lines (waitForNetworkCoverage []) gen [[lit "+CREG: 0,5"; lit "OK"]; [lit "+CSQ: 47,99"; lit "OK"]]) = Some (Ok 47).
Proof. vm_compute. repeat split. Qed.
Example coverage_denied : option_map fst (with_lines (waitForNetworkCoverage []) gen [[lit "+CREG: 0,3"; lit "OK"]]) = Some (Err InvalidStateException).
Proof. vm_compute. repeat split. Qed.
Example coverage_idle : option_map fst (with_lines (waitForNetworkCoverage []) gen [[lit "+CREG: 0,0"; lit "OK"]]) = Some (Err InvalidStateException).
Proof. vm_compute. repeat split. Qed.
Example coverage_timeout : option_map fst (with_lines (waitForNetworkCoverage [false; true]) gen [[lit "+CREG: 0,1"; lit "OK"]]) = Some (Err (TimeoutException None)).
Proof. vm_compute. repeat split. Qed.
(** test_modem.py:329-357 test_errorTypes; 567-578 test_commandNotSupported *)
Example error_plain : with_lines (write (lit "AT")) gen [[lit "ERROR"]] = Some (Err (CommandError (Some (lit "AT"))), [(lit "AT" ++ [13])]).
Proof. vm_compute. repeat split. Qed.
Example error_cme : with_lines (write (lit "AT+ZZZ")) gen [[lit "+CME ERROR: 22"]] = Some (Err (CmeError (lit "AT+ZZZ") 22), [(lit "AT+ZZZ" ++ [13])]).
Proof. vm_compute. repeat split. Qed.
Example error_cms : with_lines (write (lit "AT+XYZ")) gen [[lit "+CMS ERROR: 310"]] = Some (Err (CmsError (lit "AT+XYZ") 310), [(lit "AT+XYZ" ++ [13])]).
Proof. vm_compute. repeat split. Qed.
Example error_unsupported : match run (write (lit "AT+WIND?")) gen (respond (lit "AT+WIND?") [lit "COMMAND NOT SUPPORT"] generic) with Some (Err e, _, _, _) => is_CommandError e = true | _ => False end.
Proof. vm_compute. repeat split. Qed.
(** test_modem.py:360-497 TestUssd *)
Definition ussd_late (s : str) (notice : list str) : M (option ussd) :=
  do now <- sendUssd_start s;
  match now with Some u => ret (Some u) | None => handleNotification notice ;;; sendUssd_finish end.
Definition ussd_and_cancel (s : str) (notice : list str) : M (option ussd) :=
  do u <- ussd_late s notice; match u with Some x => ussd_cancel x ;;; ret u | None => ret u end.
Example ussd_0 : with_lines (ussd_and_cancel (lit "*101#") [(lit "+CUSD: 0,""Available Balance: R 96.45 ."",15")]) gen [[lit "OK"]; [lit "OK"]] = Some (Ok (Some (mk_ussd false (Some (lit "Available Balance: R 96.45 .")))), [(lit "AT+CUSD=1,""*101#"",15" ++ [13])]).
Proof. vm_compute. repeat split. Qed.
Example ussd_early_0 : with_lines (ussd_and_cancel (lit "*101#") []) gen [[(lit "+CUSD: 0,""Available Balance: R 96.45 ."",15"); (lit "OK")]; [lit "OK"]] = Some (Ok (Some (mk_ussd false (Some (lit "Available Balance: R 96.45 .")))), [(lit "AT+CUSD=1,""*101#"",15" ++ [13])]).
Proof. vm_compute. repeat split. Qed.
Example ussd_1 : with_lines (ussd_and_cancel (lit "*120*500#") [(lit "+CUSD: 1,""Hallo daar"",15")]) gen [[lit "OK"]; [lit "OK"]] = Some (Ok (Some (mk_ussd true (Some (lit "Hallo daar")))), [(lit "AT+CUSD=1,""*120*500#"",15" ++ [13]); (lit "AT+CUSD=2" ++ [13])]).
Proof. vm_compute. repeat split. Qed.
Example ussd_early_1 : with_lines (ussd_and_cancel (lit "*120*500#") []) gen [[(lit "+CUSD: 1,""Hallo daar"",15"); (lit "OK")]; [lit "OK"]] = Some (Ok (Some (mk_ussd true (Some (lit "Hallo daar")))), [(lit "AT+CUSD=1,""*120*500#"",15" ++ [13]); (lit "AT+CUSD=2" ++ [13])]).
Proof. vm_compute. repeat split. Qed.
Example ussd_2 : with_lines (ussd_and_cancel (lit "*130*111#") [(lit "+CUSD: 2,""Totsiens"",15")]) gen [[lit "OK"]; [lit "OK"]] = Some (Ok (Some (mk_ussd false (Some (lit "Totsiens")))), [(lit "AT+CUSD=1,""*130*111#"",15" ++ [13])]).
Proof. vm_compute. repeat split. Qed.
Example ussd_early_2 : with_lines (ussd_and_cancel (lit "*130*111#") []) gen [[(lit "+CUSD: 2,""Totsiens"",15"); (lit "OK")]; [lit "OK"]] = Some (Ok (Some (mk_ussd false (Some (lit "Totsiens")))), [(lit "AT+CUSD=1,""*130*111#"",15" ++ [13])]).
Proof. vm_compute. repeat split. Qed.
Example ussd_3 : with_lines (ussd_and_cancel (lit "*111*502#") [(lit "+CUSD: 2,""You have the following remaining balances:" ++ [10] ++ lit "0 free minutes" ++ [10] ++ lit "20 MORE Weekend minutes "",15")]) gen [[lit "OK"]; [lit "OK"]] = Some (Ok (Some (mk_ussd false (Some (lit "You have the following remaining balances:" ++ [10] ++ lit "0 free minutes" ++ [10] ++ lit "20 MORE Weekend minutes ")))), [(lit "AT+CUSD=1,""*111*502#"",15" ++ [13])]).
Proof. vm_compute. repeat split. Qed.
Example ussd_early_3 : with_lines (ussd_and_cancel (lit "*111*502#") []) gen [[(lit "+CUSD: 2,""You have the following remaining balances:" ++ [10] ++ lit "0 free minutes" ++ [10] ++ lit "20 MORE Weekend minutes "",15"); (lit "OK")]; [lit "OK"]] = Some (Ok (Some (mk_ussd false (Some (lit "You have the following remaining balances:" ++ [10] ++ lit "0 free minutes" ++ [10] ++ lit "20 MORE Weekend minutes ")))), [(lit "AT+CUSD=1,""*111*502#"",15" ++ [13])]).
Proof. vm_compute. repeat split. Qed.
Example ussd_4 : with_lines (ussd_and_cancel (lit "#100#") [(lit "+CUSD: 1,""Bal:$100.00 *"); (lit "Exp 01 Jan 2013"); (lit "1. Recharge"); (lit "2. Balance"); (lit "3. My Offer"); (lit "4. PlusPacks"); (lit "5. Tones&Extras"); (lit "6. History"); (lit "7. CredMe2U"); (lit "8. Hlp"); (lit "00. Home"); (lit "*charges can take 48hrs"",15")]) gen [[lit "OK"]; [lit "OK"]] = Some (Ok (Some (mk_ussd true (Some (lit "Bal:$100.00 *" ++ [13] ++ [10] ++ lit "Exp 01 Jan 2013" ++ [13] ++ [10] ++ lit "1. Recharge" ++ [13] ++ [10] ++ lit "2. Balance" ++ [13] ++ [10] ++ lit "3. My Offer" ++ [13] ++ [10] ++ lit "4. PlusPacks" ++ [13] ++ [10] ++ lit "5. Tones&Extras" ++ [13] ++ [10] ++ lit "6. History" ++ [13] ++ [10] ++ lit "7. CredMe2U" ++ [13] ++ [10] ++ lit "8. Hlp" ++ [13] ++ [10] ++ lit "00. Home" ++ [13] ++ [10] ++ lit "*charges can take 48hrs")))), [(lit "AT+CUSD=1,""#100#"",15" ++ [13]); (lit "AT+CUSD=2" ++ [13])]).
Proof. vm_compute. repeat split. Qed.
Example ussd_early_4 : with_lines (ussd_and_cancel (lit "#100#") []) gen [[(lit "+CUSD: 1,""Bal:$100.00 *"); (lit "Exp 01 Jan 2013"); (lit "1. Recharge"); (lit "2. Balance"); (lit "3. My Offer"); (lit "4. PlusPacks"); (lit "5. Tones&Extras"); (lit "6. History"); (lit "7. CredMe2U"); (lit "8. Hlp"); (lit "00. Home"); (lit "*charges can take 48hrs"",15"); (lit "OK")]; [lit "OK"]] = Some (Ok (Some (mk_ussd true (Some (lit "Bal:$100.00 *" ++ [13] ++ [10] ++ lit "Exp 01 Jan 2013" ++ [13] ++ [10] ++ lit "1. Recharge" ++ [13] ++ [10] ++ lit "2. Balance" ++ [13] ++ [10] ++ lit "3. My Offer" ++ [13] ++ [10] ++ lit "4. PlusPacks" ++ [13] ++ [10] ++ lit "5. Tones&Extras" ++ [13] ++ [10] ++ lit "6. History" ++ [13] ++ [10] ++ lit "7. CredMe2U" ++ [13] ++ [10] ++ lit "8. Hlp" ++ [13] ++ [10] ++ lit "00. Home" ++ [13] ++ [10] ++ lit "*charges can take 48hrs")))), [(lit "AT+CUSD=1,""#100#"",15" ++ [13]); (lit "AT+CUSD=2" ++ [13])]).
Proof. vm_compute. repeat split. Qed.
Example ussd_modems : forallb (fun f => let f := respond (lit "AT+CUSD=1,""*101#"",15") [lit "+CUSD: 2,""Testing 123"",15"; lit "OK"] f in match run (ussd_late (lit "*101#") []) (connected f) (connected_fake f) with Some (Ok (Some u), _, _, _) => opt_str_eqb (u_message u) (Some (lit "Testing 123")) | _ => false end) createModems = true.
Proof. vm_compute. repeat split. Qed.
Example ussd_reply_1 : match with_lines (ussd_late (lit "*101#") []) gen [[lit "+CUSD: 1,""First menu. Reply with 1 for blah blah blah..."",15"; lit "OK"]] with Some (Ok (Some u), _) => u = mk_ussd true (Some (lit "First menu. Reply with 1 for blah blah blah...")) /\ with_lines (ussd_reply u (lit "1")) gen [[lit "+CUSD: 2,""Second menu"",15"; lit "OK"]] = Some (Ok (Some (mk_ussd false (Some (lit "Second menu")))), [lit "AT+CUSD=1,""1"",15" ++ CR]) | _ => False end.
Proof. vm_compute. repeat split. Qed.
Example ussd_reply_2 : with_lines (ussd_reply (mk_ussd false None) (lit "2")) gen [] = Some (Err InvalidStateException, []).
Proof. vm_compute. repeat split. Qed.
Example ussd_extra_0 : option_map fst (with_lines (ussd_late (lit "*100#") []) gen [[(lit "+CUSD: 2,""Initiating Release"",15"); (lit "+CUSD: 0,""Wrong order test message"",15"); (lit "OK")]]) = Some (Ok (Some (mk_ussd false (Some (lit "Wrong order test message"))))).
Proof. vm_compute. repeat split. Qed.
Example ussd_extra_1 : option_map fst (with_lines (ussd_late (lit "*101#") [(lit "+CUSD: 2,""Initiating Release"",15"); (lit "+CUSD: 0,""Notifications test"",15")]) gen [[(lit "OK")]]) = Some (Ok (Some (mk_ussd false (Some (lit "Notifications test"))))).
Proof. vm_compute. repeat split. Qed.
Example ussd_extra_2 : option_map fst (with_lines (ussd_late (lit "*101#") [(lit "+CUSD: 3,""Other local client responded"",15"); (lit "+CUSD: 0,""Test2"",15")]) gen [[(lit "OK")]]) = Some (Ok (Some (mk_ussd false (Some (lit "Test2"))))).
Proof. vm_compute. repeat split. Qed.
Example ussd_extra_3 : option_map fst (with_lines (ussd_late (lit "*101#") [(lit "+CUSD: 2,""Notification appended"",15"); (lit "Some random notification!")]) gen [[(lit "OK")]]) = Some (Ok (Some (mk_ussd false (Some (lit "Notification appended"))))).
Proof. vm_compute. repeat split. Qed.
Example ussd_extra_4 : option_map fst (with_lines (ussd_late (lit "*101#") [(lit "Another random notification!"); (lit "+CUSD: 2,""Notification prepended"",15")]) gen [[(lit "OK")]]) = Some (Ok (Some (mk_ussd false (Some (lit "Notification prepended"))))).
Proof. vm_compute. repeat split. Qed.
Example ussd_extra_5 : option_map fst (with_lines (ussd_late (lit "*101#") [(lit "+CUSD: 2,""Notification before OK"",15")]) gen [[(lit "Yet another random notification!"); (lit "OK")]]) = Some (Ok (Some (mk_ussd false (Some (lit "Notification before OK"))))).
Proof. vm_compute. repeat split. Qed.
Example ussd_error_0 : option_map fst (with_lines (ussd_late (lit "*101#") []) gen [[lit "+CME ERROR: 30"]]) = Some (Err (CmeError (lit "AT+CUSD=1,""*101#"",15") 30)).
Proof. vm_compute. repeat split. Qed.
Example ussd_error_1 : option_map fst (with_lines (ussd_late (lit "*101#") []) gen [[lit "+CMS ERROR: 500"]]) = Some (Err (CmsError (lit "AT+CUSD=1,""*101#"",15") 500)).
Proof. vm_compute. repeat split. Qed.
Example ussd_error_2 : option_map fst (with_lines (ussd_late (lit "*101#") []) gen [[lit "ERROR"]]) = Some (Err (CommandError (Some (lit "AT+CUSD=1,""*101#"",15")))).
Proof. vm_compute. repeat split. Qed.
Example ussd_timeout : option_map fst (with_lines (sendUssd_start (lit "*101#") ;;; sendUssd_finish) gen [[lit "OK"]]) = Some (Err (TimeoutException None)).
Proof. vm_compute. repeat split. Qed.
(** test_modem.py:500-752 TestEdgeCases *)
Definition connect_writes (m : modem) (f : fake) : option (res unit * modem * list str) :=
  match run (connect None) m f with Some (r, m, _, tr) => Some (r, m, written tr) | None => None end.
Definition wrote (cmd : str) (l : list str) : bool := existsb (str_eqb (cmd ++ CR)) l.
Example smsc_preloaded : forallb (fun n => forallb (fun f => let f := set_sim 3 (set_fsmsc n f) in match run get_smsc (connected f) (connected_fake f) with Some (Ok a, _, _, _) => opt_str_eqb a n | _ => false end) createModems) [None; Some (lit "+12345678")] = true.
Proof. vm_compute. repeat split. Qed.
Example cfun0 : forallb (fun f => match connect_writes modem_init (set_cfun (Some 0) f) with Some (Ok _, _, ws) => wrote (lit "AT+CFUN=1") ws | _ => false end) createModems = true.
Proof. vm_compute. repeat split. Qed.
Example cfun_unsupported : match connect_writes modem_init (respond (lit "AT+CFUN?") [lit "ERROR"] (respond (lit "AT+CFUN=1") [lit "ERROR"] (set_cfun None generic))) with Some (Ok _, _, ws) => wrote (lit "AT+CFUN?") ws = true | _ => False end.
Proof. vm_compute. repeat split. Qed.
Example wavecom_clac : let f := respond (lit "AT+CLAC") [lit "+CLAC: D,+CUSD,+WIND,+VTS"; lit "OK"] (respond (lit "AT+WIND?") [lit "+WIND: 50"; lit "OK"] wavecom) in dtmfSupport (connected f) = true /\ callUpdates (connected f) = TWavecom.
Proof. vm_compute. repeat split. Qed.
Example zte_clac : let f := respond (lit "AT+CLAC") (removelast (look k3565 (lit "AT+CLAC")) ++ [lit "+ZPAS"; lit "OK"]) k3565 in callUpdates (connected f) = TZte.
Proof. vm_compute. repeat split. Qed.
Example huawei_noclac : let f := respond (lit "AT+CLAC") [lit "ERROR"] k3715 in dtmfSupport (connected f) = true /\ callUpdates (connected f) = THuawei.
Proof. vm_compute. repeat split. Qed.
Example smsc_before : match connect_writes (set_smscNumber (Some (lit "123454321")) modem_init) generic with Some (Ok _, m, ws) => wrote (lit "AT+CSCA=""123454321""") ws = true /\ smscNumber m = Some (lit "123454321") | _ => False end.
Proof. vm_compute. repeat split. Qed.
Example cpms_unsupported : match connect_writes modem_init (respond (lit "AT+CPMS=?") [lit "+CMS ERROR: 302"] generic) with Some (Ok _, _, ws) => wrote (lit "AT+CPMS=?") ws = true | _ => False end.
Proof. vm_compute. repeat split. Qed.
Example cnmi_unsupported : match connect_writes modem_init (respond (lit "AT+CNMI=2,1,0,2") [lit "ERROR"] generic) with Some (Ok _, m, ws) => wrote (lit "AT+CNMI=2,1,0,2") ws = true /\ smsReadSupported m = false | _ => False end.
Proof. vm_compute. repeat split. Qed.
Example clip_unsupported : match connect_writes modem_init (respond (lit "AT+CLIP=1") [lit "ERROR"] generic) with Some (Ok _, m, ws) => wrote (lit "AT+CLIP=1") ws = true /\ wrote (lit "AT+CRC=1") ws = false /\ clip m = false /\ crc m = false | _ => False end.
Proof. vm_compute. repeat split. Qed.
Example crc_unsupported : match connect_writes modem_init (respond (lit "AT+CRC=1") [lit "ERROR"] generic) with Some (Ok _, m, ws) => wrote (lit "AT+CLIP=1") ws = true /\ wrote (lit "AT+CRC=1") ws = true /\ clip m = true /\ crc m = false | _ => False end.
Proof. vm_compute. repeat split. Qed.
(** test_modem.py:770-893 test_dial, on the modems with notifications.  The answer to ATD is [OK] where one is waited for. *)
Definition dial (number : str) (notice : list (list str)) : M nat :=
  do started <- dial_start number false;
  match started with
  | Some n => ret n
  | None => fold_left (fun c l => c ;;; handleNotification l) notice (ret tt) ;;; dial_finish number false
  end.
Definition view (n : nat) : M (bool * bool * bool * nat) :=
  do m <- get; ret (c_active (the_call m n), c_answered (the_call m n), match zget (activeCalls m) (c_id (the_call m n)) with Some _ => true | None => false end, length (activeCalls m)).
Definition dial_test (init : list (list str)) (answer ended rejected : list (list str)) : M (list (bool * bool * bool * nat)) :=
  let tell_all ls := fold_left (fun c l => c ;;; handleNotification l) ls (ret tt) in
  do n <- dial (lit "0123456789") init;
  do a <- view n;
  tell_all answer ;;; do b <- view n;
  hangup n ;;; do c <- view n;
  do n <- dial (lit "0123456789") init; tell_all answer ;;; do d <- view n;
  tell_all ended ;;; do e <- view n;
  do n <- dial (lit "0123456789") init; do f <- view n;
  tell_all rejected ;;; do g <- view n;
  ret [a; b; c; d; e; f; g].
Definition dial_expected : list (bool * bool * bool * nat) :=
  let ringing := (true, false, true, 1%nat) in let talking := (true, true, true, 1%nat) in let over := (false, false, false, 0%nat) in
  [ringing; talking; over; talking; over; ringing; over].
Example dial_k3715 : match run (dial_test [[lit "^ORIG:1,0"]; [lit "^CONF:1"]] [[lit "^CONN:1,0"]] [[lit "^CEND:1,5,29,16"]] [[lit "^CEND:1,5,29,16"]]) (connected k3715) (connected_fake k3715) with Some (Ok l, _, _, tr) => l = dial_expected /\ written tr = [lit "ATD0123456789;" ++ CR; lit "ATH" ++ CR; lit "ATD0123456789;" ++ CR; lit "ATD0123456789;" ++ CR] | _ => False end.
Proof. vm_compute. repeat split. Qed.
Example dial_e1752 : match run (dial_test [[lit "^ORIG:1,0"]; [lit "^CONF:1"]] [[lit "^CONN:1,0"]] [[lit "^CEND:1,5,29,16"]] [[lit "^CEND:1,5,29,16"]]) (connected e1752) (connected_fake e1752) with Some (Ok l, _, _, tr) => l = dial_expected /\ written tr = [lit "ATD0123456789;" ++ CR; lit "ATH" ++ CR; lit "ATD0123456789;" ++ CR; lit "ATD0123456789;" ++ CR] | _ => False end.
Proof. vm_compute. repeat split. Qed.
Example dial_wavecom : match run (dial_test [[lit "+WIND: 5,1"; lit "+WIND: 2"]] [[lit "OK"]] [[lit "NO CARRIER"; lit "+WIND: 6,1"]] [[lit "NO CARRIER"; lit "+WIND: 6,1"]]) (connected wavecom) (connected_fake wavecom) with Some (Ok l, _, _, tr) => l = dial_expected /\ written tr = [lit "ATD0123456789;" ++ CR; lit "ATH" ++ CR; lit "ATD0123456789;" ++ CR; lit "ATD0123456789;" ++ CR] | _ => False end.
Proof. vm_compute. repeat split. Qed.
Example dial_m6280 : match run (dial_test [] [[lit "CONNECT"]] [[lit "HANGUP: 1"]] [[lit "HANGUP: 1"]]) (connected m6280) (connected_fake m6280) with Some (Ok l, _, _, tr) => l = dial_expected /\ written tr = [lit "ATD0123456789;" ++ CR; lit "ATH" ++ CR; lit "ATD0123456789;" ++ CR; lit "ATD0123456789;" ++ CR] | _ => False end.
Proof. vm_compute. repeat split. Qed.
Example dial_k3565 : match run (dial_test [] [[lit "CONNECT"]] [[lit "HANGUP: 1"]] [[lit "OK"]]) (connected k3565) (connected_fake k3565) with Some (Ok l, _, _, tr) => l = dial_expected /\ written tr = [lit "ATD0123456789;" ++ CR; lit "ATH" ++ CR; lit "ATD0123456789;" ++ CR; lit "ATD0123456789;" ++ CR] | _ => False end.
Proof. vm_compute. repeat split. Qed.
(** on the modem whose calls are polled *)
Definition clcc (stat : Z) : list str := [lit "+CLCC: 1,0," ++ str_of_Z stat ++ lit ",0,0,""0123456789"",129"; lit "OK"].
Definition rounds (k : nat) (expectedState : Z) (callId : option Z) (m : modem) (sc : list (list str)) : modem :=
  match poll_loop modem_handlers k [] expectedState callId 20 (mk_world m (map Lines sc) []) with Done _ w | Stuck w => dev w end.
Definition seen (n : nat) (m : modem) := match view n (mk_world m [] []) with Done (Ok v) _ => Some v | _ => None end.
Definition started (m : modem) : modem := match dial_start (lit "0123456789") false (mk_world m [Lines [lit "OK"]] []) with Done _ w => dev w | Stuck w => dev w end.
Definition finished (m : modem) : modem := match dial_finish (lit "0123456789") false (mk_world m [] []) with Done _ w => dev w | Stuck w => dev w end.
Example dial_polled : let m1 := finished (rounds 9 0 None (started gen) [clcc 2]) in let m2 := rounds 9 1 (Some 1) m1 [clcc 0] in let m3 := rounds 9 2 (Some 1) m2 [[lit "OK"]] in seen 0 m1 = Some (true, false, true, 1%nat) /\ seen 0 m2 = Some (true, true, true, 1%nat) /\ seen 0 m3 = Some (false, false, false, 0%nat).
Proof. vm_compute. repeat split. Qed.
Example dial_polled_rejected : let m1 := finished (rounds 9 0 None (started gen) [clcc 2]) in let m3 := rounds 9 1 (Some 1) m1 [[lit "OK"]] in seen 0 m3 = Some (false, false, false, 0%nat).
Proof. vm_compute. repeat split. Qed.
(** test_modem.py:949-971 *)
Example dial_error_0 : option_map fst (with_lines (dial (lit "123") []) (connected k3715) [[lit "+CME ERROR: 30"]]) = Some (Err (CmeError (lit "ATD123;") 30)).
Proof. vm_compute. repeat split. Qed.
Example dial_error_1 : option_map fst (with_lines (dial (lit "123") []) (connected k3715) [[lit "+CMS ERROR: 500"]]) = Some (Err (CmsError (lit "ATD123;") 500)).
Proof. vm_compute. repeat split. Qed.
Example dial_error_2 : option_map fst (with_lines (dial (lit "123") []) (connected k3715) [[lit "ERROR"]]) = Some (Err (CommandError (Some (lit "ATD123;")))).
Proof. vm_compute. repeat split. Qed.
Example dial_noinit : option_map fst (with_lines (dial (lit "123") []) (connected k3715) [[lit "OK"]]) = Some (Err (TimeoutException None)).
Proof. vm_compute. repeat split. Qed.
Example dial_noatd : match dial (lit "123") [] (mk_world gen [NoReply []] []) with Done r _ => r = Err (TimeoutException None) | Stuck _ => False end.
Proof. vm_compute. repeat split. Qed.
(** test_modem.py:974-1066 TestGsmModemPinConnect *)
Example pin_missing : forallb (fun f => match run (connect None) modem_init (set_pinLock true f) with Some (Err (PinRequiredError _ _), _, _, _) => true | _ => false end) createModems = true.
Proof. vm_compute. repeat split. Qed.
Example pin_given : forallb (fun f => match run (connect (Some (lit "1234"))) modem_init (set_pinLock true f) with Some (Ok _, _, _, _) => true | _ => false end) (createModems ++ [set_noPin [lit "AT+CMEE=1"] generic]) = true.
Proof. vm_compute. repeat split. Qed.
Example pin_wrong : match run (connect (Some (lit "1234"))) modem_init (respond (lit "AT+CPIN=""1234""") [lit "+CME ERROR: 16"] (set_pinLock true generic)) with Some (Err (IncorrectPinError _ _), _, _, _) => True | _ => False end.
Proof. vm_compute. repeat split. Qed.
Example pin_puk : match run (connect (Some (lit "1234"))) modem_init (respond (lit "AT+CPIN=""1234""") [lit "+CME ERROR: 12"] (set_pinLock true generic)) with Some (Err (PukRequiredError _ _), _, _, _) => True | _ => False end.
Proof. vm_compute. repeat split. Qed.
Example pin_timeout_0 : match run (connect None) modem_init (respond (lit "AT+CPIN?") [] generic) with Some (Err (TimeoutException _), _, _, _) => True | _ => False end.
Proof. vm_compute. repeat split. Qed.
Example pin_timeout_1 : match run (connect None) modem_init (respond (lit "AT+CPIN?") [(lit "+CPIN: READY")] generic) with Some (Ok _, _, _, _) => True | _ => False end.
Proof. vm_compute. repeat split. Qed.
Example pin_timeout_2 : match run (connect None) modem_init (respond (lit "AT+CPIN?") [(lit "FIRST LINE"); (lit "SECOND LINE")] generic) with Some (Err (TimeoutException _), _, _, _) => True | _ => False end.
Proof. vm_compute. repeat split. Qed.
(** test_modem.py:1069-1194 TestIncomingCall *)
Example incoming_k3715 : match run (handleNotification [lit "+CRING: VOICE"; lit "+CLIP: ""+27820001234"",145,,,,0"] ;;; do a <- view 0; answer 0 ;;; do b <- view 0; answer 0 ;;; hangup 0 ;;; do c <- view 0; hangup 0 ;;; do m <- get; ret (a, b, c, c_number (the_call m 0), c_type (the_call m 0))) (connected k3715) (connected_fake k3715) with Some (Ok r, _, _, tr) => r = ((true, false, true, 1%nat), (true, true, true, 1%nat), (false, false, false, 0%nat), Some (lit "+27820001234"), Some 0) /\ tr = [ERing 0; EWrite (lit "ATA" ++ CR) (Some (Lines [lit "OK"])); EWrite (lit "ATH" ++ CR) (Some (Lines [lit "OK"]))] | _ => False end.
Proof. vm_compute. repeat split. Qed.
Example incoming_e1752 : match run (handleNotification [lit "+CRING: VOICE"; lit "+CLIP: ""+27820001234"",145,,,,0"] ;;; do a <- view 0; answer 0 ;;; do b <- view 0; answer 0 ;;; hangup 0 ;;; do c <- view 0; hangup 0 ;;; do m <- get; ret (a, b, c, c_number (the_call m 0), c_type (the_call m 0))) (connected e1752) (connected_fake e1752) with Some (Ok r, _, _, tr) => r = ((true, false, true, 1%nat), (true, true, true, 1%nat), (false, false, false, 0%nat), Some (lit "+27820001234"), Some 0) /\ tr = [ERing 0; EWrite (lit "ATA" ++ CR) (Some (Lines [lit "OK"])); EWrite (lit "ATH" ++ CR) (Some (Lines [lit "OK"]))] | _ => False end.
Proof. vm_compute. repeat split. Qed.
Example incoming_wavecom : match run (handleNotification [lit "+CRING: VOICE"; lit "+CLIP: ""+27820001234"",145"] ;;; do a <- view 0; answer 0 ;;; do b <- view 0; answer 0 ;;; hangup 0 ;;; do c <- view 0; hangup 0 ;;; do m <- get; ret (a, b, c, c_number (the_call m 0), c_type (the_call m 0))) (connected wavecom) (connected_fake wavecom) with Some (Ok r, _, _, tr) => r = ((true, false, true, 1%nat), (true, true, true, 1%nat), (false, false, false, 0%nat), Some (lit "+27820001234"), Some 0) /\ tr = [ERing 0; EWrite (lit "ATA" ++ CR) (Some (Lines [lit "OK"])); EWrite (lit "ATH" ++ CR) (Some (Lines [lit "OK"]))] | _ => False end.
Proof. vm_compute. repeat split. Qed.
Example incoming_m6280 : match run (handleNotification [lit "+CRING: VOICE"; lit "+CLIP: ""+27820001234"",145,,,,0"] ;;; do a <- view 0; answer 0 ;;; do b <- view 0; answer 0 ;;; hangup 0 ;;; do c <- view 0; hangup 0 ;;; do m <- get; ret (a, b, c, c_number (the_call m 0), c_type (the_call m 0))) (connected m6280) (connected_fake m6280) with Some (Ok r, _, _, tr) => r = ((true, false, true, 1%nat), (true, true, true, 1%nat), (false, false, false, 0%nat), Some (lit "+27820001234"), Some 0) /\ tr = [ERing 0; EWrite (lit "ATA" ++ CR) (Some (Lines [lit "OK"])); EWrite (lit "ATH" ++ CR) (Some (Lines [lit "OK"]))] | _ => False end.
Proof. vm_compute. repeat split. Qed.
Example incoming_k3565 : match run (handleNotification [lit "+CRING: VOICE"; lit "+CLIP: ""+27820001234"",145,,,,0"] ;;; do a <- view 0; answer 0 ;;; do b <- view 0; answer 0 ;;; hangup 0 ;;; do c <- view 0; hangup 0 ;;; do m <- get; ret (a, b, c, c_number (the_call m 0), c_type (the_call m 0))) (connected k3565) (connected_fake k3565) with Some (Ok r, _, _, tr) => r = ((true, false, true, 1%nat), (true, true, true, 1%nat), (false, false, false, 0%nat), Some (lit "+27820001234"), Some 0) /\ tr = [ERing 0; EWrite (lit "ATA" ++ CR) (Some (Lines [lit "OK"])); EWrite (lit "ATH" ++ CR) (Some (Lines [lit "OK"]))] | _ => False end.
Proof. vm_compute. repeat split. Qed.
Example incoming_n79 : match run (handleNotification [lit "+CRING: VOICE"; lit "+CLIP: ""+27820001234"",145,,,,0"] ;;; do a <- view 0; answer 0 ;;; do b <- view 0; answer 0 ;;; hangup 0 ;;; do c <- view 0; hangup 0 ;;; do m <- get; ret (a, b, c, c_number (the_call m 0), c_type (the_call m 0))) (connected n79) (connected_fake n79) with Some (Ok r, _, _, tr) => r = ((true, false, true, 1%nat), (true, true, true, 1%nat), (false, false, false, 0%nat), Some (lit "+27820001234"), Some 0) /\ tr = [ERing 0; EWrite (lit "ATA" ++ CR) (Some (Lines [lit "OK"])); EWrite (lit "ATH" ++ CR) (Some (Lines [lit "OK"]))] | _ => False end.
Proof. vm_compute. repeat split. Qed.
Example incoming_nocrc : let f := respond (lit "AT+CRC=1") [lit "ERROR"] generic in match run (handleNotification [lit "RING"; lit "+CLIP: ""+27821231234"",145,,,,0"] ;;; get) (connected f) f with Some (Ok m, _, _, _) => crc (connected f) = false /\ crc m = false /\ c_type (the_call m 0) = None | _ => False end.
Proof. vm_compute. repeat split. Qed.
Example incoming_changed : match run (handleNotification [lit "+CRING: VOICE"; lit "+CLIP: ""+27821231234"",145,,,,0"] ;;; handleNotification [lit "RING"; lit "+CLIP: ""+27821231234"",145,,,,0"] ;;; get) gen generic with Some (Ok m, _, _, tr) => crc m = true /\ written tr = [lit "AT+CRC=1" ++ CR] /\ match run (handleNotification [lit "RING"; lit "+CLIP: ""+27821231234"",145,,,,0"] ;;; get) m (respond (lit "AT+CRC=1") [lit "ERROR"] generic) with Some (Ok m, _, _, _) => crc m = false | _ => False end | _ => False end.
Proof. vm_compute. repeat split. Qed.
(** test_modem.py:1197-1265 TestCall *)
Example dtmf_k3715 : with_lines (add_call (new_call 1 1 (lit "+270000000") false) ;;; set_answered 0 true ;;; sendDtmfTone 0 (lit "3") ;;; sendDtmfTone 0 (lit "1234") ;;; sendDtmfTone 0 (lit "#0*") ;;; hangup 0 ;;; sendDtmfTone 0 (lit "1")) (connected k3715) [[lit "OK"]; [lit "OK"]; [lit "OK"]; [lit "OK"]] = Some (Err InvalidStateException, [(lit "AT^DTMF=1,3" ++ [13]); (lit "AT^DTMF=1,1;^DTMF=1,2;^DTMF=1,3;^DTMF=1,4" ++ [13]); (lit "AT^DTMF=1,#;^DTMF=1,0;^DTMF=1,*" ++ [13]); (lit "ATH" ++ [13])]).
Proof. vm_compute. repeat split. Qed.
Example dtmf_e1752 : with_lines (add_call (new_call 1 1 (lit "+270000000") false) ;;; set_answered 0 true ;;; sendDtmfTone 0 (lit "3") ;;; sendDtmfTone 0 (lit "1234") ;;; sendDtmfTone 0 (lit "#0*") ;;; hangup 0 ;;; sendDtmfTone 0 (lit "1")) (connected e1752) [[lit "OK"]; [lit "OK"]; [lit "OK"]; [lit "OK"]] = Some (Err InvalidStateException, [(lit "AT^DTMF=1,3" ++ [13]); (lit "AT^DTMF=1,1;^DTMF=1,2;^DTMF=1,3;^DTMF=1,4" ++ [13]); (lit "AT^DTMF=1,#;^DTMF=1,0;^DTMF=1,*" ++ [13]); (lit "ATH" ++ [13])]).
Proof. vm_compute. repeat split. Qed.
Example dtmf_wavecom : with_lines (add_call (new_call 1 1 (lit "+270000000") false) ;;; set_answered 0 true ;;; sendDtmfTone 0 (lit "3") ;;; sendDtmfTone 0 (lit "1234") ;;; sendDtmfTone 0 (lit "#0*") ;;; hangup 0 ;;; sendDtmfTone 0 (lit "1")) (connected wavecom) [[lit "OK"]; [lit "OK"]; [lit "OK"]; [lit "OK"]] = Some (Err InvalidStateException, [(lit "AT+VTS=3" ++ [13]); (lit "AT+VTS=1;+VTS=2;+VTS=3;+VTS=4" ++ [13]); (lit "AT+VTS=#;+VTS=0;+VTS=*" ++ [13]); (lit "ATH" ++ [13])]).
Proof. vm_compute. repeat split. Qed.
Example dtmf_m6280 : with_lines (add_call (new_call 1 1 (lit "+270000000") false) ;;; set_answered 0 true ;;; sendDtmfTone 0 (lit "3") ;;; sendDtmfTone 0 (lit "1234") ;;; sendDtmfTone 0 (lit "#0*") ;;; hangup 0 ;;; sendDtmfTone 0 (lit "1")) (connected m6280) [[lit "OK"]; [lit "OK"]; [lit "OK"]; [lit "OK"]] = Some (Err InvalidStateException, [(lit "AT+VTS=3" ++ [13]); (lit "AT+VTS=1;+VTS=2;+VTS=3;+VTS=4" ++ [13]); (lit "AT+VTS=#;+VTS=0;+VTS=*" ++ [13]); (lit "ATH" ++ [13])]).
Proof. vm_compute. repeat split. Qed.
Example dtmf_k3565 : with_lines (add_call (new_call 1 1 (lit "+270000000") false) ;;; set_answered 0 true ;;; sendDtmfTone 0 (lit "3") ;;; sendDtmfTone 0 (lit "1234") ;;; sendDtmfTone 0 (lit "#0*") ;;; hangup 0 ;;; sendDtmfTone 0 (lit "1")) (connected k3565) [[lit "OK"]; [lit "OK"]; [lit "OK"]; [lit "OK"]] = Some (Err InvalidStateException, [(lit "AT+VTS=3" ++ [13]); (lit "AT+VTS=1;+VTS=2;+VTS=3;+VTS=4" ++ [13]); (lit "AT+VTS=#;+VTS=0;+VTS=*" ++ [13]); (lit "ATH" ++ [13])]).
Proof. vm_compute. repeat split. Qed.
Example dtmf_n79 : with_lines (add_call (new_call 1 1 (lit "+270000000") false) ;;; set_answered 0 true ;;; sendDtmfTone 0 (lit "3") ;;; sendDtmfTone 0 (lit "1234") ;;; sendDtmfTone 0 (lit "#0*") ;;; hangup 0 ;;; sendDtmfTone 0 (lit "1")) (connected n79) [[lit "OK"]; [lit "OK"]; [lit "OK"]; [lit "OK"]] = Some (Err InvalidStateException, [(lit "AT+VTS=3" ++ [13]); (lit "AT+VTS=1;+VTS=2;+VTS=3;+VTS=4" ++ [13]); (lit "AT+VTS=#;+VTS=0;+VTS=*" ++ [13]); (lit "ATH" ++ [13])]).
Proof. vm_compute. repeat split. Qed.
Example dtmf_interrupted_0 : option_map fst (with_lines (add_call (new_call 1 1 (lit "+270000000") false) ;;; set_answered 0 true ;;; sendDtmfTone 0 (lit "5")) gen [[lit "+CME ERROR: 30"]]) = Some (Err (InterruptedException 30)).
Proof. vm_compute. repeat split. Qed.
Example dtmf_interrupted_1 : option_map fst (with_lines (add_call (new_call 1 1 (lit "+270000000") false) ;;; set_answered 0 true ;;; sendDtmfTone 0 (lit "5")) gen [[lit "+CME ERROR: 3"]]) = Some (Err (InterruptedException 3)).
Proof. vm_compute. repeat split. Qed.
Example dtmf_interrupted_2 : option_map fst (with_lines (add_call (new_call 1 1 (lit "+270000000") false) ;;; set_answered 0 true ;;; sendDtmfTone 0 (lit "5")) gen [[lit "+CME ERROR: 1234"]]) = Some (Err (CmeError (lit "AT+VTS=5") 1234)).
Proof. vm_compute. repeat split. Qed.
Example answered_callback : match (add_call (new_call 1 1 (lit "+270000000") true) ;;; set_answered 0 true) (mk_world gen [] []) with Done _ w => trace w = [EStatus 0] | Stuck _ => False end.
Proof. vm_compute. repeat split. Qed.
(** test_modem.py:1268-1585 TestSms *)
Definition text_mode (m : modem) : modem := set_smsTextMode true m.
Definition pdu_mode (m : modem) : modem := set_smsTextMode false m.
Definition sms_result (c : M nat) (m : modem) (replies : list (list str)) : option (sent_sms * Z * list str) :=
  match c (mk_world m (map Lines replies) []) with
  | Done (Ok n) w => option_map (fun s => (s, sent_status s, written (trace w))) (nth_error (sentObjs (dev w)) n)
  | _ => None
  end.
Example send_text_0 : sms_result (sendSms (lit "+0123456789") (lit "Hello world!") false false) (text_mode gen) [[lit "> "]; [lit "+CMGS: 142"; lit "OK"]] = Some (mk_sent (lit "+0123456789") (lit "Hello world!") 142 None, 0, [(lit "AT+CMGS=""+0123456789""" ++ [13]); (lit "Hello world!" ++ [26])]).
Proof. vm_compute. repeat split. Qed.
Example send_pdu_0_0 : match encodeSmsSubmitPdu (lit "+0123456789") (lit "Hello world!") 142 VNone None true false false with Ok (p :: _) => sms_result (sendSms (lit "+0123456789") (lit "Hello world!") false false) (set_smsRef 142 (pdu_mode gen)) [[(lit "> ")]; [(lit "+CMGS: 142"); (lit "OK")]] = Some (mk_sent (lit "+0123456789") (lit "Hello world!") 142 None, 0, [lit "AT+CMGS=" ++ str_of_Z (pdu_tpduLength p) ++ CR; pdu_str (pdu_data p) ++ CTRL_Z]) | _ => False end.
Proof. vm_compute. repeat split. Qed.
Example send_pdu_0_1 : match encodeSmsSubmitPdu (lit "+0123456789") (lit "Hello world!") 142 VNone None true false false with Ok (p :: _) => sms_result (sendSms (lit "+0123456789") (lit "Hello world!") false false) (set_smsRef 142 (pdu_mode gen)) [[(lit "+ZDONR: ""METEOR"",272,3,""CS_ONLY"",""ROAM_OFF"""); (lit "+ZPASR: ""UMTS"""); (lit "> ")]; [(lit "+ZDONR: ""METEOR"",272,3,""CS_ONLY"",""ROAM_OFF"""); (lit "+ZPASR: ""UMTS"""); (lit "+ZDONR: ""METEOR"",272,3,""CS_PS"",""ROAM_OFF"""); (lit "+ZPASR: ""UMTS"""); (lit "+CMGS: 142"); (lit "OK")]] = Some (mk_sent (lit "+0123456789") (lit "Hello world!") 142 None, 0, [lit "AT+CMGS=" ++ str_of_Z (pdu_tpduLength p) ++ CR; pdu_str (pdu_data p) ++ CTRL_Z]) | _ => False end.
Proof. vm_compute. repeat split. Qed.
Example receive_text_0 : match handleNotification [lit "+CMTI: ""SM"",1"] (mk_world (text_mode gen) (map Lines [[lit "OK"]; [(lit "+CMGR: ""REC UNREAD"",""+0123456789"",,""13/03/08,15:02:16+08"""); (lit "Hello world!"); (lit "OK")]; [lit "OK"]]) []) with Done r w => r = Ok tt /\ written (trace w) = [(lit "AT+CPMS=""SM""" ++ [13]); (lit "AT+CMGR=1" ++ [13]); (lit "AT+CMGD=1,0" ++ [13])] /\ last (trace w) (ESleep 0) = ESms (Received 0 (Some (lit "+0123456789")) (mk_datetime 2013 3 8 15 2 16 0 (Some (td_of_hours 2))) (lit "Hello world!") None) | Stuck _ => False end.
Proof. vm_compute. repeat split. Qed.
Example receive_pdu_0_0 : match handleNotification [lit "+CMTI: ""SM"",1"] (mk_world (pdu_mode gen) (map Lines [[lit "OK"]; [(lit "+CMGR: 0,,29"); (lit "06917228195339040A9110325476980000313080512061800CC8329BFD06DDDF72363904"); (lit "OK")]; [lit "OK"]]) []) with Done r w => r = Ok tt /\ written (trace w) = [(lit "AT+CPMS=""SM""" ++ [13]); (lit "AT+CMGR=1" ++ [13]); (lit "AT+CMGD=1,0" ++ [13])] /\ last (trace w) (ESleep 0) = ESms (Received 0 (Some (lit "+0123456789")) (mk_datetime 2013 3 8 15 2 16 0 (Some (td_of_hours 2))) (lit "Hello world!") (Some (lit "+2782913593"))) | Stuck _ => False end.
Proof. vm_compute. repeat split. Qed.
Example receive_pdu_0_1 : match handleNotification [lit "+CMTI: ""SM"",1"] (mk_world (pdu_mode gen) (map Lines [[lit "OK"]; [(lit "+CMGR: 0,""abc123"",29"); (lit "06917228195339040A9110325476980000313080512061800CC8329BFD06DDDF72363904"); (lit "OK")]; [lit "OK"]]) []) with Done r w => r = Ok tt /\ written (trace w) = [(lit "AT+CPMS=""SM""" ++ [13]); (lit "AT+CMGR=1" ++ [13]); (lit "AT+CMGD=1,0" ++ [13])] /\ last (trace w) (ESleep 0) = ESms (Received 0 (Some (lit "+0123456789")) (mk_datetime 2013 3 8 15 2 16 0 (Some (td_of_hours 2))) (lit "Hello world!") (Some (lit "+2782913593"))) | Stuck _ => False end.
Proof. vm_compute. repeat split. Qed.
Example receive_pdu_0_2 : match handleNotification [lit "+CMTI: ""SM"",1"] (mk_world (pdu_mode gen) (map Lines [[lit "OK"]; [(lit "+CMGR: 0,"""",29"); (lit "06917228195339040A9110325476980000313080512061800CC8329BFD06DDDF72363904"); (lit "OK")]; [lit "OK"]]) []) with Done r w => r = Ok tt /\ written (trace w) = [(lit "AT+CPMS=""SM""" ++ [13]); (lit "AT+CMGR=1" ++ [13]); (lit "AT+CMGD=1,0" ++ [13])] /\ last (trace w) (ESleep 0) = ESms (Received 0 (Some (lit "+0123456789")) (mk_datetime 2013 3 8 15 2 16 0 (Some (td_of_hours 2))) (lit "Hello world!") (Some (lit "+2782913593"))) | Stuck _ => False end.
Proof. vm_compute. repeat split. Qed.
Example receive_pdu_0_3 : match handleNotification [lit "+CMTI: ""SM"",1"] (mk_world (pdu_mode gen) (map Lines [[lit "OK"]; [(lit "+CMGR: 0,Test User 123,29"); (lit "06917228195339040A9110325476980000313080512061800CC8329BFD06DDDF72363904"); (lit "OK")]; [lit "OK"]]) []) with Done r w => r = Ok tt /\ written (trace w) = [(lit "AT+CPMS=""SM""" ++ [13]); (lit "AT+CMGR=1" ++ [13]); (lit "AT+CMGD=1,0" ++ [13])] /\ last (trace w) (ESleep 0) = ESms (Received 0 (Some (lit "+0123456789")) (mk_datetime 2013 3 8 15 2 16 0 (Some (td_of_hours 2))) (lit "Hello world!") (Some (lit "+2782913593"))) | Stuck _ => False end.
Proof. vm_compute. repeat split. Qed.
Example receive_pdu_0_4 : match handleNotification [lit "+CMTI: ""SM"",1"] (mk_world (pdu_mode gen) (map Lines [[lit "OK"]; [(lit "+CMGR: 0,9876543231,29"); (lit "06917228195339040A9110325476980000313080512061800CC8329BFD06DDDF72363904"); (lit "OK")]; [lit "OK"]]) []) with Done r w => r = Ok tt /\ written (trace w) = [(lit "AT+CPMS=""SM""" ++ [13]); (lit "AT+CMGR=1" ++ [13]); (lit "AT+CMGD=1,0" ++ [13])] /\ last (trace w) (ESleep 0) = ESms (Received 0 (Some (lit "+0123456789")) (mk_datetime 2013 3 8 15 2 16 0 (Some (td_of_hours 2))) (lit "Hello world!") (Some (lit "+2782913593"))) | Stuck _ => False end.
Proof. vm_compute. repeat split. Qed.
Example send_text_1 : sms_result (sendSms (lit "+9876543210") (lit "Hallo" ++ [10] ++ lit "hoe gaan dit?") false false) (text_mode gen) [[lit "> "]; [lit "+CMGS: 33"; lit "OK"]] = Some (mk_sent (lit "+9876543210") (lit "Hallo" ++ [10] ++ lit "hoe gaan dit?") 33 None, 0, [(lit "AT+CMGS=""+9876543210""" ++ [13]); (lit "Hallo" ++ [10] ++ lit "hoe gaan dit?" ++ [26])]).
Proof. vm_compute. repeat split. Qed.
Example send_pdu_1_0 : match encodeSmsSubmitPdu (lit "+9876543210") (lit "Hallo" ++ [10] ++ lit "hoe gaan dit?") 33 VNone None true false false with Ok (p :: _) => sms_result (sendSms (lit "+9876543210") (lit "Hallo" ++ [10] ++ lit "hoe gaan dit?") false false) (set_smsRef 33 (pdu_mode gen)) [[(lit "> ")]; [(lit "+CMGS: 33"); (lit "OK")]] = Some (mk_sent (lit "+9876543210") (lit "Hallo" ++ [10] ++ lit "hoe gaan dit?") 33 None, 0, [lit "AT+CMGS=" ++ str_of_Z (pdu_tpduLength p) ++ CR; pdu_str (pdu_data p) ++ CTRL_Z]) | _ => False end.
Proof. vm_compute. repeat split. Qed.
Example send_pdu_1_1 : match encodeSmsSubmitPdu (lit "+9876543210") (lit "Hallo" ++ [10] ++ lit "hoe gaan dit?") 33 VNone None true false false with Ok (p :: _) => sms_result (sendSms (lit "+9876543210") (lit "Hallo" ++ [10] ++ lit "hoe gaan dit?") false false) (set_smsRef 33 (pdu_mode gen)) [[(lit "+ZDONR: ""METEOR"",272,3,""CS_ONLY"",""ROAM_OFF"""); (lit "+ZPASR: ""UMTS"""); (lit "> ")]; [(lit "+ZDONR: ""METEOR"",272,3,""CS_ONLY"",""ROAM_OFF"""); (lit "+ZPASR: ""UMTS"""); (lit "+ZDONR: ""METEOR"",272,3,""CS_PS"",""ROAM_OFF"""); (lit "+ZPASR: ""UMTS"""); (lit "+CMGS: 33"); (lit "OK")]] = Some (mk_sent (lit "+9876543210") (lit "Hallo" ++ [10] ++ lit "hoe gaan dit?") 33 None, 0, [lit "AT+CMGS=" ++ str_of_Z (pdu_tpduLength p) ++ CR; pdu_str (pdu_data p) ++ CTRL_Z]) | _ => False end.
Proof. vm_compute. repeat split. Qed.
Example receive_text_1 : match handleNotification [lit "+CMTI: ""SM"",4"] (mk_world (text_mode gen) (map Lines [[lit "OK"]; [(lit "+CMGR: ""REC UNREAD"",""+9876543210"",,""13/03/08,15:02:16+08"""); (lit "Hallo" ++ [10] ++ lit "hoe gaan dit?"); (lit "OK")]; [lit "OK"]]) []) with Done r w => r = Ok tt /\ written (trace w) = [(lit "AT+CPMS=""SM""" ++ [13]); (lit "AT+CMGR=4" ++ [13]); (lit "AT+CMGD=4,0" ++ [13])] /\ last (trace w) (ESleep 0) = ESms (Received 0 (Some (lit "+9876543210")) (mk_datetime 2013 3 8 15 2 16 0 (Some (td_of_hours 2))) (lit "Hallo" ++ [10] ++ lit "hoe gaan dit?") None) | Stuck _ => False end.
Proof. vm_compute. repeat split. Qed.
Example receive_pdu_1_0 : match handleNotification [lit "+CMTI: ""SM"",4"] (mk_world (pdu_mode gen) (map Lines [[lit "OK"]; [(lit "+CMGR: 0,,35"); (lit "06917228195339040A91896745230100003130805120618013C8309BFD56A0DF65D0391C7683C869FA0F"); (lit "OK")]; [lit "OK"]]) []) with Done r w => r = Ok tt /\ written (trace w) = [(lit "AT+CPMS=""SM""" ++ [13]); (lit "AT+CMGR=4" ++ [13]); (lit "AT+CMGD=4,0" ++ [13])] /\ last (trace w) (ESleep 0) = ESms (Received 0 (Some (lit "+9876543210")) (mk_datetime 2013 3 8 15 2 16 0 (Some (td_of_hours 2))) (lit "Hallo" ++ [10] ++ lit "hoe gaan dit?") (Some (lit "+2782913593"))) | Stuck _ => False end.
Proof. vm_compute. repeat split. Qed.
Example receive_pdu_1_1 : match handleNotification [lit "+CMTI: ""SM"",4"] (mk_world (pdu_mode gen) (map Lines [[lit "OK"]; [(lit "+CMGR: 0,""abc123"",35"); (lit "06917228195339040A91896745230100003130805120618013C8309BFD56A0DF65D0391C7683C869FA0F"); (lit "OK")]; [lit "OK"]]) []) with Done r w => r = Ok tt /\ written (trace w) = [(lit "AT+CPMS=""SM""" ++ [13]); (lit "AT+CMGR=4" ++ [13]); (lit "AT+CMGD=4,0" ++ [13])] /\ last (trace w) (ESleep 0) = ESms (Received 0 (Some (lit "+9876543210")) (mk_datetime 2013 3 8 15 2 16 0 (Some (td_of_hours 2))) (lit "Hallo" ++ [10] ++ lit "hoe gaan dit?") (Some (lit "+2782913593"))) | Stuck _ => False end.
Proof. vm_compute. repeat split. Qed.
Example receive_pdu_1_2 : match handleNotification [lit "+CMTI: ""SM"",4"] (mk_world (pdu_mode gen) (map Lines [[lit "OK"]; [(lit "+CMGR: 0,"""",35"); (lit "06917228195339040A91896745230100003130805120618013C8309BFD56A0DF65D0391C7683C869FA0F"); (lit "OK")]; [lit "OK"]]) []) with Done r w => r = Ok tt /\ written (trace w) = [(lit "AT+CPMS=""SM""" ++ [13]); (lit "AT+CMGR=4" ++ [13]); (lit "AT+CMGD=4,0" ++ [13])] /\ last (trace w) (ESleep 0) = ESms (Received 0 (Some (lit "+9876543210")) (mk_datetime 2013 3 8 15 2 16 0 (Some (td_of_hours 2))) (lit "Hallo" ++ [10] ++ lit "hoe gaan dit?") (Some (lit "+2782913593"))) | Stuck _ => False end.
Proof. vm_compute. repeat split. Qed.
Example receive_pdu_1_3 : match handleNotification [lit "+CMTI: ""SM"",4"] (mk_world (pdu_mode gen) (map Lines [[lit "OK"]; [(lit "+CMGR: 0,Test User 123,35"); (lit "06917228195339040A91896745230100003130805120618013C8309BFD56A0DF65D0391C7683C869FA0F"); (lit "OK")]; [lit "OK"]]) []) with Done r w => r = Ok tt /\ written (trace w) = [(lit "AT+CPMS=""SM""" ++ [13]); (lit "AT+CMGR=4" ++ [13]); (lit "AT+CMGD=4,0" ++ [13])] /\ last (trace w) (ESleep 0) = ESms (Received 0 (Some (lit "+9876543210")) (mk_datetime 2013 3 8 15 2 16 0 (Some (td_of_hours 2))) (lit "Hallo" ++ [10] ++ lit "hoe gaan dit?") (Some (lit "+2782913593"))) | Stuck _ => False end.
Proof. vm_compute. repeat split. Qed.
Example receive_pdu_1_4 : match handleNotification [lit "+CMTI: ""SM"",4"] (mk_world (pdu_mode gen) (map Lines [[lit "OK"]; [(lit "+CMGR: 0,9876543231,35"); (lit "06917228195339040A91896745230100003130805120618013C8309BFD56A0DF65D0391C7683C869FA0F"); (lit "OK")]; [lit "OK"]]) []) with Done r w => r = Ok tt /\ written (trace w) = [(lit "AT+CPMS=""SM""" ++ [13]); (lit "AT+CMGR=4" ++ [13]); (lit "AT+CMGD=4,0" ++ [13])] /\ last (trace w) (ESleep 0) = ESms (Received 0 (Some (lit "+9876543210")) (mk_datetime 2013 3 8 15 2 16 0 (Some (td_of_hours 2))) (lit "Hallo" ++ [10] ++ lit "hoe gaan dit?") (Some (lit "+2782913593"))) | Stuck _ => False end.
Proof. vm_compute. repeat split. Qed.
Example send_text_2 : sms_result (sendSms (lit "+353870000000") (lit "My message") false false) (text_mode gen) [[lit "> "]; [lit "+CMGS: 0"; lit "OK"]] = Some (mk_sent (lit "+353870000000") (lit "My message") 0 None, 0, [(lit "AT+CMGS=""+353870000000""" ++ [13]); (lit "My message" ++ [26])]).
Proof. vm_compute. repeat split. Qed.
Example send_pdu_2_0 : match encodeSmsSubmitPdu (lit "+353870000000") (lit "My message") 0 VNone None true false false with Ok (p :: _) => sms_result (sendSms (lit "+353870000000") (lit "My message") false false) (set_smsRef 0 (pdu_mode gen)) [[(lit "> ")]; [(lit "+CMGS: 0"); (lit "OK")]] = Some (mk_sent (lit "+353870000000") (lit "My message") 0 None, 0, [lit "AT+CMGS=" ++ str_of_Z (pdu_tpduLength p) ++ CR; pdu_str (pdu_data p) ++ CTRL_Z]) | _ => False end.
Proof. vm_compute. repeat split. Qed.
Example send_pdu_2_1 : match encodeSmsSubmitPdu (lit "+353870000000") (lit "My message") 0 VNone None true false false with Ok (p :: _) => sms_result (sendSms (lit "+353870000000") (lit "My message") false false) (set_smsRef 0 (pdu_mode gen)) [[(lit "+ZDONR: ""METEOR"",272,3,""CS_ONLY"",""ROAM_OFF"""); (lit "+ZPASR: ""UMTS"""); (lit "> ")]; [(lit "+ZDONR: ""METEOR"",272,3,""CS_ONLY"",""ROAM_OFF"""); (lit "+ZPASR: ""UMTS"""); (lit "+ZDONR: ""METEOR"",272,3,""CS_PS"",""ROAM_OFF"""); (lit "+ZPASR: ""UMTS"""); (lit "+CMGS: 0"); (lit "OK")]] = Some (mk_sent (lit "+353870000000") (lit "My message") 0 None, 0, [lit "AT+CMGS=" ++ str_of_Z (pdu_tpduLength p) ++ CR; pdu_str (pdu_data p) ++ CTRL_Z]) | _ => False end.
Proof. vm_compute. repeat split. Qed.
Example receive_text_2 : match handleNotification [lit "+CMTI: ""ME"",13"] (mk_world (text_mode gen) (map Lines [[lit "OK"]; [(lit "+CMGR: ""REC UNREAD"",""+353870000000"",,""13/04/20,20:22:27+16"""); (lit "My message"); (lit "OK")]; [lit "OK"]]) []) with Done r w => r = Ok tt /\ written (trace w) = [(lit "AT+CPMS=""ME""" ++ [13]); (lit "AT+CMGR=13" ++ [13]); (lit "AT+CMGD=13,0" ++ [13])] /\ last (trace w) (ESleep 0) = ESms (Received 0 (Some (lit "+353870000000")) (mk_datetime 2013 4 20 20 22 27 0 (Some (td_of_hours 4))) (lit "My message") None) | Stuck _ => False end.
Proof. vm_compute. repeat split. Qed.
Definition sent_refs (m : modem) (refs : list Z) : option (list Z * Z) :=
  match (fold_left (fun c _ => c ;;; sendSms (lit "+27820000000") (lit "Test message") false false ;;; ret tt) refs (ret tt))
    (mk_world m (flat_map (fun r => [Lines [lit "> "]; Lines [lit "+CMGS: " ++ str_of_Z r; lit "OK"]]) refs) []) with
  | Done (Ok _) w => Some (map s_reference (sentObjs (dev w)), smsRef (dev w))
  | _ => None
  end.
Example ref_count : sent_refs gen [0; 1] = Some ([0; 1], 2) /\ sent_refs (set_smsRef 255 gen) [255; 0] = Some ([255; 0], 1).
Proof. vm_compute. repeat split. Qed.
Definition report_pdu : list str := [lit "+CMGR: 0,,24"; lit "07917248014000F506B70AA18092020000317071518590803170715185418000"; lit "OK"].
Example delivery_wait : match (do n <- sendSms (lit "0829200000") (lit "Test message") false true; handleNotification [lit "+CDSI: ""SM"",3"] ;;; sendSms_wait ;;; ret n) (mk_world (set_smsRef 183 gen) (map Lines [[lit "> "]; [lit "+CMGS: 183"; lit "OK"]; [lit "OK"]; report_pdu; [lit "OK"]]) []) with Done (Ok n) w => option_map sent_status (nth_error (sentObjs (dev w)) n) = Some 1 | _ => False end.
Proof. vm_compute. repeat split. Qed.
Example delivery_timeout : option_map fst (with_lines (sendSms (lit "0829200000") (lit "Test message") false true ;;; sendSms_wait) (set_smsRef 183 gen) [[lit "> "]; [lit "+CMGS: 183"; lit "OK"]]) = Some (Err (TimeoutException None)).
Proof. vm_compute. repeat split. Qed.
Example no_cmgs : option_map fst (with_lines (sendSms (lit "+27820000000") (lit "Test message") false false) gen [[lit "OK"]; [lit "OK"]]) = Some (Err cmgs_missing).
Proof. vm_compute. repeat split. Qed.
(** test_modem.py:1587-1888 TestStoredSms *)
(** of a message what the tests look at *)
Definition glance (s : stored_sms) := match s with Received st n t x _ => Some (st, n, t, x) | Report _ _ _ _ _ _ => None end.
Definition store_pdu : fake := (respond (lit "AT+CMGL=""ALL""") [(lit "ERROR")] (respond (lit "AT+CMGL=""STO SENT""") [(lit "ERROR")] (respond (lit "AT+CMGL=""STO UNSENT""") [(lit "ERROR")] (respond (lit "AT+CMGL=""REC READ""") [(lit "ERROR")] (respond (lit "AT+CMGL=""REC UNREAD""") [(lit "ERROR")] (respond (lit "AT+CMGR=0") [(lit "+CMGR: 0,,35"); (lit "07917248014000F3240B917247587706F400003110824115248012C8329BFD06C9C373B8B82C97E741F034"); (lit "OK")] (respond (lit "AT+CMGL=3") [(lit "OK")] (respond (lit "AT+CMGL=2") [(lit "OK")] (respond (lit "AT+CMGL=4") [(lit "+CMGL: 0,0,,35"); (lit "07917248014000F3240B917247587706F400003110824115248012C8329BFD06C9C373B8B82C97E741F034"); (lit "+CMGL: 1,1,,161"); (lit "07917248010080F020109172480010359099990000312070101344809FCEF21D14769341E8B2BC0CA2BF41737A381F0211DFEE131DA4AECFE92079798C0ECBCF65D0B40A0D0E9141E9B1080ABBC9A073990ECABFEB7290BC3C4687E5E73219144ECBE9E976796594168BA06199CD1E82E86FD0B0CC660F41EDB47B0E3281A6CDE97C659497CB2072981E06D1DFA0FABC0C0ABBF3F474BBEC02514D4350180E67E75DA06199CD060D01"); (lit "+CMGL: 2,1,,159"); (lit "07917248010080F0240B917248001064F30000312070604220809F537AD84D0ECBC92061D8BDD681B2EFBA1C141E8FDF75377D0E0ACBCB20F71BC47EBBCF6539C8981C0641E3771BCE4E87DD741708CA2E87E76590589E769F414922C80482CBDF6F33E86D06C9CBF334B9EC1E9741F43728ECCE83C4F2B07B8C06D1DF2079393CA6A7ED617A19947FD7E5A0F078FCAEBBE97317285A2FCBD3E5F90F04C3D96030D88C2693B900"); (lit "OK")] (respond (lit "AT+CMGL=1") [(lit "+CMGL: 1,1,,161"); (lit "07917248010080F020109172480010359099990000312070101344809FCEF21D14769341E8B2BC0CA2BF41737A381F0211DFEE131DA4AECFE92079798C0ECBCF65D0B40A0D0E9141E9B1080ABBC9A073990ECABFEB7290BC3C4687E5E73219144ECBE9E976796594168BA06199CD1E82E86FD0B0CC660F41EDB47B0E3281A6CDE97C659497CB2072981E06D1DFA0FABC0C0ABBF3F474BBEC02514D4350180E67E75DA06199CD060D01"); (lit "+CMGL: 2,1,,159"); (lit "07917248010080F0240B917248001064F30000312070604220809F537AD84D0ECBC92061D8BDD681B2EFBA1C141E8FDF75377D0E0ACBCB20F71BC47EBBCF6539C8981C0641E3771BCE4E87DD741708CA2E87E76590589E769F414922C80482CBDF6F33E86D06C9CBF334B9EC1E9741F43728ECCE83C4F2B07B8C06D1DF2079393CA6A7ED617A19947FD7E5A0F078FCAEBBE97317285A2FCBD3E5F90F04C3D96030D88C2693B900"); (lit "OK")] (respond (lit "AT+CMGL=0") [(lit "+CMGL: 0,0,,35"); (lit "07917248014000F3240B917247587706F400003110824115248012C8329BFD06C9C373B8B82C97E741F034"); (lit "OK")] generic))))))))))).
Definition store_text : fake := (respond (lit "AT+CMGL=4") [(lit "ERROR")] (respond (lit "AT+CMGL=3") [(lit "ERROR")] (respond (lit "AT+CMGL=2") [(lit "ERROR")] (respond (lit "AT+CMGL=1") [(lit "ERROR")] (respond (lit "AT+CMGL=0") [(lit "ERROR")] (respond (lit "AT+CMGL=""STO SENT""") [(lit "OK")] (respond (lit "AT+CMGL=""STO UNSENT""") [(lit "OK")] (respond (lit "AT+CMGL=""ALL""") [(lit "+CMGL: 0,""REC UNREAD"",""+27748577604"",,""13/01/28,14:51:42+08"""); (lit "Hello raspberry pi"); (lit "+CMGL: 1,""REC READ"",""+2784000153099999"",,""13/02/07,01:31:44+08"""); (lit "New and here to stay! Don't just recharge SUPACHARGE and get your recharged airtime+FREE CellC to CellC mins & SMSs+Free data to use anytime. T&C apply. Cell C"); (lit "+CMGL: 2,""REC READ"",""+27840001463"",,""13/02/07,06:24:02+08"""); (lit "Standard Bank: Your accounts are no longer FICA compliant. Please bring ID & proof of residence to any branch to reactivate your accounts. Queries? 0860003422."); (lit "OK")] (respond (lit "AT+CMGL=""REC READ""") [(lit "+CMGL: 1,""REC READ"",""+2784000153099999"",,""13/02/07,01:31:44+08"""); (lit "New and here to stay! Don't just recharge SUPACHARGE and get your recharged airtime+FREE CellC to CellC mins & SMSs+Free data to use anytime. T&C apply. Cell C"); (lit "+CMGL: 2,""REC READ"",""+27840001463"",,""13/02/07,06:24:02+08"""); (lit "Standard Bank: Your accounts are no longer FICA compliant. Please bring ID & proof of residence to any branch to reactivate your accounts. Queries? 0860003422."); (lit "OK")] (respond (lit "AT+CMGL=""REC UNREAD""") [(lit "+CMGL: 0,""REC UNREAD"",""+27748577604"",,""13/01/28,14:51:42+08"""); (lit "Hello raspberry pi"); (lit "OK")] generic)))))))))).
Definition listed (f : fake) (m : modem) (status : Z) (delete : bool) := match run (listStoredSms status None delete) m f with Some (Ok l, _, _, tr) => Some (map glance l, written tr) | _ => None end.
Example list_pdu_0 : listed store_pdu gen 0 false = Some ([Some (0, Some (lit "+27748577604"), (mk_datetime 2013 1 28 14 51 42 0 (Some (td_of_hours 2))), (lit "Hello raspberry pi"))], [(lit "AT+CMGL=0" ++ [13])]).
Proof. vm_compute. repeat split. Qed.
Example list_pdu_1 : listed store_pdu gen 1 false = Some ([Some (1, Some (lit "+2784000153099999"), (mk_datetime 2013 2 7 1 31 44 0 (Some (td_of_hours 2))), (lit "New and here to stay! Don't just recharge SUPACHARGE and get your recharged airtime+FREE CellC to CellC mins & SMSs+Free data to use anytime. T&C apply. Cell C")); Some (1, Some (lit "+27840001463"), (mk_datetime 2013 2 7 6 24 2 0 (Some (td_of_hours 2))), (lit "Standard Bank: Your accounts are no longer FICA compliant. Please bring ID & proof of residence to any branch to reactivate your accounts. Queries? 0860003422."))], [(lit "AT+CMGL=1" ++ [13])]).
Proof. vm_compute. repeat split. Qed.
Example list_pdu_2 : listed store_pdu gen 2 false = Some ([], [(lit "AT+CMGL=2" ++ [13])]).
Proof. vm_compute. repeat split. Qed.
Example list_pdu_3 : listed store_pdu gen 3 false = Some ([], [(lit "AT+CMGL=3" ++ [13])]).
Proof. vm_compute. repeat split. Qed.
Example list_pdu_4 : listed store_pdu gen 4 false = Some ([Some (0, Some (lit "+27748577604"), (mk_datetime 2013 1 28 14 51 42 0 (Some (td_of_hours 2))), (lit "Hello raspberry pi")); Some (1, Some (lit "+2784000153099999"), (mk_datetime 2013 2 7 1 31 44 0 (Some (td_of_hours 2))), (lit "New and here to stay! Don't just recharge SUPACHARGE and get your recharged airtime+FREE CellC to CellC mins & SMSs+Free data to use anytime. T&C apply. Cell C")); Some (1, Some (lit "+27840001463"), (mk_datetime 2013 2 7 6 24 2 0 (Some (td_of_hours 2))), (lit "Standard Bank: Your accounts are no longer FICA compliant. Please bring ID & proof of residence to any branch to reactivate your accounts. Queries? 0860003422."))], [(lit "AT+CMGL=4" ++ [13])]).
Proof. vm_compute. repeat split. Qed.
Example list_pdu_delete_all : listed store_pdu gen 4 true = Some ([Some (0, Some (lit "+27748577604"), (mk_datetime 2013 1 28 14 51 42 0 (Some (td_of_hours 2))), (lit "Hello raspberry pi")); Some (1, Some (lit "+2784000153099999"), (mk_datetime 2013 2 7 1 31 44 0 (Some (td_of_hours 2))), (lit "New and here to stay! Don't just recharge SUPACHARGE and get your recharged airtime+FREE CellC to CellC mins & SMSs+Free data to use anytime. T&C apply. Cell C")); Some (1, Some (lit "+27840001463"), (mk_datetime 2013 2 7 6 24 2 0 (Some (td_of_hours 2))), (lit "Standard Bank: Your accounts are no longer FICA compliant. Please bring ID & proof of residence to any branch to reactivate your accounts. Queries? 0860003422."))], [(lit "AT+CMGL=4" ++ [13]); (lit "AT+CMGD=1,4" ++ [13])]).
Proof. vm_compute. repeat split. Qed.
Example list_pdu_delete_read : listed store_pdu gen 1 true = Some ([Some (1, Some (lit "+2784000153099999"), (mk_datetime 2013 2 7 1 31 44 0 (Some (td_of_hours 2))), (lit "New and here to stay! Don't just recharge SUPACHARGE and get your recharged airtime+FREE CellC to CellC mins & SMSs+Free data to use anytime. T&C apply. Cell C")); Some (1, Some (lit "+27840001463"), (mk_datetime 2013 2 7 6 24 2 0 (Some (td_of_hours 2))), (lit "Standard Bank: Your accounts are no longer FICA compliant. Please bring ID & proof of residence to any branch to reactivate your accounts. Queries? 0860003422."))], [(lit "AT+CMGL=1" ++ [13]); (lit "AT+CMGD=1,0" ++ [13]); (lit "AT+CMGD=2,0" ++ [13])]).
Proof. vm_compute. repeat split. Qed.
Example list_text_0 : listed store_text (text_mode gen) 0 false = Some ([Some (0, Some (lit "+27748577604"), (mk_datetime 2013 1 28 14 51 42 0 (Some (td_of_hours 2))), (lit "Hello raspberry pi"))], [(lit "AT+CMGL=""REC UNREAD""" ++ [13])]).
Proof. vm_compute. repeat split. Qed.
Example list_text_1 : listed store_text (text_mode gen) 1 false = Some ([Some (1, Some (lit "+2784000153099999"), (mk_datetime 2013 2 7 1 31 44 0 (Some (td_of_hours 2))), (lit "New and here to stay! Don't just recharge SUPACHARGE and get your recharged airtime+FREE CellC to CellC mins & SMSs+Free data to use anytime. T&C apply. Cell C")); Some (1, Some (lit "+27840001463"), (mk_datetime 2013 2 7 6 24 2 0 (Some (td_of_hours 2))), (lit "Standard Bank: Your accounts are no longer FICA compliant. Please bring ID & proof of residence to any branch to reactivate your accounts. Queries? 0860003422."))], [(lit "AT+CMGL=""REC READ""" ++ [13])]).
Proof. vm_compute. repeat split. Qed.
Example list_text_2 : listed store_text (text_mode gen) 2 false = Some ([], [(lit "AT+CMGL=""STO UNSENT""" ++ [13])]).
Proof. vm_compute. repeat split. Qed.
Example list_text_3 : listed store_text (text_mode gen) 3 false = Some ([], [(lit "AT+CMGL=""STO SENT""" ++ [13])]).
Proof. vm_compute. repeat split. Qed.
Example list_text_4 : listed store_text (text_mode gen) 4 false = Some ([Some (0, Some (lit "+27748577604"), (mk_datetime 2013 1 28 14 51 42 0 (Some (td_of_hours 2))), (lit "Hello raspberry pi")); Some (1, Some (lit "+2784000153099999"), (mk_datetime 2013 2 7 1 31 44 0 (Some (td_of_hours 2))), (lit "New and here to stay! Don't just recharge SUPACHARGE and get your recharged airtime+FREE CellC to CellC mins & SMSs+Free data to use anytime. T&C apply. Cell C")); Some (1, Some (lit "+27840001463"), (mk_datetime 2013 2 7 6 24 2 0 (Some (td_of_hours 2))), (lit "Standard Bank: Your accounts are no longer FICA compliant. Please bring ID & proof of residence to any branch to reactivate your accounts. Queries? 0860003422."))], [(lit "AT+CMGL=""ALL""" ++ [13])]).
Proof. vm_compute. repeat split. Qed.
Example list_text_delete_all : listed store_text (text_mode gen) 4 true = Some ([Some (0, Some (lit "+27748577604"), (mk_datetime 2013 1 28 14 51 42 0 (Some (td_of_hours 2))), (lit "Hello raspberry pi")); Some (1, Some (lit "+2784000153099999"), (mk_datetime 2013 2 7 1 31 44 0 (Some (td_of_hours 2))), (lit "New and here to stay! Don't just recharge SUPACHARGE and get your recharged airtime+FREE CellC to CellC mins & SMSs+Free data to use anytime. T&C apply. Cell C")); Some (1, Some (lit "+27840001463"), (mk_datetime 2013 2 7 6 24 2 0 (Some (td_of_hours 2))), (lit "Standard Bank: Your accounts are no longer FICA compliant. Please bring ID & proof of residence to any branch to reactivate your accounts. Queries? 0860003422."))], [(lit "AT+CMGL=""ALL""" ++ [13]); (lit "AT+CMGD=1,4" ++ [13])]).
Proof. vm_compute. repeat split. Qed.
Example list_text_delete_read : listed store_text (text_mode gen) 1 true = Some ([Some (1, Some (lit "+2784000153099999"), (mk_datetime 2013 2 7 1 31 44 0 (Some (td_of_hours 2))), (lit "New and here to stay! Don't just recharge SUPACHARGE and get your recharged airtime+FREE CellC to CellC mins & SMSs+Free data to use anytime. T&C apply. Cell C")); Some (1, Some (lit "+27840001463"), (mk_datetime 2013 2 7 6 24 2 0 (Some (td_of_hours 2))), (lit "Standard Bank: Your accounts are no longer FICA compliant. Please bring ID & proof of residence to any branch to reactivate your accounts. Queries? 0860003422."))], [(lit "AT+CMGL=""REC READ""" ++ [13]); (lit "AT+CMGD=1,0" ++ [13]); (lit "AT+CMGD=2,0" ++ [13])]).
Proof. vm_compute. repeat split. Qed.
Example list_pdu_noise : option_map fst (listed (respond (lit "AT+CMGL=4") [(lit "+CMGL: 0,0,,35"); (lit "AFSDLF SDKFJSKDLFJLKSDJF SJDLKFSKLDJFKSDFS"); (lit "07917248014000F3240B917247587706F400003110824115248012C8329BFD06C9C373B8B82C97E741F034"); (lit "+CMGL: 1,1,,161"); (lit "07917248010080F020109172480010359099990000312070101344809FCEF21D14769341E8B2BC0CA2BF41737A381F0211DFEE131DA4AECFE92079798C0ECBCF65D0B40A0D0E9141E9B1080ABBC9A073990ECABFEB7290BC3C4687E5E73219144ECBE9E976796594168BA06199CD1E82E86FD0B0CC660F41EDB47B0E3281A6CDE97C659497CB2072981E06D1DFA0FABC0C0ABBF3F474BBEC02514D4350180E67E75DA06199CD060D01"); (lit "+CMGL: 2,1,,159"); (lit "07917248010080F0240B917248001064F30000312070604220809F537AD84D0ECBC92061D8BDD681B2EFBA1C141E8FDF75377D0E0ACBCB20F71BC47EBBCF6539C8981C0641E3771BCE4E87DD741708CA2E87E76590589E769F414922C80482CBDF6F33E86D06C9CBF334B9EC1E9741F43728ECCE83C4F2B07B8C06D1DF2079393CA6A7ED617A19947FD7E5A0F078FCAEBBE97317285A2FCBD3E5F90F04C3D96030D88C2693B900"); (lit "OK")] store_pdu) gen 4 false) = Some [Some (0, Some (lit "+27748577604"), (mk_datetime 2013 1 28 14 51 42 0 (Some (td_of_hours 2))), (lit "Hello raspberry pi")); Some (1, Some (lit "+2784000153099999"), (mk_datetime 2013 2 7 1 31 44 0 (Some (td_of_hours 2))), (lit "New and here to stay! Don't just recharge SUPACHARGE and get your recharged airtime+FREE CellC to CellC mins & SMSs+Free data to use anytime. T&C apply. Cell C")); Some (1, Some (lit "+27840001463"), (mk_datetime 2013 2 7 6 24 2 0 (Some (td_of_hours 2))), (lit "Standard Bank: Your accounts are no longer FICA compliant. Please bring ID & proof of residence to any branch to reactivate your accounts. Queries? 0860003422."))].
Proof. vm_compute. repeat split. Qed.
Example list_text_invalid : match run (listStoredSms 99 None false) (text_mode gen) store_text with Some (Err e, _, _, _) => e = ValueError | _ => False end.
Proof. vm_compute. repeat split. Qed.
Definition called (tr : list event) := flat_map (fun e => match e with ESms s => [glance s] | _ => [] end) tr.
Example process_all : match run (processStoredSms false) gen store_pdu with Some (Ok _, _, _, tr) => called tr = [Some (1, Some (lit "+2784000153099999"), (mk_datetime 2013 2 7 1 31 44 0 (Some (td_of_hours 2))), (lit "New and here to stay! Don't just recharge SUPACHARGE and get your recharged airtime+FREE CellC to CellC mins & SMSs+Free data to use anytime. T&C apply. Cell C")); Some (1, Some (lit "+27840001463"), (mk_datetime 2013 2 7 6 24 2 0 (Some (td_of_hours 2))), (lit "Standard Bank: Your accounts are no longer FICA compliant. Please bring ID & proof of residence to any branch to reactivate your accounts. Queries? 0860003422.")); Some (0, Some (lit "+27748577604"), (mk_datetime 2013 1 28 14 51 42 0 (Some (td_of_hours 2))), (lit "Hello raspberry pi"))] /\ written tr = [(lit "AT+CMGL=1" ++ [13]); (lit "AT+CMGD=1,0" ++ [13]); (lit "AT+CMGD=2,0" ++ [13]); (lit "AT+CMGL=0" ++ [13]); (lit "AT+CMGD=0,0" ++ [13])] | _ => False end.
Proof. vm_compute. repeat split. Qed.
Example process_unread : match run (processStoredSms true) gen store_pdu with Some (Ok _, _, _, tr) => called tr = [Some (0, Some (lit "+27748577604"), (mk_datetime 2013 1 28 14 51 42 0 (Some (td_of_hours 2))), (lit "Hello raspberry pi"))] /\ written tr = [(lit "AT+CMGL=0" ++ [13]); (lit "AT+CMGD=0,0" ++ [13])] | _ => False end.
Proof. vm_compute. repeat split. Qed.
Definition did {A} (c : M A) (m : modem) (f : fake) : option (list str) := match run c m f with Some (Ok _, _, _, tr) => Some (written tr) | _ => None end.
Example delete_1 : did (deleteStoredSms (lit "1") None) (text_mode gen) store_text = Some [(lit "AT+CMGD=1,0" ++ [13])].
Proof. vm_compute. repeat split. Qed.
Example delete_2 : did (deleteStoredSms (lit "2") None) (text_mode gen) store_text = Some [(lit "AT+CMGD=2,0" ++ [13])].
Proof. vm_compute. repeat split. Qed.
Example delete_3 : did (deleteStoredSms (lit "3") None) (text_mode gen) store_text = Some [(lit "AT+CMGD=3,0" ++ [13])].
Proof. vm_compute. repeat split. Qed.
Example delete_in_TEST1 : did (deleteStoredSms (lit "5") (Some (lit "TEST1"))) (text_mode gen) store_text = Some [(lit "AT+CPMS=""TEST1""" ++ [13]); (lit "AT+CMGD=5,0" ++ [13])].
Proof. vm_compute. repeat split. Qed.
Example delete_in_ME : did (deleteStoredSms (lit "32") (Some (lit "ME"))) (text_mode gen) store_text = Some [(lit "AT+CPMS=""ME""" ++ [13]); (lit "AT+CMGD=32,0" ++ [13])].
Proof. vm_compute. repeat split. Qed.
Example delete_many_4 : did (deleteMultipleStoredSms 4 None) (text_mode gen) store_text = Some [(lit "AT+CMGD=1,4" ++ [13])].
Proof. vm_compute. repeat split. Qed.
Example delete_many_3 : did (deleteMultipleStoredSms 3 None) (text_mode gen) store_text = Some [(lit "AT+CMGD=1,3" ++ [13])].
Proof. vm_compute. repeat split. Qed.
Example delete_many_2 : did (deleteMultipleStoredSms 2 None) (text_mode gen) store_text = Some [(lit "AT+CMGD=1,2" ++ [13])].
Proof. vm_compute. repeat split. Qed.
Example delete_many_1 : did (deleteMultipleStoredSms 1 None) (text_mode gen) store_text = Some [(lit "AT+CMGD=1,1" ++ [13])].
Proof. vm_compute. repeat split. Qed.
Example delete_many_in_TEST1 : did (deleteMultipleStoredSms 4 (Some (lit "TEST1"))) (text_mode gen) store_text = Some [(lit "AT+CPMS=""TEST1""" ++ [13]); (lit "AT+CMGD=1,4" ++ [13])].
Proof. vm_compute. repeat split. Qed.
Example delete_many_in_ME : did (deleteMultipleStoredSms 4 (Some (lit "ME"))) (text_mode gen) store_text = Some [(lit "AT+CPMS=""ME""" ++ [13]); (lit "AT+CMGD=1,4" ++ [13])].
Proof. vm_compute. repeat split. Qed.
Example delete_many_invalid : forallb (fun k => match run (deleteMultipleStoredSms k None) (text_mode gen) store_text with Some (Err ValueError, _, _, []) => true | _ => false end) [0; 5; -3] = true.
Proof. vm_compute. repeat split. Qed.
Example read_pdu_0 : match run (readStoredSms (lit "0") None) gen store_pdu with Some (Ok s, _, _, tr) => glance s = Some (0, Some (lit "+27748577604"), (mk_datetime 2013 1 28 14 51 42 0 (Some (td_of_hours 2))), (lit "Hello raspberry pi")) /\ written tr = [(lit "AT+CMGR=0" ++ [13])] | _ => False end.
Proof. vm_compute. repeat split. Qed.
Example read_pdu_1 : match run (readStoredSms (lit "0") (Some (lit "TEST1"))) gen store_pdu with Some (Ok s, _, _, tr) => glance s = Some (0, Some (lit "+27748577604"), (mk_datetime 2013 1 28 14 51 42 0 (Some (td_of_hours 2))), (lit "Hello raspberry pi")) /\ written tr = [(lit "AT+CPMS=""TEST1""" ++ [13]); (lit "AT+CMGR=0" ++ [13])] | _ => False end.
Proof. vm_compute. repeat split. Qed.
Example read_pdu_2 : match run (readStoredSms (lit "0") (Some (lit "ME"))) gen store_pdu with Some (Ok s, _, _, tr) => glance s = Some (0, Some (lit "+27748577604"), (mk_datetime 2013 1 28 14 51 42 0 (Some (td_of_hours 2))), (lit "Hello raspberry pi")) /\ written tr = [(lit "AT+CPMS=""ME""" ++ [13]); (lit "AT+CMGR=0" ++ [13])] | _ => False end.
Proof. vm_compute. repeat split. Qed.
(** test_modem.py:1891-2040 TestSmsStatusReports *)
Example report_0 : match handleNotification [lit "+CDSI: ""SR"",57"] (mk_world (text_mode gen) (map Lines [[lit "OK"]; [(lit "+CMGR: ,6,20,""0870000000"",129,""13/04/29,19:58:00+04"",""13/04/29,19:59:00+04"",0"); (lit "OK")]; [lit "OK"]]) []) with Done r w => r = Ok tt /\ written (trace w) = [(lit "AT+CPMS=""SR""" ++ [13]); (lit "AT+CMGR=57" ++ [13]); (lit "AT+CMGD=57,0" ++ [13])] /\ last (trace w) (ESleep 0) = EReport (Report 0 20 (Some (lit "0870000000")) (mk_datetime 2013 4 29 19 58 0 0 (Some (td_of_hours 1))) (mk_datetime 2013 4 29 19 59 0 0 (Some (td_of_hours 1))) 0) | Stuck _ => False end.
Proof. vm_compute. repeat split. Qed.
Example report_1 : match handleNotification [lit "+CDSI: ""SM"",3"] (mk_world (pdu_mode gen) (map Lines [[lit "OK"]; [(lit "+CMGR: 0,,24"); (lit "07917248014000F506B70AA18092020000317071518590803170715185418000"); (lit "OK")]; [lit "OK"]]) []) with Done r w => r = Ok tt /\ written (trace w) = [(lit "AT+CPMS=""SM""" ++ [13]); (lit "AT+CMGR=3" ++ [13]); (lit "AT+CMGD=3,0" ++ [13])] /\ last (trace w) (ESleep 0) = EReport (Report 0 183 (Some (lit "0829200000")) (mk_datetime 2013 7 17 15 58 9 0 (Some (td_of_hours 2))) (mk_datetime 2013 7 17 15 58 14 0 (Some (td_of_hours 2))) 0) | Stuck _ => False end.
Proof. vm_compute. repeat split. Qed.
Example report_2 : match handleNotification [lit "+CDSI: ""SM"",1"] (mk_world (pdu_mode gen) (map Lines [[lit "OK"]; [(lit "+CMGR: ,,27"); (lit "0297F1061C0F910B487228297020F5317062419272803170624192138000"); (lit "OK")]; [lit "OK"]]) []) with Done r w => r = Ok tt /\ written (trace w) = [(lit "AT+CPMS=""SM""" ++ [13]); (lit "AT+CMGR=1" ++ [13]); (lit "AT+CMGD=1,0" ++ [13])] /\ last (trace w) (ESleep 0) = EReport (Report 0 28 (Some (lit "+b08427829207025")) (mk_datetime 2013 7 26 14 29 27 0 (Some (td_of_hours 2))) (mk_datetime 2013 7 26 14 29 31 0 (Some (td_of_hours 2))) 0) | Stuck _ => False end.
Proof. vm_compute. repeat split. Qed.
(** test_sendSms_reply, test_modem.py:1561-1578 *)
Example reply_0 : option_map (fun x => fst (fst x)) (sms_result (NetworkModel.reply (Received 1 (Some (lit "+27820000000")) (DateModel.mk_datetime 2013 3 8 15 2 16 0 (Some (DateModel.td_of_seconds 7200))) (lit "Text message") (Some (lit "+9876543210"))) (lit "This is the reply"))
  (pdu_mode gen) [[lit "> "]; [lit "+CMGS: 0"; lit "OK"]]) = Some (mk_sent (lit "+27820000000") (lit "This is the reply") 0 None).
Proof. vm_compute. reflexivity. Qed.
