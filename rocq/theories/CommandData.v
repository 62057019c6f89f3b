(** Model of tools/gsmtermlib/atcommands.py and of _initAtCommandsTrie (terminal.py, lines
    599-607): the names of the commands, and of each help tuple the category, the title,
    the number of fields, and the number of fields of each value and response value.  The
    other texts are left out. *)
From Verif Require Import Base TrieModel TermModel.

(** atcommands.py, line 2 *)
Definition CATEGORIES : list str :=
  [lit "General"; lit "Call Control"; lit "Network Service"; lit "Security"; lit "Phonebook"; lit "SMS"; lit "Supplementary Services"; lit "Data"; lit "Fax"; lit "Fax Class 2"; lit "V24-V25"; lit "Specific"].
Definition cat (n : nat) : str := nth n CATEGORIES [].
(** ATCOMMANDS; the number of the line of each is given *)
Definition ATCOMMANDS : list (str * option help) :=
  [
   (* 9 *) (lit "AT+CGMI", Some (mk_help (cat 0) (lit "Manufacturer Identification") 5 None None));
   (* 10 *) (lit "AT+CGMM", Some (mk_help (cat 0) (lit "Request Model Identification") 5 None None));
   (* 11 *) (lit "AT+CGMR", Some (mk_help (cat 0) (lit "Request Revision Identification") 5 None None));
   (* 12 *) (lit "AT+CGSN", Some (mk_help (cat 0) (lit "Product Serial Number") 5 None None));
   (* 13 *) (lit "AT+CSCS", Some (mk_help (cat 0) (lit "Select TE Character Set") 5 (Some [2]) None));
   (* 18 *) (lit "AT+WPCS", Some (mk_help (cat 0) (lit "Phonebook Character Set") 5 (Some [2]) None));
   (* 23 *) (lit "AT+CIMI", Some (mk_help (cat 0) (lit "Request IMSI") 5 None None));
   (* 24 *) (lit "AT+CCID", Some (mk_help (cat 0) (lit "Card Identification") 5 None None));
   (* 25 *) (lit "AT+GCAP", Some (mk_help (cat 0) (lit "Capabilities List") 5 None None));
   (* 26 *) (lit "A/", Some (mk_help (cat 0) (lit "Repeat Last Command") 5 None None));
   (* 27 *) (lit "AT+CPOF", Some (mk_help (cat 0) (lit "Power Off") 5 None None));
   (* 28 *) (lit "AT+CFUN", Some (mk_help (cat 0) (lit "Set Phone Functionality") 5 (Some [2]) None));
   (* 45 *) (lit "AT+CPAS", Some (mk_help (cat 0) (lit "Phone Activity Status") 5 None None));
   (* 54 *) (lit "AT+CMEE", Some (mk_help (cat 0) (lit "Report Mobile Equipment Errors") 5 (Some [2]) None));
   (* 57 *) (lit "AT+CKPD", Some (mk_help (cat 0) (lit "Keypad Control") 5 (Some [2]) None));
   (* 60 *) (lit "AT+CCLK", Some (mk_help (cat 0) (lit "Clock Management") 5 (Some [2]) None));
   (* 61 *) (lit "AT+CALA", Some (mk_help (cat 0) (lit "Alarm Management") 5 (Some [2; 2]) None));
   (* 63 *) (lit "ATD", Some (mk_help (cat 1) (lit "Dial command") 5 (Some [2]) None));
   (* 74 *) (lit "ATH", Some (mk_help (cat 1) (lit "Hang-Up command") 5 (Some [2]) None));
   (* 78 *) (lit "ATA", Some (mk_help (cat 1) (lit "Answer a Call") 5 None None));
   (* 81 *) (lit "AT+CEER", Some (mk_help (cat 1) (lit "Extended Error Report") 5 None None));
   (* 82 *) (lit "AT+VTD", Some (mk_help (cat 1) (lit "DTMF Signals - set tone duration") 5 (Some [2]) None));
   (* 86 *) (lit "AT+VTS", Some (mk_help (cat 1) (lit "DTMF Signals - send tone") 5 (Some [2]) None));
   (* 91 *) (lit "ATDL", Some (mk_help (cat 1) (lit "Redial Last Telephone Number") 5 None None));
   (* 92 *) (lit "AT%D", Some (mk_help (cat 1) (lit "Automatic Dialing with DTR") 5 (Some [2]) None));
   (* 103 *) (lit "ATS0", Some (mk_help (cat 1) (lit "Automatic Answer") 5 (Some [2]) None));
   (* 105 *) (lit "AT+CICB", Some (mk_help (cat 1) (lit "Incoming Call Bearer") 5 (Some [2]) None));
   (* 106 *) (lit "AT+CSNS", Some (mk_help (cat 1) (lit "Single Numbering Scheme") 5 (Some [2]) None));
   (* 107 *) (lit "AT+VGR", Some (mk_help (cat 1) (lit "Gain Control - Reception") 5 (Some [2]) None));
   (* 108 *) (lit "AT+VGT", Some (mk_help (cat 1) (lit "Gain Control - Transmission") 5 (Some [2]) None));
   (* 109 *) (lit "AT+CMUT", Some (mk_help (cat 1) (lit "Microphone Mute Control") 5 (Some [2]) None));
   (* 110 *) (lit "AT+CVHU", Some (mk_help (cat 1) (lit "Voice Hangup Control") 5 (Some [2]) None));
   (* 115 *) (lit "AT+CSQ", Some (mk_help (cat 2) (lit "Signal Quality") 5 None (Some [2; 2])));
   (* 118 *) (lit "AT+COPS", Some (mk_help (cat 2) (lit "Operator Selection") 5 (Some [2; 2; 2]) None));
   (* 122 *) (lit "AT+CREG", Some (mk_help (cat 2) (lit "Network Registration") 5 (Some [2]) (Some [2; 2; 2])));
   (* 129 *) (lit "AT+WOPN", Some (mk_help (cat 2) (lit "Read Operator Name") 2 None None));
   (* 130 *) (lit "AT+WOPN", Some (mk_help (cat 2) (lit "Selection of Preferred PLMN List") 2 None None));
   (* 131 *) (lit "AT+CPLS", Some (mk_help (cat 2) (lit "Selection of Preferred PLMN List") 2 None None));
   (* 132 *) (lit "AT+CPOL", Some (mk_help (cat 2) (lit "Preferred Operator List") 2 None None));
   (* 133 *) (lit "AT+COPN", Some (mk_help (cat 2) (lit "Read Operator Name") 5 None (Some [2; 2])));
   (* 135 *) (lit "AT+CPIN", Some (mk_help (cat 3) (lit "Enter PIN") 5 (Some [2; 2]) None));
   (* 136 *) (lit "AT+CPIN2", Some (mk_help (cat 3) (lit "Enter PIN2") 5 (Some [2; 2]) None));
   (* 140 *) (lit "AT+CPINC", Some (mk_help (cat 3) (lit "PIN Remaining Attempt Number") 5 None (Some [2; 2; 2; 2])));
   (* 145 *) (lit "AT+CLCK", Some (mk_help (cat 3) (lit "Call Barring") 2 None None));
   (* 146 *) (lit "AT+CPWD", Some (mk_help (cat 3) (lit "Change Password") 2 None None));
   (* 148 *) (lit "AT+CPBS", Some (mk_help (cat 4) (lit "Select Phonebook Memory Storage") 6 (Some [2; 2; 2; 2; 2; 2; 2; 2; 2; 2]) None));
   (* 159 *) (lit "AT+CPBR", Some (mk_help (cat 4) (lit "Read Phonebook Entries") 5 (Some [2; 2]) None));
   (* 161 *) (lit "AT+CPBF", Some (mk_help (cat 4) (lit "Find Phonebook Entries") 5 (Some [2]) None));
   (* 163 *) (lit "AT+CPBW", Some (mk_help (cat 4) (lit "Write Phonebook Entry") 5 (Some [2; 2; 2; 2]) None));
   (* 168 *) (lit "AT+CPBP", Some (mk_help (cat 4) (lit "Phonebook Phone Search") 2 None None));
   (* 169 *) (lit "AT+CPBN", Some (mk_help (cat 4) (lit "Move Action in Phonebook") 2 None None));
   (* 170 *) (lit "AT+CNUM", Some (mk_help (cat 4) (lit "Subscriber Number") 5 None (Some [2; 2; 2])));
   (* 173 *) (lit "AT+WAIP", Some (mk_help (cat 4) (lit "Avoid Phonebook Initialization") 2 None None));
   (* 174 *) (lit "AT+WDCP", Some (mk_help (cat 4) (lit "Delete Calls Phonebook") 2 None None));
   (* 175 *) (lit "AT+CSVM", Some (mk_help (cat 4) (lit "Set Voice Mail Number") 2 None None));
   (* 177 *) (lit "AT+CSMS", Some (mk_help (cat 5) (lit "Select Message Service") 5 (Some [2]) None));
   (* 179 *) (lit "AT+CNMA", Some (mk_help (cat 5) (lit "New Message Acknowledgment") 5 (Some [2; 2]) None));
   (* 188 *) (lit "AT+CPMS", Some (mk_help (cat 5) (lit "Preferred Message Storage") 5 (Some [2; 2]) (Some [2; 2; 2; 2])));
   (* 196 *) (lit "AT+CMGF", Some (mk_help (cat 5) (lit "Preferred Message Format") 5 (Some [2]) None));
   (* 197 *) (lit "AT+CSAS", Some (mk_help (cat 5) (lit "Save Settings") 2 None None));
   (* 198 *) (lit "AT+CRES", Some (mk_help (cat 5) (lit "Restore Settings") 2 None None));
   (* 199 *) (lit "AT+CNMI", Some (mk_help (cat 5) (lit "New Message Indication") 5 (Some [2; 2; 2; 2; 2]) None));
   (* 226 *) (lit "AT+CMGR", Some (mk_help (cat 5) (lit "Read Message") 5 (Some [2]) None));
   (* 227 *) (lit "AT+CMGL", Some (mk_help (cat 5) (lit "List Message") 5 (Some [2]) None));
   (* 234 *) (lit "AT+CMGS", Some (mk_help (cat 5) (lit "Send Message") 5 (Some [2]) None));
   (* 238 *) (lit "AT+CMGW", Some (mk_help (cat 5) (lit "Write Message to Memory") 2 None None));
   (* 239 *) (lit "AT+CMSS", Some (mk_help (cat 5) (lit "Send Message from Storage") 5 (Some [2; 2; 2]) (Some [2])));
   (* 243 *) (lit "AT+CSMP", Some (mk_help (cat 5) (lit "Set Text Mode Parameters") 5 (Some [2; 2; 2; 2]) None));
   (* 248 *) (lit "AT+CMGD", Some (mk_help (cat 5) (lit "Delete Message") 5 (Some [2; 2]) None));
   (* 254 *) (lit "AT+CSCA", Some (mk_help (cat 5) (lit "Service Center Address") 5 (Some [2]) None));
   (* 255 *) (lit "AT+CSCB", Some (mk_help (cat 5) (lit "Select Cell Broadcast Message Types") 5 (Some [2; 2; 2]) None));
   (* 256 *) (lit "AT+WCBM", Some (mk_help (cat 5) (lit "Cell Broadcast Message Identifiers") 2 None None));
   (* 257 *) (lit "AT+WMSC", Some (mk_help (cat 5) (lit "Message Status Modification") 2 None None));
   (* 258 *) (lit "AT+WMGO", Some (mk_help (cat 5) (lit "Message Overwriting") 2 None None));
   (* 259 *) (lit "AT+WUSS", Some (mk_help (cat 5) (lit "Unchange SMS Status") 2 None None));
   (* 261 *) (lit "AT+CCFC", Some (mk_help (cat 6) (lit "Call Forwarding") 2 None None));
   (* 262 *) (lit "AT+CCWA", Some (mk_help (cat 6) (lit "Call Waiting") 2 None None));
   (* 263 *) (lit "AT+CLIR", Some (mk_help (cat 6) (lit "Calling Line Identification Restriction") 5 (Some [2]) (Some [2])));
   (* 268 *) (lit "AT+CLIP", Some (mk_help (cat 6) (lit "Calling Line Identification Presentation") 5 (Some [2]) (Some [2])));
   (* 274 *) (lit "AT+COLP", Some (mk_help (cat 6) (lit "Connected Line Identification Presentation") 2 None None));
   (* 275 *) (lit "AT+CAOC", Some (mk_help (cat 6) (lit "Advice Of Charge") 2 None None));
   (* 276 *) (lit "AT+CAMM", Some (mk_help (cat 6) (lit "Accumulated Call Meter Maximum") 2 None None));
   (* 277 *) (lit "AT+CPUC", Some (mk_help (cat 6) (lit "Price Per Unit and Currency Table") 2 None None));
   (* 278 *) (lit "AT+CHLD", Some (mk_help (cat 6) (lit "Call Related Supplementary Services") 2 None None));
   (* 279 *) (lit "AT+CHLD", Some (mk_help (cat 6) (lit "Call Related Supplementary Services") 2 None None));
   (* 280 *) (lit "AT+CLCC", Some (mk_help (cat 6) (lit "List Current Calls") 5 None (Some [2; 2; 2; 2; 2; 2; 2; 2])));
   (* 298 *) (lit "AT+CSSN", Some (mk_help (cat 6) (lit "Supplementary Service Notifications") 2 None None));
   (* 299 *) (lit "AT+CUSD", Some (mk_help (cat 6) (lit "Unstructured Supplementary Service Data") 5 (Some [2; 2; 2]) (Some [2])));
   (* 314 *) (lit "AT+CCUG", Some (mk_help (cat 6) (lit "Closed User Group") 2 None None));
   (* 316 *) (lit "AT+CBST", Some (mk_help (cat 7) (lit "Bearer Type Selection") 2 None None));
   (* 317 *) (lit "AT+FCLASS", Some (mk_help (cat 7) (lit "Select Mode") 5 (Some [2]) None));
   (* 318 *) (lit "AT+CR", Some (mk_help (cat 7) (lit "Service Reporting Control") 2 None None));
   (* 319 *) (lit "AT+CRC", Some (mk_help (cat 7) (lit "Cellular Result Dodes") 5 (Some [2]) None));
   (* 326 *) (lit "AT+ILRR", Some (mk_help (cat 7) (lit "DTE-DCE Local Rate Reporting") 2 None None));
   (* 327 *) (lit "AT+CRLP", Some (mk_help (cat 7) (lit "Radio Link Protocol Parameters") 2 None None));
   (* 328 *) (lit "AT+DOPT", Some (mk_help (cat 7) (lit "Radio Link Protocol Parameters") 2 None None));
   (* 330 *) (lit "AT+FTM", Some (mk_help (cat 8) (lit "Transmit Speed") 2 None None));
   (* 331 *) (lit "AT+FRM", Some (mk_help (cat 8) (lit "Receive Speed") 2 None None));
   (* 332 *) (lit "AT+FTH", Some (mk_help (cat 8) (lit "HDLC Transmit Speed") 2 None None));
   (* 333 *) (lit "AT+FRH", Some (mk_help (cat 8) (lit "HDLC Receive Speed") 2 None None));
   (* 334 *) (lit "AT+FTS", Some (mk_help (cat 8) (lit "Stop Transmission and Wait") 2 None None));
   (* 335 *) (lit "AT+FRS", Some (mk_help (cat 8) (lit "Receive Silence") 2 None None));
   (* 337 *) (lit "AT+FDT", Some (mk_help (cat 9) (lit "Transmit Data") 2 None None));
   (* 338 *) (lit "AT+FDR", Some (mk_help (cat 9) (lit "Receive Data") 2 None None));
   (* 339 *) (lit "AT+FET", Some (mk_help (cat 9) (lit "Transmit Page Punctuation") 2 None None));
   (* 340 *) (lit "AT+FPTS", Some (mk_help (cat 9) (lit "Page Transfer Status Parameters") 2 None None));
   (* 341 *) (lit "AT+FK", Some (mk_help (cat 9) (lit "Terminate Session") 2 None None));
   (* 342 *) (lit "AT+FBOR", Some (mk_help (cat 9) (lit "Page Transfer Bit Order") 2 None None));
   (* 343 *) (lit "AT+FBUF", Some (mk_help (cat 9) (lit "Buffer Size Report") 2 None None));
   (* 344 *) (lit "AT+FCQ", Some (mk_help (cat 9) (lit "Copy Quality Checking") 2 None None));
   (* 345 *) (lit "AT+FCR", Some (mk_help (cat 9) (lit "Capability to Receive") 2 None None));
   (* 346 *) (lit "AT+FDIS", Some (mk_help (cat 9) (lit "Current Session Parameters") 2 None None));
   (* 347 *) (lit "AT+FDCC", Some (mk_help (cat 9) (lit "DCE Capabilities Parameters") 2 None None));
   (* 348 *) (lit "AT+FLID", Some (mk_help (cat 9) (lit "Local ID String") 2 None None));
   (* 349 *) (lit "AT+FPHCTO", Some (mk_help (cat 9) (lit "Page Transfer Timeout Parameter") 2 None None));
   (* 351 *) (lit "AT+IPR", Some (mk_help (cat 10) (lit "Fixed DTE Rate") 5 (Some [2]) None));
   (* 352 *) (lit "AT+ICF", Some (mk_help (cat 10) (lit "DTE-DCE Character Framing") 5 (Some [2; 2]) None));
   (* 366 *) (lit "AT+IFC", Some (mk_help (cat 10) (lit "DTE-DCE Flow Control") 2 None None));
   (* 367 *) (lit "AT&C", Some (mk_help (cat 10) (lit "Set DCD Signal") 5 (Some [2]) None));
   (* 368 *) (lit "AT&D", Some (mk_help (cat 10) (lit "Set DTR Signal") 5 (Some [2]) None));
   (* 369 *) (lit "AT&S", Some (mk_help (cat 10) (lit "Set DSR Signal") 5 (Some [2]) None));
   (* 370 *) (lit "ATO", Some (mk_help (cat 10) (lit "Back to Online Mode") 5 None None));
   (* 371 *) (lit "ATQ", Some (mk_help (cat 10) (lit "Result Code Suppression") 5 (Some [2]) None));
   (* 372 *) (lit "ATV", Some (mk_help (cat 10) (lit "DCE Response Format") 5 (Some [2]) None));
   (* 373 *) (lit "ATZ", Some (mk_help (cat 10) (lit "Default Configuration") 5 None None));
   (* 374 *) (lit "AT&W", Some (mk_help (cat 10) (lit "Save Configuration") 5 None None));
   (* 375 *) (lit "AT&T", Some (mk_help (cat 10) (lit "Auto-Tests") 2 None None));
   (* 376 *) (lit "ATE", Some (mk_help (cat 10) (lit "Echo") 5 (Some [2]) None));
   (* 377 *) (lit "AT&F", Some (mk_help (cat 10) (lit "Restore Factory Settings") 5 (Some [2]) None));
   (* 378 *) (lit "AT&V", Some (mk_help (cat 10) (lit "Display Configuration") 5 (Some [2]) None));
   (* 381 *) (lit "ATI", Some (mk_help (cat 10) (lit "Request Identification Information") 5 (Some [2]) None));
   (* 387 *) (lit "AT+WMUX", Some (mk_help (cat 10) (lit "Multiplexing Mode") 2 None None));
   (* 389 *) (lit "AT+CCED", Some (mk_help (cat 11) (lit "Cell Environment Description") 2 None None));
   (* 390 *) (lit "AT+WIND", Some (mk_help (cat 11) (lit "General Indications") 2 None None));
   (* 391 *) (lit "AT+ADC", Some (mk_help (cat 11) (lit "Analog Digital Converter Measurements") 2 None None));
   (* 392 *) (lit "AT+CMER", Some (mk_help (cat 11) (lit "Mobile Equipment Event Reporting") 2 None None));
   (* 393 *) (lit "AT+CIND", Some (mk_help (cat 11) (lit "Indicator Control") 2 None None));
   (* 394 *) (lit "AT+CMEC", Some (mk_help (cat 11) (lit "Mobile Equipment Control Mode") 2 None None));
   (* 395 *) (lit "AT+WLPR", Some (mk_help (cat 11) (lit "Read Language Preference") 2 None None));
   (* 396 *) (lit "AT+WLPW", Some (mk_help (cat 11) (lit "Write Language Preference") 2 None None));
   (* 397 *) (lit "AT+WIOR", Some (mk_help (cat 11) (lit "Read GPIO Value") 2 None None));
   (* 398 *) (lit "AT+WIOW", Some (mk_help (cat 11) (lit "Write GPIO Value") 2 None None));
   (* 399 *) (lit "AT+WIOM", Some (mk_help (cat 11) (lit "Input/Output Management") 2 None None));
   (* 400 *) (lit "AT+WAC", Some (mk_help (cat 11) (lit "Abort Command") 2 None None));
   (* 401 *) (lit "AT+WTONE", Some (mk_help (cat 11) (lit "Play Tone") 2 None None));
   (* 402 *) (lit "AT+WDTMF", Some (mk_help (cat 11) (lit "Play DTMF Tone") 2 None None));
   (* 403 *) (lit "AT+WDWL", Some (mk_help (cat 11) (lit "Downloading") 2 None None));
   (* 404 *) (lit "AT+WVR", Some (mk_help (cat 11) (lit "Voice Rate") 2 None None));
   (* 405 *) (lit "AT+WDR", Some (mk_help (cat 11) (lit "Data Rate") 2 None None));
   (* 406 *) (lit "AT+WSVG", Some (mk_help (cat 11) (lit "Select Voice Gain") 2 None None));
   (* 407 *) (lit "AT+WSTR", Some (mk_help (cat 11) (lit "Status Request") 2 None None))].
(** terminal.py, lines 599-607 *)
Definition command_trie : trie (option help) := fold_left (fun t ch => t_set t (fst ch) (snd ch)) ATCOMMANDS empty.
