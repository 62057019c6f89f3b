{"id": "C01", "title": "Semi-octet numbers round-trip", "statement": "For every string of decimal digits, decodeSemiOctets(encodeSemiOctets(d)) == d; when an octet count n=ceil(len/2)>0 is passed, decoding reads exactly those n octets of a longer stream and leaves the rest unread.", "quantifier": "all digit strings of any length (odd and even), all continuations of the octet stream", "why_tests_cant": "unbounded input domain; the unit tests try a handful of literals", "anchors": ["gsmmodem/pdu.py:encodeSemiOctets", "gsmmodem/pdu.py:decodeSemiOctets"]}
{"id": "C02", "title": "Semi-octet wire layout", "statement": "encodeSemiOctets(d) has ceil(len(d)/2) octets; octet i holds digit 2i in its low nibble and digit 2i+1 (or the filler 0xF after the last digit of an odd-length number) in its high nibble, as GSM 03.40 requires.", "quantifier": "all digit strings", "why_tests_cant": "unbounded input domain; the unit tests try a handful of literals", "anchors": ["gsmmodem/pdu.py:encodeSemiOctets"]}
{"id": "C03", "title": "GSM-7 text round-trips", "statement": "For every text that contains no ESC (U+001B) and that encodeGsm7 accepts, decodeGsm7(encodeGsm7(text)) == text.", "quantifier": "all Unicode strings", "why_tests_cant": "unbounded input domain; the unit tests try a handful of literals", "anchors": ["gsmmodem/pdu.py:encodeGsm7", "gsmmodem/pdu.py:decodeGsm7"]}
{"id": "C04", "title": "Which texts GSM-7 accepts, and what it emits", "statement": "encodeGsm7(text) succeeds iff every character is in the basic or extension table (ÿ excepted); the result contains only septets (<0x80) and has one septet per basic and two per extension character; the first character outside the tables raises ValueError, U+00FF raises TypeError; with discardInvalid=True the result is the encoding of the text with the unencodable characters removed, but U+00FF still raises TypeError.", "quantifier": "all Unicode strings, both values of discardInvalid", "why_tests_cant": "unbounded input domain; the unit tests try a handful of literals", "anchors": ["gsmmodem/pdu.py:encodeGsm7", "gsmmodem/pdu.py:GSM7_BASIC", "gsmmodem/pdu.py:GSM7_EXTENDED"]}
{"id": "C05", "title": "GSM-7 tables agree with 3GPP TS 23.038", "statement": "Each of the 128 code points of the default alphabet and of the extension table maps to the character 3GPP TS 23.038 assigns to it; the library deviates at exactly one basic position (0x5F, '`' instead of '§') and one extension position (0x0A, form feed).", "quantifier": "all 128 positions of both tables", "why_tests_cant": "needs an exhaustive comparison with the standard's table, not samples", "anchors": ["gsmmodem/pdu.py:GSM7_BASIC", "gsmmodem/pdu.py:GSM7_EXTENDED"]}
{"id": "C06", "title": "Septet packing is the 3GPP bit stream", "statement": "packSeptets(s, padBits) is the little-endian bit stream of the septets, preceded by the fill bits, cut into octets and zero padded: bit k of the stream is bit k mod 8 of octet k div 8. Its length is ceil((fill+7n)/8) octets.", "quantifier": "all non-empty septet sequences, every padBits value 0..6", "why_tests_cant": "unbounded input domain; the unit tests try a handful of literals", "anchors": ["gsmmodem/pdu.py:packSeptets"]}
{"id": "C07", "title": "Unpacking inverts packing", "statement": "unpackSeptets(packSeptets(s)) == s for every non-empty septet sequence, with one exact exception: when the number of septets is a multiple of 8 and the last septet is 0 ('@'), precisely that last septet is dropped. packSeptets of an empty sequence raises StopIteration.", "quantifier": "all septet sequences of any length", "why_tests_cant": "unbounded input domain; the unit tests try a handful of literals", "anchors": ["gsmmodem/pdu.py:packSeptets", "gsmmodem/pdu.py:unpackSeptets"]}
{"id": "C08", "title": "Unpacking reads the bit stream and nothing else", "statement": "Reading n>=1 octets, unpackSeptets returns the consecutive 7-bit groups of the octets' bit stream, n + (n-1) div 7 of them, plus one more final group when 8 divides the bits exactly (n mod 7 = 0) and that group is non-zero; it consumes exactly min(n, available) octets of the iterator.", "quantifier": "all octet sequences, all octet limits >= 1", "why_tests_cant": "unbounded input domain; the unit tests try a handful of literals", "anchors": ["gsmmodem/pdu.py:unpackSeptets"]}
{"id": "C09", "title": "UCS-2 round-trips", "statement": "For every text of BMP characters encodeUcs2 gives two big-endian octets per character and decodeUcs2 restores the text, consuming exactly those octets; a text with any character above U+FFFF raises ValueError.", "quantifier": "all Unicode strings, all continuations of the octet stream", "why_tests_cant": "unbounded input domain; the unit tests try a handful of literals", "anchors": ["gsmmodem/pdu.py:encodeUcs2", "gsmmodem/pdu.py:decodeUcs2"]}
{"id": "C10", "title": "Relative validity period is rounded down, never up", "statement": "For every timedelta of at least 5 minutes and less than 442 days the encoded TP-VP octet denotes the longest representable period that does not exceed the requested one; encoding a decoded octet gives the same octet back for all 256 octets; a longer period raises ValueError, a shorter (or negative) one makes encodeSmsSubmitPdu raise ValueError.", "quantifier": "all timedeltas with microsecond resolution, all octets", "why_tests_cant": "infinitely many durations; boundaries between four encoding ranges", "anchors": ["gsmmodem/pdu.py:_encodeRelativeValidityPeriod", "gsmmodem/pdu.py:_decodeRelativeValidityPeriod"]}
{"id": "C11", "title": "Timestamps round-trip", "statement": "For every valid datetime of the years 1969-2068 with whole seconds and a UTC offset of k quarter hours, |k| < 80, decoding the 7 encoded octets yields the same date, time and offset and consumes exactly 7 octets. A naive datetime raises ValueError.", "quantifier": "all valid dates, times and offsets in the stated range, all continuations of the stream", "why_tests_cant": "about 5e11 values; calendar and sign-bit boundaries", "anchors": ["gsmmodem/pdu.py:_encodeTimestamp", "gsmmodem/pdu.py:_decodeTimestamp", "gsmmodem/pdu.py:SmsPduTzInfo"]}
{"id": "C12", "title": "Timestamp decoding never invents a date", "statement": "For every octet stream, decoding a timestamp either raises ValueError, or returns a datetime that denotes a real calendar date and time of day (month 1-12, day within the month, hour<24, ...) with a UTC offset that is a multiple of 15 minutes of at most 79 quarter hours either way.", "quantifier": "all octet streams, including malformed and truncated ones", "why_tests_cant": "unbounded input domain; the unit tests try a handful of literals", "anchors": ["gsmmodem/pdu.py:_decodeTimestamp", "gsmmodem/pdu.py:SmsPduTzInfo", "gsmmodem/pdu.py:decodeSemiOctets"]}
{"id": "C13", "title": "Phone numbers survive the address field", "statement": "For every national (digits) or international ('+' digits) number that fits (at most 255 digits), decoding the encoded destination address yields the same number and reports exactly the octets read; the same holds for the SMSC field.", "quantifier": "all numbers of any length, all continuations of the stream", "why_tests_cant": "unbounded input domain; the unit tests try a handful of literals", "anchors": ["gsmmodem/pdu.py:_encodeAddressField", "gsmmodem/pdu.py:_decodeAddressField"]}
{"id": "C14", "title": "Alphanumeric addresses survive the address field", "statement": "For every non-numeric address of GSM-7 characters without ESC that takes at most 145 septets, decoding the encoded address yields the same text (less a final '@' when the septets fill the last octet) and consumes exactly the field; the length octet is ceil(7n/4), plus one when n mod 8 is 4..7; longer addresses raise ValueError.", "quantifier": "all alphanumeric addresses", "why_tests_cant": "unbounded input domain; the unit tests try a handful of literals", "anchors": ["gsmmodem/pdu.py:_encodeAddressField", "gsmmodem/pdu.py:_decodeAddressField"]}
{"id": "C15", "title": "A single-part message decodes to what was sent", "statement": "For every number, non-empty text without ESC that fits one PDU, reference 0-255, validity and flags that encodeSmsSubmitPdu accepts, exactly one PDU results and decodeSmsPdu of it (as bytes or as hex string) returns type SMS-SUBMIT with the same number, reference, SMSC and validity (rounded as C10 says) and the same text; the single exception is a GSM-7 text whose final '@' ends on an octet boundary, which arrives without that '@'.", "quantifier": "all texts (GSM-7 or UCS-2), numbers, references, validity values, flag combinations", "why_tests_cant": "unbounded input domain; the unit tests try a handful of literals", "anchors": ["gsmmodem/pdu.py:encodeSmsSubmitPdu", "gsmmodem/pdu.py:decodeSmsPdu"]}
{"id": "C16", "title": "Concatenation headers number the parts 1..n", "statement": "When the text is too long for one PDU, every produced PDU carries a concatenation header with the same reference, the total number of PDUs produced, and its own 1-based position; part i carries characters [i*153,(i+1)*153) (GSM-7) or [i*67,(i+1)*67) (UCS-2).", "quantifier": "all texts longer than one PDU, all references", "why_tests_cant": "unbounded input domain; the unit tests try a handful of literals", "anchors": ["gsmmodem/pdu.py:encodeSmsSubmitPdu", "gsmmodem/pdu.py:Concatenation"]}
{"id": "C17", "title": "How much of a long text is transmitted", "statement": "The decoded parts joined in order are exactly the first n*153 (GSM-7) resp. n*67 (UCS-2) characters (less an '@' that ends a part on an octet boundary) where n = len div 160 + 1 resp. len div 70 + 1; hence the message arrives complete iff len <= 153n resp. 67n (the shortest truncated GSM-7 text has 307 characters, the shortest UCS-2 one 135; from 3520 GSM-7 resp. 1610 UCS-2 characters on every text is truncated).", "quantifier": "all texts of any length", "why_tests_cant": "length-dependent arithmetic defect invisible at the sample lengths", "anchors": ["gsmmodem/pdu.py:encodeSmsSubmitPdu", "gsmmodem/pdu.py:MAX_MESSAGE_LENGTH"]}
{"id": "C18", "title": "Every PDU respects the 140-octet user data limit", "statement": "Every UCS-2 PDU carries at most 140 octets of user data; a GSM-7 PDU does, and has TP-UDL at most 160, iff its characters take at most 160 septets (153 in a part of a concatenated message), which is always so for a text without extension-table characters and fails for some with them (two septets are counted as one character).", "quantifier": "all texts, all parts", "why_tests_cant": "unbounded input domain; the unit tests try a handful of literals", "anchors": ["gsmmodem/pdu.py:encodeSmsSubmitPdu"]}
{"id": "C19", "title": "Alphabet choice", "statement": "encodeSmsSubmitPdu uses the GSM-7 data coding when every character is GSM-7 encodable and UCS-2 when the first unencodable character is not U+00FF; when it is U+00FF the call fails with TypeError; sendFlash sets the class-0 bit in the data coding octet and changes nothing else, neither in the PDUs nor in which calls fail.", "quantifier": "all texts, both flash settings", "why_tests_cant": "unbounded input domain; the unit tests try a handful of literals", "anchors": ["gsmmodem/pdu.py:encodeSmsSubmitPdu"]}
{"id": "C20", "title": "Reported TPDU length", "statement": "The tpduLength of every produced PDU equals the number of octets after the SMSC field when no SMSC is given; when an SMSC number is given it exceeds the true TPDU length by exactly the SMSC field's size minus one octet.", "quantifier": "all inputs for which encoding succeeds", "why_tests_cant": "unbounded input domain; the unit tests try a handful of literals", "anchors": ["gsmmodem/pdu.py:encodeSmsSubmitPdu"]}
{"id": "C21", "title": "First octet flags", "statement": "The first TPDU octet of every produced PDU has message type SUBMIT and its reject-duplicates, validity-format, status-report and UDH bits set exactly according to the arguments, all other bits zero.", "quantifier": "all argument combinations", "why_tests_cant": "combination of independent flags with text-dependent UDH bit", "anchors": ["gsmmodem/pdu.py:encodeSmsSubmitPdu"]}
{"id": "C22", "title": "decodeSmsPdu on arbitrary input", "statement": "For every string argument decodeSmsPdu terminates and either returns a message whose type is given by the two low bits of the first TPDU octet or raises one of EncodingError, StopIteration, ValueError, IndexError, TypeError (each of them occurs, although the documentation promises only EncodingError); strings that are not an even number of hex digits, and message type 3, raise EncodingError.", "quantifier": "all strings and byte sequences, including malformed input from the network", "why_tests_cant": "adversarial input space", "anchors": ["gsmmodem/pdu.py:decodeSmsPdu"]}
{"id": "C23", "title": "Received messages decode to what the network sent", "statement": "For every well-formed SMS-DELIVER laid out as in 3GPP TS 23.040 (national/international/alphanumeric sender, non-empty GSM-7 or UCS-2 or 8-bit text, any timestamp, any user data header), decodeSmsPdu returns exactly the SMSC, sender, protocol id, time, header elements and text, except that a GSM-7 final '@' on an octet boundary is dropped and that C24 applies.", "quantifier": "all senders, timestamps, texts, headers", "why_tests_cant": "unbounded input domain; the unit tests try a handful of literals", "anchors": ["gsmmodem/pdu.py:decodeSmsPdu", "gsmmodem/pdu.py:_decodeUserData"]}
{"id": "C24", "title": "GSM-7 text after a user data header", "statement": "GSM-7 text following a UDH of length L decodes completely (up to the final-'@' exception) iff (L+1) is not a multiple of 7; when it is (e.g. the 6-octet header of a 16-bit-reference concatenated SMS) exactly the first septet is lost: the first character, or of an extension character its escape, so that another character appears in its place.", "quantifier": "all header lengths, all texts", "why_tests_cant": "modular arithmetic on the header length", "anchors": ["gsmmodem/pdu.py:_decodeUserData"]}
{"id": "C25", "title": "Status reports decode field by field", "statement": "For every SMS-STATUS-REPORT laid out as in 3GPP TS 23.040, decodeSmsPdu returns its reference, recipient, both timestamps and the status octet.", "quantifier": "all references, recipients, timestamps, status octets", "why_tests_cant": "unbounded input domain; the unit tests try a handful of literals", "anchors": ["gsmmodem/pdu.py:decodeSmsPdu"]}
{"id": "C26", "title": "Information elements round-trip", "statement": "Decoding the encoding of a concatenation element (8- or 16-bit reference), a port-address element (8- or 16-bit) or an unknown element yields an element with the same field values, consumes exactly its octets, and len() equals the number of octets.", "quantifier": "all field values in range, all unknown element ids and payloads, all continuations", "why_tests_cant": "unbounded input domain; the unit tests try a handful of literals", "anchors": ["gsmmodem/pdu.py:InformationElement", "gsmmodem/pdu.py:Concatenation", "gsmmodem/pdu.py:PortAddress"]}
{"id": "C27", "title": "Hex text form of a PDU", "statement": "str(pdu) is an upper-case hexadecimal string of twice the octet count, and decodeSmsPdu applied to it gives the same result as applied to the octets; lower-case hex is accepted equally.", "quantifier": "all octet sequences", "why_tests_cant": "unbounded input domain; the unit tests try a handful of literals", "anchors": ["gsmmodem/pdu.py:Pdu.__str__", "gsmmodem/pdu.py:decodeSmsPdu"]}
{"id": "C28", "title": "Text-mode time stamps", "statement": "For every well-formed text-mode time string yy/MM/dd,hh:mm:ss±zz with a real date the returned datetime has the given date and time, and its UTC offset is the given number of quarter hours truncated toward zero to whole hours, which is right iff the offset is a whole number of hours and otherwise up to 45 minutes off; a date that does not exist, and any other string that cannot be parsed, gives ValueError. Exactly these strings are accepted: numbers of month, day and time below ten may have one digit (a day also a space and a digit), and the last three characters are anything int() takes.", "quantifier": "all time strings with zone -99..+99", "why_tests_cant": "unbounded input domain; the unit tests try a handful of literals", "anchors": ["gsmmodem/util.py:parseTextModeTimeStr"]}
{"id": "C29", "title": "Line searches return the first match", "statement": "lineStartingWith / lineMatchingPattern return the first line of the list that qualifies and None iff none does; allLinesMatchingPattern returns all and only the qualifying lines in order.", "quantifier": "all line lists, all predicates/prefixes", "why_tests_cant": "unbounded input domain; the unit tests try a handful of literals", "anchors": ["gsmmodem/util.py:lineStartingWith", "gsmmodem/util.py:lineMatching", "gsmmodem/util.py:lineMatchingPattern", "gsmmodem/util.py:allLinesMatchingPattern"]}
{"id": "C30", "title": "Trie: a stored key can be read back", "statement": "After any history of insertions and deletions, inserting (k,v) makes trie[k] == v, and inserting never changes the value of any other key k' unless k is a proper prefix of k'. A present k' is lost (KeyError) exactly when k is a proper prefix of k' and the branches of the trie spell no more than len(k) characters of k'; then k' was the only key starting with k.", "quantifier": "all operation histories, all keys", "why_tests_cant": "history-dependent structure", "anchors": ["tools/gsmtermlib/trie.py:Trie.__setitem__", "tools/gsmtermlib/trie.py:Trie.__getitem__"]}
{"id": "C31", "title": "Trie: deletion", "statement": "After any history, deleting a present key removes exactly that key (every other key keeps its value); deleting an absent key raises KeyError and changes nothing.", "quantifier": "all operation histories, all keys", "why_tests_cant": "history-dependent structure", "anchors": ["tools/gsmtermlib/trie.py:Trie.__delitem__"]}
{"id": "C32", "title": "Trie: keys, len and contains agree", "statement": "After any history, keys() lists without repetition exactly the keys for which trie[k] succeeds, len() is their number, `in`/get agree with it, and keys(prefix) lists exactly those that start with the prefix.", "quantifier": "all operation histories, all prefixes", "why_tests_cant": "history-dependent structure", "anchors": ["tools/gsmtermlib/trie.py:Trie.keys", "tools/gsmtermlib/trie.py:Trie.__len__", "tools/gsmtermlib/trie.py:Trie._filteredKeys"]}
{"id": "C33", "title": "Trie refines a finite map on prefix-ordered insertions", "statement": "For every history in which no inserted key is a proper prefix of a key already present, all lookups, deletions and listings agree with an ordinary dictionary; without the restriction this is false (inserting 'AT' then 'A' loses 'AT').", "quantifier": "all operation histories", "why_tests_cant": "history-dependent structure", "anchors": ["tools/gsmtermlib/trie.py:Trie"]}
{"id": "C34", "title": "Trie: longest common prefix", "statement": "After any history, longestCommonPrefix(p) is a prefix of every key that starts with p, and is '' or starts with p. Without deletions it is exactly the longest common prefix of the keys that start with p ('' if there are none), except that it is '' whenever some stored key is a proper prefix of p. With deletions the same holds if every branch whose keys have all been deleted is counted as a stored key: such a branch spells a prefix of a deleted key, and no stored key goes along it.", "quantifier": "all histories of insertions and deletions, all prefixes", "why_tests_cant": "history-dependent structure", "anchors": ["tools/gsmtermlib/trie.py:Trie.longestCommonPrefix"]}
{"id": "C35", "title": "Serial framing", "statement": "However the bytes arrive, the read loop delivers exactly the non-empty CRLF-delimited segments of the input stream, in order and unmodified; bytes after the last CRLF stay buffered.", "quantifier": "all byte streams, all arrival patterns (timeouts between bytes)", "why_tests_cant": "unbounded streams", "anchors": ["gsmmodem/serial_comms.py:SerialComms._readLoop"]}
{"id": "C36", "title": "Every line goes to exactly one consumer", "statement": "Every line handed over is added either to the response of a write or to the notification buffer, never both, in order, and none is lost except the single line being handled when the read thread dies; the notifications handed to the callback, concatenated with the pending buffer, are exactly the lines added to the notification buffer, in order; a line handed over while no write is open goes to the notification buffer.", "quantifier": "all interleavings of lines, writes and inWaiting results", "why_tests_cant": "schedule-dependent", "anchors": ["gsmmodem/serial_comms.py:SerialComms._handleLineRead"]}
{"id": "C37", "title": "A response ends at the first final result line", "statement": "Without time-outs, a write that starts while no line is being handled returns exactly the lines handed over since it started, up to and including the first line recognised as final (or the expected prompt); a line is recognised as final iff it starts with OK or ERROR, or with +CME/+CMS ERROR: and a digit, or is COMMAND NOT SUPPORT (so a response line such as 'OKAY' ends a response early).", "quantifier": "all line sequences", "why_tests_cant": "unbounded input domain; the unit tests try a handful of literals", "anchors": ["gsmmodem/serial_comms.py:SerialComms.RESPONSE_TERM", "gsmmodem/serial_comms.py:SerialComms.write"]}
{"id": "C38", "title": "Writers never interleave", "statement": "For any number of threads calling write() and any schedule, at most one command is outstanding at a time, and each thread's command is put on the wire only while it holds the port.", "quantifier": "all numbers of threads, all schedules", "why_tests_cant": "scheduler nondeterminism", "anchors": ["gsmmodem/serial_comms.py:SerialComms.write"]}
{"id": "C39", "title": "No cross-talk between commands without timeouts", "statement": "For any number of threads and any schedule in which no write times out, the response returned to a write consists of the lines handed over after that write started, up to the first final one, preceded by at most one line that was being handled at that moment; that exception does occur in some schedule, and with time-outs the late answer to one command can be returned as the answer to the next.", "quantifier": "all schedules without timeouts", "why_tests_cant": "scheduler nondeterminism", "anchors": ["gsmmodem/serial_comms.py:SerialComms.write", "gsmmodem/serial_comms.py:SerialComms._handleLineRead"]}
{"id": "C40", "title": "The read thread survives", "statement": "The read thread does not die while the port works: violated - there are schedules without time-outs (a line handled between the waiter's wake-up and its clearing of the event or of the expected prompt) in which the read thread stops with AttributeError or TypeError; no other exception is possible; it cannot happen when a line is handled atomically with respect to writers; once dead, nothing is delivered any more and no later write returns.", "quantifier": "all schedules", "why_tests_cant": "scheduler nondeterminism", "anchors": ["gsmmodem/serial_comms.py:SerialComms._handleLineRead"]}
{"id": "C41", "title": "Errors become exceptions", "statement": "GsmModem.write with parseError=True never returns a response whose final line contains ERROR or is COMMAND NOT SUPPORT: CME/CMS codes give CmeError/CmsError with that code (PIN/PUK/SMSC-specific subclasses for 11, 16, 12, 330), anything else CommandError; with parseError=False it never raises CommandError.", "quantifier": "all modem responses", "why_tests_cant": "unbounded input domain; the unit tests try a handful of literals", "anchors": ["gsmmodem/modem.py:GsmModem.write", "gsmmodem/exceptions.py"]}
{"id": "C42", "title": "Busy modems are retried with the same command", "statement": "For any number of consecutive busy replies (codes 515 or 14) write re-sends the identical command each time and returns the outcome of the first non-busy reply; after success the extra delay is 0.1s or 0 according to the first busy code; after a failing retry the extra delay stays raised by 0.2s per retry.", "quantifier": "all sequences of busy replies of any length", "why_tests_cant": "unbounded retry histories", "anchors": ["gsmmodem/modem.py:GsmModem.write"]}
{"id": "C43", "title": "SMS reference counter stays a valid octet", "statement": "After any history of sendSms calls and any modem replies with non-negative references, the reference used for the next message is in 0..255, and is the modem's last reference plus one (0 after 255 or more).", "quantifier": "all histories of sends and modem replies", "why_tests_cant": "history-dependent", "anchors": ["gsmmodem/modem.py:GsmModem.sendSms"]}
{"id": "C44", "title": "sendSms transmits every part", "statement": "In PDU mode sendSms writes, for each PDU of the message in order, AT+CMGS=<tpdu length> and then the PDU's hex text ended by Ctrl-Z, and stops at the first error; it returns normally only if every part was answered without an error and the last answer contains a +CMGS: line.", "quantifier": "all messages, all modem reply histories", "why_tests_cant": "history-dependent", "anchors": ["gsmmodem/modem.py:GsmModem.sendSms"]}
{"id": "C45", "title": "Delivery status tracking", "statement": "After any history of sends and status reports, a sent message's status is ENROUTE iff no report with its reference has been handled while it was the holder of that reference (from its sending until the modem gives the reference to a later message), otherwise DELIVERED iff the latest such report's code is 0, else FAILED.", "quantifier": "all histories of sends and reports", "why_tests_cant": "history-dependent", "anchors": ["gsmmodem/modem.py:SentSms.status", "gsmmodem/modem.py:GsmModem._handleSmsStatusReport", "gsmmodem/modem.py:GsmModem.sendSms"]}
{"id": "C46", "title": "New-SMS notifications are processed exactly once", "statement": "Processing any sequence of +CMTI notifications one at a time, each readable message is handed to the callback exactly once, in order, after it was read from the indicated memory and index and deleted from there, and no other stored message is touched.", "quantifier": "all notification sequences, all storage contents, any initial memory selection", "why_tests_cant": "history-dependent", "anchors": ["gsmmodem/modem.py:GsmModem._handleSmsReceived", "gsmmodem/modem.py:GsmModem.readStoredSms", "gsmmodem/modem.py:GsmModem._setSmsMemory"]}
{"id": "C47", "title": "Concurrent notifications do not corrupt the message store", "statement": "Violated: two notifications for different memories handled by concurrent threads can interleave so that one thread deletes the other's unread message; it cannot happen when both use the same memory.", "quantifier": "all interleavings of two handler threads", "why_tests_cant": "scheduler nondeterminism", "anchors": ["gsmmodem/modem.py:GsmModem._handleSmsReceived", "gsmmodem/modem.py:GsmModem.deleteStoredSms"]}
{"id": "C48", "title": "Stored-message listing (PDU mode)", "statement": "For every AT+CMGL response made of well-formed entries, listStoredSms returns exactly one message per entry in order with that entry's index, status and decoded contents, and with delete=True deletes exactly the listed indices (everything when status is ALL).", "quantifier": "all listings of any length", "why_tests_cant": "unbounded input domain; the unit tests try a handful of literals", "anchors": ["gsmmodem/modem.py:GsmModem.listStoredSms"]}
{"id": "C49", "title": "Stored-message listing survives an undecodable entry", "statement": "Violated: after an entry whose PDU line is not hexadecimal the following message is returned under the earlier entry's index and status, and with delete=True the wrong message is deleted.", "quantifier": "all listings", "why_tests_cant": "unbounded input domain; the unit tests try a handful of literals", "anchors": ["gsmmodem/modem.py:GsmModem.listStoredSms"]}
{"id": "C50", "title": "Crash safety of message processing", "statement": "At every point of processing a +CMTI notification or processStoredSms, also when a later command fails or never returns, a message that has been passed to the callback has already been deleted from the cell it is attributed to (for listings see C49), and processStoredSms has deleted all messages of the listing before passing the first; a crash between deletion and callback loses them.", "quantifier": "all crash points, all message sets", "why_tests_cant": "crash points", "anchors": ["gsmmodem/modem.py:GsmModem._handleSmsReceived", "gsmmodem/modem.py:GsmModem.processStoredSms"]}
{"id": "C51", "title": "Active-call bookkeeping", "statement": "A call that ends is removed from activeCalls, marked inactive and unanswered, and no other call is affected; the status callback of the call that is answered or ends is called, once, and of no other; ids are unique among active calls as long as no call ends while a later one is active (otherwise a new call can overwrite an active one: violated).", "quantifier": "all histories of dial, incoming, answered and ended events", "why_tests_cant": "history-dependent", "anchors": ["gsmmodem/modem.py:GsmModem.dial", "gsmmodem/modem.py:GsmModem._handleIncomingCall", "gsmmodem/modem.py:GsmModem._handleCallEnded", "gsmmodem/modem.py:Call.hangup"]}
{"id": "C52", "title": "DTMF command text", "statement": "For every non-empty tone string without braces, sendDtmfTone on an answered call writes AT<base><t1>;<base><t2>;...;<base><tn>, one element per tone in order, and on a call that is not answered writes nothing and raises InvalidStateException.", "quantifier": "all tone strings", "why_tests_cant": "unbounded input domain; the unit tests try a handful of literals", "anchors": ["gsmmodem/modem.py:Call.sendDtmfTone"]}
{"id": "C53", "title": "The SIM PIN is submitted at most once per connect", "statement": "Whatever the modem answers, connect(pin) sends the PIN-entry command at most once apart from busy retries, never when the SIM reports READY, and never when no PIN was given (PinRequiredError instead).", "quantifier": "all modem behaviours (every reply history)", "why_tests_cant": "adversarial replies", "anchors": ["gsmmodem/modem.py:GsmModem.connect", "gsmmodem/modem.py:GsmModem._unlockSim"]}
{"id": "C54", "title": "waitForNetworkCoverage", "statement": "Whenever waitForNetworkCoverage returns, it returns the modem's last reported signal strength, which is positive, and the modem reported being registered (or did not give a parsable registration status); a denied or not-searching status raises InvalidStateException. If the timer fires first, TimeoutException is raised as soon as the round under way has ended without a signal, and no further command is sent; a signal found in a round that began before the timer fired is returned, however long that round takes (busy replies included).", "quantifier": "all reply histories of any length, all moments at which the timer fires", "why_tests_cant": "unbounded polling histories", "anchors": ["gsmmodem/modem.py:GsmModem.waitForNetworkCoverage", "gsmmodem/modem.py:GsmModem.signalStrength"]}
{"id": "C55", "title": "USSD response parsing", "statement": "For a response with one +CUSD item the message is the quoted text and the session is active iff the item's status is 1; for several items the message is that of the last item that is not a release (status 2) and the session is active iff every item has status 1; a line without the quoted form raises AttributeError.", "quantifier": "all item sequences and texts", "why_tests_cant": "unbounded input domain; the unit tests try a handful of literals", "anchors": ["gsmmodem/modem.py:GsmModem._parseCusdResponse"]}
{"id": "C56", "title": "Call status polling", "statement": "For every sequence of AT+CLCC replies the poller reports initiated, then answered, then ended, each at most once and in this order, and ends the call exactly when a reply without a call line arrives after initiation.", "quantifier": "all reply sequences", "why_tests_cant": "unbounded polling histories", "anchors": ["gsmmodem/modem.py:GsmModem._pollCallStatus"]}
{"id": "C57", "title": "Terminal line editor keeps its cursor inside the line", "statement": "After any sequence of key presses the cursor position is between 0 and the input length, the history position between 0 and the history length, and the history holds at most 100 entries; typing, deleting and cursor keys change the line exactly as a text cursor would.", "quantifier": "all key sequences", "why_tests_cant": "unbounded histories", "anchors": ["tools/gsmtermlib/terminal.py:GsmTerm"]}
{"id": "C58", "title": "Which calls encodeSmsSubmitPdu accepts", "statement": "encodeSmsSubmitPdu succeeds iff the text has a usable alphabet, the number (at most 255 digits, or 145 septets when alphanumeric) and SMSC (508 digits / 145 septets) fit, the reference is 0-255, the validity is absent, a period of 5 minutes to less than 442 days or an aware datetime, there are at most 255 parts, and each part fits: GSM-7 parts are at most 248 septets (a single non-empty GSM-7 message at most 255), UCS-2 texts contain no character outside the BMP in the transmitted part.", "quantifier": "all numbers, texts, references, validity values, SMSC numbers and flags", "why_tests_cant": "an exact acceptance condition over unbounded strings; tests sample a few accepted and a few rejected calls", "anchors": ["gsmmodem/pdu.py:238-355 encodeSmsSubmitPdu", "gsmmodem/pdu.py:573-619 _encodeAddressField"]}
{"id": "C59", "title": "Queries return what the modem reports", "statement": "signalStrength returns n exactly when the first line of the first non-busy answer to AT+CSQ is +CSQ: n,... (-1 for 99) and the answer is no error; networkName returns the quoted name of the first +COPS line, or None when there is none; smsc asks the modem until it tells a number and from then on returns that number without asking, and returns None when the modem says it is unknown (CMS error 330). manufacturer, model, imei and imsi return x exactly when x is the first line of the first non-busy answer and that answer is no error; revision likewise, and None exactly when the modem refuses. supportedCommands returns the commands listed in the answer to AT+CLAC (comma-separated in one line or one a line), None when it is refused or contains only the status. Each query sends its own command and nothing else.", "quantifier": "all reply sequences, all line contents", "why_tests_cant": "unbounded input domain and history-dependent caching; the unit tests try a handful of literals", "anchors": ["gsmmodem/modem.py:GsmModem.signalStrength", "gsmmodem/modem.py:GsmModem.networkName", "gsmmodem/modem.py:GsmModem.smsc", "gsmmodem/modem.py:GsmModem.revision", "gsmmodem/modem.py:GsmModem.supportedCommands", "gsmmodem/modem.py:GsmModem.imei"]}
{"id": "C60", "title": "Reading and deleting one stored message", "statement": "readStoredSms(index, memory) returns the message stored at that index of that memory (or, without a memory, of the selected one) and changes nothing; deleteStoredSms(index, memory) removes exactly that message; when either raises, nothing has been removed, and either the modem answered a command with an error or not in time or the message is unreadable. The memory is selected with one AT+CPMS command naming it, if it is not the one selected already, and counts as selected once that command has succeeded; _setSmsMemory with another memory for writing raises TypeError and sends nothing.", "quantifier": "all stores, indices, memories, reply histories with any number of busy replies, both message modes", "why_tests_cant": "depends on the modem's state and on the memory selected earlier", "anchors": ["gsmmodem/modem.py:GsmModem.readStoredSms", "gsmmodem/modem.py:GsmModem.deleteStoredSms", "gsmmodem/modem.py:GsmModem._setSmsMemory"]}
{"id": "C61", "title": "Stored-message listing (text mode)", "statement": "In text mode listStoredSms returns one message per header line, made of the lines up to the next header without those equal to OK, joined with line feeds, and with delete=True deletes exactly the returned ones; a message without remaining lines is neither returned nor deleted; an unknown status raises ValueError before anything is listed.", "quantifier": "all listings of any length", "why_tests_cant": "unbounded input domain; the unit tests try a handful of literals", "anchors": ["gsmmodem/modem.py:GsmModem.listStoredSms"]}
{"id": "C62", "title": "The service centre number survives connecting", "statement": "After a successful connect the service-centre number the object remembers is the one the modem had been told or had reported before the text-mode parameters (AT+CSMP) were set, and after the commands that follow AT+CSMP the modem has this number again, whatever AT+CSMP did to it; a number set before connecting is kept; no number is remembered only if the modem, asked before AT+CSMP, told none.", "quantifier": "all modem behaviours (every reply history), with and without a PIN or a number set beforehand", "why_tests_cant": "depends on the order of commands and replies over the whole connection sequence; the unit tests replay fixed scripts", "anchors": ["gsmmodem/modem.py:GsmModem.connect", "gsmmodem/modem.py:GsmModem.smsc"]}
{"id": "C63", "title": "USSD sessions", "statement": "sendUssd returns the response contained in the acknowledgement if there is one, raises the error of the command if it fails, and otherwise returns the response of the last +CUSD notification that could be read before it stopped waiting, or raises TimeoutException if there was none; afterwards nothing waits any more and further notifications are dropped. Ussd.reply does the same for an active session and raises InvalidStateException without sending anything otherwise; Ussd.cancel sends AT+CUSD=2 for an active session and nothing otherwise.", "quantifier": "all USSD strings, all reply histories, all sequences of notifications during the wait", "why_tests_cant": "interleaving of notifications with the waiting call", "anchors": ["gsmmodem/modem.py:GsmModem.sendUssd", "gsmmodem/modem.py:GsmModem._handleUssd", "gsmmodem/modem.py:Ussd.reply", "gsmmodem/modem.py:Ussd.cancel"]}
{"id": "C64", "title": "Dialling gives the call that the modem announced", "statement": "dial() writes ATD with the number and ';', and when that fails there is no new call and the modem no longer waits. When the modem does not announce calls, exactly one call is added, with the number of active calls plus one as id. When it does, then whatever is done and notified while dial() waits (incoming calls, SMS, hangups, other calls' ends), the call that dial() returns has the id and type of the last announcement (^ORIG, +WIND: 5, or the poller's), and without any announcement dial() raises TimeoutException and adds no call.", "quantifier": "all numbers, replies, and sequences of operations and notifications during the wait", "why_tests_cant": "unbounded interleavings of other events with the wait", "anchors": ["gsmmodem/modem.py:GsmModem.dial", "gsmmodem/modem.py:GsmModem._handleCallInitiated"]}
{"id": "C65", "title": "Incoming calls", "statement": "A notification with RING, wherever the line stands, leads to exactly one of: a new call with the number of the +CLIP line (second line, when caller identification is on), ringing, rung once, entered into the table, and given to the callback; one more ring of the incoming calls with this number, the last of which is given to the callback; KeyError and no change when the extended code is not VOICE; AttributeError and no callback when a call being dialled has this number. Extended codes are switched on again when missing, and given up when the modem refuses.", "quantifier": "all notifications, all tables of calls, all replies", "why_tests_cant": "all line contents and call tables", "anchors": ["gsmmodem/modem.py:GsmModem._handleIncomingCall", "gsmmodem/modem.py:IncomingCall.__init__"]}
{"id": "C66", "title": "The terminal's screen line agrees with its input line", "statement": "On a video terminal that obeys carriage return and the cursor control sequences, after any sequence of editing and history keys the current row shows the prompt followed by the input line followed by blanks only, with the screen cursor at the input cursor.", "quantifier": "all sequences of line-editing and history keys, all visible input lines and histories, coloured and plain prompts", "why_tests_cant": "unbounded key sequences and line lengths; the redraw is incremental, so an error shows up only after particular sequences", "anchors": ["tools/gsmtermlib/terminal.py:GsmTerm._refreshInputPrompt", "tools/gsmtermlib/terminal.py:GsmTerm._handleBackspace", "tools/gsmtermlib/terminal.py:GsmTerm._cursorUp"]}
{"id": "C67", "title": "TAB completes commands", "statement": "TAB takes the line without surrounding white space, in capitals. With no matching command it does nothing, unless the line ends in '=', when it shows the syntax of the command before it (and fails with KeyError if that is unknown); with one match it completes the line, or shows the syntax if it is complete; with several it replaces the line by the longest common prefix computed for the line as typed. Violated for users: a lower-case line with several matches is erased, and 'FOO=' TAB ends the terminal.", "quantifier": "all completion tables built by assignments and deletions, all lines and terminal states", "why_tests_cant": "unbounded tables and lines", "anchors": ["tools/gsmtermlib/terminal.py:GsmTerm._doCommandCompletion", "tools/gsmtermlib/trie.py:Trie.longestCommonPrefix"]}
{"id": "C68", "title": "Enter sends each command line once", "statement": "Outside message typing, Enter empties the line and appends it (trimmed) to the history of at most the last 100 lines. A line that is not a request for help, a listing, a file to load or AT+CMGS is written to the port exactly once followed by CR; blank lines, help and listings write nothing to the port; loading a file sends its commands (not blank, not comments), in order, each followed by CR; AT+CMGS is sent and opens message typing when the prompt arrives in time.", "quantifier": "all lines, histories, files and modem answers", "why_tests_cant": "unbounded lines, histories and files; the classification of lines has many overlapping prefixes", "anchors": ["tools/gsmtermlib/terminal.py:GsmTerm._doConfirmInput", "tools/gsmtermlib/terminal.py:GsmTerm._addToHistory"]}
{"id": "C69", "title": "Typing a message", "statement": "While a message is typed, the bytes sent to the port are exactly what the editing keys leave before the cursor at each Enter (the newlines themselves are not sent), then on Ctrl-Z the whole remaining line and Ctrl-Z; Esc sends only Esc. Outside message typing both keys do nothing.", "quantifier": "all key sequences of editing keys and Enter", "why_tests_cant": "unbounded key sequences with editing across sent parts", "anchors": ["tools/gsmtermlib/terminal.py:GsmTerm._doConfirmInput", "tools/gsmtermlib/terminal.py:GsmTerm._handleCtrlZ", "tools/gsmtermlib/terminal.py:GsmTerm._handleEsc"]}
{"id": "C70", "title": "The raw terminal passes keys through", "statement": "The raw terminal writes every key before the first Ctrl-] to the port, newline as carriage return, and echoes them; nothing after it.", "quantifier": "all key sequences", "why_tests_cant": "unbounded sequences", "anchors": ["tools/gsmtermlib/terminal.py:RawTerm._inputLoop"]}
{"id": "C71", "title": "The command table is complete and safe", "statement": "After start-up every command of the table is found in the completion trie with the help of its last entry, and no other. Asking for help about anything, or listing, never fails with that table; TAB fails only for an unknown command followed by '='. TAB on a line in capitals with several matches keeps what was typed, except that 'AT+CRE' is erased (because AT+CR is a command).", "quantifier": "all lines, all strings as command names", "why_tests_cant": "all possible lines and command names, not only those in the table; the trie can lose keys depending on insertion order", "anchors": ["tools/gsmtermlib/terminal.py:GsmTerm._initAtCommandsTrie", "tools/gsmtermlib/atcommands.py:ATCOMMANDS", "tools/gsmtermlib/terminal.py:GsmTerm._printCommandHelp"]}
{"id": "C72", "title": "connect configures what the modem supports", "statement": "When connect succeeds: the kind of modem (Huawei, Wavecom, ZTE or unknown) follows from the commands it lists, from its answer to AT+WIND? if it lists none, from its manufacturer or from AT+ZPAS?; the table of call updates, polling, the waiting for ATD and DTMF support are those of that kind (an unknown modem is polled); AT^CVOICE=0 and AT^USSDMODE=0 are sent exactly when listed; if +WIND is available its value is 50 afterwards. Caller numbers are expected exactly when AT+CLIP=1 was accepted, extended rings exactly when AT+CRC=1 was. Each message storage is set to the first of ME, SM, SR that the modem offers for it; messages are announced, and reading them is enabled, exactly when the storage could be set and AT+CNMI was accepted.", "quantifier": "all PINs, all states of the modem object, all reply histories", "why_tests_cant": "the product of all answers to some twenty commands; the tests use the tables of six devices", "anchors": ["gsmmodem/modem.py:GsmModem.connect", "gsmmodem/modem.py:GsmModem.supportedCommands"]}
{"id": "C73", "title": "smsTextMode is the modem's message mode", "statement": "After a successful connect the modem is in the mode that smsTextMode tells, whatever it was in before. Assigning smsTextMode sends AT+CMGF only if the value changes and the modem is connected, and keeps the old value if the command fails. Throughout any history of assignments the modem's mode is the one smsTextMode tells, unless a command is left without an answer.", "quantifier": "all reply histories, all sequences of assignments", "why_tests_cant": "histories of unbounded length with failures in between", "anchors": ["gsmmodem/modem.py:GsmModem.smsTextMode", "gsmmodem/modem.py:GsmModem.connect"]}
{"id": "C74", "title": "Waiting for a delivery report", "statement": "Violated: sendSms with waitForDeliveryReport should return when the report for the sent message has come. It returns exactly when any status report was handled during the wait, also one for another message, and otherwise raises TimeoutException, also when the report came before the wait began. A report is handed to the callback exactly when no sendSms waits at that moment.", "quantifier": "all messages, all sequences of notifications, reports and other sends during the wait, all reply histories", "why_tests_cant": "interleaving of notifications with the waiting call", "anchors": ["gsmmodem/modem.py:GsmModem.sendSms", "gsmmodem/modem.py:GsmModem._handleSmsStatusReport"]}
{"id": "C75", "title": "Closing the port and fatal errors", "statement": "Once close() has returned, nothing is read, sorted, passed on or written until the next connect(). After a SerialException in the read thread nothing more is read or passed on, the fatal error callback is called exactly once for it, and after that nothing is written. After alive has become False the read thread ends within a bounded number of its own steps and is never blocked, so that close() returns. Apart from failing writes and reconnecting, executions with close() and port errors are executions of the model without them, so C35-C40 hold of them.", "quantifier": "all schedules of the read thread, any number of writing threads and a thread that connects and closes; all inputs, all placements of port errors; any length", "why_tests_cant": "concurrency: the tests' mock port never fails and never closes at an awkward moment", "anchors": ["gsmmodem/serial_comms.py:SerialComms.close", "gsmmodem/serial_comms.py:SerialComms._readLoop", "gsmmodem/serial_comms.py:SerialComms.connect"]}
{"id": "C76", "title": "What an earlier connection leaves behind", "statement": "connect() after close() gives a clean object if no write ever failed, none is in progress and no notification is half read. Violated otherwise: the lines of a half-read notification are delivered together with the first notification of the next connection (no notification line is lost or reordered across connections); and after a write whose serial.write raised, notifications are swallowed, also after a reconnect, until another write starts or a line comes that would end a response.", "quantifier": "all schedules, inputs, placements of failing writes, closings and connects", "why_tests_cant": "needs port failures and reconnects at particular moments", "anchors": ["gsmmodem/serial_comms.py:SerialComms.connect", "gsmmodem/serial_comms.py:SerialComms.write"]}
{"id": "C77", "title": "sendsms.py as a whole", "statement": "Whatever the modem answers, sendsms.py announces a message only after the SIM is unlocked and the modem, registered, has reported a signal; the PIN is sent only while connecting, under C53's conditions. If the message is not sent, what is printed, the exit code and whether the modem is closed are determined by what failed (missing PIN, wrong PIN, no signal, time-out; anything else is an uncaught exception), and no message was announced except for a time-out or an error while transmitting; otherwise all parts were transmitted and the modem gave a reference. At the end the program says 'delivered OK' exactly when the last report for the message's reference has code 0, 'delivery failed' when it has another code, and 'Message sent.' without a report. Violated: with -d and no report in time it says that sending failed, although the modem took the message.", "quantifier": "all ports, PINs, destinations, texts, modem answers, timer behaviours and notifications handled meanwhile", "why_tests_cant": "the program has no tests; the claims relate the whole dialogue to the outcome", "anchors": ["tools/sendsms.py:main", "gsmmodem/modem.py:GsmModem.connect", "gsmmodem/modem.py:GsmModem.waitForNetworkCoverage", "gsmmodem/modem.py:GsmModem.sendSms"]}
{"id": "C78", "title": "identify-modem.py", "statement": "identify-modem.py prints what the modem said to AT+CGMI, AT+CGMM, AT+CGMR, AT+CGSN, AT+CIMI, AT+COPS? and AT+CSQ, asked in this order; the IMEI, the IMSI and a known revision are asked for twice and the second answer is printed; a modem that refuses AT+CGMR has revision 'N/A'. With -d it sends 14 commands once each, in order, and prints the answers as they are.", "quantifier": "all modem answers, with any number of busy replies", "why_tests_cant": "the program has no tests", "anchors": ["tools/identify-modem.py:main", "gsmmodem/modem.py:GsmModem.revision"]}
{"id": "C79", "title": "Calls of sendSms share the port", "statement": "Whatever other calls of sendSms and other commands do at the same time: a call that returns has had all parts of its message accepted by the modem, in order, and its object carries the number from the modem's last answer to this call; a call that raises has had a beginning of its parts accepted. The modem accepts a message only right after its announcement, with no other write between, and, unless it was busy there, it is the announcement of the same call. Violated: the lock covers single writes only. A command between announcement and message makes the call fail; two calls can make each other fail; in text mode with a modem that is busy after the announcement the text of one call goes to the number of another, and the call returns normally.", "quantifier": "all numbers of threads, all interleavings, messages, modes and modem answers", "why_tests_cant": "the outcome depends on the interleaving of several threads at two particular points", "anchors": ["gsmmodem/modem.py:GsmModem.sendSms", "gsmmodem/serial_comms.py:SerialComms.write"]}
{"id": "C80", "title": "Calls of sendSms and report handlers share the attributes", "statement": "The number for the next message stays in 0..255, except that it can be 256 while a call is between noting and putting it back. A call that waits for its report returns only after some report has been handled completely, and does return when a report is handled while it waits for the current event. Violated: in the moment of 256 another call raises without sending anything; two calls can use the same number for their messages; with two calls waiting, the report for the first one wakes the second one, which returns without a report, and the first times out; when a wait times out while the report is being handled, the handler raises AttributeError and no callback is called; when one wait ends while another call is about to wait, that call raises AttributeError although its message was sent; a report handled before the message is recorded is not attached to it.", "quantifier": "all numbers of threads, all interleavings at the granularity of single accesses to the attributes, messages, modes and modem answers", "why_tests_cant": "data races that need particular interleavings", "anchors": ["gsmmodem/modem.py:GsmModem.sendSms", "gsmmodem/modem.py:GsmModem._handleSmsStatusReport"]}
{"id": "C81", "title": "A message arrives at the other modem", "statement": "When sendSms to a phone number returns in PDU mode, every PDU transmitted is an SMS-SUBMIT addressed to that number and to no other. When the network hands such a part to a modem driven by this library (an SMS-DELIVER with the same user data, protocol, alphabet and header flag), handling the notification passes exactly one message to the callback, with the sender's number, the time and service centre of the network and the text of the part, up to a final '@' dropped by the decoder, and the message is removed from the store. All parts in order make up the text, if the parts have room for it and it has no '@'. Violated: the message objects carry nothing of the concatenation header, so parts with equal texts are indistinguishable, and no program that sees only these objects can put parts in order: any text of full parts, arriving in another order, gives the same objects as the text with its parts in that order.", "quantifier": "all phone numbers, texts without ESC, modem states and scripts of both modems, network times, service centres, senders and message stores", "why_tests_cant": "the tests never connect the sending to the receiving side; unbounded texts, numbers and device histories", "anchors": ["gsmmodem/modem.py:GsmModem.sendSms", "gsmmodem/pdu.py:encodeSmsSubmitPdu", "gsmmodem/pdu.py:decodeSmsPdu", "gsmmodem/modem.py:GsmModem._handleSmsReceived"]}
{"id": "C82", "title": "Replies go to the sender", "statement": "reply() to a message from a number in PDU mode transmits SMS-SUBMITs addressed to that number and to no other; forwarded by the network they are messages from the replying subscriber with the text given. The address field has the digits of the one received; an international number stays international, all others are sent as national numbers. In text mode the number received is quoted in AT+CMGS. Violated: numbers of unknown, network-specific or abbreviated type become national ones; a sender that is an alphanumeric text of digits gets a reply sent to the subscriber of that number; a reply to a message without an originating address goes to \"None\" in text mode, and raises an error of another kind in PDU mode with nothing written.", "quantifier": "all senders, messages, reply texts, modem states and scripts", "why_tests_cant": "depends on the type octet of the sender's address, which the tests do not vary; unbounded texts", "anchors": ["gsmmodem/modem.py:ReceivedSms.reply", "gsmmodem/modem.py:GsmModem.sendSms", "gsmmodem/pdu.py:_encodeAddressField", "gsmmodem/pdu.py:_decodeAddressField"]}
{"id": "C83", "title": "Message callbacks that fail or use the modem", "statement": "processStoredSms lists the messages of a status, deletes all of them and only then passes them one by one; each callback runs in the state the previous one left, the next listing uses the state the last one left, and the first callback that raises ends it with that exception. The handlers of +CMTI, +CDSI and RING call back last: the callback starts in the state that the handler leaves behind with a callback that does nothing, and its outcome is the outcome of the handler. Violated: the messages of the listing behind the one whose callback raised have been deleted and are never passed; with a callback that always raises at most one message is passed.", "quantifier": "all callbacks (any state change, any commands, any exception, any non-termination), modem states, notifications and modem answers", "why_tests_cant": "the tests' callbacks only record; the space of callback behaviours is unbounded", "anchors": ["gsmmodem/modem.py:GsmModem.processStoredSms", "gsmmodem/modem.py:GsmModem._handleSmsReceived", "gsmmodem/modem.py:GsmModem._handleSmsStatusReport", "gsmmodem/modem.py:GsmModem._handleIncomingCall"]}
{"id": "C84", "title": "Call status callbacks that fail or use calls", "statement": "Whatever the callbacks do with calls, nested in each other to any depth and also when they raise, the table holds active calls only, each under its own id and no id twice, and calls keep their ids. A status callback sees the new value of answered; for an answered call it is the last thing done. At the end of a call the callback runs while the call is still active and in the table; when it returns without touching calls the call is inactive and removed. Violated: when the callback for the end raises, the call stays active and in the table; a callback that hangs an unanswered active call up is called again by its own hangup(), one ATH each, until the recursion limit, and the call stays active; one that does so once makes the handler raise KeyError; one that dials again and gets the same id has the new call marked inactive and removed, and the old one stays active.", "quantifier": "all callbacks that use calls through dial, answer, hangup and notifications, all nestings, exceptions, tables of calls, ids, notifications and modem answers", "why_tests_cant": "reentrancy: needs callbacks that call the modem at particular moments, to unbounded depth", "anchors": ["gsmmodem/modem.py:Call.answered", "gsmmodem/modem.py:Call.hangup", "gsmmodem/modem.py:IncomingCall.answer", "gsmmodem/modem.py:GsmModem._handleCallEnded", "gsmmodem/modem.py:GsmModem._handleCallAnswered"]}
{"id": "C85", "title": "The example programs", "statement": "sms_handler_demo answers a received message with exactly one SMS-SUBMIT to its sender, from which the receiving modem reads 'SMS received: \"', the first 20 characters of the text (with '...' behind them if there are more) and '\"'. incoming_call_demo does nothing at the first ring; from the second on it answers, plays the tones and hangs up whatever became of the tones, or only hangs up when the modem cannot play tones. The callback of dial_callback_demo plays the tones to an answered call that is still active after its pause and hangs up, its nested call by hangup() only stops the waiting, and the nesting is never deeper than that. The loop of dial_polling_demo pauses while the call is active and unanswered, does the same once it is answered, and ends only with an inactive call. ussd_demo sends AT+CUSD=2 exactly when the answer leaves the session open. Violated: a caller who hangs up during the pause of incoming_call_demo makes its callback raise InvalidStateException; dial_callback_demo waits forever when ATH fails; sms_handler_demo raises AttributeError for a status report, and two of them answer each other for ever, with the same text from the third answer on.", "quantifier": "all messages, senders, modem answers and states, and everything other threads do to calls during the pauses (keeping the call, its id and whether it has a callback)", "why_tests_cant": "the examples have no tests; their behaviour depends on what happens during their pauses", "anchors": ["examples/sms_handler_demo.py:handleSms", "examples/incoming_call_demo.py:handleIncomingCall", "examples/dial_callback_demo.py:callStatusCallback", "examples/dial_polling_demo.py:main", "examples/ussd_demo.py:main"]}
{"id": "C86", "title": "Calls whose end is not noticed", "statement": "An active call becomes inactive only by hangup() on it, by a notification of its end (or, on modems that send these, of the refusal of a call), or by the poller; when none of these happens it stays in the table, whatever else is done with the modem, for any time. On a modem whose notifications about calls are not known there is only hangup() and the poller, which only dial() starts. Violated for incoming calls on such modems: a call the caller has ended stays active, the caller's next call is taken for another ring of it, with no new call object, and when it had been answered, answer() returns without sending anything, so that the new call is never answered.", "quantifier": "all tables of calls, all operations and notifications in any number and order, all modem answers", "why_tests_cant": "needs histories of arbitrary length between two calls, and modems without known notifications", "anchors": ["gsmmodem/modem.py:GsmModem._handleIncomingCall", "gsmmodem/modem.py:GsmModem._handleModemNotification", "gsmmodem/modem.py:GsmModem._handleCallEnded", "gsmmodem/modem.py:IncomingCall.answer"]}
{"id": "C87", "title": "Lines from the modem on the terminal's screen", "statement": "When lines arrive from the modem, gsmterm shows them in rows of their own, one each and complete, above the input line, in red if the last of them is ERROR and otherwise, also after +CME ERROR, in cyan (without colours: plain), and shows the prompt, the line and the cursor below as before; nothing is sent and line, cursor and history do not change. However keys and lines alternate, the screen's last row shows the prompt, the line and the cursor. The raw terminal shows the lines in rows of their own. Violated: lines that arrive while a message is typed replace the prompt of command lines by the first of them, for good; lines that arrive within the handling of the cursor-left key leave the screen's cursor one column left of where the next key acts.", "quantifier": "all printable lines in any number, all input lines, cursors, histories and prompts, all sequences of line-editing keys and lines", "why_tests_cant": "the screen must be computed from all escape sequences written so far, for every interleaving of keys and lines", "anchors": ["tools/gsmtermlib/terminal.py:GsmTerm._handleModemNotification", "tools/gsmtermlib/terminal.py:GsmTerm._refreshInputPrompt", "tools/gsmtermlib/terminal.py:GsmTerm._removeInputPrompt", "tools/gsmtermlib/terminal.py:GsmTerm._cursorLeft", "tools/gsmtermlib/terminal.py:RawTerm._handleModemNotification"]}
{"id": "C88", "title": "The end of the terminal", "statement": "Ctrl-] and Ctrl-D end gsmterm: no later key does anything, nothing more is sent, line and history stay as they are, and the port is closed exactly once. No other sequence of keys ends it, unless one of them raises an exception; then no later key does anything either, but the port is not closed. Keys other than newline, tab, the editing, history and message keys and printable characters do nothing at all.", "quantifier": "all sequences of keys, states of the terminal, files and completion data", "why_tests_cant": "all key sequences of any length, including those that load files which load files", "anchors": ["tools/gsmtermlib/terminal.py:GsmTerm._inputLoop", "tools/gsmtermlib/terminal.py:GsmTerm._exit", "tools/gsmtermlib/terminal.py:RawTerm.stop"]}
{"id": "C89", "title": "Why connecting fails", "statement": "When GsmModem.connect raises an exception, the answer to the last command it sent tells why. Either that command failed (timeout or error answer, raised as write raises it) and it is none of those connect does without when refused (CFUN, CLAC, CVOICE, USSDMODE, WIND?, ZPAS?, COPS=3,0, CSMP, CPMS=?, CNMI, CLIP, CRC, CVHU), nor the first ATZ; or the SIM is not ready and no PIN was given (PinRequiredError); or the modem said OK to AT+CFUN?, AT+WIND? or AT+CPMS=? without the line asked for or without a number in it. In the last case connect raises TypeError, ValueError, AttributeError or IndexError, none of which belongs to the library's exceptions (violates: such a modem should be treated as one that does not support the command).", "quantifier": "all modems (answers of any kind to every command), PINs and settings of the GsmModem object", "why_tests_cant": "any combination of answers to some twenty commands", "anchors": ["gsmmodem/modem.py:GsmModem.connect", "gsmmodem/modem.py:GsmModem._unlockSim", "gsmmodem/modem.py:GsmModem.write", "gsmmodem/util.py:lineStartingWith"]}
{"id": "C90", "title": "Every command gets its own answer", "statement": "With a modem at the other end of the port that answers each command after it was sent (lines and blank lines, at the end a final result line, or the prompt if the command asks for one), characters delayed arbitrarily, any number of threads writing and no time-outs: the responses that write() returns are, in order, the modem's answers to the commands in order, each to the thread that sent the command. Lines that the modem sends unasked in between (none of them a final result line or containing the prompt) become part of a response or notifications, each exactly once and in order; no line of an answer becomes a notification. If the modem sends nothing unasked, every response is exactly the answer and the read thread never dies. Once the modem has sent its answer and the read thread, which makes at most ten steps for each character, has read everything, write() returns.", "quantifier": "all modems, answers, unsolicited lines, numbers of threads, commands with and without prompt, and interleavings of the modem, the read thread and the writers", "why_tests_cant": "all interleavings at the level of single characters and attribute accesses", "anchors": ["gsmmodem/serial_comms.py:SerialComms.write", "gsmmodem/serial_comms.py:SerialComms._readLoop", "gsmmodem/serial_comms.py:SerialComms._handleLineRead"]}
{"id": "C91", "title": "Calls of sendUssd and USSD handlers share the attributes", "statement": "Whatever other calls and notifications do at the same time: a call of sendUssd that ends has failed to send its command, has returned the response in its own acknowledgement, has returned the response stored last, which a notification brought, has given up waiting, or has raised AttributeError for want of an Event; it never returns None. A call whose Event is set while it waits returns a response. The only call, begun while no notification is being handled, returns a response that came since it began, times out only if no handler has set the Event before, and leaves no Event behind; nor do any number of calls once all have ended. A handler raises only when it cannot read the notification or the Event has gone since it looked. Violated: a waiting call can only time out once another call has begun; the one response goes to the other call, or to both; after a time-out the next call can return the response that came for the one before; a call whose string was sent raises AttributeError when another one fails.", "quantifier": "all numbers of threads, all interleavings at the granularity of single accesses to the attributes, all outcomes of the commands, all notifications, at any time", "why_tests_cant": "data races that need particular interleavings", "anchors": ["gsmmodem/modem.py:GsmModem.sendUssd", "gsmmodem/modem.py:GsmModem._handleUssd"]}
{"id": "C92", "title": "Calls of dial and announcements share the attributes", "statement": "Whatever other calls and notifications do at the same time: a dial that waits for the announcement of its call and ends has failed to send its command, has returned a call with the id and type stored last, which a notification brought, has given up waiting, or has raised AttributeError for want of an Event. A dial whose Event is set while it waits returns a call. The only dial, begun while no notification is being handled, returns a call announced since it began, enters it under its id and nothing else, times out only if no handler has set the Event before, in which case nothing is entered, and leaves no Event behind. Violated: a waiting dial can only time out once another one has begun, and its announcement goes to the other, whose call has the wrong id; two dials can return calls with the same id, of which only one is entered; after a time-out the next dial can return with the id of the call before; a dial whose command was sent raises AttributeError when another one fails.", "quantifier": "all numbers of threads, all interleavings at the granularity of single accesses to the attributes, all outcomes of the commands, all notifications, at any time", "why_tests_cant": "data races that need particular interleavings", "anchors": ["gsmmodem/modem.py:GsmModem.dial", "gsmmodem/modem.py:GsmModem._handleCallInitiated"]}
{"id": "C93", "title": "The table of active calls and several threads", "statement": "Whatever notification handlers and calls of dial, answer and hangup run at the same time: calls are listed in activeCalls under their own ids, no id twice; a call keeps its id, number, kind and callback, never becomes active again, and never comes back into the table. A hangup whose command succeeds leaves its call inactive and out of the table; a handler that finds the call that has ended leaves it out of the table; either raises KeyError only if another thread has removed what is under the id after it was found. A handler of RING that ends normally has told the callback exactly once, of a call of this caller, and otherwise not at all; dial returns the call it has entered. A thread that has not ended can always go on, and one without a loop over the table makes at most seven steps. When ids are given only while neither in use nor about to be removed, every active call is in the table at every moment, only active calls are once the threads have ended, and a call whose end was handled is inactive. Violated: hangup, or the handler, raises KeyError when the other comes in between; two RINGs of a new caller make two calls of one id, one not in the table; a RING is lost with RuntimeError when a call ends meanwhile; a call that is over becomes answered; ringCount loses a ring; two calls dialled at once get one id; hangup of one call removes another from the table.", "quantifier": "all numbers of threads, all interleavings at the granularity of single accesses to the dict and to attributes of calls, all outcomes of commands, all tables, all iteration orders of a dict changed within a loop", "why_tests_cant": "data races that need particular interleavings; the notification threads are started by the library itself", "anchors": ["gsmmodem/modem.py:GsmModem._handleIncomingCall", "gsmmodem/modem.py:GsmModem._handleCallAnswered", "gsmmodem/modem.py:GsmModem._handleCallEnded", "gsmmodem/modem.py:GsmModem.dial", "gsmmodem/modem.py:Call.hangup", "gsmmodem/modem.py:IncomingCall.answer", "gsmmodem/modem.py:IncomingCall.hangup"]}
{"id": "C94", "title": "Collecting stored messages beside notifications", "statement": "Whatever handlers of notifications (+CMTI, and +CDSI up to its deletion) and calls of processStoredSms or listStoredSms (with deletion) run at the same time, the arrivals and the removals explain the contents of the store. With one memory and readable messages, and no listing of ALL: if the modem does not reuse an index that a thread is still going to delete, every removed message is given to the application, or is held by a thread that is still going to give it, or was held by one that failed, and nothing else is ever given than messages that were stored or arrived; if moreover only one thread at a time is between reading and deleting, each is given exactly once. Violated without these conditions: a message is given twice, by its handler and by processStoredSms; a message that arrives at an index about to be deleted is deleted unread, while the earlier one is given twice; when a handler selects another memory between the listing and the deletion, a message of that memory is deleted unread and the listed one stays.", "quantifier": "all numbers of threads, all interleavings between attempts at commands and around the shared attribute, all replies including busy ones and errors, all changes of message status by the modem, all messages, indices and statuses, both message modes", "why_tests_cant": "races between the application's thread and the threads of notifications, which need particular interleavings with a modem whose store changes", "anchors": ["gsmmodem/modem.py:GsmModem.processStoredSms", "gsmmodem/modem.py:GsmModem.listStoredSms", "gsmmodem/modem.py:GsmModem.deleteStoredSms", "gsmmodem/modem.py:GsmModem.deleteMultipleStoredSms", "gsmmodem/modem.py:GsmModem._setSmsMemory", "gsmmodem/modem.py:GsmModem._handleSmsReceived", "gsmmodem/modem.py:GsmModem._handleSmsStatusReport"]}
{"id": "C95", "title": "Listing all messages with deletion loses none", "statement": "Violated: a message that arrives between the AT+CMGL of listStoredSms(status=ALL, delete=True) and its AT+CMGD=1,4 is removed without being returned, and the handler of its notification fails because it is gone. These are the only ones: whatever other threads do in between, a message that AT+CMGD=1,4 removes from the listed memory is among those returned or arrived after the listing.", "quantifier": "all messages, indices and memories, both message modes, any number of other threads and everything they do between the two commands", "why_tests_cant": "the window between two commands; a mock modem whose store does not change never shows it", "anchors": ["gsmmodem/modem.py:GsmModem.listStoredSms", "gsmmodem/modem.py:GsmModem.deleteStoredSms", "gsmmodem/modem.py:GsmModem.deleteMultipleStoredSms"]}
{"id": "C96", "title": "The modem's errors as exceptions", "statement": "For every command and number n, the exception raised for +CME ERROR: n or +CMS ERROR: n carries the command, the type (CME or CMS) and n as command, type and code, and its text is the type and the number, with a remark for CME 11, 12, 16 and CMS 330; two such texts are equal only for the same type and number. except CommandError and except CmeError (CmsError) catch it, SecurityException exactly for CME 11, 12, 16, PinRequiredError, PukRequiredError, IncorrectPinError and SmscNumberUnknownError exactly for their own number, and no other class of the library does. The classes with a number of their own need no number; constructed with a number, any class of a family gives an object of the class of that number, if it has one, and of itself otherwise, and a wrong number of arguments is a TypeError, except when the object is of another class than the called one. except CommandError catches the refusals of the modem and nothing else that write raises. TimeoutException and InterruptedException carry their data and cause, the latter with its message as text (None as 'None').", "quantifier": "all commands, all numbers, all classes, all lists of positional arguments, all replies", "why_tests_cant": "the class of the object depends on the number through __new__ and on whether __init__ runs again; all numbers, classes and argument lists are infinitely many cases", "anchors": ["gsmmodem/exceptions.py:CommandError.__init__", "gsmmodem/exceptions.py:CmeError.__new__", "gsmmodem/exceptions.py:CmeError.__init__", "gsmmodem/exceptions.py:SecurityException", "gsmmodem/exceptions.py:PinRequiredError", "gsmmodem/exceptions.py:IncorrectPinError", "gsmmodem/exceptions.py:PukRequiredError", "gsmmodem/exceptions.py:CmsError.__new__", "gsmmodem/exceptions.py:SmscNumberUnknownError", "gsmmodem/exceptions.py:TimeoutException", "gsmmodem/exceptions.py:InterruptedException", "gsmmodem/modem.py:GsmModem.write"]}
{"id": "C97", "title": "Several modems in one process", "statement": "Violated for DTMF tones: Call.DTMF_COMMAND_BASE and Call.dtmfSupport belong to all modems, change only when some modem is connected, are never set back, and DTMF_COMMAND_BASE is the Huawei one as soon as any of the connected modems was taken for a Huawei modem; every modem's tones then go out as AT^DTMF=. Nothing else crosses: in every history of several modems, taking away everything the other modems did leaves a history of one modem with the same results and the same events, and the modem in the same state, provided that the modem sends no tones or that no other modem is connected in between.", "quantifier": "any number of modems, all interleavings of their methods and notification handlers, all arguments, all modem replies", "why_tests_cant": "tests use one modem at a time and reset the class attributes by hand between tests; interleavings of several modems are unbounded", "anchors": ["gsmmodem/modem.py:Call.DTMF_COMMAND_BASE", "gsmmodem/modem.py:Call.dtmfSupport", "gsmmodem/modem.py:GsmModem.connect", "gsmmodem/modem.py:Call.sendDtmfTone"]}
{"id": "C98", "title": "Nobody keeps the port", "statement": "A thread holds the port's lock exactly while it is in a call of write(). The holder is never blocked, except that it waits for an answer, and then the time-out lets it go on; any thread can take a free port. Whatever the other threads do, whether the read thread is alive, has ended or died, the port is open, closed or failing, the holder has given the port back after at most ten of its own steps. Every call that starts waiting for an answer has exactly one outcome: the response, TimeoutException, or the exception of serial.write.", "quantifier": "all numbers of threads, all schedules of the read thread, the writers and a thread that connects and closes, all inputs, all placements of port errors and time-outs", "why_tests_cant": "deadlocks depend on the schedule and on errors at particular moments; the schedules are unbounded", "anchors": ["gsmmodem/serial_comms.py:SerialComms.write", "gsmmodem/serial_comms.py:SerialComms._readLoop", "gsmmodem/serial_comms.py:SerialComms.close"]}
{"id": "C99", "title": "Python 3: a port that delivers bytes", "statement": "Violated on Python 3, where pyserial's read() returns bytes objects: whatever the modem sends, with or without an expected prompt, the read loop hands nothing over and raises nothing, and rxBuffer grows by one element with every read, also with those that time out. In every schedule of any number of threads, a write() that waits for an answer therefore ends with a TimeoutException without data, no notification is passed on, and connect() fails at its first command. With a port that delivers strings the loop is the one that C35-C40 describe; a bytes object among the strings ends the read thread with a TypeError at the end of its line.", "quantifier": "all inputs, all values of the expected prompt at each iteration, all schedules and numbers of threads", "why_tests_cant": "the tests replace the port by one that delivers strings", "anchors": ["gsmmodem/serial_comms.py:SerialComms._readLoop", "gsmmodem/serial_comms.py:SerialComms.write", "gsmmodem/modem.py:GsmModem.connect"]}
{"id": "C100", "title": "Iterating over a trie sees the keys of its beginning", "statement": "An iteration over a trie gives exactly the keys stored when its first step is made, each once, whatever is inserted or deleted between its steps; the step after the last key raises RuntimeError on Python 3.7 and later (so every for loop over a trie that is not left early raises) and StopIteration before; all later steps raise StopIteration.", "quantifier": "all histories before the iteration, all interleavings of its steps with insertions and deletions, both kinds of Python", "why_tests_cant": "the interleavings and histories are unbounded; the tests never iterate over a trie", "anchors": ["tools/gsmtermlib/trie.py:Trie.__iter__"]}
{"id": "C101", "title": "Arguments stay arguments, or become commands", "statement": "With arguments free of carriage returns and double quotes (unquoted ones also of semicolons), every text that sendUssd, dial, the smsc setter, reading, listing and deleting stored messages, sendDtmfTone, connect and the handlers of notifications put on the wire is, read as a modem reads it, exactly the one command the method gives, with the argument intact (for tones one command each); a text-mode message free of Ctrl-Z and escape is the message, and no command if it has no carriage return. In PDU mode nothing in the number or text of sendSms, whatever they are, becomes a command. Nothing is checked or escaped: for every command there is an argument of sendUssd, dial, smsc, connect's PIN, and of sendSms' number and text in text mode with which the modem carries it out.", "quantifier": "all arguments, modem states and replies, including busy replies and retries; all smuggled commands", "why_tests_cant": "arguments and replies are unbounded; the tests compare the written text with a format string and never read it as a modem does", "anchors": ["gsmmodem/modem.py:GsmModem.sendUssd", "gsmmodem/modem.py:GsmModem.dial", "gsmmodem/modem.py:GsmModem.sendSms", "gsmmodem/modem.py:GsmModem.smsc", "gsmmodem/modem.py:GsmModem._unlockSim", "gsmmodem/modem.py:GsmModem.readStoredSms", "gsmmodem/modem.py:GsmModem.deleteStoredSms", "gsmmodem/modem.py:Call.sendDtmfTone"]}
{"id": "C102", "title": "Messages without a sender, or without a text", "statement": "Violated: an originating or recipient address without digits is a length 0 and a type-of-address octet, but decodeSmsPdu does not read the latter. A message (or status report) with such an address raises ValueError unless its year ends in 01 to 12 and its day is at most 23; otherwise, if it is decoded at all, its time is read one field late (the month is the year, the day the month, ...). A received message in the default alphabet with an empty text raises TypeError, with only a user data header StopIteration. None of these is the documented EncodingError, so that one such stored message makes listStoredSms raise it, without deleting or returning any message, processStoredSms hand over nothing, every time, and its own notification is not handed over.", "quantifier": "all service centres, first octets, types of address, protocol identifiers, codings, times and user data; all listings, replies and states of the modem", "why_tests_cant": "the decoder's inputs are unbounded, and the tests contain no message without sender or text", "anchors": ["gsmmodem/pdu.py:_decodeAddressField", "gsmmodem/pdu.py:decodeSmsPdu", "gsmmodem/pdu.py:unpackSeptets", "gsmmodem/modem.py:GsmModem.listStoredSms", "gsmmodem/modem.py:GsmModem.processStoredSms", "gsmmodem/modem.py:GsmModem._handleSmsReceived"]}
{"id": "C103", "title": "Timestamps that are cut short or filled", "statement": "Exactly these octets are read as a timestamp: the semi-octets of seven octets, or fewer if the octets end or a filler F in an upper half ends the field; the last two are the zone, the others two digits of the year and then month, day, hour, minute and second of one or two digits each, wide numbers first, using up all of them. Seven octets without a filler are read as the standard says or rejected with ValueError. But every timestamp without its last octet is read as another one (hh:mn becomes hh:0m:0n, the seconds become the zone), and with a zone octet of a digit and a filler too (the first digit of the seconds becomes the seconds, the second one the tens of the zone), so that such a message is received with a wrong time and everything else right.", "quantifier": "all octet streams; all timestamps; all service centres, senders, codings, headers and texts", "why_tests_cant": "2^56 fields and all shorter ones; the tests decode a handful of whole timestamps", "anchors": ["gsmmodem/pdu.py:_decodeTimestamp", "gsmmodem/pdu.py:decodeSemiOctets", "gsmmodem/pdu.py:SmsPduTzInfo", "gsmmodem/pdu.py:decodeSmsPdu"]}
{"id": "C104", "title": "The parts of a long message: their reference and their tracking", "statement": "In PDU mode every part of a long message that the device took carries a concatenation header with the number that the modem object had at the beginning of the call, the number of parts and its position. If the device numbers what it takes consecutively modulo 256 and all calls returned, two long messages less than 256 parts apart (after the first message) have different references. Violated: after a call that failed, also one of which parts were taken, the next long message has the same reference, so that the receiver gets parts of two messages with the same reference and positions. The message is tracked by the device's number for its last part only: its status is ENROUTE, DELIVERED or FAILED according to the reports for that number whatever becomes of the other parts, and the report for another part becomes the status of an earlier message that still has this number.", "quantifier": "all destinations, long texts, histories of calls of sendSms that return, fail or hang, all answers of the device, all later reports", "why_tests_cant": "needs histories of several calls with failures in the middle of a message and the number wrapping at 256; the tests send one message at a time", "anchors": ["gsmmodem/modem.py:sendSms", "gsmmodem/modem.py:_handleSmsStatusReport", "gsmmodem/pdu.py:encodeSmsSubmitPdu"]}
{"id": "C105", "title": "Texts that look like answers", "statement": "In text mode the answers to AT+CMGR and AT+CMGL contain texts that others wrote. The response to AT+CMGR is the header, the lines of the text and OK if no line of the text looks like a final result; otherwise it ends at the first such line. Violated, with such a line: if it starts with OK (such as 'OKAY?'), the message is handed out with the lines before only, and deleted; if it is an error, reading raises and the message is neither handed out nor deleted; if it says busy (+CMS ERROR: 515 or 14), the program asks for the message again without end. The rest of the text can be delivered as a notification, where a line such as +CMTI is treated exactly like the modem's own; or it is returned as the response to the next command, and then every later command, for any number of them, gets the answer to the one before it. In a listing, a line of a text that looks like the header of an entry makes a forged message and has the message of that index deleted; a listing of all messages that is cut off returns part of them and deletes all.", "quantifier": "all texts and headers, all executions of the port without time-outs in which the lines are handed over, all numbers of later commands and answers, all states of the modem object", "why_tests_cant": "the dangerous texts depend on the final-line pattern, and the shifted answers on how the characters interleave with the next command; the tests use harmless texts and one command at a time", "anchors": ["gsmmodem/serial_comms.py:_handleLineRead", "gsmmodem/serial_comms.py:write", "gsmmodem/modem.py:readStoredSms", "gsmmodem/modem.py:listStoredSms", "gsmmodem/modem.py:_handleSmsReceived", "gsmmodem/modem.py:__threadedHandleModemNotification", "gsmmodem/modem.py:write"]}
{"id": "C106", "title": "Data coding schemes", "statement": "A message whose data coding scheme is in the general group (0-63), with or without a message class, or stands for the default alphabet in any group, is received with its sender, time, header and text, as in C23. Violated: with every data coding scheme from 64 on the message is treated exactly as with scheme 0, so that a UCS-2 text announced by such a scheme (marked for automatic deletion 0x48, message waiting 0xE0, ...) never arrives as that text unless it begins with '@'; and the compression bit is ignored: the result is that of the scheme without it.", "quantifier": "all 256 data coding schemes, all service centres, senders, times, headers and texts", "why_tests_cant": "the tests use a handful of data coding schemes, all of them below 64", "anchors": ["gsmmodem/pdu.py:_decodeDataCoding", "gsmmodem/pdu.py:decodeSmsPdu", "gsmmodem/pdu.py:_decodeUserData"]}
{"id": "C107", "title": "Stored SMS-SUBMITs", "statement": "An SMS-SUBMIT as the standard writes it, with no, a relative or an absolute validity period, any reference, destination, header and text, is decoded into exactly these fields. Violated for the enhanced format of the validity period: its seven octets are not skipped; the message is decoded as one without validity period whose user data length is the first of these octets and whose user data are the others, the true length and the true user data; with octets for a text these are the text.", "quantifier": "all SMS-SUBMIT PDUs: all first octets, references, destinations, data coding schemes, validity periods, headers and texts", "why_tests_cant": "unbounded domain; the tests decode what the encoder wrote, which never uses the enhanced format", "anchors": ["gsmmodem/pdu.py:decodeSmsPdu", "gsmmodem/pdu.py:_decodeRelativeValidityPeriod", "gsmmodem/pdu.py:_decodeTimestamp"]}
{"id": "C108", "title": "Star, hash and letters in addresses", "statement": "The codes 10 to 14 of an address, which stand for * # a b c, are handed out as a b c d e, so that the number a message came from is right exactly if it has decimal digits only ('*100#' comes out as 'a100b'). A number that contains * or # is sent as an alphanumeric address in every part of the message.", "quantifier": "all sequences of codes 0-14 of every length, all other fields of the message; all destinations with a star or a hash, all texts and options", "why_tests_cant": "the tests use decimal numbers", "anchors": ["gsmmodem/pdu.py:_decodeAddressField", "gsmmodem/pdu.py:decodeSemiOctets", "gsmmodem/pdu.py:_encodeAddressField", "gsmmodem/pdu.py:encodeSmsSubmitPdu"]}
{"id": "C109", "title": "Escapes in received texts", "statement": "Every sequence of septets is either read, by a rule stated on its own, or ends in an escape to nothing and raises StopIteration. It is read as the standard asks of receivers exactly if every escape is followed by a code of the extension table other than the form feed and there is no section sign: after any other escape the character is lost where the standard shows it from the default alphabet (or a space for two escapes). A message whose text ends in a lone escape cannot be decoded: decodeSmsPdu raises StopIteration.", "quantifier": "all sequences of septets of every length; all fields of the message", "why_tests_cant": "128^n texts; the tests decode texts that the encoder wrote", "anchors": ["gsmmodem/pdu.py:decodeGsm7", "gsmmodem/pdu.py:unpackSeptets", "gsmmodem/pdu.py:_decodeUserData", "gsmmodem/pdu.py:decodeSmsPdu"]}
{"id": "C110", "title": "Octets behind the user data", "statement": "The user data length does not bound what is read. In a message of octets the text is everything up to the end of the PDU, whatever the length says. In UCS-2 the text is followed by what lies behind it for as many octets as the header has (rounded up to characters), so without a header by nothing. In the default alphabet without header a text of up to seven septets is read as sent; a longer one is followed by at least one more character, or raises StopIteration, if anything lies behind it: as many octets as the text has septets are unpacked, and the additional septets are the bits behind the text.", "quantifier": "all messages, texts and octets behind them", "why_tests_cant": "the tests have no PDU with octets behind the user data", "anchors": ["gsmmodem/pdu.py:_decodeUserData", "gsmmodem/pdu.py:unpackSeptets", "gsmmodem/pdu.py:decodeUcs2", "gsmmodem/pdu.py:decodeSmsPdu"]}
{"id": "C111", "title": "Connecting twice", "statement": "If connect() is called only when no read thread runs, connecting and closing behave as in C75 and C76. Violated otherwise, for instance when connect() is called again after it raised (PinRequiredError, an error or a time-out leave the port open and the thread running): the threads share the port, each character goes to one of them, and each makes lines of its own characters. So for every answer and every choice of characters, the response returned can lack these characters (the digits of a number, for instance), and every command can time out whatever the modem answers. close() waits for the newest thread only: an older one can call the fatal error callback or deliver a notification after close() has returned; each makes at most 13 more steps.", "quantifier": "all executions with any number of calls of connect, read threads and writing threads; all commands, answers and distributions of their characters", "why_tests_cant": "needs two read threads racing for single characters; the tests never connect twice", "anchors": ["gsmmodem/serial_comms.py:SerialComms.connect", "gsmmodem/serial_comms.py:SerialComms.close", "gsmmodem/serial_comms.py:SerialComms._readLoop", "gsmmodem/modem.py:GsmModem.connect"]}
{"id": "C112", "title": "Sent messages that nobody refers to", "statement": "modem.sentSms holds its messages weakly. A message that the application keeps is not destroyed, and its report is the one stored in it last; without a KeyError everything an observer sees, and the reports of all messages that still exist, are as if no message were ever destroyed. A report is passed on exactly once (to the waiting sendSms or to the callback), having been stored in a message with its reference or in none; after a reference has been used again, later reports do not reach the older message, even if the newer one is gone. The dictionary never has more entries than there are messages in existence. Violated: if a message is destroyed between the handler's test and its access (for instance when sendSms gives up waiting while its report is handled), the handler raises KeyError and the report is neither signalled nor given to the callback; this is the only way.", "quantifier": "all executions: any number of messages with any references, handlers of reports, and any moments at which objects are dropped and destroyed", "why_tests_cant": "depends on garbage collection between two byte codes of the handler; the tests keep their messages", "anchors": ["gsmmodem/modem.py:GsmModem.__init__", "gsmmodem/modem.py:GsmModem.sendSms", "gsmmodem/modem.py:GsmModem._handleSmsStatusReport"]}
{"id": "C113", "title": "Keys that arrive together or in pieces", "statement": "The console gives what is typed in strings of one to four characters, losing nothing; if every key is read before the next one is pressed, these are the keys. The raw terminal sends a text without newline and Ctrl-] as typed, however it arrives. Violated otherwise: a newline that is read together with other characters is sent as a line feed, not as a carriage return, and such a Ctrl-] is sent to the modem instead of ending the terminal; gsmterm drops everything read at once that is neither a single character nor one of the keys for moving, so that of a text without Esc that is pasted at most the last character arrives (and that only if its length is 1 modulo 4), and characters outside ASCII are lost; a key for moving that arrives in pieces is taken for Esc and text, so that it changes the line, and cancels a message that is being typed.", "quantifier": "all texts and keys, all ways in which they arrive and are read, all states of the terminal", "why_tests_cant": "depends on how the operating system groups bytes; there are no tests of the terminal", "anchors": ["tools/gsmtermlib/terminal.py:Console.getkey", "tools/gsmtermlib/terminal.py:RawTerm._inputLoop", "tools/gsmtermlib/terminal.py:GsmTerm._inputLoop"]}
{"id": "C114", "title": "Callbacks that use the port they come from", "statement": "The notification callback and the fatal error callback run in the read thread. While one runs nothing is read or passed on. Callbacks that only return or write behave like other threads that write (C35-C40, C75, C76 hold); connect() called in the error callback behaves like connect() called after it. Violated expectations: a command that a callback sends never gets its answer, write() always raises TimeoutException without lines, and the answer comes later as a notification; if another thread is waiting for an answer when a callback calls write(), that thread's command times out, whatever the modem answers; close() called by the notification callback raises RuntimeError, ends the reading and leaves the port open; after a callback has raised, nothing is read and no command is answered until the next connect(), and the lines it was given come again with the next notification.", "quantifier": "all callbacks (any number of writes, close, catching, returning, raising), all schedules of the read thread, any number of writing threads and a thread that connects and closes; all inputs and port errors; any length", "why_tests_cant": "the schedules are unbounded, and the library's own callback starts a thread, so no test has a callback that writes in the read thread", "anchors": ["gsmmodem/serial_comms.py:SerialComms._handleLineRead", "gsmmodem/serial_comms.py:SerialComms._readLoop", "gsmmodem/serial_comms.py:SerialComms.close", "gsmmodem/serial_comms.py:SerialComms.write"]}
{"id": "C115", "title": "What a header says about the text, and headers that do not fit", "statement": "The text that decodeSmsPdu gives for a received message with a user data header depends on the length of the header, not on its elements: messages that differ only in the elements of headers of the same length have the same result apart from the header. In the default alphabet the septets after the header are read as those of C109 (without the first septet if the header ends on a septet boundary, C24). Violated by this: the national language tables that an element names are not used; no character outside the two default tables is ever read, and a text sent with any other tables is read correctly if and only if it uses only characters that the default tables have in the same places. Also violated: a header whose last element is longer than the header's length is not ignored, as the standard wants; the element is read to its end, so that the first octets of the text are lost; a message that ends inside an element, or in which a concatenation or port element has not its length, raises StopIteration, ValueError or IndexError, and the message cannot be read at all (except that 16-bit concatenation and port elements may be longer than four octets; the first four count).", "quantifier": "all received messages with a header: all elements, lengths, octets and septets behind it, data codings, senders, centres and times; all national language tables", "why_tests_cant": "headers, tables and texts are unbounded; the tests decode a few headers that fit, none with a national language", "anchors": ["gsmmodem/pdu.py:_decodeUserData", "gsmmodem/pdu.py:InformationElement.decode", "gsmmodem/pdu.py:Concatenation", "gsmmodem/pdu.py:PortAddress", "gsmmodem/pdu.py:decodeGsm7"]}
{"id": "C116", "title": "Changing the message mode while other threads use the modem", "statement": "Between calls, smsTextMode is the mode the modem is in, as long as assignments of it are made one at a time (refused ones included), whatever other threads do; a sendSms, listStoredSms or readStoredSms during which no assignment is being carried out sends only commands in the form of the modem's mode and takes the response for what it is. Assigning the value that is set already sends nothing and disturbs nothing. No message is ever misread: a message read in the wrong mode raises CommandError. Violated, since nothing is locked: a call beside an assignment can send its command in the form of the mode just left, or take a response as one of the other mode (CommandError); while a mode is set for the first time, a message read then can raise AttributeError, because the regular expressions are compiled after the attribute is set (never once all three are compiled). Two assignments at the same time still end in agreement; three can end with smsTextMode and the modem's mode different. From then on every such command and response is wrong, and assigning the value that smsTextMode has does nothing; only an assignment of the other value (accepted by the modem) ends it.", "quantifier": "all numbers of threads, all interleavings of assignments, sending, listing and reading, all answers of the modem", "why_tests_cant": "interleavings are unbounded; the tests assign the mode in one thread", "anchors": ["gsmmodem/modem.py:GsmModem.smsTextMode", "gsmmodem/modem.py:GsmModem._compileSmsRegexes", "gsmmodem/modem.py:GsmModem.sendSms", "gsmmodem/modem.py:GsmModem.listStoredSms", "gsmmodem/modem.py:GsmModem.readStoredSms"]}
{"id": "C117", "title": "Deleting messages by their status", "statement": "deleteMultipleStoredSms(delFlag, memory) with delFlag 1 to 4, if it returns, has removed exactly the messages of the given memory (without one: of the selected memory) whose status delFlag names: 1 those read, 2 those read and sent, 3 those read, sent and unsent, 4 all. All other messages, and all other memories, are as they were. With any other delFlag it raises ValueError and sends nothing, not even the selection of the memory. If it raises anything else, the modem answered a command with an error (or not at all), and no message has been removed. Afterwards the memory that the program believes to be selected is selected.", "quantifier": "all flags, memories, states of the modem object, stores with messages of any status, all answers including any number of busy ones", "why_tests_cant": "stores, flags and answers are unbounded; the tests check the command text for each of the four flags", "anchors": ["gsmmodem/modem.py:GsmModem.deleteMultipleStoredSms", "gsmmodem/modem.py:GsmModem._setSmsMemory"]}
{"id": "C118", "title": "Busy replies when several threads use the modem", "statement": "Any number of threads call write at the same time; they share the extra delay. Each call that ends has sent its own command only, again after each of its busy replies, and gives the outcome of its first reply that is not busy; no call waits for another to go on. No sleep is negative, and none is longer than the larger of the first delay and 0.1s, plus 0.2s for each busy reply so far. When all calls have returned a response, the extra delay is unchanged if no reply was busy and 0 or 0.1s otherwise. With one thread, events, result and delay are those of C42. Violated: that each retry follows a pause and that the delay counts the busy replies. With two threads a command answered busy can be sent again after a sleep of 0 because the other call has just reset the delay; of two raises one can be lost; a call answered at once sleeps because of the other's busy reply; and with the same commands and replies the delay that remains can be 0 or 0.1s.", "quantifier": "all numbers of threads, commands, replies and interleavings; the violations for all pairs of commands", "why_tests_cant": "interleavings of unboundedly many threads and retries; the tests use one thread", "anchors": ["gsmmodem/modem.py:GsmModem.write"]}
{"id": "C119", "title": "Where an address field ends", "statement": "decodeSmsPdu reads the message from behind the service-centre field if that is a number without filler of the length given. Violated otherwise: a number ends behind the first octet whose upper half is the filler 1111, whatever the length octet says, and what remains of the field is read as the message (so a service-centre number filled up with FF octets makes every message raise EncodingError); only the reported tpdu_length follows the length octet. A service-centre field of length 1 (no digits) reads on up to the first filler of the message itself, and without one, or if the field is longer than the PDU, StopIteration is raised. An alphanumeric service centre of length L is taken to have ceil(L/2) octets behind its type. The number of a sender or recipient also ends behind its first filler: every message decodes exactly as if its length octet said so.", "quantifier": "all PDUs as octet strings, all lengths, types of number and positions of fillers", "why_tests_cant": "PDUs are unbounded; the tests contain only fields whose filler is in the last octet", "anchors": ["gsmmodem/pdu.py:_decodeAddressField", "gsmmodem/pdu.py:decodeSemiOctets", "gsmmodem/pdu.py:decodeSmsPdu"]}
{"id": "C120", "title": "Notifications that arrive together", "statement": "While no command runs, a line that arrives unasked is held if more characters are waiting after it, and passed on with all the lines held before it if none are; lines with pauses between them are passed on one by one. While commands run the same rule holds of the lines that are not part of an answer. Violated: every notification is acted on. Of the lines passed on together at most one leads to a callback of the application: what follows an indication of a message or status report, or news about a call, is ignored, so of two messages indicated together only the first is read, handed over and deleted, and the second stays in the store. A line that is held (because an answer began to arrive just then, or a blank line followed) stays held whatever commands are sent and answered, until another line arrives unasked.", "quantifier": "all texts sent unasked, all patterns of pauses, all schedules and numbers of writing threads (for the rule itself and for lines that are held), all lists of lines passed on, all states, replies and stores", "why_tests_cant": "the tests use a mock port which sends one notification at a time; when the port is empty depends on timing", "anchors": ["gsmmodem/serial_comms.py:SerialComms._handleLineRead", "gsmmodem/modem.py:GsmModem._handleModemNotification", "gsmmodem/modem.py:GsmModem._handleSmsReceived"]}
{"id": "C121", "title": "A call that rings several times", "statement": "While nothing but rings happens to calls, the table of active calls has exactly one incoming call for each different caller number that was given with a ring (no number counting as one of them), in the order in which they first rang, with ids 1, 2, ...; each has rung as often as its number was given and is what the callback gets each time. A call whose number comes with every ring is one call. Violated when the number comes with some of the rings only, for example because of a pause between RING and +CLIP: there are then two active calls, one of them without a number.", "quantifier": "all sequences of notifications, of any length, with other notifications and changes of everything but calls in between; all replies; all states without active calls", "why_tests_cant": "sequences are unbounded; the tests ring once, with both lines together", "anchors": ["gsmmodem/modem.py:GsmModem._handleIncomingCall", "gsmmodem/modem.py:IncomingCall.__init__"]}
{"id": "C122", "title": "The line that sendsms.py reads", "statement": "Without -i sendsms.py says so, exits with 1 and sends nothing. With Python 2 and a line typed it is the program of C77. Violated: that it sends a message with Python 3, where raw_input does not exist. Whatever the modem answers, no message is announced; the program connects, unlocks the SIM (with the PIN given), waits for a signal, asks for the message and then ends with NameError, with the modem open. At the end of the input it ends in the same way with EOFError. Where it fails before that, it ends as with Python 2.", "quantifier": "all ports, PINs, destinations, lines, modem answers and timer behaviours; both Pythons", "why_tests_cant": "the tools have no tests; what happens depends on the version of Python and on every answer of the modem", "anchors": ["tools/sendsms.py:main"]}
{"id": "C123", "title": "What identify-modem.py writes, as a whole", "statement": "identify-modem.py writes its arguments and a greeting, connects, and then either prints the seven values that the modem gave (C78), with their labels and with N/A for a revision that it does not know, or with -d the answers to fourteen commands, in order, and ends with 0; or it exits with 1 for want of the PIN or for a wrong one, saying which; or an exception is not caught: one of connect's, with nothing more printed, or that of the first query that fails, with the values before it printed. It asks a SIM that is not unlocked for nothing behind connect, and then only for the commands of the list in question. Violated: that the PIN is not shown, since the arguments are written with it; that the modem is closed.", "quantifier": "all ports, PINs and modem answers, with and without -d", "why_tests_cant": "the tools have no tests; what is printed depends on every answer of the modem and on which one fails first", "anchors": ["tools/identify-modem.py:main"]}
