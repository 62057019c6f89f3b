# Formal model of python-gsmmodem in Rocq (Coq 8.16.1)

## Approach

* The code is modelled function by function as total Gallina functions, in
  `rocq/theories/*Model.v` and `CommandData.v` (no proofs there). Exceptions are
  values (`res A = Ok a | Err e`). Every definition cites the lines of /repo it
  models, and says where it simplifies.
* Specifications that do not use the model's helpers (bit streams, the 3GPP
  tables, wire layouts, the calendar, abstract maps, a device with a message
  store, a video terminal) are in `*Spec.v`. They share with the model only the
  data types of arguments and results.
* Lemmas are in `*Proofs.v`, `*Final.v`, `DecodeTotal.v`, `StoreLemmas.v`. The
  property theorems are in `Properties*.v`, each closed by `exact`, with
  `Print Assumptions` beneath it and an `Example` showing a concrete case that
  meets its hypotheses.
* `MANIFEST.json` is produced from the theorem names by `tools/manifest.py`: a
  theorem `Cnn_...` belongs to property `Cnn`.

## How the parts are modelled

* **Pure code** (pdu.py, util.py, trie.py): ordinary functions. A Python iterator
  is the list of the items that are left; `next` on the empty one is
  `Err StopIteration`. Python 3.3 semantics (the newest in .travis.yml), so a
  StopIteration that leaves a generator ends it silently (C100: also 3.7 and later).
* **serial_comms.py**: a transition system. The read thread and any number of
  writer threads interleave arbitrarily; one step is one access to a shared
  attribute. Properties are inductive invariants over all schedules.
  The port delivers one-character strings (Python 2.7, or the mock ports of
  the tests): on Python 3 pyserial gives `bytes`, with which `_readLoop` cannot
  work at all (C99).
* **modem.py**: methods run in a monad `M A = world -> out A` over the attributes
  of the object, a *script* (what the serial layer hands back for every command
  that waits, in order: lines, or nothing in time), and a trace of what was done
  (texts written, sleeps, callbacks). Theorems quantify over every script, hence
  over every behaviour of the modem. When the script ends while a method waits,
  the outcome is `Stuck`; since every prefix of a script is a script, the theorems
  that mention `Stuck` speak about every point at which the program can be
  interrupted.
* **Concurrency above the serial layer**: sequential except where a property is
  about it: HandlerModel.v has the steps of `_handleSmsReceived` in any number
  of threads; sendUssd and dial are split at their waits so that
  notifications run in between; the poller's rounds are interleaved with nothing
  else (its handlers are the same methods as for notifications).
* **terminal.py**: one key at a time, in a monad over the terminal's state and the
  list of outputs. What a video terminal shows is computed by a
  separate specification (TermSpec.v).

## Properties: model, specification, method

| Property | Model | Specification | Method |
|---|---|---|---|
| C01, C02 semi-octets | PduModel | PduSpec | induction two digits at a time |
| C03-C05 GSM-7 | PduModel (tables as data) | PduSpec: the table of TS 23.038 | table facts by computation over all 128 entries, lifted by `forallb_forall`; induction on the text |
| C06-C08 septets | PduModel | PduSpec: bit k of a stream | loop invariant relating pending bits to an integer in base 2^7 / 2^8 |
| C09 UCS-2 | PduModel | PduSpec | induction |
| C10 validity | PduModel | PduSpec: what an octet denotes | case analysis, lia; the 256 octets by computation |
| C11, C12 time stamps | PduModel, DateModel | PduSpec: calendar | digit-pair lemmas, lia |
| C13, C14 addresses | PduModel | SmsSpec | from C01, C03, C07 |
| C15-C21, C58 encoding | PduModel | SmsSpec, SubmitSpec | one layout theorem for every part, then its decoding |
| C22 arbitrary input | PduModel | - | every function classified by the exceptions it raises |
| C23-C25 decoding | PduModel | DeliverSpec: layout of TS 23.040 | decoding of a laid-out PDU field by field |
| C26, C27 elements, hex | PduModel | DeliverSpec | induction |
| C28, C29 util | UtilModel | UtilSpec | list induction, digit lemmas |
| C30-C34 trie | TrieModel | TrieSpec: finite maps; TrieDeadSpec: dead ends | structural invariant, preserved by every operation; refinement; for C34 with deletions, the trie with a key put at every dead end |
| C100 iteration | IterModel: the generator of `__iter__` | IterSpec: outcome of the n-th step | induction on the interleaving |
| C101 arguments | the methods of ModemCore, SmsModel, UssdModel, CallModel, NotifyModel, ConnectModel | InjectSpec: how a modem reads lines, quotes, semicolons and messages | Hoare-style rule for every text written, method by method; smuggling by exhibiting the argument |
| C102 no sender, no text | PduModel; SmsModel (listing, processing, notification) | AnonSpec: the octets of an address without digits; times read one field late; listings that break off | inversion of strptime (every field must take exactly two of twelve characters); the listing loop stops at the first exception |
| C103 cut and filled timestamps | PduModel (decodeSemiOctets, decodeTimestamp), DateModel (strptime's alternatives in backtracking order) | StampSpec: semi-octets of a field; readings by widths, the first in the order tried | the matches of the fields are enumerated in the order of their widths (induction over the fields); lengths decide which reading is first for whole, cut and filled fields |
| C104 parts of a long message | SmsModel (sendSms, handleSmsStatusReport), PduModel | PartsSpec: what the device took, read from the events; histories of calls; a device that counts modulo 256 | induction over the transmission for what was taken; invariant of the histories: the counter is the device's next number, and failing calls keep it; the tracking by C45's invariant |
| C105 texts that look like answers | SerialModel, SmsModel, NotifyModel, ModemCore | SpoofSpec: where a text is cut off; what is seen of the port from outside; commands that get the answer to the one before | C37's response theorem; executions built from lemmas about whole lines and whole commands, by induction over the text, the rest and the commands; symbolic runs of the reading functions with the cut response |
| C106 data coding schemes | PduModel (decodeDataCoding, decodeUserData, decodeSmsPdu) | CodingSpec: the alphabet of each scheme from TS 23.038 section 4, the compression bit | decodeSmsPdu up to the user data in general; the 256 schemes by computation; for lost UCS-2 texts the first two septets read |
| C107 stored SMS-SUBMITs | PduModel (decodeSmsPdu) | CodingSpec: validity period formats; SubmitSpec's fields | as C106 for the fields of an SMS-SUBMIT |
| C108 digits of addresses | PduModel (decodeSemiOctets, decodeAddressField, encodeAddressField) | CodingSpec: the 15 digits of TS 23.040 section 9.1.2.3 and their semi-octets | induction over the semi-octets; C14's address field for what is sent |
| C109 escapes | PduModel (decodeGsm7, unpackSeptets) | CodingSpec: what a receiver makes of septets by TS 23.038 section 6.2.1.1; the library's reading as a relation | induction over the septets, two at a time; the tables by computation |
| C110 octets behind the user data | PduModel (decodeUserData, unpackSeptets, decodeUcs2) | PduSpec's bits; CodingSpec's readings | C08's bits of what is unpacked; induction over the pairs of octets |
| C111 connecting twice | CrowdModel (several read threads around LifeModel) | CrowdSpec: who reads which character; SerialSpec's lines; SpoofSpec's answers | simulation by LifeModel when the threads do not overlap; C35's invariant for each thread; executions woven from one of SerialModel and the characters that the old thread takes, by induction; C75's rank for each thread |
| C112 sent messages that nobody refers to | WeakModel: the WeakValueDictionary, the objects and when they end, the handlers of reports step by step | WeakSpec: what is visible, what each handler does | invariant (kept objects and objects in a handler's hand exist); simulation by executions in which nothing ends |
| C113 keys together or in pieces | KeysModel: the console's queue and getkey; TermModel's loops | KeysSpec: what is typed, which strings are keys | induction on the arrivals and reads; the loop skips what it does not know; C57's edits for the pieces |
| C114 callbacks that use the port | InsideModel: LifeModel with callbacks that do anything but connect; CrowdModel for connect | InsideSpec: labels, who moves | simulation by LifeModel with the callback as one more writer; invariants: the callback's event is never set, the read thread stands still; for C114_reconnects simulation of CrowdModel by LifeModel |
| C115 headers: tables named, elements that do not fit | as C24 and C109 | HeaderSpec: `reading_with` any tables, Turkish tables, `default_char`, `element_exception` | decodeUserData split into header and text; induction over septets and over elements |
| C116 changing the mode beside other calls | ModeModel: the setter, `_compileSmsRegexes` and what sendSms, listStoredSms and readStoredSms do with the mode, one access or command at a time; entering a message is one step, every command is answered | ModeSpec: assignments under way, agreement, right and wrong commands and responses | invariants over all interleavings (at most one assignment; at most two pending); executions exhibited; responses of one mode against the regular expressions of the other by counting quotes |
| C117 deleting by status | SmsModel | PurgeSpec: a modem whose messages have a status, and what +CMGD with a flag removes (TS 27.005) | simulation of the commands by that modem, as C60 |
| C118 busy replies to several threads | BusyModel: GsmModem.write (with response and error check) of any number of threads, one access to `_writeWait`, sleep or exchange at a time; `+=` is a load and a store; an exchange is one step (the lock, C38, C90); the delay in tenths of a second | BusySpec: what a thread sent, the number of busy replies, `all_returned`; ModemSpec as C42 | invariants by induction over executions; the single thread refines the call of C42; executions exhibited |
| C119 where an address field ends | PduModel | BorderSpec: octets with a filler, the same message; decodings compared with each other | decodeSmsPdu split behind the service centre; induction over the octets of the field |
| C120 notifications that arrive together | SerialModel (read thread, inWaiting), NotifyModel | BatchSpec: pieces with pauses, how they are batched; callbacks of the application counted | invariant of runs of the read thread (which pieces have been read, what is held); for any schedule an invariant relating the trace's answers of inWaiting to what was passed on; at most one callback per handler by its structure; the store by C46's lemma |
| C121 a call that rings several times | CallModel, NotifyModel | CallerSpec: sequences of notifications, the different callers | invariant over the sequence, each ring by C65's relation `takes_ring` |
| C122 the line that sendsms.py reads | MainModel: main with a port that may be missing and raw_input, which Python 3 does not have | MainSpec: no line, how the program ends then | case analysis over the phases of C77; equal to ToolModel's program with Python 2 and a line |
| C123 identify-modem.py as a whole | IdentModel: main behind the parsing of the arguments: connect, each print with its query, the exceptions that are caught | IdentSpec: the values with their labels and the answers they are taken from, the ways to end | query by query against ToolModel's identify and debug_dump (C78); which commands each part can write; connect's PIN theorems (C53) |
| C35 framing | SerialModel | SerialSpec: CRLF segments | induction over the characters; over schedules |
| C36-C40 threads | SerialModel | SerialSpec: labels of a run | inductive invariants over all schedules; schedules exhibited for what can go wrong |
| C41, C42 write | ModemCore | ModemSpec: status lines, busy runs | induction on the script |
| C43-C45 sending | SmsModel | SendSpec, TrackSpec: histories | induction over histories of sends and reports |
| C75, C76 closing, reconnecting | LifeModel: SerialModel with alive, the port's state, errors, connect and close | LifeSpec | invariants of the extended transition system; a measure for the read thread's end; refinement of SerialModel |
| C77, C78 sendsms.py, identify-modem.py | ToolModel: the programs over connect, waitForNetworkCoverage, sendSms and the queries; what they print, close and return | ToolSpec | C53, C54, C44, C74 and C45's invariant put together; which commands each part can write |
| C79, C80 threads sharing a modem | SenderModel: sendSms and the end of the report handler one access to an attribute or one write at a time | SenderSpec: a modem that takes commands or is inside a message; any threads and other commands | inductive invariants over all executions; executions exhibited for what goes wrong; a thread on its own does what SmsModel's functions do |
| C81, C82 from one modem to the other | NetworkModel: ReceivedSms.reply; otherwise the existing models of both sides | NetworkSpec: how the network takes an SMS-SUBMIT apart and builds the SMS-DELIVER, from TS 23.040 | uniqueness of the division into fields; composition of C15-C17, C44, C46 and the decoder lemmas |
| C83, C84 callbacks that fail or use the modem | CallbackModel: the functions that call back, with callbacks that are programs of the modem monad | CallbackSpec: what happens around a callback; `uses`, `nested`: callbacks that use calls only through methods | equality with the model without callbacks up to the point of the call; preservation of C51's invariant by induction over programs and over the nesting |
| C85 example programs | DemoModel: the callbacks and loops of examples/, what other threads do during a pause being any computation that keeps the call | DemoSpec: what is sent and done, in terms of the relations of C50-C52, C55, C63, C81, C82 | case analysis on the state after each pause; induction on the pauses of the polling loop |
| C86 calls whose end is not noticed | CallModel, NotifyModel | StaleSpec: what ends a call; histories from any state | C51's changes of the book, one case per operation; induction over the history; C65 for the next ring |
| C87 lines from the modem | TermModel, NoticeModel | NoticeSpec: a display whose rows scroll up, keys and lines in any order | the screen lemmas of C70; induction over lines and over what happens |
| C88 end of the terminal | TermModel | TermSpec: exit keys, closings of the port, keys with a meaning | an invariant (alive, number of closings) of every function but `_exit`; induction over the keys |
| C89 why connecting fails | ConnectModel | FailSpec: commands connect does without, reasons for an exception | case analysis of each part of connect, with the last command asked |
| C90 answers reach their commands | SerialModel | WireSpec: a modem beside the port: characters on their way, answers to be sent, lines sent unasked; histories of commands and responses | an invariant of the whole system with the segments on their way as ghost state; a measure for the read thread |
| C91, C92 threads that send USSD strings or dial | MeetModel: sendUssd, dial (when it waits) and the handlers of their notifications, one access to an attribute at a time; one model with a `kind` | MeetSpec: ways in which a call may end, idle systems, labels | inductive invariants over all executions; executions exhibited for what goes wrong; a thread on its own does what UssdModel's and CallModel's functions do |
| C93 the table of active calls and several threads | RaceModel: the handlers of RING, of answers and of ends, hangup, answer and the end of dial, one access to the dict or to an attribute at a time | RaceSpec: indexed and careful executions, labels, one thread on its own | inductive invariants over all executions; executions exhibited for what goes wrong; a thread on its own does what CallModel's functions do |
| C94, C95 collecting messages beside notifications | CollectModel: listStoredSms with deletion and processStoredSms, one attempt at a command at a time; HandlerModel for notifications | CollectSpec: a modem that marks messages as read, threads, observations, a ledger of the store | an inductive invariant over all interleavings (what the threads are going to delete is in the store, what they hold has been removed); executions exhibited for what goes wrong; a thread on its own does what SmsModel's functions do |
| C96 errors | ErrorModel: the classes of exceptions.py, calling a class (`__new__`, then `__init__` of the object's class if it is an instance) | ErrorSpec: numbers with a class of their own, texts, the `except` clauses that catch a class, numbers of arguments | case analysis on classes, numbers and argument lists; the number is read back from the text; equal to the exceptions of the other models |
| C97 several modems | TwinSpec: histories of methods of several modems over two shared class attributes; the methods are those of the models of one modem | TwinSpec: the entries of one modem, the class attributes, what a connection found out | every method except connect and sendDtmfTone commutes with setting the class attributes; connect's effects do not depend on them; only connect sets them; induction on the history |
| C98 the lock | LifeModel | YieldSpec: moves of a thread, starts and outcomes of calls | the holder is the only thread in a call, and a rank of its program counter falls with each of its steps; counting starts and outcomes. That a waiting thread gets the lock at all depends on the fairness of RLock and is not claimed |
| C99 bytes | BytesModel: `_readLoop` on strings or bytes objects | BytesSpec: the two kinds of port | induction on the input: a bytes object equals no string; with strings equal to SerialModel's loop; invariant of a read thread that reads nothing; a bytes object among strings fails the join at the end of its line. That serial.write of pyserial 3 refuses strings as well is outside the model |
| C74 waiting for a report | SmsModel, NotifyModel | WaitSpec: what other threads do meanwhile | the event is an invariant of everything else; induction over the operations |
| C46, C50, C60 store | SmsModel | StoreSpec: device with memories | simulation of the commands by the device |
| C47 concurrent handlers | HandlerModel | HandlerSpec, StoreSpec | invariant over all interleavings; a schedule for the violation |
| C48, C49, C61 listings | SmsModel | ListSpec: entries of a response | induction on the lines |
| C51 call table | CallModel, NotifyModel | BookSpec: a book of calls | each handler is one change of the book; invariants over histories |
| C52 DTMF | CallModel | CallSpec | induction on the tones |
| C53, C62 connect | ConnectModel | ConnectSpec: the device's number, PIN commands in a trace | case analysis of all exchanges; predicates closed under sequencing |
| C72, C73 set-up, message mode | ConnectModel, SmsModel | SetupSpec: answers, list of commands, kind of modem, storage | one lemma per phase of connect; induction over histories of modes |
| C54, C59 queries | ModemCore, SmsModel | CoverageSpec: lines of a response | induction on rounds; regular expressions taken apart by `lang` |
| C55, C63 USSD | UssdModel | UssdSpec: items of a response | leftmost-shortest match lemma, induction on notifications |
| C56 polling | PollModel | PollSpec: an automaton over replies | induction on the script |
| C64 dialling | CallModel | DialSpec: announcements among what is done meanwhile | induction over the operations during the wait, with C51's changes |
| C65 incoming calls | CallModel, NotifyModel | DialSpec: caller, kind, ring | invariant of the search through the table |
| C57, C66 line editor | TermModel | TermSpec: text cursor, video terminal | one lemma per key, induction on the keys |
| C67-C71 terminal | TermModel, CommandData | EntrySpec, TableSpec | case analysis; the table by computation over all entries, lifted |

Regular expressions are data (`RegexModel.v`), matched by a model of the
backtracking engine that lists all ways to match in the engine's order. `RegexProofs`
relates it to the usual relational reading, so specifications speak of
texts such as `"+CSQ: " ++ digits ++ "," ++ anything` and not of patterns.

Some properties describe a defect ("Violated: ..."). Their theorems state exactly
when the defect shows and when not (an equivalence, or a positive theorem under the
condition together with a concrete failing run); they are not weakened versions
of something stronger.

## Trusted base

* Coq's kernel, 8.16.1 (`coqc`; `coqchk` was run on all compiled files).
* Axioms: none. `Print Assumptions` stands beneath every theorem of `Properties*.v` and
  prints "Closed under the global context" for all of them. No axiom,
  parameter, `Admitted`, functor or module type is declared. `coqchk -o` on all
  the modules of the project reports no axioms. (`vcheck` names seven constants of
  `Coq.ssr.ssrunder`, a file of the standard library; `Print Assumptions` shows that no
  theorem uses them.)
* `vm_compute` is used, which is part of the kernel's conversion.
* That the models say what the Python code does. This was checked by reading, function
  by function, and by evaluating the models on the cases of the repository's tests:
  `VectorsPdu.v` (test_pdu.py, 94 cases) and `VectorsModem.v` (test_modem.py against the
  response tables of fakemodems.py, 178 cases), `VectorsTrie.v` (test_gsmterm.py, test_util.py) and `VectorsSerial.v`
  (test_serial_comms.py). These are tests of the models, not proofs,
  and transcribed by hand and script; the few tests not replayed are named in their headers.
  The code itself was not run.
* The models of Python's standard library: `DateModel` (datetime, strptime), `RegexModel` (re),
  and the string primitives of `Base.v`. Digits, white space, `int()`, `upper` and `lower`
  are ASCII only.

The methods of ModemCore.v run against a script, the list of what `SerialComms.write` hands back. C90 is what connects the
two levels: without time-outs and unsolicited lines the script is the list of the modem's answers to the commands, in order; C36, C37,
C39, C76 say what else it can contain.

### Modelled

* `gsmmodem/pdu.py`: everything except `__str__`/`__repr__` helpers of no effect.
  `shift` of the packing loops between 1 and 7, as in all calls. A datetime has no zone or one with an offset: a tzinfo whose `utcoffset()` is None
  (AttributeError in `_encodeTimestamp`) is not distinguished from no tzinfo (ValueError).
* `gsmmodem/util.py`: everything.
* `gsmmodem/serial_comms.py`: everything, `connect` and `close` called one after the other by one thread;
  `connect` also when there is a read thread already (CrowdModel); `write` and `close` also by the read thread itself, in its callbacks (InsideModel).
* `gsmmodem/modem.py`: `write`, `connect`, `_unlockSim`, `supportedCommands`, the queries,
  `smsTextMode`, `_setSmsMemory`, `smsc`, `waitForNetworkCoverage`, `sendSms`, `sendUssd`, `dial`,
  `processStoredSms`, `listStoredSms`, all notification handlers, `readStoredSms`,
  `deleteStoredSms`, `deleteMultipleStoredSms`, `_parseCusdResponse`, `_pollCallStatus`, the classes
  `SentSms` (status), `ReceivedSms` (reply), `Call`, `IncomingCall`, `Ussd`.
* `gsmmodem/exceptions.py`: everything (ErrorModel.v), for positional arguments that are None, strings, integers or objects equal to none of these
  (not `True` or `11.0`); the text of an exception with several arguments is left out. The other model files use the type `exn` of Base.v; C96_is_model connects the two.
* `tools/gsmtermlib/trie.py`: everything except keys of None.
* `tools/gsmtermlib/terminal.py`: `RawTerm`'s and `GsmTerm`'s input loops, all key handlers, and the console's `getkey` on POSIX.
* `tools/sendsms.py`, `tools/identify-modem.py`: `main` behind the parsing of the arguments.
* `examples/*.py`: callbacks and loops, without `connect`, `close` and what they print.
* `tools/gsmtermlib/atcommands.py`: names, categories and the shape of the help tuples.

### Not modelled

* The serial port itself (pyserial), the logging calls; `compat.py`
  (the wait of old Python versions); `tools/*.py` (argument parsing; gsmterm.py's start-up);
  `posoptparse.py`; the Windows console. The thread that prints lines from the modem runs between
  two keys (C87), or at one place within the cursor-left key (C87_interrupted); other places within keys are not modelled.
* Callbacks of the application do nothing but return: they do not call methods of
  the modem and do not raise. In C83, C84 they do anything the modem monad can do (methods, exceptions, not ending); C84_table
  leaves out callbacks that write to the attributes of calls or to `activeCalls` directly.
* In C79, C80 the modem of SenderSpec is an assumption about modems: inside a message it takes everything up to Ctrl-Z,
  and accepts no message into which something else was written. The texts of messages contain no Ctrl-Z.
* In C91, C92 the table of calls is changed by dial only; the commands may have any outcome.
* In C93 the handler of RING begins where it looks for the call (its number and type are given), and dial where it enters its call.
  A single access to a dict or an attribute is atomic (as in CPython). Once a dict has been changed within a loop over it, without a change of
  its size, the loop may go on with any entry, or end.
* In C94, C95 (as in C47) threads interleave between attempts at commands, not within one; callbacks do nothing; the modem answers AT+CMGL with
  all readable messages of that status in the selected memory (CollectSpec's `serves`), and may change their status only. The handler of +CDSI makes the same steps up to the deletion (C94_is_report), so it is one of these threads; what it does afterwards with the report is C80's subject.
* The duration of anything: a wait either ends with a reply or times out.
  `threading.Event.wait` is a test of the event at the end of the wait.
* The order in which Python enumerates a set or (before 3.7) a dict: insertion order.
* `Call.dtmfSupport` and `Call.DTMF_COMMAND_BASE` are class attributes, shared by all modems of a
  process: attributes of the one modem in most models, shared in C97. In C97 methods of different modems interleave as wholes
  (sendDtmfTone reads the attribute once, before its command; connect sets them between two commands), and callbacks do nothing.
* Fuel: `coverage_loop`, `poll_loop` recurse on a number that exceeds the number of
  replies in the script; that it suffices is proved. The depth to which
  files load files in the terminal is a parameter (Python's recursion limit).

## What the models showed

Found while modelling; those marked (Cnn) are proved.

Encoding and decoding: a final '@' is lost when septets fill the last octet (C07); ÿ
raises TypeError (C04); the GSM-7 table has '`' for '§' (C05); too few parts are made for long
texts, which are then cut (C17), and extension characters overfill a PDU (C18);
`tpduLength` is wrong when an SMSC is given (C20); the first character after a header of 6
octets is lost (C24); undocumented exceptions (C22); an address without digits shifts all that
follows by an octet, and a message without text cannot be decoded; either blocks listing and processing for good (C102); a timestamp
without its zone octet, or with a filler in it, is read as another time (C103); a long message after a failed one has the reference of the failed one,
and a long message is tracked by its last part only (C104); in text mode a text with a line that looks like a final result cuts
its own message short, makes it unreadable or keeps the program asking for it for ever, and its other lines pass for notifications or for the
answers to later commands (C105); UCS-2 texts with a data coding scheme from 64 on are read as GSM-7 (C106), enhanced validity
periods as user data (C107), * and # in numbers as letters (C108); characters behind unknown escapes are lost and a text that ends in an
escape cannot be decoded (C109); octets behind the user data become text (C110); a second connect() starts a second read
thread, which takes characters away from the first (C111); a report is lost if its message is destroyed
while the handler looks at it (C112); gsmterm drops pasted text, and a cursor key that arrives in
pieces cancels a message (C113); a notification callback that writes to the port it was called from never gets an answer and
makes the commands of other threads time out, close() in it leaves the port open, and after it raised its lines come again (C114); a number is read up to its first filler, not to the end of its field, so that what remains of the field is read as the message (C119); of notifications that arrive together only the first is acted on, and one that is held waits for the next (C120); a call whose number comes with some of its rings only becomes two calls (C121); national language tables are ignored, and a header whose last element is too long swallows the start of the text (C115); text-mode time zones are cut to hours (C28).

Trie: inserting a prefix can lose a key (C30, C33); `longestCommonPrefix` is '' when a
stored key is a proper prefix of the argument, and counts branches whose keys have been deleted (C34); a loop over a trie ends with RuntimeError (C100).

Serial port: "OKAY" ends a response (C37); a line in flight when a write starts is taken for its
response, and late answers are taken for the next one's (C39); the read thread can die (C40); a failed
serial.write leaves the response event behind, which swallows notifications, and a half-read notification is delivered
with the first one of the next connection (C76); close() called in a callback of the read thread raises RuntimeError.

Modem: arguments are neither checked nor escaped, so that they can contain commands (C101); busy replies are retried without bound and the delay stays raised after a failing retry (C42); a busy
reply to a PDU's text sends the text again without a new AT+CMGS (C42, C44); only the last part's +CMGS is looked at (C44);
`_setSmsMemory(write=...)` is a TypeError; connecting stores the memory with its quotes, so that
the first notification selects it again (C46 quantifies over the attribute); handlers of notifications
running at the same time delete the wrong message (C47); an undecodable entry shifts the following ones (C49);
messages are deleted before they are passed on (C50); a sendSms that waits for a delivery report is satisfied with any message's report,
and misses one that comes before it waits (C74); a +CDSI that names a received message
deletes it and raises AttributeError; call ids collide (C51); `hangup` on an ended call removes another
call that has the id now (C51); an answer for an unknown call raises KeyError (C51); an incoming
call from a number being called raises AttributeError and is not reported, one that is not a voice call
raises KeyError (C65); braces in
tones break `str.format` (C52); an OK without +CPIN line sends the PIN (C53); an OK without the line asked for to
AT+CFUN?, AT+WIND? or AT+CPMS=? makes `connect` raise TypeError or AttributeError (C89); USSD texts containing `",`
and a digit are cut (C55); after "+CLAC: " the first command has a leading space and is not recognized (C59);
an answer "OK" alone makes the IMEI "OK" (C59); reconnecting to an unrecognized modem keeps the old table of call updates (C72);
the poller misses calls that are active before it looks (C56); on modems without known notifications an
incoming call stays active after the caller has gone, and the caller's next call cannot be answered (C86).

Threads using one modem: a command between AT+CMGS and the text of a message makes sending fail; in text mode
the text of one call can go to the number of another (C79); the reference number is 256 for a moment, in which other calls raise ValueError;
of two calls waiting for reports the wrong one is woken; the handler of a report, or a call that has just sent its
message, can raise AttributeError; reports handled too early are not attached (C80). A USSD response or the announcement of a call goes to the call that
began last, or to two calls at once, or to the next call after the one that has timed out; calls and handlers can raise AttributeError (C91, C92).
The table of calls is changed without a lock: hangup, or the handler of the end of the call, raises KeyError; two RINGs handled at once make two calls with
one id; a RING is lost (RuntimeError) when a call ends at that moment; hangup can remove another, new call (C93).
processStoredSms beside the handler of a notification: a message is given twice, or one that arrives at the index of a listed message, or at that index in a memory selected
meanwhile, is deleted unread (C94); listing ALL with deletion deletes unread what arrives after the listing (C95).
Assignments of smsTextMode are not locked either: calls beside one can use the wrong mode, a first one can make a reader raise AttributeError,
and three at once can leave the program and the modem in different modes (C116). The delay after busy replies is shared without a lock: a retry can follow at once,
of two raises one can be lost, and calls that were answered wait for those that were not (C118).

Exceptions: PinRequiredError(command, 12) is a PukRequiredError, and PinRequiredError(command, 99) says that the PIN is required (C96_direct);
the code itself constructs no such object.

Between modems: received parts of a long message cannot be told apart or ordered (C81); a reply to a number of unknown
type goes to a national number, one to a text of digits to a subscriber, one to a message without number to "None" (C82).

Callbacks: one that raises loses the messages behind it, which are deleted already (C83), and leaves an ended call active; hanging up in the
callback for the end of a call recurses, or makes the handler raise KeyError; dialling there can end the new call instead of the old one (C84).

Terminal: a lower-case line with several matches is erased by TAB, 'FOO=' TAB ends the terminal (C67, C71);
'AT+CRE' TAB erases the line (C71); newlines of a typed message are not sent (C69); a script with AT+CMGS
does not send the lines that follow (C68); lines arriving while a message is typed replace the prompt for good, and within the
cursor-left key they leave the screen's cursor beside the place of the next key (C87).

Programs: sendsms.py cannot send anything with Python 3, where raw_input does not exist, and leaves the modem open then (C122); it calls a message that the modem took, but whose report is late, one that could not be sent; a refused registration
ends it with a traceback (C77); identify-modem.py asks for the revision, IMEI and IMSI twice (C78), writes the PIN it is given to the terminal and leaves the modem open (C123); the examples' callbacks raise
when the caller has gone or for a status report, and dial_callback_demo waits forever when ATH fails (C85).

Python 3: with a port that delivers bytes nothing is ever received, and connect() fails at its first command (C99).

Several modems: connecting a Huawei modem makes all other modems of the process send their tones as AT^DTMF= (C97).

Seen in the code, not stated as properties: `Ussd.cancel` leaves `sessionActive` True; `IncomingCall.answer` sends ATA for a call that has ended unanswered; a CMGS answer without number raises ValueError after the message
was sent; an empty originating address leaves the type octet in the stream.

## Testing the theorems

`tools/mutants.py` makes edits mechanically (constants, comparisons, constructors, branches of the models'
definitions). `tools/mutate.py` applies edits to a scratch copy of the models, rebuilds with `make -k`, and reports the lemma
that fails first in each file. `seeded/edits*.json` are the edits, `seeded/LOG.jsonl` the outcomes. "failed" lists the property
theorems that depend on a failing lemma: this can list more than those whose statement is false of the edited
program, since a lemma's proof may fail for its form. "SURVIVED" edits were examined one by one; where the
English claim had become false, the theorem was tightened, as recorded.
