# Design: a Rocq model of pyd7a

The code under study is the Python 2.7 library in /repo (DASH7 ALP codec, serial
modem protocol, DLL frame parser, system files, modem driver). It is read as
text; nothing is executed.

## 1. Shape of the model

All files live in `rocq/theories` (logical name `Verif`), Coq 8.16.1 standard
library only.

* `M*.v` files ("Model") contain only definitions, each with a comment citing
  the file and lines it models. No proofs.
* `S*.v` files ("Spec") contain the small independent specifications used in
  theorem statements: bit layouts, well-formedness predicates, wire frames,
  abstract behaviour. They do not use the model's serializers or parsers.
* `L*.v` files hold lemmas and proofs.
* `P*.v` files hold only the property theorems (`Theorem … . Proof. exact … . Qed.`),
  `Print Assumptions`, and beside each theorem an `Example` showing that a
  concrete non-trivial case meets its hypotheses.

### Modelling conventions

* **Python integers** are `Z`. No wrap-around is assumed anywhere: if the code
  wraps (frame counters) the wrap is written in the model.
* **Exceptions** are values: `Ok x | Err e`, `e : exn`. The type `exn`
  distinguishes what the code distinguishes: `ReadError` of bitstring, the
  project's `ParseError`, `ValueError`, `AttributeError`, `TypeError`, …, and
  `AssertionError` *with* and *without* message, because
  `serial_modem_interface/parser.py:125` evaluates `e.args[0]`.
* **Reading.** A `ConstBitStream` is a bit position plus the list of remaining
  bits (most significant first). `read "uint:n"`, `"int:n"`, `"bool"`,
  `"bytes:n"`, `"pad:n"` are primitive parsers that fail with `ReadError` when
  too few bits remain. The exception for `read "bool"` at the very end of the
  stream depends on the bitstring release (`ReadError` or its superclass
  `IndexError`); the model uses a separate exception `BoolEof`, and the parsers
  that catch `ReadError` take a flag `lib` saying whether `BoolEof` is caught.
  Theorems hold for both values unless they say otherwise.
* **Serializing.** `bytearray(obj)` consumes `obj.__iter__`; the model returns
  `Ok bytes` or the exception, checking every yielded value for 0..255 as
  `bytearray` does (values outside raise `ValueError`, non-integers `TypeError`).
* **Validation** (`Validatable.validate` + cerberus schema). Each constructor
  `mk_X` checks exactly the schema entries whose key names an existing
  attribute; keys that name no attribute are not checked (cerberus: the field
  is absent and not required; unknown attributes are allowed), with a comment
  where this happens. Argument *types* are fixed by the model (integers where
  the schema says integer, and so on). Values of other Python types are the
  subject of `MSchema`, which holds every SCHEMA of the library and an
  interpreter for the rules; C63 proves that each `mk_X` agrees with it.
* **Loops** are structural recursion or recursion on fuel; fuel exhaustion is a
  distinct exception and is proved impossible.
* **Threads** (`modem/modem.py`) are a labelled transition system: the
  application thread and the reader thread each have a program counter; one
  step is one access to a shared attribute. Schedules are arbitrary lists.

### What models what

| /repo | model | remarks |
|-------|-------|---------|
| bitstring reads, `struct.pack`, `bytearray`, `d7a/support/schema.py` | `MBase`, `MSchema`, `MAsDict` | the schema entries are checked in each constructor `mk_…`; `MSchema` has the schemas themselves |
| `d7a/support/Crc.py` | `MCrc`, `MCrcTable` | `MCrc` is the bitwise definition of the CRC that the library call computes, `MCrcTable` crcmod's byte-wise table algorithm; both are proved equal to polynomial division (C57) |
| `d7a/types/ct.py` | `MCt` | complete |
| `d7a/phy/*.py` | `MPhy` | complete, including the channel strings (on Coq `string`) |
| `d7a/fs/*.py` | `MFs`, `MEq` | complete (`MEq`: `==`, `!=`) |
| `d7a/d7anp/addressee.py`, `d7a/sp/{qos,configuration,status}.py` | `MSp` | complete |
| `d7a/dll/{sub_profile,access_profile}.py` | `MProfile` | complete |
| `d7a/alp/operands/*.py`, `d7a/alp/interface.py` | `MOperands`, `MEq` | complete |
| `d7a/alp/*.py`, `d7a/alp/operations/*.py` | `MAlp` | complete, including the factories of `Command`; random tags are a parameter |
| `d7a/system_files/*.py` | `MSysFiles`, `MPhyStatusHeap` | complete; the second file gives `PhyStatusFile` a store of list objects, because its default lists are shared |
| `d7a/d7atp/*.py`, `d7a/d7anp/{control,frame}.py`, `d7a/dll/*frame*.py`, `d7a/dll/parser.py` | `MDll` | complete |
| `d7a/serial_modem_interface/parser.py` | `MSerial` | complete |
| the same, `parse` in several threads at once | `MInside` | C101: every access to `self.buffer` one step; counters in one step |
| `modem/modem.py` readers together with `parse` | `MStation` | C102: composition of `MReaders` and `MInside` |
| `modem/modem.py` | `MModem`, `MConnect`, `MThreads`, `MSync`, `MMailbox`, `MCallback` | `MModem`: dispatch and the two-thread transition system; `MConnect`: one object over time, device exceptions, `connect()`; `MThreads`: several senders; `MSync`: several threads waiting for answers, each step one access to a shared attribute, the write one step; `MMailbox`: polling; `MCallback`: raising callbacks |
| `examples/write_update.py` | `MOta` | the loop that sends the image |
| `examples/engineering_mode.py`, `change_access_profile.py`, `write_factory_settings.py`, `interface_configuration.py` | `MPrograms` | the commands they build, the resend loop of the first |
| `examples/write_update.py`, `engineering_mode.py` | `MExit` | the loops with the callback that calls `sys.exit` in the reader thread |
| `examples/throughput_test.py` | `MThroughput` | the message, the sending loop, the receiver callback and the verdict; printing and the set-up of the modems are not modelled |
| `examples/switch_to_push_notification.py`, `query_nodes.py`, `read_phy_status.py`, `send_lorawan.py` | `MPush` | the commands, the report loop, the callback of `query_nodes.py`; the float multiplication, argument parsing and log output are not modelled |
| `modem/modem.py` `start_reading`, `stop_reading`, loop of `_read_async` | `MLife` | C74: thread creation, flag, cancellation, join; handling of a byte is `reader_chunk` |
| the same, called by any thread any number of times | `MReaders` | C100: every access one step; parser and callbacks left open |
| `alp/operations/*.py` constructors, `Operation.__init__` | `MOperation` | C75: untyped arguments; serialisation of operations is `MAlp` |
| all `Enum` classes, `support/serialization/enum_handler.py`, `SystemFiles.get_all_system_files` | `MEnum` | C76; jsonpickle's own part of the encoding is assumed |
| `Modem.execute_command`, the waiting loop with the clock | `MTime` | C77; what is collected when is in `MModem`, `MSync` |
| `Modem.execute_command`, `stop_reading` called from a callback inside `_read_async` | `MReenter` | C78; one thread (the reader) and bytes arriving at any time; other application threads are in `MThreads` (C68), `start_reading` from a callback in `MReaders` (C100) |
| default arguments and stored arguments of `Configuration`, `Offset`, `Data`, `DataRequest`, `InterfaceConfiguration`, the actions and the read, write and return factories of `Command` | `MShare` | C79; objects as indices of a store. An argument of a wrong class is a `ValueError`; operation objects are part of their action; the time of an NBID addressee and LoRaWAN configurations have no parts; the defaults of `SubProfile`, `InterfaceConfigurationFile` and the action classes are left out |
| objects with `__eq__` and without `__hash__` in lists, sets and dicts | `MHash` | C80; CPython 2.7 on 64 bits; the hash table is a list of entries, the hash of longs that are no ints a parameter |
| application threads in `execute_command` while callbacks call it too | `MBoth` | C81; on top of `MReenter`; a call up to its waiting loop, the end of the loop and one handled message are one step each |
| `Modem.execute_command`, `connect` when `dev.write` or `dev.flush` raises | `MWrite` | C83; one thread of calls; the exception is `SerialException`, other exceptions of pyserial behave alike |
| two `Parser` objects at the ends of one line | `MDuplex` | C84; the line is two byte queues without loss (loss and damage: C08, C82) |
| `examples/unsolicited_response_logger.py` | `MLogger` | C85; log lines of the two callbacks; `logging` catches exceptions of `str(cmd)` |
| `serial_modem_interface/examples/generate_messages.py` | `MGenerate` | C86; lines printed; layout by `pprint` not modelled |
| error entries of `Parser.parse`, "Parser error" lines of `_read_async` | `MReport` | C88, C89; on top of `MSerial`; the text of the exception and the bit position of an entry are in `MCause` |
| text and position of the errors of the frame header | `MCause` | C95 |
| text and position of the errors of the ALP parser | `MWhere` | C103; wording of enum34 and CPython 2.7; the argument of a `ValueError` of cerberus is left open |
| the loop of the readers over the returned messages, with any number of readers | `MDeliver` | C104; the branch a message takes is left open |
| handling of messages by several readers during `execute_command` | `MCrowd` | C105; callbacks are one step |
| counters of `Parser` with several threads | `MTally` | C106; single loads and stores; apart from `MInside`, where nothing else depends on the counters (C106_messages_unaffected) |
| `Command.describe_actions` | `MDescribe` | C90; how Python writes a number, list or dict is a parameter |
| `tools/modem2mqtt.py` | `MModem` (`m_skip = true`), `MBridge` | C48, C73: the constructor step by step beside the reader, the callback, the statistics loop; the MQTT client's own threads and the network are not modelled |
| `tools/parse_hexstring.py` | `MHexTool` | from the text to the objects printed; option parsing is not modelled |
| `__str__` of commands, actions, operations, operands, frames, system files | `MPrint` | which values are written where; digits, quoting and `pprint` layout are not modelled |
| sequences of `add_action`, `add_forward_action`, `add_indirect_forward_action` on one command | `MBuild` | integer file ids, a configuration of the declared type |

Spec files: `SCodec` (what "has this layout" means), `STypes`, `SAlp`,
`SCommand`, `SContent`, `SFiles`, `SDll` (layouts and well-formedness),
`SChannel`, `SCrc` (GF(2) polynomials), `SSerial` (frames, feeding a receiver),
`SModem` (places, histories, schedules), `SConnect`, `SThreads`, `SMailbox`,
`SCallback`, `SOta`, `SEq`, `SSchema`, `SAsDict`, `SHexTool`,
`SPrint`, `SBuild`, `SSync`, `SConverse`, `SPrograms`, `SThroughput`, `STable`, `STexts`, `SConnect2`, `SPush`, `SBridge`,
`SExport`, `STransport`, `SLife`, `SOperation`,
`SEnum`, `SEnumNames`, `STime`, `SReenter`, `SShare`, `SHash`, `SBoth`, `SRecover`, `SWrite`, `SDuplex`, `SLogger`, `SGenerate`, `SLate`, `SReport`, `SDescribe`, `SForge`,
`SUndetected`, `SConstruct`, `SUnique`, `SCause`, `SChange`, `SExit`, `SPrompt`, `SRelay`, `SRound`, `SReaders`, `SInside`, `SRecheck`, `SStation`, `SWhere`, `SDemand`, `SDeliver`, `SCrowd`, `STally`, `STally2`, `SCounted`, `SRetry`, `SResend`, `SImage`.

### Not modelled

Logging, the digits and layout of printed values (except channel strings,
which can be parsed back), `pprint`, text of error messages (except those of the serial and the ALP parser: `MCause`, `MWhere`), jsonpickle (except the handler for enumerations), MQTT transport,
the serial device itself (a byte stream chosen by the environment), wall-clock
time (a nondeterministic "timeout" event, except in `MTime`), `util/`, `d7a/sp/session.py` (unused
constants),
the other files in `examples/`, Python 3 behaviour.

Granularity of the thread models: one step is one load or store of a shared
attribute, one `append`, one acquisition or release of the lock, one byte
written. CPython executes at least these atomically; it may execute more
atomically, so every real schedule is one of the modelled ones, and theorems
over all schedules carry over. Witness schedules (`_refuted`) switch threads
only between bytecodes.

## 2. Trusted base

* Coq 8.16.1 kernel (and `vm_compute`, which is part of it).
* What `Print Assumptions` prints under each theorem in the `P*.v` files:
  "Closed under the global context" for all of them. No axiom, parameter,
  section-less variable, `Admitted` or switched-off check anywhere. (A scan of
  all loaded library files also finds the axioms of the abstract module
  `Coq.ssr.ssrunder.Under_rel`, which is loaded with `Lia`; no theorem here
  depends on them.)
* The reading of /repo into the `M*.v` files, and the behaviour assumed of the
  external libraries: bitstring 3.1.7 reads, cerberus 1.1 validation, crcmod
  `crc-ccitt-false` (poly 0x1021, init 0xFFFF, not reflected, no final xor),
  `struct.pack`, CPython 2.7 `bytearray`, integer and float arithmetic
  (exact for the integers that occur), pyserial delivering the bytes of the
  device in order, its `read()` and `cancel_read()` (head of `MLife.v`).
* Evidence for that reading, not proof: `VTests1.v`-`VTests3.v` transcribe the
  repository's own unit tests as examples about the model. Every one of them
  holds by computation. No claim rests on these files. Tests that check only
  Python class machinery (`Operation()` without attributes, abstract classes)
  have no counterpart.

## 3. Properties: what is modelled and how it is proved

Key: RT = bit-layout theorem (serializer output equals an independent layout
in the Spec file, parser inverts the layout in front of any continuation).
REF = the expected statement is false of the code; a witness theorem
`…_refuted` is proved together with the exact region where it holds.

| Id | Plan |
|----|------|
| C01 | serial model; induction over the payload list; frame layout in Spec; combination with C03 gives every chunking |
| C02 | C16 for every action, induction over the action list, then as C01 in ALP mode |
| C03 | every parser is monotone under extension of the stream (a success or a non-ReadError failure does not change when bytes are appended), proved compositionally; then one-step commutation of the receive loop and induction over chunks |
| C04 | lemma on skip_bad_buffer_content; garbage is consumed in one step |
| C05 | inversion of one delivery step, then invariant over the loop |
| C06 | CRC as bitwise shift register over a bit list: linear; register update is injective (constant term 1) hence bursts of at most 16 bits are detected; parity via divisibility by x+1; two-bit errors by sweep of the register over the finite distance range |
| C07 | direct, from the frame layout |
| C08 | arithmetic mod 256 over the frame sequence |
| C09 | fuel bound: each error drops at least a byte, each message at least 7; invariant on the residual buffer |
| C10 | REF; characterisation of crashes, stickiness by monotonicity (C03), absence in skip mode |
| C11 | inversion of a delivery step; REF witnesses for overrun |
| C12 | direct case analysis |
| C13 | invariant of the residual buffer; REF witness family for ALP mode: for every n a stream that keeps n bytes |
| C14 | as C01 with arbitrary type |
| C15 | exceptions tracked compositionally through all parsers; alignment invariant; fuel bound |
| C16 | RT for every operand, then action |
| C17 | exact characterisation: operand dropped iff data empty |
| C18 | arithmetic on the four ranges |
| C19 | fold over actions; spec by filtering the action list |
| C20 | from C16 plus REF witnesses |
| C21, C22 | symbolic execution of the factories for all arguments |
| C23, C24 | arithmetic on powers of 4; competitor quantified over all (exp, mant); REF for floor |
| C25 | finite sweep over 256 bytes, RT |
| C26, C27 | RT; exact fixed points of the double compression by sweep over 256 bytes |
| C28, C29, C30, C32, C34 | RT |
| C31 | decimal printing and parsing of indices; exact characterisation |
| C33 | RT with list of sub bands of arbitrary length |
| C35, C36, C37 | DLL model; RT for the fields in front of the ALP command; REF for serialization; monotonicity for chunking |
| C38 – C41 | RT per file; exact characterisations; REF witnesses |
| C42 | explicit store for the shared default list; histories are lists of constructor calls |
| C43 | case analysis over the file id table |
| C44, C45, C47 | reader step as a function of state and message; induction over histories |
| C46 | interleaving transition system; REF: concrete schedule; positive theorem under atomic handling |
| C48 | composition of C01/C03 and C44 |
| C49 | from the constructor checks of each class; REF for the listed classes |
| C50 | symbolic execution of the factories for every system file |
| C51 | REF: witness streams with two chunkings and different counts; the general rule by induction over the chunks, for both libraries; what a cut before a single bit does |
| C52 | accounting invariant: delivered + dropped + buffered = received, by induction over the receive loop |
| C53 | DLL frames whose length byte leaves out the CRC: RT with two bytes fewer, by the monotonicity lemmas of C03; REF |
| C54 | store of list objects in the transition system; retired lists do not change; order and subsequence invariants |
| C55 | session model: the thread lives iff no exception; induction over device events; REF: reconnecting |
| C56 | connect() split at its waiting loop; symbolic execution of request and answer; all other traffic quantified |
| C57 | division invariant of the bit register; uniqueness of remainders by degree; table algorithm equals eight bit steps (sweep over 256 table entries, linearity for the rest) |
| C58 | n threads with program counters; ghost transmission log; invariant "wire = finished frames ++ a prefix of one frame held by the lock owner"; REF schedules for duplicate counters and 256 |
| C59 | loop invariant over rounds; composition with C02/C03 for what the node decodes; on a damaged line each round by the exchange of C108 |
| C60 | `==` characterised by cases; injectivity of serializers from the RT theorems; REF: transitivity with longs, `!=` of channel headers |
| C61 | store of list objects; invariants over polling rounds; REF: lost messages |
| C62 | dispatch with an exception oracle; simulation by the exception-free reader up to the first exception |
| C63 | interpreter of the schema rules over a universe of Python values; one lemma per rule, then by the structure of the table of classes; agreement with every `mk_X` |
| C64 | Python values as trees; `as_dict` as in the code; each class encoded as the tree of its attributes. Plainness and paths by induction on the tree and the path under an invariant of the shape of trees; injectivity class by class |
| C65 | text as a list of character codes; `strip`, `replace`, `decode("hex")` as functions, the spellings of bytes as a relation; equivalence by induction on the text, the rest from the round trips of C02, C20, C38 |
| C66 | texts as lists of pieces over the attribute trees of C64; format strings as a table checked once by computation, then a general theorem on filled formats; commands by induction on the actions |
| C67 | sequences of calls as a fold; each call appends what `SBuild.added` says; layout and parsing by induction over the calls on top of C16-C20; refutations by explicit byte patterns and by the parser running off the end |
| C68 | any number of threads over the step function of `MModem`, with the assertion as a step of its own; serialised schedules: the invariant of C45 for the one thread in a call, the assertion as a stuttering step; every schedule: three inductive invariants (origin of results, permutation of whereabouts, cause of the exception); refutations by explicit schedules for all tags |
| C69 | a conversation as a fold over exchanges; one exchange composes the builder (C02), the byte stream (C03-C05) and the dispatch (C43, C44); induction over the exchanges with `in_use` as invariant; replies built by calls (C67) accepted by the parser |
| C70 | the builders as functions of an options record; every builder equals a normal form (forward, writes), whose bytes come from the codecs (C02, C33, C38, C40); `node_receives` (C59) for the effect on files; the loop by induction over rounds, each round by C59's `round_ok`; on a damaged line each round by the exchange of C108 |
| C71 | waiting loop as a recursion over the turns for which there is time, `ends_after` says when it stops (unique); the payload check by induction; sending by induction over rounds with the one-round lemma of C59 and the frame stream lemma; refutations by concrete arrival histories |
| C72 | `MPush`: the commands of four more examples, the report loop and the query callback. `SPush`: node-side meaning of query and read, exact bytes. Equations for the built commands, round trip theorem of C17 for the stored action, induction over responses and messages. |
| C73 | transition system of the bridge program: device events, handling of one message by the reader, next assignment of the main thread; the exact outcome of every schedule by induction over it, with the exact frame sequence (well-formed traffic) or some located frames (any bytes) |
| C74 | `MLife`: reader threads, application and device as steps; invariant over schedules with alternating calls (only the last thread runs, its position against the flag and the pending cancellation, bytes arrived = handled ++ held ++ waiting); a measure for the steps left in `stop_reading`; REF: schedules with two readers, by computation |
| C75 | `MOperation`: table of the operation classes and `Operation.__init__` over untyped values; case analysis over operations and values against the typed model (`SOperation`); code on the wire from the six bits of `action_ser` |
| C76 | `MEnum`: the class bodies of all enumerations, Python's lookups, the jsonpickle handler with `rsplit`, `sorted`; lookups in lists without duplicates, finite tables by computation, the conversions of the wire fields by case analysis over all integers |
| C77 | `MTime`: the waiting loop with the instants of every read of the flag and of the clock, the clock being any function of real time; case analysis of the look that ends the loop, induction over the looks; REF for clocks that are set |
| C78 | `MReenter`: callbacks as programs (inductive, with continuations on the result of each call), the reader thread as a state machine over single bytes; specification `SReenter`: a fold over the bytes in which each call returns the empty list at once; invariant: finishing the current work at once gives the outcome of the bytes read so far; induction over executions, induction over programs; delivery by an induction principle over decoded messages |
| C79 | `MShare`: a store of objects, constructors that add to it, assignments that change it, programs as lists of calls; specification `SShare`: the parts of an object and reachability. Frame theorem by induction over the program and the depth of the value; a change of a simple object is visible iff reachable; the factories are compared with the value factories of C21 for the values at any later time; the wire form after a change of the list; independence refuted by a concrete program |
| C80 | `MHash`: objects with addresses, hashes, lookup in lists, sets and dicts on top of the comparison of C60; specification `SHash`: coherent memory, same key. Injectivity of the hash of addresses; exact characterisation of every lookup by cases; sets and dicts by induction; two refutations with concrete addresses |
| C81 | `MBoth`: the reader world of `MReenter` with any number of application threads on the same modem object; every step emits observable events; specification `SBoth`: what was collected for the last accepted call, told from the events alone. Four kinds of steps; one invariant linking the object's attributes to the events, by induction over the schedule; two refutations by concrete schedules |
| C82 | on the model of C01-C06; specification `SRecover`: what starts a frame with a right CRC, what is unfinished, damage in which neither occurs; induction on the bytes in the buffer (an attempt inside the damage errs or waits), then on the calls; CRC linearity (C06) for frames that were hit or lost up to 16 bits at the end |
| C83 | `MWrite`: `execute_command` and `connect` with the outcome of each write (all bytes, or an exception after any prefix); specification `SWrite`: what is observable, the pieces on the line; simulation between the histories with and without failures; the line by induction on the history; the peer by C82 |
| C84 | `MDuplex`: two `Parser` objects joined by two byte queues; any schedule of sends and reads; invariant per direction: the frames under way are whole, successive and what the receiver has not got yet |
| C85 | `MLogger`: the program, its two callbacks and the log, on top of the reader and `connect`; specification `SLogger`: which messages deserve a line; induction over the chunks with the invariant that less than a frame is buffered |
| C86 | `generate_messages.py`: printed sections, refusals, the six messages; printed frames are read back by the tool of C65 and by a receiver (jumps of the counter as in C08). Induction over the list of commands. |
| C87 | the conversations of C69, each message labelled with the call it answers (`SLate`); which labels a call returns; counting and pigeonhole for drawn tags |
| C88 | error reports of the serial parser: `MReport`: each round of the receive loop leaves a record; proved equal to `MSerial`'s loops; tiling of the buffer by induction over the rounds; the hexadecimal text against the specification of C65 |
| C89 | work of the receiver: sums over the rounds of C88; amortised bound by induction over the calls; two families of streams with exact quadratic cost |
| C90 | the texts of C66 written out as characters; how Python writes atoms is a parameter; structural induction over texts for what they begin and end with, `strip` by induction over the characters |
| C91 | frames in the content of a message: `file_content` for the sender, the front part of its frame broken by one changed byte or a late start, then the line of C82 with the planted frames as intact pieces; CRC detection of C06 for the changed byte; the modem of C69 fed with the result |
| C92 | the CRC register as a map on 16-bit states: any state is reached from any other by exactly one choice of two bytes (finite sweep over 65536 states for the base, linearity for the rest); counting over the list of all contents by induction on the length |
| C93 | the constructor loop equals "first action that does not fit" by induction on the list, with the command made of a prefix as the invariant |
| C94 | from the parsing theorems: a parser is a function, so two layouts it reads from the same bits are one; induction over lists of actions and of frames |
| C95 | text and position of error entries: `MCause`; case analysis of an attempt; texts separated at the blanks, decimal numbers by a sweep over the bytes; induction over the rounds for the missing 0xC0 |
| C96 | attributes changed after construction: the records of the model with unrestricted integers; inversion of the serializers; for data the codecs of offset and length and `firstn`/`skipn` of what follows |
| C97 | `write_update` and `engineering_mode` with their callbacks as a special case of callbacks that raise (`MCallback`); the loops with arbitrary callbacks, compared with the loops without; induction over the messages up to the late one |
| C98 | the parser and the reader thread stopped at an arbitrary byte: the frames complete in a prefix of the traffic are defined from the bytes, and each call is shown to return exactly these; induction over the frames and over the reads |
| C99 | parser, constructor and serialiser of commands composed: one hop computed exactly; the converse from a lower bound on the bits each action takes when read; induction over the hops; the 256 NBID bytes by a sweep inside the kernel |
| C100 | `MReaders`: any number of readers and application threads, calls also from callbacks, one access per step, the handling of a byte left open; the bytes numbered by arrival and the numbers tracked through every step; weights over threads and calls for the bounds; joins only go to later threads, hence no deadlock; REF and tightness: schedules of any length by induction |
| C101 | `MInside`: threads inside `parse`, one access to the buffer per step, bytearrays in a store because the buffer is replaced while others hold it; alone: refinement to `MSerial` by induction on its fuel; whole frames: invariant over the history of contents; end of calls: lexicographic measure (extensions to come, weights exponential in the length of the buffer); REF: two schedules, and a periodic endless one |
| C102 | `MStation`: the readers of `MReaders` with the Parser of `MInside`, handing a byte over begins a call; runs project to runs of both parts; in order: at most one live reader means at most one call, which is then a call of C101 that nobody disturbs; turns: weights of live and starting readers, phases of the calling thread; end: lexicographic on the work of C100 and the steps left inside `parse`; REF: three schedules and an endless one |
| C103 | `MWhere`: the parsers of `MAlp` and its operands with position and text of an exception, proved equal to them by erasing both; position: what is read before a decision is a prefix, shorter streams lack bits (one invariant for all parsers); text: the list of classes each parser can name with their offsets, computed along the structure; entries: the frame of C95 |
| C104 | `MDeliver`: the readers and Parser of `MStation` with the messages each reader has still to take; per reader: returned = taken, waiting, forgotten, by an invariant over all steps; with one reader everything that waits is its own, so the taken messages are those of one thread (C102); after a stop by the weight of C102; it ends because the steps of the parts do (C102) and each message taken is one of those in the bytes; at rest by cases on the state of a reader; schedules by computation |
| C105 | `MCrowd`: the steps of `MSync` with a list of readers; the invariants of C68 for each reader; messages in one place by one step of `MSync` at a time; serialised calls by an invariant: the list of the call and the answers in the readers' hands are together the answers received; schedules by computation |
| C106 | `MTally`: lines 169-175 of parser.py in steps of one load or store for any number of threads; alone: what the counters become is a function of the place and does not change along the steps; at rest: down_counter is above 255 only while some thread is between its store and its reset; errors: those counted and those still possible are at most the frames; recovery by the sequential function; refutations by schedules, one of them by induction |
| C107 | `MSerial`, `MReport`: the headers looked at are defined on the buffers of the rounds; by induction over the attempts the counters seen are those of the headers; chunks: the counters of two calls are those of one without the counter of the frame put off, which comes again first in the second call; good and damaged frames by induction over the sequence for any prefix; two expectations refuted |
| C108 | `MSerial`, `MModem`: the induction of C107 over good and damaged frames for any prefix of the bytes, then through the reader as in C98; conversations by induction over the calls as in C69 with the traffic the damage leaves; repeated connect() by induction over the attempts, the successful one by C56 on the frames the damage leaves |

## 4. Testing the theorems

`seeded/LOG.jsonl` records edits of the model that imitate realistic bugs, made
in a scratch copy that is rebuilt afterwards: the definition, the edit, the
claim it breaks, the theorems that no longer prove and the theorems tightened.
Entries `gen…` were generated: their build stops at the first failure, so `failed`
names that lemma or theorem only. Generated edits that are not well typed (about a
fifth) are not programs and have no entry. Other entries list every theorem of the
property files that were rebuilt, usually those of the claim, not of all properties. An
entry with empty `failed` says in `note` why: the edit survived and a theorem was
tightened, it changes nothing observable, or it could not be tried and was retried. Ids
ending in `-2` are a second, different edit made under the same id. Up to commit
e8dfab6 the log mixed up such pairs (the `failed` of both under the second edit) and
left out edits that could not be applied.

`failed` means that the proof, with its lemmas, no longer goes through. It does not
mean that every theorem listed is false of the edited model: a theorem that rests on a
broken lemma is listed too, and could sometimes be proved in another way.
This holds above all for the generated edits, nearly all of which stop in a lemma. Of 30
drawn at random, three were in doubt (names in an export, the kind of an exception) and
were compared with the theorems, which exclude them; the others were judged by reading
the edit only. Later all generated edits of definitions outside `MSchema` that
had stopped in a lemma were read once: ten of them change nothing a user can observe (by
reading, not by proof) and were stopped only because a proof follows the text of the
definition. Their entries say `"claim": "none"`; they had been logged as rejections before.
