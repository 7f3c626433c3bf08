# Formal model of python-messaging: design

The subject is the Python 2 package in `/repo/messaging`. It is modelled by
hand in Rocq (Coq 8.16.1), function by function, as total computable Gallina
functions. Nothing in `/repo` is built or run.

## How the code is modelled

* **Integers** are `Z`. Python's `>> << & |  / %` on ints are `Z.shiftr`,
  `Z.shiftl`, `Z.land`, `Z.lor`, `Z.div`, `Z.modulo` (same semantics, including
  negatives; `/` is integer division in Python 2).
* **Strings** are lists of character codes. Where `str` and `unicode` behave
  differently (texts of SMS, gsm0338 codec) the pair (kind, codes) is used and
  Python 2's implicit ASCII coercion is modelled.
* **Exceptions** are values: `res A := Ok a | Err e`. Mutable objects are
  records threaded through `state -> res A * state`, so effects performed before
  an exception stay visible.
* **Loops** are structural recursion where Python iterates over a list, and
  fuelled recursion where it loops on a condition. Running out of fuel is the
  distinct result `OutOfFuel`; theorems prove that it never happens.
* **Dictionaries** are association lists. Iteration order of a Python 2 dict is
  arbitrary, so theorems quantify over every order.
* **Outside world**: files and (except in C99) the SMIL XML serialiser are
  arguments of the model and are universally quantified.

## Layout (`rocq/theories`)

| file | content |
|---|---|
| `Py.v` | Python 2 runtime fragments: exceptions, slicing, `chr`, `int(s, b)`, hex, str/unicode |
| `Utils.v`, `Gsm.v`, `Udh.v`, `Submit.v`, `Setters.v`, `Deliver.v`, `Data.v`, `Printed.v` | SMS model |
| `Iter.v`, `Tables.v`, `WspDec.v`, `WspEnc.v`, `MmsDec.v`, `MmsEnc.v`, `Message.v`, `Xml.v`, `Wap.v` | MMS model |
| `Spec*.v` | specifications written from the standards and the English properties, not using the model's helpers |
| `*Claims.v` | the vocabulary relating model objects to specifications, used in the statements |
| `*Facts.v` | lemmas and proofs |
| `Prop*.v` | the theorems, each closed by one lemma, with `Print Assumptions` and concrete instances |
| `Conformance.v` | the model evaluated on the literal vectors of the project's own unit tests |

## Plan per property

Each line: what is modelled, how it is proved.

| id | plan |
|---|---|
| C01-C04 | `gsm0338.encode/decode` over lists; alphabet given again in `SpecGsm.v` as the 3GPP table; induction on the text, finite sweep over the 128 codes |
| C05-C07 | packing loop and unpack loop; spec is the little-endian value of the bit stream; digit formula by arithmetic, uniqueness of base-128 digits; the longest text that comes back exactly (PropExact) |
| C08-C09 | `timedelta` as microseconds; spec decodes the octet per GSM 03.40; linear arithmetic |
| C10-C11 | `strftime`/BCD at character level; spec decodes swapped BCD; sweep over two-digit values; C11 expected false for negative zones: refutation; both settled exactly for every offset (PropExact) |
| C12-C14 | address encoders and `swap_number`; spec semi-octet reader; induction by pairs |
| C13 | regex `^\+?\d{3,20}$` as a boolean function against an inductive-style spec |
| C15-C20 | splitting loop with fuel; induction on the window; C20 expected false: refutation |
| C21 | composition of packing facts and `_process_message` |
| C22-C24, C28 | whole `to_pdu`; spec parser for SMS-SUBMIT |
| C25-C27 | state machine over histories of calls; C27 expected false: refutation |
| C29-C32, C35-C39 | whole `SmsDeliver`; spec encoder for SMS-DELIVER / STATUS-REPORT; C32, C37, C38, C39 expected false in part: refutations plus the true part |
| C33-C34 | UDH parser; serialiser in the spec; induction |
| C40 | refinement to a list with two cursors; induction on the call history |
| C41-C47, C65 | WSP primitives, state monad over the iterator; C43, C44 and part of C47 expected false: refutations; C47 exactly: `SpecVersion.v`, the strings `int()` accepts and what is sent for every string, and which strings are read back |
| C48 | content types; parameters expected false: refutation plus the parameter-free theorem; settled exactly in PropPartHeaderExact |
| C49 | per decoder; false for five: refutations, and the exact first octets for which those stay |
| C50-C52, C55, C56 | MMS encoder composed with decoder; C55 (Bcc) and C56 expected false; C50 and the headers of C56 settled exactly by what every decoder takes from its input (PropHeaderExact, PropPartHeaderExact); C55 settled exactly (PropRepeat) |
| C53, C54, C58 | expected false: refutations; C54 settled exactly for a message encoded twice (PropRepeat), dictionary order being a function of the dictionary (`w_order`) |
| C57 | fuel bound: every loop iteration consumes input; enumeration of exceptions |
| C59-C62 | objects of `message.py`; file system as a function; C59, C61 partly, C62 expected false; C61 settled exactly (PropSmil) |
| C63 | `wap.py` |
| C67, C68 | added while proving C33 and C35: expected false, refutations |
| C69 | `reads` in SpecGsm: what an octet string means when a bad code is read as a given text; induction over the octets |
| C70 | length of the result compared with the length of the input; expected false, refutation |
| C71, C72 | world updated by `to_file`; encoding depends only on the files of the slide parts (induction over slides); failures expected to lose the file, refutation; settled exactly: what the target holds after any save (PropOwnFile, PropFiles) |
| C73-C75 | `SpecMms.v`: the binary form of the standard as an inductive grammar relating octets and meanings, full standard; decoder shown to return the meaning for everything but an enumerated list of constructs (`misread_*`), each of which is refuted; induction over the derivations |
| C76-C78 | expected false: refutations; C76 also for messages without repeated names |
| C79-C80 | the octets the encoder writes are put into the grammar of `SpecMms.v` (`Field`, `Multipart_message`), for headers and parts described in `EncodeClaims.v`; refutations for what the encoder writes differently (texts that need a quote, sizes of several octets, content types with parameters); settled exactly for headers, content types and part headers by inverting the grammar (PropFieldExact), and for whole messages (PropAligned) by showing that the grammar can cut what the encoder wrote (C123) at the same places only |
| C81 | `SpecPush.v`: push units in SMS-DELIVER; composition of the SMS decoder theorems (C30), the push theorem (C63) and the grammar theorem (C75); exactly what the MMS decoder is given for headers of any length; refuted for push headers of more than 128 octets |
| C82 | `SpecParts.v`: the ways of sending a text; the greedy cut is ahead of every other cut, by induction on the other cut; refuted for UCS-2 texts with character 27, which is taken for an escape; settled exactly for these too (`SpecCuts.v`, PropCuts) |
| C83 | `CutFacts.v`: a relation between the run on a prefix and the run on the whole, shown for every decoder by composition, and a bound on the look-ahead; for the messages of the grammar the cut body raises StopIteration; refuted for cuts behind the header; for standard messages every place to cut is settled (PropCutExact) |
| C84 | `SpecPieces.v`: pieces in order; every decoder consumes a prefix (`MmsTotal.v`), by induction on the number of parts |
| C85 | `SpecCut.v`: what can be left of a text; case analysis on the field that is cut; unpacking a prefix of packed octets gives the complete septets; refuted: the announced length of the user data is never compared with the data, and status reports without status are accepted |
| C86 | `decode_data`, `encode`, `decode_data` composed: every decoded message has a dictionary of headers, no pages and the four default headers, by induction over the header loop, so C52 and C53 apply; refuted for every message with parts, true of the headers of messages without |
| C87 | `SpecAssembly.v`: how a receiver puts parts together; permutation of the parts of a list of messages, composition of the facts behind C18 and C19; an invariant on the ids of an object; refuted: every new object numbers its message with 1; settled exactly in `PropMixed.v`: the texts of the parts depend on text and coding only, so that all messages are put together exactly when those with the same reference agree in both |
| C88 | `SpecFrame.v`: counts and lengths of a multipart body, with any headers; induction over the slides; number and lengths right without attached parts and with unchanged files; refuted with attached parts: uintvars are self-delimiting, so the body is framed in no way at all; exactly: two framings with the same data announce the same lengths |
| C89 | `SpecSurrogate.v`: 16-bit units, surrogate pairs, well-formed text; a UCS-2 text without the character 27 is cut at the multiples of 67, so the parts are texts exactly when no pair starts at a unit 67 k + 66; refuted for every other text; with the character 27 in terms of the cuts of `SpecCuts.v` (PropCuts) |
| C90 | GSM and UCS-2: whatever is sent is encodable, everything else raises ValueError (UnicodeError is one); refuted in 8-bit coding: no Unicode text shorter than 128 characters is refused |
| C91 | `SpecAttach.v`: last component of a path, type of a file; a loaded part has exactly the two headers and the data of the file; induction on the path |
| C92 | fold over any list of additions, starting from any message with a content type |
| C93 | refuted: nothing but assigning ref changes the reference of a reachable object, by induction over operations; new objects use 0; what an assigned reference becomes is proved |
| C94 | the attributes are kept by every step of the encoding, success or exception (`same_settings`) |
| C95 | two runs compared through the decomposition of to_pdu into parts and the reference counter |
| C96 | the decoder sees only the octets: every step commutes with changing the pdu attribute |
| C97 | direct from the first octet after the SMSC; for produced PDUs through the layout of the emitted octets |
| C98 | refuted: which pairs of characters are taken for an octet is settled exactly (`pair_octet`), then by induction on the string; a blank may stand for any leading zero |
| C99 | `Xml.v`: minidom's serialiser; `SpecXml.v`: how an XML 1.0 processor reads a document of elements; the text of a tree reads as exactly one tree up to attribute values (`document_reads`), by induction on trees; every source and text of the slides is in the document (invariant over the slides); exactly: no control characters, tabs, line ends, broken UTF-8; refuted for the others |
| C100 | `SpecTiming.v`: the documented moments and those the attributes describe; linear arithmetic over C61; refuted for media with a begin and no end, exactly these |
| C101 | refuted: clock values without a metric count seconds, and no par has the attribute dur |
| C102 | exactly: no slide has text and no two files have the same last component |
| C103 | `Data.v`: the dictionary; C30 and C35 give the attributes; a frame argument over the decoder (which attributes it leaves alone) for all accepted PDUs |
| C104 | composition of C52, C61 and C99: `PropArrives.v` shows that the text has no other reading (UTF-8 characters and escapes are told apart), then exactly which messages arrive as a slide show that describes every slide |
| C105 | two runs of the same code compared (`PropAssign.v`): on failure text, type and report are the old ones, the pdu attribute is the refused string (refuted for every string that gets past the length check), witness of a mixed object; the same comparison settles C37 for all strings and objects |
| C58, C62, C68, C70, C76 (exact) | `PropWhen.v`: the condition under which each of these partly false claims holds, as an equivalence |
| C22 (wide) | `PropWide.v`: every 8-bit text with a character above 255, by comparing the emitted hexadecimal with that of a well-formed PDU |
| C106 | `SpecUdh.v`: what is found in any octet string; induction over the parsing loop of `Udh.v` with the elements read so far; the cut last element refutes the claim |
| C107 | `SpecDigits.v`: all digits of an address; the number shown by `swap_number` for all of them, composed with the decoder theorem behind C30; exact condition, refuted for the asterisk and number sign |
| C108 | two runs compared: the reader of `SpecSubmit.v` (C22, C16) applied to equal PDUs; packing, UCS-2 and the GSM code are injective; the parts one by one |
| C109 | False of the code. Exact condition for an unchanged message after a failure (`C109_exact`), what is kept in any case (`C109_others_partial`), what a corrected message is then sent as (`C109_retry`), and a concrete message (`C109_kept_refuted`), from the shape of the header encoder for every outcome. |
| C110 | `Dump.v` models the loop of `resources/pydump.py`; `SpecDump.v` is a reader of such dumps; induction over the rounds of the loop. |
| C111 | two runs compared, from the round trips (C52, C104): headers (`C111_tell`, `C111_headers`), parts, slide show (`C111_show`); false of attached parts (`C111_attached_refuted`, from C53). |
| C112 | grammar of typed values beside the theorem; the readers of C73/C74; exact: all but No-value and quoted strings (`C112_exact`, `C112_quoted_refuted`); the Text-value branch is never taken (`C112_compact`). |
| C113 | `Setters.v` adds the type tests of the two setters to `Submit.v`; cases over the values, invariant `reachable_wf` for the last sentence. |
| C114 | `SpecRefuse.v` lists the defects and their exceptions without using the encoder or its tables; each encoder is shown to raise exactly for its list, then parts, slides, the header of the message and the whole message are put together. |
| C115 | `SpecUnsent.v` lists the defects of an SMS and their exceptions in terms of its attributes, the GSM alphabet and the places where a text is cut (`Cuts`); every step of `to_pdu` is shown to raise exactly for its defects, part by part for long texts. |
| C116 | `SpecUnread.v` lists the defects of a received PDU in the order of its fields, with their exceptions; each stage of `_set_pdu` (pairs of characters, service centre, sender, date, user data header, text) is shown to fail exactly for its defects, and the stages are chained. |
| C117 | `SpecReader.v` is a reader of messages over plain lists: a value and the octets after it, or an exception and the octets not taken, with no iterator, look-ahead or fuelled loops over octets. Every decoder is shown to refine its reader from any iterator without look-ahead (`sim`), composed through sequencing and `except DecodeError`; the loops over headers, parameters and parts follow by induction, up to `decode_data`. |
| C118 | `SpecHistory.v` tells from an event and the files at that time what it settles about a header and whether it gives data; only writing changes files. The theorems take any history apart at the last event that matters: an invariant set up by that event is carried through the rest (`carried`), once for each header, for data given, for a file not yet read, and for the name of the file. |
| C119 | The models of both functions take the version. `SpecParam.v` says which number of the standard's table stands for a name (`number_for`, the largest), how its value is sent and which exception is raised, as a relation; it is shown that the model's result satisfies it and that it has one result only. Decimal digits and multi-octet numbers are unique (induction from the last digit); the newest number is found because the table is sorted. Floats and dates as values are left out, the one encoder that converts them with `str()` is not modelled for them. |
| C120 | `Share.v` models the same calls on objects with identity: slides hold references to parts, messages references to slides and parts, in a heap. `SpecShare.v` gives the worth of each slide and message from the calls on it alone, with the models of `Message.v` that know no sharing. Invariant over the program: the heap is worth that, except that parts may have been encoded before; a part that was encoded encodes to the same octets again, and a failing encoding leaves a part as it was. For any heap, encoding equals encoding of copies. |
| C121 | By C117 decoding is the reader of `SpecReader.v`. Each reader is shown to be local (what it reads or refuses does not depend on the octets behind, `local`), combinator by combinator; the loop over the headers either stopped at the content type or left at most one octet, which announces no part that is there. |
| C122 | Independent description of what each field of any octets shows (`SpecShown.v`), without assuming a well-formed message; the run of the model is followed step by step (`ShownFacts.v`). Complete septets are the digits to base 128 of the number the octets are. Which strings are accepted at all is C116. |
| C123 | Independent description of the octets (`SpecWritten.v`), with its own tables of numbers and codes; inversion of every encoder of the model (`WrittenFacts.v`). Each relation of the description is shown to be a function, so the octets are fixed up to the order of dictionaries. Which messages can be encoded is C114; the SMIL text is C61 and C99. |
| C124 | Independent description of the PDUs from the attributes of the message (`SpecPdus.v`); inversion of `to_pdu` (`PdusFacts.v`). The description is shown to be a function of the attributes (C124_once), so with C115 it determines `to_pdu` completely (C124_exact). Characters are assumed not to be negative and dates to be dates of Python. |
| C125 | `Printed.v` models the three `__repr__` methods with Python's notation of lists, arrays and dictionaries, for any order of the dictionary. `SpecPrinted.v` describes the text from the numbers. Injective because no item starts or goes on like the delimiter behind it (`items_split`, induction). Fails for the width of the reference when there are references of both widths. |
| C126 | SpecCalls.v gives calls (assignments of any value, `to_pdu`), the last value given by those not refused, and an inductive account of the coding, the reference and the count of numbers drawn. Induction on the sequence from its end, following one run of `to_pdu`; the account leaves no choice, and with C115 and C124 it decides what the next call returns |
| C127 | SpecDeeds.v gives deeds (setting and deleting headers, `add_page`, `add_data_part`, `encode`) and an inductive account of the header dictionary as a function from names, using the list of refusals of C114 to say how far `encode` gets. Induction on the sequence from its end; the account leaves no choice, and with C123 it gives the octets of the next `encode`. Slides are complete when added (C120 covers the rest) |
| C128 | SpecFills.v gives the calls and what each puts in its place if accepted; the slide after a sequence is a fold over them. Induction on the sequence from its end with C60 and C91 for the single call; the last accepted call is unique |
| C129 | SpecSeries.v says of any string which attributes it has, as far as it can be read, built on the readings of C116 and C122. One assignment is run through step by step: each attribute is the one in the string if it has one, and else as before (SeriesFacts.v). Induction on the sequence from its end; a string has each attribute at most once |
| C130 | SpecHolds.v tells slides, parts, size and files read from the sequence, with the headers of C127 and the refusals of C114. Encoding a part either succeeds and asks for its data or is refused and leaves it; the parts of the slides in turn by induction. Invariant: slides made by the calls of C128 have names and texts, so describing them reads no file (for other slides the model leaves out what [smil()] reads) |
| C131 | The receiver of `SpecAssembly.v` again, given any list of parts instead of a permutation of all of them. What arrives is told by the list, as for C87; a list of texts that accounts for it has the announced length, so that every place must be filled |
| C132 | `SpecPretty.v`: the lines minidom writes for a tree, attributes in any strictly sorted arrangement, so that the text is unique; induction over the tree against `Xml.v`, with C61 for the tree and uniqueness of its description |
| C64, C66 | table slicing, exactly against tables 38 and 39 of WSP by version (`SpecAttach.v`); nested lists |

Every property can be expressed in the model.

## Trusted base

* Coq 8.16.1's kernel (`coqc`; the virtual machine behind `vm_compute` is part of
  it). No plugin, no extraction, no `native_compute`.
* `Print Assumptions` follows every theorem of the `Prop*.v` files; each prints
  "Closed under the global context". No theorem uses an axiom, of the standard
  library or otherwise. (A scan of all loaded libraries lists the fields of the
  module type `Coq.ssr.ssrunder.Under_rel`, which the standard library loads with
  `Lia`; no theorem depends on them.)
* That the model says what the code does. This is by reading: every definition
  cites the lines it models, and `Conformance.v` evaluates the model on the
  literal vectors of the project's unit tests. Not checked by running the code.
* That the specifications (`Spec*.v`) and the vocabulary (`*Claims.v`) say what
  the standards and the English properties say.

### Modelled

`messaging/utils.py`; `messaging/sms/` (`gsm0338.py`, `base.py`, `consts.py`,
`submit.py`, `deliver.py`, `udh.py`, `pdu.py`, `wap.py`); `messaging/mms/`
(`iterator.py`, `wsp_pdu.py`, `mms_pdu.py`, `message.py`); `resources/pydump.py`.

### Not modelled, or simplified

* `toprettyxml` of the standard library's minidom is modelled in `Xml.v` as Python
  2.7 has it, for trees of elements without text, all strings being str. Theorems
  other than C99 hold for every function `render` from trees to text.
* When several things are wrong with the slides, which exception `smil()` raises: a
  `Content-Location` or `Content-ID` that is no string makes the serialiser raise at the
  end, the model raises at once. (Releases from 2.7.3 on write the numbers and booleans
  that count as false as an empty attribute; the model has the exception for them,
  too.) And what `smil()` reads from files of parts whose
  headers the user replaced; for slides made by the `add_` methods it reads nothing.
* The order of Python 2 dictionaries: an arbitrary permutation `w_order`.
* Files: a partial function from paths to octets. Two paths never name the same
  file; writes succeed; `OSError` stands for `IOError`.
* Quality factors are exact ratios, not floats.
* The recursion limit in `flatten_list`, memory limits and the difference between
  `int` and `long`, except `xrange`, which refuses counts above `sys.maxint` (64 bit).
* `random.randint` is an argument `rand`.
* Objects are values everywhere but in `Share.v`, where C120 shows that this makes no
  difference to what is sent. The dictionaries of headers are not shared between
  objects. The text given to `add_text` is a str.
* Time zones of the machine: dates are seconds or fields of a naive datetime.
* Logging.

## How to read seeded/LOG.jsonl

- `theorems_failed` lists property theorems whose proof no longer went through
  after the edit, or which rest on a lemma whose proof no longer went through
  (the broken proofs were admitted in the scratch copy and Print Assumptions
  asked again). A proof that breaks is not by itself evidence that the
  statement became false: an edit may break a proof script and leave the
  theorem true. Only for some edits was falsity of the statement argued
  separately.
- `claim_source` marks the entries made by systematic small edits, for which no
  claim was written down before the run. Their `claim` was filled in
  afterwards from the first failing theorem, so it is not an independent
  prediction, and these entries are weaker evidence than the others.
- `stopped_at_first_failing_file` marks the runs that stopped at the first
  property file with a failing theorem. There `theorems_failed` is incomplete.
- Edits judged to leave the program the same have no failing theorem and say so
  in `claim`. That judgement was made by reading.
- Not in the log: 17 edits that were ill-typed or otherwise not accepted as
  definitions, and one that did not apply.
