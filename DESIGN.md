# Formal model of go808

Rocq/Coq 8.16.1, sources in `rocq/theories`, standard library only. The model is a set of total,
executable Gallina functions that follow the Go code function by function. Each definition cites the
Go file and lines it models and names its simplifications.

Contents: 1 conventions, 2 files, 3 what is modelled and what is not, 4 trusted base, 5 plan and
result per property, 6 findings, 7 testing the theorems.

## 1. Modelling conventions

* A byte or fixed-width integer is a `Z`. Range predicates (`is_byte`, `is_u16`, ...) say what fits.
  Go conversions are explicit `mod 2^k`; signed 64-bit deadlines wrap explicitly (`Timer.v`).
* A Go call returns `res A := Ok a | Err e | Panic`. Out-of-range slices, nil dereferences and the
  like are `Panic`, never a default value.
* `protocol.Reader` is a state monad over the unread bytes.
* A nil pointer or interface is a constructor of its own (`BNil`, `None`).
* Encode functions of types that mutate their receiver return the mutated receiver as well.
* A Go map is an association list with one entry per key; order of iteration is never observed
  except where Go leaves it open, and then the statement does not depend on it.
* Bytes are values, except in `Memory.v`, where slices are windows into arrays; C180 says that on the receiving side this makes no
  difference.
* Pointers matter in three places and are modelled there: the timer queue (elements in a store,
  `Timer.v`), `Param.Serialize` sharing (`ParamHeap.v`), session objects (`Server.v`).
* Goroutines: `nextID` is threads with Load and CompareAndSwap steps under an arbitrary schedule.
  The timer is threads with one step per critical section. A session is a state machine whose steps
  are the critical sections of Send, Request and message handling. The server is a state machine
  over operations (`Server.v`), and again with every goroutine of its own, one step per critical
  section, atomic operation or call out of the package (`Fine.v`); `World.v` adds to that the bytes, the codec,
  the send loops and the file accesses.
* Loops are structural recursion or recursion with fuel. Running out of fuel is an error of its own
  and is proved impossible.

## 2. Files

| files | content |
|-------|---------|
| Base, Bits, Bcd, GoTime, Decimal, Env | bytes, results, reader, bit helpers, BCD, calendar, decimals, outside libraries |
| EntTerm, EntPlat, Registry, ParamHeap | the 65 body types, 12 extras, parameters, type registry |
| Message, Codec | framing, header, property, encryption, stream codec |
| Timer, Session, Multipart, Server | the runtime |
| Overlap | the multipart branch with the goroutines of several connections interleaved, one step per file access |
| Faults | the multipart branch with any call of the file system failing |
| Flags | the methods that read and set single flags of status and attribute words |
| Zones | BCD times and dates in a location whose offset changes |
| App | the programs in `example/`: a platform with its four handlers, and a terminal |
| Race | the loads and stores of the encoders that write fields of the body, by several send loops at once |
| Life | Run and Stop, any number of calls at once |
| Crash | the goroutines of Overlap with failing calls and ends of the process |
| Fine | the server goroutine by goroutine: sessions, timer, close callbacks, senders, Broadcasts, interleaved |
| World | the whole process goroutine by goroutine: `Fine.v` with the codec of every connection, the channels and send loops of link and the file accesses of `Overlap.v` |
| Pool | Session.Send and the send loops of link with bodies as pointers, several callers and sessions |
| Locks | the mutexes of server, timer and sessions, one step per Lock, Unlock and statement in between |
| PubKey | the loads and stores of a connection's public key |
| Memory | Receive and Message.Decode over arrays with addresses, slices as windows, bytes.Buffer as array and indices |
| Sha1, Rsa | SHA-1 and RSAES-OAEP by their standards, the keys behind EncryptOAEP and DecryptOAEP |
| Reserve | the capacities given to make by the Decode functions |
| Cost | Receive with a count of the comparisons with the delimiter |
| Descr | file descriptors while a packet is stored and an upload merged |
| Gb | UTF-8 and GB18030 by the published code of unicode/utf8 and golang.org/x/text, the tables as a parameter |
| Host | the whole process: connections, session goroutines, channels and send loops of link around the server |
| Spec*.v | specifications, written without the model's functions wherever a property allows it; SpecWire.v is the field table of all bodies, transcribed from JT/T 808-2013 as the comments of the Go structures give it; SpecRead.v is the table of what a decoder may accept for each field |
| Lib*.v, Proof*.v | lemmas |
| Properties_*.v | the property theorems and nothing else; each is closed by `exact lemma`, has `Print Assumptions` beneath it and an `Example` beside it |
| Custom | Register and extra.Register: types of the application in frames and in position reports |
| Tests | the values the tests of the repository use |
| Link | one session of github.com/funny/link, a step per statement |
| Demo, DemoServer, DemoHost, DemoPool, DemoCustom, DemoFine, DemoWorld, DemoRace, DemoWrong, DemoRefuse, DemoAlone, DemoLocks, DemoMemory, DemoRsa, DemoGb, DemoLink, DemoParts, DemoCost | concrete environments and histories for the Examples |

## 3. What is modelled, and what is not

Modelled:

* `protocol/bit.go`, `bufio.go`, `helpers.go`, `header.go`, `property.go`, `message.go`, `register.go`
  (the initial table), `params.go`, `entity.go`, `response.go`, `errors.go`, every `t808_*.go`, and
  `protocol/extra/*.go`.
* `protocol.go` (codec), `timer.go` with `container/heap`, `session.go`, `session_handler.go`,
  `multipart.go`, `server.go`.

Not modelled:

* `logger.go` and all logging; the tests beyond the values they use (`Tests.v`, C186). Of `example/` (`App.v`, C143-C153) the reading of the key files and what is printed are left out; the
  client's socket is left out: what it sends is related to what a receiver decodes, message by message.
* `Server.Run` and `Server.Stop` are modelled on their own (`Life.v`, C158-C160): the field they share and the listeners. That
  link's Stop also closes the sessions appears in the other models as closing each of them.
* `Register` and `extra.Register` are modelled in `Custom.v` on their own (C109-C112): encoding, decoding and the checks before
  dispatch with arbitrary registered types. Everywhere else the tables are those of the source, and the handlers,
  uploads and queues of `Host.v`, `Overlap.v` and `Pool.v` carry bodies of the package only.
* The inside of github.com/funny/link. What is assumed: session IDs are never reused; Send queues
  the message, or fails if the session is closed, or fails and closes it if the queue of 24 is full;
  Close sets a flag once and then runs the registered close callbacks in a goroutine;
  AddCloseCallback on a closed session does nothing; one goroutine per session takes the queued
  messages in order, passes them to codec.Send and closes the session when that fails. The source of link is not in /repo, so this is
  from its published behaviour. `Link.v` (C187-C189) has its published session.go, a step per statement, and shows that these assumptions
  follow from it; that transcription could not be compared with the library where this was written. A Send that finds the queue full and
  the closing that follows are one step in `World.v` and two moments in `Link.v`: other Sends may succeed in between. Such histories are those in
  which the application closes the session.
* I/O errors other than the missing permission of `MkdirAll(…, 0644)` (C92), except in `Faults.v` (C132-C136), where any call may
  fail and packets are handled one after another, and in `Crash.v` (C161-C165), where any file access of any goroutine may fail and
  the process may end at any moment. What the end of the machine leaves of files that were written; other processes that change the files.
* What user handlers and callbacks do. They are events; whatever they call appears as further
  operations of the history. Their panics are recovered by the code and change nothing.
* Granularity of critical sections: one step each, everywhere but in `Locks.v`, where every statement is a step; C175 says that this
  makes no difference, C176 and C177 that the sections neither block each other for good nor race.
* Granularity of the server: in `Server.v` (and `Host.v`, which is built on it) handling of one received
  message, one timer tick, one close callback, one Send and one Broadcast are atomic steps. `Fine.v` takes them apart
  (C113-C124): the steps of any number of goroutines interleave freely. There the whole of nextID is one
  step (its compare-and-swap loop is C30, C74) and of the file accesses of an upload only the results appear (stored or not, merged or not), any results.
  `World.v` (C125-C131) computes those results, the messages, the errors and the full queues from the bytes and the files, one step
  per Read, per attempt to find a frame, per file access, per message taken or written; C125 says that its histories are histories of `Fine.v`. Every orderly history of
  `Server.v` is one of `Fine.v` (C154), but not conversely: the properties about concurrency are stated
  and proved again on `Fine.v`. Other finer interleavings that break properties are
  modelled where they arise: registration after sending (C33), overlapping timer updates (C36, C78),
  close before AddCloseCallback and messages after the close callback (C45, C46), serial numbers
  (C30, C74), file accesses of uploads on several connections (`Overlap.v`, C102-C104; C103 is what justifies one
  step per packet for uploads that stay on one connection), bodies shared by callers and send loops
  (`Pool.v`, C105-C108; one call of Encode is one step there; two send loops encoding one body at the same moment are in `Race.v`, C155-C157, where one load or store of a field is a step; orders of loads and stores that no single memory shows are left out). In `Host.v` each move of a session goroutine (one Receive attempt or one Read), of a
  send loop (take, write), and each arrival of bytes is a step of its own.
* time zones with changing offsets, except in `Zones.v` (C138-C142): elsewhere `time.Local` has one fixed offset `tz_off`, arbitrary;
  C140 says for which zones that is exact.
* `decimal.Decimal` keeps its exponent in an int32; here it is a `Z`. Exponents outside the int32
  range are not covered.
* float64: `uint32(math.Abs(float64(n)))` is exact below 2^53 and modelled exactly below 2^32; above,
  the result is the unconstrained function `f2u32`.
* Memory, performance, and the Go memory model below the level of mutexes and atomics.

## 4. Trusted base

* The Coq kernel (8.16.1), including its VM for the Examples and small finite computations.
* Axioms. `Print Assumptions` says "Closed under the global context" for every theorem in
  `Properties_*.v`: none of them uses an axiom. `coqchk`, which lists the axioms of every loaded
  library whether used or not, lists seven, all of the standard library's `Coq.ssr.ssrunder`, fields
  of a sealed module: `Under_rel.Under_rel`, `Under_rel.Under_rel_from_rel`, `Under_rel.Under_relE`,
  `Under_rel.Over_rel`, `Under_rel.over_rel`, `Under_rel.over_rel_done`, `Under_rel.under_rel_done`.
  They come in through `Lia`.
* No axiom, Parameter, section-less Variable or Hypothesis, functor, module type or admitted proof is
  added. No kernel check is switched off.
* The fidelity of the model to the Go source: it was written by reading the source, which could not
  be run here.
* The record `Env` (`Env.v`) of outside functions. It is universally quantified in every theorem, so
  nothing is assumed of it except by explicit hypotheses:
  * `gb_enc`, `gb_dec` (GB18030): `text_ok env s` says that this text encodes to something that
    decodes back, holds no NUL and no byte out of range. It is asked per text, in `wf`.
    C183 proves it of every UTF-8 text without NUL, for GB18030 as defined in `Gb.v`, if the library's decoding table undoes its encoding table
    (`table_ok`; the tables themselves are not in the repository. Those of Python's codec meet it: all 63360 characters
    were checked outside Coq).
  * `tz_off`: nothing.
  * `f2u32`: nothing.
  * `gz_enc`, `gz_dec` (gzip): `gzip_ok env d` says that these data come back. It is asked per upload.
  * `key_size`, `oaep_enc`, `oaep_dec` (RSA-OAEP): `rsa_pair env pub priv` says that the key size is
    above 42 and a ciphertext of the public key has the key's size and decrypts to the plaintext, for
    plaintexts of at most key size - 42 bytes; `key_ok` says that decryption yields bytes. C181 proves
    both of RSAES-OAEP with SHA-1, defined in `Rsa.v` and `Sha1.v` after RFC 8017 and FIPS 180-4;
    C191 ties these definitions to a second account of the standards.
    That Go's crypto/rsa computes these functions is trusted; one ciphertext made by OpenSSL is
    reproduced by the model (`DemoRsa.v`).
  `Demo.v` has a concrete environment that meets all of these.

## 5. Plan and result per property

"refuted" means: the code as written violates the property. A theorem `..._refuted` has a witness,
`..._partial` theorems say what does hold, and the companion in the last column says exactly what the
code does. Those companions are properties of their own (C55 and up), fully proved.

| id | modelled as | proof | result |
|----|-------------|-------|--------|
| C01-C04 | `msg_encode`, `msg_decode` framing, escape and unescape loops | induction on the payload; xor algebra; inductive relation `carries` as spec | proved |
| C05 | `msg_decode` with explicit `Panic` | witness 7e 07 7e | refuted; C65 |
| C06, C54 | 65 body decoders and 12 extras over the reader monad | compositional safety and range predicates | proved |
| C07, C53 | message, header, property and body models | composition of round trips | proved |
| C08, C19 | BCD packing of digit strings | induction over digits | proved |
| C09 | size check on a uint16 | arithmetic; 65536-byte body | refuted; C66 |
| C10, C11 | property and bit helpers on Z bit operations | `Z.testbit` extensionality | proved |
| C12 | one round-trip lemma per type, one umbrella theorem | rewriting with writer/reader laws | refuted for empty lists of six types; C55 |
| C13-C15 | decimals (coef, exp), status flags | arithmetic; witnesses | C13 proved, C14 refuted (C57), C15 refuted (C58) |
| C16, C17 | extras | induction over the list; witness | C16 proved, C17 refuted (C59) |
| C18 | civil calendar and BCD time | calendar bijection by periodicity and month arithmetic | refuted for 2000-2009, exact for the rest |
| C20 | 0x0705 time field | arithmetic; witness | refuted; C60 |
| C21 | Param getters and setters, with sharing | direct; heap model | proved |
| C22 | count truncation | witness | refuted; C61 |
| C23 | receiver returned by encode | per type; witness 0x0801 | refuted; C62 |
| C24, C25, C73 | chunks and RSA oracle; session send | induction over chunks | C24, C73 proved; C25 refuted |
| C26-C28, C69-C72 | codec state machine over read events | invariant: buffer ++ unread = rest of stream | proved except C28 (C69) |
| C29, C67, C68 | `msg_decode` | case analysis | proved |
| C30, C74 | threads with Load/CAS steps, any schedule | invariant | proved |
| C31-C34, C75-C77, C91 | session request table | invariants over histories | proved except C32, C33 (C75) |
| C35, C36, C78-C80 | heap and CountdownTimer on a store of elements | heap invariant, refinement to key -> deadline; any interleaving | proved except C36 (C78) |
| C37-C39, C46, C51, C83-C88, C90 | server state machine | induction over histories with an exact effect per operation | proved except C37, C46, C51 (C85, C86, C88) |
| C40-C44, C81, C82, C87, C92 | file system per terminal, names as character strings | injectivity of names, induction over histories | proved except C41, C43, C44 (C82, C87, C81) |
| C45, C84 | registry | induction | refuted; C84 |
| C47 | big-endian numbers | induction | proved |
| C48, C63 | gzip reader oracle | induction; witness | refuted; C63 |
| C49 | registry table | finite table | proved |
| C50, C64 | decode counts | per type | refuted; C64 |
| C52, C89 | NewServer options | case analysis | refuted for keys; C89 |
| C93, C94 | the encoders and decoders against an independent description of the wire (`SpecWire.v`) | fields determine bytes; one layout lemma per type; composition with C55 and C07 | proved |
| C95-C97 | composition of the codec, session goroutines, channels, send loops and the server (`Host.v`) | invariant tying every connection to the bytes that arrived and the messages sent; measure for progress | proved |
| C98 | `msg_encode` on bodies that are nil | case analysis; witness for the panic | proved |
| C99, C100 | the decoders against an independent description of what may be accepted (`SpecRead.v`, `SpecArrive.v`) | reader programs in a free form, one exactness lemma per kind of field and per type; both directions | proved |
| C101 | decoders, then encoders | the fields read are the fields written, type by type; uniqueness of C93 | proved |
| C102, C103 | file accesses of several goroutines under any schedule (`Overlap.v`) | stepwise refinement to the calls of `Multipart.v`; every goroutine sees the same files of its own uploads as alone | proved |
| C104 | one upload on two connections | witness schedule | refuted; C103 |
| C105, C107 | callers, send loops and shared bodies (`Pool.v`) | witness histories | refuted; C106, C108 |
| C106 | the same | invariants: the heap is what the log says, queues, how many messages hold a body; repeated encoding (C23) | proved |
| C108 | the same | invariant: at most one call inside Send, made = taken ++ held, or the session is closed | proved |
| C109, C112 | Encode, Decode and the extras of 0x0200 over arbitrary registered types (`Custom.v`) | the frame lemmas of C07/C24 for any body; the last call for an ID decides | proved |
| C110 | the checks before dispatch | witness registrations | refuted; C111 |
| C111 | the same | decoders that do not panic, make pointers and leave the answers alone | proved |
| C113 | all goroutines of the server (`Fine.v`) | invariant of the timer store; every step is defined | proved |
| C114, C115 | the same | invariant tying registry, flags and close callbacks to the events so far | proved |
| C116, C117 | the same | refinement of the shared timer to key -> deadline, each key being updated by one goroutine only; groups of checks | proved |
| C118 | check and Close are two steps | witness history | refuted; C116, C117 |
| C119 | goroutine of a session | what it has done is a prefix of a sequence of turns, by its program counter | proved |
| C120, C121 | calls in progress | invariant tying tokens, serial numbers and waiting requests to the events so far | proved |
| C122 | Broadcasts in progress | the calls made and those still to come are a permutation of the snapshot | proved |
| C123 | answers before `message` | witness history | refuted; C120 |
| C124 | everything in progress | weights that every step decreases; no call, reply or Broadcast is lost (invariant); at rest nothing is in progress | proved |
| C125 | everything (`World.v`) | every step is a step of `Fine.v` or none; invariant tying buffers, queues and goroutines to the events so far | proved |
| C126, C127 | connections | messages received and bytes left make up what came; messages taken are those written, lost, in flight and queued | proved |
| C128 | every step | the only steps that panic are those of the codec; answers of the server encode | proved |
| C129 | file accesses | each goroutine is where it would be alone (C103), phase by phase of HandleSession | proved |
| C130 | every schedule of the process left to itself | two measures, one of which every step lowers; what the invariants say when nothing moves | proved |
| C131 | file accesses | invariant: while a goroutine stores, it is at the packet received last | proved |
| C132 | multipart with failing calls (`Faults.v`) | witness histories | refuted; C133, C136 |
| C133 | same | refinement: files to a per-upload machine of pieces; invariant on directories | proved |
| C134 | same | witness history | refuted; C135 |
| C135 | same | refinement of C133, cases of the machine | proved |
| C136 | same | refinement of C133, induction over the history | proved |
| C137 | flag methods (`Flags.v`) | bit lemmas, induction over the calls | proved |
| C138 | times in a location with changes (`Zones.v`) | witness locations | refuted; C139 |
| C139 | same | cases around the one change; calendar inverse | proved |
| C140 | same | refinement: locations to the fixed offset | proved |
| C141 | same | witness location | refuted; C142 |
| C142 | same | as C139 | proved |
| C143 | example platform (`App.v`) | invariant over its steps; refinement to `Server.v` | proved |
| C144 | same | invariant: said plus still to say is the prescribed conversation | proved |
| C145 | same | decoded messages have the type their handler asserts | proved |
| C146 | same | witness history | refuted; C145, C153 |
| C147 | example terminal (`App.v`) | induction over the packets; round trip | proved |
| C148 | same | induction over the packets | refuted; C147 |
| C149-C150 | same | round trip | proved |
| C151 | both programs | C144 with the upload theorem (C84) | proved |
| C152 | requests (`Server.v`) | invariant: the request keeps waiting | proved |
| C153 | example platform | C152, one request per authentication | proved |
| C154 | `Server.v` and `Fine.v` | forward simulation, callbacks renamed; a history of goroutines in which a message overlaps another | proved |
| C155 | one encoder | a polygon in the south-west, broadcast to two sessions | refuted |
| C156 | one encoder; `settled` | invariant over all interleavings; a losing schedule for every other body | proved |
| C157 | `shows` | same invariant; re-encoding what is left | proved |
| C158 | events of the calls | four histories | refuted |
| C159 | `in_turn`, `owner`, `left_open` | invariant: one call at work at most | proved |
| C160 | `owner`, `left_open` over any history | the state is a function of the events; a listener nobody knows stays unknown | proved |
| C161 | `part_of`, `full_of`: folds over what happened | invariant `files_ok` of every step | proved |
| C162 | `settled_part` | from C161 | proved |
| C163 | `parts_sorted`, `settled_part` | the stages of the merge between two events | proved |
| C164 | `packets_from`, `parts_again` | a goroutine alone is C102, its packets C132 | proved |
| C165 | events | a history with one crash | refuted |
| C166 | `mangled` | a concrete frame | refuted |
| C167 | `mangled`, `slip`, `shorter` | induction over the escaped bytes | proved |
| C168 | `mangled` | C167, then the announced length does not fit | proved |
| C169 | `one_changed`, `shipped` | C71 and a case for each kind of place | proved |
| C170 | `readable`, `no_number`, `sealed`, `wrong` | inversion of each step of the decoder | proved |
| C171 | `texts`, `parameters`, `unsendable`, `holed` | case analysis over the types, induction over lists of texts | proved |
| C172 | `enciphered`, `body_bytes`, `refused`, `panics` | C171, induction over the blocks | proved |
| C173 | `experience`, `alone` | witness: one terminal number on two connections | refuted |
| C174 | `experience`, `alone`, `different_numbers` | lockstep simulation of the process and the process with one connection | proved |
| C175 | `whole`, `executes` | every goroutine inside a section is on the way to what the section does at once; invariant over all statements | proved |
| C176 | `holds`, `can_move`, `alone_for`, `amount` | the same invariant; number of statements left in a section | proved |
| C177 | `uses` (changes or depends on) | a statement reads and writes only what its mutex guards | proved |
| C178 | `stores`, `loads` | witness: SetPublicKey and Send at once | refuted |
| C179 | `codec_send` with the key of one moment | induction over the steps during the call | proved |
| C180 | `receive` with bytes as values; `overwritten` | every array a message is decoded into is new; invariant: buffer, array of the read and all slices handed over lie in different arrays | proved |
| C181 | `rsa_pair` for RSAES-OAEP | Fermat's little theorem by permutation of residues, distinct primes, padding undone | proved |
| C182 | `decode`; table of lengths | no reader ever returns the error, induction over the items of a batch | proved |
| C183 | `scalar`, `utf8`, `table_ok`, `code_size` | one character at a time, induction over the text | proved |
| C184 | `remains`, `text_size` | the place of the cut, the four pieces of a code | proved |
| C185 | `life`, `occurs_alone`, `own_uploads` | simulation by a process with one connection, step by step; files and counters of the others apart | proved |
| C186 | `Tests`: the values of the 65 tests of bodies and the calls of the test of uploads; `passes` | the round trip (C55), the texts by C183, the values by computation | proved |
| C187 | `Link`: a step per statement of link's Session; what is observed | invariants: one goroutine past the compare-and-swap, readers and writer exclude each other, what each goroutine did by where it is | proved |
| C188 | the same; `at_rest`, `busy` | whoever holds a lock can go on; a measure that every statement reduces | proved |
| C189 | the same; `accepts`, the session whose calls happen at one moment | what happens to the queue after the compare-and-swap is moved before it | proved |
| C190 | `SpecParts`: names read character by character, numerals as an inductive relation | splitting and joining are inverse; reading characters one by one against the value of the digits | proved |
| C191 | `SpecSha`: SHA-1, the mask and the padding as relations on bits, words and bytes, constants as square roots | the relations are functional; the rounds and blocks as functions of time meet them | proved |
| C192 | `SpecReserve`: the places of count fields, least sizes of elements | a body of three bytes | refuted, see C193 |
| C193 | `SpecReserve` | every read takes bytes; the reads before make against the count field's place | proved |
| C194 | the functions of `Codec` with a count (`Cost`) | a frame that arrives byte by byte | refuted, see C195 |
| C195 | `SpecCost`: stretches without a delimiter | erasing the count; potential: bytes not yet looked at and reads to come | proved |
| C196 | `SpecStock`: keys of the parts written and uploads merged, counted from the calls | n uploads of one part leave 2n files | refuted, see C197 |
| C197 | `SpecStock` | permutation of the files with the keys, from the invariant of C40-C42 | proved |
| C198 | `Descr`: opening and closing of files as the operating system allows | an upload of as many parts as the limit | refuted, see C199 |
| C199 | `SpecDescr`: a limit on descriptors, runs of packets | balance and peak through every exit; count of the parts | proved |
| C200 | `SpecSealed`: pieces, padding and power as relations (with `SpecSha`, `SpecWire`, `SpecFrame`) | the pieces of bytesSplit are the only ones; C191 for each; header layout of C94 | proved |
| C201 | `SpecFacing`: the body with other hemisphere words and every coordinate on the side its word says | C157 for the words; such a body is well formed and its encoding is what was returned; C55 reads it; header as in C200 | proved |
| C202 | `SpecWalk`: what is held of a terminal, from the calls alone | n uploads of one packet take 2n(n+1) visits | refuted, see C203 |
| C203 | `Walk`: the walks of IsFull and Merge with a counter; `SpecWalk` | a directory has the entries of C197 with its name; the counted walks without counter are those of the model; the bound by induction over the packets | proved |
| C204 | `SpecCompares`: what a call may cost, from the number of keys | the counted heap without counter is the heap of the model; levels above and below a position; every entry is pushed once and taken out at most once, so removals are paid by the Updates | proved |
| C205 | Receive on any cutting of the frame | a body of 65536 bytes passes the check of C66 and runs into that of C27 | refuted, see C206 |
| C206 | `SpecLength`: bytes that are sent as two, length of a header; `SpecFrame` | lengths of the parts of a frame; a body has at most 1023 bytes or at least 65536; the buffer grows beyond 65535 bytes before or with the last byte | proved |
| C207 | as C66 and C24 | a body of 982 bytes, for every key | refuted, see C208 |
| C208 | `SpecRoom`: blocks that fit into 1023 bytes, text per block | the number of blocks of C24 against the quotient; below 65536 bytes nothing is cut off before the check | proved |
| C55-C66 | exact companions of the above | as above | proved |

## 6. Findings

Places where the code does something a user would not expect. The theorem is in brackets.

Framing and header:
* A frame `7e x 7e` makes `Message.Decode` panic [C05, C65].
* `Encode` compares the body length as a uint16, so 65536 bytes pass the size check [C09, C66].
* `Encode` with a nil body panics, and so does encoding a received message without a body [C98]; `Packet` nil with the multipart bit set panics.
* A terminal number of 0 cannot be decoded; digits beyond twelve are cut.
* Decoding into a used Message can keep the earlier body [C68].
* Any body error yields a message with a nil body, not an error [C29].
* One stray 0x7e on a stream shifts the reading of all later frames [C28, C69].
* After 65535 bytes without a frame the size error is returned again at every call, and the buffer
  keeps growing [C72].

Bodies:
* Times in 2000-2009 encode but do not decode [C18].
* Empty lists of six types are refused by their own decoder [C12].
* Lists and texts too long for their count are cut silently [C22, C61].
* Hemisphere flags of a reused position stay set [C14]; one flag serves all vertices [C15].
* Re-encoding decoded extras loses their data [C17, C59]. 0x0801 encode consumes its packet [C23].
* 0x0705 cannot carry hour 00 [C20, C60]. The 0x0702 expiry is read in another zone than written.
* Reported counts are wrong for ten types [C50, C64]. Damaged gzip data is accepted in part [C48, C63].
* An RSA modulus below 2^1016 decodes, but is encoded with fewer than 128 bytes [C101 needs it full].
* The guard in `SetBitUint16` and the like is 32 for every width.

Sessions and server:
* `Session.Send` never encrypts, whatever key is set [C25, C73].
* `Request` registers its callback after sending [C33]; a second request of the same type replaces the
  first [C34]; serial numbers repeat after 255 [C32].
* `Send` queues the pointer to the body: a caller that reuses it changes what is written, and a broadcast
  0x0801 reaches one session with its data and the others without [C105, C106]. Concurrent senders can
  write serial numbers out of order [C107, C108].
* A registered type that is not a pointer, or that replaces one of eight answers the server reads, makes
  the session's goroutine panic on a well-formed frame [C110, C111].
* Overlapping updates of one timer key leave an orphan that fires early or after removal [C36].
* Deadlines overflow int64 for huge timeouts [C79].
* The read timer is refreshed only by messages with a handler [C37, C85].
* Multipart: handed over only when the packet with Seq = Sum arrives last [C43, C87]; Merge keeps a
  stale tail and includes parts beyond Sum [C41, C82]; parts stay on disk, so a repeated upload
  completes early; IsFull and Merge panic if nothing was written [C44, C81]; `MkdirAll(0644)` makes
  Write fail for users other than root [C92]. Every packet is decoded as a full 0x0801 body.
* `Write` creates the file before it writes it, and nothing excludes `IsFull` and `Merge` meanwhile: an
  upload received on two connections can be handed over without the part being written [C104, C103].
* In a zone with daylight saving time the doubled hour decodes an hour early, the left-out hour decodes to another reading, and
  an expiry date whose midnight is left out becomes the day before [C138-C142].
* example/client panics for files whose length modulo 512 is between 1 and 255 (line 146-181 reuse `limit` for the rest) [C148];
  example/server loses the terminal parameters if the terminal first confirms the query with 0x0001 [C146].
* An area in the south-west (0x8600, 0x8602, 0x8604) or a position there that is broadcast can reach a terminal without its
  western bit: send loops encode the shared body without a lock, and setting the bit is a load and a store (C155).
* Run and Stop share a field without a lock: two Stops, or a Stop while Run starts, panic; of two Runs at once one listener is
  never served nor closed; after the listener has failed, Run says "already running" until Stop is called (C158).
* A process that ends between the opening and the writing of a part leaves an empty part that counts: the message is handed over
  without it when the last packet comes (C165). Sending everything again repairs it (C164).
* A flipped bit can go unnoticed: 0x7c in front of 0x01 or 0x02 that arrives as 0x7d makes an escape sequence, the checksum
  stays right and the payload loses a byte (C166, C167). The length then does not fit, so that no body is decoded (C168), but
  the header may be wrong: every message with a body of 124 bytes from a number that begins with 1 is open to it.
* A public key of at most 42 bytes (336 bits) does not make Message.Encode return an error: bytesSplit divides by zero or slices
  with a negative bound, and the caller panics (C172).
* Terminal numbers are not tied to connections: with merging, any terminal can add packets to the uploads of another one and complete
  them (C173); this and panics (C96) are the only ways in which a terminal can change what happens on another connection (C174).
* The public key of a connection is stored and loaded by different goroutines without synchronisation (C178); it is harmless as long as
  only Session.Send sends, which never encrypts (C73, C179).
* A write that fails halfway leaves a part file that IsFull counts: the message is put together with a part whose packet was
  answered with failure; `walkParts` ignores the error it is given: an unreadable directory gives an empty message, a lost file
  ends the process [C132-C136].
* A session closed before AddCloseCallback is never forgotten [C45, C46, C84]. A message handled
  after the close callback leaves a timer entry [C46].
* Replies to an unreadable first message go to terminal 0 [C51]; so do the answers to the packets of an upload [C123, C120].
* The timer closes a session that was refreshed after the check that found it [C118, C117].
* The key check counts bytes, so moduli of 1017 to 1024 bits pass [C52, C89].

## 7. Testing the theorems

`seeded/LOG.jsonl` has one line per wrong program tried: the model definition edited, the edit, the
claim it breaks, what failed to compile, and the theorems tightened because of it. `theorems_failed` lists the
property theorems that depend, by source and imports, on a lemma whose proof no longer compiled.
