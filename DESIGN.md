# A Rocq model of tpm-rs and proofs of its semantic properties

Target: /repo (tpm-rs, Rust).  Prover: Coq 8.16.1, standard library only.
All sources are under `rocq/theories`, logical name `Verif`.

* `properties.jsonl` – the properties in English (C01, C02, ...).
* `rocq/theories/Properties*.v` – the theorems, one section per property, each
  followed by `Print Assumptions`.  Their proofs are `exact` of the lemma of the
  same name in `*Facts.v`, where the examples showing that the hypotheses can be
  met stand beside them.
* `MANIFEST.json` – property by property, the theorems and what is missing.
* `seeded/LOG.jsonl` – wrong programs tried against the theorems.

## 1. Modelling conventions

* A byte is `Coq.Init.Byte.byte` (exactly 256 inhabitants), a slice is `list byte`.
* Machine integers are `Z`; each operation that can wrap wraps explicitly.
* A Rust call returns `outcome E A := Ok a | Err e | Panic`.  Slicing out of
  range, indexing out of range, `unreachable!`, `todo!` and `unwrap` of `None`
  are `Panic`.  "Never panics" is therefore a theorem, not a convention.
* `&mut` arguments are returned next to the result, also on error paths.
* A derivable Rust type is a *description* `ty` (deep embedding of what
  `#[derive(Marshalable)]` sees), a Rust value is an untyped tree `val`, and
  the generated code is the pair of interpreters `marshal`, `unmarshal`
  following the macro branch by branch.  Theorems about "every derivable type"
  are proved by mutual induction on descriptions; every type of `base` is then
  listed as a concrete description (`Catalogue.v`).  Independently of that, the
  macro itself is modelled from syntax tree to generated statements
  (`Derive.v`, `DeriveRun.v`), the library's 127 declarations are transcribed
  (`Declarations.v`), and C67 proves that what the macro generates for them is
  what the catalogue says.
* Definitions of a model file that cite no lines are notation (`?`, sequencing,
  tables), the environment (system calls, the peer, the other users), or belong
  to a part headed as specification; everything that stands for code cites it.
* User-supplied traits (Connection, Session, Drbg, EntropySource, Limits,
  TpmReadBuffer, TpmWriteBuffer) and the operating system (sockets, files,
  processes, time) are universally quantified functions or records in theorem
  statements.

## 2. Files

| model | specification | proofs | properties |
|-------|---------------|--------|------------|
| `Types.v`, `Marshal.v`, `Catalogue.v`, `Layout.v` | `WireSpec.v`, `WriteSpec.v` | `MarshalProofs.v`, `MarshalWrite.v`, `MarshalFacts.v` | C01–C12, C22, C53 |
| `Tpm2b.v` | `WireSpec.v` | `Tpm2bFacts.v` | C13–C15 |
| `Tpml.v` | `ListSpec.v` | `TpmlFacts.v` | C16–C18 |
| `Attrs.v` | in the statements (`Z.testbit`) | `AttrsFacts.v` | C19–C21 |
| `Errors.v` | in the statements | `ErrorsFacts.v` | C23–C25 |
| `Limits.v` (crates/tpm2) | in the statements | `LimitsFacts.v` | C26–C29 |
| `Client.v` | `ClientSpec.v` | `ClientProofs.v`, `ClientFacts.v` | C30–C37, C55, C56 |
| `Tcp.v` | `TcpSpec.v` | `TcpProofs.v`, `SimulatorProofs.v`, `TcpFacts.v` | C38–C42, C59–C63 |
| `Server.v` | `ServerSpec.v` | `ServerProofs.v`, `ServerFacts.v` | C43–C48, C51, C57, C58 |
| `Buffers.v` | `BuffersSpec.v` | `BuffersProofs.v`, `BuffersFacts.v` | C69 |
| `Remote.v` (a peer: any TPM behind the simulator protocol) | (the statements) | `RemoteFacts.v` | C70 |
| `Helpers.v` | `HelpersSpec.v` | `HelpersFacts.v` | C50 |
| `EndToEnd.v` | `ClientSpec.v`, `ServerSpec.v` | `EndToEndFacts.v` | C49, C52 |
| `Catalogue.v`, `Handwritten.v` | `Part2.v` (structures of TPM 2.0 Part 2) | `LayoutProofs.v`, `LayoutFacts.v` | C54 |
| `Constants.v`, `Errors.v` | `Part2Constants.v`, `ConstantsSpec.v` | `ConstantsFacts.v` | C64 |
| `Client.v`, `Catalogue.v` | `Part3.v` (TPM 2.0 Part 3) | `CommandsFacts.v` | C65 |
| `Derive.v`, `DeriveRun.v`, `Declarations.v` | `DeriveSpec.v` | `DeriveProofs.v`, `DeriveFacts.v` | C66–C68 |
| `Equality.v` (`==`, and the ways to come by a value) | (the statements) | `EqualityFacts.v` | C71 |
| `DeriveStruct.v` | in the statements | `DeriveStructFacts.v` | C72 |
| (no new definitions) | `num` (the number of a byte) | `IntegersFacts.v` | C73 |
| (no new definitions) | `wire_size`, `identifier` | `FixedFacts.v` | C74 |
| `Catalogue.v` (`zero_of`) | `no_union` | `DefaultFacts.v` | C75 |
| `Layout.v` | `in_memory` (the C representation) | `LayoutCFacts.v` | C76 |
| (no new definitions) | `old_of` | `InteropFacts.v` | C77 |
| (no new definitions) | `placement` | `SecrecyFacts.v` | C78 |
| (no new definitions) | `pieces` | `PiecesFacts.v` | C05, C06 (exact) |
| (no new definitions) | `maxima`, `oversized` | `FinalFacts.v` | C79 |
| `Display.v` | `is_digit`, `decimal` (`TcpSpec.v`) | `DisplayFacts.v` | C80 |
| (no new definitions) | `auth_pieces`, `command_pieces` | `OverflowFacts.v` | C37 (exact) |
| `Controls.v` (the peer) | `at_hand`, `unwired`, `well_spoken`, `asked` | `ControlsFacts.v` | C81 |
| (no new definitions) | `as_specified` | `ResponseFacts.v` | C82 |
| (no new definitions) | in the statements | `RandomFacts.v` | C83 |
| `Remote.v` (`throttled`, the network) | `sent` | `SpliceFacts.v` | C84 |
| `choked` (any network) in the facts file | `frames`, `no_command`, `sent` | `ChokeFacts.v` | C84 |
| (no new definitions) | `remembers`, `in_order` | `OnceFacts.v` | C85 |
| (no new definitions) | `reuse`, `alike`, `front_of` | `ReuseFacts.v` | C86 |
| (`severed`, the network, in `SeverFacts.v`) | `in_order`, `executes`, `complete` | `SeverFacts.v` | C87 |
| (no new definitions) | `call` (every public call as one datatype) | `NoPanicFacts.v` | C88 |
| `Sessions.v` | `live_sessions`, `give_all`, `take_all`, `standing`, `event` | `SessionsFacts.v` | C89 |
| `Portable.v`, `PortableNet.v` | `lengths_fit`, `representable`, `serve_at` | `PortableFacts.v`, `PortableNetFacts.v` | C90 |
| `Drops.v` | `DropsSpec.v`: `call`, `traced`, `lives` | `DropsFacts.v` | C91 |
| `Drops.v` (`use_all`) | `DropsSpec.v`: `traced`, `most_calls` | `DropsFacts.v` | C92 |
| (no new definitions) | `sent` | `UnambiguousFacts.v` | C93 |
| `Areas.v` | | `AreasFacts.v` | C31, C36 |
| Catalogue | part2_unions, takes; Part2Selectors (tables of Part 2 by name: TPMI_…, listed) | SelectorsFacts | C94 |
| `Tcp.v` | `TcpSpec.v` (`conversation`, `answers`), `ended` | `OutcomeFacts.v` | C95 |
| Tcp.v | `surroundings`, `beside`, `appears_whole`, `up`, `port_text` | StartFacts.v | C96 |
| Tcp.v | `respects_shutdown`, `over`, `one_by_one` | StopFacts.v | C97 |
| `Interrupts.v` (the functions of Tcp.v with EINTR) | `without_signals`, `one_piece`, `insist` | `InterruptsFacts.v` | C98 |
| `Own.v` (the client asking an area as often as the code does) | `ask`, `own_frame`, `regular`, `questions` | `OwnFacts.v` | C99 |
| `Shared.v` (the server over request buffers that may change between any two reads) | `fetches`, `while_read`, `watched`, `still` | `SharedFacts.v` | C100 |
| `Clients.v` (calls that can be stopped before each system call, several clients and a TPM) | `serially`, `whole_step`, `in_step`, `fell_behind` | `ClientsFacts.v` | C101 |
| `Crowd.v` (all calls of a connection, stopped before each system call; several users and a machine with two ports) | `plan`, `turn`, `whole_turn`, `level_with`; `at_hand` of Controls.v | `CrowdProofs.v`, `CrowdFacts.v` | C102 |
| `Strangers.v` (`square`, `event`, `happens`) | `entry`, `enter`, `asked`, `thrown`; with `turn` (C102), `spelled` (C81) | `StrangersFacts.v` | C103 |
| `Endian.v` (`get_sizes_on`, the getters) | `swapped`, `sent_sizes` | `EndianFacts.v` | C104 |
| `Custom.v` (generated code around arbitrary implementations of the trait) | `CustomSpec.v`: `marshals`, `unmarshals`, `strict`, `total`, `cenc`, `cgood`, `members`, `in_turn`; with `wf`, `enc` (C01) | `CustomFacts.v` | C105 |
| `Marshal.v` (`marshal_variant`, `unmarshal_variant`, used by themselves) | `VariantSpec.v`: `body`; with `enc`, `wf` (C01) | `VariantFacts.v` | C106 |
| `Foreign.v` (the server over arbitrary methods of the buffer traits) | `ForeignSpec.v`: `access`, `noting`, `in_order`, `all_granted`, `objection`, `handed`; byte slices as an instance | `ForeignFacts.v` | C107 |
| `Crowd.v` | `heard`, `of_user`, `served`, `walked`, `session`, `level_of`, `without` (GoneSpec.v) | `GoneFacts.v` | C108 |
| `Cut.v` (both ports cut off, an adversary at the near end) | `does`, `requests_of`, `begun`, `sent_on`, `succeeded` (Cut.v); `spelled`, `front` (C81) | `CutFacts.v` | C109 |
| (no new definitions) | `in_two_steps`, `in_steps`, `Ruler` | `FillFacts.v` | C110 |
| `Frail.v` | `Frail.v` (`made`, `at_port`) | `FrailProofs.v`, `FrailFacts.v` | C111 |
| (`Crowd.v`, `Strangers.v`) | `LeavingSpec.v` | `LeavingFacts.v` | C112 |
| (no new definitions) | `leaves_rest`, `size_field`, `code_field` (ReportedFacts.v) | `ReportedFacts.v` | C35 |
| `Trickle.v` | `in_bytes`, `standing`, `bytes_at`, `poured`, `all_requests` (Trickle.v); `does`, `requests_of`, `sent_on` (C109); `spelled`, `speakable`, `front` (C81) | `TrickleFacts.v`, `ResentFacts.v` | C113 |
| `Meagre.v` | `codes_only`, `takes_frames` (Meagre.v); `unwired`, `spelled` (C81), `requests_of` (C109) | `MeagreFacts.v` | C114 |
| (no new definitions) | `Hearing.v` (streams that arrive in any pieces; what they say to each call) | `HearingFacts.v` | C115 |
| (no new definitions) | `Answering.v` (peers that answer in any way) | `AnsweringFacts.v` | C115 |
| (as C109) | `Telling.v` (what each outcome tells), `Hinting.v` (the same about bytes, on the network of `Trickle.v`) | `TellingFacts.v`, `HintingFacts.v` | C116 |

How they are proved:

| id | proof |
|----|-------|
| C01–C11, C22 | mutual induction over type descriptions against the wire format `enc`, which knows no buffers, cursors or errors |
| C05 | refuted by a witness; exact characterisation of the panic; contract for types without sized buffers |
| C12, C53 | induction over descriptions for size_of/align_of of repr(C) layouts, then computation |
| C13–C15 | from C01 and C12, list lemmas |
| C16–C18 | invariant by induction over histories, refinement to a bounded list |
| C19–C21, C25 | `Z.testbit` extensionality |
| C23, C24, C26–C29 | case analysis, list lemmas |
| C30–C37, C55, C56 | symbolic execution of run_command over any connection and any sessions |
| C38–C42, C62 | induction over histories of operations against any peer; the conversation is compared byte by byte |
| C59–C61, C63 | induction over attempts; traces of system calls |
| C43–C48, C51 | case analysis, simulation for in place, induction over histories with an instrumented generator |
| C50 | strong induction over the length |
| C49, C52 | composition of the client and server theorems |
| C54 | comparison of every description with a member-name specification |
| C64 | computation over the transcribed tables, lifted to statements about all names |
| C65 | instance of C30/C33 with the parameter areas of Part 3 |
| C66–C68 | induction over fields, variants and token lists; correctness of the generated code by induction over its statements |
| C69 | simulation between buffers and byte lists |
| C70 | the simulator protocol run against the peer model, then induction over the session |
| C71 | mutual induction over the ways to come by a value, then C10 |
| C72 | case analysis of the declaration, then C12 and C13 |
| C73 | induction on the number of bytes |
| C74 | mutual induction over the type, then C02 and C03 |
| C75 | mutual induction over the type |
| C76 | mutual induction over the type; the specification is shown deterministic |
| C77 | case analysis of the hash, then C01 and C26 |
| C78 | from C30 and C36 |
| C79 | closure of "settled" parsers under sequencing; mutual induction over the type for the length bound |
| C80 | induction on the number of digits |
| C81 | each call against the peer, then induction on the session |
| C82 | from C33 and the shape of responses |
| C83 | from C43 and C44 |
| C84 | each case of what a write takes, against the peer of C70; for sessions an invariant: all bytes taken are the commands executed and what the simulator keeps |
| C85 | from C70, with a TPM that remembers |
| C86 | two runs of the server compared, then induction on the requests |
| C87 | reads leave the simulator alone; induction on the session with the invariant that the simulator holds nothing, or a part of one command and no more is taken |
| C88 | calls of the low-level crate enumerated as a datatype; case analysis, using totality of the blanket (un)marshalling and of the constructors |
| C89 | the frame built is that of the authorizations given (case analysis of the area); induction on the sessions for the response and for the events; with plain sessions equal to the client of `Client.v` |
| C90 | mutual induction over type descriptions: a length read from a field of at most `w` bits is below `2^w`, so the conversion is the identity; the functions of the client and server then agree; witnesses at 16 bits |
| C91 | invariant: the log of opening, using and closing is a life of the streams (`lives`), composed over the steps, retries and histories; with a closing that does nothing the functions equal those of `Tcp.v` by computation |
| C92 | induction on the loops of `write_all` and `read_exact` (each round moves at least one byte), then composition over the steps of each operation |
| C93 | the frame of C30 is cut field by field: fixed widths, then unique decodability (C10), the size of the authorization area, and induction on the sessions |
| C94 | From c54_selectors_partial and a computation over the twelve unions comparing the selector sets with the values of the names in Part 2 |
| C95 | `whole`: a computation whose success can be read off the record, closed under sequencing because records of successes are prefix-free; each call is a sequence of such computations; `ended` by cases on where `transact` returns. |
| C96 | the world is a schedule: contents of files and listeners at every moment, each call of the caller a step; induction on the attempts with the time left as the measure; the three failing schedules are computed |
| C97 | every call starts by writing to one of the two streams; induction on the list of calls with "both streams are shut down" as invariant |
| C98 | a schedule says how many signals come before each system call gets through; `write_all` and `read_exact` with their retries are shown equal to those of Tcp.v by induction on bytes plus signals left, and this is closed under sequencing |
| C99 | the writer of the area is equal to a list of writes for the authorizations given; the frame for any tag and any area as in C15; regular or not is read off the tag and the length; the questions by instrumenting the area and the connection |
| C100 | every field read is one of a request made of what was read (`made`); the model over changing buffers then runs as the one of C69 on a slice with that request; the reads are counted with a reader that notes what it is asked |
| C101 | the call as a program of system calls is shown equal to the one of Tcp.v in every world; a simulation relation between clients and sessions (at rest, called, sent, answer coming, connection lost) is preserved by every move, reading in any pieces by induction; getting through by a measure of the client that every move keeps or lowers |
| C102 | each call as a program of system calls is equal to the one of Tcp.v in every world, and its plan of requests to the meaning of the call in Controls.v; programs implement plans (writing a request, then reading its answer in any pieces leads to a program that implements the rest), which is closed under sequencing; a simulation with a bound that every move lowers or keeps; turns by request are regrouped to turns by call when calls ask once |
| C103 | the simulation of C102 event by event; the bytes by C81 |
| C104 | case analysis of the calls, then C41 |
| C105 | mutual induction over the declaration; writing at an offset, reading, totality and the list of calls are each closed under the generated statements, loops and `?` |
| C106 | model of C01; the body is defined from the wire format as what follows the selector; a variant's code is that of a tuple struct; the inverse and totality theorems of C01–C06 for variants |
| C107 | case analysis along the accesses, with lemmas for the two ways of ending early; invariants and simulations that hold for every method hold for a command |
| C108 | the users of `Crowd.v` and the invariant of C102, with the requests the machine took from each user (`heard`, defined from the bytes waiting at the machine, not from the plans). By induction over the moves the log of a user is tied to what is left of its plan: a completed `session` and a `walked` beginning of one call. A user's bytes waiting are one whole request or none, so without a move of its own the machine takes at most one. `c108_stranded` is reinit left half done. |
| C109 | the calls of `Crowd.v` (equal to those of `Tcp.v` in every world, C102); by induction over a call, whatever it is told it writes its requests one after the other, each in one piece, and after a write that was cut short it only tries to write the rest (`asks`, `stuck`); by induction over the session the ports hold at most the beginning of one request that was cut |
| C110 | Induction over the words of the first step: the call for the whole buffer makes the same requests, the additional input going with the first only. For the converse a generator whose words are always the same, so that each byte tells its place in a word: the first byte of the second step is always the first of a word. |
| C111 | Ports of users break, each on its own, in the middle of anything, and the users go on. Every call is shown to be brittle (on a dead port it ends within a few system calls, with an error); a ledger of what was asked per call, with at most one request per port that was sent and may still be taken or be lost, is kept by every move. |
| C112 | invariant over all moves: each user is where C102's simulation has it, or in the ending call, or gone; a measure that every round decreases |
| C113 | Every call is shown to write the bytes of its requests in order, resuming after short writes or giving up (`pours`); induction over the call's system calls keeps that the machine has done what stands in the bytes passed; a byte-by-byte reader is shown to agree with the simulator, which reads in chunks, because no request is a beginning of another. |
| C114 | The simulator may get its bytes in parts (`arrives_app`: no request is a beginning of another), so `write_all` over this network has the effect of one whole write; a simulation of every call by the same call over the wires of C81. |
| C115 | induction on the bytes still wanted for a read, a simulation of each call by its meaning, then induction on the calls; the rest by induction over the meanings |
| C116 | a syntactic account of where each call can end, by induction over its program (as C109), then induction on the program along any run and on the calls |

Properties marked "False" in properties.jsonl are stated as English claims the
code does not meet; the model proves the negation with a concrete witness
(`*_refuted`) and, where there is one, the weaker true statement (`*_partial`).

## 3. What the code does not do

Found while proving; each has a theorem named `*_refuted` or says so in its
statement.

| id | finding |
|----|---------|
| C05 | `try_marshal` of a sized buffer into a buffer that is too short panics instead of returning an error |
| C14 | `Tpm2bStruct::to_struct` ignores bytes behind the structure |
| C18 | public `count`/`size` fields above the capacity make `try_marshal` panic |
| C21 | handle types are not validated when unmarshalled |
| C24 | handle and session errors are decoded as other errors |
| C34 | a response of code 0 and a size below 10 makes the client panic |
| C35 | the client can interpret bytes the TPM did not send |
| C40 | after an error the TCP stream is out of step; a later command reads the earlier response |
| C48 | error responses of the server have no tag and size |
| C49 | the server's GetRandom response lacks the size prefix: the client gets two bytes fewer |
| C54 | TPM2B_DATA holds 64 instead of 66 bytes; TPMT_HA does not take TPM_ALG_NULL |
| C56 | decoding failures are indistinguishable from TPM error codes |
| C57 | a failing generator makes the server panic |
| C58 | GetRandom looks at neither the tag nor trailing bytes |
| C60 | a simulator whose ports cannot be found goes on running |
| C64 | TpmRcError::Sequence is 0x102 instead of 0x103 |
| C66 | `length = a::b` makes the derive macro panic |
| C68 | `tpm2b_simple` followed by a comma or another word is silently not recognised; attributes of tuple fields are ignored |
| C71 | PCR selections that differ behind their count are unequal but marshal alike |
| C72 | derive(Tpm2bStruct) looks at the first segment and first generic argument of the length only |
| C77 | tpm2::TpmtHa has no SM3_256, base::TpmtHa has |
| C79 | a sized buffer with a size above its maximum is reported as a short input |
| C82 | the response's parameter size is ignored |
| C83 | GetRandom does not limit the count to the size of a digest |
| C84 | after a partial write the next command is spliced onto the first: TPM2_Shutdown(STATE) that failed and TPM2_Startup(STATE) make a TPM2_Shutdown(CLEAR) |
| C46 | error responses differ in their first six bytes, which neither way writes |
- C94: an RSA scheme is read with ECDSA, ECDAA, SM2 and ECSCHNORR, an ECC scheme with RSASSA and RSAPSS, a symmetric object definition with XOR (which Part 2 excludes by name), a sensitive area with NULL; several algorithms and capabilities of Part 2 v185 are refused (SHA3, NULL digests, NV digest attestation, EDDSA, MLDSA, MLKEM, HKDF, TDES, ACT and later capabilities).
- C95: `Connection::transact` documents that `Err` is only returned when no response could be got at all; `TcpConnection` also fails after the whole response was received, if the four bytes after it are not zero, and when the response is larger than the caller's buffer (`C95_no_response_refuted`).
| C96 | `TcpSimulator::new` reads the port files of the process it has just started without telling a complete file from an empty, half-written or left-over one |
| C97 | dropping a `TcpSimulator` after a successful `stop_nicely` kills the process that was asked to stop: the drop sends the stop messages again on streams that are shut down, fails, and falls back to `kill` |
| C98 | `write_vectored` is not repeated when a signal interrupts it: a command, or a call with an argument, then fails with `Interrupted`, and a hash sequence is left without its end |
| C99 | an `AuthorizationArea` whose `is_empty` is inconsistent with `decompose_ref` makes the client send a command with the wrong tag, with an authorization area of size 0, or refuse every response: `is_empty` can be overridden and is asked twice |
| C102 | `reinit` and `hcrtm_sequence` are several requests, and another connection's request can come in between: a command can reach a TPM that is switched off, or be executed in the middle of a hash sequence (`C102_torn`) |
| C105 | a hand-written member that returns a count near `usize::MAX` makes `written` wrap around in builds without overflow checks: the next member is written over the first ones and the call succeeds (`c105_earlier_example`) |
| C108 | `reinit` and `hcrtm_sequence` are several requests with nothing to undo the first ones: a client that dies in the middle of `reinit` leaves the simulator without power for all users (`C108_stranded`) |
| C109 | one wrong acknowledgement in the middle of `reinit` makes it return an error and leaves the simulator without power; in `hcrtm_sequence` it leaves the sequence open, and the next command is executed in the middle of it (`C109_half_done`) |
| C113 | a hash sequence that fails because the network took only a part of its data corrupts the next one: repeated, it returns Ok and the simulator has measured other data; a command cut off in the same way and sent again makes the simulator execute the beginning of the command completed by the header of its repetition |
| C114 | control calls with an argument, unlike those without, do not survive a short write: they use one `write_vectored` and give up |
| C116 | a system error (connection reset) leaves it open whether the command was executed; callers must not resend blindly |

## 4. Trusted base

* Coq's kernel (8.16.1) including `vm_compute`, which closes computations over
  tables and concrete values.
* `Print Assumptions` says "Closed under the global context" for every theorem
  in section 6: no axioms.  The standard library files loaded contain
  axioms (`Coq.ssr.ssrunder.Under_rel` and its fields, seven in all), which no
  theorem uses.
* The faithfulness of the hand-written model to the source lines cited at each
  definition.  `Catalogue.v` is tied to the declarations and the macro by C67;
  the remaining transcription is that of the sources into `Declarations.v`,
  `Constants.v` and the function models.
* The specification files: that they say what the English property says.  Those
  after TPM 2.0 Parts 2 and 3 were transcribed from the documents in
  /repo/docs/specs.

## 5. What is modelled, file by file

| file in /repo | modelled |
|---------------|----------|
| marshalable/src/lib.rs, errors.rs | all |
| marshalable-derive/src/lib.rs | derive(Marshalable): from syn's syntax tree to the generated statements, and the token parsing of the container attribute; not syn itself, spans and error texts |
| marshalable-derive/src/lib.rs: derive(Tpm2bStruct) | `DeriveStruct.v`: what it accepts and generates |
| base/src/constants.rs | all enumerations and constants, their marshalling |
| base/src/lib.rs | all structures, unions, lists, attribute words, handle ranges; `Default` and `PartialEq` in `Catalogue.v` and `Equality.v` |
| base/src/commands.rs, commands/*.rs | all parameter and response structures; the trait Command |
| crates/tpm2/src | all: errors (with conversions), marshal.rs, tpmi.rs, tpmt.rs, constants.rs; `Display` and the conversion to io::Error in `Display.v` |
| crates/tpm2-client/src/lib.rs, sessions/ | all |
| crates/tpm2-client/src/connection/tcp.rs | all: TcpConnection, TcpSimulator (socket, file, process and timing behaviour arbitrary); the contents of log messages not |
| crates/tpm2-impl/src | all but tests; platform traits arbitrary |

Not modelled: Rust's type checker, allocation failure, stack overflow, threads
(nothing in the library starts one), `unsafe` memory (there is none),
tests, examples and fuzz targets.  `usize` has 64 bits except
in `Portable.v` and `PortableNet.v`, which show that any width from 32 bits on gives the same (C90),
and is taken to be large enough for offsets into buffers that exist.

## 6. Theorems and their assumptions

`Print Assumptions` lists nothing ("Closed under the global context") for each of
the 459 theorems below.

| id | property | status | theorems |
|----|----------|--------|----------|
| C01 | Marshal/unmarshal round trip | proved | `C01_round_trip`, `C01_round_trip_general`, `C01_round_trip_base` (PropertiesMarshal.v) |
| C02 | Unmarshalled input is the canonical encoding | proved | `C02_canonical` (PropertiesMarshal.v) |
| C03 | Unmarshalling is total | proved | `C03_unmarshal_total` (PropertiesMarshal.v) |
| C04 | Marshal succeeds exactly when the value fits | proved | `C04_ok_iff_fits` (PropertiesMarshal.v) |
| C05 | Marshalling into a short buffer reports an error instead of panicking | partial | `C05_short_buffer_partial`, `C05_short_never_ok_partial`, `C05_sized_buffer_panics`, `C05_short_buffer_refuted`, `C05_panics_exactly`, `C05_pieces` (PropertiesMarshal.v, PropertiesPieces.v) |
| C06 | Marshalling writes only where it says | proved | `C06_length`, `C06_frame`, `C06_written_exactly` (PropertiesMarshal.v, PropertiesPieces.v) |
| C07 | Truncated encodings are rejected | proved | `C07_truncated` (PropertiesMarshal.v) |
| C08 | Unmarshalling depends only on the bytes it consumes | proved | `C08_consumed_only` (PropertiesMarshal.v) |
| C09 | Unmarshalled values satisfy the type's invariants | proved | `C09_invariants`, `C09_sized_buffer`, `C09_list` (PropertiesMarshal.v) |
| C10 | Unique decodability | proved | `C10_unique_decodability` (PropertiesMarshal.v) |
| C11 | Out-of-range counts, sizes and selectors are rejected with the documented error | proved | `C11_list_count`, `C11_sized_buffer`, `C11_selector`, `C11_response_codes` (PropertiesMarshal.v) |
| C12 | Encodings never exceed the in-memory size | proved | `C12_size_of`, `C12_size_of_buffer` (PropertiesMarshal.v) |
| C13 | Tpm2bStruct wrapping never fails and round-trips | proved | `C13_round_trip`, `C13_round_trip_base` (PropertiesTpm2b.v) |
| C14 | Tpm2bStruct extraction is strict | partial | `C14_to_struct_accepts`, `C14_to_struct_total`, `C14_strict_refuted`, `C14_strict_partial`, `C14_strict_iff` (PropertiesTpm2b.v) |
| C15 | Tpm2bSimple byte access | proved | `C15_from_bytes`, `C15_equality`, `C15_default` (PropertiesTpm2b.v) |
| C16 | TPML lists behave as bounded lists | proved | `C16_bounded_list`, `C16_no_panic`, `C16_capacities` (PropertiesTpml.v) |
| C17 | TPML lists built through the API marshal to count followed by elements | proved | `C17_marshal`, `C17_marshal_base` (PropertiesTpml.v) |
| C18 | List counts set directly are safe to marshal | partial | `C18_count_in_range_partial`, `C18_count_above_panics`, `C18_public_counts_refuted` (PropertiesTpml.v) |
| C19 | Attribute bit fields | proved | `C19_nv_index_type`, `C19_cc_command_index`, `C19_cc_handles`, `C19_constructors`, `C19_disjoint`, `C19_locality` (PropertiesAttrs.v) |
| C20 | Handle classification | proved | `C20_nv_index`, `C20_nv_index_top_byte`, `C20_auth_session`, `C20_disjoint`, `C20_disjoint_sessions` (PropertiesAttrs.v) |
| C21 | Unmarshalled handles are validated | partial | `C21_unmarshal_unchecked`, `C21_validated_refuted` (PropertiesAttrs.v) |
| C22 | Selector-apart structures keep selector and body consistent | proved | `C22_attest_layout`, `C22_public_layout`, `C22_sensitive_layout`, `C22_selector_consistent`, `C22_undeclared`, `C22_members` (PropertiesMarshal.v) |
| C23 | Error codes are never zero and conversions preserve the code | proved | `C23_try_from`, `C23_rc_codes`, `C23_constructors_total`, `C23_layer_error`, `C23_common_codes`, `C23_layer_injective`, `C23_layer_not_rc` (PropertiesErrors.v) |
| C24 | Format-one error decoding inverts encoding | partial | `C24_encoded`, `C24_parameter_partial`, `C24_handle_misread`, `C24_session_misread`, `C24_decode_refuted`, `C24_session_high`, `C24_all_codes`, `C24_right_iff_parameter`, `C24_format_zero` (PropertiesErrors.v) |
| C25 | Warning classification | proved | `C25_is_warning`, `C25_not_format_one`, `C25_named` (PropertiesErrors.v) |
| C26 | New-style TpmtHa round trip and sizes | proved | `C26_marshal`, `C26_marshal_iff`, `C26_frame`, `C26_unmarshal`, `C26_round_trip` (PropertiesLimits.v) |
| C27 | Limits are enforced in both directions | proved | `C27_unmarshal_limits`, `C27_unmarshal_failure`, `C27_marshal_limits` (PropertiesLimits.v) |
| C28 | marshaled_size_max is an upper bound | proved | `C28_max_digest_size`, `C28_marshaled_size_max`, `C28_buffer_suffices`, `C28_no_waste` (PropertiesLimits.v) |
| C29 | Hash algorithm identifiers | proved | `C29_hash_alg_round_trip`, `C29_try_from`, `C29_identifiers`, `C29_ints`, `C29_algs`, `C29_bytes`, `C29_hash_marshal` (PropertiesLimits.v) |
| C30 | Command frame | proved | `C30_frame`, `C30_recording`, `C30_fields`, `C30_run_command` (PropertiesClient.v) |
| C31 | Authorization area | proved | `C31_tuples`, `C31_seen`, `C31_area` (PropertiesAreas.v, PropertiesClient.v) |
| C32 | TPM error codes are always surfaced | proved | `C32_error_code` (PropertiesClient.v) |
| C33 | Responses are accepted only when they parse completely | proved | `C33_accepted_iff` (PropertiesClient.v) |
| C34 | The client never panics on a TPM response | partial | `C34_panics_iff_partial`, `C34_password_total`, `C34_refuted` (PropertiesClient.v) |
| C35 | Client only interprets bytes the TPM sent | partial | `C35_reported_only_partial`, `C35_refuted`, `C35_decoded_partial`, `C35_rest_left`, `C35_tcp_leaves_rest`, `C35_over_tcp` (PropertiesClient.v, PropertiesReported.v) |
| C36 | Password sessions | proved | `C36_equal`, `C36_default`, `C36_new`, `C36_auth_command`, `C36_validate` (PropertiesAreas.v, PropertiesClient.v) |
| C37 | Commands that do not fit are refused before anything is sent | proved | `C37_too_long`, `C37_library_fits`, `C37_exactly`, `C37_pieces` (PropertiesClient.v, PropertiesOverflow.v) |
| C38 | Simulator frame for a command | proved | `C38_frame`, `C38_short`, `C38_refused`, `C38_too_long` (PropertiesTcp.v) |
| C39 | TCP stream stays synchronised over successful transactions | proved | `C39_success`, `C39_history`, `C39_answers`, `C39_connection` (PropertiesTcp.v) |
| C40 | TCP stream stays synchronised after an error return | partial | `C40_smuggled`, `C40_refuted`, `C40_partial`, `C40_left_partial` (PropertiesTcp.v) |
| C41 | Simulator control calls | proved | `C41_calls`, `C41_answered`, `C41_acknowledgements`, `C41_wrong_acknowledgement`, `C41_hash_length_wraps` (PropertiesTcp.v) |
| C42 | Connection retry | proved | `C42_attempts`, `C42_seen` (PropertiesTcp.v) |
| C43 | Server answers every request | proved | `C43_total` (PropertiesServer.v) |
| C44 | Server validates the command header | proved | `C44_size`, `C44_code`, `C44_count` (PropertiesServer.v) |
| C45 | Server GetRandom | proved | `C45_success`, `C45_no_room` (PropertiesServer.v) |
| C46 | In-place and separate execution agree | partial | `C46_agree_partial`, `C46_refuted` (PropertiesServer.v) |
| C47 | Server error responses | proved | `C47_errors` (PropertiesServer.v) |
| C48 | Server error responses are well-formed TPM responses | partial | `C48_tag_and_size_not_set_partial`, `C48_refuted` (PropertiesServer.v) |
| C49 | Server GetRandom response is decodable by the client | partial | `C49_two_short_partial`, `C49_exactly_partial`, `C49_refuted` (PropertiesEndToEnd.v) |
| C50 | DRBG helpers | proved | `C50_fill`, `C50_fill_all`, `C50_words_via_fill`, `C50_u64_via_u32`, `C50_inverse`, `C50_inverse_fill`, `C50_fits_server`, `C50_nothing_else` (PropertiesHelpers.v) |
| C51 | Server histories | proved | `C51_history`, `C51_payloads`, `C51_interrupted`, `C51_startup` (PropertiesServer.v) |
| C52 | End to end: unsupported commands | proved | `C52_unsupported`, `C52_library` (PropertiesEndToEnd.v) |
| C53 | Capability data fits its buffer | proved | `C53_capability_data` (PropertiesMarshal.v) |
| C54 | Structures have the layout of TPM 2.0 Part 2 | partial | `C54_layout`, `C54_decoding`, `C54_complete`, `C54_attest`, `C54_public`, `C54_sensitive`, `C54_attest_decoding`, `C54_public_decoding`, `C54_sensitive_decoding`, `C54_capacity_partial`, `C54_list_bounds`, `C54_selectors_partial`, `C54_data_capacity_refuted`, `C54_null_digest_refuted` (PropertiesLayout.v) |
| C55 | Connection errors are passed on | proved | `C55_connection_error`, `C55_once` (PropertiesClient.v) |
| C56 | Local decoding failures can be told from TPM errors | partial | `C56_local_errors_partial`, `C56_refuted` (PropertiesClient.v) |
| C57 | Generator failures are answered with TPM_RC_FAILURE | partial | `C57_failure_panics_partial`, `C57_refuted`, `C57_exactly_when_partial` (PropertiesServer.v) |
| C58 | GetRandom requests are validated | partial | `C58_ignored_partial`, `C58_ignored_calls_partial`, `C58_refuted` (PropertiesServer.v) |
| C59 | Port files | proved | `C59_text`, `C59_unique`, `C59_seen` (PropertiesTcp.v) |
| C60 | No simulator is left behind by a failed start | partial | `C60_never_killed`, `C60_refuted`, `C60_partial`, `C60_left_running` (PropertiesTcp.v) |
| C61 | Dropping a simulator stops it | proved | `C61_drop`, `C61_stop`, `C61_stop_nicely` (PropertiesTcp.v) |
| C62 | The TCP transport never panics | proved | `C62_calls`, `C62_connecting`, `C62_starting`, `C62_stopping` (PropertiesTcp.v) |
| C63 | A started simulator is the one asked for | proved | `C63_started` (PropertiesTcp.v) |
| C64 | Constants are those of the specification | partial | `C64_values`, `C64_complete`, `C64_tables_functional`, `C64_distinct`, `C64_rc_values_partial`, `C64_sequence_refuted`, `C64_crates_agree`, `C64_layout_constants` (PropertiesConstants.v) |
| C65 | Commands are those of the specification | proved | `C65_code`, `C65_complete`, `C65_sent`, `C65_sent_sessions`, `C65_received` (PropertiesCommands.v) |
| C66 | The derive macro accepts exactly what it documents | partial | `C66_accepts`, `C66_total_partial`, `C66_total_refuted` (PropertiesDerive.v) |
| C67 | Generated code follows the declaration | proved | `C67_unmarshal`, `C67_marshal`, `C67_round_trip`, `C67_library`, `C67_names`, `C67_names_once` (PropertiesDerive.v) |
| C68 | The container attribute selects the format | partial | `C68_sized_partial`, `C68_listed_refuted`, `C68_tuple_attributes_ignored`, `C68_struct_no_impl` (PropertiesDerive.v) |
| C69 | The server works on any buffers | proved | `C69_slices`, `C69_separate`, `C69_in_place`, `C69_representation` (PropertiesBuffers.v) |
| C70 | The TCP transport is transparent | proved | `C70_understood`, `C70_connected`, `C70_command`, `C70_session`, `C70_server` (PropertiesRemote.v) |
| C71 | Equality is equality on the wire | partial | `C71_decoded`, `C71_equality_partial`, `C71_survives`, `C71_exact`, `C71_returns`, `C71_equality_refuted` (PropertiesEquality.v) |
| C72 | derive(Tpm2bStruct) is accepted as documented and right | partial | `C72_documented`, `C72_taken`, `C72_total`, `C72_form_refuted`, `C72_generated`, `C72_runs`, `C72_library` (PropertiesDeriveStruct.v) |
| C73 | Integers are big-endian two's complement | proved | `C73_written`, `C73_read_unsigned`, `C73_read_signed`, `C73_new_written`, `C73_specifications` (PropertiesIntegers.v) |
| C74 | Types of fixed size accept every byte string; identifiers are not validated | proved | `C74_every_byte_string`, `C74_identifiers`, `C74_library` (PropertiesFixed.v) |
| C75 | Default values are empty, valid and survive the wire | proved | `C75_valid`, `C75_zero_bytes`, `C75_from_zeros`, `C75_empty`, `C75_hash` (PropertiesDefault.v) |
| C76 | Buffers around structures have the structure's size in memory | proved | `C76_size`, `C76_exists`, `C76_capacities` (PropertiesLayoutC.v) |
| C77 | The two crates' TPMT_HA are interchangeable on the wire | partial | `C77_new_to_old`, `C77_old_to_new_partial`, `C77_interchange_refuted` (PropertiesInterop.v) |
| C78 | A password goes into its field and nowhere else | proved | `C78_confined`, `C78_result` (PropertiesSecrecy.v) |
| C79 | Only a refusal for missing bytes can change with more bytes | partial | `C79_final`, `C79_missing_partial`, `C79_continue_partial`, `C79_missing_refuted`, `C79_decided`, `C79_oversized` (PropertiesFinal.v) |
| C80 | Errors can be told apart by their texts | proved | `C80_decimal`, `C80_distinct`, `C80_marshalling`, `C80_names` (PropertiesDisplay.v) |
| C81 | Controlling a simulator over TCP is controlling the simulator | proved | `C81_understood`, `C81_connected`, `C81_call`, `C81_session`, `C81_asked` (PropertiesControls.v) |
| C82 | A response's tag and parameter size are checked | partial | `C82_specified`, `C82_parameter_size_partial`, `C82_tag_partial`, `C82_refuted` (PropertiesResponse.v) |
| C83 | GetRandom returns no more than a digest, and no error | partial | `C83_number_partial`, `C83_longer_partial`, `C83_refuted` (PropertiesRandom.v) |
| C84 | A command that was not sent whole is not completed by the next | partial | `C84_stream_partial`, `C84_unique`, `C84_deaf_partial`, `C84_all_or_nothing_partial`, `C84_whole_partial`, `C84_cut_partial`, `C84_spliced_partial`, `C84_refuted` (PropertiesChoke.v, PropertiesSplice.v) |
| C85 | Every command is executed once, in order | proved | `C85_once`, `C85_again` (PropertiesOnce.v) |
| C86 | Answers carry nothing over from earlier exchanges | proved | `C86_fresh`, `C86_front` (PropertiesReuse.v) |
| C87 | A client that dies or is cut off leaves a prefix executed | proved | `C87_prefix`, `C87_as_many` (PropertiesSever.v) |
| C88 | The low-level structures crate never panics | proved | `C88_no_panic`, `C88_where` (PropertiesNoPanic.v) |
| C89 | Sessions that keep state are used once each, in order, around one exchange | proved | `C89_accepted_iff`, `C89_order`, `C89_handed`, `C89_noting`, `C89_plain` (PropertiesSessions.v) |
| C90 | The width of usize does not matter from 32 bits on | proved | `C90_codec`, `C90_codec_any`, `C90_client`, `C90_server`, `C90_sixteen_bits`, `C90_simulator`, `C90_lists` (PropertiesPortable.v, PropertiesPortableNet.v) |
| C91 | No network stream is leaked, used after closing, or closed twice | proved | `C91_connect`, `C91_connection`, `C91_simulator`, `C91_same` (PropertiesDrops.v) |
| C92 | Every call of the simulator connection makes a bounded number of system calls | proved | `C92_operation`, `C92_around`, `C92_history` (PropertiesDrops.v) |
| C93 | A command's bytes say what was asked for | proved | `C93_same_bytes`, `C93_library`, `C93_passwords` (PropertiesUnambiguous.v) |
| C94 | Unions take the alternatives that Part 2 lists | partial | `C94_taken_partial`, `C94_differences_partial`, `C94_keyed_hash`, `C94_rsa_key_refuted`, `C94_missing_refuted` (PropertiesSelectors.v) |
| C95 | A call over TCP succeeds exactly when its exchange was complete | partial | `C95_calls`, `C95_ended`, `C95_error_codes`, `C95_no_response_refuted` (PropertiesOutcome.v) |
| C96 | Starting a simulator waits for it | partial | `C96_waits_partial`, `C96_ports_partial`, `C96_gives_up`, `C96_half_written`, `C96_waits_refuted` (PropertiesStart.v) |
| C97 | A connection that was ended does nothing more | proved | `C97_ended`, `C97_no_more`, `C97_dropped`, `C97_nicely_then_dropped` (PropertiesStop.v) |
| C98 | A signal does not disturb a call of the simulator connection | partial | `C98_codes_partial`, `C98_one_piece_partial`, `C98_buffer_partial`, `C98_insist_partial`, `C98_hash_partial`, `C98_dropped`, `C98_undisturbed_refuted` (PropertiesInterrupts.v) |
| C99 | An authorization area of the program's own is asked when it matters, and only a consistent one makes a regular command | proved | `C99_sent`, `C99_regular_iff`, `C99_ordinary`, `C99_accepted_iff`, `C99_questions` (PropertiesOwn.v) |
| C100 | A request that changes while it is executed is executed as one request | proved | `C100_separate`, `C100_moments`, `C100_in_place`, `C100_in_place_moments`, `C100_served`, `C100_read_once`, `C100_in_place_read_once`, `C100_still` (PropertiesShared.v) |
| C101 | Clients that share a TPM see it as if they took turns | proved | `C101_program`, `C101_serial`, `C101_finished`, `C101_through`, `C101_server` (PropertiesClients.v) |
| C102 | Requests of users that share a simulator take effect one by one, calls that ask once as a whole | proved | `C102_program`, `C102_plan`, `C102_requests`, `C102_through`, `C102_calls`, `C102_torn` (PropertiesCrowd.v) |
| C103 | Strangers on the same simulator cannot disturb, hold up or speak for a user | proved | `C103_strangers`, `C103_through` (PropertiesStrangers.v) |
| C104 | The sizes a simulator reports are right if client and simulator have the same byte order | proved | `C104_little`, `C104_big`, `C104_reported` (PropertiesEndian.v) |
| C105 | Types with their own implementation fit into derived ones | proved | `C105_marshals`, `C105_unmarshals`, `C105_strict`, `C105_total`, `C105_library`, `C105_marshal_calls`, `C105_unmarshal_calls`, `C105_earlier`, `C105_claimed` (PropertiesCustom.v) |
| C106 | A union's data can be marshalled apart from its selector | proved | `C106_marshal`, `C106_apart`, `C106_round_trip`, `C106_told`, `C106_total` (PropertiesVariant.v) |
| C107 | Whatever a program's buffers do, the server asks little of them and goes by their answers | proved | `C107_order`, `C107_result`, `C107_generator`, `C107_noting`, `C107_in_place`, `C107_slices`, `C107_slices_in_place` (PropertiesForeign.v) |
| C108 | A user of a simulator that dies in a call leaves the beginning of its session done, and at most one request more | proved | `C108_machine`, `C108_beginning`, `C108_gone`, `C108_stranded` (PropertiesGone.v) |
| C109 | A simulator connection that is cut off leaves of every call the first requests done, and nothing else | proved | `C109_beginnings`, `C109_half_done`, `C109_exactly`, `C109_suffices`, `C109_cut_there` (PropertiesCut.v) |
| C110 | A buffer filled in steps of whole 64-bit words is filled as at once, and in no other steps | proved | `C110_whole_words`, `C110_many_steps`, `C110_only_whole_words` (PropertiesFill.v) |
| C111 | A broken simulator port fails only the calls that use it | proved | `C111_machine`, `C111_sessions`, `C111_late`, `C111_refused`, `C111_through` (PropertiesFrail.v) |
| C112 | Users of a simulator that end their sessions do not disturb the others | proved | `C112_leaving`, `C112_through` (PropertiesLeaving.v) |
| C113 | What a simulator does is what stands in the bytes that got through to it | proved | `C113_resent`, `C113_stream`, `C113_standing`, `C113_whole`, `C113_successful`, `C113_deaf`, `C113_measured` (PropertiesResent.v, PropertiesTrickle.v) |
| C114 | Control calls that send only codes work over a network that takes them in parts | proved | `C114_session`, `C114_short` (PropertiesMeagre.v) |
| C115 | What calls to a simulator return depends only on the bytes that arrive, not on how they arrive | proved | `C115_peer`, `C115_session`, `C115_pieces`, `C115_more`, `C115_end` (PropertiesAnswering.v, PropertiesHearing.v) |
| C116 | What the error of a simulator call tells about whether it was carried out | proved | `C116_stream`, `C116_stop`, `C116_parts`, `C116_session`, `C116_one`, `C116_unclear` (PropertiesHinting.v, PropertiesTelling.v) |
