{"id": "C01", "title": "Marshal/unmarshal round trip", "statement": "For every type that implements Marshalable through the library's primitives, the derive macro or the three hand-written impls, and every value of it that the public API can build: if try_marshal into a buffer returns Ok(n), then try_unmarshal of the first n bytes of the buffer followed by any further bytes returns a value equal to the original and leaves exactly the further bytes unread.", "quantifier": "all derivable types (arbitrary nesting), all well-formed values, all buffers, all trailing byte strings", "why_tests_cant": "the set of types, values and trailing inputs is unbounded; unit tests check a dozen literals", "anchors": ["marshalable/src/lib.rs: Marshalable, UnmarshalBuf", "marshalable-derive/src/lib.rs: get_field_marshal_body, get_field_unmarshal, get_enum_impl", "base/src/lib.rs: TpmsAttest, TpmtPublic, TpmtSensitive impl Marshalable"]}
{"id": "C02", "title": "Unmarshalled input is the canonical encoding", "statement": "Whenever try_unmarshal succeeds, marshalling the returned value into any buffer that is long enough writes back exactly the bytes that were consumed and returns their number. So no type has two wire encodings of one value.", "quantifier": "all derivable types, all input byte strings, all output buffers", "why_tests_cant": "quantifies over every accepted byte string", "anchors": ["marshalable/src/lib.rs", "marshalable-derive/src/lib.rs", "base/src/lib.rs"]}
{"id": "C03", "title": "Unmarshalling is total", "statement": "try_unmarshal never panics: for every byte string and every type the derive macro accepts it returns Ok or one of the three documented errors, and it never reads past the end of its input (what is left is always a suffix of what was given).", "quantifier": "all byte strings, all derivable types", "why_tests_cant": "hostile inputs are unbounded; fuzzing samples them", "anchors": ["marshalable/src/lib.rs: UnmarshalBuf::get", "marshalable-derive/src/lib.rs: get_named_field_unmarshal, get_enum_unmarshal_body, derive_tpm2b_simple"]}
{"id": "C04", "title": "Marshal succeeds exactly when the value fits", "statement": "try_marshal returns Ok iff the destination is at least as long as the value's wire encoding; the returned count is then the exact length of that encoding and the first bytes of the buffer are that encoding.", "quantifier": "all derivable types, all well-formed values, all buffers of all lengths", "why_tests_cant": "needs every buffer length against every value", "anchors": ["marshalable/src/lib.rs", "marshalable-derive/src/lib.rs"]}
{"id": "C05", "title": "Marshalling into a short buffer reports an error instead of panicking", "statement": "try_marshal with a destination that is too short returns Err(UnexpectedEndOfBuffer) and does not panic. (Documented contract of Marshalable; false for types with a sized-buffer field because the length check uses max instead of min.)", "quantifier": "all derivable types, all well-formed values, all short buffers", "why_tests_cant": "the failing buffer lengths sit strictly inside the payload of a sized buffer; the tests only use buffers that are large enough or that are cut before the payload", "anchors": ["marshalable-derive/src/lib.rs: derive_tpm2b_simple try_marshal (lines 277-286)"]}
{"id": "C06", "title": "Marshalling writes only where it says", "statement": "try_marshal never changes the length of the destination, on Ok(n) leaves every byte from position n on untouched, and on an error leaves every byte beyond the value's encoded length untouched.", "quantifier": "all derivable types, all values, all buffers, success and failure", "why_tests_cant": "frame conditions range over all memory contents", "anchors": ["marshalable/src/lib.rs", "marshalable-derive/src/lib.rs"]}
{"id": "C07", "title": "Truncated encodings are rejected", "statement": "Cutting the encoding of a value at any point before its end makes try_unmarshal fail with UnexpectedEndOfBuffer; no proper prefix of an encoding decodes to anything.", "quantifier": "all derivable types, all well-formed values, every cut point", "why_tests_cant": "every cut point of every encoding", "anchors": ["marshalable/src/lib.rs", "marshalable-derive/src/lib.rs"]}
{"id": "C08", "title": "Unmarshalling depends only on the bytes it consumes", "statement": "If try_unmarshal succeeds on an input leaving a remainder, it returns the same value on the consumed bytes followed by any other remainder, and leaves that remainder.", "quantifier": "all derivable types, all inputs, all remainders", "why_tests_cant": "two-run (relational) property over all inputs", "anchors": ["marshalable/src/lib.rs", "marshalable-derive/src/lib.rs"]}
{"id": "C09", "title": "Unmarshalled values satisfy the type's invariants", "statement": "Every value returned by try_unmarshal is well formed: integers are in range, every list count is at most the list capacity, every sized buffer's size is at most its maximum with a zero tail, enum selectors are declared ones, and unused list slots hold the default.", "quantifier": "all derivable types, all inputs", "why_tests_cant": "invariant over all accepted inputs", "anchors": ["marshalable-derive/src/lib.rs", "base/src/lib.rs"]}
{"id": "C10", "title": "Unique decodability", "statement": "For any type, if the encodings of two values are both prefixes of the same byte string then the two values are equal (up to the unobservable bytes behind a size or count); in particular no encoding is a proper prefix of another.", "quantifier": "all derivable types, all pairs of well-formed values", "why_tests_cant": "relates every pair of values", "anchors": ["marshalable/src/lib.rs", "marshalable-derive/src/lib.rs"]}
{"id": "C11", "title": "Out-of-range counts, sizes and selectors are rejected with the documented error", "statement": "A list count above the capacity yields ArrayLengthExceeded, a sized-buffer size above the maximum or above the remaining input yields UnexpectedEndOfBuffer, an undeclared selector yields UnknownSelector, whatever bytes follow; these surface as TPM_RC_SIZE, TPM_RC_MEMORY and TPM_RC_SELECTOR respectively.", "quantifier": "all capacities, all counts/sizes/selectors, all following bytes", "why_tests_cant": "ranges over every count, every type", "anchors": ["marshalable-derive/src/lib.rs", "marshalable/src/errors.rs: From<Error> for TpmRcError, TssError"]}
{"id": "C12", "title": "Encodings never exceed the in-memory size", "statement": "For every type the longest possible wire encoding is at most core::mem::size_of of the type, so a buffer of size_of::<T>() bytes can hold any marshalled T.", "quantifier": "all derivable types, all values", "why_tests_cant": "needs the maximum over all values and all type shapes", "anchors": ["base/src/lib.rs: TPM2_MAX_CAP_*, Tpm2bPublic, Tpm2bSensitiveCreate, Tpm2bCreationData, Tpm2bAttest sizes", "marshalable-derive/src/lib.rs: derive_tpm2b_struct"]}
{"id": "C13", "title": "Tpm2bStruct wrapping never fails and round-trips", "statement": "from_struct returns Ok for every value of the wrapped struct type, its size is the encoded length, and to_struct of the result returns the original value.", "quantifier": "all values of TpmtPublic, TpmsSensitiveCreate, TpmsCreationData", "why_tests_cant": "all nested values; depends on the capacity bound for the largest one", "anchors": ["marshalable-derive/src/lib.rs: derive_tpm2b_struct", "base/src/lib.rs: Tpm2bStruct"]}
{"id": "C14", "title": "Tpm2bStruct extraction is strict", "statement": "to_struct accepts only wrappers whose whole visible buffer is the encoding of a struct (from_struct(to_struct(b)) = b). False: trailing bytes inside the wrapper are silently ignored.", "quantifier": "all wrapper contents", "why_tests_cant": "needs an adversarial buffer that extends a valid encoding", "anchors": ["marshalable-derive/src/lib.rs: to_struct (lines 101-104)"]}
{"id": "C15", "title": "Tpm2bSimple byte access", "statement": "from_bytes succeeds iff the slice is at most MAX_BUFFER_SIZE (and 65535) bytes, otherwise ArrayLengthExceeded; on success get_size is its length, get_buffer and as_ref return exactly it, and two such values compare equal iff their visible bytes are equal.", "quantifier": "all byte slices, all capacities", "why_tests_cant": "all slices of all lengths", "anchors": ["marshalable-derive/src/lib.rs: derive_tpm2b_simple", "base/src/lib.rs: Tpm2bSimple"]}
{"id": "C16", "title": "TPML lists behave as bounded lists", "statement": "Any sequence of new/add/count/accessor calls on a TPML list behaves like a list with a fixed capacity: the accessor returns exactly the elements added so far in order, count its length, add and new fail with TPM_RC_SIZE exactly when the capacity would be exceeded and leave the list unchanged; no operation panics.", "quantifier": "all element types, all capacities, all operation histories", "why_tests_cant": "all histories", "anchors": ["base/src/lib.rs: impl_tpml! (1529-1572)"]}
{"id": "C17", "title": "TPML lists built through the API marshal to count followed by elements", "statement": "After any sequence of list operations, marshalling the list never indexes out of range and produces the 4-byte count followed by the encodings of exactly the elements the accessor returns, and unmarshalling that gives a list with the same elements.", "quantifier": "all operation histories, all element values", "why_tests_cant": "all histories and values", "anchors": ["base/src/lib.rs: impl_tpml!, Tpml* types", "marshalable-derive/src/lib.rs: get_named_field_marshal"]}
{"id": "C18", "title": "List counts set directly are safe to marshal", "statement": "Marshalling never panics whatever the caller stores in a public count field. False: TpmlTaggedTpmProperty.count and TpmsPcrSelection.sizeof_select are public and a count above the capacity makes the generated loop index out of bounds.", "quantifier": "all count values", "why_tests_cant": "requires the one-past-capacity state nobody tests", "anchors": ["base/src/lib.rs: TpmlTaggedTpmProperty, TpmsPcrSelection", "marshalable-derive/src/lib.rs: lines 411-418"]}
{"id": "C19", "title": "Attribute bit fields", "statement": "For TpmaNv's index type, TpmaCc's command index and handle count: get after set returns the value truncated to the field width, set leaves every other bit of the word unchanged, set twice equals the last set, and fields do not overlap one another or the named flag bits.", "quantifier": "all 32-bit words, all field values", "why_tests_cant": "2^32 words times all field values", "anchors": ["base/src/lib.rs: new/get/set_attribute_field, TpmaNv, TpmaCc"]}
{"id": "C20", "title": "Handle classification", "statement": "TpmiRhNvIndex::try_from and TpmiShAuthSession::try_from accept exactly the handle ranges of the specification (NV index 01xxxxxx; HMAC sessions 02000000..0200003F, policy sessions 03000000..0300003F, and TPM_RS_PW) and otherwise return TPM_RC_VALUE; the ranges are disjoint and decided by the top byte; accepted handles keep their value.", "quantifier": "all 2^32 handle values", "why_tests_cant": "all handle values", "anchors": ["base/src/constants.rs: TpmHc", "base/src/lib.rs: TpmiRhNvIndex, TpmiShAuthSession"]}
{"id": "C21", "title": "Unmarshalled handles are validated", "statement": "Every TpmiRhNvIndex and TpmiShAuthSession obtained from try_unmarshal is in the accepted range. False: the derived impl bypasses TryFrom and accepts any 32-bit value.", "quantifier": "all inputs", "why_tests_cant": "no test unmarshals an out-of-range handle", "anchors": ["base/src/lib.rs: TpmiRhNvIndex, TpmiShAuthSession derive(Marshalable)"]}
{"id": "C22", "title": "Selector-apart structures keep selector and body consistent", "statement": "TpmsAttest, TpmtPublic and TpmtSensitive place the union selector at its specified position, apart from the union body; decoding selects the body by that selector and round-trips for every union member; an undeclared selector (including TPM_ST_ATTEST_NV_DIGEST) is rejected after the fixed fields were parsed.", "quantifier": "all union members and field values, all inputs", "why_tests_cant": "each combination of nested unions", "anchors": ["base/src/lib.rs: TpmsAttest (774-802), TpmtPublic (1180-1204), TpmtSensitive (1249-1270)"]}
{"id": "C23", "title": "Error codes are never zero and conversions preserve the code", "statement": "TssError::try_from(x) succeeds iff x != 0 and get returns x; every TpmRcError and TSS layer error converts to a TssError with the same code; TSS layer errors carry their layer in bits 12.. and the common code in the low bits, so errors of different layers never collide with each other or with a TPM_RC.", "quantifier": "all 32-bit codes, all layers and all named codes", "why_tests_cant": "all codes", "anchors": ["crates/tpm2/src/errors/mod.rs", "crates/tpm2/src/errors/tss_rc.rs", "crates/tpm2/src/errors/tpm_rc/mod.rs"]}
{"id": "C24", "title": "Format-one error decoding inverts encoding", "statement": "An error built by AsymmetricFor/ValueFor/SizeFor/SelectorFor(on, pos) has the number of that error and, as TPM 2.0 Part 1 reads it, that subject and position (for handles and sessions up to position 7); and format1_parameter of an error built by AsymmetricFor/ValueFor/SizeFor/SelectorFor(on, pos) returns Some((on, pos)). False for handles (decoded as session) and for sessions (position gets 8 added); true for parameters.", "quantifier": "all error kinds, all 3 subjects, all 15 positions", "why_tests_cant": "the single unit test covers one of 45 combinations per base code", "anchors": ["crates/tpm2/src/errors/tpm_rc/mod.rs: format1_parameter, ErrorType::from_mask, ErrorPosition::from_mask"]}
{"id": "C25", "title": "Warning classification", "statement": "is_warning is true exactly for format-zero codes with the warning bit, i.e. bit 7 clear, bits 8 and 11 set, and no format-one error is ever classified as a warning.", "quantifier": "all 32-bit codes", "why_tests_cant": "all codes", "anchors": ["crates/tpm2/src/errors/tpm_rc/mod.rs: is_warning"]}
{"id": "C26", "title": "New-style TpmtHa round trip and sizes", "statement": "For every limits configuration, digest and buffer: marshal succeeds iff the hash is supported and the buffer holds marshaled_size bytes, writes exactly marshaled_size bytes and returns the untouched rest; unmarshal of them gives back the digest and the exact rest.", "quantifier": "all limits implementations, all digests, all buffers", "why_tests_cant": "limits is an arbitrary user predicate", "anchors": ["crates/tpm2/src/tpmt.rs", "crates/tpm2/src/marshal.rs"]}
{"id": "C27", "title": "Limits are enforced in both directions", "statement": "No TpmtHa whose hash the limits do not support is ever marshalled or unmarshalled, whatever the input.", "quantifier": "all limits, all inputs", "why_tests_cant": "arbitrary predicate and input", "anchors": ["crates/tpm2/src/tpmt.rs", "crates/tpm2/src/marshal.rs: Limits"]}
{"id": "C28", "title": "marshaled_size_max is an upper bound", "statement": "For every limits configuration, marshaled_size of any value the limits allow is at most marshaled_size_max, and max_digest_size is the largest digest size among supported hashes (0 if none).", "quantifier": "all limits", "why_tests_cant": "all 256 hash subsets, all values", "anchors": ["crates/tpm2/src/marshal.rs: Limits::max_digest_size", "crates/tpm2/src/tpmi.rs: BY_SIZE_DESC", "crates/tpm2/src/tpmt.rs"]}
{"id": "C29", "title": "Hash algorithm identifiers", "statement": "TpmiAlgHash to Alg and back is the identity, TryFrom<Alg> accepts exactly the eight hash identifiers, and fixed-size integers marshal big-endian and round-trip.", "quantifier": "all 16-bit identifiers, all integers", "why_tests_cant": "all identifiers", "anchors": ["crates/tpm2/src/tpmi.rs", "crates/tpm2/src/constants.rs", "crates/tpm2/src/marshal.rs: impl_ints"]}
{"id": "C30", "title": "Command frame", "statement": "Whenever run_command_with_handles reaches the connection, the bytes sent are exactly: tag (TPM_ST_SESSIONS iff at least one session is given), 4-byte total length equal to the number of bytes sent, command code, handles, authorization area, parameters.", "quantifier": "all commands, handles, session tuples, connections", "why_tests_cant": "all commands and session sets", "anchors": ["crates/tpm2-client/src/lib.rs: run_command_with_handles, CmdHeader"]}
{"id": "C31", "title": "Authorization area", "statement": "With one to three sessions the authorization area is a 4-byte size followed by the sessions' auth commands in order, the size counts exactly those auth commands; with none it is absent. Every trait that a tuple of sessions implements shows the same sessions in the same order.", "quantifier": "all session tuples", "why_tests_cant": "all sizes of auth values", "anchors": ["crates/tpm2-client/src/lib.rs: write_command_sessions, marshal_auth_size", "crates/tpm2-client/src/sessions/authorization_area"]}
{"id": "C32", "title": "TPM error codes are always surfaced", "statement": "If the response header carries a non-zero response code, the call fails with exactly that code and nothing of the response body is interpreted.", "quantifier": "all commands, all response buffers", "why_tests_cant": "all responses", "anchors": ["crates/tpm2-client/src/lib.rs: read_response_header"]}
{"id": "C33", "title": "Responses are accepted only when they parse completely", "statement": "If the call returns Ok((resp, handles)), the received bytes up to the response size are exactly header, handles encoding, (parameter size if the tag is TPM_ST_SESSIONS), response encoding and one valid auth response per session, with nothing left over.", "quantifier": "all commands, all response buffers, all session tuples", "why_tests_cant": "all responses", "anchors": ["crates/tpm2-client/src/lib.rs: run_command_with_handles, read_response_sessions"]}
{"id": "C34", "title": "The client never panics on a TPM response", "statement": "run_command returns Ok or Err for every byte string the TPM can send. False: a response whose size field is below 10 with response code 0 makes the slice resp_buffer[10..size] panic.", "quantifier": "all response byte strings", "why_tests_cant": "one hostile length; tests only try a size that is too large", "anchors": ["crates/tpm2-client/src/lib.rs: run_command_with_handles line 183"]}
{"id": "C35", "title": "Client only interprets bytes the TPM sent", "statement": "The decoded response depends only on the bytes the connection reported as received. False: the returned slice is dropped and the remainder of the 4096-byte buffer is decoded if the size field says so. Exactly: whatever number of bytes is reported, the result depends on the ten header bytes of the buffer and, if the response code is zero, on as many of its bytes as the size field says. Over a connection that leaves the rest of the buffer untouched, such as the library's TCP connection, the remainder is zeros, so equal reported bytes do give equal results, although those zeros may be decoded as part of them.", "quantifier": "all responses and reported lengths, all connections, all networks", "why_tests_cant": "requires a size field larger than the received data", "anchors": ["crates/tpm2-client/src/lib.rs: run_command_with_handles line 176"]}
{"id": "C36", "title": "Password sessions", "statement": "PasswordSession::new succeeds iff the password has at most 64 bytes (else TPM_RC_SIZE), get_secret returns it, its auth command carries handle TPM_RS_PW, empty nonce, zero attributes and the password as hmac; validate_auth_response accepts exactly the response with empty nonce and hmac and attributes = continueSession. Two password sessions compare equal exactly if their passwords are the same bytes, and the default session has the empty password.", "quantifier": "all passwords, all auth responses", "why_tests_cant": "all passwords, all responses", "anchors": ["crates/tpm2-client/src/sessions/password.rs"]}
{"id": "C37", "title": "Commands that do not fit are refused before anything is sent", "statement": "If header, handles, sessions and parameters do not fit the 4096-byte command buffer, the call returns TPM_RC_MEMORY or panics but in no case is a truncated command handed to the connection.", "quantifier": "all commands and handles", "why_tests_cant": "all sizes", "anchors": ["crates/tpm2-client/src/lib.rs: run_command_with_handles"]}
{"id": "C38", "title": "Simulator frame for a command", "statement": "transact writes code 8, the locality, the command length and the command bytes, in that order and nothing else, and reports an error if the stream accepted fewer bytes.", "quantifier": "all commands up to 2^32-1 bytes, all localities, all short-write outcomes", "why_tests_cant": "all commands and write behaviours of the peer", "anchors": ["crates/tpm2-client/src/connection/tcp.rs: transact, SendCommandRequestHeader"]}
{"id": "C39", "title": "TCP stream stays synchronised over successful transactions", "statement": "If transact returns Ok it consumed exactly one response frame (length, payload, zero terminator) and returned exactly its payload; hence over any number of successful transactions and platform calls the k-th result is the k-th frame sent by the peer.", "quantifier": "all histories of calls, all peer byte streams", "why_tests_cant": "all histories", "anchors": ["crates/tpm2-client/src/connection/tcp.rs: transact, check_response_end"]}
{"id": "C40", "title": "TCP stream stays synchronised after an error return", "statement": "After transact reports that the response buffer is too small the next transaction still reads its own response. False: the oversized payload stays in the stream and is read as the next length.", "quantifier": "all peers, all buffers", "why_tests_cant": "needs a two-step history with a failing first step", "anchors": ["crates/tpm2-client/src/connection/tcp.rs: transact lines 420-425"]}
{"id": "C41", "title": "Simulator control calls", "statement": "Each control function (platform_signal, reinit, remote_handshake, set_alternative_result, hcrtm_sequence, act_get_signaled, set_firmware_hash/svn, get_command_response_sizes, test_failure_mode, session_end, stop_simulator) writes exactly its documented byte sequence to the right port and succeeds only if every acknowledgement it reads is four zero bytes.", "quantifier": "all arguments, all peer replies", "why_tests_cant": "all replies", "anchors": ["crates/tpm2-client/src/connection/tcp.rs"]}
{"id": "C42", "title": "Connection retry", "statement": "connect_with_retries makes at most four attempts, returns the first successful connection, and otherwise the error of the fourth attempt.", "quantifier": "all sequences of connect outcomes", "why_tests_cant": "all outcome sequences", "anchors": ["crates/tpm2-client/src/connection/tcp.rs: connect_with_retries, read_port_from_file_with_retries"]}
{"id": "C43", "title": "Server answers every request", "statement": "execute_command_separate and execute_command_in_place return for every request and every response buffer (as long as the DRBG does not fail), return a size that never exceeds the response buffer, and write nothing behind the larger of that size and 10.", "quantifier": "all requests, all response buffers, all DRBG implementations", "why_tests_cant": "all requests and buffers", "anchors": ["crates/tpm2-impl/src/tpmctx.rs", "crates/tpm2-impl/src/req_resp.rs", "crates/tpm2-impl/src/buffers/*", "crates/tpm2-impl/src/platform/buffer.rs"]}
{"id": "C44", "title": "Server validates the command header", "statement": "A request shorter than 10 bytes, or whose size field differs from its length, is answered with TPM_RC_COMMAND_SIZE; a well-sized request whose code is not GetRandom with TPM_RC_COMMAND_CODE; in both cases the DRBG and entropy source are not touched.", "quantifier": "all requests", "why_tests_cant": "all requests", "anchors": ["crates/tpm2-impl/src/tpmctx.rs: execute_command"]}
{"id": "C45", "title": "Server GetRandom", "statement": "A well-formed GetRandom request for n bytes with room for 10+n bytes gets a 10+n byte response: tag 0x8001, size 10+n, code 0 and exactly n bytes produced by one DRBG request, reseeded first iff the DRBG asks for it; without room it gets TPM_RC_MEMORY and no DRBG output is generated.", "quantifier": "all n, all DRBGs, all buffers", "why_tests_cant": "all n, all DRBG behaviours", "anchors": ["crates/tpm2-impl/src/handler/random.rs", "crates/tpm2-impl/src/tpmctx.rs"]}
{"id": "C46", "title": "In-place and separate execution agree", "statement": "Executing a request in place in a buffer gives the same size, the same response bytes and the same context state as executing it with a separate response buffer of the same length, even though the in-place response overwrites the request. False in one respect: the first six bytes of an error response are left as they were, so they are those of the request in place.", "quantifier": "all requests, all buffers, all contexts", "why_tests_cant": "relational over all inputs; aliasing", "anchors": ["crates/tpm2-impl/src/buffers/inout.rs", "crates/tpm2-impl/src/buffers/separate.rs", "crates/tpm2-impl/src/tpmctx.rs"]}
{"id": "C47", "title": "Server error responses", "statement": "An error is reported as a 10-byte response whose bytes 6..10 are the response code; with a response buffer shorter than 10 bytes nothing is written and 0 is returned; bytes 0..6 and 10.. keep their previous contents.", "quantifier": "all errors, all buffers", "why_tests_cant": "all buffers", "anchors": ["crates/tpm2-impl/src/tpmctx.rs: fill_error"]}
{"id": "C48", "title": "Server error responses are well-formed TPM responses", "statement": "An error response starts with tag TPM_ST_NO_SESSIONS and size 10. False: fill_error leaves tag and size as they were (request bytes in place, stale bytes otherwise).", "quantifier": "all error cases", "why_tests_cant": "no test executes an erroneous request", "anchors": ["crates/tpm2-impl/src/tpmctx.rs: fill_error"]}
{"id": "C49", "title": "Server GetRandom response is decodable by the client", "statement": "The client's decoder for GetRandom accepts the server's response and returns the requested bytes. False: the server omits the 2-byte size prefix of the TPM2B_DIGEST.", "quantifier": "all requested sizes", "why_tests_cant": "crosses two crates that are never tested together", "anchors": ["crates/tpm2-impl/src/handler/random.rs", "base/src/commands/random.rs", "crates/tpm2-client/src/lib.rs"]}
{"id": "C50", "title": "DRBG helpers", "statement": "fill_bytes_via_next fills every byte of the destination from the little-endian bytes of successive words, uses the additional input for the first call only, asks for one 64-bit word per eight bytes and for the rest for one word just large enough (none for an empty rest, a 32-bit word for up to four bytes), and stops at the first error; next_u32/u64_via_fill and next_u64_via_u32 produce the little-endian value of the same byte stream. The helpers are inverse to each other, and a generator built with them differs from the one it is built from in what they stand for and in nothing else.", "quantifier": "all destinations lengths, all DRBGs", "why_tests_cant": "all lengths, all DRBG behaviours", "anchors": ["crates/tpm2-impl/src/platform/crypto/drbg/helpers.rs"]}
{"id": "C51", "title": "Server histories", "statement": "Over any sequence of commands, the random bytes handed out are exactly the successive outputs of the DRBG in order, none is used twice or skipped, failing commands leave the DRBG untouched, and entropy is drawn exactly once per requested reseed plus twice at start-up.", "quantifier": "all command histories", "why_tests_cant": "all histories", "anchors": ["crates/tpm2-impl/src/tpmctx.rs", "crates/tpm2-impl/src/handler/random.rs", "crates/tpm2-impl/src/crypto.rs"]}
{"id": "C52", "title": "End to end: unsupported commands", "statement": "A client command other than GetRandom run against the server through any faithful connection returns TPM_RC_COMMAND_CODE to the caller.", "quantifier": "all commands that fit, all server states", "why_tests_cant": "composition of client and server for all commands", "anchors": ["crates/tpm2-client/src/lib.rs", "crates/tpm2-impl/src/tpmctx.rs"]}
{"id": "C53", "title": "Capability data fits its buffer", "statement": "Every TpmsCapabilityData value marshals to at most TPM2_MAX_CAP_BUFFER (1024) bytes.", "quantifier": "all capability data values", "why_tests_cant": "all lists of all kinds", "anchors": ["base/src/lib.rs: TPM2_MAX_CAP_*, TpmsCapabilityData"]}
{"id": "C54", "title": "Structures have the layout of TPM 2.0 Part 2", "statement": "Every Marshalable structure is encoded as the concatenation of its members in the order and with the widths, array bounds, sized-buffer capacities and union selectors that TPM 2.0 Part 2 gives.", "quantifier": "all values of all structures", "why_tests_cant": "each structure has unboundedly many values; tests compare few of them and mostly only round-trip, which a swapped field survives", "anchors": ["base/src/lib.rs"]}
{"id": "C55", "title": "Connection errors are passed on", "statement": "If the connection fails, run_command_with_handles returns the connection's own error, having called it exactly once.", "quantifier": "all commands, sessions, connections and errors", "why_tests_cant": "connections are arbitrary implementations", "anchors": ["crates/tpm2-client/src/lib.rs: run_command_with_handles"]}
{"id": "C56", "title": "Local decoding failures can be told from TPM errors", "statement": "An error carrying a TPM response code means the TPM reported it. False: decoding failures of a success response are reported as TPM_RC_MEMORY, TPM_RC_SIZE or TPM_RC_SELECTOR too.", "quantifier": "all responses", "why_tests_cant": "all byte strings", "anchors": ["crates/tpm2-client/src/lib.rs: run_command_with_handles", "marshalable/src/errors.rs: From<Error> for TssError"]}
{"id": "C57", "title": "Generator failures are answered with TPM_RC_FAILURE", "statement": "If the DRBG or its reseeding fails while a GetRandom command is executed, the caller gets a response with code TPM_RC_FAILURE. False: the failure path is todo!() and panics.", "quantifier": "all DRBG failures, all requests, all server states", "why_tests_cant": "the tests' generator never fails", "anchors": ["crates/tpm2-impl/src/crypto.rs", "crates/tpm2-impl/src/handler/random.rs"]}
{"id": "C58", "title": "GetRandom requests are validated", "statement": "A GetRandom request is refused if its tag is not TPM_ST_NO_SESSIONS or if bytes follow the count. False: neither is looked at.", "quantifier": "all requests", "why_tests_cant": "all requests; tests send one", "anchors": ["crates/tpm2-impl/src/handler/random.rs", "crates/tpm2-impl/src/tpmctx.rs"]}
{"id": "C59", "title": "Port files", "statement": "The port read from a simulator's port file is n exactly if the file consists of white space, an optional plus sign, the decimal digits of n (at most 65535) and white space; any other text is InvalidData; a file that cannot be read is tried again, four times in all.", "quantifier": "all texts, all sequences of read outcomes", "why_tests_cant": "all texts", "anchors": ["crates/tpm2-client/src/connection/tcp.rs: read_port_from_file_with_retries"]}
{"id": "C60", "title": "No simulator is left behind by a failed start", "statement": "If TcpSimulator::new fails after it started the process, the process does not go on running. False: the child is dropped without being killed.", "quantifier": "all failures of the port files and connections", "why_tests_cant": "depends on the order of failures of files, processes and the network", "anchors": ["crates/tpm2-client/src/connection/tcp.rs: TcpSimulator::new"]}
{"id": "C61", "title": "Dropping a simulator stops it", "statement": "When a TcpSimulator is dropped, either both ports were sent the stop code and shut down, or the process is killed. stop() kills the process and reports whether that succeeded; stop_nicely() succeeds only after both ports were sent the stop code.", "quantifier": "all failures of the two streams, at every byte", "why_tests_cant": "a failure can occur at each of the eight bytes and two shutdowns", "anchors": ["crates/tpm2-client/src/connection/tcp.rs: Drop for TcpSimulator, stop_nicely, stop, stop_simulator"]}
{"id": "C62", "title": "The TCP transport never panics", "statement": "No function of TcpConnection and TcpSimulator panics, whatever the peer sends, however it cuts its stream, and whatever the system reports.", "quantifier": "all peers, all outcomes of system calls, all arguments", "why_tests_cant": "peers are arbitrary", "anchors": ["crates/tpm2-client/src/connection/tcp.rs"]}
{"id": "C63", "title": "A started simulator is the one asked for", "statement": "If TcpSimulator::new succeeds, it started the given program once and the connection is to the given address, on the ports found in the files command.port and platform.port of the given directory.", "quantifier": "all worlds", "why_tests_cant": "depends on files written by another process", "anchors": ["crates/tpm2-client/src/connection/tcp.rs: TcpSimulator::new"]}
{"id": "C64", "title": "Constants are those of the specification", "statement": "Every algorithm identifier, curve, command code, response code, tag, capability, property, handle, attribute bit and so on that the library names has the value TPM 2.0 Part 2 prints for that name, different names of one enumeration have different values, and every constant of these tables is there except for a given list (newer ones, bounds, modifiers of response codes, second names, reserved handles). False of TpmRcError::Sequence (0x102 instead of 0x103).", "quantifier": "all named constants of tpm2-rs-base and tpm2-rs", "why_tests_cant": "a test compares the code with the author's reading of a table, for the constants the author thought of; the tables have hundreds of rows", "anchors": ["base/src/constants.rs", "base/src/lib.rs: TpmaNv, TpmaObject, TpmaSession, TpmaAlgorithm, TpmaCc, TpmaLocality", "crates/tpm2/src/constants.rs", "crates/tpm2/src/errors/tpm_rc/mod.rs"]}
{"id": "C65", "title": "Commands are those of the specification", "statement": "What run_command hands to the connection for a command is the command of TPM 2.0 Part 3 of that name: header, code, and parameters in the specified order and widths; and a response laid out as specified gives the caller the parameters in it.", "quantifier": "all commands of the library, all parameter values, all responses, all connections", "why_tests_cant": "values and responses are unbounded", "anchors": ["base/src/commands/capability.rs", "base/src/commands/pcr.rs", "base/src/commands/random.rs", "base/src/commands/startup.rs", "crates/tpm2-client/src/lib.rs: run_command"]}
{"id": "C66", "title": "The derive macro accepts exactly what it documents", "statement": "derive(Marshalable) produces an implementation for a declaration exactly if every field without attribute is accepted as is, every length attribute is on an array of a struct with named fields and names one earlier field that is neither an array nor has an attribute, every enum variant has unnamed fields and a selector, a type marked tpm2b_simple is a u16 size and a byte array, and it is no union; otherwise it reports errors. False on one point: a length given as a path of several segments makes the macro panic.", "quantifier": "all declarations: any number of fields, variants and attributes", "why_tests_cant": "declarations are unbounded; the tests compile a handful", "anchors": ["marshalable-derive/src/lib.rs: derive_tpm_marshal_inner, get_marshal_attribute, get_primitive, get_named_fields_marshal, get_named_fields_unmarshal, get_enum_marshal_body, get_enum_unmarshal_body, derive_tpm2b_common"]}
{"id": "C67", "title": "Generated code follows the declaration", "statement": "The code derive(Marshalable) generates for a declaration reads and writes, on every buffer and every value, as the declaration says: fields in order, counted arrays up to their count after the limit check, the selector before the selected variant, sized buffers as size and that many bytes; so every such type has the round trip. This holds of every type the library derives.", "quantifier": "all accepted declarations, all values, all buffers", "why_tests_cant": "declarations, values and buffers are unbounded", "anchors": ["marshalable-derive/src/lib.rs: get_named_field_marshal, get_named_field_unmarshal, get_field_list, get_enum_impl", "base/src/lib.rs", "base/src/constants.rs", "base/src/commands/*.rs", "crates/tpm2-client/src/lib.rs: CmdHeader, RespHeader"]}
{"id": "C68", "title": "The container attribute selects the format", "statement": "A struct whose marshalable attribute lists tpm2b_simple is marshalled as a sized buffer, every other struct field by field, and an attribute without effect is refused. False: the name is recognised only alone or last in the list (a comma behind it silently gives the other format), and attributes on tuple fields are ignored.", "quantifier": "all declarations and attribute token lists", "why_tests_cant": "token lists are unbounded", "anchors": ["marshalable-derive/src/lib.rs: has_marshalable_attr, derive_tpm2b_simple"]}
{"id": "C69", "title": "The server works on any buffers", "statement": "For every buffer type that keeps the contract of TpmReadBuffer and TpmWriteBuffer - contiguous or not, whatever its callbacks are handed - executing a command, separately or in place, returns the same size, leaves the same context and the same response bytes as on byte slices with the same contents. The implementations for slices keep the contract.", "quantifier": "all buffer implementations that keep the contract, all requests, response buffers, generators and entropy sources", "why_tests_cant": "implementations are supplied by the platform; the tests use slices only", "anchors": ["crates/tpm2-impl/src/platform/buffer.rs", "crates/tpm2-impl/src/buffers/inout.rs", "crates/tpm2-impl/src/buffers/separate.rs", "crates/tpm2-impl/src/req_resp.rs", "crates/tpm2-impl/src/tpmctx.rs"]}
{"id": "C70", "title": "The TCP transport is transparent", "statement": "A session of commands at any localities over TcpConnection to a simulator around a TPM returns the same results, and leaves that TPM in the same state, as the same session with the TPM itself, however the network cuts its answers, provided responses fit the client's buffer. In particular client and server of the repository meet over TCP as they do directly.", "quantifier": "all TPMs, sessions, localities, command values and delivery patterns", "why_tests_cant": "delivery patterns, TPMs and sessions are unbounded", "anchors": ["crates/tpm2-client/src/connection/tcp.rs: Connection for TcpConnection, set_locality", "crates/tpm2-client/src/lib.rs: run_command_with_handles", "crates/tpm2-impl/src/tpmctx.rs", "crates/tpm2/src/errors/std.rs"]}
{"id": "C71", "title": "Equality is equality on the wire", "statement": "Two values of a type, obtained by decoding, through the functions of the sized buffers and lists, or put together from such values, compare equal (==) exactly if they marshal to the same bytes; two decoded values compare equal exactly if the bytes read were the same. Every such value comes back from the wire equal to itself. False for public arrays with entries behind their count (TpmsPcrSelection, TpmsTaggedPcrSelect): values that are different for == may be one on the wire, and come back as a third. For all values whatsoever: they are one on the wire exactly if they are equal with everything behind counts and sizes blanked, and come back blanked, so equal to themselves exactly if there was nothing to blank.", "quantifier": "all types of the library, all values and all ways to come by them", "why_tests_cant": "values and histories are unbounded", "anchors": ["base/src/lib.rs: #[derive(PartialEq)], impl_tpml!, TpmsPcrSelection, TpmsTaggedPcrSelect", "marshalable-derive/src/lib.rs: from_bytes, from_struct"]}
{"id": "C72", "title": "derive(Tpm2bStruct) is accepted as documented and right", "statement": "Every declaration of the documented form - size: u16 and an array [u8; size_of::<T>()] - is accepted, for T, and the generated from_struct and to_struct wrap and unwrap every value of T; the macro never panics. It is required of declarations: False (a user's own size_of, or further generic arguments, are taken; core::mem::size_of is refused).", "quantifier": "all declarations, all inner types and values", "why_tests_cant": "the macro is a function on unboundedly many declarations; the library has three", "anchors": ["marshalable-derive/src/lib.rs: derive_tpm_2b_struct, derive_tpm2b_struct, derive_tpm2b_common", "base/src/lib.rs: Tpm2bSensitiveCreate, Tpm2bPublic, Tpm2bCreationData"]}
{"id": "C73", "title": "Integers are big-endian two's complement", "statement": "Every integer is written as its base-256 digits, the most significant first, a negative one as its two's complement, and read back from exactly those digits.", "quantifier": "all integer types and values, all buffers", "why_tests_cant": "2^64 values; tests use a few", "anchors": ["marshalable/src/lib.rs: impl_be_prim_marshalable!", "crates/tpm2/src/marshal.rs: impl_ints!"]}
{"id": "C74", "title": "Types of fixed size accept every byte string; identifiers are not validated", "statement": "A type without unions, lists and sized buffers can be read from every byte string of at least its size, consumes exactly that size, writes the same bytes back, and is refused exactly if there are fewer bytes. So an identifier or interface type holds every number of its width, also those that the TPM specification does not list, and passes it on unchanged.", "quantifier": "all such types, all byte strings and numbers", "why_tests_cant": "byte strings are unbounded; tests use listed identifiers", "anchors": ["base/src/lib.rs: TpmiYesNo, TpmiAlgHash, TpmiRsaKeyBits", "base/src/constants.rs: #[open_enum]", "marshalable-derive/src/lib.rs: get_named_fields_unmarshal"]}
{"id": "C75", "title": "Default values are empty, valid and survive the wire", "statement": "The default value of every type of the library marshals and comes back unchanged; without unions it is zero bytes on the wire, and reading zero bytes gives it; a default sized buffer or list is the one made from nothing; the default of TPMT_HA is SHA-1 with zeros.", "quantifier": "all types, buffers and trailing bytes", "why_tests_cant": "types compose without bound; the tests build a few defaults", "anchors": ["base/src/lib.rs: #[derive(Default)], impl Default for TpmtHa, impl_tpml!", "marshalable-derive/src/lib.rs: derive_tpm2b_simple"]}
{"id": "C76", "title": "Buffers around structures have the structure's size in memory", "statement": "The size a type has in memory, from which the capacities of sized buffers and lists are computed, is the one that the C representation prescribes: members in order, each at the next multiple of its alignment, enums as a tag and a union of structs, padded to the alignment. It is unique, and room enough for every value on the wire.", "quantifier": "all types and values", "why_tests_cant": "types compose without bound; size_of is checked for a handful", "anchors": ["base/src/lib.rs: #[repr(C)], size_of::<TpmsAttest>() and others", "base/src/constants.rs"]}
{"id": "C77", "title": "The two crates' TPMT_HA are interchangeable on the wire", "statement": "What tpm2::TpmtHa writes is what base's TpmtHa writes for the same hash and digest, and each reads what the other wrote as the same hash and digest, within the limits given. False for SM3_256: it is never read by tpm2::TpmtHa, whatever the limits.", "quantifier": "all digests, limits and buffers", "why_tests_cant": "2^512 digests, arbitrary Limits implementations", "anchors": ["crates/tpm2/src/tpmt.rs: TpmtHa", "base/src/lib.rs: TpmtHa"]}
{"id": "C78", "title": "A password goes into its field and nowhere else", "statement": "For a password session at any place of the authorization area, the bytes sent before and behind the password are the same for all passwords of one length, and the same answer of the TPM gives the same result whatever the password.", "quantifier": "all passwords, commands, other sessions and connections", "why_tests_cant": "a statement about pairs of executions", "anchors": ["crates/tpm2-client/src/sessions/password.rs", "crates/tpm2-client/src/lib.rs: run_command_with_handles, write_command_sessions, read_response_sessions"]}
{"id": "C79", "title": "Only a refusal for missing bytes can change with more bytes", "statement": "Whatever try_unmarshal returns except UnexpectedEndOfBuffer - a value, ArrayLengthExceeded or UnknownSelector - it returns, at the same place, for the input followed by anything. UnexpectedEndOfBuffer means that bytes are missing: it never comes of an input as long as the type is in memory. The latter is false for types with sized buffers: a size above the maximum is reported as UnexpectedEndOfBuffer however many bytes follow. But for them, too, an input as long as the type is in memory is decided: whatever follows, the outcome is the same, and if it is UnexpectedEndOfBuffer then the input has a size above the maximum of one of the type's sized buffers.", "quantifier": "all derivable types, all inputs, all continuations", "why_tests_cant": "a statement about all continuations of all inputs", "anchors": ["marshalable/src/lib.rs: UnmarshalBuf::get", "marshalable-derive/src/lib.rs: derive_tpm2b_simple, get_named_fields_unmarshal, get_enum_impl"]}
{"id": "C80", "title": "Errors can be told apart by their texts", "statement": "The text of a TssError, also as std::io::Error, is its code in decimal without leading zeros; different errors have different texts, and the texts of marshalling and server errors differ from these and from each other; the text of a marshalling error names what was wrong (the array, the buffer or the selector) and none of the other two.", "quantifier": "all 2^32-1 codes and all errors", "why_tests_cant": "2^32 codes", "anchors": ["crates/tpm2/src/errors/mod.rs: Display for TssError", "crates/tpm2/src/errors/std.rs", "marshalable/src/errors.rs: Display", "crates/tpm2-impl/src/error.rs: Display"]}
{"id": "C81", "title": "Controlling a simulator over TCP is controlling the simulator", "statement": "A session of control calls (signals, handshake, hash sequence, ...), commands and changes of locality, in any order, over a TcpConnection to a simulator that speaks the protocol on both ports: every call asks the simulator's machine for exactly what the call means - or, if the machine falls silent, for the beginning of it, and then reports the end of the stream - and returns the machine's answer; the machine ends in the state it would be in if it had been asked directly.", "quantifier": "all machines, sessions, arguments and ways to cut the streams into pieces", "why_tests_cant": "histories of calls on two streams; arbitrary peers", "anchors": ["crates/tpm2-client/src/connection/tcp.rs: TcpConnection (all methods)"]}
{"id": "C82", "title": "A response's tag and parameter size are checked", "statement": "Responses with the tag and the parameter size the specification gives them are accepted with the values in them; others are refused. The second half is false: the parameter size is read and ignored, and a response without sessions to a command with sessions is not refused as such.", "quantifier": "all commands, sessions, responses and connections", "why_tests_cant": "arbitrary responses of 4096 bytes from arbitrary TPMs", "anchors": ["crates/tpm2-client/src/lib.rs: run_command_with_handles, read_response_header"]}
{"id": "C83", "title": "GetRandom returns no more than a digest, and no error", "statement": "A GetRandom for more bytes than the largest digest has (64) is answered with as many as a digest has, not with more and not with an error (TPM 2.0 Part 3, 16.1.1). False: exactly as many bytes as asked for are returned, or TPM_RC_MEMORY if they do not fit the response buffer.", "quantifier": "all requests, buffers, generators and entropy sources", "why_tests_cant": "2^16 counts times buffer sizes times generators", "anchors": ["crates/tpm2-impl/src/handler/random.rs: get_random", "crates/tpm2-impl/src/tpmctx.rs"]}
{"id": "C84", "title": "A command that was not sent whole is not completed by the next", "statement": "When a call fails because the network took only a part of its command, later calls' commands reach the TPM as they are. False: the part stays in the stream, the next command sent completes it, the TPM executes the mixture at the first command's locality, and its response is returned as the response to the second command. Over whole sessions, whatever the network takes, reports and delivers: what it took is a beginning of each command's bytes, one after the other, and the TPM has executed exactly the commands that stand in it; after one, two or three bytes of a command it executes none any more; if every command is taken whole or not at all, it executes those taken.", "quantifier": "all TPMs, commands, sessions, localities, numbers of bytes taken and ways to cut the streams into pieces", "why_tests_cant": "depends on how many bytes a write takes; a statement about histories of calls", "anchors": ["crates/tpm2-client/src/connection/tcp.rs: TcpConnection::transact"]}
{"id": "C85", "title": "Every command is executed once, in order", "statement": "Over a TcpConnection to a simulator the TPM executes exactly the commands of a session, each once, in the order and at the localities given, whatever it answers to them (also errors, nonsense or nothing) and however the answers are delivered; only commands too long for the client's buffer are left out. So a call that fails because of the answer has had its command executed.", "quantifier": "all TPMs with responses up to 4096 bytes, sessions, localities and delivery patterns", "why_tests_cant": "histories of calls; arbitrary answers", "anchors": ["crates/tpm2-client/src/connection/tcp.rs: TcpConnection::transact, set_locality", "crates/tpm2-client/src/lib.rs: run_command_with_handles"]}
{"id": "C86", "title": "Answers carry nothing over from earlier exchanges", "statement": "A server that answers every request into the same buffer (a separate response buffer, or one buffer for requests and responses) gives each caller the answer an unused buffer would have got, except for tag and size of an error response: in particular random bytes handed to one caller are never shown to another. Tag and size of an error response are those of the last success response, or what the buffer held at first; with one buffer for both, those of the request as far as it goes.", "quantifier": "all sequences of requests, buffers, generators that fill their destination with new data, and entropy sources", "why_tests_cant": "two-run property over histories; needs every earlier content of the buffer", "anchors": ["crates/tpm2-impl/src/tpmctx.rs: execute_command_separate, execute_command_in_place, fill_error"]}
{"id": "C87", "title": "A client that dies or is cut off leaves a prefix executed", "statement": "Whenever the client dies or its connection to the simulator breaks, and whatever it read until then, the TPM has executed exactly the commands of the session whose bytes had all been taken: a prefix of the session, each command once, in order and at its locality; never a part of a command, a mixture, or a later command without an earlier one, even if the client goes on after errors.", "quantifier": "all TPMs, sessions, localities, numbers of bytes after which the connection breaks, and everything an adversary may let the client read", "why_tests_cant": "crash points: after every byte of every session", "anchors": ["crates/tpm2-client/src/connection/tcp.rs: TcpConnection::transact, set_locality", "crates/tpm2-client/src/lib.rs: run_command_with_handles"]}
{"id": "C88", "title": "The low-level structures crate never panics", "statement": "No public function of the low-level crate (tpm2) panics: marshalling and unmarshalling integers, byte arrays, algorithm identifiers, hash identifiers and hash values, converting an identifier to a hash, building TPM errors for a parameter, session or handle, naming a layer's error and converting a number to an error all return a value or an error, for every value, every buffer (also an empty one), every previous content of the target and every set of supported algorithms. Of the two internal constructors that contain a panic, one is reached by zero only and the other by nothing.", "quantifier": "every call: value, buffer, target and limits", "why_tests_cant": "The crate's documentation says panic freedom cannot be statically guaranteed by Rust and proposes to inspect the optimised binary; a test can only try some buffers.", "anchors": ["crates/tpm2/src/lib.rs (Panics)", "crates/tpm2/src/marshal.rs", "crates/tpm2/src/tpmt.rs", "crates/tpm2/src/tpmi.rs", "crates/tpm2/src/errors/tpm_rc/mod.rs (new, AsymmetricFor, ValueFor, SizeFor, SelectorFor)", "crates/tpm2/src/errors/tss_rc.rs (new)"]}
{"id": "C89", "title": "Sessions that keep state are used once each, in order, around one exchange", "statement": "A session may keep state behind the shared reference it is called through (nonces, counters, policy), and share it with other sessions or with the connection. For every such session and connection: a call asks each session for its authorization at most once, the first session first; nothing is sent unless every session has been asked; one command is sent, and it carries exactly the authorizations given; only after the response has come in are its authorizations handed to the sessions, one each, in order, each the one standing at its place in the response even if the call fails later, and none after a session has refused, whose refusal is then what the call returns; the call succeeds exactly if the response is well formed and every session accepts its own part, in the state the earlier ones left; and with sessions that keep no state the call is the one described by the other properties.", "quantifier": "every world of session and connection state, every session and connection over it, every command, handles and up to three sessions, every response", "why_tests_cant": "A test has one session implementation, normally the stateless password session, and cannot show that no other session would observe a second call, a different order, or a call before the exchange failed or after another session refused.", "anchors": ["crates/tpm2-client/src/lib.rs: write_command_sessions, read_response_sessions, run_command_with_handles", "crates/tpm2-client/src/sessions/session.rs: Session"]}
{"id": "C90", "title": "The width of usize does not matter from 32 bits on", "statement": "On every target whose usize has at least 32 bits, encoding and decoding any library type, any call of the client, any operation of the simulator connection, any call on a list and any command given to the command processor do and return exactly what they do on a 64-bit target, with and without overflow checks. (With 16 bits they would not: a list count of 65537 would be read as 1, a wrong request size would be accepted, the largest request for random bytes would overflow, and a response said to have 65536 bytes would pass for an empty one.)", "quantifier": "every width from 32 bits on, library type, value a Rust program can hold, buffer, command type whose length fields have at most that many bits, session area, connection, generator, entropy source, context and request", "why_tests_cant": "tests run on the developer's 64-bit machine only, and a conversion that truncates differs only on inputs beyond the width", "anchors": ["marshalable-derive/src/lib.rs: length_prim as usize", "crates/tpm2-client/src/lib.rs: run_command_with_handles", "crates/tpm2-impl/src/tpmctx.rs: execute_command", "crates/tpm2-impl/src/handler/random.rs: get_random", "crates/tpm2-impl/src/platform/buffer.rs: write_callback", "crates/tpm2-client/src/connection/tcp.rs: transact, get_command_response_sizes", "base/src/lib.rs: impl_tpml count, add"]}
{"id": "C91", "title": "No network stream is leaked, used after closing, or closed twice", "statement": "Whatever the operating system and the peer answer: a failed attempt to connect (with its retries) or to start a simulator leaves no stream open; a successful one leaves exactly the two streams of the connection it returns; every operation on that connection uses only these two while they are open; and when the connection or simulator is dropped, after any operations with any outcomes, including the stop messages sent by the drop itself, both are closed, each once. Apart from the closing, these are the functions of the other claims.", "quantifier": "every operating system and peer, address, ports, program, arguments, directory, list of operations, and every success or failure of each system call", "why_tests_cant": "a leak shows only on the failing paths, such as a second port refusing after the first accepted, in each of up to four attempts, and only as handles that pile up", "anchors": ["crates/tpm2-client/src/connection/tcp.rs: TcpConnection::connect, connect_with_retries, TcpSimulator::new, Drop for TcpSimulator"]}
{"id": "C92", "title": "Every call of the simulator connection makes a bounded number of system calls", "statement": "Whatever the network takes and delivers, each operation of a simulator connection makes at most a number of system calls that depends only on the operation and, for sending a command, on the length of the response buffer given (for example 8 for a platform signal, 9 more than the response buffer for a command), and all of them on the two streams of the connection; connecting makes at most 15, starting a simulator at most 30 and dropping one at most 13, counting the closing of streams. No peer can keep a call busy by sending more. The bounds are reached.", "quantifier": "every operating system and peer, connection, operation with any arguments, and history of operations", "why_tests_cant": "a peer that trickles bytes, answers with odd lengths or errors at some point has unboundedly many behaviours", "anchors": ["crates/tpm2-client/src/connection/tcp.rs: TcpConnection, TcpSimulator"]}
{"id": "C93", "title": "A command's bytes say what was asked for", "statement": "Two calls of the client that give their connections the same bytes have the same command code, and for the same command type the same handles, the same parameters (up to array entries behind a count, which are not sent) and as many sessions with the same authorizations in the same order, so with password sessions the same passwords. Among the library's commands the bytes also determine the command type.", "quantifier": "every two calls: connections and their states, command types, parameters, handles, session areas", "why_tests_cant": "two requests that look alike to the TPM would have to be found among all pairs of requests; it rests on every length and tag being where the reader expects it", "anchors": ["crates/tpm2-client/src/lib.rs: run_command_with_handles, write_command_sessions", "crates/tpm2-client/src/sessions"]}
{"id": "C94", "title": "Unions take the alternatives that Part 2 lists", "statement": "For every union of the library, the selectors with which a value can be read are those that the tables of TPM 2.0 Part 2 list for it: no alternative is refused that Part 2 has, and none is taken that Part 2 does not allow there. (This is false in both directions; proved instead is exactly which selectors are taken, refused and foreign, for every selector value and every union.)", "quantifier": "every union of the library, every selector value, and every content after the selector", "why_tests_cant": "a test tries the alternatives it knows; that no other of the 65536 or 2^32 selector values is taken, and which of those Part 2 lists are not, is a statement about all values", "anchors": ["base/src/lib.rs: TpmtHa, TpmuAttest, TpmtKeyedHashScheme, TpmtSymDefObject, TpmtSignature, TpmtSigScheme, TpmtRsaScheme, TpmtEccScheme, TpmtKdfScheme, PublicParmsAndId, TpmuSensitiveComposite, TpmsCapabilityData", "docs/specs (Part 2, version 185)"]}
{"id": "C95", "title": "A call over TCP succeeds exactly when its exchange was complete", "statement": "Every call of the simulator connection succeeds with an answer if and only if the exchange that the protocol has for this call and this answer took place to the last byte; how a command ended - not sent, sent in part, answer broken off in its length, its body or its acknowledgement, too big for the buffer, wrongly acknowledged, complete - determines the result and what is in the response buffer. A response that carries an error code of the TPM is a success of the transport, as Connection::transact documents. The documentation's other half, that an error is returned only when no response could be got at all, is false: a response that was received whole is discarded with an error when its acknowledgement is missing or not zero, or when the buffer is too small.", "quantifier": "every call, every peer and every way in which the network takes and delivers bytes, breaks off or fails", "why_tests_cant": "Tests exchange complete frames with one peer; the statement is about every point at which an exchange can break off and every byte the peer can send.", "anchors": ["crates/tpm2-client/src/connection/mod.rs: Connection::transact", "crates/tpm2-client/src/connection/tcp.rs: TcpConnection::transact, check_response_end, hcrtm_sequence, remote_handshake, get_command_response_sizes, act_get_signaled, platform_signal, session_end, stop_simulator"]}
{"id": "C96", "title": "Starting a simulator waits for it", "statement": "TcpSimulator::new succeeds, with a connection to the simulator's two ports, if the simulator has written its two port files and listens on both ports by the time of the last of four attempts (three pauses of a second after the process was started), on whatever schedule the two run beside each other; if a file is not there by then, the start fails. The first half is false as it stands: the port files are read without knowing whether they are complete or new, so a file that was created and not yet written is an error at once (no further attempt), one that is seen half written gives the port cut short, and one left over from an earlier run is taken for the new one. It is proved for files that appear whole where none were.", "quantifier": "every schedule: the contents of the files and who listens at every moment, the time a pause takes, program, arguments, directory, address", "why_tests_cant": "a race shows only on the schedules on which the reader comes between two steps of the other process; tests see the one that their machine happens to produce", "anchors": ["crates/tpm2-client/src/connection/tcp.rs: TcpSimulator::new, read_port_from_file_with_retries, TcpConnection::connect_with_retries"]}
{"id": "C97", "title": "A connection that was ended does nothing more", "statement": "After session_end or stop_simulator succeeded, both streams are shut down, and every further call of the connection, in any sequence, is an error without anything being sent or received (set_locality alone succeeds). Therefore dropping a simulator that was stopped nicely, or whose session was ended, kills the process: the stop messages of the drop can no longer be sent.", "quantifier": "every operating system on which a stream that was shut down takes no more bytes, every connection and every sequence of calls after the end", "why_tests_cant": "tests call stop once; what a later call does depends on every call that may come first, and whether the process had the time to stop is a race", "anchors": ["crates/tpm2-client/src/connection/tcp.rs: TcpConnection::session_end, stop_simulator, TcpSimulator::stop_nicely, Drop for TcpSimulator"]}
{"id": "C98", "title": "A signal does not disturb a call of the simulator connection", "statement": "A call of the simulator connection during which the process receives signals has the same result and effects as without them. False for calls that send a command or an argument: a signal that comes while one is sending makes it fail as interrupted. Proved: calls that send bare codes only (platform signals, reinit, failure mode, response sizes, ending, stopping, dropping) are never disturbed; the others exactly by a signal during their sending, and then nothing has been sent or changed, so that repeating the call gives what it would have given; a hash sequence is disturbed exactly by a signal during one of its system calls, the one that sends the data (always the same one, whatever the signals and the data), and is then left begun and not ended.", "quantifier": "every schedule of signals, every operating system and peer, every call with any arguments", "why_tests_cant": "a signal during a particular system call is not something a test can arrange for every one of them", "anchors": ["crates/tpm2-client/src/connection/tcp.rs: TcpConnection::transact, hcrtm_sequence, remote_handshake, set_alternative_result, act_get_signaled, set_firmware_hash, set_firmware_svn, platform_signal, reinit, session_end, stop_simulator"]}
{"id": "C99", "title": "An authorization area of the program's own is asked when it matters, and only a consistent one makes a regular command", "statement": "AuthorizationArea is a public trait, so a program can pass an area of its own, which may override is_empty and answer differently each time. Whatever it answers: it is asked at most four times (is_empty twice; its sessions, unless it said to be empty the second time; its sessions again after the exchange), the command sent carries TPM_ST_NO_SESSIONS or TPM_ST_SESSIONS by the first answer and an authorization area by the second, with a size that covers exactly the authorizations its sessions gave, and a command that does not fit is not sent. So the command is one that Part 1 allows exactly if both answers agree and an area that is not empty has a first session. The call succeeds exactly if the response has one authorization for each session the area has after the exchange, and these accept them. Areas of the crate are the case where nothing of this varies.", "quantifier": "every implementation of AuthorizationArea and Session with any state, every command, every connection", "why_tests_cant": "tests use the areas of the crate, which answer consistently; the claim is about every implementation a program can write", "anchors": ["crates/tpm2-client/src/lib.rs: run_command_with_handles, write_command_sessions, read_response_sessions, CmdHeader::new", "crates/tpm2-client/src/sessions/authorization_area/mod.rs: AuthorizationArea"]}
{"id": "C100", "title": "A request that changes while it is executed is executed as one request", "statement": "With a request buffer over memory that a second party keeps writing to, the server asks for its length once and then for each of its four fields at most once, in the order in which they stand. So whatever the second party writes and when, the server does what it does for some one request of that length that does not change: its response, its size and its state are those for that request, and each field of that request that is there was in the memory at some moment. In place the same holds, with the response written to the buffer as the reads left it. A field that was checked is never fetched again.", "quantifier": "all request buffers whose contents change in any way between any two reads, for all lengths, all response buffers, generators, sources of entropy and server states; separate buffers and in place", "why_tests_cant": "a time-of-check-to-time-of-use error shows only when the memory changes between two particular reads; a test's buffers do not change", "anchors": ["crates/tpm2-impl/src/tpmctx.rs: TpmContext::execute_command, execute_command_separate, execute_command_in_place", "crates/tpm2-impl/src/req_resp.rs: RequestThenResponse, read_be_u16, read_be_u32", "crates/tpm2-impl/src/handler/random.rs: get_random", "crates/tpm2-impl/src/platform/buffer.rs: TpmReadBuffer", "crates/tpm2-impl/src/buffers/inout.rs: InOutBuffer"]}
{"id": "C101", "title": "Clients that share a TPM see it as if they took turns", "statement": "Any number of clients, each with a TCP connection of its own to one TPM, run commands and set localities, and their system calls, the TPM's serving of requests and the pieces in which answers arrive are interleaved in any way. At every moment the TPM is in the state in which some sequence of whole steps, made one after the other at the TPM itself, leaves it; every result a client has got is the one its own step gave in that sequence; each move adds at most one step, of the client that moved or was served, so what was returned before a call began comes before it. A client may stop in the middle of a call or lose its connection at any moment (by an error, or because the other side closes it, when any part of what was sent may still arrive): at most one further call of it is carried out, an answer that arrives only in part is an error, it gets nothing but errors afterwards, and the others notice nothing. A client with n steps that keeps its connection is through after at most 4108 n rounds in each of which it moves once and is served once, whatever the others do.", "quantifier": "all numbers of clients, all lists of steps, all interleavings at the granularity of system calls, all moments at which connections break, all sizes of the pieces read, all TPMs that answer every request with at most 4096 bytes", "why_tests_cant": "the number of interleavings grows exponentially with the number of system calls, and a test on one machine meets few of them; that no call ever sees an answer meant for another is a statement about all", "anchors": ["crates/tpm2-client/src/connection/tcp.rs: TcpConnection::transact, check_response_end", "crates/tpm2-client/src/lib.rs: run_command_with_handles", "crates/tpm2-client/src/connection/mod.rs: Connection"]}
{"id": "C102", "title": "Requests of users that share a simulator take effect one by one, calls that ask once as a whole", "statement": "Any number of users, each with a connection of its own to both ports of one simulator, make calls of every kind except those that end the connection (commands, hash sequences, signals, reinit, handshakes, sizes, firmware settings, localities), interleaved in any way at the granularity of system calls. At every moment the simulator is in the state in which some sequence of turns at the simulator itself leaves it, where a turn begins a call, makes one request or ends a call, and each user is at the same point of its session with the same results; each move adds at most one turn, of the user that moved or was attended to. If all calls ask the simulator only once (all but hcrtm_sequence and reinit), the results of users that are through are those of some order of whole calls. A call of more than one request is not one step: a command of another user can reach the simulator while reinit has switched the power off. A user with n calls is through after 16426 n + 1 rounds in each of which it moves once and each of its ports is attended to once.", "quantifier": "all numbers of users, all lists of calls, all interleavings of system calls and of the machine's work on both ports, all sizes of the pieces read, all machines that answer every request as the protocol says", "why_tests_cant": "a test sees a handful of schedules; that an answer never reaches another call or port and that every request takes effect exactly once at one moment is about all of them, and the interleaving that tears reinit apart needs a second user at the right moment", "anchors": ["crates/tpm2-client/src/connection/tcp.rs: TcpConnection (all methods), transact, check_response_end", "crates/tpm2-client/src/lib.rs: run_command_with_handles"]}
{"id": "C103", "title": "Strangers on the same simulator cannot disturb, hold up or speak for a user", "statement": "Besides any number of users as before, any number of strangers have connections to the same simulator and send whatever bytes they like on either port, at any moment, in any pieces. Every event amounts at the simulator to nothing, to one turn of the user that moved or was attended to, or to one request of the stranger whose bytes were looked at; at every moment the simulator is where these leave it, and every user is at the same point of its session, with the same results, as at the simulator itself. The requests of a stranger are exactly those spelled out, from the first byte on and one after the other, by what this stranger itself sent on that port; no request is made up of bytes from two connections. A user with n calls is through after 16426 n + 1 rounds in each of which it moves once and each of its ports is attended to once, whatever the strangers send.", "quantifier": "all numbers of users and strangers, all lists of calls, all byte strings sent by strangers, all interleavings of system calls, deliveries and the work of the simulator, all simulators that answer every request as the protocol says", "why_tests_cant": "the strangers are adversaries: what they send and when ranges over everything, and a test can only try some", "anchors": ["crates/tpm2-client/src/connection/tcp.rs: TcpConnection (all methods), transact, check_response_end", "crates/tpm2-client/src/lib.rs: run_command_with_handles"]}
{"id": "C104", "title": "The sizes a simulator reports are right if client and simulator have the same byte order", "statement": "get_command_response_sizes reads two of its four numbers in the byte order of the machine it runs on. On machines of either order it makes the same system calls with the same outcome. A client gets the numbers that a simulator on a machine of the same byte order holds, whatever they are; if the orders differ, the codes are right and the two sizes have their four bytes in the opposite order (4096 becomes 1048576).", "quantifier": "all 32-bit values of the four numbers, both byte orders of client and of simulator, all worlds, all sizes of the pieces in which the answer arrives", "why_tests_cant": "tests run on one machine with one byte order, and the two of the test and the simulator are always the same", "anchors": ["crates/tpm2-client/src/connection/tcp.rs: TcpConnection::get_command_response_sizes, GetCommandResponseSizesResponse"]}
{"id": "C105", "title": "Types with their own implementation fit into derived ones", "statement": "A program can implement Marshalable by hand for a type and use it as a field, array entry or variant member of a type that derives it. If the hand-written implementations keep the trait's contract (a value becomes its encoding in every buffer with room for it and in no other; the encoding followed by anything is read back as the value, and nothing after it is taken), the derived implementation keeps it too, its encoding being that of its members one after another. If they accept nothing but encodings, or return on every input, the same is true of the derived one. With library types in their place the derived code is the library's. Whatever the hand-written implementations do, also if they keep state or break the contract: each is called exactly once for each member that is on the wire, in order of declaration, none after one that failed, a failure is the result of the whole call, and decoding makes no more calls than the type has room for, whatever counts the input states. What a hand-written implementation says it wrote is believed: the next member is written that much further on; if that is beyond the buffer the call panics and no further implementation is called; if the sum overflows it panics in builds with overflow checks and goes on at the wrapped place in others. In builds with overflow checks, what earlier members wrote is not changed by what later ones write or claim to have written (without the checks a wrong count can wrap around, and a later member is written over an earlier one).", "quantifier": "all declarations the macro accepts with hand-written types in any place and number, all implementations of the trait (any functions with any state), all values, all buffers, all inputs", "why_tests_cant": "the implementations are the program's own: a test has one or two of them, the property is about every implementation", "anchors": ["marshalable/src/lib.rs: Marshalable (trait)", "marshalable-derive/src/lib.rs: get_named_field_marshal, get_field_marshal_body, get_enum_marshal_impl, get_enum_marshal_body, get_named_field_unmarshal, get_field_unmarshal, get_enum_unmarshal_impl, get_enum_unmarshal_body"]}
{"id": "C106", "title": "A union's data can be marshalled apart from its selector", "statement": "The public trait MarshalableVariant, as derived for an enum, marshals the data of a variant alone: what try_marshal writes behind the selector, into every buffer with room for it, into no other and nothing else (nothing for a variant without data). Selector and data marshalled one after the other by the caller are the marshalled enum. Told the selector, try_unmarshal_variant reads the value back and takes nothing behind it; told any selector, on any input, it does what try_unmarshal does after reading that selector: it never panics, refuses a selector that is not declared with UnknownSelector before anything is read, and what it accepts is the data of a valid value of just that variant.", "quantifier": "all enums that can be declared, all values, all selectors, all buffers and inputs", "why_tests_cant": "the trait is meant for types of other crates, which place the selector anywhere; tests have one enum and one value", "anchors": ["marshalable/src/lib.rs: MarshalableVariant", "marshalable-derive/src/lib.rs: get_enum_impl, get_enum_marshal_body, get_enum_unmarshal_body"]}
{"id": "C107", "title": "Whatever a program's buffers do, the server asks little of them and goes by their answers", "statement": "TpmReadBuffer and TpmWriteBuffer are public traits, so a program can give the server buffers of its own, whose methods may answer anything, differently each time, break the contract or panic. For one command they are asked for the length of the request, for its four fields, to run the callback for the random bytes and to take the three parts of the header, in this order and each at most once; then at most once more, to take an error code. The command succeeds, with ten bytes more than were requested, exactly if all of this was granted, the size field is the length and the code is GetRandom's; otherwise the code of the first objection is written (TPM_RC_COMMAND_SIZE, TPM_RC_COMMAND_CODE, TPM_RC_MEMORY), and the result is ten, or zero if that is refused too. It panics only if a method of the buffers or the generator does. The generator is used exactly if the buffer runs the callback, once, on the slice the buffer hands out; otherwise the server's state does not change. In place no byte behind the request is read. (A buffer that reports success without running the callback is believed: the response announces bytes that nobody wrote.) With byte slices this is the server of the other properties.", "quantifier": "all implementations of the two traits with any state, all generators and entropy sources, all server states, separate buffers and in place", "why_tests_cant": "the implementations are the program's own; the crate's tests use byte slices only", "anchors": ["crates/tpm2-impl/src/tpmctx.rs: TpmContext::execute_command, execute_command_separate, execute_command_in_place, fill_error", "crates/tpm2-impl/src/req_resp.rs: RequestThenResponse, Response, RequestResponseCursor", "crates/tpm2-impl/src/handler/random.rs: get_random", "crates/tpm2-impl/src/platform/buffer.rs: TpmReadBuffer, TpmWriteBuffer, TpmBuffers", "crates/tpm2-impl/src/buffers/inout.rs: InOutBuffer", "crates/tpm2-impl/src/buffers/separate.rs: SeparateBuffers"]}
{"id": "C108", "title": "A user of a simulator that dies in a call leaves the beginning of its session done, and at most one request more", "statement": "Any number of users with connections of their own make calls of every kind on both ports of one simulator (all but those that end the connection), interleaved in any way. At every moment the simulator has done the requests it took, in order, and nothing else; and what it took from a user is the beginning of that user's session: all requests of the calls the user has the results of, in order, once, at their localities and with answers that give these results, then the first requests of the call the user is in. If a user makes no more moves, because it died or was cut off, at most one more of its requests is ever taken, whatever the others do, and none if nothing it sent was waiting. So calls of several requests can be left half done: a user that dies in reinit after switching the power off leaves it off.", "quantifier": "all numbers of users, all lists of calls, all interleavings, all moments at which a user stops, everything the others do before and after, all machines that answer every request as the protocol says", "why_tests_cant": "a crash can come between any two system calls of any call, with anything of the other users going on before and after; tests kill a client at a few places at most", "anchors": ["crates/tpm2-client/src/connection/tcp.rs: TcpConnection (all methods), reinit, hcrtm_sequence, transact", "crates/tpm2-client/src/lib.rs: run_command_with_handles"]}
{"id": "C109", "title": "A simulator connection that is cut off leaves of every call the first requests done, and nothing else", "statement": "A client makes calls of every kind on a simulator connection and goes on after errors. Each of the two ports takes some number of bytes and then no more, or no more after it was shut down; what the client reads, what it is told of a write that was cut short, and whether shutting down fails is up to an adversary who sees everything. Then the simulator has done, of every call, the first requests, each once, in order and at the locality of the call, and all of them if the call returned Ok; and nothing else: no part of a request, no mixture of two, no request of a later step without the earlier ones. On each port the requests done lie within the bytes it took; bytes left over are not a request and are there only if the port takes no more. If the machine answers every request and its answers are delivered, in whatever pieces, then the numbers of bytes alone decide: the requests done are exactly those that fit, the first one that does not fit ends its call and uses up its port while the other port goes on, a call all of whose requests fit returns what the machine itself gives, and every other call fails. A call that asks several times can be left half done by one wrong acknowledgement while both connections go on: reinit then leaves the simulator without power, hcrtm_sequence leaves the sequence open, and the next command is executed in that state.", "quantifier": "all machines behind the protocol, all sequences of calls with arguments of their types, all localities, all pairs of numbers of bytes after which the ports take no more, all adversaries", "why_tests_cant": "the break can come after any byte on either port and the peer can answer anything; tests break a connection at a few places at most", "anchors": ["crates/tpm2-client/src/connection/tcp.rs: TcpConnection (all methods), reinit, hcrtm_sequence, session_end, stop_simulator, transact", "crates/tpm2-client/src/lib.rs: run_command_with_handles"]}
{"id": "C110", "title": "A buffer filled in steps of whole 64-bit words is filled as at once, and in no other steps", "statement": "Filling a buffer from a generator of words, in any number of steps that are each a multiple of eight bytes long except the last, gives the same bytes, leaves the generator the same and fails in the same way as filling it at once. With any other step followed by a non-empty buffer this is not so for every generator: the rest of the word that the step did not need is thrown away.", "quantifier": "every generator, its every state and failure; every number of steps, every length and old contents of every buffer; additional input in the first step", "why_tests_cant": "a test fixes the lengths and the generator; whether the split matters depends on the remainder of each length and on every word the generator gives", "anchors": ["crates/tpm2-impl/src/platform/crypto/drbg/helpers.rs: fill_bytes_via_next"]}
{"id": "C111", "title": "A broken simulator port fails only the calls that use it", "statement": "Several users drive one simulator over the TCP client, each over its own two ports, and each of these ports may break at any moment, with any part of what was under way in either direction still arriving; the user goes on calling all the same. Whatever breaks, and whatever the others do: (a) the simulator has done what it took, and nothing else; (b) on each port it took from a user exactly what the user's calls ask for, in the order of the calls, each at its locality and each request once, where a call that ended without an error was asked in full and returned what the answers make of it, and a call is cut short, with an error, only if its own port is broken; calls on the other port are not affected; (c) after a port broke at most one more request of that user is taken there; (d) every call that asks anything of the simulator and begins on a broken port ends with an error; (e) nobody hangs: a user with n calls is through after 16426 n + 1 rounds at the latest, if in each round it moves and each of its ports is attended to.", "quantifier": "every number of users, every list of calls of each, every schedule of moves of the users and the simulator, every moment and order of breaks of either port of anybody, every cut of what was under way, every report of the operating system on a broken port (an error, or any number of bytes 'written'), every division of answers into reads, every polite simulator", "why_tests_cant": "A test breaks a connection at a few chosen points and for one user; the claim is about every point of every call, with others calling at the same time and the user going on afterwards, which includes requests that were sent before the break, are taken after it and whose answers never come.", "anchors": ["crates/tpm2-client/src/connection/tcp.rs: TcpConnection (all methods), transact, check_response_end", "crates/tpm2-client/src/lib.rs: run_command_with_handles"]}
{"id": "C112", "title": "Users of a simulator that end their sessions do not disturb the others", "statement": "Any number of users, each with a connection of its own to both ports of one simulator, make calls of every kind, interleaved in any way, and any of them end their session with session_end after their last call while the others go on. Every event amounts at the simulator to nothing, to one turn of the user that moved or was attended to, or to the end of that user's session on one port. At every moment the simulator is in the state in which these leave it, and every user is at the same point of its session, with the same results, as at the simulator itself. The end of a session reaches the simulator only after all calls of the user have returned, at most once on each port; session_end returns Ok, possibly before the simulator has heard of it, and on the two ports it is heard in any order. A user with n calls, the ending one included, is through after 16426 n + 1 rounds in each of which it moves once and each of its ports is attended to once, and then the end has been taken on both ports.", "quantifier": "all numbers of users, all lists of calls, every choice of the users that end their sessions, all interleavings of system calls and of the machine's work on both ports, all sizes of the pieces read, all machines that answer every request as the protocol says", "why_tests_cant": "depends on every interleaving of several sessions and on when the other end hears of the last one", "anchors": ["crates/tpm2-client/src/connection/tcp.rs (TcpConnection::session_end, transact and all other calls)"]}
{"id": "C113", "title": "What a simulator does is what stands in the bytes that got through to it", "statement": "A client makes calls of every kind on a simulator connection and goes on after errors, over a network that takes of every write as many bytes as it likes and tells their number or an error; what the client reads is up to the network as well. Then of each call the first so many bytes passed, all of them if the call returned Ok, and the simulator has done exactly the requests that stand in these bytes: on each port they follow one another without a gap, each is done when its last byte has come, and what is left is no whole request. So the calls before the first failure are done as asked; if the network stops in the first three bytes of a request, nothing sent later on that port is done any more; and a measurement that is cut off four bytes before the end of its data and repeated returns Ok although the simulator has measured the cut data, completed by the start code of the repetition, and the whole data, in one sequence. A command that is cut off in its bytes and followed by anything on the TPM port, be it the same command again, makes the simulator execute the beginning of the command completed by the first bytes of what follows, once enough has come.", "quantifier": "all machines behind the protocol, all sequences of calls with arguments of their types, all localities, all networks that report truly what they take", "why_tests_cant": "needs every way of cutting every write of every sequence of calls", "anchors": ["crates/tpm2-client/src/connection/tcp.rs: TcpConnection, Connection::transact"]}
{"id": "C114", "title": "Control calls that send only codes work over a network that takes them in parts", "statement": "Over a network that takes at least one byte of every write, but no more than it likes, and is truthful otherwise: the calls that send codes only (platform signals, reinit, failure mode, response sizes, the end of a session, stopping the simulator), in any order and with changes of locality, return what the simulator's machine itself returns and leave it in the state in which it would be if asked directly. The same holds of all calls, commands included, if the network takes whole whatever is longer than four bytes. Every other call that makes one request fails with WriteZero if its bytes are not all taken at once; then the machine has done nothing, and the bytes taken stay in the stream.", "quantifier": "all machines behind the protocol, all sequences of such calls, all localities, all networks that take at least one byte at a time, all ways to cut the answers into pieces", "why_tests_cant": "needs every way of cutting every write of every sequence of calls", "anchors": ["crates/tpm2-client/src/connection/tcp.rs: TcpConnection (platform_signal, reinit, test_failure_mode, get_command_response_sizes, session_end, stop_simulator, remote_handshake, ...)"]}
{"id": "C115", "title": "What calls to a simulator return depends only on the bytes that arrive, not on how they arrive", "statement": "Whatever bytes a peer sends on the two ports of a simulator connection - well-formed answers or not - and in whatever pieces the network delivers them, the results of any series of calls (each made whatever became of those before) and the bytes left unread are a function of those bytes alone: an acknowledgement is four bytes that must be zero; a hash sequence takes three of them, a reinit four; a response is a four-byte length, which must fit the buffer, that many bytes and an acknowledgement, and a command's result is decoded from these bytes followed by zeros; and so on for each call. Hence the pieces never matter; bytes after those the calls used never matter and stay unread; and a call that meets the end of its stream leaves nothing, so that every later call waiting on that port meets the end too. The pieces do not matter either if the peer answers: whatever it sends on either port when it is written to, however its writes and shutdowns end, and whatever error or end of stream follows its bytes, the results, all that is sent to it and all that is left unread are the same.", "quantifier": "all byte streams on both ports and all peers that send in answer to what they get, all ways to cut them into reads (depending on anything), all series of calls with any arguments, including commands run through the client, all localities", "why_tests_cant": "the segmentation of a TCP stream and the bytes of a faulty peer are beyond enumeration; tests read a loopback socket that delivers small answers whole", "anchors": ["crates/tpm2-client/src/connection/tcp.rs: Simulator, transact, hcrtm_sequence, remote_handshake, get_command_response_sizes, act_get_signaled, reinit", "crates/tpm2-client/src/lib.rs: run_command_with_handles"]}
{"id": "C116", "title": "What the error of a simulator call tells about whether it was carried out", "statement": "A program that gets an error wants to know whether the simulator did what it was asked, before it asks again. Over ports that each take some number of bytes and then no more, whatever is read, and with an operating system that reports errors of its own only: of every call of a session the first requests are done, each once and in order, and the outcome tells about them. Success, a response that does not fit the buffer (InvalidInput), or an error of the library or a code of the TPM means that all were done (a command too long to be sent has none); that a write got nowhere (WriteZero) means that not all were; the end of the stream or an invalid answer (UnexpectedEof, InvalidData) means that at least the first was. So for a call that makes one request, as a command is, every result but an error of the operating system or a panic says whether it was carried out: not if it is WriteZero, otherwise it was. The same holds, byte by byte, over a network that takes of every write as many bytes as it likes and may report an error even then: of every call the first so many bytes pass, all of them with the first kind of outcome, not all with WriteZero, at least those of the first request with UnexpectedEof or InvalidData; and a program that stops at the first call of which not all bytes passed knows that the simulator did the requests of the calls before and the first ones of that call, nothing else, about which the outcome tells as above. An error of the operating system says nothing: the same one comes of a command that was not sent and of one that was executed and whose answer was lost.", "quantifier": "all simulators (any state machine), all session histories of calls with arguments of their types, all localities, all numbers of bytes the ports take, all adversaries who decide what is read, when a cut write is an error and how shutdowns end", "why_tests_cant": "where a connection breaks and what the peer sends are beyond enumeration; a test that sees an error cannot see whether the other side acted", "anchors": ["crates/tpm2-client/src/connection/tcp.rs: TcpConnection (all methods), transact, check_response_end", "crates/tpm2-client/src/lib.rs: run_command_with_handles"]}
