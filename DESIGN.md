# A Rocq (Coq 8.16.1) model of libsnmp

The code modelled is `/repo/lib/libsnmp/*.py` and the seven programs `/repo/*.py` at the pinned commit, as run
by CPython 3 (3.11 where `asyncore` matters; `asyncore` was removed in 3.12). `/repo` was read as
text only; nothing in it was executed.

## Method

* The model is shallow, executable Gallina: one definition per Python function or method, each with a
  comment citing file and lines. Exceptions are values (`res A := Ok a | Err e`).
* Python `int` is `Z` with `Z.land/lor/shiftl/shiftr` (the same arbitrary-precision two's complement
  semantics); a Python `str` is the list of its code points (`list Z`), so non-octet characters are in scope.
* Loops are structural recursion over the stream where possible; the bit-shifting loops take explicit
  fuel and return the non-Python exception `OutOfFuel` when it runs out. Theorems show `OutOfFuel` is
  never returned by the top-level functions (or, for `encodeIdentifier` with a tag number >= 31, that it
  is *always* returned: real non-termination).
* Recursion depth of `Asn1Object.decode` is an explicit budget; exhausting it yields `RecursionError`, as
  in CPython. Class attributes and method overriding are modelled by an explicit class table (`parent`, own
  attributes) and MRO lookup, so inheritance bugs (Counter64, Response, Opaque) are visible.
* `tagDecodeDict` is modelled in its five observable states (which of rfc1155, rfc1157, rfc1902, rfc1905
  have been imported, and in which order); each module's assignments are replayed in order.
* Managers are labelled transition systems. A trace is any list of things that happen: user code (the main part, or
  a callback while it runs) calls any method, data are there when the library polls, a callback returns
  or raises. Library calls in progress are on a frame stack, so callbacks may re-enter the library to any depth. Theorems
  quantify over all traces; ghost logs record what the outside saw. No fairness is assumed; theorems that
  say something *happens* give the executed trace explicitly.
* Threads: the method bodies are split into single accesses to shared attributes, and every interleaving is a trace.
* Several managers: sockets, descriptors and `asyncore.socket_map` are explicit (Asyn.v); Process.v puts any number of SNMP managers on them.
* The command-line programs are small deterministic scripts run on the manager model, against an
  arbitrary outside world (which datagrams arrive, what `sendto` answers).
* Specifications live in `Spec*.v` files, which do not use the model's helper functions: two's complement value, X.690
  length and identifier forms, base-128, an X.690 reader for messages, saturating arithmetic, decimal
  numerals, list prefix, what a log says about request/answer pairs. (Some `Spec*.v` files import the types of the model
  - values, labels, events - to state predicates about them.)
* `Properties*.v` hold the theorems named in MANIFEST.json, each with `Print Assumptions`; next to
  them `Example`s show that the hypotheses are met by non-trivial cases. `Proofs*.v` hold the lemmas.

Where the code violates the property a user would expect, the property is stated as the exact truth
(the precise domain on which it holds and what happens outside), and a theorem named `..._refuted` gives the witness.

## Plan per property

| Id | Property | What is modelled | How it is proved | Main theorems |
|---|---|---|---|---|
| C01 | Length field round trip | encodeLength, decodeLength | induction on the octet count, big-endian value lemma | C01_length_roundtrip, C01_length_legal, C01_length_interop |
| C02 | Integer contents decode as two's complement | Integer.decodeContents | fold equals the two's complement spec, by induction on octets | C02_integer_decode, C02_integer_decode_empty |
| C03 | Integer encode/decode round trip: exact domain | Integer.encodeContents | shift loop characterised by 256^k bounds; exact domain as an iff; minimality | C03_integer_roundtrip_domain, C03_integer_bad_value, C03_integer_bad_32bit, C03_integer_shortest, C03_integer_encode_total, C03_integer_roundtrip_refuted |
| C04 | The four integer decoders agree | decodeTwosInteger1/2/3 | each equal to the two's complement spec | C04_decoders_agree, C04_decoders_empty |
| C05 | Integer-family range checks | Integer.__init__, MINVAL/MAXVAL found through the MRO | case analysis over the class table, lia | C05_range_check, C05_range_check_int32, C05_int32_range_refuted, C05_type_check, C05_decode_bypasses_range |
| C06 | Counter decoding of sign-dropped values | Counter.decodeContents | bounds of the two's complement value per length | C06_counter_decode_mod, C06_counter_decode_unsigned, C06_counter64_misread_refuted, C06_short_counter_refuted |
| C07 | Counter increment wrap | Counter.__add__ | arithmetic, induction over increments | C07_counter_step, C07_counter_history, C07_counter_wrap_refuted |
| C08 | Guage latching | Guage.__add__/__sub__ | refinement to saturating arithmetic by induction over operations | C08_guage_saturates, C08_guage_negative_refuted |
| C09 | Integer addition and subtraction | Integer.__add__/__sub__ | case analysis | C09_integer_add, C09_integer_sub_adds, C09_integer_sub_refuted |
| C10 | ObjectID encoding conforms to X.690 | ObjectID.encodeContents | base-128 group lemmas against an independent X.690 8.19 relation | C10_oid_encoding_conforms, C10_oid_short_rejected, C10_oid_negative_arc_accepted |
| C11 | ObjectID encode/decode round trip: exact domain | ObjectID.encodeContents/decodeContents | iff by div/mod 40 and group lemmas | C11_oid_roundtrip_domain, C11_oid_roundtrip_value, C11_oid_roundtrip_refuted |
| C12 | ObjectID decoding outcome for every octet string | ObjectID.decodeContents | induction on octets: total description of the outcome | C12_oid_decode_outcome |
| C13 | ObjectID text round trip | ObjectID.__init__ (str), __str__, int(), str.split/strip | decimal print/parse by induction; every text classified | C13_oid_text_roundtrip, C13_oid_text_dots, C13_oid_text_sound, C13_oid_accepts, C13_oid_refuses, C13_oid_printed, C13_oid_text_refuted |
| C14 | isPrefixOf is the prefix order | isPrefixOf | list induction | C14_prefix_true, C14_prefix_false, C14_prefix_reflexive, C14_prefix_transitive, C14_prefix_antisymmetric, C14_prefix_of_extension |
| C15 | ObjectID sequence behaviour | ObjectID list methods, Python indexing and slicing | list induction | C15_index, C15_index_out_of_range, C15_len, C15_slice_split, C15_slice_window, C15_delete, C15_delete_out_of_range, C15_append_and_copy |
| C16 | IPAddress text round trip and validation | IPAddress.__init__, encodeContents, decodeContents, __str__ | lemmas of C13 | C16_ip_roundtrip, C16_ip_accepts, C16_int, C16_ip_decode_any_length, C16_ip_range_refuted |
| C17 | Identifier octets and the class that comes back | class table, encodeIdentifier, tagDecodeDict in its five import states | computation over the finite class table, lifted to a forall over classes | C17_identifier_right, C17_identifier_refuted, C17_identifier_exceptions, C17_table_right, C17_table_classes, C17_table_complete, C17_written_then_read, C17_counter64_undecodable |
| C18 | BER value round trip at any nesting depth | encode, decode | nested induction on value trees with budget monotonicity | C18_roundtrip |
| C19 | Concatenated encodings decode to the concatenated objects | decode | decode over append | C19_concatenation |
| C20 | Encoding is injective and prefix-free | encode | C18 and C19 | C20_prefix_free, C20_injective, C20_injective_refuted |
| C21 | Decoding always terminates, with a known set of exceptions | decode | strong induction on stream length; a nested-sequence witness for every recursion budget | C21_terminates, C21_no_recursion, C21_recursion_witness, C21_valueerror_only_refuted |
| C22 | Truncated input | decode | slicing lemma | C22_truncated, C22_cut_accepted_refuted |
| C23 | Multi-octet tags alias single-octet tags | decodeTag | induction on the octets of the tag | C23_high_tag_alias |
| C24 | Encoding a tag number of 31 or more never terminates | encodeIdentifier | induction on fuel: every fuel runs out | C24_high_tag_diverges |
| C25 | SNMP message round trip | PDU, BulkPDU, Message: constructors, encode, decode | C18 composed with constructor lemmas | C25_request_roundtrip, C25_getbulk_roundtrip, C25_message_interop, C25_v1_response_refuted |
| C26 | Trap message round trip | TrapPDU | as C25 | C26_trap_roundtrip |
| C27 | What Message.decode accepts | Message.decode | inversion of the decoder | C27_accepts, C27_refuses, C27_validation_refuted |
| C28 | What PDU decoding accepts | PDU.decodeContents and subclasses | inversion of the decoder | C28_pdu_accepts, C28_getbulk_accepts, C28_trap_accepts, C28_binding_validation_refuted |
| C29 | Message equality ignores the content | Message.__eq__ | the compared attribute is a constant | C29_message_equality_refuted, C29_message_classes, C29_decoded_equal_refuted |
| C30 | Equality of ASN.1 objects | __eq__, __ne__ with the reflected-operand rule | nested induction on value trees | C30_eq_reflexive, C30_eq_means_same, C30_eq_classes, C30_eq_integers, C30_ne_negates, C30_symmetry_refuted |
| C31 | Hex dump is faithful, octal dump is not | util.octetsToHex, octetsToOct | digit injectivity; collision witness | C31_hex_faithful, C31_hex_injective, C31_oct_exact, C31_oct_injective_below_64, C31_oct_refuted |
| C32 | Request ids are unique and consecutive | request methods of v1.SNMP, v2.SNMP, snmpManager | invariant over all traces | C32_ids_consecutive, C32_queued_ids |
| C33 | Request id exhaustion | the same, at the bound of Integer | invariant; exact last id | C33_threshold, C33_limits, C33_forever, C33_reachable |
| C34 | A response reaches exactly the callback of its request | receiveData, handleV1Message, handleV2Message, callbacks | invariant between log and state over all traces | C34_response_to_its_request |
| C35 | A callback that returns is never invoked again | the same | counting argument over all traces | C35_not_invoked_again, C35_completes_once, C35_registered_until_then, C35_raise_keeps, C35_once_refuted |
| C36 | Unsolicited responses change nothing | receiveData | step characterisation | C36_unsolicited |
| C37 | Responses do not disturb other requests | receiveData | frame lemma for the dict | C37_receiving_keeps, C37_entries |
| C38 | No authentication of responses | receiveData | step characterisation: the sender address is a free variable | C38_no_authentication, C38_answers |
| C39 | Outbound messages are sent in FIFO order, each at most once | outbound, run, sendto | queue invariant over all traces | C39_fifo, C39_failure_ends_run, C39_drains |
| C40 | Text transport is incompatible with real sockets | text transport against sockets of Python 3 | step characterisation | C40_datagram_rejected, C40_send_fails, C40_nothing_transmitted, C40_no_callbacks |
| C41 | v2.SNMP.receiveData never raises | v2.SNMP.receiveData | case analysis over decoders and callbacks | C41_v2_never_raises, C41_v2_callbacks, C41_others_raise, C41_undecodable, C41_exit_refuted |
| C42 | Failed API calls are atomic | request methods | state unchanged on Err, except the consumed id | C42_failed_call |
| C43 | Successful requests are registered and queued | request methods | state after Ok | C43_success |
| C44 | What snmpSet really sends | snmpSet of the three classes | state after Ok, independent reader of the message | C44_manager_set, C44_v1_set_refuted, C44_v1_set_kind, C44_v2_broken |
| C45 | Trap sending | snmpTrap, sendTrap | state after Ok / exceptions | C45_trap_queued, C45_trap_on_wire, C45_manager_trap, C45_empty_message |
| C46 | Inbound trap dispatch | receiveTrap, trapCallback | step characterisation | C46_only_traps, C46_reaction, C46_trap_delivered, C46_manager_v2_traps |
| C47 | Request fidelity end to end | request, queue, encode | C43 and C25, and an independent reader (SpecWire) of what is sent | C47_get_on_wire, C47_getnext_on_wire, C47_round_trip, C47_get_answered |
| C48 | Socket role life cycle | role.manager | invariant over operation sequences with socket handles | C48_read, C48_send, C48_close, C48_newest, C48_closed_once, C48_no_leak, C48_leak_refuted |
| C49 | Error handler outcome | asynrole.handle_error | step characterisation | C49_socket_error, C49_bad_datagram, C49_mistaken_refuted |
| C50 | Error status text depends on history | ErrorStatus.errString as process-wide state, str() | induction over the construction history | C50_str, C50_stable, C50_texts, C50_made_by_hand, C50_made_by_pdu, C50_made_by_decoding, C50_v1_only, C50_enum_refuted, C50_trap_enum |
| C51 | The SNMPv2 OctetString class cannot be constructed | rfc1902.OctetString.__init__ | induction on the recursion limit | C51_octetstring_v2 |
| C52 | Encoding conforms to X.690 | encode | induction on trees against an independent X.690 relation (SpecTree) | C52_conformance |
| C53 | Interoperability of decoding | decode | completeness of decode for every X.690 encoding of the subset | C53_interop, C53_unambiguous |
| C54 | Printing received messages | str() of messages, PDUs, values | total over decoded messages; induction on trees | C54_print_received, C54_print_decoded, C54_text, C54_message_text, C54_decimal, C54_unprintable_refuted |
| C55 | Typed containers hold only their type | SequenceOf/VarBindList constructor and append | invariant over operation sequences | C55_isinstance, C55_append, C55_construct_false, C55_construct, C55_construct_other, C55_history, C55_bindings |
| C56 | Every primitive contents has one outcome | decodeContents of each primitive class | total case analysis | C56_primitive, C56_deterministic |
| C57 | Pre-encoded components | Sequence.encodeContents with str components | concatenation lemma | C57_preencoded, C57_verbatim, C57_empty_value, C57_empty_value_refuted, C57_false_value |
| C58 | The queue-empty callback | run() of the three classes with queueEmpty | step characterisation over all traces | C58_only_when_empty, C58_always_when_empty, C58_done_refuted, C58_never_polls, C58_never_answered, C58_mistaken_refuted |
| C59 | Making traps from plain values | createTrapPDU, createTrap, getsockname | case analysis | C59_accepts, C59_on_wire, C59_default_address_refuted, C59_uptime_refuted, C59_address_object_refuted, C59_plain_list_refuted |
| C60 | The Set frontend | typeSetter, createSetRequestMessage, snmpset.py | case analysis, inversion | C60_letters, C60_other, C60_integer, C60_integer_refused, C60_string, C60_identifier, C60_address, C60_unusable_refuted, C60_enterprise, C60_enterprise_dot_refuted |
| C61 | Equality and hashing agree | __eq__, __hash__ | case analysis over classes | C61_hash_consistent, C61_hashable |
| C62 | Dumps and conversions lose nothing | util, toBytes-like conversions, dumps | injectivity | C62_hex, C62_oct, C62_to_oid, C62_to_oid_refuted |
| C63 | Request ids when several threads share a manager | request methods split in single accesses to shared attributes | invariants and witnesses over all interleavings | C63_alone, C63_range, C63_unique, C63_unique_refuted |
| C64 | Answers and callbacks when several threads share a manager | the same, with receivers | counting over all interleavings; racing witnesses | C64_right_callback, C64_registered, C64_answered, C64_early_refuted, C64_right_callback_refuted, C64_twice_refuted |
| C65 | The outbound queue under threads | the same | queue invariant | C65_queue |
| C66 | The walk program | snmpwalk.py as a program over the manager model | simulation: the printed lines are the spec's walk of the agent, for all agents and schedules | C66_walk, C66_ends, C66_subtree_refuted, C66_loops_refuted, C66_counter64_refuted, C66_instance, C66_error, C66_fatal, C66_silence, C66_socket_error, C66_one_chance, C66_starts, C66_progress, C66_deterministic |
| C67 | The get and set programs | snmpget.py, snmpset.py | as C66 | C67_get, C67_set, C67_unanswered, C67_usage, C67_bad_name, C67_set_refused, C67_python3_refuted, C67_python3_mute |
| C68 | The other programs | snmpget-v1.py, snmpget-v2.py, traplistener.py, trapsender.py | as C66 | C68_v1_v2_refuted, C68_port_taken, C68_listens, C68_trap, C68_survives, C68_socket_error, C68_notification_refuted, C68_python3_refuted, C68_sender_refuted |
| C69 | Several managers: making one and sending | asynrole.Manager.__init__, send, asyncore.socket_map | invariant over all traces with any number of managers | C69_bad_callback, C69_opening_fails, C69_opened, C69_send, C69_own_socket |
| C70 | Several managers: delivery | poll, handle_read, handle_error | conservation invariant; exact execution of a poll by induction on the ready list | C70_lossless, C70_handed, C70_only_read, C70_poll_serves_all, C70_interrupted, C70_error, C70_valueerror, C70_valueerror_raised |
| C71 | Several managers: closing | close, handle_close | as C70; invariant "dead descriptor" | C71_close, C71_closed_for_good, C71_close_again, C71_handle_close_again, C71_close_in_callback, C71_handle_close_breaks_poll, C71_handle_close_always, C71_reopen_same, C71_reopen_other, C71_stale_close_refuted |
| C72 | Several managers: poll() never hangs | poll on blocking sockets | invariant over all traces; witness | C72_never_hangs, C72_hung, C72_nested_poll_refuted, C72_new_manager_refuted |
| C73 | Shared objects: what is sent | every constructor and request method of the three manager classes on a heap of objects with identity, user code that creates, reads and writes reachable objects, run()'s encode at sending time (Heap.v) | invariant (what user code cannot reach stays as made) over all traces; the octets against the value model of C32-C44 | C73_get_fixed, C73_set_fixed, C73_getnext_shares_varbinds, C73_v1_set_shares_varbinds, C73_trap_shared, C73_encoded_when_sent, C73_calls_change_nothing, C73_append_changes_the_list, C73_varbind_shares, C73_trappdu_shares, C73_varbindlist_copies, C73_objectid_copies, C73_append_refuses, C73_returned_id_shared_refuted |
| C74 | Shared objects: answers and registrations | receiveData around the callback, the dict of callbacks with keys as objects, on the same heap | the same invariant; witnesses for the expectations that fail | C74_received_is_new, C74_received_attributes, C74_own_entry, C74_other_entry_refuted, C74_registered, C74_registrations_v1_v2, C74_registrations_snmpManager, C74_changed_key_refuted |
| C75 | Mutable default arguments | the default-argument lists as heap cells | the same invariant; execution of the constructors on any heap | C75_defaults_stay_empty, C75_new_lists, C75_new_pdus |
| C76 | Objects and values | the manager on values (Manager.v) and the manager on a heap of objects (Heap.v), run side by side | bisimulation: agreement is kept by each step; every run of either side has its counterpart on the other | C76_in_step, C76_objects_to_values, C76_values_to_objects, C76_call, C76_constructors |
| C77 | Answers over an unreliable network | the histories of Manager.v with an environment of agents (SpecNetwork.networked): datagrams come only from addresses that were sent a request and answer it | encodings are delimited (tlv_unique), so the id in the sent octets is the id of the call that queued them, and the id read back is the one in the answer; with the history invariants of C34 and C39 | C77_answers_are_genuine, C77_content, C77_silence |
| C78 | Traps from manager to manager | two histories of Manager.v, the listener fed with the sender's datagrams (SpecNetwork.relayed) | identifier octets of requests and traps differ; C45, C46 and the message round trip of C25 | C78_traps_are_genuine, C78_trap_arrives |
| C79 | Encodings are short | Codec.encode as in C18, compared with the relation SpecWire.wire | induction over the value; the shortest forms of integers, subidentifiers and lengths, each against an arbitrary BER form of the same number (ProofsSize) | C79_at_most_twice, C79_shortest, C79_shortest_refuted |
| C80 | Walking an agent's table | Tools.snmpwalk_py over Manager and Codec as in C66; SpecMib has the agent (a table from names to values, answers per RFC 1905), a lossy network and the text that should be printed | invariant over the events (ProofsMibWalk.phase): the requests sent so far are exactly the Get and the GetNexts for the first k objects, the output their lines; an answer to an earlier request carries another id and cannot print. Termination by induction on the objects left, with an explicit construction of the answers (ProofsMibEnd) | C80_prefix, C80_complete, C80_ends, C80_lost_refuted |
| C81 | What snmpset.py sets, snmpget.py reads | Tools.snmpset_py and snmpget_py as in C67, the same agent with a state (SpecMib.treats, exchanged) | the request on the wire determines what the agent was asked (wire_unambiguous), the answer what is printed (C67); composition of the two runs | C81_set, C81_get, C81_read_your_writes, C81_set_possible, C81_get_possible |
| C82 | Managers in one process do not mix up their requests | Process.v: the managers of Manager.v on the one asyncore of Asyn.v, one stack of activations for all | simulation: for each manager, every process execution projects to an execution of that manager alone (ProofsProcess, ProofsProcessStep), so C32, C34, C35, C39 transfer; asyncore's part projects to Asyn.aexec; the log pairs sendto with the message taken (ProofsProcessLog) | C82_alone, C82_asyncore, C82_callback, C82_trap, C82_once, C82_ids, C82_fifo, C82_transmitted, C82_sent |
| C83 | Behind agents, every callback of every manager gets the answer to its own request | the same, with the network assumption of C77 stated on the log of the process | the projection of C82 satisfies C77's assumption: what a manager was called with had arrived at a socket it made, and what it sent before is in its own log | C83_answers_are_genuine |
| C84 | An exception of one manager ends run() of another | the same | exact execution of the steps from any reachable state, using that the stacks of the process and of asyncore correspond (ProofsProcessStack); a concrete witness for the refutation | C84_ends_run, C84_trap_ends_run, C84_datagram_ends_run, C84_v2_goes_on, C84_v2_trap_goes_on, C84_causes, C84_run_ends, C84_not_callable, C84_isolation_refuted |
| C85 | The library never gets stuck | the same | invariant: the stack of the process and that of asyncore correspond, and everyone mentioned exists; the calm case projects to C72 | C85_progress, C85_waits, C85_never_waits, C85_calm_progress, C85_waits_refuted |
| C86 | A closed manager is silent for good, and only that manager | Process.v: XClose at any point where user code runs | projection of the process run to asyncore (C71) and, for callbacks, an invariant on what each step logs: callbacks are called only from receiveData, which asyncore calls only with data of a registered manager | C86_closed_for_good, C86_others |
| C87 | What waits is delivered by the next poll of any manager, and what is queued is sent | Process.v, all steps; vocabulary in SpecServe.v | the poll of Asyn is unrolled datagram by datagram (serving), each delivery composed with receiveData on the octets (C38 to C41) by induction on the waiting list; the round trip is the request, the send and the poll composed | C87_poll, C87_run, C87_sends, C87_round_trip |
| C88 | Threads that poll concurrently share all managers, and lose nothing | Pollers.v, all steps; vocabulary in SpecPollers.v | conservation (arrivals = read ++ queued) and a per-thread automaton of the log (story) are invariants of every step; poll_serves tracks the frame of the poll through any interleaving; refutations are executed schedules | C88_lossless, C88_handed, C88_only_read, C88_raised, C88_raises_only, C88_poll_serves, C88_close_again, C88_in_order, C88_no_overlap, C88_overlap_refuted, C88_order_refuted, C88_foreign_thread_refuted |
| C89 | When a thread can hang in poll() | Pollers.v, all steps; vocabulary in SpecPollers.v | progress by cases from the shape invariant; the discipline gives the invariant `alone` (what select() reported is still there); the bound is a measure of the topmost poll that only steps of its own thread decrease | C89_progress, C89_released, C89_one_at_a_time, C89_bounded, C89_hang_refuted, C89_polls_locked_refuted |
| C90 | The time stamp of traps | Uptime.v: getSysUptime with Python's float() on text, multiplication and int(), on exact IEEE 754 doubles; createTrapPDU of Frontend.v | rounding is shown to be to nearest even (C90_rounding), the error of two roundings is bounded by integer arithmetic, so the truncated product is n or n - 1; the trap by C59; float()'s reader is shown to accept exactly a grammar written down in SpecUptime.v, by taking the underscores out and back in (ProofsFloat.v) | C90_rounding, C90_close, C90_whole, C90_never_back, C90_exact_refuted, C90_failure, C90_reads, C90_trap |
| C91 | Garbage collection | Collect.v: asynrole.Manager of Asyn.v with two more kinds of steps, dropping a manager to which neither the map nor a running call refers and closing a socket to which nothing refers; role.manager.__del__ on Role.v | the invariants of C69-C71 are shown to be preserved by the new steps; that a manager not closed stays in the map, that a waiting recvfrom refers to its manager's socket, and that every open socket has its manager or a failed constructor are further invariants of all executions | C91_invisible, C91_finalize, C91_stays, C91_never_dropped, C91_poll_serves_all, C91_lossless, C91_handed, C91_only_read, C91_own_socket, C91_no_leak, C91_only_leftovers, C91_role_del, C91_role_all_closed |
| C92 | Command lines and exit status | CommandLine.v: getopt.getopt(sys.argv[1:], '', []), the start of the process and its status, over the programs of Tools.v | invariant: a SystemExit after something was sent came out of run(), where sys.exit is called with 0 only; the rest from C66-C68 | C92_words, C92_option_refused, C92_determined, C92_zero_or_one, C92_get, C92_set, C92_walk, C92_error_refuted, C92_silence_refuted, C92_unanswered_refuted, C92_exception, C92_bad_name, C92_port_taken, C92_usage, C92_v1_v2_refuted, C92_sender_refuted, C92_listener |
| C93 | What decoding builds is bounded by what it reads | Codec.v: decode, decodeContents, the PDU builders, message_decode; the counts are in SpecBound.v | a weight (2 per object, 1 per integer, character, component) that tag, length and contents pay for octet by octet, by induction on the nesting limit and the loop; the builders of PDUs never increase it | C93_bounded, C93_message, C93_numbers, C93_digits, C93_digits_refuted |
| C94 | Messages that stop early are taken for whole | Codec.v: decode_one (a slice shorter than the length it was asked for is not noticed), decodeContents, message_decode; Manager.v: receiveData, step; SpecCut.v says what a cut encoding is | induction on the cut: contents that are all there are read as in C23, and those that are cut are the contents of the cut value; `clips` carries a cut of the last value through the sequences around it; that nothing else is accepted by induction on the encoding, then by counting the components Message and the PDUs ask for | C94_cut, C94_string, C94_number, C94_bindings, C94_callback, C94_only, C94_message_only, C94_trap_only, C94_trap_callback |

## Trusted base

* Coq 8.16.1's kernel (with `vm_compute` used in some `Example`s and computations), and the reading of Python given by the model
  and its comments.
* `Print Assumptions` of every theorem listed in MANIFEST.json says *Closed under the global context*: no axiom is
  used, of the standard library or otherwise. (The `library_axioms` that vcheck prints come from `Coq.ssr.ssrunder`, which is
  loaded by Coq's own libraries; no theorem depends on them.) Only the Coq standard library is imported.
* No `Admitted`, no axiom, no functor or module type, no kernel check switched off.

## What is modelled, by source file

| File | Modelled | Not modelled |
|---|---|---|
| rfc1155.py | every class and method, `tagDecodeDict`, the integer helpers | log messages; `Asn1Object.__init__` docstrings and the unused module constants |
| rfc1157.py | every class and method | - |
| rfc1902.py, rfc1905.py | every class and method | - |
| util.py | both functions | - |
| role.py | manager: open, send, read, close, and their failures; `__del__` and garbage collection (Collect.v) | user code that keeps a socket object of a manager it has dropped |
| asynrole.py | Manager: constructor, send, handle_read, handle_close, handle_error, poll, on asyncore 3.11 | exceptional conditions of select() |
| v1.py, v2.py, snmpmanager.py | every method | - (C59 takes any number for the uptime; C90 models the reading of /proc/uptime) |
| snmpget.py, snmpwalk.py, snmpset.py, snmpget-v1.py, snmpget-v2.py, traplistener.py, trapsender.py | main part and callbacks; getopt and exit status (CommandLine) | failures of print, the texts of tracebacks |
| debug.py, `__init__.py` | - | logging configuration |

## Simplifications and limits of the model

* Logging has no effect.  Debug messages are formatted when the call is made (`'...' % x`), from integers, octets and
  texts; such formatting can raise only through CPython's digit limit, next item, which no datagram of up to 1787 octets meets (C93).
* CPython's limit of 4300 digits for int/str conversion (3.11+), non-ASCII digits and white space in `int()`,
  `bool`, `float` and other exotic arguments. The smallest exponent of floats (C90).
* The recursion limit while *encoding* (values nested deeper than CPython's limit) and memory exhaustion.
* Except in C73-C76 objects are values: the user does not mutate what was handed to the library, nor what the library handed
  out (C76 proves that such programs cannot tell).  C73-C76 model objects with identity (Heap.v); there one manager and one thread, and CPython's shortcut of comparing dict keys
  by identity first is left out (it can only make a lookup with the very same key object succeed).
* `str()` of plain Python lists inside printed values.
* A falsy non-callable `queueEmpty` of snmpManager.
* Real time, `time.sleep`, signals (a KeyboardInterrupt is a callback or poll that raises) and garbage collection outside role.py and asynrole.py.
* Manager model (C32-C49, C58): one manager and one thread; C63-C65: threads share one manager, where a single
  access to a shared attribute is atomic (the interpreter lock, and queue.Queue's lock); C69-C72 (bare asynrole.Managers) and C82-C87 (SNMP managers): any number of
  managers, one thread; C88-C89: any number of bare asynrole.Managers and of threads that poll (there constructors succeed, nobody calls handle_close() or sends, and a
  recvfrom is not interrupted by another thread's close); in C82-C87 sockets carry str and user code calls neither receiveData nor send itself.
* Two transports: `Text` (the library as written for Python 2: strings go through sockets) and `Real` (Python 3: sockets refuse
  str and give bytes). Theorems say which; C40 is about the second.
* Tools: the trace label `Answers` is also consumed when the queue is empty.
* asyncore: descriptors of other files are never in the map; SystemExit stands for the three exceptions asyncore re-raises.

## Tests of the theorems

`seeded/LOG.jsonl` has one line per wrong program tried (a realistic bug seeded in the model): what was edited, the claim it breaks, the
theorems whose proofs failed, and the theorems that were added or tightened because of it.
