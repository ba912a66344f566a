{"id": "C01", "title": "Length field round trip", "statement": "For every content length n with 0 <= n < 256^127, decoding the BER length octets produced for n, followed by any further octets, yields exactly n and exactly those further octets; the octets produced are a legal X.690 definite length (short form below 127, otherwise 0x80|k followed by the k big-endian octets of n with no leading zero octet).", "quantifier": "all lengths n in [0,256^127) and all trailing streams", "why_tests_cant": "lengths are unbounded and the trailing stream is arbitrary; tests sample a few", "anchors": ["lib/libsnmp/rfc1155.py:Asn1Object.encodeLength", "lib/libsnmp/rfc1155.py:Asn1Object.decodeLength"]}
{"id": "C02", "title": "Integer contents decode as two's complement", "statement": "decodeContents of an Integer on any non-empty octet string returns the big-endian two's complement value of the octets (of any length, minimal or not); on the empty string it raises IndexError and never returns a value.", "quantifier": "all octet strings", "why_tests_cant": "infinitely many octet strings of every length", "anchors": ["lib/libsnmp/rfc1155.py:Integer.decodeContents"]}
{"id": "C03", "title": "Integer encode/decode round trip: exact domain", "statement": "For every Python int v, encoding then decoding Integer contents returns v if and only if v >= -1 or v lies in [-2^(8k-1), -256^(k-1)) for some k >= 1. For every other negative v (e.g. -129) the octets written decode to the non-negative number v+256^k: the naive round-trip property is refuted. When it does round-trip, the octets are the unique shortest two's complement representation.", "quantifier": "all integers (unbounded)", "why_tests_cant": "the failing values form an infinite union of intervals; the existing tests happen to miss all of them", "anchors": ["lib/libsnmp/rfc1155.py:Integer.encodeContents", "lib/libsnmp/rfc1155.py:Integer.decodeContents"]}
{"id": "C04", "title": "The four integer decoders agree", "statement": "decodeContents, decodeTwosInteger1, decodeTwosInteger2 and decodeTwosInteger3 return the same integer on every non-empty octet string, and all raise IndexError on the empty one.", "quantifier": "all octet strings", "why_tests_cant": "equivalence of four algorithms over an infinite domain", "anchors": ["lib/libsnmp/rfc1155.py:Integer.decodeTwosInteger1", "lib/libsnmp/rfc1155.py:Integer.decodeTwosInteger2", "lib/libsnmp/rfc1155.py:Integer.decodeTwosInteger3", "lib/libsnmp/rfc1155.py:Integer.decodeContents"]}
{"id": "C05", "title": "Integer-family range checks", "statement": "Constructing Integer, Counter, Guage, TimeTicks, ErrorStatus, GenericTrap, Integer32, Counter32, Guage32 or Counter64 from a Python int v succeeds with value v exactly when v is in the class's declared range, and otherwise raises ValueError. The declared range equals the SMI range of the type for every class except Integer32, which also accepts 2147483648. Decoding bypasses the check: some octet strings decode to an Integer outside its declared range.", "quantifier": "all integer-valued classes and all integers", "why_tests_cant": "unbounded integers times all classes", "anchors": ["lib/libsnmp/rfc1155.py:Integer.__init__", "lib/libsnmp/rfc1902.py:Integer32", "lib/libsnmp/rfc1902.py:Counter64", "lib/libsnmp/rfc1157.py:ErrorStatus", "lib/libsnmp/rfc1157.py:GenericTrap"]}
{"id": "C06", "title": "Counter decoding of sign-dropped values", "statement": "Decoding Counter/Counter32 contents of 1 to 4 octets, or of 5 octets whose first is zero, always yields a value in [0,2^32) congruent to the two's complement value modulo 2^32 (so agents that drop the leading zero octet are read correctly for 4-octet contents). For Counter64 this fails: eight 0xFF octets decode to 2^32-1, not 2^64-1.", "quantifier": "all octet strings of the stated lengths", "why_tests_cant": "2^32 and more inputs", "anchors": ["lib/libsnmp/rfc1155.py:Counter.decodeContents", "lib/libsnmp/rfc1902.py:Counter64"]}
{"id": "C07", "title": "Counter increment wrap", "statement": "For a Counter holding c in [0,MAX] and an increment n in [0,MAX], 'counter + n' leaves the counter in [0,MAX] and returns None; it holds c+n when c+n <= MAX and c+n-MAX otherwise, i.e. exactly one more than arithmetic modulo MAX+1: a counter never wraps to zero although the class documents that it does. Holds for the 32-bit and the 64-bit class and lifts to any sequence of increments.", "quantifier": "all counter states, all increment sequences", "why_tests_cant": "unbounded histories of increments", "anchors": ["lib/libsnmp/rfc1155.py:Counter.__add__", "lib/libsnmp/rfc1902.py:Counter64"]}
{"id": "C08", "title": "Guage latching", "statement": "Any sequence of non-negative additions and subtractions applied to a Guage behaves exactly like saturating arithmetic on [0, 2^32-1] and never leaves that range; a negative operand can leave it.", "quantifier": "all operation sequences of any length", "why_tests_cant": "unbounded histories", "anchors": ["lib/libsnmp/rfc1155.py:Guage.__add__", "lib/libsnmp/rfc1155.py:Guage.__sub__"]}
{"id": "C09", "title": "Integer addition and subtraction", "statement": "Integer(a)+b yields Integer(a+b) when b and a+b are in range and ValueError otherwise. Integer(a)-b yields Integer(a+b): subtraction is refuted for every non-zero b (the result is never a-b).", "quantifier": "all a,b", "why_tests_cant": "unbounded integers", "anchors": ["lib/libsnmp/rfc1155.py:Integer.__add__", "lib/libsnmp/rfc1155.py:Integer.__sub__"]}
{"id": "C10", "title": "ObjectID encoding conforms to X.690", "statement": "For every object identifier with at least two arcs, first arc 0..2, second arc below 40 when the first is 0 or 1, and all arcs non-negative, the contents octets produced are the X.690 8.19 encoding: concatenated minimal base-128 subidentifiers, the first being 40*arc1+arc2. Identifiers with fewer than two arcs raise IndexError.", "quantifier": "all object identifiers, any number and size of arcs", "why_tests_cant": "unbounded arcs and lengths", "anchors": ["lib/libsnmp/rfc1155.py:ObjectID.encodeContents"]}
{"id": "C11", "title": "ObjectID encode/decode round trip: exact domain", "statement": "For every list of at least two non-negative arcs, encode followed by decode returns the same list if and only if arc2 < 40 and 40*arc1+arc2 < 128. Valid identifiers 2.40 to 2.47 silently decode as 3.0 to 3.7, and 2.48 and above raise NotImplementedError: full X.690 round trip is refuted.", "quantifier": "all arc lists", "why_tests_cant": "unbounded arcs and lengths", "anchors": ["lib/libsnmp/rfc1155.py:ObjectID.encodeContents", "lib/libsnmp/rfc1155.py:ObjectID.decodeContents"]}
{"id": "C12", "title": "ObjectID decoding outcome for every octet string", "statement": "decodeContents of ObjectID on any octet string raises ValueError iff it is empty, NotImplementedError iff the first octet is >= 128, IndexError iff the first octet is < 128 and the string has a trailing unterminated subidentifier, and otherwise returns at least two non-negative arcs that are the base-128 values of the terminated groups.", "quantifier": "all octet strings", "why_tests_cant": "infinitely many malformed inputs", "anchors": ["lib/libsnmp/rfc1155.py:ObjectID.decodeContents"]}
{"id": "C13", "title": "ObjectID text round trip", "statement": "For every ObjectID whose arcs all lie in [0,2^31-1] (at least one arc), ObjectID(str(oid)) equals oid, with or without leading and trailing dots; if any arc exceeds 2^31-1 (legal in SNMP up to 2^32-1 and produced by decoding) re-parsing its own text raises ValueError. ObjectID(text) accepts exactly: any dots, numbers as int() reads them (blanks, sign, underscores) in 0..2^31-1 separated by single dots, any dots; every other text is a ValueError. str() writes a dot before each arc, arcs in decimal.", "quantifier": "all arc lists and all texts", "why_tests_cant": "unbounded", "anchors": ["lib/libsnmp/rfc1155.py:ObjectID.__init__", "lib/libsnmp/rfc1155.py:ObjectID.__str__"]}
{"id": "C14", "title": "isPrefixOf is the prefix order", "statement": "a.isPrefixOf(b) returns True iff b's arcs start with all of a's arcs; hence it is reflexive, transitive and antisymmetric, and a.isPrefixOf(a extended by anything) is True.", "quantifier": "all pairs and triples of ObjectIDs", "why_tests_cant": "unbounded", "anchors": ["lib/libsnmp/rfc1155.py:ObjectID.isPrefixOf", "lib/libsnmp/rfc1155.py:ObjectID.extend"]}
{"id": "C15", "title": "ObjectID sequence behaviour", "statement": "Indexing returns arc i for -len <= i < len and raises IndexError otherwise; slicing at any k splits the identifier into two that concatenate (extend) back to the original; append adds exactly one arc at the end; copy is equal to the original; deletion removes exactly the indexed arc.", "quantifier": "all identifiers, indices and slice bounds", "why_tests_cant": "unbounded", "anchors": ["lib/libsnmp/rfc1155.py:ObjectID.__getitem__", "lib/libsnmp/rfc1155.py:ObjectID.__delitem__", "lib/libsnmp/rfc1155.py:ObjectID.append", "lib/libsnmp/rfc1155.py:ObjectID.extend", "lib/libsnmp/rfc1155.py:ObjectID.copy", "lib/libsnmp/rfc1155.py:ObjectID.__len__"]}
{"id": "C16", "title": "IPAddress text round trip and validation", "statement": "IPAddress('a.b.c.d') for octets 0..255 encodes exactly those four octets, prints back as the same canonical text, and re-parsing the text gives an equal object. No range check exists: components up to 0x10FFFF are accepted, and decoding accepts any length. Exactly the texts of four numbers, as int() reads them, separated by dots are accepted.", "quantifier": "all addresses, all texts, all out-of-range components", "why_tests_cant": "2^32 addresses", "anchors": ["lib/libsnmp/rfc1155.py:IPAddress.__init__", "lib/libsnmp/rfc1155.py:IPAddress.__str__", "lib/libsnmp/rfc1155.py:IPAddress.decodeContents"]}
{"id": "C17", "title": "Identifier octets and the class that comes back", "statement": "For every class of the library the identifier octet written by encode is the one listed by the class's resolved tag attributes, and looking it up in the decode table returns a class of the same kind - except exactly Counter64 (writes 0x07, which no decoder knows), Opaque (written as OctetString), NoSuchObject/NoSuchInstance/EndOfMibView (written as Null), the SNMPv1 Response (written as a Get, 0xA0), and the abstract PDU/BulkPDU (0xB0). Which class comes back depends on the modules imported: the one of the newest imported module that registers the kind.", "quantifier": "all classes x all import configurations of rfc1155, rfc1157, rfc1902 and rfc1905", "why_tests_cant": "tests cover a few classes under whichever modules happen to be imported", "anchors": ["lib/libsnmp/rfc1155.py:Asn1Object.encodeIdentifier", "lib/libsnmp/rfc1155.py:tagDecodeDict", "lib/libsnmp/rfc1157.py:tagDecodeDict", "lib/libsnmp/rfc1902.py:Counter64", "lib/libsnmp/rfc1905.py:tagDecodeDict"]}
{"id": "C18", "title": "BER value round trip at any nesting depth", "statement": "For every value tree built from Integer-family objects, OctetStrings, IPAddresses, ObjectIDs, Nulls and Sequences nested to any depth and width (integers and identifiers inside the round-trip domains of C03/C11), decode(encode(v)) returns exactly one object with the same tree of values, provided the interpreter's recursion budget exceeds the nesting depth.", "quantifier": "all value trees of any depth and size, all three import configurations", "why_tests_cant": "unbounded recursive structures", "anchors": ["lib/libsnmp/rfc1155.py:Asn1Object.encode", "lib/libsnmp/rfc1155.py:Asn1Object.decode", "lib/libsnmp/rfc1155.py:Sequence.encodeContents", "lib/libsnmp/rfc1155.py:Sequence.decodeContents"]}
{"id": "C19", "title": "Concatenated encodings decode to the concatenated objects", "statement": "Decoding the concatenation of any number of encodings yields the objects in order; in particular an encoding is self-delimiting: appending further encodings never changes the objects decoded before them.", "quantifier": "all lists of encodable values", "why_tests_cant": "unbounded lists", "anchors": ["lib/libsnmp/rfc1155.py:Asn1Object.decode"]}
{"id": "C20", "title": "Encoding is injective and prefix-free", "statement": "Two round-trippable values with the same octets have the same decoded form, and no encoding is a proper prefix of another.", "quantifier": "all pairs of values", "why_tests_cant": "unbounded", "anchors": ["lib/libsnmp/rfc1155.py:Asn1Object.encode"]}
{"id": "C21", "title": "Decoding always terminates, with a known set of exceptions", "statement": "For every string, decode returns a list of objects or raises one of IndexError, ValueError, TypeError, NotImplementedError, PDUError or RecursionError; RecursionError is impossible when the input has fewer than 2*budget characters, and for every budget b (6b < 2^32) there is a well-formed nested value of at most 6b octets that triggers it although one more level of budget decodes it. It is refuted that malformed input always raises ValueError.", "quantifier": "all strings (including non-octet characters), all recursion budgets", "why_tests_cant": "every input", "anchors": ["lib/libsnmp/rfc1155.py:Asn1Object.decode", "lib/libsnmp/rfc1157.py:PDU.decodeContents", "lib/libsnmp/rfc1157.py:TrapPDU.decodeContents", "lib/libsnmp/rfc1905.py:BulkPDU.decodeContents"]}
{"id": "C22", "title": "Truncated input", "statement": "A top-level object whose declared length exceeds the octets available is not rejected: decode behaves exactly as if the declared length were the number of available octets. Hence for every non-empty OctetString some proper prefix of its encoding decodes without error to a different value.", "quantifier": "all declared lengths and all streams", "why_tests_cant": "every truncation point of every message", "anchors": ["lib/libsnmp/rfc1155.py:Asn1Object.decode"]}
{"id": "C23", "title": "Multi-octet tags alias single-octet tags", "statement": "A high-tag-number identifier is reduced to its bare number, so for every known tag t >= 0x20 or < 0x80 representable in 7-bit groups, the stream starting 0x1F followed by the base-128 form of t decodes exactly like the stream starting with the single octet t; distinct identifiers are therefore not distinguished.", "quantifier": "all tag numbers and all remaining streams", "why_tests_cant": "unbounded tag numbers", "anchors": ["lib/libsnmp/rfc1155.py:Asn1Object.decodeTag"]}
{"id": "C24", "title": "Encoding a tag number of 31 or more never terminates", "statement": "For a subclass with asnTagNumber >= 31, encode() never returns: after any number of loop iterations the identifier loop is still running.", "quantifier": "all tag numbers >= 31, all step counts", "why_tests_cant": "non-termination cannot be observed by a finite test", "anchors": ["lib/libsnmp/rfc1155.py:Asn1Object.encodeIdentifier"]}
{"id": "C25", "title": "SNMP message round trip", "statement": "For every SNMP message (version, community, and a Get/GetNext/Set request or v2 Response/Inform/TrapV2/Report or GetBulk with any request id, status and index in range and any list of variable bindings whose names and values are round-trippable), Message.decode(message.encode()) returns a message with the same version, community, PDU kind, request id, error status, error index and the same bindings in the same order.", "quantifier": "all messages, any number of bindings, any nesting inside values", "why_tests_cant": "unbounded messages", "anchors": ["lib/libsnmp/rfc1157.py:Message.encodeContents", "lib/libsnmp/rfc1157.py:Message.decode", "lib/libsnmp/rfc1157.py:PDU.decodeContents", "lib/libsnmp/rfc1905.py:PDU", "lib/libsnmp/rfc1905.py:BulkPDU"]}
{"id": "C26", "title": "Trap message round trip", "statement": "For every SNMPv1 trap (enterprise, agent address, generic and specific trap numbers in range, timestamp, bindings) Message.decode(message.encode()) returns a trap with the same six fields.", "quantifier": "all traps", "why_tests_cant": "unbounded", "anchors": ["lib/libsnmp/rfc1157.py:TrapPDU", "lib/libsnmp/rfc1157.py:Message.decode"]}
{"id": "C27", "title": "What Message.decode accepts", "statement": "Message.decode succeeds exactly when the stream decodes to one object that is a sequence of exactly three elements or an ObjectID with exactly three arcs; no check is made that the elements are an Integer, an OctetString and a PDU. Zero or several top-level objects raise TypeError rather than MessageError.", "quantifier": "all strings", "why_tests_cant": "every malformed datagram", "anchors": ["lib/libsnmp/rfc1157.py:Message.decode"]}
{"id": "C28", "title": "What PDU decoding accepts", "statement": "A PDU is accepted only if it has exactly four elements (six for a trap), its first three are integers within the Integer bounds, and each binding is subscriptable with an ObjectID (or empty) name; accepted PDUs have one binding per received binding, in order, holding the received name and value; elements beyond the second of a binding are silently dropped.", "quantifier": "all element lists", "why_tests_cant": "every malformed PDU", "anchors": ["lib/libsnmp/rfc1157.py:PDU.decodeContents", "lib/libsnmp/rfc1157.py:VarBind.__init__", "lib/libsnmp/rfc1157.py:VarBindList.__init__"]}
{"id": "C29", "title": "Message equality ignores the content", "statement": "Any two freshly constructed or freshly decoded messages of the same class compare equal whatever their version, community or PDU, until one of them has been encoded. Messages of different classes are never equal.", "quantifier": "all pairs of messages", "why_tests_cant": "all pairs", "anchors": ["lib/libsnmp/rfc1157.py:Message.__init__", "lib/libsnmp/rfc1155.py:Asn1Object.__eq__"]}
{"id": "C30", "title": "Equality of ASN.1 objects", "statement": "== is reflexive on every object; between two non-integer objects of different classes it is False in both directions; between integers of any classes it compares values; != is always its negation. It is not symmetric: Integer == OctetString raises TypeError while OctetString == Integer is False.", "quantifier": "all pairs of objects, any nesting", "why_tests_cant": "unbounded", "anchors": ["lib/libsnmp/rfc1155.py:Asn1Object.__eq__", "lib/libsnmp/rfc1155.py:Asn1Object.__ne__", "lib/libsnmp/rfc1155.py:Integer.__eq__"]}
{"id": "C31", "title": "Hex dump is faithful, octal dump is not", "statement": "octetsToHex of any octet string has exactly two digits per octet and determines the octets; octetsToOct maps different octets to the same text (e.g. 64 and 65).", "quantifier": "all octet strings", "why_tests_cant": "all strings", "anchors": ["lib/libsnmp/util.py:octetsToHex", "lib/libsnmp/util.py:octetsToOct"]}
{"id": "C32", "title": "Request ids are unique and consecutive", "statement": "In any history of API calls, received data and callbacks on one manager, the ids assigned are 0,1,2,... without gaps or repetition, and each request queued carries an id different from every other request ever queued by that manager.", "quantifier": "all histories, all user callbacks, all three manager classes", "why_tests_cant": "unbounded histories with arbitrary re-entrant callbacks", "anchors": ["lib/libsnmp/v1.py:SNMP.assignRequestID", "lib/libsnmp/snmpmanager.py:snmpManager.assignRequestID"]}
{"id": "C33", "title": "Request id exhaustion", "statement": "Once 2^31 ids (2^31+1 for v2 requests) have been assigned by a manager, every further request raises ValueError and queues nothing, forever.", "quantifier": "all histories of at least that length", "why_tests_cant": "2^31 requests", "anchors": ["lib/libsnmp/v1.py:SNMP.assignRequestID", "lib/libsnmp/rfc1155.py:Integer.__init__"]}
{"id": "C34", "title": "A response reaches exactly the callback of its request", "statement": "In any history, whenever a response callback is invoked it is invoked with a decoded message whose request id was returned by an earlier request call on this manager, and it is the callback given to that very call.", "quantifier": "all histories, all inputs, all callbacks, all three managers", "why_tests_cant": "unbounded histories", "anchors": ["lib/libsnmp/v1.py:SNMP.receiveData", "lib/libsnmp/v2.py:SNMP.receiveData", "lib/libsnmp/snmpmanager.py:snmpManager.handleV1Message", "lib/libsnmp/snmpmanager.py:snmpManager.handleV2Message"]}
{"id": "C35", "title": "A callback that returns is never invoked again", "statement": "In any history each request's callback completes normally at most once: after a normal return the request is forgotten and a duplicate response invokes nothing. A callback that raises stays registered, so a duplicate response invokes it again.", "quantifier": "all histories", "why_tests_cant": "unbounded histories", "anchors": ["lib/libsnmp/v1.py:SNMP.receiveData", "lib/libsnmp/snmpmanager.py:snmpManager.handleV1Message"]}
{"id": "C36", "title": "Unsolicited responses change nothing", "statement": "Receiving a well-formed PDU whose request id is not pending invokes no callback and leaves queue, table and id counter unchanged; v1.SNMP and snmpManager raise KeyError, v2.SNMP logs and returns.", "quantifier": "all states and messages", "why_tests_cant": "all states", "anchors": ["lib/libsnmp/v1.py:SNMP.receiveData", "lib/libsnmp/v2.py:SNMP.receiveData", "lib/libsnmp/snmpmanager.py:snmpManager.receiveData"]}
{"id": "C37", "title": "Responses do not disturb other requests", "statement": "Receiving any data leaves every pending request other than the one it answers registered with the same callback, unless the invoked callback itself issues calls; entries are only ever added by the callback's own new requests.", "quantifier": "all states, data and callbacks", "why_tests_cant": "unbounded", "anchors": ["lib/libsnmp/v1.py:SNMP.receiveData"]}
{"id": "C38", "title": "No authentication of responses", "statement": "Whether a callback is invoked depends only on the decoded message: any PDU kind (including Get, Set, or an SNMPv2 trap), any community and any source address carrying a pending request id triggers the request's callback.", "quantifier": "all messages and sources", "why_tests_cant": "adversarial inputs", "anchors": ["lib/libsnmp/v1.py:SNMP.receiveData", "lib/libsnmp/v2.py:SNMP.receiveData", "lib/libsnmp/snmpmanager.py:snmpManager.handleV2Message"]}
{"id": "C39", "title": "Outbound messages are sent in FIFO order, each at most once", "statement": "Over any run of the main loop the messages handed to the socket, followed by those still queued, are exactly the messages queued so far in order of the API calls (minus one that failed to encode or send, which ends the loop): none duplicated, none reordered.", "quantifier": "all schedules of API calls, datagrams and loop iterations", "why_tests_cant": "unbounded schedules", "anchors": ["lib/libsnmp/v1.py:SNMP.run", "lib/libsnmp/snmpmanager.py:snmpManager.run"]}
{"id": "C40", "title": "Text transport is incompatible with real sockets", "statement": "encode() always returns text and decode() accepts only text, so on Python 3 every datagram received as bytes is rejected with TypeError by all managers, and every queued message makes the run loop raise TypeError on its first send: no request is ever transmitted or answered.", "quantifier": "all datagrams and all queued messages", "why_tests_cant": "every input", "anchors": ["lib/libsnmp/rfc1155.py:Asn1Object.decode", "lib/libsnmp/role.py:manager.send", "lib/libsnmp/asynrole.py:Manager.handle_read", "lib/libsnmp/v1.py:SNMP.run"]}
{"id": "C41", "title": "v2.SNMP.receiveData never raises", "statement": "For every received datagram (text or bytes, well-formed or not), every state and every callback behaviour, v2.SNMP.receiveData returns normally; v1.SNMP and snmpManager let the exception escape to the main loop and end it.", "quantifier": "all inputs, states, callbacks", "why_tests_cant": "every malformed datagram", "anchors": ["lib/libsnmp/v2.py:SNMP.receiveData", "lib/libsnmp/asynrole.py:Manager.handle_error"]}
{"id": "C42", "title": "Failed API calls are atomic", "statement": "Whenever snmpGet, snmpGetNext, snmpSet or snmpTrap raises, the outbound queue and the table of pending requests are unchanged; at most one request id is lost.", "quantifier": "all states and arguments, all three managers", "why_tests_cant": "all arguments", "anchors": ["lib/libsnmp/v1.py:SNMP.snmpGet", "lib/libsnmp/v2.py:SNMP.snmpGet", "lib/libsnmp/snmpmanager.py:snmpManager.snmpSet"]}
{"id": "C43", "title": "Successful requests are registered and queued", "statement": "Whenever a request call succeeds it returns the fresh id, appends exactly one message carrying that id, the requested community, version and bindings to the end of the queue, and registers exactly the given callback under it, leaving all else unchanged.", "quantifier": "all states and arguments", "why_tests_cant": "all arguments", "anchors": ["lib/libsnmp/v1.py:SNMP.snmpGet", "lib/libsnmp/v1.py:SNMP.snmpGetNext", "lib/libsnmp/v2.py:SNMP.snmpGet", "lib/libsnmp/snmpmanager.py:snmpManager.snmpGet", "lib/libsnmp/snmpmanager.py:snmpManager.snmpGetNext", "lib/libsnmp/snmpmanager.py:snmpManager.snmpSet"]}
{"id": "C44", "title": "What snmpSet really sends", "statement": "snmpManager.snmpSet queues a Set request binding the given name to the given value for both versions. v1.SNMP.snmpSet always queues a GetNext request instead of a Set (refuted), and v2.SNMP.snmpSet and v2.SNMP.snmpGetNext always raise AttributeError.", "quantifier": "all arguments and states", "why_tests_cant": "all arguments", "anchors": ["lib/libsnmp/v1.py:SNMP.snmpSet", "lib/libsnmp/v2.py:SNMP.snmpSet", "lib/libsnmp/v2.py:SNMP.createGetNextRequestMessage", "lib/libsnmp/snmpmanager.py:snmpManager.createSetRequestMessage"]}
{"id": "C45", "title": "Trap sending", "statement": "v1.SNMP and v2.SNMP snmpTrap always queue exactly the given trap with the given community and register no callback; snmpManager.snmpTrap raises AttributeError for versions 1 and 2 and for any other version queues an empty message whose later encoding raises AttributeError.", "quantifier": "all traps, versions, states", "why_tests_cant": "all arguments", "anchors": ["lib/libsnmp/v1.py:SNMP.snmpTrap", "lib/libsnmp/v2.py:SNMP.snmpTrap", "lib/libsnmp/snmpmanager.py:snmpManager.createTrapMessage"]}
{"id": "C46", "title": "Inbound trap dispatch", "statement": "v1.SNMP and v2.SNMP invoke the trap callback exactly for messages carrying a TrapPDU (v1: version 0 only) and pass the decoded message; snmpManager does so for version-0 messages, and for version-1 messages raises AttributeError on every non-response PDU including traps.", "quantifier": "all messages and states", "why_tests_cant": "all messages", "anchors": ["lib/libsnmp/v1.py:SNMP.receiveData", "lib/libsnmp/v2.py:SNMP.receiveData", "lib/libsnmp/snmpmanager.py:snmpManager.handleV2Message"]}
{"id": "C47", "title": "Request fidelity end to end", "statement": "The octets put on the wire for a successful snmpGet decode, by an independent X.690 reading of the message, to version, community, request id, zero status and index, and one binding per requested identifier with a Null value.", "quantifier": "all identifiers, communities, ids", "why_tests_cant": "unbounded", "anchors": ["lib/libsnmp/v1.py:SNMP.createGetRequestMessage", "lib/libsnmp/v2.py:SNMP.createGetRequestMessage", "lib/libsnmp/snmpmanager.py:snmpManager.createGetRequestMessage"]}
{"id": "C48", "title": "Socket role life cycle", "statement": "read on a role manager with no open socket raises ValueError; send opens a socket first when none is open; after close no socket is open and close is idempotent; across any history send and read only ever touch the most recently opened socket. Calling open twice leaks the earlier socket (refuted: every opened socket is eventually closed by close; garbage collection closes it, C91).", "quantifier": "all operation sequences", "why_tests_cant": "unbounded histories", "anchors": ["lib/libsnmp/role.py:manager.open", "lib/libsnmp/role.py:manager.send", "lib/libsnmp/role.py:manager.read", "lib/libsnmp/role.py:manager.close"]}
{"id": "C49", "title": "Error handler outcome", "statement": "An exception escaping data handling is never absorbed by the error handler: a ValueError is re-delivered to receiveData, which raises it again, and any other exception is re-raised; so one bad datagram ends v1.SNMP.run and snmpManager.run.", "quantifier": "all exceptions and states", "why_tests_cant": "all exceptions", "anchors": ["lib/libsnmp/asynrole.py:Manager.handle_error", "lib/libsnmp/v1.py:SNMP.receiveData", "lib/libsnmp/snmpmanager.py:snmpManager.receiveData"]}
{"id": "C50", "title": "Error status text depends on history", "statement": "str() of an SNMPv1 ErrorStatus with code 0..5 always succeeds; with codes 6..18 it raises KeyError until the first SNMPv2 ErrorStatus has been constructed anywhere in the process (including by decoding an SNMPv2 response) and succeeds ever after; other codes always raise KeyError. ErrorStatus.enum always raises TypeError.", "quantifier": "all histories and codes", "why_tests_cant": "unbounded histories", "anchors": ["lib/libsnmp/rfc1157.py:ErrorStatus", "lib/libsnmp/rfc1905.py:ErrorStatus.__init__"]}
{"id": "C51", "title": "The SNMPv2 OctetString class cannot be constructed", "statement": "rfc1902.OctetString(value) never returns: it raises ValueError for more than 65535 characters and otherwise recurses into itself until RecursionError, for every recursion limit.", "quantifier": "all values and recursion limits", "why_tests_cant": "all limits", "anchors": ["lib/libsnmp/rfc1902.py:OctetString.__init__"]}
{"id": "C52", "title": "Encoding conforms to X.690", "statement": "The octets returned by encode() for any value whose fields are in the domain of the round-trip property are an encoding of that value according to an independent relation written from X.690 and the SNMP RFCs: right identifier octet, a legal definite length, shortest-form two's complement integers and shortest base-128 subidentifiers, components in order.", "quantifier": "all value trees of any shape and depth", "why_tests_cant": "unbounded trees; another implementation's view, not this library's own decoder", "anchors": ["lib/libsnmp/rfc1155.py:Asn1Object.encode", "lib/libsnmp/rfc1155.py:Integer.encodeContents", "lib/libsnmp/rfc1155.py:ObjectID.encodeContents", "lib/libsnmp/rfc1155.py:Sequence.encodeContents"]}
{"id": "C53", "title": "Interoperability of decoding", "statement": "Every legal BER encoding, by any sender (longer than necessary length forms, padded integers and subidentifiers included), of any value the library can read is decoded to exactly that value; hence no octet string is a legal encoding of two different readable values.", "quantifier": "all values and all of their encodings", "why_tests_cant": "unbounded values and infinitely many encodings of each", "anchors": ["lib/libsnmp/rfc1155.py:Asn1Object.decode", "lib/libsnmp/rfc1155.py:Asn1Object.decodeLength"]}
{"id": "C54", "title": "Printing received messages", "statement": "After any history of the process, str() of any message obtained from received octets either succeeds - exactly when every error status in it has code 0..5 (0..18 once an SNMPv2 ErrorStatus was made anywhere in the process) and every generic trap in it has code 0..6 - or raises KeyError; no other exception is possible. So a peer can make printing (and hence logging or displaying) its message fail. The text is determined: numbers in decimal, an error status as 'code: text', a generic trap as 'GenericTrap: n (name)', identifiers with leading dots, addresses dotted, sequences as '[a, b]', messages as '[version, community, pdu]'.", "quantifier": "all octet strings, nesting depths and process histories", "why_tests_cant": "unbounded messages and histories", "anchors": ["lib/libsnmp/rfc1157.py:Message.__str__", "lib/libsnmp/rfc1157.py:ErrorStatus.__str__", "lib/libsnmp/rfc1157.py:GenericTrap.__str__", "lib/libsnmp/rfc1155.py:Sequence.__str__"]}
{"id": "C55", "title": "Typed containers hold only their type", "statement": "A SequenceOf (and so a VarBindList) accepts a component, by append() or through its constructor, exactly when it is an instance of the component type or of a class derived from it, keeping the order; anything else is refused with ValueError and leaves the container as it was. Every false value makes the empty container; a value that is neither false nor a container of components is a TypeError. After any sequence of appends, refused or not, the container holds exactly the accepted components.", "quantifier": "all classes, values, containers and sequences of appends", "why_tests_cant": "unbounded sequences of calls and values of every class", "anchors": ["lib/libsnmp/rfc1155.py:SequenceOf.__init__", "lib/libsnmp/rfc1155.py:SequenceOf.append", "lib/libsnmp/rfc1157.py:VarBindList"]}
{"id": "C56", "title": "Every primitive contents has one outcome", "statement": "Decoding one object of a primitive kind from any contents octets, under any legal length form and any set of imported modules, gives exactly the value X.690 gives (with negative counters raised by 2^32) or exactly the documented exception: IndexError for an empty integer, ValueError for Null with contents and for an empty identifier, NotImplementedError for a first identifier octet of 128 or more, IndexError for a truncated subidentifier, ValueError for a kind whose module is not imported.", "quantifier": "all kinds, contents of any length, length forms and import configurations", "why_tests_cant": "infinitely many contents, one outcome each", "anchors": ["lib/libsnmp/rfc1155.py:Asn1Object.decode", "lib/libsnmp/rfc1155.py:Integer.decodeContents", "lib/libsnmp/rfc1155.py:Null.decodeContents", "lib/libsnmp/rfc1155.py:ObjectID.decodeContents"]}
{"id": "C57", "title": "Pre-encoded components", "statement": "Replacing any components of a sequence, at any depth, by str objects holding their encodings changes neither the encoding nor the exception; the contents of such a str are put on the wire unchecked. Consequently a str used as the value of a binding is not an OctetString: an empty one vanishes and the resulting message cannot be read back by this library.", "quantifier": "all value trees and all choices of components to replace", "why_tests_cant": "unbounded trees", "anchors": ["lib/libsnmp/rfc1155.py:Sequence.encodeContents", "lib/libsnmp/rfc1157.py:VarBind.__init__"]}
{"id": "C58", "title": "The queue-empty callback", "statement": "run() calls the callback given as queueEmpty exactly when it looks for a message to send and there is none (or when queue.Empty itself was raised by the socket or, in snmpManager, by a user callback, which loses that exception). It says nothing about answers: in every state with an empty queue and any number of pending requests it is called after at most one poll. In v1.SNMP and v2.SNMP it is called before polling, so if it never returns - as in the bundled snmpget programs, where it exits - run() never polls and no response or trap callback is ever called by run(), whatever arrives.", "quantifier": "all classes, histories, callbacks (returning, raising, re-entrant) and incoming traffic", "why_tests_cant": "a statement about every history of an event loop with arbitrary callbacks", "anchors": ["lib/libsnmp/v1.py:SNMP.run", "lib/libsnmp/snmpmanager.py:snmpManager.run", "snmpget-v2.py:whenDone"]}
{"id": "C59", "title": "Making traps from plain values", "statement": "createTrapPDU succeeds exactly when the version is known, an agent address is given, the enterprise and address can be read, both trap numbers are 32-bit and the uptime is below 2^32; it then returns a TrapPDU with exactly these fields, and through snmpTrap of v1.SNMP and v2.SNMP the octets sent are that trap. The default address always raises AttributeError; an uptime of 497 days or more always raises ValueError; an address given as an object is silently replaced by an empty one; bindings given as a plain list are queued but can never be sent.", "quantifier": "all arguments, uptimes and manager states", "why_tests_cant": "unbounded argument values; failure depends on the uptime of the machine", "anchors": ["lib/libsnmp/v1.py:SNMP.createTrapPDU", "lib/libsnmp/v2.py:SNMP.createTrap", "lib/libsnmp/snmpmanager.py:snmpManager.createTrapPDU", "lib/libsnmp/v1.py:SNMP.snmpTrap"]}
{"id": "C60", "title": "The Set frontend", "statement": "typeSetter accepts exactly the seven documented letters and gives the identifier octet of the documented type, KeyError otherwise. snmpset.py with i (any text int() reads in -2^31..2^31), s, o or a queues exactly the Set of that typed value for port 161 of the server; out-of-range or unreadable numbers are a ValueError and change nothing; with t, c or C every value is a TypeError. enterpriseOID prepends 1.3.6.1.2.1 (mib-2, not enterprises) to a dotted identifier, and its result is refused by ObjectID if the identifier starts with a dot.", "quantifier": "all texts, names, values and manager states", "why_tests_cant": "unbounded texts", "anchors": ["lib/libsnmp/snmpmanager.py:snmpManager.typeSetter", "lib/libsnmp/snmpmanager.py:snmpManager.enterpriseOID", "snmpset.py", "lib/libsnmp/snmpmanager.py:snmpManager.snmpSet"]}
{"id": "C61", "title": "Equality and hashing agree", "statement": "If two objects of the library compare equal and both can be hashed, their hashes are equal; only the Integer classes can be hashed.", "quantifier": "all pairs of values and every hash function on ints", "why_tests_cant": "all pairs of values", "anchors": ["lib/libsnmp/rfc1155.py:Integer.__hash__", "lib/libsnmp/rfc1155.py:Asn1Object.__eq__", "lib/libsnmp/rfc1155.py:Integer.__eq__"]}
{"id": "C62", "title": "Dumps and conversions lose nothing", "statement": "The hexadecimal dump of an OctetString has two characters per octet and can be read back; so can the octal dump (three columns per octet). Converting to an object identifier is injective within one type, but values of different types collide.", "quantifier": "all octet strings and values", "why_tests_cant": "unbounded strings", "anchors": ["lib/libsnmp/rfc1155.py:OctetString.__hex__", "lib/libsnmp/rfc1155.py:OctetString.__oct__", "lib/libsnmp/rfc1155.py:Integer.toObjectID", "lib/libsnmp/rfc1155.py:OctetString.toObjectID"]}
{"id": "C63", "title": "Request ids when several threads share a manager", "statement": "Under every interleaving the ids handed out are naturals below the number of calls begun; a thread that is not disturbed during a call gets exactly what a single-threaded program gets. No id is handed out twice provided that no two threads are inside assignRequestID at the same time. Without that proviso it is false: after one badly timed switch between threads (the increment is a load and a store) arbitrarily many ids are handed out again.", "quantifier": "every number of threads, all calls, every interleaving of their accesses to the manager", "why_tests_cant": "the set of schedules is infinite and the bad ones are rare", "anchors": ["lib/libsnmp/v1.py:SNMP.assignRequestID", "lib/libsnmp/snmpmanager.py:snmpManager.assignRequestID"]}
{"id": "C64", "title": "Answers and callbacks when several threads share a manager", "statement": "If assignRequestID is never run by two threads at once: a callback called for a response is the one given with the request that has this id; once a request method has returned, its callback stays registered until it has returned normally, and an answer received by whichever thread is given to it. Three natural expectations fail: before the method has returned the answer can be lost for good (the message is queued before the callback is registered); two threads receiving the same answer can both run its callback to a normal end; and with two threads in assignRequestID at once one request gets the answer of the other.", "quantifier": "every number of threads, all calls, datagrams and interleavings", "why_tests_cant": "races show only in particular schedules", "anchors": ["lib/libsnmp/v1.py:SNMP.snmpGet", "lib/libsnmp/v1.py:SNMP.receiveData", "lib/libsnmp/v2.py:SNMP.receiveData", "lib/libsnmp/snmpmanager.py:snmpManager.handleV1Message", "lib/libsnmp/snmpmanager.py:snmpManager.snmpGet"]}
{"id": "C65", "title": "The outbound queue under threads", "statement": "Under every interleaving of any number of threads queueing messages and running run(), the messages taken from the outbound queue followed by those still in it are exactly those queued, in the same order, each once; and the datagrams handed to the socket are the encodings of the messages taken, in that order.", "quantifier": "every number of threads, all calls, every interleaving", "why_tests_cant": "the set of schedules is infinite", "anchors": ["lib/libsnmp/v1.py:SNMP.run", "lib/libsnmp/snmpmanager.py:snmpManager.run", "lib/libsnmp/v1.py:SNMP.snmpGet"]}
{"id": "C66", "title": "The walk program", "statement": "snmpwalk.py asks for the identifier on the command line with a Get, and after each answer without error prints the first binding and sends a GetNext that carries the bindings of the answer, with the next id, for any number of answers; NoSuchObject and EndOfMibView end it, NoSuchInstance does not; an answer with an error status prints code and text and ends it; an unknown error code (KeyError) or an answer without bindings (IndexError) ends it. Between two outside events it always comes to rest, in one way only. Expectations that fail: it gives up, printing nothing, at the first poll without an answer and at any datagram that is not the answer; it cannot start at the root of a subtree; it does not notice an agent that never advances; a Counter64 in an answer makes the next request unreadable.", "quantifier": "all arguments, all agents: every sequence of datagrams, silences and socket errors, any number of answers", "why_tests_cant": "the sequence of answers is unbounded and chosen by the agent and by anybody who can send a datagram", "anchors": ["snmpwalk.py", "lib/libsnmp/snmpmanager.py:snmpManager.run", "lib/libsnmp/snmpmanager.py:snmpManager.snmpGetNext"]}
{"id": "C67", "title": "The get and set programs", "statement": "snmpget.py and snmpset.py send exactly one request, which on the wire is the Get or Set for the identifier, type letter (i, s, o, a) and value on the command line, print the first binding of the answer as \"name = type: (value) value\" (snmpget.py adds the octets of an OctetString in hexadecimal), or the error code and its text, and exit. Wrong arguments print the usage; a refused identifier, number or type ends the program by an exception before anything is sent; t, c and C are documented and always refused. Over the sockets of Python 3 every one of them ends by TypeError at the first send and never prints anything.", "quantifier": "all arguments, all answers, all runs", "why_tests_cant": "the answers and texts form infinite sets", "anchors": ["snmpget.py", "snmpset.py", "lib/libsnmp/snmpmanager.py:snmpManager.typeSetter"]}
{"id": "C68", "title": "The other programs", "statement": "traplistener.py prints for each SNMPv1 trap that arrives one line with enterprise, agent address, generic trap, its name, specific trap and time stamp, and one line per binding; no datagram ends it; a socket error does. Expectations that fail: it never prints an SNMPv2 trap or inform, and nothing at all over the sockets of Python 3; snmpget-v1.py and snmpget-v2.py end by TypeError when constructing the manager, with any arguments; trapsender.py ends by AttributeError without sending a trap.", "quantifier": "all arguments, all sequences of datagrams", "why_tests_cant": "a listener runs for ever and must survive everything that can be sent to it", "anchors": ["traplistener.py", "trapsender.py", "snmpget-v1.py", "snmpget-v2.py"]}
{"id": "C69", "title": "Several managers: making one and sending", "statement": "asynrole.Manager((callback, ctx)) with a non-callable callback or a sequence of another length raises ValueError, with a non-iterable TypeError, and then no socket was made and nothing was registered. If socket, bind or setsockopt fails the constructor raises that error and the manager is not served by any poll(), but a socket already created stays open (until the interpreter finalizes it, C91). Otherwise the new manager has an empty socket of its own and is served by every poll() of the process. send() passes the request and destination unchanged to one sendto on a socket the same manager opened, and raises what sendto raises; in no execution is anything sent through a socket of another manager.", "quantifier": "all numbers of managers, all histories of constructing, sending, polling, closing, callbacks and arrivals, all failures of the operating system", "why_tests_cant": "which socket a datagram leaves from depends on the history of opening and closing of all managers in the process", "anchors": ["lib/libsnmp/asynrole.py: Manager.__init__, Manager.send", "lib/libsnmp/role.py: manager.open, manager.send"]}
{"id": "C70", "title": "Several managers: delivery", "statement": "For every socket, what arrived is exactly what recvfrom answered on it, in order, followed by what the kernel still queues: nothing is lost, invented, repeated or reordered. Every datagram read is handed at once, unchanged, to the callback of the manager that made the socket, and no callback gets data from anywhere else. poll() of any one manager serves every manager that has something waiting, one datagram each. An exception (other than ValueError) in the callback of one manager, or an error of its socket, leaves the poll() of whichever manager called it, and the managers not yet served keep their data; a ValueError is given back to the callback that raised it and the others are served. If the second call of the callback (with the exception) raises in turn, that exception leaves the poll().", "quantifier": "all executions: any number of managers, any interleaving of arrivals with polls, sends and callbacks, any exceptions", "why_tests_cant": "the delivery guarantee is about every history of one process-wide map", "anchors": ["lib/libsnmp/asynrole.py: Manager.handle_read, Manager.handle_error, Manager.poll", "lib/libsnmp/role.py: manager.read"]}
{"id": "C71", "title": "Several managers: closing", "statement": "close() of one manager takes exactly that one out: the others stay registered with all their queued data, the closed one is never called with data again and each of its send() raises OSError. Closing it again, by close() or handle_close(), changes nothing. handle_close() does not do that: it leaves the descriptor in the map, and from then on every poll() of every manager raises OSError and no callback is called, until somebody calls close() or the kernel reuses the descriptor. send() after handle_close() opens a new socket, which is served only if the kernel gives it the same descriptor; otherwise every poll() raises OSError. Expectation that fails: close() after handle_close() can take another manager, which has got the descriptor meanwhile, out of the map, so its data are never read. A callback may call close() of any manager: if that one was ready but not yet served, its data stay unread and its callback is not called, and the others are still served in the same poll().", "quantifier": "all executions without / with handle_close(), all continuations", "why_tests_cant": "which manager goes deaf depends on descriptor reuse over the whole history", "anchors": ["lib/libsnmp/asynrole.py: Manager.handle_close", "lib/libsnmp/role.py: manager.close"]}
{"id": "C72", "title": "Several managers: poll() never hangs", "statement": "If handle_close() is never called and callbacks neither poll nor make managers, the process never waits in recvfrom, although the sockets are blocking. Expectations that fail: with two managers, a callback that calls poll() can leave the outer poll() waiting in recvfrom; so can a callback that closes a manager and makes a new one. While recvfrom waits nothing but an arrival can happen.", "quantifier": "all executions with any number of managers", "why_tests_cant": "absence of a hang over all histories and arrival times", "anchors": ["lib/libsnmp/asynrole.py: Manager.poll, Manager.handle_read", "lib/libsnmp/role.py: manager.open, manager.read"]}
{"id": "C73", "title": "Shared objects: what is sent", "statement": "snmpGet, and snmpManager.snmpSet with a value that is a number, str, None or an OBJECT IDENTIFIER, fix the request at the call: whatever the program does afterwards to the objects it passed, the octets sent are those of the request as it was called, provided it does not change the id object it got back. snmpGetNext and v1.snmpSet copy the list of bindings but share the VarBind objects: what is sent are their values at sending time. snmpTrap shares the whole PDU. A message is encoded when it is taken from the queue. Apart from append() and the .value of a message being sent, no method or constructor changes an existing object. Expectation that fails: the id returned is a value; it is the object inside the queued message, and changing it changes what is sent.", "quantifier": "all histories before the call, all later behaviour of user code (creating, reading, changing any object it can reach, further calls), all interleavings with sending and receiving", "why_tests_cant": "aliasing bugs show only for particular interleavings of mutation and sending; the claim is about all of them", "anchors": ["lib/libsnmp/v1.py: snmpGet, snmpGetNext, snmpSet, snmpTrap, run", "lib/libsnmp/v2.py: snmpGet, snmpTrap, run", "lib/libsnmp/snmpmanager.py: snmpGet, snmpGetNext, snmpSet, run", "lib/libsnmp/rfc1155.py: SequenceOf, ObjectID, OctetString", "lib/libsnmp/rfc1157.py: Message, PDU, VarBind, TrapPDU"]}
{"id": "C74", "title": "Shared objects: answers and registrations", "statement": "The message given to a callback consists of new objects only; no two deliveries share an object. If the callback does not change the message, its PDU or its request id, the registration dropped after it returns is the one of the answered request and no other. In v1 and v2 a registration stays, findable under its id, until that id is deleted, whatever user code does to objects; in snmpManager the same holds if user code does not change the id object it got back. Expectations that fail: a callback that changes the request id in its message makes the library drop the registration of another request; a program that changes the id object snmpManager.snmpGet returned loses the answer.", "quantifier": "all histories and all behaviour of user code, including nested calls and deliveries inside callbacks", "why_tests_cant": "the entry deleted depends on what happens to a shared object between the call of the callback and its return", "anchors": ["lib/libsnmp/v1.py: receiveData", "lib/libsnmp/v2.py: receiveData", "lib/libsnmp/snmpmanager.py: receiveData, handleV1Message, handleV2Message, snmpGet", "lib/libsnmp/rfc1155.py: Integer.__hash__, Integer.__eq__"]}
{"id": "C75", "title": "Mutable default arguments", "statement": "The lists that serve as default arguments of VarBindList, PDU, BulkPDU constructors are never changed and never become reachable for user code: two objects made without the argument have separate, empty lists.", "quantifier": "all histories of calls, constructions, appends and mutations", "why_tests_cant": "a default list that leaks is corrupted by an arbitrary later use", "anchors": ["lib/libsnmp/rfc1157.py: VarBindList.__init__, PDU.__init__", "lib/libsnmp/rfc1905.py: VarBindList.__init__, PDU.__init__, BulkPDU.__init__", "lib/libsnmp/rfc1155.py: SequenceOf.__init__, SequenceOf.append"]}
{"id": "C76", "title": "Objects and values", "statement": "A program that does not change the objects it hands to the manager or gets from it can think of them as values: every run of such a program, with all its sharing of objects, has the same observable effects - request ids, messages queued, octets sent and to whom, which callbacks run with which messages, exceptions - as the run in which each object is replaced by its value at the time of the call; and every run on values arises from objects. Constructors give an object of the value computed from the values of their arguments, or raise the same exception, and change nothing that exists.", "quantifier": "all runs of any length of the three manager classes: any calls with any argument objects that have a value, any sharing between them, receptions, sendings, nested callbacks returning or raising", "why_tests_cant": "two runs agree on all observations only if no step anywhere in them depends on identity or sharing; tests compare finitely many", "anchors": ["lib/libsnmp/v1.py", "lib/libsnmp/v2.py", "lib/libsnmp/snmpmanager.py", "lib/libsnmp/rfc1155.py: constructors", "lib/libsnmp/rfc1157.py: constructors", "lib/libsnmp/rfc1905.py: constructors"]}
{"id": "C77", "title": "Answers over an unreliable network", "statement": "If every datagram a manager reads was sent by an agent that answers requests with responses carrying the request id of the request - the network may lose, delay, repeat and reorder requests and answers at will - then a callback only ever runs for an answer to the very request it was passed to, and that answer comes from the address the request was sent to; the message it gets is the one the agent sent. While an agent stays silent no answer of any other agent makes the callback of a request to it run, and the request stays pending.", "quantifier": "all histories of the three manager classes of any length, any number of agents and outstanding requests, any interleaving of calls, sends, losses, duplicates, reordering, nested polls and callbacks that return or raise", "why_tests_cant": "loss, duplication and reordering of datagrams have unboundedly many schedules; the guarantee is about all of them", "anchors": ["lib/libsnmp/v1.py: snmpGet, snmpGetNext, snmpSet, receiveData, run", "lib/libsnmp/v2.py", "lib/libsnmp/snmpmanager.py", "lib/libsnmp/rfc1157.py: Message, PDU", "lib/libsnmp/rfc1155.py: encode, decode"]}
{"id": "C78", "title": "Traps from manager to manager", "statement": "A listening manager all whose datagrams come from one sending manager runs its trap callback only for traps that were passed to the sender's snmpTrap for that destination, never for one of its requests, and with the same PDU and community, however often and in whatever order the datagrams arrive. A trap sent by v1.SNMP reaches the trap callback of any listening manager, one sent by v2.SNMP that of v2.SNMP.", "quantifier": "all histories of a sender and a listener of any of the classes, any schedule of deliveries, all traps that can be written", "why_tests_cant": "all pairs of histories and all delivery schedules; and every trap value must survive encoding by one manager and decoding by another", "anchors": ["lib/libsnmp/v1.py: snmpTrap, createTrapMessage, receiveData", "lib/libsnmp/v2.py: snmpTrap, createTrapMessage, receiveData", "lib/libsnmp/snmpmanager.py: receiveData", "lib/libsnmp/rfc1157.py: TrapPDU, Message"]}
{"id": "C79", "title": "Encodings are short", "statement": "The octets encode() returns for a value are never more than twice as long as any other BER encoding of that value, and no encoding is shorter unless the value or a part of it has contents of exactly 127 octets: only there does the library spend a length octet more than BER needs.", "quantifier": "all values of every class, any size and nesting depth, and all BER encodings of them, shortest or padded", "why_tests_cant": "minimality compares one output with all other encodings of the same value", "anchors": ["lib/libsnmp/rfc1155.py: Asn1Object.encode, encodeLength, Integer.encodeContents, ObjectID.encodeContents, Sequence.encodeContents"]}
{"id": "C80", "title": "Walking an agent's table", "statement": "Run against an agent that answers Get and GetNext requests truthfully from a fixed table (RFC 1905), snmpwalk.py started at an object of that table prints the objects from there on, in lexicographic order, each exactly once and with its value, and then the end marker. Whatever the network loses, delays, repeats or the socket refuses, the output is at every moment a beginning of that text. If the network is perfect the program cannot stop early, and it can always get to the end, after at most two events per object. A lost datagram ends the walk with exit code 0, so the caller cannot tell a part from the whole.", "quantifier": "all tables whose values are of types the library re-encodes correctly, all start objects, communities and servers, all sequences of losses, delays, duplicates and socket errors", "why_tests_cant": "the table and the history of the network are unbounded; a test walks one table over one network", "anchors": ["snmpwalk.py:checkResponse, unwrapVarBinds", "lib/libsnmp/snmpmanager.py:snmpManager.run, receiveData, snmpGet, snmpGetNext"]}
{"id": "C81", "title": "What snmpset.py sets, snmpget.py reads", "statement": "When its one exchange with a truthful agent is over, snmpset.py has printed the binding exactly if the agent now has the value, and otherwise the error code with its text, nothing having changed; snmpget.py prints the value the agent has, or the marker that there is none. So after a snmpset.py without error the next snmpget.py for the same object prints the value that was given to snmpset.py, however the name was written.", "quantifier": "all objects and values of the types i, s, o, a, all agents' tables and decisions, all communities and spellings of the name", "why_tests_cant": "it relates two runs of two programs through the state of an agent, for every value and every table", "anchors": ["snmpset.py", "snmpget.py", "lib/libsnmp/snmpmanager.py:snmpManager.run, snmpSet, snmpGet, typeSetter"]}
{"id": "C82", "title": "Managers in one process do not mix up their requests", "statement": "Any number of v1.SNMP, v2.SNMP and snmpManager objects live in one process and share asyncore's map, so that poll() and run() of one serve the sockets of all. Still each manager has a history and a state it could have had alone, with the datagrams of its own sockets and the calls made on it: its ids are its own 0, 1, 2, ..., its queue is first-in first-out, and its response callbacks are called only with a message carrying the id of an earlier request made on this very manager with this callback, decoded from a datagram read from a socket this manager made - although other managers use the same ids at the same time - and not again after a normal return. Every datagram that leaves the process leaves through a socket of the manager whose run() took the message.", "quantifier": "all numbers and kinds of managers, all interleavings of calls, polls, runs, arrivals, closings and callbacks (which may re-enter any manager to any depth), all socket errors", "why_tests_cant": "it quantifies over all interleavings of any number of managers; tests use one", "anchors": ["lib/libsnmp/asynrole.py: Manager.poll, handle_read, handle_error", "lib/libsnmp/v1.py: SNMP.__init__, run, receiveData", "lib/libsnmp/v2.py: SNMP.receiveData", "lib/libsnmp/snmpmanager.py: snmpManager.__init__, run, receiveData"]}
{"id": "C83", "title": "Behind agents, every callback of every manager gets the answer to its own request", "statement": "If whatever arrives at the sockets of a manager answers a request that this manager sent before to the address it comes from, then each response callback is called only with an answer to the request it was registered with, from the destination that request was sent to - also when other managers with the same ids poll, and when answers are late, repeated, or reordered.", "quantifier": "all histories of all managers of a process, all agents, delays, losses and duplicates", "why_tests_cant": "needs the combination of wire format, id allocation and dispatch over all histories of several managers", "anchors": ["lib/libsnmp/asynrole.py: Manager.poll, handle_read, handle_error", "lib/libsnmp/v1.py: SNMP.__init__, run, receiveData", "lib/libsnmp/v2.py: SNMP.receiveData", "lib/libsnmp/snmpmanager.py: snmpManager.__init__, run, receiveData", "lib/libsnmp/rfc1157.py: Message.decode"]}
{"id": "C84", "title": "An exception of one manager ends run() of another", "statement": "run() of a manager ends with an exception that a callback of any v1.SNMP or snmpManager in the process raises while it polls (SystemExit: of any manager), and with the exception receiveData of any manager raises at an undecodable or unexpected datagram; nothing else changes: no request is given up and no queue is touched. A v2.SNMP shields the others from its callbacks. So two octets of garbage sent to one manager's port end the main loop of another manager, whose queued request is never sent. Nothing else ends a run() or poll(): besides that, only what send() or encoding a queued message has just raised, what the queueEmpty callback raises, AttributeError for a queued None, and TypeError when queueEmpty is not callable; and run() never returns normally.", "quantifier": "all states in which run() of one manager polls, all managers, exceptions and datagrams", "why_tests_cant": "it is about the interaction of any two managers in any reachable state", "anchors": ["lib/libsnmp/asynrole.py: Manager.poll, handle_read, handle_error", "lib/libsnmp/v1.py: SNMP.__init__, run, receiveData", "lib/libsnmp/v2.py: SNMP.receiveData", "lib/libsnmp/snmpmanager.py: snmpManager.__init__, run, receiveData"]}
{"id": "C85", "title": "The library never gets stuck", "statement": "In every reachable state of a process with any number of managers, either user code runs, or recvfrom waits for a datagram, or the library has a next step whatever the kernel answers. If nobody calls handle_close() and response and trap callbacks neither poll, run nor make managers, it never waits in recvfrom. A callback that polls can make it wait, with two managers and one answer each.", "quantifier": "all reachable states, all answers of the kernel", "why_tests_cant": "absence of stuck states and of blocking needs an invariant over all histories", "anchors": ["lib/libsnmp/asynrole.py: Manager.poll, handle_read, handle_error", "lib/libsnmp/v1.py: SNMP.__init__, run, receiveData", "lib/libsnmp/v2.py: SNMP.receiveData", "lib/libsnmp/snmpmanager.py: snmpManager.__init__, run, receiveData", "lib/libsnmp/role.py: manager.read"]}
{"id": "C86", "title": "A closed manager is silent for good, and only that manager", "statement": "After close() of one manager of a process, called from anywhere where user code runs, no callback of it is called any more and nothing is sent by it (run() on it ends with OSError at the first request it takes, unless it catches that exception); close() itself changes no manager's queue, ids or callbacks, leaves the other managers registered with asyncore, and their waiting datagrams go on waiting. This holds as long as nobody calls handle_close().", "quantifier": "all reachable states of a process with any number of managers, all points where close() is called (also inside callbacks during a poll), all continuations", "why_tests_cant": "it quantifies over all continuations after the closing and all interleavings with other managers", "anchors": ["lib/libsnmp/role.py: manager.__init__, send", "lib/libsnmp/asynrole.py: manager", "lib/libsnmp/v1.py: SNMP.run, receiveData", "lib/libsnmp/v2.py: SNMP.receiveData", "lib/libsnmp/snmpmanager.py: snmpManager.run, receiveData"]}
{"id": "C87", "title": "What waits is delivered by the next poll of any manager, and what is queued is sent", "statement": "In a process with any number of managers: if the datagrams waiting at the sockets answer pending requests, one poll() of any manager - or one round of its run() - delivers all of them, each to the callback given with the request it answers, with the answer that is on the wire, and returns; exactly those requests stop being pending and nothing else changes. A message that run() takes from the queue of a manager with an open socket leaves through a socket of that manager. So a request made by one manager, followed by its run() and the arrival of an answer, calls the callback exactly once and does nothing to the other managers.", "quantifier": "all reachable states of a process with any number of managers of the three kinds (nobody having called handle_close()), all points where user code can call poll() or run(), all datagrams and all requests", "why_tests_cant": "it quantifies over all reachable states of the whole process and all wire forms of the answers", "anchors": ["lib/libsnmp/asynrole.py: manager.poll, handle_read", "lib/libsnmp/role.py: manager.send, run", "lib/libsnmp/v1.py: SNMP.run, receiveData", "lib/libsnmp/v2.py: SNMP.receiveData", "lib/libsnmp/snmpmanager.py: snmpManager.run, receiveData"]}
{"id": "C88", "title": "Threads that poll concurrently share all managers, and lose nothing", "statement": "Any number of threads of a process make, close and poll asynrole managers, interleaving anyhow. Every datagram is read exactly once, in order of arrival per socket, by some thread, and that thread hands it at once to the callback of the manager whose socket it is; no callback gets a datagram that was not read from a socket of its manager. An exception of a callback comes out of the poll() that called it (a ValueError only after the callback has been told), and poll() raises nothing else but errors of recvfrom, and OSError when some manager has been closed. A poll() that returns has seen to it that the first datagram waiting at any listening manager has been read, by itself or another thread. close() may be called again, from any thread and at any time later, and then changes nothing - not even when the kernel has reused the descriptor. With one poll() at a time callbacks come in order of arrival and never overlap; without that they can overlap, come in another order, and in any case run in any thread that polls any manager.", "quantifier": "all interleavings of any number of threads, at the granularity of single accesses to shared state, all arrivals, all user code that makes, closes and polls managers, and all results of callbacks", "why_tests_cant": "it quantifies over all schedules of all threads", "anchors": ["lib/libsnmp/asynrole.py: manager.poll, handle_read, handle_error, __init__", "lib/libsnmp/role.py: manager.read"]}
{"id": "C89", "title": "When a thread can hang in poll()", "statement": "A thread inside poll() can always go on, unless it waits in the blocking recvfrom at a socket where nothing is queued; the next datagram there releases it. If poll() is called and managers are made only while no thread is polling this never happens; if only poll() is guarded, or nothing is, it can. A poll() whose callbacks do not poll takes a bounded number of steps of its thread (linear in the number of listening managers), whatever the other threads do.", "quantifier": "all interleavings of any number of threads, all arrivals and all user code that makes, closes and polls managers", "why_tests_cant": "it quantifies over all schedules of all threads", "anchors": ["lib/libsnmp/asynrole.py: manager.poll, handle_read, handle_error, __init__", "lib/libsnmp/role.py: manager.read"]}
{"id": "C90", "title": "The time stamp of traps", "statement": "The time stamp createTrapPDU puts into a trap is the uptime /proc/uptime reports, in hundredths of a second, or one hundredth less (the conversion goes through a float); it is exact at whole seconds and never goes back while the uptime does not. Whatever the file says: if its first word is a number in Python's syntax (sign, point, exponent, underscores between digits) the time stamp is that number as a double, times 100 as a double, cut off; if it cannot be read, is blank or begins with anything else it is 0; nothing is ever raised. Expectation that fails: it is not always exact (0.29 s gives 28), and after 497 days no trap can be made any more: ValueError.", "quantifier": "all contents of /proc/uptime, all uptimes below 2^51 hundredths, all arguments of createTrapPDU", "why_tests_cant": "rounding errors of the float conversion occur at a few of billions of values", "anchors": ["lib/libsnmp/v1.py: SNMP.getSysUptime, createTrapPDU", "lib/libsnmp/snmpmanager.py: snmpManager.getSysUptime, createTrapPDU"]}
{"id": "C91", "title": "Garbage collection", "statement": "Whenever the interpreter drops a manager the library does not refer to, or finalizes a socket nobody refers to, nothing visible changes: no event, no other manager, no queued datagram. An asynrole.Manager that was made and not closed is never dropped, even if user code forgot it: asyncore still refers to it and every poll() still serves it. Delivery and sending (C69, C70) hold in all executions with collection at any moments. No descriptor is lost for good: an open socket belongs to a registered manager or may be finalized, and the finalizer only ever has to close sockets whose constructor failed. role.manager.__del__ closes the current socket and nothing else, whatever close() answers, and after the finalizers of the sockets open() had leaked (C48) every socket made is closed, each once.", "quantifier": "all numbers of managers, all histories without handle_close() (for the last claims and those on staying; delivery and sending: all histories), all moments of collection, all failures of the operating system", "why_tests_cant": "when objects are collected is up to the interpreter", "anchors": ["lib/libsnmp/role.py: manager.__del__, manager.close", "lib/libsnmp/asynrole.py: Manager"]}
{"id": "C92", "title": "Command lines and exit status", "statement": "A first word that begins with \"-\" (and is not \"-\" or \"--\") ends every bundled program with status 1 before anything happens; \"--\" in the first place is taken away; later words reach the program as typed, so negative numbers can be set. Command line and outside events determine output, datagrams and status, which is 0 or 1. snmpget.py and snmpset.py end with 0 after an answer, snmpwalk.py at the end of the walk. Status 1 follows every exception that ends a program (bad identifier, port taken, ...) and the usage line. Expectations that fail: status 0 does not mean success, for an answer with an error and no answer at all also give 0; snmpget-v1.py, snmpget-v2.py and trapsender.py always give 1.", "quantifier": "all programs, all command lines, all sequences of datagrams, silences and socket errors", "why_tests_cant": "scripts decide by the status, and the agent decides how a run goes", "anchors": ["snmpget.py", "snmpwalk.py", "snmpset.py", "snmpget-v1.py", "snmpget-v2.py", "traplistener.py", "trapsender.py"]}
{"id": "C93", "title": "What decoding builds is bounded by what it reads", "statement": "Whatever lengths a datagram claims: each object decode() returns, at any depth, has taken two octets of its own, each integer a third, each character of a string and each component of an identifier but the first one more; so the whole result is no bigger than the datagram, and so is a decoded message. Every integer decoded from n octets is below 256^(n-2) in absolute value (or 2^32), every component below 128^(n-2). Therefore nothing in a datagram of up to 1787 octets meets the limit of 4300 digits for turning integers into text; expectation that fails: an integer of 1790 octets does.", "quantifier": "all octet strings, all registries and nesting limits", "why_tests_cant": "datagrams are chosen by anybody", "anchors": ["lib/libsnmp/rfc1155.py: Asn1Object.decode, Integer.decodeContents, ObjectID.decodeContents", "lib/libsnmp/rfc1157.py: Message.decode, PDU.decodeContents"]}
{"id": "C94", "title": "Messages that stop early are taken for whole", "statement": "Every encoding that stops inside the contents of a number (after an octet of it), of a string or of an identifier (between subidentifiers), or between the components of a sequence, at any depth, with all length fields promising more, is decoded without complaint, as if the octets that are there had been meant to be all: a string is shorter, a number is divided by a power of 256, bindings are missing. So an answer that was cut off is accepted as the answer: the pending request with its id gets its callback, with what is left. Nothing else is accepted: of a request or answer that stops early only what keeps version, community, kind of PDU, id and the two numbers after it, and all bindings but the last ones that are missing, the last one left perhaps with a shorter value. (The expectation that a truncated message is refused fails.)", "quantifier": "all encodings (shortest or padded, any legal length fields) of all readable values and messages, all places to stop at, all manager states and transports", "why_tests_cant": "datagrams are cut by buffers and networks at any point; no finite set of cuts covers all messages", "anchors": ["lib/libsnmp/rfc1155.py: Asn1Object.decode, Asn1Object.decodeLength, Integer.decodeContents, OctetString.decodeContents, ObjectID.decodeContents, Sequence.decodeContents", "lib/libsnmp/rfc1157.py: Message.decode, PDU.decodeContents", "lib/libsnmp/v1.py: SNMP.receiveData", "lib/libsnmp/v2.py: SNMP.receiveData", "lib/libsnmp/snmpmanager.py: snmpManager.receiveData"]}
