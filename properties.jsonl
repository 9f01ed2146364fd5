{"id": "C01", "title": "Cursor never leaves the buffer", "statement": "Whatever sequence of DnsBuffer calls a user makes (advance, set_position, peek/extract bytes, integers, character strings, strings, names), as long as no call asks for more than isize::MAX bytes the bytes of the buffer never change and position() stays <= the buffer length, so remaining() is exactly length - position().", "quantifier": "every byte buffer, every finite history of buffer calls with any arguments up to isize::MAX, successful or failing", "why_tests_cant": "an invariant over all call histories and all buffer contents; tests exercise a handful of short sequences", "anchors": ["src/buffer.rs: DnsBuffer::{sub_buffer,remaining,position,set_position,advance,peek_bytes,extract_bytes,extract_u8,extract_u16,extract_u32,extract_u16_as,extract_character_string,extract_string,extract_fqdn}"]}
{"id": "C02", "title": "Extraction returns exactly the next bytes or fails without moving", "statement": "extract_bytes(n)/advance(n)/extract_u8/u16/u32 succeed iff n bytes remain; on success they return exactly the next n bytes (integers: their big-endian value) and move the position by exactly n; on failure they return LengthViolation and the position does not move. set_position goes to any place inside the buffer, from wherever the cursor stands, and to no other.", "quantifier": "every buffer, every position, every n up to isize::MAX", "why_tests_cant": "boundary condition over all lengths and positions; the off-by-one cases are infinitely many", "anchors": ["src/buffer.rs: DnsBuffer::{advance,peek_bytes,extract_bytes,extract_u8,extract_u16,extract_u32}"]}
{"id": "C03", "title": "Huge lengths never move the cursor backwards or crash", "statement": "advance, sub_buffer, peek_bytes and extract_bytes called with any usize (including values near usize::MAX) return an error instead of panicking, wrapping the position or producing a buffer whose position exceeds its length.", "quantifier": "every buffer, every usize argument, overflow checks on or off", "why_tests_cant": "needs reasoning about 64-bit wrap-around for every position/argument pair in both build profiles", "anchors": ["src/buffer.rs: DnsBuffer::{sub_buffer,advance,peek_bytes,extract_bytes}"]}
{"id": "C04", "title": "A sub-buffer confines reads", "statement": "A parser handed buffer.sub_buffer(len) can never observe a byte past position+len: the record data that is parsed is a function only of the message bytes up to the end of the RDLENGTH window, whatever follows.", "quantifier": "every record type, every message, every pair of messages that agree up to the end of the window", "why_tests_cant": "a two-run (non-interference) property over all messages and all record types", "anchors": ["src/buffer.rs: DnsBuffer::sub_buffer", "src/resource.rs: ResourceRecord::try_from", "src/rdata/mod.rs: RecordData::from"]}
{"id": "C05", "title": "Names read back as written (uncompressed)", "statement": "For a FQDN whose labels are each 1..=63 bytes (in fact 1..=191), writing to_bytes() anywhere in a message and calling extract_fqdn at that place returns the same FQDN and leaves the position right behind it.", "quantifier": "every list of label byte strings of legal size, every surrounding message content", "why_tests_cant": "all label contents and all contexts", "anchors": ["src/fqdn.rs: ByteConvertible for FQDN::to_bytes", "src/buffer.rs: DnsBuffer::extract_fqdn"]}
{"id": "C06", "title": "FQDN::byte_size equals the number of bytes written", "statement": "FQDN::byte_size() equals to_bytes().len() for every FQDN that can be built, including ones with empty or oversized labels.", "quantifier": "every FQDN value", "why_tests_cant": "all label lists", "anchors": ["src/fqdn.rs: FQDN::byte_size, FQDN::to_bytes"]}
{"id": "C07", "title": "extract_fqdn decodes exactly the RFC 1035 name at the cursor", "statement": "extract_fqdn succeeds with labels L and new position e iff the message, read per RFC 1035 4.1.4 from the cursor (label lengths up to 191, pointers restricted to offsets not after the first pointer met), spells L, and e is the offset right after the first terminator or right after the first pointer.", "quantifier": "every message, every cursor position, every label list", "why_tests_cant": "soundness and completeness of the decompressor over all byte strings", "anchors": ["src/buffer.rs: DnsBuffer::extract_fqdn", "src/lib.rs: COMPRESSION_MASK, COMPRESSION_MASK_U16"]}
{"id": "C08", "title": "Name extraction always terminates", "statement": "extract_fqdn returns (with a name or an error) on every input; no message can make it loop forever or consume unbounded memory.", "quantifier": "every message, every cursor position", "why_tests_cant": "termination over all pointer graphs", "anchors": ["src/buffer.rs: DnsBuffer::extract_fqdn"]}
{"id": "C09", "title": "Name extraction never panics", "statement": "extract_fqdn returns an error, never panics, on truncated or malformed names.", "quantifier": "every message, every cursor position", "why_tests_cant": "absence of out-of-bounds access for every byte string", "anchors": ["src/buffer.rs: DnsBuffer::extract_fqdn"]}
{"id": "C10", "title": "Text form of names is stable", "statement": "FQDN::new drops empty labels only: no label of FQDN::new(s) is empty or contains a dot, to_string() is the labels joined by dots, and FQDN::new(n.to_string()) == n for every name built by FQDN::new; leading, trailing and doubled dots in s make no difference.", "quantifier": "every string", "why_tests_cant": "all strings", "anchors": ["src/fqdn.rs: FQDN::new, Display for FQDN, From<&str> for FQDN"]}
{"id": "C11", "title": "Name predicates mean what they say", "statement": "is_root() holds iff the name has no non-empty label iff to_bytes() is the single byte 0; is_link_local() holds iff the last label is exactly the bytes \"local\"; label_count() is the number of labels for up to 255 labels; is_empty() is true iff the name has no labels.", "quantifier": "every FQDN value", "why_tests_cant": "all names", "anchors": ["src/fqdn.rs: FQDN::{is_root,is_empty,len,label_count,is_link_local,append_label}"]}
{"id": "C12", "title": "Displayed names are valid text", "statement": "to_string() of any FQDN, including one parsed from the wire, is valid UTF-8 (the unsafe from_utf8_unchecked is justified).", "quantifier": "every FQDN obtainable by parsing a message or from a string", "why_tests_cant": "all label byte strings reachable from the network", "anchors": ["src/fqdn.rs: Display for FQDN", "src/buffer.rs: DnsBuffer::extract_fqdn"]}
{"id": "C13", "title": "Compressed names read back as written", "statement": "Serialising a sequence of names with one shared compression dictionary into one message and extracting them again yields the same names, and every pointer emitted refers strictly backwards, provided labels are 1..=191 bytes, the message stays within 16384 bytes, and the 64-bit suffix hash does not collide on the suffixes present.", "quantifier": "every sequence of names, every message content written in between", "why_tests_cant": "all sharing patterns of suffixes and all offsets", "anchors": ["src/fqdn.rs: CompressedByteConvertible for FQDN::to_bytes_compressed", "src/util.rs: hash_fqdn", "src/buffer.rs: DnsBuffer::extract_fqdn"]}
{"id": "C14", "title": "Compression is safe without side conditions", "statement": "A compressed message decodes to the names that were put in, for every message size, every label and every hash function behaviour.", "quantifier": "every packet, every hash function", "why_tests_cant": "offsets beyond 14 bits, empty labels and hash collisions are exactly the inputs nobody tests", "anchors": ["src/fqdn.rs: to_bytes_compressed", "src/packet.rs: Packet::to_bytes_compressed"]}
{"id": "C15", "title": "Compression never makes a name longer, and its size prediction is exact", "statement": "The compressed form of a name is at most as long as its uncompressed form (labels non-empty), and the compressed size computed in advance equals the number of bytes the compressed form has, for the same dictionary.", "quantifier": "every name, every dictionary state, every offset", "why_tests_cant": "all dictionaries and names", "anchors": ["src/fqdn.rs: byte_size_compressed, to_bytes_compressed", "src/byteconvertible.rs: CompressedByteConvertible"]}
{"id": "C16", "title": "Header round-trips bit-exactly", "statement": "Parsing any 12 header bytes and serialising the result gives the same 12 bytes, and parsing the serialisation of any Header gives the same Header; the layout is RFC 1035 4.1.1.", "quantifier": "all 2^96 headers", "why_tests_cant": "state space of 96 bits", "anchors": ["src/header.rs: Header::try_from, Header::to_bytes, FlagBitfield"]}
{"id": "C17", "title": "Header setters are independent and observable", "statement": "After set_f(v) the getter of f returns v and every other field is unchanged, except for the documented couplings: set_query_response(false) clears recursion-available and the response code; set_response_code(non-NoError) and set_recursion_available(true) turn the header into a response. The reserved bits, id and counts are never touched by flag setters.", "quantifier": "every header value and every setter/value pair, hence every setter history", "why_tests_cant": "interaction of bit fields over all 2^96 states", "anchors": ["src/header.rs: Header::{set_*,query_response,opcode,authoritative_answer,truncation,recursion_desired,recursion_available,response_code}"]}
{"id": "C18", "title": "Reading flags of a received header never panics", "statement": "All flag getters of a Header parsed from the network return normally.", "quantifier": "all headers", "why_tests_cant": "needs every rcode/opcode bit pattern", "anchors": ["src/header.rs: Header::response_code, OpCode::from, ResponseCode::try_from"]}
{"id": "C19", "title": "Record and query type codes are a faithful numbering", "statement": "For record types and query types: converting a type to u16 and back yields the type, converting a u16 to a type and back yields the u16, and distinct types have distinct codes; the numbers are the IANA ones.", "quantifier": "every type, every u16, every feature configuration", "why_tests_cant": "65536 codes times 4 configurations, plus injectivity", "anchors": ["src/resource.rs: RecordType, TryFrom<u16> for RecordType", "src/question.rs: QType, TryFrom<u16> for QType"]}
{"id": "C20", "title": "Class codes are a faithful numbering modulo the mDNS bit", "statement": "QClass::try_from(n) and RecordClass::from(n) ignore bit 15; converting a class to u16 and back yields the class for every class below 0x8000 that is not an alias; u16 -> RecordClass -> u16 clears only bit 15.", "quantifier": "every u16, every class value", "why_tests_cant": "all codes and payload sizes", "anchors": ["src/question.rs: QClass", "src/resource.rs: RecordClass"]}
{"id": "C21", "title": "Every other coded field is a faithful numbering", "statement": "Each enumerated field (SSHFP/IPSECKEY algorithm, fingerprint type, certificate usage, selector, matching type, TKEY mode and error, TSIG error, DHCID identifier type, SVCB keys, NAPTR flags, APL families, CSYNC flags, DNSSEC algorithm, digest type, opcode, response code) converts to its wire code and back without change, rejects unknown codes with an error, and distinct values have distinct codes.", "quantifier": "every value of each enumeration and every code", "why_tests_cant": "exhaustiveness and injectivity over all codes", "anchors": ["src/rdata/*.rs enumerations", "src/header.rs: OpCode, ResponseCode"]}
{"id": "C22", "title": "Questions round-trip", "statement": "Question::try_from(to_bytes(q)) returns q, consuming exactly byte_size() bytes, in any message context, with and without the mdns feature (where the unicast-response bit is preserved).", "quantifier": "every question with legal labels and a decodable type, every context, both feature settings", "why_tests_cant": "all names/types/classes/contexts", "anchors": ["src/question.rs: Question::{try_from,to_bytes,byte_size}"]}
{"id": "C23", "title": "Record data round-trips", "statement": "For each record type, parsing the serialisation of a well-formed value returns that value.", "quantifier": "every record type and every well-formed value of its fields", "why_tests_cant": "unbounded field contents for ~40 types", "anchors": ["src/rdata/*.rs: TryFrom<&mut DnsBuffer>, ByteConvertible::to_bytes", "src/rdata/mod.rs: RecordData::{from,to_bytes}"]}
{"id": "C24", "title": "byte_size of record data equals the bytes written", "statement": "RecordData::byte_size() == RecordData::to_bytes().len(), as documented on ByteConvertible.", "quantifier": "every record data value", "why_tests_cant": "all values of ~40 types", "anchors": ["src/byteconvertible.rs: ByteConvertible::byte_size", "src/rdata/*.rs: byte_size/to_bytes"]}
{"id": "C25", "title": "RDLENGTH frames the record data", "statement": "The RDLENGTH written by ResourceRecord::to_bytes (and by the compressed form) equals the number of RDATA bytes that follow, whenever that number fits 16 bits.", "quantifier": "every record", "why_tests_cant": "all record values", "anchors": ["src/resource.rs: ResourceRecord::{to_bytes,to_bytes_compressed}"]}
{"id": "C26", "title": "Resource records round-trip", "statement": "Parsing ResourceRecord::to_bytes() (or its compressed form) in any message context returns the same record and leaves the cursor right behind it.", "quantifier": "every well-formed record whose type matches its data, every context, every feature configuration", "why_tests_cant": "all records and contexts", "anchors": ["src/resource.rs: ResourceRecord::{try_from,to_bytes,to_bytes_compressed}"]}
{"id": "C27", "title": "A parsed record's data matches its type, and parsing consumes exactly the framed bytes", "statement": "If ResourceRecord::try_from succeeds, the RecordData variant is the one named by the record type, and the cursor has moved over the owner name, the 10 fixed bytes and exactly RDLENGTH bytes, no matter how many of them the type-specific parser looked at.", "quantifier": "every message, every cursor position, every type", "why_tests_cant": "all messages", "anchors": ["src/resource.rs: ResourceRecord::try_from", "src/rdata/mod.rs: RecordData::from"]}
{"id": "C28", "title": "Packets round-trip (uncompressed)", "statement": "Packet::try_from(packet.to_bytes()) returns the packet (with its counts equal to the section lengths).", "quantifier": "every well-formed packet with up to 65535 entries per section", "why_tests_cant": "unbounded sections and contents", "anchors": ["src/packet.rs: Packet::{to_bytes,try_from}"]}
{"id": "C29", "title": "Packets round-trip (compressed)", "statement": "Packet::try_from(packet.to_bytes_compressed()) returns the packet, provided the header counts equal the section lengths, the message has at most 16384 bytes and suffix hashes do not collide.", "quantifier": "every well-formed packet", "why_tests_cant": "all sharing patterns across questions, owner names and RDATA names", "anchors": ["src/packet.rs: Packet::{to_bytes_compressed,try_from}"]}
{"id": "C30", "title": "Compressed and plain forms say the same", "statement": "A packet's compressed and uncompressed serialisations parse to equal packets, and the compressed one is never longer.", "quantifier": "every well-formed packet", "why_tests_cant": "relational property over all packets", "anchors": ["src/packet.rs: Packet::{to_bytes,to_bytes_compressed,try_from}"]}
{"id": "C31", "title": "Packet::byte_size equals the bytes written", "statement": "Packet::byte_size() == Packet::to_bytes().len().", "quantifier": "every packet", "why_tests_cant": "all packets", "anchors": ["src/packet.rs: Packet::{byte_size,to_bytes}", "src/question.rs: Question::byte_size", "src/resource.rs: ResourceRecord::byte_size"]}
{"id": "C32", "title": "Header counts track the sections through any API history", "statement": "After any sequence of Packet constructor, add_*, set_*, take_* calls, header counts equal the section lengths (as long as no section exceeds 65535 entries).", "quantifier": "every finite history of API calls", "why_tests_cant": "an invariant over all call histories", "anchors": ["src/packet.rs: Packet::{new_query,new_reply,with_questions,add_question,add_answer,add_authority,add_additional,set_*,take_*,questions_mut,set_header}"]}
{"id": "C33", "title": "Serialised counts are the true counts", "statement": "The four counts in the bytes produced by Packet::to_bytes equal the numbers of entries serialised (modulo 65536), whatever the header says; to_bytes_compressed writes counts equal to the numbers of entries serialised.", "quantifier": "every packet, consistent or not", "why_tests_cant": "all packets including those with inconsistent headers", "anchors": ["src/packet.rs: Packet::{to_bytes,to_bytes_compressed}"]}
{"id": "C34", "title": "Packet parsing lays out the sections as the header says", "statement": "If Packet::try_from succeeds, each section has exactly the announced number of entries, entries occupy consecutive disjoint byte ranges from offset 12 on in order question/answer/authority/additional, and the header is the first 12 bytes.", "quantifier": "every message", "why_tests_cant": "all messages", "anchors": ["src/packet.rs: Packet::try_from"]}
{"id": "C35", "title": "Trailing bytes do not matter", "statement": "If Packet::try_from(d) succeeds then Packet::try_from(d ++ junk) succeeds with the same packet.", "quantifier": "every message and every trailing byte string", "why_tests_cant": "two-run property over all messages", "anchors": ["src/packet.rs: Packet::try_from", "src/buffer.rs"]}
{"id": "C36", "title": "Packet parsing never panics and always terminates", "statement": "Packet::try_from returns Ok or Err on every byte string.", "quantifier": "every byte string, every feature set, both build profiles", "why_tests_cant": "all inputs", "anchors": ["src/packet.rs: Packet::try_from", "src/buffer.rs: extract_fqdn", "src/rdata/svcb.rs: Param::try_from", "src/rdata/csync.rs, src/rdata/dnssec.rs: bitmap parsing"]}
{"id": "C37", "title": "Serialising a parsed packet preserves it", "statement": "If Packet::try_from(d) = Ok(p) then p can be serialised and parsing that gives p again.", "quantifier": "every accepted message", "why_tests_cant": "closes the loop over all accepted messages", "anchors": ["src/packet.rs", "src/resource.rs", "src/rdata/*.rs"]}
{"id": "C38", "title": "RRset canonical form does not depend on insertion order", "statement": "ResourceRecordSet::to_bytes() lists one full RR per record, sorted by RDATA as unsigned octet strings, and is the same for every order in which the records were pushed; canonical_reorder sorts the records, keeps all of them and does not change to_bytes().", "quantifier": "every list of record data and every permutation of it", "why_tests_cant": "all permutations of all record lists", "anchors": ["src/resource_record_set.rs: ResourceRecordSet::{canonical_reorder,to_bytes,byte_size}"]}
{"id": "C39", "title": "A signature made with the library verifies", "statement": "For every RRset, validity interval and key pair, Rrsig::verify of the Rrsig produced by Rrsig::from_dnskey feeds the signature primitive the same octets that were signed, so with a correct signature primitive verification succeeds; a verification succeeds only over those octets.", "quantifier": "every RRset, key, time interval, algorithm", "why_tests_cant": "universally quantified over keys and data; relies on canonical bytes being equal on both sides", "anchors": ["src/rdata/dnssec.rs: Rrsig::{from_dnskey,calculate_signature,verify}"]}
{"id": "C40", "title": "Key tags are RFC 4034 key tags", "statement": "The key tag of a DNSKEY, as it appears in the DS and RRSIG records made from it, equals the RFC 4034 Appendix B sum over the DNSKEY RDATA, without overflow for any key that fits a record.", "quantifier": "every DNSKEY", "why_tests_cant": "all key contents; overflow depends on length", "anchors": ["src/rdata/dnssec.rs: DnsKey::compute_key_tag"]}
{"id": "C41", "title": "Type bitmaps are RFC 4034 bitmaps", "statement": "The NSEC/CSYNC bitmap written for a set of types consists of strictly increasing windows, has exactly the bits of the types in the set, and reading it back yields the set; serialisation and size computation never panic.", "quantifier": "every set of record types", "why_tests_cant": "2^41 type sets", "anchors": ["src/rdata/dnssec.rs: Nsec", "src/rdata/csync.rs: Csync"]}
{"id": "C42", "title": "Bitmap parsing is total and exact", "statement": "Parsing any type bitmap returns the set of types whose bit is set or an error, and never panics.", "quantifier": "every byte string", "why_tests_cant": "all window/octet combinations", "anchors": ["src/rdata/dnssec.rs: Nsec::try_from", "src/rdata/csync.rs: Csync::try_from"]}
{"id": "C43", "title": "SVCB parameters keep their framing", "statement": "Parsing an SVCB record consumes exactly the announced length for each parameter, never panics, keeps parameters sorted by key and keeps the first of duplicate keys.", "quantifier": "every byte string, both build profiles", "why_tests_cant": "arithmetic on attacker-controlled lengths", "anchors": ["src/rdata/svcb.rs: Param::try_from, Svcb::try_from, Ord for Param"]}
{"id": "C44", "title": "Received text is always valid text and valid text is kept", "statement": "TXT strings and CAA tags obtained from the wire are valid UTF-8 for every input, and byte strings that are valid UTF-8 are kept unchanged; extract_string accepts exactly the valid UTF-8 character strings.", "quantifier": "every byte string", "why_tests_cant": "all byte strings", "anchors": ["src/rdata/txt.rs: Txt::try_from", "src/rdata/caa.rs: Caa::try_from", "src/buffer.rs: DnsBuffer::extract_string"]}
{"id": "C45", "title": "EDNS options survive a round trip regardless of map order", "statement": "Whatever order the option map iterates in, the OPT data written parses to a map with the same options; repeated option codes on the wire keep the last value.", "quantifier": "every option map and every iteration order", "why_tests_cant": "hash-map iteration order differs in every run", "anchors": ["src/rdata/opt.rs: Opt"]}
{"id": "C46", "title": "mDNS bits do not leak into the class", "statement": "With the mdns feature, bit 15 of the class field is reported as unicast_response/cache_flush and written back; without it the bit is dropped on input; in both cases the class read is independent of bit 15.", "quantifier": "every class field value, both feature settings", "why_tests_cant": "all 16-bit values and contexts", "anchors": ["src/question.rs: Question::{try_from,to_bytes}", "src/resource.rs: ResourceRecord::{try_from,to_bytes}"]}
{"id": "C47", "title": "Record data obeys the no-compression rule of its type", "statement": "to_bytes_compressed compresses names only in the RDATA of types for which it is declared allowed: for a type whose compression_allowed() is false the compressed and the plain RDATA bytes are equal.", "quantifier": "every record data value, every dictionary", "why_tests_cant": "all values/dictionaries", "anchors": ["src/resource.rs: RecordType::compression_allowed", "src/rdata/mod.rs: RecordData::to_bytes_compressed"]}
{"id": "C48", "title": "Signature validity times are kept", "statement": "The inception and expiration written into an RRSIG by from_dnskey represent the given times (seconds since the epoch, modulo 2^32) and preserve their order for times before 2106.", "quantifier": "every pair of times", "why_tests_cant": "all 64-bit times; wraps after 49 days of milliseconds", "anchors": ["src/rdata/dnssec.rs: Rrsig::from_dnskey"]}
{"id": "C49", "title": "Serialisation never panics", "statement": "to_bytes and to_bytes_compressed return for every packet that can be built through the public API.", "quantifier": "every packet value, both build profiles", "why_tests_cant": "all values", "anchors": ["src/packet.rs", "src/rdata/svcb.rs: Param::to_bytes", "src/rdata/dnssec.rs: Nsec", "src/rdata/csync.rs: Csync"]}
{"id": "C50", "title": "Coded fields use the registered numbers", "statement": "The number written for each enumerated field value other than types and classes (SSHFP, IPSECKEY, TLSA, TKEY, TSIG, DHCID, SVCB, NAPTR, APL, DNSSEC algorithm, DS digest type, response code, opcode) is the one IANA (or the defining RFC) assigns to that value for that record type.", "quantifier": "every value of each enumeration", "why_tests_cant": "a round-trip test passes with any consistent numbering; conformance has to be stated against the registry for every value", "anchors": ["src/rdata/mod.rs: Algorithm", "src/rdata/sshfp.rs", "src/rdata/ipseckey.rs", "src/rdata/tlsa.rs", "src/rdata/tkey.rs", "src/rdata/tsig.rs", "src/rdata/dhcid.rs", "src/rdata/svcb.rs: ParamKey", "src/rdata/naptr.rs: Flag", "src/rdata/dnssec.rs: Algorithm, DigestType", "src/header.rs: ResponseCode, OpCode"]}
{"id": "C51", "title": "Record data has the layout its RFC defines", "statement": "The RDATA written for each type consists of exactly the fields the defining RFC lists, in that order, each in the format given there (integers big-endian in the given width, domain names, character strings, remaining octets).", "quantifier": "every value of every record type", "why_tests_cant": "a round-trip test passes with any consistent layout, and examples fix only some of the fields; conformance has to be stated against the RFC for every value", "anchors": ["src/rdata/*.rs: to_bytes"]}
{"id": "C52", "title": "DS records are made from the DNSKEY as RFC 4034 says", "statement": "Ds::try_from_dnskey yields the key tag and algorithm of the key, the given digest type, and the digest of the canonical owner name followed by the DNSKEY RDATA.", "quantifier": "every owner name, key and digest type", "why_tests_cant": "all keys; the digest has to cover exactly the right octets", "anchors": ["src/rdata/dnssec.rs: Ds::try_from_dnskey"]}
{"id": "C53", "title": "The hexadecimal digest is exact", "statement": "Ds::hex_digest() is two hexadecimal digits per octet, most significant first, and determines the digest.", "quantifier": "every digest", "why_tests_cant": "all byte strings, including leading zeros", "anchors": ["src/rdata/dnssec.rs: Ds::hex_digest"]}
{"id": "C54", "title": "A signature stays valid for the same record set", "statement": "A signature that verifies a record set also verifies it after its TTL has been counted down by a cache, with another upper/lower case spelling of the owner, and with a record repeated (RFC 4035 5.3.2, RFC 4034 6.2 and 6.3).", "quantifier": "every record set, key and signature", "why_tests_cant": "all sets and their variants", "anchors": ["src/rdata/dnssec.rs: Rrsig::verify", "src/resource_record_set.rs: to_bytes"]}
{"id": "C55", "title": "The fields of a new signature describe the set", "statement": "Rrsig::from_dnskey takes type covered, algorithm, label count (without a leading wildcard), original TTL and key tag from the set and the key as RFC 4034 3.1 says.", "quantifier": "every record set and key", "why_tests_cant": "all owner names", "anchors": ["src/rdata/dnssec.rs: Rrsig::from_dnskey"]}
{"id": "C56", "title": "Messages have the layout of RFC 1035", "statement": "The octets of a serialised message are the header fields, questions and resource records of RFC 1035 section 4.1 in order: every field with its width, position and assigned number, the counts equal to the sections, RDLENGTH equal to the length of the data; and octets so laid out parse to that message.", "quantifier": "every packet with legal names and any number of questions and records of any type", "why_tests_cant": "a round trip passes with any self-consistent format; interoperability needs the octets themselves for every packet", "anchors": ["src/packet.rs: to_bytes", "src/header.rs: to_bytes", "src/question.rs: to_bytes", "src/resource.rs: to_bytes"]}
{"id": "C57", "title": "Names respect the size limits of RFC 1035", "statement": "Every name accepted from the wire has labels of 1 to 63 octets and at most 255 octets in all, and is not longer than the message it came from.", "quantifier": "every message and position", "why_tests_cant": "all label sizes, counts and pointer structures, including labels that overlap", "anchors": ["src/buffer.rs: extract_fqdn", "src/fqdn.rs: FQDN"]}
{"id": "C58", "title": "Parsing needs no more room than the message", "statement": "Whatever counts a header announces, a parsed packet has at most (message length - 12) / 5 questions and (message length - 12) / 11 records, and its names have at most one label per octet of the message.", "quantifier": "every message, feature set and build", "why_tests_cant": "the counts are chosen by the sender; the bound must hold for every message", "anchors": ["src/packet.rs: TryFrom<Vec<u8>>"]}
{"id": "C59", "title": "Names compare as DNS names", "statement": "Two FQDN values are equal exactly when they denote the same domain name (RFC 4343: regardless of ASCII case), and so when they are written alike.", "quantifier": "every two names", "why_tests_cant": "all pairs of names", "anchors": ["src/fqdn.rs: PartialEq for FQDN"]}
{"id": "C60", "title": "record_type() and into_record_data() belong together", "statement": "For each struct implementing RData, record_type() is its registered type number and into_record_data() is the variant of that very type, every variant is reached by exactly one struct, and a record made of both reads back.", "quantifier": "every value of every implementing struct", "why_tests_cant": "35 hand-written pairs of methods, all values", "anchors": ["src/rdata/mod.rs: trait RData", "src/rdata/*.rs: impl RData"]}
{"id": "C61", "title": "Setters change only their own field", "statement": "After any sequence of setter calls each field of a question or record has the value it was given last, or its first value; data_raw() is the data the record is written with.", "quantifier": "every start value and every sequence of calls", "why_tests_cant": "all histories of calls", "anchors": ["src/question.rs: Question::set_*", "src/resource.rs: ResourceRecord::set_*"]}
{"id": "C62", "title": "Order and equality of service parameters agree", "statement": "The order on SVCB parameter keys and parameters is total, transitive and agrees with equality as the Ord trait demands, and a received record has its parameters in increasing order of key, one for each key.", "quantifier": "every two keys and parameters; every received SVCB record", "why_tests_cant": "the contract of Ord ranges over all pairs and triples", "anchors": ["src/rdata/svcb.rs: Ord for ParamKey, Ord for Param"]}
{"id": "C63", "title": "DHCID digests are those of RFC 4701", "statement": "Dhcid::new computes SHA-256 of the identifier followed by the canonical wire form of the name, so that names that are equal in DNS have equal digests.", "quantifier": "every identifier, type and name", "why_tests_cant": "all names and spellings", "anchors": ["src/rdata/dhcid.rs: Dhcid::new"]}
{"id": "C64", "title": "Names sort in canonical order", "statement": "The order on FQDN values is total, agrees with equality, and is the canonical DNS name order of RFC 4034 6.1 (last label first, without regard to case).", "quantifier": "every two and three names", "why_tests_cant": "an order is a statement about all pairs and triples", "anchors": ["src/fqdn.rs: Ord for FQDN"]}
{"id": "C65", "title": "Conforming messages are understood", "statement": "Every message laid out as RFC 1035 and the RFCs of its record types say, with names written in full or compressed, parses to exactly the header, questions and records it contains.", "quantifier": "every conforming message, in every legal compression", "why_tests_cant": "every message another implementation may send; unit tests read back the library's own output", "anchors": ["src/packet.rs: TryFrom<&[u8]> for Packet", "src/resource.rs: TryFrom<&mut DnsBuffer> for ResourceRecord", "src/rdata/*.rs: TryFrom<&mut DnsBuffer>"]}
{"id": "C66", "title": "A signature is accepted only when RFC 4035 allows its use", "statement": "Rrsig::verify returns true only if the signature record and the key may be used for the record set by RFC 4035 5.3.1: same algorithm, key tag, covered type, label count, signer, validity period, zone key and protocol.", "quantifier": "every signature record, key and record set, every time of day", "why_tests_cant": "unit tests verify one good signature; the claim is about everything an attacker can send", "anchors": ["src/rdata/dnssec.rs: Rrsig::verify"]}
{"id": "C67", "title": "The error of a rejected message names the first thing that is wrong", "statement": "If parsing a message returns an error, the message can be read up to some field, that field is wrong, and the error is the one documented for this kind of fault with the offending number; every message with such a fault is rejected with exactly that error.", "quantifier": "every message and every error", "why_tests_cant": "all octet strings; tests check a few errors", "anchors": ["src/error.rs: DnsError", "src/packet.rs: TryFrom<&[u8]> for Packet", "src/rdata/*.rs: TryFrom<&mut DnsBuffer>"]}
{"id": "C68", "title": "What is passed to a constructor is what goes on the wire", "statement": "For each public constructor of record data, the bytes written for the value it returns are its arguments, each in the field the RFC of the type gives it and in that order, and nothing else; the record built from it carries the number of its type. Accessors return what the constructor was given.", "quantifier": "every constructor and all its arguments", "why_tests_cant": "a swapped or truncated argument shows only for particular values; all values of all constructors", "anchors": ["src/rdata/*.rs: new, with_types, From, inner, into_inner", "src/resource.rs: ResourceRecord::new"]}
{"id": "C69", "title": "Debug and release builds agree", "statement": "A debug build and a release build with the same features give the same result on every input and for every sequence of calls, except that the debug build may panic where an integer overflows.", "quantifier": "every message, packet, history of calls, key, record set and signature, with all feature sets", "why_tests_cant": "tests run in one profile; overflows need particular inputs", "anchors": ["Cargo.toml", "src/packet.rs", "src/rdata/svcb.rs", "src/rdata/dnssec.rs"]}
{"id": "C70", "title": "Cargo features do not change what messages mean", "statement": "Without feature dnssec exactly those packets are read that do not speak of DNSSEC types, with the same result, and all others fail as before or with InvalidType of such a number; without feature mdns every message has the same outcome, with the unicast-response and cache-flush bits ignored. Writing does not depend on dnssec, and on mdns only through the two bits.", "quantifier": "every message and packet, all feature sets", "why_tests_cant": "tests run with one feature set at a time and do not compare", "anchors": ["Cargo.toml: features", "src/question.rs: TryFrom<&mut DnsBuffer> for Question, TryFrom<u16> for QType", "src/resource.rs: TryFrom<&mut DnsBuffer> for ResourceRecord, TryFrom<u16> for RecordType"]}
{"id": "C71", "title": "A message cut short is never accepted", "statement": "If a message is accepted, no beginning of it that ends before its last question or record does is accepted, as whatever packet; in particular no proper beginning of a message written by the library. What stands behind the packet has no influence.", "quantifier": "every accepted message and every place to cut it", "why_tests_cant": "all messages and all cuts; tests cut one message in a few places", "anchors": ["src/packet.rs: TryFrom<&[u8]> for Packet", "src/buffer.rs: DnsBuffer"]}
{"id": "C72", "title": "Different packets have different octets", "statement": "Two packets that serialise to the same octets, both plain, both compressed, or one each, are equal.", "quantifier": "every two packets", "why_tests_cant": "a collision is a statement about pairs of packets", "anchors": ["src/packet.rs: to_bytes, to_bytes_compressed"]}
{"id": "C73", "title": "Following the causes of an error comes to an end", "statement": "From every error, asking for its source, the source of that, and so on, reaches an error without source, as error reporters assume.", "quantifier": "every error", "why_tests_cant": "an endless chain does not fail a test, it hangs the reporter that is not under test", "anchors": ["src/error.rs: Error for DnsError"]}
{"id": "C74", "title": "All ways of making a name agree", "statement": "A name made from dotted text, from a slice of labels, from a vector of labels or by appending label after label is the same name, iterates over these labels, and is written and displayed accordingly.", "quantifier": "every list of labels", "why_tests_cant": "all label lists, including labels with dots and empty ones", "anchors": ["src/fqdn.rs: FQDN::new, append_label, iter, iter_mut, From impls"]}
{"id": "C75", "title": "A small message cannot make the parser hold much", "statement": "The octets of all names and strings and the elements of all lists in the packet returned for a message are proportional to the length of the message.", "quantifier": "every accepted message", "why_tests_cant": "the worst message has to be found; sizes are unbounded", "anchors": ["src/packet.rs: Packet TryFrom", "src/buffer.rs: extract_fqdn"]}
{"id": "C76", "title": "Room is reserved only for what the message can contain", "statement": "While a message is read, memory is reserved ahead only for as many entries as the rest of the message has room for, whatever its header announces.", "quantifier": "every message, accepted or not", "why_tests_cant": "the counts are chosen by the sender; a test sees the result, not what was reserved for it", "anchors": ["src/packet.rs: TryFrom<&mut DnsBuffer> for Packet"]}
{"id": "C77", "title": "Serialising has no effect besides its result", "statement": "Turning a packet into octets, plain or compressed, writes nothing to standard output and does not depend on whether standard output can be written to.", "quantifier": "every packet, build configuration and state of standard output", "why_tests_cant": "a test looks at the returned octets; output appears only for one of 37 kinds of data", "anchors": ["src/rdata/tsig.rs: ByteConvertible for Tsig", "src/packet.rs: to_bytes, to_bytes_compressed"]}
{"id": "C78", "title": "What breaks the message format is rejected", "statement": "A message that parses is laid out as RFC 1035 and the RFC of each record's type draw it; one that is not is rejected with an error instead of being read as something else.", "quantifier": "every message, record type and build configuration", "why_tests_cant": "there are unboundedly many malformed messages; each test tries one malformation", "anchors": ["src/packet.rs: TryFrom<&mut DnsBuffer> for Packet", "src/resource.rs: TryFrom<&mut DnsBuffer> for ResourceRecord", "src/buffer.rs: extract_fqdn", "src/rdata/*.rs"]}
{"id": "C79", "title": "The work of parsing is in proportion to the message", "statement": "Parsing any message comes to an end after a number of steps - calls of the buffer, turns of the loop over labels, octets copied - proportional to its length.", "quantifier": "every message, accepted or rejected, and build configuration", "why_tests_cant": "the most expensive message of every length has to be found; timings of a few say nothing about it", "anchors": ["src/packet.rs: TryFrom<&mut DnsBuffer> for Packet", "src/buffer.rs: extract_fqdn", "src/rdata/*.rs"]}
{"id": "C80", "title": "A message means the same anywhere in a buffer", "statement": "Reading a message from a DnsBuffer gives the same packet whether it stands at the start of the buffer or behind other octets, such as the length in front of it on TCP or another message; messages behind one another can be read one after the other.", "quantifier": "every message, every octets in front, every number of messages", "why_tests_cant": "positions and prefixes are unbounded; unit tests always parse from position 0", "anchors": ["src/packet.rs: TryFrom<&mut DnsBuffer> for Packet", "src/buffer.rs: DnsBuffer, sub_buffer, extract_fqdn"]}
{"id": "C81", "title": "A value cannot forge other parts of a message", "statement": "Whatever text is used as a name, and whatever octets as record data, the other parts of the packet are in the serialised message as they were given: reading it never shows questions or records that were not put in.", "quantifier": "every text, every record data, every packet around it", "why_tests_cant": "an attacker chooses the value; the dangerous lengths are far from those in tests", "anchors": ["src/fqdn.rs: From<&str>, ByteConvertible for FQDN", "src/resource.rs: ByteConvertible for ResourceRecord", "src/packet.rs: ByteConvertible for Packet"]}
{"id": "C82", "title": "Compressed messages follow the RFCs", "statement": "The octets of to_bytes_compressed are the packet laid out as RFC 1035 (4.1, with the compression of 4.1.4) and the RFC of each record's type draw it, so that any conforming receiver reads the packet from them.", "quantifier": "every packet with legal names, every hasher that separates its names, every build configuration", "why_tests_cant": "what a conforming receiver does is not in this code base; unit tests read the message back with the same library", "anchors": ["src/packet.rs: to_bytes_compressed", "src/fqdn.rs: to_bytes_compressed", "src/resource.rs, src/question.rs, src/rdata/*.rs: to_bytes_compressed"]}
{"id": "C83", "title": "Keys and signatures as base64 text", "statement": "The text given for the public key of a DNSKEY record and for the signature of an RRSIG record is the base64 text RFC 4648 defines for its octets: four characters for every three octets begun, padded, and different octets have different texts.", "quantifier": "every key and signature of any length", "why_tests_cant": "lengths are unbounded, and every length modulo three and every bit pattern in a group matters", "anchors": ["src/rdata/dnssec.rs: DnsKey::base64_public_key, Rrsig::base64_signature"]}
{"id": "C84", "title": "No choice of names confuses the compressor", "statement": "Whatever legal names a packet contains, each is read back from the compressed message as it was put in: the record of one name never becomes that of another.", "quantifier": "every packet with legal names and at most 16384 octets, for the hash the library uses", "why_tests_cant": "names can be chosen by others, and those that collide are not found by testing names at random", "anchors": ["src/util.rs: hash_fqdn", "src/fqdn.rs: to_bytes_compressed", "src/packet.rs: to_bytes_compressed"]}
{"id": "C85", "title": "The work of compressing is in proportion to the message", "statement": "Writing the compressed form of any packet takes a number of steps proportional to the number of octets written.", "quantifier": "every packet, made or received, every hash function and build configuration", "why_tests_cant": "the most expensive packet of every size has to be found; timings of a few say nothing about it", "anchors": ["src/fqdn.rs: to_bytes_compressed", "src/util.rs: hash_fqdn", "src/packet.rs: to_bytes_compressed"]}
{"id": "C86", "title": "The text of an error tells what is wrong", "statement": "The text an error is displayed as is one line of printable characters that names the error and shows its number in decimal; errors that differ have different texts, so from the text alone it can be told what was wrong with a message.", "quantifier": "every error value, every rejected message", "why_tests_cant": "every pair of errors and every number has to be compared", "anchors": ["src/error.rs: DnsError, Display for DnsError"]}
{"id": "C87", "title": "Addresses are made from exactly the texts of addresses", "statement": "A::try_from(text) succeeds exactly for four decimal numbers up to 255 without leading zeros and with dots between them, Aaaa::try_from(text) exactly for the text forms of RFC 4291; the record then carries the octets the text stands for. Every address has a text, an IPv4 address exactly one.", "quantifier": "every text, every address", "why_tests_cant": "there is no end of texts; near misses (leading zeros, two '::', too many groups) come in every shape", "anchors": ["src/rdata/a.rs: TryFrom<&str> for A", "src/rdata/aaaa.rs: TryFrom<&str> for Aaaa"]}
{"id": "C88", "title": "Serialising has no undefined behaviour on any machine", "statement": "Packet::to_bytes writes through a raw pointer only inside its own output and only at addresses aligned as Rust demands, wherever the allocator puts the output, and gives the same octets on machines of both byte orders.", "quantifier": "every packet, every address of the output vector, both byte orders, every build configuration", "why_tests_cant": "a test sees the addresses of one allocator on one machine, and undefined behaviour may go unnoticed there", "anchors": ["src/packet.rs: to_bytes"]}
{"id": "C89", "title": "What parsing does is decided by the octets alone and known for every message", "statement": "For every message exactly one of four things holds, and each can be told from the octets without running the parser: it lies on the wire as one packet (then that packet is returned), a first part of it is faulty (then the error of that part is returned), or it drives parsing into a panic or into an endless loop. The same for a name and for the data of a record of each type.", "quantifier": "every message up to the address space, every record type, every position, every build configuration", "why_tests_cant": "the four cases together must cover all messages; tests only visit chosen ones", "anchors": ["src/packet.rs: TryFrom<&[u8]> for Packet", "src/rdata/mod.rs: RecordData::from", "src/fqdn.rs, src/buffer.rs: extract_fqdn"]}
{"id": "C90", "title": "Octets that are not text are repaired as Unicode recommends", "statement": "The strings of a received TXT record and the tag of a received CAA record are the character strings on the wire in which every maximal subpart of an ill-formed UTF-8 sequence is replaced by one U+FFFD and everything else is kept; there is exactly one such form, it is valid text, and exactly valid text is left unchanged.", "quantifier": "every byte string, every position", "why_tests_cant": "there are ill-formed sequences of every shape (cut characters, surrogates, overlong forms, stray octets) in every neighbourhood", "anchors": ["src/rdata/txt.rs: TryFrom for Txt", "src/rdata/caa.rs: TryFrom for Caa"]}
{"id": "C91", "title": "How a set of types or parameters was filled does not show", "statement": "The octets of NSEC, CSYNC and SVCB records depend on which types, keys and parameters were put into their sets, not on the order, on repetitions or on whether they were inserted one by one or collected; types and classes sort by their numbers, so sets of types are in the order that bitmaps need.", "quantifier": "every list of types, keys or parameters, every other list with the same elements, every build configuration", "why_tests_cant": "there are unboundedly many orders and repetitions", "anchors": ["src/resource.rs: RecordType, RecordClass (Ord)", "src/rdata/svcb.rs: Ord for ParamKey, Ord for Param", "src/rdata/dnssec.rs: Nsec::with_types", "src/rdata/csync.rs: Csync::new"]}
{"id": "C92", "title": "Signatures that others made are accepted", "statement": "RRSIG::verify returns true for a signature that a conforming signer made: one that the primitive of the algorithm accepts, in the form its RFC prescribes, over the signed data of RFC 4034 (3.1.8.1) as reconstructed by RFC 4035 (5.3.2); and the signatures RRSIG::from_dnskey makes sign exactly that data.", "quantifier": "every set, signature and key, every algorithm, every choice of primitives, every build configuration", "why_tests_cant": "test vectors cover single keys and sets; the octets must agree for every set, also for wildcard answers, cached TTLs, capitals and repeated records", "anchors": ["src/rdata/dnssec.rs: Rrsig::verify, Rrsig::from_dnskey", "src/resource_record_set.rs: ResourceRecordSet", "src/fqdn.rs: to_bytes"]}
{"id": "C93", "title": "Every answer of signing and verifying has one known cause", "statement": "Neither RRSIG::verify nor RRSIG::from_dnskey panics, and the cause can be told from the answer: true or false is what the primitive of the algorithm says, LengthViolation is a key cut short, DnsSecVerificationError other algorithms in signature and key or a key or signature the primitive cannot read, DnsSecSigningError a private key the primitive refuses, InvalidDnsSecSignatureTimespan a time before 1970, and InvalidDnsSecAlgorithm an algorithm that cannot be used, with its number.", "quantifier": "every set, signature, key, private key and pair of times, every algorithm, every choice of primitives, every build configuration", "why_tests_cant": "every combination of algorithm, key shape, time and answer of the primitives has to be considered, also answers the primitives give rarely", "anchors": ["src/rdata/dnssec.rs: Rrsig::verify, Rrsig::from_dnskey, Algorithm::sign_data", "src/error.rs: DnsError"]}
{"id": "C94", "title": "RSA signatures work with RSA as the standard defines it", "statement": "For every RSA key pair of RFC 8017 whose public half is in the DNSKEY (RFC 3110): what RRSIG::from_dnskey signs with RSA/MD5, RSA/SHA-1, RSA/SHA-256 or RSA/SHA-512, RRSIG::verify accepts, and it accepts a signature exactly if it is the RSA signature of the signed data that the RFCs prescribe.", "quantifier": "every RSA key pair (any number of prime factors, any exponents), every set, pair of times, hash function and build configuration", "why_tests_cant": "each test uses one key; that verification undoes signing rests on number theory and on the padding being the same on both sides", "anchors": ["src/rdata/dnssec.rs: Rrsig::from_dnskey, Rrsig::verify, Algorithm::sign_data"]}
{"id": "C95", "title": "A field of a message can be changed in place", "statement": "Writing another ID (or other flags) over the first octets of a message, or another TTL over the four octets of a record's TTL, as forwarders and caches do, changes that field of the parsed packet and nothing else, and does not make an accepted message fail or a refused one pass; a packet with another ID or TTL is serialized, plain or compressed, to the same octets but for that field.", "quantifier": "every message (every octet sequence), every value of the field, every record of every section, every packet and build configuration", "why_tests_cant": "the field may be changed in any message, and compression pointers can make any octet part of any name", "anchors": ["src/packet.rs: Packet::try_from, to_bytes, to_bytes_compressed", "src/header.rs: try_from, to_bytes", "src/resource.rs: ResourceRecord::try_from, to_bytes, to_bytes_compressed", "src/fqdn.rs: extract_fqdn"]}
{"id": "C96", "title": "The size announced for the compressed form is the size written", "statement": "byte_size_compressed of a name, of record data, of a question and of a resource record is the number of octets to_bytes_compressed writes for it with the same dictionary and offset, it fails exactly when writing fails, and it leaves the dictionary as writing would; so the sizes of all parts of a packet, asked for in order, add up to the length of the compressed message.", "quantifier": "all names, data, questions, records, dictionaries, offsets and hash functions; all packets", "why_tests_cant": "the size depends on which names earlier parts of the message contained, so on the whole history of the dictionary", "anchors": ["src/byteconvertible.rs: CompressedByteConvertible", "src/fqdn.rs: byte_size_compressed", "src/rdata/mx.rs, soa.rs, minfo.rs, srv.rs, naptr.rs, dnssec.rs: byte_size_compressed", "src/question.rs: byte_size_compressed", "src/resource.rs: byte_size_compressed", "src/packet.rs: to_bytes_compressed"]}
{"id": "C97", "title": "Accessors answer what the octets say", "statement": "After parsing a message, id(), header(), questions(), answers(), authorities() and additionals() give the ID, the header and the sections the octets encode, as many entries as the counts in the header; the mode of SVCB data is alias exactly if the priority is zero; the name in PTR data is the name in the message and a name put there is written; the length of a DNSSEC algorithm is that of the digest or key it stands for; NSEC data made without types announce no types; the buffer still gives the octets it was made of.", "quantifier": "all messages, all SVCB and PTR data in them, all algorithms", "why_tests_cant": "a getter returning a neighbouring field is right on symmetric examples and must be right for every message", "anchors": ["src/packet.rs: id, header, questions, answers, authorities, additionals", "src/rdata/svcb.rs: Svcb::mode", "src/rdata/ptr.rs: inner, into_inner, inner_mut", "src/rdata/dnssec.rs: Algorithm::len, NSEC::new", "src/buffer.rs: as_slice", "src/header.rs: byte_size_compressed, to_bytes_compressed", "src/resource.rs: ByteConvertible for RecordType"]}
{"id": "C98", "title": "The order of the entries does not change the length", "statement": "In the compressed form every tail of a name is written out once and every further use takes two octets, which is the least possible, so the number of octets is known from the names alone, and putting the questions or the records in another order, or moving records to another section, does not change the length of the message.", "quantifier": "all packets, all permutations of their questions and records, all hash functions", "why_tests_cant": "which name is written out and which becomes a pointer changes with every permutation; that the total stays is a statement about all of them", "anchors": ["src/packet.rs: to_bytes_compressed, to_bytes", "src/fqdn.rs: to_bytes_compressed", "src/question.rs, src/resource.rs: to_bytes_compressed"]}
{"id": "C99", "title": "A record can be put behind a finished message, and taken off again", "statement": "Put the octets of a record behind a message, be they written by the library in plain form or compressed against the message, and raise the counter of the last section that has records by one: the result parses to exactly what add_answer, add_authority or add_additional makes of the parsed packet. Cut a message off where its last record begins and lower the counter: it parses to the packet without that record. On the writing side, the message with one record more is the message without it, followed by the octets of the record, with that counter changed and no other octet.", "quantifier": "all messages, sections and records, all sizes, all build configurations, both written forms and all hash functions of the name dictionary", "why_tests_cant": "Servers append OPT, TSIG and SIG(0) records to messages that are already written and strip them before checking a signature; whether this works depends on what every name of the message refers to.", "anchors": ["src/packet.rs: TryFrom<&mut DnsBuffer> for Packet, to_bytes, to_bytes_compressed, add_answer, add_authority, add_additional", "src/resource.rs: TryFrom<&mut DnsBuffer> for ResourceRecord, to_bytes", "src/buffer.rs: extract_fqdn"]}
{"id": "C100", "title": "Names of a compressed message take few pointers", "statement": "Each name of a compressed message lies behind the header, the names follow one another in order and without overlap, and each is read back by pointers that only go backwards, at most as many as the name has labels, so at most 127 for a name within the limits of RFC 1035.", "quantifier": "all packets with labels of 1 to 191 octets, all build configurations, all hash functions that tell the tails apart, all messages up to 16384 octets", "why_tests_cant": "the chain of pointers a reader follows grows with the history of names written before; receivers refuse messages with long chains, and no set of examples bounds it", "anchors": ["src/packet.rs: Packet::to_bytes_compressed", "src/fqdn.rs: to_bytes_compressed", "src/question.rs, src/resource.rs, src/rdata: to_bytes_compressed"]}
{"id": "C101", "title": "A reply repeats the question octet by octet", "statement": "A reply made with the ID and the questions of a parsed query has the same ID octets and the same question section as the query, so also the same upper and lower case letters, by which clients recognise forged replies; in compressed form this holds for the first question, and an answer for its name begins with a pointer to offset 12.", "quantifier": "all queries, all replies whatever their other sections and flags, all build configurations and hash functions", "why_tests_cant": "clients choose the case of each letter at random, so that the question must come back unchanged for every spelling, length, type and class", "anchors": ["src/packet.rs: Packet::try_from, to_bytes, to_bytes_compressed", "src/question.rs: try_from, to_bytes, to_bytes_compressed", "src/fqdn.rs: to_bytes, to_bytes_compressed"]}
{"id": "C102", "title": "The data of a record can be changed in place", "statement": "Writing other octets over the data of one record of an accepted message (without changing their number) gives a message that parses to the same packet with only that data changed, to what the octets stand for, or is refused because they do not stand for data of that type; in particular another address can be put in place of the one in an A or AAAA record. Likewise the message written, plain or compressed, for a packet with other data of the same size in one record differs from the one written before in those octets only.", "quantifier": "all octet strings accepted as messages, all records of all sections, all replacement octets; all packets and replacement data for writing", "why_tests_cant": "Tests replace one address in one message; other records, other types, names and pointers before and after the place changed are not covered.", "anchors": ["src/packet.rs: TryFrom<&mut DnsBuffer> for Packet", "src/resource.rs: ResourceRecord", "src/rdata: all TryFrom<&mut DnsBuffer>"]}
{"id": "C103", "title": "What is built with the API is what the other side receives", "statement": "After any sequence of calls on a Packet, the octets written are parsed by the receiver to a packet with exactly the questions and records the calls have put into each section, in order, the ID and flags the calls have set, and counts that match. In particular the program of the README works for all questions: names given as texts are seen by the receiver as the same texts.", "quantifier": "all ways of creating a packet, all sequences of calls, all questions and records the wire format can carry, both written forms, all builds", "why_tests_cant": "Tests run a few fixed sequences of calls; sequences, sections and names are unbounded.", "anchors": ["src/packet.rs: Packet", "src/header.rs: Header", "src/fqdn.rs: FQDN::new, Display", "README.md"]}
{"id": "C104", "title": "A signed set verifies at the receiver", "statement": "A record set signed with a key is put, record by record and in any order, among other records into a packet together with the signature and the key; the packet is serialised and parsed by a receiver. The receiver finds the signature and the key in the packet, collects the records with the set's name, type and class, and verifying the signature over them succeeds.", "quantifier": "every record set, key of the supported algorithms, choice of primitives whose key pairs match, signing time window, packet and order of records", "why_tests_cant": "the sets, orders, messages and keys are unbounded; a test signs and verifies without sending, or sends one message", "anchors": ["src/rdata/dnssec.rs: Rrsig::from_dnskey, verify, byte_size, to_bytes", "src/packet.rs: Packet::try_from, to_bytes, to_bytes_compressed", "src/resource_record_set.rs: ResourceRecordSet"]}
{"id": "C105", "title": "A key is recognised by its DS record", "statement": "A DS record made from a key with Ds::try_from_dnskey is sent in one message, the key in another; whoever receives both, makes a DS record from the received key and its owner name and gets exactly the DS record received. A DS record made from any other key or for another name is different, unless the digest function collides; the spelling of the name in upper or lower case does not matter.", "quantifier": "every key, owner name, digest type, choice of digest functions, pair of messages, written form and build", "why_tests_cant": "keys, names and messages are unbounded; a test compares the DS record of one key with a constant and does not send it", "anchors": ["src/rdata/dnssec.rs: Ds::try_from_dnskey, DnsKey::compute_key_tag, DigestType::hash_data", "src/packet.rs: Packet::try_from, to_bytes, to_bytes_compressed"]}
{"id": "C106", "title": "Record data left at the default can be sent", "statement": "The record data types that implement Default can be used as Default makes them: a record or packet with such data is serialised and read back unchanged. (For EUI48, EUI64 and NAPTR records it is the only way to make one, their fields being private.)", "quantifier": "every type that implements Default, every owner name, class, TTL, position in a message, written form and build", "why_tests_cant": "names, TTLs and surrounding messages are unbounded; no test uses a default value", "anchors": ["src/rdata/*.rs: derive(Default)", "src/rdata/opt.rs: Opt::byte_size", "src/rdata/caa.rs: Caa::try_from", "src/resource.rs: ResourceRecord::to_bytes"]}
{"id": "C107", "title": "EDNS parameters arrive", "statement": "The UDP payload size, the upper bits of the response code, the version, the flags and the options that a peer puts into an OPT record (RFC 6891) are those in the parsed record; and an OPT record that is sent arrives with the size, the TTL field and the options it was made with.", "quantifier": "every payload size, response code, version, flags field and list of options, every place in every message, every packet around the record, both written forms, every build configuration", "why_tests_cant": "all sizes, option lists and surrounding packets; tests use one OPT record with a usual size", "anchors": ["src/rdata/opt.rs: Opt", "src/resource.rs: RecordClass, ResourceRecord::try_from, to_bytes, to_bytes_compressed", "src/packet.rs: Packet::to_bytes, to_bytes_compressed"]}
{"id": "C108", "title": "A received packet can be changed and sent on", "statement": "A program that has parsed a message may change it with the API (id, flags, adding, replacing and taking questions and records), serialise it, and the other side receives exactly what the calls made of the message received: its untouched entries, the changes, and the counts that belong to them. In particular every query can be answered by setting the response flag and the answers: the querier sees its own id, questions and flags.", "quantifier": "every received message, every sequence of calls on the packet parsed from it, every set of answers, plain and compressed form", "why_tests_cant": "Tests build their packets or serialise what they have parsed; no test changes a parsed packet and sends it, and what must survive is whatever another implementation has put into the message.", "anchors": ["src/packet.rs: Packet::try_from, set_id, set_query_response, add_answer, set_answers, set_authorities, take_additionals, to_bytes, to_bytes_compressed", "src/header.rs: Header::set_query_response"]}
{"id": "C109", "title": "Records received can be given in other answers", "statement": "Records taken from messages received earlier, with their time to live lowered, can be given as the answers to another query: whoever asked receives exactly these records (name, type, class, data and the new time to live) together with its own id, questions and flags.", "quantifier": "every list of records out of any received messages, every time to live, every received query, plain and compressed form", "why_tests_cant": "Tests serialise records they have built; what a cache holds are the records of any other implementation, in any combination, and behind names of other messages.", "anchors": ["src/packet.rs: Packet::try_from, answers, set_answers, take_additionals, to_bytes, to_bytes_compressed", "src/resource.rs: ResourceRecord::set_time_to_live"]}
{"id": "C110", "title": "Leaving entries out never makes a message longer", "statement": "A sender that fills a message up to a limit, or leaves entries out of one that is too long, can rely on the sizes: every question or record added makes the message longer, by at most the octets it takes alone, and every part of a message that fits, in any order and whatever is left out, fits as well.", "quantifier": "all packets, all subsets of their questions and records, additions at any place, all hash functions, plain and compressed form", "why_tests_cant": "The length of the compressed form depends on all earlier names; tests measure single messages, never what happens to every other message when an entry is added or removed.", "anchors": ["src/packet.rs: Packet::to_bytes_compressed, add_question, add_answer, add_authority, add_additional, take_questions, take_answers", "src/fqdn.rs: FQDN::to_bytes_compressed"]}
{"id": "C111", "title": "Dynamic update messages are read", "statement": "An update message as RFC 2136 lays it out, with prerequisites and deletions that carry a name, a type and a class but no data, is read, or at worst refused: it is never a panic.", "quantifier": "every update message, every name, every record type the library reads, class ANY or NONE, any records before and any octets after", "why_tests_cant": "The outcome depends on the record type and on where in the message the record stands; tests try a few types, none of them without data.", "anchors": ["src/resource.rs: ResourceRecord::try_from", "src/buffer.rs: sub_buffer, extract_fqdn", "src/rdata/mod.rs: RecordData::from"]}
{"id": "C112", "title": "A signature is for one record set and one set of fields", "statement": "If Rrsig::verify accepts the same signature octets with the same key a second time, then for the same signature record and the same set of records: owner, type, class, TTL, records, validity period, signer, label count, key tag and original TTL cannot be exchanged under a signature.", "quantifier": "every key, signature record and record set with data that read back", "why_tests_cant": "That two different inputs never give the same octets to be signed, whatever their lengths and contents, is a statement about all pairs of inputs.", "anchors": ["src/rdata/dnssec.rs: Rrsig::verify", "src/resource_record_set.rs: ResourceRecordSet::to_bytes"]}
{"id": "C113", "title": "Record data is passed on octet by octet", "statement": "The data of a record that was received are written again with the same octets; in particular the key tag and the DS record computed for a received key are those of the octets received.", "quantifier": "all messages, positions and records in them, of every type, in all builds", "why_tests_cant": "the octets lost depend on the content of the fields: each type has values a test would have to guess, and the statement for keys is about the sums over all keys", "anchors": ["src/resource.rs: ResourceRecord try_from, to_bytes", "src/rdata/dnssec.rs: DnsKey, compute_key_tag, Ds::from_dnskey", "src/rdata/*.rs: try_from, to_bytes"]}
{"id": "C114", "title": "Any number of relays pass on what the first one read", "statement": "A message that goes through any number of programs, each of which parses it and serialises the packet again (in either form, each with its own hash function), arrives as the packet that the first of them read; from the second plain form on no octet changes.", "quantifier": "every accepted message, every number of relays, every choice of form and hash function at each of them", "why_tests_cant": "the chain has no bound and each relay chooses its form and hash function; a test follows one chain of one message", "anchors": ["src/packet.rs: TryFrom<&mut DnsBuffer> for Packet, to_bytes, to_bytes_compressed", "src/rdata/sshfp.rs: to_bytes", "src/rdata/txt.rs: try_from"]}
{"id": "C115", "title": "Records that cannot be read can be passed over", "statement": "A program that reads resource records one at a time from a DnsBuffer, and on an error goes back to where the record started (set_position) and passes over it by its outline (extract_fqdn, advance 8, extract_u16, advance), gets exactly the records that can be read, in order, and ends behind the last one, whatever the other records contain. After an error the cursor stands behind the type (unknown type) or in front of the data; the error value does not tell which, and a program that goes on without going back can be made to deliver records that are not in the message. Reading a record of a type that starts with a name and has no data panics, so such a record cannot be passed over.", "quantifier": "every message, every start, every number of records laid one behind the other, every mixture of readable and unreadable ones, every feature set", "why_tests_cant": "depends on the cursor after each of the ways in which reading can fail, for every record type and every position", "anchors": ["src/resource.rs: TryFrom<&mut DnsBuffer<'a>> for ResourceRecord", "src/buffer.rs: DnsBuffer set_position, advance, extract_fqdn, extract_u16, sub_buffer"]}
{"id": "C116", "title": "Messages in a TCP stream arrive whole", "statement": "A receiver that takes messages out of a TCP stream with DnsBuffer (extract_u16 for the length, extract_bytes for the message, set_position back to the start when it has not arrived completely) and gives the octets of each to Packet::try_from gets the messages that were sent, whole and in order, however the stream is cut into pieces; what is left over is the unfinished last message. Packets written in compressed form arrive as they were. Messages of more than 65535 octets cannot be sent in this way.", "quantifier": "every stream of octets, every way to cut it into pieces, every number and content of messages", "why_tests_cant": "there is a schedule of arrivals for every way to cut the stream, in the middle of lengths and messages", "anchors": ["src/buffer.rs: DnsBuffer extract_u16, extract_bytes, set_position, position", "src/packet.rs: TryFrom<&[u8]> for Packet, to_bytes_compressed"]}
{"id": "C117", "title": "Stored records survive a crash", "statement": "A program keeps records in a file, each appended as to_bytes gives it, and reads them back with ResourceRecord::try_from(&mut DnsBuffer) until the octets are used up or an error occurs. Whenever the program is stopped while storing, the next start gets exactly the records that were stored completely: none of them is lost, nothing is made up, and reading does not panic. Records stored after such a crash are read too.", "quantifier": "all lists of records the plain form carries, all moments of a crash (every number of octets written)", "why_tests_cant": "the crash can come after any octet of any record", "anchors": ["src/resource.rs: ResourceRecord::to_bytes, TryFrom<&mut DnsBuffer>", "src/buffer.rs: DnsBuffer::remaining, extract_fqdn, sub_buffer"]}
{"id": "C118", "title": "Answers filled in up to a limit fit", "statement": "A server that adds answers to a reply until byte_size() of the next packet exceeds the limit of the transport, and then sets the truncation flag, sends a message that keeps to the limit in both forms, contains exactly the answers before the first that does not fit, has the flag exactly when one was left out, and is read by the client as built.", "quantifier": "all limits up to 65535, all replies within the limit to start from, all lists of answers, both written forms, all hash functions, all builds", "why_tests_cant": "Which sizes meet which limits is a question about all combinations of records and limits; tests try a few.", "anchors": ["src/packet.rs: add_answer, byte_size, set_truncation, to_bytes, to_bytes_compressed, TryFrom<&[u8]>", "src/resource.rs: byte_size", "src/header.rs: set_truncation"]}
{"id": "C119", "title": "Time to live counts down through any number of caches", "statement": "A program that parses a message, holds it for some seconds and then, through the API, drops the expired records of each section, lowers the TTL of the others by that time (leaving OPT alone) and sends the result delivers to the next one exactly that: the same id, flags and questions and the remaining records of every section with the remaining time. Through any number of such caches all waiting times add up; no record outlives the TTL it was given.", "quantifier": "every message received, any number of caches, any waiting times, either form at each, every hash function without collisions on the names, every order in which the sections are gone through", "why_tests_cant": "Tests change one record of one packet; the statement ranges over chains of any length and all packets, and the order in which the sections are taken out decides whether the answers arrive.", "anchors": ["src/packet.rs: take_answers, set_answers, take_authorities, set_authorities, take_additionals, set_additionals, to_bytes, to_bytes_compressed, try_from", "src/resource.rs: set_time_to_live, time_to_live"]}
{"id": "C120", "title": "A list of records spread over messages of a stream arrives whole", "statement": "A server that adds records to a message until byte_size() of the next one exceeds a limit, then sends it and begins another with the same header and questions, makes messages that all keep to the limit (in plain and in compressed form), never fails for want of room in a count, and loses, repeats and reorders nothing: a receiver that takes the stream apart by its two-octet lengths, in whatever pieces it arrives, reads exactly these messages, and their answers one after the other are the records. No other division of the list takes fewer messages.", "quantifier": "every list of records that fit a message, of any length, every limit up to 65535, every header and other sections, every cutting of the stream into pieces, every other division of the list", "why_tests_cant": "Tests send one or two messages; how many are needed, where they are divided and how the stream is cut are unbounded.", "anchors": ["src/packet.rs: add_answer, byte_size, to_bytes, to_bytes_compressed, try_from", "src/resource.rs: byte_size", "src/buffer.rs: extract_u16, extract_bytes, set_position"]}
{"id": "C121", "title": "Replies find their queries in whatever order they arrive", "statement": "A client that has any number of queries under way, each with its own id and question, and that takes a message for the answer to one of them if it is a reply with that id and question, gives every query of which a reply arrives exactly the answers the server has for it, once, whatever the order in which the replies arrive, whichever of them are lost or come twice and whatever else arrives in between. It never delivers an answer that was not in such a message.", "quantifier": "every set of queries with distinct ids, every function from questions to answers, every sequence of arrivals: all interleavings, losses, repetitions and other messages; either form on both ways", "why_tests_cant": "The number of queries and the schedules of arrival are unbounded.", "anchors": ["src/packet.rs: new_query, with_questions, new_reply, set_questions, set_answers, id, query_response, questions, answers, to_bytes, to_bytes_compressed, try_from", "src/question.rs: Question (PartialEq)"]}
{"id": "C122", "title": "A chain of trust of any length leads to what the zone at its end has signed", "statement": "A resolver starts from a key of one zone that it trusts. Step by step it takes a set of DS records that Rrsig::verify accepts with the key it has, and goes on to a key from which Ds::try_from_dnskey makes one of these records. After any number of steps, the key it has belongs to the zone whose name it has reached, and a set accepted with it is one which this zone has signed, provided that the zones passed on the way sign DS records only for keys of the zones concerned, that no signature on the way is a forgery and that the digests do not collide; no other zone has any influence. A chain made with the library passes.", "quantifier": "every anchor, number of steps, zone names, keys, algorithms, digest types, record sets and signatures; any behaviour of the other zones and of whoever delivers the records", "why_tests_cant": "the chain may have any length and everything that is not on it may be chosen by an adversary; a test has a fixed chain and no adversary", "anchors": ["src/rdata/dnssec.rs: Rrsig::verify, Rrsig::from_dnskey, Ds::try_from_dnskey, Dnskey::compute_key_tag", "src/resource_record_set.rs: ResourceRecordSet::to_bytes"]}
{"id": "C123", "title": "NSEC records deny exactly what a zone does not have", "statement": "A server gives each name of a zone an NSEC record with the next name of the zone and the types of the name, the last one with the first name, and sends them in any number of messages, in either form, together with other records. A resolver that reads the messages and compares names with the order of FQDN takes a name as denied if it lies between a name and the next: these are exactly the names the zone does not have, in whatever case of letters, and the types denied at a name exactly those it does not have. This holds for zones in the canonical order of RFC 4034 as every signer makes them.", "quantifier": "every zone of any size, every name and type asked for, every distribution over messages, both written forms, every hash function without collisions on the names", "why_tests_cant": "a zone may have any number of names and the gaps between them hold infinitely many; a test asks for a few", "anchors": ["src/rdata/dnssec.rs: Nsec::{new,with_types}, TryFrom for Nsec, Nsec::to_bytes", "src/fqdn.rs: derived Ord and PartialEq of FQDN", "src/packet.rs: Packet::{to_bytes,to_bytes_compressed,try_from}"]}
{"id": "C124", "title": "Aliases in a received message can be followed to their end", "statement": "A message contains CNAME records in any order among others, and no name has two. A resolver that has received it, in either form, and goes from a name to its alias with FQDN's equality, at most one step for each record and one more, comes to the end of the aliases exactly if they have one, finds there the records that the sender put there, and otherwise the aliases go round in a circle. Names that differ in the case of letters only are the same name.", "quantifier": "every packet, number and order of aliases, starting name, written form, every hash function without collisions on the names", "why_tests_cant": "alias chains and circles have any length and the records may come in any order; a test has a few", "anchors": ["src/rdata/cname.rs: Cname", "src/fqdn.rs: derived PartialEq of FQDN, FQDN::{to_bytes,to_bytes_compressed}", "src/packet.rs: Packet::{to_bytes,to_bytes_compressed,try_from}"]}
{"id": "C125", "title": "Two hosts that probe for the same name agree on which has lost", "statement": "Two hosts propose records for the same name in multicast DNS and send each other their proposals in the authority section of a message, in either form. Each sorts its own records and those received by class, type and the octets of the data, with the orders of RecordClass, RecordType and Vec<u8>, and compares the lists; the one whose list is earlier has lost. Then one has lost exactly if the other has won, and neither exactly if they propose the same records, and the order is the one that RFC 6762 prescribes, so that this also holds for a host that goes by the numbers.", "quantifier": "every two lists of records, orders in which they are held, written forms, sortings, every hash function without collisions on the names", "why_tests_cant": "the two hosts may propose any number of records in any order, and what each computes from octets received must be what the other computes from its own records", "anchors": ["src/packet.rs: Packet::{authorities,to_bytes,to_bytes_compressed,try_from}", "src/resource.rs: RecordClass (derived Ord), RecordType (derived Ord)", "src/rdata/mod.rs: RecordData::to_bytes"]}
{"id": "C126", "title": "A signature finds its key among any number of keys", "statement": "A validator that has received a signature made with Rrsig::from_dnskey and a message with DNSKEY records tries each key whose key tag, as Ds::try_from_dnskey computes it, is the one that Rrsig::key_tag names, and passes over every answer of Rrsig::verify but yes. It never panics; it accepts exactly if one of these keys accepts; and it accepts if the signing key is among them, whatever the other keys are, malformed ones included, and in whatever order they come. Since the tag is there to select the key, trying the first key with the tag would be enough.", "quantifier": "every list of keys received (any algorithm, flags, octets, order), signature, record set, key pair and message, plain or compressed", "why_tests_cant": "keys are chosen by whoever publishes them, and colliding tags, malformed keys and orders are unbounded in number; a test has a few keys with different tags", "anchors": ["src/rdata/dnssec.rs: DnsKey::compute_key_tag, Ds::try_from_dnskey, Rrsig::key_tag, Rrsig::from_dnskey, Rrsig::verify"]}
{"id": "C127", "title": "Comparing with == is comparing what is sent", "statement": "Two packets compare equal with == exactly if all their parts are the same, EDNS options being compared as a map whatever the order in which it lists them; == is reflexive, symmetric and transitive. A packet received compares equal to the one that was sent, equal packets are written with the same octets, and packets that are not equal are never written with the same octets. The same holds of records, questions, headers and record data.", "quantifier": "every two packets of any size with records of all types; every order of the option maps on both sides; plain and compressed form", "why_tests_cant": "the equality of every type with all its fields is used by every other comparison, among them the tests' own assertions, and the pairs of values to try are unbounded", "anchors": ["src/packet.rs: Packet (derive PartialEq)", "src/resource.rs: ResourceRecord, RecordClass, RecordType", "src/question.rs: Question, QType, QClass", "src/header.rs: Header, FlagBitfield, OpCode, ResponseCode", "src/fqdn.rs: FQDN", "src/rdata/mod.rs: RecordData, Algorithm", "src/rdata/opt.rs: Opt", "src/rdata/svcb.rs: Svcb, Param, ParamKey"]}
{"id": "C128", "title": "Answers the asker knows already are left out, and no others", "statement": "A responder that leaves out of its reply the records which the answer sections of the received queries list with the same name, type, class and data and at least half of the time to live leaves out exactly those the asker has put there, over any number of messages. Records received in an answer, put into a query some time later with the remaining time, are answered again exactly if more than half of their time is over. Names are compared without regard to case.", "quantifier": "every list of known answers over any number of messages of both forms, records of all types, every age, every list of answers of the responder", "why_tests_cant": "the answer depends on every record of every message, on their equality after two transmissions, and on the elapsed time", "anchors": ["src/packet.rs: Packet::answers, Packet::try_from, to_bytes, to_bytes_compressed", "src/resource.rs: ResourceRecord::set_time_to_live, set_cache_flush, PartialEq", "src/fqdn.rs: FQDN (derive PartialEq)", "src/rdata/mod.rs: RecordData (derive PartialEq)"]}
{"id": "C129", "title": "What is announced replaces what was held, in every cache alike", "statement": "For every history of multicast messages, each in the plain or the compressed form, a cache that puts in the answers and additional records it parses, and lets a record replace the same one and, with the cache flush bit, the others of its name, type and class that came more than a second before, gives at every time exactly the records that have been announced, are not over, and have not been replaced or withdrawn later. Once a set has been announced with the bit more than a second after the messages that a cache has missed, the cache gives the same records of that set as one that has missed nothing.", "quantifier": "every history of messages of any length with records of all types at any times; every suffix of it heard by a late host; every point in time", "why_tests_cant": "the state of a cache depends on the whole history and on the equality of every received record with every one held", "anchors": ["src/packet.rs: Packet::answers, additionals, try_from, to_bytes, to_bytes_compressed", "src/resource.rs: ResourceRecord::cache_flush, time_to_live, PartialEq", "src/rdata/mod.rs: RecordData (derive PartialEq)"]}
{"id": "C130", "title": "Services that are offered are found", "statement": "Who has received any messages and joins their records - the PTR records of a kind of service, the SRV and TXT records of an instance, the addresses of a host - finds exactly the instances, ports, hosts, addresses and texts that the messages as sent say, whichever message and section each record came in. An instance whose name is shown to a user as text and made from this text again is found again.", "quantifier": "every list of messages of either form with any records in any sections; every kind of service and instance", "why_tests_cant": "joins over all records of all messages; names that come from record data are compared with owner names, across compression and any number of messages", "anchors": ["src/packet.rs: Packet::try_from, to_bytes, to_bytes_compressed, answers, authorities, additionals", "src/fqdn.rs: FQDN::new, Display, PartialEq", "src/rdata/srv.rs: Srv", "src/rdata/ptr.rs: Ptr", "src/rdata/txt.rs: Txt"]}
{"id": "C131", "title": "Who asks again after a truncated reply has all answers", "statement": "A server fills replies up to the limit of a datagram and, over TCP, up to 65535 octets, and marks those that are not complete as truncated. A client that reads the datagram and, if it is so marked, takes the message that arrives over TCP in whatever pieces, ends with all answers in order, unless they do not fit into 65535 octets, in which case the reply it has says so.", "quantifier": "every reply, every list of answers of any length, every limit, every way of cutting the stream into pieces", "why_tests_cant": "combines the sizes of all possible answers, the flag, the framing of the stream and its cutting into pieces", "anchors": ["src/packet.rs: Packet::add_answer, byte_size, set_truncation, truncation, to_bytes, try_from", "src/buffer.rs: DnsBuffer::extract_u16, extract_bytes, set_position"]}
{"id": "C132", "title": "Messages can be authenticated with TSIG", "statement": "Who shares a key with the receiver can authenticate a message (RFC 8945) with what the library offers: write the packet, compute the code over the octets and the variables, add the TSIG record and send. The receiver takes the record off the received packet, puts the original ID back, writes what is left and computes the code. A message so made is accepted within its time, whatever ID it got on the way; a message that is accepted has the content, the time and the other variables of one that was authenticated; and the code is over the very octets that are sent before the TSIG record.", "quantifier": "every packet that the wire format can carry, both forms, every key name, algorithm name, time, fudge and clock, every authentication function, every list of messages authenticated before and every octet sequence received", "why_tests_cant": "what an attacker may send ranges over all octet sequences, and the authentication function over all functions; a test tries a few changes with one function", "anchors": ["src/rdata/tsig.rs: Tsig", "src/packet.rs: Packet::add_additional, take_additionals, set_additionals, set_id, to_bytes, to_bytes_compressed, TryFrom"]}
{"id": "C133", "title": "Incremental zone transfers are followed", "statement": "Who receives the answer to an IXFR query (RFC 1995), spread over any number of messages, goes through its records, takes away what is removed (compared with ==) and adds what is added, and then holds exactly the records of the changed zone, whatever the changes were; if the whole zone is sent instead it holds that, and if nothing has changed its zone stays as it is. Names are compared without regard to case.", "quantifier": "every zone, every sequence of changes of any length, every way to spread the answer over messages in either form", "why_tests_cant": "sequences of changes, zones and divisions into messages are unbounded in number and size", "anchors": ["src/packet.rs: Packet, answers, TryFrom, to_bytes, to_bytes_compressed", "src/resource.rs: ResourceRecord, PartialEq", "src/rdata/soa.rs: Soa", "src/fqdn.rs: FQDN, PartialEq"]}
{"id": "C134", "title": "Reverse names lead back to their addresses", "statement": "Who asks for the name of an address makes the reverse name from the text of the address (in-addr.arpa, RFC 1035 section 3.5; ip6.arpa, RFC 3596 section 2.5) with FQDN::new. A server that goes through the labels of the received question, turns them round and has the library read the text of the address gets this address, and takes no other name for a reverse name; the case of letters makes no difference.", "quantifier": "every IPv4 and IPv6 address, every name whatever its labels contain, every message in either form that asks for it", "why_tests_cant": "there are 2^32 and 2^128 addresses, and names without end that look like reverse names", "anchors": ["src/fqdn.rs: FQDN::new, iter, PartialEq", "src/rdata/a.rs: A, TryFrom<&str>", "src/rdata/aaaa.rs: Aaaa, TryFrom<&str>", "src/packet.rs: Packet, questions"]}
{"id": "C135", "title": "Padded messages have the size of whole blocks", "statement": "Who fills messages up to a multiple of some number of octets with the EDNS padding option (RFC 7830, RFC 8467) - adds an OPT record with an empty padding option, asks how long the message is (byte_size, or the length of what is written), and adds the record with as many zeros as are missing instead - sends messages of exactly that size, whatever other options there are and in whatever order the map lists them; they need no block more than necessary, arrive as they are, and messages that need the same number of blocks have the same size.", "quantifier": "every packet with records of all types, every list of options in every order of the two maps, every block size, both forms", "why_tests_cant": "packets, options, their orders and block sizes are unbounded; the size depends on the compression of all names before the record", "anchors": ["src/rdata/opt.rs: Opt, byte_size, to_bytes", "src/packet.rs: Packet::add_additional, byte_size, to_bytes, to_bytes_compressed, TryFrom", "src/resource.rs: ResourceRecord::to_bytes, to_bytes_compressed, RecordClass::UdpPayloadSize"]}
{"id": "C136", "title": "The CAA records that are sent decide who may issue", "statement": "A certification authority that has received any messages with CAA records (RFC 8659) and goes from the name in the request towards the root, to the first name that has some, takes its decision from exactly the records as sent: it issues if no name on the way has any, or if those of the closest one have no critical property that is not understood, and either none for issuing or one that names it. Names are compared without regard to case, and it makes no difference in which form a message was sent.", "quantifier": "every list of messages of either form with any records, every name in a request, every authority, every value with any blanks and parameters", "why_tests_cant": "names, records, messages and values are unbounded, and a value that is read wrongly in one of them changes the decision", "anchors": ["src/rdata/caa.rs: Caa, byte_size, to_bytes, TryFrom", "src/packet.rs: Packet::answers, to_bytes, to_bytes_compressed, TryFrom", "src/fqdn.rs: FQDN, PartialEq", "src/resource.rs: ResourceRecord::to_bytes"]}
{"id": "C137", "title": "The endpoints that SVCB records offer are found", "statement": "A client that has received any messages takes the SVCB records of a name (RFC 9460) that are not aliases and whose mandatory keys it understands and finds in the record, the target or, if that is the root, the name itself, and the port or, if none is given, the usual one, and orders them by priority. It finds exactly the endpoints that the records as sent offer, in that order. Parameters that it does not know and that are not mandatory make no difference, names are compared without regard to case, and it makes no difference in which form a message was sent.", "quantifier": "every list of messages of either form with any records, every name, every set of keys that the client understands", "why_tests_cant": "records, parameters and messages are unbounded; whether the port is the one that was sent depends on the order and uniqueness of the parameters of every record", "anchors": ["src/rdata/svcb.rs: Svcb, mode, Param, ParamKey, TryFrom, byte_size, to_bytes", "src/packet.rs: Packet::answers, to_bytes, to_bytes_compressed, TryFrom", "src/fqdn.rs: FQDN, PartialEq"]}
