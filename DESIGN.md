# Formal model of maybe-dns in Rocq — design

## 1. What is modelled and how

The model is a set of total Gallina functions over byte lists, one function per
Rust function, in `rocq/theories/`.  Every definition cites file and lines.

* Bytes and machine integers are `N`; positions and lengths are `nat`.  Every
  narrowing cast and every `+`/`-`/`*` that can overflow is explicit (`len8`,
  `len16`, `u16`, `uadd`, `usub`, `umul`).
* Every fallible Rust function returns `res A = Ok a | Err e | Panic | Diverge`.
  `Panic` is every index out of bounds, failed `unwrap`, and overflow in a build
  with overflow checks; `Diverge` is a loop that does not return.
* A parser is `buf -> res A * buf` where `buf` is `DnsBuffer` (data, position);
  the buffer after a failure is part of the result.
* `cfg` carries the cargo features `mdns`, `dnssec` and the build profile
  (`ovf` = overflow checks on).  All theorems quantify over it.
* Loops without an obvious measure (`extract_fqdn`, the option and parameter
  loops) have fuel; the fuel given is proved sufficient, so running out of it
  means the Rust loop never ends (C08), or never happens.
* `HashMap` of EDNS options: a list of entries in the order this map iterates
  in.  `BTreeSet`: a strictly sorted list.

Layers (order of `_CoqProject`):

| Files | Content |
|---|---|
| `Base Utf8 Buffer BufferApi Fqdn Header Types RDataBasic Bitmap Svcb RDataSec RData Packet Dnssec Api Construct Misc Reserve Print Steps Base64 SipHash Work ErrorText AddrText Unsafe Sets Equality` | the model |
| `NameSpec CompressSpec HeaderSpec CodeSpec RDataSpec RecordSpec WireSpec ApiSpec FailSpec FieldSpec DnssecSpec LayoutSpec ReadSpec StopSpec ErrSpec InteropSpec ObjectSpec VerifySpec ConstructSpec BuildSpec HeldSpec StrictSpec Base64Spec AddrSpec` | independent specifications used in theorem statements |
| `*Facts *Reads *Loop *Parse *Props *Unique *Packet` | lemmas |
| `Prop*` | the property theorems, an `Example` beside each, and `Print Assumptions` |
| `Conformance` | the test vectors of the repository, evaluated in the model |

## 2. Trusted base

* The kernel of Coq 8.16.1, including its `vm_compute` reduction.
* `Print Assumptions` says "Closed under the global context" for every property
  theorem: no axiom at all is used.  `coqchk` additionally lists seven axioms of
  the standard library that are loaded but not used by any theorem:
  `Coq.ssr.ssrunder.Under_rel.{Under_rel, Under_rel_from_rel, Under_relE,
  Over_rel, over_rel, over_rel_done, under_rel_done}`.
* The transcription of the Rust code into the model, as cited definition by
  definition, and the meaning of the standard library functions it uses
  (`Vec`, slices, `str::split`, `String::from_utf8(_lossy)`, whose model C90
  checks against Unicode, `BTreeSet`, `HashMap`, integer conversions).  `Conformance.v` checks the transcription
  against the values in the repository's own unit tests.
* Parameters of the model (function arguments, never axioms):
  * the hash of name compression (`hasher`): every function is allowed; where
    the property needs it, a premise says that the suffixes present do not collide
    (C84 takes the hash of today's standard library instead, modelled in `SipHash.v`);
  * `slice::binary_search` (`bsearch`): any function meeting its documented
    contract `search_contract`;
  * the cryptographic primitives (`prims`): any functions; C39 assumes that
    verification accepts what signing produces for matching keys, C39 and C92 that
    the crates want keys and signatures in the forms their documentation names
    (`compares_unprefixed`, `wants_point`, `wants_der`), each as a premise;
  * the iteration order of the option map: every order.

* RSA in the forms the crates `rsa` and `ring` use it (`Rsa.v`) and SHA-1 and SHA-256
  (`Sha.v`): written down from RFC 8017, FIPS 180-4 and the documentation, used by C94
  and `Conformance.v` only.
* The `base64` crate: its standard engine is modelled (`Base64.v`), not read.
* The address parser of the standard library (`core::net::parser`): modelled
  function by function (`AddrText.v`), its source is not in the sandbox.
* Undefined behaviour is modelled in one place only, the stores through a raw
  pointer in `Packet::to_bytes` (`Unsafe.v`, C88); C12 treats the unchecked text
  of names.

* Of `BTreeSet`: `insert` keeps what is there, `from` and `collect` keep the last
  of equal elements (`Sets.v`, C91).
* `derive(PartialEq)` compares all fields in order, vectors element by element
  and by length, and `HashMap`s by size and by looking up every key
  (`Equality.v`, C127).

Not modelled: `Debug` of anything but errors, accessors that hand out
references (except the iterators of names, C74), the internals of the cryptographic crates,
allocation failure, and the stack depth of recursion (there is none in the Rust
code except in generated code).  `Packet.v` writes the four counts of
`Packet::to_bytes` as octets; `Unsafe.v` has the stores through the pointer.

## 3. Per property: model, method, outcome

* **C01** Cursor never leaves the buffer — *proved*.  `BufferApi` with 64-bit `usize`; induction over call histories.  Outcome: Every finite history of buffer calls with arguments up to isize::MAX.
* **C02** Extraction returns exactly the next bytes or fails without moving — *proved*.  Case analysis on the bound, for all lengths, against `slice` of the data.
* **C03** Huge lengths never move the cursor backwards or crash — *partial*.  `BufferApi` in both profiles.  Outcome: False as stated: with overflow checks a huge length panics, without them it wraps and yields a sub-buffer whose position is past its end. Proved instead: the exact behaviour of all four calls for every usize argument, overflowing or not.
* **C04** A sub-buffer confines reads — *proved*.  Two-run theorem: windows that agree give equal results, for every parser.  Outcome: Record data and every framed parser see only the window. The owner name in front of the window is not framed; C04_outside_window shows a bare name can look past the end of its own octets.
* **C05** Names read back as written (uncompressed) — *proved*.  Induction over labels; wire format spelled out separately.  Outcome: Round trip for every list of labels of 1..191 octets anywhere in a message. Boundary theorems: empty labels are dropped, labels of 192..255 octets never read back. Exact: reads back iff every label has 1..191 octets.
* **C06** FQDN::byte_size equals the number of bytes written — *proved*.  Induction over labels.
* **C07** extract_fqdn decodes exactly the RFC 1035 name at the cursor — *proved*.  Inductive relation `name_at` on raw octets (NameSpec); equivalence with the loop; fuel adequacy by pigeonhole over positions.  Outcome: iff with an inductive RFC 1035 relation on raw octets; all strict RFC 1035 names (labels up to 63) are accepted; the decoded name is unique.
* **C08** Name extraction always terminates — *partial*.  Relation `circular` (NameSpec): walks that come back; equivalence with divergence.  Outcome: False as stated: a pointer to itself loops for ever and a label followed by a pointer to it grows memory without bound. Proved instead: it diverges exactly on circular names; messages without pointers terminate.
* **C09** Name extraction never panics — *partial*.  Relation `runs_off` (NameSpec); equivalence with panics.  Outcome: False as stated: the parser panics when a name runs off the message. Proved instead: exact characterisation of the panics.
* **C10** Text form of names is stable — *proved*.  List induction against splitting and joining at dots.
* **C11** Name predicates mean what they say — *partial*.  List induction.  Outcome: is_empty is always false, so that clause is refuted; the other three are proved.
* **C12** Displayed names are valid text — *partial*.  UTF-8 automaton of `Utf8` against the Unicode definition.  Outcome: False for parsed names (unsafe from_utf8_unchecked on arbitrary octets); proved for names built from text, and as an iff: a name prints as valid text exactly if each of its labels is valid text.
* **C13** Compressed names read back as written — *proved*.  Invariant "every dictionary entry points at a decodable copy of its suffix" over a sequence of names.  Outcome: Hypotheses: label sizes, message within 16384 octets, hash separates the name tails present.
* **C14** Compression is safe without side conditions — *partial*.  Counterexamples for each missing side condition; C13 with all of them.  Outcome: False as stated, one refutation per missing side condition; with the three conditions it holds.
* **C15** Compression never makes a name longer, and its size prediction is exact — *proved*.  Induction over labels with arbitrary dictionary.
* **C16** Header round-trips bit-exactly — *proved*.  Bit arithmetic for all values, against field positions of RFC 1035 4.1.1.
* **C17** Header setters are independent and observable — *proved*.  State machine over setters against a record of abstract fields; induction over histories.
* **C18** Reading flags of a received header never panics — *partial*.  Case analysis over all codes.  Outcome: False as stated: response_code() panics for codes 11..15; the exact condition is proved.
* **C19** Record and query type codes are a faithful numbering — *partial*.  Tables of IANA numbers (CodeSpec) against the conversion functions, for every build.  Outcome: False for CDS and CDNSKEY, which are written but never read; proved for every other type, every number and every build.
* **C20** Class codes are a faithful numbering modulo the mDNS bit — *proved*.  Same, with bit 15 arithmetic.  Outcome: C20_record_classes gives the exact condition for a class to survive.
* **C21** Every other coded field is a faithful numbering — *partial*.  Same, per enumeration, with ranges for the payload-carrying variants.  Outcome: False where values share a code (TKEY Available(1..5), NonExtendedRcode(16..), SVCB Private(0..6)), for opcodes (unknown ones become Reserved) and NAPTR flags (unknown ones are dropped); proved for all other fields and for the documented ranges.
* **C22** Questions round-trip — *proved*.  Read-back calculus `reads`.  Outcome: Round trip, exact layout and the compressed form. Exact: a question reads back iff question_ok.
* **C23** Record data round-trips — *partial*.  Read-back calculus, one lemma per type; `rdata_typed`/`rdata_fits` (RDataSpec) are the per-type conditions.  Outcome: False as stated: SSHFP data never reads back, HIP with an empty server list and TSIG times above 48 bits change. Proved for every value of every other record type (rdata_typed and rdata_fits give the conditions per type). Exact for data of at most 65535 octets: the data read back iff rdata_fits.
* **C24** byte_size of record data equals the bytes written — *partial*.  Per-type arithmetic; the difference is given by an explicit function.  Outcome: False as stated: byte_size is wrong for some types. Proved: exactly when it is right and what the difference is.
* **C25** RDLENGTH frames the record data — *partial*.  From C24.  Outcome: False for the plain writer, which takes RDLENGTH from byte_size; iff condition proved. Proved for the compressed writer.
* **C26** Resource records round-trip — *partial*.  Read-back calculus, composed with framing; compressed form threads the dictionary invariant of C13.  Outcome: False for the plain writer (wrong RDLENGTH), for classes that share a code and for records whose type differs from the data; iff condition proved for the plain writer, round trip for the compressed one. Exact: for any record whose data has its Rust type, the plain form reads back iff rr_plain_ok.
* **C27** A parsed record's data matches its type, and parsing consumes exactly the framed bytes — *proved*.  Relation on raw octets (WireSpec); two-way parser calculus.  Outcome: iff with a layout relation on raw octets; C27_exact and C27_data spell out the record data of all 37 types without reference to the parsers.
* **C28** Packets round-trip (uncompressed) — *partial*.  From C26 by induction over sections; the converse (SpoilFacts.v, PropSpoil.v) from the exact layout of the three kinds of data that are announced too short, at the place where the reader finds them.  Outcome: False as stated: packets with OPT, RRSIG, CAA or SVCB records get a wrong RDLENGTH in the plain form (C28_plain_refuted). Proved for every packet whose records are not of these kinds, with any trailing octets. C28_plain_iff_partial: without SVCB parameters and with data of at most 65535 octets, exactly these well-formed packets come back; C28_changed_refuted: with OPT, RRSIG or CAA, the first such record always arrives changed, if anything arrives; C28_svcb_refuted: a message that ends with an SVCB record with parameters is rejected.
* **C29** Packets round-trip (compressed) — *partial*.  From C26, threading the dictionary; the converse (ReturnFacts.v, PropSpoil.v) by induction over the records, each read at the place where it was written.  Outcome: False only for SSHFP records, which never read back. Proved for every other well-formed packet, under the stated size and collision conditions. C29_compressed_iff_partial: under these conditions no other packet comes back, so well-formed entries and right counts are the exact condition.
* **C30** Compressed and plain forms say the same — *partial*.  From C28, C29, C15.  Outcome: Equality is false where the plain form is wrong (C30_same_refuted); proved for all other well-formed packets. The length claim is proved for every packet without empty labels.
* **C31** Packet::byte_size equals the bytes written — *partial*.  From C24.  Outcome: False as stated; the exact difference is proved for every packet.
* **C32** Header counts track the sections through any API history — *partial*.  Invariant over API histories (ApiSpec).  Outcome: False for with_questions, take_authorities, set_header and questions_mut, one refutation each; proved for every history of all other calls. Section contents after any history at all are proved.
* **C33** Serialised counts are the true counts — *partial*.  Direct, against big-endian fields at fixed offsets.  Outcome: Proved for to_bytes. False for to_bytes_compressed, which repeats the counts of the header (exact statement proved).
* **C34** Packet parsing lays out the sections as the header says — *proved*.  Relation on raw octets (WireSpec), induction over counts.  Outcome: iff with a layout relation on raw octets; C34_exact without reference to any parser.
* **C35** Trailing bytes do not matter — *proved*.  From C34.
* **C36** Packet parsing never panics and always terminates — *partial*.  Relations on raw octets (FailSpec, StopSpec): what is read before a name, a bitmap or a parameter list, and what that runs into; iff.  Outcome: False as stated: panics and endless loops exist. Proved instead: exactly on which messages, as an iff with a specification on raw octets that covers the data of all record types (C36_exact_partial, C36_data_exact_partial).
* **C37** Serialising a parsed packet preserves it — *partial*.  "Parsed values are well-formed" and C29.  Outcome: False for the plain form of CAA/OPT/RRSIG/SVCB, for SSHFP and for text that grows when decoded. Proved: parsed packets always serialise, and come back in all other cases. C37_compressed_iff_partial: passed on in compressed form, exactly the packets without SSHFP records and overlong text come back. C37_plain_iff_partial: in plain form, without SVCB parameters, exactly those that have no OPT, RRSIG and CAA records either.
* **C38** RRset canonical form does not depend on insertion order — *proved*.  Insertion by a binary search that meets its documented contract; permutations and lexicographic order (DnssecSpec).  Outcome: For every record set whose data can be written, and every binary search that meets the documented contract. Against a specification in terms of permutations and the octet order.
* **C39** A signature made with the library verifies — *partial*.  `prims` record of abstract primitives with correctness contract; equality of signed and verified octets.  Outcome: False for RSA/SHA-256 and RSA/SHA-512 (signed with a DigestInfo header, verified without) and for DSA (raw r and s signed, DER verified); the three code points without an algorithm never sign. Proved for the other six algorithms relative to correct primitives, together with the exact signed octets and an exact criterion for acceptance.
* **C40** Key tags are RFC 4034 key tags — *partial*.  Arithmetic of the RFC sum (DnssecSpec), both profiles.  Outcome: False for algorithm 1 (RSA/MD5), whose key tag RFC 4034 B.1 defines differently, and keys of more than 131064 octets can overflow in debug builds. Proved: equal to the general algorithm of appendix B for every key of up to 131064 octets, which includes all keys a record can carry; exactly what happens for keys of any size (C40_exact_partial).
* **C41** Type bitmaps are RFC 4034 bitmaps — *partial*.  Bitmap as a set of (window, octets) (FieldSpec).  Outcome: False: sets without a type below 256 get an empty window, and types CDS/CDNSKEY do not read back. Proved: the exact octets written, for every set.
* **C42** Bitmap parsing is total and exact — *partial*.  Two-way calculus over windows.  Outcome: False: window 255 with more than 32 octets panics in debug builds and aliases in release builds. Proved: the exact set read, as an iff.
* **C43** SVCB parameters keep their framing — *partial*.  Two-way calculus over parameters.  Outcome: False: parameters with fixed-size values ignore their announced length, and odd lengths underflow in debug builds. Proved: the exact parameters read, as an iff; first duplicate kept; order by key; no panic in release builds.
* **C44** Received text is always valid text and valid text is kept — *proved*.  UTF-8 automaton; lossy decoding.
* **C45** EDNS options survive a round trip regardless of map order — *proved*.  Permutations of entries; last occurrence.
* **C46** mDNS bits do not leak into the class — *proved*.  Bit 15 arithmetic, both parsers and both writers.
* **C47** Record data obeys the no-compression rule of its type — *proved*.  Case analysis; the plain writer as reference.  Outcome: As declared by compression_allowed. C47_rfc3597_refuted records that the declaration itself allows SRV and NSEC, against RFC 3597.
* **C48** Signature validity times are kept — *partial*.  Arithmetic on times.  Outcome: False: the times are written in milliseconds, so they mean another time and their order can be reversed. Proved: the exact values, that their order is right until 2^32 ms after the epoch, and the error before 1970.
* **C49** Serialisation never panics — *partial*.  Per-type conditions; iff over packets.  Outcome: False with overflow checks for SVCB parameters of 65532 octets or more; exact condition proved, and unconditional for release builds.
* **C50** Coded fields use the registered numbers — *partial*.  Tables of registered numbers (CodeSpec).  Outcome: False for SSHFP Ed448 (5 instead of 6) and for IPSECKEY/HIP, where RSA and DSA are exchanged; DS digest type 5 is not SHA-512. All other numbers are proved to be the registered ones.
* **C51** Record data has the layout its RFC defines — *partial*.  Table of RFC fields per type (`fields_of` in LayoutSpec) and a relation saying which octets a list of fields stands for; uniqueness.  Outcome: False for IPSECKEY without gateway (an extra octet 46) and for APL addresses ending in a zero octet. Proved for every other value of every type whose code points are the registered ones (C50), against a table of the RFC fields kept apart from the encoders; the layout determines the octets uniquely. C51_instead gives the octets written in the cases left out for APL, DS, SSHFP, IPSECKEY and HIP.
* **C52** DS records are made from the DNSKEY as RFC 4034 says — *partial*.  Equality with digest of the RFC octets.  Outcome: Proved as stated for the owner name in the spelling given; C52_owner_case_refuted records that the name is not brought into canonical form first.
* **C53** The hexadecimal digest is exact — *proved*.  Induction; injectivity.
* **C54** A signature stays valid for the same record set — *partial*.  Signed octets of both sets compared.  Outcome: False, one refutation each for a counted-down TTL, another spelling of the owner, and a repeated record. Proved: any such change always changes the signed octets.
* **C55** The fields of a new signature describe the set — *partial*.  Field by field.  Outcome: False for wildcard owners, whose leading label must not be counted. Proved as an iff: the label count is right exactly if the owner is no wildcard; the signer name is always the owner name.
* **C56** Messages have the layout of RFC 1035 — *partial*.  LayoutSpec for header, question, record, message; uniqueness; reading back.  Outcome: False for packets with OPT, RRSIG, CAA or SVCB records, whose RDLENGTH is wrong in the plain form (C24). Proved as an iff for headers, questions, all other records and messages, and that octets so laid out parse to the message.
* **C57** Names respect the size limits of RFC 1035 — *partial*.  Induction on the walk of C07; pointers lead strictly backwards, so the labels start at different octets.  Outcome: False: labels of 64 to 191 octets and names above 255 octets are accepted, and overlapping labels make a name longer than its message. Proved: fewer labels than octets in the message, each of 1 to 191 octets, at most 192 octets for each octet of the message; names within the limits of RFC 1035 are accepted and stay within them.
* **C58** Parsing needs no more room than the message — *proved*.  From the exact parser specification of C34, induction over the sections.  Outcome: C58_every_name covers the names in the data of all record types: each stands somewhere in the message.
* **C59** Names compare as DNS names — *partial*.  Structural equality against folded labels and against the wire form; injectivity of the wire form.  Outcome: False: names that differ in case are unequal, and a name with an empty label is unequal to one written alike. Proved: equality implies equal spelling and octets, and is the same as equal octets for labels of 1 to 255 octets.
* **C60** record_type() and into_record_data() belong together — *proved*.  Cases over the 35 structs against a table of IANA numbers; C26 for the round trip.  Outcome: CDS and CDNSKEY have a variant but no struct; the statement says so.
* **C61** Setters change only their own field — *proved*.  Induction over the call history, one generic lemma.
* **C62** Order and equality of service parameters agree — *partial*.  The contract of Ord as a specification; sortedness from C43.  Outcome: False of all values: Private(0) and Mandatory compare as equal, and so do two ports. Proved for all keys with a number of their own, and for the parameters of every received record.
* **C63** DHCID digests are those of RFC 4701 — *partial*.  C05 for the wire form; SHA-256 a parameter.  Outcome: False for names with upper-case letters. Proved for all others, and for all names that the digest is that of the name as spelled; SHA-256 is any function.
* **C64** Names sort in canonical order — *partial*.  Lexicographic order as an inductive specification; generic lemmas on lexicographic comparison.  Outcome: False: names are compared from the first label on and by octets. Proved: a total order in agreement with equality, exactly the lexicographic one; in lower case, names with the same parent are in canonical order, and any two names in that of the names turned round.
* **C65** Conforming messages are understood — *partial*.  RFC fields of C51/C56 placed in a message with RFC 1035 compression (InteropSpec); shown to be what the exact reading of C27/C34 describes.  Outcome: False for SSHFP, IPSECKEY without gateway or with RSA or DSA keys, APL with an odd number of address octets, CDS and CDNSKEY, text that is not UTF-8, records and bitmaps with unknown types, and SVCB hints with several addresses; one refutation each. Proved for all other messages the API can express, against a layout that does not refer to the parser.
* **C66** A signature is accepted only when RFC 4035 allows its use — *partial*.  RFC 4035 5.3.1 as a record of conditions; witnesses made with the library's own signing function.  Outcome: False: apart from the algorithm nothing of RFC 4035 5.3.1 is checked; refuted for expired and premature signatures, keys that are no zone keys, other key tags, other types, label counts and signers. Proved: the algorithm is checked, and signatures made with the library from a proper key are usable within their period.
* **C67** The error of a rejected message names the first thing that is wrong — *partial*.  Parts of each record type with their faults as a specification over raw octets (ErrSpec); a calculus of errors parallel to those of C27 and C36.  Outcome: Proved as an iff for all messages and errors, against a table of the parts of each type and their faults; with C34 and C36 it says for each message what parsing does. The table is the code's: four kinds of fault have another error than the documented one (refuted: TLSA, HIP and IPSECKEY algorithms as SSHFP algorithm, TSIG errors as TKEY error, text that is not UTF-8 as length violation).
* **C68** What is passed to a constructor is what goes on the wire — *partial*.  Every constructor as a value of a type of calls; the fields it asks for, from the RFCs, against the layout of C51.  Outcome: Proved for the arguments for which C51 holds (exceptions, refuted in C41, C50 and C51: APL addresses ending in a zero octet, CSYNC and NSEC without a type below 256, SSHFP with Ed448, DS with SHA-512), and for whole records where the size is computed correctly (C24); sets of records likewise, with the owner, type, class and TTL passed to ResourceRecordSet::new.
* **C69** Debug and release builds agree — *proved*.  Two runs in parallel: equal or the first one panics; closed under all combinators of the model, so that only the machine arithmetic has to be compared.  Outcome: The two builds do differ: witnesses for reading and writing. Exactly when the parser panics is C36; when writing does, C49.
* **C70** Cargo features do not change what messages mean — *proved*.  The same parallel runs with the type tables compared; for mdns the image of a run under forgetting the flags; exact acceptance through the wire specification of C34.  Outcome: CDS and CDNSKEY (59, 60) are read by no build.
* **C71** A message cut short is never accepted — *partial*.  From the wire relation of C34: it is kept when octets are appended and determines where the packet ends.  Outcome: Cutting: proved for all messages. What stands behind: false, a compression pointer into a label of its own name can lead out of the packet (refuted with a message); that more octets do not hurt is C35.
* **C72** Different packets have different octets — *partial*.  From reading back what was written (C28, C29).  Outcome: Proved for the packets that read back (C28, C29). False of all: class numbers have several names.
* **C73** Following the causes of an error comes to an end — *partial*.  source() modelled; the n-th cause by recursion.  Outcome: False of every error: source() returns the error itself, so the chain never ends.
* **C74** All ways of making a name agree — *partial*.  Each constructor modelled; induction over the labels.  Outcome: False for labels with dots, which display like other names, and for empty labels, which count but are not written. Proved for all others; for label lists without going through text, for all.
* **C75** A small message cannot make the parser hold much — *partial*.  Every piece of the wire specification (C34) weighs at most 192 n + 3 per octet it takes; sums over the packet. A family of messages for the other direction.  Outcome: False: questions that point to one long name hold about the square of the message, 178 million octets for 65535 (for every cfg). Proved: never more than 192 times the square. Counted are octets and elements, not the fixed size of each value or unused capacity.
* **C76** Room is reserved only for what the message can contain — *partial*.  The requests of Vec::with_capacity as a list; from the octets each parser consumes.  Outcome: False: a header of twelve octets makes it reserve room for 65535 records. Proved: at most 65535 entries beyond what the message has room for, and for accepted messages exactly what is used.
* **C77** Serialising has no effect besides its result — *partial*.  The writers again with the lines they print; equality of results, lines characterised.  Outcome: False for TSIG records: each prints a line, and panics where standard output is closed. Proved: silent for every packet without one, and otherwise exactly one line for each.
* **C78** What breaks the message format is rejected — *partial*.  The layout of C65 backwards: pieces read by the parser put into their place, unless StrictSpec names the liberty; a witness for each. StrictConv: the converse, by uniqueness of what stands at a place.  Outcome: False: octets left over in record data, labels of 64 to 191 octets, pointers that lead forward after the first, SVCB parameters out of order, twice or with a wrong length, bitmaps out of order, empty or with trailing zeros, unknown NAPTR flags, LOC of any version and others are accepted (one witness each, for every cfg). Proved: StrictSpec lists all of them and nothing else - a parsed message is laid out as the RFCs say if and only if it takes none of these liberties.
* **C79** The work of parsing is in proportion to the message — *partial*.  The parsers again with a count of steps (erasing it gives the parser back); steps per octet and per name, by composition.  Outcome: False: names pointed to again and again take 178 million steps for 65535 octets, and a pointer cycle never ends. Proved: where parsing ends, at most 192 n^2 + 221 n + 66 steps for n octets; where no octet is 192 or more it always ends, within 26 n + 63. The counted parser is proved to be the parser.
* **C80** A message means the same anywhere in a buffer — *partial*.  Two runs, with and without a prefix, in parallel for every parser; counterexamples; round trip at any position.  Outcome: False for compressed messages: pointers count from the start of the buffer, so behind the length prefix of TCP or another message names are silently taken from elsewhere (both refuted, for every cfg). Proved for any number of messages in the plain form, and for all messages (accepted or not) in which no octet is 192 or more.
* **C81** A value cannot forge other parts of a message — *partial*.  The octets written for a long label or long data, computed; round trips for all others.  Outcome: False: a label of 256 octets is written with length 0, so a text without dots can put any octets, for instance an answer, behind the name (for every packet around it); a NULL record with 65536 octets does the same. Proved for all texts with at most 191 octets between dots, which are exactly those that read back, and for record data of at most 65535 octets, exactly too.
* **C82** Compressed messages follow the RFCs — *partial*.  A right dictionary for labels up to 63 (C13) gives each name its place; all else is placed octet by octet from the layouts of C51.  Outcome: False when the header's counts differ from the sections (C82_counts_refuted; the compressed writer copies them, C33). C82_message_partial: otherwise the message has the layout, with names compressed as 4.1.4 says; missing are what C51 refutes for single values (IPSECKEY without gateway, APL addresses ending in 0, unassigned algorithm numbers), messages over 16384 octets (C13) and colliding hashes (C14).
* **C83** Keys and signatures as base64 text — *proved*.  Bit strings of three octets and of four groups of six are one number; induction by threes; uniqueness by lengths modulo 6 and 4.  Outcome: The base64 crate is modelled (standard alphabet, with padding), not read; RFC 4648 is stated on bit strings.
* **C84** No choice of names confuses the compressor — *partial*.  The hash of util.rs as SipHash-1-3 on the stream of lengths and labels; a collision computed in Coq; injectivity of the stream.  Outcome: False: two legal names with equal 64-bit hashes are given (found outside Coq by 6.2 thousand million evaluations, a few minutes on one machine; Coq checks the result), and a reply in which the address of one host is received as that of the other. DefaultHasher is modelled as SipHash-1-3 with key 0, as the standard library has it today. Proved: different names feed different octets to the hash, and without a collision among the names of a packet it reads back.
* **C85** The work of compressing is in proportion to the message — *partial*.  The compressing writers once more, keeping a list of what they hash; completeness by agreement of hash functions on the list; bounds by induction over names and sections.  Outcome: False: every tail of a name is hashed and the number of labels is not limited, so one name of 32759 labels (a message of 65535 octets, which the parser accepts) takes 4.8 thousand million octets of hashing. Proved: at most 2040 octets are hashed per octet written when names keep the limits of RFC 1035, and in general at most the longest name per octet written. The list of what is hashed is proved complete (the result depends on nothing else of the hash function).
* **C86** The text of an error tells what is wrong — *proved*.  The derived Debug text as a function; injectivity by cases over the pairs of variants and the value of decimal digits.  Outcome: The texts inside the errors of signing and verifying come from other crates and are an argument; they are printable if those are. Derived Debug is modelled.
* **C87** Addresses are made from exactly the texts of addresses — *proved*.  The standard library's readers of numbers, octets and groups as functions to an optional rest; soundness and completeness against grammars as relations.  Outcome: The parser is that of the standard library, modelled; what the crate adds is the call and the record data.
* **C88** Serialising has no undefined behaviour on any machine — *partial*.  The four stores as functions on an addressed vector with an explicit undefined outcome, for both byte orders; equality with the octet model at even addresses.  Outcome: False: the counts are stored through a pointer cast to *mut u16, and a Vec<u8> may lie at an odd address; then the store is undefined behaviour (current compilers panic in debug builds). Common allocators hand out even addresses, so this is seen with custom allocators only. Proved: undefined behaviour is met exactly then; at even addresses the stores stay inside the header and the octets are those of the model on both byte orders.
* **C89** What parsing does is decided by the octets alone and known for every message — *proved*.  Put together C27, C34, C36 and C67, all stated about raw octets, into one equivalence on the result.  Outcome: One theorem each for names, record data and messages: the result of parsing is r exactly if a predicate on the raw octets says so, r ranging over values, errors, panic and divergence; for messages there is exactly one such r.
* **C90** Octets that are not text are repaired as Unicode recommends — *proved*.  Beginnings of characters by their octets; each answer of the scanner is a character or a maximal subpart; uniqueness since no character begins another.  Outcome: The scanner of the standard library against the definition of U+FFFD substitution of maximal subparts (Unicode, 3.9), which is stated with the encoding of RFC 3629 only. The specification of record data on the wire (C27, C34, C89) uses this definition too.
* **C91** How a set of types or parameters was filled does not show — *partial*.  Sorted lists with the same elements are equal; what insertion keeps is the first of each key, what collecting keeps the last.  Outcome: False for parameters with the same key: insert keeps the first, collect the last; and for classes, which sort by their place in the source (UdpPayloadSize(0) after IN). Proved: for types and keys in full, for parameters with different keys, which parameter is kept otherwise, and the order of the classes that are read from messages.
* **C92** Signatures that others made are accepted — *partial*.  The signed data of the RFCs as a relation with canonical names, sets and wildcards, compared with the model's octets; what the primitives want appears as hypotheses.  Outcome: False for RSA (the digest is compared without its DigestInfo), for ECDSA keys as RFC 6605 puts them into DNSKEY records (ring wants a point with the octet 4 in front; this and the behaviour of the rsa and dsa crates are hypotheses on the primitives), for DSA signatures of RFC 2536, and for every algorithm when the set is an expanded wildcard, its TTL was counted down, a letter is a capital or a record is repeated. Proved: the octets of the RFCs are unique; for a set at hand as it was signed, exactly those octets are checked, so Ed25519 and Ed448 signatures are accepted; what is signed is what the RFCs say.
* **C93** Every answer of signing and verifying has one known cause — *partial*.  The primitives' answers as a relation on keys, octets and signatures; the answer of the function is v exactly if the relation says so; key readers fail only with LengthViolation.  Outcome: False in three places: signing panics (todo!) when ring takes an RSA key and then fails to sign; InvalidDnsSecAlgorithm carries the position of the algorithm in the source (9, 10, 11), never its number (252, 253, 254); verifying with such an algorithm answers false instead of the error. Proved: the exact cause of every answer of verifying and of signing, as equivalences; verifying never panics, signing only in that case (keys up to 131064 octets, see C40 for longer ones).
* **C94** RSA signatures work with RSA as the standard defines it — *partial*.  RSA and its encodings written down from RFC 8017 and put in place of the primitives; Fermat's theorem by permuting the residues, then all prime factors together.  Outcome: False: verification compares the digest without its DigestInfo, so everything signed with RSA/SHA-256 and RSA/SHA-512 (ring adds the DigestInfo), and everything others signed with any RSA algorithm, is rejected; the published example of RFC 5702 among it. Proved, from the primality of the factors (Fermat) and with the encodings of RFC 8017: what is signed with RSA/MD5 and RSA/SHA-1 is accepted, and exactly the signatures that contain the bare digest are accepted. The forms in which the crates use RSA are modelled from their documentation (Rsa.v).
* **C95** A field of a message can be changed in place — *partial*.  Two runs on messages that agree outside the field, for every parser of the model; where names lead is a small inductive relation on the octets; serializers split at the field.  Outcome: False as stated: a pointer to offset 0 is followed, so a name can be read through the ID, and likewise through a TTL; two messages are given in which the change shows up in a name. Proved: whenever no octets of the message that look like a pointer lead to a name through the field (pointed_at, in PatchSpec), the change has exactly the effect described, for every record and value, also on messages that are refused (ID, flags). Serialization is proved without any condition.
* **C96** The size announced for the compressed form is the size written — *partial*.  The size functions of every part modelled beside the writers; both depend on the keys of the dictionary only; induction over the sections of a packet.  Outcome: False as stated for the dictionary: byte_size_compressed of MX data enters the exchange two octets before its place, that of SOA and MINFO data the second name at the place of the first, and that of a record the names of the data at the place of the record (values given). Proved: the announced size is the written size for every part, failure coincides, the same names are known afterwards, and the sizes of the parts of a packet add up to its compressed length.
* **C97** Accessors answer what the octets say — *partial*.  The getters composed with the relation packet_at; SVCB mode from the relation on octets of C43; digest lengths from the computed hash functions.  Outcome: False for ED448 (64, though keys have 57 octets and signatures 114), for ECDSA (no length) and for NSEC data made without types (an empty window is written, against RFC 4034 section 4.1.2). Proved: the rest, for all messages.
* **C98** The order of the entries does not change the length — *partial*.  The dictionary as the set of tails seen so far; each name adds the tails it spells out; induction over all names in the order written, then permutations of the set of tails.  Outcome: False where two tails have the same hash (refuted; C84 has such names for the hash in use). Proved otherwise, without a condition on names, sizes or types of data: the exact number of octets, and that it is the same for every order.
* **C99** A record can be put behind a finished message, and taken off again — *partial*.  Two runs that differ in the counter only, as in C95; the record read behind the message joins the loop of its section; the relations on octets of C34 restricted to a prefix for the removal; the writers by computation.  Outcome: The condition: no two octets of the message that look like a pointer lead to a name read through the counter (append), or through the counter or the last record (remove). Without it the claim is false: pointers may lead into the header, and the text of a label may reach into later records (both refuted with messages that parse). The writing side holds without the condition; the compressed form needs that both messages can be written.
* **C100** Names of a compressed message take few pointers — *proved*.  A message as its names and the octets between them, written through one dictionary; a tail in the dictionary takes fewer pointers than it has labels, by induction over the names written.  Outcome: The bound by the number of labels is reached. C100_ten_refuted gives a message of 105 octets within all limits in which a name takes eleven pointers; receivers that stop after ten (the resolver of Go) refuse it. That the message is read back at all needs the conditions of C14 and C29 on labels, length and hash.
* **C101** A reply repeats the question octet by octet — *partial*.  The message's layout (C34) gives the octets of each spelled out question; both writers begin with the same octets, the compressed one because the dictionary is empty; induction over labels.  Outcome: False in two cases: a build without mdns drops bit 15 of the class, and a name written with a pointer is spelled out. Proved otherwise: all questions in plain form and the first in compressed form are repeated octet by octet, letter case included, with the ID; the first record, if named as the question, begins with a pointer to offset 12.
* **C102** The data of a record can be changed in place — *partial*.  RewriteSpec.v, RewriteFacts.v, PropRewrite.v: the two-run argument of C95 (twin messages that differ in one span) carried through the data of a record; the writers by induction on the list of records.  Outcome: False as stated of messages in which another name is read through the octets of the data (C102_data_refuted); proved for all data whose octets no pointer leads to, for every record type, and for addresses without that parser appearing.
* **C103** What is built with the API is what the other side receives — *partial*.  SendSpec.v, SendFacts.v, PropSend.v: the calls act on sections and header words; induction over the history, then the round trips of C28 and C29.  Outcome: Proved for entries the wire format can carry (C28, C29 say which cannot); false for packets made by with_questions and written in compressed form: none of the questions arrives (C103_with_questions_refuted, for all questions).
* **C104** A signed set verifies at the receiver — *partial*.  DeliverSpec.v, DeliverFacts.v, PropDeliver.v: compose the signing theorem (C39), independence of record order (C38) and the compressed round-trip (C29); for the plain form follow the announced length of RRSIG data through the reader.  Outcome: Proved for messages in compressed form: a set signed with RRSIG::from_dnskey, sent among other records with its signature and key, verifies at the receiver. False for the plain form: C104_plain_refuted shows that every signature sent as the last record arrives without its last octet, and C104_ex_plain that verification then answers false.
* **C105** A key is recognised by its DS record — *partial*.  PropTrust.v: compose C52 with the round trips (C28, C29); name and DNSKEY data are determined by the octets digested.  Outcome: Proved for both written forms, and that no other key and no other name gives the same DS record unless the digest collides. False for the last clause: under another upper or lower case spelling of its owner a key is never recognised (C105_spelling_refuted, for all keys and names).
* **C106** Record data left at the default can be sent — *partial*.  Defaults.v, PropDefault.v: each default value meets the conditions of C26 and C29; OPT by the length announced (SpoilFacts.v).  Outcome: Proved as an iff for the plain form and for all packets in the compressed form. False for two types: an OPT record without options (an EDNS query) at the end of a plain message makes the message unreadable for the library itself, and the empty tag of default CAA data is rejected; both refuted for all surroundings.
* **C107** EDNS parameters arrive — *partial*.  Octets of RFC 6891 written out, then read with the calculus for records; C29 and C28 in their exact forms for the sending side.  Outcome: False for payload sizes from 32768 on, of which bit 15 is lost (65535 is seen as 32767), for the sizes 1 to 4, which are taken for classes, and for all OPT records sent in plain form: a message that ends with one without options is rejected, and in any that is accepted the record is another one. Proved: everything else of a received OPT record is seen as sent, and in compressed form exactly the packets with other sizes arrive.
* **C108** A received packet can be changed and sent on — *partial*.  Histories of calls as in C31/C103, started from the packet parsed from arbitrary octets; entries of a parsed packet are well-formed (C34/C37), so the round trips of C28/C29 apply to what is left after the calls.  Outcome: False for plain form when records stay in the packet whose written length is wrong (C108_edns_refuted: an EDNS query turned into an answer without taking the OPT record is rejected by the library itself), and for SSHFP and texts that grow. Proved: exact for every received message and every history of calls if the records still there are of the other kinds; every query can be answered (C108_answered, C108_answered_compressed).
* **C109** Records received can be given in other answers — *partial*.  Records of a parsed packet are well-formed except for what writing truncates (C37), which no change of the time to live affects; the answer is a history of calls on the packet parsed from the query (C108).  Outcome: False for SSHFP (C109_sshfp_refuted) and, in plain form, for the types whose length is written wrong (C28, C107). Proved for all other records and every query.
* **C110** Leaving entries out never makes a message longer — *partial*.  By the exact length of C98: the length does not depend on the order, so the entries in question can be taken as the last ones; each name takes between one octet and what it takes alone.  Outcome: False where two tails of names have the same hash (C110_collision_refuted). Proved otherwise for all subsets and additions at any place (at least 5 octets per question, 11 per record; at most what the entries take in plain form, for names without empty labels), for every call of the API, and exactly for the plain form.
* **C111** Dynamic update messages are read — *partial*.  The outcome of each data parser on no octets, then the record and the message around it by a calculus of reads that end in a failure. Refuted for eight types.  Outcome: False: a record without data of type NS, CNAME, SOA, PTR, MINFO, NSEC, TKEY or TSIG panics wherever it stands; all others but NULL, TXT, OPT and OPENPGPKEY are refused, and so is type ANY.  The outcome is proved for every type; the library cannot write such records either.
* **C112** A signature is for one record set and one set of fields — *proved*.  Injectivity of the signed octets in all fields and in the canonical data, data read back to the records, an RSA signature contains one digest.  Outcome: For every signature scheme up to a failure of the scheme on exactly the two texts; for RSA as RFC 8017 defines it nothing is assumed but that the hash function does not collide on the two texts.
* **C113** Record data is passed on octet by octet — *partial*.  Compare the octets each field is read from (ReadSpec) with those it is written as; key tags by comparing the sums.  Outcome: False: a revoked key (RFC 5011) comes back as one that is not, so its key tag and DS record are wrong (C113_key_partial says exactly for which flags); reserved CAA flags, text that is not UTF-8, unknown NAPTR flags, repeated options, the octet in place of no gateway and octets left over change; every SSHFP record loses an octet. Proved: fourteen types without names always come back, ten with names if the names are written in full, every type exactly if it was laid out as its RFC says with names in full.
* **C114** Any number of relays pass on what the first one read — *partial*.  Induction over the chain with C37; witnesses for the refutations.  Outcome: Proved by induction over the chain for all records but those C37 excludes (SSHFP and overlong repaired text; for chains with plain forms also OPT, RRSIG, CAA and SVCB parameters). False for these: an SSHFP record loses an octet at every relay until one rejects the message (C114_sshfp_refuted), repaired text is cut into other strings (C114_text_refuted).
* **C115** Records that cannot be read can be passed over — *partial*.  The user's two programs are written in PropSkip.v in terms of the modelled buffer operations; outlines are specified by the octets (name_at, u16_at). One step by record_wire/record_fails_iff/error_cursor, the list by induction over the outlines.  Outcome: The positive theorem covers every mixture of readable and unreadable records whose reading returns; the hypothesis is needed, because a record of NS, CNAME, PTR, SOA, MINFO, TKEY or TSIG without data panics (C115_empty_refuted, for every place). C115_cursor says where an error leaves the cursor; C115_ignored_refuted is a message that makes a program which goes on after an error deliver an address record that is not there.
* **C116** Messages in a TCP stream arrive whole — *partial*.  The receiver is a user's program, written in PropStream.v in terms of the modelled buffer operations. Every stream is split by strong induction; the receiver by induction over the pieces, with the unfinished message as the invariant.  Outcome: C116_pieces holds for every stream of octets (each is a number of messages and an unfinished one, C116_stream) and every way to cut it. Partial only because packets arrive as far as C29 says, and because nothing keeps a user from writing a message of more than 65535 octets, whose length two octets cannot announce (C116_long_refuted). Compare C80: parsing the messages where they stand in the stream is wrong.
* **C117** Stored records survive a crash — *partial*.  The reading loop is modelled as a user program over rr_try_from. Induction over the labels of a torn name gives the exact outcome of extract_fqdn; a torn record behind its name gives an error; induction over the whole records in front.  Outcome: False in two places. A name that ends behind one of its labels, or one octet before the end of a label, panics instead of giving an error, so for every record whose name is not the root there is such a crash (C117_panic_refuted); and what is stored behind a torn record is read as its data and as other records (C117_behind_refuted). Proved: the exact outcome for every moment of a crash (C117_crash_partial), and that with the length in front of each record, as on TCP, exactly the complete records come back whenever the crash comes, with the octets to be cut off known (C117_framed).
* **C118** Answers filled in up to a limit fit — *partial*.  The loop of the server as a program over the modelled API; induction over the answers with the size of the packet as invariant; C31, C30 and C17 give the sizes of both forms and the flag.  Outcome: False where byte_size is wrong (C24): for every limit from 25 there is a CAA record that is put in although the message then exceeds the limit by the length of its tag (C118_over_refuted), and for every limit from 30 an SVCB record left out although it fits exactly (C118_under_refuted). Proved for all records whose size is computed correctly and that the format can carry (C26), with both forms within the limit; the compressed form is read back up to 16384 octets and without collisions, as in C29.
* **C119** Time to live counts down through any number of caches — *partial*.  Model the cache as a program over take_*/set_* and the TTL setter; well-formedness is preserved by lowering TTLs and dropping records, waiting times compose, then the two round trips (C28, C29) by induction over the chain. For the wrong order: what is written equals what a packet with shifted sections writes, plus a suffix.  Outcome: False with the answers gone through first and the compressed form: taking out the authorities sets the count of answers to 0, so no answer arrives (C119_order_refuted, for every message received, saying what arrives instead). Proved for the order authorities, answers, additionals and any chain of caches, for records both forms carry (C119_caches_partial) and, with compressed messages only, all but SSHFP and text that grew (C119_short_partial); in plain form the order makes no difference (C119_plain_order), and no record outlives its TTL (C119_no_longer).
* **C120** A list of records spread over messages of a stream arrives whole — *partial*.  Model the server as a recursion over add_answer and byte_size; the invariant is that the message being filled is well-formed, counted and within the limit (C118); C28 and C116 give the receiver. The least number by comparing the greedy division with any other, by induction over the list.  Outcome: False where byte_size() is too small: for every limit a CAA record for which a longer message is made (C120_over_refuted). Proved for all records whose size is exact and that fit a message (C120_zone_partial), with the least number of messages (C120_fewest). That the values written are octets is assumed for the stream.
* **C121** Replies find their queries in whatever order they arrive — *partial*.  Model client and server as programs over the API and the arrivals as a list; induction over the list with the queries still waiting as the state; both round trips (C28, C29) identify the packets.  Outcome: False for queries made with Packet::with_questions and sent in compressed form: their header counts no question and every reply is for nobody (C121_constructor_refuted); and a message of fourteen octets from anybody stops the client for ever (C121_stuck_refuted). Proved for queries made with new_query and set_questions, answers whose data both forms carry, and any other messages that do not stop the parser and match no query (C121_matched_partial); that nothing else is ever delivered holds for all messages (C121_sound).
* **C122** A chain of trust of any length leads to what the zone at its end has signed — *partial*.  Induction on the chain: each step by C112 (a signature binds one set), C105 (a DS record binds one key) and the equivalence of verification with the primitive's verdict (C39); forgery and collision are excluded only for the signatures and keys on the chain.  Outcome: Proved for chains of any length, both ways, with the name of every set compared by the caller with the zone whose key is used, and for supported algorithms. False without that comparison: Rrsig::verify accepts DS records for every name from the owner of any key (C122_name_refuted), and the comparison cannot be made by the signer's name, because Rrsig::from_dnskey writes the child's name there (C122_signer_refuted).
* **C123** NSEC records deny exactly what a zone does not have — *partial*.  Induction on the chain with the total order of C64; messages by C28 and C29.  Outcome: False for zones in canonical order: compared with FQDN's own order names that exist are denied (C123_order_refuted), and in another spelling every name is denied (C123_case_refuted, for all zones). Proved in full, both ways, for zones in FQDN's order, and for zones in canonical order if the caller turns the names round and writes them in lower case before comparing.
* **C124** Aliases in a received message can be followed to their end — *partial*.  Pigeonhole over the names passed; the resolver is equated with an inductive relation on the records; messages by C28 and C29.  Outcome: False for the last clause: if a server spells a name in another case than the alias to it does, the resolver stops and finds no record there (C124_case_refuted, for all packets). The rest is proved in full, both ways.
* **C125** Two hosts that probe for the same name agree on which has lost — *partial*.  The three orders make one total order on what a record says; sorted lists are unique up to it; comparison of lists is antisymmetric; messages by C28 and C29, and octets determine data by C23.  Outcome: Proved for all records that are sent as they are (C28, C29), and that the order is that of RFC 6762 for the four named classes. False for other classes: RecordClass sorts by the place in the source, so that a host with this library and one that goes by the numbers may both have won (C125_order_refuted).
* **C126** A signature finds its key among any number of keys — *partial*.  The validator is a function over the list of keys; induction over the list with the totality of verify (C93), the tag of RFC 4034 (C40) and the round trip of signatures (C39). The collision is proved for every key by splitting the weighted sum at the two octets.  Outcome: Proved for a validator that tries all the keys with the tag, for every list of keys and every message that arrives. Its last sentence is false: exchanging two octets of a key an even number of places apart gives another key of the same tag (C126_tag_refuted, for every key), so that trying only the first key with the tag turns a good signature down (C126_first_refuted).
* **C127** Comparing with == is comparing what is sent — *partial*.  Equality.v models derive(PartialEq) of every type, the map of options as the standard library compares maps; that each function decides equality is proved type by type with one tactic; the clauses about octets follow from C28 and C29.  Outcome: The meaning of == and its laws are proved for all packets (C127_meaning, C127_parts, C127_equivalence). Two clauses are false: equal packets with two or more EDNS options can be written with different octets, because the map lists them in any order (C127_order_refuted; proved for all others, C127_same_octets_partial; the number of octets, the size announced and the errors are always the same, C127_same_length), and a packet made with Packet::with_questions is not equal to the one that arrives, because the counts are compared although others are sent (C127_counts_refuted). With right counts, what arrives is equal to what was sent and unequal packets have different octets (C127_arrives_partial, C127_distinct_partial).
* **C128** Answers the asker knows already are left out, and no others — *partial*.  PropKnown.v states the rule of RFC 6762, 7.1 with the equality functions of Equality.v; the theorems combine C127, which says what these decide, with the arrival of the answers (C28, C29).  Outcome: Proved for messages under the conditions of C28 and C29 (C128_exact_partial, C128_round_partial). The clause about case is false, since == between names is octet by octet: an answer known under WWW is given again for www (C128_case_refuted). Comparing whole records with == does not work either, since the flush bit is compared, which is not set in queries (C128_whole_refuted).
* **C129** What is announced replaces what was held, in every cache alike — *partial*.  PropFlush.v states the rules of RFC 6762, 10 as a fold over the records received, and separately which records are in force in a history; induction over the history, with C127 for the comparisons and C28 and C29 for the arrival.  Outcome: Proved for messages under the conditions of C28 and C29 (C129_exact_partial, C129_late_partial). In builds without the feature mdns the flush bit is dropped without notice, and such a cache gives outdated records (C129_feature_refuted).
* **C130** Services that are offered are found — *partial*.  PropBrowse.v joins the records as RFC 6763 says; that each step finds exactly the records meant is shown on lists, the rest is the arrival of the records (C28, C29) and C10.  Outcome: Proved for messages under the conditions of C28 and C29 (C130_found_partial). The second part is true of names without dots in labels (C130_again_partial) and false of others: the name of an instance such as 'Dr. W' is received as one label, shown with its dot, and read back as two (C130_dot_refuted).
* **C131** Who asks again after a truncated reply has all answers — *partial*.  PropRetry.v puts together the server of C118 and the receiver of C116.  Outcome: Proved for records whose byte_size is right (C24); for the others the limit is not kept (C118_over_refuted) and a message over 65535 octets does not arrive (C116_long_refuted).
* **C132** Messages can be authenticated with TSIG — *partial*.  PropMac.v: what sender and receiver write with the API, the code any function; accepted by C28/C29 and the API's effect on the counters; only what was made, since the octets determine the packet even with the variables behind them (C28/C29 with any suffix) and the variables each field.  Outcome: Proved for messages under the conditions of C28 and C29 with at most one EDNS option per record (C132_accepted_partial, C132_only_partial, C132_octets). False of others: with two options the receiver may write them in another order and rejects what is authentic (C132_order_refuted); and where names have the same hash (C84) the receiver accepts a message that was never authenticated, with one host's address changed into that of the other (C132_collision_refuted).
* **C133** Incremental zone transfers are followed — *partial*.  PropTransfer.v: what the receiver does with the records, by recursion over them; the zone after the changes as a set, by an inductive relation; induction over the changes, arrival from C28/C29 and == from C127.  Outcome: Proved for messages under the conditions of C28 and C29 (C133_followed_partial, C133_whole_partial, C133_none_partial). The last sentence is false: a record removed under another spelling of its name stays in the zone (C133_case_refuted).
* **C134** Reverse names lead back to their addresses — *partial*.  PropReverse.v: making and reading of reverse names as users write it; splitting of text at dots (C10, C74), texts of addresses (C87), counts of dots and of colons for the converses; arrival from C28/C29.  Outcome: Proved as an iff for IPv4 (C134_v4) and for IPv6 (C134_v6, C134_v6_only; there for names without empty labels, as all received names are). The last clause is false: IN-ADDR.ARPA in capitals is not equal to in-addr.arpa (C134_case_refuted).
* **C135** Padded messages have the size of whole blocks — *partial*.  PropPadding.v: padding as users write it, with two permutations for the two maps; the octets of an added record (C99), writing (C49) and arrival (C29), the OPT record in plain form (C107).  Outcome: Proved for the compressed form, measured by what is written (C135_padded_partial; up to 16384 octets as in C29), and what sizes tell (C135_alike). False for the plain form, in which no OPT record arrives as it is (C135_plain_refuted), and if byte_size is asked, which does not count the codes and lengths of options (C135_size_refuted).
* **C136** The CAA records that are sent decide who may issue — *partial*.  PropIssue.v: climbing, tags and issuer names as users write them; induction on the name for the closest one with records, text splitting for the issuer; arrival from C28/C29; concrete messages for the refutations.  Outcome: Proved as an iff for messages within the limits of C28 and C29 (C136_allowed_partial). False for CAA records in plain form, the values of which are cut short by the length of the tag, so that another authority may issue (C136_plain_refuted), and for records under another spelling of the name (C136_case_refuted).
* **C137** The endpoints that SVCB records offer are found — *partial*.  PropEndpoint.v: selection and ordering as users write them; uniqueness of the port from the order of the parameters; arrival from C28/C29; concrete messages for the refutations.  Outcome: Proved as an iff, and the order, for messages within the limits of C28 and C29 (C137_found_partial). False for parameters with unknown keys, which make the whole message be rejected (C137_unknown_refuted), for records with parameters in plain form (C137_plain_refuted), and for another spelling of the name (C137_case_refuted).

## 4. Findings

Each is proved as a `_refuted` theorem with a concrete witness; the positive
theorems beside it say exactly how far the property holds.

* `extract_fqdn` never returns on a pointer to itself or any other circular name
  (C08), panics when a name runs off the message (C09); both are reachable from
  `Packet::try_from` (C36).
* `response_code()` panics for the codes 11 to 15 of a received header (C18).
* `advance`, `sub_buffer`, `peek_bytes`, `extract_bytes` overflow for lengths
  near `usize::MAX` (C03).
* `from_utf8_unchecked` in `Display for FQDN` is applied to arbitrary octets (C12);
  `is_empty` is never true (C11).
* Compression writes unusable pointers for offsets of 16384 and more, for empty
  labels, and for colliding hashes (C14).  The hash has a constant key and its result
  is never compared with the name itself: two names that collide are given, and the
  address of one host is sent as that of the other (C84).
* CDS and CDNSKEY are written but not read (C19, C41); other aliases in coded
  fields (C21), wrong registered numbers (C50).
* `byte_size` is wrong for CAA, OPT, RRSIG, SVCB (C24), and the plain record
  writer takes RDLENGTH from it, so such records do not read back (C25, C26,
  C28, C30, C31, C37, C56).
* SSHFP reads its fields in the wrong way and never reads back (C23, C29).
* HIP with no servers and TSIG times above 48 bits do not read back (C23).
* Header counts go out of step in `with_questions`, `take_authorities`,
  `set_header` and `questions_mut` (C32); the compressed writer repeats them (C33).
* Type bitmaps: empty first window (C41), overflow in window 255 (C42).
* SVCB parameters ignore or overrun their announced length (C43), and a
  parameter of 65532 octets panics when written (C49).
* RSA/SHA-2 and DSA signatures made by the library do not verify (C39); key tags
  of RSA/MD5 keys and very long keys (C40); times in milliseconds (C48);
  wildcard label count (C55); TTL, case and duplicates in signed sets (C54);
  owner name of DS not canonical (C52).
* SRV and NSEC names are compressed, against RFC 3597 (C47).
* Names: no limit of 63 or 255 octets, growth by overlapping labels (C57),
  equality and order regardless of RFC 4343 and RFC 4034 6.1 (C59, C64), DHCID of
  names in upper case (C63); order of SVCB parameters against equality (C62).
* IPSECKEY without gateway writes an extra octet; APL addresses keep trailing
  zero octets (C51).
* Conforming messages that are rejected or misread: unknown types, unknown types in
  bitmaps, SSHFP, IPSECKEY without gateway, APL with an odd number of address octets,
  several SVCB address hints, text that is not UTF-8 (C65).
* `RRSig::verify` checks neither times, key tag, covered type, labels, signer nor the flags
  of the key (C66).
* Faults reported with the error of something else: TLSA selectors and matching types, HIP
  and IPSECKEY algorithms (as SSHFP algorithm), TSIG errors (as TKEY error), text that is not
  UTF-8 (as length violation) (C67).
* Debug builds panic where release builds wrap: bitmap windows beyond 65535, SVCB lengths, the
  65536th entry, huge SVCB parameters (C69, with C32, C36, C49).
* A name in the last record can read octets behind the packet (C71).
* `DnsError::source` returns the error itself: the chain of causes never ends (C73).
* Names made from label lists may contain dots or empty labels and then display like other
  names (C74).
* Compression without a limit on names: 65535 octets make the parser hold 178 million (C75)
  and do 178 million steps (C79); writing one received name again can hash 4.8 gigabytes (C85).
* The counts of the header are trusted for reserving memory: twelve octets reserve room for
  65535 records (C76).
* Writing a TSIG record prints a debugging line, and panics when standard output is closed (C77).
* The parser is lenient where the RFCs are not: octets left over in record data, long labels, forward pointers,
  SVCB parameters and bitmap windows out of order, a parameter's length ignored, two OPT records (C78).
* Pointers count from the start of the buffer, not of the message: behind a TCP length prefix or
  another message, names are silently wrong (C80).
* A label of 256 octets is written with length 0: a text used as a name can forge whatever follows,
  for instance an answer (C81).
* `Packet::to_bytes` stores 16-bit numbers through a pointer that may be odd: undefined behaviour (C88).
* A packet made by `Packet::with_questions` and sent in compressed form arrives without any of its
  questions, because its header says there are none (C103).
* A signature sent in a plain message loses its last octet, and the receiver rejects the set (C104).

## 5. Tests of the theorems

`seeded/LOG.jsonl` lists the edits made to scratch copies of the model, the
claim each breaks and the property theorems that no longer hold.  For each edit
the whole development was rebuilt; proofs that failed were cut (in the scratch
copy only), and a property theorem counts as failed if it then depends on a cut
proof.
