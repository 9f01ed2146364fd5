{
 "claims": [
  {
   "property": "C01",
   "status": "proved",
   "theorems": [
    "C01_cursor_inside",
    "C01_calls_return"
   ],
   "note": "Every finite history of buffer calls with arguments up to isize::MAX."
  },
  {
   "property": "C02",
   "status": "proved",
   "theorems": [
    "C02_present",
    "C02_absent",
    "C02_agreement",
    "C02_agreement_others",
    "C02_set_position"
   ],
   "note": ""
  },
  {
   "property": "C03",
   "status": "partial",
   "theorems": [
    "C03_checked_panics_refuted",
    "C03_wrapping_refuted",
    "C03_fits_partial",
    "C03_overflows_partial",
    "C03_sub_buffer_partial"
   ],
   "note": "False as stated: with overflow checks a huge length panics, without them it wraps and yields a sub-buffer whose position is past its end. Proved instead: the exact behaviour of all four calls for every usize argument, overflowing or not."
  },
  {
   "property": "C04",
   "status": "proved",
   "theorems": [
    "C04_window",
    "C04_record",
    "C04_outside_window"
   ],
   "note": "Record data and every framed parser see only the window. The owner name in front of the window is not framed; C04_outside_window shows a bare name can look past the end of its own octets."
  },
  {
   "property": "C05",
   "status": "proved",
   "theorems": [
    "C05_name_exact",
    "C05_name_roundtrip",
    "C05_wire_format",
    "C05_empty_labels_dropped",
    "C05_long_label_lost"
   ],
   "note": "Round trip for every list of labels of 1..191 octets anywhere in a message. Boundary theorems: empty labels are dropped, labels of 192..255 octets never read back. Exact: reads back iff every label has 1..191 octets."
  },
  {
   "property": "C06",
   "status": "proved",
   "theorems": [
    "C06_name_byte_size"
   ],
   "note": ""
  },
  {
   "property": "C07",
   "status": "proved",
   "theorems": [
    "C07_extract_fqdn_iff",
    "C07_rfc_names_accepted",
    "C07_name_unique"
   ],
   "note": "iff with an inductive RFC 1035 relation on raw octets; all strict RFC 1035 names (labels up to 63) are accepted; the decoded name is unique."
  },
  {
   "property": "C08",
   "status": "partial",
   "theorems": [
    "C08_termination_refuted",
    "C08_memory_refuted",
    "C08_diverges_iff_partial",
    "C08_no_pointer_terminates_partial"
   ],
   "note": "False as stated: a pointer to itself loops for ever and a label followed by a pointer to it grows memory without bound. Proved instead: it diverges exactly on circular names; messages without pointers terminate."
  },
  {
   "property": "C09",
   "status": "partial",
   "theorems": [
    "C09_panic_refuted",
    "C09_panics_iff_partial"
   ],
   "note": "False as stated: the parser panics when a name runs off the message. Proved instead: exact characterisation of the panics."
  },
  {
   "property": "C10",
   "status": "proved",
   "theorems": [
    "C10_labels",
    "C10_pieces",
    "C10_display",
    "C10_stable",
    "C10_dots",
    "C10_display_injective"
   ],
   "note": ""
  },
  {
   "property": "C11",
   "status": "partial",
   "theorems": [
    "C11_is_root",
    "C11_is_link_local",
    "C11_label_count",
    "C11_is_empty_refuted",
    "C11_is_empty_never"
   ],
   "note": "is_empty is always false, so that clause is refuted; the other three are proved."
  },
  {
   "property": "C12",
   "status": "partial",
   "theorems": [
    "C12_display_utf8_refuted",
    "C12_from_text_partial",
    "C12_text_labels_partial",
    "C12_display_iff_partial"
   ],
   "note": "False for parsed names (unsafe from_utf8_unchecked on arbitrary octets); proved for names built from text, and as an iff: a name prints as valid text exactly if each of its labels is valid text."
  },
  {
   "property": "C13",
   "status": "proved",
   "theorems": [
    "C13_compressed_roundtrip",
    "C13_marks_complete"
   ],
   "note": "Hypotheses: label sizes, message within 16384 octets, hash separates the name tails present."
  },
  {
   "property": "C14",
   "status": "partial",
   "theorems": [
    "C14_offset_refuted",
    "C14_empty_label_refuted",
    "C14_collision_refuted",
    "C14_safe_partial"
   ],
   "note": "False as stated, one refutation per missing side condition; with the three conditions it holds."
  },
  {
   "property": "C15",
   "status": "proved",
   "theorems": [
    "C15_not_longer",
    "C15_size"
   ],
   "note": ""
  },
  {
   "property": "C16",
   "status": "proved",
   "theorems": [
    "C16_bytes_roundtrip",
    "C16_header_roundtrip",
    "C16_short_rejected"
   ],
   "note": ""
  },
  {
   "property": "C17",
   "status": "proved",
   "theorems": [
    "C17_setter",
    "C17_history",
    "C17_enum_getters",
    "C17_setters_keep_range",
    "C17_constructors"
   ],
   "note": ""
  },
  {
   "property": "C18",
   "status": "partial",
   "theorems": [
    "C18_response_code_refuted",
    "C18_panics_iff_partial"
   ],
   "note": "False as stated: response_code() panics for codes 11..15; the exact condition is proved."
  },
  {
   "property": "C19",
   "status": "partial",
   "theorems": [
    "C19_iana",
    "C19_record_types_partial",
    "C19_query_types_partial",
    "C19_unreadable_refuted"
   ],
   "note": "False for CDS and CDNSKEY, which are written but never read; proved for every other type, every number and every build."
  },
  {
   "property": "C20",
   "status": "proved",
   "theorems": [
    "C20_bit15_ignored",
    "C20_query_classes",
    "C20_record_classes"
   ],
   "note": "C20_record_classes gives the exact condition for a class to survive."
  },
  {
   "property": "C21",
   "status": "partial",
   "theorems": [
    "C21_enumerations",
    "C21_payload_enumerations_partial",
    "C21_alias_refuted",
    "C21_csync_flags",
    "C21_apl_family",
    "C21_opcode_refuted",
    "C21_opcode_partial",
    "C21_naptr_unknown_flag_refuted"
   ],
   "note": "False where values share a code (TKEY Available(1..5), NonExtendedRcode(16..), SVCB Private(0..6)), for opcodes (unknown ones become Reserved) and NAPTR flags (unknown ones are dropped); proved for all other fields and for the documented ranges."
  },
  {
   "property": "C22",
   "status": "proved",
   "theorems": [
    "C22_question_exact",
    "C22_question_roundtrip",
    "C22_question_layout",
    "C22_question_compressed"
   ],
   "note": "Round trip, exact layout and the compressed form. Exact: a question reads back iff question_ok."
  },
  {
   "property": "C23",
   "status": "partial",
   "theorems": [
    "C23_rdata_exact_partial",
    "C23_sshfp_refuted",
    "C23_rdata_roundtrip_partial",
    "C23_hip_empty_refuted",
    "C23_tsig_time_refuted"
   ],
   "note": "False as stated: SSHFP data never reads back, HIP with an empty server list and TSIG times above 48 bits change. Proved for every value of every other record type (rdata_typed and rdata_fits give the conditions per type). Exact for data of at most 65535 octets: the data read back iff rdata_fits."
  },
  {
   "property": "C24",
   "status": "partial",
   "theorems": [
    "C24_byte_size_refuted",
    "C24_byte_size_iff_partial",
    "C24_byte_size_error_partial"
   ],
   "note": "False as stated: byte_size is wrong for some types. Proved: exactly when it is right and what the difference is."
  },
  {
   "property": "C25",
   "status": "partial",
   "theorems": [
    "C25_plain_refuted",
    "C25_plain_iff_partial",
    "C25_compressed"
   ],
   "note": "False for the plain writer, which takes RDLENGTH from byte_size; iff condition proved. Proved for the compressed writer."
  },
  {
   "property": "C26",
   "status": "partial",
   "theorems": [
    "C26_plain_exact_partial",
    "C26_plain_refuted",
    "C26_plain_iff_partial",
    "C26_compressed",
    "C26_class_refuted",
    "C26_mismatch_refuted"
   ],
   "note": "False for the plain writer (wrong RDLENGTH), for classes that share a code and for records whose type differs from the data; iff condition proved for the plain writer, round trip for the compressed one. Exact: for any record whose data has its Rust type, the plain form reads back iff rr_plain_ok."
  },
  {
   "property": "C27",
   "status": "proved",
   "theorems": [
    "C27_record_layout",
    "C27_variant_and_framing",
    "C27_exact",
    "C27_data"
   ],
   "note": "iff with a layout relation on raw octets; C27_exact and C27_data spell out the record data of all 37 types without reference to the parsers."
  },
  {
   "property": "C28",
   "status": "partial",
   "theorems": [
    "C28_plain_refuted",
    "C28_plain_roundtrip_partial",
    "C28_plain_iff_partial",
    "C28_changed_refuted",
    "C28_svcb_refuted"
   ],
   "note": "False as stated: packets with OPT, RRSIG, CAA or SVCB records get a wrong RDLENGTH in the plain form (C28_plain_refuted). Proved for every packet whose records are not of these kinds, with any trailing octets. C28_plain_iff_partial: without SVCB parameters and with data of at most 65535 octets, exactly these well-formed packets come back; C28_changed_refuted: with OPT, RRSIG or CAA, the first such record always arrives changed, if anything arrives; C28_svcb_refuted: a message that ends with an SVCB record with parameters is rejected."
  },
  {
   "property": "C29",
   "status": "partial",
   "theorems": [
    "C29_sshfp_refuted",
    "C29_compressed_roundtrip_partial",
    "C29_compressed_iff_partial"
   ],
   "note": "False only for SSHFP records, which never read back. Proved for every other well-formed packet, under the stated size and collision conditions. C29_compressed_iff_partial: under these conditions no other packet comes back, so well-formed entries and right counts are the exact condition."
  },
  {
   "property": "C30",
   "status": "partial",
   "theorems": [
    "C30_same_refuted",
    "C30_same_partial",
    "C30_not_longer"
   ],
   "note": "Equality is false where the plain form is wrong (C30_same_refuted); proved for all other well-formed packets. The length claim is proved for every packet without empty labels."
  },
  {
   "property": "C31",
   "status": "partial",
   "theorems": [
    "C31_byte_size_refuted",
    "C31_byte_size_partial"
   ],
   "note": "False as stated; the exact difference is proved for every packet."
  },
  {
   "property": "C32",
   "status": "partial",
   "theorems": [
    "C32_with_questions_refuted",
    "C32_take_authorities_refuted",
    "C32_set_header_refuted",
    "C32_questions_mut_refuted",
    "C32_counts_partial",
    "C32_sections",
    "C32_take"
   ],
   "note": "False for with_questions, take_authorities, set_header and questions_mut, one refutation each; proved for every history of all other calls. Section contents after any history at all are proved."
  },
  {
   "property": "C33",
   "status": "partial",
   "theorems": [
    "C33_plain",
    "C33_compressed_refuted",
    "C33_compressed_partial",
    "C33_other_fields"
   ],
   "note": "Proved for to_bytes. False for to_bytes_compressed, which repeats the counts of the header (exact statement proved)."
  },
  {
   "property": "C34",
   "status": "proved",
   "theorems": [
    "C34_layout",
    "C34_cursor",
    "C34_exact"
   ],
   "note": "iff with a layout relation on raw octets; C34_exact without reference to any parser."
  },
  {
   "property": "C35",
   "status": "proved",
   "theorems": [
    "C35_trailing",
    "C35_cursor"
   ],
   "note": ""
  },
  {
   "property": "C36",
   "status": "partial",
   "theorems": [
    "C36_panic_refuted",
    "C36_loop_refuted",
    "C36_fails_iff_partial",
    "C36_returns_iff_partial",
    "C36_data_causes_partial",
    "C36_data_fails_partial",
    "C36_data_returns",
    "C36_exact_partial",
    "C36_exact_returns_partial",
    "C36_data_exact_partial"
   ],
   "note": "False as stated: panics and endless loops exist. Proved instead: exactly on which messages, as an iff with a specification on raw octets that covers the data of all record types (C36_exact_partial, C36_data_exact_partial)."
  },
  {
   "property": "C37",
   "status": "partial",
   "theorems": [
    "C37_plain_refuted",
    "C37_compressed_refuted",
    "C37_serialises",
    "C37_roundtrip_partial",
    "C37_compressed_iff_partial",
    "C37_plain_iff_partial"
   ],
   "note": "False for the plain form of CAA/OPT/RRSIG/SVCB, for SSHFP and for text that grows when decoded. Proved: parsed packets always serialise, and come back in all other cases. C37_compressed_iff_partial: passed on in compressed form, exactly the packets without SSHFP records and overlong text come back. C37_plain_iff_partial: in plain form, without SVCB parameters, exactly those that have no OPT, RRSIG and CAA records either."
  },
  {
   "property": "C38",
   "status": "proved",
   "theorems": [
    "C38_canonical",
    "C38_order_independent",
    "C38_reorder",
    "C38_reorder_bytes",
    "C38_byte_size"
   ],
   "note": "For every record set whose data can be written, and every binary search that meets the documented contract. Against a specification in terms of permutations and the octet order."
  },
  {
   "property": "C39",
   "status": "partial",
   "theorems": [
    "C39_rsa_sha2_refuted",
    "C39_dsa_refuted",
    "C39_unsupported_refuted",
    "C39_signed_verifies_partial",
    "C39_signed_octets",
    "C39_verify_iff",
    "C39_octets_determine"
   ],
   "note": "False for RSA/SHA-256 and RSA/SHA-512 (signed with a DigestInfo header, verified without) and for DSA (raw r and s signed, DER verified); the three code points without an algorithm never sign. Proved for the other six algorithms relative to correct primitives, together with the exact signed octets and an exact criterion for acceptance."
  },
  {
   "property": "C40",
   "status": "partial",
   "theorems": [
    "C40_md5_refuted",
    "C40_key_tag_partial",
    "C40_long_key_refuted",
    "C40_exact_partial",
    "C40_made_partial",
    "C40_rdata"
   ],
   "note": "False for algorithm 1 (RSA/MD5), whose key tag RFC 4034 B.1 defines differently, and keys of more than 131064 octets can overflow in debug builds. Proved: equal to the general algorithm of appendix B for every key of up to 131064 octets, which includes all keys a record can carry; exactly what happens for keys of any size (C40_exact_partial)."
  },
  {
   "property": "C41",
   "status": "partial",
   "theorems": [
    "C41_empty_window_refuted",
    "C41_cds_refuted",
    "C41_nsec_bitmap_partial",
    "C41_csync_bitmap_partial",
    "C41_reads_back_partial"
   ],
   "note": "False: sets without a type below 256 get an empty window, and types CDS/CDNSKEY do not read back. Proved: the exact octets written, for every set."
  },
  {
   "property": "C42",
   "status": "partial",
   "theorems": [
    "C42_overflow_refuted",
    "C42_bitmap_iff_partial",
    "C42_nsec_iff_partial",
    "C42_csync_iff_partial",
    "C42_total_partial"
   ],
   "note": "False: window 255 with more than 32 octets panics in debug builds and aliases in release builds. Proved: the exact set read, as an iff."
  },
  {
   "property": "C43",
   "status": "partial",
   "theorems": [
    "C43_framing_refuted",
    "C43_panic_refuted",
    "C43_svcb_iff_partial",
    "C43_param_iff_partial",
    "C43_param_total_partial"
   ],
   "note": "False: parameters with fixed-size values ignore their announced length, and odd lengths underflow in debug builds. Proved: the exact parameters read, as an iff; first duplicate kept; order by key; no panic in release builds."
  },
  {
   "property": "C44",
   "status": "proved",
   "theorems": [
    "C44_txt",
    "C44_txt_accepts",
    "C44_caa",
    "C44_extract_string"
   ],
   "note": ""
  },
  {
   "property": "C45",
   "status": "proved",
   "theorems": [
    "C45_any_order",
    "C45_last_wins",
    "C45_accepts"
   ],
   "note": ""
  },
  {
   "property": "C46",
   "status": "proved",
   "theorems": [
    "C46_question_parsed",
    "C46_record_parsed",
    "C46_question_any_class",
    "C46_record_any_class",
    "C46_class_unique",
    "C46_question_written",
    "C46_question_written_compressed",
    "C46_record_written",
    "C46_record_written_compressed"
   ],
   "note": ""
  },
  {
   "property": "C47",
   "status": "proved",
   "theorems": [
    "C47_no_compression",
    "C47_types",
    "C47_rfc3597_refuted"
   ],
   "note": "As declared by compression_allowed. C47_rfc3597_refuted records that the declaration itself allows SRV and NSEC, against RFC 3597."
  },
  {
   "property": "C48",
   "status": "partial",
   "theorems": [
    "C48_value_refuted",
    "C48_order_refuted",
    "C48_exact_partial",
    "C48_order_partial",
    "C48_fields_partial",
    "C48_before_epoch"
   ],
   "note": "False: the times are written in milliseconds, so they mean another time and their order can be reversed. Proved: the exact values, that their order is right until 2^32 ms after the epoch, and the error before 1970."
  },
  {
   "property": "C49",
   "status": "partial",
   "theorems": [
    "C49_panic_refuted",
    "C49_returns_iff_partial",
    "C49_release"
   ],
   "note": "False with overflow checks for SVCB parameters of 65532 octets or more; exact condition proved, and unconditional for release builds."
  },
  {
   "property": "C50",
   "status": "partial",
   "theorems": [
    "C50_registered_partial",
    "C50_tables_cover",
    "C50_sshfp_ed448_refuted",
    "C50_sshfp_partial",
    "C50_ipseckey_refuted"
   ],
   "note": "False for SSHFP Ed448 (5 instead of 6) and for IPSECKEY/HIP, where RSA and DSA are exchanged; DS digest type 5 is not SHA-512. All other numbers are proved to be the registered ones."
  },
  {
   "property": "C51",
   "status": "partial",
   "theorems": [
    "C51_gateway_refuted",
    "C51_apl_refuted",
    "C51_layout_partial",
    "C51_instead"
   ],
   "note": "False for IPSECKEY without gateway (an extra octet 46) and for APL addresses ending in a zero octet. Proved for every other value of every type whose code points are the registered ones (C50), against a table of the RFC fields kept apart from the encoders; the layout determines the octets uniquely. C51_instead gives the octets written in the cases left out for APL, DS, SSHFP, IPSECKEY and HIP."
  },
  {
   "property": "C52",
   "status": "partial",
   "theorems": [
    "C52_ds_partial",
    "C52_owner_case_refuted"
   ],
   "note": "Proved as stated for the owner name in the spelling given; C52_owner_case_refuted records that the name is not brought into canonical form first."
  },
  {
   "property": "C53",
   "status": "proved",
   "theorems": [
    "C53_hex"
   ],
   "note": ""
  },
  {
   "property": "C54",
   "status": "partial",
   "theorems": [
    "C54_ttl_refuted",
    "C54_case_refuted",
    "C54_duplicate_refuted",
    "C54_exact_partial"
   ],
   "note": "False, one refutation each for a counted-down TTL, another spelling of the owner, and a repeated record. Proved: any such change always changes the signed octets."
  },
  {
   "property": "C55",
   "status": "partial",
   "theorems": [
    "C55_wildcard_refuted",
    "C55_fields_partial"
   ],
   "note": "False for wildcard owners, whose leading label must not be counted. Proved as an iff: the label count is right exactly if the owner is no wildcard; the signer name is always the owner name."
  },
  {
   "property": "C56",
   "status": "partial",
   "theorems": [
    "C56_message_refuted",
    "C56_header",
    "C56_question",
    "C56_record_partial",
    "C56_message_partial",
    "C56_read_partial"
   ],
   "note": "False for packets with OPT, RRSIG, CAA or SVCB records, whose RDLENGTH is wrong in the plain form (C24). Proved as an iff for headers, questions, all other records and messages, and that octets so laid out parse to the message."
  },
  {
   "property": "C57",
   "status": "partial",
   "theorems": [
    "C57_label_refuted",
    "C57_name_refuted",
    "C57_growth_refuted",
    "C57_bound_partial",
    "C57_rfc_partial"
   ],
   "note": "False: labels of 64 to 191 octets and names above 255 octets are accepted, and overlapping labels make a name longer than its message. Proved: fewer labels than octets in the message, each of 1 to 191 octets, at most 192 octets for each octet of the message; names within the limits of RFC 1035 are accepted and stay within them."
  },
  {
   "property": "C58",
   "status": "proved",
   "theorems": [
    "C58_every_name",
    "C58_entries",
    "C58_names"
   ],
   "note": "C58_every_name covers the names in the data of all record types: each stands somewhere in the message."
  },
  {
   "property": "C59",
   "status": "partial",
   "theorems": [
    "C59_case_refuted",
    "C59_empty_refuted",
    "C59_equal_partial"
   ],
   "note": "False: names that differ in case are unequal, and a name with an empty label is unequal to one written alike. Proved: equality implies equal spelling and octets, and is the same as equal octets for labels of 1 to 255 octets."
  },
  {
   "property": "C60",
   "status": "proved",
   "theorems": [
    "C60_type",
    "C60_reach",
    "C60_injective",
    "C60_roundtrip"
   ],
   "note": "CDS and CDNSKEY have a variant but no struct; the statement says so."
  },
  {
   "property": "C61",
   "status": "proved",
   "theorems": [
    "C61_question",
    "C61_record",
    "C61_new",
    "C61_data_raw"
   ],
   "note": ""
  },
  {
   "property": "C62",
   "status": "partial",
   "theorems": [
    "C62_key_refuted",
    "C62_param_refuted",
    "C62_keys_partial",
    "C62_received_partial"
   ],
   "note": "False of all values: Private(0) and Mandatory compare as equal, and so do two ports. Proved for all keys with a number of their own, and for the parameters of every received record."
  },
  {
   "property": "C63",
   "status": "partial",
   "theorems": [
    "C63_case_refuted",
    "C63_digest_partial",
    "C63_exact_partial"
   ],
   "note": "False for names with upper-case letters. Proved for all others, and for all names that the digest is that of the name as spelled; SHA-256 is any function."
  },
  {
   "property": "C64",
   "status": "partial",
   "theorems": [
    "C64_canonical_refuted",
    "C64_case_refuted",
    "C64_order_partial",
    "C64_siblings_partial",
    "C64_reversed_partial"
   ],
   "note": "False: names are compared from the first label on and by octets. Proved: a total order in agreement with equality, exactly the lexicographic one; in lower case, names with the same parent are in canonical order, and any two names in that of the names turned round."
  },
  {
   "property": "C65",
   "status": "partial",
   "theorems": [
    "C65_sshfp_refuted",
    "C65_sshfp_altered_refuted",
    "C65_gateway_refuted",
    "C65_key_algorithm_refuted",
    "C65_apl_refuted",
    "C65_cds_refuted",
    "C65_txt_refuted",
    "C65_unknown_type_refuted",
    "C65_hints_refuted",
    "C65_bitmap_refuted",
    "C65_message_partial",
    "C65_record_partial",
    "C65_question"
   ],
   "note": "False for SSHFP, IPSECKEY without gateway or with RSA or DSA keys, APL with an odd number of address octets, CDS and CDNSKEY, text that is not UTF-8, records and bitmaps with unknown types, and SVCB hints with several addresses; one refutation each. Proved for all other messages the API can express, against a layout that does not refer to the parser."
  },
  {
   "property": "C66",
   "status": "partial",
   "theorems": [
    "C66_unchecked_refuted",
    "C66_expired_refuted",
    "C66_early_refuted",
    "C66_key_refuted",
    "C66_tag_refuted",
    "C66_record_refuted",
    "C66_algorithm_partial",
    "C66_made_partial"
   ],
   "note": "False: apart from the algorithm nothing of RFC 4035 5.3.1 is checked; refuted for expired and premature signatures, keys that are no zone keys, other key tags, other types, label counts and signers. Proved: the algorithm is checked, and signatures made with the library from a proper key are usable within their period."
  },
  {
   "property": "C67",
   "status": "partial",
   "theorems": [
    "C67_exact_partial",
    "C67_data_exact_partial",
    "C67_cases_partial",
    "C67_kinds_partial",
    "C67_sshfp_refuted",
    "C67_tlsa_refuted",
    "C67_tkey_refuted",
    "C67_text_refuted"
   ],
   "note": "Proved as an iff for all messages and errors, against a table of the parts of each type and their faults; with C34 and C36 it says for each message what parsing does. The table is the code's: four kinds of fault have another error than the documented one (refuted: TLSA, HIP and IPSECKEY algorithms as SSHFP algorithm, TSIG errors as TKEY error, text that is not UTF-8 as length violation)."
  },
  {
   "property": "C68",
   "status": "partial",
   "theorems": [
    "C68_octets_partial",
    "C68_record_partial",
    "C68_set_partial",
    "C68_address",
    "C68_keys"
   ],
   "note": "Proved for the arguments for which C51 holds (exceptions, refuted in C41, C50 and C51: APL addresses ending in a zero octet, CSYNC and NSEC without a type below 256, SSHFP with Ed448, DS with SHA-512), and for whole records where the size is computed correctly (C24); sets of records likewise, with the owner, type, class and TTL passed to ResourceRecordSet::new."
  },
  {
   "property": "C69",
   "status": "proved",
   "theorems": [
    "C69_parse",
    "C69_write",
    "C69_history",
    "C69_dnssec",
    "C69_differ_parse",
    "C69_differ_write"
   ],
   "note": "The two builds do differ: witnesses for reading and writing. Exactly when the parser panics is C36; when writing does, C49."
  },
  {
   "property": "C70",
   "status": "proved",
   "theorems": [
    "C70_dnssec_parse",
    "C70_dnssec_accepts",
    "C70_dnssec_write",
    "C70_mdns_parse",
    "C70_mdns_write",
    "C70_signatures"
   ],
   "note": "CDS and CDNSKEY (59, 60) are read by no build."
  },
  {
   "property": "C71",
   "status": "partial",
   "theorems": [
    "C71_cut",
    "C71_written_plain",
    "C71_written_compressed",
    "C71_behind_refuted"
   ],
   "note": "Cutting: proved for all messages. What stands behind: false, a compression pointer into a label of its own name can lead out of the packet (refuted with a message); that more octets do not hurt is C35."
  },
  {
   "property": "C72",
   "status": "partial",
   "theorems": [
    "C72_plain_partial",
    "C72_compressed_partial",
    "C72_mixed_partial",
    "C72_refuted"
   ],
   "note": "Proved for the packets that read back (C28, C29). False of all: class numbers have several names."
  },
  {
   "property": "C73",
   "status": "partial",
   "theorems": [
    "C73_chain_refuted"
   ],
   "note": "False of every error: source() returns the error itself, so the chain never ends."
  },
  {
   "property": "C74",
   "status": "partial",
   "theorems": [
    "C74_ways_partial",
    "C74_labels",
    "C74_append",
    "C74_iter_mut",
    "C74_dot_refuted",
    "C74_empty_refuted"
   ],
   "note": "False for labels with dots, which display like other names, and for empty labels, which count but are not written. Proved for all others; for label lists without going through text, for all."
  },
  {
   "property": "C75",
   "status": "partial",
   "theorems": [
    "C75_bound_partial",
    "C75_linear_refuted",
    "C75_largest_refuted"
   ],
   "note": "False: questions that point to one long name hold about the square of the message, 178 million octets for 65535 (for every cfg). Proved: never more than 192 times the square. Counted are octets and elements, not the fixed size of each value or unused capacity."
  },
  {
   "property": "C76",
   "status": "partial",
   "theorems": [
    "C76_header_refuted",
    "C76_bound_partial",
    "C76_accepted_partial"
   ],
   "note": "False: a header of twelve octets makes it reserve room for 65535 records. Proved: at most 65535 entries beyond what the message has room for, and for accepted messages exactly what is used."
  },
  {
   "property": "C77",
   "status": "partial",
   "theorems": [
    "C77_print_refuted",
    "C77_closed_refuted",
    "C77_silent_partial",
    "C77_lines_partial"
   ],
   "note": "False for TSIG records: each prints a line, and panics where standard output is closed. Proved: silent for every packet without one, and otherwise exactly one line for each."
  },
  {
   "property": "C78",
   "status": "partial",
   "theorems": [
    "C78_left_over_refuted",
    "C78_label_refuted",
    "C78_pointer_refuted",
    "C78_naptr_flag_refuted",
    "C78_option_refuted",
    "C78_param_order_refuted",
    "C78_param_twice_refuted",
    "C78_param_length_refuted",
    "C78_bitmap_zeros_refuted",
    "C78_bitmap_order_refuted",
    "C78_bitmap_empty_refuted",
    "C78_apl_zeros_refuted",
    "C78_caa_flags_refuted",
    "C78_dnskey_flags_refuted",
    "C78_class_refuted",
    "C78_two_opt_refuted",
    "C78_no_text_refuted",
    "C78_protocol_refuted",
    "C78_loc_refuted",
    "C78_message_partial",
    "C78_record_partial",
    "C78_data_partial",
    "C78_tolerated_partial"
   ],
   "note": "False: octets left over in record data, labels of 64 to 191 octets, pointers that lead forward after the first, SVCB parameters out of order, twice or with a wrong length, bitmaps out of order, empty or with trailing zeros, unknown NAPTR flags, LOC of any version and others are accepted (one witness each, for every cfg). Proved: StrictSpec lists all of them and nothing else - a parsed message is laid out as the RFCs say if and only if it takes none of these liberties."
  },
  {
   "property": "C79",
   "status": "partial",
   "theorems": [
    "C79_counted",
    "C79_nothing_lost",
    "C79_bound_partial",
    "C79_no_pointer",
    "C79_endless_refuted",
    "C79_linear_refuted",
    "C79_largest_refuted"
   ],
   "note": "False: names pointed to again and again take 178 million steps for 65535 octets, and a pointer cycle never ends. Proved: where parsing ends, at most 192 n^2 + 221 n + 66 steps for n octets; where no octet is 192 or more it always ends, within 26 n + 63. The counted parser is proved to be the parser."
  },
  {
   "property": "C80",
   "status": "partial",
   "theorems": [
    "C80_tcp_refuted",
    "C80_two_refuted",
    "C80_plain_partial",
    "C80_no_pointer_partial"
   ],
   "note": "False for compressed messages: pointers count from the start of the buffer, so behind the length prefix of TCP or another message names are silently taken from elsewhere (both refuted, for every cfg). Proved for any number of messages in the plain form, and for all messages (accepted or not) in which no octet is 192 or more."
  },
  {
   "property": "C81",
   "status": "partial",
   "theorems": [
    "C81_anything_refuted",
    "C81_answer_refuted",
    "C81_data_refuted",
    "C81_short_partial",
    "C81_exact_partial",
    "C81_data_exact_partial"
   ],
   "note": "False: a label of 256 octets is written with length 0, so a text without dots can put any octets, for instance an answer, behind the name (for every packet around it); a NULL record with 65536 octets does the same. Proved for all texts with at most 191 octets between dots, which are exactly those that read back, and for record data of at most 65535 octets, exactly too."
  },
  {
   "property": "C82",
   "status": "partial",
   "theorems": [
    "C82_counts_refuted",
    "C82_message_partial",
    "C82_sections_partial"
   ],
   "note": "False when the header's counts differ from the sections (C82_counts_refuted; the compressed writer copies them, C33). C82_message_partial: otherwise the message has the layout, with names compressed as 4.1.4 says; missing are what C51 refutes for single values (IPSECKEY without gateway, APL addresses ending in 0, unassigned algorithm numbers), messages over 16384 octets (C13) and colliding hashes (C14)."
  },
  {
   "property": "C83",
   "status": "proved",
   "theorems": [
    "C83_public_key",
    "C83_signature",
    "C83_distinct",
    "C83_keys",
    "C83_signatures",
    "C83_length"
   ],
   "note": "The base64 crate is modelled (standard alphabet, with padding), not read; RFC 4648 is stated on bit strings."
  },
  {
   "property": "C84",
   "status": "partial",
   "theorems": [
    "C84_collision_refuted",
    "C84_names_refuted",
    "C84_stream",
    "C84_names_partial"
   ],
   "note": "False: two legal names with equal 64-bit hashes are given (found outside Coq by 6.2 thousand million evaluations, a few minutes on one machine; Coq checks the result), and a reply in which the address of one host is received as that of the other. DefaultHasher is modelled as SipHash-1-3 with key 0, as the standard library has it today. Proved: different names feed different octets to the hash, and without a collision among the names of a packet it reads back."
  },
  {
   "property": "C85",
   "status": "partial",
   "theorems": [
    "C85_counted",
    "C85_octets",
    "C85_bound_partial",
    "C85_any_partial",
    "C85_linear_refuted",
    "C85_largest_refuted"
   ],
   "note": "False: every tail of a name is hashed and the number of labels is not limited, so one name of 32759 labels (a message of 65535 octets, which the parser accepts) takes 4.8 thousand million octets of hashing. Proved: at most 2040 octets are hashed per octet written when names keep the limits of RFC 1035, and in general at most the longest name per octet written. The list of what is hashed is proved complete (the result depends on nothing else of the hash function)."
  },
  {
   "property": "C86",
   "status": "proved",
   "theorems": [
    "C86_text",
    "C86_number",
    "C86_printable",
    "C86_messages"
   ],
   "note": "The texts inside the errors of signing and verifying come from other crates and are an argument; they are printable if those are. Derived Debug is modelled."
  },
  {
   "property": "C87",
   "status": "proved",
   "theorems": [
    "C87_a",
    "C87_a_text",
    "C87_aaaa",
    "C87_aaaa_text"
   ],
   "note": "The parser is that of the standard library, modelled; what the crate adds is the call and the record data."
  },
  {
   "property": "C88",
   "status": "partial",
   "theorems": [
    "C88_odd_refuted",
    "C88_undefined_iff_partial",
    "C88_even_partial",
    "C88_inside_partial"
   ],
   "note": "False: the counts are stored through a pointer cast to *mut u16, and a Vec<u8> may lie at an odd address; then the store is undefined behaviour (current compilers panic in debug builds). Common allocators hand out even addresses, so this is seen with custom allocators only. Proved: undefined behaviour is met exactly then; at even addresses the stores stay inside the header and the octets are those of the model on both byte orders."
  },
  {
   "property": "C89",
   "status": "proved",
   "theorems": [
    "C89_name",
    "C89_data",
    "C89_message",
    "C89_one"
   ],
   "note": "One theorem each for names, record data and messages: the result of parsing is r exactly if a predicate on the raw octets says so, r ranging over values, errors, panic and divergence; for messages there is exactly one such r."
  },
  {
   "property": "C90",
   "status": "proved",
   "theorems": [
    "C90_txt",
    "C90_caa",
    "C90_one",
    "C90_text"
   ],
   "note": "The scanner of the standard library against the definition of U+FFFD substitution of maximal subparts (Unicode, 3.9), which is stated with the encoding of RFC 3629 only. The specification of record data on the wire (C27, C34, C89) uses this definition too."
  },
  {
   "property": "C91",
   "status": "partial",
   "theorems": [
    "C91_type_order",
    "C91_type_set",
    "C91_types",
    "C91_class_refuted",
    "C91_class_partial",
    "C91_keys",
    "C91_params_refuted",
    "C91_ways_refuted",
    "C91_kept_partial",
    "C91_params_partial"
   ],
   "note": "False for parameters with the same key: insert keeps the first, collect the last; and for classes, which sort by their place in the source (UdpPayloadSize(0) after IN). Proved: for types and keys in full, for parameters with different keys, which parameter is kept otherwise, and the order of the classes that are read from messages."
  },
  {
   "property": "C92",
   "status": "partial",
   "theorems": [
    "C92_unique",
    "C92_octets_partial",
    "C92_edwards_partial",
    "C92_made_partial",
    "C92_rsa_refuted",
    "C92_ecdsa_refuted",
    "C92_dsa_refuted",
    "C92_wildcard_refuted",
    "C92_ttl_refuted",
    "C92_case_refuted",
    "C92_twice_refuted"
   ],
   "note": "False for RSA (the digest is compared without its DigestInfo), for ECDSA keys as RFC 6605 puts them into DNSKEY records (ring wants a point with the octet 4 in front; this and the behaviour of the rsa and dsa crates are hypotheses on the primitives), for DSA signatures of RFC 2536, and for every algorithm when the set is an expanded wildcard, its TTL was counted down, a letter is a capital or a record is repeated. Proved: the octets of the RFCs are unique; for a set at hand as it was signed, exactly those octets are checked, so Ed25519 and Ed448 signatures are accepted; what is signed is what the RFCs say."
  },
  {
   "property": "C93",
   "status": "partial",
   "theorems": [
    "C93_verify",
    "C93_verify_total",
    "C93_sign",
    "C93_number_refuted",
    "C93_unsupported_refuted",
    "C93_panic_refuted",
    "C93_panic_partial"
   ],
   "note": "False in three places: signing panics (todo!) when ring takes an RSA key and then fails to sign; InvalidDnsSecAlgorithm carries the position of the algorithm in the source (9, 10, 11), never its number (252, 253, 254); verifying with such an algorithm answers false instead of the error. Proved: the exact cause of every answer of verifying and of signing, as equivalences; verifying never panics, signing only in that case (keys up to 131064 octets, see C40 for longer ones)."
  },
  {
   "property": "C94",
   "status": "partial",
   "theorems": [
    "C94_accepts",
    "C94_made_partial",
    "C94_sha2_refuted",
    "C94_others_refuted",
    "C94_rfc5702_refuted"
   ],
   "note": "False: verification compares the digest without its DigestInfo, so everything signed with RSA/SHA-256 and RSA/SHA-512 (ring adds the DigestInfo), and everything others signed with any RSA algorithm, is rejected; the published example of RFC 5702 among it. Proved, from the primality of the factors (Fermat) and with the encodings of RFC 8017: what is signed with RSA/MD5 and RSA/SHA-1 is accepted, and exactly the signatures that contain the bare digest are accepted. The forms in which the crates use RSA are modelled from their documentation (Rsa.v)."
  },
  {
   "property": "C95",
   "status": "partial",
   "theorems": [
    "C95_id_partial",
    "C95_header_partial",
    "C95_ttl_partial",
    "C95_written",
    "C95_id_refuted",
    "C95_ttl_refuted"
   ],
   "note": "False as stated: a pointer to offset 0 is followed, so a name can be read through the ID, and likewise through a TTL; two messages are given in which the change shows up in a name. Proved: whenever no octets of the message that look like a pointer lead to a name through the field (pointed_at, in PatchSpec), the change has exactly the effect described, for every record and value, also on messages that are refused (ID, flags). Serialization is proved without any condition."
  },
  {
   "property": "C96",
   "status": "partial",
   "theorems": [
    "C96_parts_partial",
    "C96_record_partial",
    "C96_packet",
    "C96_offsets_refuted"
   ],
   "note": "False as stated for the dictionary: byte_size_compressed of MX data enters the exchange two octets before its place, that of SOA and MINFO data the second name at the place of the first, and that of a record the names of the data at the place of the record (values given). Proved: the announced size is the written size for every part, failure coincides, the same names are known afterwards, and the sizes of the parts of a packet add up to its compressed length."
  },
  {
   "property": "C97",
   "status": "partial",
   "theorems": [
    "C97_packet",
    "C97_buffer",
    "C97_mode",
    "C97_len_partial",
    "C97_len_refuted",
    "C97_nsec_refuted",
    "C97_ptr",
    "C97_fixed"
   ],
   "note": "False for ED448 (64, though keys have 57 octets and signatures 114), for ECDSA (no length) and for NSEC data made without types (an empty window is written, against RFC 4034 section 4.1.2). Proved: the rest, for all messages."
  },
  {
   "property": "C98",
   "status": "partial",
   "theorems": [
    "C98_length_partial",
    "C98_order_partial",
    "C98_unique",
    "C98_least",
    "C98_collision_refuted"
   ],
   "note": "False where two tails have the same hash (refuted; C84 has such names for the hash in use). Proved otherwise, without a condition on names, sizes or types of data: the exact number of octets, and that it is the same for every order."
  },
  {
   "property": "C99",
   "status": "partial",
   "theorems": [
    "C99_appended_partial",
    "C99_plain_partial",
    "C99_removed_partial",
    "C99_written",
    "C99_compressed",
    "C99_appended_refuted",
    "C99_removed_refuted"
   ],
   "note": "The condition: no two octets of the message that look like a pointer lead to a name read through the counter (append), or through the counter or the last record (remove). Without it the claim is false: pointers may lead into the header, and the text of a label may reach into later records (both refuted with messages that parse). The writing side holds without the condition; the compressed form needs that both messages can be written."
  },
  {
   "property": "C100",
   "status": "proved",
   "theorems": [
    "C100_names",
    "C100_once",
    "C100_most",
    "C100_ten_refuted"
   ],
   "note": "The bound by the number of labels is reached. C100_ten_refuted gives a message of 105 octets within all limits in which a name takes eleven pointers; receivers that stop after ten (the resolver of Go) refuse it. That the message is read back at all needs the conditions of C14 and C29 on labels, length and hash."
  },
  {
   "property": "C101",
   "status": "partial",
   "theorems": [
    "C101_plain_partial",
    "C101_compressed_partial",
    "C101_id",
    "C101_owner",
    "C101_bit15_refuted",
    "C101_pointer_refuted"
   ],
   "note": "False in two cases: a build without mdns drops bit 15 of the class, and a name written with a pointer is spelled out. Proved otherwise: all questions in plain form and the first in compressed form are repeated octet by octet, letter case included, with the ID; the first record, if named as the question, begins with a pointer to offset 12."
  },
  {
   "property": "C102",
   "status": "partial",
   "theorems": [
    "C102_data_partial",
    "C102_address4_partial",
    "C102_address6_partial",
    "C102_written",
    "C102_written_addresses",
    "C102_data_refuted"
   ],
   "note": "False as stated of messages in which another name is read through the octets of the data (C102_data_refuted); proved for all data whose octets no pointer leads to, for every record type, and for addresses without that parser appearing."
  },
  {
   "property": "C103",
   "status": "partial",
   "theorems": [
    "C103_plain_partial",
    "C103_compressed_partial",
    "C103_readme",
    "C103_with_questions_refuted"
   ],
   "note": "Proved for entries the wire format can carry (C28, C29 say which cannot); false for packets made by with_questions and written in compressed form: none of the questions arrives (C103_with_questions_refuted, for all questions)."
  },
  {
   "property": "C104",
   "status": "partial",
   "theorems": [
    "C104_delivered_partial",
    "C104_plain_refuted"
   ],
   "note": "Proved for messages in compressed form: a set signed with RRSIG::from_dnskey, sent among other records with its signature and key, verifies at the receiver. False for the plain form: C104_plain_refuted shows that every signature sent as the last record arrives without its last octet, and C104_ex_plain that verification then answers false."
  },
  {
   "property": "C105",
   "status": "partial",
   "theorems": [
    "C105_recognised_partial",
    "C105_only",
    "C105_spelling_refuted"
   ],
   "note": "Proved for both written forms, and that no other key and no other name gives the same DS record unless the digest collides. False for the last clause: under another upper or lower case spelling of its owner a key is never recognised (C105_spelling_refuted, for all keys and names)."
  },
  {
   "property": "C106",
   "status": "partial",
   "theorems": [
    "C106_octets",
    "C106_plain_iff_partial",
    "C106_compressed_partial",
    "C106_opt_refuted",
    "C106_caa_refuted"
   ],
   "note": "Proved as an iff for the plain form and for all packets in the compressed form. False for two types: an OPT record without options (an EDNS query) at the end of a plain message makes the message unreadable for the library itself, and the empty tag of default CAA data is rejected; both refuted for all surroundings."
  },
  {
   "property": "C107",
   "status": "partial",
   "theorems": [
    "C107_received_partial",
    "C107_sent_partial",
    "C107_plain_refuted",
    "C107_options_refuted",
    "C107_size_refuted"
   ],
   "note": "False for payload sizes from 32768 on, of which bit 15 is lost (65535 is seen as 32767), for the sizes 1 to 4, which are taken for classes, and for all OPT records sent in plain form: a message that ends with one without options is rejected, and in any that is accepted the record is another one. Proved: everything else of a received OPT record is seen as sent, and in compressed form exactly the packets with other sizes arrive."
  },
  {
   "property": "C108",
   "status": "partial",
   "theorems": [
    "C108_plain_partial",
    "C108_compressed_partial",
    "C108_answered",
    "C108_answered_compressed",
    "C108_edns_refuted"
   ],
   "note": "False for plain form when records stay in the packet whose written length is wrong (C108_edns_refuted: an EDNS query turned into an answer without taking the OPT record is rejected by the library itself), and for SSHFP and texts that grow. Proved: exact for every received message and every history of calls if the records still there are of the other kinds; every query can be answered (C108_answered, C108_answered_compressed)."
  },
  {
   "property": "C109",
   "status": "partial",
   "theorems": [
    "C109_compressed_partial",
    "C109_plain_partial",
    "C109_sshfp_refuted"
   ],
   "note": "False for SSHFP (C109_sshfp_refuted) and, in plain form, for the types whose length is written wrong (C28, C107). Proved for all other records and every query."
  },
  {
   "property": "C110",
   "status": "partial",
   "theorems": [
    "C110_left_out_partial",
    "C110_added_partial",
    "C110_calls_partial",
    "C110_plain",
    "C110_collision_refuted"
   ],
   "note": "False where two tails of names have the same hash (C110_collision_refuted). Proved otherwise for all subsets and additions at any place (at least 5 octets per question, 11 per record; at most what the entries take in plain form, for names without empty labels), for every call of the API, and exactly for the plain form."
  },
  {
   "property": "C111",
   "status": "partial",
   "theorems": [
    "C111_record_partial",
    "C111_panic_refuted",
    "C111_error_refuted",
    "C111_any_refuted",
    "C111_written"
   ],
   "note": "False: a record without data of type NS, CNAME, SOA, PTR, MINFO, NSEC, TKEY or TSIG panics wherever it stands; all others but NULL, TXT, OPT and OPENPGPKEY are refused, and so is type ANY.  The outcome is proved for every type; the library cannot write such records either."
  },
  {
   "property": "C112",
   "status": "proved",
   "theorems": [
    "C112_bound",
    "C112_rsa",
    "C112_changed"
   ],
   "note": "For every signature scheme up to a failure of the scheme on exactly the two texts; for RSA as RFC 8017 defines it nothing is assumed but that the hash function does not collide on the two texts."
  },
  {
   "property": "C113",
   "status": "partial",
   "theorems": [
    "C113_plain_partial",
    "C113_names_partial",
    "C113_layout_partial",
    "C113_key_partial",
    "C113_revoked_refuted",
    "C113_caa_refuted",
    "C113_text_refuted",
    "C113_naptr_refuted",
    "C113_option_refuted",
    "C113_gateway_refuted",
    "C113_left_over_refuted",
    "C113_sshfp_refuted"
   ],
   "note": "False: a revoked key (RFC 5011) comes back as one that is not, so its key tag and DS record are wrong (C113_key_partial says exactly for which flags); reserved CAA flags, text that is not UTF-8, unknown NAPTR flags, repeated options, the octet in place of no gateway and octets left over change; every SSHFP record loses an octet. Proved: fourteen types without names always come back, ten with names if the names are written in full, every type exactly if it was laid out as its RFC says with names in full."
  },
  {
   "property": "C114",
   "status": "partial",
   "theorems": [
    "C114_relays_partial",
    "C114_short_partial",
    "C114_goes_on",
    "C114_octets_partial",
    "C114_sshfp_refuted",
    "C114_text_refuted"
   ],
   "note": "Proved by induction over the chain for all records but those C37 excludes (SSHFP and overlong repaired text; for chains with plain forms also OPT, RRSIG, CAA and SVCB parameters). False for these: an SSHFP record loses an octet at every relay until one rejects the message (C114_sshfp_refuted), repaired text is cut into other strings (C114_text_refuted)."
  },
  {
   "property": "C115",
   "status": "partial",
   "theorems": [
    "C115_passed_partial",
    "C115_determined",
    "C115_cursor",
    "C115_ignored_refuted",
    "C115_error_refuted",
    "C115_empty_refuted"
   ],
   "note": "The positive theorem covers every mixture of readable and unreadable records whose reading returns; the hypothesis is needed, because a record of NS, CNAME, PTR, SOA, MINFO, TKEY or TSIG without data panics (C115_empty_refuted, for every place). C115_cursor says where an error leaves the cursor; C115_ignored_refuted is a message that makes a program which goes on after an error deliver an address record that is not there."
  },
  {
   "property": "C116",
   "status": "partial",
   "theorems": [
    "C116_stream",
    "C116_pieces",
    "C116_packets_partial",
    "C116_long_refuted"
   ],
   "note": "C116_pieces holds for every stream of octets (each is a number of messages and an unfinished one, C116_stream) and every way to cut it. Partial only because packets arrive as far as C29 says, and because nothing keeps a user from writing a message of more than 65535 octets, whose length two octets cannot announce (C116_long_refuted). Compare C80: parsing the messages where they stand in the stream is wrong."
  },
  {
   "property": "C117",
   "status": "partial",
   "theorems": [
    "C117_whole",
    "C117_crash_partial",
    "C117_panic_refuted",
    "C117_behind_refuted",
    "C117_framed"
   ],
   "note": "False in two places. A name that ends behind one of its labels, or one octet before the end of a label, panics instead of giving an error, so for every record whose name is not the root there is such a crash (C117_panic_refuted); and what is stored behind a torn record is read as its data and as other records (C117_behind_refuted). Proved: the exact outcome for every moment of a crash (C117_crash_partial), and that with the length in front of each record, as on TCP, exactly the complete records come back whenever the crash comes, with the octets to be cut off known (C117_framed)."
  },
  {
   "property": "C118",
   "status": "partial",
   "theorems": [
    "C118_over_refuted",
    "C118_under_refuted",
    "C118_fits_partial"
   ],
   "note": "False where byte_size is wrong (C24): for every limit from 25 there is a CAA record that is put in although the message then exceeds the limit by the length of its tag (C118_over_refuted), and for every limit from 30 an SVCB record left out although it fits exactly (C118_under_refuted). Proved for all records whose size is computed correctly and that the format can carry (C26), with both forms within the limit; the compressed form is read back up to 16384 octets and without collisions, as in C29."
  },
  {
   "property": "C119",
   "status": "partial",
   "theorems": [
    "C119_caches_partial",
    "C119_short_partial",
    "C119_no_longer",
    "C119_plain_order",
    "C119_order_refuted"
   ],
   "note": "False with the answers gone through first and the compressed form: taking out the authorities sets the count of answers to 0, so no answer arrives (C119_order_refuted, for every message received, saying what arrives instead). Proved for the order authorities, answers, additionals and any chain of caches, for records both forms carry (C119_caches_partial) and, with compressed messages only, all but SSHFP and text that grew (C119_short_partial); in plain form the order makes no difference (C119_plain_order), and no record outlives its TTL (C119_no_longer)."
  },
  {
   "property": "C120",
   "status": "partial",
   "theorems": [
    "C120_over_refuted",
    "C120_zone_partial",
    "C120_fewest"
   ],
   "note": "False where byte_size() is too small: for every limit a CAA record for which a longer message is made (C120_over_refuted). Proved for all records whose size is exact and that fit a message (C120_zone_partial), with the least number of messages (C120_fewest). That the values written are octets is assumed for the stream."
  },
  {
   "property": "C121",
   "status": "partial",
   "theorems": [
    "C121_sound",
    "C121_matched_partial",
    "C121_constructor_refuted",
    "C121_stuck_refuted"
   ],
   "note": "False for queries made with Packet::with_questions and sent in compressed form: their header counts no question and every reply is for nobody (C121_constructor_refuted); and a message of fourteen octets from anybody stops the client for ever (C121_stuck_refuted). Proved for queries made with new_query and set_questions, answers whose data both forms carry, and any other messages that do not stop the parser and match no query (C121_matched_partial); that nothing else is ever delivered holds for all messages (C121_sound)."
  },
  {
   "property": "C122",
   "status": "partial",
   "theorems": [
    "C122_keys_partial",
    "C122_answer_partial",
    "C122_made",
    "C122_name_refuted",
    "C122_signer_refuted"
   ],
   "note": "Proved for chains of any length, both ways, with the name of every set compared by the caller with the zone whose key is used, and for supported algorithms. False without that comparison: Rrsig::verify accepts DS records for every name from the owner of any key (C122_name_refuted), and the comparison cannot be made by the signer's name, because Rrsig::from_dnskey writes the child's name there (C122_signer_refuted)."
  },
  {
   "property": "C123",
   "status": "partial",
   "theorems": [
    "C123_own_order_partial",
    "C123_canonical_partial",
    "C123_order_refuted",
    "C123_case_refuted"
   ],
   "note": "False for zones in canonical order: compared with FQDN's own order names that exist are denied (C123_order_refuted), and in another spelling every name is denied (C123_case_refuted, for all zones). Proved in full, both ways, for zones in FQDN's order, and for zones in canonical order if the caller turns the names round and writes them in lower case before comparing."
  },
  {
   "property": "C124",
   "status": "partial",
   "theorems": [
    "C124_followed_partial",
    "C124_records_partial",
    "C124_case_refuted"
   ],
   "note": "False for the last clause: if a server spells a name in another case than the alias to it does, the resolver stops and finds no record there (C124_case_refuted, for all packets). The rest is proved in full, both ways."
  },
  {
   "property": "C125",
   "status": "partial",
   "theorems": [
    "C125_agree_partial",
    "C125_order_partial",
    "C125_order_refuted"
   ],
   "note": "Proved for all records that are sent as they are (C28, C29), and that the order is that of RFC 6762 for the four named classes. False for other classes: RecordClass sorts by the place in the source, so that a host with this library and one that goes by the numbers may both have won (C125_order_refuted)."
  },
  {
   "property": "C126",
   "status": "partial",
   "theorems": [
    "C126_any",
    "C126_found_partial",
    "C126_tag_refuted",
    "C126_first_refuted"
   ],
   "note": "Proved for a validator that tries all the keys with the tag, for every list of keys and every message that arrives. Its last sentence is false: exchanging two octets of a key an even number of places apart gives another key of the same tag (C126_tag_refuted, for every key), so that trying only the first key with the tag turns a good signature down (C126_first_refuted)."
  },
  {
   "property": "C127",
   "status": "partial",
   "theorems": [
    "C127_meaning",
    "C127_parts",
    "C127_equivalence",
    "C127_arrives_partial",
    "C127_distinct_partial",
    "C127_same_length",
    "C127_same_octets_partial",
    "C127_order_refuted",
    "C127_counts_refuted"
   ],
   "note": "The meaning of == and its laws are proved for all packets (C127_meaning, C127_parts, C127_equivalence). Two clauses are false: equal packets with two or more EDNS options can be written with different octets, because the map lists them in any order (C127_order_refuted; proved for all others, C127_same_octets_partial; the number of octets, the size announced and the errors are always the same, C127_same_length), and a packet made with Packet::with_questions is not equal to the one that arrives, because the counts are compared although others are sent (C127_counts_refuted). With right counts, what arrives is equal to what was sent and unequal packets have different octets (C127_arrives_partial, C127_distinct_partial)."
  },
  {
   "property": "C128",
   "status": "partial",
   "theorems": [
    "C128_exact_partial",
    "C128_round_partial",
    "C128_whole_refuted",
    "C128_case_refuted"
   ],
   "note": "Proved for messages under the conditions of C28 and C29 (C128_exact_partial, C128_round_partial). The clause about case is false, since == between names is octet by octet: an answer known under WWW is given again for www (C128_case_refuted). Comparing whole records with == does not work either, since the flush bit is compared, which is not set in queries (C128_whole_refuted)."
  },
  {
   "property": "C129",
   "status": "partial",
   "theorems": [
    "C129_exact_partial",
    "C129_late_partial",
    "C129_feature_refuted"
   ],
   "note": "Proved for messages under the conditions of C28 and C29 (C129_exact_partial, C129_late_partial). In builds without the feature mdns the flush bit is dropped without notice, and such a cache gives outdated records (C129_feature_refuted)."
  },
  {
   "property": "C130",
   "status": "partial",
   "theorems": [
    "C130_found_partial",
    "C130_again_partial",
    "C130_dot_refuted"
   ],
   "note": "Proved for messages under the conditions of C28 and C29 (C130_found_partial). The second part is true of names without dots in labels (C130_again_partial) and false of others: the name of an instance such as 'Dr. W' is received as one label, shown with its dot, and read back as two (C130_dot_refuted)."
  },
  {
   "property": "C131",
   "status": "partial",
   "theorems": [
    "C131_all_partial"
   ],
   "note": "Proved for records whose byte_size is right (C24); for the others the limit is not kept (C118_over_refuted) and a message over 65535 octets does not arrive (C116_long_refuted)."
  },
  {
   "property": "C132",
   "status": "partial",
   "theorems": [
    "C132_accepted_partial",
    "C132_octets",
    "C132_only_partial",
    "C132_collision_refuted",
    "C132_order_refuted"
   ],
   "note": "Proved for messages under the conditions of C28 and C29 with at most one EDNS option per record (C132_accepted_partial, C132_only_partial, C132_octets). False of others: with two options the receiver may write them in another order and rejects what is authentic (C132_order_refuted); and where names have the same hash (C84) the receiver accepts a message that was never authenticated, with one host's address changed into that of the other (C132_collision_refuted)."
  },
  {
   "property": "C133",
   "status": "partial",
   "theorems": [
    "C133_followed_partial",
    "C133_whole_partial",
    "C133_none_partial",
    "C133_case_refuted"
   ],
   "note": "Proved for messages under the conditions of C28 and C29 (C133_followed_partial, C133_whole_partial, C133_none_partial). The last sentence is false: a record removed under another spelling of its name stays in the zone (C133_case_refuted)."
  },
  {
   "property": "C134",
   "status": "partial",
   "theorems": [
    "C134_v4",
    "C134_v6",
    "C134_v6_only",
    "C134_asked_partial",
    "C134_case_refuted"
   ],
   "note": "Proved as an iff for IPv4 (C134_v4) and for IPv6 (C134_v6, C134_v6_only; there for names without empty labels, as all received names are). The last clause is false: IN-ADDR.ARPA in capitals is not equal to in-addr.arpa (C134_case_refuted)."
  },
  {
   "property": "C135",
   "status": "partial",
   "theorems": [
    "C135_padded_partial",
    "C135_alike",
    "C135_plain_refuted",
    "C135_size_refuted"
   ],
   "note": "Proved for the compressed form, measured by what is written (C135_padded_partial; up to 16384 octets as in C29), and what sizes tell (C135_alike). False for the plain form, in which no OPT record arrives as it is (C135_plain_refuted), and if byte_size is asked, which does not count the codes and lengths of options (C135_size_refuted)."
  },
  {
   "property": "C136",
   "status": "partial",
   "theorems": [
    "C136_allowed_partial",
    "C136_plain_refuted",
    "C136_case_refuted"
   ],
   "note": "Proved as an iff for messages within the limits of C28 and C29 (C136_allowed_partial). False for CAA records in plain form, the values of which are cut short by the length of the tag, so that another authority may issue (C136_plain_refuted), and for records under another spelling of the name (C136_case_refuted)."
  },
  {
   "property": "C137",
   "status": "partial",
   "theorems": [
    "C137_found_partial",
    "C137_unknown_refuted",
    "C137_plain_refuted",
    "C137_case_refuted"
   ],
   "note": "Proved as an iff, and the order, for messages within the limits of C28 and C29 (C137_found_partial). False for parameters with unknown keys, which make the whole message be rejected (C137_unknown_refuted), for records with parameters in plain form (C137_plain_refuted), and for another spelling of the name (C137_case_refuted)."
  }
 ]
}