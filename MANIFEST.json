{
 "claims": [
  {
   "property": "C01",
   "status": "proved",
   "theorems": [
    "C01_serialize_bytes",
    "C01_roundtrip_unsigned",
    "C01_roundtrip_signed",
    "C01_roundtrip_bytes",
    "C01_short_input"
   ],
   "note": ""
  },
  {
   "property": "C02",
   "status": "proved",
   "theorems": [
    "C02_positional",
    "C02_serialize_iterator",
    "C02_deserialize_iterator"
   ],
   "note": ""
  },
  {
   "property": "C03",
   "status": "proved",
   "theorems": [
    "C03_answer",
    "C03_run"
   ],
   "note": ""
  },
  {
   "property": "C04",
   "status": "proved",
   "theorems": [
    "C04_history",
    "C04_observers"
   ],
   "note": ""
  },
  {
   "property": "C05",
   "status": "partial",
   "theorems": [
    "C05_at_refuted",
    "C05_self_insert_refuted",
    "C05_self_reference_partial"
   ],
   "note": "REFUTED as stated: at(size()) does not throw, insert(pos, v[i]) of an own element stores a shifted value; C05_self_reference_partial gives the guarded positive part."
  },
  {
   "property": "C06",
   "status": "proved",
   "theorems": [
    "C06_compare",
    "C06_total_order"
   ],
   "note": ""
  },
  {
   "property": "C07",
   "status": "proved",
   "theorems": [
    "C07_utf8_write",
    "C07_utf8_roundtrip",
    "C07_utf8_prefix_free"
   ],
   "note": ""
  },
  {
   "property": "C08",
   "status": "proved",
   "theorems": [
    "C08_utf16_write",
    "C08_utf16_roundtrip"
   ],
   "note": ""
  },
  {
   "property": "C09",
   "status": "proved",
   "theorems": [
    "C09_cast_lossless",
    "C09_cast_concat"
   ],
   "note": ""
  },
  {
   "property": "C10",
   "status": "partial",
   "theorems": [
    "C10_normalize_newlines",
    "C10_spec_no_cr",
    "C10_trailing_cr_refuted",
    "C10_non_ascii_refuted",
    "C10_strip_newlines"
   ],
   "note": "REFUTED as stated: a final CR is dropped, and non-ASCII code points are cut to one unit for UTF-8 output. C10_normalize_newlines is the exact result otherwise."
  },
  {
   "property": "C11",
   "status": "partial",
   "theorems": [
    "C11_strip",
    "C11_strip_idempotent",
    "C11_all_whitespace_refuted",
    "C11_collapse"
   ],
   "note": "REFUTED for non-empty all-whitespace input (undefined behaviour in strip); everything else proved, collapse without guard."
  },
  {
   "property": "C12",
   "status": "partial",
   "theorems": [
    "C12_split_whitespace",
    "C12_strict_split",
    "C12_commas",
    "C12_wide_delimiter_refuted",
    "C12_blank_piece_refuted"
   ],
   "note": "REFUTED for multi-unit delimiters and for comma pieces made of whitespace only; proved under those guards, whitespace splitting without guard."
  },
  {
   "property": "C13",
   "status": "proved",
   "theorems": [
    "C13_case",
    "C13_case_changes",
    "C13_case_cancel",
    "C13_match",
    "C13_isomorphic",
    "C13_bytes"
   ],
   "note": ""
  },
  {
   "property": "C14",
   "status": "proved",
   "theorems": [
    "C14_encode_byte",
    "C14_roundtrip",
    "C14_roundtrip_no_percent",
    "C14_injective",
    "C14_characters",
    "C14_decode_total"
   ],
   "note": ""
  },
  {
   "property": "C15",
   "status": "proved",
   "theorems": [
    "C15_sets",
    "C15_nested"
   ],
   "note": ""
  },
  {
   "property": "C16",
   "status": "proved",
   "theorems": [
    "C16_roundtrip"
   ],
   "note": ""
  },
  {
   "property": "C17",
   "status": "partial",
   "theorems": [
    "C17_decimal",
    "C17_octal",
    "C17_hexadecimal",
    "C17_reject_decimal",
    "C17_reject_octal",
    "C17_reject_hexadecimal",
    "C17_octal_8_refuted",
    "C17_octal_digit_refuted",
    "C17_overflow_refuted"
   ],
   "note": "REFUTED for octal digit 8 ('08' reads an uninitialised variable, '018' is accepted as 1) and for numbers of 2^32 or more (uninitialised); exact values and rejections proved for everything else."
  },
  {
   "property": "C18",
   "status": "partial",
   "theorems": [
    "C18_roundtrip_exact",
    "C18_roundtrip_two_runs",
    "C18_roundtrip_carry_free",
    "C18_roundtrip_refuted",
    "C18_text"
   ],
   "note": "REFUTED in general (0:0:1:0:2:0:0:3 comes back different); C18_roundtrip_exact gives the exact condition, C18_roundtrip_two_runs a simple sufficient one."
  },
  {
   "property": "C19",
   "status": "partial",
   "theorems": [
    "C19_embedded_undefined",
    "C19_embedded_refuted"
   ],
   "note": "REFUTED: every embedded IPv4 form hits undefined behaviour (C19_embedded_undefined)."
  },
  {
   "property": "C20",
   "status": "proved",
   "theorems": [
    "C20_history",
    "C20_view_unique",
    "C20_iterators_stable"
   ],
   "note": ""
  },
  {
   "property": "C21",
   "status": "proved",
   "theorems": [
    "C21_slots",
    "C21_reuse",
    "C21_no_growth"
   ],
   "note": ""
  },
  {
   "property": "C22",
   "status": "partial",
   "theorems": [
    "C22_move_partial",
    "C22_refused",
    "C22_end_inside_refuted",
    "C22_end_never_refused"
   ],
   "note": "REFUTED for end positions inside the moved subtree (move(r.end(), r) makes a cycle and loses the tree); all other positions proved, refusal proved for node positions."
  },
  {
   "property": "C23",
   "status": "partial",
   "theorems": [
    "C23_copy_partial",
    "C23_copy_refuted"
   ],
   "note": "REFUTED when a child that is not the last has grandchildren (the next sibling's copy lands one level too deep); proved for all shapes in [copyable] and positions outside the subtree."
  },
  {
   "property": "C24",
   "status": "proved",
   "theorems": [
    "C24_traversals",
    "C24_once"
   ],
   "note": ""
  },
  {
   "property": "C25",
   "status": "partial",
   "theorems": [
    "C25_siblings_partial",
    "C25_one_root_partial",
    "C25_roots_refuted"
   ],
   "note": "REFUTED at root level with two roots (-- at end gives the first root, -- on a root asserts, back() is front()); proved below any node and for one root."
  },
  {
   "property": "C26",
   "status": "proved",
   "theorems": [
    "C26_stable_history",
    "C26_plain_history",
    "C26_plain_values",
    "C26_growth",
    "C26_empty_key_refuted"
   ],
   "note": "Stable trie: exact finite map under every history. Plain trie: exact key set under every history, exact values without erase (with erase see C29). Outside the statement, t[''] = v is shown to corrupt the trie (C26_empty_key_refuted)."
  },
  {
   "property": "C27",
   "status": "proved",
   "theorems": [
    "C27_well_formed"
   ],
   "note": ""
  },
  {
   "property": "C28",
   "status": "proved",
   "theorems": [
    "C28_stable",
    "C28_plain",
    "C28_no_repetition",
    "C28_root"
   ],
   "note": ""
  },
  {
   "property": "C29",
   "status": "partial",
   "theorems": [
    "C29_stable",
    "C29_plain_exact",
    "C29_plain_refuted"
   ],
   "note": "REFUTED for the plain trie (erasing 'ab' sets the value of 'a' to 0); C29_plain_exact says exactly which values are lost; the stable trie is proved to keep all."
  },
  {
   "property": "C30",
   "status": "partial",
   "theorems": [
    "C30_assign",
    "C30_empty_string",
    "C30_refuted"
   ],
   "note": "REFUTED when the list contains the empty string (size() counts it); proved for all other lists, sorted or not, with duplicates or not."
  },
  {
   "property": "C31",
   "status": "partial",
   "theorems": [
    "C31_ids_partial",
    "C31_stability_refuted"
   ],
   "note": "REFUTED: inserting further strings changes identifiers, and the old identifier may then name another string; one-to-one correspondence at any time is proved."
  },
  {
   "property": "C32",
   "status": "partial",
   "theorems": [
    "C32_image_partial",
    "C32_refuted"
   ],
   "note": "REFUTED for 16 bit elements and for trailing data in the stream; proved for 32 bit elements, bytes, and a stream holding only the trie."
  },
  {
   "property": "C33",
   "status": "proved",
   "theorems": [
    "C33_fatal",
    "C33_encode"
   ],
   "note": ""
  },
  {
   "property": "C34",
   "status": "partial",
   "theorems": [
    "C34_refuted",
    "C34_utf8_partial",
    "C34_total_partial"
   ],
   "note": "REFUTED: no U+FFFD is ever written (byte FF decodes to the empty string); C34_utf8_partial shows that UTF-8 keeps every character and drops every maximal ill-formed part, C34_total_partial that no decoder reports an error."
  },
  {
   "property": "C35",
   "status": "proved",
   "theorems": [
    "C35_chunking",
    "C35_reuse"
   ],
   "note": ""
  },
  {
   "property": "C36",
   "status": "proved",
   "theorems": [
    "C36_encode_decode",
    "C36_decode_encode",
    "C36_names"
   ],
   "note": ""
  },
  {
   "property": "C37",
   "status": "partial",
   "theorems": [
    "C37_euc_kr",
    "C37_gbk",
    "C37_euc_jp",
    "C37_shift_jis",
    "C37_user_defined",
    "C37_gb18030_partial",
    "C37_big5_partial",
    "C37_gb18030_total_partial",
    "C37_iso_2022_jp",
    "C37_refuted"
   ],
   "note": "REFUTED for Big5 (trail bytes from A1 are written but not read) and gb18030 (U+10000 is written but not read, larger code points fail an assert); the other encodings proved for all strings, these two under guards."
  },
  {
   "property": "C38",
   "status": "partial",
   "theorems": [
    "C38_valid",
    "C38_unpaired_partial",
    "C38_refuted"
   ],
   "note": "REFUTED: the unit after an unpaired lead surrogate is changed (D800 0041 gives U+0141); valid input proved, C38_unpaired_partial gives the exact result."
  },
  {
   "property": "C39",
   "status": "partial",
   "theorems": [
    "C39_encode_partial",
    "C39_iso_2022_jp_refuted",
    "C39_iso_2022_jp_ascii_refuted",
    "C39_gb18030_refuted"
   ],
   "note": "REFUTED: ISO-2022-JP writes escape sequences for ever on a code point outside its repertoire, gb18030 fails an assert above U+10000; all other encoders proved."
  },
  {
   "property": "C40",
   "status": "partial",
   "theorems": [
    "C40_lookup",
    "C40_distinct",
    "C40_label_partial",
    "C40_refuted"
   ],
   "note": "REFUTED for ISO-8859-15 (its label is that of ISO-8859-14) and for labels of white space only (undefined); the lookup is proved exactly for all other labels."
  },
  {
   "property": "C41",
   "status": "partial",
   "theorems": [
    "C41_parse_terminates",
    "C41_setter_terminates",
    "C41_parse_defined_partial",
    "C41_file_ipv4_refuted",
    "C41_file_ipv6_refuted",
    "C41_octal_refuted",
    "C41_embedded_refuted",
    "C41_query_encoding_refuted"
   ],
   "note": "REFUTED: file://1.2.3.4/ and file://[::1]/ fail an assert, http://08/ uses an uninitialised number, an IPv4 address in an IPv6 address is undefined, and an ISO-2022-JP query may never end; for UTF-8 termination within a linear number of steps is proved for every string, base and setter, and definedness outside address hosts."
  },
  {
   "property": "C42",
   "status": "partial",
   "theorems": [
    "C42_hash",
    "C42_search",
    "C42_username",
    "C42_password",
    "C42_credentials_kept",
    "C42_username_empty_host_refuted",
    "C42_username_refuted",
    "C42_pathname",
    "C42_protocol_frame",
    "C42_host_frame",
    "C42_hostname_frame",
    "C42_port_frame",
    "C42_file_host_refuted"
   ],
   "note": "REFUTED for the user name and password of URLs whose host is an address or empty (assert) and for the host of file URLs (first code point doubled); search, hash, pathname, user name and password proved exactly, and for every setter that it changes only its components."
  },
  {
   "property": "C43",
   "status": "partial",
   "theorems": [
    "C43_accepted",
    "C43_rejected",
    "C43_65535_refuted",
    "C43_zeros_refuted"
   ],
   "note": "REFUTED: 65535 and numbers with leading zeros of more than five digits are rejected; everything else proved exactly."
  },
  {
   "property": "C44",
   "status": "proved",
   "theorems": [
    "C44_filter",
    "C44_idempotent"
   ],
   "note": ""
  },
  {
   "property": "C45",
   "status": "partial",
   "theorems": [
    "C45_progress_partial",
    "C45_terminates_partial",
    "C45_total_partial",
    "C45_refuted",
    "C45_stuck",
    "C45_end_refuted"
   ],
   "note": "REFUTED: '..5' is tokenised for ever, '#' or 'url' at the end reads past the end; C45_progress_partial, C45_terminates_partial and C45_total_partial prove everything outside one stuck form, and C45_stuck that this form never ends."
  },
  {
   "property": "C46",
   "status": "proved",
   "theorems": [
    "C46_escape",
    "C46_scalar"
   ],
   "note": ""
  },
  {
   "property": "C47",
   "status": "partial",
   "theorems": [
    "C47_plaintext",
    "C47_newlines_partial",
    "C47_newlines_any_partial",
    "C47_final_refuted"
   ],
   "note": "REFUTED: a CR at the end of the text is delivered together with the end, so that the tokens may differ from those of the text with LF (C47_final_refuted); proved for what the tokeniser receives in the PLAINTEXT state, and for every other text from every state (C47_newlines_any_partial)."
  },
  {
   "property": "C48",
   "status": "partial",
   "theorems": [
    "C48_history",
    "C48_refuted"
   ],
   "note": "REFUTED for prepending the end-of-queue item, as the ISO-2022-JP coders do; proved for every history of pushes, prepends of values and reads. Also shown: read(0) is undefined and peek(n) may return more than n items."
  },
  {
   "property": "C49",
   "status": "proved",
   "theorems": [
    "C49_bom",
    "C49_no_bom",
    "C49_utf8",
    "C49_text_decoder"
   ],
   "note": ""
  },
  {
   "property": "C50",
   "status": "partial",
   "theorems": [
    "C50_given",
    "C50_label_partial",
    "C50_only_partial",
    "C50_refuted"
   ],
   "note": "REFUTED: utf-16 labels are not turned into UTF-8, a rule of 1025 bytes is accepted, a label of spaces is undefined; the rest proved in both directions."
  },
  {
   "property": "C51",
   "status": "partial",
   "theorems": [
    "C51_number_partial",
    "C51_significand",
    "C51_assert",
    "C51_refuted",
    "C51_sign_refuted"
   ],
   "note": "REFUTED: a digit string of 2^32 or more fails an assert (3.14159265359), '++5' gives a number 0; all other numbers proved exactly, and exactly which ones assert."
  },
  {
   "property": "C52",
   "status": "partial",
   "theorems": [
    "C52_string",
    "C52_string_spelled",
    "C52_identifier",
    "C52_names_partial",
    "C52_refuted"
   ],
   "note": "REFUTED: the identifiers '--' and '--1' are read as delimiters or numbers; strings and names otherwise proved exactly, strings and identifier scanning without guard."
  },
  {
   "property": "C53",
   "status": "partial",
   "theorems": [
    "C53_url_partial",
    "C53_refuted"
   ],
   "note": "REFUTED: an escape makes a bad url, and the parenthesis of a quoted url is read twice; plain urls proved."
  },
  {
   "property": "C54",
   "status": "partial",
   "theorems": [
    "C54_meta_charset_partial",
    "C54_meta_charset_refuted"
   ],
   "note": "REFUTED: charset followed by white space only for a value is undefined behaviour (the label is stripped to nothing); proved for all other strings in both directions."
  },
  {
   "property": "C55",
   "status": "partial",
   "theorems": [
    "C55_tokenizer_total_partial",
    "C55_tokenizer_total_refuted"
   ],
   "note": "REFUTED: the lookup of &zwnj< and its like reads outside the table; proved with a linear bound for every text whose references are in the table."
  },
  {
   "property": "C56",
   "status": "partial",
   "theorems": [
    "C56_eof_once_partial",
    "C56_eof_missing_refuted",
    "C56_eof_twice_refuted",
    "C56_last_partial"
   ],
   "note": "REFUTED: &#65; at the end gives no end-of-file token, &amp followed by CR at the end gives two; proved for all texts without numeric references, in-table names and no final CR, and for every text without a final CR that the token is the last one if it comes (C56_last_partial)."
  },
  {
   "property": "C57",
   "status": "proved",
   "theorems": [
    "C57_text_round_trip",
    "C57_escape"
   ],
   "note": ""
  },
  {
   "property": "C58",
   "status": "proved",
   "theorems": [
    "C58_start_tag_round_trip",
    "C58_end_tag_round_trip"
   ],
   "note": ""
  },
  {
   "property": "C59",
   "status": "partial",
   "theorems": [
    "C59_comment_round_trip",
    "C59_comment_null_refuted"
   ],
   "note": "REFUTED for NUL in comments (dropped instead of replaced); proved for all other comments."
  },
  {
   "property": "C60",
   "status": "proved",
   "theorems": [
    "C60_doctype_round_trip"
   ],
   "note": ""
  },
  {
   "property": "C61",
   "status": "partial",
   "theorems": [
    "C61_longest_name_partial",
    "C61_every_name",
    "C61_every_name_alone",
    "C61_references_in_text",
    "C61_lookup_total_refuted"
   ],
   "note": "REFUTED: some texts make the lookup read outside the table; whenever it answers the answer is proved right, and every name with a semicolon is found before any text."
  },
  {
   "property": "C62",
   "status": "partial",
   "theorems": [
    "C62_code_partial",
    "C62_overflow_refuted",
    "C62_lost_refuted"
   ],
   "note": "REFUTED: the value wraps at 2^32 (&#x100000041; is A) and text after a reference is lost (&#65;b&#66;cd); the mapping of values to code points is proved."
  },
  {
   "property": "C63",
   "status": "proved",
   "theorems": [
    "C63_tree_round_trip"
   ],
   "note": ""
  },
  {
   "property": "C64",
   "status": "partial",
   "theorems": [
    "C64_serialize_partial",
    "C64_text_in_fragment_refuted",
    "C64_void_children_refuted"
   ],
   "note": "REFUTED: text directly below a document fails an assert, children of void elements are written; proved for all trees without these."
  },
  {
   "property": "C65",
   "status": "partial",
   "theorems": [
    "C65_script_partial",
    "C65_second_start_refuted"
   ],
   "note": "REFUTED: <!--<b x> inside a script emits the script start tag again with attribute x; proved for texts where < is not followed by / or an exclamation mark."
  },
  {
   "property": "C66",
   "status": "proved",
   "theorems": [
    "C66_special",
    "C66_other"
   ],
   "note": ""
  },
  {
   "property": "C67",
   "status": "partial",
   "theorems": [
    "C67_path_partial",
    "C67_opaque",
    "C67_lone_slash_refuted"
   ],
   "note": "REFUTED: a:/ is given the opaque path / (the test for text after the slash is off by one); proved for every other text."
  },
  {
   "property": "C68",
   "status": "proved",
   "theorems": [
    "C68_file"
   ],
   "note": ""
  },
  {
   "property": "C69",
   "status": "partial",
   "theorems": [
    "C69_written_read_partial",
    "C69_lone_slash_refuted",
    "C69_ipv6_refuted",
    "C69_drive_refuted"
   ],
   "note": "REFUTED: the path of a:/. is written as a:/ and read as opaque, IPv6 addresses whose zeros are compressed in the wrong place, and the host of file://c%7C/ ; proved for every record that meets the conditions stated beside the theorem, with any base."
  },
  {
   "property": "C70",
   "status": "proved",
   "theorems": [
    "C70_repertoire"
   ],
   "note": ""
  },
  {
   "property": "C71",
   "status": "proved",
   "theorems": [
    "C71_structure"
   ],
   "note": ""
  },
  {
   "property": "C72",
   "status": "partial",
   "theorems": [
    "C72_reparse_partial",
    "C72_opaque_slash_refuted",
    "C72_reparse_refuted"
   ],
   "note": "REFUTED: a:/. gives a:/ (opaque when read), a:/ as base with #f gives a:/#f (not opaque when read), IPv6 addresses compressed in the wrong place, and file://c%7C/x gives the drive letter form; proved for every record that is none of these four shapes."
  },
  {
   "property": "C73",
   "status": "partial",
   "theorems": [
    "C73_euc_kr",
    "C73_shift_jis",
    "C73_euc_jp",
    "C73_single",
    "C73_user_defined",
    "C73_big5_partial",
    "C73_gb18030_partial",
    "C73_iso_2022_jp_partial",
    "C73_utf16_partial",
    "C73_decoders_refuted"
   ],
   "note": "REFUTED: Big5 rejects the trail bytes A1 to FE, four-byte gb18030 sequences above U+10000 fail an assert, ISO-2022-JP cut after the second byte of an escape sequence fails an assert, and a UTF-16 unit after an unpaired high surrogate loses its high byte; with these exceptions built into the statement, every decoder is exact on every byte string."
  },
  {
   "property": "C74",
   "status": "partial",
   "theorems": [
    "C74_euc_kr",
    "C74_gbk",
    "C74_euc_jp",
    "C74_single",
    "C74_user_defined",
    "C74_gb18030_partial",
    "C74_shift_jis_partial",
    "C74_big5_partial",
    "C74_iso_2022_jp_partial",
    "C74_shift_jis_refuted",
    "C74_big5_refuted",
    "C74_gb18030_refuted",
    "C74_iso_2022_jp_refuted"
   ],
   "note": "REFUTED: Shift_JIS does not pass over the places 8272 to 8835 (U+2170 gives EE EF, not FA 40), Big5 takes the first instead of the last place for six code points (U+5341 gives A2 CC, not A4 51), gb18030 writes wrong bytes for U+10000 and fails an assert above it, ISO-2022-JP never ends at a code point outside its index in the ASCII and Roman states and writes the reference inside the kanji set after a kanji; with these exceptions built into the statement, every encoder is exact on every text."
  },
  {
   "property": "C75",
   "status": "proved",
   "theorems": [
    "C75_no_base",
    "C75_opaque_base",
    "C75_same_path",
    "C75_path",
    "C75_root",
    "C75_authority"
   ],
   "note": ""
  },
  {
   "property": "C76",
   "status": "proved",
   "theorems": [
    "C76_same_path",
    "C76_path",
    "C76_root",
    "C76_alone",
    "C76_host"
   ],
   "note": ""
  },
  {
   "property": "C77",
   "status": "proved",
   "theorems": [
    "C77_parse",
    "C77_defined"
   ],
   "note": ""
  },
  {
   "property": "C78",
   "status": "proved",
   "theorems": [
    "C78_protocol",
    "C78_host",
    "C78_hostname",
    "C78_port",
    "C78_defined"
   ],
   "note": ""
  },
  {
   "property": "C79",
   "status": "partial",
   "theorems": [
    "C79_values",
    "C79_standard_partial",
    "C79_refuted",
    "C79_written",
    "C79_again",
    "C79_commas"
   ],
   "note": "REFUTED: a block is ended by any closing token ([)a] is an empty block, a and ]); the nesting is proved exactly, and that it is the standard's exactly when no block meets a wrong closing token."
  },
  {
   "property": "C80",
   "status": "partial",
   "theorems": [
    "C80_stylesheet",
    "C80_text",
    "C80_blocks",
    "C80_two",
    "C80_list_of_rules_refuted"
   ],
   "note": "REFUTED: a list of rules drops <!-- and --> as a style sheet does; everything else proved for every list of tokens."
  },
  {
   "property": "C81",
   "status": "partial",
   "theorems": [
    "C81_declarations",
    "C81_declaration",
    "C81_value",
    "C81_refuted",
    "C81_open_refuted",
    "C81_none_refuted"
   ],
   "note": "REFUTED: an empty value and the value important are read out of range, an open group at the end asks for the token after the end, and text without a leading identifier gives a declaration of nothing; with these built into the statement the result is exact for every list of tokens."
  },
  {
   "property": "C82",
   "status": "partial",
   "theorems": [
    "C82_rule",
    "C82_value",
    "C82_refuted"
   ],
   "note": "REFUTED: a rule or value that the end of the text ends (@import 'a', a{, f() fails an assert; with this built into the statement the result is exact for every list of tokens."
  },
  {
   "property": "C83",
   "status": "partial",
   "theorems": [
    "C83_reads",
    "C83_sound",
    "C83_unambiguous",
    "C83_column_refuted",
    "C83_attribute_refuted",
    "C83_prefix_refuted"
   ],
   "note": "REFUTED: *||a is not read at all, whatever follows white space in [a=b )] is ignored, and the escaped prefix \\* is the one for every namespace; with these built into the grammar the longest beginning is read for every list of values (the reading of the whole also needs that no * stands alone before a bar)."
  },
  {
   "property": "C84",
   "status": "partial",
   "theorems": [
    "C84_lists",
    "C84_standard_partial",
    "C84_sound_partial",
    "C84_whole_partial",
    "C84_text",
    "C84_rest_refuted",
    "C84_space_refuted"
   ],
   "note": "REFUTED: what follows a list of selectors is ignored, and white space before it makes it empty; lists of the standard are proved to be read whole, and the converse outside of the named cases."
  },
  {
   "property": "C85",
   "status": "proved",
   "theorems": [
    "C85_combinators",
    "C85_lists",
    "C85_compounds"
   ],
   "note": ""
  },
  {
   "property": "C86",
   "status": "partial",
   "theorems": [
    "C86_simple_partial",
    "C86_elements",
    "C86_complex_partial",
    "C86_class_refuted",
    "C86_id_refuted",
    "C86_any_refuted",
    "C86_value_refuted",
    "C86_first_refuted",
    "C86_root_refuted"
   ],
   "note": "REFUTED: class selectors outside of quirks ignore the name, an identifier with capitals does not match itself in quirks, * without prefix reads an empty optional, [a|=v] misses equality, the empty string matches with ^= $= *=, [*|a=y] looks at the first attribute only, :root is every html element; the standard's meaning is proved in all other cases and for whole selectors."
  },
  {
   "property": "C87",
   "status": "partial",
   "theorems": [
    "C87_all",
    "C87_first",
    "C87_none_refuted",
    "C87_root_refuted",
    "C87_error_refuted"
   ],
   "note": "REFUTED: a query for one that finds none reads the front of an empty vector, a query below no html element asserts, and errors give the empty list; completeness, order and uniqueness proved for every document, node and text."
  },
  {
   "property": "C88",
   "status": "proved",
   "theorems": [
    "C88_empty",
    "C88_insert",
    "C88_erase",
    "C88_unique"
   ],
   "note": ""
  },
  {
   "property": "C89",
   "status": "partial",
   "theorems": [
    "C89_move_partial",
    "C89_lost",
    "C89_move_refuted",
    "C89_itself_refuted"
   ],
   "note": "REFUTED: a move to the position directly behind the node (where it already is), before itself or below itself loses the node and everything below it; that this happens always is proved, and every other move is proved exact."
  },
  {
   "property": "C90",
   "status": "proved",
   "theorems": [
    "C90_ends",
    "C90_walk",
    "C90_parent"
   ],
   "note": ""
  },
  {
   "property": "C91",
   "status": "proved",
   "theorems": [
    "C91_serial",
    "C91_pairs",
    "C91_size"
   ],
   "note": ""
  },
  {
   "property": "C92",
   "status": "partial",
   "theorems": [
    "C92_all_partial",
    "C92_from_partial",
    "C92_back_partial",
    "C92_empty_refuted"
   ],
   "note": "REFUTED: an empty text node is read as one null character, and going back into it gives the index 2^32-1, where reading is undefined; proved for all trees without empty texts."
  },
  {
   "property": "C93",
   "status": "partial",
   "theorems": [
    "C93_written_refuted",
    "C93_ordinary_partial"
   ],
   "note": "REFUTED: a button in a p makes the parser empty the stack of open elements, and SVG elements with capitals in their names come back in lower case. Proved for ordinary documents (C93_ordinary_partial): comments, a document type, a head and a body whose elements may stand where they stand, in every size and nesting."
  },
  {
   "property": "C94",
   "status": "partial",
   "theorems": [
    "C94_defined_refuted",
    "C94_tokens_partial",
    "C94_text_partial",
    "C94_any_partial"
   ],
   "note": "REFUTED: <p><button> empties the stack, and with three or more elements that are not formatting elements between the formatting element and the furthest block the adoption agency uses an erased entry. Proved (C94_tokens_partial, C94_text_partial, C94_any_partial) for all tokens, in any order, except start tags of template, svg, math, frameset, button, a and nobr and end tags of formatting elements."
  },
  {
   "property": "C95",
   "status": "partial",
   "theorems": [
    "C95_breakout_refuted",
    "C95_breakout_partial"
   ],
   "note": "REFUTED: one element too many is taken from the stack, so that in <svg><p> the p becomes a sibling of body; font is tested with attribute names in upper case. Proved: if the element below the current one is foreign and no integration point, exactly the elements of the standard are closed."
  },
  {
   "property": "C96",
   "status": "partial",
   "theorems": [
    "C96_case_refuted",
    "C96_foreign_partial",
    "C96_root_partial"
   ],
   "note": "REFUTED: the names of SVG elements stay in lower case, and the attributes of svg itself too; foreignobject is never an integration point. Proved: every other start tag in foreign content makes the element of the standard, with its adjusted attributes; math too, and svg without attributes that have capitals."
  },
  {
   "property": "C97",
   "status": "partial",
   "theorems": [
    "C97_prefix_refuted",
    "C97_prefix_partial"
   ],
   "note": "REFUTED: prefixes stay in the reused token, an HTML attribute after <svg xlink:href=a> has the prefix xlink. Proved: if no start tag has an attribute that gets a prefix, no attribute of the tree has one."
  },
  {
   "property": "C98",
   "status": "partial",
   "theorems": [
    "C98_at_most_three",
    "C98_noah_refuted"
   ],
   "note": "REFUTED in the sense of the standard: names and values are not compared; the bound of three in the sense of the comparison used is proved for every list."
  },
  {
   "property": "C99",
   "status": "partial",
   "theorems": [
    "C99_li_refuted",
    "C99_current_partial",
    "C99_below_never",
    "C99_other_never"
   ],
   "note": "REFUTED: the loop ends after the current node. C99_current_partial: an li that is the current node is closed, in every state; C99_below_never: below a p, address or div it never is, and below any other element of HTML neither (C99_other_never, without an open p in button scope)."
  },
  {
   "property": "C100",
   "status": "partial",
   "theorems": [
    "C100_body_refuted",
    "C100_html_partial",
    "C100_body_never"
   ],
   "note": "REFUTED for body: the test is the wrong way round, nothing is ever added (C100_body_never: for every state with the body as second entry). C100_html_partial: the html half holds for every state without an open template."
  },
  {
   "property": "C101",
   "status": "partial",
   "theorems": [
    "C101_template_refuted",
    "C101_cell",
    "C101_other_partial"
   ],
   "note": "REFUTED: a cell directly in a template leaves it (C101_cell: where a cell goes, for every stack of elements of HTML above the innermost tr, table or html). C101_other_partial: other start tags are handled as in the body with the template still open."
  },
  {
   "property": "C102",
   "status": "partial",
   "theorems": [
    "C102_lists",
    "C102_factorial_refuted",
    "C102_in_scope",
    "C102_no_end"
   ],
   "note": "REFUTED only for the element factorial of SVG, which is in the list of the default scope; otherwise proved for every stack and name, and that a walk that does not end is an assertion."
  },
  {
   "property": "C103",
   "status": "partial",
   "theorems": [
    "C103_reset",
    "C103_fragment_refuted"
   ],
   "note": "REFUTED for fragments, where a null pointer is used; proved for every other state."
  },
  {
   "property": "C104",
   "status": "proved",
   "theorems": [
    "C104_implied",
    "C104_thoroughly"
   ],
   "note": ""
  },
  {
   "property": "C105",
   "status": "partial",
   "theorems": [
    "C105_select_refuted",
    "C105_start_partial",
    "C105_end_ignored"
   ],
   "note": "REFUTED: the end tag is ignored, because the table is looked for in select scope (C105_end_ignored: for every state with a select, options in it, open). C105_start_partial: the start tags close the select and go to the mode of the part of the table around it."
  },
  {
   "property": "C106",
   "status": "partial",
   "theorems": [
    "C106_cdata_refuted",
    "C106_section_partial",
    "C106_comment_partial",
    "C106_told"
   ],
   "note": "REFUTED: the test is the wrong way round. Proved: the test is true exactly where the innermost open element is one of HTML; where it is true every section is read as the text in it, where not as a comment up to the first >."
  },
  {
   "property": "C107",
   "status": "partial",
   "theorems": [
    "C107_tokens_partial",
    "C107_text_partial",
    "C107_any_partial"
   ],
   "note": "Proved for all tokens, in any order, except start tags of template, svg, math, frameset, button, a and nobr and end tags of formatting elements; for every text without a final CR for which the tokeniser delivers the end, if none of these tags is spelled in it (C107_any_partial)."
  },
  {
   "property": "C108",
   "status": "proved",
   "theorems": [
    "C108_tags"
   ],
   "note": ""
  },
  {
   "property": "C109",
   "status": "partial",
   "theorems": [
    "C109_script_refuted",
    "C109_script_partial"
   ],
   "note": "REFUTED: <script><!--<b x> emits the script start tag again, with the attribute x: the state goes to before_attribute_name_state instead of script_data_escaped_state. Proved for every text without <!-- behind the script start tag: only characters come before an end tag of the same name."
  },
  {
   "property": "C110",
   "status": "proved",
   "theorems": [
    "C110_stable_history",
    "C110_plain_history",
    "C110_plain_values"
   ],
   "note": ""
  },
  {
   "property": "C111",
   "status": "proved",
   "theorems": [
    "C111_search",
    "C111_lookup"
   ],
   "note": ""
  },
  {
   "property": "C112",
   "status": "partial",
   "theorems": [
    "C112_stable",
    "C112_plain",
    "C112_order",
    "C112_refuted"
   ],
   "note": "REFUTED for eight byte labels, where operator* shifts an int by 32 and more; proved for widths up to four bytes, signed and unsigned. Negative labels come last."
  },
  {
   "property": "C113",
   "status": "partial",
   "theorems": [
    "C113_refuted",
    "C113_adds_partial"
   ],
   "note": "REFUTED: the branch for wide labels does not clear; proved that it adds the strings, except the empty one, to what is there."
  },
  {
   "property": "C114",
   "status": "partial",
   "theorems": [
    "C114_child_partial",
    "C114_refuted"
   ],
   "note": "REFUTED: for a label that is not there it may read past the array; proved that what it gives is right, and that it reads outside only if the label is not there."
  },
  {
   "property": "C115",
   "status": "partial",
   "theorems": [
    "C115_modes_partial"
   ],
   "note": "Proved for every mode, token and state with only HTML elements open, except for the start tags body, frameset, li, button, a, nobr and svg in the states in which the defects C94, C96, C99 and C100 show (odd_start, L_dom30.v) and corners of tables, dd, dt and select in table (departs)."
  },
  {
   "property": "C116",
   "status": "partial",
   "theorems": [
    "C116_insert",
    "C116_insert_bad",
    "C116_place_partial",
    "C116_place_unique",
    "C116_place_refuted",
    "C116_element",
    "C116_comment",
    "C116_char",
    "C116_reconstruct",
    "C116_attrs",
    "C116_reached"
   ],
   "note": "REFUTED: with a template but no table open, misplaced text goes to the html element (<template><tbody>x); proved otherwise."
  },
  {
   "property": "C117",
   "status": "partial",
   "theorems": [
    "C117_agency_partial",
    "C117_reached_partial"
   ],
   "note": "Proved with the furthest block and the inner loop for every state that tree construction reaches with only elements of HTML open, as far as the algorithm ends without the erased bookmark of C94 (C117_reached_partial); with elements of foreign content open the scopes differ (C102)."
  },
  {
   "property": "C118",
   "status": "partial",
   "theorems": [
    "C118_dispatch_partial",
    "C118_dispatch_refuted",
    "C118_foreign_char",
    "C118_foreign_end"
   ],
   "note": "REFUTED: the test for annotation-xml ignores the namespace; proved for every other state."
  },
  {
   "property": "C119",
   "status": "proved",
   "theorems": [
    "C119_forest",
    "C119_text",
    "C119_acyclic"
   ],
   "note": ""
  },
  {
   "property": "C120",
   "status": "proved",
   "theorems": [
    "C120_empty",
    "C120_text"
   ],
   "note": ""
  },
  {
   "property": "C121",
   "status": "partial",
   "theorems": [
    "C121_token_partial",
    "C121_text_partial",
    "C121_backslash_refuted"
   ],
   "note": "REFUTED: a backslash at the end of the text is a delimiter; proved for every text without one, except where the defects of C45, C51, C52 and C53 show (Departs, L_css6.v: a lone number sign, a sign or full stop before a number it does not belong to, two hyphens, url at the end, quoted or escaped urls, numbers of 2^32 or more)."
  },
  {
   "property": "C122",
   "status": "proved",
   "theorems": [
    "C122_once"
   ],
   "note": ""
  },
  {
   "property": "C123",
   "status": "proved",
   "theorems": [
    "C123_tables",
    "C123_compare"
   ],
   "note": ""
  },
  {
   "property": "C124",
   "status": "proved",
   "theorems": [
    "C124_find",
    "C124_by_name",
    "C124_called"
   ],
   "note": ""
  },
  {
   "property": "C125",
   "status": "partial",
   "theorems": [
    "C125_compare_partial",
    "C125_unique_partial",
    "C125_refuted"
   ],
   "note": "REFUTED: names, namespaces and values are not compared, and with repeated attributes equality is not symmetric; what it computes is proved, and that without repeated attributes it is equality of the sets of their names."
  },
  {
   "property": "C126",
   "status": "partial",
   "theorems": [
    "C126_states_partial",
    "C126_steps_partial",
    "C126_one",
    "C126_text_partial",
    "C126_script_free_partial",
    "C126_null_refuted",
    "C126_script_refuted",
    "C126_number_refuted",
    "C126_decimal_refuted"
   ],
   "note": "REFUTED in four places, and proved that there are no others: U+0000 in a comment is emitted as a character, a tag in an escaped script leaves the script, and hexadecimal and decimal numbers are taken modulo 2^32. Every other step of every state is that of the standard; whole texts without U+0000, scripts, numeric references and references without semicolon are read as the standard reads them."
  },
  {
   "property": "C127",
   "status": "partial",
   "theorems": [
    "C127_tokens_partial",
    "C127_text_partial",
    "C127_plain_partial",
    "C127_name_refuted"
   ],
   "note": "REFUTED: a prefix left in the token makes the attribute of a further html tag another one (<html a=b><svg xlink:href=x></svg><html a=c>). With the prefix counted the attributes of every element differ, for every text (C127_text_partial); without attributes that get a prefix the property holds for every text (C127_plain_partial)."
  }
 ]
}