{"id": "C01", "title": "Integer serialisation round trip", "statement": "Serialising an integer of any width gives exactly sizeof(T) bytes, most significant first, and deserialising those bytes gives the same integer back and consumes exactly those bytes, whatever follows them in the input.", "quantifier": "every byte width n, every value below 2^(8n), every trailing byte string", "why_tests_cant": "The value domain is 2^64 for one type alone, and the width is a type parameter.", "anchors": ["include/wordring/serialize/serialize.hpp: serialize, deserialize"]}
{"id": "C02", "title": "Positional serialisation agrees with whole serialisation", "statement": "Reading byte number k of a serialised integer through the positional overload gives the k-th element of the array overload; walking a container through the serialising iterator yields the concatenation of the serialisations of its elements, and walking those bytes through the deserialising iterator gives the elements back.", "quantifier": "every width, every value, every container of values, every byte position", "why_tests_cant": "Unbounded containers and values.", "anchors": ["include/wordring/serialize/serialize.hpp: serialize(T, uint32_t)", "include/wordring/serialize/serialize_iterator.hpp: serialize_iterator"]}
{"id": "C03", "title": "Push matcher decides first match", "statement": "Feeding a string one character at a time to a multi-string matcher returns 'succeed' exactly when the text fed so far equals one of the patterns, 'failed' exactly when no pattern is still an extension of the text, and 'partial' otherwise, until the first non-partial answer.", "quantifier": "every non-empty pattern list, every text, every prefix of the feeding history", "why_tests_cant": "Histories and pattern sets are unbounded; the per-entry failure flags are cumulative state.", "anchors": ["include/wordring/string/matcher.hpp: string_matcher::push_back, clear"]}
{"id": "C04", "title": "Fixed-capacity vector behaves as a bounded sequence", "statement": "After any sequence of push_back, pop_back, insert, erase, resize, assign and clear that stays within capacity, the contents observed through indexing, iteration and size() equal those of an ordinary sequence subjected to the same operations; operations exceeding capacity are rejected without changing the contents.", "quantifier": "every capacity, every operation sequence, every element value", "why_tests_cant": "Operation histories are unbounded.", "anchors": ["include/wordring/static_vector/static_vector.hpp: static_vector"]}
{"id": "C05", "title": "Fixed-capacity vector: checked access and self-insertion", "statement": "Checked access at(i) fails for every i that is not an index of a stored element, and inserting (a copy of) an element of the vector itself inserts the value that element had before the call.", "quantifier": "every capacity, contents, index and insertion position", "why_tests_cant": "Aliasing and stale-slot cases appear only for particular index relations.", "anchors": ["include/wordring/static_vector/static_vector.hpp: at, insert"]}
{"id": "C06", "title": "Fixed-capacity vector comparison is lexicographic total order", "statement": "The comparison operators on fixed-capacity vectors implement the lexicographic order of the stored sequences and are mutually consistent (trichotomy, <= is < or ==, etc.).", "quantifier": "every pair of contents", "why_tests_cant": "Infinite domain.", "anchors": ["include/wordring/static_vector/static_vector.hpp: operator==, operator<, ..."]}
{"id": "C07", "title": "UTF-8 code point conversion round trip", "statement": "Writing a code point as UTF-8 and reading it back gives the same code point and stops exactly behind the written units, whatever follows; different code points never get the same encoding and no encoding is a prefix of another.", "quantifier": "every code point below 0x200000, every continuation of the string", "why_tests_cant": "1.1 million code points times arbitrary continuations.", "anchors": ["include/wordring/whatwg/infra/unicode.hpp: to_code_point, to_string"]}
{"id": "C08", "title": "UTF-16 code point conversion round trip", "statement": "Writing a scalar value as UTF-16 and reading it back gives the same value and stops exactly behind the written units, whatever follows.", "quantifier": "every scalar value, every continuation", "why_tests_cant": "As C07.", "anchors": ["include/wordring/whatwg/infra/unicode.hpp: to_code_point, to_string"]}
{"id": "C09", "title": "String transcoding between UTF forms is lossless", "statement": "Casting a string of scalar values between UTF-8, UTF-16 and UTF-32 and back yields the original string; the cast distributes over concatenation.", "quantifier": "every string of scalar values, every pair of UTF forms", "why_tests_cant": "Unbounded strings.", "anchors": ["include/wordring/whatwg/infra/unicode.hpp: encoding_cast"]}
{"id": "C10", "title": "Newline normalisation", "statement": "normalize_newlines replaces every CR LF pair and every lone CR by a single LF and leaves everything else unchanged (including at the end of the input); the result contains no CR.", "quantifier": "every code point string", "why_tests_cant": "The end-of-input state is reached only by particular strings.", "anchors": ["include/wordring/whatwg/infra/infra.hpp: normalize_newlines"]}
{"id": "C11", "title": "Whitespace stripping and collapsing", "statement": "Stripping leading and trailing ASCII whitespace returns the maximal inner substring that starts and ends with non-whitespace (empty for all-whitespace input); collapsing additionally replaces each inner whitespace run by one space; both are idempotent.", "quantifier": "every string", "why_tests_cant": "Unbounded strings; the all-whitespace case is degenerate.", "anchors": ["include/wordring/whatwg/infra/infra.hpp: strip_leading_and_trailing_ascii_whitespace, strip_and_collapse_ascii_whitespace, strip_newlines"]}
{"id": "C12", "title": "Splitting on whitespace, commas and delimiters", "statement": "Splitting on ASCII whitespace returns exactly the maximal whitespace-free substrings in order; strictly splitting on a delimiter returns pieces without delimiters whose re-joining gives the input; splitting on commas returns the stripped pieces.", "quantifier": "every string and delimiter", "why_tests_cant": "Unbounded strings.", "anchors": ["include/wordring/whatwg/infra/infra.hpp: split_on_ascii_whitespace, strictly_split_on_particular_delimiter, split_on_commas"]}
{"id": "C13", "title": "ASCII case mapping", "statement": "Lower-casing and upper-casing change exactly the ASCII letters, are idempotent, cancel on letters, and case-insensitive comparison holds exactly when the lower-cased strings are equal.", "quantifier": "every code point string", "why_tests_cant": "Unbounded strings.", "anchors": ["include/wordring/whatwg/infra/infra.hpp: to_ascii_lowercase, to_ascii_uppercase, is_ascii_case_insensitive_match"]}
{"id": "C14", "title": "Percent encoding round trip", "statement": "Percent-decoding the percent-encoding of a byte string gives the byte string; text encoded with a set containing '%' decodes to the UTF-8 bytes of the text; encoded text contains only characters outside the set, '%' and hex digits.", "quantifier": "every byte string, every text, every percent-encode set containing '%'", "why_tests_cant": "Unbounded strings and sets.", "anchors": ["include/wordring/whatwg/url/infra.hpp: percent_encode, percent_decode, utf8_percent_encode"]}
{"id": "C15", "title": "Percent-encode sets are nested", "statement": "C0 control subset of fragment, query, special-query, path, userinfo, component, form sets as the standard lists them; each set equals its definition in the standard.", "quantifier": "every code point", "why_tests_cant": "1.1 million code points per set.", "anchors": ["include/wordring/whatwg/url/infra.hpp: is_*_percent_encode_set"]}
{"id": "C16", "title": "IPv4 parse/serialise round trip", "statement": "Serialising any IPv4 address and parsing the text gives the address back.", "quantifier": "every 32-bit address", "why_tests_cant": "2^32 addresses.", "anchors": ["lib/whatwg/url/host.cpp: parse_ipv4, serialize_ipv4"]}
{"id": "C17", "title": "IPv4 number parsing", "statement": "A decimal, 0-prefixed octal or 0x-prefixed hexadecimal part that fits 32 bits is parsed to its mathematical value; a part with an invalid digit is rejected; no input leads to undefined behaviour.", "quantifier": "every part string", "why_tests_cant": "Unbounded digit strings.", "anchors": ["lib/whatwg/url/host.cpp: parse_ipv4_number, parse_ipv4"]}
{"id": "C18", "title": "IPv6 serialise/parse round trip", "statement": "Parsing the serialisation of an IPv6 address gives the address back.", "quantifier": "every sequence of eight 16-bit pieces", "why_tests_cant": "2^128 addresses; depends on the arrangement of zero runs.", "anchors": ["lib/whatwg/url/host.cpp: serialize_ipv6, parse_ipv6"]}
{"id": "C19", "title": "IPv6 parser accepts embedded IPv4 notation", "statement": "An IPv6 text ending in dotted-decimal notation parses to the address with those four bytes in its last two pieces, without undefined behaviour.", "quantifier": "every combination of leading pieces and four decimal bytes", "why_tests_cant": "Needs all byte values and positions.", "anchors": ["lib/whatwg/url/host.cpp: parse_ipv6"]}
{"id": "C20", "title": "Tree container refines an ordered forest", "statement": "After any history of insertions before a position, child insertions, erasures of subtrees and clears, the forest seen through parent(), child/sibling iteration, size() and values equals the forest obtained by the same edits on a mathematical ordered forest; iterators to untouched nodes keep denoting the same nodes.", "quantifier": "every operation history, every position", "why_tests_cant": "The container is an index-linked arena with a free list; every history produces a different link layout.", "anchors": ["include/wordring/tree/tree.hpp: insert, erase, push_back, push_front, clear, link, unlink, allocate, free"]}
{"id": "C21", "title": "Tree container never loses or shares storage", "statement": "At any time every arena slot is either on the free list exactly once or reachable from the roots exactly once; slots freed by erase are reused before the arena grows.", "quantifier": "every operation history", "why_tests_cant": "Global heap-shape invariant.", "anchors": ["include/wordring/tree/tree.hpp: allocate, free, erase"]}
{"id": "C22", "title": "Moving a subtree", "statement": "Moving a subtree before a position outside the subtree detaches exactly that subtree and reattaches it unchanged; a position inside the moved subtree is rejected with an exception and the tree is unchanged.", "quantifier": "every forest, every node, every position (including end positions)", "why_tests_cant": "All position/subtree relations.", "anchors": ["include/wordring/tree/tree.hpp: move"]}
{"id": "C23", "title": "Copying a subtree", "statement": "Inserting a copy of a subtree at a position adds a subtree equal to the source (same shape and values) and changes nothing else.", "quantifier": "every forest, source node and position", "why_tests_cant": "Depends on the shape of the copied subtree.", "anchors": ["include/wordring/tree/tree.hpp: insert(const_iterator, const_iterator)"]}
{"id": "C24", "title": "Tree traversal order", "statement": "The pre-order (depth-first) and level-order (breadth-first) iterators visit every node of the subtree exactly once, in the respective order, and terminate.", "quantifier": "every forest", "why_tests_cant": "Unbounded shapes.", "anchors": ["include/wordring/tree/tree_iterator.hpp: basic_tree_iterator"]}
{"id": "C25", "title": "Tree sibling iteration is reversible", "statement": "Decrementing an iterator that was incremented returns to the same node; decrementing the end of a sibling list gives its last element; back() is the last root.", "quantifier": "every forest and position", "why_tests_cant": "Needs all sibling-list shapes.", "anchors": ["include/wordring/tree/tree.hpp: operator++, operator--, front, back"]}
{"id": "C26", "title": "Trie behaves as a finite map under insertion and erasure", "statement": "After any history of insert, erase and clear with non-empty byte-string keys, contains/find/size answer exactly as a finite map subjected to the same history, and values set through at()/operator[] are read back.", "quantifier": "every operation history over arbitrary keys", "why_tests_cant": "Node relocation in the double array depends on the whole history.", "anchors": ["include/wordring/trie/stable_trie_base.hpp: stable_trie_base", "include/wordring/trie/trie_heap.hpp: trie_heap"]}
{"id": "C27", "title": "Double array well-formedness", "statement": "At any time every slot of the double array is either free and threaded exactly once on the ordered free list, or owned by exactly one parent; two labels never share a slot; no access leaves the array.", "quantifier": "every operation history", "why_tests_cant": "Global heap-shape invariant under relocation.", "anchors": ["include/wordring/trie/trie_heap.hpp: reserve, allocate, free, locate, relocate, add, is_free"]}
{"id": "C28", "title": "Trie enumerates keys in order", "statement": "Iterating a trie yields each stored key exactly once, in lexicographic byte order.", "quantifier": "every operation history", "why_tests_cant": "Unbounded.", "anchors": ["include/wordring/trie/trie_iterator.hpp", "include/wordring/trie/trie.hpp: begin, end"]}
{"id": "C29", "title": "Erasing a key keeps the other keys' values", "statement": "Erasing one key from a trie with values leaves the value of every other key unchanged.", "quantifier": "every content, every erased key", "why_tests_cant": "Fails only for keys in a prefix relation.", "anchors": ["include/wordring/trie/trie_base.hpp: erase"]}
{"id": "C30", "title": "Bulk assignment equals inserting one by one", "statement": "Building a trie from a list of strings yields the same map as inserting the strings individually into an empty trie, for sorted and unsorted, unique and duplicated lists.", "quantifier": "every list of strings", "why_tests_cant": "Unbounded.", "anchors": ["include/wordring/trie/trie_base.hpp: assign", "include/wordring/trie/trie_construct_iterator.hpp", "include/wordring/trie/list_trie_iterator.hpp"]}
{"id": "C31", "title": "Atom identifiers are stable and one-to-one", "statement": "Within an atom set, distinct strings have distinct identifiers and an identifier maps back to its string; inserting further strings does not change the identifier of a string already present.", "quantifier": "every insertion history", "why_tests_cant": "Identifier changes happen only when the double array relocates.", "anchors": ["include/wordring/string/atom.hpp: basic_atom_set"]}
{"id": "C32", "title": "Trie image save/restore", "statement": "Writing a trie's storage to a stream or integer array and reading it back gives an identical trie.", "quantifier": "every trie, every element width, trailing data", "why_tests_cant": "Unbounded.", "anchors": ["include/wordring/trie/trie_heap.hpp: assign, operator<<, operator>>"]}
{"id": "C33", "title": "UTF-8 decoder accepts exactly well-formed UTF-8", "statement": "In fatal mode the UTF-8 decoder accepts a byte string exactly when it is the UTF-8 encoding of a sequence of scalar values, and then returns that sequence.", "quantifier": "every byte string", "why_tests_cant": "Infinite domain.", "anchors": ["include/wordring/whatwg/encoding/coder.hpp: UTF_8_decoder, UTF_8_encoder", "include/wordring/whatwg/encoding/encoding.hpp: process_queue, process_item"]}
{"id": "C34", "title": "Malformed input is replaced by U+FFFD", "statement": "In replacement mode each decoding error contributes exactly one U+FFFD to the output.", "quantifier": "every byte string and decoder", "why_tests_cant": "Infinite domain.", "anchors": ["include/wordring/whatwg/encoding/encoding.hpp: process_item"]}
{"id": "C35", "title": "Streaming decode is independent of chunking", "statement": "Decoding a byte string in any division into chunks (stream flag set on all but the last call) gives the concatenation equal to decoding it in one call.", "quantifier": "every encoding's decoder, every byte string, every division into chunks", "why_tests_cant": "Exponentially many divisions; decoder state crosses chunk borders.", "anchors": ["include/wordring/whatwg/encoding/api.hpp: text_decoder::decode", "include/wordring/whatwg/encoding/terminology.hpp: io_queue"]}
{"id": "C36", "title": "Single-byte encodings round trip", "statement": "For every single-byte encoding, encoding the decoding of a mapped byte gives the byte, and decoding the encoding of an encodable code point gives the code point.", "quantifier": "all 28 encodings, every byte, every code point", "why_tests_cant": "Generated index tables; exhaustive only by computation over the tables.", "anchors": ["include/wordring/whatwg/encoding/coder.hpp: single_byte_decoder, single_byte_encoder", "lib/whatwg/encoding/indexes_code_point.cpp", "lib/whatwg/encoding/indexes_pointer.cpp"]}
{"id": "C37", "title": "Multi-byte legacy encodings round trip", "statement": "For gb18030, GBK, Big5, EUC-JP, Shift_JIS and EUC-KR, decoding the encoding of an encodable code point gives the code point (up to the encoder's documented substitutions).", "quantifier": "every encodable code point of each encoding, every string of such code points", "why_tests_cant": "Tens of thousands of table entries plus range arithmetic.", "anchors": ["include/wordring/whatwg/encoding/coder.hpp: gb18030_decoder, Big5_decoder, EUC_JP_decoder, Shift_JIS_decoder, EUC_KR_decoder and encoders"]}
{"id": "C38", "title": "UTF-16 decoder handles unpaired surrogates", "statement": "The UTF-16 decoders decode every sequence of scalar values from its UTF-16 byte form, and after an unpaired lead surrogate report one error and decode the following code unit unchanged.", "quantifier": "every byte string, both byte orders", "why_tests_cant": "Infinite domain.", "anchors": ["include/wordring/whatwg/encoding/coder.hpp: shared_UTF_16_decoder"]}
{"id": "C39", "title": "Encoders terminate on every input", "statement": "Encoding any string of scalar values terminates and emits a numeric character reference for each unencodable code point.", "quantifier": "every encoding, every scalar string", "why_tests_cant": "Non-termination cannot be observed by a finite test.", "anchors": ["include/wordring/whatwg/encoding/coder.hpp: ISO_2022_JP_encoder", "include/wordring/whatwg/encoding/encoding.hpp: encode"]}
{"id": "C40", "title": "Encoding labels", "statement": "Every encoding's label maps back to the encoding; label lookup ignores case and surrounding whitespace and fails for any other string.", "quantifier": "every encoding, every string", "why_tests_cant": "Infinite domain of strings.", "anchors": ["include/wordring/whatwg/encoding/encoding.hpp: get_encoding_label", "lib/whatwg/encoding/encoding.cpp: get_encoding_name"]}
{"id": "C41", "title": "URL parser terminates within bounds", "statement": "Parsing any input against any base terminates, never reading outside the input, in at most a linear number of steps.", "quantifier": "every input string, every base, every state override", "why_tests_cant": "Non-termination cannot be tested.", "anchors": ["lib/whatwg/url/url.cpp: basic_url_parser::run and on_*_state"]}
{"id": "C42", "title": "URL component setters change only their component", "statement": "Setting the query or fragment of a URL changes only that component and the getter then returns its percent-encoded form.", "quantifier": "every URL record, every string", "why_tests_cant": "Infinite domain.", "anchors": ["include/wordring/whatwg/url/api.hpp: search, hash, username, password", "lib/whatwg/url/url.cpp"]}
{"id": "C43", "title": "URL port range", "statement": "Every port number from 0 to 65535 is accepted and stored (or dropped when it is the scheme's default), and every larger number rejected.", "quantifier": "every digit string", "why_tests_cant": "Boundary and unbounded digit strings.", "anchors": ["lib/whatwg/url/url.cpp: on_port_state"]}
{"id": "C44", "title": "CSS input preprocessing", "statement": "filter_code_points replaces CR LF, CR and FF by LF and NUL and surrogates by U+FFFD, in place, and leaves all else; the result contains none of these and filtering again changes nothing.", "quantifier": "every code point string", "why_tests_cant": "Infinite domain.", "anchors": ["include/wordring/wwwc/css_syntax/input_stream.hpp: filter_code_points"]}
{"id": "C45", "title": "CSS tokeniser terminates and makes progress", "statement": "Each call to consume a token on non-empty input consumes at least one code point or reports end of file, so tokenising any stylesheet terminates.", "quantifier": "every code point string", "why_tests_cant": "Non-termination cannot be tested.", "anchors": ["include/wordring/wwwc/css_syntax/tokenization.hpp: consume_token, tokenize"]}
{"id": "C46", "title": "CSS escapes", "statement": "Consuming an escape yields the code point named by at most six hex digits (U+FFFD for zero, surrogates and out of range), skips one following whitespace, and always yields a valid non-surrogate code point when the input has none.", "quantifier": "every code point string", "why_tests_cant": "Infinite domain.", "anchors": ["include/wordring/wwwc/css_syntax/tokenization.hpp: consume_escaped_code_point"]}
{"id": "C47", "title": "HTML input stream newline normalisation", "statement": "The code points delivered to the tokeniser for any sequence of pushes followed by end of input are the pushed text with CR LF and CR replaced by LF, in order, with no loss or duplication.", "quantifier": "every sequence of pushed code points", "why_tests_cant": "State carried between pushes.", "anchors": ["include/wordring/whatwg/html/parsing/input_stream.hpp: push_code_point, push_eof, consume, reconsume"]}
{"id": "C48", "title": "I/O queue end-of-queue discipline", "statement": "In any history of pushes, prepends and reads, the end-of-queue marker stays last, reading it does not remove it, and items are read in order.", "quantifier": "every operation history", "why_tests_cant": "Unbounded histories.", "anchors": ["include/wordring/whatwg/encoding/terminology.hpp: io_queue"]}
{"id": "C49", "title": "Byte order marks", "statement": "decode takes the encoding from a leading byte order mark and removes it, and uses the given encoding otherwise; a text decoder removes exactly one leading U+FEFF from UTF-8 unless told to keep it.", "quantifier": "every byte string and encoding", "why_tests_cant": "Unbounded byte strings.", "anchors": ["include/wordring/whatwg/encoding/encoding.hpp: bom_sniff, decode, utf8_decode", "include/wordring/whatwg/encoding/api.hpp: serialize_io_queue, text_decoder"]}
{"id": "C50", "title": "CSS fallback encoding", "statement": "The fallback encoding is the given one; otherwise, if the first 1024 bytes begin with @charset \"label\"; and the label names an encoding, that encoding (UTF-8 for UTF-16); otherwise UTF-8.", "quantifier": "every byte string and optional encoding", "why_tests_cant": "Unbounded labels and texts.", "anchors": ["include/wordring/wwwc/css_syntax/input_stream.hpp: determine_fallback_encoding"]}
{"id": "C51", "title": "CSS numbers", "statement": "A number written with optional sign, integer digits, fraction and exponent is tokenised as a number (percentage, dimension) token with exactly the sign, digits and exponent written, and no assert fails.", "quantifier": "every sign, digit string, fraction, exponent and following text", "why_tests_cant": "Digit strings of any length.", "anchors": ["include/wordring/wwwc/css_syntax/tokenization.hpp: consume_number, convert_string_to_number, consume_numeric_token"]}
{"id": "C52", "title": "CSS strings and names", "statement": "String, identifier, function, at-keyword and hash tokens carry exactly the text spelled, with escapes replaced and escaped newlines dropped in strings; a string broken by a newline is a bad string.", "quantifier": "every text, every spelling with escapes", "why_tests_cant": "Unbounded texts with every mixture of escapes.", "anchors": ["include/wordring/wwwc/css_syntax/tokenization.hpp: consume_string_token, consume_identifier, consume_ident_like_token, consume_token"]}
{"id": "C53", "title": "CSS urls", "statement": "url( followed by whitespace, an unquoted url, whitespace and a closing parenthesis is one url token with the url spelled; with a quoted string it is a function token whose argument is the string.", "quantifier": "every url text, every spelling", "why_tests_cant": "Unbounded texts.", "anchors": ["include/wordring/wwwc/css_syntax/tokenization.hpp: consume_url_token, consume_ident_like_token"]}
{"id": "C54", "title": "Encoding named in a meta element", "statement": "extract_character_encoding_from_meta_element returns the encoding named by the first 'charset' (any case) that is followed by optional white space, '=' and a value: quoted, or up to white space or ';'; nothing when there is none, when a quote is not closed, or when the value names no encoding. It never fails an assert.", "quantifier": "every code point string", "why_tests_cant": "Unbounded strings, false starts of the word charset anywhere.", "anchors": ["include/wordring/whatwg/html/url.hpp: extract_character_encoding_from_meta_element"]}
{"id": "C55", "title": "HTML tokeniser is total", "statement": "Tokenising any text ends, within a number of steps linear in its length, and no assert fails and nothing outside the table is read.", "quantifier": "every code point string, every state switch by tree construction", "why_tests_cant": "Non-termination and rare crashes cannot be tested exhaustively.", "anchors": ["include/wordring/whatwg/html/parsing/tokenization.hpp", "include/wordring/whatwg/html/parsing/input_stream.hpp"]}
{"id": "C56", "title": "HTML tokeniser ends once", "statement": "The token sequence of any text ends with exactly one end-of-file token and has it nowhere else.", "quantifier": "every code point string", "why_tests_cant": "Every state has its own end-of-file rule, reached by unbounded texts.", "anchors": ["include/wordring/whatwg/html/parsing/tokenization.hpp", "include/wordring/whatwg/html/parsing/input_stream.hpp: push_eof"]}
{"id": "C57", "title": "HTML text escaping round trip", "statement": "Escaping replaces exactly &, U+00A0, < and > (in attributes &, U+00A0 and the double quote), and reading the escaped text gives one character token for each code point of the original.", "quantifier": "every text without CR", "why_tests_cant": "Infinite domain.", "anchors": ["include/wordring/whatwg/html/parsing/serializing.hpp:99-147: escape_string", "include/wordring/whatwg/html/parsing/tokenization.hpp"]}
{"id": "C58", "title": "HTML tags round trip", "statement": "A start tag written with any attributes is read as a start tag with that name and those attribute names and values in order; an end tag likewise.", "quantifier": "every tag name, every list of attributes with distinct names", "why_tests_cant": "Unbounded attribute lists and values.", "anchors": ["include/wordring/whatwg/html/parsing/serializing.hpp:158-277: to_string", "include/wordring/whatwg/html/parsing/tokenization.hpp: tag and attribute states"]}
{"id": "C59", "title": "HTML comments round trip", "statement": "A comment not starting with > or -> and not containing --> or --!> is read back as the same comment, NUL as U+FFFD.", "quantifier": "every such comment text", "why_tests_cant": "Eleven states over unbounded runs of dashes.", "anchors": ["include/wordring/whatwg/html/parsing/tokenization.hpp: comment states"]}
{"id": "C60", "title": "HTML doctype round trip", "statement": "<!DOCTYPE name> is read as one doctype token with the name, no identifiers and no quirks flag.", "quantifier": "every non-empty lower case name", "why_tests_cant": "Infinite domain.", "anchors": ["include/wordring/whatwg/html/parsing/tokenization.hpp: DOCTYPE states", "include/wordring/whatwg/html/parsing/serializing.hpp:158-277: to_string"]}
{"id": "C61", "title": "HTML named character references", "statement": "The table lookup finds the longest name of the standard's table that begins the text, with its code points; every name of the table is found; text with references is read with each replaced.", "quantifier": "every text after the ampersand; every one of the 2231 names", "why_tests_cant": "Names that are prefixes of others, any continuation.", "anchors": ["include/wordring/whatwg/html/parsing/input_stream.hpp:332-388: match_named_character_reference", "lib/whatwg/html/parsing/atom_tbl.cpp:1214-5146: the named character reference tables", "include/wordring/whatwg/html/parsing/tokenization.hpp: on_named_character_reference_state"]}
{"id": "C62", "title": "HTML numeric character references", "statement": "A numeric reference of any length stands for the code point of its value, the windows-1252 character for 0x80 to 0x9F, and U+FFFD for 0, surrogates and everything above U+10FFFF; the text after it is kept.", "quantifier": "every number and every following text", "why_tests_cant": "Digit strings of any length; overflow.", "anchors": ["include/wordring/whatwg/html/parsing/tokenization.hpp: on_numeric_character_reference_end_state and the digit states"]}
{"id": "C63", "title": "HTML fragment round trip", "statement": "The text that the serialiser writes for a tree is read by the tokeniser, with the state switched by tag name as tree construction does, as the tokens of that tree in order.", "quantifier": "every tree of elements, text, comments, doctypes and instructions whose pieces are writable", "why_tests_cant": "Unbounded trees with raw text, escapable raw text and script elements mixed.", "anchors": ["include/wordring/whatwg/html/parsing/serializing.hpp:158-277: to_string", "include/wordring/whatwg/html/parsing/tokenization.hpp"]}
{"id": "C64", "title": "HTML serialisation follows the algorithm", "statement": "to_string writes, for the children of any node, exactly the markup of the HTML fragment serialisation algorithm: start tag, attributes, children and end tag in order, no children and end tag for void elements, text unescaped inside raw text elements.", "quantifier": "every tree", "why_tests_cant": "Unbounded trees.", "anchors": ["include/wordring/whatwg/html/parsing/serializing.hpp:158-277: to_string"]}
{"id": "C65", "title": "HTML script text is text", "statement": "Between a script start tag and the matching end tag, the tokeniser emits only character tokens, one for each code point.", "quantifier": "every script text", "why_tests_cant": "Seventeen script states over unbounded text.", "anchors": ["include/wordring/whatwg/html/parsing/tokenization.hpp: script data states"]}
{"id": "C66", "title": "URLs with an authority are split at their delimiters", "statement": "Parsing scheme ':' slashes [userinfo '@'] host [':' port] path ['?' query] ['#' fragment] gives the record with exactly these parts: scheme in lower case, user name and password split at the first colon, the host that the host parser gives, the port unless it is the usual one, dot segments resolved, every part percent-encoded with its own set. The parse fails exactly when the host parser fails or the port is rejected.", "quantifier": "every string of that form, every base, special and other schemes", "why_tests_cant": "Seven parts of unbounded length, each with its own delimiters, and a state machine of twenty states that hands the text over.", "anchors": ["include/wordring/whatwg/url/url.hpp", "lib/whatwg/url/url.cpp: basic parser states scheme to fragment"]}
{"id": "C67", "title": "URLs without an authority", "statement": "scheme ':' '/' rest, where rest does not begin with a slash, has no host and the path of the rest; scheme ':' rest, where rest does not begin with a slash, has the opaque path of the rest.", "quantifier": "every string of that form with a non-special scheme, every base", "why_tests_cant": "The decision depends on how much text is left; tests use long URLs.", "anchors": ["lib/whatwg/url/url.cpp: scheme state, path or authority state, cannot-be-a-base-URL path state"]}
{"id": "C68", "title": "File URLs", "statement": "file: with two slashes or backslashes: a Windows drive letter in place of the host begins the path; no host and localhost give the empty host; any other domain is kept; a rejected host fails the parse. Drive letters are normalised and never removed by dot segments.", "quantifier": "every file URL with two slashes whose host text is a domain or rejected, every base", "why_tests_cant": "Drive letters, localhost, dot segments and backslashes interact; the cases multiply.", "anchors": ["lib/whatwg/url/url.cpp: file state, file slash state, file host state"]}
{"id": "C69", "title": "URL serialise/parse round trip", "statement": "Serialising a record that the parser can give and parsing the text, with any base, gives the record again.", "quantifier": "every record made by the parser, every base", "why_tests_cant": "Every part has its own escapes, and special prefixes (/., //) are needed for few paths; a sample of URLs does not reach all combinations.", "anchors": ["lib/whatwg/url/url.cpp:1243-1306"]}
{"id": "C70", "title": "Repertoire of parsed URLs", "statement": "In every URL that parsing gives, with no base or with a base that parsing gave, the scheme is in lower case, and user name, password, path segments, query and fragment are printable ASCII without the code points that would end the part, and no path segment is a dot segment in any spelling.", "quantifier": "every string, every chain of relative references", "why_tests_cant": "An invariant of every reachable record over chains of references of any length; tests look at single parses.", "anchors": ["lib/whatwg/url/url.cpp: all parser states", "include/wordring/whatwg/url/url.hpp"]}
{"id": "C71", "title": "Structure of parsed URLs", "statement": "In every URL that parsing gives, opaque paths have no host, credentials or port; special schemes have a host that is a domain, an IPv4 or an IPv6 address; file URLs have no credentials and port and never the host localhost; domains are fixed by ToASCII and have no forbidden code points; the port is never the usual port of the scheme; drive letters use the colon.", "quantifier": "every string, every chain of relative references, every ToASCII that is idempotent with ASCII results", "why_tests_cant": "Combinations of scheme, host, credentials, path and base; each rule is an absence, which samples cannot show.", "anchors": ["lib/whatwg/url/url.cpp: all parser states", "lib/whatwg/url/url.cpp: parse_host"]}
{"id": "C72", "title": "Parsing is idempotent", "statement": "Every URL that parsing gives is given again when it is serialised and parsed, with any base.", "quantifier": "every string, every chain of relative references, every base of the second parse", "why_tests_cant": "Needs the round trip for every reachable record.", "anchors": ["lib/whatwg/url/url.cpp:1243-1306", "lib/whatwg/url/url.cpp: all parser states"]}
{"id": "C73", "title": "What the legacy decoders give", "statement": "Each decoder divides every byte string into characters and errors as the encoding standard says: the characters of the index, the bytes that are read again after an error, the characters cut off at the end, and the escape sequences of ISO-2022-JP.", "quantifier": "every byte string, for EUC-KR, Shift_JIS, EUC-JP, Big5, gb18030, GBK, ISO-2022-JP, UTF-16LE, UTF-16BE, the single-byte encodings and x-user-defined, with errors ignored or fatal", "why_tests_cant": "The decoders keep state over several bytes and push bytes back; wrong sequences come in unboundedly many combinations, and tests decode well-formed samples.", "anchors": ["include/wordring/whatwg/encoding/coder.hpp: the run members of the decoders", "lib/whatwg/encoding/indexes_code_point.cpp", "lib/whatwg/encoding/indexes_pointer.cpp"]}
{"id": "C74", "title": "What the legacy encoders write", "statement": "Each encoder writes, for every code point, the bytes of the place that the encoding standard chooses in the index, and a decimal reference for a code point without a place; ISO-2022-JP writes an escape sequence exactly where the set changes and returns to ASCII at the end.", "quantifier": "every text of scalar values, for EUC-KR, GBK, gb18030, EUC-JP, Shift_JIS, Big5, ISO-2022-JP, the single-byte encodings and x-user-defined", "why_tests_cant": "The choice among several places of one code point matters for a few hundred code points out of more than a million; tests encode samples.", "anchors": ["include/wordring/whatwg/encoding/coder.hpp: the run members of the encoders, get_index_pointer", "lib/whatwg/encoding/indexes_code_point.cpp", "lib/whatwg/encoding/indexes_pointer.cpp"]}
{"id": "C75", "title": "References with a base", "statement": "A text without a scheme (or with the base's own special scheme and no two slashes) is read against the base: an empty path keeps the base's path and, without a query, its query; a relative path replaces the last segment; one slash replaces the path; two slashes replace everything but the scheme. Without a base it is rejected, and with an opaque base everything but a fragment is.", "quantifier": "every text of scalar values, every base record whose scheme is not file, every IDNA conversion", "why_tests_cant": "The meaning of a reference depends on the whole base record and on the whole text; tests pair a few bases with a few references, and a copied or forgotten field shows only for bases that have it.", "anchors": ["lib/whatwg/url/url.cpp:444-466,468-545,547-579,581-598,614-662,664-688: on_scheme_start_state to on_relative_slash_state"]}
{"id": "C76", "title": "References to files", "statement": "With a base of the scheme file, or for a file URL without two slashes, host, path and query come from the base as the URL standard says: a drive letter at the start of the reference discards the base's path, a leading slash keeps the base's drive letter, and the drive letter is never removed from the path.", "quantifier": "every text of scalar values, every base record or none, every IDNA conversion", "why_tests_cant": "The Windows drive letter quirk is decided by the first three characters of the text and the first segment of the base's path together; tests try single examples of it.", "anchors": ["lib/whatwg/url/url.cpp:67-89,547-579,898-955,957-986: drive letters, on_no_scheme_state, on_file_state, on_file_slash_state"]}
{"id": "C77", "title": "The URL parser computes what its delimiters say", "statement": "For every text and every base, the parser gives exactly the record obtained by cutting the text at its delimiters (scheme, slashes, last at sign, first colon outside brackets, question mark, number sign, segments) and filling in from the base, and rejects the text exactly where that cutting does: an at sign with no host, a special scheme or a port with no host, a port that is not a number in range, a rejected host, a reference without a usable base. The cutting says something of every text for which the host parser does, but for file URLs whose host is an address (C41).", "quantifier": "every text of scalar values, every base record or none, every IDNA conversion", "why_tests_cant": "Twenty states, a buffer, a pointer that moves back and three flags decide the record together; a test compares single texts, never all texts with all bases, and none of them says that nothing else is accepted.", "anchors": ["lib/whatwg/url/url.cpp:292-442: basic_url_parser", "lib/whatwg/url/url.cpp:444-1240: the state functions"]}
{"id": "C78", "title": "The URL setters compute what the delimiters say", "statement": "Setting the protocol, the host, the host name or the port of a URL object leaves exactly the record that is written as a function of the old record and the string, cut at its delimiters, without the parser's states, pointer and buffer: the scheme before the first colon in lower case, refused when it would turn a special URL into another kind or give a file credentials or a port, and dropping a port that is usual for it; the host up to the first delimiter or colon outside brackets, refused when empty for special URLs and URLs with credentials or port; the port after it only for the host setter, and kept as it was when too large; for file URLs the host with its first code point taken twice.", "quantifier": "for every URL record, every string of scalar values, every IDNA function and enough fuel; nothing is said when the host parser asserts or a file host is an address", "why_tests_cant": "the setters start the parser's state machine in the middle, with a record that came from anywhere; each setter takes paths that ordinary parsing never takes, and tests set a few hosts on http URLs", "anchors": ["lib/whatwg/url/url.cpp:444-546: on_scheme_start_state, on_scheme_state", "lib/whatwg/url/url.cpp:786-896: on_hostname_state, on_port_state", "lib/whatwg/url/url.cpp:988-1034: on_file_host_state", "include/wordring/whatwg/url/api.hpp:120-251: the setters"]}
{"id": "C79", "title": "CSS component values nest", "statement": "Parsing a list of component values nests the tokens as one pass with a stack does, ends for every list, gives values that written out again are the tokens and the closing tokens that were missing and are read as the same values, and gives the same as the standard; splitting at commas loses nothing.", "quantifier": "for every list of tokens and values without an end-of-file token, of any length and depth, and enough fuel; written out again: for lists of tokens in which no block meets a closing token that is not its own", "why_tests_cant": "three mutually recursive functions with reconsuming share one position; nesting depth and unclosed groups have no bound, and the agreement with the standard depends on how closing tokens and groups cross", "anchors": ["include/wordring/wwwc/css_syntax/parsing.hpp:43-83: syntax_primitive_stream", "include/wordring/wwwc/css_syntax/parsing.hpp:665-684: parse_list_of_component_values", "include/wordring/wwwc/css_syntax/parsing.hpp:723-764: parse_comma_separated_list_of_component_values", "include/wordring/wwwc/css_syntax/parsing.hpp:1186-1295: consume_component_value, consume_simple_block, consume_function"]}
{"id": "C80", "title": "CSS style sheets", "statement": "Parsing a style sheet is defined for every list of tokens and gives exactly the rules that one pass over its component values finds: at-rules up to a semicolon, a block in braces or the end, other rules up to a block in braces. Every block in braces at the top is that of one rule; sheets that end with such a block may be put one after another. A list of rules is parsed as one that is not at the top level.", "quantifier": "for every list of tokens and values without an end-of-file token, every text that can be split into tokens, and enough fuel", "why_tests_cant": "rules, preludes and blocks of any number and length; error recovery at every point of the input", "anchors": ["include/wordring/wwwc/css_syntax/parsing.hpp:315-393: parse_stylesheet, parse_list_of_rules", "include/wordring/wwwc/css_syntax/parsing.hpp:832-986: consume_list_of_rules, consume_at_rule, consume_qualified_rule"]}
{"id": "C81", "title": "CSS declarations", "statement": "Parsing a declaration or a list of declarations is defined for every list of tokens and gives the names and values that the text declares, without the white space around the values and with the exclamation mark and important at their end turned into the flag.", "quantifier": "for every list of tokens and values without an end-of-file token, every name and value, and enough fuel", "why_tests_cant": "the end of the value is searched backwards over white space with an unsigned index; which values run past its beginning is a question about all values", "anchors": ["include/wordring/wwwc/css_syntax/parsing.hpp:501-567: parse_declaration, parse_list_of_declarations", "include/wordring/wwwc/css_syntax/parsing.hpp:1017-1178: consume_list_of_declarations, process_important, consume_declaration"]}
{"id": "C82", "title": "One CSS rule, one component value", "statement": "Parsing a rule or a component value is defined for every list of tokens and gives it when the text is exactly one, up to white space, and nothing otherwise.", "quantifier": "for every list of tokens and values without an end-of-file token, and enough fuel", "why_tests_cant": "the position after the rule depends on how the rule ended, with a terminator or with the text", "anchors": ["include/wordring/wwwc/css_syntax/parsing.hpp:431-456: parse_rule", "include/wordring/wwwc/css_syntax/parsing.hpp:605-619: parse_component_value"]}
{"id": "C83", "title": "CSS selectors", "statement": "The parsers of simple, compound, complex and relative selectors are defined for every list of component values and read the longest beginning that the grammar describes, with the meaning that the grammar gives it; they read nothing only when no beginning is a selector. The grammar gives every text at most one meaning.", "quantifier": "for every namespace map and every list of component values, of any length and depth", "why_tests_cant": "the grammar is recursive and ambiguous at each point; that the longest beginning is taken is a statement about all shorter and longer ones", "anchors": ["lib/wwwc/selectors/grammar.cpp:34-834: the parsers of selectors", "include/wordring/wwwc/selectors/grammar.hpp:1-1240: the classes of the grammar"]}
{"id": "C84", "title": "CSS selector lists", "statement": "A list of selectors that the standard describes is read whole and with its meaning, and nothing else is read as a list of selectors.", "quantifier": "for every namespace map, every list of component values and every text that can be split into tokens", "why_tests_cant": "lists of any length; error cases at every position of the text", "anchors": ["lib/wwwc/selectors/grammar.cpp:836-1031: the lists of selectors", "include/wordring/wwwc/selectors/api.hpp:38-59: parse_selector, parse_relative_selector"]}
{"id": "C85", "title": "Combinators of CSS selectors", "statement": "Matching a complex selector at a node is defined and succeeds exactly when there are nodes for all its compound selectors, the last of them the node itself, that are related as the combinators between them say: ancestor, parent, next element or later sibling element. A list of selectors matches where one of them does, a compound selector where all its parts do.", "quantifier": "for every document, every node, and every selector that the grammar describes", "why_tests_cant": "the search goes back over ancestors and siblings for each combinator; whether it finds a chain is a question about all documents and all chains", "anchors": ["include/wordring/wwwc/selectors/grammar.hpp:1094-1107: compound selectors", "include/wordring/wwwc/selectors/grammar.hpp:1157-1239: complex selectors", "include/wordring/wwwc/selectors/grammar.hpp:1465-1547: lists"]}
{"id": "C86", "title": "What simple CSS selectors match", "statement": "Type, identifier, class, attribute and root selectors match the elements that the standard says, in documents of HTML and others, with and without quirks, and match nothing but elements.", "quantifier": "for every element with any names, namespaces and attributes, every selector and every kind of document", "why_tests_cant": "names, namespaces, case and seven operators on values combine; tests see single values", "anchors": ["include/wordring/wwwc/selectors/grammar.hpp:261-397: id and class selectors", "include/wordring/wwwc/selectors/grammar.hpp:512-590: pseudo-classes and pseudo-elements", "include/wordring/wwwc/selectors/grammar.hpp:691-852: attribute selectors", "include/wordring/wwwc/selectors/grammar.hpp:966-1009: type selectors"]}
{"id": "C87", "title": "Queries with CSS selectors", "statement": "A query gives exactly the descendants of its node that the selectors match, each once and in the order of the document, and the query for one gives the first of them. Texts that are no selectors are an error.", "quantifier": "for every document, every node in it, and every text", "why_tests_cant": "the traversal visits the whole tree with a work list and filters by scope; completeness and order are statements about all trees", "anchors": ["include/wordring/wwwc/selectors/api.hpp:109-192: match_selector", "include/wordring/whatwg/dom/infrastructure.hpp:75-106: scope_match_selectors_string", "include/wordring/css/selector.hpp:50-92: query_selector_all, query_selector"]}
{"id": "C88", "title": "Tag trees: insert and erase", "statement": "A tag_tree that holds a tree keeps holding one: inserting a value at any position adds one childless node there and changes nothing else, erasing a node removes it and everything below it and returns the position behind it, erased tags and no others are free afterwards and are used again from the smallest, and the list of tags determines the tree.", "quantifier": "for every type of values, every container that holds a forest, every position and node in it", "why_tests_cant": "each operation rewires up to ten links of an index based list and a free list threaded through other fields of the same nodes; that no sequence of operations ever breaks one of them is a statement about all containers", "anchors": ["include/wordring/tag_tree/tag_tree.hpp:82-169: construction, insert", "include/wordring/tag_tree/tag_tree.hpp:200-313: erase, allocate, free, link, unlink", "include/wordring/tag_tree/tag_node.hpp:7-18: the node"]}
{"id": "C89", "title": "Tag trees: move", "statement": "Moving a node to a position outside of it takes the node with everything below it out and puts it there, and changes nothing else.", "quantifier": "for every container that holds a forest, every node in it and every position outside of the node", "why_tests_cant": "the six assignments read the links before and overwrite them in an order that is right only when the places are apart; tests move nodes to distant places", "anchors": ["include/wordring/tag_tree/tag_tree.hpp:176-198: move"]}
{"id": "C90", "title": "Tag trees: children and parents", "statement": "The iterators visit exactly the children of a node in order from begin to end and back, and the parent of each of these positions, the end included, is the node.", "quantifier": "for every container that holds a forest, every node with any number of children, and the container itself", "why_tests_cant": "the parent is found by a walk over all earlier siblings; tests look at a few children", "anchors": ["include/wordring/tag_tree/tag_tree_iterator.hpp:71-143: ++, --, parent, begin, end"]}
{"id": "C91", "title": "Tag trees: tags in order", "statement": "The serial iterator visits the tags as they are written, each start tag before and each end tag behind the tags of the children, backwards in reverse; start and end tags know each other; the size is the number of nodes.", "quantifier": "for every container that holds a forest", "why_tests_cant": "the order is that of the whole tree, of any depth and width", "anchors": ["include/wordring/tag_tree/serial_iterator.hpp:74-148: serial_iterator", "include/wordring/tag_tree/tag_tree.hpp:129-143: size"]}
{"id": "C92", "title": "Tag trees: characters", "statement": "The character iterator reads the characters of all text nodes behind its position in the order of the document, each once, and goes the same way back.", "quantifier": "for every container that holds a forest, every position, every way to say what the text of a value is", "why_tests_cant": "texts of any length, among them empty ones, and a 32 bit index that is decremented", "anchors": ["include/wordring/tag_tree/character_iterator.hpp:58-201: character_iterator"]}
{"id": "C93", "title": "HTML: a written document is read back", "statement": "The tree that the parser makes of the text written for a document is that document.", "quantifier": "for every document of a class given by the rules of the HTML standard on what may be in what", "why_tests_cant": "trees of any depth and width; the tokenizer, tree construction and the serialiser have to agree on every name, escape and rule", "anchors": ["include/wordring/whatwg/html/parsing/tree_construction_dispatcher.hpp:1041-5040: process_token", "include/wordring/html/simple_parser.hpp:28-180: simple_parser_base", "include/wordring/whatwg/html/parsing/serializing.hpp:159-260: to_string"]}
{"id": "C94", "title": "HTML tree construction: defined for every text", "statement": "Parsing a text never reads the end of the stack of open elements, an erased list entry, a null pointer or a failed assertion.", "quantifier": "for every text", "why_tests_cant": "which tags must come in which order is not known in advance", "anchors": ["include/wordring/whatwg/html/parsing/tree_construction_dispatcher.hpp:2554-2567: button start tag", "include/wordring/whatwg/html/parsing/tree_construction_dispatcher.hpp:3128-3300: run_adoption_agency_algorithm"]}
{"id": "C95", "title": "HTML tree construction: leaving foreign content", "statement": "A start tag of HTML in SVG or MathML closes the foreign elements up to the next HTML element or integration point, and no other, and is then handled there.", "quantifier": "for every stack of open elements and every start tag", "why_tests_cant": "depends on the whole stack; visible only in where later nodes go", "anchors": ["include/wordring/whatwg/html/parsing/tree_construction_dispatcher.hpp:4816-4870: on_foreign_content"]}
{"id": "C96", "title": "HTML tree construction: the case of SVG names", "statement": "Elements and attributes of SVG get the spelling that SVG gives them.", "quantifier": "for every name", "why_tests_cant": "a table of names and a token with two representations of its name", "anchors": ["include/wordring/whatwg/html/parsing/tree_construction_dispatcher.hpp:3046-3060 and 4874-4900: svg start tag, any other start tag", "lib/whatwg/html/parsing/atom_tbl.cpp:4765-5145: conversion tables"]}
{"id": "C97", "title": "HTML tree construction: prefixes of attributes", "statement": "The attributes of an element have the prefix of their own token, for HTML elements none.", "quantifier": "for every sequence of tags", "why_tests_cant": "needs a foreign element with a prefixed attribute before", "anchors": ["include/wordring/whatwg/html/parsing/token.hpp:52-75: token_attribute", "include/wordring/whatwg/html/parsing/tree_construction_dispatcher.hpp:1365-1411: adjust_foreign_attributes"]}
{"id": "C98", "title": "HTML tree construction: Noah's Ark clause", "statement": "After pushing a formatting element no more than three equal ones stand behind the last marker, where equal means the same name, namespace and attributes; nothing but the earliest equal one is removed.", "quantifier": "for every list of active formatting elements and every element", "why_tests_cant": "needs four elements open and a later reopening", "anchors": ["include/wordring/whatwg/html/parsing/tree_construction_dispatcher.hpp:918-939: push_formatting_element_list", "include/wordring/html/simple_node.hpp:566-578: operator=="]}
{"id": "C99", "title": "HTML tree construction: list items", "statement": "A start tag li closes an open li that no special element other than address, div and p separates from it.", "quantifier": "for every stack of open elements", "why_tests_cant": "depends on the whole stack", "anchors": ["include/wordring/whatwg/html/parsing/tree_construction_dispatcher.hpp:2470-2502: li start tag"]}
{"id": "C100", "title": "HTML tree construction: a further body start tag", "statement": "The attributes of a further html or body start tag are added to the element unless they are there.", "quantifier": "for every document", "why_tests_cant": "rare input", "anchors": ["include/wordring/whatwg/html/parsing/tree_construction_dispatcher.hpp:2224-2292: html and body start tags"]}
{"id": "C101", "title": "HTML tree construction: templates", "statement": "What stands between the tags of a template becomes a descendant of the template.", "quantifier": "for every content", "why_tests_cant": "table parts in templates need a mode of their own", "anchors": ["include/wordring/whatwg/html/parsing/tree_construction_dispatcher.hpp:4016-4028: clear_to_row_context", "include/wordring/whatwg/html/parsing/tree_construction_dispatcher.hpp:4327-4448: in template"]}
{"id": "C102", "title": "HTML tree construction: elements in scope", "statement": "An element is found in a scope exactly when going down the stack from the current node it comes before every element of the list of that scope.", "quantifier": "for every stack, every name and each of the five scopes", "why_tests_cant": "stacks of any height with any elements", "anchors": ["include/wordring/whatwg/html/parsing/tree_construction_dispatcher.hpp:632-788: in_specific_scope and the five scopes"]}
{"id": "C103", "title": "HTML tree construction: resetting the insertion mode", "statement": "The mode chosen is that of the first element from the current node down that has one in the table of the standard.", "quantifier": "for every stack, list of template modes and head", "why_tests_cant": "stacks of any height with any elements", "anchors": ["include/wordring/whatwg/html/parsing/tree_construction_dispatcher.hpp:354-432: reset_insertion_mode_appropriately"]}
{"id": "C104", "title": "HTML tree construction: implied end tags", "statement": "The elements popped are the longest run from the current node on of those whose end tag may be implied, without the excepted name.", "quantifier": "for every stack and exception", "why_tests_cant": "stacks of any height with any elements", "anchors": ["include/wordring/whatwg/html/parsing/tree_construction_dispatcher.hpp:1497-1562: generate_implied_end_tags"]}
{"id": "C105", "title": "HTML tree construction: select in a table", "statement": "An end tag of a part of the table around a select closes the select and is then handled by the table.", "quantifier": "for every stack with a select in a table", "why_tests_cant": "needs the combination", "anchors": ["include/wordring/whatwg/html/parsing/tree_construction_dispatcher.hpp:4283-4320: in select in table"]}
{"id": "C106", "title": "HTML: CDATA sections", "statement": "A CDATA section is read as text in foreign content and as a comment elsewhere.", "quantifier": "for every text", "why_tests_cant": "depends on the current node", "anchors": ["include/wordring/whatwg/html/parsing/tokenization.hpp:1587-1610: markup declaration open state"]}
{"id": "C107", "title": "HTML tree construction: the shape of every tree", "statement": "Whatever is read, the document has exactly one html element, that has exactly one head and one body, these are nowhere else, and cells, rows, row groups, captions, column groups and columns are only in the elements that may hold them.", "quantifier": "for every sequence of tokens, and every text", "why_tests_cant": "which tags must come in which order to misplace an element is not known in advance", "anchors": ["include/wordring/whatwg/html/parsing/tree_construction_dispatcher.hpp:1041-1183: process_token", "include/wordring/whatwg/html/parsing/tree_construction_dispatcher.hpp:530-750: insertion of elements", "include/wordring/whatwg/html/parsing/tree_construction_dispatcher.hpp:3760-4500: modes of tables"]}
{"id": "C108", "title": "HTML tokeniser: the tags that are emitted", "statement": "Every emitted tag has a name that begins with a lower-case letter and has no space, slash, greater-than sign, NUL or capital; its attributes that are not dropped have different names of such characters; and the name stands in the text behind < or </.", "quantifier": "for every text", "why_tests_cant": "the state machine has eighty states, and the invariant runs through all of them", "anchors": ["include/wordring/whatwg/html/parsing/tokenization.hpp:436-548: tag names", "include/wordring/whatwg/html/parsing/tokenization.hpp:1229-1500: attributes"]}
{"id": "C109", "title": "HTML tokeniser: tags in scripts", "statement": "Behind a script start tag no start tag is emitted before the end tag of the script.", "quantifier": "for every text of a script", "why_tests_cant": "needs a comment in the script with a tag that is not a script in it", "anchors": ["include/wordring/whatwg/html/parsing/tokenization.hpp:1035-1071: on_script_data_double_escape_start_state"]}
{"id": "C110", "title": "Trie over wide labels: a finite map", "statement": "A trie whose labels have any number of bytes answers contains, find, at and size as a finite map subjected to the same history of insert, erase, assignment through [], clear and assign (which inserts).", "quantifier": "for every width, signedness and operation history", "why_tests_cant": "labels of several bytes share nodes of the double array, so what one key does to another depends on the bytes of both", "anchors": ["include/wordring/trie/trie.hpp:331-345: assign", "include/wordring/trie/trie.hpp:444-461: at", "include/wordring/trie/trie.hpp:550-557: operator[]", "include/wordring/trie/trie.hpp:643-660: insert", "include/wordring/trie/trie.hpp:738-744: erase", "include/wordring/trie/trie.hpp:892-954: find, contains"]}
{"id": "C111", "title": "Trie over wide labels: search and lookup count whole labels", "statement": "lookup finds the node of the longest beginning of the key, counted in labels, with which some stored key begins, and gives back the rest of the key; search finds a node exactly when some stored key begins with the string.", "quantifier": "for every history and every string of labels", "why_tests_cant": "the walk may stop within a label, and must then go back", "anchors": ["include/wordring/trie/trie.hpp:803-852: lookup, search"]}
{"id": "C112", "title": "Trie over wide labels: iteration yields the keys in order", "statement": "Iterating below a node found by search yields exactly the stored keys that begin with the string, once each, in the order of the labels as unsigned numbers.", "quantifier": "for every history, every string, every width and signedness of the labels", "why_tests_cant": "the next sibling of a label is found by climbing and descending as many levels as the bytes differ", "anchors": ["include/wordring/trie/trie_iterator.hpp:87-114: operator*", "include/wordring/trie/trie_iterator.hpp:177-218: operator++", "include/wordring/trie/trie_iterator.hpp:244-321: string, parent, begin"]}
{"id": "C113", "title": "Trie over wide labels: assign replaces the contents", "statement": "After assign the trie holds exactly the given strings.", "quantifier": "for every history and list of strings", "why_tests_cant": "tests assign to an empty trie", "anchors": ["include/wordring/trie/trie.hpp:331-345: assign"]}
{"id": "C114", "title": "Trie iterator over wide labels: operator[]", "statement": "operator[] of the iterator at a string gives the iterator at the string with the label added, or the empty one if no key begins so, and reads within the array.", "quantifier": "for every history, string and label", "why_tests_cant": "whether the read leaves the array depends on where the double array put the node", "anchors": ["include/wordring/trie/trie_iterator.hpp:141-175: operator[]"]}
{"id": "C115", "title": "Every insertion mode follows the standard", "statement": "For every token, the rules of the current insertion mode do what the HTML standard prescribes: the same elements opened and closed, the same nodes inserted, the same changes of the mode, the list of active formatting elements and the flags, and the same tokens ignored or reprocessed.", "quantifier": "for every state without open foreign elements, every mode and every token; the standard is given as tables of steps (L_dom30.v)", "why_tests_cant": "23 modes by 140 names of tags by the stack of open elements; each test is one path", "anchors": ["include/wordring/whatwg/html/parsing/tree_construction_dispatcher.hpp:1568-4786: the insertion modes"]}
{"id": "C116", "title": "Insertion puts nodes in the appropriate place", "statement": "The place of a new node is the appropriate place for inserting a node of the standard, with foster parenting; inserting changes the children of that one node and nothing else; characters join the text in front of the place; elements have the name and attributes of their tokens; formatting elements are reconstructed in order; html and body tags add only absent attributes.", "quantifier": "for every tree, stack and token", "why_tests_cant": "where a node lands depends on the stack, the tree and the foster parenting flag together", "anchors": ["include/wordring/whatwg/html/parsing/tree_construction_dispatcher.hpp:956-983: reconstruct", "include/wordring/whatwg/html/parsing/tree_construction_dispatcher.hpp:1237-1359: place, create, insert", "include/wordring/whatwg/html/parsing/tree_construction_dispatcher.hpp:1417-1456: characters, comments", "include/wordring/whatwg/html/parsing/tree_construction_dispatcher.hpp:2233-2243: attributes"]}
{"id": "C117", "title": "End tags of formatting elements: the adoption agency", "statement": "The end tag of a formatting element takes the steps of the adoption agency algorithm.", "quantifier": "for every stack and list of active formatting elements", "why_tests_cant": "the algorithm compares two lists of unbounded length", "anchors": ["include/wordring/whatwg/html/parsing/tree_construction_dispatcher.hpp:3128-3310: the adoption agency algorithm"]}
{"id": "C118", "title": "The dispatcher: insertion mode or foreign content", "statement": "A token goes to the insertion mode exactly under the conditions of the tree construction dispatcher of the standard (HTML element, MathML text integration point, annotation-xml, HTML integration point, end of file); in foreign content characters, comments, document types and end tags are handled as the standard says.", "quantifier": "for every state that is not of a fragment, and every token", "why_tests_cant": "the conditions join the current node, its namespace, its attributes and the token", "anchors": ["include/wordring/whatwg/html/parsing/tree_construction_dispatcher.hpp:1041-1171: the dispatcher", "include/wordring/whatwg/html/parsing/tree_construction_dispatcher.hpp:4787-5022: foreign content"]}
{"id": "C119", "title": "The nodes of tree construction are a tree", "statement": "Whatever the tokens, the nodes that tree construction makes and moves form a forest: a child is a child of one node only, stands once among its children and knows it as its parent; from every node the parents lead up to a document; only documents and elements with content have children. The document as a value shows every node below it.", "quantifier": "for every list of tokens and every text for which construction ends, fragments included", "why_tests_cant": "foster parenting, the adoption agency and the misplaced framesets move whole subtrees while they are being built, and a cycle or a node in two places shows only for some nestings", "anchors": ["include/wordring/whatwg/html/parsing/tree_construction_dispatcher.hpp:1041-1171: every token", "include/wordring/whatwg/html/parsing/tree_construction_dispatcher.hpp:3121-3300: the adoption agency", "include/wordring/tree/tree.hpp: insert, move and erase"]}
{"id": "C120", "title": "Elements without content are empty", "statement": "An element of HTML that has no content (br, img, input, ...) has no children in any tree that construction makes.", "quantifier": "for every list of tokens and every text for which construction ends", "why_tests_cant": "an element gets children when it stays the current node, which depends on every branch that inserts an element", "anchors": ["include/wordring/whatwg/html/parsing/tree_construction_dispatcher.hpp:1336-1359: insertion of elements", "include/wordring/whatwg/html/parsing/tree_construction_dispatcher.hpp:2224-3083: the start tags in a body"]}
{"id": "C121", "title": "CSS tokens as in the standard", "statement": "The tokeniser cuts a text into the tokens that CSS Syntax 4.3 prescribes: comments are skipped, and every token takes from the text what the standard gives it and leaves the rest, until the text ends.", "quantifier": "for every text of code points, every token of it and the whole list of its tokens", "why_tests_cant": "which token is taken depends on up to three code points in front of numbers, names, urls and escapes of any length, and a token that takes one code point too many spoils everything behind it", "anchors": ["include/wordring/wwwc/css_syntax/tokenization.hpp: consume_token and what it calls", "include/wordring/wwwc/css_syntax/tokenization.hpp: tokenize"]}
{"id": "C122", "title": "No element is open twice", "statement": "Whatever the tokens, no element is on the stack of open elements twice, none is in the list of active formatting elements twice, and every entry of both is a node of the tree.", "quantifier": "for every list of tokens for which construction ends", "why_tests_cant": "the head element is put back on the stack and taken off again, elements are replaced in both lists by the adoption agency algorithm, and formatting elements are opened anew", "anchors": ["include/wordring/whatwg/html/parsing/tree_construction_dispatcher.hpp:904-998: the stack and the list", "include/wordring/whatwg/html/parsing/tree_construction_dispatcher.hpp:956-983: reconstruct", "include/wordring/whatwg/html/parsing/tree_construction_dispatcher.hpp:3128-3310: the adoption agency algorithm"]}
{"id": "C123", "title": "Atoms of HTML compare as their strings", "statement": "The tables of tag names, attribute names and namespaces are inverse to each other. An atom made of a string or of a number stands for one string, converts to it, has the number that the table gives for it, and two atoms are equal exactly when they stand for the same string.", "quantifier": "for each of the three tables, every atom made of a string of any kind or of a number of the table, and every pair of them", "why_tests_cant": "an entry that is missing or misplaced in one of two tables of hundreds of names shows only for that name, and equality of atoms of unknown names takes another way than that of known ones", "anchors": ["include/wordring/whatwg/html/html_atom.hpp:71-133: construction, conversion and comparison", "lib/whatwg/html/parsing/atom_tbl.cpp: the tables"]}
{"id": "C124", "title": "Attributes found by name", "statement": "Searching an element for an attribute yields the first one whose namespace, prefix and local name agree, whatever their values, and nothing when there is none; searching by a string and by the number of a name agree.", "quantifier": "for every element with attributes of any names and every name searched for", "why_tests_cant": "names known to the tables and unknown ones mix, and one that is compared by number only or by string only is missed", "anchors": ["include/wordring/html/simple_node.hpp:168-197: attributes compare by name", "include/wordring/html/simple_node.hpp:517-552: find"]}
{"id": "C125", "title": "Elements compare", "statement": "Two elements are equal when they have the same name, the same namespace and the same attributes; equality is symmetric.", "quantifier": "for every pair of elements", "why_tests_cant": "the comparison looks for the attributes of one element in the other and says nothing of the other way round", "anchors": ["include/wordring/html/simple_node.hpp:565-578: operator=="]}
{"id": "C126", "title": "HTML tokeniser states as in the standard", "statement": "In every one of the eighty states the tokeniser does with the next character, or with the end of the input, what section 13.2.5 of the HTML standard says: the same tokens, the same next state, the same character read again, the same attribute, comment, doctype and buffer; so the tokens of a text are those of the standard.", "quantifier": "for every state of the tokeniser with whatever it has gathered, every character and the end of the input, every rest of the text where the state looks ahead, and every text", "why_tests_cant": "eighty states with up to ten kinds of characters each, and what each does depends on what was gathered before; the suites of the standard reach a state in one way each", "anchors": ["include/wordring/whatwg/html/parsing/tokenization.hpp:316-2760: the states", "include/wordring/whatwg/html/parsing/tokenization.hpp:1669-1697: the comment state", "include/wordring/whatwg/html/parsing/tokenization.hpp:2698-2726: hexadecimal numbers"]}
{"id": "C127", "title": "No element has two attributes of the same name", "statement": "In the document made of a text no element has two attributes with the same namespace and local name.", "quantifier": "for every text", "why_tests_cant": "an attribute is compared with those that are there in three places: in the tokeniser, when names are adjusted for foreign elements, and when a further html tag adds attributes; which of them meet depends on the whole text", "anchors": ["include/wordring/whatwg/html/parsing/tree_construction_dispatcher.hpp:2224-2246: attributes of a further html tag", "include/wordring/whatwg/html/parsing/tree_construction_dispatcher.hpp:1365-1411: adjusting of names", "include/wordring/whatwg/html/parsing/token.hpp:60-190: attributes of tokens"]}
