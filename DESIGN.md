# Design

Subject: `wordring/libwordring` (C++17 headers plus a few `lib/*.cpp`), at the commit in `/repo`.
All models are hand-written Gallina transcriptions of the C++ text; nothing is generated from it
except the encoding index tables, which are copied number by number.

## Conventions

* One file `M_<area>.v` holds the model (definitions only, each with file and lines cited).
* `L_<area>.v` (`L_<area>2.v`, …) holds the specification vocabulary and the lemmas.
* `P_<area>.v` holds the property theorems, with `Print Assumptions` for each
  and `Example`s that instantiate the hypotheses.
* Out-of-bounds access, dereferencing an end iterator and reading uninitialised memory are modelled as an
  explicit outcome (`None`, or a constructor `UB`), never as a default value.
* Loops that are not structurally recursive run on fuel, and running out is its own outcome. Where the
  property is about termination, the theorem bounds the fuel or shows that no fuel suffices.
* Machine integers are `N`/`Z` with explicit masks where the C++ can wrap; where wrapping is excluded by a
  size assumption this is said at the definition.
* A property that is false of the code is recorded with a theorem `..._refuted` holding a concrete witness,
  and, where useful, with a guarded positive theorem.

## Plan per property

| Id | Model | Proof |
|----|-------|-------|
| C01 | `serialize`/`deserialize` as big-endian digit loops over byte lists | induction on width |
| C02 | positional overload; iterator as (element, byte offset) pair | arithmetic; induction on container |
| C03 | matcher entries with failure flags and positions | invariant over the fed prefix |
| C04 | buffer of N slots plus size; operations as loops over slots | refinement to list operations |
| C05 | same model | refuted by witness; guarded positive version |
| C06 | `std::equal` / `lexicographical_compare` transcription | structural induction |
| C07, C08, C09 | `to_code_point` / `to_string` over unit lists | bit arithmetic by `lia` on div/mod forms |
| C10 | `normalize_newlines` loop | refuted at the trailing CR; positive when the last unit is not CR |
| C11, C12, C13 | loops over lists, `UB` on the all-whitespace strip | induction; refutation for the UB case |
| C14, C15 | byte loops; set predicates as boolean functions | induction; case analysis by `lia` |
| C16, C17 | `parse_ipv4`, number parsing with uninitialised result as `UB` | digit arithmetic; refutation for "08" and overflow |
| C18, C19 | IPv6 parser/serialiser | refuted by witness; round trip for the addresses whose zero runs do not trigger the defect |
| C20, C21 | arena `list node`, link/unlink/allocate/free on indices | representation invariant relating arena and ordered forest |
| C22, C23, C25 | same arena | guarded theorems, refutations by computation |
| C24 | worklist iterators | equality with recursive traversal |
| C26, C27, C28 | double array `base`/`check` as total maps with explicit limit | heap invariant and refinement to a finite map |
| C29, C30, C31, C32 | the derived containers on the same heap | refutations by computation; refinement |
| C33, C34, C38, C39 | decoder/encoder handlers as state machines, run loop of `process_queue` | induction over the input; refutations by computation |
| C35 | decoder loop over a queue with/without end marker | state machine composition lemma |
| C36, C37 | tables embedded as lists of `N` | whole-table checks by `vm_compute`, lifted by `forallb_forall` |
| C40 | label table | table computation |
| C41, C42, C43 | URL parser state machine over code points with the IDNA library as a parameter | measure on (state, pointer); run relation for exact results; refutations by computation |
| C44, C45, C46 | CSS filter and tokeniser over lists | induction; refutation of termination by a cycle |
| C50, C51, C52, C53 | the same tokeniser; numbers as sign, digits and exponent instead of a double | a relation between spellings and values, both directions |
| C121 | the same tokeniser | the standard as an inductive relation between text, token and rest; totality by splitting the text, agreement by the lemmas of C46 to C53 |
| C79, C80, C81, C82 | CSS parser: stream with position, mutual recursion with fuel | one-pass specification with a stack; refutations by computation |
| C83, C84 | CSS selectors: parsers over the rest of the component values | grammar as inductive relations, longest match; refutations by computation |
| C85, C86, C87 | matching on ordered forests with positions as pointers, traversal with a work list | relational meaning of selectors; pre-order walk; refutations by computation |
| C88 to C92 | tag_tree: an arena of linked tags | the arena holds a list of tags, the list is written by a forest; separation of list, free list and loose tags |
| C93 to C106 | HTML tree construction: the members as a record, insertion modes as functions with the reprocessing as a parameter, the tree as cells | specifications of the small algorithms; induction over trees for the round trip of ordinary documents; refutations by computing whole documents |
| C107 | the same model | an invariant of tree, stack and counts kept by every insertion mode; a rank that bounds the reprocessings |
| C108, C109 | the same tokeniser | an invariant of the current tag through all states, with the text read so far; refutation by computation |
| C126 | the same tokeniser | the standard's tables as data with their own meaning, handler by handler; determinism of the rules; an invariant for texts without scripts |
| C127 | tokeniser and tree construction together | the invariant of C119 with a predicate of the whole list of attributes, and the names that C108 gives for the tags |
| C110 – C114 | trie and its iterator over labels of several bytes, on the byte trie of C26 | histories over labels simulated by histories over bytes; every node is continued to whole labels, from which climbing and descending find the next sibling; refutations by computation |
| C47, C48 | queue state machines | invariants over operation histories |
| C54 | `extract_from_meta` loop over code points | first occurrence relation, both directions |
| C47, C55 to C62, C65 | HTML tokeniser as a step function over (state, buffers) and the rest of the text | measure for totality; simulation by reading lemmas; refutations by computation |
| C63, C64 | serialiser on trees | relation `Markup`, shown functional; composition with the reading lemmas |
| C49 | `bom_sniff`, `decode`, `text_decoder` on the same coders | case analysis on the first bytes |

## Encodings: how the model is cut

* A coder is one inductive type `coder` with a constructor per C++ class; `run` is the visitor. Handler results that
  hold one to four code points or bytes are one constructor `Out`.
* `process_item`, `process_queue` and `text_decoder::decode` are transcribed over explicit queues. `L_encoding2` turns
  them into relations on plain lists (`eats`, `stops`, `ends`), and the theorems are stated on the functions again.
* The `Replacement` branch of `process_item` pushes U+FFFD only under `if constexpr (is_base_of<decoder, Coder>)`, and
  `Coder` is always the `std::variant`, so the model pushes nothing there.
* Index tables are copied from `lib/whatwg/encoding/indexes_*.cpp` by a script and compared with the source text
  number by number; the proofs about them are whole-table checks.
* `text_decoder`'s exception is the inner `None`; failed asserts are `Bad`.
* `L_decoders` states, for each decoder, a division of the bytes into characters and errors (`..._pieces`) that does not use the
  model; a flag turns the known defects on or off. `L_decoders2` and `L_decoders3` prove that the decoders follow it (C73).
* `L_encoders` states what each encoder writes for a code point through `least` (the first place in the decoding index), and proves by
  whole-table checks that the sorted pointer tables hold exactly the first places (C74). `L_encoders2` does the same for ISO-2022-JP texts.

## CSS tokeniser: how the model is cut

* The text is a list of code points; the iterator is the rest of the list. `*last` is `None` (undefined behaviour).
* `convert_string_to_number` computes a double with `std::pow`; the model keeps sign, integer, fraction, digit count and
  exponent, so rounding is not covered.
* Tokens carry value and type flags but not the source position.

## CSS parser: how the model is cut

* `M_cssp` follows `parsing.hpp`: a stream is the vector with the end-of-file token behind it and a position; `next` fails where
  `next_input_token` asserts. Tokens, functions and blocks are one type `prim`; the conversions between the variant types keep values.
* The specification in `L_cssp` does not read through a stream: `nest` is one pass over the list with a stack of open groups, `rules_of` and
  `decls_of` are one pass over its result with what is unfinished. `ends_any` is how the code ends blocks, `ends_own` how the standard does.
* `consume_list_of_rules` with the flag unset is never called; its case for `<!--` would fall into that for at-rules and assert.

## HTML tokeniser: how it is held against the standard

* `L_html14` writes section 13.2.5 of the standard down as data: for each state the rows of its table (characters, condition, steps, next state), the row
  "anything else" and the end of file. `std_step` carries a table out and does not use the handlers of the model. `L_html15` adds the four states that look
  ahead as rules (`StdStep`) and reads a whole text with them; the rules leave no choice (`C126_one`).
* `Departs` lists where the program differs. `C126_states_partial` is an equivalence: handler and table agree exactly outside of `Departs`.

## HTML tree construction: how the model is cut
* `M_atom` follows html_atom.hpp and the attributes and elements of simple_node.hpp; `M_atom_tbl` holds the tables of names as they stand in the library.
  C123 says that atoms compare as the strings they stand for, C124 that attributes are found by name. Equality of elements (C125) compares neither the names
  of the elements nor the values of their attributes, and is not symmetric when attributes repeat; nothing in the library relies on it.
* `M_dom` and `M_dom2` follow tree_construction_dispatcher.hpp (5040 lines): every insertion mode, the stack of open elements, the list of active
  formatting elements, foster parenting, the adoption agency, foreign content and the dispatcher. The tree is a list of cells (value, parent, children);
  tag_tree has its own model (C88 to C92), and the moves that lose nodes there lose them here.
* The tokenizer asks tree construction for its state after each start tag: `switch_of` runs the construction on the tokens so far. `parse` is the two
  together.
* Left out: encodings and the change of encoding by meta, scripts (m_scripting_flag is false), error reports, the table of quirks (a parameter).
* Names of tags are a type with one constructor for each name that the code mentions and one for all others. The prefixes that stay behind in the
  reused token are kept (`s_slots`), the iterator into the list that the adoption agency keeps is a bookmark that can be lost.
* `C93_ordinary_partial` is about the serialiser, the tokenizer and tree construction together. `L_dom3` says which trees are meant (`fits`: an element may
  stand below its ancestors without being moved or closing one of them) and what holds while one is read (`Good`: stack, formatting elements, form
  and mode are those of the ancestors). `L_dom4` to `L_dom7` show this for one start tag, end tag, text or comment, `L_dom8` for rows of nodes and `L_dom9` for
  the document around head and body. White space in tables is held back by the code until the next token; `Late` relates the two states. The class
  leaves out foreign content, templates, framesets, image, plaintext, and the nestings for which the code is wrong (a button in a p, C94).
* C107 and the positive part of C94 are about any tokens in any order. `L_dom10` holds the facts about the tree (`Tree`) and how insertion, moves and
  attribute changes keep them; `L_dom11` the stack, split at the element that the insertion mode rests on; `L_dom12` the invariant for each mode
  (`Inv`), and a rank that falls with every reprocessing and so bounds the fuel; `L_dom13` to `L_dom19` the modes one after the other; `L_dom20` the
  dispatcher; `L_dom21` what the tree looks like as a value, and texts. The tokens left out are those that start templates, framesets, foreign
  content or the defects of C94 (button, a, nobr, and end tags of formatting elements, which run the adoption agency).
* C115 holds one step of tree construction against the standard. `L_dom30` is the standard written out as data: for each mode and token a list of
  steps (pop until, insert, switch the mode, process by the rules of another mode, ...), with `obey` to carry them out, and `departs`, the places where the
  library does something else. `L_dom31` to `L_dom35` show that the code does the same. What the steps themselves do to the tree is C116 (`L_dom36`,
  `L_dom37`); the adoption agency is one step, C117; the choice between the mode and foreign content is C118 (`L_dom38`). Results only: that the code gets
  through is C94, and the theorems say nothing where it does not.
* C119, C120 and the positive part of C97 are one invariant (`Whole`, `L_dom39`) for all tokens without exception: the cells are a forest, the open
  elements and the formatting elements are nodes of it that may have children, and the attributes and the prefixes kept in the token meet a predicate
  that is a parameter. `L_dom40` carries it through the adoption agency, every mode, foreign content and the dispatcher; `L_dom41` reads the cells as a value.
  `L_dom42` holds the start tags in foreign content against tables of the standard (C95, C96).
* `L_dom43` writes the adoption agency out as a relation (`Agency`, `Round`, `climb`) over stacks cut into pieces, with the bookmark as the element it
  stands behind, and shows that the code, which works with positions and iterators, does the same where no element occurs twice. `L_dom44` shows that no
  element ever does (C122), for all tokens; in "after head", where the head element is put back on the stack, all but the head element.
* `L_dom45` and `L_dom46` repeat `L_dom39` and `L_dom40` with predicates of the list of attributes instead of each attribute. `L_dom47` takes for it
  that namespace, prefix and local name are different: names that come in lower case stay different when they are adjusted, and adding looks first (C127).
* `P_dom7` says for every state where the start tags of li, html, body, td and th and the tags around a select lead (C99, C100, C101, C105).
* `L_html13` does without the conditions on references: after a reference by number the machine lags behind the text, but it is always at a place that
  reading gets to, so that an invariant of reading holds of whatever has been emitted (`carried`). C108 holds of every text; C47, C56, C94 and C107 keep only
  the condition that no CR is the last code point, where the code delivers the newline together with the end.
* `L_html11` and `L_html12` (C108) carry an invariant of the current tag through all states of the tokeniser: well-formed names, and where the name stands
  in the text. They let C94 and C107 be stated of texts.

## Tag trees: how the model is cut
* `M_tag` follows tag_tree.hpp and its three iterators assignment by assignment on a list of tags; reading or writing outside of it is `None`.
* `L_tag2` states what an arena holds (`Holds`): the circular list from tag 0, the free list through `m_tail`/`m_head`, and the tags that are in neither
  while an operation runs. `L_tag3` ties the list to a forest (`Rep`); positions are tags, so `put_at` and `cut` are defined on forests alone.
* A move to the position behind the node is not a special case in the code: the six assignments then unlink the node. `C89_lost` says that this
  happens for every tree.

## CSS selectors: how the model is cut

* `M_sel` follows `grammar.cpp`, with the rest of the component values for the iterators; an object with an empty range is `None`. The objects keep
  iterators into a vector that is gone when `parse_grammar` returns; the model keeps values only, and this use after free is not covered.
* The grammar in `L_sel` is a family of inductive relations between component values and selectors, with two parameters: which prefixes are
  declared, and what may stand at the end of an attribute selector. One choice of the two is the standard's, the other is what the code does.
* A document is an ordered forest; a pointer is the position of a node, the innermost index first, and the empty position is the null pointer.
  The kinds of node other than elements and documents are not told apart. Strings are what the conversion to UTF-32 makes of them.
* `L_sel2` gives the meaning of selectors by relations between nodes (`related`, `chain`) and of simple selectors by the values of attributes;
  `walk` is the pre-order walk that the traversal is compared with. HTML's list of attributes whose values ignore case is not in the code and not in the meaning.

## HTML: how the model is cut

* The tokeniser is a record of state, temporary buffers and emitted tokens; each state is a function from the record and
  the next code point (or the end) to what to do. `pstep` in the lemma files is the same machine with the input stream's
  push and reconsume turned into a plain list; `tokenize` is the transcription of the two classes together.
* Tree construction is a parameter: after each token a function of the tokens so far may switch the state, and another
  says whether CDATA sections are allowed. Theorems hold for every such function that chooses text states, or for
  `by_name`, which chooses as tree construction does for fragments.
* The named character reference table is copied from the source; `L_html_names` holds the standard's table, and every
  name is checked by computation.
* Parse errors are not modelled (the C++ reports them to a callback that has no effect on tokens).
* The serialiser is modelled on trees (`node`) instead of the tree container with its iterator; the walk with explicit
  stack is kept.
* Findings not tied to a property: `adjusted_current_node` is tested with `in_html_namespace` where the standard asks for
  not being in it; attributes in no known namespace lose their prefix.

## URL: how the model is cut

* The parser is a record of state, buffer, flags, pointer and URL; each state is a function from the record and the code point at
  the pointer to a verdict (failure, return, or go on). The loop is `run_loop`, with a bound on its steps.
* Pointers are integers: the C++ forms pointers one before the input and never reads through them; reads go through `at_`, which
  is undefined outside the input.
* The error code is only written and is not modelled, except inside the two address parsers.
* The IDNA conversion of ICU is a parameter: a function from text to ASCII text or an error. Theorems hold for every such function
  unless they say otherwise.
* `L_url4` holds the run relation (`runs`), with one lemma per component that says what the parser does with it.
* `L_url7` and `L_url8` compose these runs into whole absolute URLs; `L_url9` defines `proper` records and proves that what is written for them is read again.
* `L_url10` to `L_url12` prove an invariant of the parser (`sound`), one lemma for each state, which holds of every record that parsing gives; C70, C71 and C72 restate it without the invariant's own vocabulary.
* `L_url13` follows the parser through the states that read a base; C75 and C76 give the record of every reference, field by field, with the base as an arbitrary record.
* `L_url14` writes the record as one function of the text and the base, `url_of`, by cutting at delimiters; C77 says that the parser computes it on every text. It is the complete functional specification of `basic_parse` with UTF-8, and it names where the code differs from the URL standard: a lone slash after a non-special scheme is opaque, port 65535 and ports of more than five digits are rejected, a file URL whose host is an address runs into the assert of C41.
* `L_url15` writes what the setters of protocol, host, host name and port make of every record and every string in the same manner, and C78 says that they compute it. It names the differences from the standard: the host setter of a file URL takes the first code point twice, and a port of 65535 or of more than five digits is ignored.
  The ToASCII operation is a parameter. C70 to C72 assume that its results are ASCII, not empty and fixed by it (`to_ascii_like`); an example shows a conversion that meets this.
  C72 excludes exactly four shapes of records (`misread`), and each shape is shown to come out of the parser.

## Trusted base

* The Coq 8.16.1 kernel (including its virtual machine, used by `vm_compute`).
* Axioms: none. `Print Assumptions` is run for each property theorem; the list is kept below. (Loading the standard
  library's `ssreflect` support files, as `lia` and `List` do indirectly, brings `Coq.ssr.ssrunder` module-type
  parameters into the library list; no theorem depends on them.)
* The hand transcription from C++ to Gallina. Each definition cites its source lines; simplifications are
  stated at the definition.
* Not modelled: memory allocation failure, exception safety of element copy/move, thread interleavings
  (the library has no shared state), ICU's IDNA functions (a parameter of the URL host model), Boost, and
  the parts of the repository not named in `properties.jsonl` anchors.

<!-- generated below -->

## Status per property

Generated from `properties.jsonl`, `MANIFEST.json` and the theorem files.

* **C01 Integer serialisation round trip** — proved. 
* **C02 Positional serialisation agrees with whole serialisation** — proved. 
* **C03 Push matcher decides first match** — proved. 
* **C04 Fixed-capacity vector behaves as a bounded sequence** — proved. 
* **C05 Fixed-capacity vector: checked access and self-insertion** — partial. REFUTED as stated: at(size()) does not throw, insert(pos, v[i]) of an own element stores a shifted value; C05_self_reference_partial gives the guarded positive part.
* **C06 Fixed-capacity vector comparison is lexicographic total order** — proved. 
* **C07 UTF-8 code point conversion round trip** — proved. 
* **C08 UTF-16 code point conversion round trip** — proved. 
* **C09 String transcoding between UTF forms is lossless** — proved. 
* **C10 Newline normalisation** — partial. REFUTED as stated: a final CR is dropped, and non-ASCII code points are cut to one unit for UTF-8 output. C10_normalize_newlines is the exact result otherwise.
* **C11 Whitespace stripping and collapsing** — partial. REFUTED for non-empty all-whitespace input (undefined behaviour in strip); everything else proved, collapse without guard.
* **C12 Splitting on whitespace, commas and delimiters** — partial. REFUTED for multi-unit delimiters and for comma pieces made of whitespace only; proved under those guards, whitespace splitting without guard.
* **C13 ASCII case mapping** — proved. 
* **C14 Percent encoding round trip** — proved. 
* **C15 Percent-encode sets are nested** — proved. 
* **C16 IPv4 parse/serialise round trip** — proved. 
* **C17 IPv4 number parsing** — partial. REFUTED for octal digit 8 ('08' reads an uninitialised variable, '018' is accepted as 1) and for numbers of 2^32 or more (uninitialised); exact values and rejections proved for everything else.
* **C18 IPv6 serialise/parse round trip** — partial. REFUTED in general (0:0:1:0:2:0:0:3 comes back different); C18_roundtrip_exact gives the exact condition, C18_roundtrip_two_runs a simple sufficient one.
* **C19 IPv6 parser accepts embedded IPv4 notation** — partial. REFUTED: every embedded IPv4 form hits undefined behaviour (C19_embedded_undefined).
* **C20 Tree container refines an ordered forest** — proved. 
* **C21 Tree container never loses or shares storage** — proved. 
* **C22 Moving a subtree** — partial. REFUTED for end positions inside the moved subtree (move(r.end(), r) makes a cycle and loses the tree); all other positions proved, refusal proved for node positions.
* **C23 Copying a subtree** — partial. REFUTED when a child that is not the last has grandchildren (the next sibling's copy lands one level too deep); proved for all shapes in [copyable] and positions outside the subtree.
* **C24 Tree traversal order** — proved. 
* **C25 Tree sibling iteration is reversible** — partial. REFUTED at root level with two roots (-- at end gives the first root, -- on a root asserts, back() is front()); proved below any node and for one root.
* **C26 Trie behaves as a finite map under insertion and erasure** — proved. Stable trie: exact finite map under every history. Plain trie: exact key set under every history, exact values without erase (with erase see C29). Outside the statement, t[''] = v is shown to corrupt the trie (C26_empty_key_refuted).
* **C27 Double array well-formedness** — proved. 
* **C28 Trie enumerates keys in order** — proved. 
* **C29 Erasing a key keeps the other keys' values** — partial. REFUTED for the plain trie (erasing 'ab' sets the value of 'a' to 0); C29_plain_exact says exactly which values are lost; the stable trie is proved to keep all.
* **C30 Bulk assignment equals inserting one by one** — partial. REFUTED when the list contains the empty string (size() counts it); proved for all other lists, sorted or not, with duplicates or not.
* **C31 Atom identifiers are stable and one-to-one** — partial. REFUTED: inserting further strings changes identifiers, and the old identifier may then name another string; one-to-one correspondence at any time is proved.
* **C32 Trie image save/restore** — partial. REFUTED for 16 bit elements and for trailing data in the stream; proved for 32 bit elements, bytes, and a stream holding only the trie.
* **C33 UTF-8 decoder accepts exactly well-formed UTF-8** — proved. 
* **C34 Malformed input is replaced by U+FFFD** — partial. REFUTED: no U+FFFD is ever written (byte FF decodes to the empty string); C34_utf8_partial shows that UTF-8 keeps every character and drops every maximal ill-formed part, C34_total_partial that no decoder reports an error.
* **C35 Streaming decode is independent of chunking** — proved. 
* **C36 Single-byte encodings round trip** — proved. 
* **C37 Multi-byte legacy encodings round trip** — partial. REFUTED for Big5 (trail bytes from A1 are written but not read) and gb18030 (U+10000 is written but not read, larger code points fail an assert); the other encodings proved for all strings, these two under guards.
* **C38 UTF-16 decoder handles unpaired surrogates** — partial. REFUTED: the unit after an unpaired lead surrogate is changed (D800 0041 gives U+0141); valid input proved, C38_unpaired_partial gives the exact result.
* **C39 Encoders terminate on every input** — partial. REFUTED: ISO-2022-JP writes escape sequences for ever on a code point outside its repertoire, gb18030 fails an assert above U+10000; all other encoders proved.
* **C40 Encoding labels** — partial. REFUTED for ISO-8859-15 (its label is that of ISO-8859-14) and for labels of white space only (undefined); the lookup is proved exactly for all other labels.
* **C41 URL parser terminates within bounds** — partial. REFUTED: file://1.2.3.4/ and file://[::1]/ fail an assert, http://08/ uses an uninitialised number, an IPv4 address in an IPv6 address is undefined, and an ISO-2022-JP query may never end; for UTF-8 termination within a linear number of steps is proved for every string, base and setter, and definedness outside address hosts.
* **C42 URL component setters change only their component** — partial. REFUTED for the user name and password of URLs whose host is an address or empty (assert) and for the host of file URLs (first code point doubled); search, hash, pathname, user name and password proved exactly, and for every setter that it changes only its components.
* **C43 URL port range** — partial. REFUTED: 65535 and numbers with leading zeros of more than five digits are rejected; everything else proved exactly.
* **C44 CSS input preprocessing** — proved. 
* **C45 CSS tokeniser terminates and makes progress** — partial. REFUTED: '..5' is tokenised for ever, '#' or 'url' at the end reads past the end; C45_progress_partial, C45_terminates_partial and C45_total_partial prove everything outside one stuck form, and C45_stuck that this form never ends.
* **C46 CSS escapes** — proved. 
* **C47 HTML input stream newline normalisation** — partial. REFUTED: a CR at the end of the text is delivered together with the end, so that the tokens may differ from those of the text with LF (C47_final_refuted); proved for what the tokeniser receives in the PLAINTEXT state, and for every other text from every state (C47_newlines_any_partial).
* **C48 I/O queue end-of-queue discipline** — partial. REFUTED for prepending the end-of-queue item, as the ISO-2022-JP coders do; proved for every history of pushes, prepends of values and reads. Also shown: read(0) is undefined and peek(n) may return more than n items.
* **C49 Byte order marks** — proved. 
* **C50 CSS fallback encoding** — partial. REFUTED: utf-16 labels are not turned into UTF-8, a rule of 1025 bytes is accepted, a label of spaces is undefined; the rest proved in both directions.
* **C51 CSS numbers** — partial. REFUTED: a digit string of 2^32 or more fails an assert (3.14159265359), '++5' gives a number 0; all other numbers proved exactly, and exactly which ones assert.
* **C52 CSS strings and names** — partial. REFUTED: the identifiers '--' and '--1' are read as delimiters or numbers; strings and names otherwise proved exactly, strings and identifier scanning without guard.
* **C53 CSS urls** — partial. REFUTED: an escape makes a bad url, and the parenthesis of a quoted url is read twice; plain urls proved.
* **C54 Encoding named in a meta element** — partial. REFUTED: charset followed by white space only for a value is undefined behaviour (the label is stripped to nothing); proved for all other strings in both directions.
* **C55 HTML tokeniser is total** — partial. REFUTED: the lookup of &zwnj< and its like reads outside the table; proved with a linear bound for every text whose references are in the table.
* **C56 HTML tokeniser ends once** — partial. REFUTED: &#65; at the end gives no end-of-file token, &amp followed by CR at the end gives two; proved for all texts without numeric references, in-table names and no final CR, and for every text without a final CR that the token is the last one if it comes (C56_last_partial).
* **C57 HTML text escaping round trip** — proved. 
* **C58 HTML tags round trip** — proved. 
* **C59 HTML comments round trip** — partial. REFUTED for NUL in comments (dropped instead of replaced); proved for all other comments.
* **C60 HTML doctype round trip** — proved. 
* **C61 HTML named character references** — partial. REFUTED: some texts make the lookup read outside the table; whenever it answers the answer is proved right, and every name with a semicolon is found before any text.
* **C62 HTML numeric character references** — partial. REFUTED: the value wraps at 2^32 (&#x100000041; is A) and text after a reference is lost (&#65;b&#66;cd); the mapping of values to code points is proved.
* **C63 HTML fragment round trip** — proved. 
* **C64 HTML serialisation follows the algorithm** — partial. REFUTED: text directly below a document fails an assert, children of void elements are written; proved for all trees without these.
* **C65 HTML script text is text** — partial. REFUTED: <!--<b x> inside a script emits the script start tag again with attribute x; proved for texts where < is not followed by / or an exclamation mark.
* **C66 URLs with an authority are split at their delimiters** — proved. 
* **C67 URLs without an authority** — partial. REFUTED: a:/ is given the opaque path / (the test for text after the slash is off by one); proved for every other text.
* **C68 File URLs** — proved. 
* **C69 URL serialise/parse round trip** — partial. REFUTED: the path of a:/. is written as a:/ and read as opaque, IPv6 addresses whose zeros are compressed in the wrong place, and the host of file://c%7C/ ; proved for every record that meets the conditions stated beside the theorem, with any base.
* **C70 Repertoire of parsed URLs** — proved. 
* **C71 Structure of parsed URLs** — proved. 
* **C72 Parsing is idempotent** — partial. REFUTED: a:/. gives a:/ (opaque when read), a:/ as base with #f gives a:/#f (not opaque when read), IPv6 addresses compressed in the wrong place, and file://c%7C/x gives the drive letter form; proved for every record that is none of these four shapes.
* **C73 What the legacy decoders give** — partial. REFUTED: Big5 rejects the trail bytes A1 to FE, four-byte gb18030 sequences above U+10000 fail an assert, ISO-2022-JP cut after the second byte of an escape sequence fails an assert, and a UTF-16 unit after an unpaired high surrogate loses its high byte; with these exceptions built into the statement, every decoder is exact on every byte string.
* **C74 What the legacy encoders write** — partial. REFUTED: Shift_JIS does not pass over the places 8272 to 8835 (U+2170 gives EE EF, not FA 40), Big5 takes the first instead of the last place for six code points (U+5341 gives A2 CC, not A4 51), gb18030 writes wrong bytes for U+10000 and fails an assert above it, ISO-2022-JP never ends at a code point outside its index in the ASCII and Roman states and writes the reference inside the kanji set after a kanji; with these exceptions built into the statement, every encoder is exact on every text.
* **C75 References with a base** — proved. 
* **C76 References to files** — proved. 
* **C77 The URL parser computes what its delimiters say** — proved. 
* **C78 The URL setters compute what the delimiters say** — proved. 
* **C79 CSS component values nest** — partial. REFUTED: a block is ended by any closing token ([)a] is an empty block, a and ]); the nesting is proved exactly, and that it is the standard's exactly when no block meets a wrong closing token.
* **C80 CSS style sheets** — partial. REFUTED: a list of rules drops <!-- and --> as a style sheet does; everything else proved for every list of tokens.
* **C81 CSS declarations** — partial. REFUTED: an empty value and the value important are read out of range, an open group at the end asks for the token after the end, and text without a leading identifier gives a declaration of nothing; with these built into the statement the result is exact for every list of tokens.
* **C82 One CSS rule, one component value** — partial. REFUTED: a rule or value that the end of the text ends (@import 'a', a{, f() fails an assert; with this built into the statement the result is exact for every list of tokens.
* **C83 CSS selectors** — partial. REFUTED: *||a is not read at all, whatever follows white space in [a=b )] is ignored, and the escaped prefix \* is the one for every namespace; with these built into the grammar the longest beginning is read for every list of values (the reading of the whole also needs that no * stands alone before a bar).
* **C84 CSS selector lists** — partial. REFUTED: what follows a list of selectors is ignored, and white space before it makes it empty; lists of the standard are proved to be read whole, and the converse outside of the named cases.
* **C85 Combinators of CSS selectors** — proved. 
* **C86 What simple CSS selectors match** — partial. REFUTED: class selectors outside of quirks ignore the name, an identifier with capitals does not match itself in quirks, * without prefix reads an empty optional, [a|=v] misses equality, the empty string matches with ^= $= *=, [*|a=y] looks at the first attribute only, :root is every html element; the standard's meaning is proved in all other cases and for whole selectors.
* **C87 Queries with CSS selectors** — partial. REFUTED: a query for one that finds none reads the front of an empty vector, a query below no html element asserts, and errors give the empty list; completeness, order and uniqueness proved for every document, node and text.
* **C88 Tag trees: insert and erase** — proved. 
* **C89 Tag trees: move** — partial. REFUTED: a move to the position directly behind the node (where it already is), before itself or below itself loses the node and everything below it; that this happens always is proved, and every other move is proved exact.
* **C90 Tag trees: children and parents** — proved. 
* **C91 Tag trees: tags in order** — proved. 
* **C92 Tag trees: characters** — partial. REFUTED: an empty text node is read as one null character, and going back into it gives the index 2^32-1, where reading is undefined; proved for all trees without empty texts.
* **C93 HTML: a written document is read back** — partial. REFUTED: a button in a p makes the parser empty the stack of open elements, and SVG elements with capitals in their names come back in lower case. Proved for ordinary documents (C93_ordinary_partial): comments, a document type, a head and a body whose elements may stand where they stand, in every size and nesting.
* **C94 HTML tree construction: defined for every text** — partial. REFUTED: <p><button> empties the stack, and with three or more elements that are not formatting elements between the formatting element and the furthest block the adoption agency uses an erased entry. Proved (C94_tokens_partial, C94_text_partial, C94_any_partial) for all tokens, in any order, except start tags of template, svg, math, frameset, button, a and nobr and end tags of formatting elements.
* **C95 HTML tree construction: leaving foreign content** — partial. REFUTED: one element too many is taken from the stack, so that in <svg><p> the p becomes a sibling of body; font is tested with attribute names in upper case. Proved: if the element below the current one is foreign and no integration point, exactly the elements of the standard are closed.
* **C96 HTML tree construction: the case of SVG names** — partial. REFUTED: the names of SVG elements stay in lower case, and the attributes of svg itself too; foreignobject is never an integration point. Proved: every other start tag in foreign content makes the element of the standard, with its adjusted attributes; math too, and svg without attributes that have capitals.
* **C97 HTML tree construction: prefixes of attributes** — partial. REFUTED: prefixes stay in the reused token, an HTML attribute after <svg xlink:href=a> has the prefix xlink. Proved: if no start tag has an attribute that gets a prefix, no attribute of the tree has one.
* **C98 HTML tree construction: Noah's Ark clause** — partial. REFUTED in the sense of the standard: names and values are not compared; the bound of three in the sense of the comparison used is proved for every list.
* **C99 HTML tree construction: list items** — partial. REFUTED: the loop ends after the current node. C99_current_partial: an li that is the current node is closed, in every state; C99_below_never: below a p, address or div it never is, and below any other element of HTML neither (C99_other_never, without an open p in button scope).
* **C100 HTML tree construction: a further body start tag** — partial. REFUTED for body: the test is the wrong way round, nothing is ever added (C100_body_never: for every state with the body as second entry). C100_html_partial: the html half holds for every state without an open template.
* **C101 HTML tree construction: templates** — partial. REFUTED: a cell directly in a template leaves it (C101_cell: where a cell goes, for every stack of elements of HTML above the innermost tr, table or html). C101_other_partial: other start tags are handled as in the body with the template still open.
* **C102 HTML tree construction: elements in scope** — partial. REFUTED only for the element factorial of SVG, which is in the list of the default scope; otherwise proved for every stack and name, and that a walk that does not end is an assertion.
* **C103 HTML tree construction: resetting the insertion mode** — partial. REFUTED for fragments, where a null pointer is used; proved for every other state.
* **C104 HTML tree construction: implied end tags** — proved. 
* **C105 HTML tree construction: select in a table** — partial. REFUTED: the end tag is ignored, because the table is looked for in select scope (C105_end_ignored: for every state with a select, options in it, open). C105_start_partial: the start tags close the select and go to the mode of the part of the table around it.
* **C106 HTML: CDATA sections** — partial. REFUTED: the test is the wrong way round. Proved: the test is true exactly where the innermost open element is one of HTML; where it is true every section is read as the text in it, where not as a comment up to the first >.
* **C107 HTML tree construction: the shape of every tree** — partial. Proved for all tokens, in any order, except start tags of template, svg, math, frameset, button, a and nobr and end tags of formatting elements; for every text without a final CR for which the tokeniser delivers the end, if none of these tags is spelled in it (C107_any_partial).
* **C108 HTML tokeniser: the tags that are emitted** — proved. 
* **C109 HTML tokeniser: tags in scripts** — partial. REFUTED: <script><!--<b x> emits the script start tag again, with the attribute x: the state goes to before_attribute_name_state instead of script_data_escaped_state. Proved for every text without <!-- behind the script start tag: only characters come before an end tag of the same name.
* **C110 Trie over wide labels: a finite map** — proved. 
* **C111 Trie over wide labels: search and lookup count whole labels** — proved. 
* **C112 Trie over wide labels: iteration yields the keys in order** — partial. REFUTED for eight byte labels, where operator* shifts an int by 32 and more; proved for widths up to four bytes, signed and unsigned. Negative labels come last.
* **C113 Trie over wide labels: assign replaces the contents** — partial. REFUTED: the branch for wide labels does not clear; proved that it adds the strings, except the empty one, to what is there.
* **C114 Trie iterator over wide labels: operator[]** — partial. REFUTED: for a label that is not there it may read past the array; proved that what it gives is right, and that it reads outside only if the label is not there.
* **C115 Every insertion mode follows the standard** — partial. Proved for every mode, token and state with only HTML elements open, except for the start tags body, frameset, li, button, a, nobr and svg in the states in which the defects C94, C96, C99 and C100 show (odd_start, L_dom30.v) and corners of tables, dd, dt and select in table (departs).
* **C116 Insertion puts nodes in the appropriate place** — partial. REFUTED: with a template but no table open, misplaced text goes to the html element (<template><tbody>x); proved otherwise.
* **C117 End tags of formatting elements: the adoption agency** — partial. Proved with the furthest block and the inner loop for every state that tree construction reaches with only elements of HTML open, as far as the algorithm ends without the erased bookmark of C94 (C117_reached_partial); with elements of foreign content open the scopes differ (C102).
* **C118 The dispatcher: insertion mode or foreign content** — partial. REFUTED: the test for annotation-xml ignores the namespace; proved for every other state.
* **C119 The nodes of tree construction are a tree** — proved. 
* **C120 Elements without content are empty** — proved. 
* **C121 CSS tokens as in the standard** — partial. REFUTED: a backslash at the end of the text is a delimiter; proved for every text without one, except where the defects of C45, C51, C52 and C53 show (Departs, L_css6.v: a lone number sign, a sign or full stop before a number it does not belong to, two hyphens, url at the end, quoted or escaped urls, numbers of 2^32 or more).
* **C122 No element is open twice** — proved. 
* **C123 Atoms of HTML compare as their strings** — proved. 
* **C124 Attributes found by name** — proved. 
* **C125 Elements compare** — partial. REFUTED: names, namespaces and values are not compared, and with repeated attributes equality is not symmetric; what it computes is proved, and that without repeated attributes it is equality of the sets of their names.
* **C126 HTML tokeniser states as in the standard** — partial. REFUTED in four places, and proved that there are no others: U+0000 in a comment is emitted as a character, a tag in an escaped script leaves the script, and hexadecimal and decimal numbers are taken modulo 2^32. Every other step of every state is that of the standard; whole texts without U+0000, scripts, numeric references and references without semicolon are read as the standard reads them.
* **C127 No element has two attributes of the same name** — partial. REFUTED: a prefix left in the token makes the attribute of a further html tag another one (<html a=b><svg xlink:href=x></svg><html a=c>). With the prefix counted the attributes of every element differ, for every text (C127_text_partial); without attributes that get a prefix the property holds for every text (C127_plain_partial).

## Refutations

Each holds a concrete witness checked by `vm_compute`; the comment above the theorem says what goes wrong.

* `C05_at_refuted` (P_static_vector.v)
* `C05_self_insert_refuted` (P_static_vector.v)
* `C100_body_refuted` (P_dom.v)
* `C101_template_refuted` (P_dom.v)
* `C102_factorial_refuted` (P_dom.v)
* `C103_fragment_refuted` (P_dom.v)
* `C105_select_refuted` (P_dom.v)
* `C106_cdata_refuted` (P_dom.v)
* `C109_script_refuted` (P_html2.v)
* `C10_non_ascii_refuted` (P_infra.v)
* `C10_trailing_cr_refuted` (P_infra.v)
* `C112_refuted` (P_trie2.v)
* `C113_refuted` (P_trie2.v)
* `C114_refuted` (P_trie2.v)
* `C116_place_refuted` (P_dom4.v)
* `C118_dispatch_refuted` (P_dom4.v)
* `C11_all_whitespace_refuted` (P_infra.v)
* `C121_backslash_refuted` (P_css2.v)
* `C125_refuted` (P_atom.v)
* `C126_decimal_refuted` (P_html4.v)
* `C126_null_refuted` (P_html4.v)
* `C126_number_refuted` (P_html4.v)
* `C126_script_refuted` (P_html4.v)
* `C127_name_refuted` (P_dom8.v)
* `C12_blank_piece_refuted` (P_infra.v)
* `C12_wide_delimiter_refuted` (P_infra.v)
* `C17_octal_8_refuted` (P_ip.v)
* `C17_octal_digit_refuted` (P_ip.v)
* `C17_overflow_refuted` (P_ip.v)
* `C18_roundtrip_refuted` (P_ip.v)
* `C19_embedded_refuted` (P_ip.v)
* `C22_end_inside_refuted` (P_tree.v)
* `C23_copy_refuted` (P_tree.v)
* `C25_roots_refuted` (P_tree.v)
* `C26_empty_key_refuted` (P_trie.v)
* `C29_plain_refuted` (P_trie.v)
* `C30_refuted` (P_trie.v)
* `C31_stability_refuted` (P_trie.v)
* `C32_refuted` (P_trie.v)
* `C34_refuted` (P_encoding.v)
* `C37_refuted` (P_encoding.v)
* `C38_refuted` (P_encoding.v)
* `C39_gb18030_refuted` (P_encoding.v)
* `C39_iso_2022_jp_ascii_refuted` (P_encoding.v)
* `C39_iso_2022_jp_refuted` (P_encoding.v)
* `C40_refuted` (P_encoding.v)
* `C41_embedded_refuted` (P_url.v)
* `C41_file_ipv4_refuted` (P_url.v)
* `C41_file_ipv6_refuted` (P_url.v)
* `C41_octal_refuted` (P_url.v)
* `C41_query_encoding_refuted` (P_url.v)
* `C42_file_host_refuted` (P_url.v)
* `C42_username_empty_host_refuted` (P_url.v)
* `C42_username_refuted` (P_url.v)
* `C43_65535_refuted` (P_url.v)
* `C43_zeros_refuted` (P_url.v)
* `C45_end_refuted` (P_css.v)
* `C45_refuted` (P_css.v)
* `C47_final_refuted` (P_html3.v)
* `C48_refuted` (P_encoding.v)
* `C50_refuted` (P_css.v)
* `C51_refuted` (P_css.v)
* `C51_sign_refuted` (P_css.v)
* `C52_refuted` (P_css.v)
* `C53_refuted` (P_css.v)
* `C54_meta_charset_refuted` (P_html.v)
* `C55_tokenizer_total_refuted` (P_html.v)
* `C56_eof_missing_refuted` (P_html.v)
* `C56_eof_twice_refuted` (P_html.v)
* `C59_comment_null_refuted` (P_html.v)
* `C61_lookup_total_refuted` (P_html.v)
* `C62_lost_refuted` (P_html.v)
* `C62_overflow_refuted` (P_html.v)
* `C64_text_in_fragment_refuted` (P_html.v)
* `C64_void_children_refuted` (P_html.v)
* `C65_second_start_refuted` (P_html.v)
* `C67_lone_slash_refuted` (P_url2.v)
* `C69_drive_refuted` (P_url2.v)
* `C69_ipv6_refuted` (P_url2.v)
* `C69_lone_slash_refuted` (P_url2.v)
* `C72_opaque_slash_refuted` (P_url3.v)
* `C72_reparse_refuted` (P_url3.v)
* `C73_decoders_refuted` (P_decoders.v)
* `C74_big5_refuted` (P_encoders.v)
* `C74_gb18030_refuted` (P_encoders.v)
* `C74_iso_2022_jp_refuted` (P_encoders.v)
* `C74_shift_jis_refuted` (P_encoders.v)
* `C79_refuted` (P_cssp.v)
* `C80_list_of_rules_refuted` (P_cssp.v)
* `C81_none_refuted` (P_cssp.v)
* `C81_open_refuted` (P_cssp.v)
* `C81_refuted` (P_cssp.v)
* `C82_refuted` (P_cssp.v)
* `C83_attribute_refuted` (P_sel.v)
* `C83_column_refuted` (P_sel.v)
* `C83_prefix_refuted` (P_sel.v)
* `C84_rest_refuted` (P_sel.v)
* `C84_space_refuted` (P_sel.v)
* `C86_any_refuted` (P_sel2.v)
* `C86_class_refuted` (P_sel2.v)
* `C86_first_refuted` (P_sel2.v)
* `C86_id_refuted` (P_sel2.v)
* `C86_root_refuted` (P_sel2.v)
* `C86_value_refuted` (P_sel2.v)
* `C87_error_refuted` (P_sel2.v)
* `C87_none_refuted` (P_sel2.v)
* `C87_root_refuted` (P_sel2.v)
* `C89_itself_refuted` (P_tag.v)
* `C89_move_refuted` (P_tag.v)
* `C92_empty_refuted` (P_tag.v)
* `C93_written_refuted` (P_dom.v)
* `C94_defined_refuted` (P_dom.v)
* `C95_breakout_refuted` (P_dom.v)
* `C96_case_refuted` (P_dom.v)
* `C97_prefix_refuted` (P_dom.v)
* `C98_noah_refuted` (P_dom.v)
* `C99_li_refuted` (P_dom.v)

## Print Assumptions

`Print Assumptions` reports "Closed under the global context" (no axioms at all) for every one of these:

`C01_roundtrip_bytes` `C01_roundtrip_signed` `C01_roundtrip_unsigned` `C01_serialize_bytes` `C01_short_input` `C02_deserialize_iterator` `C02_positional` `C02_serialize_iterator` `C03_answer` `C03_run` `C04_history` `C04_observers` `C05_at_refuted` `C05_self_insert_refuted` `C05_self_reference_partial` `C06_compare` `C06_total_order` `C07_utf8_prefix_free` `C07_utf8_roundtrip` `C07_utf8_write` `C08_utf16_roundtrip` `C08_utf16_write` `C09_cast_concat` `C09_cast_lossless` `C100_body_never` `C100_body_refuted` `C100_html_partial` `C101_cell` `C101_other_partial` `C101_template_refuted` `C102_factorial_refuted` `C102_in_scope` `C102_lists` `C102_no_end` `C103_fragment_refuted` `C103_reset` `C104_implied` `C104_thoroughly` `C105_end_ignored` `C105_select_refuted` `C105_start_partial` `C106_cdata_refuted` `C106_comment_partial` `C106_section_partial` `C106_told` `C107_any_partial` `C107_text_partial` `C107_tokens_partial` `C108_tags` `C109_script_partial` `C109_script_refuted` `C10_non_ascii_refuted` `C10_normalize_newlines` `C10_spec_no_cr` `C10_strip_newlines` `C10_trailing_cr_refuted` `C110_plain_history` `C110_plain_values` `C110_stable_history` `C111_lookup` `C111_search` `C112_order` `C112_plain` `C112_refuted` `C112_stable` `C113_adds_partial` `C113_refuted` `C114_child_partial` `C114_refuted` `C115_modes_partial` `C116_attrs` `C116_char` `C116_comment` `C116_element` `C116_insert` `C116_insert_bad` `C116_place_partial` `C116_place_refuted` `C116_place_unique` `C116_reached` `C116_reconstruct` `C117_agency_partial` `C117_reached_partial` `C118_dispatch_partial` `C118_dispatch_refuted` `C118_foreign_char` `C118_foreign_end` `C119_acyclic` `C119_forest` `C119_text` `C11_all_whitespace_refuted` `C11_collapse` `C11_strip` `C11_strip_idempotent` `C120_empty` `C120_text` `C121_backslash_refuted` `C121_text_partial` `C121_token_partial` `C122_once` `C123_compare` `C123_tables` `C124_by_name` `C124_called` `C124_find` `C125_compare_partial` `C125_refuted` `C125_unique_partial` `C126_decimal_refuted` `C126_null_refuted` `C126_number_refuted` `C126_one` `C126_script_free_partial` `C126_script_refuted` `C126_states_partial` `C126_steps_partial` `C126_text_partial` `C127_name_refuted` `C127_plain_partial` `C127_text_partial` `C127_tokens_partial` `C12_blank_piece_refuted` `C12_commas` `C12_split_whitespace` `C12_strict_split` `C12_wide_delimiter_refuted` `C13_bytes` `C13_case` `C13_case_cancel` `C13_case_changes` `C13_isomorphic` `C13_match` `C14_characters` `C14_decode_total` `C14_encode_byte` `C14_injective` `C14_roundtrip` `C14_roundtrip_no_percent` `C15_nested` `C15_sets` `C16_roundtrip` `C17_decimal` `C17_hexadecimal` `C17_octal` `C17_octal_8_refuted` `C17_octal_digit_refuted` `C17_overflow_refuted` `C17_reject_decimal` `C17_reject_hexadecimal` `C17_reject_octal` `C18_roundtrip_carry_free` `C18_roundtrip_exact` `C18_roundtrip_refuted` `C18_roundtrip_two_runs` `C18_text` `C19_embedded_refuted` `C19_embedded_undefined` `C20_history` `C20_iterators_stable` `C20_view_unique` `C21_no_growth` `C21_reuse` `C21_slots` `C22_end_inside_refuted` `C22_end_never_refused` `C22_move_partial` `C22_refused` `C23_copy_partial` `C23_copy_refuted` `C24_once` `C24_traversals` `C25_one_root_partial` `C25_roots_refuted` `C25_siblings_partial` `C26_empty_key_refuted` `C26_growth` `C26_plain_history` `C26_plain_values` `C26_stable_history` `C27_well_formed` `C28_no_repetition` `C28_plain` `C28_root` `C28_stable` `C29_plain_exact` `C29_plain_refuted` `C29_stable` `C30_assign` `C30_empty_string` `C30_refuted` `C31_ids_partial` `C31_stability_refuted` `C32_image_partial` `C32_refuted` `C33_encode` `C33_fatal` `C34_refuted` `C34_total_partial` `C34_utf8_partial` `C35_chunking` `C35_reuse` `C36_decode_encode` `C36_encode_decode` `C36_names` `C37_big5_partial` `C37_euc_jp` `C37_euc_kr` `C37_gb18030_partial` `C37_gb18030_total_partial` `C37_gbk` `C37_iso_2022_jp` `C37_refuted` `C37_shift_jis` `C37_user_defined` `C38_refuted` `C38_unpaired_partial` `C38_valid` `C39_encode_partial` `C39_gb18030_refuted` `C39_iso_2022_jp_ascii_refuted` `C39_iso_2022_jp_refuted` `C40_distinct` `C40_label_partial` `C40_lookup` `C40_refuted` `C41_embedded_refuted` `C41_file_ipv4_refuted` `C41_file_ipv6_refuted` `C41_octal_refuted` `C41_parse_defined_partial` `C41_parse_terminates` `C41_query_encoding_refuted` `C41_setter_terminates` `C42_credentials_kept` `C42_file_host_refuted` `C42_hash` `C42_host_frame` `C42_hostname_frame` `C42_password` `C42_pathname` `C42_port_frame` `C42_protocol_frame` `C42_search` `C42_username` `C42_username_empty_host_refuted` `C42_username_refuted` `C43_65535_refuted` `C43_accepted` `C43_rejected` `C43_zeros_refuted` `C44_filter` `C44_idempotent` `C45_end_refuted` `C45_progress_partial` `C45_refuted` `C45_stuck` `C45_terminates_partial` `C45_total_partial` `C46_escape` `C46_scalar` `C47_final_refuted` `C47_newlines_any_partial` `C47_newlines_partial` `C47_plaintext` `C48_history` `C48_refuted` `C49_bom` `C49_no_bom` `C49_text_decoder` `C49_utf8` `C50_given` `C50_label_partial` `C50_only_partial` `C50_refuted` `C51_assert` `C51_number_partial` `C51_refuted` `C51_sign_refuted` `C51_significand` `C52_identifier` `C52_names_partial` `C52_refuted` `C52_string` `C52_string_spelled` `C53_refuted` `C53_url_partial` `C54_meta_charset_partial` `C54_meta_charset_refuted` `C55_tokenizer_total_partial` `C55_tokenizer_total_refuted` `C56_eof_missing_refuted` `C56_eof_once_partial` `C56_eof_twice_refuted` `C56_last_partial` `C57_escape` `C57_text_round_trip` `C58_end_tag_round_trip` `C58_start_tag_round_trip` `C59_comment_null_refuted` `C59_comment_round_trip` `C60_doctype_round_trip` `C61_every_name` `C61_every_name_alone` `C61_longest_name_partial` `C61_lookup_total_refuted` `C61_references_in_text` `C62_code_partial` `C62_lost_refuted` `C62_overflow_refuted` `C63_tree_round_trip` `C64_serialize_partial` `C64_text_in_fragment_refuted` `C64_void_children_refuted` `C65_script_partial` `C65_second_start_refuted` `C66_other` `C66_special` `C67_lone_slash_refuted` `C67_opaque` `C67_path_partial` `C68_file` `C69_drive_refuted` `C69_ipv6_refuted` `C69_lone_slash_refuted` `C69_written_read_partial` `C70_repertoire` `C71_structure` `C72_opaque_slash_refuted` `C72_reparse_partial` `C72_reparse_refuted` `C73_big5_partial` `C73_decoders_refuted` `C73_euc_jp` `C73_euc_kr` `C73_gb18030_partial` `C73_iso_2022_jp_partial` `C73_shift_jis` `C73_single` `C73_user_defined` `C73_utf16_partial` `C74_big5_partial` `C74_big5_refuted` `C74_euc_jp` `C74_euc_kr` `C74_gb18030_partial` `C74_gb18030_refuted` `C74_gbk` `C74_iso_2022_jp_partial` `C74_iso_2022_jp_refuted` `C74_shift_jis_partial` `C74_shift_jis_refuted` `C74_single` `C74_user_defined` `C75_authority` `C75_no_base` `C75_opaque_base` `C75_path` `C75_root` `C75_same_path` `C76_alone` `C76_host` `C76_path` `C76_root` `C76_same_path` `C77_defined` `C77_parse` `C78_defined` `C78_host` `C78_hostname` `C78_port` `C78_protocol` `C79_again` `C79_commas` `C79_refuted` `C79_standard_partial` `C79_values` `C79_written` `C80_blocks` `C80_list_of_rules_refuted` `C80_stylesheet` `C80_text` `C80_two` `C81_declaration` `C81_declarations` `C81_none_refuted` `C81_open_refuted` `C81_refuted` `C81_value` `C82_refuted` `C82_rule` `C82_value` `C83_attribute_refuted` `C83_column_refuted` `C83_prefix_refuted` `C83_reads` `C83_sound` `C83_unambiguous` `C84_lists` `C84_rest_refuted` `C84_sound_partial` `C84_space_refuted` `C84_standard_partial` `C84_text` `C84_whole_partial` `C85_combinators` `C85_compounds` `C85_lists` `C86_any_refuted` `C86_class_refuted` `C86_complex_partial` `C86_elements` `C86_first_refuted` `C86_id_refuted` `C86_root_refuted` `C86_simple_partial` `C86_value_refuted` `C87_all` `C87_error_refuted` `C87_first` `C87_none_refuted` `C87_root_refuted` `C88_empty` `C88_erase` `C88_insert` `C88_unique` `C89_itself_refuted` `C89_lost` `C89_move_partial` `C89_move_refuted` `C90_ends` `C90_parent` `C90_walk` `C91_pairs` `C91_serial` `C91_size` `C92_all_partial` `C92_back_partial` `C92_empty_refuted` `C92_from_partial` `C93_ordinary_partial` `C93_written_refuted` `C94_any_partial` `C94_defined_refuted` `C94_text_partial` `C94_tokens_partial` `C95_breakout_partial` `C95_breakout_refuted` `C96_case_refuted` `C96_foreign_partial` `C96_root_partial` `C97_prefix_partial` `C97_prefix_refuted` `C98_at_most_three` `C98_noah_refuted` `C99_below_never` `C99_current_partial` `C99_li_refuted` `C99_other_never` 
