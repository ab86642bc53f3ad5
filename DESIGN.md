# Formal model of srcML in Rocq (Coq 8.16.1)

## Layout
`rocq/theories/`
* `Base.v` – bytes, outcome type (`Ok`/`UB`), list helpers.
* `*_Model.v` – small Gallina functions modelling the C++ code, each with the file and lines of /repo
  it models. No proofs of properties.
* `*_Spec.v` – short independent specifications, written without the model's helpers.
* `*_Proofs*.v`, `Parser_*`, `Source_*`, … – lemmas.
* `Properties_*.v` – the property theorems only: `Theorem C.. : … Proof. exact lemma. Qed.`,
  `Print Assumptions`, and an `Example` beside each showing that a non-trivial case meets the hypotheses.
* `tools/order.txt` lists the files in build order; `tools/mkproj.sh` and `tools/manifest.py` write
  `_CoqProject` and `MANIFEST.json` from it and from `tools/notes.json`.

## Conventions
* Undefined behaviour in the C++ (out-of-range read, null dereference, use after free, overflow of a
  buffer) is a distinct outcome (`UB`), never a default value.
* Where the code violates the stated property, the theorem about the code is named `.._refuted` with a
  concrete witness, and the strongest true statement found is proved, as `.._partial` if it is a part
  of the property.
* Loops are structural recursion, or explicit fuel whose exhaustion the theorems exclude.
* Concurrency: one labelled transition per atomic section (mutex-protected region, or a single
  unprotected access), condition variables with an explicit set of waiters, spurious wake-ups as
  transitions; theorems quantify over all finite interleavings.
* External components (iconv, SHA-1, libxml2, libarchive, libxslt, the ANTLR run time) are parameters of the
  functions – arguments of every theorem, not axioms – or event lists.

## Trusted base
* Coq's kernel (8.16.1) with `vm_compute`. No axioms: `Print Assumptions` under every property theorem
  says "Closed under the global context". (The checker's list of library axioms shows only the fields of a
  module type in the standard library's `Coq.ssr.ssrunder`, on which no theorem depends.)
* The reading of the C++ code: the model is written by hand from the text, no code was run. Each definition
  cites what it models; the mutation log `seeded/LOG.jsonl` shows which edits of the model break which theorems.
* The assumptions about external components, named in the header comment of each model file.
* The statements: `*_Spec.v` and the theorem statements in `Properties_*.v`.

## Models
| Files | Code | Simplified or left out |
|----|----|----|
| `Reader_Model` | parser/UTF8CharBuffer.{hpp,cpp} | iconv a record of functions; read callbacks a finite list of results |
| `Text_Model` | srcMLOutput.cpp text, escapes and positions; unit_utilities.cpp; srcml_unit.cpp unparse and line count; srcml_reader_handler attribute update; srcDiff revision extraction | texts of 2^31 bytes and more |
| `Api_Model` | srcml_archive.cpp, srcml_unit.cpp, libsrcml.cpp setters and getters, Namespace.cpp, srcml_macros, language_extension_registry, language decision, clones | – |
| `Writer_Model` | srcMLOutput.cpp start/end unit, namespaces, options; srcml_translator.cpp; by-element writing; inner/outer/fragment srcML | the XML text writer as its documented output |
| `Archive_Model` | srcml_archive.cpp:875-1345: open, write, read, close, free | the reader (Handoff_Model) as the list of its units |
| `Parser_Model` | StreamMLParser.hpp, ModeStack.hpp, StreamParser, TokenParser: buffers, modes, look-ahead, preprocessor redirection, RAII helpers, exceptions | grammar rules as arbitrary programs of these operations; counters of a mode |
| `Queue_Model, Limiter_Model` | client ParseQueue, WriteQueue, srcml_consume, create_srcml's end; OpenFileLimiter | thread pool as FIFO; positions beyond int |
| `Handoff_Model, Sax_Model` | srcml_sax2_reader.cpp, srcml_reader_handler.hpp, sax2_srcsax_handler.cpp | libxml2 as an event list with buffer positions; unsynchronized flags atomic |
| `Input_Model` | client src_prefix, srcml_input_src, src_archive, src_input_text, src_input_filelist, names in consume/write/filesystem output | what stat says is a parameter |
| `Pretty_Model` | client srcml_pretty.cpp, queries of srcml_display_metadata.cpp | reading the archive is a record |
| `Root_Model` | srcml_reader_handler.hpp startDocument/startRoot/metaTag | atoi beyond int |
| `Source_Model` | unit_utilities.cpp extract_src | unreachable revision branch |
| `Reuse_Model` | srcml_unit.cpp:288-545, several parses of and questions to one unit object | parser, digest, encoding detection as an environment |
| `Thread_Model` | thread_local variables of srcMLOutput.cpp:53, 504-506, 538 | – |
| `Shared_Model` | process-wide variables of sax2_srcsax_handler.cpp:53-55 | start_document sets the three at once; dictionaries are not freed meanwhile |
| `Lexer_Model` | TextLexer.g, OperatorLexer.g, KeywordLexer.g, CommentTextLexer.g, translator's setup of the selector | ANTLR 2.7's scanning semantics is stated in the file (k = 1, greedy); SRCML_OPTION_LINE off; columns unbounded |
| `Transform_Model` | srcml_transform.cpp, xpathTransformation.cpp, xsltTransformation.cpp, relaxngTransformation.cpp | libxml2 and libxslt as functions (engines) with the facts of `proper`; namespace nodes as results, extension functions and the dead form_simple_xpath are not modelled; wrapping the root together with other results is left as undefined |
| `Cond_Model` | srcMLParser.g: eol_post, cppmode_cleanup, cpp_condition, else_handling's part | sizes of the mode stack and places of look-ahead are arbitrary; look-ahead does not start or end inside skipped text (it is passed at once) |
| `Steps_Model` | srcml.cpp:86-157, 178-232, srcml_execute.cpp:33-84, and which steps close their output | what a step computes is arbitrary; reads and writes are of one byte; failures to open are left out |
| `Extract_Model` | create_src.cpp:87-232, src_output_filesystem.cpp, src_output_libarchive.cpp, src_archive.cpp:70-106 | units an archive gives are a list; encoders are a function; failed writes left out; paths are compared as text |
| `Create_Model` | create_srcml.cpp, srcml_input_srcml.cpp, src_input_text.cpp, src_input_file.cpp, src_input_filelist.cpp, src_input_filesystem.cpp, src_input_libarchive.cpp, srcml_write.cpp; srcml_archive.cpp:108-133 | the worker threads are in the requests; a call is atomic; --to-dir, --cat, --parser-test, messages left out; output to a file |
| `Whole_Spec` | srcMLOutput.cpp, srcml_translator.cpp (through Writer_Model, Archive_Model) | specification: XML start tags, character data, namespaces as relations (Root_Spec); comments, CDATA, DTD are not written |
| `Back_Spec` | libxml2's SAX2 reports (trusted), srcml_reader_handler.hpp, unit_utilities.cpp (through Sax_Model, Text_Model) | specification: reports of tags, character data in pieces, ends; blanks of up to 250 characters come in one piece |
| `Global_Model` | libsrcml.cpp:75-460, srcml_unit.cpp:556-570, 667-725, srcml_types.hpp:266-281 | the file system as functions: contents, creatability, what reading one unit gives; encoders of libxml2 abstract |
| `Places_Model` | StreamMLParser.hpp:203-541, 680-690, 872-886, srcMLOutput.cpp:497-530 | positions as unbounded numbers given by a function of the bytes read; the calls of a parse as a relation |
| `Todir_Model` | srcml_write.cpp:66-101, srcml_utilities.hpp:31-52, srcml_archive.cpp:139-164, create_srcml.cpp:102-365 | one call is atomic; the directories made for a file, --cat and --parser-test are left out |
| `Download_Model` | input_curl.cpp:41-163, srcml_pipe.cpp:35-68, create_srcml.cpp:58, 95 | the pipe has room for a number of bytes that one write may overrun; a refused input does not end the program; decompression stages are left out |
| `Ptest_Model` | ParserTest.cpp:40-232, ParserTest.hpp:45-56 | unparsing and parsing again are given; setprecision(2) of a percentage is a parameter; counters do not overflow; the loop at 139-146, which moves invalid iterators whose values are not used, is left out |
| `Cat_Model` | srcml_write.cpp:163-212, create_srcml.cpp:350-361, srcml_archive.cpp:140-163 | results of transformations with --cat are not modelled; sizes are below 2^31; the archive is closed at the end |
| `Trace_Model` | TraceLog.cpp:30-76, TraceLog.hpp:46-57, srcml_write.cpp:44-63 and 214-239, create_src.cpp:93-104, src_output_filesystem.cpp:29-67 | only what the log itself writes, without --debug, results of transformations and --parser-test; counts are below 2^31; char is taken modulo 256 |

## Properties
How each is modelled and proved. "refuted" means a theorem `.._refuted` about the code as it is.

| Id | Model | Proof | Status |
|----|----|----|----|
| C01 | `readChars`/`getChar` as a state machine over a list of read results | induction over the read results against a specification on the whole input | proved: every byte-wise encoding, both routes, every splitting; multibyte encodings are C04 |
| C02 | hash updates accumulated in the same model | same induction | proved: all of it |
| C03 | first-read branch with out-of-range access as `UB` | case analysis; refutations | partial: refuted: first read exactly a UTF-8 mark (out-of-range access), mark split over reads, UTF-32LE mark, latin-1 declared with UTF-8 mark; proved otherwise |
| C04 | iconv as a UTF-8 decoder with incomplete-sequence error | refutation; positive when no character is split | partial: refuted: a character split over reads ends the input; proved when reads end between characters |
| C05 | `processText` (fast path, `strpbrk` at NUL, slow path) | unescape∘escape = id by induction | partial: proved for NUL-free text; refuted for text with a NUL byte |
| C06 | `snprintf "0x%02x"` and `strtol` as functions | all byte values, both signednesses | proved: all 256 bytes, both char signednesses |
| C07 | `positoa` with its 16-byte buffer and index | strong induction over the value | proved: all of it |
| C08 | token buffers, skip buffers, redirected preprocessor buffers, lexer stream, arbitrary programs | invariant: delivered ++ buffered ++ unread = input | partial: token text proved for every program and every input; the document written proved unless a statement is cancelled against a wrong token or an exception leaves a macro call; both refuted otherwise |
| C09 | mode stack with per-mode open elements | nesting invariant over the action list with logged faults | partial: proved for all runs without a logged fault; balance also with comment and outer faults; each other fault refuted by a run |
| C10 | mode-stack queries and unwinding loops | invariants on reachable stacks | partial: queries and unwinding for every reachable stack; refuted for sets of modes spread over states and for modes hidden by clearMode |
| C11 | registry vector, reverse search | refinement to a finite map | proved: all of it |
| C12 | option word arithmetic | refinement to bit sets over call histories | partial: public options proved for all histories; solitary/hash proved for histories without set_options and refuted with it |
| C13 | vector of macros | refinement to an ordered map | partial: proved for positions below 2^63; refuted at 2^63, where the index wraps |
| C14 | namespace vector | refinement to an ordered map | partial: proved except get_namespace_prefix at position = size, an out-of-range read (refuted) |
| C15 | namespace merge | find/uris/flags of the merge | proved: also shown: flags offered for a URI whose prefix the user changed are dropped |
| C16 | URI comparison | byte-string reasoning | proved: an unprefixed suffix also compares equal, as the code has it |
| C17 | unit/archive records with setters | get/set laws over call histories | partial: proved for every setter but set_processing_instruction, which dereferences a null argument (refuted) |
| C18 | `parse_internal` language decision | case analysis against a priority specification | proved: an unknown unit language is not replaced by the archive's (shown) |
| C19 | unparse loop | induction | partial: proved for all texts; the memory route is refuted for texts with a NUL byte |
| C20 | line count in the writer, SAX callbacks and reader | induction; invariants of C39 and C01 | partial: proved for written units, for documents srcML generates, for archive units read and for the count kept while the source is read; refuted for CDATA sections, for the lines before the first element of a lone unit and for the reader's count of an empty source |
| C21 | offset arithmetic over the output string | slicing lemmas against a tag specification | partial: exact for every parsed or by-element unit whose archive declares namespaces; outer form for units where no other value contains ' url='; both exceptions refuted |
| C22 | translator state machine | structure theorem for proper histories; refutations for the rest | partial: all histories of proper calls; the improper ones (over-closing, attributes on the unit, empty names, quoted constants, refused namespaced attribute) are refuted one by one |
| C23 | archive writer | exact document for every history | partial: exact documents for every history in which nothing was written before, all options; a solitary archive with two units or none is refuted |
| C24 | archive state machine | refusal and preservation over histories | partial: proved for units in all histories; refuted: strings on an unopened archive, a file that could not be created |
| C25 | scheduler, pool and writer as a transition system | invariants and a termination measure | partial: all interleavings, any inputs and failures, at least one parsing thread; refuted with -j 0 (nothing written, or stuck) and when a parse reports an invalid argument (the process exits with earlier inputs unwritten) |
| C26 | limiter transition system | invariant; deadlock refutation of its use | partial: all interleavings of any threads: at most 201 open (the configured 200 is exceeded by one: refuted), back to zero, never stuck for threads closing before opening the next; the client's use with --to-dir can deadlock (refuted) |
| C27 | reader hand-off transition system | invariants, progress; refutations by runs | partial: proved for all interleavings without spurious wake-ups, whole archives and lone units (no wait without end) and malformed archives (order and content); refuted: lost wake-up in malformed documents, documents whose root is not a unit, spurious wake-ups |
| C28 | `extract_revision` scanner | against a tree semantics of srcDiff | partial: exact for fragments ending with a tag; refuted for trailing text (inner srcML), empty diff elements |
| C29 | string function | list reasoning | proved: all of it |
| C30 | `unit_update_attributes` | fold against a map specification | proved: all of it |
| C31 | string functions | list reasoning | partial: splitting, idempotence and prefixed inputs proved for all strings; local names proved without '?' and without both http: and https:; refuted for these, and for an empty resource |
| C32 | template splitting and expansion | grammar of templates, expansion by induction | partial: proved for templates with separated sections, or a body alone, made of text, percent signs followed by an end, a percent sign or an s, and the fields that are filled in, and for all metadata queries; refuted: %% before other characters, %s, %F, %N outside the body, text without fields, a final %, tight braces, --unit without -X, the count of an empty archive, and the byte read before a template without braces |
| C33 | clone functions | histories on the two objects commute | proved: units keep their archive, and so see its later changes, by design |
| C34 | namespaces written for a unit and a root | declared prefixes ⊇ used prefixes, through merge and flags | partial: proved for the srcML of a parsed unit; refuted in archives for a user prefix of OpenMP and for units copied between archives with different prefixes |
| C35 | unit object with its caches | exact answers after any history, the property for the first parse | partial: proved for one parse with any questions around it and for refused parses; for any history the exact answers are proved: the srcML is of the latest parse, but inner (once asked), outer (once asked), line count, hash and encoding stay those of an earlier parse and its namespaces stay declared (refuted with concrete histories) |
| C36 | archive state machine | open/close histories | partial: proved when nothing was written before reopening; refuted otherwise (stale translator, second close, freed buffer) |
| C37 | thread-local variables | exact output per thread history | partial: proved for every interleaving of threads in which each thread writes for archives with the same position option and prefix; for any history the exact attributes are proved (option of the thread's first element, prefix of its first positioned element: thread_local initializers run once); refuted for archives of one thread that differ in the option or the prefix |
| C38 | look-ahead operations | restoration of input, list, serial; mode stack refuted | partial: input, token list and serial restored by every look-ahead; the mode stack is not (refuted) |
| C39 | SAX handler over libxml2's buffer | slice invariants, composed with the hand-off | partial: proved for all documents of the shape srcML writes, with comments, CDATA and processing instructions; refuted for comments after a start tag or after a skipped unit, units without attributes, empty archives, nested units in a lone unit, raw '>' after an element, an instruction before a lone unit, the outer form of a lone unit with a single declaration |
| C40 | escape decoding | decomposition into items | partial: every text decomposes into items (proved), decoding proved for non-empty texts without '://' and without a final backslash; refuted for these; \400 gives a zero byte |
| C41 | line splitting | induction | partial: proved for all lists except: an empty one, and one whose last line is a one-character name without a line end (both refuted) |
| C42 | name functions | against path specification | partial: proved for inputs that are not archives and output directories other than . and ./ ; refuted for these, for names with .. and for compression extensions behind an archive extension |
| C43 | root tag written and read | parse of the printed tag, settings restored | partial: proved for every archive that calls and reading can produce with namespaces declared and no stored encoding: revision, url, version, tab stop, options, attributes, prefixes and macros come back; refuted for the prefix of cpp, for a stored encoding (attribute twice after reading and writing), for macros without type, and after set_options |
| C44 | all readers of a process with shared pointers | simulation of the single reader while it is last; refutation otherwise | partial: proved for a reader that is the last to start until its last event, in every interleaving of its two threads and whatever the other readers do: units, text and termination; for the others refuted: once another archive is opened no unit is returned with its srcML, for every document and execution, and a concrete read never returns (process-wide name pointers) |
| C45 | lexer tokens to srcML to source | composition of C08, C05, C06 and an XML reading specification | partial: proved from the source characters, through lexers, parser, srcML and back to the source, for every grammar and all settings XML can carry; missing: parses that log faults which lose or move text (C08, C09); refuted for elements named escape that a caller writes without attributes or outside the srcML namespace (null pointer) |
| C46 | the four lexers and their switching, as one scan of the source | each rule consumes a prefix of its input; induction over the scan; exact description of where no rule applies | partial: for every language, macro list, tab stop and source; where the scan can stop early is characterised and shown by C46_del_refuted and C46_tabstop_refuted; a control character in a raw string delimiter is not separated (C46_delimiter_refuted) |
| C47 | same; specification: regions of the source by a small automaton on characters | simulation between the lexers' modes and the automaton, by induction over the scan | partial: block and line comments: proved for any source; raw strings: proved for any source outside of directives, with an ASCII delimiter, refuted otherwise; all regions character by character: proved for sources without raw or verbatim strings, doubled quotes, /*!/ and digit separators; refuted for the last four |
| C48 | CharScanner's line and column, tab, newline and lexer switches | invariant: place = place after the text consumed | partial: lines for every source; columns if the tab stop is 8 or tabs are outside comments and literals; refuted otherwise (C48_tabstop_refuted) |
| C49 | literal table as keywords and macros build it, and its use by NAME | first-match lemma on the table, for every rule that tests literals | proved: all of it |
| C50 | documents as trees of numbered nodes in memory, with xmlDocSetRootElement taking a node out of its place and documents freed when dropped; the engines as functions | invariant of the loop over memory (separate trees, live nodes), induction over results and transformations | partial: Proved where results before another transformation are elements, none inside another, each transformation has a result for each, and a stylesheet is for one result; scalars and absence in full for the first result. Everything outside is refuted by a concrete case. |
| C51 | in-place wrapping and attributes | relation between the tree before and after, extended by one result at a time | partial: Proved for element, attribute and both, for all documents. The root as a result, attributes as results of wrapping and attributes already there are excluded: the last two are refuted. |
| C52 | result units as the code builds them from a clone | namespace flags and attribute update lemmas (C15, C30) | partial: Proved on the domain of C50_chain_partial; unescaped text and lost prefixes refuted. |
| C53 | the calls as a fold | groups of calls; induction over groups and histories | proved: all of it |
| C54 | the counting of #if, #else, #endif and which text is skipped, with look-ahead that goes back and any sizes of the mode stack | source as nested conditionals; a level at each directive; invariant between levels and the parser's counters and flags, by induction over parser steps | partial: Complete without options and with #if 0 marked up. With #else as text proved for sources without #else or #if 0 inside of an #else left as text (and no #else of #if 0 inside the live #else of another): elsewhere it is false, see the _refuted theorems. |
| C55 | the choice of steps; the steps as processes joined by bounded pipes, any scheduling | a process alone is described by its input, output and whether it closes; invariant over every state of all processes with a decreasing measure; progress when all pipes will be closed | partial: Proved for at most one step of metadata, source and compression (with create before it); false for more: source and metadata do not close the pipe, so compression waits for ever (_refuted theorems). What a step computes is any process that reads its input to the end. |
| C56 | the loops over units of the four kinds of destination | induction over the units; splitting at NUL is unique; the last write to a path; names made up are read back | partial: Complete for standard output, --unit, a file and a directory without options; false: options and unnamed units with a directory, names made up across inputs, units without name and language in an archive, separators when another step follows, negative --unit, all but the first unit to a file (_refuted theorems). |
| C57 | the settings, the events of the main thread for each kind of input, the calls of the writing thread, and their interleavings on the archive of C23 | the settings come first and later ones change nothing, so every interleaving writes the same units; C23 for the document, C12-C18 for the settings | partial: Complete for requests where srcML to be read comes first (and -X is given with it), up to messages (after one the archive is only freed: no blank line before the end tag); false: an archive read without -X, namespaces of a second srcML input, a single input without source, inputs that all fail (_refuted theorems). Mixtures of text and units are not covered. |
| C58 | the documents of C23 with the units of C21, C45; XML start tags, attributes, character data and namespace scope as relations on text | each attribute, declaration and tag written is read back; the prefixes of the unit are in scope; induction over the trees of the unit and over the units | partial: Complete for archives that declare namespaces (the default), without a revision number, with settings free of control characters; false: macros are in no namespace when srcML has a prefix, and control characters in settings give text that is not XML (_refuted theorems). |
| C59 | composition of the writer (C23, C58) with the reader (C27, C39): libxml2's reports as a relation between the text and the events, in any pieces | the reports of a written document are shown to be an archive (or lone unit) as C39 wants it, element by element; the attributes go through update_attributes (C30) | partial: Complete for archives with at least one unit that declare namespaces (the default) without a revision number, and for lone units without a processing instruction whose elements are not called unit; false: an archive without units is read back as one unit (_refuted); lone units with an instruction or nested unit elements are refuted under C39; a cpp namespace without prefix is excluded. |
| C60 | the global setters as the archive and unit calls of C11-C17; srcml() over the archive model (C23, C24), the parse of C35 and the reader of C27/C39 | the direction by analysis of the name from its end; the document by transfer to an archive made by srcml_archive_create; the round trip by composing with C59 | partial: The settings, the direction, the refusal, the way from srcML to source and reading errors are complete; writing srcML and the round trip are for settings XML can carry, without srcml_set_options, namespaces, instructions and revision (C12, C14, C29 treat them for archives), and for units without nested unit elements; refuted: eol setting, language setting for unknown names, OK although nothing could be written or read, a name of exactly srcml, overwriting the output of a failed call. |
| C61 | the calls a parse makes as an inductive relation on the states of the parser model of C08; the bookkeeping as a function on lists of calls; both tied by an invariant over the buffers (text before each tag, the stack of ends, open elements and comments) | the invariant by induction over the relation; look-aheads by a second induction; printing by case analysis | partial: Proved for all parses without a logged fault whose look-aheads begin and end no elements; an element begun without moving skipped text before it has its position after that text; ends are exact if no look-ahead or directive came after the last token (comments always); refuted otherwise, for a look-ahead and for a directive after the last token. |
| C62 | the calls of the threads as in C57, with opening and closing the archive of each file; the archive of a file is a clone (a function of the settings of the output archive at that time); the file system as an oracle that says which files can be created | each file by the theorems on written documents (C23); the state of the output archive by an invariant that the calls of the reading thread keep; induction over the order of calls | partial: Proved for inputs of source code; sources with the same path overwrite each other's file, a source without a name and any unit of a srcML input are undefined behaviour, and the hash is in the files as soon as there are two inputs although it is switched off for them (refuted). |
| C63 | a transition system: the main thread, one thread for each download with its pipe, the shared flag and condition variable; libcurl as the list of blocks it hands to the callback, with the codes and the results of write | invariants over all runs (the bytes), over calm runs (quiet earlier threads, what the flag means when the main thread is woken), and a measure that every step decreases | partial: The bytes: for all runs. The answer: for runs without spurious wake-ups in which every input is read to its end; the wait ends if it began before the first signal of its download. Refuted otherwise: a signal before the wait is lost, a spurious wake-up refuses a good URL, a broken transfer is read as whole (or refused, depending on the schedule), an abandoned download answers for the next, ftp is always refused. |
| C64 | the static members as a state, one step for each unit, with the two texts and the cut between them as functions with undefined behaviour where an iterator leaves its string; unparsing and parsing are fields of a unit | induction over the units for the totals and the table, over the files for the text, snoc-induction for the joined lines of the summary, and the cut from the longest common beginning and end | partial: The totals: for all units with a language. The table by language: if the units of a file have one language. What is shown: if the texts are short or differ within a line. Refuted otherwise: a unit is counted in the language of the first of its file, a first unit without language is not counted and the others count in the language of the file before, a file without URL shows an older one, at the end of a line the cut is wrong, and in long units text that is left out or added by parsing again is undefined behaviour. |
| C65 | the calls of the writing thread on the output archive: the document of a clone in memory, cut by 51 bytes, then the content of each unit | the document in memory by the theorems on solitary archives (C23) and on the parse of an empty text (C21), its last 51 bytes from the last attribute, the strings written directly by induction over the sources | partial: Proved when the hash is the last attribute of the first unit: several inputs or --hash, no stored options, no source encoding in the tag, no attributes of the user. Refuted otherwise: a single file has no hash and loses 51 bytes of its start tag; a stored option stands after the hash; a prefix of the srcML namespace is not in the end tag; a namespace used by a later source only is not declared; without any unit there is only an end tag. |
| C66 | the log as a state machine: its two counts and its text, driven by the writing thread and by the loop of the extraction | an invariant: the lines so far show the entries so far; induction over the requests and over the archives; the count of the extraction modulo 256 by arithmetic | partial: Proved: the lines and the numbers of a conversion for parsed files and files without a language, and of an extraction for archives of fewer than 45 files; in general the exact number of files that are counted wrongly. Refuted: a file that failed is counted nowhere, the errors are always 0; the 45th file of an archive and every 256th after it are logged as other files. |

## What the proofs found in the code
Violations of the properties (the theorems `.._refuted` and the exact theorems show them), and defects seen while
modelling (marked *seen*: read in the code, no theorem).
* **Reading.** First read exactly a UTF-8 mark: out-of-range access; a mark or a character split over reads is lost or ends the
  input; UTF-32LE mark taken for UTF-16LE (C03, C04). *Seen*: the destructor calls a null close_callback
  (UTF8CharBuffer.cpp:485-488); iconv_close on (iconv_t)-1 when errno is not EINVAL (srcml_unit.cpp:506-513); the language-less
  srcml_unit_parse_filename leaks its descriptor; `unit->encoding` is taken before the first read on stream routes; INVALID_POS is dead code.
* **Text.** Text with a NUL byte is not escaped after it (C05) and cut when unparsed to memory (C19); `getLOC` gives 1 for an empty
  source and is dead code; CDATA newlines are not counted (C20).
* **API.** set_options overwrites internal bits and with them solitary, hash, cpp-declared and the namespace declarations (C12);
  disable_option(CPP) leaves CPP_DECLARED; macro index wraps at 2^63 (C13); get_namespace_prefix at position = size is out of range (C14);
  set_processing_instruction dereferences null (C17); flags offered for a URI with a user prefix are dropped (C15). *Seen*:
  get_language_extension uses the text after the last '.' even in the directory part; srcml_archive_free dereferences before its null
  check; is_solitary/has_hash dereference null; unit_update_attributes drops prefixes.
* **Writing.** Units written by element: over-closing, attributes on the unit, a refused namespaced attribute leaks a pending declaration,
  empty names (C22); outer srcML is wrong when another value contains ' url=' (C21); undeclared prefixes for OpenMP user prefixes and
  copied units (C34). *Seen*: `std::to_string(tabsize).c_str()` dangling (srcMLOutput.cpp:372); write_open_filename ignores a null output
  buffer; error elements are in the source namespace; SMARKER has two entries in the element table; add_start_unit uses the unit's or archive's language and not the
  derived one, so the srcML of a unit whose language came from its extension lacks the attribute.
* **Archives.** Reopening after writing writes nothing; a second close nulls the user's buffer; mixing write_unit and write_string, or
  write_string after close, uses a freed buffer; write_string on an unopened archive is accepted; a solitary archive with other than one
  unit is malformed XML (C23, C24, C36). The stored encoding is written twice after reading (malformed XML); the cpp/omp prefixes are not
  restored; the processing instruction is never read back; prefixed archive attributes lose their prefix (C43).
* **Parser.** A statement cancelled against a wrong token or an exception out of a macro call loses or moves text (C08); the preprocessor's
  end of outer modes, unterminated comments and exceptions while guessing break nesting (C09); modes hidden by clearMode (C10); looking
  ahead changes the mode stack (C38). *Seen*: the duplication machinery of cppif is dead (`if (false && …`, srcMLParser.g:9432);
  an unterminated registered macro inside look_past leaves guessing set; pauseStream without startElement for Java enum class;
  ModeStack::getPrevMode returns getMode.
* **Client.** `-j 0` writes nothing or hangs; a worker's exit(1) abandons earlier inputs (C25); the limiter admits 201 and can deadlock with
  --to-dir (C26); `?` truncates local names (C31); a final backslash or empty --text is undefined (C40); the last one-character line of a
  file list is lost, an empty list is undefined (C41); output directory "." writes to the root, ".." escapes it (C42); metadata templates, and `%N:u:p` is accepted in a template but never filled in
  (C32). *Seen*: srcml_write reads s[strlen-1] of an empty string; srcml() reads input_filename[len-6] with only len > 4.
* **Streaming reader.** Lost wake-up in malformed documents, spurious wake-ups, roots other than unit (C27); comments after start tags,
  units without attributes, raw '>' and others move the slices (C39); elements between units are taken for units; reading a second
  archive makes reads of the first hang (C44). *Seen*: cpp_prefix's ternary is inverted and never reset; after stop in reparse_root,
  start_element reads a freed buffer; reopening without free leaks the reader; unparse works only for archives opened for reading.
* **Units.** Reusing a unit object leaves inner, outer, line count, hash, encoding and namespaces of the earlier parse (C35); position
  option and prefix of a thread's first archive are used for all its later ones (C37); extract_src reads through null for escape
  elements without attributes or in no namespace (C45).
* **Lexers.** DEL (0x7f) outside comments and literals matches no rule: the rest of the source is lost with status OK (C46); a tab stop of 0
  and a tab divide by zero (C46); a control character in a raw string's delimiter goes into the srcML unescaped (C46); `"a""b"` is not two
  strings, `/*!/` is a whole comment, `@"a\""b"` ends early, `1'000` starts a character literal, a raw string with a
  delimiter outside of ASCII never ends, one over lines in a directive ends at the newline (C47); the tab stop is not used inside
  comments and literals (C48). *Seen*: a line comment is not continued by a backslash; several newlines after a backslash are one token;
  any comment ends the state "preprocessor line"; a control character before a newline there lets a string take the newline; a macro named as a keyword or with an unknown
  type is ignored, one named as an operator retypes the operator; isline/line_number are dead.
* **Transformations.** A result without a match ends the loop and loses all others; of several scalars one is given; results inside one
  another are torn apart by the next transformation; a stylesheet for two results uses freed nodes; no place for the result and no match
  use a null pointer; elements after a text in a stylesheet's output are lost (C50). An attribute that is there already is written twice
  (append_attribute_to_node passes the value as URI), one added to an earlier XPath has no namespace, wrapped attributes are deleted
  (C51). Text and attribute results go unescaped into the srcML (C52); a string parameter with a quote (C53). *Seen*: the transformations
  are not cleared although documented; *presult is not set without transformations; the getters take a negative index; `throw;` without
  an exception in the constructors ends the program; starttag.back() of an empty string; old root elements leak.
* **Conditional compilation.** With #else as text: an #else or an #if 0 nested in an #else ends the text at the inner #endif; the #else of an
  #if 0 inside the live #else of another is left as text when blocks closed between; with both options look-ahead over an #if 0 loses count;
  `#if 0 || X` is taken for #if 0, `#if (0)` is not; an apostrophe in text left out (`don't`) hides #endif and the rest of the file (C54).
  *Seen*: cppmode grows with every #if without the option and is never popped; `#elif 0` is never skipped.
* **Steps of a command.** `srcml a.xml -o a.cpp.gz`, `-o src.tar.gz` and metadata with a compressed output never end: create_src and
  srcml_display_metadata do not close the pipe that compress_srcml reads to its end (C55). *Seen*: `-o src.tar.gz` would not be a tar;
  display_metadata ignores `-o`; create_src writes the NUL separator to descriptor 1 instead of the destination; create_srcml's
  early return when the output cannot be opened leaves the pipe open; `user_uris.find(…) != user_namespaces.end()` compares iterators of
  two maps; `arg.back()` of an empty argument; lang2ext.find(NULL) for a unit without language.
* **Extraction.** Without --unit a file gets only the first unit; a directory ignores --unit, --eol and --src-encoding and leaves unnamed units
  out; made-up names start again with each input; a unit without name and language in an archive reads a null string; separators go to
  descriptor 1; a negative --unit is the first unit (C56). *Seen*: an input that cannot be opened gives an empty output; strlen in
  srcml_unit_unparse_memory cuts UTF-16 entries after the first character; the unit's stored encoding wins over --src-encoding.
* **Creating srcML.** `srcml archive.xml -o out.xml` without -X writes a document with several document elements; with two srcML inputs the
  namespaces of the second are declared only if its reader is faster than the writer; a single input without source gives an XML declaration
  alone, and inputs that all fail an empty file; an empty string result reads before the string (C57). *Seen*: after any warning the archive is
  not closed but only freed, after its descriptor was closed, so the tail of output to standard output is lost; -X with --to-dir and text input
  without language read empty optionals; an archive named only by dots and slashes throws; the two threads use the archive without a lock.
* **XML.** With a prefix registered for the srcML namespace, `macro-list` is still written without one, so it is in no namespace; settings (version,
  filename, macros) with control characters are written as they are, which no XML reader accepts (C58).
* **Round trip.** An archive closed without units is written as `<unit .../>` and read back as one unit (C59). The encoding stored with
  the option STORE_ENCODING is read back as an ordinary attribute `src-encoding`, not as the unit's encoding (C59: `read_back`).
* **srcml().** srcml_set_eol has no effect on srcml(); srcml_set_language does not make a file with an unknown extension readable
  (the message says the language is not supported); SRCML_STATUS_OK is returned although the output could not be created, and although no
  unit could be read; the name `srcml` is read before its first byte (`input_filename[len - 6]` with len 5); the output file is truncated
  before the input is opened (C60).
* **Positions.** lastline and lastcolumn are not put back after a look-ahead and are overwritten by directives, so that the end of an element
  can be reported after text that does not belong to it; the position of an element begun by startNoSkipElement is after the white space
  that the element contains (C61).
* **--to-dir.** Two sources with one path write one file; an empty optional is dereferenced for a source without a name and for every unit of a
  srcML input; srcml_archive_disable_hash is called after the hash was computed, so it has no effect (C62).
* **Downloads.** waitCurl waits without a predicate, so a download that signals before the wait is lost and a spurious wake-up returns an old
  answer; the flag is shared by all downloads; a transfer that breaks off after its first block is parsed as if it were whole; every code but 200
  (ftp's 226) is a failure (C63). *Seen*: curl_errors stays set after a failed URL, and a later empty local input is then skipped.
* **Parser test.** Units are counted in the language of the first unit of their file; a first unit without language is not counted and its file counts as the
  language before; where parsing again leaves out or adds text in a unit of more than five lines, std::mismatch runs past the beginning of a string, or back() is
  taken of an empty one; a difference at the end of a line loses text in the report (C64). *Seen*: setprecision(2) prints 100% as 1e+02%; the loop at
  ParserTest.cpp:139-146 uses iterators that erase() has made invalid, and its results are dropped.
* **--cat.** The start tag is taken from a document in memory without its last 51 bytes (srcml_write.cpp:193), the length of a hash attribute and of what follows. A single
  file has no hash: its start tag is cut in the middle and the output is not XML. The same with a stored option (--cpp-markup-if0), which follows the hash, and with a prefix for the
  srcML namespace (the end tag is always </unit>); namespaces that only later sources use are not declared (C65).
* **--verbose.** Errors are never counted (num_error in TraceLog.hpp is not changed anywhere). In an extraction the running number is passed to an operator that takes a
  character (src_output_filesystem.cpp:63): the number 45 is the code of the dash, so the 45th file of an archive and every 256th after it are logged as other files (C66).

## Not modelled
* The grammar decisions of `srcMLParser.g` (which element is chosen for which construct): every theorem about the
  parser holds for an arbitrary program of parser actions, so which markup is right for a construct is not stated.
* libxml2, libarchive, libcurl, libxslt, iconv and SHA-1 internals; XPath evaluation; the file system and processes.
* Allocation failure, integer widths where a comment says so, `stderr` messages.
* Client: command-line option parsing (CLI11), `--show-*` output other than the metadata formats, git and curl input.
