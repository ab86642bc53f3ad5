{
 "C01": {
  "status": "proved",
  "note": "every byte-wise encoding, both routes, every splitting; multibyte encodings are C04"
 },
 "C02": {
  "status": "proved",
  "note": ""
 },
 "C03": {
  "status": "partial",
  "note": "refuted: first read exactly a UTF-8 mark (out-of-range access), mark split over reads, UTF-32LE mark, latin-1 declared with UTF-8 mark; proved otherwise"
 },
 "C04": {
  "status": "partial",
  "note": "refuted: a character split over reads ends the input; proved when reads end between characters"
 },
 "C05": {
  "status": "partial",
  "note": "proved for NUL-free text; refuted for text with a NUL byte"
 },
 "C06": {
  "status": "proved",
  "note": "all 256 bytes, both char signednesses"
 },
 "C07": {
  "status": "proved",
  "note": ""
 },
 "C19": {
  "status": "partial",
  "note": "proved for all texts; the memory route is refuted for texts with a NUL byte"
 },
 "C20": {
  "status": "partial",
  "note": "proved for written units, for documents srcML generates, for archive units read and for the count kept while the source is read; refuted for CDATA sections, for the lines before the first element of a lone unit and for the reader's count of an empty source"
 },
 "C28": {
  "status": "partial",
  "note": "exact for fragments ending with a tag; refuted for trailing text (inner srcML), empty diff elements"
 },
 "C29": {
  "status": "proved",
  "note": ""
 },
 "C30": {
  "status": "proved",
  "note": ""
 },
 "C11": {
  "status": "proved",
  "note": ""
 },
 "C12": {
  "status": "partial",
  "note": "public options proved for all histories; solitary/hash proved for histories without set_options and refuted with it"
 },
 "C13": {
  "status": "partial",
  "note": "proved for positions below 2^63; refuted at 2^63, where the index wraps"
 },
 "C14": {
  "status": "partial",
  "note": "proved except get_namespace_prefix at position = size, an out-of-range read (refuted)"
 },
 "C15": {
  "status": "proved",
  "note": "also shown: flags offered for a URI whose prefix the user changed are dropped"
 },
 "C16": {
  "status": "proved",
  "note": "an unprefixed suffix also compares equal, as the code has it"
 },
 "C17": {
  "status": "partial",
  "note": "proved for every setter but set_processing_instruction, which dereferences a null argument (refuted)"
 },
 "C18": {
  "status": "proved",
  "note": "an unknown unit language is not replaced by the archive's (shown)"
 },
 "C33": {
  "status": "proved",
  "note": "units keep their archive, and so see its later changes, by design"
 },
 "C21": {
  "status": "partial",
  "note": "exact for every parsed or by-element unit whose archive declares namespaces; outer form for units where no other value contains ' url='; both exceptions refuted"
 },
 "C22": {
  "status": "partial",
  "note": "all histories of proper calls; the improper ones (over-closing, attributes on the unit, empty names, quoted constants, refused namespaced attribute) are refuted one by one"
 },
 "C34": {
  "status": "partial",
  "note": "proved for the srcML of a parsed unit; refuted in archives for a user prefix of OpenMP and for units copied between archives with different prefixes"
 },
 "C23": {
  "status": "partial",
  "note": "exact documents for every history in which nothing was written before, all options; a solitary archive with two units or none is refuted"
 },
 "C24": {
  "status": "partial",
  "note": "proved for units in all histories; refuted: strings on an unopened archive, a file that could not be created"
 },
 "C36": {
  "status": "partial",
  "note": "proved when nothing was written before reopening; refuted otherwise (stale translator, second close, freed buffer)"
 },
 "C08": {
  "status": "partial",
  "note": "token text proved for every program and every input; the document written proved unless a statement is cancelled against a wrong token or an exception leaves a macro call; both refuted otherwise"
 },
 "C09": {
  "status": "partial",
  "note": "proved for all runs without a logged fault; balance also with comment and outer faults; each other fault refuted by a run"
 },
 "C10": {
  "status": "partial",
  "note": "queries and unwinding for every reachable stack; refuted for sets of modes spread over states and for modes hidden by clearMode"
 },
 "C38": {
  "status": "partial",
  "note": "input, token list and serial restored by every look-ahead; the mode stack is not (refuted)"
 },
 "C25": {
  "status": "partial",
  "note": "all interleavings, any inputs and failures, at least one parsing thread; refuted with -j 0 (nothing written, or stuck) and when a parse reports an invalid argument (the process exits with earlier inputs unwritten)"
 },
 "C26": {
  "status": "partial",
  "note": "all interleavings of any threads: at most 201 open (the configured 200 is exceeded by one: refuted), back to zero, never stuck for threads closing before opening the next; the client's use with --to-dir can deadlock (refuted)"
 },
 "C27": {
  "status": "partial",
  "note": "proved for all interleavings without spurious wake-ups, whole archives and lone units (no wait without end) and malformed archives (order and content); refuted: lost wake-up in malformed documents, documents whose root is not a unit, spurious wake-ups"
 },
 "C39": {
  "status": "partial",
  "note": "proved for all documents of the shape srcML writes, with comments, CDATA and processing instructions; refuted for comments after a start tag or after a skipped unit, units without attributes, empty archives, nested units in a lone unit, raw '>' after an element, an instruction before a lone unit, the outer form of a lone unit with a single declaration"
 },
 "C31": {
  "status": "partial",
  "note": "splitting, idempotence and prefixed inputs proved for all strings; local names proved without '?' and without both http: and https:; refuted for these, and for an empty resource"
 },
 "C40": {
  "status": "partial",
  "note": "every text decomposes into items (proved), decoding proved for non-empty texts without '://' and without a final backslash; refuted for these; \\400 gives a zero byte"
 },
 "C41": {
  "status": "partial",
  "note": "proved for all lists except: an empty one, and one whose last line is a one-character name without a line end (both refuted)"
 },
 "C42": {
  "status": "partial",
  "note": "proved for inputs that are not archives and output directories other than . and ./ ; refuted for these, for names with .. and for compression extensions behind an archive extension"
 },
 "C32": {
  "status": "partial",
  "note": "proved for templates with separated sections, or a body alone, made of text, percent signs followed by an end, a percent sign or an s, and the fields that are filled in, and for all metadata queries; refuted: %% before other characters, %s, %F, %N outside the body, text without fields, a final %, tight braces, --unit without -X, the count of an empty archive, and the byte read before a template without braces"
 },
 "C43": {
  "status": "partial",
  "note": "proved for every archive that calls and reading can produce with namespaces declared and no stored encoding: revision, url, version, tab stop, options, attributes, prefixes and macros come back; refuted for the prefix of cpp, for a stored encoding (attribute twice after reading and writing), for macros without type, and after set_options"
 },
 "C45": {
  "status": "partial",
  "note": "proved from the source characters, through lexers, parser, srcML and back to the source, for every grammar and all settings XML can carry; missing: parses that log faults which lose or move text (C08, C09); refuted for elements named escape that a caller writes without attributes or outside the srcML namespace (null pointer)"
 },
 "C35": {
  "status": "partial",
  "note": "proved for one parse with any questions around it and for refused parses; for any history the exact answers are proved: the srcML is of the latest parse, but inner (once asked), outer (once asked), line count, hash and encoding stay those of an earlier parse and its namespaces stay declared (refuted with concrete histories)"
 },
 "C37": {
  "status": "partial",
  "note": "proved for every interleaving of threads in which each thread writes for archives with the same position option and prefix; for any history the exact attributes are proved (option of the thread's first element, prefix of its first positioned element: thread_local initializers run once); refuted for archives of one thread that differ in the option or the prefix"
 },
 "C44": {
  "status": "partial",
  "note": "proved for a reader that is the last to start until its last event, in every interleaving of its two threads and whatever the other readers do: units, text and termination; for the others refuted: once another archive is opened no unit is returned with its srcML, for every document and execution, and a concrete read never returns (process-wide name pointers)"
 },
 "C46": {
  "status": "partial",
  "note": "for every language, macro list, tab stop and source; where the scan can stop early is characterised and shown by C46_del_refuted and C46_tabstop_refuted; a control character in a raw string delimiter is not separated (C46_delimiter_refuted)"
 },
 "C47": {
  "status": "partial",
  "note": "block and line comments: proved for any source; raw strings: proved for any source outside of directives, with an ASCII delimiter, refuted otherwise; all regions character by character: proved for sources without raw or verbatim strings, doubled quotes, /*!/ and digit separators; refuted for the last four"
 },
 "C48": {
  "status": "partial",
  "note": "lines for every source; columns if the tab stop is 8 or tabs are outside comments and literals; refuted otherwise (C48_tabstop_refuted)"
 },
 "C49": {
  "status": "proved",
  "note": ""
 },
 "C50": {
  "status": "partial",
  "note": "Proved where results before another transformation are elements, none inside another, each transformation has a result for each, and a stylesheet is for one result; scalars and absence in full for the first result. Everything outside is refuted by a concrete case."
 },
 "C51": {
  "status": "partial",
  "note": "Proved for element, attribute and both, for all documents. The root as a result, attributes as results of wrapping and attributes already there are excluded: the last two are refuted."
 },
 "C52": {
  "status": "partial",
  "note": "Proved on the domain of C50_chain_partial; unescaped text and lost prefixes refuted."
 },
 "C53": {
  "status": "proved",
  "note": ""
 },
 "C54": {
  "status": "partial",
  "note": "Complete without options and with #if 0 marked up. With #else as text proved for sources without #else or #if 0 inside of an #else left as text (and no #else of #if 0 inside the live #else of another): elsewhere it is false, see the _refuted theorems."
 },
 "C55": {
  "status": "partial",
  "note": "Proved for at most one step of metadata, source and compression (with create before it); false for more: source and metadata do not close the pipe, so compression waits for ever (_refuted theorems). What a step computes is any process that reads its input to the end."
 },
 "C56": {
  "status": "partial",
  "note": "Complete for standard output, --unit, a file and a directory without options; false: options and unnamed units with a directory, names made up across inputs, units without name and language in an archive, separators when another step follows, negative --unit, all but the first unit to a file (_refuted theorems)."
 },
 "C57": {
  "status": "partial",
  "note": "Complete for requests where srcML to be read comes first (and -X is given with it), up to messages (after one the archive is only freed: no blank line before the end tag); false: an archive read without -X, namespaces of a second srcML input, a single input without source, inputs that all fail (_refuted theorems). Mixtures of text and units are not covered."
 },
 "C58": {
  "status": "partial",
  "note": "Complete for archives that declare namespaces (the default), without a revision number, with settings free of control characters; false: macros are in no namespace when srcML has a prefix, and control characters in settings give text that is not XML (_refuted theorems)."
 },
 "C59": {
  "status": "partial",
  "note": "Complete for archives with at least one unit that declare namespaces (the default) without a revision number, and for lone units without a processing instruction whose elements are not called unit; false: an archive without units is read back as one unit (_refuted); lone units with an instruction or nested unit elements are refuted under C39; a cpp namespace without prefix is excluded."
 },
 "C60": {
  "status": "partial",
  "note": "The settings, the direction, the refusal, the way from srcML to source and reading errors are complete; writing srcML and the round trip are for settings XML can carry, without srcml_set_options, namespaces, instructions and revision (C12, C14, C29 treat them for archives), and for units without nested unit elements; refuted: eol setting, language setting for unknown names, OK although nothing could be written or read, a name of exactly srcml, overwriting the output of a failed call."
 },
 "C61": {
  "status": "partial",
  "note": "Proved for all parses without a logged fault whose look-aheads begin and end no elements; an element begun without moving skipped text before it has its position after that text; ends are exact if no look-ahead or directive came after the last token (comments always); refuted otherwise, for a look-ahead and for a directive after the last token."
 },
 "C62": {
  "status": "partial",
  "note": "Proved for inputs of source code; sources with the same path overwrite each other's file, a source without a name and any unit of a srcML input are undefined behaviour, and the hash is in the files as soon as there are two inputs although it is switched off for them (refuted)."
 },
 "C63": {
  "status": "partial",
  "note": "The bytes: for all runs. The answer: for runs without spurious wake-ups in which every input is read to its end; the wait ends if it began before the first signal of its download. Refuted otherwise: a signal before the wait is lost, a spurious wake-up refuses a good URL, a broken transfer is read as whole (or refused, depending on the schedule), an abandoned download answers for the next, ftp is always refused."
 },
 "C64": {
  "status": "partial",
  "note": "The totals: for all units with a language. The table by language: if the units of a file have one language. What is shown: if the texts are short or differ within a line. Refuted otherwise: a unit is counted in the language of the first of its file, a first unit without language is not counted and the others count in the language of the file before, a file without URL shows an older one, at the end of a line the cut is wrong, and in long units text that is left out or added by parsing again is undefined behaviour."
 },
 "C65": {
  "status": "partial",
  "note": "Proved when the hash is the last attribute of the first unit: several inputs or --hash, no stored options, no source encoding in the tag, no attributes of the user. Refuted otherwise: a single file has no hash and loses 51 bytes of its start tag; a stored option stands after the hash; a prefix of the srcML namespace is not in the end tag; a namespace used by a later source only is not declared; without any unit there is only an end tag."
 },
 "C66": {
  "status": "partial",
  "note": "Proved: the lines and the numbers of a conversion for parsed files and files without a language, and of an extraction for archives of fewer than 45 files; in general the exact number of files that are counted wrongly. Refuted: a file that failed is counted nowhere, the errors are always 0; the 45th file of an archive and every 256th after it are logged as other files."
 }
}