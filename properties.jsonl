{"id": "C01", "title": "Line endings are normalised independently of how input arrives", "statement": "Parsing source through any of the input routes (memory, fd, FILE, callback) delivers to the lexer exactly the converted input with every CR LF pair, lone CR and lone LF replaced by one LF, whatever the sizes of the pieces the read callback returns (including a CR and its LF arriving in different pieces).", "quantifier": "all byte inputs, all splittings of the input into read results, all byte-wise source encodings", "why_tests_cant": "the number of splittings is exponential in the length; only boundary-straddling ones expose a fault", "anchors": ["src/parser/UTF8CharBuffer.cpp:getChar", "src/parser/UTF8CharBuffer.cpp:readChars"]}
{"id": "C02", "title": "The unit hash covers exactly the bytes of the source", "statement": "When a hash is requested, the bytes fed to SHA-1 over the life of the reader are exactly the raw bytes the source supplied, each once and in order, before any encoding or line-ending conversion, whatever the read sizes; identical sources therefore get identical hashes by any input route.", "quantifier": "all inputs, all read splittings, memory versus callback route", "why_tests_cant": "must hold for every splitting", "anchors": ["src/parser/UTF8CharBuffer.cpp:readChars", "src/parser/UTF8CharBuffer.cpp:~UTF8CharBuffer"]}
{"id": "C03", "title": "A byte order mark selects the encoding and is not part of the source text", "statement": "With no encoding given, a source starting with a UTF-8/16/32 byte order mark is decoded as that encoding, anything else as ISO-8859-1, and a UTF-8 mark is never delivered as text; reading never goes outside the buffer.", "quantifier": "all first reads (all byte sequences, all first-read lengths), all declared encodings", "why_tests_cant": "depends on combinations of first bytes and read length", "anchors": ["src/parser/UTF8CharBuffer.cpp:readChars"]}
{"id": "C04", "title": "Multibyte characters survive read boundaries", "statement": "The text delivered for a multibyte-encoded source does not depend on where the read callback splits it, in particular not on a split inside a character.", "quantifier": "all valid UTF-8 inputs, all splittings", "why_tests_cant": "needs a multibyte character on a read boundary", "anchors": ["src/parser/UTF8CharBuffer.cpp:readChars (inbytesleft)"]}
{"id": "C05", "title": "Text content is escaped so that it always reads back as itself", "statement": "Writing any source text as srcML character data produces output with no raw '<' or '>' and only '&' that start one of the three entities used, and resolving the entities gives the original text back.", "quantifier": "all strings", "why_tests_cant": "injectivity over all strings", "anchors": ["src/parser/srcMLOutput.cpp:processText"]}
{"id": "C06", "title": "Control characters round-trip through <escape char=\"0xNN\"/>", "statement": "A control character in the source is represented by an escape element whose attribute, read back when source is extracted, is the same character.", "quantifier": "all control characters", "why_tests_cant": "must hold for every code", "anchors": ["src/parser/StreamMLParser.hpp:consumeSkippedToken", "src/libsrcml/unit_utilities.cpp:extract_src"]}
{"id": "C07", "title": "Position numbers are printed exactly", "statement": "Line and column numbers in position attributes are the exact decimal representation of the value, for every value an int can hold that a position can take, and printing never writes outside its fixed buffer.", "quantifier": "all 0 <= n < 2^31", "why_tests_cant": "2^31 values", "anchors": ["src/parser/srcMLOutput.cpp:positoa"]}
{"id": "C08", "title": "The source text is preserved in the token stream", "statement": "Whatever markup decisions the parser takes (any interleaving of starting and ending elements and modes, consuming tokens, skipping white space and comments, nested preprocessor handling, errors), the text tokens delivered to the output, in order, are exactly the tokens the lexer produced, none lost, duplicated or reordered.", "quantifier": "all sequences of parser actions and all input token sequences", "why_tests_cant": "the parser has unboundedly many action sequences", "anchors": ["src/parser/StreamMLParser.hpp:consume", "src/parser/StreamMLParser.hpp:pushTokenFlush", "src/parser/StreamMLParser.hpp:flushSkip", "src/parser/StreamMLParser.hpp:consumeSkippedToken"]}
{"id": "C09", "title": "Markup is properly nested", "statement": "Every element opened while parsing is closed exactly once and in last-opened-first-closed order, for every sequence of parser actions on the mode stack, so the delivered tokens form well-formed XML content.", "quantifier": "all sequences of mode-stack and element operations", "why_tests_cant": "unbounded histories", "anchors": ["src/parser/ModeStack.hpp", "src/parser/srcMLState.hpp", "src/parser/StreamMLParser.hpp:startElement", "src/parser/StreamMLParser.hpp:endElement"]}
{"id": "C10", "title": "Mode-stack queries are consistent with the stack", "statement": "A mode reported as transparently active is active in some enclosing mode; unwinding to a mode stops at the nearest enclosing one, removes exactly the states above it and always terminates; the bottom state is never removed by it.", "quantifier": "all stacks reachable by any operations, all mode sets", "why_tests_cant": "unbounded histories", "anchors": ["src/parser/ModeStack.hpp:endDownToMode", "src/parser/ModeStack.hpp:endDownOverMode", "src/parser/ModeStack.hpp:startNewMode"]}
{"id": "C11", "title": "File-extension registration: last registration wins", "statement": "After any sequence of registrations the language reported for a file name is that of the most recent registration of its extension, defaulting to the built-in table, a trailing .gz ignored; a rejected registration changes nothing.", "quantifier": "all registration histories and all file names", "why_tests_cant": "all histories", "anchors": ["src/libsrcml/language_extension_registry.cpp", "src/libsrcml/srcml_archive.cpp:srcml_archive_register_file_extension", "src/libsrcml/srcml_archive.cpp:srcml_archive_check_extension"]}
{"id": "C12", "title": "Archive options behave as a set", "statement": "Enabling, disabling, setting and reading public options behaves as on a set of option bits: getting returns what was last established, no operation on one option disturbs another, nor the archive, hash and solitary-unit settings.", "quantifier": "all option values and all histories of option calls", "why_tests_cant": "all histories", "anchors": ["src/libsrcml/srcml_archive.cpp:srcml_archive_set_options", "src/libsrcml/srcml_archive.cpp:srcml_archive_enable_option", "src/libsrcml/srcml_archive.cpp:srcml_archive_disable_option"]}
{"id": "C13", "title": "User macro list is a map in first-registration order", "statement": "After any sequence of macro registrations the list holds each token once, in order of first registration, with its latest type; lookups by token and by position agree with it and every out-of-range position or unknown token gives null.", "quantifier": "all registration sequences, all positions", "why_tests_cant": "all histories", "anchors": ["src/libsrcml/srcml_archive.cpp:srcml_archive_register_macro", "src/libsrcml/srcml_archive.cpp:srcml_archive_get_macro_token_type"]}
{"id": "C14", "title": "Namespace registry keeps one prefix per URI", "statement": "After any sequence of registrations each URI occurs once, lookups by URI give the latest prefix, positions are stable, out-of-range positions give null, and registering a feature namespace turns on the option it stands for.", "quantifier": "all registration sequences, all positions", "why_tests_cant": "all histories", "anchors": ["src/libsrcml/srcml_archive.cpp:srcml_archive_register_namespace", "src/libsrcml/srcml_archive.cpp:srcml_archive_get_namespace_prefix", "src/libsrcml/srcmlns.cpp"]}
{"id": "C15", "title": "Namespace merge", "statement": "Merging namespaces never loses a URI, never duplicates one, keeps a user-chosen prefix over a default one, only adds flags, and is idempotent.", "quantifier": "all pairs of namespace lists", "why_tests_cant": "all lists", "anchors": ["src/libsrcml/srcmlns.cpp:operator+="]}
{"id": "C16", "title": "Namespace URIs of the old and new form are recognised as the same", "statement": "URI comparison independent of the srcML/sdml prefix is an equivalence relation, normalisation is idempotent and maps each URI to an equivalent one.", "quantifier": "all URI strings", "why_tests_cant": "all strings", "anchors": ["src/libsrcml/srcmlns.cpp:is_srcml_namespace", "src/libsrcml/srcmlns.cpp:srcml_uri_normalize"]}
{"id": "C17", "title": "Unit and archive attributes read back as set", "statement": "Each setter makes exactly its own attribute read back as the value given (or null), leaves all others unchanged, and null handles or invalid values are rejected with a status and no change.", "quantifier": "all attribute histories, all values", "why_tests_cant": "all histories", "anchors": ["src/libsrcml/srcml_unit.cpp", "src/libsrcml/srcml_archive.cpp"]}
{"id": "C18", "title": "Parsing language is decided by a fixed precedence", "statement": "The language used to parse a unit is the unit's, else the archive's, else the one registered for the file extension, and if none is a known language the parse is refused with the unset-language status and no output.", "quantifier": "all combinations of unit/archive language, registrations, file names", "why_tests_cant": "combinatorial", "anchors": ["src/libsrcml/srcml_unit.cpp:srcml_unit_parse_internal", "src/libsrcml/libsrcml.cpp:srcml_check_language"]}
{"id": "C19", "title": "Line-ending choice on source output", "statement": "Unparsing with a chosen line ending writes the stored source with every LF replaced by that ending and nothing else changed; converting back gives the source; auto leaves it unchanged.", "quantifier": "all source texts, all eol settings", "why_tests_cant": "all strings", "anchors": ["src/libsrcml/srcml_unit.cpp:srcml_unit_unparse_internal"]}
{"id": "C20", "title": "Line count", "statement": "The line count reported for a unit equals the number of lines of its source (a final unterminated line counted), the same whether the unit was parsed or read from srcML in pieces.", "quantifier": "all sources, all splittings into text events", "why_tests_cant": "all strings and splittings", "anchors": ["src/libsrcml/srcml_unit.cpp:srcml_write_end_unit", "src/libsrcml/sax2_srcsax_handler.cpp"]}
{"id": "C21", "title": "Inner/outer srcML are exact slices", "statement": "For a unit written by element or parsed, the inner srcML is exactly the content between the unit start and end tags and the full srcML is the start tag, content, end tag, whatever namespaces the content made necessary in the rewritten start tag.", "quantifier": "all contents, all start tags (old and rewritten)", "why_tests_cant": "offset arithmetic over all lengths", "anchors": ["src/libsrcml/srcml_unit.cpp:srcml_write_start_unit", "src/libsrcml/srcml_unit.cpp:srcml_write_end_unit", "src/libsrcml/srcml_unit.cpp:srcml_unit_get_srcml_inner"]}
{"id": "C22", "title": "By-element writing always yields a balanced unit", "statement": "Any sequence of start-element/end-element/string/attribute calls between start and end of a unit leaves all elements closed when the unit is ended, calls outside a unit are refused, and the unit element itself cannot be closed early.", "quantifier": "all call sequences", "why_tests_cant": "all histories", "anchors": ["src/libsrcml/srcml_translator.cpp", "src/libsrcml/srcml_unit.cpp:srcml_write_end_unit"]}
{"id": "C23", "title": "Archive output structure", "statement": "Writing any sequence of units to an archive gives one XML declaration, one root start, the units in call order each preceded by a blank line, one root end; for a solitary archive the unit itself is the root.", "quantifier": "all unit sequences, all options", "why_tests_cant": "all histories", "anchors": ["src/libsrcml/srcml_translator.cpp:prepareOutput", "src/libsrcml/srcml_translator.cpp:add_unit", "src/libsrcml/srcml_translator.cpp:close"]}
{"id": "C24", "title": "Archive open/close state machine", "statement": "Reading from an archive not open for reading, writing to one not open for writing and writing an uninitialised unit are all refused with the documented status and change nothing, in every history of calls.", "quantifier": "all call histories", "why_tests_cant": "all histories", "anchors": ["src/libsrcml/srcml_archive.cpp"]}
{"id": "C25", "title": "Units are written in input order whatever the thread schedule", "statement": "With any number of parser threads and any interleaving, each scheduled input is written exactly once and in the order scheduled, including inputs that failed, and the unit count equals the number of successful ones; the writer terminates after all are written, never earlier, never stuck.", "quantifier": "all schedules, all numbers of inputs and threads, all failure patterns", "why_tests_cant": "schedules cannot be enumerated", "anchors": ["src/client/WriteQueue.cpp", "src/client/ParseQueue.hpp", "src/client/srcml_consume.cpp"]}
{"id": "C26", "title": "Open-archive limiter", "statement": "At most the configured number of archives are open at any time in every schedule, every open is eventually admitted if closes happen, and the count returns to zero when all are closed.", "quantifier": "all schedules", "why_tests_cant": "schedules", "anchors": ["src/client/OpenFileLimiter.hpp"]}
{"id": "C27", "title": "Streaming archive reader hand-off", "statement": "Reading an archive unit by unit through the background parser thread delivers every unit once, in document order, with its own header and body, then end of archive, in every interleaving; skipping a unit skips exactly one; closing at any point ends the thread; the caller is never left waiting, including when the document is malformed.", "quantifier": "all schedules, all documents, all read/skip/close histories", "why_tests_cant": "schedules cannot be enumerated", "anchors": ["src/libsrcml/srcml_sax2_reader.cpp", "src/libsrcml/srcml_reader_handler.hpp"]}
{"id": "C28", "title": "srcDiff revision extraction", "statement": "Extracting the original or modified revision from a srcDiff fragment keeps exactly the text and tags that are common or belong to that revision, drops all diff tags and leaves a fragment without diff markup unchanged.", "quantifier": "all well-nested srcDiff fragments, both revisions", "why_tests_cant": "all trees", "anchors": ["src/libsrcml/unit_utilities.cpp:extract_revision"]}
{"id": "C29", "title": "srcDiff attribute revision", "statement": "An attribute value 'a|b' yields a for the original and b for the modified revision; a value without a bar is returned unchanged for both.", "quantifier": "all strings", "why_tests_cant": "all strings", "anchors": ["src/libsrcml/unit_utilities.cpp:attribute_revision"]}
{"id": "C30", "title": "Unit attributes from XML", "statement": "Reading attributes onto a unit sets each known attribute to its last value and keeps other attributes as name/value pairs with one entry per name, in first-seen order.", "quantifier": "all attribute lists and histories", "why_tests_cant": "all lists", "anchors": ["src/libsrcml/unit_utilities.cpp:unit_update_attributes"]}
{"id": "C31", "title": "Input URI prefixes", "statement": "Splitting a prefixed input gives back protocol and resource; adding a prefix is idempotent, leaves already-prefixed inputs alone, and the resource of a prefixed local file is the file name given.", "quantifier": "all input strings", "why_tests_cant": "all strings", "anchors": ["src/client/src_prefix.cpp"]}
{"id": "C32", "title": "Pretty-format templates", "statement": "A metadata format is split into header, body, footer without reading outside the string, %% prints a percent sign, each %x is replaced in order by its value, and literal text is reproduced.", "quantifier": "all templates, all values", "why_tests_cant": "all strings", "anchors": ["src/client/srcml_pretty.cpp"]}
{"id": "C33", "title": "Clone independence", "statement": "A cloned archive or unit starts with the same settings and is closed/unread; later changes to either do not affect the other.", "quantifier": "all settings histories", "why_tests_cant": "all histories", "anchors": ["src/libsrcml/srcml_archive.cpp:srcml_archive_clone", "src/libsrcml/srcml_unit.cpp:srcml_unit_clone"]}
{"id": "C34", "title": "Namespaces used are declared", "statement": "Every standard namespace an element of a parsed unit is in is declared, with the prefix the element carries, on the start tag of the unit or of the archive root that contains it, whatever prefixes the user registered.", "quantifier": "all parse results, all registered prefixes", "why_tests_cant": "all combinations of prefixes, flags and uses", "anchors": ["src/parser/srcMLOutput.cpp:outputNamespaces", "src/libsrcml/srcmlns.cpp:operator+=", "src/libsrcml/srcml_translator.cpp:add_unit"]}
{"id": "C36", "title": "An archive can be closed and opened again", "statement": "After srcml_archive_close an archive object can be opened again for reading or writing and behaves like a newly opened one; closing an archive that is already closed changes nothing the caller was given.", "quantifier": "all call histories", "why_tests_cant": "depends on the whole history of openings, writes and closings of the object; leftover state from any earlier use can show", "anchors": ["src/libsrcml/srcml_archive.cpp: srcml_archive_close, srcml_archive_write_open_memory, srcml_archive_write_unit, srcml_archive_write_string", "src/libsrcml/srcml_translator.cpp: close"]}
{"id": "C38", "title": "Looking ahead has no visible effect", "statement": "Whatever the parser tries while looking ahead (consuming tokens, preprocessor lines and comments, failing with an exception), afterwards the input is where it was, no token has been delivered, and the tokens already produced are the same.", "quantifier": "all parses, all look-ahead programs, all ways of leaving them", "why_tests_cant": "every look-ahead in every grammar state, including those left by exceptions", "anchors": ["src/parser/srcMLParser.g:next_token, look_past_rule, perform_call_check", "src/parser/StreamMLParser.hpp:pushToken, consume"]}
{"id": "C39", "title": "A unit read back carries the document's own text", "statement": "Each unit read from a srcML document has as srcML its element as written in the document (with the root's namespaces added in an archive), as inner srcML its content, as outer srcML its element, as source its character data with escapes decoded, and as line count that of the source.", "quantifier": "all documents, all read/skip histories, all schedules", "why_tests_cant": "unbounded documents, and the text is taken from the XML parser's buffer by offsets that depend on event order", "anchors": ["src/libsrcml/sax2_srcsax_handler.cpp", "src/libsrcml/srcml_reader_handler.hpp", "src/libsrcml/srcml_unit.cpp:srcml_unit_get_srcml_inner"]}
{"id": "C40", "title": "Decoding of --text", "statement": "The text given with --text becomes source text with each escape replaced by the character it stands for and everything else unchanged; an escape for zero starts the next unit; nothing is read outside of the text.", "quantifier": "all texts", "why_tests_cant": "all strings", "anchors": ["src/client/src_input_text.cpp", "src/client/srcml_cli.cpp"]}
{"id": "C41", "title": "File lists", "statement": "A list of files names exactly the inputs on its lines, in order, without surrounding blanks; blank lines and comment lines name none; nothing outside of the list is read.", "quantifier": "all list contents", "why_tests_cant": "all strings", "anchors": ["src/client/src_input_filelist.cpp"]}
{"id": "C42", "title": "Names of units and of output files", "statement": "A unit read from a file carries the file's name without leading ./ and without the extensions of its compression; a unit written to a directory goes to that directory under its name, and the directory created is the one the file goes to.", "quantifier": "all file names and directories", "why_tests_cant": "all strings", "anchors": ["src/client/src_input_libarchive.cpp", "src/client/src_output_filesystem.cpp", "src/client/srcml_write.cpp"]}
{"id": "C43", "title": "Archive settings survive writing and reading", "statement": "Opening for reading a document written by an archive restores in the reading archive what the writing archive had set: revision, url, version, tab stop (with positions), stored options, attributes, namespace prefixes and macros; everything else of the reading archive is as it was.", "quantifier": "all archives, all setting values XML can carry, all archives read into", "why_tests_cant": "all strings, prefixes and combinations of options", "anchors": ["src/libsrcml/srcml_reader_handler.hpp: startRoot, metaTag", "src/libsrcml/srcml_translator.cpp", "src/parser/srcMLOutput.cpp: startUnit, outputNamespaces", "src/libsrcml/srcml_archive.cpp: srcml_archive_register_namespace"]}
{"id": "C45", "title": "Source recovered from the srcML", "statement": "The source that srcml_unit_unparse takes out of a parsed unit's srcML, and that its line count is made from, is the text that was parsed: escaped text, control characters and attributes notwithstanding, whatever elements the parser puts around it.", "quantifier": "all source texts, grammars, settings of unit and archive XML can carry, options, prefixes, and ways the XML parser cuts text into pieces", "why_tests_cant": "all texts and all nestings of elements", "anchors": ["src/libsrcml/unit_utilities.cpp: extract_src", "src/libsrcml/srcml_unit.cpp: srcml_unit_parse_internal, srcml_write_end_unit, srcml_unit_unparse", "src/parser/srcMLOutput.cpp", "src/parser/srcMLOutputElements.hpp"]}
{"id": "C35", "title": "A unit object answers for its source", "statement": "After srcml_unit_parse_* on a unit, srcml_unit_get_srcml, _inner, _outer, _loc, _hash and _src_encoding answer for the source just parsed, whatever was parsed or asked before on the same unit and however often it is asked; a refused parse changes no answer.", "quantifier": "all sequences of parses and questions on one unit, all sources and settings", "why_tests_cant": "all call histories", "anchors": ["src/libsrcml/srcml_unit.cpp: srcml_unit_parse_internal, srcml_unit_get_srcml, srcml_unit_get_srcml_outer, srcml_unit_get_srcml_inner, srcml_write_end_unit"]}
{"id": "C37", "title": "Position attributes follow the archive's own settings", "statement": "With SRCML_OPTION_POSITION every non-empty element of a unit with an extent has the attributes start and end with its line and column, with the prefix the archive gives the position namespace, and without the option none has them, whatever other archives the process writes before or at the same time.", "quantifier": "all sequences of elements written by any number of threads for any archives, all positions, all prefixes", "why_tests_cant": "all histories and interleavings of archives in a process", "anchors": ["src/parser/srcMLOutput.cpp: srcMLOutput::processToken, srcMLOutput::addPosition, positoa"]}
{"id": "C44", "title": "Archives read at the same time do not disturb each other", "statement": "Reading an archive with srcml_archive_read_unit gives the units of its document, and returns, whatever other archives the process opens and reads before, meanwhile or afterwards.", "quantifier": "all documents, all interleavings of the readers of a process and of the two threads of each", "why_tests_cant": "all interleavings of readers and histories of a process", "anchors": ["src/libsrcml/sax2_srcsax_handler.cpp: UNIT_ENTRY, MACRO_LIST_ENTRY, ESCAPE_ENTRY, start_document, first_start_element, start_element, end_element", "src/libsrcml/srcml_sax2_reader.cpp"]}
{"id": "C46", "title": "Tokens cover the source", "statement": "Every character of the source that srcml_unit_parse is given is in exactly one token, in source order, to the end of the source; no token is empty; and every control character that XML cannot carry is alone in a token marked as such, so that it is escaped.", "quantifier": "all languages, macro lists, tab stops and source texts of any length", "why_tests_cant": "all source texts and switches between the lexers", "anchors": ["src/parser/TextLexer.g", "src/parser/OperatorLexer.g", "src/parser/KeywordLexer.g", "src/parser/CommentTextLexer.g", "src/libsrcml/srcml_translator.cpp: translate"]}
{"id": "C47", "title": "Comments and literals have their extent", "statement": "What srcml marks as comment, string or character literal begins where it begins in the language and ends at its terminator: a block comment at the first */, a line comment before the next newline, a string at the first unescaped quote.", "quantifier": "all languages and source texts", "why_tests_cant": "all source texts: every nesting of quotes, escapes and comment marks", "anchors": ["src/parser/TextLexer.g: STRING_START, CHAR_START", "src/parser/CommentTextLexer.g: COMMENT_TEXT", "src/parser/OperatorLexer.g: OPERATORS"]}
{"id": "C48", "title": "Token positions", "statement": "With the position option, the line of a token is one more than the number of newlines before it, and its column that of its first character with the tab stop of the archive.", "quantifier": "all source texts, languages and tab stops", "why_tests_cant": "all source texts and histories of lexer switches", "anchors": ["src/parser/KeywordLexer.g: KeywordLexer", "src/parser/CommentTextLexer.g: init, tab", "src/parser/TextLexer.g: EOL, EOL_BACKSLASH", "src/libsrcml/srcml_translator.cpp: translate"]}
{"id": "C49", "title": "Keywords and registered macros", "statement": "An identifier that is a keyword of the unit's language is that keyword and never a name, whatever macros are registered; an identifier registered as a macro is marked as one, and no other is.", "quantifier": "all languages, macro lists and source texts", "why_tests_cant": "all macro lists and source texts", "anchors": ["src/parser/KeywordLexer.g: keyword_map, changeMacros, KeywordLexer", "src/parser/TextLexer.g: NAME"]}
{"id": "C50", "title": "Transformations apply in order to all results", "statement": "srcml_unit_apply_transforms applies the appended transformations in the order appended, each to every result of the one before, and gives the final results in document order with the type of the last.", "quantifier": "all units, lists of transformations and behaviours of the XPath, XSLT and RelaxNG engines", "why_tests_cant": "all lists of transformations over all documents; results interact through shared documents and their lifetime", "anchors": ["src/libsrcml/srcml_transform.cpp: srcml_unit_apply_transforms", "src/libsrcml/xpathTransformation.cpp: apply", "src/libsrcml/xsltTransformation.cpp: apply", "src/libsrcml/relaxngTransformation.cpp: apply"]}
{"id": "C51", "title": "Marking changes nothing else", "statement": "An XPath transformation with an element or an attribute gives the whole unit with exactly the nodes found wrapped in that element, or carrying that attribute, and every other node, its order and the source text unchanged.", "quantifier": "all documents, expressions and marks", "why_tests_cant": "all documents and sets of results, nested ones included", "anchors": ["src/libsrcml/xpathTransformation.cpp: addElementXPathResults, addAttributeXPathResults, append_attribute_to_node"]}
{"id": "C52", "title": "Units made of results", "statement": "Each result is a unit of its own with the srcML of the result, the attributes of the unit it was found in, an item number if it is a part of a unit, and the cpp and omp namespaces marked as used exactly if they are.", "quantifier": "all units, namespaces and results", "why_tests_cant": "all documents, attribute lists and namespace tables", "anchors": ["src/libsrcml/srcml_transform.cpp: srcml_unit_apply_transforms, usesURI", "src/libsrcml/unit_utilities.cpp: unit_update_attributes"]}
{"id": "C53", "title": "The list of transformations", "statement": "Transformations are kept in the order of the append calls since the last clear; a parameter belongs to the transformation appended last and is refused with a status if there is none; an attribute for the expression of the XPath appended last, without an attribute yet, is added to it.", "quantifier": "all histories of append, parameter and clear calls", "why_tests_cant": "all call histories", "anchors": ["src/libsrcml/srcml_transform.cpp: srcml_append_transform_xpath_attribute, srcml_append_transform_param, srcml_append_transform_stringparam, srcml_clear_transforms"]}
{"id": "C54", "title": "Conditional compilation: what is left as text", "statement": "Without options exactly the first branch of each #if 0 is left as text, including everything nested in it, and all else is marked up; with the option to mark up #if 0 nothing is left as text; with the option to leave #else as text, also all branches after the one kept.", "quantifier": "all nestings of directives, all look-ahead by the parser, all parser states", "why_tests_cant": "nesting is unbounded and look-ahead repeats directives", "anchors": ["src/parser/srcMLParser.g: eol_post, cppmode_cleanup, cpp_condition, preprocessor, else_handling"]}
{"id": "C55", "title": "The steps of a command finish with the composed output", "statement": "For every combination of inputs, output and options the command has at least one step, in the order create srcML, metadata, source, compression; the steps run at once, joined by pipes, and whatever the schedule, the capacity of the pipes and the sizes, all end and the output is that of one step after the other.", "quantifier": "all requests, all processes of the steps, all inputs, capacities and schedules", "why_tests_cant": "schedules of threads and pipe capacities; the output is often smaller than the pipe so tests do not see blocking", "anchors": ["src/client/srcml.cpp: main, request_create_srcml, request_display_metadata, request_create_src, request_output_compression", "src/client/srcml_execute.cpp: srcml_execute", "src/client/create_srcml.cpp: create_srcml", "src/client/create_src.cpp: create_src", "src/client/compress_srcml.cpp: compress_srcml"]}
{"id": "C56", "title": "Extraction of source code writes every unit asked for", "statement": "Extracting to standard output writes the source of all units in order, separated by NUL, or of the unit asked for alone (an error and nothing if there is none), in the line ends and encoding asked for; to a directory, a file for each name with the source of the last unit of that name and no others; to an archive, an entry for each unit in order, with distinct names for units without one.", "quantifier": "all archives, units, names, options, and numbers of inputs", "why_tests_cant": "ranges over all contents and all positions asked for", "anchors": ["src/client/create_src.cpp: create_src", "src/client/src_output_filesystem.cpp: src_output_filesystem", "src/client/src_output_libarchive.cpp: src_output_libarchive", "src/client/src_archive.cpp: language_to_std_extension", "src/libsrcml/srcml_unit.cpp: srcml_unit_unparse_internal"]}
{"id": "C57", "title": "Creating srcML writes one document with every source", "statement": "Creating srcML from any inputs (files, directories, archives, file lists, --text, srcML) writes one document with the settings asked for, holding the units of every source of every input in order; it is an archive exactly when the inputs or options ask for one, and otherwise has at most one unit; results that are text are written as lines in the order of the sources; the timing of the threads does not show.", "quantifier": "all requests, inputs, results of parsing, and all interleavings of the main and the writing thread", "why_tests_cant": "ranges over all combinations of options and inputs and all schedules of two threads that share an archive", "anchors": ["src/client/create_srcml.cpp: create_srcml, srcml_handler_dispatch", "src/client/srcml_input_srcml.cpp: srcml_input_srcml", "src/client/src_input_libarchive.cpp: src_input_libarchive", "src/client/src_input_filelist.cpp: src_input_filelist", "src/client/src_input_filesystem.cpp: src_input_filesystem", "src/client/src_input_text.cpp: src_input_text", "src/client/srcml_write.cpp: srcml_write_request"]}
{"id": "C58", "title": "What is written is XML that any XML reader reads as the units", "statement": "The documents written are well-formed, namespace-well-formed XML: after the declaration there is one element, and read as XML it tells the root with its settings, the macros, and for each unit in order a blank line and the unit with its attributes, its elements in the namespaces of the srcML vocabulary, with exactly the characters of the source.", "quantifier": "all archives and histories of settings XML can carry, all lists of units parsed in them, all sources", "why_tests_cant": "well-formedness and the scope of namespaces depend on every combination of prefixes, settings, attributes, elements and source characters", "anchors": ["src/libsrcml/srcml_translator.cpp:srcml_translator", "src/parser/srcMLOutput.cpp:startUnit", "src/parser/srcMLOutput.cpp:outputNamespaces", "src/parser/srcMLOutput.cpp:outputMacrolist", "src/libsrcml/srcml_archive.cpp:srcml_archive_write_unit"]}
{"id": "C59", "title": "What libsrcml writes, libsrcml reads back", "statement": "A document written by libsrcml and opened again by libsrcml gives, whatever pieces the XML parser reports it in and however the two threads of the reader interleave, exactly the units written, in order, each read call getting the next one not skipped, with the language, filename, version, timestamp, hash, revision, further attributes, source text and inner srcML it was written with; reading always comes to its end.", "quantifier": "all archives and histories of settings XML can carry, all lists of parsed units and all sources, all ways of reporting the document, all sequences of reads and skips, all schedules of the two threads", "why_tests_cant": "the reader recovers the text of units from a buffer position by position, so every combination of attribute, prefix, escape and chunk of text matters, and so does every interleaving", "anchors": ["src/libsrcml/srcml_archive_read.cpp:srcml_archive_read_unit", "src/libsrcml/srcml_reader_handler.hpp:srcml_reader_handler", "src/libsrcml/srcml_sax2_reader.cpp:read", "src/libsrcml/srcml_archive_write.cpp:srcml_archive_write_unit", "src/libsrcml/srcml_translator.cpp:srcml_translator"]}
{"id": "C60", "title": "srcml() translates in the right direction, with the global settings, there and back", "statement": "srcml(input, output) turns a file whose name has a language into the srcML document an archive with the global settings would write for it, turns a file named .xml or .srcml (or any unknown file if the language is xml) into the source text of its first unit in the encoding set, refuses every other file without writing anything, never changes the settings, and after one call in each direction the text is the one the parser saw.", "quantifier": "all histories of the global setters, all file names, all file contents and parser results, all failures to open or create files, all reports of libxml2 and schedules of the reader for the way back", "why_tests_cant": "the direction depends on every byte of the name and on the whole history of registrations and settings; the round trip goes through the writer, the XML parser and the two threads of the reader", "anchors": ["src/libsrcml/libsrcml.cpp:srcml", "src/libsrcml/libsrcml.cpp:srcml_set_language", "src/libsrcml/libsrcml.cpp:srcml_check_extension", "src/libsrcml/srcml_types.hpp:srcml_archive", "src/libsrcml/srcml_unit.cpp:srcml_unit_parse_filename", "src/libsrcml/srcml_unit.cpp:srcml_unit_unparse_filename"]}
{"id": "C61", "title": "With --position every element gets the place where its text begins and ends", "statement": "With the position option, every element in the output has as its start the line and column at which its text begins in the source, and as its end the place just before what follows it; the end is known before the start tag is written; empty elements get no position; the repeated type of a second declarator gets the position of the first; and the bookkeeping never reads from an empty stack.", "quantifier": "all token sequences, all grammar programs (sequences of calls on the token buffers, nested look-aheads and directives included), all maps from byte offsets to lines and columns", "why_tests_cant": "the positions are taken from the next token at the time of the call, while tags are put into four buffers in another order, and look-aheads and directives overwrite what was kept; all interleavings must agree", "anchors": ["src/parser/StreamMLParser.hpp:pushSTokenFlush", "src/parser/StreamMLParser.hpp:pushEToken", "src/parser/StreamMLParser.hpp:pushESkipToken", "src/parser/StreamMLParser.hpp:consume", "src/parser/StreamMLParser.hpp:consumeSkippedToken", "src/parser/StreamMLParser.hpp:nextToken", "src/parser/srcMLOutput.cpp:addPosition"]}
{"id": "C62", "title": "With --to-dir each source has its own srcML file", "statement": "With an output that is a directory, every source of every input that can be parsed gets one srcML file, directory/filename.xml, that holds the document of this source alone (or the units, or text, a transformation made of it) with the settings asked for; no other file is written, a file that cannot be created changes nothing about the others, and none of this depends on the order in which the threads make their calls.", "quantifier": "all lists of inputs, all requests, all orders of the calls of the threads, all sets of files that cannot be created", "why_tests_cant": "the writer changes a clone of an archive that the reading thread goes on changing; every order of their calls, with every set of files that fail, must give the same files", "anchors": ["src/client/srcml_write.cpp:srcml_write_request", "src/client/create_srcml.cpp:create_srcml", "src/client/srcml_utilities.hpp:default_delete", "src/client/src_input_file.cpp:src_input_file", "src/client/src_input_libarchive.cpp:src_input_libarchive", "src/client/src_input_text.cpp:src_input_text", "src/client/srcml_input_srcml.cpp:srcml_input_srcml", "src/libsrcml/srcml_archive.cpp:srcml_archive_clone"]}
{"id": "C63", "title": "An input that is a URL is read whole if the server has it, and refused otherwise", "statement": "The client accepts an input given by a URL if the download is complete, and only if the server answered with success; the bytes are passed on in order, none added or lost, and the reader gets all of them before the end of the pipe; the client neither waits for ever nor lets one download answer for another.", "quantifier": "all lists of URLs, all contents and block sizes, all codes, all partial and failed writes, all sizes of the pipe, all interleavings of the main thread and the download threads, spurious wake-ups included", "why_tests_cant": "the answer is handed over through a flag, a condition variable without predicate and a pipe, all shared by all downloads; which signal the main thread sees depends on the schedule", "anchors": ["src/client/input_curl.cpp:input_curl", "src/client/input_curl.cpp:waitCurl", "src/client/input_curl.cpp:goCurl", "src/client/input_curl.cpp:our_curl_write_callback", "src/client/srcml_pipe.cpp:srcml_pipe", "src/client/create_srcml.cpp:srcml_handler_dispatch"]}
{"id": "C64", "title": "The report of --parser-test counts every unit and shows what differs", "statement": "The report of the parser test lists the units of each file, numbered from 1, marks exactly those whose content changes when they are unparsed and parsed again, shows for each of these the two texts or the parts in which they differ, and ends with counts that agree: all units, those that fail, and for each language the units in it and those of them that fail.", "quantifier": "all lists of units, files, languages, URLs and contents before and after parsing again, with and without colour", "why_tests_cant": "counters, current file and language are kept from unit to unit in static members, so each count depends on the history; the cut of the two texts depends on where and how they differ", "anchors": ["src/client/ParserTest.cpp:ParserTest::entry", "src/client/ParserTest.cpp:ParserTest::report", "src/client/srcml_write.cpp:srcml_write_request", "src/client/create_srcml.cpp:create_srcml"]}
{"id": "C65", "title": "--cat writes one unit with the content of all sources", "statement": "With --cat the output is a single well-formed srcML document: one unit whose start tag is that of the first source, without its hash, and whose content is the content of every source that was parsed, in order, each ending with a newline.", "quantifier": "all lists of sources with and without a unit, all contents, all settings of the output archive and of the units", "why_tests_cant": "the start tag is cut from a document written for a clone of the first unit at a fixed number of bytes from its end, which is right only for certain settings and inputs, and the content is that of any number of units", "anchors": ["src/client/srcml_write.cpp:srcml_write_request", "src/client/create_srcml.cpp:create_srcml", "src/libsrcml/srcml_unit.cpp:srcml_unit_clone", "src/libsrcml/srcml_archive.cpp:srcml_archive_write_string"]}
{"id": "C66", "title": "The log of --verbose counts every file", "statement": "With --verbose the log has one line for each file in order: a number, counting from 1, and what was done for a file that was converted or extracted, a dash for a file without a language; the last line gives how many of each kind there were and how many failed. Without --verbose there is no log.", "quantifier": "all sequences of files, parsed, without a language or failed, with and without --quiet; all directories and all lists of archives with any number of units", "why_tests_cant": "the numbers are right for few files and wrong from a number of files on, and the sequence of results is that of any set of inputs", "anchors": ["src/client/TraceLog.cpp:operator<<", "src/client/TraceLog.cpp:TraceLog::~TraceLog", "src/client/srcml_write.cpp:srcml_write_request", "src/client/src_output_filesystem.cpp:src_output_filesystem"]}
