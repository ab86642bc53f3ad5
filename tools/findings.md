* **Reading.** First read exactly a UTF-8 mark: out-of-range access; a mark or a character split over reads is lost or ends the
  input; UTF-32LE mark taken for UTF-16LE (C03, C04). *Seen*: the destructor calls a null close_callback
  (UTF8CharBuffer.cpp:485-488); iconv_close on (iconv_t)-1 when errno is not EINVAL (srcml_unit.cpp:506-513); the language-less
  srcml_unit_parse_filename leaks its descriptor; `unit->encoding` is taken before the first read on stream routes; INVALID_POS is dead code.
* **Text.** Text with a NUL byte is not escaped after it (C05) and cut when unparsed to memory (C19); `getLOC` gives 1 for an empty
  source and is dead code; CDATA newlines are not counted (C20).
* **API.** set_options overwrites internal bits and with them solitary, hash, cpp-declared and the namespace declarations (C12);
  disable_option(CPP) leaves CPP_DECLARED; macro index wraps at 2^63 (C13); get_namespace_prefix at position = size is out of range (C14);
  set_processing_instruction dereferences null (C17); flags offered for a URI with a user prefix are dropped (C15). *Seen*:
  get_language_extension uses the text after the last '.' even in the directory part; srcml_archive_free dereferences before its null
  check; is_solitary/has_hash dereference null; unit_update_attributes drops prefixes.
* **Writing.** Units written by element: over-closing, attributes on the unit, a refused namespaced attribute leaks a pending declaration,
  empty names (C22); outer srcML is wrong when another value contains ' url=' (C21); undeclared prefixes for OpenMP user prefixes and
  copied units (C34). *Seen*: `std::to_string(tabsize).c_str()` dangling (srcMLOutput.cpp:372); write_open_filename ignores a null output
  buffer; error elements are in the source namespace; SMARKER has two entries in the element table; add_start_unit uses the unit's or archive's language and not the
  derived one, so the srcML of a unit whose language came from its extension lacks the attribute.
* **Archives.** Reopening after writing writes nothing; a second close nulls the user's buffer; mixing write_unit and write_string, or
  write_string after close, uses a freed buffer; write_string on an unopened archive is accepted; a solitary archive with other than one
  unit is malformed XML (C23, C24, C36). The stored encoding is written twice after reading (malformed XML); the cpp/omp prefixes are not
  restored; the processing instruction is never read back; prefixed archive attributes lose their prefix (C43).
* **Parser.** A statement cancelled against a wrong token or an exception out of a macro call loses or moves text (C08); the preprocessor's
  end of outer modes, unterminated comments and exceptions while guessing break nesting (C09); modes hidden by clearMode (C10); looking
  ahead changes the mode stack (C38). *Seen*: the duplication machinery of cppif is dead (`if (false && …`, srcMLParser.g:9432);
  an unterminated registered macro inside look_past leaves guessing set; pauseStream without startElement for Java enum class;
  ModeStack::getPrevMode returns getMode.
* **Client.** `-j 0` writes nothing or hangs; a worker's exit(1) abandons earlier inputs (C25); the limiter admits 201 and can deadlock with
  --to-dir (C26); `?` truncates local names (C31); a final backslash or empty --text is undefined (C40); the last one-character line of a
  file list is lost, an empty list is undefined (C41); output directory "." writes to the root, ".." escapes it (C42); metadata templates, and `%N:u:p` is accepted in a template but never filled in
  (C32). *Seen*: srcml_write reads s[strlen-1] of an empty string; srcml() reads input_filename[len-6] with only len > 4.
* **Streaming reader.** Lost wake-up in malformed documents, spurious wake-ups, roots other than unit (C27); comments after start tags,
  units without attributes, raw '>' and others move the slices (C39); elements between units are taken for units; reading a second
  archive makes reads of the first hang (C44). *Seen*: cpp_prefix's ternary is inverted and never reset; after stop in reparse_root,
  start_element reads a freed buffer; reopening without free leaks the reader; unparse works only for archives opened for reading.
* **Units.** Reusing a unit object leaves inner, outer, line count, hash, encoding and namespaces of the earlier parse (C35); position
  option and prefix of a thread's first archive are used for all its later ones (C37); extract_src reads through null for escape
  elements without attributes or in no namespace (C45).
* **Lexers.** DEL (0x7f) outside comments and literals matches no rule: the rest of the source is lost with status OK (C46); a tab stop of 0
  and a tab divide by zero (C46); a control character in a raw string's delimiter goes into the srcML unescaped (C46); `"a""b"` is not two
  strings, `/*!/` is a whole comment, `@"a\""b"` ends early, `1'000` starts a character literal, a raw string with a
  delimiter outside of ASCII never ends, one over lines in a directive ends at the newline (C47); the tab stop is not used inside
  comments and literals (C48). *Seen*: a line comment is not continued by a backslash; several newlines after a backslash are one token;
  any comment ends the state "preprocessor line"; a control character before a newline there lets a string take the newline; a macro named as a keyword or with an unknown
  type is ignored, one named as an operator retypes the operator; isline/line_number are dead.
* **Transformations.** A result without a match ends the loop and loses all others; of several scalars one is given; results inside one
  another are torn apart by the next transformation; a stylesheet for two results uses freed nodes; no place for the result and no match
  use a null pointer; elements after a text in a stylesheet's output are lost (C50). An attribute that is there already is written twice
  (append_attribute_to_node passes the value as URI), one added to an earlier XPath has no namespace, wrapped attributes are deleted
  (C51). Text and attribute results go unescaped into the srcML (C52); a string parameter with a quote (C53). *Seen*: the transformations
  are not cleared although documented; *presult is not set without transformations; the getters take a negative index; `throw;` without
  an exception in the constructors ends the program; starttag.back() of an empty string; old root elements leak.
* **Conditional compilation.** With #else as text: an #else or an #if 0 nested in an #else ends the text at the inner #endif; the #else of an
  #if 0 inside the live #else of another is left as text when blocks closed between; with both options look-ahead over an #if 0 loses count;
  `#if 0 || X` is taken for #if 0, `#if (0)` is not; an apostrophe in text left out (`don't`) hides #endif and the rest of the file (C54).
  *Seen*: cppmode grows with every #if without the option and is never popped; `#elif 0` is never skipped.
* **Steps of a command.** `srcml a.xml -o a.cpp.gz`, `-o src.tar.gz` and metadata with a compressed output never end: create_src and
  srcml_display_metadata do not close the pipe that compress_srcml reads to its end (C55). *Seen*: `-o src.tar.gz` would not be a tar;
  display_metadata ignores `-o`; create_src writes the NUL separator to descriptor 1 instead of the destination; create_srcml's
  early return when the output cannot be opened leaves the pipe open; `user_uris.find(…) != user_namespaces.end()` compares iterators of
  two maps; `arg.back()` of an empty argument; lang2ext.find(NULL) for a unit without language.
* **Extraction.** Without --unit a file gets only the first unit; a directory ignores --unit, --eol and --src-encoding and leaves unnamed units
  out; made-up names start again with each input; a unit without name and language in an archive reads a null string; separators go to
  descriptor 1; a negative --unit is the first unit (C56). *Seen*: an input that cannot be opened gives an empty output; strlen in
  srcml_unit_unparse_memory cuts UTF-16 entries after the first character; the unit's stored encoding wins over --src-encoding.
* **Creating srcML.** `srcml archive.xml -o out.xml` without -X writes a document with several document elements; with two srcML inputs the
  namespaces of the second are declared only if its reader is faster than the writer; a single input without source gives an XML declaration
  alone, and inputs that all fail an empty file; an empty string result reads before the string (C57). *Seen*: after any warning the archive is
  not closed but only freed, after its descriptor was closed, so the tail of output to standard output is lost; -X with --to-dir and text input
  without language read empty optionals; an archive named only by dots and slashes throws; the two threads use the archive without a lock.
* **XML.** With a prefix registered for the srcML namespace, `macro-list` is still written without one, so it is in no namespace; settings (version,
  filename, macros) with control characters are written as they are, which no XML reader accepts (C58).
* **Round trip.** An archive closed without units is written as `<unit .../>` and read back as one unit (C59). The encoding stored with
  the option STORE_ENCODING is read back as an ordinary attribute `src-encoding`, not as the unit's encoding (C59: `read_back`).
* **srcml().** srcml_set_eol has no effect on srcml(); srcml_set_language does not make a file with an unknown extension readable
  (the message says the language is not supported); SRCML_STATUS_OK is returned although the output could not be created, and although no
  unit could be read; the name `srcml` is read before its first byte (`input_filename[len - 6]` with len 5); the output file is truncated
  before the input is opened (C60).
* **Positions.** lastline and lastcolumn are not put back after a look-ahead and are overwritten by directives, so that the end of an element
  can be reported after text that does not belong to it; the position of an element begun by startNoSkipElement is after the white space
  that the element contains (C61).
* **--to-dir.** Two sources with one path write one file; an empty optional is dereferenced for a source without a name and for every unit of a
  srcML input; srcml_archive_disable_hash is called after the hash was computed, so it has no effect (C62).
* **Downloads.** waitCurl waits without a predicate, so a download that signals before the wait is lost and a spurious wake-up returns an old
  answer; the flag is shared by all downloads; a transfer that breaks off after its first block is parsed as if it were whole; every code but 200
  (ftp's 226) is a failure (C63). *Seen*: curl_errors stays set after a failed URL, and a later empty local input is then skipped.
* **Parser test.** Units are counted in the language of the first unit of their file; a first unit without language is not counted and its file counts as the
  language before; where parsing again leaves out or adds text in a unit of more than five lines, std::mismatch runs past the beginning of a string, or back() is
  taken of an empty one; a difference at the end of a line loses text in the report (C64). *Seen*: setprecision(2) prints 100% as 1e+02%; the loop at
  ParserTest.cpp:139-146 uses iterators that erase() has made invalid, and its results are dropped.
* **--cat.** The start tag is taken from a document in memory without its last 51 bytes (srcml_write.cpp:193), the length of a hash attribute and of what follows. A single
  file has no hash: its start tag is cut in the middle and the output is not XML. The same with a stored option (--cpp-markup-if0), which follows the hash, and with a prefix for the
  srcML namespace (the end tag is always </unit>); namespaces that only later sources use are not declared (C65).
* **--verbose.** Errors are never counted (num_error in TraceLog.hpp is not changed anywhere). In an extraction the running number is passed to an operator that takes a
  character (src_output_filesystem.cpp:63): the number 45 is the code of the dash, so the 45th file of an archive and every 256th after it are logged as other files (C66).
