{
 "plan": {
  "C46": [
   "the four lexers and their switching, as one scan of the source",
   "each rule consumes a prefix of its input; induction over the scan; exact description of where no rule applies"
  ],
  "C47": [
   "same; specification: regions of the source by a small automaton on characters",
   "simulation between the lexers' modes and the automaton, by induction over the scan"
  ],
  "C48": [
   "CharScanner's line and column, tab, newline and lexer switches",
   "invariant: place = place after the text consumed"
  ],
  "C49": [
   "literal table as keywords and macros build it, and its use by NAME",
   "first-match lemma on the table, for every rule that tests literals"
  ],
  "C50": [
   "documents as trees of numbered nodes in memory, with xmlDocSetRootElement taking a node out of its place and documents freed when dropped; the engines as functions",
   "invariant of the loop over memory (separate trees, live nodes), induction over results and transformations"
  ],
  "C51": [
   "in-place wrapping and attributes",
   "relation between the tree before and after, extended by one result at a time"
  ],
  "C52": [
   "result units as the code builds them from a clone",
   "namespace flags and attribute update lemmas (C15, C30)"
  ],
  "C53": [
   "the calls as a fold",
   "groups of calls; induction over groups and histories"
  ],
  "C54": [
   "the counting of #if, #else, #endif and which text is skipped, with look-ahead that goes back and any sizes of the mode stack",
   "source as nested conditionals; a level at each directive; invariant between levels and the parser's counters and flags, by induction over parser steps"
  ],
  "C55": [
   "the choice of steps; the steps as processes joined by bounded pipes, any scheduling",
   "a process alone is described by its input, output and whether it closes; invariant over every state of all processes with a decreasing measure; progress when all pipes will be closed"
  ],
  "C56": [
   "the loops over units of the four kinds of destination",
   "induction over the units; splitting at NUL is unique; the last write to a path; names made up are read back"
  ],
  "C57": [
   "the settings, the events of the main thread for each kind of input, the calls of the writing thread, and their interleavings on the archive of C23",
   "the settings come first and later ones change nothing, so every interleaving writes the same units; C23 for the document, C12-C18 for the settings"
  ],
  "C58": [
   "the documents of C23 with the units of C21, C45; XML start tags, attributes, character data and namespace scope as relations on text",
   "each attribute, declaration and tag written is read back; the prefixes of the unit are in scope; induction over the trees of the unit and over the units"
  ],
  "C59": [
   "composition of the writer (C23, C58) with the reader (C27, C39): libxml2's reports as a relation between the text and the events, in any pieces",
   "the reports of a written document are shown to be an archive (or lone unit) as C39 wants it, element by element; the attributes go through update_attributes (C30)"
  ],
  "C60": [
   "the global setters as the archive and unit calls of C11-C17; srcml() over the archive model (C23, C24), the parse of C35 and the reader of C27/C39",
   "the direction by analysis of the name from its end; the document by transfer to an archive made by srcml_archive_create; the round trip by composing with C59"
  ],
  "C61": [
   "the calls a parse makes as an inductive relation on the states of the parser model of C08; the bookkeeping as a function on lists of calls; both tied by an invariant over the buffers (text before each tag, the stack of ends, open elements and comments)",
   "the invariant by induction over the relation; look-aheads by a second induction; printing by case analysis"
  ],
  "C62": [
   "the calls of the threads as in C57, with opening and closing the archive of each file; the archive of a file is a clone (a function of the settings of the output archive at that time); the file system as an oracle that says which files can be created",
   "each file by the theorems on written documents (C23); the state of the output archive by an invariant that the calls of the reading thread keep; induction over the order of calls"
  ],
  "C63": [
   "a transition system: the main thread, one thread for each download with its pipe, the shared flag and condition variable; libcurl as the list of blocks it hands to the callback, with the codes and the results of write",
   "invariants over all runs (the bytes), over calm runs (quiet earlier threads, what the flag means when the main thread is woken), and a measure that every step decreases"
  ],
  "C64": [
   "the static members as a state, one step for each unit, with the two texts and the cut between them as functions with undefined behaviour where an iterator leaves its string; unparsing and parsing are fields of a unit",
   "induction over the units for the totals and the table, over the files for the text, snoc-induction for the joined lines of the summary, and the cut from the longest common beginning and end"
  ],
  "C65": [
   "the calls of the writing thread on the output archive: the document of a clone in memory, cut by 51 bytes, then the content of each unit",
   "the document in memory by the theorems on solitary archives (C23) and on the parse of an empty text (C21), its last 51 bytes from the last attribute, the strings written directly by induction over the sources"
  ],
  "C66": [
   "the log as a state machine: its two counts and its text, driven by the writing thread and by the loop of the extraction",
   "an invariant: the lines so far show the entries so far; induction over the requests and over the archives; the count of the extraction modulo 256 by arithmetic"
  ]
 },
 "models": [
  [
   "Lexer_Model",
   "TextLexer.g, OperatorLexer.g, KeywordLexer.g, CommentTextLexer.g, translator's setup of the selector",
   "ANTLR 2.7's scanning semantics is stated in the file (k = 1, greedy); SRCML_OPTION_LINE off; columns unbounded"
  ],
  [
   "Transform_Model",
   "srcml_transform.cpp, xpathTransformation.cpp, xsltTransformation.cpp, relaxngTransformation.cpp",
   "libxml2 and libxslt as functions (engines) with the facts of `proper`; namespace nodes as results, extension functions and the dead form_simple_xpath are not modelled; wrapping the root together with other results is left as undefined"
  ],
  [
   "Cond_Model",
   "srcMLParser.g: eol_post, cppmode_cleanup, cpp_condition, else_handling's part",
   "sizes of the mode stack and places of look-ahead are arbitrary; look-ahead does not start or end inside skipped text (it is passed at once)"
  ],
  [
   "Steps_Model",
   "srcml.cpp:86-157, 178-232, srcml_execute.cpp:33-84, and which steps close their output",
   "what a step computes is arbitrary; reads and writes are of one byte; failures to open are left out"
  ],
  [
   "Extract_Model",
   "create_src.cpp:87-232, src_output_filesystem.cpp, src_output_libarchive.cpp, src_archive.cpp:70-106",
   "units an archive gives are a list; encoders are a function; failed writes left out; paths are compared as text"
  ],
  [
   "Create_Model",
   "create_srcml.cpp, srcml_input_srcml.cpp, src_input_text.cpp, src_input_file.cpp, src_input_filelist.cpp, src_input_filesystem.cpp, src_input_libarchive.cpp, srcml_write.cpp; srcml_archive.cpp:108-133",
   "the worker threads are in the requests; a call is atomic; --to-dir, --cat, --parser-test, messages left out; output to a file"
  ],
  [
   "Whole_Spec",
   "srcMLOutput.cpp, srcml_translator.cpp (through Writer_Model, Archive_Model)",
   "specification: XML start tags, character data, namespaces as relations (Root_Spec); comments, CDATA, DTD are not written"
  ],
  [
   "Back_Spec",
   "libxml2's SAX2 reports (trusted), srcml_reader_handler.hpp, unit_utilities.cpp (through Sax_Model, Text_Model)",
   "specification: reports of tags, character data in pieces, ends; blanks of up to 250 characters come in one piece"
  ],
  [
   "Global_Model",
   "libsrcml.cpp:75-460, srcml_unit.cpp:556-570, 667-725, srcml_types.hpp:266-281",
   "the file system as functions: contents, creatability, what reading one unit gives; encoders of libxml2 abstract"
  ],
  [
   "Places_Model",
   "StreamMLParser.hpp:203-541, 680-690, 872-886, srcMLOutput.cpp:497-530",
   "positions as unbounded numbers given by a function of the bytes read; the calls of a parse as a relation"
  ],
  [
   "Todir_Model",
   "srcml_write.cpp:66-101, srcml_utilities.hpp:31-52, srcml_archive.cpp:139-164, create_srcml.cpp:102-365",
   "one call is atomic; the directories made for a file, --cat and --parser-test are left out"
  ],
  [
   "Download_Model",
   "input_curl.cpp:41-163, srcml_pipe.cpp:35-68, create_srcml.cpp:58, 95",
   "the pipe has room for a number of bytes that one write may overrun; a refused input does not end the program; decompression stages are left out"
  ],
  [
   "Ptest_Model",
   "ParserTest.cpp:40-232, ParserTest.hpp:45-56",
   "unparsing and parsing again are given; setprecision(2) of a percentage is a parameter; counters do not overflow; the loop at 139-146, which moves invalid iterators whose values are not used, is left out"
  ],
  [
   "Cat_Model",
   "srcml_write.cpp:163-212, create_srcml.cpp:350-361, srcml_archive.cpp:140-163",
   "results of transformations with --cat are not modelled; sizes are below 2^31; the archive is closed at the end"
  ],
  [
   "Trace_Model",
   "TraceLog.cpp:30-76, TraceLog.hpp:46-57, srcml_write.cpp:44-63 and 214-239, create_src.cpp:93-104, src_output_filesystem.cpp:29-67",
   "only what the log itself writes, without --debug, results of transformations and --parser-test; counts are below 2^31; char is taken modulo 256"
  ]
 ]
}