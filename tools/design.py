import json
notes=json.load(open('/verif/tools/notes.json'))
out=r'''# Formal model of srcML in Rocq (Coq 8.16.1)

## Layout
`rocq/theories/`
* `Base.v` – bytes, outcome type (`Ok`/`UB`), list helpers.
* `*_Model.v` – small Gallina functions modelling the C++ code, each with the file and lines of /repo
  it models. No proofs of properties.
* `*_Spec.v` – short independent specifications, written without the model's helpers.
* `*_Proofs*.v`, `Parser_*`, `Source_*`, … – lemmas.
* `Properties_*.v` – the property theorems only: `Theorem C.. : … Proof. exact lemma. Qed.`,
  `Print Assumptions`, and an `Example` beside each showing that a non-trivial case meets the hypotheses.
* `tools/order.txt` lists the files in build order; `tools/mkproj.sh` and `tools/manifest.py` write
  `_CoqProject` and `MANIFEST.json` from it and from `tools/notes.json`.

## Conventions
* Undefined behaviour in the C++ (out-of-range read, null dereference, use after free, overflow of a
  buffer) is a distinct outcome (`UB`), never a default value.
* Where the code violates the stated property, the theorem about the code is named `.._refuted` with a
  concrete witness, and the strongest true statement found is proved, as `.._partial` if it is a part
  of the property.
* Loops are structural recursion, or explicit fuel whose exhaustion the theorems exclude.
* Concurrency: one labelled transition per atomic section (mutex-protected region, or a single
  unprotected access), condition variables with an explicit set of waiters, spurious wake-ups as
  transitions; theorems quantify over all finite interleavings.
* External components (iconv, SHA-1, libxml2, libarchive, libxslt, the ANTLR run time) are parameters of the
  functions – arguments of every theorem, not axioms – or event lists.

## Trusted base
* Coq's kernel (8.16.1) with `vm_compute`. No axioms: `Print Assumptions` under every property theorem
  says "Closed under the global context". (The checker's list of library axioms shows only the fields of a
  module type in the standard library's `Coq.ssr.ssrunder`, on which no theorem depends.)
* The reading of the C++ code: the model is written by hand from the text, no code was run. Each definition
  cites what it models; the mutation log `seeded/LOG.jsonl` shows which edits of the model break which theorems.
* The assumptions about external components, named in the header comment of each model file.
* The statements: `*_Spec.v` and the theorem statements in `Properties_*.v`.

## Models
| Files | Code | Simplified or left out |
|----|----|----|
@MODELS@

## Properties
How each is modelled and proved. "refuted" means a theorem `.._refuted` about the code as it is.

| Id | Model | Proof | Status |
|----|----|----|----|
@PROPS@

## What the proofs found in the code
Violations of the properties (the theorems `.._refuted` and the exact theorems show them), and defects seen while
modelling (marked *seen*: read in the code, no theorem).
@FINDINGS@

## Not modelled
* The grammar decisions of `srcMLParser.g` (which element is chosen for which construct): every theorem about the
  parser holds for an arbitrary program of parser actions, so which markup is right for a construct is not stated.
* libxml2, libarchive, libcurl, libxslt, iconv and SHA-1 internals; XPath evaluation; the file system and processes.
* Allocation failure, integer widths where a comment says so, `stderr` messages.
* Client: command-line option parsing (CLI11), `--show-*` output other than the metadata formats, git and curl input.
'''
models=[
("Reader_Model","parser/UTF8CharBuffer.{hpp,cpp}","iconv a record of functions; read callbacks a finite list of results"),
("Text_Model","srcMLOutput.cpp text, escapes and positions; unit_utilities.cpp; srcml_unit.cpp unparse and line count; srcml_reader_handler attribute update; srcDiff revision extraction","texts of 2^31 bytes and more"),
("Api_Model","srcml_archive.cpp, srcml_unit.cpp, libsrcml.cpp setters and getters, Namespace.cpp, srcml_macros, language_extension_registry, language decision, clones","–"),
("Writer_Model","srcMLOutput.cpp start/end unit, namespaces, options; srcml_translator.cpp; by-element writing; inner/outer/fragment srcML","the XML text writer as its documented output"),
("Archive_Model","srcml_archive.cpp:875-1345: open, write, read, close, free","the reader (Handoff_Model) as the list of its units"),
("Parser_Model","StreamMLParser.hpp, ModeStack.hpp, StreamParser, TokenParser: buffers, modes, look-ahead, preprocessor redirection, RAII helpers, exceptions","grammar rules as arbitrary programs of these operations; counters of a mode"),
("Queue_Model, Limiter_Model","client ParseQueue, WriteQueue, srcml_consume, create_srcml's end; OpenFileLimiter","thread pool as FIFO; positions beyond int"),
("Handoff_Model, Sax_Model","srcml_sax2_reader.cpp, srcml_reader_handler.hpp, sax2_srcsax_handler.cpp","libxml2 as an event list with buffer positions; unsynchronized flags atomic"),
("Input_Model","client src_prefix, srcml_input_src, src_archive, src_input_text, src_input_filelist, names in consume/write/filesystem output","what stat says is a parameter"),
("Pretty_Model","client srcml_pretty.cpp, queries of srcml_display_metadata.cpp","reading the archive is a record"),
("Root_Model","srcml_reader_handler.hpp startDocument/startRoot/metaTag","atoi beyond int"),
("Source_Model","unit_utilities.cpp extract_src","unreachable revision branch"),
("Reuse_Model","srcml_unit.cpp:288-545, several parses of and questions to one unit object","parser, digest, encoding detection as an environment"),
("Thread_Model","thread_local variables of srcMLOutput.cpp:53, 504-506, 538","–"),
("Shared_Model","process-wide variables of sax2_srcsax_handler.cpp:53-55","start_document sets the three at once; dictionaries are not freed meanwhile"),
]
M="\n".join("| `%s` | %s | %s |"%m for m in models)
plan={
"C01":("`readChars`/`getChar` as a state machine over a list of read results","induction over the read results against a specification on the whole input"),
"C02":("hash updates accumulated in the same model","same induction"),
"C03":("first-read branch with out-of-range access as `UB`","case analysis; refutations"),
"C04":("iconv as a UTF-8 decoder with incomplete-sequence error","refutation; positive when no character is split"),
"C05":("`processText` (fast path, `strpbrk` at NUL, slow path)","unescape∘escape = id by induction"),
"C06":("`snprintf \"0x%02x\"` and `strtol` as functions","all byte values, both signednesses"),
"C07":("`positoa` with its 16-byte buffer and index","strong induction over the value"),
"C08":("token buffers, skip buffers, redirected preprocessor buffers, lexer stream, arbitrary programs","invariant: delivered ++ buffered ++ unread = input"),
"C09":("mode stack with per-mode open elements","nesting invariant over the action list with logged faults"),
"C10":("mode-stack queries and unwinding loops","invariants on reachable stacks"),
"C11":("registry vector, reverse search","refinement to a finite map"),
"C12":("option word arithmetic","refinement to bit sets over call histories"),
"C13":("vector of macros","refinement to an ordered map"),
"C14":("namespace vector","refinement to an ordered map"),
"C15":("namespace merge","find/uris/flags of the merge"),
"C16":("URI comparison","byte-string reasoning"),
"C17":("unit/archive records with setters","get/set laws over call histories"),
"C18":("`parse_internal` language decision","case analysis against a priority specification"),
"C19":("unparse loop","induction"),
"C20":("line count in the writer, SAX callbacks and reader","induction; invariants of C39 and C01"),
"C21":("offset arithmetic over the output string","slicing lemmas against a tag specification"),
"C22":("translator state machine","structure theorem for proper histories; refutations for the rest"),
"C23":("archive writer","exact document for every history"),
"C24":("archive state machine","refusal and preservation over histories"),
"C25":("scheduler, pool and writer as a transition system","invariants and a termination measure"),
"C26":("limiter transition system","invariant; deadlock refutation of its use"),
"C27":("reader hand-off transition system","invariants, progress; refutations by runs"),
"C28":("`extract_revision` scanner","against a tree semantics of srcDiff"),
"C29":("string function","list reasoning"),
"C30":("`unit_update_attributes`","fold against a map specification"),
"C31":("string functions","list reasoning"),
"C32":("template splitting and expansion","grammar of templates, expansion by induction"),
"C33":("clone functions","histories on the two objects commute"),
"C34":("namespaces written for a unit and a root","declared prefixes ⊇ used prefixes, through merge and flags"),
"C35":("unit object with its caches","exact answers after any history, the property for the first parse"),
"C36":("archive state machine","open/close histories"),
"C37":("thread-local variables","exact output per thread history"),
"C38":("look-ahead operations","restoration of input, list, serial; mode stack refuted"),
"C39":("SAX handler over libxml2's buffer","slice invariants, composed with the hand-off"),
"C40":("escape decoding","decomposition into items"),
"C41":("line splitting","induction"),
"C42":("name functions","against path specification"),
"C43":("root tag written and read","parse of the printed tag, settings restored"),
"C44":("all readers of a process with shared pointers","simulation of the single reader while it is last; refutation otherwise"),
"C45":("lexer tokens to srcML to source","composition of C08, C05, C06 and an XML reading specification"),
}
ids=[json.loads(l)['id'] for l in open('/verif/properties.jsonl')]
extra=json.load(open('/verif/tools/plan_extra.json')) if __import__('os').path.exists('/verif/tools/plan_extra.json') else {}
plan.update({k:tuple(v) for k,v in extra.get('plan',{}).items()})
M+="".join("\n| `%s` | %s | %s |"%tuple(m) for m in extra.get('models',[]))
P="\n".join("| %s | %s | %s | %s: %s |"%(i,plan[i][0],plan[i][1],notes[i]['status'],notes[i].get('note') or 'all of it') for i in sorted(ids))
F=open('/verif/tools/findings.md').read().rstrip()
open('/verif/DESIGN.md','w').write(out.replace('@MODELS@',M).replace('@PROPS@',P).replace('@FINDINGS@',F))
