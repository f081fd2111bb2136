# Formal model of atlas_doc_parser (Rocq / Coq 8.16.1)

## 1. What is modelled, and where

| file (rocq/theories) | models (in /repo/atlas_doc_parser) |
|---|---|
| `PyStr.v` | the `str` methods the code calls: strip/rstrip/lstrip, split, join, replace, splitlines, textwrap.indent, str(int), upper |
| `Values.v` | JSON-like values, the OPT sentinel, exceptions as values |
| `Schema.v` | `type_enum.py`, the two registries, the field tables of all 35 node and 16 mark classes and their Attrs classes |
| `Parse.v` | `mark_or_node.py` from_dict (Base, BaseMark, BaseNode), `parse_node`, `parse_mark`, settings flag, warnings, `exc.py` |
| `Serialize.v` | to_dict (Base, BaseMark, BaseNode), remove_optional |
| `Date.v` | `node_date.py`: int(), int/1000 in binary64, datetime.fromtimestamp(utc).date() |
| `Markdown.v` | `markdown_helpers.py` and every `to_markdown` of every mark and node |
| `Calls.v` | the same functions, recording every call of to_markdown with its nesting (C70 only) |
| `PySyntax.v`, `PySem.v` | syntax and interpreter of the part of Python used by the rendering code (C71) |
| `RepoCode.v` | generated: the source text of the rendering code as PySyntax terms |
| `CodeFacts*.v` | running that text gives what Markdown.v says |
| `PySem2.v` | interpreter of the part of Python used by reading and writing: dataclasses, class methods, super(), module-level cache, warnings (C72) |
| `RepoCode2.v` | generated: the source text of reading and writing as PySyntax terms |
| `ReadFacts*.v`, `WriteFacts*.v` | running that text gives what Parse.v and Serialize.v say |
| `Cache.v` | `_CLASS_FIELD` / get_fields / from_dict threading a process-wide state |
| `HeapDict.v` | to_dict on the heap |
| `Threads.v` | the parser as atomic accesses to the shared cache, flag and log; interleaving of threads |
| `Heap.v` | copy.deepcopy (with memo) and the in-place updates of from_dict on an object heap with sharing |
| `HeapRefine.v` | proof that the heap program computes what `Parse.v` computes on the values it denotes |
| `Analyze.v` | `scripts/s01-adf-json-schema-analysis/s2_analyze_adf_json_schema.py` |
| `GenNodes.v` | `scripts/s02-nodes-code-gen/s1_gen_code.py` and its templates |
| `Helper.v` | `tests/helper.py` check_seder |
| `Crawl.v` | scripts/crawl_atlas_doc_reference/step1_crawl_document.py; scripts/s02-download-unit-test-data/step1_download.py |
| `Cwd.v` | vendor/pytest_cov_helper.py; tests/helper.py run_unit_test, run_cov_test |
| `Download.v` | `tests/data/schema.py` AdfJsonSchema.data, `tests/data/samples.py` PageSample.adf |
| `Equal.v` | the dataclass-generated `__eq__` and `__hash__` |
| `GenCode.v` | `gen_code.py` scan/group/render and `templates/api.py.jinja` |
| `RepoApi.v` | GENERATED (tools/gen_modules.py) from the source text: the modules and members `gen_code.py` would find, and the committed api.py |
| `RepoSchema.v` | GENERATED (tools/gen_schema.py) from the source text: registries, dataclass fields and defaults, TypeEnum |
| `RepoReport.v` | GENERATED (tools/gen_report.py) from the committed schema analysis report |
| `Samples.v` | GENERATED (tools/gen_samples.py): the repo's fixtures (tests/adf_samples, tests/data/samples.py) evaluated in the model: tests of the model's fidelity, not proofs |
| `Spec*.v` | small specifications, independent of the model's helpers |
| `*Facts*.v`, `Collapse.v`, `Basics.v` | proofs |
| `Properties_*.v` | the property theorems, each with a concrete example meeting its hypotheses, and `Print Assumptions` |
| `Properties_Examples.v` | further concrete cases for theorems whose first example sat in another file |

Strings are lists of Unicode code points (`list N`). Exceptions are values (`res A := Ok a | Err e`).
Parsing runs in a writer-exception monad (log of warnings, result). Markdown is a structural recursion over
the object tree; each class's `to_markdown` is one definition, dynamic dispatch is the recursive call.

## 2. How each property is proved

* C01-C07 (parsing): structural induction over the input value; specifications are functions on input dictionaries
  (`strip_unknown`, `prune`, `unknowns`), theorem = equality of the full outcome (log and result).
* C08: invariant over every operation sequence of the cache machine, refinement to "no cache".
* C09: heap model; invariant "old addresses unchanged, result reaches only fresh addresses"; agreement with the value
  model by a denotation relation between heap references and values (HeapRefine.v).
* C04-C06, C11 are stated a second time over the class tables generated from the source text (Properties_Schema.v), so
  that a wrong entry in the model's own tables (Schema.v) falsifies a theorem.
* C10, C11, C13: induction over the object tree; C12: iff condition for the leak, with a witness.
* C14: corollaries of C02/C10 with the Markdown function applied.
* C15-C19: direct proofs about the mark functions for all strings; C17 by induction on the mark list.
* C20: induction on trees with the relation "occurs in order, disjointly". Stated on parsed objects (Properties_Text.v) and, in
  Properties_InputText.v, from the input dictionary: the texts are read off the dictionary by `input_texts` (SpecInputText.v).
* C21, C22, C27: algebra of the replace pass on newline runs; refutations by witness.
* C23-C26: induction on trees; refutations by witness.
* C28-C30: induction on rows/cells, counting functions specified on strings.
* C31-C34: refinement to an outline (list of (depth, lines)) specified independently.
* C35-C37, C39-C41, C46: line-level specifications.
* C38: exact integer model of binary64 rounding; calendar specified by leap-year rule, checked on the 400-year cycle
  and lifted by periodicity.
* C42, C44, C48: induction on trees.
* C43, C47: direct.
* C49: threads as programs of atomic accesses to the shared cache, flag and log (Threads.v); invariant over every
  interleaving, well-foundedness of the step relation.
* C50: to_dict as a heap program (HeapDict.v: dataclasses.asdict, the local dictionary and its in-place updates,
  remove_optional); every write is to an object allocated by the call, and it refines Serialize.v (HeapDictRefine.v).
* C51-C53: a generic simulation lemma (EqualFacts.v): parsing and to_dict respect every relation of data that compares lists elementwise,
  dictionaries as maps and atoms by any relation that keeps strings and OPT apart; instances: identity (key order) and Python's ==
  (Equal.v, a boolean function proved to decide the specified relation). Hash functions of atoms and tuples are oracles.
* C54, C55: the schema analysis script (Analyze.v). Sets are lists in insertion order and every walk over a set goes through an arbitrary
  permutation; loop invariant for Kahn's algorithm, a specification that determines the order (SpecAnalyze.v), pigeonhole for "blocked = depends
  on a cycle"; the report as text. The committed report is recomputed to the byte from definitions read off it (RepoReport.v, generated).
* C56: on the heap programs of C09 and C50, count allocations (memory = number of objects; the cost of immutable data, of growing a list and of the
  interpreter itself is not modelled). Induction on the recursion; a chain of block quotes for the lower bound.
* C57-C62: the class generator (GenNodes.v). main() is a program that reads and changes the schema and emits file actions (write; write if absent); a run
  performs them on an arbitrary disk and may end complete, by an exception, by a missing directory, or killed between actions or inside one (the
  file then holds a beginning of its content). Invariants over histories of runs give C57-C59; C60-C62 come from a characterization of the emitted actions.
  Simplified: schema parts of the wrong shape raise TypeError/AttributeError; a module name with `/` in it stands for itself; a stub's names are
  recomputed even if the file exists (they cannot raise then); jinja's rendering of the fixed templates is transcribed; progress output is left out.
* C63: check_seder (Helper.v) on top of C10 (round trip) and C52 (equality).
* C64, C65: the two download caches (Download.v): a transition system of any number of processes over one file with kills, failed and cut writes; invariants over
  its executions. json.loads/dumps are an oracle; opening for writing truncates; a write overwrites from the beginning of the file in one step.
* C66: one-hole replacement as an inductive relation (SpecSubst.v); induction on the position, with a stronger invariant for children their parent inspects.
* C67: SpecRaise.v relates each exception to the objects (or input elements) that can cause it; induction on the tree, resp. on the input.
* C68: SpecSize.v defines size and depth; a measure-generic induction bounds line breaks, pipes and weighted length together (a quote adds to every line, a cell escapes every pipe); the nested-list family from C31's outlines shows the bound is reached.
* C69: SpecJoin.v relates the two parts to the whole (dictionaries and objects); collect, mapM and the rendering loops are homomorphisms for list concatenation.
* C70: Calls.v is Markdown.v once more with the calls of to_markdown recorded (same results: C70_same_result); SpecCalls.v says which objects a rendering asks for; induction over the tree with the relation "records part / an initial part / all of".
* C71: PySyntax.v is the part of Python's syntax the rendering code uses, PySem.v an interpreter for it, RepoCode.v (generated by tools/gen_code_ast.py from /repo with Python's `ast`) the source text itself. CodeFacts*.v run each function symbolically and show that it equals Markdown.v's, by induction on the document's depth; so the hand translation of the rendering code is checked against the text. `Wrong` stands for anything outside: a change to the document, an aliased list, an unbound variable, no more fuel.
* C72: the same for mark_or_node.py, parse_node.py and parse_mark.py: RepoCode2.v is their text with the dataclass fields of every class (names, defaults, annotated classes), PySem2.v an interpreter with a world (warnings logged, the field cache) and with ownership states on lists and dictionaries so that mutation of shared data is `Wrong`. ReadFacts*.v and WriteFacts*.v prove by induction on the nesting of the input (the depth of the node) that it equals Parse.v and Serialize.v in every world whose cache is true, and that such worlds are preserved.
* C45: model of the scanner and template; exactness by sorting lemmas; the repository itself as an instance.
* C73: SpecSource.v defines what parse_node(v).to_markdown(...) does, with the two interpreters of C71 and C72 run one after the other on the generated text; C73_same_object shows that an object's fields
  read the same in both; C71 and C72 then carry C02, C07, C10, C14, C20, C23, C42, C44, C67, C68 over to it, so that these are theorems about the source text (as interpreted).
* C74: SpecChars.v defines, for any relation on characters that fixes ASCII and relates otherwise only non-white-space characters outside ASCII, related strings, attributes, objects and dictionaries;
  every string operation of the renderer preserves the relation (CharFacts.v), so does every to_markdown (CharFacts2.v, induction over the object) and parse_node (CharFacts3.v, induction over the dictionary);
  three instances of the relation give the readable theorems (renaming, same shape, no new characters), and C73 carries the result to the source text. A panel type's upper-case form comes from the oracle, hence its condition.
* C75: SpecReader.v is a reader for the block structure of GitHub Flavored Markdown (containers: quotes and list items with lazy continuation; leaves: paragraphs, ATX headings, rules, fenced code,
  tables), written after CommonMark 0.31's line-by-line algorithm, independent of /repo and part of what has to be trusted (as the meaning of "reader"); what it does not cover it reports as EOther. SpecSeen.v says which blocks should be
  seen as which events. Proof: each kind of block has a reading that holds in every surrounding state (ReaderFacts2-6), lists by induction on the tree of items (ReaderFacts5, 7), and the layout, including newline collapsing, only
  moves blank lines (ReaderFacts8); ReaderFacts9 puts them together by mutual induction. Task lists are the same trees with the box in front of the text, decisions are quotes (ReaderFacts10). Not covered by C75: inline structure (emphasis, links), media, marks on paragraphs beyond their text.
* C76-C78: blocks outside C75, with the same reader: what is read instead of the block. Tables (C76): [headed_table] and [body_rows] say what the reader takes for header and rows. Lists (C77): [bullets], [numbered] and [item_lines] describe
  the item; the output lines come from ListFacts2, the reader runs over them as in C75. Whole lists (Properties_Reader4.v): [list_got] computes, item by item, the tree of items a reader gets; the lines of every item are a padded
  reading of that tree, and one more block either lengthens the last paragraph or adds items below; mutual induction over the relation. Headings and code (C78): direct runs of the reader; for empty lines in code, the newline-run algebra of Collapse.v shows that only empty lines are lost and when.
* C79: SpecInline.v is an inline reader written after the CommonMark algorithm (scan into tokens: text, delimiter runs with flanking, brackets; code spans; links and images; the delimiter stack), independent of the
  renderer; what it does not cover it reports ([Unreadable]) or lists in its header. SpecLook.v says what should be seen ([all_shown]) and when Markdown can express it ([expressible]). Proof (InlineFacts1-5): a piece "adds" tokens
  whatever came before; signs around a piece are balanced runs that the delimiter stack closes in order (16 orders of the three kinds of emphasis, each by computation over an arbitrary inner text); induction over the nodes.
* C80: texts outside C79, with the same reader: what is seen instead (InlineFacts6-8). [styled], [written], [tame], [harmless] and [word_text] (SpecLook.v) describe the nodes and the texts around them.
* C81: SpecSight.v composes the two readers ([behold]) and says, block by block, what should be seen ([all_look]): the inline nodes of C79 inside the blocks of C75. Proof (SightFacts1-2): induction over
  C75's derivation, inverting the other; each text is the list of C79. C81_source carries it to the interpreted source text (C73).
* C82: SpecCell.v: a cell is unescaped (pipes, GFM 4.10) and read by the inline reader, which reads `<br>` and `&nbsp;` (SpecInline.v); [cell_looks] says what should be seen of its paragraphs, line by line.
  Proof (CellFacts): the written cell is [escape] of its lines joined by `<br>` ([cell_src]); each line is read in front of what follows (C79's [reads] with a remainder). The tables of C81 use it.
* C83: Crawl.v: a run is the list of its actions (remove, make, request, store, write) on a disk (page cache and directory) and an outcome; kills fall between actions or inside
  one. The programs are written with a small monad of actions. Invariants of the traces (CrawlFacts1: a request happens only for a page not stored, a stored page is a server's answer), then
  the files of a trace (CrawlFacts2), then histories by induction. The specification (SpecCrawl.v) names elements by positions and says which files a directory should hold.
* C84: first hit of nested loops against "first in document order" by positions: the list of descendants is sorted by [earlier] and complete.
* C85: the same for the downloader.
* C86: Cwd.v: statements with exceptions and blocks, run by a total function on a world of working directory, directories and started commands; paths are walked name by name, and
  SpecCwd.v says by a relation where they lead. Induction over statements. Threads: a block is seen as two events on the one working directory of the process.
* C87: SpecFlow.v: blocks ([base]) with how they begin and end, the text that goes into them ([part]), parts in a row without an empty line that are kept apart ([close_run]: an item mark, or a quote after something other than a quote, ends what is open), documents ([flow]); tables in a row ([more_rows]) and decision lists in a row ([decision_lists]) are blocks of one kind each; C75's [all_seen] is one of the rules. Proof (FlowFacts.v): a part is one block for the layout except where decision lists bring empty lines of their own ([body]: cores as in C75's
  [presents]); its lines are read by the runs of C75-C77, extended by lazy continuation lines; task lists are trees whose last paragraph grows ([add_text]); induction over [flow]. Task lists and decisions in quotes are not in the rules.

Nothing in the list is inexpressible; where the code violates a property, the theorem is named `..._refuted` (witness)
and a `..._partial` or conditional theorem states what does hold.

## 3. Trusted base

* **Coq's kernel** (8.16.1), and `coqchk` which re-checks the compiled library.
* **Axioms**: none of our own. `Print Assumptions` prints "Closed under the global context" for every theorem in
  `Properties_*.v`: the generated file Assumptions.v (tools/gen_assumptions.py) runs it on every theorem named in MANIFEST.json. The development requires the standard library
  (Lists, Strings, ZArith, NArith, QArith, Lia, Permutation, Sorting) only; `coqchk` additionally lists constants of the
  `ssr` plugin's library that are loaded with it, and no theorem depends on them.
* **The model is a hand translation** of the Python text. What links it to the source: (a) every definition cites file and
  lines; (b) the class tables, TypeEnum, the module list and the committed api.py are re-extracted from the source by the
  scripts in tools/ (which are trusted) and compared inside Coq; (c) the repo's fixtures are evaluated in the model
  (Samples.v); for the rendering code the source text itself (RepoCode.v, by tools/gen_code_ast.py, trusted) is run by the interpreter of
  PySem.v (trusted as a description of Python) and proved equal to the hand translation (C71), and likewise reading and writing (RepoCode2.v, PySem2.v, C72); (d) the mutation log seeded/LOG.jsonl shows which theorems notice which edits of the model.

### Modelled
from_dict / to_dict / to_markdown of all 35 node and 16 mark classes and their Attrs classes; parse_node, parse_mark;
is_type_of; UnimplementedTypeError's message; settings.WARN_UNIMPLEMENTED_TYPE and the warnings logged; the class-field
cache; deepcopy and aliasing in from_dict and to_dict; the dataclass-generated `__eq__` and `__hash__`; concurrent from_dict calls;
markdown_helpers; gen_code and its template; the schema analysis script s2_analyze_adf_json_schema.py;
the class generator s1_gen_code.py; tests/helper.py check_seder; the download caches in tests/data.

### Not modelled, or simplified (each also noted at the definition)
* `func_args` (third party, source not in /repo) is modelled by its documented contract: REQ/OPT are singletons that survive deepcopy and
  asdict; a field still REQ at construction raises ParamError (`__post_init__`); `remove_optional` drops top-level OPT values.
* Data: dictionary keys are strings; the REQ sentinel never occurs as data; other Python objects (sets, tuples, user
  classes, str subclasses) are outside the value type. Floats are given by their IEEE value or as inf/nan.
* `str()` / f-string formatting of floats, lists, dicts; `str.upper` on non-ASCII; the numeric value of non-ASCII decimal
  digits: an arbitrary oracle (`runtime`); theorems hold for every oracle.
* The `level` argument of nested list rendering is a natural number, as in every call the code makes.
* Recursion limit, memory, CPython's limit on int/str conversion: not modelled, except that the heap model has fuel for the recursion limit.
* Heap model: deepcopy fills a copy in one step after its elements are copied (no `__deepcopy__`/`__reduce__` hooks); instances are
  unhashable, like lists and dictionaries, as far as registry lookup is concerned.
* Cache model: when the argument is not a dictionary Python may fill a cache entry before the TypeError; the model leaves the cache
  alone (the theorem's invariant holds for both).
* Log records are the data of the exception; the logging framework is not modelled. Threads: see C49.
* gen_code: file system order and the import system are parameters; Jinja's rendering of the fixed template is transcribed.
* Crawler and downloader: BeautifulSoup's parser and prettify, json.dumps and the file system's treatment of names are parameters; credentials, sleeping and printing are
  left out; a diskcache entry is stored in one step and never evicted; step2_to_markdown.py imports a module that is not in /repo and is not modelled.
* Working directory: POSIX paths, no symbolic links; commands are parameters; printing is left out.
* Type hints, `__repr__`, docstrings, packaging, the other scripts in /repo/scripts and docs are not modelled.
