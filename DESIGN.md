# Formal model of py-armodel: design

Sources are read as text from `/repo` (Python); nothing is executed.  The model is written in
Coq 8.16 under `rocq/theories`.  `properties.jsonl` holds the properties in English,
`MANIFEST.json` the theorems proved for each, `seeded/LOG.jsonl` the wrong programs the theorems
were tried on.

How to read `seeded/LOG.jsonl`: the edit is made in a scratch copy, and every lemma whose proof
script no longer goes through is admitted there so that the build continues.  A theorem counts as
failed when it is one of these lemmas or depends on one (`Print Assumptions`).  This is more than
"the statement is now false": theorems sharing one invariant fail together, and a proof script may
break although its statement still holds.  What the edit makes false is the `claim`; that the
failing statement itself became false was judged by reading, not proved.  An entry with an empty
`theorems_failed` is an edit that survived; its note or `theorems_tightened` says what followed.

## Conventions

* Python exceptions are values: `Raise ValueError`, `Exc KeyError`, ...  Where a Python method
  mutates before it raises, the model returns the mutated state with the exception.
* Python `str` is a Coq `string`, i.e. a sequence of code points below 256 (Latin-1).  Code points
  above 255 are out of the model.
* Python `dict` is an association list in insertion order, `list` is `list`.
* Every definition cites the file and lines it models and says where it simplifies.
* File kinds: model files (no proofs), `Spec*.v` (vocabulary of the statements, not used by the
  model), `*Facts.v`/`*Props.v` and others (proofs), `Prop_*.v` (the theorems, each closed by
  `exact` and followed by `Print Assumptions`, with `Example`s that meet the hypotheses).
* A claim that is false of the code is recorded by a theorem `*_refuted` with a concrete witness,
  next to the strongest true version; `*_partial` marks a theorem that covers part of the English
  claim.  The note in `MANIFEST.json` says what is missing.

## Layers

1. **Objects** (hand written, one Coq function per Python function).
   `Primitives.v` number, boolean, literal and reference classes; `Collection.v` element
   collections; `ClassTable.v` the class hierarchy (generated); `ObjHeap.v` the object graph of a
   document with creation methods, removal and `find`; `Creators.v` the table of createX methods
   (generated); `Doc.v` the document and its registries; `Tools.v` getDataType, AdminData removal,
   listings, file lists; `Composition.v` compositions and the connector spreadsheet;
   `Merge.v` reading into a document with content (creation calls only).
2. **Accessors**: `SetterTable.v` all set*/get*/is* bodies (generated), `Setters.v` their
   semantics with Python's method resolution order.
3. **XML**: `Xml.v` element trees and path lookup; `Leaf.v` leaf readers and writers; `Serial.v`
   printing (ElementTree, minidom), `patch_xml`, and parsing of the text.
4. **Parser and writer methods**: `ReaderCode.v` and `WriterCode.v` (generated) hold every method
   of `arxml_parser.py` and `arxml_writer.py` statement by statement in the language of `Ir.v`;
   `Access.v` (generated) the constructors and accessors they use; `IrSem.v` the interpreters.
   Every statement of these methods falls under the language: no `RUnknown`/`WUnknown` is left.
   * Round trip: `IrCheck.v` is a decision procedure for "what this writer code writes, that
     reader code reads back"; `IrWrite.v`, `IrLocate.v`, `IrActs.v`, `IrItems.v`, `IrRead.v`,
     `IrEntry.v` prove it sound, `IrClosure.v`/`IrEntries.v` run it on every object code reached
     from the document.  `Domain.v`/`SpecDomain.v` say which objects are covered: 595 classes,
     with the attributes and values listed there, any depth and any width.
   * `Tolerant.v`, `Modes.v`, `Order.v` prove facts about all reader (writer) code by induction on
     the interpreter, with static checks that are run on the code.

The generators in `tools/` (`gen_*.py`, `ir_*.py`) read `/repo` with Python's `ast` module.  Their
output is committed; the build does not need them.  They fail on statements they do not know.

## Properties

| id | model | proof |
|----|-------|-------|
| C01, C02, C21 | `ObjHeap.v`: documents built by any history of createARPackage, createX, removeElement | invariant over histories, then induction on depth (`HeapProps.v`) |
| C03 | `find` starting at the singleton | characterised for the singleton, refuted otherwise |
| C04 | getDestType chain over `ClassTable.v` | case analysis, hierarchy lemmas |
| C05, C06, C07 | `Collection.v`: element list and name index | refinement to a plain list over all histories; C07 refuted for untyped queries |
| C08, C09 | `Creators.v`: 366 methods in four guard shapes | invariants; the methods that fail are refuted one by one |
| C10, C11, C22-C27 | `Doc.v`: all registries | induction over histories of API calls |
| C12-C18, C20 | `Primitives.v`: state machines of the number classes, regular expressions as recognisers, `float` as binary64 rounding (`SpecFloat`) | induction over strings; exactness of binary64 below 2^53 (`FloatFacts.v`) |
| C19, C49 | `SetterTable.v`/`Setters.v`: 4678 methods | one generic lemma, its side conditions decided by computation over the table |
| C28-C30, C42 | `Tools.v` | structural induction on trees and argument lists |
| C31, C32 | `Composition.v` | invariants over histories |
| C33 | `Leaf.v` | one theorem per leaf kind, for every value and surrounding document |
| C34 | all reader code | `Tolerant.v`: equality with the load of the document without unknown elements |
| C35-C38 | all reader and writer code | checker and its soundness (layer 4); refutations by running the code on witnesses |
| C35 for files | layers 3 and 4 together, root attributes in `SpecFile.v` | `File.v`: invariant of the interpreter (what is written is printable XML), then C41 |
| C39-C41 | `Serial.v` | induction on texts (`SerialPatch.v`) and trees (`SerialFacts.v`, `SerialExpand.v`) |
| C50 | `Format.v` (with the parser and printer of `Serial.v`) | `FormatProps.v`: invariant of the parser (names are proper), induction on the tree for the lines kept |
| C51 | `Objects.v`, `Setters.v` | `AttrProps.v`: computed check of all classes, induction on the calls |
| C52 | `Dump.v` (on `ObjHeap.v`) | `DumpProps.v`: induction on the package tree; lines counted as 2^depth |
| C53 | `Report.v` (on `Composition.v`) | `ReportProps.v`: invariant of histories (no snake case attribute is ever set); after an update, permutation and sorting of the rows |
| C54 | `Sheet.v` | `SheetProps.v`: fold over the title row, induction on rows and sheets; report and reader joined |
| C55 | all reader code | `Term.v`: a function reaches itself only below the element it is called on (computed check), induction on document size; `TypeCheck.v`-`TypeRun.v`: types of all attributes and function results, found by inference (`TypeTable.v`, untrusted), checked by computation, soundness by induction on the interpreter |
| C56 | all reader and writer code | `TermWriter.v`, `TypeWriter.v`: the same for the writer, starting from the types that loading guarantees |
| C57 | arxml-format: load, removal of administrative data, save, as a relation between input and output text (`ArxmlFormat.v`) | `PipelineProps.v`: removing keeps documents in the domain of C36 (induction over packages, checks over the class tables), then the file round trip of C35; `SpecPipeline.v` says what may change |
| C58 | `Locate.v`: find on a document as the reader code builds it | `LocateProps.v`: invariant of the reader interpreter (objects in the collection of one owner have different names), by a computed check of all reader code (`LocateCheck.v`); `SpecLocate.v` says where objects live |
| C59 | the reader code of `ReaderCode.v` (`IrSem.v` interpreter); nothing new is modelled | `SpecKeep.v` lists for 505 (class, attribute) pairs where the elements are; `Keep.v` computes from reader code what an attribute gains, `KeepProps.v` proves that analysis sound for the interpreter by induction on the run, `KeepCheck.v` evaluates it at all 586 (class, path, body) places where objects are made, `KeepSound.v` concludes by induction on the run |
| C60 | the reader code of `ReaderCode.v` (`IrSem.v` interpreter) and the value readers of `Leaf.v`; nothing new is modelled | `SpecText.v` lists for 1054 (class, attribute) pairs where the text, reference or XML attribute stands; `KeepText.v` computes from reader code which source an attribute gets its value from, `KeepTextProps.v` proves that analysis sound for the interpreter by induction on the run, `KeepTextCheck.v` evaluates it at the places of `KeepCheck.v`, `KeepTextSound.v` combines it with C59 |
| C61 | `lib/sw_component.py`, `lib/system_signal.py` and the mains of `swc_list_cli.py`, `system_signal_cli.py`, `memory_section_cli.py` from the loaded document on (`Listing.v`); the heading line, the log handlers and files beyond the first are left out | `SpecListing.v` says which elements a file holds (inductively over its packages); `ListingProps.v` shows by induction on C59's `package_kept` that the recursion collects a permutation of them, with attribute types from C55, and that sorting and printing give one line each |
| C62 | the registry calls of the reader in reading order (`Registry.v`: `readARPackages`, the five branches of `readARPackageElements` that reach a registry, `readDataTypeMaps`, `readSystem`, `readRootSwCompositionPrototype`, both implementations), made on the document of `Doc.v`; lookups go through `find` of C58 | the calls are those of the elements of the file (induction on `holds` of C61), then C24-C27 for the registries and C58 for the lookup |
| C63 | the same run of the reader as C33-C38 and of the writer (`IrSem.v` on the transcribed code), nothing new | an invariant of the interpreter over every value built (`good` in `OriginProps.v`), by induction on the run; checked on the transcribed code: no reader stores a tag or a constant, none assigns `short_name`, `uuid` or `timestamp` except the constructor and `readARObjectAttributes` |
| C43 | all reader code | `Order.v`: static check of every reader function for every way it is called; induction on the interpreter |
| C44 | `Merge.v` on the object graph of C01 | induction on the file, using C08's classification; `present` of `SpecMerge.v` says what the document holds for a file |
| C46-C48 | `ObjectTable.v`/`Objects.v`: 1056 constructors, 394 add methods; the getters and setters of C19 | constructors do not look at their arguments (naturality), so each class is run once symbolically; invariant over all histories of calls |
| C45 | all reader and writer code | `Modes.v`: simulation between the two modes |

Partial results, by property, with what is missing: see the notes in `MANIFEST.json`.

## What is not modelled

* Logging (a `logger.warning` is no effect; the arguments of log calls are evaluated, and the three in
  the reader that can raise are in `ReaderCode.v`), `os`/file access (contents and directory listings are
  inputs), `argparse`, the spreadsheet library (sheets are lists of rows), timing.
* XML namespaces (every tag is a local name), comments, CDATA, processing instructions, DOCTYPE
  (never written by the tool); the `tail` of elements (never read); encodings beyond Latin-1.
  minidom is that of Python 3.11.
* The attributes of the root element (`xmlns`, schema location) are kept beside the document
  (`SpecFile.v`); only the file theorems of C35 speak about them.  The schema version table is C11.
* Layer 4 has no object identity and no `parent` attribute: an object is its class and its
  attribute values.  The registries filled while reading (C22-C27, and for a file C62) are
  modelled in layer 1, not in layer 4; `reload` at the end of `load` does nothing.
* Five createX methods that do not fit the table of `Creators.v` (listed there).
* Name clashes while reading (two children of one parent with the same short name, or a create
  method for a place that is filled already): the interpreter stops with the pseudo-exception
  `NameInUse` (layer 1, C06-C08, models what the code does with them).
* `[Stuck]` in `IrSem.v` marks a situation outside the interpreter's model (a method called on a
  value that has no such method in `Access.v`); no positive theorem concludes anything from it, and
  C55 and C56 show that no load, and no save of what was loaded, gets there.
* `float` formatting (`repr`) is a parameter `repr` of the writer theorems; what is assumed about it
  is a hypothesis of the theorem that needs it (C33).

## Trusted base

* The Coq kernel, including `vm_compute` (`coqchk` re-checks the same proofs without the VM).
* Axioms: none.  `Print Assumptions` under each theorem of the `Prop_*.v` files prints
  "Closed under the global context".
* The reading of the Python code: by hand for layers 1 and 3, by the scripts in `tools/` for the
  generated files.
* The semantics given to the Python and standard library primitives used (dict, list, sort, `re`,
  `int()`, `float()`, ElementTree, minidom).
