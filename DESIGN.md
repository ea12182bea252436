# Design of the Rocq model of onenote.rs

Read this together with `properties.jsonl` (the English properties, C01 ...) and
`MANIFEST.json` (which theorem settles which property).

## 1. Shape of the model

The model is a set of total, computable Gallina functions, one per Rust
function, in `rocq/theories`. Nothing is extracted or run against the Rust code;
the tie to the code is the `file:lines` citation above every definition.

| file | models |
|---|---|
| `Base.v` | `errors.rs` (error kinds), outcome type, `reader.rs`, loop combinators |
| `Codec.v` | `shared/guid.rs`, `shared/multi_byte.rs`, `utils.rs`, `fsshttpb/data/*` |
| `Package.v` | `fsshttpb/data_element/*`, `fsshttpb/packaging.rs` |
| `PropSet.v` | `onestore/types/*` |
| `PropIds.v` | `one/property/mod.rs` (`PropertyType`), `one/property_set/mod.rs` (`PropertySetId`) |
| `Shapes.v` | `one/property/note_tag_shape.rs` |
| `Store.v` | `onestore/*.rs` |
| `Props.v` | `one/property/*` |
| `Nodes.v` | `one/property_set/*` |
| `Doc.v` | `onenote/*.rs` except `mod.rs`/`notebook.rs` |
| `Notebook.v` | `onenote/mod.rs`, `onenote/notebook.rs` |
| `Timed.v` | the file system accesses of `onenote/mod.rs`, one by one |
| `Cli.v` | `bin/onenote-parse.rs` |
| `Main.v` | `bin/onenote-parse.rs` with arguments as bytes |
| `Report.v` | `onenote/mod.rs` with the contents of the errors it makes |
| `Unix.v` | the functions of `onenote/mod.rs` that handle paths, on texts with `std::path` of Unix |
| `Message.v` | `Display` of `errors.rs`, and the functions of `Unix.v` with the texts of the errors they make |
| `Bytes.v` | the same with bytes for paths, UTF-8 and `to_string_lossy` |
| `Windows.v` | `resolve_entry_path` of `onenote/mod.rs` on Windows |
| `WinNotebook.v` | `onenote/mod.rs` on Windows |
| `Looks.v` | the functions of `Doc.v`, with their look-ups in the store |
| `Getters.v` | the accessors of the types of `onenote/*.rs` and of `one/property/*.rs` that they return |
| `Orders.v` | `parse_notebook`, `parse_section_group` of `onenote/mod.rs` with a hash order per file |
| `GuidText.v` | `Guid::from_str`, `Display` of `shared/guid.rs`, `macros.rs` |

Proof files sit beside them (`*Proofs.v`), independent specifications (encoders,
abstract semantics) in `Spec*.v`, and the property theorems in `Properties*.v`,
which contain `Theorem ... exact lemma.`, `Print Assumptions` and, beside each
theorem, a non-vacuity `Example` on concrete data. `Example*.v` hold the writers of
the example files and file systems; they occur only in `Example`s and in witnesses.

| specification | describes |
|---|---|
| `SpecCodec.v` | encoders of integers, GUIDs, headers, strings |
| `SpecPackage.v` | encoder of whole packages |
| `SpecPropSet.v` | encoder of property sets |
| `SpecStore.v` | spaces, revision chains, objects, without fuel |
| `SpecRefs.v` | which references belong to which property |
| `SpecValues.v` | how raw values stand for typed values |
| `SpecNodes.v` | every node kind, attribute by attribute |
| `SpecDoc.v` | pages, outlines, tables, paragraphs, ink, sections |
| `SpecNotebook.v` | tables of contents, paths, notebooks, file systems |
| `SpecTimed.v`, `SpecThreads.v`, `SpecOthers.v` | runs while the file system changes; several threads; changed files |
| `SpecAccept.v`, `SpecKinds.v`, `SpecBlame.v` | which files are accepted; kinds of error; what stands in the way |
| `SpecFile.v`, `SpecHistory.v`, `SpecLocal.v` | stores and the files that hold them; histories of saves; pages and spaces |
| `SpecSame.v`, `SpecRename.v`, `SpecForward.v` | files of the same content, up to names, up to unknown properties |
| `SpecSize.v`, `SpecValid.v`, `SpecShelf.v`, `SpecSingle.v` | sizes; which sections and notebooks there are; what ink numbers are worth |
| `SpecUnix.v`, `SpecMessage.v`, `SpecBytes.v` | plain texts, proper names, below a directory; contents of errors; UTF-8 |
| `SpecApi.v`, `SpecCli.v` | the entry points and the program |
| `SpecCause.v`, `SpecOpen.v`, `SpecStop.v`, `SpecReport.v` | why a section, a table of contents or a package cannot be read; where the reading of a damaged file stops; what the error says |
| `SpecFate.v`, `SpecVoyage.v`, `SpecMeanwhile.v`, `SpecAccess.v` | what becomes of a reading; of a notebook; while it changes; which files are opened |
| `SpecWeight.v`, `SpecBulk.v`, `SpecDeep.v`, `SpecEntries.v`, `SpecLooks.v` | the size of a store, of a section; nesting; entries of a notebook; look-ups |
| `SpecGetters.v`, `SpecOrders.v`, `SpecTarget.v`, `SpecGuidText.v` | what a caller sees; hash orders; 32-bit targets; texts of GUIDs |
| `SpecWindows.v`, `SpecWinNotebook.v` | names and notebooks on Windows |

### Conventions

* **Outcome.** `res A = Ok a | Err e | Panic | OutOfFuel`. `Err` carries the
  `ErrorKind` constructor; message strings are dropped (except in `Report.v`, `Message.v`). `Panic` is an index or
  slice out of range. `OutOfFuel` is produced only by fuel running out, and
  theorems either exclude it or are about it (non-termination = `OutOfFuel` for
  every fuel).
* **Getters.** The public types of `src/onenote` and `src/one/property` are
  records, and every plain `pub fn` getter returns the field of the same name
  (checked by reading them all). A projection of the model's record therefore
  stands for the getter. Getters that compute something have their own
  definition.
* **Bytes** are `N`; byte-level range facts assume `bytes_ok` (all < 256), which
  every Rust `&[u8]` satisfies.
* **Reader.** A `Reader` is the list of remaining bytes; a function taking
  `&mut Reader` is a function from remaining bytes to result and remaining bytes.
  After an error the reader state is not modelled: every caller propagates the
  error with `?` and drops the reader.
* **Integers.** Rust `u8..u128` are `N`, and the masks/shifts of the code are
  written with `N.land`, `N.shiftr`, `N.shiftl`, with the truncating `as` casts
  written as `mod 2^k`. `usize` is 64 bit.
* **HashMap** is an association list with unique keys; `insert` replaces.
  Wherever the code iterates a map in hash order and the order can be observed,
  the model takes an explicit order oracle, a function returning some permutation
  of the entries. One oracle serves a whole reading: equal tables of different files
  get the same order. In `Orders.v` every opened file has its own (C89).
* **Loops.** `for _ in 0..n` and `loop { if has_end .. }` become fuelled
  recursions whose fuel is the number of remaining bytes; that this fuel is never
  exhausted is a theorem (C10). Recursion through references (outlines, tables,
  table of contents, revision chains, directories) takes the fuel as an argument.
* **Strings** are lists of Unicode scalar values.
* **f32** values that are only copied are kept as their 32 raw bits. Arithmetic
  (ink scaling) uses the standard library's executable IEEE-754 specification
  `Coq.Floats.SpecFloat` at precision 24 / emax 128, round to nearest even.

### Not modelled

The message texts of errors made below `onenote/mod.rs`, backtraces, `Debug` output, `Display` output except that of GUIDs and errors, allocation failure,
stack size (unbounded recursion is modelled as running out of every fuel), 32-bit
targets except in C91, non-Unicode file names except in C95 and C96, Windows except in C80 and C97, tracing, `File`/`Path` system
behaviour (an abstract file system is a parameter, see C26/C27; it may change between
any two accesses, see C73 to C75), and the
`sanitise_file_name` crate (an arbitrary function in the theorems).

### Tests of the model

`Conformance.v` runs the model on sample files of the repository, byte for byte
(`SampleFiles.v`). For `non-legacy/New Section 3.one` the model's section equals the
recorded output of the program, `tests/snapshots/lib__parse_section_new.snap`,
translated by a script. For the table of contents beside it the entries and colour are
those of the directory. These are tests of faithfulness, not proofs. Outside the
build, the extracted model was run on the larger samples too: it reads them, as the
repository's tests expect.

## 2. Trusted base

* Coq 8.16.1's kernel and `vm_compute`.
* `Print Assumptions` is printed under every property theorem; the expected answer
  is `Closed under the global context`. Any standard-library axiom is listed in
  section 4.
* The faithfulness of the model to the cited source lines.
* The documented behaviour of std/`bytes`/`widestring`/`itertools` functions
  used by the code, as stated in the comment of the definition that models them.

## 3. Properties: what is modelled, how it is proved

* **C01** `Base.v` reader functions; list lemmas, little-endian value `le`.
* **C02** `compact_u64`; independent encoder per width; arithmetic on
  `le (enc v) = v*2^k + tag`.
* **C03** `exguid`; encoders for five forms; 256-case sweep over the tag byte.
* **C04** `guid_parse`; byte-list permutation; inverse function.
* **C05, C06** `decode_uint/decode/decode_signed`; encoder by repeated division;
  induction on number of 7-bit groups; refutations by witness.
* **C07** `header_16/32/end_8/end_16`; encoders; bit-field arithmetic.
* **C08, C09, C10, C11** a compositional predicate `good p` on parsers
  (self-delimiting prefix, truncation gives `UnexpectedEof`, no panic, no
  fuel exhaustion, minimum consumption), closed under bind, bounded repetition and
  until-end loops, then instantiated to every parser.
* **C12** encoders for all data element kinds; round trip by induction over lists.
* **C13, C14** impossibility over all inputs by case analysis on the end test.
* **C15** `parse_store` with order oracle; permutation-invariance; witness of
  disagreement.
* **C16, C17, C18** the revision walk as fuelled recursion; abstract spec
  "first/last in chain that declares"; induction over the chain; cycle => every
  fuel exhausted.
* **C19** recursive encoder for property lists; nested induction.
* **C20, C21, C22** slices of the id stream; prefix sums; `Permutation` lemmas.
* **C23** note tag container model; positive lemma and witness.
* **C24** UTF-16 encoder for scalar values; induction.
* **C25** stable sort specification (sorted + permutation + stability), dedup.
* **C26, C27** path component model, abstract file system with canonicalisation
  as oracle; recursion over directories with fuel. Termination from a bound on the
  names below the base, which every finite tree without links has; the links
  file system of `ExampleNotebook.v` for the refutation.
* **C28-C30, C37-C39** document functions over an arbitrary store.
* **C51** mutual inductive description of notebooks and entries, equivalent to the
  loader with enough depth and fuel.
* **C52** two file systems that agree inside; induction on depth; canonical
  containment is transitive along nested groups.
* **C55** languages of accepted strings (`SpecAccept.v`); every parser is explained by
  its language (whatever it returns is the meaning of the bytes it consumed), closed
  under bind and the until-end loops; the converse is the round trip of C12 with the
  three liberties.
* **C53, C54** unfolding of the entry points over arbitrary file systems.
* **C30, C38** fuel-free relational description of the document (`SpecDoc.v`),
  equivalent to the readers with enough fuel.
* **C31** running out of fuel gives a chain of references as long as the fuel;
  pigeonhole on the objects of the space; accessibility of everything read.
* **C32, C33** explicit `Panic` outcome; witness and guarded positive theorem.
* **C34, C35** list index arithmetic; property-id numerals in the statement.
* **C36** table of (property id, accessor) checked against wire types.
* **C43** tower of nested sets; induction on depth, byte count by self-delimitation.
* **C44, C45** the store's space table as a fold over cell mappings; completeness of
  the contributing group is a field of `object_of`.
* **C46** as C20 for the space stream; witness with a repeated compact id.
* **C50** crash propagation through every reader, using exact crash conditions.
* **C47** case analysis over the 144 shapes.
* **C48** a relational specification of every node in `SpecNodes.v` (attribute =
  value of one literal property identifier), equivalence with the parser in both
  directions.
* **C49** totality lemma per value reader, closed under bind.
* **C40, C41, C42** finite or arithmetic decisions over all raw values.
* **C56** the package predicate `good` lifted through the entry points; induction on
  the depth of section groups.
* **C57** a predicate `only K r` (an error of `r` is in `K`) closed under every
  combinator, applied to all readers.
* **C58** a predicate `keeps r r'` (what `r` returns, `r'` returns) closed under every
  combinator, applied to all document readers over a larger store.
* **C59** the package is a fold over the elements (C55); the maps filled from
  permuted unambiguous elements have the same lookups and at most one entry where
  they are iterated over; every store reader is congruent in the lookups. A writer
  for abstract files is proved to produce the format, for the examples.
* **C60** The readers of Props and Nodes look at a property set only through [propset_get] and the number of references before a property. Specification: `SpecForward` lists the identifiers asked for and defines one insertion and its reflexive symmetric transitive closure. Proof: an insertion preserves both observations for every identifier on the list (`inserted_alike`), then every reader, node parser and the recursive document functions are shown to depend on nothing else (`al_page`, `al_section`, `al_toc`). Example: the page of the sample section with an unknown property in front of every object's properties.
* **C61** Specification: `SpecFile` describes stores as an author would (`store_desc`), which contents hold a description (`holds_store`: entries of partitions 4, 1 and 2, one revision per cell, one index, one manifest), and when a parsed store is the described one (`store_is`). Proof: `FileProofs` goes from the file to the store: `content_accepted` (C55) turns the file into its content, the store functions are evaluated on it, the reference tables by C20/C21. `AuthorProofs` writes: an encoder for property sets, cells, revisions, groups, index, manifest, and the proof that its output is in the language of accepted files. Example: a store with two spaces, references within and between them, an array of property sets and file data.
* **C62** Specification: `SpecSize` counts the parts of a page, says which objects an object lists and when a space is a tree. Proof: `SizeProofs` computes the objects reached from the page level by level; in a tree these are distinct, and every part of the page is one of them. Refutation: `DoubleProofs` gives for every k a store with a chain of groups, each listing the next twice (`DoubleNodes`: what a written object is read as), writes it with C34's writer and bounds the length of the file.
* **C63** Specification: `SpecValid` says which values every part of a document may have, and its size. Proof: `DescProofs` to `DescProofs3` describe an object by a list of fields and show that the described object is in range (C61) and read back field by field; `EncodeProofs` has for every kind of value an encoding that is read as it; `WriteNodes` (generated from the specifications of the nodes in `SpecNodes`) has for every node value an object that is it; `WriteProofs` to `WriteProofs4` build the objects of paragraphs, outlines, pages and sections, one after the other with fresh identifiers (`wrote`), and end with C61's writer. Example: a section with three series and every kind of content.
* **C64** Specification: `SpecValid` for sections, `SpecShelf` for notebooks. Proof: `RangeProofs` follows the bytes of a file through the accepted language (C55) and the language of property sets (C19) to the values of every object of the store (`store_fits`); `RangeProofs2` goes through the description of documents (C30, C48) and shows the range of every field, by structural induction on the derivation for outlines and tables; `RangeProofs3` adds tables of contents, paths and notebooks by induction on C51's description. Example: the section of C63 is read, three invalid ones never are; the sample notebook.
* **C65** Specification: `SpecShelf` (directory trees `node`, the file system `fs_of` of a tree, `notebook_ok`, `notebook_small`). Proof: `WriteProofs5` writes tables of contents (`toc_written`) with the store author of C61; `ShelfProofs` builds, by induction on the notebook, a directory in which entry i lies at `<i>` (a section) or `<i>/<name>` (a group), so names never clash, and goes back to the parser by the completeness half of C51. Example: a notebook with groups of equal names, nested, and a sanitiser that changes names.
* **C66** Identifiers are only names. `SpecRename.v`: renaming of the elements of a file by a bijection that keeps null. Proved by equivariance of every function from `aelem_step` to `parse_notebook` (RenameProofs*.v).
* **C67** A call has one answer. Every recursive function of the model is monotone in its fuel (OnceProofs.v), so results, errors and panics do not depend on it.
* **C68** Causes of errors. `SpecBlame.v`: the tables of contents a notebook leads to, and what can be wrong with each. Induction over the depth of section groups for the cause; for the converse, the description of notebooks of C51.
* **C69** The command line program. `Cli.v` models src/bin/onenote-parse.rs; `SpecCli.v` says which paths count as tables of contents.
* **C70** Histories of saves. `SpecHistory.v`: what a save does, the state after a list of saves, and when a file holds such a history as a chain of revisions. `HistoryProofs.v` proves by induction over the chain that the walk from the newest revision reads that state, `HistoryProofs2.v` lifts it to stores, sections and notebooks (same end, same answer), `HistoryAuthor.v` writes any history.
* **C71** Ink numbers. `SpecSingle.v`: the value of a 32-bit number and the closest of all such numbers to a rational. `SingleProofs*.v` prove the conversion, product and difference of `SpecFloat` at precision 24 correctly rounded (nearest, ties to even, overflow to infinity), from the definitions and without the library of reals; then exactness, error bound and order of whole ink paths.
* **C72** Locality. `SpecLocal.v`: which spaces a section lists, and histories that differ in some spaces. `LocalProofs.v`: a section is its metadata and the pages of the listed spaces, each a function of its own space (`ForwardProofs.al_page`); the store of a history as a computed value, with which the examples evaluate.
* **C73, C74, C75** Schedules. `Timed.v`: mod.rs as a program that asks the file system one question after the other, in source order (a free monad). `SpecTimed.v`: a world is a file system per moment; runs; what a notebook seen during a run is made of. `TimedProofs.v`: the timed program equals `parse_notebook` when nothing changes, and depends only on the answers. `TimedProofs2.v`: soundness with times, and a small logic of questions for confinement. `TimedProofs3.v`: links, crashes, termination. `ExampleTimed.v`: renames, link swaps and an endless schedule.
* **C76** Threads. `SpecThreads.v`: threads as programs of `Timed.v` taking turns under a schedule. `ThreadProofs.v`: a thread is where it would be, had it run alone at its moments.
* **C77** Locality of notebooks. `SpecOthers.v`: file systems that differ in some files, notebooks that differ in some sections. `OthersProofs.v`: induction over the depth, and over the derivation of a notebook.
* **C78** What errors say. `Report.v`: the functions of mod.rs with the contents of the errors they make. `SpecReport.v`: which file comes first among those that cannot be read, and what is wrong with it. `ReportProofs.v`: erasure to `Notebook.v`; every report is so (induction over the depth); the first file that is not what it should be is the one reported (completeness of reading, and bounds that go on to suffice).
* **C79** Accesses. `SpecAccess.v`: the files a notebook consists of in document order, and failures. `AccessProofs.v`: questions of the programs of `Timed.v`, by induction over the depth; a compositional predicate for stopping at a failure.
* **C80** Windows. `Windows.v`: `resolve_entry_path` on texts with `std::path` for Windows (prefixes, components, `push`). `SpecWindows.v`: names, pieces and placement. `WindowsProofs.v`: splitting at two separators; the buffer of `push` stays the joined names; components of the result; comparison with Unix.
* **C81** Damaged files. `SpecStop.v`: deciding prefixes, first bytes of extended GUIDs, unknown layouts and misplaced containers. `StopProofs.v`: along the parser, `hard` (where `MalformedData` comes from), `helped` (every `UnexpectedEof` can be overcome by more input, including the metadata block that has no accepted end) and which stage reports `MalformedOneStoreData`.
* **C82** Store size. `SpecWeight.v`: the weight of values, objects and spaces. `WeightProofs.v`: property sets weigh no more than their bytes; along the revision walk, the entries not yet read pay for the objects read, whichever groups are repeated. `CrowdProofs.v`: the explicit file whose cells share one revision, what it holds (as C61) and its length.
* **C83** Causes of document errors. `SpecCause.v`: the roles objects are looked at in, which object leads to which, and what can be wrong with one. `CauseProofs.v`: the kinds of error each object parser gives; `CauseProofs2.v`: every error of the document has such a cause; `CauseProofs3.v`: every cause prevents reading, by C48 and C16's relations; `CauseProofs4.v`: the buffer API.
* **C84** Opening. `SpecOpen.v`: what stands in the way of opening a package, on its tables alone, and when a cell leads round in circles. `OpenProofs.v`: every error has such a cause (groups and revisions already read are tracked along the chain), every cause prevents opening, a walk that reaches no cycle ends; `OpenProofs2.v`: on bytes.
* **C85** Fates. `SpecFate.v`: crashing lists and paragraphs among the objects looked at (C83), and objects that lead back to themselves. `FateProofs.v`: crashes and exhausted steps are traced to them through the whole reading, with a list of the objects passed, no two alike, for the bound; `FateProofs2.v`: what is read leads nowhere back, by accessibility; `FateProofs3.v`: on bytes, and tables of contents. `FateExample.v`: a check used in examples that surveys a small file.
* **C86** Fates of notebooks. `SpecVoyage.v`: the section files of a notebook, crashes and circles in its files, the nesting of its groups. `VoyageProofs.v`: crashes are traced to a section file; where nothing goes round and the nesting is limited some fuel suffices, by induction on the levels; what is read has no obstacle (from C51 and C85). `ExampleVoyage.v`: notebooks with one section, and the one of links.
* **C87** Causes under change. `SpecMeanwhile.v`: the obstacles of `SpecBlame.v` and `SpecVoyage.v` with every fact at its own moment of the run. `MeanwhileProofs.v`: a failing run is followed to the question that decides it; termination by composing runs that have a result independent of the fuel; equivalence with the static obstacles when nothing changes. `ExampleMeanwhile.v`: a section rewritten for ever, a section replaced by a group.
* **C88** GUID texts. `GuidText.v`: display, `from_str`, `guid!`. `SpecGuidText.v`: digits, hexadecimal numbers and the four forms as relations. `GuidTextProofs.v`: the digit loop is the relation; sixteen bytes are the 32 digits.
* **C89** Hash orders at the level of the API. `Orders.v`: notebooks with an order per opened file. `SpecOrders.v`: determined files. `OrdersProofs.v`: sections depend on stores only through lookups; a relation between results that ignores error kinds, kept by every construct; induction over the depth.
* **C90** Depth and steps. `SpecDeep.v`: levels and calls of a finished document. `DeepProofs.v`: exactness of the number of calls; levels against objects along chains of parts without repetition. `DeepProofs2.v`: a call that needs n steps has a chain of n different calls below it, so n is at most twice the number of objects; the same for revisions and tables of contents. `DeepProofs3.v`: files and folders; the deep file of C62.
* **C91** Targets. `Target.v`, `TargetDoc.v`: the functions that use `usize`, and all that call them, with the width of `usize` and the overflow checks as parameters. `SpecTarget.v`: references announced by an object. `TargetProofs.v`: packages are the same, or the 64-bit reader says `UnexpectedEof`. `TargetProofs2.v`: sums of references do not overflow, nodes. `TargetProofs3.v`: documents and notebooks; `TargetProofs4.v`: with overflow checks the result or a panic; on 64 bits the sums are bounded by 2^32 times the size of the file (C82). `TargetExample.v`: the two files that differ.
* **C92** Steps. `Steps.v`: the parsers of `Codec.v`, `Package.v` and `PropSet.v` with a counter. `StoreSteps.v`: the same for `Store.v`. `StepsProofs.v`: an amortised bound (each step of a successful parser is paid by a byte it took; a failing one may overdraw by a constant). `StoreStepsProofs.v`: the store; a revision chain visits a revision at most once unless it comes round, a group is looked at once for each reference to it. `CubeProofs.v`: a family of files that takes cubically many steps.
* **C93** Paths as texts. `Unix.v`: `Path::components` from the end, `parent`, `file_name`, `extension`, `push` on texts, and the functions of `onenote/mod.rs` with them; the operating system gets texts. `UnixProofs.v`: each of them against `Notebook.v` (`parent_ok`, `push_ok`, `sanitize_ok`, `resolve_ok`, `notebook_ok`). `SpecUnix.v`: plain texts, proper names, below.
* **C94** Texts of errors. `Message.v`: the functions of `Unix.v` with the contents of errors (texts), and `Display` of `errors.rs`. `SpecMessage.v`: forgetting contents, components instead of texts, proper reports, inside. `MessageProofs.v`: agreement with `Unix.v` and `Report.v`, the parent of a pushed text (`parent_push`), the place of named files (`notebook_named`), injectivity of `display` (`display_same`).
* **C95** Paths as bytes. `Bytes.v`: UTF-8, `to_str`, `to_string_lossy`, and the functions of `onenote/mod.rs` with bytes for paths. `SpecBytes.v`: file systems that answer for UTF-8 as for texts. `BytesProofs.v`: decoding (`to_str_iff`), the functions of `std::path` commute with UTF-8 (`components_u`, `parent_u`, `extension_u`, `push_u`), simulation (`notebook_u`), any bytes (`entry_names`, `b_notebook_says`).
* **C96** The program with arguments as bytes. `Main.v`: `env::args().nth(1)` and `main` over `Bytes.v`. `MainProofs.v`: which arguments are taken (`path_arg_ok`), what is printed (`main_prints`), agreement with `Cli.v` (`main_agrees`).
* **C97** Notebooks on Windows. `WinNotebook.v`: `parent`, `file_name`, `extension`, `ends_with` by walking a text from its end as `std` does, and `parse_notebook`, `parse_section`, `parse_section_group` over them. `SpecWinNotebook.v`: what a text spells, equal directories. `WinNotebookProofs.v`: `parent` and `file_name` in terms of components (`w_parent_ok`, `w_last_ok`), names put behind a directory (`push_spells`, `placed_spells`). `WinNotebookProofs2.v`: both platforms in step (`notebook_both`), non-interference (`wnotebook_alike`), termination.
* **C98** Look-ups. `Looks.v`: the functions of `Doc.v` returning the list of their look-ups too. `SpecLooks.v`: when two stores answer alike. `LooksProofs.v`: erasure, and non-interference by a relation that is closed under `tbind`, `map_t`. `LooksProofs2.v`: bounds for parts without parts, by the lengths of reference lists and of tag lists. `LooksProofs3.v`: each object of a tree is charged once (`below_nodup` of C62), sums over distinct keys; lower bounds; the doubled file of C62. `QuarticNodes.v`, `QuarticProofs.v`, `QuarticProofs2.v`: a short file, made as in `DoubleProofs.v`, whose spaces are trees and which has k^4 strokes; one look-up for each stroke at least.
* **C99** Accessors. `Getters.v`: every accessor of the document types, one definition each. `SpecGetters.v`: the items a caller can reach (`gives`, `seen`), and for each the properties its attributes are stored in (`documented`), written with accessors only. `GettersProofs.v`: the invariant that each item stands in the relation of C30 to an object of some space; it is kept by every step and implies `documented`. `GettersProofs2.v`: buffers, files, notebooks.
* **C100** Size of a section. `SpecBulk.v` counts parts, characters, bytes and points. `BulkProofs.v`: each traced function of `Looks.v` returns no more than what its look-ups brought (a charge per look-up, added up through `tbind` and `map_t`); with C98 and C82 the fifth power. `BulkProofs2.v`: the file of `QuarticProofs.v` has k^5 points; the doubled file of C62.
* **C101** *How many sections a notebook can have.* `SpecEntries.v` says what it is for a table of contents to
  be a tree (no object listed twice by folders, no folder inside itself), counts the sections of a notebook, and
  gives the two families of directories. `EntriesProofs.v` bounds the names by the objects met on the way down and the objects by
  the bytes; the bound on the sections follows by induction on the depth. `EntriesProofs2.v` builds the two families
  with the writer of `WriteProofs*.v` and `ShelfProofs.v`. `EntriesProofs3.v` adds the size of each section (C100). `EntriesProofs4.v`: a flat table of contents in every directory of a tree, with which the bound is reached. `EntriesProofs5.v`: a calculus of costs for the programs of `Timed.v`.

Properties that cannot be expressed in the model: none at present; stack
exhaustion itself and hash seeds are represented as stated above.

## 4. Axioms

Every property theorem prints `Closed under the global context`: no axioms. The
report of `vcheck` also names some of `Coq.ssr.ssrunder`; these belong to a library
module that is loaded with the standard library and no theorem uses them.

## 5. The log of wrong programs

`seeded/LOG.jsonl` has one line per edit of the model. How to read it:

* `lemmas_failed` are the lemmas a build was seen to reject. In most runs a file was built up to its first
  failing lemma; in some, failing lemmas were admitted in the scratch copy and the build went on. The note says which.
* `theorems_failed` is computed from these: every property theorem that depends, by name, on one of them. It is an upper
  bound. That a lemma's script breaks does not show that each of these theorems is false of the edited program.
* Lines with neither are edits that no build was seen to reject: equivalent programs, edits that survived until a theorem
  was added (`theorems_tightened`), and runs that ended in a time limit or in an error of the harness. The note says which.
* For some lines the edited model was evaluated and contradicts the statement itself; the note gives the values.
