# A formal model of punx in Rocq

The model is in `rocq/theories` (logical name `Verif`), Coq 8.16.1, standard
library only.  Each definition cites the file and lines of `/repo` it models.

## How the code is modelled

* **Text**: a Python `str` is a list of code points (`pystr := list N`); all
  string operations the code uses (split, join, replace, startswith, find,
  slicing, comparison, `%d`) are total functions on it.
* **Exceptions** are values: `res A := Ok a | Exn e`.  Code that mutates a
  validator is a function `state -> state * res A`; the state survives an
  exception, exactly as Python objects do.
* **Dictionaries** are insertion-ordered association lists, as Python's are.
* **HDF5** is a graph: objects (group, dataset, named datatype) with
  attributes; a group has an ordered list of links, each hard (object id), soft
  (path) or external (file and path).  Nothing is assumed about the graph: it may
  contain cycles, sharing, dangling links.  `file[path]`, `name in group`,
  iteration and `.name` follow h5py.  Files live in a `world`.
* **Python recursion** is modelled by fuel equal to the interpreter's
  recursion limit; running out is `RecursionError`.
* **Regular expressions** are parsed from the schema's pattern text to an AST
  and matched by derivatives; correctness of the matcher against the usual
  denotation is proved.  `re.match("^"+p+"$", s)` is modelled including `$`
  matching before a final newline.
* **NXDL classes** are the data structures `nxdl_manager.py` builds from XML
  trees; loading is modelled from an abstract XML tree, with the one shared
  mutable object (a field's `minOccurs` default) as an explicit cell.
* **The file system** for the cache is a tree of directories and files; an
  install is a list of atomic steps, and a crash is a prefix of that list.
* **XML** files (NXDL files, XML Schema files) are trees of elements with
  attributes; `nxdl_schema.py` also looks at line numbers, so its trees carry
  them.  The schema files of the three file sets shipped in `/repo/punx/cache`
  are in the model as terms (`ShippedXsd.v`, `ShippedLines.v`).
* **Python objects that are shared and changed** (the catalogue of `nxdl.xsd`,
  the class-level dictionaries of `schema_manager.py`, the singletons) are cells
  of an explicit heap or state.
* **The command line** is a function from the arguments, the disk and the network
  to output, exit code and the disk afterwards (`Main.v`).  The part of `argparse`
  that punx uses is modelled from its Python 3.11.10 source (`Args.v`); the texts of
  messages are left out.  This library model was compared with the real `argparse` on
  20000 random lines, and what C138 says of the word `--` on 8000 lines (tests, not part
  of the proofs).
* **JSON.**  `json.dumps(d, indent=2)` of a dictionary of texts and `json.loads` are
  modelled in `Json.v` (numbers are kept as their text; the recursion limit is left
  out) and compared with Python 3.11.10 on 5600 texts (again a test).  Theorems
  about the caches that hold for every reader have it as an argument.
* **Numbers written as text** (`-m`, `minOccurs`, `maxLength`, `@signal`): Python's
  `int()` is modelled with white space around the number and single underscores in
  it; `Spec_Number.v` says which texts these are and what they are worth.  The limit
  of newer Pythons on the number of digits is left out.  Compared with Python on
  1500 texts (a test).
* The models of regular expressions and of UTF-8 decoding were also compared with
  Python on generated texts (a test, not part of the proofs).
* Parameters that stand for the platform (Unicode tables for `\w`, `isdigit`,
  the encoding of stdout, the XSD and XSLT processors, the
  network, a digest function) are arguments or fields of a record the theorems
  quantify over; they are not axioms.

## Specification and proofs

`Spec_*.v` files contain what a user would write down for a property, using
character-level predicates or inductive relations, without the model's
traversal functions.  `Properties_*.v` contain the theorems, usually
proved from lemmas of the `*Facts.v` files, with an `Example` beside each showing
that a concrete case meets the hypotheses, and `Print Assumptions`.

## Per property plan

| id | what is modelled | how it is proved |
|----|------------------|------------------|
| C01 | `item_name.py`, catalog, `validate` | refinement of the traversal to a per-item specification; regex matcher correctness; invariant over the run |
| C02 | same | refuted by a name ending in newline; true when the name contains no newline |
| C03 | same, `parse_nxdl_patterns` | refuted (64 letters `a`) |
| C04 | `handle_NX_class`, pattern parser on the shipped pattern text | character-level characterisation by regex denotation |
| C05 | same | refuted by a class name such as `entry` |
| C06 | `handle_groups_and_fields` | as C01 |
| C07 | regexp cache as state | coherence invariant over all histories |
| C08 | `_group_address_catalog_` | induction on the walk against an inductive path relation |
| C09 | `ValidationItem` | induction on the walk |
| C10 | same plus checks | induction on the walk; checks skip items without address |
| C11 | catalog insertions | invariant |
| C12 | catalog | induction on a rank function of the graph |
| C13 | `validate` | refuted by a cycle and by a dangling link |
| C14 | `validate_group` | invariant from C09 |
| C15 | `Finding`, all checks | constructor modelled on arbitrary values; `C15_run` from C106 |
| C16 | state monad | every primitive extends; closure under bind, including exceptions |
| C17 | `record_finding` | invariant over the run |
| C18 | validate_group order | refuted by a group of unknown class with two tests of the same key |
| C19-C21 | `finding_summary`, `finding_score` | induction on lists; C21 refuted, threshold exact |
| C22-C23 | `print_report` | stable sort correctness; C23 refuted and true order table proved |
| C24 | `make_md5` | congruence; refuted for distinctness; injective in address and test for an injective digest |
| C25 | `validate` on a persistent validator | refuted through `minOccurs`; proved modulo that cell |
| C26-C27 | validate/close state machine | invariant over operation sequences; C26 refuted for unreadable files |
| C28-C31 | group checks | list induction, membership semantics |
| C32-C35 | attribute handlers | case analysis; C35 refuted |
| C36-C39 | `default_plot.py` | counting invariant; C38 refuted |
| C40-C41 | `application_definition.py` | list induction; C41 refuted |
| C42-C44 | `nxdl_manager.py` | induction on XML trees; pigeonhole for termination; C44 refuted |
| C45 | `get_NXDL_file_list` | sort correctness |
| C46-C49 | `CacheManager`; a set is shown as text only if its info file has a hash or no ref (`Spec_FileSets.described`) | list induction, maximality; C48, C49 refuted |
| C50-C55 | `download_file_set` | every prefix of the step list; C50, C54 refuted; that no path leads out of the cache directory (C53_inside) is an invariant of the steps (`InstallSafe.v`) |
| C56-C59 | `main.py` | list induction; C58, C59 refuted |
| C60-C62 | `h5tree.py` | list/tree induction |
| C63-C65 | `utils.py` | case analysis; UTF-8 round trip; C65 refuted for array valued NX_class |
| C66-C69 | `schema_manager.py` | state model of class-level dictionaries; C66, C67 refuted |
| C70 | `handle_any_attribute` | as C01 |
| C71 | `hdf5_group_items_in_base_class.py` | list induction over the attributes |
| C72 | `NXDL_Manager.__init__`, `get_NXDL_file_list` | induction over the sorted file list |
| C73-C74 | `download_file_set` | every prefix of the step list; both refuted, exact crash points proved |
| C75 | `table_of_caches` | sort correctness |
| C76-C79 | `main.py` | case analysis over the caches; C77 refuted; C79 by induction over the names |
| C80-C81 | `h5tree.py` | case analysis, rank induction; both refuted, exact conditions proved |
| C82-C85 | `main.py`, `nxdltree.py` | case analysis; C82, C84 refuted |
| C86 | `print_report` | invariant: every recorded finding has an address |
| C87-C88 | `schema_manager.py` | induction over declarations; both refuted, exact conditions proved |
| C89-C94 | `nxdl_schema.py` | heap model of the catalogue; separation of objects by construction order; C89, C91, C92 refuted; C94 by computation on the shipped schemas |
| C95-C97 | `attribute.py` | per-attribute specification over the run |
| C98-C103 | `Data_File_Validator` with the files of its file set | `Session.v` puts the loaders together; the theorems about loading (C42-C44, C72, C68, C87) and about validations (C01, C28-C30, C40, C70, C71) are composed, so that the statements speak of the NXDL and XSD files only |
| C104 | `h5tree.py` | blocks of lines found from the root down; uniqueness of blocks; one lemma for each kind of member |
| C105 | `main.py` `func_tree` | from C62 and the definition of the command |
| C106 | all checks | the invariant of C22's lemmas with the table `gives` as the condition on each recorded finding; sample runs for the lines of the table |
| C107 | `nxdl_manager.py` `NXDL__dim`, `NXDL__dimensions` | part of the content of a loaded field (`Spec_Nxdl`); positions of elements and loaded fields agree |
| C108 | `main.py` `parse_command_line_arguments`, `main` | argparse modelled (`Args.v`); a line is a sequence of items, each with its words (`Spec_Args`); the scan over the words keeps what the items say |
| C109 | as C108, `nargs="*"` | the first block of names is taken; witness and exact condition |
| C110 | `main.py` `main` | every way of not being a command; exit codes by induction over the scan |
| C111 | `main.py` `main`, `CacheManager()` | caches are read first; witness, and independence for readable caches |
| C112 | `cache_manager.py` `download_file_set`, `write_json_file`, `read_json_file` | `json.dumps`/`json.loads` modelled (`Json.v`); reading undoes writing for all texts; composed with the installation |
| C113 | `write_json_file`, `read_json_file` | a beginning of a JSON object is no JSON text, by induction over the pieces of the text |
| C114 | `select_NXDL_file_set` | equal length decimal fields: text order is the order of the dates |
| C115 | `punx install` followed by `punx validate` | `Whole.v` loads file sets from the directories that the installation leaves; C112, C114, C76, C77 and C98 are composed |
| C116 | the same | at every state that an installation passes through the other directories are as before (as for C53), and a validation depends on one of them only |
| C117 | `validate_xml_tree`, `get_default_schema_manager` | `Managers.v`: the schema is an argument of loading; refuted for objects by a witness |
| C118 | `download_file_set` as a process whose steps see the directory as it is then | `Conc.v`: an interpreter for schedules; each process only reads and writes its own entries (locality), and alone it does what `Install.v` says (`ConcAlone.v`) |
| C119 | the same | refuted by two schedules |
| C120 | `finding_summary` with an argument | refuted by a witness; induction over the findings |
| C121 | when an installation succeeds | progress by induction over the members: the invariant "nothing is in the way" is kept by every step |
| C122 | installations after interrupted ones | the same invariant holds in every state a run visits |
| C123 | listing file sets while processes install some: `Listing.v`, a process that looks, interleaved with those of `Conc.v` | refuted by two schedules; an invariant over what the looking process can see |
| C124 | every process ends under a fair schedule: `Conc.v`, `Listing.v` | induction on the process; before its next turn the others change only the directory |
| C125 | `validate`, `isNeXusFile`, the tree, on two files with the same content | relational proof over every function of the validator and of the tree: open objects correspond, everything else is equal |
| C126 | number of items `build_address_catalog` lists | induction over the walk: the items are counted by the list of all ways; a family of files with 2^k ways refutes the bound; for files linked once the ways are injective on objects |
| C127 | `NXDL_Manager.__str__` | induction over the classes: a dictionary of counts; the text is parsed back by its commas and last colons |
| C128 | `Finding.__str__`, `ValidationItem.__str__`, `identify_object_type` | cancellation at the first comma; a counterexample with commas; the type of an item was computed when it was made |
| C129 | all of `validate()` | a predicate "returns from every state after cataloguing", established for each check in turn; class paths are sequences of parts, so items of given class paths have the objects the checks expect |
| C130 | `default_plot.py` verdict, `minOccurs` in `hdf5_group_items_in_base_class.py` | the number left with the data group of NXentry is followed through all steps: set by each NXentry group, left alone by everything else |
| C131 | `h5tree.py` texts of lines, types, shapes and values | by cases on what h5py gives of a dataset; arrays by induction on the shape |
| C132 | the whole validation of two files that differ in order | items of both catalogues matched by address; step 1 by a simulation of the checks of one item, steps 2 and 3 by showing that what is reported about a group is a function of its contents, step 4 from the declarative reports of the default plot (OrderPlot.v); refuted for the plot that is reported when there are several, and for the score when a signal names nothing |
| C133 | parse_nxdlTypes, Schema_nxdlType | the last declaration of each name, by induction over the file; words of a union by an inductive specification |
| C134 | Schema_Root, Schema_Type, Schema_Element, Schema_Attribute | an inductive relation for what a type states, in order, and for what an element keeps; induction over the fuel and over the contents; refuted for attributes of types written inside an element |
| C135 | read_json_file, NXDL_File_Set.read_info_file | an inductive grammar of JSON (Spec_Json.v); the reader is sound and complete for it by induction over the text and over its derivation; its fuel suffices |
| C136 | re.compile("^" + p + "$").match(s) in item_name.py | a grammar of pattern texts with their meaning as sets of texts (Spec_Regex.v, no syntax trees); the parser is sound and complete for it by induction over fuel and derivations; the derivative matcher is correct. C01, C04, C70 and C102 state patterns by this grammar |
| C137 | validate() on two file systems that differ in data | the runs are related step by step (the simulation of C125, generalised to files that agree but for data); the only places that read data are the name of an application definition and its enumerations |
| C138 | main() on lines with the word `--` | the scan for any number of words is open exactly as long as the first block of names lasts; the words after `--` act like names |
| C139 | main() for punx validate | case analysis of the subcommand; a completed validation can always be reported (C86) |
| C140 | the whole run with two collections of classes | two runs related step by step: every lookup is of a name the items took from the file; storing minOccurs keeps the agreement |
| C141 | the whole run, with the exception it ends with | invariant: every number of an item kept in a catalogue or as a parent is that of an existing item, so that the lookups by number succeed; one lemma per model function |
| C142 | print_tree and str() of the objects of a summary | induction on the limit of recursion, with the outline as a relation; the bound of build_tree carries over |
| C143 | validate on two files that differ in attribute values | simulation of the two runs, with the items whose value is read known not to be extra ones |
| C144 | Hdf5TreeView.report on two files that list members and attributes in other orders | induction on the recursion limit; the sorted members are equal because names differ; attribute lines are permuted |
| C145 | Hdf5TreeView.report without attributes on two files that differ in other attributes | induction on the recursion limit; every attribute that is read is NX_class or target |
| C146 | NXDL_Manager loading of a file set, when it succeeds and how it fails | each parser succeeds exactly on proper nodes and otherwise raises KeyError; induction on the XML tree and on the file list |
| C147 | get_NXDL_file_list, NXDL_Manager and Data_File_Validator on two directory trees with the same NXDL files | sorted lists without repetition and with the same elements are equal |
| C148 | Hdf5TreeView.report with two values of array_items_shown | induction on the recursion limit, with a relation between lines; arrays by induction on the shape |
| C149 | `download_file_set` twice | exact content after an installation (C74_partial), success (C121) and frame (C52_frame) |
| C150 | `download_file_set` for a list of names, in two orders | the content after all installations is given by each alone, by induction on the list: success (C121), frame (C52_frame), independence of the old content (C149_replaced) |
| C151 | `download_file_set` after interrupted runs | invariant over the crash states: the top directory has only files that the archive writes; then the installed content is exact |
| C152 | `func_install` after interrupted runs | every crash state is one in which each set alone was interrupted; the invariant of C151 for all sets at once, by induction on the runs and on the list of names |

A property that turns out false of the code is kept in `properties.jsonl` in the
words a user would use; the model then has a theorem `..._refuted` giving a
witness, and, where useful, the strongest true variant.  In `MANIFEST.json` such
a property is "partial" and its note begins with "REFUTED".  In nearly all of
these cases nothing is missing from the proof: the code does not have the
property, and a `_partial` theorem says under which condition it has it, often
exactly.

## Which code is modelled

| code | model | simplifications |
|------|-------|-----------------|
| `punx/finding.py` | `Findings.v`, `Texts.v` | colours left out |
| `punx/validate.py` | `Core.v`, `Catalog.v`, `Validate.v`, `GroupChecks.v`, `Report.v`, `Handles.v`, `Texts.v` | report text is rows of a table; averages are exact rationals; logging left out |
| `punx/validations/item_name.py` | `ItemName.v`, `Regex.v` | |
| `punx/validations/attribute.py` | `AttributeCheck.v` | |
| `punx/validations/base_class_items_in_hdf5_group.py`, `hdf5_group_items_in_base_class.py`, `nx_class_attribute.py` | `GroupChecks.v` | |
| `punx/validations/application_definition.py` | `AppDef.v` | |
| `punx/validations/default_plot.py` | `DefaultPlot.v` | `default_plot_v1` is empty |
| `punx/utils.py` | `Utf8.v`, `H5.v` | stdout encodings: UTF-8, ASCII, Latin-1; logger setup left out |
| `punx/nxdl_manager.py` | `Nxdl.v`, `NxdlLoad.v`, `Texts.v` | elements are in the NXDL namespace |
| `punx/nxdl_schema.py` | `NxdlSchema.v`, `NxdlPrint.v` | `__str__` of attributes, elements and groups only |
| `punx/schema_manager.py` | `SchemaMgr.v` | `__str__` left out |
| `punx/cache_manager.py`, `punx/singletons.py` | `Cache.v`, `Install.v`, `InfoFile.v` | QSettings is a path; the JSON reader is an argument, given by `InfoFile.v`; the values in info files are text or null; `cleanup` of temporary directories, which are never made, left out |
| `punx/h5tree.py` | `H5Tree.v` | text of numbers is a parameter |
| `punx/main.py`, `punx/nxdltree.py` | `Cli.v`, `Args.v`, `Main.v` | the XSLT processor is not modelled; of `argparse`, messages are left out |
| `punx/validate.py` `Data_File_Validator.__init__`, `punx/nxdl_manager.py` `NXDL_Manager.__init__` | `Session.v` | for a file set without NXDL files the schema manager is made at once, not when first needed |
| the command line program with the directories of its caches | `Whole.v` | what lxml makes of a text is a parameter; schema files that are not XML are left out; neither cache directory is inside the other |
| `NXDL_Manager(file_set)` with an object | `Managers.v` | in a process that has read no schema yet |
| `download_file_set` in several processes | `Conc.v` | a system call of one process is one step (each character of a write is one); two processes that write to the same open file, or to a file that was moved in between, are simplified (the content is that of the last writer); `shutil.rmtree` lists all directories at its beginning; the test and the rename of `shutil.move` are one step |
| `punx/__init__.py` | `PyBase.v` (exceptions) | |

Each definition of a model file cites the lines it stands for and names its
simplifications.

Not modelled: `punx/ignore_now` and `punx/_version.py` (not part of the program),
logging, GitHub itself, the XSD and XSLT processors (lxml), h5py's C code,
Python's memory and threads, text layout of tables (`pyRestTable`).

## Files

* Base: `PyBase`, `PyFacts`, `Regex`, `RegexFacts`, `Utf8`, `H5`.
* Model: see the table.
* Specifications: `Spec_*.v`.
* Proofs: `*Facts.v`, `*Run.v`, `*End.v`, `Trace`, `Attr*`, `Plot*`, `Defaults*`, ...
* Concrete cases: `Samples.v`, `*Samples.v`, `Shipped*.v`.
* Theorems: `Properties_*.v`.

## Testing the theorems

`seeded/LOG.jsonl` has one line per wrong program that was tried: an edit of a
definition in a scratch copy of the model, the claim that becomes false, the
theorems that then fail, and the theorems that were tightened because none did.
A theorem counts as failed if its proof, or the proof of a lemma it rests on, is
rejected.

## Trusted base

* Coq's kernel (8.16.1), checked additionally with `coqchk`.
* `Print Assumptions` follows every theorem in `Properties_*.v`; each reports
  "Closed under the global context": no axiom is used, of the standard library or
  otherwise.
* The faithfulness of the model to the cited lines, with the simplifications
  named in the table and in the comments.
* The meaning of h5py, lxml and the Python library functions as modelled in
  `PyBase.v`, `H5.v`, `Utf8.v` and `Regex.v`.
