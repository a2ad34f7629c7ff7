# Formal model of Metatab/metatab in Rocq (Coq 8.16.1)

The model is in `rocq/theories` (logical name `Verif`).  The properties are in
`properties.jsonl`, their status and theorems in `MANIFEST.json`, the wrong
programs the theorems were tried on in `seeded/LOG.jsonl`.  Each was tried by
rebuilding the proofs over the edited model, or, where the entry has a field `how`,
by evaluating the statements of the theorems on concrete inputs of it.

## Approach

The Python classes are mutable objects with identity, so the model is a shallow
embedding in a state-and-exception monad `M A := st -> st * res A`:

* `st` holds a heap (a list of term records; a term object is its index), the
  document record, the running parser's record and the term-class registry;
* an exception is a value (`Err e`) returned together with the state at the
  point of the raise, as in Python (mutations made before a raise stay);
* Python dicts are insertion-ordered association lists;
* Python generators run in lock step with their consumer
  (`generate_terms` -> `__iter__` -> `load_terms`), as they interleave in Python;
* unbounded recursion (nested includes, walking children) takes fuel and
  returns the distinct error `ERecursion` when it runs out; the theorems say
  how much is enough, or that the result does not depend on it;
* what the program gets from its surroundings is an argument: the contents of
  files by name (`env`), the fresh UUID (`uuid`); what it does to them is a
  result: the path and text of a written file.

Each property has a small specification that does not use the functions of the
model (`Spec*.v`), proofs (`*Facts.v`), and theorems with nothing but
`exact lemma`, a concrete `Example` and `Print Assumptions` (`Prop*.v`).

A property the code does not have is stated in full, refuted by a witness
(`Cnn_..._refuted`), and the strongest true part is proved (`Cnn_..._partial`, or
a theorem under an explicit guard).  `_refuted` theorems of a property marked
proved show that the guard in its statement is needed.

## Trusted base

* Coq's kernel (8.16.1), without disabled checks and without plugins.
* Axioms: none.  `Print Assumptions` prints "Closed under the global context"
  for every theorem of every `Prop*.v` file; the build shows it.
* That the definitions of the model files below say what the Python code does.
  Each cites the file and lines of `/repo` it models and states its
  simplifications.  `PyTests.v` compares the hand-written Python primitives
  (`strip`, `split`, `lower`, `title`, `replace`, `int`, `str`, the csv module,
  NFKD) with values computed by CPython 3.11; these are tests, not proofs.
* That the specifications (`Spec*.v`) and theorem statements say what the
  English properties say.

Simplifications that hold throughout:

* A `str` is a Coq `string` read as Latin-1, so case mapping, white space and
  NFKD are those of the code points 0-255.  `title` of U+00DF, whose result has
  two characters, and `lower` are exact on that range; `upper` is not used.
* Values of terms are None, str, int, False or a reference to a term.  A float
  or other object as a value is not modelled.
* Python `set`s have no defined order; where the code iterates over one, the
  model takes the order of first occurrence and says so.
* Recursion limits, memory and interpreter crashes are not modelled.
* Term subclasses registered by a user are distinguished by name (`cls`) but
  have no behaviour of their own.

### What is modelled

| file of `/repo/metatab` | modelled | in |
|---|---|---|
| `terms.py` 28-105 | `Term.__init__`, names of a term | `Names.v`, `Ops.v` |
| `terms.py` 107-479 | `new_child`, `add_child`, `remove_child`, `new_children`, `set_ownership`, `find*`, `get_or_new_child`, `__getitem__`, `__setitem__`, `__delitem__`, `get`, `get_value`, attribute access, `qualified_term`, `join`, `term_is` | `Ops.v`, `Names.v`, `Attr.v` |
| `terms.py` 480-666 | `is_terminal`, `property_names`, `props`, `arg_props`, `all_props`, `as_dict`, `rows`, `descendents`, `file_ref`, `__str__` | `Ops.v`, `Render.v`, `Attr.v`, `Origin.v` |
| `terms.py` 669-990 | `SectionTerm`: arguments, adding, removing, moving, cleaning, sorting terms, `set_terms`, `find`, items, `rows`, `lines`, `as_dict`; `RootSectionTerm` | `Ops.v`, `Render.v`, `Attr.v` |
| `parser.py` | `TermParser`: classes, synonyms, super terms, `generate_terms`, `__iter__`, includes, declarations, inheritance, value sets, `IncludeError` messages, `errors_as_dict`, the cache of `super_terms`, a second iteration | `Parser.v`, `Ops.v`, `Report.v`, `Shared.v`, `TermStream.v` |
| `doc.py` | construction, `load_declarations`, `load_terms`, adding and removing terms and sections, searching, sorting, `cleanse`, schema cleaning, identifiers, versions, names, `as_dict`, `rows`, `lines`, `as_csv`, `as_lines`, `write*`, `path`, `mtime`, `doc_dir` | `Ops.v`, `Parser.v`, `Maint.v`, `Render.v`, `Csv.v`, `Origin.v` |
| `rowgen.py` | `MetatabRowGenerator`, `TextRowGenerator` (choice of the text, lines), `YamlMetatabSource.yield_dict`, `YamlMetatabSource.__iter__` from the loaded value on | `TextRows.v`, `RowGen.v`, `Misc.v`, `Yaml.v` |
| `util.py` | `declaration_path`, `slugify`, `flatten`, `make_dir_structure`, `walk_up`, `ensure_dir`, `copytree`, `md5_file` (without MD5 itself), `import_name_or_class` | `Slug.v`, `Misc.v`, `Files.v`, `Resolve.v`, `Origin.v` |
| `cli.py` | the `metatab` command with its options, `new_metatab_file`, `get_table` | `Cli.v`, `Argv.v` |
| `datapackage.py` | `convert_to_datapackage` | `Misc.v` |
| `appurl.py` | path, fragment, target file and format of a `MetatabUrl` | `Misc.v` |

### What is not modelled

* Logging set-up in `cli.py`, the usage and help texts of `argparse` (its reading of the options is in `Argv.v`, for Python 3.8 and 3.9), the text json, yaml and pprint make
  (arguments of the model), `__init__.py`, `resolver.py` beyond the IncludeError of `find_decl_doc`, `html` helpers, logging and printing.
* Network access, zip and xlsx containers, Google sheets: a source is the list
  of its rows.  `appurl.py` beyond the functions named (`get_resource`,
  `get_target`, `generator`, `doc`, which delegate to the rowgenerators library).
* Reading YAML text (`yaml.load` in `YamlMetatabSource.__iter__`); values of a
  YAML file that are floats or dates, keys that are not str, lists and dicts as
  the value of a term, and aliases (one dict in two places).
* `util.py`: `Bunch`.  The file system of
  `Files.v` is a tree without links, permissions or times.
* `__repr__`, `_repr_html_` and other display methods.
* `doc.py`: `cache`, `resolve_url`, `decl_terms` views; `load_rows`, which gives
  `TermParser` its arguments in the wrong places.

## Files

| file | kind | contents |
|---|---|---|
| `PyStr.v` | model | the Python [str] primitives used by metatab. |
| `PyBase.v` | model | values, exceptions, dicts and the state-and-exception monad |
| `Names.v` | model | term names (metatab/terms.py, metatab/parser.py) |
| `State.v` | model | term, document and parser records, and the heap |
| `Ops.v` | model | methods of Term, SectionTerm and MetatabDoc |
| `Parser.v` | model | TermParser and the loading of a document (metatab/parser.py, metatab/doc.py:34-90, 157-176, 464-512) |
| `Render.v` | model | documents as rows, lines, CSV text and nested dicts (metatab/terms.py, metatab/doc.py) |
| `Csv.v` | model | the writer of the csv module as used by doc.as_csv, and a reader |
| `Slug.v` | model | metatab.util.slugify (metatab/util.py:40-52) |
| `TextRows.v` | model | the reader of the line format (metatab/rowgen.py:118-204) |
| `Maint.v` | model | identifiers, names, versions, cleaning and writing (metatab/doc.py:119-131, 520-773, 863-928) |
| `Misc.v` | model | flatten, data packages, YAML source, metatab URLs (metatab/util.py, datapackage.py, rowgen.py, appurl.py) |
| `Attr.v` | model | attributes of terms, [in], properties as dicts, set_terms (metatab/terms.py:319-395, 497-538, 805-830; metatab/doc.py:279-336, 424-458) |
| `Files.v` | model | directories and files (metatab/util.py:84-99, 126-173) |
| `Cli.v` | model | the metatab command (metatab/cli.py) |
| `Yaml.v` | model | a document from a YAML file (metatab/rowgen.py:42-89) |
| `Resolve.v` | model | where declarations are found (metatab/util.py:20-37) |
| `Origin.v` | model | where a document and its terms come from (metatab/doc.py:34-142, terms.py:72-81, 152-163, 656-666, util.py:206-241) |
| `Report.v` | model | what an IncludeError tells (metatab/parser.py:219-233, 301-409, 521-525; doc.py:507-512; exc.py:25-28) |
| `Shared.v` | model | the parser's cache and the dicts its declarations share (metatab/parser.py:121-132, 527-624) |
| `RowGen.v` | model | row generators and the text they read (metatab/rowgen.py:90-180, parser.py:314-319) |
| `Argv.v` | model | the command line of metatab (metatab/cli.py:26-71) |
| `TermStream.v` | model | iterating a parser, and the output of metatab -t (metatab/parser.py:301-524, cli.py:131-133) |
| `SpecNames.v` | specification | what a term cell and a term pattern mean |
| `SpecOrder.v` | specification | orders, columns and class registrations (C29 - C32) |
| `SpecText.v` | specification | the line format (C37, C38) |
| `SpecTree.v` | specification | leaves of nested values (C46, C48) |
| `SpecStray.v` | specification | items of lists that are not dicts (C48, C71) |
| `SpecUrl.v` | specification | files and extensions of a path (C49) |
| `SpecParse.v` | specification | what the rows of a file mean |
| `SpecDoc.v` | specification | loading a file into a new document |
| `SpecInv.v` | specification | documents in good order |
| `SpecFind.v` | specification | what a search of the document has to return (C27, C28) |
| `SpecEdit.v` | specification | children by name (C26) and small vocabulary for C20 - C25 |
| `SpecDict.v` | specification | the nested dict of a term (C33, C34) and the walk over all terms (C51) |
| `SpecRows.v` | specification | what the rows of a document have to contain (C36) |
| `SpecMaint.v` | specification | vocabulary for the maintenance operations (C40 - C50) |
| `SpecPack.v` | specification | vocabulary for data packages (C47) and schema cleaning (C50) |
| `SpecRows03.v` | specification | what it means that rows without a term do not matter |
| `SpecNumber.v` | specification | names that are numbers of columns |
| `SpecInclude.v` | specification | files that refer to each other |
| `SpecKept.v` | specification | what a parse must not take away from a document |
| `SpecInherit.v` | specification | what inheriting a declaration means |
| `SpecPad.v` | specification | documents that differ in empty cells at the ends of rows |
| `SpecRound.v` | specification | documents as trees, and what survives writing and reading (C35) |
| `SpecOrderly.v` | specification | files whose documents are in good order |
| `SpecAttr.v` | specification | attributes, property dicts, set_terms, sections by name (C55 - C60) |
| `SpecHead.v` | specification | a file whose first rows are of any kind |
| `SpecFiles.v` | specification | what is where in a tree of files (C62 - C65) |
| `SpecCli.v` | specification | what a run of the command may do (C65 - C69) |
| `SpecKeep.v` | specification | documents in good order after the first rows of a file |
| `SpecYaml.v` | specification | the terms of a YAML file (C71) |
| `SpecResolve.v` | specification | the files that names in Declare and Include rows mean (C72) |
| `SpecWhere.v` | specification | the cells that terms are read from (C73) |
| `SpecSyn.v` | specification | names that stand for other names |
| `SpecWipe.v` | specification | several terms are taken out of a document (C75) |
| `SpecCalm.v` | specification | first rows that leave the parser in good order |
| `SpecOutline.v` | specification | the document that the rows of a file describe (C77) |
| `SpecAnswer.v` | specification | what a parsed file answers (C78) |
| `SpecOrigin.v` | specification | where documents and terms come from (C79, C80, C81) |
| `SpecSpread.v` | specification | extra cells written as rows of their own (C82), documents written as lines (C83) |
| `SpecReport.v` | specification | what an IncludeError tells (C84) |
| `SpecSource.v` | specification | what a text source is given (C86) |
| `SpecArgv.v` | specification | what the words of the metatab command say |
| `SpecStream.v` | specification | the terms of a file, as text, one per line |
| `SpecMore.v` | specification | files loaded one after another into a document (C89) |
| `SpecDeclared.v` | specification | what the rows of a declaration file declare (C90) |
| `SpecOpened.v` | specification | a document opened with declaration files (C91) |
| `SpecDeclaring.v` | specification | a file that begins with Declare rows (C92) |
| `SpecRefuse.v` | specification | which DeclareTerm rows are refused (C93) |
| `PropNames.v` | theorems | C01 (names of terms) and C02 (term_is) |
| `PropOrder.v` | theorems | C29 sort_sections, C30 sort_by_term, C31 columns, C32 classes |
| `PropText.v` | theorems | C37 writing lines, C38 the line reader, C39 CSV, C43 slugs |
| `PropTree.v` | theorems | C46 flatten, C48 the YAML source, C49 metatab URLs |
| `PropParse.v` | theorems | the rows of a file and the terms made from them (C04 - C10, C14, C16) |
| `PropDoc.v` | theorems | operations on a document (C20 - C28, C53, C54) |
| `PropRender.v` | theorems | what a document looks like from outside (C33, C34, C36, C51) |
| `PropMaint.v` | theorems | identifiers, versions, names and writing |
| `PropPack.v` | theorems | data packages (C47) and schema cleaning (C50) |
| `PropRows03.v` | theorems | rows without a term |
| `PropNumber.v` | theorems | names that are numbers of columns |
| `PropInclude.v` | theorems | files that include each other (C12, C13) |
| `PropInherit.v` | theorems | declarations that inherit, and value sets (C17, C18) |
| `PropDeclare.v` | theorems | what Declare rows and the decl argument do (C19, C52) |
| `PropPad.v` | theorems | empty cells at the ends of rows (C11) |
| `PropRound.v` | theorems | writing a document as rows and parsing them (C35) |
| `PropOrderly.v` | theorems | parsed documents are in good order (C22) |
| `PropAttr.v` | theorems | attributes of terms (C55), set_terms (C56), property dicts (C57), [in] (C58), find with properties (C59), sections by name (C60) |
| `PropHead.v` | theorems | the rows after the first rows of a file (C61) |
| `PropFiles.v` | theorems | making directories, walking up and copying (C62 - C64) |
| `PropCli.v` | theorems | the metatab command (C65 - C69) |
| `PropKeep.v` | theorems | documents read after Declare and Include rows are in good order (C70) |
| `PropYaml.v` | theorems | the document of a YAML file (C71) |
| `PropResolve.v` | theorems | the files that names in Declare and Include rows mean (C72) |
| `PropWhere.v` | theorems | every text of a parsed document is that of a cell (C73) |
| `PropSyn.v` | theorems | names that stand for other names (C74) |
| `PropWipe.v` | theorems | removing terms through sections and parents (C75) |
| `PropLook.v` | theorems | looking up the children of a term (C76) |
| `PropCalm.v` | theorems | first rows that leave the parser in good order (C61) |
| `PropOutline.v` | theorems | a parsed document is exactly the forest its rows describe |
| `PropAnswer.v` | theorems | what the document of a file answers is what its rows say |
| `PropOrigin.v` | theorems | where documents and terms come from (C79, C80, C81) |
| `PropSpread.v` | theorems | extra cells and rows of their own say the same; C83: a document written as lines is read back |
| `PropReport.v` | theorems | what an IncludeError tells (C84) |
| `PropShared.v` | theorems | the parser's cache and shared dicts cannot be seen (C85) |
| `PropSource.v` | theorems | row generators (C86) |
| `PropArgv.v` | theorems | the command line (C87) |
| `PropStream.v` | theorems | the listing of the terms of a file (C88) |
| `PropMore.v` | theorems | a file loaded into a document that is not empty |
| `PropDeclared.v` | theorems | a declaration file declares what its rows say |
| `PropOpened.v` | theorems | a document opened with declaration files is read by what those files declare |
| `PropDeclaring.v` | theorems | a file that begins with Declare rows is read by what the files they name declare |
| `PropRefuse.v` | theorems | which DeclareTerm rows are refused |
| `PyTests.v` | tests | the primitives compared with CPython 3.11 |
| `StrFacts.v` | proofs | lemmas about the string primitives |
| `HeapFacts.v` | proofs | the monad, the heap and the dicts |
| `NameFacts.v` | proofs | proofs about term names |
| `ConstructFacts.v` | proofs | what the constructors of terms do |
| `OrderFacts.v` | proofs | proofs for C29 - C32 |
| `TextFacts.v` | proofs | proofs about the line reader |
| `LineFacts.v` | proofs | writing lines and reading them back |
| `CsvFacts.v` | proofs | the csv reader undoes the csv writer |
| `SlugFacts.v` | proofs | proofs about slugify |
| `ListFacts.v` | proofs | generic lemmas about lists |
| `TreeFacts.v` | proofs | proofs about flatten |
| `YamlFacts.v` | proofs | proofs about the YAML source |
| `UrlFacts.v` | proofs | proofs about metatab URLs |
| `RunFacts.v` | proofs | effects of the primitive state changes |
| `EmitFacts.v` | proofs | what one term going through the parser does to the state |
| `DigitFacts.v` | proofs | numbers written with str() and read with int() |
| `RowFacts.v` | proofs | what one row of a file does to the state |
| `ParseFacts.v` | proofs | the state after the rows of a file |
| `DocFacts.v` | proofs | the terms of a parsed file |
| `ForestFacts.v` | proofs | parents and children after a parse |
| `ParseProps.v` | proofs | the parser properties, from DocFacts and ForestFacts |
| `TotalFacts.v` | proofs | which rows a parse fails on |
| `FrameFacts.v` | proofs | what a computation leaves alone |
| `MetaFacts.v` | proofs | the meta data of a parsed term |
| `InvFacts.v` | proofs | primitive steps that keep a document in good order |
| `ChildFacts.v` | proofs | what the operations on children of a term do, whatever their outcome |
| `ListOps.v` | proofs | adding terms to and removing terms from the lists of a document |
| `OpFacts.v` | proofs | what the operations on a document do |
| `SecFacts.v` | proofs | creating, deleting and sorting sections keeps a document in order |
| `FindFacts.v` | proofs | what find returns |
| `AddFacts.v` | proofs | what searches see after adding, removing and deleting |
| `EditFacts.v` | proofs | item assignment on terms (C26) and sections (C25), moving and deleting (C53, C54) |
| `StepFacts.v` | proofs | every operation keeps a document in good order (C22) |
| `DocProps.v` | proofs | the statements of C20 - C28, C53 and C54 from the facts about the operations |
| `DictFacts.v` | proofs | as_dict (C33, C34) and all_terms (C51) |
| `RowsFacts.v` | proofs | what the rows of a document contain (C36) |
| `MaintFacts.v` | proofs | identifiers, versions, names and writing (C40 - C42, C44, C45) |
| `MFrame.v` | proofs | the operations leave the register of classes alone |
| `VersionFacts.v` | proofs | update_version (C42) |
| `IntFacts.v` | proofs | integers written and read back |
| `GenFacts.v` | proofs | the name of a document (C41, C44) and writing it (C40) |
| `WriteFacts.v` | proofs | cleaning, writing and names with another version |
| `PackFacts.v` | proofs | data packages (C47) |
| `CleanFacts.v` | proofs | clean_unused_schema_terms (C50) |
| `SimFacts.v` | proofs | two runs that differ only in recorded row numbers |
| `NumberFacts.v` | proofs | proofs about numeric names |
| `IncludeFacts.v` | proofs | proofs about included files |
| `GrowFacts.v` | proofs | a relation kept by all operations of the parser |
| `DeclareFacts.v` | proofs | the declarations of a document after a load |
| `IncFacts.v` | proofs | parsing with Include rows |
| `InheritFacts.v` | proofs | the loop over inherited children |
| `DeclFacts.v` | proofs | what holds of all declarations a parse collects |
| `PadFacts.v` | proofs | two runs that differ only in empty cells at the ends of rows |
| `PrintFacts.v` | proofs | the rows of a document as a function of its trees |
| `ReadFacts.v` | proofs | reading the rows of a tree makes the tree |
| `RoundFacts.v` | proofs | writing a document and reading it again (C35) |
| `OrderlyFacts.v` | proofs | a parsed document is in good order |
| `AttrFacts.v` | proofs | attributes, property dicts, set_terms, sections by name |
| `HeadFacts.v` | proofs | the rows after the first rows of a file |
| `FilesFacts.v` | proofs | making directories, walking up, copying |
| `CliFacts.v` | proofs | runs of the command |
| `KeepFacts.v` | proofs | reading rows keeps a document in good order |
| `YamlDocFacts.v` | proofs | the document of a YAML file |
| `ResolveFacts.v` | proofs | the files that names mean (C72) |
| `WhereFacts.v` | proofs | terms are read from cells (C73) |
| `SynFacts.v` | proofs | two runs that differ only in the spelling of names |
| `WipeFacts.v` | proofs | clean, and remove_term and remove_child (C75) |
| `LookFacts.v` | proofs | looking up the children of a term (C76) |
| `CalmFacts.v` | proofs | first rows that leave the parser in good order |
| `CalmRowFacts.v` | proofs | the rows of a file that leave the parser in good order |
| `OutlineFacts.v` | proofs | the document read from a file is the one its rows describe |
| `AnswerFacts.v` | proofs | the dict of a parsed file and searches in it (C78) |
| `OriginFacts.v` | proofs | where documents and terms come from (C79, C80, C81) |
| `SpreadFacts.v` | proofs | extra cells written as rows of their own (C82) |
| `RelineFacts.v` | proofs | writing a document as lines and reading it again (C83) |
| `ReportFacts.v` | proofs | proofs about reports of include errors (C84) |
| `SharedFacts.v` | proofs | proofs about the parser's cache and shared dicts (C85) |
| `SourceFacts.v` | proofs | proofs about row generators (C86) |
| `ArgvFacts.v` | proofs | proofs about the command line |
| `StreamFacts.v` | proofs | what iterating a parser again prints |
| `StreamRowFacts.v` | proofs | the lines printed for one row |
| `StreamLoadFacts.v` | proofs | what a loaded document gives a second reading |
| `MoreFacts.v` | proofs | loading a further file into a document |
| `DeclaredFacts.v` | proofs | the declarations after a term of a declaration file |
| `DeclaredRowFacts.v` | proofs | the declarations after the rows of a declaration file |
| `DeclaredFileFacts.v` | proofs | the declarations after a declaration file |
| `OpenedFacts.v` | proofs | reading a file with the declarations of another |
| `DeclaringFacts.v` | proofs | reading the rows after Declare rows |
| `RefuseFacts.v` | proofs | which DeclareTerm rows are refused |

## Properties

How each property is proved, by the file its theorems are in:

* `PropNames.v`: string lemmas against a declarative description of a split and
  of the names a pattern denotes.
* `PropParse.v`: an invariant of the parser state (`vinv`) kept by each row, and
  a record of what each row adds to the heap; then induction over the rows.
  `C05_accepted` and `C05_missing` say which files are accepted at all.
* `PropRows03.v`, `PropPad.v`: two runs are related step by step (a logical
  relation on the monad) although their rows differ.
* `PropInclude.v`: induction over the nesting of files; a file that includes
  itself; what the state is after an Include row.
* `PropInherit.v`, `PropDeclare.v`: relations kept by every step of a parse.
* `PropNumber.v`: numbers written by `str` and read by `int`.
* `PropDoc.v`, `PropOrder.v`: an invariant of documents (`doc_ok`, "in good
  order") kept by every operation; the exact effect of each operation on the
  lists; permutation and sortedness.
* `PropRender.v`: inductive specifications of the rendered forms, related to
  the trees in the heap by induction on their height.
* `PropRound.v`: the rows of a tree as a function of the tree, and a run of the
  parser over these rows, by induction over the tree.
* `PropText.v`: codec round trips for lines and CSV; slugs.
* `PropMaint.v`, `PropPack.v`: effects of the maintenance operations on
  documents in good order.
* `PropTree.v`: structural induction over nested values; paths of URLs.
* `PropOrderly.v`: a second invariant kept by each row of a parse; with it a
  parsed document is in good order, so the theorems of `PropDoc.v` apply to it.
* `PropAttr.v`: the dicts and lists against small inductive specifications; the
  attributes stored in the term objects are kept beside the document state.
* `PropHead.v`: the lemmas about rows hold over any background (RowFacts.v); here
  the background is the state the first rows of the file leave behind, `calm` is
  the condition on it, and `calm_by` decides it by computation.
* `PropCalm.v`: an invariant kept by every quiet row, by induction on the rows and
  on the nesting of files; at the end of the head it gives `calm`.  While a row of
  a section is taken in, the header of that section is held fixed (`held`).
* `PropKeep.v`: as in `PropOrderly.v`, but starting from the state the first rows
  leave; what is odd in it (`Quirks`, SpecInv.v) is a parameter of good order.
* `PropFiles.v`: a tree is known by what is at each path (`kind`); each operation
  gives the function of the tree after it from that of the tree before.
* `PropCli.v`: runs of the command case by case; that files are left alone is
  kept by sequencing.
* `PropWhere.v` (C73): a relation between states (old terms keep their place and
  get no text, new terms are placeless or written in a cell) is kept by taking in
  a term and established by every row; induction on the rows and on the nesting
  of files.
* `PropSyn.v` (C74): a relation between two runs from the same state, whose
  terms differ only in the text of a name; every function of the parser keeps it.
* `PropYaml.v`, `PropResolve.v`: structural induction over YAML trees; the
  resolution of names case by case.
* `PropWipe.v` (C75): induction over the list of terms to be removed, whose effect
  is described by `taken_out` for the whole list at once.
* `PropLook.v` (C76): the lookups against the specification of a child's name.
* `PropOutline.v` (C77): an invariant that ties every term of the heap to an entry
  of the list that the specification makes from the lines, kept by every row;
  then induction over that list from its end.  After first rows of any kind the
  same invariant starts from the calm state they leave.
* `PropAnswer.v` (C78): induction over the trees of C77, with the theorems about
  dicts (C33), searches (C27) and the round trip (C35) applied to them.
* `PropMore.v` (C89): the invariant of C77 again, with the whole document in the
  background and none of its terms known by name; a loaded document satisfies the
  invariant of a new parser, which gives the induction over files.
* `PropDeclared.v` (C90): a relation between the parser and the reader's desk (the
  columns, the name of values, the last record name), kept by every row; the loop
  over inherited children is a fold over the terms listed before it.
* `PropOpened.v` (C91): the document left by C90's run is calm (C89), so C89's
  outline of further rows applies; sections the file does not name drop out of it.
* `PropDeclaring.v` (C92): C90's run with terms loaded as they are read, from the
  directory of the file, gives C61's calm state and its declarations, names of
  cells and last record; C77's outline of the rows after a head applies to it.
* `PropRefuse.v` (C93): the run of a DeclareTerm row case by case; the state of the
  lists of terms is an invariant of the loop over inherited children, whose steps
  C17 bounds.

| id | title | status | theorems in | note |
|---|---|---|---|---|
| C01 | Term names are normalised the same way everywhere | proved | `PropNames.v` |  |
| C02 | term_is matches exactly the names its pattern denotes | proved | `PropNames.v` | Patterns without white space around their parts (tidy_pattern); C02_untidy_pattern_refuted shows why. |
| C03 | Blank and comment rows never change a parse | proved | `PropRows03.v` | All documents, positions and environments; a comment put above a Section row on the first line of a file is covered where nothing is included or declared. In the remaining case (a synonym declared for Section) it is false: C03_synonym_refuted. |
| C04 | Extra cells become named child terms | proved | `PropParse.v` | Documents of usual rows (SpecParse.usual). Include/Declare rows are outside this theorem. |
| C05 | A qualified row attaches to the most recent term of its parent name | proved | `PropParse.v` | Usual rows. C05_accepted/C05_missing: exactly the files whose rows name known parents are accepted. C05_elided_refuted: a row with an elided parent is not remembered as a parent. |
| C06 | An elided name '.c' means the same as the explicit name 'P.c' | partial | `PropParse.v` | False as stated: an elided row never gets declared meta data (C06_declared_refuted). Proved: same parent, name and value always, same meta data for undeclared names. |
| C07 | Extra cells always belong to the term of their own row | partial | `PropParse.v` | False as stated: cells of a row with an elided name become children of the parent (C07_elided_refuted). Proved for all other rows. |
| C08 | A parsed document is a forest | partial | `PropParse.v` | False as stated: a row 'A.A' becomes its own parent (C08_cycle_refuted). Proved for files without such rows; C08_linked holds for all. |
| C09 | Every row lands in the section it was written under, in order | proved | `PropParse.v` | Usual rows. |
| C10 | Section names are case-insensitive and unique | proved | `PropParse.v` | Parsing part, usual rows. |
| C11 | Trailing empty cells never matter | partial | `PropPad.v` | Proved for all documents without Declare rows or rows named by a number, and for the rows after any first part of a document (Declare rows included) that left a state without synonyms. Refuted as stated: an empty cell on a Section row that has no cells of its own overrides the declared columns, and an empty cell on a Header row without columns overrides the section's columns. |
| C12 | An Include does not change how the rows after it are read | partial | `PropInclude.v` | The section is always back in force; columns and value name for a section other than Root without Header row. Refuted for headered sections (the Header's columns are forgotten) and for Root (the columns of the included file stay in force). Also: the parent for elided rows becomes Root, where an ordinary row would become the parent. |
| C13 | Includes terminate or fail cleanly | proved | `PropInclude.v` | A bound on the nesting of files stands for Python's recursion limit; C13_settles and C13_more say the result does not depend on it. |
| C14 | A Header row renames the columns of its section | proved | `PropParse.v` | Usual rows. C14_root_heading_refuted: a heading naming the root section does not end the reach of the Header. |
| C15 | A numeric name is replaced by the column it numbers, and no other name is | proved | `PropNumber.v` | Names with a sign or underscore that int() accepts are renamed as well: C15_sign_refuted. |
| C16 | Declarations set the meta data of declared terms | proved | `PropParse.v` | Any parser state and declaration set, terms with an explicit name; C16_elided_refuted: an elided name gets no declared meta data. For root-level terms the document's own declarations must not disagree. |
| C17 | Declared terms inherit the children of their super term | proved | `PropInherit.v` |  |
| C18 | Declared value sets are recorded on the terms that use them | partial | `PropInherit.v` | False of the code: C18_refuted shows that no parse records values for a ValueSetName without a dot. C18_record_partial says what the recording step does. |
| C19 | Declaring adds nothing to the document itself | partial | `PropDeclare.v`, `PropHead.v` | C19_kept_partial: reading a declaration document loses, moves and reorders nothing. C19_refuted: its rows do become terms that find returns, and with a column named Section its sections join the document. C19_rows_after_refuted: its columns and its last record stay in force for the rows after the Declare. The full property is false of the code. |
| C20 | new_term adds exactly one findable term | proved | `PropDoc.v` | C20_effect gives the whole new state, C20_found and C20_others the searches. C20_other_parent_refuted: with another parent in the name the term enters the document list only. |
| C21 | remove_term removes exactly that term | proved | `PropDoc.v` | For documents in good order. C21_value_refuted: a term whose value is called 'section' loses its value. |
| C22 | The document list and the section lists always agree | partial | `PropDoc.v`, `PropOrderly.v`, `PropHead.v` | Any sequence of the operations of SpecEdit.edit keeps the lists in agreement, from an empty document or from one read from a file of usual rows. Missing, because false: new_section over an existing section (C22_refuted), capitalised names in get_or_new_section and del (C23_refuted, C24_refuted), names with outer white space, files with a row that names itself as its parent (C22_parsed_self_refuted), files with Declare rows (C22_declared_refuted). |
| C23 | get_or_new_section never replaces an existing section | partial | `PropDoc.v` | Holds for names in lower case and for new names; C23_refuted: an existing section asked for with a capital in the name is always replaced by an empty one. |
| C24 | Deleting a section deletes its terms | partial | `PropDoc.v` | Holds for names in lower case; C24_refuted: with a capital in the name all terms always stay in the document list. |
| C25 | Setting an item of a section sets it | partial | `PropDoc.v` | Holds when there is no term of the name or the first one already has the value; C25_refuted: in all other cases the first term keeps its old value. |
| C26 | Setting a child property sets exactly that property | proved | `PropDoc.v` | C26_own, C26_existing, C26_new, C26_removed, C26_absent are the cases. C26_untrimmed_refuted: a new child with an untrimmed value ends in AssertionError. |
| C27 | find returns exactly the matching terms, in order | proved | `PropDoc.v` | C27_root_refuted: a term called Root is never found. |
| C28 | Finding a super term also finds the terms derived from it | partial | `PropDoc.v` | Holds for a single name with its parent written out (C28_find_partial, C28_names). C28_refuted: not for a list, nor for the short name. |
| C29 | sort_sections only reorders | proved | `PropOrder.v` | Hypothesis: the section table has distinct keys, as every Python dict. |
| C30 | sort_by_term only reorders | proved | `PropOrder.v` |  |
| C31 | Section columns behave as a case-insensitive ordered set | proved | `PropOrder.v` | Column names other than those with U+00DF; C31_sharp_s_refuted shows the exception. |
| C32 | Registered term classes apply to exactly their term and its derived terms | proved | `PropOrder.v` |  |
| C33 | as_dict represents children by their declared property type | proved | `PropRender.v` | as_dict of terms and documents satisfies the inductive specification dict_rep/doc_rep for all trees whose equally named siblings have one property type; it always succeeds unless texts are to be joined (joining a child that is not a text raises: C33_joining_refuted) |
| C34 | as_dict loses nothing | partial | `PropRender.v` | proved for trees without scalar or joined children and without a child called like the value of its parent; false in those cases (C34_refuted, C34_value_refuted) |
| C35 | Writing a document as rows and parsing them gives the same document | proved | `PropRound.v` | For documents meeting the conditions in the statement (SpecRound.writable_doc). The _refuted theorems are witnesses that the conditions are needed: an empty child with a column, a name ending in root, and one of two equally named childless children are lost. |
| C36 | rows carries every term and value of the document | partial | `PropRender.v` | every term has a row, or is a leaf with its own row or a cell in the row of its parent, and every row has such a reason, when leaves under one term have different names, none that of the value; with equal names all but the last are lost (C36_refuted) |
| C37 | Writing a document as lines and reading them gives the same rows | partial | `PropText.v` | False as stated: a pipe in a value is read back as a cell boundary (C37_lines_refuted). Proved when the value texts stand for their cells with pipes escaped and names can stand before a colon. |
| C38 | The line reader splits lines as documented | proved | `PropText.v` | Lines ended by LF or CR LF. |
| C39 | as_csv can be read back by a CSV reader | proved | `PropText.v` | The csv module is modelled from CPython's _csv.c (excel dialect); as_csv and a csv reader. |
| C40 | write puts the current document in the file | partial | `PropMaint.v` | The file holds the document as it was before cleanse (C40_content_partial), so the property fails for documents that are not cleansed yet (C40_refuted); a second write holds the current document (C40_second_partial). A wrong extension raises and changes nothing (C40_extension). |
| C41 | as_version only computes a name | partial | `PropMaint.v` | The names returned are right, but the version given is stored in the document, so calls with +n accumulate (C41_refuted, for every document with a plain integer version). Unchanged for False and None when the version is up to date. |
| C42 | update_version builds the semantic version from its parts | proved | `PropMaint.v` | a Build without value gives '.None' (C42_empty_build) |
| C43 | slugify yields a stable file-safe name | proved | `PropText.v` | On Latin-1 text; unicode normalisation is a table generated from CPython. |
| C44 | The generated name determines its parts | proved | `PropMaint.v` | C44_accent_refuted: a lone accent acts as white space in slugs, so it is excluded in C44_split. |
| C45 | ensure_identifier gives every document a lasting identifier | proved | `PropMaint.v` | uuid4() is an argument of the model; documents in good order as the interface keeps them (C22) |
| C46 | flatten lists every leaf under its path | proved | `PropTree.v` | Keys are non-empty strings; C46_empty_key_refuted shows the exception. Uniqueness needs dot-free keys. |
| C47 | Data package conversion is faithful | proved | `PropPack.v` | C47_resources: whenever the conversion returns, the resources are exactly those of the data files with a table (by name, else by the table property), in order, with the fields of that table; the other keys are those of the root and identity sections. C47_total: it returns when every table has at least two columns with properties and every data file a name and a url. C47_name, C47_schema: ConversionError without a name or schema section. Exceptions: C47_single_column_refuted (a table with one column gives an AttributeError), C47_identifier_refuted (the misspelt key 'indentifier'). |
| C48 | The YAML source emits every leaf under its qualified name | proved | `PropTree.v` | Keys without dots; list items are dicts (C48_scalar_item_refuted, C48_stray: otherwise TypeError; C48_error: no other error). |
| C49 | A metatab URL always designates one definite target | proved | `PropTree.v` | Path part of the URL; guard: a file name other than metadata.csv does not end in metadata.csv (C49_suffix_refuted). |
| C50 | Cleaning unused schema columns keeps used data | proved | `PropPack.v` | C50_clean. Exceptions: C50_duplicate_refuted (a property given twice counts as unused when the last one is blank), C50_below_refuted (terms below a blank property go with it). Python iterates over a set when adding columns; the model takes them in order of first occurrence. |
| C51 | all_terms visits every term exactly once, parents first | proved | `PropRender.v` | all documents in good order (doc_ok), which the operations keep up (C22_order) |
| C52 | The declaration argument and a Declare row are equivalent | partial | `PropDeclare.v` | C52_lookup_partial, C52_row_partial: which declarations a document has when opened with decl= or with Declare rows. C52_refuted: with decl= derived terms are not found and declared terms are not valid. |
| C53 | Moving a term to a section moves it | partial | `PropDoc.v` | The term is listed in the new section; C53_refuted: it always stays in every section it was in. |
| C54 | Deleting an item of a section deletes the matching terms | partial | `PropDoc.v` | Holds when there is nothing to delete; C54_refuted: otherwise it always raises AttributeError and removes nothing. |
| C55 | Attributes of a term are its children | proved | `PropAttr.v` | Consequences users may not expect are proved too: an attribute stored in the object hides a child of that name made later (C55_shadow_refuted), and Value can be assigned but not read (C55_value_refuted). |
| C56 | set_terms adds the given terms in order | proved | `PropAttr.v` | Deviations from the docstring: a two-character text raises TypeError (C56_two_refuted); existing terms are not set, duplicates are added (C56_set_refuted). |
| C57 | Property dicts hold exactly the properties | proved | `PropAttr.v` | Deviation from the docstring: no entry for a column without a cell (C57_missing_refuted). |
| C58 | 'name in term' tells whether the term has the property | partial | `PropAttr.v` | Only value and the common properties give True; every other name raises AttributeError, as there is no attribute properties (C58_fails_refuted). |
| C59 | find with properties filters the found terms | proved | `PropAttr.v` | The terms found without properties are the subject of C27 and C28. |
| C60 | Sections are found by name in any case | proved | `PropAttr.v` |  |
| C61 | Declarations and includes at the head of a file do not disturb the rows after them | proved | `PropHead.v`, `PropCalm.v` | C61_calm and C61_quiet: any head leaves good order if its rows and the files it names are quiet (SpecCalm.v: no numeric names, a column named Section only in sections named by the theorem, synonym columns empty). C61_accepted and C61_missing: if none of the columns in force after the head is named Section. For other heads good order is decided by computation (calm_by). |
| C62 | Build directories are made, and nothing else | proved | `PropFiles.v` | ensure_dir leaves a file of that name and returns (C62_ensure_refuted). |
| C63 | walk_up visits every directory up to the root | proved | `PropFiles.v` |  |
| C64 | copytree copies a directory into another | partial | `PropFiles.v` | Proved when no directory of the source has a name that is in the target and no file the name of a directory there (C64_copied_partial). Merging always fails (C64_merge_refuted); a file whose name is a directory of the target goes into it (C64_into_refuted). |
| C65 | metatab -C makes a new file and leaves other files alone | proved | `PropCli.v` | The name is checked as a path but written to as a URL: with '#fragment' an existing file is overwritten, given that the URL parser of rowgenerators drops the fragment (C65_fragment_refuted). |
| C66 | Without -C and -W the command changes no file | proved | `PropCli.v` |  |
| C67 | metatab -W writes one file, with what would be printed | proved | `PropCli.v` |  |
| C68 | What the command prints and how it ends | partial | `PropCli.v` | Printing, failing to open and -f proved. A document that is not a local file ends in exit code 1 even without -W (C68_remote_refuted); -f without such a term ends in AttributeError (C68_find_refuted); -d prints nothing in the default format (C68_declaration_refuted). |
| C69 | get_table returns the table or ends with a list of the tables | partial | `PropCli.v` | The message is proved when every table has a str value (C69_missing_partial); a table without a value makes it a TypeError (C69_missing_refuted). |
| C70 | Documents that begin with Declare or Include rows can be edited safely | proved | `PropKeep.v` | Whether the head leaves good order is decided by computation (ready_by). |
| C71 | A YAML file becomes one term per node, in the declared sections | partial | `PropYaml.v` | Proved for nodes that have a value and no node of their own qualified name below them. False of the code otherwise: a dict outside a list makes no term and its entries raise KeyError (C71_dict_refuted); the entries of a list item without the value of its term go to the term of the item before (C71_missing_refuted); below a node of the same qualified name later entries go to that node (C71_nested_refuted). A list of declarations, which MetatabDoc accepts, always ends in an error (C71_listed, C71_list_refuted). |
| C72 | Names in Declare and Include rows mean the right files | proved | `PropResolve.v` | Two deviations from the docstrings: an Include of an absolute path is read from the directory of the file (C72_absolute_refuted), and the package of declarations comes before the directory of the file (C72_order_refuted). |
| C73 | Every text of a parsed document is that of a cell of its files | proved | `PropWhere.v` | For every parse, not only usual rows. C73_columns_refuted shows that the exception for columns of sections is needed: a synonym of Section turns declared columns, which are not in the row, into terms. C73_section_column_refuted: the col of a section is the number of its row (col=row in SectionTerm.__init__), so sections are excepted where columns are compared. The file_name of a term is not modelled; the file type tells the file itself from others. |
| C74 | A row whose name is a declared synonym is read as the row with the name it stands for | proved | `PropSyn.v` | C74_table and C74_declared: which names stand for which; C74_file: the two files; C74_find, C74_shown: searches, dictionary, rows and lines. Limits: names of parents are not replaced (C74_parent_refuted), synonyms of synonyms are replaced once (C74_chain_refuted), synonyms of Section and Include do not act as these (C74_section_refuted, C74_include_refuted), the class is that of the synonym (C74_class_refuted). |
| C75 | Removing terms through a section or a parent takes out exactly those terms | proved | `PropWipe.v` | C75_clean: the terms of the section, of whatever number, are out and all else is as before. C75_section, C75_child, C75_no_child. |
| C76 | Looking up a child of a term finds the first child of that name in any case | proved | `PropLook.v` | C76_value_refuted: 'value' as an item names the value when it is set but not when it is read, if the value of the term is named otherwise; C76_set excludes this. |
| C77 | A parsed document is exactly the forest its rows describe | proved | `PropOutline.v` | Rows after first rows that hang below terms of the first rows are not covered by C77_added and C77_after (hypothesis among_themselves). |
| C78 | What a parsed document answers is what its rows say | proved | `PropAnswer.v` | Searches for terms of the top level that a declared term inherits from (C28) and searches with a section for terms below others (C27) are not restated in terms of rows. |
| C79 | A document knows where it comes from | partial | `PropOrigin.v` | Directory and time proved. Two parts are false of the code: a document made from a row generator has no time (AttributeError), and path is None for all documents. |
| C80 | The digest of a file covers all of it, and a dotted name means what it spells | proved | `PropOrigin.v` | MD5 itself is an argument of the model; hashing in parts is taken to be hashing at once. |
| C81 | The text of a term tells where it is and what it is | proved | `PropOrigin.v` | Terms of an included file of the same name can show the same text (C81_once_refuted), so the claim is for one file. |
| C82 | Extra cells and rows of their own say the same | proved | `PropSpread.v` | The outline of a spread file is that of the file; C82_top shows why rows ".Name" at the top of a section are left out. |
| C83 | A document written as lines is read back | proved | `PropSpread.v` | The condition on values is needed: as_lines does not escape pipes (C83_pipe, C37_lines_refuted). The condition on a column "Header" is only for the reading relation used (a line "Header" after "." is not modelled as usual). |
| C84 | The error of a failed include says what is wrong and where | partial | `PropReport.v` | The one error, its message with the cause at the first such row and one part per file (C84_report_partial), the converse (C84_fine, C84_apart), agreement with the parser of the other properties (C84_same) and the entry of errors_as_dict when a file could not be read (C84_dict_partial) are proved. False of the code: the term is None for a wrong row of the document itself and errors_as_dict then raises AttributeError (C84_dict_refuted); for a wrong row of an included file the term is the one last yielded, not that of the row (C84_term_refuted); included files are all called by the class of their row generator (C84_names_refuted). |
| C85 | What the parser caches and shares cannot be seen | proved | `PropShared.v` | An instrumented parser with the cache and the shared dicts is shown to do what the parser of the other properties does (simulation with an invariant: the cached dict is the current one; terms that share a dict have the same value set). |
| C86 | Rows from a row generator are read like rows of a file | partial | `PropSource.v` | The choice of the text is proved for all kinds of objects. Loading is proved for rows whose file names do not depend on the directory: the parser ignores the path of a row generator, so an Include of a neighbouring file fails (C86_path_refuted). A text that is the name of a file is read as that file, and a file opened as binary is a TypeError (C86_name_refuted). |
| C87 | The words of the metatab command mean what they say | proved | `PropArgv.v` | argparse is modelled as it is in Python 3.8 and 3.9, for the kinds of options that cli.py declares. A word after -C is its template, so 'metatab -C new.csv' creates metadata.csv (C87_create_ex). A letter with '=' follows argparse: -j=W is -jW, -j= raises IndexError (C87_equals_ex); these are outside the statement. |
| C88 | The listing of the terms says what the file says | partial | `PropStream.v` | The listing is characterised for all files (C88_stream: it is the listing of a reader who starts with the columns the first reading ended with) and equals what the file says when every row with extra cells comes after a Section or Header row (C88_same_partial). False otherwise: _param_map is not reset at the start of an iteration, so cells before the first heading get the names of columns from the end of the file (C88_columns_refuted). Rows with Include or Declare are modelled in TermStream.v but not covered by the theorems. The rows are taken to be the same at both readings. |
| C89 | A further file adds its outline to a loaded document | proved | `PropMore.v` | C89_files and C89_read: files from a new document on; C89_added, C89_recorded, C89_again: any document that a new parser finds calm (SpecHead.v), which C89_reopen gives after a first file with Declare and Include rows; C89_apart: rows below terms of earlier files are refused. The further files themselves have no Include or Declare rows. |
| C90 | A declaration file declares exactly what its rows say | proved | `PropDeclared.v` | the declarations are the properties of the terms and the columns and terms of the sections; the values of value sets are C18's. Successful loads only: C17_stops_ex shows what stops one. Repeating a heading that has a column Section reuses the columns of the first (C90_repeated_refuted), so files that do are left out |
| C91 | A document opened with declaration files is read by what those files declare | proved | `PropOpened.v` | C91_left_refuted: a heading with a column Section in a declaration file stays as a section of the document (terms.py:373-375). The Header row that the declaration files leave in the root section stays there too, but does not name the cells of the rows of the document (C91_files_ex). |
| C92 | A file that begins with Declare rows is read by what the files they name declare | proved | `PropDeclaring.v` | C92_head gives the state before the rows after the Declare rows, so that what C61 proves of rows after others also covers rows that go below the last record of a declaration file, and the declarations of the document at the end. C92_opened_refuted: a Declare row is not the same as opening the file with the declaration file; the columns declared for a section do not count in the file that has the Declare row (doc.py:464-512 hands the declarations to the document after the last row). That the names of cells of the declaration file last until the first heading is part of the statement (C92_ex). |
| C93 | A DeclareTerm row is refused exactly when it has no declared section to go to | proved | `PropRefuse.v` | C93_only_refuted: outside the guard of C93_accepted a declaration file can also end in KeyError (a space after the dot of a listed name, parser.py:576) or AttributeError (a listed term declared again without a section, parser.py:597, 611). |
