{"id": "C01", "title": "Term names are normalised the same way everywhere", "statement": "The text of a term cell determines its qualified name: with no dot the parent is 'root'; with exactly one dot the two sides are the parent and the record name (an empty parent side means 'the current parent'); both are trimmed and lower-cased. A cell with two or more dots is rejected with ValueError. Normalising is insensitive to case and outer white space and is idempotent.", "quantifier": "every string", "why_tests_cant": "infinitely many cell texts; tests sample a few names", "anchors": ["metatab/terms.py:Term.split_term", "metatab/terms.py:Term.split_term_lower", "metatab/terms.py:Term.normalize_term"]}
{"id": "C02", "title": "term_is matches exactly the names its pattern denotes", "statement": "t.term_is(p) is true exactly when p names t's qualified name, ignoring case, where an unqualified p means 'root.p' and '*' on either side matches anything; a list of patterns matches when any of them does.", "quantifier": "every term and every pattern with at most one dot", "why_tests_cant": "all patterns times all names", "anchors": ["metatab/terms.py:Term.term_is"]}
{"id": "C03", "title": "Blank and comment rows never change a parse", "statement": "Inserting or deleting rows whose first cell is missing, blank or starts with # in a document and in the files it includes or declares leaves the resulting document, the declarations and the exception raised, if any, the same in every respect other than recorded row numbers.", "quantifier": "every document, every position, every such row, every initial state; rows above a section heading that is on the first line of a file only where nothing is included or declared", "why_tests_cant": "all documents and positions", "anchors": ["metatab/parser.py:TermParser.generate_terms"]}
{"id": "C04", "title": "Extra cells become named child terms", "statement": "Parsing a row with extra cells makes one child per non-blank extra cell, in column order, whose value is the trimmed cell and whose name is the section's column name at that position (the column number if that name is blank or there are fewer columns); blank cells make none.", "quantifier": "every document of usual rows (no Include/Declare rows, no numeric record names, no column named Section), every row and column list", "why_tests_cant": "all widths and all patterns of blank cells", "anchors": ["metatab/parser.py:TermParser.generate_terms", "metatab/parser.py:TermParser.__iter__"]}
{"id": "C05", "title": "A qualified row attaches to the most recent term of its parent name", "statement": "A row named 'P.c' becomes the last child so far of the most recent earlier row that was written with an explicit parent (or none) and has record name P, in any section; a row without a parent name becomes a child of the root. If there is no such row the parse stops with ParserError; otherwise the parse goes on to the end.", "quantifier": "every sequence of usual rows", "why_tests_cant": "needs every history of earlier rows", "anchors": ["metatab/parser.py:TermParser.__iter__"]}
{"id": "C06", "title": "An elided name '.c' means the same as the explicit name 'P.c'", "statement": "After a row with record name P, the rows '.c' and 'P.c' give a child with the same parent, name, value and meta data (child property type, value name, validity).", "quantifier": "every document and declaration set", "why_tests_cant": "depends on declarations and on the history of rows", "anchors": ["metatab/parser.py:TermParser.__iter__", "metatab/terms.py:Term.has_elided_parent"]}
{"id": "C07", "title": "Extra cells always belong to the term of their own row", "statement": "Every child made from an extra cell of a row has that row's term as its parent, also when the row's own name is elided.", "quantifier": "every row", "why_tests_cant": "needs all row shapes and histories", "anchors": ["metatab/parser.py:TermParser.__iter__"]}
{"id": "C08", "title": "A parsed document is a forest", "statement": "After any parse every term other than sections has exactly one parent, is listed exactly once among the children of that parent, and following parents always ends (no term is its own ancestor), so walking descendents terminates.", "quantifier": "every document", "why_tests_cant": "cycles and sharing only appear for particular name patterns", "anchors": ["metatab/parser.py:TermParser.__iter__", "metatab/terms.py:Term.add_child", "metatab/terms.py:Term.descendents"]}
{"id": "C09", "title": "Every row lands in the section it was written under, in order", "statement": "After a parse, a section holds exactly the root-level rows written under it (or under a repeated heading of the same name) in document order, and the document-wide list holds all of them in document order, each once.", "quantifier": "every document of usual rows (no Include/Declare rows)", "why_tests_cant": "all section layouts", "anchors": ["metatab/parser.py:TermParser.__iter__", "metatab/doc.py:MetatabDoc.load_terms", "metatab/terms.py:SectionTerm.add_term"]}
{"id": "C10", "title": "Section names are case-insensitive and unique", "statement": "Section headings that differ only in case or outer space denote one section; the document has at most one section per name; sections are listed in order of first appearance; the column names of the first heading stay in force for repeated headings.", "quantifier": "every document of usual rows", "why_tests_cant": "all heading histories", "anchors": ["metatab/parser.py:TermParser.generate_terms", "metatab/doc.py:MetatabDoc.add_section"]}
{"id": "C11", "title": "Trailing empty cells never matter", "statement": "Padding rows of a document, and of the files it includes, with empty cells at their ends (as spreadsheets do) changes neither the terms, sections and declarations that are loaded nor the error raised; only the recorded cells of the padded rows differ.", "quantifier": "every pair of documents and of sets of files that differ in such padding, every amount of padding, every prior state of the document", "why_tests_cant": "all documents and paddings", "anchors": ["metatab/parser.py:TermParser.generate_terms", "metatab/terms.py:SectionTerm.__init__"]}
{"id": "C12", "title": "An Include does not change how the rows after it are read", "statement": "After an Include the including section, its column names and its value name are back in force: the rows following the Include are read as if the Include row were an ordinary row.", "quantifier": "every document of usual rows and Include rows, every set of included files of such rows, every Include row", "why_tests_cant": "all included documents", "anchors": ["metatab/parser.py:TermParser.generate_terms"]}
{"id": "C13", "title": "Includes terminate or fail cleanly", "statement": "Parsing with any set of Include files either finishes or raises; a file that includes itself raises IncludeError, and a local Include inside an included file raises IncludeError.", "quantifier": "every document, every set of files including or declaring each other in any way, every parser state", "why_tests_cant": "all include graphs", "anchors": ["metatab/parser.py:TermParser.generate_terms", "metatab/parser.py:TermParser.find_include_doc"]}
{"id": "C14", "title": "A Header row renames the columns of its section", "statement": "Extra cells of the rows after a Header row take their names from the Header's cells and the value name of these rows is the Header's value, until the next Header or Section row; the Header itself adds no term.", "quantifier": "every document of usual rows with Header rows", "why_tests_cant": "all positions of Header rows", "anchors": ["metatab/parser.py:TermParser.__iter__", "metatab/terms.py:SectionTerm.property_names"]}
{"id": "C15", "title": "A numeric name is replaced by the column it numbers, and no other name is", "statement": "A term whose record name is the decimal number of a column is renamed to that column; every other name is kept and nothing else changes.", "quantifier": "every parser state, every column list and every tidy name without sign and underscore and without a declared synonym", "why_tests_cant": "all names and column lists, including signed and padded numbers", "anchors": ["metatab/parser.py:TermParser.__iter__"]}
{"id": "C16", "title": "Declarations set the meta data of declared terms", "statement": "A term the parser handles under an explicit name is marked valid exactly when its qualified name is declared; its child property type and value name are the declared ones, with 'any' and the value name in force as defaults.", "quantifier": "every declaration set, every parser state and every term with an explicit name", "why_tests_cant": "all declaration sets", "anchors": ["metatab/parser.py:TermParser.__iter__", "metatab/doc.py:MetatabDoc.add_term"]}
{"id": "C17", "title": "Declared terms inherit the children of their super term", "statement": "Declaring a term N that InheritsFrom a term I declares, for every name I.r listed in that section, a child N.r with the same properties, listed in the section of I.r; the loop over the growing list ends.", "quantifier": "every parser state with declarations under full names (every state of a parse), every declared section content, N and its own parent other than I", "why_tests_cant": "the section list is extended while it is iterated", "anchors": ["metatab/parser.py:TermParser.inherited_children", "metatab/parser.py:TermParser.add_declared_term"]}
{"id": "C18", "title": "Declared value sets are recorded on the terms that use them", "statement": "After DeclareValueSet rows, every declared term whose ValueSetName is that set has the listed values.", "quantifier": "every declaration document", "why_tests_cant": "needs all documents", "anchors": ["metatab/parser.py:TermParser.add_value_set_value"]}
{"id": "C19", "title": "Declaring adds nothing to the document itself", "statement": "Rows read from a Declare document only affect declarations: the terms and sections of the document (find, rows, as_dict) are those of the document without the Declare row, apart from declared meta data.", "quantifier": "every declaration document", "why_tests_cant": "all declaration documents", "anchors": ["metatab/parser.py:TermParser.__iter__", "metatab/parser.py:TermParser.manage_declare_terms", "metatab/terms.py:Term.__setattr__"]}
{"id": "C20", "title": "new_term adds exactly one findable term", "statement": "section.new_term(name, value, **kw) with a name of the top level (no parent, or Root) appends one term at the end of that section and of the document, with one child per keyword, which find(name), find(name, section=...) and find(name, value=...) then return last; every other term, section and value stays as it was, and any other top-level search returns what it did before, at most with the new term at its end.", "quantifier": "every document in good order (as after any operations from an empty document), section of it, top-level name, value and keywords", "why_tests_cant": "all states reachable by any operation history", "anchors": ["metatab/terms.py:SectionTerm.new_term", "metatab/doc.py:MetatabDoc.add_term", "metatab/doc.py:MetatabDoc.find"]}
{"id": "C21", "title": "remove_term removes exactly that term", "statement": "After doc.remove_term(t), for a term that is not a section and whose value is not called 'section', the term is in no section, not in the document list and no longer a child of its parent, so no find returns it or anything below it; the order and content of everything else are unchanged.", "quantifier": "every document in good order and term", "why_tests_cant": "all states", "anchors": ["metatab/doc.py:MetatabDoc.remove_term", "metatab/terms.py:Term.remove_child", "metatab/terms.py:SectionTerm.remove_term"]}
{"id": "C22", "title": "The document list and the section lists always agree", "statement": "After any sequence of new_section / get_or_new_section / new_term / remove_term / delete-section / sort operations, each root term of the document is in exactly one section of the document, once, and vice versa.", "quantifier": "every operation sequence from an empty document, and from every document read from a file of usual rows", "why_tests_cant": "all histories", "anchors": ["metatab/doc.py:MetatabDoc", "metatab/terms.py:SectionTerm"]}
{"id": "C23", "title": "get_or_new_section never replaces an existing section", "statement": "get_or_new_section(name) returns the section of that name (ignoring case) when there is one and otherwise creates it; existing terms are kept.", "quantifier": "every document state and name", "why_tests_cant": "all names and cases", "anchors": ["metatab/doc.py:MetatabDoc.get_or_new_section"]}
{"id": "C24", "title": "Deleting a section deletes its terms", "statement": "After del doc[name], in any spelling of the case of name, neither the section nor any of its terms can be found.", "quantifier": "every document state and name", "why_tests_cant": "all names and cases", "anchors": ["metatab/doc.py:MetatabDoc.__delitem__"]}
{"id": "C25", "title": "Setting an item of a section sets it", "statement": "After section[name] = v, section[name].value == v.", "quantifier": "every document state, name and value", "why_tests_cant": "all states", "anchors": ["metatab/terms.py:SectionTerm.__setitem__", "metatab/terms.py:SectionTerm.get_or_new_term"]}
{"id": "C26", "title": "Setting a child property sets exactly that property", "statement": "After term[name] = v (v a trimmed non-empty string, or None to remove) the first child of that name has value v (or that child is gone); no other child, and no other term, changes; a new child is appended last. The name of the term's own value, or 'value', sets the value itself.", "quantifier": "every document in good order, term of it, name and value", "why_tests_cant": "all states", "anchors": ["metatab/terms.py:Term.__setitem__", "metatab/terms.py:Term.get_or_new_child", "metatab/terms.py:Term.remove_child"]}
{"id": "C27", "title": "find returns exactly the matching terms, in order", "statement": "find(name, value, section) returns, each exactly once and in document order, the terms whose qualified name matches name, whose value equals value (if given) and which lie in the named section (if given); find_first is its first element. (root.root is nobody's name; a name with derived types is C28.)", "quantifier": "every document in good order, tidy name, value and section", "why_tests_cant": "all documents and queries", "anchors": ["metatab/doc.py:MetatabDoc.find", "metatab/doc.py:MetatabDoc.find_first", "metatab/doc.py:MetatabDoc.all_terms"]}
{"id": "C28", "title": "Finding a super term also finds the terms derived from it", "statement": "find(X) returns the terms named X and those of every declared type that inherits from X, whichever way X is written (qualified or not, single or in a list).", "quantifier": "every declaration set and document", "why_tests_cant": "all declarations and documents", "anchors": ["metatab/doc.py:MetatabDoc.find", "metatab/doc.py:MetatabDoc.load_terms"]}
{"id": "C29", "title": "sort_sections only reorders", "statement": "sort_sections(order) puts the existing sections named in order first, in that order, then all others in their previous order; no section is lost or duplicated and no term changes.", "quantifier": "every document and every order list (with repeats and unknown names)", "why_tests_cant": "all permutations and repetitions", "anchors": ["metatab/doc.py:MetatabDoc.sort_sections"]}
{"id": "C30", "title": "sort_by_term only reorders", "statement": "sort_by_term(order) leaves the same terms in the section: first those matching the patterns of order, pattern by pattern, then the rest alphabetically by qualified name; equal names keep their order.", "quantifier": "every section and order list", "why_tests_cant": "all term lists", "anchors": ["metatab/terms.py:SectionTerm.sort_by_term"]}
{"id": "C31", "title": "Section columns behave as a case-insensitive ordered set", "statement": "add_arg adds a column unless one of that name (ignoring case) exists, at the end or the front; remove_arg removes all spellings; the other columns keep their order.", "quantifier": "every column list and name", "why_tests_cant": "all lists and spellings", "anchors": ["metatab/terms.py:SectionTerm.add_arg", "metatab/terms.py:SectionTerm.remove_arg"]}
{"id": "C32", "title": "Registered term classes apply to exactly their term and its derived terms", "statement": "After register_term_class(name, c) get_term_class gives c for that name in any case and for terms declared to inherit from it that have no class of their own; unregistering restores what the name had without a registration; other names are unaffected.", "quantifier": "every registration history and name", "why_tests_cant": "all histories", "anchors": ["metatab/parser.py:TermParser.register_term_class", "metatab/parser.py:TermParser.get_term_class", "metatab/doc.py:MetatabDoc.get_term_class"]}
{"id": "C33", "title": "as_dict represents children by their declared property type", "statement": "In as_dict a name used by children of type 'any' maps to the single child's value or to the list of all values in order; 'sequence' always to a list; 'scalar' to the last; 'sconcat'/'bconcat' to the joined text. The value of a term with children is stored under its value name. The dict of a document has the entries of the terms of all its sections.", "quantifier": "every term tree in which children of one name have one type", "why_tests_cant": "all trees and mixtures", "anchors": ["metatab/terms.py:Term._convert_to_dict"]}
{"id": "C34", "title": "as_dict loses nothing", "statement": "Every child and every value of a term appears in as_dict.", "quantifier": "every term tree", "why_tests_cant": "all trees", "anchors": ["metatab/terms.py:Term._convert_to_dict"]}
{"id": "C35", "title": "Writing a document as rows and parsing them gives the same document", "statement": "Parsing the rows of a document (or its CSV text) yields a document with the same sections, columns, terms, values and children, the childless children with a column first in column order, then the other childless ones; and the rows of that document are again the same. This holds when names are usable as cells (lower case, no dot, not a number, comment or the like, not ending in 'root'), no name repeats along a path, childless siblings have distinct names other than the value's, those with a column have a value, values have no outer white space, and sections without columns have no declared ones.", "quantifier": "every document meeting these conditions, of any size and depth, every place it is read in", "why_tests_cant": "all documents", "anchors": ["metatab/doc.py:MetatabDoc.rows", "metatab/terms.py:Term.rows", "metatab/terms.py:SectionTerm.rows", "metatab/parser.py:TermParser"]}
{"id": "C36", "title": "rows carries every term and value of the document", "statement": "Every term reachable from the document appears in doc.rows with its value: in a row of its own, or as a cell of its parent's row in the column of its name; every section has its heading row; and every row stands for a section or a term.", "quantifier": "every document", "why_tests_cant": "all documents", "anchors": ["metatab/terms.py:Term.rows", "metatab/terms.py:SectionTerm._args"]}
{"id": "C37", "title": "Writing a document as lines and reading them gives the same rows", "statement": "Each pair produced by doc.lines and formatted by as_lines is read back by the line reader as the same term and value cells.", "quantifier": "every document", "why_tests_cant": "all texts", "anchors": ["metatab/doc.py:MetatabDoc.as_lines", "metatab/terms.py:SectionTerm.lines", "metatab/rowgen.py:TextRowGenerator.__iter__"]}
{"id": "C38", "title": "The line reader splits lines as documented", "statement": "A line is a comment iff its first non-blank character is #; '==== X' means 'Section: X'; the name is the text before the first colon; an unescaped pipe separates cells and an escaped pipe is a literal pipe.", "quantifier": "every text", "why_tests_cant": "all texts and escapes", "anchors": ["metatab/rowgen.py:TextRowGenerator.__iter__"]}
{"id": "C39", "title": "as_csv can be read back by a CSV reader", "statement": "Reading as_csv with the csv module gives doc.rows with None written as the empty string, whatever quotes, commas or line breaks the values contain.", "quantifier": "every list of rows", "why_tests_cant": "all cell contents", "anchors": ["metatab/doc.py:MetatabDoc.as_csv"]}
{"id": "C40", "title": "write puts the current document in the file", "statement": "After doc.write(path) the file holds doc.as_csv() / doc.as_lines() of the document; a wrong extension raises before the file is touched.", "quantifier": "every document and path", "why_tests_cant": "all documents, paths and crash points", "anchors": ["metatab/doc.py:MetatabDoc.write", "metatab/doc.py:MetatabDoc._write", "metatab/doc.py:MetatabDoc.write_csv"]}
{"id": "C41", "title": "as_version only computes a name", "statement": "as_version(v) returns the name with version v and leaves the document unchanged; '+n' and '-n' are relative to the document's version, so as_version('+n') and as_version('-n') never accumulate.", "quantifier": "every document and argument, every sequence of calls", "why_tests_cant": "all call histories", "anchors": ["metatab/doc.py:MetatabDoc.as_version", "metatab/doc.py:MetatabDoc._generate_identity_name"]}
{"id": "C42", "title": "update_version builds the semantic version from its parts", "statement": "If the version has any of Major, Minor, Patch, then after update_version all three exist (a new one is '1', one without a value becomes 0, all others are kept) and the version value is 'major.minor.patch', plus '.build' if it has a Build; otherwise the value is unchanged. Nothing else changes, and a second call changes nothing.", "quantifier": "every document in good order whose root section holds the version (nothing is declared to be derived from Root.Version)", "why_tests_cant": "all combinations of present, absent and empty parts", "anchors": ["metatab/doc.py:MetatabDoc.update_version"]}
{"id": "C43", "title": "slugify yields a stable file-safe name", "statement": "slugify(x) contains only lower-case ASCII letters, digits, '_', '.', and '-', never two '-' in a row, does not depend on the case of ASCII letters or on outer white space, and slugify(slugify(x)) == slugify(x).", "quantifier": "every string", "why_tests_cant": "all strings", "anchors": ["metatab/util.py:slugify"]}
{"id": "C44", "title": "The generated name determines its parts", "statement": "The name made by update_name is the '-'-joined slugs of the non-blank parts in the order origin, dataset, time, space, grain, variant, version (a semantic version is left out if the root section has no Version.Patch with a value); when no part contains white space or a lone accent, splitting it at '-' gives the slugs back; calling update_name again reports no change and changes nothing.", "quantifier": "every ordinary document (in good order, with a root section, with nothing declared to be derived from the names used)", "why_tests_cant": "all part values", "anchors": ["metatab/doc.py:MetatabDoc._generate_identity_name", "metatab/doc.py:MetatabDoc.update_name"]}
{"id": "C45", "title": "ensure_identifier gives every document a lasting identifier", "statement": "After ensure_identifier the root section has a non-empty Root.Identifier; an existing non-empty one is never changed; repeated calls keep it.", "quantifier": "every document in good order (nothing is declared to be derived from Root.Identifier)", "why_tests_cant": "all states", "anchors": ["metatab/doc.py:MetatabDoc.ensure_identifier"]}
{"id": "C46", "title": "flatten lists every leaf under its path", "statement": "flatten(d) lists each leaf of a nested structure once, in order, with the dotted path of keys and indexes leading to it.", "quantifier": "every nested structure", "why_tests_cant": "all nestings", "anchors": ["metatab/util.py:flatten"]}
{"id": "C47", "title": "Data package conversion is faithful", "statement": "When convert_to_datapackage returns, it lists a resource for exactly the data files with a matching table schema, in order, with the fields of that table; other data files are skipped; the other entries are those of the root and identity sections; a missing name or schema section raises ConversionError. It returns for every document whose tables have at least two columns with properties and whose data files have a name and a url.", "quantifier": "every document in which the section of a term is a section", "why_tests_cant": "all documents", "anchors": ["metatab/datapackage.py:convert_to_datapackage"]}
{"id": "C48", "title": "The YAML source emits every leaf under its qualified name", "statement": "yield_dict emits, in document order, one (name, value, parent) triple per leaf whose name is the qualified lower-cased name; a list item that is not a dict, wherever it is below keys that are not the names of values, raises a TypeError, and no other error is raised.", "quantifier": "every nested structure", "why_tests_cant": "all nestings", "anchors": ["metatab/rowgen.py:YamlMetatabSource.yield_dict"]}
{"id": "C49", "title": "A metatab URL always designates one definite target", "statement": "A metatab URL whose file has no known extension designates metadata.csv in that directory; the target file, fragment and format are determined by the extension as documented, for every path.", "quantifier": "every path", "why_tests_cant": "all paths", "anchors": ["metatab/appurl.py:MetatabUrl"]}
{"id": "C50", "title": "Cleaning unused schema columns keeps used data", "statement": "After clean_unused_schema_terms the columns of the schema section are the used ones among the old (in order) followed by the used ones that were missing, where a property is used if the last one of that name in some column is not blank; every non-blank property of a column is kept in order, no blank one remains, and nothing else changes.", "quantifier": "every document in good order with a schema section whose column and property names are tidy and whose property values are text", "why_tests_cant": "all schemas", "anchors": ["metatab/doc.py:MetatabDoc.clean_unused_schema_terms"]}
{"id": "C51", "title": "all_terms visits every term exactly once, parents first", "statement": "all_terms yields each section other than Root, each of its terms and each descendent exactly once, parents before children, in document order.", "quantifier": "every document that is a forest", "why_tests_cant": "all trees", "anchors": ["metatab/doc.py:MetatabDoc.all_terms", "metatab/terms.py:Term.descendents"]}
{"id": "C52", "title": "The declaration argument and a Declare row are equivalent", "statement": "Opening a document with decl=X behaves as the same document with a Declare: X row, including finding derived terms.", "quantifier": "every declaration document", "why_tests_cant": "all declaration documents", "anchors": ["metatab/doc.py:MetatabDoc.load_declarations", "metatab/doc.py:MetatabDoc.load_terms"]}
{"id": "C53", "title": "Moving a term to a section moves it", "statement": "After section.move_term(t) the term is listed in that section and in no other.", "quantifier": "every document state", "why_tests_cant": "all states", "anchors": ["metatab/terms.py:SectionTerm.move_term", "metatab/terms.py:SectionTerm.add_term"]}
{"id": "C54", "title": "Deleting an item of a section deletes the matching terms", "statement": "After del section[name] the section has no term of that name; other terms stay.", "quantifier": "every section and name", "why_tests_cant": "all states", "anchors": ["metatab/terms.py:SectionTerm.__delitem__"]}
{"id": "C55", "title": "Attributes of a term are its children", "statement": "Reading t.x of a term gives the value of its first child called x, or the term's own value if x is the name of that value; None for an absent url, name, description or schema, AttributeError for any other absent name - provided no attribute x was stored in the object by an assignment. Assigning t.x sets the term's value if x is its name or 'value'; it sets the child when x is a column of the section, and then reading x gives the value back; assigning any other name stores an attribute, leaves the document unchanged, and reading x gives the value back.", "quantifier": "every term of every document in good order, every name that is not an attribute of the classes, every value", "why_tests_cant": "all documents, names and sequences of assignments; the lookup order mixes instance attributes, children and columns", "anchors": ["metatab/terms.py:Term.__getattr__", "metatab/terms.py:Term.__setattr__"]}
{"id": "C56", "title": "set_terms adds the given terms in order", "statement": "When set_terms returns, the section and the document list end with one new term per keyword argument, in order, each with the name, value and children asked for; positional terms already in the section and all other terms are unchanged. It returns when values only are given, none a text of two characters.", "quantifier": "every document in good order, every section, every list of arguments", "why_tests_cant": "all numbers of arguments, all states", "anchors": ["metatab/terms.py:SectionTerm.set_terms"]}
{"id": "C57", "title": "Property dicts hold exactly the properties", "statement": "props has one entry per name of a child, with the value of the last child of that name; arg_props has the term's value and the cell under each column of the section that has one; all_props has both, children first.", "quantifier": "every term with a section, every document", "why_tests_cant": "all trees and rows, repeated names, rows shorter or longer than the header", "anchors": ["metatab/terms.py:Term.props", "metatab/terms.py:Term.arg_props", "metatab/terms.py:Term.all_props"]}
{"id": "C58", "title": "'name in term' tells whether the term has the property", "statement": "name in term is True exactly when the term has a property of that name.", "quantifier": "every term and name", "why_tests_cant": "all names", "anchors": ["metatab/terms.py:Term.__contains__"]}
{"id": "C59", "title": "find with properties filters the found terms", "statement": "find(term, value, section, **props) returns the terms found without props that have all the given property values, in order; find_first, find_first_value, get and get_value give the first of them.", "quantifier": "every document, pattern, value, section and set of properties named without dots, when the terms found are not sections", "why_tests_cant": "all documents and combinations of filters", "anchors": ["metatab/doc.py:MetatabDoc.find", "metatab/doc.py:MetatabDoc.find_first", "metatab/doc.py:MetatabDoc.get_value"]}
{"id": "C60", "title": "Sections are found by name in any case", "statement": "doc[name] is the section of the document with that name in any case, KeyError if there is none; name in doc, get_section with default and doc[[names]] agree with it; iterating over the document gives every section once.", "quantifier": "every document in good order and every name", "why_tests_cant": "all documents and names", "anchors": ["metatab/doc.py:MetatabDoc.__getitem__", "metatab/doc.py:MetatabDoc.get_section", "metatab/doc.py:MetatabDoc.__contains__", "metatab/doc.py:MetatabDoc.__iter__"]}
{"id": "C61", "title": "Declarations and includes at the head of a file do not disturb the rows after them", "statement": "If the first rows of a file (Declare, Include or any other rows) leave the parser in good order, the rows after them mean what they would at the start of a file: each row makes its term and one child per filled cell named by the columns in force, below the last term of the parent's name or, failing that, the term known by that name before; in the section last headed, valid exactly if declared; nothing the head made is moved, renamed or reordered; the rest of the file is accepted exactly up to a row whose parent is unknown.", "quantifier": "every head, every declaration and included file, every state in good order after it (in particular after every head that is quiet, as are the files it names), all following files of usual rows without synonyms", "why_tests_cant": "all heads, all declaration files and all documents after them", "anchors": ["metatab/parser.py:TermParser.generate_terms", "metatab/parser.py:TermParser.__iter__", "metatab/doc.py:MetatabDoc.load_terms"]}
{"id": "C62", "title": "Build directories are made, and nothing else", "statement": "make_dir_structure(base) leaves the three build directories and those above them in place, changes no file and no other directory, and does nothing where they are there already; with a file in the way it raises OSError, touches no file and makes only directories above some of the three. ensure_dir(path) makes that directory and those above it unless something of that name is there; with a file in the way it raises and changes nothing.", "quantifier": "every tree of files and directories and every path", "why_tests_cant": "all file systems", "anchors": ["metatab/util.py:make_dir_structure", "metatab/util.py:ensure_dir"]}
{"id": "C63", "title": "walk_up visits every directory up to the root", "statement": "walk_up(directory) yields the directory and every directory above it, from the bottom to the root, each once, each with its entries divided into directories and others; for something that is not a directory it raises OSError.", "quantifier": "every tree of files and directories and every directory in it", "why_tests_cant": "all trees and depths", "anchors": ["metatab/util.py:walk_up"]}
{"id": "C64", "title": "copytree copies a directory into another", "statement": "copytree(src, dst) leaves under dst everything that is under src, with the same contents, and changes nothing else; names that are in dst already are merged.", "quantifier": "every tree, every source directory and every existing target directory outside it", "why_tests_cant": "all trees, all overlaps of names", "anchors": ["metatab/util.py:copytree"]}
{"id": "C65", "title": "metatab -C makes a new file and leaves other files alone", "statement": "metatab -C [template] file: if a file of that name is there nothing changes and a warning is given; otherwise the file is made with the CSV text of the template document. However the run ends no other file is touched, and if the file appears the exit code is 0 and the message is printed. The file asked about and the file written are the same when reading the name as a URL gives that file (not so for a name with a fragment).", "quantifier": "every command line with -C, every file system, every template, every failure on the way", "why_tests_cant": "all file systems, names, templates and failures", "anchors": ["metatab/cli.py:metatab", "metatab/cli.py:new_metatab_file", "metatab/doc.py:MetatabDoc.write_csv"]}
{"id": "C66", "title": "Without -C and -W the command changes no file", "statement": "A run of the metatab command without -C and -W leaves every file as it was, however it ends. With -W so does a run with -d, -f, -t or -p.", "quantifier": "every command line, every file system, every document and every failure", "why_tests_cant": "all command lines, documents and failures", "anchors": ["metatab/cli.py:metatab"]}
{"id": "C67", "title": "metatab -W writes one file, with what would be printed", "statement": "With -W and one of the formats csv, line, json, yaml, the text the run without -W would print is written to the file of the same directory and base name with the extension of the format (csv, txt, json, yaml), nothing is printed and the exit code is 0. However the run ends, no other file has changed.", "quantifier": "every command line with -W, every file system and document", "why_tests_cant": "all file names, formats, file systems and documents", "anchors": ["metatab/cli.py:metatab"]}
{"id": "C68", "title": "What the command prints and how it ends", "statement": "Without -W a local document is printed in the chosen format, once, with exit code 0 and no other output; a document that cannot be opened gives a message and exit code 1; -f prints the value of the first term that find returns; -d prints the declarations.", "quantifier": "every command line, every file system and document", "why_tests_cant": "all command lines and documents", "anchors": ["metatab/cli.py:metatab"]}
{"id": "C69", "title": "get_table returns the table or ends with a list of the tables", "statement": "get_table(doc, name) is the first Table term with that name; without one the command ends with exit code 1 and a message that lists the tables of the document.", "quantifier": "every document and every name", "why_tests_cant": "all documents and names", "anchors": ["metatab/cli.py:get_table"]}
{"id": "C70", "title": "Documents that begin with Declare or Include rows can be edited safely", "statement": "If the first rows of a file leave a document in good order up to known oddities (listed terms without a section of the document, sections with a column called Section), the document after the last row is in good order up to the same oddities, and stays so under any sequence of edits: every listed term, except the odd ones, is in exactly one section of the document, once, and every term of a section is listed. Without oddities after the head there are none at all.", "quantifier": "every head, every set of oddities, all following files of usual rows with dotless columns and no row naming itself its parent, all sequences of edits", "why_tests_cant": "all heads, all documents after them and all sequences of edits", "anchors": ["metatab/parser.py:TermParser.generate_terms", "metatab/parser.py:TermParser.__iter__", "metatab/doc.py:MetatabDoc.load_terms", "metatab/doc.py:MetatabDoc.add_term"]}
{"id": "C71", "title": "A YAML file becomes one term per node, in the declared sections", "statement": "If the declarations a YAML file asks for declare the six sections root, contacts, documentation, resources, references and schema, each node of the top level whose nodes all have a value, and none of which has a node of its own qualified name below it, becomes a term with that key and value at the end of the document list and of the list of the section declared for its name (the last of the six that declares it, root if none does), with its nodes as children in order; the sections and terms already there keep their place, and the document is in good order. If one of the six sections is not declared the source raises a KeyError. The declarations asked for are that or those of the entry 'declare', metatab-latest if there is none, and an exception they raise is that of the source. A file with a list item that is not a dict, a list of declarations included, and one that asks for no declarations give no document. Its rows are the rows of that document.", "quantifier": "all YAML values of dicts, lists of dicts and scalars, all declarations, all oddities these leave behind", "why_tests_cant": "nesting is unbounded and all declarations are covered; the terms are found again by name in a table that later nodes overwrite", "anchors": ["metatab/rowgen.py:YamlMetatabSource.__iter__", "metatab/rowgen.py:YamlMetatabSource.yield_dict", "metatab/doc.py:MetatabDoc.load_declarations", "metatab/doc.py:MetatabDoc.get_or_new_section", "metatab/terms.py:SectionTerm.new_term", "metatab/terms.py:Term.new_child"]}
{"id": "C72", "title": "Names in Declare and Include rows mean the right files", "statement": "A Declare name means the first that exists of: the name as a path, the name and the name with .csv in the package of declarations, the name and the name with .csv in the directory of the file; else, if it begins with http, that address without slashes at its ends; else IncludeError. An Include name, without slashes at its ends, means that address if it begins with http, else that path from the directory of the file, and IncludeError if there is no directory. A document that loads could read each file its Declare and Include rows mean.", "quantifier": "all names, directories, file systems and documents", "why_tests_cant": "all file systems and all names", "anchors": ["metatab/parser.py:TermParser.find_declare_doc", "metatab/parser.py:TermParser.find_include_doc", "metatab/util.py:declaration_path", "metatab/resolver.py:WebResolver.find_decl_doc"]}
{"id": "C73", "title": "Every text of a parsed document is that of a cell of its files", "statement": "After a successful parse every term that has a text as its value, and was made by the parse, has exactly the stripped text of a cell: the term of a row has the text of column 1 and the name of column 0 of the row whose number it carries, and the arguments of the columns after; every other term has the text of the cell whose row and column it carries, and a name ending in the number of that argument. The row is one of the file itself, or, for terms with a file type, of a file fetched for a Declare or Include row. The only other texts are those of columns of a section (when a synonym renames a Section row). No text is added to terms that were there before, and no two terms of the file itself, sections apart, are made from the same cell.", "quantifier": "all files, including malformed ones and files with Declare and Include rows nested to any depth, all environments, all documents whose sections are sections", "why_tests_cant": "all files and all contents of referenced files", "anchors": ["metatab/parser.py:TermParser.generate_terms", "metatab/parser.py:TermParser.__iter__", "metatab/terms.py:Term.__init__", "metatab/terms.py:SectionTerm.__init__"]}
{"id": "C74", "title": "A row whose name is a declared synonym is read as the row with the name it stands for", "statement": "At every row of a file a name stands for another name exactly if it has a declaration whose Synonym is that name. If the name of a row, not one of Section, Include or Declare and not of a section class, stands for such a name that is not itself a synonym, then the file with this row and the file with the row renamed load to the same document, or stop with the same error: the terms, with their names, values, arguments, parents, children, sections, validity and value names, are the same, and so are the results of searches, the dictionary, the rows and the lines of the document. The terms differ at most in the text of the name in the file and in the class that was chosen by it.", "quantifier": "all files, all rows before and after, all declarations, all environments", "why_tests_cant": "all declarations and all continuations of the file", "anchors": ["metatab/parser.py:TermParser.synonyms", "metatab/parser.py:TermParser.substitute_synonym", "metatab/parser.py:TermParser.__iter__"]}
{"id": "C75", "title": "Removing terms through a section or a parent takes out exactly those terms", "statement": "In a document in good order: clean() of a section takes exactly the terms of the section out of the document, and nothing else is changed; remove_term of a section, of whichever section, does what remove_term of the document does; remove_child takes the child out of the children of its parent and changes nothing else, and raises ValueError, changing nothing, if the term is not a child of that parent. The document stays in good order.", "quantifier": "all documents in good order, all sections whose terms are not sections and have parents in the document, all terms", "why_tests_cant": "all reachable documents", "anchors": ["metatab/terms.py:SectionTerm.clean", "metatab/terms.py:SectionTerm.remove_term", "metatab/terms.py:Term.remove_child", "metatab/doc.py:MetatabDoc.remove_term"]}
{"id": "C76", "title": "Looking up a child of a term finds the first child of that name in any case", "statement": "Term.find gives exactly the children whose name is the item in any case, and whose value is the one asked for, in their order; the item may have the name of the term and a dot before it, but the name of another term there is an AssertionError and two dots a ValueError. find_first gives the first of these, t[item] the term itself for the name of its value, else the first child of that name, else KeyError; get and get_value the same with None for the error; find_first_value the value of the first child. A value, not None, assigned to t[item] is read again by get_value(item), with an empty text possibly as None, unless the item is \"value\" and that is not the name of the value of the term.", "quantifier": "all documents, all terms other than sections, all items and values", "why_tests_cant": "all names, cases and lists of children", "anchors": ["metatab/terms.py:Term.find", "metatab/terms.py:Term.find_first", "metatab/terms.py:Term.find_first_value", "metatab/terms.py:Term.__getitem__", "metatab/terms.py:Term.get", "metatab/terms.py:Term.get_value", "metatab/terms.py:Term.__setitem__"]}
{"id": "C77", "title": "A parsed document is exactly the forest its rows describe", "statement": "The document made from a file has exactly the sections, the columns of sections and the trees of terms, in order and with names and values, that a pure function of the lines of the file describes: a row goes below the last row with the name of its parent, or to the top of the current section; a row with an elided parent goes below the last named parent; the extra cells of a row become its children, named by the columns in force, or the children of its parent if the name is elided; blank cells and comments make no terms; a section that is entered again is continued; a Header row replaces the columns of the section. The name of its parent, the property type and the value name recorded for each term are those that the declarations in force and the last Header row give it. A row that names itself as its parent, and everything below it, is in no section. Rows that follow Declare or Include rows add such a forest to the sections already there, and leave the terms already there as they are. A document is described by at most one such forest, and a file of sound rows whose parents precede them is read without error.", "quantifier": "all files of Term, Section, Header and blank rows, and all such rows that follow first rows of any kind which leave the parser calm, provided that they go below one another; all declarations", "why_tests_cant": "all files, with all orders of rows, sections and names", "anchors": ["metatab/parser.py:TermParser.__iter__", "metatab/parser.py:TermParser.generate_terms", "metatab/doc.py:MetatabDoc.load_terms"]}
{"id": "C78", "title": "What a parsed document answers is what its rows say", "statement": "The dict of the document of a file is the one that its rows describe: one entry for each name at the top of a section, made by the property type of the terms of that name, and below it the same for the terms below, with the value of a term under the name of its value. A search for terms of the top level finds those rows that have the name, the section and the value asked for, in the order of the file; a search for terms below others finds those that have the name and the value, section by section, each term before those below it. If the outline of the file can be written, as_csv gives a text; reading that text gives the same outline, with children in the order of the columns, and writing it again gives the same text. The dicts of the terms that rows after Declare or Include rows add are those that the rows describe.", "quantifier": "all files of Term, Section, Header and blank rows in which no row names itself as its parent (for searches: no column name with a dot); all declarations; all patterns, values and sections to search for; for dicts, where terms of one name have one property type and only childless terms are concatenated", "why_tests_cant": "all files and all questions about them", "anchors": ["metatab/parser.py:TermParser.generate_terms", "metatab/doc.py:MetatabDoc.as_dict", "metatab/doc.py:MetatabDoc.find", "metatab/doc.py:MetatabDoc.as_csv", "metatab/terms.py:Term._convert_to_dict"]}
{"id": "C79", "title": "A document knows where it comes from", "statement": "The directory of a document with a reference is absolute and has no empty, \".\" or \"..\" part: it is where walking from the top along the parts of its path without the last, after those of the working directory if the path is relative, leads, going up at \"..\" and staying at the top there. A document without a reference has none. Its time is that of its file, 0 for a file that is not there and for other schemes, and the present for a document without reference; every document has a time; the path of a document read from a file is that of the file.", "quantifier": "all paths, working directories, schemes and times", "why_tests_cant": "all spellings of paths", "anchors": ["metatab/doc.py:MetatabDoc.__init__", "metatab/doc.py:MetatabDoc.doc_dir", "metatab/doc.py:MetatabDoc.path", "metatab/doc.py:MetatabDoc.mtime"]}
{"id": "C80", "title": "The digest of a file covers all of it, and a dotted name means what it spells", "statement": "md5_file reads the file in parts, and digests its whole content, whatever its length; for a directory or a missing file it returns None. import_name_or_class of a dotted name returns the object that is reached from the first module by the names that follow, exactly if the module that its names but the last spell can be imported; a name without a dot is refused.", "quantifier": "all contents and sizes of parts; all trees of modules and all names", "why_tests_cant": "all lengths of files, in particular around multiples of the size of parts", "anchors": ["metatab/util.py:md5_file", "metatab/util.py:import_name_or_class"]}
{"id": "C81", "title": "The text of a term tells where it is and what it is", "statement": "str(term) is the slug of the last part of the path of its file, its row and column in decimal, the name of its section, its names (without that of an elided parent) and its value; a term that was not read has no place in its text. From the text all of these can be told, if the section name has no colon, the parent's name no dot and the record name no equals sign. No two terms, other than sections, of a parsed file show the same text.", "quantifier": "all terms; all files and declarations", "why_tests_cant": "injectivity over all pairs of terms", "anchors": ["metatab/terms.py:Term.__str__", "metatab/terms.py:Term.file_ref", "metatab/terms.py:Term.__init__"]}
{"id": "C82", "title": "Extra cells and rows of their own say the same", "statement": "Writing the extra cells of a row as rows \".Name\" right below it, one for each cell that is not empty and named by the column in force, and putting in or leaving out blank rows, does not change the outline of the document that is read: its sections, their columns, and their trees of names and values. The file so written can be read if the first can. Rows \".Name\" at the top of a section, which have no term above them, are the exception.", "quantifier": "all files that read rows of sections, headers and terms, all declared columns, all choices of the rows whose cells are spread", "why_tests_cant": "all mixtures of the two notations, with all columns in force", "anchors": ["metatab/parser.py:TermParser.generate_terms", "metatab/parser.py:TermParser.__iter__", "metatab/doc.py:MetatabDoc.load_terms"]}
{"id": "C83", "title": "A document written as lines is read back", "statement": "If the outline of a document can be written (C35) and its names and values fit on lines (no line break, no pipe, no backslash at the end, no colon in names, no column \"Header\"), then the text of as_lines is read by the text row generator and the parser to a document with the same outline, the terms that have columns in the order of the columns; its as_lines is the same text. The document of a file with such an outline has an as_lines.", "quantifier": "all documents with outlines that can be written and fit on lines, all declarations", "why_tests_cant": "all trees, sections, columns and values", "anchors": ["metatab/doc.py:MetatabDoc.as_lines", "metatab/doc.py:MetatabDoc.lines", "metatab/terms.py:SectionTerm.lines", "metatab/rowgen.py:TextRowGenerator"]}
{"id": "C84", "title": "The error of a failed include says what is wrong and where", "statement": "If a parse ends with IncludeError, the parser has this one error. Its message says what is wrong with the first row, in the order of reading, that names no file that can be included, its own file or a file that cannot be read, and names each file from there to the document. Its term is the term of that row, and errors_as_dict has one entry with the message, the file and the place of the row. A parse that ends well has read no such row; the document's errors are then empty.", "quantifier": "all documents, files, file systems and states of the parser", "why_tests_cant": "all nestings of files and places of the wrong row", "anchors": ["metatab/parser.py:TermParser.generate_terms", "metatab/parser.py:TermParser.errors_as_dict", "metatab/parser.py:TermParser.__iter__", "metatab/parser.py:TermParser.find_include_doc", "metatab/exc.py:IncludeError", "metatab/doc.py:MetatabDoc.load_terms"]}
{"id": "C85", "title": "What the parser caches and shares cannot be seen", "statement": "The super terms a parser has cached are always those its declarations give, and the values recorded for declared terms are those that each declaration would have with a dict of values of its own, although inherited declarations share the dict of the declaration they are copied from. Opening a document with the cache and the shared dicts gives the same document as without.", "quantifier": "all documents, declarations, files and states", "why_tests_cant": "all orders of declarations, lookups and values", "anchors": ["metatab/parser.py:TermParser.super_terms", "metatab/parser.py:TermParser.manage_declare_terms", "metatab/parser.py:TermParser.inherited_children", "metatab/parser.py:TermParser.add_declared_term", "metatab/parser.py:TermParser.add_value_set_value", "metatab/parser.py:TermParser.get_term_class"]}
{"id": "C86", "title": "Rows from a row generator are read like rows of a file", "statement": "A text row generator has the rows of the text of the path, open file, URL or file name it is given, or of the str itself if that names no file, and anything else is an error. Opening a document from a row generator gives the same document as opening a file with the same rows whose path is that of the generator, as long as no row names that file.", "quantifier": "all objects, texts, rows, paths, declarations, files and states of the document", "why_tests_cant": "all kinds of sources with all rows", "anchors": ["metatab/rowgen.py:TextRowGenerator.__init__", "metatab/rowgen.py:MetatabRowGenerator.__init__", "metatab/rowgen.py:MetatabRowGenerator.__iter__", "metatab/parser.py:TermParser.generate_terms"]}
{"id": "C87", "title": "The words of the metatab command mean what they say", "statement": "A command line made of the letters, names, shortened names and values of the options, with at most one file and no two options that exclude each other, gives the command the format, flags, search, template and file that its parts say, whatever way and order they are written in. Two files, two exclusive options, an unknown or ambiguous option, a value for an option without value and a missing value end the command with code 2 before it reads or writes a file; -h ends it with code 0.", "quantifier": "all command lines of any length", "why_tests_cant": "all orders, spellings and combinations of options and values", "anchors": ["metatab/cli.py:metatab"]}
{"id": "C88", "title": "The listing of the terms says what the file says", "statement": "After a file has been read, metatab -T terms prints, in the order of the file and after a line for the root, one line for each section heading, each term and each cell: its file, row and column, its section, its name and its value. Nothing else is printed and nothing fails, although the listing reads the file a second time with the parser and the document the first reading left behind. A name with two dots ends the listing with a ValueError, after the lines of what came before it.", "quantifier": "all files of any length without Include and Declare rows, all declared columns and classes", "why_tests_cant": "all files, and the state one reading leaves for the next", "anchors": ["metatab/cli.py:metatab", "metatab/parser.py:TermParser.__iter__", "metatab/parser.py:TermParser.generate_terms", "metatab/terms.py:Term.__str__", "metatab/terms.py:Term.file_ref"]}
{"id": "C89", "title": "A further file adds its outline to a loaded document", "statement": "load_terms with a new parser on a document that is already loaded reads the file as a reader would who knows the sections of the document and nothing else: the file starts in the root section, without columns and with no term to go below; its terms come, as the trees its rows describe, after the terms of the sections they belong to; new sections come after those that are there, a heading of an existing section keeps that section and its columns; the terms already there stay as they are. So files loaded one after another give exactly the document their lines describe, and rows that go below a term of an earlier file are refused with a ParserError.", "quantifier": "all documents in good order (loaded, with or without declarations and inclusions), all numbers of further files of any length without Include and Declare rows", "why_tests_cant": "all sequences of files and all documents they are loaded into; the parser state is new, the document state is not", "anchors": ["metatab/doc.py:MetatabDoc.load_terms", "metatab/parser.py:TermParser.__init__", "metatab/parser.py:TermParser.generate_terms", "metatab/doc.py:MetatabDoc.add_section", "metatab/doc.py:MetatabDoc.add_term"]}
{"id": "C90", "title": "A declaration file declares exactly what its rows say", "statement": "Loading a declaration file into a new document leaves the document with the declarations it had, overlaid by those that the lines of the file tell when they are read one after another from the installed declarations: a DeclareSection row declares the section of that name with its non-blank cells as columns and no terms; a DeclareTerm row declares the full name of its value with the cells under the names of the columns of its heading or Header row, blank ones left out, and lists the term in its section; with InheritsFrom it also declares below the new term a copy of each child that the named term has in the section. Headings, Header rows, child rows and rows of other names declare nothing. With several declaration files each is read after the one before it, beginning in the root section with the Header row and the name of values that they left.", "quantifier": "all documents and registries in good order, all lists of declaration files of any length, with any headings, columns and Header rows, without Declare and Include rows in them, in which no heading with a column Section is repeated and no term inherits from its own record name", "why_tests_cant": "the declarations depend on the whole sequence of headings, columns and earlier declarations; all files and orders of rows", "anchors": ["metatab/doc.py:MetatabDoc.load_declarations", "metatab/parser.py:TermParser.manage_declare_terms", "metatab/parser.py:TermParser.add_declared_section", "metatab/parser.py:TermParser.add_declared_term", "metatab/parser.py:TermParser.inherited_children", "metatab/parser.py:TermParser.__iter__"]}
{"id": "C91", "title": "A document opened with declaration files is read by what those files declare", "statement": "Opening a file with a list of declaration files gives the sections and the terms that the outline of the file's own rows describes, read with the declarations that the rows of the declaration files tell, laid over those the document had: the columns a heading has when it gives none, the property type and the name of the value of each top-level term. The rows of the declaration files add no section and no term of their own, but in the root section, which keeps their Header row, and in sections whose heading has a column Section.", "quantifier": "all documents and registries in good order, all lists of declaration files of any length without Declare and Include rows, all files of any length that follow, none of whose headings is one of the sections the declaration files left", "why_tests_cant": "the effect of every declaration on every later row; all pairs of files", "anchors": ["metatab/doc.py:MetatabDoc.__init__", "metatab/doc.py:MetatabDoc.load_declarations", "metatab/doc.py:MetatabDoc.load_terms", "metatab/parser.py:TermParser.__iter__", "metatab/terms.py:SectionTerm"]}
{"id": "C92", "title": "A file that begins with Declare rows is read by what the files they name declare", "statement": "If the first rows of a file are Declare rows, the other rows give the sections and terms that their outline describes, read with the property types and value names that the rows of the declaration files tell; the columns declared for sections do not yet count, they are those the document had. The first line after the Declare rows is in the root section, but its cells are named by the last heading or Header row of the declaration files, and a name without a parent belongs to their last record. When the file is read, the document declares what it did before, changed by what the declaration files say, and nothing else. The declaration files add no section and no term of their own, but in the root section and in sections whose heading has a column Section.", "quantifier": "all documents and registries in good order, all lists of declaration files of any length without Declare and Include rows in them, found from the directory of the file, all rows that follow, none of whose headings is one of the sections the declaration files left and none of which goes below a term of theirs", "why_tests_cant": "the effect of every declaration on every later row of the same file; all pairs of files", "anchors": ["metatab/parser.py:TermParser.generate_terms", "metatab/parser.py:TermParser.find_declare_doc", "metatab/parser.py:TermParser.manage_declare_terms", "metatab/parser.py:TermParser.__iter__", "metatab/doc.py:MetatabDoc.load_terms"]}
{"id": "C93", "title": "A DeclareTerm row is refused exactly when it has no declared section to go to", "statement": "A DeclareTerm row ends in DeclarationError exactly if it names a section that is not declared, or has InheritsFrom and names no section. A row that is refused has declared its term all the same and changed nothing else. Every other row is accepted, as long as each child name that a section lists is declared in a declared section and the row inherits from something that is a name; a new parser is in that state, and rows that declare sections and rows that declare terms in a section, written as full names, leave it so.", "quantifier": "all parser states, all DeclareTerm rows whose cells are texts and whose value is a name, all lists of terms in sections", "why_tests_cant": "the refusal depends on every earlier declaration and on any combination of blank and non-blank columns", "anchors": ["metatab/parser.py:TermParser.add_declared_term", "metatab/parser.py:TermParser.inherited_children", "metatab/parser.py:TermParser.add_declared_section", "metatab/parser.py:TermParser.manage_declare_terms"]}
