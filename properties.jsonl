{"id": "C01", "title": "Name classification of groups and fields", "statement": "After validate() completes, every catalogued group or field other than the file root, whose class path contains neither '@' nor 'NXcollection', carries a validItemName finding whose status is OK if its name is in the strict language [a-z_][a-z0-9_]* (optionally followed by one newline), NOTE if it is not but one of the relaxed patterns of the NXDL schema accepts it, and ERROR otherwise; nothing else.", "quantifier": "all HDF5 files, all catalogued objects, all name strings, all schema pattern lists", "why_tests_cant": "names are arbitrary Unicode strings; a test samples a few and cannot show that no other string is classified wrongly", "anchors": ["punx/validations/item_name.py:verify", "punx/validations/item_name.py:handle_groups_and_fields", "punx/validations/item_name.py:validItemName_match_key"]}
{"id": "C02", "title": "An OK name uses only strict characters", "statement": "If an object's name check is OK then the name is non-empty and consists only of lower-case ASCII letters, digits and underscore and does not start with a digit.", "quantifier": "all names", "why_tests_cant": "needs every string, including names with control characters no test author thinks of", "anchors": ["punx/validations/item_name.py:validItemName_match_key", "punx/validate.py:VALIDITEMNAME_STRICT_PATTERN"]}
{"id": "C03", "title": "Over-long names are flagged", "statement": "The NXDL schema limits a validItemName to 63 characters (maxLength); an object whose name is longer than that is not reported OK by validate().", "quantifier": "all names of any length", "why_tests_cant": "length is unbounded", "anchors": ["punx/schema_manager.py:SchemaManager.parse_nxdl_patterns", "punx/validations/item_name.py:validItemName_match_key"]}
{"id": "C04", "title": "NX_class values: exactly which are accepted", "statement": "With the patterns of the shipped schemas, the validItemName finding recorded for an @NX_class attribute is OK exactly when its text (minus one trailing newline) either starts with 'NX' followed by at least one further character and contains no newline, or is an identifier ([A-Za-z_] followed by word characters); otherwise it is ERROR.", "quantifier": "all attribute values that are strings", "why_tests_cant": "the set of strings is infinite and the rule is produced by merging two schema restrictions", "anchors": ["punx/validations/item_name.py:handle_NX_class", "punx/schema_manager.py:SchemaManager.parse_nxdl_patterns"]}
{"id": "C05", "title": "Only class names starting with NX are accepted as NX_class", "statement": "The schema's validNXClassName restricts validItemName to names starting with NX; so an @NX_class value that does not start with 'NX' is not reported OK by the name check.", "quantifier": "all attribute values that are strings", "why_tests_cant": "conjunction-versus-disjunction of schema restrictions shows only on values that satisfy one and not the other", "anchors": ["punx/validations/item_name.py:handle_NX_class", "punx/schema_manager.py:SchemaManager.parse_nxdl_patterns"]}
{"id": "C06", "title": "NXcollection content always warns", "statement": "Every group or field whose class path contains NXcollection gets a validItemName finding with status WARN whatever its name is, and never OK, NOTE or ERROR from the name check.", "quantifier": "all files, all objects below an NXcollection group, all names", "why_tests_cant": "arbitrary names and arbitrary depth below the collection", "anchors": ["punx/validations/item_name.py:handle_groups_and_fields"]}
{"id": "C07", "title": "The compiled-pattern cache is transparent", "statement": "The result of a name check never depends on which names were checked before by the same validator: for every history of checks the answer equals that of freshly compiled patterns.", "quantifier": "all histories of name checks, all names, all schema pattern lists", "why_tests_cant": "a cache keyed by a string is wrong only for particular orders of use or key collisions", "anchors": ["punx/validations/item_name.py:validItemName_match_key", "punx/validations/item_name.py:handle_NX_class", "punx/validate.py:Data_File_Validator.regexp_cache"]}
{"id": "C08", "title": "Address catalog is complete and sound", "statement": "For a file without external links, if validate() gets past cataloguing, the non-attribute keys of validator.addresses are exactly the HDF5 paths that lead from the root to an object: every such path is a key and every key is such a path.", "quantifier": "all files (graphs of groups, hard links and soft links), all paths of any depth", "why_tests_cant": "depth and breadth of the file are unbounded", "anchors": ["punx/validate.py:Data_File_Validator.build_address_catalog", "punx/validate.py:Data_File_Validator._group_address_catalog_"]}
{"id": "C09", "title": "Class path of every item", "statement": "Every catalogued item's class path is: '' for the root; for a group below NeXus content with a string NX_class starting with 'NX', its parent's class path + '/' + NX_class; for a field its parent's class path + '/' + its name; for an attribute its owner's class path + '@' + its name; and the fixed non-NeXus marker otherwise (provided the parent's class path does not end in '/').", "quantifier": "all files, all items at any depth", "why_tests_cant": "recursive definition over unbounded trees", "anchors": ["punx/validate.py:ValidationItem.determine_NeXus_classpath", "punx/validate.py:ValidationItem.__init__"]}
{"id": "C10", "title": "Non-NeXus content is inherited by everything below", "statement": "If a group is classified as non-NeXus content then every object and attribute below it is classified non-NeXus, and none of its attributes has an HDF5 address or any finding.", "quantifier": "all files, all depths below a non-NeXus group", "why_tests_cant": "unbounded depth", "anchors": ["punx/validate.py:ValidationItem.determine_NeXus_classpath", "punx/validate.py:ValidationItem.__init__", "punx/validations/item_name.py:verify", "punx/validations/attribute.py:verify"]}
{"id": "C11", "title": "Address index and class path index agree", "statement": "Every item reachable through validator.addresses is listed under its own class path in validator.classpaths; every item listed under a class path has that class path; and (when no external links are present and no link name contains '@') every listed item that has an address is the one found under that address.", "quantifier": "all files", "why_tests_cant": "an index invariant over arbitrarily many insertions", "anchors": ["punx/validate.py:Data_File_Validator._group_address_catalog_"]}
{"id": "C12", "title": "Cataloguing terminates on every acyclic file", "statement": "If the link structure below the root has no cycle, is not deeper than the interpreter's recursion limit, contains no dangling link and every attribute needed for cataloguing is well-typed text, cataloguing completes without an exception.", "quantifier": "all files whose link graph is ranked", "why_tests_cant": "termination over unbounded graphs", "anchors": ["punx/validate.py:Data_File_Validator._group_address_catalog_"]}
{"id": "C13", "title": "validate() terminates normally on every readable HDF5 file", "statement": "validate() returns normally (no exception) for every file h5py can open, whatever links it contains, including links that form a cycle and links whose target is missing.", "quantifier": "all readable HDF5 files including cyclic and dangling links", "why_tests_cant": "cyclic and dangling structures are legal HDF5 and endless in variety", "anchors": ["punx/validate.py:Data_File_Validator.validate", "punx/validate.py:Data_File_Validator._group_address_catalog_"]}
{"id": "C14", "title": "Every catalogued group is root, NeXus, or non-NeXus", "statement": "The class path of every catalogued group or file root is '', starts with '/NX', or is the non-NeXus marker, so validate()'s internal 'unexpected' ValueError is unreachable.", "quantifier": "all files", "why_tests_cant": "needs an induction over the whole traversal", "anchors": ["punx/validate.py:Data_File_Validator.validate_group"]}
{"id": "C15", "title": "Only the eight statuses are ever recorded", "statement": "Finding() rejects any status that is not one of the eight defined ones, and every finding recorded by validate() has one of the eight.", "quantifier": "all status values, all validation runs", "why_tests_cant": "all call sites and inputs", "anchors": ["punx/finding.py:Finding.__init__", "punx/validate.py:Data_File_Validator.record_finding"]}
{"id": "C16", "title": "Findings are only appended", "statement": "During one validate() call findings are only appended: at each moment the list is a prefix of the final list, and an exception raised part way leaves all findings recorded so far in place.", "quantifier": "all files, all points of execution, all exceptions", "why_tests_cant": "every interruption point", "anchors": ["punx/validate.py:Data_File_Validator.record_finding", "punx/validate.py:Data_File_Validator.validate"]}
{"id": "C17", "title": "Per-item findings are those of the run, the last one per test winning", "statement": "item.validations[t] is always the most recently recorded finding of that item with test name t, it carries the item's address and test name t, and it is in validator.validations.", "quantifier": "all validation runs, all items, all test names", "why_tests_cant": "arbitrary sequences of recordings", "anchors": ["punx/validate.py:Data_File_Validator.record_finding", "punx/validations/item_name.py:handle_any_attribute"]}
{"id": "C18", "title": "An ERROR stays visible on its item", "statement": "If validate() records an ERROR for an item then that item's own validations dictionary still shows an ERROR when validate() returns.", "quantifier": "all validation runs", "why_tests_cant": "depends on the order of all later recordings for the item", "anchors": ["punx/validate.py:Data_File_Validator.record_finding", "punx/validate.py:Data_File_Validator.validate_group"]}
{"id": "C19", "title": "Summary counts are exact", "statement": "finding_summary() has exactly the eight statuses as keys in their fixed order, each count is the number of findings with that status, and the counts add up to the number of findings.", "quantifier": "all lists of findings", "why_tests_cant": "arbitrary length lists", "anchors": ["punx/validate.py:Data_File_Validator.finding_summary"]}
{"id": "C20", "title": "Score is exact and errors dominate within a bound", "statement": "finding_score() returns (total, count, total/count) over findings with non-zero status value, (0,0,0) if there are none; and whenever at least one ERROR is present and fewer than 100000 other findings per ERROR were counted, the total is negative.", "quantifier": "all lists of findings", "why_tests_cant": "numeric claim over unbounded lists", "anchors": ["punx/validate.py:Data_File_Validator.finding_score", "punx/finding.py:VERY_BAD"]}
{"id": "C21", "title": "Any ERROR makes the average score negative", "statement": "Whenever at least one finding is an ERROR the average score is negative.", "quantifier": "all lists of findings", "why_tests_cant": "fails only for very large lists", "anchors": ["punx/validate.py:Data_File_Validator.finding_score"]}
{"id": "C22", "title": "Report shows exactly the selected findings, sorted", "statement": "print_report(statuses) lists exactly the findings whose status is selected (all, if none is given), each as often as it was recorded, ordered by the documented sort text; findings with equal sort text keep their recording order.", "quantifier": "all lists of findings, all selections", "why_tests_cant": "permutation and order claims over unbounded lists", "anchors": ["punx/validate.py:Data_File_Validator.print_report"]}
{"id": "C23", "title": "Report orders findings of one address from best to worst", "statement": "For two findings at the same address the one with the better (higher) status value is listed first.", "quantifier": "all pairs of findings", "why_tests_cant": "depends on how numbers are rendered to text", "anchors": ["punx/validate.py:Data_File_Validator.print_report.sort_validations"]}
{"id": "C24", "title": "make_md5 identifies a finding", "statement": "make_md5 depends only on address and test name, and two different findings recorded by one validation have different digests.", "quantifier": "all pairs of findings, any digest function", "why_tests_cant": "pairs are unbounded", "anchors": ["punx/finding.py:Finding.make_md5"]}
{"id": "C25", "title": "A validator's result does not depend on earlier files", "statement": "validate(f) on a validator that has already validated other files records the same findings as validate(f) on a fresh validator of the same file set.", "quantifier": "all histories of validate() calls and all files", "why_tests_cant": "history dependent", "anchors": ["punx/validate.py:Data_File_Validator.validate", "punx/validations/default_plot.py:verify", "punx/validations/base_class_items_in_hdf5_group.py:verify"]}
{"id": "C26", "title": "Failed validate() does not leave a misleading report", "statement": "After validate(f) raises because f is missing or not HDF5, the validator's file name and its findings refer to the same file.", "quantifier": "all histories ending in a failed validate()", "why_tests_cant": "history dependent", "anchors": ["punx/validate.py:Data_File_Validator.validate"]}
{"id": "C27", "title": "At most one open file per validator", "statement": "After any sequence of validate() and close() calls at most one HDF5 file handle opened by the validator is open, it is the last successfully opened file, close() leaves none open and may be repeated.", "quantifier": "all sequences of calls", "why_tests_cant": "history dependent", "anchors": ["punx/validate.py:Data_File_Validator.validate", "punx/validate.py:Data_File_Validator.close"]}
{"id": "C28", "title": "Every NXDL field and group of the class is reported for each group", "statement": "For each NeXus group of a known class, every field and every group of its NXDL class yields one 'NXDL field/group in data file' finding: OK if an item of that name exists in the group, OPTIONAL if not, and never any other status.", "quantifier": "all groups, all class specifications", "why_tests_cant": "quantifies over all schemas and files", "anchors": ["punx/validations/base_class_items_in_hdf5_group.py:verify"]}
{"id": "C29", "title": "Every child of a NeXus group is compared with the class", "statement": "For each NeXus group of a known class, each child field/group gets an OK finding that says 'defined' exactly when the class defines a field/group of that name.", "quantifier": "all groups, all children", "why_tests_cant": "unbounded children and schemas", "anchors": ["punx/validations/hdf5_group_items_in_base_class.py:verify_group_children"]}
{"id": "C30", "title": "Unknown classes are errors", "statement": "A group whose NX_class is not in the file set gets an ERROR 'known NXDL' finding and an ERROR 'NeXus base class' finding; a group of a known class gets OK for 'known NXDL'.", "quantifier": "all files, all file sets", "why_tests_cant": "all class names", "anchors": ["punx/validate.py:Data_File_Validator.validate_group", "punx/validations/nx_class_attribute.py:validate_NX_class_attribute"]}
{"id": "C31", "title": "Application definitions are not accepted as group classes; classification never fails", "statement": "usedAsBaseClass is False for unknown and application classes, True for base classes, and for contributed definitions it returns a boolean for every class.", "quantifier": "all file sets, all class names", "why_tests_cant": "all contributed definitions", "anchors": ["punx/validate.py:Data_File_Validator.usedAsBaseClass", "punx/validations/attribute.py:isBaseClassNXDL"]}
{"id": "C32", "title": "@target check", "statement": "The 'attribute value' finding of a @target attribute is OK exactly when the value is an absolute path, each component is a valid item name and each partial path exists in the file; otherwise ERROR; and exactly one such finding is recorded.", "quantifier": "all string values, all files", "why_tests_cant": "all paths", "anchors": ["punx/validations/attribute.py:target_handler"]}
{"id": "C33", "title": "@signal check on groups", "statement": "For a group's @signal with a string value exactly two findings are recorded by the attribute check: one about the name's validity and an 'attribute value' finding that is OK iff the value, followed as a path from the group, leads to an object (for a value without '/': iff the group has a child of that name), ERROR otherwise.", "quantifier": "all string values, all groups", "why_tests_cant": "all names", "anchors": ["punx/validations/attribute.py:signal_handler"]}
{"id": "C34", "title": "@axes check covers each axis", "statement": "For a group's @axes with a list of n names exactly 2n+1 findings are recorded; for each name one about validity and one that is OK iff the name leads to an object from the group, ERROR otherwise, and one TODO at the end.", "quantifier": "all lists of names", "why_tests_cant": "unbounded lists", "anchors": ["punx/validations/attribute.py:axes_handler"]}
{"id": "C35", "title": "Attribute checks never crash", "statement": "The attribute check handles every attribute value of every catalogued item without raising an exception.", "quantifier": "all attribute values and owners", "why_tests_cant": "value types are open-ended", "anchors": ["punx/validations/attribute.py:verify"]}
{"id": "C36", "title": "Exactly one default plot verdict, on the root", "statement": "When validate() returns, exactly one 'NeXus default plot' finding was recorded, for the root '/', with status OK, NOTE or ERROR; it is OK exactly when the v3 or else the v2 method found plottable data.", "quantifier": "all files", "why_tests_cant": "all files and schemas", "anchors": ["punx/validations/default_plot.py:verify"]}
{"id": "C37", "title": "v3 default plot is a dataset named by @signal", "statement": "If the v3 method reports an address then some /NXentry/NXdata group has a @signal naming an existing dataset and the reported address is that dataset's (or, for a unique NIAC2014 chain, that @signal attribute's) address.", "quantifier": "all files", "why_tests_cant": "all arrangements of entries and data groups", "anchors": ["punx/validations/default_plot.py:default_plot_v3"]}
{"id": "C38", "title": "A valid default plot is always found", "statement": "If some NXentry/NXdata group has a @signal naming an existing dataset in it, the default plot finding is OK, whatever the other groups in the file contain.", "quantifier": "all files", "why_tests_cant": "depends on interplay with other groups", "anchors": ["punx/validations/default_plot.py:default_plot_v3"]}
{"id": "C39", "title": "v2 default plot", "statement": "The v2 method returns the address of a field whose @signal is 1 and which is the only such field in its group, and returns nothing exactly when no group has exactly one such field; groups with several such fields each get one ERROR.", "quantifier": "all files", "why_tests_cant": "all arrangements of signal attributes", "anchors": ["punx/validations/default_plot.py:default_plot_v2"]}
{"id": "C40", "title": "Application definition fields", "statement": "For an entry naming a known application definition every field of the definition's entry yields one 'NXDL field' finding, OK iff the field exists in the entry, ERROR otherwise.", "quantifier": "all files, all definitions", "why_tests_cant": "all schemas", "anchors": ["punx/validations/application_definition.py:verify"]}
{"id": "C41", "title": "Application definition check never crashes", "statement": "Validating the definition field of an entry never raises an exception.", "quantifier": "all files, all definitions", "why_tests_cant": "all schemas and missing fields", "anchors": ["punx/validations/application_definition.py:verify"]}
{"id": "C42", "title": "Names inside an NXDL structure are unique and nothing is lost", "statement": "In every NXDL definition and every nested group, the names of groups, fields and links are pairwise distinct after loading, there is one entry per XML element, the first element of a name keeps it and later ones get a numeric suffix.", "quantifier": "all NXDL XML trees of any depth", "why_tests_cant": "all multisets of names, nested without bound", "anchors": ["punx/nxdl_manager.py:NXDL__base.ensure_unique_name", "punx/nxdl_manager.py:NXDL__base.parse_groups", "punx/nxdl_manager.py:NXDL__base.parse_fields", "punx/nxdl_manager.py:NXDL__base.parse_links"]}
{"id": "C43", "title": "Unique-name search terminates", "statement": "The search for an unused suffix terminates for every set of names already in use, and yields the smallest unused positive suffix.", "quantifier": "all sets of names", "why_tests_cant": "unbounded loop", "anchors": ["punx/nxdl_manager.py:NXDL__base.ensure_unique_name"]}
{"id": "C44", "title": "Base class fields stay optional", "statement": "Loading a file set does not change whether a field of a base class is required: fields of base classes keep the schema's default minOccurs whatever application definitions are loaded after them. The same holds for groups and their minOccurs and for attributes and whether they are optional.", "quantifier": "all file sets", "why_tests_cant": "depends on load order and shared objects", "anchors": ["punx/nxdl_manager.py:NXDL__base.parse_fields", "punx/nxdl_manager.py:NXDL__base.parse_xml_attributes"]}
{"id": "C45", "title": "NXDL file list is ordered by category then name", "statement": "get_NXDL_file_list returns exactly the *.nxdl.xml files of the three category directories, base classes first, then applications, then contributed definitions, each sorted by name; it raises if a category is missing.", "quantifier": "all directory contents", "why_tests_cant": "all directory listings", "anchors": ["punx/nxdl_manager.py:get_NXDL_file_list"]}
{"id": "C46", "title": "File sets: union with the user cache winning", "statement": "all_file_sets lists a name iff it is a directory with an info file in the source or user cache, and a name present in both refers to the user's copy.", "quantifier": "all cache contents", "why_tests_cant": "all directory contents", "anchors": ["punx/cache_manager.py:CacheManager.all_file_sets", "punx/cache_manager.py:Base_Cache.all_file_sets"]}
{"id": "C47", "title": "Selecting a file set", "statement": "select_NXDL_file_set(ref) returns the named set if known, and otherwise a set whose last_modified is maximal (the first listed among equals); afterwards it is the default. It raises IndexError if there is no set at all, and TypeError if there are several and one has no date, or if the chosen one has a ref but no hash; nothing else.", "quantifier": "all cache contents, all names", "why_tests_cant": "all orders and ties", "anchors": ["punx/cache_manager.py:CacheManager.select_NXDL_file_set"]}
{"id": "C48", "title": "Unknown file set names are rejected", "statement": "select_NXDL_file_set(ref) raises KeyError if ref is not a known file set.", "quantifier": "all names, all caches", "why_tests_cant": "universal over names", "anchors": ["punx/cache_manager.py:CacheManager.select_NXDL_file_set"]}
{"id": "C49", "title": "A validator built without a name uses the newest file set", "statement": "Data_File_Validator() without argument uses the file set with the latest date, whatever validators were created before.", "quantifier": "all histories", "why_tests_cant": "history of a process-wide singleton", "anchors": ["punx/nxdl_manager.py:NXDL_Manager.__init__", "punx/cache_manager.py:CacheManager", "punx/singletons.py:Singleton"]}
{"id": "C50", "title": "Install never loses or half-installs a file set", "statement": "If the process dies at any point of download_file_set(name, replace=True), the cache still offers a complete file set under that name: the old or the new one.", "quantifier": "all crash points, all archives, all previous cache states", "why_tests_cant": "crash points cannot be enumerated by tests", "anchors": ["punx/cache_manager.py:download_file_set"]}
{"id": "C51", "title": "An interrupted download is never offered as a file set", "statement": "If the process dies before the info file of the download is written, the set of available file sets is unchanged.", "quantifier": "all crash points before the info file, all archives", "why_tests_cant": "crash points", "anchors": ["punx/cache_manager.py:download_file_set", "punx/cache_manager.py:Base_Cache.all_file_sets"]}
{"id": "C52", "title": "Install without --update never touches an existing file set", "statement": "download_file_set(name, cache, replace=False) with an existing directory of that name makes no request and changes nothing; and with any arguments it changes only the download directory and the named directory, provided every archive member lies in the archive's top directory.", "quantifier": "all cache states and archives", "why_tests_cant": "all archives", "anchors": ["punx/cache_manager.py:download_file_set"]}
{"id": "C53", "title": "Only definition files are extracted", "statement": "Every extracted archive member has suffix .xsd, .xml or .xsl and its parent directory is a category directory or the archive's top directory.", "quantifier": "all archive member lists", "why_tests_cant": "all names", "anchors": ["punx/cache_manager.py:is_extractable", "punx/cache_manager.py:download_file_set"]}
{"id": "C54", "title": "Downloads are retried", "statement": "A connection error is retried up to three times before giving up.", "quantifier": "all sequences of network outcomes", "why_tests_cant": "all outcome sequences", "anchors": ["punx/cache_manager.py:download_NeXus_zip_archive"]}
{"id": "C55", "title": "Short SHA is a prefix of at most seven characters", "statement": "get_short_sha(s) is the prefix of s of length min(7, len(s)).", "quantifier": "all strings", "why_tests_cant": "all strings", "anchors": ["punx/cache_manager.py:get_short_sha"]}
{"id": "C56", "title": "Subcommand abbreviation", "statement": "A first command line word that is not an option is replaced by a subcommand exactly when it is that subcommand, or has two or more characters and is a prefix of that one subcommand only; any other word is rejected.", "quantifier": "all words, all sets of subcommands", "why_tests_cant": "all strings", "anchors": ["punx/main.py:MyArgumentParser.parse_args"]}
{"id": "C57", "title": "Report selection option", "statement": "punx validate --report X runs the validation iff every comma-separated word of X, upper-cased, is a status name, and then reports exactly those statuses; otherwise it exits with code 1 before validating.", "quantifier": "all option strings", "why_tests_cant": "all strings", "anchors": ["punx/main.py:func_validate"]}
{"id": "C58", "title": "punx validate accepts NXDL files", "statement": "punx validate on a *.nxdl.xml file validates the file without an internal error.", "quantifier": "all file names with that suffix", "why_tests_cant": "universal", "anchors": ["punx/main.py:func_validate", "punx/validate.py"]}
{"id": "C59", "title": "punx tree reports a missing or unreadable file", "statement": "punx tree on a file that does not exist or is not HDF5 exits with a message and exit code 1.", "quantifier": "all file names", "why_tests_cant": "all file-system states", "anchors": ["punx/main.py:func_tree", "punx/h5tree.py:Hdf5TreeView.__init__"]}
{"id": "C60", "title": "Array preview size", "statement": "For a one-dimensional array of n elements and array_items_shown = m > 2, the preview shows all elements if n <= m, and otherwise the first m-2, an ellipsis and the last: never more than m entries, always a prefix plus the last element.", "quantifier": "all arrays and limits", "why_tests_cant": "all lengths", "anchors": ["punx/h5tree.py:Hdf5TreeView._renderNdArray", "punx/h5tree.py:Hdf5TreeView._decideNumShown"]}
{"id": "C61", "title": "Tree shows every item once, fields before groups, sorted", "statement": "report() lists every member of a group exactly once below the group's line, indented by two more spaces; fields and links first, then groups, each in name order.", "quantifier": "all acyclic files", "why_tests_cant": "unbounded trees", "anchors": ["punx/h5tree.py:Hdf5TreeView._renderGroup"]}
{"id": "C62", "title": "Tree without attributes", "statement": "report(show_attributes=False) is report(show_attributes=True) with the attribute lines removed.", "quantifier": "all files", "why_tests_cant": "unbounded trees", "anchors": ["punx/h5tree.py:Hdf5TreeView._renderAttributes", "punx/h5tree.py:Hdf5TreeView._renderGroup"]}
{"id": "C63", "title": "decode_byte_string is idempotent and leaves text unchanged", "statement": "Decoding a decoded value changes nothing; strings, numbers and other objects pass unchanged.", "quantifier": "all values", "why_tests_cant": "all value types", "anchors": ["punx/utils.py:decode_byte_string"]}
{"id": "C64", "title": "Text written by string_list_to_hdf5 is read back unchanged", "statement": "decode_byte_string(b) = s for each b in string_list_to_hdf5([s]), for every Unicode string s.", "quantifier": "all Unicode strings and stdout encodings", "why_tests_cant": "all code points", "anchors": ["punx/utils.py:string_list_to_hdf5", "punx/utils.py:decode_byte_string"]}
{"id": "C65", "title": "isNeXusFile and validate() agree", "statement": "isNeXusFile(f) is True iff f has a top-level group that validate() classifies as NXentry.", "quantifier": "all files", "why_tests_cant": "value representation dependent", "anchors": ["punx/utils.py:isNeXusFile", "punx/utils.py:isNeXusGroup", "punx/validate.py:ValidationItem.determine_NeXus_classpath"]}
{"id": "C66", "title": "Loading a schema depends only on its directory", "statement": "SchemaManager(path).nxdl depends only on the content of path, not on schemas loaded earlier in the process.", "quantifier": "all sequences of schema loads", "why_tests_cant": "process-wide mutable state", "anchors": ["punx/schema_manager.py:_GroupParsing", "punx/schema_manager.py:Schema_Root", "punx/schema_manager.py:Schema_Element"]}
{"id": "C67", "title": "Unexpected extension bases are rejected", "statement": "A complexContent extension whose base is not nx:basicComponent raises ValueError.", "quantifier": "all base names", "why_tests_cant": "all strings", "anchors": ["punx/schema_manager.py:_Mixin.parse_complexContent"]}
{"id": "C68", "title": "Patterns are inherited from the base restriction", "statement": "A schema type whose base is another valid* type has that base's patterns appended and takes over its maximum length; own patterns come first.", "quantifier": "all schemas", "why_tests_cant": "all orders of definitions", "anchors": ["punx/schema_manager.py:SchemaManager.parse_nxdl_patterns"]}
{"id": "C69", "title": "Namespace prefixes are stripped", "statement": "strip_ns(s) is the part of s after its last colon, and contains no colon.", "quantifier": "all strings", "why_tests_cant": "all strings", "anchors": ["punx/schema_manager.py:strip_ns"]}
{"id": "C70", "title": "Attribute names", "statement": "After validate() completes, every catalogued attribute that has an address and whose address does not end in '@NX_class' carries a validItemName finding that is OK if its name is strict or accepted by a relaxed pattern and ERROR otherwise, except that attributes of an object whose @target names another address carry none; attributes of non-NeXus content have no address and carry none.", "quantifier": "all files, all attributes, all names", "why_tests_cant": "arbitrary Unicode names on arbitrarily many objects", "anchors": ["punx/validations/item_name.py:handle_any_attribute", "punx/validations/item_name.py:verify"]}
{"id": "C71", "title": "Attributes of NeXus groups are compared with the class", "statement": "For each NeXus group of a known class, every attribute gets an OK 'known attribute' finding that says 'known' exactly when the class defines it (or it is NX_class); if the class enumerates its values an 'attribute value enumeration' finding is OK exactly when the value is listed; and a defined @default (of a root, entry or subentry group) or @signal gets a 'value of @' finding that is OK exactly when an item of that name is in the group.", "quantifier": "all groups, all attributes, all class specifications", "why_tests_cant": "the outcome depends on the class, the values and the members together", "anchors": ["punx/validations/hdf5_group_items_in_base_class.py:verify", "punx/validations/hdf5_group_items_in_base_class.py:child_exists"]}
{"id": "C72", "title": "A class is the one of the last category that defines it", "statement": "After loading a file set, a class defined in several categories is the definition of the last of base classes, applications, contributed definitions that has it, complete with its category; a name that no category defines is not a class.", "quantifier": "all file sets", "why_tests_cant": "all combinations of directory contents", "anchors": ["punx/nxdl_manager.py:NXDL_Manager", "punx/nxdl_manager.py:NXDL__definition.set_file", "punx/nxdl_manager.py:get_NXDL_file_list"]}
{"id": "C73", "title": "A crash during install leaves the caches readable", "statement": "If the process dies at any point of download_file_set, the list of file sets can still be read afterwards, so that validators can be created.", "quantifier": "all crash points, all archives, all previous cache states", "why_tests_cant": "crash points between any two writes cannot be enumerated by tests", "anchors": ["punx/cache_manager.py:download_file_set", "punx/cache_manager.py:Base_Cache.all_file_sets"]}
{"id": "C74", "title": "An installed file set is the archive's", "statement": "After download_file_set completes for a new name, the named directory holds exactly the definition files of the archive and the info file.", "quantifier": "all archives, all previous cache states", "why_tests_cant": "depends on what earlier, interrupted downloads left behind", "anchors": ["punx/cache_manager.py:download_file_set", "punx/cache_manager.py:is_extractable"]}
{"id": "C75", "title": "Table of caches", "statement": "The table of caches has exactly one row per available file set, oldest first.", "quantifier": "all cache contents", "why_tests_cant": "all numbers and orders of file sets", "anchors": ["punx/cache_manager.py:table_of_caches"]}
{"id": "C76", "title": "punx validate uses the named file set", "statement": "punx validate -f NAME validates with the file set that is called NAME in the caches, and exits with code 1 without validating if there is none.", "quantifier": "all names, all caches", "why_tests_cant": "all contents of the caches", "anchors": ["punx/main.py:func_validate", "punx/validate.py:Data_File_Validator.__init__"]}
{"id": "C77", "title": "Default file set of punx validate", "statement": "punx validate without a file set name validates with the file set that has the newest date.", "quantifier": "all caches", "why_tests_cant": "all dates and orders of file sets", "anchors": ["punx/main.py:parse_command_line_arguments", "punx/main.py:func_validate", "punx/cache_manager.py:CacheManager.default_file_set"]}
{"id": "C78", "title": "punx validate reports a missing or unreadable file", "statement": "punx validate on a file that does not exist or is not HDF5 exits with code 1 and writes no report.", "quantifier": "all file names, all worlds", "why_tests_cant": "all contents of the file system", "anchors": ["punx/main.py:func_validate", "punx/validate.py:Data_File_Validator.validate"]}
{"id": "C79", "title": "punx install of several file sets", "statement": "punx install A B ... without --update leaves every existing file set directory as it is at every crash point, and when it returns every named file set is present.", "quantifier": "all lists of names, all caches, all crash points", "why_tests_cant": "crash points during any of the downloads", "anchors": ["punx/main.py:func_install", "punx/cache_manager.py:download_file_set"]}
{"id": "C80", "title": "The tree shows single values", "statement": "In report() the line of a dataset that holds a single value shows that value.", "quantifier": "all files, all values", "why_tests_cant": "all types and shapes", "anchors": ["punx/h5tree.py:Hdf5TreeView._renderDataset", "punx/h5tree.py:Hdf5TreeView._renderArray"]}
{"id": "C81", "title": "The tree of every file can be shown", "statement": "Hdf5TreeView(file).report() returns a list of lines for every HDF5 file.", "quantifier": "all HDF5 files", "why_tests_cant": "link structures of any shape, depth and content", "anchors": ["punx/h5tree.py:Hdf5TreeView._renderGroup", "punx/h5tree.py:Hdf5TreeView.report"]}
{"id": "C82", "title": "punx demonstrate works on a new installation", "statement": "punx demonstrate validates the data file that comes with punx, reports all findings and shows its tree, with the file sets that come with punx.", "quantifier": "all caches", "why_tests_cant": "depends on what the caches hold", "anchors": ["punx/main.py:func_demo", "punx/cache_manager.py:GITHUB_NXDL_BRANCH"]}
{"id": "C83", "title": "punx configuration", "statement": "punx configuration lists every available file set, oldest first, and names the newest as the default.", "quantifier": "all caches", "why_tests_cant": "all numbers and orders of file sets", "anchors": ["punx/main.py:func_configuration", "punx/cache_manager.py:CacheManager.table_of_caches"]}
{"id": "C84", "title": "punx install names the new default", "statement": "After installing, punx install lists the file sets as they are then and names the newest of them as the default.", "quantifier": "all lists of names, all caches, all archives", "why_tests_cant": "depends on the dates of the downloads", "anchors": ["punx/main.py:func_install"]}
{"id": "C85", "title": "punx tree of an NXDL file", "statement": "punx tree on an NXDL file shows the result of the style sheet for the category of the definition, taken from the newest file set.", "quantifier": "all NXDL files, all caches", "why_tests_cant": "all documents and caches", "anchors": ["punx/main.py:func_tree", "punx/nxdltree.py:NxdlTreeView.report"]}
{"id": "C86", "title": "A completed validation can be reported", "statement": "After validate() has returned normally, print_report() succeeds for every choice of statuses.", "quantifier": "all files, all file sets, all choices of statuses", "why_tests_cant": "some findings could lack an address, which would make sorting fail", "anchors": ["punx/validate.py:Data_File_Validator.print_report"]}
{"id": "C87", "title": "Patterns are inherited through chains of bases", "statement": "A schema type called valid... has its own patterns and those of all the types it is based on, directly or through others, whatever the order in which nxdl.xsd declares them.", "quantifier": "all schemas, all orders of declarations, chains of any length", "why_tests_cant": "all orders and lengths", "anchors": ["punx/schema_manager.py:SchemaManager.parse_nxdl_patterns"]}
{"id": "C88", "title": "The unit categories of a schema are found", "statement": "SchemaManager(path).nxdl.units lists the unit categories that nxdlTypes.xsd declares as anyUnitsAttr.", "quantifier": "all schemas", "why_tests_cant": "depends on the form of the declaration", "anchors": ["punx/schema_manager.py:SchemaManager.parse_nxdlTypes", "punx/schema_manager.py:Schema_nxdlType"]}
{"id": "C89", "title": "NXDL defaults do not depend on the layout of nxdl.xsd", "statement": "NXDL_Summary(nxdl.xsd) gives the same result for two schemas that differ only in how the text is broken into lines.", "quantifier": "all schemas, all layouts", "why_tests_cant": "all ways to break a text into lines", "anchors": ["punx/nxdl_schema.py:NXDL_item_catalog", "punx/nxdl_schema.py:NXDL_schema__complexType._parse_attribute"]}
{"id": "C90", "title": "NXDL defaults are those the schema declares", "statement": "The attributes that NXDL_Summary(nxdl.xsd) has for definition, group, field, link, attribute and doc are exactly those that the type of the item declares in the schema: directly, in an attribute group, in an extension or through the type it extends. Each is required if the schema says so, with its default, its patterns and its maximum length.", "quantifier": "all schemas in good order, extensions of any depth", "why_tests_cant": "all schemas: any number of types, any depth of extension and of content", "anchors": ["punx/nxdl_schema.py:NXDL_Summary", "punx/nxdl_schema.py:NXDL_item_catalog", "punx/nxdl_schema.py:NXDL_schema__complexType"]}
{"id": "C91", "title": "NXDL simple types keep their rules", "statement": "A simple type in NXDL_Summary(nxdl.xsd).simpleType has its own patterns, those of all the types it is based on, and its maximum length, whatever the order of the declarations.", "quantifier": "all schemas, all orders, chains of any length", "why_tests_cant": "all orders and lengths", "anchors": ["punx/nxdl_schema.py:NXDL_item_catalog._parse_nxdl_simpleType_nodes"]}
{"id": "C92", "title": "The order of declarations in nxdl.xsd does not matter", "statement": "If NXDL_Summary accepts a schema, it accepts the same declarations in any other order.", "quantifier": "all schemas, all orders", "why_tests_cant": "all permutations", "anchors": ["punx/nxdl_schema.py:NXDL_schema__complexType._parse_extension", "punx/nxdl_schema.py:NXDL_item_catalog._parse_nxdl_complexType_nodes"]}
{"id": "C93", "title": "A schema with endless content is not read", "statement": "If the content of the definition never ends other than by a reference to groupGroup, NXDL_Summary(nxdl.xsd) raises an exception, whatever the limit of recursion; no summary is made.", "quantifier": "all schemas, all limits of recursion", "why_tests_cant": "all limits, all cycles of any length", "anchors": ["punx/nxdl_schema.py:NXDL_item_catalog._init_definition_element"]}
{"id": "C94", "title": "Every file set that comes with punx offers the defaults the NXDL loader uses", "statement": "For each file set that comes with punx, NXDL_Summary(nxdl.xsd) succeeds and has the attribute optional of attributes, minOccurs of fields and groups, the dim elements in the dimensions of fields, and the required name of a definition.", "quantifier": "the file sets that come with punx", "why_tests_cant": "rests on the whole of each schema", "anchors": ["punx/nxdl_schema.py:NXDL_Summary", "punx/cache"]}
{"id": "C95", "title": "The value of @NX_class is judged by the kind of definition", "statement": "When validate() returns, every @NX_class attribute with an address has text as its value and exactly one 'attribute value' finding: OK if the text names a base class or a contributed definition without an entry/definition field, ERROR if it names any other definition or none of the file set.", "quantifier": "all files, all file sets, all @NX_class attributes", "why_tests_cant": "all combinations of file set and value", "anchors": ["punx/validations/attribute.py:nxclass_handler", "punx/validations/attribute.py:isBaseClassNXDL"]}
{"id": "C96", "title": "@signal of a field", "statement": "When validate() returns, the one 'attribute value' finding of a field's @signal is OK if the value, as a number or as text, is 1, and NOTE otherwise.", "quantifier": "all files, all values", "why_tests_cant": "all values of all types", "anchors": ["punx/validations/attribute.py:signal_handler"]}
{"id": "C97", "title": "Values of other attributes are not judged", "statement": "When validate() returns, an attribute other than NX_class, target, signal and axes has exactly one 'attribute value' finding and it is TODO, whatever the value is.", "quantifier": "all files, all attributes", "why_tests_cant": "all names and values", "anchors": ["punx/validations/attribute.py:verify", "punx/validations/attribute.py:generic_handler"]}
{"id": "C98", "title": "Groups are compared with the NXDL file of their class", "statement": "With a validator made for a file set, when validate() returns, every group whose class has an NXDL file in the file set (the last of base_classes, applications, contributed_definitions that has one) has exactly one finding for each field element and each group element of this file, OK if the group has an item of this name and OPTIONAL if not; every member has a finding that says whether it is among them; its attributes are compared with the attribute elements. A group whose class has no NXDL file gets an ERROR.", "quantifier": "all file set directories, all data files, all groups", "why_tests_cant": "all pairs of an NXDL file and a data file", "anchors": ["punx/nxdl_manager.py:NXDL_Manager", "punx/validate.py:Data_File_Validator.validate", "punx/validations/base_class_items_in_hdf5_group.py", "punx/validations/hdf5_group_items_in_base_class.py"]}
{"id": "C99", "title": "An application definition's optional fields may be missing", "statement": "When a file follows an application definition, a missing field that the definition's NXDL file marks with minOccurs='0' is not reported as an error.", "quantifier": "all application definitions, all data files", "why_tests_cant": "all definitions and files", "anchors": ["punx/validations/application_definition.py:verify", "punx/nxdl_manager.py:NXDL__base.parse_fields"]}
{"id": "C100", "title": "An application definition's required fields must be there at any depth", "statement": "When a file follows an application definition, every field that the definition's NXDL file requires, directly in the entry or in a group inside it, and that the file does not have, is reported as an error.", "quantifier": "all application definitions, groups nested to any depth, all data files", "why_tests_cant": "any depth of nesting", "anchors": ["punx/validations/application_definition.py:verify"]}
{"id": "C101", "title": "Enumeration findings say whether the field is required", "statement": "A finding about the value of an enumerated field of an application definition says '(required)' if the NXDL file requires the field and '(optional)' if it does not.", "quantifier": "all file sets, all application definitions, all data files", "why_tests_cant": "all combinations of definitions in a file set", "anchors": ["punx/validations/application_definition.py:verify", "punx/nxdl_manager.py:NXDL__base.parse_fields"]}
{"id": "C102", "title": "Names are judged by the patterns of the file set's nxdl.xsd", "statement": "With a validator made for a file set whose nxdl.xsd declares each type after its base, when validate() returns, the validItemName finding of a group or field is decided by the patterns that this nxdl.xsd declares for validItemName and the types it is based on, and that of an @NX_class attribute by those for validNXClassName.", "quantifier": "all schemas in this order, chains of any length, all data files", "why_tests_cant": "all schemas and all names", "anchors": ["punx/schema_manager.py:SchemaManager.parse_nxdl_patterns", "punx/validations/item_name.py"]}
{"id": "C103", "title": "Subgroups are recognized by their class", "statement": "If the NXDL file of a group's class has a group element of class X without a name, any subgroup of class X is reported as defined by the class.", "quantifier": "all file sets, all data files, all names of subgroups", "why_tests_cant": "all names", "anchors": ["punx/validations/hdf5_group_items_in_base_class.py", "punx/nxdl_manager.py:NXDL__group.parse_nxdl_xml"]}
{"id": "C104", "title": "What the tree view shows of each member of a group", "statement": "When Hdf5TreeView(file).report() returns, the block of lines of each group begins with its name and class and its attributes, followed by the file and path of the external link if it was reached through one. Each member has exactly one line in it: a soft link 'name: --> path'; an external link to a missing file 'name: missing external file' with file and path; an object whose target attribute names another address 'name --> target' without attributes; any other dataset its value followed by its attributes; any other group its own block. Without show_attributes there are no lines of attributes.", "quantifier": "all HDF5 files with distinct member names per group, all depths, any number of members", "why_tests_cant": "all files and all combinations of links and targets", "anchors": ["punx/h5tree.py:Hdf5TreeView.report", "punx/h5tree.py:Hdf5TreeView._renderGroup", "punx/h5tree.py:Hdf5TreeView._renderDataset", "punx/h5tree.py:Hdf5TreeView._renderLinkedObject", "punx/utils.py:isNeXusLink"]}
{"id": "C105", "title": "punx tree prints the report with the options of the command line", "statement": "For an HDF5 file, punx tree prints exactly the lines of the tree view's report, made with the number of array items and the choice about attributes given on the command line; without attributes it prints the same lines except those of attributes.", "quantifier": "all HDF5 files, all options", "why_tests_cant": "all files and options", "anchors": ["punx/main.py:func_tree", "punx/h5tree.py:Hdf5TreeView.report"]}
{"id": "C106", "title": "Which statuses each test can give", "statement": "Every finding recorded by validate(), whether it returns or raises, is of one of the tests of a fixed table (by name) and has one of the statuses listed there for this test: for instance OPTIONAL only for 'NXDL field in data file' and 'NXDL group in data file', WARN only for 'validItemName' and 'NeXus default plot v2, @signal!=1'. No finding has status UNUSED or COMMENT.", "quantifier": "all HDF5 files, all NXDL definitions, all runs, also those that raise", "why_tests_cant": "all inputs and call sites", "anchors": ["punx/validate.py:Data_File_Validator.record_finding", "punx/validations/item_name.py", "punx/validations/attribute.py", "punx/validations/default_plot.py", "punx/validations/hdf5_group_items_in_base_class.py", "punx/validations/application_definition.py"]}
{"id": "C107", "title": "The dimensions of NXDL fields are loaded", "statement": "After loading a file set, every field element of an NXDL file, at any depth, has a loaded field in the same place; if the element has one dimensions element whose dim elements have different indices, the field's dimensions are the rank and, in order, the index, value, ref, refindex and incr of each dim element.", "quantifier": "all file sets, all NXDL files, fields at any depth, any number of dim elements", "why_tests_cant": "any depth and any number", "anchors": ["punx/nxdl_manager.py:NXDL__dim", "punx/nxdl_manager.py:NXDL__dimensions", "punx/nxdl_manager.py:NXDL__field.parse_nxdl_xml"]}
{"id": "C108", "title": "The options of punx validate and punx tree may stand anywhere", "statement": "After the subcommand (or an abbreviation of it) the file name and the options may come in any order, each option written in any of its ways (short, long, unambiguous beginning of the long name, value in the next word, after '=' or joined to the short name); the last value of an option counts, the defaults of tree are to show attributes and 5 array items. Without exactly one file name, with an unknown option, or with something that is no number for -m, the program exits with 2 and does nothing.", "quantifier": "all command lines built from the options and file names, of any length", "why_tests_cant": "any number of words in any order", "anchors": ["punx/main.py:parse_command_line_arguments", "punx/main.py:main", "punx/main.py:MyArgumentParser.parse_args"]}
{"id": "C109", "title": "Names and --update of punx install may come in any order", "statement": "punx install takes any number of file set names and --update in any order and installs the named file sets in the order given (main if none is named), replacing existing ones if and only if --update is there.", "quantifier": "all command lines built from names and --update, of any length", "why_tests_cant": "any number of words in any order", "anchors": ["punx/main.py:parse_command_line_arguments", "punx/main.py:func_install", "punx/main.py:main"]}
{"id": "C110", "title": "A line that is no command does nothing", "statement": "Unless the command line is a complete command the program does not validate, print a report or change the cache directory; it exits with 1 if no subcommand is given, with 0 for help and version, and with 2 otherwise.", "quantifier": "all command lines", "why_tests_cant": "all sequences of words", "anchors": ["punx/main.py:main", "punx/main.py:parse_command_line_arguments"]}
{"id": "C111", "title": "Commands that do not need the caches work with damaged caches", "statement": "punx tree of an HDF5 file, and punx install --update of a damaged file set, work even if an installed file set is damaged.", "quantifier": "all states of the caches, all command lines", "why_tests_cant": "all states of the disk", "anchors": ["punx/main.py:parse_command_line_arguments", "punx/cache_manager.py:CacheManager.__init__"]}
{"id": "C112", "title": "An installed file set is on offer with its name, hash, address and date", "statement": "After a successful installation the file set is listed under its name, with the name as its ref, the comment of the archive as its hash, the address it was loaded from, and as its date the latest date of its definition files, as YYYY-MM-DD HH:MM:SS. An archive whose comment is not UTF-8 or whose latest date is no calendar date is not installed.", "quantifier": "all archives, names, clocks and states of the cache directory", "why_tests_cant": "names and comments may contain any characters, all of which must survive writing and reading", "anchors": ["punx/cache_manager.py:Base_Cache.all_file_sets", "punx/cache_manager.py:download_file_set", "punx/cache_manager.py:NXDL_File_Set.read_info_file"]}
{"id": "C113", "title": "A partly written info file is never taken for a whole one", "statement": "The info file of a file set is read back as it was written if it is whole; every proper beginning of it, however long, is refused with ValueError.", "quantifier": "all info files and all points where writing may stop", "why_tests_cant": "every crash point of every text", "anchors": ["punx/cache_manager.py:write_json_file", "punx/cache_manager.py:read_json_file"]}
{"id": "C114", "title": "The default file set is the one with the latest date", "statement": "Comparing the dates in info files as texts gives the order of the dates, so no file set has a later date than the one used by default.", "quantifier": "all dates, all collections of file sets", "why_tests_cant": "all pairs of dates", "anchors": ["punx/cache_manager.py:CacheManager.select_NXDL_file_set", "punx/cache_manager.py:write_json_file"]}
{"id": "C115", "title": "A file set that was just installed is what validation uses", "statement": "After punx install NAME has succeeded with an archive as GitHub makes them (NAME being new, or --update given), punx validate -f NAME FILE compares the file with the NXDL files of that archive: every group of a class that the archive defines is judged by the elements of the archive's NXDL file, every class that it does not define is reported as unknown. If the archive is newer than every other file set, punx validate FILE does so as well.", "quantifier": "all archives, caches, command lines of both commands, NXDL files and data files", "why_tests_cant": "it relates two runs of the program through the files on the disk, for all archives and data files", "anchors": ["punx/main.py:func_install", "punx/main.py:func_validate", "punx/cache_manager.py:CacheManager.select_NXDL_file_set", "punx/nxdl_manager.py:NXDL_Manager"]}
{"id": "C116", "title": "Installing a file set does not change validation with another one", "statement": "Whatever the network delivers and whenever punx install is interrupted: if the caches can still be read, punx validate -f OTHER FILE prints and returns exactly what it would have before, for every OTHER that is neither installed by the command nor the top directory of an archive. After an installation that succeeds the caches can be read.", "quantifier": "all command lines, network answers, crash points, caches and data files", "why_tests_cant": "all interleavings of a crash with the writes, and all pairs of file sets", "anchors": ["punx/main.py:func_install", "punx/main.py:func_validate", "punx/cache_manager.py:download_file_set"]}
{"id": "C117", "title": "NXDL files are checked against the schema of their own file set", "statement": "A validator is only made if every NXDL file of its file set is valid with the nxdl.xsd of this file set; a file set whose NXDL files are all valid with it is not refused as invalid.", "quantifier": "all file sets, given by name, by object or by default, and all states of the process", "why_tests_cant": "depends on which file set was selected before, for all pairs of file sets", "anchors": ["punx/nxdl_manager.py:validate_xml_tree", "punx/nxdl_manager.py:NXDL_Manager", "punx/schema_manager.py:get_default_schema_manager"]}
{"id": "C118", "title": "Installations of different file sets at the same time do not disturb each other", "statement": "Several punx install run at the same time, each for its own file sets (no name and no top directory of an archive in common). However their steps are interleaved, and wherever some of them are stopped: each ends with the result, and leaves the directories, that it has when it runs alone; at every moment its directories are as at some moment of such a run; all other directories stay as they are. When all have ended, every directory is as if they had run one after the other. One that ends without error has left a complete file set.", "quantifier": "all numbers of processes, schedules, crash points, command lines, archives and cache directories", "why_tests_cant": "the number of schedules of a few processes is astronomical", "anchors": ["punx/main.py:func_install", "punx/cache_manager.py:CacheManager.download_file_set"]}
{"id": "C119", "title": "Two installations of one file set at the same time leave it complete if both succeed", "statement": "If two punx install of the same file set run at the same time and both end without error, the file set is complete afterwards. If only one ends without error, it is as well.", "quantifier": "all schedules, archives and cache directories", "why_tests_cant": "the number of schedules is astronomical", "anchors": ["punx/main.py:func_install", "punx/cache_manager.py:CacheManager.download_file_set"]}
{"id": "C120", "title": "A summary of chosen statuses counts the findings of these statuses", "statement": "Data_File_Validator.finding_summary(statuses) returns, for each of the given statuses, how many findings have it.", "quantifier": "all lists of findings and of statuses", "why_tests_cant": "the unit tests only call it without an argument, all lists of findings matter", "anchors": ["punx/validate.py:finding_summary"]}
{"id": "C121", "title": "An installation with an ordinary archive succeeds", "statement": "If the archive has a top directory with two or more definition files, calendar dates and a UTF-8 comment, and nothing in the cache directory is in the way, install ends without an error and leaves a complete file set; with fewer than two definition files it fails.", "quantifier": "all archives and all cache directories", "why_tests_cant": "any number of files at any depth, over any old contents of the cache directory", "anchors": ["punx/cache_manager.py:download_file_set", "punx/cache_manager.py:is_extractable"]}
{"id": "C122", "title": "After interrupted installations another one succeeds", "statement": "After any number of installations of a file set, each interrupted at any point, another one with update succeeds and leaves the complete file set.", "quantifier": "all archives, cache directories, numbers of interrupted runs and crash points", "why_tests_cant": "crash points between and within file writes cannot be enumerated by tests", "anchors": ["punx/cache_manager.py:download_file_set", "punx/cache_manager.py:is_extractable"]}
{"id": "C123", "title": "File sets can be listed while others are installed", "statement": "While other processes install file sets, listing the file sets of a cache (as every punx command does at its start) succeeds, and shows the file sets that are not being installed as they are.", "quantifier": "all schedules of any number of installing processes and one that lists, all cache directories", "why_tests_cant": "every interleaving of file system operations matters", "anchors": ["punx/cache_manager.py:all_file_sets", "punx/cache_manager.py:read_info_file", "punx/cache_manager.py:download_file_set"]}
{"id": "C124", "title": "Installations and listings end, whatever other processes do", "statement": "An installation, or a listing of the file sets, that gets turns again and again ends, whatever other installations do at the same time, also if they are stopped or work on the same file set. When all have ended the cache directory does not change any more. If the file sets are different, no installation needs more steps than when it is alone.", "quantifier": "all endless schedules of any number of installing processes and one that lists, all cache directories, all archives", "why_tests_cant": "liveness under every fair interleaving is not a finite test", "anchors": ["punx/cache_manager.py:download_file_set", "punx/cache_manager.py:all_file_sets", "punx/main.py:func_install"]}
{"id": "C125", "title": "A copy of a file gives the same findings", "statement": "What validate() finds in a file, and the exception it raises if any, depends on nothing but the content of the file and of the files that its external links lead to: a copy under another name, in another directory or on another machine gives the same findings in the same order, the same addresses and class paths, and other files may change. The same is true of isNeXusFile and, but for the name of the file in the first line, of the tree.", "quantifier": "all pairs of file systems, all files in them with any links, file sets, validators and recursion limits", "why_tests_cant": "it relates two runs, for every file and everything else in the file systems", "anchors": ["punx/validate.py:Data_File_Validator.validate", "punx/utils.py:isNeXusFile", "punx/h5tree.py:Hdf5TreeView.report"]}
{"id": "C126", "title": "Validating takes effort in proportion to the size of the file", "statement": "The number of items that a validation looks at is bounded by the number of objects and attributes in the file, however they are linked, so that a small file is validated in little time and memory.", "quantifier": "all files with hard and soft links, file sets, validators and recursion limits", "why_tests_cant": "for small examples the number of items is small anyway; the bound is about every file, and fails for a family of files", "anchors": ["punx/validate.py:Data_File_Validator.build_address_catalog", "punx/validate.py:Data_File_Validator.validate"]}
{"id": "C127", "title": "The text of a file set gives the number of its classes", "statement": "str() of a loaded file set names every category that has classes, once and in alphabetical order, with the number of classes in it; the numbers add up to the number of classes loaded. Two file sets have the same text exactly if they have the same numbers of classes in all categories.", "quantifier": "all sets of classes, in any order, with any categories", "why_tests_cant": "it is about every number of classes in every category", "anchors": ["punx/nxdl_manager.py:NXDL_Manager.__str__"]}
{"id": "C128", "title": "The texts of findings tell them apart", "statement": "str() of a finding shows its address, test, status and comment, and findings that differ have different texts. Every item of a validated file has a text, with its name, class path and type, which is that of a link exactly if its @target is neither empty nor its own address.", "quantifier": "all findings with any texts; all files, items and attribute values", "why_tests_cant": "it is about every pair of findings, and every content of a file", "anchors": ["punx/finding.py:Finding.__str__", "punx/validate.py:ValidationItem.__str__", "punx/validate.py:ValidationItem.identify_object_type"]}
{"id": "C129", "title": "A file that meets these conditions is validated to the end", "statement": "validate() returns without an exception, after all four steps (names and attributes, groups, application definitions, default plot), for every HDF5 file that meets these conditions: hard and soft links only, all leading somewhere and not in circles, nested less deeply than the recursion limit; no '@' in names; NX_class, target, and default and signal of groups are texts, the signal of NXdata the name of a member, axes names of members, the signal of fields without digits that are no number; class names without '/' or '@'; a definition field names a definition whose fields can be looked up; the file set has patterns that compile and definitions without @target, with numbers for minOccurs.", "quantifier": "all files of any size and content that meet the conditions, all file sets, all states of the validator", "why_tests_cant": "it says that no exception comes from any of the checks, whatever the file", "anchors": ["punx/validate.py:Data_File_Validator.validate", "punx/validations/default_plot.py:verify", "punx/validations/attribute.py:verify", "punx/validations/application_definition.py:verify", "punx/validations/hdf5_group_items_in_base_class.py:verify"]}
{"id": "C130", "title": "A missing default plot is an error exactly when data are asked for or there is no entry", "statement": "For a file in which no default plot is found, the one finding about the default plot is a note if the file has an NXentry group and the NXDL file of NXentry asks for no data group (no minOccurs, or not a positive one, at the first group element called data); it is an error if a positive minOccurs is given, or if the file has no NXentry group.", "quantifier": "all files and file sets for which the validation ends, all NXDL files of NXentry with a data group", "why_tests_cant": "the verdict depends on a number that another check leaves behind while it walks through all groups of the file", "anchors": ["punx/validations/default_plot.py:verify", "punx/validations/hdf5_group_items_in_base_class.py:verify", "punx/nxdl_manager.py:NXDL__group"]}
{"id": "C131", "title": "The lines of a tree view have the documented form", "statement": "Every line of a tree view is two blanks per level and then the form that belongs to what it shows: name and class of a group, @name = value of an attribute, name: --> path of a soft link, name --> address of a NeXus link, name: missing external file, or name:type[shape] = value of a dataset. For each kind of dataset (text, lists of text, numbers, arrays of any rank, at any number of items to show) type, shape and value are the ones documented, and the form leaves no choice.", "quantifier": "all files, groups, links and datasets, all numbers of items to show", "why_tests_cant": "types, ranks, lengths and nesting are unbounded", "anchors": ["punx/h5tree.py:Hdf5TreeView.report", "punx/h5tree.py:Hdf5TreeView._renderDataset", "punx/h5tree.py:Hdf5TreeView._renderDsType", "punx/h5tree.py:Hdf5TreeView._renderDsShape"]}
{"id": "C132", "title": "The order of members and attributes in a file does not matter", "statement": "Validating two files that differ only in the order in which the members of groups and the attributes of objects are listed gives the same catalogue of addresses, objects and class paths and the same findings: each finding is recorded as many times, with the same address, test, status and comment.", "quantifier": "all files and all reorderings of the members and attributes of all their objects", "why_tests_cant": "every finding of every test of every file is concerned, under every reordering; tests compare a few files in the one order the library gives", "anchors": ["punx/validate.py:Data_File_Validator.validate", "punx/validate.py:Data_File_Validator.build_address_catalog", "punx/validations/attribute.py:verify", "punx/validations/item_name.py:verify", "punx/validate.py:Data_File_Validator.validate_group", "punx/validations/application_definition.py:verify", "punx/validations/default_plot.py:verify"]}
{"id": "C133", "title": "The data types and unit categories are those the file set declares", "statement": "The schema manager of a file set holds exactly the data types that the set's nxdlTypes.xsd declares by name (the auxiliary anyUnitsAttr and primitiveType left out), each with the base of its restriction, the members of its union and its values as its last declaration says; its unit categories are the values of anyUnitsAttr. What was loaded before makes no difference.", "quantifier": "all schema files and all histories of loads", "why_tests_cant": "every declaration of every schema file is concerned; tests look at a few types of the shipped file sets", "anchors": ["punx/schema_manager.py:SchemaManager.parse_nxdlTypes", "punx/schema_manager.py:Schema_nxdlType"]}
{"id": "C134", "title": "The attributes and children of an NXDL element are those the schema declares", "statement": "For each element of the NXDL language, the schema manager reports the attributes and child elements that nxdl.xsd declares for it, directly, by its type, by the base of its type and by the groups and attribute groups referred to; each attribute with its name, type, default, enumeration and patterns, and as required only when the schema says so.", "quantifier": "all schema files and all histories of loads", "why_tests_cant": "every declaration at every depth of every schema file is concerned; tests look at a few elements of the shipped file sets", "anchors": ["punx/schema_manager.py:Schema_Root", "punx/schema_manager.py:Schema_Attribute", "punx/schema_manager.py:Schema_Element", "punx/schema_manager.py:Schema_Type", "punx/schema_manager.py:_Mixin.get_named_node"]}
{"id": "C135", "title": "An info file is read as what it says, or refused", "statement": "Whatever the info file of a file set holds, it is read if and only if it is the JSON text of an object; reference, commit, origin and date are then the texts of the last pairs with their keys, and unknown where there is no such pair or it is null. Any other text is an error, never a guess: a ValueError if it is no JSON, an AttributeError if it is JSON but no object.", "quantifier": "all texts an info file may hold", "why_tests_cant": "every text is concerned, with any nesting, escapes and repeated keys; tests write a few info files and read them back", "anchors": ["punx/cache_manager.py:read_json_file", "punx/cache_manager.py:NXDL_File_Set"]}
{"id": "C136", "title": "A pattern of the schema means what its text says", "statement": "Whatever pattern the schema of a file set gives for names, of the kind NXDL uses (characters, sets, ranges, groups, alternatives, repetitions), it is compiled if and only if it is well formed, and a name matches if and only if it has the form the text describes; of several alternatives at the top only the last has to reach the end of the name, or the newline at its end. No other text is matched with.", "quantifier": "all pattern texts and all names", "why_tests_cant": "patterns nest without limit and names are of any length; tests match a few names against the shipped patterns", "anchors": ["punx/validations/item_name.py:validItemName_match_key", "punx/validations/item_name.py:handle_NX_class"]}
{"id": "C137", "title": "Validation judges the structure of a file, not its data", "statement": "Two files that are the same but for the data in their fields give the very same findings, items and outcome, if the fields named definition and the fields for which a definition lists allowed values keep their values. If a file has no application definition, no data matter at all.", "quantifier": "all pairs of files that differ in data only, of any size and with any links, all file sets", "why_tests_cant": "it compares the runs on all pairs of files; tests validate a few files, one by one", "anchors": ["punx/validate.py:Data_File_Validator.validate", "punx/validations/application_definition.py:verify", "punx/utils.py:isNeXusFile"]}
{"id": "C138", "title": "After the word -- any text is a name", "statement": "punx validate, punx tree and punx install take every word after the first -- for a name, also one that begins with a dash. Names may stand before the --, too, if no option comes between them and it. In every other case, and for a subcommand without names, nothing is done and the exit code is 2.", "quantifier": "all command lines with the word --, all words after it, all orders of the options before it", "why_tests_cant": "the words are arbitrary texts and the options may stand in any order; tests try a few lines", "anchors": ["punx/main.py:main", "punx/main.py:MyArgumentParser.parse_args", "punx/main.py:func_validate"]}
{"id": "C139", "title": "The exit code of punx validate tells whether the file has errors", "statement": "punx validate ends with exit code 0 exactly if the file was validated and no finding is an ERROR.", "quantifier": "all files, file sets, caches and command lines of punx validate", "why_tests_cant": "it is about every file there is; scripts rely on the exit code, tests look at the report", "anchors": ["punx/main.py:func_validate", "punx/main.py:main", "punx/validate.py:Data_File_Validator.print_report"]}
{"id": "C140", "title": "A validation uses only the definitions of the classes the file names", "statement": "Two file sets that hold the same definitions of NXroot, NXentry and the classes a file names (by NX_class attributes, or by fields named definition) give the same findings, items and outcome for this file, whatever other classes they hold, lack or define differently.", "quantifier": "all files with the files they are linked to, all pairs of sets of class definitions, all validators, used before or not", "why_tests_cant": "tests validate a few files with the file sets that come with punx; the claim is about all definitions a file does not mention", "anchors": ["punx/validate.py:Data_File_Validator.validate", "punx/validate.py:Data_File_Validator.validate_group", "punx/validations/attribute.py:nxclass_handler", "punx/validations/application_definition.py:verify"]}
{"id": "C141", "title": "validate() fails only with the exceptions a caller can expect", "statement": "With a file set whose patterns are regular expressions, validate() raises FileNotFound only if there is no such file, HDF5_Open_Error only if the file is not HDF5, and for an HDF5 file no exception other than KeyError, TypeError, AttributeError, ValueError, IndexError, RecursionError, RuntimeError and UnicodeDecodeError; a target attribute of the root group that is a number gives TypeError.", "quantifier": "all files, with whatever links, attributes and values, all sets of class definitions, validators used before or not, all recursion limits", "why_tests_cant": "tests show the exceptions of a few broken files; the claim is that nothing else can come out of any file", "anchors": ["punx/validate.py:Data_File_Validator.validate", "punx/validate.py:ValidationItem", "punx/utils.py:isNeXusLink"]}
{"id": "C142", "title": "print_tree shows the whole summary of nxdl.xsd", "statement": "print_tree(summary.definition) prints one line for each object of the summary (attributes, components and groups), indented by its level, attributes before groups and each in alphabetical order, with the values of the object that are set; the count it returns is the number of lines and the numbers by kind are those of the lines; it ends for every summary that could be made.", "quantifier": "all schema files of which a summary can be made, all objects of the summary, all limits of recursion", "why_tests_cant": "the test of the project checks three numbers for one schema file", "anchors": ["punx/nxdl_schema.py:print_tree", "punx/nxdl_schema.py:render_class_str", "punx/nxdl_schema.py:NXDL_Summary.build_tree"]}
{"id": "C143", "title": "Attributes a lab adds for itself do not change the verdict", "statement": "Two files that differ only in the values of attributes that NeXus gives no meaning to yield the same findings in the same order, the same outcome and the same catalogue of items; these are the attributes other than NX_class, target, signal, axes and default, and, on groups, other than the ones the NXDL definitions declare; the values only have to be readable.", "quantifier": "all pairs of file systems that differ only in such values, all sets of NXDL definitions, all states of the validator", "why_tests_cant": "a test compares a few files; no test can show that no value of any other attribute is looked at", "anchors": ["punx/validate.py:Data_File_Validator.validate", "punx/validations/attribute.py:verify", "punx/validations/hdf5_group_items_in_base_class.py:verify", "punx/validations/default_plot.py:verify"]}
{"id": "C144", "title": "The tree of a file does not depend on the order of its members", "statement": "The report of the tree view of two files that differ only in the order in which members of groups and attributes of objects are listed is the same, or fails the same way, when attributes are not shown; when they are shown the two reports differ only in the order of the attribute lines of each item. Both are announced as NeXus data files or neither is.", "quantifier": "all pairs of file systems that differ only in these orders, with any links, all recursion limits, all numbers of array items shown", "why_tests_cant": "a test compares a few files; the order in which HDF5 lists members depends on how the file was written", "anchors": ["punx/h5tree.py:Hdf5TreeView.report", "punx/h5tree.py:Hdf5TreeView._renderGroup", "punx/h5tree.py:Hdf5TreeView._renderAttributes", "punx/utils.py:isNeXusFile"]}
{"id": "C145", "title": "Without attributes the tree depends only on names, links, classes and targets", "statement": "When attributes are not shown, the report of the tree view is the same, or fails the same way, for any two files with the same names and links whose objects have the same NX_class and the same target attribute and whose datasets show the same; no other attribute matters, not even one that cannot be decoded. Both files are announced as NeXus data files or neither is.", "quantifier": "all pairs of file systems, all recursion limits, all numbers of array items shown", "why_tests_cant": "a test compares a few files; no test shows that no other attribute is looked at", "anchors": ["punx/h5tree.py:Hdf5TreeView.report", "punx/h5tree.py:Hdf5TreeView._renderGroup", "punx/h5tree.py:Hdf5TreeView._renderDataset", "punx/utils.py:isNeXusFile"]}
{"id": "C146", "title": "A file set can be loaded exactly if its NXDL files are proper", "statement": "With a schema that has the defaults the loader looks for, a file set can be loaded exactly if its directory and the three category directories are there and every NXDL file in them can be parsed, is accepted by the schema processor, and at every depth has a name on every field, link and attribute, a type on every group and no attribute twice on one element. If loading fails, the kind of error tells which of these is the cause.", "quantifier": "all directory trees, all XML contents, all verdicts of the schema processor, all defaults of the schema", "why_tests_cant": "a test loads the shipped file sets; no test covers every malformed file at every depth", "anchors": ["punx/nxdl_manager.py:NXDL_Manager.__init__", "punx/nxdl_manager.py:get_NXDL_file_list", "punx/nxdl_manager.py:NXDL__definition.parse_nxdl_xml", "punx/nxdl_manager.py:NXDL__group.parse_nxdl_xml", "punx/nxdl_manager.py:NXDL__base.parse_attributes"]}
{"id": "C147", "title": "Only the NXDL files of a file set matter, not their order or other files", "statement": "If two file set directories have the same NXDL files with the same contents, loading gives the same definitions and defaults or fails the same way, whatever the order in which the directories list their names and whatever other files lie beside them; a validator made with one uses the same definitions and name patterns as one made with the other, provided that the two schema files are the same.", "quantifier": "all pairs of directory trees, all contents, all schemas, all verdicts of the schema processor", "why_tests_cant": "a test runs on one file system with one order of listing", "anchors": ["punx/nxdl_manager.py:get_NXDL_file_list", "punx/nxdl_manager.py:NXDL_Manager.__init__", "punx/validate.py:Data_File_Validator.__init__"]}
{"id": "C148", "title": "The number of array items shown changes only what is shown of arrays", "statement": "Reports of the same file with different numbers of array items have the same lines in the same order, apart from what fields show behind the equals sign and the lines that hold arrays of several dimensions. If no array is longer than either number, both larger than 2, the reports are the same. The number of items never decides whether a report fails.", "quantifier": "all files, all pairs of numbers of items, attributes shown or not, all recursion limits", "why_tests_cant": "a test compares one or two numbers of items on a few files", "anchors": ["punx/h5tree.py:Hdf5TreeView.report", "punx/h5tree.py:Hdf5TreeView._renderDataset", "punx/h5tree.py:Hdf5TreeView._renderNdArray", "punx/h5tree.py:Hdf5TreeView._decideNumShown"]}
{"id": "C149", "title": "Installing a file set again gives the same file set", "statement": "If a file set was installed from an archive without leftovers of an interrupted download, installing it once more with --update and the same archive succeeds and changes no file of the cache directory. The files of an updated file set do not depend on what was there under its name before.", "quantifier": "all archives that can be installed, all cache directories without leftovers, any version that was there before", "why_tests_cant": "a test updates one file set once", "anchors": ["punx/cache_manager.py:download_file_set", "punx/cache_manager.py:is_extractable"]}
{"id": "C150", "title": "The order of installing file sets does not matter", "statement": "File sets that can each be installed, from archives with different top directories and under different names, can be installed in any order: every installation succeeds and the cache directory has the same files with the same content in the end, whether or not versions of them were there before and whether or not --update is given.", "quantifier": "all lists of installable archives and all orders of them, all cache directories without leftovers of an interrupted download, both values of --update for each", "why_tests_cant": "a test installs a few sets in one order", "anchors": ["punx/cache_manager.py:download_file_set", "punx/cache_manager.py:is_extractable"]}
{"id": "C151", "title": "Interrupted installations leave no trace once the file set is installed", "statement": "If installations of a file set were interrupted any number of times, anywhere, and then one runs to its end (with --update, or when nothing is there under the name), it succeeds, and the cache directory has exactly the files, with the same content, that one uninterrupted installation would have left.", "quantifier": "all archives that can be installed, all cache directories without earlier leftovers, all numbers of interrupted runs and all crash points in each", "why_tests_cant": "crash points in any number of runs", "anchors": ["punx/cache_manager.py:download_file_set", "punx/cache_manager.py:is_extractable"]}
{"id": "C152", "title": "An interrupted punx install can be repeated", "statement": "If punx install of several file sets is interrupted anywhere, then punx install --update with the same names, if the cache can be read at its start, leaves exactly the files that punx install --update would have left without the interruption. The same holds for installations of these file sets interrupted any number of times, in any order.", "quantifier": "all lists of installable archives under different names, all cache directories without earlier leftovers, all crash points, any number of interrupted runs", "why_tests_cant": "crash points in the installation of any of the file sets", "anchors": ["punx/main.py:func_install", "punx/cache_manager.py:download_file_set"]}
