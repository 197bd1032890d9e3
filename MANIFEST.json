{
 "claims": [
  {
   "property": "C01",
   "status": "proved",
   "theorems": [
    "C01_names",
    "C01_shipped",
    "C01_exclusive",
    "C01_one_comment"
   ],
   "note": "for groups and fields; class paths with '@' arise only from NX_class values containing '@'"
  },
  {
   "property": "C02",
   "status": "partial",
   "theorems": [
    "C02_refuted",
    "C02_partial"
   ],
   "note": "REFUTED: a name with one trailing newline is reported OK; proved for names without newline"
  },
  {
   "property": "C03",
   "status": "partial",
   "theorems": [
    "C03_refuted",
    "C03_any_length"
   ],
   "note": "REFUTED: strict names of any length are OK"
  },
  {
   "property": "C04",
   "status": "proved",
   "theorems": [
    "C04_class_names"
   ],
   "note": ""
  },
  {
   "property": "C05",
   "status": "partial",
   "theorems": [
    "C05_refuted",
    "C05_partial"
   ],
   "note": "REFUTED: NX_class='entry' on the root is reported OK; below the root such groups get no name finding"
  },
  {
   "property": "C06",
   "status": "proved",
   "theorems": [
    "C06_collections"
   ],
   "note": ""
  },
  {
   "property": "C07",
   "status": "proved",
   "theorems": [
    "C07_names",
    "C07_class_names",
    "C07_check"
   ],
   "note": ""
  },
  {
   "property": "C08",
   "status": "proved",
   "theorems": [
    "C08_sound",
    "C08_complete",
    "C08_exact"
   ],
   "note": "files without external links; the exact version assumes, as every HDF5 file has, distinct names, and no '@' in link names (an object and an attribute may otherwise share a key)"
  },
  {
   "property": "C09",
   "status": "proved",
   "theorems": [
    "C09_items",
    "C09_paths",
    "C09_determined"
   ],
   "note": "class paths ending in '/' are passed on to members, as the clause cc_slash of the specification says"
  },
  {
   "property": "C10",
   "status": "proved",
   "theorems": [
    "C10_inherited",
    "C10_no_findings",
    "C10_addresses"
   ],
   "note": "the inheritance along paths is for files without external links; the absence of findings holds for all files"
  },
  {
   "property": "C100",
   "status": "partial",
   "theorems": [
    "C100_refuted",
    "C100_partial"
   ],
   "note": "REFUTED: fields in nested groups are not looked at. True of the fields directly in the first group."
  },
  {
   "property": "C101",
   "status": "partial",
   "theorems": [
    "C101_refuted",
    "C101_partial"
   ],
   "note": "REFUTED: the text depends on whether any application definition of the file set has a field. C101_partial: exactly this."
  },
  {
   "property": "C102",
   "status": "proved",
   "theorems": [
    "C102_names",
    "C102_classes"
   ],
   "note": ""
  },
  {
   "property": "C103",
   "status": "partial",
   "theorems": [
    "C103_refuted",
    "C103_partial"
   ],
   "note": "REFUTED: members are looked up by name. True of members with the name of the element or of its class without NX."
  },
  {
   "property": "C104",
   "status": "proved",
   "theorems": [
    "C104_blocks",
    "C104_group",
    "C104_soft",
    "C104_missing",
    "C104_link",
    "C104_dataset",
    "C104_groups",
    "C104_once"
   ],
   "note": ""
  },
  {
   "property": "C105",
   "status": "proved",
   "theorems": [
    "C105_printed",
    "C105_attributes"
   ],
   "note": ""
  },
  {
   "property": "C106",
   "status": "proved",
   "theorems": [
    "C106_table",
    "C106_optional",
    "C106_warn"
   ],
   "note": "the table is Spec_Statuses.gives; C106_case gives validations for (nearly) every line of it"
  },
  {
   "property": "C107",
   "status": "proved",
   "theorems": [
    "C107_dimensions",
    "C107_others"
   ],
   "note": "of dim elements with the same index the last one counts (C107_others)"
  },
  {
   "property": "C108",
   "status": "proved",
   "theorems": [
    "C108_validate",
    "C108_tree",
    "C108_rejected",
    "C108_number"
   ],
   "note": "main() as it is called, with argparse of Python 3.11.10 modelled for the options of punx"
  },
  {
   "property": "C109",
   "status": "partial",
   "theorems": [
    "C109_refuted",
    "C109_partial",
    "C109_rejected"
   ],
   "note": "REFUTED: punx install main -u v9 exits with 2; names have to stand together. C109_partial: then they are installed in order; C109_rejected: otherwise nothing is"
  },
  {
   "property": "C11",
   "status": "proved",
   "theorems": [
    "C11_addresses",
    "C11_classpaths",
    "C11_unique",
    "C11_at_names_collide"
   ],
   "note": "uniqueness needs link names without '@', as the collision shows"
  },
  {
   "property": "C110",
   "status": "proved",
   "theorems": [
    "C110_harmless",
    "C110_codes",
    "C110_none",
    "C110_unknown",
    "C110_leading",
    "C110_help"
   ],
   "note": ""
  },
  {
   "property": "C111",
   "status": "partial",
   "theorems": [
    "C111_refuted",
    "C111_caches",
    "C111_starts",
    "C111_partial"
   ],
   "note": "REFUTED: all caches are read before the command line is, so one damaged info file makes every subcommand fail, install --update of that file set included (C111_caches: for every line). C111_starts: exactly when reading the caches succeeds. C111_partial: with readable caches the tree of an HDF5 file does not depend on them"
  },
  {
   "property": "C112",
   "status": "proved",
   "theorems": [
    "C112_offered",
    "C112_refused"
   ],
   "note": "with the JSON writer and reader modelled (Json.v); names in which a high surrogate is directly followed by a low one are read back as one character (C113_pair)"
  },
  {
   "property": "C113",
   "status": "proved",
   "theorems": [
    "C113_whole",
    "C113_half"
   ],
   "note": ""
  },
  {
   "property": "C114",
   "status": "proved",
   "theorems": [
    "C114_order",
    "C114_newest"
   ],
   "note": ""
  },
  {
   "property": "C115",
   "status": "proved",
   "theorems": [
    "C115_named",
    "C115_newest"
   ],
   "note": "for archives whose names of NXDL files have no further dot and whose paths are plain (good_archive)"
  },
  {
   "property": "C116",
   "status": "proved",
   "theorems": [
    "C116_others",
    "C116_completed"
   ],
   "note": ""
  },
  {
   "property": "C117",
   "status": "partial",
   "theorems": [
    "C117_refuted",
    "C117_partial",
    "C117_command",
    "C117_accepted",
    "C117_object",
    "C117_object_accepted"
   ],
   "note": "REFUTED for validators made from an NXDL_File_Set object: their NXDL files are checked against the schema of the default file set (C117_object), so that an invalid file set is accepted and a valid one refused (C117_refuted). C117_partial, C117_command, C117_accepted: true for file sets given by name or by default, and for the command line; such a set is never refused as invalid when all its NXDL files are valid with its schema. C117_object_accepted: the same for objects, with the schema of the default file set."
  },
  {
   "property": "C118",
   "status": "proved",
   "theorems": [
    "C118_end",
    "C118_states",
    "C118_others",
    "C118_order",
    "C118_complete"
   ],
   "note": ""
  },
  {
   "property": "C119",
   "status": "partial",
   "theorems": [
    "C119_refuted",
    "C119_gone",
    "C119_partial",
    "C119_others"
   ],
   "note": "REFUTED: both processes extract to the same directory (the top directory of the archive), which is no temporary one: a process that renames it takes away what the other has extracted, both end without error and files are missing (C119_refuted); or the second deletes what the first has installed and then fails, so that nothing is left (C119_gone). C119_partial: true if the second begins when the first has ended. C119_others: other directories are not affected."
  },
  {
   "property": "C12",
   "status": "proved",
   "theorems": [
    "C12_completes",
    "C12_hard_links"
   ],
   "note": ""
  },
  {
   "property": "C120",
   "status": "partial",
   "theorems": [
    "C120_refuted",
    "C120_partial",
    "C120_fails"
   ],
   "note": "REFUTED: it raises KeyError if any finding has another status (C120_refuted, C120_fails). C120_partial: true if all findings have one of the statuses."
  },
  {
   "property": "C121",
   "status": "proved",
   "theorems": [
    "C121_succeeds",
    "C121_github",
    "C121_few"
   ],
   "note": "in the way: a file where a directory is needed, or a directory where a file is written (unobstructed in Spec_Success.v)."
  },
  {
   "property": "C122",
   "status": "proved",
   "theorems": [
    "C122_recovers"
   ],
   "note": "each interrupted run may get an archive with the same members, and any info text, or none; the last one replaces, or the name is absent."
  },
  {
   "property": "C123",
   "status": "partial",
   "theorems": [
    "C123_refuted",
    "C123_partial",
    "C123_others",
    "C123_blame",
    "C123_alone"
   ],
   "note": "REFUTED: listing fails with ValueError at a half written info file, and with an OSError if an info file is deleted after the test that it exists. Proved for every schedule: what is listed was on offer at some moment, what was on offer all the time is listed (C123_partial), file sets that no process installs are listed unchanged (C123_others), only directories of installing processes stop the listing (C123_blame)."
  },
  {
   "property": "C124",
   "status": "proved",
   "theorems": [
    "C124_ends",
    "C124_all",
    "C124_turns",
    "C124_list"
   ],
   "note": "For every schedule in which the process has turns again and again; the other processes need not. C124_turns for different file sets. The model has no operation that waits for another process (the code has no locks)."
  },
  {
   "property": "C125",
   "status": "proved",
   "theorems": [
    "C125_validate",
    "C125_copy",
    "C125_others",
    "C125_nexus",
    "C125_tree"
   ],
   "note": "The names in external links are taken as they are; that HDF5 looks for relative ones beside the file is not modelled, so that the linked files are those found under these names."
  },
  {
   "property": "C126",
   "status": "partial",
   "theorems": [
    "C126_refuted",
    "C126_ways",
    "C126_partial",
    "C126_tree"
   ],
   "note": "REFUTED: an object is looked at once for each way to it. A file of k + 1 empty groups, each with two links to the next, has 2 ^ k items or more, for every k below the recursion limit (about 1000), so a file of a few kilobytes is never validated to its end. Proved: the number of items is exactly the sum, over all ways to objects, of the object and its attributes; where there is one way to each object (as when no object is linked twice) it is at most the number of objects and attributes."
  },
  {
   "property": "C127",
   "status": "proved",
   "theorems": [
    "C127_text",
    "C127_same",
    "C127_tells"
   ],
   "note": "C127_tells is for categories without a comma, as the directories of the NeXus definitions are."
  },
  {
   "property": "C128",
   "status": "partial",
   "theorems": [
    "C128_refuted",
    "C128_partial",
    "C128_items",
    "C128_type"
   ],
   "note": "REFUTED: an address with ', ' in it, as HDF5 allows, can make the texts of two findings equal. Proved: without commas in the addresses and names of tests, equal texts are of equal findings; every item of a validated file has a text, with the type as stated."
  },
  {
   "property": "C129",
   "status": "proved",
   "theorems": [
    "C129_completes"
   ],
   "note": "The conditions are those of Spec_Complete.ready. C13, C31, C35 and C41 have files that do not meet them and are not validated to the end."
  },
  {
   "property": "C13",
   "status": "partial",
   "theorems": [
    "C13_refuted",
    "C13_cycles_fail",
    "C13_partial"
   ],
   "note": "REFUTED: cycles end in RecursionError, dangling links in KeyError, an NX_class ending in '/' in AttributeError; every cycle and dangling link does"
  },
  {
   "property": "C130",
   "status": "proved",
   "theorems": [
    "C130_missing",
    "C130_file_set"
   ],
   "note": "C130_file_set is about the NXDL file of NXentry in the file set, C130_missing about a loaded class."
  },
  {
   "property": "C131",
   "status": "proved",
   "theorems": [
    "C131_text",
    "C131_dataset",
    "C131_one"
   ],
   "note": "datasets shown in full; names of the members of each group are distinct, as in every HDF5 file"
  },
  {
   "property": "C132",
   "status": "partial",
   "theorems": [
    "C132_refuted",
    "C132_score_refuted",
    "C132_partial",
    "C132_verdict",
    "C132_signals",
    "C132_one_signal",
    "C132_catalog"
   ],
   "note": "REFUTED: of two NXdata groups with a signal, the one listed last is reported as the default plot, and one whose signal names nothing ends the search, which changes the score. Proved for the catalogue, for the findings of all other tests, for address and status of the verdict; for all but the comment of the verdict, with score and summary, if every signal names something; and for all findings if there is one signal at most. No external links, names of the members of a group distinct and without @"
  },
  {
   "property": "C133",
   "status": "proved",
   "theorems": [
    "C133_types"
   ],
   "note": ""
  },
  {
   "property": "C134",
   "status": "partial",
   "theorems": [
    "C134_refuted",
    "C134_partial",
    "C134_one_partial"
   ],
   "note": "REFUTED: of a type written inside an element only the first attribute is kept, and none of its children (the dim of v2018.5 has lost five attributes). Proved: exactly what is kept, at every depth and after any loads; a group in a sequence of a type other than the root's counts as a child"
  },
  {
   "property": "C135",
   "status": "proved",
   "theorems": [
    "C135_loads",
    "C135_rejects",
    "C135_info",
    "C135_info_errors"
   ],
   "note": "the values of the four keys are texts or null (anything else is outside the model, as is Python's limit on the nesting)"
  },
  {
   "property": "C136",
   "status": "proved",
   "theorems": [
    "C136_compiles",
    "C136_matches",
    "C136_one_meaning",
    "C136_rejects"
   ],
   "note": "pattern texts beyond this part of Python's regular expressions are outside the model"
  },
  {
   "property": "C137",
   "status": "proved",
   "theorems": [
    "C137_data",
    "C137_no_definition",
    "C137_nexus"
   ],
   "note": "single values stay single values and arrays stay arrays; files linked to may differ in data, too"
  },
  {
   "property": "C138",
   "status": "proved",
   "theorems": [
    "C138_validate",
    "C138_tree",
    "C138_install",
    "C138_rejected",
    "C138_first"
   ],
   "note": "argparse of Python 3.11.10, as in C108-C110"
  },
  {
   "property": "C139",
   "status": "partial",
   "theorems": [
    "C139_refuted",
    "C139_reported",
    "C139_partial"
   ],
   "note": "REFUTED: a file with an ERROR ends with exit code 0. Proved: the code is 0 exactly if a report was printed, and every file that is validated to the end is reported, whatever the findings are"
  },
  {
   "property": "C14",
   "status": "proved",
   "theorems": [
    "C14_groups",
    "C14_no_value_error"
   ],
   "note": ""
  },
  {
   "property": "C140",
   "status": "proved",
   "theorems": [
    "C140_named",
    "C140_again",
    "C140_added"
   ],
   "note": "Over the files reached by external links as well; the definitions are those after loading. A file set that cannot be loaded gives no classes at all"
  },
  {
   "property": "C141",
   "status": "proved",
   "theorems": [
    "C141_errors",
    "C141_target"
   ],
   "note": "The exceptions are those of the modelled h5py and Python operations; running out of memory, signals and errors of the disk are outside the model. The patterns are those of the modelled syntax (C136). Each of KeyError, TypeError, UnicodeDecodeError, RuntimeError, RecursionError, FileNotFound and HDF5_Open_Error is shown to happen on a file"
  },
  {
   "property": "C142",
   "status": "partial",
   "theorems": [
    "C142_refuted",
    "C142_partial",
    "C142_components",
    "C142_prints"
   ],
   "note": "REFUTED: components are never shown, because build_tree renames the dictionary elements to components and print_tree looks for elements (C142_refuted: v3.3; C142_components: for every summary). C142_partial: the attributes and groups are shown exactly as stated, with correct counts; C142_prints: it ends. The numbers for v3.3 are those of the project's test (C142_case)"
  },
  {
   "property": "C143",
   "status": "proved",
   "theorems": [
    "C143_extra",
    "C143_nexus"
   ],
   "note": "Hypothesis root_group (object 0 of the file is a group) holds of every HDF5 file. Attribute names with an at sign that end like @NX_class or @signal are read too and excluded. C143_declared and C143_unreadable show that the conditions are needed"
  },
  {
   "property": "C144",
   "status": "proved",
   "theorems": [
    "C144_members",
    "C144_attributes",
    "C144_title"
   ],
   "note": "C144_title needs both files to open: C144_opening shows that an undecodable NX_class matters only when it comes before the NXentry group"
  },
  {
   "property": "C145",
   "status": "proved",
   "theorems": [
    "C145_report",
    "C145_title"
   ],
   "note": "As for C144, the title is the same if both files open"
  },
  {
   "property": "C146",
   "status": "proved",
   "theorems": [
    "C146_loads",
    "C146_errors",
    "C146_shipped"
   ],
   "note": "C146_shipped: with the schemas that come with punx. The verdict of the XML Schema processor is a parameter"
  },
  {
   "property": "C147",
   "status": "proved",
   "theorems": [
    "C147_loaded",
    "C147_validator"
   ],
   "note": "Directories list each name once"
  },
  {
   "property": "C148",
   "status": "proved",
   "theorems": [
    "C148_lines",
    "C148_small",
    "C148_failures"
   ],
   "note": "C148_failures is for arrays whose elements match their shape, as h5py gives them; OSError while reading an element is not modelled"
  },
  {
   "property": "C149",
   "status": "proved",
   "theorems": [
    "C149_replaced",
    "C149_again"
   ],
   "note": "Same archive: the same members and the same text for the info file"
  },
  {
   "property": "C15",
   "status": "proved",
   "theorems": [
    "C15_constructor",
    "C15_run"
   ],
   "note": ""
  },
  {
   "property": "C150",
   "status": "proved",
   "theorems": [
    "C150_order",
    "C150_any_order",
    "C150_command"
   ],
   "note": "C150_command is for punx install with the names in two orders. The archives have different top directories, as those of different commits have; C150_any_order is for any number of file sets"
  },
  {
   "property": "C151",
   "status": "proved",
   "theorems": [
    "C151_same"
   ],
   "note": "All runs get an archive with the same members; leftovers of another archive are C74_refuted"
  },
  {
   "property": "C152",
   "status": "proved",
   "theorems": [
    "C152_same",
    "C152_command"
   ],
   "note": "The network gives the same archive for a name each time. That the cache can be read is a hypothesis of C152_command: a half-written info file cannot be read (C113_half)"
  },
  {
   "property": "C16",
   "status": "proved",
   "theorems": [
    "C16_moments",
    "C16_between",
    "C16_built"
   ],
   "note": ""
  },
  {
   "property": "C17",
   "status": "proved",
   "theorems": [
    "C17_history",
    "C17_validations",
    "C17_by_address"
   ],
   "note": "the version by address is for an address no other item shares"
  },
  {
   "property": "C18",
   "status": "partial",
   "theorems": [
    "C18_refuted",
    "C18_partial"
   ],
   "note": "REFUTED: the ERROR of an entry whose definition names a base class is overwritten by a TODO of the same test; findings about names and attribute values stay visible"
  },
  {
   "property": "C19",
   "status": "proved",
   "theorems": [
    "C19_summary",
    "C19_printed_summary"
   ],
   "note": ""
  },
  {
   "property": "C20",
   "status": "proved",
   "theorems": [
    "C20_score",
    "C20_errors_dominate"
   ],
   "note": "average modelled as an exact rational"
  },
  {
   "property": "C21",
   "status": "partial",
   "theorems": [
    "C21_refuted",
    "C21_partial"
   ],
   "note": "REFUTED: one ERROR among 200000 OK findings has a positive average; the exact condition is proved"
  },
  {
   "property": "C22",
   "status": "proved",
   "theorems": [
    "C22_rows",
    "C22_no_address",
    "C22_report"
   ],
   "note": ""
  },
  {
   "property": "C23",
   "status": "partial",
   "theorems": [
    "C23_refuted",
    "C23_partial"
   ],
   "note": "REFUTED: WARN is listed before NOTE; the actual order of the eight statuses is proved"
  },
  {
   "property": "C24",
   "status": "partial",
   "theorems": [
    "C24_refuted",
    "C24_partial",
    "C24_address_partial",
    "C24_separates_partial"
   ],
   "note": "REFUTED: a validation records two different findings with the same address and test; the dependency half is proved, and that findings with different addresses or tests have different digests if texts have (and addresses, or tests, have no line break)"
  },
  {
   "property": "C25",
   "status": "partial",
   "theorems": [
    "C25_refuted",
    "C25_partial",
    "C25_entry"
   ],
   "note": "REFUTED: the checks store minOccurs in the shared NXDL objects, so a file without NXentry gets NOTE instead of ERROR for the missing default plot once another file was validated (C25_refuted). Proved for every history: nothing else differs (C25_partial), and nothing at all differs for a file with a catalogued NXentry group (C25_entry)."
  },
  {
   "property": "C26",
   "status": "partial",
   "theorems": [
    "C26_refuted",
    "C26_partial",
    "C26_missing"
   ],
   "note": "REFUTED: after HDF5_Open_Error the validator names the unreadable file and keeps the findings of the previous one (C26_refuted). Proved for every history: whose findings are held and when the name agrees (C26_partial); a missing file changes nothing (C26_missing)."
  },
  {
   "property": "C27",
   "status": "proved",
   "theorems": [
    "C27_open",
    "C27_one",
    "C27_close",
    "C27_model"
   ],
   "note": "Over all sequences of validate() and close() calls, with explicit h5py.File objects; C27_model ties them to the validator model of the other theorems."
  },
  {
   "property": "C28",
   "status": "proved",
   "theorems": [
    "C28_fields",
    "C28_groups",
    "C28_exists"
   ],
   "note": ""
  },
  {
   "property": "C29",
   "status": "proved",
   "theorems": [
    "C29_child",
    "C29_one"
   ],
   "note": "that it is the only such finding at the child's address is proved for files without external links"
  },
  {
   "property": "C30",
   "status": "proved",
   "theorems": [
    "C30_unknown",
    "C30_known"
   ],
   "note": ""
  },
  {
   "property": "C31",
   "status": "partial",
   "theorems": [
    "C31_refuted",
    "C31_partial",
    "C31_groups"
   ],
   "note": "REFUTED: a contributed definition with one group and no fields or links raises TypeError; all other cases are as stated"
  },
  {
   "property": "C32",
   "status": "proved",
   "theorems": [
    "C32_target",
    "C32_any_file"
   ],
   "note": "existence in terms of links is proved for files without external links; for every file in terms of 'path in file'"
  },
  {
   "property": "C33",
   "status": "proved",
   "theorems": [
    "C33_signal",
    "C33_child"
   ],
   "note": ""
  },
  {
   "property": "C34",
   "status": "proved",
   "theorems": [
    "C34_axes"
   ],
   "note": ""
  },
  {
   "property": "C35",
   "status": "partial",
   "theorems": [
    "C35_refuted",
    "C35_partial",
    "C35_completed_partial"
   ],
   "note": "REFUTED: @signal=1 on a group raises TypeError, @axes on a field AttributeError, and others; proved: exactly which attributes are checked without exception"
  },
  {
   "property": "C36",
   "status": "proved",
   "theorems": [
    "C36_one",
    "C36_verdict"
   ],
   "note": "Whenever validate() returns: exactly one 'NeXus default plot' finding, on '/', OK iff the v3 or the v2 criterion holds; ERROR iff neither holds and NXentry requires a data group."
  },
  {
   "property": "C37",
   "status": "proved",
   "theorems": [
    "C37_dataset",
    "C37_address",
    "C37_findings",
    "C37_default"
   ],
   "note": "The v3 address is characterised exactly (unique @default chain, else the last listed @signal naming a dataset), together with all findings of the v3 test."
  },
  {
   "property": "C38",
   "status": "partial",
   "theorems": [
    "C38_refuted",
    "C38_partial"
   ],
   "note": "REFUTED: another NXdata group whose @signal names nothing makes the v3 method give up, and the verdict is NOTE. C38_partial: if every @signal of class path /NXentry/NXdata@signal names a member of its group, a plottable group suffices."
  },
  {
   "property": "C39",
   "status": "proved",
   "theorems": [
    "C39_address",
    "C39_found",
    "C39_findings",
    "C39_none"
   ],
   "note": "The v2 method, when v3 finds nothing: address, existence and all findings characterised for every file."
  },
  {
   "property": "C40",
   "status": "proved",
   "theorems": [
    "C40_fields",
    "C40_report",
    "C40_exists"
   ],
   "note": "One 'NXDL field' finding per field of the first group of the named definition, in order, OK iff group.get finds it; C40_report gives all findings of the check including enumerations."
  },
  {
   "property": "C41",
   "status": "partial",
   "theorems": [
    "C41_refuted",
    "C41_partial"
   ],
   "note": "REFUTED: a definition naming a class without groups raises IndexError, an enumerated field missing from the file raises TypeError. C41_partial: exact characterisation of when the check completes."
  },
  {
   "property": "C42",
   "status": "partial",
   "theorems": [
    "C42_entries",
    "C42_distinct",
    "C42_refuted",
    "C42_partial",
    "C42_group_partial"
   ],
   "note": "REFUTED in one point: the first element of a name does not keep it if an earlier element was given that name as a numbered one (elements data, data, data1 become data, data1, data11). Proved for every file set, class and nested group: names are pairwise distinct, one entry per group/field/link element in order, each named as itself or with the first free number; an element whose name is not an earlier name or an earlier name with a number keeps it."
  },
  {
   "property": "C43",
   "status": "proved",
   "theorems": [
    "C43_ends",
    "C43_name",
    "C43_fresh"
   ],
   "note": "the loop ends within one more round than there are names, at the smallest free number"
  },
  {
   "property": "C44",
   "status": "partial",
   "theorems": [
    "C44_refuted",
    "C44_exact",
    "C44_groups",
    "C44_attributes",
    "C44_loaded",
    "C44_partial"
   ],
   "note": "REFUTED: the schema's default objects are shared by all structures, so one application definition with a field makes the minOccurs default of every base class field 1. C44_exact, C44_groups and C44_attributes say exactly when; C44_partial: unchanged if no application definition has a field."
  },
  {
   "property": "C45",
   "status": "proved",
   "theorems": [
    "C45_list",
    "C45_total",
    "C45_fails"
   ],
   "note": ""
  },
  {
   "property": "C46",
   "status": "proved",
   "theorems": [
    "C46_sets",
    "C46_total",
    "C46_readable"
   ],
   "note": "fails only if an info file is not JSON text or is a directory"
  },
  {
   "property": "C47",
   "status": "proved",
   "theorems": [
    "C47_select",
    "C47_unique",
    "C47_default"
   ],
   "note": ""
  },
  {
   "property": "C48",
   "status": "partial",
   "theorems": [
    "C48_refuted",
    "C48_partial"
   ],
   "note": "REFUTED: an unknown name selects the newest file set (C48_refuted). C48_partial: what select raises, and when."
  },
  {
   "property": "C49",
   "status": "partial",
   "theorems": [
    "C49_refuted",
    "C49_partial"
   ],
   "note": "REFUTED: the cache manager is a singleton that keeps the selection of an earlier validator. C49_partial: what is used after any history: the set of the last validator asked for by name (even if that failed), else the newest when the sets were first listed."
  },
  {
   "property": "C50",
   "status": "partial",
   "theorems": [
    "C50_refuted",
    "C50_states",
    "C50_partial"
   ],
   "note": "REFUTED: between the deletion of the old directory and the move of the new one the name is missing or half deleted (C50_refuted). C50_states: exactly what every crash point leaves (and the complete new set is then in the download directory); C50_partial: a first installation is atomic. For archives with one top directory whose name is not that of the file set."
  },
  {
   "property": "C51",
   "status": "proved",
   "theorems": [
    "C51_unchanged"
   ],
   "note": "for archives whose definition files are in the top directory, none in a directory named like the info file"
  },
  {
   "property": "C52",
   "status": "proved",
   "theorems": [
    "C52_existing",
    "C52_frame",
    "C52_no_archive"
   ],
   "note": ""
  },
  {
   "property": "C53",
   "status": "proved",
   "theorems": [
    "C53_files",
    "C53_installed",
    "C53_inside",
    "C53_test"
   ],
   "note": "every file that a run creates or changes, at any crash point"
  },
  {
   "property": "C54",
   "status": "partial",
   "theorems": [
    "C54_refuted",
    "C54_partial"
   ],
   "note": "REFUTED: a connection error is raised as IOError at once; there is always exactly one request (C54_partial)"
  },
  {
   "property": "C55",
   "status": "proved",
   "theorems": [
    "C55_prefix"
   ],
   "note": ""
  },
  {
   "property": "C56",
   "status": "proved",
   "theorems": [
    "C56_accepted",
    "C56_rejected",
    "C56_punx"
   ],
   "note": "argparse itself is not modelled"
  },
  {
   "property": "C57",
   "status": "proved",
   "theorems": [
    "C57_accepted",
    "C57_rejected",
    "C57_default"
   ],
   "note": "upper case of characters that are not ASCII is a parameter, of which only is assumed that it has no comma"
  },
  {
   "property": "C58",
   "status": "partial",
   "theorems": [
    "C58_refuted",
    "C58_partial"
   ],
   "note": "REFUTED: validate_xml does not exist; every NXDL file gives AttributeError (C58_partial)"
  },
  {
   "property": "C59",
   "status": "partial",
   "theorems": [
    "C59_refuted",
    "C59_partial",
    "C59_nxdl_partial"
   ],
   "note": "REFUTED: a missing data file prints an empty line and succeeds, a file that is not HDF5 gives an uncaught OSError, a missing NXDL file AttributeError. The _partial theorems give the exact behaviour."
  },
  {
   "property": "C60",
   "status": "proved",
   "theorems": [
    "C60_line",
    "C60_size",
    "C60_nested"
   ],
   "note": "the lines of whole reports; also arrays of two or more dimensions"
  },
  {
   "property": "C61",
   "status": "proved",
   "theorems": [
    "C61_text",
    "C61_members"
   ],
   "note": ""
  },
  {
   "property": "C62",
   "status": "proved",
   "theorems": [
    "C62_attributes",
    "C62_lines"
   ],
   "note": "whenever the report with attributes can be made"
  },
  {
   "property": "C63",
   "status": "proved",
   "theorems": [
    "C63_idempotent",
    "C63_unchanged",
    "C63_decoded",
    "C63_fails"
   ],
   "note": "For every value; also: nothing is left to decode afterwards, and the only failure is UnicodeDecodeError for bytes that are no text."
  },
  {
   "property": "C64",
   "status": "partial",
   "theorems": [
    "C64_refuted",
    "C64_array_refuted",
    "C64_partial",
    "C64_ascii_partial",
    "C64_writable",
    "C64_strict"
   ],
   "note": "REFUTED: text is written as UTF-8 but read back in the encoding of stdout (Latin-1 changes it, ASCII fails), and an array of such bytes is read as ASCII in any case. Proved: all Unicode texts round-trip when stdout is UTF-8, ASCII texts in every modelled encoding (UTF-8, ASCII, Latin-1); exactly the texts with surrogates cannot be written; bytes read as a text are exactly those it is written as (C64_strict)."
  },
  {
   "property": "C65",
   "status": "partial",
   "theorems": [
    "C65_refuted",
    "C65_partial"
   ],
   "note": "REFUTED: an NX_class stored as a one-element array counts for isNeXusFile and not for validate(). Proved: with scalar NX_class attributes, in files without external links that validate() completes on, isNeXusFile answers, and the answers agree."
  },
  {
   "property": "C66",
   "status": "partial",
   "theorems": [
    "C66_refuted",
    "C66_partial",
    "C66_settled_partial"
   ],
   "note": "REFUTED with the file sets that come with punx: after v2018.5, v3.3 shows a child that is not in its schema, and its group is only a mark of recursion. True of the types, units, patterns, attributes and names of children that the directory has; and of the children once a group was read."
  },
  {
   "property": "C67",
   "status": "partial",
   "theorems": [
    "C67_refuted",
    "C67_partial",
    "C67_value_error"
   ],
   "note": "REFUTED: every part of the text nx:basicComponent passes, such as nx:basic. Others are rejected; ValueError if nothing before fails."
  },
  {
   "property": "C68",
   "status": "proved",
   "theorems": [
    "C68_kept",
    "C68_base_first",
    "C68_base_later",
    "C68_no_base",
    "C68_one_level"
   ],
   "note": ""
  },
  {
   "property": "C69",
   "status": "proved",
   "theorems": [
    "C69_stripped"
   ],
   "note": ""
  },
  {
   "property": "C70",
   "status": "proved",
   "theorems": [
    "C70_attribute_names",
    "C70_unaddressed"
   ],
   "note": ""
  },
  {
   "property": "C71",
   "status": "proved",
   "theorems": [
    "C71_attribute"
   ],
   "note": ""
  },
  {
   "property": "C72",
   "status": "proved",
   "theorems": [
    "C72_last_category",
    "C72_no_other"
   ],
   "note": "file names are assumed to contain no slash, and no dots but those of .nxdl.xml"
  },
  {
   "property": "C73",
   "status": "partial",
   "theorems": [
    "C73_refuted",
    "C73_partial",
    "C73_crash",
    "C73_stuck"
   ],
   "note": "REFUTED: a partly written info file makes every later listing of file sets fail. C73_partial: that is the only such crash point; C73_crash: the same with the JSON text as it is; C73_stuck: every installation passes through such a point, and every command line fails afterwards."
  },
  {
   "property": "C74",
   "status": "partial",
   "theorems": [
    "C74_refuted",
    "C74_own_name_refuted",
    "C74_partial"
   ],
   "note": "REFUTED: files left by an interrupted download are installed, too; and a file set named like the archive's top directory is deleted. C74_partial: exact content without leftovers."
  },
  {
   "property": "C75",
   "status": "proved",
   "theorems": [
    "C75_rows",
    "C75_total"
   ],
   "note": ""
  },
  {
   "property": "C76",
   "status": "proved",
   "theorems": [
    "C76_missing",
    "C76_named",
    "C76_validates"
   ],
   "note": ""
  },
  {
   "property": "C77",
   "status": "partial",
   "theorems": [
    "C77_refuted",
    "C77_partial",
    "C77_reference"
   ],
   "note": "REFUTED: the reference in the info file of the newest set is used as its name, which may be another set or none. C77_partial: true when reference and name agree."
  },
  {
   "property": "C78",
   "status": "proved",
   "theorems": [
    "C78_exits",
    "C78_no_report"
   ],
   "note": ""
  },
  {
   "property": "C79",
   "status": "proved",
   "theorems": [
    "C79_existing",
    "C79_present"
   ],
   "note": "for archives with one top directory that is not called like the set in question"
  },
  {
   "property": "C80",
   "status": "partial",
   "theorems": [
    "C80_refuted",
    "C80_partial"
   ],
   "note": "REFUTED: a numeric scalar is shown without its value (C80_refuted). C80_partial: text and arrays with one element."
  },
  {
   "property": "C81",
   "status": "partial",
   "theorems": [
    "C81_refuted",
    "C81_partial"
   ],
   "note": "REFUTED: a group that is a member of itself exhausts any recursion limit. C81_partial: files whose groups can be shown one by one and are nested less deep than the limit."
  },
  {
   "property": "C82",
   "status": "partial",
   "theorems": [
    "C82_refuted",
    "C82_partial"
   ],
   "note": "REFUTED: it needs a file set called main, which punx does not come with; without it, exit 1. C82_partial: true with it."
  },
  {
   "property": "C83",
   "status": "proved",
   "theorems": [
    "C83_configuration"
   ],
   "note": ""
  },
  {
   "property": "C84",
   "status": "partial",
   "theorems": [
    "C84_refuted",
    "C84_partial"
   ],
   "note": "REFUTED: the default named is the newest set before installing (C84_partial)"
  },
  {
   "property": "C85",
   "status": "proved",
   "theorems": [
    "C85_transformed"
   ],
   "note": "XSLT is a parameter"
  },
  {
   "property": "C86",
   "status": "proved",
   "theorems": [
    "C86_printable"
   ],
   "note": ""
  },
  {
   "property": "C87",
   "status": "partial",
   "theorems": [
    "C87_refuted",
    "C87_partial"
   ],
   "note": "REFUTED for a base declared after the type. True if every type comes after its base."
  },
  {
   "property": "C88",
   "status": "partial",
   "theorems": [
    "C88_refuted",
    "C88_partial"
   ],
   "note": "REFUTED with the file sets that come with punx: declared as a union, none is found. True of an enumeration."
  },
  {
   "property": "C89",
   "status": "partial",
   "theorems": [
    "C89_refuted",
    "C89_partial"
   ],
   "note": "REFUTED: of two attributes on one line of the schema only the last is seen. True if no two attributes, elements or groups share a line."
  },
  {
   "property": "C90",
   "status": "proved",
   "theorems": [
    "C90_attributes"
   ],
   "note": "for schemas in good order (tidy, defined_by, component in Spec_Defaults.v); the shipped ones are"
  },
  {
   "property": "C91",
   "status": "partial",
   "theorems": [
    "C91_refuted",
    "C91_length_refuted",
    "C91_partial",
    "C91_rules",
    "C91_length"
   ],
   "note": "REFUTED: a base declared later adds only the patterns in its own declaration; a maximum length of its own is lost if the base is a type of the schema. True of the patterns if every base comes first (C91_partial); C91_rules and C91_length: exactly what happens in any order."
  },
  {
   "property": "C92",
   "status": "partial",
   "theorems": [
    "C92_refuted",
    "C92_base_first_partial"
   ],
   "note": "REFUTED: KeyError if a complexType extends one declared later. C92_base_first_partial: only schemas with bases first are accepted."
  },
  {
   "property": "C93",
   "status": "proved",
   "theorems": [
    "C93_refused"
   ],
   "note": ""
  },
  {
   "property": "C94",
   "status": "proved",
   "theorems": [
    "C94_shipped"
   ],
   "note": "about the three schemas that come with punx"
  },
  {
   "property": "C95",
   "status": "proved",
   "theorems": [
    "C95_class_value"
   ],
   "note": ""
  },
  {
   "property": "C96",
   "status": "proved",
   "theorems": [
    "C96_signal_of_field"
   ],
   "note": ""
  },
  {
   "property": "C97",
   "status": "proved",
   "theorems": [
    "C97_todo"
   ],
   "note": ""
  },
  {
   "property": "C98",
   "status": "proved",
   "theorems": [
    "C98_group",
    "C98_names",
    "C98_attributes",
    "C98_unknown"
   ],
   "note": "composes the NXDL loader, the schema manager and the validator"
  },
  {
   "property": "C99",
   "status": "partial",
   "theorems": [
    "C99_refuted",
    "C99_partial"
   ],
   "note": "REFUTED: a missing field is an error whatever its minOccurs. C99_partial: exactly which findings there are."
  }
 ]
}