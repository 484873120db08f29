{
 "claims": [
  {
   "property": "C01",
   "status": "proved",
   "theorems": [
    "C01_dump_then_load"
   ],
   "note": "For every graph satisfying graph_ok (documented values, no cycles): whatever dump writes without error loads back as an isomorphic graph, in any process. That dump succeeds is a separate property."
  },
  {
   "property": "C02",
   "status": "proved",
   "theorems": [
    "C02_aliases_preserved"
   ],
   "note": "Two positions hold one object after load exactly if they did before, for objects other than scalars and None."
  },
  {
   "property": "C03",
   "status": "proved",
   "theorems": [
    "C03_dump_ends"
   ],
   "note": ""
  },
  {
   "property": "C04",
   "status": "partial",
   "theorems": [
    "C04_cyclic_load_refuted",
    "C04_cyclic_never_loads",
    "C04_loads_iff_acyclic",
    "C43_accepted",
    "C43_total_round_trip"
   ],
   "note": "The property is false for every cyclic graph: dump accepts it and no process can load it (C04_cyclic_never_loads). For the supported values it is true exactly for graphs without cycles (C04_loads_iff_acyclic)."
  },
  {
   "property": "C05",
   "status": "proved",
   "theorems": [
    "C05_numbers"
   ],
   "note": ""
  },
  {
   "property": "C06",
   "status": "proved",
   "theorems": [
    "C06_str",
    "C06_bytes",
    "C06_surrogate_refused"
   ],
   "note": ""
  },
  {
   "property": "C07",
   "status": "proved",
   "theorems": [
    "C07_sequences"
   ],
   "note": "For the supported graphs of C01/C43; the loading process iterates HDF5 members in any order."
  },
  {
   "property": "C08",
   "status": "partial",
   "theorems": [
    "C08_key_class_refuted",
    "C08_dicts_partial"
   ],
   "note": "False for numpy number keys with number values (class changes) and for the key False (C09); true for all other supported keys."
  },
  {
   "property": "C09",
   "status": "partial",
   "theorems": [
    "C09_key_false_refuted",
    "C09_key_true_partial"
   ],
   "note": "The property is false: the key False loads as True; {False: 1, True: 2} loses an entry. The key True survives."
  },
  {
   "property": "C10",
   "status": "partial",
   "theorems": [
    "C10_dict_members",
    "C10_dict_accepted_partial"
   ],
   "note": "Names: proved for every dump that succeeds. Acceptance: keys containing NUL are not covered."
  },
  {
   "property": "C11",
   "status": "proved",
   "theorems": [
    "C11_sets"
   ],
   "note": "For the supported elements; sets of numbers that numpy cannot represent in one dtype are C12."
  },
  {
   "property": "C12",
   "status": "partial",
   "theorems": [
    "C12_numbers_keep_value_refuted",
    "C12_numbers_keep_value_partial"
   ],
   "note": "False in general; the partial theorem shows it for lists whose common numpy type holds every element exactly (lossless)."
  },
  {
   "property": "C13",
   "status": "partial",
   "theorems": [
    "C13_list_of_dumpable_refuted",
    "C13_list_accepted_partial"
   ],
   "note": "The property is false. True for items that are supported values, except bytes of length 0 and 1, nested lists numpy takes for ragged arrays and, in lists of numbers, integers beyond 64 bit."
  },
  {
   "property": "C14",
   "status": "partial",
   "theorems": [
    "C14_element_types_refuted",
    "C14_element_types_partial",
    "C14_number_classes_partial"
   ],
   "note": "False for lists of Python numbers (loaded as numpy numbers) and lists mixing numpy number classes; true for all other supported lists. Lists of numbers of one dtype come back in their own classes or all in the numpy class of that dtype."
  },
  {
   "property": "C15",
   "status": "proved",
   "theorems": [
    "C15_C39_C40_nodes"
   ],
   "note": ""
  },
  {
   "property": "C16",
   "status": "proved",
   "theorems": [
    "C16_identity",
    "C16_needs_object"
   ],
   "note": "Small separate model of addresses, releases and the memo (MemoAlloc.v); C16_needs_object shows that the property fails without the object in the memo."
  },
  {
   "property": "C17",
   "status": "proved",
   "theorems": [
    "C17_dump_frame",
    "C17_dump_refuses_nonempty"
   ],
   "note": "For dumps with any outcome."
  },
  {
   "property": "C18",
   "status": "proved",
   "theorems": [
    "C18_independent_dumps"
   ],
   "note": "For any sequence of later dumps, failed ones included, that do not go inside the data already written."
  },
  {
   "property": "C19",
   "status": "partial",
   "theorems": [
    "C19_failed_dump_loads_refuted",
    "C19_only_containers_partial",
    "C19_leaf_partial"
   ],
   "note": "The property is false: after a failed dump of a list the file loads as a different list. Proved: after a failed dump of an object that refers to no others every load raises, and after any failed dump either every load raises or what is left is a group or a dataset without type. Missing: which groups load, arrays of strings and objects, custom loaders."
  },
  {
   "property": "C20",
   "status": "partial",
   "theorems": [
    "C20_missing_refuted",
    "C20_twice_refuted",
    "C20_twice_partial",
    "C20_in_place_partial"
   ],
   "note": "False for missing members, which are replaced by the empty tuple, and for an index that occurs twice if the first item is the empty tuple. True for all other duplicates; no item is ever loaded at another place. In files of hickle 4 the damaged group must not lie in a group hickle 4 wrote for a sparse matrix, whose members are loaded by other rules."
  },
  {
   "property": "C21",
   "status": "proved",
   "theorems": [
    "C21_dump_closes",
    "C21_load_closes"
   ],
   "note": "For every kind of file argument and every outcome the set of open files is the same after the call."
  },
  {
   "property": "C22",
   "status": "proved",
   "theorems": [
    "C22_load_errors"
   ],
   "note": "Errors raised before the file is open (file_opener) are not covered by the property."
  },
  {
   "property": "C23",
   "status": "partial",
   "theorems": [
    "C23_manager_left_refuted",
    "C23_no_manager_left_partial",
    "C23_busy_dump",
    "C23_busy_load"
   ],
   "note": "False: loading a hickle 4.0 file (no type table) the caller opened for reading leaves a ReferenceManager behind and the next load of that open file fails. True for all other histories."
  },
  {
   "property": "C24",
   "status": "partial",
   "theorems": [
    "C24_load_modifies_refuted",
    "C24_load_keeps_file_partial"
   ],
   "note": "False for an open writable file whose group has no type table; true otherwise."
  },
  {
   "property": "C25",
   "status": "partial",
   "theorems": [
    "C25_zero_dim_refuted",
    "C25_keywords_partial"
   ],
   "note": "False for 0-dimensional ndarrays; otherwise the outcome does not depend on the keyword arguments. Only the names of the keyword arguments are modelled, their values are assumed to be admissible."
  },
  {
   "property": "C26",
   "status": "proved",
   "theorems": [
    "C26_options_kept",
    "C26_unknown_option_refused"
   ],
   "note": "For target groups that carry no option attributes beforehand."
  },
  {
   "property": "C27",
   "status": "proved",
   "theorems": [
    "C27_core_not_redefinable",
    "C27_quoted_not_redefinable",
    "C27_dict_item_refuted"
   ],
   "note": "The docstring also lists dict_item, which can be redefined (C27_dict_item_refuted)."
  },
  {
   "property": "C28",
   "status": "partial",
   "theorems": [
    "C28_core_not_excludable_refuted",
    "C28_listed_not_excludable_partial",
    "C28_exclude_frame"
   ],
   "note": "False for names enclosed in exclamation marks; true for dict_item and pickle."
  },
  {
   "property": "C29",
   "status": "partial",
   "theorems": [
    "C29_history",
    "C29_most_specific",
    "C29_pickled",
    "C29_cases",
    "C29_full",
    "C29_functions",
    "C29_other_package_refuted",
    "C29_run_time_refuted",
    "C29_dummy_refuted"
   ],
   "note": "Proved for loader modules that register classes of their own package only and for run-time registrations of other classes; the loader modules of hickle are of this kind. False without: three witnesses."
  },
  {
   "property": "C30",
   "status": "partial",
   "theorems": [
    "C30_dataset_partial",
    "C30_group_partial",
    "C30_whole_graph_partial",
    "C30_options",
    "C30_loader_missing_dataset",
    "C30_keys_refuted",
    "C30_base_type_4x_refuted"
   ],
   "note": "Proved node by node for any file (what is returned for a dataset or group whose class or loader cannot be found), and for whole object graphs: whatever classes the loading process lacks, load returns a graph in which objects of importable classes are as before and the others are recovered datasets or groups showing what was stored, with sharing preserved. False for elements of sets and keys of dicts (the recovered object cannot be hashed: TypeError) and, as to base_type, for nodes in the 4.x format; these, and parts of arrays, are left out of the whole-graph theorem."
  },
  {
   "property": "C31",
   "status": "proved",
   "theorems": [
    "C31_node_untouched",
    "C31_node_same",
    "C31_visible",
    "C31_consistent",
    "C31_redirect"
   ],
   "note": ""
  },
  {
   "property": "C32",
   "status": "proved",
   "theorems": [
    "C32_path_and_close",
    "C32_read_only_dump",
    "C32_load_keeps_files",
    "C32_closed_refused",
    "C32_invalid_mode_refused"
   ],
   "note": ""
  },
  {
   "property": "C33",
   "status": "partial",
   "theorems": [
    "C33_documented_modes_refuted",
    "C33_other_modes_partial"
   ],
   "note": "False for w+ and x+, which h5py refuses; true for the other modes."
  },
  {
   "property": "C34",
   "status": "proved",
   "theorems": [
    "C34_v3_exactly",
    "C34_v4_v5_exactly",
    "C34_refused",
    "C34_legacy_loaders"
   ],
   "note": ""
  },
  {
   "property": "C35",
   "status": "proved",
   "theorems": [
    "C35_numeric_order",
    "C35_items"
   ],
   "note": "Names are ASCII; others are refused with UnicodeEncodeError."
  },
  {
   "property": "C36",
   "status": "partial",
   "theorems": [
    "C36_subclasses_refuted",
    "C36_numbers_partial",
    "C36_lists_partial",
    "C36_sets_partial",
    "C36_dicts_partial"
   ],
   "note": "False for subclasses of str, Counter, defaultdict and namedtuples. True for subclasses of int, float, complex, bytes, list, tuple, set and dict."
  },
  {
   "property": "C37",
   "status": "partial",
   "theorems": [
    "C37_arrays_refuted",
    "C37_numeric_arrays_partial",
    "C37_string_arrays_partial",
    "C37_object_arrays_partial",
    "C37_element_classes_partial"
   ],
   "note": "False for empty arrays of strings and for arrays of objects whose elements are equally long sequences; true for numeric arrays, other arrays of strings and, up to the classes of numbers, other arrays of objects; elements of one builtin number class come back in that class or the numpy class that stands for it."
  },
  {
   "property": "C38",
   "status": "proved",
   "theorems": [
    "C38_masked",
    "C38_sparse"
   ],
   "note": ""
  },
  {
   "property": "C39",
   "status": "proved",
   "theorems": [
    "C15_C39_C40_nodes"
   ],
   "note": "The bound on the number of nodes is for graphs without arrays of strings or objects."
  },
  {
   "property": "C40",
   "status": "proved",
   "theorems": [
    "C40_pickled",
    "C15_C39_C40_nodes"
   ],
   "note": ""
  },
  {
   "property": "C41",
   "status": "partial",
   "theorems": [
    "C41_gc_state_refuted",
    "C41_gc_stays_enabled_partial"
   ],
   "note": "False: a disabled collector is enabled by dump and load."
  },
  {
   "property": "C42",
   "status": "proved",
   "theorems": [
    "C42_by_file_name"
   ],
   "note": ""
  },
  {
   "property": "C43",
   "status": "proved",
   "theorems": [
    "C43_accepted",
    "C43_total_round_trip"
   ],
   "note": "acceptable_graph (Accept.v) states the documented restrictions: no bytes items of length 0 or 1 in lists, no ragged nested lists, 64 bit ints in all-number containers, no NUL in keys."
  },
  {
   "property": "C44",
   "status": "partial",
   "theorems": [
    "C44_last_refuted",
    "C44_twice_partial",
    "C44_gap_partial"
   ],
   "note": "False if the members with the highest indices are missing. True for gaps and for duplicates other than empty tuples, with the same exception for sparse matrices of hickle 4."
  },
  {
   "property": "C45",
   "status": "proved",
   "theorems": [
    "C45_native"
   ],
   "note": ""
  },
  {
   "property": "C46",
   "status": "partial",
   "theorems": [
    "C46_v3_partial",
    "C46_str_refuted",
    "C46_bytes_refuted",
    "C46_masked_refuted",
    "C46_frozenset_refuted",
    "C46_keys_refuted",
    "C46_names_refuted",
    "C46_paths_refuted"
   ],
   "note": "Proved for the values described by fine (V3Spec.v), of any depth and in any listing order. False for: str with h5py 3, bytes ending in NUL, lists of bytes that are not UTF-8, masked arrays in lists, frozensets of mixed items, the keys False, None and bytes, keys with slashes or printable non-ASCII characters, objects dumped below the path of another."
  },
  {
   "property": "C47",
   "status": "partial",
   "theorems": [
    "C47_not_skipped_partial",
    "C47_group_refuted"
   ],
   "note": "True for nodes without type and datasets of unknown type. False for groups of unknown type, which are returned as a list of the loader's own class."
  },
  {
   "property": "C48",
   "status": "proved",
   "theorems": [
    "C48_circle_never_loads"
   ],
   "note": "Any file, also one not written by hickle, except files in the hickle 3 format. In files of hickle 4 only the members data, indices, indptr and shape of a sparse matrix are followed, as by the code, which does not look at the others."
  },
  {
   "property": "C49",
   "status": "partial",
   "theorems": [
    "C49_core_classes",
    "C49_refused",
    "C49_functions_refuted"
   ],
   "note": "Proved for object, type with its subclasses, and the class of dict items. False for functions and methods: the class of functions can be registered by anyone."
  },
  {
   "property": "C50",
   "status": "proved",
   "theorems": [
    "C50_frame",
    "C50_file_intact",
    "C50_earlier_dump_loads",
    "C50_complete",
    "C18_independent_dumps"
   ],
   "note": "Exceptions between two operations of h5py; the death of the process before the file is closed is a matter of HDF5 and not modelled. Histories with interrupted dumps: C18_independent_dumps."
  },
  {
   "property": "C51",
   "status": "partial",
   "theorems": [
    "C51_leaf_partial",
    "C51_only_containers_partial",
    "C51_before_data_partial",
    "C51_refuted"
   ],
   "note": "False: a list interrupted after its group was typed loads with () for the missing items. What holds at every point of interruption, for any loader, option and reading interpreter: every load raises, or a dataset without type is left (load takes it for a pickle), or the object has items and its group is left, or the dump was complete. Objects without items are therefore never left half written with a type."
  },
  {
   "property": "C52",
   "status": "partial",
   "theorems": [
    "C52_quantities_partial",
    "C52_refuted"
   ],
   "note": "Proved for 64 bit floats and the state a constructor gives by default. False otherwise: dtype, integers beyond 2**53 and the wrap angle of a Longitude are lost."
  },
  {
   "property": "C53",
   "status": "partial",
   "theorems": [
    "C53_sky_partial",
    "C53_frame_and_distance_refuted"
   ],
   "note": "Proved for ICRS without distance. False otherwise: whatever is loaded is ICRS and has no distance."
  },
  {
   "property": "C54",
   "status": "partial",
   "theorems": [
    "C54_times_partial",
    "C54_refuted"
   ],
   "note": "The printed value, format, scale and shape come back. False: the precision and everything the format does not print are lost; scalar text cannot be dumped with compression; datetime cannot be dumped."
  },
  {
   "property": "C55",
   "status": "proved",
   "theorems": [
    "C55_constants"
   ],
   "note": "For texts in ASCII; others raise UnicodeEncodeError."
  },
  {
   "property": "C56",
   "status": "partial",
   "theorems": [
    "C56_tables_partial",
    "C56_top_partial",
    "C56_refuted"
   ],
   "note": "Proved at the top without units, bytes and reserved names; exact description of the meta data in containers. False in general, see C56_refuted."
  },
  {
   "property": "C57",
   "status": "partial",
   "theorems": [
    "C57_loads_partial",
    "C57_one_value",
    "C57_false_key_refuted",
    "C57_bytes_key_refuted",
    "C57_empty_string_refuted",
    "C57_characters_refuted",
    "C57_str_subclass_refuted"
   ],
   "note": "Proved for None, numbers, strings, bytes, lists, tuples, dicts and OrderedDicts with str, number and None keys, numeric and string arrays, zero dimensional object arrays, masked arrays, sparse matrices and pickled objects. False for the key False, bytes as keys, lists of one character strings with an empty one, arrays of single characters and subclasses of str. Not covered: sets, subclasses other than of str."
  },
  {
   "property": "C58",
   "status": "proved",
   "theorems": [
    "C58_loaded_objects_are_new",
    "C58_loads_share_nothing"
   ],
   "note": "For every file that is not of hickle 3 (whose loaders are modelled on values without identity), damaged ones included, and whatever loaders are registered."
  },
  {
   "property": "C59",
   "status": "proved",
   "theorems": [
    "C59_second_trip",
    "C59_second_dump_refuted"
   ],
   "note": "The claim is about second dumps that return. That the second dump always returns is false: an array of objects holding np.uint64(2**63) is loaded as one holding the Python int 2**63, which dump refuses (C59_second_dump_refuted)."
  },
  {
   "property": "C60",
   "status": "proved",
   "theorems": [
    "C60_load_determined",
    "C60_load_twice"
   ],
   "note": "For every file that is not of hickle 3 (whose loaders are modelled on values without identity), damaged ones included, and whatever loaders are registered. The order in which a set iterates its elements, which Python derives from hashes, is the order of insertion in the model."
  },
  {
   "property": "C61",
   "status": "proved",
   "theorems": [
    "C61_dump_determined",
    "C61_dump_twice"
   ],
   "note": "The order in which a set iterates its elements is part of its structure in the model. About the environment only this is assumed: numpy judges nested sequences by their structure."
  },
  {
   "property": "C62",
   "status": "partial",
   "theorems": [
    "C62_astropy_partial",
    "C62_forgotten_refuted",
    "C62_single_time_refuted",
    "C62_refuted"
   ],
   "note": "Proved for quantities and angles of 64 bit floats, ICRS coordinates without distance, arrays of times in the default precision (text in one dimension), constants, and tables without units, text columns and reserved meta names. False in general: frames, distances, precision, dtypes and units are lost, single times could not be dumped, a table with a meta entry named type is written and cannot be loaded."
  },
  {
   "property": "C63",
   "status": "proved",
   "theorems": [
    "C63_other_files",
    "C63_keeps_content",
    "C63_replaces",
    "C63_exclusive",
    "C63_reading"
   ],
   "note": "Refusal by x and replacement by w are stated for file names, the rest for every kind of argument; for groups of open files see C17. What HDF5 does when a file is opened twice is not modelled."
  },
  {
   "property": "C64",
   "status": "proved",
   "theorems": [
    "C64_common_copy",
    "C64_positions",
    "C64_sharing",
    "C64_keys",
    "C64_elements"
   ],
   "note": "For the object graphs of C01 (graph_ok). C64_applies is a pair of different lists, ints and numpy int64, that leave the same file."
  },
  {
   "property": "C65",
   "status": "partial",
   "theorems": [
    "C65_steps",
    "C65_finishes",
    "C65_registered_partial",
    "C65_loaded_partial",
    "C65_uninterrupted_partial",
    "C65_refuted",
    "C65_error_refuted"
   ],
   "note": "False: a thread interrupted between looking for the class and looking whether the module is loaded takes a class for one without loader and pickles the object (C65_refuted); modules with base types in exclamation marks fail when two threads load them (C65_error_refuted). Proved for every schedule: threads finish, a search never raises and finds a loader registered for a class of the mro or the fallback, threads whose modules were loaded before are not disturbed, and uninterrupted searches are right wherever other threads were stopped. Not modelled: threads sharing one open file, interruptions within one registration."
  },
  {
   "property": "C66",
   "status": "partial",
   "theorems": [
    "C66_steps",
    "C66_finishes",
    "C66_released",
    "C66_other_files",
    "C66_exclusive_partial",
    "C66_refuses_partial",
    "C66_one_thread_partial",
    "C66_race_refuted",
    "C66_lost_refuted",
    "C66_collected_refuted"
   ],
   "note": "Proved for every interleaving: calls end, leave no manager behind and do not depend on calls on other files. Mutual exclusion on one file is false: two threads may both pass the check (C66_race_refuted), the first to leave takes the manager of the other away (C66_lost_refuted), and with a single thread the finalizers of a failed call, run late, remove the managers of a later one (C66_collected_refuted). It is proved for runs in which check and entry are not separated and no finalizer runs during a call on its file, which includes every single thread with nested calls and timely collection. Not modelled here: what the overlapping calls write, hickle 4.x files."
  },
  {
   "property": "C67",
   "status": "partial",
   "theorems": [
    "C67_get_root_partial",
    "C67_group_itself",
    "C67_pickled_object",
    "C67_pickled_refuted"
   ],
   "note": "Proved for every node of every dump with the standard loaders and no loader options except one: the data node of an object that is itself pickled, dumped to a group other than '/', leads to '/' (C67_pickled_refuted, in general C67_pickled_object). Not covered: files with links made by hand, dumps with optional or custom loaders."
  },
  {
   "property": "C68",
   "status": "partial",
   "theorems": [
    "C68_accepted_partial",
    "C68_calls",
    "C68_opener",
    "C68_not_writable_refuted"
   ],
   "note": "Proved with 'can be written to' meaning that write(b'') returns. False with the answer of the object's writable() instead: file_opener asks for 'writeable', which io classes do not have, so that the answer is not heard (C68_not_writable_refuted). That read(0), seek(0), tell() and write(b'') leave contents alone is a matter of the object; readable and seekable that raise are not modelled."
  }
 ]
}