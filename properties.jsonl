{"id": "C01", "title": "dump then load restores the object graph", "statement": "For every acyclic graph of Python objects built from None, bool, int, float, complex, str, bytes, numpy scalars, list, tuple, set, dict (and plain subclasses of the containers and numbers), numeric ndarrays and objects hickle can only pickle, if each object satisfies the documented value restrictions then, once hickle.dump has returned without error (see C43), hickle.load of the same file and path returns a graph isomorphic to the original: same classes, same leaf values, same element order of list/tuple, same key/value pairs in the same insertion order of dict, same elements of set, numbers inside all-number containers being numerically equal.", "quantifier": "all finite acyclic object heaps of any size, depth and sharing; all kwargs; all HDF5 iteration orders of group members; all prior contents of the file outside the target path", "why_tests_cant": "tests round-trip a handful of literals; the space of nestings, sharings, key kinds and sizes is infinite and defects sit at combinations (e.g. a shared key inside a nested dict inside a list longer than ten items)", "anchors": ["hickle/hickle.py:_dump", "hickle/hickle.py:_load", "hickle/hickle.py:dump", "hickle/hickle.py:load", "hickle/loaders/load_builtins.py"]}
{"id": "C02", "title": "aliasing is preserved", "statement": "If the same (memoised) object is referenced from several places of the dumped structure, load returns one single object at all these places; two distinct mutable objects never become one.", "quantifier": "all object graphs, all pairs of positions, all HDF5 iteration orders (also when a reference node is visited before the node it points to)", "why_tests_cant": "identity of every pair of positions in every graph cannot be enumerated; the iteration order of the HDF5 file differs from the order of dumping (data10 before data2)", "anchors": ["hickle/hickle.py:_dump", "hickle/hickle.py:_load", "hickle/lookup.py:ExpandReferenceContainer"]}
{"id": "C03", "title": "dump terminates on every finite object graph", "statement": "dump never recurses without bound: on every finite object graph, cyclic ones included, the recursion depth is bounded by a linear function of the number of objects.", "quantifier": "all finite heaps including cyclic ones", "why_tests_cant": "non-termination is not observable by a finite test, and cyclic shapes are unbounded in number", "anchors": ["hickle/hickle.py:_dump"]}
{"id": "C04", "title": "what dump accepts load can restore: cyclic objects", "statement": "An object graph that hickle.dump stores without error can be loaded again, also if it contains a reference cycle (a list containing itself).", "quantifier": "all dumpable object graphs including cyclic ones; all recursion limits", "why_tests_cant": "a test observes a RecursionError for one recursion limit only; that no limit suffices is a statement about every limit", "anchors": ["hickle/hickle.py:_dump", "hickle/hickle.py:_load"]}
{"id": "C05", "title": "integers survive at any magnitude", "statement": "A Python int (or bool, float, complex, None) dumped on its own is loaded as an equal object of the same class, for every magnitude and sign including the 63/64 bit boundaries.", "quantifier": "all integers; all floats, complex numbers, bools", "why_tests_cant": "infinitely many integers; the representation switches at |n| >= 2^63", "anchors": ["hickle/loaders/load_builtins.py:create_scalar_dataset", "hickle/loaders/load_builtins.py:load_scalar_dataset"]}
{"id": "C06", "title": "text and byte strings survive", "statement": "Every str without lone surrogates and every bytes object (empty, with NUL bytes, with any code point up to U+10FFFF) is loaded as an equal object of the same class; a str containing a lone surrogate is refused with an exception instead of being stored wrongly.", "quantifier": "all code point sequences and byte sequences of any length", "why_tests_cant": "the UTF-8 codec has boundaries at 0x80, 0x800, 0xD800-0xDFFF, 0x10000; all strings cannot be tested", "anchors": ["hickle/loaders/load_builtins.py:create_listlike_dataset", "hickle/loaders/load_builtins.py:load_list_dataset"]}
{"id": "C07", "title": "sequence order does not depend on HDF5 member order", "statement": "Loading a list or tuple stored as an HDF5 group yields the elements in original order and number whatever order the group's members are iterated in.", "quantifier": "all lists of any length; all permutations of the member iteration order", "why_tests_cant": "n! orders; tests see only the alphabetical order of one h5py build and mostly lists shorter than eleven items", "anchors": ["hickle/loaders/load_builtins.py:ListLikeContainer", "hickle/loaders/load_builtins.py:create_listlike_dataset"]}
{"id": "C08", "title": "dict keys survive with type and insertion order", "statement": "Every dict whose keys are str, bytes, int, float, complex, None, True or any other hashable dumpable object is loaded with equal keys of the same class, in the same insertion order, each mapped to its own value, whatever order the group's members are iterated in.", "quantifier": "all dicts of any size and key mix; all member iteration orders", "why_tests_cant": "key kinds, escaping cases (slashes, quotes, backslashes, non UTF-8 bytes) and orders combine without bound", "anchors": ["hickle/loaders/load_builtins.py:create_dictlike_dataset", "hickle/loaders/load_builtins.py:DictLikeContainer"]}
{"id": "C09", "title": "the dict key False survives", "statement": "A dict with the key False is loaded with the key False, and a dict holding both True and False keeps both entries.", "quantifier": "all dicts having False among their keys", "why_tests_cant": "the tests only use True as bool key; the statement is about every dict with a False key", "anchors": ["hickle/loaders/load_builtins.py:dict_key_types_dict", "hickle/loaders/load_builtins.py:DictLikeContainer.append"]}
{"id": "C10", "title": "distinct keys get distinct, legal member names", "statement": "The names under which the entries of one dict are stored are pairwise distinct and never contain a path separator, so that no entry overwrites or hides another and no entry makes dump fail.", "quantifier": "all pairs of distinct keys of all dicts", "why_tests_cant": "needs injectivity of the key-to-name mapping over all pairs of keys", "anchors": ["hickle/loaders/load_builtins.py:create_dictlike_dataset"]}
{"id": "C11", "title": "sets survive", "statement": "Every set of supported hashable elements is loaded as a set with equal elements and the same number of elements.", "quantifier": "all sets of any size, all internal orders, all HDF5 member orders", "why_tests_cant": "hash order is randomised; element mixes are unbounded", "anchors": ["hickle/loaders/load_builtins.py:create_setlike_dataset", "hickle/loaders/load_builtins.py:SetLikeContainer"]}
{"id": "C12", "title": "numbers inside lists, tuples and sets keep their value", "statement": "dump either refuses a container made of numbers only or load returns numerically identical elements.", "quantifier": "all containers of bools, ints, floats, complex numbers and numpy scalars", "why_tests_cant": "precision loss occurs only for particular magnitude/type mixes such as [2**53+1, 0.5]", "anchors": ["hickle/loaders/load_builtins.py:check_iterable_item_type", "hickle/loaders/load_builtins.py:create_listlike_dataset"]}
{"id": "C13", "title": "a list of ints of any size can be dumped", "statement": "If each element of a list can be dumped on its own then the list can be dumped.", "quantifier": "all lists of supported elements", "why_tests_cant": "fails only for particular element combinations (large ints, a one byte bytes object before a number, a ragged nested list after a number)", "anchors": ["hickle/loaders/load_builtins.py:check_iterable_item_type", "hickle/loaders/load_builtins.py:create_listlike_dataset"]}
{"id": "C14", "title": "element types survive", "statement": "The elements of a loaded list have the same classes as the elements of the dumped list.", "quantifier": "all lists", "why_tests_cant": "equality based assertions (==) in tests do not see int becoming numpy.int64 or bool becoming int", "anchors": ["hickle/loaders/load_builtins.py:load_list_dataset"]}
{"id": "C15", "title": "every node resolves to the class it was dumped with", "statement": "For every sequence of nodes stored in one dump, the type table yields for each node exactly the class and loader name it was stored with; each class is recorded once, entry names never collide, and creating entries never changes the ones present.", "quantifier": "all sequences of (class, base type) registrations of any length", "why_tests_cant": "an invariant over all histories of the table", "anchors": ["hickle/lookup.py:ReferenceManager.store_type", "hickle/lookup.py:ReferenceManager.resolve_type"]}
{"id": "C16", "title": "object identity is never confused by address reuse", "statement": "While a dump is running a memoised address always denotes the object it was recorded for: no schedule of allocation and garbage collection of temporary objects makes dump store a reference to an unrelated object.", "quantifier": "all interleavings of allocation, release and dump steps, all choices of reused addresses", "why_tests_cant": "address reuse depends on the allocator and the garbage collector and is not reproducible in tests", "anchors": ["hickle/hickle.py:_dump (memo[py_obj_id] = (h_node,py_obj))"]}
{"id": "C17", "title": "dump only touches its target", "statement": "dump to a path of an open file never changes any node, attribute or link outside the target group (apart from creating missing parent groups), whether it succeeds or fails, and refuses a non-empty target group leaving the file unchanged.", "quantifier": "all file contents, all paths, all objects, success and failure", "why_tests_cant": "frame property over arbitrary prior file contents and every failure point", "anchors": ["hickle/hickle.py:dump", "hickle/hickle.py:_dump"]}
{"id": "C18", "title": "several dumps in one file do not disturb each other", "statement": "After any sequence of successful dumps to different paths of the same file, none inside another one's data, load of each path returns what was dumped there.", "quantifier": "all histories of dumps", "why_tests_cant": "unbounded histories", "anchors": ["hickle/hickle.py:dump", "hickle/hickle.py:load"]}
{"id": "C19", "title": "a failed dump is not mistaken for data", "statement": "If dump raised an exception, a later load of that path does not return a value.", "quantifier": "all objects whose dump fails, all failure points", "why_tests_cant": "needs every failure point of every object", "anchors": ["hickle/hickle.py:dump", "hickle/loaders/load_builtins.py:ListLikeContainer"]}
{"id": "C20", "title": "damaged sequences are detected", "statement": "Loading a list group in which a member is missing or an index occurs twice raises an error instead of returning a wrong list.", "quantifier": "all list groups with missing or duplicate members", "why_tests_cant": "all subsets of missing members and all iteration orders", "anchors": ["hickle/loaders/load_builtins.py:ListLikeContainer", "hickle/helpers.py:nobody_is_my_name"]}
{"id": "C21", "title": "hickle closes exactly the files it opened", "statement": "A file hickle opened itself is closed when dump or load returns or raises; a file opened by the caller stays open.", "quantifier": "all inputs and all failure points after opening", "why_tests_cant": "every exception path has to release the handle", "anchors": ["hickle/hickle.py:dump", "hickle/hickle.py:load", "hickle/fileio.py:file_opener"]}
{"id": "C22", "title": "load reports problems as ValueError", "statement": "Once the file is open, every failure of load - missing path, wrong version attributes, broken type table, unknown loader, damaged content - reaches the caller as ValueError and never as another exception type.", "quantifier": "all file contents", "why_tests_cant": "the space of broken files is unbounded", "anchors": ["hickle/hickle.py:load"]}
{"id": "C23", "title": "no manager is left behind", "statement": "After any history of dump and load calls, successful or not, no per-file manager remains registered, so the same open file can be used again; while one is active a second dump or load on the same file is refused.", "quantifier": "all histories of calls, all failure points", "why_tests_cant": "an invariant over unbounded histories including exceptions", "anchors": ["hickle/lookup.py:BaseManager.create_manager", "hickle/lookup.py:ReferenceManager.__exit__", "hickle/lookup.py:LoaderManager.__exit__"]}
{"id": "C24", "title": "load does not modify the file", "statement": "load never changes the content of the file it reads, whatever mode an already open file has.", "quantifier": "all files and modes", "why_tests_cant": "tests compare the value returned, not the bytes of the file", "anchors": ["hickle/lookup.py:ReferenceManager.__init__", "hickle/hickle.py:load"]}
{"id": "C25", "title": "compression options never matter for the value and never break scalars", "statement": "Chunk, filter and compression keyword arguments never reach the creation of a scalar or empty dataset, for which HDF5 would refuse them, so dump succeeds with them whenever it succeeds without; the loaded value does not depend on them.", "quantifier": "all keyword argument sets, all objects", "why_tests_cant": "all combinations of six options with all object kinds", "anchors": ["hickle/helpers.py:no_compression", "hickle/loaders/load_builtins.py", "hickle/loaders/load_numpy.py"]}
{"id": "C26", "title": "options chosen at dump are in force at load", "statement": "The optional loader sets activated by load are exactly those switched on in the options passed to dump; unknown options are refused.", "quantifier": "all option dictionaries", "why_tests_cant": "all dictionaries of options and values", "anchors": ["hickle/lookup.py:LoaderManager.__init__"]}
{"id": "C27", "title": "core loaders cannot be redefined", "statement": "No sequence of register_class calls after start up changes what the base types pickle, !node-reference! and !recover! are loaded with.", "quantifier": "all sequences of registrations by user code and loader modules", "why_tests_cant": "invariant over unbounded histories of registrations", "anchors": ["hickle/lookup.py:LoaderManager.register_class"]}
{"id": "C28", "title": "core loaders cannot be excluded", "statement": "register_class_exclude refuses the base types dict_item, pickle and every base type enclosed in a pair of exclamation marks.", "quantifier": "all base type strings", "why_tests_cant": "the tests check one base type only", "anchors": ["hickle/lookup.py:LoaderManager.register_class_exclude"]}
{"id": "C29", "title": "the most specific loader wins, independent of history", "statement": "The loader chosen for a class is the one of the first class in its method resolution order having one, with active optional loaders shadowing global ones, and does not depend on which loader modules have been imported before; a class without any is pickled.", "quantifier": "all classes, all orders of previous lookups", "why_tests_cant": "the outcome could depend on the import history of the process", "anchors": ["hickle/lookup.py:LoaderManager.load_loader"]}
{"id": "C30", "title": "data of missing classes is recovered", "statement": "If the class of a stored object cannot be imported any more, load still returns the stored content as a RecoveredGroup or RecoveredDataset carrying the stored attributes without 'type' plus the original base_type.", "quantifier": "all nodes, all sets of unavailable classes", "why_tests_cant": "tests use one class", "anchors": ["hickle/lookup.py:ReferenceManager.resolve_type", "hickle/lookup.py:RecoverGroupContainer", "hickle/lookup.py:recover_custom_dataset"]}
{"id": "C31", "title": "attribute overlays never reach the file", "statement": "Attributes modified through the node proxy passed to sub item loading are visible through the proxy and never change the attributes of the underlying node.", "quantifier": "all sequences of attribute reads, writes and deletions", "why_tests_cant": "all operation sequences", "anchors": ["hickle/helpers.py:H5NodeFilterProxy"]}
{"id": "C32", "title": "the path and mode arguments select what they say", "statement": "For every kind of file argument the object is stored below the joined path of group and path argument; a file that is read only is never opened for writing, invalid modes and closed files are refused, and only file names and file-like objects are closed by hickle.", "quantifier": "all path strings, modes and file argument kinds", "why_tests_cant": "string handling with leading, trailing and doubled slashes and all mode strings", "anchors": ["hickle/fileio.py:file_opener"]}
{"id": "C33", "title": "every documented mode works with a file name", "statement": "The modes 'w','w+','x','x+','r','r+','a', optionally with 'b', documented for dump are accepted for a file name.", "quantifier": "all documented modes", "why_tests_cant": "the tests do not try all of them", "anchors": ["hickle/fileio.py:file_opener"]}
{"id": "C34", "title": "the right loader generation is chosen", "statement": "load treats a file as hickle 3 exactly if the file carries complete v3 attributes, otherwise as 4.x exactly if the major number of the stored version is 4, otherwise as current format if the version attributes are present, and refuses it otherwise.", "quantifier": "all combinations of file and group attributes", "why_tests_cant": "all attribute combinations", "anchors": ["hickle/hickle.py:load"]}
{"id": "C35", "title": "hickle 3 lists keep their order", "statement": "When loading a hickle 3 group whose member names carry numbers, the members are visited in increasing numeric order, each exactly once, members of equal number in file order.", "quantifier": "all sets of member names", "why_tests_cant": "all name lists of any length, e.g. data_10 versus data_9", "anchors": ["hickle/legacy_v3/helpers.py:sort_keys"]}
{"id": "C36", "title": "subclasses survive", "statement": "An instance of a plain subclass of list, tuple, set, dict, int, float, complex, bytes or str is loaded as an equal instance of that subclass.", "quantifier": "all subclasses and all contents", "why_tests_cant": "tests use no str subclass, Counter, defaultdict or namedtuple", "anchors": ["hickle/loaders/load_builtins.py:create_listlike_dataset", "hickle/loaders/load_builtins.py:load_list_dataset", "hickle/loaders/load_builtins.py:DictLikeContainer.convert"]}
{"id": "C37", "title": "numpy arrays survive", "statement": "A numeric ndarray of any shape and dtype, and an ndarray of strings or objects, is loaded with the same shape, dtype and elements.", "quantifier": "all shapes, dtypes and contents", "why_tests_cant": "empty arrays, zero dimensional arrays and arrays of equally long lists are rare in tests", "anchors": ["hickle/loaders/load_numpy.py:create_np_array_dataset", "hickle/loaders/load_numpy.py:load_ndarray_dataset", "hickle/loaders/load_numpy.py:NDArrayLikeContainer"]}
{"id": "C38", "title": "masked arrays and sparse matrices survive", "statement": "A masked array is loaded with the same data and mask and a csr/csc/bsr matrix with the same data, index arrays and shape, whatever order the HDF5 members are iterated in.", "quantifier": "all contents, all member orders", "why_tests_cant": "member order is fixed in tests", "anchors": ["hickle/loaders/load_numpy.py:create_np_masked_array_dataset", "hickle/loaders/load_scipy.py:SparseMatrixContainer"]}
{"id": "C39", "title": "each object is written once", "statement": "A memoised object occurring k times in the structure is stored in exactly one node and k-1 reference nodes; the number of nodes is bounded by the number of edges of the graph.", "quantifier": "all graphs", "why_tests_cant": "structural statement over all graphs", "anchors": ["hickle/hickle.py:_dump"]}
{"id": "C40", "title": "unknown objects are pickled as they are", "statement": "An object for whose class no loader exists is stored as one pickle string, shared occurrences as references to it, and is loaded by unpickling it.", "quantifier": "all classes without loader", "why_tests_cant": "the statement is about every class", "anchors": ["hickle/lookup.py:create_pickled_dataset", "hickle/lookup.py:load_pickled_data", "hickle/lookup.py:LoaderManager.load_loader"]}
{"id": "C41", "title": "the garbage collector keeps its state", "statement": "dump and load leave the automatic garbage collector enabled if it was enabled and disabled if it was disabled.", "quantifier": "all calls, all outcomes", "why_tests_cant": "a test would have to disable the collector first and compare afterwards for every exit path", "anchors": ["hickle/hickle.py:dump", "hickle/hickle.py:load"]}
{"id": "C42", "title": "round trip through a file name, across processes", "statement": "An object dumped to a file name with mode w (or to a name that does not exist) is restored by load from that name in any later process, as long as the file keeps its content; the load changes no file and leaves no file open.", "quantifier": "all supported object graphs, paths, file systems and later processes with any memory and any open files", "why_tests_cant": "combinations of processes, open files and paths", "anchors": ["hickle/hickle.py:dump", "hickle/hickle.py:load", "hickle/fileio.py:file_opener"]}
{"id": "C43", "title": "documented values are accepted", "statement": "hickle.dump returns without error for every object graph, cyclic ones included, consisting of objects of the documented types that satisfy the documented value restrictions, at every path that is free in the file, provided the recursion limit exceeds twice the number of objects.", "quantifier": "all graphs of documented values of any size and shape, all free paths of all files, all keyword arguments", "why_tests_cant": "acceptance has to hold for every combination of item types, key types and sharing", "anchors": ["hickle/hickle.py:_dump", "hickle/hickle.py:dump", "hickle/loaders/load_builtins.py", "hickle/loaders/load_numpy.py"]}
{"id": "C44", "title": "damaged dicts are detected", "statement": "Loading a dict group in which two members have the same index, or in which a member is missing, raises an error instead of returning a wrong dict.", "quantifier": "all dict groups with missing or duplicate members, anywhere in the data, all iteration orders", "why_tests_cant": "all subsets of missing members, all iteration orders and all places of the damaged group in the data", "anchors": ["hickle/loaders/load_builtins.py:DictLikeContainer"]}
{"id": "C45", "title": "data are stored natively", "statement": "After a successful dump the numbers, strings and arrays in the dumped structure are plain HDF5 datasets: booleans, integers, floats and complex numbers as scalar datasets of the matching HDF5 type, integers beyond 63 bits as decimal text, strings as UTF-8, numpy arrays with their dtype, shape and values, lists, tuples and sets of numbers of one class as one-dimensional datasets; dict values are found under the quoted key and list elements under data0, data1, ..., so that other HDF5 programs can read them.", "quantifier": "all object graphs, all nodes of the dumped structure", "why_tests_cant": "a round trip test does not notice a change of the file format that dump and load share", "anchors": ["hickle/loaders/load_builtins.py:create_scalar_dataset", "hickle/loaders/load_builtins.py:create_listlike_dataset", "hickle/loaders/load_builtins.py:create_dictlike_dataset", "hickle/loaders/load_numpy.py:create_np_array_dataset", "hickle/loaders/load_numpy.py:create_np_scalar_dataset"]}
{"id": "C46", "title": "hickle 3 files are loaded", "statement": "For every value that hickle 3 dumped, load of the file returns an equal value of the same class (items of lists, tuples and sets of numbers as numpy scalars), whatever the h5py version and whatever the order in which HDF5 lists the members of groups.", "quantifier": "all values of the types hickle 3 supports, nested to any depth, all listing orders, h5py before and after 3.0", "why_tests_cant": "all nestings, dict keys, and numbers of items; the names of entries are made with repr and parsed back", "anchors": ["hickle/legacy_v3/hickle.py:_load", "hickle/legacy_v3/hickle.py:load", "hickle/legacy_v3/hickle.py:PyContainer.convert", "hickle/legacy_v3/hickle.py:_dump", "hickle/legacy_v3/helpers.py:sort_keys", "hickle/legacy_v3/lookup.py:container_key_types_dict", "hickle/legacy_v3/loaders/load_python3.py", "hickle/legacy_v3/loaders/load_numpy.py", "hickle/legacy_v3/loaders/load_scipy.py"]}
{"id": "C47", "title": "hickle 3 nodes of unknown type are not skipped", "statement": "If a hickle 3 file contains, anywhere in the data loaded, a node without type or of a type that is not known, load raises an error; it neither omits the node nor returns something else in its place.", "quantifier": "all trees, all places of the node", "why_tests_cant": "the node may be anywhere in a file of any shape", "anchors": ["hickle/legacy_v3/hickle.py:_load", "hickle/legacy_v3/hickle.py:load_dataset", "hickle/legacy_v3/hickle.py:PyContainer.convert", "hickle/legacy_v3/helpers.py:get_type"]}
{"id": "C48", "title": "circular files are never loaded", "statement": "If, starting at the data node of a file, one comes by way of group members and stored references to a node that needs itself, load of the file does not return a value: it raises an error, and in particular never returns an object with a part missing.", "quantifier": "all files, whether written by hickle or not, with hard links and references of any shape, all loaders, all listing orders", "why_tests_cant": "circles may have any length and go through any mixture of groups and references", "anchors": ["hickle/hickle.py:_load", "hickle/hickle.py:load", "hickle/loaders/load_builtins.py:ListLikeContainer"]}
{"id": "C49", "title": "core classes cannot be taken over", "statement": "No sequence of register_class calls with functions defined outside hickle or in loader modules changes how hickle dumps instances of object, classes, functions and methods: such calls raise TypeError and have no effect.", "quantifier": "all sequences of registrations by user code and loader modules, all options", "why_tests_cant": "invariant over unbounded histories of registrations; the check depends on the modules of three functions", "anchors": ["hickle/lookup.py:LoaderManager.register_class"]}
{"id": "C50", "title": "an interrupted dump harms nothing else", "statement": "If dump is stopped by an exception at any moment between two operations on the file (KeyboardInterrupt, MemoryError, a failing write), everything in the file outside the group it was writing to is unchanged, and objects dumped earlier to other paths load exactly as before.", "quantifier": "all objects, files, target paths, options and points of interruption, also several interrupted dumps in any order with complete ones", "why_tests_cant": "the moment of interruption is arbitrary, and tests do not interrupt", "anchors": ["hickle/hickle.py:dump", "hickle/hickle.py:_dump", "hickle/lookup.py:ReferenceManager.store_type"]}
{"id": "C51", "title": "an interrupted dump is not mistaken for an object", "statement": "If dump was stopped by an exception before it had written everything, loading the path it was writing to raises an error; it does not return an object that was never dumped.", "quantifier": "all objects and points of interruption", "why_tests_cant": "the state of the file depends on the point of interruption and the shape of the object", "anchors": ["hickle/hickle.py:dump", "hickle/hickle.py:_dump", "hickle/hickle.py:load", "hickle/loaders/load_builtins.py:ListLikeContainer"]}
{"id": "C52", "title": "Astropy quantities and angles survive", "statement": "A Quantity, Angle or instance of a subclass comes back from dump and load with the same class, dtype, shape, values and unit, at the top and inside containers, whatever keyword arguments are given to dump.", "quantifier": "all arrays of values, shapes, units Astropy can read, classes and keyword arguments", "why_tests_cant": "values, shapes and units are unbounded; the tests compare a few with a tolerance", "anchors": ["hickle/loaders/load_astropy.py:create_astropy_quantity", "hickle/loaders/load_astropy.py:create_astropy_angle", "hickle/loaders/load_astropy.py:load_astropy_quantity_dataset", "hickle/loaders/load_astropy.py:load_astropy_angle_dataset"]}
{"id": "C53", "title": "Astropy sky coordinates survive", "statement": "A SkyCoord comes back with the same frame, longitudes, latitudes, distances, units and shape.", "quantifier": "all coordinates, frames and representations", "why_tests_cant": "frames and representations are many and the arrays unbounded", "anchors": ["hickle/loaders/load_astropy.py:create_astropy_skycoord", "hickle/loaders/load_astropy.py:load_astropy_skycoord_dataset"]}
{"id": "C54", "title": "Astropy times survive", "statement": "A Time comes back with the same format, scale, precision, shape and instants, whatever keyword arguments are given to dump.", "quantifier": "all times, formats, scales, precisions and keyword arguments", "why_tests_cant": "a continuum of instants times all formats", "anchors": ["hickle/loaders/load_astropy.py:create_astropy_time", "hickle/loaders/load_astropy.py:load_astropy_time_dataset"]}
{"id": "C55", "title": "Astropy constants survive", "statement": "A Constant with ASCII texts comes back with the same abbreviation, name, value, unit, uncertainty, reference and system.", "quantifier": "all constants and keyword arguments", "why_tests_cant": "all field values", "anchors": ["hickle/loaders/load_astropy.py:create_astropy_constant", "hickle/loaders/load_astropy.py:load_astropy_constant_dataset"]}
{"id": "C56", "title": "Astropy tables survive", "statement": "A Table comes back with the same columns, units, rows and meta data, at the top and inside containers.", "quantifier": "all tables, meta data and containers", "why_tests_cant": "meta data is an arbitrary mapping that shares its name space with the attributes hickle sets", "anchors": ["hickle/loaders/load_astropy.py:create_astropy_table", "hickle/loaders/load_astropy.py:load_astropy_table", "hickle/hickle.py:_dump"]}
{"id": "C57", "title": "hickle 4 files are loaded", "statement": "For every value that hickle 4 dumped, load of the file returns an equal value of the same class (items of lists and tuples of numbers or bytes as numpy scalars), at any path, whatever else the file contains, whatever the order in which HDF5 lists the members of groups, and whether the file is writable or not.", "quantifier": "all values of the types hickle 4 stored without and with pickle, nested to any depth, all listing orders, shared nodes", "why_tests_cant": "all nestings, keys, numbers of items and listing orders; the repository has one file written by hickle 4.0 to test with", "anchors": ["hickle/hickle.py:load", "hickle/hickle.py:_load", "hickle/lookup.py:ReferenceManager.resolve_type", "hickle/lookup.py:fix_lambda_obj_type", "hickle/lookup.py:_DictItemContainer", "hickle/loaders/load_builtins.py:load_hickle_4_x_string", "hickle/loaders/load_builtins.py:load_list_dataset", "hickle/loaders/load_builtins.py:DictLikeContainer", "hickle/loaders/load_numpy.py:load_ndarray_dataset", "hickle/loaders/load_numpy.py:NDArrayLikeContainer"]}
{"id": "C58", "title": "loaded objects are new", "statement": "load changes no object that existed before and builds the structure it returns from new objects only: nothing it returns is shared with what was in memory before, in particular with the result of an earlier load, so changing one loaded object never changes another. The empty tuple, of which Python has one only, is the exception.", "quantifier": "all files of hickle 4 and 5, written by dump or not, all paths, all registered loaders, all memory contents and histories of loads", "why_tests_cant": "all memory contents, histories and files", "anchors": ["hickle/hickle.py:load", "hickle/hickle.py:_load", "hickle/loaders/load_builtins.py:ListLikeContainer", "hickle/loaders/load_builtins.py:DictLikeContainer", "hickle/helpers.py:nobody_is_my_name"]}
{"id": "C59", "title": "a loaded object makes the round trip, too", "statement": "An object returned by load of a dumped file is in no way worse than the original: when it is dumped again, by whatever process having it and to whatever file, and that dump returns, load gives back the same structure in the sense of C01. Nothing has to be checked anew about the loaded object: no dict key, class, number or array came back in a form that a second trip could not preserve.", "quantifier": "all object graphs, environments, files and paths of both trips, all numbers of trips", "why_tests_cant": "all object graphs and histories", "anchors": ["hickle/hickle.py:dump", "hickle/hickle.py:load", "hickle/loaders/load_numpy.py:load_ndarray_dataset", "hickle/loaders/load_builtins.py:load_list_dataset"]}
{"id": "C60", "title": "what load returns is determined by the file", "statement": "Two processes with the same Python environment and the same registered loaders that load the same path of the same file get the same: both raise the same error, or both get the same structure, with the same classes and values and with objects shared in the one exactly where they are in the other, whatever other objects they have in memory. In particular, loading the same path twice gives the same structure twice.", "quantifier": "all files of hickle 4 and 5, written by dump or not, all paths, all registered loaders, all memory contents of the two processes", "why_tests_cant": "load compares objects by identity and hashes them by address in places; memory contents are arbitrary", "anchors": ["hickle/hickle.py:load", "hickle/hickle.py:_load", "hickle/helpers.py:nobody_is_my_name", "hickle/loaders/load_builtins.py:ListLikeContainer", "hickle/loaders/load_builtins.py:SetLikeContainer", "hickle/loaders/load_builtins.py:DictLikeContainer"]}
{"id": "C61", "title": "what dump writes is determined by the object", "statement": "What dump writes and whether it raises an error depends only on the structure of the object (classes, values, and which objects are shared), on the arguments and on the file, not on where the objects are in memory or on what else is there. dump changes no object, whether it returns or not, and dumping the same object again to the same file would write the same again.", "quantifier": "all object graphs, also ones that contain themselves, all memory contents, files, paths and arguments, also calls that fail", "why_tests_cant": "dump recognises objects by their memory address, and makes temporary objects while others are alive; memory layouts are arbitrary", "anchors": ["hickle/hickle.py:dump", "hickle/hickle.py:_dump", "hickle/lookup.py:ReferenceManager.store_type", "hickle/loaders/load_builtins.py:create_listlike_dataset", "hickle/loaders/load_builtins.py:create_dictlike_dataset", "hickle/loaders/load_numpy.py:create_np_array_dataset"]}
{"id": "C62", "title": "Astropy objects of hickle 3 files are loaded", "statement": "Every Quantity, Angle, SkyCoord, Time, Constant and Table that hickle 3 dumped is loaded as an equal object: the same class, dtype, shape, values, units, frame, format, scale, precision, texts, columns and meta data.", "quantifier": "all objects of these classes, units, frames, formats and meta data", "why_tests_cant": "arrays, texts and meta data are unbounded, and no test writes hickle 3 files any more", "anchors": ["hickle/legacy_v3/loaders/load_astropy.py:create_astropy_quantity", "hickle/legacy_v3/loaders/load_astropy.py:load_astropy_table", "hickle/legacy_v3/loaders/load_astropy.py:load_astropy_time_dataset", "hickle/legacy_v3/loaders/load_astropy.py:load_astropy_skycoord_dataset", "hickle/legacy_v3/loaders/load_astropy.py:load_astropy_constant_dataset", "hickle/legacy_v3/hickle.py:load_dataset"]}
{"id": "C63", "title": "the mode decides what happens to an existing file", "statement": "A dump or load changes no file other than the one it was given, whatever the outcome. A dump to a file that exists keeps everything the file holds outside the target unless the mode begins with w; with mode w the outcome is the same whatever the file held before; with x or w- an existing file is refused and with r nothing is written.", "quantifier": "all kinds of file arguments, mode strings, file systems with any contents, objects and outcomes", "why_tests_cant": "file systems and earlier contents are arbitrary, and data is lost in silence if one mode is taken for another", "anchors": ["hickle/fileio.py:file_opener", "hickle/hickle.py:dump", "hickle/hickle.py:load"]}
{"id": "C64", "title": "different objects leave different files", "statement": "No two objects that differ in structure are written to one and the same file contents: if dumps of two objects, in whatever processes, leave equal files, then the objects have the same positions with objects of the same class, size and contents there, the same keys in the same order, the same set elements, and one object stands at two positions in both or in neither. Numbers are told apart by value only: a list of ints and the list of the equal numpy int64 leave the same file.", "quantifier": "all pairs of object graphs covered by C01, memories, processes, arguments and prior files", "why_tests_cant": "pairs of arbitrary object graphs", "anchors": ["hickle/hickle.py:dump", "hickle/hickle.py:_dump", "hickle/lookup.py:ReferenceManager.store_type", "hickle/loaders/load_builtins.py:create_listlike_dataset", "hickle/loaders/load_builtins.py:create_dictlike_dataset"]}
{"id": "C65", "title": "threads find the right loaders", "statement": "Threads that dump or load at the same time through different files choose the same loader for every class as each would alone, whatever the schedule, and none of them fails or waits because of another.", "quantifier": "all numbers of threads, classes, options, loader modules and schedules, all histories before the threads start", "why_tests_cant": "schedules are beyond the control of tests", "anchors": ["hickle/lookup.py:LoaderManager.load_loader", "hickle/lookup.py:LoaderManager.register_class"]}
{"id": "C66", "title": "one call at a time on an open file", "statement": "While a dump or load is at work on an open file, another one on the same file, by another thread or from inside a loader, is refused with an error, and calls on other files are not affected; no call meets the bookkeeping of another. Once the calls have ended none is refused on account of them. This holds for every interleaving of the calls, and whenever garbage is collected.", "quantifier": "all numbers of calls and files, all interleavings of their steps and of the finalizers of earlier calls", "why_tests_cant": "schedules and the moments of garbage collection are beyond the control of tests", "anchors": ["hickle/lookup.py:BaseManager.create_manager", "hickle/lookup.py:BaseManager._drop_manager", "hickle/lookup.py:BaseManager.get_manager", "hickle/hickle.py:dump", "hickle/hickle.py:load"]}
{"id": "C67", "title": "a node leads back to its dump", "statement": "Loader functions that ask ReferenceManager.get_root for the root group of a node of a dumped object get the group the object was dumped to, from every node at every depth, also from references and pickled members, whatever else the file holds and at whatever path the dump is.", "quantifier": "all object graphs, also ones that contain themselves, all files, paths, keyword arguments and nodes of the dump", "why_tests_cant": "the function infers the group from type entries and parents; trees and files are arbitrary", "anchors": ["hickle/lookup.py:ReferenceManager.get_root", "hickle/lookup.py:ReferenceManager.store_type", "hickle/hickle.py:_dump"]}
{"id": "C68", "title": "unsuitable file objects are refused untouched", "statement": "A file or file like object given to dump or load is accepted only if it is open, can be read and positioned and, for modes that write, can be written to; otherwise a FileError, ClosedFileError or ValueError is raised. Finding this out changes neither the contents of the object nor, for objects of Python's io classes, its position.", "quantifier": "all objects with any combination of methods and answers, all mode strings", "why_tests_cant": "the combinations of duck typed methods are unbounded in principle, and tests use a few io objects", "anchors": ["hickle/fileio.py:file_opener", "hickle/fileio.py:not_io_base_like"]}
