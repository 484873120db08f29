# Design of the hickle model and of its proofs

Subject: telegraphic/hickle 5.0.3 as found in /repo (Python).  The code is read
as text, it is neither built nor run.  The model is written in Coq 8.16.1 (the
prover now called Rocq) with the standard library and std++ (`gmap`).

## 1. Shape of the model

Everything is a small total computable Gallina function.  Exceptions are values
(`res A := Ok a | Err e`), file and heap effects are a state monad whose state
survives an exception, because that is what happens to the HDF5 file when dump
raises half way.

| file | models |
|------|--------|
| `Base.v` | strings, bytes, exceptions, association lists |
| `Utf8.v` | `bytearray(s,"utf8")`, `bytes.decode("utf8")` (strict CPython codec) |
| `Dec.v` | `str(int)`, `int(bytes)`, `repr(int)` |
| `Num.v` | Python/numpy numbers, dtypes, `np.result_type`, `dtype.type(item)` |
| `PyObj.v` | classes, method resolution orders, the Python object heap, Python `==`/hash on keys |
| `H5.v` | HDF5 nodes, groups, datasets, references, attributes, `create_dataset`, `create_group` |
| `Env.v` | what is left open: iteration order, float repr, importable classes (`env`, `env_ok`) |
| `Create.v` | the `create_*` functions of `load_builtins.py`, `load_numpy.py`, `load_scipy.py`, `lookup.py`; `no_compression` |
| `Dump.v` | `ReferenceManager.store_type`, `_dump` |
| `LoadFns.v` | the `load_*` functions and the `PyContainer` classes (append, convert) |
| `LoadModel.v` | `ReferenceManager.resolve_type`, `_load` |
| `Registry.v` | `LoaderManager`: class tables, `register_class(_exclude)`, options, `load_loader`; the entries of all loader modules |
| `Api.v` | `dump` and `load` on an open file, format detection, the managers' constructors |
| `FileIO.v` | `file_opener`, handles, managers per file, closing, garbage collector switch |
| `Crash.v` | `dump` as the list of its operations on the file, of which an interruption leaves the first ones |
| `Astropy.v` | the functions of `load_astropy.py`, as pure functions between Astropy objects and datasets with attributes; what Astropy does (units, wrapping, printing times) is a record of functions |
| `Threads.v` | `load_loader` cut into the steps between which threads may be switched; any number of threads with one set of class tables |
| `Managers.v` | the tables of managers (`BaseManager`): calls of dump and load cut into steps, and the finalizers of managers, in any interleaving |
| `GetRoot.v` | `ReferenceManager.get_root`; that h5py's `parent` follows the only link to a node, and compares equal to the file for '/', is assumed |
| `Probe.v` | `not_io_base_like` and the tests of file objects in `file_opener` |
| `MemoAlloc.v` | id based memo against an adversarial allocator |
| `Proxy.v` | `H5NodeFilterProxy`, `_redirect_to_ndarray` of `load_scipy.py` |
| `Legacy.v` | `sort_keys` of the hickle 3 loader |
| `Repr.v`, `LegacyV3.v` | `repr` and `literal_eval` of strings; the hickle 3 writer and loader (legacy_v3/hickle.py, load_python3.py, load_numpy.py, load_scipy.py) on trees of groups and datasets; Python 2 types are not modelled |
| `V3Astropy.v` | load_astropy.py of legacy_v3, writers and loaders, with the objects and the record of functions of `Astropy.v`; these datasets are not among the trees of `LegacyV3.v` |
| `Spec.v`, `PartSpec.v`, `Accept.v`, `Reach.v`, `Cases.v`, `Layout.v`, `Damage.v`, `Recover.v`, `LoaderSearch.v`, `Native.v`, `V3Damage.v`, `LoadCycle.v`, `DumpCycle.v`, `Acyclic.v` (first parts) and `V3Spec.v` | the independent specification: graph isomorphism, supported and acceptable values, node layout, damaged groups, recovered objects |
| `Spec4.v` | the layout of hickle 4 files, taken from hickle/tests/legacy_hkls/hickle_4.0.0.hkl (its bytes, read as text; the writer is not in the repository), and when an object in memory is the value |
| `Det4.v`, `Load4.v` | proofs: a node holds one value; it is loaded |
| `Instance.v`, `Samples.v`, `*Samples.v`, `Cyclic.v` | a concrete environment meeting `env_ok`, sample files and objects |
| `*Proofs.v`, `Load*.v`, `Dump*.v`, `RoundTrip.v`, `Api*.v`, `Count.v`, `Table.v` | proofs |
| `Props*.v` | the property theorems only, each closed by `exact lemma`, with an example beside it |

### Key decisions

* **Objects live in a heap** (`loc -> obj`), because sharing and identity are
  what hickle's memo is about.  Both the dumped structure and the loaded one are
  heaps; `id(x)` is the location.  The empty tuple is one shared location since
  hickle uses `()` as its "nothing here" marker (helpers.py:20).
* **HDF5 is a heap of nodes** addressed by object address (`h_node.id`), with
  groups as lists of named links, attribute maps, datasets with a small payload
  type and object references.  The order in which `group.items()` yields members
  is a parameter constrained only to be a permutation, hence all theorems hold
  for every order; the alphabetical order of h5py is one instance.
* **create_* functions are plans**: each returns what node to create, with
  which attributes, whether compression options are dropped, and which sub items
  follow; one interpreter executes plans with the h5py primitives.  This keeps
  each create function a pure function that can be compared line by line with
  the Python one.
* **Recursion is by fuel** standing for the Python recursion limit.  Running out
  of fuel is its own error; theorems either give a bound under which it does not
  occur or show that no fuel suffices.  For dump the bound is 34 times the number of objects:
  an array of objects is stored as lists nested as deeply as it has dimensions, at most 32.
* **Interruptions strike between operations** of h5py: `create_group`, `create_dataset` and
  setting one attribute are atomic.  `C50_complete` ties the list of operations to the dump.
* **External behaviour is a record of oracles** (`env`): member iteration order,
  `repr`/parse of floats and complex numbers, which classes can be pickled or
  imported, whether numpy refuses ragged nested sequences.  Theorems quantify over
  every `env` meeting `env_ok`; a concrete instance shows `env_ok` satisfiable.
  One field, `ok_nested`, says that numpy does not call nested lists of the shape of an array
  with up to 32 dimensions ragged if their leaves are no sequences.

## 2. Properties and how they are settled

Each property of `properties.jsonl` with its plan.  "refuted" means the statement
is false of the faithful model; then a theorem `..._refuted` exhibits a witness
and, where sensible, a second theorem proves the part that does hold.

| id | modelled by | proof |
|----|-------------|-------|
| C01 | Dump, LoadModel, Create, LoadFns | two phase argument: dump establishes the invariant "every memoised object is completely stored at its node" (induction on fuel, generic in the plan); load is shown, by induction on the rank of the acyclic graph, to build for every stored object a matching object |
| C02 | Dump, LoadModel | the two memo maps compose to a partial function that is injective on mutable objects |
| C03 | Dump | measure: number of objects not yet in the memo |
| C04 | Dump, LoadModel, LoadCycle, DumpCycle, Acyclic | refuted: `l=[l]` dumps, and load exhausts every fuel; a load that returns shows the nodes to be well-founded (induction on fuel), and dump maps a cycle of objects to a cycle of nodes; hence loadable iff acyclic |
| C05 | Create, LoadFns, Dec, Num | decimal round trip, case split at 63 bits |
| C06 | Utf8, Create, LoadFns | codec round trip in both directions |
| C07 | Create, LoadFns | `append` over any permutation of indexed members gives the list |
| C08 | Create, LoadFns | name and key_idx invert the naming for every key kind |
| C09 | Create, LoadFns | refuted: `bool('False')` is True |
| C10 | Create, LoadFns | injectivity of the key to name map; NaN keys refute the unrestricted claim |
| C11 | Create, LoadFns | permutation argument plus preservation of Python equality |
| C12 | Num | exactness of casts characterised; refuted in general by 2**53+1 with 0.5 |
| C13 | Create, LoadFns | refuted by 2**63, by `[b'a',1]` and by `[1,[[1],[1,2]]]`; partial: items that are acceptable graphs and fit (Acyclic.v) |
| C14 | Create, LoadFns | refuted by `[1]`; proved outside all-number containers; lists of numbers of one dtype come back in their own classes or in the numpy class of that dtype (`Classes.v`) |
| C15 | Dump, LoadModel | invariant over any sequence of `store_type` |
| C16 | MemoAlloc | invariant over any sequence of allocate, free, dump steps |
| C17 | Dump, Api | frame lemma on the node heap, for success and failure |
| C18 | Api | induction on the history using the frame lemma |
| C19 | Api | refuted by a list whose second element cannot be pickled; proved for objects that refer to no others, and that no dataset with a type is left (FailedDump) |
| C20 | Create, LoadFns | duplicates raise; missing members refuted (filled with the empty tuple) |
| C21 | Api | case analysis over all outcomes |
| C22 | Api | case analysis |
| C23 | Api | invariant over histories; refuted for hickle 4.x files opened read only by the caller |
| C24 | Api | proved when a type table exists or the file is read only; refuted otherwise |
| C25 | Create | every plan for a scalar or empty dataset drops the options; refuted for zero dimensional ndarrays |
| C26 | Registry | upper/lower case round trip of option names |
| C27 | Registry | invariant over all registrations |
| C28 | Registry | refuted for names in exclamation marks |
| C29 | Registry, LoaderSearch | characterisation of load_loader and history independence for loader modules that keep to their package; refuted for others, for classes hickle has loaders for registered again at run time, and for classes defined in loader modules |
| C30 | PartSpec, Recover, RecoverStd, LoadAll, RoundTrip, PropsLoaders | proved node by node for any file, and for whole graphs dumped by hickle 5 with any set of missing classes; refuted for set elements and dict keys, and for base_type of 4.x nodes |
| C31 | Proxy | refinement of ChainMap to overlay semantics |
| C32 | FileIO | decision table, path components |
| C33 | FileIO | refuted for 'w+' and 'x+' |
| C34 | Api | decision table |
| C35 | Legacy | sorted, stable, permutation |
| C36 | Create, LoadFns | proved for plain subclasses except str; refuted for str subclasses, Counter, namedtuple, defaultdict |
| C37 | Create, LoadFns, ArrayProofs | numeric arrays, arrays of strings and arrays of objects proved (induction over the shape: `tolist` and the conversion of nested lists to an array are inverse); empty string arrays and object arrays of equally long lists refuted; elements of one builtin number class keep it or get the numpy class that stands for it (`Classes.v`) |
| C38 | Create, LoadFns | permutation argument |
| C39 | Dump | counting invariant |
| C40 | Registry, Dump, LoadModel | from the loader fallback and the pickle oracle |
| C41 | FileIO | refuted: a disabled collector is enabled; proved for an enabled one |
| C42 | FileIO, Api | composition of C01 with `file_opener` |
| C43 | Create, Dump, Api | progress: every create function succeeds on acceptable values, measure of C03 |
| C44 | LoadFns, LoadModel | invariant over the slots of the container; refuted for missing last members |
| C45 | Create, Dump, Native | relation between objects and datasets, proved of every node the dump leaves (from the stored invariant of DumpStored.v) |
| C46 | LegacyV3, V3Spec | induction on the dumped value, through the order of members (sort_keys); witnesses by computation where it fails |
| C47 | LegacyV3, V3Damage | induction on the path to the node: every member of a loaded group is loaded |
| C48 | LoadModel, LoadCycle | induction on the fuel of `_load`: every node visited is accessible for the converse of `leads` |
| C49 | Registry | induction over the registrations; refuted for functions: `types.FunctionType` is not an instance of itself |
| C50 | Crash, Api | every operation is confined to new nodes and one old group; then the frame lemmas of C17 and C18, for every prefix of the operations |
| C51 | Crash, LoadModel | refuted for lists by computation; proved at every point of interruption that load raises, or an untyped dataset or the group of an object with items is left, or the dump was complete (CrashLeaf) |
| C52 | Astropy | computation with symbolic attributes; refuted for other dtypes, wrap angles, large integers |
| C53 | Astropy | interleaving of two lists; refuted for every frame but ICRS and for distances |
| C54 | Astropy | computation with symbolic attributes; refuted for precision and for scalar text with compression |
| C55 | Astropy | computation with symbolic attributes |
| C56 | Astropy | extensional equality of attribute maps; refuted for tables in containers, units, bytes and reserved names in the meta data |
| C57 | LoadFns, LoadModel, Api, Spec4 | induction on the value; invariant: whatever is in the memo is the value of its node (a node holds only one, Det4.v); invariants over the members of lists and dicts for every listing order; refuted for some keys and strings by computation |
| C58 | LoadFns, LoadModel, Api | invariant of every load function and container: new locations only refer to new locations or to the empty tuple (Fresh.v) |
| C59 | as C01 | a graph related to one satisfying `graph_ok` by `isomorphic` satisfies `graph_ok` itself (Again.v: hashes along the relation, lossless rows and items, classes of new numbers), then C01 and C58 |
| C60 | LoadFns, LoadModel, Api | simulation of two loads that differ in the memory they start from: every new location of the one is a new location of the other, shifted by a constant; memo, container states, hashes and results correspond (Same.v) |
| C61 | Create, Dump, Api | simulation of two dumps of corresponding structures: temporaries are made in lockstep, plans correspond, files, type tables and errors are equal, memos correspond (DumpSame.v) |
| C62 | V3Astropy | symbolic execution per class; induction over column names, values and meta data (V3AstropyProofs.v) |
| C63 | FileIO, Api | case analysis of file_opener and h5py.File by mode; the frame of C17 for the file itself (Modes.v) |
| C64 | Dump, Load | by loading the common file once (C01 for both), and by induction on positions in both directions (Distinct.v) |
| C65 | Registry, Threads | load_loader cut into steps and proved to be load_loader again; invariant over all schedules (entries are final or their module is not loaded yet), a measure for termination; refuted by two schedules (ThreadProofs.v) |
| C66 | Managers | calls and finalizers as steps on the two tables of managers; invariants over all runs (every entry belongs to a call that will remove it; in calm runs every call under way owns its entries), projection onto one file, a measure for termination; mutual exclusion refuted by three runs (ManagerProofs.v) |
| C67 | GetRoot | `get_root` on the file a dump leaves; invariant of dump: every type of a new node is an entry linked in the type table of this dump (Listed.v), with unique parents in trees (GetRootProofs.v); refuted for pickled objects dumped to a group other than '/' |
| C68 | Probe | the tests of `file_opener` on objects described by which methods they have and how these answer; equivalence with an independent description of suitable objects, the calls made, refinement of `open_like` (FileIO); refuted for `writable()` (ProbeProofs.v) |

## 3. Trusted base

* The Coq 8.16.1 kernel (and `coqchk`), its standard library and std++.
* No axioms are declared.  `Print Assumptions` under every property theorem is
  expected to say "Closed under the global context"; any exception is listed in
  section 4.
* The reading of /repo: every definition carries file and lines.  The model is
  not extracted from or run against the code.
* Assumed behaviour of things hickle calls (h5py, HDF5, numpy, pickle, CPython):
  - h5py: creating a link that exists fails and changes nothing; attributes and
    datasets read back what was written; object references resolve to the object;
    filters and compression are lossless; chunk/filter options on scalar or empty
    datasets raise TypeError; `node.id` compares equal exactly for the same object.
  - numpy: `np.dtype(cls)`, `np.result_type` on the numeric dtypes, `dtype.type(x)`
    as written in `Num.v`; C long is 64 bit; `float64(int)` rounds to nearest even.
  - pickle: `loads(dumps(x))` is a faithful copy, for classes the class itself.
  - CPython: `float(repr(x)) == x`, `complex(repr(x)) == x` (oracle), `()` is a
    singleton, dict and set follow insertion/`==`.
* Not modelled: threads (except in the search for loaders, `Threads.v`, and in the tables of managers, `Managers.v`), the death of the process before the file is closed and partial
  flushes inside HDF5 (exceptions between two operations on the file are, in `Crash.v`), the
  Python recursion limit as a number, `sys.set_int_max_str_digits`, warnings,
  garbage collector timing (except in `MemoAlloc.v`), platform differences of
  C long, HDF5 names containing NUL.

## 4. Assumptions listed by `Print Assumptions`

Beneath every property theorem `Print Assumptions` is issued; each one answers
"Closed under the global context".

Loading std++ brings the standard library's `Coq.ssr.ssrunder` into the
environment.  Its module `Under_rel` is sealed by a module type, so that
`coqchk` and the checker list its seven fields as axioms.  No theorem here depends on
them.

## 5. Simplifications worth knowing

They are stated at the definitions; the ones a reader should have in mind:

* Keyword arguments of `dump` (compression and so on): only their names matter
  in the model (`no_compression` removes some); their values are taken to be
  admissible for h5py.
* A pickled object is a value together with the class it has; what pickle does
  inside is an oracle, also whether pickling succeeds.
* Arrays are a dtype, a shape and a list of numbers; the layout in memory and
  byte order are not modelled.
* Names with NUL characters and paths with the component "." do not occur.
* Masked arrays and sparse matrices of hickle 4 (`load_ndarray_masked_dataset`,
  `_redirect_to_ndarray`): the mask is found through the group that has the dataset as a
  member, the code finds it by the name h5py reports; the members of a matrix are arrays of
  numbers.
* Negative `item_index` and `key_idx` attributes (never written by hickle) give
  the error `Unmodelled`.
* `Unmodelled` is an error value of the model for code paths outside of it; no
  theorem treats it as a success, and the positive theorems exclude it.
