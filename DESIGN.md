# Formal model of pearu/gcs in Rocq (Coq 8.16.1)

The deliverables are `properties.jsonl` (the properties in English),
`rocq/theories` (the model, the specification, the proofs), `MANIFEST.json`
(which theorem states which property), `seeded/LOG.jsonl` and `seeded/SWEEP.jsonl`
(wrong programs the theorems were tried on).

`LOG.jsonl`: edits made by hand, most of them labelled before the run with the claim
they should break. A failing proof is replaced by `Admitted` and the build goes on, so
`theorems_failed` lists every theorem that depends on a failing proof. The runs were
made as the model grew, each on the theories of that time. Some labels turned out
wrong and were changed after the run; where that was found, `note` says so and gives
the first label. The first labels of the later rounds (about 130 edits) were not kept
apart, so for these an unrecorded change cannot be excluded.

`SWEEP.jsonl`: edits generated by a script (operators, constants, exceptions,
branches). It is incomplete: 931 of 1772 edits of the older model files and all 172
of the thread, work and installation models were run, on older versions of the
theories. A run stops at the first lemma that fails, so a rejected edit shows only
that some proof fails, not that the theorem of the claim does. Edits that nothing
rejected have `first_failing` null. `rechecked` gives the result of a second run
on later theories, restricted to the theorems added because of the edit; `theorems_tightened` lists those
that fail in it, `theorems_meant` those that were not run again. A
note about an edit that makes no difference is from reading, not from a proof.

## What is modelled

| source | model |
| --- | --- |
| `gcs/slice_tools.py`: `reduced`, `nitems`, `apply_slices`, `shape_strided`, `index_strided`, `normalize_index`, `extgcd`, `_init_diophantine`, `init_diophantine`, `diophantine`, `dot`, `axpy`, `solve_index` | `SliceTools.v` |
| `gcs_basics.py`: `product`, `make_strides`, reduction and promotion of indices, `get_reduced_shape` and the other helpers | `Basics.v` |
| `gcs/storage.py`: the module functions, the conversions `as_X`, and the classes Buffer, Strided, COO, FlatCOO, CSR, C2SR (it has only a constructor), DM with `fromobject`, `__getitem__`, `__setitem__`, `copy`, `==`, `equal`, `elements`, `get_index`, `data_index`, `indices_and_data_position` | `Storage.v` |
| `gcs/storage.py`: sorted enumeration of slices, conversion between array and slice indices, `is_full`, iteration through `__iter__` and through the `__getitem__` fallback | `Enumerate.v` |
| `gcs/_version.py`: `versions_from_parentdir`, `git_versions_from_keywords`, `git_pieces_from_vcs` (as a function of the outputs of the git commands), `plus_or_dot`, `render*`, `get_versions`, `get_config` (the same code is in the template of `versioneer.py`) | `Version.v` |
| `versioneer.py`: `versions_from_file`, `write_to_version_file` and its template, `git_get_keywords`, `get_versions` (file contents are inputs); `json.dumps`/`json.loads` for flat dictionaries; the string literal of the generated file | `Versioneer.v` |
| `versioneer.py`: `do_setup`, `do_vcs_install`, `scan_setup_py` as functions of the contents of the files, and as the list of changes to them in order with the files given to `git add` | `Setup.v` |
| `setup.py`; `versioneer.py`: `get_root`, `get_config_from_root` with the parts of `configparser` it uses (its parser and BasicInterpolation), `get_versions`, `get_version` and `cmd_version` on a disk, `do_setup` with any setup.cfg, `SAMPLE_CONFIG`; `os.path.join`, `normpath`, `abspath` of POSIX | `Project.v` |
| `versioneer.py`: `do_setup`, `do_vcs_install` (without `git add`), `scan_setup_py` and the main block on a disk with a working directory | `Install.v` |
| the recursion of `extgcd` and `_init_diophantine`, the loops of `solve_index` and `slice_indices_and_data_position`, with counters | `Work.v` |
| `gcs/storage.py`: `Storage.__str__` for Strided of rank 1 and 2 (`str()` of an element is a parameter) | `PropText.v` |
| `gcs/storage.py`: `Storage.__repr__`, `Buffer.__repr__` and `_get_object_data` of every class (the text of an element is a parameter) | `PropRepr.v` |
| `gcs/storage.py`: `fromobject`, `as_X`, `copy`, `equal`, `==` once more, for any meaning of `==` between elements | `Values.v` |
| `versioneer.py`: `write_to_version_file`, `cmd_build_py`, `cmd_sdist`, `cmd_build_exe`, `cmd_py2exe` as steps on a file system with hard links (the base commands are parameters); the table of `get_cmdclass`; `run_command` (the outcome of starting a command is a parameter) | `Build.v` |
| `gcs/storage.py`: `__getitem__` for an element and `__setitem__` once more, one access to a list at a time, for several threads | `Threads.v` |
| `gcs/storage.py`: the reads of the `fromobject` loops, one access to a list at a time, and the building of the new lists | `Copies.v` |
| `gcs/storage.py`: the reads of `s[ix]` of a sparse array, one access to a list at a time, and the building of the new lists; of a DM array over sparse data | `Cuts.v`, `CutsDM.v` |
| `gcs/storage.py`: the reads of `copy(unspecified=u)`, one access to a list at a time, and the building of the new list | `Recopy.v` |
| `gcs/storage.py`: the reads of `as_DM`, one access to a list at a time, and the building of the new array | `Merge.v` |
| `gcs/storage.py`: `==` with the moments at which it takes slices of the lists | `Same.v` |
| `gcs/slice_tools.py`: `show` | `PropShow.v` |
| `gcs/storage.py`: `C2SR.__init__` and the dispatch to the constructors | `PropConstruct.v` |

Every definition cites the lines it models and says where it simplifies.

Not modelled: the arguments of `setup()` in `setup.py` other than `version`,
`install_requires`, `setup_requires` and `tests_require`; symbolic links in paths; how Python opens files and starts git (file contents and git output
are inputs of the model); text
outside Latin-1, and underscores and non-ASCII digits in `int()`; warnings; memory and
time use; Python's recursion limit. The code starts no threads and takes no locks;
threads of the caller are covered by C94-C97, C100, C102 and C112-C115 and C119-C123 for element reads, assignments, conversions, slices (except of nested DM arrays over sparse data), copies (with any `unspecified`), loops over elements(), equal() and ==, where one access to a
Python list is one step (as it is under the interpreter lock).

## How Python is represented

| Python | model |
| --- | --- |
| int | `Z` (unbounded, as in Python); `//` and `%` are `Z.div`/`Z.modulo` (floor, sign of divisor) guarded by `ZeroDivisionError` |
| tuple/list of ints used as shape, strides, index | `list Z` |
| exception | `Raise e` of the result type `res` |
| array element | `pyval`: `None`, int, opaque atom, nested list; `==` is structural equality, except in `Values.v` (C89), where it is an arbitrary relation: there `1 == True == 1.0` and `nan != nan` are covered, for `fromobject`, `as_X`, `copy`, `equal` and `==`, the places of `gcs/storage.py` that compare elements. `==` of an array with itself, which Python answers without comparing if the array's unspecified value is not equal to itself, is not distinguished |
| the shared Python list behind a `Buffer` | a cell of an explicit heap (`heap = list (list pyval)`), addressed by its number, so aliasing between views is visible |
| storage object | inductive `storage`; objects are immutable in the code apart from the list cells, so they are values |
| `s[ix] = v` | `setitem : heap -> … -> heap * res unit`: the heap is returned also when the statement raises |
| generators | the list of items they yield, except in `setitem`, where enumeration reads and writes are interleaved exactly as the generators of the source interleave them |
| `sorted` on tuples | insertion sort by the lexicographic order |
| dict matrix of `init_diophantine` | list of rows |
| loops with unbounded trip count (`extgcd`, binary search) | recursion on fuel; theorems show the fuel is never exhausted (for `extgcd`: the recursion equation of the source holds for all inputs) |

## Layout (rocq/theories)

* `Py.v` - result type, values, heap, ranges, Python list indexing.
* `SliceTools.v`, `Basics.v`, `Storage.v`, `Enumerate.v`, `Version.v`, `Versioneer.v`,
  `Setup.v`, `Build.v`, `Nested.v`, `Project.v`, `Install.v`, `Values.v`, `Threads.v`, `Copies.v`, `Cuts.v`, `CutsDM.v`, `Iterate.v`, `Recopy.v`, `Merge.v`, `Same.v`, `Work.v` - the model.
* `Spec.v` - the specification, independent of the model: CPython's slice
  semantics, the box of indices of a shape, row-major order, regular nested
  lists, the source index of a slice element.
* `Repr.v` - the data structure invariants and the array an object stands for
  (`repr h s f`).
* `Flood.v` - the machine of C116: `Machine.v` with element assignments to sparse and DM arrays.
* `Turns.v` - the machine of C117: `Flood.v` with the order in which slices of sparse and DM arrays are assigned.
* `Machine.v` - the abstract array machine used by C58/C59: memory is a number
  of functions from indices to values, an array is a window on one of them. It
  knows nothing about strides, positions, sorted indices or dimension mappings.
* `Conformance.v ConformanceSlices.v ConformanceDM.v` - the repository's tests, run on the model; `ConformanceDoc.v` - the examples of GentleIntroductionToGCS.md.
* `SliceFacts IndexFacts ExtgcdFacts DioFacts ElimFacts MatrixFacts SolverFacts
  CloseFacts SolveFacts CompressFacts ReduceFacts ReprFacts ViewFacts BuildFacts
  SparseFacts ConvFacts FromFacts DMFacts ReadFacts MapFacts ChainFacts ChainDM
  WriteFacts EffectFacts PureFacts AliasFacts EqFacts RefineFacts ValueFacts` - lemmas.
* `PropSlices PropSolver PropBasics PropLookup PropRead PropWrite PropEq
  PropEdge PropIndex PropReach PropEnum PropEnum2 PropRefine PropFormat PropMore
  PropVersion PropText PropChain PropFail PropOverlap PropCopy PropSolveExact PropRagged
  PropRepr PropBuffer PropFull PropConstruct PropDist PropStyle PropLen PropSetup PropShow
  PropBuild PropImport PropNested PropNestedSet PropExchange PropDict PropConfig
  PropProject PropValues PropValueEq PropCrash PropResume PropInterp PropReport PropThreads PropRaces PropRepack PropOrder PropFlow PropApart PropSettle PropFreeze PropStage PropEmpty PropChars PropBounded PropHelpers PropLoop PropInstall PropCompare PropWork PropIntro PropSeq PropRank PropEnds PropCopies PropCases PropVersionCases PropCuts PropSnap PropMoment PropFlood PropTurns PropSwap PropZero PropSame PropRecopy PropMerge PropAnytime PropCutsDM PropTouch PropSetupCases PropThreadCases PropSeqCases` - the property
  theorems `Cnn_…`, each followed by `Print Assumptions`, and examples
  `Cnn_case…` showing concrete arrays that meet the hypotheses.

Names: `_partial` - the property is proved for part of its range only;
`_refuted` - the code violates the property, with the witness or the whole class
of inputs that violate it.

## Properties: what is modelled, how it is proved

* C01-C05 slices: case analysis and linear/nonlinear arithmetic against the
  CPython slice specification. C05 (step 0) is refuted: `reduced` maps it to an
  empty slice. `C05_arrays_refuted`
  and `C05_empty_refuted` (PropZero.v) carry this over to reading and assigning arrays.
* C06-C08: induction over the axes; `C06_rejected_exactly` says which index is refused with which exception.
* C09: well-founded recursion on |a|; bounds by induction on the Euclid steps.
* C10, C11: induction on the coefficient list (two-variable step lemma).
* C12: kernel argument - a zero pivot would give a nonzero vector in the kernel
  of a leading submatrix of the slack system, impossible as the columns form a
  basis of the solution lattice of `a.x = 0` and all `a_i` are nonzero. If
  `a_k = 0`, the unit vector k is a solution, so one column vanishes in the rows
  that reach its pivot (PropEmpty.v).
* C13: from C10; rank 0 is C48 (refuted: every position is "solved" by `()`).
* C14, C15: exact formula for the distance of the integer solution to the
  rational vertex, bounded with the Bezout coefficient bound of C09.
* C16: refuted for general strides (Fortran order, all sizes), with the exact set of
  solutions found for all nonzero strides ([found], PropSolveExact.v).
* C17, C18: loop invariants. C19: binary search invariants.
* C20, C21: mixed-radix induction; C20 also for groups with an origin and for a
  plain int as reduced index (C20_origins, C20_int). C55: both implementations equal the same
  mixed-radix specification; they differ on tuples that lack items for groups without axes (C55_empty_group).
* C22-C25: induction over the row-major enumeration; heap extension (frame)
  lemmas.
* C26: view invariant (all addressed positions inside the window) preserved by
  slicing. C27: C15 plus sortedness. C28: C20 plus C22. C29: per-group slicing
  identity; C30 refuted (group offset dropped), with the exact set of chains that do compose
  (PropChain.v over ChainDM.v).
* C31: case analysis of the validation.
* C32-C35: fold over the written positions with a frame condition; element
  assignment on the sparse formats and DM is refuted via C48: all stored
  elements are overwritten. `placed` says which elements have a place in the
  data; C32_exactly, C34_exactly, C33_last_value_everywhere and C104_update_dm
  use it to give the outcome at every index. The positions are visited in sorted order, so the
  state after a failed assignment is determined by the first index without a
  value; on DM over sparse data the last value wins everywhere.
* C36, C37: heap addresses. C38: as C22. C39: refuted for reversed views, proved
  for the others. C40: refuted for sparse against dense; exact characterisation
  of what is decided. C41: as C22.
* C42: refuted (IndexError / ZeroDivisionError / AssertionError) with the exact
  classes of arrays that fail; FlatCOO to COO fails exactly for a dimension of
  length 0 after the first (the elimination of the Diophantine solver meets a
  zero pivot, an invariant of its rows).
* C43, C44: direct. C45: refuted, with the exact condition under which an
  element comes out right for Strided and for DM over dense arrays (a loop of
  copies within one list), and unconditionally for the sparse classes.
  C46: AttributeError always; constructed C2SR arrays cannot be read, written
  or converted, only copied and compared. C47: refuted (silent truncation), with the
  exact set of accepted lists.
* C49, C50: programs are arbitrary lists of operations on variables; induction
  over the program with an invariant (every variable valid, data lists
  separated from index lists).
* C51, C52: the sorted and the unsorted enumeration are permutations of the
  row-major enumeration of the box. C53: refuted for all classes but Buffer.
  C54: refuted for DM slices.
* C56: `==` is an equivalence on valid storages. C57: DM arrays of the same data
  are `equal` whatever their mapping.
* C58: forward simulation between `run` (the library) and the abstract machine
  for every program in which each assignment is of a kind proved correct in
  C33/C34, or to a Strided array of values that share elements with it
  (`covered`). An assignment is a loop over the selected elements in row-major
  order, so overlapping ones are covered too (by C62). The reads of the two
  agree and the library raises nowhere. C59: from C58, two programs that differ only in the dimension
  mappings they pass read the same values.
* C60: the constructors on user-supplied index lists; the lists are in the
  format (sorted, in range, consistent row pointers) if and only if the storage
  is well formed; reads by C19 and C20. C61: as C22 with an index function.
  C62: the statement is compared with an explicit loop of element assignments,
  heap and exception included; no assumption on aliasing.
* C63: `re.search(r'^(.+)-(\d+)-g([0-9a-f]+)$')` is modelled by its meaning (the
  longest first group that leaves a match); uniqueness of the split as `N` has
  digits only and `H` hexadecimal digits only. C64: C63 and computation. C65:
  injectivity of decimal notation and of splitting at the first `+` and `.`.
  C66: induction over the segments. C67: the sorted set of references against
  `is_tag`, a statement about the list of references. C68: refuted (`git show`
  or `git rev-list` failing); proved when they succeed, and an exact condition
  for raising, by cases on the five git answers. C69: case analysis of
  three steps of `os.path.dirname`.
* C70: element reads of C26 for the line and the rows; injectivity of joining
  with commas.
* C71: every printed argument can be separated from the text that follows it
  (`code`), by induction over tuples, lists and nested storages. Refuted for
  reversed views and long lists.
* C72: the assertions of every `__init__` are modelled (sizes; not isinstance);
  case analysis against `sizes_agree`, with the exception for every other call.
* C73: `json.loads` inverts `json.dumps`, and the Python literal evaluates to the
  JSON text, by induction over characters and members; the regular expressions by
  first and last occurrence. Import refuted for double quotes.
* C74: the keyword lines are found by induction over the lines of the file; then
  the two functions are compared case by case.
* C75: for each style the text is split at its separators; `known` says what the
  style shows, and equal texts are shown to have equal `known`, and conversely.
* C76: from the shapes of C22, C24, C44 and the wrapping of C43; the shape of a slice follows the
  code of `__getitem__` for arbitrary arrays (C76_any_shape), its existence is C26, C27, C29.
* C77, C82: the three files as texts, split into lines and words; a specification of lines and words by
  position in the text (`field`) and the equivalence with the loops of versioneer.py; appending after a
  complete line adds lines. False of the code for an incomplete last line (`C77_*_refuted`).
* C78: the lines as texts; the words of a line are the cells, and texts of ints are distinct from each
  other and from `-`.
* C79, C81: a file system maps names to files (so links are visible) and files to contents; a command is a
  sequence of steps that may fail; invariant over all states of the run.
  Every crash point is a state in the list of states; for C81 the list is split at the run of the freezer
  (`C81_course`). The stale version after a failure follows from C73 (`C81_stale_refuted`).
* C80: induction on the list of commands.
* C83: induction on the nesting; arrays are read by chains of integer indices, so C26-C30 apply to
  each step; for DM the groups of axes for which the chain composes are characterised. False of the
  code for other DM mappings and for ragged lists (`C83_*_refuted`).
* C84: loops over generators whose bodies agree while only the data of the target changes. False of
  the code when the arrays in the list share that data (`C84_exchange_refuted`); the result for such
  lists is determined by a loop of moves within one list (`C84_overlapping_exact`, `C84_dm_exact`).
* C85: case analysis on the outputs of git, with the description of C68; the path of the package is split
  at its last directories.
* C86: paths are lists of names; `normpath` of a path is shown to follow it (`walk`) by induction over its
  components, and `dirname` to be its inverse; then C74 and C87. False of the code for what is left
  behind after a failure, and for MANIFEST (`C86_*_refuted`). `C86_requirements`: the requirements passed to
  setup() are the lines of requirements.txt, for a definition of lines by cases (`has_lines`).
* C87: an invariant of the parser in each of three phases: before, in and after the section.
* C88: C87 for the file with the sample appended; the last line of the old file may be unfinished.
  That setup.cfg grows at most once needs no hypothesis (`C88_grows_once`).
  False of the code for an unknown VCS (`C88_all_or_nothing_refuted`).
* C89: the proofs of C22-C24, C38 and C40 again, for the functions with `==` as a parameter; with structural
  equality the functions are those of `Storage.v` (`C89_same_functions`, `C89_same_comparisons`). `==`: by the
  entries that sparse arrays determine, as for C39.
* C90: the three apostrophes occur in the file at the two markers only (an induction over the parts of the file);
  so a cut before the end of the closing marker leaves no match for the regular expressions, and the lines of a cut
  file are prefixes of lines of the file, which set no keywords. Damage: `json.loads` raises ValueError only.
* C91: the run is a list of changes (empty a file, append to a file); every beginning of the list, the last write cut
  anywhere, is a state it can be stopped in. The files between two changes are one of at most three texts each, from
  which a rerun gives the same result; two reruns settle any tree (C82).
* C92: the loop of BasicInterpolation gives back the pieces a text is written from (induction over the pieces), and
  accepts no other text; the nesting of calls is the number of steps in the specification `means`.
* C93: the printed lines are compared one by one.
* C94: a thread is a tree of list accesses (`Threads.v`); run alone it is the model of `Storage.v` (`run_thread`). Accesses of
  different threads to different lists commute, so a schedule can be sorted (induction over the schedule).
* C95: as C94 with elements of lists in place of lists; the elements an assignment reads and writes come from the
  specification of slices (`hit`, `place`). For the other classes the lists of indices, which nobody writes, are first
  replaced by their contents (`pin`), so that a thread touches only the elements it reads and writes.
* C96: an invariant of the schedule: the writes done so far account for every element. Atomicity is refuted by a schedule.
  For all classes: until an element has been written some thread is bound to write it (`hits`).
* C97: for every element a set of possible values; it is an invariant of the schedule that all elements hold one and all
  threads write only such.
* C98: the file written is a fixed point of reading and writing (C73), so induction over the steps; the table of commands
  of `get_cmdclass` is computed for every set of modules.
* C99: specification: the PEP 440 order of versions (local labels part by part,
  release numbers padded with zeros, post and dev releases) as a function on
  texts, and commit graphs with the numbers git describe and git rev-list
  print. The number since a tag grows strictly along ancestry (counting lists
  without repetition); the rendered labels compare as these numbers. The other
  styles: a greater distance is newer (C99_styles), but uncommitted changes are
  not shown (pep440-pre) or make the version older (pep440-post, pep440-old), as
  the comments in the code say (C99_local_changes_styles). Not modelled: which
  tag git describe chooses.
* C100: the possible values of each position of each list are an inductive set closed under the assignments; index lists nobody
  assigns to are read as they are, so searches and enumerations in racing threads find what they find alone, and it is an
  invariant of every schedule that lists hold possible values only. C100_elsewhere and C100_closed follow.
* C101: the list of files passed to git add and the index as a function from files to contents; case analysis. The crash
  points are those of C91. False of the code for .gitattributes: a rerun finds the mark in the tree and does not add it
  (`C101_again_refuted`, for every tree that had to be marked).
* C102: programs that end within n list accesses, provided the index lists stay as they are (induction over the access trees of
  Threads.v); the cost of each statement is a function of the array, the slice and the value; the halving of the search interval
  gives the logarithm. C102_no_waiting and C102_all_end follow by induction over the schedule; C102_scan is the same with lower
  bounds. Accesses to the nested lists of a value are not counted.
* C103: induction over the groups, axes and items; both directions of every case.
* C104: `elements_gen` is the loop over the generator, with each item computed from the heap of that moment; an invariant of the body (index lists unchanged, data list of the same length) is shown to keep the array valid and the enumeration fixed, so the loop equals one over the list of keys that reads s[key] at each step. The update loop on Buffer and Strided is partial (`C104_update_partial`): on the other classes s[i] = v writes to every stored element (C32), the exact outcome is `C104_update_flooded`, and `C104_update_dm` for DM over any class; a witness `C104_update_refuted`.
* C105: `Install.v` has do_setup, do_vcs_install, scan_setup_py and the main block as actions on the disk of Project.v, with the paths as the source spells them (relative to the working directory or under get_root()); directories are a predicate that says which exist. Started in the project the effect on the four files equals `do_setup` of Setup.v, so C77, C82, C88 and C91 apply to the command; nothing else changes. `C105_elsewhere` and `C105_no_package` give the exact outcome from another directory, `C105_never_elsewhere` shows for any setup.cfg that it cannot succeed there, `C105_refuted` is the witness. The version file must be a plain relative path other than the three other files; opening a file fails only for a missing directory.
* C106: conversions with unspecified= take no shortcut and build arrays in normal form (contiguous strides, no stored unspecified elements), on which == is exact (C39); so == of the converted arrays decides agreement of the originals (`C106_common_class`). equal() compares the sets of enumerated elements, hence an equivalence (`C106_equivalence`). The version without unspecified= is partial (`C106_own_value_partial`), refuted for views by `C106_refuted`; `C106_implied_refuted`: reversed views that are == and not equal().
* C107: Work.v repeats the recursion of extgcd and _init_diophantine as derivations that count calls, and solve_index and the slice loop of the sparse classes with a counter for candidates; `C107_same`, `C107_same_slice`: the counting versions compute what the model does. `C107_gcd`: two steps of Euclid's algorithm halve the first argument. `C107_stack_views`: strides of views stay below twice the number of elements. `C107_candidates`, `C107_built`, `C107_slices` bound the candidates from both sides; `C107_proportional_refuted`: s[0:1] is exponential in the rank for each stored element that it leaves out. The calls of extgcd in the normalization of the eliminated matrix are bounded by C107_gcd only in terms of the entries of that matrix.
* C108: the formulas of the introduction are transcribed as `parts`, `stride`, `reduced` (over list positions, without the model's helpers). `C108_formulas`: create_reduction_metadata, reduction and promotion compute them. `C108_order`: reduced indices of a part number its elements in row-major order and are in range. `C108_fromobject`, `C108_as_DM`: the wrapped array holds each element at its reduced indices. `C108_default`: the default arguments. `C108_written_formula`, `C108_written_formula_refuted`: the stride formula as it is written in the text agrees for parts of at most two axes, and for a 2 x 3 x 4 array in one part it maps two elements to one position (the text's own example uses the right one). ConformanceDoc.v evaluates all examples of the introduction on the model, among them the table of the twelve reductions of a 2 x 3 x 4 array.
* C109: Sequence.v models what the interpreter does with __len__, __getitem__ and __iter__: `unpack`, `contains` (with a count of items, None while undecided), `reversed_items`, `truth`. `C109_unpack_buffer`, `C109_in_true`, `C109_in_buffer`, `C109_reversed`, `C109_truth` are the parts that hold; `C109_unpack_refuted`, `C109_in_never_ends_refuted` and `C109_in_slices_refuted` show that unpacking fails for every number of names and that membership of an absent value is undecided after any number of items, for every class but Buffer. Comparing items with another array (x a Storage) is not modelled.
* C110: no new model; `place` is the row-by-row number of an element, written by recursion on the shape. `C110_buffer_of_list`, `C110_as_Buffer` (flattening), `C110_equal_nested` (comparing a Buffer with a nested list), `C110_csr` (rank other than 2), `C110_csr_list` (with which exception: AssertionError if some element is specified, IndexError if none is), `C110_as_CSR` (the same for arrays with a specified element), `C110_number`. Converting an array of rank 0 makes an element that is itself an array and is not modelled.
* C111: the while loops of the code are the three binary searches; in the model they run under a step bound and give `OutOfFuel` if it is reached. `C111_lookups`, `C111_reads`, `C111_writes`, `C111_conversions`: no call gives `OutOfFuel`, with no assumption on the arrays. The recursion of extgcd is the other unbounded one; that its bound is never reached is part of C09.
* C112: Copies.v writes the reads of the fromobject loops as programs of single list accesses (as Threads.v does for `s[i]` and `s[ix] = value`), followed by the building of the new lists, which no other thread has. `C112_alone`: with nobody else around this is fromobject. `C112_values`: the elements of the copy under any schedule, in terms of `possible` of C100. `C112_quiet`: nothing changes if no thread assigns to elements of the array. `C112_mixture`: a schedule in which the copy is equal to the array at no time.
* C113: Cuts.v writes the reads of the get_slice functions of sparse arrays as programs of single list accesses: first all indices, then (after sorting) the values, followed by the building of the new lists, which no other thread has. `C113_alone`: with nobody else around this is `s[ix]`. `C113_values`: the elements of the slice under any schedule, in terms of `possible` of C100, and what the other threads read. `C113_quiet`: nothing changes if no thread assigns to elements the slice selects. A slice of a CSR array with one axis converts the whole array to COO first: `C113_row_alone` and `C113_row` say the same for it with the reads of C112.
* C114: Buffer.copy takes the data with one list slice, which is one access under the interpreter lock; `copy` and the conversions between sparse classes are therefore applied to the heap of one moment of an execution of Threads.v. `C114_snapshot` (copy) and `C114_converted` (conversions; the indices, which no thread assigns to, are taken to be read at the same moment) say what the result holds at the end of any continuation and that the other threads are not affected. `C114_strided`: copy() of a Strided array makes the reads of C112 and the array of C112, so that `C112_values` applies to it.
* C115: Iterate.v has the loop over elements() and equal() as programs of single list accesses; `C115_alone`: alone they give what Storage.v says. `moment sched h ts n` is the heap after n turns. The other threads are arbitrary programs (not only those of the library) that put nothing into the index lists (`leaves`); the library's threads are such by `leaves_thread`. `C115_elements`, `C115_equal`, `C115_still` (equal() when nobody assigns to the arrays), `C115_conversion` (C112 with moments, for arbitrary other threads), `C115_never` (True although never equal; a witness). Proof: `timely`, a weakest precondition over a history of heaps in which a read may take place at the present moment or later.
* C116: Flood.v is the machine of Machine.v with `flooded`: element assignment to COO, FlatCOO, CSR and DM arrays overwrites every place of the array. `C116_programs` and `C116_no_exceptions` (the simulation of C58 for programs with such assignments, `covered_too`), `C116_reach` (the same without the machine: which elements of which arrays change), `C116_remapped` (C59 for these programs). DM arrays over sparse data are excluded: there the assignment changes stored elements of the data only.
* C117: Turns.v is the machine of Flood.v with `in_turn`: slices of COO, FlatCOO, CSR and DM arrays are assigned in the order of the array's own indices, one element after another. `C117_programs` and `C117_no_exceptions` (the simulation of C116 without its condition that values come from elsewhere, `covered_all`), `C117_in_time` (which elements get the value from before the assignment), `C117_remapped` (C59 for these programs). `C117_case` shows `x[::-1] = x` giving different results for a Strided array and for its DM and COO copies.
* C118: `swapped` relates an operation to itself with another class of the same group; `converting` says that no conversion is to the class the array has. `C118_classes` compares two programs covered by C58 through their machines, which differ in the classes only (`malike`). `C118_own_class_refuted` and `C118_overlap_refuted` give programs that differ when a condition is dropped.
* C119 == while other threads run (Same.v, PropSame.v): the slices of the lists that Buffer.__eq__ compares are taken at successive moments, each at one moment; `storage_eq_at` is __eq__ with the heap at each of these moments. The moments are those of a schedule of Threads.v. Not modelled: that Buffer objects common to both arrays are taken for equal without looking.
* C120 copy(unspecified=u) while other threads run (Recopy.v, PropRecopy.v): the loop of Buffer.copy and that of Strided.copy read one value at a time (`recopy_t`); what is built from the values read is `recopy_of`. A thread copies, the others are any programs that leave the index lists of s alone (as in C115), and the moments are those of a schedule of Threads.v. With u the array's own value Buffer.copy takes one slice instead (C114).
* C121 as_DM while other threads run (Merge.v, PropMerge.v): DM.fromobject computes the groups without looking at the elements, then storage_class.fromobject reads them in the order of the reduced indices through get_seq_index (`merge_t`); what is built from the values read is `merge_of`, which is `dm_fromobject_gen` of Storage.v with the loop over the values read. The other threads are as in C115. storage_class=DM is not covered.
* C122 slices of dense arrays while other threads run (PropAnytime.v): `getitem` of Storage.v is applied to the heap of each `moment` of an execution of Threads.v. For dense data it looks at the lengths of lists only (`getitem_size`), which no assignment changes, so all moments give the same view (`C122_same_view`); what it shows follows from the theorems on slices in the heap of that moment (`C122_follows`, `C122_chain`). The other threads are arbitrary programs of single list accesses. DM arrays over sparse data: C123.
* C123 slices of DM arrays over sparse data (CutsDM.v, PropCutsDM.v): DM.__getitem__ computes the groups of the slice without reading a list (`dm_cut`), then slices its data with the program of C113 and wraps the result. `C123_alone`: with nobody else around this is `s[ix]`. `C123_values` and `C123_quiet` follow from C113 for the data once the index of the data is known to select the elements the slice selects (`dm_cut_ok`, as in `getitem_slice_full`). `C123_built`: arrays made by fromobject or as_DM meet the hypotheses for every valid index. Over CSR data this is for indices that leave free an axis of each group (`own_cut`); with the others (`row_cut`) the data is converted to COO first, as in `C113_row`: `C123_row_alone`, `C123_row`, `C123_row_quiet` (`C123_either`: one of the two always applies). Nested DM arrays over sparse data are not covered.
* C124 the comment in DM.__getitem__ (PropTouch.v): true over Strided and Buffer data, where the slice uses the lists of the array and makes none (`C124_dense_partial`; C122 says that nothing is read). False over COO, FlatCOO and CSR data: `data[None, None]` goes through get_slice, so every slice is made of new lists and does not see later assignments (`C124_copies_refuted`), and if an element is stored it begins by reading a list (`C124_reads_refuted`, on the program of CutsDM.v; for CSR data with an axis of each group free); over CSR data with all axes of a group fixed it does so whatever is stored (`C124_row_reads_refuted`). These hold for all indices, also those that keep all axes.

## Trusted base

* Coq's kernel (8.16.1), no `-type-in-type`, no universe or guard check switched
  off, no plugin.
* The reading of the Python source recorded in the comments, and the
  representation of Python values in the table above.
  As a check of that reading, `Conformance*.v` run the repository's own tests on
  the model: all assertions of test_storage.py, test_slice.py and
  test_gcs_basics.py, except that test_DM_slicing with three and five axes runs
  for part of its parameters. They hold as the tests expect. These files are
  tests of the model; no property rests on them.
* Axioms: none. `Print Assumptions` reports "Closed under the global context"
  for every property theorem. The Coq standard library files that are loaded
  (through `Lia`, `Sorting`, `Permutation`) bring in module types of Coq's own
  `ssr` library; a scan of the loaded environment lists their fields
  (`Coq.ssr.ssrunder.Under_rel.*`) as axioms, but no theorem here depends on
  them.
