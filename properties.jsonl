{"id": "C01", "title": "reduced() preserves what a slice selects", "statement": "For x = list(range(size)), x[s] == x[reduced(s, size)] for every slice s that Python itself accepts (step != 0); reduced never raises on such a slice.", "quantifier": "every size >= 0 and every slice start/stop/step (None or any integer, step nonzero)", "why_tests_cant": "the slice parameters are unbounded integers; the test stops at size 9 and offsets of 10", "anchors": ["gcs/slice_tools.py:reduced"]}
{"id": "C02", "title": "reduced() returns a normal form", "statement": "reduced(s, size) always has integer start, stop and step with step != 0; it is the empty slice (0,0,1) exactly when nothing is selected, and reducing it again changes nothing.", "quantifier": "every size >= 0 and every slice, including step 0", "why_tests_cant": "idempotence and totality must hold for all integers", "anchors": ["gcs/slice_tools.py:reduced"]}
{"id": "C03", "title": "nitems() counts the selected items", "statement": "nitems(s, size) equals len(list(range(size))[s]).", "quantifier": "every size >= 0 and every slice with nonzero step", "why_tests_cant": "unbounded integer parameters", "anchors": ["gcs/slice_tools.py:nitems", "gcs/slice_tools.py:reduced"]}
{"id": "C04", "title": "Closed form of the selected items", "statement": "If r = reduced(s, size) then x[s] is [(r.start % size) + i*r.step for i in range(nitems(s,size))] for x = list(range(size)), without any wrap-around. Equivalently: for r.step > 0 it is the items i of range(size) with r.start <= i < r.stop and (i - r.start) % r.step == 0, in increasing order; for r.step < 0 the same holds of the items counted from the end.", "quantifier": "every size >= 1 and every slice with nonzero step", "why_tests_cant": "every strided slice in the library relies on it; parameters are unbounded", "anchors": ["gcs/slice_tools.py:nitems", "gcs/slice_tools.py:index_strided"]}
{"id": "C05", "title": "A zero step is rejected", "statement": "Slicing with step 0 raises ValueError, as for Python sequences (the docstring of reduced promises equality with Python for any slice instance).", "quantifier": "every size and every start/stop", "why_tests_cant": "tests skip step 0", "anchors": ["gcs/slice_tools.py:reduced"]}
{"id": "C06", "title": "normalize_index yields a complete in-range index", "statement": "For an array shape with positive dimensions, normalize_index succeeds on every index (int, slice, None, or tuple of at most as many items) and returns one item per axis, every integer in range(shape[i]) and congruent to the given one, every slice reduced, missing axes filled by None; it is idempotent; an integer or slice beyond the last axis raises IndexError.", "quantifier": "every shape with positive dimensions and every index", "why_tests_cant": "unbounded rank and integers", "anchors": ["gcs/slice_tools.py:normalize_index"]}
{"id": "C07", "title": "Strided slicing arithmetic is exact", "statement": "index_strided on a normalized index returns the shape that per-axis Python slicing gives, and strides/offset such that offset + sum(j*newstride) is the position sum(i*stride) of the source element i that Python slicing selects for j.", "quantifier": "every rank, shape with positive dimensions, strides, index, and every slice element j", "why_tests_cant": "linear identities over unbounded integers and ranks", "anchors": ["gcs/slice_tools.py:index_strided", "gcs/slice_tools.py:shape_strided"]}
{"id": "C08", "title": "apply_slices and index_strided agree", "statement": "apply_slices(slices, shape, strides) equals index_strided(normalize_index(slices, shape), shape, strides), and shape_strided returns the same shape.", "quantifier": "every rank, positive shape, strides and full-length index", "why_tests_cant": "unbounded", "anchors": ["gcs/slice_tools.py:apply_slices", "gcs/slice_tools.py:index_strided", "gcs/slice_tools.py:shape_strided"]}
{"id": "C09", "title": "extgcd computes a Bezout identity", "statement": "extgcd(a, b) terminates and returns (g, x, y) with a*x + b*y == g, g dividing both and |g| the greatest common divisor; g has the sign of a when a != 0, and |y| <= |a|/(2|g|).", "quantifier": "all integers a, b (negative and zero included)", "why_tests_cant": "all pairs of integers; termination with Python's floor modulo on negative numbers", "anchors": ["gcs/slice_tools.py:extgcd"]}
{"id": "C10", "title": "diophantine() solutions are solutions", "statement": "When diophantine(a, c) returns (x0, zs), every x0 + sum(t[j]*zs[j]) solves sum(a[i]*x[i]) == c.", "quantifier": "every nonempty integer vector a for which it returns, every c, every integer vector t", "why_tests_cant": "infinitely many coefficient vectors and parameters", "anchors": ["gcs/slice_tools.py:diophantine", "gcs/slice_tools.py:init_diophantine", "gcs/slice_tools.py:_init_diophantine"]}
{"id": "C11", "title": "diophantine() finds all solutions", "statement": "For coefficients that are all nonzero, diophantine(a, c) returns None exactly when no integer solution exists, and otherwise every integer solution is x0 + sum(t[j]*zs[j]) for exactly one integer vector t.", "quantifier": "every nonempty vector of nonzero integers, every c, every solution vector", "why_tests_cant": "completeness over an infinite lattice", "anchors": ["gcs/slice_tools.py:diophantine", "gcs/slice_tools.py:init_diophantine"]}
{"id": "C12", "title": "init_diophantine trips its assertions exactly on strides with zeros", "statement": "For strides that are all nonzero (any sign) the fraction-free elimination meets no zero pivot, so init_diophantine, solve_index and diophantine return normally; with a stride 0 among two or more they raise (ZeroDivisionError for two zeros in front, else AssertionError); for the single stride 0 init_diophantine returns and solve_index and diophantine raise ZeroDivisionError.", "quantifier": "every rank, all integer strides, every shape of the same length, every position", "why_tests_cant": "a pivot could vanish for some stride vector; only a rank-independent argument excludes it", "anchors": ["gcs/slice_tools.py:init_diophantine", "gcs/slice_tools.py:solve_index"]}
{"id": "C13", "title": "solve_index only returns real solutions", "statement": "If solve_index(pos, shape, strides) returns an index then the index lies in the box given by shape and sum(index*strides) == pos.", "quantifier": "every position, every rank >= 1, every shape, all strides (zero and negative included)", "why_tests_cant": "unbounded positions, shapes and strides", "anchors": ["gcs/slice_tools.py:solve_index"]}
{"id": "C14", "title": "solve_index inverts C-contiguous strides", "statement": "For the contiguous strides of a shape with positive dimensions, solve_index(sum(i*stride), shape, strides) == i for each index i, and it is None for positions outside the array.", "quantifier": "every rank >= 1, every positive shape, every index", "why_tests_cant": "the solver rounds a rational vertex and tries only offsets 0 and 1 per parameter; that this suffices needs a proof for all ranks", "anchors": ["gcs/slice_tools.py:solve_index", "gcs/storage.py:FlatCOO.indices_and_data_position", "gcs/storage.py:COO.fromobject"]}
{"id": "C15", "title": "solve_index is exact on every slice of every array", "statement": "For shape/strides obtained by slicing (any steps, negative too, integer axes dropped) a contiguous array with positive dimensions and keeping at least one axis, solve_index(pos, ...) returns the unique slice index located at pos, and None exactly when pos is not part of the slice.", "quantifier": "every rank, positive shape, every non-element index, every position", "why_tests_cant": "the 0/1 search around the rounded vertex could miss solutions for some stride combination; tests only sample two sliced axes", "anchors": ["gcs/slice_tools.py:solve_index", "gcs/storage.py:Storage.slice_indices_and_data_position"]}
{"id": "C16", "title": "solve_index finds a solution whenever one exists", "statement": "For arbitrary shape and strides (as its docstring states, without restriction) solve_index returns an index whenever the bounded equation has one.", "quantifier": "every shape and strides of equal length", "why_tests_cant": "needs a universal statement or a counterexample outside the tested stride families", "anchors": ["gcs/slice_tools.py:solve_index"]}
{"id": "C17", "title": "compress_indices computes CSR row pointers", "statement": "For a sorted list of row indices in range(size), compress_indices(indices, size) has length size+1 and its r-th entry is the number of indices smaller than r.", "quantifier": "every sorted list of any length and every size", "why_tests_cant": "unbounded lists", "anchors": ["gcs/storage.py:compress_indices", "gcs_basics.py:compress_indices"]}
{"id": "C18", "title": "compress/uncompress round trip", "statement": "uncompress_indices(compress_indices(l, size)) == l for sorted l in range(size); conversely compress_indices(uncompress_indices(c), len(c)-1) == c for every nondecreasing c starting at 0.", "quantifier": "every sorted index list, every size, every valid row-pointer list", "why_tests_cant": "unbounded lists", "anchors": ["gcs/storage.py:compress_indices", "gcs/storage.py:uncompress_indices"]}
{"id": "C19", "title": "Binary search lookups are exact", "statement": "Looking up an index in COO, FlatCOO and CSR index structures returns the position at which it is stored if it is stored, and None otherwise; the search always terminates.", "quantifier": "every valid (sorted) index structure of any size and rank and every index in range", "why_tests_cant": "loop invariant over arbitrary sizes", "anchors": ["gcs/storage.py:get_coo_position", "gcs/storage.py:get_flatcoo_position", "gcs/storage.py:get_csr_position"]}
{"id": "C20", "title": "Dimensionality reduction and promotion are inverse", "statement": "With strides and shapes produced by make_reduction for any permutation and partitioning, promote_index(reduce_index(i)) == i for each index i of the array and reduce_index(promote_index(r)) == r for each index r of the reduced array, so the two index sets are in bijection.", "quantifier": "every rank, shape, permutation and partitioning into consecutive groups (including empty groups)", "why_tests_cant": "unbounded rank and mixed radix arithmetic", "anchors": ["gcs/storage.py:reduce_index", "gcs/storage.py:promote_index", "gcs/storage.py:make_reduction"]}
{"id": "C21", "title": "gcs_basics reduction and promotion are inverse", "statement": "With metadata from create_reduction_metadata, promotion(reduction(i)) == i and reduction(promotion(r)) == r, both staying inside the respective shapes.", "quantifier": "every shape, permutation and partitioning", "why_tests_cant": "unbounded rank", "anchors": ["gcs_basics.py:create_reduction_metadata", "gcs_basics.py:reduction", "gcs_basics.py:promotion"]}
{"id": "C22", "title": "fromobject stores the given elements", "statement": "For Strided, COO, FlatCOO, CSR (2-D) and Buffer, X.fromobject(seq, unspecified=u)[i] is the element of the nested list at i, with None replaced by u.", "quantifier": "every rank, every regular nested list (for CSR one with at least one element to store; the others are part of C42), every index, every unspecified value", "why_tests_cant": "all shapes and contents", "anchors": ["gcs/storage.py:Strided.fromobject", "gcs/storage.py:COO.fromobject", "gcs/storage.py:FlatCOO.fromobject", "gcs/storage.py:CSR.fromobject", "gcs/storage.py:Buffer.fromobject"]}
{"id": "C23", "title": "Sparse formats store exactly the specified elements", "statement": "COO/FlatCOO/CSR.fromobject(seq, unspecified=u) store one entry for each element different from u (and from None), in row-major order without duplicates, so size is their number and is_full() holds exactly when no element is unspecified.", "quantifier": "every regular nested list (for CSR one with at least one element to store; the others are part of C42) and unspecified value", "why_tests_cant": "all shapes and contents", "anchors": ["gcs/storage.py:COO.fromobject", "gcs/storage.py:FlatCOO.fromobject", "gcs/storage.py:CSR.fromobject", "gcs/storage.py:Storage.is_full"]}
{"id": "C24", "title": "Storage conversions preserve all elements", "statement": "s.as_X()[i] == s[i] for every index, for all conversions among Strided, COO, FlatCOO, CSR and DM; with unspecified=u, elements equal to s.unspecified become u and no other element changes.", "quantifier": "every pair of formats, every valid storage with positive dimensions (also after slicing; to CSR: two dimensions and at least one element to store, the others are part of C42), every index", "why_tests_cant": "product of formats, shapes and contents", "anchors": ["gcs/storage.py:Storage.as_Strided", "gcs/storage.py:Storage.as_COO", "gcs/storage.py:Storage.as_FlatCOO", "gcs/storage.py:Storage.as_CSR", "gcs/storage.py:Storage.as_DM"]}
{"id": "C25", "title": "Conversion round trips restore the representation", "statement": "COO -> FlatCOO -> COO, COO -> CSR -> COO, COO -> Strided -> COO and Strided -> sparse -> Strided give back an object equal (==) to the original when the stored values differ from the unspecified value.", "quantifier": "every valid array of any rank with positive dimensions (for conversions to CSR: two dimensions and at least one element to store)", "why_tests_cant": "all shapes and contents", "anchors": ["gcs/storage.py:COO.fromobject", "gcs/storage.py:FlatCOO.fromobject", "gcs/storage.py:CSR.fromobject", "gcs/storage.py:Storage.__eq__"]}
{"id": "C26", "title": "Slicing a Strided array selects the right elements, repeatedly", "statement": "s[index] has the shape Python slicing gives and s[index][j] == s[source of j]; the result is again a valid view, so any chain of slices is correct.", "quantifier": "every valid view with positive dimensions, every index, chains of any length", "why_tests_cant": "unbounded ranks and chains", "anchors": ["gcs/storage.py:Strided.get_slice", "gcs/storage.py:Storage.__getitem__", "gcs/storage.py:Buffer.__getitem__"]}
{"id": "C27", "title": "Slicing COO, FlatCOO and CSR selects the right elements, repeatedly", "statement": "For sparse formats s[index] has the right shape, is sorted and duplicate-free, and s[index][j] == s[source of j] also for unspecified elements, for chains of slices of any length.", "quantifier": "every valid sparse array of any rank with positive dimensions, every non-element index", "why_tests_cant": "depends on the completeness of the Diophantine solver for all strides", "anchors": ["gcs/storage.py:COO.get_slice", "gcs/storage.py:FlatCOO.get_slice", "gcs/storage.py:CSR.get_slice"]}
{"id": "C28", "title": "DM element access equals the wrapped array", "statement": "DM.fromobject(seq, dimensions, partitioning, storage_class)[i] is the element of seq at i for each storage class.", "quantifier": "every rank N, positive shape, permutation, partitioning, storage class, contents (over CSR: with at least one element to store), index", "why_tests_cant": "tests cover a few permutations of ranks 2, 3 and 5", "anchors": ["gcs/storage.py:DM.fromobject", "gcs/storage.py:DM.__getitem__"]}
{"id": "C29", "title": "Slicing a DM array selects the right elements", "statement": "For a DM array d built by DM.fromobject or as_DM, d[index][j] == d[source of j], with the shape Python slicing gives.", "quantifier": "every such DM array, dimensions mapping, storage class and index", "why_tests_cant": "unbounded rank; mapping times slicing", "anchors": ["gcs/storage.py:DM.__getitem__"]}
{"id": "C30", "title": "Chained DM slicing composes", "statement": "For a DM array d, (d[i1])[i2] has the same elements as slicing an ordinary array twice.", "quantifier": "every DM array and every pair of indices", "why_tests_cant": "tests slice only fresh DM arrays", "anchors": ["gcs/storage.py:DM.__getitem__"]}
{"id": "C31", "title": "DM.fromobject rejects invalid mappings", "statement": "DM.fromobject returns only if dimensions starts with a permutation of the axes and the partitioning is sorted with entries in range(1, ndim); otherwise an exception is raised.", "quantifier": "every dimensions and partitioning tuple", "why_tests_cant": "all tuples", "anchors": ["gcs/storage.py:DM.fromobject", "gcs/storage.py:DM.__init__"]}
{"id": "C32", "title": "Element assignment changes exactly that element", "statement": "After s[i] = v, s[i] == v and s[j] is unchanged for every other index j (of a specified element i).", "quantifier": "every storage format, array, index and value", "why_tests_cant": "frame condition over all other elements", "anchors": ["gcs/storage.py:Storage.__setitem__", "gcs/slice_tools.py:solve_index"]}
{"id": "C33", "title": "Slice assignment writes exactly the selected elements", "statement": "After s[index] = value with a slice index, each selected element that is specified equals the matching element of value and all other elements are unchanged.", "quantifier": "every format, array, slice index, value", "why_tests_cant": "frame condition and solver completeness", "anchors": ["gcs/storage.py:Storage.__setitem__", "gcs/storage.py:Storage.slice_indices_and_data_position"]}
{"id": "C34", "title": "Assigned values can be read back", "statement": "After s[i] = v, s[i] == v for every in-range index i, specified or not.", "quantifier": "every format and index", "why_tests_cant": "tests assign to specified elements only", "anchors": ["gcs/storage.py:Storage.__setitem__"]}
{"id": "C35", "title": "A failed slice assignment leaves the array unchanged", "statement": "If s[index] = value raises because value is too short, no element has been changed.", "quantifier": "every array, index and value, every failure point", "why_tests_cant": "quantifies over failure points", "anchors": ["gcs/storage.py:Storage.__setitem__"]}
{"id": "C36", "title": "Strided slices are views", "statement": "Writing through any chain of slices of a Strided array is visible in the base array at the corresponding element and nowhere else; writing to the base is visible in the slice.", "quantifier": "every Strided array, chain of slices, element", "why_tests_cant": "aliasing over arbitrary chains", "anchors": ["gcs/storage.py:Strided.get_slice", "gcs/storage.py:Buffer.__getitem__"]}
{"id": "C37", "title": "Copies and format conversions are independent", "statement": "After t = s.copy(), t = s.as_X() to another class, or slicing a sparse array, no assignment to t changes s and no assignment to s changes t.", "quantifier": "every storage, every later sequence of assignments", "why_tests_cant": "histories of any length", "anchors": ["gcs/storage.py:Storage.copy", "gcs/storage.py:Buffer.copy", "gcs/storage.py:Strided.copy"]}
{"id": "C38", "title": "copy preserves elements and replaces the unspecified value", "statement": "s.copy()[i] == s[i]; s.copy(unspecified=u) turns exactly the elements equal to s.unspecified into u; s.copy().unspecified is as requested.", "quantifier": "every format, shape, contents, u", "why_tests_cant": "all contents", "anchors": ["gcs/storage.py:Storage.copy", "gcs/storage.py:Buffer.copy", "gcs/storage.py:Strided.copy"]}
{"id": "C39", "title": "== implies equal elements", "statement": "If s == t for two storages then they have the same shape and the same elements.", "quantifier": "every pair of storages of the same class (views included)", "why_tests_cant": "all pairs; reversed views are not compared in tests", "anchors": ["gcs/storage.py:Storage.__eq__", "gcs/storage.py:Buffer.__eq__"]}
{"id": "C40", "title": "equal() decides element-wise equality", "statement": "s.equal(t) is True exactly when s and t have the same index set and the same element at every index, whatever their formats; it is symmetric.", "quantifier": "every pair of storages", "why_tests_cant": "all pairs of formats and contents", "anchors": ["gcs/storage.py:Storage.equal", "gcs/storage.py:Storage.elements"]}
{"id": "C41", "title": "elements() enumerates the array", "statement": "For Strided and DM, elements() yields each index of the shape exactly once in row-major order with its value; for COO/FlatCOO/CSR it yields exactly the stored elements, once each in row-major order, with their values.", "quantifier": "every valid storage", "why_tests_cant": "all shapes", "anchors": ["gcs/storage.py:Storage.elements", "gcs/storage.py:DM.indices_and_data_position", "gcs/storage.py:FlatCOO.indices_and_data_position", "gcs/storage.py:CSR.indices_and_data_position"]}
{"id": "C42", "title": "Arrays with an empty dimension can be indexed", "statement": "Slicing and converting arrays with a dimension of size 0, or with no specified elements, succeeds and gives an empty array, as for Python sequences.", "quantifier": "every array with a zero dimension or no specified element, every slice", "why_tests_cant": "tests contain no empty arrays", "anchors": ["gcs/storage.py:Buffer.__getitem__", "gcs/slice_tools.py:index_strided", "gcs/storage.py:CSR.fromobject", "gcs/slice_tools.py:init_diophantine"]}
{"id": "C43", "title": "Integer indices wrap modulo the axis length", "statement": "For an integer index k (any integer, also out of range) s[k] is s[k mod len(s)]; negative indices count from the end; no IndexError is raised on a positive dimension.", "quantifier": "every array (other than a Buffer, see C44) with positive dimensions, every integer", "why_tests_cant": "all integers", "anchors": ["gcs/slice_tools.py:normalize_index", "gcs/storage.py:Storage.__getitem__"]}
{"id": "C44", "title": "Buffer windows", "statement": "b[k] for an integer reads position offset+k of the shared list, b[i:j] with 0 <= i < j <= size is the window of that range sharing the list (an empty range gives an empty window, or IndexError at the very start or end of the list), windows compose, and writing through a window is visible in all windows on the list; any other index raises or gives exactly the documented window (negative integers and bounds count from the offset), only windows that end inside the list can be constructed.", "quantifier": "every buffer, window bounds, composition", "why_tests_cant": "all offsets and sizes", "anchors": ["gcs/storage.py:Buffer.__getitem__", "gcs/storage.py:Buffer.__setitem__"]}
{"id": "C45", "title": "Overlapping self-assignment behaves as if the value were copied first", "statement": "s[i1] = s[i2] stores into the selected elements the values s[i2] had before the assignment.", "quantifier": "every array and pair of slices of the same shape", "why_tests_cant": "aliasing between source and destination", "anchors": ["gcs/storage.py:Storage.__setitem__", "gcs/storage.py:get_value"]}
{"id": "C46", "title": "as_C2SR", "statement": "s.as_C2SR() returns a C2SR storage with the same elements, and the elements of a C2SR storage can be read, written, copied, compared and converted like those of every other class.", "quantifier": "every storage", "why_tests_cant": "the method is untested", "anchors": ["gcs/storage.py:Storage.as_C2SR", "gcs/storage.py:C2SR"]}
{"id": "C47", "title": "Lists that are not rectangular are rejected", "statement": "fromobject raises for a nested list that is not rectangular instead of dropping elements.", "quantifier": "every nested list", "why_tests_cant": "all nested lists", "anchors": ["gcs/storage.py:get_shape", "gcs/storage.py:get_value"]}
{"id": "C48", "title": "Rank-zero equations are solvable only at zero", "statement": "solve_index(pos, (), ()) returns () only for pos == 0, and diophantine((), c) reports a solution only for c == 0.", "quantifier": "every integer pos and c", "why_tests_cant": "the tests probe position 0 only; __setitem__ relies on it for element assignment", "anchors": ["gcs/slice_tools.py:solve_index", "gcs/slice_tools.py:diophantine", "gcs/slice_tools.py:init_diophantine"]}
{"id": "C49", "title": "Every array a program can hold is well-formed", "statement": "After any sequence of fromobject, as_X, slicing and copy calls with supported arguments, interleaved with arbitrary assignments (also failing ones), every element of every array obtained so far can be read, and every further supported fromobject, as_X, slicing or copy call succeeds.", "quantifier": "every program over any number of variables: all sequences of operations, all arguments of assignments", "why_tests_cant": "histories are unbounded and arrays share data", "anchors": ["gcs/storage.py:Storage", "gcs/storage.py:Buffer", "gcs/storage.py:Strided", "gcs/storage.py:COO", "gcs/storage.py:FlatCOO", "gcs/storage.py:CSR", "gcs/storage.py:DM"]}
{"id": "C50", "title": "Only assignments change arrays, and only those that share their data", "statement": "No fromobject, as_X, slicing or copy call, whatever its arguments and whether or not it raises, changes an element of an existing array. An assignment to x changes only arrays that share data with x: those obtained by slicing Buffer, Strided or DM arrays over these, or by as_X to the class x already has.", "quantifier": "every program, every operation with any arguments, every variable bound before it", "why_tests_cant": "all histories; aliasing is not visible in a single call", "anchors": ["gcs/storage.py:Storage.__setitem__", "gcs/storage.py:Storage.__getitem__", "gcs/storage.py:Storage.copy", "gcs/storage.py:Buffer.__setitem__"]}
{"id": "C51", "title": "Enumerating a slice visits its elements once, in order if asked", "statement": "slice_indices_and_data_position with sort=True visits every index of the slice once in row-major order, with no position for elements that are not stored; without sort it visits the same pairs of stored elements, in some order. The position given for an element is where its value is read from.", "quantifier": "every Strided, COO, FlatCOO, CSR or DM array with positive dimensions and every slice index", "why_tests_cant": "all shapes, slices and stored patterns", "anchors": ["gcs/storage.py:Storage.slice_indices_and_data_position", "gcs/storage.py:Strided.slice_indices_and_data_position"]}
{"id": "C52", "title": "Array and slice indices convert into each other", "statement": "get_index_slice gives the array index of an element of the slice, get_slice_index is its inverse, and returns None for elements of the array outside the slice.", "quantifier": "every slice of every array obtained by slicing a contiguous array any number of times", "why_tests_cant": "all shapes and slices", "anchors": ["gcs/storage.py:get_slice_index", "gcs/storage.py:get_index_slice"]}
{"id": "C53", "title": "Iteration ends after the last element", "statement": "for x in s yields s[0], ..., s[len(s)-1] and ends.", "quantifier": "every array with positive dimensions, any number of rounds", "why_tests_cant": "an endless iteration does not show in finitely many rounds", "anchors": ["gcs/storage.py:Buffer.__iter__", "gcs/storage.py:Storage.__getitem__", "gcs/storage.py:Storage.__len__"]}
{"id": "C54", "title": "is_full tells whether all elements are stored", "statement": "s.is_full() is True exactly if elements() lists every index of the shape.", "quantifier": "every array with positive dimensions", "why_tests_cant": "all shapes and stored patterns, all slices", "anchors": ["gcs/storage.py:Storage.is_full"]}
{"id": "C55", "title": "gcs_basics and the storage classes implement the same dimension reduction", "statement": "create_reduction_metadata describes the groups make_reduction computes for the same partitioning; reduction equals reduce_index with zero offsets for every tuple, exceptions included; promotion equals promote_index when every axis is listed once and the tuple has an item for every group, or lacks one for a group with axes (both then raise IndexError); a tuple that lacks only items of groups without axes is accepted by promotion, as if padded with zeros.", "quantifier": "every shape, dimensions and partitioning that create_reduction_metadata accepts, every index", "why_tests_cant": "all shapes, permutations, partitionings", "anchors": ["gcs_basics.py:create_reduction_metadata", "gcs_basics.py:reduction", "gcs_basics.py:promotion", "gcs/storage.py:make_reduction", "gcs/storage.py:reduce_index", "gcs/storage.py:promote_index"]}
{"id": "C56", "title": "== is an equivalence relation", "statement": "s == s; s == t implies t == s; s == t and t == r imply s == r; s != t is the negation of s == t.", "quantifier": "every triple of well-formed storages of any classes in any memory", "why_tests_cant": "all triples", "anchors": ["gcs/storage.py:Storage.__eq__", "gcs/storage.py:Storage.__ne__", "gcs/storage.py:Buffer.__eq__"]}
{"id": "C57", "title": "The dimension mapping of a DM array does not affect its value", "statement": "DM arrays made from one nested list with any two choices of dimensions, partitioning and storage class have the same elements and are equal().", "quantifier": "every rectangular list, every pair of mappings and classes", "why_tests_cant": "all permutations, partitionings, classes", "anchors": ["gcs/storage.py:DM.fromobject", "gcs/storage.py:Storage.equal"]}
{"id": "C58", "title": "Programs over arrays mean what the array semantics says", "statement": "After any sequence of constructor calls, conversions, slices, copies and assignments, every variable is the array a simple semantics gives: Buffer, Strided and DM slices are windows on their source and see every assignment to it, all other results are independent arrays, assignments to sparse arrays change stored elements only. Class, shape, unspecified value, every element and the stored indices agree, and no operation raises.", "quantifier": "every program of any length in which each constructor, conversion and slice is a supported use (as in C49) and each assigned value has an element for every selected index and, unless the array is Strided, shares no elements with it", "why_tests_cant": "all histories: aliasing, conversion and assignment interact in unboundedly many ways", "anchors": ["gcs/storage.py:Storage", "gcs/storage.py:Buffer", "gcs/storage.py:Strided", "gcs/storage.py:COO", "gcs/storage.py:FlatCOO", "gcs/storage.py:CSR", "gcs/storage.py:DM"]}
{"id": "C59", "title": "How a DM array is mapped is never observable in a program", "statement": "Two programs that differ only in the dimensions, partitioning and data class given to DM constructors and as_DM leave the same variables with the same shapes, unspecified values and elements.", "quantifier": "every pair of programs covered by C58 that differ in DM mappings only (data classes both with view slices or both sparse)", "why_tests_cant": "all histories and all mappings", "anchors": ["gcs/storage.py:DM.fromobject", "gcs/storage.py:Storage.as_DM", "gcs/storage.py:DM.__getitem__", "gcs/storage.py:Storage.__setitem__"]}
{"id": "C60", "title": "A storage made from buffers holds the elements its format describes", "statement": "FlatCOO(shape, flat_indices, data), COO(shape, indices, data) and CSR(shape, crow_indices, col_indices, data) made from user-supplied buffers accept lists that are in the format (sorted without repetition, in range, row pointers consistent) and then every element read is the stored one or the unspecified value; a well-formed storage is exactly one whose lists are in the format. Strided(shape, strides, buffer) reads element i at position sum(i*strides), overlapping strides included.", "quantifier": "every shape, every content of the index and value buffers", "why_tests_cant": "all buffer contents", "anchors": ["gcs/storage.py:FlatCOO.__init__", "gcs/storage.py:COO.__init__", "gcs/storage.py:CSR.__init__", "gcs/storage.py:Strided.__init__", "gcs/storage.py:Storage.__getitem__"]}
{"id": "C61", "title": "fromobject gathers the elements its arguments ask for", "statement": "X.fromobject(seq, shape=sh, get_seq_index=f, unspecified=u) returns an array of class X and shape sh whose element i is the element of seq at f(i), with seq's unspecified value replaced by u; the arguments do not change existing arrays.", "quantifier": "every class (DM with every mapping), every source (nested list or storage), shape and index function that maps into the source, every unspecified value (for CSR at least one element differing from both unspecified values: the case without any is C42)", "why_tests_cant": "all sources, shapes and index functions (a Python callable)", "anchors": ["gcs/storage.py:Buffer.fromobject", "gcs/storage.py:Strided.fromobject", "gcs/storage.py:COO.fromobject", "gcs/storage.py:FlatCOO.fromobject", "gcs/storage.py:CSR.fromobject", "gcs/storage.py:DM.fromobject"]}
{"id": "C62", "title": "Assignment to a slice is the loop of element assignments in row-major order", "statement": "s[ix] = value behaves as: for j in the indices of s[ix] in row-major order, s[source of j] = value[j], including which exception is raised, what was written before it, and values that are views of s.", "quantifier": "every Strided array with positive dimensions (any strides, overlapping included), supported index, value and memory", "why_tests_cant": "all aliasing patterns between value and target, all failure points", "anchors": ["gcs/storage.py:Storage.__setitem__", "gcs/storage.py:Strided.slice_indices_and_data_position", "gcs/storage.py:get_value"]}
{"id": "C63", "title": "git describe output is parsed into the tag, distance, commit and dirty flag it stands for", "statement": "In a checkout, for the output git prints for tag prefix+T, distance N, abbreviated commit H and a clean or dirty tree, the parsed pieces are exactly T, N, H, the full id, the dirty flag and the ISO date; without a reachable tag the tag is None and the distance the number of commits. Conversely, whenever a tag is reported the describe output was of that form.", "quantifier": "every tag (dashes, '-g', digits and '-dirty' inside it included), distance, id, date, tag prefix, surrounding blanks", "why_tests_cant": "tags are arbitrary text; the greedy regular expression must split every one correctly", "anchors": ["gcs/_version.py:git_pieces_from_vcs"]}
{"id": "C64", "title": "gcs.__version__ in a git checkout is the PEP 440 rendering of the checkout", "statement": "With the keywords of the repository unexpanded, get_versions() in a checkout at distance N from tag vT with id H gives T, or T+N.gH with .dirty if modified (a '.' instead of '+' if T has a local part already); without tag 0+untagged.N.gH. The git-describe-long style reproduces the describe output.", "quantifier": "every tag, distance, id, dirty flag, date", "why_tests_cant": "all tags and histories", "anchors": ["gcs/_version.py:get_versions", "gcs/_version.py:render", "gcs/_version.py:render_pep440", "gcs/_version.py:render_git_describe_long", "gcs/_version.py:plus_or_dot"]}
{"id": "C65", "title": "The version identifies the checkout", "statement": "Two checkouts with the same version string have the same tag, distance and dirty flag, and unless they are exactly at the tag, the same commit id.", "quantifier": "every pair of checkouts whose tags, if any, are nonempty and have no '+'", "why_tests_cant": "injectivity over all pairs of tags, distances and ids", "anchors": ["gcs/_version.py:render_pep440", "gcs/_version.py:plus_or_dot"]}
{"id": "C66", "title": "The version has at most one local part, and it is a valid PEP 440 local label", "statement": "If the tag is public[+local] then the version is public[+label] with label dot-separated alphanumeric segments; no second '+' appears.", "quantifier": "every tag of that form, distance, id, dirty flag", "why_tests_cant": "all tags", "anchors": ["gcs/_version.py:render_pep440", "gcs/_version.py:plus_or_dot"]}
{"id": "C67", "title": "In an archive the version is the least tag with the prefix", "statement": "For the ref names git archive expands, the version is the lexicographically least tag with the prefix, without it; if there is none it is 0+unknown with an error; order and repetition of the references do not matter.", "quantifier": "every nonempty list of references, with and without 'tag: ' marks, every prefix", "why_tests_cant": "the references form a set that must be handled for all sizes and orders", "anchors": ["gcs/_version.py:git_versions_from_keywords"]}
{"id": "C68", "title": "get_versions always returns a version", "statement": "get_versions() never raises and its version is a nonempty string, so importing gcs does not depend on git.", "quantifier": "every outcome (output or failure) of the git commands", "why_tests_cant": "all combinations of failing commands and outputs", "anchors": ["gcs/_version.py:get_versions", "gcs/_version.py:git_pieces_from_vcs"]}
{"id": "C69", "title": "The parent directory fallback takes the closest of three directories", "statement": "versions_from_parentdir takes the version from the directory itself, its parent or its grandparent, in this order, whichever first starts with the prefix, and raises NotThisMethod otherwise.", "quantifier": "every path with at least three components and every prefix", "why_tests_cant": "all paths", "anchors": ["gcs/_version.py:versions_from_parentdir"]}
{"id": "C70", "title": "str() of a one- or two-dimensional array shows its elements", "statement": "str(s) of a Strided array is the bracketed list of str() of its elements in order (one line per row for matrices), so arrays and views with equal shape and elements print alike; a line has at most 102 characters; when it is not shortened the text of a list of integers determines the integers.", "quantifier": "every Strided array or view with positive dimensions of rank 1 or 2, any element text", "why_tests_cant": "all arrays, layouts and views", "anchors": ["gcs/storage.py:Storage.__str__"]}
{"id": "C71", "title": "repr() of a storage determines the storage", "statement": "repr(s) never fails, and two storages with the same repr have the same class, shape, unspecified value and elements.", "quantifier": "every pair of storages of the seven classes, nested DM included, holding integers and None", "why_tests_cant": "all storages and all their texts", "anchors": ["gcs/storage.py:Storage.__repr__", "gcs/storage.py:Buffer.__repr__", "gcs/storage.py:Storage._get_object_data"]}
{"id": "C72", "title": "Constructors accept exactly the arguments whose sizes fit together", "statement": "Calling a storage class directly with its own arguments succeeds exactly if the sizes of the arguments fit together: Buffer a window that ends inside its list, Strided as many strides as dimensions, COO as many columns of indices as values, FlatCOO as many positions as values, CSR two dimensions with one row pointer per row plus one and as many columns as values, C2SR two dimensions with one length and one pointer per row, DM groups that together name every axis and nothing else. The object then has the arguments as its attributes. Otherwise the call raises AssertionError (IndexError for COO indices with fewer than two dimensions, TypeError for DM without groups). Only these sizes are checked: unsorted or out-of-range indices and shapes larger than the buffer are accepted, so an accepted array may fail to find an element it stores.", "quantifier": "for every heap, class, shape, strides, index and data buffers and reduction groups", "why_tests_cant": "tests construct well-formed arrays, not all combinations of argument sizes", "anchors": ["gcs/storage.py:Buffer.__init__", "gcs/storage.py:Strided.__init__", "gcs/storage.py:COO.__init__", "gcs/storage.py:FlatCOO.__init__", "gcs/storage.py:CSR.__init__", "gcs/storage.py:C2SR.__init__", "gcs/storage.py:DM.__init__"]}
{"id": "C73", "title": "A distribution has the version of the checkout it was built from", "statement": "write_to_version_file puts the version dictionary into gcs/_version.py of a distribution. setup.py run in the unpacked distribution gets exactly that dictionary back, whatever git says there; importing the installed package gives exactly that dictionary, so gcs.__version__ is the version of the checkout. The import part is false for versions with a double quote (a legal character of git tags): the import raises JSONDecodeError, because the JSON escape is consumed by the Python string literal around it.", "quantifier": "for every version dictionary with any characters, every git answer and every checkout", "why_tests_cant": "the distribution is built and imported in different processes; tests never build a distribution from a tag with special characters", "anchors": ["versioneer.py:write_to_version_file", "versioneer.py:versions_from_file", "versioneer.py:SHORT_VERSION_PY", "versioneer.py:git_get_keywords", "versioneer.py:get_versions", "gcs/__init__.py"]}
{"id": "C74", "title": "setup.py and the package compute the same version", "statement": "For a source tree whose _version.py defines the three keywords (expanded by git archive or not), versioneer.get_versions(), used by setup.py, which reads the keywords from the text of the file, returns the same dictionary as gcs._version.get_versions(), which is used on import, or raises the same exception, for every state of git. The keyword values are read back exactly, whatever the other lines of the file are, as long as they do not set these names.", "quantifier": "for every text of the file around the keyword lines, keyword values and git answers", "why_tests_cant": "the two functions are separate copies of code that are run in different environments", "anchors": ["versioneer.py:get_versions", "versioneer.py:git_get_keywords", "gcs/_version.py:get_versions", "gcs/_version.py:get_keywords"]}
{"id": "C75", "title": "What the version text of each rendering style tells about the checkout", "statement": "For each of the six rendering styles, two checkouts get the same version text exactly if they agree on what this style shows: pep440 and pep440-post the tag, the distance and the dirty flag, and the commit if there is no tag, a distance or a modification; pep440-pre the tag and the distance only; pep440-old the tag, the distance and the dirty flag; git-describe the tag, the distance from it, the dirty flag, and the commit unless the checkout is at the tag; git-describe-long all of them, the distance only if there is a tag. render() accepts these names, the empty string and 'default', and no other.", "quantifier": "for every pair of checkouts whose tags are not taken for other parts of the text, and every style", "why_tests_cant": "all pairs of checkouts and styles", "anchors": ["gcs/_version.py:render", "gcs/_version.py:render_pep440_pre", "gcs/_version.py:render_pep440_post", "gcs/_version.py:render_pep440_old", "gcs/_version.py:render_git_describe", "gcs/_version.py:render_git_describe_long"]}
{"id": "C76", "title": "len() counts the items of the first axis", "statement": "len(s) of an array made from a nested list is the length of the list, in every class; len(s[a:b:c]), whenever the slice exists (slices of DM slices included), is the number of positions the slice selects out of len(s), and it exists for every Strided, COO, FlatCOO and CSR array and every DM array built by fromobject or a conversion; len(b[i:j]) of a Buffer is j - i; conversions keep the length; s[k + len(s)] is s[k] and s[-1] is s[len(s) - 1]; only arrays without dimensions have no length (IndexError).", "quantifier": "every array, class, nested list, slice and index", "why_tests_cant": "all arrays, views and slices", "anchors": ["gcs/storage.py:Storage.__len__"]}
{"id": "C77", "title": "versioneer.py setup leaves a complete source tree complete", "statement": "After `python versioneer.py setup` (with a complete setup.cfg), MANIFEST.in includes versioneer.py and the version file, .gitattributes marks the version file for export-subst, what was included or marked still is, and running the command again changes nothing.", "quantifier": "every content of MANIFEST.in and .gitattributes, each possibly missing, with any line ends, every path of the version file, any number of runs", "why_tests_cant": "the contents of the files are unbounded and the result depends on where lines end and on which words they have; idempotence is about pairs of runs", "anchors": ["versioneer.py:do_setup", "versioneer.py:do_vcs_install"]}
{"id": "C78", "title": "show prints every entry of a matrix", "statement": "slice_tools.show prints a dictionary matrix row by row between brackets, one line per row up to the largest one, in columns of one width with the entries aligned to the right and - for those not set; matrices with the same output have the same entries at all nonnegative indices.", "quantifier": "every dictionary from pairs of ints to ints", "why_tests_cant": "the width depends on all values and the claim that the output determines the matrix is about all pairs of matrices", "anchors": ["gcs/slice_tools.py:show"]}
{"id": "C79", "title": "Building distributions leaves the source tree alone", "statement": "The versioneer versions of sdist and build_py write the computed version into the release or build tree only: even when that tree is made of hard links to the source files, and wherever the command stops, no file outside it changes contents; when it succeeds, the version file there reads as the versions computed.", "quantifier": "every file system with any links, every sequence of steps of the base command that stays in its tree, every point where a step fails, every way the text is written in chunks, every versions dictionary", "why_tests_cant": "links and failures at every step cannot be enumerated", "anchors": ["versioneer.py:write_to_version_file", "versioneer.py:cmd_sdist", "versioneer.py:cmd_build_py"]}
{"id": "C80", "title": "run_command uses the first command that exists", "statement": "run_command passes over the commands that do not exist and starts at most one: the first that exists. Its stripped output is the result exactly when it exits with 0; any other failure gives no output.", "quantifier": "every list of commands, every outcome of starting each of them", "why_tests_cant": "the list and the outcomes are arbitrary", "anchors": ["gcs/_version.py:run_command", "versioneer.py:run_command"]}
{"id": "C81", "title": "Freezing an executable restores the source tree", "statement": "The versioneer versions of build_exe and py2exe write the computed version into the version file of the source tree, run the freezer, and put the template back; no other file changes. Stopped at any point they leave the version file missing or with a beginning of the version text or of the template; and also after a failure they can be run again and setup.py gets the version of the tree from git.", "quantifier": "every file system with any links, every sequence of steps of the freezer that leaves the other files alone, every point where a step fails", "why_tests_cant": "failures at every step cannot be enumerated", "anchors": ["versioneer.py:cmd_build_exe", "versioneer.py:cmd_py2exe", "versioneer.py:write_to_version_file"]}
{"id": "C82", "title": "versioneer.py setup only appends, and settles", "statement": "python versioneer.py setup never removes or changes text of __init__.py, MANIFEST.in or .gitattributes; an existing __init__.py defines __version__ from the version file afterwards, and the lines are appended once; after two runs nothing changes any more. The check of setup.py passes exactly when it imports versioneer, calls get_version() and get_cmdclass(), and has none of the old settings.", "quantifier": "every content of the files, each possibly missing, with any line ends; any number of runs; every setup.py", "why_tests_cant": "the contents of the files are unbounded, and settling is about sequences of runs", "anchors": ["versioneer.py:do_setup", "versioneer.py:scan_setup_py"]}
{"id": "C83", "title": "A list that contains arrays is the list of their elements", "statement": "X.fromobject([a, b, ...]), for a list (nested to any depth) some of whose items are arrays, gives the same array as the nested list in which each array is replaced by the list of its elements, so stacking arrays of equal shape puts element i of the k-th array at [k, i]; equal with such a list likewise. Lists whose items have different shapes are rejected.", "quantifier": "every storage class, every nesting of lists and arrays of every class, every shape, every unspecified value, every mapping of axes of a DM result or of a DM array in the list", "why_tests_cant": "the nestings, shapes and mappings are unbounded, and the arrays are read by repeated indexing", "anchors": ["gcs/storage.py:get_shape", "gcs/storage.py:get_value", "gcs/storage.py:Storage.equal", "gcs/storage.py:DM.__getitem__"]}
{"id": "C84", "title": "Assigning a list that contains arrays", "statement": "s[ix] = [a, b, ...] does what assigning the nested list of the elements of the arrays, as they were before the statement, does.", "quantifier": "every array, every index, every list of arrays of the shape of the selection, whatever memory they share", "why_tests_cant": "the sharing of memory between the target and the arrays in the list is arbitrary", "anchors": ["gcs/storage.py:Storage.__setitem__", "gcs/storage.py:get_value"]}
{"id": "C85", "title": "The version dictionary says what it comes from, or why there is none", "statement": "get_versions() looks at the git checkout in the directory that contains the package directory, and at no other. The error entry is None exactly if git answers and describe names a commit or a tag with the prefix; then full-revisionid, dirty and date are those of the checkout. Otherwise version is 0+unknown or unknown, and error quotes the reason: the unparsable description, the tag without the prefix, no git, or no __file__; the full id is still reported if git gave it.", "quantifier": "every location of the package, every output or failure of the git commands in every directory, unexpanded keywords", "why_tests_cant": "the outputs of git and the paths are unbounded", "anchors": ["gcs/_version.py:get_versions", "gcs/_version.py:git_pieces_from_vcs", "gcs/_version.py:render", "gcs/_version.py:versions_from_parentdir"]}
{"id": "C86", "title": "setup.py passes the version of its own tree", "statement": "setup.py, started from any directory by any relative or absolute path, passes to setup() the version and the requirements of the tree that contains setup.py; with the setup.cfg of the repository this is the version the package in that tree reports. Afterwards the working directory and sys.path are what they were, also when a step fails, and no file outside the tree has been removed.", "quantifier": "every working directory, every path to the script with . and .. in it, every disk, every output of git, every behaviour of setup()", "why_tests_cant": "the directories, paths and disks are unbounded, and failures can happen at each step", "anchors": ["setup.py:setup_package", "versioneer.py:get_root", "versioneer.py:get_versions", "versioneer.py:get_version", "versioneer.py:get_config_from_root"]}
{"id": "C87", "title": "setup.cfg means what it says", "statement": "The configuration of versioneer consists of exactly the settings of the [versioneer] section of setup.cfg: comments (after # or ;), blank lines, the case of the names, whether = or a colon follows the name, the blanks around it and the sections before and after make no difference; a pair of quotes as tag_prefix means the empty prefix; a setting given twice and a section without VCS are refused.", "quantifier": "every list of settings, comments and blank lines in the section, every text before it, every text after it that starts another section", "why_tests_cant": "the texts are unbounded", "anchors": ["versioneer.py:get_config_from_root", "setup.cfg"]}
{"id": "C88", "title": "versioneer.py setup with an incomplete setup.cfg", "statement": "If setup.cfg or its [versioneer] section is missing, python versioneer.py setup appends a sample section and changes nothing else; doing so again changes nothing until settings are filled in. setup.cfg is never changed otherwise, and the files of the package change only if the set-up succeeds.", "quantifier": "every setup.cfg, finished by a line end or not, or missing; every tree; any number of runs", "why_tests_cant": "the contents of the file are unbounded, and settling is about sequences of runs", "anchors": ["versioneer.py:do_setup", "versioneer.py:get_config_from_root", "versioneer.py:SAMPLE_CONFIG"]}
{"id": "C89", "title": "Values that are equal but not identical", "statement": "Whatever == means between elements (0 == 0.0 == False, nan != nan), fromobject, the conversions and copy return every element unchanged, with its type, except those equal to an unspecified value: an element equal to the unspecified value of the source is replaced by the new one, and in sparse arrays an element equal to the unspecified value of the array is not stored and reads as that value. equal() holds exactly if the same elements are stored and they are pairwise equal, and s == t means that classes and shapes agree and the elements are pairwise equal. With an unspecified value that nothing equals (nan) a sparse array stores every element.", "quantifier": "every relation == for which no integer equals None (for s == t: which compares integers as usual and None equal to itself); every class, nested list, array, index and unspecified value", "why_tests_cant": "== can be redefined by every element type; no finite set of values covers its combinations with array contents", "anchors": ["gcs/storage.py:Buffer.fromobject", "gcs/storage.py:COO.fromobject", "gcs/storage.py:FlatCOO.fromobject", "gcs/storage.py:CSR.fromobject", "gcs/storage.py:Buffer.copy", "gcs/storage.py:Strided.copy", "gcs/storage.py:Storage.equal", "gcs/storage.py:Buffer.__eq__"]}
{"id": "C90", "title": "A half-written or damaged version file is not taken for another version", "statement": "If the writing of gcs/_version.py into a distribution is cut off at any point, setup.py run there gets the complete dictionary, or no version (0+unknown with an error), never another version; a file with both markers of the dictionary whose text between them is damaged stops setup.py with a ValueError, whatever git says, and so does, with a KeyError, a template without its git_refnames line.", "quantifier": "every version dictionary whose texts do not contain three apostrophes in a row, every number of characters written, every output of git; every text between the markers", "why_tests_cant": "there is a crash point after every character, and the damage is arbitrary", "anchors": ["versioneer.py:write_to_version_file", "versioneer.py:versions_from_file", "versioneer.py:get_versions", "versioneer.py:git_get_keywords"]}
{"id": "C91", "title": "versioneer.py setup, stopped at any point and run again", "statement": "If python versioneer.py setup is stopped (killed, disk full) at any point, no file but the version file has lost text and each other file is a beginning of what it would have become; running the command again, or at most twice, gives a complete set-up. Stopped between two of its changes or while writing the version file, and with finished last lines in MANIFEST.in and .gitattributes, one more run leaves exactly the tree an uninterrupted run would have left.", "quantifier": "every tree, every point between two changes and every number of characters of a change written", "why_tests_cant": "there is a crash point after every character, in files of any contents", "anchors": ["versioneer.py:do_setup", "versioneer.py:do_vcs_install", "versioneer.py:scan_setup_py"]}
{"id": "C92", "title": "Percent signs and references in setup.cfg", "statement": "In the values of the [versioneer] section %% stands for a percent sign and %(name)s for the value of another option, in any case of the name, whose own references are followed in the same way; a lone percent sign, a reference to a missing option, references in a circle and references more than ten levels deep are refused with an error, and nothing else is.", "quantifier": "every value, every set of options and every nesting of references", "why_tests_cant": "texts and nesting are unbounded, and circles would make the reading endless", "anchors": ["versioneer.py:get_config_from_root"]}
{"id": "C93", "title": "python setup.py version prints the version dictionary", "statement": "The version command of setup.py prints the version that setup() gets, the revision, whether the tree is dirty, the date, and the error if there is one; different version dictionaries are printed differently, and the command fails exactly if get_versions fails or its dictionary (read from a damaged file) lacks the version or the error.", "quantifier": "every disk, working directory, git output and version dictionary (for the last but one part: with texts of one line)", "why_tests_cant": "the dictionaries are unbounded", "anchors": ["versioneer.py:get_cmdclass", "versioneer.py:get_versions"]}
{"id": "C94", "title": "Separate arrays used from several threads", "statement": "Several threads read elements and assign to slices of arrays of any class. If no thread assigns to the values of an array whose lists another thread uses, then under every schedule the arrays end up as if the threads had run one after the other, and every thread reads what it would read alone and ends as it would end alone, also with the same exception. Every schedule ends.", "quantifier": "every number of threads, every sequence of element reads and assignments in each, every schedule of their accesses to the lists", "why_tests_cant": "the number of schedules grows exponentially and a test sees one of them", "anchors": ["gcs/storage.py:Storage.__getitem__", "gcs/storage.py:Storage.__setitem__", "gcs/storage.py:get_value", "gcs/storage.py:Buffer.__setitem__"]}
{"id": "C95", "title": "Different elements of one list from several threads", "statement": "Threads that use arrays of any class over the same lists, views included, do not disturb each other as long as none of them writes an element that another reads or writes, nor a list in which an array keeps its indices: under every schedule the list ends up as if the threads had run one after the other, and every thread reads what it would read alone.", "quantifier": "every number of threads, every sequence of element reads and assignments (of lists or of arrays) on valid arrays of class Buffer, Strided, COO, FlatCOO, CSR or DM (assignments other than those of C32), every schedule", "why_tests_cant": "the number of schedules grows exponentially and a test sees one of them", "anchors": ["gcs/storage.py:Storage.__getitem__", "gcs/storage.py:Storage.__setitem__", "gcs/storage.py:get_value", "gcs/storage.py:Buffer.__setitem__"]}
{"id": "C96", "title": "The same elements from several threads", "statement": "Several threads assign lists and arrays to slices of arrays of any class over shared data lists, with overlaps. Under every schedule none of them fails, every element assigned to ends up with a value that one of the threads assigned to it, elements that no thread assigned to keep their value; and each assignment takes effect at once, so that the result is that of some order of the assignments.", "quantifier": "every number of threads and statements per thread, every slice and list or array of its shape, every array and view (assignments other than those of C32), every schedule", "why_tests_cant": "the number of schedules grows exponentially and a test sees one of them", "anchors": ["gcs/storage.py:Storage.__getitem__", "gcs/storage.py:Storage.__setitem__", "gcs/storage.py:get_value", "gcs/storage.py:Buffer.__setitem__"]}
{"id": "C97", "title": "What a thread reads while others assign", "statement": "Any number of threads read elements of and assign lists to Strided arrays and views over shared lists, with overlaps. Under every schedule none of them fails; every value read from an element, and the value the element has at the end, is the one it had at the start or one that some thread assigns to that very element: no value is made up, and none comes from another element.", "quantifier": "every number of threads, every sequence of element reads and list assignments in each, every schedule", "why_tests_cant": "the number of schedules grows exponentially and a test sees one of them", "anchors": ["gcs/storage.py:Storage.__getitem__", "gcs/storage.py:Storage.__setitem__", "gcs/storage.py:Buffer.__setitem__"]}
{"id": "C98", "title": "The version survives any chain of distributions", "statement": "However often the project is packed with sdist, unpacked and packed again or built with build_py, each time in any process and anywhere, also inside the git checkout of another project: if the first step gets a version, all later steps succeed, setup.py finds in every tree on the way the version dictionary of the first step, and the package built at the end has its version.", "quantifier": "every contents of the version file of the first tree, every number of steps, every output of git and every set of loaded modules at each step", "why_tests_cant": "chains have any length, and the surroundings of each step are arbitrary", "anchors": ["versioneer.py:get_cmdclass", "versioneer.py:get_versions", "versioneer.py:versions_from_file", "versioneer.py:write_to_version_file"]}
{"id": "C99", "title": "Versions sort as the history of the project", "statement": "By the ordering of PEP 440, gcs.__version__ in a checkout of a later commit is newer than in a checkout of any commit it was made from (both described from the same tag, or both without a tag), whatever uncommitted changes there are in either; uncommitted changes alone make the version newer; and every version of the next release number is newer than every version of this one and than every version before the first tag. So pip never takes an older checkout for an upgrade of a later one.", "quantifier": "every commit graph (with merges), every pair of commits one of which contains the other, every tag text, every abbreviated commit name, dirty or clean; for other release numbers every pair of tags of the form N(.N)*; the other PEP 440 styles of versioneer for every such tag and every two distances", "why_tests_cant": "the order depends on the rendering of numbers of any size and on ancestry in graphs of any shape; tests compare a few literals", "anchors": ["gcs/_version.py:render_pep440", "gcs/_version.py:render_pep440_pre", "gcs/_version.py:render_pep440_post", "gcs/_version.py:render_pep440_old", "gcs/_version.py:get_versions", "gcs/_version.py:git_pieces_from_vcs"]}
{"id": "C100", "title": "Under threads values move only along the assignments", "statement": "Several threads read elements and perform assignments s[ix] = value at the same time, where the value is a list or another array and the arrays, of all classes, may share their data lists in any way. As long as no thread assigns to a list in which an array keeps its indices, no thread fails, and whatever a thread reads from an element, and whatever the element holds at the end, is the value it had at the start, one that some thread's list has for that element, or one that an element copied to it by some thread's array assignment may have had. Elements kept where no thread assigns do not change, and whatever is true of all elements at the start and of all items of the assigned lists is true of everything read and of all elements at the end.", "quantifier": "every number of threads, every list of statements per thread, every well-formed array of class Buffer, Strided, COO, FlatCOO, CSR or DM, every index and regular list or array of the right shape (assignments to Strided, sparse arrays and DM over Buffer or Strided, other than those of C32), every schedule", "why_tests_cant": "The threads race, so the results depend on the interleaving; a test sees a few interleavings, and the claim is about all of them, over all ways arrays share lists.", "anchors": ["gcs/storage.py:Storage.__getitem__", "gcs/storage.py:Storage.__setitem__", "gcs/storage.py:get_value", "gcs/storage.py:get_coo_position", "gcs/storage.py:get_csr_position", "gcs/storage.py:Storage.slice_indices_and_data_position"]}
{"id": "C101", "title": "git gets the complete set-up", "statement": "python versioneer.py setup passes to git add only files that exist and every file it has changed, so that in a tree without other changes the next commit has the complete set-up. This also holds if the command was stopped before it called git add, or git could not be started, and it is run again.", "quantifier": "every version file path, every contents of the four files, every index, every point at which the first run is stopped", "why_tests_cant": "the files added depend on the contents found, which a first run may have changed; a test stops the command at a few points only", "anchors": ["versioneer.py:do_setup", "versioneer.py:do_vcs_install"]}
{"id": "C102", "title": "No thread waits for another; element access costs a binary search", "statement": "When threads read elements of arrays and assign lists or arrays to slices, a thread that has been given a certain number of turns, which depends on its own statements only, has completed them without an error, whatever the other threads do or leave undone. Reading one element takes one list access for dense arrays and a binary search in the stored elements for sparse ones (at most the number of binary digits of their count, times the rank for COO); assigning takes one write per stored element of the slice plus the reads of the value. Assigning to a sparse array, even one element, reads the indices of all its stored elements.", "quantifier": "all numbers of threads, all their programs of reads and assignments on well-formed arrays of all classes that may share data lists, all schedules, including those that never run the other threads", "why_tests_cant": "A test sees one schedule and one array size; the bound concerns every interleaving and every number of stored elements.", "anchors": ["gcs/storage.py:get_coo_position", "gcs/storage.py:get_flatcoo_position", "gcs/storage.py:get_csr_position", "gcs/storage.py:Storage.__getitem__", "gcs/storage.py:Storage.__setitem__", "gcs/storage.py:slice_indices_and_data_position"]}
{"id": "C103", "title": "The index helpers fail exactly on arguments that do not fit together", "statement": "get_position(index, shape, strides) is the sum of products over the axes of shape if index and strides have an item for each, and an IndexError otherwise (further items are ignored). reduce_index answers exactly if there is an origin, strides and axis numbers for every group and every axis number used exists in the index (negative ones count from the end), and raises IndexError otherwise. get_csr_position raises ValueError exactly for an index that is not a pair. apply_slices fails exactly at the first item that is no int, slice or None (ValueError) or that is an int or slice for an axis of length 0 (ZeroDivisionError). is_element_index is True exactly for an int on a one-dimensional array and for a tuple of one int per axis, and raises TypeError exactly for an object that is no int, slice, None or sequence.", "quantifier": "all integer sequences of all lengths, matching or not, and all index objects", "why_tests_cant": "Mismatched lengths, negative axis numbers and empty axes combine in unboundedly many ways; the claims are equivalences.", "anchors": ["gcs/storage.py:get_position", "gcs/storage.py:get_rposition", "gcs/storage.py:reduce_index", "gcs/storage.py:get_csr_position", "gcs/storage.py:is_element_index", "gcs/slice_tools.py:apply_slices", "gcs/slice_tools.py:reduced"]}
{"id": "C104", "title": "Updating arrays while iterating over elements()", "statement": "A loop `for index, value in s.elements(): body` runs its body exactly once for each index that s.elements() listed when the loop began, in row-major order, and the value it passes is the element s[index] at that moment, whatever the body did before; it ends early only if the body raises. This holds for every body that leaves the index lists of s and the length of its data list alone, as every assignment to an array with another data list or to s itself does. `for i, v in s.elements(): s[i] = f(v)` applies f once to every element of a Buffer or Strided. It does not do so on the sparse classes and DM: there it leaves f applied n times to the first stored value in all n stored elements.", "quantifier": "all arrays of every class (positive shape for the sparse ones), all loop bodies, all functions f", "why_tests_cant": "Any program can be the loop body, and enumeration and writes interleave.", "anchors": ["gcs/storage.py:Storage.elements", "gcs/storage.py:Storage.indices_and_data_position", "gcs/storage.py:Storage.__setitem__"]}
{"id": "C105", "title": "The command `python PATH/versioneer.py setup`", "statement": "Started in the project directory with a complete setup.cfg, the command changes exactly the version file, the __init__.py next to it, MANIFEST.in and .gitattributes of that project, each as do_setup is specified to, and exits with 0 exactly if setup.py has the three required items and no old-style settings; with an incomplete setup.cfg it adds the sample section (or changes nothing if only VCS is missing) and exits with 1. Without argument it raises IndexError, with another argument it does nothing and exits with 0. The working directory should not matter, but it does: from a directory that is no project the command never succeeds, unless the version file it writes is itself that directory's setup.py; it writes the version file and .gitattributes into the working directory, changes MANIFEST.in of the project, and then fails because it finds no setup.py, or changes nothing if the working directory lacks the package directory.", "quantifier": "all disks, all sets of existing directories, all working directories and script paths, all setup.cfg and other file contents, all relative paths of the version file, all arguments", "why_tests_cant": "The outcome depends on the working directory, the path of the script and the contents of six files.", "anchors": ["versioneer.py:do_setup", "versioneer.py:do_vcs_install", "versioneer.py:scan_setup_py", "versioneer.py:get_root", "versioneer.py:__main__"]}
{"id": "C106", "title": "Comparing arrays of different classes", "statement": "Two arrays of any classes, views included, compare with == after s.as_X(unspecified=u) and t.as_X(unspecified=u) exactly if they have the same shape and the same elements, u standing for what is not specified (X other than DM and C2SR; CSR needs a specified element). equal() never fails and is an equivalence relation over all classes; arrays that are == are equal(), unless strides are negative. Without the argument unspecified the comparison after conversion should be exact too, but as_Strided() of a view returns the view with its strides, so it is exact only for arrays as fromobject and the conversions build them.", "quantifier": "all pairs and triples of valid arrays of every class and any chain of views, all target classes, all values u", "why_tests_cant": "Every pair of classes, views and unspecified values has to be covered.", "anchors": ["gcs/storage.py:Storage.as_Strided", "gcs/storage.py:Storage.as_COO", "gcs/storage.py:Storage.equal", "gcs/storage.py:Storage.__eq__", "gcs/storage.py:Strided.fromobject"]}
{"id": "C107", "title": "The work of finding an index", "statement": "extgcd(a, b) returns after at most 2 * bits(a) + 1 nested calls, and preparing a search for an array of N axes and n elements (or any chain of slices of it) has at most N + 2 * bits(n) + 3 calls on the stack, so Python's recursion limit is not reached. solve_index tries at most 2^(N-1) candidates; for an element of an array as built the first one is it. Taking a slice of a sparse array should take work proportional to its stored elements, but every stored element outside of s[0:1] costs 2^(N-1) candidates.", "quantifier": "all integers a and b, all shapes, chains of slices and positions, all sparse arrays and all indices", "why_tests_cant": "Cost bounds hold for all sizes; timing a few arrays of low rank shows neither the bound nor the growth.", "anchors": ["gcs/slice_tools.py:extgcd", "gcs/slice_tools.py:_init_diophantine", "gcs/slice_tools.py:solve_index", "gcs/storage.py:Storage.slice_indices_and_data_position"]}
{"id": "C108", "title": "The mapping of axes is the one the introduction describes", "statement": "For a permutation of the axes and a partitioning, the reduced shape, the strides, the reduced indices and the promoted indices are those given by the formulas of GentleIntroductionToGCS.md: the axes of each part are numbered in row-major order. The array that DM.fromobject or as_DM stores has the reduced shape and holds the element with indices i at the reduced indices of i; by default the last axis forms the second part. (The formula for the strides, read to the letter, would give two elements the same position.)", "quantifier": "all shapes, permutations, partitionings, indices and reduced indices (also out of range), all given lists or arrays, all wrapped classes", "why_tests_cant": "The examples of the introduction are single shapes of rank 3 and 5; inverse maps alone (C20, C21) do not fix which of the many bijections is used.", "anchors": ["gcs_basics.py:create_reduction_metadata", "gcs_basics.py:reduction", "gcs_basics.py:promotion", "gcs/storage.py:make_reduction", "gcs/storage.py:DM.fromobject", "GentleIntroductionToGCS.md", "pytorch-crs-dm-proposal.md"]}
{"id": "C109", "title": "An array in Python's sequence protocol", "statement": "a, b, ... = s, x in s, reversed(s) and if s: treat the array as the sequence s[0], ..., s[len(s)-1]: unpacking gives these items when there are len(s) names and raises ValueError otherwise; x in s is True exactly if an item equals x; reversed(s) gives the items backwards, once each; the array is true exactly if len(s) > 0. (Holds for Buffer and, for reversed(), for every class. For the other classes unpacking raises ValueError for every number of names, and x in s does not end unless x is found; a number is never found in an array of two or more dimensions.)", "quantifier": "all arrays of all classes with positive shapes (a DM as built by the library, or one-dimensional), all numbers of names, all values looked for", "why_tests_cant": "Non-termination cannot be observed by a test, and the failures come from integer indices that wrap instead of raising IndexError, which is deliberate behaviour tested elsewhere in the repository.", "anchors": ["gcs/storage.py:Storage.__len__", "gcs/storage.py:Storage.__getitem__", "gcs/storage.py:Storage.__eq__", "gcs/storage.py:Buffer.__iter__", "gcs/storage.py:Buffer.__getitem__"]}
{"id": "C110", "title": "Lists and arrays of a rank the class is not made for", "statement": "Buffer.fromobject of a nested list of any depth and as_Buffer() of an array of any rank give the elements row by row, with missing elements replaced by the unspecified value; a Buffer equals a nested list exactly if it holds the same elements in this order. CSR.fromobject and as_CSR() raise unless the object has rank 2: AssertionError if some element is specified, IndexError for a list in which none is. Of a single number Strided.fromobject and FlatCOO.fromobject make an array of rank 0 that reads as the number, while COO.fromobject raises IndexError and DM.fromobject AssertionError.", "quantifier": "all regular nested lists of any depth (numbers included), all valid arrays of all classes with at least one axis, all unspecified arguments, all heaps", "why_tests_cant": "The tests convert only lists and arrays of the rank the class is made for; flattening must put every element of an array of any shape at its place.", "anchors": ["gcs/storage.py:Buffer.fromobject", "gcs/storage.py:Storage.as_Buffer", "gcs/storage.py:Storage.__eq__", "gcs/storage.py:CSR.fromobject", "gcs/storage.py:CSR.__init__", "gcs/storage.py:COO.fromobject", "gcs/storage.py:FlatCOO.fromobject", "gcs/storage.py:DM.fromobject"]}
{"id": "C111", "title": "Every operation on arrays ends", "statement": "Indexing, assignment, elements, ==, equal(), copy() and the conversions return or raise after finitely many steps for every array, also one whose index lists are unsorted, hold duplicates, positions out of range or objects that are no integers, or have wrong lengths.", "quantifier": "all arrays of all classes with arbitrary contents (no well-formedness is assumed), all indices and values, all conversion arguments whose own index function ends, all heaps", "why_tests_cant": "A loop that does not end shows in a test only as a timeout, and only for the damaged array that happens to be tried; the binary searches must make progress whatever the comparisons say.", "anchors": ["gcs/storage.py:get_coo_position", "gcs/storage.py:get_flatcoo_position", "gcs/storage.py:get_csr_position", "gcs/storage.py:Storage.__getitem__", "gcs/storage.py:Storage.__setitem__", "gcs/storage.py:Storage.equal", "gcs/storage.py:Storage.copy", "gcs/storage.py:DM.fromobject"]}
{"id": "C112", "title": "Converting an array while other threads assign to it", "statement": "X.fromobject(s) and the as_X conversions, run while other threads assign lists and arrays to s or to arrays sharing its data, raise nothing and give an array of the shape and class asked for whose every element is a value that element of s had at the start or that some thread assigned to it; if no thread assigns to an element of s the result is that of a conversion without other threads. The elements need not have been there at the same time.", "quantifier": "all well-formed arrays, all target classes other than DM, all programs of the other threads (assignments of lists and arrays of all classes and reads), all schedules of single list accesses", "why_tests_cant": "Which elements are read before and which after an assignment depends on the schedule; tests see one schedule.", "anchors": ["gcs/storage.py:Buffer.fromobject", "gcs/storage.py:Strided.fromobject", "gcs/storage.py:COO.fromobject", "gcs/storage.py:FlatCOO.fromobject", "gcs/storage.py:CSR.fromobject", "gcs/storage.py:Storage.__setitem__"]}
{"id": "C113", "title": "Slicing a sparse array while other threads assign to it", "statement": "s[ix] of a COO, FlatCOO or CSR array, taken while other threads assign lists and arrays to s or to arrays sharing its data, raises nothing and gives an array of the slice's shape and class, sharing no list with any other, whose every element is a value that the selected element of s had at the start or that some thread assigned to it; if no thread assigns to an element the slice selects, the result is the slice taken without other threads.", "quantifier": "all well-formed COO, FlatCOO and CSR arrays of positive shape, all valid slice indices (rows and columns of CSR arrays included), all programs of the other threads (assignments of lists and arrays of all classes and reads), all schedules of single list accesses", "why_tests_cant": "Which elements are read before and which after an assignment depends on the schedule; tests see one schedule.", "anchors": ["gcs/storage.py:Storage.__getitem__", "gcs/storage.py:COO.get_slice", "gcs/storage.py:FlatCOO.get_slice", "gcs/storage.py:CSR.get_slice", "gcs/storage.py:Storage.__setitem__"]}
{"id": "C114", "title": "A copy made while other threads assign is the array at one moment", "statement": "copy() of a Buffer, COO, FlatCOO or CSR array, or of a DM array over one of them, called at any moment while other threads assign lists and arrays to it or to arrays sharing its data, gives an array with exactly the elements the array has at that moment; the copy keeps them whatever the threads do afterwards, and the threads do what they would have done without it. The same holds of the conversions between COO, FlatCOO and CSR that copy the stored values as a whole. copy() of a Strided array reads one element after the other and is as in C112.", "quantifier": "all well-formed arrays of these classes, all programs of the other threads (assignments of lists and arrays of all classes and reads), all schedules of single list accesses before and after the copy", "why_tests_cant": "The moment of the copy is chosen by the schedule; tests see one schedule.", "anchors": ["gcs/storage.py:Storage.copy", "gcs/storage.py:Buffer.copy", "gcs/storage.py:Strided.copy", "gcs/storage.py:COO.fromobject", "gcs/storage.py:FlatCOO.fromobject", "gcs/storage.py:CSR.fromobject"]}
{"id": "C115", "title": "Loops over elements(), equal() and conversions while other threads run", "statement": "A loop over elements() of an array, while other threads do anything that does not assign to the array's index lists, gives one pair for each element with the indices the array has, and the value of each pair is the one the element has at some moment of the loop; these moments come in the order of the pairs. equal() made meanwhile gives True only if the two arrays have the same indices and, for each of them, the first array at some moment and the second at that or a later moment have the same element there; it gives False only if the indices differ or two such elements differ. It gives what it gives without other threads if none of them assigns to either array. It may give True although the arrays are equal at no moment. A conversion made meanwhile holds elements the array has at moments in the order of the indices.", "quantifier": "all well-formed arrays of all classes but C2SR (sparse ones without empty dimensions), all other threads whatever they do outside the index lists of the arrays, all schedules of single list accesses", "why_tests_cant": "The values depend on the schedule; tests see one schedule and few programs.", "anchors": ["gcs/storage.py:Storage.elements", "gcs/storage.py:Storage.equal", "gcs/storage.py:Storage.__getitem__", "gcs/storage.py:Buffer.indices_and_data_position", "gcs/storage.py:Strided.indices_and_data_position", "gcs/storage.py:COO.indices_and_data_position", "gcs/storage.py:FlatCOO.indices_and_data_position", "gcs/storage.py:CSR.indices_and_data_position", "gcs/storage.py:DM.indices_and_data_position"]}
{"id": "C116", "title": "What an element assignment to a sparse or DM array reaches, in any program", "statement": "In a program of constructors, conversions, slices, copies and assignments, an assignment of a value to one element of a COO, FlatCOO or CSR array, or of a DM array over Strided or Buffer data, overwrites every stored element of that array (C32 is violated), the elements that other views share with these, and nothing else: an array of another origin keeps all its elements, an index with no stored value stays unspecified, and the operation raises nothing. With this meaning of element assignments, every variable of every such program has the class, shape, unspecified value, elements and stored indices that the array semantics of C58 gives, and how the DM arrays are mapped makes no difference.", "quantifier": "every program of any length of the operations of C58 and such element assignments", "why_tests_cant": "all histories: the damage depends on which arrays share elements, which depends on the whole program", "anchors": ["gcs/storage.py:Storage.__setitem__", "gcs/storage.py:Storage.slice_indices_and_data_position", "gcs/slice_tools.py:solve_index", "gcs/storage.py:COO", "gcs/storage.py:FlatCOO", "gcs/storage.py:CSR", "gcs/storage.py:DM"]}
{"id": "C117", "title": "Overlapping assignments to sparse and DM arrays, in any program", "statement": "In a program of constructors, conversions, slices, copies and assignments, x[index] = value may take its values from an array that shares elements with x. Where x is a COO, FlatCOO or CSR array, or a DM array over Strided or Buffer data, and the index selects a slice, the selected elements are overwritten in the order of the indices of x (not of the slice, as Strided arrays do), each with the value that is there when its turn comes; so an element gets the value the other array had before the assignment unless an element overwritten earlier is the same as the one it is read from. Nothing is raised; with this meaning every variable of every such program has the class, shape, unspecified value, elements and stored indices that the array semantics gives, and how the DM arrays are mapped makes no difference.", "quantifier": "every program of any length of the operations of C116 and assignments to slices, with values from lists or from any array of the program", "why_tests_cant": "all histories: whether two arrays share elements depends on the whole program, and the result on the order in which they are visited", "anchors": ["gcs/storage.py:Storage.__setitem__", "gcs/storage.py:Storage.slice_indices_and_data_position", "gcs/storage.py:DM.indices_and_data_position"]}
{"id": "C118", "title": "Which class holds an array is not observable, up to aliasing", "statement": "Take two programs of constructors, conversions, slices, copies and assignments that differ only in the classes of the arrays they make: Buffer, Strided or DM over Buffer or Strided data with any mapping in place of one another, COO and FlatCOO in place of one another. If no conversion asks for the class the array already has, and the assignments are to slices and from elsewhere (or to Strided arrays in both), every variable has the same shape, unspecified value and elements in both programs, and the sparse ones the same stored indices. Both conditions are needed: a conversion to the array's own class returns the array itself, and overlapping assignments visit the elements in an order that depends on the class.", "quantifier": "every pair of programs of any length that differ in the classes only", "why_tests_cant": "all histories: whether a class shows depends on which arrays share elements in the rest of the program", "anchors": ["gcs/storage.py:Storage.as_Strided", "gcs/storage.py:Storage.as_COO", "gcs/storage.py:Storage.as_FlatCOO", "gcs/storage.py:Storage.as_DM", "gcs/storage.py:Storage.__setitem__"]}
{"id": "C119", "title": "== while other threads assign", "statement": "s == t, evaluated while other threads run statements that assign elements (of s, t or any other array, but not of lists of indices of s and t), never raises. If the answer is True and no axis of s was reversed by a slice, then s and t have the same class, shape and unspecified value, and the elements of s at one moment of the evaluation are the elements of t at one moment, not earlier; for Buffer, COO, FlatCOO and CSR the answer is True exactly then. If no thread assigns to s or t the answer is that of == without threads. The answer can be True although s and t differ at every moment, and a Buffer can compare unequal to itself.", "quantifier": "all well-formed arrays s and t (different objects; for Buffer also the same), all threads, all schedules and all moments at which the evaluation takes its slices", "why_tests_cant": "The answer depends on when the lists are looked at; a test runs one schedule.", "anchors": ["gcs/storage.py: Storage.__eq__", "gcs/storage.py: Buffer.__eq__", "gcs/storage.py: Storage._get_object_data"]}
{"id": "C120", "title": "copy(unspecified=u) while other threads assign", "statement": "s.copy(unspecified=u), with another u than the unspecified value of s, executed while other threads run statements that assign elements (of s or any other array, but not of lists of indices of s), never raises. The copy has the class and shape of s, the unspecified value u and its own list of elements; each element is the one s has at some moment of the copying, with u in place of the old unspecified value, and unless s is a DimensionMerger the moments are in the order of the indices. If no thread assigns to s, the copy has the elements of the copy made without threads. The copy can have elements that s has at no moment together.", "quantifier": "all well-formed arrays s, all values u, all threads and all schedules", "why_tests_cant": "Which values are copied depends on the schedule; a test runs one.", "anchors": ["gcs/storage.py: Storage.copy", "gcs/storage.py: Buffer.copy", "gcs/storage.py: Strided.copy"]}
{"id": "C121", "title": "as_DM while other threads assign", "statement": "s.as_DM(dimensions, partitioning, storage_class, unspecified), executed while other threads run statements that assign elements (of s or any other array, but not of lists of indices of s), raises nothing (for CSR, if one of the values it reads is kept) and gives a DM array of the shape of s over a new array of the class asked for, with lists of its own; each element is the one s has at some moment of the conversion, with the new unspecified value in place of the old one, and the moments are in the order of the places in the reduced array. If no thread assigns to s, the result has the elements of the conversion without threads. The result can have elements that s has at no moment together, and a permutation of the axes can change which.", "quantifier": "all well-formed arrays s without zero axes, all storage classes but DM, all permutations and partitionings of the axes, all values of unspecified, all threads and all schedules", "why_tests_cant": "Which values are read depends on the schedule and on the order of the reduced indices; a test runs one schedule and one mapping.", "anchors": ["gcs/storage.py: Storage.as_DM", "gcs/storage.py: DM.fromobject", "gcs/storage.py: promote_index"]}
{"id": "C122", "title": "Slices of dense arrays while other threads assign", "statement": "s[ix] of a Buffer, a Strided array or a DM array over these is the same view whenever it is taken, whatever other threads assign in the meantime: no element is read, no list is made, and if it raises, it raises the same exception at every moment. A slice of a Strided array or of a DM array made by fromobject or as_DM shows at every moment the elements s has at that moment. The same holds for slices of slices of Strided arrays when each is taken at another moment.", "quantifier": "all well-formed arrays with dense data, all indices (for the elements: all valid slice indices on positive shapes), all threads, whatever they read or assign, all schedules, all moments", "why_tests_cant": "A test slices at one moment of one schedule; the claim is about every pair of a moment of slicing and a moment of reading.", "anchors": ["gcs/storage.py:Storage.__getitem__", "gcs/storage.py:Buffer.__getitem__", "gcs/storage.py:Strided.get_slice", "gcs/storage.py:DM.__getitem__"]}
{"id": "C123", "title": "Slices of DM arrays over sparse data while other threads assign", "statement": "A thread takes the slice s[ix] of a DM array over COO, FlatCOO or CSR data while other threads read elements of arrays and assign to them, also to arrays that share the lists of s (but not to lists of indices). Nothing fails. The slice is a DM array over data of the same class (over COO data if s is over CSR data and the index fixes a whole group of axes) with the shape s[ix] has otherwise, whose lists no other array shares, and each of its elements is a value that the element of s it is taken from may have had at some time. If no thread assigns to an element that the slice selects, it is the slice taken before the threads start.", "quantifier": "all well-formed DM arrays over COO, FlatCOO or CSR data with positive shape, all slice indices except those with integers at all axes of a group whose offset is not zero (for arrays made by fromobject or as_DM: all valid slice indices), all lists of reads and assignments of the other threads, all schedules", "why_tests_cant": "The result depends on the schedule; a test sees a few schedules of a few programs.", "anchors": ["gcs/storage.py:DM.__getitem__", "gcs/storage.py:COO.get_slice", "gcs/storage.py:FlatCOO.get_slice"]}
{"id": "C124", "title": "Slicing a DM array that keeps the axes does not touch its data", "statement": "As the comment in DM.__getitem__ says: slicing a DM array does not involve access to the stored data when the slice has as many axes as the array, also over COO and CSR data, or when the data is Strided.", "quantifier": "all DM arrays, all slice indices", "why_tests_cant": "That nothing is read or copied, for every array and index, is not visible in the values a test compares.", "anchors": ["gcs/storage.py:DM.__getitem__"]}
