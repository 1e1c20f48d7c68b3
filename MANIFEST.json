{
 "claims": [
  {
   "property": "C01",
   "status": "proved",
   "theorems": [
    "C01_reduced_preserves_selection",
    "C01_selected_is_range"
   ],
   "note": ""
  },
  {
   "property": "C02",
   "status": "proved",
   "theorems": [
    "C02_reduced_normal_form"
   ],
   "note": ""
  },
  {
   "property": "C03",
   "status": "proved",
   "theorems": [
    "C03_nitems_counts"
   ],
   "note": ""
  },
  {
   "property": "C04",
   "status": "proved",
   "theorems": [
    "C04_closed_form",
    "C04_membership"
   ],
   "note": ""
  },
  {
   "property": "C05",
   "status": "partial",
   "theorems": [
    "C05_zero_step_refuted",
    "C05_arrays_refuted",
    "C05_empty_refuted"
   ],
   "note": "The property is false of the code: a zero step is silently treated as an empty slice. Proved: this happens for every start, stop and size; on every well-formed array, reading and assigning with step-0 slices are those with [0:0] in their place; a step-0 slice of the first axis is an empty array and assigning to it changes nothing and raises nothing."
  },
  {
   "property": "C06",
   "status": "proved",
   "theorems": [
    "C06_normalize_index",
    "C06_extra_items_rejected",
    "C06_rejected_exactly",
    "C06_single_items"
   ],
   "note": ""
  },
  {
   "property": "C07",
   "status": "proved",
   "theorems": [
    "C07_index_strided_exact"
   ],
   "note": ""
  },
  {
   "property": "C08",
   "status": "proved",
   "theorems": [
    "C08_apply_slices_agrees"
   ],
   "note": ""
  },
  {
   "property": "C09",
   "status": "proved",
   "theorems": [
    "C09_extgcd_terminates",
    "C09_extgcd_bezout"
   ],
   "note": ""
  },
  {
   "property": "C10",
   "status": "proved",
   "theorems": [
    "C10_diophantine_solutions"
   ],
   "note": ""
  },
  {
   "property": "C11",
   "status": "proved",
   "theorems": [
    "C11_diophantine_complete"
   ],
   "note": ""
  },
  {
   "property": "C12",
   "status": "proved",
   "theorems": [
    "C12_zero_strides",
    "C12_exactly",
    "C12_single_zero",
    "C12_solver_total"
   ],
   "note": ""
  },
  {
   "property": "C13",
   "status": "proved",
   "theorems": [
    "C13_solve_index_sound"
   ],
   "note": ""
  },
  {
   "property": "C14",
   "status": "proved",
   "theorems": [
    "C14_solve_contiguous"
   ],
   "note": ""
  },
  {
   "property": "C15",
   "status": "proved",
   "theorems": [
    "C15_solve_views",
    "C15_solve_slices"
   ],
   "note": ""
  },
  {
   "property": "C16",
   "status": "partial",
   "theorems": [
    "C16_found_exactly_partial",
    "C16_one_axis_partial",
    "C16_two_axes_partial",
    "C16_fortran_order_refuted",
    "C16_solve_index_complete_refuted"
   ],
   "note": "The property is false of the code: of the elements of an array in Fortran order only those of the last column are found (C16_fortran_order_refuted, all sizes). Proved: for all nonzero strides exactly which solutions are found (C16_found_exactly_partial), which for one axis is all of them and for two axes those less than |a0|/gcd(a0,a1) below the upper bound of the second axis. Completeness for the strides of all views of contiguous arrays is C14/C15."
  },
  {
   "property": "C17",
   "status": "proved",
   "theorems": [
    "C17_compress_indices"
   ],
   "note": ""
  },
  {
   "property": "C18",
   "status": "proved",
   "theorems": [
    "C18_uncompress_compress",
    "C18_compress_uncompress"
   ],
   "note": ""
  },
  {
   "property": "C19",
   "status": "proved",
   "theorems": [
    "C19_flatcoo",
    "C19_csr",
    "C19_coo"
   ],
   "note": ""
  },
  {
   "property": "C20",
   "status": "proved",
   "theorems": [
    "C20_reduce_promote",
    "C20_origins",
    "C20_int",
    "C20_partitioning_groups"
   ],
   "note": ""
  },
  {
   "property": "C21",
   "status": "proved",
   "theorems": [
    "C21_reduction_promotion"
   ],
   "note": ""
  },
  {
   "property": "C22",
   "status": "proved",
   "theorems": [
    "C22_fromobject_elements"
   ],
   "note": ""
  },
  {
   "property": "C23",
   "status": "proved",
   "theorems": [
    "C23_sparse_stores_specified"
   ],
   "note": ""
  },
  {
   "property": "C24",
   "status": "proved",
   "theorems": [
    "C24_as_DM",
    "C24_conversion"
   ],
   "note": ""
  },
  {
   "property": "C25",
   "status": "proved",
   "theorems": [
    "C25_round_trips",
    "C25_fromobject_as_built"
   ],
   "note": ""
  },
  {
   "property": "C26",
   "status": "proved",
   "theorems": [
    "C26_strided_slices"
   ],
   "note": ""
  },
  {
   "property": "C27",
   "status": "proved",
   "theorems": [
    "C27_sparse_slices"
   ],
   "note": ""
  },
  {
   "property": "C28",
   "status": "proved",
   "theorems": [
    "C28_dm_elements"
   ],
   "note": ""
  },
  {
   "property": "C29",
   "status": "proved",
   "theorems": [
    "C29_dm_slices"
   ],
   "note": ""
  },
  {
   "property": "C30",
   "status": "partial",
   "theorems": [
    "C30_composing_chains_partial",
    "C30_other_chains_are_wrong",
    "C30_chained_dm_slices_refuted",
    "C30_chained_dm_slices_partial"
   ],
   "note": "The property is false of the code (C30_chained_dm_slices_refuted: [[1,2],[3,4]] as DM, s[1:][0] returns row 0). Proved: which chains compose. For a DM array built by fromobject/as_DM over data of another class, a chain gives the right elements when no index drops the last axes of a group while the array starts away from index 0 on that group (C30_composing_chains_partial), and for every other chain of an array with pairwise different elements every element of the result is wrong (C30_other_chains_are_wrong). For DM over DM: chains in which only the first index contains integers (C30_chained_dm_slices_partial)."
  },
  {
   "property": "C31",
   "status": "proved",
   "theorems": [
    "C31_dm_rejects"
   ],
   "note": ""
  },
  {
   "property": "C32",
   "status": "partial",
   "theorems": [
    "C32_exactly",
    "C32_element_assignment_partial",
    "C32_overwrites_everything",
    "C32_element_assignment_refuted"
   ],
   "note": "Holds for Strided and Buffer (C32_element_assignment_partial). False of the code for COO, FlatCOO, CSR and DM: C32_overwrites_everything shows for every such array that s[i] = v overwrites all specified elements and C32_exactly which elements change: those that have a place in the data, whatever the data of a DM array; C32_element_assignment_refuted is a concrete history."
  },
  {
   "property": "C33",
   "status": "partial",
   "theorems": [
    "C33_last_value_everywhere",
    "C33_slice_assignment_partial",
    "C33_slice_assignment_refuted",
    "C33_buffer_slice_assignment"
   ],
   "note": "Proved for Strided, COO, FlatCOO, CSR and DM over Strided/Buffer. False of the code for DM over a sparse class or DM (C33_slice_assignment_refuted); C33_last_value_everywhere says what happens there for every such array: all elements with a place in the data become the last value assigned, the others keep the unspecified value. Buffer raises for every slice assignment (C33_buffer_slice_assignment)."
  },
  {
   "property": "C34",
   "status": "partial",
   "theorems": [
    "C34_exactly",
    "C34_read_back_partial",
    "C34_stored_partial",
    "C34_read_back_refuted"
   ],
   "note": "Proved for Strided and Buffer, and in the other classes for elements that are specified. False of the code for elements of sparse arrays that are not stored: the assignment is silently dropped, for every such array (C34_read_back_refuted). C34_exactly gives the value read back on every sparse and DM array."
  },
  {
   "property": "C35",
   "status": "partial",
   "theorems": [
    "C35_outcome_partial",
    "C35_failed_assignment_refuted",
    "C35_failed_assignment_partial",
    "C35_buffer_partial"
   ],
   "note": "False of the code: Strided [1,2,3], s[:] = [9] raises IndexError after writing s[0] (C35_failed_assignment_refuted). Proved: whatever the outcome only selected stored elements may change and the array stays well-formed; C35_outcome_partial gives the exact state after assigning any nested list (the elements visited before the first one without a value are written, all others keep their value); a failed Buffer assignment changes nothing."
  },
  {
   "property": "C36",
   "status": "proved",
   "theorems": [
    "C36_views_track_base",
    "C36_writes_reach_base"
   ],
   "note": ""
  },
  {
   "property": "C37",
   "status": "proved",
   "theorems": [
    "C37_copies_independent",
    "C37_conversions_independent",
    "C37_as_DM_independent",
    "C37_sparse_slices_independent"
   ],
   "note": ""
  },
  {
   "property": "C38",
   "status": "proved",
   "theorems": [
    "C38_copy"
   ],
   "note": ""
  },
  {
   "property": "C39",
   "status": "partial",
   "theorems": [
    "C39_equality_partial",
    "C39_total",
    "C39_as_built_exact",
    "C39_dm_exact",
    "C39_lists_exact",
    "C39_sparse_exact",
    "C39_equality_refuted"
   ],
   "note": "False of the code for arrays reversed by a slice: [1,2,3][::-1] == [9,9,3][::-1] (C39_equality_refuted). Proved for every pair of valid storages of any class without negative strides; == never raises; exact for COO, FlatCOO and CSR in terms of elements(), and for arrays as built (C39_as_built_exact, C39_lists_exact, C39_dm_exact): they are == exactly if shape, unspecified value and elements agree."
  },
  {
   "property": "C40",
   "status": "partial",
   "theorems": [
    "C40_characterised",
    "C40_dense_partial",
    "C40_sparse_partial",
    "C40_buffer_partial",
    "C40_buffer_other",
    "C40_list",
    "C40_buffer_list",
    "C40_symmetric",
    "C40_equal_refuted"
   ],
   "note": "False of the code: a COO and a Strided with the same elements are not equal(), COO arrays with different unspecified values are, a Buffer never equals a nonempty array of another class (C40_equal_refuted, C40_buffer_other). Proved: what equal() decides for all pairs of storages (C40_characterised, C40_buffer_partial, C40_buffer_other), and that this is element-wise equality for Strided/DM pairs, for sparse pairs of one shape and unspecified value, for Buffers, and for comparison with a nested list (of a Buffer with a flat list: C40_buffer_list; with a nested one: C110_equal_nested); symmetry for all pairs."
  },
  {
   "property": "C41",
   "status": "proved",
   "theorems": [
    "C41_elements_dense",
    "C41_elements_sparse",
    "C41_elements_buffer"
   ],
   "note": ""
  },
  {
   "property": "C42",
   "status": "partial",
   "theorems": [
    "C42_empty_strided_refuted",
    "C42_empty_CSR_refuted",
    "C42_empty_slices_partial",
    "C42_conversions_partial",
    "C42_empty_arrays_refuted",
    "C42_zero_axis_refuted",
    "C42_flatcoo_refuted",
    "C42_flatcoo_to_coo_partial"
   ],
   "note": "False of the code: Strided arrays of empty lists raise on every index, CSR raises for every list with no specified element, [[], []] cannot be sliced in any class, and in every Strided, COO, FlatCOO and CSR array an integer or slice for an axis of length 0 raises ZeroDivisionError (C42_zero_axis_refuted). Proved: slices of nonempty arrays that select nothing, and conversions of arrays with empty dimensions. FlatCOO to COO, and listing the elements of a FlatCOO array, raise exactly when a dimension other than the first has length 0: ZeroDivisionError or AssertionError (C42_flatcoo_refuted, C42_flatcoo_to_coo_partial)."
  },
  {
   "property": "C43",
   "status": "proved",
   "theorems": [
    "C43_integers_wrap",
    "C43_negative",
    "C43_no_exception"
   ],
   "note": ""
  },
  {
   "property": "C44",
   "status": "proved",
   "theorems": [
    "C44_exactly",
    "C44_assign_exactly",
    "C44_constructor",
    "C44_reads",
    "C44_windows",
    "C44_empty_windows",
    "C44_corner_cases",
    "C44_windows_compose",
    "C44_writes"
   ],
   "note": ""
  },
  {
   "property": "C45",
   "status": "partial",
   "theorems": [
    "C45_overlapping_exact",
    "C45_dm_exact",
    "C45_sparse_partial",
    "C45_dm_partial",
    "C45_overlapping_refuted",
    "C45_overlapping_partial"
   ],
   "note": "False of the code: s[:] = s[::-1] on Strided (C45_overlapping_refuted). For Strided, and for DM over Strided or Buffer, exactly which elements come out right: C45_overlapping_exact and C45_dm_exact show that the assignment always succeeds, that an element gets the value read through the second slice if that place was not written before, and that otherwise, when the elements read are pairwise different, it always gets a wrong value. For COO, FlatCOO, CSR and C2SR proved without a condition, since their slices are copies (only specified elements can be assigned, C34)."
  },
  {
   "property": "C46",
   "status": "partial",
   "theorems": [
    "C46_as_C2SR_refuted",
    "C46_c2sr_elements_refuted",
    "C46_from_c2sr_refuted",
    "C46_c2sr_copy"
   ],
   "note": "False of the code: C2SR has no fromobject, as_C2SR raises AttributeError for every storage (C46_as_C2SR_refuted); and a constructed C2SR array raises on every index, assignment, elements(), equal() and conversion (C46_c2sr_elements_refuted, C46_from_c2sr_refuted). Proved: its copy is equal to it and has data of its own (C46_c2sr_copy)."
  },
  {
   "property": "C47",
   "status": "partial",
   "theorems": [
    "C47_short_rows_partial",
    "C47_ragged_refuted",
    "C47_accepted_exactly_partial"
   ],
   "note": "False of the code: [[1,2],[3,4,5]] is accepted and 5 dropped (C47_ragged_refuted). Proved for every class and every nested list exactly which lists are accepted (those with an element at every index within the lengths met along the first elements) and what the resulting array is (C47_accepted_exactly_partial)."
  },
  {
   "property": "C48",
   "status": "partial",
   "theorems": [
    "C48_diophantine_empty_refuted",
    "C48_solve_zero_dim_refuted"
   ],
   "note": "The property is false of the code: every position is solved by the empty index. Proved for every pos and c."
  },
  {
   "property": "C49",
   "status": "proved",
   "theorems": [
    "C49_well_formed",
    "C49_no_exceptions"
   ],
   "note": ""
  },
  {
   "property": "C50",
   "status": "proved",
   "theorems": [
    "C50_only_assignments_change"
   ],
   "note": ""
  },
  {
   "property": "C51",
   "status": "proved",
   "theorems": [
    "C51_enumerations",
    "C51_position"
   ],
   "note": ""
  },
  {
   "property": "C52",
   "status": "proved",
   "theorems": [
    "C52_slice_indices"
   ],
   "note": ""
  },
  {
   "property": "C53",
   "status": "partial",
   "theorems": [
    "C53_never_ends_refuted",
    "C53_empty_refuted",
    "C53_no_axes",
    "C53_buffer_partial"
   ],
   "note": "Proved for Buffer. False of the code for the other classes (which have no __iter__): C53_never_ends_refuted shows for every nonempty such array (DM as built) that the fallback iteration never ends and repeats the elements, C53_empty_refuted that iteration over an empty first axis raises ZeroDivisionError; only arrays without axes end (C53_no_axes)."
  },
  {
   "property": "C54",
   "status": "partial",
   "theorems": [
    "C54_is_full_partial",
    "C54_buffer_is_full_partial",
    "C54_dm_refuted",
    "C54_dm_exactly_partial",
    "C54_dm_sparse_partial",
    "C54_dm_built_partial"
   ],
   "note": "The property is false of the code for slices of DM arrays (C54_dm_refuted): is_full compares with the size of the underlying storage. Proved for Buffer, Strided, COO, FlatCOO and CSR; exact answer for DM over Buffer and Strided (C54_dm_exactly_partial: full exactly if every element of the reduced array belongs to the DM array, although elements() always lists every index); over COO, FlatCOO and CSR: full exactly if the reduced array has as many stored elements as the DM array has indices (C54_dm_sparse_partial); a DM array as built is full exactly if its reduced array is (C54_dm_built_partial)."
  },
  {
   "property": "C55",
   "status": "proved",
   "theorems": [
    "C55_implementations_agree"
   ],
   "note": ""
  },
  {
   "property": "C56",
   "status": "proved",
   "theorems": [
    "C56_reflexive",
    "C56_symmetric",
    "C56_transitive",
    "C56_negation"
   ],
   "note": ""
  },
  {
   "property": "C57",
   "status": "proved",
   "theorems": [
    "C57_mappings_agree"
   ],
   "note": ""
  },
  {
   "property": "C58",
   "status": "proved",
   "theorems": [
    "C58_programs",
    "C58_no_exceptions"
   ],
   "note": ""
  },
  {
   "property": "C59",
   "status": "proved",
   "theorems": [
    "C59_remapped"
   ],
   "note": ""
  },
  {
   "property": "C60",
   "status": "proved",
   "theorems": [
    "C60_flatcoo",
    "C60_coo",
    "C60_csr",
    "C60_strided"
   ],
   "note": ""
  },
  {
   "property": "C61",
   "status": "proved",
   "theorems": [
    "C61_gather_dm",
    "C61_gather"
   ],
   "note": ""
  },
  {
   "property": "C62",
   "status": "proved",
   "theorems": [
    "C62_assignment_is_a_loop"
   ],
   "note": ""
  },
  {
   "property": "C63",
   "status": "proved",
   "theorems": [
    "C63_characters",
    "C63_tagged",
    "C63_untagged",
    "C63_sound"
   ],
   "note": ""
  },
  {
   "property": "C64",
   "status": "proved",
   "theorems": [
    "C64_checkout",
    "C64_untagged",
    "C64_describe_round_trip"
   ],
   "note": ""
  },
  {
   "property": "C65",
   "status": "proved",
   "theorems": [
    "C65_version_identifies"
   ],
   "note": ""
  },
  {
   "property": "C66",
   "status": "proved",
   "theorems": [
    "C66_one_local_part"
   ],
   "note": ""
  },
  {
   "property": "C67",
   "status": "proved",
   "theorems": [
    "C67_least_tag",
    "C67_no_tag",
    "C67_order_irrelevant"
   ],
   "note": ""
  },
  {
   "property": "C68",
   "status": "partial",
   "theorems": [
    "C68_always_a_version_refuted",
    "C68_always_a_version_partial",
    "C68_raises_exactly"
   ],
   "note": "The property is false of the code: when git show or git rev-list --count fails get_versions raises AttributeError/TypeError (C68_always_a_version_refuted), so the import fails. Proved: when these two commands succeed there is always a nonempty version; and C68_raises_exactly says for every git answer exactly when get_versions raises."
  },
  {
   "property": "C69",
   "status": "proved",
   "theorems": [
    "C69_parent_directories"
   ],
   "note": ""
  },
  {
   "property": "C70",
   "status": "proved",
   "theorems": [
    "C70_str",
    "C70_same_elements_same_text",
    "C70_bounded",
    "C70_faithful"
   ],
   "note": ""
  },
  {
   "property": "C71",
   "status": "partial",
   "theorems": [
    "C71_arguments",
    "C71_array_partial",
    "C71_total",
    "C71_reversed_refuted",
    "C71_long_refuted"
   ],
   "note": "The property is false of the code: the repr of a reversed view does not show its elements (C71_reversed_refuted: negative strides reach before the printed window) and lists of more than 100 characters are abbreviated (C71_long_refuted). Proved: an unabbreviated repr determines the class and every constructor argument (C71_arguments, all classes), hence the array when no stride is negative (C71_array_partial); repr never fails on a well-formed storage (C71_total)."
  },
  {
   "property": "C72",
   "status": "proved",
   "theorems": [
    "C72_accepts",
    "C72_rejects",
    "C72_only",
    "C72_contents_refuted"
   ],
   "note": "C72_accepts, C72_rejects and C72_only give the exact arguments each constructor accepts, the resulting attributes and the exception otherwise (isinstance checks of the argument types are not modelled). C72_contents_refuted shows that nothing stronger holds: sortedness, index ranges and buffer size are not checked."
  },
  {
   "property": "C73",
   "status": "partial",
   "theorems": [
    "C73_setup",
    "C73_import_partial",
    "C73_release_partial",
    "C73_import_refuted",
    "C73_import_exact",
    "C73_backslash_refuted"
   ],
   "note": "setup.py in a distribution: proved for all dictionaries (C73_setup). Import: proved when the texts have no control characters, double quotes, backslashes or ''' (C73_import_partial), and from the checkout on in C73_release_partial; false of the code for a tag with a double quote (C73_import_refuted). json.dumps/json.loads and the Python literal are modelled for these dictionaries. C73_import_exact: for clean other texts, the import gives the version back exactly if the version has no double quote, backslash or control character; C73_backslash_refuted: otherwise a wrong version may be read without an error."
  },
  {
   "property": "C74",
   "status": "proved",
   "theorems": [
    "C74_keywords",
    "C74_same_version"
   ],
   "note": ""
  },
  {
   "property": "C75",
   "status": "proved",
   "theorems": [
    "C75_styles",
    "C75_names"
   ],
   "note": ""
  },
  {
   "property": "C76",
   "status": "proved",
   "theorems": [
    "C76_list",
    "C76_any_shape",
    "C76_slice",
    "C76_slice_exists",
    "C76_dm_slice_exists",
    "C76_window",
    "C76_conversion",
    "C76_period",
    "C76_no_dimensions"
   ],
   "note": ""
  },
  {
   "property": "C77",
   "status": "partial",
   "theorems": [
    "C77_manifest_exact",
    "C77_manifest_partial",
    "C77_manifest_refuted",
    "C77_attributes_exact",
    "C77_attributes_partial",
    "C77_attributes_refuted",
    "C77_again_partial"
   ],
   "note": "Proved for files whose last line is complete (C77_manifest_partial, C77_attributes_partial, C77_again_partial), with exact conditions for leaving a file alone. Missing for the rest because the code violates it: the text appended to MANIFEST.in or .gitattributes continues an incomplete last line (C77_manifest_refuted, C77_attributes_refuted), and a pattern that only starts with the path counts as a mark. That the third run never changes anything is C82_settles."
  },
  {
   "property": "C78",
   "status": "proved",
   "theorems": [
    "C78_rows",
    "C78_determines",
    "C78_negative_hidden"
   ],
   "note": ""
  },
  {
   "property": "C79",
   "status": "proved",
   "theorems": [
    "C79_sdist",
    "C79_build_py",
    "C79_build_py_none"
   ],
   "note": "For every file system, step sequence and stopping point; the base commands of setuptools are parameters assumed to stay in their tree (`leaves (outside dir)`)."
  },
  {
   "property": "C80",
   "status": "proved",
   "theorems": [
    "C80_run",
    "C80_result",
    "C80_stripped"
   ],
   "note": ""
  },
  {
   "property": "C81",
   "status": "partial",
   "theorems": [
    "C81_exe_partial",
    "C81_exe_refuted",
    "C81_course",
    "C81_stale_refuted",
    "C81_lost_refuted"
   ],
   "note": "Proved: the course of the command at every point (C81_course: the file is missing or has a beginning of the version text, has the complete text while the freezer runs, and ends as the template exactly if the freezer succeeds; no other file changes); the template is back when all steps succeed (C81_exe_partial). False of the code when the freezer fails: the version stays in the source tree (C81_exe_refuted), and setup.py takes it for the version of the tree whatever is committed later (C81_stale_refuted, for every failing freezer); stopped after its first step the command can never be run again without restoring the file by hand (C81_lost_refuted)."
  },
  {
   "property": "C82",
   "status": "proved",
   "theorems": [
    "C82_init",
    "C82_sets_version",
    "C82_settles",
    "C82_keeps",
    "C82_scan",
    "C82_scan_count"
   ],
   "note": ""
  },
  {
   "property": "C83",
   "status": "partial",
   "theorems": [
    "C83_lists_of_arrays_partial",
    "C83_lists_of_arrays_dm_partial",
    "C83_equal_partial",
    "C83_stacked_partial",
    "C83_dm_in_list_exact",
    "C83_dm_in_list_refuted",
    "C83_ragged_refuted"
   ],
   "note": "Proved for arrays of every class that can be read one index at a time (C83_lists_of_arrays_partial, _dm_partial, C83_equal_partial, C83_stacked_partial). A DM array in the list comes out right exactly when each group of axes contains the last axis or has size 1 on all but its greatest axis (C83_dm_in_list_exact); the default mapping of a (2, 2, 2) array does not (C83_dm_in_list_refuted). Arrays of different lengths are not rejected (C83_ragged_refuted). C2SR arrays cannot be read at all."
  },
  {
   "property": "C84",
   "status": "partial",
   "theorems": [
    "C84_overlapping_exact",
    "C84_dm_exact",
    "C84_assign_lists_of_arrays_partial",
    "C84_exchange_refuted"
   ],
   "note": "Proved when no array in the list reads the data of the target (C84_assign_lists_of_arrays_partial); false otherwise: exchanging two rows with a[0:2] = [a[1], a[0]] loses one of them (C84_exchange_refuted). For Strided, and for DM over Strided or Buffer, the result with dense arrays that share the data of the target is determined completely (C84_overlapping_exact, C84_dm_exact): the assignment succeeds, an element gets its value in the list unless that value is read from the place of an element assigned before, and then it gets what that element got."
  },
  {
   "property": "C85",
   "status": "proved",
   "theorems": [
    "C85_no_git",
    "C85_no_file",
    "C85_not_understood",
    "C85_no_error_exactly",
    "C85_root",
    "C85_unpacked"
   ],
   "note": ""
  },
  {
   "property": "C86",
   "status": "partial",
   "theorems": [
    "C86_requirements",
    "C86_own_tree",
    "C86_anywhere",
    "C86_same_version",
    "C86_restored_partial",
    "C86_restored_refuted",
    "C86_failed",
    "C86_emptied",
    "C86_manifest",
    "C86_manifest_outside_refuted",
    "C86_conda",
    "C86_root",
    "C86_slashes"
   ],
   "note": "Proved: the version and requirements passed are those of the tree of setup.py (C86_own_tree, C86_anywhere), the same version the package reports (C86_same_version), and which file is removed (C86_manifest). The rest is false of the code: if anything fails before setup() is called the process stays in the other directory with sys.path changed (C86_restored_refuted, C86_failed; it always happens in the repository, which has no requirements.txt, unless CONDA_BUILD is set), and the MANIFEST of the directory it is started from is removed even outside the tree (C86_manifest_outside_refuted)."
  },
  {
   "property": "C87",
   "status": "proved",
   "theorems": [
    "C87_reads",
    "C87_accepts",
    "C87_capitals",
    "C87_any_case",
    "C87_twice",
    "C87_config",
    "C87_vcs_required"
   ],
   "note": ""
  },
  {
   "property": "C88",
   "status": "partial",
   "theorems": [
    "C88_appends",
    "C88_sample_once",
    "C88_grows_once",
    "C88_all_or_nothing_partial",
    "C88_all_or_nothing_refuted",
    "C88_success"
   ],
   "note": "Everything about setup.cfg is proved: it grows at most once, whatever it contains (C88_grows_once), and the second run changes nothing at all unless a DEFAULT section supplies the settings (C88_sample_once, C88_default_case). False of the code for an unknown VCS: the version file has been emptied when KeyError is raised (C88_all_or_nothing_refuted); C88_all_or_nothing_partial proves it for VCS = git."
  },
  {
   "property": "C89",
   "status": "proved",
   "theorems": [
    "C89_same_comparisons",
    "C89_eq_elements",
    "C89_eq_sparse",
    "C89_equal_list",
    "C89_same_functions",
    "C89_fromobject",
    "C89_nan_unspecified_stores_everything",
    "C89_as_DM",
    "C89_conversion",
    "C89_copy",
    "C89_equal"
   ],
   "note": ""
  },
  {
   "property": "C90",
   "status": "partial",
   "theorems": [
    "C90_complete",
    "C90_interrupted",
    "C90_unknown_partial",
    "C90_enclosing_checkout_refuted",
    "C90_damaged",
    "C90_lost_keyword"
   ],
   "note": "False of the code in one case: a file cut off before the end of the closing marker is treated as no file, and if the distribution lies inside a git checkout with tags of the same form, setup.py takes the version of the checkout (C90_enclosing_checkout_refuted, for every cut and every checkout). Proved: from the end of the marker on the dictionary is complete (C90_complete), before it setup.py does exactly what it does without the file (C90_interrupted), which is 0+unknown outside a checkout (C90_unknown_partial); damaged text between the markers (C90_damaged) and a lost keyword (C90_lost_keyword) stop it."
  },
  {
   "property": "C91",
   "status": "partial",
   "theorems": [
    "C91_changes",
    "C91_resume_partial",
    "C91_kept",
    "C91_two_runs",
    "C91_cut_refuted"
   ],
   "note": "False of the code for a write of MANIFEST.in or __init__.py that is cut within a line: after the first, one rerun does not include versioneer.py, after the second a piece of the snippet stays in __init__.py for ever (C91_cut_refuted). Proved: the run is exactly its list of changes (C91_changes); no text lost at any crash point (C91_kept); the rerun gives the uninterrupted result at all other crash points, given finished last lines (C91_resume_partial); after two reruns from any crash point everything is included and a third changes nothing (C91_two_runs)."
  },
  {
   "property": "C92",
   "status": "proved",
   "theorems": [
    "C92_exact",
    "C92_one_meaning",
    "C92_circle",
    "C92_config",
    "C92_refused"
   ],
   "note": ""
  },
  {
   "property": "C93",
   "status": "proved",
   "theorems": [
    "C93_prints",
    "C93_first_line",
    "C93_lacking",
    "C93_no_version",
    "C93_fails",
    "C93_determines"
   ],
   "note": ""
  },
  {
   "property": "C94",
   "status": "proved",
   "theorems": [
    "C94_any_schedule",
    "C94_arrays_fit",
    "C94_ends",
    "C94_can_finish"
   ],
   "note": ""
  },
  {
   "property": "C95",
   "status": "proved",
   "theorems": [
    "C95_any_arrays",
    "C95_shared_list"
   ],
   "note": ""
  },
  {
   "property": "C96",
   "status": "partial",
   "theorems": [
    "C96_half_seen_refuted",
    "C96_any_arrays_partial",
    "C96_each_element_partial",
    "C96_atomic_refuted"
   ],
   "note": "The last part is false of the code: assignment is a loop without a lock, and two assignments to all elements of one array can leave a mixture (C96_atomic_refuted), and a reader can see an assignment half done (C96_half_seen_refuted). The rest is proved: for one list assignment per thread to Strided arrays without reads in C96_each_element_partial, for threads of any statements on arrays of all classes in C96_any_arrays_partial (that no thread fails and that other elements keep their value is C100_values and C100_elsewhere there)."
  },
  {
   "property": "C97",
   "status": "proved",
   "theorems": [
    "C97_values"
   ],
   "note": ""
  },
  {
   "property": "C98",
   "status": "partial",
   "theorems": [
    "C98_commands",
    "C98_chain",
    "C98_imported_partial",
    "C98_frozen_refuted"
   ],
   "note": "False of the code for build_py in a process that has loaded cx_Freeze: get_cmdclass then leaves out its build_py, and the package gets the template (C98_frozen_refuted). Proved otherwise: C98_chain, C98_commands; the import for texts that the literal keeps (C98_imported_partial; see C73)."
  },
  {
   "property": "C99",
   "status": "proved",
   "theorems": [
    "C99_later_commit",
    "C99_untagged",
    "C99_local_changes",
    "C99_next_release",
    "C99_styles",
    "C99_local_changes_styles"
   ],
   "note": ""
  },
  {
   "property": "C100",
   "status": "proved",
   "theorems": [
    "C100_values",
    "C100_elsewhere",
    "C100_closed"
   ],
   "note": ""
  },
  {
   "property": "C101",
   "status": "partial",
   "theorems": [
    "C101_added",
    "C101_complete",
    "C101_again_partial",
    "C101_again_refuted"
   ],
   "note": "Proved for an uninterrupted run (C101_added, C101_complete), and after a stop at any point for all files but .gitattributes (C101_again_partial). False of the code for .gitattributes: when the first run had to add the mark and did not reach git add, no later run adds it, for every such tree (C101_again_refuted)."
  },
  {
   "property": "C102",
   "status": "proved",
   "theorems": [
    "C102_no_waiting",
    "C102_all_end",
    "C102_rounds",
    "C102_scan"
   ],
   "note": ""
  },
  {
   "property": "C103",
   "status": "proved",
   "theorems": [
    "C103_position",
    "C103_reduce",
    "C103_csr_lookup",
    "C103_apply_slices",
    "C103_element_index"
   ],
   "note": ""
  },
  {
   "property": "C104",
   "status": "partial",
   "theorems": [
    "C104_loop",
    "C104_assignments",
    "C104_update_partial",
    "C104_update_flooded",
    "C104_update_dm",
    "C104_update_refuted"
   ],
   "note": "The loop itself is exact for all classes; the in-place update is right only on Buffer and Strided (refuted on the sparse classes and DM, where its exact outcome is proved: C104_update_flooded, C104_update_dm)."
  },
  {
   "property": "C105",
   "status": "partial",
   "theorems": [
    "C105_at_home_partial",
    "C105_incomplete",
    "C105_elsewhere",
    "C105_no_package",
    "C105_never_elsewhere",
    "C105_argument",
    "C105_refuted"
   ],
   "note": "Exact when started in the project directory; independence of the working directory is refuted, with the exact outcome from any other directory."
  },
  {
   "property": "C106",
   "status": "partial",
   "theorems": [
    "C106_common_class",
    "C106_own_value_partial",
    "C106_equivalence",
    "C106_eq_implies_equal",
    "C106_refuted",
    "C106_implied_refuted"
   ],
   "note": "The comparison with unspecified= given and the equivalence are proved in full; without unspecified= it is false of the code for views (C106_refuted) and proved for arrays as built; == implies equal() only without negative strides (C106_implied_refuted)."
  },
  {
   "property": "C107",
   "status": "partial",
   "theorems": [
    "C107_gcd",
    "C107_stack",
    "C107_stack_views",
    "C107_same",
    "C107_same_slice",
    "C107_candidates",
    "C107_built",
    "C107_slices",
    "C107_proportional_refuted"
   ],
   "note": "Bounds on the recursion and on the candidates are proved; that slices of sparse arrays take work proportional to the stored elements is false of the code (C107_proportional_refuted: 2^(N-1) candidates for each stored element outside of s[0:1])."
  },
  {
   "property": "C108",
   "status": "proved",
   "theorems": [
    "C108_formulas",
    "C108_written_formula",
    "C108_written_formula_refuted",
    "C108_order",
    "C108_fromobject",
    "C108_as_DM",
    "C108_default"
   ],
   "note": "Proved for the code with the strides of the introduction's examples; the stride formula to the letter is wrong for parts of three or more axes (C108_written_formula_refuted)."
  },
  {
   "property": "C109",
   "status": "partial",
   "theorems": [
    "C109_unpack_refuted",
    "C109_unpack_buffer",
    "C109_in_true",
    "C109_in_never_ends_refuted",
    "C109_in_buffer",
    "C109_in_slices_refuted",
    "C109_reversed",
    "C109_truth"
   ],
   "note": "Refuted for the classes other than Buffer (unpacking, absent values); reversed() and Buffer are proved."
  },
  {
   "property": "C110",
   "status": "proved",
   "theorems": [
    "C110_buffer_of_list",
    "C110_as_Buffer",
    "C110_equal_nested",
    "C110_csr",
    "C110_number",
    "C110_csr_list",
    "C110_as_CSR"
   ],
   "note": ""
  },
  {
   "property": "C111",
   "status": "proved",
   "theorems": [
    "C111_lookups",
    "C111_reads",
    "C111_writes",
    "C111_conversions"
   ],
   "note": "No well-formedness of the arrays is assumed."
  },
  {
   "property": "C112",
   "status": "proved",
   "theorems": [
    "C112_alone",
    "C112_values",
    "C112_quiet",
    "C112_mixture"
   ],
   "note": "The index lists of the array must not be assigned to (no assignment of the library does so unless they are used as data of another array). DM as target class is not covered; the conversions between sparse classes that copy all values at once are C114."
  },
  {
   "property": "C113",
   "status": "proved",
   "theorems": [
    "C113_alone",
    "C113_values",
    "C113_quiet",
    "C113_row_alone",
    "C113_row"
   ],
   "note": "The index lists of the array must not be assigned to (no assignment of the library does so unless they are used as data of another array). Slices of dense arrays read nothing. A slice of a DM array slices the array it keeps its elements in, which may be one of these; DM arrays themselves are not covered."
  },
  {
   "property": "C114",
   "status": "proved",
   "theorems": [
    "C114_snapshot",
    "C114_converted",
    "C114_strided"
   ],
   "note": "The index lists of the array must not be assigned to (no assignment of the library does so unless they are used as data of another array). copy(unspecified=u) with another u reads one value after the other and is not covered."
  },
  {
   "property": "C115",
   "status": "proved",
   "theorems": [
    "C115_alone",
    "C115_elements",
    "C115_equal",
    "C115_still",
    "C115_conversion",
    "C115_never"
   ],
   "note": "What the caller's loop body does between two elements is seen only as other threads (cf. C104 for a body that assigns). The list of pairs is the result; the order of moments is that of the pairs."
  },
  {
   "property": "C116",
   "status": "proved",
   "theorems": [
    "C116_programs",
    "C116_no_exceptions",
    "C116_reach",
    "C116_remapped"
   ],
   "note": "Exact meaning of programs in which C32 is violated. DM arrays over sparse data are not covered for assignments (C32_overwrites_everything says what one assignment does)."
  },
  {
   "property": "C117",
   "status": "proved",
   "theorems": [
    "C117_programs",
    "C117_no_exceptions",
    "C117_in_time",
    "C117_remapped"
   ],
   "note": "Exact meaning of overlapping assignments (C45 violated). Single elements with values from arrays, and DM arrays over sparse data, are not covered for assignments."
  },
  {
   "property": "C118",
   "status": "proved",
   "theorems": [
    "C118_classes",
    "C118_own_class_refuted",
    "C118_overlap_refuted"
   ],
   "note": "CSR arrays are compared with themselves only: their rows and columns forget stored unspecified values. The two refuted theorems show that the conditions are needed."
  },
  {
   "property": "C119",
   "status": "proved",
   "theorems": [
    "C119_alone",
    "C119_when",
    "C119_exactly",
    "C119_still",
    "C119_itself",
    "C119_never"
   ],
   "note": "C119_when, C119_exactly (Buffer and sparse classes), C119_still, C119_alone (the model of == for a heap that does not change). C119_never and C119_itself are the executions named at the end of the statement."
  },
  {
   "property": "C120",
   "status": "proved",
   "theorems": [
    "C120_alone",
    "C120_values",
    "C120_still",
    "C120_mixture"
   ],
   "note": "C120_values for all u; C120_alone ties the model to copy for u other than the own value (with the own one Buffer.copy takes a slice). C120_mixture is the execution named at the end of the statement."
  },
  {
   "property": "C121",
   "status": "proved",
   "theorems": [
    "C121_alone",
    "C121_values",
    "C121_still",
    "C121_mixture"
   ],
   "note": "C121_values; C121_still; C121_alone ties the model to as_DM. C121_mixture has the executions named at the end of the statement."
  },
  {
   "property": "C122",
   "status": "proved",
   "theorems": [
    "C122_same_view",
    "C122_follows",
    "C122_chain"
   ],
   "note": "C122_same_view; C122_follows; C122_chain. C122_case and C122_dm_case are executions."
  },
  {
   "property": "C123",
   "status": "proved",
   "theorems": [
    "C123_alone",
    "C123_values",
    "C123_quiet",
    "C123_built",
    "C123_row_alone",
    "C123_row",
    "C123_row_quiet",
    "C123_either"
   ],
   "note": "C123_alone, C123_values, C123_quiet; over CSR data with an index that fixes a whole group C123_row_alone, C123_row, C123_row_quiet; C123_either: there are no other indices; C123_built. C123_case, C123_quiet_case, C123_csr_case, C123_row_case and C123_row_quiet_case are executions."
  },
  {
   "property": "C124",
   "status": "partial",
   "theorems": [
    "C124_dense_partial",
    "C124_copies_refuted",
    "C124_reads_refuted",
    "C124_row_reads_refuted"
   ],
   "note": "Proved over Strided and Buffer data (C124_dense_partial). False of the code over COO, FlatCOO and CSR data: every slice is a copy (C124_copies_refuted), and it reads lists (C124_reads_refuted if anything is stored; C124_row_reads_refuted for CSR data with all axes of a group fixed). C124_case is an execution."
  }
 ]
}