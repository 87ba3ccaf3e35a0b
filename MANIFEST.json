{
 "claims": [
  {
   "property": "C01",
   "status": "proved",
   "theorems": [
    "C01_rows_read_back",
    "C01_slices",
    "C01_masks",
    "C01_negative_index",
    "C01_negative_first_refuted",
    "C01_empty_selection_refuted",
    "C01_ndarray_target_refuted",
    "C01_h5_target_refuted"
   ],
   "note": "For list-backed columns (offsets in a list or ndarray) with fewer than 2^64 elements. Refuted variants: index -n raises IndexError; an empty index list raises; 1-D ndarray targets and h5py-backed indexes do not keep the claim (witnesses)."
  },
  {
   "property": "C02",
   "status": "proved",
   "theorems": [
    "C02_partition"
   ],
   "note": "Any number of index levels; list-backed target."
  },
  {
   "property": "C03",
   "status": "proved",
   "theorems": [
    "C03_nested_roundtrip",
    "C03_shallow_rejected"
   ],
   "note": "Any depth; too shallow rows are rejected."
  },
  {
   "property": "C04",
   "status": "proved",
   "theorems": [
    "C04_precision",
    "C04_limit"
   ],
   "note": ""
  },
  {
   "property": "C05",
   "status": "proved",
   "theorems": [
    "C05_add_column_nested",
    "C05_accepted_iff",
    "C05_too_deep_refuted"
   ],
   "note": "Round trip for every accepted call and an exact acceptance condition. The rejection of too deep data only looks at the first flat element (C05_too_deep_refuted)."
  },
  {
   "property": "C06",
   "status": "proved",
   "theorems": [
    "C06_rectangular",
    "C06_refines_rows",
    "C06_rectangular_success",
    "C06_constructor",
    "C06_failing_row_refuted",
    "C06_offsets_refuted"
   ],
   "note": "Histories of add_row/add_column on list-backed tables with plain and ragged columns, failing calls included. Refuted: a row with a None or too shallow cell raises after the id and some columns were extended; explicit offsets are not validated."
  },
  {
   "property": "C07",
   "status": "proved",
   "theorems": [
    "C07_row_reads",
    "C07_added_row_reads_back",
    "C07_cells_stable",
    "C07_row_lists",
    "C07_row_slices",
    "C07_empty_selection_refuted",
    "C07_bool_list_refuted"
   ],
   "note": "Refuted variants: the empty row list on a table with a ragged column raises IndexError; a list of Python bools is not a mask on list-backed columns."
  },
  {
   "property": "C08",
   "status": "proved",
   "theorems": [
    "C08_auto_ids",
    "C08_unique_ids",
    "C08_duplicate_rejected",
    "C08_default_refuted"
   ],
   "note": "Without enforce_unique_id duplicates are possible (refuted variant)."
  },
  {
   "property": "C09",
   "status": "proved",
   "theorems": [
    "C09_accepts_iff",
    "C09_rejected_adds_no_row",
    "C09_id_key_rejected",
    "C09_rejected_unchanged_refuted"
   ],
   "note": "Exact acceptance condition. Refuted: a rejected call may already have added optional columns."
  },
  {
   "property": "C10",
   "status": "proved",
   "theorems": [
    "C10_lists",
    "C10_slices",
    "C10_region_reads"
   ],
   "note": ""
  },
  {
   "property": "C11",
   "status": "proved",
   "theorems": [
    "C11_pointwise",
    "C11_int",
    "C11_empty_selection_refuted",
    "C11_unchecked_refuted"
   ],
   "note": "Refuted variants: empty selection over a target with a ragged column raises; the stored numbers are never checked against the target."
  },
  {
   "property": "C12",
   "status": "proved",
   "theorems": [
    "C12_terms_read_back",
    "C12_limit",
    "C12_row_lists_refuted"
   ],
   "note": "Up to 2^32 terms (above that the integer type does not exist). Reading a list of rows raises TypeError when the codes are a list."
  },
  {
   "property": "C13",
   "status": "proved",
   "theorems": [
    "C13_linked_tables",
    "C13_each_link_once",
    "C13_has_foreign",
    "C13_repeated_start_refuted"
   ],
   "note": "Distinct starting tables; refuted when a starting table is repeated."
  },
  {
   "property": "C14",
   "status": "proved",
   "theorems": [
    "C14_consistent",
    "C14_reparent_rejected",
    "C14_set_parent",
    "C14_reset_parent",
    "C14_equal_children_refuted",
    "C14_data_parent_refuted",
    "C14_acyclic_refuted"
   ],
   "note": "Refuted variants: with distinct objects that compare equal, reset_parent drops the wrong child; a Data object as parent never lists its children; parent cycles are not prevented."
  },
  {
   "property": "C15",
   "status": "proved",
   "theorems": [
    "C15_set_modified",
    "C15_unmodified_subtree"
   ],
   "note": ""
  },
  {
   "property": "C16",
   "status": "proved",
   "theorems": [
    "C16_first_wins",
    "C16_reassign",
    "C16_none_ignored",
    "C16_failed_assignment_refuted"
   ],
   "note": "Refuted: an assignment that raises may still have set the field (plain value in a child field)."
  },
  {
   "property": "C17",
   "status": "proved",
   "theorems": [
    "C17_labelled",
    "C17_lookup",
    "C17_expression",
    "C17_syntax",
    "C17_add",
    "C17_rejected",
    "C17_conserved",
    "C17_key_with_operator_refuted",
    "C17_delete_refuted",
    "C17_delete_expression_refuted"
   ],
   "note": "Refuted variants: keys containing \"==\" are stored but not retrievable; deleting with such a key hands the wrong object to the callback; an expression cannot be used to delete."
  },
  {
   "property": "C18",
   "status": "proved",
   "theorems": [
    "C18_named",
    "C18_add",
    "C18_duplicate",
    "C18_kept",
    "C18_consistent",
    "C18_get_only",
    "C18_atomic_refuted"
   ],
   "note": "Refuted: a rejected duplicate has already become a child of the container."
  },
  {
   "property": "C19",
   "status": "proved",
   "theorems": [
    "C19_binds",
    "C19_uses_all",
    "C19_resolve",
    "C19_getargs",
    "C19_getargs_error",
    "C19_popargs",
    "C19_position_refuted",
    "C19_extra_lost_refuted",
    "C19_extra_dropped_refuted",
    "C19_same_object_refuted"
   ],
   "note": "Refuted variants: f(10, a=5) binds b=10 when both have defaults; with allow_extra a positional value can be dropped and a function without parameters drops extra keywords; a required parameter with a declared shape is bound to the attribute that has the shape, an optional one to the object passed."
  },
  {
   "property": "C20",
   "status": "proved",
   "theorems": [
    "C20_accepts",
    "C20_types",
    "C20_none",
    "C20_type_error",
    "C20_outcomes",
    "C20_positional",
    "C20_any_refuted"
   ],
   "note": "Attribute chains longer than the fuel are excluded. Refuted: None is refused for a required parameter of any type."
  },
  {
   "property": "C21",
   "status": "proved",
   "theorems": [
    "C21_shape",
    "C21_visible",
    "C21_first_axis",
    "C21_strict",
    "C21_empty_refuted",
    "C21_zero_dim_refuted",
    "C21_mapping_refuted"
   ],
   "note": "Refuted variants: extents beyond an empty axis are lost; a list of zero-dimensional arrays raises TypeError; the keys of a mapping inside a list count as an axis."
  },
  {
   "property": "C22",
   "status": "proved",
   "theorems": [
    "C22_sound",
    "C22_rows",
    "C22_deep_refuted",
    "C22_mixed_refuted"
   ],
   "note": "Refuted: at depth three and for rows mixed with scalars non-rectangular data is reported as not ragged."
  },
  {
   "property": "C23",
   "status": "proved",
   "theorems": [
    "C23_exact_cover",
    "C23_within"
   ],
   "note": ""
  },
  {
   "property": "C24",
   "status": "proved",
   "theorems": [
    "C24_defaults_accepted",
    "C24_limits",
    "C24_root",
    "C24_small_chunk_refuted"
   ],
   "note": "The floating point n-th root is a parameter assumed not to exceed the true root and to be positive for positive arguments (the exact root is shown to satisfy this). Refuted: an item larger than the chunk limit yields a zero chunk extent and an AssertionError."
  },
  {
   "property": "C25",
   "status": "proved",
   "theorems": [
    "C25_no_loss",
    "C25_complete",
    "C25_sizes",
    "C25_written",
    "C25_h5",
    "C25_trailing_gap_refuted",
    "C25_zero_buffer_refuted"
   ],
   "note": "Elements are those along the iteration axis 0. Refuted variants: trailing gaps are not represented; a buffer size of zero delivers nothing."
  },
  {
   "property": "C26",
   "status": "proved",
   "theorems": [
    "C26_terminates",
    "C26_served",
    "C26_schedule",
    "C26_rows",
    "C26_arrays",
    "C26_shared_refuted",
    "C26_same_dataset_refuted"
   ],
   "note": "Refuted variants: an iterator queued for two datasets is split between them; two iterators for one dataset depend on the schedule."
  },
  {
   "property": "C27",
   "status": "proved",
   "theorems": [
    "C27_set_once",
    "C27_set_iff",
    "C27_errors",
    "C27_len",
    "C27_unset",
    "C27_len_refuted"
   ],
   "note": "Refuted: a wrapper with dtype and shape but no data has a length."
  },
  {
   "property": "C28",
   "status": "proved",
   "theorems": [
    "C28_hierarchy",
    "C28_order",
    "C28_is_sub",
    "C28_subtypes",
    "C28_full",
    "C28_rejected",
    "C28_rejected_refuted",
    "C28_stale_refuted",
    "C28_cycle_refuted",
    "C28_copy_refuted",
    "C28_self_refuted"
   ],
   "note": "Refuted variants: a rejected registration replaces the recorded parent type; a query made before an ancestor is registered is cached and stays short; cyclic includes are accepted and the hierarchy loop never ends; a copied catalog loses the parents; a type that includes itself is missing from the full hierarchy."
  },
  {
   "property": "C29",
   "status": "proved",
   "theorems": [
    "C29_resolve",
    "C29_chain",
    "C29_own_kept",
    "C29_own_identity",
    "C29_wf",
    "C29_inherited",
    "C29_overridden",
    "C29_construct",
    "C29_compound",
    "C29_compound_accepted",
    "C29_subdtype_trans",
    "C29_total",
    "C29_dtype_refuted",
    "C29_subdtype_refuted",
    "C29_type_overridden_refuted",
    "C29_duplicate_refuted",
    "C29_two_kinds_refuted"
   ],
   "note": "The build of the properties of one spec (dims, shape, value, quantity) is an opaque body; dictionaries by name are derived from the ordered child lists. Refuted variants: a simple dtype omitted in the extension is not inherited; column refinement compares first letters only (int to isodatetime, bool to bytes); inherited unnamed types are reported as overridden; two datasets of one name are accepted and the inherited one is not the one found by name; one name may be both a group and a dataset."
  },
  {
   "property": "C30",
   "status": "proved",
   "theorems": [
    "C30_again",
    "C30_once",
    "C30_loads",
    "C30_retry_refuted",
    "C30_source_name_refuted",
    "C30_source_types_refuted"
   ],
   "note": "Refuted variants: a failed load cannot be retried (its sources stay marked as loaded); two namespaces with equally named source files cannot be loaded into one catalog; selecting some types of a source file raises TypeError."
  },
  {
   "property": "C31",
   "status": "proved",
   "theorems": [
    "C31_one_name_one_child",
    "C31_clash_rejected",
    "C31_latest",
    "C31_latest_itself_refuted",
    "C31_path",
    "C31_path_names",
    "C31_dots",
    "C31_get_total",
    "C31_any_name_refuted",
    "C31_is_empty"
   ],
   "note": "Names without a slash and not empty. Refuted variants: the builder found is always the one set last (an equal one stays and the new one gets no parent); any name can be looked up (names with a slash or the empty name are stored and not found)."
  },
  {
   "property": "C32",
   "status": "proved",
   "theorems": [
    "C32_write_once",
    "C32_overwrite_rejected",
    "C32_adopted",
    "C32_source_spreads",
    "C32_tree_sources",
    "C32_any_order_refuted"
   ],
   "note": "Refuted variant: any history (a builder that already had another parent stays without a source below a group that has one). Recursion deeper than Python's limit is an error value and excluded where stated."
  },
  {
   "property": "C33",
   "status": "proved",
   "theorems": [
    "C33_bijection",
    "C33_build_maps_back",
    "C33_cached_builder",
    "C33_rebuild",
    "C33_cached_container",
    "C33_built_is_known",
    "C33_constructed_is_known",
    "C33_purge",
    "C33_source",
    "C33_cycle_fails",
    "C33_two_prebuilt_refuted",
    "C33_cyclic_build_refuted",
    "C33_failed_build_refuted",
    "C33_resolve"
   ],
   "note": "The object mapper is modelled by what it does to the manager: fields with sub-containers, links and references (Manager/Model.v). Refuted variants: prebuilt twice for one container breaks the correspondence and purge_outdated raises AttributeError; so does a build without a source of a container whose child from a file links back to it; a failed build leaves queued references that make the next build fail. Proxy.resolve raises TypeError when nothing matches."
  },
  {
   "property": "C34",
   "status": "proved",
   "theorems": [
    "C34_choice",
    "C34_exact",
    "C34_warned_refuted",
    "C34_fails",
    "C34_elementwise",
    "C34_structure",
    "C34_idempotent",
    "C34_list_dtype_refuted",
    "C34_numeric_refuted",
    "C34_text_refuted",
    "C34_unconvertible"
   ],
   "note": "How numpy casts single elements, decoding and encoding are parameters. Refuted variants: the dtype reported for a list is that of its last element and may be narrower than another element's; 'numeric' specs check only the first element; text for a numeric spec is passed to numpy with a warning. The spec dtype 'date' cannot be converted to; no value with no dtype is a KeyError."
  },
  {
   "property": "C35",
   "status": "proved",
   "theorems": [
    "C35_accepts",
    "C35_written",
    "C35_value",
    "C35_text",
    "C35_widening",
    "C35_compound",
    "C35_compound_refuted",
    "C35_longdouble_refuted",
    "C35_numeric_refuted",
    "C35_h5py_refuted",
    "C35_python_float_refuted"
   ],
   "note": "Refuted variants: long doubles and, for 'numeric', half-precision floats are written and then refused; spec dtype 'datetime' never accepts the text written for it (part of C35_written); columns after an isodatetime column are not checked; existing h5py datasets are not converted; an unconverted Python float is refused for 'double'."
  },
  {
   "property": "C36",
   "status": "proved",
   "theorems": [
    "C36_exact",
    "C36_empty_refuted",
    "C36_mixed_refuted"
   ],
   "note": "Full for non-empty shape lists. C36_empty_refuted: an empty list (as the shape or as an alternative) raises IndexError; C36_mixed_refuted: a list of alternatives that follows a plain axis raises TypeError."
  },
  {
   "property": "C37",
   "status": "proved",
   "theorems": [
    "C37_validator",
    "C37_any_quantity",
    "C37_missing",
    "C37_agree",
    "C37_agree_single",
    "C37_agree_none",
    "C37_words_refuted",
    "C37_nested_refuted"
   ],
   "note": "Both rules are modelled separately and proved equal for every quantity value and every collection of containers. C37_words_refuted: quantity 0 can never be met and 'zero_or_one'/'zero_or_many' are treated as one or more; C37_nested_refuted: nested collections are not counted when building."
  },
  {
   "property": "C38",
   "status": "proved",
   "theorems": [
    "C38_partition",
    "C38_placement",
    "C38_defined",
    "C38_error",
    "C38_not_starved",
    "C38_unambiguous",
    "C38_named_refuted"
   ],
   "note": "C38_named_refuted: a child carrying the name of an optional sub-spec can be matched to an earlier unnamed sub-spec instead."
  },
  {
   "property": "C39",
   "status": "proved",
   "theorems": [
    "C39_sound",
    "C39_append_only",
    "C39_failure",
    "C39_atomic_refuted",
    "C39_object_keys",
    "C39_object_keys_refuted",
    "C39_foreign_key_refuted"
   ],
   "note": "Proved by an invariant over all histories. Refuted and recorded: a repeated string key duplicates the object-key row; a Key object of another table is accepted and dangles; a call without a key raises after adding rows. Not modelled: the type map (which relative path an attribute has is an input) and the text format of to_zip/from_zip."
  },
  {
   "property": "C40",
   "status": "proved",
   "theorems": [
    "C40_entities",
    "C40_exact",
    "C40_key_exact",
    "C40_retrievable",
    "C40_monotone",
    "C40_get_key_global",
    "C40_fresh_key_refuted",
    "C40_shared_key_refuted",
    "C40_key_used_refuted",
    "C40_twice_refuted",
    "C40_second_file_refuted"
   ],
   "note": "Proved by refinement to the list of facts said. Refuted and recorded: a fresh Key loses its annotation; annotating through another object's Key annotates that object too; get_key can return another key than the one add_ref used; entities can be listed twice; the file of a known object is not recorded."
  },
  {
   "property": "C41",
   "status": "proved",
   "theorems": [
    "C41_init",
    "C41_init_good",
    "C41_init_refuted",
    "C41_same_rows",
    "C41_product",
    "C41_good",
    "C41_rows",
    "C41_accepts_iff",
    "C41_failure",
    "C41_rejected",
    "C41_atomic_refuted",
    "C41_not_a_dict_refuted",
    "C41_direct_refuted",
    "C41_dict_consumed",
    "C41_id_dropped",
    "C41_add_category",
    "C41_add_category_refuted",
    "C41_read_row",
    "C41_read_out",
    "C41_colnames",
    "C41_colnames_refuted"
   ],
   "note": "Refuted variants: a failing category row (or a category value that is not a dict) misaligns the tables; a call made directly on a category misaligns them; the dict passed to add_row loses its category entries so it cannot be reused; an 'id' inside the dict is ignored; add_category registers a table that belongs to another container and then raises; construction with empty main columns and non-empty categories fills ids but not columns; a category named like the table hides the main table's columns. Pandas concatenation is modelled as a list of rows; columns named id, data, enforce_unique_id, check_ragged are not modelled."
  },
  {
   "property": "C42",
   "status": "proved",
   "theorems": [
    "C42_round_trip",
    "C42_specifications",
    "C42_cyclic",
    "C42_outside",
    "C42_same_target_name_refuted",
    "C42_scalar_reference_refuted",
    "C42_scalar_identity_refuted",
    "C42_specifications_group_refuted",
    "C42_specifications_dataset_refuted",
    "C42_loose_link_refuted"
   ],
   "note": "Refuted variants: two links with targets of the same last name, scalar references to groups (AttributeError) and to datasets (a second builder), a group or dataset named 'specifications', links to what is not in the file (left out silently). Cyclic links or references recurse without end (C42_cyclic)."
  },
  {
   "property": "C43",
   "status": "proved",
   "theorems": [
    "C43_once",
    "C43_after",
    "C43_loaded",
    "C43_total"
   ],
   "note": "Full for order_deps/order_aux and load_order. Python's recursion limit is not modelled."
  },
  {
   "property": "C44",
   "status": "proved",
   "theorems": [
    "C44_used",
    "C44_total",
    "C44_newest",
    "C44_newest_refuted",
    "C44_prerelease_refuted",
    "C44_cache"
   ],
   "note": "The unrestricted reading (newest release) is refuted: C44_newest_refuted (1.9.0 is used rather than 1.10.0), C44_prerelease_refuted (1.0.0-alpha rather than 1.0.0)."
  },
  {
   "property": "C45",
   "status": "proved",
   "theorems": [
    "C45_terminates",
    "C45_twice",
    "C45_all",
    "C45_cause",
    "C45_missing",
    "C45_regular",
    "C45_filled",
    "C45_lost",
    "C45_list_refuted",
    "C45_chain_refuted",
    "C45_leftover_refuted"
   ],
   "note": "Refuted: attributes holding a list of containers are never written (C45_list_refuted), a chain of three dependent calls fails though it could be completed (C45_chain_refuted), calls left by a failed write are made in the next one (C45_leftover_refuted)."
  },
  {
   "property": "C46",
   "status": "proved",
   "theorems": [
    "C46_lookup",
    "C46_validate",
    "C46_view",
    "C46_new",
    "C46_accepted",
    "C46_invariant",
    "C46_grow",
    "C46_atomic",
    "C46_unknown",
    "C46_known",
    "C46_string_refuted",
    "C46_empty_string_refuted",
    "C46_delegated_refuted",
    "C46_iterator_refuted",
    "C46_flat_refuted",
    "C46_listed_refuted"
   ],
   "note": "Proved by induction over the calls. Refuted without the restrictions: extending an array of length one by a string stores it unchecked; delegated list methods (insert) are not checked; an iterator is used up by the validation and its values are lost; extending a 1-d array stacks it to two dimensions; a listed term with an undeclared prefix is refused and one whose meaning has no colon raises IndexError."
  },
  {
   "property": "C47",
   "status": "proved",
   "theorems": [
    "C47_flatten",
    "C47_levels",
    "C47_one_level",
    "C47_one_level_error",
    "C47_bad_levels",
    "C47_drop",
    "C47_drop_error",
    "C47_no_id"
   ],
   "note": "Names of pandas columns only; the data frame's values are in C70."
  },
  {
   "property": "C48",
   "status": "proved",
   "theorems": [
    "C48_lt_ge",
    "C48_le",
    "C48_gt",
    "C48_eq",
    "C48_range",
    "C48_range_refuted",
    "C48_ne",
    "C48_list_sound",
    "C48_list",
    "C48_list_neighbours_refuted",
    "C48_list_errors_refuted",
    "C48_index",
    "C48_index_le_gt",
    "C48_index_ne",
    "C48_linspace",
    "C48_below_refuted",
    "C48_beyond_refuted"
   ],
   "note": "Proved (elements are integers). Refuted: a range without elements selects the next element; neighbouring matches of a list are lost, an empty list raises IndexError and a missing value TypeError; a value below the start of a LinSpace; == with a value beyond the end of a LinSpace gives an element that is not there."
  },
  {
   "property": "C49",
   "status": "proved",
   "theorems": [
    "C49_same",
    "C49_perm",
    "C49_order",
    "C49_value",
    "C49_idempotent",
    "C49_written",
    "C49_tuple_refuted"
   ],
   "note": "Refuted variant: data with tuples sorted directly turn into generators (C49_tuple_refuted). YAML text itself is not modelled."
  },
  {
   "property": "C50",
   "status": "proved",
   "theorems": [
    "C50_len",
    "C50_accepted",
    "C50_items",
    "C50_ith",
    "C50_snapshot",
    "C50_outside",
    "C50_single_refuted",
    "C50_empty_refuted",
    "C50_changed_refuted"
   ],
   "note": "Refuted variants: one-index lists expose the bare element, an empty list is refused, and a dataset changed between construction and first access makes len and values disagree."
  },
  {
   "property": "C51",
   "status": "proved",
   "theorems": [
    "C51_history",
    "C51_accepted",
    "C51_twice",
    "C51_unload",
    "C51_partial_merge_refuted",
    "C51_empty_refuted"
   ],
   "note": "Proved by induction over the operations. C51_partial_merge_refuted: a file without 'data_types' is merged in part before KeyError. C51_empty_refuted: after an empty file the next one is not recorded and can be loaded twice."
  },
  {
   "property": "C52",
   "status": "proved",
   "theorems": [
    "C52_alternatives",
    "C52_best_unique",
    "C52_single",
    "C52_unspecified",
    "C52_refined",
    "C52_lengths",
    "C52_scalar_refuted",
    "C52_tuples_refuted",
    "C52_auto_shape_refuted",
    "C52_resizable_refuted",
    "C52_lost_refuted"
   ],
   "note": "Proved. Refuted and recorded: data without a shape make building fail with TypeError; alternatives written as tuples are never matched; alternative labels without shapes give lists as labels; a resizable HDF5 dataset does not fit a fixed length; refining the shape without repeating the labels loses them."
  },
  {
   "property": "C53",
   "status": "proved",
   "theorems": [
    "C53_readonly",
    "C53_refused",
    "C53_history",
    "C53_mode",
    "C53_reported",
    "C53_read",
    "C53_open",
    "C53_handed",
    "C53_closed",
    "C53_closed_read_refuted",
    "C53_stale_refuted"
   ],
   "note": "Refuted: read() of a closed file returns nothing without raising (C53_closed_read_refuted), open() does not reopen, an empty file read before a write still reads as empty (C53_stale_refuted). HDF5 opening behaviour is an assumption of the model."
  },
  {
   "property": "C54",
   "status": "proved",
   "theorems": [
    "C54_one",
    "C54_flat",
    "C54_nested",
    "C54_error",
    "C54_inner_refuted"
   ],
   "note": "Proved. C54_inner_refuted: inside a kept inner collection objects of other types stay."
  },
  {
   "property": "C55",
   "status": "proved",
   "theorems": [
    "C55_all_children",
    "C55_ancestors"
   ],
   "note": "Descendants forming a finite tree."
  },
  {
   "property": "C56",
   "status": "proved",
   "theorems": [
    "C56_all_axes",
    "C56_axes",
    "C56_axes_number",
    "C56_scalar_refuted"
   ],
   "note": "Refuted for shapes without axes (ValueError). The NUM_DIMS_ERROR branch of the code is unreachable."
  },
  {
   "property": "C57",
   "status": "proved",
   "theorems": [
    "C57_include",
    "C57_accepted",
    "C57_namespace",
    "C57_keyed",
    "C57_report_refuted",
    "C57_recursive_refuted"
   ],
   "note": "The children of a spec are given by functions (types used, nested definitions) over which the theorems quantify. Refuted variants: a schema naming a namespace twice reports only the types of the last entry; a recursive type definition makes the inclusion run forever."
  },
  {
   "property": "C58",
   "status": "proved",
   "theorems": [
    "C58_mirror",
    "C58_placed_once",
    "C58_succeeds"
   ],
   "note": "Fields are processed in order; the builder of a rebuilt container is not covered (append mode)."
  },
  {
   "property": "C59",
   "status": "proved",
   "theorems": [
    "C59_sound",
    "C59_complete",
    "C59_map_sound",
    "C59_map_complete",
    "C59_duplicates",
    "C59_superfluous",
    "C59_complete_refuted",
    "C59_reported_refuted"
   ],
   "note": "Builders are finite trees (a link carries its target). What get_type and get_data_shape return is part of the builder (modelled in Dtype and Shape). C59_complete_refuted: with ambiguous sub-specs a conforming builder can be reported, depending on the order of children; C59_reported_refuted: a reference dataset holding other data, a wrong quantity of an untyped sub-spec, a group where a dataset is specified, and an unknown data type raise instead of being reported."
  },
  {
   "property": "C60",
   "status": "proved",
   "theorems": [
    "C60_valid_types",
    "C60_late_parent_refuted",
    "C60_cycle_refuted"
   ],
   "note": "C60_late_parent_refuted: a type registered before the type it includes is not among its valid types; C60_cycle_refuted: a type including itself raises RecursionError."
  },
  {
   "property": "C61",
   "status": "proved",
   "theorems": [
    "C61_rows",
    "C61_annotations",
    "C61_object_type",
    "C61_empty_refuted"
   ],
   "note": "Proved. pandas' iloc/merge/concat are modelled by index lookup and filtering."
  },
  {
   "property": "C62",
   "status": "proved",
   "theorems": [
    "C62_checks",
    "C62_error",
    "C62_negative_refuted"
   ],
   "note": "Proved. Refuted: negative indices are accepted and read from the end. The text format is not modelled."
  },
  {
   "property": "C63",
   "status": "proved",
   "theorems": [
    "C63_accepts",
    "C63_annotations_refuted"
   ],
   "note": "Proved; refuted: two HERDs with different annotations can be accepted as equal."
  },
  {
   "property": "C64",
   "status": "proved",
   "theorems": [
    "C64_termset",
    "C64_termset_any",
    "C64_container"
   ],
   "note": "Proved; term sets are functions from terms to entity id and URI."
  },
  {
   "property": "C65",
   "status": "proved",
   "theorems": [
    "C65_round_trip",
    "C65_identity",
    "C65_names",
    "C65_fill",
    "C65_named_refuted",
    "C65_same_name_refuted",
    "C65_overlap_refuted",
    "C65_link_subtype_refuted",
    "C65_unset_link_refuted",
    "C65_mixed_refuted",
    "C65_absent_dataset_refuted",
    "C65_absorbed_refuted",
    "C65_empty_list_refuted",
    "C65_default_refuted"
   ],
   "note": "Proved by induction over the conformance of the tree. Each condition is shown necessary by a refuted variant: a named child of another name is lost; of two children with one name only the last survives; a child accepted by two unnamed sub-specs becomes a value of both; an unnamed link to a subtype is lost; an unset named link takes the value of another link to the same type; mixed owned/linked lists are reordered; attributes of an absent untyped dataset are lost; an untyped dataset named like a typed child loses its data; an empty list reads back as nothing; a missing value reads back as the default. Data conversion is a parameter; override functions, datasets of references and compound datasets are not modelled; links refer to objects built elsewhere (Manager)."
  },
  {
   "property": "C66",
   "status": "proved",
   "theorems": [
    "C66_write_again",
    "C66_content"
   ],
   "note": "Proved."
  },
  {
   "property": "C67",
   "status": "proved",
   "theorems": [
    "C67_sound",
    "C67_injective",
    "C67_total",
    "C67_clash_refuted"
   ],
   "note": "Proved. C67_clash_refuted: derived names can clash ('ABTest' and 'AbTest'), and then the earlier sub-spec is mapped to nothing."
  },
  {
   "property": "C68",
   "status": "proved",
   "theorems": [
    "C68_value",
    "C68_refined",
    "C68_distinct"
   ],
   "note": "Proved."
  },
  {
   "property": "C69",
   "status": "proved",
   "theorems": [
    "C69_sound",
    "C69_configured",
    "C69_unconfigured",
    "C69_other",
    "C69_wrapped",
    "C69_directory_refuted"
   ],
   "note": "Proved. C69_directory_refuted: the term set paths in later configuration files are resolved beside the first file loaded."
  },
  {
   "property": "C70",
   "status": "proved",
   "theorems": [
    "C70_join",
    "C70_leaf",
    "C70_missing",
    "C70_missing_refuted",
    "C70_duplicate_refuted"
   ],
   "note": "Refuted variants: a row in the middle without references makes the conversion raise KeyError, and rows sharing an id are mixed up. Pandas' concat and reindexing are modelled on lists of rows."
  },
  {
   "property": "C71",
   "status": "proved",
   "theorems": [
    "C71_history",
    "C71_accepted",
    "C71_export",
    "C71_files",
    "C71_export_error",
    "C71_title_refuted",
    "C71_empty_source_refuted"
   ],
   "note": "Refuted variants: a title given for a source is replaced by its doc (write.py:159), and a source that was only documented makes export raise KeyError after other files were written. Specs and SpecCatalog.auto_register are parameters."
  },
  {
   "property": "C72",
   "status": "proved",
   "theorems": [
    "C72_total",
    "C72_stable",
    "C72_keeps",
    "C72_states",
    "C72_included",
    "C72_without_namespace",
    "C72_recursive_refuted",
    "C72_field_refuted"
   ],
   "note": "Refuted as theorems: self-dependent types and undeclared field types. The specification catalogue is abstract (specification, dependencies in the order they are checked, type hierarchy); 'can be ordered' is a rank that every dependency and every base type lowers. Class generation itself is reduced to choice of base, field classes and registration."
  },
  {
   "property": "C73",
   "status": "proved",
   "theorems": [
    "C73_mirrors",
    "C73_included",
    "C73_parent",
    "C73_root",
    "C73_field_refuted"
   ],
   "note": "Classes registered by hand must already inherit as their types do. Wrong field class refuted as theorem."
  },
  {
   "property": "C74",
   "status": "proved",
   "theorems": [
    "C74_type",
    "C74_no_type",
    "C74_first",
    "C74_generated",
    "C74_mapper",
    "C74_refused",
    "C74_stable",
    "C74_builder",
    "C74_late_refuted",
    "C74_builder_refuted",
    "C74_attributes_refuted",
    "C74_classes",
    "C74_classes_refuted"
   ],
   "note": "Late mapper registration, shared mappers, differing attributes and placeholders among the classes are refuted variants."
  },
  {
   "property": "C75",
   "status": "proved",
   "theorems": [
    "C75_copy",
    "C75_lookup",
    "C75_succeeds",
    "C75_raises",
    "C75_tidy",
    "C75_merge",
    "C75_type_refuted",
    "C75_attributes_refuted",
    "C75_replaced_refuted"
   ],
   "note": "Changed data type, changed attributes and failing copy are refuted variants. Deep copies are not modelled."
  },
  {
   "property": "C76",
   "status": "proved",
   "theorems": [
    "C76_names",
    "C76_distinct",
    "C76_params",
    "C76_required",
    "C76_defaults",
    "C76_order",
    "C76_required_first",
    "C76_name",
    "C76_default_name",
    "C76_fixed_refuted"
   ],
   "note": "Theories/ClassGen. C76_fixed_refuted: a field the type fixes stays a required parameter if the parent takes it."
  },
  {
   "property": "C77",
   "status": "proved",
   "theorems": [
    "C77_held",
    "C77_fixed",
    "C77_others",
    "C77_name",
    "C77_checked",
    "C77_succeeds",
    "C77_passed_refuted",
    "C77_omitted_refuted",
    "C77_name_refuted",
    "C77_unfixed"
   ],
   "note": "Theories/ClassGen. What docval accepts for a type is a parameter. Refuted variants: a passed value is silently replaced by the fixed one (C77_passed_refuted); a parameter made optional by an override cannot be left out (C77_omitted_refuted); the fixed name of a derived type is ignored below a fixed name (C77_name_refuted)."
  },
  {
   "property": "C78",
   "status": "proved",
   "theorems": [
    "C78_fields",
    "C78_distinct",
    "C78_settings",
    "C78_properties",
    "C78_kept",
    "C78_post_init",
    "C78_fields_refuted",
    "C78_settings_refuted"
   ],
   "note": "Theories/ClassGen. Refuted variants: a collection added below a generated parent without collections loses the parent's fields (C78_fields_refuted); a class without own fields keeps the names only (C78_settings_refuted)."
  },
  {
   "property": "C79",
   "status": "proved",
   "theorems": [
    "C79_group",
    "C79_dataset",
    "C79_attribute",
    "C79_link",
    "C79_column"
   ],
   "note": "Theories/SpecDict. Equality is that of python dictionaries: the order of keys may change (an attribute with a default value, see C79_attribute_nonvacuous). Included specifications are given by name."
  },
  {
   "property": "C80",
   "status": "proved",
   "theorems": [
    "C80_group",
    "C80_dataset",
    "C80_attribute",
    "C80_link",
    "C80_column",
    "C80_errors",
    "C80_nested_compound",
    "C80_named_once_refuted"
   ],
   "note": "Theories/SpecDict. Findings: a compound type in a compound type is always refused (C80_nested_compound); a named group may have quantity 5 (C80_named_once_refuted)."
  },
  {
   "property": "C81",
   "status": "proved",
   "theorems": [
    "C81_attribute",
    "C81_dataset",
    "C81_group",
    "C81_link",
    "C81_column",
    "C81_default_name_kept_refuted"
   ],
   "note": "Theories/SpecDict. Refuted variant: a default name beside a name is dropped (C81_default_name_kept_refuted)."
  },
  {
   "property": "C82",
   "status": "proved",
   "theorems": [
    "C82_reload",
    "C82_chain",
    "C82_root",
    "C82_minimal",
    "C82_dataset",
    "C82_attribute_refuted",
    "C82_many_refuted",
    "C82_link_refuted",
    "C82_link_type_refuted",
    "C82_self_name_refuted",
    "C82_minimal_type_refuted"
   ],
   "note": "Theories/SpecCache, over the specs of SpecRes. Findings (refuted without the conditions): an own attribute named like an inherited dataset is lost (C82_attribute_refuted), refinements of unnamed many-types and unnamed links are lost (C82_many_refuted, C82_link_refuted), an unnamed link to a type held unnamed by the base is lost (C82_link_type_refuted), an attribute is lost when an inherited group carries the type's own name (C82_self_name_refuted); an inherited unnamed type that exists once is written too (C82_minimal_type_refuted)."
  },
  {
   "property": "C83",
   "status": "proved",
   "theorems": [
    "C83_group",
    "C83_dataset",
    "C83_value_refuted"
   ],
   "note": "Theories/SpecCopy, over the dictionaries of SpecDict. Finding: a fixed value or default value of a dataset type is lost in the cache (C83_value_refuted)."
  },
  {
   "property": "C84",
   "status": "proved",
   "theorems": [
    "C84_relpath",
    "C84_link",
    "C84_written",
    "C84_exported",
    "C84_refused",
    "C84_root_refuted",
    "C84_backslash_refuted"
   ],
   "note": "Theories/H5link. Refuted: a link to a root group read from a file leads to /root (C84_root_refuted); a name with a backslash is split (C84_backslash_refuted)."
  },
  {
   "property": "C85",
   "status": "proved",
   "theorems": [
    "C85_copied",
    "C85_attributes",
    "C85_kept",
    "C85_moved",
    "C85_moved_refuted"
   ],
   "note": "Theories/H5link. Refuted without the exception: data exported into another group is lost when its old path is not exported (C85_moved_refuted). Attributes of linked data are not written."
  },
  {
   "property": "C86",
   "status": "proved",
   "theorems": [
    "C86_target",
    "C86_broken",
    "C86_roundtrip",
    "C86_chain_refuted",
    "C86_wrong_refuted"
   ],
   "note": "Theories/H5link. Refuted for links to external links: the path is looked up in the last file, which fails or gives another object (C86_chain_refuted, C86_wrong_refuted)."
  },
  {
   "property": "C87",
   "status": "proved",
   "theorems": [
    "C87_tables",
    "C87_dates_refuted",
    "C87_names",
    "C87_numeric_refuted",
    "C87_stored",
    "C87_guessed",
    "C87_export",
    "C87_shift_refuted",
    "C87_half_refuted",
    "C87_bool_refuted",
    "C87_refs"
   ],
   "note": "Theories/H5data. Refuted: dates are built as bytes but are columns of text (C87_dates_refuted); a 'numeric' or 'date' column becomes float64 (C87_numeric_refuted); array columns shift the following types (C87_shift_refuted); half precision and, before numpy 2, booleans become float64 on export (C87_half_refuted, C87_bool_refuted)."
  },
  {
   "property": "C88",
   "status": "proved",
   "theorems": [
    "C88_roundtrip",
    "C88_index",
    "C88_unwritten",
    "C88_several_regions",
    "C88_builders_refuted",
    "C88_null_refuted"
   ],
   "note": "Theories/H5data. Refuted: region references read as builders raise KeyError (C88_builders_refuted); a missing object is written but cannot be read (C88_null_refuted)."
  },
  {
   "property": "C89",
   "status": "proved",
   "theorems": [
    "C89_stored",
    "C89_only",
    "C89_ragged",
    "C89_elements",
    "C89_read",
    "C89_scalar",
    "C89_bytes_refuted",
    "C89_empty_text_refuted",
    "C89_zero_dim",
    "C89_first",
    "C89_mixed_refuted"
   ],
   "note": "Theories/H5data. Refuted: mixed lists are stored in the type of the first element (C89_mixed_refuted); text without elements on a later axis cannot be read (C89_empty_text_refuted); one byte string is read as text (C89_bytes_refuted)."
  },
  {
   "property": "C90",
   "status": "proved",
   "theorems": [
    "C90_settings",
    "C90_accepts",
    "C90_errors",
    "C90_empty_refuted",
    "C90_scalar_refuted",
    "C90_name_refuted",
    "C90_number_refuted",
    "C90_silent"
   ],
   "note": "Theories/H5opts. Refuted: H5DataIO() and shape=() raise InvalidDataIOError (C90_empty_refuted, C90_scalar_refuted); a type given by name is declared and always refused (C90_name_refuted); the options of gzip given by its number are not checked (C90_number_refuted)."
  },
  {
   "property": "C91",
   "status": "proved",
   "theorems": [
    "C91_kept",
    "C91_call",
    "C91_iterator",
    "C91_again",
    "C91_type_refuted",
    "C91_first",
    "C91_once",
    "C91_second",
    "C91_maxshape",
    "C91_missing",
    "C91_taken"
   ],
   "note": "Theories/H5opts. Refuted for the type of later datasets of a chunk iterator: it is that of the first (C91_type_refuted)."
  },
  {
   "property": "C92",
   "status": "proved",
   "theorems": [
    "C92_to_frame",
    "C92_accepts",
    "C92_made",
    "C92_frame_round_trip",
    "C92_bytes_refuted",
    "C92_table_round_trip",
    "C92_depth_refuted",
    "C92_empty_refuted",
    "C92_empty",
    "C92_missing",
    "C92_unknown",
    "C92_deep",
    "C92_mixed"
   ],
   "note": "Theories/Frame. Refuted: index levels are not kept (a ragged column of equal lengths comes back plain, two levels come back as one: C92_depth_refuted), bytes of different lengths come back as lists of integers (C92_bytes_refuted), a table without rows does not come back (C92_empty_refuted)."
  },
  {
   "property": "C93",
   "status": "proved",
   "theorems": [
    "C93_lengths",
    "C93_raises",
    "C93_duplicates",
    "C93_two_indices",
    "C93_no_target",
    "C93_made",
    "C93_outermost",
    "C93_named",
    "C93_names_alone",
    "C93_column",
    "C93_index",
    "C93_outer_index",
    "C93_missing",
    "C93_inner_refuted",
    "C93_order",
    "C93_attribute_refuted",
    "C93_iterator_refuted",
    "C93_copy",
    "C93_copy_named",
    "C93_shared_refuted",
    "C93_ragged_enum_refuted"
   ],
   "note": "Theories/Columns. Refuted: the name of an inner index gives the outer one if that comes first (C93_inner_refuted); the order matters if an index is named like an attribute of the table (C93_attribute_refuted) or if values come from a chunk iterator (C93_iterator_refuted); the copy of a table whose enumerations share elements cannot be copied (C93_shared_refuted); a ragged enumeration loses its index or its elements with colnames (C93_ragged_enum_refuted)."
  },
  {
   "property": "C94",
   "status": "proved",
   "theorems": [
    "C94_reftype",
    "C94_lists",
    "C94_call",
    "C94_call_sound",
    "C94_determined",
    "C94_attribute",
    "C94_error",
    "C94_failure",
    "C94_nested_refuted",
    "C94_none_refuted",
    "C94_typed_none_refuted",
    "C94_column_refuted",
    "C94_list_refuted"
   ],
   "note": "Theories/Refs. Refuted: nested lists of containers are no references (C94_nested_refuted); None before the first container (C94_none_refuted); None in a typed dataset raises, in an untyped one not (C94_typed_none_refuted); a reference column cannot refer to a Data object (C94_column_refuted); a list of containers is accepted for a reference attribute and then raises TypeError (C94_list_refuted)."
  },
  {
   "property": "C95",
   "status": "proved",
   "theorems": [
    "C95_carried_out",
    "C95_failure",
    "C95_turn",
    "C95_data_stays",
    "C95_back",
    "C95_table_stays",
    "C95_there_and_back",
    "C95_later_refuted",
    "C95_lost_refuted"
   ],
   "note": "Theories/Refs. Refuted: after an error a later unrelated build fails (C95_later_refuted) and a dataset stays without data though later builds succeed (C95_lost_refuted)."
  },
  {
   "property": "C96",
   "status": "proved",
   "theorems": [
    "C96_dataset",
    "C96_not_data",
    "C96_unconverted",
    "C96_rebuilt",
    "C96_changed_refuted",
    "C96_attributes",
    "C96_order",
    "C96_values",
    "C96_refused",
    "C96_attribute_unconverted"
   ],
   "note": "Theories/Refs. Refuted: changed data of a built container are written (C96_changed_refuted)."
  },
  {
   "property": "C97",
   "status": "proved",
   "theorems": [
    "C97_name",
    "C97_name_plain",
    "C97_name_again_refuted",
    "C97_cached",
    "C97_unversioned",
    "C97_known",
    "C97_directory_refuted",
    "C97_hidden_refuted",
    "C97_namespace_source_refuted"
   ],
   "note": "Refuted: different sources keep different names when what was loaded from a file is cached again (C97_name_again_refuted); sources in directories, hidden sources and namespace.yaml can be cached (C97_directory_refuted, C97_hidden_refuted, C97_namespace_source_refuted)."
  },
  {
   "property": "C98",
   "status": "proved",
   "theorems": [
    "C98_any_order",
    "C98_round",
    "C98_selection_refuted",
    "C98_shadowed_refuted",
    "C98_extensions_refuted",
    "C98_twice_refuted"
   ],
   "note": "Refuted without the assumptions: a namespace including selected types gets all of them (C98_selection_refuted) or cannot be loaded (C98_shadowed_refuted); sources differing in extension only cannot be loaded (C98_extensions_refuted); caching what was loaded from a file may give a file that cannot be loaded (C98_twice_refuted). What __copy_spec makes of one spec is the parameter cp (C82, C83)."
  },
  {
   "property": "C99",
   "status": "proved",
   "theorems": [
    "C99_append",
    "C99_append_result",
    "C99_extend",
    "C99_extend_result",
    "C99_append_failure",
    "C99_extend_failure",
    "C99_error_kind",
    "C99_failure_grows_refuted",
    "C99_append_wf",
    "C99_extend_wf",
    "C99_vector",
    "C99_nothing",
    "C99_references",
    "C99_no_data",
    "C99_same_elements_refuted",
    "C99_stores_given_refuted"
   ],
   "note": "Refuted: a failing append leaves the data alone (C99_failure_grows_refuted); the same elements make every kind of data grow alike (C99_same_elements_refuted); what is stored is what was given (C99_stores_given_refuted). Extending 1-D arrays, extending by nothing and extending datasets of references: C99_vector, C99_nothing, C99_references. Structured and Zarr arrays are left out."
  },
  {
   "property": "C100",
   "status": "proved",
   "theorems": [
    "C100_history",
    "C100_shared_refuted",
    "C100_array_detached",
    "C100_identifiers_refuted",
    "C100_identifiers"
   ],
   "note": "Refuted for data that share a list (C100_shared_refuted; an array is not shared, C100_array_detached); ElementIdentifiers check only the first of the new identifiers (C100_identifiers_refuted)."
  },
  {
   "property": "C101",
   "status": "proved",
   "theorems": [
    "C101_class",
    "C101_consistent",
    "C101_last_base",
    "C101_other_base_refuted",
    "C101_attribute",
    "C101_kept",
    "C101_settings_refuted",
    "C101_plain_subclass",
    "C101_error",
    "C101_order"
   ],
   "note": "Refuted variants, with witnesses: the fields of all bases are inherited (C101_other_base_refuted); the configuration of a field is that of its property (C101_settings_refuted). C101_plain_subclass shows that a subclass without declaration loses the settings of all its fields in get_fields_conf."
  },
  {
   "property": "C102",
   "status": "proved",
   "theorems": [
    "C102_grows",
    "C102_add",
    "C102_object",
    "C102_claims_refuted",
    "C102_same_object",
    "C102_current",
    "C102_negative_refuted",
    "C102_distinct",
    "C102_equal",
    "C102_placed",
    "C102_lonely",
    "C102_subclass",
    "C102_one_class"
   ],
   "note": "Refuted variants, with witnesses: the object for a negative position is the row that is there now (C102_negative_refuted: it is the row that was there at the first request); a row object holds what its table has at its position whatever was assigned to it (C102_claims_refuted). C102_subclass and C102_lonely are universal negative results."
  },
  {
   "property": "C103",
   "status": "proved",
   "theorems": [
    "C103_which",
    "C103_which_error",
    "C103_column",
    "C103_from",
    "C103_extra_ok",
    "C103_extra_refuted",
    "C103_round_trip",
    "C103_frame",
    "C103_integers_refuted"
   ],
   "note": "Refuted variants, with witnesses: columns that are not in the class are ignored with extra_ok=True (C103_extra_refuted; C103_extra_ok proves the argument has no effect); every table survives a data frame (C103_integers_refuted: integers beside floats become floats)."
  },
  {
   "property": "C104",
   "status": "proved",
   "theorems": [
    "C104_class",
    "C104_methods",
    "C104_own_method_refuted",
    "C104_others",
    "C104_property",
    "C104_metaclass",
    "C104_usable_refuted",
    "C104_subclass",
    "C104_constructor_refuted",
    "C104_setter_refuted",
    "C104_error"
   ],
   "note": "Refuted variants, with witnesses: a method the class defines is kept (C104_own_method_refuted); the subclass inherits the constructor (C104_constructor_refuted); every class can be used (C104_usable_refuted); the property uses the add method the class asked for (C104_setter_refuted)."
  },
  {
   "property": "C105",
   "status": "proved",
   "theorems": [
    "C105_add",
    "C105_add_ok",
    "C105_add_error",
    "C105_type_refuted",
    "C105_bad_type",
    "C105_bad_type_object",
    "C105_types_refuted",
    "C105_construct",
    "C105_twice",
    "C105_twice_refuted",
    "C105_tidy",
    "C105_grows",
    "C105_assign",
    "C105_assign_refuted",
    "C105_get",
    "C105_get_error",
    "C105_get_only",
    "C105_create",
    "C105_create_error"
   ],
   "note": "Refuted variants, with witnesses: everything in a dictionary has the declared type (C105_type_refuted); a list of types works (C105_types_refuted); a class with the same attribute twice works (C105_twice_refuted); the attribute is what was assigned (C105_assign_refuted)."
  },
  {
   "property": "C106",
   "status": "proved",
   "theorems": [
    "C106_pairs",
    "C106_read",
    "C106_root",
    "C106_result",
    "C106_empty",
    "C106_again",
    "C106_new",
    "C106_kept",
    "C106_change_refuted"
   ],
   "note": "Refuted variant, with a witness: a change made before reading the file again is written afterwards (C106_change_refuted)."
  },
  {
   "property": "C107",
   "status": "proved",
   "theorems": [
    "C107_write",
    "C107_failure",
    "C107_resources_refuted",
    "C107_source",
    "C107_known",
    "C107_source_refuted",
    "C107_whole"
   ],
   "note": "Refuted variants, with witnesses: a failing write leaves no external resources behind (C107_resources_refuted); a container from another file is always refused (C107_source_refuted)."
  },
  {
   "property": "C108",
   "status": "proved",
   "theorems": [
    "C108_refused",
    "C108_allowed",
    "C108_export",
    "C108_same",
    "C108_whole",
    "C108_file",
    "C108_cleared",
    "C108_change_refuted",
    "C108_reread",
    "C108_children_refuted"
   ],
   "note": "Refuted variants, with witnesses: an export without container has the same contents with and without clearing the cache (C108_change_refuted); a container read again after an export is exported with its children (C108_children_refuted)."
  },
  {
   "property": "C109",
   "status": "proved",
   "theorems": [
    "C109_distinct",
    "C109_asked",
    "C109_changes",
    "C109_new",
    "C109_single"
   ],
   "note": ""
  },
  {
   "property": "C110",
   "status": "proved",
   "theorems": [
    "C110_children",
    "C110_tree",
    "C110_ends",
    "C110_duplicate",
    "C110_objects",
    "C110_cached",
    "C110_added_refuted",
    "C110_key_refuted",
    "C110_failure_refuted"
   ],
   "note": "Refuted variants, with witnesses: all_objects has all objects (C110_added_refuted) under their ids (C110_key_refuted); after a failure it fails again (C110_failure_refuted)."
  },
  {
   "property": "C111",
   "status": "proved",
   "theorems": [
    "C111_read_io",
    "C111_ancestor",
    "C111_parent",
    "C111_set",
    "C111_kept"
   ],
   "note": ""
  },
  {
   "property": "C112",
   "status": "proved",
   "theorems": [
    "C112_declare",
    "C112_declare_error",
    "C112_untouched_refuted",
    "C112_enum_refuted",
    "C112_sorted",
    "C112_get_names",
    "C112_get_error",
    "C112_reuse",
    "C112_same_function",
    "C112_frozen",
    "C112_new_macro_refuted",
    "C112_copy_refuted",
    "C112_macro"
   ],
   "note": "Refuted variants, with witnesses: a failed declaration leaves the dicts alone (C112_untouched_refuted); enums of text types or with None (C112_enum_refuted); new macros do not matter (C112_new_macro_refuted); get_docval gives a copy (C112_copy_refuted)."
  },
  {
   "property": "C113",
   "status": "proved",
   "theorems": [
    "C113_keywords",
    "C113_no_docval",
    "C113_missing",
    "C113_missing_refuted",
    "C113_none_refuted",
    "C113_positional",
    "C113_again",
    "C113_again_refuted",
    "C113_delegate",
    "C113_popargs_to_dict"
   ],
   "note": "Refuted variants, with witnesses: a missing parameter is always an error (C113_missing_refuted); None is passed on (C113_none_refuted); again with shapes (C113_again_refuted). C113_positional: functions that refuse positional arguments can not be called this way."
  },
  {
   "property": "C114",
   "status": "proved",
   "theorems": [
    "C114_same_proxy",
    "C114_parent",
    "C114_children",
    "C114_owner",
    "C114_plain",
    "C114_ambiguous_refuted",
    "C114_assigned",
    "C114_order",
    "C114_resolve",
    "C114_other_class",
    "C114_untyped",
    "C114_root_refuted",
    "C114_candidate",
    "C114_first_candidate",
    "C114_no_candidate"
   ],
   "note": "Refuted variants, with witnesses: untyped groups in between (C114_ambiguous_refuted); fields with the top of another file (C114_root_refuted). Cases in which the proxy stays for ever: C114_other_class, C114_untyped."
  },
  {
   "property": "C115",
   "status": "proved",
   "theorems": [
    "C115_single",
    "C115_chain",
    "C115_own",
    "C115_empty",
    "C115_parts",
    "C115_kept",
    "C115_no_tuple",
    "C115_no_tuple_error",
    "C115_lost_refuted",
    "C115_twice_refuted"
   ],
   "note": "Refuted variants, with witnesses: the columns of the other bases are lost (C115_lost_refuted); a class below a diamond has columns twice (C115_twice_refuted)."
  },
  {
   "property": "C116",
   "status": "proved",
   "theorems": [
    "C116_one",
    "C116_error",
    "C116_set",
    "C116_proper",
    "C116_kept",
    "C116_nested",
    "C116_rows",
    "C116_alone_refuted",
    "C116_generated",
    "C116_suffix",
    "C116_levels",
    "C116_index_refuted"
   ],
   "note": "Refuted variants, with witnesses: a refused target leaves the columns alone (C116_alone_refuted); a required field whose name ends with _index but that is no index becomes a column (C116_index_refuted). Regions below two indices never get a target (C116_nested)."
  },
  {
   "property": "C117",
   "status": "proved",
   "theorems": [
    "C117_exact",
    "C117_header",
    "C117_reflexive",
    "C117_ignore",
    "C117_fuel"
   ],
   "note": "The object heap, the kinds of values and the tolerance of numpy (rtol 1e-7, exact rationals instead of floats) are modelled; see C118 for what is not compared."
  },
  {
   "property": "C118",
   "status": "proved",
   "theorems": [
    "C118_contents",
    "C118_dict",
    "C118_depth",
    "C118_cycle",
    "C118_data_refuted",
    "C118_ints_refuted",
    "C118_symmetric_refuted",
    "C118_chars_refuted"
   ],
   "note": "Refuted variants, with witnesses: data of a Data given directly is compared (C118_data_refuted); integer arrays that pass are the same (C118_ints_refuted); the order of the two does not matter (C118_symmetric_refuted); text passes against text only (C118_chars_refuted)."
  },
  {
   "property": "C119",
   "status": "proved",
   "theorems": [
    "C119_chain",
    "C119_next",
    "C119_first",
    "C119_mixin",
    "C119_given",
    "C119_kept",
    "C119_lost_refuted",
    "C119_method_refuted"
   ],
   "note": "Refuted variants, with witnesses: overrides of all bases are called (C119_lost_refuted); redefining the method in a subclass changes what is called (C119_method_refuted)."
  },
  {
   "property": "C120",
   "status": "proved",
   "theorems": [
    "C120_args",
    "C120_fails",
    "C120_lists",
    "C120_last",
    "C120_none",
    "C120_construct",
    "C120_name",
    "C120_attr",
    "C120_attr_none",
    "C120_attr_missing",
    "C120_attr_stored",
    "C120_attr_fails",
    "C120_none_refuted"
   ],
   "note": "The conversion of text and the filter by type are parameters. Refuted variant, with witness: an override can leave an attribute out by giving None (C120_none_refuted)."
  },
  {
   "property": "C121",
   "status": "proved",
   "theorems": [
    "C121_entries",
    "C121_code",
    "C121_index",
    "C121_code_refuted",
    "C121_depth",
    "C121_cycle",
    "C121_rows",
    "C121_more",
    "C121_escape_refuted"
   ],
   "note": "Refuted variants, with witnesses: the access code that gives a value is on the page (C121_code_refuted); the text of a page tells the number of its fields, as text is not escaped (C121_escape_refuted)."
  },
  {
   "property": "C122",
   "status": "proved",
   "theorems": [
    "C122_order",
    "C122_shown",
    "C122_value",
    "C122_depth",
    "C122_cycle",
    "C122_list",
    "C122_dict",
    "C122_set",
    "C122_bare",
    "C122_same_refuted"
   ],
   "note": "str of numpy arrays is a parameter. Refuted variant, with witness: containers with the same text have fields of the same names (C122_same_refuted)."
  },
  {
   "property": "C123",
   "status": "proved",
   "theorems": [
    "C123_made",
    "C123_made_named",
    "C123_rows",
    "C123_empty",
    "C123_file",
    "C123_sorted",
    "C123_order_refuted",
    "C123_memory",
    "C123_again",
    "C123_lost"
   ],
   "note": "Refuted variant, with witness: a table is read with its columns in the order it was written with (C123_order_refuted; false for tables without rows)."
  },
  {
   "property": "C124",
   "status": "proved",
   "theorems": [
    "C124_array",
    "C124_sorted",
    "C124_sorted_max",
    "C124_absent_refuted",
    "C124_nested",
    "C124_other",
    "C124_operand",
    "C124_operand_refuted",
    "C124_key",
    "C124_key_clean",
    "C124_contains_set",
    "C124_contains_plain",
    "C124_remove"
   ],
   "note": "Refuted variants, with witnesses: a query for a value that a sorted array does not have gives no elements (C124_absent_refuted; TypeError); a query compared with a query uses its result (C124_operand_refuted)."
  },
  {
   "property": "C125",
   "status": "proved",
   "theorems": [
    "C125_start",
    "C125_unchanged",
    "C125_meaning",
    "C125_simple",
    "C125_kept",
    "C125_stale",
    "C125_current_refuted",
    "C125_renewed",
    "C125_collapse",
    "C125_two_refuted"
   ],
   "note": "Refuted variants, with witnesses: indexing with a query gives the current elements that satisfy it (C125_current_refuted); the collapsed result of a query is that of its expanded result (C125_two_refuted)."
  },
  {
   "property": "C126",
   "status": "proved",
   "theorems": [
    "C126_found",
    "C126_refused",
    "C126_rows",
    "C126_all",
    "C126_ne",
    "C126_ne_one",
    "C126_unequal_refuted"
   ],
   "note": "Refuted variant, with a witness: ids != i is false for an id that the table has (C126_unequal_refuted: the first one)."
  },
  {
   "property": "C127",
   "status": "proved",
   "theorems": [
    "C127_iff",
    "C127_self",
    "C127_other",
    "C127_differ",
    "C127_sym",
    "C127_trans",
    "C127_history",
    "C127_contents",
    "C127_strict",
    "C127_structure_refuted"
   ],
   "note": "Refuted variant, with a witness: equal tables have columns of the same kind and ids of the same name (C127_structure_refuted). The comparison of dtypes and cells by pandas is a parameter."
  },
  {
   "property": "C128",
   "status": "proved",
   "theorems": [
    "C128_uint",
    "C128_uint_same",
    "C128_uint_again",
    "C128_uint_list",
    "C128_empty_refuted",
    "C128_parts",
    "C128_args",
    "C128_errors",
    "C128_ignored",
    "C128_dense",
    "C128_canonical",
    "C128_ragged",
    "C128_zeros_refuted",
    "C128_bounds_refuted",
    "C128_order_refuted",
    "C128_surplus_refuted"
   ],
   "note": "Refuted variants, with witnesses: any list of natural numbers is accepted (C128_empty_refuted: not the empty one, so a matrix of zeros cannot be given by lists, C128_zeros_refuted); columns are within the shape (C128_bounds_refuted); pointers do not go back (C128_order_refuted); all data given is kept (C128_surplus_refuted). What scipy checks is modelled from its documentation."
  },
  {
   "property": "C129",
   "status": "proved",
   "theorems": [
    "C129_same",
    "C129_entries",
    "C129_again",
    "C129_rows",
    "C129_parts",
    "C129_stable",
    "C129_negative",
    "C129_width_refuted",
    "C129_unset",
    "C129_set"
   ],
   "note": "Refuted variant, with a witness: a matrix is read with index arrays of the item size they were written with (C129_width_refuted)."
  },
  {
   "property": "C130",
   "status": "proved",
   "theorems": [
    "C130_storable",
    "C130_value",
    "C130_again",
    "C130_all",
    "C130_prefix",
    "C130_sets",
    "C130_containers",
    "C130_nested_text",
    "C130_bytes_refuted",
    "C130_read",
    "C130_region"
   ],
   "note": "Refuted variant, with a witness: bytes are read as bytes (C130_bytes_refuted: not those in a list). What h5py makes of a list that begins with a string and goes on with something else is a parameter, excluded by the hypothesis plain."
  },
  {
   "property": "C131",
   "status": "proved",
   "theorems": [
    "C131_ends",
    "C131_done",
    "C131_only",
    "C131_error",
    "C131_missing",
    "C131_empty_refuted"
   ],
   "note": "Refuted variant, with a witness: after an error the queue is empty (C131_empty_refuted). C131_only and C131_error are for queues without lists that begin with a container, which C130_containers shows are only queued together with an error."
  },
  {
   "property": "C132",
   "status": "proved",
   "theorems": [
    "C132_made",
    "C132_not_made",
    "C132_made_refuted",
    "C132_result",
    "C132_never",
    "C132_kept",
    "C132_within",
    "C132_all",
    "C132_exact",
    "C132_shared",
    "C132_loop",
    "C132_loop_refuted",
    "C132_exact_refuted"
   ],
   "note": "Refuted variants, with witnesses: NumSampleCounter can be made (C132_made_refuted); a loop over a processor counts (C132_loop_refuted); the number of values is counted along any axis (C132_exact_refuted). Errors of the iterable while it is read are left out."
  },
  {
   "property": "C133",
   "status": "proved",
   "theorems": [
    "C133_equal",
    "C133_alike",
    "C133_prefix",
    "C133_unplaced",
    "C133_place_refuted",
    "C133_equal_refuted",
    "C133_told",
    "C133_quantity",
    "C133_missing",
    "C133_collide",
    "C133_compare",
    "C133_string",
    "C133_class",
    "C133_arguments_refuted"
   ],
   "note": "Refuted variants, with witnesses: errors with different names and places are different (C133_place_refuted), placed errors that are not alike are different (C133_equal_refuted), reasons tell the arguments of a class apart (C133_arguments_refuted). The hash of strings is a parameter."
  },
  {
   "property": "C134",
   "status": "proved",
   "theorems": [
    "C134_kept",
    "C134_report",
    "C134_path",
    "C134_path_top",
    "C134_place",
    "C134_apart",
    "C134_hidden",
    "C134_merged",
    "C134_place_refuted"
   ],
   "note": "Refuted variant, with a witness: different builders have different places (C134_place_refuted: not below builders called root)."
  },
  {
   "property": "C135",
   "status": "proved",
   "theorems": [
    "C135_build",
    "C135_orphan",
    "C135_append",
    "C135_foreign",
    "C135_sourceless",
    "C135_read",
    "C135_untyped",
    "C135_links",
    "C135_back",
    "C135_kept",
    "C135_lost",
    "C135_kept_refuted",
    "C135_order_refuted",
    "C135_types_refuted",
    "C135_again"
   ],
   "note": "Refuted variants, with witnesses: all elements are read back (C135_kept_refuted: links are lost), the order stays (C135_order_refuted), types outside of Data and Container come back (C135_types_refuted)."
  },
  {
   "property": "C136",
   "status": "proved",
   "theorems": [
    "C136_own",
    "C136_typed",
    "C136_error",
    "C136_missing",
    "C136_other",
    "C136_absent",
    "C136_nameless",
    "C136_column",
    "C136_deep",
    "C136_column_refuted",
    "C136_region",
    "C136_region_deep",
    "C136_index",
    "C136_others",
    "C136_attribute",
    "C136_set",
    "C136_taken",
    "C136_frame",
    "C136_written",
    "C136_override",
    "C136_defined",
    "C136_list"
   ],
   "note": "Refuted variant, with a witness: the spec of a column gets the column (C136_column_refuted: not behind two indices). Conversion of texts is left out."
  },
  {
   "property": "C137",
   "status": "proved",
   "theorems": [
    "C137_done",
    "C137_none",
    "C137_arrays",
    "C137_second",
    "C137_depth",
    "C137_once_refuted",
    "C137_failed",
    "C137_frame",
    "C137_core",
    "C137_keys",
    "C137_modified",
    "C137_ignored",
    "C137_options_refuted",
    "C137_warned",
    "C137_data"
   ],
   "note": "Refuted variants, with witnesses: there is at most one wrapper (C137_once_refuted), all given options are used (C137_options_refuted). Whether options suit a class is a parameter."
  },
  {
   "property": "C138",
   "status": "proved",
   "theorems": [
    "C138_register",
    "C138_first",
    "C138_others",
    "C138_invariant",
    "C138_copy",
    "C138_merge",
    "C138_masked",
    "C138_kept_refuted",
    "C138_list",
    "C138_self",
    "C138_permutation",
    "C138_lost",
    "C138_given",
    "C138_same_refuted"
   ],
   "note": "Refuted variants, with witnesses: merging keeps the generator used for a field (C138_kept_refuted), get_type_map leaves the type map it is given as it is (C138_same_refuted). What the generators do to a field is area ClassGen and Predef."
  },
  {
   "property": "C139",
   "status": "proved",
   "theorems": [
    "C139_invariant",
    "C139_copy",
    "C139_isolated",
    "C139_shared",
    "C139_config",
    "C139_loaded",
    "C139_own",
    "C139_everywhere_refuted",
    "C139_given",
    "C139_core_refuted",
    "C139_list",
    "C139_unknown",
    "C139_foreign",
    "C139_included_refuted",
    "C139_other",
    "C139_missing",
    "C139_path",
    "C139_types",
    "C139_known",
    "C139_lacking"
   ],
   "note": "Refuted variants, with witnesses: a configuration is shared across all type maps, as the docstring says (C139_everywhere_refuted), a given type map comes back with the core types (C139_core_refuted), type maps in a list are included (C139_included_refuted: KeyError for other namespaces). Dependent types of included types and generated classes are left out."
  },
  {
   "property": "C140",
   "status": "proved",
   "theorems": [
    "C140_one",
    "C140_many",
    "C140_missing",
    "C140_pop",
    "C140_stops",
    "C140_atomic_refuted",
    "C140_twice_refuted",
    "C140_frame",
    "C140_usage",
    "C140_dict",
    "C140_unhashable",
    "C140_to_dict",
    "C140_to_dict_stops"
   ],
   "note": "Refuted variants, with witnesses: popargs leaves the dictionary as it was on an error (C140_atomic_refuted), popargs succeeds whenever getargs does (C140_twice_refuted). Keys are texts."
  },
  {
   "property": "C141",
   "status": "proved",
   "theorems": [
    "C141_dir",
    "C141_lookup",
    "C141_order",
    "C141_which",
    "C141_again",
    "C141_inherited_refuted",
    "C141_once_refuted",
    "C141_bases_refuted",
    "C141_post",
    "C141_first_error",
    "C141_errors",
    "C141_pre_fails"
   ],
   "note": "Refuted variants, with witnesses: functions of the bases always run (C141_inherited_refuted), each function runs once (C141_once_refuted), those of the bases run before those of the class (C141_bases_refuted). Functions only set attributes; deleting attributes is left out."
  },
  {
   "property": "C142",
   "status": "proved",
   "theorems": [
    "C142_types",
    "C142_targets",
    "C142_lists",
    "C142_names",
    "C142_accept",
    "C142_atomic",
    "C142_errors",
    "C142_unique",
    "C142_unnamed",
    "C142_members",
    "C142_present",
    "C142_all_refuted",
    "C142_shadow_refuted"
   ],
   "note": "Refuted variants, with witnesses: all specifications of a type are given for it (C142_all_refuted), every group of the list is found by its name (C142_shadow_refuted). The test for the same object is never true, as specifications with a parent are copied first."
  },
  {
   "property": "C143",
   "status": "proved",
   "theorems": [
    "C143_named_dataset",
    "C143_named_group",
    "C143_untyped",
    "C143_type",
    "C143_target",
    "C143_none",
    "C143_found",
    "C143_errors",
    "C143_link",
    "C143_dataset",
    "C143_name_refuted",
    "C143_kind_refuted",
    "C143_one_refuted"
   ],
   "note": "Refuted variants, with witnesses: a given specification with a name has that of the builder (C143_name_refuted), a dataset gets no specification of a group (C143_kind_refuted), what is given is one specification (C143_one_refuted: a list). The hierarchy is a parameter (area SpecCat)."
  },
  {
   "property": "C144",
   "status": "proved",
   "theorems": [
    "C144_key",
    "C144_live",
    "C144_written",
    "C144_exact",
    "C144_keys",
    "C144_wrong",
    "C144_reuse_refuted"
   ],
   "note": "Refuted variant, with witness: a builder that exists and was not written does not count as written (C144_reuse_refuted). Addresses are given out by a parameter of the operations; an address in use is never given out."
  },
  {
   "property": "C145",
   "status": "proved",
   "theorems": [
    "C145_closed",
    "C145_others",
    "C145_once",
    "C145_kept",
    "C145_leak",
    "C145_twice",
    "C145_reopen",
    "C145_open",
    "C145_again_refuted",
    "C145_unset",
    "C145_borrowed_refuted",
    "C145_late_refuted"
   ],
   "note": "Refuted variants, with witness: an HDF5IO can be opened again after close (C145_again_refuted); a file the user had open stays open (C145_borrowed_refuted); closing twice without close_links closes the linked files (C145_late_refuted)."
  },
  {
   "property": "C146",
   "status": "proved",
   "theorems": [
    "C146_fresh",
    "C146_old",
    "C146_plain",
    "C146_twice",
    "C146_distinct",
    "C146_memo_refuted"
   ],
   "note": "Refuted variant, with witness: the inverted dataset is remembered (C146_memo_refuted): hasattr is asked for the name before mangling, so the memo is written and never read."
  }
 ]
}