"""Status and notes of the claims (used by manifest.py)."""
NOTES = {
 'C01': ('proved', 'For list-backed columns (offsets in a list or ndarray) with fewer than 2^64 elements. Refuted variants: index -n raises IndexError; an empty index list raises; 1-D ndarray targets and h5py-backed indexes do not keep the claim (witnesses).'),
 'C02': ('proved', 'Any number of index levels; list-backed target.'),
 'C03': ('proved', 'Any depth; too shallow rows are rejected.'),
 'C04': ('proved', ''),
 'C05': ('proved', 'Round trip for every accepted call and an exact acceptance condition. The rejection of too deep data only looks at the first flat element (C05_too_deep_refuted).'),
 'C06': ('proved', 'Histories of add_row/add_column on list-backed tables with plain and ragged columns, failing calls included. Refuted: a row with a None or too shallow cell raises after the id and some columns were extended; explicit offsets are not validated.'),
 'C07': ('proved', 'Refuted variants: the empty row list on a table with a ragged column raises IndexError; a list of Python bools is not a mask on list-backed columns.'),
 'C08': ('proved', 'Without enforce_unique_id duplicates are possible (refuted variant).'),
 'C09': ('proved', 'Exact acceptance condition. Refuted: a rejected call may already have added optional columns.'),
 'C10': ('proved', ''),
 'C11': ('proved', 'Refuted variants: empty selection over a target with a ragged column raises; the stored numbers are never checked against the target.'),
 'C12': ('proved', 'Up to 2^32 terms (above that the integer type does not exist). Reading a list of rows raises TypeError when the codes are a list.'),
 'C13': ('proved', 'Distinct starting tables; refuted when a starting table is repeated.'),
 'C14': ('proved', 'Refuted variants: with distinct objects that compare equal, reset_parent drops the wrong child; a Data object as parent never lists its children; parent cycles are not prevented.'),
 'C15': ('proved', ''),
 'C16': ('proved', 'Refuted: an assignment that raises may still have set the field (plain value in a child field).'),
 'C55': ('proved', 'Descendants forming a finite tree.'),
 'C17': ('proved', 'Refuted variants: keys containing "==" are stored but not retrievable; deleting with such a key hands the wrong object to the callback; an expression cannot be used to delete.'),
 'C18': ('proved', 'Refuted: a rejected duplicate has already become a child of the container.'),
 'C19': ('proved', 'Refuted variants: f(10, a=5) binds b=10 when both have defaults; with allow_extra a positional value can be dropped and a function without parameters drops extra keywords; a required parameter with a declared shape is bound to the attribute that has the shape, an optional one to the object passed.'),
 'C20': ('proved', 'Attribute chains longer than the fuel are excluded. Refuted: None is refused for a required parameter of any type.'),
 'C21': ('proved', 'Refuted variants: extents beyond an empty axis are lost; a list of zero-dimensional arrays raises TypeError; the keys of a mapping inside a list count as an axis.'),
 'C22': ('proved', 'Refuted: at depth three and for rows mixed with scalars non-rectangular data is reported as not ragged.'),
 'C56': ('proved', 'Refuted for shapes without axes (ValueError). The NUM_DIMS_ERROR branch of the code is unreachable.'),
 'C23': ('proved', ''),
 'C24': ('proved', 'The floating point n-th root is a parameter assumed not to exceed the true root and to be positive for positive arguments (the exact root is shown to satisfy this). Refuted: an item larger than the chunk limit yields a zero chunk extent and an AssertionError.'),
 'C25': ('proved', 'Elements are those along the iteration axis 0. Refuted variants: trailing gaps are not represented; a buffer size of zero delivers nothing.'),
 'C26': ('proved', 'Refuted variants: an iterator queued for two datasets is split between them; two iterators for one dataset depend on the schedule.'),
 'C27': ('proved', 'Refuted: a wrapper with dtype and shape but no data has a length.'),
 'C28': ('proved', 'Refuted variants: a rejected registration replaces the recorded parent type; a query made before an ancestor is registered is cached and stays short; cyclic includes are accepted and the hierarchy loop never ends; a copied catalog loses the parents; a type that includes itself is missing from the full hierarchy.'),
 'C29': ('proved', 'The build of the properties of one spec (dims, shape, value, quantity) is an opaque body; dictionaries by name are derived from the ordered child lists. Refuted variants: a simple dtype omitted in the extension is not inherited; column refinement compares first letters only (int to isodatetime, bool to bytes); inherited unnamed types are reported as overridden; two datasets of one name are accepted and the inherited one is not the one found by name; one name may be both a group and a dataset.'),
 'C30': ('proved', 'Refuted variants: a failed load cannot be retried (its sources stay marked as loaded); two namespaces with equally named source files cannot be loaded into one catalog; selecting some types of a source file raises TypeError.'),
 'C57': ('proved', 'The children of a spec are given by functions (types used, nested definitions) over which the theorems quantify. Refuted variants: a schema naming a namespace twice reports only the types of the last entry; a recursive type definition makes the inclusion run forever.'),
 'C31': ('proved', 'Names without a slash and not empty. Refuted variants: the builder found is always the one set last (an equal one stays and the new one gets no parent); any name can be looked up (names with a slash or the empty name are stored and not found).'),
 'C32': ('proved', "Refuted variant: any history (a builder that already had another parent stays without a source below a group that has one). Recursion deeper than Python's limit is an error value and excluded where stated."),
 'C33': ('proved', 'The object mapper is modelled by what it does to the manager: fields with sub-containers, links and references (Manager/Model.v). Refuted variants: prebuilt twice for one container breaks the correspondence and purge_outdated raises AttributeError; so does a build without a source of a container whose child from a file links back to it; a failed build leaves queued references that make the next build fail. Proxy.resolve raises TypeError when nothing matches.'),
 'C58': ('proved', 'Fields are processed in order; the builder of a rebuilt container is not covered (append mode).'),
 'C34': ('proved', "How numpy casts single elements, decoding and encoding are parameters. Refuted variants: the dtype reported for a list is that of its last element and may be narrower than another element's; 'numeric' specs check only the first element; text for a numeric spec is passed to numpy with a warning. The spec dtype 'date' cannot be converted to; no value with no dtype is a KeyError."),
 'C35': ('proved', "Refuted variants: long doubles and, for 'numeric', half-precision floats are written and then refused; spec dtype 'datetime' never accepts the text written for it (part of C35_written); columns after an isodatetime column are not checked; existing h5py datasets are not converted; an unconverted Python float is refused for 'double'."),
 'C36': ('proved', 'Full for non-empty shape lists. C36_empty_refuted: an empty list (as the shape or as an alternative) raises IndexError; C36_mixed_refuted: a list of alternatives that follows a plain axis raises TypeError.'),
 'C37': ('proved', "Both rules are modelled separately and proved equal for every quantity value and every collection of containers. C37_words_refuted: quantity 0 can never be met and 'zero_or_one'/'zero_or_many' are treated as one or more; C37_nested_refuted: nested collections are not counted when building."),
 'C38': ('proved', 'C38_named_refuted: a child carrying the name of an optional sub-spec can be matched to an earlier unnamed sub-spec instead.'),
 'C59': ('proved', 'Builders are finite trees (a link carries its target). What get_type and get_data_shape return is part of the builder (modelled in Dtype and Shape). C59_complete_refuted: with ambiguous sub-specs a conforming builder can be reported, depending on the order of children; C59_reported_refuted: a reference dataset holding other data, a wrong quantity of an untyped sub-spec, a group where a dataset is specified, and an unknown data type raise instead of being reported.'),
 'C60': ('proved', 'C60_late_parent_refuted: a type registered before the type it includes is not among its valid types; C60_cycle_refuted: a type including itself raises RecursionError.'),
 'C39': ('proved', 'Proved by an invariant over all histories. Refuted and recorded: a repeated string key duplicates the object-key row; a Key object of another table is accepted and dangles; a call without a key raises after adding rows. Not modelled: the type map (which relative path an attribute has is an input) and the text format of to_zip/from_zip.'),
 'C40': ('proved', "Proved by refinement to the list of facts said. Refuted and recorded: a fresh Key loses its annotation; annotating through another object's Key annotates that object too; get_key can return another key than the one add_ref used; entities can be listed twice; the file of a known object is not recorded."),
 'C61': ('proved', "Proved. pandas' iloc/merge/concat are modelled by index lookup and filtering."),
 'C62': ('proved', 'Proved. Refuted: negative indices are accepted and read from the end. The text format is not modelled.'),
 'C63': ('proved', 'Proved; refuted: two HERDs with different annotations can be accepted as equal.'),
 'C64': ('proved', 'Proved; term sets are functions from terms to entity id and URI.'),
 'C41': ('proved', "Refuted variants: a failing category row (or a category value that is not a dict) misaligns the tables; a call made directly on a category misaligns them; the dict passed to add_row loses its category entries so it cannot be reused; an 'id' inside the dict is ignored; add_category registers a table that belongs to another container and then raises; construction with empty main columns and non-empty categories fills ids but not columns; a category named like the table hides the main table's columns. Pandas concatenation is modelled as a list of rows; columns named id, data, enforce_unique_id, check_ragged are not modelled."),
 'C52': ('proved', 'Proved. Refuted and recorded: data without a shape make building fail with TypeError; alternatives written as tuples are never matched; alternative labels without shapes give lists as labels; a resizable HDF5 dataset does not fit a fixed length; refining the shape without repeating the labels loses them.'),
 'C54': ('proved', 'Proved. C54_inner_refuted: inside a kept inner collection objects of other types stay.'),
 'C65': ('proved', 'Proved by induction over the conformance of the tree. Each condition is shown necessary by a refuted variant: a named child of another name is lost; of two children with one name only the last survives; a child accepted by two unnamed sub-specs becomes a value of both; an unnamed link to a subtype is lost; an unset named link takes the value of another link to the same type; mixed owned/linked lists are reordered; attributes of an absent untyped dataset are lost; an untyped dataset named like a typed child loses its data; an empty list reads back as nothing; a missing value reads back as the default. Data conversion is a parameter; override functions, datasets of references and compound datasets are not modelled; links refer to objects built elsewhere (Manager).'),
 'C66': ('proved', 'Proved.'),
 'C67': ('proved', "Proved. C67_clash_refuted: derived names can clash ('ABTest' and 'AbTest'), and then the earlier sub-spec is mapped to nothing."),
 'C68': ('proved', 'Proved.'),
 'C46': ('proved', 'Proved by induction over the calls. Refuted without the restrictions: extending an array of length one by a string stores it unchecked; delegated list methods (insert) are not checked; an iterator is used up by the validation and its values are lost; extending a 1-d array stacks it to two dimensions; a listed term with an undeclared prefix is refused and one whose meaning has no colon raises IndexError.'),
 'C51': ('proved', "Proved by induction over the operations. C51_partial_merge_refuted: a file without 'data_types' is merged in part before KeyError. C51_empty_refuted: after an empty file the next one is not recorded and can be loaded twice."),
 'C69': ('proved', 'Proved. C69_directory_refuted: the term set paths in later configuration files are resolved beside the first file loaded.'),
 'C48': ('proved', 'Proved (elements are integers). Refuted: a range without elements selects the next element; neighbouring matches of a list are lost, an empty list raises IndexError and a missing value TypeError; a value below the start of a LinSpace; == with a value beyond the end of a LinSpace gives an element that is not there.'),
 'C47': ('proved', "Names of pandas columns only; the data frame's values are in C70."),
 'C49': ('proved', 'Refuted variant: data with tuples sorted directly turn into generators (C49_tuple_refuted). YAML text itself is not modelled.'),
 'C50': ('proved', 'Refuted variants: one-index lists expose the bare element, an empty list is refused, and a dataset changed between construction and first access makes len and values disagree.'),
 'C70': ('proved', "Refuted variants: a row in the middle without references makes the conversion raise KeyError, and rows sharing an id are mixed up. Pandas' concat and reindexing are modelled on lists of rows."),
 'C71': ('proved', 'Refuted variants: a title given for a source is replaced by its doc (write.py:159), and a source that was only documented makes export raise KeyError after other files were written. Specs and SpecCatalog.auto_register are parameters.'),
 'C43': ('proved', "Full for order_deps/order_aux and load_order. Python's recursion limit is not modelled."),
 'C44': ('proved', 'The unrestricted reading (newest release) is refuted: C44_newest_refuted (1.9.0 is used rather than 1.10.0), C44_prerelease_refuted (1.0.0-alpha rather than 1.0.0).'),
 'C45': ('proved', 'Refuted: attributes holding a list of containers are never written (C45_list_refuted), a chain of three dependent calls fails though it could be completed (C45_chain_refuted), calls left by a failed write are made in the next one (C45_leftover_refuted).'),
 'C53': ('proved', 'Refuted: read() of a closed file returns nothing without raising (C53_closed_read_refuted), open() does not reopen, an empty file read before a write still reads as empty (C53_stale_refuted). HDF5 opening behaviour is an assumption of the model.'),
 'C42': ('proved', "Refuted variants: two links with targets of the same last name, scalar references to groups (AttributeError) and to datasets (a second builder), a group or dataset named 'specifications', links to what is not in the file (left out silently). Cyclic links or references recurse without end (C42_cyclic)."),
 'C72': ('proved', "Refuted as theorems: self-dependent types and undeclared field types. The specification catalogue is abstract (specification, dependencies in the order they are checked, type hierarchy); 'can be ordered' is a rank that every dependency and every base type lowers. Class generation itself is reduced to choice of base, field classes and registration."),
 'C73': ('proved', 'Classes registered by hand must already inherit as their types do. Wrong field class refuted as theorem.'),
 'C74': ('proved', 'Late mapper registration, shared mappers, differing attributes and placeholders among the classes are refuted variants.'),
 'C75': ('proved', 'Changed data type, changed attributes and failing copy are refuted variants. Deep copies are not modelled.'),
 'C76': ('proved', 'Theories/ClassGen. C76_fixed_refuted: a field the type fixes stays a required parameter if the parent takes it.'),
 'C77': ('proved', 'Theories/ClassGen. What docval accepts for a type is a parameter. Refuted variants: a passed value is silently replaced by the fixed one (C77_passed_refuted); a parameter made optional by an override cannot be left out (C77_omitted_refuted); the fixed name of a derived type is ignored below a fixed name (C77_name_refuted).'),
 'C78': ('proved', "Theories/ClassGen. Refuted variants: a collection added below a generated parent without collections loses the parent's fields (C78_fields_refuted); a class without own fields keeps the names only (C78_settings_refuted)."),
 'C79': ('proved', 'Theories/SpecDict. Equality is that of python dictionaries: the order of keys may change (an attribute with a default value, see C79_attribute_nonvacuous). Included specifications are given by name.'),
 'C80': ('proved', 'Theories/SpecDict. Findings: a compound type in a compound type is always refused (C80_nested_compound); a named group may have quantity 5 (C80_named_once_refuted).'),
 'C81': ('proved', 'Theories/SpecDict. Refuted variant: a default name beside a name is dropped (C81_default_name_kept_refuted).'),
 'C82': ('proved', "Theories/SpecCache, over the specs of SpecRes. Findings (refuted without the conditions): an own attribute named like an inherited dataset is lost (C82_attribute_refuted), refinements of unnamed many-types and unnamed links are lost (C82_many_refuted, C82_link_refuted), an unnamed link to a type held unnamed by the base is lost (C82_link_type_refuted), an attribute is lost when an inherited group carries the type's own name (C82_self_name_refuted); an inherited unnamed type that exists once is written too (C82_minimal_type_refuted)."),
 'C83': ('proved', 'Theories/SpecCopy, over the dictionaries of SpecDict. Finding: a fixed value or default value of a dataset type is lost in the cache (C83_value_refuted).'),
 'C84': ('proved', 'Theories/H5link. Refuted: a link to a root group read from a file leads to /root (C84_root_refuted); a name with a backslash is split (C84_backslash_refuted).'),
 'C85': ('proved', 'Theories/H5link. Refuted without the exception: data exported into another group is lost when its old path is not exported (C85_moved_refuted). Attributes of linked data are not written.'),
 'C86': ('proved', 'Theories/H5link. Refuted for links to external links: the path is looked up in the last file, which fails or gives another object (C86_chain_refuted, C86_wrong_refuted).'),
 'C87': ('proved', "Theories/H5data. Refuted: dates are built as bytes but are columns of text (C87_dates_refuted); a 'numeric' or 'date' column becomes float64 (C87_numeric_refuted); array columns shift the following types (C87_shift_refuted); half precision and, before numpy 2, booleans become float64 on export (C87_half_refuted, C87_bool_refuted)."),
 'C88': ('proved', 'Theories/H5data. Refuted: region references read as builders raise KeyError (C88_builders_refuted); a missing object is written but cannot be read (C88_null_refuted).'),
 'C89': ('proved', 'Theories/H5data. Refuted: mixed lists are stored in the type of the first element (C89_mixed_refuted); text without elements on a later axis cannot be read (C89_empty_text_refuted); one byte string is read as text (C89_bytes_refuted).'),
 'C90': ('proved', 'Theories/H5opts. Refuted: H5DataIO() and shape=() raise InvalidDataIOError (C90_empty_refuted, C90_scalar_refuted); a type given by name is declared and always refused (C90_name_refuted); the options of gzip given by its number are not checked (C90_number_refuted).'),
 'C91': ('proved', 'Theories/H5opts. Refuted for the type of later datasets of a chunk iterator: it is that of the first (C91_type_refuted).'),
 'C92': ('proved', 'Theories/Frame. Refuted: index levels are not kept (a ragged column of equal lengths comes back plain, two levels come back as one: C92_depth_refuted), bytes of different lengths come back as lists of integers (C92_bytes_refuted), a table without rows does not come back (C92_empty_refuted).'),
 'C93': ('proved', 'Theories/Columns. Refuted: the name of an inner index gives the outer one if that comes first (C93_inner_refuted); the order matters if an index is named like an attribute of the table (C93_attribute_refuted) or if values come from a chunk iterator (C93_iterator_refuted); the copy of a table whose enumerations share elements cannot be copied (C93_shared_refuted); a ragged enumeration loses its index or its elements with colnames (C93_ragged_enum_refuted).'),
 'C94': ('proved', 'Theories/Refs. Refuted: nested lists of containers are no references (C94_nested_refuted); None before the first container (C94_none_refuted); None in a typed dataset raises, in an untyped one not (C94_typed_none_refuted); a reference column cannot refer to a Data object (C94_column_refuted); a list of containers is accepted for a reference attribute and then raises TypeError (C94_list_refuted).'),
 'C95': ('proved', 'Theories/Refs. Refuted: after an error a later unrelated build fails (C95_later_refuted) and a dataset stays without data though later builds succeed (C95_lost_refuted).'),
 'C96': ('proved', 'Theories/Refs. Refuted: changed data of a built container are written (C96_changed_refuted).'),
 'C97': ('proved', 'Refuted: different sources keep different names when what was loaded from a file is cached again (C97_name_again_refuted); sources in directories, hidden sources and namespace.yaml can be cached (C97_directory_refuted, C97_hidden_refuted, C97_namespace_source_refuted).'),
 'C98': ('proved', 'Refuted without the assumptions: a namespace including selected types gets all of them (C98_selection_refuted) or cannot be loaded (C98_shadowed_refuted); sources differing in extension only cannot be loaded (C98_extensions_refuted); caching what was loaded from a file may give a file that cannot be loaded (C98_twice_refuted). What __copy_spec makes of one spec is the parameter cp (C82, C83).'),
 'C99': ('proved', 'Refuted: a failing append leaves the data alone (C99_failure_grows_refuted); the same elements make every kind of data grow alike (C99_same_elements_refuted); what is stored is what was given (C99_stores_given_refuted). Extending 1-D arrays, extending by nothing and extending datasets of references: C99_vector, C99_nothing, C99_references. Structured and Zarr arrays are left out.'),
 'C100': ('proved', 'Refuted for data that share a list (C100_shared_refuted; an array is not shared, C100_array_detached); ElementIdentifiers check only the first of the new identifiers (C100_identifiers_refuted).'),
 'C101': ('proved', 'Refuted variants, with witnesses: the fields of all bases are inherited (C101_other_base_refuted); the configuration of a field is that of its property (C101_settings_refuted). C101_plain_subclass shows that a subclass without declaration loses the settings of all its fields in get_fields_conf.'),
 'C102': ('proved', 'Refuted variants, with witnesses: the object for a negative position is the row that is there now (C102_negative_refuted: it is the row that was there at the first request); a row object holds what its table has at its position whatever was assigned to it (C102_claims_refuted). C102_subclass and C102_lonely are universal negative results.'),
 'C103': ('proved', 'Refuted variants, with witnesses: columns that are not in the class are ignored with extra_ok=True (C103_extra_refuted; C103_extra_ok proves the argument has no effect); every table survives a data frame (C103_integers_refuted: integers beside floats become floats).'),
 'C104': ('proved', 'Refuted variants, with witnesses: a method the class defines is kept (C104_own_method_refuted); the subclass inherits the constructor (C104_constructor_refuted); every class can be used (C104_usable_refuted); the property uses the add method the class asked for (C104_setter_refuted).'),
 'C105': ('proved', 'Refuted variants, with witnesses: everything in a dictionary has the declared type (C105_type_refuted); a list of types works (C105_types_refuted); a class with the same attribute twice works (C105_twice_refuted); the attribute is what was assigned (C105_assign_refuted).'),
 'C106': ('proved', 'Refuted variant, with a witness: a change made before reading the file again is written afterwards (C106_change_refuted).'),
 'C107': ('proved', 'Refuted variants, with witnesses: a failing write leaves no external resources behind (C107_resources_refuted); a container from another file is always refused (C107_source_refuted).'),
 'C108': ('proved', 'Refuted variants, with witnesses: an export without container has the same contents with and without clearing the cache (C108_change_refuted); a container read again after an export is exported with its children (C108_children_refuted).'),
 'C110': ('proved', 'Refuted variants, with witnesses: all_objects has all objects (C110_added_refuted) under their ids (C110_key_refuted); after a failure it fails again (C110_failure_refuted).'),
 'C112': ('proved', 'Refuted variants, with witnesses: a failed declaration leaves the dicts alone (C112_untouched_refuted); enums of text types or with None (C112_enum_refuted); new macros do not matter (C112_new_macro_refuted); get_docval gives a copy (C112_copy_refuted).'),
 'C113': ('proved', 'Refuted variants, with witnesses: a missing parameter is always an error (C113_missing_refuted); None is passed on (C113_none_refuted); again with shapes (C113_again_refuted). C113_positional: functions that refuse positional arguments can not be called this way.'),
 'C114': ('proved', 'Refuted variants, with witnesses: untyped groups in between (C114_ambiguous_refuted); fields with the top of another file (C114_root_refuted). Cases in which the proxy stays for ever: C114_other_class, C114_untyped.'),
 'C115': ('proved', 'Refuted variants, with witnesses: the columns of the other bases are lost (C115_lost_refuted); a class below a diamond has columns twice (C115_twice_refuted).'),
 'C116': ('proved', 'Refuted variants, with witnesses: a refused target leaves the columns alone (C116_alone_refuted); a required field whose name ends with _index but that is no index becomes a column (C116_index_refuted). Regions below two indices never get a target (C116_nested).'),
 'C117': ('proved', 'The object heap, the kinds of values and the tolerance of numpy (rtol 1e-7, exact rationals instead of floats) are modelled; see C118 for what is not compared.'),
 'C118': ('proved', 'Refuted variants, with witnesses: data of a Data given directly is compared (C118_data_refuted); integer arrays that pass are the same (C118_ints_refuted); the order of the two does not matter (C118_symmetric_refuted); text passes against text only (C118_chars_refuted).'),
 'C119': ('proved', 'Refuted variants, with witnesses: overrides of all bases are called (C119_lost_refuted); redefining the method in a subclass changes what is called (C119_method_refuted).'),
 'C120': ('proved', 'The conversion of text and the filter by type are parameters. Refuted variant, with witness: an override can leave an attribute out by giving None (C120_none_refuted).'),
 'C121': ('proved', 'Refuted variants, with witnesses: the access code that gives a value is on the page (C121_code_refuted); the text of a page tells the number of its fields, as text is not escaped (C121_escape_refuted).'),
 'C122': ('proved', 'str of numpy arrays is a parameter. Refuted variant, with witness: containers with the same text have fields of the same names (C122_same_refuted).'),
 'C123': ('proved', 'Refuted variant, with witness: a table is read with its columns in the order it was written with (C123_order_refuted; false for tables without rows).'),
 'C124': ('proved', 'Refuted variants, with witnesses: a query for a value that a sorted array does not have gives no elements (C124_absent_refuted; TypeError); a query compared with a query uses its result (C124_operand_refuted).'),
 'C125': ('proved', 'Refuted variants, with witnesses: indexing with a query gives the current elements that satisfy it (C125_current_refuted); the collapsed result of a query is that of its expanded result (C125_two_refuted).'),
 'C126': ('proved', 'Refuted variant, with a witness: ids != i is false for an id that the table has (C126_unequal_refuted: the first one).'),
 'C127': ('proved', 'Refuted variant, with a witness: equal tables have columns of the same kind and ids of the same name (C127_structure_refuted). The comparison of dtypes and cells by pandas is a parameter.'),
 'C128': ('proved', 'Refuted variants, with witnesses: any list of natural numbers is accepted (C128_empty_refuted: not the empty one, so a matrix of zeros cannot be given by lists, C128_zeros_refuted); columns are within the shape (C128_bounds_refuted); pointers do not go back (C128_order_refuted); all data given is kept (C128_surplus_refuted). What scipy checks is modelled from its documentation.'),
 'C129': ('proved', 'Refuted variant, with a witness: a matrix is read with index arrays of the item size they were written with (C129_width_refuted).'),
 'C130': ('proved', 'Refuted variant, with a witness: bytes are read as bytes (C130_bytes_refuted: not those in a list). What h5py makes of a list that begins with a string and goes on with something else is a parameter, excluded by the hypothesis plain.'),
 'C131': ('proved', 'Refuted variant, with a witness: after an error the queue is empty (C131_empty_refuted). C131_only and C131_error are for queues without lists that begin with a container, which C130_containers shows are only queued together with an error.'),
 'C132': ('proved', 'Refuted variants, with witnesses: NumSampleCounter can be made (C132_made_refuted); a loop over a processor counts (C132_loop_refuted); the number of values is counted along any axis (C132_exact_refuted). Errors of the iterable while it is read are left out.'),
 'C133': ('proved', 'Refuted variants, with witnesses: errors with different names and places are different (C133_place_refuted), placed errors that are not alike are different (C133_equal_refuted), reasons tell the arguments of a class apart (C133_arguments_refuted). The hash of strings is a parameter.'),
 'C134': ('proved', 'Refuted variant, with a witness: different builders have different places (C134_place_refuted: not below builders called root).'),
 'C135': ('proved', 'Refuted variants, with witnesses: all elements are read back (C135_kept_refuted: links are lost), the order stays (C135_order_refuted), types outside of Data and Container come back (C135_types_refuted).'),
 'C136': ('proved', 'Refuted variant, with a witness: the spec of a column gets the column (C136_column_refuted: not behind two indices). Conversion of texts is left out.'),
 'C137': ('proved', 'Refuted variants, with witnesses: there is at most one wrapper (C137_once_refuted), all given options are used (C137_options_refuted). Whether options suit a class is a parameter.'),
 'C138': ('proved', 'Refuted variants, with witnesses: merging keeps the generator used for a field (C138_kept_refuted), get_type_map leaves the type map it is given as it is (C138_same_refuted). What the generators do to a field is area ClassGen and Predef.'),
 'C139': ('proved', 'Refuted variants, with witnesses: a configuration is shared across all type maps, as the docstring says (C139_everywhere_refuted), a given type map comes back with the core types (C139_core_refuted), type maps in a list are included (C139_included_refuted: KeyError for other namespaces). Dependent types of included types and generated classes are left out.'),
 'C140': ('proved', 'Refuted variants, with witnesses: popargs leaves the dictionary as it was on an error (C140_atomic_refuted), popargs succeeds whenever getargs does (C140_twice_refuted). Keys are texts.'),
 'C141': ('proved', 'Refuted variants, with witnesses: functions of the bases always run (C141_inherited_refuted), each function runs once (C141_once_refuted), those of the bases run before those of the class (C141_bases_refuted). Functions only set attributes; deleting attributes is left out.'),
 'C142': ('proved', 'Refuted variants, with witnesses: all specifications of a type are given for it (C142_all_refuted), every group of the list is found by its name (C142_shadow_refuted). The test for the same object is never true, as specifications with a parent are copied first.'),
 'C143': ('proved', 'Refuted variants, with witnesses: a given specification with a name has that of the builder (C143_name_refuted), a dataset gets no specification of a group (C143_kind_refuted), what is given is one specification (C143_one_refuted: a list). The hierarchy is a parameter (area SpecCat).'),
 'C144': ('proved', 'Refuted variant, with witness: a builder that exists and was not written does not count as written (C144_reuse_refuted). Addresses are given out by a parameter of the operations; an address in use is never given out.'),
 'C145': ('proved', 'Refuted variants, with witness: an HDF5IO can be opened again after close (C145_again_refuted); a file the user had open stays open (C145_borrowed_refuted); closing twice without close_links closes the linked files (C145_late_refuted).'),
 'C146': ('proved', 'Refuted variant, with witness: the inverted dataset is remembered (C146_memo_refuted): hasattr is asked for the name before mangling, so the memo is written and never read.'),
}
