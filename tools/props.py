#!/usr/bin/env python3
"""Source of /verif/properties.jsonl (run: python3 tools/props.py > properties.jsonl)."""
import json
P = []
def p(id, title, statement, quantifier, why, *anchors):
    P.append(dict(id=id, title=title, statement=statement, quantifier=quantifier,
                  why_tests_cant=why, anchors=list(anchors)))

T = "src/hdmf/common/table.py"; C = "src/hdmf/container.py"; U = "src/hdmf/utils.py"
D = "src/hdmf/data_utils.py"; SP = "src/hdmf/spec/spec.py"; B = "src/hdmf/build/builders.py"
M = "src/hdmf/build/manager.py"; O = "src/hdmf/build/objectmapper.py"; V = "src/hdmf/validate/validator.py"
R = "src/hdmf/common/resources.py"; A = "src/hdmf/common/alignedtable.py"
H = "src/hdmf/backends/hdf5/h5tools.py"; HU = "src/hdmf/backends/hdf5/h5_utils.py"

p("C01", "Ragged column returns exactly the vectors that were added",
  "After any sequence of add_vector/add_row calls on a VectorIndex over a column held in memory as a list, indexing the VectorIndex with i returns exactly the i-th vector that was added, slicing/iterating it returns the vectors of those rows in order, and vectors added later never change what an earlier row reads; an index past the end is an IndexError.",
  "every initial content, every sequence of vectors of every length (including empty ones), every row index, slice and boolean mask",
  "Offsets accumulate over an unbounded history; a test samples a few lengths and cannot exclude an off-by-one for some mix of empty and non-empty vectors.",
  f"{T}: VectorIndex.add_vector, VectorIndex.add_row, VectorIndex.get, VectorIndex.__getitem_helper")
p("C02", "Ragged offsets are monotone and cover the target exactly",
  "Under any history of row additions the offsets of a VectorIndex are non-decreasing and the last one equals the length of the target, so the rows partition the target: concatenating all rows gives the target back.",
  "every sequence of additions, starting from an empty or a well-formed index",
  "Invariant over all histories, needed by every reader of the file format.",
  f"{T}: VectorIndex.add_vector, VectorIndex.__init__")
p("C03", "Doubly (n-fold) ragged columns round-trip",
  "For a column with any number of stacked VectorIndex levels, adding nested rows and reading row i back yields the nested list that was added.",
  "every nesting depth k, every sequence of nested rows of that depth",
  "Depth is unbounded; tests use depth 1 to 3.",
  f"{T}: VectorIndex.add_vector, VectorIndex.get, DynamicTable.add_row")
p("C04", "Ragged offsets never overflow their integer type",
  "Whatever is added, every offset stored in a VectorIndex fits in the unsigned integer type the index currently uses, widening the type preserves every stored offset, the type only grows, and the only failure is a target of 2**64 elements or more.",
  "every sequence of target lengths",
  "The type change happens at 2**8, 2**16, 2**32 elements: tests cannot build all the boundary histories.",
  f"{T}: VectorIndex.__check_precision, VectorIndex.__adjust_precision, VectorIndex.__uint")
p("C05", "add_column with nested data and index=k rebuilds the nested data",
  "add_column(data=nested, index=k) stores a flat target and k index columns such that reading any row yields the nested element that was passed, for every k for which the call succeeds; the call succeeds exactly when the data is nested at least k deep and its first flattened element is not itself a list.",
  "every nested list, every index depth",
  "The flatten/cumulative-sum loop runs once per level on data of arbitrary shape.",
  f"{T}: DynamicTable.add_column")
p("C06", "Tables stay rectangular",
  "After any history of add_row/add_column calls that succeeded, every column of a DynamicTable has exactly as many rows as the table has ids. A call that raises because of wrong keys, a wrong or duplicate id, a wrong length or unflattenable data leaves the table rectangular too (a row with an unstorable cell does not: see the refuted variant).",
  "every history of add_row/add_column with arbitrary column sets and values, including failing calls",
  "History-quantified invariant, including what a failing call in the middle leaves behind.",
  f"{T}: DynamicTable.add_row, DynamicTable.add_column, DynamicTable.__len__")
p("C07", "Row reads return the row that was added",
  "Reading row i of a DynamicTable returns, for each column, exactly the value given for that column in the i-th add_row, and adding further rows or columns does not change it; a list or slice of rows reads those rows one by one, in order.",
  "every history of additions, every row and column, plain and ragged columns",
  "Needs every interleaving of row and column additions.",
  f"{T}: DynamicTable.add_row, DynamicTable.get, DynamicTable.add_column")
p("C08", "Row ids: automatic numbering and uniqueness",
  "Rows added without an id get the current row count as id, so a table filled that way has ids 0..n-1; with enforce_unique_id=True on every call a table never contains two equal ids and a duplicate id is rejected without changing the table.",
  "every mix of explicit and automatic ids over every history",
  "A clash between an explicit id and a later automatic one appears only for particular histories.",
  f"{T}: DynamicTable.add_row, ElementIdentifiers.__eq__, DynamicTable.__init__")
p("C09", "add_row accepts exactly the rows that match the columns",
  "add_row succeeds exactly when every column has a key, every key is a column or a predefined optional column (given a value only with the first row), the id is admissible and every cell can be stored in its column; when keys or id are wrong it raises, no row is added and no cell changes.",
  "every column set and every row dictionary",
  "Set equality over arbitrary names, including keys such as 'id'.",
  f"{T}: DynamicTable.add_row")
p("C10", "create_region rejects out-of-range rows and keeps the others",
  "create_region(list) raises IndexError exactly when a requested row does not exist; create_region(slice) raises IndexError exactly when its start is negative or its stop is beyond the table; otherwise the region denotes exactly the requested rows in order, and all of them exist.",
  "every table length, every slice (start, stop, step incl. negative) and every list of indices",
  "Boundary conditions on slices with every sign combination.",
  f"{T}: DynamicTable.create_region")
p("C11", "DynamicTableRegion reads are pointwise look-ups",
  "Reading a DynamicTableRegion with an int, list or slice returns, position by position, the rows of the target table at the stored indices (duplicates and order kept), and asking for a position past the end raises IndexError. (An empty selection needs a target without ragged columns.)",
  "every region content with duplicates in any order, every target table, every selector",
  "The implementation reads the unique sorted rows and re-expands them; correctness must hold for every duplicate pattern.",
  f"{T}: DynamicTableRegion.get, DynamicTableRegion._index_lol")
p("C12", "EnumData stores and returns the terms that were added",
  "For any sequence of terms added by value, reading row i returns the i-th term, each distinct term is stored once, and the stored codes always refer to an existing term and fit the integer type, up to 2**32 terms.",
  "every sequence of terms",
  "Dictionary of terms grows with the history and its integer type is recomputed.",
  f"{T}: EnumData.add_row, EnumData.__add_term, EnumData.get, EnumData._get_helper, _uint_precision")
p("C13", "Linked tables are all found, once, even with cycles",
  "get_linked_tables on any graph of tables (cyclic or not) terminates and lists exactly the region columns of every table reachable from the distinct starting tables, each once; it raises AttributeError exactly when a reachable region column has no target.",
  "every finite directed graph of tables",
  "Reachability on arbitrary graphs, including cycles and shared targets.",
  f"{T}: DynamicTable.get_linked_tables, DynamicTable.get_foreign_columns")
p("C14", "Parent and children stay consistent",
  "After any sequence of parent assignments, add_child, removals and reset_parent calls, an object is listed among the children of a Container exactly when its parent attribute is that container, it is listed once, it has at most one parent, and an attempt to re-parent an object that already has a parent raises ValueError and changes nothing (for objects that compare equal only to themselves).",
  "every sequence of operations over any set of containers",
  "Consistency of two mutually redundant structures over unbounded histories.",
  f"{C}: AbstractContainer.parent, AbstractContainer.add_child, AbstractContainer._remove_child, AbstractContainer.reset_parent")
p("C15", "Modified flags reach every ancestor",
  "After set_modified on a container whose ancestor chain is shorter than the recursion limit every Container ancestor reports modified, no other flag changes, and an unmodified ancestor implies an unmodified subtree after every history in which the flag is only cleared bottom-up.",
  "every container forest and every operation sequence",
  "Depth of the ancestor chain and histories are unbounded.",
  f"{C}: AbstractContainer.set_modified, AbstractContainer.modified, AbstractContainer.parent")
p("C16", "Container fields are write-once",
  "A field set through the generated setter never changes afterwards: the first non-None assignment with an acceptable name wins, assigning None is ignored, and a later assignment raises leaving the value (AttributeError when the field is settable and has no required name).",
  "every sequence of assignments to any fields",
  "History property.",
  f"{C}: AbstractContainer._setter, Container._setter")
p("C17", "LabelledDict keys always agree with the objects' labels",
  "After any sequence of adds, assignments, deletions and pops each value is stored once under the value of its key attribute; lookup by a text without '==' returns the value stored under it; the expression lookup 'attr == value' (any white space) returns exactly the values whose attribute equals it, and a text with several '==' is a ValueError; failing operations change nothing; and every added value is either still stored or was handed to the removal callback exactly once (deletions with plain keys).",
  "every sequence of operations, every key and attribute text",
  "Keys are arbitrary text, including text that looks like an expression.",
  f"{U}: LabelledDict.__getitem__, LabelledDict.__setitem__, LabelledDict.add, LabelledDict.__delitem__")
p("C18", "Adding to a multi-container keeps names unique and never loses an object",
  "After any sequence of add_X calls the container holds each successfully added object under its name until it is removed, names are unique, a rejected duplicate leaves all dictionaries as they were, and parents and children stay consistent.",
  "every sequence of adds of any objects",
  "Atomicity of the failing path over all states.",
  f"{C}: MultiContainerInterface.__make_add, MultiContainerInterface.__make_getitem")
p("C19", "docval binds every parameter as declared",
  "When a docval-decorated call without allow_extra succeeds, every declared parameter is bound exactly once, in order: a required one to its keyword value, else to the positional value with its number; an optional one to its keyword value, else to the next positional value not used yet, else to its default. The value (for a required parameter with a declared shape, the attribute the shape was found on) passes the declared type, shape and enum checks, and no value passed by the caller is lost.",
  "every signature, every argument list and keyword dictionary, every class hierarchy",
  "Positional/keyword mixes over arbitrary signatures: the combination space is unbounded.",
  f"{U}: __parse_args, check_type, __resolve_type, docval, getargs, popargs")
p("C20", "docval rejects ill-formed calls",
  "The calls that run the function are exactly the acceptable ones; TypeError is raised exactly when a required parameter is missing or given twice, a keyword is unknown, there are too many values or a value has a wrong type; any other rejection is ValueError, or SyntaxError for positional values where they are forbidden.",
  "every signature and call",
  "As C19.",
  f"{U}: __parse_args, docval")
p("C21", "get_data_shape is the true shape of rectangular data",
  "For nested sequences that are rectangular with extents (n1,...,nk), get_data_shape returns the extents up to and including the first zero, so (n1,...,nk) if only the last may be zero; with strict_no_data_load containers other than list, tuple and set yield None.",
  "every rectangular nested sequence of every depth and extent",
  "Unbounded nesting.",
  f"{U}: get_data_shape")
p("C22", "is_ragged only reports ragged nested lists",
  "If is_ragged is true for nested lists, they are not rectangular; for a list of rows of scalars is_ragged is true exactly when the rows have different lengths.",
  "every nested list of any depth",
  "Unbounded nesting; the check is recursive and level-wise.",
  f"{U}: is_ragged")
p("C23", "A chunk iterator covers the array exactly once",
  "Iterating a GenericDataChunkIterator yields selections inside the array bounds such that every element of the array is covered by exactly one selection, and the number of chunks equals the announced number of buffers; writing each chunk at its selection reproduces the array.",
  "every rank, every array shape and every buffer shape accepted by the constructor",
  "Rank and extents unbounded; boundary buffers are partial.",
  f"{D}: GenericDataChunkIterator.__init__, GenericDataChunkIterator.__next__")
p("C24", "Automatic chunk and buffer shapes respect their limits",
  "For a non-empty array whose item size does not exceed the requested chunk size, the automatic chunk shape is at least 1 and at most the array extent on every axis and does not exceed the requested chunk size in bytes; the automatic buffer shape is on each axis a multiple of the chunk extent or the full extent and does not exceed the larger of the requested buffer size and one chunk; the constructor accepts these shapes.",
  "every rank, every positive extents, item size and size limits",
  "Integer/real rounding on arbitrary shapes.",
  f"{D}: GenericDataChunkIterator._get_default_chunk_shape, GenericDataChunkIterator._get_default_buffer_shape")
p("C25", "Iterative writing places every element at its position",
  "Consuming a DataChunkIterator over a stream of elements (with None marking gaps) yields chunks whose selections put the i-th element of the stream at position i, in order, with no element lost or duplicated, whatever the buffer size.",
  "every stream, every buffer size of at least one",
  "The chunk boundary logic depends on where the gaps fall relative to the buffer size.",
  f"{D}: DataChunkIterator._read_next_chunk, DataChunkIterator.__next__")
p("C26", "Writing queued iterators loses no chunk, in any interleaving",
  "exhaust_queue terminates, and if iterators and datasets are distinct it writes every chunk of every queued iterator into its own dataset in order, and the final datasets do not depend on whether the iterators are exhausted one at a time or round-robin.",
  "every queue of iterators over distinct datasets with any numbers of chunks",
  "Schedules of unbounded numbers of iterators.",
  f"{HU}: HDF5IODataChunkIteratorQueue.exhaust_queue, HDF5IODataChunkIteratorQueue._write_chunk", f"{D}: DataChunk.get_min_bounds")
p("C27", "DataIO data is set once and forwarded",
  "A DataIO wrapper built without data, dtype and shape accepts data once, then refuses to replace it; append/extend, len and reads act on the wrapped data, failing calls change nothing, and an unset wrapper raises instead of returning data.",
  "every sequence of operations",
  "History property over error branches.",
  f"{D}: DataIO")
p("C28", "Type hierarchies are reported faithfully",
  "After any history of accepted registrations (in any order) and of hierarchy queries on types whose ancestors are registered, get_hierarchy(t) is t followed by its ancestors nearest first, get_subtypes(t) are exactly the types that have t as a proper ancestor, is_sub_data_type is the reflexive ancestor relation and get_full_hierarchy lists exactly the paths from the roots; the answers depend only on the registered specs, not on the order of registrations or the queries made in between; a rejected registration raises ValueError and keeps the registered specs, source files and cached hierarchies.",
  "every acyclic inheritance forest, every registration order, every interleaving of queries",
  "Caching and rejected registrations interact over histories.",
  "src/hdmf/spec/catalog.py: SpecCatalog.register_spec, SpecCatalog.get_hierarchy, SpecCatalog.get_subtypes, SpecCatalog.get_full_hierarchy")
p("C29", "A resolved spec contains everything inherited and keeps its own refinements",
  "After resolve_spec, at every path through named groups and datasets, an attribute, dataset, group or link (by name), an unnamed type or an unnamed link target has the extending spec's own definition if it gives one and otherwise the included type's, nothing else is present, and everything the extending spec defined keeps its place; for chains of includes the nearest definition counts. is_inherited is false exactly for the attribute, dataset, group and link names introduced by the extension and is_overridden true exactly for those both define. Own compound dtypes are merged column by column, an own column being accepted only if it refines the included one. Names of the included type are assumed unique per kind and level.",
  "every pair (and chain) of specs",
  "Merging over arbitrary name sets and chains of inclusion.",
  f"{SP}: BaseStorageSpec.resolve_spec, GroupSpec.resolve_spec, DatasetSpec.resolve_spec, BaseStorageSpec.set_attribute")
p("C30", "Loading a namespace again changes nothing",
  "Once load_namespaces succeeded for a namespace file, calling it again, after any other calls and whatever is then on disk, changes nothing and reports the same included types; a registered namespace is never replaced or changed by any later call, failing or not; a successful first load registers every namespace of the file, reports exactly those that were not loaded before and leaves all others as they were.",
  "every sequence of loads over any set of namespace files",
  "History property over caches.",
  "src/hdmf/spec/namespace.py: NamespaceCatalog.load_namespaces, NamespaceCatalog.add_namespace")
p("C31", "Builder groups: one name, one child, found by path",
  "After any sequence of set_group/set_dataset/set_link/set_attribute calls each name in a GroupBuilder is in exactly one of its four dictionaries, obj_type says which, a name taken by another kind is rejected without any change, lookup by name returns the builder set last or an equal one that was there already, and a descendant is found by its slash-separated path.",
  "every sequence of operations and every tree depth",
  "Four redundant dictionaries over unbounded histories.",
  f"{B}: GroupBuilder.set_group, GroupBuilder.set_dataset, GroupBuilder.set_link, GroupBuilder.set_attribute, GroupBuilder.__getitem__, GroupBuilder.get")
p("C32", "Builder parent and source are write-once and inherited",
  "The parent, source, data and dtype of a builder never change once set (an assignment then raises), a builder stored in a group gets the group as parent and its source if it has none, setting a source gives it to exactly the descendants reached through builders without a source, and in a tree put together in any order, each builder added once, everything below a builder with a source has a source.",
  "every builder tree and sequence of assignments",
  "History property on trees of any depth.",
  f"{B}: Builder.source, Builder.parent, GroupBuilder.source")
p("C33", "The build cache is a bijection between containers and builders",
  "For any sequence of build, construct, purge_outdated, clear_cache and user changes, in which builds and constructs start from objects that do not contain themselves, a BuildManager's two dictionaries are inverse to each other; what was built or constructed is known both ways; building an unmodified known container returns the cached builder, constructing a known builder returns the cached container, purge_outdated succeeds and drops exactly the modified containers; the source of a container is set once; new containers that contain themselves cannot be built.",
  "every sequence of operations over any containers and builders",
  "Two dictionaries keyed both ways over unbounded histories.",
  f"{M}: BuildManager.build, BuildManager.construct, BuildManager.prebuilt, BuildManager.purge_outdated, BuildManager.clear_cache, BuildManager.get_builder")
p("C34", "Numeric conversion picks a wide enough dtype and warns before losing anything",
  "The dtype chosen for a numeric spec has the kind of the spec and is exactly as wide as the wider of the spec's and the value's dtype; there is no warning exactly when the value's dtype already has that kind and is wide enough, and then (or within one kind) every integer the value's dtype represents is represented by the chosen dtype; nested lists are converted element by element keeping their structure; converting twice equals converting once, without warnings.",
  "every combination of spec dtype and value dtype, every nested list of values",
  "The decision depends on pairs of types and on list contents of arbitrary shape.",
  f"{O}: ObjectMapper.__resolve_numeric_dtype, ObjectMapper.convert_dtype, ObjectMapper.__check_edgecases")
p("C35", "What the builder writes passes dtype validation",
  "The validator accepts a numpy dtype for a numeric spec exactly when it has the same kind and is at least as wide (up to 64 bits); a value converted for a spec's dtype when building, both as reported dtype written and read back and as value, is accepted for that same spec dtype (dates when in ISO format); what is accepted for an expected dtype is closed under widening within a kind; a compound dtype without date columns is accepted exactly when every column is.",
  "every spec dtype and every value dtype the conversion accepts",
  "Two independently maintained tables must agree everywhere.",
  f"{V}: check_type, __allowable", f"{O}: ObjectMapper.convert_dtype")
p("C36", "Shape validation accepts exactly the allowed shapes",
  "check_shape(expected, received) returns true exactly when received matches expected (None is a wildcard per axis; a list of alternatives accepts any one of them), for every expected shape whose list, and each of whose alternatives, is non-empty.",
  "every expected shape specification (including alternatives) and every received shape",
  "Rank and alternatives unbounded.",
  f"{V}: check_shape", f"{U}: __shape_okay, __shape_okay_multi")
p("C37", "Quantity rules agree between writing and validation",
  "For any declared quantity and any number of matching children the validator reports an error exactly when the count is not allowed by the quantity, and building the same container issues a quantity warning exactly in those cases.",
  "every quantity ('*', '+', '?', integer n) and every count",
  "Unbounded integers and two separately written rules.",
  f"{V}: GroupValidator.__validate_presence_and_quantity, GroupValidator.__incorrect_quantity", f"{O}: ObjectMapper.__check_quantity", f"{SP}: BaseStorageSpec.required, BaseStorageSpec.is_many")
p("C38", "Each builder is matched to at most one, admissible, spec",
  "When validating a group, every child is matched to at most one sub-spec, the matched spec admits it (name and data type), no child is lost (it is matched or reported unmatched), a child is unmatched only if no sub-spec admits it, a sub-spec left short of children lost an admissible child only to an earlier sub-spec that still needed it, and matching raises (ValueError) exactly when a sub-spec whose name fits a child mentions an unknown data type.",
  "every list of specs and builders",
  "Greedy matching over arbitrary lists.",
  f"{V}: SpecMatcher.assign_to_specs, SpecMatcher._best_matching_spec")
p("C39", "External-resource tables never contain dangling or duplicate references",
  "After any sequence of add_ref calls (successful or failing) with string keys or Key objects of the same table, and of newly made Keys, every index stored in a HERD refers to an existing row, rows never change or move, entity ids and files are unique, there is at most one object row per (object, relative path, field), and no entity-key pair is recorded twice; no object-key pair is recorded twice as long as no string key is given again for an object that already has it; a failing call changes nothing except that one without a key may have added a file and an object.",
  "every sequence of add_ref calls and new Key objects",
  "Six cross-referencing tables over unbounded histories.",
  f"{R}: HERD.add_ref, HERD._check_object_field, HERD._add_object_key, HERD._add_entity_key")
p("C40", "Every annotation that was added can be retrieved, and nothing else",
  "In any history get_object_entities(container) returns the entities linked to that object through its keys; in histories with string keys these are exactly the entities added for that object by add_ref, with the URI the entity was first given, and get_key returns the one key row under which exactly the entities of that object and key name are recorded; annotations made with a string key or a key already in use can be retrieved and stay retrievable.",
  "every history of add_ref calls",
  "Join over four tables for all histories.",
  f"{R}: HERD.add_ref, HERD.get_object_entities, HERD.get_key")
p("C41", "Aligned tables stay aligned",
  "After any history of calls made through an AlignedDynamicTable that all succeed, the main table and all category tables have the same number of rows, each table has gone through exactly the calls meant for it, and row k of every table holds the values and id given for it by the k-th row call; a row is accepted exactly when every table accepts its part; a failing row call leaves the tables aligned when a category is missing or the main table refuses the keys or id, and otherwise leaves the main table and the categories before the failing one one row longer; construction yields the given categories in the given order; every listed column can be read at every row.",
  "every set of categories, every history of row, column and category calls, every failing call",
  "Atomicity across several tables.",
  f"{A}: AlignedDynamicTable.add_row, AlignedDynamicTable.add_category, AlignedDynamicTable.__init__")
p("C42", "Writing a builder tree to a file and reading it back gives the same tree",
  "A tree of builders whose links and references stay within the tree is written without error. If nothing in it leads back to itself, no dataset holds a single reference and the links of each group have targets of different last names, then reading the file gives exactly one builder for each of the tree, with the same attributes, members, links and references under the same names, and no other; this also holds when specifications are cached in the file, unless the root uses that name. A tree in which something that is reached leads back to itself is written but never read to an end. A reference to what is not in the tree is refused on writing.",
  "every builder tree of any depth and width, with links and references between any nodes",
  "Recursive structure of unbounded size; links create sharing.",
  f"{H}: HDF5IO.write_builder, HDF5IO.write_group, HDF5IO.write_link, HDF5IO.read_builder, HDF5IO.__read_group")
p("C43", "Cached namespaces are loaded in dependency order",
  "Whatever the dependencies between the namespaces cached in a file, computing the loading order terminates and gives each namespace exactly once; a namespace comes after every namespace it includes unless that one leads back to it. Loading from a file loads exactly the namespaces asked for that have a cached schema, each with the version used, and succeeds whenever each namespace has a version and those asked for are cached.",
  "every finite dependency graph",
  "Topological ordering over arbitrary graphs.",
  f"{H}: HDF5IO._order_deps, HDF5IO.__order_deps_aux")
p("C44", "The latest cached namespace version is used",
  "The version of a cached namespace that is used is one of those cached; a real version is always preferred to 'unversioned' and 'None' and is then the last in alphanumeric order, so the newest among version numbers written with as many digits each. Caching a specification never changes one that is cached and adds those that are not.",
  "every set of version names",
  "Version ordering over arbitrary version numbers.",
  f"{H}: HDF5IO.__get_namespaces")
p("C45", "Deferred references are all resolved or reported",
  "Processing the reference queue at the end of a write terminates; each queued call is made at most twice; if nothing is raised every call, also those queued meanwhile, was completed exactly once. When all targets are in the file every reference is filled in with its target and nothing else changes; one missing target makes the write raise RuntimeError instead of being dropped.",
  "every queue of references and any dependence of one reference on another",
  "Retry order over unbounded queues.",
  f"{H}: HDF5IO.__add_refs, HDF5IO.__queue_ref")
p("C46", "A term-set-wrapped value only ever contains valid terms",
  "A new TermSetWrapper holds only terms of its term set, and valid values are accepted. After any sequence of append/extend calls (except extending an array by a plain string, and list methods the wrapper merely passes on) every term in it is still in its term set; an accepted call adds exactly its terms at the end (an iterator adds none), and a rejected call leaves the value unchanged. A term is valid exactly if the first enumeration has it with a meaning 'prefix:id' of a declared prefix.",
  "every term set and every sequence of operations",
  "History property with failing operations.",
  "src/hdmf/term_set.py: TermSetWrapper.__validate, TermSetWrapper.append, TermSetWrapper.extend, TermSet.validate")
p("C47", "Flattened hierarchical column names keep all levels in order",
  "flatten_column_index turns an arbitrarily nested tuple into the flat tuple of its parts in order, or the last max_levels of them (for one level the last part itself; IndexError for a tuple without parts; ValueError for a limit below one). drop_id_columns removes exactly the columns whose innermost name is 'id' and keeps the others in order; IndexError for a column without innermost name.",
  "every nested tuple of names, every max_levels",
  "Unbounded nesting.",
  "src/hdmf/common/hierarchicaltable.py: __flatten_column_name, __get_col_name, flatten_column_index, drop_id_columns")
p("C48", "Comparisons on sorted arrays select exactly the matching positions",
  "For an ascending array, a < v and a >= v select exactly the positions whose element satisfies the comparison; a <= v, a > v and a == v do when some element is larger than v and raise IndexError otherwise; a == (v, w) does when some element is in [v, w); a != v does for a value occurring once and raises TypeError for one absent or repeated. a == [values] never selects another element, and selects all when each occurs once and no two are neighbours. Indexing with the result gives the elements that satisfy the comparison, in order. For a LinSpace with positive step all of this holds for every value from its start on.",
  "every sorted array and every value, including values outside its range",
  "Boundary values at both ends and duplicates for all arrays.",
  "src/hdmf/array.py: AbstractSortedArray, SortedArray.find_point, LinSpace.find_point")
p("C49", "Writing specs reorders keys but never loses any",
  "YAMLSpecWriter.sort_keys returns the same nested data with the keys of each mapping permuted: the name first if there is no 'neurodata_type_def', then known keys in the documented order, the others after them in their original order; the value at each path is the sorted value at that path, sorting twice changes nothing, and what write_spec writes holds no tuples or generators.",
  "every nested spec dictionary",
  "Unbounded nesting and key sets.",
  "src/hdmf/spec/write.py: YAMLSpecWriter.sort_keys")
p("C50", "A list slicer exposes exactly the selected region",
  "For a ListSlicer over an unchanged dataset and a slice or a list of at least two indices, len is the number of selected elements and, after any sequence of accesses, item i is the i-th selected element; values once read never change. An index outside the dataset makes every access raise IndexError.",
  "every dataset, every slice or index list",
  "Degenerate regions (one element, empty) for every dataset.",
  "src/hdmf/region.py: ListSlicer")
p("C51", "Type configurations merge with later files winning",
  "After loading and unloading any sequence of complete, non-empty configuration files, looking up a data type gives the configuration from the last loaded file that has it; a file is refused exactly if it is missing or already loaded, and then nothing changes; unloading forgets everything.",
  "every sequence of load/unload operations",
  "History property.",
  "src/hdmf/term_set.py: TypeConfigurator.load_type_config, TypeConfigurator.get_config, TypeConfigurator.unload_type_config")
p("C52", "Dimension labels are those of the most specific matching shape",
  "When alternative shapes (lists) are declared for a dataset, building it attaches the labels declared for the first of the most specific alternatives that fit the data (fewest unconstrained axes); with one shape the labels are attached exactly if the data fit it; otherwise there are no labels and, if a shape and labels were declared, a warning. Shape and labels are taken together from the refining spec if it has a shape, else from the type's spec.",
  "every list of alternative shapes/labels and every data shape",
  "Tie-breaking and matching over arbitrary alternatives.",
  f"{O}: ObjectMapper.__get_dimension_labels_from_spec, ObjectMapper.__check_dset_spec")
p("C53", "I/O modes are enforced",
  "A file opened read-only is never changed, one opened write-only is never read, export is possible only in mode 'w', a missing file is never opened for reading and an existing file is never overwritten in exclusive mode; the content of a file is what the accepted calls wrote in their order, and after close nothing is written. Read gives the content on the first call.",
  "every mode and every sequence of operations",
  "Decision table over modes and histories.",
  f"{H}: HDF5IO.__init__, HDF5IO.write, HDF5IO.read, HDF5IO.export, HDF5IO.close")
p("C54", "Filtering by data type keeps exactly the matching values",
  "When building a container, the values kept for a typed sub-spec are: of a flat collection exactly the objects whose data type is the spec's type or a subtype, in order; of a nested collection exactly the elements that are or contain such an object; a ValueError is raised exactly if something in the value is neither a container nor a collection.",
  "every nested value and every type hierarchy",
  "Recursive filtering over nested values.",
  f"{O}: ObjectMapper.__filter_by_spec_dt")
p("C55", "All descendants are found exactly once",
  "all_children of an object whose descendants form a finite tree lists the object and each of its descendants exactly once; get_ancestors lists the parents from the nearest to the topmost.",
  "every container tree of any depth and width",
  "Unbounded trees built by arbitrary histories.",
  f"{C}: AbstractContainer.all_children, AbstractContainer.get_ancestors")
p("C56", "assertEqualShape compares exactly the requested axes",
  "For known shapes with at least one axis, assertEqualShape reports agreement exactly when both sides have the same number of requested axes, all are within bounds and each pair of axes has the same length (or one is unknown and that is ignored); otherwise it reports the number of axes, an axis out of bounds or an axis length error.",
  "every pair of shapes and every pair of axis lists",
  "Ranks and axis lists are unbounded, with unknown lengths and negative axes.",
  f"{D}: assertEqualShape")
p("C57",
  "Including types from a namespace brings their dependencies",
  "When a namespace is loaded, its catalog contains every type of its source files (nested type definitions too) and, for every included namespace, exactly the requested types and all types reachable from them through includes, children and link targets, each with the definition it has there; with one schema entry per namespace the reported included types are exactly these. Loading succeeds if no type depends on itself, no type is missing and types of the same name agree.",
  "every catalog, dependency graph, schema and history of loads",
  "Reachability in graphs of any size.",
  "src/hdmf/spec/namespace.py: NamespaceCatalog.__load_namespace, NamespaceCatalog.__register_type, NamespaceCatalog.__register_dependent_types, NamespaceCatalog.__load_spec_file")
p("C58",
  "A newly built hierarchy mirrors the containers",
  "After a successful build of new containers (or an export), every container reached from the root through its fields has a builder: it holds a sub-builder for every value whose parent is the container, a link for every other value, and refers to exactly the builders of the containers referred to; no builder is a sub-builder of two others; and the build does succeed for acyclic containers whose values have parents, whose source is unset or the one written, and whose references are reached.",
  "every finite set of containers without containment cycles, every root, every history before",
  "Nested recursion through shared mutable caches, with references filled in after the traversal.",
  "src/hdmf/build/manager.py: BuildManager.build, BuildManager.__add_refs",
  "src/hdmf/build/objectmapper.py: ObjectMapper.build, ObjectMapper.__add_containers")
p("C59",
  "Validation reports nothing exactly for conforming builders",
  "If validating a builder against a spec reports no error then the builder conforms: required attributes are present, values have the declared type and shape, the children can be placed at sub-specs that admit them with every quantity met, links stand only where links are allowed, and every child conforms to the spec of its own type, of the sub-spec's type and to the sub-spec itself. Conversely, where no child fits two sub-specs, a conforming builder gets no report. Duplicate reports, and only those, are removed, and children no sub-spec admits change nothing.",
  "every spec tree, builder tree (with links) and validator map",
  "Recursive over unbounded trees, with greedy matching and three validators per child.",
  "src/hdmf/validate/validator.py: GroupValidator.validate, GroupValidator.__validate_children, GroupValidator.__validate_child_builder, DatasetValidator.validate, BaseStorageValidator.validate, AttributeValidator.validate, GroupValidator._remove_duplicates",
  "src/hdmf/validate/errors.py: Error.__equatable_str")
p("C60",
  "The validator map knows exactly the descendants of each type",
  "For every namespace in which each included type is registered before the type including it, building the validator map succeeds, valid_types of a registered type is exactly the set of registered types that descend from it, its validator is the one of its spec, and unregistered types raise ValueError.",
  "every list of registered types",
  "Arbitrary hierarchies; the tree is filled and closed in one pass over the registration order.",
  "src/hdmf/validate/validator.py: ValidatorMap.__init__, ValidatorMap.__rec, ValidatorMap.valid_types, ValidatorMap.get_validator")
p("C61",
  "The joint external-resource table is the join of the six tables",
  "HERD.to_dataframe has, for each object-key row in order, one row per entity recorded for that key, filled in from the six tables, so its rows are exactly the annotations; get_object_type returns exactly the rows of that type (and path and field); a HERD without object-key rows raises ValueError.",
  "every HERD reachable by add_ref and new Keys",
  "Joins over six tables for all histories.",
  "src/hdmf/common/resources.py: HERD.to_dataframe, HERD.get_object_type")
p("C62",
  "from_zip refuses dangling indices",
  "The checks of from_zip accept every set of tables without dangling indices, and every set they accept that has no negative index has no dangling index; they only raise ValueError.",
  "every content of the six tables",
  "Arbitrary edited files.",
  "src/hdmf/common/resources.py: HERD.from_zip")
p("C63",
  "What assert_external_resources_equal compares",
  "assert_external_resources_equal returns True exactly when keys, files, objects, entities and object_keys agree, and raises AssertionError otherwise; entity_keys are not compared.",
  "every pair of HERD objects",
  "All pairs of tables.",
  "src/hdmf/common/resources.py: HERD.assert_external_resources_equal")
p("C64",
  "Bulk annotation from term sets is complete",
  "add_ref_termset reports exactly the terms missing from the term set, in order, and annotates the object with the entity of every other term; add_ref_container does so for every term of every wrapped attribute; whatever happens the tables stay sound.",
  "every term set, list of terms and reachable HERD",
  "Unbounded lists of terms over unbounded histories.",
  "src/hdmf/common/resources.py: HERD.add_ref_termset, HERD.add_ref_container")
p("C65",
  "Containers survive being built and constructed",
  "Building a container tree that conforms to the specifications of its types succeeds, and constructing the resulting builders gives containers with the same identity, type, name, data and attribute values, at any depth, including links, references, untyped groups and refined sub-specs. Conforming means: attribute names and the names stored in each group are distinct, children of named sub-specs have that name, each stored object is accepted by exactly the unnamed sub-spec it belongs to, values need no conversion, defaults are filled in, a list is not empty and is all owned or all linked.",
  "every set of specifications, type hierarchy and conforming container tree",
  "Unbounded trees over arbitrary specifications.",
  "src/hdmf/build/objectmapper.py: ObjectMapper.build, ObjectMapper.construct, ObjectMapper.__add_datasets, ObjectMapper.__add_groups, ObjectMapper.__add_links, ObjectMapper.__add_containers, ObjectMapper.__get_subspec_values, ObjectMapper.__get_sub_builders")
p("C66",
  "Building depends on the content only and is stable",
  "Containers with the same content are built into equal builders (or fail with the same error); what was constructed from the builders of a conforming container is built into the same builders again.",
  "every container tree and specification",
  "Extensional equality over unbounded trees.",
  "src/hdmf/build/objectmapper.py: ObjectMapper.build, ObjectMapper.construct")
p("C67",
  "Specifications and attributes correspond",
  "No two sub-specs are mapped to the same attribute, each mapped attribute name is the joined name of its spec (or derived from its type), and all sub-specs at any depth are mapped if their names are distinct.",
  "every specification",
  "Arbitrary nesting of specifications and name derivation.",
  "src/hdmf/build/objectmapper.py: ObjectMapper.__get_fields, ObjectMapper.get_attr_names, ObjectMapper.convert_dt_name, ObjectMapper.map_spec")
p("C68",
  "Which attribute value is written",
  "For each attribute the fixed value is written, else the container's value, else the default, else nothing; unconvertible values and unbuilt references are errors; the attributes of a type and its refinement are written once per name with the type's own spec.",
  "every attribute spec, value and refinement",
  "Decision table with precedence over arbitrary lists.",
  "src/hdmf/build/objectmapper.py: ObjectMapper.__add_attributes, ObjectMapper.build")
p("C69",
  "Configured fields only take valid terms",
  "When a type configuration names a term set for a field of a data type, setting that field wraps the value with the term set and succeeds only if every term of the value is in it; fields that are not configured, and values that are already wrapped, are left as they are.",
  "every configuration, namespace, data type, field and value",
  "Interaction of configuration history and validation for all values.",
  "src/hdmf/container.py: AbstractContainer._field_config")
p("C70",
  "A hierarchical data frame is the join of the linked tables",
  "For tables linked by DynamicTableRegion columns, with unique ids and no row of a table in the middle without references, to_hierarchical_dataframe has one row for each chain of references from the first table to the last, in order; the index holds the id and columns of each table of the chain but the last, the columns those of the last table.",
  "every chain of tables of any length, every set of references",
  "Joins over chains of arbitrary length with repeated and missing references.",
  "src/hdmf/common/hierarchicaltable.py: to_hierarchical_dataframe")
p("C71",
  "Building a namespace exports exactly what was added",
  "After any calls of a NamespaceBuilder its sources and namespaces are those named by accepted calls, in order of first mention, each with what these calls put into it in order. Export writes one file for each source with specs, holding exactly the specs added for it (groups and datasets each in order), and a schema listing namespaces and then sources; the first source with no types (KeyError) or with both specs and type names (ValueError) stops the export after the files of the sources before it were written.",
  "every sequence of add_spec, add_source, include_type and include_namespace calls",
  "History property over arbitrary calls, with failing ones between.",
  "src/hdmf/spec/write.py: NamespaceBuilder.add_spec, NamespaceBuilder.add_source, NamespaceBuilder.include_type, NamespaceBuilder.include_namespace, NamespaceBuilder.export")
p("C72",
  "Every specified type gets a class, once",
  "After any sequence of class registrations, class lookups, namespace loads and mapper requests in which types can be ordered by what they need, looking up the class of a type that has a specification succeeds and registers a class for it; the class found is the same ever after, unless another is registered for the type, and no lookup (successful or not) changes the class of another type that has one. A type included from another namespace gets the class of the type it was included from. Without a namespace the first namespace with a type of that name is used, else ValueError. A type that needs itself first raises RecursionError; a type whose field has a type that is no declared dependency raises ValueError unless that class was made before.",
  "every catalogue, every history of operations, every type",
  "Depends on the order in which classes were asked for, over any number of namespaces and types.",
  "src/hdmf/build/manager.py: TypeMap.get_dt_container_cls, TypeMap.__check_dependent_types, TypeMap.__get_parent_cls, TypeMap.__get_container_cls, TypeMap.register_container_type, TypeMap.load_namespaces")
p("C73",
  "The class hierarchy mirrors the type hierarchy",
  "However the classes were made, a class registered or generated for a type is a subclass of the class of each type that its type extends, and an included type and the type it comes from have the same class. The base of a generated class is the class of the extended type; for a type that extends none it is Container for a group and Data for a dataset. The class of a field, however, is that of the first namespace that has a type of that name, which can be another namespace's.",
  "every catalogue, every history in which classes registered by hand respect the hierarchy",
  "Invariant over all histories and namespaces.",
  "src/hdmf/build/manager.py: TypeMap.get_dt_container_cls, TypeMap.__get_parent_cls, TypeMap.load_namespaces, TypeMap.register_container_type")
p("C74",
  "The data type and the mapper of a class",
  "The data type of a class is that of the first class of its method resolution order that has one, which for a registered class is the first type it was registered for and for a generated class the type it was generated for; the mapper class is the nearest registered one, or the default. The mapper made on first use is kept whatever is registered, loaded or generated later; for a builder it is for the type of the builder if the class has none yet. A class without data type has no mapper and can get none (ValueError). Hence a mapper registered after first use has no effect, a class registered for two types is built with one mapper only, and the namespace and data_type attributes of the class (last registration) can differ from the type used. get_container_classes gives the classes of one namespace, or all that have a type, each once.",
  "every state of the type map, every history",
  "Method resolution orders of arbitrary length and histories of registrations.",
  "src/hdmf/build/manager.py: TypeMap.get_container_cls_dt, TypeMap.register_map, TypeMap.get_map, TypeMap.get_container_classes, TypeMap.register_container_type")
p("C75",
  "A copied type map finds the same classes",
  "A copy of a type map has the same table of classes and mapper classes, no mappers, and every class lookup gives the same result as in the original. Copying succeeds if every type has its specification and every class with a mapper class inherits from a registered class, and raises if one does not. Merging takes the other map's class where it has one and keeps the rest. The data type of a class in the copy is the first place in the table, so a class registered for several types can change its data type, and copying changes the class attributes of the shared classes.",
  "every type map reached by any history",
  "Equality of all lookups after copying, over all reachable maps.",
  "src/hdmf/build/manager.py: TypeMap.__copy__, TypeMap.copy_mappers, TypeMap.merge")
p("C76",
  "Parameters of a generated class",
  "The constructor of a generated class takes every parameter of the parent class (except name, if the type fixes the name, and skip_post_init) and one parameter per new field that is not fixed; a field the parent already takes is overridden in place; parameters are distinct, required ones come first, a field is required exactly if it and the specifications around it up to the type are required; skip_post_init exists exactly if the class has no new collection.",
  "for every hand-written root class, any number of generated levels and any list of fields",
  "The parameters depend on the whole chain of types; tests look at one or two levels with a few fields.",
  "src/hdmf/build/classgenerator.py: ClassGenerator.generate_class, CustomClassGenerator.process_field_spec, CustomClassGenerator._add_to_docval_args, CustomClassGenerator._check_spec_optional, CustomClassGenerator.post_process, CustomClassGenerator.set_init, MCIClassGenerator.process_field_spec",
  "src/hdmf/utils.py: docval")
p("C77",
  "Construction of generated classes",
  "An object of a generated class has, for every parameter a level stores, the argument given (or the default) unless some level fixes the field, then the fixed value of the most derived level; collections get exactly what was passed; the name is the fixed name nearest to the hand-written class or the argument; construction succeeds if every override narrows the parent's parameter, no level un-fixes a field and the values can be assigned; a level that un-fixes a field makes the class impossible to construct.",
  "for every tower of generated classes, every argument list and every set of accepted values",
  "Arguments pass through the constructors of all levels, each filtering and overwriting; tests construct few classes with one level.",
  "src/hdmf/build/classgenerator.py: CustomClassGenerator.set_init, MCIClassGenerator.set_init, MCIClassGenerator.post_process",
  "src/hdmf/container.py: AbstractContainer._setter, Container._setter, MultiContainerInterface.__make_add")
p("C78",
  "Fields, properties and post_init_method of generated classes",
  "The fields of a generated class are those of the hand-written class and of all levels except collections, each once, if MultiContainerInterface is not added beside a generated parent; a level with fields of its own keeps the settings of the others; a property is never replaced by a derived level; post_init_method is called once per generated level, one less with skip_post_init.",
  "for every tower of generated classes and every argument list",
  "It depends on the order of base classes along the whole chain of types.",
  "src/hdmf/container.py: AbstractContainer.__gather_fields, AbstractContainer._get_fields, AbstractContainer.get_fields_conf",
  "src/hdmf/build/classgenerator.py: CustomClassGenerator.set_init, MCIClassGenerator.set_init, MCIClassGenerator.post_process")
p("C79",
  "Rebuilding a specification",
  "Building a specification from the dictionary of a built one succeeds and gives an equal specification, at every nesting depth: a specification written out and read back, or copied by build_spec, is not changed.",
  "for every dictionary from which a group, dataset, attribute, link or column specification can be built",
  "Equality has to hold for every combination of keys and every nesting; tests compare a few examples.",
  "src/hdmf/spec/spec.py: ConstructableDict.build_spec, AttributeSpec.build_const_args, DtypeSpec.build_const_args, DatasetSpec.build_const_args, GroupSpec.build_const_args")
p("C80",
  "Which dictionaries are specifications",
  "Building a specification succeeds for exactly the dictionaries that meet the stated conditions: documented keys of the right kinds, a known type or a reference, a name or a type, no name beside a quantity of many (for datasets, nothing but one or zero or one), shape and dimensions of the same length, not both a fixed and a default value, and no two unnamed sub-specifications of the same type; all others raise TypeError, ValueError, KeyError or AttributeError.",
  "for every value, of any nesting",
  "The conditions interact across levels; tests try single violations.",
  "src/hdmf/spec/spec.py: AttributeSpec.__init__, BaseStorageSpec.__init__, DatasetSpec.__init__, LinkSpec.__init__, GroupSpec.__init__, GroupSpec.__add_data_type_inc, GroupSpec.__add_target_type, DtypeHelper.check_dtype, DtypeSpec.check_valid_dtype, RefSpec.__init__")
p("C81",
  "What a built specification holds",
  "A built specification has exactly the stated entries: given values of documented keys, with defaults left out, a shape filled in from the dimensions, required false beside a default value and absent beside a fixed value, references reduced to their two keys, sub-specifications built in order, and of several attributes of one name the last at the place of the first.",
  "for every dictionary from which a specification can be built",
  "Each entry depends on several keys; tests look at one key at a time.",
  "src/hdmf/spec/spec.py: AttributeSpec.__init__, BaseStorageSpec.__init__, BaseStorageSpec.set_attribute, DatasetSpec.__init__, LinkSpec.__init__, GroupSpec.__init__, GroupSpec.set_group, GroupSpec.set_dataset, GroupSpec.set_link, Spec.__init__")
p("C82",
  "Caching a type keeps its meaning",
  "A type written to the cache holds what it defines itself and not what it inherits; resolved again on the types it extends (read back from the cache as well), it has the same attributes, datasets, groups, links, unnamed types and dtypes along every path as the type it was made from, provided it uses one name for one thing and does not redefine an inherited unnamed link or an inherited unnamed type that can exist many times.",
  "for every type and every chain of types it extends, of any nesting",
  "The inherited or overridden test looks a name up in six dictionaries in order, so the outcome depends on every pair of names; tests cache one namespace.",
  "src/hdmf/backends/utils.py: NamespaceToBuilderHelper.__copy_spec, NamespaceToBuilderHelper.__get_new_specs",
  "src/hdmf/spec/spec.py: GroupSpec.is_inherited_spec, GroupSpec.is_overridden_spec, BaseStorageSpec.is_inherited_spec, BaseStorageSpec.is_overridden_spec, BaseStorageSpec.is_many")
p("C83",
  "Which keys of a type are cached",
  "The copy of a type that is written to the cache can always be built and has the same documentation, name, default name, quantity, linkability, type names, and for datasets dtype, shape and dimensions as the type; the lists of attributes, datasets, groups and links are the kept elements, unchanged and in order; value and default_value of a dataset are never in the copy.",
  "for every specification built from a dictionary and every choice of the elements to keep",
  "The copied keys pass through the constructors again, whose checks and defaults interact; tests compare one type.",
  "src/hdmf/backends/utils.py: NamespaceToBuilderHelper.__copy_spec, NamespaceToBuilderHelper.__get_new_specs",
  "src/hdmf/spec/spec.py: BaseStorageSpec.linkable, BaseStorageSpec.quantity")
p("C84",
  "Links lead to their targets",
  "A link made to a builder leads, from the directory of the file that is written, to the builder's path in the file it comes from; when its source is the file that is written or the source of an export, to its path in the new file; it is refused with ValueError exactly when the builder has no source and the writer has one. Names have no slash or backslash, and the target is not the root.",
  "for every working directory, file name, target and export source",
  "Relative paths depend on how two absolute paths share a prefix; tests write into one directory.",
  "src/hdmf/backends/hdf5/h5tools.py: HDF5IO.write_link, HDF5IO.__get_path")
p("C85",
  "Datasets that are HDF5 datasets are linked or copied",
  "A dataset whose data is an h5py dataset reads as that dataset's value, whether it is linked or copied, unless it is exported with links into another group than the one it was in, when it reads as whatever the new file has at the old path; it is copied exactly when links are not wanted or it is exported in its place, and its attributes are written exactly when it is copied.",
  "for every pair of files, paths, disk contents and settings of link_data and export_source",
  "Which of soft link, external link and copy is made depends on four conditions; tests try a few combinations.",
  "src/hdmf/backends/hdf5/h5tools.py: HDF5IO.write_dataset")
p("C86",
  "Links are read as their targets",
  "A link is read as the object it leads to, under the last name of its path, when that object is in the file the link names; a link that leads nowhere is left out; a link that was written is read as its target.",
  "for every disk content and link",
  "Links may pass through other links and other files; tests follow one link.",
  "src/hdmf/backends/hdf5/h5tools.py: HDF5IO.__read_group")
p("C87",
  "Types of datasets",
  "A dataset is created with the type its value was converted to when it was built, of the kind the specification names and not narrower; the backend's names of types agree with those used in building except for dates, and cover all primary dtypes except 'numeric' and 'date'; without a dtype the type is that of the first element of the first element and so on, and an empty list there raises; the columns taken for references are exactly those of a reference type; a compound type that is read and written again is the same exactly when every column's type has a name in the table.",
  "for every value, primary dtype, converter and list of columns",
  "Three tables of type names in two modules must agree entry by entry; tests use few dtypes in compounds.",
  "src/hdmf/backends/hdf5/h5tools.py: HDF5IO.__resolve_dtype__, HDF5IO.__resolve_dtype_helper__, HDF5IO.get_type, HDF5IO.__is_ref",
  "src/hdmf/backends/hdf5/h5_utils.py: BuilderH5TableDataset")
p("C88",
  "Tables with references round trip",
  "A table whose reference columns hold objects that are in the file, and whose region columns hold datasets, is written and read back, whole, by slice or by iteration, with each object, region and text in its row and column; rows are taken by index from either end and an index outside is an IndexError; a reference to an object that is not in the file is a KeyError; several region references at once always fail.",
  "for every table, choice of reference columns, file and index",
  "The writer swaps references in by column number and the reader swaps them out by column type; tests use one or two layouts.",
  "src/hdmf/backends/hdf5/h5tools.py: HDF5IO.write_dataset, HDF5IO.__get_ref",
  "src/hdmf/backends/hdf5/h5_utils.py: H5TableDataset, H5ReferenceDataset, H5RegionDataset")
p("C89",
  "Arrays are stored as given",
  "Data whose nested lists and arrays have one shape without zero extents is stored in that shape with each element converted to the type of the dataset in row-major order, and is read back as given when the conversion loses nothing; ragged data and arrays without axes are refused; nothing else is stored; without a dtype in the specification the first element decides the type.",
  "for every nesting of lists, tuples and arrays, every converter and type",
  "Shape is taken from the first elements while numpy flattens all of them; tests use regular lists.",
  "src/hdmf/backends/hdf5/h5tools.py: HDF5IO.__list_fill__, HDF5IO.__scalar_fill__, HDF5IO.__read_dataset")
p("C90",
  "Settings of an H5DataIO",
  "The settings of an H5DataIO are exactly the options given that are not None, with True for compression meaning gzip and False dropping compression and its options, with the type and shape only when there is no data, and with the chunks and maxshape of a chunk iterator where none were given; data is linked only if it is an h5py dataset; the arguments accepted are exactly those with the declared types, a type and a non-empty shape when there is no data, options that the filter takes, and an available filter; without warnings no option is dropped.",
  "for every combination of arguments and every set of available filters",
  "Twelve options interact through a chain of conditions; tests try them one at a time.",
  "src/hdmf/backends/hdf5/h5_utils.py: H5DataIO")
p("C91",
  "Settings when an H5DataIO is written",
  "However often an H5DataIO is written, the settings made at the start are kept and each dataset is created with all of them, with one shape and one type; the first dataset of a chunk iterator takes from the iterator what was not given; the dataset of a wrapper without data is the first one created and no second one can be written; without data nothing is written unless shape and type are both set; a shape set for regular data is used once; maxshape is the one asked for, else that of the data.",
  "for every sequence of writes and every table of types",
  "The writer changes the settings of the wrapper in place, so later writes see what earlier ones added; tests write once.",
  "src/hdmf/backends/hdf5/h5tools.py: HDF5IO.__setup_chunked_dset__, HDF5IO.__setup_empty_dset__, HDF5IO.__list_fill__",
  "src/hdmf/backends/hdf5/h5_utils.py: H5DataIO.dataset")
p("C92",
  "Tables and DataFrames",
  "to_dataframe gives the ids as index and the rows of every column that is not excluded; from_dataframe accepts exactly the frames that have the required and the described columns, whose columns can be stored with the index levels they get and whose index names clash with no column, and makes a table with these columns in order; a frame whose indexed columns hold lists comes back unchanged, and a table with at least one row whose list columns hold only lists comes back with the same ids and rows.",
  "for every frame, table, class and table of cell properties",
  "Whether a column gets an index depends on its first cell and on all lengths; tests convert one or two frames.",
  "src/hdmf/common/table.py: DynamicTable.to_dataframe, DynamicTable.from_dataframe, DynamicTable.__build_columns")
p("C93",
  "Tables made from column objects",
  "DynamicTable(columns=\u2026) succeeds exactly if every column object that is neither the target of an index nor the elements of an enumeration has as many entries as there are ids (or no ids are given), and raises ValueError otherwise; its column names are the given ones in order without indices and elements; each name stands for the unique outermost index over the column, whatever the order of the columns; with colnames it keeps exactly the named columns with their index chain before and their elements after them and raises KeyError for any other name; a copy has the same names for the same objects, and copying again changes nothing.",
  "for every list of column objects, every nesting of indices, every order",
  "Nested indices in every order of the columns; tests use two or three orders of one doubly ragged column.",
  "src/hdmf/common/table.py: DynamicTable.__init__, DynamicTable.__set_table_attr, DynamicTable.__getitem__, DynamicTable.copy")
p("C94",
  "References between containers become references between builders",
  "A value counts as a reference if it is a container or, after unwrapping, a sequence whose first element is one with no non-empty sequence in what follows up to the first number; a queued call stores, for a dataset of references, of region references, of rows with reference columns, or for data without a specified type, exactly the references to the builders of the containers, in the given order, leaves every other cell and every other builder as it is, and succeeds if and only if every container referred to has a builder and every value has the form needed; otherwise it raises BuildError or TypeError at the first element in the way and changes nothing.",
  "for every value of any nesting, every state and every table of builders",
  "Nested values of unbounded depth and every mixture of built and unbuilt containers.",
  "src/hdmf/build/objectmapper.py: ObjectMapper.__is_reftype, ObjectMapper.__get_ref_builder, ObjectMapper.__get_target_builder, ObjectMapper.__set_compound_dataset_to_refs, ObjectMapper.__set_dataset_to_refs, ObjectMapper.__set_untyped_dataset_to_refs, ObjectMapper.__set_attr_to_ref",
  "src/hdmf/build/builders.py: DatasetBuilder.data, ReferenceBuilder, RegionBuilder")
p("C95",
  "Every queued reference is filled in",
  "In every history of builds, changes of containers and root builds, if adding references does not fail then every queued call has been carried out when the root build returns, the data of each dataset are set at most once and never change afterwards, every container keeps its builder and every builder its container, and a reference leads back to the container referred to. If a call fails, those before it have been carried out, it is dropped and those after it stay queued; hence a later unrelated build can fail and a dataset can stay without data.",
  "for every history of operations of any length",
  "Histories with failures in the middle of the queue; tests build one container once.",
  "src/hdmf/build/manager.py: BuildManager.build, BuildManager.queue_ref, BuildManager.__add_refs, BuildManager.prebuilt, BuildManager.get_builder, BuildManager.get_container")
p("C96",
  "The builder of a dataset and its attributes",
  "Building a Data object makes one builder whose data are the converted value, or are left open with exactly one queued call if the effective type (that of the extension where it has one) is a reference or compound type with references, or there is no type and the data are references; the attributes considered are those of the specification and of the extension, each name once, the specification's first, in reversed order; each gets the fixed value, the value found or the default, or a queued call if it is a reference, and nothing if there is none; values of the wrong form raise ValueError or BuildError; a container that has a builder gets no second one.",
  "for every specification, every extension, every list of attributes, every value",
  "Combinations of types in the specification and the extension with all kinds of data.",
  "src/hdmf/build/objectmapper.py: ObjectMapper.build, ObjectMapper.__check_dset_spec, ObjectMapper.__get_spec_info, ObjectMapper.__add_attributes")
p("C97",
  "What is cached of a namespace",
  "For namespaces that were loaded into an empty catalog, that include others as a whole, have a version and whose source files have distinct base names other than 'namespace': caching succeeds for all; the file has, for each namespace, the included namespaces (each once, no selection of types) followed by the sources that define types, under the source's name without extension, with copies of its group and dataset specs. A namespace without version raises ValueError. Sources in directories, hidden ones and one called namespace.yaml raise ValueError.",
  "all catalogs obtained by loading any sequence of namespaces from any source files, all specs",
  "the test suite caches the one or two namespaces of its fixtures, with simple names",
  "src/hdmf/backends/utils.py: NamespaceToBuilderHelper.convert_namespace, NamespaceToBuilderHelper.get_source_name",
  "src/hdmf/backends/hdf5/h5tools.py: HDF5IO.__cache_spec",
  "src/hdmf/backends/hdf5/h5_utils.py: H5SpecWriter",
  "src/hdmf/spec/namespace.py: NamespaceCatalog.get_types")
p("C98",
  "Cached namespaces are loaded as they were",
  "Loading the cached namespaces into an empty catalog, in the order computed from the file or any other in which a namespace comes after those it includes, succeeds, and afterwards each namespace has its version and exactly the types it had, each with a copy of its spec and the name of its source without extension.",
  "all sequences of loaded namespaces, all orders of the groups in the file, all admissible loading orders",
  "round trips of specs are tested for a few fixtures; no test covers several namespaces including each other, or all orders",
  "src/hdmf/backends/hdf5/h5tools.py: HDF5IO.__load_namespaces, HDF5IO.__cache_spec, HDF5IO._order_deps",
  "src/hdmf/backends/utils.py: NamespaceToBuilderHelper.convert_namespace",
  "src/hdmf/backends/hdf5/h5_utils.py: H5SpecReader",
  "src/hdmf/spec/namespace.py: NamespaceCatalog.load_namespaces, NamespaceCatalog.__load_namespace")
p("C99",
  "What appending and extending do to data",
  "For data behind any number of DataIO and TermSetWrapper objects, appending or extending succeeds exactly if the terms are valid, wrapped containers have builders, arrays get rows of their shape, HDF5 datasets have room and can take the value by broadcasting. Then the data, and whatever shares the list, the dataset or the innermost wrapper of the array, hold the rows followed by the new ones, and everything else holds what it held. A failing call changes nothing except that an HDF5 dataset which was resized before the value turned out not to fit keeps rows of fill values.",
  "all heaps of lists, arrays, datasets and wrappers in any sharing, all values, any depth of wrapping",
  "tests append one or two values to one object of each kind and never look at shared or failing data",
  "src/hdmf/data_utils.py: append_data, extend_data, DataIO.append, DataIO.extend",
  "src/hdmf/container.py: Data.append, Data.extend, Data.set_data_io",
  "src/hdmf/term_set.py: TermSetWrapper.append, TermSetWrapper.extend",
  "src/hdmf/backends/hdf5/h5_utils.py: ContainerResolverMixin, H5Dataset.append")
p("C100",
  "Data after any history of calls",
  "If the data of the data objects are apart (no list, array, dataset or wrapper in common) and rows of the right shape are given, then after any sequence of append, extend and set_data_io calls on any of them each holds what it held at first followed by what the succeeding calls gave to it, in order; failing calls and calls on others leave no trace. The data stay apart.",
  "all numbers of data objects, all sequences of calls",
  "tests make short sequences on one object",
  "src/hdmf/container.py: Data.append, Data.extend, Data.set_data_io",
  "src/hdmf/data_utils.py: append_data, extend_data",
  "src/hdmf/common/table.py: ElementIdentifiers._validate_new_data, ElementIdentifiers._validate_new_data_element")
p("C101",
  "The fields of a class",
  "When a class is defined, in any program of class statements, its fields are those of the last base that is a container and that it does not declare itself, followed by those of the declaration it has or inherits, each once. Their configurations are those of the last entry for the name, with the doc of the argument of the constructor if there is none, or those of that base. A property is made for exactly those fields that are no attribute of the class or of the classes above it; every other attribute stays what it was. Other classes are not changed. The order of classes keeps the order of the bases and that of each base. The statement fails exactly for bases without an order, no declaration, a declaration that is no tuple, or entries without name or with unknown keys.",
  "all programs of class statements with any number of bases and any declarations",
  "tests define a few classes with one or two fields and never combine several bases, redeclaration and subclasses without declaration",
  "src/hdmf/container.py: AbstractContainer._AbstractContainer__gather_fields, AbstractContainer._check_field_spec, AbstractContainer._check_field_spec_keys, AbstractContainer._get_fields, AbstractContainer._set_fields, AbstractContainer.get_fields_conf",
  "src/hdmf/utils.py: ExtenderMeta")
p("C102", "Row objects of tables",
  "Rows of a table are never changed or removed by any calls. Adding a row succeeds exactly if the arguments are the columns, with accepted values, and the data are a list; it returns the position, stores row objects as their positions, and changes nothing else, and nothing at all if it fails. As long as no position and no second table is claimed for a row object, every row object holds the row of its table at its position. Asking a table for a row gives the same object every time, which stays equal to what the table has there if the position is not negative; different positions give different objects, and equal objects hold the same row. Every row object has a position from the start, so its position cannot be set and setting its table adds nothing. A row object without table and position cannot be made. A class that inherits columns from a table class, and has no constructor of its own, cannot be instantiated.",
  "all histories of calls on any number of tables and row objects of any classes",
  "tests add two rows to one table and never look at negative positions, moved rows or subclasses",
  "src/hdmf/container.py: Row, RowGetter, Table.add_row, Table.__init__, Table._Table__build_table_class, Row._Row__build_row_class")
p("C103", "Queries on tables and their data frames",
  "A query for one column gives the positions of all rows with that value in increasing order; other numbers of columns are a ValueError, unknown columns a KeyError. Reading a column and reading its cells, from either end, agree. A data frame is accepted exactly if its columns are those of the class, or all but the one its index is named after, and the rows are then taken by name. A table that goes through a data frame is the same if pandas keeps the values of each column and of each row.",
  "all tables, values, columns and data frames",
  "tests use one table of each kind and never mixed numbers",
  "src/hdmf/container.py: Table.which, Table.__getitem__, Table.to_dataframe, Table.from_dataframe")
p("C104", "Classes made by MultiContainerInterface",
  "Every method a __clsconf__ asks for is a member of the class if no name is asked for twice, also if the class defines it itself. All other members are those the programmer wrote, then properties for attributes that are not there (nor in the metaclass), a constructor if the class has none, and what is inherited. A subclass without declarations has all the members of its base except for the constructor. A class statement fails exactly if a setting is missing or unusable, with the exception of the first one.",
  "all class hierarchies with all declarations",
  "tests have a handful of classes with one or two dictionaries and no subclasses of subclasses",
  "src/hdmf/container.py: MultiContainerInterface.__build_class, __make_add, __make_create, __make_constructor, __make_getitem, __make_get, __make_setter, __make_getter")
p("C105", "Objects of multi-container classes",
  "In every history every object is in a dictionary at most once, under its name, and nothing is ever removed, renamed or loses its parent. Adding appends the given objects in order and gives them a parent if they have none; it works exactly if the types fit and the names are new and different; if it fails then what comes before the first bad object was added. Asking for a name gives the object of that name, or KeyError; asking without name gives the only object. Creating adds a new object of the name. Assigning adds. The constructor fills every attribute with what it was given, and works only with different attributes and with types that are classes or tuples.",
  "all histories of calls on any objects of any such classes",
  "tests add one or two objects and do not look at what is left after a failure",
  "src/hdmf/container.py: MultiContainerInterface.__add, add_multi-container methods made by __make_add, __make_get, __make_create, __make_setter, __make_constructor")
p("C106", "Reading a file",
  "After every history of opening, reading, writing, exporting and changing containers, a read gives the container that the manager pairs with the root builder of the file; it is unmodified and read_io is the io that was read. Reading again gives the same container as long as the manager knows it, otherwise a new one; the manager forgets a container only when its cache is cleared or when it is modified and outdated containers are removed. A read fails exactly with UnsupportedOperation for a file that cannot be read or is empty, with AttributeError without a manager, or as construct does; never because the container belongs to another io.",
  "all histories of all ios that share a manager, all files and containers",
  "tests read a file once",
  "src/hdmf/backends/io.py: HDMFIO.read",
  "src/hdmf/container.py: AbstractContainer.read_io",
  "src/hdmf/build/manager.py: BuildManager.construct")
p("C107", "Writing a container",
  "A successful write passes on the builder that the manager pairs with the container and leaves nothing queued; a failing one passes on nothing. A container without builder gets the source of the io and is refused with ValueError if it has another one; an unmodified container with a builder is written as it is. The first write of new containers writes all containers reached, each with exactly its fields and references.",
  "all histories, all containers",
  "tests write small trees once",
  "src/hdmf/backends/io.py: HDMFIO.write",
  "src/hdmf/build/manager.py: BuildManager.build")
p("C108", "Exporting",
  "A container is exported if its io has a manager that knows it and its builder is in no other builder; otherwise ValueError is raised and nothing happens. Exporting changes no container. An unmodified container is exported with the builder from the file, unless the cache is cleared; otherwise with a new one, the old one is forgotten, and reading the file again gives another container. With the cache cleared all containers reached are exported with exactly their fields and references. Without container the builders of the file are exported, or with the cache cleared, what reading the file gives.",
  "all histories, all containers and ios",
  "tests export each file once, and look at the result only by reading it",
  "src/hdmf/backends/io.py: HDMFIO.export",
  "src/hdmf/build/manager.py: BuildManager.purge_outdated, clear_cache")
p("C109",
  "Object ids",
  "In every history no two objects get the same id unless they were made with it. An id never changes but by generate_new_id on the object or, with recurse, on one it descends from. That call gives every object of a tree a new id and no other object, marks the tree and all ancestors as modified and nothing else.",
  "all histories, all trees within the recursion limit",
  "tests renew the ids of one parent with one child",
  "src/hdmf/container.py: AbstractContainer.object_id, generate_new_id")
p("C110", "The dictionary of all objects",
  "When all_children succeeds its result is the object and its descendants, each once, and the dictionary has exactly these under their ids. It succeeds for trees of objects with different ids, fails with TypeError if two descendants have the same id, and always ends, also when objects are their own ancestors. all_objects is right when first used and from then on the same dictionary in every history until all_children is called again.",
  "all heaps of objects, all histories",
  "tests look at one tree that does not change",
  "src/hdmf/container.py: AbstractContainer.all_children, all_objects",
  "src/hdmf/utils.py: LabelledDict.__setitem__")
p("C111",
  "Walks to the parents",
  "get_read_io gives the io of the nearest object, itself included, that has one, and get_ancestor the nearest ancestor of the given type; None if there is none, AttributeError if the walk ends at a Proxy. read_io is set once and keeps its value in every history.",
  "all chains of parents, all histories",
  "tests have chains of two or three objects",
  "src/hdmf/container.py: AbstractContainer.read_io, get_read_io, get_ancestor")
p("C112", "Declaring parameters",
  "docval accepts a function exactly if every parameter dict is acceptable and otherwise raises at the first that is not. Parameters stand required ones first, in the given order, after any later operations. get_docval gives them by name, or ValueError. Parameters of declared functions can be declared again in any combination, and a function declared with those of another accepts the same calls. Once declared, a function accepts the same calls in every history in which its dicts are not changed by hand and only macros grow that existed at its declaration.",
  "all programs of declarations, macros and changes to dicts; all calls",
  "tests declare one function at a time and do not register macros afterwards",
  "src/hdmf/utils.py: docval, get_docval, docval_macro, get_docval_macro, __resolve_type, __check_enum_argtype")
p("C113", "Calling with the arguments of another function",
  "call_docval_func is the call by keywords without unknown ones (unless allowed) and without None for parameters with a default. A missing required parameter is TypeError if types are checked. What docval gives to a function is accepted again as keywords with the same result if no required parameter has a checked shape, so a function with the parameters of another that hands its arguments on runs it with the same arguments if None stands only where it is the default. popargs_to_dict takes out exactly the keys, or raises ValueError with the keys before the bad one gone.",
  "all signatures, all arguments",
  "tests use one signature",
  "src/hdmf/utils.py: fmt_docval_args, call_docval_func, popargs_to_dict")
p("C114", "Parents when a file is read",
  "At every moment of reading, in whatever order objects and links are read, the proxy of a container has the source and location of the proxy of its builder. Its parent is the proxy of the typed builder above, or a container with the same source, location and type; children are exactly those with this parent, once each. If all builders have types, names differ among siblings and each file has one top, nothing can be mistaken: the parent is the container of the builder above as soon as that has it in a field, independent of order. __resolve_parents never changes anything.",
  "all trees of builders, all histories of making containers and setting fields (not fields with the top of a file)",
  "tests read small files in one order",
  "src/hdmf/build/manager.py: Proxy, get_proxy, _get_proxy_builder, _get_proxy_container, construct, __resolve_parents, __get_parent_dt_builder",
  "src/hdmf/container.py: AbstractContainer.parent, Container._setter")
p("C115", "Predefined columns of classes",
  "After any list of class statements a table class with one base has the columns of that base followed by its own, so with single inheritance the columns of a class are those of all classes above it from the top down. With several bases and columns of its own it has those of the last base that is a container with columns, then its own. A class that says nothing has the columns of a class before it, possibly with those of one of the bases in front. Later classes never change the columns of a class, and a table class whose columns are not a tuple is refused with TypeError.",
  "all lists of class statements with any bases, any own columns",
  "tests define a few classes with one base",
  "src/hdmf/common/table.py: DynamicTable.__gather_columns",
  "src/hdmf/utils.py: ExtenderMeta")
p("C116", "Target tables and columns of generated classes",
  "A target table given to the constructor of a table is taken exactly if the named column is a region, possibly below one index, whose target is open or the same, or a predefined region with at most one index level in a table without rows; otherwise ValueError. After success every named column has its target; existing columns stay and only open targets are filled; only named predefined regions are added. Generated classes have one column for each field that does not end with _index, in order, with as many index levels as there are consecutive fields named as its indices.",
  "all tables, all predefined columns, all lists of targets, all lists of fields",
  "tests set one target in an empty table",
  "src/hdmf/common/table.py: DynamicTable._set_dtr_targets",
  "src/hdmf/common/table.py: DynamicTable.add_column",
  "src/hdmf/common/io/table.py: DynamicTableGenerator.process_field_spec")
p("C117", "Containers that the comparison of the test kit passes",
  "If assertContainerEqual passes for two containers whose objects hold what their classes declare (text, bytes, None, integers below ten million in arrays, lists and arrays of these, and other objects), the two are the same to every depth: classes, names, sources, ids, all fields and the data of all parts. Whatever they hold, classes, names, sources, ids and numbers of children agree and every field passes. Every object passes against itself if its references do not go back and no field is a non-empty dict. Ignoring more never fails a comparison that passes.",
  "all heaps of objects, all fields and nestings, all flags",
  "tests compare small containers that differ in one place",
  "src/hdmf/testing/testcase.py: TestCase.assertContainerEqual",
  "src/hdmf/testing/testcase.py: TestCase._assert_field_equal",
  "src/hdmf/testing/testcase.py: TestCase._assert_data_equal",
  "src/hdmf/testing/testcase.py: TestCase._assert_array_equal")
p("C118", "What a passed comparison does not say",
  "For a class without declared fields (such as SimpleMultiContainer) assertContainerEqual passes exactly if class, name, source, id and number of children agree, whatever the contents are. A field that is a dict with entries never passes against anything but a sequence, not even against itself. An object passes against itself only with a stack deeper than every chain of references from it, so never if its references go back to it.",
  "all heaps of objects, all stack depths, all flags",
  "tests use the comparison, they do not test it on tables that refer to themselves or on dict fields",
  "src/hdmf/testing/testcase.py: TestCase.assertContainerEqual",
  "src/hdmf/testing/testcase.py: TestCase._assert_field_equal")
p("C119", "Which override functions a mapper calls",
  "After any list of class statements, with one base each the function that mappers of a class call for a constructor argument or an attribute is the last one decorated for that name in the nearest class of the chain that has one. In general it is its own function or that of the next class in the order of classes that has a table of overrides: of several bases only the first mapper counts, and decorated functions of classes that are no mappers never count. Later classes never change what mappers of a class call, and a function decorated for both is used for the argument only.",
  "all lists of class statements with any bases, functions, decorations and tables",
  "tests define a single mapper with one or two overrides",
  "src/hdmf/build/objectmapper.py: ObjectMapper.__gather_procedures",
  "src/hdmf/utils.py: ExtenderMeta.__init__")
p("C120", "What overrides do to values",
  "When a container is constructed, its constructor gets, for every argument it declares and no other, what the override gives or, if that is None or there is none, what was read: lists of several sub-specifications for one argument joined in order, otherwise the last value. It fails exactly if an override fails, with the error of the first that does; every error of the constructor is a ConstructError. Without an override for name the container has the name of its builder, whatever the specification says. When a builder is made, the value of an override is used unconverted and None counts as no override.",
  "all overrides, sub-specifications, arguments and values",
  "tests use overrides that return values of the right type",
  "src/hdmf/build/objectmapper.py: ObjectMapper.construct",
  "src/hdmf/build/objectmapper.py: ObjectMapper.get_attr_value",
  "src/hdmf/build/objectmapper.py: ObjectMapper.__get_override_carg",
  "src/hdmf/build/objectmapper.py: ObjectMapper.__get_override_attr")
p("C121", "The page that shows a container",
  "The entries of the HTML page of a container are exactly the values below it: fields of containers, fields of tables except id, colnames and columns, values of dicts and elements of lists, each with its depth, key and access code, and with its text if it is text or a number. The access code is the python expression for the value when no table and no list element other than the first is on the way; below any other list element it is always wrong. There is a page exactly when every path below the container fits the stack, otherwise RecursionError; a container below itself never has a page. The page of a table ends with its first four rows and the number of the rest.",
  "all heaps of objects, values, depths and tables",
  "tests compare one page of one container literally",
  "src/hdmf/container.py: Container._repr_html_",
  "src/hdmf/container.py: Container._generate_html_repr",
  "src/hdmf/container.py: Container._generate_field_html",
  "src/hdmf/common/table.py: DynamicTable.generate_html_repr")
p("C122", "The text of a container",
  "The text of a container shows its fields sorted by name, each once, independent of the order in which they were set; exactly the empty fields that are no list, tuple or array are left out. A container without a length is shown with its whole text, every other value shortly; every element of a list of containers and every key of a dict with the type of its value is in the text. There is a text exactly when every chain of containers inside containers fits the stack, otherwise RecursionError; a container inside itself never has a text.",
  "all heaps of objects, fields, values and depths",
  "tests compare the text of a few containers literally",
  "src/hdmf/container.py: Container.__repr__",
  "src/hdmf/container.py: Container.__smart_str",
  "src/hdmf/container.py: Container.__smart_str_list",
  "src/hdmf/container.py: Container.__smart_str_dict")
p("C123", "A table that is written and read",
  "A table of which some column has a value is read as it was written, in whatever order the file gives its datasets: as many rows, the same names in the same order, for each name the same outermost column; it is what copy gives. A table of which no column has a value is read with the names in the order of the file, each with its column, so sorted by name for HDF5; its order is kept when builders are constructed without a file and when a table that was read is written again. Every table the constructor makes from columns that belong together, with or without names, is of this kind.",
  "all tables of columns, indices and enumerations, and all orders of datasets in the file",
  "tests write a few tables with rows and compare names",
  "src/hdmf/common/io/table.py: DynamicTableMap.attr_columns",
  "src/hdmf/common/table.py: DynamicTable.__init__",
  "src/hdmf/container.py: Data.__bool__",
  "src/hdmf/backends/hdf5/h5tools.py: HDF5IO.__read_group")
p("C124", "Queries over datasets",
  "Indexing a dataset that wraps an array with a comparison gives the elements that satisfy it, in order; so for a sorted array, except that values from the greatest on are refused by <=, >, == and !=. A dataset that wraps a list or a dataset of a file cannot be queried. A query as operand is evaluated but not used. In a key, queries are replaced by their results and tuples of values by lists, and nothing is left to evaluate. As a comparison with a dataset is always true, a list with anything in it contains every dataset and a list with a dataset contains everything.",
  "all arrays, sorted arrays, values, operators, keys and lists",
  "tests evaluate one query per operator on one array",
  "src/hdmf/query.py: Query.__evalhelper",
  "src/hdmf/query.py: HDMFDataset.__evaluate_key",
  "src/hdmf/query.py: HDMFDataset.__getitem__",
  "src/hdmf/query.py: HDMFDataset.__build_operation",
  "src/hdmf/array.py: AbstractSortedArray")
p("C125", "What queries remember",
  "As long as nothing is written, queries give what they mean, expanded and collapsed, however often and in whatever order they and the queries they are made of are evaluated. A result once given is given for ever, whatever is written: after the values of an array were replaced, a query that was evaluated picks the new values where the old ones satisfied it, or raises IndexError if their number is another; only a query that failed or gave None is evaluated anew. The collapsed result carries all of the expanded one.",
  "all sequences of comparisons, evaluations and writes over all datasets",
  "tests evaluate a query once and never change the data",
  "src/hdmf/query.py: Query.evaluate",
  "src/hdmf/query.py: Query.__evalhelper",
  "src/hdmf/query.py: Query.__collapse")
p("C126", "Ids compared with ids",
  "Comparing the ids of a table with an id or a list of ids gives the positions of the ids that are among them, each once and in order, so the rows selected by it are those with these ids in the order of the table; anything else than integers is refused. != is the negation of that as a condition: true if there is no position or only position 0, false for one other position, and an error for several.",
  "all ids and all ids compared with",
  "tests compare with one list",
  "src/hdmf/common/table.py: ElementIdentifiers.__eq__")
p("C127", "Tables compared",
  "Two tables in good order are equal exactly if they have the same name, description, ids and columns of the same names in the same order with the same dtypes and cells, and the comparison never fails; it is an equivalence if that of the cells is. Tables are equal however they came to their rows and columns. A table is equal to itself and to nothing that is no table.",
  "all tables, all comparisons of cells, all histories of adding rows and columns",
  "tests compare a table with itself and one copy",
  "src/hdmf/common/table.py: DynamicTable.__eq__",
  "src/hdmf/common/table.py: DynamicTable.to_dataframe")
p("C128", "Sparse matrices made",
  "Index arguments are accepted exactly if they are one-dimensional arrays of natural numbers, and no element or item size changes; lists must not be empty. A matrix given in parts is made exactly if the parts fit together, of what the pointers count; given in rows, it has their elements and stores those that are not 0 in the order of their columns, and the other arguments are ignored. Anything else is refused with ValueError, or OverflowError for a shape that int64 cannot hold.",
  "all arrays, lists, parts and rows",
  "tests make a few small matrices",
  "src/hdmf/common/sparse.py: CSRMatrix.__init__",
  "src/hdmf/common/sparse.py: CSRMatrix.__check_arr",
  "src/hdmf/utils.py: to_uint_array")
p("C129", "Sparse matrices written and read",
  "A matrix whose parts fit together is read with the parts and elements it was written with, and again ever after; all that CSRMatrix makes of rows or parts fits together. One with a negative index or pointer cannot be written. An attribute looked up before the data is set raises RecursionError.",
  "all sparse matrices",
  "tests write and read one matrix",
  "src/hdmf/common/sparse.py: CSRMatrix.__getattr__",
  "src/hdmf/common/sparse.py: CSRMatrix.__init__",
  "src/hdmf/utils.py: to_uint_array")
p("C130", "Attributes written and read",
  "An attribute can be written exactly if it is text, bytes, a number, an array of numbers, bytes or strings, a list or tuple of strings, an evenly nested list or tuple of numbers and bytes, or a reference; what is read are scalars as they were and arrays of the same shape and elements, with text for unicode and for bytes in lists, and writing that again stores the same. Sets, lists that begin with a container and nested lists of strings can never be written. If an attribute fails it is RuntimeError and exactly the attributes before it are written. All attributes but the place of the cached specifications are read, unless one is a region reference.",
  "all values, all lists of attributes, all files",
  "tests write a few values",
  "src/hdmf/backends/hdf5/h5tools.py: HDF5IO.set_attributes",
  "src/hdmf/backends/hdf5/h5tools.py: HDF5IO.__read_attrs")
p("C131", "References added at the end of a write",
  "The loop over the queued references ends. It succeeds exactly if the targets of all references are in the file and the attributes of all datasets of references can be stored; then every one of these attributes and datasets has its references, nothing else has changed and the queue is empty. Otherwise it is RuntimeError; if a target is missing, all other references to objects were added before.",
  "all queues of attributes and datasets of references with attributes",
  "tests write files whose references are all resolved",
  "src/hdmf/backends/hdf5/h5tools.py: HDF5IO.__add_refs",
  "src/hdmf/backends/hdf5/h5tools.py: HDF5IO._make_attr_ref_filler",
  "src/hdmf/backends/hdf5/h5tools.py: HDF5IO.write_dataset")
p("C132", "What a processor of chunks counts",
  "Whatever was done with an iterator and the processors over it, the result of a processor is the total length of the chunks which its own next gave, provided its own next has come to the end, and an AttributeError otherwise (NotYetExhausted is never raised); a result never changes; a processor which alone takes the chunks along the first axis counts exactly the values of the stream, and processors which share a stream split its values; a loop over a processor counts nothing. A NumSampleCounter can be made only of a subclass that defines dtype and maxshape.",
  "all streams, buffer sizes, numbers of processors and sequences of calls",
  "there are no tests of monitor.py",
  "src/hdmf/monitor.py: DataChunkProcessor",
  "src/hdmf/monitor.py: NumSampleCounter")
p("C133", "When two validation errors are equal",
  "With a hash that tells strings apart and names and places without parentheses, two placed errors are equal exactly when the last parts of their names, their places and their reasons agree; without a place the whole names count. Alike errors are equal for every hash; for every hash with finitely many values there are different errors that are equal. Errors of different classes never have the same reason. An error is equal to the string it is hashed as, and comparing it with an unhashable object fails.",
  "all errors, hashes and objects compared with",
  "tests compare a few errors and cannot vary the hash",
  "src/hdmf/validate/errors.py: Error.__eq__",
  "src/hdmf/validate/errors.py: Error.__equatable_str")
p("C134", "Which validation errors are reported",
  "Removing duplicates keeps errors in order, no two with the same hash, and one equal to each that was found; if errors can be told apart exactly one of each class of alike errors is kept. The place of a builder is the path of names below the nearest builder called root, different builders have different places unless one within the file is called root, and the same problem at different places is reported for each; below builders called root places coincide and one of the errors is lost.",
  "all lists of errors, all builder paths, all hashes",
  "tests use a few builders, none of them called root within a file",
  "src/hdmf/validate/validator.py: GroupValidator._remove_duplicates",
  "src/hdmf/validate/validator.py: Validator.get_builder_loc")
p("C135", "What a SimpleMultiContainer is after it has been written and read",
  "The new elements of a SimpleMultiContainer which are its children are written as datasets and groups in order, all others as links, and an element without parent that the file does not have is a BuildError. Elements read from the same file are left alone, those from another file or parent are linked, and an unmodified element without source is a ValueError. Reading works exactly for files in which every dataset and group has a type of a known namespace, and gives those below Data and then those below Container, never the links. So after writing and reading there are exactly the children, data first, each part ordered by name; if all elements are children none is lost, and all others are lost. Exporting and reading again changes nothing any more.",
  "all lists of elements with any parents, sources and states, all type hierarchies, all files",
  "tests write a container with one group and one dataset, both children",
  "src/hdmf/common/io/multi.py: SimpleMultiContainerMap.containers_carg",
  "src/hdmf/build/objectmapper.py: ObjectMapper.__add_containers",
  "src/hdmf/build/manager.py: BuildManager.is_sub_data_type")
p("C136", "Which value DynamicTableMap writes for the spec of a column",
  "A value that ObjectMapper finds is written, and its errors are raised. If it finds none, the object the table has under the name of the spec is used: for VectorData the column behind at most one index, for DynamicTableRegion the region if it has a table (a ValueError without one, an AttributeError for a column that is no region or behind two indices), for VectorIndex the object itself, for other types nothing; behind two or more indices a VectorData spec gets an index. An attribute spec without value but with a column of its name is an AttributeError. A new column becomes an attribute of the table, and then is what is written for it, unless the table has an attribute of that name which is not an uninitialised column.",
  "all tables, columns with any number of indices, specs and attribute values",
  "tests use tables whose columns are attributes, so that the other branches are not reached",
  "src/hdmf/common/io/table.py: DynamicTableMap.get_attr_value",
  "src/hdmf/build/objectmapper.py: ObjectMapper.get_attr_value",
  "src/hdmf/common/table.py: DynamicTable.__set_table_attr")
p("C137", "What set_data_io does to a container",
  "If it works, the field holds a wrapper of the class with the options around the data, or around an iterator over it; a field without value is a ValueError; data which is not an array, such as data already wrapped, is a TypeError without an iterator, so a second call for a field fails. With an iterator wrappers are put around wrappers. An error changes nothing, other fields stay, no field appears, and after any calls the data within is the same and the container is not marked as modified. Keyword arguments replace the dictionary of options altogether; a warning is given exactly for keyword arguments or no dictionary.",
  "all containers, options, wrapper and iterator behaviours, and sequences of calls",
  "tests call it once per container",
  "src/hdmf/container.py: Container.set_data_io",
  "src/hdmf/data_utils.py: DataIO.__init__",
  "src/hdmf/backends/hdf5/h5_utils.py: H5DataIO.__init__")
p("C138", "Which class generators a type map uses after registering, copying and merging",
  "A registered generator comes to the front once and processes every field it applies to, nothing changing for other fields; classes that are no generators are refused. In every reachable type map no generator is there twice and the two of TypeMap are there, so copies keep the order exactly. Merging puts the generators of the other type map first, in their order; so, as CustomClassGenerator applies to every field, the own generators of the merged-into map are never used again, also for get_type_map with a list holding a type map. Merging a type map with itself, as get_type_map does with a type map given, permutes the generators: the last but one becomes the last, so the one before CustomClassGenerator, such as MCIClassGenerator, is never used again.",
  "all lists of generators, all fields and all ways generators apply, all histories of type maps",
  "tests register one generator in one type map; the list changed while it is iterated over is only seen with more than one",
  "src/hdmf/build/classgenerator.py: ClassGenerator.register_generator, ClassGenerator.generate_class",
  "src/hdmf/build/manager.py: TypeMap.merge, TypeMap.__copy__",
  "src/hdmf/common/__init__.py: get_type_map")
p("C139", "What get_type_map gives out, and what it shares",
  "Without argument a new type map equal to the global one is given out; no later operation on one type map changes another, also none that fails. The type configuration is shared by all copies for ever, but not by type maps made with TypeMap(), which nothing done to others reaches. A type map that is given comes back itself, without the global types. A type map in a list adds its classes over those of the copy if the copy knows all the types, and no namespaces; otherwise it is a KeyError or ValueError about one of its types. Anything else in a list is a ValueError. A path adds exactly the namespaces that are not there, keeping the classes of the others, and every included type has a class or a source.",
  "all sequences of operations on any number of type maps and configurations, all namespace files",
  "tests look at single calls; sharing and isolation are about every later operation on every type map",
  "src/hdmf/common/__init__.py: get_type_map, load_type_config, get_loaded_type_config, unload_type_config",
  "src/hdmf/build/manager.py: TypeMap.__copy__, TypeMap.merge, TypeMap.load_namespaces, TypeMap.register_container_type",
  "src/hdmf/term_set.py: TypeConfigurator")
p("C140", "What getargs and popargs give out and leave behind",
  "getargs gives the value of one name, or the list of the values of several in their order, and fails with a ValueError just if a name is missing. popargs gives the same values and leaves exactly the other keys, in order, if no name is there twice; at the first name that is missing, or there for the second time, it fails with a ValueError and the names before it have been taken out. Keys that are not named are never changed, whatever the arguments and also on errors. Fewer than two arguments or a last one that is no dictionary are ValueErrors, a dictionary as first name a TypeError that leaves the dictionary as it was. popargs_to_dict splits the dictionary in two in the same way.",
  "all lists of arguments and all dictionaries",
  "tests use up to three names in small dictionaries; repeated names and the state after an error are not looked at",
  "src/hdmf/utils.py: getargs",
  "src/hdmf/utils.py: popargs",
  "src/hdmf/utils.py: popargs_to_dict")
p("C141", "Which functions ExtenderMeta runs for a class, and in what order",
  "The functions considered are the first definitions of names along the attribute lookup, sorted by name, each name once: first all those marked with pre_init, then those marked with post_init of the class as the first ones left it. They run again for every class below. Nothing runs after a function that fails, whatever the functions set on the class, its error is the one raised, and there are no other errors; if one for before fails none for after runs.",
  "all classes and bases, all marked functions, whatever they set and raise",
  "there are no tests of its own; the classes using it have one or two functions, so overriding, order by name and functions that add functions do not show",
  "src/hdmf/utils.py: ExtenderMeta.__init__",
  "src/hdmf/utils.py: ExtenderMeta.pre_init",
  "src/hdmf/utils.py: ExtenderMeta.post_init")
p("C142", "Which specifications a group specification gives for a type and for a name",
  "After any sequence of set_group, set_dataset and set_link, also with some that fail, get_data_type gives for a type the specification without name if one was added, else the only one, else the list of all in order of addition, of groups and datasets together; get_target_type likewise for links. By name the last one added is found, links counting for groups and datasets. An addition fails just for a second one without name of a type, an empty type, or neither name nor type, and then changes nothing.",
  "all sequences of additions, failing ones included, all names and types",
  "tests have two or three additions in one order; the replaced and extended dictionary entries depend on the whole history",
  "src/hdmf/spec/spec.py: GroupSpec.__add_data_type_inc",
  "src/hdmf/spec/spec.py: GroupSpec.set_group, set_dataset, set_link",
  "src/hdmf/spec/spec.py: GroupSpec.get_data_type, get_target_type, get_group, get_dataset, get_link")
p("C143", "Which specification get_subspec gives for a builder",
  "A specification of the name of the builder comes first, whatever its type. Else the nearest type of the hierarchy of its type with a specification counts, data types before targets of links for the same type; nothing is given just if there is none, or the builder has no type. A link is treated as its target with the name of the link. The only errors are those of looking up the hierarchy, and an AttributeError for every dataset specification as parent.",
  "all group specifications, hierarchies, builders and links",
  "tests have one named and one typed child; the order along the hierarchy and between data types and targets needs several",
  "src/hdmf/build/manager.py: TypeMap.get_subspec",
  "src/hdmf/build/manager.py: TypeMap.get_builder_dt, TypeMap.get_builder_ns")
p("C144", "Which builders count as written",
  "The key made of the address and the name of a builder determines both. A builder that was written counts as written for ever. As long as all written builders exist, just the written ones count as written; in general one that was not written counts as written only if a written builder of the same name no longer exists and it has got its address.",
  "all histories of builders being made, written and freed, all addresses and names",
  "an address is used again only by chance, so no test can show or exclude it",
  "src/hdmf/backends/utils.py: WriteStatusTracker",
  "src/hdmf/backends/hdf5/h5tools.py: HDF5IO.get_written")
p("C145", "Files held open by an HDF5IO",
  "After close the file of the HDF5IO and every file reached through its links are closed, and no other; each linked file is closed once. Whatever was done before, a file open after close was open at the start or was opened by the user. Closing twice is the same as once. A closed HDF5IO is never open again: open does nothing and gives no error. Closing works after a constructor that failed.",
  "all states, all sequences of opening, closing, reading of links and of h5py calls by the user",
  "files stay open without being noticed except on Windows, and tests use few links",
  "src/hdmf/backends/hdf5/h5tools.py: HDF5IO.open, close, close_linked_files",
  "src/hdmf/backends/io.py: HDMFIO.__exit__, __del__")
p("C146", "Inverted reference datasets",
  "Inverting a dataset of references gives a new dataset of the same kind on the same data, IO object and types that resolves to the other side (containers or builders); no other dataset changes in what it shows. Inverting twice gives a dataset that shows the same as the first. Every call makes a new object.",
  "all heaps of reference datasets, all sequences of calls",
  "tests invert a dataset at most once",
  "src/hdmf/backends/hdf5/h5_utils.py: DatasetOfReferences.invert, get_inverse_class")
if __name__ == "__main__":
    for x in P:
        print(json.dumps(x))
