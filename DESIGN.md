# Formal model of hdmf in Rocq/Coq: design

The code under study is `/repo` (hdmf, Python). It is read as text only.
The model is in `rocq/theories`, one directory per area:

| file            | content |
|-----------------|---------|
| `<Area>/Model.v`  | executable Gallina functions that mirror the Python functions branch by branch; every definition cites file and lines. No proofs. |
| `<Area>/Spec.v`   | (where needed) small independent specification used in theorem statements |
| `<Area>/Proofs.v` | lemmas and proofs (large areas have several proof files) |
| `<Area>/Examples.v` | concrete objects used by the examples and as witnesses of the refutations |
| `<Area>/Props.v`  | the property theorems only, each closed by `exact lemma.` with `Print Assumptions`, and `Example`s showing that the hypotheses are met by a concrete case |

## Conventions

* A Python exception is a value: functions return `Ok v` or `Err e` where `e` names the exception class
  (`Base/Base.v`). A method that mutates and then raises returns the *mutated* state together with the error, so
  that non-atomic failures are visible.
* Lengths, indices and row numbers are `nat` (or `Z` when Python allows negative values). Integer widths are only
  modelled where the property is about width (offset precision, dtype conversion), with `N`.
* Cell values are abstract: theorems are polymorphic in the type of values wherever the code does not look at them.
* Object identity (`is`) is modelled by numeric identifiers.
* If the natural English claim is false of the faithful model, the theorem is named `..._refuted` and states the
  witness; the strongest true variant is proved beside it. If only a part is proved the name ends in `_partial`.

## Trusted base

* Coq 8.16.1's kernel (and `coqchk`), `vm_compute` where used for closed examples.
* `Print Assumptions` is run under every property theorem. The answer is `Closed under the global context` for every one of
  them: no axiom is used. (`coqchk` also lists the seven opaque constants of `Coq.ssr.ssrunder`, which belong to a library file
  that is loaded and not used.)
* The reading of the Python text recorded in the comments of the `Model.v` files. Third-party libraries (numpy,
  h5py, pandas, ruamel.yaml, linkml) are not modelled except for the few operations listed per area (list/array
  append, slicing, `np.unique`, `np.searchsorted`, HDF5 group/dataset/attribute storage as a tree), whose behaviour
  is given by the model's own definitions and is an assumption about those libraries.
* Not modelled anywhere: logging, warnings text, docstrings, performance, MPI, HDF5 bytes on disk, YAML/JSON text syntax.
* The model is tied to the Python text by reading only. The seeded tests (`seeded/LOG.jsonl`) show that the theorems notice
  wrong programs; they do not show that the model is the program.

## Areas: what is modelled, what is not

Lines are of `/repo/src/hdmf`. The head comment of each `Model.v` gives the simplifications in full.

| area | claims | modelled | left out |
|------|--------|----------|----------|
| `Ragged` | C01-C05 | common/table.py 22-204, add_column's flattening 700-760; data_utils.py 20-69 | zarr stores |
| `Table` | C06-C12 | common/table.py 255-1344: construction, add_row, add_column, get, create_region; DynamicTableRegion; EnumData | data frames beyond rows, from_dataframe |
| `Links` | C13 | common/table.py 1143-1207 | |
| `Container` | C14-C16, C55 | container.py: parent, children, modified, fields, all_children | html and text output |
| `LDict` | C17, C18 | utils.py 971-1138, container.py 1092-1253 | |
| `Docval` | C19, C20 | utils.py: type checks, parse_args, the decorated call | macros, docstring generation |
| `Shape` | C21, C22, C56 | utils.py get_data_shape, is_ragged; data_utils.py assertEqualShape | |
| `Chunks` | C23-C27 | data_utils.py GenericDataChunkIterator, DataChunkIterator, DataIO; h5_utils.py write queue | progress bars, floating point n-th root is a parameter |
| `SpecCat` | C28 | spec/catalog.py | |
| `SpecRes` | C29 | spec/spec.py: resolve_spec and what it calls | remaining spec properties are opaque |
| `NsLoad` | C30, C57 | spec/namespace.py 225-543 | the text of files |
| `Builders` | C31, C32 | build/builders.py; posixpath.normpath | |
| `Manager` | C33, C58 | build/manager.py 84-314 with the calls back from the mapper | names and data (in `Objmap`) |
| `Dtype` | C34, C35 | build/objectmapper.py 72-336; validate/validator.py 20-182 | how numpy casts one element is a parameter |
| `Valid` | C36-C38, C59, C60 | validate/validator.py; the quantity rule of objectmapper.py | message text |
| `Herd` | C39, C40, C61-C64 | common/resources.py 161-1085; container.py 1341-1630 | csv text |
| `Aligned` | C41 | common/alignedtable.py 12-357 | |
| `H5tree` | C42 | h5tools.py write_builder, write_group, write_link, write_dataset (structure), read_builder and the readers | external links, compound data, h5py datasets as data |
| `H5io` | C43, C44, C45, C53 | h5tools.py: cached namespaces, order of loading, reference queue and fillers, modes | |
| `Terms` | C46, C51, C69 | term_set.py; container.py 105-168 | LinkML itself |
| `Hier` | C47, C70 | common/hierarchicaltable.py | pandas beyond `loc`, `drop`, `join` |
| `Sorted` | C48 | array.py | NaN, rounding |
| `Writer` | C49, C71 | spec/write.py | YAML text |
| `Slicer` | C50 | region.py ListSlicer | |
| `Dims` | C52, C54 | objectmapper.py 640-677, 818-884 | |
| `Objmap` | C65-C68 | objectmapper.py 380-1386; manager.py 781-828 | override functions, datasets of references, compound data |
| `TypeMap` | C72-C75 | build/manager.py 395-778 (classes, mappers, copies) | class generation beyond base and field classes; get_subspec; deep copies |
| `ClassGen` | C76-C78 | build/classgenerator.py 54-103, 195-366, 376-474; container.py 75-92, 217-275, 577-623, 1142-1175, 1297-1301 | positional calls (Docval); declared types of fields are numbers and what they accept a parameter; hand-written constructors bind, name and assign; parents and children |
| `SpecDict` | C79-C81 | spec/spec.py 20-77, 86-116, 150-285, 305-363, 527-570, 572-616, 636-695, 787-824, 880-903, 1134-1230, 1252-1330, 1386-1396 | parents of specifications; included specifications given as objects (SpecRes); warnings; renamed keys; the lists of named specifications per type |
| `SpecCache` | C82 | backends/utils.py 82-109; spec/spec.py 391-414, 440-441, 1034-1130 | which keys of the dictionary are copied (the body of a spec is one value); ordering of types in the written source; writing the JSON |
| `SpecCopy` | C83 | backends/utils.py 82-109; spec/spec.py 124-131, 365-367, 451-458, 511-513, 749-761, 833-835 | which sub-specifications are kept (SpecCache) |
| `H5link` | C84-C86 | h5tools.py 622-646, 1039-1099, 1137-1200, 1330-1334; posixpath abspath, dirname, join, normpath, relpath | symbolic links of the file system, elink prefixes, link cycles beyond fuel, names of objects with several hard links |
| `H5data` | C87-C89 | h5tools.py 671-738, 873-950, 1202-1243, 1307-1364, 1464-1557; h5_utils.py 182-282 | values of stored numbers (the conversion to the stored type is a parameter), chunking and compression, compounds inside compounds, h5py's own indexing beyond integers and ranges |
| `H5opts` | C90, C91 | h5_utils.py 445-685, data_utils.py 1015-1029, 1051-1059, h5tools.py 1124-1135, 1320-1334, 1368-1437, 1464-1488 | what h5py does with the arguments (a parameter that accepts or refuses them), which filters exist (parameters), options of reference and compound datasets |
| `Frame` | C92 | table.py 584-632 (columns from a frame), 1112-1135, 1205-1227 (all rows), 1260-1335 (index of the frame) | pandas itself (a frame is an integer index and named columns of cells), `index_column`, classes `table`, `enum` and `class` of declared columns, nested frames of region columns |
| `Columns` | C93 | table.py 321-498 (columns and colnames), 501-509, 1011-1018, 1337-1344 | class columns declared in `__columns__` (C09), target_tables, the values of the columns (an object is a name, a length and its target or elements), warnings |
| `Refs` | C94, C95, C96 | objectmapper.py 729-842, 886-1059, manager.py 197-203, 221-242, builders.py 107-113, 358-362, 419-448 | sub-groups, sub-datasets and links (Manager, Objmap), names, sources, dimension labels (Dims), reference resolvers, wrappers other than H5DataIO; the values found for attributes and the conversion of values are parameters; a numpy array is the sequence of its rows |
| `NsCache` | C97, C98 | backends/utils.py 46-83 (convert_namespace, get_source_name), h5tools.py 201-224, 399-417, h5_utils.py 364-420, namespace.py 368-378, on top of NsLoad, Writer and H5io | the copy made of one spec (parameter `cp`, see SpecCache and SpecCopy), doc/author/contact of namespaces, several versions in one file (H5io), JSON text |
| `Grow` | C99, C100 | data_utils.py 20-69, 1075-1079 (append_data, extend_data, DataIO), container.py 984-1010 (Data.append, extend, set_data_io, checks), term_set.py 300-342, h5_utils.py 109-122, table.py 240-252, on a heap of shared lists, arrays, datasets and wrappers | structured and Zarr arrays, scalar datasets, element types and conversions, iterators given to extend (Terms) |
| `Fields` | C101 | `AbstractContainer.__gather_fields`, `_check_field_spec`, `_check_field_spec_keys`, `_get_fields`, `_set_fields`, `get_fields_conf`, run by `ExtenderMeta`; C3 order and attribute lookup | getters and setters are the configuration they were made from; values of settings are numbers |
| `Rows` | C102, C103 | `Table` (`__init__`, `add_row`, `which`, `__getitem__`, `to_dataframe`, `from_dataframe`), `Row` (generated `__init__`, `idx`, `table`, `__eq__`), `RowGetter`, generated constructors along a chain of classes | columns have no defaults and different names; docval's check of a value is a parameter; attributes of row objects are not assigned; pandas columns are of integers, floats or objects |
| `Multi` | C104, C105 | `MultiContainerInterface`: `__build_class` and everything it makes (add, get, create, `__getitem__`, properties, constructor), method resolution order, what objects of these classes hold | arguments of `create` other than the name; constructors of classes between the class and `MultiContainerInterface`; `__clsconf__` keys other than the five; text of documentation; reading from files (`in_construct_mode`) |
| `Session` | C106–C108 | `HDMFIO.read`, `write`, `export` with the setter of `read_io`, on top of `Manager` | one manager for all ios; files are not written back (what is written is a list of builders); reading the external resources; `write_builder` (in `H5tree`, `Writer`) |
| `Ids` | C109–C111 | `object_id`, `generate_new_id`, `all_children`, `all_objects`, `read_io`, `get_read_io`, `get_ancestor`, on top of `Container` | `uuid4` is a counter; objects without the attribute `children` |
| `Decl` | C112, C113 | the checks of the decorator `docval`, `get_docval`, `docval_macro`, `get_docval_macro`, `fmt_docval_args`, `call_docval_func`, `popargs_to_dict`, on top of `Docval` | docstrings and the keys `doc` and `help`; changes by hand that add or remove a `default`; warnings |
| `Adopt` | C114 | manager.py 15-80, 103-139, 273-314; container.py 504-536, 610-621 for containers being read | modified flags (Container); the manager and what is in the fields (Manager, Objmap); names are those of the builders |
| `Predef` | C115, C116 | common/table.py 281-305, 549-582, the parts of 835-940 and 1005-1022, 1137-1141 they use; common/io/table.py 62-110 | data of columns (Columns, Ragged); extra keys of `__columns__`; a column called id |
| `Compare` | C117, C118 | testing/testcase.py 37-238 | floats are exact rationals, no nan; dtypes of arrays except numeric or not; messages and subTest (a failed part fails the whole); shapes of arrays beyond lengths of nested sequences |
| `Override` | C119, C120 | objectmapper.py 28-70, 338-401, 530-588, 1321-1369; utils.py 842-883 | conversion of text and filter by type are parameters; functions are numbers and give a value or an error |
| `Show` | C121, C122 | container.py 625-637, 685-752, 754-827; table.py 1229-1256 | styles and scripts of the page; text of numpy arrays and of rows by pandas are parameters; subclasses that change _generate_field_html |
| `Reread` | C123 | common/io/table.py 9-22; container.py 962-968; h5tools.py 648-672 (order of members); table.py 321-498 through area Columns | class columns; values of the columns |
| `Query` | C124, C125 | query.py 8-163; array.py through area Sorted | more than one dimension; indexing datasets of h5py with other keys than NotImplemented; subclasses that add operations |
| `Equal` | C126, C127 | common/table.py `ElementIdentifiers.__eq__` 217-241, `DynamicTable.__eq__` 722-740 | `pandas.DataFrame.equals` beyond names, index, dtype and cells; tables compared with a table of another class |
| `Sparse` | C128, C129 | common/sparse.py 7-57; utils.py `to_uint_array` 938-954 | scipy beyond the documented checks of `csr_matrix` without its full check; data chunk iterators as data; elements that are no integers |
| `Attrs` | C130, C131 | h5tools.py `set_attributes` 951-983, `_make_attr_ref_filler` 985-999, `__add_refs` 855-875, fillers of `write_dataset` 1219-1317, `__read_attrs` 748-760 | containers that numpy takes for sequences, zero-dimensional and structured arrays, writing of region references; what h5py makes of lists of strings and other things is a parameter |
| `Monitor` | C132 | monitor.py; AbstractDataChunkIterator's abstract methods (data_utils.py 72-140), DataChunk.__len__, on top of `Chunks` | errors of the iterable; chunk iterators other than DataChunkIterator over an iterable |
| `Errors` | C133, C134 | validate/errors.py; validator.py `get_builder_loc` 327-334, `_remove_duplicates` 605-617 | Python's hash of strings (a parameter); how types, shapes and data are turned to strings |
| `MultiMap` | C135 | common/multi.py; common/io/multi.py; objectmapper.py `__add_containers` 1154-1214; manager.py 355-371; namespace.py 335-341 | what is within an element; name clashes (area LDict); rebuilding of builders that exist |
| `TabMap` | C136 | common/io/table.py 24-50; objectmapper.py 558-600, 643-677; common/table.py 501-508, 966-970, 1012-1021, 1137-1141 | conversion of texts; where the columns of the table come from (areas Columns, Predef) |
| `SetIO` | C137 | container.py 829-873; data_utils.py 1003-1030; h5_utils.py 451-520 (what is taken as data) | which options a class refuses and which data can be iterated over (parameters) |
| `Handout` | C138, C139 | common/__init__.py 23-60, 159-195; build/manager.py 404-490, 759-768; build/classgenerator.py 13-33, 66-74; the configurator is that of `Terms` | mapper classes (area `TypeMap`), types that included types depend on, classes generated while namespaces are loaded, the memory of loaded paths |
| `Args` | C140, C141 | utils.py 764-839 (getargs, popargs, popargs_to_dict), 842-883 (ExtenderMeta) | the texts of errors, keys other than texts, functions that delete attributes, the metaclass of the metaclass |
| `Subspec` | C142, C143 | spec/spec.py 1140-1368 (the dictionaries by type and by name); build/manager.py 631-703 | what is in a specification beyond name and type; copies of specifications with a parent (area SpecDict); the hierarchy (area SpecCat) |
| `Track` | C144 | backends/utils.py 7-43 | which objects Python frees and which addresses it gives out (operations chosen freely) |
| `Handles` | C145, C146 | HDF5IO.open, close, close_linked_files, the objects kept for external links; DatasetOfReferences.invert and the inverse classes | a file is a number; h5py objects are true if their file is open; closing a file never fails; drivers and MPI |

Method of proof: operations of a class are a `step` function; invariants are proved by induction over arbitrary lists of
operations, failing ones included. Recursive structures (specs, builders, nested data, files) are proved by structural induction.
Loops of the code without an evident bound take fuel; running out of fuel is an error value that the statements exclude, or the
fuel is shown to suffice (C13, C42, C45). Round trips are stated between the two independent directions (write/read, build/construct,
flatten/rebuild).

## Seeded tests

`seeded/LOG.jsonl` has one line per wrong program: the definition of the model that was edited, the edit, the claim it
breaks, the theorems, examples and lemmas that no longer check, and the theorems that were tightened because an edit was missed at
first. Edits that were missed and then caught have one line, with the theorems that were tightened. Four lines have no failed theorem:
* `const_arg` of `Objmap` (objectmapper.py 1338-1345) merges the values of two specifications mapped to one argument, and by
  `C67_injective` no two specifications are, so the edit is equivalent.
* The edits of `resolve_loop` of `Adopt` (C114) and of `length_of` of `Show` (C122) were judged equivalent by reading; there is no proof of that.
* The edit of `has_types` of `Handout` (C139) was missed. `C139_known` and `C139_lacking` were added for it. The run after that shared its
  scratch directory with another batch by mistake, so its result was thrown away and was not repeated.

No wrong programs were tried against the claims of `Handles` (C145, C146), and about half of those prepared for `Args`, `Subspec` and
`Track` (C140 to C144) were run.

## Findings

Where the natural claim is false of the code, the theorem `Cnn_..._refuted` gives the witness. Each is a statement about the model,
so about the code as far as the model is faithful.

Tables and columns
* `VectorIndex[-n]` (the first row counted from the end) and an empty index list raise IndexError (C01).
* A 1-D ndarray target is corrupted by add_vector; an h5py-backed index that passes 255 raises after the target was extended and merges vectors (C01).
* The depth check of add_column looks at the first flat element only (C05). Explicit offsets are not validated (C06).
* add_row is not atomic: a None or too shallow cell raises after the id and some columns were extended; a rejected row may have added optional columns (C06, C09).
* An empty row list on a table with a ragged column raises IndexError; a list of Python bools indexes rows 0 and 1 (C07). Same for a region over such a table (C11).
* Duplicate ids are possible without enforce_unique_id (C08). Numbers stored in a region are never checked (C11).
* from_dataframe: a frame without rows raises IndexError unless every column is described; a ragged column whose rows have equal lengths becomes plain and two index levels become one; bytes of different lengths are split into integers; only the first cell decides whether lengths are looked at, so a list followed by a number raises; a column declared with two index levels is always refused (C92).
* DynamicTable(columns=…): `table['x_index']` of a doubly ragged column gives the outer index if it is listed first; an inner index named like an attribute of the table makes the column lose its outer index, depending on the order; values from a chunk iterator listed before their index raise ValueError ('not its target'); enumerations that share elements are listed twice in a copy, which then cannot be copied; with colnames a ragged EnumData loses its index (if listed after it) or its elements (C93).
* EnumData with more than 2^32 terms raises TypeError; reading a list of rows from list-backed codes raises TypeError (C12).
* get_linked_tables with a repeated start lists links twice; an unset region target is an AttributeError (C13).
* Aligned tables: a failing category row, a value that is no dict, or a direct call on a category leaves the tables misaligned; add_row consumes the caller's dict; add_category registers an owned table before raising; construction with empty main columns and non-empty categories fills ids and not columns; a category named like the table hides main columns (C41).
* Hierarchical tables: KeyError for rows of a middle table without references; duplicate ids mix rows (C70).

Containers and dictionaries
* Children that compare equal: reset_parent drops the wrong one. A Data object as parent lists no children. Parent cycles are not prevented (C14).
* A plain value in a child field raises after it was set (C16).
* LabelledDict: keys with `==` are stored and cannot be retrieved; `del` with such a key hands the wrong object to the callback (C17). A duplicate rejected by a multi-container has already become its child (C18).

docval, shapes, chunks
* `f(10, a=5)` binds b=10; allow_extra can drop a positional value; a function without parameters drops extra keywords; a required parameter with a shape is bound to the attribute that has the shape (C19). None is refused for a required parameter of any type (C20).
* get_data_shape loses extents beyond an empty axis, raises for a list of 0-d arrays, counts the keys of a mapping as an axis (C21). is_ragged misses depth three and mixed rows (C22). assertEqualShape raises for scalars; its NUM_DIMS_ERROR branch is unreachable (C56).
* An item larger than the chunk limit gives a zero extent and an AssertionError (C24). Trailing gaps are not represented; buffer size 0 delivers nothing (C25). An iterator queued for two datasets is split between them (C26). A DataIO with dtype and shape and no data has a length (C27).

Specifications
* SpecCatalog: a rejected registration replaces the parent type; the hierarchy cache goes stale; cyclic includes are accepted and the hierarchy loop never ends; a copy loses parents (C28).
* Resolution: an omitted simple dtype is not inherited; column refinement compares first letters; inherited unnamed types are reported as overridden; two datasets of one name, or a group and a dataset of one name, are accepted (C29).
* Loading: a failed load cannot be retried; equally named source files conflict; selecting types of a source file raises TypeError (C30); a schema naming a namespace twice reports the last entry only; a recursive definition loops forever (C57).
* sort_keys of a tuple returns a generator (C49). NamespaceBuilder replaces the title by the doc; an empty source is an IndexError (C71).
* Building: a compound type inside a compound type is always refused, although a list is documented as the type of a column; a named group accepts any number as quantity, a dataset does not; of two attributes of one name the last is kept; a default name beside a name is dropped (C80, C81).
* Caching a type: an own attribute named like an inherited link, group, dataset or type is lost; so are new definitions of an inherited unnamed link or of an unnamed type that can exist many times, an own unnamed link to a type that the base holds unnamed, and an own attribute when an inherited group is called like the type; an inherited unnamed type that exists once is written again (C82). The copy of a dataset type leaves out value and default_value (C83).
* An "1.9.0" cached namespace is preferred to "1.10.0", "1.0.0-alpha" to "1.0.0" (C44).

Building and constructing
* set_group and its kin keep an equal builder and leave the new one without parent; names with a slash are stored and not found (C31). A builder that had another parent stays without source (C32).
* prebuilt twice breaks the correspondence and purge_outdated raises AttributeError; a cyclic build without source makes two builders for one container; a failed build leaves references that make the next build fail (C33).
* The dtype of a list is that of its last element; 'numeric' checks the first element only; text for a numeric spec is passed with a warning (C34). Long doubles, and for 'numeric' float16, are written and then refused; h5py datasets are not converted; a compound check stops at the first isodatetime column (C35).
* A named child with another name is lost on reading; of two children with one name one is lost; overlapping unnamed types put a child in both; an unnamed link to a sub-type is not read back; an unset named link takes the value of another link (objectmapper.py 1249-1256); attributes of an absent untyped dataset are not written; an empty list is read as None; a missing value as the default (C65). 'ABTest' and 'AbTest' share an attribute name and the earlier is unmapped (C67).
* Dimension labels: scalar data TypeError; alternatives given as tuples never match; refining the shape without the dims loses the labels (C52). Filtering by type keeps nested collections whole (C54).
* Type map: a type that needs itself raises RecursionError; a type with a field whose type is no declared dependency raises ValueError unless that class was made before (C72). A field's class is looked up in the first namespace with a type of that name (C73). A mapper registered after first use is ignored; the class attributes show the last registration, building uses the first; a class for two types is built with one specification; get_container_classes returns placeholders too (C74). Copying can change the data type of a class, changes attributes of the shared classes, and fails when a class with a mapper was replaced (C75). The deprecated get_container_cls (497) passes autogen in the place of post_init_method, which is a TypeError (not modelled).
* Generated classes: a fixed field that the parent takes stays a (possibly required) parameter whose value is silently replaced (C76, C77). Overriding a required field as optional makes omitting it a TypeError; a fixed name below a fixed name is ignored; declaring a fixed field again without a value makes the class impossible to construct (C77). Adding a collection below a generated parent without one loses the parent's fields in __fields__; a class without own fields loses the settings of its fields; post_init_method runs once per generated level, and skip_post_init skips the last call only (C78).
* A list of lists of containers is not taken for references (`__is_reftype` compares the first scalar, and a sequence within the list stops the search), nor is a list that begins with None; both are converted as plain data (`C94_nested_refuted`, `C94_none_refuted`).
* None among the containers of a dataset specified as references raises TypeError when references are added; without a specified type it is kept (`C94_typed_none_refuted`).
* A compound column of references cannot refer to a Data object: `__set_compound_dataset_to_refs` takes a Data for a list of containers (`C94_column_refuted`).
* A list of containers passes the check for an attribute of references and fails later, when references are added (`C94_list_refuted`).
* If one queued reference fails, the rest stays in the queue of the manager: the next build, of something unrelated, fails as well (`C95_later_refuted`), and the builder of the one that failed stays without data though later builds succeed (`C95_lost_refuted`).
* References that change after the first build of a container are not written by a second one with the same manager (`C96_changed_refuted`).

Validation
* check_shape with an empty list raises IndexError; alternatives after a plain axis TypeError (C36). 'zero_or_one' is treated as required and many; quantity 0 can never be met (C37). A child named like an optional sub-spec can be matched to an earlier unnamed one (C38); matching is greedy, so a conforming builder can be reported depending on the order of children; several mismatches raise instead of being reported (C59). A type registered before its parent is lost from the valid types; a self-including type is a RecursionError (C60).

External resources
* A repeated string key duplicates an object_keys row; a foreign Key is accepted and dangles; key=None raises after rows were added (C39). A fresh Key's annotation is lost; another object's Key annotates that object too; get_key and add_ref disagree on equally named keys; the file of a known object is not recorded (C40). An empty HERD has no data frame (C61). from_zip accepts negative indices (C62). assert_external_resources_equal ignores entity_keys (C63).

Term sets
* Extending with a string validates its letters and stores it whole; delegated list methods are not validated; an iterator loses its values; an extended 1-D array becomes 2-D (C46). A configuration without 'data_types' is merged in part before the KeyError; after an empty file the next is not recorded (C51). Term set paths of later files are resolved against the first file's directory (C69).

Arrays and regions
* Comparisons with a value beyond the maximum raise IndexError; a range without element selects the next; neighbouring matches of a list are lost (C48). A single-index region exposes the bare element; an empty list raises TypeError; the length is stale after a change of the dataset (C50).

HDF5
* Two links in one group to targets of one name lose one; a scalar reference to a group cannot be read; a scalar reference to a dataset gives a second builder; a group named 'specifications' is lost when specs are cached; a link to a missing target is dropped (C42).
* A list of containers as attribute cannot be written; a chain of three dependent calls fails under the two-attempt rule; a failed write leaves references for the next (C45). read() on a closed file returns None; open() does not reopen; an empty file read in 'a' and then written still reads as empty (C53).
* A link to a root group read from a file leads to `/root`; names with a backslash are split (C84). Data exported with links into another group becomes a soft link to its old path, which need not exist (C85). A link to an external link is looked up by the first path in the last file: reading fails or another object is read (C86).
* 'isodatetime' is ascii in a plain dataset and text in a compound; a 'numeric' or 'date' column becomes float64; a column of arrays of varying length gives no name, so that later columns get the types of their successors; float16 and, before numpy 2, bool columns become float64 on export (C87). Region references read as builders raise KeyError, several at once TypeError; None among references is written but reading it raises ValueError; the inverted view is never cached (C88). A list mixing ints and floats is stored in the type of its first element; a 0-d array cannot be written; text of shape (n, 0) is written and cannot be read; a scalar byte string comes back as text (C89).
* H5DataIO() raises InvalidDataIOError, although data can be set later on a DataIO; so does shape=(); dtype is declared as possibly a name, which the base class refuses; compression=1 (gzip by number) skips the check of its options; a szip pair whose second part is no number is a TypeError instead of a ValueError (C90). A chunk iterator's first write stores shape and type in the wrapper, so that a later dataset has the first one's type; writing a wrapper without data a second time creates the dataset and then raises ValueError (C91).
* A namespace that includes selected types of another one has all of its types when it is loaded from a file, and cannot be loaded if it defines a type of the name of one it left out; a namespace without version, a source in a directory, a hidden one and one called `namespace.yaml` raise ValueError when specs are cached, which happens after the data were written, and after the last no namespace of the file can be loaded (KeyError); sources of two namespaces that differ in extension only are cached and then cannot be loaded; every caching cuts the names of sources once more, so `lab.a.yaml` and `lab.b.yaml` become `lab.a` and `lab.b` and, if what was read is cached again, one source `lab`, whose datasets come before its groups: the file may then not be loadable (C97, C98).
* A value that does not fit is refused by an HDF5 dataset only after it was resized, so a failing append or extend leaves rows of fill values; a number appended to a dataset of rows is repeated; extending by [1, 2, 3] adds three elements to a list, one row to an array of rows of three and three equal rows to such a dataset; extending a 1-D array makes it 2-D; extending by nothing fails for arrays and for datasets with rows; a dataset of references can be appended to but not extended (C99). A list given to two data objects grows for both, an array does not; identifiers after the first of an extension are not checked (C100).
* `__gather_fields` looks only at the last base that is a container: with `class C(A, B)` the fields of `A` are attributes of `C`
  but not among `C.__fields__`, so they are not compared, printed or written generically (C101_other_base_refuted).
* Declaring an inherited field again changes `get_fields_conf` but not the property, because the class already has the attribute:
  `settable`, `child` and `required_name` of the new entry have no effect (C101_settings_refuted).
* A subclass that declares no fields goes through its inherited `__fields__`, which by then holds names only. Its `get_fields_conf`
  has the same names without any settings (C101_plain_subclass).
* `RowGetter` caches by the position as given: `table.row[-1]` is the row that was last when it was first asked for, also after rows
  were added, and is another object than (and not equal to) `table.row[n-1]` (C102_negative_refuted).
* Setting `row.table` a second time changes the table of a row object but adds nothing to the new table and keeps the position in the
  old one; a row made with `idx` is never added either (C102_claims_refuted, C102_placed).
* `Row(...)` without table and idx raises AttributeError (`None.add_row`) although both arguments are optional (C102_lonely).
* A subclass of a table class (a class that inherits `__columns__`) gets a generated constructor that passes `columns, name, data` to the
  generated constructor of its base, which takes `name, data`: it always raises TypeError (C102_subclass). The same for row classes.
* `Table.from_dataframe` reads `extra_ok` but never uses it (C103_extra_ok, C103_extra_refuted).
* `Table.from_dataframe` uses `iterrows`, so integers in a table of integer and float columns become floats (C103_integers_refuted).
* Methods a class defines itself under the names of `__clsconf__` (add, get, create, and `__getitem__` if there is one dictionary) are
  silently replaced (C104_own_method_refuted).
* A subclass without `__init__` of a multi-container class with one gets a generated constructor, which goes past it: the constructor the
  programmer wrote is not called (C104_constructor_refuted).
* An attribute called like an attribute of the metaclass (`register`, `mro`, `pre_init`, `post_init`) gets no property because
  `hasattr(cls, …)` is true; making an object raises AttributeError (C104_metaclass, C104_usable_refuted).
* The property of an inherited attribute keeps the add method (and type) of the base if the subclass declares others (C104_setter_refuted).
* 'type' as a list, which the documentation allows, makes `add` raise TypeError always, so that no object can be made; with one
  dictionary or with 'get' the class statement itself raises TypeError; an empty tuple is an IndexError (C104_error, C105_bad_type,
  C105_types_refuted).
* Two dictionaries for the same attribute are accepted but the constructor always raises ValueError (C105_twice_refuted).
* Elements of lists and dictionaries passed to `add` are not checked against 'type' (C105_type_refuted).
* Assigning to the attribute adds to it (C105_assign_refuted).
* A failing `add` or `create` leaves the object with the container as parent although it is in no dictionary (C105_add_error, C105_create_error).
* Reading a file a second time resets the modified flag of the container it returns, the same object as before. Changes made in between stay in
  the container but a write in append mode leaves them out (C106_change_refuted).
* `HDMFIO.write` writes the zip of external resources before it builds, so a failing write leaves it behind (C107_resources_refuted).
* The source of a container is compared with that of the io only if the manager has no builder for it. A container read from one file is
  written to another without a complaint if the two ios share a manager (C107_source_refuted, C107_known).
* `export` without container writes the builders of the file, so changes in memory are left out, whereas with `clear_cache` (which HDF5IO sets
  for link_data=False) it reads first, gets the container from the manager and exports the changes (C108_change_refuted).
* After the export of a modified container the manager no longer knows that it came from the file. Reading again makes a second container
  whose unmodified children are those of the first and keep it as their parent; exporting the second one then writes links in place of the
  children (C108_reread, C108_children_refuted).
* `all_objects` is computed once. Children added later are missing, removed ones stay, and after `generate_new_id` the keys are the old ids
  (C110_added_refuted, C110_key_refuted).
* If two descendants have the same object id (objects from a file and from a copy of it), `all_objects` raises TypeError the first time and
  returns an incomplete dictionary without a complaint the second time (C110_failure_refuted).
* `get_docval` says it gives a copy, but gives the dicts of the function. Changing one (a usual way to derive the parameters of a subclass)
  changes the function it came from (C112_copy_refuted).
* docval replaces macros when a function is declared. A class added to a macro later is not accepted by functions declared before (C112_frozen);
  and a macro that gets the name of a class takes that class away from functions that name it (C112_new_macro_refuted).
* `call_docval_func` drops None, so that a parameter with another default that allows None gets its default (C113_none_refuted); it passes None
  for missing required parameters, which runs the function if types are not checked (C113_missing_refuted); and functions that refuse positional
  arguments can not be called at all (C113_positional).
* docval gives a function the data inside an object if a required parameter has a shape; handing this on to a function with the same parameters
  fails (C113_again_refuted).
* `__resolve_parents` never resolves anything: it looks at the children of the container, and a container with a proxy is nobody's child
  (C114_resolve). So a container whose parent did not match when it was set keeps its proxy for ever, and no error is raised. This happens if
  the class of the parent is registered for two types (C114_other_class) or the top builder has no type (C114_untyped).
* Untyped groups are left out of locations. With objects of the same name and type in two of them, a link can give a container the wrong parent
  (C114_ambiguous_refuted). A link to the top of another file makes that a child (C114_root_refuted).
* `__gather_columns` stops at the first base whose `__columns__` is another object, from the right. With two bases the predefined columns of the
  left one are lost when the class has its own (C115_lost_refuted), and below a diamond they appear twice (C115_twice_refuted).
* `_set_dtr_targets` looks below one index only, so the target of a region with two index levels is always refused, although such columns can be
  predefined (C116_nested); the column has then been added already (C116_alone_refuted). An optional region cannot get its target from the
  constructor when the table has rows (C116_rows).
* A column of a specification whose name ends with `_index` never becomes a predefined column of the generated class, even if it is the index of
  nothing (C116_index_refuted).
* `add_column` removes a column from the uninitialised ones by the column itself, not its name (table.py 873, 937), so nothing is ever removed;
  a later column of that name replaces the attribute without the warning (not modelled).
* `assertContainerEqual` compares the fields a class declares (testcase.py 72). The contents of MultiContainerInterface classes are attributes, not
  declared fields, so for such classes contents are never compared: only class, name, source, id and the number of children (C118_contents).
* Given two Data objects, `assertContainerEqual` never compares their data (C118_data_refuted); it is compared only when they are fields of a container.
* `f1.values()[0]` (testcase.py 105) is a TypeError for every non-empty dict, so containers with a dict field that has entries cannot be compared
  (C118_dict).
* Arrays of integers are compared with relative tolerance 1e-7, so large ids that differ pass (C118_ints_refuted). The tolerance is relative to the
  second argument only, so the order matters (C118_symmetric_refuted). Text passes against the list of its characters (C118_chars_refuted).
* A table with a region that refers to the table itself cannot be compared, not even with itself: RecursionError (C118_cycle).
* `ignore_string_to_byte` is not passed on to the fields of a Data (testcase.py 166-169).
* `H5RoundTripMixin.validate` opens the written file again rather than the exported one, so exported files are never validated (not modelled).
* A mapper class with two mapper bases has the overrides of the first base only: those of the second are lost although it is in the order of
  classes (C119_lost_refuted). Decorated functions of a mixin that is no mapper never count (C119_mixin).
* The tables of overrides keep the function, not its name: a subclass that redefines a decorated method without decorating it again still
  calls the old one (C119_method_refuted).
* An override that gives None counts as no override, on reading and on writing, so an override cannot leave an attribute out
  (C120_none_refuted). Values from overrides are neither converted nor filtered by type (C120_attr).
* ObjectMapper has an override for the argument name, so an attribute called name of a specification is written but never passed to the
  constructor (C120_name).
* The access code that the HTML page gives for element i of a list is `[0][1]...[i]`, because it is extended in the loop (container.py 711);
  it is wrong for every element but the first (C121_index). Fields of a table carry the access code of the table (C121_code_refuted).
* Keys and values are put into the HTML page without escaping (C121_escape_refuted).
* A field that refers back to its container makes `_repr_html_` and `__repr__` end with RecursionError (C121_cycle, C122_cycle).
* `__repr__` leaves out empty dicts, texts, tables and Data but shows empty lists, and inserts the text of a nested container without
  indentation (C122_shown, C122_value).
* `DynamicTableMap.attr_columns` writes an empty `colnames` when every column is empty, so a table without rows loses the order of its
  columns and has them sorted by name when it is read from HDF5 (C123_order_refuted, C123_sorted).
* `Query.evaluate` remembers its results for ever and the expanded and the collapsed one separately, so they are stale after the data
  changed and can contradict each other (C125_kept, C125_stale, C125_two_refuted).
* `Query.__evalhelper` evaluates an argument that is a query but passes the query itself on (C124_operand, C124_operand_refuted).
* `Query.__build_operation` returns None and is never used, as `object` has all six operators: queries of queries can only be made by
  calling the class.
* `HDMFDataset` over a list or an h5py dataset compares to NotImplemented, so `ds[ds < 3]` is a TypeError (C124_other).
* `==` with an `HDMFDataset` is always true as a condition: `x in [ds]` holds for every x, `l.remove(ds)` removes the first element
  (C124_contains_set, C124_contains_plain, C124_remove).
* `ids != i` is Python's negation of `ids == i`, an array of positions: it is true for the id at position 0 and raises for several
  matches (C126_ne, C126_unequal_refuted).
* `DynamicTable.__eq__` compares data frames: descriptions of columns, whether a column is ragged or holds lists, and the name of the id
  column do not count (C127_structure_refuted).
* `to_uint_array([])` fails, because numpy makes an empty list float64: the parts of a matrix of zeros cannot be given as lists
  (C128_empty_refuted, C128_zeros_refuted).
* `CSRMatrix` does not run scipy's full check: columns outside of the shape and pointers that go back are accepted, and data that no
  pointer counts is dropped silently (C128_bounds_refuted, C128_order_refuted, C128_surplus_refuted).
* `CSRMatrix` ignores `indices`, `indptr` and `shape` next to rows or a csr_matrix without a warning (C128_ignored).
* `CSRMatrix.__getattr__` calls itself for ever while `__data` is not set, e.g. on an object whose constructor failed or one being
  copied or unpickled (C129_unset).
* `set_attributes` has a branch for sets, but gives the set to numpy and not the tuple made of it, so every set fails (C130_sets).
* `set_attributes` queues a list of containers as references and then goes on to store the list itself, which always fails; the queued
  call stays behind (C130_containers). Nested lists of strings fail although arrays of strings do not (C130_nested_text).
* Bytes in a list come back as text, bytes alone as bytes (C130_bytes_refuted).
* One attribute that is a region reference makes its object, and so the file, unreadable (C130_region).
* `__add_refs` tries a failed call again although no call ever creates what another one refers to, so a second attempt cannot succeed
  (C131_missing); after an error in an attribute of a dataset of references, what is left in the queue is done by the next write of the
  same `HDF5IO` (C131_empty_refuted).
* `NumSampleCounter` cannot be made: the abstract properties dtype and maxshape are not defined (C132_made_refuted). In a subclass that
  defines them, `get_final_result` before the end raises AttributeError, as `__done` is only ever set to True, and never NotYetExhausted
  (C132_result, C132_never); `for chunk in counter` bypasses the counter, which then says 0 (C132_loop, C132_loop_refuted); along another
  axis than the first the extent of the first axis is added up for each chunk (C132_exact_refuted).
* Errors of the validator are compared by the hash of their message alone, so that errors which differ are equal if hashes collide, which
  they must (C133_collide), and an error is equal to a string (C133_string). Parentheses in names and places make messages coincide
  (C133_place_refuted, C133_equal_refuted).
* `get_builder_loc` stops at any builder called root. Errors below two builders called root in different groups have the same place and
  one of them is dropped from the report (C134_hidden, C134_merged).
* A SimpleMultiContainer loses elements which are children of another container: they are written as links, and `containers_carg` reads
  datasets and groups only (C135_links, C135_lost). Exporting what was read drops the links from the new file as well. The order becomes
  data first, by name (C135_order_refuted), and elements of types that are not below Data or Container are left out silently
  (C135_types_refuted); one untyped group makes the whole container unreadable (C135_untyped).
* `DynamicTableMap.get_attr_value` removes one index only: if the column is not an attribute of the table and has two, the spec of the
  column gets the inner index (C136_deep), and for a region there is an AttributeError (C136_region_deep). A plain column in place of a
  region is an AttributeError too (C136_region), and so is a column called like an optional attribute without value, as an AttributeSpec
  has no data_type_inc (C136_attribute): such a table cannot be written.
* `set_data_io` drops `data_io_kwargs` when there are any other keyword arguments (C137_ignored), cannot be called twice for a field
  without an iterator (C137_second), as H5DataIO hands any iterable on to DataIO, which takes arrays only (C137_arrays), puts wrappers
  around wrappers otherwise (C137_depth), and does not mark the container as modified (C137_modified).
* `TypeMap.merge` of a type map with itself, which is what `get_type_map(extensions=type_map)` and `get_manager` do, walks backwards over
  the very list of generators it changes: [MCIClassGenerator, CustomClassGenerator] becomes [CustomClassGenerator, MCIClassGenerator]
  (C138_self), and as CustomClassGenerator takes every field, classes generated later with that type map get no add/get/create functions
  for their fields with many elements (C138_given, C138_same_refuted). Every call permutes the list again.
* Merging another type map puts its generators, CustomClassGenerator among them, in front of all own ones: after
  `get_type_map([type_map])` the DynamicTableGenerator of the global type map is behind CustomClassGenerator and never used (C138_list).
* `get_type_map([type_map])` raises a KeyError for every type map with a class in a namespace that the global one does not have
  (C139_foreign), as `merge` is called without `ns_catalog`; `get_type_map(type_map)` has no core types unless the given one has
  (C139_core_refuted). The note "This config is global and shared across all type maps" is wrong for type maps made with `TypeMap()`
  (C139_own, C139_everywhere_refuted).
* `popargs` is not atomic: if a later name is missing, the earlier ones are gone from the dictionary (C140_stops, C140_atomic_refuted);
  and unlike `getargs` it does not take a name twice (C140_twice_refuted). A dictionary given as a name is a TypeError in both, not the
  ValueError of the docstring (C140_unhashable).
* `ExtenderMeta` runs functions by name, not bases first (C141_bases_refuted), and an attribute of the same name in a subclass silently
  switches the function of the base off (C141_inherited_refuted). As the marks are set on the function itself, a function marked with
  both and kept under two names runs four times for each class (C141_once_refuted).
* `get_subspec` accepts dataset specifications but always fails with an AttributeError for them (C143_dataset); it can give the
  specification of a group for a dataset (C143_kind_refuted), one with another name (C143_name_refuted), or a list of specifications
  (C143_one_refuted), as `get_data_type` knows neither kind nor name.
* Two groups (or datasets) of one name are both kept in the list of a group specification, only the last one is found by name
  (C142_shadow_refuted); a group and a dataset without name of the same type exclude each other (C142_accept). The test `curr is spec`
  in `__add_data_type_inc` is dead code: a specification that was added has a parent, so it is copied when it is added again.
* `WriteStatusTracker` holds no reference to the builders it marks, so once a written builder is gone a new one of the same name that gets
  its address counts as written (C144_reuse_refuted): `write_dataset` and `write_link` then write nothing, and `write_group` looks for a
  group that may not be there. Among builders that exist the key is unique (C144_live), so it is enough to keep the written ones alive
  (C144_exact).
* HDF5IO.close keeps the closed file in `__file` (h5tools.py 797-799), so a later `open` sees a file, does nothing and gives no error: the HDF5IO stays closed (`C145_again_refuted`). `close` also closes files that the user had open before if an external link goes there (`C145_borrowed_refuted`).
* DatasetOfReferences.invert asks `hasattr(self, '__inverted')` (h5_utils.py 143). The string is not mangled but the attribute is, so the inverted dataset is made anew at each call and the one remembered is never used (`C146_memo_refuted`).
