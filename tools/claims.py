c("C01", "partial", "C01_values_partial C01_close_partial C01_refuted",
  "Proved for every history meeting [fits]; false of the code for scalar characters >= 128, string arrays whose longest string is not in the first row, and scalar signalling NaNs.")
c("C02", "proved", "C02_attributes", "Under the preconditions of C01 ([fits]).")
c("C03", "proved", "C03_names", "Exact names for histories without rejected calls and without empty dimension names; order, uniqueness and lengths for all.")
c("C04", "proved", "C04_registry C04_stable C04_conflict", "")
c("C05", "proved", "C05_positions", "Under the preconditions of C01 ([fits]).")
c("C06", "partial", "C06_version C06_no_v5_codes_partial C06_refuted",
  "Version selection proved; a version-2 file with a CDF-5 typed global attribute is a witness against the second half.")
c("C07", "partial", "C07_refuted C07_before_partial", "False of the code: an empty variable shifts the data read for later variables. Proved for the variables added before the first empty one.")
c("C08", "partial", "C08_rejected_partial C08_refuted",
  "Proved except for ErrDimensionSize and CDF-5 types, where dimensions or the version may stay behind.")
c("C09", "partial", "C09_opens_partial C09_refuted", "False for duplicate names and CDF-5 global attributes; proved under [fits].")
c("C18", "proved", "C18_construct C18_history",
  "Keys() is compared exactly when every Add is of a new or hidden key; re-adding is C19.")
c("C19", "partial", "C19_refuted C19_keys_nodup_partial",
  "The general claim is false of the code (Add of a present key lists it twice); proved when no Add repeats a visible key.")
c("C20", "proved", "C20_closed_exactly_once C20_calls C20_reopen_after_close_panics",
  "Close of the underlying file is counted; a group obtained after the file was closed panics when closed.")
c("C21", "proved", "C21_partition_independent", "")
c("C22", "proved", "C22_valid_exactly C22_any_bytes C22_cdf_accepts_only_good C22_cdf_name_codec",
  "Unicode tables are a parameter with their ASCII part fixed; HDF5 writer acceptance is stated with the HDF5 model.")
c("C55", "proved", "C55_map_order", "Reordering of all maps the writer keeps, before every call.")
c("C56", "partial", "C56_close_partial C56_refuted", "Exact characterisation of when Close succeeds; the unrestricted claim is false of the code.")
c("C57", "partial", "C57_add_var_partial C57_add_attributes C57_close C57_refuted", "AddVar of an unsupported non-slice value crashes.")
c("C10", "proved", "C10_duplicates C10_unique", "Rejection for headers that otherwise conform to the grammar; uniqueness for every file that opens.")
c("C11","partial","C11_refuted C11_no_crash_partial C11_reason_partial C11_place C11_ids_refuted C11_name_refuted","False of the code: lengths of names or attributes that no memory holds, negative ones among them, and dimension ids that no dimension has, if needed, crash. For all bytes these are the only reasons (C11_reason_partial), and a file with such a place never opens: it crashes unless one of five refusals comes first (C11_place). Proved not to crash for conforming headers, also truncated or with duplicate names.")
c("C53", "proved", "C53_not_found", "")
c("C54", "proved", "C54_header_cut C54_written_cut C54_any_file", "")
c("C58", "proved", "C58_conforming", "Values of variables are the subject of C12, C15 and C16.")
c("C59", "proved", "C59_written_conforms", "")
c("C12", "partial", "C12_slice_partial C12_refuted", "Proved for every openable file unless the file ends inside an element of the variable (and the slice does not start at 0) or the slice is an empty one of a char variable of rank three or more; both are witnesses against the full claim.")
c("C13", "partial", "C13_box_partial C13_refuted", "Proved for all in-range boxes unless the file ends inside an element of the variable, where the claim is false.")
c("C14", "partial", "C14_reversed_partial C14_refuted C14_unchecked_refuted C14_box_refuted C14_before C14_records_past C14_records_refuted C14_records_before C14_records_before_refuted C14_hdf5_reversed_partial C14_hdf5_reversed_md_partial C14_hdf5_rank C14_hdf5_refuted C14_hdf5_past C14_hdf5_past_refuted C14_hdf5_before C14_hdf5_outside_refuted C14_hdf5_wide C14_hdf5_inner_refuted", "end < begin and a wrong number of bounds proved for CDF and HDF5; false of both for out-of-range bounds, which are accepted or crash; for CDF variables of fixed size it is proved what every slice outside of the variable gives: an error where it would start before the file, otherwise whatever the file has there; slices of CDF records past the last one are errors from the first record on, and crashes from any other on; slices that begin before the first record are errors if they have more rows than the variable or would start before the file, otherwise they are taken, and give what the file has there as first row and the records after the first for the others; for contiguous HDF5 variables, slices past the last row give what the variable would give if it had that many rows, thus fill values behind the end; those that begin before it are errors, but those wholly before it are taken and give fill values; slices not from the first row on with as many rows as the variable or more are errors. Together these cover all bounds of slices of contiguous variables of numbers. Boxes of HDF5 variables that leave it in another dimension crash.")
c("C15", "partial", "C15_missing_partial C15_refuted", "False of the code for char variables with a _FillValue of type char (crash) and single characters >= 128; proved otherwise.")
c("C16", "partial", "C16_records_partial C16_refuted", "For conforming headers with correct size fields and all records present; false of the code where the size field of a record variable is wrong, which netCDF itself tolerates.")
c("C17", "partial", "C17_slice_partial C17_crash C17_refuted", "False of the code: every slice of interleaved records that does not start at record 0 crashes; proved for the others.")
c("C23", "proved", "C23_dispatch C23_cdf_accepts C23_cdf_writer C23_hdf5_accepts C23_hdf5_writer", "Both readers are the models of the code; C23_dispatch holds for any two readers.")
c("C24", "partial", "C24_row_major_partial C24_refuted", "False of the code only for a single character >= 128.")
c("C25", "partial", "C25_cut_partial C25_refuted", "False of the code: missing data read as fill values. Proved: variables wholly before the cut are unchanged, for every openable file.")
c("C27", "proved", "C27_lookup3 C27_written_verifies C27_rejects", "")
c("C37", "partial", "C37_unshuffle_partial C37_refuted", "False of the code for buffers with a partial last element; proved otherwise.")
c("C38", "partial", "C38_accepts C38_fletcher_partial C38_refuted", "Exact characterisation of what is accepted; differs from the library's algorithm when a half of the checksum is 0xFFFF.")
c("C60", "partial", "C60_shuffle_fletcher_partial C60_refuted", "False of the code for chunks of odd length; proved otherwise.")
c("C46", "proved", "C46_closed_exactly_when C46_close_twice C46_calls", "")
c("C47", "proved", "C47_independent C47_own_handle C47_no_deadlock", "")
c("C48", "partial", "C48_bounds_partial C48_serial_partial C48_refuted", "False of the code (unlocked increment); bounds and the serial case proved.")
c("C49", "partial", "C49_resolve_partial C49_components_only C49_handles C49_refuted", "False of the code only for a relative path without components.")
c("C39", "partial", "C39_row_major_partial C39_rank12 C39_refuted", "Proved for every shape of rank one and two and the orderly chunk shapes of higher rank; false of the code for the others.")
c("C40", "proved", "C40_placement", "")
c("C61", "partial", "C61_attributes_partial C61_refuted", "Proved for attributes; false of the code for variables, whose type is not checked against the version.")
c("C26", "proved", "C26_truncated C26_file", "For every content behind the superblock, and so for every file Close writes (C26_file).")
c("C28", "proved", "C28_superblock C28_total", "")
c("C29", "proved", "C29_header C29_messages C29_total C29_long_message_refuted", "The refuted case is beyond the stated size limit.")
c("C30", "proved", "C30_link C30_long_name_refuted", "The refuted case shows that the stated limit is needed.")
c("C31", "proved", "C31_dataspace C31_layout", "")
c("C33", "proved", "C33_heap", "")
c("C32", "partial", "C32_variable_datatype C32_element_datatype C32_scalar_string C32_unreadable_refuted", "Proved for all nestings of the writable types; false of the code for an opaque member that is not the last, 256 members, sizes 65536 to 2^24-1 and slices of compounds or opaques without elements.")
c("C34", "partial", "C34_values_read_back_partial C34_scalar_string C34_dimensions C34_big_endian_refuted C34_values_refuted", "Proved on little-endian hosts, for numbers and beyond the claim for strings, compounds, opaques, enumerations and sequences with the global heap; false on big-endian hosts.")
c("C52", "partial", "C52_offset_width_partial C52_fixed_width C52_three_bytes_refuted", "False of the code for compounds of 65536 to 2^24-1 bytes; proved otherwise.")
c("C35","proved","C35_tree_of_maps C35_rejected_no_effect C35_accepted","The writer's groups are modelled as a pointer store, the specification is by paths and uses only the calls and what they returned. What Close then writes for the tree is C50.")
c("C36","proved","C36_close_once C36_group_close","For every order of map iteration; what the first Close writes is C62 and C50.")
c("C62","partial","C62_first_close_partial C62_nil_close_refuted C62_error_then_nil_refuted","True of the Close that closes the writer. Refuted in general: after a Close that failed or panicked the next Close returns nil although the file is empty.")
c("C41","proved","C41_data_plus_fill C41_from_index","For every set of blocks, in any order, and for chunked data from every index in the file.")
c("C42","proved","C42_pruning C42_nothing_lost C42_runs","The walk finds exactly the chunks that touch the range.")
c("C43","partial","C43_slices_partial C43_get_partial C43_refuted C43_chunks_refuted C43_arrays_refuted","False of the code for GetVariable after a slice, slices of chunked data after a slice and GetVariable, and arrays; proved for slices otherwise.")
c("C44","partial","C44_slice_partial C44_refuted C44_characters_refuted C44_compounds_refuted","False of the code for empty slices of sequences of variable length (crash), for sequences of compounds some of which are empty (another type), and for characters with NUL among them; proved for all types of fixed size, non-empty slices of sequences of numbers, strings and enumerations, and characters without NUL.")
c("C45","partial","C45_from_start_partial C45_refuted","False of the code for slices that do not start at 0; proved for those that do.")
c("C63","partial","C63_run_slices_partial C63_refuted","False of the code where C44 is; proved for the same types as C44.")
c("C64","partial","C64_values_partial C64_refuted","False of the code for chunk shapes that are not orderly (C39); proved for all others and every type.")
c("C65","partial","C65_contiguous_partial C65_runs_partial C65_refuted","False of the code for enumerations; proved for contiguous data and chunks that are runs, of the types of C44 but characters.")
c("C50","partial","C50_tree_partial C50_same_name_refuted C50_group_dimension_refuted C50_empty_attribute_refuted C50_empty_rows_refuted C50_one_element_refuted C50_reserved_name_refuted C50_zero_byte_refuted C50_coordinate_refuted C50_coordinate_matrix_refuted C50_dimref_refuted C50_no_rows_refuted C50_close_refuted C50_opaque_attribute_refuted C50_one_member_refuted C50_even_row_refuted C50_empty_opaques_refuted C50_strings_in_sequence_refuted C50_long_name_refuted C50_large_attribute_refuted","The whole file, from the calls on the writer to what the calls on the reader return, for numbers, strings, compounds, enumerations, opaques and sequences of varying length, in any tree. Missing are only sizes a little below those refuted: attributes of 65000 to 65535 bytes, more than 30000 attributes of one object. False of the code for the cases refuted, which the hypothesis calls_fine leaves out or the conclusion names.")
c("C51","partial","C51_lists_partial C51_marker_refuted","For every history that C50_tree_partial covers; false of the code for a coordinate variable named like a bare scale.")
c("C66","partial","C66_lengths_partial C66_two_lengths_refuted C66_scalar_refuted","False of the code: two lengths for one dimension are accepted, and a scalar variable named like a dimension makes GetDimension panic. Proved otherwise, for the histories of C50_tree_partial.")
c("C67","partial","C67_variable_types_partial C67_refuted","False of the code only for empty results of char variables of rank three or more, which are slices of uint8.")
c("C68","proved","C68_file_attributes C68_go_type C68_cdl_type","")
c("C69","proved","C69_heap","Table width 4 and no I/O filters, as the reader asserts.")
c("C70","partial","C70_links_partial C70_attrs_partial C70_large_nodes_refuted C70_no_records_refuted","False of the code for nodes so large that a count of records takes two bytes; proved where counts take one byte and totals two, which covers the 512 byte nodes of the HDF5 library up to depth 3. False as well for a tree of no records.")
c("C71","partial","C71_symbols_partial C71_levels_refuted","False of the code for trees with more than the leaf level, which are refused; proved for one level.")
c("C72","proved","C72_header C72_messages","Header chunks and continuation blocks below 2 GB.")
c("C73","partial","C73_tree_partial C73_root C73_soft_link_refuted C73_second_link_refuted C73_shared_type_refuted C73_extension_refuted","False of the code for soft links, for a second hard link to an object, for datasets of a named datatype and for superblock extensions that set K values, a driver or the handling of free space; proved for the rest. Of all bytes that open it is proved that the root is a group, the one at the path / (C73_root). Datatype, attribute, layout and fill value messages enter as ones the reader accepts by themselves. Missing: symbol tables of several levels (refused, C71), other superblock extensions; attributes decide which datasets are dimensions, and are not told.")
c("C74","partial","C74_type_text_partial C74_text_unique_partial C74_named_type_partial C74_attribute_partial C74_same_types_refuted C74_order_refuted C74_word_refuted C74_member_dims_refuted C74_array_type_refuted","False of the code where two named types of a group are the same type, for named types called like a CDL word, for dimensions of members of version 1 compounds and for named array types; proved for plain names, distinct shapes and existing sizes.")
c("C75","partial","C75_type_text_partial C75_text_unique_partial C75_variable_partial C75_byte_array_refuted","False of the code: an array of bytes as long as a named opaque type has no Go text, so that a compound with it is not read. Proved without arrays of bytes and arrays of arrays, otherwise as C74.")
c("C76","partial","C76_type_partial C76_space C76_fill C76_place C76_filters_partial C76_attribute_partial C76_tree_partial C76_version_refuted C76_members_refuted C76_opaque_refuted C76_empty_attribute_refuted C76_layout_refuted C76_filters_refuted","False of the code for newer versions of floating point, string and reference types, for more than 255 members, for opaque data before another member, for empty attributes of floating point numbers, for layouts before version 3, the chunk indexes of layout version 4, virtual datasets, external files and filters other than compression, shuffling and checksums; proved for the rest. Missing: shared messages (C73_shared_type_refuted).")
c("C77","partial","C77_value_partial C77_variable_partial C77_order_refuted C77_characters_refuted C77_empty_refuted C77_reference_count_refuted C77_message_order_refuted","False of the code for compounds whose members are not declared in the order of their offsets, characters in two dimensions, empty sequences of opaque data, compounds or sequences, arrays of no sequences, heap objects with a reference count, and chunks whose layout message stands before the datatype message; proved for the rest. Filters: C79. Missing: chunks that are not orderly (C39); attributes, on which the success of the call depends; what is missing in C73 and C76.")
c("C78","partial","C78_group_partial C78_variable_partial C78_strings_refuted C78_row_refuted C78_opaque_refuted C78_one_member_refuted C78_one_in_sequence_refuted C78_scales_refuted","False of the code for attributes of several strings of fixed length, attributes of one row, opaque attributes without a tag, scalar attributes that are sequences of one element or compounds of one member, and variables of which only some dimensions have scales; proved for the rest. Missing: the order of the names, which is random in the code; what is missing in C73, C76 and C77.")
c("C79","partial","C79_pipeline_partial C79_variable_partial C79_unfiltered C79_order_refuted C79_checksum_refuted","zlib is a parameter of the model, with the hypothesis that it inverts compression (shown for streams of one stored block). False of the code where something is shuffled or compressed again after compression, and where C37, C38 and C60 are; proved for the rest. Slices: C80. Other filters are refused (C76_filters_refuted). Missing: what is missing in C77.")
c("C80","partial","C80_slices_partial C80_start_partial C80_slices_refuted","False of the code for slices that do not start at 0 where chunks are not runs of the row-major order; proved for contiguous and compact data and chunks that are runs, and from the start on for orderly chunks. Missing: the sequences and characters that C44 leaves out; GetSliceMD of enumerations (C65) and characters; arrays after other calls; calls of GetVariable in between (C43); what is missing in C79.")
c("C81","partial","C81_conform_partial C81_fill_refuted","False of the code in one point: no dataset has the fill value message that the specification requires of datasets. Proved for the rest, for histories of calls as in C50 (so without names of 256 bytes and more, opaque attributes and what C50 excludes as refuted).")
c("C82","partial","C82_told C82_own_partial C82_crash_refuted C82_another_type_refuted","False of the code: the type told is that of the root group's attribute of the same name, and without one the program crashes; so for most attributes of variables. Exactly characterised (C82_told), and proved for the attributes of the root group and others that agree with them, for the types of C74 and C75.")
c("C83","partial","C83_variables_partial C83_attributes_partial","For every history that C50_tree_partial covers; every value of such a history is of a type in the sense of the theorems (var_has_type, attr_has_type). False of the code for the attributes of variables and of other groups, C82.")
c("C84","partial","C84_stored_partial C84_missing_refuted C84_filtered_partial C84_filtered_refuted","False of the code where nothing or not all is stored, and where all is stored but the chunks go beyond the dataset: in every such file GetVariable asks for the first byte of the empty value and crashes. Proved for data in the header, in one block, and in chunks, with or without filters, that are all there and fit the dataset exactly. Missing: pipelines that are not undoable (C79); the calls of a VarGetter.")
c("C85","partial","C85_present C85_whole C85_lone_partial C85_slice_refuted","False of the code for GetSlice of fewer than all records: in every such file that ends in them the call crashes, as the readers of the others are nil. Proved for the records that are there and for GetVariable. The lone record variable of a small type has the fill value where data are missing, as other variables have (C85_lone_partial). Slices that do not start at the first record: C17_crash.")
c("C86","partial","C86_superblock_partial C86_circle_refuted C86_padding_refuted C86_index_refuted","False of the code. In every file whose root object header goes on in messages that say that they go on where they are, and in every file with a variable whose index of chunks has an entry for itself, the calls nest without end: no bound on the depth is enough. In every file with a byte other than 0 in the padding of the root object header of version 1 opening ends the process. Proved: the superblock never crashes, whatever the bytes. Missing: which other files are read or refused without harm (files of the format: C77, C81).")
c("C87","partial","C87_getter C87_reason_partial C87_fill_refuted C87_size_refuted C87_records_refuted","False of the code. Every variable of fixed size whose _FillValue is not a number of its type crashes, though all its data may be there, and so does every one declared larger than memory (2^48 bytes in the model), however short the file, and every record variable (but a lone one of a small type) with two records or more where the declared sizes of a record together are 2^63 bytes or more. Proved: unless the shape needs more than memory, the _FillValue is of another type or all records together are declared 2^63 bytes long, GetVariable of any variable of any file that opens gives a value or an error; asking for the getter never crashes. Missing: slices, and an exact condition between the reasons and the refuted classes.")
c("C88","partial","C88_value C88_short C88_refuted C88_history_refuted C88_box_refuted","False of the code for numbers: the bounds of a slice are taken as a count of bytes, so that every slice with at least as many rows as the number has bytes gives the number, wherever it begins; every shorter one is an error, after which GetVariable is one too; and the box without bounds crashes. Proved for all types: Len, Values and GetSlice(0,1) before other slices; for numbers, which of the other slices are errors. Other types are not treated for other slices.")
c("C89","partial","C89_value C89_refuted C89_before C89_box_refuted","False of the code: every slice, also an empty one, gives one element, which is that many elements before or behind the variable as the slice begins, thus of another variable or of the header; it is an error only where that would be before the file. The box without bounds crashes. Proved: Len, Values and GetSlice(0,1), unless the file ends inside the element. Characters beyond ASCII are not treated.")
