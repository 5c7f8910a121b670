{
 "claims": [
  {
   "property": "C01",
   "status": "proved",
   "theorems": [
    "C01_search_size"
   ],
   "note": ""
  },
  {
   "property": "C02",
   "status": "proved",
   "theorems": [
    "C02_search_order"
   ],
   "note": ""
  },
  {
   "property": "C03",
   "status": "proved",
   "theorems": [
    "C03_search_sound"
   ],
   "note": ""
  },
  {
   "property": "C04",
   "status": "proved",
   "theorems": [
    "C04_search_no_duplicate"
   ],
   "note": ""
  },
  {
   "property": "C05",
   "status": "proved",
   "theorems": [
    "C05_search_nonempty"
   ],
   "note": ""
  },
  {
   "property": "C06",
   "status": "proved",
   "theorems": [
    "C06_search_entry"
   ],
   "note": ""
  },
  {
   "property": "C07",
   "status": "proved",
   "theorems": [
    "C07_search_exhaustive"
   ],
   "note": ""
  },
  {
   "property": "C08",
   "status": "partial",
   "theorems": [
    "C08_full_recall_refuted",
    "C08_full_recall_partial"
   ],
   "note": "The property as stated is false of the code: C08_full_recall_refuted exhibits an index of two points. C08_full_recall_partial proves what holds: exactly the points reachable from the starting point are returned."
  },
  {
   "property": "C09",
   "status": "proved",
   "theorems": [
    "C09_flat_exact"
   ],
   "note": ""
  },
  {
   "property": "C10",
   "status": "proved",
   "theorems": [
    "C10_no_panic"
   ],
   "note": ""
  },
  {
   "property": "C11",
   "status": "partial",
   "theorems": [
    "C11_filter_sound_refuted",
    "C11_filter_sound_partial"
   ],
   "note": "False as stated (a rejected starting point can be returned alone): C11_filter_sound_refuted. The partial theorem proves that a rejected answer is the starting point of the search, alone, and that with max(ef, knbn) >= 2 it is given only if no accepted point can be reached; C11_example_ef1 shows that this needs max(ef, knbn) >= 2."
  },
  {
   "property": "C12",
   "status": "proved",
   "theorems": [
    "C12_filter_exhaustive"
   ],
   "note": "Proved for max(ef, knbn) >= number of points. When no reachable point is accepted the answer is the starting point alone (see C11)."
  },
  {
   "property": "C13",
   "status": "partial",
   "theorems": [
    "C13_filter_no_panic_refuted",
    "C13_filter_no_panic_partial"
   ],
   "note": "False for knbn = ef = 0 (C13_filter_no_panic_refuted); proved as soon as one of them is positive."
  },
  {
   "property": "C14",
   "status": "proved",
   "theorems": [
    "C14_insert_keeps_data"
   ],
   "note": ""
  },
  {
   "property": "C15",
   "status": "proved",
   "theorems": [
    "C15_point_id_stable"
   ],
   "note": ""
  },
  {
   "property": "C16",
   "status": "proved",
   "theorems": [
    "C16_get_point_data"
   ],
   "note": ""
  },
  {
   "property": "C17",
   "status": "proved",
   "theorems": [
    "C17_levels"
   ],
   "note": ""
  },
  {
   "property": "C18",
   "status": "proved",
   "theorems": [
    "C18_max_level"
   ],
   "note": ""
  },
  {
   "property": "C19",
   "status": "proved",
   "theorems": [
    "C19_bounded_degree"
   ],
   "note": ""
  },
  {
   "property": "C20",
   "status": "proved",
   "theorems": [
    "C20_lists_well_formed"
   ],
   "note": ""
  },
  {
   "property": "C21",
   "status": "partial",
   "theorems": [
    "C21_layer_discipline_refuted",
    "C21_layer_discipline_partial"
   ],
   "note": "False as stated: lists of layer l can contain points of lower level (C21_layer_discipline_refuted). Partial: neighbours are stored points, never above the maximum level; after successive insertions the only neighbours of a lower layer are the first points of these layers (former entry points)."
  },
  {
   "property": "C22",
   "status": "partial",
   "theorems": [
    "C22_iteration_partial",
    "C22_iteration_refuted",
    "C22_next_after_end_refuted"
   ],
   "note": "Iteration over an empty index panics (C22_iteration_refuted, for every empty index) and next() after the end can panic; iteration over a non empty index is proved complete."
  },
  {
   "property": "C23",
   "status": "partial",
   "theorems": [
    "C23_layer_iteration_partial",
    "C23_layer_iteration_refuted"
   ],
   "note": "Proved for layers below max_layer; for other layer numbers the iterator panics (C23_layer_iteration_refuted)."
  },
  {
   "property": "C24",
   "status": "proved",
   "theorems": [
    "C24_parallel_search"
   ],
   "note": ""
  },
  {
   "property": "C25",
   "status": "proved",
   "theorems": [
    "C25_flat_neighbourhood"
   ],
   "note": ""
  },
  {
   "property": "C26",
   "status": "proved",
   "theorems": [
    "C26_vec_filter"
   ],
   "note": ""
  },
  {
   "property": "C27",
   "status": "proved",
   "theorems": [
    "C27_reload"
   ],
   "note": ""
  },
  {
   "property": "C28",
   "status": "proved",
   "theorems": [
    "C28_reload_search"
   ],
   "note": "Proved for sorts that leave sorted lists unchanged or lists without equal distances (order_kept)."
  },
  {
   "property": "C29",
   "status": "partial",
   "theorems": [
    "C29_parameters_refuted",
    "C29_parameters_partial"
   ],
   "note": "False as stated: max_nb_connection is stored on one byte and the level scale is multiplied by the default one (C29_parameters_refuted). Partial: what is restored for max_nb_connection <= 255."
  },
  {
   "property": "C30",
   "status": "proved",
   "theorems": [
    "C30_description"
   ],
   "note": ""
  },
  {
   "property": "C31",
   "status": "proved",
   "theorems": [
    "C31_truncated"
   ],
   "note": ""
  },
  {
   "property": "C32",
   "status": "partial",
   "theorems": [
    "C32_errors_refuted",
    "C32_errors_partial"
   ],
   "note": "False as stated: some files make load_hnsw panic, exit or read out of bounds (C32_errors_refuted). Partial: missing files and truncated descriptions."
  },
  {
   "property": "C33",
   "status": "partial",
   "theorems": [
    "C33_failed_dump_refuted",
    "C33_failed_dump_partial"
   ],
   "note": "False as stated: C33_failed_dump_refuted. Partial: a dump with 16 layers and a point does not fail, and only the two files of the name are written."
  },
  {
   "property": "C34",
   "status": "partial",
   "theorems": [
    "C34_mmap_refuted",
    "C34_mmap_partial"
   ],
   "note": "False with repeated ids (C34_mmap_refuted); proved for distinct ids."
  },
  {
   "property": "C35",
   "status": "partial",
   "theorems": [
    "C35_threshold_refuted",
    "C35_threshold_partial"
   ],
   "note": "False for thresholds >= 2^63 (C35_threshold_refuted); proved below."
  },
  {
   "property": "C36",
   "status": "proved",
   "theorems": [
    "C36_datamap"
   ],
   "note": "Directories: absolute or the working directory (plain_dir), see C55."
  },
  {
   "property": "C37",
   "status": "partial",
   "theorems": [
    "C37_lengths_refuted",
    "C37_lengths_partial"
   ],
   "note": "False: C37_lengths_refuted (a shorter vector is read beyond its end, a longer one loses its end). Partial: vectors are cut to the length of the entry point's vector."
  },
  {
   "property": "C38",
   "status": "partial",
   "theorems": [
    "C38_type_check_refuted",
    "C38_type_check_partial"
   ],
   "note": "False: the first components are compared (C38_type_check_refuted). Partial: names without \"::\"."
  },
  {
   "property": "C39",
   "status": "proved",
   "theorems": [
    "C39_no_overwrite_data"
   ],
   "note": ""
  },
  {
   "property": "C40",
   "status": "partial",
   "theorems": [
    "C40_no_overwrite_refuted",
    "C40_no_overwrite_partial"
   ],
   "note": "False: a lone graph file is overwritten and the search of a name may not end (C40_no_overwrite_refuted). Partial: complete dumps are never overwritten."
  },
  {
   "property": "C41",
   "status": "proved",
   "theorems": [
    "C41_type_checks",
    "C41_mismatch_refused"
   ],
   "note": ""
  },
  {
   "property": "C42",
   "status": "proved",
   "theorems": [
    "C42_graph_only"
   ],
   "note": ""
  },
  {
   "property": "C43",
   "status": "proved",
   "theorems": [
    "C43_parallel_insert_stores",
    "C43_parallel_insert"
   ],
   "note": "For every interleaving in which all threads return (deadlocks are C46). Any mixture of insertions, searches and iterations; C43_parallel_insert is the case of parallel_insert alone. The index may be empty at the start. Stated for any index in use (`used`)."
  },
  {
   "property": "C44",
   "status": "proved",
   "theorems": [
    "C44_always_well_formed"
   ],
   "note": "Also proves that no thread panics at any moment of any interleaving. Stated for any index in use (`used`)."
  },
  {
   "property": "C45",
   "status": "partial",
   "theorems": [
    "C45_orphan_refuted",
    "C45_no_orphan_partial"
   ],
   "note": "False for an empty index: C45_orphan_refuted exhibits the interleaving (iteration misses the point, its lists are empty, no search returns it). C45_no_orphan_partial proves the property when the index is not empty before the threads start."
  },
  {
   "property": "C46",
   "status": "partial",
   "theorems": [
    "C46_deadlock_refuted",
    "C46_deadlock_low_refuted",
    "C46_ends_partial",
    "C46_no_deadlock_partial"
   ],
   "note": "False: C46_deadlock_refuted exhibits two insertions that wait for each other. C46_ends_partial proves that no interleaving is endless: either all threads return or they are deadlocked. C46_no_deadlock_partial proves that there is no deadlock when no task inserts, when one task inserts and none iterates, or when all inserted points get the same level and no task iterates. C46_deadlock_low_refuted shows that levels 1, 0 and 0 are enough for a deadlock of three insertions."
  },
  {
   "property": "C47",
   "status": "proved",
   "theorems": [
    "C47_reload_options"
   ],
   "note": ""
  },
  {
   "property": "C48",
   "status": "proved",
   "theorems": [
    "C48_set_values"
   ],
   "note": ""
  },
  {
   "property": "C49",
   "status": "partial",
   "theorems": [
    "C49_description_refuted",
    "C49_description_partial"
   ],
   "note": "False: C49_description_refuted: the description says 0 points whatever was dumped (nb_point is never filled). C49_description_partial proves the other fields, and null for a missing file."
  },
  {
   "property": "C50",
   "status": "proved",
   "theorems": [
    "C50_search",
    "C50_parallel_search"
   ],
   "note": "Memory is a set of typed objects; counts below 2^63. The distances of anndists are a parameter."
  },
  {
   "property": "C51",
   "status": "proved",
   "theorems": [
    "C51_level_scale"
   ],
   "note": ""
  },
  {
   "property": "C52",
   "status": "partial",
   "theorems": [
    "C52_iterating_refuted",
    "C52_iterating_partial"
   ],
   "note": "False: C52_iterating_refuted exhibits a deadlock between an iteration and an insertion. C52_iterating_partial proves that the iteration never panics and that, if it ends, it is right. That iterations and searches alone never deadlock is in C46_no_deadlock_partial."
  },
  {
   "property": "C53",
   "status": "partial",
   "theorems": [
    "C53_drop_partial",
    "C53_drop_refuted"
   ],
   "note": "Proved for max_layer >= 1; with max_layer = 0 dropping the index panics (C53_drop_refuted)."
  },
  {
   "property": "C54",
   "status": "partial",
   "theorems": [
    "C54_alignment_refuted",
    "C54_alignment_partial"
   ],
   "note": "False: C54_alignment_refuted (records follow each other without padding). Partial: which addresses are aligned."
  },
  {
   "property": "C55",
   "status": "partial",
   "theorems": [
    "C55_relative_directory_refuted",
    "C55_relative_directory_partial"
   ],
   "note": "False: a relative directory is joined twice and the process exits (C55_relative_directory_refuted, for every dump). Partial: absolute directories and the working directory."
  },
  {
   "property": "C56",
   "status": "partial",
   "theorems": [
    "C56_with_dist_mmap_refuted",
    "C56_with_dist_partial"
   ],
   "note": "False: with the mapping option it panics (C56_with_dist_mmap_refuted, for every dump with more points than the threshold). Partial: without mapping both give the same index."
  },
  {
   "property": "C57",
   "status": "partial",
   "theorems": [
    "C57_nodata_mmap_refuted",
    "C57_nodata_partial"
   ],
   "note": "False: with the mapping option it panics (C57_nodata_mmap_refuted). Partial: without the option."
  },
  {
   "property": "C58",
   "status": "partial",
   "theorems": [
    "C58_readable_refuted",
    "C58_readable_partial"
   ],
   "note": "False: type names of more than 256 bytes are written but cannot be read (C58_readable_refuted); vectors of several lengths see C37. Partial: names of 256 bytes at most and one vector length."
  },
  {
   "property": "C59",
   "status": "proved",
   "theorems": [
    "C59_concurrent_search"
   ],
   "note": "The filter is respected as far as it is without concurrency (see C11). Stated for any index in use (`used`)."
  },
  {
   "property": "C60",
   "status": "proved",
   "theorems": [
    "C60_constructors"
   ],
   "note": "init_hnsw_* is new_hnsw_* with 16 layers."
  },
  {
   "property": "C61",
   "status": "proved",
   "theorems": [
    "C61_runs"
   ],
   "note": "Not restricted in length or number of indexes. Indexes obtained by reload are the subject of C62. The index is a `used` one of the Rust API (C67), and a `built` one if no parallel insertion came first (C45)."
  },
  {
   "property": "C62",
   "status": "partial",
   "theorems": [
    "C62_reload_refuted",
    "C62_reload_partial"
   ],
   "note": "False for some distances: C62_reload_refuted: no load function for u16 with DistJaccard (nor for f32 with DistHellinger). C62_reload_partial proves it for the distances that have one; ties between equal distances as in C28."
  },
  {
   "property": "C63",
   "status": "proved",
   "theorems": [
    "C63_search_local_optimum",
    "C63_any_use"
   ],
   "note": "The _any_use theorem is about every use of an index, also when points lie above the entry point (C45); the first one speaks of points through the iterator over the index and get_point_data, which do not show these."
  },
  {
   "property": "C64",
   "status": "proved",
   "theorems": [
    "C64_insert_effect_on_links",
    "C64_any_use"
   ],
   "note": "Back links are put in the list of the layer of the new point only, whatever the layer of the link; the theorem says so. The _any_use theorem is about every use of an index, also when points lie above the entry point (C45); the first one speaks of points through the iterator over the index and get_point_data, which do not show these."
  },
  {
   "property": "C65",
   "status": "proved",
   "theorems": [
    "C65_neighbour_selection",
    "C65_any_use"
   ],
   "note": "The _any_use theorem is about every use of an index, also when points lie above the entry point (C45); the first one speaks of points through the iterator over the index and get_point_data, which do not show these."
  },
  {
   "property": "C66",
   "status": "proved",
   "theorems": [
    "C66_insert_descent",
    "C66_any_use"
   ],
   "note": "1 <= M <= 255 because get_max_nb_connection is a u8: with M = 256 it is 0 and the descent keeps nothing. The _any_use theorem is about every use of an index, also when points lie above the entry point (C45); the first one speaks of points through the iterator over the index and get_point_data, which do not show these."
  },
  {
   "property": "C67",
   "status": "proved",
   "theorems": [
    "C67_any_use"
   ],
   "note": "`used` contains every way of making an index that the other properties consider; those that need more (no orphan, entry point of maximum level) are stated for `built`."
  },
  {
   "property": "C68",
   "status": "proved",
   "theorems": [
    "C68_accepted_index_is_safe"
   ],
   "note": "Which files are rejected, and that intact ones are accepted, is in C29-C34; here no hypothesis is made on the bytes."
  },
  {
   "property": "C69",
   "status": "proved",
   "theorems": [
    "C69_format_3",
    "C69_format_2"
   ],
   "note": "Equality of the outcomes, also when they are failures. bincode itself is not modelled: any encoding that the decoder undoes."
  },
  {
   "property": "C70",
   "status": "partial",
   "theorems": [
    "C70_dump_beside_insertion_refuted",
    "C70_dump_beside_threads_partial",
    "C70_unlinked_point_refuted"
   ],
   "note": "False: the number of points is read before the table is locked, so an insertion in between makes files that both loaders reject by a panic (C70_dump_beside_insertion_refuted); and a point caught before it is linked stays unreachable after the reload (C70_unlinked_point_refuted). Proved for all interleavings: no panic, what the files contain, bounds of the announced number, reload if and only if the numbers agree. ConcDumpProofs.run_dump: alone, the concurrent dump writes the files of the sequential one."
  },
  {
   "property": "C71",
   "status": "proved",
   "theorems": [
    "C71_answers_are_linked"
   ],
   "note": "For `used`, hence also after parallel insertions and after the reload of a dump that ran beside other threads."
  },
  {
   "property": "C72",
   "status": "proved",
   "theorems": [
    "C72_readers_as_if_alone"
   ],
   "note": "Tasks with max(ef, knbn) = 0 and a filter, and iterations of an empty index, panic alone (C13, C22) and are excluded."
  },
  {
   "property": "C73",
   "status": "proved",
   "theorems": [
    "C73_failing_disk"
   ],
   "note": "Over a model of std::io::BufWriter and of the calls of write_all, one by one (Disk.v), proved to write the same bytes as the model of Io.v (calls_dump). The kernel may still lose written bytes at a power failure: file_dump does not sync."
  },
  {
   "property": "C74",
   "status": "proved",
   "theorems": [
    "C74_larger_ef_is_no_worse",
    "C74_filtered"
   ],
   "note": "The hypothesis on ties is part of the property: among equally near candidates the order of visit decides what a bounded search finds. C68 and C72 carry it over to loaded and concurrent use through `used`. C74_filtered: the same for filtered searches whose answers satisfy the filter (C11 says when they do not)."
  },
  {
   "property": "C75",
   "status": "proved",
   "theorems": [
    "C75_answers_do_not_depend_on_containers",
    "C75_filtered"
   ],
   "note": "Equality of the outcomes of `search` for two instances of the laws of the containers. C75_filtered: the same for filtered searches."
  },
  {
   "property": "C76",
   "status": "partial",
   "theorems": [
    "C76_load_safety_refuted",
    "C76_load_safety_partial"
   ],
   "note": "False: C76_load_safety_refuted: load_point_data makes a slice of `dimension` elements from as many bytes as the record announces, so even a dump of file_dump (vectors of several lengths) is read out of bounds. Partial: a load always ends; out of bounds only with a record that is too short; a data map that could be built never reads outside of the file. Alignment is C54; allocation failure for absurd announced sizes is not modelled."
  },
  {
   "property": "C77",
   "status": "proved",
   "theorems": [
    "C77_negative_distances_never_pass"
   ],
   "note": "Sequential use; the distance function is arbitrary here (the other theorems assume it non negative)."
  },
  {
   "property": "C78",
   "status": "proved",
   "theorems": [
    "C78_nan_is_contained",
    "C78_without_nan",
    "C78_nan_first"
   ],
   "note": "Sequential use. Vectors at a NaN distance from some stored vectors only are not covered: std leaves the containers' behaviour open there. The clause about layer 0 is needed: the failed point may become the lowest one."
  },
  {
   "property": "C79",
   "status": "proved",
   "theorems": [
    "C79_failed_insertions_do_no_harm"
   ],
   "note": "Sequential use. Insertions that return, of vectors at no numeric distance from some stored vector, are outside: C78 shows what the first such insertion can do. The clause about layer 0 is needed: the failed point may become the lowest one."
  },
  {
   "property": "C80",
   "status": "proved",
   "theorems": [
    "C80_accepted_exactly"
   ],
   "note": "Reload without memory mapping. Reading an existing file does not fail half-way (disk errors at load are not modelled); allocation never fails."
  },
  {
   "property": "C81",
   "status": "proved",
   "theorems": [
    "C81_datamap_exactly"
   ],
   "note": "Alignment of the slices is C54, other relative directories C55. A record shorter than the dimension is read out of bounds (C76); it is not a map that is returned in the model."
  },
  {
   "property": "C82",
   "status": "proved",
   "theorems": [
    "C82_search_complete",
    "C82_filter_complete",
    "C82_short_answers"
   ],
   "note": ""
  },
  {
   "property": "C83",
   "status": "proved",
   "theorems": [
    "C83_layer_info",
    "C83_point_dump",
    "C83_no_layer"
   ],
   "note": "What is printed is modelled as the list of the values printed, not as characters."
  },
  {
   "property": "C84",
   "status": "proved",
   "theorems": [
    "C84_graph_comparison",
    "C84_reload_compared"
   ],
   "note": ""
  },
  {
   "property": "C85",
   "status": "proved",
   "theorems": [
    "C85_index_does_not_depend_on_containers"
   ],
   "note": "C85_ties shows that the hypothesis is needed. Parallel insertion is not covered: its result depends on the schedule."
  },
  {
   "property": "C86",
   "status": "proved",
   "theorems": [
    "C86_only_the_order_of_distances_matters"
   ],
   "note": "The distances of the model are the order keys of the f32 values, so two distances that round differently are covered only if they order the pairs alike after rounding."
  },
  {
   "property": "C87",
   "status": "proved",
   "theorems": [
    "C87_cut_files",
    "C87_cut_dump"
   ],
   "note": "Makes C31 and C32 exact for cut files. Reloads with mapping are not covered here."
  },
  {
   "property": "C88",
   "status": "proved",
   "theorems": [
    "C88_generations"
   ],
   "note": "Needs that sorting a sorted list again keeps its order (or that no list has ties), as C28. The drift of the level scale is the defect of C29."
  },
  {
   "property": "C89",
   "status": "proved",
   "theorems": [
    "C89_distance_calls"
   ],
   "note": "Calls.v rewrites the functions of Model.v as programs that ask for each distance; the first clause of each half says they compute the same."
  },
  {
   "property": "C90",
   "status": "proved",
   "theorems": [
    "C90_panicking_distance"
   ],
   "note": "For one thread. Panics in several threads at once are C92. C67 and the other theorems about `used` indexes apply to the index left behind."
  },
  {
   "property": "C91",
   "status": "partial",
   "theorems": [
    "C91_used_again_partial",
    "C91_with_dist_after_load_partial",
    "C91_used_again_refuted"
   ],
   "note": "False as stated: load_hnsw_with_dist with the mapping option uses the data map of an earlier load_hnsw, even when the files have been replaced since, and so does a graph-only load_hnsw. Proved for every load without mapping, and for load_hnsw with mapping of a type that has data (absolute or working directory, format 3 or 4). A data file overwritten while it is mapped is the subject of C102."
  },
  {
   "property": "C92",
   "status": "proved",
   "theorems": [
    "C92_panics_in_parallel"
   ],
   "note": "For any partial distance and any interleaving. That the point of an insertion that panicked is never found afterwards is proved for one thread (C90), not here. Iterations and dumps call no distance and never panic here. After a panic rayon may not start the remaining insertions of a parallel_insert: the theorem is then about the list of those that started."
  },
  {
   "property": "C93",
   "status": "proved",
   "theorems": [
    "C93_level_law"
   ],
   "note": "Up to 2^-45 (2^-44 for the powers of max_nb_connection), which covers the roundings of the logarithm and of the product. Assumes that the generator gives all 52-bit numbers, and then all levels, equally often. Also: with max_nb_connection = 1 the scale is infinite and all layers are equally likely; with 0 every point goes to layer 0. Uses the axioms of Coq's real numbers (section 5 of DESIGN.md); Flocq for the rounding of the product."
  },
  {
   "property": "C94",
   "status": "proved",
   "theorems": [
    "C94_searches_with_other_arguments"
   ],
   "note": "A filter is a function of the id: a closure whose answer depends on what it was asked before is not modelled."
  },
  {
   "property": "C95",
   "status": "proved",
   "theorems": [
    "C95_points_for_life"
   ],
   "note": "C15 for any later use. Reloads with the mapping option are not among the later uses here (C34 relates them to the others)."
  },
  {
   "property": "C96",
   "status": "proved",
   "theorems": [
    "C96_filters_that_change"
   ],
   "note": "C11, C13 and C67 for filters that are not functions of the id. With max(ef, knbn) = 0 the search may panic (C13)."
  },
  {
   "property": "C97",
   "status": "proved",
   "theorems": [
    "C97_what_a_search_finds"
   ],
   "note": "C06, C07, C12, C63 and C82 for indexes filled in parallel. The notions of Spec.v are read off the layer iterators, because get_point_data does not see points above the entry point (C45)."
  },
  {
   "property": "C98",
   "status": "partial",
   "theorems": [
    "C98_sizes_partial",
    "C98_sizes_refuted"
   ],
   "note": "False as stated: C98_sizes_refuted: two heaps of max(ef, knbn) entries are reserved before the walk, so a search with usize::MAX panics (capacity overflow) in every index with a point, and so does the second insertion with such an ef_construction; Hnsw::new panics for a large max_elements. C98_sizes_partial says exactly when memory is missing and what happens then; otherwise everything is as in Model.v. The f64 computation of the size of a layer is a parameter."
  },
  {
   "property": "C99",
   "status": "proved",
   "theorems": [
    "C99_mapped_exactly"
   ],
   "note": "With a directory that is relative and not the working directory, DataMap::from_hnswdump looks for the files at the wrong place (C55) and the process exits. An HnswIo that already has a map keeps it when no new one can be made (C91)."
  },
  {
   "property": "C100",
   "status": "partial",
   "theorems": [
    "C100_drop_exactly",
    "C100_leak_refuted",
    "C100_drop_frees_partial"
   ],
   "note": "Refuted: drop clears only the layers up to that of the entry point. Points above it that are neighbours of each other, as an index reloaded from a dump taken beside insertions can have, are never freed, nor what they point to. C100_drop_exactly says for every index which points are freed; C100_drop_frees_partial that all are for the indexes of `built`."
  },
  {
   "property": "C101",
   "status": "proved",
   "theorems": [
    "C101_given_stays",
    "C101_nothing_freed"
   ],
   "note": "Over all continuations of all runs of a C program (c_step, the one-step form of c_run). The character strings of a description are memory that the program may write (OBytes), so they are not covered."
  },
  {
   "property": "C102",
   "status": "partial",
   "theorems": [
    "C102_mapped_vectors_partial",
    "C102_mapped_vectors_refuted",
    "C102_own_file_refuted"
   ],
   "note": "Refuted: the dump of an index that was not reloaded, under the name of the mapped files, changes the vectors of the mapped index (or takes them away); and an index of load_hnsw_with_dist may be mapped on the file that its own dump truncates. Proved for the dumps of indexes made by load_hnsw, under any name, and of all indexes under other names."
  },
  {
   "property": "C103",
   "status": "partial",
   "theorems": [
    "C103_data_damage",
    "C103_graph_damage_partial",
    "C103_damage_refuted",
    "C103_mapped_damage"
   ],
   "note": "False: one byte of a vector or of a link may change unnoticed (C103_damage_refuted). C103_data_damage: a data file of the same length is accepted exactly when it agrees with the dumped one outside of the vectors, and what is loaded then. C103_graph_damage_partial: with any graph file that is accepted, ids and vectors are those of the dump, in order; links, layers and parameters are not protected. Reload in memory. C103_mapped_damage: with a memory map, whatever the threshold, the same data files (of the length of the dumped one) are accepted and give the same index as in memory."
  },
  {
   "property": "C104",
   "status": "proved",
   "theorems": [
    "C104_filter_no_worse_than_filtering"
   ],
   "note": "Sequential searches. no_tie is needed as in C74."
  },
  {
   "property": "C105",
   "status": "partial",
   "theorems": [
    "C105_dumps_at_once_partial",
    "C105_dumps_at_once_refuted"
   ],
   "note": "False in full: C105_dumps_at_once_refuted exhibits a dump that returned Ok and cannot be reloaded while another dump of the same index has the files open, and two dumps that must not overwrite, which choose the same free name, both return Ok, and leave the graph of one with the vectors of the other. C105_dumps_at_once_partial proves it when all the calls that opened the same files dump the same index and have returned (in particular when the names differ), and that existing dumps are never touched by calls that must not overwrite. No insertion runs during the dumps (C63, C64 are about those), and opens and writes do not fail (C73)."
  },
  {
   "property": "C106",
   "status": "partial",
   "theorems": [
    "C106_reload_during_dump_partial",
    "C106_reload_during_dump_refuted"
   ],
   "note": "False in full: C106_reload_during_dump_refuted exhibits a reload that succeeds with the graph of the previous dump and the vectors of the one that overwrites it, and, for two dumps of the same index at once, a reload that succeeds with a vector that was never inserted. C106_reload_during_dump_partial proves it when the files were absent or already a dump of this index, and one call at most opens them. Reads without the data map."
  },
  {
   "property": "C107",
   "status": "partial",
   "theorems": [
    "C107_power_failure_partial",
    "C107_power_failure_refuted"
   ],
   "note": "False in full, because nothing is synced: C107_power_failure_refuted exhibits a dump that returned Ok and is lost, a dump made over another after which a reload succeeds with the graph of one and the vectors of the other, and, when blocks may be written in any order, a reload that succeeds with a vector that was never inserted. C107_power_failure_partial proves, for a system that writes each file in order, that nothing but a complete dump is accepted when the files were absent or already a dump of this index, and one call at most opened them."
  },
  {
   "property": "C108",
   "status": "proved",
   "theorems": [
    "C108_links_of_older_points",
    "C108_room",
    "C108_nearest"
   ],
   "note": "For any two moments of any interleaving; `settled` at the first moment: in the index before, or returned by its insertion. C108_room and C108_nearest are the consequences named in the property."
  },
  {
   "property": "C109",
   "status": "proved",
   "theorems": [
    "C109_search_beside_insertions"
   ],
   "note": "Says nothing about recall beyond the entry point; C59 says what the answers are."
  },
  {
   "property": "C110",
   "status": "proved",
   "theorems": [
    "C110_only_grows",
    "C110_number_of_points",
    "C110_max_level"
   ],
   "note": "C110_max_level assumes a non empty index whose points are within its maximal level, as after serial insertions (C18); C45 has a run from an empty index that ends outside of this."
  },
  {
   "property": "C111",
   "status": "proved",
   "theorems": [
    "C111_mutual_links_kept",
    "C111_mutual_links",
    "C111_mutual_links_reload"
   ],
   "note": "Successive insertions, setters and reloads; for insertions running in parallel it is not proved. Lists above a point's own layer hold points met on the way down and are not covered (their neighbours are never told)."
  },
  {
   "property": "C112",
   "status": "partial",
   "theorems": [
    "C112_flat_misses_nothing_partial",
    "C112_flat_filter_partial",
    "C112_flat_misses_nothing_refuted"
   ],
   "note": "False as stated: C112_flat_misses_nothing_refuted has nine vectors, inserted one after the other with M = 2 and ef_construction = 20, after which one of them is in no list and no search, with any arguments, returns it. C112_flat_misses_nothing_partial: it holds as long as no neighbour list is full (2M entries). Missing: any guarantee once a list is full, beyond C09 (up to 2M+1 points)."
  },
  {
   "property": "C113",
   "status": "proved",
   "theorems": [
    "C113_links_for_all_kept",
    "C113_links_for_all"
   ],
   "note": "Successive insertions; not proved for insertions running in parallel (C45 is about the points these leave out)."
  }
 ]
}