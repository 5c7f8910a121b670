{"id": "C01", "title": "Search result size", "statement": "search(data, knbn, ef) never returns more than knbn neighbours, whatever ef is; with knbn = 0 it returns none.", "quantifier": "every index reachable by new/insert/set_*/reload, every query vector, every knbn and ef, every distance function with non-negative non-NaN values, every tie-breaking of heaps and sorts", "why_tests_cant": "Tests sample random vectors with a handful of (knbn, ef) pairs; the bound must hold for every index shape, including ef < knbn, ef = 0 and tiny indexes.", "anchors": ["src/hnsw.rs:Hnsw::search", "src/hnsw.rs:Hnsw::search_filter", "src/hnsw.rs:Hnsw::search_layer"]}
{"id": "C02", "title": "Search result order", "statement": "The neighbours returned by search / search_filter are in non-decreasing order of distance.", "quantifier": "every reachable index, query, knbn, ef and filter", "why_tests_cant": "Order must hold for all graphs and ties; a test sees a few random instances where ties practically never occur.", "anchors": ["src/hnsw.rs:Hnsw::search_filter", "src/hnsw.rs:PointWithOrder::cmp"]}
{"id": "C03", "title": "Search soundness", "statement": "Every neighbour returned by search denotes a point that was really inserted: get_point_data(p_id) yields the stored vector v, the d_id is the id given with v at insertion, and the reported distance is exactly dist(query, v).", "quantifier": "every reachable index, query, knbn, ef and filter", "why_tests_cant": "A stale or mis-paired distance/id shows up only for particular graph walks; no finite set of walks covers all histories.", "anchors": ["src/hnsw.rs:Hnsw::search_filter", "src/hnsw.rs:Hnsw::search_layer", "src/hnsw.rs:PointIndexation::get_point_data"]}
{"id": "C04", "title": "No duplicate answers", "statement": "A search never returns the same stored point twice.", "quantifier": "every reachable index, query, knbn, ef and filter", "why_tests_cant": "Needs an invariant on visited points over every walk of every graph (cycles, ties, multiple paths).", "anchors": ["src/hnsw.rs:Hnsw::search_layer"]}
{"id": "C05", "title": "Search non-emptiness", "statement": "Without filter, search returns the empty vector on an empty index, and at least one neighbour on any non-empty index as soon as knbn >= 1 (whatever ef and whichever layers the points fell in).", "quantifier": "every reachable index, query, knbn >= 1, ef", "why_tests_cant": "The layer drawn for each point is random; test_sparse_search reruns 800 times one single-point case.", "anchors": ["src/hnsw.rs:Hnsw::search_filter", "src/hnsw.rs:tests::test_sparse_search"]}
{"id": "C06", "title": "Search is at least as good as the entry point", "statement": "The first neighbour returned by an unfiltered search with knbn >= 1 is at most as far from the query as the index entry point is.", "quantifier": "every reachable index, query, knbn >= 1, ef", "why_tests_cant": "A quality guarantee over all graphs; recall benchmarks average over random data.", "anchors": ["src/hnsw.rs:Hnsw::search_filter", "src/hnsw.rs:Hnsw::search_layer"]}
{"id": "C07", "title": "Exhaustive search over reachable points", "statement": "When ef is at least the number of points, an unfiltered search examines every point reachable from its starting point by layer links: it returns the knbn nearest of them, i.e. no reachable point outside the answer is strictly closer than a returned one, and the answer has min(knbn, number reachable) elements.", "quantifier": "every reachable index, query, knbn, ef >= nb points", "why_tests_cant": "Early-exit and heap-eviction logic must never drop a reachable point; only a loop invariant over all graphs shows that.", "anchors": ["src/hnsw.rs:Hnsw::search_layer", "src/hnsw.rs:Hnsw::search_filter"]}
{"id": "C08", "title": "Full recall when asking for everything", "statement": "Searching with knbn = ef = number of points in the index returns all the points.", "quantifier": "every reachable index and query", "why_tests_cant": "Depends on reachability at the lowest layer for every insertion order and every draw of levels.", "anchors": ["src/hnsw.rs:Hnsw::reverse_update_neighborhood_simple", "src/hnsw.rs:Hnsw::search_filter"]}
{"id": "C09", "title": "Exactness of small flat indexes", "statement": "If the index was built with max_layer = 1, default flags and at most 2*max_nb_connection+1 points, with ef_construction at least the number of points, then search returns exactly the knbn nearest inserted vectors (brute-force answer) for every knbn and ef.", "quantifier": "every such insertion history, query, knbn, ef", "why_tests_cant": "Exactness for all data sets and all ties is not testable by sampling.", "anchors": ["src/hnsw.rs:Hnsw::insert_slice", "src/hnsw.rs:Hnsw::select_neighbours", "src/hnsw.rs:Hnsw::search_filter"]}
{"id": "C10", "title": "Operations never panic nor loop", "statement": "With a distance function returning non-negative values and max_layer >= 1, no sequence of insert and unfiltered search calls panics, trips an assertion, indexes out of bounds or runs for ever (memory being available for the sizes asked for, see C98).", "quantifier": "every history of inserts (any data, ids, level draws, flags) followed by any search", "why_tests_cant": "Assertions, unwraps, slice indexing and a while loop on a mutable heap: absence of failure and termination must hold on every history.", "anchors": ["src/hnsw.rs:Hnsw::insert_slice", "src/hnsw.rs:Hnsw::search_layer", "src/hnsw.rs:Hnsw::select_neighbours"]}
{"id": "C11", "title": "Filter soundness", "statement": "search_filter only returns points whose id is accepted by the filter.", "quantifier": "every reachable index, query, knbn, ef and filter", "why_tests_cant": "Depends on whether the start point of the walk passes the filter and on what is reachable; tests use filters that accept 100 of 500 ids.", "anchors": ["src/hnsw.rs:Hnsw::search_filter", "src/hnsw.rs:Hnsw::search_layer", "src/filter.rs:FilterT", "README.md:Filtering"]}
{"id": "C12", "title": "Filter exhaustiveness", "statement": "When ef exceeds the number of points, search_filter returns every accepted point reachable from its starting point (the knbn nearest of them), so filtering during the walk loses nothing compared with post-filtering the same reachable set.", "quantifier": "every reachable index, query, knbn, filter, ef > nb points", "why_tests_cant": "Interaction of filtering, eviction and early exit over all graphs.", "anchors": ["src/hnsw.rs:Hnsw::search_layer"]}
{"id": "C13", "title": "Filtered search never panics", "statement": "search_filter with any filter, knbn and ef does not panic (memory being available for max(ef, knbn) answers, see C98).", "quantifier": "every reachable index, query, knbn, ef (including 0) and filter", "why_tests_cant": "The panic needs ef = 0, a rejected start point and an accepted neighbour closer than it: outside any existing test.", "anchors": ["src/hnsw.rs:Hnsw::search_layer", "src/hnsw.rs:Hnsw::search_filter"]}
{"id": "C14", "title": "Insertion keeps data", "statement": "After any sequence of insertions the index holds exactly the multiset of (vector, id) pairs inserted: none lost, altered or duplicated; get_nb_point is the number of insertions, and equals the number of points the iterator yields.", "quantifier": "every history of inserts", "why_tests_cant": "Statement about every history length and every level draw.", "anchors": ["src/hnsw.rs:PointIndexation::generate_new_point", "src/hnsw.rs:Hnsw::insert_slice", "src/hnsw.rs:PointIndexation::get_nb_point"]}
{"id": "C15", "title": "PointId stability", "statement": "The PointId given to a point, its vector and its id never change: for every p_id valid at some time, get_point_data(p_id) returns the same vector after any further insertions.", "quantifier": "every index history, every later insertions, every p_id", "why_tests_cant": "Ranges over all continuations of all histories.", "anchors": ["src/hnsw.rs:PointIndexation::get_point_data", "src/hnsw.rs:PointIndexation::generate_new_point"]}
{"id": "C16", "title": "get_point_data is total and exact", "statement": "get_point_data never panics; it returns Some exactly for the PointIds of stored points, None for negative ranks, unknown layers or ranks.", "quantifier": "every reachable index, every PointId (any u8 layer, any i32 rank)", "why_tests_cant": "The input space is 2^40 ids times all indexes.", "anchors": ["src/hnsw.rs:PointIndexation::get_point_data"]}
{"id": "C17", "title": "Levels stay in range", "statement": "The level drawn for a point is always in 0..max_layer and max_layer is at most 16, for every random draw, every value of max_nb_connection (including 0 and 1 where the scale is not finite) and every level scale.", "quantifier": "every f64 drawn (NaN, infinities, subnormals included), scale, max_layer", "why_tests_cant": "The overflow branch has probability about 1e-13 with default parameters.", "anchors": ["src/hnsw.rs:LayerGenerator::generate", "src/hnsw.rs:Hnsw::new"]}
{"id": "C18", "title": "Entry point has the maximum level", "statement": "After sequential insertions get_max_level_observed is the maximum level over all stored points (and 0 when empty), so no layer above it contains a point.", "quantifier": "every history of inserts", "why_tests_cant": "Needs induction over all histories.", "anchors": ["src/hnsw.rs:PointIndexation::check_entry_point", "src/hnsw.rs:PointIndexation::get_max_level_observed"]}
{"id": "C19", "title": "Bounded degree", "statement": "No point ever has more than max_nb_connection neighbours in a layer >= 1, nor more than 2*max_nb_connection in layer 0 (as reported by get_neighborhood_id).", "quantifier": "every history of inserts, all flags (extend_candidates, keep_pruned)", "why_tests_cant": "The bound must survive arbitrary many reverse updates.", "anchors": ["src/hnsw.rs:Hnsw::reverse_update_neighborhood_simple", "src/hnsw.rs:Hnsw::select_neighbours", "src/hnsw.rs:Point::get_neighborhood_id"]}
{"id": "C20", "title": "Neighbour lists are well formed", "statement": "Each neighbour list reported by get_neighborhood_id is sorted by distance, has no repeated point, never contains the point itself, and only refers to stored points, with d_id their id and the distance equal to the distance between the two stored vectors (for a symmetric distance).", "quantifier": "every history of inserts, every point and layer", "why_tests_cant": "Induction over all histories, walks and ties.", "anchors": ["src/hnsw.rs:Hnsw::insert_slice", "src/hnsw.rs:Hnsw::reverse_update_neighborhood_simple", "src/hnsw.rs:Point::get_neighborhood_id"]}
{"id": "C21", "title": "Layer discipline of links", "statement": "The neighbours a point reports at layer l are points present in layer l or above (the guarantee stated in the comment of search_layer).", "quantifier": "every history of inserts, every point and layer", "why_tests_cant": "Depends on the order in which levels are drawn.", "anchors": ["src/hnsw.rs:Hnsw::search_layer", "src/hnsw.rs:Hnsw::insert_slice"]}
{"id": "C22", "title": "Point iteration is complete", "statement": "Iterating over a non-empty PointIndexation yields every stored point exactly once, by increasing layer then rank, then None; iterating over an empty one yields None without panicking.", "quantifier": "every reachable index", "why_tests_cant": "Skipping of empty layers depends on every possible pattern of layer occupancy.", "anchors": ["src/hnsw.rs:IterPoint::next", "src/hnsw.rs:PointIndexation::into_iter"]}
{"id": "C23", "title": "Layer iteration is complete", "statement": "get_layer_iterator(l) yields exactly the points whose level is l, in rank order, and agrees with get_layer_nb_point(l), for every layer number.", "quantifier": "every reachable index, every layer number", "why_tests_cant": "All occupancies and all layer numbers including out of range ones.", "anchors": ["src/hnsw.rs:IterPointLayer::next", "src/hnsw.rs:PointIndexation::get_layer_nb_point"]}
{"id": "C24", "title": "parallel_search answers in request order", "statement": "parallel_search returns one answer per request and the i-th answer is exactly what search gives for the i-th vector, whatever the order in which worker threads deliver their results.", "quantifier": "every index, every list of requests, every arrival order of answers on the channel", "why_tests_cant": "Thread schedules are not controllable in a test.", "anchors": ["src/hnsw.rs:Hnsw::parallel_search", "src/hnsw.rs:Hnsw::search_with_id"]}
{"id": "C25", "title": "Flat neighbourhood", "statement": "FlatNeighborhood::from(&hnsw).get_neighbours(id) is Some exactly when a point with this id was inserted; the result is sorted by distance and is a permutation of the neighbours listed for that point over all layers (for unique ids).", "quantifier": "every reachable non-empty index with unique ids, every id", "why_tests_cant": "All graphs, all ids.", "anchors": ["src/flatten.rs:FlatNeighborhood::from", "src/flatten.rs:flatten_point"]}
{"id": "C26", "title": "Vec filter is set membership", "statement": "A sorted Vec<usize> used as a filter accepts exactly the ids it contains (and an unsorted one never accepts an id it does not contain).", "quantifier": "every vector and every id", "why_tests_cant": "Binary search boundary cases over all vectors.", "anchors": ["src/filter.rs:FilterT for Vec<usize>"]}
{"id": "C27", "title": "Dump/reload preserves the graph", "statement": "file_dump followed by load_hnsw with the same types restores every layer, point, id, vector, neighbour list (with distances), the entry point and the point count.", "quantifier": "every reachable index with max_layer = 16, at least one point, vectors of equal length, max_nb_connection <= 255", "why_tests_cant": "Byte-level codec over all indexes, all 64-bit ids, all f32 distances and all vector types.", "anchors": ["src/api.rs:AnnT::file_dump", "src/hnswio.rs:HnswIo::load_hnsw", "src/hnswio.rs:HnswIo::load_point_indexation", "src/hnswio.rs:dump_point"]}
{"id": "C28", "title": "Search is unchanged by dump/reload", "statement": "After a dump and reload, search and search_filter give the same answers as on the original index.", "quantifier": "every dumpable index, query, knbn, ef, filter", "why_tests_cant": "All indexes and queries.", "anchors": ["src/hnswio.rs:HnswIo::load_hnsw", "src/hnsw.rs:Hnsw::search_filter"]}
{"id": "C29", "title": "Dump/reload preserves construction parameters", "statement": "After a dump and reload the construction parameters (max_nb_connection, ef_construction, number of layers, level scale, extend_candidates, keep_pruned) are those of the dumped index, so that insertions continue with the same settings.", "quantifier": "every dumpable index and its parameters", "why_tests_cant": "Existing tests compare only graphs, for one parameter set; the parameter space is large.", "anchors": ["src/hnswio.rs:Hnsw::dump", "src/hnswio.rs:HnswIo::load_hnsw", "src/hnsw.rs:LayerGenerator::new_with_scale", "src/hnsw.rs:Hnsw::get_max_nb_connection"]}
{"id": "C30", "title": "Description round trip", "statement": "load_description applied to the beginning of a graph file returns the description that was dumped (format version 4, mode, ef, number of points, dimension, distance name, type name).", "quantifier": "every description with names of at most 256 bytes", "why_tests_cant": "All field values and names.", "anchors": ["src/hnswio.rs:Description::dump", "src/hnswio.rs:load_description"]}
{"id": "C31", "title": "A partially written dump is never accepted", "statement": "If a dump is interrupted (crash) so that either file holds only a strict prefix of its bytes, load_hnsw does not return Ok: no truncated index is silently loaded.", "quantifier": "every dumpable index, every cut point in either file", "why_tests_cant": "Every byte offset of every dump is a crash point.", "anchors": ["src/hnswio.rs:HnswIo::load_hnsw", "src/hnswio.rs:load_point_graph", "src/hnswio.rs:load_point_data", "src/api.rs:AnnT::file_dump"]}
{"id": "C32", "title": "Bad dumps are reported as errors", "statement": "load_hnsw on a damaged or foreign file returns Err rather than panicking.", "quantifier": "every pair of files", "why_tests_cant": "Input space is all byte strings.", "anchors": ["src/hnswio.rs:HnswIo::init", "src/hnswio.rs:load_point_graph", "src/hnswio.rs:load_description"]}
{"id": "C33", "title": "A failed dump does not destroy the previous one", "statement": "When file_dump returns Err (for instance because max_layer is not 16, or the index is empty) an earlier good dump of the same basename is still loadable.", "quantifier": "every index and every file system content", "why_tests_cant": "Requires the combination of a failing dump and a pre-existing dump.", "anchors": ["src/api.rs:AnnT::file_dump", "src/hnswio.rs:DumpInit::new", "src/hnswio.rs:Description::dump"]}
{"id": "C34", "title": "Memory-mapped reload equals plain reload", "statement": "Reloading with mmap and any threshold gives an index with the same points, vectors and graph as reloading without mmap.", "quantifier": "every dumpable index with distinct ids and vectors of one length, in an absolute directory or the working directory, every mmap threshold", "why_tests_cant": "All indexes times all thresholds.", "anchors": ["src/hnswio.rs:HnswIo::load_point_indexation", "src/hnswio.rs:HnswIo::load_point", "src/datamap.rs:DataMap::get_data"]}
{"id": "C35", "title": "mmap threshold", "statement": "With set_mmap_threshold(k), exactly min(k, number of points) points have their vector in memory, and they are the last ones in layer order (upper layers first); the others are mapped.", "quantifier": "every dumpable index and every k", "why_tests_cant": "All sizes and thresholds.", "anchors": ["src/hnswio.rs:HnswIo::load_point_indexation", "src/hnswio.rs:ReloadOptions::set_mmap_threshold"]}
{"id": "C36", "title": "DataMap gives back the vectors", "statement": "DataMap::from_hnswdump on a dump indexes every dumped id: get_data(id) is the vector inserted with this id, None for other ids; get_nb_data is the number of points and get_dataid_iter lists the ids in file order.", "quantifier": "every dumpable index with unique ids and vectors of one length, in an absolute directory or the working directory", "why_tests_cant": "Offsets arithmetic over all dumps.", "anchors": ["src/datamap.rs:DataMap::from_hnswdump", "src/datamap.rs:DataMap::get_data", "src/datamap.rs:DataMap::get_nb_data"]}
{"id": "C37", "title": "Vectors of different lengths survive a reload", "statement": "An index over vectors of varying length (as with DistLevenshtein on words) is restored faithfully by dump/reload.", "quantifier": "every index, vectors of any lengths", "why_tests_cant": "Only equal-length data is dumped in tests.", "anchors": ["src/hnswio.rs:load_point_data", "src/hnswio.rs:dump_point", "src/datamap.rs:DataMap::from_hnswdump"]}
{"id": "C38", "title": "check_data_type discriminates types", "statement": "DataMap::check_data_type::<T>() returns true exactly when the last path component of T's type name equals that of the dumped type.", "quantifier": "every pair of type names", "why_tests_cant": "All type names, in particular user types with paths.", "anchors": ["src/datamap.rs:DataMap::check_data_type"]}
{"id": "C39", "title": "No overwrite of mapped data", "statement": "file_dump on an index obtained by load_hnsw never modifies an existing .hnsw.data file, whatever files are present, and returns the basename actually used.", "quantifier": "every file system content, every basename, every sequence of random suffixes", "why_tests_cant": "All directory contents and random suffix sequences.", "anchors": ["src/api.rs:AnnT::file_dump", "src/hnswio.rs:DumpInit::new"]}
{"id": "C40", "title": "No overwrite of any dump file", "statement": "file_dump on a reloaded index never modifies any existing file (graph files included) and always terminates.", "quantifier": "every file system content, every basename, every sequence of random suffixes", "why_tests_cant": "Needs an orphan graph file or an exhausted suffix space.", "anchors": ["src/hnswio.rs:DumpInit::new"]}
{"id": "C41", "title": "Type and distance checks at reload", "statement": "load_hnsw refuses (does not return Ok for) a dump whose data type name differs from T, or whose distance short name differs from D's, except for the graph-only type NoData.", "quantifier": "every dump, every pair of type names and distance names", "why_tests_cant": "All names.", "anchors": ["src/hnswio.rs:HnswIo::load_hnsw", "src/hnswio.rs:HnswIo::load_hnsw_with_dist", "src/hnswio.rs:HnswIo::load_point_indexation"]}
{"id": "C42", "title": "Graph-only reload", "statement": "Reloading with NoData restores the same graph (ids, layers, neighbour lists and distances, entry point) with empty vectors, so FlatNeighborhood is the same as before the dump.", "quantifier": "every dumpable index", "why_tests_cant": "All graphs.", "anchors": ["src/hnswio.rs:load_point_data", "src/flatten.rs:FlatNeighborhood::from"]}
{"id": "C43", "title": "Parallel insertion stores every point", "statement": "parallel_insert of n vectors, under every interleaving, ends with exactly the n vectors stored with their ids at distinct PointIds and get_nb_point increased by n.", "quantifier": "every list of vectors, every number of threads and every interleaving of their lock-protected steps", "why_tests_cant": "Schedules cannot be enumerated by a test.", "anchors": ["src/hnsw.rs:Hnsw::parallel_insert", "src/hnsw.rs:PointIndexation::generate_new_point"]}
{"id": "C44", "title": "Parallel insertion keeps lists well formed", "statement": "At every moment of every interleaving of parallel insertions, neighbour lists are within the degree bounds, sorted, without repetition or self reference, and refer only to stored points with correct distances.", "quantifier": "every interleaving, every moment", "why_tests_cant": "Schedules cannot be enumerated by a test.", "anchors": ["src/hnsw.rs:Hnsw::insert_slice", "src/hnsw.rs:Hnsw::reverse_update_neighborhood_simple"]}
{"id": "C45", "title": "Parallel insertion leaves no orphan", "statement": "After parallel_insert into an empty index, every point can be found: iteration yields all points, the entry point has the maximal level and points are linked.", "quantifier": "every interleaving", "why_tests_cant": "The offending schedule is a race on the first two insertions.", "anchors": ["src/hnsw.rs:Hnsw::insert_slice", "src/hnsw.rs:PointIndexation::check_entry_point"]}
{"id": "C46", "title": "Parallel insertion never deadlocks", "statement": "parallel_insert always completes: no interleaving leads to threads blocked for ever on each other's neighbour locks.", "quantifier": "every interleaving", "why_tests_cant": "Needs a precise timing between two inserting threads with high levels.", "anchors": ["src/hnsw.rs:Hnsw::reverse_update_neighborhood_simple"]}
{"id": "C47", "title": "Reload options", "statement": "ReloadOptions: set_mmap(b) and set_mmap_threshold(t) have the documented effect, a threshold of 0 leaves the options unchanged, and any sequence of setters results in use_mmap() reporting the last values set.", "quantifier": "every sequence of setter calls", "why_tests_cant": "All sequences of calls.", "anchors": ["src/hnswio.rs:ReloadOptions"]}
{"id": "C48", "title": "HnswIo initialisation", "statement": "set_values succeeds exactly once, only on a HnswIo made by default(); otherwise it returns Err and changes nothing.", "quantifier": "every sequence of set_values/set_options calls", "why_tests_cant": "All call sequences.", "anchors": ["src/hnswio.rs:HnswIo::set_values", "src/hnswio.rs:HnswIo::new"]}
{"id": "C49", "title": "C description of a dump", "statement": "load_hnsw_description (C API) reports the parameters stored in the dump: connection number, layers, ef, number of points, dimension, distance and type names.", "quantifier": "every dump", "why_tests_cant": "All dumps.", "anchors": ["src/libext.rs:load_hnsw_description"]}
{"id": "C50", "title": "C search mirrors search", "statement": "The C search functions return exactly the ids and distances of Hnsw::search in the same order and with the right count, one list per request for the parallel version.", "quantifier": "every index, query and parameters", "why_tests_cant": "All queries.", "anchors": ["src/libext.rs:generate_search_neighbours", "src/libext.rs:generate_parallel_search_neighbours", "src/libext.rs:Neighbour_api::from"]}
{"id": "C51", "title": "Level scale modification", "statement": "modify_level_scale multiplies the current scale by the argument clamped to [0.2, 1] (NaN giving 0.2) and changes nothing else.", "quantifier": "every argument (NaN and infinities included) and every index", "why_tests_cant": "All f64 arguments.", "anchors": ["src/hnsw.rs:Hnsw::modify_level_scale", "src/hnsw.rs:LayerGenerator::set_scale_modification"]}
{"id": "C52", "title": "Iterating while inserting does not deadlock", "statement": "A thread iterating over get_point_indexation() while another thread inserts always makes progress.", "quantifier": "every interleaving", "why_tests_cant": "Needs a writer queued between two reads of the same lock by the iterator.", "anchors": ["src/hnsw.rs:IterPoint::next", "src/hnsw.rs:PointIndexation::generate_new_point"]}
{"id": "C53", "title": "Dropping an index never panics", "statement": "Dropping an Hnsw (end of scope) completes without panicking.", "quantifier": "every index made by new, insertions and setters", "why_tests_cant": "All histories and all constructor arguments, including max_layer = 0.", "anchors": ["src/hnsw.rs:PointIndexation::drop"]}
{"id": "C54", "title": "Alignment of mapped vectors", "statement": "DataMap::get_data returns slices aligned for T, whatever the dump (reading them is not undefined behaviour).", "quantifier": "every dump, every element type of alignment 1, 2, 4, 8 or 16, every id", "why_tests_cant": "The offset depends on the number and the size of all the preceding records; a misaligned slice works silently on common machines.", "anchors": ["src/datamap.rs:DataMap::get_data", "src/datamap.rs:DataMap::from_hnswdump"]}
{"id": "C55", "title": "Data maps from any directory", "statement": "DataMap::from_hnswdump, and load_hnsw with the mapping option, work with the same directory as file_dump, absolute or relative.", "quantifier": "every dump, every directory, every working directory", "why_tests_cant": "Tests use one directory.", "anchors": ["src/datamap.rs:DataMap::from_hnswdump", "src/hnswio.rs:HnswIo::load_hnsw"]}
{"id": "C56", "title": "load_hnsw_with_dist honours its options", "statement": "load_hnsw_with_dist gives the index load_hnsw gives, for every reload options.", "quantifier": "every dumpable index, every options", "why_tests_cant": "All indexes times all options.", "anchors": ["src/hnswio.rs:HnswIo::load_hnsw_with_dist"]}
{"id": "C57", "title": "Graph-only reload with the mapping option", "statement": "Reloading with NoData works whatever the reload options.", "quantifier": "every dumpable index, every options", "why_tests_cant": "All indexes times all options.", "anchors": ["src/hnswio.rs:HnswIo::load_hnsw", "src/hnswio.rs:HnswIo::load_point_indexation"]}
{"id": "C58", "title": "A successful dump can be reloaded", "statement": "When file_dump returns Ok, load_hnsw with the same types on the returned name returns Ok.", "quantifier": "every index, every element type and distance type", "why_tests_cant": "All type names and vector lengths.", "anchors": ["src/hnswio.rs:HnswIo::load_hnsw", "src/api.rs:AnnT::file_dump"]}
{"id": "C59", "title": "Searching while inserting", "statement": "A search that runs while other threads insert, search or iterate never panics; its answers are at most knbn stored points, in increasing distance, without repetition, with their ids and exact distances; it finds something if the index was not empty.", "quantifier": "every index, every set of tasks, every interleaving, every moment", "why_tests_cant": "Schedules cannot be enumerated by a test.", "anchors": ["src/hnsw.rs:Hnsw::search_filter", "src/hnsw.rs:Hnsw::insert_slice"]}
{"id": "C60", "title": "C constructors", "statement": "The C functions init_hnsw_* and new_hnsw_* return a new empty index with the named distance and the given parameters when the name is one they know, and null, with no other effect, for any other sequence of bytes.", "quantifier": "every element type, every byte sequence given as name, every parameters, every memory", "why_tests_cant": "The names are arbitrary bytes with an explicit length.", "anchors": ["src/libext.rs:init_hnsw_f32", "src/libext.rs:new_hnsw_f32", "src/libext.rs:init_hnsw_u16"]}
{"id": "C61", "title": "C programs build the same indexes", "statement": "Whatever sequence of C calls a program makes (buffers allocated, changed and freed at will between calls), an index made by the C functions holds exactly the vectors and ids that were in the buffers at each insertion through its pointer, as if the Rust API had been called.", "quantifier": "every finite sequence of C calls on any number of indexes, every content of the buffers, every interleaving of the parallel insertions", "why_tests_cant": "Sequences of calls and aliasing of buffers cannot be enumerated.", "anchors": ["src/libext.rs:insert_f32", "src/libext.rs:parallel_insert_f32", "src/libext.rs:generate_insert", "src/libext.rs:generate_parallel_insert"]}
{"id": "C62", "title": "C dump and reload", "statement": "An index made and dumped through the C functions can be reloaded through them, and answers every search as before.", "quantifier": "every element type and distance accepted by the constructors, every index, every file name", "why_tests_cant": "All distances times all indexes.", "anchors": ["src/libext.rs:generate_file_dump", "src/libext.rs:generate_loadhnsw", "src/libext.rs:get_hnswio"]}
{"id": "C63", "title": "Answers of a search are locally optimal", "statement": "A point linked, in the searched layer, to an answer of a search (and accepted by the filter) is an answer too, unless the search already returns knbn answers that are all at least as near to the query.", "quantifier": "every index, every query, knbn, ef and filter (with a filter: max(ef, knbn) >= 1)", "why_tests_cant": "A wrong stopping rule of the greedy search only loses recall on some graphs.", "anchors": ["src/hnsw.rs:Hnsw::search_layer", "src/hnsw.rs:Hnsw::search_filter"]}
{"id": "C64", "title": "Effect of an insertion on the other points", "statement": "An insertion leaves the links of the points already there as they are, except that a point to which the new one is linked receives, in its list of the layer of the new point, the new point, in order of distance, and loses its furthest entry if it had no more room.", "quantifier": "every index, every vector, id and random draws", "why_tests_cant": "A lost or misplaced link changes no result that a test could name.", "anchors": ["src/hnsw.rs:Hnsw::insert_slice", "src/hnsw.rs:Hnsw::reverse_update_neighborhood_simple"]}
{"id": "C65", "title": "Choice of the links of a new point", "statement": "In each layer up to its own, a new point is linked to the points found by a search of width ef_construction if they fit, and otherwise to a diversified choice of them: each is nearer to the new point than to any nearer chosen one, none is left out without reason; set_keeping_pruned fills the remaining room with the nearest ones left out, set_extend_candidates widens the candidates with their neighbours in layer 0.", "quantifier": "every index, every flags, every vector, id and random draws, every layer", "why_tests_cant": "The heuristic acts on recall only; an error in it fails no assertion.", "anchors": ["src/hnsw.rs:Hnsw::select_neighbours", "src/hnsw.rs:Hnsw::insert_slice", "src/hnsw.rs:Hnsw::search_layer"]}
{"id": "C66", "title": "Descent of an insertion", "statement": "In the layers above its own a new point is linked to one local minimum of the distance, and to nothing above the top of the index; each lower layer gives it a link at least as near as the links of the layers above and as the entry point.", "quantifier": "every index with 1 <= max_nb_connection <= 255, every vector, id and random draws", "why_tests_cant": "A descent that restarts from a wrong point still yields a valid index.", "anchors": ["src/hnsw.rs:Hnsw::insert_slice"]}
{"id": "C67", "title": "Any use leaves a usable index", "statement": "Whatever was done with an index (insertions, setters, dumps and reloads, parallel mixtures of insertions and searches, also as the very first use), it holds and counts exactly what was inserted, its neighbour lists are bounded, sorted and refer to its points, every search answers with distinct stored points, sorted, with exact ids and distances (at least one if there is one), and further insertions succeed.", "quantifier": "every history of sequential and parallel uses, every interleaving, every query, knbn, ef and filter (with a filter: max(ef, knbn) >= 1)", "why_tests_cant": "Histories times interleavings cannot be enumerated.", "anchors": ["src/hnsw.rs:Hnsw::parallel_insert_slice", "src/hnsw.rs:Hnsw::insert_slice", "src/hnsw.rs:Hnsw::search_filter"]}
{"id": "C68", "title": "An index accepted from any files can be searched", "statement": "Whatever the bytes of the two files of a dump, if load_hnsw or load_hnsw_with_dist returns an index, then it has the parameters of the description in the files and no more points than described, its entry point and every link refer to a loaded point, its neighbour lists are in order of distance, and every search answers, with distinct loaded points, sorted, with their exact ids and distances (at least one without a filter).", "quantifier": "all contents of the two files, all element types, options, queries, knbn, ef and filters (with a filter: max(ef, knbn) >= 1)", "why_tests_cant": "Damaged files cannot be enumerated.", "anchors": ["src/hnswio.rs:HnswIo::load_hnsw", "src/hnswio.rs:HnswIo::load_point_indexation", "src/hnswio.rs:load_point", "src/hnswio.rs:load_description", "src/hnsw.rs:Hnsw::search_filter"]}
{"id": "C69", "title": "Dumps of older formats are still read", "statement": "Files of format 3 (no level scale) load exactly as files of the current format with the same content and scale 1.0; files of format 2 (moreover, vectors encoded by bincode), when not memory-mapped, load exactly as those of the current format.", "quantifier": "all contents of the files, all element types and options (format 2: without mapping)", "why_tests_cant": "No current version writes these formats, so tests have no files of them.", "anchors": ["src/hnswio.rs:load_description", "src/hnswio.rs:load_point_data", "src/hnswio.rs:HnswIo::load_hnsw", "src/datamap.rs:DataMap::from_hnswdump"]}
{"id": "C70", "title": "Dumping while inserting", "statement": "A dump made while other threads insert, search and dump can be reloaded: it contains the points stored when it was started and otherwise only points inserted meanwhile, each of which a search can find.", "quantifier": "every index with at least one point, all tasks running beside the dump, every interleaving, every element type with fixed size, without memory mapping", "why_tests_cant": "The outcome depends on where the dump meets the insertions; a test sees a few schedules.", "anchors": ["src/api.rs:AnnT::file_dump", "src/hnswio.rs:HnswIoT::dump", "src/hnsw.rs:Hnsw::insert_slice", "src/hnswio.rs:HnswIo::load_hnsw"]}
{"id": "C71", "title": "Answers are linked to the entry point", "statement": "Each answer of a search is reached from the entry point by a chain of neighbour lists; a point that is in no neighbour list, unless it is the entry point, is never answered.", "quantifier": "every history of uses, sequential and parallel, every query, knbn, ef and filter (with a filter: max(ef, knbn) >= 1)", "why_tests_cant": "Concerns all the paths of the search in all graphs.", "anchors": ["src/hnsw.rs:Hnsw::search_filter", "src/hnsw.rs:Hnsw::search_layer"]}
{"id": "C72", "title": "Readers do not disturb each other", "statement": "Searches, iterations and dumps that run at the same time, without insertion, leave the index unchanged, never panic and never deadlock, and each returns exactly what it returns alone: a search its answers, an iteration its points, a dump its files.", "quantifier": "every history of uses before, all sets of reading tasks, every interleaving, every query, knbn, ef and filter (with a filter: max(ef, knbn) >= 1)", "why_tests_cant": "All schedules of the readers, including those where locks are taken twice, must agree.", "anchors": ["src/hnsw.rs:Hnsw::parallel_search", "src/hnsw.rs:Hnsw::search_filter", "src/hnsw.rs:IterPoint::next", "src/api.rs:AnnT::file_dump"]}
{"id": "C73", "title": "A dump on a failing disk is never taken for complete", "statement": "When file_dump returns Ok, both files are complete, whatever errors the disk reported and however the writes were split. Otherwise it returns Err (a write failed), panics (a file could not be opened) or was killed; no other file is touched, and no later load accepts what is left, unless nothing had been written yet or both files were complete.", "quantifier": "every index that can be dumped, every buffer size, every sequence of answers of the operating system to open and write (partial writes, errors, death of the process at any call)", "why_tests_cant": "Failures must be injected at every call of write, for every index and every split of the writes; buffered bytes are also written when the writers are dropped, after an error.", "anchors": ["src/api.rs:AnnT::file_dump", "src/hnswio.rs:DumpInit::new", "src/hnswio.rs:DumpInit::flush", "src/hnswio.rs:HnswIoT::dump", "src/hnswio.rs:dump_point"]}
{"id": "C74", "title": "A larger ef never gives worse answers", "statement": "When no two stored vectors are at the same distance from the query, searching with a larger ef, or for more neighbours, returns at least as many answers, and the i-th answer is at least as near.", "quantifier": "every history of uses, sequential and parallel, every query without tie, every pair of (knbn, ef) in order, no filter", "why_tests_cant": "Compares two runs of a heuristic search on every graph; on a few data sets recall grows with ef anyway.", "anchors": ["src/hnsw.rs:Hnsw::search", "src/hnsw.rs:Hnsw::search_layer"]}
{"id": "C75", "title": "Answers do not depend on how the containers order equal elements", "statement": "When no two stored vectors are at the same distance from the query, the answers are determined by the index: every implementation of BinaryHeap, sort and hash map that satisfies its documentation gives the same answers.", "quantifier": "every history of uses, every query without tie, every knbn and ef, all pairs of implementations of the containers, no filter", "why_tests_cant": "A test runs with one implementation of the standard library.", "anchors": ["src/hnsw.rs:Hnsw::search", "src/hnsw.rs:Hnsw::search_layer", "src/hnsw.rs:Hnsw::search_filter"]}
{"id": "C76", "title": "Loading never reads out of bounds", "statement": "Whatever the bytes of the files, load_hnsw, load_hnsw_with_dist, DataMap::from_hnswdump and DataMap::get_data end, and read only memory that holds data of the files.", "quantifier": "all contents of the files, all element types, distance names and reload options", "why_tests_cant": "Undefined behaviour is not reliably visible in a test, and damaged files cannot be enumerated.", "anchors": ["src/hnswio.rs:HnswIo::load_hnsw", "src/hnswio.rs:HnswIo::load_hnsw_with_dist", "src/hnswio.rs:load_point_data", "src/datamap.rs:DataMap::from_hnswdump", "src/datamap.rs:DataMap::get_data"]}
{"id": "C77", "title": "Negative distances never pass", "statement": "Whatever the distance function, negative values included, the distances given by a search that returns and those listed in the neighbourhoods of the points are not negative, and a search from a vector at a negative distance from every stored vector does not return.", "quantifier": "all distance functions without any assumption, all indexes made by insertions and setter calls that returned, all queries, filters, knbn and ef", "why_tests_cant": "Needs every distance function and every index.", "anchors": ["src/hnsw.rs:Hnsw::search_layer", "src/hnsw.rs:Hnsw::select_neighbours", "src/hnsw.rs:Hnsw::insert_slice", "src/hnsw.rs:Hnsw::search_filter"]}
{"id": "C78", "title": "NaN distances are contained", "statement": "When the distance function may give NaN or panic: on an index holding vectors that are at numeric distances from one another, searches and insertions of such vectors return, with numeric distances, and act as if the distance never gave NaN; a search from a vector whose distance to every stored vector is NaN or panics does not return, and its insertion panics; any number of such insertions, caught by the caller, leaves the answers to the other searches unchanged if the index has a point at layer 0. But if the distance of every vector to the first vector inserted is NaN or panics, that insertion returns, and no later search or insertion does.", "quantifier": "all distance functions giving numbers, NaN or panicking, all histories, all queries, filters, knbn and ef, all sequences of failed insertions, all behaviours of the standard containers in presence of a NaN", "why_tests_cant": "Needs every history, every place of the NaN vector and every behaviour that std leaves open.", "anchors": ["src/hnsw.rs:Hnsw::search_layer", "src/hnsw.rs:Hnsw::select_neighbours", "src/hnsw.rs:Hnsw::insert_slice", "src/hnsw.rs:Hnsw::search_filter", "src/hnsw.rs:PointWithOrder"]}
{"id": "C79", "title": "Insertions that fail do no harm", "statement": "After any history of insertions some of which did not return (the distance function gave NaN or panicked, for instance on a vector of another length) and were caught by the caller, those that returned being of vectors at numeric distances from one another: a search from such a vector returns at most knbn answers, nearest first, of distinct points, each a vector whose insertion returned, with its distance, and one at least if there is one and nothing is filtered; an insertion of such a vector returns; a further failed insertion changes no answer of these searches if the index has a point at layer 0, though its vector is counted by get_nb_point and given by iterations.", "quantifier": "all distance functions giving numbers, NaN or panicking, all histories mixing insertions that return and that fail anywhere, all queries, filters, knbn and ef, all behaviours of the standard containers in presence of a NaN", "why_tests_cant": "Needs every history and every point of failure.", "anchors": ["src/hnsw.rs:Hnsw::insert_slice", "src/hnsw.rs:Hnsw::search_layer", "src/hnsw.rs:Hnsw::select_neighbours", "src/hnsw.rs:Hnsw::reverse_update_neighborhood_simple", "src/hnsw.rs:Hnsw::search_filter"]}
{"id": "C80", "title": "Which files a reload accepts", "statement": "Reloading in memory (no mapping) returns an index exactly when the graph file and the data file begin with the text of some contents, given by a grammar: magic numbers in their places, numbers that fit in their fields, at most 16 layers and 16 lists for each point, points written at their own layer and rank, references and entry point to points that are in the file, distances that are numbers, not more points than announced, vectors with the announced dimension and with the ids of the graph file, and the names of the element type and of the distance (its last component for load_hnsw, whole for load_hnsw_with_dist) being those of the index wanted; and the index returned is the one these contents stand for, field by field. For no other pair of files is an index returned.", "quantifier": "all contents of the two files, byte by byte, all element types, distance names, formats 2, 3 and 4", "why_tests_cant": "The files are arbitrary strings of bytes.", "anchors": ["src/hnswio.rs:HnswIo::load_hnsw", "src/hnswio.rs:HnswIo::load_hnsw_with_dist", "src/hnswio.rs:HnswIo::load_point_indexation", "src/hnswio.rs:HnswIo::load_point", "src/hnswio.rs:load_description"]}
{"id": "C81", "title": "Which files a data map accepts", "statement": "DataMap::from_hnswdump, in an absolute directory or the working directory, returns a map exactly when both files exist, the graph file begins with a description of format 3 or 4 naming the requested type, and the data file begins with the magic number and the dimension of the description followed by as many records (magic number, id, length, bytes) as its size divided by the size of a record of this dimension, each having bytes enough for the dimension. Then get_data gives for each id the vector of the last record with this id, and None for the ids of no record; get_dataid_iter gives the ids in the order of their first records, get_nb_data their number, and the type and distance names are those of the description.", "quantifier": "all contents of the two files, byte by byte, all element types, ids with any repetition, trailing bytes", "why_tests_cant": "The files are arbitrary strings of bytes.", "anchors": ["src/datamap.rs:DataMap::from_hnswdump", "src/datamap.rs:DataMap::get_data", "src/datamap.rs:DataMap::get_dataid_iter", "src/datamap.rs:DataMap::get_nb_data"]}
{"id": "C82", "title": "When the answers are all there is", "statement": "If max(ef, knbn) is at least the number of points that can be reached from the starting point of the search, the answers are the knbn nearest of them; for a filtered search only the reachable points that the filter accepts have to fit in max(ef, knbn) >= 2. Conversely, a search that returns fewer than knbn answers has returned every (accepted) point that can be reached, or, for a filter accepting none of them, the starting point alone. The starting point is found from the entry point by going, in each layer above 0, to the first nearest among the current point and its neighbours.", "quantifier": "all distances, insertion histories, queries, filters, knbn, ef and tie-breaking", "why_tests_cant": "It is about the whole graph reachable from a point that depends on the query, for any shape of the graph.", "anchors": ["src/hnsw.rs:Hnsw::search_layer", "src/hnsw.rs:Hnsw::search_filter", "src/hnsw.rs:Hnsw::search"]}
{"id": "C83", "title": "What is printed about an index", "statement": "dump_layer_info prints, for each layer from 0 to the highest one with points, the number of points that get_layer_nb_point reports, and these numbers add up to the number of points; Point::debug_dump prints the PointId, the origin id and, for exactly the layers where the point has neighbours, the PointIds that get_neighborhood_id reports, in the same order. With max_layer = 0 dump_layer_info panics.", "quantifier": "all distances, insertion histories, points", "why_tests_cant": "The layers and the links depend on the whole history of insertions and level draws.", "anchors": ["src/hnsw.rs:Hnsw::dump_layer_info", "src/hnsw.rs:PointIndexation::debug_dump", "src/hnsw.rs:Point::debug_dump"]}
{"id": "C84", "title": "What the graph comparison of the test-suite establishes", "statement": "check_graph_equality, by which the tests of dump and reload compare two indexes (possibly of different types), returns normally exactly when both indexes have 16 layers, are not empty, have the same entry point and show, at each PointId, the same origin id and the same lists of neighbours with ids and distances; otherwise it panics. It does not compare the vectors. It succeeds on every index reloaded from its dump, when the sort keeps sorted lists as they are.", "quantifier": "all pairs of indexes, of any element types, distances and histories; all dumps and reloads", "why_tests_cant": "A comparison that succeeds on two test indexes does not say what it would let pass; the claim is about all pairs of indexes.", "anchors": ["src/hnsw.rs:check_graph_equality", "src/hnswio.rs:HnswIo::load_hnsw"]}
{"id": "C85", "title": "Without ties the index does not depend on the standard containers", "statement": "If no two of the inserted vectors are at the same distance from a third one, a sequence of insertions and setters on a new index leaves exactly the same index, neighbour lists included, or fails in exactly the same way, whatever the order in which BinaryHeap, sort_unstable and HashMap leave equal elements: the result is a function of the calls and of the levels drawn.", "quantifier": "all symmetric distances, sequences of insertions and setters, level draws, and pairs of implementations of the containers that do what the documentation of std says", "why_tests_cant": "A test runs one version of the standard library, and one seed of the hash maps at a time.", "anchors": ["src/hnsw.rs:Hnsw::insert_slice", "src/hnsw.rs:Hnsw::search_layer", "src/hnsw.rs:Hnsw::select_neighbours", "src/hnsw.rs:Hnsw::reverse_update_neighborhood_simple"]}
{"id": "C86", "title": "Only the order of the distances matters", "statement": "Two symmetric distances that order all pairs of vectors in the same way (the Euclidean distance and its square, for instance) give, from the same insertions, setters and level draws without ties, the same index up to the distances recorded in the neighbour lists, and every search, filtered or not, returns the same points in the same order, up to the distances reported.", "quantifier": "all pairs of symmetric distances that order pairs alike, sequences of insertions and setters, level draws, queries, k, ef and filters", "why_tests_cant": "A test compares two distances on one data set; the claim is about all data without ties.", "anchors": ["src/hnsw.rs:Hnsw::insert_slice", "src/hnsw.rs:Hnsw::search_filter", "src/hnsw.rs:Hnsw::select_neighbours"]}
{"id": "C87", "title": "What a reload does with a dump that has been cut short", "statement": "When one of the two files of a dump, or both, have lost any number of bytes at their end, a reload in memory does exactly what the first missing piece, in reading order, decides: it panics if the description or a point of the graph file is incomplete, ends the process if the record of a point in the data file is incomplete, returns an error if the heading of the data file, the number of layers, the heading of a layer or the entry point is incomplete, and succeeds only if nothing is missing. In particular a cut of the data file alone gives an error if fewer than 12 bytes are left and ends the process otherwise, and a cut of the graph file alone never ends the process.", "quantifier": "all contents that can be loaded (formats 2, 3 and 4), all lengths left of the two files, both reload functions; and all dumps of all built indexes", "why_tests_cant": "The cut can be at any byte of either file, in combination: tests try a few.", "anchors": ["src/hnswio.rs:load_description", "src/hnswio.rs:load_point", "src/hnswio.rs:load_point_graph", "src/hnswio.rs:load_point_data", "src/hnswio.rs:HnswIo::load_point_indexation", "src/hnswio.rs:HnswIo::load_hnsw", "src/hnswio.rs:HnswIo::load_hnsw_with_dist"]}
{"id": "C88", "title": "Any number of dumps and reloads", "statement": "However many times an index is dumped and reloaded (in memory, mapped, or with load_hnsw_with_dist), it shows the same points, vectors, neighbour lists, entry point, parameters and answers to searches as the first one, it can be dumped and reloaded once more, and its two files have the same bytes as the first dump, except the eight bytes of the level scale: that scale is multiplied at each reload by the default scale of the number of connections.", "quantifier": "all built indexes with at most 255 connections and vectors of one length, all numbers of cycles, all directories, base names and states of the disk at each cycle", "why_tests_cant": "The number of generations has no bound and each one starts from a reloaded index, a state tests of a single dump and reload never dump.", "anchors": ["src/hnswio.rs:Description::dump", "src/hnswio.rs:HnswIo::load_hnsw", "src/hnswio.rs:HnswIo::load_hnsw_with_dist", "src/hnsw.rs:LayerGenerator::new_with_scale", "src/api.rs:AnnT::file_dump"]}
{"id": "C89", "title": "Which vectors the user's distance is called on, and how often", "statement": "A search calls the user's distance function only with the query as first argument and a vector of the index as second, and at most 1 + 15*M + n times on an index of n points with M connections. An insertion calls it only with the new vector, or a vector already there, as first argument and a vector already there as second, at most a fixed multiple of n + 1 times.", "quantifier": "all distances, all indexes however used, all queries, filters and parameters, all inserted vectors and level draws", "why_tests_cant": "The arguments depend on the whole walk through the graph; a test sees the calls of one walk, a user who writes a distance needs to know what it may be given.", "anchors": ["src/hnsw.rs:Hnsw::search_layer", "src/hnsw.rs:Hnsw::search_filter", "src/hnsw.rs:Hnsw::insert_slice", "src/hnsw.rs:Hnsw::select_neighbours"]}
{"id": "C90", "title": "A distance function that panics", "statement": "If the user's distance function panics on some pairs of vectors, a search that does not panic gives the same answers as if it never did, and an insertion that does not panic does the same as if it never did. A search that panics leaves the index as it was. An insertion that panics leaves the new point in the index, where no search finds it, and the index stays usable: searches answer and insertions succeed. If all the vectors have one length and the distance answers on vectors of this length, nothing panics.", "quantifier": "all partial distances, all indexes however used (earlier panics included), all queries, filters, vectors and level draws, all points at which the panic occurs", "why_tests_cant": "The panic can come at any call of any walk; each leaves a different intermediate state behind.", "anchors": ["src/hnsw.rs:Hnsw::insert_slice", "src/hnsw.rs:Hnsw::search_filter", "src/hnsw.rs:Hnsw::search_layer", "src/hnsw.rs:Hnsw::select_neighbours"]}
{"id": "C91", "title": "One HnswIo used for several reloads", "statement": "A load through a HnswIo gives what a HnswIo just made with the same directory, base name and options gives, whatever loads and changes of options it was used for before, and whatever the files contained then.", "quantifier": "all histories of loads and set_options on one HnswIo, all contents of the files at each time, all types and distances", "why_tests_cant": "A HnswIo keeps the data map of an earlier load; what a later load does depends on the whole history.", "anchors": ["src/hnswio.rs:HnswIo::load_hnsw", "src/hnswio.rs:HnswIo::load_hnsw_with_dist", "src/hnswio.rs:HnswIo::set_options"]}
{"id": "C92", "title": "A distance function that panics during parallel use", "statement": "When several threads insert, search, iterate and dump at once and the user's distance function panics on some pairs of vectors: every schedule ends or stops; a thread that panics holds no lock afterwards, and panics only because of a pair the distance does not answer on; searches that return have right answers; the other threads can go on whenever they could without panics (no insertion, or at most one and no iteration, or all at the same level and no iteration); when all have ended, every vector given to an insertion, including those whose insertion panicked, is in the index once, and the index is well formed and can be used further.", "quantifier": "all partial distances, all indexes however used, all sets of tasks, all interleavings, all points of each thread at which the panic occurs", "why_tests_cant": "The moment of each panic and the schedule of the others multiply; a lock kept by a dead thread would block the rest only in some schedules.", "anchors": ["src/hnsw.rs:Hnsw::insert_slice", "src/hnsw.rs:Hnsw::parallel_insert", "src/hnsw.rs:Hnsw::parallel_search", "src/hnsw.rs:Hnsw::search_filter", "src/hnsw.rs:PointIndexation::generate_new_point"]}
{"id": "C93", "title": "The law of the levels", "statement": "An insertion puts its point in layer n with probability exp(-n/s) - exp(-(n+1)/s), s being the level scale of the index, plus an equal share of the probability exp(-max_layer/s) of a level that is too high, whatever the vector and the history of the index; with the default scale each layer is max_nb_connection times rarer than the one below.", "quantifier": "all indexes however used, all vectors, all layers, all scales from 2^-900 to 2^900, all implementations of the logarithm accurate to 2^-50, all 2^52 values of the random number", "why_tests_cant": "A test can only sample a few of the 2^52 random numbers, and a wrong law shows only in layers that are rarely reached.", "anchors": ["src/hnsw.rs:LayerGenerator::generate", "src/hnsw.rs:LayerGenerator::new", "src/hnsw.rs:Hnsw::modify_level_scale", "src/hnsw.rs:Hnsw::insert_slice"]}
{"id": "C94", "title": "Searches with other arguments", "statement": "Asking for fewer answers with the same max(ef, knbn) gives the first of the same answers, filtered or not. An ef below knbn counts as knbn. Two filters that let through the same ids of inserted points give the same outcome: a filter that accepts them all gives the answers of the search without a filter, a closure that tests membership those of the sorted vector of ids. The settings for insertions and the searching mode have no effect on the answers.", "quantifier": "all indexes however used, all queries, all knbn and ef, all filters, all settings", "why_tests_cant": "The relation holds between two runs of the search whose stop conditions differ; a test compares them on a few graphs where they coincide for other reasons.", "anchors": ["src/hnsw.rs:Hnsw::search_filter", "src/hnsw.rs:Hnsw::search_layer", "src/hnsw.rs:Hnsw::search", "src/filter.rs:FilterT"]}
{"id": "C95", "title": "Points for life", "statement": "At any later time, whatever was done to the index meanwhile (insertions, also such as ended in a panic, settings, parallel uses, dumps beside other threads followed by a reload), every point of the index is still there, under the same PointId, with its vector and its id, and no other point has that PointId; what get_point_data gave it still gives; the top layer is not lower. This also holds at every moment of a parallel use.", "quantifier": "all indexes however used, all later states, all interleavings, all distance functions that may panic", "why_tests_cant": "The claim is about every state that can follow a given one; a test follows one history.", "anchors": ["src/hnsw.rs:PointId", "src/hnsw.rs:Hnsw::get_point_data", "src/hnsw.rs:Hnsw::parallel_insert", "src/hnsw.rs:Hnsw::insert_slice", "src/hnswio.rs:HnswIo::load_hnsw"]}
{"id": "C96", "title": "Filters that change their mind", "statement": "Whatever the filter of search_filter answers and when (it may keep a state, read data that other threads change during the search, or panic), with max(ef, knbn) >= 1 the search returns unless the filter itself panics; the filter is asked only about ids of points of the index and at most 2*(n-1) times on n points; there are at most knbn answers, sorted, different, with their ids and exact distances, at least one if the index is not empty and knbn >= 1, and each of them was accepted by some call of the filter unless it is the only answer. A filter that gives the same answer for the same id gives the answers of the search with that predicate.", "quantifier": "all indexes however used, all queries, knbn and ef, all filters with a state (functions of the whole dialogue so far)", "why_tests_cant": "A test has one closure and one timing of its changes.", "anchors": ["src/hnsw.rs:Hnsw::search_filter", "src/hnsw.rs:Hnsw::search_layer", "src/filter.rs:FilterT"]}
{"id": "C97", "title": "What a search finds, however the index was used", "statement": "In an index filled by any sequence of insertions, serial or parallel with any interleaving, dumps and reloads: where a search starts is determined by the index and the query, it is not further than the entry point and the first answer is not further than it; with max(ef, knbn) at least the number of points that the links of the lowest layer reach from there, the answers are the knbn nearest of these, with a filter the knbn nearest of those it accepts; a search that gives fewer answers than asked has found all that can be reached; a neighbour of an answer is an answer, or at least as far as all the answers, which are then knbn.", "quantifier": "all indexes however used, all queries, knbn, ef and filters", "why_tests_cant": "A test sees one interleaving, and what cannot be reached depends on it.", "anchors": ["src/hnsw.rs:Hnsw::search", "src/hnsw.rs:Hnsw::search_general", "src/hnsw.rs:Hnsw::search_layer"]}
{"id": "C98", "title": "Any size may be asked for", "statement": "max_elements, ef_construction, ef and knbn may be any numbers: max_elements is only a hint, and a width or a number of answers beyond the number of points means all of them (usize::MAX included). Hnsw::new, insert and search do the same whatever these numbers, as long as the memory for the points is there.", "quantifier": "all indexes however used, all queries and filters, all values of the four arguments, all allocators", "why_tests_cant": "Tests use small sizes; what is reserved in advance shows only for huge ones or when memory is short.", "anchors": ["src/hnsw.rs:Hnsw::new", "src/hnsw.rs:PointIndexation::new", "src/hnsw.rs:Hnsw::search_layer", "src/hnsw.rs:Hnsw::insert_slice"]}
{"id": "C99", "title": "Which files a mapped reload accepts", "statement": "A reload asking for a memory map (ReloadOptions with mmap and a threshold), by an HnswIo that has no map yet, in an absolute directory or the working directory: load_hnsw accepts a pair of files exactly when they spell contents that fit their fields, make sense and have the expected distance name, and either the data file can be mapped, or the format or type admits no map and no point is beyond the threshold. The index is then, vectors aside, the one these contents stand for. Exactly the first points, those read while more than threshold of the announced points are still to load, are mapped, with the vector of the last record of the data file having their id; every other point has the vector of its own record. load_hnsw_with_dist accepts such files exactly when no point is beyond the threshold.", "quantifier": "all pairs of files (every sequence of bytes), all element types, distances, thresholds, directories that are absolute or the working one", "why_tests_cant": "There is an infinity of files, most of them not written by file_dump; tests reload what they dumped.", "anchors": ["src/hnswio.rs:HnswIo::load_hnsw", "src/hnswio.rs:load_point", "src/datamap.rs:DataMap::from_hnswdump", "src/datamap.rs:DataMap::get_data"]}
{"id": "C100", "title": "A dropped index gives its memory back", "statement": "When an index goes out of scope, its drop ends, whatever the order in which the threads of the pool clear the lists, and never touches or frees again a point already freed; at the end every point is freed except those to which the caller still holds an Arc, and these have no neighbours any more.", "quantifier": "all indexes however they were filled, used and reloaded; all sets of references held by the caller; all orders of the parallel clearing and of the destructors", "why_tests_cant": "A leak or a double free needs a particular graph and order of destructors; tests drop small indexes and do not look at the memory left.", "anchors": ["src/hnsw.rs:PointIndexation::drop", "src/hnsw.rs:Point", "src/hnsw.rs:PointIndexation::get_max_level_observed"]}
{"id": "C101", "title": "What the library gives to a C program stays", "statement": "A C program may keep the pointers it has got: whatever it calls afterwards, in whatever order, the neighbours that a search returned, HnswIo objects and descriptions stay at their pointers and never change, even when the index is dropped; an index stays at its pointer until dropped there, with its distance, and changes only by insertions through this pointer. The library has no function that frees an answer: a search adds two objects to memory for good, a search in parallel one per request and two more.", "quantifier": "all programs that use the C interface: all sequences of calls with all arguments, all memories and files", "why_tests_cant": "A dangling pointer or a reused buffer shows only for some sequence of calls between the search and the reading of its answer; there are no tests of the C interface.", "anchors": ["src/libext.rs:generate_search_neighbours", "src/libext.rs:generate_parallel_search_neighbours", "src/libext.rs:drop_hnsw_f32", "src/libext.rs:Neighbourhood_api", "src/libext.rs:Vec_api"]}
{"id": "C102", "title": "The vectors of a mapped index do not change", "statement": "An index that was reloaded with its vectors mapped from the data file sees the same vectors, and so answers searches in the same way, for as long as it lives, whatever is dumped meanwhile: no dump changes a file that a live index is mapped on.", "quantifier": "all dumps, all indexes reloaded from them with a memory map, all later insertions into them, all sequences of dumps of any indexes under any names while they live", "why_tests_cant": "It needs two indexes and the right names: only the dump of an index that was not itself reloaded writes on the file, and the damage shows in the other index, and only for the records that moved.", "anchors": ["src/datamap.rs:from_hnswdump", "src/datamap.rs:get_data", "src/hnsw.rs:get_v", "src/hnswio.rs:DumpInit::new", "src/api.rs:file_dump", "src/hnswio.rs:load_hnsw_with_dist"]}
{"id": "C103", "title": "Damage to a dump is noticed", "statement": "A reload of a dump whose files were damaged on disk does not silently give another index: it fails, unless the damage makes no difference.", "quantifier": "all dumps, all data files of the same length and all graph files that can take the place of the dumped ones", "why_tests_cant": "There are as many damages as files; tests damage a byte or two, and cannot show which damages of all pass unnoticed.", "anchors": ["src/hnswio.rs:load_point", "src/hnswio.rs:load_hnsw", "src/hnswio.rs:load_point_indexation", "src/hnswio.rs:dump_point"]}
{"id": "C104", "title": "A filter does not lose what filtering the answers would keep", "statement": "When no two stored vectors are at the same distance from the query: if some answer of an ordinary search satisfies the filter, then a filtered search with the same parameters (or larger ones) gives only answers that satisfy it, at least as many as one keeps by filtering the answers of the ordinary search, and the i-th is at least as near.", "quantifier": "all indexes however used, all queries without ties, all filters, all numbers of answers and ef", "why_tests_cant": "The two searches visit different points and stop at different moments; tests compare a few queries and cannot show that the filtered one never stops too early.", "anchors": ["src/hnsw.rs:search_filter", "src/hnsw.rs:search_layer", "src/hnsw.rs:search"]}
{"id": "C105", "title": "Dumps at the same time", "statement": "When several threads or processes dump indexes at the same time, in any interleaving of their file operations: an index whose dump returned Ok can be reloaded from the name it returned, and dumps that must not overwrite never touch the files of an existing dump.", "quantifier": "all numbers of simultaneous calls of file_dump, all indexes, directories and names, all interleavings of the opens and of the writes in pieces of any size", "why_tests_cant": "The interleavings of file operations between processes cannot be enumerated or forced by a test.", "anchors": ["src/api.rs:file_dump", "src/hnswio.rs:DumpInit::new", "src/hnswio.rs:DumpInit::flush"]}
{"id": "C106", "title": "Reloading while a dump is written", "statement": "A reload of a base name whose files are being written by a dump at the same time fails or gives what the complete dump gives: it never succeeds with an index that is only part of the dump, or a mixture.", "quantifier": "all indexes, all files already there, all numbers of simultaneous dumps, all interleavings of the opens, writes and reads of the dumps and of the loader, in pieces of any size", "why_tests_cant": "The moments at which a reader meets a writer cannot be enumerated or forced by a test.", "anchors": ["src/api.rs:file_dump", "src/hnswio.rs:DumpInit::new", "src/hnswio.rs:HnswIo::init", "src/hnswio.rs:load_hnsw", "src/hnswio.rs:load_hnsw_with_dist"]}
{"id": "C107", "title": "Dumps and power failures", "statement": "After a power failure at any moment during or after a dump, a dump that had returned Ok can be reloaded, and a reload of an interrupted one fails: it never succeeds with an index that is only part of a dump, or a mixture.", "quantifier": "all indexes, all moments of the failure during any number of simultaneous dumps, all parts of the files that had reached the disk", "why_tests_cant": "A test cannot cut the power, nor choose what the system had written to the disk.", "anchors": ["src/api.rs:file_dump", "src/hnswio.rs:DumpInit::new", "src/hnswio.rs:DumpInit::flush", "src/hnswio.rs:load_hnsw", "src/hnswio.rs:load_hnsw_with_dist"]}
{"id": "C108", "title": "Links of the points during parallel insertions", "statement": "Whatever the interleaving, while points are inserted in parallel (with searches, iterations and dumps), once the insertion of a point has returned (or if the point was there before) its neighbour lists change only by receiving points whose insertion has not returned and by losing their furthest entries when they are full; they never get shorter, their nearest entry never gets further, and a lost link between two such points does not come back.", "quantifier": "all indexes (built or reloaded), all sets of tasks, all interleavings, all pairs of moments, all points whose insertion is over at the first, all layers", "why_tests_cant": "A test sees a few schedules; a link lost in a race between two insertions into the same list would only lower the recall.", "anchors": ["src/hnsw.rs:Hnsw::reverse_update_neighborhood_simple", "src/hnsw.rs:Hnsw::parallel_insert", "src/hnsw.rs:Point::get_neighborhood_id"]}
{"id": "C109", "title": "Quality of a search beside insertions", "statement": "A search without filter that runs while points are inserted in parallel is at least as good as its starting point: its first answer is not further from the query than the point that was the entry point of the index at some moment of the run, whatever the interleaving.", "quantifier": "all indexes (built or reloaded), all sets of tasks, all interleavings, all queries, knbn and ef", "why_tests_cant": "The lists the search walks change under it between any two reads; a test sees a few schedules.", "anchors": ["src/hnsw.rs:Hnsw::search", "src/hnsw.rs:Hnsw::search_layer", "src/hnsw.rs:Hnsw::parallel_insert"]}
{"id": "C110", "title": "What the index reports while threads insert", "statement": "Between any two moments of any interleaving of insertions, searches, iterations and dumps: get_nb_point, get_layer_nb_point and get_max_level_observed do not decrease and points keep their PointId, vector and id. get_nb_point is at least the number of points at the start plus the insertions that have returned, and at most that plus the insertions asked for. In an index that was not empty, get_max_level_observed is the level of a stored point, and the levels of the points at the start and of those whose insertion has returned are not above it.", "quantifier": "all indexes (built or reloaded), all sets of tasks, all interleavings, all pairs of moments", "why_tests_cant": "The count, the table and the entry point are under three different locks; a monitor thread sees states between the updates that a test cannot enumerate.", "anchors": ["src/hnsw.rs:Hnsw::get_nb_point", "src/hnsw.rs:Hnsw::get_max_level_observed", "src/hnsw.rs:PointIndexation::get_layer_nb_point", "src/hnsw.rs:PointIndexation::generate_new_point", "src/hnsw.rs:PointIndexation::check_entry_point"]}
{"id": "C111", "title": "Links are mutual unless the other list is full of nearer points", "statement": "With a symmetric distance, in an index made by successive insertions (and setters), whenever a point p lists a point q as a neighbour in a layer not above p's own, q lists p in some layer, or some list of q holds as many neighbours as it may (2M on layer 0, M above) and none of them is further from q than p is. A dump and its reload keep this, and so does any further insertion into an index for which it holds.", "quantifier": "all symmetric distances, all vectors, all levels drawn, all sequences of insertions and setters, all parameters", "why_tests_cant": "A one way link appears only after a list has overflowed, in an order of insertions and levels that a test has to meet by chance.", "anchors": ["src/hnsw.rs:Hnsw::insert_slice", "src/hnsw.rs:Hnsw::reverse_update_neighborhood_simple", "src/hnsw.rs:Hnsw::select_neighbours"]}
{"id": "C112", "title": "A flat index misses nothing", "statement": "In an index made by successive insertions whose points are all on layer 0 (in particular one created with a single layer), every point can be reached from every other by following neighbours, so that a search with max(ef, knbn) at least the number of points returns the knbn nearest of all points.", "quantifier": "all distances, all vectors, all sequences of insertions and setters, all queries, all parameters", "why_tests_cant": "Whether a point is cut off depends on which lists overflow and in which order; tests with random vectors rarely meet such a point and only measure an average recall.", "anchors": ["src/hnsw.rs:Hnsw::insert_slice", "src/hnsw.rs:Hnsw::reverse_update_neighborhood_simple", "src/hnsw.rs:Hnsw::search"]}
{"id": "C113", "title": "No point is left without links", "statement": "In an index made by successive insertions with M >= 1, at most one point has no neighbour on its own layer (the first point may have none there). Further insertions and setters keep this, for any index for which it holds.", "quantifier": "all distances, all vectors, all levels drawn, all sequences of insertions and setters, all parameters with M >= 1", "why_tests_cant": "A point without links ends any search that meets it; whether one appears depends on the levels drawn, the order of insertions and the lists that overflow.", "anchors": ["src/hnsw.rs:Hnsw::insert_slice", "src/hnsw.rs:Hnsw::select_neighbours", "src/hnsw.rs:Hnsw::reverse_update_neighborhood_simple"]}
