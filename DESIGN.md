# Formal model of hnswlib-rs in Rocq (Coq 8.16.1)

## 1. Layout (rocq/theories)

| files | content |
|---|---|
| `Prelude.v` | outcome monad (`Ok` / `Err` / `Panic` / `Exit` / `Fuel` / `UB`), PointId, Neighbour, the record `StdOps` of standard-library containers and its laws `StdLaws` |
| `Model.v` | **model** of hnsw.rs (sequential): level generator, point indexation, `search_layer`, `select_neighbours`, `insert_slice`, reverse update, `search_filter`, iterators, `parallel_search`, drop |
| `Io.v` | **model** of hnswio.rs, datamap.rs, filter.rs, flatten.rs, `file_dump` of api.rs: byte formats, file system, names, options |
| `Conc.v`, `ConcDump.v` | **model** of insertions, searches, iterations and dumps running concurrently, step by step, with the RwLocks; the files such a dump writes |
| `Nan.v` | **model** of insertion and search with a distance that may be NaN, keeping the state left by a panic |
| `Inspect.v` | **model** of what is printed about an index, and of check_graph_equality |
| `Disk.v` | **model** of a dump call by call, over std::io::BufWriter and a disk that may fail or a process that is killed |
| `Dumps.v` | **model** of several calls of file_dump at once: one step per existence test, open, write and return |
| `DumpLoad.v` | **model** of a reload, read by read, during such calls |
| `Power.v` | **model** of a power failure during or after such calls |
| `Ffi.v` | **model** of libext.rs, the C interface, over a memory of typed objects |
| `Calls.v` | **model** of the same functions of hnsw.rs as `Model.v`, for those that call the distance, as programs that ask for each distance |
| `Reuse.v` | **model** of what hnswio.rs load_hnsw leaves in the HnswIo |
| `Ask.v` | **model** of search_filter with a filter that may keep a state, change its mind or panic |
| `Reserve.v` | **model** of Hnsw::new, insert_slice and search_filter with the memory they reserve in advance |
| `Drop.v` | **model** of Drop for PointIndexation with the reference counts of the points |
| `ConcCalls.v` | **model** of the threads of `Conc.v` that call the distance, with a distance that may panic |
| `Level.v` | **model** of the random numbers drawn by LayerGenerator (hnsw.rs, rand) |
| `StdInst.v` | two instances of `StdOps` with different orders of ties, proved to satisfy `StdLaws` |
| `Spec.v`, `SpecIo.v`, `SpecBuilt.v`, `SpecConc.v`, `SpecFfi.v`, `SpecInsert.v`, `SpecFile.v`, `SpecStart.v`, `SpecCut.v`, `SpecGen.v`, `SpecLevel.v`, `SpecLife.v`, `SpecAsk.v`, `SpecUse.v`, `SpecMapLoad.v`, `SpecDrop.v`, `SpecCMem.v`, `SpecView.v`, `SpecDamage.v` | **specification**: the vocabulary of the statements (reachable indexes, what the accessors of the API return, links, well-formed dumps, interleavings, C memory, diversified choice) |
| `PropsSearch.v`, `PropsIndex.v`, `PropsMisc.v`, `PropsIo.v`, `PropsIo2.v`, `PropsConc.v`, `PropsFfi.v`, `PropsInsert.v`, `PropsInsertUsed.v`, `PropsUsed.v`, `PropsReach.v`, `PropsLoad.v`, `PropsFormat.v`, `PropsDump.v`, `PropsRead.v`, `PropsDisk.v`, `PropsMono.v`, `PropsMonoFilter.v`, `PropsPostFilter.v`, `PropsDumps.v`, `PropsDumpLoad.v`, `PropsPower.v`, `PropsConcLinks.v`, `PropsConcBest.v`, `PropsConcCounts.v`, `PropsMutual.v`, `PropsFlatFull.v`, `PropsBare.v`, `PropsSafe.v`, `PropsNeg.v`, `PropsNan.v`, `PropsFail.v`, `PropsFile.v`, `PropsMap.v`, `PropsShort.v`, `PropsInspect.v`, `PropsOrder.v`, `PropsCut.v`, `PropsGen.v`, `PropsCalls.v`, `PropsReuse.v`, `PropsConcCalls.v`, `PropsLevel.v`, `PropsParam.v`, `PropsLife.v`, `PropsAsk.v`, `PropsUse.v`, `PropsReserve.v`, `PropsMapLoad.v`, `PropsDrop.v`, `PropsCMem.v`, `PropsView.v`, `PropsDamage.v` | **theorems**: one or more per property (`Cnn_...`), each followed by `Print Assumptions` and by an `Example` that meets its hypotheses |
| `Examples.v`, `ExamplesIo.v`, `ExamplesConc.v` | concrete indexes, dumps and interleavings used by the examples and the refutations |
| `Lib`, `Table`, `SearchProofs`, `SelectProofs`, `InsertProofs`, `InsertUsedProofs`, `QueryProofs`, `ExhaustProofs`, `IterProofs`, `FlatProofs`, `SpecProofs`, `LocalProofs`, `MonoProofs`, `MonoFilterProofs`, `PostFilterProofs`, `ConcLinks`, `DumpsProofs`, `DumpLoadProofs`, `NegProofs`, `NanProofs`, `NanProofs2`, `NanProofs3`, `CallsProofs`, `ConcCallsProofs`, `ParamProofs`, `LifeProofs`, `AskProofs`, `UseProofs`, `ReserveProofs`, `MapLoad`, `MapLoadProofs`, `DropProofs`, `DivProofs`, `LinkProofs`, `InsertSpecProofs`, `ReachProofs` | lemmas about `Model.v` |
| `IoBase`, `IoProofs`, `IoProofs2` … `IoProofs6`, `BuiltProofs`, `ReloadProofs`, `SafeProofs`, `FileProofs`, `FileProofs2`, `MapProofs`, `StartProofs`, `InspectProofs`, `OrderProofs`, `LevelProofs`, `CutProofs`, `FloatProofs` | lemmas about `Io.v` |
| `FloatMul`, `LawProofs`, `LevelExamples` | lemmas about `Level.v` |
| `DiskProofs` | lemmas about `Disk.v`, and that it writes what `Io.v` writes |
| `ConcSeq`, `ConcSafe`, `ConcSafe2`, `ConcSafe3`, `ConcSafe4`, `ConcGlobal`, `ConcEnd`, `ConcLive`, `ConcDumpProofs`, `ConcTrace`, `ConcBest`, `ConcCounts` | lemmas about `Conc.v` |

A property whose English statement is false of the code has a theorem `Cnn_..._refuted` (a witness, or a
statement for all inputs of a class) and a theorem `Cnn_..._partial` with the strongest version we could prove.

## 2. Modelling decisions

* **Distances.** `dist : list T -> list T -> Z` is an arbitrary function parameter (crate anndists is not
  modelled), non negative where the code asserts it. An f32 distance that is not NaN is represented by its
  *order key*, an integer; comparison of keys is comparison of floats and negation of keys is float negation.
  NaN is outside of these files; `Nan.v` models sequential insertion and search with a distance that may be NaN or panic, with the
  containers' behaviour left open as in std as soon as a NaN is compared.
* **Panics.** `unwrap`, `assert!`, slice indexing, explicit `panic!` return `Panic`; `?` returns `Err`;
  `std::process::exit` returns `Exit`; undefined behaviour of unsafe code (out of bounds slices, misaligned
  references, use of freed memory) returns `UB`. A theorem "never panics" is `... = Ok _`.
* **Loops** over a heap use explicit fuel with a distinct `Fuel` outcome; termination is a theorem
  (the outcome is `Ok`, hence not `Fuel`).
* **Std containers.** `BinaryHeap`, `sort_unstable`, `into_sorted_vec` and `HashMap` iteration order are a
  record `StdOps` of operations constrained only by their documented laws (`StdLaws`). Every theorem is
  for all `StdOps` satisfying the laws, so for every tie-breaking. `StdInst.v` gives two instances.
* **Arc<Point>** is identified with its PointId; data and origin id are immutable; neighbour lists live in the
  global table. `usize`/`i32` counters are unbounded naturals in hnsw.rs, and are bounded where they are
  serialised (hypotheses `< 2^64`, `< 2^31`, stated in the theorems).
* **Random level**: the f64 `-ln(xsi)*scale` and the second uniform draw are arbitrary inputs of each insertion.
  The level scale is an IEEE 754 binary64 (`SpecFloat` of the standard library).
* **Reachable indexes.** `built` (SpecBuilt): an empty index made by `Hnsw::new`, then any number of
  insertions with any draws, of calls of the setters, of dumps and reloads, and of runs of concurrent tasks (any
  interleaving in which all return), on an index that is not empty or with an outcome in which all the new points are
  iterated over. `used` drops this last condition: it is every history (C43, C44, C46, C59, C61, C67,
  C70-C72 hold for it), including the reload of a dump that ran beside other threads.
* **Files.** A file system is a finite map from paths to lists of bytes; a crash leaves a prefix of what was
  to be written. In `Io.v` reading or writing an opened file fails only at the end of the file; `Disk.v` models a dump whose calls
  of open and write can fail or be the last ones of the process (C73). 64 bit little endian machine.
* **Concurrency.** Each thread is a program whose steps are the accesses to shared data and the
  acquisitions and releases of the RwLocks (`points_by_layer`, `nb_point`, `entry_point`, and `neighbours` of each
  point); threads interleave in any order. A lock is parking_lot's: a writer sets the writer bit, which stops
  later readers (recursive ones too), and waits for the present readers. Sequential consistency under locks is
  assumed. Every task is a thread of its own, which covers all the interleavings of any number of rayon
  threads. A panic stops its thread. The sequential execution of the concurrent program is proved equal to the
  sequential model (`ConcSeq.v`), so that the two models cannot drift apart.
* **C interface.** The memory is a map from addresses to typed objects (vectors, arrays of pointers, names,
  indexes, HnswIo, answers); a read of an absent, shorter or differently typed object is `UB`. No interior
  pointers. Panics across the C boundary are `Panic`. In names that are not UTF-8 every non ASCII byte is replaced
  (Rust replaces ill-formed sequences).

## 3. Plan per property

C01-C07, C10-C13: loop invariant of `search_layer` (visited set, heap contents, bounds, closure under links),
  composed over the descent of `search_filter`. C08, C11, C13: false in general, refutation by a concrete
  history plus the strongest true version.
C09: invariant "complete graph" by induction over insertions, then search = brute force.
C14-C21: invariant of the point table by induction over insertions. C21 refuted by a 2-point history.
C22, C23: simulation of the iterator state machine against the concatenation of layers.
C24: permutation argument on the channel order.
C25, C26: list reasoning on flatten.rs / filter.rs.
C27-C32, C34-C37, C41, C42, C54-C58: byte codec with round-trip laws, prefix-determinacy of the parser,
  and refutations by concrete dumps.
C33, C39, C40, C47, C48: file-system / option model.
C38: string model of type names.
C43-C46, C52, C59: interleaving semantics; safety by a rely-guarantee proof of each program against the
  invariant of the point table, liveness by a decreasing measure and the order in which locks are held;
  refutations by explicit schedules.
C49, C50, C60-C62: model of the C functions; C61 by induction over the run of a C program.
C51: f64 as `spec_float`.
C53: model of the recursive drop.
C63: closure of the answer heap of `search_layer` under the links of its members.
C63-C66 for any use of an index: the same lemmas with the weaker invariant of `used`, read off the layer iterators (`InsertUsedProofs.v`).
C64-C66: inversion of `insert_slice` layer by layer (`LinkProofs.v`), with the loop of `select_neighbours`
  characterised as a greedy diversified choice (`DivProofs.v`).
C67: the invariant of the point table without the level of the entry point, by induction over `used`.
C68: inversion of the parser: what holds of every index it returns; a search needs only valid references.
C70: the record of what a concurrent dump read is a snapshot of an index (rely-guarantee), whose sequential dump has the
  same bytes; refutations by explicit schedules. C71: invariant of the visited set of `search_layer`.
  C72: the remaining program of each thread, run alone, has a constant result.
C73: what was given to each BufWriter is its file followed by its buffer; every failure leaves a prefix; then as C31.
C74: the two searches run in step; the one with the larger ef has the same visited points and more candidates, none of which is popped before the other one stops; the points kept are the nearest of the visited ones, so more visited points give nearer answers. With a filter the points kept are the nearest visited ones that it takes, or the refused start point alone.
C75: C74 both ways, for two implementations of the containers.
C76: closure of the readers: each one consumes a prefix of the data and is undefined only on a record that is too short.
C77: without the hypothesis on distances: a negative answer has its candidate waiting, and popping it fails the assertion.
C78: a second model (`Nan.v`) with distances that may be NaN or panic, containers whose behaviour is open on NaN, and the state left by a panic; simulation by the first model on vectors without NaN; a search starting at a NaN distance fails its first assertion.
C79: the index is related to a well-formed table of the first model in which the points left by failed insertions have no links; insertions that return are simulated on both (`NanProofs2`); an insertion that fails has written only to lists of its own point, whatever the vector, since the update of the other points cannot fail (`NanProofs3`).
C80: a grammar of the two files (`SpecFile.v`) independent of the code; each reader of `Io.v` is proved to be exact for a relation between the bytes it consumes and its result (`FileProofs`), both ways, and the relations compose up to the whole loader (`FileProofs2`).
C81: the loop over the records is proved equivalent to the existence of a decomposition of the file into records; the map it builds gives the address of the last record of each id.
C82: invariant of `search_layer`: as long as fewer than `ef` points are kept nothing is dropped and the search does not stop, so every visited point is expanded or still a candidate; at the end the visited points are closed under links. The starting point is specified by `starts_at` (`SpecStart.v`), also used in C07, C08, C11 and C12.
C83, C84: the loops of `Inspect.v` are compared with the accessors (`InspectProofs`); for C84 each nested loop of assertions is proved equivalent to the equality of what the accessors show.
C85, C86: lock-step simulation (`OrderProofs`): two runs of the model, with two distances and two implementations of the containers, stay related at every step (same PointIds in the heaps, lists and tables), outcome by outcome, failures included.
C87: each reader is shown to need a list of pieces (`obeys`, `CutProofs`), composed along the loader; the specification is the list of the pieces of the two files with what each causes when it is short (`SpecCut`).
C88: induction on the number of cycles; the product of two canonical binary64 numbers is shown to be canonical (`FloatProofs`), so each generation can be dumped again.
C89: the functions that compute distances are written again as programs that ask for each distance and do not know it (`Calls.v`); running them with a distance is shown to give back `Model.v`; the invariants of the search and of the insertion bound whom they ask about and, by the set of visited points, how often.
C90: the same programs run with a partial distance; each question carries the index as it is when it is asked, so the index left by a panic is one of them, and the insertion invariant holds there. `used` (SpecBuilt.v) includes such insertions.
C91: `Reuse.v` says what load_hnsw leaves in the HnswIo (the data map it made, or the one there was); any history of loads, types and files before; the loader is shown not to look at the old map, or to fail in both cases. A concrete history refutes the rest.
C92: `ConcCalls.v` writes the threads of `Conc.v` with a partial distance; unwinding releases the locks held (parking_lot guards, no poisoning). Each interleaving is simulated by one of `Conc.v` in which a thread that panicked is only paused; an account of what each thread stored, counted and locked gives the rest. `ConcLive.v` shows that the others can go on although some are paused. `used` includes such executions, so every property of `used` indexes holds after them.
C93: `Level.v` gives the 2^52 numbers that the generator can draw and the draw of `Model.v` made of each; any implementation of `ln` with a relative error of at most 2^-50. The product is the real one up to a rounding (Flocq), so the numbers that give a level of at least n are those up to 2^52 exp(-n/s), give or take a relative error in the exponent; counting them gives the law.
C94: the two searches run in lock-step (`ParamProofs.v`). With a filter that accepts everything the stop conditions differ by `ef <= len`; they agree because, as long as fewer than ef points are kept, every candidate is among them.
C95: `SpecLife.v` says which states can follow; by induction on them (`LifeProofs.v`), with the invariant of the interleavings for parallel uses, what the dump read for reloads, and the monotony of the level of the entry point.
C96: `Ask.v` is the filtered search with the calls of the filter threaded through it; the invariant of `SearchProofs.v` holds with, as filter, the set of the ids accepted by some call so far (`AskProofs.v`). `SpecAsk.v` says what a dialogue with a filter is.
C97: `SpecUse.v` restates the vocabulary of C06, C07, C12, C63 and C82 with the layer iterators; `UseProofs.v` relates it to the model, and the lemmas of `StartProofs.v` and `LocalProofs.v` need only the invariant that parallel insertions keep.
C98: `Reserve.v` is Hnsw::new, insert_slice and search_filter with the calls of with_capacity whose argument comes from the caller, and an allocator that is any predicate on sizes; `ReserveProofs.v` compares it with `Model.v`.
C99: as C80, for readers that take some vectors from the map (`MapLoad.v`): the text of the points, their links and the provenance of the vectors, by position in the file, are separated; `MapLoadProofs.v` adds when a map can be made (C81).
C100: reference counts (`Drop.v`): a machine whose steps destroy an Arc or run an instruction of the drop, in any order the threads allow; the count of a point is the number of references to it that remain (`DropProofs.v`); the points freed at the end are a least fixed point; a dump taken beside two insertions gives an index that leaks.
C101: one-step form of the runs of a C program (`SpecCMem.v`, equivalent to `c_run`); what a step does to one cell of the memory, then induction over the steps.
C102: the vectors of a mapped index as what the file contains at the time they are read (`View.v`), unchanged along sequences of the allowed dumps (`SpecView.v`); two refutations.
C103: the grammar of `SpecFile.v` is unambiguous (`DamageProofs.v`), so that with C80 the accepted data files are those with other vectors (`DamageProofs2.v`, `SpecDamage.v`); refutation by one byte. For a reload with the map, C99 in place of C80 (`PropsMapDamage.v`).
C104: as C74, an ordinary search in step with a filtered one, which keeps the nearest visited points that the filter takes and so stops later (`PostFilterProofs.v`).
C105: `Dumps.v` has one step per open, write or existence test of any number of calls of file_dump. Invariant: a byte of a file is right or some call that opened the file has still to write it (`DumpsProofs.v`).
C106: `DumpLoad.v` adds a loader that opens the files and reads them piece by piece. Invariant: with one writer the file, and what was read, are beginnings of the dump (`DumpLoadProofs.v`); a loader accepts no proper beginning (C31).
C107: `Power.v` says what may be left of the files that were opened, for a system that writes in order and for one that writes blocks in any order; with the invariant of C106 and C31.
C108: predicates on programs: each access of the insertion of a point np changes the lists of the other points at most by one `rev_list` of np; each thread owns at most one np, distinct from the others; then induction over the steps (`ConcLinks.v`).
C109: a predicate on programs that may assume of each index they read that it is one of the moments of the run; vectors do not change along the run (C108's framework), so the nearest point found never gets further (`ConcBest.v`).
C110: each access of each task only makes the index grow (`ConcCounts.v`), by induction on the programs; the counts from the phases of the threads (`ConcGlobal.v`).
C111: invariant kept by each insertion (`PropsMutual.v`), from what an insertion does to each list (`LinkProofs.v`): a list that receives a point keeps the nearest.
C112: refuted by an index of nine points (with C71: a point in no list is never an answer). Partial: while lists have room each insertion keeps the old links and adds one in each direction, so the graph stays connected (`PropsFlatFull.v`); the exhaustive search lemma of C07 gives the answers.
C113: invariant (`PropsBare.v`): a new point chooses at least one neighbour on its own layer, and lists never get shorter.
C69: simulation between the reader on old files and the reader on the corresponding new files.

No property is considered inexpressible.

## 4. Trusted base

* Coq's kernel (and its `vm_compute` machine for the concrete witnesses).
* The faithfulness of `Model.v`, `Nan.v`, `Io.v`, `Disk.v`, `Dumps.v`, `DumpLoad.v`, `Power.v`, `Conc.v`, `ConcDump.v`, `Calls.v`, `Ask.v`, `Reserve.v`, `Drop.v`, `View.v`, `ConcCalls.v`, `Reuse.v`, `Level.v`, `Inspect.v` and `Ffi.v` to the Rust source, as cited line by line, with the
  simplifications of section 2 and those in the comments of the definitions.
* The laws in `StdLaws` (hypothesis of the theorems, inhabited by `StdInst.v`), and those in `NanLaws` (C78, C79; inhabited by `simple_nan_laws` in `PropsNan.v`).

Modelled: hnsw.rs, hnswio.rs, datamap.rs, filter.rs, flatten.rs, api.rs, libext.rs.

Not modelled: logging, the constant parts of printed lines, `search_general` (unused, private),
memory reserved in advance (`with_capacity`) and allocation failure, except in `Reserve.v` (C98), the anndists crate, the random generator (C93 assumes that its values are equally likely), the
bodies of the C distance callbacks (`DistCFFI` is a distance parameter), `HnswApif64` (no function uses it),
`init_rust_log`, rounding of a mapping to pages, errors of the operating system other than a missing file and, for dumps, the failures of open and write of `Disk.v`,
loss of written bytes at a power failure other than in `Power.v`,
weak memory effects outside of locks.

## 5. Axioms

Every theorem of `Props*.v` is followed by `Print Assumptions`. Every one but C93 answers "Closed under the global
context": no axiom at all, neither ours nor of the standard library. `C93_level_law` speaks of exp and ln; it rests on the axioms of
the standard library under its real numbers: `ClassicalDedekindReals.sig_not_dec`, `ClassicalDedekindReals.sig_forall_dec`,
`FunctionalExtensionality.functional_extensionality_dep` and `Classical_Prop.classic`. (A listing of all the constants
of the loaded libraries shows the module-type parameters `Coq.ssr.ssrunder.Under_rel.*`, and `Coq.Reals.Rdefinitions.RbaseSymbolsImpl.*`,
which are definitions of the standard library sealed by a module type.)
