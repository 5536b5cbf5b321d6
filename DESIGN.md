# Design of the formal model of pudding-shed

Language: Rocq (Coq 8.16.1), libraries: standard library, std++ (lists, gmap), Flocq (floating point, C19, C51, C58, C79, C80 only).
Sources modelled: `/repo` (Go), read as text.

## 1. Conventions

* Byte = `Z` in `[0,256)`. Go `int64`/`uint64` data = `Z`, with an explicit `mod 2^64` (or
  two's complement normalisation) wherever the code can wrap. List positions = `nat`.
* File = list of bytes (`list Z`). `os.File.WriteAt(data, off)` past the end zero-fills the gap.
* Error returns and panics are values (`option`, `res` with `Err`/`Panic`), never silently totalised.
* Maps = `gmap` or functions/association lists.
* Goroutines = small step relation over explicit program counters; every schedule is quantified.
* Things computed by floating point (entropy choice of a branching byte, interpolated probe) and
  cryptographic hashes are *quantified functions* (ordinary theorem arguments), constrained only by
  what the code guarantees (for example "probe inside the current range").

Layout in `rocq/theories`:

| file | content |
|---|---|
| `Base.v` | byte/little-endian/list helpers |
| `Model_X.v` | functions of the code, each definition cites file:lines |
| `Spec_X.v`  | small independent specification |
| `Proof_X.v` | lemmas |
| `Prop_X.v`  | the property theorems, their non-vacuity examples, `Print Assumptions` |

A property that is *false of the code* is kept with its full statement; the Prop file then contains
`..._refuted` (a machine-checked counterexample on the faithful model) and, where one exists, the
strongest true restriction. Its manifest status is `partial` with note `REFUTED`.

## 2. Plan per property

| id | what is modelled | how it is proved |
|---|---|---|
| C01 | `memfile/appendoptimized.go` + bufio buffer + os file | simulation invariant (disk ++ buffer = abstract content) over op lists |
| C02 | same, with disk states reachable at crash points | invariant relating disk to synced content |
| C03 | `wordfile.go` over byte file incl. the reused scratch buffer | invariant: scratch upper bytes zero; refinement to map index->value |
| C04 | same | refuted by witness (stale scratch bytes); true restriction: after next in-range write |
| C05 | `memshadowedwordfile.go` | two-copy agreement invariant |
| C06 | `hashfile.go` | refinement to list of hashes |
| C07 | `varint.go` | round trip by cases; sequence by induction |
| C08 | `intarrayarray.go` | induction over arrays |
| C09 | `numberedfolders.go` | digit arithmetic, injectivity of the path |
| C10 | `intarraymapstore.go` | refinement to a multimap with abstract disk; refuted for missing-folder case |
| C11 | `cachedintarraymapstore.go` | refinement, eviction order quantified |
| C12 | `hexstring.go` | round trip |
| C13 | `basichashstore.go` | refinement to first-index |
| C14 | `hashstore.go` | refinement to first-index, chains as linked chunks |
| C15 | `concretehashstorecreator.go`, `hashstore.go` | refuted by witnesses |
| C16 | `memoryindexed.go` | refinement (last index) |
| C17 | `params.go`, `abbreviatedhash.go`, `sensibleparams.go` | division arithmetic; refuted for bin counts not dividing 2^64 |
| C18 | `binentrybytes.go` | codec round trip |
| C19 | `binbytes.go` search | probe oracle; binary-search invariant; refuted for equal runs |
| C20 | `binbytes.go` sort/dedup | permutation/sortedness |
| C21 | `binfiles.go` | save/load round trip; refuted for all-zero entry |
| C22 | `singlepass.go`, `multipasspreloader.go` | step relation, invariant over schedules |
| C23 | `adaptivepass.go` | induction on the greedy partition |
| C24 | `sequencercontainer.go` | invariant on map/next over arrival lists |
| C25 | pipeline transition system | progress + invariant |
| C26 | `memblocker.go` | transition system of a monitor |
| C27,C28 | `weddingcake/shallowtree.go` | induction on the tree with arbitrary chooser |
| C29-C31 | `weddingcake/chunk.go, chunklevel.go, nodeformat.go` | per-format lookup laws, group invariants, composition |
| C32 | `chunkfiles.go` | refuted (chunk index never advances), restriction to one chunk |
| C33 | `hashidconversions.go`, `types.go` | arithmetic |
| C34-C39 | `weddingcakeback`, `weddingcakefront` | state machine of the tiers; refutations with witnesses |
| C40,C41 | `indexedhashestree` | tree induction; refutations |
| C42,C43 | `intrinsicobjects` binary parser | parser inverts serializer, by induction; sha256 quantified |
| C44,C45 | `chainstorage` append and read side | refinement to an abstract chain |
| C46 | two writer threads | commutation over interleavings |
| C47 | median window | invariant + sortedness |
| C48 | `blockhashes.go` | batch induction; refuted at chain end |
| C49,C50 | holders and hashes chain | invariant over block sequences |
| C51 | `indexedhashes3` composition | composition of C17-C22 |
| C52-C54 | `memfile/appendoptimized.go`, `concretewordfilecreator.go` | as C01; C54 over the log of operating system writes cut anywhere |
| C55 | `hexstring.go` | refuted by witness; round trip on proper text |
| C56 | `memoryindexed.go` opened on existing hashes | refuted by witness |
| C57, C58, C78 | `jsontransaction.go`, `jsonblock.go` against the binary parser | both results computed from one abstract transaction/block; C58 with Flocq error bounds |
| C59-C62 | chain storage cut short, two chains in one process, parents, unknown sources | witnesses on the model of C44; C59 by the reading induction on a prefix (`Prop_Limit.v`) |
| C63, C64 | `adaptivepass.go`, `adaptivepasspreloader.go` | schedules of one pass; witnesses for idle workers and unreadable files |
| C65 | `hashstore.go` AppendHash of indexedhashes3 | refuted by witness |
| C66 | `weddingcakeback/singletree.go` | tree induction (with C27, C28) |
| C67 | `donutforestwrite.go`, `tierbelow.go` files | layout of forests in level files |
| C68, C69 | cake lookups and appends | state machine of C34; refuted by witnesses |
| C70, C71 | `multiplefixednodesize.go` with partly loaded levels | walk of a prefix of the levels |
| C72-C75 | `uniform.go`, `multipasspreloader.go` of indexedhashes | float divider with SpecFloat; refinement to the bins of a hash list |
| C76, C77 | `preloader.go`, `jobs.go` | multiset of entries kept through every operation |
| C79, C80 | `CalculateDifficulty` | SpecFloat against real numbers (Flocq) |
| C81, C82 | `tierzero.go` | refinement to a list of hashes |
| C83, C84 | mapped word files, `OpenReadOnly` in RAM | same answers as Model_Word, witnesses for empty files |
| C85, C86 | both interfaces from block bytes to stored chain | composition of C42, C43, C47, C49, C50, C44 |
| C87 | the three phases together | composition of C85, C51, C88 |
| C88 | the adaptive indexing run | induction over the passes of the plan, each under any schedule |
| C89, C90 | `handles.go`, `address.go`, handle functions of `concretereadablechain.go` | on the reopened chain of C44; lazy address objects by induction over the questions |
| C91 | `tierbelowsource.go`, `donutforestwrite.go`, `bakingdesigner.go` | leaves of an encoded tree by the simulation of C38; refuted for lower tiers by witness |
| C92 | `wordfile.go` whole read over the append buffer | refinement to the words of C52; refuted by witnesses |
| C93 | `memfile/fixedsize.go` | refinement to the file of C01 for accesses inside it; refuted by witnesses |
| C94 | `concurrency/workerpool.go` | invariant over all interleavings, measure for termination |
| C95 | indexing runs stopped anywhere and run again | invariant on the overflow files left over; simulation by the run in an empty folder; refuted for changed settings |
| C96 | `TestTheHashes`, the self-check of an index | soundness for any files; composition with C51; refuted for repeated hashes and read errors |
| C97 | `binbytes.go`: `BinsArray` and its slices | refinement of a heap of arrays to plain lists |
| C98 | `treelayoutdesigner.go`, `bakingdesigner.go`: measuring | induction over trees: the histogram equals the count of nodes; conservation laws between levels |
| C99 | `CreateFromHashStores`, `openPrivate` | exact effect on any folder; refuted for repeating and for noticing a failure |
| C100 | `RunIntrinsic` | equations between runs, the work of the phases being arbitrary functions; refuted for refused runs |
| C101 | `AppendBlock`, `AppendHashesCri` fed by a stored chain | the counts of the files at every step equal the numbers the source hands over; then C44 and C45 for the copy; refuted for gathering hashes and for repeated transactions |
| C102 | `tinychain`, and `AppendBlock` fed by it | walks by induction along the list; handles by position; storing: a program that contains an output always fails, whatever the state; refuted for storing, for inputs that spend the past, for the neighbours of the invalid handle |

## 2a. What the models leave out, by file

* `Model_File`, `Model_Word`: offsets are natural numbers, system calls do not fail except at the end of the
  file. `Model_Mmap` has Go's int64 offsets and the failure of mapping an empty file (a fact about mmap-go).
* `Model_MapStore`: the order in which the cache evicts is any order.
* `Model_Seq`: channels, mutex and condition variable as steps of a relation; sleeping is a step.
* `Model_HashStore`: loops carry fuel and running out of it is a value of its own.
* `Model_Parse`: a slice expression is bounded by the length of the block.
* `Model_Json`, `Model_JsonBlock`: what encoding/json makes of the text is the input. The JSON difficulty is
  left out there and is a number of its own in `Model_Pipeline`.
* `Model_Difficulty`, `Model_Uniform`, `Prop_Amount`, `Prop_Probe`: float64 is IEEE 754 binary64, nearest even.
  Converting a float outside the integer range gives any number (`odd`).
* `Model_Chain`: an error and a panic both end the run; the three hash stores are given from outside
  (`Model_Job` plugs in the ones of `Model_Bins`).
* `Model_Bins`: a bin is a list of entries; `sort.Sort` is any function that sorts; the interpolated probe is any
  function into the range, and the actual one in `Prop_Probe`.
* `Model_Pass`, `Model_Adaptive`: any interleaving of reader, workers and sorters; a panic ends the program. The
  recovery of a panicking adaptive worker is not followed further. A worker's stretch of the buffer is a list of
  entries (that the stretches are apart is C23).
* `Model_Tree`, `Model_Pool`: the entropy is any function; nodes are values.
* `Model_Chunk`: one model of weddingcake and weddingcakeback; the jump table is the list of its identifiers.
* `Model_Levels`: a file name is its digits; level files are never empty since index bytes number at least two.
* `Model_Cake`, `Model_Top`: baking into tiers below the first one, and lookups in them, are parameters
  (`deep`, `deepf`). `Model_Bake` has what the code puts there.
* `Model_Fixed`: offsets do not wrap (the tree is bounded by 65535 nodes).
* `Model_Preload`: the bit array in a file is a set of numbers.
* `Model_Handles`: a handle's chain pointer is a flag (set or nil); blocks and transactions share one definition.
* `Model_Whole`: the read position of the open file is part of the state; `io.ReadFull` as in the standard library.
* `Model_Mem`: how much spare capacity the buffer gets is any number.
* `Model_Workers`: sending on the unbuffered channel and receiving from it are one step; Process returns.
* `Model_Again`: a stopped run leaves what it has written (no loss of power); half-written overflow files may hold anything.
* `Model_Check`: what the calls of Read deliver is given from outside; an error and a panic are the same.
* `Model_Reuse`: all slices start at the front of their array; the appends of different workers go one after the other
  (each bin has one worker: C22), and `make` never fails.
* `Model_Metrics`: the counters wrap at a given value (2^32 or 2^64); one model for the two packages.
* `Model_Copy`: the source is read as a whole before the copy is written (in Go the two alternate; they are in different
  folders); the checks of numbers are made after the writes only; concurrency of inputs and outputs as in C46;
  delegated indexing is left out, as a stored chain does not index for others.
* `Model_Tiny`: heights are unbounded; the hash of a number is given from outside.
* `Model_Create`: files are named by folder and name, without permissions; which creations fail is given from outside;
  what the phases of the job do to the folder is given from outside (C85, C86 and C95 are about that).
* `Model_Pipeline`: fetching blocks, worker pool and sequencer are in `Model_Holder` and `Model_Seq`.

## 3. Not modelled

* HTTP transport and the text level of JSON (encoding/json).
* Progress printing, timing, profiling, the web front ends.
* `chainreadentities` (does not compile), `main.go` (calls `jobs.RunIntrinsic` with 11 arguments instead of 13,
  so it does not compile either).
* `indexedhashes3/optimizing.go`, `poisson.go` and the other files that only choose settings.
* OS-level failure of individual system calls is modelled only where a property mentions it.

An observation outside the proofs: the comment at jobs/intrinsicparallel.go:523 about a run that got stuck is
consistent with the endless wait of C11.

## 4. Trusted base

* Coq 8.16.1 kernel; the `Print Assumptions` output of each theorem (section 5).
* The reading of the Go source in the `Model_*.v` files.
* Go library semantics used: `bufio.Writer` (default capacity, flush on overflow), `os.File`
  `ReadAt/WriteAt/Seek/Truncate`, maps, sort, channel and mutex semantics, `math/big`, mmap-go.
* No axioms of our own, no admitted lemmas, no switched-off checks.

## 5. Print Assumptions

Every `Prop_*.v` prints the assumptions of its theorems. All theorems and examples are closed under the global
context, except these, which speak of real numbers and depend on exactly four axioms of the standard library
(`ClassicalDedekindReals.sig_forall_dec`, `ClassicalDedekindReals.sig_not_dec`, `Classical_Prop.classic`,
`FunctionalExtensionality.functional_extensionality_dep`):

* `C58_json_amounts_are_exact`, `C58_json_and_binary_agree_on_amounts`, `C58_example`
* `C79_same_as_core`, `C80_stored_difficulty_partial`, `C80_stored_difficulty_error_partial`
* `C19_float_lookup_finds_lone_sort_numbers_partial`, `C19_float_absent_hash_not_found`,
  `C19_float_shared_sort_number_refuted`, `C51_float_index_answers_partial`

## 6. Names and statuses

* `..._refuted`: the property fails of the code; the theorem gives the failing case (or says when it fails).
* `..._partial`: the property with a hypothesis the code does not ensure, or for a part of its range; the comment
  above the theorem says what is missing.
* The manifest says `partial` for every property with a `_refuted` theorem.

## 7. Mutation tests

`seeded/LOG.jsonl` lists edits of the models (wrong bounds, dropped updates, swapped arguments and so on), made in a
copy, with the theorems that stopped proving and what was tightened when one did not.
