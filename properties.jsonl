{"id": "C01", "title": "Append-optimised file behaves like a plain random access file", "statement": "A program that writes and reads byte ranges through the append-optimised file wrapper observes exactly what it would observe on a plain random-access byte file: every ReadAt returns the bytes most recently written at those offsets (and end-of-file past the end), whatever mixture of appends, overwrites, gap writes, syncs and reads came before, and after Close the file on disk holds exactly those bytes.", "quantifier": "every initial file content, every finite sequence of WriteAt / ReadAt / Sync / Close calls with any offsets and lengths, any buffer capacity", "why_tests_cant": "the wrapper switches between a buffered and a direct path depending on history; only a few of the infinitely many interleavings of append and overwrite can be sampled", "anchors": ["memfile/appendoptimized.go: NewAppendOptimizedFile, WriteAt, ReadAt, Sync, Close"]}
{"id": "C02", "title": "Synced data survives a crash", "statement": "If the process dies at any moment, the file on disk contains every byte written before the last Sync (or ReadAt) that returned, unless overwritten since; and when all writes since then were appends, the file on disk is exactly the synced content followed by a prefix of what was appended after it, never a reordering or a hole.", "quantifier": "every operation history and every crash point, including crashes inside a buffer flush at any byte", "why_tests_cant": "crash points inside buffered writes cannot be enumerated by running the program", "anchors": ["memfile/appendoptimized.go: WriteAt, Sync, ReadAt"]}
{"id": "C03", "title": "Word file: a read returns the last value written there", "statement": "In a word file of w-byte words (1<=w<=8), after any history of writes of values that fit in w bytes, reading word i returns the last value written to word i, words never written below the highest written index read as zero, reading past the end is an error, and the word count is one more than the highest index ever written.", "quantifier": "every word size 1..8, every finite history of in-range writes and reads", "why_tests_cant": "the relation quantifies over all histories and all values; a test only samples", "anchors": ["wordfile/wordfile.go: NewWordFile, ReadWordAt, WriteWordAt, CountWords"]}
{"id": "C04", "title": "Word file: an oversized write damages only its own word", "statement": "Writing a value that does not fit the word size may corrupt that word, but must not change what a read of any other word returns.", "quantifier": "every word size below 8, every pair of distinct indices, every value", "why_tests_cant": "needs a statement about all later reads after any earlier out-of-range write", "anchors": ["wordfile/wordfile.go: ReadWordAt, WriteWordAt"]}
{"id": "C05", "title": "Memory-shadowed word file agrees with the file beneath it", "statement": "Opening a word file with a memory shadow gives the same answers as the file itself: after any history of in-range writes the shadow returns the last value written at each index, and the file beneath holds the same words, so reopening without the shadow gives the same answers.", "quantifier": "every initial file, every history of in-range writes including writes past the end", "why_tests_cant": "the shadow and the file are two copies updated separately; agreement must hold after every history", "anchors": ["wordfile/memshadowedwordfile.go: NewMemShadowedWordFile, ReadWordAt, WriteWordAt, CountWords"]}
{"id": "C06", "title": "Hash list file: append returns the index at which the hash can be read back", "statement": "Appending the n-th hash to a hash list returns n (counting from 0); reading any index below the count returns the hash appended there, unchanged by later appends; reading at or above the count is an error; the file is the concatenation of the hashes.", "quantifier": "every sequence of appends and reads, any hashes", "why_tests_cant": "history property over unbounded sequences", "anchors": ["wordfile/hashfile.go: AppendHash, ReadHashAt, WriteHashAt, CountHashes"]}
{"id": "C07", "title": "Variable-length integers round-trip and are self-delimiting", "statement": "Decoding the encoding of any non-negative 64-bit signed integer returns that integer and consumes exactly the bytes the encoder produced, whatever bytes follow; a strict prefix of an encoding is rejected; so a concatenation of encodings decodes to exactly the encoded sequence.", "quantifier": "every integer 0..2^63-1, every suffix, every sequence", "why_tests_cant": "2^63 values times all suffixes", "anchors": ["intarrayarray/varint.go"]}
{"id": "C08", "title": "Integer-array file save and load round-trip", "statement": "Saving an array of integer arrays to a file and loading it returns the same arrays, for all element values that fit the configured element size; an element that does not fit is reduced modulo 256^size and nothing else is altered.", "quantifier": "every number of arrays, all lengths, all element sizes 1..8, all values", "why_tests_cant": "unbounded shapes and values; framing errors only show at particular lengths (0xFC/0xFD, 0xFFFF/0x10000)", "anchors": ["intarrayarray/intarrayarray.go: SaveFile, LoadFile, AppendToArray, GetArray"]}
{"id": "C09", "title": "Numbered folders: different keys never share a slot", "statement": "The mapping from a key to (folder, file, index within file) is one-to-one: two keys get the same folder and file name exactly when they agree in all but the low digits kept inside the file, and the base number reported for the file plus the low digits gives back the key.", "quantifier": "every non-negative key and every pair of keys, every digits-per-folder >= 1 and digits-per-file >= 0", "why_tests_cant": "collisions are a relation on pairs of keys over an infinite range", "anchors": ["numberedfolders/numberedfolders.go: NumberToFoldersAndFile"]}
{"id": "C10", "title": "Integer array map store: an array is exactly what was appended to it", "statement": "For every key, the array returned is exactly the sequence of integers appended under that key in order, whatever other keys were appended to in between and however the two-file cache was flushed and reloaded.", "quantifier": "every sequence of appends over any keys and values, any interleaving of flushes and reads, any folder and file digit configuration", "why_tests_cant": "cache eviction order depends on the whole access history", "anchors": ["intarrayarray/intarraymapstore.go: AppendToArray, GetArray, FlushFile, Sync"]}
{"id": "C11", "title": "Cached integer array map store: eviction loses nothing", "statement": "The many-file cached variant returns the same arrays as an unbounded in-memory map for every access history, cache limit and eviction choice; appending terminates.", "quantifier": "every history, every cache limit, every eviction choice", "why_tests_cant": "eviction is driven by counters accumulated over the whole history", "anchors": ["intarrayarray/cachedintarraymapstore.go"]}
{"id": "C12", "title": "Hash text conversion round-trips", "statement": "Converting a 32-byte hash to its 64-character display text and back returns the same hash; converting any 64-character hexadecimal text (either case) to a hash and back returns the text in lower case; text of any other length is rejected.", "quantifier": "all 2^256 hashes, all 64-character texts", "why_tests_cant": "domain size", "anchors": ["indexedhashes/hexstring.go: HashHexToSha256, HashSha256ToHexString"]}
{"id": "C13", "title": "Linear hash store is an index of first occurrences", "statement": "After appending any sequence of hashes, looking up a hash returns the least index at which it was appended, or -1 if it never was; reading index i returns the i-th appended hash; the count is the number appended.", "quantifier": "every sequence of hashes including repeats", "why_tests_cant": "history property", "anchors": ["indexedhashes/basichashstore.go"]}
{"id": "C14", "title": "Chained hash store answers like the linear store", "statement": "The hash store with a partial-hash lookup table and collision chains answers every lookup, read and count exactly as the linear store does, for any pattern of partial-hash collisions, as long as indices stay below the documented capacity of the lookup word.", "quantifier": "every sequence of appends and reopenings, every partial hash width up to 62 bits, every word size up to 7 bytes, every chunk of 2 to 8 collisions and at most 32 bytes, any collision pattern, up to 2^(8*bytes-1)-1 hashes", "why_tests_cant": "collision chains of every length and shape must be covered", "anchors": ["indexedhashes/hashstore.go: AppendHash, IndexOfHash, GetHashAtIndex, CountHashes"]}
{"id": "C15", "title": "Chained hash store: parameters accepted by the creator work up to the declared capacity", "statement": "Every hash whose append reported success is found by a later lookup, for every parameter combination the creator accepts and up to the last index it accepts.", "quantifier": "every accepted parameter triple, every index accepted", "why_tests_cant": "boundary index is 2^(8*bytes-1)-1, unreachable in a test for realistic sizes", "anchors": ["indexedhashes/hashstore.go", "indexedhashes/concretehashstorecreator.go"]}
{"id": "C16", "title": "In-memory hash index", "statement": "On a newly created store, after any sequence of appends in one session, lookup of an appended hash returns an index holding that hash, absent hashes return -1, and reading an index returns the hash appended there.", "quantifier": "every sequence of hashes", "why_tests_cant": "history property", "anchors": ["indexedhashes/memoryindexed.go"]}
{"id": "C17", "title": "Partition of hashes into bins is total and order preserving", "statement": "Every 8-byte hash abbreviation belongs to exactly one bin in range, the bin and the sort number together determine the abbreviation, and a larger abbreviation never lands in a smaller bin, for every bin count the product uses. Parameters with an odd number of bins, none, or sort numbers of more than eight bytes are refused.", "quantifier": "all 2^64 abbreviations, every even bin count (power of two for the shipped settings)", "why_tests_cant": "2^64 values; the failing ones for other bin counts are the last few", "anchors": ["indexedhashes3/params.go", "indexedhashes3/abbreviatedhash.go", "indexedhashes3/sensibleparams.go"]}
{"id": "C18", "title": "Bin entry codec round-trips", "statement": "Packing a truncated hash, a hash index and a sort number into an entry and unpacking gives back the same three values whenever they fit their fields; values that do not fit are refused rather than stored truncated.", "quantifier": "all hashes, indices and sort numbers; all field widths", "why_tests_cant": "domain size", "anchors": ["indexedhashes3/binentrybytes.go"]}
{"id": "C19", "title": "Bin lookup finds every entry present", "statement": "In a bin whose entries are ordered by sort number, looking up a hash present in the bin returns the index stored with its first entry, and looking up a hash not in the bin returns not-found, regardless of how the search interpolates.", "quantifier": "every bin size, every entry content, every choice of probe position inside the current range", "why_tests_cant": "interpolation depends on floating point and on the distribution of all the entries", "anchors": ["indexedhashes3/binbytes.go: lookupByHash, findIndexBasedOnSortNum"]}
{"id": "C20", "title": "Sorting and de-duplicating a bin keeps the first occurrence of every hash", "statement": "After a bin is sorted and de-duplicated it is ordered, contains no hash twice, contains every hash it held before, each with the smallest index it had, and nothing else.", "quantifier": "every bin content", "why_tests_cant": "depends on adjacency after sorting, for all multisets of entries", "anchors": ["indexedhashes3/binbytes.go: sortAndDeduplicate, compareBinEntries"]}
{"id": "C21", "title": "Bins saved to the bin-start and overflow files load back unchanged", "statement": "Loading any bin after saving a set of bins returns exactly the entries saved for it, for every mixture of bins that fit and bins that overflow.", "quantifier": "every set of bins, any entries-per-bin limit", "why_tests_cant": "overflow boundary and padding detection interact with entry contents", "anchors": ["indexedhashes3/binfiles.go"]}
{"id": "C22", "title": "Multi-pass multi-threaded indexing assigns every hash to its bin exactly once, in index order", "statement": "Whatever the number of threads, bins per pass and goroutine schedule, after indexing every bin contains exactly the entries of the hashes that belong to it, each once, in increasing index order before sorting.", "quantifier": "every hash list, every thread count >= 1, every bins-per-pass >= 1, every interleaving of workers", "why_tests_cant": "schedules of concurrent workers cannot be enumerated by testing", "anchors": ["indexedhashes3/singlepass.go", "indexedhashes3/multipasspreloader.go"]}
{"id": "C23", "title": "Adaptive pass planning covers every bin exactly once and terminates", "statement": "The adaptive planner counts the hashes of every bin exactly, schedules every bin in exactly one pass, lets a pass reach the memory allowance only when it consists of a single bin, and terminates; the bins of a pass are shared out so that no worker gets more than another by more than the largest bin, and the parts of the buffers given to different bins do not overlap.", "quantifier": "every bin occupancy vector, every memory allowance", "why_tests_cant": "greedy partition over arbitrary distributions", "anchors": ["indexedhashes3/adaptivepass.go"]}
{"id": "C24", "title": "Sequencer emits every item exactly once in sequence order", "statement": "Items numbered consecutively from the start number, arriving in any order, are emitted in increasing order without loss or duplication; nothing is ever emitted out of sequence even if items are missing; and at close nothing is left over exactly when no number was missing.", "quantifier": "every arrival permutation, every interleaving of arrivals and emissions", "why_tests_cant": "factorially many arrival orders", "anchors": ["concurrency/sequencercontainer.go"]}
{"id": "C25", "title": "Back-pressure never deadlocks the block pipeline", "statement": "In the pipeline hash stream -> gate -> N parser threads -> sequencer, whenever the gate is closed because the sequencer is bloated, the item the sequencer waits for is already past the gate, so every run completes with all blocks emitted in order; and the number of parked items never exceeds threshold plus threads plus one.", "quantifier": "every schedule of the goroutines, every thread count, every threshold, every block count", "why_tests_cant": "deadlock freedom quantifies over all schedules", "anchors": ["concurrency/sequencercontainer.go: WaitForNotBloated", "corereader2/getparseblocksbinary.go", "jobs/intrinsicparallel.go"]}
{"id": "C26", "title": "Memory blocker admits work only when memory is available", "statement": "A waiter on the memory blocker returns only at a moment when the predicate it waits for was true under the lock; a release of memory never leaves a waiter asleep while memory is spare and no further signal is due; mutual exclusion between freeing and testing holds in every schedule.", "quantifier": "every interleaving of any number of waiters and freers", "why_tests_cant": "lost wake-ups appear only under particular schedules", "anchors": ["memblocker/memblocker.go"]}
{"id": "C27", "title": "Shallow tree finds every hash it was built from", "statement": "For every set of distinct hashes, a lookup in the tree built from them returns, for each hash, the index it was presented with; this holds whatever byte the builder chooses to branch on at each node.", "quantifier": "every finite set of distinct hashes, every hash length 1..64, every branching-byte choice that separates the hashes", "why_tests_cant": "trees of all shapes", "anchors": ["weddingcake/shallowtree.go: GenerateShallowTree, LookupHash"]}
{"id": "C28", "title": "Shallow tree never returns an index whose hash disagrees on an examined byte", "statement": "A lookup that returns an index returns one whose hash agrees with the query on every byte position examined along the path and on all reassurance bytes; with enough reassurance bytes the answer is exact: absent hashes are not found.", "quantifier": "every hash set, every query, every reassurance count", "why_tests_cant": "false positives depend on the whole set and query", "anchors": ["weddingcake/shallowtree.go: LookupHash"]}
{"id": "C29", "title": "Serialised node formats answer like the node they encode", "statement": "Each of the compact node encodings (tiny list, bitmap-and-rank, full table) returns for each of the 256 byte values exactly the child the tree node had, or none, whenever the node fits the format capacity.", "quantifier": "every assignment of children to the 256 slots, every capacity, every id width", "why_tests_cant": "2^256 occupancy patterns per node", "anchors": ["weddingcake/chunk.go", "weddingcake/chunklevel.go", "weddingcakeback/donutforestwrite.go", "weddingcakeback/donutforestread.go"]}
{"id": "C30", "title": "Serialised chunk answers like the tree", "statement": "Looking up any hash in a serialised chunk returns the same answer as the tree it was prepared from, so every hash in the chunk is found with its index, for any node-format design the designer produces.", "quantifier": "every hash set, every configuration, every query", "why_tests_cant": "format groups, id allocation and byte offsets depend on the whole set", "anchors": ["weddingcake/chunk.go: PrepareAndSerialize, LookupHash", "weddingcake/nodeformat.go"]}
{"id": "C31", "title": "Node-format grouping never loses or mis-sizes a node class", "statement": "Merging node formats to respect the format limit keeps every slot count covered by exactly one group whose capacity is at least that slot count, keeps the total number of nodes, and ends with at most the configured number of groups; identifiers allocated within a level are 1..n without repeats and lie in the range of the node's group. Tiny formats come last and of two formats of the same kind the more frequent comes first.", "quantifier": "every histogram of slot counts, every group limit >= 5", "why_tests_cant": "greedy merging over arbitrary histograms", "anchors": ["weddingcake/nodeformat.go: RefineNodeFormatGroups, AllocateIdAndSpecForNode"]}
{"id": "C32", "title": "Chunk files: reopening gives access to every chunk appended", "statement": "After appending any number of chunks and reopening, every chunk is readable with the bytes and first index it was appended with.", "quantifier": "every number of chunks, any sizes", "why_tests_cant": "multi-chunk histories", "anchors": ["weddingcake/chunkfiles.go: AppendChunk, ReadAndMmap"]}
{"id": "C33", "title": "Identifier conversions are inverse and never alias the no-match value", "statement": "Converting a global index to a tree-local or chunk-local identifier and back returns the same index; no valid index maps to the reserved no-match identifier; N-byte identifier storage round-trips every identifier that fits and refuses those that do not.", "quantifier": "all indices and offsets in range, all id widths 2..5", "why_tests_cant": "domain size", "anchors": ["weddingcakeback/hashidconversions.go", "weddingcakeback/types.go", "weddingcake/types.go"]}
{"id": "C34", "title": "Cake: forward lookup returns the hash appended at that index", "statement": "After appending any sequence of hashes to a cake, asking for the hash at any index below the count returns the hash appended at that index, whether it is still in the top tier or has been baked into a lower tier.", "quantifier": "every append history, every index, any number of bakes", "why_tests_cant": "the first bake happens after 65535 appends", "anchors": ["weddingcakeback/tiertop.go: TryGetHashAtIndex", "weddingcakeback/tierbelow.go: TryGetHashAtIndex", "weddingcakefront"]}
{"id": "C35", "title": "Cake: reverse lookup of an appended hash returns its first index", "statement": "After appending any sequence of hashes to a cake, asking for the index of an appended hash returns the first index at which it was appended (as the README promises, also for repeated hashes).", "quantifier": "every append history including repeats", "why_tests_cant": "history property", "anchors": ["weddingcakefront/interfaces.go", "weddingcakefront/cake.go: IndexOfHash", "weddingcakeback/tiertop.go: TryIndexOfHash"]}
{"id": "C36", "title": "Cake: appended hashes are copied", "statement": "Changing the caller's hash variable after an append does not change what the cake returns for that index.", "quantifier": "every later mutation by the caller", "why_tests_cant": "aliasing only shows when the caller reuses its variable", "anchors": ["weddingcakeback/tiertop.go: AppendHash", "weddingcakefront/cake.go: AppendHash"]}
{"id": "C37", "title": "Lower-tier jump table: the tree written for a hash prefix is the tree consulted for it", "statement": "For every hash, the jump table entry consulted when looking the hash up is the entry written for the tree that holds hashes with its prefix, at every tier.", "quantifier": "every prefix value at every prefix length", "why_tests_cant": "needs a tier that is only reached after 65535*5*255 hashes", "anchors": ["weddingcakeback/donutforestwrite.go: Write", "weddingcakeback/tierbelow.go: TryIndexOfHash"]}
{"id": "C38", "title": "Lower-tier node storage: a node identifier locates the bytes of that node", "statement": "In the level files of a baked forest, the bytes located by a node identifier are the bytes serialised for the node that was given that identifier, when a forest consists of several trees.", "quantifier": "every forest of trees", "why_tests_cant": "depends on the relative layout of all trees of a forest", "anchors": ["weddingcakeback/donutforestwrite.go: serializeSingleTreeNodeBytes, appendToLevelsFiles", "weddingcakeback/donutforestread.go: ExtractNode"]}
{"id": "C39", "title": "A hash alone in its tree is found in every tier", "statement": "A hash that is the only one in its tree is found by lookup whatever the tier's prefix length and reassurance count.", "quantifier": "every hash, prefix length and reassurance count", "why_tests_cant": "needs a sparse tree in a deep tier", "anchors": ["weddingcakeback/singletree.go: GenerateSingleTree", "weddingcakeback/tierbelow.go: recurseLookupHash"]}
{"id": "C40", "title": "16-bit shallow tree: every presented hash is found", "statement": "For every list of presented hashes that fits a tree, lookup returns the presentation index of the hash, and the lowest index for a hash presented more than once.", "quantifier": "every list of hashes, repeats allowed, every branching choice", "why_tests_cant": "trees of all shapes", "anchors": ["indexedhashestree/shallowtree.go: lookupHash"]}
{"id": "C41", "title": "16-bit shallow tree: serialisation into fixed-size nodes preserves every answer", "statement": "After serialisation to fixed size nodes, looking up any presented hash gives the same answer as the in-memory tree.", "quantifier": "every tree", "why_tests_cant": "node-size selection depends on the whole tree", "anchors": ["indexedhashestree/multiplefixednodesize.go"]}
{"id": "C42", "title": "Binary block parser inverts the Bitcoin wire format", "statement": "Parsing the serialised form of any well-formed block yields exactly its header fields and, for each transaction in order, its version, inputs (txid, vout), outputs (value, script) and segwit flag, with every script and input retrievable from the shared storage at the recorded positions, and consumes exactly the transaction's bytes.", "quantifier": "every block: any number of transactions, inputs, outputs, witness items and any lengths, with or without witness", "why_tests_cant": "compact-size boundaries, witness layouts and storage offsets combine without bound", "anchors": ["intrinsicobjects/binaryblock.go", "intrinsicobjects/binarytransaction.go"]}
{"id": "C43", "title": "Transaction identifier, size and weight follow the protocol definition", "statement": "For every serialised transaction the computed txid is the double hash of the serialisation without witness data, stripped size is its length, size the full length, weight = 3*stripped + size, vsize = weight/4 rounded up; block weight and stripped size are the header plus sums over transactions.", "quantifier": "every well-formed transaction and block", "why_tests_cant": "all witness layouts", "anchors": ["intrinsicobjects/binarytransaction.go", "intrinsicobjects/binaryblock.go"]}
{"id": "C44", "title": "Stored chain reads back what was appended", "statement": "After appending any sequence of blocks, reading the chain by height returns for every block its transactions in order, for every transaction its inputs (source transaction height and output number) and outputs (value and address) in order, and the right counts and parents; navigation next/previous/first/latest visits every block and transaction once in order.", "quantifier": "every sequence of blocks with any numbers of transactions, inputs and outputs", "why_tests_cant": "offset bookkeeping over unbounded histories", "anchors": ["chainstorage/concreteappendablechain.go: AppendBlock, AppendBlockChi", "chainstorage/concretereadablechain.go", "chainstorage/block.go", "chainstorage/transaction.go"]}
{"id": "C45", "title": "Address history is complete and ordered", "statement": "After appending any sequence of blocks, the list of outputs reported for an address is exactly the list of outputs paying that address, in increasing order of output height, no output missing or listed under two addresses.", "quantifier": "every sequence of outputs, any re-use pattern of addresses", "why_tests_cant": "relies on a file-length test for 'first time seen' that must be right for every history", "anchors": ["chainstorage/concreteappendablechain.go: appendTxo, appendTxoChi", "chainstorage/address.go: populate"]}
{"id": "C46", "title": "Concurrent writing of inputs and outputs does not depend on the schedule", "statement": "Appending a transaction runs the input writer and the output writer concurrently; the files produced are the same for every interleaving of their individual reads and writes.", "quantifier": "every interleaving", "why_tests_cant": "interleavings", "anchors": ["chainstorage/concreteappendablechain.go: appendTransactionContents, appendTransactionContentsChi"]}
{"id": "C47", "title": "Median time past", "statement": "The median time reported for each block is the element of rank floor(n/2) in sorted order among the timestamps of the last n = min(11, height+1) blocks including itself, for every timestamp sequence.", "quantifier": "every sequence of block timestamps", "why_tests_cant": "sliding window over unbounded histories", "anchors": ["intrinsicobjectschi/chain.go: PostIntrinsicCalculateMedianTime", "intrinsicobjectscri/chain.go"]}
{"id": "C48", "title": "Block hash stream delivers exactly the requested prefix of the chain", "statement": "Streaming n block hashes sends exactly the hashes of blocks 0..n-1 in order and then closes the channel, however the 1002-header requests fall, when the chain is long enough; when the chain is shorter it sends only hashes of blocks that exist.", "quantifier": "every n, every chain length", "why_tests_cant": "batch boundaries at every multiple of 1000 and chain end positions", "anchors": ["corereader2/blockhashes.go: StreamBlockHashesFromGenesis"]}
{"id": "C49", "title": "Per-block indexing gives consecutive transaction heights", "statement": "While blocks arrive in order, block h is recorded as starting at the total number of transactions of the earlier blocks, each transaction is recorded under its block, and a block whose previous-hash does not match is never accepted.", "quantifier": "every sequence of blocks", "why_tests_cant": "history property", "anchors": ["intrinsicobjectschi/chain.go: NextBlock, PostIntrinsicGatherTransHashes", "intrinsicobjectscri/chain.go"]}
{"id": "C50", "title": "Hash pre-pass lists hashes in storage order", "statement": "The hash-gathering pass writes block, transaction and output-address hashes in exactly the order in which the main pass numbers blocks, transactions and outputs, so first index of an address hash equals the height of the first output paying it.", "quantifier": "every sequence of blocks", "why_tests_cant": "two separate passes must agree for every chain", "anchors": ["chainstorage/concretehasheschain.go: AppendHashesCri, AppendHashesChi", "chainstorage/concreteappendablechain.go"]}
{"id": "C51", "title": "End-to-end hash index after preload", "statement": "After indexing a hash file, looking up any hash in the file returns the index of its first occurrence and reading an index returns the hash at that position; hashes not in the file return not-found.", "quantifier": "every hash file, any thread and pass configuration, shipped parameters", "why_tests_cant": "composition of partition, sort, dedup, overflow and search over all inputs", "anchors": ["indexedhashes3/hashstore.go: IndexOfHash, GetHashAtIndex", "indexedhashes3/hashstorecreator.go"]}
{"id": "C52", "title": "Reading the whole file through the append-optimised wrapper returns its content", "statement": "A whole-file read returns the current content of the file, whatever was read or appended before.", "quantifier": "every history of calls before the read", "why_tests_cant": "depends on the hidden seek position left by earlier calls", "anchors": ["memfile/appendoptimized.go: ReadAll"]}
{"id": "C53", "title": "Zero-length writes change nothing", "statement": "Writing zero bytes at any offset has no effect on later answers of the append-optimised file.", "quantifier": "every offset and every later history", "why_tests_cant": "needs a rare degenerate call at a particular offset followed by an append", "anchors": ["memfile/appendoptimized.go: WriteAt"]}
{"id": "C54", "title": "Killing a process that appends words leaves a word file that can be reopened", "statement": "If a process appending words to a word file is killed, the file can be opened again and contains a prefix of the words appended.", "quantifier": "every word size 1..8, every number of appends, every kill point between system calls", "why_tests_cant": "kill points inside buffered writing cannot be enumerated by tests", "anchors": ["memfile/appendoptimized.go: WriteAt", "wordfile/concretewordfilecreator.go: OpenWordFile, countWords"]}
{"id": "C55", "title": "Text with non-hexadecimal characters is rejected as a hash", "statement": "Parsing a 64 character text as a hash reports failure whenever some character is not a hexadecimal digit; it never silently yields a hash.", "quantifier": "every text of 64 characters with at least one non-hexadecimal character", "why_tests_cant": "the set of malformed texts is far too large to enumerate; one has to know what happens to the rest of the buffer after the decoder stops", "anchors": ["indexedhashes/hexstring.go: HashHexToSha256"]}
{"id": "C56", "title": "In-memory hash index opened on existing hashes", "statement": "Opening the in-memory hash index on a store that already holds hashes and appending more, lookup of any stored hash returns an index holding that hash, and the count is the number of hashes stored.", "quantifier": "every store content and every sequence of appends after opening", "why_tests_cant": "spans two sessions; each session is right taken alone", "anchors": ["indexedhashes/memoryindexed.go: NewMemoryIndexedHashes, AppendHash, IndexOfHash, CountHashes", "indexedhashes/concretehashstorecreatormemory.go: OpenHashStore"]}
{"id": "C57", "title": "JSON and binary transaction parsers agree", "statement": "For every well-formed transaction, parsing what the node reports in JSON (reversed hexadecimal identifiers, hexadecimal scripts, signed version, size, virtual size, weight) yields exactly the same transaction record and the same shared storage as parsing its wire form: the same txid, version, segwit flag, inputs, outputs, scripts, sizes and stripped size (the coinbase input, which has no txid in JSON, excepted).", "quantifier": "every well-formed transaction with or without witness, any storage it is appended to, any position in the block", "why_tests_cant": "segwit flag and stripped size are inferred from rounded sizes; agreement needs all sizes", "anchors": ["intrinsicobjects/jsontransaction.go: parseJsonTransaction", "intrinsicobjects/binarytransaction.go: ParseBinaryTransaction"]}
{"id": "C58", "title": "Amounts read from JSON are exact", "statement": "Reading the floating point number of bitcoins printed for an amount and converting it to satoshis gives back the amount exactly, for every amount up to 21 million bitcoins.", "quantifier": "every amount from 0 to 2100000000000000 satoshis", "why_tests_cant": "2.1e15 values; depends on the accumulated rounding error of two floating point operations", "anchors": ["intrinsicobjects/jsontransaction.go: parseJsonTransaction"]}
{"id": "C59", "title": "Partial chain stays readable", "statement": "After storing only the first n blocks of a chain whose hashes are all indexed (the block limit option), the stored blocks can be read back, including the last of them, and the latest block reported is a stored one.", "quantifier": "every chain, every block limit", "why_tests_cant": "the bound used by the reader comes from another store than the data it reads", "anchors": ["jobs/intrinsicparallel.go: SeveralYearsParallel phase3BlockLimit", "chainstorage/block.go: TransactionCount", "chainstorage/concretereadablechain.go: LatestBlock, NextBlock"]}
{"id": "C60", "title": "Two chains in one process", "statement": "A process that has stored one chain can store another one into another folder.", "quantifier": "every pair of chains", "why_tests_cant": "depends on state left by an earlier run", "anchors": ["chainstorage/concreteappendablechain.go: PrevFirstTxo, PrevTrans"]}
{"id": "C61", "title": "Parents can be asked in the process that stores the chain", "statement": "Asking a chain handle obtained from the appendable chain for the parent block of a transaction or the parent transaction of an input or output gives an answer.", "quantifier": "every chain and handle", "why_tests_cant": "depends on which files are handed over", "anchors": ["chainstorage/concreteappendablechain.go: GetAsConcreteReadableChain", "chainstorage/concretereadablechain.go: ParentBlockOfTrans"]}
{"id": "C62", "title": "Unknown source transactions are reported", "statement": "Appending an input whose source transaction hash is not in the transaction index reports an error instead of storing a source number.", "quantifier": "every block with an unknown source hash", "why_tests_cant": "the not-found value is a number like any other", "anchors": ["chainstorage/concreteappendablechain.go: appendTxi, appendTxiChi"]}
{"id": "C63", "title": "Adaptive indexing completes whatever the number of workers", "statement": "Every pass of adaptive indexing ends, for every schedule, with every bin of the pass holding exactly its hashes in index order, whatever the number of worker threads.", "quantifier": "every hash list, every number of threads, every planned pass, every interleaving", "why_tests_cant": "needs particular ratios of threads to non-empty bins and a race between the end of the pass and a panic", "anchors": ["indexedhashes3/adaptivepass.go: stageTwoStageThreeHandleHashBins (lines 264-270, 394-397)"]}
{"id": "C64", "title": "Adaptive indexing reports an unreadable hash file", "statement": "If the hash file cannot be read or does not consist of whole hashes, adaptive indexing reports an error; otherwise every bin is planned.", "quantifier": "every hash file content, including none", "why_tests_cant": "a silent success on a bad file is only visible in later lookups; tests use good files", "anchors": ["indexedhashes3/adaptivepasspreloader.go: IndexTheHashes (lines 43-47)", "indexedhashes3/adaptivepass.go: stageOneCountBinHashes"]}
{"id": "C65", "title": "Appending to an index works", "statement": "Appending a hash that is not yet in the hash index returns the number of hashes stored so far, and from then on that hash is found at that index, reads back from it, and all other answers are as before; this holds for an index that was just created and for one that was preloaded.", "quantifier": "every preloaded hash list, every sequence of appended hashes, the creator's fresh index", "why_tests_cant": "needs sequences of appends with every relation between the new hash and the bin it falls into, including overflow of the bin start", "anchors": ["indexedhashes3/hashstore.go: AppendHash", "indexedhashes3/hashstorecreator.go: CreateHashStore", "indexedhashes3/bin.go: insertBinEntry"]}
{"id": "C66", "title": "The tree built for a bake answers exactly", "statement": "The tree the cake builds in memory for one bucket of hashes (all of the same length, no two equal, sharing their first N bytes) before baking them is built without a panic, and a lookup of any byte string of that length answers exactly: the presentation index given with that hash if it is one of them, and 'not found' otherwise.", "quantifier": "every prefix length below the hash length, every duplicate-free list of hashes sharing a prefix, every entropy measure and sort the choice of byte may use, every query", "why_tests_cant": "the tree's shape depends on the data; a test covers a handful of shapes", "anchors": ["weddingcakeback/singletree.go: GenerateSingleTree, LookupHash, VisitAllNodes"]}
{"id": "C67", "title": "Cake tier files: reopening gives access to every forest written", "statement": "After writing any number of forests to a tier (no more than it may hold) and reopening it, every forest is readable with the bytes and first index it was written with, however many levels its trees have.", "quantifier": "every list of forests, any sizes, any number of levels up to the hash length", "why_tests_cant": "the eleventh level only appears when hashes share ten leading bytes", "anchors": ["weddingcakeback/donutforestwrite.go: appendToLevelsFiles, appendInfoFile", "weddingcakeback/tierbelow.go: mmapLevelFiles, readInfoFile"]}
{"id": "C68", "title": "Cake: looking up a hash that was never appended answers -1", "statement": "After any sequence of successful appends to a cake, asking for the index of a hash that was never appended answers -1 and does not crash.", "quantifier": "every append history, every hash not in it, any number of reassurance bytes", "why_tests_cant": "false positives need two hashes that agree in the bytes a tree looks at; the crash needs more than 131070 appends in one session", "anchors": ["weddingcakefront/cake.go: IndexOfHash", "weddingcakeback/tiertop.go: TryIndexOfHash", "weddingcakeback/tierbelow.go: TryIndexOfHash"]}
{"id": "C69", "title": "Cake: appending hashes does not crash", "statement": "Appending any hashes of the configured length to a cake, repeated ones included, succeeds and gives consecutive indices.", "quantifier": "every append history", "why_tests_cant": "repeats only matter when the 65535th hash of a batch arrives", "anchors": ["weddingcakeback/tiertop.go: AppendHash", "weddingcakeback/donutforestwrite.go", "weddingcakeback/singletree.go: GenerateSingleTree"]}
{"id": "C70", "title": "16-bit tree: with only its first levels loaded it answers rightly or says so", "statement": "Loading only the bytes of the first levels of a serialised tree never gives a wrong answer: a lookup either gives the answer of the whole tree or reports that not enough levels are loaded, and it reports that only if the tree really has deeper levels.", "quantifier": "every tree, every number of levels loaded, every queried hash", "why_tests_cant": "the cut falls between nodes whose sizes and order depend on the whole tree", "anchors": ["indexedhashestree/multiplefixednodesize.go:nodeIdToByteIndex", "indexedhashestree/multiplefixednodesize.go:lookupHash"]}
{"id": "C71", "title": "16-bit tree: the reported byte set covers everything the answer depends on", "statement": "The set of byte positions returned with an answer is enough to determine it: any other hash that agrees with the queried one in those positions gets the same answer and the same set.", "quantifier": "every serialised container (whatever bytes it holds), every pair of hashes", "why_tests_cant": "relates pairs of queries over all contents", "anchors": ["indexedhashestree/multiplefixednodesize.go:lookupHash"]}
{"id": "C72", "title": "Uniform store: after indexing, every stored hash is found at its first index", "statement": "After indexing a file of hashes, looking up a hash gives the lowest index at which it is stored, or 'not found' when it is not stored.", "quantifier": "every file of hashes, every estimate (divider), every memory allowance, every queried hash", "why_tests_cant": "the fault depends on floating-point rounding of 2^64 divided by the divider, and only hashes in the topmost bin show it", "anchors": ["indexedhashes/uniform.go:IndexOfHash", "indexedhashes/multipasspreloader.go:IndexTheHashes"]}
{"id": "C73", "title": "Uniform store: an appended hash can be looked up", "statement": "After a successful append, looking the hash up gives the index it was stored at; an append that reports an error leaves the count unchanged.", "quantifier": "every history of indexing and appending, every hash", "why_tests_cant": "the store opens and appends without complaint; only lookups after every kind of history settle it", "anchors": ["indexedhashes/uniform.go:AppendHash", "indexedhashes/uniform.go:IndexOfHash"]}
{"id": "C74", "title": "Uniform store: the self test accepts every correct store", "statement": "The self test passes on every store whose lookups are all correct; and a store that passes finds every one of its hashes.", "quantifier": "every file of hashes", "why_tests_cant": "depends on the number of hashes stored", "anchors": ["indexedhashes/uniform.go:Test"]}
{"id": "C75", "title": "Uniform store: making a creator leaves an existing store usable", "statement": "Making a creator for a folder that already holds an indexed store, whatever the estimate given, leaves all answers of the store as they were; creating a store succeeds and its parameters can be read back.", "quantifier": "every pair of estimates, every store, every queried hash", "why_tests_cant": "relates two runs of the program with different arguments", "anchors": ["indexedhashes/uniform.go:NewUniformHashStoreCreatorPrivate", "indexedhashes/uniform.go:CreateHashStore"]}
{"id": "C76", "title": "Preloader: every delegated hash ends up in its bin's file", "statement": "Once everything delegated has been extracted, the file of each bin holds exactly the entries (index and hash) delegated to it, in order, however delegating and extracting are interleaved.", "quantifier": "every interleaving of the two goroutines, every sequence of entries, every choice the map iteration makes", "why_tests_cant": "depends on the schedule: the loss happens when a hash for the same bin arrives between taking a list from memory and writing it", "anchors": ["indexedhashes/preloader.go:delegateEntryToStores", "indexedhashes/preloader.go:extractEntryFromStoresToFile", "indexedhashes/preloader.go:sendToFile"]}
{"id": "C77", "title": "Preloading job: when the job ends, all hashes are in files", "statement": "When the job that builds the bin files ends without error, every hash of the hash file is in the file of its bin.", "quantifier": "every list of hashes, every moment at which memory runs low, every schedule of the two goroutines", "why_tests_cant": "whether anything is written depends on memory pressure and on the goroutines' timing", "anchors": ["indexedhashes/jobs.go:CreateHashIndexFiles", "indexedhashes/preloader.go:extractSomeEntriesStoresToFiles"]}
{"id": "C78", "title": "JSON and binary blocks agree", "statement": "Parsing the JSON that Bitcoin Core reports for a block gives the same block as parsing its bytes: hash, header fields, sizes, transactions, inputs, outputs and scripts. The only difference is the output number of an input that refers to no output (that of a coinbase), which is 0 from JSON. JSON with malformed difficulty bits or hashes of the wrong length is refused.", "quantifier": "every well-formed block whose scripts take less than 2 GiB, every hash function", "why_tests_cant": "the space of blocks is unbounded, and the two parsers share no code", "anchors": ["intrinsicobjects/jsonblock.go:ParseJsonBlock", "intrinsicobjects/binaryblock.go:ParseBinaryBlock"]}
{"id": "C79", "title": "Difficulty: same as Bitcoin Core's", "statement": "The difficulty computed from the bits of a binary block header is, bit for bit, the number Bitcoin Core computes for it.", "quantifier": "every value of the bits whose exponent is 3 to 34 (targets that fit in 256 bits and lose no bits), every mantissa including zero", "why_tests_cant": "32-bit domain crossed with floating-point rounding: the two programs divide and scale in a different order", "anchors": ["intrinsicobjects/binaryblock.go:CalculateDifficulty"]}
{"id": "C80", "title": "Difficulty: the stored integer is the true difficulty rounded", "statement": "The integer stored for a block's difficulty is the integer nearest to the quotient of the genesis target and the block's target.", "quantifier": "every value of the bits with exponent 3 to 34 and non-zero mantissa", "why_tests_cant": "wrong only where the 53-bit rounding crosses a half: a small fraction of the bits values, none of the early ones", "anchors": ["intrinsicobjects/binaryblock.go:CalculateDifficulty", "intrinsicobjectschi/chain.go:GetBlockInfo", "intrinsicobjectscri/block.go:NewBlock"]}
{"id": "C81", "title": "Tier zero answers like the list of its hashes", "statement": "A tier-zero store opened on a file of hashes, appended to and reopened any number of times, gives each appended hash the next index, counts its hashes, returns each hash at its index and finds each hash at the first index it was given; other indices are refused with an error.", "quantifier": "every list of stored hashes, every sequence of appends and reopens, every queried hash and index", "why_tests_cant": "depends on the whole history: repeats and reopens change which index a lookup returns", "anchors": ["weddingcake/tierzero.go:NewTierZero", "weddingcake/tierzero.go:AppendHash", "weddingcake/tierzero.go:IndexOfHash", "weddingcake/tierzero.go:GetHashAtIndex"]}
{"id": "C82", "title": "Tier zero: a failing append leaves the store as it was", "statement": "An append to a tier-zero store that reports an error changes neither its count nor any lookup.", "quantifier": "every content of the hash file, every sequence of appends", "why_tests_cant": "needs a hash file left torn by an interrupted write", "anchors": ["weddingcake/tierzero.go:AppendHash"]}
{"id": "C83", "title": "Memory-mapped word files answer like ordinary ones", "statement": "Opening a word file held in RAM (memory-mapped) succeeds exactly when opening it ordinarily read-only does, and then every sequence of reads and counts gives the same answers; an offset outside the file is reported as an error.", "quantifier": "every word size, every file content, every sequence of int64 offsets", "why_tests_cant": "covers all file contents and all int64 offsets, including empty files, negative offsets and overflowing positions", "anchors": ["wordfile/concretemmapcreator.go:OpenWordFileReadOnly", "memfile/mmapfile.go:ReadAt", "wordfile/concretewordfilecreator.go:NewConcreteWordFileCreator"]}
{"id": "C84", "title": "A stored chain opens in RAM and shows the same", "statement": "A stored chain that opens read-only also opens with the in-RAM option, and then shows the same blocks, transactions, inputs, outputs, addresses and parents.", "quantifier": "every storable chain of blocks, every setting", "why_tests_cant": "whether it opens depends on the content of the whole chain", "anchors": ["chainstorage/concreteappendablechainfactory.go:OpenReadOnly", "chainstorage/concreteappendablechainfactory.go:NewConcreteAppendableChainCreator"]}
{"id": "C85", "title": "Stored chain says what the block bytes say", "statement": "Take any chain of blocks from the genesis block on, each linked to its predecessor, well-formed, with at least one transaction and shorter than 2^30 bytes, whose inputs (but those of each block's first transaction) name transactions of the chain and whose counts and values fit the files. Running the job's first and third phases over the raw bytes succeeds, through either interface: the gathered hash lists are the block hashes, transaction ids and script hashes of the chain in order; and after the third phase, with hash stores that answer for those lists, a walk over the reopened chain shows exactly the blocks' hashes, transaction ids, inputs (as source transaction number and output index), values and script hashes, and the stored time, median time, difficulty, sizes and weights are those of the block and transaction bytes.", "quantifier": "all chains of wire-format blocks within the limits, both interfaces, any hash function with 32-byte results, all hash stores that answer for the lists", "why_tests_cant": "the whole way from bytes to stored files can be tested on a few blocks only; that nothing is lost, shifted or swapped for any chain needs the composition of the parser's, the holder's and the storage's properties", "anchors": ["jobs/intrinsicparallel.go: PhaseOneParallelIntrinsic, PhaseOneParallelIntrinsicChi, PhaseThreeParallelIntrinsic, PhaseThreeParallelIntrinsicChi", "intrinsicobjectschi/chain.go: GetBlockInfo, GetTransactionInfo, GetTxiInfo, GetTxoInfo", "intrinsicobjectscri/block.go: NewBlock", "intrinsicobjectscri/transaction.go: NewTransaction, Address", "chainstorage/concreteappendablechain.go: AppendBlock, AppendBlockChi"]}
{"id": "C86", "title": "JSON or bytes, handles or objects: the same chain is stored", "statement": "For any storable chain of valid blocks, fetching the blocks as JSON and fetching them as bytes lead to the same gathered hashes and, in every state and with any hash stores, to the same outcome of the third phase, provided the difficulty numbers in the JSON round to the same integers. Storing through the handles interface and through the objects interface gathers the same hashes and gives chains that show the same blocks, provided no block contains two transactions with the same id.", "quantifier": "all chains of wire-format blocks within the limits, JSON as Bitcoin Core reports it, both interfaces, all hash stores", "why_tests_cant": "agreement of four combinations of code paths on all chains cannot be sampled; the paths differ in details (coinbase inputs, looking transactions up by id) that only rare blocks exercise", "anchors": ["intrinsicobjects/jsonblock.go: ParseJsonBlock", "intrinsicobjects/binaryblock.go: ParseBinaryBlock", "intrinsicobjectscri/chain.go: TransInterface, TxoInterface", "intrinsicobjectschi/chain.go: GetTransactionInfo", "jobs/intrinsicparallel.go: RunIntrinsic"]}
{"id": "C87", "title": "The whole job stores what the blocks say", "statement": "Running the three phases - gather the hashes from the blocks, index them, store the chain with the finished indexes - on any storable chain succeeds, and what can be read back afterwards is what the blocks say.", "quantifier": "every chain, both interfaces, every number of workers, every goroutine schedule, every memory allowance, bins in memory or not", "why_tests_cant": "spans all three phases and all schedules of the second one; Bitcoin's own repeated transaction identifiers come too late in the chain for any test", "anchors": ["jobs/intrinsicparallel.go: RunIntrinsic, PhaseOneParallelIntrinsicChi, PhaseThreeParallelIntrinsicChi", "indexedhashes3/multipasspreloader.go: IndexTheHashes", "indexedhashes3/binbytes.go: lookupByIndex, Reuse", "indexedhashes3/hashstore.go: GetHashAtIndex"]}
{"id": "C88", "title": "The adaptive indexer builds the same index as the multi-pass indexer", "statement": "After a hash file has been indexed with adaptive passes, for any memory allowance, any number of workers and any scheduling of them, the opened index counts the hashes, finds every hash at the position of its first occurrence, reports -1 for hashes that are not there, gives back each hash at its first position, and refuses positions past the end. This holds for one worker always, and for more workers if every planned pass has at least as many non-empty bins as there are workers; with at least two more workers than hashes, no run finishes.", "quantifier": "all hash files, settings, memory allowances, worker counts, orders in which equal bins are planned, goroutine schedules, and all queries", "why_tests_cant": "A test runs one file with one schedule; the plan, the sharing out of bins, the order in which results arrive and the places they are saved depend on the data and on timing", "anchors": ["indexedhashes3/adaptivepasspreloader.go IndexTheHashes", "indexedhashes3/adaptivepass.go stageOneCountBinWork", "indexedhashes3/adaptivepass.go stageTwoStageThreeHandleHashBins", "indexedhashes3/hashstore.go"]}
{"id": "C89", "title": "Handles lead to what they name", "statement": "On a reopened chain, a handle obtained by number, by hash, as the first, the last, the next or the previous one leads to the block or transaction it names, whose number and hash are the right ones; an output or input named by transaction and position is the same as the one named by its number, and the source of an input leads to the spent output; an address found by hash, through an output, or known by hash only answers every sequence of questions with the same hash and the same list of outputs.", "quantifier": "every storable chain, every setting, every handle, every sequence of questions to an address object", "why_tests_cant": "handles carry optional parts that are filled in lazily, so what a question answers depends on how the handle was obtained and what was asked before", "anchors": ["chainstorage/handles.go: BlockHandle, TransHandle, TxxHandle, AddressHandle", "chainstorage/concretereadablechain.go: NextBlock, ParentBlock, LatestBlock, BlockHandleByHash, TransactionHandleByHash, TxoInterface, TxiInterface, AddressHandleByHash", "chainstorage/address.go: TxoCount, NthTxo, Hash, populate", "chainstorage/transaction.go: NthTxo, NthTxi"]}
{"id": "C90", "title": "Asking for an item past the end is reported", "statement": "Asking a block for a transaction, or a transaction for an input or output, at a position past its last one reports an error; so does asking for anything past the end of the chain.", "quantifier": "every storable chain, every block, transaction and position", "why_tests_cant": "the answer looks like any other transaction or output; only comparing it against the whole chain shows that it belongs to somebody else", "anchors": ["chainstorage/block.go: NthTransaction", "chainstorage/transaction.go: NthTxo, NthTxi", "chainstorage/concretereadablechain.go: TxoInterface"]}
{"id": "C91", "title": "Cake: a full tier gives up exactly the hashes it holds when it is baked into the next tier", "statement": "When a tier of the cake is full, the hashes collected from its forests to build the next tier are exactly the hashes that were appended, each once and with the index it was appended at. The number widths of every tier suffice for the hashes of its forests.", "quantifier": "All contents and sizes of the batches the tier was baked from, all shapes the trees may take, every prefix of the tier's jump table.", "why_tests_cant": "The collection walks every node of every tree, in three node formats; only an induction over trees shows that no leaf is missed or visited twice. Filling a real tier takes 327675 hashes, and the tier below that 83 million.", "anchors": ["weddingcakeback/tierbelowsource.go: GetHashesAtIndex, recurseVisitEveryLeaf", "weddingcakeback/donutforestread.go: getAllNextLevelNodeIds", "weddingcakeback/donutforestwrite.go: Write", "weddingcakeback/bakingdesigner.go: PanicIfDuplicates"]}
{"id": "C92", "title": "Reading a whole word file gives every word written to it", "statement": "Reading a word file in one go returns all words of the file in order, including the ones written through the same open file, however it was used before.", "quantifier": "every word size from 1 to 8, every starting content, every sequence of reads, writes, appends, syncs and whole reads", "why_tests_cant": "whether the answer is complete depends on the hidden read position and the append buffer, which every earlier call may have moved; a test exercises a few orders of calls", "anchors": ["wordfile/wordfile.go: ReadWholeFileAsInt64s", "memfile/appendoptimized.go", "memfile/filewithsize.go"]}
{"id": "C93", "title": "A lookup file held in memory behaves like the file", "statement": "A file of fixed size held in memory answers every read as the file on disk would, and after a sync or close the disk holds what was written.", "quantifier": "every starting content, every spare capacity of the buffer, every sequence of reads, writes and syncs", "why_tests_cant": "the spare capacity of the buffer is chosen by the runtime, and whether unsaved data is lost shows only after a crash", "anchors": ["memfile/fixedsize.go"]}
{"id": "C94", "title": "The worker pool processes every task exactly once", "statement": "With at least one worker, every task sent to the pool by any client is processed exactly once, its own error is recorded on it before it is signalled as done, no more tasks are open at a time than there are workers, and every run comes to an end.", "quantifier": "every number of workers and clients, every distribution of tasks, every interleaving, every result of processing", "why_tests_cant": "a test runs one schedule; the claim is about every interleaving of clients and workers", "anchors": ["concurrency/workerpool.go: NewWorkerPool, worker"]}
{"id": "C95", "title": "An indexing run that was stopped can simply be started again", "statement": "After any number of indexing runs on the same hash file with the same settings, each of them stopped at any moment or finished, with whatever indexer, number of workers and memory allowance, a run that goes through to the end leaves an index that counts the hashes, finds every hash at its first position, reports -1 for every other hash and gives each hash back; files left over never keep it from going through. The same is expected when the settings were changed in between.", "quantifier": "all hash files, all sequences of earlier runs, every moment at which each was stopped (also halfway through a file), both indexers, all worker counts, memory allowances and schedules, all queries", "why_tests_cant": "what is left over depends on the moment of the interruption; whether a leftover file does harm shows only when a bin happens to fill its start exactly", "anchors": ["jobs/intrinsicparallel.go: RunIntrinsic", "indexedhashes3/multipasspreloader.go: IndexTheHashes, createInitialFiles", "indexedhashes3/adaptivepasspreloader.go: IndexTheHashes", "indexedhashes3/binfiles.go: saveBinToFiles, loadBinFromFiles"]}
{"id": "C96", "title": "The self-check of an index tells right from wrong", "statement": "After a hash index has been made, the self-check over the hash file ends without an error exactly when every hash of the file is given back at its position and found at that position; a finished index passes it.", "quantifier": "every index files, every hash file, every way the file is delivered by reads, every settings and schedule of the indexing run", "why_tests_cant": "a check that passes on good data says nothing about the bad data it would also pass; the wrong answers are only printed and read errors end the loop", "anchors": ["indexedhashes3/multipasspreloader.go: TestTheHashes, testOneHash", "indexedhashes3/hashstore.go: GetHashAtIndex, IndexOfHash"]}
{"id": "C97", "title": "Bins used again start empty and stay apart", "statement": "The memory of the bins is kept from pass to pass and shared by the indexing of addresses, transactions and blocks: still every pass starts with exactly the number of bins it asks for, all empty, what is appended to one bin shows up in that bin only, and what a pass leaves in the bins does not depend on the passes before it.", "quantifier": "every sequence of passes of any sizes, with any appends and in-place rewritings, and any way the slices grow", "why_tests_cant": "whether stale bytes or shared arrays show depends on the sizes of earlier passes and on when append moves to a new array", "anchors": ["indexedhashes3/binbytes.go: BinsArray.Reuse, NewBinsArray, appendBinEntry, sortAndDeduplicate", "indexedhashes3/singlepass.go: readIn", "jobs/intrinsicparallel.go: phase two"]}
{"id": "C98", "title": "The measurements before a tier is designed count every node once", "statement": "Whatever groups of hashes are measured for a future tier, in whatever order, each number of the measurement is the number of nodes on that level with that many slots in use: as many leaves as hashes were presented, no node with exactly one slot, as many nodes on a level as branches lead to it. Measuring stops the program rather than count a node on a wrong level.", "quantifier": "every sequence of groups of distinct hashes, every hash length, prefix length, base level and number of reassurance bytes, every choice of splitting bytes", "why_tests_cant": "the shape of a tree depends on all its hashes; tests measure a handful of small groups and cannot compare with the true number of nodes of every tree", "anchors": ["weddingcake/treelayoutdesigner.go: RecordSubtreeDistribution, RecurseAccumulateSubtreeMetrics", "weddingcakeback/bakingdesigner.go: RecordSubtreeDistribution, RecurseAccumulateSubtreeMetrics"]}
{"id": "C99", "title": "Making the files of a chain does all or nothing", "statement": "Creating a chain makes exactly the files asked for, all empty, leaves everything else alone and never touches a chain that is already there; a creation that fails can be repeated properly, and what opens as a chain was created in full with the integers asked for.", "quantifier": "every content of the folder, every list of requested integers, every order in which maps are run through, every way single creations fail", "why_tests_cant": "half-made states come from failures in the middle and from argument mistakes, whose combinations with later calls are not enumerable by tests", "anchors": ["chainstorage/concreteappendablechainfactory.go: CreateFromHashStores, openPrivate, NewConcreteAppendableChainCreator", "wordfile/concretewordfilecreator.go: CreateWordFile, WordFileExists, OpenWordFile", "intarrayarray/concretemapstorecreator.go: CreateMap"]}
{"id": "C100", "title": "The phases of the job can be run together or one by one, and a refused run does no harm", "statement": "One call of the job with all its phases has the same effect as one call for each phase; a call with the first phase does not depend on what was in the folder; storing a chain where there is one is refused without a change; a call refused for its arguments leaves the stored files as they were and can be repeated with the right ones.", "quantifier": "every content of the folder, every number of years, every choice of phases, every indexing method, whatever the phases do", "why_tests_cant": "runs take hours to days and the bad cases are sequences of calls with a mistake in one of them", "anchors": ["jobs/intrinsicparallel.go: RunIntrinsic", "jobs/yearstats.go: blocksEachYear, transactionsEachYear", "chainstorage/concreteappendablechainfactory.go: CreateFromHashStores, OpenWithIndexer"]}
{"id": "C101", "title": "A stored chain can be copied into another chain", "statement": "Opening a stored chain for reading and handing it, block by block, to AppendBlock of a newly created chain (after gathering its hashes with AppendHashesCri) yields a chain that shows the same: the same blocks, transactions, inputs with their sources, outputs with their values and addresses, the same non-essential ints (those the copy asks for), and the same address histories.", "quantifier": "All chains that can be stored, every way they were stored (handles or plain interface, delegated indexing or not), both ways of reading the original, all settings of the copy that ask for a subset of the ints, all hash stores holding the chain's hashes.", "why_tests_cant": "A stored chain numbers its blocks, transactions, inputs and outputs, and AppendBlock checks those numbers against its own counts; whether they agree for every chain is a statement about two whole runs. No test in the repository copies a stored chain; tests with intrinsic sources never reach the checks or the unspecified address hashes.", "anchors": ["chainstorage/concreteappendablechain.go: AppendBlock, appendTransactionFrame, appendTxi, appendTxo", "chainstorage/concretehasheschain.go: AppendHashesCri", "chainstorage/transaction.go: Txo.Address, Txi.SourceTransaction", "chainstorage/concretereadablechain.go"]}
{"id": "C102", "title": "A chain held in memory can be walked both ways, and what it hands out leads back", "statement": "For every chain held in memory whose items carry their own positions: walking from the genesis block with NextBlock until the invalid handle visits every block once, in order; walking back from the latest block with ParentBlock visits them in reverse; the same for transactions; every transaction, input and output handle that is handed out leads to the item it was taken from. The built-in tiny chain is such a chain: every input names an existing output, no output is named twice, and no transaction with inputs gives out more than it takes in. Such a chain can be stored with AppendBlock. (The last part is refuted: outputs of such chains have no addresses, so every block with an output is refused, by the hash pass and by the storing pass, after half an output has been written; and a newly made chain refuses the first block of any source, because storing presumes the hashes to be indexed. Also refuted: inputs only spend outputs of earlier transactions; the neighbours of the invalid handle are invalid.)", "quantifier": "all chains of any length held in memory; all stores, settings and states of the chain stored to", "why_tests_cant": "The tests of the tiny chain look at a few handles of one chain with three blocks. That storing is impossible for every chain, store and state is a statement about all of them.", "anchors": ["tinychain/blockchain.go:GenesisBlock", "tinychain/blockchain.go:ParentBlock", "tinychain/blockchain.go:NextBlock", "tinychain/blockchain.go:NextTransaction", "tinychain/blockchain.go:TxoInterface", "tinychain/instances.go:theTinyChain", "tinychain/txo.go:Address", "chainstorage/concreteappendablechain.go:AppendBlock"]}
