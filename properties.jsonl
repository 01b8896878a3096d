{"id": "C01", "title": "my_alltoallv delivers every slice and nothing else", "statement": "When every rank calls my_alltoallv with consistent counts (the count rank i announces for rank j is the count rank j expects from rank i), with send slices inside its send buffer and receive slices that are inside its receive buffer and do not overlap, then afterwards the slice of rank j's receive buffer set aside for rank i holds exactly the elements of rank i's send slice for rank j, in order; every other element of the receive buffers and all send buffers are unchanged.", "quantifier": "every communicator size (not only powers of two), every count/offset table, every buffer content, every chunk size >= 1 element", "why_tests_cant": "the communication pattern depends on the communicator size (hypercube rounded up to a power of two) and on chunk boundaries; tests run a handful of sizes, far below the 100 MB chunk limit", "anchors": ["python/virgo/mpi/parallel_sort.py:my_alltoallv"]}
{"id": "C02", "title": "my_alltoallv cannot deadlock and its result does not depend on scheduling", "statement": "Under every interleaving of the ranks, with Sendrecv completing only when both partners are in the matching call (the least permissive MPI behaviour), every rank's call to my_alltoallv returns after finitely many exchanges, no message is ever longer than the buffer posted for it, and the final buffers are the same for all interleavings.", "quantifier": "every communicator size, consistent count table, chunk size >= 1 and every schedule of the ranks", "why_tests_cant": "a test observes one schedule per run, on an MPI library that buffers small messages and so hides deadlocks", "anchors": ["python/virgo/mpi/parallel_sort.py:my_alltoallv"]}
{"id": "C03", "title": "my_alltoallv async method gives the same result for every delivery order", "statement": "With method='async' the receive buffers after completion equal those of the default hypercube method, whatever order the non-blocking messages are delivered in (messages between the same pair of ranks staying in order).", "quantifier": "every communicator size, consistent count table, chunk size >= 1, every delivery order allowed by MPI", "why_tests_cant": "delivery order is chosen by the MPI runtime; tests cannot enumerate it", "anchors": ["python/virgo/mpi/parallel_sort.py:my_alltoallv"]}
{"id": "C04", "title": "sendrecv swaps buffers of any two sizes between partners", "statement": "When two ranks call sendrecv naming each other, each rank's receive buffer, if at least as long as the partner's send buffer, ends up with the partner's send buffer at its start (and is unchanged beyond it); the chunked loop makes the same number of exchanges on both sides and terminates.", "quantifier": "every pair of buffer lengths and every chunk size >= 1", "why_tests_cant": "the chunking loop only does anything interesting for buffers above 100 MB", "anchors": ["python/virgo/mpi/parallel_sort.py:sendrecv"]}
{"id": "C05", "title": "repartition preserves global content and order", "statement": "repartition(arr, ndesired) returns on rank i exactly ndesired[i] elements, and the concatenation over ranks of the output equals the concatenation over ranks of the input; for arrays with trailing dimensions whole rows move together. If sum(ndesired) differs from the global number of elements the call raises instead of losing data.", "quantifier": "every communicator size, every input distribution (including empty ranks), every target distribution with the same total, every row width", "why_tests_cant": "unbounded family of (input split, output split) pairs; random tests miss alignments such as empty ranks at both ends", "anchors": ["python/virgo/mpi/parallel_sort.py:repartition"]}
{"id": "C06", "title": "fetch_elements is global fancy indexing", "statement": "If all requested indexes lie in [0, N) where N is the global length, fetch_elements(arr, index) returns on every rank the list of global elements at the requested positions, in request order, duplicates allowed; the distributed array itself is not modified, and passing result= (even result=arr) gives the same values.", "quantifier": "every distribution of arr over ranks (including empty ranks) and every per-rank list of indexes in range", "why_tests_cant": "input space is unbounded and correctness depends on ties between empty ranks in the offset table", "anchors": ["python/virgo/mpi/parallel_sort.py:fetch_elements"]}
{"id": "C07", "title": "weighted_median returns an element with positive weight that splits the weight in half", "statement": "For non-negative weights with positive sum, weighted_median returns one of the given values, that value carries positive weight, the total weight of strictly smaller values is at most half of the total, and so is the total weight of strictly larger values.", "quantifier": "every list of values, every list of non-negative weights with positive total", "why_tests_cant": "a zero-weight value being returned would only show up as a rare non-terminating sort", "anchors": ["python/virgo/mpi/parallel_sort.py:weighted_median"]}
{"id": "C08", "title": "find_splitting_points finds the element of each requested global rank and terminates", "statement": "For a globally non-empty set of locally sorted arrays and requested ranks r in [0, N), find_splitting_points terminates and returns for every r a value v that occurs in the data with (number of elements < v) = min_rank <= r <= max_rank = (number of elements <= v) - 1.", "quantifier": "every number of ranks >= 1, every locally sorted distribution (including duplicates and empty ranks), every list of requested ranks", "why_tests_cant": "termination of a value-dependent iterative search over all inputs", "anchors": ["python/virgo/mpi/parallel_sort.py:find_splitting_points"]}
{"id": "C09", "title": "parallel_sort produces the globally stable-sorted array with unchanged layout", "statement": "After parallel_sort(arr, comm) the concatenation over ranks of arr is the stable sort of the concatenation of the input: it is ordered, a permutation of the input, every rank keeps its number of elements, no internal consistency check fails and the call terminates.", "quantifier": "every communicator size, every distribution of elements over ranks (including empty ranks and all-equal data), every totally ordered element type", "why_tests_cant": "unbounded inputs; the split points depend on global duplicates that random data rarely produce", "anchors": ["python/virgo/mpi/parallel_sort.py:parallel_sort", "python/virgo/mpi/parallel_sort.py:find_splitting_points", "python/virgo/mpi/parallel_sort.py:my_alltoallv"]}
{"id": "C10", "title": "parallel_sort's returned index is the stable global argsort", "statement": "With return_index=True the concatenation of the returned indexes is a permutation of 0..N-1, the element at output position k is the input element at index[k], and equal elements appear in increasing original index; hence fetch_elements(original, index) reproduces the sorted array.", "quantifier": "every communicator size, every distribution, every data", "why_tests_cant": "stability across rank boundaries depends on how duplicates straddle split points", "anchors": ["python/virgo/mpi/parallel_sort.py:parallel_sort", "python/virgo/mpi/parallel_sort.py:fetch_elements"]}
{"id": "C11", "title": "parallel_match returns the lowest global index of an equal element, or -1", "statement": "parallel_match(arr1, arr2) returns for each local element x of arr1 the smallest global index j with arr2[j] = x if x occurs in arr2 and -1 otherwise; the same holds with arr2_sorted=True when the concatenation of arr2 is sorted. Neither input is modified.", "quantifier": "every communicator size, all contents and distributions of arr1 and arr2, including empty ranks, duplicates and values outside arr2's range", "why_tests_cant": "requires agreement between the routing of values to ranks and the location of the first duplicate", "anchors": ["python/virgo/mpi/parallel_sort.py:parallel_match"]}
{"id": "C12", "title": "parallel_unique returns sorted distinct values with exact global counts", "statement": "The concatenation over ranks of the returned values is strictly increasing and contains exactly the distinct values of the global input; with return_counts each value's count is its number of occurrences in the global input; repartition_output only changes the split over ranks (rank sizes then differ by at most one, the first ranks having the extra elements).", "quantifier": "every communicator size, every data and distribution, both values of arr_sorted / repartition_output", "why_tests_cant": "duplicates spanning three or more ranks, ranks holding a single repeated value, empty ranks", "anchors": ["python/virgo/mpi/parallel_sort.py:parallel_unique"]}
{"id": "C13", "title": "reduce_elements applies every update exactly once to its target", "statement": "For indexes in [0, N) and an operation whose updates commute (op(op(a,u),v) = op(op(a,v),u)), after reduce_elements each global element equals its old value combined with every update addressed to it exactly once, and elements with no update are unchanged, independently of the (unstable) sort order chosen by numpy and of the order of arrival.", "quantifier": "every communicator size, distribution, index list with duplicates, commuting operation and any sorting permutation returned by argsort", "why_tests_cant": "argsort's order for ties is unspecified and updates arrive from many ranks", "anchors": ["python/virgo/mpi/parallel_sort.py:reduce_elements"]}
{"id": "C14", "title": "parallel_bincount counts every value once", "statement": "parallel_bincount(x) returns a distributed array whose global length is max(max(x)+1, minlength), distributed as evenly as stated, whose element k is the number (or total weight) of entries of x equal to k over all ranks; when result is supplied the counts are added to its contents.", "quantifier": "every communicator size, every distribution of non-negative integers, any weights and minlength", "why_tests_cant": "unbounded inputs, duplicates across ranks, uneven last rank", "anchors": ["python/virgo/mpi/parallel_sort.py:parallel_bincount"]}
{"id": "C15", "title": "match_halos returns the plurality match with deterministic tie-break", "statement": "For each halo i of the first catalogue match_halos returns the halo j >= 0 of the second catalogue which shares the largest number of particles with i (particles with equal ids whose group indexes are both >= 0), the smallest such j if several tie, -1 if no particle is shared. Halos are returned in the distribution requested by local_nr_halos.", "quantifier": "every communicator size, all particle distributions, all group assignments with indexes below the number of halos, ids repeated in the second catalogue counting with their first occurrence", "why_tests_cant": "chain of sort, match, unique, alltoallv over arbitrary distributions", "anchors": ["python/virgo/mpi/merger_tree.py:match_halos"]}
{"id": "C16", "title": "consistent_match marks exactly the mutual matches", "statement": "consistent_match(match_12, match_21) returns 1 for global halo i exactly when match_12[i] = j >= 0 and match_21[j] = i, and 0 otherwise.", "quantifier": "every communicator size and distribution of both match arrays, all in-range contents", "why_tests_cant": "global indexes depend on every rank's local size", "anchors": ["python/virgo/mpi/merger_tree.py:consistent_match"]}
{"id": "C17", "title": "group_index_from_length_and_offset equals the serial assignment loop", "statement": "When, on each rank, the offset of every non-empty group is not below the offsets of the rank's earlier groups, the group index returned for global particle p is the index of the last group g (in global group order) with offset[g] <= p < offset[g]+length[g], and -1 if there is none - i.e. the result of the obvious serial loop. (Without the ordering the claim is false: see C17_unsorted_refuted.)", "quantifier": "every communicator size, all distributions of groups and particles (empty ranks, zero-length groups, groups spanning many ranks, overlapping groups)", "why_tests_cant": "groups spanning several ranks and zero-length groups at rank boundaries are rare in test data", "anchors": ["python/virgo/mpi/util.py:group_index_from_length_and_offset"]}
{"id": "C18", "title": "group_index_from_length_and_offset's rank-in-group is the particle's position in its group", "statement": "With return_rank=True the value returned for a particle in group g is p - offset[g], where p is the particle's global index, and -1 for particles in no group.", "quantifier": "as for the group index", "why_tests_cant": "needs a group split over ranks to be observable", "anchors": ["python/virgo/mpi/util.py:group_index_from_length_and_offset"]}
{"id": "C19", "title": "gather_array and allgather_array concatenate in rank order", "statement": "gather_array (on the root) and allgather_array (on every rank) return the concatenation, along the requested axis, of the arrays of all ranks in rank order.", "quantifier": "every communicator size, every per-rank length, any row width, any axis of an n-d array", "why_tests_cant": "uneven and empty contributions; axis swapping", "anchors": ["python/virgo/mpi/gather_array.py:gather_array", "python/virgo/mpi/gather_array.py:allgather_array"]}
{"id": "C20", "title": "replace_none_with_zero_size makes the array well defined on all ranks", "statement": "If at least one rank has a non-None array, then after replace_none_with_zero_size every rank has an array, ranks which had one keep it unchanged, and all others get a zero-length array with the dtype and trailing dimensions of the first rank that had data; if all ranks have None all keep None. (Arrays of inconsistent dtype or dimensions are not detected.)", "quantifier": "every communicator size and every pattern of None over ranks", "why_tests_cant": "the pattern of ranks with no data depends on the file/rank layout", "anchors": ["python/virgo/mpi/util.py:replace_none_with_zero_size", "python/virgo/mpi/util.py:broadcast_dtype_and_dims"]}
{"id": "C21", "title": "assign_files hands out every file exactly once, and when it does so evenly", "statement": "assign_files(nr_files, nr_ranks) returns nr_ranks counts that sum to nr_files, every count is at least nr_files // nr_ranks and at most nr_files // nr_ranks + nr_files % nr_ranks. Any two counts differ by at most one exactly when (nr_files % R) * gcd(max(nr_files // (nr_files % R + 1), 1), R) <= R with R = nr_ranks; this includes fewer files than ranks and any multiple of R, but not every case: 11 files on 4 ranks give 4, 2, 3, 2.", "quantifier": "all nr_files >= 0, nr_ranks >= 1", "why_tests_cant": "the remainder is spread with a stride modulo nr_ranks whose collisions depend on arithmetic relations between the two numbers", "anchors": ["python/virgo/mpi/parallel_hdf5.py:assign_files"]}
{"id": "C22", "title": "collective_read partitions the dataset over ranks in order", "statement": "The concatenation over ranks of what collective_read returns equals the dataset; every rank's share is ntot//P, plus one on the first ntot % P ranks; all ranks take part in the same number of collective reads and in the chunked path no rank performs a read larger than the buffer limit. If one row is larger than the buffer limit and there are at least 10 P rows, nothing is read and uninitialised memory is returned without an error.", "quantifier": "every dataset length, communicator size, row size and buffer size of at least one row", "why_tests_cant": "chunk boundaries at 100 MB are not reached by tests; remainder cases", "anchors": ["python/virgo/mpi/parallel_hdf5.py:collective_read"]}
{"id": "C23", "title": "collective_write followed by reading gives back the concatenation", "statement": "collective_write creates a dataset of length sum of the local lengths (or overwrites the start of an existing one, leaving the rest alone) whose contents are the concatenation over ranks of the local arrays; the chunked write loop terminates, each rank writes as many rows as it has, no write is larger than the buffer limit and all ranks take part in the same number of collective writes. Ranks with different dtypes or row shapes are refused before anything is written. If one row is larger than the buffer limit the loop never ends.", "quantifier": "every distribution, every buffer size of at least one row, every communicator size", "why_tests_cant": "chunk loop and per-rank offsets at scale", "anchors": ["python/virgo/mpi/parallel_hdf5.py:collective_write"]}
{"id": "C24", "title": "MultiFile.read returns all files' data in file order for any number of ranks", "statement": "The concatenation over ranks of MultiFile.read(dataset) equals the concatenation over the files, in file order, of that dataset (files without the dataset skipped), whether there are more files than ranks or more ranks than files; the file_nr arrays returned with return_file_nr tag each element with the index of its file; all files are read exactly once.", "quantifier": "every number of files >= 1, communicator size, file contents including missing datasets and zero-length datasets", "why_tests_cant": "two code paths (independent/collective) and the assign_files layout for each (files, ranks) pair", "anchors": ["python/virgo/mpi/parallel_hdf5.py:MultiFile.read", "python/virgo/mpi/parallel_hdf5.py:MultiFile._read_independent", "python/virgo/mpi/parallel_hdf5.py:MultiFile._read_collective"]}
{"id": "C25", "title": "MultiFile write after read reproduces the files", "statement": "Writing an array read with MultiFile.read back with MultiFile.write, using the element counts from get_elements_per_file, creates in every output file a dataset equal to the one in the corresponding input file (in native byte order; an empty dataset where the input file had none), if the file indexes are distinct and at least one file has the dataset.", "quantifier": "every number of files, ranks, and per-file lengths", "why_tests_cant": "round trip over unbounded layouts and two code paths", "anchors": ["python/virgo/mpi/parallel_hdf5.py:MultiFile.write", "python/virgo/mpi/parallel_hdf5.py:MultiFile.get_elements_per_file"]}
{"id": "C26", "title": "match returns a valid index of an equal element, or -1 exactly when there is none", "statement": "match(arr1, arr2) returns an array of arr1's length; entry i is -1 if arr1[i] does not occur in arr2, otherwise it is an index j in range with arr2[j] = arr1[i]. The same holds with arr2_sorted=True for sorted arr2, and with arr2_index equal to any permutation that sorts arr2, and for empty inputs.", "quantifier": "all arrays of any totally ordered type, any (possibly unstable) sorting permutation", "why_tests_cant": "values below, above and between those of arr2, duplicates, empty arrays - infinite input space", "anchors": ["python/virgo/util/match.py:match"]}
{"id": "C27", "title": "assign_ranges equals the loop over ranges", "statement": "For ranges sorted by offset, non-overlapping and inside the array, assign_ranges(array, offset, length, value) leaves in array exactly what the loop 'array[offset[i]:offset[i]+length[i]] = value[i]' would: elements in range i get value[i], all others are unchanged. For two or more ranges that overlap, are out of order or exceed the array it raises ValueError and leaves the array unchanged. (A single range is not checked.)", "quantifier": "all array lengths, all range lists, all values", "why_tests_cant": "gap handling at both ends, zero-length ranges and adjacent ranges combine", "anchors": ["python/virgo/util/ranges.py:assign_ranges"]}
{"id": "C28", "title": "sum_ranges returns the per-range (weighted) sums", "statement": "For sorted, non-overlapping, in-bounds ranges, sum_ranges(array, offset, length, weight) returns for range i the sum of array elements (times weights) with positions in that range, 0 for zero-length ranges; with normalize=True the weighted mean.", "quantifier": "all arrays, all range lists including any pattern of empty ranges", "why_tests_cant": "np.add.reduceat has special behaviour for empty ranges; patterns of empty ranges are unbounded", "anchors": ["python/virgo/util/ranges.py:sum_ranges"]}
{"id": "C29", "title": "Peano-Hilbert keys and their inverse are mutually inverse bijections", "statement": "For every bits with 1 <= bits <= 21, peano_hilbert_keys maps grid coordinates in [0,2^bits)^3 injectively onto [0,8^bits), peano_hilbert_key_inverses(keys) returns the original coordinates, and for every key in [0,8^bits) computing the key of its inverse returns the key. (For 22 bits the key does not fit in 64 bits and different cells get the same key.)", "quantifier": "all bits from 1 to 21, all coordinates, all keys", "why_tests_cant": "the domain for bits=21 has 2^63 points", "anchors": ["python/virgo/util/peano.py:peano_hilbert_keys_block", "python/virgo/util/peano.py:peano_hilbert_key_inverses_block"]}
{"id": "C30", "title": "The Peano-Hilbert curve is continuous", "statement": "Cells with consecutive keys are face neighbours: the inverses of k and k+1 differ by exactly 1 in exactly one coordinate.", "quantifier": "all bits from 1 to 21 and all k with 0 <= k < 8^bits - 1", "why_tests_cant": "property of the rotation tables that must hold at every recursion depth", "anchors": ["python/virgo/util/peano.py:peano_hilbert_key_inverses_block"]}
{"id": "C31", "title": "Peano-Hilbert keys are hierarchical and computed elementwise", "statement": "Dropping the lowest bit of each coordinate drops the lowest three bits of the key (so a cell of a coarse grid is a contiguous key range on a finer grid), and the blocked array version gives element by element the same keys as the single element version for every array length and block size.", "quantifier": "all bits, coordinates, array lengths, block sizes", "why_tests_cant": "block boundaries (10000) and all refinement levels", "anchors": ["python/virgo/util/peano.py:peano_hilbert_keys", "python/virgo/util/peano.py:peano_hilbert_keys_block"]}
{"id": "C32", "title": "BinaryFile datasets are laid out back to back and reads return exactly their bytes", "statement": "After any sequence of add_dataset/add_attribute/skip_bytes/read_and_skip/byte order/fortran record calls, each block starts at the file position reached by the preceding calls and stays there; without skips blocks are back to back, and without negative skips they never overlap; reading a dataset returns exactly the items stored in its own bytes (selection picks among these), and reading beyond the end of the file raises instead of returning data.", "quantifier": "all sequences of layout operations, shapes, item sizes and file contents", "why_tests_cant": "unbounded histories", "anchors": ["python/virgo/util/read_binary.py:BinaryFile", "python/virgo/util/read_binary.py:BinaryDataset"]}
{"id": "C33", "title": "Byte order is transparent to the reader for scalar types", "statement": "Reading a block whose dtype is not structured gives, in memory, the numbers stored in the file in the block's byte order; a file with every number's bytes reversed read with the opposite setting gives identical arrays. Structured dtypes are never swapped, so the claim is false for them (finding).", "quantifier": "all files, blocks, scalar/bytes item types, byte order settings and both kinds of machine", "why_tests_cant": "interaction between when blocks are created and when byte order is discovered", "anchors": ["python/virgo/util/read_binary.py:BinaryFile.set_endian", "python/virgo/util/read_binary.py:BinaryGroup._add_block", "python/virgo/util/read_binary.py:BinaryDataset._mmap_file"]}
{"id": "C34", "title": "set_endian applies to all blocks; toggle_byteswap and attributes of datasets break this", "statement": "set_endian/enable_byteswap give every block the new byte order (an invalid one raises and changes nothing); after any history without attributes added to datasets and without toggling (explicitly or through a fortran record) an explicit byte order, every block has the byte order of the file. Attributes of datasets keep native order, toggling an explicit order does not reach existing blocks, and toggling twice from the default does not restore the blocks (findings).", "quantifier": "all histories of calls", "why_tests_cant": "histories are unbounded; the failing ones need an attribute on a dataset or a second toggle", "anchors": ["python/virgo/util/read_binary.py:BinaryFile.toggle_byteswap", "python/virgo/util/read_binary.py:BinaryGroup._add_block"]}
{"id": "C35", "title": "Fortran record framing is checked and byte order detected", "statement": "Reading a well-formed record (marker, payload of the same length, marker) succeeds in the byte order of the file without changing it, and in the opposite order when auto_byteswap is used and the payload is 1..65535 bytes, leaving the position just after the record and the byte order of the file set to that of the markers, for all blocks too if it was the default before; without auto_byteswap it raises; a record whose markers differ, or disagree with the payload length in both byte orders, raises. With an explicit byte order earlier blocks keep the wrong one, and an empty record's order is not detected (findings).", "quantifier": "all payload lengths and contents, both byte orders", "why_tests_cant": "requires all marker values", "anchors": ["python/virgo/util/read_binary.py:BinaryFile.start_fortran_record", "python/virgo/util/read_binary.py:BinaryFile.end_fortran_record"]}
{"id": "C36", "title": "all_bytes_used is true exactly when the blocks tile the file", "statement": "all_bytes_used returns True only if every byte of the file belongs to exactly one block and no block reaches outside the file; it returns True whenever blocks were added in file order without gaps up to the end of the file, and also in any order if non-empty blocks cover every byte exactly once.", "quantifier": "all sequences of blocks, including zero-size blocks and negative skips", "why_tests_cant": "unbounded layouts", "anchors": ["python/virgo/util/read_binary.py:BinaryFile.all_bytes_used"]}
{"id": "C37", "title": "hash depends only on the values, not on the byte order of the file", "statement": "For a file consisting of scalar-typed blocks the byte stream fed to the hash is the little-endian image of the blocks in file order (an error if not all bytes are used), so two files with the same values and opposite byte order hash alike, and for a little-endian file that is fully covered by blocks it is the hash of the raw file.", "quantifier": "all files and layouts", "why_tests_cant": "quantifies over file contents and both byte orders", "anchors": ["python/virgo/util/read_binary.py:BinaryFile.hash"]}
{"id": "C38", "title": "At most 32 files are kept mapped and every read uses an open mapping of its own file", "statement": "Whatever the order of reads from datasets of any number of files, explicit closes and deallocations, no more than 32 (max_files) mappings are open at a time and at most one per file, each read is served from an open mapping of the dataset's own file, and never fails if that file can be opened, whatever was evicted before.", "quantifier": "all histories of reads and closes over any number of files", "why_tests_cant": "needs >32 files in adversarial access orders", "anchors": ["python/virgo/util/read_binary.py:BinaryDataset._mmap_file"]}
{"id": "C39", "title": "Names in a BinaryFile behave like a file system", "statement": "After a successful add_dataset(name) looking up name (with any leading/trailing slashes) returns that dataset and every other previously added name still resolves to what it did; adding a name that already exists, or a group path running through a dataset, raises KeyError and changes nothing visible.", "quantifier": "all histories of adds and lookups over all path strings", "why_tests_cant": "unbounded namespace histories", "anchors": ["python/virgo/util/read_binary.py:BinaryGroup"]}
{"id": "C40", "title": "Gadget binary snapshots open correctly in either byte order and precision", "statement": "For every well-formed type-1 Gadget snapshot, written in either byte order, with 4 or 8 byte numbers chosen per block and any extra blocks the caller asks for, opening it exposes the header attributes and, for each particle type with particles, the datasets whose blocks are stored, with exactly the stored values in the right byte order, and nothing else. A wrong length before or after the header or any block, a file which ends in the header or in a block, or one with fewer than three of its blocks raises IOError. (The 64 spare bytes at the end of the header belong to no block, so hash always refuses such a file.)", "quantifier": "all particle counts per type, mass tables, precisions, byte orders, and block contents", "why_tests_cant": "combinatorial formats", "anchors": ["python/virgo/formats/gadget_snapshot.py:GadgetBinarySnapshotFile"]}
{"id": "C41", "title": "The nfiles-based byte order test is exact", "statement": "For the subfind formats that guess the byte order from the number of files, a file whose true number of files is between 1 and 65535 is read in its own byte order, whatever that of the machine, i.e. it is byte swapped exactly when it was written in the opposite byte order. A file with 65536 files, in the order of the machine, is read in the wrong order.", "quantifier": "all 65535 file counts and both byte orders", "why_tests_cant": "needs all values, not samples", "anchors": ["python/virgo/formats/subfind_lgadget2.py:GroupTabFile", "python/virgo/formats/subfind_lgadget3.py:GroupTabFile", "python/virgo/formats/subfind_pgadget3.py:GroupTabFile"]}
{"id": "C42", "title": "Every catalogue reader opens the files it documents", "statement": "Each modelled catalogue reader (LGadget-2/3, PGadget-3, Gadget-4 group, subhalo and id files, LGadget-2 snapshots) opens every well-formed file of its format, in either byte order, exposes every array with the stored values and no other dataset, and accounts for every byte exactly if the file has no extra bytes at the end. The readers of MPA merger trees do so for files in the byte order of the machine only. LGadget-2 GroupIDsFile opens no file at all: it always raises KeyError.", "quantifier": "all well-formed files", "why_tests_cant": "there is no test data for this format in the repository", "anchors": ["python/virgo/formats/subfind_lgadget2.py:GroupTabFile", "python/virgo/formats/subfind_lgadget2.py:GroupIDsFile", "python/virgo/formats/subfind_lgadget2.py:SubTabFile", "python/virgo/formats/subfind_lgadget3.py:SubTabFile", "python/virgo/formats/subfind_pgadget3.py:SubTabFile", "python/virgo/formats/subfind_gadget4.py:SubTabFile", "python/virgo/formats/mpa_trees.py:SubDescFile"]}
{"id": "C43", "title": "Reading hash cells returns exactly the particles in those cells", "statement": "Snapshot.read_cells(keys) returns the positions, velocities and ids of exactly the particles in the hash cells named by keys, each once whatever duplicates keys has, in file order, with the three arrays in step, and the result does not depend on which cells were read before (cached hash tables, failed calls included). A key outside the hash table is an IndexError. If no file has a requested cell the call raises ValueError instead of returning empty arrays.", "quantifier": "all snapshots whose files hold consecutive hash cells with fewer than 2^31 particles per file, all key lists, all histories of earlier reads", "why_tests_cant": "depends on cell/file layout and cached state", "anchors": ["python/virgo/formats/subfind_lgadget2.py:Snapshot.read_cells"]}
{"id": "C44", "title": "read_particle_range returns the requested global range across files", "statement": "read_particle_range(offset, count, datasets) of a multi-file P-Gadget3 snapshot returns, for each dataset, exactly the entries offset..offset+count-1 of the concatenation of the files, whatever was read before; read_fof_group and read_subfind_group return the range their catalogue gives. A range without particles (in particular count = 0) raises ValueError, a dataset named twice is returned with each part doubled, and a subhalo that ends after particle 2^31 cannot be read because SubOffset + SubLen is formed in int32.", "quantifier": "all splits of the particles over files (including empty files), all offset >= 0 and count > 0 in range, all histories of earlier reads", "why_tests_cant": "file boundary coincidences", "anchors": ["python/virgo/formats/subfind_pgadget3.py:485-544", "python/virgo/formats/subfind_pgadget3.py:546-570"]}
{"id": "C45", "title": "read_fof_group returns all particles of the group", "statement": "GroupOrderedSnapshot.read_fof_group(grnr) returns, for each particle type, exactly the particles of that group (a contiguous global range per type) and the subhalo of each of them, whatever was read before and whether grnr is a number or a (file, position) pair, provided no type's last group particle is the first of its type in a file at whose start all other types are complete. Without that proviso at most the last particle of each type is lost, or the call raises ValueError because SubNr does not fit; both are exhibited.", "quantifier": "all consistent group and subhalo tables, all splits of each type over files, all histories of earlier reads", "why_tests_cant": "the failing case needs a group whose last particle is the first particle of the next file", "anchors": ["python/virgo/formats/subfind_gadget4.py:238-343"]}
{"id": "C46", "title": "Depth first indexes encode subtrees as intervals", "statement": "For merger trees without cycles and with unique node indexes, depth_first_index numbers the halos 1..n bijectively so that the progenitors (transitively) of halo h including h are exactly those with depthFirst in [depthFirst(h), lastProgenitor(h)], the main branch (following the progenitor of highest mBranch) is exactly [depthFirst(h), endMainBranch(h)], and siblings are visited in descending mBranch. If the descendant pointers contain a cycle the call raises.", "quantifier": "all forests, all mBranch values, any order of the input arrays, any tie order chosen by argsort", "why_tests_cant": "tree shapes are unbounded", "anchors": ["python/virgo/database/index_trees.py:depth_first_index"]}
{"id": "C47", "title": "Progenitor masses satisfy their defining recursions", "statement": "If each descendant has a strictly larger snapshot number, find_progenitor_tree_mass returns for every halo the sum of the masses of the halo and all its (transitive) progenitors, and find_progenitor_branch_mass_delucia returns the maximum over progenitor chains ending at the halo of the sum of masses along the chain. Without the condition on the snapshots masses are lost (witness).", "quantifier": "all forests and all masses (exact arithmetic)", "why_tests_cant": "tree shapes and input orders are unbounded", "anchors": ["python/virgo/database/index_trees.py:find_progenitor_tree_mass", "python/virgo/database/index_trees.py:find_progenitor_branch_mass_delucia"]}
{"id": "C48", "title": "find_main_progenitor selects a progenitor of maximal branch mass", "statement": "For positive branch masses, the main progenitor reported for a halo with progenitors is the node index of a direct progenitor with the largest branch mass (the earliest snapshot, then the largest node index, among ties), and -1 exactly when it has no progenitor; the number of ties is the number of other direct progenitors within the tolerance of the largest mass. A progenitor of zero mass is never chosen (witness).", "quantifier": "all forests and branch masses", "why_tests_cant": "tie-breaking and order of processing", "anchors": ["python/virgo/database/index_trees.py:find_main_progenitor"]}
{"id": "C49", "title": "The parallel directory hasher processes every directory exactly once and loses no result", "statement": "Under every interleaving of ranks, each directory is handed to exactly one rank; some rank can always move until all ranks have left their loops, and no run exceeds 4*ndirs + 3*nworkers + 2 steps; when rank 0 leaves the loop every worker has been told to stop and the file of all hashes lists, in order of path, exactly the files of the tree that are included, not excluded and not an output file, each with its hash (or as unreadable), independently of schedule, number of ranks and amount of resumed work. The file written in each directory lists that directory's files likewise.", "quantifier": "all numbers of ranks, directory trees, include/exclude patterns, all schedules of requests and replies, all earlier (resumed) results", "why_tests_cant": "schedules are chosen by the MPI runtime", "anchors": ["consistency_check/hash/hash_dirs_mpi.py:recursive_hash", "consistency_check/hash/hash_dirs_mpi.py:DirectoryList"]}
{"id": "C50", "title": "PartialFormatter can be applied in stages", "statement": "Formatting a template with some of its keys missing (or None) leaves exactly the fields of those keys in place, format spec included, and replaces the others by their formatted values; formatting the result with the remaining keys gives the same string or error as formatting once with all keys, provided that the literal text and the formatted values have no braces, fields left in place have no conversion, and no key in the spec of a formatted field is missing. Without each of these conditions it is false. Fields by position are replaced by the arguments, one after the other or by their numbers, and are never left in place; the two kinds in one template are a ValueError.", "quantifier": "all templates of literal text and named fields with specs nested one level, or fields by position with specs without braces, all values and splits of the keys, any format()", "why_tests_cant": "all format strings, including specs, conversions and escaped braces", "anchors": ["python/virgo/util/partial_formatter.py:PartialFormatter"]}
{"id": "C51", "title": "substitute_file_nr puts the file number in the name", "statement": "substitute_file_nr(name, i) replaces {file_nr}, {file_nr:0Nd} and %(file_nr)0Nd placeholders by the decimal i of that width, leaves names without placeholders unchanged, raises RuntimeError if both notations occur, and distinct file numbers give distinct names when there is a placeholder. The rest of the name must not contain braces or percent signs, otherwise it may raise.", "quantifier": "all names built from literal text and placeholders of any width, all file numbers", "why_tests_cant": "all strings", "anchors": ["python/virgo/mpi/parallel_hdf5.py:substitute_file_nr"]}
{"id": "C52", "title": "read_multi concatenates datasets over files in order", "statement": "read_multi returns for each requested dataset (names distinct) the concatenation along the given axis, in the order of the given file indexes, of that dataset over the files containing it; every file is opened once, a dataset in no file is a ValueError and a file that cannot be opened is an error.", "quantifier": "all lists of files and datasets", "why_tests_cant": "patterns of missing datasets", "anchors": ["python/virgo/util/read_multi.py"]}
{"id": "C53", "title": "SWIFT unit attributes are converted consistently", "statement": "The SOAP style unit made from the attributes of a SWIFT dataset has exactly the declared exponents of the five base units, of a and of h, and its value in CGS is the declared factor (differences of up to one part in 10^9 are neglected, leaving the plain product); a missing attribute is a KeyError. The swiftsimio style unit has the declared exponents of the base units and none of a or h, the value in CGS declared without cosmological corrections, and is comoving exactly if the exponent of a is not zero and equals that of length; anything else depending on a or on h is a ValueError. Datasets reached from the file along any path are read with the mode and metadata of the file and their own attributes.", "quantifier": "all exponent tuples and unit systems", "why_tests_cant": "combinatorial attributes, exact algebra of exponents", "anchors": ["python/virgo/formats/swift.py"]}
{"id": "C54", "title": "The SQL native file contains each column's values in row order", "statement": "write_sql_server_native_file writes n packed rows and a CREATE TABLE script; decoding row i, column c with the field widths of the types in the script gives data[c][i] (or the corresponding component of a 3-vector). Arrays of unequal length or unsupported shape and clashing column names raise before anything is written; types without an SQL equivalent raise after the data file has been written.", "quantifier": "all tables (column sets, types, lengths)", "why_tests_cant": "all column layouts", "anchors": ["python/virgo/database/make_dtrees_table.py:write_sql_server_native_file", "python/virgo/database/make_dtrees_table.py:sql_type"]}
{"id": "C55", "title": "A group catalogue that passes sanity_check has groups tiling the id list", "statement": "If GroupTabFile.sanity_check accepts an L-Gadget2 group table without negative lengths then the lengths add up to Nids and the groups' ranges are consecutive: every id of [start, start+Nids) is owned by exactly one group and nothing else is, where start is the first offset; the ranges are 0..Nids-1 exactly if the first offset is 0. Tables of non-empty consecutive groups from 0 are accepted. Exhibited: a first offset of 1 and a negative length are accepted, a correct table whose last group is empty is refused.", "quantifier": "all group tables (int32 lengths), numpy 1 and numpy 2 sums", "why_tests_cant": "accepted-but-wrong tables must be searched for among all inputs", "anchors": ["python/virgo/formats/subfind_lgadget2.py:53-70"]}
{"id": "C56", "title": "eagle_filename's cache is transparent", "statement": "Whenever a fresh directory search finds the file, eagle_filename returns the same name after any sequence of earlier calls, provided all names of the snapshot carry one redshift label; a name returned is always the one with that label in the directory for its kind of file, other kinds are a KeyError, and every existing file is found. (It is not true that a cached call fails when a fresh search would: see the findings.)", "quantifier": "all call histories and all directory contents with one label per snapshot", "why_tests_cant": "histories of calls", "anchors": ["python/virgo/sims/eagle.py:eagle_filename"]}
{"id": "C57", "title": "All ranks agree on command line arguments and on failure", "statement": "If argparse itself does not exit on any rank (as it does for --help), MPIArgumentParser.parse_args returns rank 0's result on every rank, and if rank 0's command line is invalid every rank finalizes MPI and exits; no rank proceeds alone, and only rank 0 writes the message. (If argparse exits on rank 0 only, the other ranks wait for ever: C57_help_refuted.)", "quantifier": "all communicator sizes and outcomes of parsing per rank", "why_tests_cant": "ranks with different outcomes", "anchors": ["python/virgo/mpi/util.py:MPIArgumentParser"]}
{"id": "C58", "title": "write_binary with an explicit mode writes a file that reads back identically; its default mode never works", "statement": "BinaryFile.write_binary with mode 'wb' produces a file in which every non-empty block of a non-overlapping layout, read with the byte order given (or that of its dtype if none), has the original items, and bytes outside the blocks are zero. With the default mode 'wb-' it raises ValueError (finding).", "quantifier": "all layouts and contents", "why_tests_cant": "all layouts and byte orders", "anchors": ["python/virgo/util/read_binary.py:BinaryFile.write_binary"]}
{"id": "C59", "title": "An accepted L-Gadget2 subhalo table is consistent", "statement": "If SubTabFile.sanity_check accepts then the numbers of subhalos per group are non-negative and add up to the number of subhalos, SubParentHalo lists for each group exactly that many subhalos in group order, the first subhalo of each group with subhalos exists, and every subhalo's id range lies in [0, Nids) unless offset+length exceeds 2^31 - 1. Exhibited: FirstSubOfHalo may name a subhalo of another group, and a range beyond 2^31 is accepted.", "quantifier": "all int32 tables", "why_tests_cant": "accepted-but-wrong tables must be searched for among all inputs", "anchors": ["python/virgo/formats/subfind_lgadget2.py:186-224"]}
{"id": "C60", "title": "An accepted Gadget3 subhalo table is consistent", "statement": "If the L-Gadget3 or P-Gadget3 SubTabFile.sanity_check accepts then all totals and lengths are non-negative, group, subhalo and first-subhalo ranges lie inside their totals (modulo 2^32 where the sum is formed in int32), and the subhalos' group numbers exist and do not decrease; conversely every consistent table is accepted. Exhibited: an out of range subhalo hidden by int32 overflow.", "quantifier": "all tables of the stored integer types", "why_tests_cant": "accepted-but-wrong tables must be searched for among all inputs", "anchors": ["python/virgo/formats/subfind_lgadget3.py:101-161", "python/virgo/formats/subfind_pgadget3.py:238-307"]}
{"id": "C61", "title": "Id list checks accept exactly the lists they should", "statement": "The Gadget3 SubIDsFile/GroupIDsFile sanity_check accepts exactly if all bytes of the file are used and no id occurs twice. The L-Gadget2 check accepts exactly if every id is in [0, 2^58) with its low 34 bits at most 2160^3, and at most one id has zero low 34 bits.", "quantifier": "all id lists", "why_tests_cant": "iff over all lists", "anchors": ["python/virgo/formats/subfind_pgadget3.py:53-63", "python/virgo/formats/subfind_pgadget3.py:342-352", "python/virgo/formats/subfind_lgadget3.py:207-217", "python/virgo/formats/subfind_lgadget2.py:259-279"]}
{"id": "C62", "title": "The P-Gadget3 group table check accepts exactly the consistent tables", "statement": "GroupTabFile.sanity_check accepts exactly if all bytes are used, the mass test holds, each group's length is the sum of its lengths by type and, when the file has more than one id, the groups' ranges follow one another.", "quantifier": "all group tables", "why_tests_cant": "iff over all tables", "anchors": ["python/virgo/formats/subfind_pgadget3.py:112-136"]}
{"id": "C63", "title": "An interrupted hashing run can be resumed", "statement": "At every moment the database holds, for this base directory and hash type, at most one row per path and only right hashes; at the end it has a row for every readable file to be hashed and keeps all rows it started from when resuming. Stopping a run anywhere and resuming it gives the same file of hashes and a complete database. Resuming from an empty database raises; a run that does not resume deletes the rows of all other directory trees too.", "quantifier": "all trees, schedules, numbers of ranks and points of interruption", "why_tests_cant": "points of interruption and schedules are unbounded", "anchors": ["consistency_check/hash/hash_dirs_mpi.py:38-91", "consistency_check/hash/hash_dirs_mpi.py:157-227"]}
{"id": "C64", "title": "read_dhalo_trees concatenates the tree files", "statement": "read_dhalo_trees returns for each dataset of the first file the concatenation, in file order, of that dataset over the numberOfFiles files that contain it; a dataset that is only in a later file is a KeyError.", "quantifier": "all sets of tree files", "why_tests_cant": "any number of files and any pattern of datasets", "anchors": ["python/virgo/database/make_dtrees_table.py:read_dhalo_trees"]}
{"id": "C65", "title": "The C Peano-Hilbert functions agree with the python ones", "statement": "For 1 to 10 bits peano_hilbert_key_ of peano_keys.c returns the key which peano_hilbert_keys returns, and any sequence of calls of peano_hilbert_key_inverse_ returns the coordinates of peano_hilbert_key_inverses, with no shift or sum leaving the int range and no array accessed outside its bounds; from 11 bits on the key is the same when it fits into an int and undefined otherwise, and the inverse is always undefined.", "quantifier": "all bits, coordinates, keys and call sequences", "why_tests_cant": "2^30 cells for 10 bits; undefined behaviour may go unnoticed in a test", "anchors": ["examples/millennium/fortran/peano_keys.c:peano_hilbert_key_", "examples/millennium/fortran/peano_keys.c:peano_hilbert_key_inverse_", "python/virgo/util/peano.py:peano_hilbert_keys"]}
{"id": "C66", "title": "sort_index of the Fortran examples sorts", "statement": "sort_index fills the first size(arr) elements of idx with the one-based indexes 1..size(arr), each once, such that arr(idx(1)) <= arr(idx(2)) <= ...; the shell sort (fewer than 100 elements) and the heap sort both end and access no array outside its bounds; elements of idx after size(arr) are left alone for 0 or 1 elements and incremented otherwise; an index array which is too small stops the program.", "quantifier": "all arrays of any ordered element type, all index arrays, any rounding of inc/2.2", "why_tests_cant": "any length and order of elements", "anchors": ["examples/millennium/fortran/sort.f90:sort_index_real4", "examples/millennium/fortran/sort.f90:sort_index_integer8"]}
{"id": "C67", "title": "readparticles.c reads exactly the asked particles and the hash table", "statement": "For a snapshot file in the L-Gadget2 format, of either byte order and compiled with -DBYTESWAP exactly if the machine has the other byte order, readpartcoords, readpartvel and readpartids return the coordinates, velocities and ids of particles ifirst to ilast (counted from 1) and readhash returns the first and last hash cell, the hash table and the number of particles. From 67108855 particles in a file on, the byte offsets do not fit in an int and readhash is undefined.", "quantifier": "all contents of a snapshot file, both byte orders, all ranges of particles", "why_tests_cant": "any file contents and ranges; a file above the limit has 2 GB", "anchors": ["examples/millennium/fortran/readparticles.c:readpartcoords_", "examples/millennium/fortran/readparticles.c:readpartvel_", "examples/millennium/fortran/readparticles.c:readpartids_", "examples/millennium/fortran/readparticles.c:readhash_"]}
{"id": "C68", "title": "readregion returns the particles of the flagged cells", "statement": "If the files of a snapshot hold the hash cells 0..nhash-1 one file after the other, readregion returns exactly the particles of the flagged hash cells, in file order, with coordinates, velocities and ids in step and npart their number; these are the particles which the python method Snapshot.read_cells returns for the same cells. No array is accessed outside its bounds. If no flagged cell has a particle, a file which is not open is closed.", "quantifier": "all snapshots of any number of files and cells, all sets of flagged cells", "why_tests_cant": "any pattern of flagged cells, empty cells and file boundaries", "anchors": ["examples/millennium/fortran/readregion.f90:readregion"]}
{"id": "C69", "title": "The group programs write every member of every group with its own coordinates", "statement": "readfofgroupsexample and readgroupsexample: if every id of the group file has a particle in the hash cell of its key (top 30 bits), the output has one line for every member of every group (or subhalo), in the order of the groups and their ids, with the label of the group and the coordinates of a particle with that id (low 34 bits); with unique ids that is the particle of the cell of the key. If an id has no particle the program stops before writing. No array is accessed outside of its bounds as long as the keys are below the size of the hash table.", "quantifier": "all snapshots of any number of files and cells, all lists of group ids, all lists of group lengths and offsets within the ids", "why_tests_cant": "any order and multiplicity of ids, any distribution of them over cells and files", "anchors": ["examples/millennium/fortran/readfofgroupsexample.f90:readfofgroups", "examples/millennium/fortran/readgroupsexample.f90:readgroups"]}
{"id": "C70", "title": "The Fortran catalogue readers return every number of group and subhalo files", "statement": "readgrouptab, readgroupids, readsubids, readsubtab and readsubhalos, given a file in the L-Gadget2 format with any number of groups, ids and subhalos whose size fits a default integer, return the header and every array of the file in order (32 and 64 bit integers as signed numbers, reals unchanged); readsubhalosexample writes one line per subhalo and one per halo with subhalos. A file which ends early is an error. From 2 GB on the record length overflows.", "quantifier": "all catalogues, both byte orders, any bytes after the arrays", "why_tests_cant": "any numbers of groups and subhalos, any values, any point of truncation", "anchors": ["examples/millennium/fortran/readgroups.f90:readgrouptab", "examples/millennium/fortran/readgroups.f90:readsubhalos", "examples/millennium/fortran/readsubhalosexample.f90:readsubhalosexample"]}
{"id": "C71", "title": "The Fortran snapshot reader returns the whole file", "statement": "readheader and readfile, given a Millennium snapshot file with records below 2 GB and arrays which are large enough, return every header field, the positions, velocities and ids of all particles in order and the hash table; readfileexample writes the id and position of particles 0, 10, 20, ... A file cut at any byte is an error. Larger records or smaller arrays are not handled.", "quantifier": "all snapshot files, both byte orders, any bytes after the records, any cut", "why_tests_cant": "any number of particles and cells, any values, any point of truncation", "anchors": ["examples/millennium/fortran/readfile.f90:readheader", "examples/millennium/fortran/readfile.f90:readfile", "examples/millennium/fortran/readfileexample.f90:readfileexample"]}
{"id": "C72", "title": "The Fortran program for a volume writes exactly the particles inside it", "statement": "readregionexample, given the limits of a volume in x, y and z, writes the positions of exactly the particles inside it, each once, in the order of the snapshot files, if any hash cell between the corners of the volume has a particle; the velocities and ids stay in step. If those cells are empty the program fails. It cannot handle more than 2^30 hash cells.", "quantifier": "all snapshots of 8^b hash cells (b from 1 to 10) in any number of files, both byte orders, all volumes, all comparisons of REALs and all monotone functions giving the cell of a coordinate", "why_tests_cant": "any number of files, cells and particles, any volume; single precision rounding of the cell boundaries", "anchors": ["examples/millennium/fortran/readregionexample.f90:readregionexample", "examples/millennium/fortran/readregion.f90:readregion"]}
{"id": "C73", "title": "write_hdf5 copies everything below the first level of a binary file", "statement": "After BinaryFile.write_hdf5 the HDF5 file has every group, dataset, and attribute of a group or dataset of the binary file under the same path, with the type, shape and data that are read from the binary file, and nothing else except what was in the file before (modes a, r+). It succeeds exactly if all of it can be read and stored by HDF5; mode w- does not touch an existing file. The attributes of the file itself are not written, and datasets without elements cannot be written with compression.", "quantifier": "all sequences of operations that describe a binary file, all contents, all gzip levels, modes and existing HDF5 files", "why_tests_cant": "any nesting of groups, any names, any data, shapes and byte orders", "anchors": ["python/virgo/util/read_binary.py:BinaryGroup.write_hdf5"]}
{"id": "C74", "title": "GroupCatalogue returns the arrays of all the files one after another", "statement": "If the files of a P-Gadget3 or Gadget-4 group catalogue hold well-formed tables (in either byte order) and the first says how many files there are, GroupCatalogue(basedir, isnap, datasets) maps exactly the requested names, in order, to the rows of file 0, file 1, ... of that array, with the shape (total number of rows, shape of a row). The default list of datasets consists of names that exist, and has all the arrays of groups and subhalos. A Gadget-4 catalogue in which no file has a row of a requested array raises ValueError.", "quantifier": "all numbers of files, all catalogue contents, both byte orders of machine and of each file, all id and float sizes, all lists of distinct array names", "why_tests_cant": "unbounded files, groups and values, with files without groups or subhalos in any position", "anchors": ["python/virgo/formats/subfind_pgadget3.py:GroupCatalogue", "python/virgo/formats/subfind_gadget4.py:GroupCatalogue"]}
{"id": "C75", "title": "GroupOrderedSnapshot returns the particles of a group from the bytes of the files", "statement": "If the files of a group catalogue and of a group-ordered snapshot are well-formed (in either byte order, each file on its own) and their headers give the right numbers of files, GroupOrderedSnapshot(...) can be made and, after any sequence of earlier calls, read_fof_group and read_subfind_group (P-Gadget3) return exactly the rows offset..offset+length of the particles of all the snapshot files one after another; read_fof_group (Gadget-4) returns for each particle type the rows of that group with the subhalo of each particle, except that the last particle may be missing as in C45. With no groups or no subhalos in any file the Gadget-4 constructor raises ValueError.", "quantifier": "all catalogues, snapshots, numbers of files, byte orders, sequences of earlier calls, groups", "why_tests_cant": "groups across any number of files with any counts, files without particles, all byte orders, all call histories", "anchors": ["python/virgo/formats/subfind_pgadget3.py:GroupOrderedSnapshot", "python/virgo/formats/subfind_gadget4.py:GroupOrderedSnapshot", "python/virgo/formats/gadget_snapshot.py:open"]}
{"id": "C76", "title": "MultiFile reads and writes whole sets of datasets with their attributes", "statement": "The set of files of a MultiFile is the list of names given, or the pattern with the indexes given or counted in the first file. read gives every named dataset of the group (root or nested) on all ranks as in C24, None where no file has it, as a dict with exactly the names asked for, as a list in the order asked for, or as the single array; every rank gets the attributes of the first of its own files that has the dataset (of the first file overall if it has none). Writing the datasets read with the counts of one of them (or of any dataset with equal counts), in any mode, to a pattern or list of new names and any group, leaves every file that is not written unchanged, and in each written file adds the group and exactly these datasets with the rows of the matching input file and the attributes given; everything else in the file is unchanged. Reading the result with any number of ranks gives the same rows.", "quantifier": "all numbers of ranks and files, all names and groups, all contents of one type and shape per name, all attributes, all modes", "why_tests_cant": "The result depends on how ranks and files are assigned to each other, on which files lack a dataset or a group, and on what else is in the output files: the combinations cannot be enumerated.", "anchors": ["python/virgo/mpi/parallel_hdf5.py:83-94", "python/virgo/mpi/parallel_hdf5.py:315-381", "python/virgo/mpi/parallel_hdf5.py:543-633", "python/virgo/mpi/parallel_hdf5.py:635-689", "python/virgo/mpi/parallel_hdf5.py:691-790"]}
{"id": "C77", "title": "Readers of arrays of structures give every member of every structure", "statement": "For any list of members whose numbers have power of two sizes, the aligned numpy type puts the members where a C compiler puts them. A Rockstar file (any revision, with or without galaxies), a VELOCIraptor file (any number of property names, with or without the FOF columns) or a merger tree file (4 or 8 byte ids, with or without the mass table) in the byte order of the machine opens; the header, counts and ids read back; for every member name the column holds that member of every structure, whatever is in the padding, and any other name is a ValueError; all bytes are used iff nothing follows. Rockstar's sanity_check accepts exactly the files whose halos have all their particles among the ids, if no sum overflows. The MXXL descendant file and field file (the latter only in the other byte order) open and read back; its SubTabFile never opens.", "quantifier": "all headers, numbers of halos, trees and ids, all contents of structures and padding, both byte orders of the machine, all bytes after the data", "why_tests_cant": "The position of each of up to 49 members depends on alignment rules, revision and options; only a proof covers all values, paddings and counts.", "anchors": ["python/virgo/formats/rockstar.py:18-125", "python/virgo/formats/velociraptor.py:17-86", "python/virgo/formats/mpa_trees.py:62-114", "python/virgo/sims/mxxl.py:20-76"]}
{"id": "C78", "title": "The Millennium Snapshot class reads exactly the particles of the requested cells and misses none of a region", "statement": "For a set of Millennium snapshot files (bytes, any byte order of each) with any cells: the constructor finds the least grid with room for the hash table. After any sequence of method calls with any outcomes, read_cells gives exactly the particles of the requested cells (negative cells counting from the end) in the order of the files; ValueError if no file has such a cell, IndexError for a cell outside of the table. read_region, where numpy accepts floats as dimensions, gives exactly the particles in the cells between the two corners of the periodic grid, ValueError if there are none, IndexError if such a cell is not in the table; if each particle is in the hash cell of its position and the cell coordinate does not decrease with the position (true of the double precision expression) then no particle of the region is missing. With numpy 1.12 or newer read_region is always a TypeError.", "quantifier": "all snapshots, numbers of files, hash tables, byte orders, sequences of earlier calls, keys and corners", "why_tests_cant": "The hash table is cached between calls and combined with the space filling curve and wrap-around; tests see single regions of one snapshot.", "anchors": ["python/virgo/formats/subfind_lgadget2.py:412-535"]}
{"id": "C79", "title": "The checks for missing files report exactly the incomplete outputs", "statement": "check_dir returns True exactly if the first file of the output can be read, says there are n >= 0 files, and all n names are in the listing of the directory (for Eagle: of the only directory of the base directory with the right name and any redshift), and prints the number of distinct files present of n, or that there are none. A run of either program prints one line for each output of each snapshot in order, and its summary lists each type of output with an incomplete one exactly once, with the number of incomplete ones and the number of snapshots. The cache of redshifts in the names does not change any result. check_eagle_run stops only with an error other than IOError of reading the attribute. For P-Gadget3 catalogues the number of files is NTask in the bytes of the first file, in any byte order.", "quantifier": "all file systems, directories, names, numbers of files and snapshots, first snapshots and steps, earlier checks", "why_tests_cant": "Completeness is about all file numbers and all directory listings; tests have a few directories.", "anchors": ["consistency_check/p-gadget3/check_pgadget3_file_presence.py:14-110", "consistency_check/eagle/check_eagle_file_presence.py:13-140"]}
{"id": "C80", "title": "The names of Millennium files are distinct and agree between Python and Fortran", "statement": "For non-negative snapshot and file numbers cosma_file_path() gives /milliMM/dSS/<type>/<name>_SSS.N with MM = (ifile+3*(63-isnap)) mod 14, and two files of any type, snapshot and number never get the same path. For snapshots up to 99 and files up to 999 the Fortran filepath() gives the same path below /data, padded with blanks, as long as ifile+3*(63-isnap) is not negative; another type stops the program. Snapshot.open_file() opens basedir/snapdir_SSS/basename_SSS.N, different for different names, snapshots or files, or the cosma path.", "quantifier": "all file types, snapshot numbers and file numbers; all directory and base names", "why_tests_cant": "unbounded numbers of snapshots and files, pairs of arguments", "anchors": ["python/virgo/formats/subfind_lgadget2.py:12-24,445-454", "examples/millennium/fortran/file_path.f90:5-62"]}
{"id": "C81", "title": "The key of a coordinate is that of the cell which contains it", "statement": "For positions in [0, boxsize] held as float32 or float64 and a box size of the same type, peano_hilbert_keys_from_coords() gives every particle a key in [0, 8^bits) whose inverse is the cell containing the particle: i*boxsize/2^bits*(1-2^-p) <= x < (i+1)*boxsize/2^bits with p the precision of the type, i < 2^bits if x < boxsize, taken periodically.", "quantifier": "all floating point positions and box sizes, all bits from 1 to 21, any number of particles", "why_tests_cant": "all floating point numbers, including those next to the cell boundaries", "anchors": ["python/virgo/util/peano.py:143-170"]}
{"id": "C82", "title": "compress_dcpl enables chunks and filters and keeps the other properties", "statement": "For a dataset with elements and HDF5 from 1.12.0 on, compress_dcpl() returns the caller's property list with shuffle and deflate appended to the filters if they were asked for; if that is the case and the list is not chunked already then it is chunked with min(rows, chunk) rows (8388608 by default) and full other dimensions. All other properties are unchanged, and the whole list if nothing was asked for or HDF5 is older. Chunk sizes below 1 and levels outside 0 to 9 raise errors. For a dataset without elements None is returned.", "quantifier": "all property lists, shapes, options and versions", "why_tests_cant": "all shapes, options and library versions", "anchors": ["python/virgo/mpi/parallel_hdf5.py:33-80"]}
{"id": "C83", "title": "What the sanity check of a Millennium snapshot file does", "statement": "SnapshotFile.sanity_check() refuses every file in which a position, velocity or id test fails, with the number of particles as numpy computes it. It gives the particles of the i-th block of the hash table the key first_hash_cell+i. A file with particles which passes the tests is not accepted: the check stops with a TypeError (float bits). Only files without particles are accepted.", "quantifier": "all headers, ids and hash tables", "why_tests_cant": "all files", "anchors": ["python/virgo/formats/subfind_lgadget2.py:341-409", "python/virgo/util/peano.py:188-189"]}
{"id": "C84", "title": "Group catalogues read by the C library for IDL", "statement": "get_total_number_of_groups and get_minimum_group_len return what is in the header of group_tab file 0. get_group_catalogue returns each group of each file once, with its file and its number in the file, ordered from the largest to the smallest, for any correct qsort, and leaves the rest of the caller's arrays unchanged. get_groupcount_below_minimum_len returns the sums over the files of the counts of each size and of the ids. If the first file is missing all return -1 and change nothing; if a later file is missing the last two return -1.", "quantifier": "all sets of group_tab files, either byte order, any qsort", "why_tests_cant": "all numbers of files and groups, all file contents and all orders of groups of equal size", "anchors": ["examples/millennium/idl/IdlGroupLib/groupstuff.c:57-310"]}
{"id": "C85", "title": "Hash table read by the C library for IDL", "statement": "get_hash_table_size returns the numbers of files and hash cells in the header of snapshot file 0. get_hash_table returns 0 and fills, for each hash cell, the number of its first particle in its file and the number of its file, and for each file its last cell and its number of particles, leaving the rest of the caller's arrays unchanged. If a file is missing both return -1. get_particles_in_cubes returns the number of particles in each of nfiles blocks of nhash/nfiles consecutive cells, which are all particles if nfiles divides nhash.", "quantifier": "all sets of snapshot files whose cells cover the hash cells, either byte order", "why_tests_cant": "all numbers of files, cells and particles, all file contents", "anchors": ["examples/millennium/idl/IdlGroupLib/groupstuff.c:313-482"]}
{"id": "C86", "title": "Positions of the particles of a group from the C library for IDL", "statement": "get_group_coordinates finds the particles of the given group of a group catalogue file by the hash keys and ids in the group_ids file, and returns 0, their positions in the order of their ids relative to the centre of mass in the periodic box (each is an image of the original position, their sum is zero, all are the images nearest to the first particle), and the centre within the box. The box size is the one in the snapshot header, the table of files is restored and the rest of the position array is unchanged. If a file of the catalogue is missing it returns -1 and changes nothing.", "quantifier": "all snapshots and group catalogues, either byte order, any correct qsort, exact arithmetic for the positions", "why_tests_cant": "all numbers of files, cells, particles and groups, all ids and positions, any order in which qsort leaves equal elements", "anchors": ["examples/millennium/idl/IdlGroupLib/groupstuff.c:487-782"]}
{"id": "C87", "title": "Particles in a spherical region from the C library for IDL", "statement": "With 8^b hash cells (b from 1 to 10), a centre in the box and a radius which with one more cell is less than half of the box, get_spherical_region_count and get_spherical_region_coordinates take all the particles of the same set of hash cells, each cell once. Every particle within the radius of the centre in the periodic box is among them and none is further than the radius plus two cells on any axis. The first returns their number and the box size, the second returns 0, the position of each relative to the centre as the smallest periodic difference, and the box size, and leaves the rest of the position array unchanged. If the first file of the snapshot is missing both return -1 and change nothing.", "quantifier": "all snapshots with up to 8^10 hash cells in any number of files, all positions, centres and radii, either byte order, exact arithmetic for the positions", "why_tests_cant": "all numbers of cells and files, all centres and radii including those whose region crosses the sides of the box", "anchors": ["examples/millennium/idl/IdlGroupLib/groupstuff.c:780-1200"]}
{"id": "C88", "title": "File handles of the HDF5 wrapper for Fortran", "statement": "After any sequence of calls of the wrapper, hdf5_open_file and hdf5_create_file return the lowest of the handles 1 to 1000 which is not in use, and end the program exactly if no handle is free or the file cannot be opened or created. hdf5_close_file succeeds exactly on handles in use. hdf5_get_file_id gives the HDF5 identifier of the file the handle was given out for. Calls through a handle which is not in use change no file, and apart from hdf5_create_group (and hdf5_get_file_id before any file was opened) end the program. Through a handle opened for reading only, the routines which write end the program and change nothing. A call through a handle changes no other file, and only the routines which write change its file.", "quantifier": "all sequences of calls of the wrapper with all arguments, all contents of files", "why_tests_cant": "the state is carried over any number of calls, with up to 1000 files open", "anchors": ["fortran/hdf5_wrapper/src/hdf5_wrapper.F90:290-494", "fortran/hdf5_wrapper/src/hdf5_wrapper.F90:996-1011"]}
{"id": "C89", "title": "Reading datasets with the HDF5 wrapper for Fortran", "statement": "After any sequence of calls of the wrapper which does not overwrite datasets of the file last read from, hdf5_read_data returns in the array the elements of the part of the dataset the start and count arguments ask for (or of all of it) as the file holds them at that time: each element of the part goes to the element of the array with the same coordinates along the dimensions above 1, strings filled up with blanks, and all other elements of the array are left as they were. It ends the program exactly if there is no such dataset, it has another type or size of numbers or longer strings, start or count are missing or too short, the part does not fit the array, or the part is not in the dataset. No file changes, and nothing outside the array is written.", "quantifier": "all sequences of calls without overwriting while reading, all files, names of up to 1000 characters, ranks, sizes, parts and arrays with elements", "why_tests_cant": "The routine keeps the last dataset open between calls and matches dimensions after dropping those of 1, so a wrong result needs a particular earlier call or combination of ranks and sizes.", "anchors": ["fortran/hdf5_wrapper/src/read_dataset.inc:1-245"]}
{"id": "C90", "title": "Creating groups with the HDF5 wrapper for Fortran", "statement": "After any sequence of calls of the wrapper, hdf5_create_group adds to the file an empty group for each part of the path where there is nothing yet. All objects which were in the file, with their contents and attributes, stay as they were, nothing else is added, and no other file changes. It ends the program exactly if a part of the path leads to a dataset, and has then added the groups before that part.", "quantifier": "all sequences of calls, all files in which an object has one path, all paths of up to 10 groups and 255 characters", "why_tests_cant": "The routine goes through the path and ignores errors of the library at each part; a wrong result needs a particular mixture of parts which exist, do not exist, or are datasets.", "anchors": ["fortran/hdf5_wrapper/src/hdf5_wrapper.F90:724-804"]}
{"id": "C91", "title": "Writing new datasets with the HDF5 wrapper for Fortran", "statement": "After any sequence of calls of the wrapper, hdf5_write_data to a name without a dataset, or with overwrite=.true., leaves at that name a dataset without attributes which has the type of the array and the dimensions initial_size, start and count ask for (those of the array without them), holds each element of the array in the part asked for at the same coordinates along the dimensions above 1 and zeros elsewhere, and has no upper limit on its dimensions exactly if extensible is passed. Groups on the way which do not exist are added; every other object of the file keeps its contents and attributes, and no other file changes. The program is ended exactly if both compressions are asked for, start, count or initial_size are incomplete or too short, HDF5 cannot store the dataset that way, the array does not hold the part, the part is not in the dataset, a dataset is on the way, or a group has the name; every object other than the one at the name then still stays as it was. What has been written can be read back.", "quantifier": "all sequences of calls, all files in which an object has one path, all options and arrays with elements of up to 7 dimensions (integers up to 6), paths of up to 11 parts and 255 characters", "why_tests_cant": "The outcome depends on eight optional arguments together with ranks, sizes, and what is in the file along the path.", "anchors": ["fortran/hdf5_wrapper/src/write_dataset.inc:1-244", "fortran/hdf5_wrapper/src/write_dataset.inc:305-424"]}
{"id": "C92", "title": "Writing parts of datasets with the HDF5 wrapper for Fortran", "statement": "After any sequence of calls of the wrapper, hdf5_write_data to a dataset which exists, without overwrite=.true., puts the elements of the array into the part of the dataset start and count give, each at the same coordinates along the dimensions above 1. If the part goes beyond the dataset, the dataset is extended just as far as needed, with zeros where nothing is written. All other elements, the type and the attributes of the dataset, all other objects in the file and all other files stay as they are. The program is ended exactly if start and count are missing or too short, start is below 1, the type differs or strings are too long, the array does not hold the part, or the dataset cannot be extended that far; no element and nothing else in the file is then lost.", "quantifier": "all sequences of calls, all files in which an object has one path, all datasets, parts and arrays with elements", "why_tests_cant": "Extending moves the elements in storage and the selection drops dimensions of 1; wrong results need particular ranks and sizes.", "anchors": ["fortran/hdf5_wrapper/src/write_dataset.inc:245-424"]}
{"id": "C93", "title": "Writing attributes with the HDF5 wrapper for Fortran", "statement": "After any sequence of calls of the wrapper, hdf5_write_attribute gives the object named before the last slash an attribute of that name with the type, the dimensions and the elements of the array. Its other attributes, every other object in the file and all other files stay as they are. The program is ended exactly if there is no such object, or the attribute exists and overwrite=.true. is not passed; then nothing in any file changes.", "quantifier": "all sequences of calls, all files in which an object has one path, all arrays, all names of objects up to 255 characters and of attributes up to 256", "why_tests_cant": "The routine deletes before it creates and tries the object as a dataset and as a group; what may be lost depends on everything else in the file.", "anchors": ["fortran/hdf5_wrapper/src/write_attribute.inc:1-140"]}
{"id": "C94", "title": "Reading attributes with the HDF5 wrapper for Fortran", "statement": "After any sequence of calls of the wrapper, hdf5_read_attribute puts the elements of the attribute in storage order at the start of the array, converted to the type of the array, and leaves the rest of the array, all files and the state of the wrapper as they are, provided that the array has at least as many elements. The program is ended exactly if there is no such attribute or it cannot be converted. What hdf5_write_attribute has written is read back.", "quantifier": "all sequences of calls, all files, all arrays with room for the attribute", "why_tests_cant": "Needs all combinations of types, sizes and places in the file.", "anchors": ["fortran/hdf5_wrapper/src/read_attribute.inc:1-117"]}
{"id": "C95", "title": "Dimensions and types with the HDF5 wrapper for Fortran", "statement": "After any sequence of calls of the wrapper, hdf5_get_dimensions gives the rank and the dimensions, and hdf5_get_type the class and size, of the dataset of that name, or of the attribute of that name if there is no such dataset. They end the program exactly if there is neither. No file and no part of the state changes. Dimensions are given if there are at most ten and all are below 2^31.", "quantifier": "all sequences of calls, all files, all names", "why_tests_cant": "The name can mean a dataset or an attribute; which one depends on what is in the file.", "anchors": ["fortran/hdf5_wrapper/src/hdf5_wrapper.F90:497-589", "fortran/hdf5_wrapper/src/hdf5_wrapper.F90:592-690"]}
{"id": "C96", "title": "Listing objects with the HDF5 wrapper for Fortran", "statement": "After any sequence of calls of the wrapper, hdf5_list_datasets, hdf5_list_groups and hdf5_list_attributes give the number of datasets or groups in a group, or of attributes of a group or dataset, and put the name of each once at the start of the array, cut at the length of its elements; the rest of the array, all files and the state of the wrapper stay as they are. The program is ended exactly if there is no such group (or dataset), provided that the array has room for all names.", "quantifier": "all sequences of calls, all files, all arrays with room for the names", "why_tests_cant": "Objects of different kinds are mixed in the numbering HDF5 gives them; miscounting needs particular mixtures.", "anchors": ["fortran/hdf5_wrapper/src/hdf5_wrapper.F90:806-989"]}
{"id": "C97", "title": "The particles of a FoF group of the Millennium simulation", "statement": "plot_fof_group.py finds, from the bytes of a group_tab file, a sub_ids file and the snapshot files (any byte order of each), the positions and velocities of particles with the ids of the group, in the order of the ids and from the hash cells of the ids; with distinct ids in the snapshot these are the members of the group. An id which no particle in these cells has raises an exception, as do keys outside the hash table and groups without particles. check_units.py for the same simulation keeps the right particle id exactly for ids below 2^30.", "quantifier": "all group, id and snapshot files, all groups, any result np.argsort may give for equal values", "why_tests_cant": "The combination of file formats, hash cells, bit fields and matching needs files of the real simulation; ids above 2^30 occur only in the full simulation.", "anchors": ["examples/millennium/python/plot_fof_group.py:12-61", "examples/millennium/python/check_units.py:64", "python/virgo/sims/millennium.py"]}
{"id": "C98", "title": "Means and angular momenta of subhalos from the particles of Millennium-2", "statement": "check_units.py gives for every subhalo up to the last one with particles the mean velocity, a periodic image of the mean position and the mean angular momentum of the particles with its ids, if the subhalo is smaller than half the box: the result is that for any choice of periodic images which keeps the subhalo together. It does not depend on the order of equal values in np.argsort, nor on the second factor sqrt(a) in the mean velocity which is subtracted. Catalogues without particles raise ValueError. Subhalos without particles at the end are left out, and ids which are not in the snapshot go unnoticed.", "quantifier": "all particles, ids, subhalo ranges, box sizes and expansion factors (exact arithmetic); any valid np.argsort", "why_tests_cant": "Independence of the choice of images and of unstable sorting, and the cancellation of the wrong factor, concern all subhalos; single files show only rounded agreement.", "anchors": ["examples/millennium2/python/check_units.py:43-88", "python/virgo/util/ranges.py", "python/virgo/util/match.py"]}
{"id": "C99", "title": "Reading snapshots of the Millennium-2 simulation", "statement": "The C, Fortran and IDL readers give position, velocity and id of every particle of a snapshot file with particles of type 1, in the order of the file; the Fortran reader also gives the box size and the 64 bit number of particles from its two halves. The C reader stops if the header is not in a record of 256 bytes, so for files of the other byte order. The Fortran and IDL readers stop at a file which is cut off anywhere, and at positions of 2 GB or more; the IDL reader at files without particles. The C reader does not notice a file which is cut off, and with particles of type 0 in the file none of the readers gives those of type 1.", "quantifier": "all header values, particle data, byte orders, lengths to which the file is cut, contents of uninitialised memory", "why_tests_cant": "Cut off files, sizes near 2 GB, high words of the particle number and contents of uninitialised memory do not occur with the example file.", "anchors": ["examples/millennium2/c/read_mill2_snapshot_file.c:55-103", "examples/millennium2/fortran/read_m2_snapshot_file.f90:47-80", "examples/millennium2/idl/read_mill2_snapshot.pro:12-28"]}
{"id": "C100", "title": "The IDL programs for single files of the Millennium simulation find the right files and read what is in them", "statement": "For a directory without blanks and a snapshot number up to 999 the names which the programs build are those of the group_tab, sub_tab, potential, snapshot, tree and treeaux files. ReadSubHalos.pro, ReadTree.pro, Read_TreeAux.pro and ReadSingle.pro leave in their variables exactly the numbers in the file, integers with their sign, and stop with an input/output error exactly if the file is shorter than what they read, whatever follows. ReadTree.pro gives the trees of all 512 files in order, and fails if one is missing. ReadGroups.pro always stops with an error. Names with blanks, four digit numbers and trees without halos do not work.", "quantifier": "all directories, snapshot and file numbers, contents of catalogues, trees and snapshots, byte orders and places where a file is cut off", "why_tests_cant": "There are unboundedly many contents and lengths of files, and the data and IDL are not at hand.", "anchors": ["examples/millennium/idl/ReadGroups.pro:8-37", "examples/millennium/idl/ReadSubHalos.pro:8-81", "examples/millennium/idl/ReadTree.pro:5-58", "examples/millennium/idl/Read_TreeAux.pro:10-56", "examples/millennium/idl/ReadSingle.pro:10-40"]}
{"id": "C101", "title": "The IDL programs for several files of the Millennium simulation put their contents together in the right order", "statement": "ReadMulti_xyz.pro leaves in Pos the positions of the particles of all files in order of their numbers, followed by zeros for particles which the header of the first file counts but which are in no file, and stops with an error if there are more particles than counted, or if a file is missing, cut off before the end of the positions, or has no particles. ReadPotential.pro, for files which have each plane of the grid once, in any order, leaves an array of grid cubed numbers whose element (x, y, z) is the potential there; it reads files until as many planes as the grid has were read, and a file which is missing, cut off or without planes before that is an error.", "quantifier": "all directories and snapshot numbers, numbers of files (up to 32768), contents of files, sizes of the grid, distributions of its planes over files, byte orders, and places where files are cut off", "why_tests_cant": "Numbers of files, particles and planes and their distribution are unbounded; the data and IDL are not at hand.", "anchors": ["examples/millennium/idl/ReadMulti_xyz.pro:13-60", "examples/millennium/idl/ReadPotential.pro:8-42"]}
{"id": "C102", "title": "compute_rvmax.py finds the maximum of the circular velocity, whatever the order of particles at equal radius", "statement": "For positions in a periodic box, with distances from the centre of the subhalo taken to the nearest image, the script prints the largest value of the circular velocity profile over the particles of the subhalo and the smallest radius, in physical units, at which it is reached. The profile at a radius has the number of particles within it less one; particles at the centre have velocity zero. The result does not depend on how argsort orders particles at equal radius. Without particles in the subhalo a ValueError is raised.", "quantifier": "all positions, subhalo numbers, centres, box sizes, masses, redshifts and sorting functions", "why_tests_cant": "The order of ties and the positions are unbounded, and the catalogues of the simulation are not at hand.", "anchors": ["examples/millennium2/python/compute_rvmax.py:34-71"]}
{"id": "C103", "title": "The readers in four languages for a snapshot file of the Millennium-WMAP7 simulation give the particles of the file", "statement": "For a snapshot file with n particles of type 1, read_mr7_snapshot_file.f90 writes one line for each particle, in order, with its position, velocity and identifier as stored, whatever was in memory, and changes no file. The C program writes the same lines if 3*n is below 2^31; above that its behaviour is undefined. For other datasets the Fortran program either finds that they have the expected types and fit the count in the header, or is ended; it never touches memory outside its arrays. The scripts in python and IDL leave the same positions, velocities and identifiers in arrays indexed pos[i,c] and pos[c,i], for any number of particles, and the arrays are the datasets as stored whatever the header says; without the file they stop with an error. Not claimed, because false: that the C program is safe if a file has more particles than the header says; that nothing but the file's contents is written if it has fewer; that a file without particles of type 1 is handled.", "quantifier": "every file, number of particles, contents of new memory, conversion of types by HDF5, and prior state of the disk", "why_tests_cant": "Tests use small files whose header agrees with the datasets; overflow needs more than 715 million particles, and reading stale memory shows only sometimes.", "anchors": ["examples/millennium-wmap7/fortran/read_mr7_snapshot_file.f90:1-46", "examples/millennium-wmap7/c/read_mr7_snapshot_file.c:12-91", "fortran/hdf5_wrapper/src/read_dataset.inc", "fortran/hdf5_wrapper/src/read_attribute.inc", "examples/millennium-wmap7/python/read_mr7_snapshot_file.py:11-30", "examples/millennium-wmap7/idl/read_mr7_snapshot_file.pro:2-54"]}
{"id": "C104", "title": "A job whose function has the decorator mpi_errchk ends when a rank fails", "statement": "If the function returns on every rank, the decorated function returns the same values. If on some rank it raises an Exception or a KeyboardInterrupt which can be printed, before or between collective operations, every execution of the job ends with MPI_Abort after a bounded number of steps, and no rank is left waiting in a collective operation. Not claimed, because false: that this holds for SystemExit, or for exceptions whose str() fails; and without the decorator the other ranks hang.", "quantifier": "every number of ranks, every function (any sequence of collective operations depending on what was received), every point of failure, every execution", "why_tests_cant": "A hang shows only when one rank fails while others wait, in a parallel run; a test cannot cover all points of failure and all executions.", "anchors": ["python/virgo/mpi/errchk.py:6-23"]}
{"id": "C105", "title": "The IDL programs for groups show all groups with their lengths, ranks and particles", "statement": "For a complete group catalogue with at least one group show_massfunc plots one point per group of all files: its length and its rank among all groups. get_groupcount_below_minlength adds, for each size from 1 to below the minimum size (at least 3), the number of groups with at least this size, and prints the number of particles in all groups. getcubes prints for each file the number of particles in its equal part of the hash cells, for up to 512 files. show_group shows of the groups number 2 to 5 from the largest the length, the centre in the periodic box and the positions of exactly its particles around it. No groups, fewer than six groups for show_group, or a missing catalogue file end in an error. Not claimed, because false: that a minimum size of 1 or 2 or more than 512 files work, or that getcubes notices a missing snapshot file.", "quantifier": "every catalogue and snapshot, any number of files and groups, either byte order, every implementation of qsort, any memory limit below 2^32-1 elements", "why_tests_cant": "The programs need IDL and the data of the simulation; errors show only for particular minimum sizes, numbers of files or missing files.", "anchors": ["examples/millennium/idl/IdlGroupLib/show_massfunc.pro:8-50", "examples/millennium/idl/IdlGroupLib/get_groupcount_below_minlength.pro:8-93", "examples/millennium/idl/IdlGroupLib/getcubes.pro:8-70", "examples/millennium/idl/IdlGroupLib/show_group.pro:8-119"]}
{"id": "C106", "title": "The IDL programs for profiles show the particles around the centre of a group", "statement": "show_profile ends, and plots one point for each particle of the largest group: its distance from the centre found by shrinking spheres, in the periodic box, and the number of particles up to this distance. plot_profile_vmax ends, and plots this for all particles of the snapshot, in the group or not, inside the sphere around each of the nine largest groups, if the sphere has its centre in the box and is smaller than half of it. The centre and radius are determined by the particles of the group. R200 of plot_profile_dens is the largest radius with the wanted mean density, and an error if there is none. Not claimed, because false: that plot_profile_vmax works for groups of one particle, or for spheres with the centre outside of the box, or that the counts in bins of plot_profile_dens are the numbers of particles (bin k has k too many).", "quantifier": "every snapshot and catalogue with distinct ids, any number of files and groups, either byte order, every implementation of qsort; groups with fewer than 15 or 25 particles at the same place", "why_tests_cant": "The programs need IDL and the data of the simulation; that the shrinking spheres come to an end, and which particles of the periodic box are missed, depends on the positions of all particles.", "anchors": ["examples/millennium/idl/IdlGroupLib/show_profile.pro:7-146", "examples/millennium/idl/IdlGroupLib/plot_profile_vmax.pro:8-225", "examples/millennium/idl/IdlGroupLib/plot_profile_dens.pro:245-276"]}
{"id": "C107", "title": "PlotSpectrum shows the modes of the power spectrum in bands", "statement": "For tables with fewer than 32768 rows PlotSpectrum ends, and shows one point for each band of rows, where bands follow each other, have at least the wanted number of modes and width in log k, and are as small as possible: k of the row in the middle, the mean power of all modes times the factors of this row. Points with 0.01 <= k < 5 are from the second table and those with 5 <= k <= 200 from the first. The linear spectrum has the rows with positive power divided by the square of the growth factor, and one more point on the line through the last two. All modes are in one of the bands or in the rows which remain at the end; if k increases so do the points, and there are not more bands than wanted. PlotCorrel shows all rows. Not claimed, because false: that the modes at the end are shown, that a first table shorter than the second works, or that the program ends for 32768 rows or more.", "quantifier": "every pair of tables, every number of rows, every minimum number of modes and number of bins, every logarithm", "why_tests_cant": "Which rows make up a band depends on all rows before; the errors are silent and show only for particular lengths of the tables.", "anchors": ["examples/millennium/idl/PlotSpectrum.pro:43-339", "examples/millennium/idl/PlotCorrel.pro:2-17"]}
{"id": "C108", "title": "SWIFT snapshots and SOAP catalogues are opened with the units of the file", "statement": "SwiftSnapshot and SOAPCatalogue make a table of units from the metadata of the file which has the snapshot and code units, a, h, swift_mpc, swift_msun and newton_G with exactly the values given by the attributes, besides those of unyt; get_unit finds them from any group. There is a table exactly if all attributes of the groups are single numbers and none of those used is absent (else KeyError). Every dataset of the file is read with the declared powers of these units and with the declared value in physical CGS, without a further factor if that is the product of the powers. The keyword mode chooses the kind of units and never reaches h5py.File; any other word for it makes all datasets unreadable (ValueError).", "quantifier": "all files, attributes, paths in the file, tables of unyt, arguments", "why_tests_cant": "all combinations of attributes and exponents with exact real arithmetic; tests use one snapshot", "anchors": ["python/virgo/formats/swift.py", "python/virgo/formats/soap.py"]}
{"id": "C109", "title": "check_units.py of the Millennium gives every subhalo of every file the angular momentum of its own particles", "statement": "For a catalogue in any number of files, with subhalos in order in the ids of their own file and hash keys in the upper bits of the ids, the mean velocity, mean position (up to the period) and angular momentum at the number of a subhalo among those of all files are those of the particles with the ids its own file has for it, if ids are below 2^30 and the subhalo is smaller than half the box; the arrays end with the last subhalo with particles; with no particles in subhalos there is ValueError. From 2^30 on another particle may be taken without an error.", "quantifier": "all numbers of files, subhalos and particles, orders of particles in the snapshot, hash keys, argsort results, exact rational positions and velocities", "why_tests_cant": "offsets within files against numbers through all files, any catalogue and any unstable argsort", "anchors": ["examples/millennium/python/check_units.py"]}
{"id": "C110", "title": "plot_profile_dens.pro: densities of shells and the NFW fit", "statement": "The 25 bins are the shells between 0.001*5000^(k/25); the density of shell k is that of k + n particles, where n are in it (it should be n). The fit uses the shells with density over 20 critical densities and radius over 0.0025 a, at the geometric mean of their limits. It gives amplitude and scale radius exactly if 201 repetitions, from 0.01 on, of the least squares amplitude and of Newton's method for the zero of the derivative of the misfit by the scale radius (dS and ddS are the first and second derivative) end, and these are the result; it is positive. Densities of an NFW profile at two radii determine its parameters, where the fit stays. With a single bin the scale radius is always 0.01. The fit need not end: the scale radius may become negative. R200 is the largest radius of a particle in the sphere up to which the mean density is 200 critical densities or more (without one there is an error), and M200 is the mass of that density in it. The whole program shows for the groups number 100 to 108 (by length) R200, M200, densities and fit for all particles of the snapshot in the sphere of the group, whenever it ends, and it ends if the fits do.", "quantifier": "all radii of particles, masses, expansion factors, densities; all snapshots and catalogues in any number of files; exact real arithmetic", "why_tests_cant": "derivatives and minimality are statements about all real parameters; non-termination cannot be tested", "anchors": ["examples/millennium/idl/IdlGroupLib/plot_profile_dens.pro"]}
{"id": "C111", "title": "read_subhalo_catalogue.py prints each subhalo of the snapshot once, in order", "statement": "If the files sub_tab_063.0 ... sub_tab_063.511 of the Millennium contain subhalo catalogues, each in either byte order, read_subhalo_catalogue.py prints the heading and then one line for each subhalo of each file, files and subhalos in order: the number of its group, its number of particles, its position and its velocity, separated by commas, and ends without error. If a file is missing the lines of the files before it are printed and IOError is raised; whatever the other files contain, the output starts with the lines of the files before them; and no file is ever listed in part: whatever the files contain, the output consists of as many lines for each of the first files as its header says, and ends after the last file or with an error at the next one.", "quantifier": "for all catalogues, byte orders of each file and of the machine, numbers of files, snapshot numbers of up to three digits and ways of showing a floating point number", "why_tests_cant": "the program reads 512 files of a data set which is not in the repository; there are no tests", "anchors": ["examples/millennium/python/read_subhalo_catalogue.py:10-35", "python/virgo/sims/millennium.py:31-36", "python/virgo/formats/subfind_lgadget2.py:127-184"]}
{"id": "C112", "title": "read_region.py gives all particles of its region", "statement": "If the files of snapshot 63 of the Millennium under /virgo/data/Millennium/ hold all hash cells and each particle is in the hash cell of its position, and numpy is older than 1.12, read_region.py gives positions, velocities and ids in the same order of particles of the snapshot, each in a cell from that of 10 to that of 20 along each side, among them every particle with all coordinates between 10 and 20, with the arithmetic of double precision. Without the first file it ends with IOError. Not claimed, because false: that it works with numpy 1.12 or newer (TypeError).", "quantifier": "every snapshot with 8^b hash cells (1<=b<=10) in any number of files, byte order, box size and contents of the files", "why_tests_cant": "Whether a particle at the edge of a cell is lost depends on rounding; tests have few particles, none of which may be near the edges.", "anchors": ["examples/millennium/python/read_region.py:11-22", "python/virgo/sims/millennium.py:54-59", "python/virgo/formats/subfind_lgadget2.py:410-475"]}
{"id": "C113", "title": "The test program test_extend.f90 leaves in its file what its comments say", "statement": "Run in a program which has not used the wrapper before, no call of test_extend.f90 is ended; afterwards test2.hdf5 has the datasets idata, rdata1, rdata2, rdata3, strdata, Array2D and itest with the dimensions and every element as described by the comments (parts written in turn, rows, overwritten parts, elements never written), whatever the file contained before; other files are unchanged and the file is closed.", "quantifier": "every representation of numbers as bytes, every former content of the file and of the other files (the file listed first on the disk)", "why_tests_cant": "The program only writes; nothing in the repository compares the file with what is expected.", "anchors": ["fortran/hdf5_wrapper/test/test_extend.f90:20-92", "fortran/hdf5_wrapper/src/write_dataset.inc"]}
