# Formal model of the VirgoDC python package: design

Everything here is about the sources in `/repo` at the pinned commit, read as
text. Nothing from `/repo` is built or run. The model is written in Coq 8.16.1
(`/verif/rocq`, logical path `Verif`).

## Layout

* `rocq/theories/Base`   general vocabulary: `Prelude.v` (exceptions as values,
  python slices, cumulative sums, numpy primitives), `Order.v` (total orders,
  stable sorting).
* `rocq/theories/<Topic>/XModel.v`  the model of the code, function by function,
  each definition citing file and lines.
* `rocq/theories/<Topic>/XSpec.v`   the specification vocabulary used by the
  statements: written without reference to the model.
* `rocq/theories/<Topic>/XProofs.v` lemmas.
* `rocq/theories/<Topic>/XProps.v`  only the property theorems, each closed by
  `exact`, with `Print Assumptions` and `Example`s exhibiting a concrete case.
* `MANIFEST.json` maps properties (`properties.jsonl`) to theorems.
* `seeded/LOG.jsonl` records the mutation experiments.

## Modelling conventions

* **Exceptions** are values: `res A := Ok a | Err e` where `e` is the python
  exception class. Non-termination is an explicit fuel-exhaustion error
  `Err EFuel` that the theorems exclude by exhibiting sufficient fuel.
* **Arrays** are lists. An n-d array whose first axis is distributed is a list of
  rows; where the code flattens rows before communicating, the model flattens.
* **numpy primitives** (`cumsum`, `searchsorted`, `argsort(kind='mergesort')`,
  `repeat`, `add.reduceat`, boolean masks, fancy indexing) are modelled by
  reference definitions; they are part of the trusted base. `np.argsort` with
  the default (unstable) kind is *not* given a definition: theorems quantify
  over every function that returns a sorting permutation.
* **Element types**: sorting code is generic in a total order record `TOrd A`.
  Floating point NaN is outside the model (comparison is a total order).
* **Integers** are unbounded `Z` except where a property is about machine words
  (byte order detection, byte swapping), where words are explicit byte lists.
* **SPMD programs.** The MPI code is bulk synchronous: between collectives each
  rank runs deterministic local code. A distributed value is a list indexed by
  rank; `allgather`, `alltoall`, `allreduce`, `Split` are functions on such lists.
  `my_alltoallv`, which is written with point-to-point messages, is given an
  operational semantics (every interleaving) and proved equal to its
  bulk-synchronous meaning, which is then used by the other routines.
* **MPI, h5py, mmap** themselves are trusted: matching and non-overtaking of
  messages, collectives being barriers with their documented results, an HDF5
  dataset being an array.

## Trusted base

1. The Coq 8.16.1 kernel (and `coqchk`).
2. What `Print Assumptions` prints below each theorem (see *Assumptions* below).
3. The correspondence between the model and the python text, by citation.
4. The reference definitions of numpy/MPI/h5py primitives listed above.

## Assumptions

`Print Assumptions` says *Closed under the global context* for every theorem of
`MANIFEST.json` except the following, which depend on the axioms with which the
standard library constructs the real numbers
(`ClassicalDedekindReals.sig_not_dec`, `ClassicalDedekindReals.sig_forall_dec`,
`FunctionalExtensionality.functional_extensionality_dep`) and, through the theory of
`Rpower`, on `Classical_Prop.classic`:
`C53_soap`, `C53_soap_defined`, `C53_soap_missing`, `C53_swiftsimio`,
`C53_swiftsimio_refused`, `C53_read`, all C108 and C110 theorems but `C110_fit_none`, `C110_header` and `C110_header_refuted` (their statements are about real numbers); and `C72_single`, `C78_double`, the three C112 theorems and the three C81 theorems, which use Flocq's rounding to
single and double precision (no axiom beyond the same four). The four C102 theorems are about real
numbers and use the first three of them.

No axiom, parameter or admitted proof is added here. Oracles (the hash function,
`fnmatch`, `argparse`, `format()` of values, unstable sorts, what is in a file) are
arguments of the model functions, so the theorems hold for all of them.

## What is modelled

| code (under `/repo/python/virgo` unless stated) | model | properties |
|----|----|----|
| `mpi/parallel_sort.py` `my_alltoallv`, `sendrecv` | `Mpi/AlltoallvModel.v` (operational: every interleaving of unbuffered `Sendrecv`s; every delivery order of the asynchronous variant), `Mpi/CommModel.v` (bulk synchronous meaning) | C01-C04 |
| `mpi/parallel_sort.py` `repartition`, `fetch_elements` | `Psort/MoveModel.v` | C05, C06 |
| `mpi/parallel_sort.py` `weighted_median`, `find_splitting_points`, `parallel_sort` | `Psort/SplitModel.v`, `Psort/SortModel.v` | C07-C10 |
| `mpi/parallel_sort.py` `parallel_match`, `parallel_unique`, `reduce_elements`, `parallel_bincount` | `Psort/MatchModel.v`, `UniqueModel.v`, `ReduceModel.v` | C11-C14 |
| `mpi/merger_tree.py` | `Tree/MergerModel.v` | C15, C16 |
| `mpi/util.py` | `Mpi/GroupIndexModel.v`, `Mpi/UtilModel.v` | C17, C18, C20, C57 |
| `mpi/gather_array.py` | `Mpi/GatherModel.v` | C19 |
| `mpi/errchk.py` | `Mpi/ErrchkModel.v` (every execution of a job of several ranks) | C104 |
| `mpi/parallel_hdf5.py` `assign_files`, `collective_read`, `collective_write`, `MultiFile`, `substitute_file_nr` | `Phdf5/*Model.v`, `Text/FileNrModel.v` | C21-C25, C51, C76 |
| `util/match.py`, `util/ranges.py`, `util/peano.py` | `Util/*Model.v`, `Peano/PeanoModel.v` | C26-C31 |
| `util/read_binary.py` | `Binary/BinModel.v`, `Binary/CacheModel.v`, `Binary/Hdf5Model.v` (`write_hdf5`) | C32-C39, C58, C73 |
| `formats/gadget_snapshot.py`, `subfind_lgadget2.py`, `subfind_lgadget3.py`, `subfind_pgadget3.py`, `subfind_gadget4.py`, `mpa_trees.py`: constructors | `Formats/ReaderModel.v` | C40-C42 |
| the same: `read_cells`, `read_particle_range`, `read_fof_group`, `read_subfind_group` | `Snap/ReadModel.v` | C43-C45 |
| the same: `sanity_check` | `Snap/SanityModel.v` | C55, C59-C62 |
| `database/index_trees.py` | `Index/IndexModel.v` | C46-C48 |
| `database/make_dtrees_table.py` | `Sql/SqlModel.v`, `Sql/TreesModel.v` | C54, C64 |
| `util/partial_formatter.py`, `util/read_multi.py`, `sims/eagle.py` | `Text/FmtModel.v`, `Multi/MultiModel.v`, `Text/EagleModel.v` | C50, C52, C56 |
| `formats/subfind_pgadget3.py`, `formats/subfind_gadget4.py` `GroupCatalogue` | `Multi/GroupCatModel.v` | C74 |
| `formats/subfind_pgadget3.py`, `formats/subfind_gadget4.py` `GroupOrderedSnapshot.__init__`, `formats/gadget_snapshot.py` `open` | `Snap/OrderedModel.v` | C75 |
| `formats/subfind_lgadget2.py` `Snapshot` | `Snap/MillModel.v` (the cell coordinates of the corners are arguments; `C78_double` says the expression for them is monotone in double precision) | C78 |
| `formats/rockstar.py`, `formats/velociraptor.py`, `formats/mpa_trees.py` `TreeFile`, `sims/mxxl.py` | `Formats/StructModel.v` | C77 |
| `formats/swift.py` | `Swift/SwiftModel.v` | C53 |
| `formats/swift.py` `soap_unit_registry_from_snapshot`, `swiftsimio_units`, `swiftsimio_cosmology`, `SwiftFile`, `SwiftSnapshot`, `get_unit`, `formats/soap.py` | `Swift/OpenModel.v` | C108 |
| `/repo/consistency_check/hash/hash_dirs_mpi.py` | `Hash/HashModel.v` | C49, C63 |
| `formats/subfind_lgadget2.py` `cosma_file_path`, `Snapshot.open_file`, `examples/millennium/fortran/file_path.f90` | `Text/PathModel.v` | C80 |
| `util/peano.py` `peano_hilbert_keys_from_coords` | `Peano/CoordsModel.v` (rounding by Flocq, no overflow) | C81 |
| `mpi/parallel_hdf5.py` `compress_dcpl` | `Phdf5/DcplModel.v` (property lists as records) | C82 |
| `formats/subfind_lgadget2.py` `SnapshotFile.sanity_check` | `Snap/SnapCheckModel.v` (the tests on floating point arrays are arguments) | C83 |
| `/repo/consistency_check/p-gadget3/check_pgadget3_file_presence.py`, `/repo/consistency_check/eagle/check_eagle_file_presence.py` | `Text/PresenceModel.v` | C79 |
| `/repo/examples/millennium/fortran/peano_keys.c` | `Peano/CPeanoModel.v` | C65 |
| `/repo/examples/millennium/fortran/sort.f90` `sort_index` | `Fortran/SortModel.v` | C66 |
| `/repo/examples/millennium/fortran/readparticles.c`, `readregion.f90` | `Fortran/RegionModel.v` | C67, C68 |
| `/repo/examples/millennium/fortran/readfofgroupsexample.f90`, `readgroupsexample.f90` | `Fortran/FofModel.v` | C69 |
| `/repo/examples/millennium/fortran/readgroups.f90`, `readsubhalosexample.f90` | `Fortran/GroupTabModel.v` | C70 |
| `/repo/examples/millennium/fortran/readfile.f90`, `readfileexample.f90` | `Fortran/GroupTabModel.v` | C71 |
| `/repo/examples/millennium/fortran/readregionexample.f90` | `Fortran/VolumeModel.v` (comparison of REALs and the cell of a coordinate are arguments; `C72_single` says the latter is monotone in single precision) | C72 |
| `/repo/examples/millennium/idl/IdlGroupLib/groupstuff.c` | `Idl/LibModel.v` (the whole file) | C84, C85, C86, C87 |
| `show_massfunc.pro`, `get_groupcount_below_minlength.pro`, `getcubes.pro`, `show_group.pro` in the same directory | `Idl/ProgModel.v` (whole programs, up to the plots) | C105 |
| `show_profile.pro`, `plot_profile_vmax.pro`, and of `plot_profile_dens.pro` R200 and the numbers in bins, in the same directory | `Idl/ProfModel.v` (up to the plots) | C106 |
| `plot_profile_dens.pro` lines 45-47 and 262-330: densities and the NFW fit | `Idl/NfwModel.v` (real numbers; NaN and infinite values are one value) | C110 |
| `plot_profile_dens.pro` lines 15-42 and 50-337: the header, R200, M200 and the loop over groups | `Idl/DensModel.v` (plots are their data) | C110 |
| `examples/millennium/python/read_subhalo_catalogue.py` (python 2), with `sims/millennium.py` SubTabFile | `Script/SubListModel.v` (on `Formats/ReaderModel.v`; `%14.6f` is an oracle on the bit pattern) | C111 |
| `/repo/fortran/hdf5_wrapper/src` | `H5w/H5wModel.v` (all routines; the HDF5 library below them is a model of its own in the same file) | C88–C96 |
| `/repo/examples/millennium/python/plot_fof_group.py`, `check_units.py` line 64, `sims/millennium.py` | `Script/FofPlotModel.v` | C97 |
| `/repo/examples/millennium2/python/check_units.py` lines 43-88 | `Script/CheckUnitsModel.v` | C98 |
| `/repo/examples/millennium/python/check_units.py` lines 31-105 | `Script/MillUnitsModel.v` | C109 |
| `/repo/examples/millennium2/c/read_mill2_snapshot_file.c`, `fortran/read_m2_snapshot_file.f90`, `idl/read_mill2_snapshot.pro` | `Mill2/SnapModel.v` | C99 |
| `/repo/examples/millennium/idl/{ReadGroups,ReadSubHalos,ReadTree,Read_TreeAux,ReadSingle}.pro` | `Pro/ProModel.v` | C100 |
| `/repo/examples/millennium/idl/{PlotSpectrum,PlotCorrel}.pro` | `Pro/PowerModel.v` (whole programs, up to the plots) | C107 |
| `/repo/examples/millennium/idl/{ReadMulti_xyz,ReadPotential}.pro` | `Pro/MultiModel.v` | C101 |
| `/repo/fortran/hdf5_wrapper/test/test_extend.f90` | `H5w/TestExtendModel.v` (its calls, run by `H5w/H5wModel.v`; numbers are bytes given by any function; its file exists and is the first on the disk) | C113 |
| `/repo/examples/millennium/python/read_region.py`, and the names of files in `Snapshot.open_file` | `Snap/RegionPyModel.v` (on top of `Snap/MillModel.v`; cell coordinates by rounding of real numbers to double precision) | C112 |
| `/repo/examples/millennium2/python/compute_rvmax.py` (lines 34-71) | `Script/RvmaxModel.v` | C102 |
| `/repo/examples/millennium-wmap7/fortran/read_mr7_snapshot_file.f90`, `/repo/examples/millennium-wmap7/c/read_mr7_snapshot_file.c` | `Mr7/Mr7Model.v` (on top of `H5w/H5wModel.v`) | C103 |
| `/repo/examples/millennium-wmap7/python/read_mr7_snapshot_file.py`, `/repo/examples/millennium-wmap7/idl/read_mr7_snapshot_file.pro` | `Mr7/Mr7PyModel.v` (h5py and the HDF5 routines of IDL as look-ups in the file of `H5w/H5wModel.v`) | C103 |

Simplifications, by topic (the header and comments of each model file give them
next to the definitions):

* Errchk (C104): what a function does on one rank is a tree of collective operations; point to point messages are
  left out; a rank whose exception nobody catches takes part in no further operation.
* **Mpi, Psort, Tree, Phdf5**: MPI itself and HDF5 storage are trusted. Overflow of
  integer types is left out (except the 100 MB chunk computation, which is exact).
  Weights in `weighted_median` are exact rationals. `parallel_bincount` adds exactly.
* **Multi/GroupCatModel**: files are given by number, not by name; numbers under one name
  have one type in all files.
* **Phdf5/MultiModel**: one dataset name in one group; attributes are left out.
* **Peano**: int32/int64 wrap-around is modelled; the conversion of floating point
  coordinates to grid positions is not.
* **Binary, Formats**: numbers are bit patterns. The `mmap` system call is
  not modelled; the contents of a file do not change while it is open. A structured numpy
  type is a list of members; a number is aligned to its size. Members are looked up in the
  type which the constructor uses (`column` takes it as an argument).
* **Snap**: outcomes of tests on floating point columns are arguments. In `MillModel.v` files
  are given by number, and opened before the cells are read.
* **Index**: masses are exact integers where they are added; otherwise any total order.
* **Hash**: a directory tree that does not change; SQLite commits are atomic; the hash
  function and `fnmatch` are arbitrary.
* **Text**: the programs which check for missing files are python 2 programs; the order of
  the lines of their summary is not specified. 8 bit characters; python's own format string parser is modelled from CPython.
* **Swift**: units are computed with real numbers, without rounding. In the table of units (C108) a unit is a number times
  powers of cm, g, s, K, rad and A; unyt's own table is any table without the names which are defined (`fresh`), and
  swiftsimio's units and cosmology are any functions of the attributes of the groups copied. That unyt keeps unit systems
  by name, so that the last file opened replaces `snap_units`, is left out.
* **Fortran** (C and Fortran examples): C `int` overflow is undefined behaviour and an error
  value (`EAbort`); Fortran integers are unbounded except for the bit operations on ids;
  an access outside of an array is `EIndex`, `STOP` is `ERuntime`. One model stands for the
  ten copies of `sort_index` for different types. The real arithmetic which gives the next
  increment of the shell sort is an arbitrary function `shrink` with `1 <= shrink inc < inc`.
  The names of files, `ASSOCIATED` tests and messages are left out. Record lengths and
  numbers of hash cells in `readgroups.f90` and `readfile.f90` are 32 bit. Unformatted records have 4 byte
  markers without subrecords, and a record with a negative marker is an error; REALs are
  bit patterns; output is a list of numbers, without its format and the factor 1e10 of masses.

* Prof (C106): as Prog (C105). Numbers are exact and radii are given by their squares; the radius which is
  passed to the library is `root` of its square, any function which is at least the square root. `steps` bounds
  the number of shrinking spheres, and the theorems say that there is a bound. `r(ind)` for `ind = -1`
  is an error, as it was up to IDL 7. The header in `plot_profile_dens.pro` is read with the model of F77_UNFORMATTED files of `Pro/ProModel.v`.
* Prog (C105): a program is a function of the variables set in its first lines, and its result what it
  plots and prints at its end; what was plotted before an error is left out, and so are the axes. IDL has no
  arrays of length 0, and a subscript out of range which is a single number is an error. `limit` is the
  largest array for which there is memory. Totals of type DOUBLE are exact. `snap_files` etc. are those of
  C84-C86; the double slash in the names of files is part of the directory.
* Idl (`groupstuff.c`): `fopen` is a function from names to contents, `qsort` an arbitrary
  function which sorts, a read past the end of a file an error; reading or writing outside an
  array is an error; the arithmetic with floats is exact; printed messages are left out.

* H5w (`hdf5_wrapper`): the routines run on a model of the part of HDF5 they call (files with
  groups, datasets and attributes, identifiers of open files, selections and transfers),
  which is part of the trusted base. A call returns, ends the program (`hdf5_abort`) or touches
  memory outside of a variable (`Wild`). Conversion between numeric types by HDF5 is an argument.
  Messages are left out; writes reach the file at once.

* Mr7 (C103): lines of output are the bytes of the numbers, not their printed form; memory suffices; new memory has
  any contents; the HDF5 Lite routines copy all elements of an attribute or dataset to the buffer they are given.
  For the scripts in python and IDL the result is the box size and number printed and the three arrays left in
  variables; elements keep the type of the file.
* Script (C97, C98, C102): numpy.argsort is any function which gives a sorting permutation. C98 has exact
  rational arithmetic, and any number in place of sqrt(a); C102 has real numbers. Arrays are read already.

* Mill2 (C99): `fread` copies the bytes which are there and leaves the rest of the memory, whose
  contents are arbitrary; Fortran and IDL reads are those of `Fortran/GroupTabModel.v`. Numbers are
  written without their format; opening files and arguments are left out.

* Pro (C100, C101): the result of an IDL program are the variables it leaves behind, printing and plots are
  left out. `string(n)` pads 16 bit integers to 8 characters; arrays without elements are an error;
  `readu` takes the bytes which follow, in the byte order of the machine. Whether large arrays fit
  in memory is left out. Loop variables have 16 bits; other sums are exact. `read_potential` has a bound
  on the number of files read, and the theorems are for every bound which is large enough.

* Power (C107): a text file is a list of lines with numbers; `readf` takes whole lines. Numbers are exact; `alog`,
  `alog10`, `exp` and IDL's `interpol` are arguments of the model (what is needed of them is a hypothesis of the
  theorems). INT has 16 bits. Subscripts out of range are moved to the ends if they are an array, and an error if they
  are one number. Whether arrays fit in memory is left out, and so are labels, axes and the logarithm of y.

Floating point: masses, weights and sums are modelled exactly (integers or
rationals) unless stated; rounding and NaN are outside the model.

Not modelled: the other files in `examples/` (`read_group_m200.pro` and `read_sub_tree.pro`, which call procedures
that do not exist, the example scripts which only plot, makefiles and job scripts), the
`unyt`/`astropy`/`swiftsimio` libraries, `h5py` storage, the argparse grammar,
the other wrappers in `sims/`. Of the scripts for the Millennium simulation
`plot_fof_group.py` is modelled up to the plot itself. `check_units.py` of the Millennium is modelled for any number
of files (the script has 8), with the arrays of the files as read, unbounded subhalo
numbers in place of int32, and `np` and `sqrt` as if they were imported.

## Findings

Statements that turned out to be false of the code. Each has a theorem (named) with a
concrete witness, or was noticed while writing the model (last list).

Parallel code
* `my_alltoallv` with an item size above 100 MB computes zero rows per chunk and loops
  for ever (`C02_zero_chunk_diverges`).
* `fetch_elements` accepts negative indexes and returns wrong values (`C06_negative_index_refuted`).
* `group_index_from_length_and_offset` needs sorted offsets (`C17_unsorted_refuted`).
* `mpi_errchk` lets SystemExit through, and an exception whose `str` fails, and then the other ranks hang
  (`C104_exit_refuted`, `C104_str_refuted`).
* `parse_args` hangs on all other ranks when rank 0 exits through `--help` (`C57_help_refuted`).
* `assign_files` is uneven for 11 files on 4 ranks (`C21_even_refuted`).
* `collective_read`/`collective_write` fail if one row is larger than the buffer (C22, C23).
* `MultiFile` (interface): the keys of the dict of file numbers depend on the number of
  ranks (`C76_file_nr_keys_refuted`); the file numbers of one dataset asked for under
  another name are a KeyError (`C76_file_nr_missing`); an array of one row that is
  shorter than `elements_per_file` says is repeated without an error
  (`C76_short_refuted`).
* `MultiFile`: files with mixed byte orders can be read or not depending on the number
  of ranks; repeated file indexes lose rows on writing; a dataset absent from every file
  cannot be written (C24, C25).
* `assign_ranges` does not check a single range (C27).
* Peano-Hilbert keys collide with 22 bits (`C29_22_bits_refuted`).

Binary files
* Structured types are never byte swapped; attributes of datasets keep the byte order
  they were created with; `toggle_byteswap` changes only future blocks; a Fortran record
  opened with an explicit byte order leaves older blocks as they are; an empty record
  is not noticed (C33-C35).
* The default mode of `write_binary` (`"wb-"`) always raises ValueError (`C58_default_refuted`).
* `write_hdf5` does not write the attributes of the file itself (`C73_root_refuted`) and fails
  for datasets without elements unless `gzip=0` (`C73_empty_refuted`).
* Gadget snapshots: the 64 spare bytes of the header are not covered by a block, so
  `all_bytes_used` is False and `hash` always raises.
* 65536 files are taken for the other byte order (`C41_limit_refuted`).
* L-Gadget2 `GroupIDsFile` always raises KeyError (`C42_group_ids_refuted`); the MPA
  readers do not test the byte order (`C42_mpa_foreign_refuted`).
* Arrays of structures are not byte swapped, so Rockstar files in the other byte order give
  wrong numbers without an error (`C77_rockstar_foreign_refuted`); Rockstar's `sanity_check` adds
  64 bit integers which can overflow, and then accepts particles that do not exist
  (`C77_rockstar_check_refuted`; negative `num_p` are accepted too). `velociraptor.py` uses
  `np.int`, which was removed from numpy (`C77_velociraptor_refuted`).
* Millennium-XXL: `SubTabFile` passes keyword arguments which do not exist and always raises
  TypeError (`C77_mxxl_sub_tab_refuted`); `FieldFile` compares the length of a record of 20
  bytes to 8, so it takes files in the byte order of the machine for the other one
  (`C77_mxxl_field_refuted`).
* `SnapshotFile.sanity_check` of L-Gadget2 cannot accept a file with particles under
  python 3: `hashbits /= 3` is a float and `7 << shift` a TypeError; with numpy 2 the high
  word of the number of particles is lost, so ids above 2^32 are reported (`C83_particles`,
  `C83_accepts_refuted`).
* `compress_dcpl` returns None for a dataset without elements, so the fill value and other
  properties given by the caller are dropped (`C82_list_refuted`); a scalar dataset with
  compression raises an IndexError (`C82_scalar`).
* With float32 positions and a box size which is not a float32 number a particle in the
  last cell can get the key of the first cell (`C81_float32_refuted`).
* `filepath` of the Fortran examples gives files from number 1000 on the same names (***), and
  asterisks when its MOD is negative (`C80_fortran_distinct_refuted`).
* The checks for missing files accept an output whose first file says that there are no
  files (`C79_ex_pgadget3`); two directories for one snapshot are reported as no files
  (`C79_ex_eagle`), and a file without the attribute stops the check of an Eagle run
  (`C79_eagle_check`).
* `Snapshot.read_region` (`subfind_lgadget2.py`) gives floats to `np.indices`, a TypeError
  since numpy 1.12 (`C78_region_refuted`). With older versions a region with no cells raises
  a ValueError (`C78_region_empty`, `C78_region_none`), and if the size of the hash table is
  not a power of 8 some regions of the box raise an IndexError (`C78_region_outside`).
  So the example `read_region.py` ends with a TypeError (`C112_numpy_refuted`).

Snapshots and catalogues
* `read_cells` raises ValueError if no cell is selected (`C43_none`).
* `read_particle_range`: count 0 raises ValueError, a name given twice doubles the rows,
  `SubOffset+SubLen` overflows int32 (`C44_*_refuted`).
* Gadget4 `read_fof_group` can lose the last particle of a group, or raise ValueError
  from the subhalo numbers (`C45_*_refuted`).
* `sanity_check`: first offset not tested, negative lengths accepted, an empty last
  group refused (`C55_*_refuted`), `FirstSubOfHalo` not tested and int32 overflow hides
  values out of range (`C59_*_refuted`, `C60_overflow_refuted`).

Merger trees and databases
* Progenitor masses are lost if snapshot numbers do not increase along descendants
  (`C47_snapshots_refuted`); a progenitor of mass zero is never chosen (`C48_zero_mass_refuted`).
* Unsupported types are noticed by the SQL writer only after the data file has been
  written (`C54_unsupported_after_writing`); `read_dhalo_trees` returns a shorter column if a
  dataset is missing from a later file (Example of C64).

Text and files
* `hash_dirs_mpi`: resuming from an empty database raises; without resume the rows of
  other trees are deleted too (C63).
* `read_multi`: a name given twice is concatenated twice (`C52_duplicate_name_refuted`); a
  dataset in no file raises ValueError (`C52_missing`).
* `GroupCatalogue` and `GroupOrderedSnapshot` (Gadget-4): a catalogue without any subhalo
  or without any group raises ValueError (`C74_gadget4_empty_refuted`,
  `C75_gadget4_empty_refuted`). Without a theorem: file names are formatted
  twice, so a percent sign in `basedir` is taken for a conversion.
* `eagle_filename`: missing files are not noticed after the first call, differing labels
  of directory and file, final slash (`C56_*_refuted`).
* `PartialFormatter`: doubled braces do not survive two stages, a missing field with a
  conversion is replaced by the representation of an object, `{a.b}` with missing `a`
  raises, a missing key in the specification of a present field raises, values with
  braces are substituted again (`C50_*_refuted`).
* `substitute_file_nr`: a `%` elsewhere in a brace style name, other `{key}`s, `%d` raise
  (`C51_*_refuted`).

C and Fortran examples
* `peano_hilbert_key_inverse` in C is undefined from 11 bits on, keys are undefined from
  2^31 on (C65).
* `sort_index` also increments the elements of `idx` beyond the size of `arr` (C66).
* `readparticles.c` computes file offsets with `int`: undefined from 67108855 particles in
  a file on (`C67_2GB_refuted`).
* `readregion` closes a file which it has not opened if nothing is to be read (C68), so the
  group programs do not handle a group file without particles (`C69_no_groups_refuted`);
  `ncells_read` is printed without having been set.
* `readgroups.f90` overflows the length of the record from 2 GB on (`C70_2GB_refuted`);
  `readfile` cannot read positions of 2 GB or more (`C71_2GB_refuted`) and does not know the
  size of the arrays it fills (`C71_room_refuted`).
* `readregionexample` fails if the cells which meet the volume have no particles
  (`C72_empty_refuted`) and overflows with more than 2^30 hash cells (`C72_large_refuted`).
* `get_groupcount_below_minimum_len` writes past its memory if a later file has a larger
  minimum size of groups than file 0 (`C84_below_refuted`).
* `get_hash_table` refuses a snapshot whose last file has no hash cells
  (`C85_empty_refuted`); `get_particles_in_cubes` leaves out the last cells if the number of
  files does not divide the number of cells (`C85_cubes_refuted`). `get_group_coordinates`
  returns -1 if a snapshot file is missing, but leaves the caller's table of files shifted and
  flagged (`C86_changed_refuted`); if no particle has one of the ids of the group it reads past
  the end of its array of ids (`C86_lost_refuted`). If the radius and one hash cell are half of
  the box or more, `get_spherical_region_count` and `get_spherical_region_coordinates` take
  cells more than once (`C87_twice_refuted`).
* `hdf5_create_file` with 1000 files open empties the file before it ends the program
  (`C88_full`); `hdf5_create_group` does not look whether the file is open, and
  `hdf5_get_file_id` returns a number if no file has been opened (`C88_closed`).
* C89 (`read_dataset.inc`): the routine keeps the last dataset open, so a program which overwrites
  a dataset of the file it last read from and reads it again gets the old contents
  (`C89_overwrite_refuted`; `C89_read` is about programs which do not do that). A dataset of one
  dimension without elements can be written but not read (`C89_empty_refuted`), a dataset of one
  element read into an array without elements is written outside the array
  (`C89_no_room_refuted`), and a dataset of one element cannot be read into a larger array though
  the README file says arrays may be larger (`C89_larger_refuted`). `C89_read` is for parts and
  arrays which have elements.
* C90 (`hdf5_create_group`): a path of more than 10 groups makes the routine write outside its
  table of identifiers (`C90_deep_refuted`), a path with two slashes in a row ends the program
  (`C90_slashes_refuted`), and names are cut at 256 characters (`C90_long_refuted`). `C90_group` is
  for paths within these limits, and for files in which an object has one path.
* C91 (`write_dataset.inc`): a write with `overwrite=.true.` deletes the old dataset and its
  attributes before the arguments are checked, so a refused write loses them
  (`C91_lost_refuted`). `initial_size` larger than the array, without `start` and `count`, ends the
  program and leaves a dataset of zeros, though the README file describes this use
  (`C91_initial_refuted`). Integer arrays of 7 dimensions are written as arrays of 2
  (`C91_seven_refuted`: `NDIMS` is 2 there). `extensible=.false.` makes a dataset which can be
  extended (`C91_extensible_refuted`). With `initial_size` the lengths of `start` and `count` are
  not checked, and `chunk_size` with more than 7 values writes outside a table; `C91_write` excludes both.
* C92 (`write_dataset.inc`): a dataset is extended before the array is found not to fit, so a
  refused write can leave it larger (`C92_larger_refuted`).
* C93, C94 (`write_attribute.inc`, `read_attribute.inc`): an attribute of the root cannot be named
  `/name`, only `//name` (`C93_root_refuted`). Reading an attribute with more elements than the
  array writes behind its end (`C94_overrun_refuted`); one of other dimensions ends up in the wrong
  elements (`C94_dims_refuted`; the README file mentions this).
* C95 (`hdf5_get_dimensions`, `hdf5_get_type`): dimensions of 2^31 and more come back wrong
  (`C95_narrow_refuted`), more than ten dimensions are written outside a table (`C95_rank_refuted`),
  strings are called CHARACTER where the README file says STRING (`C95_string_refuted`), an
  attribute is hidden by a dataset of the same name (`C95_shadow_refuted`), and names of attributes
  are cut at 200 characters here and at 256 elsewhere (`C95_long_refuted`).
* C96 (`hdf5_list_*`): names are written behind the end of an array which is too short for them
  (`C96_short_refuted`).
* C97 (`examples/millennium/python/check_units.py`): the id of a particle is taken from 30 of its 34
  bits, so ids from 2^30 on are wrong (`C97_check_units_refuted`); `C97_check_units` has the exact
  condition. `plot_fof_group.py` raises an exception for a group without particles (`C97_empty`).
* C109 (`examples/millennium/python/check_units.py`): for ids from 2^30 on the position and velocity of
  another particle are used without an error, if the snapshot has one (`C109_large_refuted`).
* C110 (`plot_profile_dens.pro`): the density of shell number k is that of k particles too many
  (`C110_density_refuted`, from `C106_counts_refuted`); the fit may go on for ever with a negative scale
  radius, whose logarithm is NaN (`C110_ends_refuted`); with one bin it returns the 0.01 it started from (`C110_single`);
  blanks are removed from the name of the file with the header, also those of the directory (`C110_header_refuted`).
* C98 (`examples/millennium2/python/check_units.py`): subhalos without particles at the end of the
  catalogue get no result, so the arrays in the plot can differ in length (`C98_length_refuted`);
  an id which is not in the snapshot goes unnoticed and stands for the last particle
  (`C98_missing_refuted`). The mean velocity which line 87 subtracts has a factor sqrt(a) too many;
  `C98_spin` shows that this has no effect.
* The C reader of Millennium-2 snapshots writes uninitialised memory for a file which is cut off
  (`C99_c_short_refuted`). The three readers take all particles to be of type 1: others give wrong
  particles without any message (`C99_fortran_types_refuted`, `C99_c_types_refuted`,
  `C99_idl_types_refuted`). `C99_fortran` and `C99_idl` have positions below 2 GB (`C99_large`).

* C100: `ReadGroups.pro` uses a variable it never sets and always fails (`C100_groups_refuted`). The IDL
  programs take blanks out of the name of the directory too (`C100_blanks_refuted`) and use the last
  three digits of a snapshot number (`C100_thousand_refuted`). `ReadTree.pro` always asks for 512
  files (`C100_few_refuted`) and fails for a tree without halos (`C100_empty_refuted`).

* C101: with the values set in `ReadMulti_xyz.pro` the name of the file is wrong, as `SnapBase` ends in a
  slash (`C101_default_refuted`). A snapshot file without particles stops it, and a potential file without
  planes stops `ReadPotential.pro` (`C101_multi_error`, `C101_potential_error`).

* C103 (`read_mr7_snapshot_file.c`): the C program writes outside its arrays if a file has more particles of type 1
  than its header says (`C103_longer_refuted`), and is undefined from 2^31 coordinates on, 715827883 particles
  (`C103_c_many`), and for names of 500 characters or more (`C103_c_long_name`). Both programs write lines of stale memory if a file has fewer particles than its header says
  (`C103_shorter_refuted`), and are ended for a file without particles of type 1 (`C103_none_refuted`); the scripts in
  python and IDL stop with an error for such a file (`C103_scripts_none_refuted`).
* C102 (`compute_rvmax.py`): the mass within the radius of a particle does not count that particle, so the
  velocity is too small, and zero for a subhalo of one particle (`C102_itself_refuted`). It raises an exception for a subhalo
  without particles (`C102_none`). Its print statements are those of python 2.

* `get_groupcount_below_minlength.pro` stops with an error for a minimum group size of one or two
  (`C105_below_small`); the loop decrements an unsigned number before it is compared with 0.
* `getcubes.pro` has room for 512 files only (`C105_cubes_many`), and since it does not look at the result of
  `get_hash_table` it prints wrong numbers when a file is missing (`C105_cubes_missing_refuted`).
* `plot_profile_vmax.pro` misses particles of a group at the edge of the box when the centre of its sphere is outside
  of the box (`C106_edge_refuted`), and stops for a group whose particles are all at the same distance from the centre
  (`C106_vmax_none`).
* `plot_profile_dens.pro` starts the counts in the bins with `lindgen`, so that bin k has k particles too many
  (`C106_counts`, `C106_counts_refuted`).

* `SwiftSnapshot` and `SOAPCatalogue` convert every attribute of the groups with metadata to one number, so a file in
  which one of them is an array of several numbers (masses of neutrinos, say) cannot be opened though nothing needs it
  (`C108_array_refuted`). They take the keyword `mode` for themselves: contrary to the comment in `SwiftFile` it is not
  handed to `h5py.File`, and with `mode="r"` the file opens but no dataset can be read (`C108_mode_taken`,
  `C108_mode_other`).
* `PlotSpectrum.pro` does not show the rows at the end of a table which do not make up a band (`C107_last_refuted`), uses
  for both tables the number of rows of the second, so that the last row of a shorter first table is counted several
  times (`C107_shorter_refuted`), and never ends for tables of 32768 rows or more (`C107_many`). It misses the last row
  of the linear spectrum if the file does not end with a newline (see `C107_spectrum`).

Noticed, without a theorem: `numpy_type` always raises NameError (`re` is not imported);
the test for a duplicate attribute reads its data; `parallel_bincount` with a small
integer type overflows; `return_file_nr` given as a string is taken as a list of
characters; `Snapshot.read_region` of L-Gadget2 passes floating point dimensions to
`np.indices`; `SubIDsFile` with `id_bytes` other than 4 or 8 raises AttributeError;
P-Gadget3 `GroupTab` offsets are unchecked if there is at most one id; `check_units.py` of the
Millennium simulation uses `np` and `sqrt` without importing them, and takes the last particle for
an id without a match; `compute_rvmax.py` uses the print statement of Python 2;
`PlotSpectrum.pro` assigns to variables named `min` and `max`, which on a second run hide the functions;
`read_sub_tree.pro` prints the most bound id of subhalo `isub` of the file, where the number in the file is `subid[isub]`;
`read_mr7_snapshot_file.py` uses the print statement of Python 2.

## How the theorems were tested

`seeded/LOG.jsonl` lists edits of the model (wrong boundary, missed case, swapped
argument, dropped update), each applied alone to a copy of the sources. The proofs that
no longer compiled were replaced by `Admitted`, and the theorems that then depend on an
admitted lemma are listed as failed.
