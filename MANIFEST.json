{
 "claims": [
  {
   "property": "C01",
   "status": "proved",
   "theorems": [
    "C01_my_alltoallv_delivers",
    "C01_bulk_synchronous_meaning"
   ],
   "note": "Operational model of the default hypercube method; send buffers are immutable in the semantics."
  },
  {
   "property": "C02",
   "status": "proved",
   "theorems": [
    "C02_no_deadlock_and_schedule_independent",
    "C02_zero_chunk_diverges"
   ],
   "note": "Unbuffered (rendezvous) Sendrecv. Second theorem is a finding: item size above 100 MB gives nchunk=0 and an endless loop."
  },
  {
   "property": "C03",
   "status": "proved",
   "theorems": [
    "C03_async_same_result"
   ],
   "note": "Messages delivered in any order."
  },
  {
   "property": "C04",
   "status": "proved",
   "theorems": [
    "C04_sendrecv_swaps"
   ],
   "note": ""
  },
  {
   "property": "C05",
   "status": "proved",
   "theorems": [
    "C05_repartition_preserves",
    "C05_repartition_rows",
    "C05_repartition_wrong_total_aborts"
   ],
   "note": "all rank counts, distributions, row widths"
  },
  {
   "property": "C06",
   "status": "proved",
   "theorems": [
    "C06_fetch_elements_indexes",
    "C06_fetch_elements_rows",
    "C06_fetch_elements_past_end_raises",
    "C06_negative_index_refuted"
   ],
   "note": "exact for indexes in range; past the end raises; negative indexes (outside the claim) give wrong values, recorded as a finding"
  },
  {
   "property": "C07",
   "status": "proved",
   "theorems": [
    "C07_weighted_median"
   ],
   "note": "exact rational weights; the binary64 rounding of the weights is not modelled"
  },
  {
   "property": "C08",
   "status": "proved",
   "theorems": [
    "C08_find_splitting_points"
   ],
   "note": "weights exact; elements in a total order"
  },
  {
   "property": "C09",
   "status": "proved",
   "theorems": [
    "C09_parallel_sort_sorts"
   ],
   "note": ""
  },
  {
   "property": "C10",
   "status": "proved",
   "theorems": [
    "C09_parallel_sort_sorts",
    "C10_sort_index_fetches_sorted"
   ],
   "note": ""
  },
  {
   "property": "C100",
   "status": "proved",
   "theorems": [
    "C100_names",
    "C100_blanks_refuted",
    "C100_thousand_refuted",
    "C100_groups_refuted",
    "C100_sub_halos",
    "C100_tree",
    "C100_all_trees",
    "C100_few_refuted",
    "C100_empty_refuted",
    "C100_aux",
    "C100_single"
   ],
   "note": "Names, contents and errors, for every file and every place where it is cut off; the _refuted theorems are findings."
  },
  {
   "property": "C101",
   "status": "proved",
   "theorems": [
    "C101_multi",
    "C101_multi_error",
    "C101_default_refuted",
    "C101_potential",
    "C101_potential_error"
   ],
   "note": "Both programs for all files; the order of planes over files is arbitrary."
  },
  {
   "property": "C102",
   "status": "proved",
   "theorems": [
    "C102_rvmax",
    "C102_distance",
    "C102_none",
    "C102_itself_refuted"
   ],
   "note": "Real numbers stand for floats; axioms of the real numbers from the standard library."
  },
  {
   "property": "C103",
   "status": "proved",
   "theorems": [
    "C103_fortran",
    "C103_fortran_other",
    "C103_c",
    "C103_c_many",
    "C103_missing",
    "C103_longer_refuted",
    "C103_shorter_refuted",
    "C103_none_refuted",
    "C103_c_long_name",
    "C103_fortran_long_name",
    "C103_python",
    "C103_idl",
    "C103_scripts_whole",
    "C103_scripts_missing",
    "C103_scripts_none_refuted"
   ],
   "note": "The Fortran program is composed of the modelled routines of the HDF5 wrapper (C88, C89, C94); the three _refuted theorems and C103_c_many are findings."
  },
  {
   "property": "C104",
   "status": "proved",
   "theorems": [
    "C104_errchk",
    "C104_plain_refuted",
    "C104_exit_refuted",
    "C104_str_refuted"
   ],
   "note": "Ranks are trees of collective operations; the three _refuted theorems show what the decorator does not cover."
  },
  {
   "property": "C105",
   "status": "proved",
   "theorems": [
    "C105_massfunc",
    "C105_no_groups",
    "C105_missing",
    "C105_missing_later",
    "C105_below",
    "C105_below_small",
    "C105_below_none",
    "C105_cubes",
    "C105_cubes_many",
    "C105_cubes_missing_refuted",
    "C105_group",
    "C105_few_groups"
   ],
   "note": "IDL programs on top of groupstuff.c; findings: minimum group size 1 or 2, more than 512 files, missing snapshot file unnoticed"
  },
  {
   "property": "C106",
   "status": "proved",
   "theorems": [
    "C106_show_profile",
    "C106_vmax",
    "C106_unique",
    "C106_vmax_none",
    "C106_edge_refuted",
    "C106_r200",
    "C106_r200_none",
    "C106_counts",
    "C106_counts_refuted"
   ],
   "note": "Numbers are exact; radii by their squares, the radius passed to the library is any function at least the root. Refuted: spheres with the centre outside of the box, counts in bins."
  },
  {
   "property": "C107",
   "status": "proved",
   "theorems": [
    "C107_spectrum",
    "C107_unique",
    "C107_modes",
    "C107_rising",
    "C107_few",
    "C107_last_refuted",
    "C107_shorter_refuted",
    "C107_many",
    "C107_correl"
   ],
   "note": "Numbers are exact; logarithms, exp and interpol are arguments. Refuted: modes at the end of the table, a shorter first table, 32768 rows or more."
  },
  {
   "property": "C108",
   "status": "proved",
   "theorems": [
    "C108_table",
    "C108_table_defined",
    "C108_array_refuted",
    "C108_open",
    "C108_open_only",
    "C108_open_missing",
    "C108_read",
    "C108_swiftsimio",
    "C108_mode_taken",
    "C108_mode_other",
    "C108_metadata_path",
    "C108_get_unit",
    "C108_attached"
   ],
   "note": "Real arithmetic without rounding; unyt's own table, swiftsimio and h5py are arguments. A file with an array among the attributes cannot be opened (C108_array_refuted)."
  },
  {
   "property": "C109",
   "status": "proved",
   "theorems": [
    "C109_spin",
    "C109_none",
    "C109_large_refuted"
   ],
   "note": "C109_spin and C109_none for ids below 2^30; C109_large_refuted is the finding for larger ids"
  },
  {
   "property": "C11",
   "status": "proved",
   "theorems": [
    "C11_parallel_match"
   ],
   "note": "All communicator sizes, element types with a total order, both values of arr2_sorted (with sortedness required only when the flag is set)."
  },
  {
   "property": "C110",
   "status": "proved",
   "theorems": [
    "C110_density",
    "C110_density_refuted",
    "C110_bins",
    "C110_positive",
    "C110_fit",
    "C110_fit_only",
    "C110_fit_none",
    "C110_drawn",
    "C110_identify",
    "C110_exact",
    "C110_single",
    "C110_ends_refuted",
    "C110_r200",
    "C110_r200_none",
    "C110_shown",
    "C110_shown_only",
    "C110_program",
    "C110_header",
    "C110_header_refuted",
    "C110_all"
   ],
   "note": "real arithmetic without rounding; C110_density_refuted and C110_ends_refuted are findings"
  },
  {
   "property": "C111",
   "status": "proved",
   "theorems": [
    "C111_table",
    "C111_script",
    "C111_lines",
    "C111_missing",
    "C111_prefix",
    "C111_name",
    "C111_whole"
   ],
   "note": "How %14.6f shows a number is an oracle on its bit pattern. Examples: C111_script_case, C111_table_case, C111_missing_hyps, C111_missing_case."
  },
  {
   "property": "C112",
   "status": "proved",
   "theorems": [
    "C112_region",
    "C112_numpy_refuted",
    "C112_missing"
   ],
   "note": "Whole script with numpy before 1.12; the refuted theorem is for numpy 1.12 and newer. Real numbers of the standard library (four axioms) through Flocq."
  },
  {
   "property": "C113",
   "status": "proved",
   "theorems": [
    "C113_test_extend"
   ],
   "note": "One program, for every representation of numbers and every former content of its file and of the other files; the file exists already and is listed first on the disk."
  },
  {
   "property": "C12",
   "status": "proved",
   "theorems": [
    "C12_parallel_unique",
    "C12_options_and_distribution_do_not_matter"
   ],
   "note": "Both flags; also shows the global result does not depend on order, distribution or number of ranks."
  },
  {
   "property": "C13",
   "status": "proved",
   "theorems": [
    "C13_reduce_elements",
    "C13_any_operation",
    "C13_untouched",
    "C13_bad_index",
    "C13_multidimensional"
   ],
   "note": "All sorting permutations, all operations. Finding: the assertion index_recv <= len(arr) is off by one (index N is caught by the IndexError of the update instead)."
  },
  {
   "property": "C14",
   "status": "proved",
   "theorems": [
    "C14_parallel_bincount",
    "C14_supplied_result",
    "C14_negative_entry"
   ],
   "note": "Exact (commutative, associative) addition; integer overflow of the bin type and of x_max+1 not modelled. No data at all gives one bin."
  },
  {
   "property": "C15",
   "status": "proved",
   "theorems": [
    "C15_match_halos"
   ],
   "note": "For every id order; a repeated id of the second catalogue counts with its first occurrence."
  },
  {
   "property": "C16",
   "status": "proved",
   "theorems": [
    "C16_consistent_match"
   ],
   "note": "All distributions; entries below 0 mean no match."
  },
  {
   "property": "C17",
   "status": "proved",
   "theorems": [
    "C17_group_index",
    "C17_unsorted_refuted"
   ],
   "note": "group number of every particle; int32 storage of the result not modelled"
  },
  {
   "property": "C18",
   "status": "proved",
   "theorems": [
    "C17_group_index"
   ],
   "note": "last_group fixes the group and the position in the group together"
  },
  {
   "property": "C19",
   "status": "proved",
   "theorems": [
    "C19_gather_array"
   ],
   "note": "any axis of n-d arrays"
  },
  {
   "property": "C20",
   "status": "proved",
   "theorems": [
    "C20_replace_none",
    "C20_all_none"
   ],
   "note": ""
  },
  {
   "property": "C21",
   "status": "proved",
   "theorems": [
    "C21_assign_files",
    "C21_balanced_iff",
    "C21_few_files",
    "C21_multiple",
    "C21_even_refuted"
   ],
   "note": "evenness characterised exactly; finding: 11 files on 4 ranks uneven"
  },
  {
   "property": "C22",
   "status": "proved",
   "theorems": [
    "C22_collective_read",
    "C22_shares",
    "C22_small_buffer_refuted"
   ],
   "note": ""
  },
  {
   "property": "C23",
   "status": "proved",
   "theorems": [
    "C23_collective_write",
    "C23_mismatch",
    "C23_small_buffer_refuted"
   ],
   "note": ""
  },
  {
   "property": "C24",
   "status": "proved",
   "theorems": [
    "C24_read",
    "C24_absent",
    "C24_byte_order_refuted"
   ],
   "note": "finding: mixed byte orders readable or not depending on the number of ranks"
  },
  {
   "property": "C25",
   "status": "proved",
   "theorems": [
    "C25_round_trip",
    "C25_duplicate_index_refuted",
    "C25_all_absent_refuted"
   ],
   "note": "findings: duplicate file indexes lose rows; dataset absent everywhere cannot be written"
  },
  {
   "property": "C26",
   "status": "proved",
   "theorems": [
    "C26_match",
    "C26_partial_index"
   ],
   "note": "any totally ordered element type without NaN; argsort is any sorting permutation"
  },
  {
   "property": "C27",
   "status": "proved",
   "theorems": [
    "C27_loop",
    "C27_assigned",
    "C27_rejected",
    "C27_single_checked_refuted"
   ],
   "note": "rows of any type; intp overflow not modelled; finding: a single range is not checked (python slice semantics)"
  },
  {
   "property": "C28",
   "status": "proved",
   "theorems": [
    "C28_sum",
    "C28_mean",
    "C28_weighted_sum",
    "C28_weighted_mean"
   ],
   "note": "generic in addition, multiplication and division; sum is np.add.reduceat left to right"
  },
  {
   "property": "C29",
   "status": "proved",
   "theorems": [
    "C29_inverse_of_keys",
    "C29_keys_of_inverse",
    "C29_scalar",
    "C29_injective",
    "C29_22_bits_refuted"
   ],
   "note": "int32/int64 wrap-around modelled; 1 <= bits <= 21; finding: with 22 bits keys collide"
  },
  {
   "property": "C30",
   "status": "proved",
   "theorems": [
    "C30_continuous"
   ],
   "note": "1 <= bits <= 21"
  },
  {
   "property": "C31",
   "status": "proved",
   "theorems": [
    "C31_hierarchy",
    "C31_elementwise",
    "C31_keys_elementwise",
    "C31_inverses_elementwise"
   ],
   "note": "elementwise equality holds for all bits and inputs including errors"
  },
  {
   "property": "C32",
   "status": "proved",
   "theorems": [
    "C32_positions",
    "C32_back_to_back",
    "C32_no_overlap",
    "C32_read",
    "C32_select",
    "C32_past_end"
   ],
   "note": "histories of all layout, byte order and record calls"
  },
  {
   "property": "C33",
   "status": "proved",
   "theorems": [
    "C33_values",
    "C33_opposite",
    "C33_structured_refuted"
   ],
   "note": "structured dtypes excluded and refuted"
  },
  {
   "property": "C34",
   "status": "proved",
   "theorems": [
    "C34_set",
    "C34_history",
    "C34_attribute_refuted",
    "C34_toggle_refuted",
    "C34_toggle_twice_refuted"
   ],
   "note": "three findings"
  },
  {
   "property": "C35",
   "status": "proved",
   "theorems": [
    "C35_start",
    "C35_same_order",
    "C35_detected",
    "C35_not_swapped",
    "C35_wrong",
    "C35_explicit_refuted",
    "C35_empty_refuted",
    "C35_unpaired"
   ],
   "note": "two findings"
  },
  {
   "property": "C36",
   "status": "proved",
   "theorems": [
    "C36_only_if",
    "C36_if",
    "C36_any_order"
   ],
   "note": ""
  },
  {
   "property": "C37",
   "status": "proved",
   "theorems": [
    "C37_image",
    "C37_opposite",
    "C37_little",
    "C37_unused"
   ],
   "note": "the hash function itself is not modelled, only the bytes fed to it"
  },
  {
   "property": "C38",
   "status": "proved",
   "theorems": [
    "C38_bound",
    "C38_reads",
    "C38_one_each"
   ],
   "note": ""
  },
  {
   "property": "C39",
   "status": "proved",
   "theorems": [
    "C39_added",
    "C39_refused",
    "C39_kept",
    "C39_error",
    "C39_slashes"
   ],
   "note": ""
  },
  {
   "property": "C40",
   "status": "proved",
   "theorems": [
    "C40_opens",
    "C40_first_length",
    "C40_header_length",
    "C40_block_length",
    "C40_block_end",
    "C40_short_header",
    "C40_missing_blocks",
    "C40_short_block"
   ],
   "note": "Numbers are bit patterns; an empty file (ValueError from numpy) is not covered."
  },
  {
   "property": "C41",
   "status": "proved",
   "theorems": [
    "C41_byte_order",
    "C41_limit_refuted"
   ],
   "note": "C41_limit_refuted: witness with 65536 files."
  },
  {
   "property": "C42",
   "status": "proved",
   "theorems": [
    "C42_opens",
    "C42_gadget4",
    "C42_lgadget2_snapshot",
    "C42_mpa_native",
    "C42_mpa_foreign_refuted",
    "C42_group_ids_refuted",
    "C42_id_bytes",
    "C42_float_bytes",
    "C42_options"
   ],
   "note": "C42_group_ids_refuted: LGadget-2 GroupIDsFile never opens; C42_mpa_foreign_refuted: MPA readers have no byte order test."
  },
  {
   "property": "C43",
   "status": "proved",
   "theorems": [
    "C43_exact",
    "C43_members",
    "C43_none",
    "C43_bad_key"
   ],
   "note": "any history of earlier calls; the empty selection raises ValueError"
  },
  {
   "property": "C44",
   "status": "proved",
   "theorems": [
    "C44_range",
    "C44_nothing",
    "C44_fof_group",
    "C44_subfind_group",
    "C44_empty_refuted",
    "C44_subfind_overflow_refuted",
    "C44_duplicate_refuted"
   ],
   "note": "any history; findings: count 0, duplicate names, int32 overflow"
  },
  {
   "property": "C45",
   "status": "proved",
   "theorems": [
    "C45_complete",
    "C45_at_most_one",
    "C45_pair",
    "C45_last_particle_refuted",
    "C45_subnr_refuted"
   ],
   "note": "finding: the loop over files can stop one particle early"
  },
  {
   "property": "C46",
   "status": "proved",
   "theorems": [
    "C46_intervals",
    "C46_cycle"
   ],
   "note": "masses in any total order (no NaN); argsort results are any sorting permutations"
  },
  {
   "property": "C47",
   "status": "proved",
   "theorems": [
    "C47_tree_mass",
    "C47_branch_mass",
    "C47_snapshots_refuted"
   ],
   "note": "exact (integer) masses; snapshots must increase along descendants, witness shows this is needed"
  },
  {
   "property": "C48",
   "status": "proved",
   "theorems": [
    "C48_main_progenitor",
    "C48_zero_mass_refuted"
   ],
   "note": "also the number of ties, for any closeness test"
  },
  {
   "property": "C49",
   "status": "proved",
   "theorems": [
    "C49_handed_once",
    "C49_progress",
    "C49_bounded",
    "C49_all_told",
    "C49_output",
    "C49_deterministic",
    "C49_per_dir"
   ],
   "note": "interleaving transition system; fnmatch and file contents are oracles"
  },
  {
   "property": "C50",
   "status": "proved",
   "theorems": [
    "C50_leaves",
    "C50_untouched",
    "C50_staged",
    "C50_escaped_refuted",
    "C50_conversion_refuted",
    "C50_attribute_refuted",
    "C50_nested_refuted",
    "C50_value_refuted",
    "C50_positional",
    "C50_mixed"
   ],
   "note": "Text/FmtProps.v. Character level model of the format string parser and of string.Formatter; format() of values, conversions and attributes are arbitrary functions. The five refuted theorems show that each condition is needed."
  },
  {
   "property": "C51",
   "status": "proved",
   "theorems": [
    "C51_substituted",
    "C51_mixed",
    "C51_distinct",
    "C51_percent_refuted",
    "C51_other_refuted"
   ],
   "note": "Text/FmtProps.v. Both notations parsed character by character; decimal formats only."
  },
  {
   "property": "C52",
   "status": "proved",
   "theorems": [
    "C52_concatenate",
    "C52_read_multi",
    "C52_missing",
    "C52_unreadable",
    "C52_duplicate_name_refuted",
    "C52_flat"
   ],
   "note": "np.concatenate on any axis characterised element by element; read_multi is the concatenation over files in order. Finding: a name requested twice is concatenated twice."
  },
  {
   "property": "C53",
   "status": "proved",
   "theorems": [
    "C53_soap",
    "C53_soap_defined",
    "C53_soap_missing",
    "C53_swiftsimio",
    "C53_swiftsimio_refused",
    "C53_path",
    "C53_path_only",
    "C53_path_error",
    "C53_read"
   ],
   "note": "Swift/SwiftProps.v. Units are real factors times rational powers of the base units, a and h, computed without rounding; uses the axioms of the standard library reals. unyt, swiftsimio and h5py are not modelled beyond this."
  },
  {
   "property": "C54",
   "status": "proved",
   "theorems": [
    "C54_written",
    "C54_refused",
    "C54_sql_type",
    "C54_unsupported_after_writing"
   ],
   "note": "Data file and script text exactly; finding: unsupported types are only noticed after the data file has been written."
  },
  {
   "property": "C55",
   "status": "proved",
   "theorems": [
    "C55_tiles",
    "C55_accepts",
    "C55_start_refuted",
    "C55_negative_refuted",
    "C55_empty_last_refuted"
   ],
   "note": "both numpy 1 and numpy 2 sums"
  },
  {
   "property": "C56",
   "status": "proved",
   "theorems": [
    "C56_transparent",
    "C56_name",
    "C56_found",
    "C56_missing_file_refuted",
    "C56_two_labels_refuted",
    "C56_final_slash_refuted",
    "C56_other_kinds"
   ],
   "note": "Includes a model of glob, posixpath and the regular expression. Findings: after the first call missing files are not detected; directory and file labels that differ; final slash."
  },
  {
   "property": "C57",
   "status": "proved",
   "theorems": [
    "C57_parse_args",
    "C57_messages",
    "C57_help_refuted"
   ],
   "note": "argparse itself is an oracle: one outcome per rank"
  },
  {
   "property": "C58",
   "status": "proved",
   "theorems": [
    "C58_written",
    "C58_default_refuted"
   ],
   "note": "default mode refuted"
  },
  {
   "property": "C59",
   "status": "proved",
   "theorems": [
    "C59_accepted",
    "C59_firstsub_refuted",
    "C59_overflow_refuted"
   ],
   "note": ""
  },
  {
   "property": "C60",
   "status": "proved",
   "theorems": [
    "C60_accepted",
    "C60_accepts",
    "C60_overflow_refuted"
   ],
   "note": ""
  },
  {
   "property": "C61",
   "status": "proved",
   "theorems": [
    "C61_gadget3_ids",
    "C61_lgadget2_ids"
   ],
   "note": ""
  },
  {
   "property": "C62",
   "status": "proved",
   "theorems": [
    "C62_accepted"
   ],
   "note": "iff"
  },
  {
   "property": "C63",
   "status": "proved",
   "theorems": [
    "C63_rows",
    "C63_complete",
    "C63_resume",
    "C63_nothing_stored_refuted"
   ],
   "note": "sqlite commits are atomic"
  },
  {
   "property": "C64",
   "status": "proved",
   "theorems": [
    "C64_read_trees",
    "C64_new_name"
   ],
   "note": "Finding (Example ex_short): a dataset missing from a later file gives a shorter column without any error."
  },
  {
   "property": "C65",
   "status": "proved",
   "theorems": [
    "C65_key",
    "C65_key_wide",
    "C65_inverse",
    "C65_inverse_11_bits_refuted"
   ],
   "note": "32 bit int; undefined behaviour is an error value"
  },
  {
   "property": "C66",
   "status": "proved",
   "theorems": [
    "C66_sort_index",
    "C66_too_small"
   ],
   "note": "one model for the ten identical procedures"
  },
  {
   "property": "C67",
   "status": "proved",
   "theorems": [
    "C67_coords",
    "C67_velocities",
    "C67_ids",
    "C67_hash",
    "C67_2GB_refuted"
   ],
   "note": "byte level model of readparticles.c; int overflow is modelled as an error and shown to happen (C67_2GB_refuted)"
  },
  {
   "property": "C68",
   "status": "proved",
   "theorems": [
    "C68_region",
    "C68_python"
   ],
   "note": "files which can be opened; names of files not modelled; the case without particles is undefined behaviour"
  },
  {
   "property": "C69",
   "status": "proved",
   "theorems": [
    "C69_fof",
    "C69_sub",
    "C69_unique",
    "C69_missing",
    "C69_no_groups_refuted",
    "C69_key_range"
   ],
   "note": "From the contents of the snapshot files to the lines of the output file; a group file without particles is not handled (closes an unopened file)."
  },
  {
   "property": "C70",
   "status": "proved",
   "theorems": [
    "C70_group_tab",
    "C70_group_ids",
    "C70_sub_ids",
    "C70_sub_tab",
    "C70_subhalos",
    "C70_program",
    "C70_truncated",
    "C70_2GB_refuted"
   ],
   "note": "Positive statements for files whose record length fits 32 bits; C70_2GB_refuted shows the failure beyond. Formatting of the output is not modelled."
  },
  {
   "property": "C71",
   "status": "proved",
   "theorems": [
    "C71_header",
    "C71_file",
    "C71_program",
    "C71_truncated",
    "C71_room_refuted",
    "C71_2GB_refuted"
   ],
   "note": "Records below 2 GB and large enough arrays; the refuted theorems show what happens otherwise. Formatting of the output is not modelled."
  },
  {
   "property": "C72",
   "status": "proved",
   "theorems": [
    "C72_volume",
    "C72_arrays",
    "C72_some",
    "C72_empty_refuted",
    "C72_large_refuted",
    "C72_single"
   ],
   "note": "each particle is assumed to be in the hash cell of its position; C72_single shows the cell expression is monotone in single precision"
  },
  {
   "property": "C73",
   "status": "proved",
   "theorems": [
    "C73_tree",
    "C73_written",
    "C73_exists",
    "C73_empty_refuted",
    "C73_root_refuted"
   ],
   "note": "HDF5 is a tree of named arrays; what h5py refuses is modelled as listed in Hdf5Model.v"
  },
  {
   "property": "C74",
   "status": "proved",
   "theorems": [
    "C74_pgadget3",
    "C74_pgadget3_default",
    "C74_gadget4",
    "C74_gadget4_default",
    "C74_gadget4_empty_refuted",
    "C74_pgadget3_complete",
    "C74_gadget4_complete"
   ],
   "note": "From the bytes of the files, through the constructors of C42 and read_multi of C52. Finding: Gadget-4 catalogues without subhalos or groups raise ValueError."
  },
  {
   "property": "C75",
   "status": "proved",
   "theorems": [
    "C75_pgadget3",
    "C75_gadget4",
    "C75_gadget4_empty_refuted"
   ],
   "note": "From the bytes of the files to the particles of a group: composes C40, C42, C74, C44 and C45. Snapshot files are opened eagerly in the model, and are not HDF5."
  },
  {
   "property": "C76",
   "status": "proved",
   "theorems": [
    "C76_file_list",
    "C76_file_indexes",
    "C76_file_number",
    "C76_read",
    "C76_file_nr_missing",
    "C76_write",
    "C76_read_back",
    "C76_file_nr_keys_refuted",
    "C76_short_refuted"
   ],
   "note": "Axiom free. The names of datasets are single path components. Compression and chunking are not modelled. int() of attributes and datasets and substitute_file_nr (C51) are parameters."
  },
  {
   "property": "C77",
   "status": "proved",
   "theorems": [
    "C77_aligned",
    "C77_tree_layout",
    "C77_rockstar",
    "C77_rockstar_check",
    "C77_rockstar_check_refuted",
    "C77_rockstar_foreign_refuted",
    "C77_velociraptor",
    "C77_velociraptor_refuted",
    "C77_velociraptor_options",
    "C77_tree",
    "C77_mxxl_sub_desc",
    "C77_mxxl_sub_tab_refuted",
    "C77_mxxl_field",
    "C77_mxxl_field_refuted"
   ],
   "note": "The refuted theorems are findings: overflow in sanity_check, the other byte order, np.int, unknown keyword arguments of SubTabFile, wrong record length in FieldFile."
  },
  {
   "property": "C78",
   "status": "proved",
   "theorems": [
    "C78_init",
    "C78_cells",
    "C78_cells_none",
    "C78_cells_bad_key",
    "C78_region",
    "C78_region_none",
    "C78_region_empty",
    "C78_region_outside",
    "C78_contains",
    "C78_double",
    "C78_region_refuted",
    "C78_negative"
   ],
   "note": "From the bytes of the files. The cell coordinates of the corners are arguments of the model; C78_double shows that the double precision expression for them is monotone, which C78_contains needs. C78_region_refuted: read_region cannot work with numpy 1.12 or newer."
  },
  {
   "property": "C79",
   "status": "proved",
   "theorems": [
    "C79_pgadget3_check",
    "C79_pgadget3_run",
    "C79_pgadget3_step",
    "C79_pgadget3_ntask",
    "C79_eagle_check",
    "C79_eagle_run",
    "C79_eagle_error"
   ],
   "note": "Python 2 programs. How many files a snapshot file (HDF5 or binary) says there are is an argument; for the catalogues it is read from the bytes. The base directory of Eagle runs has no characters special to glob and no final slash."
  },
  {
   "property": "C80",
   "status": "proved",
   "theorems": [
    "C80_python",
    "C80_python_distinct",
    "C80_fortran",
    "C80_fortran_distinct",
    "C80_fortran_stop",
    "C80_fortran_distinct_refuted",
    "C80_snapshot",
    "C80_snapshot_cosma",
    "C80_snapshot_distinct"
   ],
   "note": "The refuted theorem shows what happens outside of the ranges: file numbers from 1000 on collide in Fortran, and the directory number is not printable when MOD is negative."
  },
  {
   "property": "C81",
   "status": "proved",
   "theorems": [
    "C81_float64",
    "C81_float32",
    "C81_float32_refuted"
   ],
   "note": "Uses the axioms of the real numbers through Flocq. The refuted theorem: a box size which is not a float32 number, with float32 positions."
  },
  {
   "property": "C82",
   "status": "proved",
   "theorems": [
    "C82_chunks",
    "C82_already",
    "C82_not_asked",
    "C82_old",
    "C82_bad_chunk",
    "C82_bad_level",
    "C82_scalar",
    "C82_empty",
    "C82_list_refuted"
   ],
   "note": "The refuted theorem: None is returned for a dataset without elements, so its other properties are lost."
  },
  {
   "property": "C83",
   "status": "proved",
   "theorems": [
    "C83_particles",
    "C83_no_particles",
    "C83_keys",
    "C83_accepts_refuted",
    "C83_bits"
   ],
   "note": "The intended property, that good files are accepted, is refuted."
  },
  {
   "property": "C84",
   "status": "proved",
   "theorems": [
    "C84_total",
    "C84_minimum",
    "C84_catalogue",
    "C84_below",
    "C84_below_refuted",
    "C84_missing",
    "C84_missing_later"
   ],
   "note": "From the bytes of the files. C84_below_refuted: a later file with a larger GroupMinLen overflows the buffer."
  },
  {
   "property": "C85",
   "status": "proved",
   "theorems": [
    "C85_size",
    "C85_table",
    "C85_empty_refuted",
    "C85_missing",
    "C85_missing_first",
    "C85_cubes",
    "C85_cubes_all",
    "C85_cubes_refuted"
   ],
   "note": "From the bytes of the files. C85_empty_refuted: a last file without cells is refused. C85_cubes_refuted: cells left over by the division are not counted."
  },
  {
   "property": "C86",
   "status": "proved",
   "theorems": [
    "C86_positions",
    "C86_missing_tab",
    "C86_missing_ids",
    "C86_changed_refuted",
    "C86_lost_refuted"
   ],
   "note": "Positions are exact rational numbers; float rounding is not modelled. Refuted: the table of files is left changed if a snapshot file is missing; an id without a particle makes the function read past the end of its array."
  },
  {
   "property": "C87",
   "status": "proved",
   "theorems": [
    "C87_region",
    "C87_missing",
    "C87_twice_refuted"
   ],
   "note": "The numbers are rationals and the arithmetic is exact. The condition on the radius is needed: C87_twice_refuted shows cells taken more than once without it."
  },
  {
   "property": "C88",
   "status": "proved",
   "theorems": [
    "C88_open",
    "C88_create",
    "C88_full",
    "C88_close",
    "C88_file_id",
    "C88_closed",
    "C88_read_only",
    "C88_one_file"
   ],
   "note": "Over all histories of calls from a program which has not called the wrapper; the HDF5 library is modelled in H5w/H5wModel.v."
  },
  {
   "property": "C89",
   "status": "proved",
   "theorems": [
    "C89_read",
    "C89_overwrite_refuted",
    "C89_empty_refuted",
    "C89_no_room_refuted",
    "C89_larger_refuted"
   ],
   "note": "The limits to programs which do not overwrite while reading and to parts and arrays with elements are needed: see the refuted theorems."
  },
  {
   "property": "C90",
   "status": "proved",
   "theorems": [
    "C90_group",
    "C90_deep_refuted",
    "C90_slashes_refuted",
    "C90_long_refuted"
   ],
   "note": "The limits on the path are needed: see the refuted theorems."
  },
  {
   "property": "C91",
   "status": "proved",
   "theorems": [
    "C91_write",
    "C91_round_trip",
    "C91_lost_refuted",
    "C91_initial_refuted",
    "C91_seven_refuted",
    "C91_extensible_refuted"
   ],
   "note": "The limit to arrays with elements and up to 7 dimensions (integers 6), and start and count long enough when initial_size is given, are hypotheses; see the refuted theorems and DESIGN.md."
  },
  {
   "property": "C92",
   "status": "proved",
   "theorems": [
    "C92_part",
    "C92_larger_refuted"
   ],
   "note": "A refused write can leave the dataset extended: C92_larger_refuted."
  },
  {
   "property": "C93",
   "status": "proved",
   "theorems": [
    "C93_write_attribute",
    "C93_root_refuted"
   ],
   "note": "refuted: an attribute of the root cannot be named with one slash"
  },
  {
   "property": "C94",
   "status": "proved",
   "theorems": [
    "C94_read_attribute",
    "C94_round_trip",
    "C94_overrun_refuted",
    "C94_dims_refuted"
   ],
   "note": "refuted: nothing checks the number of elements or the dimensions"
  },
  {
   "property": "C95",
   "status": "proved",
   "theorems": [
    "C95_dataset",
    "C95_attribute",
    "C95_missing",
    "C95_narrow_refuted",
    "C95_rank_refuted",
    "C95_string_refuted",
    "C95_shadow_refuted",
    "C95_long_refuted"
   ],
   "note": "refuted: large dimensions, more than ten dimensions, what the README file says about strings, attributes hidden by datasets, long names"
  },
  {
   "property": "C96",
   "status": "proved",
   "theorems": [
    "C96_datasets",
    "C96_groups",
    "C96_attributes",
    "C96_short_refuted"
   ],
   "note": "refuted: an array which is too short is not noticed"
  },
  {
   "property": "C97",
   "status": "proved",
   "theorems": [
    "C97_group",
    "C97_unique",
    "C97_missing",
    "C97_bad_key",
    "C97_empty",
    "C97_check_units",
    "C97_check_units_refuted"
   ],
   "note": "End to end from the bytes of the files. check_units.py keeps 30 bits of an id only (refuted in general, exact condition proved)."
  },
  {
   "property": "C98",
   "status": "proved",
   "theorems": [
    "C98_spin",
    "C98_none",
    "C98_length_refuted",
    "C98_missing_refuted"
   ],
   "note": "Exact arithmetic with rationals; sqrt(a) is an arbitrary number."
  },
  {
   "property": "C99",
   "status": "proved",
   "theorems": [
    "C99_c",
    "C99_c_marker",
    "C99_c_order",
    "C99_c_short_refuted",
    "C99_fortran",
    "C99_idl",
    "C99_idl_empty",
    "C99_large",
    "C99_fortran_types_refuted",
    "C99_c_types_refuted",
    "C99_idl_types_refuted"
   ],
   "note": "fread copies the bytes which are there and leaves the rest of the memory; Fortran and IDL reads are those of unformatted records with 4 byte lengths."
  }
 ]
}