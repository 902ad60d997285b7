{
 "claims": [
  {
   "property": "C01",
   "status": "proved",
   "theorems": [
    "C01_roots"
   ],
   "note": ""
  },
  {
   "property": "C02",
   "status": "proved",
   "theorems": [
    "C02_exact"
   ],
   "note": ""
  },
  {
   "property": "C03",
   "status": "proved",
   "theorems": [
    "C03_canonical"
   ],
   "note": ""
  },
  {
   "property": "C04",
   "status": "proved",
   "theorems": [
    "C04_reject",
    "C04_accept"
   ],
   "note": ""
  },
  {
   "property": "C05",
   "status": "proved",
   "theorems": [
    "C05_no_ub"
   ],
   "note": ""
  },
  {
   "property": "C06",
   "status": "proved",
   "theorems": [
    "C06_prove"
   ],
   "note": ""
  },
  {
   "property": "C07",
   "status": "proved",
   "theorems": [
    "C07_position_map"
   ],
   "note": ""
  },
  {
   "property": "C08",
   "status": "proved",
   "theorems": [
    "C08_undo"
   ],
   "note": ""
  },
  {
   "property": "C09",
   "status": "proved",
   "theorems": [
    "C09_undo_stack"
   ],
   "note": ""
  },
  {
   "property": "C10",
   "status": "proved",
   "theorems": [
    "C10_commit_restore",
    "C10_same_proofs",
    "C10_bound_sharp"
   ],
   "note": "Up to 2^31 - 1 leaves (the int loop counter of Commit overflows at 2^31)."
  },
  {
   "property": "C11",
   "status": "partial",
   "theorems": [
    "C11_crash_refuted",
    "C11_crash_partial",
    "C11_crash_end_partial",
    "C11_crash_any_partial",
    "C11_crash_same_partial",
    "C11_crash_header_partial"
   ],
   "note": "False: Commit overwrites the file in place; a prefix of its writes can leave a forest that was never committed. Proved: it holds before the first and after the last byte; for every crash point, whether the file can be opened and every hash of the forest it then holds."
  },
  {
   "property": "C12",
   "status": "partial",
   "theorems": [
    "C12_undo_after_reopen_refuted",
    "C12_undo_after_reopen_partial",
    "C12_undo_after_reopen_exact"
   ],
   "note": "False: Undo after reopening indexes m_data out of range if the forest before the modification was taller by too much; proved: it works exactly if twice the number of leaves left reaches the slots of that forest."
  },
  {
   "property": "C13",
   "status": "proved",
   "theorems": [
    "C13_batchproof_roundtrip"
   ],
   "note": ""
  },
  {
   "property": "C14",
   "status": "proved",
   "theorems": [
    "C14_batchproof_canonical",
    "C14_batchproof_length"
   ],
   "note": ""
  },
  {
   "property": "C15",
   "status": "partial",
   "theorems": [
    "C15_batchproof_injective_refuted",
    "C15_batchproof_injective_partial",
    "C15_same_encoding"
   ],
   "note": "False as stated (targets are truncated to 32 bits); proved for 32 bit targets, and exactly which proofs share an encoding."
  },
  {
   "property": "C16",
   "status": "partial",
   "theorems": [
    "C16_unserialize_overwrites_refuted",
    "C16_unserialize_fresh_partial",
    "C16_unserialize_exact"
   ],
   "note": "False for reused objects (sorted targets are not cleared); proved: right exactly for objects without sorted targets."
  },
  {
   "property": "C17",
   "status": "proved",
   "theorems": [
    "C17_undobatch_roundtrip"
   ],
   "note": ""
  },
  {
   "property": "C18",
   "status": "partial",
   "theorems": [
    "C18_undobatch_safe_refuted",
    "C18_undobatch_safe_partial",
    "C18_undobatch_exact"
   ],
   "note": "False: the length check wraps modulo 2^32; proved: the result for every header; it reads past the end exactly if the length fits modulo 2^32 only."
  },
  {
   "property": "C19",
   "status": "proved",
   "theorems": [
    "C19_numbering",
    "C19_row",
    "C19_parent_child",
    "C19_parent",
    "C19_ancestor",
    "C19_ancestor_iterates",
    "C19_left_descendant_iterates",
    "C19_sibling",
    "C19_bound_sharp_refuted"
   ],
   "note": "Bound 2^62 leaves is sharp (one more leaf makes a shift by 64)."
  },
  {
   "property": "C20",
   "status": "proved",
   "theorems": [
    "C20_forest_unique",
    "C20_roots",
    "C20_path"
   ],
   "note": ""
  },
  {
   "property": "C21",
   "status": "proved",
   "theorems": [
    "C21_proof_positions",
    "C21_disjoint"
   ],
   "note": ""
  },
  {
   "property": "C22",
   "status": "proved",
   "theorems": [
    "C22_targets_sanity"
   ],
   "note": ""
  },
  {
   "property": "C23",
   "status": "proved",
   "theorems": [
    "C23_check_sanity"
   ],
   "note": ""
  },
  {
   "property": "C24",
   "status": "proved",
   "theorems": [
    "C24_transform"
   ],
   "note": ""
  },
  {
   "property": "C25",
   "status": "proved",
   "theorems": [
    "C25_same_roots",
    "C25_progress"
   ],
   "note": "Common histories of fewer than 2^31 leaves; a history step carries the premise that the verified pollard shows no hash collision."
  },
  {
   "property": "C26",
   "status": "proved",
   "theorems": [
    "C26_accepts"
   ],
   "note": ""
  },
  {
   "property": "C27",
   "status": "proved",
   "theorems": [
    "C27_sound"
   ],
   "note": "The collision alternative names two concrete pairs read from the resulting pollard."
  },
  {
   "property": "C28",
   "status": "proved",
   "theorems": [
    "C28_no_poison"
   ],
   "note": ""
  },
  {
   "property": "C29",
   "status": "partial",
   "theorems": [
    "C29_failed_verify_refuted",
    "C29_rejected_partial",
    "C29_rejected_counts_partial",
    "C29_rejected_exact"
   ],
   "note": "False: a rejected proof can leave a leaf marked (NumCachedLeaves 1 -> 2). Proved: position map, roots, number of leaves and every stored hash stay; and exactly which leaves become remembered."
  },
  {
   "property": "C30",
   "status": "partial",
   "theorems": [
    "C30_pollard_prove_refuted",
    "C30_prove_partial",
    "C30_recall_partial"
   ],
   "note": "False: after a verified deletion the pollard may be unable to prove a remembered leaf. Proved: right after an accepted proof it proves any of its targets, as the forest does; and at any time it proves any remembered leaves whose entry in the position map is right (C44 and C73 say when)."
  },
  {
   "property": "C31",
   "status": "proved",
   "theorems": [
    "C31_prune"
   ],
   "note": "That full proofs still verify is C26 on the pruned pollard, which stays in step."
  },
  {
   "property": "C32",
   "status": "proved",
   "theorems": [
    "C32_restore",
    "C32_from_pollard"
   ],
   "note": "Acceptance and soundness are C26 and C27 on the restored pollard, which is in step."
  },
  {
   "property": "C33",
   "status": "partial",
   "theorems": [
    "C33_modify_cached_refuted",
    "C33_modify_cached_partial"
   ],
   "note": "False: deleting a remembered, provable leaf without Verify dereferences a null pointer. Proved: it works if the nodes computed from the targets are stored as well."
  },
  {
   "property": "C34",
   "status": "proved",
   "theorems": [
    "C34_parent_hash",
    "C34_parent_hash_number",
    "C34_constants"
   ],
   "note": ""
  },
  {
   "property": "C35",
   "status": "proved",
   "theorems": [
    "C35_any_split",
    "C35_split_insensitive"
   ],
   "note": ""
  },
  {
   "property": "C36",
   "status": "proved",
   "theorems": [
    "C36_batches"
   ],
   "note": ""
  },
  {
   "property": "C37",
   "status": "proved",
   "theorems": [
    "C37_batchproof_eq",
    "C37_undobatch_eq",
    "C37_forest_eq"
   ],
   "note": ""
  },
  {
   "property": "C38",
   "status": "proved",
   "theorems": [
    "C38_duplicates"
   ],
   "note": ""
  },
  {
   "property": "C39",
   "status": "partial",
   "theorems": [
    "C39_forest_verify_refuted",
    "C39_forest_verify_partial"
   ],
   "note": "False: the proof itself is not looked at (the source has a TODO); proved that exactly membership of the hashes is checked."
  },
  {
   "property": "C40",
   "status": "partial",
   "theorems": [
    "C40_verify_total_refuted",
    "C40_verify_total_partial",
    "C40_verify_exact"
   ],
   "note": "False: a short proof and a stored all-zero hash make Verify advance past the end of the proof. Proved: exactly for which proofs that happens; Verify returns for every other proof."
  },
  {
   "property": "C41",
   "status": "proved",
   "theorems": [
    "C41_count_nodes"
   ],
   "note": ""
  },
  {
   "property": "C42",
   "status": "proved",
   "theorems": [
    "C42_cached_leaves",
    "C42_every_history"
   ],
   "note": "lo and hi are defined from the history alone (PollardSpec.recalls); they are equal if no proof was rejected."
  },
  {
   "property": "C43",
   "status": "proved",
   "theorems": [
    "C43_keeps_proof"
   ],
   "note": ""
  },
  {
   "property": "C44",
   "status": "partial",
   "theorems": [
    "C44_own_proof_refuted",
    "C44_positions_verify_partial",
    "C44_positions_modify_partial"
   ],
   "note": "False: a deletion can leave a wrong position, with which Prove returns a proof the pollard rejects (C79 says exactly which proofs it makes and which target hashes go with them). Proved: positions are right when learned (accepted proof, flagged addition) and stay right until the next deletion. C73 says exactly which deletions spoil them."
  },
  {
   "property": "C45",
   "status": "proved",
   "theorems": [
    "C45_wire_proof"
   ],
   "note": ""
  },
  {
   "property": "C46",
   "status": "proved",
   "theorems": [
    "C46_wire_undo"
   ],
   "note": ""
  },
  {
   "property": "C47",
   "status": "proved",
   "theorems": [
    "C47_undo_contents"
   ],
   "note": ""
  },
  {
   "property": "C48",
   "status": "proved",
   "theorems": [
    "C48_proof_size"
   ],
   "note": ""
  },
  {
   "property": "C49",
   "status": "partial",
   "theorems": [
    "C49_undo_foreign_refuted",
    "C49_undo_foreign_partial",
    "C49_undo_present_partial",
    "C49_undo_foreign_exact"
   ],
   "note": "False: Undo returns false with leaves already removed, and unsorted positions index m_data out of range. Proved: for every batch with valid positions, exactly when Undo returns true or false, and that what it then holds is consistent."
  },
  {
   "property": "C50",
   "status": "partial",
   "theorems": [
    "C50_compare_refuted",
    "C50_compare_partial",
    "C50_compare_exact"
   ],
   "note": "False: a hash missing in the other map dereferences end(). Proved: it returns for every iteration order exactly if the other side has all hashes, and then says whether the positions agree."
  },
  {
   "property": "C51",
   "status": "partial",
   "theorems": [
    "C51_new_with_leaves_refuted",
    "C51_every_number"
   ],
   "note": "False for every n > 0: no Modify returns, and Commit (run by the destructor) stops at an assertion."
  },
  {
   "property": "C52",
   "status": "proved",
   "theorems": [
    "C52_ownership"
   ],
   "note": ""
  },
  {
   "property": "C53",
   "status": "proved",
   "theorems": [
    "C53_forest_checks",
    "C53_undo_checks"
   ],
   "note": ""
  },
  {
   "property": "C54",
   "status": "proved",
   "theorems": [
    "C54_known_leaves",
    "C54_no_proof_of_absent",
    "C54_modify_checks"
   ],
   "note": ""
  },
  {
   "property": "C55",
   "status": "partial",
   "theorems": [
    "C55_verify_checks_refuted",
    "C55_verify_checks_partial",
    "C55_known_leaves_partial",
    "C55_no_rejected_partial",
    "C55_check_exact"
   ],
   "note": "False: a rejected proof can leave a leaf cached without a remember marker next to it; after a deletion the check at pollard.cpp:592 stops the program on an honest proof. Proved: the checks never change a result, they can only stop the program; on histories without rejected proofs they never fail; and exactly for which proofs they fail."
  },
  {
   "property": "C56",
   "status": "proved",
   "theorems": [
    "C56_roots_bind",
    "C56_pollards_bind"
   ],
   "note": "A colliding pair is exhibited at a node of the forest; nothing is assumed about the hash."
  },
  {
   "property": "C57",
   "status": "proved",
   "theorems": [
    "C57_accepted_proofs"
   ],
   "note": "Hashes may be left out if the pollard stores them (C58)."
  },
  {
   "property": "C58",
   "status": "partial",
   "theorems": [
    "C58_verdict_refuted",
    "C58_verdict_partial",
    "C58_more_partial"
   ],
   "note": "False: a proof without the hashes a pollard stores is accepted by it and rejected after Prune. Proved: a proof with all hashes that one pollard accepts is accepted by every pollard of that forest, and any accepted proof by every pollard that stores more, or a collision shows."
  },
  {
   "property": "C59",
   "status": "proved",
   "theorems": [
    "C59_only_proofs_stored",
    "C59_memory_bound"
   ],
   "note": "Leaves in rejected proofs may count as told to remember."
  },
  {
   "property": "C60",
   "status": "proved",
   "theorems": [
    "C60_remembered_known"
   ],
   "note": "The position in the entry may be wrong (C44)."
  },
  {
   "property": "C61",
   "status": "proved",
   "theorems": [
    "C61_any_targets"
   ],
   "note": "2^62 is the bound of the code, see C19 and C63."
  },
  {
   "property": "C62",
   "status": "proved",
   "theorems": [
    "C62_fuzz_batchproof"
   ],
   "note": ""
  },
  {
   "property": "C63",
   "status": "partial",
   "theorems": [
    "C63_fuzz_state_refuted",
    "C63_fuzz_state_partial",
    "C63_fuzz_state_exact"
   ],
   "note": "False: with 2^62+1 leaves RootPositions shifts by 64. Proved: up to 2^62 leaves the target always returns; and for every input, exactly when it fails."
  },
  {
   "property": "C64",
   "status": "proved",
   "theorems": [
    "C64_fuzz_pollard"
   ],
   "note": "Nothing is assumed about the hash; a zero hash or a colliding pair is exhibited otherwise."
  },
  {
   "property": "C65",
   "status": "partial",
   "theorems": [
    "C65_byte_order_refuted",
    "C65_byte_order_partial",
    "C65_helpers_partial",
    "C65_leaf_hasher_partial",
    "C65_byte_order_exact"
   ],
   "note": "False: configure.ac never defines WORDS_BIGENDIAN, so a big endian machine without the conversions of the system writes little endian numbers. Proved: on all other machines, or if WORDS_BIGENDIAN is set right."
  },
  {
   "property": "C66",
   "status": "proved",
   "theorems": [
    "C66_count_bits"
   ],
   "note": ""
  },
  {
   "property": "C67",
   "status": "proved",
   "theorems": [
    "C67_layout",
    "C67_length"
   ],
   "note": ""
  },
  {
   "property": "C68",
   "status": "partial",
   "theorems": [
    "C68_damaged_refuted",
    "C68_open_partial",
    "C68_no_header_partial",
    "C68_open_exact"
   ],
   "note": "False: Restore compares no hashes, and a file that is too short makes it read uninitialised memory. Proved: exactly which files are opened, and that the nodes and roots are those in the file."
  },
  {
   "property": "C69",
   "status": "proved",
   "theorems": [
    "C69_open_close"
   ],
   "note": ""
  },
  {
   "property": "C70",
   "status": "proved",
   "theorems": [
    "C70_full_progress",
    "C70_full_roots",
    "C70_full_positions",
    "C70_full_read",
    "C70_full_prove",
    "C70_full_own_proof"
   ],
   "note": ""
  },
  {
   "property": "C71",
   "status": "proved",
   "theorems": [
    "C71_swap",
    "C71_only"
   ],
   "note": ""
  },
  {
   "property": "C72",
   "status": "proved",
   "theorems": [
    "C72_compare_pollard",
    "C72_compare_full"
   ],
   "note": ""
  },
  {
   "property": "C73",
   "status": "proved",
   "theorems": [
    "C73_modified",
    "C73_deleted",
    "C73_followed",
    "C73_prove"
   ],
   "note": "Without additions C73_deleted is an equivalence: the entry is right if the hash is stored, and otherwise is the position after the swaps of row 0."
  },
  {
   "property": "C74",
   "status": "proved",
   "theorems": [
    "C74_hex",
    "C74_proof",
    "C74_undo",
    "C74_position_map",
    "C74_roots",
    "C74_pollard_roots",
    "C74_vector",
    "C74_swaps"
   ],
   "note": ""
  },
  {
   "property": "C75",
   "status": "partial",
   "theorems": [
    "C75_two_leaves_refuted",
    "C75_deleted_refuted",
    "C75_forest_deleted_partial",
    "C75_pollard_deleted_partial",
    "C75_forest_step_partial",
    "C75_pollard_step_partial",
    "C75_forest_exact",
    "C75_pollard_exact",
    "C75_forest_right",
    "C75_pollard_right",
    "C75_forest_undo_partial",
    "C75_forest_restore_partial",
    "C75_pollard_restore_partial",
    "C75_pollard_verify_partial",
    "C75_pollard_prune_partial"
   ],
   "note": "False: with two leaves the root carries position 1 instead of 2, and a deletion that lowers the height leaves positions of the old height. Proved: exactly which positions the roots carry after any modification, and exactly when they are right; Undo, Restore, Verify and Prune leave right positions."
  },
  {
   "property": "C76",
   "status": "proved",
   "theorems": [
    "C76_accepts",
    "C76_only"
   ],
   "note": ""
  },
  {
   "property": "C77",
   "status": "proved",
   "theorems": [
    "C77_keeps",
    "C77_again",
    "C77_rejected"
   ],
   "note": "Each with the alternative that a collision shows."
  },
  {
   "property": "C78",
   "status": "partial",
   "theorems": [
    "C78_life",
    "C78_reset",
    "C78_reset_refuted"
   ],
   "note": "False as to Reset: it always goes back to the initial value of SHA-512, also in a hasher constructed for SHA-512/256. Proved: the digests over the whole life of a hasher, with that reset."
  },
  {
   "property": "C79",
   "status": "proved",
   "theorems": [
    "C79_prove_exact",
    "C79_forest_proof",
    "C79_verdict"
   ],
   "note": "The last one with the alternative that a collision shows."
  },
  {
   "property": "C80",
   "status": "proved",
   "theorems": [
    "C80_remembered_exact",
    "C80_all_histories"
   ],
   "note": "Defined by PollardSpec-style rules over the history (MarkSpec.keeps)."
  },
  {
   "property": "C81",
   "status": "partial",
   "theorems": [
    "C81_unverified_refuted",
    "C81_unverified_partial"
   ],
   "note": "False: with six leaves, the first remembered, deleting leaves 2 and 3 without a proof returns true with a wrong root, also with the checks of a debug build (SwapSubTrees inserts a node with a zero hash). Proved: the result is right, and the pollard still follows the forest, if the nodes above the targets and their siblings are stored, remembered or not; after an accepted Verify this is C25_progress."
  },
  {
   "property": "C82",
   "status": "proved",
   "theorems": [
    "C82_deleted_leaves"
   ],
   "note": "From C02, C06 and C27; the later modifications and reopenings are described by SpentSpec.later."
  },
  {
   "property": "C83",
   "status": "partial",
   "theorems": [
    "C83_hash_order_refuted",
    "C83_hash_order_exact",
    "C83_hash_order_partial"
   ],
   "note": "False: Verify takes the target hashes in the order of the positions (pollard.cpp:555, 579-604), not in the order of the targets. Proved: the order given to Prove is accepted exactly if the positions ascend, or a collision shows; some order is always accepted."
  },
  {
   "property": "C84",
   "status": "proved",
   "theorems": [
    "C84_light_roots",
    "C84_light_accepts",
    "C84_light_sound",
    "C84_light_modify",
    "C84_light_forest"
   ],
   "note": "Histories of a pollard alone (LightSpec.light); C84_light_forest shows that they include all common histories with a forest."
  },
  {
   "property": "C85",
   "status": "proved",
   "theorems": [
    "C85_simple_blockchain"
   ],
   "note": "The random numbers are an arbitrary function into the requested ranges. Modelled with CHECK_SAFE compiled out, as in the release build. The test itself (1000 blocks) is an instance."
  },
  {
   "property": "C86",
   "status": "proved",
   "theorems": [
    "C86_shuffle",
    "C86_shuffle_any"
   ],
   "note": ""
  },
  {
   "property": "C87",
   "status": "partial",
   "theorems": [
    "C87_verify_bench_refuted",
    "C87_verify_bench_exact"
   ],
   "note": "False: the hashes are passed to Verify in the random order in which they were selected. C87_verify_bench_exact: all runs accept if the selection is in the order of the leaves, otherwise all reject, unless a collision shows. Which selection a given rand() makes is not modelled."
  },
  {
   "property": "C88",
   "status": "proved",
   "theorems": [
    "C88_forest_bench"
   ],
   "note": ""
  },
  {
   "property": "C89",
   "status": "proved",
   "theorems": [
    "C89_add_bench",
    "C89_disk_bench"
   ],
   "note": ""
  },
  {
   "property": "C90",
   "status": "proved",
   "theorems": [
    "C90_args",
    "C90_is_set"
   ],
   "note": ""
  },
  {
   "property": "C91",
   "status": "partial",
   "theorems": [
    "C91_int_arg_refuted",
    "C91_int_arg_range_refuted",
    "C91_int_arg_exact",
    "C91_int_arg_default"
   ],
   "note": "False: std::invalid_argument of stoi is not caught, and a number outside the range of int gives the default. C91_int_arg_exact and C91_int_arg_default give the result in every case. stoi is modelled from its specification, in the C locale."
  },
  {
   "property": "C92",
   "status": "proved",
   "theorems": [
    "C92_add_arg"
   ],
   "note": ""
  },
  {
   "property": "C93",
   "status": "proved",
   "theorems": [
    "C93_same_leaves",
    "C93_reorganisation",
    "C93_undo_batch"
   ],
   "note": "An undo batch of one forest works with another with the same leaves exactly if that one has enough rows (see C12)."
  },
  {
   "property": "C94",
   "status": "partial",
   "theorems": [
    "C94_fuzz_targets_refuted",
    "C94_fuzz_targets_first",
    "C94_fuzz_targets_later",
    "C94_fuzz_targets_twice"
   ],
   "note": "False: the map g_targets may be used before it is constructed. It works exactly if fuzz.cpp is initialised first, as it is with linkers that follow the order of sources.mk. The order is a parameter of the model; constant initialisation of std::map, which the standard does not promise, is not assumed."
  },
  {
   "property": "C95",
   "status": "proved",
   "theorems": [
    "C95_benchmarks",
    "C95_first"
   ],
   "note": ""
  },
  {
   "property": "C96",
   "status": "proved",
   "theorems": [
    "C96_help",
    "C96_no_number",
    "C96_runs",
    "C96_all"
   ],
   "note": "Regular expressions and parseAsymptote are parameters. A benchmark is recorded as a call; nanobench is not modelled. The exceptions are those of C91 and of std::regex."
  },
  {
   "property": "C97",
   "status": "proved",
   "theorems": [
    "C97_help_message",
    "C97_twice"
   ],
   "note": "The order of the entries of the map is a parameter."
  }
 ]
}