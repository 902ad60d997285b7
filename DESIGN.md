# Formal model of libutreexo in Rocq (Coq 8.16.1)

The C++ in `/repo` is modelled by executable Gallina functions under `rocq/theories/`, one
definition per C++ function, each citing file and lines. Specifications are in `*Spec.v` files that
do not use the helpers of the model, proofs in `*Facts.v` and `Pollard*.v`, the property theorems in
`Properties_*.v`. The property files contain only theorems closed by `exact <lemma>`, a
`Print Assumptions` under each, and an `Example` showing a concrete case that meets the hypotheses.

Build: `cd rocq && coq_makefile -f _CoqProject -o Makefile && make -j4` (about 3 minutes).

## 1. Trusted base

* The Coq 8.16.1 kernel, including its `vm_compute` (used for the refutation witnesses, the
  examples and the tests). `coqchk` rechecks everything without the VM.
* **Axioms.** `Print Assumptions` prints "Closed under the global context" for every property
  theorem. `coqchk -o` lists seven constants of the Coq standard library
  (`Coq.ssr.ssrunder.Under_rel.*`), which are module parameters behind the `under` tactic of
  ssreflect. They are loaded through std++ and no theorem here depends on them.
* The libraries used are the Coq standard library and std++.
* That the model says what the C++ does (section 2). This is by reading: the C++ was not run. The
  test vectors in `Tests.v` come from the C++ unit tests and from SHA-512 test values. `UnitTests.v` runs the
  programs of the unit tests in the model with the real hash function (tests, not theorems).
* That the specifications say what is meant: `PosSpec`, `MerkleSpec`, `CodecSpec`, `FileSpec`, `ForestSpec`,
  `ProofSpec`, `VerifySpec`, `Sha512Spec`, `ReuseSpec`, `PollardSpec`, `FullSpec`, `SwapSpec`, `EntrySpec`,
  `PrintSpec`, `PlaceSpec`. `SpecTests.v` evaluates them on small cases.

No axioms are added, no kernel check is switched off, there are no `Admitted` proofs, functors,
module types or plugins.

## 2. The model

### 2.1 What is modelled

| model file | code |
|---|---|
| `Base.v` | outcomes, `uint64_t` arithmetic and shifts, `vector` indexing, `std::sort` |
| `StateModel.v` | all of `src/state.cpp` but printing (`PrintModel.v`) |
| `CodecModel.v` | all of `src/batchproof.cpp` but printing (`PrintModel.v`); `ReadBE*/WriteBE*` of `src/crypto/common.h` |
| `Sha512Model.v` | all of `src/crypto/sha512.cpp`; `Accumulator::ParentHash` |
| `ReuseModel.v` | an object of class `CSHA512` over its life: any sequence of calls |
| `ForestModel.v` | all of `src/ram_forest.cpp` but `LeafHasher` (`ByteModel.v`); `src/accumulator.cpp` as inherited by `RamForest`; `ComparePositionMap`; the file as a list of bytes |
| `PollardModel.v` | all of `src/pollard.cpp`; `src/accumulator.cpp` as inherited by `Pollard` |
| `CheckedModel.v` | the functions with `CHECK_SAFE`, as built with `UTREEXO_VERIFY` |
| `ByteModel.v` | `src/crypto/common.h`, `src/compat/endian.h`, `src/compat/byteswap.h` on machines of both byte orders; `LeafHasher` |
| `PrintModel.v` | the printing functions of `src/accumulator.cpp`, `src/batchproof.cpp` and `src/state.cpp`, as the text they write |
| `FuzzModel.v` | the three fuzz targets of `src/fuzz` with `fuzz.h`, on a little endian machine, with the destructor of `RamForest` at every return |
| `UnitModel.v` | the unit test `simple_blockchain` of `src/test/accumulator_tests.cpp`, with an arbitrary function in place of the random engine |
| `BenchModel.v` | `random_unique` of `src/bench/util/leaves.h`, and the benchmarks of `src/bench/pollard.cpp` and `src/bench/ram_forest.cpp`, without the framework that repeats and times them |
| `ArgsModel.v` | `ArgsManager` of `src/bench/util/args.cpp` except the help message, with `std::stoi` |
| `HelpModel.v` | `GetHelpMessage` and `HelpMessageOpt` of `src/bench/util/args.cpp`, as the text they return |
| `RegisterModel.v` | `src/fuzz/fuzz.cpp` with the macro `FUZZ`, and `BenchRunner`: the registration before `main`, in any order of the files |
| `RunModel.v` | `main` and `SetupBenchArgs` of `src/bench/bench_utreexo.cpp`, `BenchRunner::RunAll`: the calls of benchmarks, with regular expressions and `parseAsymptote` as parameters, without the output |

### 2.2 How

* **Outcomes.** `res A := Ok a | UB | Abort | Throw | NoFuel`. `UB` is undefined behaviour: an
  out-of-range `operator[]`, a shift by the width or more, signed overflow, a null or past-the-end
  dereference. `Abort` is a failed `assert`; the build never defines `NDEBUG`. `Throw` is a C++
  exception (`optional::value`). `NoFuel` means that a loop ran out of the fuel the model
  gave it; it is an error like the others, so a theorem that concludes `= Ok ..` also says that the
  fuel suffices. Nothing is totalised silently.
* **Integers.** `uint64_t` is `N` with wrap-around written out where an operation can wrap. Shifts
  check their count. Signed counters overflow to `UB`.
* **Hashes.** `std::array<uint8_t,32>` is an `N`, the big-endian value; its bytes are produced where
  the code looks at bytes. `ParentHash` is a parameter `H` of the accumulator models, so those
  theorems hold for every `H`, in particular for the SHA-512/256 model (C34).
* **Loops** are structural recursion, folds, or recursion on fuel.
* **`std::sort`** of `uint64_t` is insertion sort; the result is unique.
* **`unordered_map`** is std++ `gmap`. Bucket hashing is left out. Only `ComparePositionMap` and `PrintPositionMap` iterate over a map; they take the
  entries in the order of the iteration, and the theorems hold for every order.
* **Virtual calls** of `Accumulator` are resolved per class: `F_*` for `RamForest`, `P_*` for `Pollard`.
* **Pollard pointers.** Internal nodes live in a heap `gmap N inode`. `nullptr` is `None`. The node
  `m_remember` points to is location 0. Nodes are not removed from the heap; a freed node is one
  that is unreachable. `m_remember.use_count()` is computed from the reachable nodes. The wrapper
  nodes of a verification live in a table and refer to each other by index. `CountNodes` recurses
  on a fuel of 70, more than the height of any tree.
* **Proof objects.** `BatchProof` is a record with the cached sorted targets. The constructor sorts;
  `Unserialize` on a used object does not clear the old sorted targets (C16). Pollard theorems on
  arbitrary proofs assume `proof_wf`: the sorted targets are the sorted targets. The constructor and
  decoding into a fresh object establish it.
* **Files.** `Commit` writes blocks over the old bytes without truncating; a crash leaves some
  prefix of the writes (C11). `Restore` reads a byte list; a short read leaves a local `Hash`
  uninitialised, which is `UB`.
* **`int` loop counters.** Loops of the form `for (int i = 0; i < v.size(); ++i)` overflow when the
  vector has more than 2^31 - 1 elements. `int_loop k` makes them `UB` up front. This is
  conservative: such a loop that would return early is `UB` in the model too.
* **`CHECK_SAFE`** is compiled out, as in the release build. `CheckedModel.v` has the functions that
  reach one once more, with the checks, as in the verify build that the unit tests link (C53 to C55).

### 2.3 What is not modelled

Memory exhaustion and stack depth, iostream failures other than a crash,
the benchmark framework nanobench, `parseAsymptote`, the unit tests other than `simple_blockchain` (transcribed as tests in `UnitTests.v`), destructors (apart from `use_count`; `~RamForest` calls
`Commit`, which is modelled), thread safety (the code
has no concurrency).

### 2.4 Bounds

Positions are exact up to 2^62 leaves; one more leaf makes a shift by 64, which C19 shows as
`UB` (`C19_bound_sharp_refuted`). Forest and pollard histories hold fewer than 2^31 leaves, because
`BuildUndoBatch`, `Undo`, `Prove`, `Verify` and `Commit` count leaves with an `int`
(`C10_bound_sharp`: with 2^31 or more leaves no commit succeeds). These are the bounds of the code;
there is no bound on the number of operations, on the sizes of proofs, or on hash values.

## 3. Specifications

* **Positions** (`PosSpec`): a node is a pair (row, index); `node n r i` says that all its leaves
  exist; `enc R r i` is its position in a forest of height `R`.
* **Roots** (`MerkleSpec`): `nh H leaf r i` is the Merkle hash by recursion on the row; `spec_roots`
  lists the maximal trees; `spec_remove` deletes leaves row by row on lists of subtrees, without
  positions or swaps.
* **Forest histories** (`ForestSpec`): `reachable H f us`: from the empty forest by `Modify`,
  `Modify` with undo, `Undo`; `us` is the stack of undo batches. `holds_leaves f ls` reads the
  leaves through `GetLeaf`.
* **Proofs** (`ProofSpec`): `computed` and `needed` nodes of a target list.
* **Pollard histories** (`PollardSpec`): `synced H f p`: a forest and a pollard that start empty, or
  a pollard restored from the roots of any reachable forest; then verifications of any proofs,
  accepted or rejected, prunings, and modifications made to both after the pollard accepted a proof
  of the targets, or when it stores the nodes above the targets and their siblings (`has_nodes`).
  `recalls` is the same with the sets of leaves that must and may be remembered.
  `LightSpec.light p ls` is a pollard alone with the leaves it stands for.
* **Collisions.** Nothing is assumed about `H`. `shows_collision H p ls` says that two different
  pairs of hashes with the same `H` can be read off the pollard `p`: its stored children of a node
  and the true ones. Soundness (C27, C28) concludes "right, or the resulting pollard shows a
  collision". A history step carries the premise that no collision shows in the pollard it
  verified; without it a forged state could be continued.

## 4. Properties

| id | property | status | theorems | note |
|---|---|---|---|---|
| C01 | Forest roots are the Merkle roots of the current leaf sequence | proved | `C01_roots` |  |
| C02 | Modify deletes exactly the targets and appends exactly the new leaves | proved | `C02_exact` |  |
| C03 | Deletion layout is canonical | proved | `C03_canonical` |  |
| C04 | A rejected Modify has no effect | proved | `C04_reject`, `C04_accept` |  |
| C05 | Forest operations never hit undefined behaviour or a failed assertion | proved | `C05_no_ub` |  |
| C06 | Forest Prove succeeds exactly for present hashes and returns the canonical proof | proved | `C06_prove` |  |
| C07 | The forest's position map is the inverse of its leaf sequence | proved | `C07_position_map` |  |
| C08 | Undo is the inverse of Modify | proved | `C08_undo` |  |
| C09 | Undoing a stack of modifications returns to any earlier state | proved | `C09_undo_stack` |  |
| C10 | Commit followed by reopening restores the forest | proved | `C10_commit_restore`, `C10_same_proofs`, `C10_bound_sharp` | Up to 2^31 - 1 leaves (the int loop counter of Commit overflows at 2^31). |
| C11 | A crash during Commit leaves either the old or the new forest on disk | partial | `C11_crash_refuted`, `C11_crash_partial`, `C11_crash_end_partial`, `C11_crash_any_partial`, `C11_crash_same_partial`, `C11_crash_header_partial` | False: Commit overwrites the file in place; a prefix of its writes can leave a forest that was never committed. Proved: it holds before the first and after the last byte; for every crash point, whether the file can be opened and every hash of the forest it then holds. |
| C12 | An undo batch stays usable after the forest is reopened | partial | `C12_undo_after_reopen_refuted`, `C12_undo_after_reopen_partial`, `C12_undo_after_reopen_exact` | False: Undo after reopening indexes m_data out of range if the forest before the modification was taller by too much; proved: it works exactly if twice the number of leaves left reaches the slots of that forest. |
| C13 | BatchProof encoding round-trips | proved | `C13_batchproof_roundtrip` |  |
| C14 | BatchProof decoding accepts exactly canonical encodings and never reads out of bounds | proved | `C14_batchproof_canonical`, `C14_batchproof_length` |  |
| C15 | BatchProof encoding is injective on all legal proofs | partial | `C15_batchproof_injective_refuted`, `C15_batchproof_injective_partial`, `C15_same_encoding` | False as stated (targets are truncated to 32 bits); proved for 32 bit targets, and exactly which proofs share an encoding. |
| C16 | Unserialize overwrites whatever the BatchProof held before | partial | `C16_unserialize_overwrites_refuted`, `C16_unserialize_fresh_partial`, `C16_unserialize_exact` | False for reused objects (sorted targets are not cleared); proved: right exactly for objects without sorted targets. |
| C17 | UndoBatch encoding round-trips | proved | `C17_undobatch_roundtrip` |  |
| C18 | UndoBatch decoding never reads outside the buffer | partial | `C18_undobatch_safe_refuted`, `C18_undobatch_safe_partial`, `C18_undobatch_exact` | False: the length check wraps modulo 2^32; proved: the result for every header; it reads past the end exactly if the length fits modulo 2^32 only. |
| C19 | Position arithmetic is a consistent tree addressing | proved | `C19_numbering`, `C19_row`, `C19_parent_child`, `C19_parent`, `C19_ancestor`, `C19_ancestor_iterates`, `C19_left_descendant_iterates`, `C19_sibling`, `C19_bound_sharp_refuted` | Bound 2^62 leaves is sharp (one more leaf makes a shift by 64). |
| C20 | Roots and paths address the right trees | proved | `C20_forest_unique`, `C20_roots`, `C20_path` |  |
| C21 | ProofPositions is exactly the minimal proof | proved | `C21_proof_positions`, `C21_disjoint` |  |
| C22 | CheckTargetsSanity characterises valid target lists | proved | `C22_targets_sanity` |  |
| C23 | BatchProof::CheckSanity | proved | `C23_check_sanity` |  |
| C24 | Transform yields well-formed swaps and UndoTransform lists the same swaps on leaves | proved | `C24_transform` |  |
| C25 | Pollard and forest agree on roots forever | proved | `C25_same_roots`, `C25_progress` | Common histories of fewer than 2^31 leaves; a history step carries the premise that the verified pollard shows no hash collision. |
| C26 | Verify accepts every honest proof | proved | `C26_accepts` |  |
| C27 | Verify is sound | proved | `C27_sound` | The collision alternative names two concrete pairs read from the resulting pollard. |
| C28 | Verify never changes roots, and never poisons the cache | proved | `C28_no_poison` |  |
| C29 | A failed Verify leaves the set of remembered leaves unchanged | partial | `C29_failed_verify_refuted`, `C29_rejected_partial`, `C29_rejected_counts_partial`, `C29_rejected_exact` | False: a rejected proof can leave a leaf marked (NumCachedLeaves 1 -> 2). Proved: position map, roots, number of leaves and every stored hash stay; and exactly which leaves become remembered. |
| C30 | A pollard can prove the leaves it remembers with correct positions | partial | `C30_pollard_prove_refuted`, `C30_prove_partial`, `C30_recall_partial` | False: after a verified deletion the pollard may be unable to prove a remembered leaf. Proved: right after an accepted proof it proves any of its targets, as the forest does; and at any time it proves any remembered leaves whose entry in the position map is right (C44 and C73 say when). |
| C31 | Prune keeps exactly the roots | proved | `C31_prune` | That full proofs still verify is C26 on the pruned pollard, which stays in step. |
| C32 | A pollard restored from roots is equivalent | proved | `C32_restore`, `C32_from_pollard` | Acceptance and soundness are C26 and C27 on the restored pollard, which is in step. |
| C33 | Remembered leaves can be deleted from a pollard without a prior Verify | partial | `C33_modify_cached_refuted`, `C33_modify_cached_partial` | False: deleting a remembered, provable leaf without Verify dereferences a null pointer. Proved: it works if the nodes computed from the targets are stored as well. |
| C34 | ParentHash is SHA-512/256 of the concatenated children | proved | `C34_parent_hash`, `C34_parent_hash_number`, `C34_constants` |  |
| C35 | The hasher is insensitive to how its input is split | proved | `C35_any_split`, `C35_split_insensitive` |  |
| C36 | Adding in batches equals adding one by one | proved | `C36_batches` |  |
| C37 | Equality operators mean observable equality | proved | `C37_batchproof_eq`, `C37_undobatch_eq`, `C37_forest_eq` |  |
| C38 | Adding a leaf that is already present is never silently accepted by the forest | proved | `C38_duplicates` |  |
| C39 | RamForest::Verify accepts only proofs that prove the given hashes | partial | `C39_forest_verify_refuted`, `C39_forest_verify_partial` | False: the proof itself is not looked at (the source has a TODO); proved that exactly membership of the hashes is checked. |
| C40 | Verify returns for every proof | partial | `C40_verify_total_refuted`, `C40_verify_total_partial`, `C40_verify_exact` | False: a short proof and a stored all-zero hash make Verify advance past the end of the proof. Proved: exactly for which proofs that happens; Verify returns for every other proof. |
| C41 | CountNodes counts the readable positions | proved | `C41_count_nodes` |  |
| C42 | NumCachedLeaves is the number of remembered leaves | proved | `C42_cached_leaves`, `C42_every_history` | lo and hi are defined from the history alone (PollardSpec.recalls); they are equal if no proof was rejected. |
| C43 | A remembered leaf keeps its proof | proved | `C43_keeps_proof` |  |
| C44 | The pollard accepts the proofs it makes | partial | `C44_own_proof_refuted`, `C44_positions_verify_partial`, `C44_positions_modify_partial` | False: a deletion can leave a wrong position, with which Prove returns a proof the pollard rejects (C79 says exactly which proofs it makes and which target hashes go with them). Proved: positions are right when learned (accepted proof, flagged addition) and stay right until the next deletion. C73 says exactly which deletions spoil them. |
| C45 | A proof survives the wire | proved | `C45_wire_proof` |  |
| C46 | An undo batch survives the wire | proved | `C46_wire_undo` |  |
| C47 | An undo batch holds exactly the deleted leaves | proved | `C47_undo_contents` |  |
| C48 | Size of a proof | proved | `C48_proof_size` |  |
| C49 | Undo rejects foreign batches | partial | `C49_undo_foreign_refuted`, `C49_undo_foreign_partial`, `C49_undo_present_partial`, `C49_undo_foreign_exact` | False: Undo returns false with leaves already removed, and unsorted positions index m_data out of range. Proved: for every batch with valid positions, exactly when Undo returns true or false, and that what it then holds is consistent. |
| C50 | ComparePositionMap compares | partial | `C50_compare_refuted`, `C50_compare_partial`, `C50_compare_exact` | False: a hash missing in the other map dereferences end(). Proved: it returns for every iteration order exactly if the other side has all hashes, and then says whether the positions agree. |
| C51 | A RamForest constructed with a leaf count is usable | partial | `C51_new_with_leaves_refuted`, `C51_every_number` | False for every n > 0: no Modify returns, and Commit (run by the destructor) stops at an assertion. |
| C52 | Pollard nodes are owned once | proved | `C52_ownership` |  |
| C53 | The internal checks of the forest never fail | proved | `C53_forest_checks`, `C53_undo_checks` |  |
| C54 | A pollard knows only leaves that exist | proved | `C54_known_leaves`, `C54_no_proof_of_absent`, `C54_modify_checks` |  |
| C55 | The internal check of Verify never fails | partial | `C55_verify_checks_refuted`, `C55_verify_checks_partial`, `C55_known_leaves_partial`, `C55_no_rejected_partial`, `C55_check_exact` | False: a rejected proof can leave a leaf cached without a remember marker next to it; after a deletion the check at pollard.cpp:592 stops the program on an honest proof. Proved: the checks never change a result, they can only stop the program; on histories without rejected proofs they never fail; and exactly for which proofs they fail. |
| C56 | Roots determine the leaves | proved | `C56_roots_bind`, `C56_pollards_bind` | A colliding pair is exhibited at a node of the forest; nothing is assumed about the hash. |
| C57 | Accepted proofs cannot be altered | proved | `C57_accepted_proofs` | Hashes may be left out if the pollard stores them (C58). |
| C58 | The verdict on a proof depends only on the roots | partial | `C58_verdict_refuted`, `C58_verdict_partial`, `C58_more_partial` | False: a proof without the hashes a pollard stores is accepted by it and rejected after Prune. Proved: a proof with all hashes that one pollard accepts is accepted by every pollard of that forest, and any accepted proof by every pollard that stores more, or a collision shows. |
| C59 | A pollard stores only roots and proofs of remembered leaves | proved | `C59_only_proofs_stored`, `C59_memory_bound` | Leaves in rejected proofs may count as told to remember. |
| C60 | Remembered leaves stay in the position map | proved | `C60_remembered_known` | The position in the entry may be wrong (C44). |
| C61 | Position functions return for every target list | proved | `C61_any_targets` | 2^62 is the bound of the code, see C19 and C63. |
| C62 | The fuzz target batchproof never fails | proved | `C62_fuzz_batchproof` |  |
| C63 | The fuzz target forest_state never fails | partial | `C63_fuzz_state_refuted`, `C63_fuzz_state_partial`, `C63_fuzz_state_exact` | False: with 2^62+1 leaves RootPositions shifts by 64. Proved: up to 2^62 leaves the target always returns; and for every input, exactly when it fails. |
| C64 | The fuzz target pollard never fails | proved | `C64_fuzz_pollard` | Nothing is assumed about the hash; a zero hash or a colliding pair is exhibited otherwise. |
| C65 | Numbers are written in the same byte order on every machine | partial | `C65_byte_order_refuted`, `C65_byte_order_partial`, `C65_helpers_partial`, `C65_leaf_hasher_partial`, `C65_byte_order_exact` | False: configure.ac never defines WORDS_BIGENDIAN, so a big endian machine without the conversions of the system writes little endian numbers. Proved: on all other machines, or if WORDS_BIGENDIAN is set right. |
| C66 | CountBits counts bits | proved | `C66_count_bits` |  |
| C67 | The file depends only on the leaves | proved | `C67_layout`, `C67_length` |  |
| C68 | A damaged file is detected | partial | `C68_damaged_refuted`, `C68_open_partial`, `C68_no_header_partial`, `C68_open_exact` | False: Restore compares no hashes, and a file that is too short makes it read uninitialised memory. Proved: exactly which files are opened, and that the nodes and roots are those in the file. |
| C69 | Opening and closing a file leaves it unchanged | proved | `C69_open_close` |  |
| C70 | A pollard told to remember every leaf behaves like the forest | proved | `C70_full_progress`, `C70_full_roots`, `C70_full_positions`, `C70_full_read`, `C70_full_prove`, `C70_full_own_proof` |  |
| C71 | SwapSubTrees exchanges two subtrees, also when a sibling is not stored | proved | `C71_swap`, `C71_only` |  |
| C72 | A pollard's position map can be compared with that of its forest | proved | `C72_compare_pollard`, `C72_compare_full` |  |
| C73 | A pollard knows the position of every remembered leaf whose hash it still stores | proved | `C73_modified`, `C73_deleted`, `C73_followed`, `C73_prove` | Without additions C73_deleted is an equivalence: the entry is right if the hash is stored, and otherwise is the position after the swaps of row 0. |
| C74 | What is printed determines what was there | proved | `C74_hex`, `C74_proof`, `C74_undo`, `C74_position_map`, `C74_roots`, `C74_pollard_roots`, `C74_vector`, `C74_swaps` |  |
| C75 | PrintRoots shows each root with its position | partial | `C75_two_leaves_refuted`, `C75_deleted_refuted`, `C75_forest_deleted_partial`, `C75_pollard_deleted_partial`, `C75_forest_step_partial`, `C75_pollard_step_partial`, `C75_forest_exact`, `C75_pollard_exact`, `C75_forest_right`, `C75_pollard_right`, `C75_forest_undo_partial`, `C75_forest_restore_partial`, `C75_pollard_restore_partial`, `C75_pollard_verify_partial`, `C75_pollard_prune_partial` | False: with two leaves the root carries position 1 instead of 2, and a deletion that lowers the height leaves positions of the old height. Proved: exactly which positions the roots carry after any modification, and exactly when they are right; Undo, Restore, Verify and Prune leave right positions. |
| C76 | A proof is accepted exactly when it supplies what is missing | proved | `C76_accepts`, `C76_only` |  |
| C77 | Verifying a proof takes nothing away | proved | `C77_keeps`, `C77_again`, `C77_rejected` | Each with the alternative that a collision shows. |
| C78 | A hasher can be used again | partial | `C78_life`, `C78_reset`, `C78_reset_refuted` | False as to Reset: it always goes back to the initial value of SHA-512, also in a hasher constructed for SHA-512/256. Proved: the digests over the whole life of a hasher, with that reset. |
| C79 | Pollard::Prove makes exactly the proofs it has the nodes for | proved | `C79_prove_exact`, `C79_forest_proof`, `C79_verdict` | The last one with the alternative that a collision shows. |
| C80 | The remembered leaves are exactly those the history tells | proved | `C80_remembered_exact`, `C80_all_histories` | Defined by PollardSpec-style rules over the history (MarkSpec.keeps). |
| C81 | A modification of a pollard never reports success with wrong roots | partial | `C81_unverified_refuted`, `C81_unverified_partial` | False: with six leaves, the first remembered, deleting leaves 2 and 3 without a proof returns true with a wrong root, also with the checks of a debug build (SwapSubTrees inserts a node with a zero hash). Proved: the result is right, and the pollard still follows the forest, if the nodes above the targets and their siblings are stored, remembered or not; after an accepted Verify this is C25_progress. |
| C82 | A deleted leaf cannot be proved any more | proved | `C82_deleted_leaves` | From C02, C06 and C27; the later modifications and reopenings are described by SpentSpec.later. |
| C83 | A proof is accepted with the hashes in the order given to Prove | partial | `C83_hash_order_refuted`, `C83_hash_order_exact`, `C83_hash_order_partial` | False: Verify takes the target hashes in the order of the positions (pollard.cpp:555, 579-604), not in the order of the targets. Proved: the order given to Prove is accepted exactly if the positions ascend, or a collision shows; some order is always accepted. |
| C84 | A pollard works without a forest, also with equal leaves | proved | `C84_light_roots`, `C84_light_accepts`, `C84_light_sound`, `C84_light_modify`, `C84_light_forest` | Histories of a pollard alone (LightSpec.light); C84_light_forest shows that they include all common histories with a forest. |
| C85 | The unit test simple_blockchain passes for every number of blocks and all random choices | proved | `C85_simple_blockchain` | The random numbers are an arbitrary function into the requested ranges. Modelled with CHECK_SAFE compiled out, as in the release build. The test itself (1000 blocks) is an instance. |
| C86 | The shuffle of the benchmarks selects any leaves, without repetition | proved | `C86_shuffle`, `C86_shuffle_any` |  |
| C87 | The benchmark VerifyElementsPollard measures the verification of accepted proofs | partial | `C87_verify_bench_refuted`, `C87_verify_bench_exact` | False: the hashes are passed to Verify in the random order in which they were selected. C87_verify_bench_exact: all runs accept if the selection is in the order of the leaves, otherwise all reject, unless a collision shows. Which selection a given rand() makes is not modelled. |
| C88 | The benchmarks of the forest measure successful calls | proved | `C88_forest_bench` |  |
| C89 | The other benchmarks complete, and the assertion of RestoreFromDiskForest never fails | proved | `C89_add_bench`, `C89_disk_bench` |  |
| C90 | The last setting of a command line argument decides | proved | `C90_args`, `C90_is_set` |  |
| C91 | GetIntArg returns the number, or 0 if the number is invalid | partial | `C91_int_arg_refuted`, `C91_int_arg_range_refuted`, `C91_int_arg_exact`, `C91_int_arg_default` | False: std::invalid_argument of stoi is not caught, and a number outside the range of int gives the default. C91_int_arg_exact and C91_int_arg_default give the result in every case. stoi is modelled from its specification, in the C locale. |
| C92 | AddArg aborts exactly for a name added before | proved | `C92_add_arg` |  |
| C93 | Only the leaves of a forest matter, not its history | proved | `C93_same_leaves`, `C93_reorganisation`, `C93_undo_batch` | An undo batch of one forest works with another with the same leaves exactly if that one has enough rows (see C12). |
| C94 | A fuzz target is selected by its name | partial | `C94_fuzz_targets_refuted`, `C94_fuzz_targets_first`, `C94_fuzz_targets_later`, `C94_fuzz_targets_twice` | False: the map g_targets may be used before it is constructed. It works exactly if fuzz.cpp is initialised first, as it is with linkers that follow the order of sources.mk. The order is a parameter of the model; constant initialisation of std::map, which the standard does not promise, is not assumed. |
| C95 | All benchmarks are registered | proved | `C95_benchmarks`, `C95_first` |  |
| C96 | The benchmark program runs what its command line asks for | proved | `C96_help`, `C96_no_number`, `C96_runs`, `C96_all` | Regular expressions and parseAsymptote are parameters. A benchmark is recorded as a call; nanobench is not modelled. The exceptions are those of C91 and of std::regex. |
| C97 | The help message shows every argument | proved | `C97_help_message`, `C97_twice` | The order of the entries of the map is a parameter. |

`_refuted` theorems give a concrete witness against the property as stated; `_partial` theorems prove what remains true.

## 5. How the main proofs go

* **Forest** (C01 to C05, C07): a row-by-row simulation. `Transform` on positions is related to
  `remove_rows`, which acts on lists of optional subtrees (`RowFacts`, `TransformFacts`,
  `SpecFacts`, `RemoveFacts`). The invariant `inv H f ls` says that every node of the
  forest has its Merkle hash and that the position map is the inverse of the leaves.
* **Undo** (C08, C09): the swaps are involutions, and the chain of undo batches is an invariant of
  histories (`UndoFacts`, `HistFacts`).
* **Disk** (C10 to C12): round trip over the byte list (`CommitFacts`, `DiskFacts`).
* **SHA** (C34, C35): the unrolled rounds with their register rotation equal the standard's loop;
  buffering equals padding of the whole message (`Sha512Facts`).
* **Hashers used again** (C78): the representation relation of C35 also holds after the padding was
  written, so that it carries through any sequence of calls (`ReuseFacts`).
* **Pollard** (C25 to C33, C40 to C44): `Rep` relates the heap to a partial map `L` from nodes to
  locations and a marking `M` of remembered leaves. The nieces of a node are the children of its
  sibling; a remembered leaf is marked in the node of its sibling. `PMark p ls M` adds that
  every stored node has its forest hash. Each operation is proved to preserve it, with the new
  marking given explicitly (`PollardOps` to `PollardHist`). Verification builds wrapper nodes top down
  (`PollardInit`, `PollardCreate`) and checks hashes bottom up (`PollardVerify`,
  `PollardVerifyMain`), each with a loop invariant that also covers every way to reject.
* **Printing** (C74): each number or hash is followed by a character that does not occur in it, so
  the text can be cut apart again.
* **Accepted proofs** (C40, C58, C76, C77): `takes` says how a list of hashes is used up by a list of
  nodes of which some are stored.  The invariant of `CreateProofTree` keeps the part used so far, so
  that the final verdict, and the overrun at a stored zero hash, follow from it (`AcceptFacts`).
* **Proofs a pollard makes** (C79): a stored node has its forest hash, so what Prove reads is the list
  of hashes of the forest; acceptance then follows from C76 (`OwnFacts`).
* **Remembered leaves** (C29, C55, C80): the invariant of the bottom-up walk says which leaves carry a
  marker at each point, so every way to stop gives the exact set (`PollardVerify.final`, `MarkFacts`).
  The check at pollard.cpp:592 reads the marker and the position map, so the same invariant tells when
  it fails (`CheckedExact`).
* **Deleted leaves and the order of hashes** (C82, C83): corollaries of C02, C06, C26 and C27, with the
  distinctness of the leaves of a reachable forest (`SpentFacts`).
* **Pollards alone** (C84): the invariant `PInv` of a pollard speaks of a sequence of leaves, not of a
  forest, and nowhere needs them to differ (`LightFacts`).
* **The test simple_blockchain** (C85): an invariant of its loop (`binv` in `UnitFacts`): forest and pollard
  are in sync, nothing is marked, the leaves are different test hashes, and the saved undo batches lead
  back through the saved roots. The test links the verify build; here `CHECK_SAFE` is compiled out.
* **The benchmarks** (C86 to C89): `random_unique` is followed round by round on the part not yet chosen
  (`BenchFacts`); C87 and C88 combine it with C06, C26, C39 and C83. For C89 the file of a forest is written
  as a function of its leaves (`content`).
* **Histories** (C93): by the invariant of reachable forests and C10; that the undo batches are equal follows
  from what an undo batch has to be (`entry_unique` in `TwinFacts`). When a batch works with another forest is
  C49 for that forest.
* **Registration** (C94, C95): a map that is not constructed yet is a separate state, whose use is `UB`
  (`RegisterModel`); induction over the files.
* **The benchmark program** (C96): C90 and C91 for its arguments, then induction over the benchmarks (`RunFacts`).
* **The help message** (C97): what AddArg splits is put together again (`entry_of` in `HelpFacts`).
* **The command line** (C90 to C92): `ArgsSpec` says what it means that an argument sets a name and that a
  text starts with a number; `ArgsFacts` shows by induction that the code agrees.
* **Foreign undo batches** (C49): `Undo` of any batch with valid positions is followed row by row
  (`undo_rows_lem` in `ForestMore`), whatever its hashes, which tells exactly when the final insertion
  of the leaves into the position map succeeds (`UndoExact`).
* **Unverified deletions** (C33, C81): the removal proof needs only that the nodes computed from the
  targets and their siblings are stored, not that the targets are remembered (`stocked` in
  `PollardRemove`). Without that, `hook_in_sibling` may insert a node with a zero hash, which is then
  hashed into a root (`UnverifiedExamples`).
* **Root positions** (C75): the merging loop of `Add`, the correction when the height grows and the
  selection of roots in `FinalizeRemove` are followed on the positions only (`merged`, `stepped`,
  `place`). `PlaceExact` follows the chain of added leaves (`steps`): a tree that stays keeps what its
  root carries unless the height grows. For `Verify`, the table of wrapper nodes keeps the right
  positions of the roots at its front.
* **Stale positions** (C73): the swaps of row 0 always find both leaves stored, so they update the
  position map; the swaps of higher rows update it for the stored leaves only, and those swaps do not
  change which leaves are stored. `P_Remove_mark` carries this through all rows (`EntryFacts`).
* **Memory** (C59): `tight` says that every stored node below a root has a remembered leaf below its
  parent. Every operation preserves it; for deletions this needs that the deletion of leaves commutes
  with a relabelling of the leaves (`ShapeFacts`), so that labels can carry along which leaves are
  remembered.
* **Crashes** (C11): the file is a header and a list of hashes at known offsets, so the file after a
  crash is opened like any other file of that length (C68); `at_split` says which bytes of each
  hash are new (`CrashFacts`).
* **Outside input** (C61 to C64): `TotalFacts` bounds every shift count and shows that the lists
  `Transform` takes apart are long enough, without assuming anything of the targets (a row with an
  odd number of targets keeps an odd number of targets without sibling). `FuzzFacts` runs the drivers
  symbolically on all inputs. Above 2^62 leaves (`FuzzBig`) every function returns or is `UB`, and the
  first shift by 64 is located.

## 6. Mutation tests

`seeded/LOG.jsonl` lists deliberate errors put into a copy of the model, which theorem failed
for each, and which theorem was tightened when none did. `first_failing` are the lemmas whose proofs no
longer compile, and `theorems_failed` the property theorems that rest on them. That a proof fails shows
that it depends on the edited line; it does not by itself show that the claim has become false, since
the proof of a claim that stays true may fail as well. Where that is known, the note says so. An entry
`survived` without a tightened theorem is an edit that leaves all claims true. The edits whose build ran
into the time limit are not listed.
