{"id": "C01", "title": "Forest roots are the Merkle roots of the current leaf sequence", "statement": "After any sequence of successful RamForest::Modify calls starting from RamForest(0), Roots() returns exactly the Merkle roots of the perfect trees into which the current leaf sequence splits (one tree per set bit of NumLeaves(), taller trees first, each inner hash being ParentHash(left,right)), NumLeaves() is the length of that sequence and GetLeaf(i) is its i-th element.", "quantifier": "all histories of Modify calls (any batch sizes, any valid target sets), all leaf hashes, all parent-hash functions", "why_tests_cant": "Unit tests run one random history of 1000 blocks; the row arithmetic, swap and rehash order depend on every pair (number of leaves, target set), of which there are exponentially many.", "anchors": ["src/accumulator.cpp: Accumulator::Add, Accumulator::Remove, Accumulator::Roots", "src/ram_forest.cpp: RamForest::Add, RamForest::SwapSubTrees, RamForest::MergeRoot, RamForest::FinalizeRemove, RamForest::Node::ReHash"]}
{"id": "C02", "title": "Modify deletes exactly the targets and appends exactly the new leaves", "statement": "A successful Modify(new_leaves, targets) leaves the forest with exactly the leaves that were not at a target position plus the new leaves: no survivor is lost, duplicated or altered, no target survives, and NumLeaves() becomes n - |targets| + |new_leaves|.", "quantifier": "all forest sizes, all valid target sets, all new leaf lists, in every reachable state", "why_tests_cant": "Tests check root equality for sampled target sets; a survivor lost at one particular (n, targets) pair is invisible elsewhere.", "anchors": ["src/state.cpp: ForestState::Transform, ComputeNextRowTargets, MakeSwaps, MakeCollapse, ConvertCollapses", "src/accumulator.cpp: Accumulator::Remove, Accumulator::Modify"]}
{"id": "C03", "title": "Deletion layout is canonical", "statement": "The order of leaves after a deletion is a function of the old order and the target positions only, namely the row-by-row rule: on every row deleted nodes are paired up left to right, the second one's sibling takes the first one's place, an odd one is filled by the row's root or else promotes its sibling to be the row's new root. Full forest and pollard therefore agree on every later position.", "quantifier": "all n, all sorted duplicate-free target lists below n, all leaf contents", "why_tests_cant": "The collapse conversion (rewriting a low row's destination through all higher rows' swaps) has a combinatorial number of shapes.", "anchors": ["src/state.cpp: ForestState::Transform, ConvertCollapses, SwapInRow, SwapIfDescendant, Ancestor"]}
{"id": "C04", "title": "A rejected Modify has no effect", "statement": "If the target list is unsorted, has duplicates, contains a position >= NumLeaves() or is longer than NumLeaves(), Modify returns false and the accumulator (leaves, roots, position map, stored nodes) is unchanged; otherwise target checking never rejects.", "quantifier": "all target lists and all states", "why_tests_cant": "Requires ruling out every partial mutation before the check and every accepted malformed list.", "anchors": ["src/accumulator.cpp: Accumulator::Modify, Accumulator::Remove", "src/state.cpp: ForestState::CheckTargetsSanity, IsSortedNoDupes"]}
{"id": "C05", "title": "Forest operations never hit undefined behaviour or a failed assertion", "statement": "From RamForest(0), Modify with fresh pairwise-distinct leaf hashes and any target list never reads or writes out of bounds, shifts by too much, dereferences an empty optional, throws or trips an assert, as long as the forest holds fewer than 2^31 leaves.", "quantifier": "all histories, all target lists, all sizes up to the stated bound", "why_tests_cant": "Absence of out-of-bounds access for every input cannot be sampled.", "anchors": ["src/ram_forest.cpp: RamForest::Read, SwapRange, MergeRoot, NewLeaf, FinalizeRemove, Add", "src/accumulator.cpp: Accumulator::Remove, Accumulator::Add"]}
{"id": "C06", "title": "Forest Prove succeeds exactly for present hashes and returns the canonical proof", "statement": "RamForest::Prove(proof, hashes) returns true iff every hash is a current leaf and no hash is repeated; on success proof.GetTargets()[i] is the position of hashes[i] (same order), GetSortedTargets() is that list sorted, and GetHashes() are the Merkle hashes of exactly the nodes a verifier cannot compute itself, ordered by row and then position. The forest is unchanged.", "quantifier": "all reachable forests, all hash lists", "why_tests_cant": "Needs the position map to be right after every swap in every history.", "anchors": ["src/accumulator.cpp: Accumulator::Prove, UpdatePositionMapForRange, UpdatePositionMapForSubtreeSwap", "src/state.cpp: ForestState::ProofPositions"]}
{"id": "C07", "title": "The forest's position map is the inverse of its leaf sequence", "statement": "In every reachable RamForest the position map contains exactly the current leaf hashes and maps each to its current position, so a deleted hash can never be proven and a surviving one always can.", "quantifier": "all histories of Modify and Undo", "why_tests_cant": "Positions move with every deletion; a stale entry shows up only for particular later proofs.", "anchors": ["src/accumulator.cpp: UpdatePositionMapForRange, UpdatePositionMapForSubtreeSwap", "src/ram_forest.cpp: RamForest::FinalizeRemove, RamForest::NewLeaf, RamForest::Undo"]}
{"id": "C08", "title": "Undo is the inverse of Modify", "statement": "If Modify(undo, leaves, targets) succeeds, then Undo(undo) on the result returns true and restores NumLeaves(), the leaf sequence, Roots(), the position map and every stored node hash to what they were before.", "quantifier": "all reachable forests, all modifications", "why_tests_cant": "The rollback of every (n, targets, adds) combination, including row count changes and truncated rows, cannot be enumerated.", "anchors": ["src/ram_forest.cpp: RamForest::Undo, BuildUndoBatch, RestoreRoots", "src/state.cpp: ForestState::UndoTransform, ForestState::Swap::ToLeaves"]}
{"id": "C09", "title": "Undoing a stack of modifications returns to any earlier state", "statement": "Undoing the last k modifications in reverse order, for any k up to the history length, returns true every time and restores the forest to its state k modifications ago.", "quantifier": "all histories and all k", "why_tests_cant": "Composition over unboundedly long histories.", "anchors": ["src/ram_forest.cpp: RamForest::Undo, RamForest::Modify"]}
{"id": "C10", "title": "Commit followed by reopening restores the forest", "statement": "For every reachable forest and every previous content of the backing file, Commit() and then constructing RamForest(file) yields a forest with the same NumLeaves(), leaves, Roots(), position map and proofs.", "quantifier": "all reachable forests with fewer than 2^31 leaves, all previous file contents", "why_tests_cant": "Depends on all sizes and on leftover bytes of a longer old file.", "anchors": ["src/ram_forest.cpp: RamForest::Commit, RamForest::Restore, RamForest::RestoreRoots"]}
{"id": "C11", "title": "A crash during Commit leaves either the old or the new forest on disk", "statement": "If the process dies after any prefix of the bytes written by Commit() reached the file, reopening yields the previously committed forest or the new one.", "quantifier": "all crash points (byte prefixes), all pairs of old and new forest", "why_tests_cant": "Crash points are not reachable from unit tests.", "anchors": ["src/ram_forest.cpp: RamForest::Commit, RamForest::Restore"]}
{"id": "C12", "title": "An undo batch stays usable after the forest is reopened", "statement": "If a modification was made, the forest committed and reopened from its file, Undo with the saved undo batch still restores the forest before the modification.", "quantifier": "all reachable forests, all modifications", "why_tests_cant": "Depends on the row vectors allocated by Restore compared with the rows of the earlier, larger forest.", "anchors": ["src/ram_forest.cpp: RamForest::Restore, RamForest::Undo"]}
{"id": "C13", "title": "BatchProof encoding round-trips", "statement": "For every BatchProof with fewer than 2^32 targets and hashes, all targets below 2^32 (and total encoding below 2^31 bytes), Unserialize(Serialize(p)) on a fresh object returns true and yields a proof equal to p with the same sorted targets.", "quantifier": "all batch proofs within the stated bounds", "why_tests_cant": "Infinite domain.", "anchors": ["src/batchproof.cpp: BatchProof::Serialize, BatchProof::Unserialize", "src/crypto/common.h: WriteBE32, ReadBE32"]}
{"id": "C14", "title": "BatchProof decoding accepts exactly canonical encodings and never reads out of bounds", "statement": "For every byte string (shorter than 2^31 bytes) Unserialize terminates without reading outside the buffer; it returns true iff the length is 8 + 4*targets + 32*hashes for the counts in the header; if it returns true, Serialize gives back exactly the input; if it returns false the object is unchanged.", "quantifier": "all byte strings", "why_tests_cant": "Adversarial input from the network; tests and fuzzing only sample.", "anchors": ["src/batchproof.cpp: BatchProof::Unserialize"]}
{"id": "C15", "title": "BatchProof encoding is injective on all legal proofs", "statement": "Two different legal proofs (targets are 64 bit positions) never serialize to the same bytes.", "quantifier": "all pairs of proofs", "why_tests_cant": "Needs targets beyond 32 bits, never reached in tests.", "anchors": ["src/batchproof.cpp: BatchProof::Serialize"]}
{"id": "C16", "title": "Unserialize overwrites whatever the BatchProof held before", "statement": "After Unserialize(bytes) returns true, GetSortedTargets() is the sorted list of GetTargets(), whatever the object contained before.", "quantifier": "all byte strings and all previous objects", "why_tests_cant": "Tests only decode into fresh objects.", "anchors": ["src/batchproof.cpp: BatchProof::Unserialize"]}
{"id": "C17", "title": "UndoBatch encoding round-trips", "statement": "For every UndoBatch whose numbers fit in 32 bits and with as many hashes as positions (fewer than 2^31 bytes), Unserialize(Serialize(u)) returns true and yields u.", "quantifier": "all undo batches within the bounds", "why_tests_cant": "Infinite domain.", "anchors": ["src/batchproof.cpp: UndoBatch::Serialize, UndoBatch::Unserialize"]}
{"id": "C18", "title": "UndoBatch decoding never reads outside the buffer", "statement": "For every byte string UndoBatch::Unserialize terminates without reading outside the buffer and returns true only if the length matches the header.", "quantifier": "all byte strings", "why_tests_cant": "The 32 bit length computation wraps only for specific large counts.", "anchors": ["src/batchproof.cpp: UndoBatch::Unserialize"]}
{"id": "C19", "title": "Position arithmetic is a consistent tree addressing", "statement": "For every forest of at most 2^63 leaves: DetectRow, RowOffset, Parent, LeftChild, Child, Sibling, RightSibling, Cousin, Ancestor and LeftDescendant agree with the coordinates (row, index) of a position: Parent and Child are inverse, Ancestor is iterated Parent, LeftDescendant is iterated LeftChild, DetectRow/RowOffset invert the numbering.", "quantifier": "all numbers of leaves up to 2^63, all rows, all positions", "why_tests_cant": "64 bit arithmetic with shifts; tests check 15 leaves.", "anchors": ["src/state.cpp: ForestState::Parent, Ancestor, LeftChild, Child, LeftDescendant, Cousin, RightSibling, Sibling, DetectRow, RowOffset, NumRows, MaxNodes"]}
{"id": "C20", "title": "Roots and paths address the right trees", "statement": "RootPositions() lists one position per set bit of the number of leaves, taller first, and the leaf ranges below these positions partition [0,n) in order; NumRoots/HasRoot/RootPosition/RootIndex agree with it; Path(pos) returns the tree containing pos, its depth below the root and bits that lead from the root to pos by taking children.", "quantifier": "all numbers of leaves, all positions in the forest", "why_tests_cant": "As C19.", "anchors": ["src/state.cpp: ForestState::RootPosition, RootPositions, NumRoots, HasRoot, RootIndex, Path"]}
{"id": "C21", "title": "ProofPositions is exactly the minimal proof", "statement": "For every valid target list ProofPositions(targets) returns as computed positions exactly the targets and all their ancestors inside the forest, and as proof positions exactly the siblings of computed non-root nodes that are not computed themselves, each once, ordered by row then position; proof and computed are disjoint.", "quantifier": "all n up to 2^63, all sorted duplicate-free targets below n", "why_tests_cant": "The four-way lookahead on cousins has many alignments.", "anchors": ["src/state.cpp: ForestState::ProofPositions"]}
{"id": "C22", "title": "CheckTargetsSanity characterises valid target lists", "statement": "CheckTargetsSanity(targets) is true iff targets is strictly increasing and every target is a leaf position (< number of leaves).", "quantifier": "all lists, all n", "why_tests_cant": "Universal over lists; includes the unsigned size()-1 edge.", "anchors": ["src/state.cpp: ForestState::CheckTargetsSanity, IsSortedNoDupes"]}
{"id": "C23", "title": "BatchProof::CheckSanity", "statement": "CheckSanity(n) is true iff the targets are distinct leaf positions of a forest with n leaves and there are at most as many hashes as proof positions.", "quantifier": "all proofs and all n up to 2^63", "why_tests_cant": "Universal over proofs.", "anchors": ["src/batchproof.cpp: BatchProof::CheckSanity"]}
{"id": "C24", "title": "Transform yields well-formed swaps and UndoTransform lists the same swaps on leaves", "statement": "For every valid target list every swap of Transform(targets) joins two existing nodes of the same row (the row of its list), and UndoTransform lists exactly the non-trivial swaps, in order, as the leaf ranges below the two nodes.", "quantifier": "all n up to 2^63, all valid target lists", "why_tests_cant": "Combinatorial.", "anchors": ["src/state.cpp: ForestState::Transform, ForestState::UndoTransform, ForestState::Swap::ToLeaves"]}
{"id": "C25", "title": "Pollard and forest agree on roots forever", "statement": "If a forest and a pollard start empty and process the same modifications, where the pollard successfully verifies a proof for the targets of each modification just before it, then after every modification their Roots() and NumLeaves() are equal, whatever subset of leaves was marked to be remembered and whatever other proofs the pollard verified or rejected in between.", "quantifier": "all histories, all remember flags, all interleaved Verify and Prune calls", "why_tests_cant": "Unbounded histories and pointer-tree shapes.", "anchors": ["src/pollard.cpp: Pollard::SwapSubTrees, MergeRoot, NewLeaf, FinalizeRemove, Verify", "src/accumulator.cpp: Accumulator::Modify"]}
{"id": "C26", "title": "Verify accepts every honest proof", "statement": "If a pollard is in sync with a forest, Verify accepts the proof returned by the forest's Prove for any set of leaves, given the target hashes ordered by position, whatever the pollard has cached.", "quantifier": "all reachable pollard/forest pairs, all target sets, all cache contents", "why_tests_cant": "Cache contents and target sets are unbounded.", "anchors": ["src/pollard.cpp: Pollard::Verify, CreateProofTree, VerifyProofTree, InitChildrenOfComputed"]}
{"id": "C27", "title": "Verify is sound", "statement": "If a pollard in sync with a leaf sequence accepts (proof, target_hashes), then target_hashes are exactly the leaves at the proof's sorted target positions, or two different child pairs with the same parent hash are exhibited.", "quantifier": "all byte-level proofs (adversarial), all target hashes, all cache contents", "why_tests_cant": "An adversary chooses the proof; soundness must hold for all of them.", "anchors": ["src/pollard.cpp: Pollard::Verify, CreateProofTree, VerifyProofTree, Node::ReHashAndVerify"]}
{"id": "C28", "title": "Verify never changes roots, and never poisons the cache", "statement": "Whatever the proof and hashes, Verify leaves Roots() and NumLeaves() unchanged, and every node it leaves cached carries the hash of the corresponding node of the committed forest (modulo parent-hash collisions), so later verifications are unaffected by earlier failed ones.", "quantifier": "all proofs, all states", "why_tests_cant": "Adversarial inputs and all cache shapes.", "anchors": ["src/pollard.cpp: Pollard::Verify, InternalNode::Chop, ChopLeft, ChopRight"]}
{"id": "C29", "title": "A failed Verify leaves the set of remembered leaves unchanged", "statement": "If Verify returns false then NumCachedLeaves() and the position map are what they were before.", "quantifier": "all proofs, all states", "why_tests_cant": "Needs a failure after part of the targets were already processed.", "anchors": ["src/pollard.cpp: Pollard::VerifyProofTree, Pollard::Verify, include/pollard.h: NumCachedLeaves"]}
{"id": "C30", "title": "A pollard can prove the leaves it remembers with correct positions", "statement": "Whenever a pollard remembers a leaf that is still in the accumulator, Prove on it succeeds and returns the same proof as the full forest.", "quantifier": "all histories", "why_tests_cant": "A stale position shows up only after a rehash pruned the leaf and a later deletion moved it.", "anchors": ["src/accumulator.cpp: Accumulator::Prove, UpdatePositionMapForRange", "src/pollard.cpp: Pollard::ReadLeafRange, Node::ReHash, InternalNode::Prune"]}
{"id": "C31", "title": "Prune keeps exactly the roots", "statement": "After Prune() the roots and NumLeaves() are unchanged, only the root nodes remain (CountNodes() equals the number of roots), NumCachedLeaves() is 0, and full proofs still verify.", "quantifier": "all reachable pollards", "why_tests_cant": "All cache shapes.", "anchors": ["src/pollard.cpp: Pollard::Prune, Pollard::CountNodes"]}
{"id": "C32", "title": "A pollard restored from roots is equivalent", "statement": "Pollard(roots, n) built from the Roots() and NumLeaves() of an accumulator accepts every honest proof and no wrong one, like the original.", "quantifier": "all accumulators, all proofs", "why_tests_cant": "All sizes and proofs.", "anchors": ["src/pollard.cpp: Pollard::Pollard(const std::vector<Hash>&, uint64_t)"]}
{"id": "C33", "title": "Remembered leaves can be deleted from a pollard without a prior Verify", "statement": "If every target of a modification is a leaf the pollard was told to remember when it was added (so that the pollard can itself Prove them), Modify deletes them without undefined behaviour and reaches the forest's roots.", "quantifier": "all histories", "why_tests_cant": "Only specific sibling patterns lose inner nodes to pruning.", "anchors": ["src/pollard.cpp: Pollard::SwapSubTrees, InternalNode::Prune"]}
{"id": "C34", "title": "ParentHash is SHA-512/256 of the concatenated children", "statement": "ParentHash(left,right) equals the SHA-512/256 digest (FIPS 180-4: IV, message schedule, 80 rounds, padding, truncation) of the 64 byte string left||right, always 32 bytes, and is order sensitive in its input encoding.", "quantifier": "all pairs of 32 byte hashes", "why_tests_cant": "Test vectors sample 2^512 inputs.", "anchors": ["src/accumulator.cpp: Accumulator::ParentHash", "src/crypto/sha512.cpp: Transform, Round, CSHA512::Write, CSHA512::Finalize256"]}
{"id": "C35", "title": "The hasher is insensitive to how its input is split", "statement": "For any sequence of Write calls the digest depends only on the concatenation of the written bytes (total length below 2^61 bytes) and equals the digest of the padded message.", "quantifier": "all lists of byte strings", "why_tests_cant": "All splits around the 128 byte block boundary.", "anchors": ["src/crypto/sha512.cpp: CSHA512::Write, CSHA512::Finalize, CSHA512::Finalize256"]}
{"id": "C36", "title": "Adding in batches equals adding one by one", "statement": "Adding l1++l2 in one Modify gives the same observable accumulator (leaves, roots, position map) as adding l1 and then l2.", "quantifier": "all splits of all leaf lists, all reachable states", "why_tests_cant": "Preallocation and resizing of rows depend on batch boundaries.", "anchors": ["src/ram_forest.cpp: RamForest::Add", "src/accumulator.cpp: Accumulator::Add"]}
{"id": "C37", "title": "Equality operators mean observable equality", "statement": "BatchProof::operator== holds iff targets and hashes are equal; UndoBatch::operator== iff all three fields are; RamForest::operator== on reachable forests holds iff the leaf sequences are equal (modulo nothing: it compares number of leaves, roots and position map).", "quantifier": "all pairs of objects", "why_tests_cant": "Universal over pairs.", "anchors": ["src/batchproof.cpp: BatchProof::operator==, UndoBatch::operator==", "src/ram_forest.cpp: RamForest::operator=="]}
{"id": "C38", "title": "Adding a leaf that is already present is never silently accepted by the forest", "statement": "RamForest::Modify whose new leaves repeat each other or a surviving leaf does not return: it stops with a failed assertion instead of corrupting the position map silently.", "quantifier": "all states, all leaf lists", "why_tests_cant": "Universal over leaf lists.", "anchors": ["src/ram_forest.cpp: RamForest::Add (assert on m_posmap.size())"]}
{"id": "C39", "title": "RamForest::Verify accepts only proofs that prove the given hashes", "statement": "If RamForest::Verify(proof, hashes) returns true, then the proof's targets are the positions of the hashes and its hashes lead to the forest's roots.", "quantifier": "all reachable forests, all proofs, all hash lists", "why_tests_cant": "A test would have to try wrong proofs for right hashes.", "anchors": ["src/ram_forest.cpp: RamForest::Verify"]}
{"id": "C40", "title": "Verify returns for every proof", "statement": "On a pollard in sync with a forest, Verify of any proof and any target hashes returns true or false: it performs no undefined behaviour, throws nothing, fails no assertion and terminates.", "quantifier": "all reachable pollards, all proofs (adversarial), all target hashes", "why_tests_cant": "The only failure needs a stored all-zero hash together with a proof that is too short.", "anchors": ["src/pollard.cpp: Pollard::Verify, Pollard::CreateProofTree (++proof_hash), Pollard::VerifyProofTree"]}
{"id": "C41", "title": "CountNodes counts the readable positions", "statement": "On a pollard in sync with a forest, Pollard::CountNodes equals the number of positions of the forest for which Pollard::Read returns a hash: every stored node is reachable at exactly one position and nothing is counted twice.", "quantifier": "all common histories of a pollard and a forest", "why_tests_cant": "Niece/aunt swapping decides where a node is reachable; a leak or a double count needs a particular history of deletions and verifications.", "anchors": ["src/pollard.cpp: Pollard::CountNodes, Pollard::Read, InternalNode (nieces)"]}
{"id": "C42", "title": "NumCachedLeaves is the number of remembered leaves", "statement": "NumCachedLeaves is at least the number of leaves the pollard was told to remember (added with the remember flag or contained in an accepted proof, and neither deleted nor pruned since) and exceeds it at most by leaves that were targets of rejected proofs.", "quantifier": "all common histories of a pollard and a forest, with any mix of verification, rejection, pruning, deletion and addition", "why_tests_cant": "Marks move with the swaps of Remove; a lost or doubled mark shows only for particular deletions.", "anchors": ["src/pollard.cpp: Pollard::NumCachedLeaves, Pollard::Add, Pollard::Verify, Pollard::SwapSubTrees, InternalNode::Chop, Pollard::Prune"]}
{"id": "C43", "title": "A remembered leaf keeps its proof", "statement": "For every leaf the pollard was told to remember and that was not deleted or pruned since, all the nodes needed to prove it are stored in the pollard, and Read returns for them the same hash as the forest.", "quantifier": "all common histories, all remembered leaves, all nodes of their proofs", "why_tests_cant": "Pruning happens inside Add, Remove and Verify; that it never removes a needed node depends on the marks of all leaves below.", "anchors": ["src/pollard.cpp: InternalNode::Prune, Pollard::Add, Pollard::Remove, Pollard::SwapSubTrees"]}
{"id": "C44", "title": "The pollard accepts the proofs it makes", "statement": "The position map of a pollard has the right position of every leaf it was told to remember; a proof that Pollard::Prove returns is accepted by the same pollard.", "quantifier": "all common histories, all remembered leaves", "why_tests_cant": "The stale entry needs a leaf that moves while its own node is not stored.", "anchors": ["src/pollard.cpp: Pollard::Prove, Pollard::UpdatePositionMapForRange, Accumulator::UpdatePositionMapForSubtreeSwap, Pollard::FinalizeRemove"]}
{"id": "C45", "title": "A proof survives the wire", "statement": "A proof the forest makes, serialized, read into a new BatchProof and given to a pollard in step with the forest, is accepted, and the pollard stays in step.", "quantifier": "all common histories, all sets of present leaves whose proof fits in 2^31 bytes, all hash functions with 32-byte values", "why_tests_cant": "Unit tests check encoding and verification apart and on small proofs.", "anchors": ["src/ram_forest.cpp: RamForest::Prove", "src/batchproof.cpp: BatchProof::Serialize, BatchProof::Unserialize", "src/pollard.cpp: Pollard::Verify"]}
{"id": "C46", "title": "An undo batch survives the wire", "statement": "The undo batch of a modification, serialized, read into any UndoBatch object and given to Undo, restores the forest from before the modification.", "quantifier": "all reachable forests, all modifications, all objects to read into", "why_tests_cant": "Needs the order of the stored hashes to survive for every pattern of deletions.", "anchors": ["src/batchproof.cpp: UndoBatch::Serialize, UndoBatch::Unserialize", "src/ram_forest.cpp: RamForest::Undo, RamForest::BuildUndoBatch"]}
{"id": "C47", "title": "An undo batch holds exactly the deleted leaves", "statement": "The undo batch of a successful modification has the number of additions, the targets, and the hashes of the deleted leaves, each once and nothing else.", "quantifier": "all reachable forests, all modifications", "why_tests_cant": "The hashes are read after the swaps, from the end of the leaf row, which depends on all swaps.", "anchors": ["src/ram_forest.cpp: RamForest::BuildUndoBatch"]}
{"id": "C48", "title": "Size of a proof", "statement": "A proof of k leaves has k targets, at most k hashes per row of the forest, and never more hashes than the forest has leaves.", "quantifier": "all reachable forests, all lists of present leaves", "why_tests_cant": "An upper bound over all target sets.", "anchors": ["src/ram_forest.cpp: RamForest::Prove", "src/state.cpp: ForestState::ProofPositions"]}
{"id": "C49", "title": "Undo rejects foreign batches", "statement": "Undo of any decodable batch either undoes it to a consistent forest or returns false with the forest unchanged.", "quantifier": "all reachable forests, all undo batches that can be read from bytes (adversarial)", "why_tests_cant": "Tests only undo what was just done.", "anchors": ["src/ram_forest.cpp: RamForest::Undo"]}
{"id": "C50", "title": "ComparePositionMap compares", "statement": "ComparePositionMap(a, b) returns true exactly if every leaf of a has the same position in b.", "quantifier": "all pairs of reachable forests", "why_tests_cant": "Tests only compare maps with the same keys.", "anchors": ["src/accumulator.cpp: Accumulator::ComparePositionMap"]}
{"id": "C51", "title": "A RamForest constructed with a leaf count is usable", "statement": "RamForest(n) gives a forest to which leaves can be added and that can be committed.", "quantifier": "all n > 0, all additions", "why_tests_cant": "Tests construct empty forests or read them from a file.", "anchors": ["src/ram_forest.cpp: RamForest::RamForest, RamForest::Commit, RamForest::~RamForest"]}
{"id": "C52", "title": "Pollard nodes are owned once", "statement": "From the roots of a pollard only existing nodes are reached, there are no cycles, and every node other than the remember marker is pointed to from exactly one place; so reference counting frees all that is no longer reachable and nothing that is.", "quantifier": "all common histories of a pollard and a forest", "why_tests_cant": "Nieces are exchanged between siblings by swaps, pruning and verification; sharing or a cycle (a leak) would go unnoticed by a test.", "anchors": ["src/pollard.cpp: InternalNode (m_nieces)", "src/pollard.cpp: Pollard::SwapSubTrees, Pollard::NewLeaf, Pollard::MergeRoot, Pollard::CreateProofTree, InternalNode::Prune"]}
{"id": "C53", "title": "The internal checks of the forest never fail", "statement": "In the build with UTREEXO_VERIFY, where CHECK_SAFE stops the program, Modify (with and without undo) and Undo of a forest do exactly what they do without the checks.", "quantifier": "all reachable forests, all modifications, all undo batches of the history", "why_tests_cant": "The unit tests run with the checks on, but only on a few histories.", "anchors": ["src/check.h: CHECK_SAFE", "src/state.cpp: ForestState::LeftChild, ForestState::LeftDescendant", "src/accumulator.cpp: Accumulator::Add", "src/ram_forest.cpp: RamForest::Undo"]}
{"id": "C54", "title": "A pollard knows only leaves that exist", "statement": "The position map of a pollard holds only hashes of leaves of the forest; so Prove never makes a proof for an absent hash, and the check in Add that new leaves are unknown never fails.", "quantifier": "all common histories of a pollard and a forest", "why_tests_cant": "Entries are added by Add and Verify, moved by swaps and dropped by FinalizeRemove; one forgotten entry shows only much later.", "anchors": ["src/pollard.cpp: Pollard::FinalizeRemove, Pollard::Prove, Pollard::Verify", "src/accumulator.cpp: Accumulator::Add, Accumulator::UpdatePositionMapForRange"]}
{"id": "C55", "title": "The internal check of Verify never fails", "statement": "The build with UTREEXO_VERIFY and the release build give the same result of Pollard::Verify.", "quantifier": "all common histories of a pollard and a forest, all proofs", "why_tests_cant": "The check relates cached nodes, the remember marker and the position map, after any history of accepted and rejected proofs.", "anchors": ["src/pollard.cpp: Pollard::VerifyProofTree"]}
{"id": "C56", "title": "Roots determine the leaves", "statement": "Two forests (or two pollards) with the same number of leaves and the same roots hold the same leaves in the same order, unless their Merkle hashes contain two different pairs with the same parent hash.", "quantifier": "all pairs of reachable forests, all pairs of pollards in step with some forest, every hash function", "why_tests_cant": "A test compares forests it built; binding is about any two histories with equal roots.", "anchors": ["src/ram_forest.cpp: RamForest::Roots", "src/pollard.cpp: Pollard::Roots", "src/accumulator.cpp: Accumulator::ParentHash"]}
{"id": "C57", "title": "Accepted proofs cannot be altered", "statement": "Every proof a pollard accepts is the proof the forest makes for these leaves, with the same targets and the same hashes in the same order, possibly with some hashes left out; otherwise the pollard shows a hash collision.", "quantifier": "all common histories of a pollard and a forest, all well-formed proofs, every hash function", "why_tests_cant": "Tests alter a few bytes of a few proofs; malleability is about all accepted proofs.", "anchors": ["src/pollard.cpp: Pollard::CreateProofTree, Pollard::VerifyProofTree, Pollard::Verify", "src/ram_forest.cpp: RamForest::Prove"]}
{"id": "C58", "title": "The verdict on a proof depends only on the roots", "statement": "Two pollards of the same forest accept the same proofs.", "quantifier": "all pairs of pollards in step with one forest, all well-formed proofs", "why_tests_cant": "What a pollard stores differs after any history of verifications, prunings and modifications.", "anchors": ["src/pollard.cpp: Pollard::CreateProofTree, Pollard::Verify"]}
{"id": "C59", "title": "A pollard stores only roots and proofs of remembered leaves", "statement": "Every node a pollard stores is a root, or lies on the path of a leaf it was told to remember, or is the sibling of such a node; so it stores at most two nodes per row and remembered leaf beside the roots.", "quantifier": "all common histories of a pollard and a forest", "why_tests_cant": "Nodes that are not dropped (a leak) change no result; tests check node counts only in two small cases.", "anchors": ["src/pollard.cpp: InternalNode::Prune, Pollard::SwapSubTrees, Pollard::MergeRoot, Pollard::FinalizeRemove, Pollard::VerifyProofTree, Pollard::InitChildrenOfComputed, Pollard::Node::ReHash"]}
{"id": "C60", "title": "Remembered leaves stay in the position map", "statement": "A leaf that a pollard was told to remember has an entry in its position map until the leaf is deleted or the pollard is pruned.", "quantifier": "all common histories of a pollard and a forest", "why_tests_cant": "Entries are erased and overwritten by swaps and deletions of other leaves.", "anchors": ["src/pollard.cpp: Pollard::FinalizeRemove, Pollard::Verify, Pollard::NewLeaf", "src/accumulator.cpp: Accumulator::UpdatePositionMapForSubtreeSwap"]}
{"id": "C61", "title": "Position functions return for every target list", "statement": "RootPositions, ProofPositions, Transform, UndoTransform and CheckTargetsSanity return, without undefined behaviour, failed assertion or exception, for every list of targets: unsorted, with duplicates, out of range.", "quantifier": "all numbers of leaves up to 2^62, all lists of targets", "why_tests_cant": "Shift counts and vector accesses depend on the targets in many ways; fuzzing samples them.", "anchors": ["src/state.cpp: ForestState::ProofPositions, ForestState::Transform, ForestState::UndoTransform, ForestState::ComputeNextRowTargets, ForestState::MakeSwaps, ForestState::MakeCollapse, ForestState::ConvertCollapses, Swap::ToLeaves"]}
{"id": "C62", "title": "The fuzz target batchproof never fails", "statement": "On every input the target returns: decoding and re-encoding gives the same bytes whenever decoding succeeds.", "quantifier": "all byte strings", "why_tests_cant": "A fuzzer samples inputs.", "anchors": ["src/fuzz/batchproof.cpp", "src/fuzz/fuzz.h", "src/batchproof.cpp: BatchProof::Unserialize, BatchProof::Serialize"]}
{"id": "C63", "title": "The fuzz target forest_state never fails", "statement": "On every input the target returns without undefined behaviour.", "quantifier": "all byte strings", "why_tests_cant": "A fuzzer samples inputs and does not stop at undefined shifts unless it is told to.", "anchors": ["src/fuzz/forest_state.cpp", "src/state.cpp: ForestState::RootPosition, ForestState::ProofPositions, ForestState::Transform, ForestState::UndoTransform"]}
{"id": "C64", "title": "The fuzz target pollard never fails", "statement": "On every input the target returns: forest and pollard accept the same leaves, the forest's proof is accepted, the proof with its first hash zeroed is rejected, and after the deletion both have the same roots; unless a node hashes to zero or a hash collision shows.", "quantifier": "all byte strings, every hash function", "why_tests_cant": "A fuzzer samples inputs.", "anchors": ["src/fuzz/pollard.cpp", "src/ram_forest.cpp", "src/pollard.cpp"]}
{"id": "C65", "title": "Numbers are written in the same byte order on every machine", "statement": "ReadBE32/64, WriteBE32/64, ReadLE16/32/64 and WriteLE16/32/64 read and write the bytes in the order of their names, on little and big endian machines, with the byte swaps and conversions of compat/ or those of the system; so what one machine writes another reads.", "quantifier": "all machines and configurations, all numbers, all buffers and offsets", "why_tests_cant": "Tests run on one machine with one configuration.", "anchors": ["src/crypto/common.h: ReadLE16, ReadLE32, ReadLE64, WriteLE16, WriteLE32, WriteLE64, ReadBE32, ReadBE64, WriteBE32, WriteBE64", "src/compat/endian.h", "src/compat/byteswap.h: bswap_16, bswap_32, bswap_64", "src/ram_forest.cpp: RamForest::LeafHasher", "configure.ac"]}
{"id": "C66", "title": "CountBits counts bits", "statement": "CountBits returns the smallest k with x >> k = 0, at most 64.", "quantifier": "all 64 bit numbers", "why_tests_cant": "There are 2^64 inputs; tests reach the function only through small forests.", "anchors": ["src/crypto/common.h: CountBits"]}
{"id": "C67", "title": "The file depends only on the leaves", "statement": "Commit writes the number of leaves and then the Merkle hashes of all nodes, row by row from the bottom and left to right; whatever history led to the leaves, the bytes are the same. Bytes of the old file beyond that stay.", "quantifier": "all reachable forests, all old file contents", "why_tests_cant": "Tests compare forests after reopening, never the bytes of the file, and only for a few histories.", "anchors": ["src/ram_forest.cpp: RamForest::Commit"]}
{"id": "C68", "title": "A damaged file is detected", "statement": "Opening a file that was cut or changed does not yield a forest whose roots disagree with its leaves, and reads nothing it was not given.", "quantifier": "all file contents", "why_tests_cant": "Tests open only files that Commit wrote.", "anchors": ["src/ram_forest.cpp: RamForest::Restore, RamForest::RamForest"]}
{"id": "C69", "title": "Opening and closing a file leaves it unchanged", "statement": "If a file can be opened, the Commit made by closing it writes back exactly the bytes that are there.", "quantifier": "all file contents with fewer than 2^31 leaves", "why_tests_cant": "Needs arbitrary file contents; tests open only files that Commit wrote and do not compare bytes.", "anchors": ["src/ram_forest.cpp: RamForest::Restore, RamForest::Commit"]}
{"id": "C70", "title": "A pollard told to remember every leaf behaves like the forest", "statement": "If a pollard is told to remember every leaf, it can follow every modification of the forest without being given proofs, and it then has the same roots, position map, node hashes and proofs as the forest, and accepts its own proofs.", "quantifier": "all hash functions, all histories of additions, deletions and verified proofs with fewer than 2^31 leaves in which every leaf is to be remembered", "why_tests_cant": "Needs every history; tests follow a forest with a pollard only through short fixed sequences, and not with proofs made by the pollard after deletions.", "anchors": ["src/pollard.cpp: InternalNode::Prune, Pollard::SwapSubTrees, Pollard::FinalizeRemove, Pollard::Read", "src/accumulator.cpp: Accumulator::UpdatePositionMapForRange, Accumulator::Prove, Accumulator::Remove"]}
{"id": "C71", "title": "SwapSubTrees exchanges two subtrees, also when a sibling is not stored", "statement": "If a node and another node of its row are stored, or the other one is its sibling, SwapSubTrees exchanges the stored parts of the two subtrees and changes nothing else, except that a sibling that is not stored is replaced by a node with the hash zero. In all other cases it does not return.", "quantifier": "all hash functions, all histories of the pollard with fewer than 2^31 leaves, all pairs of nodes of one row", "why_tests_cant": "The function is private, and when deletions are proven first the siblings are always stored, so tests never reach the code for missing siblings.", "anchors": ["src/pollard.cpp: Pollard::SwapSubTrees, Pollard::ReadSiblings"]}
{"id": "C72", "title": "A pollard's position map can be compared with that of its forest", "statement": "Comparing the position map of a pollard with that of the forest it follows never touches a missing entry, in whatever order the map is iterated, and says whether every position the pollard knows is right; if the pollard was told to remember every leaf the comparison succeeds in both directions.", "quantifier": "all hash functions, all histories of the pollard with fewer than 2^31 leaves, all iteration orders", "why_tests_cant": "The iteration order of an unordered map is not under the control of a test, and the histories are unbounded.", "anchors": ["src/accumulator.cpp: Accumulator::ComparePositionMap"]}
{"id": "C73", "title": "A pollard knows the position of every remembered leaf whose hash it still stores", "statement": "A right position in a pollard's position map stays right through a modification unless the pollard does not store the hash of the leaf afterwards; then the map says where the leaf was after the swaps of the lowest row. So a leaf whose hash has been stored after every modification since its position was learned has the right position, and the pollard proves it as the forest does.", "quantifier": "all hash functions, all histories of the pollard with fewer than 2^31 leaves, all leaves not added again by the modification", "why_tests_cant": "Needs every pattern of deletions and remembered leaves; whether a stale position does harm depends on which nodes happen to be stored.", "anchors": ["src/accumulator.cpp: Accumulator::UpdatePositionMapForRange, Accumulator::UpdatePositionMapForSubtreeSwap, Accumulator::Remove", "src/pollard.cpp: Pollard::SwapSubTrees, Pollard::ReadLeafRange"]}
{"id": "C74", "title": "What is printed determines what was there", "statement": "HexStr writes bytes so that reading the text as hexadecimal gives them back. Two batch proofs, undo batches, position maps, lists of roots, lists of positions or lists of swaps that are printed alike have the same content.", "quantifier": "all byte strings, all batch proofs and undo batches with 32 byte hashes, all position maps in all iteration orders, all forests and pollards with 32 byte root hashes", "why_tests_cant": "Injectivity is about all pairs of values; the output is only looked at by people and no test compares it.", "anchors": ["src/accumulator.cpp: HexStr, Accumulator::PrintPositionMap, Accumulator::PrintRoots", "src/batchproof.cpp: HexStr, BatchProof::Print, UndoBatch::Print", "src/state.cpp: print_vector, print_swaps"]}
{"id": "C75", "title": "PrintRoots shows each root with its position", "statement": "After every history the position stored in each root of a forest or pollard, which PrintRoots shows, is the position of that root in the numbering of the current forest.", "quantifier": "all hash functions, all histories of forest and pollard with fewer than 2^31 leaves", "why_tests_cant": "Needs every history; nothing but PrintRoots reads the stored position before it is set again, so no test notices a wrong one.", "anchors": ["src/accumulator.cpp: Accumulator::Add, Accumulator::PrintRoots", "src/ram_forest.cpp: RamForest::FinalizeRemove, RamForest::RestoreRoots", "src/pollard.cpp: Pollard::FinalizeRemove, Pollard::CreateProofTree"]}
{"id": "C76", "title": "A proof is accepted exactly when it supplies what is missing", "statement": "A pollard accepts a proof if and only if the targets are valid, the target hashes are those of the leaves, and the hashes of the proof, used up in order and left out where the pollard stores them, give every needed node the hash it has in the forest; otherwise the pollard shows a hash collision.", "quantifier": "all common histories of a pollard and a forest, all well-formed proofs and target hashes, every hash function", "why_tests_cant": "Both directions quantify over all proofs, honest or not, and over all states of the cache; tests try one full proof on one cache.", "anchors": ["src/pollard.cpp: Pollard::Verify, Pollard::CreateProofTree, Pollard::VerifyProofTree"]}
{"id": "C77", "title": "Verifying a proof takes nothing away", "statement": "After Verify of any proof, accepted or rejected, every proof accepted before is still accepted; an accepted proof is accepted again; after a rejected proof the verdict on every proof is what it was.", "quantifier": "all common histories of a pollard and a forest, all pairs of proofs, every hash function", "why_tests_cant": "Quantifies over pairs of proofs and all cache contents; a rejected proof must restore the pollard exactly.", "anchors": ["src/pollard.cpp: Pollard::Verify, Pollard::CreateProofTree, Pollard::InitChildrenOfComputed"]}
{"id": "C78", "title": "A hasher can be used again", "statement": "Over its whole life, with Write, Finalize, Finalize256 and Reset called in any order, a CSHA512 gives the digest of what was written; Reset brings it back to the state it was constructed in.", "quantifier": "all sequences of calls with fewer than 2^61 bytes between resets, both constructors, every content of the uninitialised buffer", "why_tests_cant": "Needs all interleavings; after Reset a hasher constructed for SHA-512/256 computes SHA-512, and no code in the repository calls Reset.", "anchors": ["src/crypto/sha512.cpp: CSHA512::Write, CSHA512::Finalize, CSHA512::Finalize256, CSHA512::Reset"]}
{"id": "C79", "title": "Pollard::Prove makes exactly the proofs it has the nodes for", "statement": "Prove always returns; it gives a proof exactly if every hash has an entry in the position map, the entries are distinct leaf positions and all needed nodes are stored. The proof is the one the forest makes of the leaves at these positions, and every pollard of the same forest accepts it with the hashes of these leaves and no others.", "quantifier": "all common histories of a pollard and a forest, all lists of hashes, every hash function", "why_tests_cant": "Quantifies over all cache contents; the case of an entry without the needed nodes arises only after deletions that leave a stale entry.", "anchors": ["src/accumulator.cpp: Accumulator::Prove", "src/pollard.cpp: Pollard::Read, Pollard::Verify"]}
{"id": "C80", "title": "The remembered leaves are exactly those the history tells", "statement": "The set of leaves a pollard remembers is determined by its history: flagged additions and targets of accepted proofs enter, deleted leaves leave, Prune empties it, and a rejected proof adds exactly its targets up to the first one stored with another hash, if it got as far as comparing hashes and the node that keeps the marker was stored. NumCachedLeaves is the size of that set.", "quantifier": "all common histories of a pollard and a forest, with rejected proofs, every hash function", "why_tests_cant": "Needs failures at every point of a verification, followed by any other operations.", "anchors": ["src/pollard.cpp: Pollard::VerifyProofTree, Pollard::Verify, Pollard::Prune", "src/accumulator.cpp: Accumulator::Modify", "include/pollard.h: NumCachedLeaves"]}
{"id": "C81", "title": "A modification of a pollard never reports success with wrong roots", "statement": "If Modify with deletions returns true on a pollard that shares its history with a forest, the pollard has the roots of the forest after the same modification, even if no proof was verified for the deleted leaves.", "quantifier": "all common histories of a pollard and a forest, all deletions, verified before or not, every hash function", "why_tests_cant": "Most unverified deletions crash or give the right roots by luck; wrong roots need a particular cached subset.", "anchors": ["src/accumulator.cpp: Accumulator::Modify, Accumulator::Remove", "src/pollard.cpp: Pollard::SwapSubTrees"]}
{"id": "C82", "title": "A deleted leaf cannot be proved any more", "statement": "After a leaf was deleted, and until its hash is added again, the forest makes no proof of any list of hashes that contains it, and a pollard that follows the forest accepts no proof with it among the target hashes, whoever made the proof, unless the pollard then shows a hash collision.", "quantifier": "all reachable forests, all deletions, all sequences of later modifications and reopenings, all pollards with that forest's history, all proofs and target hashes, every hash function", "why_tests_cant": "A double spend may use any proof at any later time; tests try only a few proofs of their own.", "anchors": ["src/accumulator.cpp: Accumulator::Modify, Accumulator::Prove", "src/pollard.cpp: Pollard::Verify"]}
{"id": "C83", "title": "A proof is accepted with the hashes in the order given to Prove", "statement": "If Prove of a forest makes a proof of a list of hashes, every pollard with the same history accepts that proof together with the same list of hashes.", "quantifier": "all common histories of a pollard and a forest, all lists of hashes in any order, every hash function", "why_tests_cant": "Tests pass hashes in the order of their positions; Prove keeps the order given, Verify expects the order of the positions.", "anchors": ["src/accumulator.cpp: Accumulator::Prove", "src/pollard.cpp: Pollard::VerifyProofTree, Pollard::Verify"]}
{"id": "C84", "title": "A pollard works without a forest, also with equal leaves", "statement": "A pollard that starts empty or from roots and is modified after accepted proofs always has the Merkle roots of its sequence of leaves, in which equal hashes may occur. It accepts the full proof of any of its leaves, accepts nothing else than its leaves at their positions unless a collision shows, and after an accepted proof the modification succeeds.", "quantifier": "all histories of a pollard alone, all sequences of leaves with repetitions, all proofs, every hash function", "why_tests_cant": "RamForest refuses equal leaves, so tests that compare a pollard with a forest never have any.", "anchors": ["src/pollard.cpp: Pollard::Verify, Pollard::NewLeaf", "src/accumulator.cpp: Accumulator::Modify"]}
{"id": "C85", "title": "The unit test simple_blockchain passes for every number of blocks and all random choices", "statement": "The program of the unit test simple_blockchain ends without a failed check and without undefined behaviour, unless a node over some of its leaves hashes to zero, or a pollard in sync with a forest over such leaves accepts a proof and shows a collision of the hash function.", "quantifier": "all numbers of blocks for which fewer than 2^31 leaves are made, all sequences of random numbers in the requested ranges, every hash function", "why_tests_cant": "The test runs 1000 blocks with one seed of the random engine.", "anchors": ["src/test/accumulator_tests.cpp: simple_blockchain"]}
{"id": "C86", "title": "The shuffle of the benchmarks selects any leaves, without repetition", "statement": "random_unique permutes the elements, whatever rand() returns, if there are at least as many as are wanted; otherwise it divides by zero. Every selection in every order comes about for some values of rand().", "quantifier": "all lists of all types, all numbers of elements wanted, all values of rand()", "why_tests_cant": "It is called in benchmarks only, which check nothing.", "anchors": ["src/bench/util/leaves.h: random_unique"]}
{"id": "C87", "title": "The benchmark VerifyElementsPollard measures the verification of accepted proofs", "statement": "Every call of Verify that the benchmark VerifyElementsPollard times returns true.", "quantifier": "all numbers of leaves below 2^31, all values of rand(), all numbers of runs, every hash function", "why_tests_cant": "The benchmark ignores the result of Verify. Prove gets the selected hashes in random order, and Verify expects them in the order of their positions.", "anchors": ["src/bench/pollard.cpp: VerifyElementsPollard", "src/bench/util/leaves.h: random_unique", "src/pollard.cpp: Pollard::Verify"]}
{"id": "C88", "title": "The benchmarks of the forest measure successful calls", "statement": "In ProveElementsForest Prove succeeds with the selected leaves as targets, in VerifyElementsForest Verify returns true, and in RemoveElementsForest the deletion succeeds and leaves exactly the leaves that were not selected.", "quantifier": "all numbers of leaves below 2^31, all values of rand(), every hash function", "why_tests_cant": "The benchmarks ignore the results of the calls.", "anchors": ["src/bench/ram_forest.cpp: ProveElementsForest, VerifyElementsForest, RemoveElementsForest"]}
{"id": "C89", "title": "The other benchmarks complete, and the assertion of RestoreFromDiskForest never fails", "statement": "Adding the test leaves succeeds, with the same forest from Add and from Modify; the pollard restored from its roots is in sync with the forest; and opening and closing a forest on disk any number of times finds all leaves and leaves the file as it was.", "quantifier": "all numbers of leaves below 2^31, all numbers of runs, every hash function (with values of 32 bytes for the file)", "why_tests_cant": "The benchmarks run with a few fixed numbers of leaves and check only the number of leaves.", "anchors": ["src/bench/ram_forest.cpp: AddElements, RestoreFromDiskForest", "src/bench/pollard.cpp: AddElementsPollard, RestorePollard"]}
{"id": "C90", "title": "The last setting of a command line argument decides", "statement": "GetArg returns the value that the last argument setting the name gives it (the text after the first equality sign, or nothing), and the default if no argument sets it; IsArgSet tells whether some argument sets it.", "quantifier": "all command lines, all names and defaults", "why_tests_cant": "There are no tests of the command line.", "anchors": ["src/bench/util/args.cpp: ArgsManager::ParseParameters, GetArg, IsArgSet"]}
{"id": "C91", "title": "GetIntArg returns the number, or 0 if the number is invalid", "statement": "As args.h says, GetIntArg returns the number in the argument, 0 if it is not a number, and the default if the argument is not set.", "quantifier": "all command lines, all names and defaults", "why_tests_cant": "There are no tests of the command line.", "anchors": ["src/bench/util/args.cpp: ArgsManager::GetIntArg", "src/bench/util/args.h: GetIntArg"]}
{"id": "C92", "title": "AddArg aborts exactly for a name added before", "statement": "AddArg records the text before the first equality sign as the name and the rest as its parameter, and fails its assertion exactly if the name was added before.", "quantifier": "all sets of known arguments, all names and help texts", "why_tests_cant": "There are no tests of the command line.", "anchors": ["src/bench/util/args.cpp: ArgsManager::AddArg"]}
{"id": "C93", "title": "Only the leaves of a forest matter, not its history", "statement": "Two forests that hold the same leaves accept and reject the same modifications, hand out the same undo batches, make the same proofs and accept the same ones, and agree again afterwards. So after modifications that were undone, others go as if the first had never been made.", "quantifier": "all pairs of reachable forests with the same leaves, all modifications, all sequences of modifications, every hash function", "why_tests_cant": "Forests with the same leaves can differ in the number of rows they allocated; tests compare a few histories only.", "anchors": ["src/ram_forest.cpp: RamForest::Modify, Prove, Verify, Undo, BuildUndoBatch"]}
{"id": "C94", "title": "A fuzz target is selected by its name", "statement": "In whichever order the files of the fuzz program are initialised, the value of the variable FUZZ selects the target of that name.", "quantifier": "all orders of initialisation, all sets of targets, all names", "why_tests_cant": "A test sees only the order that its compiler and linker happen to choose.", "anchors": ["src/fuzz/fuzz.cpp: RegisterFuzzTarget, LLVMFuzzerInitialize", "src/fuzz/fuzz.h: FUZZ, g_targets"]}
{"id": "C95", "title": "All benchmarks are registered", "statement": "In whichever order the benchmarks are initialised, the map holds exactly the benchmarks of the program.", "quantifier": "all orders of initialisation, all sets of benchmarks with different names", "why_tests_cant": "A test sees only the order that its compiler and linker happen to choose.", "anchors": ["src/bench/bench.cpp: BenchRunner::benchmarks, BenchRunner::BenchRunner"]}
{"id": "C96", "title": "The benchmark program runs what its command line asks for", "statement": "With -? or -h only the help is shown. Otherwise exactly the benchmarks whose names match the filter are run, in the order of the map, once, or once for each number of -asymptote, with the minimal time per epoch from -min_time; a filter or a time that cannot be read ends the program with an exception. Nothing overflows.", "quantifier": "all command lines, all sets of benchmarks, all regular expressions", "why_tests_cant": "There are no tests of the command line.", "anchors": ["src/bench/bench_utreexo.cpp: main, SetupBenchArgs", "src/bench/bench.cpp: BenchRunner::RunAll"]}
{"id": "C97", "title": "The help message shows every argument", "statement": "The help message lists every argument that was added, once, with its name and parameter as passed to AddArg and with its help text, in the order of the map.", "quantifier": "all sequences of added arguments", "why_tests_cant": "There are no tests of the command line.", "anchors": ["src/bench/util/args.cpp: ArgsManager::GetHelpMessage, ArgsManager::HelpMessageOpt, ArgsManager::AddArg"]}
