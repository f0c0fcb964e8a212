{"id": "C01", "title": "Variable-length integers are a bijection between 0..2^30-1 and their encodings", "statement": "Serializing n succeeds exactly when n < 2^30; the bytes decode back to n leaving whatever followed them; and a byte string is accepted as an encoding of n only if it starts with exactly the bytes serialization produces (so the encoding is minimal and unique).", "quantifier": "every 32-bit n, every byte string, every suffix", "why_tests_cant": "2^32 integers and unboundedly many byte strings; boundary tests cannot exclude a second accepted encoding", "anchors": ["rmls/src/utilities/serde/mod.rs: serialize_varint, deserialize_varint"]}
{"id": "C02", "title": "Length-prefixed byte strings and vectors frame exactly their own content", "statement": "A serialized opaque string / vector / optional, followed by arbitrary bytes, decodes to the original value and leaves exactly the arbitrary bytes; decoding never reads past the declared length.", "quantifier": "every payload, every element list, every trailing byte string", "why_tests_cant": "payload and suffix are unbounded", "anchors": ["rmls/src/utilities/serde/mod.rs: deserialize_opaque_vec, serialize_opaque_vec, deserialize_vector, serialize_vector, deserialize_optional, serialize_optional"]}
{"id": "C03", "title": "Every wire structure survives serialize then deserialize", "statement": "For every MLS structure the library can hold (credentials, extensions, capabilities, leaf nodes, key packages, proposals, commits, framed content, public/private messages, welcomes, group infos, group contexts, PSK ids, group secrets, sender data, ...), if serialization succeeds then deserializing the produced bytes, followed by anything, returns the same value and leaves the rest untouched.", "quantifier": "every value of every wire type whose fields fit their wire width, every suffix", "why_tests_cant": "nested unbounded lists and 16-bit code points; test vectors sample a handful", "anchors": ["rmls/src/crypto/credential.rs: Serializer, Deserializer", "rmls/src/crypto/key_pair.rs: Serializer, Deserializer", "rmls/src/crypto/mod.rs: Serializer, Deserializer", "rmls/src/crypto/provider/mod.rs: Serializer, Deserializer", "rmls/src/extensibility/mod.rs: Serializer, Deserializer", "rmls/src/framing/commit.rs: Serializer, Deserializer", "rmls/src/framing/group_info.rs: Serializer, Deserializer", "rmls/src/framing/mod.rs: Serializer, Deserializer", "rmls/src/framing/private_message.rs: Serializer, Deserializer", "rmls/src/framing/proposal.rs: Serializer, Deserializer", "rmls/src/framing/public_message.rs: Serializer, Deserializer", "rmls/src/framing/welcome.rs: Serializer, Deserializer", "rmls/src/key_package/mod.rs: Serializer, Deserializer", "rmls/src/key_schedule/mod.rs: Serializer, Deserializer", "rmls/src/ratchet_tree/leaf_node.rs: Serializer, Deserializer", "rmls/src/ratchet_tree/mod.rs: Serializer, Deserializer", "rmls/src/ratchet_tree/parent_node.rs: Serializer, Deserializer", "rmls/src/utilities/serde/mod.rs: Serializer, Deserializer"]}
{"id": "C04", "title": "Accepted encodings are canonical: re-serialization reproduces the received bytes", "statement": "If a structure is decoded from a byte string, serializing the decoded value succeeds and yields exactly the bytes that were consumed. Signature and hash checks, which re-serialize, are therefore about the bytes actually received. (RatchetTree is the exception, see C32.)", "quantifier": "every byte string and every wire type", "why_tests_cant": "quantifies over all attacker-chosen byte strings", "anchors": ["rmls/src/crypto/credential.rs: Serializer, Deserializer", "rmls/src/crypto/key_pair.rs: Serializer, Deserializer", "rmls/src/crypto/mod.rs: Serializer, Deserializer", "rmls/src/crypto/provider/mod.rs: Serializer, Deserializer", "rmls/src/extensibility/mod.rs: Serializer, Deserializer", "rmls/src/framing/commit.rs: Serializer, Deserializer", "rmls/src/framing/group_info.rs: Serializer, Deserializer", "rmls/src/framing/mod.rs: Serializer, Deserializer", "rmls/src/framing/private_message.rs: Serializer, Deserializer", "rmls/src/framing/proposal.rs: Serializer, Deserializer", "rmls/src/framing/public_message.rs: Serializer, Deserializer", "rmls/src/framing/welcome.rs: Serializer, Deserializer", "rmls/src/key_package/mod.rs: Serializer, Deserializer", "rmls/src/key_schedule/mod.rs: Serializer, Deserializer", "rmls/src/ratchet_tree/leaf_node.rs: Serializer, Deserializer", "rmls/src/ratchet_tree/mod.rs: Serializer, Deserializer", "rmls/src/ratchet_tree/parent_node.rs: Serializer, Deserializer", "rmls/src/utilities/serde/mod.rs: Serializer, Deserializer"]}
{"id": "C05", "title": "Deserializing any byte string returns a value or an error", "statement": "Deserialization of a received message never panics and never loops, whatever the bytes. (Expected to fail: three decoders read more bytes than they checked for. Proved: termination for all inputs, panic-freedom of every decoder that does not contain those three, and the exact faulty decoders.)", "quantifier": "every byte string, every wire type", "why_tests_cant": "a fuzzer samples; the claim is about all byte strings", "anchors": ["rmls/src/ratchet_tree/leaf_node.rs: Lifetime::deserialize", "rmls/src/ratchet_tree/parent_node.rs: ParentNode::deserialize", "rmls/src/framing/proposal.rs: ProposalType::deserialize", "rmls/src/framing/mod.rs: MLSMessage"]}
{"id": "C06", "title": "Exact deserialization rejects trailing bytes", "statement": "deserialize_exact succeeds only if the whole input is consumed. (Expected to fail: leftovers are ignored; proved instead: it accepts exactly the inputs having an encoding as a prefix.)", "quantifier": "every input and every type", "why_tests_cant": "the tests only use well-formed inputs", "anchors": ["rmls/src/utilities/serde/mod.rs: Deserializer::deserialize_exact"]}
{"id": "C07", "title": "No two different values serialize to the same bytes, nor one to a prefix of another", "statement": "For every wire type, if the encodings of two canonical values are equal, or one is a prefix of the other, the values are equal. What is signed or hashed therefore determines the value.", "quantifier": "every pair of values of every wire type", "why_tests_cant": "quantifies over pairs of values", "anchors": ["rmls/src/crypto/credential.rs: Serializer", "rmls/src/crypto/key_pair.rs: Serializer", "rmls/src/crypto/mod.rs: Serializer", "rmls/src/crypto/provider/mod.rs: Serializer", "rmls/src/extensibility/mod.rs: Serializer", "rmls/src/framing/commit.rs: Serializer", "rmls/src/framing/group_info.rs: Serializer", "rmls/src/framing/mod.rs: Serializer", "rmls/src/framing/private_message.rs: Serializer", "rmls/src/framing/proposal.rs: Serializer", "rmls/src/framing/public_message.rs: Serializer", "rmls/src/framing/welcome.rs: Serializer", "rmls/src/key_package/mod.rs: Serializer", "rmls/src/key_schedule/mod.rs: Serializer", "rmls/src/ratchet_tree/leaf_node.rs: Serializer", "rmls/src/ratchet_tree/mod.rs: Serializer", "rmls/src/ratchet_tree/parent_node.rs: Serializer"]}
{"id": "C08", "title": "Serialization fails only because something is too long", "statement": "Serializing a structure never panics, and it returns an error only if some length-prefixed field is 2^30 bytes or longer (or a to-be-signed structure lacks the group context it needs).", "quantifier": "every value of every wire type", "why_tests_cant": "cannot build all oversized values in a test", "anchors": ["rmls/src/utilities/serde/mod.rs: serialize_varint, serialize_opaque_vec, serialize_vector", "rmls/src/framing/mod.rs: FramedContentTBS"]}
{"id": "C09", "title": "Messages and group contexts of another protocol version are rejected", "statement": "A decoded MLSMessage or GroupContext always has version mls10; any other 16-bit version yields an error whatever follows.", "quantifier": "every byte string", "why_tests_cant": "65535 other versions times arbitrary bodies", "anchors": ["rmls/src/framing/mod.rs: MLSMessage::deserialize", "rmls/src/key_schedule/mod.rs: GroupContext::deserialize"]}
{"id": "C10", "title": "Code points map one-to-one on 16-bit values", "statement": "For cipher suites, extension types, proposal types, credential types, wire formats and signature schemes, converting any u16 to the enum and back gives the same u16, and two enum values obtained from code points are equal only if the code points are.", "quantifier": "all u16 values, all such enums", "why_tests_cant": "exhaustive tests are not present; the property covers unknown values", "anchors": ["rmls/src/crypto/cipher_suite.rs", "rmls/src/extensibility/mod.rs: ExtensionType", "rmls/src/framing/proposal.rs: ProposalType", "rmls/src/crypto/credential.rs: CredentialType", "rmls/src/framing/mod.rs: WireFormat, ProtocolVersion"]}
{"id": "C11", "title": "Array tree: children and parent are mutually inverse and stay in the tree", "statement": "In a tree with 2^k leaves every non-leaf node's two children have that node as parent, every non-root node is the left or right child of its parent, levels differ by one, and all indices stay inside the array.", "quantifier": "every k <= 31 and every node index of the tree", "why_tests_cant": "2^32 indices, every size", "anchors": ["rmls/src/utilities/tree_math/mod.rs: NumLeaves::parent, NodeIndex::left, NodeIndex::right, NodeIndex::children, NodeIndex::level"]}
{"id": "C12", "title": "Direct path is the chain of ancestors up to the root", "statement": "The direct path of a node in a tree with 2^k leaves starts with its parent, each element is the parent of the previous one, it ends at the root, and it has length k minus the node's level; the leaves under a node are exactly those whose direct path contains it.", "quantifier": "every k <= 31, every node", "why_tests_cant": "unbounded sizes", "anchors": ["rmls/src/utilities/tree_math/mod.rs: NumLeaves::root, NumLeaves::direct_path"]}
{"id": "C13", "title": "Copath pairs each direct-path node with the sibling below it", "statement": "The copath has as many nodes as the direct path; its i-th node is the child of the i-th direct-path node that is not on the path; siblings are symmetric.", "quantifier": "every k <= 31, every node", "why_tests_cant": "unbounded sizes", "anchors": ["rmls/src/utilities/tree_math/mod.rs: NumLeaves::copath, NumLeaves::sibling"]}
{"id": "C14", "title": "Out-of-range indices are handled without panicking", "statement": "Tree operations given a leaf index outside the tree return an error or leave the tree alone. (Expected to fail: update, remove, path computation and integrity checking climb past the root and overflow.)", "quantifier": "every tree and every u32 leaf index", "why_tests_cant": "needs all indices and all tree sizes", "anchors": ["rmls/src/utilities/tree_math/mod.rs: NumLeaves::parent", "rmls/src/ratchet_tree/mod.rs: update, remove, merge_update_path, verify_integrity"]}
{"id": "C15", "title": "Adding a member fills the leftmost blank leaf and disturbs nobody else", "statement": "On a tree whose array length is 2^k-1 (k>=1), adding a leaf puts it at the leftmost blank leaf or doubles the tree; it can be read back at that leaf index; all other leaves are unchanged; every non-blank ancestor gains exactly that leaf as unmerged, blank ancestors stay blank.", "quantifier": "every well-sized tree and every leaf", "why_tests_cant": "all trees; test vectors contain a few", "anchors": ["rmls/src/ratchet_tree/mod.rs: RatchetTree::add"]}
{"id": "C16", "title": "Adding a member works on every tree the library itself can produce", "statement": "After any sequence of removals/updates, and starting from the empty tree, adding a member makes it readable as a leaf. (Expected to fail: on the empty tree add panics; after a removal that truncates the array, the new leaf lands on an interior slot and is lost.)", "quantifier": "every history of add/update/remove", "why_tests_cant": "needs the right history", "anchors": ["rmls/src/ratchet_tree/mod.rs: RatchetTree::add, RatchetTree::remove"]}
{"id": "C17", "title": "Updating a member replaces its leaf and blanks its direct path only", "statement": "After an update of an in-range leaf, the leaf holds the new value, every node on its direct path is blank, and every other node is unchanged.", "quantifier": "every well-sized tree, every in-range leaf index", "why_tests_cant": "all trees", "anchors": ["rmls/src/ratchet_tree/mod.rs: RatchetTree::update"]}
{"id": "C18", "title": "Removing a member erases it and keeps everyone else", "statement": "After removing an in-range leaf, that leaf is blank or cut off, its direct path is blank, every other non-blank leaf keeps index and content, and the tree is cut to the smallest half containing all remaining members.", "quantifier": "every well-sized tree, every in-range leaf index", "why_tests_cant": "all trees", "anchors": ["rmls/src/ratchet_tree/mod.rs: RatchetTree::remove"]}
{"id": "C19", "title": "The tree array always has the length of a complete binary tree", "statement": "After every operation the array length is 2^k-1 or 0. (Expected to fail: removal leaves length 2^k. Proved: add, update, merge preserve the shape and removal yields 2^j for the least suitable j or the original length.)", "quantifier": "every history of operations", "why_tests_cant": "needs all histories", "anchors": ["rmls/src/ratchet_tree/mod.rs: RatchetTree::add, RatchetTree::update, RatchetTree::remove, RatchetTree::merge_update_path"]}
{"id": "C20", "title": "Removing several members in any order is safe", "statement": "Removing a duplicate-free list of current members, in any order, never panics, and leaves exactly the other members at their positions.", "quantifier": "every tree, every duplicate-free list of non-blank leaves", "why_tests_cant": "all permutations of all subsets", "anchors": ["rmls/src/ratchet_tree/mod.rs: RatchetTree::remove, RatchetTree::apply"]}
{"id": "C21", "title": "Resolution is the RFC resolution", "statement": "The resolution of a node is: the node followed by its unmerged leaves if non-blank, empty for a blank leaf, otherwise left resolution then right resolution; it contains only non-blank nodes when unmerged leaves are non-blank, and it covers every member below the node.", "quantifier": "every tree and node", "why_tests_cant": "all trees", "anchors": ["rmls/src/ratchet_tree/mod.rs: RatchetTree::resolve"]}
{"id": "C22", "title": "Unmerged-leaf lists stay sorted, non-blank and below their node", "statement": "Along every history of adds, updates, removes and successful path merges, each parent's unmerged leaves are strictly increasing, are current members, and lie below that parent; and an unmerged leaf of a node is unmerged at each non-blank node between.", "quantifier": "every history of operations from a tree satisfying it", "why_tests_cant": "an invariant over histories", "anchors": ["rmls/src/ratchet_tree/mod.rs: RatchetTree::add, RatchetTree::update, RatchetTree::remove, RatchetTree::merge_update_path"]}
{"id": "C23", "title": "The tree hash commits to the whole tree", "statement": "Two trees of the same size with the same root tree hash are equal node by node, unless an explicit pair of different inputs with equal hash can be read off them.", "quantifier": "every pair of trees, every hash function", "why_tests_cant": "quantifies over pairs of trees and hash functions", "anchors": ["rmls/src/ratchet_tree/mod.rs: compute_root_tree_hash, compute_tree_hash, serialize_leaf_node_hash_input, serialize_parent_node_hash_input"]}
{"id": "C24", "title": "A verified tree has the promised structure", "statement": "If integrity verification succeeds, then the root tree hash equals the group context's, leaves sit at even and parents at odd positions, all signature keys are distinct, all encryption keys (leaf and parent) are distinct, every leaf verified, and every unmerged leaf is a member below its parent listed at all non-blank intermediate nodes.", "quantifier": "every tree and group context, every crypto provider", "why_tests_cant": "all trees an attacker may send", "anchors": ["rmls/src/ratchet_tree/mod.rs: verify_integrity, verify_parent_hashes"]}
{"id": "C25", "title": "Merging an update path changes exactly the sender's leaf and direct path", "statement": "If a path merge succeeds: the sender leaf is the path's leaf; filtered direct-path nodes carry the path's keys in order with no unmerged leaves; other direct-path nodes are blank; every other node is unchanged; the path has exactly one key per filtered node.", "quantifier": "every tree, path and sender", "why_tests_cant": "all trees and paths", "anchors": ["rmls/src/ratchet_tree/mod.rs: merge_update_path, filtered_direct_path"]}
{"id": "C26", "title": "A merged path satisfies the parent-hash links", "statement": "After a successful merge, walking from the sender leaf to the root, each node's parent hash equals the parent hash computed from the next non-blank direct-path node and the tree hash of that node's other child.", "quantifier": "every tree, path, sender and hash function", "why_tests_cant": "all trees", "anchors": ["rmls/src/ratchet_tree/mod.rs: merge_update_path, verify_parent_hashes", "rmls/src/ratchet_tree/parent_node.rs: compute_parent_hash"]}
{"id": "C27", "title": "A rejected update path leaves the tree unchanged", "statement": "If merging returns an error the tree is as before. (Expected to fail: the direct path is blanked and rewritten before the final check. Proved: errors other than the parent-hash mismatch that are detected before any write leave it unchanged.)", "quantifier": "every tree and path", "why_tests_cant": "atomicity over all failing inputs", "anchors": ["rmls/src/ratchet_tree/mod.rs: merge_update_path"]}
{"id": "C28", "title": "A sole member can commit", "statement": "In a one-member group an update path with no nodes and empty parent hash is accepted. (Expected to fail: always ParentHashMismatch.)", "quantifier": "every one-leaf tree and path", "why_tests_cant": "universal rejection is not observable from one test", "anchors": ["rmls/src/ratchet_tree/mod.rs: merge_update_path"]}
{"id": "C29", "title": "Proposals take effect by kind: updates, then removes, then adds", "statement": "Applying a proposal list equals applying its updates, then its removes, then its adds, each in list order; other proposals have no effect on the tree; permuting proposals of different kinds never changes the result.", "quantifier": "every tree, proposal list and sender list", "why_tests_cant": "all interleavings", "anchors": ["rmls/src/ratchet_tree/mod.rs: RatchetTree::apply"]}
{"id": "C30", "title": "The filtered direct path drops exactly the nodes whose sibling branch is empty", "statement": "A direct-path node is kept iff the resolution of its copath child is non-empty; order is preserved from leaf to root.", "quantifier": "every tree and node", "why_tests_cant": "all trees", "anchors": ["rmls/src/ratchet_tree/mod.rs: filtered_direct_path"]}
{"id": "C31", "title": "Supported credentials are those every member lists", "statement": "A credential type is reported as supported iff every non-blank leaf lists it. (Expected to fail when a leaf lists a type twice; proved when leaf lists have no duplicates.)", "quantifier": "every tree", "why_tests_cant": "all multisets of capability lists", "anchors": ["rmls/src/ratchet_tree/mod.rs: supported_creds"]}
{"id": "C32", "title": "Ratchet-tree encoding normalizes blanks", "statement": "Serialize-then-deserialize of a tree returns the tree with trailing blanks stripped and padded to the least 2^k-1; it is the identity exactly on trees already in that form; decoded trees always have length 2^k-1. Distinct accepted encodings of the same tree exist (trailing blanks are not rejected).", "quantifier": "every tree and byte string", "why_tests_cant": "all trees", "anchors": ["rmls/src/ratchet_tree/mod.rs: RatchetTree::deserialize, RatchetTree::serialize"]}
{"id": "C33", "title": "Leaf lookup finds the leftmost equal leaf", "statement": "find_leaf reports success iff the given leaf node is at some leaf position, and then the least one; get_leaf of that index returns it.", "quantifier": "every tree and leaf node", "why_tests_cant": "all trees", "anchors": ["rmls/src/ratchet_tree/mod.rs: find_leaf, get_leaf"]}
{"id": "C34", "title": "Leaf validation accepts exactly the leaves meeting the listed conditions", "statement": "LeafNode::verify succeeds iff the source matches, required extensions are listed, credential type is supported by all, no extension is unlisted, keys are not already used, lifetime and signature check; and an accepted signature covers group id and leaf index for update/commit leaves.", "quantifier": "every leaf, options, time, provider", "why_tests_cant": "conjunction over all inputs", "anchors": ["rmls/src/ratchet_tree/leaf_node.rs: LeafNode::verify, LeafNode::verify_signature, LeafNodeTBS"]}
{"id": "C35", "title": "Lifetimes accept exactly the current validity window", "statement": "Lifetime::verify(t) is true iff not_before <= t <= not_after and the window is not longer than the maximum. (Expected to fail: inverted comparisons; every accepted lifetime has already expired, every currently valid one is refused.)", "quantifier": "every lifetime and time", "why_tests_cant": "all 2^128 lifetimes and times", "anchors": ["rmls/src/ratchet_tree/leaf_node.rs: Lifetime::verify"]}
{"id": "C36", "title": "A secret tree exists exactly for power-of-two sizes and fills every node as specified", "statement": "Building a secret tree succeeds iff the leaf count is a power of two (given a working KDF); then every node's secret is obtained from the encryption secret by the left/right derivations along the path from the root.", "quantifier": "every leaf count, KDF and secret", "why_tests_cant": "unbounded sizes", "anchors": ["rmls/src/secret_tree/mod.rs: SecretTree::new, derive_children"]}
{"id": "C37", "title": "Ratchet generations follow the derivation chain", "statement": "Stepping a leaf ratchet g times yields generation g and the secret obtained by g applications of the specified derivation with contexts 0..g-1; key and nonce have the AEAD's sizes and depend only on (secret, generation).", "quantifier": "every generation below 2^32, every KDF", "why_tests_cant": "all generations", "anchors": ["rmls/src/secret_tree/mod.rs: RatchetSecret, derive_tree_secret, derive_ratchet_root"]}
{"id": "C38", "title": "Label expansion separates domains", "statement": "Two label expansions have the same KDF info only if length, label and context are all equal; two signed/encrypted labelled contents coincide only if label and content are equal.", "quantifier": "every length, label and context", "why_tests_cant": "pairs of unbounded strings", "anchors": ["rmls/src/crypto/provider/mod.rs: expand_with_label, mls_prefix_label_data"]}
{"id": "C39", "title": "PSK secret chaining binds ids, order and count", "statement": "The PSK secret equals the RFC fold; with at most 65535 PSKs the labels of different positions differ; mismatched lists are rejected. (Above 65535 indices wrap: proved as a limitation.)", "quantifier": "every list of PSK ids and PSKs", "why_tests_cant": "unbounded lists", "anchors": ["rmls/src/key_schedule/mod.rs: extract_psk_secret, PSKLabel"]}
{"id": "C40", "title": "The key schedule binds the epoch secret to the group context and inputs", "statement": "Joiner, epoch and welcome secrets equal the RFC formulas; with collision-free KDF, equal epoch secrets imply equal group context, joiner secret and PSK secret; an omitted PSK secret equals the all-zero one.", "quantifier": "every group context, secrets and KDF", "why_tests_cant": "pairs of inputs", "anchors": ["rmls/src/key_schedule/mod.rs: GroupContext::extract_joiner_secret, GroupContext::extract_epoch_secret, GroupContext::extract_welcome_secret, extract_welcome_secret"]}
{"id": "C41", "title": "Transcript hashes commit to the whole commit history", "statement": "If two members computed the same interim transcript hash after n commits each, starting from the same state, then they processed the same sequence of commits and confirmation tags, or a hash collision is exhibited.", "quantifier": "every pair of histories of the same length, every hash function with fixed output size", "why_tests_cant": "histories of any length", "anchors": ["rmls/src/key_schedule/mod.rs: ConfirmedTranscriptHashInput, next_interim_transcript_hash"]}
{"id": "C42", "title": "A signed content verifies, and the signature covers everything that matters", "statement": "Content signed by AuthenticatedContent::new verifies under the matching key and the same context; the signed bytes determine version, wire format, content, sender and, for members, the whole group context.", "quantifier": "every content, context, wire format, correct signature scheme", "why_tests_cant": "all pairs of contents", "anchors": ["rmls/src/framing/mod.rs: AuthenticatedContent::new, AuthenticatedContent::verify_signature, FramedContentTBS"]}
{"id": "C43", "title": "Private messages decrypt to what was sent", "statement": "A private message built by PrivateMessage::new decrypts, with the same secrets, to the same sender data and content, and the reassembled content verifies under the signer's key, provided the content's sender is the member in the sender data.", "quantifier": "every content, secrets, context and correct AEAD/signature", "why_tests_cant": "all contents", "anchors": ["rmls/src/framing/private_message.rs: PrivateMessage::new, PrivateMessage::decrypt_sender_data, PrivateMessage::decrypt_content, PrivateMessage::authenticated_content", "rmls/src/framing/mod.rs: encrypt_sender_data"]}
{"id": "C44", "title": "Reuse guards change the nonce injectively", "statement": "The message nonce is the ratchet nonce XOR the reuse guard on its first four bytes: different guards give different nonces, and applying the same guard twice restores it.", "quantifier": "every nonce and guard", "why_tests_cant": "all pairs", "anchors": ["rmls/src/framing/private_message.rs: derive_private_message_key_and_nonce"]}
{"id": "C45", "title": "Padding is ignored if zero and refused otherwise", "statement": "A decrypted private-message plaintext followed by any number of zero bytes yields the same content; followed by anything containing a non-zero byte it is rejected.", "quantifier": "every content and padding", "why_tests_cant": "unbounded padding", "anchors": ["rmls/src/framing/private_message.rs: PrivateMessageContent::deserialize"]}
{"id": "C46", "title": "A member's public message is accepted only with a valid membership tag", "statement": "verify_membership_tag succeeds for a member sender only if the tag is present and equals the MAC of the content. (Expected to fail: a missing tag is accepted; proved for messages that came off the wire, and sign-then-verify succeeds.)", "quantifier": "every message, key and context", "why_tests_cant": "forgery is universally quantified", "anchors": ["rmls/src/framing/public_message.rs: sign_membership_tag, verify_membership_tag"]}
{"id": "C47", "title": "A sent commit carries a confirmation tag its receivers accept", "statement": "A commit framed by the library carries a confirmation tag that verifies under the matching key. (Expected to fail: the constructors leave it empty, and an empty tag never verifies.)", "quantifier": "every commit, key and context", "why_tests_cant": "universal over commits", "anchors": ["rmls/src/framing/mod.rs: AuthenticatedContent::new, FramedContentAuthData::verify_confirmation_tag", "rmls/src/framing/private_message.rs", "rmls/src/framing/public_message.rs"]}
{"id": "C48", "title": "Proposal-list validation accepts exactly the valid lists", "statement": "verify_proposal_list succeeds iff lists have equal length, added signature keys are distinct, the committer neither updates nor removes itself, update senders and removed members are all distinct, PSK ids are distinct, at most one group-context-extensions proposal, re-init only alone, and no external init. A refusal names the defect of the first proposal that cannot be taken together with those before it.", "quantifier": "every proposal list, sender list and committer", "why_tests_cant": "all lists", "anchors": ["rmls/src/framing/proposal.rs: verify_proposal_list"]}
{"id": "C49", "title": "A path is demanded exactly for the proposals that need one", "statement": "proposal_list_needs_path is true iff the list is empty or contains an update, remove, external-init or group-context-extensions proposal, independent of order.", "quantifier": "every proposal list", "why_tests_cant": "all lists", "anchors": ["rmls/src/framing/proposal.rs: proposal_list_needs_path"]}
{"id": "C50", "title": "A welcome with several re-init/branch PSKs is refused", "statement": "verify_single_reinit_or_branch_psk is true iff at most one PSK id is a resumption with re-init or branch usage.", "quantifier": "every PSK id list", "why_tests_cant": "all lists", "anchors": ["rmls/src/framing/group_info.rs: GroupSecrets::verify_single_reinit_or_branch_psk"]}
{"id": "C51", "title": "A built key package verifies and is found by its reference", "statement": "A key package produced by the builder passes KeyPackage::verify and leaf signature verification. (Expected to fail: both signatures are made with the public key bytes as signing key.) Its reference hash binds the whole package.", "quantifier": "every credential, key pair and provider", "why_tests_cant": "universal over keys", "anchors": ["rmls/src/key_package/mod.rs: KeyPackage::new, KeyPackage::from_keys, KeyPackage::verify, KeyPackage::generate_ref", "rmls/src/ratchet_tree/leaf_node.rs: LeafNode::new", "rmls/src/key_package/builder.rs"]}
{"id": "C52", "title": "Accepting a key package implies its leaf is authentic", "statement": "KeyPackage::verify succeeds iff version is mls10, suites match, the package signature verifies, the leaf signature verifies, the leaf is a key-package leaf and init key differs from encryption key. (Expected to fail in part: the leaf signature is not checked.)", "quantifier": "every key package and group context", "why_tests_cant": "universal over forged packages", "anchors": ["rmls/src/key_package/mod.rs: KeyPackage::verify"]}
{"id": "C53", "title": "The key store is a map: last write wins, delete removes only its key", "statement": "After any sequence of store/delete calls, retrieve returns the last stored and not since deleted value for that key, and operations on other keys never interfere.", "quantifier": "every history of operations and every key", "why_tests_cant": "all histories", "anchors": ["rmls/src/crypto/provider/key_store.rs: MemoryKeyStore"]}
{"id": "C54", "title": "A welcome consumes its key package exactly once", "statement": "If joining from a welcome succeeds, the matching key package and init key were present and are gone afterwards, so the same welcome cannot be used again; all other keys stay.", "quantifier": "every key store and welcome", "why_tests_cant": "all stores", "anchors": ["rmls/src/group/creation.rs: Group::from_welcome"]}
{"id": "C55", "title": "A failed join leaves the key store intact; concurrent joins use a package once", "statement": "If joining fails nothing is deleted; and of two concurrent joins with one welcome at most one succeeds. (Both expected to fail: the package is deleted before the init key is looked up; lookups and deletions interleave.)", "quantifier": "every failure point and every interleaving", "why_tests_cant": "schedules and crash points", "anchors": ["rmls/src/group/creation.rs: Group::from_welcome", "rmls/src/crypto/provider/key_store.rs"]}
{"id": "C56", "title": "Welcome secrets are found by reference and decrypt to what was encrypted", "statement": "find_secret returns the first entry for the reference and nothing otherwise; group secrets and group info decrypted from a welcome equal those encrypted, given correct HPKE/AEAD.", "quantifier": "every welcome and reference", "why_tests_cant": "all welcomes", "anchors": ["rmls/src/framing/welcome.rs: find_secret, decrypt_group_secrets, decrypt_group_info, EncryptedGroupSecrets"]}
{"id": "C57", "title": "The provider serves exactly the suites it advertises", "statement": "For every 16-bit suite, hash/hpke/signature lookups succeed iff the suite is in the supported list, and return the algorithms RFC 9420 assigns; they never index out of bounds.", "quantifier": "all cipher suites", "why_tests_cant": "includes unknown suites", "anchors": ["rmls/src/crypto/provider/rust.rs"]}
{"id": "C58", "title": "A joiner's group-info checks bind signer and context", "statement": "A GroupInfo whose signature verifies was signed over bytes that determine its group context, extensions, confirmation tag and signer; its confirmation tag verifies iff it is the MAC of the confirmed transcript hash under the key derived from joiner and PSK secrets.", "quantifier": "every group info and provider", "why_tests_cant": "pairs of group infos", "anchors": ["rmls/src/framing/group_info.rs: GroupInfo::verify_signature, GroupInfo::verify_confirmation_tag"]}
{"id": "C59", "title": "Provider sizes match provider outputs", "statement": "For each bundled provider and each served suite, digests, MACs and extracted secrets have exactly the announced length, expansion yields exactly the requested length, and key and nonce sizes are those of the suite's AEAD.", "quantifier": "every suite, key, message, and every library whose primitives have their standard output lengths", "why_tests_cant": "all inputs and suites", "anchors": ["rmls/src/crypto/provider/rust/hash.rs", "rmls/src/crypto/provider/rust/hpke.rs", "rmls/src/crypto/provider/ring/hash.rs", "rmls/src/crypto/provider/ring/hpke.rs"]}
{"id": "C60", "title": "Opening an AEAD ciphertext gives back what was sealed", "statement": "With each bundled provider, aead_open of what aead_seal produced under the same key, nonce and associated data returns exactly the plaintext. (Expected to fail for the ring provider, which returns the buffer including the tag.)", "quantifier": "every suite, key, nonce, plaintext, associated data, and every working library", "why_tests_cant": "all inputs", "anchors": ["rmls/src/crypto/provider/rust/hpke.rs: aead_open, aead_seal", "rmls/src/crypto/provider/ring/hpke.rs: aead_open, aead_seal"]}
{"id": "C61", "title": "Private messages round-trip with each bundled provider and their padding is checked", "statement": "A private message built with a bundled provider decrypts with the same provider to the same sender data and content and its signature verifies; content followed by non-zero padding is rejected. (The padding part is expected to fail in the ring build.)", "quantifier": "every message, key and working library; every padding", "why_tests_cant": "all messages and paddings", "anchors": ["rmls/src/framing/private_message.rs: PrivateMessage::new, PrivateMessage::decrypt_sender_data, PrivateMessage::decrypt_content, PrivateMessageContent::deserialize"]}
{"id": "C62", "title": "Building a key package never panics", "statement": "KeyPackageBuilder::build returns a package or an error for every key pair of a served suite. (Expected to fail: the signing key passed on is the public key, and the default provider's ECDSA signing panics on a key of the wrong length.)", "quantifier": "every key pair, builder and store", "why_tests_cant": "all key pairs", "anchors": ["rmls/src/key_package/builder.rs: KeyPackageBuilder::build", "rmls/src/ratchet_tree/leaf_node.rs: LeafNode::new", "rmls/src/crypto/provider/rust/signature.rs: sign"]}
{"id": "C63", "title": "Joining yields the group the welcome describes", "statement": "The group returned by from_welcome has the id, version and cipher suite of the group info in the welcome. (Expected to fail: the welcome is never decrypted.)", "quantifier": "every welcome, store and provider", "why_tests_cant": "all welcomes", "anchors": ["rmls/src/group/creation.rs: Group::from_welcome"]}
{"id": "C64", "title": "A new group is the requested one", "statement": "Group::new returns a group with the requested version, suite, credential, the signer's public key and the requested id, or, if none was requested, 16 bytes from the random source; it fails exactly when random bytes are needed and the source fails.", "quantifier": "every argument and every outcome of the random source", "why_tests_cant": "all arguments and failures of the source", "anchors": ["rmls/src/group/creation.rs: Group::new"]}
{"id": "C65", "title": "Builders keep the last value given for each field", "statement": "For every sequence of setter calls, in any order and with repetitions, the built crypto config, group config and key package carry for each field the value of the last call that set it, or the documented default if none did.", "quantifier": "every finite sequence of setter calls on each builder, every provider, random outcome, key store, credential and key pair", "why_tests_cant": "the call sequences are unbounded", "anchors": ["rmls/src/crypto/config.rs: CryptoConfigBuilder", "rmls/src/group/config.rs: GroupConfigBuilder", "rmls/src/key_package/builder.rs: KeyPackageBuilder"]}
{"id": "C66", "title": "Generated signature key pairs work and can be used for key packages", "statement": "For every suite a bundled provider serves, generating a signature key pair succeeds with the suite's signature scheme, what its private key signs verifies under its public key, and a key package built with it is accepted; for every other suite generation fails with an error. (The key-package part is expected to fail: packages are signed with the public key.)", "quantifier": "every entropy, suite, message, both bundled providers, every correct key-generation library", "why_tests_cant": "entropy and messages are unbounded", "anchors": ["rmls/src/crypto/provider/rust/signature.rs: signature_key_pair", "rmls/src/crypto/provider/ring/signature.rs: signature_key_pair", "rmls/src/key_package/mod.rs: KeyPackage::from_keys"]}
{"id": "C67", "title": "The leaf of a freshly built key package passes the leaf check", "statement": "The leaf of a key package built now, with the default lifetime or one that covers the present, passes the leaf check of a group that supports its credential and has no colliding keys. (Expected to fail: the lifetime comparison is inverted and the default lifetime is empty.)", "quantifier": "every built package, provider, group options and time", "why_tests_cant": "times, providers and groups are unbounded", "anchors": ["rmls/src/key_package/builder.rs: build", "rmls/src/ratchet_tree/leaf_node.rs: LeafNode::verify, Lifetime::verify"]}
{"id": "C68", "title": "An extension put into an extension list is found at the other end", "statement": "After encoding and decoding a list of extensions, looking up a type gives the data of the first extension of that type in the list (nothing if there is none), and a typed extension stored there decodes to the value that was stored.", "quantifier": "every extension list, type and typed value", "why_tests_cant": "lists and contents are unbounded", "anchors": ["rmls/src/extensibility/mod.rs: Extensions, find_extension_data, RequiredCapabilitiesExtension, ExternalSendersExtension, ExternalPubExtension, ApplicationIdExtension"]}
{"id": "C69", "title": "An accepted list of proposals changes the tree exactly as it says", "statement": "Applying a list of proposals that passed the list check never panics and changes the membership exactly as the list says: updated leaves hold the new leaf nodes, removed ones are gone, the new members are at the leftmost free positions in the order of the list, everybody else is where they were, and the result is again a well-formed tree. (Expected to fail: the list check does not look at the tree, and a tree that was cut by a removal loses new members.)", "quantifier": "every well-formed tree and every list of proposals accepted for it", "why_tests_cant": "trees, lists and their combinations are unbounded", "anchors": ["rmls/src/framing/proposal.rs: verify_proposal_list", "rmls/src/ratchet_tree/mod.rs: RatchetTree::apply, add, update, remove"]}
{"id": "C70", "title": "Parent hashes stay valid over the life of a tree", "statement": "If the parent hashes of a well-formed tree verify, they still verify after any number of successful additions (with room, of leaves that are not from a commit), updates, removals and merged update paths, as long as no hash coincidence occurs on a merged path and the merged trees can be hashed. A tree of leaves only verifies, and a verified key package never carries a leaf from a commit.", "quantifier": "every well-formed tree, every provider and suite, and every history of operations", "why_tests_cant": "histories are unbounded and unmerged leaves accumulate along them; each operation must preserve the links left by all earlier ones", "anchors": ["rmls/src/ratchet_tree/mod.rs: RatchetTree::verify_parent_hashes, add, update, remove, merge_update_path", "rmls/src/key_package/mod.rs: KeyPackage::verify"]}
{"id": "C71", "title": "A committer's leaf commits to the whole tree", "statement": "If two members merge update paths of the same sender with the same leaf node, whatever trees and path nodes they started from, they end up with the same tree, unless two different inputs with the same digest (or an empty digest) occur among the strings hashed for those trees.", "quantifier": "every provider and suite, every two well-formed trees of any sizes, every two update paths sharing the leaf node", "why_tests_cant": "the claim compares all pairs of trees and paths; a missing field in the hashed input only shows on trees built to differ in it", "anchors": ["rmls/src/ratchet_tree/mod.rs: RatchetTree::merge_update_path", "rmls/src/ratchet_tree/parent_node.rs: ParentNode::compute_parent_hash"]}
{"id": "C72", "title": "Checked leaf nodes keep members' keys distinct", "statement": "The keys reported for a tree are exactly the signature and encryption keys of its members. If members' keys are distinct and every leaf node that is added, updated or merged was accepted with the reported keys (those of the replaced member may be left out), members' keys are distinct after any history.", "quantifier": "every well-formed tree, every history of additions with room, updates, removals and merges", "why_tests_cant": "histories are unbounded; one missed key admits a duplicate", "anchors": ["rmls/src/ratchet_tree/mod.rs: RatchetTree::keys", "rmls/src/ratchet_tree/leaf_node.rs: LeafNode::verify"]}
{"id": "C73", "title": "A tree arrives at a new member as it was sent", "statement": "The ratchet tree of a group, encoded by a member and decoded by a new one (alone or in an extension list), has the same node at every position, the same tree hash under every provider and suite, the same keys and supported credential types, and passes the integrity check exactly when the sender's tree does.", "quantifier": "every tree reached from one member by any history of additions with room, updates, removals and merged update paths; every provider, suite, group context and time", "why_tests_cant": "the encoder drops trailing blanks and the decoder pads them back, so what arrives depends on where blanks sit after an unbounded history", "anchors": ["rmls/src/ratchet_tree/mod.rs: Serializer for RatchetTree", "rmls/src/ratchet_tree/mod.rs: Deserializer for RatchetTree", "rmls/src/ratchet_tree/mod.rs: RatchetTree::compute_root_tree_hash", "rmls/src/ratchet_tree/mod.rs: RatchetTree::verify_integrity"]}
{"id": "C74", "title": "Members who do the same keep the same tree", "statement": "A new member who received the tree and the members who sent it have, after any list of operations that all of them perform, the same tree: the same nodes, tree hash and keys, and at each step the same success or failure.", "quantifier": "every reached tree, every list of additions, updates, removals and merged update paths", "why_tests_cant": "lists of operations are unbounded; the copies differ in the length of their arrays, which only some later operations notice", "anchors": ["rmls/src/ratchet_tree/mod.rs: RatchetTree::add", "rmls/src/ratchet_tree/mod.rs: RatchetTree::update", "rmls/src/ratchet_tree/mod.rs: RatchetTree::remove", "rmls/src/ratchet_tree/mod.rs: RatchetTree::merge_update_path"]}
{"id": "C75", "title": "A private message reaches everyone in the epoch, under a key of its own", "statement": "A member who encrypts a content with the ratchet of its leaf for that kind of content, at any generation, produces bytes from which anyone holding the same secret tree and sender data secret recovers the sender's leaf, the generation and exactly that content with a valid signature. The key used is the one RFC 9420 prescribes, and two messages share a key only if epoch secret, sender, ratchet and generation agree, or the KDF collides on inputs used for them.", "quantifier": "every provider whose AEAD opens what it sealed and whose signatures verify, every content, leaf, 32-bit generation, reuse guard and tree size up to 2^31 leaves", "why_tests_cant": "the claim ranges over all leaves, generations and contents; a wrong ratchet or label on both ends goes unnoticed by round trips", "anchors": ["rmls/src/framing/private_message.rs: PrivateMessage::new, decrypt_sender_data, decrypt_content, authenticated_content", "rmls/src/secret_tree/mod.rs: SecretTree, RatchetSecret, RatchetLabel", "rmls/src/framing/mod.rs: SenderData, expand_sender_data_key, expand_sender_data_nonce, sample_ciphertext"]}
{"id": "C76", "title": "Every structure has the bytes RFC 9420 prescribes", "statement": "Whatever serialize writes for a value is the RFC 9420 encoding of that value: field order, widths, code points, vector headers and optional flags; and whatever deserialize accepts begins with the RFC 9420 encoding of the value it returns, the rest of the buffer being left. This covers messages, contents, commits, proposals, key packages, leaf and parent nodes, update paths, trees, group contexts, group infos, welcomes, pre-shared key identifiers, sender data, and the structures that are signed, authenticated or used as associated data.", "quantifier": "every value of every wire type and every byte string", "why_tests_cant": "encoder and decoder can be wrong in the same way, and then every round trip test still passes; interoperability needs the bytes of all values to be the standard's", "anchors": ["rmls/src/crypto/credential.rs: Serializer, Deserializer", "rmls/src/crypto/key_pair.rs: Serializer, Deserializer", "rmls/src/crypto/mod.rs: Serializer, Deserializer", "rmls/src/crypto/provider/mod.rs: Serializer, Deserializer", "rmls/src/extensibility/mod.rs: Serializer, Deserializer", "rmls/src/framing/commit.rs: Serializer, Deserializer", "rmls/src/framing/group_info.rs: Serializer, Deserializer", "rmls/src/framing/mod.rs: Serializer, Deserializer", "rmls/src/framing/private_message.rs: Serializer, Deserializer", "rmls/src/framing/proposal.rs: Serializer, Deserializer", "rmls/src/framing/public_message.rs: Serializer, Deserializer", "rmls/src/framing/welcome.rs: Serializer, Deserializer", "rmls/src/key_package/mod.rs: Serializer, Deserializer", "rmls/src/key_schedule/mod.rs: Serializer, Deserializer", "rmls/src/ratchet_tree/leaf_node.rs: Serializer, Deserializer", "rmls/src/ratchet_tree/mod.rs: Serializer, Deserializer", "rmls/src/ratchet_tree/parent_node.rs: Serializer, Deserializer"]}
{"id": "C77", "title": "The external_senders extension has the bytes RFC 9420 prescribes", "statement": "The content of an external_senders extension is a vector of senders, each a signature key and a credential; it is written and read that way.", "quantifier": "every list of external senders and every byte string", "why_tests_cant": "the library's own round trips agree with themselves for all values", "anchors": ["rmls/src/extensibility/mod.rs: ExternalSendersExtension"]}
{"id": "C78", "title": "Members who accept the same confirmation tag are in the same group state", "statement": "If two members compute their epoch with the library (tree hash, transcript hashes, PSK secret, joiner secret, epoch secret, confirmation key) and verify_confirmation_tag accepts the same tag for both, then they have the same group context, the same ratchet tree, the same pre-shared keys, init secret and commit secret, and, if they followed the group from the same point for equally many commits, the same commits; otherwise two different inputs used in these computations collide under the hash, MAC or KDF. A joiner who accepts a GroupInfo carrying that tag, with a tree of its tree hash, has the same context, joiner secret, epoch secret and tree as the members.", "quantifier": "every provider, every pair of member states and every GroupInfo, with trees, histories and PSK lists of any size", "why_tests_cant": "agreement must hold for any two states an attacker can bring about, including states that differ in a single bit of a single node deep in the tree or in an old commit", "anchors": ["rmls/src/framing/mod.rs: verify_confirmation_tag, confirmed_transcript_hash_input", "rmls/src/framing/group_info.rs: verify_confirmation_tag", "rmls/src/key_schedule/mod.rs: extract_psk_secret, extract_joiner_secret, extract_epoch_secret, ConfirmedTranscriptHashInput", "rmls/src/ratchet_tree/mod.rs: compute_root_tree_hash"]}
{"id": "C79", "title": "Calls return a value or an error", "statement": "With a cryptographic provider whose own operations return, every operation of the library that takes in-memory values returns a value or an error whatever its arguments: MACs, labelled signing, labelled encryption, secret derivation, the key schedule, transcript hashes, message protection and verification, proposal lists, key packages, leaf verification and joining from a Welcome. No panic and no endless loop.", "quantifier": "every provider whose operations return, every cipher suite and all arguments", "why_tests_cant": "a crash may hide behind any combination of lengths and field values; only a proof over all arguments excludes it", "anchors": ["rmls/src/crypto/provider/mod.rs: sign_with_label, verify_with_label, encrypt_with_label, decrypt_with_label, expand_with_label", "rmls/src/crypto/provider/rust/signature.rs: sign", "rmls/src/framing/private_message.rs: decrypt_content, PrivateMessage::new", "rmls/src/key_schedule/mod.rs", "rmls/src/secret_tree/mod.rs: derive_next", "rmls/src/group/creation.rs: from_welcome"]}
{"id": "C80", "title": "A credential says the same to whoever receives it", "statement": "A credential made from an identity, or from a chain of certificates, is encoded as RFC 9420 section 5.3 prescribes; whoever decodes it reads that identity, or that chain in that order, and nothing from the other accessor. Every credential that decodes is one of these two. The default credential is the empty identity.", "quantifier": "every identity, every certificate chain and every byte string received", "why_tests_cant": "identities and chains are arbitrary byte strings of any length and number", "anchors": ["rmls/src/crypto/credential.rs: Credential::from_identity, from_certificates, identity, certificates, default, serialize, deserialize"]}
{"id": "C81", "title": "Node keys are known to exactly the members below the node", "statement": "If every key pair that an operation brings into the tree is fresh, then at any time the people who ever learnt the private key of a node in the tree are exactly the member at that leaf, or the members below that parent who are not listed as unmerged. In particular, someone removed has none of the keys of the tree and can read no later update path, and an update path that merges tells every other member its last path secret.", "quantifier": "every history of additions, updates, removals and merged update paths, from the creation of a group on, with every provider and cipher suite", "why_tests_cant": "the invariant relates the shape of the tree, blanks, unmerged lists and what everybody ever learnt, over histories of any length and trees of any size", "anchors": ["rmls/src/ratchet_tree/mod.rs: add, update, remove, merge_update_path, resolve, filtered_direct_path, unmerged_leaves"]}
{"id": "C82", "title": "Kept ratchets reveal later message keys only", "statement": "Someone who has only the current secrets of some ratchets of a secret tree, and some message keys and nonces, can compute with the key derivation function exactly the secrets, keys and nonces of those ratchets from their current generations on, and what they already have: no earlier generation, no other member's and no other kind of ratchet; unless two different calls of the function have the same result.", "quantifier": "every set of ratchets, keys and nonces kept, every tree size, generation, leaf and kind, every provider, and all KDF calls an attacker makes", "why_tests_cant": "an attacker may make any calls in any order; only a proof over all of them says that nothing older comes out", "anchors": ["rmls/src/secret_tree/mod.rs: SecretTree::new, derive_ratchet_root, derive_key, derive_nonce, derive_next, derive_tree_secret", "rmls/src/crypto/provider/mod.rs: expand_with_label"]}
{"id": "C83", "title": "Past epochs stay secret, and one unknown commit secret heals", "statement": "Over any sequence of epochs of the key schedule, someone can compute a secret of an epoch (init, sender data, encryption, exporter, external, confirm, membership, resumption, authentication) exactly if they were given it or something it is made from in that epoch, or something of an earlier epoch together with all commit secrets and PSK secrets since; unless two different calls of the key derivation function have the same result. So secrets of later epochs reveal nothing about earlier ones, and a commit secret that they do not know locks them out.", "quantifier": "every sequence of epochs of any length, every set of given secrets, every provider, and all KDF calls an attacker makes", "why_tests_cant": "histories and attackers are unbounded; a dropped or reordered input to the key schedule still round-trips in tests", "anchors": ["rmls/src/key_schedule/mod.rs: extract_joiner_secret, extract_epoch_secret, SECRET_LABEL_INIT, SECRET_LABEL_CONFIRM", "rmls/src/crypto/provider/mod.rs: derive_secret, expand_with_label"]}
{"id": "C84", "title": "Build profile: overflow checks on or off make no difference", "statement": "Building the library without overflow checks (the release profile) does not change what it does: every call of the tree index arithmetic, the ratchet tree and the secret tree that returns in a dev build returns the same in a release build; a leaf index that names no leaf of the tree never reads or changes another leaf; and no call runs for ever.", "quantifier": "All u32 indices and leaf counts, all trees, all providers, all proposal lists, update paths and generations.", "why_tests_cant": "Tests run in one profile, on small trees with indices far from 2^31 and 2^32; the two builds differ only for indices and counters near those limits, which come from the network.", "anchors": ["rmls/src/utilities/tree_math/mod.rs: NumLeaves, NodeIndex, LeafIndex", "rmls/src/ratchet_tree/mod.rs: get_leaf, add, update, remove, merge_update_path, apply", "rmls/src/secret_tree/mod.rs: SecretTree::new, RatchetSecret::derive_next", "Cargo.toml: profile.dev", "rmls/src/framing/proposal.rs: verify_proposal_list"]}
{"id": "C85", "title": "Accepted under a key means stated by its owner, for that purpose", "statement": "If the owner of a signature key is the only one who can make signatures under it, then whatever the library accepts under that key was stated by the owner and means what the owner meant: an accepted leaf was signed for that group and position (unless it came with a key package), an accepted key package, group info or message content was signed as such, with the same contents. A signature made for one purpose, group, position, epoch or wire format is never accepted for another.", "quantifier": "All providers, keys, histories of signed statements of the four kinds, leaves, trees, key packages, group infos, messages and group contexts.", "why_tests_cant": "Confusion of two signed structures needs two values of different types with equal bytes; tests sign and verify the same value.", "anchors": ["rmls/src/crypto/provider/mod.rs: sign_with_label, verify_with_label, mls_prefix_label_data", "rmls/src/ratchet_tree/leaf_node.rs: LeafNode::verify, LeafNode::new", "rmls/src/key_package/mod.rs: KeyPackage::verify, from_keys", "rmls/src/framing/group_info.rs: GroupInfo::verify_signature", "rmls/src/framing/mod.rs: AuthenticatedContent::new, verify_signature", "rmls/src/ratchet_tree/mod.rs: verify_integrity"]}
{"id": "C86", "title": "Members built with different bundled providers interoperate", "statement": "A group may mix members whose library was built with the RustCrypto provider and members whose library was built with the ring provider. Given that the two sets of underlying cryptographic libraries compute the same standard functions, both builds compute the same tree hashes, references, transcript hashes, tags and key schedule, make the same messages, leaves and key packages from the same inputs, accept the same signatures, trees, packages and group infos, and read the same messages.", "quantifier": "All pairs of cryptographic libraries that compute the same functions, cipher suites, trees, keys, secrets, messages, packages, welcomes and random bytes.", "why_tests_cant": "A test runs one build at a time on messages it made itself; agreement is about every message, including those an insider makes by hand.", "anchors": ["rmls/src/crypto/provider/ring/hpke.rs: aead_open, kdf_expand, Hpke", "rmls/src/crypto/provider/rust/hpke.rs: aead_open, kdf_expand, Hpke", "rmls/src/crypto/provider/ring/signature.rs: sign, verify", "rmls/src/crypto/provider/rust/signature.rs: sign, verify", "rmls/src/framing/private_message.rs: decrypt_content, decrypt_sender_data", "rmls/src/key_schedule/mod.rs: extract_epoch_secret"]}
{"id": "C87", "title": "An interrupted build or join leaves no half of a key package", "statement": "Building a key package puts three entries into the key store (the package, its encryption key pair, its private init key) and joining takes two out again. If a call is interrupted at any point, or another call runs between its accesses, the store is left with the whole package or with nothing of it: no package without its init key, and no private init key of a package that is gone.", "quantifier": "All providers, stores, builds, welcomes, points of interruption and schedules.", "why_tests_cant": "A test runs each call to its end in one thread; the claim is about every point at which a call can stop and every interleaving.", "anchors": ["rmls/src/key_package/builder.rs: build", "rmls/src/group/creation.rs: from_welcome", "rmls/src/crypto/provider/key_store.rs: MemoryKeyStore"]}
{"id": "C88", "title": "Builds and joins that share a key store do not disturb one another", "statement": "When any number of key package builds and joins run at the same time on one key store, then at every moment everything in the store was there before or was stored by one of the builds; entries that no build makes and no welcome claims are unchanged; the entries of a finished build are there unless a welcome claims them; and the package and init key that a finished join used are gone and are not brought back by any build.", "quantifier": "All providers, stores, numbers of builds and joins, and schedules of their accesses to the store, including calls that never finish.", "why_tests_cant": "The number of interleavings is unbounded, and the unit tests use the store from one thread.", "anchors": ["rmls/src/key_package/builder.rs: build", "rmls/src/group/creation.rs: from_welcome", "rmls/src/crypto/provider/key_store.rs: store, retrieve, delete"]}
{"id": "C89", "title": "Random bytes are never handed out twice", "statement": "However many calls share one crypto provider, and in whatever order they reach its random number generator, no two requests for random bytes are answered from overlapping parts of the generator's output. So two groups made without an identifier get 16 random bytes each from different parts, two sender-data records get their reuse guards from different parts, and the init and encryption key pairs of all key packages are derived from different parts; they are different values whenever the generator's output does not repeat.", "quantifier": "every provider, generator output, starting key store, list of calls (joins, key package builds, group creations, sender data) that together use at most 2^68 words of the generator, and every interleaving of their accesses to the generator and the store, including calls that never finish", "why_tests_cant": "it ranges over every interleaving of calls on a shared generator and over all of its outputs; a test runs a few schedules and cannot tell a reused block from a coincidence", "anchors": ["rmls/src/crypto/provider/rand.rs: RandChacha::fill", "rmls/src/key_package/mod.rs: KeyPackage::new", "rmls/src/ratchet_tree/leaf_node.rs: LeafNode::new", "rmls/src/group/creation.rs: Group::new", "rmls/src/framing/mod.rs: SenderData::new"]}
{"id": "C90", "title": "Decoded values are no bigger than what was received", "statement": "The size of a decoded value, counting its fields, the elements of its lists and the bytes of its strings, is at most the number of bytes it was decoded from, for every structure of the library; a ratchet tree, which the decoder fills up with blank nodes, is at most twice that. A peer therefore cannot make a receiver hold more than a fixed multiple of what it sent.", "quantifier": "every byte string that is accepted, every structure, and whatever follows it in the buffer", "why_tests_cant": "it ranges over all accepted inputs of any length and nesting; a test decodes some messages", "anchors": ["rmls/src/utilities/serde/mod.rs: deserialize_vector, deserialize_opaque_vec", "rmls/src/ratchet_tree/mod.rs: RatchetTree::deserialize", "rmls/src/framing/mod.rs: MLSMessage::deserialize", "rmls/src/framing/private_message.rs: PrivateMessageContent::deserialize"]}
{"id": "C91", "title": "A welcome takes a new member to the group's state", "statement": "A client that joins with the library's calls - decode key package and welcome, decrypt the group secrets and the group info, decode the tree, check signature, tag, tree and its own leaf, derive the epoch secret - ends up with the tree, context and epoch secret of the group whenever it was invited as RFC 9420 prescribes, and it and the other members then read each other's private messages. Conversely, whatever bytes it is handed, a join that goes through has checked that the tree is valid and has the hash of the context, that a member of that tree signed the group info, that the confirmation tag belongs to the secrets and that its own leaf is in the tree; and it then is in the state of every member who accepted the commit with that tag.", "quantifier": "every tree the library can make, every group, welcome, key package and set of external PSKs, every received byte string, and every provider whose primitives undo each other", "why_tests_cant": "the test vectors join some groups; the claim is about every group and every received input, and about two parties computing independently", "anchors": ["rmls/src/utilities/serde/serde_test.rs: passive_client_test", "rmls/src/framing/welcome.rs: Welcome::decrypt_group_secrets, Welcome::decrypt_group_info", "rmls/src/framing/group_info.rs: GroupInfo::verify_signature, GroupInfo::verify_confirmation_tag", "rmls/src/ratchet_tree/mod.rs: RatchetTree::verify_integrity, RatchetTree::find_leaf", "rmls/src/key_schedule/mod.rs: GroupContext::extract_epoch_secret"]}
{"id": "C92", "title": "A member's public message reaches everyone in the epoch and nobody else", "statement": "What a sender frames, signs, tags and encodes as a public message is decoded and accepted, with the same content, by everyone who has the sender's signature key, the group context and the membership key. What is accepted is exactly a message with a valid signature over content and context and, from a member, the membership tag of the context. No message of a member is accepted in two contexts unless the MAC has a collision.", "quantifier": "every content, sender, context, key and received byte string, and every provider whose verification accepts what was signed", "why_tests_cant": "it ranges over all contents and all received bytes, and over pairs of contexts", "anchors": ["rmls/src/framing/public_message.rs: PublicMessage::new, PublicMessage::sign_membership_tag, PublicMessage::verify_membership_tag, PublicMessage::authenticated_content", "rmls/src/framing/mod.rs: AuthenticatedContent::verify_signature, MLSMessage", "rmls/src/group/group_test.rs: test_message_protection_pub, verify_public_message"]}
{"id": "C93", "title": "A tree accepted from another member stays usable", "statement": "Whatever bytes a ratchet tree was decoded from, once it has passed the integrity check every operation on it acts as on a tree the library built itself: additions, updates, removals, proposal lists and update paths change exactly what they name, and after any history of them the tree can be sent to a newcomer, who decodes the same tree and accepts it.", "quantifier": "every byte string decoded as a tree, every group context it is checked against, every provider and time, every later history of operations", "why_tests_cant": "The tests only operate on trees that the same code or an honest peer built; a received tree can be any of infinitely many that pass the check, and the consequences show up only after later operations.", "anchors": ["rmls/src/ratchet_tree/mod.rs: RatchetTree::deserialize, verify_integrity, add, update, remove, apply, merge_update_path, resolve, serialize"]}
{"id": "C94", "title": "A client accepts only commits their sender made for this epoch, and carries them out", "statement": "The project's own client (the passive client of its interoperability tests) accepts the bytes of a commit exactly when they are a public message of the current epoch from a member, signed by that member for the client's group context, tagged with the epoch's membership key, holding a valid list of proposals that can be carried out and, if one is needed, an update path whose leaf is signed for the member's place, whose keys are new and which fits the tree; such a commit is accepted in no other context; every commit a member makes this way is accepted; and afterwards the client's tree is the old one with the proposals and the path applied, well-formed and with distinct keys.", "quantifier": "every byte string, every tree the client can hold (well-formed or accepted from others), every group context and epoch secret, every provider, every commit", "why_tests_cant": "The tests process a fixed list of recorded epochs and check only that nothing is refused; that everything else is refused ranges over all byte strings, and that honest commits are accepted over all trees and proposals.", "anchors": ["rmls/src/utilities/serde/serde_test.rs: passive_client_test (lines 183-307)", "rmls/src/framing/public_message.rs: PublicMessage::verify_membership_tag", "rmls/src/framing/mod.rs: AuthenticatedContent::verify_signature", "rmls/src/framing/proposal.rs: verify_proposal_list, proposal_list_needs_path", "rmls/src/ratchet_tree/mod.rs: RatchetTree::keys, supported_creds, apply, merge_update_path"]}
{"id": "C95", "title": "A group stays joinable", "statement": "If the tree of a group passes the integrity check of a new member, then so does every tree that later changes make of it, provided each change was checked the way the library offers: new leaves with the leaf check against the keys and credential types of the tree, commits as the project's client does. So whoever is invited later can join.", "quantifier": "every tree that passes the check, every later history of additions, updates, removals and commits with paths, of any length, every provider, group and clock", "why_tests_cant": "Whether the hundredth member can join depends on all changes before; tests try short histories with fresh keys and equal capabilities, while the property quantifies over every leaf and path somebody could send.", "anchors": ["rmls/src/ratchet_tree/mod.rs: RatchetTree::verify_integrity, keys, supported_creds, add, update, remove, merge_update_path", "rmls/src/ratchet_tree/leaf_node.rs: LeafNode::verify", "rmls/src/utilities/serde/serde_test.rs: passive_client_test"]}
{"id": "C96", "title": "Private messages: what a client accepts, and from whom", "statement": "A client that handles a private message as the library's own test client does accepts it exactly when its sender data decrypt with the epoch's sender data secret, its content decrypts with the key and guarded nonce that RFC 9420 gives to the sender's leaf, the kind of content and the generation named there, with zero padding, and the signature verifies for the sender's key over what the message says and the state of the group. If only its owner signs with that key, the owner made exactly this statement as a private message in this state. What a member sends from its leaf, in any generation, arrives.", "quantifier": "every provider, cipher suite, group context, signature key, encryption and sender data secret, group of any power-of-two size up to 2^31, leaf, generation, reuse guard, content, and every byte string received", "why_tests_cant": "The test opens the messages of the RFC's test vectors and one message of its own per vector, all of generation 0 and two leaves. It cannot show that nothing else is accepted, nor that every generation and leaf works.", "anchors": ["rmls/src/group/group_test.rs: decrypt_private_message, test_message_protection_priv", "rmls/src/framing/private_message.rs: PrivateMessage, decrypt_sender_data, decrypt_content", "rmls/src/secret_tree/mod.rs: SecretTree, RatchetSecret"]}
{"id": "C97", "title": "Old, repeated and misdirected private messages get an error", "statement": "A client that keeps the ratchets of the senders refuses with an error a private message of a generation it has passed, one it has already received in whatever encryption, one that names another sender than the ratchet's, and one for another group or epoch; the work it does for a message is bounded by the length of the message.", "quantifier": "every provider, ratchet state, and private message, and every message sent before", "why_tests_cant": "Replays, wrong senders and far generations are histories and inputs of an adversary; the test receives each message once with a fresh ratchet.", "anchors": ["rmls/src/group/group_test.rs: decrypt_private_message", "rmls/src/secret_tree/mod.rs: RatchetSecret::derive_next", "rmls/src/framing/mod.rs: SenderData", "rmls/src/framing/private_message.rs: PrivateMessage::decrypt_content"]}
{"id": "C98", "title": "A removed member is locked out of the following epochs, a new one out of the epochs before", "statement": "Whoever has no leaf in the tree when a commit with an update path is made, and gets none back, can compute none of the secrets that the key schedule gives for that epoch and the later ones, whatever they learnt in earlier epochs and whatever path secrets they can decrypt; whoever had no leaf from the beginning until some epoch cannot compute those epochs' secrets, whatever they learn later. Every member of the tree other than the committer can compute them.", "quantifier": "every provider, cipher suite, history of adds, updates, removes, merged update paths and epochs of any length, person, stretch of epochs, set of other known values, and list of KDF calls the person makes", "why_tests_cant": "A test can show that a removed client's old keys do not open one message. That no combination of everything learnt over a whole history gives a secret is a statement about all computations.", "anchors": ["rmls/src/ratchet_tree/mod.rs: RatchetTree::remove, merge_update_path, resolve", "rmls/src/key_schedule/mod.rs: extract_joiner_secret, extract_epoch_secret, derive_secret", "rmls/src/framing/proposal.rs: proposal_list_needs_path"]}
{"id": "C99", "title": "A stolen client state opens only messages still to come, and a removed member opens none", "statement": "Someone who takes what a client holds in an epoch (the secrets derived from the epoch secret other than the deleted encryption secret, and its current ratchets and unused keys) gets the keys and nonces only of messages that follow from those ratchets and keys, not of messages received before. Someone who has no leaf in the tree of an epoch gets no message key or nonce of that epoch.", "quantifier": "every provider, cipher suite, history of epochs, secret tree of up to 2^31 leaves, set of kept ratchets, keys and nonces, set of other known values, and list of KDF calls", "why_tests_cant": "That a value cannot be computed from a state concerns all computations on all states; a test can only try some.", "anchors": ["rmls/src/secret_tree/mod.rs: SecretTree::new, derive_ratchet_root, RatchetSecret::derive_next, derive_key, derive_nonce", "rmls/src/key_schedule/mod.rs: derive_secret, extract_epoch_secret"]}
{"id": "C100", "title": "A member whose state was stolen shuts the thief out by an update or a commit", "statement": "When everything a member knows has been stolen, the thief can follow the group's epochs until the member's leaf gets a new key. Once the member's update (with anyone's commit) or its own commit with an update path is through, the thief gets no secret of the new epoch, none of the following ones and no key of their messages, as long as it has no leaf in the tree.", "quantifier": "every provider, cipher suite, history of tree operations and epochs, stolen state, set of other known values, later epochs, and list of KDF calls", "why_tests_cant": "That a value cannot be computed from a stolen state concerns all computations, states and histories; a test can only try some.", "anchors": ["rmls/src/ratchet_tree/mod.rs: RatchetTree::update, merge_update_path, resolve, filtered_direct_path", "rmls/src/key_schedule/mod.rs: extract_joiner_secret, extract_epoch_secret, derive_secret"]}
{"id": "C101", "title": "A welcome opens for the invited only, and opening it does not give away the epoch", "statement": "The group info of a Welcome can be opened exactly with a key and nonce that take both the epoch's joiner secret and its PSK secret; whoever has both can also compute every secret of the epoch. Someone who gets hold of the welcome secret, key or nonce alone is no nearer to any secret of the epoch, and without the PSK secret not even the joiner secret, the commit secret and the epoch before help.", "quantifier": "every provider, cipher suite, epoch, set of known values and list of KDF calls", "why_tests_cant": "That a value cannot be computed concerns all computations from all sets of known values; a test can only try some.", "anchors": ["rmls/src/framing/welcome.rs: Welcome::decrypt_group_info", "rmls/src/key_schedule/mod.rs: extract_welcome_secret, extract_epoch_secret, derive_secret"]}
{"id": "C102", "title": "Pre-shared keys keep out whoever lacks one of them", "statement": "The PSK secret of a list of pre-shared keys can be computed exactly by those who know every one of them. Whoever lacks one of the PSKs mixed into an epoch knows no secret of that epoch or of the ones that follow, even with all secrets of the epochs before, all commit secrets and all other PSKs, as long as nothing of the epochs since is given away. If the PSK is the resumption secret of an epoch, only those who know the secrets of that epoch get in.", "quantifier": "every provider, cipher suite, list of PSKs (of any length), history of epochs before and after, set of known values and list of KDF calls", "why_tests_cant": "That a value cannot be computed concerns all computations from all sets of known values, and all later epochs; a test can only try some.", "anchors": ["rmls/src/key_schedule/mod.rs: extract_psk_secret, extract_epoch_secret, extract_joiner_secret, derive_secret"]}
{"id": "C103", "title": "Checking a received tree takes bounded work", "statement": "Verifying the integrity of a ratchet tree, whatever it contains and whether it is accepted or not, computes at most (d+1) digests per node of a tree of depth d, verifies at most one signature per leaf, and visits a number of nodes bounded by d per node and a constant per unmerged-leaf entry; for a tree received as n bytes this is at most 64n digests, n signatures and 130n visited nodes. The recursive functions never nest deeper than the tree is high (31 levels). Searching the lists of unmerged leaves takes at most as many comparisons as a constant times the number of entries times the length of the longest list, which is quadratic in the bytes received; trees that need that many are accepted, so no linear bound holds for these comparisons.", "quantifier": "every tree, every byte string it is received in, every group context and provider, every outcome", "why_tests_cant": "A hostile tree can be of any size and shape; a test measures some trees.", "anchors": ["rmls/src/ratchet_tree/mod.rs: RatchetTree::verify_integrity, compute_tree_hash, compute_root_tree_hash, verify_parent_hashes, resolve, has_unmerged_leaf"]}
{"id": "C104", "title": "No key, nonce or secret is for two things", "statement": "Over all epochs of all groups of a cipher suite, two of the values that the library derives - a ratchet secret, message key or message nonce of a leaf's handshake or application ratchet in a generation; a secret derived from the epoch secret; the key or nonce of sender data; the key or nonce of a welcome's group info - are the same bytes only if they are for the same thing in the same epoch of the same group, or two different calls of the KDF collide. (Sender-data keys are for all ciphertexts with the same first bytes, as RFC 9420 has it.)", "quantifier": "any two epochs with any contexts, group sizes, commit secrets and PSKs, any two of their values, any KDF", "why_tests_cant": "There are unboundedly many pairs of values, and an overlap between two labels or contexts shows only for the right pair.", "anchors": ["rmls/src/crypto/provider/mod.rs: expand_with_label, derive_secret", "rmls/src/key_schedule/mod.rs: extract_joiner_secret, extract_epoch_secret, extract_welcome_secret", "rmls/src/secret_tree/mod.rs: SecretTree, derive_key, derive_nonce, derive_next", "rmls/src/framing/mod.rs: expand_sender_data_key, expand_sender_data_nonce", "rmls/src/framing/welcome.rs: decrypt_group_info"]}
{"id": "C105", "title": "A stream of messages is read message by message, and a cut is told from damage", "statement": "Encoded messages that arrive one after the other are decoded as exactly these messages, whatever follows them; and if of the last one only a part has arrived, it is never taken for a message: the decoder says that the buffer is too small, so that the caller can wait for more.", "quantifier": "every list of messages of any kind and size, every message after them and every position at which it is cut, any bytes that follow", "why_tests_cant": "There are unboundedly many messages and each has as many cuts as it has bytes.", "anchors": ["rmls/src/framing/mod.rs: MLSMessage, WireMessage", "rmls/src/utilities/serde/mod.rs: Deserializer, deserialize_varint, deserialize_opaque_vec, deserialize_vector", "rmls/src/ratchet_tree/leaf_node.rs: Lifetime"]}
{"id": "C106", "title": "Every hash is the one RFC 9420 prescribes", "statement": "The tree hash of every node (with any set of leaves left out), the parent hash, the two transcript hashes over any history of commits, references and key package references, and the membership tag are the digest (or MAC) of exactly the bytes RFC 9420 prescribes, for every digest; leaving leaves out means blanking them and taking them off all lists of unmerged leaves; after a merged path, and in every tree that passes the integrity check, the parent hashes are these.", "quantifier": "every tree, node, set of left-out leaves, update path, commit history, key package, message, provider and cipher suite", "why_tests_cant": "The test vectors fix a few trees and transcripts; an implementation that agrees on them can differ for other shapes, other unmerged lists or longer histories, and then disagree with every other implementation.", "anchors": ["rmls/src/ratchet_tree/mod.rs: compute_tree_hash, compute_root_tree_hash, serialize_leaf_node_hash_input, serialize_parent_node_hash_input, verify_parent_hashes, merge_update_path", "rmls/src/ratchet_tree/parent_node.rs: compute_parent_hash", "rmls/src/key_schedule/mod.rs: ConfirmedTranscriptHashInput::hash, next_interim_transcript_hash", "rmls/src/crypto/provider/mod.rs: ref_hash, sign_mac", "rmls/src/key_package/mod.rs: generate_ref"]}
{"id": "C107", "title": "Parts of a group that carried out different commits stay apart", "statement": "Once two members have carried out different commits from the same point on, then however many commits follow on either side: their group contexts are never equal again, and nothing that a member says on one side only - a public message, a private message or a commit - is accepted on the other, unless two different strings hashed for the two transcripts have the same digest. A public message signed for both sides is still accepted on one side only, unless its membership tag is the MAC of two different inputs.", "quantifier": "every pair of commit histories, epoch, context, message and provider with digests of fixed size", "why_tests_cant": "A fork can happen at any epoch and be followed by any number of commits on both sides; that no message whatever crosses over is a claim about all histories and all bytes.", "anchors": ["rmls/src/key_schedule/mod.rs: ConfirmedTranscriptHashInput::hash, next_interim_transcript_hash", "rmls/src/framing/mod.rs: verify_signature", "rmls/src/framing/public_message.rs: verify_membership_tag", "rmls/src/framing/private_message.rs: authenticated_content"]}
{"id": "C108", "title": "Following a commit takes bounded work", "statement": "Carrying out a commit's proposals, merging its update path and deriving the secret tree of the new epoch take bounded work whatever is received: merging a path into a tree of n nodes computes fewer than n digests, checks no signature and visits at most n+34 nodes; carrying out a list of p proposals on a tree of n nodes visits at most p(4(n+p)+35) nodes; a secret tree for a power of two of leaves takes exactly two expansions per node above the leaves. No bound in proportion to p holds for proposals: p added members are placed with a number of visits that grows with the square of p.", "quantifier": "all trees of 2^d leaf positions for the path, all trees at all for the proposals, every update path, every named sender, every list of proposals and senders, every provider, and every outcome (accepted, refused or panicked)", "why_tests_cant": "A test measures one tree; whether a received path or list of proposals can make a client work out of proportion is a claim about all of them.", "anchors": ["rmls/src/ratchet_tree/mod.rs: RatchetTree::apply, RatchetTree::add, RatchetTree::update, RatchetTree::remove, RatchetTree::merge_update_path, RatchetTree::filtered_direct_path, RatchetTree::resolve", "rmls/src/secret_tree/mod.rs: SecretTree::new, SecretTree::derive_children"]}
{"id": "C109", "title": "Values from later registries are tolerated", "statement": "A member that lists protocol versions, cipher suites, extensions, proposals or credential types this library has no name for, or carries extensions of such types that it lists (as RFC 9420 Section 13 asks members to do), is not refused for it and changes nothing else: capabilities and extensions with any 16-bit numbers are read number by number; looking up an extension with a named type gives the same; the named credential types found to be supported by all members are the same; a leaf node, and a whole ratchet tree, accepted without such values is accepted with them once it is signed and hashed with them. Only a proposal or a credential whose own type is unnamed is refused, with an error, whatever follows.", "quantifier": "all lists of 16-bit numbers that fit a vector, all extension contents, all insertions of such values at any places in any members of trees of any size, every provider and time", "why_tests_cant": "Tests use the values the authors know; the claim is about all the numbers that have no meaning yet, at every place in every tree.", "anchors": ["rmls/src/ratchet_tree/leaf_node.rs: Capabilities::deserialize, LeafNode::verify", "rmls/src/extensibility/mod.rs: Extensions, find_extension_data", "rmls/src/ratchet_tree/mod.rs: RatchetTree::supported_creds, RatchetTree::verify_integrity", "rmls/src/framing/proposal.rs: Proposal::deserialize", "rmls/src/crypto/credential.rs: Credential::deserialize"]}
{"id": "C110", "title": "The order of a commit's proposals decides only which place each new member gets", "statement": "Two members who carry out the same accepted proposals, listed in different orders, end with the same tree, node by node, as long as the new members come in the same order in both lists. In whatever order the new members come, the two trees have the same size and the same nodes, except that the places of new members may be taken by different ones of them; that much does depend on the order.", "quantifier": "all well-formed trees of any size, all proposal lists that pass the list check and name members, all permutations of them together with their senders, and every outcome", "why_tests_cant": "A list of n proposals has n! orders, and the claim is about all of them on all trees; updates, removals and additions interact through the nodes they blank, cut and extend.", "anchors": ["rmls/src/ratchet_tree/mod.rs: RatchetTree::apply, RatchetTree::add, RatchetTree::update, RatchetTree::remove", "rmls/src/framing/proposal.rs: Proposal"]}
{"id": "C111", "title": "Decoding takes work in proportion to the bytes received", "statement": "Decoding any byte string as any structure takes at most a small fixed number of steps for each byte, whether it succeeds or fails: one or two for plain values, two more for each level of vectors, six for a whole message and seven for a ratchet tree. A step is a byte read or copied, a buffer set up, an element of a vector, a blank put at the end of a tree or a byte of padding. When it succeeds the bound is in terms of the bytes it used, not of what follows them.", "quantifier": "all byte strings of any length, well-formed or not, for every structure the library decodes, and every element decoder for the vectors", "why_tests_cant": "A bound on the work for every input is a claim about the worst of infinitely many byte strings; a test measures the inputs it was given, and the expensive ones are those nobody thought of.", "anchors": ["rmls/src/utilities/serde/mod.rs: deserialize_varint, deserialize_opaque_vec, deserialize_vector, deserialize_optional, Deserializer::deserialize_exact", "rmls/src/framing/mod.rs: MLSMessage::deserialize", "rmls/src/ratchet_tree/mod.rs: RatchetTree::deserialize", "rmls/src/framing/private_message.rs: PrivateMessageContent::deserialize"]}
{"id": "C112", "title": "What is signed, sealed and tagged is what RFC 9420 prescribes", "statement": "The bytes the library gives to the signature, encryption, key derivation and MAC primitives are those of RFC 9420, written out from the fields of the value: a content is signed, and its signature checked, over FramedContentTBS; key packages, leaves and group infos over their own structures, a leaf of an update or commit with its group and place; a private message seals content and sender data under the keys, nonces and headers of section 6.3; the secrets and the group info of a welcome are opened with the label, context, keys and nonces of section 12.4.3.1; an accepted confirmation or membership tag is the MAC of the prescribed bytes under the prescribed key. Conversely, whatever is signed, sealed (with any amount of zero padding) and tagged in this way by anyone is accepted and read as what it says.", "quantifier": "all providers, cipher suites with key, nonce and hash sizes below 2^16, keys, contents, group contexts, ratchets, guards and welcomes", "why_tests_cant": "A test of the two halves of one implementation against each other passes whatever bytes they agree on; that every message of every kind is the one the RFC describes, for all contents, senders and providers, needs the construction itself to be compared.", "anchors": ["rmls/src/framing/mod.rs: AuthenticatedContent::new, sign_framed_content, FramedContentAuthData::verify_signature, encrypt_sender_data, sample_ciphertext", "rmls/src/framing/private_message.rs: PrivateMessage::new, encrypt_private_message_content, derive_private_message_key_and_nonce", "rmls/src/framing/public_message.rs: verify_membership_tag", "rmls/src/framing/welcome.rs: decrypt_group_secrets, decrypt_group_info", "rmls/src/framing/group_info.rs: verify_signature, verify_confirmation_tag", "rmls/src/key_package/mod.rs: KeyPackage::from_keys, verify_signature", "rmls/src/ratchet_tree/leaf_node.rs: LeafNode::verify_signature", "rmls/src/crypto/provider/mod.rs: sign_with_label, verify_with_label, expand_with_label, decrypt_with_label"]}
{"id": "C113", "title": "Refusing a tag does not tell how much of it is right", "statement": "Checking a MAC (membership tag, confirmation tag) takes the same time for all wrong tags of the right length, so that someone without the key who can have tags checked, and measures the time, does no better than by trying all of them. (Expected to fail: the tags are compared with the equality of slices, which stops at the first byte that differs.)", "quantifier": "all keys, messages, MAC algorithms and tag lengths; all strategies for choosing the next tag to try from the answers so far", "why_tests_cant": "The claim is about every strategy of an attacker and every tag; a measurement of some runs neither bounds what can be learned nor shows how to exploit it for every key.", "anchors": ["rmls/src/crypto/provider/mod.rs: CryptoProvider::verify_mac", "rmls/src/framing/public_message.rs: verify_membership_tag", "rmls/src/framing/mod.rs: verify_confirmation_tag", "rmls/src/framing/group_info.rs: verify_confirmation_tag"]}
{"id": "C114", "title": "Encoding takes work in proportion to the bytes made", "statement": "Serializing any structure (to a buffer, or detached) takes a number of steps that is at most a small fixed multiple of the number of bytes that come out, whatever the structure contains and however deep it is nested, although each vector is first written to a buffer of its own and then copied. A ratchet tree in addition costs one step for each blank at its end, and in the trees of a group there are not more of these than bytes.", "quantifier": "all values of all wire structures and of the structures that are signed, sealed, tagged or hashed; all ratchet trees; all histories of a group that started with one member", "why_tests_cant": "A time measured on some values says nothing about the worst value, and copying that multiplies with the nesting shows only on shapes nobody thought of measuring.", "anchors": ["rmls/src/utilities/serde/mod.rs: serialize_vector, serialize_opaque_vec, serialize_varint", "rmls/src/ratchet_tree/mod.rs: RatchetTree::serialize", "rmls/src/framing/mod.rs: MLSMessage::serialize", "all impl Serializer"]}
{"id": "C115", "title": "Printing a value reveals no secret in it", "statement": "Formatting a value for a log with {:?} tells nothing about the private keys and secrets in it: two values that differ in a secret only are printed the same. (Expected to fail: the types that hold secrets derive Debug.)", "quantifier": "all keys, key pairs, secret trees, ratchet secrets, group secrets and contents of a key store, and all byte strings in them", "why_tests_cant": "That no information gets through is a claim about all pairs of values; and that everything gets through, escapes and quotes included, is a claim about all byte strings.", "anchors": ["rmls/src/crypto/mod.rs: SecretKey", "rmls/src/crypto/key_pair.rs: SignatureKeyPair, HPKEKeyPair", "rmls/src/secret_tree/mod.rs: SecretTree, RatchetSecret", "rmls/src/framing/group_info.rs: GroupSecrets", "rmls/src/crypto/provider/key_store.rs: MemoryKeyStore"]}
{"id": "C116", "title": "A call leaves the caller's buffer as it should: its share added or taken, nothing if it fails", "statement": "A serializer adds to the buffer it is given exactly the encoding of the value, after what the buffer holds; a deserializer takes from the buffer it is given exactly the bytes of the value it returns; and a call that fails, or has too little room, returns an error and leaves the buffer as it was. (Expected to fail for calls that fail.)", "quantifier": "all types with a serializer or deserializer, all values, all inputs, all contents of the buffer, buffers that grow and buffers with any room", "why_tests_cant": "It ranges over all values and inputs, all places where a call can fail, and all buffers.", "anchors": ["rmls/src/utilities/serde/mod.rs: Serializer::serialize, Deserializer::deserialize, serialize_opaque_vec, deserialize_vector, serialize_vector", "rmls/src/framing/mod.rs: MLSMessage", "rmls/src/key_package/mod.rs: KeyPackage"]}
{"id": "C117", "title": "Nothing received makes calls nest deeply", "statement": "However large a ratchet tree is and whatever is in it, the recursive functions - resolution of a node, tree hash, secret tree - have no more calls open at a time than the tree has levels, 33 at most, so that no message, welcome or tree that a peer sends can exhaust the stack.", "quantifier": "all trees of any length and content, all nodes, all providers and secrets, all sizes of groups", "why_tests_cant": "Stack use would have to be observed for every tree; the trees that would show a deep recursion have up to 2^32 nodes.", "anchors": ["rmls/src/ratchet_tree/mod.rs: RatchetTree::resolve, RatchetTree::compute_tree_hash", "rmls/src/secret_tree/mod.rs: SecretTree::derive_children"]}
{"id": "C118", "title": "The error of a refused encoding names what is wrong with it", "statement": "Whenever decoding refuses bytes, the error it returns is true of them: some part of the bytes is wrong in the way the error says (a length or integer that runs past the end of the message or of the vector it is in; a length not in its shortest form or with a reserved prefix; a code point, with exactly the value the error carries, that is not in the registry the error speaks of; a padding byte other than zero), and what follows that part has no influence on the error.", "quantifier": "every decoder of a wire structure, every byte string it refuses, every replacement of the bytes after the faulty part by as many others", "why_tests_cant": "There are unboundedly many malformed inputs, with the fault at any depth of nesting and with anything around it; tests try a few and rarely look at which error comes back.", "anchors": ["rmls/src/utilities/error.rs Error", "rmls/src/utilities/serde/mod.rs deserialize_varint, deserialize_opaque_vec, deserialize_vector, deserialize_optional", "rmls/src/framing/mod.rs MLSMessage::deserialize", "rmls/src/key_schedule/mod.rs GroupContext::deserialize"]}
{"id": "C119", "title": "A check that refuses something says truly why", "statement": "Whenever checking a leaf node, a key package, a ratchet tree or an update path, joining from a welcome, finding one's secrets in a welcome or checking a tag fails, the error that comes back is true: the signature it speaks of does not verify, the credential or extension type it names is the one that is not supported, the lifetime is one that is not accepted, there are two leaves or nodes with the same key, there is a parent whose hash no child carries, an unmerged leaf that is not below its parent, one that is missing in between, an update path with a different number of nodes, a parent hash in whose place another would have done, no package or key in the store, no entry in the welcome, a tag that is not the right one. No check fails with an error that has no such reason. When several things are wrong with a leaf node, a key package or a tree, the error is that of the first check that fails, in a fixed order.", "quantifier": "every leaf node and set of options, key package and group context, tree (of any size, from any source) and group context, update path and tree, key store and welcome, tag and key; every provider and every time", "why_tests_cant": "A tree can be wrong in unboundedly many ways and places, also in several at once; tests look at whether a bad value is refused, seldom at whether the reason is right.", "anchors": ["rmls/src/utilities/error.rs Error", "rmls/src/ratchet_tree/leaf_node.rs LeafNode::verify", "rmls/src/key_package/mod.rs KeyPackage::verify", "rmls/src/ratchet_tree/mod.rs verify_integrity, merge_update_path", "rmls/src/group/creation.rs Group::from_welcome", "rmls/src/framing/welcome.rs decrypt_group_secrets", "rmls/src/framing/public_message.rs verify_membership_tag"]}
{"id": "C120", "title": "The message of an error tells which error it is", "statement": "Among the errors that the library words itself, no two different ones print the same message, and an error about a number (a value that was read, or the count of excess bytes) says that number in decimal. Errors that pass on the words of another crate or of the caller print exactly those. A cipher suite prints the name it has in RFC 9420, or its number if it has none there, and no two print alike.", "quantifier": "all errors, all numbers they can carry, all texts that other crates may add, all cipher suites including unknown values", "why_tests_cant": "the numbers and the foreign texts are unbounded; that no pair of messages coincides is about all pairs", "anchors": ["rmls/src/utilities/error.rs: Error", "rmls/src/crypto/cipher_suite.rs: CipherSuite (Display)"]}
{"id": "C121", "title": "Members stay valid for the time their lifetime says", "statement": "A leaf node from a key package, and a tree with such members, is accepted while the clock shows a time within the lifetimes (in seconds since 1970, as RFC 9420 says) and is refused before they begin and from the moment one has ended; the clock makes no difference to leaf nodes without a lifetime. (Expected to fail: the fields are taken for microseconds, and the comparisons are inverted.)", "quantifier": "every leaf node, every tree of any size and shape, every time, and every clock, also one that shows different times during one check", "why_tests_cant": "all trees at all pairs of times; tests look at a clock once", "anchors": ["rmls/src/ratchet_tree/leaf_node.rs: Lifetime::verify, not_before_time, not_after_time, LeafNode::verify", "rmls/src/ratchet_tree/mod.rs: verify_integrity"]}
{"id": "C122", "title": "No result depends on the order in which hash sets and hash maps list their entries", "statement": "The library keeps keys, leaves, pre-shared key ids, credential types and stored packages in the standard library's hash sets and maps, whose order differs from run to run. Checking a tree, a leaf node or a list of proposals, hashing a tree without some leaves, joining from a welcome and building a key package give the same result whatever that order, errors included, and leave the same entries in the store.", "quantifier": "every order of the entries of every set and map, every tree, leaf node, list of proposals, welcome, store and provider", "why_tests_cant": "a test run sees one random order; the number of orders is unbounded", "anchors": ["rmls/src/ratchet_tree/mod.rs: supported_creds, verify_integrity, verify_parent_hashes, compute_tree_hash", "rmls/src/ratchet_tree/leaf_node.rs: LeafNode::verify", "rmls/src/framing/proposal.rs: verify_proposal_list", "rmls/src/crypto/provider/key_store.rs: MemoryKeyStore"]}
{"id": "C123", "title": "The members of a tree are those its operations put there", "statement": "After any sequence of add, update, remove and merge calls on a ratchet tree, each leaf index holds exactly what the calls, in their order, put there: an add puts its member at the lowest free index, an update or an accepted path replaces the leaf at its index, a remove frees its index, and a path that is rejected changes no leaf. So a member stays until a successful call names its index, every member was brought by such a call (or was there from the start), and two parties with the same members for whom the same calls succeed have the same members afterwards.", "quantifier": "all trees of the right shape, all sequences of calls of any length in which every add has room (C16), all providers and cipher suites", "why_tests_cant": "It ranges over every interleaving of calls of any length, with trees that grow and shrink in between; a test follows a few sequences.", "anchors": ["rmls/src/ratchet_tree/mod.rs: RatchetTree::add, update, remove, merge_update_path, get_leaf"]}
{"id": "C124", "title": "A tree is no larger than its last member needs", "statement": "Over any sequence of add, update, remove and merge calls on the tree of a group, the tree has the least number of leaf places, 2^s for s the number of binary digits of the last member's index, that holds all its members, and it is empty once nobody is left; so members who list the same members agree on the size of the tree. The same holds of a tree received from another member that passed the integrity check.", "quantifier": "all trees of the right shape that start as small as can be (such as that of a new group), all sequences of calls of any length in which every add has room (C16), rejected paths included; all received trees", "why_tests_cant": "Growth and shrinking depend on which places are blank after arbitrarily long sequences of calls; a test follows a few of them.", "anchors": ["rmls/src/ratchet_tree/mod.rs: RatchetTree::add, remove, update, merge_update_path, num_leaves, verify_integrity", "rmls/src/ratchet_tree/mod.rs: RatchetTree::deserialize"]}
{"id": "C125", "title": "Calls on a tree can be repeated, and later ones supersede earlier ones", "statement": "A call on a ratchet tree that is made twice in a row has the same outcome and leaves the same tree as if it was made once, be it an add, an update, a remove or the merge of a path, accepted or rejected. An update or path of a member, accepted or rejected, leaves no trace in what a later update, removal or accepted path of the same member makes of the tree. Updates of different members can be made in either order.", "quantifier": "all trees of the right shape, all members, leaves and paths, all providers and cipher suites", "why_tests_cant": "It compares two different sequences of calls on every tree, entry by entry; tests compare a few.", "anchors": ["rmls/src/ratchet_tree/mod.rs: RatchetTree::update, remove, add, merge_update_path"]}
{"id": "C126", "title": "Changes about different members can be made in either order", "statement": "Making two changes of a group's tree about different members - updates, removals, additions, update paths - gives the same tree in either order. In particular replicas that receive the same changes in different orders end with the same tree.", "quantifier": "every tree the library produces, every two members and leaves, every new member's leaf, every update path", "why_tests_cant": "The claim compares two orders of calls for all trees, places and leaves; cuts of the tree, growth and unmerged lists interact, and a test fixes one tree and one pair of calls.", "anchors": ["rmls/src/ratchet_tree/mod.rs: RatchetTree::add", "rmls/src/ratchet_tree/mod.rs: RatchetTree::update", "rmls/src/ratchet_tree/mod.rs: RatchetTree::remove", "rmls/src/ratchet_tree/mod.rs: RatchetTree::merge_update_path"]}
{"id": "C127", "title": "Every member of a group of two or more can commit, with keys of their choice, again and again", "statement": "In a well-formed tree whose nodes can be encoded, a member who is not the only one and who picks keys short enough to encode for the nodes of their filtered direct path can always make an acceptable update path: there is exactly one parent hash, determined by the tree and the keys, such that the path is accepted whatever else its leaf says when the leaf carries that hash, and is rejected with a parent hash mismatch when it carries another or none. No other numbers of keys, and no keys too long to encode, can be committed to. An accepted path whose leaf can be encoded leaves a tree in which this holds again, so the members of a group of two or more can commit in any order any number of times; additions, updates and removals keep the conditions too, while the tree has at most 2^27 places.", "quantifier": "every provider with a hash whose output is shorter than 2^30 bytes, well-formed encodable tree, place in it, other member, list of keys and leaf; every sequence of committers", "why_tests_cant": "that some acceptable update path exists for every tree, place and choice of keys, and goes on to exist after any number of commits, is a statement about unboundedly many trees and histories", "anchors": ["rmls/src/ratchet_tree/mod.rs: RatchetTree::merge_update_path", "rmls/src/ratchet_tree/parent_node.rs: ParentNode::compute_parent_hash"]}
{"id": "C128", "title": "Whatever can be signed can be sent, and arrives", "statement": "With a provider that signs, tags, expands and seals at ordinary sizes, a content can be made into a public message exactly if the bytes to be signed have an encoding of less than 2^30 bytes, and then whoever holds the sender's verification key and the membership key receives it. A private message can be made under exactly the same condition, whatever the ratchet, sender data and reuse guard. From the encryption secret of an epoch of up to 2^31 leaves every leaf can send, in each of the 2^32 generations, any content that leaves room for signature and seal, and all who hold the epoch's secrets receive it unchanged. Nothing is sent that cannot be signed.", "quantifier": "every provider, suite, context, content, key, membership key, number of leaves up to 2^31 that is a power of two, leaf, generation below 2^32 and reuse guard of four bytes", "why_tests_cant": "that sending never fails for another reason than size is a statement about every content, leaf and generation, and generations go up to 2^32", "anchors": ["rmls/src/framing/public_message.rs: PublicMessage::new", "rmls/src/framing/private_message.rs: PrivateMessage::new", "rmls/src/secret_tree/mod.rs: SecretTree::new"]}
{"id": "C129", "title": "A group never gets stuck between epochs: every commit leads to an epoch with all its secrets", "statement": "With a provider whose KDF works, any sequence of commits, with any init secret, commit secrets and PSK secrets, leads through a sequence of epochs each of which has its joiner, epoch and init secret, the nine secrets derived from the epoch secret and the welcome secret, exactly if the group contexts can be encoded in less than 2^30 bytes. The PSK secret exists exactly if there are as many keys as identities and these can be encoded, and the transcript hashes exactly if commit and tag can be encoded. In every such epoch of up to 2^31 leaves every leaf can send in every generation and is heard. The bundled providers meet the condition over HKDF.", "quantifier": "every provider, suite, init secret, sequence of commits, list of pre-shared keys, leaf, generation and content", "why_tests_cant": "the chain of epochs is unbounded, and secrets of one epoch are inputs of the next; that no step of it fails for any input is an induction", "anchors": ["rmls/src/key_schedule/mod.rs: GroupContext::extract_joiner_secret, extract_epoch_secret, extract_psk_secret", "rmls/src/secret_tree/mod.rs: SecretTree::new"]}
{"id": "C130", "title": "A key package can be built exactly if what is asked for can be written down", "statement": "If the provider has the suite with the key pair's signature scheme, signs with what the builder signs with, and random bytes are to be had, building a key package succeeds for every signature key, credential, lifetime, capabilities and extensions whose encodings leave room for keys and signatures below 2^30 bytes, whatever bytes are drawn and whatever is in the store. Nothing whose parts cannot be encoded is ever built. A key pair of another scheme is refused with the error that says so, and the store stays as it was. Both bundled providers are equipped for their Ed25519 suites.", "quantifier": "every provider, suite, key pair, builder, version, credential, outcome of the requests for random bytes, and store", "why_tests_cant": "success for every request is a statement about unboundedly many requests, stores and random draws", "anchors": ["rmls/src/key_package/builder.rs: KeyPackageBuilder::build", "rmls/src/key_package/mod.rs: KeyPackage::new, KeyPackage::from_keys, KeyPackage::generate_ref", "rmls/src/ratchet_tree/leaf_node.rs: LeafNode::new"]}
{"id": "C131", "title": "Whoever is not alone can commit and be understood, again and again", "statement": "A member whose credential everybody supports and whose leaf lists its extensions, in a group of at least two, can pick any encryption keys that no member has, for their leaf and for each node of their filtered direct path, and any valid list of proposals without PSKs that can be carried out: there is a commit with these, it can be sent as a public message, and the project's client in that epoch accepts the bytes that were sent. A commit without a path to proposals that need none works for every member. Unused keys always exist. Afterwards the committer and everybody else can commit again, so any members can commit in any order, any number of times.", "quantifier": "every provider that signs, hashes and tags with results of ordinary size, every well-formed encodable tree, member, context, epoch secret, choice of unused keys, additional data, list of proposals, and sequence of committers of any length", "why_tests_cant": "it promises success for every group and for every sequence of commits, which has no bound; a test sends a few commits in a few groups", "anchors": ["rmls/src/ratchet_tree/mod.rs: RatchetTree::merge_update_path, RatchetTree::filtered_direct_path, RatchetTree::supported_creds", "rmls/src/ratchet_tree/leaf_node.rs: LeafNode::verify, LeafNodeTBS", "rmls/src/framing/mod.rs: AuthenticatedContent::new", "rmls/src/framing/public_message.rs: PublicMessage", "rmls/src/framing/proposal.rs: verify_proposal_list"]}
{"id": "C132", "title": "One welcome gets everybody in whose leaf is in the tree", "statement": "A member who can sign, in a group whose tree passes the integrity checks and was made by the library's operations, can welcome any guests whose leaves are in the tree and whose key packages have different references: there is one Welcome message with which each guest, by the project's client with the bytes of the guest's own key package, its init private key and the tree (in the group info or given apart), joins. Each gets the group's context, joiner secret, PSK secret and tree, and the epoch secret of the members; a path secret goes along for those who need one.", "quantifier": "every provider that seals, opens, hashes, tags and runs the key schedule, every such group, context, extensions, PSKs, and list of guests whose total fits into a message", "why_tests_cant": "it promises success for every group and every list of guests; the test vectors contain a handful of welcomes made by others", "anchors": ["rmls/src/framing/welcome.rs: Welcome::find_secret, Welcome::decrypt_group_secrets, Welcome::decrypt_group_info", "rmls/src/framing/group_info.rs: GroupInfo::verify_signature, GroupInfo::verify_confirmation_tag", "rmls/src/key_package/mod.rs: KeyPackage::generate_ref", "rmls/src/ratchet_tree/mod.rs: RatchetTree::verify_integrity, RatchetTree::find_leaf", "rmls/src/utilities/serde/serde_test.rs"]}
{"id": "C133", "title": "Any member can change who is a member", "statement": "A member whose credential everybody supports, in a group of at least two, can remove any other members and add anybody with a key package, in one commit: if the new members have different signature keys and there is room for them, there is such a commit, it can be sent as a public message, the project's client in that epoch accepts the bytes, and carrying out the proposals gives a tree in which those who were not removed have their places and leaves, the new ones are at places that were or got free, and nobody else is there. Removals always have room. Additions alone need no path, and a member who is alone can make them.", "quantifier": "every provider that signs, hashes and tags with results of ordinary size, every well-formed encodable tree, member, context, epoch secret, list of others to remove and list of key packages", "why_tests_cant": "it promises success for every group and every choice of members; a test changes a few groups in a few ways", "anchors": ["rmls/src/framing/proposal.rs: verify_proposal_list", "rmls/src/ratchet_tree/mod.rs: RatchetTree::apply, RatchetTree::add, RatchetTree::remove, RatchetTree::merge_update_path", "rmls/src/framing/mod.rs: AuthenticatedContent::new", "rmls/src/framing/public_message.rs: PublicMessage", "rmls/src/group/group_test.rs"]}
{"id": "C134", "title": "In a group whose changes are checked everybody can commit, and it stays such a group", "statement": "In a group that grew from its first member by additions, updates, removals and commits that were checked (signatures, lifetimes, extensions, credentials supported by all, keys that are nobody else's), every member who has the signing key of their leaf can, if there is another member, commit with any new and different encryption keys to any valid list of proposals; the commit can be sent, the project's client accepts the bytes, and the tree that results is again one that grew by checked changes, unless a parent hash coincides with one stored elsewhere. Such keys always exist. Carrying out removals, or additions of members who fit in, support each other's credentials and have keys of their own, keeps it such a group as well. So nobody who was let in is ever unable to commit, and the group can be joined at any time.", "quantifier": "every provider that signs, hashes and tags with results of ordinary size, every history of checked changes of any length, every member, context, epoch secret, choice of keys and list of proposals", "why_tests_cant": "it promises success after every history, for every member; a test follows a few histories", "anchors": ["rmls/src/ratchet_tree/mod.rs: RatchetTree::supported_creds, RatchetTree::merge_update_path, RatchetTree::verify_integrity, RatchetTree::filtered_direct_path", "rmls/src/ratchet_tree/leaf_node.rs: LeafNode::verify", "rmls/src/framing/public_message.rs: PublicMessage", "rmls/src/framing/proposal.rs: verify_proposal_list", "rmls/src/group/group_test.rs"]}
