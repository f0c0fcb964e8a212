# Formal model of webrtc-rs/rmls in Rocq

Scope: the crate `rmls` (RFC 9420 Messaging Layer Security primitives), all sources under
`/repo/rmls/src` except tests, in its default configuration (feature `RustCryptoProvider`); where the
feature `RingCryptoProvider` builds different code, that code is modelled too (Provider.v, Build.v).
The library has no call that joins a group or handles a message as a whole. The programs that do so are in
the project's tests (`serde_test.rs`, `group_test.rs`); Passive.v models them, for C91 and C92;
PassiveCommit.v models the handling of a commit in `serde_test.rs`, for C94 (the test stops after one, and says that applying it
is still to be written); PassivePrivate.v models the handling of private messages in `group_test.rs`, for C96 and C97.

## How the code is modelled

* **Outcomes.** A Rust call returns `res A := Ok a | Err e | Panic | Hang`. `Panic` is any Rust
  panic (slice/`Buf` underrun, index out of bounds, arithmetic or shift overflow with overflow
  checks enabled, as in the dev profile). `Hang` is non-termination: loops carry fuel and return
  `Hang` when it runs out; theorems exclude it. A theorem that excludes `Panic` also describes the
  release profile: C84 proves that the release build returns the same wherever the dev build returns.
* **Bytes** are `list byte` (`Coq.Init.Byte`). Integers are `N`; "fits the Rust type" is an explicit
  predicate. Decoders are `bytes -> res (A * bytes)`, encoders `A -> res bytes`.
  Partially written output of a failing encoder and the read position after a failing decoder are
  not modelled.
* **Cryptography** is a record of functions (`provider`), universally quantified in every theorem.
  Hypotheses such as "open inverts seal" are stated in the theorem that uses them and are shown
  satisfiable by a toy provider.
* **Trees** are `list (option node)`, as in the Rust `Vec<Option<Node>>`.

## Plan per property

- **C01** Variable-length integers are a bijection between 0..2^30-1 and their encodings. Model `serialize_varint`/`deserialize_varint` on N and `list byte`; case split on the three widths, arithmetic by lia.
- **C02** Length-prefixed byte strings and vectors frame exactly their own content. Model the combinators with the element codec as a parameter; induction on the element list / fuel.
- **C03** Every wire structure survives serialize then deserialize. One model codec per Rust impl; a generic `roundtrip` relation closed under the combinators; one theorem per wire type, composed bottom-up.
- **C04** Accepted encodings are canonical: re-serialization reproduces the received bytes. Dual relation `canonical` (accepted bytes = re-encoding ++ rest), same bottom-up composition.
- **C05** Deserializing any byte string returns a value or an error. `Panic` and `Hang` outcomes in the result type. `Hang` excluded by a consumption lemma per element codec; `Panic` exhibited by literals for the three faulty decoders (refutation), excluded for every panic-free decoder, and for messages and trees characterised exactly by a grammar of the bad byte strings (SpecCrash.v).
- **C06** Exact deserialization rejects trailing bytes. Refutation by literal; characterisation theorem of acceptance.
- **C07** No two different values serialize to the same bytes, nor one to a prefix of another. Corollary of the roundtrip relation (left inverse with arbitrary suffix).
- **C08** Serialization fails only because something is too long. Per-type theorem: the outcome of serialization is never Panic/Hang and the error is one of the size errors.
- **C09** Messages and group contexts of another protocol version are rejected. Case analysis of the two decoders.
- **C10** Code points map one-to-one on 16-bit values. Enums modelled as inductive types; exhaustive case split by lia on N.
- **C11** Array tree: children and parent are mutually inverse and stay in the tree. Bit-level model of tree_math on N with u32 overflow = Panic; arithmetic spec: node (level, position) = pos*2^(level+1)+2^level-1. Refinement lemma per function.
- **C12** Direct path is the chain of ancestors up to the root. Fuelled loop; induction on the number of levels left; fuel exhaustion excluded.
- **C13** Copath pairs each direct-path node with the sibling below it. Same as C12.
- **C14** Out-of-range indices are handled without panicking. Refutation by literal, plus a general theorem that climbing from any node outside the tree panics.
- **C15** Adding a member fills the leftmost blank leaf and disturbs nobody else. List-of-option-node model of RatchetTree; loops with fuel; pointwise `nth` characterisation of the result.
- **C16** Adding a member works on every tree the library itself can produce. Refutations by literals (empty tree; two members, remove one, add one) and the general theorem for truncated full trees.
- **C17** Updating a member replaces its leaf and blanks its direct path only. Pointwise characterisation.
- **C18** Removing a member erases it and keeps everyone else. Pointwise characterisation + loop invariant of the truncation scan.
- **C19** The tree array always has the length of a complete binary tree. Refutation by literal + exact length theorem.
- **C20** Removing several members in any order is safe. Induction on the list of removals with the C18 postcondition.
- **C21** Resolution is the RFC resolution. Independent recursive specification of resolution over (level, position); refinement by induction on level.
- **C22** Unmerged-leaf lists stay sorted, non-blank and below their node. Inductive invariant over a transition relation on trees.
- **C23** The tree hash commits to the whole tree. Induction on level: equal hashes give equal inputs or a collision; input encodings are injective (C07).
- **C24** A verified tree has the promised structure. Inversion of the modelled verify_integrity monad; loop invariants for the key sets.
- **C25** Merging an update path changes exactly the sender's leaf and direct path. Loop invariant over the reversed filtered path.
- **C26** A merged path satisfies the parent-hash links. Loop invariant carrying the previous parent hash; sibling subtrees untouched.
- **C27** A rejected update path leaves the tree unchanged. Refutation by literal + early-error theorem.
- **C28** A sole member can commit. Universal rejection theorem.
- **C29** Proposals take effect by kind: updates, then removes, then adds. Fold characterisation of the three filtered passes.
- **C30** The filtered direct path drops exactly the nodes whose sibling branch is empty. filter/map characterisation.
- **C31** Supported credentials are those every member lists. Refutations by literal + counting lemma under NoDup.
- **C32** Ratchet-tree encoding normalizes blanks. strip/pad specification; pointwise.
- **C33** Leaf lookup finds the leftmost equal leaf. Fuelled loop characterisation.
- **C34** Leaf validation accepts exactly the leaves meeting the listed conditions. iff theorem by inversion; injectivity of LeafNodeTBS.
- **C35** Lifetimes accept exactly the current validity window. Time as microseconds in N; universal theorem accepted -> expired; refutation.
- **C36** A secret tree exists exactly for power-of-two sizes and fills every node as specified. Recursive model with fuel = level; spec = path derivation; induction on level.
- **C37** Ratchet generations follow the derivation chain. Induction on the generation.
- **C38** Label expansion separates domains. Injectivity of the info encoding.
- **C39** PSK secret chaining binds ids, order and count. Fold refinement, wrap-around refutation.
- **C40** The key schedule binds the epoch secret to the group context and inputs. Equational theorems + injectivity given collision-free KDF hypotheses.
- **C41** Transcript hashes commit to the whole commit history. Induction on the history, collision-or-equal.
- **C42** A signed content verifies, and the signature covers everything that matters. Signature oracle with correctness hypothesis; injectivity of TBS encoding.
- **C43** Private messages decrypt to what was sent. AEAD/signature oracles with correctness hypotheses; composition.
- **C44** Reuse guards change the nonce injectively. XOR on bytes.
- **C45** Padding is ignored if zero and refused otherwise. Induction on padding.
- **C46** A member's public message is accepted only with a valid membership tag. iff theorem + refutation.
- **C47** A sent commit carries a confirmation tag its receivers accept. Universal negative theorem.
- **C48** Proposal-list validation accepts exactly the valid lists. iff between the modelled loop and a declarative specification; the first proposal refused and its error are unique, and are the ones reported.
- **C49** A path is demanded exactly for the proposals that need one. iff, permutation invariance.
- **C50** A welcome with several re-init/branch PSKs is refused. iff with a count.
- **C51** A built key package verifies and is found by its reference. Refutation with a toy signature scheme; ref-hash binding.
- **C52** Accepting a key package implies its leaf is authentic. iff theorem of what is checked + refutation for the leaf signature.
- **C53** The key store is a map: last write wins, delete removes only its key. Association-list model refined to a function; induction on histories.
- **C54** A welcome consumes its key package exactly once. State-passing model; postcondition.
- **C55** A failed join leaves the key store intact; concurrent joins use a package once. Refutations: literal store; small-step interleaving semantics.
- **C56** Welcome secrets are found by reference and decrypt to what was encrypted. List search spec; HPKE/AEAD oracles.
- **C57** The provider serves exactly the suites it advertises. Case split on code points.
- **C58** A joiner's group-info checks bind signer and context. Injectivity + iff.
- **C59** Provider sizes match provider outputs. Both bundled providers over a record of library primitives with length hypotheses; case split on the suites.
- **C60** Opening an AEAD ciphertext gives back what was sealed. Composition with the primitives' correctness; universal negative theorem for ring.
- **C61** Private messages round-trip with each bundled provider and their padding is checked. Instantiates C43 with each provider; the ring build's decoder modelled separately.
- **C62** Building a key package never panics. Universal panic theorem for the P-256 suite, and its converse: an exact condition for panicking with a bundled provider.
- **C63** Joining yields the group the welcome describes. Universal negative theorem: the result is constant.
- **C64** A new group is the requested one. iff.
- **C65** Builders keep the last value given for each field. Induction on the sequence of setter calls.
- **C66** Generated signature key pairs work and can be used for key packages. Key generation as a record of library functions; composition with C51.
- **C67** The leaf of a freshly built key package passes the leaf check. Universal negative theorem through C34 and C35.
- **C68** An extension put into an extension list is found at the other end. Lookup iff by induction; codec round trips.
- **C69** An accepted list of proposals changes the tree exactly as it says. Composition of C48, C17, C20 and C15/C16 by induction over each kind of proposal; three counterexamples.
- **C70** Parent hashes stay valid over the life of a tree. Invariant `every parent has a unique valid link`, preserved by each operation because unmerged leaves are excluded from the hashed subtree.
- **C71** A committer's leaf commits to the whole tree. Induction along the two hash chains: each link binds key, next hash and sibling subtree (C23's binding lemma also gives the sibling's position); blank siblings are blank in both.
- **C72** Checked leaf nodes keep members' keys distinct. keys as a map over the leaves; invariant over the transition relation.
- **C73** A tree arrives at a new member as it was sent. Every reached tree has a member in its right half, so the decoder finds the right depth; every function of the tree only looks at nodes.
- **C74** Members who do the same keep the same tree. The copies are equal or differ by one trailing blank; each function commutes with that blank as long as no index reaches it.
- **C75** A private message reaches everyone in the epoch, under a key of its own. Compose C43's round trip with C36/C37; injectivity of the KDF label along the chain of derivations, from the key back to the encryption secret.
- **C76** Every structure has the bytes RFC 9420 prescribes. Independent layout functions in SpecLayout.v; each encoder is compared to its layout compositionally, decoders follow by canonicity (C04).
- **C77** The external_senders extension has the bytes RFC 9420 prescribes. The vector header of the prescribed encoding counts the whole content, the first header the code writes counts the signature key only; prefix-freeness of vectors separates them.
- **C78** Members who accept the same confirmation tag are in the same group state. Compose the binding theorems of the MAC, the key schedule (C39, C40), the transcript (C41) and the tree hash (C23); each link either identifies its inputs or yields the collision.
- **C79** Calls return a value or an error. A predicate `returns` closed under bind; one lemma per function, composed along the call graph; loops by induction. Refute the rest with explicit inputs.
- **C80** A credential says the same to whoever receives it. Combine the round trip and the layout of credentials (C01, C77) with the model of the constructors and accessors.
- **C81** Node keys are known to exactly the members below the node. World = tree, people at leaves, keys learnt. Induction over the history: blanked nodes have no key, kept nodes keep their entitled members, and on a merged path the level where a member parts from the sender decides what it is told.
- **C82** Kept ratchets reveal later message keys only. Positions (nodes, ratchets, keys, nonces) form a tree whose edges are expansions with distinct labels and contexts; equal values at different positions give a clash by induction; what an attacker knows lies below what it was given.
- **C83** Past epochs stay secret, and one unknown commit secret heals. Walk back from the secret: the last call is the members' call or a clash, so its inputs are known; induct over the epochs.
- **C84** Build profile: overflow checks on or off make no difference. the functions with u32 arithmetic are written once more over an arithmetic parameter (Profile.v); dev instance equal to the model, release instance equal to the dev instance wherever that does not panic, by a relation that the binds preserve; loops of the release build characterised by induction over the rounds.
- **C85** Accepted under a key means stated by its owner, for that purpose. one inductive type of statements with the RFC bytes to be signed; the labelled encoding is injective across the four kinds (labels differ) and within each (codec injectivity); each verifier accepts only the signed text of its statement.
- **C86** Members built with different bundled providers interoperate. one-directional simulation of provider objects, carried through every function that uses a provider, instantiated in both directions; exact equality for the functions that only hash.
- **C87** An interrupted build or join leaves no half of a key package. builds as threads with one step for each access to the store (Threads.v); cuts by induction on the number of steps; joins by the invariant of C55.
- **C88** Builds and joins that share a key store do not disturb one another. a shared store with one task for each call; invariants over every schedule.
- **C89** Random bytes are never handed out twice. Rand.v models the generator and the calls up to each access to it or to the store; an invariant of every schedule keeps the parts given out so far below the generator's position, and ties the calls to runs of Threads.v with the same bytes.
- **C90** Decoded values are no bigger than what was received. a size function per structure (SpecSize.v); every encoding is at least as long as the value is big, by composition, and decoders return encodings' values (C04); trees by the least power of two.
- **C91** A welcome takes a new member to the group's state. model the test's client; completeness by composing the round trips of C04, C05, C20, C56, C58 and C74; soundness by inverting each step; agreement from C78, traffic from C75.
- **C92** A member's public message reaches everyone in the epoch and nobody else. round trip of C04 for the message, C42 for the signature, C46 for the tag; uniqueness from the injectivity of what the tag covers.
- **C93** A tree accepted from another member stays usable. the predicate shaped (SpecRatchet.v) keeps of a well-formed tree only what decoding and the integrity check establish; ReceivedFacts.v shows they establish it and TreeInv.v that every operation keeps it; the theorems on effects of operations take it as their only assumption on the tree; three concrete accepted trees refute the rest.
- **C94** A client accepts only commits their sender made for this epoch, and carries them out. PassiveCommit.v models one turn of the client's loop; SpecCommit.v says in records what a good commit and a good path are; CommitFacts.v proves the equivalence from the lemmas on leaf checks, path merging, proposal lists, signatures and tags; the failures are concrete commits to the two-member group of C91 (ExCommit.v).
- **C95** A group stays joinable. SpecStays.v says when a leaf is fit for a place and a path is fresh; StaysFacts.v shows that each operation keeps the part of the check that is about members and keys, and takes parent hashes from C70, the check as an equivalence from C24 and the journey of the tree from C73; three concrete groups refute the rest (ExStays.v).
- **C96** Private messages: what a client accepts, and from whom. PassivePrivate.v models the client of group_test.rs for private messages; SpecPrivate.v says over the primitives what sender data, content and signature must be; the theorems are an equivalence, authenticity by the log of statements of C85, and delivery by C43/C75.
- **C97** Old, repeated and misdirected private messages get an error. On the model of C96: a lemma on the loop for ratchets past the generation; concrete messages for the refutations; re-encryption stated with what every member has.
- **C98** A removed member is locked out of the following epochs, a new one out of the epochs before. SpecLocked.v joins the worlds of C81, update paths with path secrets, and the epochs of C83 into one history. An absent person receives nothing (C81), so the commit secret is out of reach, and by induction over the epochs so is all that follows (C83).
- **C99** A stolen client state opens only messages still to come, and a removed member opens none. The positions of the secret tree (C82) hang below the encryption secret, which hangs below the epoch secret (C83); labels of the tree and of the key schedule are different, so a kept secret of one is no way into the other.
- **C100** A member whose state was stolen shuts the thief out by an update or a commit. The theorem about who knows which node key (C81) also holds when an update or a path seats a new person at a leaf. The old person is then at no leaf, and C98 and C99 apply; for the commit itself, the path secrets are encrypted to nodes beside the committer's path, whose keys the old person never had.
- **C101** A welcome opens for the invited only, and opening it does not give away the epoch. Work back from a known value: a member's call gave it, so it was given, or the call's inputs are known, or there is a clash. The labels keep the welcome secret, its key and its nonce apart from every other value of the epoch.
- **C102** Pre-shared keys keep out whoever lacks one of them. Work back along the PSK chain from the last extraction to the PSK in question; then along the epochs with C83.
- **C103** Checking a received tree takes bounded work. Twin functions with a counter (digests, signatures, visited nodes; separately, comparisons made in searching lists of unmerged leaves, where the bound is quadratic and reached); induction over the level of a node for the hash and the resolution, and over blocks of consecutive nodes (subtrees) for the loop over the array.
- **C104** No key, nonce or secret is for two things. A graph of all derivations from the extraction of the joiner secret, whose edges carry label, context and length; edges from one place are told apart by label and context, so two paths to the same bytes are the same path or two calls clash; then back through the joiner secret to the context.
- **C105** A stream of messages is read message by message, and a cut is told from damage. Compositional: for each encoder and decoder, what decoding any proper prefix gives, with the place of the lifetime carried along; sequences, vectors and optional values preserve it.
- **C106** Every hash is the one RFC 9420 prescribes. SpecDigest.v writes the hashes as functions of an arbitrary digest over the layouts of SpecLayout.v, without the model's helpers. DigestFacts.v proves by induction over the levels of the tree that whatever the model computes is that value, and that it computes one whenever the nodes encode (C106_tree_hash_exists).
- **C107** Parts of a group that carried out different commits stay apart. Composition of C41 (the transcript hash commits to the history), C85 (a signature covers the context), C92, C94 and C96 (what is accepted), over histories of any length (SpecFork.v). The counterexample digest of C107_example_collision shows that the exception is needed.
- **C108** Following a commit takes bounded work. SpecWork.v has counting versions of apply, merge_update_path and SecretTree::new; they are proved to give the same results (C108_same). The bounds are by induction on the level of the node (path), on the list of proposals with the invariant that a tree only doubles when half its nodes are filled (apply), and on the level again (secret tree, exact).
- **C109** Values from later registries are tolerated. A relation puts unnamed values into lists, capabilities, leaves and trees; decoding is proved from the round trip and the RFC layout; verification through the equivalence of verify_integrity with the independent specification of verified trees, and the count of supported credential types.
- **C110** The order of a commit's proposals decides only which place each new member gets. Updates of distinct leaves commute and removals in any order give the same tree; additions are related by a simulation that ignores which new leaf is at a place.
- **C111** Decoding takes work in proportion to the bytes received. Counting versions of the decoders (SpecDecode.v), proved equal; a linear bound that composes under sequencing, and grows by two per byte at each vector.
- **C112** What is signed, sealed and tagged is what RFC 9420 prescribes. The constructions of the RFC over primitives and layouts (SpecSealed.v); each function of the code unfolded, and each encoder replaced by its layout with the facts behind C76.
- **C113** Refusing a tag does not tell how much of it is right. The comparison with a count of the pairs looked at (SpecTiming.v); the attacker as a program over the answers, correct by induction on the known prefix; a pigeonhole argument over all tags for verdicts only.
- **C114** Encoding takes work in proportion to the bytes made. Counting versions of the encoders (SpecEncode.v), proved equal; a bound per byte that composes under sequencing and grows by two at each vector; trees of a group by the invariant that the right half has a member (C73).
- **C115** Printing a value reveals no secret in it. The printed text as a function (Printing.v); readers that invert it (SpecPrinting.v), by induction over the bytes and the elements.
- **C116** A call leaves the caller's buffer as it should: its share added or taken, nothing if it fails. The serializers and deserializers once more with the buffer in view (Buffers.v); relations to those of Wire.v that compose under sequencing (SpecBuffers.v).
- **C117** Nothing received makes calls nest deeply. Versions of the three functions that note the open calls (SpecDepth.v), by induction on the level of the node, which the calls below it lower by one.
- **C118** The error of a refused encoding names what is wrong with it. A specification of what each error says about a part of the bytes (SpecFaults.v), closed under prefixes and under embedding into vectors; a lemma per way of reading, then one instance per decoder. Refute with a group info of version 2.
- **C119** A check that refuses something says truly why. SpecReasons.v: for each check a table that says for each error what must be wrong, in terms of the specifications of the checks (SpecRatchet.v, SpecKeys.v). Proof: by following each check to the place where it gives up; by induction over the leaves, the parents, the climb from an unmerged leaf and the levels of the tree hash.
- **C120** The message of an error tells which error it is. The messages as a function (Texts.v), a reader that inverts it (TextFacts.v), decimal digits by the standard library's conversion and Horner's rule.
- **C121** Members stay valid for the time their lifetime says. Two clocks compared on the same tree (SpecClock.v), by induction over the members; counterexamples.
- **C122** No result depends on the order in which hash sets and hash maps list their entries. The checks with an arbitrary order at every set and map (SpecListing.v), equal to the model's by induction with sets equal up to order; stores equal as maps stay so.
- **C123** The members of a tree are those its operations put there. SpecRoster.v defines operations, histories (rejected merges included) and an abstract roster with its own steps; C123_roster is a refinement by induction over the history, with the shape of the tree as invariant; the other theorems follow from it by induction over rosters alone.
- **C124** A tree is no larger than its last member needs. SpecTight.v says when no smaller tree would do. The invariant is proved by induction over the histories of C123, from what C15, C17, C18, C25 and C27 say of each call; the size follows from it by arithmetic. The received tree is C24's one-member tree.
- **C125** Calls on a tree can be repeated, and later ones supersede earlier ones. An update, a removal and a merge depend on the array length and the nodes off the member's leaf and path only (the merge also on the leaf if it fails); what the earlier call changed lies there. Trees are equal if they agree at every place. A second removal finds the tree tight (C124) and the place blank.
- **C126** Changes about different members can be made in either order. Compare the two results node by node: the effect of each call on each node is known (update_ok, remove_eq, add_found, add_full); removals cut at the same place because updates keep members. For an add and a removal the free place decides; counterexamples by computation.
- **C127** Every member of a group of two or more can commit, with keys of their choice, again and again. encodes (SpecAble.v): every node has an encoding. C127_one_hash: the loop that writes the parent hashes succeeds at every node, because the copath hashes are those of the tree before (DigestFacts.v) and the other inputs fit; the filtered direct path is not empty because another member is below one of the copath nodes. C127_keys: iff. C127_again and C127_never_stuck: the conditions are kept, so any list of committers can be served. C127_life: operations copy keys and hashes or take them from an accepted path, and fewer than 2^28 leaves are unmerged at a node of a tree with at most 2^27 places; C127_any_group puts the two together.
- **C128** Whatever can be signed can be sent, and arrives. signable (SpecSendable.v): the bytes to be signed have an encoding below 2^30. Each step of new_public_message and new_private_message succeeds: the parts of the signed bytes have encodings, so do the authenticated data; signature and tag are short; keys and nonces are expanded from usable secrets, and the tree of secrets has a usable secret at each leaf (C36), kept by each step of the ratchet (C37).
- **C129** A group never gets stuck between epochs: every commit leads to an epoch with all its secrets. schedules, compact, complete (SpecStuck.v). Extraction and expansion give usable secrets, so each step's output is fit to be the next step's input: induction over the list of commits from the end. C129_speak: C36 for the tree of secrets and C128 for sending. C129_bundled from C59.
- **C130** A key package can be built exactly if what is asked for can be written down. describable, equipped (SpecBuildable.v). Each step of key_package_build in turn, with the size of what it makes; the other direction by taking the encoded package apart.
- **C131** Whoever is not alone can commit and be understood, again and again. committer, handy, renewed, commit_of, session (SpecHeard.v). C127 gives the parent hash that makes the path acceptable, which is a digest and so short; the leaf with it is signed; the content has an encoding of less than 2^30 bytes, so by C128 it can be sent, and by C94 what is sent is accepted. The capabilities of all members stay the same, so the conditions do too; a pigeonhole argument gives unused keys; induction on the rounds.
- **C132** One welcome gets everybody in whose leaf is in the tree. hosts, guest, welcome_guest, tree_given, host (SpecInvitable.v). C129 gives the epoch secret, the confirmation key and the welcome key; the group info is tagged, signed and sealed; an entry is made for each guest, and with different references the first entry found is the guest's own; sizes add up to less than 2^30; then C91.
- **C133** Any member can change who is a member. changes, sensible, changed (SpecChange.v). The list of proposals is valid by its shape, so C48 accepts it and C69 carries it out; C131 gives the commit, with a path of unused keys or without a path.
- **C134** In a group whose changes are checked everybody can commit, and it stays such a group. fit_history (SpecStays.v), committer, renewed, commit_of (SpecHeard.v). The invariant behind C95 says that everybody supports everybody's credential and lists nothing twice, so by C31 each credential counts as supported; C131 gives the commit and the signature of its leaf, whose capabilities are the old ones, so the merge is a checked step. A pigeonhole argument gives as many fresh keys as the path needs. Removals and additions carried out by tree_apply are checked steps one by one; comes, get_along and places_for (SpecFull.v) say whom this asks to add.

## Layout

Model: `Base`, `Serde`, `Wire`, `TreeMath`, `Crypto`, `LeafNode`, `RatchetTree`, `SecretTree`, `KeySchedule`,
`Messages`, `Proposals`, `KeyPackage`, `Group`, `Threads`, `Provider`, `Build`, `Rand` (the shared generator and the calls that draw from it),
`Printing`, `Texts` (what is printed), `Buffers` (the codecs once more, with the caller's buffer in view), `Profile` (the functions with u32
arithmetic once more, over the arithmetic of the build), `Passive`, `PassiveCommit`, `PassivePrivate` (how the project's own tests use the library as a
client). Specifications: `WireWF`, `Spec*`.
Property theorems, with the examples that meet their hypotheses: `Prop*` (one section per property).
Everything else is proof. `MANIFEST.json` maps properties to theorems.

## The project's test vectors, run in the model

The project tests itself on the interoperability vectors in `rmls/test-vectors`. `Primitives` implements the algorithms of cipher
suites 1 and 3 in Gallina (SHA-2, HMAC, HKDF, AES-128-GCM, ChaCha20-Poly1305, X25519, Ed25519, HPKE base mode), so that the model can
be computed with them; `VectorChecks` writes the project's tests as functions to `bool`. `tools/run_vectors.sh DIR` runs them on
published entries of all fifteen files (about 15 minutes; this needs Coq's virtual machine, which `coqchk` lacks, so only the quick ones, `Vectors*`, are part
of the build). Every one gives what the project's tests expect, including the commit in `passive-client-random.json` that the
project's test notes as failing with a parent hash mismatch: the model refuses it with that error. These are tests of the
correspondence between model and code, not proofs of properties, and no property theorem depends on these files. `PrimFacts` proves that the
algorithms meet the hypotheses that theorems make about sizes, HKDF and AEADs (`sized_prims`, `hkdf_prims`, `aead_prims_ok`,
`steady_prims`).

## Trusted base

* The Coq 8.16.1 kernel (with its VM: examples use `vm_compute`) and `coqc`.
* Axioms: none. `Print Assumptions` follows every property theorem in the `Prop*` files and prints
  "Closed under the global context" for each. `coqchk -o` on the whole development lists seven
  constants of the standard library's `Coq.ssr.ssrunder.Under_rel` as axioms: they are the fields of
  a module type sealed in the standard library, come with loading `ZifyBool` (which loads ssr), and
  no theorem here depends on them.
* The correspondence between the model and the Rust text. Every model definition cites the lines it
  models. The test vectors above are the only mechanical check of it.
* Assumptions about cryptography appear only as hypotheses of theorems (for example
  `aead_prims_ok`, `key_pair_ok`), each met by a concrete instance in an example beside the theorem, mostly a toy one; binding theorems do not assume collision resistance but exhibit the colliding inputs.

## What is modelled

* `utilities/serde`, `utilities/tree_math`: everything. `utilities/error.rs`: one constructor per
  variant, foreign errors merged; messages in `Texts`, without the words of other crates.
* `crypto/mod.rs` (labels, label expansion, tree secrets, reference hashes, label signing and
  encryption; the default trait methods of `crypto/provider/mod.rs`), `crypto/cipher_suite.rs`,
  `crypto/config.rs`, `crypto/credential.rs`, `crypto/key_pair.rs`, `crypto/provider/key_store.rs`,
  `crypto/provider/rand.rs`, `crypto/provider/rust*`, `crypto/provider/ring*`.
* `extensibility`, `framing/*`, `key_package/*`, `key_schedule`, `ratchet_tree/*`, `secret_tree`,
  `group/config.rs`, `group/creation.rs`, `group/mod.rs`: every function.

## What is not modelled

* The cryptographic libraries themselves (hashes, HMAC, HKDF, AEADs, HPKE, signature schemes, random
  number generators): functions in the records `provider`, `prims` and `keygen`, universally
  quantified. Where a single call is modelled, a request for `n` random bytes has any outcome (bytes or
  an error), a parameter. Where calls share the generator (C89), ChaCha20Rng is any stream of bytes that
  is given out in whole words of four bytes and starts again after 2^68 words (a 64-bit block counter).
* Sharing and locking, except that calls interleave at each access to the key store (C55, C87, C88) and
  to the random number generator (C89). Lock poisoning: no code panics while it holds the lock.
* Memory: allocation failure, `usize` smaller than 64 bits, `Bytes` sharing and zeroization.
* Time: the clock is a parameter. The time a call takes is not modelled; steps of certain loops are counted where a property is
  about them (C111, C113, C114).
* `Debug` output other than that of the types with secrets in them (C115), `Hash` implementations, `Clone`, derived `Default`s that no modelled function
  uses, accessors that return a field unchanged.
* `group/evolution.rs` is empty in the code.
* The release profile where the dev profile panics on overflow, outside the functions of `Profile`: there
  only the i32 counter of `verify_single_reinit_or_branch_psk` can overflow, on lists of more than
  2^31 - 1 entries, which no decoded message holds.
