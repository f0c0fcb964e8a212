{
 "claims": [
  {
   "property": "C01",
   "status": "proved",
   "theorems": [
    "C01_varint_domain",
    "C01_varint_roundtrip",
    "C01_varint_unique",
    "C01_varint_widths"
   ],
   "note": ""
  },
  {
   "property": "C02",
   "status": "proved",
   "theorems": [
    "C02_opaque",
    "C02_vector",
    "C02_vector_reads_only_declared",
    "C02_optional"
   ],
   "note": ""
  },
  {
   "property": "C03",
   "status": "proved",
   "theorems": [
    "C03_roundtrip"
   ],
   "note": "Every Serializer/Deserializer pair except RatchetTree (C32) and PrivateMessageContent (C45)."
  },
  {
   "property": "C04",
   "status": "proved",
   "theorems": [
    "C04_canonical"
   ],
   "note": "Every Serializer/Deserializer pair except RatchetTree (C32) and PrivateMessageContent (C45)."
  },
  {
   "property": "C05",
   "status": "partial",
   "theorems": [
    "C05_terminates",
    "C05_no_panic_partial",
    "C05_no_panic_by_wire_format",
    "C05_lifetime_panics",
    "C05_proposal_type_panics",
    "C05_parent_node_panics",
    "C05_leaf_node_panics",
    "C05_refuted",
    "C05_refuted_tree",
    "C05_exact",
    "C05_exact_tree",
    "C05_exact_parts"
   ],
   "note": "The stated property is false of the code: three decoders check for fewer bytes than they read. Proved: no decoder loops; the byte strings on which decoding a message, a tree or a part of them panics are given exactly (C05_exact, C05_exact_tree, C05_exact_parts); every decoder that contains none of the three is free of panics."
  },
  {
   "property": "C06",
   "status": "partial",
   "theorems": [
    "C06_exact_accepts",
    "C06_refuted"
   ],
   "note": "The stated property is false of the code: deserialize_exact ignores trailing bytes. Proved: the counterexample and the exact characterisation of what is accepted."
  },
  {
   "property": "C07",
   "status": "proved",
   "theorems": [
    "C07_prefix_free",
    "C07_no_truncation"
   ],
   "note": ""
  },
  {
   "property": "C08",
   "status": "proved",
   "theorems": [
    "C08_sizes",
    "C08_tbs",
    "C08_tbs_no_context",
    "C08_confirmed_input",
    "C08_confirmed_input_not_commit"
   ],
   "note": ""
  },
  {
   "property": "C09",
   "status": "proved",
   "theorems": [
    "C09_mls_message",
    "C09_group_context"
   ],
   "note": ""
  },
  {
   "property": "C10",
   "status": "proved",
   "theorems": [
    "C10_open_enums",
    "C10_closed_enums"
   ],
   "note": ""
  },
  {
   "property": "C11",
   "status": "proved",
   "theorems": [
    "C11_root",
    "C11_children",
    "C11_leaf",
    "C11_parent",
    "C11_layout",
    "C11_layout_onto",
    "C11_any_size",
    "C11_width"
   ],
   "note": "Root, children, parent and level are proved against an arithmetic description of the complete binary tree (SpecTree.v) for every tree of up to 2^31 leaves and every node of it."
  },
  {
   "property": "C12",
   "status": "proved",
   "theorems": [
    "C12_direct_path",
    "C12_direct_path_nodes",
    "C12_leaves_below"
   ],
   "note": "Direct path is proved to be the chain of ancestors up to the root, for every node of every tree of up to 2^31 leaves."
  },
  {
   "property": "C13",
   "status": "proved",
   "theorems": [
    "C13_sibling",
    "C13_copath",
    "C13_any_size"
   ],
   "note": "Sibling and copath are proved for every node of every tree of up to 2^31 leaves."
  },
  {
   "property": "C14",
   "status": "partial",
   "theorems": [
    "C14_get_leaf_outside",
    "C14_refuted_update",
    "C14_refuted_remove",
    "C14_refuted_merge",
    "C14_refuted_empty",
    "C14_climb_panics",
    "C14_climb_dichotomy",
    "C14_refuted_root",
    "C14_refuted_path"
   ],
   "note": "The stated property is false of the code: an index outside the tree makes the climb run past the root until u32 shifting overflows (a panic in the dev profile). Proved: counterexamples for index arithmetic, and that update, remove and path merge panic on every leaf index outside every tree, that reading a leaf returns None below 2^31 and panics above."
  },
  {
   "property": "C15",
   "status": "proved",
   "theorems": [
    "C15_add"
   ],
   "note": "Every array of length 2^(d+1)-1, d <= 30; the two cases (leftmost blank leaf, doubling) are in the statement."
  },
  {
   "property": "C16",
   "status": "partial",
   "theorems": [
    "C16_stuck",
    "C16_refuted_empty",
    "C16_refuted_lost",
    "C16_add_after_history"
   ],
   "note": "The stated property is false of the code: add panics on the emptied tree and loses the new leaf on a tree cut by a removal with no blank leaf. Proved: both counterexamples, reached by histories of successful calls, the exact trichotomy after every history, and that a tree once cut never has more leaf places again (C16_stuck)."
  },
  {
   "property": "C17",
   "status": "proved",
   "theorems": [
    "C17_update"
   ],
   "note": "Every tree of the sizes the library produces, up to 2^32 array slots."
  },
  {
   "property": "C18",
   "status": "proved",
   "theorems": [
    "C18_remove"
   ],
   "note": "Every tree of the sizes the library produces; the cut is characterised exactly (smallest half holding all remaining members)."
  },
  {
   "property": "C19",
   "status": "partial",
   "theorems": [
    "C19_refuted",
    "C19_length_kept",
    "C19_length_of_history"
   ],
   "note": "The stated property is false of the code: removal leaves length 2^(e+1). Proved: counterexample, length kept by update and merge, and after every history the length is 0, 2^(d+1)-1 or 2^(d+1)."
  },
  {
   "property": "C20",
   "status": "proved",
   "theorems": [
    "C20_removes",
    "C20_any_order"
   ],
   "note": "Every well-formed tree (every tree of a history, C22) and duplicate-free list of members; any order gives the same tree."
  },
  {
   "property": "C21",
   "status": "proved",
   "theorems": [
    "C21_resolution",
    "C21_resolution_any_tree"
   ],
   "note": ""
  },
  {
   "property": "C22",
   "status": "proved",
   "theorems": [
    "C22_unmerged",
    "C22_well_formed"
   ],
   "note": "Histories of adds (when there is room, see C16), updates, removes and successful merges of any length from any well-formed tree."
  },
  {
   "property": "C23",
   "status": "proved",
   "theorems": [
    "C23_tree_hash",
    "C23_well_formed",
    "C23_no_collision",
    "C23_refuted_cut"
   ],
   "note": "For every provider: equal root hashes mean equal depth and equal nodes inside the tree, or an explicit digest collision among the hashed strings. The extra slot of an array cut by remove (C19) is outside the hash; shown by a counterexample."
  },
  {
   "property": "C24",
   "status": "partial",
   "theorems": [
    "C24_panics",
    "C24_panics_small",
    "C24_integrity",
    "C24_kinds",
    "C24_refuted_blank",
    "C24_refuted_panics",
    "C24_refuted_empty"
   ],
   "note": "Proved as an iff for every tree with no node outside the complete tree (all decoded ones). The part 'every unmerged leaf is a member' is false of the code: unmerged leaves may be blank (counterexample). Also shown: a received tree can make the check panic, and exactly which ones do (C24_panics: a listed leaf outside the tree, or one whose node index overflows while a parent hash is checked)."
  },
  {
   "property": "C25",
   "status": "proved",
   "theorems": [
    "C25_merge"
   ],
   "note": "Both directions: a merge succeeds exactly when the described effect can be had."
  },
  {
   "property": "C26",
   "status": "proved",
   "theorems": [
    "C26_parent_hashes"
   ],
   "note": ""
  },
  {
   "property": "C27",
   "status": "partial",
   "theorems": [
    "C27_exact",
    "C27_unchanged",
    "C27_refuted_spoils",
    "C27_refuted",
    "C27_failed_merge_partial"
   ],
   "note": "The stated property is false of the code: the direct path is blanked and the new keys are put in before the checks, which can make the parent hashes of a valid tree wrong (C27_refuted_spoils). Proved: counterexamples, exactly what the tree is after every failed merge (C27_exact), and exactly when it is unchanged (C27_unchanged); what comes later for the same sender is not affected (C125_superseded)."
  },
  {
   "property": "C28",
   "status": "partial",
   "theorems": [
    "C28_refuted"
   ],
   "note": "The stated property is false of the code: a sole member's update path is refused whatever it contains, in every well-formed tree."
  },
  {
   "property": "C29",
   "status": "proved",
   "theorems": [
    "C29_by_kind",
    "C29_same_kinds"
   ],
   "note": ""
  },
  {
   "property": "C30",
   "status": "proved",
   "theorems": [
    "C30_filtered_path"
   ],
   "note": ""
  },
  {
   "property": "C31",
   "status": "partial",
   "theorems": [
    "C31_refuted_accepts",
    "C31_refuted_rejects",
    "C31_supported_partial",
    "C31_exact"
   ],
   "note": "The stated property is false of the code: types listed twice by a leaf are counted twice. Proved: counterexamples both ways, and the property for leaves without repetitions in a tree with a member."
  },
  {
   "property": "C32",
   "status": "proved",
   "theorems": [
    "C32_tree_roundtrip",
    "C32_tree_identity",
    "C32_tree_decode_length",
    "C32_not_canonical"
   ],
   "note": ""
  },
  {
   "property": "C33",
   "status": "partial",
   "theorems": [
    "C33_find_leaf_partial",
    "C33_find_leaf_sound",
    "C33_refuted",
    "C33_exact",
    "C33_missed"
   ],
   "note": "The stated property is false of the code: lookup stops at the first leaf with the same encryption key. Proved: counterexample, exactly when and where a leaf is found (C33_exact), what the result means if it is not (C33_missed), and the property when encryption keys are distinct."
  },
  {
   "property": "C34",
   "status": "partial",
   "theorems": [
    "C34_leaf_verify",
    "C34_signed_bytes",
    "C34_refuted_required",
    "C34_refuted_source"
   ],
   "note": "The stated property is false of the code: source and required capabilities are not checked. Proved: an exact iff of what is checked, that the signed bytes determine payload, group id and position, and the two omissions."
  },
  {
   "property": "C35",
   "status": "partial",
   "theorems": [
    "C35_lifetime",
    "C35_refuted"
   ],
   "note": "The stated property is false of the code: the comparison is inverted. Proved: exactly which lifetimes are accepted (expired ones of at least 36 minutes), and that every current one is refused."
  },
  {
   "property": "C36",
   "status": "proved",
   "theorems": [
    "C36_exists_iff",
    "C36_secrets",
    "C36_every_node",
    "C36_other_sizes",
    "C36_out_of_range"
   ],
   "note": "Sizes 0 and above 2^31 panic (C36_out_of_range)."
  },
  {
   "property": "C37",
   "status": "proved",
   "theorems": [
    "C37_root",
    "C37_steps",
    "C37_last_generation",
    "C37_key_nonce",
    "C37_sizes",
    "C37_separate"
   ],
   "note": "Sizes of key and nonce assume that the KDF returns the number of bytes asked for. At generation 2^32-1 the next step panics (C37_last_generation)."
  },
  {
   "property": "C38",
   "status": "proved",
   "theorems": [
    "C38_info",
    "C38_too_long",
    "C38_info_injective",
    "C38_signed",
    "C38_encrypted",
    "C38_labelled_injective",
    "C38_labels"
   ],
   "note": ""
  },
  {
   "property": "C39",
   "status": "proved",
   "theorems": [
    "C39_rfc",
    "C39_mismatch",
    "C39_labels",
    "C39_binds",
    "C39_any_length",
    "C39_wraps"
   ],
   "note": "Binding is stated for two non-empty lists: equal, or a pair of KDF calls made for them collides. Above 65535 PSKs positions wrap (C39_wraps)."
  },
  {
   "property": "C40",
   "status": "proved",
   "theorems": [
    "C40_joiner",
    "C40_epoch",
    "C40_welcome",
    "C40_epoch_binds",
    "C40_joiner_binds",
    "C40_omitted"
   ],
   "note": "Instead of assuming a collision-free KDF, the colliding pair of calls is exhibited."
  },
  {
   "property": "C41",
   "status": "proved",
   "theorems": [
    "C41_history",
    "C41_confirmed",
    "C41_no_collision"
   ],
   "note": ""
  },
  {
   "property": "C42",
   "status": "proved",
   "theorems": [
    "C42_verifies",
    "C42_verdict",
    "C42_covers",
    "C42_context_free"
   ],
   "note": "For any signature scheme whose verification accepts what the matching key signs. The signed bytes determine wire format, content and, for members and joining committers, the whole context; for the other senders verification does not depend on the context."
  },
  {
   "property": "C43",
   "status": "proved",
   "theorems": [
    "C43_roundtrip",
    "C43_content_header",
    "C43_sender_header",
    "C43_sender_unchecked"
   ],
   "note": "For any AEAD whose open undoes seal and any correct signature scheme. C43_sender_unchecked shows the proviso on the sender is needed: the constructor does not check it."
  },
  {
   "property": "C44",
   "status": "proved",
   "theorems": [
    "C44_nonce",
    "C44_injective",
    "C44_involutive"
   ],
   "note": "Byte-wise statement of the nonce, injectivity in guards of equal length, involution; also exactly when the derivation succeeds."
  },
  {
   "property": "C45",
   "status": "proved",
   "theorems": [
    "C45_padding",
    "C45_accepted"
   ],
   "note": ""
  },
  {
   "property": "C46",
   "status": "partial",
   "theorems": [
    "C46_refuted_missing_tag",
    "C46_fresh",
    "C46_accepted",
    "C46_wire_partial",
    "C46_signed_verifies",
    "C46_binds",
    "C46_non_members"
   ],
   "note": "The stated property is false of the code: a member's message with no tag is accepted under every key (C46_refuted_missing_tag, C46_fresh). Proved: exactly what is accepted, the property for messages decoded from bytes, sign-then-verify, and that the bytes under the tag determine content, authentication data and context."
  },
  {
   "property": "C47",
   "status": "partial",
   "theorems": [
    "C47_refuted_public",
    "C47_refuted_private",
    "C47_refuted_any",
    "C47_accepted_partial"
   ],
   "note": "The stated property is false of the code: every message the constructors build carries an empty confirmation tag, which is rejected under every key (C47_refuted_*). Proved: exactly which tags are accepted."
  },
  {
   "property": "C48",
   "status": "proved",
   "theorems": [
    "C48_accepts",
    "C48_reason",
    "C48_first",
    "C48_first_unique",
    "C48_order"
   ],
   "note": "Acceptance is characterised exactly, with the error reported for the first offence; the outcome's dependence on the order is stated separately."
  },
  {
   "property": "C49",
   "status": "proved",
   "theorems": [
    "C49_needs_path"
   ],
   "note": ""
  },
  {
   "property": "C50",
   "status": "proved",
   "theorems": [
    "C50_single"
   ],
   "note": "For lists of fewer than 2^31 PSK identifiers: the counter is a 32-bit signed integer."
  },
  {
   "property": "C51",
   "status": "partial",
   "theorems": [
    "C51_accepted_partial",
    "C51_rejected",
    "C51_refuted",
    "C51_fields",
    "C51_stored",
    "C51_reference",
    "C51_reference_binds"
   ],
   "note": "The stated property is false of the code: the package and leaf signatures are made with the public key, so with a correct key pair the built package is rejected by every group (C51_refuted, C51_rejected). Proved: the property for key pairs whose public key signs for itself, the fields of the package, what is stored where, and that the reference binds the whole package (or a digest collision is exhibited)."
  },
  {
   "property": "C52",
   "status": "partial",
   "theorems": [
    "C52_accepts_partial",
    "C52_refuted"
   ],
   "note": "The stated property is false of the code: a package whose leaf signature does not verify is accepted (C52_refuted). Proved: exactly which packages are accepted."
  },
  {
   "property": "C53",
   "status": "proved",
   "theorems": [
    "C53_map",
    "C53_others"
   ],
   "note": ""
  },
  {
   "property": "C54",
   "status": "partial",
   "theorems": [
    "C54_success",
    "C54_consumed",
    "C54_once",
    "C54_built",
    "C54_refuted"
   ],
   "note": "The last part of the stated property is false of the code: a welcome that names two packages of one store can be used twice (C54_refuted). Proved: exactly when joining succeeds, that exactly the matching package and its init key are gone afterwards, that a welcome naming a single stored package cannot be used again, and that a package just built can be used."
  },
  {
   "property": "C55",
   "status": "partial",
   "theorems": [
    "C55_failure_partial",
    "C55_failure_refuted",
    "C55_thread",
    "C55_consumed",
    "C55_others",
    "C55_race_refuted"
   ],
   "note": "The stated property is false of the code: a join that fails for a missing init key has deleted the package (C55_failure_refuted), and two joins can both use one package (C55_race_refuted). Proved: exactly what a failed join loses; for every schedule of any number of joins, what a finished join consumed is gone and unrelated keys are as before; a thread running alone refines the call."
  },
  {
   "property": "C56",
   "status": "proved",
   "theorems": [
    "C56_found",
    "C56_absent",
    "C56_group_secrets",
    "C56_group_secrets_iff",
    "C56_group_info",
    "C56_group_info_iff"
   ],
   "note": ""
  },
  {
   "property": "C57",
   "status": "proved",
   "theorems": [
    "C57_rust",
    "C57_ring",
    "C57_tables",
    "C57_algorithms"
   ],
   "note": ""
  },
  {
   "property": "C58",
   "status": "proved",
   "theorems": [
    "C58_signature",
    "C58_covers",
    "C58_tag",
    "C58_tag_rejected"
   ],
   "note": ""
  },
  {
   "property": "C59",
   "status": "proved",
   "theorems": [
    "C59_hash",
    "C59_kdf",
    "C59_working",
    "C59_sizes",
    "C59_all_sizes"
   ],
   "note": ""
  },
  {
   "property": "C60",
   "status": "partial",
   "theorems": [
    "C60_rust",
    "C60_ring_refuted",
    "C60_ring"
   ],
   "note": "The stated property is false of the code for the ring provider: opening always returns the plaintext followed by 16 more bytes (C60_ring_refuted, C60_ring). Proved for the default provider."
  },
  {
   "property": "C61",
   "status": "partial",
   "theorems": [
    "C61_rust",
    "C61_ring",
    "C61_padding_refuted"
   ],
   "note": "The padding part is false of the ring build, which accepts any padding (C61_padding_refuted); in the default build it is C43/C45. Proved: messages round-trip with both providers."
  },
  {
   "property": "C62",
   "status": "partial",
   "theorems": [
    "C62_exact",
    "C62_otherwise",
    "C62_refuted",
    "C62_never_built"
   ],
   "note": "The stated property is false of the code: with either bundled provider building a package of suite 2 panics for every pair whose public key is not 32 bytes long (C62_refuted, C62_never_built). Proved: that is the only situation in which it panics, for all suites, pairs, builders, stores and random sources that return (C62_exact); otherwise it gives a package or an error (C62_otherwise)."
  },
  {
   "property": "C63",
   "status": "partial",
   "theorems": [
    "C63_default",
    "C63_ignores",
    "C63_refuted"
   ],
   "note": "The stated property is false of the code: the result is always the default group (C63_default, C63_ignores, C63_refuted)."
  },
  {
   "property": "C64",
   "status": "proved",
   "theorems": [
    "C64_new"
   ],
   "note": ""
  },
  {
   "property": "C65",
   "status": "proved",
   "theorems": [
    "C65_crypto_config",
    "C65_group_config",
    "C65_package",
    "C65_unique"
   ],
   "note": ""
  },
  {
   "property": "C66",
   "status": "partial",
   "theorems": [
    "C66_outcome",
    "C66_schemes",
    "C66_works",
    "C66_never_accepted",
    "C66_refuted"
   ],
   "note": "The key-package part is false of the code: packages are signed with the public key, so one built with a generated pair is refused by every group (C66_refuted, C66_never_accepted). Proved: generation succeeds exactly for the served suites, with the right scheme, and the pair signs and verifies, for both providers."
  },
  {
   "property": "C67",
   "status": "partial",
   "theorems": [
    "C67_refuted"
   ],
   "note": "The stated property is false of the code, for every built package (C67_refuted)."
  },
  {
   "property": "C68",
   "status": "proved",
   "theorems": [
    "C68_find",
    "C68_find_none",
    "C68_required_capabilities",
    "C68_external_senders",
    "C68_external_pub",
    "C68_application_id"
   ],
   "note": ""
  },
  {
   "property": "C69",
   "status": "partial",
   "theorems": [
    "C69_applied",
    "C69_exact",
    "C69_no_adds",
    "C69_refuted_lost",
    "C69_refuted_panic",
    "C69_refuted_ghost"
   ],
   "note": "The stated property is false of the code: an accepted list can panic (C69_refuted_panic), make a member where there was none (C69_refuted_ghost) or lose a new member (C69_refuted_lost). Proved: with every named leaf a member it holds exactly if there is room for the new ones (C69_applied, C69_exact); without new members it holds always (C69_no_adds)."
  },
  {
   "property": "C70",
   "status": "proved",
   "theorems": [
    "C70_history",
    "C70_start",
    "C70_packages"
   ],
   "note": "Coincidences (a node on the other side of a path node carrying that node's hash by chance or malice) are excluded by hypothesis: verification demands a unique link."
  },
  {
   "property": "C71",
   "status": "proved",
   "theorems": [
    "C71_commit_binds",
    "C71_no_collision",
    "C71_parent_hash"
   ],
   "note": "Collisions are exhibited, not assumed away; C71_no_collision rules them out for an injective digest."
  },
  {
   "property": "C72",
   "status": "proved",
   "theorems": [
    "C72_keys",
    "C72_history",
    "C72_parent_keys"
   ],
   "note": "The keys of parent nodes are not reported, so a leaf node may repeat one (C72_parent_keys)."
  },
  {
   "property": "C73",
   "status": "proved",
   "theorems": [
    "C73_received",
    "C73_extension",
    "C73_full"
   ],
   "note": "The two arrays are equal when the sender's has the length of a complete tree (C73_full); after a removal it is one blank longer."
  },
  {
   "property": "C74",
   "status": "partial",
   "theorems": [
    "C74_replica_partial",
    "C74_outcome_partial",
    "C74_copy",
    "C74_look",
    "C74_refuted_split",
    "C74_exact"
   ],
   "note": "The stated property is false of the code: after a removal cut the array, the next addition beyond the last place puts the member at leaf 4 for who received the tree and at no leaf at all for who made it (C74_refuted_split). Proved: the property for every list of operations in which the sender has room for each member added (C74_replica_partial, C74_outcome_partial, C74_look); where the two arrays differ, an addition has the same outcome for both exactly if there is room (C74_exact)."
  },
  {
   "property": "C75",
   "status": "proved",
   "theorems": [
    "C75_delivered",
    "C75_keys",
    "C75_sender_data",
    "C75_distinct"
   ],
   "note": "Sender and receiver are written as compositions of the library's calls (send, receive in SpecTraffic.v). Distinctness is stated with an explicit collision among the KDF calls made for the two keys."
  },
  {
   "property": "C76",
   "status": "proved",
   "theorems": [
    "C76_layout",
    "C76_signed",
    "C76_public",
    "C76_tree",
    "C76_key_pairs"
   ],
   "note": "SpecLayout.v writes the layouts down as pure functions, with its own integers and vector headers and without the encoders. The external_senders extension is not in the list: see C77. The formats of SignatureKeyPair and HPKEKeyPair are the library's own and have no RFC layout."
  },
  {
   "property": "C77",
   "status": "partial",
   "theorems": [
    "C77_refuted_written",
    "C77_refuted_read",
    "C77_bare_partial"
   ],
   "note": "The stated property is false of the code: a single sender is written without the surrounding vector, so no value is ever written as a list of senders would be (C77_refuted_written) and the content any conforming implementation sends is never accepted (C77_refuted_read). Proved: what is written and read is one bare sender (C77_bare_partial)."
  },
  {
   "property": "C78",
   "status": "proved",
   "theorems": [
    "C78_members",
    "C78_joiner"
   ],
   "note": "SpecAgree.v lists every way the conclusion can fail, each with the two colliding inputs. The digest must have the size the algorithm states."
  },
  {
   "property": "C79",
   "status": "partial",
   "theorems": [
    "C79_crypto_partial",
    "C79_messages_partial",
    "C79_joining_partial",
    "C79_from_welcome_partial",
    "C79_tree_partial",
    "C79_bundled_partial",
    "C79_refuted_sign",
    "C79_refuted_schemes",
    "C79_verify_partial",
    "C79_refuted_insider",
    "C79_refuted_generation",
    "C79_exact_receive",
    "C79_exact_next",
    "C79_exact_join"
   ],
   "note": "The stated property is false of the code: a private message whose content is a truncated proposal crashes the receiver before its signature is checked (C79_refuted_insider), P-256 signing panics for keys that do not have 32 bytes (C79_refuted_sign), and the ratchet panics after its last generation (C79_refuted_generation). Proved: all the other calls return, for every provider that returns and all arguments; the bundled providers are such providers except for suite 2. Exactly when receiving, stepping a ratchet and joining panic: C79_exact_receive, C79_exact_next, C79_exact_join."
  },
  {
   "property": "C80",
   "status": "proved",
   "theorems": [
    "C80_identity",
    "C80_certificates",
    "C80_received",
    "C80_default",
    "C80_too_long"
   ],
   "note": "Values of 2^30 bytes or more cannot be encoded and give an error (C80_too_long)."
  },
  {
   "property": "C81",
   "status": "proved",
   "theorems": [
    "C81_exactly",
    "C81_outsider",
    "C81_reaches"
   ],
   "note": "What people learn is specified beside the operations as RFC 9420 sections 7.4 to 7.7 say (SpecKnow.v): the code merges update paths but does not encrypt or decrypt path secrets. Freshness of new keys is a hypothesis."
  },
  {
   "property": "C82",
   "status": "proved",
   "theorems": [
    "C82_forward",
    "C82_later",
    "C82_ideal"
   ],
   "note": "The attacker is a set of KDF calls (extract and expand with any arguments). The secret tree value itself keeps the secrets of all nodes, so forward secrecy needs it dropped once the ratchets are made; the library offers no deletion."
  },
  {
   "property": "C83",
   "status": "proved",
   "theorems": [
    "C83_only",
    "C83_enough",
    "C83_forward",
    "C83_heals",
    "C83_no_clash"
   ],
   "note": "The attacker is a set of KDF calls (extract and expand with any arguments). The library has the key schedule's functions; calling them in sequence, epoch after epoch, is the specification's (runs, lifetime_of)."
  },
  {
   "property": "C84",
   "status": "partial",
   "theorems": [
    "C84_arithmetic",
    "C84_math",
    "C84_read",
    "C84_write",
    "C84_secrets",
    "C84_dev",
    "C84_refuted_remove",
    "C84_refuted_update",
    "C84_refuted_merge",
    "C84_refuted_get",
    "C84_refuted_committer",
    "C84_refuted_endless",
    "C84_refuted_level",
    "C84_refuted_generation"
   ],
   "note": "The stated property is false of the code: LeafIndex::node_index multiplies by two without a check, so a release build takes leaf indices modulo 2^31; a committer can be made to remove itself although the list check forbids that (C84_refuted_committer), and an accepted removal of a leaf outside the tree is an endless loop (C84_refuted_endless; a dev build panics, C14). Proved: every call that returns in a dev build returns the same in a release build (C84_math, C84_read, C84_write, C84_secrets), and what a release build does for every leaf index (C84_refuted_remove, _update, _merge, _get), for the level of every node and for every generation."
  },
  {
   "property": "C85",
   "status": "proved",
   "theorems": [
    "C85_one_meaning",
    "C85_leaf",
    "C85_tree",
    "C85_package",
    "C85_info",
    "C85_content",
    "C85_signs"
   ],
   "note": "The hypothesis only_said states what the signature scheme must give (unforgeability for the statements in a list, of any length); it is a hypothesis of the theorems, met by an example provider. That the library signs leaves and key packages with the wrong key is C51's subject. What KeyPackage::verify leaves unchecked (the leaf's own signature) is C52's."
  },
  {
   "property": "C86",
   "status": "partial",
   "theorems": [
    "C86_public",
    "C86_checks",
    "C86_schedule",
    "C86_long",
    "C86_traffic",
    "C86_build",
    "C86_join",
    "C86_deliver",
    "C86_read",
    "C86_refuted_padding",
    "C86_refuted_sender_data",
    "C86_refuted_short"
   ],
   "note": "The stated property is false of the code: a member can seal a message with nonzero padding, or a sender data plaintext that ends early, that the ring build reads and the RustCrypto build refuses, and the ring build derives from secrets shorter than a hash where the RustCrypto build fails. Proved: agreement of every hash, check, key schedule step (for secrets of at least 32 bytes, which all secrets of the schedule are), sent message, leaf and key package; that every message the library makes is read by both builds alike; that what the RustCrypto build reads the ring build reads; and the disagreements. The hypothesis same_libraries is met by two example libraries that differ in errors and in what opening leaves behind the plaintext."
  },
  {
   "property": "C87",
   "status": "partial",
   "theorems": [
    "C87_build",
    "C87_build_cut",
    "C87_build_window_partial",
    "C87_join_cut_partial",
    "C87_joins",
    "C87_refuted_build",
    "C87_refuted_race",
    "C87_refuted_join"
   ],
   "note": "The stated property is false of the code: build stores the package before its private keys, so that a build that is cut off, or one that a join overtakes, leaves or loses a package that cannot be used (C87_refuted_build, C87_refuted_race), and a join deletes the package before the init key, so that a join that is cut off leaves a private init key that nothing will delete (C87_refuted_join). Proved: the exact store after every cut of a build and of a join, that the package is unusable exactly between the first and last entry, and that joins alone, under every schedule and with every cut, leave no package without its init key."
  },
  {
   "property": "C88",
   "status": "proved",
   "theorems": [
    "C88_only",
    "C88_untouched",
    "C88_built",
    "C88_joined"
   ],
   "note": "The last part assumes that the builds store under new and different keys (fresh) and that packages are kept under their references (keyed). Two builds and a join meet both hypotheses (C88_example)."
  },
  {
   "property": "C89",
   "status": "proved",
   "theorems": [
    "C89_parts",
    "C89_groups",
    "C89_groups_differ",
    "C89_guards",
    "C89_packages",
    "C89_keys",
    "C89_bundled"
   ],
   "note": "ChaCha20Rng is a stream of bytes given out in whole words with a period of 2^68 words; that this stream looks random is not modelled, only which parts of it are handed out."
  },
  {
   "property": "C90",
   "status": "proved",
   "theorems": [
    "C90_message",
    "C90_parts",
    "C90_private",
    "C90_tree"
   ],
   "note": "Sizes are counted in fields, elements and bytes (SpecSize.v); how many bytes of memory a field takes in Rust is not modelled."
  },
  {
   "property": "C91",
   "status": "proved",
   "theorems": [
    "C91_joins",
    "C91_checked",
    "C91_agrees",
    "C91_hears"
   ],
   "note": "The client is the one in the project's own test (Passive.v); the library has no call of its own that joins (C63)."
  },
  {
   "property": "C92",
   "status": "proved",
   "theorems": [
    "C92_delivered",
    "C92_accepted",
    "C92_once"
   ],
   "note": "Sender and receiver are those of the project's own test (Passive.v): the receiver asserts both checks."
  },
  {
   "property": "C93",
   "status": "partial",
   "theorems": [
    "C93_accepted",
    "C93_own",
    "C93_history",
    "C93_refuted_add",
    "C93_refuted_remove",
    "C93_refuted_twice"
   ],
   "note": "The stated property is false of the code: the integrity check accepts trees whose parents list blank leaves as unmerged or have nobody on one side; after one addition to such a tree its parent hashes no longer verify (C93_refuted_add), after one removal what a member sends is not the tree it holds and newcomers reject it (C93_refuted_remove), and a resolution can name a leaf twice (C93_refuted_twice). Proved: every accepted tree is shaped (C93_accepted), so is every tree a history makes of one (C93_history), and the effect theorems C16, C19, C20_removes, C25, C26, C27, C30, C69 and C84 hold of all shaped trees."
  },
  {
   "property": "C94",
   "status": "partial",
   "theorems": [
    "C94_accepted",
    "C94_authentic",
    "C94_once",
    "C94_honest",
    "C94_tree",
    "C94_others",
    "C94_refuted_proposals",
    "C94_refuted_rfc",
    "C94_refuted_unchecked"
   ],
   "note": "The stated property is false of the code: the client applies the proposals to a copy it throws away and merges the path into the old tree, so somebody a commit removes stays (C94_refuted_proposals, C94_others) and a commit with proposals whose path is for the new tree is refused (C94_refuted_rfc); neither the group id in the message nor the confirmation tag is checked (C94_refuted_unchecked). Proved: exactly which commits are accepted and what the tree is afterwards (C94_accepted), that their sender signed content and leaf (C94_authentic), that a message is accepted in one context only (C94_once), that commits made by these rules are accepted (C94_honest), and what holds of the tree afterwards (C94_tree)."
  },
  {
   "property": "C95",
   "status": "partial",
   "theorems": [
    "C95_history_partial",
    "C95_newcomer_partial",
    "C95_commit_partial",
    "C95_refuted_keys",
    "C95_refuted_credentials",
    "C95_refuted_add"
   ],
   "note": "The stated property is false of the code: the keys reported for checking are those of leaves only and a path is not compared with itself, so an accepted commit can repeat a key (C95_refuted_keys); nothing checks that a new leaf supports the credentials in use, so an accepted commit (C95_refuted_credentials) or a verified new leaf (C95_refuted_add) can make the tree one that no new member accepts. Proved: what has to be checked instead (SpecStays.v), and that then every history keeps the group joinable (C95_history_partial, from any well-formed tree; C95_newcomer_partial, from the group's creation to the bytes a newcomer receives; C95_commit_partial, for commits the client accepts)."
  },
  {
   "property": "C96",
   "status": "proved",
   "theorems": [
    "C96_accepted",
    "C96_authentic",
    "C96_sent",
    "C96_sent_later",
    "C96_ends"
   ],
   "note": "Proved for the client of the tests (PassivePrivate.v), with the leaf whose ratchet is used given as in the test. The loop over generations is shown to end."
  },
  {
   "property": "C97",
   "status": "partial",
   "theorems": [
    "C97_old_partial",
    "C97_refuted_old",
    "C97_refuted_twice",
    "C97_refuted_again",
    "C97_refuted_sender",
    "C97_refuted_group",
    "C97_work",
    "C97_refuted_work"
   ],
   "note": "The stated property is false of the code: an old message makes the client step through all generations and panic instead of giving an error; any member can encrypt a received message anew in another generation and it is accepted; sender, group and epoch named in the message are not compared; 172 bytes can ask for 2^32-1 steps. Proved: a message of a passed generation is never accepted, and how many steps a message costs."
  },
  {
   "property": "C98",
   "status": "proved",
   "theorems": [
    "C98_locked_out",
    "C98_ideal",
    "C98_removed",
    "C98_before_joining",
    "C98_members",
    "C98_needs_path"
   ],
   "note": "The tree operations and the key schedule are the library's; path secrets, their encryption to the resolutions and the commit secret follow RFC 9420, as the library leaves them to its user. Secrecy is symbolic: KDF calls, and decryption of a path secret by whoever has learnt the private key of a node it is encrypted to. External commits are not covered."
  },
  {
   "property": "C99",
   "status": "proved",
   "theorems": [
    "C99_state",
    "C99_ideal",
    "C99_locked_out",
    "C99_before_joining"
   ],
   "note": "Symbolic, like C82, C83 and C98. The library keeps no client state; what a client holds is a parameter of the theorem."
  },
  {
   "property": "C100",
   "status": "proved",
   "theorems": [
    "C100_update",
    "C100_commit",
    "C100_secrets",
    "C100_messages",
    "C100_until"
   ],
   "note": "Symbolic, like C81, C83 and C98: HPKE encryption to a node key is readable by those who learnt its private key, and the KDF is used through its calls. The member, with its new keys, counts as a new person; the old person, whose state the thief has, keeps learning whatever that state lets it decrypt."
  },
  {
   "property": "C101",
   "status": "proved",
   "theorems": [
    "C101_opens",
    "C101_only",
    "C101_invited",
    "C101_sideways",
    "C101_without_psk"
   ],
   "note": "Symbolic in the KDF, like C83: what is known is what calls of the KDF give, and the alternative is always that two different calls have the same result. Who can decrypt the group secrets, and so gets the joiner secret, is in C56."
  },
  {
   "property": "C102",
   "status": "proved",
   "theorems": [
    "C102_every",
    "C102_all",
    "C102_lasting",
    "C102_resumption"
   ],
   "note": "Symbolic in the KDF, like C83: what is known is what calls of the KDF give, and the alternative is always that two different calls have the same result. Values that make up for a PSK (what is extracted from it, or the chain behind it) count as given. The code replaces an empty PSK secret by zeros, so the secret is taken not to be empty."
  },
  {
   "property": "C103",
   "status": "proved",
   "theorems": [
    "C103_same",
    "C103_bound",
    "C103_received",
    "C103_hash",
    "C103_depth",
    "C103_scans_same",
    "C103_scans",
    "C103_scans_reached"
   ],
   "note": "What is counted: digests, signature verifications, and nodes visited by resolutions and by the walk from an unmerged leaf up to its parent. The counting functions are written next to the model and proved to compute the same (C103_same). Not counted: copying, set insertions and look-ups, and the bytes fed to one digest."
  },
  {
   "property": "C104",
   "status": "proved",
   "theorems": [
    "C104_one_use",
    "C104_elsewhere",
    "C104_ideal"
   ],
   "note": "The clash is between calls made in the two epochs; of the sender-data calls only those of the two values. Path secrets and the secrets of PSKs are not among the values (C42, C39)."
  },
  {
   "property": "C105",
   "status": "partial",
   "theorems": [
    "C105_stream",
    "C105_no_more",
    "C105_cut_exact",
    "C105_place",
    "C105_refuted"
   ],
   "note": "The stated property is false of the code: if the cut is in the second half of the lifetime of a key package's leaf (in a key package message, an Add or Update proposal or a commit's path) the decoder panics. Proved: streams are read back, no cut message is ever taken for a message, and for every message and cut whether the decoder panics or says BufferTooSmall, exactly (C105_cut_exact)."
  },
  {
   "property": "C106",
   "status": "proved",
   "theorems": [
    "C106_tree_hash",
    "C106_tree_hash_exists",
    "C106_root",
    "C106_parent_hash",
    "C106_merged",
    "C106_verified",
    "C106_transcript",
    "C106_reference",
    "C106_key_package",
    "C106_membership_tag"
   ],
   "note": ""
  },
  {
   "property": "C107",
   "status": "proved",
   "theorems": [
    "C107_apart",
    "C107_public",
    "C107_private",
    "C107_commit",
    "C107_tag"
   ],
   "note": ""
  },
  {
   "property": "C108",
   "status": "proved",
   "theorems": [
    "C108_same",
    "C108_merge",
    "C108_apply",
    "C108_adds",
    "C108_secrets"
   ],
   "note": "C108_same: the counting functions of SpecWork.v do what the counted ones do. C108_merge: merging. C108_apply: carrying out proposals, on any tree. C108_adds: the exact number of visits for added members, which is quadratic. C108_secrets: the exact number of expansions of a secret tree."
  },
  {
   "property": "C109",
   "status": "proved",
   "theorems": [
    "C109_capabilities",
    "C109_extensions",
    "C109_lookup",
    "C109_credentials",
    "C109_leaf",
    "C109_tree",
    "C109_refused"
   ],
   "note": "Proved in full: reading of capabilities and extensions from arbitrary code points, lookup, supported credentials, leaf and tree verification, and refusal of unnamed proposals and credentials. A new extension type must be listed in the leaf's capabilities, as the code and the RFC require."
  },
  {
   "property": "C110",
   "status": "proved",
   "theorems": [
    "C110_same",
    "C110_places",
    "C110_differ"
   ],
   "note": "Proved in full, with the dependence on the order of additions shown by example (C110_differ). C48_order says the list check gives the same verdict for every order."
  },
  {
   "property": "C111",
   "status": "proved",
   "theorems": [
    "C111_values",
    "C111_tree",
    "C111_joining",
    "C111_messages",
    "C111_private",
    "C111_combined",
    "C111_reached"
   ],
   "note": "Proved in full for all decoders, by counting versions of them that are proved to give the same results. Every byte read is at least one step, so the count cannot be empty; C111_reached shows inputs that take the four steps per byte. Not counted: growing the lists that hold decoded elements, and freeing memory. Copying is counted for every nested vector although a Bytes buffer shares instead of copying."
  },
  {
   "property": "C112",
   "status": "proved",
   "theorems": [
    "C112_content",
    "C112_content_checked",
    "C112_package",
    "C112_package_checked",
    "C112_leaf_checked",
    "C112_info_checked",
    "C112_private",
    "C112_secrets",
    "C112_info",
    "C112_tag",
    "C112_commit_tag",
    "C112_membership_checked",
    "C112_private_read",
    "C112_content_accepted",
    "C112_package_accepted",
    "C112_leaf_accepted",
    "C112_info_accepted",
    "C112_secrets_read",
    "C112_info_read",
    "C112_tag_accepted"
   ],
   "note": "Proved for the bytes, against a specification that uses the byte layouts of SpecLayout.v and no encoder of the code. Which key signs a key package is another matter (C51), as are the empty tag of a sent commit (C47) and a membership tag that is missing altogether. The membership tag that is sent is in C106. Sizes of 2^16 and more are excluded because the code takes them modulo 2^16."
  },
  {
   "property": "C113",
   "status": "partial",
   "theorems": [
    "C113_same",
    "C113_verdicts",
    "C113_refuted_time",
    "C113_refuted_found",
    "C113_refuted_membership"
   ],
   "note": "The stated property is false of the code: the number of bytes compared is the length of the correct beginning plus one (C113_refuted_time), and an explicit attacker who sees it makes an accepted tag without the key in at most 256 tries per byte (C113_refuted_found, C113_refuted_membership). Proved: with verdicts only, no strategy finds every tag of n bytes in fewer than 256^n tries (C113_verdicts). The time is counted in pairs of bytes compared up to the first difference; an implementation of slice equality that looks at several bytes at a time makes the attack coarser."
  },
  {
   "property": "C114",
   "status": "proved",
   "theorems": [
    "C114_values",
    "C114_tree",
    "C114_joining",
    "C114_messages",
    "C114_inputs",
    "C114_tree_any",
    "C114_tree_of_group",
    "C114_combined",
    "C114_reached"
   ],
   "note": "Counting versions of all encoders are proved to give the same bytes (the first half of [makes]) and to take between one and K steps per byte, with K at most 5, 6 plus the trailing blanks for trees, and 7 for the trees of a group. C114_reached shows that the multiple for vectors is attained. Not counted: that a growing buffer is moved (amortised constant by doubling), and the steps of an encoding that fails because something is too long."
  },
  {
   "property": "C115",
   "status": "partial",
   "theorems": [
    "C115_refuted_keys",
    "C115_refuted_epoch",
    "C115_refuted_welcome",
    "C115_refuted_store",
    "C115_refuted_hides"
   ],
   "note": "The stated property is false of the code: from what is printed every one of these secrets can be read off, by readers given explicitly and proved correct for all values (C115_refuted_keys, C115_refuted_epoch, C115_refuted_welcome, C115_refuted_store), so values that differ in a secret are printed differently (C115_refuted_hides). Modelled: the text that the derived Debug and the crate bytes print on one line; numbers and public parts of the printed value are arbitrary texts."
  },
  {
   "property": "C116",
   "status": "partial",
   "theorems": [
    "C116_reads",
    "C116_writes",
    "C116_exchange",
    "C116_in_step",
    "C116_untouched",
    "C116_refuted_read",
    "C116_refuted_cut",
    "C116_refuted_write",
    "C116_refuted_room"
   ],
   "note": "The stated property is false of the code: a refused message of two bytes or more has always been taken in part (C116_refuted_read), also if the error is that bytes are missing (C116_refuted_cut); a key package that cannot be encoded for its signature has been written up to it (C116_refuted_write); too little room is a panic (C116_refuted_room). Proved, for every type: on success exactly the share is added or taken, and in every case what was in the buffer stays in front of what is added, and what is left is an end of what was there (C116_reads, C116_writes, C116_exchange); damage inside a list does not touch what follows it (C116_in_step), and a message without its version is left alone (C116_untouched)."
  },
  {
   "property": "C117",
   "status": "proved",
   "theorems": [
    "C117_same",
    "C117_levels",
    "C117_stack",
    "C117_group"
   ],
   "note": "The three recursive functions of the code, with the calls open at a time noted and the allowed depth arbitrary (C117_same: they do the same). Bounds by levels, by the size of a node index, and by the number of leaves. That no other function of the code is recursive was read off the text."
  },
  {
   "property": "C118",
   "status": "partial",
   "theorems": [
    "C118_errors",
    "C118_exact",
    "C118_message",
    "C118_context",
    "C118_transcript",
    "C118_refuted"
   ],
   "note": "The stated property is false of the code: a group context of another version is refused with InvalidProposalTypeValue, the error for an unknown type of proposal, and only after what follows the version has been decoded (C118_refuted). Proved: every error of every other decoder is true of the bytes and independent of what follows (C118_errors, C118_exact), and for messages, group infos and contents with a context the version error is the only exception (C118_message, C118_context); the transcript input has one more error, also true (C118_transcript)."
  },
  {
   "property": "C119",
   "status": "partial",
   "theorems": [
    "C119_leaf",
    "C119_package",
    "C119_leaf_first",
    "C119_package_first",
    "C119_first_unique",
    "C119_tree",
    "C119_tree_first",
    "C119_path",
    "C119_joining",
    "C119_secrets",
    "C119_confirmation",
    "C119_reported",
    "C119_refuted_membership"
   ],
   "note": "The stated property is false of the code: a membership tag that is wrong is reported as VerifyConfirmationTagFailed, also where the confirmation tag is right (C119_refuted_membership). Proved: every error of the checks of leaf nodes, key packages, trees and update paths has its true reason and no other error occurs except the provider's own (C119_leaf, C119_package, C119_tree, C119_path); the error of joining and the one of a welcome without an entry are true (C119_joining, C119_secrets), and so is that of the confirmation tag (C119_confirmation). The errors of lists of proposals are in C48, those of decoding in C118."
  },
  {
   "property": "C120",
   "status": "proved",
   "theorems": [
    "C120_errors",
    "C120_numbers",
    "C120_suites",
    "C120_suite_names",
    "C120_unknown_suites",
    "C120_passed_on"
   ],
   "note": "Texts.v has the messages as functions to bytes, SpecTexts.v says what a row of digits stands for and the names of the RFC. Two foreign errors, or a foreign one and one of the library, can print the same text (C120_passed_on, C120_example)."
  },
  {
   "property": "C121",
   "status": "partial",
   "theorems": [
    "C121_leaf",
    "C121_tree",
    "C121_leaf_later",
    "C121_tree_later",
    "C121_settled",
    "C121_refuted_outside",
    "C121_refuted_during",
    "C121_refuted_tree"
   ],
   "note": "The stated property is false of the code: a lifetime shorter than 68 years is accepted at no time (C121_refuted_during, C121_refuted_tree), and a leaf node can be accepted before its lifetime begins and is then accepted for ever (C121_refuted_outside, C121_leaf_later). Proved: exactly how results depend on the clock (C121_leaf, C121_tree): not at all without lifetimes, otherwise only by whether the end, taken in microseconds, has passed; what is accepted once is accepted at all later times, and from some time on the result is always the same (C121_tree_later, C121_settled)."
  },
  {
   "property": "C122",
   "status": "proved",
   "theorems": [
    "C122_tree",
    "C122_leaf",
    "C122_proposals",
    "C122_hash",
    "C122_credentials",
    "C122_join",
    "C122_build"
   ],
   "note": "SpecListing.v has the checks once more with every set and map put into an arbitrary order (and repetitions dropped or not) wherever it is made, extended or gone through; they equal the model's."
  },
  {
   "property": "C123",
   "status": "proved",
   "theorems": [
    "C123_roster",
    "C123_stays",
    "C123_origin",
    "C123_agree",
    "C123_shaped",
    "C123_apply"
   ],
   "note": "Histories in which every add has room; what an add without room does is C16."
  },
  {
   "property": "C124",
   "status": "partial",
   "theorems": [
    "C124_new",
    "C124_history",
    "C124_size",
    "C124_smallest",
    "C124_same",
    "C124_agree",
    "C124_refuted_received",
    "C124_removed"
   ],
   "note": "The stated property is false of the code: a received tree whose right half holds nobody, only its root is filled in, passes the integrity check (C124_refuted_received). Proved: a new group's tree is as small as can be and stays so over all histories, its size is determined by its members, parties with the same members and calls have trees of the same size, and the first removal puts a received tree right."
  },
  {
   "property": "C125",
   "status": "partial",
   "theorems": [
    "C125_repeated",
    "C125_superseded",
    "C125_commute",
    "C125_removed_twice",
    "C125_refuted_remove",
    "C125_refuted_add"
   ],
   "note": "The stated property is false of the code: a removal that is repeated panics if the first one cut the tree (C125_refuted_remove), and an add that is repeated puts the member at a second leaf (C125_refuted_add). Proved: everything else, and exactly when a removal can be repeated."
  },
  {
   "property": "C126",
   "status": "partial",
   "theorems": [
    "C126_update_remove",
    "C126_update_add",
    "C126_remove_remove",
    "C126_add_remove",
    "C126_refuted_add_remove",
    "C126_refuted_no_room",
    "C126_refuted_path"
   ],
   "note": "The stated property is false of the code: an add takes the leftmost free place, so an add and a removal commute exactly if a place before the removed member is free and the removal leaves room for the add (C126_add_remove; C126_refuted_add_remove, C126_refuted_no_room: after a removal that cuts the tree the added member gets no leaf position), and a path is rejected once another member's leaf has changed (C126_refuted_path). Proved: an update commutes with the removal of another place and with an add, two removals commute (and two updates: C125_commute)."
  },
  {
   "property": "C127",
   "status": "proved",
   "theorems": [
    "C127_one_hash",
    "C127_keys",
    "C127_again",
    "C127_never_stuck",
    "C127_encodable",
    "C127_life",
    "C127_any_group"
   ],
   "note": "C127_one_hash, C127_keys (iff), C127_again, C127_never_stuck; C127_encodable (iff), C127_life and C127_any_group: the conditions hold in every group that grew from one member by additions, updates, removals and update paths, while it has at most 2^27 places. The sole member of a group cannot commit: C28."
  },
  {
   "property": "C128",
   "status": "proved",
   "theorems": [
    "C128_public",
    "C128_public_delivered",
    "C128_private",
    "C128_private_delivered",
    "C128_only",
    "C128_bundled"
   ],
   "note": "C128_public and C128_private are equivalences; C128_public_delivered and C128_private_delivered combine them with what C92 and C75 say of receivers; C128_only. The provider's sizes are hypotheses (signs, tags, seals in SpecSendable.v), met by a provider in the example. C128_bundled: both bundled providers meet the hypotheses over libraries with the standard sizes, and C128_real: so do the standard primitives of suites 1 and 3."
  },
  {
   "property": "C129",
   "status": "proved",
   "theorems": [
    "C129_life",
    "C129_only",
    "C129_joiner",
    "C129_epoch",
    "C129_welcome",
    "C129_psk",
    "C129_transcript",
    "C129_speak",
    "C129_bundled"
   ],
   "note": "C129_life with C129_only: an equivalence over histories (lifetime_of in SpecForward.v); C129_joiner, C129_epoch, C129_psk, C129_transcript (iff), C129_welcome, C129_speak, C129_bundled."
  },
  {
   "property": "C130",
   "status": "proved",
   "theorems": [
    "C130_built",
    "C130_only",
    "C130_scheme",
    "C130_bundled"
   ],
   "note": "C130_built, C130_only, C130_scheme, C130_bundled; the gap between the two sizes is the room for two keys and two signatures. That the package is signed with the public key, so that others refuse it, is C51; that building with suite 2 panics is C62."
  },
  {
   "property": "C131",
   "status": "proved",
   "theorems": [
    "C131_heard",
    "C131_plain",
    "C131_again",
    "C131_unused",
    "C131_forever",
    "C131_bundled"
   ],
   "note": "C131_heard, C131_plain, C131_again, C131_unused, C131_forever; C131_bundled for the bundled providers. The bounds on sizes (2^27 bytes for each of the leaf's lasting part, the path, the context, the additional data and the proposals) add up to less than the 2^30 a message can hold. What the client does with the proposals it accepts, nothing, is C94; that the credential has to be counted as supported is C31."
  },
  {
   "property": "C132",
   "status": "proved",
   "theorems": [
    "C132_welcome",
    "C132_grown",
    "C132_bundled"
   ],
   "note": "C132_welcome, C132_grown, C132_bundled. C132_grown is for groups that grew from their first member by changes checked as C95 asks for; their trees are as C132_welcome needs them. The library has no function that makes a welcome, so the theorem says that one exists and that the library's client joins with it. wg_reached asks that HPKE can encrypt to the guest's init key with some randomness. The bundled provider over ring is left out since it cannot open what it sealed (C60). That joining can only end in what the welcome says is C91."
  },
  {
   "property": "C133",
   "status": "proved",
   "theorems": [
    "C133_change",
    "C133_remove",
    "C133_add"
   ],
   "note": "C133_change, C133_remove, C133_add. That adding needs room (room_for), which a tree that was cut by removals may lack, is C16 and C69. The client accepts the commit but, as C94 says, does not carry out the proposals itself; the tree with the changes is what the library's apply gives."
  },
  {
   "property": "C134",
   "status": "proved",
   "theorems": [
    "C134_everybody",
    "C134_commit",
    "C134_keys",
    "C134_remove",
    "C134_add",
    "C134_change"
   ],
   "note": "C134_everybody, C134_commit, C134_keys, C134_remove, C134_add, C134_change. What checked means is fit and fit_history (SpecStays.v); that the library itself does not check all of it, and what happens then, is C31 and C95. The proviso about hashes is needed by C70; C95_example has a commit that meets it."
  }
 ]
}