(** Test vectors of the project, run in the model: crypto-basics.json, psk_secret.json, key-schedule.json, transcript-hashes.json and secret-tree.json. Written by tools/mkvectors.py; see VectorChecks.v. *)
From Verif Require Import VectorChecks.
From Coq Require Import String.
Local Open Scope string_scope.
Local Open Scope N_scope.

(** crypto-basics.json, entry 0, ref_hash. *)
Example ref_hash_0 :
  ref_hash_check Suite1 (str "RefHash") (hex "40312db83f651883c05ab26fa12c6af61930015c81947cfd0f129e6d99210bb2") (hex
    "e8027fffc5f9bb469f29172538dc0f3a78f14f323495bbd2217eba7a77fb242a") = true.
Proof. vm_cast_no_check (eq_refl (true)). Qed.

(** crypto-basics.json, entry 0, expand_with_label. *)
Example expand_0 :
  expand_check Suite1 (hex "1499360a561335f4ef51d0a1b0d586900dc8007ae405b1ab79bf4207bb3d67e4") (str "ExpandWithLabel") (hex
    "2ff8c1f9d9c1248f82e372ddb5791c771695e01882abca6a64097bd2f04c971f") 16 (hex "c1e8eb360391526c0c64039f13e0c5b1") = true.
Proof. vm_cast_no_check (eq_refl (true)). Qed.

(** crypto-basics.json, entry 0, derive_secret. *)
Example derive_secret_0 :
  derive_secret_check Suite1 (hex "1a9ce178a53f8752d2513c27efe9c85133f6c0a97f7b35ac200695024a77228e") (str "DeriveSecret") (hex
    "3b08c195a246c4ad469c1d11c10e62890d8fa6b684494ff925409efdb1ff0464") = true.
Proof. vm_cast_no_check (eq_refl (true)). Qed.

(** crypto-basics.json, entry 0, derive_tree_secret. *)
Example derive_tree_secret_0 :
  derive_tree_secret_check Suite1 (hex "5133c6f8bad297f5d3beacdf477f0c45ec51b02de659d305220c5f9385c6eb43") (str "DeriveTreeSecret") 2694881440 32
    (hex "8461f3ccc603eae52149a23a4134d29c880a1ad1ba70441e5d586e3521ec7b25") = true.
Proof. vm_cast_no_check (eq_refl (true)). Qed.

(** crypto-basics.json, entry 1, ref_hash. *)
Example ref_hash_1 :
  ref_hash_check Suite2 (str "RefHash") (hex "feb64672017685dc26d0b7fc41cd96d8bef40af09002eb5aa9a52580c80f0b2e") (hex
    "8f508c2f89d2797b6882ee487dc2832b2b6d59b27681293c2c2c3f1f0e6cd54f") = true.
Proof. vm_cast_no_check (eq_refl (true)). Qed.

(** crypto-basics.json, entry 1, expand_with_label. *)
Example expand_1 :
  expand_check Suite2 (hex "194d4e81c3f9fcfbc40e2cf3f5b104d0f51e71b5a7f1e4ddd70cc8d4a3620e5f") (str "ExpandWithLabel") (hex
    "453c420d63ecb1a8da89d3569770c42bad572864f3709d1e9dd19a0961cbf5e1") 16 (hex "5710680c556304f4aec67aab4abbc1b1") = true.
Proof. vm_cast_no_check (eq_refl (true)). Qed.

(** crypto-basics.json, entry 1, derive_secret. *)
Example derive_secret_1 :
  derive_secret_check Suite2 (hex "7165576616048aa145d20f7c1d460e2d9d8bbde882bc3bb0750d50e369809f99") (str "DeriveSecret") (hex
    "1ecafd3d40cb32cae416e09bc01da56357d00cb094f74e3c69c2969216e50afc") = true.
Proof. vm_cast_no_check (eq_refl (true)). Qed.

(** crypto-basics.json, entry 1, derive_tree_secret. *)
Example derive_tree_secret_1 :
  derive_tree_secret_check Suite2 (hex "62db8a06300e98dbfd2c831e18544873cec3a2c1ba852fcee8423ff3c08e397e") (str "DeriveTreeSecret") 2694881440 32
    (hex "298ab27d2e621d9fc079126d9ffce5259fa0d58697267b40bfadf805b01d0d3c") = true.
Proof. vm_cast_no_check (eq_refl (true)). Qed.

(** crypto-basics.json, entry 2, ref_hash. *)
Example ref_hash_2 :
  ref_hash_check Suite3 (str "RefHash") (hex "4f0c86f9c82fba0a896bd7eecf79a29856e98a7e4f13b9f841ae285d70ed8b68") (hex
    "f11019703c8b630060839b12a475fd39c6a30f8a866790ff46a35f9c65e1df3c") = true.
Proof. vm_cast_no_check (eq_refl (true)). Qed.

(** crypto-basics.json, entry 2, expand_with_label. *)
Example expand_2 :
  expand_check Suite3 (hex "55aa3ae5242564782567ce097beafe19510230660008b2cc064a78387fa16f36") (str "ExpandWithLabel") (hex
    "2e07148f4340c62a55e7608c20d73fddf1f3b8dafb2c7ef24eceb70e136c0d8c") 32 (hex "1df5ba7996a34f75d717916a094a14083c03a75e80f0330a8095f5f11cfe1e1f") = true.
Proof. vm_cast_no_check (eq_refl (true)). Qed.

(** crypto-basics.json, entry 2, derive_secret. *)
Example derive_secret_2 :
  derive_secret_check Suite3 (hex "cae460c779ebaa3e81c061a371486dff1ed1ff273bea369cc0fc46550b83c407") (str "DeriveSecret") (hex
    "aad859818ca5f2a9896d4d3ee2dccc0cefcd69b666bdb16b52f1de15fb1a5567") = true.
Proof. vm_cast_no_check (eq_refl (true)). Qed.

(** crypto-basics.json, entry 2, derive_tree_secret. *)
Example derive_tree_secret_2 :
  derive_tree_secret_check Suite3 (hex "c994e257b53f726087ddd7121876f558f1fbd6f807e5ff010830d618d7bab6f2") (str "DeriveTreeSecret") 2694881440 32
    (hex "2095d6a81ab87095d1df26f6bdf012ec06f197e418381c1795a7b758603c936d") = true.
Proof. vm_cast_no_check (eq_refl (true)). Qed.

(** psk_secret.json, entry 0. *)
Example psk_secret_0 :
  psk_secret_check Suite1 [] (hex "0000000000000000000000000000000000000000000000000000000000000000") = true.
Proof. vm_cast_no_check (eq_refl (true)). Qed.

(** psk_secret.json, entry 1. *)
Example psk_secret_1 :
  psk_secret_check Suite1 [((hex "55c388e0e99fba6c1633d6b70c50ec3def72563aec7ce787847574bc27ed9d71"), (hex
    "e0a059e7da3660c691b5accb5342a0940f0ac7ea4ae4c886186249698d845860"), (hex "66b25bdc9086da6e266ed0828040d7a9547d20ddcfd2988d48113a10afb5a23d"))]
    (hex "aa6ee4e7ac86bec0a39c185ad88995e9b86eea9ecca113691090c53bcc86344c") = true.
Proof. vm_cast_no_check (eq_refl (true)). Qed.

(** psk_secret.json, entry 11. *)
Example psk_secret_11 :
  psk_secret_check Suite2 [] (hex "0000000000000000000000000000000000000000000000000000000000000000") = true.
Proof. vm_cast_no_check (eq_refl (true)). Qed.

(** psk_secret.json, entry 12. *)
Example psk_secret_12 :
  psk_secret_check Suite2 [((hex "f682d244031ac5e1794806ec6cfaf88a059ac9e8aa4e45cc80cebcee27cfa73a"), (hex
    "037000187ef8013796804c6dde30bcf4f82ba974d014003369edda411309ee88"), (hex "bf634ace519fad1179824b6ed4ccb869f76fcf791881ef6e0c151b57b2c894da"))]
    (hex "c7fcf45d147f92dc9715a43fe393d5cec35e5d56fa1372a7b2103ffa8f7aa758") = true.
Proof. vm_cast_no_check (eq_refl (true)). Qed.

(** psk_secret.json, entry 13. *)
Example psk_secret_13 :
  psk_secret_check Suite2 [((hex "393c0d9289bd0092c07ad19a9d4e6a25f0de1d1b8689e1a15fef0ad538e68e9d"), (hex
    "64b0f924e159876b253ef8e216aa7a628f6dad51f6c24ba8d5434630fbf4ee6a"), (hex "cd73d7d71d4c59e194d6356fddb581949fb380ac81354f0930795492e3776867"));
    ((hex "9d70d7e8b7e7ac7be25b976d6ea4c6a4ac359880cbacd38c2424bbc57715ea86"), (hex
    "b0426656e428fe9afb551a2884864de8c3c1d870de71dc93f063b48b3817ca98"), (hex "7012a0813456f4161d84f3a320ee6b172bbef50b20d4cf0d7d61230e9dc505f9"))]
    (hex "480e0fe8c9cb6763509431639d9850e8890d41c8042e0accfbef928af7dabc48") = true.
Proof. vm_cast_no_check (eq_refl (true)). Qed.

(** psk_secret.json, entry 14. *)
Example psk_secret_14 :
  psk_secret_check Suite2 [((hex "d2e1511ae2690bcb4e6c06f821e36df2c6d76689e401210d4ad330082a0f9932"), (hex
    "690e0c1e23f08ef9e91dcb5080c49f2b3d0647b010b8722b4528025fef1dc3fb"), (hex "00c567317351a335d223abbb6f4b4be2981c42605044ff050c15f7efe0a2c5eb"));
    ((hex "027b88b529597ee0f0efdce65f69a917b946db6d2b60d6de5da74c0ed7e3bf81"), (hex
    "019f917eda3868b2fffdc49b3de436d11ecb4f5cf88ad0c4b1056023cdcbcc93"), (hex "47c1ed314a8ae210f7b3607e1875e98a52af894df31e821b36ca17d1f548bbe8"));
    ((hex "26aa3641edee39bbcd54e71036e6a3bcd0c108c46c79ef49365b08559c0b8bc6"), (hex
    "a32c6d0a7b17e96520b833e4e8115e7f2d88130355fe50531167113c82fdd1ba"), (hex "0795f25922b74a4a4585d828d655f8e03163cfa975db0992f30c8c5ca974fb34"))]
    (hex "b7c0cf9ad48afc5fa692d697d84b5f2a4576b8d0e6aefa37da4c5ff54b611487") = true.
Proof. vm_cast_no_check (eq_refl (true)). Qed.

(** psk_secret.json, entry 15. *)
Example psk_secret_15 :
  psk_secret_check Suite2 [((hex "13b011e22602aea0a2afb6452794875e71aeff83ed7b89badabb757746d39307"), (hex
    "fee55f2a60d634ac4663c8090b0ca0b4410a34427caeac2e0945da21769c4d84"), (hex "349453266d11e4ceac5842bc9d9f2fcfbe2f3a53b6119fc3a9d0981c893ddae1"));
    ((hex "8a6c9c9f2d36f96cd2aa7f8b57da244c29ff4a6dbfb02af4726ae9fd123aa83f"), (hex
    "890c0a650246e37cd4f9995153add2196de63b4c69dcc8973f74bd0eee91faf9"), (hex "96c76193099ddd35b126efea7ec40ee8b7e121abcadb49c1be8838f7cc691378"));
    ((hex "8f154f45d219c4817d1cfeeb3acd3a560109ab21fc327d9f7bbcdb876aea8435"), (hex
    "f94c4ee8630201cd29ec436dd76be00ecae6217e9e19975ab9ce1d7c8a5b5478"), (hex "c8884762893f2f5d76a2ebb7dea11582d0a779b56da5d1de4e6cb5bee6042109"));
    ((hex "29732fa7a5534cf9313de122e849e112e713ffab1951af709fe90f1cd518b755"), (hex
    "698b25c9a11c087a9c62386d5bcfdf6ae7f0375055d83847dc6ffd9e0f293cb7"), (hex "4b04126a45d91fa57db67b9b76df404004d6d6c434e4a565a6c3da9a25d76993"))]
    (hex "df2605b3503676351d6f50df64de7f1bf705cbe2b5b0700389afe9d464953c55") = true.
Proof. vm_cast_no_check (eq_refl (true)). Qed.

(** transcript-hashes.json, entry 0. *)
Example transcript_0 :
  transcript_check Suite1 (hex "26ae359a9a9760cd1066cae16f1456ea7eaf52bd85d5dba5bb15cca04a90c83f") (hex
    "00010567726f7570000000000000345601000000000003220220e740a6faf2db65f5853148d75d9a335d7c4b94ab106fe5f237bc34fdcfc745840040402280c921b6b2836ed4eca496dfa74a13c171f78b80822894032c4c03cc4fb9c24e505c0d0ba4e8edb63a3327442baa12555a57f28e4cfebb4f0c42997030e207203a1d8805d8390f441a622f81bcb7347be86db7cc491d0313163fa63c2f66aa92")
    (hex "2597552c42df799cd70e99c77c4f80e834a9418096a0b2c7bc66afbc48eebaa6") (hex
    "51a85b21149c86f3f8c2907017c449e96987242b7ba2be9db1ddd53fb2db0d1d") (hex "193f9e11118fd08ff626069543b481ec5f04145680b612bb84d8962a2e609211") = true.
Proof. vm_cast_no_check (eq_refl (true)). Qed.
