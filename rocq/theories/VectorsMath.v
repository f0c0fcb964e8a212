(** Test vectors of the project, run in the model: tree-math.json, up to 64 leaves. Written by tools/mkvectors.py; see VectorChecks.v. *)
From Verif Require Import VectorChecks.
From Coq Require Import String.
Local Open Scope string_scope.
Local Open Scope N_scope.

(** tree-math.json, entry 0. *)
Example tree_math_0 :
  tree_math_check 1 1 0 [None] [None] [None] [None] = true.
Proof. vm_cast_no_check (eq_refl (true)). Qed.

(** tree-math.json, entry 1. *)
Example tree_math_1 :
  tree_math_check 2 3 1 [None; (Some 0); None] [None; (Some 2); None] [(Some 1); None; (Some 1)] [(Some 2); None; (Some 0)] = true.
Proof. vm_cast_no_check (eq_refl (true)). Qed.

(** tree-math.json, entry 2. *)
Example tree_math_2 :
  tree_math_check 4 7 3 [None; (Some 0); None; (Some 1); None; (Some 4); None] [None; (Some 2); None; (Some 5); None; (Some 6); None] [(Some 1);
    (Some 3); (Some 1); None; (Some 5); (Some 3); (Some 5)] [(Some 2); (Some 5); (Some 0); None; (Some 6); (Some 1); (Some 4)] = true.
Proof. vm_cast_no_check (eq_refl (true)). Qed.

(** tree-math.json, entry 3. *)
Example tree_math_3 :
  tree_math_check 8 15 7 [None; (Some 0); None; (Some 1); None; (Some 4); None; (Some 3); None; (Some 8); None; (Some 9); None; (Some 12); None]
    [None; (Some 2); None; (Some 5); None; (Some 6); None; (Some 11); None; (Some 10); None; (Some 13); None; (Some 14); None] [(Some 1); (Some 3);
    (Some 1); (Some 7); (Some 5); (Some 3); (Some 5); None; (Some 9); (Some 11); (Some 9); (Some 7); (Some 13); (Some 11); (Some 13)] [(Some 2);
    (Some 5); (Some 0); (Some 11); (Some 6); (Some 1); (Some 4); None; (Some 10); (Some 13); (Some 8); (Some 3); (Some 14); (Some 9); (Some 12)] = true.
Proof. vm_cast_no_check (eq_refl (true)). Qed.

(** tree-math.json, entry 4. *)
Example tree_math_4 :
  tree_math_check 16 31 15 [None; (Some 0); None; (Some 1); None; (Some 4); None; (Some 3); None; (Some 8); None; (Some 9); None; (Some 12); None;
    (Some 7); None; (Some 16); None; (Some 17); None; (Some 20); None; (Some 19); None; (Some 24); None; (Some 25); None; (Some 28); None] [None;
    (Some 2); None; (Some 5); None; (Some 6); None; (Some 11); None; (Some 10); None; (Some 13); None; (Some 14); None; (Some 23); None; (Some 18);
    None; (Some 21); None; (Some 22); None; (Some 27); None; (Some 26); None; (Some 29); None; (Some 30); None] [(Some 1); (Some 3); (Some 1); (Some
    7); (Some 5); (Some 3); (Some 5); (Some 15); (Some 9); (Some 11); (Some 9); (Some 7); (Some 13); (Some 11); (Some 13); None; (Some 17); (Some
    19); (Some 17); (Some 23); (Some 21); (Some 19); (Some 21); (Some 15); (Some 25); (Some 27); (Some 25); (Some 23); (Some 29); (Some 27); (Some
    29)] [(Some 2); (Some 5); (Some 0); (Some 11); (Some 6); (Some 1); (Some 4); (Some 23); (Some 10); (Some 13); (Some 8); (Some 3); (Some 14);
    (Some 9); (Some 12); None; (Some 18); (Some 21); (Some 16); (Some 27); (Some 22); (Some 17); (Some 20); (Some 7); (Some 26); (Some 29); (Some
    24); (Some 19); (Some 30); (Some 25); (Some 28)] = true.
Proof. vm_cast_no_check (eq_refl (true)). Qed.

(** tree-math.json, entry 5. *)
Example tree_math_5 :
  tree_math_check 32 63 31 [None; (Some 0); None; (Some 1); None; (Some 4); None; (Some 3); None; (Some 8); None; (Some 9); None; (Some 12); None;
    (Some 7); None; (Some 16); None; (Some 17); None; (Some 20); None; (Some 19); None; (Some 24); None; (Some 25); None; (Some 28); None; (Some
    15); None; (Some 32); None; (Some 33); None; (Some 36); None; (Some 35); None; (Some 40); None; (Some 41); None; (Some 44); None; (Some 39);
    None; (Some 48); None; (Some 49); None; (Some 52); None; (Some 51); None; (Some 56); None; (Some 57); None; (Some 60); None] [None; (Some 2);
    None; (Some 5); None; (Some 6); None; (Some 11); None; (Some 10); None; (Some 13); None; (Some 14); None; (Some 23); None; (Some 18); None;
    (Some 21); None; (Some 22); None; (Some 27); None; (Some 26); None; (Some 29); None; (Some 30); None; (Some 47); None; (Some 34); None; (Some
    37); None; (Some 38); None; (Some 43); None; (Some 42); None; (Some 45); None; (Some 46); None; (Some 55); None; (Some 50); None; (Some 53);
    None; (Some 54); None; (Some 59); None; (Some 58); None; (Some 61); None; (Some 62); None] [(Some 1); (Some 3); (Some 1); (Some 7); (Some 5);
    (Some 3); (Some 5); (Some 15); (Some 9); (Some 11); (Some 9); (Some 7); (Some 13); (Some 11); (Some 13); (Some 31); (Some 17); (Some 19); (Some
    17); (Some 23); (Some 21); (Some 19); (Some 21); (Some 15); (Some 25); (Some 27); (Some 25); (Some 23); (Some 29); (Some 27); (Some 29); None;
    (Some 33); (Some 35); (Some 33); (Some 39); (Some 37); (Some 35); (Some 37); (Some 47); (Some 41); (Some 43); (Some 41); (Some 39); (Some 45);
    (Some 43); (Some 45); (Some 31); (Some 49); (Some 51); (Some 49); (Some 55); (Some 53); (Some 51); (Some 53); (Some 47); (Some 57); (Some 59);
    (Some 57); (Some 55); (Some 61); (Some 59); (Some 61)] [(Some 2); (Some 5); (Some 0); (Some 11); (Some 6); (Some 1); (Some 4); (Some 23); (Some
    10); (Some 13); (Some 8); (Some 3); (Some 14); (Some 9); (Some 12); (Some 47); (Some 18); (Some 21); (Some 16); (Some 27); (Some 22); (Some 17);
    (Some 20); (Some 7); (Some 26); (Some 29); (Some 24); (Some 19); (Some 30); (Some 25); (Some 28); None; (Some 34); (Some 37); (Some 32); (Some
    43); (Some 38); (Some 33); (Some 36); (Some 55); (Some 42); (Some 45); (Some 40); (Some 35); (Some 46); (Some 41); (Some 44); (Some 15); (Some
    50); (Some 53); (Some 48); (Some 59); (Some 54); (Some 49); (Some 52); (Some 39); (Some 58); (Some 61); (Some 56); (Some 51); (Some 62); (Some
    57); (Some 60)] = true.
Proof. vm_cast_no_check (eq_refl (true)). Qed.

(** tree-math.json, entry 6. *)
Example tree_math_6 :
  tree_math_check 64 127 63 [None; (Some 0); None; (Some 1); None; (Some 4); None; (Some 3); None; (Some 8); None; (Some 9); None; (Some 12); None;
    (Some 7); None; (Some 16); None; (Some 17); None; (Some 20); None; (Some 19); None; (Some 24); None; (Some 25); None; (Some 28); None; (Some
    15); None; (Some 32); None; (Some 33); None; (Some 36); None; (Some 35); None; (Some 40); None; (Some 41); None; (Some 44); None; (Some 39);
    None; (Some 48); None; (Some 49); None; (Some 52); None; (Some 51); None; (Some 56); None; (Some 57); None; (Some 60); None; (Some 31); None;
    (Some 64); None; (Some 65); None; (Some 68); None; (Some 67); None; (Some 72); None; (Some 73); None; (Some 76); None; (Some 71); None; (Some
    80); None; (Some 81); None; (Some 84); None; (Some 83); None; (Some 88); None; (Some 89); None; (Some 92); None; (Some 79); None; (Some 96);
    None; (Some 97); None; (Some 100); None; (Some 99); None; (Some 104); None; (Some 105); None; (Some 108); None; (Some 103); None; (Some 112);
    None; (Some 113); None; (Some 116); None; (Some 115); None; (Some 120); None; (Some 121); None; (Some 124); None] [None; (Some 2); None; (Some
    5); None; (Some 6); None; (Some 11); None; (Some 10); None; (Some 13); None; (Some 14); None; (Some 23); None; (Some 18); None; (Some 21); None;
    (Some 22); None; (Some 27); None; (Some 26); None; (Some 29); None; (Some 30); None; (Some 47); None; (Some 34); None; (Some 37); None; (Some
    38); None; (Some 43); None; (Some 42); None; (Some 45); None; (Some 46); None; (Some 55); None; (Some 50); None; (Some 53); None; (Some 54);
    None; (Some 59); None; (Some 58); None; (Some 61); None; (Some 62); None; (Some 95); None; (Some 66); None; (Some 69); None; (Some 70); None;
    (Some 75); None; (Some 74); None; (Some 77); None; (Some 78); None; (Some 87); None; (Some 82); None; (Some 85); None; (Some 86); None; (Some
    91); None; (Some 90); None; (Some 93); None; (Some 94); None; (Some 111); None; (Some 98); None; (Some 101); None; (Some 102); None; (Some 107);
    None; (Some 106); None; (Some 109); None; (Some 110); None; (Some 119); None; (Some 114); None; (Some 117); None; (Some 118); None; (Some 123);
    None; (Some 122); None; (Some 125); None; (Some 126); None] [(Some 1); (Some 3); (Some 1); (Some 7); (Some 5); (Some 3); (Some 5); (Some 15);
    (Some 9); (Some 11); (Some 9); (Some 7); (Some 13); (Some 11); (Some 13); (Some 31); (Some 17); (Some 19); (Some 17); (Some 23); (Some 21);
    (Some 19); (Some 21); (Some 15); (Some 25); (Some 27); (Some 25); (Some 23); (Some 29); (Some 27); (Some 29); (Some 63); (Some 33); (Some 35);
    (Some 33); (Some 39); (Some 37); (Some 35); (Some 37); (Some 47); (Some 41); (Some 43); (Some 41); (Some 39); (Some 45); (Some 43); (Some 45);
    (Some 31); (Some 49); (Some 51); (Some 49); (Some 55); (Some 53); (Some 51); (Some 53); (Some 47); (Some 57); (Some 59); (Some 57); (Some 55);
    (Some 61); (Some 59); (Some 61); None; (Some 65); (Some 67); (Some 65); (Some 71); (Some 69); (Some 67); (Some 69); (Some 79); (Some 73); (Some
    75); (Some 73); (Some 71); (Some 77); (Some 75); (Some 77); (Some 95); (Some 81); (Some 83); (Some 81); (Some 87); (Some 85); (Some 83); (Some
    85); (Some 79); (Some 89); (Some 91); (Some 89); (Some 87); (Some 93); (Some 91); (Some 93); (Some 63); (Some 97); (Some 99); (Some 97); (Some
    103); (Some 101); (Some 99); (Some 101); (Some 111); (Some 105); (Some 107); (Some 105); (Some 103); (Some 109); (Some 107); (Some 109); (Some
    95); (Some 113); (Some 115); (Some 113); (Some 119); (Some 117); (Some 115); (Some 117); (Some 111); (Some 121); (Some 123); (Some 121); (Some
    119); (Some 125); (Some 123); (Some 125)] [(Some 2); (Some 5); (Some 0); (Some 11); (Some 6); (Some 1); (Some 4); (Some 23); (Some 10); (Some
    13); (Some 8); (Some 3); (Some 14); (Some 9); (Some 12); (Some 47); (Some 18); (Some 21); (Some 16); (Some 27); (Some 22); (Some 17); (Some 20);
    (Some 7); (Some 26); (Some 29); (Some 24); (Some 19); (Some 30); (Some 25); (Some 28); (Some 95); (Some 34); (Some 37); (Some 32); (Some 43);
    (Some 38); (Some 33); (Some 36); (Some 55); (Some 42); (Some 45); (Some 40); (Some 35); (Some 46); (Some 41); (Some 44); (Some 15); (Some 50);
    (Some 53); (Some 48); (Some 59); (Some 54); (Some 49); (Some 52); (Some 39); (Some 58); (Some 61); (Some 56); (Some 51); (Some 62); (Some 57);
    (Some 60); None; (Some 66); (Some 69); (Some 64); (Some 75); (Some 70); (Some 65); (Some 68); (Some 87); (Some 74); (Some 77); (Some 72); (Some
    67); (Some 78); (Some 73); (Some 76); (Some 111); (Some 82); (Some 85); (Some 80); (Some 91); (Some 86); (Some 81); (Some 84); (Some 71); (Some
    90); (Some 93); (Some 88); (Some 83); (Some 94); (Some 89); (Some 92); (Some 31); (Some 98); (Some 101); (Some 96); (Some 107); (Some 102);
    (Some 97); (Some 100); (Some 119); (Some 106); (Some 109); (Some 104); (Some 99); (Some 110); (Some 105); (Some 108); (Some 79); (Some 114);
    (Some 117); (Some 112); (Some 123); (Some 118); (Some 113); (Some 116); (Some 103); (Some 122); (Some 125); (Some 120); (Some 115); (Some 126);
    (Some 121); (Some 124)] = true.
Proof. vm_cast_no_check (eq_refl (true)). Qed.
