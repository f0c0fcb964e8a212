(** Executable cryptography of cipher suites 1 and 3 (X25519, AES-128-GCM or ChaCha20-Poly1305, SHA-256, Ed25519), for running the model on the project's
    own test vectors (files Vectors*.v). No theorem about the code depends on this file: it only supplies one value of the record
    [prims] with which the model can be computed. The definitions follow FIPS 180-4, FIPS 197, NIST SP 800-38D, RFC 2104, RFC 5869,
    RFC 7748, RFC 8032, RFC 8439 and RFC 9180. *)
From Verif Require Import Base Provider.
From Coq Require Import ZArith String Ascii.
Import Coq.Strings.Byte.
Local Open Scope N_scope.

(** Hexadecimal text, as the test vectors give byte strings. *)
Definition nibble (c : ascii) : N :=
  let n := N_of_ascii c in if n <? 58 then n - 48 else n - 87.
Fixpoint hex (s : string) : bytes :=
  match s with
  | String a (String b s) =>
    match Byte.of_N (16 * nibble a + nibble b) with Some x => x :: hex s | None => hex s end
  | _ => []
  end.
Definition byte_of (n : N) : byte := match Byte.of_N (n mod 256) with Some b => b | None => x00 end.
(** Big-endian and little-endian numbers. *)
Definition be_n (bs : bytes) : N := fold_left (fun acc b => 256 * acc + Byte.to_N b) bs 0.
Fixpoint n_le (k : nat) (n : N) : bytes := match k with O => [] | S k => byte_of n :: n_le k (N.shiftr n 8) end.
Definition n_be (k : nat) (n : N) : bytes := rev (n_le k n).
Definition le_n (bs : bytes) : N := be_n (rev bs).
Fixpoint chunks_aux (fuel k : nat) (bs : bytes) : list bytes :=
  match fuel, bs with S f, _ :: _ => firstn k bs :: chunks_aux f k (skipn k bs) | _, _ => [] end.
Definition chunks (k : nat) (bs : bytes) : list bytes := chunks_aux (S (List.length bs)) k bs.
Definition map2 {A B C} (f : A -> B -> C) (xs : list A) (ys : list B) : list C := map (fun p => f (fst p) (snd p)) (combine xs ys).
Definition xor_bytes (xs ys : bytes) : bytes := map2 (fun x y => byte_of (N.lxor (Byte.to_N x) (Byte.to_N y))) xs ys.

(** SHA-2 with words of [w] bits (FIPS 180-4, sections 4 to 6). *)
Record sha2 : Type := MkSha2 { w_bits : N; w_bytes : nat; consts : list N; start : list N;
  S0 : N * N * N; S1 : N * N * N; s0 : N * N * N; s1 : N * N * N; out_bytes : nat }.
Section Sha2.
Variable h : sha2.
Definition mask := N.ones (w_bits h).
Definition wadd (x y : N) : N := N.land (x + y) mask.
Definition rotr (n x : N) : N := N.lor (N.shiftr x n) (N.land (N.shiftl x (w_bits h - n)) mask).
Definition big (p : N * N * N) (x : N) : N := let '(a, b, c) := p in N.lxor (rotr a x) (N.lxor (rotr b x) (rotr c x)).
Definition small (p : N * N * N) (x : N) : N := let '(a, b, c) := p in N.lxor (rotr a x) (N.lxor (rotr b x) (N.shiftr x c)).
(** The message schedule, kept newest first. *)
Fixpoint schedule (n : nat) (ws : list N) : list N :=
  match n with
  | O => rev ws
  | S n => let at_ i := nth i ws 0 in
    schedule n (wadd (wadd (small (s1 h) (at_ 1%nat)) (at_ 6%nat)) (wadd (small (s0 h) (at_ 14%nat)) (at_ 15%nat)) :: ws)
  end.
Definition round (st : list N) (kw : N * N) : list N :=
  match st with
  | [a; b; c; d; e; f; g; hh] =>
    let ch := N.lxor (N.land e f) (N.land (N.lxor e mask) g) in
    let maj := N.lxor (N.land a b) (N.lxor (N.land a c) (N.land b c)) in
    let t1 := wadd (wadd (wadd hh (big (S1 h) e)) (wadd ch (fst kw))) (snd kw) in
    let t2 := wadd (big (S0 h) a) maj in
    [wadd t1 t2; a; b; c; wadd d t1; e; f; g]
  | _ => st
  end.
Definition compress (st : list N) (block : bytes) : list N :=
  let ws := map be_n (chunks (w_bytes h) block) in
  let sched := schedule (List.length (consts h) - 16) (rev ws) in
  map2 wadd st (fold_left round (combine (consts h) sched) st).
Definition pad (m : bytes) : bytes :=
  let blk := (16 * w_bytes h)%nat in
  let used := ((List.length m + 1 + 2 * w_bytes h) mod blk)%nat in
  let z := ((blk - used) mod blk)%nat in
  (m ++ x80 :: repeat x00 z ++ n_be (2 * w_bytes h) (8 * N.of_nat (List.length m)))%list.
Definition sha (m : bytes) : bytes :=
  firstn (out_bytes h) (List.concat (map (n_be (w_bytes h)) (fold_left compress (chunks (16 * w_bytes h) (pad m)) (start h)))).
Definition block_size : nat := (16 * w_bytes h)%nat.
End Sha2.

(** SHA-256 (FIPS 180-4, 4.1.2, 4.2.2, 5.3.3). *)
Definition sha256_params : sha2 := MkSha2 32 4
  [ 0x428a2f98; 0x71374491; 0xb5c0fbcf; 0xe9b5dba5; 0x3956c25b; 0x59f111f1; 0x923f82a4; 0xab1c5ed5;
    0xd807aa98; 0x12835b01; 0x243185be; 0x550c7dc3; 0x72be5d74; 0x80deb1fe; 0x9bdc06a7; 0xc19bf174;
    0xe49b69c1; 0xefbe4786; 0x0fc19dc6; 0x240ca1cc; 0x2de92c6f; 0x4a7484aa; 0x5cb0a9dc; 0x76f988da;
    0x983e5152; 0xa831c66d; 0xb00327c8; 0xbf597fc7; 0xc6e00bf3; 0xd5a79147; 0x06ca6351; 0x14292967;
    0x27b70a85; 0x2e1b2138; 0x4d2c6dfc; 0x53380d13; 0x650a7354; 0x766a0abb; 0x81c2c92e; 0x92722c85;
    0xa2bfe8a1; 0xa81a664b; 0xc24b8b70; 0xc76c51a3; 0xd192e819; 0xd6990624; 0xf40e3585; 0x106aa070;
    0x19a4c116; 0x1e376c08; 0x2748774c; 0x34b0bcb5; 0x391c0cb3; 0x4ed8aa4a; 0x5b9cca4f; 0x682e6ff3;
    0x748f82ee; 0x78a5636f; 0x84c87814; 0x8cc70208; 0x90befffa; 0xa4506ceb; 0xbef9a3f7; 0xc67178f2 ]
  [ 0x6a09e667; 0xbb67ae85; 0x3c6ef372; 0xa54ff53a; 0x510e527f; 0x9b05688c; 0x1f83d9ab; 0x5be0cd19 ]
  (2, 13, 22) (6, 11, 25) (7, 18, 3) (17, 19, 10) 32.
Definition sha256 : bytes -> bytes := sha sha256_params.
(** SHA-512 (FIPS 180-4, 4.1.3, 4.2.3, 5.3.5), which Ed25519 uses. *)
Definition sha512_params : sha2 := MkSha2 64 8
  [ 0x428a2f98d728ae22; 0x7137449123ef65cd; 0xb5c0fbcfec4d3b2f; 0xe9b5dba58189dbbc; 0x3956c25bf348b538;
    0x59f111f1b605d019; 0x923f82a4af194f9b; 0xab1c5ed5da6d8118; 0xd807aa98a3030242; 0x12835b0145706fbe;
    0x243185be4ee4b28c; 0x550c7dc3d5ffb4e2; 0x72be5d74f27b896f; 0x80deb1fe3b1696b1; 0x9bdc06a725c71235;
    0xc19bf174cf692694; 0xe49b69c19ef14ad2; 0xefbe4786384f25e3; 0x0fc19dc68b8cd5b5; 0x240ca1cc77ac9c65;
    0x2de92c6f592b0275; 0x4a7484aa6ea6e483; 0x5cb0a9dcbd41fbd4; 0x76f988da831153b5; 0x983e5152ee66dfab;
    0xa831c66d2db43210; 0xb00327c898fb213f; 0xbf597fc7beef0ee4; 0xc6e00bf33da88fc2; 0xd5a79147930aa725;
    0x06ca6351e003826f; 0x142929670a0e6e70; 0x27b70a8546d22ffc; 0x2e1b21385c26c926; 0x4d2c6dfc5ac42aed;
    0x53380d139d95b3df; 0x650a73548baf63de; 0x766a0abb3c77b2a8; 0x81c2c92e47edaee6; 0x92722c851482353b;
    0xa2bfe8a14cf10364; 0xa81a664bbc423001; 0xc24b8b70d0f89791; 0xc76c51a30654be30; 0xd192e819d6ef5218;
    0xd69906245565a910; 0xf40e35855771202a; 0x106aa07032bbd1b8; 0x19a4c116b8d2d0c8; 0x1e376c085141ab53;
    0x2748774cdf8eeb99; 0x34b0bcb5e19b48a8; 0x391c0cb3c5c95a63; 0x4ed8aa4ae3418acb; 0x5b9cca4f7763e373;
    0x682e6ff3d6b2b8a3; 0x748f82ee5defb2fc; 0x78a5636f43172f60; 0x84c87814a1f0ab72; 0x8cc702081a6439ec;
    0x90befffa23631e28; 0xa4506cebde82bde9; 0xbef9a3f7b2c67915; 0xc67178f2e372532b; 0xca273eceea26619c;
    0xd186b8c721c0c207; 0xeada7dd6cde0eb1e; 0xf57d4f7fee6ed178; 0x06f067aa72176fba; 0x0a637dc5a2c898a6;
    0x113f9804bef90dae; 0x1b710b35131c471b; 0x28db77f523047d84; 0x32caab7b40c72493; 0x3c9ebe0a15c9bebc;
    0x431d67c49c100d4c; 0x4cc5d4becb3e42b6; 0x597f299cfc657e2a; 0x5fcb6fab3ad6faec; 0x6c44198c4a475817 ]
  [ 0x6a09e667f3bcc908; 0xbb67ae8584caa73b; 0x3c6ef372fe94f82b; 0xa54ff53a5f1d36f1; 0x510e527fade682d1;
    0x9b05688c2b3e6c1f; 0x1f83d9abfb41bd6b; 0x5be0cd19137e2179 ]
  (28, 34, 39) (14, 18, 41) (1, 8, 7) (19, 61, 6) 64.
Definition sha512 : bytes -> bytes := sha sha512_params.
(** SHA-384 (FIPS 180-4, 5.3.4 and 6.5): other start values, and the first 48 bytes. *)
Definition sha384_params : sha2 := MkSha2 64 8 (consts sha512_params)
  [ 0xcbbb9d5dc1059ed8; 0x629a292a367cd507; 0x9159015a3070dd17; 0x152fecd8f70e5939; 0x67332667ffc00b31;
    0x8eb44a8768581511; 0xdb0c2e0d64f98fa7; 0x47b5481dbefa4fa4 ]
  (28, 34, 39) (14, 18, 41) (1, 8, 7) (19, 61, 6) 48.
Definition sha384 : bytes -> bytes := sha sha384_params.

(** HMAC (RFC 2104). *)
Definition hmac (h : sha2) (key m : bytes) : bytes :=
  let k := if (block_size h <? List.length key)%nat then sha h key else key in
  let k := (k ++ repeat x00 (block_size h - List.length k))%list in
  let px b := xor_bytes k (repeat b (block_size h)) in
  sha h (px x5c ++ sha h (px x36 ++ m)).
(** HKDF (RFC 5869). *)
Definition hkdf_extract (h : sha2) (salt ikm : bytes) : bytes := hmac h salt ikm.
Fixpoint hkdf_blocks (h : sha2) (prk info prev : bytes) (i : N) (n : nat) : bytes :=
  match n with
  | O => []
  | S n => let t := hmac h prk (prev ++ info ++ [byte_of i]) in t ++ hkdf_blocks h prk info t (i + 1) n
  end%list.
Definition hkdf_expand (h : sha2) (prk info : bytes) (len : N) : option bytes :=
  let size := N.of_nat (out_bytes h) in
  if 255 * size <? len then None
  else Some (firstn (N.to_nat len) (hkdf_blocks h prk info [] 1 (N.to_nat ((len + size - 1) / size)))).

(** AES-128 (FIPS 197), encryption only. *)
Definition sbox_table : list byte :=
  [ x63; x7c; x77; x7b; xf2; x6b; x6f; xc5; x30; x01; x67; x2b; xfe; xd7; xab; x76;
    xca; x82; xc9; x7d; xfa; x59; x47; xf0; xad; xd4; xa2; xaf; x9c; xa4; x72; xc0;
    xb7; xfd; x93; x26; x36; x3f; xf7; xcc; x34; xa5; xe5; xf1; x71; xd8; x31; x15;
    x04; xc7; x23; xc3; x18; x96; x05; x9a; x07; x12; x80; xe2; xeb; x27; xb2; x75;
    x09; x83; x2c; x1a; x1b; x6e; x5a; xa0; x52; x3b; xd6; xb3; x29; xe3; x2f; x84;
    x53; xd1; x00; xed; x20; xfc; xb1; x5b; x6a; xcb; xbe; x39; x4a; x4c; x58; xcf;
    xd0; xef; xaa; xfb; x43; x4d; x33; x85; x45; xf9; x02; x7f; x50; x3c; x9f; xa8;
    x51; xa3; x40; x8f; x92; x9d; x38; xf5; xbc; xb6; xda; x21; x10; xff; xf3; xd2;
    xcd; x0c; x13; xec; x5f; x97; x44; x17; xc4; xa7; x7e; x3d; x64; x5d; x19; x73;
    x60; x81; x4f; xdc; x22; x2a; x90; x88; x46; xee; xb8; x14; xde; x5e; x0b; xdb;
    xe0; x32; x3a; x0a; x49; x06; x24; x5c; xc2; xd3; xac; x62; x91; x95; xe4; x79;
    xe7; xc8; x37; x6d; x8d; xd5; x4e; xa9; x6c; x56; xf4; xea; x65; x7a; xae; x08;
    xba; x78; x25; x2e; x1c; xa6; xb4; xc6; xe8; xdd; x74; x1f; x4b; xbd; x8b; x8a;
    x70; x3e; xb5; x66; x48; x03; xf6; x0e; x61; x35; x57; xb9; x86; xc1; x1d; x9e;
    xe1; xf8; x98; x11; x69; xd9; x8e; x94; x9b; x1e; x87; xe9; xce; x55; x28; xdf;
    x8c; xa1; x89; x0d; xbf; xe6; x42; x68; x41; x99; x2d; x0f; xb0; x54; xbb; x16 ].
Definition sbox (b : byte) : byte := nth (N.to_nat (Byte.to_N b)) sbox_table x00.
Definition xtime (b : byte) : byte :=
  let n := 2 * Byte.to_N b in byte_of (if n <? 256 then n else N.lxor n 0x11b).
Definition bxor (x y : byte) : byte := byte_of (N.lxor (Byte.to_N x) (Byte.to_N y)).
Fixpoint key_words (n : nat) (rcon : byte) (a b c d : bytes) : list bytes :=
  (a ++ b ++ c ++ d)%list ::
  match n with
  | O => []
  | S n =>
    let t := match d with [p; q; r; s] => [bxor (sbox q) rcon; sbox r; sbox s; sbox p] | _ => d end in
    let a := xor_bytes a t in let b := xor_bytes b a in let c := xor_bytes c b in let d := xor_bytes d c in
    key_words n (xtime rcon) a b c d
  end.
Definition aes_keys (key : bytes) : list bytes :=
  match chunks 4 key with [a; b; c; d] => key_words 10 x01 a b c d | _ => [] end.
Definition shift_rows (s : bytes) : bytes :=
  map (fun i => nth i s x00) [0;5;10;15; 4;9;14;3; 8;13;2;7; 12;1;6;11]%nat.
Definition mix_column (c : bytes) : bytes :=
  match c with
  | [a; b; c; d] =>
    let m x y z w := bxor (bxor (xtime x) (bxor (xtime y) y)) (bxor z w) in
    [m a b c d; m b c d a; m c d a b; m d a b c]
  | _ => c
  end.
Fixpoint aes_rounds (keys : list bytes) (s : bytes) : bytes :=
  match keys with
  | [] => s
  | [k] => xor_bytes (shift_rows (map sbox s)) k
  | k :: keys => aes_rounds keys (xor_bytes (List.concat (map mix_column (chunks 4 (shift_rows (map sbox s))))) k)
  end.
Definition aes_encrypt (keys : list bytes) (block : bytes) : bytes :=
  match keys with k :: keys => aes_rounds keys (xor_bytes block k) | [] => block end.

(** GCM with 96-bit nonces and 128-bit tags (NIST SP 800-38D). *)
Fixpoint gf_mul (n : nat) (x v z : N) : N :=
  match n with
  | O => z
  | S n =>
    let z := if N.testbit x (N.of_nat n) then N.lxor z v else z in
    let v := if N.odd v then N.lxor (N.shiftr v 1) (N.shiftl 0xe1 120) else N.shiftr v 1 in
    gf_mul n x v z
  end.
Definition zero_pad (m : bytes) : bytes := (m ++ repeat x00 ((16 - List.length m mod 16) mod 16))%list.
Definition ghash (hk : N) (m : bytes) : N :=
  fold_left (fun y b => gf_mul 128 (N.lxor y (be_n b)) hk 0) (chunks 16 m) 0.
Definition gctr (keys : list bytes) (nonce : bytes) (m : bytes) : bytes :=
  let fix go ctr bs := match bs with
    | [] => []
    | b :: bs => xor_bytes b (aes_encrypt keys (nonce ++ n_be 4 ctr)) ++ go (ctr + 1) bs
    end%list in go 2 (chunks 16 m).
Definition gcm_tag (keys : list bytes) (nonce aad ct : bytes) : bytes :=
  let hk := be_n (aes_encrypt keys (repeat x00 16)) in
  let s := ghash hk (zero_pad aad ++ zero_pad ct ++ n_be 8 (8 * N.of_nat (List.length aad)) ++ n_be 8 (8 * N.of_nat (List.length ct))) in
  xor_bytes (n_be 16 s) (aes_encrypt keys (nonce ++ n_be 4 1)).
Definition gcm_usable (key nonce : bytes) : bool := (List.length key =? 16)%nat && (List.length nonce =? 12)%nat.
Definition gcm_seal (key nonce pt aad : bytes) : res bytes :=
  if gcm_usable key nonce then
    let keys := aes_keys key in let ct := gctr keys nonce pt in Ok (ct ++ gcm_tag keys nonce aad ct)%list
  else Err RustCryptoError.
Definition gcm_open (key nonce ct aad : bytes) : res bytes :=
  let n := (List.length ct - 16)%nat in
  if gcm_usable key nonce && (16 <=? List.length ct)%nat then
    let keys := aes_keys key in
    if bytes_eqb (gcm_tag keys nonce aad (firstn n ct)) (skipn n ct) then Ok (gctr keys nonce (firstn n ct)) else Err RustCryptoError
  else Err RustCryptoError.

(** Arithmetic modulo 2^255 - 19, with numbers kept below 2^256 and fully reduced only when written out. *)
Local Open Scope Z_scope.
Definition p25519 : Z := 2 ^ 255 - 19.
Definition low255 : Z := 2 ^ 255 - 1.
Definition fold19 (x : Z) : Z := Z.land x low255 + 19 * Z.shiftr x 255.
Definition fmul (x y : Z) : Z := fold19 (fold19 (x * y)).
Definition fadd (x y : Z) : Z := fold19 (x + y).
Definition fsub (x y : Z) : Z := fold19 (x + (4 * p25519 - y)).
Definition fnorm (x : Z) : Z := x mod p25519.
Fixpoint fpow (x : Z) (e : positive) : Z :=
  match e with
  | xH => x
  | xO e => let y := fpow x e in fmul y y
  | xI e => let y := fpow x e in fmul (fmul y y) x
  end.
Definition finv (x : Z) : Z := match p25519 - 2 with Zpos e => fpow x e | _ => 0 end.

(** X25519 (RFC 7748, section 5). *)
Definition clamp (n : N) : N := N.lor (N.land n (N.shiftl (N.ones 251) 3)) (N.shiftl 1 254).
Fixpoint ladder (n : nat) (k : N) (x1 x2 z2 x3 z3 : Z) : Z * Z :=
  match n with
  | O => (x2, z2)
  | S n =>
    let bit := N.testbit k (N.of_nat n) in
    let '(x2, z2, x3, z3) := if bit then (x3, z3, x2, z2) else (x2, z2, x3, z3) in
    let a := fadd x2 z2 in let aa := fmul a a in
    let b := fsub x2 z2 in let bb := fmul b b in
    let e := fsub aa bb in
    let c := fadd x3 z3 in let d := fsub x3 z3 in
    let da := fmul d a in let cb := fmul c b in
    let s := fadd da cb in let t := fsub da cb in
    let x3' := fmul s s in let z3' := fmul x1 (fmul t t) in
    let x2' := fmul aa bb in let z2' := fmul e (fadd aa (fmul 121665 e)) in
    if bit then ladder n k x1 x3' z3' x2' z2' else ladder n k x1 x2' z2' x3' z3'
  end.
Definition x25519 (scalar point : bytes) : bytes :=
  let u := Z.land (Z.of_N (le_n point)) low255 in
  let '(x, z) := ladder 255 (clamp (le_n scalar)) u 1 0 u 1 in
  n_le 32 (Z.to_N (fnorm (fmul x (finv z)))).
Definition base_point : bytes := n_le 32 9.

(** Ed25519 (RFC 8032, section 5.1), points in extended coordinates. *)
Definition point : Type := Z * Z * Z * Z.
Definition ed_d : Z := fnorm (fmul (p25519 - 121665) (finv 121666)).
Definition ed_2d : Z := fnorm (2 * ed_d).
Definition ed_zero : point := (0, 1, 1, 0).
Definition ed_add (p q : point) : point :=
  let '(x1, y1, z1, t1) := p in let '(x2, y2, z2, t2) := q in
  let a := fmul (fsub y1 x1) (fsub y2 x2) in let b := fmul (fadd y1 x1) (fadd y2 x2) in
  let c := fmul (fmul t1 ed_2d) t2 in let d := fmul (fadd z1 z1) z2 in
  let e := fsub b a in let f := fsub d c in let g := fadd d c in let h := fadd b a in
  (fmul e f, fmul g h, fmul f g, fmul e h).
Definition ed_double (p : point) : point :=
  let '(x1, y1, z1, _) := p in
  let a := fmul x1 x1 in let b := fmul y1 y1 in let zz := fmul z1 z1 in let c := fadd zz zz in
  let h := fadd a b in let xy := fadd x1 y1 in let e := fsub h (fmul xy xy) in
  let g := fsub a b in let f := fadd c g in
  (fmul e f, fmul g h, fmul f g, fmul e h).
(** [s * p + t * q], by interleaving. *)
Fixpoint ed_mul2 (n : nat) (s t : N) (p q pq acc : point) : point :=
  match n with
  | O => acc
  | S n =>
    let acc := ed_double acc in
    let acc := match N.testbit s (N.of_nat n), N.testbit t (N.of_nat n) with
      | true, true => ed_add acc pq | true, false => ed_add acc p | false, true => ed_add acc q | false, false => acc end in
    ed_mul2 n s t p q pq acc
  end.
Definition ed_mul (s : N) (p : point) : point := ed_mul2 256 s 0 p ed_zero p ed_zero.
Definition ed_recover (y : Z) (sign : bool) : option Z :=
  let yy := fmul y y in
  let u := fsub yy 1 in let v := fadd (fmul ed_d yy) 1 in
  let v3 := fmul v (fmul v v) in let v7 := fmul v (fmul v3 v3) in
  let r := fmul (fmul u v3) (match (p25519 - 5) / 8 with Zpos e => fpow (fmul u v7) e | _ => 0 end) in
  let c := fnorm (fmul v (fmul r r)) in
  let x := if c =? fnorm u then Some (fnorm r)
    else if c =? fnorm (p25519 - fnorm u) then
      Some (fnorm (fmul r (match (p25519 - 1) / 4 with Zpos e => fpow 2 e | _ => 0 end)))
    else None in
  match x with
  | Some x => if (x =? 0) && sign then None else Some (if Bool.eqb (Z.odd x) sign then x else p25519 - x)
  | None => None
  end.
Definition ed_decode (bs : bytes) : option point :=
  let n := Z.of_N (le_n bs) in
  let y := Z.land n low255 in
  if negb (List.length bs =? 32)%nat || (p25519 <=? y) then None
  else match ed_recover y (Z.testbit n 255) with Some x => Some (x, y, 1, fmul x y) | None => None end.
Definition ed_encode (p : point) : bytes :=
  let '(x, y, z, _) := p in
  let zi := finv z in let x := fnorm (fmul x zi) in let y := fnorm (fmul y zi) in
  n_le 32 (Z.to_N (y + if Z.odd x then 2 ^ 255 else 0)).
Definition ed_order : Z := 2 ^ 252 + 27742317777372353535851937790883648493.
Definition ed_base : point :=
  match ed_decode (hex "5866666666666666666666666666666666666666666666666666666666666666") with Some p => p | None => ed_zero end.
Definition ed_neg (p : point) : point := let '(x, y, z, t) := p in (fsub 0 x, y, z, fsub 0 t).
Definition ed_verify (key msg sig : bytes) : bool :=
  let r := firstn 32 sig in let s := Z.of_N (le_n (skipn 32 sig)) in
  match ed_decode key with
  | Some a =>
    let k := Z.of_N (le_n (sha512 (r ++ key ++ msg))) mod ed_order in
    let na := ed_neg a in
    (List.length sig =? 64)%nat && (s <? ed_order) &&
    bytes_eqb (ed_encode (ed_mul2 256 (Z.to_N s) (Z.to_N k) ed_base na (ed_add ed_base na) ed_zero)) r
  | None => false
  end.
Definition ed_sign (seed msg : bytes) : bytes :=
  let h := sha512 seed in
  let a := clamp (le_n (firstn 32 h)) in
  let pub := ed_encode (ed_mul a ed_base) in
  let r := Z.of_N (le_n (sha512 (skipn 32 h ++ msg))) mod ed_order in
  let rp := ed_encode (ed_mul (Z.to_N r) ed_base) in
  let k := Z.of_N (le_n (sha512 (rp ++ pub ++ msg))) mod ed_order in
  (rp ++ n_le 32 (Z.to_N ((r + k * Z.of_N a) mod ed_order)))%list.
Local Close Scope Z_scope.

(** ChaCha20 and Poly1305 (RFC 8439). *)
Definition add32w (x y : N) : N := N.land (x + y) 0xffffffff.
Definition rotl32 (n x : N) : N := N.lor (N.land (N.shiftl x n) 0xffffffff) (N.shiftr x (32 - n)).
Definition quarter (s : N * N * N * N) : N * N * N * N :=
  let '(a, b, c, d) := s in
  let a := add32w a b in let d := rotl32 16 (N.lxor d a) in
  let c := add32w c d in let b := rotl32 12 (N.lxor b c) in
  let a := add32w a b in let d := rotl32 8 (N.lxor d a) in
  let c := add32w c d in let b := rotl32 7 (N.lxor b c) in
  (a, b, c, d).
Definition double_round (s : list N) : list N :=
  match s with
  | [a0; a1; a2; a3; b0; b1; b2; b3; c0; c1; c2; c3; d0; d1; d2; d3] =>
    let '(a0, b0, c0, d0) := quarter (a0, b0, c0, d0) in let '(a1, b1, c1, d1) := quarter (a1, b1, c1, d1) in
    let '(a2, b2, c2, d2) := quarter (a2, b2, c2, d2) in let '(a3, b3, c3, d3) := quarter (a3, b3, c3, d3) in
    let '(a0, b1, c2, d3) := quarter (a0, b1, c2, d3) in let '(a1, b2, c3, d0) := quarter (a1, b2, c3, d0) in
    let '(a2, b3, c0, d1) := quarter (a2, b3, c0, d1) in let '(a3, b0, c1, d2) := quarter (a3, b0, c1, d2) in
    [a0; a1; a2; a3; b0; b1; b2; b3; c0; c1; c2; c3; d0; d1; d2; d3]
  | _ => s
  end.
Definition chacha_block (key nonce : bytes) (ctr : N) : bytes :=
  let s := ([0x61707865; 0x3320646e; 0x79622d32; 0x6b206574] ++ map le_n (chunks 4 key) ++ ctr :: map le_n (chunks 4 nonce))%list in
  List.concat (map (n_le 4) (map2 add32w s (Nat.iter 10 double_round s))).
Definition chacha (key nonce m : bytes) : bytes :=
  let fix go ctr bs := match bs with
    | [] => []
    | b :: bs => xor_bytes b (chacha_block key nonce ctr) ++ go (ctr + 1) bs
    end%list in go 1 (chunks 64 m).
Definition poly1305 (key m : bytes) : bytes :=
  let r := N.land (le_n (firstn 16 key)) 0x0ffffffc0ffffffc0ffffffc0fffffff in
  let p := 2 ^ 130 - 5 in
  let acc := fold_left (fun a b => ((a + le_n (b ++ [x01])) * r) mod p) (chunks 16 m) 0 in
  n_le 16 (acc + le_n (skipn 16 key)).
Definition chacha_tag (key nonce aad ct : bytes) : bytes :=
  poly1305 (firstn 32 (chacha_block key nonce 0))
    (zero_pad aad ++ zero_pad ct ++ n_le 8 (N.of_nat (List.length aad)) ++ n_le 8 (N.of_nat (List.length ct))).
Definition chacha_usable (key nonce : bytes) : bool := (List.length key =? 32)%nat && (List.length nonce =? 12)%nat.
Definition chacha_seal (key nonce pt aad : bytes) : res bytes :=
  if chacha_usable key nonce then let ct := chacha key nonce pt in Ok (ct ++ chacha_tag key nonce aad ct)%list else Err RustCryptoError.
Definition chacha_open (key nonce ct aad : bytes) : res bytes :=
  let n := (List.length ct - 16)%nat in
  if chacha_usable key nonce && (16 <=? List.length ct)%nat then
    if bytes_eqb (chacha_tag key nonce aad (firstn n ct)) (skipn n ct) then Ok (chacha key nonce (firstn n ct)) else Err RustCryptoError
  else Err RustCryptoError.

(** The AEADs by name. AES-256-GCM belongs to no suite that is served, and is refused. *)
Definition aead_seal (a : aead) : bytes -> bytes -> bytes -> bytes -> res bytes :=
  match a with AES128GCM => gcm_seal | ChaCha20Poly1305 => chacha_seal | AES256GCM => fun _ _ _ _ => Err RustCryptoError end.
Definition aead_open (a : aead) : bytes -> bytes -> bytes -> bytes -> res bytes :=
  match a with AES128GCM => gcm_open | ChaCha20Poly1305 => chacha_open | AES256GCM => fun _ _ _ _ => Err RustCryptoError end.
Definition aead_id (a : aead) : N := match a with AES128GCM => 1 | AES256GCM => 2 | ChaCha20Poly1305 => 3 end.

(** HPKE base mode with DHKEM(X25519, HKDF-SHA256) and HKDF-SHA256 (RFC 9180). *)
Definition text (s : string) : bytes := list_byte_of_string s.
Definition labeled_extract (suite salt : bytes) (label : string) (ikm : bytes) : bytes :=
  hkdf_extract sha256_params salt (text "HPKE-v1" ++ suite ++ text label ++ ikm).
Definition labeled_expand (suite prk : bytes) (label : string) (info : bytes) (len : N) : bytes :=
  match hkdf_expand sha256_params prk (n_be 2 len ++ text "HPKE-v1" ++ suite ++ text label ++ info) len with Some b => b | None => [] end.
Definition kem_id : bytes := (text "KEM" ++ n_be 2 32)%list.
Definition hpke_id (a : aead) : bytes := (text "HPKE" ++ n_be 2 32 ++ n_be 2 1 ++ n_be 2 (aead_id a))%list.
Definition dh_derive (ikm : bytes) : hpke_key_pair :=
  let sk := labeled_expand kem_id (labeled_extract kem_id [] "dkp_prk" ikm) "sk" [] 32 in MkHpkeKeyPair sk (x25519 sk base_point).
Definition dh_shared (dh enc pk : bytes) : bytes :=
  labeled_expand kem_id (labeled_extract kem_id [] "eae_prk" dh) "shared_secret" (enc ++ pk) 32.
Definition hpke_keys (a : aead) (shared info : bytes) : bytes * bytes :=
  let id := hpke_id a in
  let ctx := x00 :: (labeled_extract id [] "psk_id_hash" [] ++ labeled_extract id [] "info_hash" info)%list in
  let secret := labeled_extract id shared "secret" [] in
  (labeled_expand id secret "key" ctx (key_size a), labeled_expand id secret "base_nonce" ctx (nonce_size a)).
Definition hpke_seal (a : aead) (pk info ikm pt : bytes) : res (bytes * bytes) :=
  let e := dh_derive ikm in
  let enc := hkp_public e in
  let '(key, nonce) := hpke_keys a (dh_shared (x25519 (hkp_private e) pk) enc pk) info in
  let* ct := aead_seal a key nonce pt [] in Ok (enc, ct).
Definition hpke_open (a : aead) (sk info enc ct : bytes) : res bytes :=
  let '(key, nonce) := hpke_keys a (dh_shared (x25519 sk enc) enc (x25519 sk base_point)) info in
  aead_open a key nonce ct [].

(** The libraries behind cipher suites 1 and 3; what only other suites use is refused. *)
Definition sha_params (h : hash_scheme) : sha2 := match h with SHA256 => sha256_params | SHA384 => sha384_params | SHA512 => sha512_params end.
Definition real_prims : prims := MkPrims
  (fun h => sha (sha_params h))
  (fun h => hmac (sha_params h))
  (fun h prk => (out_bytes (sha_params h) <=? List.length prk)%nat)
  (fun h => hkdf_expand (sha_params h))
  (fun k ikm => match k with KEM_X25519 => dh_derive ikm | _ => MkHpkeKeyPair [] [] end)
  aead_seal
  (fun a key nonce ct aad => let* pt := aead_open a key nonce ct aad in Ok (pt, skipn (List.length pt) ct))
  (fun s key msg => match s with ED25519 => if (List.length key =? 32)%nat then Some (ed_sign key msg) else None | _ => None end)
  (fun s key msg sig => match s with ED25519 => if ed_verify key msg sig then Ok tt else Err RustCryptoError | _ => Err RustCryptoError end)
  (fun cs pk info ikm pt => match cs with Suite1 => hpke_seal AES128GCM pk info ikm pt | Suite3 => hpke_seal ChaCha20Poly1305 pk info ikm pt | _ => Err RustCryptoError end)
  (fun cs sk info enc ct => match cs with Suite1 => hpke_open AES128GCM sk info enc ct | Suite3 => hpke_open ChaCha20Poly1305 sk info enc ct | _ => Err RustCryptoError end).
(** The bundled provider over these. *)
Definition real_provider : provider := rust_provider real_prims.
