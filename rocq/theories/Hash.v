(** Hash.v - executable SHA-256, SHA-512, HMAC-SHA512, PBKDF2, RIPEMD-160, Keccak-256 and CRC-32,
    written from the standards (FIPS 180-4, FIPS 198-1, RFC 8018, RIPEMD-160 paper, Keccak reference,
    IEEE 802.3). These stand for crypto/sha256, crypto/sha512, crypto/hmac, hash/crc32 and
    golang.org/x/crypto/{ripemd160,sha3,pbkdf2} as imported by bip39/bip39.go:5-16, bip32/bip32.go:3-15,
    bip32/utils.go:3-15, util/key_path.go:3-9, bip39/wordlists/*.go. The general theorems do not depend
    on this file; it makes the model executable for witnesses and test vectors. *)
From Verif Require Import Base Prims.

(** common to the hashes called at bip39/bip39.go:254, 294, bip32/utils.go:22, 32, util/key_path.go:23 *)
Definition M32 : Z := 0xffffffff.
(** common to the hashes called at bip39/bip39.go:254, 294, bip32/utils.go:22, 32, util/key_path.go:23 *)
Definition M64 : Z := 0xffffffffffffffff.

(** Cut a byte list into chunks of n bytes.
    Common to the hashes called at bip39/bip39.go:254, 294, bip32/utils.go:22, 32, util/key_path.go:23. *)
Fixpoint chunks (fuel n : nat) (l : bytes) : list bytes :=
  match fuel with
  | O => []
  | S f => match l with [] => [] | _ => firstn n l :: chunks f n (skipn n l) end
  end.
(** common to the hashes called at bip39/bip39.go:254, 294, bip32/utils.go:22, 32, util/key_path.go:23 *)
Definition chunk (n : nat) (l : bytes) : list bytes := chunks (length l) n l.
(** common to the hashes called at bip39/bip39.go:254, 294, bip32/utils.go:22, 32, util/key_path.go:23 *)
Definition be_words (n : nat) (l : bytes) : list Z := map be_Z (chunk n l).
(** common to the hashes called at bip39/bip39.go:254, 294, bip32/utils.go:22, 32, util/key_path.go:23 *)
Definition le_Z (l : bytes) : Z := be_Z (rev l).
(** common to the hashes called at bip39/bip39.go:254, 294, bip32/utils.go:22, 32, util/key_path.go:23 *)
Definition le_words (n : nat) (l : bytes) : list Z := map le_Z (chunk n l).

(** common to the hashes called at bip39/bip39.go:254, 294, bip32/utils.go:22, 32, util/key_path.go:23 *)
Definition pad_zeros (blk lenb len : nat) : nat :=
  Nat.modulo (blk - Nat.modulo (len + 1 + lenb) blk) blk.
(** common to the hashes called at bip39/bip39.go:254, 294, bip32/utils.go:22, 32, util/key_path.go:23 *)
Definition md_pad (blk lenb : nat) (le : bool) (extra : nat) (m : bytes) : bytes :=
  let bits := 8 * Z.of_nat (extra + length m) in
  let l := Z_be lenb bits in
  m ++ x80 :: repeat x00 (pad_zeros blk lenb (length m)) ++ (if le then rev l else l).

(** ** SHA-2 *)
Section SHA2.
  Variables (bits mask : Z).
  (** SHA-2, for bip39/bip39.go:294, bip32/utils.go:32, bip32/bip32.go:81 *)
  Definition rotr (x n : Z) : Z := Z.lor (Z.shiftr x n) (Z.land (Z.shiftl x (bits - n)) mask).
  Variables (S0 S1 s0 s1 : Z -> Z).
  (** SHA-2, for bip39/bip39.go:294, bip32/utils.go:32, bip32/bip32.go:81 *)
  Fixpoint sched (n : nat) (w : list Z) (* newest first *) : list Z :=
    match n with
    | O => w
    | S k =>
      let x := Z.land (s1 (nth 1 w 0) + nth 6 w 0 + s0 (nth 14 w 0) + nth 15 w 0) mask in
      sched k (x :: w)
    end.
  (** SHA-2, for bip39/bip39.go:294, bip32/utils.go:32, bip32/bip32.go:81 *)
  Fixpoint rnds (ws ks : list Z) (a b c d e f g h : Z) : list Z :=
    match ws, ks with
    | w :: ws, k :: ks =>
      let ch := Z.lxor g (Z.land e (Z.lxor f g)) in
      let maj := Z.lor (Z.land a b) (Z.land c (Z.lor a b)) in
      let t1 := h + S1 e + ch + k + w in
      rnds ws ks (Z.land (t1 + S0 a + maj) mask) a b c (Z.land (d + t1) mask) e f g
    | _, _ => [a; b; c; d; e; f; g; h]
    end.
  (** SHA-2, for bip39/bip39.go:294, bip32/utils.go:32, bip32/bip32.go:81 *)
  Definition compress2 (ks : list Z) (st blk : list Z) : list Z :=
    let w := rev (sched (length ks - 16) (rev blk)) in
    match st with
    | [a; b; c; d; e; f; g; h] =>
      map (fun p => Z.land (fst p + snd p) mask) (combine st (rnds w ks a b c d e f g h))
    | _ => st
    end.
End SHA2.

(** sha256.Sum256, bip39/bip39.go:294, bip32/utils.go:32, 42 *)
Definition K256 : list Z := [0x428a2f98; 0x71374491; 0xb5c0fbcf; 0xe9b5dba5; 0x3956c25b; 0x59f111f1; 
   0x923f82a4; 0xab1c5ed5; 0xd807aa98; 0x12835b01; 0x243185be; 0x550c7dc3; 
   0x72be5d74; 0x80deb1fe; 0x9bdc06a7; 0xc19bf174; 0xe49b69c1; 0xefbe4786; 
   0xfc19dc6; 0x240ca1cc; 0x2de92c6f; 0x4a7484aa; 0x5cb0a9dc; 0x76f988da; 
   0x983e5152; 0xa831c66d; 0xb00327c8; 0xbf597fc7; 0xc6e00bf3; 0xd5a79147; 
   0x6ca6351; 0x14292967; 0x27b70a85; 0x2e1b2138; 0x4d2c6dfc; 0x53380d13; 
   0x650a7354; 0x766a0abb; 0x81c2c92e; 0x92722c85; 0xa2bfe8a1; 0xa81a664b; 
   0xc24b8b70; 0xc76c51a3; 0xd192e819; 0xd6990624; 0xf40e3585; 0x106aa070; 
   0x19a4c116; 0x1e376c08; 0x2748774c; 0x34b0bcb5; 0x391c0cb3; 0x4ed8aa4a; 
   0x5b9cca4f; 0x682e6ff3; 0x748f82ee; 0x78a5636f; 0x84c87814; 0x8cc70208; 
   0x90befffa; 0xa4506ceb; 0xbef9a3f7; 0xc67178f2].
(** sha256.Sum256, bip39/bip39.go:294, bip32/utils.go:32, 42 *)
Definition H256 : list Z := [0x6a09e667; 0xbb67ae85; 0x3c6ef372; 0xa54ff53a; 0x510e527f; 0x9b05688c; 
   0x1f83d9ab; 0x5be0cd19].
(** hmac.New(sha512.New, ...), bip32/bip32.go:81, 190 *)
Definition K512 : list Z := [0x428a2f98d728ae22; 0x7137449123ef65cd; 0xb5c0fbcfec4d3b2f; 0xe9b5dba58189dbbc; 
   0x3956c25bf348b538; 0x59f111f1b605d019; 0x923f82a4af194f9b; 0xab1c5ed5da6d8118; 
   0xd807aa98a3030242; 0x12835b0145706fbe; 0x243185be4ee4b28c; 0x550c7dc3d5ffb4e2; 
   0x72be5d74f27b896f; 0x80deb1fe3b1696b1; 0x9bdc06a725c71235; 0xc19bf174cf692694; 
   0xe49b69c19ef14ad2; 0xefbe4786384f25e3; 0xfc19dc68b8cd5b5; 0x240ca1cc77ac9c65; 
   0x2de92c6f592b0275; 0x4a7484aa6ea6e483; 0x5cb0a9dcbd41fbd4; 0x76f988da831153b5; 
   0x983e5152ee66dfab; 0xa831c66d2db43210; 0xb00327c898fb213f; 0xbf597fc7beef0ee4; 
   0xc6e00bf33da88fc2; 0xd5a79147930aa725; 0x6ca6351e003826f; 0x142929670a0e6e70; 
   0x27b70a8546d22ffc; 0x2e1b21385c26c926; 0x4d2c6dfc5ac42aed; 0x53380d139d95b3df; 
   0x650a73548baf63de; 0x766a0abb3c77b2a8; 0x81c2c92e47edaee6; 0x92722c851482353b; 
   0xa2bfe8a14cf10364; 0xa81a664bbc423001; 0xc24b8b70d0f89791; 0xc76c51a30654be30; 
   0xd192e819d6ef5218; 0xd69906245565a910; 0xf40e35855771202a; 0x106aa07032bbd1b8; 
   0x19a4c116b8d2d0c8; 0x1e376c085141ab53; 0x2748774cdf8eeb99; 0x34b0bcb5e19b48a8; 
   0x391c0cb3c5c95a63; 0x4ed8aa4ae3418acb; 0x5b9cca4f7763e373; 0x682e6ff3d6b2b8a3; 
   0x748f82ee5defb2fc; 0x78a5636f43172f60; 0x84c87814a1f0ab72; 0x8cc702081a6439ec; 
   0x90befffa23631e28; 0xa4506cebde82bde9; 0xbef9a3f7b2c67915; 0xc67178f2e372532b; 
   0xca273eceea26619c; 0xd186b8c721c0c207; 0xeada7dd6cde0eb1e; 0xf57d4f7fee6ed178; 
   0x6f067aa72176fba; 0xa637dc5a2c898a6; 0x113f9804bef90dae; 0x1b710b35131c471b; 
   0x28db77f523047d84; 0x32caab7b40c72493; 0x3c9ebe0a15c9bebc; 0x431d67c49c100d4c; 
   0x4cc5d4becb3e42b6; 0x597f299cfc657e2a; 0x5fcb6fab3ad6faec; 0x6c44198c4a475817
   ].
(** hmac.New(sha512.New, ...), bip32/bip32.go:81, 190 *)
Definition H512 : list Z := [0x6a09e667f3bcc908; 0xbb67ae8584caa73b; 0x3c6ef372fe94f82b; 0xa54ff53a5f1d36f1; 
   0x510e527fade682d1; 0x9b05688c2b3e6c1f; 0x1f83d9abfb41bd6b; 0x5be0cd19137e2179
   ].

(** sha256.Sum256, bip39/bip39.go:294, bip32/utils.go:32, 42 *)
Definition r32 := rotr 32 M32.
(** hmac.New(sha512.New, ...), bip32/bip32.go:81, 190 *)
Definition r64 := rotr 64 M64.
(** sha256.Sum256, bip39/bip39.go:294, bip32/utils.go:32, 42 *)
Definition c256 := compress2 M32
  (fun a => Z.lxor (r32 a 2) (Z.lxor (r32 a 13) (r32 a 22)))
  (fun e => Z.lxor (r32 e 6) (Z.lxor (r32 e 11) (r32 e 25)))
  (fun x => Z.lxor (r32 x 7) (Z.lxor (r32 x 18) (Z.shiftr x 3)))
  (fun x => Z.lxor (r32 x 17) (Z.lxor (r32 x 19) (Z.shiftr x 10))) K256.
(** hmac.New(sha512.New, ...), bip32/bip32.go:81, 190 *)
Definition c512 := compress2 M64
  (fun a => Z.lxor (r64 a 28) (Z.lxor (r64 a 34) (r64 a 39)))
  (fun e => Z.lxor (r64 e 14) (Z.lxor (r64 e 18) (r64 e 41)))
  (fun x => Z.lxor (r64 x 1) (Z.lxor (r64 x 8) (Z.shiftr x 7)))
  (fun x => Z.lxor (r64 x 19) (Z.lxor (r64 x 61) (Z.shiftr x 6))) K512.

(** sha256.Sum256, bip39/bip39.go:294, bip32/utils.go:32, 42 *)
Definition sha256 (m : bytes) : bytes :=
  flat_map (Z_be 4) (fold_left (fun st b => c256 st (be_words 4 b)) (chunk 64 (md_pad 64 8 false 0 m)) H256).
(** SHA-512 continued from state [st] after [extra] bytes (a multiple of 128) were absorbed.
    Hmac.New(sha512.New, ...), bip32/bip32.go:81, 190. *)
Definition sha512_from (st : list Z) (extra : nat) (m : bytes) : list Z :=
  fold_left (fun st b => c512 st (be_words 8 b)) (chunk 128 (md_pad 128 16 false extra m)) st.
(** hmac.New(sha512.New, ...), bip32/bip32.go:81, 190 *)
Definition sha512 (m : bytes) : bytes := flat_map (Z_be 8) (sha512_from H512 0 m).

(** ** HMAC-SHA512 and PBKDF2 (2048 iterations, 64 bytes: one block) *)
(** hmac.New(sha512.New, ...), bip32/bip32.go:81, 190 *)
Definition hmac_key (k : bytes) : bytes :=
  let k' := if (128 <? Z.of_nat (length k)) then sha512 k else k in
  k' ++ repeat x00 (128 - length k').
(** hmac.New(sha512.New, ...), bip32/bip32.go:81, 190 *)
Definition xor_pad (k : bytes) (p : Z) : bytes := map (fun b => bZ (Z.lxor (Zb b) p)) k.
(** hmac.New(sha512.New, ...), bip32/bip32.go:81, 190 *)
Definition hmac_mid (k : bytes) (p : Z) : list Z := c512 H512 (be_words 8 (xor_pad (hmac_key k) p)).
(** hmac.New(sha512.New, ...), bip32/bip32.go:81, 190 *)
Definition hmac_with (i o : list Z) (m : bytes) : bytes :=
  flat_map (Z_be 8) (sha512_from o 128 (flat_map (Z_be 8) (sha512_from i 128 m))).
(** hmac.New(sha512.New, ...), bip32/bip32.go:81, 190 *)
Definition hmac512 (k m : bytes) : bytes := hmac_with (hmac_mid k 0x36) (hmac_mid k 0x5c) m.

(** Later iterations work on eight 64-bit words: the padded block of a 64-byte message after one
    128-byte block is fixed. Pbkdf2.Key, bip39/bip39.go:254. *)
Definition tail512 : list Z := [0x8000000000000000; 0; 0; 0; 0; 0; 0; 1536].
(** pbkdf2.Key, bip39/bip39.go:254 *)
Definition hmac_words (i o : list Z) (u : list Z) : list Z := c512 o (c512 i (u ++ tail512) ++ tail512).
(** pbkdf2.Key, bip39/bip39.go:254 *)
Fixpoint pbkdf2_loop (n : nat) (i o u acc : list Z) : list Z :=
  match n with
  | O => acc
  | S k =>
    let u := hmac_words i o u in
    pbkdf2_loop k i o u (map (fun p => Z.lxor (fst p) (snd p)) (combine acc u))
  end.
(** pbkdf2.Key, bip39/bip39.go:254 *)
Definition pbkdf2_iter (n : nat) (pw salt : bytes) : bytes :=
  let i := hmac_mid pw 0x36 in
  let o := hmac_mid pw 0x5c in
  let u := be_words 8 (hmac_with i o (salt ++ Z_be 4 1)) in
  flat_map (Z_be 8) (pbkdf2_loop (n - 1) i o u u).
(** pbkdf2.Key, bip39/bip39.go:254 *)
Definition pbkdf2 (pw salt : bytes) : bytes := pbkdf2_iter 2048 pw salt.

(** ** RIPEMD-160 *)
(** ripemd160.New, bip32/utils.go:21-28 *)
Definition rol32 (x n : Z) : Z := Z.lor (Z.land (Z.shiftl x n) M32) (Z.shiftr x (32 - n)).
(** ripemd160.New, bip32/utils.go:21-28 *)
Definition not32 (x : Z) : Z := Z.lxor x M32.
(** ripemd160.New, bip32/utils.go:21-28 *)
Definition rmd_f (j : nat) (x y z : Z) : Z :=
  match j with
  | 0%nat => Z.lxor x (Z.lxor y z)
  | 1%nat => Z.lor (Z.land x y) (Z.land (not32 x) z)
  | 2%nat => Z.lxor (Z.lor x (not32 y)) z
  | 3%nat => Z.lor (Z.land x z) (Z.land y (not32 z))
  | _ => Z.lxor x (Z.lor y (not32 z))
  end.
(** (function, constant, word, shift) for the 80 steps of each line. Ripemd160.New, bip32/utils.go:21-28. *)
Definition rmd_left : list (nat * Z * nat * Z) := [(0%nat, 0x0, 0%nat, 11); (0%nat, 0x0, 1%nat, 14); (0%nat, 0x0, 2%nat, 15); (0%nat, 0x0, 3%nat, 12); 
   (0%nat, 0x0, 4%nat, 5); (0%nat, 0x0, 5%nat, 8); (0%nat, 0x0, 6%nat, 7); (0%nat, 0x0, 7%nat, 9); 
   (0%nat, 0x0, 8%nat, 11); (0%nat, 0x0, 9%nat, 13); (0%nat, 0x0, 10%nat, 14); (0%nat, 0x0, 11%nat, 15); 
   (0%nat, 0x0, 12%nat, 6); (0%nat, 0x0, 13%nat, 7); (0%nat, 0x0, 14%nat, 9); (0%nat, 0x0, 15%nat, 8); 
   (1%nat, 0x5a827999, 7%nat, 7); (1%nat, 0x5a827999, 4%nat, 6); (1%nat, 0x5a827999, 13%nat, 8); (1%nat, 0x5a827999, 1%nat, 13); 
   (1%nat, 0x5a827999, 10%nat, 11); (1%nat, 0x5a827999, 6%nat, 9); (1%nat, 0x5a827999, 15%nat, 7); (1%nat, 0x5a827999, 3%nat, 15); 
   (1%nat, 0x5a827999, 12%nat, 7); (1%nat, 0x5a827999, 0%nat, 12); (1%nat, 0x5a827999, 9%nat, 15); (1%nat, 0x5a827999, 5%nat, 9); 
   (1%nat, 0x5a827999, 2%nat, 11); (1%nat, 0x5a827999, 14%nat, 7); (1%nat, 0x5a827999, 11%nat, 13); (1%nat, 0x5a827999, 8%nat, 12); 
   (2%nat, 0x6ed9eba1, 3%nat, 11); (2%nat, 0x6ed9eba1, 10%nat, 13); (2%nat, 0x6ed9eba1, 14%nat, 6); (2%nat, 0x6ed9eba1, 4%nat, 7); 
   (2%nat, 0x6ed9eba1, 9%nat, 14); (2%nat, 0x6ed9eba1, 15%nat, 9); (2%nat, 0x6ed9eba1, 8%nat, 13); (2%nat, 0x6ed9eba1, 1%nat, 15); 
   (2%nat, 0x6ed9eba1, 2%nat, 14); (2%nat, 0x6ed9eba1, 7%nat, 8); (2%nat, 0x6ed9eba1, 0%nat, 13); (2%nat, 0x6ed9eba1, 6%nat, 6); 
   (2%nat, 0x6ed9eba1, 13%nat, 5); (2%nat, 0x6ed9eba1, 11%nat, 12); (2%nat, 0x6ed9eba1, 5%nat, 7); (2%nat, 0x6ed9eba1, 12%nat, 5); 
   (3%nat, 0x8f1bbcdc, 1%nat, 11); (3%nat, 0x8f1bbcdc, 9%nat, 12); (3%nat, 0x8f1bbcdc, 11%nat, 14); (3%nat, 0x8f1bbcdc, 10%nat, 15); 
   (3%nat, 0x8f1bbcdc, 0%nat, 14); (3%nat, 0x8f1bbcdc, 8%nat, 15); (3%nat, 0x8f1bbcdc, 12%nat, 9); (3%nat, 0x8f1bbcdc, 4%nat, 8); 
   (3%nat, 0x8f1bbcdc, 13%nat, 9); (3%nat, 0x8f1bbcdc, 3%nat, 14); (3%nat, 0x8f1bbcdc, 7%nat, 5); (3%nat, 0x8f1bbcdc, 15%nat, 6); 
   (3%nat, 0x8f1bbcdc, 14%nat, 8); (3%nat, 0x8f1bbcdc, 5%nat, 6); (3%nat, 0x8f1bbcdc, 6%nat, 5); (3%nat, 0x8f1bbcdc, 2%nat, 12); 
   (4%nat, 0xa953fd4e, 4%nat, 9); (4%nat, 0xa953fd4e, 0%nat, 15); (4%nat, 0xa953fd4e, 5%nat, 5); (4%nat, 0xa953fd4e, 9%nat, 11); 
   (4%nat, 0xa953fd4e, 7%nat, 6); (4%nat, 0xa953fd4e, 12%nat, 8); (4%nat, 0xa953fd4e, 2%nat, 13); (4%nat, 0xa953fd4e, 10%nat, 12); 
   (4%nat, 0xa953fd4e, 14%nat, 5); (4%nat, 0xa953fd4e, 1%nat, 12); (4%nat, 0xa953fd4e, 3%nat, 13); (4%nat, 0xa953fd4e, 8%nat, 14); 
   (4%nat, 0xa953fd4e, 11%nat, 11); (4%nat, 0xa953fd4e, 6%nat, 8); (4%nat, 0xa953fd4e, 15%nat, 5); (4%nat, 0xa953fd4e, 13%nat, 6)
   ].
(** ripemd160.New, bip32/utils.go:21-28 *)
Definition rmd_right : list (nat * Z * nat * Z) := [(4%nat, 0x50a28be6, 5%nat, 8); (4%nat, 0x50a28be6, 14%nat, 9); (4%nat, 0x50a28be6, 7%nat, 9); (4%nat, 0x50a28be6, 0%nat, 11); 
   (4%nat, 0x50a28be6, 9%nat, 13); (4%nat, 0x50a28be6, 2%nat, 15); (4%nat, 0x50a28be6, 11%nat, 15); (4%nat, 0x50a28be6, 4%nat, 5); 
   (4%nat, 0x50a28be6, 13%nat, 7); (4%nat, 0x50a28be6, 6%nat, 7); (4%nat, 0x50a28be6, 15%nat, 8); (4%nat, 0x50a28be6, 8%nat, 11); 
   (4%nat, 0x50a28be6, 1%nat, 14); (4%nat, 0x50a28be6, 10%nat, 14); (4%nat, 0x50a28be6, 3%nat, 12); (4%nat, 0x50a28be6, 12%nat, 6); 
   (3%nat, 0x5c4dd124, 6%nat, 9); (3%nat, 0x5c4dd124, 11%nat, 13); (3%nat, 0x5c4dd124, 3%nat, 15); (3%nat, 0x5c4dd124, 7%nat, 7); 
   (3%nat, 0x5c4dd124, 0%nat, 12); (3%nat, 0x5c4dd124, 13%nat, 8); (3%nat, 0x5c4dd124, 5%nat, 9); (3%nat, 0x5c4dd124, 10%nat, 11); 
   (3%nat, 0x5c4dd124, 14%nat, 7); (3%nat, 0x5c4dd124, 15%nat, 7); (3%nat, 0x5c4dd124, 8%nat, 12); (3%nat, 0x5c4dd124, 12%nat, 7); 
   (3%nat, 0x5c4dd124, 4%nat, 6); (3%nat, 0x5c4dd124, 9%nat, 15); (3%nat, 0x5c4dd124, 1%nat, 13); (3%nat, 0x5c4dd124, 2%nat, 11); 
   (2%nat, 0x6d703ef3, 15%nat, 9); (2%nat, 0x6d703ef3, 5%nat, 7); (2%nat, 0x6d703ef3, 1%nat, 15); (2%nat, 0x6d703ef3, 3%nat, 11); 
   (2%nat, 0x6d703ef3, 7%nat, 8); (2%nat, 0x6d703ef3, 14%nat, 6); (2%nat, 0x6d703ef3, 6%nat, 6); (2%nat, 0x6d703ef3, 9%nat, 14); 
   (2%nat, 0x6d703ef3, 11%nat, 12); (2%nat, 0x6d703ef3, 8%nat, 13); (2%nat, 0x6d703ef3, 12%nat, 5); (2%nat, 0x6d703ef3, 2%nat, 14); 
   (2%nat, 0x6d703ef3, 10%nat, 13); (2%nat, 0x6d703ef3, 0%nat, 13); (2%nat, 0x6d703ef3, 4%nat, 7); (2%nat, 0x6d703ef3, 13%nat, 5); 
   (1%nat, 0x7a6d76e9, 8%nat, 15); (1%nat, 0x7a6d76e9, 6%nat, 5); (1%nat, 0x7a6d76e9, 4%nat, 8); (1%nat, 0x7a6d76e9, 1%nat, 11); 
   (1%nat, 0x7a6d76e9, 3%nat, 14); (1%nat, 0x7a6d76e9, 11%nat, 14); (1%nat, 0x7a6d76e9, 15%nat, 6); (1%nat, 0x7a6d76e9, 0%nat, 14); 
   (1%nat, 0x7a6d76e9, 5%nat, 6); (1%nat, 0x7a6d76e9, 12%nat, 9); (1%nat, 0x7a6d76e9, 2%nat, 12); (1%nat, 0x7a6d76e9, 13%nat, 9); 
   (1%nat, 0x7a6d76e9, 9%nat, 12); (1%nat, 0x7a6d76e9, 7%nat, 5); (1%nat, 0x7a6d76e9, 10%nat, 15); (1%nat, 0x7a6d76e9, 14%nat, 8); 
   (0%nat, 0x0, 12%nat, 8); (0%nat, 0x0, 15%nat, 5); (0%nat, 0x0, 10%nat, 12); (0%nat, 0x0, 4%nat, 9); 
   (0%nat, 0x0, 1%nat, 12); (0%nat, 0x0, 5%nat, 5); (0%nat, 0x0, 8%nat, 14); (0%nat, 0x0, 7%nat, 6); 
   (0%nat, 0x0, 6%nat, 8); (0%nat, 0x0, 2%nat, 13); (0%nat, 0x0, 13%nat, 6); (0%nat, 0x0, 14%nat, 5); 
   (0%nat, 0x0, 0%nat, 15); (0%nat, 0x0, 3%nat, 13); (0%nat, 0x0, 9%nat, 11); (0%nat, 0x0, 11%nat, 11)
   ].
(** ripemd160.New, bip32/utils.go:21-28 *)
Fixpoint rmd_line (steps : list (nat * Z * nat * Z)) (w : list Z) (a b c d e : Z) : Z * Z * Z * Z * Z :=
  match steps with
  | [] => (a, b, c, d, e)
  | (f, k, r, s) :: steps =>
    let t := Z.land (rol32 (Z.land (a + rmd_f f b c d + nth r w 0 + k) M32) s + e) M32 in
    rmd_line steps w e t b (rol32 c 10) d
  end.
(** ripemd160.New, bip32/utils.go:21-28 *)
Definition rmd_compress (st w : list Z) : list Z :=
  match st with
  | [h0; h1; h2; h3; h4] =>
    let '(a, b, c, d, e) := rmd_line rmd_left w h0 h1 h2 h3 h4 in
    let '(a', b', c', d', e') := rmd_line rmd_right w h0 h1 h2 h3 h4 in
    [Z.land (h1 + c + d') M32; Z.land (h2 + d + e') M32; Z.land (h3 + e + a') M32;
     Z.land (h4 + a + b') M32; Z.land (h0 + b + c') M32]
  | _ => st
  end.
(** ripemd160.New, bip32/utils.go:21-28 *)
Definition ripemd160 (m : bytes) : bytes :=
  flat_map (fun x => rev (Z_be 4 x))
    (fold_left (fun st b => rmd_compress st (le_words 4 b)) (chunk 64 (md_pad 64 8 true 0 m))
       [0x67452301; 0xefcdab89; 0x98badcfe; 0x10325476; 0xc3d2e1f0]).

(** ** Keccak-256 (legacy padding 0x01) *)
(** sha3.NewLegacyKeccak256, util/key_path.go:23-25 *)
Definition rol64 (x n : Z) : Z := Z.lor (Z.land (Z.shiftl x n) M64) (Z.shiftr x (64 - n)).
(** sha3.NewLegacyKeccak256, util/key_path.go:23-25 *)
Definition keccak_rc : list Z := [0x1; 0x8082; 0x800000000000808a; 0x8000000080008000; 
   0x808b; 0x80000001; 0x8000000080008081; 0x8000000000008009; 
   0x8a; 0x88; 0x80008009; 0x8000000a; 
   0x8000808b; 0x800000000000008b; 0x8000000000008089; 0x8000000000008003; 
   0x8000000000008002; 0x8000000000000080; 0x800a; 0x800000008000000a; 
   0x8000000080008081; 0x8000000000008080; 0x80000001; 0x8000000080008008
   ].
(** sha3.NewLegacyKeccak256, util/key_path.go:23-25 *)
Definition keccak_rho : list Z := [0; 1; 62; 28; 27; 36; 44; 6; 55; 20; 3; 10; 43; 25; 39; 41; 45; 15; 21; 8; 18; 2; 61; 56; 14].
(** sha3.NewLegacyKeccak256, util/key_path.go:23-25 *)
Definition keccak_src : list nat := [0; 6; 12; 18; 24; 3; 9; 10; 16; 22; 1; 7; 13; 19; 20; 4; 5; 11; 17; 23; 2; 8; 14; 15; 21]%nat.
(** sha3.NewLegacyKeccak256, util/key_path.go:23-25 *)
Definition keccak_round (rc : Z) (a : list Z) : list Z :=
  let at_ x y := nth (x + 5 * y)%nat a 0 in
  let c := map (fun x => Z.lxor (at_ x 0) (Z.lxor (at_ x 1) (Z.lxor (at_ x 2) (Z.lxor (at_ x 3) (at_ x 4)))))%nat
               [0; 1; 2; 3; 4]%nat in
  let d := map (fun x => Z.lxor (nth (Nat.modulo (x + 4) 5) c 0) (rol64 (nth (Nat.modulo (x + 1) 5) c 0) 1))
               [0; 1; 2; 3; 4]%nat in
  let t := map (fun p => Z.lxor (fst p) (nth (Nat.modulo (snd p) 5) d 0)) (combine a (seq 0 25)) in
  let r := map (fun p => rol64 (fst p) (snd p)) (combine t keccak_rho) in
  let b := map (fun i => nth i r 0) keccak_src in
  let chi i :=
    let x := Nat.modulo i 5 in let y5 := (i - x)%nat in
    Z.lxor (nth i b 0) (Z.land (Z.lxor (nth (Nat.modulo (x + 1) 5 + y5) b 0) M64) (nth (Nat.modulo (x + 2) 5 + y5) b 0)) in
  match map chi (seq 0 25) with
  | h :: r => Z.lxor h rc :: r
  | [] => []
  end.
(** sha3.NewLegacyKeccak256, util/key_path.go:23-25 *)
Definition keccak_f (a : list Z) : list Z := fold_left (fun a rc => keccak_round rc a) keccak_rc a.
(** sha3.NewLegacyKeccak256, util/key_path.go:23-25 *)
Definition keccak_pad (m : bytes) : bytes :=
  let q := (136 - Nat.modulo (length m) 136)%nat in
  match q with
  | 1%nat => m ++ [x81]
  | _ => m ++ x01 :: repeat x00 (q - 2) ++ [x80]
  end.
(** sha3.NewLegacyKeccak256, util/key_path.go:23-25 *)
Definition keccak_absorb (st : list Z) (blk : bytes) : list Z :=
  keccak_f (map (fun p => Z.lxor (fst p) (snd p)) (combine st (le_words 8 blk ++ repeat 0 8))).
(** sha3.NewLegacyKeccak256, util/key_path.go:23-25 *)
Definition keccak256 (m : bytes) : bytes :=
  firstn 32 (flat_map (fun x => rev (Z_be 8 x))
    (fold_left keccak_absorb (chunk 136 (keccak_pad m)) (repeat 0 25))).

(** ** CRC-32 (IEEE), as hash/crc32.ChecksumIEEE *)
(** crc32.ChecksumIEEE, bip39/wordlists/english.go:14 (others alike) *)
Fixpoint crc_bits (n : nat) (c : Z) : Z :=
  match n with
  | O => c
  | S k => crc_bits k (if Z.odd c then Z.lxor (Z.shiftr c 1) 0xedb88320 else Z.shiftr c 1)
  end.
(** crc32.ChecksumIEEE, bip39/wordlists/english.go:14 (others alike) *)
Definition crc32 (m : bytes) : Z :=
  Z.lxor (fold_left (fun c b => crc_bits 8 (Z.lxor c (Zb b))) m M32) M32.

(** the calls at bip39/bip39.go:254, 294, bip32/bip32.go:81, 190, bip32/utils.go:22, 32, util/key_path.go:23 *)
Definition RealPrims : Prims := {|
  p_sha256 := sha256; p_ripemd160 := ripemd160; p_hmac512 := hmac512;
  p_keccak256 := keccak256; p_pbkdf2 := pbkdf2 |}.
