(** SpecHash.v - the hash functions the library calls, as their standards define them: SHA-256 and
    SHA-512 (FIPS 180-4), HMAC (RFC 2104), PBKDF2 (RFC 8018), RIPEMD-160 (Dobbertin, Bosselaers, Preneel
    1996) and Keccak-256 with the padding of the original submission. Nothing here uses Hash.v. *)
From Coq Require Import Znumtheory.
From Verif Require Import Base.

(** ** Constants from roots of primes *)
(** [p] is the prime with exactly [t] primes below it. For the constants of sha256 and sha512, called at
    bip39/bip39.go:294, bip32/utils.go:32, bip32/bip32.go:81. *)
Definition nth_prime (t : nat) (p : Z) : Prop :=
  prime p /\ exists l, NoDup l /\ length l = t /\ forall q, In q l <-> prime q /\ q < p.
(** the whole part of the [d]-th root of [n]: RIPEMD-160's constants (bip32/utils.go:22) and below *)
Definition whole_root (d n c : Z) : Prop := 0 <= c /\ c ^ d <= n < (c + 1) ^ d.
(** the first [w] bits of the fractional part of the [d]-th root of [p] (FIPS 180-4, 4.2.2, 4.2.3, 5.3.3,
    5.3.5). bip39/bip39.go:294, bip32/bip32.go:81. *)
Definition frac_root (d p w k : Z) : Prop := exists c, whole_root d (p * 2 ^ (d * w)) c /\ k = c mod 2 ^ w.

(** ** SHA-2 (FIPS 180-4) *)
(** ROTR, section 3.2: bip39/bip39.go:294, bip32/bip32.go:81 *)
Definition ROTR (w n x : Z) : Z := Z.lor (x / 2 ^ n) ((x * 2 ^ (w - n)) mod 2 ^ w).
(** Ch, section 4.1: bip39/bip39.go:294, bip32/bip32.go:81 *)
Definition Ch (w x y z : Z) : Z := Z.lxor (Z.land x y) (Z.land (2 ^ w - 1 - x) z).
(** Maj, section 4.1: bip39/bip39.go:294, bip32/bip32.go:81 *)
Definition Maj (x y z : Z) : Z := Z.lxor (Z.lxor (Z.land x y) (Z.land x z)) (Z.land y z).
(** Word size in bits and bytes, block and length-field size in bytes, number of rounds, the amounts of
    the four sigma functions. bip39/bip39.go:294, bip32/bip32.go:81. *)
Record sha2 := mkSha2 { w_bits : Z; w_bytes : nat; blk_bytes : nat; len_bytes : nat; rounds : nat;
  Sig0 : Z * Z * Z; Sig1 : Z * Z * Z; sg0 : Z * Z * Z; sg1 : Z * Z * Z }.
(** SHA-256, section 4.1.2: bip39/bip39.go:294, bip32/utils.go:32, 42 *)
Definition FIPS256 : sha2 := mkSha2 32 4 64 8 64 (2, 13, 22) (6, 11, 25) (7, 18, 3) (17, 19, 10).
(** SHA-512, section 4.1.3: bip32/bip32.go:81, 190, bip39/bip39.go:254 *)
Definition FIPS512 : sha2 := mkSha2 64 8 128 16 80 (28, 34, 39) (14, 18, 41) (1, 8, 7) (19, 61, 6).
(** upper-case sigma: three rotations. bip39/bip39.go:294, bip32/bip32.go:81. *)
Definition Sigma (w : Z) (r : Z * Z * Z) (x : Z) : Z :=
  let '(i, j, k) := r in Z.lxor (Z.lxor (ROTR w i x) (ROTR w j x)) (ROTR w k x).
(** lower-case sigma: two rotations and a shift. bip39/bip39.go:294, bip32/bip32.go:81. *)
Definition sigma (w : Z) (r : Z * Z * Z) (x : Z) : Z :=
  let '(i, j, k) := r in Z.lxor (Z.lxor (ROTR w i x) (ROTR w j x)) (x / 2 ^ k).
(** the [i]-th big-endian word of [n] bytes. bip39/bip39.go:294, bip32/bip32.go:81. *)
Definition word_be (n : nat) (b : bytes) (i : nat) : Z := be_Z (firstn n (skipn (n * i) b)).
(** the message schedule, sections 6.2.2 and 6.4.2, step 1: bip39/bip39.go:294, bip32/bip32.go:81 *)
Definition schedule (s : sha2) (M : bytes) (W : nat -> Z) : Prop :=
  (forall t, (t < 16)%nat -> W t = word_be (w_bytes s) M t) /\
  (forall t, (16 <= t < rounds s)%nat ->
     W t = (sigma (w_bits s) (sg1 s) (W (t - 2)%nat) + W (t - 7)%nat +
            sigma (w_bits s) (sg0 s) (W (t - 15)%nat) + W (t - 16)%nat) mod 2 ^ w_bits s).
(** steps 2 to 4: the working variables from round to round, and the new hash value.
    bip39/bip39.go:294, bip32/bip32.go:81. *)
Definition one_block (s : sha2) (K : nat -> Z) (H : nat -> Z) (M : bytes) (H' : nat -> Z) : Prop :=
  exists W a b c d e f g h : nat -> Z,
    schedule s M W /\
    a O = H 0%nat /\ b O = H 1%nat /\ c O = H 2%nat /\ d O = H 3%nat /\
    e O = H 4%nat /\ f O = H 5%nat /\ g O = H 6%nat /\ h O = H 7%nat /\
    (forall t, (t < rounds s)%nat ->
       let w := w_bits s in
       let T1 := h t + Sigma w (Sig1 s) (e t) + Ch w (e t) (f t) (g t) + K t + W t in
       let T2 := Sigma w (Sig0 s) (a t) + Maj (a t) (b t) (c t) in
       h (S t) = g t /\ g (S t) = f t /\ f (S t) = e t /\ e (S t) = (d t + T1) mod 2 ^ w /\
       d (S t) = c t /\ c (S t) = b t /\ b (S t) = a t /\ a (S t) = (T1 + T2) mod 2 ^ w) /\
    (forall i, (i < 8)%nat ->
       H' i = (nth i [a (rounds s); b (rounds s); c (rounds s); d (rounds s);
                      e (rounds s); f (rounds s); g (rounds s); h (rounds s)] 0 + H i) mod 2 ^ w_bits s).
(** Padding, section 5.1, for messages of whole bytes: a one bit, the fewest zero bits, the length in bits.
    [le] is for RIPEMD-160, which writes the length with the low byte first.
    bip39/bip39.go:294, bip32/utils.go:22, bip32/bip32.go:81. *)
Definition padded (blk lenb : nat) (le : bool) (m P : bytes) : Prop :=
  exists k, let L := Z_be lenb (8 * Z.of_nat (length m)) in
    P = m ++ [x80] ++ repeat x00 k ++ (if le then rev L else L) /\
    (length P mod blk = 0)%nat /\
    (forall k', (k' < k)%nat -> (length m + 1 + k' + lenb) mod blk <> 0)%nat.
(** Sections 6.2 and 6.4: [dg] is the digest of [m], with round constants [K] and initial value [IV].
    bip39/bip39.go:294, bip32/utils.go:32, 42, bip32/bip32.go:81. *)
Definition sha2_digest (s : sha2) (K IV : nat -> Z) (m dg : bytes) : Prop :=
  exists P (H : nat -> nat -> Z) (N : nat),
    padded (blk_bytes s) (len_bytes s) false m P /\ length P = (N * blk_bytes s)%nat /\
    (forall i, (i < 8)%nat -> H O i = IV i) /\
    (forall j, (j < N)%nat -> one_block s K (H j) (firstn (blk_bytes s) (skipn (j * blk_bytes s) P)) (H (S j))) /\
    dg = flat_map (fun i => Z_be (w_bytes s) (H N i)) (seq 0 8).
(** the constants: cube roots of the first primes for the rounds, square roots for the initial value.
    bip39/bip39.go:294, bip32/utils.go:32, 42, bip32/bip32.go:81. *)
Definition sha2_constants (s : sha2) (K IV : nat -> Z) : Prop :=
  (forall t, (t < rounds s)%nat -> exists p, nth_prime t p /\ frac_root 3 p (w_bits s) (K t)) /\
  (forall i, (i < 8)%nat -> exists p, nth_prime i p /\ frac_root 2 p (w_bits s) (IV i)).

(** ** HMAC (RFC 2104) and PBKDF2 (RFC 8018) *)
(** bytewise exclusive or: bip32/bip32.go:81, bip39/bip39.go:254 *)
Definition xor_bytes (a b : bytes) : bytes := map (fun p => bZ (Z.lxor (Zb (fst p)) (Zb (snd p)))) (combine a b).
(** HMAC of a hash [h] with blocks of [blk] bytes: bip32/bip32.go:81, 190, bip39/bip39.go:254 *)
Definition HMAC (h : bytes -> bytes) (blk : nat) (key m : bytes) : bytes :=
  let k := if (blk <? length key)%nat then h key else key in
  let K := k ++ repeat x00 (blk - length k) in
  h (xor_bytes K (repeat x5c blk) ++ h (xor_bytes K (repeat x36 blk) ++ m)).
(** U_1 = PRF(P, S || INT(i)), U_(n+1) = PRF(P, U_n); [U_iter _ _ _ _ n] is U_(n+1). bip39/bip39.go:254. *)
Fixpoint U_iter (prf : bytes -> bytes -> bytes) (pw salt : bytes) (i : Z) (n : nat) : bytes :=
  match n with
  | O => prf pw (salt ++ Z_be 4 i)
  | S n => prf pw (U_iter prf pw salt i n)
  end.
(** F(P, S, c, i) = U_1 xor ... xor U_c: bip39/bip39.go:254 *)
Definition F_block (prf : bytes -> bytes -> bytes) (pw salt : bytes) (c : nat) (i : Z) : bytes :=
  fold_left (fun acc n => xor_bytes acc (U_iter prf pw salt i n)) (seq 1 (c - 1)) (U_iter prf pw salt i 0).
(** T_1 || T_2 || ..., cut to [dk] bytes; [hl] is the output length of the PRF. bip39/bip39.go:254. *)
Definition PBKDF2 (prf : bytes -> bytes -> bytes) (hl : nat) (pw salt : bytes) (c dk : nat) : bytes :=
  firstn dk (flat_map (fun i => F_block prf pw salt c (Z.of_nat i)) (seq 1 ((dk + hl - 1) / hl)%nat)).

(** ** RIPEMD-160 *)
(** the permutation rho of the words: bip32/utils.go:22 *)
Definition rmd_rho (i : nat) : nat := nth i [7; 4; 13; 1; 10; 6; 15; 3; 12; 0; 9; 5; 2; 14; 11; 8]%nat O.
(** the permutation pi of the words: bip32/utils.go:22 *)
Definition rmd_pi (i : nat) : nat := ((9 * i + 5) mod 16)%nat.
(** word of step [j] in the left line: bip32/utils.go:22 *)
Definition r_left (j : nat) : nat := Nat.iter (j / 16)%nat rmd_rho (j mod 16)%nat.
(** word of step [j] in the right line: bip32/utils.go:22 *)
Definition r_right (j : nat) : nat := Nat.iter (j / 16)%nat rmd_rho (rmd_pi (j mod 16)%nat).
(** the shifts, by round and word: bip32/utils.go:22 *)
Definition shifts : list (list Z) :=
  [[11; 14; 15; 12;  5;  8;  7;  9; 11; 13; 14; 15;  6;  7;  9;  8];
   [12; 13; 11; 15;  6;  9;  9;  7; 12; 15; 11; 13;  7;  8;  7;  7];
   [13; 15; 14; 11;  7;  7;  6;  8; 13; 14; 13; 12;  5;  5;  6;  9];
   [14; 11; 12; 14;  8;  6;  5;  5; 15; 12; 15; 14;  9;  9;  8;  6];
   [15; 12; 13; 13;  9;  5;  8;  6; 14; 11; 12; 11;  8;  6;  5;  5]].
(** shift of a step of round [j / 16] on word [r]: bip32/utils.go:22 *)
Definition shift (j r : nat) : Z := nth r (nth (j / 16)%nat shifts []) 0.
(** the added constants: square roots of 2, 3, 5, 7 on the left, cube roots on the right, times 2^30.
    bip32/utils.go:22. *)
Definition rmd_constants (K K' : nat -> Z) : Prop :=
  (forall j, (j < 16)%nat -> K j = 0) /\ (forall j, (64 <= j < 80)%nat -> K' j = 0) /\
  (forall j, (j < 64)%nat -> exists p, nth_prime (j / 16)%nat p /\
     whole_root 2 (p * 2 ^ 60) (K (16 + j)%nat) /\ whole_root 3 (p * 2 ^ 90) (K' j)).
(** complement of a 32-bit word: bip32/utils.go:22 *)
Definition neg32 (x : Z) : Z := 2 ^ 32 - 1 - x.
(** the five Boolean functions: bip32/utils.go:22 *)
Definition rmd_bool (j : nat) (x y z : Z) : Z :=
  nth (j / 16)%nat [Z.lxor (Z.lxor x y) z;
                Z.lor (Z.land x y) (Z.land (neg32 x) z);
                Z.lxor (Z.lor x (neg32 y)) z;
                Z.lor (Z.land x z) (Z.land y (neg32 z));
                Z.lxor x (Z.lor y (neg32 z))] 0.
(** rotation to the left of a word of [w] bits: bip32/utils.go:22, util/key_path.go:23 *)
Definition ROTL (w n x : Z) : Z := Z.lor ((x * 2 ^ n) mod 2 ^ w) (x / 2 ^ (w - n)).
(** the [i]-th little-endian word of [n] bytes: bip32/utils.go:22, util/key_path.go:23 *)
Definition word_le (n : nat) (b : bytes) (i : nat) : Z := be_Z (rev (firstn n (skipn (n * i) b))).
(** one line of 80 steps: [fj], [r], [k] give the Boolean function, word and constant of a step.
    bip32/utils.go:22. *)
Definition rmd_steps (fj r : nat -> nat) (K : nat -> Z) (X : bytes) (a b c d e : nat -> Z) : Prop :=
  forall j, (j < 80)%nat ->
    a (S j) = e j /\
    b (S j) = (ROTL 32 (shift j (r j)) ((a j + rmd_bool (fj j) (b j) (c j) (d j) + word_le 4 X (r j) + K j) mod 2 ^ 32) + e j) mod 2 ^ 32 /\
    c (S j) = b j /\ d (S j) = ROTL 32 10 (c j) /\ e (S j) = d j.
(** the compression of one block: bip32/utils.go:22 *)
Definition rmd_block (K K' : nat -> Z) (H : nat -> Z) (X : bytes) (H' : nat -> Z) : Prop :=
  exists a b c d e a' b' c' d' e' : nat -> Z,
    a O = H 0%nat /\ b O = H 1%nat /\ c O = H 2%nat /\ d O = H 3%nat /\ e O = H 4%nat /\
    a' O = H 0%nat /\ b' O = H 1%nat /\ c' O = H 2%nat /\ d' O = H 3%nat /\ e' O = H 4%nat /\
    rmd_steps (fun j => j) r_left K X a b c d e /\
    rmd_steps (fun j => 79 - j)%nat r_right K' X a' b' c' d' e' /\
    H' 0%nat = (H 1%nat + c 80%nat + d' 80%nat) mod 2 ^ 32 /\
    H' 1%nat = (H 2%nat + d 80%nat + e' 80%nat) mod 2 ^ 32 /\
    H' 2%nat = (H 3%nat + e 80%nat + a' 80%nat) mod 2 ^ 32 /\
    H' 3%nat = (H 4%nat + a 80%nat + b' 80%nat) mod 2 ^ 32 /\
    H' 4%nat = (H 0%nat + b 80%nat + c' 80%nat) mod 2 ^ 32.
(** the five words before the first block: bip32/utils.go:22 *)
Definition rmd_IV (i : nat) : Z := nth i [0x67452301; 0xefcdab89; 0x98badcfe; 0x10325476; 0xc3d2e1f0] 0.
(** [dg] is the RIPEMD-160 digest of [m]: bip32/utils.go:22 *)
Definition rmd_digest (K K' : nat -> Z) (m dg : bytes) : Prop :=
  exists P (H : nat -> nat -> Z) (N : nat),
    padded 64 8 true m P /\ length P = (N * 64)%nat /\
    (forall i, (i < 5)%nat -> H O i = rmd_IV i) /\
    (forall j, (j < N)%nat -> rmd_block K K' (H j) (firstn 64 (skipn (j * 64) P)) (H (S j))) /\
    dg = flat_map (fun i => rev (Z_be 4 (H N i))) (seq 0 5).

(** ** Keccak *)
(** A state: lane [x] [y] for x, y < 5, each a 64-bit word. util/key_path.go:23. *)
Definition kstate := nat -> nat -> Z.
(** theta, FIPS 202 section 3.2.1: util/key_path.go:23 *)
Definition k_theta (A : kstate) : kstate :=
  let C x := Z.lxor (Z.lxor (Z.lxor (Z.lxor (A x 0%nat) (A x 1%nat)) (A x 2%nat)) (A x 3%nat)) (A x 4%nat) in
  fun x y => Z.lxor (A x y) (Z.lxor (C ((x + 4) mod 5)%nat) (ROTL 64 1 (C ((x + 1) mod 5)%nat))).
(** where the walk of rho is after [t] steps, section 3.2.2: util/key_path.go:23 *)
Fixpoint rho_walk (t : nat) : nat * nat :=
  match t with
  | O => (1, 0)%nat
  | S t => let '(x, y) := rho_walk t in (y, (2 * x + 3 * y) mod 5)%nat
  end.
(** [off] gives the rotation of each lane: none for lane 0 0, and (t+1)(t+2)/2 for the lane the walk is at
    after [t] steps. util/key_path.go:23. *)
Definition rho_offsets (off : nat -> nat -> Z) : Prop :=
  off O O = 0 /\
  forall t, (t < 24)%nat -> let '(x, y) := rho_walk t in
    off x y = ((Z.of_nat t + 1) * (Z.of_nat t + 2) / 2) mod 64.
(** rho: util/key_path.go:23 *)
Definition k_rho (off : nat -> nat -> Z) (A : kstate) : kstate := fun x y => ROTL 64 (off x y) (A x y).
(** pi, section 3.2.3: util/key_path.go:23 *)
Definition k_pi (A : kstate) : kstate := fun x y => A ((x + 3 * y) mod 5)%nat x.
(** chi, section 3.2.4: util/key_path.go:23 *)
Definition k_chi (A : kstate) : kstate := fun x y =>
  Z.lxor (A x y) (Z.land (2 ^ 64 - 1 - A ((x + 1) mod 5)%nat y) (A ((x + 2) mod 5)%nat y)).
(** one step of the register of algorithm 5, kept as a list of eight bits: util/key_path.go:23 *)
Definition lfsr (R : list bool) : list bool :=
  match R with
  | [r0; r1; r2; r3; r4; r5; r6; r7] => [r7; r0; r1; r2; xorb r3 r7; xorb r4 r7; xorb r5 r7; r6]
  | _ => R
  end.
(** rc(t), algorithm 5: util/key_path.go:23 *)
Definition rc_bit (t : nat) : bool :=
  nth 0 (Nat.iter t lfsr [true; false; false; false; false; false; false; false]) false.
(** the constant of round [i], algorithm 6: bit 2^j - 1 is rc(j + 7 i). util/key_path.go:23. *)
Definition RC (i : nat) : Z :=
  fold_left (fun acc j => acc + if rc_bit (j + 7 * i) then 2 ^ (2 ^ Z.of_nat j - 1) else 0) (seq 0 7) 0.
(** iota: util/key_path.go:23 *)
Definition k_iota (i : nat) (A : kstate) : kstate := fun x y =>
  match x, y with O, O => Z.lxor (A O O) (RC i) | _, _ => A x y end.
(** Keccak-f[1600]: 24 rounds. util/key_path.go:23. *)
Definition k_f (off : nat -> nat -> Z) (A : kstate) : kstate :=
  fold_left (fun A i => k_iota i (k_chi (k_pi (k_rho off (k_theta A))))) (seq 0 24) A.
(** The state after absorbing the first [n] blocks of 136 bytes: lane x y takes word x + 5 y.
    util/key_path.go:23. *)
Fixpoint k_absorb (off : nat -> nat -> Z) (P : bytes) (n : nat) : kstate :=
  match n with
  | O => fun _ _ => 0
  | S n =>
    let b := firstn 136 (skipn (n * 136) P) in
    let A := k_absorb off P n in
    k_f off (fun x y => if (x + 5 * y <? 17)%nat then Z.lxor (A x y) (word_le 8 b (x + 5 * y)) else A x y)
  end.
(** [dg] is the Keccak-256 digest of [m]: the padding's first and last bits are one, the others zero, in
    the least number of bytes. util/key_path.go:23-25. *)
Definition keccak_digest (off : nat -> nat -> Z) (m dg : bytes) : Prop :=
  exists z N, (0 < length z <= 136)%nat /\ (length m + length z = N * 136)%nat /\
    be_Z (rev z) = 1 + 2 ^ (8 * Z.of_nat (length z) - 1) /\
    dg = firstn 32 (flat_map (fun i => rev (Z_be 8 (k_absorb off (m ++ z) N (i mod 5)%nat (i / 5)%nat))) (seq 0 25)).

(** ** An object with Write, Reset and Sum *)
(** the calls made on such an object: bip32/bip32.go:82, 86, 191, 195, bip39/bip39.go:254 *)
Inductive hash_op : Set := HWrite (p : bytes) | HReset | HSum (inp : bytes).
(** the bytes written by all the calls: bip32/bip32.go:82, 191, bip39/bip39.go:254 *)
Definition written (ops : list hash_op) : bytes := flat_map (fun o => match o with HWrite p => p | _ => [] end) ops.
(** What the Sums of a sequence of calls are when [mac] is the code: of all the bytes written since the last
    Reset, after the bytes handed in. bip32/bip32.go:82, 86, 191, 195, bip39/bip39.go:254. *)
Inductive mac_says (mac : bytes -> bytes) : bytes -> list hash_op -> list bytes -> Prop :=
| says_nil m : mac_says mac m [] []
| says_write m p ops rs : mac_says mac (m ++ p) ops rs -> mac_says mac m (HWrite p :: ops) rs
| says_reset m ops rs : mac_says mac [] ops rs -> mac_says mac m (HReset :: ops) rs
| says_sum m inp ops rs : mac_says mac m ops rs -> mac_says mac m (HSum inp :: ops) ((inp ++ mac m) :: rs).
