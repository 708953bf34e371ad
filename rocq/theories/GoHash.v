(** GoHash.v - the hash objects of the Go library as the code in /repo uses them: New, Write, Sum and Reset
    of crypto/sha256, crypto/sha512, golang.org/x/crypto/ripemd160, x/crypto/sha3 (legacy Keccak) and
    crypto/hmac, and the loop of x/crypto/pbkdf2.Key. The compression functions are those of Hash.v.
    Buffers are the used part of Go's arrays; MarshalBinary/UnmarshalBinary (the saved states of hmac)
    are taken to save and restore a state exactly. *)
From Verif Require Import Base Bip32 Hash SpecHash.

(** ** sha256, sha512, ripemd160: a chaining value, up to one block of bytes, a count *)
(** the struct digest: h, x[:nx], len. bip39/bip39.go:294, bip32/utils.go:22, 32, bip32/bip32.go:81 *)
Record digest := mkDg { dg_h : list Z; dg_x : bytes; dg_len : Z }.

(** which hash: block size, compression of one block, initial value, output.
    bip39/bip39.go:294, bip32/utils.go:22, 32, bip32/bip32.go:81. *)
Record alg := mkAlg { al_blk : nat; al_comp : list Z -> bytes -> list Z; al_iv : list Z; al_out : list Z -> bytes }.
(** crypto/sha256, bip39/bip39.go:294, bip32/utils.go:32, 42 *)
Definition Sha256 : alg := mkAlg 64 (fun st b => c256 st (be_words 4 b)) H256 (flat_map (Z_be 4)).
(** crypto/sha512, bip32/bip32.go:81, 190, bip39/bip39.go:254 *)
Definition Sha512 : alg := mkAlg 128 (fun st b => c512 st (be_words 8 b)) H512 (flat_map (Z_be 8)).
(** x/crypto/ripemd160, bip32/utils.go:22 *)
Definition Ripemd160 : alg := mkAlg 64 (fun st b => rmd_compress st (le_words 4 b))
  [0x67452301; 0xefcdab89; 0x98badcfe; 0x10325476; 0xc3d2e1f0] (flat_map (fun x => rev (Z_be 4 x))).

Section Digest.
  Variable A : alg.
  (** New and Reset: bip32/utils.go:22, bip32/bip32.go:81 *)
  Definition dg_new : digest := mkDg (al_iv A) [] 0.
  (** block(d, p): all whole blocks of p. bip32/utils.go:23, bip32/bip32.go:82. *)
  Definition dg_block (h : list Z) (p : bytes) : list Z := fold_left (al_comp A) (chunk (al_blk A) p) h.
  (** Write: top up a started block, compress whole blocks straight from p, keep the rest.
      bip32/utils.go:23, bip32/bip32.go:82, 191. *)
  Definition dg_write (d : digest) (p : bytes) : digest :=
    let blk := al_blk A in
    let len := (dg_len d + Z.of_nat (length p)) mod 2 ^ 64 in
    let '(h, x, p) :=
      if (0 <? length (dg_x d))%nat then
        let n := Nat.min (blk - length (dg_x d)) (length p) in
        let x := dg_x d ++ firstn n p in
        let '(h, x) := if (length x =? blk)%nat then (dg_block (dg_h d) x, []) else (dg_h d, x) in
        (h, x, skipn n p)
      else (dg_h d, dg_x d, p) in
    let '(h, p) :=
      if (blk <=? length p)%nat then
        let n := (length p - length p mod blk)%nat in (dg_block h (firstn n p), skipn n p)
      else (h, p) in
    mkDg h (if (0 <? length p)%nat then firstn blk p else x) len.
  (** checkSum of sha256 and sha512, on a copy of the object: the padding is written like data; [up] is the
      number of length bytes that are always zero (8 for sha512).
      bip39/bip39.go:294, bip32/utils.go:32, bip32/bip32.go:86, 195. *)
  Definition dg_sum (up : nat) (d : digest) : outcome bytes :=
    let blk := Z.of_nat (al_blk A) in
    let lenb := Z.of_nat up + 8 in
    let len := dg_len d in
    let t := if len mod blk <? blk - lenb then blk - lenb - len mod blk else blk + blk - lenb - len mod blk in
    let pad := x80 :: repeat x00 (Z.to_nat (t - 1)) ++ repeat x00 up ++ Z_be 8 ((len * 8) mod 2 ^ 64) in
    let d := dg_write d pad in
    if (length (dg_x d) =? 0)%nat then Ret (al_out A (dg_h d)) else Panic.
  (** Sum of ripemd160: the padding and then the length, low byte first. bip32/utils.go:27. *)
  Definition dg_sum_le (d : digest) : outcome bytes :=
    let tc := dg_len d in
    let tmp := x80 :: repeat x00 63 in
    let d := dg_write d (if tc mod 64 <? 56 then firstn (Z.to_nat (56 - tc mod 64)) tmp
                         else firstn (Z.to_nat (64 + 56 - tc mod 64)) tmp) in
    let d := dg_write d (map (fun i => bZ (((tc * 8) mod 2 ^ 64) / 2 ^ (8 * i))) [0; 1; 2; 3; 4; 5; 6; 7]) in
    if (length (dg_x d) =? 0)%nat then Ret (al_out A (dg_h d)) else Panic.
End Digest.

(** ** crypto/hmac over sha512 *)
(** the pads: the key's bytes, or after the first Reset the saved states (marshaled).
    bip32/bip32.go:81, bip39/bip39.go:254. *)
Inductive pads := Raw (ipad opad : bytes) | Saved (ipad opad : digest).
(** the struct hmac: bip32/bip32.go:81, bip39/bip39.go:254 *)
Record hmac := mkHm { hm_inner : digest; hm_outer : digest; hm_pads : pads }.
(** hmac.New(sha512.New, key): bip32/bip32.go:81, 190 *)
Definition hmac_New (key : bytes) : outcome hmac :=
  let outer := dg_new Sha512 in
  let! (outer, key) :=
    (if (al_blk Sha512 <? length key)%nat then
       let outer := dg_write Sha512 outer key in let! s := dg_sum Sha512 8 outer in Ret (outer, s)
     else Ret (outer, key)) in
  let pad p := xor_pad (firstn (al_blk Sha512) key ++ repeat x00 (al_blk Sha512 - length key)) p in
  let ipad := pad 0x36 in
  let opad := pad 0x5c in
  Ret (mkHm (dg_write Sha512 (dg_new Sha512) ipad) outer (Raw ipad opad)).
(** Write: bip32/bip32.go:82, 191 *)
Definition hmac_Write (h : hmac) (p : bytes) : hmac :=
  mkHm (dg_write Sha512 (hm_inner h) p) (hm_outer h) (hm_pads h).
(** Sum(in): bip32/bip32.go:86, 195 *)
Definition hmac_Sum (h : hmac) (inp : bytes) : outcome (hmac * bytes) :=
  let! s := dg_sum Sha512 8 (hm_inner h) in
  let in' := inp ++ s in
  let outer := match hm_pads h with
               | Saved _ o => o
               | Raw _ o => dg_write Sha512 (dg_new Sha512) o
               end in
  let outer := dg_write Sha512 outer (skipn (length inp) in') in
  let! r := dg_sum Sha512 8 outer in
  Ret (mkHm (hm_inner h) outer (hm_pads h), firstn (length inp) in' ++ r).
(** Reset: the first one saves the states after the pads. bip39/bip39.go:254. *)
Definition hmac_Reset (h : hmac) : hmac :=
  match hm_pads h with
  | Saved i _ => mkHm i (hm_outer h) (hm_pads h)
  | Raw i o =>
    let inner := dg_write Sha512 (dg_new Sha512) i in
    let outer := dg_write Sha512 (dg_new Sha512) o in
    mkHm inner outer (Saved inner outer)
  end.

(** ** x/crypto/pbkdf2 *)
(** the inner loop: n more rounds of Reset, Write(U), Sum(U[:0]), T ^= U. bip39/bip39.go:254. *)
Fixpoint key_rounds (n : nat) (prf : hmac) (U T : bytes) : outcome (hmac * bytes) :=
  match n with
  | O => Ret (prf, T)
  | S n =>
    let prf := hmac_Write (hmac_Reset prf) U in
    let! (prf, U) := hmac_Sum prf [] in
    key_rounds n prf U (map (fun p => bZ (Z.lxor (Zb (fst p)) (Zb (snd p)))) (combine T U))
  end.
(** the outer loop, over the block numbers: bip39/bip39.go:254 *)
Fixpoint key_blocks (bs : list nat) (iter : nat) (prf : hmac) (salt dk : bytes) : outcome bytes :=
  match bs with
  | [] => Ret dk
  | b :: bs =>
    let prf := hmac_Write (hmac_Reset prf) salt in
    let blk := Z.of_nat b in
    let prf := hmac_Write prf [bZ (blk / 2 ^ 24); bZ (blk / 2 ^ 16); bZ (blk / 2 ^ 8); bZ blk] in
    let! (prf, dk) := hmac_Sum prf dk in
    let old := firstn (length dk - 64) dk in
    let T := skipn (length dk - 64) dk in
    let! (prf, T) := key_rounds (iter - 1) prf T T in
    key_blocks bs iter prf salt (old ++ T)
  end.
(** pbkdf2.Key(password, salt, iter, keyLen, sha512.New): bip39/bip39.go:254 *)
Definition pbkdf2_Key (pw salt : bytes) (iter keyLen : nat) : outcome bytes :=
  let! prf := hmac_New pw in
  let! dk := key_blocks (seq 1 ((keyLen + 64 - 1) / 64)%nat) iter prf salt [] in
  Ret (firstn keyLen dk).

(** ** x/crypto/sha3, legacy Keccak-256 *)
(** the struct state while absorbing: a, buf. util/key_path.go:23. *)
Record sponge := mkSp { sp_a : list Z; sp_buf : bytes }.
(** sha3.NewLegacyKeccak256: util/key_path.go:23 *)
Definition sp_new : sponge := mkSp (repeat 0 25) [].
(** xorIn and keccakF1600: util/key_path.go:24 *)
Definition sp_permute (a : list Z) (b : bytes) : list Z :=
  keccak_f (map (fun p => Z.lxor (fst p) (snd p)) (combine a (le_words 8 b ++ repeat 0 8))).
(** Write's loop: a whole block straight from p when nothing is buffered, else fill the buffer. The
    counter only bounds the recursion: running out with bytes left would be Go's endless loop.
    util/key_path.go:24. *)
Fixpoint sp_write (fuel : nat) (d : sponge) (p : bytes) : outcome sponge :=
  match p with
  | [] => Ret d
  | _ =>
    match fuel with
    | O => Panic
    | S fuel =>
      if ((length (sp_buf d) =? 0) && (136 <=? length p))%nat then
        sp_write fuel (mkSp (sp_permute (sp_a d) (firstn 136 p)) (sp_buf d)) (skipn 136 p)
      else
        let todo := Nat.min (136 - length (sp_buf d)) (length p) in
        let buf := sp_buf d ++ firstn todo p in
        let d := if (length buf =? 136)%nat then mkSp (sp_permute (sp_a d) buf) [] else mkSp (sp_a d) buf in
        sp_write fuel d (skipn todo p)
    end
  end.
(** several Writes one after the other: util/key_path.go:24 *)
Fixpoint sp_writes (d : sponge) (ps : list bytes) : outcome sponge :=
  match ps with
  | [] => Ret d
  | p :: ps => let! d := sp_write (length p) d p in sp_writes d ps
  end.
(** Sum on a copy: padAndPermute with the byte 0x01, then the first 32 bytes. util/key_path.go:25. *)
Definition sp_sum (d : sponge) : bytes :=
  let buf := sp_buf d ++ [x01] in
  let buf := buf ++ repeat x00 (136 - length buf) in
  let buf := firstn 135 buf ++ [bZ (Z.lxor (Zb (nth 135 buf x00)) 0x80)] in
  firstn 32 (flat_map (fun x => rev (Z_be 8 x)) (sp_permute (sp_a d) buf)).

(** ** Calls in any order *)
(** what the Sums return: bip32/bip32.go:86, 195, bip39/bip39.go:254 *)
Fixpoint hmac_run (h : hmac) (ops : list hash_op) : outcome (list bytes) :=
  match ops with
  | [] => Ret []
  | HWrite p :: ops => hmac_run (hmac_Write h p) ops
  | HReset :: ops => hmac_run (hmac_Reset h) ops
  | HSum inp :: ops =>
    let! (h, r) := hmac_Sum h inp in
    let! rs := hmac_run h ops in
    Ret (r :: rs)
  end.
