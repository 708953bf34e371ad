(** Mem.v - memory-level model of the functions of bip32 that append to byte slices: blocks, slices with capacity,
    append in place. Used for what callers can observe in memory they share with the package. *)
From Verif Require Import Base Prims Bip32Path Bip32Reg Bip32.

(** Memory: blocks (Go arrays), never freed, of fixed length.
    For the slices of bip32/bip32.go:189, 258, 297 and bip32/utils.go:41-52. *)
Definition mem := list bytes.
(** for the slices of bip32/bip32.go:189, 258, 297 and bip32/utils.go:41-52 *)
Definition block (h : mem) (b : nat) : bytes := nth b h [].
(** A slice: block, offset, length, capacity.
    For the slices of bip32/bip32.go:189, 258, 297 and bip32/utils.go:41-52. *)
Record sl := mkSl { sblk : nat; soff : nat; slen : nat; scap : nat }.
(** for the slices of bip32/bip32.go:189, 258, 297 and bip32/utils.go:41-52 *)
Definition wf_sl (h : mem) (s : sl) : Prop :=
  (sblk s < length h)%nat /\ (slen s <= scap s)%nat /\ (soff s + scap s <= length (block h (sblk s)))%nat.
(** The bytes of a slice. For the slices of bip32/bip32.go:189, 258, 297 and bip32/utils.go:41-52. *)
Definition sread (h : mem) (s : sl) : bytes := slice (soff s) (soff s + slen s) (block h (sblk s)).
(** Allocation of a block. For the slices of bip32/bip32.go:189, 258, 297 and bip32/utils.go:41-52. *)
Definition alloc (h : mem) (d : bytes) : mem * nat := (h ++ [d], length h).
(** Write into a block, in place. For the slices of bip32/bip32.go:189, 258, 297 and bip32/utils.go:41-52. *)
Definition mwrite (h : mem) (b at_ : nat) (d : bytes) : mem :=
  firstn b h ++ overwrite at_ d (block h b) :: skipn (S b) h.
(** append(s, d...): in place when the capacity suffices, otherwise into a new block with unspecified spare capacity
    [spare]. For the slices of bip32/bip32.go:189, 258, 297 and bip32/utils.go:41-52. *)
Definition append_m (spare : nat) (h : mem) (s : sl) (d : bytes) : mem * sl :=
  if Nat.leb (slen s + length d) (scap s)
  then (mwrite h (sblk s) (soff s + slen s) d, mkSl (sblk s) (soff s) (slen s + length d) (scap s))
  else
    let '(h', b) := alloc h (sread h s ++ d ++ repeat x00 spare) in
    (h', mkSl b 0 (slen s + length d) (slen s + length d + spare)).

(** chainhash.DoubleHashB(data)[:4]: bip32/utils.go:41-44. *)
Definition ChecksumDblSha256_m (H : Prims) (h : mem) (data : sl) : mem * sl :=
  let '(h', b) := alloc h (p_sha256 H (p_sha256 H (sread h data))) in (h', mkSl b 0 4 32).
(** AddChecksumDblSha256ToBytes: bip32/utils.go:46-52. *)
Definition AddChecksumDblSha256ToBytes_m (spare : nat) (H : Prims) (h : mem) (data : sl) : mem * sl :=
  let '(h1, checksum) := ChecksumDblSha256_m H h data in append_m spare h1 data (sread h1 checksum).
(** A key lives in 78 bytes of some block; key[:] has no spare capacity.
    The receiver of the methods of bip32/bip32.go:103-379. *)
Record kptr := mkK { kblk : nat; koff : nat }.
(** key[:], bip32/bip32.go:258 *)
Definition kslice (k : kptr) : sl := mkSl (kblk k) (koff k) 78 78.
(** Serialize: bip32/bip32.go:246-263. *)
Definition Serialize_m (spare : nat) (H : Prims) (h : mem) (key : kptr) : mem * (option sl * option err) :=
  if forallb (fun v => Byte.eqb v x00) (sread h (kslice key)) then (h, (None, Some ErrEmptyKey))
  else let '(h', s) := AddChecksumDblSha256ToBytes_m spare H h (kslice key) in (h', (Some s, None)).
(** Deserialize: bip32/bip32.go:293-313; Key(data[:78]) copies. *)
Definition Deserialize_m (spare : nat) (H : Prims) (h : mem) (data : sl) : mem * outcome (bytes * option err) :=
  if negb (Nat.eqb (slen data) 82) then
    let '(h', data) :=
      if Nat.ltb (slen data) 82 then
        let '(h1, b) := alloc h (repeat x00 (82 - slen data)) in
        append_m spare h1 data (sread h1 (mkSl b 0 (82 - slen data) (82 - slen data)))
      else (h, data) in
    (h', let! k := arr 78 (firstn 78 (sread h' data)) in Ret (k, Some ErrSerializedKeyWrongSize))
  else
    let '(h', cs1) := ChecksumDblSha256_m H h (mkSl (sblk data) (soff data) 78 (scap data)) in
    let cs2 := skipn 78 (sread h' data) in
    (h', let! k := arr 78 (firstn 78 (sread h' data)) in
         Ret (k, if bytes_eqb (sread h' cs1) cs2 then None else Some ErrInvalidChecksum)).
(** getIntermediary: bip32/bip32.go:174-196; [data] is a fresh array of 33 bytes, so append(data[:], ...) never writes
    in place. The result is the block written by hm.Sum(nil). *)
Definition getIntermediary_m (spare : nat) (H : Prims) (h : mem) (key : kptr) (childIdx : Z) : mem * sl :=
  let k := sread h (kslice key) in
  let '(h1, idx) := alloc h (uint32Bytes childIdx) in
  let '(h2, d) := alloc h1 (repeat x00 33) in
  let h3 :=
    if childIdx >=? FirstHardenedChild then mwrite h2 d 1 (slice 46 78 k)
    else if IsPrivate k then mwrite h2 d 0 (firstn 33 (publicKeyForPrivateKey (slice 46 78 k)))
    else mwrite h2 d 0 (skipn 45 k) in
  let '(h4, dataN) := append_m spare h3 (mkSl d 0 33 33) (sread h3 (mkSl idx 0 4 4)) in
  let '(h5, r) := alloc h4 (p_hmac512 H (slice 13 45 k) (sread h4 dataN)) in
  (h5, mkSl r 0 64 64).
(** Setting a field of a key in memory, copy(key[lo:hi], v[:]): bip32/bip32.go:315-380. *)
Definition set_field_m (lo hi : nat) (v : bytes) (h : mem) (key : kptr) : mem :=
  mwrite h (kblk key) (koff key + lo) (firstn (hi - lo) v).
