(** Generator.v - the Generator type of util/util.go as an object with a field, a setter by value and a getter by
    pointer. *)
From Verif Require Import Base GoStr Prims Bip32Path Bip32Reg Bip32 Util.

(** The field rootKey (util/util.go:79-81) and the caller's own variables of type Key, numbered. *)
Record gmem := mkG { field : bytes; vars : nat -> bytes }.

(** k[j] = b for an array of 78 bytes (bip32/bip32.go:26); an index out of range panics. *)
Definition put (k : bytes) (j : nat) (b : byte) : outcome bytes :=
  if Nat.ltb j 78 then Ret (firstn j k ++ b :: skipn (S j) k) else Panic.

(** v_i = k, an assignment in the caller: util/util.go:83-89 *)
Definition assign (vs : nat -> bytes) (i : nat) (k : bytes) : nat -> bytes := fun n => if Nat.eqb n i then k else vs n.

(** What a caller can do with a generator and its variables: util/util.go:79-127. *)
Inductive gop :=
| GSet (i : nat)                   (** g.SetRootKey(v_i): util/util.go:83-85 *)
| GGet (i : nat)                   (** v_i = *g.RootKey(): util/util.go:87-89 *)
| GWrite (i j : nat) (b : byte)    (** v_i[j] = b *)
| GPoke (j : nat) (b : byte)       (** g.RootKey()[j] = b: util/util.go:87-89 returns the address of the field *)
| GDerive (p : bytes).             (** g.DeriveBIP32Result(p): util/util.go:91-127, reads the field only *)

(** One operation; SetRootKey receives its argument by value, util/util.go:83-89. *)
Definition gstep (s : gmem) (o : gop) : outcome gmem :=
  match o with
  | GSet i => Ret (mkG (vars s i) (vars s))
  | GGet i => Ret (mkG (field s) (assign (vars s) i (field s)))
  | GWrite i j b => let! k := put (vars s i) j b in Ret (mkG (field s) (assign (vars s) i k))
  | GPoke j b => let! k := put (field s) j b in Ret (mkG k (vars s))
  | GDerive _ => Ret s
  end.

(** A sequence of operations: util/util.go:83-127 *)
Fixpoint grun (s : gmem) (ops : list gop) : outcome gmem :=
  match ops with
  | [] => Ret s
  | o :: r => let! s := gstep s o in grun s r
  end.

(** The method on the object: util/util.go:91-92 reads the field through RootKey. *)
Definition GenDerive (H : Prims) (T : tables) (s : gmem) (p : bytes) : outcome (list KeyPath * option err) :=
  DeriveBIP32Result H T (field s) p.

(** var g Generator: the zero value, util/util.go:79-81 *)
Definition new_generator (vs : nat -> bytes) : gmem := mkG zero_key vs.

(** ** DeriveBIP32Result beside other goroutines that call SetRootKey

    The method works on a pointer to the field (util/util.go:92) and reads it seven times; another goroutine may set the
    field between two reads. Each read is of the whole array. *)

(** Key.IsValid on the field: the test for a non-zero byte (bip32/bip32.go:248-253), the checksum (bip32/utils.go:47) and
    the copy made by append (bip32/utils.go:51) read the key one after the other. bip32/bip32.go:280-290. *)
Definition KeyIsValid_at (H : Prims) (k0 k1 k2 : bytes) : outcome bool :=
  if forallb (fun v => Byte.eqb v x00) k0 then Ret false
  else let! (_, e) := Deserialize H (k2 ++ ChecksumDblSha256 H k1) in Ret (match e with None => true | Some _ => false end).
(** util/util.go:91-127: [rd j] is what the j-th read of the field finds. *)
Definition DeriveBIP32Result_at (H : Prims) (T : tables) (rd : nat -> bytes) (p : bytes) : outcome (list KeyPath * option err) :=
  let! v := KeyIsValid_at H (rd 0%nat) (rd 1%nat) (rd 2%nat) in
  if negb v || negb (IsPrivate (rd 3%nat)) || negb (Byte.eqb (key_at 4 (rd 4%nat)) x00) then Ret ([], Some ErrInvalidRootKey)
  else if negb (PathIsValid p) then Ret ([], Some ErrUtilUnSupportedOrInvalidPath)
  else
    match ValuesAtDepth p with
    | (_, Some e) => Ret ([], Some e)
    | (pathItems, None) =>
      let! rest := derive_loop H T (B "m") (rd 6%nat) (tl pathItems) in
      Ret (mkKP (B "m") (rd 5%nat) :: rest, None)
    end.
(** A schedule: calls of SetRootKey by other goroutines (util/util.go:83-85) and reads of this one (util/util.go:91-127). *)
Inductive gev := SetByOther (k : bytes) | Read.
(** The values found by the reads, from the contents of the field on: util/util.go:83-127. *)
Fixpoint reads (fld : bytes) (sched : list gev) : list bytes :=
  match sched with
  | [] => []
  | SetByOther k :: r => reads k r
  | Read :: r => fld :: reads fld r
  end.
(** A call under a schedule that contains its seven reads, None if it has not read seven times: util/util.go:91-127. *)
Definition Derive_sched (H : Prims) (T : tables) (fld : bytes) (sched : list gev) (p : bytes) : option (outcome (list KeyPath * option err)) :=
  let l := reads fld sched in
  if Nat.ltb (length l) 7 then None else Some (DeriveBIP32Result_at H T (fun j => nth j l []) p).

(** ** The same, byte by byte

    An assignment of an array and a read of one are not single steps of the machine. Here the steps are writes of one byte of the
    field by other goroutines and reads of one byte by this one; [RByte n j] is the step of the n-th of the seven
    reads that reads byte j. util/util.go:83-127. *)
Inductive bev := WByte (j : nat) (b : byte) | RByte (n j : nat).
(** What the n-th read finds in byte j, None if it has not been made: util/util.go:83-127. (A write at an index from 78 on, which the
    type forbids, has no effect.) *)
Fixpoint bread (fld : bytes) (s : list bev) (n j : nat) : option byte :=
  match s with
  | [] => None
  | WByte i b :: r => bread (match put fld i b with Ret f => f | Panic => fld end) r n j
  | RByte n' j' :: r => if Nat.eqb n' n && Nat.eqb j' j then nth_error fld j else bread fld r n j
  end.
(** The 78 bytes of a read: util/util.go:91-127 *)
Fixpoint all_some (l : list (option byte)) : option bytes :=
  match l with
  | [] => Some []
  | None :: _ => None
  | Some b :: r => match all_some r with Some l => Some (b :: l) | None => None end
  end.
(** as above: util/util.go:91-127 *)
Definition bread_key (fld : bytes) (s : list bev) (n : nat) : option bytes := all_some (map (bread fld s n) (seq 0 78)).
(** A call whose seven reads are all in the schedule: util/util.go:91-127. *)
Definition Derive_bytes (H : Prims) (T : tables) (fld : bytes) (s : list bev) (p : bytes) : option (outcome (list KeyPath * option err)) :=
  match bread_key fld s 0, bread_key fld s 1, bread_key fld s 2, bread_key fld s 3, bread_key fld s 4, bread_key fld s 5, bread_key fld s 6 with
  | Some k0, Some k1, Some k2, Some k3, Some k4, Some k5, Some k6 => Some (DeriveBIP32Result_at H T (fun n => nth n [k0; k1; k2; k3; k4; k5; k6] []) p)
  | _, _, _, _, _, _, _ => None
  end.
(** SetRootKey(k) as writes of bytes, the first byte first: util/util.go:83-85. *)
Definition SetBytes (k : bytes) : list bev := map (fun j => WByte j (nth j k x00)) (seq 0 78).
(** The n-th read: util/util.go:91-127. *)
Definition ReadBytes (n : nat) : list bev := map (RByte n) (seq 0 78).
(** A schedule of whole assignments and reads in bytes, the next read being the n-th: util/util.go:83-127. *)
Fixpoint in_bytes (n : nat) (sched : list gev) : list bev :=
  match sched with
  | [] => []
  | SetByOther k :: r => SetBytes k ++ in_bytes n r
  | Read :: r => ReadBytes n ++ in_bytes (S n) r
  end.
