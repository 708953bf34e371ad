(** GoRand.v - crypto/rand.Read of Go 1.22 as bip32.NewSeed and bip39.NewEntropy call it: io.ReadFull over the reader of
    rand_unix.go, which tries the getrandom system call and falls back to the file of the random device. *)
From Verif Require Import Base Bip39.

(** errors of the source (io.EOF, io.ErrUnexpectedEOF, EAGAIN, a short read, any other): bip32/bip32.go:391 *)
Inductive rerr := EOF | ErrUnexpectedEOF | EAGAIN | ShortRead | SysErr (code : Z).
(** one Read of a device, by number of the call and size of the buffer: what it writes and its error; bip32/bip32.go:391 *)
Definition device : Type := nat -> nat -> bytes * option rerr.
(** an io.Reader: number of the call and buffer before; buffer after, count and error; bip32/bip32.go:391 *)
Definition reader : Type := nat -> bytes -> bytes * nat * option rerr.

(** io.ReadAtLeast behind its loop; bip32/bip32.go:391 *)
Definition read_end (buf : bytes) (n : nat) (e : option rerr) : bytes * nat * option rerr :=
  if (length buf <=? n)%nat then (buf, n, None)
  else match e with
       | Some EOF => (buf, n, if (0 <? n)%nat then Some ErrUnexpectedEOF else Some EOF)
       | _ => (buf, n, e)
       end.
(** io.ReadFull: the loop of io.ReadAtLeast with the whole buffer as minimum, [None] while it has not ended; bip32/bip32.go:391 *)
Fixpoint ReadFull (fuel : nat) (r : reader) (call : nat) (buf : bytes) (n : nat) : option (bytes * nat * option rerr) :=
  if (length buf <=? n)%nat then Some (read_end buf n None)
  else match fuel with
       | O => None
       | S fuel =>
         let '(p, k, e) := r call (skipn n buf) in
         let buf := firstn n buf ++ p in
         match e with
         | None => ReadFull fuel r (S call) buf (n + k)
         | Some _ => Some (read_end buf (n + k) e)
         end
       end.

(** getRandom: the call must fill the whole buffer; bip32/bip32.go:391 *)
Definition getRandom (sys : device) (call : nat) (p : bytes) : bytes * option rerr :=
  let '(w, e) := sys call (length p) in
  (w ++ skipn (length w) p, match e with Some _ => e | None => if (length w =? length p)%nat then None else Some ShortRead end).
(** batched: at most [max] bytes a call; bip32/bip32.go:391 *)
Fixpoint batched (fuel : nat) (sys : device) (max call : nat) (out : bytes) : bytes * option rerr :=
  match fuel, out with
  | S fuel, _ :: _ =>
    let read := Nat.min (length out) max in
    match getRandom sys call (firstn read out) with
    | (p, Some e) => (p ++ skipn read out, Some e)
    | (p, None) => let '(q, e) := batched fuel sys max (S call) (skipn read out) in (p ++ q, e)
    end
  | _, _ => (out, None)
  end.

(** what the system does: the system call, its limit (None: not available), what opening the device gives, reads of the device;
    bip32/bip32.go:391 *)
Record source := { s_sys : device; s_max : option nat; s_open : option rerr; s_file : device }.
(** hideAgainReader.Read over the open file; bip32/bip32.go:391 *)
Definition file_reader (f : device) : reader := fun call p =>
  let '(w, e) := f call (length p) in
  (w ++ skipn (length w) p, length w, match e with Some EAGAIN => None | _ => e end).
(** reader.Read of rand_unix.go; bip32/bip32.go:391 *)
Definition rand_reader (fuel : nat) (s : source) (b : bytes) : option (bytes * nat * option rerr) :=
  let slow b := match s_open s with
    | Some e => Some (b, O, Some e)
    | None => ReadFull fuel (file_reader (s_file s)) 0 b 0
    end in
  match s_max s with
  | None => slow b
  | Some max =>
    match batched (length b) (s_sys s) max 0 b with
    | (b, None) => Some (b, length b, None)
    | (b, Some _) => slow b
    end
  end.
(** rand.Read: io.ReadFull over that reader, whose first answer is complete or an error; bip32/bip32.go:391, bip39/bip39.go:107 *)
Definition RandRead (fuel : nat) (s : source) (b : bytes) : option (bytes * nat * option rerr) :=
  match b with
  | [] => Some ([], O, None)
  | _ => match rand_reader fuel s b with
         | None => None
         | Some (b, n, Some e) => Some (read_end b n (Some e))
         | Some (b, n, None) => if (length b <=? n)%nat then Some (b, n, None) else None
         end
  end.

(** bip32/bip32.go:388-393 *)
Definition NewSeed32 (fuel : nat) (s : source) : option (bytes * option rerr) :=
  match RandRead fuel s (repeat x00 256) with Some (b, _, e) => Some (b, e) | None => None end.
(** bip39/bip39.go:101-110 *)
Definition NewEntropyFrom (fuel : nat) (s : source) (bitSize : Z) : option (bytes * option err) :=
  match validateEntropyBitSize bitSize with
  | Some e => Some ([], Some e)
  | None => match RandRead fuel s (repeat x00 (Z.to_nat (Z.quot bitSize 8))) with Some (b, _, _) => Some (b, None) | None => None end
  end.
