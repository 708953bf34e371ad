(** Bip32Path.v - model of bip32/path.go. Paths are strings (lists of bytes). *)
From Verif Require Import Base GoStr Rx.

(** bip32/bip32.go:47 *)
Definition FirstHardenedChild : Z := 2147483648.

(** bip32/path.go:25-26: the class [\s] is tab, LF, FF, CR, space (not vertical tab). *)
Definition is_ws (c : byte) : bool :=
  match c with x09 | x0a | x0c | x0d | x20 => true | _ => false end.
(** bip32/path.go:24-27 Path.String: every white-space byte is deleted. *)
Definition PathString (p : bytes) : bytes := filter (fun c => negb (is_ws c)) p.
(** bip32/path.go:29-31 Path.Formatted *)
Definition Formatted (p : bytes) : bytes := PathString p.

(** bip32/path.go:22 [^[mM](/\d+')*(/\d+)*$] *)
Definition is_mM (c : byte) : bool := match c with x6d | x4d => true | _ => false end.
(** the part (/\d+')* of bip32/path.go:22 *)
Definition hard_rx : rx := Rcat (Rchr x2f) (Rcat (Rplus (Rcls is_digit)) (Rchr x27)).
(** the part (/\d+)* of bip32/path.go:22 *)
Definition soft_rx : rx := Rcat (Rchr x2f) (Rplus (Rcls is_digit)).
(** bip32/path.go:22 *)
Definition PathRegex : rx := Rcat (Rcls is_mM) (Rcat (Rstar hard_rx) (Rstar soft_rx)).

(** bip32/path.go:54-74: the loop over the components; it returns what has been collected so far
    together with an error. *)
Fixpoint values_loop (pathArr : list Z) (comps : list bytes) : list Z * option err :=
  match comps with
  | [] => (pathArr, None)
  | s :: r =>
    if ContainsB x27 s then
      match Atoi (RemoveB x27 s) with
      | (_, Some e) => (pathArr, Some e)
      | (val, None) =>
        if u32 val >=? FirstHardenedChild then (pathArr, Some ErrUnSupportedOrInvalidPath)
        else values_loop (pathArr ++ [u32 (u32 val + FirstHardenedChild)]) r
      end
    else
      match Atoi s with
      | (_, Some e) => (pathArr, Some e)
      | (val, None) => values_loop (pathArr ++ [u32 val]) r
      end
  end.

(** bip32/path.go:45-76 Path.ValuesAtDepth. [pth[1:]] cannot panic: strings.Split never returns an
    empty slice (GoStrFacts.Split_nonempty). *)
Definition ValuesAtDepth (p : bytes) : list Z * option err :=
  if negb (rx_match PathRegex (PathString p)) then ([], Some ErrUnSupportedOrInvalidPath)
  else values_loop [0] (tl (Split x2f (PathString p))).

(** bip32/path.go:33-36 Path.IsValid *)
Definition PathIsValid (p : bytes) : bool :=
  match ValuesAtDepth p with (_, None) => true | _ => false end.

(** bip32/path.go:81-90 Path.ValueAtDepth; [b] is a Go byte, [byte(len(vals))] truncates. *)
Definition ValueAtDepth (p : bytes) (b : byte) : outcome (Z * option err) :=
  match ValuesAtDepth p with
  | (_, Some e) => Ret (0, Some e)
  | (vals, None) =>
    if negb (Zb b <? Zb (bZ (Z.of_nat (length vals)))) then Ret (0, Some ErrUnSupportedOrInvalidPath)
    else match nth_error vals (Z.to_nat (Zb b)) with
         | Some v => Ret (v, None)
         | None => Panic
         end
  end.

(** valsArr[b] = s, which panics when b is out of range. bip32/path.go:102-104. *)
Definition set_nth {A} (n : nat) (x : A) (l : list A) : outcome (list A) :=
  if Nat.ltb n (length l) then Ret (firstn n l ++ x :: skipn (S n) l) else Panic.

(** bip32/path.go:102-106: the text written for a value. *)
Definition val_text (val : Z) : bytes :=
  if val >=? FirstHardenedChild then Itoa (val mod FirstHardenedChild) ++ B "'" else Itoa val.

(** bip32/path.go:91-107 Path.ReplaceValueAtDepth *)
Definition ReplaceValueAtDepth (p : bytes) (b : byte) (val : Z) : outcome (bytes * option err) :=
  match ValuesAtDepth p with
  | (_, Some e) => Ret (p, Some e)
  | (vals, None) =>
    if negb (Zb b <? Zb (bZ (Z.of_nat (length vals)))) then Ret (p, Some ErrUnSupportedOrInvalidPath)
    else
      match set_nth (Z.to_nat (Zb b)) (val_text val) (Split x2f (PathString p)) with
      | Ret valsArr => Ret (Join (B "/") valsArr, None)
      | Panic => Panic
      end
  end.
