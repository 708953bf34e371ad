(** SpecWallet.v - specification: the keys of a BIP-32 wallet along a path, written from BIP-32 and independent of the
    model. *)
From Verif Require Import Base Prims Secp Fp ECGroup SpecEC SpecBip32 SpecUtil.

(** A private node of the key tree: depth, fingerprint of the parent, child number, chain code, private key.
    For bip32/bip32.go:108-171, util/util.go:91-124. *)
Record node := mkNode { n_depth : Z; n_fp : bytes; n_index : Z; n_chain : bytes; n_key : Z }.
(** "Master key generation": the node at depth 0. For bip32/bip32.go:79-100. *)
Definition master_node (H : Prims) (seed : bytes) : option node :=
  match master H seed with Some (k, c) => Some (mkNode 0 (repeat x00 4) 0 c k) | None => None end.
(** "The key tree": the child of a node. For bip32/bip32.go:108-171, util/util.go:91-124. *)
Definition child_node (H : Prims) (nd : node) (i : Z) : option node :=
  match CKDpriv H (n_key nd) (n_chain nd) i with
  | Some (k, c) => Some (mkNode (n_depth nd + 1) (fingerprint H (kG (n_key nd))) i c k)
  | None => None
  end.
(** The nodes below nd along the indices vs. For bip32/bip32.go:108-171, util/util.go:91-124. *)
Fixpoint path_nodes (H : Prims) (nd : node) (vs : list Z) : option (list node) :=
  match vs with
  | [] => Some []
  | i :: r => match child_node H nd i with
              | None => None
              | Some nd' => match path_nodes H nd' r with Some l => Some (nd' :: l) | None => None end
              end
  end.
(** "Serialization format"; the depth is one byte. For bip32/bip32.go:202-263. *)
Definition node_xprv (v : bytes) (nd : node) : bytes := xprv v (bZ (n_depth nd)) (n_fp nd) (ser32 (n_index nd)) (n_chain nd) (n_key nd).
(** For bip32/bip32.go:202-263. *)
Definition node_xpub (v : bytes) (nd : node) : bytes := xpub v (bZ (n_depth nd)) (n_fp nd) (ser32 (n_index nd)) (n_chain nd) (kG (n_key nd)).
