(** The off-chain side of a campaign: how the client turns a list of entries into the root a campaign is created with, and
    into the proof each claim carries (tests/merkle-instant/utils/merkle.ts, over merkletreejs ^0.5.2). *)
From Verif Require Export TreeSpec.

(** tests/merkle-instant/utils/merkle.ts:36-52 [computeLeaf]: [writeUInt32LE], the key's bytes and [writeBigUInt64LE],
    hashed twice. *)
Definition compute_leaf (H : bytes -> bytes) (e : airdrop) : bytes :=
  H (H (le_bytes 4 (e_index e) ++ key_bytes (e_recipient e) ++ le_bytes 8 (e_amount e))).

(** merkletreejs [MerkleTree.createHashes] with [{ sortPairs: true }] (tests/merkle-instant/utils/merkle.ts:31-34): the
    hashes of the next layer, pairs sorted by [Buffer.compare]; a node without partner moves up as it is. *)
Fixpoint buffer_le (x y : bytes) : bool :=
  match x, y with
  | [], _ => true
  | _ :: _, [] => false
  | a :: x', b :: y' => if a =? b then buffer_le x' y' else a <? b
  end.
Definition buffer_pair (x y : bytes) : bytes := if buffer_le x y then x ++ y else y ++ x.
Fixpoint next_layer (H : bytes -> bytes) (nodes : list bytes) : list bytes :=
  match nodes with
  | x :: y :: r => H (buffer_pair x y) :: next_layer H r
  | _ => nodes
  end.
(** merkletreejs [processLeaves]/[createHashes]: layers from the leaves up, while there is more than one node. [fuel]
    bounds the recursion; the length of [nodes] is always enough. *)
Fixpoint layers (H : bytes -> bytes) (fuel : nat) (nodes : list bytes) : list (list bytes) :=
  nodes :: match fuel with
    | O => []
    | S f => if (1 <? length nodes)%nat then layers H f (next_layer H nodes) else []
    end.
(** tests/merkle-instant/utils/merkle.ts:31-34 [buildTree] *)
Definition build_tree (H : bytes -> bytes) (es : list airdrop) : list (list bytes) :=
  layers H (length es) (map (compute_leaf H) es).
(** merkletreejs [getRoot]: the first node of the last layer, or an empty buffer (tests/merkle-instant/utils/merkle.ts:22-25). *)
Definition get_root (H : bytes -> bytes) (es : list airdrop) : bytes :=
  match last (build_tree H es) with Some (x :: _) => x | _ => [] end.

(** merkletreejs [getProof(leaf)]: the last position of the leaf; [None] stands for -1. *)
Fixpoint last_index (x : bytes) (l : list bytes) : option nat :=
  match l with
  | [] => None
  | y :: r => match last_index x r with
      | Some i => Some (S i)
      | None => if bool_decide (x = y) then Some O else None
      end
  end.
(** merkletreejs [getProof(leaf)]: layer by layer the node beside the current one, if it exists. *)
Fixpoint walk (i : nat) (ls : list (list bytes)) : list bytes :=
  match ls with
  | [] => []
  | layer :: up =>
      match layer !! (if Nat.odd i then i - 1 else i + 1)%nat with Some x => [x] | None => [] end ++ walk (Nat.div2 i) up
  end.
(** tests/merkle-instant/utils/merkle.ts:13-20 [getProof] *)
Definition get_proof (H : bytes -> bytes) (es : list airdrop) (e : airdrop) : list bytes :=
  match last_index (compute_leaf H e) (map (compute_leaf H) es) with
  | Some i => walk i (build_tree H es)
  | None => []
  end.
