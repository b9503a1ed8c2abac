(** The Merkle trees over extrinsics whose roots are anchored on Ethereum: client/extrinsic-utils and the root
    calculation of client/external-service. *)
From Verif Require Import Base CodecModel.

(** keccak-256 is a parameter: any function from bytes to 256-bit words. *)
Definition kec (H : list N -> N) (x : list N) : N := H x mod 2 ^ 256.
(** merkle_tree_utils.rs:66-80 [sort_and_concatenate_pair] (the order of H256 is that of the numbers they spell). *)
Definition join_pair (l r : N) : list N := if l <=? r then be_bytes 32 l ++ be_bytes 32 r else be_bytes 32 r ++ be_bytes 32 l.
(** merkle_tree_utils.rs:50-64 [process_nodes_in_pairs]. *)
Fixpoint pair_up (H : list N -> N) (l : list N) : list N :=
  match l with
  | a :: b :: r => kec H (join_pair a b) :: pair_up H r
  | _ => l
  end.
(** merkle_tree_utils.rs:36-46 [process_level]; the recursion is bounded by the number of nodes. *)
Fixpoint process_level (H : list N -> N) (fuel : nat) (l : list N) : list N :=
  let p := pair_up H l in
  match fuel with
  | O => p
  | S n => if (1 <? length p)%nat then process_level H n p else p
  end.
(** merkle_tree_utils.rs:18-34 [generate_tree_root]. *)
Definition tree_root (H : list N -> N) (leaves : list (list N)) : res N :=
  let nodes := map (kec H) leaves in
  match process_level H (length nodes) nodes with [x] => Ok x | _ => Err "ErrorGeneratingRoot" end.
(** merkle_tree_utils.rs:124-152 [process_nodes_in_pairs_for_path]: the node followed, the nodes of the next level, and
    what is appended to the path. *)
Fixpoint pair_up_path (H : list N -> N) (x : N) (l : list N) : N * list N * list N :=
  match l with
  | a :: b :: r =>
      let h := kec H (join_pair a b) in
      let '(x1, add) := if x =? a then (h, [b]) else if x =? b then (h, [a]) else (x, []) in
      let '(x2, p, add2) := pair_up_path H x1 r in
      (x2, h :: p, add ++ add2)
  | _ => (x, l, [])
  end.
(** merkle_tree_utils.rs:107-122 [process_level_for_path]. *)
Fixpoint process_path (H : list N -> N) (fuel : nat) (x : N) (l : list N) : list N :=
  let '(x1, p, add) := pair_up_path H x l in
  match fuel with
  | O => add
  | S n => if (1 <? length p)%nat then add ++ process_path H n x1 p else add
  end.
(** merkle_tree_utils.rs:84-105 [generate_merkle_path]. *)
Definition merkle_path (H : list N -> N) (leaf : list N) (leaves : list (list N)) : res (list N) :=
  match leaf, leaves with
  | [], _ => Err "EmptyLeaves"
  | _, [] => Err "EmptyLeaves"
  | _, _ => let nodes := map (kec H) leaves in Ok (process_path H (length nodes) (kec H leaf) nodes)
  end.

(** ** The root of a range of blocks *)

(** What a node knows of the chain: the encoded extrinsics of each block it has, and the last finalised block. *)
Record chain := mkChain { ch_blocks : gmap N (list (list N)); ch_final : N }.
(** extrinsic_utils.rs:86-136 [get_signed_block] and the leaves of a block (58-84). *)
Definition block_leaves (ch : chain) (n : N) : res (list (list N)) :=
  match ch_blocks ch !! n with
  | None => Err "ResponseError"
  | Some l => if ch_final ch <? n then Err "BlockNotFinalised" else Ok l
  end.
(** summary_utils.rs:10-31 [get_extrinsics]: [count] blocks from [from]. *)
Fixpoint range_leaves (ch : chain) (from : N) (count : nat) : res (list (list N)) :=
  match count with
  | O => Ok []
  | S n => match block_leaves ch from with
           | Err e => Err e
           | Ok l => match range_leaves ch (from + 1) n with Err e => Err e | Ok r => Ok (l ++ r) end
           end
  end.
(** external-service/src/lib.rs:433-475 the answer of /roothash/:from_block/:to_block; the empty tree has root 0. *)
Definition root_hash (H : list N -> N) (ch : chain) (from to : N) : res N :=
  match range_leaves ch from (N.to_nat (to + 1 - from)) with
  | Err e => Err e
  | Ok [] => Ok 0
  | Ok l => tree_root H l
  end.
