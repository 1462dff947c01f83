(* SPECIFICATION: memory discipline of a C library *)
From Verif Require Import Bits Spec Spec_Lj92 Spec_P6 Spec_Pn M_Lj92 P_Lj92 M_Enc92 M_Heap.
Ltac Zify.zify_post_hook ::= idtac.

(* nothing was freed that was not allocated at the time; a block is allocated once; its number is that of an earlier call *)
Definition heap_ok (H : heap) : Prop := hp_bad H = false /\ NoDup (hp_live H) /\ forall b, In b (hp_live H) -> (b < hp_n H)%nat.
(* what a handle owns *)
Definition oblk (p : ptr) : list nat := match p with Some b => [b] | None => [] end.
Definition blocks (lj : option handle) : list nat := match lj with Some k => k_self k :: oblk (k_lut k) ++ oblk (k_row k) | None => [] end.
Definition tab_blocks (tab : list (option handle)) : list nat := flat_map blocks tab.
(* pairs FF C4 (the marker DHT) that begin among the first n bytes *)
Definition c4_at (d : lmem) (k : Z) : bool := (d k =? 255) && (d (k + 1) =? 0xc4).
Definition pairs (d : lmem) (n : Z) : nat := length (filter (fun i => c4_at d (Z.of_nat i)) (seq 0 (Z.to_nat n))).
(* an operation on files of bytes; the pairs of its file behind the first *)
Definition op_bytes (op : dec_op) : Prop := match op with OOpen d _ => byte_mem d | OClose _ => True end.
Definition op_files (op : dec_op) : nat := match op with OOpen d dl => (pairs d dl - 1)%nat | OClose _ => 0%nat end.
(* a DHT segment in a well-formed header *)
Definition seg_dht (s : seg) : nat := match s with SDht _ _ => 1 | _ => 0 end.
