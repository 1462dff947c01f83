(* Bounds for "nothing is held back" (C77) *)
From Verif Require Import Bits Spec Spec_Core Spec_Rate M_Config.
Ltac Zify.zify_post_hook ::= idtac.

(* the bits (and end marks) the core can hold: the packer's buffer, the two fifos, the registers of converter, packer and pipeline *)
Definition store_bits (c : config) : Z := bufs c + cfd c * (conv c + 1) + ljd c * (total_ctr c + 1) + 3 * (conv c + 1) + 9 * (total_ctr c + 1).
(* ready cycles after which the pixels taken so far are out, whatever the source does in the meantime: the time to empty the core, and for every group of ps
   pixels that is taken meanwhile the time that group can cost; more than store_bits / ps of them push the old ones out (a pixel has one bit at least) *)
Definition flush_cycles (c : config) : Z :=
  let k := Z.min (16 + bd c) 31 * ps c / conv c + 1 in drain_cycles c + (k * (conv c + 40) + 27) * (store_bits c / ps c + 1).
