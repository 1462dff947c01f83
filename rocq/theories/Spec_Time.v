(* SPECIFICATION, continued: the time a frame of the complete beta core takes. *)
From Verif Require Import Bits Spec Spec_Core M_Config M_I3 M_Beta Spec_Beta.

(* bytes 0xFF in the code of the samples px: each of them costs the core a zero byte on the wire *)
Definition ff_bytes (t : table) (bd W : Z) (px : list Z) : Z :=
  len (filter (fun b => b =? 255) (flat_map bytes_of (pack 16 (ref_encode t bd W [] px)))).

(* cycles in which the source has nothing to offer, in which the sink is busy, in which the sink is ready *)
Definition gaps (l : list bt_in) : Z := len (filter (fun i => negb (bi_valid i)) l).
Definition stalls (l : list bt_in) : Z := len (filter bi_busy l).
Definition readies (l : list bt_in) : Z := len (filter (fun i => negb (bi_busy i)) l).

(* frame k begins right after the input history p: p is empty (power-on), or its last cycle is the one in which the core resets itself *)
Definition begins_after (c : config) (mem : list Z) (s0 : bt_st) (k : nat) (p : list bt_in) : Prop :=
  length (bt_log c mem [] [] s0 p) = S k /\ forall p' i, p = p' ++ [i] -> length (bt_log c mem [] [] s0 p') = k.
