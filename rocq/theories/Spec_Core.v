(* SPECIFICATION, continued: what a user of the complete core promises. *)
From Verif Require Import Bits Spec M_Config M_I3.

(* frame sizes for which the core is claimed to work: whole groups per row, at least two
   groups and four samples per row, at least three groups in all, 16-bit sizes *)
Definition frame_ok (c : config) (W H : Z) : Prop :=
  W mod ps c = 0 /\ 2 * ps c <= W /\ 4 <= W /\ 1 <= H /\ 3 * ps c <= W * H /\ W < 2 ^ 16 /\ H < 2 ^ 16.

(* one clock cycle of a well-behaved environment: offered pixels have bd bits, and the
   width and height registers hold the frame size.  valid, busy and the pixels are free. *)
Definition in_ok (c : config) (W H : Z) (i : i3_in) : Prop :=
  in_valid i = true -> group_ok (bd c) (ps c) (in_px i) /\ in_w i = W /\ in_h i = H.

(* a state after reset or power-on: block-RAM words and read registers are arbitrary *)
Definition is_reset (c : config) (s : i3_st) : Prop :=
  exists stor1 dout1 stor2 dout2 rps,
    Z.of_nat (length stor1) = ljd c - 1 /\ Z.of_nat (length stor2) = cfd c - 1 /\
    Z.of_nat (length rps) = ps c /\ s = i3_reset c stor1 dout1 stor2 dout2 rps.
