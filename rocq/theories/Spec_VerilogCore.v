(* SPECIFICATION for C91: the shipped Verilog core (module top of verilog_src/beta_integration.v) seen at its pins. *)
From Verif Require Import Bits Spec V_Gen Spec_Verilog.
Ltac Zify.zify_post_hook ::= idtac.

(* States from which a frame begins: after configuration of the FPGA, whatever the registers without initial value hold, and after a clock edge with
   full_rst = 1 at any time in any history. *)
Inductive vtp_fresh : vtp_st -> Prop :=
| fresh_powerup : forall a0 a1 d1 d2, vtp_fresh (vtp_powerup a0 a1 d1 d2)
| fresh_full_rst : forall a0 a1 d1 d2 l i, vtp_i_full_rst i = true -> vtp_fresh (vtp_step (fold_left vtp_step l (vtp_powerup a0 a1 d1 d2)) i).

(* inputs of one cycle: full_rst at rest, pixels of 12 bits; no condition on valid_in and busy_in *)
Definition vtp_ok (i : vtp_in) : Prop := vtp_i_full_rst i = false /\ in_range 12 (vtp_i_pixel_in1 i) /\ in_range 12 (vtp_i_pixel_in2 i).

(* pins l: input pins and output pins (valid_out, data_out, end_out, nready) of the successive cycles *)
Definition pins (s : vtp_st) (l : list vtp_in) : list (vtp_in * (bool * Z * bool * bool)) := combine l (trace vtp_step vtp_pins s l).
Definition taken (i : vtp_in) (o : bool * Z * bool * bool) : list (list Z) :=
  let '(v, d, e, nready) := o in if vtp_i_valid_in i && negb nready then [[vtp_i_pixel_in1 i; vtp_i_pixel_in2 i]] else [].
Definition given (i : vtp_in) (o : bool * Z * bool * bool) : list (Z * bool) :=
  let '(v, d, e, nready) := o in if v && negb (vtp_i_busy_in i) then [(d, e)] else [].

(* Frame by frame: the pairs of pixels taken and the words handed over (each with end_out), A and O so far in the frame in progress.  The cycle after the
   one in which a word with end_out = 1 is handed over (r) is the last one of the frame; the last entry is the frame in progress. *)
Fixpoint pin_log (r : bool) (A : list (list Z)) (O : list (Z * bool)) (l : list (vtp_in * (bool * Z * bool * bool))) : list (list (list Z) * list (Z * bool)) :=
  match l with
  | [] => [(A, O)]
  | (i, o) :: t =>
      let A' := A ++ taken i o in let O' := O ++ given i o in
      if r then (A', O') :: pin_log false [] [] t else pin_log (existsb snd (given i o)) A' O' t
  end.
