(* nmigen.lib.fifo.SyncFIFO (first word fall through), as instantiated by axihp_fifo.py:35 (65 bits, 32 entries) and
   b64_b32.py:57-58 (64 bits, 2 entries; 32 bits, 4 entries).  The library source is not in the repository; the
   model is taken from the Verilog generated from it: verilog_src/axihp_fifo.v:1-245 (module "fifo"),
   verilog_src/b64_b32.v:3-432 (modules "fifo32", "fifo64").  The input replace is constantly 0
   (it is not driven by axihp_fifo.py and b64_b32.py:63-66 keeps it at its reset value 0). *)
From Verif Require Import Bits M_Predictor.

Record sf_st := {
  sf_stor : list Z;     (* storage, D words; not reset *)
  sf_prod : Z;          (* produce *)
  sf_cons : Z;          (* consume *)
  sf_lvl : Z            (* level *)
}.
Definition sf_reset (stor : list Z) : sf_st := {| sf_stor := stor; sf_prod := 0; sf_cons := 0; sf_lvl := 0 |}.
Definition sf_writable (D : Z) (s : sf_st) : bool := negb (sf_lvl s =? D).       (* axihp_fifo.v: $2 *)
Definition sf_readable (s : sf_st) : bool := negb (sf_lvl s =? 0).               (* $4 *)
(* storage[consume], combinational *)
Definition sf_dout (s : sf_st) : Z := nth (Z.to_nat (sf_cons s)) (sf_stor s) 0.
(* pointers are log2 D bits wide and wrap by themselves; written with a comparison for any D *)
Definition sf_incr (D p : Z) : Z := if p =? D - 1 then 0 else p + 1.
Definition sf_step (D : Z) (s : sf_st) (we : bool) (din : Z) (re : bool) : sf_st :=
  let do_write := sf_writable D s && we in                                        (* $13, $17, $31 *)
  let do_read := sf_readable s && re in                                           (* $22, $34, $42 *)
  {| sf_stor := if do_write then upd (Z.to_nat (sf_prod s)) din (sf_stor s) else sf_stor s;
     sf_prod := if do_write then sf_incr D (sf_prod s) else sf_prod s;
     sf_cons := if do_read then sf_incr D (sf_cons s) else sf_cons s;
     sf_lvl := if do_read && negb do_write then sf_lvl s - 1
               else if do_write && negb do_read then sf_lvl s + 1 else sf_lvl s |}.

(* ------------------------------------------------------------------ axihp_fifo.py *)

Record af_in := { af_data_in : Z; af_end_in : bool; af_valid_in : bool; af_read : bool }.
(* axihp_fifo.py:44-48: the fifo word is the data word followed by the end flag in bit 0 *)
Definition af_word (i : af_in) : Z := trunc 64 (af_data_in i) * 2 + b2z (af_end_in i).
Definition af_step (s : sf_st) (i : af_in) : sf_st := sf_step 32 s (af_valid_in i) (af_word i) (af_read i).
(* lines 51-63 *)
Definition af_writable (s : sf_st) : bool := sf_writable 32 s.
Definition af_readable (s : sf_st) : bool := sf_readable s.
Definition af_readable16 (s : sf_st) : bool := 16 <=? sf_lvl s.
Definition af_writable16 (s : sf_st) : bool := sf_lvl s <=? 12.
Definition af_data_out (s : sf_st) : Z := slice 1 65 (sf_dout s).
Definition af_end_out (s : sf_st) : bool := slice 0 1 (sf_dout s) =? 1.
Definition af_valid_out (s : sf_st) : bool := sf_readable s.
Fixpoint af_run (s : sf_st) (l : list af_in) : sf_st := match l with [] => s | i :: r => af_run (af_step s i) r end.
(* words written and read in a run *)
Fixpoint af_written (s : sf_st) (l : list af_in) : list (Z * bool) :=
  match l with
  | [] => []
  | i :: r => (if af_valid_in i && af_writable s then [(af_data_in i, af_end_in i)] else []) ++ af_written (af_step s i) r
  end.
Fixpoint af_readout (s : sf_st) (l : list af_in) : list (Z * bool) :=
  match l with
  | [] => []
  | i :: r => (if af_read i && af_valid_out s then [(af_data_out s, af_end_out s)] else []) ++ af_readout (af_step s i) r
  end.

(* ------------------------------------------------------------------ b64_b32.py *)

Inductive b32_in_fsm := B32_IDLE | B32_FILL | B32_REG.        (* FIFO64_IDLE, FIFO64_FILL, HANDLE_REG *)
Record b32_st := {
  b32_fsm : b32_in_fsm; b32_we64 : bool; b32_din64 : Z; b32_reg : Z; b32_busy : bool;
  b32_part2 : bool;                     (* FSM64_TO_FSM32: false PART1, true PART2 *)
  b32_we32 : bool; b32_din32 : Z; b32_buff : Z; b32_re64 : bool;
  b32_f64 : sf_st; b32_f32 : sf_st
}.
Definition b32_init (st64 st32 : list Z) : b32_st :=
  {| b32_fsm := B32_IDLE; b32_we64 := false; b32_din64 := 0; b32_reg := 0; b32_busy := false;
     b32_part2 := false; b32_we32 := false; b32_din32 := 0; b32_buff := 0; b32_re64 := false;
     b32_f64 := sf_reset st64; b32_f32 := sf_reset st32 |}.
Record b32_in := { bi_valid : bool; bi_data : Z; bi_busy : bool }.
(* b64_b32.py:51-135 *)
Definition b32_step (s : b32_st) (i : b32_in) : b32_st :=
  let w64 := sf_writable 2 (b32_f64 s) in
  let r64 := sf_readable (b32_f64 s) in
  let w32 := sf_writable 4 (b32_f32 s) in
  let go := w32 && r64 in
  {| b32_fsm := match b32_fsm s with
                | B32_IDLE => B32_FILL
                | B32_FILL => if bi_valid i then (if w64 then B32_IDLE else B32_REG) else B32_FILL
                | B32_REG => if w64 then B32_IDLE else B32_REG
                end;
     b32_we64 := match b32_fsm s with
                 | B32_IDLE => false
                 | B32_FILL => if bi_valid i && w64 then true else b32_we64 s
                 | B32_REG => if w64 then true else b32_we64 s
                 end;
     b32_din64 := match b32_fsm s with
                  | B32_IDLE => b32_din64 s
                  | B32_FILL => if bi_valid i && w64 then trunc 64 (bi_data i) else b32_din64 s
                  | B32_REG => if w64 then b32_reg s else b32_din64 s
                  end;
     b32_reg := match b32_fsm s with B32_FILL => if bi_valid i && negb w64 then trunc 64 (bi_data i) else b32_reg s | _ => b32_reg s end;
     b32_busy := match b32_fsm s with B32_IDLE => false | B32_FILL => if bi_valid i then true else b32_busy s | B32_REG => b32_busy s end;
     b32_part2 := if b32_part2 s then negb w32 else go;
     b32_we32 := if b32_part2 s then b32_we32 s else if go then true else if w32 then false else b32_we32 s;
     b32_din32 := if b32_part2 s then (if w32 then b32_buff s else b32_din32 s)
                  else if go then slice 32 64 (sf_dout (b32_f64 s)) else b32_din32 s;
     b32_buff := if b32_part2 s then b32_buff s else if go then slice 0 32 (sf_dout (b32_f64 s)) else b32_buff s;
     b32_re64 := if b32_part2 s then false else if go then true else b32_re64 s;
     b32_f64 := sf_step 2 (b32_f64 s) (b32_we64 s) (b32_din64 s) (b32_re64 s);
     b32_f32 := sf_step 4 (b32_f32 s) (b32_we32 s) (b32_din32 s) (negb (bi_busy i)) |}.
(* lines 130-134 *)
Definition b32_valid (s : b32_st) : bool := sf_readable (b32_f32 s).
Definition b32_data (s : b32_st) : Z := sf_dout (b32_f32 s).
Definition b32_acc (s : b32_st) (i : b32_in) : list Z := if bi_valid i && negb (b32_busy s) then [bi_data i] else [].
Definition b32_del (s : b32_st) (i : b32_in) : list Z := if b32_valid s && negb (bi_busy i) then [b32_data s] else [].
Fixpoint b32_run (s : b32_st) (l : list b32_in) : b32_st := match l with [] => s | i :: r => b32_run (b32_step s i) r end.
Fixpoint b32_accepted (s : b32_st) (l : list b32_in) : list Z := match l with [] => [] | i :: r => b32_acc s i ++ b32_accepted (b32_step s i) r end.
Fixpoint b32_delivered (s : b32_st) (l : list b32_in) : list Z := match l with [] => [] | i :: r => b32_del s i ++ b32_delivered (b32_step s i) r end.
