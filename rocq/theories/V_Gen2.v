(* GENERATED by tools/mkvgen2.py: do not edit.
   Further modules of the Verilog shipped in /repo/verilog_src, translated one by one (tools/verilog2coq.py); conventions as in V_Gen.v. *)
From Verif Require Import Bits.
Local Open Scope bool_scope.

(* /repo/verilog_src/b16_b64.v, lines 6-481: module top *)
Record vb6_st := { vb6_buffer2 : Z; vb6_end_out : bool; vb6_counter : Z; vb6_reg_end : bool; vb6_buffer1 : Z; vb6_fsm_state : Z; vb6_o_busy : bool; vb6_buffer2_valid : bool; vb6_buffer1_valid : bool; vb6_buff_chs : bool; vb6_valid_out : bool; vb6_data_out : Z }.
Record vb6_in := { vb6_i_data_in : Z; vb6_i_end_in : bool; vb6_i_i_busy : bool; vb6_i_rst : bool; vb6_i_valid_in : bool }.
Definition vb6_idle : vb6_in := {| vb6_i_data_in := 0; vb6_i_end_in := false; vb6_i_i_busy := false; vb6_i_rst := false; vb6_i_valid_in := false |}.
(* widths: buffer2 64, end_out 1, counter 3, reg_end 1, buffer1 64, fsm_state 4, o_busy 1, buffer2_valid 1, buffer1_valid 1, buff_chs 1, valid_out 1, data_out 64, data_in 16, end_in 1, i_busy 1, rst 1, valid_in 1 *)
Definition vb6_init : vb6_st := {| vb6_buffer2 := 0; vb6_end_out := false; vb6_counter := 0; vb6_reg_end := false; vb6_buffer1 := 0; vb6_fsm_state := 0; vb6_o_busy := false; vb6_buffer2_valid := false; vb6_buffer1_valid := false; vb6_buff_chs := false; vb6_valid_out := false; vb6_data_out := 0 |}.
Definition vb6_n_buffer2 (s : vb6_st) (i : vb6_in) : Z :=
  (let x5 := (if ((vb6_fsm_state s) =? 5) then (if (vb6_i_valid_in i) then (slice 64 64 (vb6_buffer2 s) * 2 ^ 64 + (vb6_i_data_in i) * 2 ^ 48 + slice 0 48 (vb6_buffer2 s)) else (vb6_buffer2 s)) else if ((vb6_fsm_state s) =? 7) then (if (vb6_i_valid_in i) then (slice 48 64 (vb6_buffer2 s) * 2 ^ 48 + (vb6_i_data_in i) * 2 ^ 32 + slice 0 32 (vb6_buffer2 s)) else (vb6_buffer2 s)) else if ((vb6_fsm_state s) =? 8) then (if (vb6_i_valid_in i) then (slice 32 64 (vb6_buffer2 s) * 2 ^ 32 + (vb6_i_data_in i) * 2 ^ 16 + slice 0 16 (vb6_buffer2 s)) else (vb6_buffer2 s)) else if ((vb6_fsm_state s) =? 9) then (if (vb6_i_valid_in i) then (slice 16 64 (vb6_buffer2 s) * 2 ^ 16 + (vb6_i_data_in i) * 2 ^ 0 + slice 0 0 (vb6_buffer2 s)) else (vb6_buffer2 s)) else (vb6_buffer2 s)) in (if (vb6_i_rst i) then 0 else x5)).
Definition vb6_n_end_out (s : vb6_st) (i : vb6_in) : bool :=
  (let x7 := (if (andb (Bool.eqb (vb6_reg_end s) true) ((vb6_counter s) =? 7)) then true else (vb6_end_out s)) in (if (vb6_i_rst i) then false else x7)).
Definition vb6_n_counter (s : vb6_st) (i : vb6_in) : Z :=
  (let x9 := (if (andb (andb (Bool.eqb (vb6_reg_end s) true) (Bool.eqb (vb6_valid_out s) true)) (Bool.eqb (vb6_i_i_busy i) false)) then (slice 0 3 (((vb6_counter s) + 1) mod 2 ^ 4)) else (vb6_counter s)) in (if (vb6_i_rst i) then 0 else x9)).
Definition vb6_n_reg_end (s : vb6_st) (i : vb6_in) : bool :=
  (let x11 := (if (andb (Bool.eqb (vb6_i_valid_in i) true) (Bool.eqb (vb6_o_busy s) false)) then (vb6_i_end_in i) else (vb6_reg_end s)) in (if (vb6_i_rst i) then false else x11)).
Definition vb6_n_buffer1 (s : vb6_st) (i : vb6_in) : Z :=
  (let x17 := (if ((vb6_fsm_state s) =? 1) then (if (vb6_i_valid_in i) then (slice 64 64 (vb6_buffer1 s) * 2 ^ 64 + (vb6_i_data_in i) * 2 ^ 48 + slice 0 48 (vb6_buffer1 s)) else (vb6_buffer1 s)) else if ((vb6_fsm_state s) =? 2) then (if (vb6_i_valid_in i) then (slice 48 64 (vb6_buffer1 s) * 2 ^ 48 + (vb6_i_data_in i) * 2 ^ 32 + slice 0 32 (vb6_buffer1 s)) else (vb6_buffer1 s)) else if ((vb6_fsm_state s) =? 3) then (if (vb6_i_valid_in i) then (slice 32 64 (vb6_buffer1 s) * 2 ^ 32 + (vb6_i_data_in i) * 2 ^ 16 + slice 0 16 (vb6_buffer1 s)) else (vb6_buffer1 s)) else if ((vb6_fsm_state s) =? 4) then (if (vb6_i_valid_in i) then (slice 16 64 (vb6_buffer1 s) * 2 ^ 16 + (vb6_i_data_in i) * 2 ^ 0 + slice 0 0 (vb6_buffer1 s)) else (vb6_buffer1 s)) else (vb6_buffer1 s)) in (if (vb6_i_rst i) then 0 else x17)).
Definition vb6_n_fsm_state (s : vb6_st) (i : vb6_in) : Z :=
  (let x31 := (if ((vb6_fsm_state s) =? 0) then (if (Bool.eqb (vb6_buffer1_valid s) false) then 1 else (vb6_fsm_state s)) else if ((vb6_fsm_state s) =? 1) then (if (vb6_i_valid_in i) then 2 else (vb6_fsm_state s)) else if ((vb6_fsm_state s) =? 2) then (if (vb6_i_valid_in i) then 3 else (vb6_fsm_state s)) else if ((vb6_fsm_state s) =? 3) then (if (vb6_i_valid_in i) then 4 else (vb6_fsm_state s)) else if ((vb6_fsm_state s) =? 4) then (if (vb6_i_valid_in i) then (if (Bool.eqb (vb6_buffer2_valid s) false) then 5 else 6) else (vb6_fsm_state s)) else if ((vb6_fsm_state s) =? 6) then (if (Bool.eqb (vb6_buffer2_valid s) false) then 5 else (vb6_fsm_state s)) else if ((vb6_fsm_state s) =? 5) then (if (vb6_i_valid_in i) then 7 else (vb6_fsm_state s)) else if ((vb6_fsm_state s) =? 7) then (if (vb6_i_valid_in i) then 8 else (vb6_fsm_state s)) else if ((vb6_fsm_state s) =? 8) then (if (vb6_i_valid_in i) then 9 else (vb6_fsm_state s)) else if ((vb6_fsm_state s) =? 9) then (if (vb6_i_valid_in i) then (if (Bool.eqb (vb6_buffer1_valid s) false) then 1 else 0) else (vb6_fsm_state s)) else (vb6_fsm_state s)) in (if (vb6_i_rst i) then 0 else x31)).
Definition vb6_n_o_busy (s : vb6_st) (i : vb6_in) : bool :=
  (let x39 := (if ((vb6_fsm_state s) =? 0) then (if (Bool.eqb (vb6_buffer1_valid s) false) then false else (vb6_o_busy s)) else if ((vb6_fsm_state s) =? 4) then (if (vb6_i_valid_in i) then (if (Bool.eqb (vb6_buffer2_valid s) false) then (vb6_o_busy s) else true) else (vb6_o_busy s)) else if ((vb6_fsm_state s) =? 6) then (if (Bool.eqb (vb6_buffer2_valid s) false) then false else (vb6_o_busy s)) else if ((vb6_fsm_state s) =? 9) then (if (vb6_i_valid_in i) then (if (Bool.eqb (vb6_buffer1_valid s) false) then (vb6_o_busy s) else true) else (vb6_o_busy s)) else (vb6_o_busy s)) in (if (vb6_i_rst i) then false else x39)).
Definition vb6_n_buffer2_valid (s : vb6_st) (i : vb6_in) : bool :=
  (let x44 := (let x42 := (if (andb (Bool.eqb (vb6_valid_out s) true) (Bool.eqb (vb6_i_i_busy i) false)) then (if (Bool.eqb (vb6_buff_chs s) true) then false else (vb6_buffer2_valid s)) else (vb6_buffer2_valid s)) in (if ((vb6_fsm_state s) =? 9) then (if (vb6_i_valid_in i) then true else x42) else x42)) in (if (vb6_i_rst i) then false else x44)).
Definition vb6_n_buffer1_valid (s : vb6_st) (i : vb6_in) : bool :=
  (let x49 := (let x47 := (if (andb (Bool.eqb (vb6_valid_out s) true) (Bool.eqb (vb6_i_i_busy i) false)) then (if (Bool.eqb (vb6_buff_chs s) false) then false else (vb6_buffer1_valid s)) else (vb6_buffer1_valid s)) in (if ((vb6_fsm_state s) =? 4) then (if (vb6_i_valid_in i) then true else x47) else x47)) in (if (vb6_i_rst i) then false else x49)).
Definition vb6_n_buff_chs (s : vb6_st) (i : vb6_in) : bool :=
  (let x51 := (if (andb (Bool.eqb (vb6_valid_out s) true) (Bool.eqb (vb6_i_i_busy i) false)) then (Bool.eqb (vb6_buff_chs s) false) else (vb6_buff_chs s)) in (if (vb6_i_rst i) then false else x51)).
Definition vb6_n_valid_out (s : vb6_st) (i : vb6_in) : bool :=
  (let x53 := (andb (orb (Bool.eqb (vb6_buffer1_valid s) true) (Bool.eqb (vb6_buffer2_valid s) true)) (Bool.eqb (if (andb (Bool.eqb (vb6_valid_out s) true) (Bool.eqb (vb6_i_i_busy i) false)) then false else true) true)) in (if (vb6_i_rst i) then false else x53)).
Definition vb6_n_data_out (s : vb6_st) (i : vb6_in) : Z :=
  (let x56 := (let x55 := (if (Bool.eqb (vb6_buff_chs s) false) then (vb6_buffer1 s) else (vb6_data_out s)) in (if (Bool.eqb (vb6_buff_chs s) true) then (vb6_buffer2 s) else x55)) in (if (vb6_i_rst i) then 0 else x56)).
Definition vb6_step (s : vb6_st) (i : vb6_in) : vb6_st := {| vb6_buffer2 := vb6_n_buffer2 s i; vb6_end_out := vb6_n_end_out s i; vb6_counter := vb6_n_counter s i; vb6_reg_end := vb6_n_reg_end s i; vb6_buffer1 := vb6_n_buffer1 s i; vb6_fsm_state := vb6_n_fsm_state s i; vb6_o_busy := vb6_n_o_busy s i; vb6_buffer2_valid := vb6_n_buffer2_valid s i; vb6_buffer1_valid := vb6_n_buffer1_valid s i; vb6_buff_chs := vb6_n_buff_chs s i; vb6_valid_out := vb6_n_valid_out s i; vb6_data_out := vb6_n_data_out s i |}.
Definition vb6_o_data_out (s : vb6_st) (i : vb6_in) : Z :=
  (vb6_data_out s).
Definition vb6_o_end_out (s : vb6_st) (i : vb6_in) : bool :=
  (vb6_end_out s).
Definition vb6_o_o_busy (s : vb6_st) (i : vb6_in) : bool :=
  (vb6_o_busy s).
Definition vb6_o_valid_out (s : vb6_st) (i : vb6_in) : bool :=
  (vb6_valid_out s).

(* /repo/verilog_src/b16_b40.v, lines 6-415: module top *)
Record vb4_st := { vb4_temp_8 : bool; vb4_buffer2 : Z; vb4_buffer1 : Z; vb4_fsm_state : Z; vb4_o_busy : bool; vb4_buffer2_valid : bool; vb4_buffer1_valid : bool; vb4_buff_chs : bool; vb4_valid_out : bool }.
Record vb4_in := { vb4_i_data_in : Z; vb4_i_full_rst : bool; vb4_i_i_busy : bool; vb4_i_rst : bool; vb4_i_valid_in : bool }.
Definition vb4_idle : vb4_in := {| vb4_i_data_in := 0; vb4_i_full_rst := false; vb4_i_i_busy := false; vb4_i_rst := false; vb4_i_valid_in := false |}.
(* widths: temp_8 1, buffer2 40, buffer1 40, fsm_state 3, o_busy 1, buffer2_valid 1, buffer1_valid 1, buff_chs 1, valid_out 1, data_in 16, full_rst 1, i_busy 1, rst 1, valid_in 1 *)
Definition vb4_init : vb4_st := {| vb4_temp_8 := false; vb4_buffer2 := 0; vb4_buffer1 := 0; vb4_fsm_state := 0; vb4_o_busy := false; vb4_buffer2_valid := false; vb4_buffer1_valid := false; vb4_buff_chs := false; vb4_valid_out := false |}.
Definition vb4_n_temp_8 (s : vb4_st) (i : vb4_in) : bool :=
  (let x3 := (if ((vb4_fsm_state s) =? 3) then (if (vb4_i_valid_in i) then (if (Bool.eqb (vb4_buffer2_valid s) false) then (vb4_temp_8 s) else (Z.testbit (vb4_i_data_in i) 0)) else (vb4_temp_8 s)) else (vb4_temp_8 s)) in (if (vb4_i_full_rst i) then false else x3)).
Definition vb4_n_buffer2 (s : vb4_st) (i : vb4_in) : Z :=
  (let x10 := (if ((vb4_fsm_state s) =? 3) then (if (vb4_i_valid_in i) then (if (Bool.eqb (vb4_buffer2_valid s) false) then (slice 40 40 (vb4_buffer2 s) * 2 ^ 40 + (slice 0 8 (vb4_i_data_in i)) * 2 ^ 32 + slice 0 32 (vb4_buffer2 s)) else (vb4_buffer2 s)) else (vb4_buffer2 s)) else if ((vb4_fsm_state s) =? 5) then (if (Bool.eqb (vb4_buffer2_valid s) false) then (slice 40 40 (vb4_buffer2 s) * 2 ^ 40 + (b2z (vb4_temp_8 s)) * 2 ^ 32 + slice 0 32 (vb4_buffer2 s)) else (vb4_buffer2 s)) else if ((vb4_fsm_state s) =? 4) then (if (vb4_i_valid_in i) then (slice 32 40 (vb4_buffer2 s) * 2 ^ 32 + (vb4_i_data_in i) * 2 ^ 16 + slice 0 16 (vb4_buffer2 s)) else (vb4_buffer2 s)) else if ((vb4_fsm_state s) =? 6) then (if (vb4_i_valid_in i) then (slice 16 40 (vb4_buffer2 s) * 2 ^ 16 + (vb4_i_data_in i) * 2 ^ 0 + slice 0 0 (vb4_buffer2 s)) else (vb4_buffer2 s)) else (vb4_buffer2 s)) in (if (vb4_i_full_rst i) then 0 else x10)).
Definition vb4_n_buffer1 (s : vb4_st) (i : vb4_in) : Z :=
  (let x15 := (if ((vb4_fsm_state s) =? 1) then (if (vb4_i_valid_in i) then (slice 40 40 (vb4_buffer1 s) * 2 ^ 40 + (vb4_i_data_in i) * 2 ^ 24 + slice 0 24 (vb4_buffer1 s)) else (vb4_buffer1 s)) else if ((vb4_fsm_state s) =? 2) then (if (vb4_i_valid_in i) then (slice 24 40 (vb4_buffer1 s) * 2 ^ 24 + (vb4_i_data_in i) * 2 ^ 8 + slice 0 8 (vb4_buffer1 s)) else (vb4_buffer1 s)) else if ((vb4_fsm_state s) =? 3) then (if (vb4_i_valid_in i) then (slice 8 40 (vb4_buffer1 s) * 2 ^ 8 + (slice 8 16 (vb4_i_data_in i)) * 2 ^ 0 + slice 0 0 (vb4_buffer1 s)) else (vb4_buffer1 s)) else (vb4_buffer1 s)) in (if (vb4_i_full_rst i) then 0 else x15)).
Definition vb4_n_fsm_state (s : vb4_st) (i : vb4_in) : Z :=
  (let x26 := (if ((vb4_fsm_state s) =? 0) then (if (Bool.eqb (vb4_buffer1_valid s) false) then 1 else (vb4_fsm_state s)) else if ((vb4_fsm_state s) =? 1) then (if (vb4_i_valid_in i) then 2 else (vb4_fsm_state s)) else if ((vb4_fsm_state s) =? 2) then (if (vb4_i_valid_in i) then 3 else (vb4_fsm_state s)) else if ((vb4_fsm_state s) =? 3) then (if (vb4_i_valid_in i) then (if (Bool.eqb (vb4_buffer2_valid s) false) then 4 else 5) else (vb4_fsm_state s)) else if ((vb4_fsm_state s) =? 5) then (if (Bool.eqb (vb4_buffer2_valid s) false) then 4 else (vb4_fsm_state s)) else if ((vb4_fsm_state s) =? 4) then (if (vb4_i_valid_in i) then 6 else (vb4_fsm_state s)) else if ((vb4_fsm_state s) =? 6) then (if (vb4_i_valid_in i) then (if (Bool.eqb (vb4_buffer1_valid s) false) then 1 else 0) else (vb4_fsm_state s)) else (vb4_fsm_state s)) in (if (vb4_i_rst i) then 0 else x26)).
Definition vb4_n_o_busy (s : vb4_st) (i : vb4_in) : bool :=
  (let x34 := (if ((vb4_fsm_state s) =? 0) then (if (Bool.eqb (vb4_buffer1_valid s) false) then false else (vb4_o_busy s)) else if ((vb4_fsm_state s) =? 3) then (if (vb4_i_valid_in i) then (if (Bool.eqb (vb4_buffer2_valid s) false) then (vb4_o_busy s) else true) else (vb4_o_busy s)) else if ((vb4_fsm_state s) =? 5) then (if (Bool.eqb (vb4_buffer2_valid s) false) then false else (vb4_o_busy s)) else if ((vb4_fsm_state s) =? 6) then (if (vb4_i_valid_in i) then (if (Bool.eqb (vb4_buffer1_valid s) false) then (vb4_o_busy s) else true) else (vb4_o_busy s)) else (vb4_o_busy s)) in (if (vb4_i_full_rst i) then false else x34)).
Definition vb4_n_buffer2_valid (s : vb4_st) (i : vb4_in) : bool :=
  (let x39 := (let x37 := (if (andb (Bool.eqb (vb4_valid_out s) true) (Bool.eqb (vb4_i_i_busy i) false)) then (if (Bool.eqb (vb4_buff_chs s) true) then false else (vb4_buffer2_valid s)) else (vb4_buffer2_valid s)) in (if ((vb4_fsm_state s) =? 6) then (if (vb4_i_valid_in i) then true else x37) else x37)) in (if (vb4_i_full_rst i) then false else x39)).
Definition vb4_n_buffer1_valid (s : vb4_st) (i : vb4_in) : bool :=
  (let x44 := (let x42 := (if (andb (Bool.eqb (vb4_valid_out s) true) (Bool.eqb (vb4_i_i_busy i) false)) then (if (Bool.eqb (vb4_buff_chs s) false) then false else (vb4_buffer1_valid s)) else (vb4_buffer1_valid s)) in (if ((vb4_fsm_state s) =? 3) then (if (vb4_i_valid_in i) then true else x42) else x42)) in (if (vb4_i_full_rst i) then false else x44)).
Definition vb4_n_buff_chs (s : vb4_st) (i : vb4_in) : bool :=
  (let x46 := (if (andb (Bool.eqb (vb4_valid_out s) true) (Bool.eqb (vb4_i_i_busy i) false)) then (Bool.eqb (vb4_buff_chs s) false) else (vb4_buff_chs s)) in (if (vb4_i_full_rst i) then false else x46)).
Definition vb4_n_valid_out (s : vb4_st) (i : vb4_in) : bool :=
  (let x48 := (andb (orb (Bool.eqb (vb4_buffer1_valid s) true) (Bool.eqb (vb4_buffer2_valid s) true)) (Bool.eqb (if (andb (Bool.eqb (vb4_valid_out s) true) (Bool.eqb (vb4_i_i_busy i) false)) then false else true) true)) in (if (vb4_i_full_rst i) then false else x48)).
Definition vb4_step (s : vb4_st) (i : vb4_in) : vb4_st := {| vb4_temp_8 := vb4_n_temp_8 s i; vb4_buffer2 := vb4_n_buffer2 s i; vb4_buffer1 := vb4_n_buffer1 s i; vb4_fsm_state := vb4_n_fsm_state s i; vb4_o_busy := vb4_n_o_busy s i; vb4_buffer2_valid := vb4_n_buffer2_valid s i; vb4_buffer1_valid := vb4_n_buffer1_valid s i; vb4_buff_chs := vb4_n_buff_chs s i; vb4_valid_out := vb4_n_valid_out s i |}.
Definition vb4_o_data_out (s : vb4_st) (i : vb4_in) : Z :=
  (if (Bool.eqb (vb4_buff_chs s) false) then (vb4_buffer1 s) else (vb4_buffer2 s)).
Definition vb4_o_o_busy (s : vb4_st) (i : vb4_in) : bool :=
  (vb4_o_busy s).
Definition vb4_o_valid_out (s : vb4_st) (i : vb4_in) : bool :=
  (vb4_valid_out s).

(* /repo/verilog_src/axihp_writer.v, lines 6-534: module top *)
Record vhw_st := { vhw_unconf : Z; vhw_active : Z; vhw_bready : bool; vhw_wvalid : bool; vhw_wlast : bool; vhw_counter : Z; vhw_awvalid : bool }.
Record vhw_in := { vhw_i_addr_empty : bool; vhw_i_addr_in : Z; vhw_i_data_empty : bool; vhw_i_data_in : Z; vhw_i_enable : bool; vhw_i_m_axi_aclk : bool; vhw_i_m_axi_wi__awready : bool; vhw_i_m_axi_wi__bresp : Z; vhw_i_m_axi_wi__bvalid : bool; vhw_i_m_axi_wi__wready : bool; vhw_i_rst : bool; vhw_i_write_strobe : Z }.
Definition vhw_idle : vhw_in := {| vhw_i_addr_empty := false; vhw_i_addr_in := 0; vhw_i_data_empty := false; vhw_i_data_in := 0; vhw_i_enable := false; vhw_i_m_axi_aclk := false; vhw_i_m_axi_wi__awready := false; vhw_i_m_axi_wi__bresp := 0; vhw_i_m_axi_wi__bvalid := false; vhw_i_m_axi_wi__wready := false; vhw_i_rst := false; vhw_i_write_strobe := 0 |}.
(* widths: unconf 4, active 4, bready 1, wvalid 1, wlast 1, counter 4, awvalid 1, addr_empty 1, addr_in 32, data_empty 1, data_in 64, enable 1, m_axi_aclk 1, m_axi_wi__awready 1, m_axi_wi__bresp 2, m_axi_wi__bvalid 1, m_axi_wi__wready 1, rst 1, write_strobe 8 *)
Definition vhw_init : vhw_st := {| vhw_unconf := 0; vhw_active := 0; vhw_bready := false; vhw_wvalid := false; vhw_wlast := false; vhw_counter := 0; vhw_awvalid := false |}.
Definition vhw_n_unconf (s : vhw_st) (i : vhw_in) : Z :=
  (let x1 := (if (andb (Bool.eqb (andb (Bool.eqb (vhw_awvalid s) true) (Bool.eqb (vhw_i_m_axi_wi__awready i) true)) true) (Bool.eqb (andb (Bool.eqb (vhw_bready s) true) (Bool.eqb (vhw_i_m_axi_wi__bvalid i) true)) false)) then (slice 0 4 (((vhw_unconf s) + 1) mod 2 ^ 5)) else if (andb (Bool.eqb (andb (Bool.eqb (vhw_awvalid s) true) (Bool.eqb (vhw_i_m_axi_wi__awready i) true)) false) (Bool.eqb (andb (Bool.eqb (vhw_bready s) true) (Bool.eqb (vhw_i_m_axi_wi__bvalid i) true)) true)) then (slice 0 4 (((vhw_unconf s) - 1) mod 2 ^ 5)) else (vhw_unconf s)) in (if (vhw_i_rst i) then 0 else x1)).
Definition vhw_n_active (s : vhw_st) (i : vhw_in) : Z :=
  (let x3 := (if (andb (Bool.eqb (andb (Bool.eqb (vhw_awvalid s) true) (Bool.eqb (vhw_i_m_axi_wi__awready i) true)) true) (Bool.eqb (vhw_wlast s) false)) then (slice 0 4 (((vhw_active s) + 1) mod 2 ^ 5)) else if (andb (Bool.eqb (andb (Bool.eqb (vhw_awvalid s) true) (Bool.eqb (vhw_i_m_axi_wi__awready i) true)) false) (Bool.eqb (vhw_wlast s) true)) then (slice 0 4 (((vhw_active s) - 1) mod 2 ^ 5)) else (vhw_active s)) in (if (vhw_i_rst i) then 0 else x3)).
Definition vhw_n_bready (s : vhw_st) (i : vhw_in) : bool :=
  (let x7 := (if (Bool.eqb (vhw_bready s) false) then (if (vhw_i_enable i) then true else (vhw_bready s)) else (if ((vhw_unconf s) =? 0) then false else (vhw_bready s))) in (if (vhw_i_rst i) then false else x7)).
Definition vhw_n_wvalid (s : vhw_st) (i : vhw_in) : bool :=
  (let x11 := (if (Bool.eqb (vhw_wvalid s) false) then (if (andb (Bool.eqb (vhw_i_data_empty i) false) (negb ((vhw_active s) =? 0))) then true else (vhw_wvalid s)) else (if (vhw_wlast s) then false else (vhw_wvalid s))) in (if (vhw_i_rst i) then false else x11)).
Definition vhw_n_wlast (s : vhw_st) (i : vhw_in) : bool :=
  (let x14 := (if (andb (Bool.eqb (vhw_wvalid s) true) (Bool.eqb (vhw_i_m_axi_wi__wready i) true)) then (if ((vhw_counter s) =? 15) then true else false) else (vhw_wlast s)) in (if (vhw_i_rst i) then false else x14)).
Definition vhw_n_counter (s : vhw_st) (i : vhw_in) : Z :=
  (let x17 := (if (andb (Bool.eqb (vhw_wvalid s) true) (Bool.eqb (vhw_i_m_axi_wi__wready i) true)) then (if ((vhw_counter s) =? 15) then 0 else (slice 0 4 (((vhw_counter s) + 1) mod 2 ^ 5))) else (vhw_counter s)) in (if (vhw_i_rst i) then 0 else x17)).
Definition vhw_n_awvalid (s : vhw_st) (i : vhw_in) : bool :=
  (let x22 := (let x20 := (if (Bool.eqb (vhw_awvalid s) false) then (if (andb (andb (Bool.eqb (vhw_i_enable i) true) (Bool.eqb (vhw_i_addr_empty i) false)) (Bool.eqb (Z.testbit (vhw_active s) 3) false)) then true else (vhw_awvalid s)) else (vhw_awvalid s)) in (if (vhw_awvalid s) then (if (vhw_i_m_axi_wi__awready i) then false else x20) else x20)) in (if (vhw_i_rst i) then false else x22)).
Definition vhw_step (s : vhw_st) (i : vhw_in) : vhw_st := {| vhw_unconf := vhw_n_unconf s i; vhw_active := vhw_n_active s i; vhw_bready := vhw_n_bready s i; vhw_wvalid := vhw_n_wvalid s i; vhw_wlast := vhw_n_wlast s i; vhw_counter := vhw_n_counter s i; vhw_awvalid := vhw_n_awvalid s i |}.
Definition vhw_o_addr_clk (s : vhw_st) (i : vhw_in) : bool :=
  (vhw_i_m_axi_aclk i).
Definition vhw_o_addr_enable (s : vhw_st) (i : vhw_in) : bool :=
  (andb (Bool.eqb (vhw_awvalid s) true) (Bool.eqb (vhw_i_m_axi_wi__awready i) true)).
Definition vhw_o_data_clk (s : vhw_st) (i : vhw_in) : bool :=
  (vhw_i_m_axi_aclk i).
Definition vhw_o_data_enable (s : vhw_st) (i : vhw_in) : bool :=
  (andb (Bool.eqb (vhw_wvalid s) true) (Bool.eqb (vhw_i_m_axi_wi__wready i) true)).
Definition vhw_o_inactive (s : vhw_st) (i : vhw_in) : bool :=
  (andb ((vhw_active s) =? 0) ((vhw_unconf s) =? 0)).
Definition vhw_o_m_axi_wo__awaddr (s : vhw_st) (i : vhw_in) : Z :=
  (vhw_i_addr_in i).
Definition vhw_o_m_axi_wo__awburst (s : vhw_st) (i : vhw_in) : Z :=
  1.
Definition vhw_o_m_axi_wo__awid (s : vhw_st) (i : vhw_in) : Z :=
  0.
Definition vhw_o_m_axi_wo__awlen (s : vhw_st) (i : vhw_in) : Z :=
  15.
Definition vhw_o_m_axi_wo__awprot (s : vhw_st) (i : vhw_in) : Z :=
  0.
Definition vhw_o_m_axi_wo__awsize (s : vhw_st) (i : vhw_in) : Z :=
  3.
Definition vhw_o_m_axi_wo__awvalid (s : vhw_st) (i : vhw_in) : bool :=
  (vhw_awvalid s).
Definition vhw_o_m_axi_wo__bready (s : vhw_st) (i : vhw_in) : bool :=
  (vhw_bready s).
Definition vhw_o_m_axi_wo__wdata (s : vhw_st) (i : vhw_in) : Z :=
  (vhw_i_data_in i).
Definition vhw_o_m_axi_wo__wid (s : vhw_st) (i : vhw_in) : Z :=
  0.
Definition vhw_o_m_axi_wo__wlast (s : vhw_st) (i : vhw_in) : bool :=
  (vhw_wlast s).
Definition vhw_o_m_axi_wo__wstrb (s : vhw_st) (i : vhw_in) : Z :=
  (vhw_i_write_strobe i).
Definition vhw_o_m_axi_wo__wvalid (s : vhw_st) (i : vhw_in) : bool :=
  (vhw_wvalid s).
Definition vhw_o_writer_active (s : vhw_st) (i : vhw_in) : Z :=
  (vhw_active s).
Definition vhw_o_writer_error (s : vhw_st) (i : vhw_in) : bool :=
  (andb (Bool.eqb (andb (Bool.eqb (vhw_bready s) true) (Bool.eqb (vhw_i_m_axi_wi__bvalid i) true)) true) (negb ((vhw_i_m_axi_wi__bresp i) =? 0))).
Definition vhw_o_writer_unconf (s : vhw_st) (i : vhw_in) : Z :=
  (vhw_unconf s).

(* /repo/verilog_src/axihp_reader.v, lines 6-343: module top *)
Record vhr_st := { vhr_active : Z; vhr_rready : bool; vhr_arvalid : bool }.
Record vhr_in := { vhr_i_addr_empty : bool; vhr_i_addr_in : Z; vhr_i_data_full : bool; vhr_i_enable : bool; vhr_i_m_axi_aclk_ : bool; vhr_i_m_axi_ri__arready : bool; vhr_i_m_axi_ri__rdata : Z; vhr_i_m_axi_ri__rlast : bool; vhr_i_m_axi_ri__rresp : Z; vhr_i_m_axi_ri__rvalid : bool; vhr_i_rst : bool }.
Definition vhr_idle : vhr_in := {| vhr_i_addr_empty := false; vhr_i_addr_in := 0; vhr_i_data_full := false; vhr_i_enable := false; vhr_i_m_axi_aclk_ := false; vhr_i_m_axi_ri__arready := false; vhr_i_m_axi_ri__rdata := 0; vhr_i_m_axi_ri__rlast := false; vhr_i_m_axi_ri__rresp := 0; vhr_i_m_axi_ri__rvalid := false; vhr_i_rst := false |}.
(* widths: active 4, rready 1, arvalid 1, addr_empty 1, addr_in 32, data_full 1, enable 1, m_axi_aclk_ 1, m_axi_ri__arready 1, m_axi_ri__rdata 64, m_axi_ri__rlast 1, m_axi_ri__rresp 2, m_axi_ri__rvalid 1, rst 1 *)
Definition vhr_init : vhr_st := {| vhr_active := 0; vhr_rready := false; vhr_arvalid := false |}.
Definition vhr_n_active (s : vhr_st) (i : vhr_in) : Z :=
  (let x1 := (if (andb (Bool.eqb (andb (Bool.eqb (vhr_arvalid s) true) (Bool.eqb (vhr_i_m_axi_ri__arready i) true)) true) (Bool.eqb (vhr_i_m_axi_ri__rlast i) false)) then (slice 0 4 (((vhr_active s) + 1) mod 2 ^ 5)) else if (andb (Bool.eqb (andb (Bool.eqb (vhr_arvalid s) true) (Bool.eqb (vhr_i_m_axi_ri__arready i) true)) false) (Bool.eqb (vhr_i_m_axi_ri__rlast i) true)) then (slice 0 4 (((vhr_active s) - 1) mod 2 ^ 5)) else (vhr_active s)) in (if (vhr_i_rst i) then 0 else x1)).
Definition vhr_n_rready (s : vhr_st) (i : vhr_in) : bool :=
  (let x5 := (if (Bool.eqb (vhr_rready s) false) then (if (andb (Bool.eqb (vhr_i_data_full i) false) (negb ((vhr_active s) =? 0))) then true else (vhr_rready s)) else (if (vhr_i_m_axi_ri__rlast i) then false else (vhr_rready s))) in (if (vhr_i_rst i) then false else x5)).
Definition vhr_n_arvalid (s : vhr_st) (i : vhr_in) : bool :=
  (let x10 := (let x8 := (if (Bool.eqb (vhr_arvalid s) false) then (if (andb (andb (Bool.eqb (vhr_i_enable i) true) (Bool.eqb (vhr_i_addr_empty i) false)) (Bool.eqb (Z.testbit (vhr_active s) 3) false)) then true else (vhr_arvalid s)) else (vhr_arvalid s)) in (if (vhr_arvalid s) then (if (vhr_i_m_axi_ri__arready i) then false else x8) else x8)) in (if (vhr_i_rst i) then false else x10)).
Definition vhr_step (s : vhr_st) (i : vhr_in) : vhr_st := {| vhr_active := vhr_n_active s i; vhr_rready := vhr_n_rready s i; vhr_arvalid := vhr_n_arvalid s i |}.
Definition vhr_o_addr_clk (s : vhr_st) (i : vhr_in) : bool :=
  (vhr_i_m_axi_aclk_ i).
Definition vhr_o_addr_enable (s : vhr_st) (i : vhr_in) : bool :=
  (andb (Bool.eqb (vhr_arvalid s) true) (Bool.eqb (vhr_i_m_axi_ri__arready i) true)).
Definition vhr_o_data_clk (s : vhr_st) (i : vhr_in) : bool :=
  (vhr_i_m_axi_aclk_ i).
Definition vhr_o_data_enable (s : vhr_st) (i : vhr_in) : bool :=
  (andb (Bool.eqb (vhr_rready s) true) (Bool.eqb (vhr_i_m_axi_ri__rvalid i) true)).
Definition vhr_o_data_out (s : vhr_st) (i : vhr_in) : Z :=
  (vhr_i_m_axi_ri__rdata i).
Definition vhr_o_inactive (s : vhr_st) (i : vhr_in) : bool :=
  ((vhr_active s) =? 0).
Definition vhr_o_m_axi_ro__araddr (s : vhr_st) (i : vhr_in) : Z :=
  (vhr_i_addr_in i).
Definition vhr_o_m_axi_ro__arburst (s : vhr_st) (i : vhr_in) : Z :=
  1.
Definition vhr_o_m_axi_ro__arid (s : vhr_st) (i : vhr_in) : Z :=
  0.
Definition vhr_o_m_axi_ro__arlen (s : vhr_st) (i : vhr_in) : Z :=
  15.
Definition vhr_o_m_axi_ro__arprot (s : vhr_st) (i : vhr_in) : Z :=
  0.
Definition vhr_o_m_axi_ro__arsize (s : vhr_st) (i : vhr_in) : Z :=
  3.
Definition vhr_o_m_axi_ro__arvalid (s : vhr_st) (i : vhr_in) : bool :=
  (vhr_arvalid s).
Definition vhr_o_m_axi_ro__rready (s : vhr_st) (i : vhr_in) : bool :=
  (vhr_rready s).
Definition vhr_o_reader_active (s : vhr_st) (i : vhr_in) : Z :=
  (vhr_active s).
Definition vhr_o_reader_error (s : vhr_st) (i : vhr_in) : bool :=
  (andb (Bool.eqb (andb (Bool.eqb (vhr_rready s) true) (Bool.eqb (vhr_i_m_axi_ri__rvalid i) true)) true) (negb ((vhr_i_m_axi_ri__rresp i) =? 0))).

(* /repo/verilog_src/b64_b32_2.v, lines 6-336: module top *)
Record vb2_st := { vb2_half_latched : bool; vb2_valid_out : bool; vb2_data_out : Z; vb2_reg_valid : bool; vb2_reg : Z; vb2_o_busy : bool }.
Record vb2_in := { vb2_i_data_in : Z; vb2_i_full_rst : bool; vb2_i_i_busy : bool; vb2_i_valid_in : bool }.
Definition vb2_idle : vb2_in := {| vb2_i_data_in := 0; vb2_i_full_rst := false; vb2_i_i_busy := false; vb2_i_valid_in := false |}.
(* widths: half_latched 1, valid_out 1, data_out 24, reg_valid 1, reg 64, o_busy 1, data_in 64, full_rst 1, i_busy 1, valid_in 1 *)
Definition vb2_init : vb2_st := {| vb2_half_latched := false; vb2_valid_out := false; vb2_data_out := 0; vb2_reg_valid := false; vb2_reg := 0; vb2_o_busy := true |}.
Definition vb2_n_half_latched (s : vb2_st) (i : vb2_in) : bool :=
  (let x3 := (let x1 := (if (andb (andb (Bool.eqb (vb2_reg_valid s) true) (Bool.eqb (vb2_valid_out s) false)) (Bool.eqb (vb2_half_latched s) false)) then true else (vb2_half_latched s)) in (if (andb (andb (Bool.eqb (vb2_reg_valid s) true) (Bool.eqb (vb2_i_i_busy i) false)) (Bool.eqb (vb2_valid_out s) true)) then (if (Bool.eqb (vb2_half_latched s) true) then false else true) else x1)) in (if (vb2_i_full_rst i) then false else x3)).
Definition vb2_n_valid_out (s : vb2_st) (i : vb2_in) : bool :=
  (let x8 := (let x7 := (let x5 := (if (andb (andb (Bool.eqb (vb2_reg_valid s) true) (Bool.eqb (vb2_valid_out s) false)) (Bool.eqb (vb2_half_latched s) false)) then true else (vb2_valid_out s)) in (if (andb (andb (Bool.eqb (vb2_reg_valid s) true) (Bool.eqb (vb2_i_i_busy i) false)) (Bool.eqb (vb2_valid_out s) true)) then (if (Bool.eqb (vb2_half_latched s) true) then true else true) else x5)) in (if (andb (andb (Bool.eqb (vb2_reg_valid s) false) (Bool.eqb (vb2_i_i_busy i) false)) (Bool.eqb (vb2_valid_out s) true)) then false else x7)) in (if (vb2_i_full_rst i) then false else x8)).
Definition vb2_n_data_out (s : vb2_st) (i : vb2_in) : Z :=
  (let x12 := (let x10 := (if (andb (andb (Bool.eqb (vb2_reg_valid s) true) (Bool.eqb (vb2_valid_out s) false)) (Bool.eqb (vb2_half_latched s) false)) then (slice 40 64 (vb2_reg s)) else (vb2_data_out s)) in (if (andb (andb (Bool.eqb (vb2_reg_valid s) true) (Bool.eqb (vb2_i_i_busy i) false)) (Bool.eqb (vb2_valid_out s) true)) then (if (Bool.eqb (vb2_half_latched s) true) then (slice 16 40 (vb2_reg s)) else (slice 40 64 (vb2_reg s))) else x10)) in (if (vb2_i_full_rst i) then 0 else x12)).
Definition vb2_n_reg_valid (s : vb2_st) (i : vb2_in) : bool :=
  (let x19 := (let x16 := (if (andb (Bool.eqb (vb2_i_valid_in i) true) (orb (Bool.eqb (vb2_reg_valid s) false) (Bool.eqb (if (andb (andb (Bool.eqb (vb2_reg_valid s) true) (Bool.eqb (vb2_i_i_busy i) false)) (Bool.eqb (vb2_valid_out s) true)) then (if (Bool.eqb (vb2_half_latched s) true) then true else false) else false) true))) then true else (vb2_reg_valid s)) in (if (andb (andb (Bool.eqb (vb2_reg_valid s) true) (Bool.eqb (vb2_i_i_busy i) false)) (Bool.eqb (vb2_valid_out s) true)) then (if (Bool.eqb (vb2_half_latched s) true) then (if (Bool.eqb (vb2_i_valid_in i) false) then false else x16) else x16) else x16)) in (if (vb2_i_full_rst i) then false else x19)).
Definition vb2_n_reg (s : vb2_st) (i : vb2_in) : Z :=
  (let x23 := (if (andb (Bool.eqb (vb2_i_valid_in i) true) (orb (Bool.eqb (vb2_reg_valid s) false) (Bool.eqb (if (andb (andb (Bool.eqb (vb2_reg_valid s) true) (Bool.eqb (vb2_i_i_busy i) false)) (Bool.eqb (vb2_valid_out s) true)) then (if (Bool.eqb (vb2_half_latched s) true) then true else false) else false) true))) then (vb2_i_data_in i) else (vb2_reg s)) in (if (vb2_i_full_rst i) then 0 else x23)).
Definition vb2_n_o_busy (s : vb2_st) (i : vb2_in) : bool :=
  (let x27 := (if (andb (Bool.eqb (vb2_i_valid_in i) true) (orb (Bool.eqb (vb2_reg_valid s) false) (Bool.eqb (if (andb (andb (Bool.eqb (vb2_reg_valid s) true) (Bool.eqb (vb2_i_i_busy i) false)) (Bool.eqb (vb2_valid_out s) true)) then (if (Bool.eqb (vb2_half_latched s) true) then true else false) else false) true))) then false else true) in (if (vb2_i_full_rst i) then true else x27)).
Definition vb2_step (s : vb2_st) (i : vb2_in) : vb2_st := {| vb2_half_latched := vb2_n_half_latched s i; vb2_valid_out := vb2_n_valid_out s i; vb2_data_out := vb2_n_data_out s i; vb2_reg_valid := vb2_n_reg_valid s i; vb2_reg := vb2_n_reg s i; vb2_o_busy := vb2_n_o_busy s i |}.
Definition vb2_o_data_out (s : vb2_st) (i : vb2_in) : Z :=
  (vb2_data_out s).
Definition vb2_o_o_busy (s : vb2_st) (i : vb2_in) : bool :=
  (vb2_o_busy s).
Definition vb2_o_valid_out (s : vb2_st) (i : vb2_in) : bool :=
  (vb2_valid_out s).

(* /repo/verilog_src/axi_lite.v, lines 6-312: module top *)
Record val_st := { val_s_axi_wo__bid : Z; val_s_axi_ro__rid : Z; val_rwid : Z }.
Record val_in := { val_i_m_axi_ri__arready : bool; val_i_m_axi_ri__rdata : Z; val_i_m_axi_ri__rresp : Z; val_i_m_axi_ri__rvalid : bool; val_i_m_axi_wi__awready : bool; val_i_m_axi_wi__bresp : Z; val_i_m_axi_wi__bvalid : bool; val_i_m_axi_wi__wready : bool; val_i_rst : bool; val_i_s_axi_aclk : bool; val_i_s_axi_areset_n : bool; val_i_s_axi_ri__araddr : Z; val_i_s_axi_ri__arid : Z; val_i_s_axi_ri__arprot : Z; val_i_s_axi_ri__arvalid : bool; val_i_s_axi_ri__rready : bool; val_i_s_axi_wi__awaddr : Z; val_i_s_axi_wi__awid : Z; val_i_s_axi_wi__awprot : Z; val_i_s_axi_wi__awvalid : bool; val_i_s_axi_wi__bready : bool; val_i_s_axi_wi__wdata : Z; val_i_s_axi_wi__wstrb : Z; val_i_s_axi_wi__wvalid : bool }.
Definition val_idle : val_in := {| val_i_m_axi_ri__arready := false; val_i_m_axi_ri__rdata := 0; val_i_m_axi_ri__rresp := 0; val_i_m_axi_ri__rvalid := false; val_i_m_axi_wi__awready := false; val_i_m_axi_wi__bresp := 0; val_i_m_axi_wi__bvalid := false; val_i_m_axi_wi__wready := false; val_i_rst := false; val_i_s_axi_aclk := false; val_i_s_axi_areset_n := false; val_i_s_axi_ri__araddr := 0; val_i_s_axi_ri__arid := 0; val_i_s_axi_ri__arprot := 0; val_i_s_axi_ri__arvalid := false; val_i_s_axi_ri__rready := false; val_i_s_axi_wi__awaddr := 0; val_i_s_axi_wi__awid := 0; val_i_s_axi_wi__awprot := 0; val_i_s_axi_wi__awvalid := false; val_i_s_axi_wi__bready := false; val_i_s_axi_wi__wdata := 0; val_i_s_axi_wi__wstrb := 0; val_i_s_axi_wi__wvalid := false |}.
(* widths: s_axi_wo__bid 12, s_axi_ro__rid 12, rwid 12, m_axi_ri__arready 1, m_axi_ri__rdata 32, m_axi_ri__rresp 2, m_axi_ri__rvalid 1, m_axi_wi__awready 1, m_axi_wi__bresp 2, m_axi_wi__bvalid 1, m_axi_wi__wready 1, rst 1, s_axi_aclk 1, s_axi_areset_n 1, s_axi_ri__araddr 32, s_axi_ri__arid 12, s_axi_ri__arprot 3, s_axi_ri__arvalid 1, s_axi_ri__rready 1, s_axi_wi__awaddr 32, s_axi_wi__awid 12, s_axi_wi__awprot 3, s_axi_wi__awvalid 1, s_axi_wi__bready 1, s_axi_wi__wdata 32, s_axi_wi__wstrb 4, s_axi_wi__wvalid 1 *)
Definition val_init : val_st := {| val_s_axi_wo__bid := 0; val_s_axi_ro__rid := 0; val_rwid := 0 |}.
Definition val_n_s_axi_wo__bid (s : val_st) (i : val_in) : Z :=
  (if (val_i_rst i) then 0 else (val_rwid s)).
Definition val_n_s_axi_ro__rid (s : val_st) (i : val_in) : Z :=
  (if (val_i_rst i) then 0 else (val_rwid s)).
Definition val_n_rwid (s : val_st) (i : val_in) : Z :=
  (let x4 := (let x3 := (if (val_i_s_axi_ri__arvalid i) then (val_i_s_axi_ri__arid i) else (val_rwid s)) in (if (val_i_s_axi_wi__awvalid i) then (val_i_s_axi_wi__awid i) else x3)) in (if (val_i_rst i) then 0 else x4)).
Definition val_step (s : val_st) (i : val_in) : val_st := {| val_s_axi_wo__bid := val_n_s_axi_wo__bid s i; val_s_axi_ro__rid := val_n_s_axi_ro__rid s i; val_rwid := val_n_rwid s i |}.
Definition val_o_m_axi_aclk (s : val_st) (i : val_in) : bool :=
  (val_i_s_axi_aclk i).
Definition val_o_m_axi_areset_n (s : val_st) (i : val_in) : bool :=
  (val_i_s_axi_areset_n i).
Definition val_o_m_axi_ro__araddr (s : val_st) (i : val_in) : Z :=
  (val_i_s_axi_ri__araddr i).
Definition val_o_m_axi_ro__arprot (s : val_st) (i : val_in) : Z :=
  (val_i_s_axi_ri__arprot i).
Definition val_o_m_axi_ro__arvalid (s : val_st) (i : val_in) : bool :=
  (val_i_s_axi_ri__arvalid i).
Definition val_o_m_axi_ro__rready (s : val_st) (i : val_in) : bool :=
  (val_i_s_axi_ri__rready i).
Definition val_o_m_axi_wo__awaddr (s : val_st) (i : val_in) : Z :=
  (val_i_s_axi_wi__awaddr i).
Definition val_o_m_axi_wo__awprot (s : val_st) (i : val_in) : Z :=
  (val_i_s_axi_wi__awprot i).
Definition val_o_m_axi_wo__awvalid (s : val_st) (i : val_in) : bool :=
  (val_i_s_axi_wi__awvalid i).
Definition val_o_m_axi_wo__bready (s : val_st) (i : val_in) : bool :=
  (val_i_s_axi_wi__bready i).
Definition val_o_m_axi_wo__wdata (s : val_st) (i : val_in) : Z :=
  (val_i_s_axi_wi__wdata i).
Definition val_o_m_axi_wo__wstrb (s : val_st) (i : val_in) : Z :=
  (val_i_s_axi_wi__wstrb i).
Definition val_o_m_axi_wo__wvalid (s : val_st) (i : val_in) : bool :=
  (val_i_s_axi_wi__wvalid i).
Definition val_o_s_axi_ro__arready (s : val_st) (i : val_in) : bool :=
  (val_i_m_axi_ri__arready i).
Definition val_o_s_axi_ro__rdata (s : val_st) (i : val_in) : Z :=
  (val_i_m_axi_ri__rdata i).
Definition val_o_s_axi_ro__rid (s : val_st) (i : val_in) : Z :=
  (val_s_axi_ro__rid s).
Definition val_o_s_axi_ro__rlast (s : val_st) (i : val_in) : bool :=
  true.
Definition val_o_s_axi_ro__rresp (s : val_st) (i : val_in) : Z :=
  (val_i_m_axi_ri__rresp i).
Definition val_o_s_axi_ro__rvalid (s : val_st) (i : val_in) : bool :=
  (val_i_m_axi_ri__rvalid i).
Definition val_o_s_axi_wo__awready (s : val_st) (i : val_in) : bool :=
  (val_i_m_axi_wi__awready i).
Definition val_o_s_axi_wo__bid (s : val_st) (i : val_in) : Z :=
  (val_s_axi_wo__bid s).
Definition val_o_s_axi_wo__bresp (s : val_st) (i : val_in) : Z :=
  (val_i_m_axi_wi__bresp i).
Definition val_o_s_axi_wo__bvalid (s : val_st) (i : val_in) : bool :=
  (val_i_m_axi_wi__bvalid i).
Definition val_o_s_axi_wo__wready (s : val_st) (i : val_in) : bool :=
  (val_i_m_axi_wi__wready i).

(* /repo/verilog_src/dma_axi_lite.v, lines 6-692: module top *)
Record vdm_st := { vdm_start : Z; vdm_addr_v : Z; vdm_fsm_state : Z; vdm_bvalid_v : bool; vdm_rvalid_v : bool; vdm_write_addr : Z; vdm_read_addr : Z; vdm_bresp_v : Z; vdm_wready_v : bool; vdm_awready_v : bool; vdm_rresp_v : Z; vdm_rdata_v : Z; vdm_arready_v : bool }.
Record vdm_in := { vdm_i_in1 : Z; vdm_i_in2 : Z; vdm_i_in3 : Z; vdm_i_in4 : Z; vdm_i_in5 : Z; vdm_i_in6 : Z; vdm_i_in7 : Z; vdm_i_in8 : Z; vdm_i_in9 : Z; vdm_i_rst : bool; vdm_i_s_axi_ri___araddr : Z; vdm_i_s_axi_ri___arvalid : bool; vdm_i_s_axi_ri___rready : bool; vdm_i_s_axi_wi___awaddr : Z; vdm_i_s_axi_wi___awvalid : bool; vdm_i_s_axi_wi___bready : bool; vdm_i_s_axi_wi___wdata : Z; vdm_i_s_axi_wi___wstrb : Z; vdm_i_s_axi_wi___wvalid : bool }.
Definition vdm_idle : vdm_in := {| vdm_i_in1 := 0; vdm_i_in2 := 0; vdm_i_in3 := 0; vdm_i_in4 := 0; vdm_i_in5 := 0; vdm_i_in6 := 0; vdm_i_in7 := 0; vdm_i_in8 := 0; vdm_i_in9 := 0; vdm_i_rst := false; vdm_i_s_axi_ri___araddr := 0; vdm_i_s_axi_ri___arvalid := false; vdm_i_s_axi_ri___rready := false; vdm_i_s_axi_wi___awaddr := 0; vdm_i_s_axi_wi___awvalid := false; vdm_i_s_axi_wi___bready := false; vdm_i_s_axi_wi___wdata := 0; vdm_i_s_axi_wi___wstrb := 0; vdm_i_s_axi_wi___wvalid := false |}.
(* widths: start 32, addr_v 32, fsm_state 3, bvalid_v 1, rvalid_v 1, write_addr 32, read_addr 32, bresp_v 2, wready_v 1, awready_v 1, rresp_v 2, rdata_v 32, arready_v 1, in1 32, in2 32, in3 32, in4 32, in5 32, in6 32, in7 32, in8 32, in9 32, rst 1, s_axi_ri___araddr 32, s_axi_ri___arvalid 1, s_axi_ri___rready 1, s_axi_wi___awaddr 32, s_axi_wi___awvalid 1, s_axi_wi___bready 1, s_axi_wi___wdata 32, s_axi_wi___wstrb 4, s_axi_wi___wvalid 1 *)
Definition vdm_init : vdm_st := {| vdm_start := 0; vdm_addr_v := 0; vdm_fsm_state := 0; vdm_bvalid_v := false; vdm_rvalid_v := false; vdm_write_addr := 0; vdm_read_addr := 0; vdm_bresp_v := 0; vdm_wready_v := false; vdm_awready_v := false; vdm_rresp_v := 0; vdm_rdata_v := 0; vdm_arready_v := false |}.
Definition vdm_n_start (s : vdm_st) (i : vdm_in) : Z :=
  (let x27 := (if ((vdm_fsm_state s) =? 4) then (if (vdm_i_s_axi_wi___wvalid i) then (if (Z.testbit (vdm_addr_v s) 10) then (let x21 := (let x15 := (let x9 := (if (Z.testbit (if ((vdm_fsm_state s) =? 4) then (if (vdm_i_s_axi_wi___wvalid i) then (vdm_i_s_axi_wi___wstrb i) else 0) else 0) 0) then (if ((slice 0 4 (vdm_addr_v s)) =? 2) then (slice 8 32 (vdm_start s) * 2 ^ 8 + (slice 0 8 (if ((vdm_fsm_state s) =? 4) then (if (vdm_i_s_axi_wi___wvalid i) then (vdm_i_s_axi_wi___wdata i) else 0) else 0)) * 2 ^ 0 + slice 0 0 (vdm_start s)) else (vdm_start s)) else (vdm_start s)) in (if (Z.testbit (if ((vdm_fsm_state s) =? 4) then (if (vdm_i_s_axi_wi___wvalid i) then (vdm_i_s_axi_wi___wstrb i) else 0) else 0) 1) then (if ((slice 0 4 (vdm_addr_v s)) =? 2) then (slice 16 32 x9 * 2 ^ 16 + (slice 8 16 (if ((vdm_fsm_state s) =? 4) then (if (vdm_i_s_axi_wi___wvalid i) then (vdm_i_s_axi_wi___wdata i) else 0) else 0)) * 2 ^ 8 + slice 0 8 x9) else x9) else x9)) in (if (Z.testbit (if ((vdm_fsm_state s) =? 4) then (if (vdm_i_s_axi_wi___wvalid i) then (vdm_i_s_axi_wi___wstrb i) else 0) else 0) 2) then (if ((slice 0 4 (vdm_addr_v s)) =? 2) then (slice 24 32 x15 * 2 ^ 24 + (slice 16 24 (if ((vdm_fsm_state s) =? 4) then (if (vdm_i_s_axi_wi___wvalid i) then (vdm_i_s_axi_wi___wdata i) else 0) else 0)) * 2 ^ 16 + slice 0 16 x15) else x15) else x15)) in (if (Z.testbit (if ((vdm_fsm_state s) =? 4) then (if (vdm_i_s_axi_wi___wvalid i) then (vdm_i_s_axi_wi___wstrb i) else 0) else 0) 3) then (if ((slice 0 4 (vdm_addr_v s)) =? 2) then (slice 32 32 x21 * 2 ^ 32 + (slice 24 32 (if ((vdm_fsm_state s) =? 4) then (if (vdm_i_s_axi_wi___wvalid i) then (vdm_i_s_axi_wi___wdata i) else 0) else 0)) * 2 ^ 24 + slice 0 24 x21) else x21) else x21)) else (vdm_start s)) else (vdm_start s)) else (vdm_start s)) in (if (vdm_i_rst i) then 0 else x27)).
Definition vdm_n_addr_v (s : vdm_st) (i : vdm_in) : Z :=
  (let x29 := (if ((vdm_fsm_state s) =? 1) then ((vdm_i_s_axi_ri___araddr i) / 2 ^ 2) else if ((vdm_fsm_state s) =? 2) then ((vdm_i_s_axi_wi___awaddr i) / 2 ^ 2) else (vdm_addr_v s)) in (if (vdm_i_rst i) then 0 else x29)).
Definition vdm_n_fsm_state (s : vdm_st) (i : vdm_in) : Z :=
  (let x35 := (if ((vdm_fsm_state s) =? 0) then (if (vdm_i_s_axi_ri___arvalid i) then 1 else if (vdm_i_s_axi_wi___awvalid i) then 2 else (vdm_fsm_state s)) else if ((vdm_fsm_state s) =? 1) then 3 else if ((vdm_fsm_state s) =? 3) then (if (vdm_i_s_axi_ri___rready i) then 0 else (vdm_fsm_state s)) else if ((vdm_fsm_state s) =? 2) then 4 else if ((vdm_fsm_state s) =? 4) then (if (vdm_i_s_axi_wi___wvalid i) then 5 else (vdm_fsm_state s)) else if ((vdm_fsm_state s) =? 5) then (if (vdm_i_s_axi_wi___bready i) then 0 else (vdm_fsm_state s)) else (vdm_fsm_state s)) in (if (vdm_i_rst i) then 0 else x35)).
Definition vdm_n_bvalid_v (s : vdm_st) (i : vdm_in) : bool :=
  (let x38 := (if ((vdm_fsm_state s) =? 0) then false else if ((vdm_fsm_state s) =? 5) then (if (vdm_i_s_axi_wi___bready i) then true else (vdm_bvalid_v s)) else (vdm_bvalid_v s)) in (if (vdm_i_rst i) then false else x38)).
Definition vdm_n_rvalid_v (s : vdm_st) (i : vdm_in) : bool :=
  (let x41 := (if ((vdm_fsm_state s) =? 0) then false else if ((vdm_fsm_state s) =? 3) then (if (vdm_i_s_axi_ri___rready i) then true else (vdm_rvalid_v s)) else (vdm_rvalid_v s)) in (if (vdm_i_rst i) then false else x41)).
Definition vdm_n_write_addr (s : vdm_st) (i : vdm_in) : Z :=
  (let x69 := (if ((vdm_fsm_state s) =? 4) then (if (vdm_i_s_axi_wi___wvalid i) then (if (Z.testbit (vdm_addr_v s) 10) then (let x63 := (let x57 := (let x51 := (if (Z.testbit (if ((vdm_fsm_state s) =? 4) then (if (vdm_i_s_axi_wi___wvalid i) then (vdm_i_s_axi_wi___wstrb i) else 0) else 0) 0) then (if ((slice 0 4 (vdm_addr_v s)) =? 1) then (slice 8 32 (vdm_write_addr s) * 2 ^ 8 + (slice 0 8 (if ((vdm_fsm_state s) =? 4) then (if (vdm_i_s_axi_wi___wvalid i) then (vdm_i_s_axi_wi___wdata i) else 0) else 0)) * 2 ^ 0 + slice 0 0 (vdm_write_addr s)) else (vdm_write_addr s)) else (vdm_write_addr s)) in (if (Z.testbit (if ((vdm_fsm_state s) =? 4) then (if (vdm_i_s_axi_wi___wvalid i) then (vdm_i_s_axi_wi___wstrb i) else 0) else 0) 1) then (if ((slice 0 4 (vdm_addr_v s)) =? 1) then (slice 16 32 x51 * 2 ^ 16 + (slice 8 16 (if ((vdm_fsm_state s) =? 4) then (if (vdm_i_s_axi_wi___wvalid i) then (vdm_i_s_axi_wi___wdata i) else 0) else 0)) * 2 ^ 8 + slice 0 8 x51) else x51) else x51)) in (if (Z.testbit (if ((vdm_fsm_state s) =? 4) then (if (vdm_i_s_axi_wi___wvalid i) then (vdm_i_s_axi_wi___wstrb i) else 0) else 0) 2) then (if ((slice 0 4 (vdm_addr_v s)) =? 1) then (slice 24 32 x57 * 2 ^ 24 + (slice 16 24 (if ((vdm_fsm_state s) =? 4) then (if (vdm_i_s_axi_wi___wvalid i) then (vdm_i_s_axi_wi___wdata i) else 0) else 0)) * 2 ^ 16 + slice 0 16 x57) else x57) else x57)) in (if (Z.testbit (if ((vdm_fsm_state s) =? 4) then (if (vdm_i_s_axi_wi___wvalid i) then (vdm_i_s_axi_wi___wstrb i) else 0) else 0) 3) then (if ((slice 0 4 (vdm_addr_v s)) =? 1) then (slice 32 32 x63 * 2 ^ 32 + (slice 24 32 (if ((vdm_fsm_state s) =? 4) then (if (vdm_i_s_axi_wi___wvalid i) then (vdm_i_s_axi_wi___wdata i) else 0) else 0)) * 2 ^ 24 + slice 0 24 x63) else x63) else x63)) else (vdm_write_addr s)) else (vdm_write_addr s)) else (vdm_write_addr s)) in (if (vdm_i_rst i) then 0 else x69)).
Definition vdm_n_read_addr (s : vdm_st) (i : vdm_in) : Z :=
  (let x97 := (if ((vdm_fsm_state s) =? 4) then (if (vdm_i_s_axi_wi___wvalid i) then (if (Z.testbit (vdm_addr_v s) 10) then (let x91 := (let x85 := (let x79 := (if (Z.testbit (if ((vdm_fsm_state s) =? 4) then (if (vdm_i_s_axi_wi___wvalid i) then (vdm_i_s_axi_wi___wstrb i) else 0) else 0) 0) then (if ((slice 0 4 (vdm_addr_v s)) =? 0) then (slice 8 32 (vdm_read_addr s) * 2 ^ 8 + (slice 0 8 (if ((vdm_fsm_state s) =? 4) then (if (vdm_i_s_axi_wi___wvalid i) then (vdm_i_s_axi_wi___wdata i) else 0) else 0)) * 2 ^ 0 + slice 0 0 (vdm_read_addr s)) else (vdm_read_addr s)) else (vdm_read_addr s)) in (if (Z.testbit (if ((vdm_fsm_state s) =? 4) then (if (vdm_i_s_axi_wi___wvalid i) then (vdm_i_s_axi_wi___wstrb i) else 0) else 0) 1) then (if ((slice 0 4 (vdm_addr_v s)) =? 0) then (slice 16 32 x79 * 2 ^ 16 + (slice 8 16 (if ((vdm_fsm_state s) =? 4) then (if (vdm_i_s_axi_wi___wvalid i) then (vdm_i_s_axi_wi___wdata i) else 0) else 0)) * 2 ^ 8 + slice 0 8 x79) else x79) else x79)) in (if (Z.testbit (if ((vdm_fsm_state s) =? 4) then (if (vdm_i_s_axi_wi___wvalid i) then (vdm_i_s_axi_wi___wstrb i) else 0) else 0) 2) then (if ((slice 0 4 (vdm_addr_v s)) =? 0) then (slice 24 32 x85 * 2 ^ 24 + (slice 16 24 (if ((vdm_fsm_state s) =? 4) then (if (vdm_i_s_axi_wi___wvalid i) then (vdm_i_s_axi_wi___wdata i) else 0) else 0)) * 2 ^ 16 + slice 0 16 x85) else x85) else x85)) in (if (Z.testbit (if ((vdm_fsm_state s) =? 4) then (if (vdm_i_s_axi_wi___wvalid i) then (vdm_i_s_axi_wi___wstrb i) else 0) else 0) 3) then (if ((slice 0 4 (vdm_addr_v s)) =? 0) then (slice 32 32 x91 * 2 ^ 32 + (slice 24 32 (if ((vdm_fsm_state s) =? 4) then (if (vdm_i_s_axi_wi___wvalid i) then (vdm_i_s_axi_wi___wdata i) else 0) else 0)) * 2 ^ 24 + slice 0 24 x91) else x91) else x91)) else (vdm_read_addr s)) else (vdm_read_addr s)) else (vdm_read_addr s)) in (if (vdm_i_rst i) then 0 else x97)).
Definition vdm_n_bresp_v (s : vdm_st) (i : vdm_in) : Z :=
  (let x117 := (if ((vdm_fsm_state s) =? 4) then (if (vdm_i_s_axi_wi___wvalid i) then (if (Z.testbit (vdm_addr_v s) 10) then (let x113 := (let x109 := (let x105 := (if (Z.testbit (if ((vdm_fsm_state s) =? 4) then (if (vdm_i_s_axi_wi___wvalid i) then (vdm_i_s_axi_wi___wstrb i) else 0) else 0) 0) then (if ((slice 0 4 (vdm_addr_v s)) =? 3) then 2 else if ((slice 0 4 (vdm_addr_v s)) =? 4) then 2 else if ((slice 0 4 (vdm_addr_v s)) =? 5) then 2 else if ((slice 0 4 (vdm_addr_v s)) =? 6) then 2 else if ((slice 0 4 (vdm_addr_v s)) =? 7) then 2 else if ((slice 0 4 (vdm_addr_v s)) =? 8) then 2 else if ((slice 0 4 (vdm_addr_v s)) =? 9) then 2 else if ((slice 0 4 (vdm_addr_v s)) =? 10) then 2 else if ((slice 0 4 (vdm_addr_v s)) =? 11) then 2 else 0) else 0) in (if (Z.testbit (if ((vdm_fsm_state s) =? 4) then (if (vdm_i_s_axi_wi___wvalid i) then (vdm_i_s_axi_wi___wstrb i) else 0) else 0) 1) then (if ((slice 0 4 (vdm_addr_v s)) =? 3) then 2 else if ((slice 0 4 (vdm_addr_v s)) =? 4) then 2 else if ((slice 0 4 (vdm_addr_v s)) =? 5) then 2 else if ((slice 0 4 (vdm_addr_v s)) =? 6) then 2 else if ((slice 0 4 (vdm_addr_v s)) =? 7) then 2 else if ((slice 0 4 (vdm_addr_v s)) =? 8) then 2 else if ((slice 0 4 (vdm_addr_v s)) =? 9) then 2 else if ((slice 0 4 (vdm_addr_v s)) =? 10) then 2 else if ((slice 0 4 (vdm_addr_v s)) =? 11) then 2 else x105) else x105)) in (if (Z.testbit (if ((vdm_fsm_state s) =? 4) then (if (vdm_i_s_axi_wi___wvalid i) then (vdm_i_s_axi_wi___wstrb i) else 0) else 0) 2) then (if ((slice 0 4 (vdm_addr_v s)) =? 3) then 2 else if ((slice 0 4 (vdm_addr_v s)) =? 4) then 2 else if ((slice 0 4 (vdm_addr_v s)) =? 5) then 2 else if ((slice 0 4 (vdm_addr_v s)) =? 6) then 2 else if ((slice 0 4 (vdm_addr_v s)) =? 7) then 2 else if ((slice 0 4 (vdm_addr_v s)) =? 8) then 2 else if ((slice 0 4 (vdm_addr_v s)) =? 9) then 2 else if ((slice 0 4 (vdm_addr_v s)) =? 10) then 2 else if ((slice 0 4 (vdm_addr_v s)) =? 11) then 2 else x109) else x109)) in (if (Z.testbit (if ((vdm_fsm_state s) =? 4) then (if (vdm_i_s_axi_wi___wvalid i) then (vdm_i_s_axi_wi___wstrb i) else 0) else 0) 3) then (if ((slice 0 4 (vdm_addr_v s)) =? 3) then 2 else if ((slice 0 4 (vdm_addr_v s)) =? 4) then 2 else if ((slice 0 4 (vdm_addr_v s)) =? 5) then 2 else if ((slice 0 4 (vdm_addr_v s)) =? 6) then 2 else if ((slice 0 4 (vdm_addr_v s)) =? 7) then 2 else if ((slice 0 4 (vdm_addr_v s)) =? 8) then 2 else if ((slice 0 4 (vdm_addr_v s)) =? 9) then 2 else if ((slice 0 4 (vdm_addr_v s)) =? 10) then 2 else if ((slice 0 4 (vdm_addr_v s)) =? 11) then 2 else x113) else x113)) else 3) else (vdm_bresp_v s)) else (vdm_bresp_v s)) in (if (vdm_i_rst i) then 0 else x117)).
Definition vdm_n_wready_v (s : vdm_st) (i : vdm_in) : bool :=
  (let x119 := (if ((vdm_fsm_state s) =? 4) then true else if ((vdm_fsm_state s) =? 5) then false else (vdm_wready_v s)) in (if (vdm_i_rst i) then false else x119)).
Definition vdm_n_awready_v (s : vdm_st) (i : vdm_in) : bool :=
  (let x121 := (if ((vdm_fsm_state s) =? 2) then true else if ((vdm_fsm_state s) =? 4) then false else (vdm_awready_v s)) in (if (vdm_i_rst i) then false else x121)).
Definition vdm_n_rresp_v (s : vdm_st) (i : vdm_in) : Z :=
  (let x124 := (if ((vdm_fsm_state s) =? 3) then (if (Z.testbit (vdm_addr_v s) 10) then 0 else 3) else (vdm_rresp_v s)) in (if (vdm_i_rst i) then 0 else x124)).
Definition vdm_n_rdata_v (s : vdm_st) (i : vdm_in) : Z :=
  (let x128 := (if ((vdm_fsm_state s) =? 3) then (if (Z.testbit (vdm_addr_v s) 10) then (if ((slice 0 4 (vdm_addr_v s)) =? 0) then (vdm_read_addr s) else if ((slice 0 4 (vdm_addr_v s)) =? 1) then (vdm_write_addr s) else if ((slice 0 4 (vdm_addr_v s)) =? 2) then (vdm_start s) else if ((slice 0 4 (vdm_addr_v s)) =? 3) then (vdm_i_in1 i) else if ((slice 0 4 (vdm_addr_v s)) =? 4) then (vdm_i_in2 i) else if ((slice 0 4 (vdm_addr_v s)) =? 5) then (vdm_i_in3 i) else if ((slice 0 4 (vdm_addr_v s)) =? 6) then (vdm_i_in4 i) else if ((slice 0 4 (vdm_addr_v s)) =? 7) then (vdm_i_in5 i) else if ((slice 0 4 (vdm_addr_v s)) =? 8) then (vdm_i_in6 i) else if ((slice 0 4 (vdm_addr_v s)) =? 9) then (vdm_i_in7 i) else if ((slice 0 4 (vdm_addr_v s)) =? 10) then (vdm_i_in8 i) else if ((slice 0 4 (vdm_addr_v s)) =? 11) then (vdm_i_in9 i) else (vdm_rdata_v s)) else (vdm_rdata_v s)) else (vdm_rdata_v s)) in (if (vdm_i_rst i) then 0 else x128)).
Definition vdm_n_arready_v (s : vdm_st) (i : vdm_in) : bool :=
  (let x130 := (if ((vdm_fsm_state s) =? 1) then true else if ((vdm_fsm_state s) =? 3) then false else (vdm_arready_v s)) in (if (vdm_i_rst i) then false else x130)).
Definition vdm_step (s : vdm_st) (i : vdm_in) : vdm_st := {| vdm_start := vdm_n_start s i; vdm_addr_v := vdm_n_addr_v s i; vdm_fsm_state := vdm_n_fsm_state s i; vdm_bvalid_v := vdm_n_bvalid_v s i; vdm_rvalid_v := vdm_n_rvalid_v s i; vdm_write_addr := vdm_n_write_addr s i; vdm_read_addr := vdm_n_read_addr s i; vdm_bresp_v := vdm_n_bresp_v s i; vdm_wready_v := vdm_n_wready_v s i; vdm_awready_v := vdm_n_awready_v s i; vdm_rresp_v := vdm_n_rresp_v s i; vdm_rdata_v := vdm_n_rdata_v s i; vdm_arready_v := vdm_n_arready_v s i |}.
Definition vdm_o_read_addr (s : vdm_st) (i : vdm_in) : Z :=
  (vdm_read_addr s).
Definition vdm_o_s_axi_ro___arready (s : vdm_st) (i : vdm_in) : bool :=
  (vdm_arready_v s).
Definition vdm_o_s_axi_ro___rdata (s : vdm_st) (i : vdm_in) : Z :=
  (vdm_rdata_v s).
Definition vdm_o_s_axi_ro___rresp (s : vdm_st) (i : vdm_in) : Z :=
  (vdm_rresp_v s).
Definition vdm_o_s_axi_ro___rvalid (s : vdm_st) (i : vdm_in) : bool :=
  (vdm_rvalid_v s).
Definition vdm_o_s_axi_wo___awready (s : vdm_st) (i : vdm_in) : bool :=
  (vdm_awready_v s).
Definition vdm_o_s_axi_wo___bresp (s : vdm_st) (i : vdm_in) : Z :=
  (vdm_bresp_v s).
Definition vdm_o_s_axi_wo___bvalid (s : vdm_st) (i : vdm_in) : bool :=
  (vdm_bvalid_v s).
Definition vdm_o_s_axi_wo___wready (s : vdm_st) (i : vdm_in) : bool :=
  (vdm_wready_v s).
Definition vdm_o_start (s : vdm_st) (i : vdm_in) : Z :=
  (vdm_start s).
Definition vdm_o_write_addr (s : vdm_st) (i : vdm_in) : Z :=
  (vdm_write_addr s).

