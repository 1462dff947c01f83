(* GENERATED by tools/mkvgen.py: do not edit.
   Modules of the Verilog shipped in /repo/verilog_src, translated one by one (tools/verilog2coq.py): registers become the
   fields of the _st record, inputs (the clock left out) those of the _in record, _step is one rising edge, _o_x the output x.
   An instance becomes a field _u_name with its state and a function _p_name giving its inputs; a memory a list. *)
From Verif Require Import Bits M_Predictor.
Local Open Scope bool_scope.

(* /repo/verilog_src/beta_integration.v, lines 5977-6284: module markers *)
Record vmk_st := { vmk_fsm_state : Z; vmk_counter : Z; vmk_end_cond : bool }.
Record vmk_in := { vmk_i_data_in : Z; vmk_i_end_in : bool; vmk_i_force_end_in : bool; vmk_i_i_busy : bool; vmk_i_rst : bool; vmk_i_valid_in : bool }.
Definition vmk_idle : vmk_in := {| vmk_i_data_in := 0; vmk_i_end_in := false; vmk_i_force_end_in := false; vmk_i_i_busy := false; vmk_i_rst := false; vmk_i_valid_in := false |}.
(* widths: fsm_state 3, counter 4, end_cond 1, data_in 16, end_in 1, force_end_in 1, i_busy 1, rst 1, valid_in 1 *)
Definition vmk_init : vmk_st := {| vmk_fsm_state := 0; vmk_counter := 0; vmk_end_cond := false |}.
Definition vmk_n_fsm_state (s : vmk_st) (i : vmk_in) : Z :=
  (let x9 := (if ((vmk_fsm_state s) =? 0) then (if (vmk_i_valid_in i) then 1 else (vmk_fsm_state s)) else if ((vmk_fsm_state s) =? 1) then (if (Bool.eqb (vmk_i_i_busy i) false) then (if ((vmk_counter s) =? 0) then 2 else (vmk_fsm_state s)) else (vmk_fsm_state s)) else if ((vmk_fsm_state s) =? 3) then (if (Bool.eqb (vmk_i_i_busy i) false) then (if ((vmk_counter s) =? 1) then 4 else (vmk_fsm_state s)) else (vmk_fsm_state s)) else if ((vmk_fsm_state s) =? 5) then (if (Bool.eqb (vmk_i_i_busy i) false) then (if ((vmk_counter s) =? 1) then 6 else (vmk_fsm_state s)) else (vmk_fsm_state s)) else if ((vmk_fsm_state s) =? 2) then (if (vmk_end_cond s) then 3 else if (vmk_i_force_end_in i) then 5 else (vmk_fsm_state s)) else (vmk_fsm_state s)) in (if (vmk_i_rst i) then 0 else x9)).
Definition vmk_n_counter (s : vmk_st) (i : vmk_in) : Z :=
  (let x15 := (if ((vmk_fsm_state s) =? 0) then 8 else if ((vmk_fsm_state s) =? 1) then (if (Bool.eqb (vmk_i_i_busy i) false) then (let x12 := (slice 0 4 (((vmk_counter s) - 1) mod 2 ^ 5)) in (if ((vmk_counter s) =? 0) then 8 else x12)) else (vmk_counter s)) else if ((vmk_fsm_state s) =? 3) then (if (Bool.eqb (vmk_i_i_busy i) false) then (slice 0 4 (((vmk_counter s) - 1) mod 2 ^ 5)) else (vmk_counter s)) else if ((vmk_fsm_state s) =? 5) then (if (Bool.eqb (vmk_i_i_busy i) false) then (slice 0 4 (((vmk_counter s) - 1) mod 2 ^ 5)) else (vmk_counter s)) else (vmk_counter s)) in (if (vmk_i_rst i) then 0 else x15)).
Definition vmk_n_end_cond (s : vmk_st) (i : vmk_in) : bool :=
  (let x16 := (andb (andb (Bool.eqb (vmk_i_i_busy i) false) (Bool.eqb (vmk_i_valid_in i) true)) (Bool.eqb (vmk_i_end_in i) true)) in (if (vmk_i_rst i) then false else x16)).
Definition vmk_step (s : vmk_st) (i : vmk_in) : vmk_st := {| vmk_fsm_state := vmk_n_fsm_state s i; vmk_counter := vmk_n_counter s i; vmk_end_cond := vmk_n_end_cond s i |}.
Definition vmk_o_data_out (s : vmk_st) (i : vmk_in) : Z :=
  (if ((vmk_fsm_state s) =? 1) then (if (Bool.eqb (vmk_i_i_busy i) false) then (if ((vmk_counter s) =? 0) then 0 else 65535) else 65535) else if ((vmk_fsm_state s) =? 3) then 65535 else if ((vmk_fsm_state s) =? 5) then 65534 else if ((vmk_fsm_state s) =? 2) then (if (vmk_end_cond s) then 0 else if (vmk_i_force_end_in i) then 0 else (vmk_i_data_in i)) else if ((vmk_fsm_state s) =? 4) then 65535 else if ((vmk_fsm_state s) =? 6) then 65534 else 0).
Definition vmk_o_end_out (s : vmk_st) (i : vmk_in) : bool :=
  (if ((vmk_fsm_state s) =? 3) then (if (Bool.eqb (vmk_i_i_busy i) false) then (if ((vmk_counter s) =? 1) then true else false) else false) else if ((vmk_fsm_state s) =? 5) then (if (Bool.eqb (vmk_i_i_busy i) false) then (if ((vmk_counter s) =? 1) then true else false) else false) else if ((vmk_fsm_state s) =? 4) then true else if ((vmk_fsm_state s) =? 6) then true else false).
Definition vmk_o_o_busy (s : vmk_st) (i : vmk_in) : bool :=
  (if ((vmk_fsm_state s) =? 2) then (if (vmk_end_cond s) then true else if (vmk_i_force_end_in i) then true else (vmk_i_i_busy i)) else true).
Definition vmk_o_valid_out (s : vmk_st) (i : vmk_in) : bool :=
  (if ((vmk_fsm_state s) =? 1) then (if (Bool.eqb (vmk_i_i_busy i) false) then (if ((vmk_counter s) =? 0) then false else true) else true) else if ((vmk_fsm_state s) =? 3) then true else if ((vmk_fsm_state s) =? 5) then true else if ((vmk_fsm_state s) =? 2) then (if (vmk_end_cond s) then false else if (vmk_i_force_end_in i) then false else (vmk_i_valid_in i)) else if ((vmk_fsm_state s) =? 4) then true else if ((vmk_fsm_state s) =? 6) then true else false).

(* /repo/verilog_src/beta_integration.v, lines 3979-4057: module force_end *)
Record vfe_st := { vfe_fend : bool; vfe_counter : Z; vfe_fsm_state : Z }.
Record vfe_in := { vfe_i_allowed_cycles : Z; vfe_i_rst : bool; vfe_i_valid_in : bool }.
Definition vfe_idle : vfe_in := {| vfe_i_allowed_cycles := 0; vfe_i_rst := false; vfe_i_valid_in := false |}.
(* widths: fend 1, counter 25, fsm_state 2, allowed_cycles 24, rst 1, valid_in 1 *)
Definition vfe_init : vfe_st := {| vfe_fend := false; vfe_counter := 0; vfe_fsm_state := 0 |}.
Definition vfe_n_fend (s : vfe_st) (i : vfe_in) : bool :=
  (let x1 := (if ((vfe_fsm_state s) =? 2) then true else (vfe_fend s)) in (if (vfe_i_rst i) then false else x1)).
Definition vfe_n_counter (s : vfe_st) (i : vfe_in) : Z :=
  (let x3 := (if ((vfe_fsm_state s) =? 1) then (slice 0 25 (((vfe_counter s) + 1) mod 2 ^ 26)) else (vfe_counter s)) in (if (vfe_i_rst i) then 0 else x3)).
Definition vfe_n_fsm_state (s : vfe_st) (i : vfe_in) : Z :=
  (let x7 := (if ((vfe_fsm_state s) =? 0) then (if (vfe_i_valid_in i) then 1 else (vfe_fsm_state s)) else if ((vfe_fsm_state s) =? 1) then (if ((vfe_counter s) =? (vfe_i_allowed_cycles i)) then 2 else (vfe_fsm_state s)) else (vfe_fsm_state s)) in (if (vfe_i_rst i) then 0 else x7)).
Definition vfe_step (s : vfe_st) (i : vfe_in) : vfe_st := {| vfe_fend := vfe_n_fend s i; vfe_counter := vfe_n_counter s i; vfe_fsm_state := vfe_n_fsm_state s i |}.
Definition vfe_o_fend (s : vfe_st) (i : vfe_in) : bool :=
  (vfe_fend s).

(* /repo/verilog_src/beta_integration.v, lines 1094-1134: module auto_reset *)
Record var_st := { var_reset_out : bool }.
Record var_in := { var_i_end_in : bool; var_i_hs1_in : bool; var_i_hs2_in : bool; var_i_rst : bool }.
Definition var_idle : var_in := {| var_i_end_in := false; var_i_hs1_in := false; var_i_hs2_in := false; var_i_rst := false |}.
(* widths: reset_out 1, end_in 1, hs1_in 1, hs2_in 1, rst 1 *)
Definition var_init : var_st := {| var_reset_out := false |}.
Definition var_n_reset_out (s : var_st) (i : var_in) : bool :=
  (let x1 := (if (andb (andb (Bool.eqb (var_i_hs1_in i) true) (Bool.eqb (var_i_hs2_in i) true)) (Bool.eqb (var_i_end_in i) true)) then true else (var_reset_out s)) in (if (var_i_rst i) then false else x1)).
Definition var_step (s : var_st) (i : var_in) : var_st := {| var_reset_out := var_n_reset_out s i |}.
Definition var_o_reset_out (s : var_st) (i : var_in) : bool :=
  (var_reset_out s).

(* /repo/verilog_src/beta_integration.v, lines 7347-7424: module register_file *)
Record vrf_st := { vrf_allowed_cycles_reg : Z; vrf_height_reg : Z; vrf_width_reg : Z }.
Record vrf_in := { vrf_i_full_rst : bool }.
Definition vrf_idle : vrf_in := {| vrf_i_full_rst := false |}.
(* widths: allowed_cycles_reg 24, height_reg 16, width_reg 16, full_rst 1 *)
Definition vrf_init : vrf_st := {| vrf_allowed_cycles_reg := 0; vrf_height_reg := 0; vrf_width_reg := 0 |}.
Definition vrf_n_allowed_cycles_reg (s : vrf_st) (i : vrf_in) : Z :=
  (if (vrf_i_full_rst i) then 0 else 6666000).
Definition vrf_n_height_reg (s : vrf_st) (i : vrf_in) : Z :=
  (if (vrf_i_full_rst i) then 0 else 3072).
Definition vrf_n_width_reg (s : vrf_st) (i : vrf_in) : Z :=
  (if (vrf_i_full_rst i) then 0 else 4096).
Definition vrf_step (s : vrf_st) (i : vrf_in) : vrf_st := {| vrf_allowed_cycles_reg := vrf_n_allowed_cycles_reg s i; vrf_height_reg := vrf_n_height_reg s i; vrf_width_reg := vrf_n_width_reg s i |}.
Definition vrf_o_allowed_cycles (s : vrf_st) (i : vrf_in) : Z :=
  (vrf_allowed_cycles_reg s).
Definition vrf_o_height (s : vrf_st) (i : vrf_in) : Z :=
  (vrf_height_reg s).
Definition vrf_o_width (s : vrf_st) (i : vrf_in) : Z :=
  (vrf_width_reg s).

(* /repo/verilog_src/beta_integration.v, lines 7428-7621: module signals *)
Record vsg_st := { vsg_end_of_frame : bool; vsg_fsm_state : Z; vsg_new_row : bool; vsg_height_temp : Z; vsg_width_temp : Z }.
Record vsg_in := { vsg_i_height : Z; vsg_i_new_input : bool; vsg_i_rst : bool; vsg_i_width : Z }.
Definition vsg_idle : vsg_in := {| vsg_i_height := 0; vsg_i_new_input := false; vsg_i_rst := false; vsg_i_width := 0 |}.
(* widths: end_of_frame 1, fsm_state 2, new_row 1, height_temp 16, width_temp 16, height 16, new_input 1, rst 1, width 16 *)
Definition vsg_init : vsg_st := {| vsg_end_of_frame := false; vsg_fsm_state := 0; vsg_new_row := true; vsg_height_temp := 0; vsg_width_temp := 0 |}.
Definition vsg_n_end_of_frame (s : vsg_st) (i : vsg_in) : bool :=
  (let x3 := (if ((vsg_fsm_state s) =? 1) then (if (vsg_i_new_input i) then (if (andb ((vsg_height_temp s) =? 0) ((vsg_width_temp s) =? 4)) then true else (vsg_end_of_frame s)) else (vsg_end_of_frame s)) else if ((vsg_fsm_state s) =? 2) then true else (vsg_end_of_frame s)) in (if (vsg_i_rst i) then false else x3)).
Definition vsg_n_fsm_state (s : vsg_st) (i : vsg_in) : Z :=
  (let x8 := (if ((vsg_fsm_state s) =? 0) then (if (vsg_i_new_input i) then 1 else (vsg_fsm_state s)) else if ((vsg_fsm_state s) =? 1) then (if (vsg_i_new_input i) then (if (andb ((vsg_height_temp s) =? 0) ((vsg_width_temp s) =? 4)) then 2 else (vsg_fsm_state s)) else (vsg_fsm_state s)) else (vsg_fsm_state s)) in (if (vsg_i_rst i) then 0 else x8)).
Definition vsg_n_new_row (s : vsg_st) (i : vsg_in) : bool :=
  (let x13 := (if ((vsg_fsm_state s) =? 0) then (if (vsg_i_new_input i) then false else (vsg_new_row s)) else if ((vsg_fsm_state s) =? 1) then (if (vsg_i_new_input i) then (if ((vsg_width_temp s) =? 2) then true else false) else (vsg_new_row s)) else (vsg_new_row s)) in (if (vsg_i_rst i) then true else x13)).
Definition vsg_n_height_temp (s : vsg_st) (i : vsg_in) : Z :=
  (let x18 := (if ((vsg_fsm_state s) =? 0) then (if (vsg_i_new_input i) then (slice 0 16 (((vsg_i_height i) - 1) mod 2 ^ 17)) else (vsg_height_temp s)) else if ((vsg_fsm_state s) =? 1) then (if (vsg_i_new_input i) then (if ((vsg_width_temp s) =? 2) then (slice 0 16 (((vsg_height_temp s) - 1) mod 2 ^ 17)) else (vsg_height_temp s)) else (vsg_height_temp s)) else (vsg_height_temp s)) in (if (vsg_i_rst i) then 0 else x18)).
Definition vsg_n_width_temp (s : vsg_st) (i : vsg_in) : Z :=
  (let x23 := (if ((vsg_fsm_state s) =? 0) then (if (vsg_i_new_input i) then (slice 0 16 (((vsg_i_width i) - 2) mod 2 ^ 17)) else (vsg_width_temp s)) else if ((vsg_fsm_state s) =? 1) then (if (vsg_i_new_input i) then (if ((vsg_width_temp s) =? 2) then (vsg_i_width i) else (slice 0 16 (((vsg_width_temp s) - 2) mod 2 ^ 17))) else (vsg_width_temp s)) else (vsg_width_temp s)) in (if (vsg_i_rst i) then 0 else x23)).
Definition vsg_step (s : vsg_st) (i : vsg_in) : vsg_st := {| vsg_end_of_frame := vsg_n_end_of_frame s i; vsg_fsm_state := vsg_n_fsm_state s i; vsg_new_row := vsg_n_new_row s i; vsg_height_temp := vsg_n_height_temp s i; vsg_width_temp := vsg_n_width_temp s i |}.
Definition vsg_o_end_of_frame (s : vsg_st) (i : vsg_in) : bool :=
  (vsg_end_of_frame s).
Definition vsg_o_new_row (s : vsg_st) (i : vsg_in) : bool :=
  (vsg_new_row s).

(* /repo/verilog_src/beta_integration.v, lines 1707-1848: module difference *)
Record vdf_st := { vdf_end_out : bool; vdf_valid_out : bool; vdf_val_out_5 : Z; vdf_val_out_4 : Z; vdf_val_out_3 : Z; vdf_val_out : Z }.
Record vdf_in := { vdf_i_end_in : bool; vdf_i_pixel_in : Z; vdf_i_pixel_in_1 : Z; vdf_i_predic_in : Z; vdf_i_predic_in_2 : Z; vdf_i_rst : bool; vdf_i_valid_in : bool }.
Definition vdf_idle : vdf_in := {| vdf_i_end_in := false; vdf_i_pixel_in := 0; vdf_i_pixel_in_1 := 0; vdf_i_predic_in := 0; vdf_i_predic_in_2 := 0; vdf_i_rst := false; vdf_i_valid_in := false |}.
(* widths: end_out 1, valid_out 1, val_out_5 13, val_out_4 13, val_out_3 13, val_out 13, end_in 1, pixel_in 12, pixel_in_1 12, predic_in 12, predic_in_2 12, rst 1, valid_in 1 *)
Definition vdf_init : vdf_st := {| vdf_end_out := false; vdf_valid_out := false; vdf_val_out_5 := 0; vdf_val_out_4 := 0; vdf_val_out_3 := 0; vdf_val_out := 0 |}.
Definition vdf_n_end_out (s : vdf_st) (i : vdf_in) : bool :=
  (if (vdf_i_rst i) then false else (vdf_i_end_in i)).
Definition vdf_n_valid_out (s : vdf_st) (i : vdf_in) : bool :=
  (if (vdf_i_rst i) then false else (vdf_i_valid_in i)).
Definition vdf_n_val_out_5 (s : vdf_st) (i : vdf_in) : Z :=
  (let x3 := (if (vdf_i_valid_in i) then (slice 0 13 (((((vdf_i_pixel_in_1 i) - (vdf_i_predic_in_2 i)) mod 2 ^ 13) - 1) mod 2 ^ 14)) else (vdf_val_out_5 s)) in (if (vdf_i_rst i) then 0 else x3)).
Definition vdf_n_val_out_4 (s : vdf_st) (i : vdf_in) : Z :=
  (let x5 := (if (vdf_i_valid_in i) then (slice 0 13 (((((vdf_i_pixel_in i) - (vdf_i_predic_in i)) mod 2 ^ 13) - 1) mod 2 ^ 14)) else (vdf_val_out_4 s)) in (if (vdf_i_rst i) then 0 else x5)).
Definition vdf_n_val_out_3 (s : vdf_st) (i : vdf_in) : Z :=
  (let x7 := (if (vdf_i_valid_in i) then (((vdf_i_pixel_in_1 i) - (vdf_i_predic_in_2 i)) mod 2 ^ 13) else (vdf_val_out_3 s)) in (if (vdf_i_rst i) then 0 else x7)).
Definition vdf_n_val_out (s : vdf_st) (i : vdf_in) : Z :=
  (let x9 := (if (vdf_i_valid_in i) then (((vdf_i_pixel_in i) - (vdf_i_predic_in i)) mod 2 ^ 13) else (vdf_val_out s)) in (if (vdf_i_rst i) then 0 else x9)).
Definition vdf_step (s : vdf_st) (i : vdf_in) : vdf_st := {| vdf_end_out := vdf_n_end_out s i; vdf_valid_out := vdf_n_valid_out s i; vdf_val_out_5 := vdf_n_val_out_5 s i; vdf_val_out_4 := vdf_n_val_out_4 s i; vdf_val_out_3 := vdf_n_val_out_3 s i; vdf_val_out := vdf_n_val_out s i |}.
Definition vdf_o_end_out (s : vdf_st) (i : vdf_in) : bool :=
  (vdf_end_out s).
Definition vdf_o_val_out (s : vdf_st) (i : vdf_in) : Z :=
  (vdf_val_out s).
Definition vdf_o_val_out_3 (s : vdf_st) (i : vdf_in) : Z :=
  (vdf_val_out_3 s).
Definition vdf_o_val_out_4 (s : vdf_st) (i : vdf_in) : Z :=
  (vdf_val_out_4 s).
Definition vdf_o_val_out_5 (s : vdf_st) (i : vdf_in) : Z :=
  (vdf_val_out_5 s).
Definition vdf_o_valid_out (s : vdf_st) (i : vdf_in) : bool :=
  (vdf_valid_out s).

(* /repo/verilog_src/beta_integration.v, lines 6602-6894: module output_handler *)
Record voh_st := { voh_valid_out : bool; voh_end_out : bool; voh_data_out : Z; voh_fsm_state : Z }.
Record voh_in := { voh_i_buff_consum : Z; voh_i_buffer : Z; voh_i_busy_in : bool; voh_i_end_in : bool; voh_i_rst : bool }.
Definition voh_idle : voh_in := {| voh_i_buff_consum := 0; voh_i_buffer := 0; voh_i_busy_in := false; voh_i_end_in := false; voh_i_rst := false |}.
(* widths: valid_out 1, end_out 1, data_out 16, fsm_state 2, buff_consum 7, buffer 77, busy_in 1, end_in 1, rst 1 *)
Definition voh_init : voh_st := {| voh_valid_out := false; voh_end_out := false; voh_data_out := 0; voh_fsm_state := 0 |}.
Definition voh_n_valid_out (s : voh_st) (i : voh_in) : bool :=
  (let x3 := (if ((voh_fsm_state s) =? 0) then (if (orb ((voh_i_buff_consum i) >=? 16) (andb ((voh_i_buff_consum i) <=? 16) (voh_i_end_in i))) then true else (voh_valid_out s)) else if ((voh_fsm_state s) =? 1) then (if (andb (Bool.eqb (voh_i_busy_in i) false) ((voh_i_buff_consum i) >=? 16)) then true else if (Bool.eqb (voh_i_busy_in i) false) then false else (voh_valid_out s)) else (voh_valid_out s)) in (if (voh_i_rst i) then false else x3)).
Definition voh_n_end_out (s : voh_st) (i : voh_in) : bool :=
  (let x9 := (if ((voh_fsm_state s) =? 0) then (if (orb ((voh_i_buff_consum i) >=? 16) (andb ((voh_i_buff_consum i) <=? 16) (voh_i_end_in i))) then (if (andb ((voh_i_buff_consum i) <=? 16) (voh_i_end_in i)) then true else (voh_end_out s)) else (voh_end_out s)) else if ((voh_fsm_state s) =? 1) then (if (andb (Bool.eqb (voh_i_busy_in i) false) ((voh_i_buff_consum i) >=? 16)) then (if (andb ((voh_i_buff_consum i) <=? 16) (voh_i_end_in i)) then true else (voh_end_out s)) else (voh_end_out s)) else (voh_end_out s)) in (if (voh_i_rst i) then false else x9)).
Definition voh_n_data_out (s : voh_st) (i : voh_in) : Z :=
  (let x15 := (if ((voh_fsm_state s) =? 0) then (if (orb ((voh_i_buff_consum i) >=? 16) (andb ((voh_i_buff_consum i) <=? 16) (voh_i_end_in i))) then (if ((voh_i_buff_consum i) >=? 16) then (slice 0 16 ((voh_i_buffer i) / 2 ^ (slice 0 6 (((voh_i_buff_consum i) - 16) mod 2 ^ 8)))) else (slice 0 16 (((voh_i_buffer i) * 2 ^ (slice 0 4 ((16 - (voh_i_buff_consum i)) mod 2 ^ 8))) mod 2 ^ 92))) else (voh_data_out s)) else if ((voh_fsm_state s) =? 1) then (if (andb (Bool.eqb (voh_i_busy_in i) false) ((voh_i_buff_consum i) >=? 16)) then (if ((voh_i_buff_consum i) >=? 16) then (slice 0 16 ((voh_i_buffer i) / 2 ^ (slice 0 6 (((voh_i_buff_consum i) - 16) mod 2 ^ 8)))) else (slice 0 16 (((voh_i_buffer i) * 2 ^ (slice 0 4 ((16 - (voh_i_buff_consum i)) mod 2 ^ 8))) mod 2 ^ 92))) else (voh_data_out s)) else (voh_data_out s)) in (if (voh_i_rst i) then 0 else x15)).
Definition voh_n_fsm_state (s : voh_st) (i : voh_in) : Z :=
  (let x21 := (if ((voh_fsm_state s) =? 0) then (if (orb ((voh_i_buff_consum i) >=? 16) (andb ((voh_i_buff_consum i) <=? 16) (voh_i_end_in i))) then (if (andb ((voh_i_buff_consum i) <=? 16) (voh_i_end_in i)) then 2 else 1) else (voh_fsm_state s)) else if ((voh_fsm_state s) =? 1) then (if (andb (Bool.eqb (voh_i_busy_in i) false) ((voh_i_buff_consum i) >=? 16)) then (if (andb ((voh_i_buff_consum i) <=? 16) (voh_i_end_in i)) then 2 else (voh_fsm_state s)) else if (Bool.eqb (voh_i_busy_in i) false) then 0 else (voh_fsm_state s)) else (voh_fsm_state s)) in (if (voh_i_rst i) then 0 else x21)).
Definition voh_step (s : voh_st) (i : voh_in) : voh_st := {| voh_valid_out := voh_n_valid_out s i; voh_end_out := voh_n_end_out s i; voh_data_out := voh_n_data_out s i; voh_fsm_state := voh_n_fsm_state s i |}.
Definition voh_o_data_out (s : voh_st) (i : voh_in) : Z :=
  (voh_data_out s).
Definition voh_o_dec_buff_out (s : voh_st) (i : voh_in) : bool :=
  (if ((voh_fsm_state s) =? 0) then (if (orb ((voh_i_buff_consum i) >=? 16) (andb ((voh_i_buff_consum i) <=? 16) (voh_i_end_in i))) then true else false) else if ((voh_fsm_state s) =? 1) then (if (andb (Bool.eqb (voh_i_busy_in i) false) ((voh_i_buff_consum i) >=? 16)) then true else false) else false).
Definition voh_o_end_out (s : voh_st) (i : voh_in) : bool :=
  (voh_end_out s).
Definition voh_o_valid_out (s : voh_st) (i : voh_in) : bool :=
  (voh_valid_out s).

(* /repo/verilog_src/beta_integration.v, lines 4061-4665: module input_handler *)
Record vih_st := { vih_buff_consum : Z; vih_valid_in_reg : bool; vih_end_out : bool; vih_buffer : Z; vih_valid_in_buff : bool; vih_latch_input : bool; vih_fsm_state : Z; vih_in_end_reg : bool; vih_enc_in_ctr_reg : Z; vih_enc_in_reg : Z; vih_in_end_buff : bool; vih_enc_in_ctr_buff : Z; vih_enc_in_buff : Z; vih_start : bool; vih_buff_free : Z; vih_valid_in_late : bool }.
Record vih_in := { vih_i_dec_buff : bool; vih_i_enc_in : Z; vih_i_enc_in_ctr : Z; vih_i_in_end : bool; vih_i_rst : bool; vih_i_valid_in : bool }.
Definition vih_idle : vih_in := {| vih_i_dec_buff := false; vih_i_enc_in := 0; vih_i_enc_in_ctr := 0; vih_i_in_end := false; vih_i_rst := false; vih_i_valid_in := false |}.
(* widths: buff_consum 7, valid_in_reg 1, end_out 1, buffer 77, valid_in_buff 1, latch_input 1, fsm_state 2, in_end_reg 1, enc_in_ctr_reg 5, enc_in_reg 30, in_end_buff 1, enc_in_ctr_buff 5, enc_in_buff 30, start 1, buff_free 7, valid_in_late 1, dec_buff 1, enc_in 30, enc_in_ctr 5, in_end 1, rst 1, valid_in 1 *)
Definition vih_init : vih_st := {| vih_buff_consum := 0; vih_valid_in_reg := false; vih_end_out := false; vih_buffer := 0; vih_valid_in_buff := false; vih_latch_input := false; vih_fsm_state := 0; vih_in_end_reg := false; vih_enc_in_ctr_reg := 0; vih_enc_in_reg := 0; vih_in_end_buff := false; vih_enc_in_ctr_buff := 0; vih_enc_in_buff := 0; vih_start := false; vih_buff_free := 0; vih_valid_in_late := false |}.
Definition vih_n_buff_consum (s : vih_st) (i : vih_in) : Z :=
  (let x12 := (if (orb (if ((vih_fsm_state s) =? 1) then true else if ((vih_fsm_state s) =? 2) then (if (vih_valid_in_reg s) then (if ((vih_enc_in_ctr_reg s) <=? (vih_buff_free s)) then true else false) else false) else false) (vih_i_dec_buff i)) then (if (andb (if ((vih_fsm_state s) =? 1) then true else if ((vih_fsm_state s) =? 2) then (if (vih_valid_in_reg s) then (if ((vih_enc_in_ctr_reg s) <=? (vih_buff_free s)) then true else false) else false) else false) (vih_i_dec_buff i)) then (slice 0 7 (((((vih_buff_consum s) - 16) mod 2 ^ 8) + (vih_enc_in_ctr_reg s)) mod 2 ^ 9)) else (if (vih_i_dec_buff i) then (slice 0 7 (((vih_buff_consum s) - 16) mod 2 ^ 8)) else if (if ((vih_fsm_state s) =? 1) then true else if ((vih_fsm_state s) =? 2) then (if (vih_valid_in_reg s) then (if ((vih_enc_in_ctr_reg s) <=? (vih_buff_free s)) then true else false) else false) else false) then (slice 0 7 (((vih_buff_consum s) + (vih_enc_in_ctr_reg s)) mod 2 ^ 8)) else 0)) else (vih_buff_consum s)) in (if (vih_i_rst i) then 0 else x12)).
Definition vih_n_valid_in_reg (s : vih_st) (i : vih_in) : bool :=
  (let x14 := (if ((vih_fsm_state s) =? 3) then (vih_i_valid_in i) else if ((vih_fsm_state s) =? 2) then (vih_i_valid_in i) else (vih_valid_in_reg s)) in (if (vih_i_rst i) then false else x14)).
Definition vih_n_end_out (s : vih_st) (i : vih_in) : bool :=
  (let x18 := (if ((vih_fsm_state s) =? 1) then (vih_in_end_reg s) else if ((vih_fsm_state s) =? 2) then (if (vih_valid_in_reg s) then (if ((vih_enc_in_ctr_reg s) <=? (vih_buff_free s)) then (vih_in_end_reg s) else (vih_end_out s)) else (vih_end_out s)) else (vih_end_out s)) in (if (vih_i_rst i) then false else x18)).
Definition vih_n_buffer (s : vih_st) (i : vih_in) : Z :=
  (let x22 := (if ((vih_fsm_state s) =? 1) then (slice 0 77 (Z.lor (((vih_buffer s) * 2 ^ (vih_enc_in_ctr_reg s)) mod 2 ^ 108) (vih_enc_in_reg s))) else if ((vih_fsm_state s) =? 2) then (if (vih_valid_in_reg s) then (if ((vih_enc_in_ctr_reg s) <=? (vih_buff_free s)) then (slice 0 77 (Z.lor (((vih_buffer s) * 2 ^ (vih_enc_in_ctr_reg s)) mod 2 ^ 108) (vih_enc_in_reg s))) else (vih_buffer s)) else (vih_buffer s)) else (vih_buffer s)) in (if (vih_i_rst i) then 0 else x22)).
Definition vih_n_valid_in_buff (s : vih_st) (i : vih_in) : bool :=
  (let x24 := (if ((vih_fsm_state s) =? 1) then false else if ((vih_fsm_state s) =? 2) then (vih_valid_in_reg s) else (vih_valid_in_buff s)) in (if (vih_i_rst i) then false else x24)).
Definition vih_n_latch_input (s : vih_st) (i : vih_in) : bool :=
  (let x30 := (if ((vih_fsm_state s) =? 0) then (if (vih_valid_in_buff s) then (vih_latch_input s) else if (vih_valid_in_reg s) then true else true) else if ((vih_fsm_state s) =? 1) then (if (vih_valid_in_reg s) then true else true) else if ((vih_fsm_state s) =? 2) then (if (vih_valid_in_reg s) then (if ((vih_enc_in_ctr_reg s) <=? (vih_buff_free s)) then true else false) else (vih_latch_input s)) else (vih_latch_input s)) in (if (vih_i_rst i) then false else x30)).
Definition vih_n_fsm_state (s : vih_st) (i : vih_in) : Z :=
  (let x37 := (if ((vih_fsm_state s) =? 0) then (if (vih_valid_in_buff s) then (if ((vih_enc_in_ctr_buff s) <=? (vih_buff_free s)) then 1 else (vih_fsm_state s)) else if (vih_valid_in_reg s) then 2 else 3) else if ((vih_fsm_state s) =? 1) then (if (vih_valid_in_reg s) then 2 else 3) else if ((vih_fsm_state s) =? 3) then 2 else if ((vih_fsm_state s) =? 2) then (if (vih_valid_in_reg s) then (if ((vih_enc_in_ctr_reg s) <=? (vih_buff_free s)) then (vih_fsm_state s) else 0) else (vih_fsm_state s)) else (vih_fsm_state s)) in (if (vih_i_rst i) then 0 else x37)).
Definition vih_n_in_end_reg (s : vih_st) (i : vih_in) : bool :=
  (let x41 := (if ((vih_fsm_state s) =? 0) then (if (vih_valid_in_buff s) then (if ((vih_enc_in_ctr_buff s) <=? (vih_buff_free s)) then (vih_in_end_buff s) else (vih_in_end_reg s)) else (vih_in_end_reg s)) else if ((vih_fsm_state s) =? 1) then (vih_in_end_buff s) else if ((vih_fsm_state s) =? 3) then (vih_i_in_end i) else if ((vih_fsm_state s) =? 2) then (vih_i_in_end i) else (vih_in_end_reg s)) in (if (vih_i_rst i) then false else x41)).
Definition vih_n_enc_in_ctr_reg (s : vih_st) (i : vih_in) : Z :=
  (let x45 := (if ((vih_fsm_state s) =? 0) then (if (vih_valid_in_buff s) then (if ((vih_enc_in_ctr_buff s) <=? (vih_buff_free s)) then (vih_enc_in_ctr_buff s) else (vih_enc_in_ctr_reg s)) else (vih_enc_in_ctr_reg s)) else if ((vih_fsm_state s) =? 1) then (vih_enc_in_ctr_buff s) else if ((vih_fsm_state s) =? 3) then (vih_i_enc_in_ctr i) else if ((vih_fsm_state s) =? 2) then (vih_i_enc_in_ctr i) else (vih_enc_in_ctr_reg s)) in (if (vih_i_rst i) then 0 else x45)).
Definition vih_n_enc_in_reg (s : vih_st) (i : vih_in) : Z :=
  (let x49 := (if ((vih_fsm_state s) =? 0) then (if (vih_valid_in_buff s) then (if ((vih_enc_in_ctr_buff s) <=? (vih_buff_free s)) then (vih_enc_in_buff s) else (vih_enc_in_reg s)) else (vih_enc_in_reg s)) else if ((vih_fsm_state s) =? 1) then (vih_enc_in_buff s) else if ((vih_fsm_state s) =? 3) then (vih_i_enc_in i) else if ((vih_fsm_state s) =? 2) then (vih_i_enc_in i) else (vih_enc_in_reg s)) in (if (vih_i_rst i) then 0 else x49)).
Definition vih_n_in_end_buff (s : vih_st) (i : vih_in) : bool :=
  (let x53 := (if ((vih_fsm_state s) =? 0) then (if (vih_valid_in_buff s) then (if ((vih_enc_in_ctr_buff s) <=? (vih_buff_free s)) then (vih_in_end_reg s) else (vih_in_end_buff s)) else (vih_in_end_buff s)) else if ((vih_fsm_state s) =? 1) then (vih_in_end_reg s) else if ((vih_fsm_state s) =? 2) then (vih_in_end_reg s) else (vih_in_end_buff s)) in (if (vih_i_rst i) then false else x53)).
Definition vih_n_enc_in_ctr_buff (s : vih_st) (i : vih_in) : Z :=
  (let x57 := (if ((vih_fsm_state s) =? 0) then (if (vih_valid_in_buff s) then (if ((vih_enc_in_ctr_buff s) <=? (vih_buff_free s)) then (vih_enc_in_ctr_reg s) else (vih_enc_in_ctr_buff s)) else (vih_enc_in_ctr_buff s)) else if ((vih_fsm_state s) =? 1) then (vih_enc_in_ctr_reg s) else if ((vih_fsm_state s) =? 2) then (vih_enc_in_ctr_reg s) else (vih_enc_in_ctr_buff s)) in (if (vih_i_rst i) then 0 else x57)).
Definition vih_n_enc_in_buff (s : vih_st) (i : vih_in) : Z :=
  (let x61 := (if ((vih_fsm_state s) =? 0) then (if (vih_valid_in_buff s) then (if ((vih_enc_in_ctr_buff s) <=? (vih_buff_free s)) then (vih_enc_in_reg s) else (vih_enc_in_buff s)) else (vih_enc_in_buff s)) else if ((vih_fsm_state s) =? 1) then (vih_enc_in_reg s) else if ((vih_fsm_state s) =? 2) then (vih_enc_in_reg s) else (vih_enc_in_buff s)) in (if (vih_i_rst i) then 0 else x61)).
Definition vih_n_start (s : vih_st) (i : vih_in) : bool :=
  (let x63 := (if (Bool.eqb (vih_start s) false) then true else (vih_start s)) in (if (vih_i_rst i) then false else x63)).
Definition vih_n_buff_free (s : vih_st) (i : vih_in) : Z :=
  (let x77 := (let x65 := (if (Bool.eqb (vih_start s) false) then 77 else (vih_buff_free s)) in (if (orb (if ((vih_fsm_state s) =? 1) then true else if ((vih_fsm_state s) =? 2) then (if (vih_valid_in_reg s) then (if ((vih_enc_in_ctr_reg s) <=? (vih_buff_free s)) then true else false) else false) else false) (vih_i_dec_buff i)) then (if (andb (if ((vih_fsm_state s) =? 1) then true else if ((vih_fsm_state s) =? 2) then (if (vih_valid_in_reg s) then (if ((vih_enc_in_ctr_reg s) <=? (vih_buff_free s)) then true else false) else false) else false) (vih_i_dec_buff i)) then (slice 0 7 (((((vih_buff_free s) + 16) mod 2 ^ 8) - (vih_enc_in_ctr_reg s)) mod 2 ^ 9)) else (if (vih_i_dec_buff i) then (slice 0 7 (((vih_buff_free s) + 16) mod 2 ^ 8)) else if (if ((vih_fsm_state s) =? 1) then true else if ((vih_fsm_state s) =? 2) then (if (vih_valid_in_reg s) then (if ((vih_enc_in_ctr_reg s) <=? (vih_buff_free s)) then true else false) else false) else false) then (slice 0 7 (((vih_buff_free s) - (vih_enc_in_ctr_reg s)) mod 2 ^ 8)) else 0)) else x65)) in (if (vih_i_rst i) then 0 else x77)).
Definition vih_n_valid_in_late (s : vih_st) (i : vih_in) : bool :=
  (if (vih_i_rst i) then false else (vih_i_valid_in i)).
Definition vih_step (s : vih_st) (i : vih_in) : vih_st := {| vih_buff_consum := vih_n_buff_consum s i; vih_valid_in_reg := vih_n_valid_in_reg s i; vih_end_out := vih_n_end_out s i; vih_buffer := vih_n_buffer s i; vih_valid_in_buff := vih_n_valid_in_buff s i; vih_latch_input := vih_n_latch_input s i; vih_fsm_state := vih_n_fsm_state s i; vih_in_end_reg := vih_n_in_end_reg s i; vih_enc_in_ctr_reg := vih_n_enc_in_ctr_reg s i; vih_enc_in_reg := vih_n_enc_in_reg s i; vih_in_end_buff := vih_n_in_end_buff s i; vih_enc_in_ctr_buff := vih_n_enc_in_ctr_buff s i; vih_enc_in_buff := vih_n_enc_in_buff s i; vih_start := vih_n_start s i; vih_buff_free := vih_n_buff_free s i; vih_valid_in_late := vih_n_valid_in_late s i |}.
Definition vih_o_buff_consum (s : vih_st) (i : vih_in) : Z :=
  (vih_buff_consum s).
Definition vih_o_buffer (s : vih_st) (i : vih_in) : Z :=
  (vih_buffer s).
Definition vih_o_end_out (s : vih_st) (i : vih_in) : bool :=
  (vih_end_out s).
Definition vih_o_latch_input (s : vih_st) (i : vih_in) : bool :=
  (vih_latch_input s).
Definition vih_o_new_buff_consum (s : vih_st) (i : vih_in) : Z :=
  (if (andb (if ((vih_fsm_state s) =? 1) then true else if ((vih_fsm_state s) =? 2) then (if (vih_valid_in_reg s) then (if ((vih_enc_in_ctr_reg s) <=? (vih_buff_free s)) then true else false) else false) else false) (vih_i_dec_buff i)) then (slice 0 7 (((((vih_buff_consum s) - 16) mod 2 ^ 8) + (vih_enc_in_ctr_reg s)) mod 2 ^ 9)) else (if (vih_i_dec_buff i) then (slice 0 7 (((vih_buff_consum s) - 16) mod 2 ^ 8)) else if (if ((vih_fsm_state s) =? 1) then true else if ((vih_fsm_state s) =? 2) then (if (vih_valid_in_reg s) then (if ((vih_enc_in_ctr_reg s) <=? (vih_buff_free s)) then true else false) else false) else false) then (slice 0 7 (((vih_buff_consum s) + (vih_enc_in_ctr_reg s)) mod 2 ^ 8)) else 0)).

(* /repo/verilog_src/beta_integration.v, lines 1138-1575: module converter *)
Record vcv_st := { vcv_out_end_latch : bool; vcv_enc_out_latch : Z; vcv_in_end : bool; vcv_enc_in_ctr : Z; vcv_enc_in : Z; vcv_valid_out_reg : bool; vcv_out_end_reg : bool; vcv_enc_out_ctr_reg : Z; vcv_enc_out_reg : Z; vcv_fsm_state : Z; vcv_latch_output : bool; vcv_valid_in : bool }.
Record vcv_in := { vcv_i_close_full : bool; vcv_i_enc_out : Z; vcv_i_enc_out_ctr : Z; vcv_i_out_end : bool; vcv_i_rst : bool; vcv_i_valid_out : bool }.
Definition vcv_idle : vcv_in := {| vcv_i_close_full := false; vcv_i_enc_out := 0; vcv_i_enc_out_ctr := 0; vcv_i_out_end := false; vcv_i_rst := false; vcv_i_valid_out := false |}.
(* widths: out_end_latch 1, enc_out_latch 30, in_end 1, enc_in_ctr 5, enc_in 30, valid_out_reg 1, out_end_reg 1, enc_out_ctr_reg 6, enc_out_reg 56, fsm_state 2, latch_output 1, valid_in 1, close_full 1, enc_out 56, enc_out_ctr 6, out_end 1, rst 1, valid_out 1 *)
Definition vcv_init : vcv_st := {| vcv_out_end_latch := false; vcv_enc_out_latch := 0; vcv_in_end := false; vcv_enc_in_ctr := 0; vcv_enc_in := 0; vcv_valid_out_reg := false; vcv_out_end_reg := false; vcv_enc_out_ctr_reg := 0; vcv_enc_out_reg := 0; vcv_fsm_state := 0; vcv_latch_output := false; vcv_valid_in := false |}.
Definition vcv_n_out_end_latch (s : vcv_st) (i : vcv_in) : bool :=
  (let x3 := (if ((vcv_fsm_state s) =? 1) then (if (vcv_valid_out_reg s) then (if ((vcv_enc_out_ctr_reg s) <=? 30) then (vcv_out_end_latch s) else (vcv_out_end_reg s)) else (vcv_out_end_latch s)) else (vcv_out_end_latch s)) in (if (vcv_i_rst i) then false else x3)).
Definition vcv_n_enc_out_latch (s : vcv_st) (i : vcv_in) : Z :=
  (let x7 := (if ((vcv_fsm_state s) =? 1) then (if (vcv_valid_out_reg s) then (if ((vcv_enc_out_ctr_reg s) <=? 30) then (vcv_enc_out_latch s) else (slice 0 30 (vcv_enc_out_reg s))) else (vcv_enc_out_latch s)) else (vcv_enc_out_latch s)) in (if (vcv_i_rst i) then 0 else x7)).
Definition vcv_n_in_end (s : vcv_st) (i : vcv_in) : bool :=
  (let x11 := (if ((vcv_fsm_state s) =? 1) then (if (vcv_valid_out_reg s) then (if ((vcv_enc_out_ctr_reg s) <=? 30) then (vcv_out_end_reg s) else false) else (vcv_in_end s)) else if ((vcv_fsm_state s) =? 3) then (vcv_out_end_latch s) else (vcv_in_end s)) in (if (vcv_i_rst i) then false else x11)).
Definition vcv_n_enc_in_ctr (s : vcv_st) (i : vcv_in) : Z :=
  (let x16 := (if ((vcv_fsm_state s) =? 1) then (if (vcv_valid_out_reg s) then (if ((vcv_enc_out_ctr_reg s) <=? 30) then (slice 0 5 (vcv_enc_out_ctr_reg s)) else (if ((vcv_enc_out_ctr_reg s) <=? 56) then (slice 0 5 (((vcv_enc_out_ctr_reg s) - 30) mod 2 ^ 7)) else 30)) else (vcv_enc_in_ctr s)) else if ((vcv_fsm_state s) =? 3) then 30 else (vcv_enc_in_ctr s)) in (if (vcv_i_rst i) then 0 else x16)).
Definition vcv_n_enc_in (s : vcv_st) (i : vcv_in) : Z :=
  (let x21 := (if ((vcv_fsm_state s) =? 1) then (if (vcv_valid_out_reg s) then (if ((vcv_enc_out_ctr_reg s) <=? 30) then (slice 0 30 (vcv_enc_out_reg s)) else (if ((vcv_enc_out_ctr_reg s) <=? 56) then (slice 30 56 (vcv_enc_out_reg s)) else (vcv_enc_in s))) else (vcv_enc_in s)) else if ((vcv_fsm_state s) =? 3) then (vcv_enc_out_latch s) else (vcv_enc_in s)) in (if (vcv_i_rst i) then 0 else x21)).
Definition vcv_n_valid_out_reg (s : vcv_st) (i : vcv_in) : bool :=
  (let x23 := (if ((vcv_fsm_state s) =? 2) then (vcv_i_valid_out i) else if ((vcv_fsm_state s) =? 1) then (vcv_i_valid_out i) else (vcv_valid_out_reg s)) in (if (vcv_i_rst i) then false else x23)).
Definition vcv_n_out_end_reg (s : vcv_st) (i : vcv_in) : bool :=
  (let x25 := (if ((vcv_fsm_state s) =? 2) then (vcv_i_out_end i) else if ((vcv_fsm_state s) =? 1) then (vcv_i_out_end i) else (vcv_out_end_reg s)) in (if (vcv_i_rst i) then false else x25)).
Definition vcv_n_enc_out_ctr_reg (s : vcv_st) (i : vcv_in) : Z :=
  (let x27 := (if ((vcv_fsm_state s) =? 2) then (vcv_i_enc_out_ctr i) else if ((vcv_fsm_state s) =? 1) then (vcv_i_enc_out_ctr i) else (vcv_enc_out_ctr_reg s)) in (if (vcv_i_rst i) then 0 else x27)).
Definition vcv_n_enc_out_reg (s : vcv_st) (i : vcv_in) : Z :=
  (let x29 := (if ((vcv_fsm_state s) =? 2) then (vcv_i_enc_out i) else if ((vcv_fsm_state s) =? 1) then (vcv_i_enc_out i) else (vcv_enc_out_reg s)) in (if (vcv_i_rst i) then 0 else x29)).
Definition vcv_n_fsm_state (s : vcv_st) (i : vcv_in) : Z :=
  (let x37 := (if ((vcv_fsm_state s) =? 0) then (if (andb (vcv_valid_out_reg s) (Bool.eqb (vcv_i_close_full i) false)) then 1 else if (andb (vcv_i_valid_out i) (Bool.eqb (vcv_i_close_full i) false)) then 2 else 0) else if ((vcv_fsm_state s) =? 2) then 1 else if ((vcv_fsm_state s) =? 1) then (if (vcv_valid_out_reg s) then (if ((vcv_enc_out_ctr_reg s) <=? 30) then (if (vcv_i_close_full i) then 0 else (vcv_fsm_state s)) else (if ((vcv_enc_out_ctr_reg s) <=? 56) then 3 else (vcv_fsm_state s))) else (vcv_fsm_state s)) else if ((vcv_fsm_state s) =? 3) then (if (andb (vcv_valid_out_reg s) (Bool.eqb (vcv_i_close_full i) false)) then 1 else if (andb (vcv_i_valid_out i) (Bool.eqb (vcv_i_close_full i) false)) then 2 else 0) else (vcv_fsm_state s)) in (if (vcv_i_rst i) then 0 else x37)).
Definition vcv_n_latch_output (s : vcv_st) (i : vcv_in) : bool :=
  (let x44 := (if ((vcv_fsm_state s) =? 0) then (if (andb (vcv_valid_out_reg s) (Bool.eqb (vcv_i_close_full i) false)) then true else if (andb (vcv_i_valid_out i) (Bool.eqb (vcv_i_close_full i) false)) then true else false) else if ((vcv_fsm_state s) =? 1) then (if (vcv_valid_out_reg s) then (if ((vcv_enc_out_ctr_reg s) <=? 30) then (if (vcv_i_close_full i) then false else (vcv_latch_output s)) else false) else (vcv_latch_output s)) else if ((vcv_fsm_state s) =? 3) then (if (andb (vcv_valid_out_reg s) (Bool.eqb (vcv_i_close_full i) false)) then true else if (andb (vcv_i_valid_out i) (Bool.eqb (vcv_i_close_full i) false)) then true else (vcv_latch_output s)) else (vcv_latch_output s)) in (if (vcv_i_rst i) then false else x44)).
Definition vcv_n_valid_in (s : vcv_st) (i : vcv_in) : bool :=
  (let x48 := (if ((vcv_fsm_state s) =? 0) then false else if ((vcv_fsm_state s) =? 2) then false else if ((vcv_fsm_state s) =? 1) then (if (vcv_valid_out_reg s) then (if ((vcv_enc_out_ctr_reg s) <=? 30) then true else true) else false) else if ((vcv_fsm_state s) =? 3) then true else (vcv_valid_in s)) in (if (vcv_i_rst i) then false else x48)).
Definition vcv_step (s : vcv_st) (i : vcv_in) : vcv_st := {| vcv_out_end_latch := vcv_n_out_end_latch s i; vcv_enc_out_latch := vcv_n_enc_out_latch s i; vcv_in_end := vcv_n_in_end s i; vcv_enc_in_ctr := vcv_n_enc_in_ctr s i; vcv_enc_in := vcv_n_enc_in s i; vcv_valid_out_reg := vcv_n_valid_out_reg s i; vcv_out_end_reg := vcv_n_out_end_reg s i; vcv_enc_out_ctr_reg := vcv_n_enc_out_ctr_reg s i; vcv_enc_out_reg := vcv_n_enc_out_reg s i; vcv_fsm_state := vcv_n_fsm_state s i; vcv_latch_output := vcv_n_latch_output s i; vcv_valid_in := vcv_n_valid_in s i |}.
Definition vcv_o_enc_in (s : vcv_st) (i : vcv_in) : Z :=
  (vcv_enc_in s).
Definition vcv_o_enc_in_ctr (s : vcv_st) (i : vcv_in) : Z :=
  (vcv_enc_in_ctr s).
Definition vcv_o_in_end (s : vcv_st) (i : vcv_in) : bool :=
  (vcv_in_end s).
Definition vcv_o_latch_output (s : vcv_st) (i : vcv_in) : bool :=
  (vcv_latch_output s).
Definition vcv_o_valid_in (s : vcv_st) (i : vcv_in) : bool :=
  (vcv_valid_in s).

(* /repo/verilog_src/beta_integration.v, lines 2365-2805: module fix_0xff *)
Record vfx_st := { vfx_end_out_reg : bool; vfx_data_out_ctr_reg : Z; vfx_data_out_reg : Z; vfx_data_out_valid : bool; vfx_o_busy : bool; vfx_data_out_ctr : Z; vfx_data_out : Z; vfx_end_out : bool; vfx_valid_out : bool; vfx_zeros : Z; vfx_ones : Z }.
Record vfx_in := { vfx_i_data_in : Z; vfx_i_end_in : bool; vfx_i_i_busy : bool; vfx_i_rst : bool; vfx_i_valid_in : bool }.
Definition vfx_idle : vfx_in := {| vfx_i_data_in := 0; vfx_i_end_in := false; vfx_i_i_busy := false; vfx_i_rst := false; vfx_i_valid_in := false |}.
(* widths: end_out_reg 1, data_out_ctr_reg 3, data_out_reg 32, data_out_valid 1, o_busy 1, data_out_ctr 3, data_out 32, end_out 1, valid_out 1, zeros 8, ones 8, data_in 16, end_in 1, i_busy 1, rst 1, valid_in 1 *)
Definition vfx_init : vfx_st := {| vfx_end_out_reg := false; vfx_data_out_ctr_reg := 0; vfx_data_out_reg := 0; vfx_data_out_valid := false; vfx_o_busy := false; vfx_data_out_ctr := 0; vfx_data_out := 0; vfx_end_out := false; vfx_valid_out := false; vfx_zeros := 0; vfx_ones := 255 |}.
Definition vfx_n_end_out_reg (s : vfx_st) (i : vfx_in) : bool :=
  (let x1 := (if (Bool.eqb (vfx_o_busy s) false) then (vfx_i_end_in i) else (vfx_end_out_reg s)) in (if (vfx_i_rst i) then false else x1)).
Definition vfx_n_data_out_ctr_reg (s : vfx_st) (i : vfx_in) : Z :=
  (let x4 := (if (Bool.eqb (vfx_o_busy s) false) then (if ((vfx_i_data_in i) =? 65535) then 4 else if ((slice 0 8 (vfx_i_data_in i)) =? 255) then 3 else if ((slice 8 16 (vfx_i_data_in i)) =? 255) then 3 else 2) else (vfx_data_out_ctr_reg s)) in (if (vfx_i_rst i) then 0 else x4)).
Definition vfx_n_data_out_reg (s : vfx_st) (i : vfx_in) : Z :=
  (let x7 := (if (Bool.eqb (vfx_o_busy s) false) then (if ((vfx_i_data_in i) =? 65535) then ((((vfx_ones s) * 2 ^ 8 + (vfx_zeros s)) * 2 ^ 8 + (vfx_ones s)) * 2 ^ 8 + (vfx_zeros s)) else if ((slice 0 8 (vfx_i_data_in i)) =? 255) then (((slice 8 16 (vfx_i_data_in i)) * 2 ^ 8 + (vfx_ones s)) * 2 ^ 8 + (vfx_zeros s)) else if ((slice 8 16 (vfx_i_data_in i)) =? 255) then (((vfx_ones s) * 2 ^ 8 + (vfx_zeros s)) * 2 ^ 8 + (slice 0 8 (vfx_i_data_in i))) else (vfx_i_data_in i)) else (vfx_data_out_reg s)) in (if (vfx_i_rst i) then 0 else x7)).
Definition vfx_n_data_out_valid (s : vfx_st) (i : vfx_in) : bool :=
  (let x9 := (if (Bool.eqb (vfx_i_i_busy i) false) then false else if (Bool.eqb (vfx_valid_out s) false) then false else if (andb (Bool.eqb (vfx_i_valid_in i) true) (Bool.eqb (vfx_o_busy s) false)) then (andb (Bool.eqb (vfx_i_valid_in i) true) (Bool.eqb (vfx_valid_out s) true)) else (vfx_data_out_valid s)) in (if (vfx_i_rst i) then false else x9)).
Definition vfx_n_o_busy (s : vfx_st) (i : vfx_in) : bool :=
  (let x11 := (if (Bool.eqb (vfx_i_i_busy i) false) then false else if (Bool.eqb (vfx_valid_out s) false) then false else if (andb (Bool.eqb (vfx_i_valid_in i) true) (Bool.eqb (vfx_o_busy s) false)) then (andb (Bool.eqb (vfx_i_valid_in i) true) (Bool.eqb (vfx_valid_out s) true)) else (vfx_o_busy s)) in (if (vfx_i_rst i) then false else x11)).
Definition vfx_n_data_out_ctr (s : vfx_st) (i : vfx_in) : Z :=
  (let x16 := (if (Bool.eqb (vfx_i_i_busy i) false) then (if (Bool.eqb (vfx_data_out_valid s) false) then (if ((vfx_i_data_in i) =? 65535) then 4 else if ((slice 0 8 (vfx_i_data_in i)) =? 255) then 3 else if ((slice 8 16 (vfx_i_data_in i)) =? 255) then 3 else 2) else (vfx_data_out_ctr_reg s)) else if (Bool.eqb (vfx_valid_out s) false) then (if ((vfx_i_data_in i) =? 65535) then 4 else if ((slice 0 8 (vfx_i_data_in i)) =? 255) then 3 else if ((slice 8 16 (vfx_i_data_in i)) =? 255) then 3 else 2) else (vfx_data_out_ctr s)) in (if (vfx_i_rst i) then 0 else x16)).
Definition vfx_n_data_out (s : vfx_st) (i : vfx_in) : Z :=
  (let x21 := (if (Bool.eqb (vfx_i_i_busy i) false) then (if (Bool.eqb (vfx_data_out_valid s) false) then (if ((vfx_i_data_in i) =? 65535) then ((((vfx_ones s) * 2 ^ 8 + (vfx_zeros s)) * 2 ^ 8 + (vfx_ones s)) * 2 ^ 8 + (vfx_zeros s)) else if ((slice 0 8 (vfx_i_data_in i)) =? 255) then (((slice 8 16 (vfx_i_data_in i)) * 2 ^ 8 + (vfx_ones s)) * 2 ^ 8 + (vfx_zeros s)) else if ((slice 8 16 (vfx_i_data_in i)) =? 255) then (((vfx_ones s) * 2 ^ 8 + (vfx_zeros s)) * 2 ^ 8 + (slice 0 8 (vfx_i_data_in i))) else (vfx_i_data_in i)) else (vfx_data_out_reg s)) else if (Bool.eqb (vfx_valid_out s) false) then (if ((vfx_i_data_in i) =? 65535) then ((((vfx_ones s) * 2 ^ 8 + (vfx_zeros s)) * 2 ^ 8 + (vfx_ones s)) * 2 ^ 8 + (vfx_zeros s)) else if ((slice 0 8 (vfx_i_data_in i)) =? 255) then (((slice 8 16 (vfx_i_data_in i)) * 2 ^ 8 + (vfx_ones s)) * 2 ^ 8 + (vfx_zeros s)) else if ((slice 8 16 (vfx_i_data_in i)) =? 255) then (((vfx_ones s) * 2 ^ 8 + (vfx_zeros s)) * 2 ^ 8 + (slice 0 8 (vfx_i_data_in i))) else (vfx_i_data_in i)) else (vfx_data_out s)) in (if (vfx_i_rst i) then 0 else x21)).
Definition vfx_n_end_out (s : vfx_st) (i : vfx_in) : bool :=
  (let x24 := (if (Bool.eqb (vfx_i_i_busy i) false) then (if (Bool.eqb (vfx_data_out_valid s) false) then (vfx_i_end_in i) else (vfx_end_out_reg s)) else if (Bool.eqb (vfx_valid_out s) false) then (vfx_i_end_in i) else (vfx_end_out s)) in (if (vfx_i_rst i) then false else x24)).
Definition vfx_n_valid_out (s : vfx_st) (i : vfx_in) : bool :=
  (let x27 := (if (Bool.eqb (vfx_i_i_busy i) false) then (if (Bool.eqb (vfx_data_out_valid s) false) then (vfx_i_valid_in i) else true) else if (Bool.eqb (vfx_valid_out s) false) then (vfx_i_valid_in i) else (vfx_valid_out s)) in (if (vfx_i_rst i) then false else x27)).
Definition vfx_n_zeros (s : vfx_st) (i : vfx_in) : Z :=
  (if (vfx_i_rst i) then 0 else 0).
Definition vfx_n_ones (s : vfx_st) (i : vfx_in) : Z :=
  (if (vfx_i_rst i) then 255 else 255).
Definition vfx_step (s : vfx_st) (i : vfx_in) : vfx_st := {| vfx_end_out_reg := vfx_n_end_out_reg s i; vfx_data_out_ctr_reg := vfx_n_data_out_ctr_reg s i; vfx_data_out_reg := vfx_n_data_out_reg s i; vfx_data_out_valid := vfx_n_data_out_valid s i; vfx_o_busy := vfx_n_o_busy s i; vfx_data_out_ctr := vfx_n_data_out_ctr s i; vfx_data_out := vfx_n_data_out s i; vfx_end_out := vfx_n_end_out s i; vfx_valid_out := vfx_n_valid_out s i; vfx_zeros := vfx_n_zeros s i; vfx_ones := vfx_n_ones s i |}.
Definition vfx_o_data_out (s : vfx_st) (i : vfx_in) : Z :=
  (vfx_data_out s).
Definition vfx_o_data_out_ctr (s : vfx_st) (i : vfx_in) : Z :=
  (vfx_data_out_ctr s).
Definition vfx_o_end_out (s : vfx_st) (i : vfx_in) : bool :=
  (vfx_end_out s).
Definition vfx_o_o_busy (s : vfx_st) (i : vfx_in) : bool :=
  (vfx_o_busy s).
Definition vfx_o_valid_out (s : vfx_st) (i : vfx_in) : bool :=
  (vfx_valid_out s).

(* /repo/verilog_src/beta_integration.v, lines 6898-7343: module predictor *)
Record vpr_st := { vpr_end_out : bool; vpr_valid_out : bool; vpr_predic_out_3 : Z; vpr_predic_out : Z; vpr_lbuff_32 : Z; vpr_lbuff_31 : Z; vpr_lbuff_30 : Z; vpr_lbuff : Z; vpr_lbuff_ctr : bool; vpr_buff_26 : Z; vpr_buff_25 : Z; vpr_buff_24 : Z; vpr_buff : Z; vpr_buff_ctr : bool; vpr_pixel_out_2 : Z; vpr_pixel_out : Z; vpr_debug_counter : Z; vpr_new_row_reg : bool }.
Record vpr_in := { vpr_i_end_in : bool; vpr_i_new_row : bool; vpr_i_pixel_in : Z; vpr_i_pixel_in_1 : Z; vpr_i_rst : bool; vpr_i_valid_in : bool }.
Definition vpr_idle : vpr_in := {| vpr_i_end_in := false; vpr_i_new_row := false; vpr_i_pixel_in := 0; vpr_i_pixel_in_1 := 0; vpr_i_rst := false; vpr_i_valid_in := false |}.
(* widths: end_out 1, valid_out 1, predic_out_3 12, predic_out 12, lbuff_32 12, lbuff_31 12, lbuff_30 12, lbuff 12, lbuff_ctr 1, buff_26 12, buff_25 12, buff_24 12, buff 12, buff_ctr 1, pixel_out_2 12, pixel_out 12, debug_counter 32, new_row_reg 1, end_in 1, new_row 1, pixel_in 12, pixel_in_1 12, rst 1, valid_in 1 *)
Definition vpr_init : vpr_st := {| vpr_end_out := false; vpr_valid_out := false; vpr_predic_out_3 := 0; vpr_predic_out := 0; vpr_lbuff_32 := 2048; vpr_lbuff_31 := 2048; vpr_lbuff_30 := 2048; vpr_lbuff := 2048; vpr_lbuff_ctr := false; vpr_buff_26 := 2048; vpr_buff_25 := 2048; vpr_buff_24 := 2048; vpr_buff := 2048; vpr_buff_ctr := false; vpr_pixel_out_2 := 0; vpr_pixel_out := 0; vpr_debug_counter := 0; vpr_new_row_reg := false |}.
Definition vpr_n_end_out (s : vpr_st) (i : vpr_in) : bool :=
  (if (vpr_i_rst i) then false else (vpr_i_end_in i)).
Definition vpr_n_valid_out (s : vpr_st) (i : vpr_in) : bool :=
  (if (vpr_i_rst i) then false else (vpr_i_valid_in i)).
Definition vpr_n_predic_out_3 (s : vpr_st) (i : vpr_in) : Z :=
  (let x6 := (if (vpr_i_valid_in i) then (if (orb (vpr_i_new_row i) (vpr_new_row_reg s)) then (if (negb (vpr_lbuff_ctr s)) then (vpr_lbuff_30 s) else if (vpr_lbuff_ctr s) then (vpr_lbuff_32 s) else (vpr_predic_out_3 s)) else (if (negb (vpr_buff_ctr s)) then (vpr_buff_24 s) else if (vpr_buff_ctr s) then (vpr_buff_26 s) else (vpr_predic_out_3 s))) else (vpr_predic_out_3 s)) in (if (vpr_i_rst i) then 0 else x6)).
Definition vpr_n_predic_out (s : vpr_st) (i : vpr_in) : Z :=
  (let x11 := (if (vpr_i_valid_in i) then (if (orb (vpr_i_new_row i) (vpr_new_row_reg s)) then (if (negb (vpr_lbuff_ctr s)) then (vpr_lbuff s) else if (vpr_lbuff_ctr s) then (vpr_lbuff_31 s) else (vpr_predic_out s)) else (if (negb (vpr_buff_ctr s)) then (vpr_buff s) else if (vpr_buff_ctr s) then (vpr_buff_25 s) else (vpr_predic_out s))) else (vpr_predic_out s)) in (if (vpr_i_rst i) then 0 else x11)).
Definition vpr_n_lbuff_32 (s : vpr_st) (i : vpr_in) : Z :=
  (let x15 := (if (vpr_i_valid_in i) then (if (orb (vpr_i_new_row i) (vpr_new_row_reg s)) then (if (vpr_lbuff_ctr s) then (vpr_i_pixel_in_1 i) else (vpr_lbuff_32 s)) else (vpr_lbuff_32 s)) else (vpr_lbuff_32 s)) in (if (vpr_i_rst i) then 2048 else x15)).
Definition vpr_n_lbuff_31 (s : vpr_st) (i : vpr_in) : Z :=
  (let x19 := (if (vpr_i_valid_in i) then (if (orb (vpr_i_new_row i) (vpr_new_row_reg s)) then (if (vpr_lbuff_ctr s) then (vpr_i_pixel_in i) else (vpr_lbuff_31 s)) else (vpr_lbuff_31 s)) else (vpr_lbuff_31 s)) in (if (vpr_i_rst i) then 2048 else x19)).
Definition vpr_n_lbuff_30 (s : vpr_st) (i : vpr_in) : Z :=
  (let x23 := (if (vpr_i_valid_in i) then (if (orb (vpr_i_new_row i) (vpr_new_row_reg s)) then (if (negb (vpr_lbuff_ctr s)) then (vpr_i_pixel_in_1 i) else (vpr_lbuff_30 s)) else (vpr_lbuff_30 s)) else (vpr_lbuff_30 s)) in (if (vpr_i_rst i) then 2048 else x23)).
Definition vpr_n_lbuff (s : vpr_st) (i : vpr_in) : Z :=
  (let x27 := (if (vpr_i_valid_in i) then (if (orb (vpr_i_new_row i) (vpr_new_row_reg s)) then (if (negb (vpr_lbuff_ctr s)) then (vpr_i_pixel_in i) else (vpr_lbuff s)) else (vpr_lbuff s)) else (vpr_lbuff s)) in (if (vpr_i_rst i) then 2048 else x27)).
Definition vpr_n_lbuff_ctr (s : vpr_st) (i : vpr_in) : bool :=
  (let x30 := (if (vpr_i_valid_in i) then (if (orb (vpr_i_new_row i) (vpr_new_row_reg s)) then (Z.testbit (((b2z (vpr_lbuff_ctr s)) + 1) mod 2 ^ 2) 0) else (vpr_lbuff_ctr s)) else (vpr_lbuff_ctr s)) in (if (vpr_i_rst i) then false else x30)).
Definition vpr_n_buff_26 (s : vpr_st) (i : vpr_in) : Z :=
  (let x33 := (if (vpr_i_valid_in i) then (if (vpr_buff_ctr s) then (vpr_i_pixel_in_1 i) else (vpr_buff_26 s)) else (vpr_buff_26 s)) in (if (vpr_i_rst i) then 2048 else x33)).
Definition vpr_n_buff_25 (s : vpr_st) (i : vpr_in) : Z :=
  (let x36 := (if (vpr_i_valid_in i) then (if (vpr_buff_ctr s) then (vpr_i_pixel_in i) else (vpr_buff_25 s)) else (vpr_buff_25 s)) in (if (vpr_i_rst i) then 2048 else x36)).
Definition vpr_n_buff_24 (s : vpr_st) (i : vpr_in) : Z :=
  (let x39 := (if (vpr_i_valid_in i) then (if (negb (vpr_buff_ctr s)) then (vpr_i_pixel_in_1 i) else (vpr_buff_24 s)) else (vpr_buff_24 s)) in (if (vpr_i_rst i) then 2048 else x39)).
Definition vpr_n_buff (s : vpr_st) (i : vpr_in) : Z :=
  (let x42 := (if (vpr_i_valid_in i) then (if (negb (vpr_buff_ctr s)) then (vpr_i_pixel_in i) else (vpr_buff s)) else (vpr_buff s)) in (if (vpr_i_rst i) then 2048 else x42)).
Definition vpr_n_buff_ctr (s : vpr_st) (i : vpr_in) : bool :=
  (let x44 := (if (vpr_i_valid_in i) then (Z.testbit (((b2z (vpr_buff_ctr s)) + 1) mod 2 ^ 2) 0) else (vpr_buff_ctr s)) in (if (vpr_i_rst i) then false else x44)).
Definition vpr_n_pixel_out_2 (s : vpr_st) (i : vpr_in) : Z :=
  (let x46 := (if (vpr_i_valid_in i) then (vpr_i_pixel_in_1 i) else (vpr_pixel_out_2 s)) in (if (vpr_i_rst i) then 0 else x46)).
Definition vpr_n_pixel_out (s : vpr_st) (i : vpr_in) : Z :=
  (let x48 := (if (vpr_i_valid_in i) then (vpr_i_pixel_in i) else (vpr_pixel_out s)) in (if (vpr_i_rst i) then 0 else x48)).
Definition vpr_n_debug_counter (s : vpr_st) (i : vpr_in) : Z :=
  (let x50 := (if (vpr_i_valid_in i) then (slice 0 32 (((vpr_debug_counter s) + 1) mod 2 ^ 33)) else (vpr_debug_counter s)) in (if (vpr_i_rst i) then 0 else x50)).
Definition vpr_n_new_row_reg (s : vpr_st) (i : vpr_in) : bool :=
  (let x52 := (if (andb (Bool.eqb (vpr_i_valid_in i) true) (Bool.eqb (vpr_i_new_row i) true)) then true else if (andb (Bool.eqb (vpr_i_valid_in i) true) (Bool.eqb (vpr_lbuff_ctr s) true)) then false else (vpr_new_row_reg s)) in (if (vpr_i_rst i) then false else x52)).
Definition vpr_step (s : vpr_st) (i : vpr_in) : vpr_st := {| vpr_end_out := vpr_n_end_out s i; vpr_valid_out := vpr_n_valid_out s i; vpr_predic_out_3 := vpr_n_predic_out_3 s i; vpr_predic_out := vpr_n_predic_out s i; vpr_lbuff_32 := vpr_n_lbuff_32 s i; vpr_lbuff_31 := vpr_n_lbuff_31 s i; vpr_lbuff_30 := vpr_n_lbuff_30 s i; vpr_lbuff := vpr_n_lbuff s i; vpr_lbuff_ctr := vpr_n_lbuff_ctr s i; vpr_buff_26 := vpr_n_buff_26 s i; vpr_buff_25 := vpr_n_buff_25 s i; vpr_buff_24 := vpr_n_buff_24 s i; vpr_buff := vpr_n_buff s i; vpr_buff_ctr := vpr_n_buff_ctr s i; vpr_pixel_out_2 := vpr_n_pixel_out_2 s i; vpr_pixel_out := vpr_n_pixel_out s i; vpr_debug_counter := vpr_n_debug_counter s i; vpr_new_row_reg := vpr_n_new_row_reg s i |}.
Definition vpr_o_end_out (s : vpr_st) (i : vpr_in) : bool :=
  (vpr_end_out s).
Definition vpr_o_pixel_out (s : vpr_st) (i : vpr_in) : Z :=
  (vpr_pixel_out s).
Definition vpr_o_pixel_out_2 (s : vpr_st) (i : vpr_in) : Z :=
  (vpr_pixel_out_2 s).
Definition vpr_o_predic_out (s : vpr_st) (i : vpr_in) : Z :=
  (vpr_predic_out s).
Definition vpr_o_predic_out_3 (s : vpr_st) (i : vpr_in) : Z :=
  (vpr_predic_out_3 s).
Definition vpr_o_valid_out (s : vpr_st) (i : vpr_in) : bool :=
  (vpr_valid_out s).

(* /repo/verilog_src/delayer.v, lines 6-81: module top *)
Record vdl_st := { vdl_out_val : bool; vdl_timer : Z; vdl_timer_start : bool }.
Record vdl_in := { vdl_i_in_sig : bool; vdl_i_rst : bool }.
Definition vdl_idle : vdl_in := {| vdl_i_in_sig := false; vdl_i_rst := false |}.
(* widths: out_val 1, timer 3, timer_start 1, in_sig 1, rst 1 *)
Definition vdl_init : vdl_st := {| vdl_out_val := false; vdl_timer := 6; vdl_timer_start := false |}.
Definition vdl_n_out_val (s : vdl_st) (i : vdl_in) : bool :=
  (let x0 := (orb ((vdl_timer s) =? 0) (vdl_out_val s)) in (if (vdl_i_rst i) then false else x0)).
Definition vdl_n_timer (s : vdl_st) (i : vdl_in) : Z :=
  (let x2 := (if (vdl_timer_start s) then (slice 0 3 (((vdl_timer s) - 1) mod 2 ^ 4)) else (vdl_timer s)) in (if (vdl_i_rst i) then 6 else x2)).
Definition vdl_n_timer_start (s : vdl_st) (i : vdl_in) : bool :=
  (let x4 := (if (vdl_i_in_sig i) then true else (vdl_timer_start s)) in (if (vdl_i_rst i) then false else x4)).
Definition vdl_step (s : vdl_st) (i : vdl_in) : vdl_st := {| vdl_out_val := vdl_n_out_val s i; vdl_timer := vdl_n_timer s i; vdl_timer_start := vdl_n_timer_start s i |}.
Definition vdl_o_out_sig (s : vdl_st) (i : vdl_in) : bool :=
  (vdl_out_val s).

(* /repo/verilog_src/address_generator.v, lines 6-93: module top *)
Record vag_st := { vag_fsm_state : bool; vag_address_valid : bool; vag_address_o : Z }.
Record vag_in := { vag_i_address_latch : bool; vag_i_rst : bool; vag_i_starting_address : Z }.
Definition vag_idle : vag_in := {| vag_i_address_latch := false; vag_i_rst := false; vag_i_starting_address := 0 |}.
(* widths: fsm_state 1, address_valid 1, address_o 32, address_latch 1, rst 1, starting_address 32 *)
Definition vag_init : vag_st := {| vag_fsm_state := false; vag_address_valid := false; vag_address_o := 0 |}.
Definition vag_n_fsm_state (s : vag_st) (i : vag_in) : bool :=
  (let x2 := (if (negb (vag_fsm_state s)) then (if (vag_i_address_latch i) then true else (vag_fsm_state s)) else (vag_fsm_state s)) in (if (vag_i_rst i) then false else x2)).
Definition vag_n_address_valid (s : vag_st) (i : vag_in) : bool :=
  (let x4 := (if (negb (vag_fsm_state s)) then true else (vag_address_valid s)) in (if (vag_i_rst i) then false else x4)).
Definition vag_n_address_o (s : vag_st) (i : vag_in) : Z :=
  (let x8 := (if (negb (vag_fsm_state s)) then (if (vag_i_address_latch i) then (slice 0 32 (((vag_address_o s) + 16) mod 2 ^ 33)) else (vag_i_starting_address i)) else if (vag_fsm_state s) then (if (vag_i_address_latch i) then (slice 0 32 (((vag_address_o s) + 16) mod 2 ^ 33)) else (vag_address_o s)) else (vag_address_o s)) in (if (vag_i_rst i) then 0 else x8)).
Definition vag_step (s : vag_st) (i : vag_in) : vag_st := {| vag_fsm_state := vag_n_fsm_state s i; vag_address_valid := vag_n_address_valid s i; vag_address_o := vag_n_address_o s i |}.
Definition vag_o_address_o (s : vag_st) (i : vag_in) : Z :=
  (vag_address_o s).
Definition vag_o_address_valid (s : vag_st) (i : vag_in) : bool :=
  (vag_address_valid s).

(* /repo/verilog_src/debug_module.v, lines 6-206: module top *)
Record vdb_st := { vdb_wsignal_7 : Z; vdb_wsignal_6 : Z; vdb_wsignal_5 : Z; vdb_wsignal_4 : Z; vdb_wsignal_3 : Z; vdb_wsignal_2 : Z; vdb_wsignal_1 : Z; vdb_wsignal : Z }.
Record vdb_in := { vdb_i_full_rst : bool; vdb_i_regs_en : Z }.
Definition vdb_idle : vdb_in := {| vdb_i_full_rst := false; vdb_i_regs_en := 0 |}.
(* widths: wsignal_7 32, wsignal_6 32, wsignal_5 32, wsignal_4 32, wsignal_3 32, wsignal_2 32, wsignal_1 32, wsignal 32, full_rst 1, regs_en 8 *)
Definition vdb_init : vdb_st := {| vdb_wsignal_7 := 0; vdb_wsignal_6 := 0; vdb_wsignal_5 := 0; vdb_wsignal_4 := 0; vdb_wsignal_3 := 0; vdb_wsignal_2 := 0; vdb_wsignal_1 := 0; vdb_wsignal := 0 |}.
Definition vdb_n_wsignal_7 (s : vdb_st) (i : vdb_in) : Z :=
  (let x1 := (if (Z.testbit (vdb_i_regs_en i) 7) then (slice 0 32 (((vdb_wsignal_7 s) + 1) mod 2 ^ 33)) else (vdb_wsignal_7 s)) in (if (vdb_i_full_rst i) then 0 else x1)).
Definition vdb_n_wsignal_6 (s : vdb_st) (i : vdb_in) : Z :=
  (let x3 := (if (Z.testbit (vdb_i_regs_en i) 6) then (slice 0 32 (((vdb_wsignal_6 s) + 1) mod 2 ^ 33)) else (vdb_wsignal_6 s)) in (if (vdb_i_full_rst i) then 0 else x3)).
Definition vdb_n_wsignal_5 (s : vdb_st) (i : vdb_in) : Z :=
  (let x5 := (if (Z.testbit (vdb_i_regs_en i) 5) then (slice 0 32 (((vdb_wsignal_5 s) + 1) mod 2 ^ 33)) else (vdb_wsignal_5 s)) in (if (vdb_i_full_rst i) then 0 else x5)).
Definition vdb_n_wsignal_4 (s : vdb_st) (i : vdb_in) : Z :=
  (let x7 := (if (Z.testbit (vdb_i_regs_en i) 4) then (slice 0 32 (((vdb_wsignal_4 s) + 1) mod 2 ^ 33)) else (vdb_wsignal_4 s)) in (if (vdb_i_full_rst i) then 0 else x7)).
Definition vdb_n_wsignal_3 (s : vdb_st) (i : vdb_in) : Z :=
  (let x9 := (if (Z.testbit (vdb_i_regs_en i) 3) then (slice 0 32 (((vdb_wsignal_3 s) + 1) mod 2 ^ 33)) else (vdb_wsignal_3 s)) in (if (vdb_i_full_rst i) then 0 else x9)).
Definition vdb_n_wsignal_2 (s : vdb_st) (i : vdb_in) : Z :=
  (let x11 := (if (Z.testbit (vdb_i_regs_en i) 2) then (slice 0 32 (((vdb_wsignal_2 s) + 1) mod 2 ^ 33)) else (vdb_wsignal_2 s)) in (if (vdb_i_full_rst i) then 0 else x11)).
Definition vdb_n_wsignal_1 (s : vdb_st) (i : vdb_in) : Z :=
  (let x13 := (if (Z.testbit (vdb_i_regs_en i) 1) then (slice 0 32 (((vdb_wsignal_1 s) + 1) mod 2 ^ 33)) else (vdb_wsignal_1 s)) in (if (vdb_i_full_rst i) then 0 else x13)).
Definition vdb_n_wsignal (s : vdb_st) (i : vdb_in) : Z :=
  (let x15 := (if (Z.testbit (vdb_i_regs_en i) 0) then (slice 0 32 (((vdb_wsignal s) + 1) mod 2 ^ 33)) else (vdb_wsignal s)) in (if (vdb_i_full_rst i) then 0 else x15)).
Definition vdb_step (s : vdb_st) (i : vdb_in) : vdb_st := {| vdb_wsignal_7 := vdb_n_wsignal_7 s i; vdb_wsignal_6 := vdb_n_wsignal_6 s i; vdb_wsignal_5 := vdb_n_wsignal_5 s i; vdb_wsignal_4 := vdb_n_wsignal_4 s i; vdb_wsignal_3 := vdb_n_wsignal_3 s i; vdb_wsignal_2 := vdb_n_wsignal_2 s i; vdb_wsignal_1 := vdb_n_wsignal_1 s i; vdb_wsignal := vdb_n_wsignal s i |}.
Definition vdb_o_wsignal (s : vdb_st) (i : vdb_in) : Z :=
  (vdb_wsignal s).
Definition vdb_o_wsignal_1 (s : vdb_st) (i : vdb_in) : Z :=
  (vdb_wsignal_1 s).
Definition vdb_o_wsignal_2 (s : vdb_st) (i : vdb_in) : Z :=
  (vdb_wsignal_2 s).
Definition vdb_o_wsignal_3 (s : vdb_st) (i : vdb_in) : Z :=
  (vdb_wsignal_3 s).
Definition vdb_o_wsignal_4 (s : vdb_st) (i : vdb_in) : Z :=
  (vdb_wsignal_4 s).
Definition vdb_o_wsignal_5 (s : vdb_st) (i : vdb_in) : Z :=
  (vdb_wsignal_5 s).
Definition vdb_o_wsignal_6 (s : vdb_st) (i : vdb_in) : Z :=
  (vdb_wsignal_6 s).
Definition vdb_o_wsignal_7 (s : vdb_st) (i : vdb_in) : Z :=
  (vdb_wsignal_7 s).

(* /repo/verilog_src/beta_integration.v, lines 2809-3975: module fix_0xff2 *)
Record vf2_st := { vf2_fsm_state : Z; vf2_o_busy : bool; vf2_buffer_count : Z; vf2_buffer_data : Z; vf2_data_out : Z; vf2_valid_out : bool; vf2_end_out_reg : bool; vf2_data_out_reg : Z; vf2_data_out_valid : bool; vf2_end_reg : bool; vf2_end_out : bool }.
Record vf2_in := { vf2_i_data_in : Z; vf2_i_data_in_ctr : Z; vf2_i_end_in : bool; vf2_i_i_busy : bool; vf2_i_rst : bool; vf2_i_valid_in : bool }.
Definition vf2_idle : vf2_in := {| vf2_i_data_in := 0; vf2_i_data_in_ctr := 0; vf2_i_end_in := false; vf2_i_i_busy := false; vf2_i_rst := false; vf2_i_valid_in := false |}.
(* widths: fsm_state 2, o_busy 1, buffer_count 2, buffer_data 24, data_out 16, valid_out 1, end_out_reg 1, data_out_reg 16, data_out_valid 1, end_reg 1, end_out 1, data_in 32, data_in_ctr 3, end_in 1, i_busy 1, rst 1, valid_in 1 *)
Definition vf2_init : vf2_st := {| vf2_fsm_state := 0; vf2_o_busy := false; vf2_buffer_count := 0; vf2_buffer_data := 0; vf2_data_out := 0; vf2_valid_out := false; vf2_end_out_reg := false; vf2_data_out_reg := 0; vf2_data_out_valid := false; vf2_end_reg := false; vf2_end_out := false |}.
Definition vf2_n_fsm_state (s : vf2_st) (i : vf2_in) : Z :=
  (let x28 := (if ((vf2_fsm_state s) =? 0) then (let x15 := (if (Bool.eqb (vf2_i_i_busy i) false) then (if (Bool.eqb (vf2_data_out_valid s) false) then (if (vf2_i_valid_in i) then (let x7 := (if ((vf2_buffer_count s) =? 0) then (if ((vf2_i_data_in_ctr i) =? 4) then 1 else (vf2_fsm_state s)) else if ((vf2_buffer_count s) =? 1) then (if ((vf2_i_data_in_ctr i) =? 3) then 1 else if ((vf2_i_data_in_ctr i) =? 4) then 1 else (vf2_fsm_state s)) else (vf2_fsm_state s)) in (if (vf2_i_end_in i) then (if (andb ((vf2_buffer_count s) =? 0) ((vf2_i_data_in_ctr i) =? 2)) then 2 else 1) else x7)) else (vf2_fsm_state s)) else (vf2_fsm_state s)) else if (Bool.eqb (vf2_valid_out s) false) then (if (vf2_i_valid_in i) then (let x13 := (if ((vf2_buffer_count s) =? 0) then (if ((vf2_i_data_in_ctr i) =? 4) then 1 else (vf2_fsm_state s)) else if ((vf2_buffer_count s) =? 1) then (if ((vf2_i_data_in_ctr i) =? 3) then 1 else if ((vf2_i_data_in_ctr i) =? 4) then 1 else (vf2_fsm_state s)) else (vf2_fsm_state s)) in (if (vf2_i_end_in i) then (if (andb ((vf2_buffer_count s) =? 0) ((vf2_i_data_in_ctr i) =? 2)) then 2 else 1) else x13)) else (vf2_fsm_state s)) else (vf2_fsm_state s)) in (if (Bool.eqb (vf2_o_busy s) false) then (if (vf2_i_valid_in i) then (let x20 := (if ((vf2_buffer_count s) =? 0) then (if ((vf2_i_data_in_ctr i) =? 4) then 1 else x15) else if ((vf2_buffer_count s) =? 1) then (if ((vf2_i_data_in_ctr i) =? 3) then 1 else if ((vf2_i_data_in_ctr i) =? 4) then 1 else x15) else x15) in (if (vf2_i_end_in i) then (if (andb ((vf2_buffer_count s) =? 0) ((vf2_i_data_in_ctr i) =? 2)) then 2 else 1) else x20)) else x15) else x15)) else if ((vf2_fsm_state s) =? 1) then (if (Bool.eqb (vf2_i_i_busy i) false) then (if (Bool.eqb (vf2_data_out_valid s) false) then (let x26 := (if (vf2_end_reg s) then (if ((vf2_buffer_count s) <=? 2) then 3 else (vf2_fsm_state s)) else (vf2_fsm_state s)) in (if (Bool.eqb (vf2_end_reg s) false) then 0 else x26)) else (vf2_fsm_state s)) else (vf2_fsm_state s)) else if ((vf2_fsm_state s) =? 2) then (if (Bool.eqb (vf2_i_i_busy i) false) then 3 else (vf2_fsm_state s)) else (vf2_fsm_state s)) in (if (vf2_i_rst i) then 0 else x28)).
Definition vf2_n_o_busy (s : vf2_st) (i : vf2_in) : bool :=
  (let x54 := (if ((vf2_fsm_state s) =? 0) then (let x44 := (if (Bool.eqb (vf2_i_i_busy i) false) then (if (Bool.eqb (vf2_data_out_valid s) false) then (if (vf2_i_valid_in i) then (let x36 := (if ((vf2_buffer_count s) =? 0) then (if ((vf2_i_data_in_ctr i) =? 4) then true else false) else if ((vf2_buffer_count s) =? 1) then (if ((vf2_i_data_in_ctr i) =? 3) then true else if ((vf2_i_data_in_ctr i) =? 4) then true else false) else false) in (if (vf2_i_end_in i) then (if (andb ((vf2_buffer_count s) =? 0) ((vf2_i_data_in_ctr i) =? 2)) then x36 else true) else x36)) else false) else false) else if (Bool.eqb (vf2_valid_out s) false) then (if (vf2_i_valid_in i) then (let x42 := (if ((vf2_buffer_count s) =? 0) then (if ((vf2_i_data_in_ctr i) =? 4) then true else false) else if ((vf2_buffer_count s) =? 1) then (if ((vf2_i_data_in_ctr i) =? 3) then true else if ((vf2_i_data_in_ctr i) =? 4) then true else false) else false) in (if (vf2_i_end_in i) then (if (andb ((vf2_buffer_count s) =? 0) ((vf2_i_data_in_ctr i) =? 2)) then x42 else true) else x42)) else false) else if (andb (Bool.eqb (vf2_i_valid_in i) true) (Bool.eqb (vf2_o_busy s) false)) then (andb (Bool.eqb (vf2_i_valid_in i) true) (Bool.eqb (vf2_valid_out s) true)) else (vf2_o_busy s)) in (if (Bool.eqb (vf2_o_busy s) false) then (if (vf2_i_valid_in i) then (let x49 := (if ((vf2_buffer_count s) =? 0) then (if ((vf2_i_data_in_ctr i) =? 4) then true else x44) else if ((vf2_buffer_count s) =? 1) then (if ((vf2_i_data_in_ctr i) =? 3) then true else if ((vf2_i_data_in_ctr i) =? 4) then true else x44) else x44) in (if (vf2_i_end_in i) then (if (andb ((vf2_buffer_count s) =? 0) ((vf2_i_data_in_ctr i) =? 2)) then x49 else true) else x49)) else x44) else x44)) else if ((vf2_fsm_state s) =? 1) then (if (Bool.eqb (vf2_i_i_busy i) false) then (if (Bool.eqb (vf2_data_out_valid s) false) then (if (Bool.eqb (vf2_end_reg s) false) then false else (vf2_o_busy s)) else (vf2_o_busy s)) else (vf2_o_busy s)) else (vf2_o_busy s)) in (if (vf2_i_rst i) then false else x54)).
Definition vf2_n_buffer_count (s : vf2_st) (i : vf2_in) : Z :=
  (let x74 := (if ((vf2_fsm_state s) =? 0) then (let x66 := (if (Bool.eqb (vf2_i_i_busy i) false) then (if (Bool.eqb (vf2_data_out_valid s) false) then (if (vf2_i_valid_in i) then (if ((vf2_buffer_count s) =? 0) then (if ((vf2_i_data_in_ctr i) =? 3) then 1 else if ((vf2_i_data_in_ctr i) =? 4) then 2 else (vf2_buffer_count s)) else if ((vf2_buffer_count s) =? 1) then (if ((vf2_i_data_in_ctr i) =? 2) then 1 else if ((vf2_i_data_in_ctr i) =? 3) then 2 else if ((vf2_i_data_in_ctr i) =? 4) then 3 else (vf2_buffer_count s)) else (vf2_buffer_count s)) else (vf2_buffer_count s)) else (vf2_buffer_count s)) else if (Bool.eqb (vf2_valid_out s) false) then (if (vf2_i_valid_in i) then (if ((vf2_buffer_count s) =? 0) then (if ((vf2_i_data_in_ctr i) =? 3) then 1 else if ((vf2_i_data_in_ctr i) =? 4) then 2 else (vf2_buffer_count s)) else if ((vf2_buffer_count s) =? 1) then (if ((vf2_i_data_in_ctr i) =? 2) then 1 else if ((vf2_i_data_in_ctr i) =? 3) then 2 else if ((vf2_i_data_in_ctr i) =? 4) then 3 else (vf2_buffer_count s)) else (vf2_buffer_count s)) else (vf2_buffer_count s)) else (vf2_buffer_count s)) in (if (Bool.eqb (vf2_o_busy s) false) then (if (vf2_i_valid_in i) then (if ((vf2_buffer_count s) =? 0) then (if ((vf2_i_data_in_ctr i) =? 3) then 1 else if ((vf2_i_data_in_ctr i) =? 4) then 2 else x66) else if ((vf2_buffer_count s) =? 1) then (if ((vf2_i_data_in_ctr i) =? 2) then 1 else if ((vf2_i_data_in_ctr i) =? 3) then 2 else if ((vf2_i_data_in_ctr i) =? 4) then 3 else x66) else x66) else x66) else x66)) else if ((vf2_fsm_state s) =? 1) then (if (Bool.eqb (vf2_i_i_busy i) false) then (if (Bool.eqb (vf2_data_out_valid s) false) then (if ((vf2_buffer_count s) =? 1) then 0 else if ((vf2_buffer_count s) =? 2) then 0 else if ((vf2_buffer_count s) =? 3) then 1 else (vf2_buffer_count s)) else (vf2_buffer_count s)) else (vf2_buffer_count s)) else (vf2_buffer_count s)) in (if (vf2_i_rst i) then 0 else x74)).
Definition vf2_n_buffer_data (s : vf2_st) (i : vf2_in) : Z :=
  (let x94 := (if ((vf2_fsm_state s) =? 0) then (let x86 := (if (Bool.eqb (vf2_i_i_busy i) false) then (if (Bool.eqb (vf2_data_out_valid s) false) then (if (vf2_i_valid_in i) then (if ((vf2_buffer_count s) =? 0) then (if ((vf2_i_data_in_ctr i) =? 3) then (slice 0 8 (vf2_i_data_in i)) else if ((vf2_i_data_in_ctr i) =? 4) then (slice 0 16 (vf2_i_data_in i)) else (vf2_buffer_data s)) else if ((vf2_buffer_count s) =? 1) then (if ((vf2_i_data_in_ctr i) =? 2) then (slice 0 8 (vf2_i_data_in i)) else if ((vf2_i_data_in_ctr i) =? 3) then (slice 0 16 (vf2_i_data_in i)) else if ((vf2_i_data_in_ctr i) =? 4) then (slice 0 24 (vf2_i_data_in i)) else (vf2_buffer_data s)) else (vf2_buffer_data s)) else (vf2_buffer_data s)) else (vf2_buffer_data s)) else if (Bool.eqb (vf2_valid_out s) false) then (if (vf2_i_valid_in i) then (if ((vf2_buffer_count s) =? 0) then (if ((vf2_i_data_in_ctr i) =? 3) then (slice 0 8 (vf2_i_data_in i)) else if ((vf2_i_data_in_ctr i) =? 4) then (slice 0 16 (vf2_i_data_in i)) else (vf2_buffer_data s)) else if ((vf2_buffer_count s) =? 1) then (if ((vf2_i_data_in_ctr i) =? 2) then (slice 0 8 (vf2_i_data_in i)) else if ((vf2_i_data_in_ctr i) =? 3) then (slice 0 16 (vf2_i_data_in i)) else if ((vf2_i_data_in_ctr i) =? 4) then (slice 0 24 (vf2_i_data_in i)) else (vf2_buffer_data s)) else (vf2_buffer_data s)) else (vf2_buffer_data s)) else (vf2_buffer_data s)) in (if (Bool.eqb (vf2_o_busy s) false) then (if (vf2_i_valid_in i) then (if ((vf2_buffer_count s) =? 0) then (if ((vf2_i_data_in_ctr i) =? 3) then (slice 0 8 (vf2_i_data_in i)) else if ((vf2_i_data_in_ctr i) =? 4) then (slice 0 16 (vf2_i_data_in i)) else x86) else if ((vf2_buffer_count s) =? 1) then (if ((vf2_i_data_in_ctr i) =? 2) then (slice 0 8 (vf2_i_data_in i)) else if ((vf2_i_data_in_ctr i) =? 3) then (slice 0 16 (vf2_i_data_in i)) else if ((vf2_i_data_in_ctr i) =? 4) then (slice 0 24 (vf2_i_data_in i)) else x86) else x86) else x86) else x86)) else if ((vf2_fsm_state s) =? 1) then (if (Bool.eqb (vf2_i_i_busy i) false) then (if (Bool.eqb (vf2_data_out_valid s) false) then (if ((vf2_buffer_count s) =? 3) then (slice 0 8 (vf2_buffer_data s)) else (vf2_buffer_data s)) else (vf2_buffer_data s)) else (vf2_buffer_data s)) else (vf2_buffer_data s)) in (if (vf2_i_rst i) then 0 else x94)).
Definition vf2_n_data_out (s : vf2_st) (i : vf2_in) : Z :=
  (let x111 := (if ((vf2_fsm_state s) =? 0) then (if (Bool.eqb (vf2_i_i_busy i) false) then (if (Bool.eqb (vf2_data_out_valid s) false) then (if (vf2_i_valid_in i) then (if ((vf2_buffer_count s) =? 0) then (if ((vf2_i_data_in_ctr i) =? 2) then (slice 0 16 (vf2_i_data_in i)) else if ((vf2_i_data_in_ctr i) =? 3) then (slice 8 24 (vf2_i_data_in i)) else if ((vf2_i_data_in_ctr i) =? 4) then (slice 16 32 (vf2_i_data_in i)) else (vf2_data_out s)) else if ((vf2_buffer_count s) =? 1) then (if ((vf2_i_data_in_ctr i) =? 2) then ((slice 0 8 (vf2_buffer_data s)) * 2 ^ 8 + (slice 8 16 (vf2_i_data_in i))) else if ((vf2_i_data_in_ctr i) =? 3) then ((slice 0 8 (vf2_buffer_data s)) * 2 ^ 8 + (slice 16 24 (vf2_i_data_in i))) else if ((vf2_i_data_in_ctr i) =? 4) then ((slice 0 8 (vf2_buffer_data s)) * 2 ^ 8 + (slice 24 32 (vf2_i_data_in i))) else (vf2_data_out s)) else (vf2_data_out s)) else (vf2_data_out s)) else (vf2_data_out_reg s)) else if (Bool.eqb (vf2_valid_out s) false) then (if (vf2_i_valid_in i) then (if ((vf2_buffer_count s) =? 0) then (if ((vf2_i_data_in_ctr i) =? 2) then (slice 0 16 (vf2_i_data_in i)) else if ((vf2_i_data_in_ctr i) =? 3) then (slice 8 24 (vf2_i_data_in i)) else if ((vf2_i_data_in_ctr i) =? 4) then (slice 16 32 (vf2_i_data_in i)) else (vf2_data_out s)) else if ((vf2_buffer_count s) =? 1) then (if ((vf2_i_data_in_ctr i) =? 2) then ((slice 0 8 (vf2_buffer_data s)) * 2 ^ 8 + (slice 8 16 (vf2_i_data_in i))) else if ((vf2_i_data_in_ctr i) =? 3) then ((slice 0 8 (vf2_buffer_data s)) * 2 ^ 8 + (slice 16 24 (vf2_i_data_in i))) else if ((vf2_i_data_in_ctr i) =? 4) then ((slice 0 8 (vf2_buffer_data s)) * 2 ^ 8 + (slice 24 32 (vf2_i_data_in i))) else (vf2_data_out s)) else (vf2_data_out s)) else (vf2_data_out s)) else (vf2_data_out s)) else if ((vf2_fsm_state s) =? 1) then (if (Bool.eqb (vf2_i_i_busy i) false) then (if (Bool.eqb (vf2_data_out_valid s) false) then (if ((vf2_buffer_count s) =? 1) then (slice 8 16 (slice 16 16 (vf2_data_out s) * 2 ^ 16 + (slice 0 8 (vf2_buffer_data s)) * 2 ^ 8 + slice 0 8 (vf2_data_out s)) * 2 ^ 8 + 0 * 2 ^ 0 + slice 0 0 (slice 16 16 (vf2_data_out s) * 2 ^ 16 + (slice 0 8 (vf2_buffer_data s)) * 2 ^ 8 + slice 0 8 (vf2_data_out s))) else if ((vf2_buffer_count s) =? 2) then (slice 0 16 (vf2_buffer_data s)) else if ((vf2_buffer_count s) =? 3) then (slice 8 24 (vf2_buffer_data s)) else (vf2_data_out s)) else (vf2_data_out_reg s)) else (vf2_data_out s)) else if ((vf2_fsm_state s) =? 2) then (if (Bool.eqb (vf2_i_i_busy i) false) then (if (vf2_data_out_valid s) then (vf2_data_out_reg s) else (vf2_data_out s)) else (vf2_data_out s)) else (vf2_data_out s)) in (if (vf2_i_rst i) then 0 else x111)).
Definition vf2_n_valid_out (s : vf2_st) (i : vf2_in) : bool :=
  (let x119 := (if ((vf2_fsm_state s) =? 0) then (if (Bool.eqb (vf2_i_i_busy i) false) then (if (Bool.eqb (vf2_data_out_valid s) false) then (vf2_i_valid_in i) else true) else if (Bool.eqb (vf2_valid_out s) false) then (vf2_i_valid_in i) else (vf2_valid_out s)) else if ((vf2_fsm_state s) =? 1) then (if (Bool.eqb (vf2_i_i_busy i) false) then (if (Bool.eqb (vf2_data_out_valid s) false) then true else true) else (vf2_valid_out s)) else if ((vf2_fsm_state s) =? 2) then (if (Bool.eqb (vf2_i_i_busy i) false) then (if (vf2_data_out_valid s) then true else (vf2_valid_out s)) else (vf2_valid_out s)) else (vf2_valid_out s)) in (if (vf2_i_rst i) then false else x119)).
Definition vf2_n_end_out_reg (s : vf2_st) (i : vf2_in) : bool :=
  (let x125 := (if ((vf2_fsm_state s) =? 0) then (if (Bool.eqb (vf2_o_busy s) false) then (if (vf2_i_valid_in i) then (if (vf2_i_end_in i) then (if (andb ((vf2_buffer_count s) =? 0) ((vf2_i_data_in_ctr i) =? 2)) then true else (vf2_end_out_reg s)) else (vf2_end_out_reg s)) else (vf2_end_out_reg s)) else (vf2_end_out_reg s)) else (vf2_end_out_reg s)) in (if (vf2_i_rst i) then false else x125)).
Definition vf2_n_data_out_reg (s : vf2_st) (i : vf2_in) : Z :=
  (let x132 := (if ((vf2_fsm_state s) =? 0) then (if (Bool.eqb (vf2_o_busy s) false) then (if (vf2_i_valid_in i) then (if ((vf2_buffer_count s) =? 0) then (if ((vf2_i_data_in_ctr i) =? 2) then (slice 0 16 (vf2_i_data_in i)) else if ((vf2_i_data_in_ctr i) =? 3) then (slice 8 24 (vf2_i_data_in i)) else if ((vf2_i_data_in_ctr i) =? 4) then (slice 16 32 (vf2_i_data_in i)) else (vf2_data_out_reg s)) else if ((vf2_buffer_count s) =? 1) then (if ((vf2_i_data_in_ctr i) =? 2) then ((slice 0 8 (vf2_buffer_data s)) * 2 ^ 8 + (slice 8 16 (vf2_i_data_in i))) else if ((vf2_i_data_in_ctr i) =? 3) then ((slice 0 8 (vf2_buffer_data s)) * 2 ^ 8 + (slice 16 24 (vf2_i_data_in i))) else if ((vf2_i_data_in_ctr i) =? 4) then ((slice 0 8 (vf2_buffer_data s)) * 2 ^ 8 + (slice 24 32 (vf2_i_data_in i))) else (vf2_data_out_reg s)) else (vf2_data_out_reg s)) else (vf2_data_out_reg s)) else (vf2_data_out_reg s)) else (vf2_data_out_reg s)) in (if (vf2_i_rst i) then 0 else x132)).
Definition vf2_n_data_out_valid (s : vf2_st) (i : vf2_in) : bool :=
  (let x137 := (if ((vf2_fsm_state s) =? 0) then (if (Bool.eqb (vf2_i_i_busy i) false) then false else if (Bool.eqb (vf2_valid_out s) false) then false else if (andb (Bool.eqb (vf2_i_valid_in i) true) (Bool.eqb (vf2_o_busy s) false)) then (andb (Bool.eqb (vf2_i_valid_in i) true) (Bool.eqb (vf2_valid_out s) true)) else (vf2_data_out_valid s)) else if ((vf2_fsm_state s) =? 1) then (if (Bool.eqb (vf2_i_i_busy i) false) then (if (Bool.eqb (vf2_data_out_valid s) false) then (vf2_data_out_valid s) else false) else (vf2_data_out_valid s)) else (vf2_data_out_valid s)) in (if (vf2_i_rst i) then false else x137)).
Definition vf2_n_end_reg (s : vf2_st) (i : vf2_in) : bool :=
  (let x151 := (if ((vf2_fsm_state s) =? 0) then (let x147 := (if (Bool.eqb (vf2_i_i_busy i) false) then (if (Bool.eqb (vf2_data_out_valid s) false) then (if (vf2_i_valid_in i) then (if (vf2_i_end_in i) then (if (andb ((vf2_buffer_count s) =? 0) ((vf2_i_data_in_ctr i) =? 2)) then (vf2_end_reg s) else true) else (vf2_end_reg s)) else (vf2_end_reg s)) else (vf2_end_reg s)) else if (Bool.eqb (vf2_valid_out s) false) then (if (vf2_i_valid_in i) then (if (vf2_i_end_in i) then (if (andb ((vf2_buffer_count s) =? 0) ((vf2_i_data_in_ctr i) =? 2)) then (vf2_end_reg s) else true) else (vf2_end_reg s)) else (vf2_end_reg s)) else (vf2_end_reg s)) in (if (Bool.eqb (vf2_o_busy s) false) then (if (vf2_i_valid_in i) then (if (vf2_i_end_in i) then (if (andb ((vf2_buffer_count s) =? 0) ((vf2_i_data_in_ctr i) =? 2)) then x147 else true) else x147) else x147) else x147)) else (vf2_end_reg s)) in (if (vf2_i_rst i) then false else x151)).
Definition vf2_n_end_out (s : vf2_st) (i : vf2_in) : bool :=
  (let x167 := (if ((vf2_fsm_state s) =? 0) then (if (Bool.eqb (vf2_i_i_busy i) false) then (if (Bool.eqb (vf2_data_out_valid s) false) then (if (vf2_i_valid_in i) then (if (vf2_i_end_in i) then (if (andb ((vf2_buffer_count s) =? 0) ((vf2_i_data_in_ctr i) =? 2)) then true else (vf2_end_out s)) else (vf2_end_out s)) else (vf2_end_out s)) else (vf2_end_out_reg s)) else if (Bool.eqb (vf2_valid_out s) false) then (if (vf2_i_valid_in i) then (if (vf2_i_end_in i) then (if (andb ((vf2_buffer_count s) =? 0) ((vf2_i_data_in_ctr i) =? 2)) then true else (vf2_end_out s)) else (vf2_end_out s)) else (vf2_end_out s)) else (vf2_end_out s)) else if ((vf2_fsm_state s) =? 1) then (if (Bool.eqb (vf2_i_i_busy i) false) then (if (Bool.eqb (vf2_data_out_valid s) false) then (if (vf2_end_reg s) then (if ((vf2_buffer_count s) <=? 2) then true else (vf2_end_out s)) else (vf2_end_out s)) else (vf2_end_out_reg s)) else (vf2_end_out s)) else if ((vf2_fsm_state s) =? 2) then (if (Bool.eqb (vf2_i_i_busy i) false) then (if (vf2_data_out_valid s) then true else (vf2_end_out s)) else (vf2_end_out s)) else (vf2_end_out s)) in (if (vf2_i_rst i) then false else x167)).
Definition vf2_step (s : vf2_st) (i : vf2_in) : vf2_st := {| vf2_fsm_state := vf2_n_fsm_state s i; vf2_o_busy := vf2_n_o_busy s i; vf2_buffer_count := vf2_n_buffer_count s i; vf2_buffer_data := vf2_n_buffer_data s i; vf2_data_out := vf2_n_data_out s i; vf2_valid_out := vf2_n_valid_out s i; vf2_end_out_reg := vf2_n_end_out_reg s i; vf2_data_out_reg := vf2_n_data_out_reg s i; vf2_data_out_valid := vf2_n_data_out_valid s i; vf2_end_reg := vf2_n_end_reg s i; vf2_end_out := vf2_n_end_out s i |}.
Definition vf2_o_data_out (s : vf2_st) (i : vf2_in) : Z :=
  (vf2_data_out s).
Definition vf2_o_end_out (s : vf2_st) (i : vf2_in) : bool :=
  (vf2_end_out s).
Definition vf2_o_o_busy (s : vf2_st) (i : vf2_in) : bool :=
  (vf2_o_busy s).
Definition vf2_o_valid_out (s : vf2_st) (i : vf2_in) : bool :=
  (vf2_valid_out s).

(* /repo/verilog_src/beta_integration.v, lines 5-332: module anonymous *)
Record vna_st := { vna_end_out : bool; vna_valid_o : bool; vna_ssss : Z; vna_val_out : Z }.
Record vna_in := { vna_i_end_in : bool; vna_i_rst : bool; vna_i_val_in : Z; vna_i_val_in_mns : Z; vna_i_valid : bool }.
Definition vna_idle : vna_in := {| vna_i_end_in := false; vna_i_rst := false; vna_i_val_in := 0; vna_i_val_in_mns := 0; vna_i_valid := false |}.
(* widths: end_out 1, valid_o 1, ssss 5, val_out 12, end_in 1, rst 1, val_in 13, val_in_mns 13, valid 1 *)
Definition vna_init : vna_st := {| vna_end_out := false; vna_valid_o := false; vna_ssss := 0; vna_val_out := 0 |}.
Definition vna_n_end_out (s : vna_st) (i : vna_in) : bool :=
  (if (vna_i_rst i) then false else (vna_i_end_in i)).
Definition vna_n_valid_o (s : vna_st) (i : vna_in) : bool :=
  (if (vna_i_rst i) then false else (vna_i_valid i)).
Definition vna_n_ssss (s : vna_st) (i : vna_in) : Z :=
  (let x16 := (if (vna_i_valid i) then (if (Bool.eqb (Z.testbit (vna_i_val_in i) 12) true) then (if ((slice 6 13 (vna_i_val_in_mns i)) =? 127) then (if ((slice 3 13 (vna_i_val_in_mns i)) =? 1023) then (if ((slice 2 13 (vna_i_val_in_mns i)) =? 2047) then (if ((slice 1 13 (vna_i_val_in_mns i)) =? 4095) then 1 else 2) else 3) else (if ((slice 5 13 (vna_i_val_in_mns i)) =? 255) then (if ((slice 4 13 (vna_i_val_in_mns i)) =? 511) then 4 else 5) else 6)) else (if ((slice 9 13 (vna_i_val_in_mns i)) =? 15) then (if ((slice 8 13 (vna_i_val_in_mns i)) =? 31) then (if ((slice 7 13 (vna_i_val_in_mns i)) =? 63) then 7 else 8) else 9) else (if ((slice 11 13 (vna_i_val_in_mns i)) =? 3) then (if ((slice 10 13 (vna_i_val_in_mns i)) =? 7) then 10 else 11) else 12))) else (if (Z.testbit (vna_i_val_in i) 11) then 12 else if (Z.testbit (vna_i_val_in i) 10) then 11 else if (Z.testbit (vna_i_val_in i) 9) then 10 else if (Z.testbit (vna_i_val_in i) 8) then 9 else if (Z.testbit (vna_i_val_in i) 7) then 8 else if (Z.testbit (vna_i_val_in i) 6) then 7 else if (Z.testbit (vna_i_val_in i) 5) then 6 else if (Z.testbit (vna_i_val_in i) 4) then 5 else if (Z.testbit (vna_i_val_in i) 3) then 4 else if (Z.testbit (vna_i_val_in i) 2) then 3 else if (Z.testbit (vna_i_val_in i) 1) then 2 else if (Z.testbit (vna_i_val_in i) 0) then 1 else 0)) else (vna_ssss s)) in (if (vna_i_rst i) then 0 else x16)).
Definition vna_n_val_out (s : vna_st) (i : vna_in) : Z :=
  (let x30 := (if (vna_i_valid i) then (if (Bool.eqb (Z.testbit (vna_i_val_in i) 12) true) then (if ((slice 6 13 (vna_i_val_in_mns i)) =? 127) then (if ((slice 3 13 (vna_i_val_in_mns i)) =? 1023) then (if ((slice 2 13 (vna_i_val_in_mns i)) =? 2047) then (if ((slice 1 13 (vna_i_val_in_mns i)) =? 4095) then (slice 0 12 (((vna_i_val_in i) + 1) mod 2 ^ 14)) else (slice 0 12 (((vna_i_val_in i) + 3) mod 2 ^ 14))) else (slice 0 12 (((vna_i_val_in i) + 7) mod 2 ^ 14))) else (if ((slice 5 13 (vna_i_val_in_mns i)) =? 255) then (if ((slice 4 13 (vna_i_val_in_mns i)) =? 511) then (slice 0 12 (((vna_i_val_in i) + 15) mod 2 ^ 14)) else (slice 0 12 (((vna_i_val_in i) + 31) mod 2 ^ 14))) else (slice 0 12 (((vna_i_val_in i) + 63) mod 2 ^ 14)))) else (if ((slice 9 13 (vna_i_val_in_mns i)) =? 15) then (if ((slice 8 13 (vna_i_val_in_mns i)) =? 31) then (if ((slice 7 13 (vna_i_val_in_mns i)) =? 63) then (slice 0 12 (((vna_i_val_in i) + 127) mod 2 ^ 14)) else (slice 0 12 (((vna_i_val_in i) + 255) mod 2 ^ 14))) else (slice 0 12 (((vna_i_val_in i) + 511) mod 2 ^ 14))) else (if ((slice 11 13 (vna_i_val_in_mns i)) =? 3) then (if ((slice 10 13 (vna_i_val_in_mns i)) =? 7) then (slice 0 12 (((vna_i_val_in i) + 1023) mod 2 ^ 14)) else (slice 0 12 (((vna_i_val_in i) + 2047) mod 2 ^ 14))) else (slice 0 12 (((vna_i_val_in i) + 4095) mod 2 ^ 14))))) else (slice 0 12 (vna_i_val_in i))) else (vna_val_out s)) in (if (vna_i_rst i) then 0 else x30)).
Definition vna_step (s : vna_st) (i : vna_in) : vna_st := {| vna_end_out := vna_n_end_out s i; vna_valid_o := vna_n_valid_o s i; vna_ssss := vna_n_ssss s i; vna_val_out := vna_n_val_out s i |}.
Definition vna_o_end_out (s : vna_st) (i : vna_in) : bool :=
  (vna_end_out s).
Definition vna_o_ssss (s : vna_st) (i : vna_in) : Z :=
  (vna_ssss s).
Definition vna_o_val_out (s : vna_st) (i : vna_in) : Z :=
  (vna_val_out s).
Definition vna_o_valid_o (s : vna_st) (i : vna_in) : bool :=
  (vna_valid_o s).

(* /repo/verilog_src/beta_integration.v, lines 336-661: module anonymous$1 *)
Record vnb_st := { vnb_end_out : bool; vnb_valid_o : bool; vnb_ssss : Z; vnb_val_out : Z }.
Record vnb_in := { vnb_i_end_in : bool; vnb_i_rst : bool; vnb_i_val_in : Z; vnb_i_val_in_mns : Z; vnb_i_valid : bool }.
Definition vnb_idle : vnb_in := {| vnb_i_end_in := false; vnb_i_rst := false; vnb_i_val_in := 0; vnb_i_val_in_mns := 0; vnb_i_valid := false |}.
(* widths: end_out 1, valid_o 1, ssss 5, val_out 12, end_in 1, rst 1, val_in 13, val_in_mns 13, valid 1 *)
Definition vnb_init : vnb_st := {| vnb_end_out := false; vnb_valid_o := false; vnb_ssss := 0; vnb_val_out := 0 |}.
Definition vnb_n_end_out (s : vnb_st) (i : vnb_in) : bool :=
  (if (vnb_i_rst i) then false else (vnb_i_end_in i)).
Definition vnb_n_valid_o (s : vnb_st) (i : vnb_in) : bool :=
  (if (vnb_i_rst i) then false else (vnb_i_valid i)).
Definition vnb_n_ssss (s : vnb_st) (i : vnb_in) : Z :=
  (let x16 := (if (vnb_i_valid i) then (if (Bool.eqb (Z.testbit (vnb_i_val_in i) 12) true) then (if ((slice 6 13 (vnb_i_val_in_mns i)) =? 127) then (if ((slice 3 13 (vnb_i_val_in_mns i)) =? 1023) then (if ((slice 2 13 (vnb_i_val_in_mns i)) =? 2047) then (if ((slice 1 13 (vnb_i_val_in_mns i)) =? 4095) then 1 else 2) else 3) else (if ((slice 5 13 (vnb_i_val_in_mns i)) =? 255) then (if ((slice 4 13 (vnb_i_val_in_mns i)) =? 511) then 4 else 5) else 6)) else (if ((slice 9 13 (vnb_i_val_in_mns i)) =? 15) then (if ((slice 8 13 (vnb_i_val_in_mns i)) =? 31) then (if ((slice 7 13 (vnb_i_val_in_mns i)) =? 63) then 7 else 8) else 9) else (if ((slice 11 13 (vnb_i_val_in_mns i)) =? 3) then (if ((slice 10 13 (vnb_i_val_in_mns i)) =? 7) then 10 else 11) else 12))) else (if (Z.testbit (vnb_i_val_in i) 11) then 12 else if (Z.testbit (vnb_i_val_in i) 10) then 11 else if (Z.testbit (vnb_i_val_in i) 9) then 10 else if (Z.testbit (vnb_i_val_in i) 8) then 9 else if (Z.testbit (vnb_i_val_in i) 7) then 8 else if (Z.testbit (vnb_i_val_in i) 6) then 7 else if (Z.testbit (vnb_i_val_in i) 5) then 6 else if (Z.testbit (vnb_i_val_in i) 4) then 5 else if (Z.testbit (vnb_i_val_in i) 3) then 4 else if (Z.testbit (vnb_i_val_in i) 2) then 3 else if (Z.testbit (vnb_i_val_in i) 1) then 2 else if (Z.testbit (vnb_i_val_in i) 0) then 1 else 0)) else (vnb_ssss s)) in (if (vnb_i_rst i) then 0 else x16)).
Definition vnb_n_val_out (s : vnb_st) (i : vnb_in) : Z :=
  (let x30 := (if (vnb_i_valid i) then (if (Bool.eqb (Z.testbit (vnb_i_val_in i) 12) true) then (if ((slice 6 13 (vnb_i_val_in_mns i)) =? 127) then (if ((slice 3 13 (vnb_i_val_in_mns i)) =? 1023) then (if ((slice 2 13 (vnb_i_val_in_mns i)) =? 2047) then (if ((slice 1 13 (vnb_i_val_in_mns i)) =? 4095) then (slice 0 12 (((vnb_i_val_in i) + 1) mod 2 ^ 14)) else (slice 0 12 (((vnb_i_val_in i) + 3) mod 2 ^ 14))) else (slice 0 12 (((vnb_i_val_in i) + 7) mod 2 ^ 14))) else (if ((slice 5 13 (vnb_i_val_in_mns i)) =? 255) then (if ((slice 4 13 (vnb_i_val_in_mns i)) =? 511) then (slice 0 12 (((vnb_i_val_in i) + 15) mod 2 ^ 14)) else (slice 0 12 (((vnb_i_val_in i) + 31) mod 2 ^ 14))) else (slice 0 12 (((vnb_i_val_in i) + 63) mod 2 ^ 14)))) else (if ((slice 9 13 (vnb_i_val_in_mns i)) =? 15) then (if ((slice 8 13 (vnb_i_val_in_mns i)) =? 31) then (if ((slice 7 13 (vnb_i_val_in_mns i)) =? 63) then (slice 0 12 (((vnb_i_val_in i) + 127) mod 2 ^ 14)) else (slice 0 12 (((vnb_i_val_in i) + 255) mod 2 ^ 14))) else (slice 0 12 (((vnb_i_val_in i) + 511) mod 2 ^ 14))) else (if ((slice 11 13 (vnb_i_val_in_mns i)) =? 3) then (if ((slice 10 13 (vnb_i_val_in_mns i)) =? 7) then (slice 0 12 (((vnb_i_val_in i) + 1023) mod 2 ^ 14)) else (slice 0 12 (((vnb_i_val_in i) + 2047) mod 2 ^ 14))) else (slice 0 12 (((vnb_i_val_in i) + 4095) mod 2 ^ 14))))) else (slice 0 12 (vnb_i_val_in i))) else (vnb_val_out s)) in (if (vnb_i_rst i) then 0 else x30)).
Definition vnb_step (s : vnb_st) (i : vnb_in) : vnb_st := {| vnb_end_out := vnb_n_end_out s i; vnb_valid_o := vnb_n_valid_o s i; vnb_ssss := vnb_n_ssss s i; vnb_val_out := vnb_n_val_out s i |}.
Definition vnb_o_ssss (s : vnb_st) (i : vnb_in) : Z :=
  (vnb_ssss s).
Definition vnb_o_val_out (s : vnb_st) (i : vnb_in) : Z :=
  (vnb_val_out s).

(* /repo/verilog_src/beta_integration.v, lines 6421-6598: module normalize *)
Record vno_st := { vno_u_w10 : vna_st; vno_u_w17 : vnb_st }.
Record vno_in := { vno_i_end_in : bool; vno_i_rst : bool; vno_i_val_in : Z; vno_i_val_in_1 : Z; vno_i_valid_in : bool; vno_i_vals_in_mns : Z; vno_i_vals_in_mns_2 : Z }.
Definition vno_idle : vno_in := {| vno_i_end_in := false; vno_i_rst := false; vno_i_val_in := 0; vno_i_val_in_1 := 0; vno_i_valid_in := false; vno_i_vals_in_mns := 0; vno_i_vals_in_mns_2 := 0 |}.
(* widths: end_in 1, rst 1, val_in 13, val_in_1 13, valid_in 1, vals_in_mns 13, vals_in_mns_2 13 *)
Definition vno_init : vno_st := {| vno_u_w10 := vna_init; vno_u_w17 := vnb_init |}.
Definition vno_p_w10 (s : vno_st) (i : vno_in) : vna_in :=
  {| vna_i_end_in := (vno_i_end_in i); vna_i_rst := (vno_i_rst i); vna_i_val_in := (vno_i_val_in i); vna_i_val_in_mns := (vno_i_vals_in_mns i); vna_i_valid := (vno_i_valid_in i) |}.
Definition vno_p_w17 (s : vno_st) (i : vno_in) : vnb_in :=
  {| vnb_i_end_in := (vno_i_end_in i); vnb_i_rst := (vno_i_rst i); vnb_i_val_in := (vno_i_val_in_1 i); vnb_i_val_in_mns := (vno_i_vals_in_mns_2 i); vnb_i_valid := (vno_i_valid_in i) |}.
Definition vno_step (s : vno_st) (i : vno_in) : vno_st := {| vno_u_w10 := vna_step (vno_u_w10 s) (vno_p_w10 s i); vno_u_w17 := vnb_step (vno_u_w17 s) (vno_p_w17 s i) |}.
Definition vno_o_end_out (s : vno_st) (i : vno_in) : bool :=
  (vna_o_end_out (vno_u_w10 s) vna_idle).
Definition vno_o_ssss (s : vno_st) (i : vno_in) : Z :=
  (vna_o_ssss (vno_u_w10 s) vna_idle).
Definition vno_o_ssss_3 (s : vno_st) (i : vno_in) : Z :=
  (vnb_o_ssss (vno_u_w17 s) vnb_idle).
Definition vno_o_val_out (s : vno_st) (i : vno_in) : Z :=
  (vna_o_val_out (vno_u_w10 s) vna_idle).
Definition vno_o_val_out_4 (s : vno_st) (i : vno_in) : Z :=
  (vnb_o_val_out (vno_u_w17 s) vnb_idle).
Definition vno_o_valid_out (s : vno_st) (i : vno_in) : bool :=
  (vna_o_valid_o (vno_u_w10 s) vna_idle).

(* /repo/verilog_src/beta_integration.v, lines 665-827: module anonymous$2 *)
Record vea_st := { vea_end_out : bool; vea_end_late : bool; vea_valid_out : bool; vea_valid_late : bool; vea_enc_ctr : Z; vea_enc_out : Z; vea_val_in_late : Z; vea_ssss_late : Z }.
Record vea_in := { vea_i_end_in : bool; vea_i_rp_data : Z; vea_i_rst : bool; vea_i_ssss : Z; vea_i_val_in : Z; vea_i_valid_in : bool }.
Definition vea_idle : vea_in := {| vea_i_end_in := false; vea_i_rp_data := 0; vea_i_rst := false; vea_i_ssss := 0; vea_i_val_in := 0; vea_i_valid_in := false |}.
(* widths: end_out 1, end_late 1, valid_out 1, valid_late 1, enc_ctr 5, enc_out 28, val_in_late 12, ssss_late 5, end_in 1, rp_data 33, rst 1, ssss 5, val_in 12, valid_in 1 *)
Definition vea_init : vea_st := {| vea_end_out := false; vea_end_late := false; vea_valid_out := false; vea_valid_late := false; vea_enc_ctr := 0; vea_enc_out := 0; vea_val_in_late := 0; vea_ssss_late := 0 |}.
Definition vea_n_end_out (s : vea_st) (i : vea_in) : bool :=
  (if (vea_i_rst i) then false else (vea_end_late s)).
Definition vea_n_end_late (s : vea_st) (i : vea_in) : bool :=
  (if (vea_i_rst i) then false else (vea_i_end_in i)).
Definition vea_n_valid_out (s : vea_st) (i : vea_in) : bool :=
  (if (vea_i_rst i) then false else (vea_valid_late s)).
Definition vea_n_valid_late (s : vea_st) (i : vea_in) : bool :=
  (if (vea_i_rst i) then false else (vea_i_valid_in i)).
Definition vea_n_enc_ctr (s : vea_st) (i : vea_in) : Z :=
  (let x5 := (if (vea_valid_late s) then (slice 0 5 (((slice 28 33 (vea_i_rp_data i)) + (slice 0 4 (vea_ssss_late s))) mod 2 ^ 6)) else (vea_enc_ctr s)) in (if (vea_i_rst i) then 0 else x5)).
Definition vea_n_enc_out (s : vea_st) (i : vea_in) : Z :=
  (let x7 := (if (vea_valid_late s) then (slice 0 28 (Z.lor (vea_i_rp_data i) (vea_val_in_late s))) else (vea_enc_out s)) in (if (vea_i_rst i) then 0 else x7)).
Definition vea_n_val_in_late (s : vea_st) (i : vea_in) : Z :=
  (if (vea_i_rst i) then 0 else (vea_i_val_in i)).
Definition vea_n_ssss_late (s : vea_st) (i : vea_in) : Z :=
  (if (vea_i_rst i) then 0 else (vea_i_ssss i)).
Definition vea_step (s : vea_st) (i : vea_in) : vea_st := {| vea_end_out := vea_n_end_out s i; vea_end_late := vea_n_end_late s i; vea_valid_out := vea_n_valid_out s i; vea_valid_late := vea_n_valid_late s i; vea_enc_ctr := vea_n_enc_ctr s i; vea_enc_out := vea_n_enc_out s i; vea_val_in_late := vea_n_val_in_late s i; vea_ssss_late := vea_n_ssss_late s i |}.
Definition vea_o_enc_ctr (s : vea_st) (i : vea_in) : Z :=
  (vea_enc_ctr s).
Definition vea_o_enc_out (s : vea_st) (i : vea_in) : Z :=
  (vea_enc_out s).
Definition vea_o_end_out (s : vea_st) (i : vea_in) : bool :=
  (vea_end_out s).
Definition vea_o_rp_addr (s : vea_st) (i : vea_in) : Z :=
  (vea_i_ssss i).
Definition vea_o_valid_out (s : vea_st) (i : vea_in) : bool :=
  (vea_valid_out s).

(* /repo/verilog_src/beta_integration.v, lines 831-991: module anonymous$3 *)
Record veb_st := { veb_enc_ctr : Z; veb_enc_out : Z; veb_val_in_late : Z; veb_ssss_late : Z; veb_end_out : bool; veb_end_late : bool; veb_valid_out : bool; veb_valid_late : bool }.
Record veb_in := { veb_i_end_in : bool; veb_i_rp_data : Z; veb_i_rst : bool; veb_i_ssss : Z; veb_i_val_in : Z; veb_i_valid_in : bool }.
Definition veb_idle : veb_in := {| veb_i_end_in := false; veb_i_rp_data := 0; veb_i_rst := false; veb_i_ssss := 0; veb_i_val_in := 0; veb_i_valid_in := false |}.
(* widths: enc_ctr 5, enc_out 28, val_in_late 12, ssss_late 5, end_out 1, end_late 1, valid_out 1, valid_late 1, end_in 1, rp_data 33, rst 1, ssss 5, val_in 12, valid_in 1 *)
Definition veb_init : veb_st := {| veb_enc_ctr := 0; veb_enc_out := 0; veb_val_in_late := 0; veb_ssss_late := 0; veb_end_out := false; veb_end_late := false; veb_valid_out := false; veb_valid_late := false |}.
Definition veb_n_enc_ctr (s : veb_st) (i : veb_in) : Z :=
  (let x1 := (if (veb_valid_late s) then (slice 0 5 (((slice 28 33 (veb_i_rp_data i)) + (slice 0 4 (veb_ssss_late s))) mod 2 ^ 6)) else (veb_enc_ctr s)) in (if (veb_i_rst i) then 0 else x1)).
Definition veb_n_enc_out (s : veb_st) (i : veb_in) : Z :=
  (let x3 := (if (veb_valid_late s) then (slice 0 28 (Z.lor (veb_i_rp_data i) (veb_val_in_late s))) else (veb_enc_out s)) in (if (veb_i_rst i) then 0 else x3)).
Definition veb_n_val_in_late (s : veb_st) (i : veb_in) : Z :=
  (if (veb_i_rst i) then 0 else (veb_i_val_in i)).
Definition veb_n_ssss_late (s : veb_st) (i : veb_in) : Z :=
  (if (veb_i_rst i) then 0 else (veb_i_ssss i)).
Definition veb_n_end_out (s : veb_st) (i : veb_in) : bool :=
  (if (veb_i_rst i) then false else (veb_end_late s)).
Definition veb_n_end_late (s : veb_st) (i : veb_in) : bool :=
  (if (veb_i_rst i) then false else (veb_i_end_in i)).
Definition veb_n_valid_out (s : veb_st) (i : veb_in) : bool :=
  (if (veb_i_rst i) then false else (veb_valid_late s)).
Definition veb_n_valid_late (s : veb_st) (i : veb_in) : bool :=
  (if (veb_i_rst i) then false else (veb_i_valid_in i)).
Definition veb_step (s : veb_st) (i : veb_in) : veb_st := {| veb_enc_ctr := veb_n_enc_ctr s i; veb_enc_out := veb_n_enc_out s i; veb_val_in_late := veb_n_val_in_late s i; veb_ssss_late := veb_n_ssss_late s i; veb_end_out := veb_n_end_out s i; veb_end_late := veb_n_end_late s i; veb_valid_out := veb_n_valid_out s i; veb_valid_late := veb_n_valid_late s i |}.
Definition veb_o_enc_ctr (s : veb_st) (i : veb_in) : Z :=
  (veb_enc_ctr s).
Definition veb_o_enc_out (s : veb_st) (i : veb_in) : Z :=
  (veb_enc_out s).
Definition veb_o_rp_addr (s : veb_st) (i : veb_in) : Z :=
  (veb_i_ssss i).

(* /repo/verilog_src/beta_integration.v, lines 1852-2101: module encode *)
Record ven_st := { ven__0_ : Z; ven__1_ : Z; ven_u_w13 : vea_st; ven_u_w22 : veb_st }.
Record ven_in := { ven_i_end_in : bool; ven_i_rst : bool; ven_i_ssss : Z; ven_i_ssss_2 : Z; ven_i_val_in : Z; ven_i_val_in_1 : Z; ven_i_valid_in : bool }.
Definition ven_idle : ven_in := {| ven_i_end_in := false; ven_i_rst := false; ven_i_ssss := 0; ven_i_ssss_2 := 0; ven_i_val_in := 0; ven_i_val_in_1 := 0; ven_i_valid_in := false |}.
(* widths: _0_ 4, _1_ 4, end_in 1, rst 1, ssss 5, ssss_2 5, val_in 12, val_in_1 12, valid_in 1 *)
Definition ven_mem : list Z := [1073741838; 805306368; 805306372; 805306384; 805306416; 805306496; 805306688; 805307136; 1342184960; 1610644480; 1879177216; 2148003840; 2418008064].
(* without initial value: _0_, _1_ *)
Definition ven_init : ven_st := {| ven__0_ := 0; ven__1_ := 0; ven_u_w13 := vea_init; ven_u_w22 := veb_init |}.
Definition ven_n__0_ (s : ven_st) (i : ven_in) : Z :=
  (slice 0 4 (veb_o_rp_addr (ven_u_w22 s) {| veb_i_end_in := false; veb_i_rp_data := 0; veb_i_rst := false; veb_i_ssss := (ven_i_ssss_2 i); veb_i_val_in := 0; veb_i_valid_in := false |})).
Definition ven_n__1_ (s : ven_st) (i : ven_in) : Z :=
  (slice 0 4 (vea_o_rp_addr (ven_u_w13 s) {| vea_i_end_in := false; vea_i_rp_data := 0; vea_i_rst := false; vea_i_ssss := (ven_i_ssss i); vea_i_val_in := 0; vea_i_valid_in := false |})).
Definition ven_p_w13 (s : ven_st) (i : ven_in) : vea_in :=
  {| vea_i_end_in := (ven_i_end_in i); vea_i_rp_data := (nth (Z.to_nat (ven__1_ s)) ven_mem 0); vea_i_rst := (ven_i_rst i); vea_i_ssss := (ven_i_ssss i); vea_i_val_in := (ven_i_val_in i); vea_i_valid_in := (ven_i_valid_in i) |}.
Definition ven_p_w22 (s : ven_st) (i : ven_in) : veb_in :=
  {| veb_i_end_in := (ven_i_end_in i); veb_i_rp_data := (nth (Z.to_nat (ven__0_ s)) ven_mem 0); veb_i_rst := (ven_i_rst i); veb_i_ssss := (ven_i_ssss_2 i); veb_i_val_in := (ven_i_val_in_1 i); veb_i_valid_in := (ven_i_valid_in i) |}.
Definition ven_step (s : ven_st) (i : ven_in) : ven_st := {| ven__0_ := ven_n__0_ s i; ven__1_ := ven_n__1_ s i; ven_u_w13 := vea_step (ven_u_w13 s) (ven_p_w13 s i); ven_u_w22 := veb_step (ven_u_w22 s) (ven_p_w22 s i) |}.
Definition ven_o_enc_ctr (s : ven_st) (i : ven_in) : Z :=
  (vea_o_enc_ctr (ven_u_w13 s) vea_idle).
Definition ven_o_enc_ctr_4 (s : ven_st) (i : ven_in) : Z :=
  (veb_o_enc_ctr (ven_u_w22 s) veb_idle).
Definition ven_o_enc_out (s : ven_st) (i : ven_in) : Z :=
  (vea_o_enc_out (ven_u_w13 s) vea_idle).
Definition ven_o_enc_out_3 (s : ven_st) (i : ven_in) : Z :=
  (veb_o_enc_out (ven_u_w22 s) veb_idle).
Definition ven_o_end_out (s : ven_st) (i : ven_in) : bool :=
  (vea_o_end_out (ven_u_w13 s) vea_idle).
Definition ven_o_valid_out (s : ven_st) (i : ven_in) : bool :=
  (vea_o_valid_out (ven_u_w13 s) vea_idle).

(* /repo/verilog_src/beta_integration.v, lines 995-1090: module anonymous$4 *)
Record vma_st := { vma_end_out : bool; vma_valid_out : bool; vma_enc_out : Z; vma_enc_out_ctr : Z }.
Record vma_in := { vma_i_enc_in1 : Z; vma_i_enc_in2 : Z; vma_i_enc_in_ctr1 : Z; vma_i_enc_in_ctr2 : Z; vma_i_end_in : bool; vma_i_rst : bool; vma_i_valid_in : bool }.
Definition vma_idle : vma_in := {| vma_i_enc_in1 := 0; vma_i_enc_in2 := 0; vma_i_enc_in_ctr1 := 0; vma_i_enc_in_ctr2 := 0; vma_i_end_in := false; vma_i_rst := false; vma_i_valid_in := false |}.
(* widths: end_out 1, valid_out 1, enc_out 56, enc_out_ctr 6, enc_in1 28, enc_in2 28, enc_in_ctr1 5, enc_in_ctr2 5, end_in 1, rst 1, valid_in 1 *)
Definition vma_init : vma_st := {| vma_end_out := false; vma_valid_out := false; vma_enc_out := 0; vma_enc_out_ctr := 0 |}.
Definition vma_n_end_out (s : vma_st) (i : vma_in) : bool :=
  (if (vma_i_rst i) then false else (vma_i_end_in i)).
Definition vma_n_valid_out (s : vma_st) (i : vma_in) : bool :=
  (if (vma_i_rst i) then false else (vma_i_valid_in i)).
Definition vma_n_enc_out (s : vma_st) (i : vma_in) : Z :=
  (let x3 := (if (vma_i_valid_in i) then (slice 0 56 (Z.lor (((vma_i_enc_in1 i) * 2 ^ (vma_i_enc_in_ctr2 i)) mod 2 ^ 59) (vma_i_enc_in2 i))) else (vma_enc_out s)) in (if (vma_i_rst i) then 0 else x3)).
Definition vma_n_enc_out_ctr (s : vma_st) (i : vma_in) : Z :=
  (let x5 := (if (vma_i_valid_in i) then (((vma_i_enc_in_ctr1 i) + (vma_i_enc_in_ctr2 i)) mod 2 ^ 6) else (vma_enc_out_ctr s)) in (if (vma_i_rst i) then 0 else x5)).
Definition vma_step (s : vma_st) (i : vma_in) : vma_st := {| vma_end_out := vma_n_end_out s i; vma_valid_out := vma_n_valid_out s i; vma_enc_out := vma_n_enc_out s i; vma_enc_out_ctr := vma_n_enc_out_ctr s i |}.
Definition vma_o_enc_out (s : vma_st) (i : vma_in) : Z :=
  (vma_enc_out s).
Definition vma_o_enc_out_ctr (s : vma_st) (i : vma_in) : Z :=
  (vma_enc_out_ctr s).
Definition vma_o_end_out (s : vma_st) (i : vma_in) : bool :=
  (vma_end_out s).
Definition vma_o_valid_out (s : vma_st) (i : vma_in) : bool :=
  (vma_valid_out s).

(* /repo/verilog_src/beta_integration.v, lines 6288-6417: module merge *)
Record vme_st := { vme_u_w9 : vma_st }.
Record vme_in := { vme_i_enc_in : Z; vme_i_enc_in_1 : Z; vme_i_enc_in_ctr : Z; vme_i_enc_in_ctr_2 : Z; vme_i_end_in : bool; vme_i_rst : bool; vme_i_valid_in : bool }.
Definition vme_idle : vme_in := {| vme_i_enc_in := 0; vme_i_enc_in_1 := 0; vme_i_enc_in_ctr := 0; vme_i_enc_in_ctr_2 := 0; vme_i_end_in := false; vme_i_rst := false; vme_i_valid_in := false |}.
(* widths: enc_in 28, enc_in_1 28, enc_in_ctr 5, enc_in_ctr_2 5, end_in 1, rst 1, valid_in 1 *)
Definition vme_init : vme_st := {| vme_u_w9 := vma_init |}.
Definition vme_p_w9 (s : vme_st) (i : vme_in) : vma_in :=
  {| vma_i_enc_in1 := (vme_i_enc_in i); vma_i_enc_in2 := (vme_i_enc_in_1 i); vma_i_enc_in_ctr1 := (vme_i_enc_in_ctr i); vma_i_enc_in_ctr2 := (vme_i_enc_in_ctr_2 i); vma_i_end_in := (vme_i_end_in i); vma_i_rst := (vme_i_rst i); vma_i_valid_in := (vme_i_valid_in i) |}.
Definition vme_step (s : vme_st) (i : vme_in) : vme_st := {| vme_u_w9 := vma_step (vme_u_w9 s) (vme_p_w9 s i) |}.
Definition vme_o_enc_out (s : vme_st) (i : vme_in) : Z :=
  (vma_o_enc_out (vme_u_w9 s) vma_idle).
Definition vme_o_enc_out_ctr (s : vme_st) (i : vme_in) : Z :=
  (vma_o_enc_out_ctr (vme_u_w9 s) vma_idle).
Definition vme_o_end_out (s : vme_st) (i : vme_in) : bool :=
  (vma_o_end_out (vme_u_w9 s) vma_idle).
Definition vme_o_valid_out (s : vme_st) (i : vme_in) : bool :=
  (vma_o_valid_out (vme_u_w9 s) vma_idle).

(* /repo/verilog_src/beta_integration.v, lines 7994-8736: module unbuffered *)
Record vua_st := { vua_level : Z; vua_consume : Z; vua_produce : Z; vua__0_ : Z; vua_storage : list Z }.
Record vua_in := { vua_i_din : Z; vua_i_re : bool; vua_i_replace : bool; vua_i_rst : bool; vua_i_we : bool }.
Definition vua_idle : vua_in := {| vua_i_din := 0; vua_i_re := false; vua_i_replace := false; vua_i_rst := false; vua_i_we := false |}.
(* widths: level 9, consume 9, produce 9, _0_ 63, din 63, re 1, replace 1, rst 1, we 1 *)
(* without initial value: _0_ *)
Definition vua_init : vua_st := {| vua_level := 0; vua_consume := 0; vua_produce := 0; vua__0_ := 0; vua_storage := repeat 0 511 |}.
Definition vua_n_level (s : vua_st) (i : vua_in) : Z :=
  (let x2 := (let x1 := (if (andb (andb (andb (negb ((vua_level s) =? 511)) (vua_i_we i)) (negb (vua_i_replace i))) (negb (andb (negb ((vua_level s) =? 0)) (vua_i_re i)))) then (slice 0 9 (((vua_level s) + 1) mod 2 ^ 10)) else (vua_level s)) in (if (andb (andb (negb ((vua_level s) =? 0)) (vua_i_re i)) (negb (andb (andb (negb ((vua_level s) =? 511)) (vua_i_we i)) (negb (vua_i_replace i))))) then (slice 0 9 (((vua_level s) - 1) mod 2 ^ 10)) else x1)) in (if (vua_i_rst i) then 0 else x2)).
Definition vua_n_consume (s : vua_st) (i : vua_in) : Z :=
  (let x4 := (if (andb (negb ((vua_level s) =? 0)) (vua_i_re i)) then (slice 0 9 (if ((vua_consume s) =? 510) then 0 else (((vua_consume s) + 1) mod 2 ^ 10))) else (vua_consume s)) in (if (vua_i_rst i) then 0 else x4)).
Definition vua_n_produce (s : vua_st) (i : vua_in) : Z :=
  (let x6 := (if (andb (andb (negb ((vua_level s) =? 511)) (vua_i_we i)) (negb (vua_i_replace i))) then (slice 0 9 (if ((vua_produce s) =? 510) then 0 else (((vua_produce s) + 1) mod 2 ^ 10))) else (vua_produce s)) in (if (vua_i_rst i) then 0 else x6)).
Definition vua_n__0_ (s : vua_st) (i : vua_in) : Z :=
  (if (vua_i_re i) then (nth (Z.to_nat (vua_consume s)) (vua_storage s) 0) else (vua__0_ s)).
Definition vua_n_storage (s : vua_st) (i : vua_in) : list Z :=
  if (andb (vua_i_we i) (orb (negb ((vua_level s) =? 511)) (vua_i_replace i))) then upd (Z.to_nat (if (vua_i_replace i) then (slice 0 9 (if ((vua_produce s) =? 0) then 510 else (((vua_produce s) - 1) mod 2 ^ 10))) else (vua_produce s))) (vua_i_din i) (vua_storage s) else vua_storage s.
Definition vua_step (s : vua_st) (i : vua_in) : vua_st := {| vua_level := vua_n_level s i; vua_consume := vua_n_consume s i; vua_produce := vua_n_produce s i; vua__0_ := vua_n__0_ s i; vua_storage := vua_n_storage s i |}.
Definition vua_o_dout (s : vua_st) (i : vua_in) : Z :=
  (vua__0_ s).
Definition vua_o_level (s : vua_st) (i : vua_in) : Z :=
  (vua_level s).
Definition vua_o_readable (s : vua_st) (i : vua_in) : bool :=
  (negb ((vua_level s) =? 0)).
Definition vua_o_writable (s : vua_st) (i : vua_in) : bool :=
  (negb ((vua_level s) =? 511)).

(* /repo/verilog_src/beta_integration.v, lines 8740-9482: module unbuffered$6 *)
Record vub_st := { vub_level : Z; vub_consume : Z; vub_produce : Z; vub__0_ : Z; vub_storage : list Z }.
Record vub_in := { vub_i_din : Z; vub_i_re : bool; vub_i_replace : bool; vub_i_rst : bool; vub_i_we : bool }.
Definition vub_idle : vub_in := {| vub_i_din := 0; vub_i_re := false; vub_i_replace := false; vub_i_rst := false; vub_i_we := false |}.
(* widths: level 9, consume 9, produce 9, _0_ 36, din 36, re 1, replace 1, rst 1, we 1 *)
(* without initial value: _0_ *)
Definition vub_init : vub_st := {| vub_level := 0; vub_consume := 0; vub_produce := 0; vub__0_ := 0; vub_storage := repeat 0 511 |}.
Definition vub_n_level (s : vub_st) (i : vub_in) : Z :=
  (let x2 := (let x1 := (if (andb (andb (andb (negb ((vub_level s) =? 511)) (vub_i_we i)) (negb (vub_i_replace i))) (negb (andb (negb ((vub_level s) =? 0)) (vub_i_re i)))) then (slice 0 9 (((vub_level s) + 1) mod 2 ^ 10)) else (vub_level s)) in (if (andb (andb (negb ((vub_level s) =? 0)) (vub_i_re i)) (negb (andb (andb (negb ((vub_level s) =? 511)) (vub_i_we i)) (negb (vub_i_replace i))))) then (slice 0 9 (((vub_level s) - 1) mod 2 ^ 10)) else x1)) in (if (vub_i_rst i) then 0 else x2)).
Definition vub_n_consume (s : vub_st) (i : vub_in) : Z :=
  (let x4 := (if (andb (negb ((vub_level s) =? 0)) (vub_i_re i)) then (slice 0 9 (if ((vub_consume s) =? 510) then 0 else (((vub_consume s) + 1) mod 2 ^ 10))) else (vub_consume s)) in (if (vub_i_rst i) then 0 else x4)).
Definition vub_n_produce (s : vub_st) (i : vub_in) : Z :=
  (let x6 := (if (andb (andb (negb ((vub_level s) =? 511)) (vub_i_we i)) (negb (vub_i_replace i))) then (slice 0 9 (if ((vub_produce s) =? 510) then 0 else (((vub_produce s) + 1) mod 2 ^ 10))) else (vub_produce s)) in (if (vub_i_rst i) then 0 else x6)).
Definition vub_n__0_ (s : vub_st) (i : vub_in) : Z :=
  (if (vub_i_re i) then (nth (Z.to_nat (vub_consume s)) (vub_storage s) 0) else (vub__0_ s)).
Definition vub_n_storage (s : vub_st) (i : vub_in) : list Z :=
  if (andb (vub_i_we i) (orb (negb ((vub_level s) =? 511)) (vub_i_replace i))) then upd (Z.to_nat (if (vub_i_replace i) then (slice 0 9 (if ((vub_produce s) =? 0) then 510 else (((vub_produce s) - 1) mod 2 ^ 10))) else (vub_produce s))) (vub_i_din i) (vub_storage s) else vub_storage s.
Definition vub_step (s : vub_st) (i : vub_in) : vub_st := {| vub_level := vub_n_level s i; vub_consume := vub_n_consume s i; vub_produce := vub_n_produce s i; vub__0_ := vub_n__0_ s i; vub_storage := vub_n_storage s i |}.
Definition vub_o_dout (s : vub_st) (i : vub_in) : Z :=
  (vub__0_ s).
Definition vub_o_level (s : vub_st) (i : vub_in) : Z :=
  (vub_level s).
Definition vub_o_readable (s : vub_st) (i : vub_in) : bool :=
  (negb ((vub_level s) =? 0)).
Definition vub_o_writable (s : vub_st) (i : vub_in) : bool :=
  (negb ((vub_level s) =? 511)).

(* /repo/verilog_src/beta_integration.v, lines 2105-2231: module fifo *)
Record vff_st := { vff_readable : bool; vff_u_unbuffered : vua_st }.
Record vff_in := { vff_i_din : Z; vff_i_re : bool; vff_i_rst : bool; vff_i_we : bool }.
Definition vff_idle : vff_in := {| vff_i_din := 0; vff_i_re := false; vff_i_rst := false; vff_i_we := false |}.
(* widths: readable 1, din 63, re 1, rst 1, we 1 *)
Definition vff_init : vff_st := {| vff_readable := false; vff_u_unbuffered := vua_init |}.
Definition vff_n_readable (s : vff_st) (i : vff_in) : bool :=
  (let x1 := (if (andb (vua_o_readable (vff_u_unbuffered s) vua_idle) (orb (negb (vff_readable s)) (vff_i_re i))) then true else if (vff_i_re i) then false else (vff_readable s)) in (if (vff_i_rst i) then false else x1)).
Definition vff_p_unbuffered (s : vff_st) (i : vff_in) : vua_in :=
  {| vua_i_din := (vff_i_din i); vua_i_re := (andb (vua_o_readable (vff_u_unbuffered s) vua_idle) (orb (negb (vff_readable s)) (vff_i_re i))); vua_i_replace := false; vua_i_rst := (vff_i_rst i); vua_i_we := (vff_i_we i) |}.
Definition vff_step (s : vff_st) (i : vff_in) : vff_st := {| vff_readable := vff_n_readable s i; vff_u_unbuffered := vua_step (vff_u_unbuffered s) (vff_p_unbuffered s i) |}.
Definition vff_o_dout (s : vff_st) (i : vff_in) : Z :=
  (vua_o_dout (vff_u_unbuffered s) vua_idle).
Definition vff_o_level (s : vff_st) (i : vff_in) : Z :=
  (((vua_o_level (vff_u_unbuffered s) vua_idle) + (b2z (vff_readable s))) mod 2 ^ 10).
Definition vff_o_readable (s : vff_st) (i : vff_in) : bool :=
  (vff_readable s).

(* /repo/verilog_src/beta_integration.v, lines 2235-2361: module fifo$5 *)
Record vfg_st := { vfg_readable : bool; vfg_u_unbuffered : vub_st }.
Record vfg_in := { vfg_i_din : Z; vfg_i_re : bool; vfg_i_rst : bool; vfg_i_we : bool }.
Definition vfg_idle : vfg_in := {| vfg_i_din := 0; vfg_i_re := false; vfg_i_rst := false; vfg_i_we := false |}.
(* widths: readable 1, din 36, re 1, rst 1, we 1 *)
Definition vfg_init : vfg_st := {| vfg_readable := false; vfg_u_unbuffered := vub_init |}.
Definition vfg_n_readable (s : vfg_st) (i : vfg_in) : bool :=
  (let x1 := (if (andb (vub_o_readable (vfg_u_unbuffered s) vub_idle) (orb (negb (vfg_readable s)) (vfg_i_re i))) then true else if (vfg_i_re i) then false else (vfg_readable s)) in (if (vfg_i_rst i) then false else x1)).
Definition vfg_p_unbuffered (s : vfg_st) (i : vfg_in) : vub_in :=
  {| vub_i_din := (vfg_i_din i); vub_i_re := (andb (vub_o_readable (vfg_u_unbuffered s) vub_idle) (orb (negb (vfg_readable s)) (vfg_i_re i))); vub_i_replace := false; vub_i_rst := (vfg_i_rst i); vub_i_we := (vfg_i_we i) |}.
Definition vfg_step (s : vfg_st) (i : vfg_in) : vfg_st := {| vfg_readable := vfg_n_readable s i; vfg_u_unbuffered := vub_step (vfg_u_unbuffered s) (vfg_p_unbuffered s i) |}.
Definition vfg_o_dout (s : vfg_st) (i : vfg_in) : Z :=
  (vub_o_dout (vfg_u_unbuffered s) vub_idle).
Definition vfg_o_level (s : vfg_st) (i : vfg_in) : Z :=
  (((vub_o_level (vfg_u_unbuffered s) vub_idle) + (b2z (vfg_readable s))) mod 2 ^ 10).
Definition vfg_o_readable (s : vfg_st) (i : vfg_in) : bool :=
  (vfg_readable s).
Definition vfg_o_writable (s : vfg_st) (i : vfg_in) : bool :=
  (vub_o_writable (vfg_u_unbuffered s) vub_idle).

(* /repo/verilog_src/beta_integration.v, lines 5861-5973: module lj92_pipeline_fifo *)
Record vlf_st := { vlf_close_full : bool; vlf_u_fifo : vff_st }.
Record vlf_in := { vlf_i_enc_in : Z; vlf_i_enc_in_ctr : Z; vlf_i_in_end : bool; vlf_i_latch_output : bool; vlf_i_rst : bool; vlf_i_valid_in : bool }.
Definition vlf_idle : vlf_in := {| vlf_i_enc_in := 0; vlf_i_enc_in_ctr := 0; vlf_i_in_end := false; vlf_i_latch_output := false; vlf_i_rst := false; vlf_i_valid_in := false |}.
(* widths: close_full 1, enc_in 56, enc_in_ctr 6, in_end 1, latch_output 1, rst 1, valid_in 1 *)
Definition vlf_init : vlf_st := {| vlf_close_full := false; vlf_u_fifo := vff_init |}.
Definition vlf_n_close_full (s : vlf_st) (i : vlf_in) : bool :=
  (let x0 := ((vff_o_level (vlf_u_fifo s) vff_idle) >=? 502) in (if (vlf_i_rst i) then false else x0)).
Definition vlf_p_fifo (s : vlf_st) (i : vlf_in) : vff_in :=
  {| vff_i_din := (((b2z (vlf_i_in_end i)) * 2 ^ 6 + (vlf_i_enc_in_ctr i)) * 2 ^ 56 + (vlf_i_enc_in i)); vff_i_re := (vlf_i_latch_output i); vff_i_rst := (vlf_i_rst i); vff_i_we := (vlf_i_valid_in i) |}.
Definition vlf_step (s : vlf_st) (i : vlf_in) : vlf_st := {| vlf_close_full := vlf_n_close_full s i; vlf_u_fifo := vff_step (vlf_u_fifo s) (vlf_p_fifo s i) |}.
Definition vlf_o_close_full (s : vlf_st) (i : vlf_in) : bool :=
  (vlf_close_full s).
Definition vlf_o_enc_out (s : vlf_st) (i : vlf_in) : Z :=
  (slice 0 56 (vff_o_dout (vlf_u_fifo s) vff_idle)).
Definition vlf_o_enc_out_ctr (s : vlf_st) (i : vlf_in) : Z :=
  (slice 56 62 (vff_o_dout (vlf_u_fifo s) vff_idle)).
Definition vlf_o_out_end (s : vlf_st) (i : vlf_in) : bool :=
  (Z.testbit (vff_o_dout (vlf_u_fifo s) vff_idle) 62).
Definition vlf_o_valid_out (s : vlf_st) (i : vlf_in) : bool :=
  (vff_o_readable (vlf_u_fifo s) vff_idle).

(* /repo/verilog_src/beta_integration.v, lines 1579-1703: module converter_fifo *)
Record vcf_st := { vcf_close_full : bool; vcf_u_fifo : vfg_st }.
Record vcf_in := { vcf_i_enc_in : Z; vcf_i_enc_in_ctr : Z; vcf_i_in_end : bool; vcf_i_latch_output : bool; vcf_i_rst : bool; vcf_i_valid_in : bool }.
Definition vcf_idle : vcf_in := {| vcf_i_enc_in := 0; vcf_i_enc_in_ctr := 0; vcf_i_in_end := false; vcf_i_latch_output := false; vcf_i_rst := false; vcf_i_valid_in := false |}.
(* widths: close_full 1, enc_in 30, enc_in_ctr 5, in_end 1, latch_output 1, rst 1, valid_in 1 *)
Definition vcf_init : vcf_st := {| vcf_close_full := false; vcf_u_fifo := vfg_init |}.
Definition vcf_n_close_full (s : vcf_st) (i : vcf_in) : bool :=
  (let x0 := ((vfg_o_level (vcf_u_fifo s) vfg_idle) >=? 507) in (if (vcf_i_rst i) then false else x0)).
Definition vcf_p_fifo (s : vcf_st) (i : vcf_in) : vfg_in :=
  {| vfg_i_din := (((b2z (vcf_i_in_end i)) * 2 ^ 5 + (vcf_i_enc_in_ctr i)) * 2 ^ 30 + (vcf_i_enc_in i)); vfg_i_re := (vcf_i_latch_output i); vfg_i_rst := (vcf_i_rst i); vfg_i_we := (vcf_i_valid_in i) |}.
Definition vcf_step (s : vcf_st) (i : vcf_in) : vcf_st := {| vcf_close_full := vcf_n_close_full s i; vcf_u_fifo := vfg_step (vcf_u_fifo s) (vcf_p_fifo s i) |}.
Definition vcf_o_close_full (s : vcf_st) (i : vcf_in) : bool :=
  (vcf_close_full s).
Definition vcf_o_enc_out (s : vcf_st) (i : vcf_in) : Z :=
  (slice 0 30 (vfg_o_dout (vcf_u_fifo s) vfg_idle)).
Definition vcf_o_enc_out_ctr (s : vcf_st) (i : vcf_in) : Z :=
  (slice 30 35 (vfg_o_dout (vcf_u_fifo s) vfg_idle)).
Definition vcf_o_out_end (s : vcf_st) (i : vcf_in) : bool :=
  (Z.testbit (vfg_o_dout (vcf_u_fifo s) vfg_idle) 35).
Definition vcf_o_valid_out (s : vcf_st) (i : vcf_in) : bool :=
  (vfg_o_readable (vcf_u_fifo s) vfg_idle).

(* /repo/verilog_src/beta_integration.v, lines 9486-9671: module vbits_to_cbits *)
Record vvb_st := { vvb_u_input_handler : vih_st; vvb_u_output_handler : voh_st }.
Record vvb_in := { vvb_i_busy_in : bool; vvb_i_enc_in : Z; vvb_i_enc_in_ctr : Z; vvb_i_in_end : bool; vvb_i_rst : bool; vvb_i_valid_in : bool }.
Definition vvb_idle : vvb_in := {| vvb_i_busy_in := false; vvb_i_enc_in := 0; vvb_i_enc_in_ctr := 0; vvb_i_in_end := false; vvb_i_rst := false; vvb_i_valid_in := false |}.
(* widths: busy_in 1, enc_in 30, enc_in_ctr 5, in_end 1, rst 1, valid_in 1 *)
Definition vvb_init : vvb_st := {| vvb_u_input_handler := vih_init; vvb_u_output_handler := voh_init |}.
Definition vvb_p_input_handler (s : vvb_st) (i : vvb_in) : vih_in :=
  {| vih_i_dec_buff := (voh_o_dec_buff_out (vvb_u_output_handler s) {| voh_i_buff_consum := (vih_o_buff_consum (vvb_u_input_handler s) vih_idle); voh_i_buffer := 0; voh_i_busy_in := (vvb_i_busy_in i); voh_i_end_in := (vih_o_end_out (vvb_u_input_handler s) vih_idle); voh_i_rst := false |}); vih_i_enc_in := (vvb_i_enc_in i); vih_i_enc_in_ctr := (vvb_i_enc_in_ctr i); vih_i_in_end := (vvb_i_in_end i); vih_i_rst := (vvb_i_rst i); vih_i_valid_in := (vvb_i_valid_in i) |}.
Definition vvb_p_output_handler (s : vvb_st) (i : vvb_in) : voh_in :=
  {| voh_i_buff_consum := (vih_o_buff_consum (vvb_u_input_handler s) vih_idle); voh_i_buffer := (vih_o_buffer (vvb_u_input_handler s) vih_idle); voh_i_busy_in := (vvb_i_busy_in i); voh_i_end_in := (vih_o_end_out (vvb_u_input_handler s) vih_idle); voh_i_rst := (vvb_i_rst i) |}.
Definition vvb_step (s : vvb_st) (i : vvb_in) : vvb_st := {| vvb_u_input_handler := vih_step (vvb_u_input_handler s) (vvb_p_input_handler s i); vvb_u_output_handler := voh_step (vvb_u_output_handler s) (vvb_p_output_handler s i) |}.
Definition vvb_o_data_out (s : vvb_st) (i : vvb_in) : Z :=
  (voh_o_data_out (vvb_u_output_handler s) voh_idle).
Definition vvb_o_end_out (s : vvb_st) (i : vvb_in) : bool :=
  (voh_o_end_out (vvb_u_output_handler s) voh_idle).
Definition vvb_o_latch_input (s : vvb_st) (i : vvb_in) : bool :=
  (vih_o_latch_input (vvb_u_input_handler s) vih_idle).
Definition vvb_o_valid_out (s : vvb_st) (i : vvb_in) : bool :=
  (voh_o_valid_out (vvb_u_output_handler s) voh_idle).

(* /repo/verilog_src/beta_integration.v, lines 4669-5203: module integration_1 *)
Record vi1_st := { vi1_u_difference : vdf_st; vi1_u_encode : ven_st; vi1_u_force_end : vfe_st; vi1_u_merge : vme_st; vi1_u_normalize : vno_st; vi1_u_predictor : vpr_st; vi1_u_register_file : vrf_st; vi1_u_signals : vsg_st }.
Record vi1_in := { vi1_i_full_rst : bool; vi1_i_pixel_in : Z; vi1_i_pixel_in_1 : Z; vi1_i_rst : bool; vi1_i_valid_in : bool }.
Definition vi1_idle : vi1_in := {| vi1_i_full_rst := false; vi1_i_pixel_in := 0; vi1_i_pixel_in_1 := 0; vi1_i_rst := false; vi1_i_valid_in := false |}.
(* widths: full_rst 1, pixel_in 12, pixel_in_1 12, rst 1, valid_in 1 *)
Definition vi1_init : vi1_st := {| vi1_u_difference := vdf_init; vi1_u_encode := ven_init; vi1_u_force_end := vfe_init; vi1_u_merge := vme_init; vi1_u_normalize := vno_init; vi1_u_predictor := vpr_init; vi1_u_register_file := vrf_init; vi1_u_signals := vsg_init |}.
Definition vi1_p_difference (s : vi1_st) (i : vi1_in) : vdf_in :=
  {| vdf_i_end_in := (vpr_o_end_out (vi1_u_predictor s) vpr_idle); vdf_i_pixel_in := (vpr_o_pixel_out (vi1_u_predictor s) vpr_idle); vdf_i_pixel_in_1 := (vpr_o_pixel_out_2 (vi1_u_predictor s) vpr_idle); vdf_i_predic_in := (vpr_o_predic_out (vi1_u_predictor s) vpr_idle); vdf_i_predic_in_2 := (vpr_o_predic_out_3 (vi1_u_predictor s) vpr_idle); vdf_i_rst := (vi1_i_rst i); vdf_i_valid_in := (vpr_o_valid_out (vi1_u_predictor s) vpr_idle) |}.
Definition vi1_p_encode (s : vi1_st) (i : vi1_in) : ven_in :=
  {| ven_i_end_in := (vno_o_end_out (vi1_u_normalize s) vno_idle); ven_i_rst := (vi1_i_rst i); ven_i_ssss := (vno_o_ssss (vi1_u_normalize s) vno_idle); ven_i_ssss_2 := (vno_o_ssss_3 (vi1_u_normalize s) vno_idle); ven_i_val_in := (vno_o_val_out (vi1_u_normalize s) vno_idle); ven_i_val_in_1 := (vno_o_val_out_4 (vi1_u_normalize s) vno_idle); ven_i_valid_in := (vno_o_valid_out (vi1_u_normalize s) vno_idle) |}.
Definition vi1_p_force_end (s : vi1_st) (i : vi1_in) : vfe_in :=
  {| vfe_i_allowed_cycles := (vrf_o_allowed_cycles (vi1_u_register_file s) vrf_idle); vfe_i_rst := (vi1_i_rst i); vfe_i_valid_in := (vi1_i_valid_in i) |}.
Definition vi1_p_merge (s : vi1_st) (i : vi1_in) : vme_in :=
  {| vme_i_enc_in := (ven_o_enc_out (vi1_u_encode s) ven_idle); vme_i_enc_in_1 := (ven_o_enc_out_3 (vi1_u_encode s) ven_idle); vme_i_enc_in_ctr := (ven_o_enc_ctr (vi1_u_encode s) ven_idle); vme_i_enc_in_ctr_2 := (ven_o_enc_ctr_4 (vi1_u_encode s) ven_idle); vme_i_end_in := (ven_o_end_out (vi1_u_encode s) ven_idle); vme_i_rst := (vi1_i_rst i); vme_i_valid_in := (ven_o_valid_out (vi1_u_encode s) ven_idle) |}.
Definition vi1_p_normalize (s : vi1_st) (i : vi1_in) : vno_in :=
  {| vno_i_end_in := (vdf_o_end_out (vi1_u_difference s) vdf_idle); vno_i_rst := (vi1_i_rst i); vno_i_val_in := (vdf_o_val_out (vi1_u_difference s) vdf_idle); vno_i_val_in_1 := (vdf_o_val_out_3 (vi1_u_difference s) vdf_idle); vno_i_valid_in := (vdf_o_valid_out (vi1_u_difference s) vdf_idle); vno_i_vals_in_mns := (vdf_o_val_out_4 (vi1_u_difference s) vdf_idle); vno_i_vals_in_mns_2 := (vdf_o_val_out_5 (vi1_u_difference s) vdf_idle) |}.
Definition vi1_p_predictor (s : vi1_st) (i : vi1_in) : vpr_in :=
  {| vpr_i_end_in := (vsg_o_end_of_frame (vi1_u_signals s) vsg_idle); vpr_i_new_row := (vsg_o_new_row (vi1_u_signals s) vsg_idle); vpr_i_pixel_in := (vi1_i_pixel_in i); vpr_i_pixel_in_1 := (vi1_i_pixel_in_1 i); vpr_i_rst := (vi1_i_rst i); vpr_i_valid_in := (vi1_i_valid_in i) |}.
Definition vi1_p_register_file (s : vi1_st) (i : vi1_in) : vrf_in :=
  {| vrf_i_full_rst := (vi1_i_full_rst i) |}.
Definition vi1_p_signals (s : vi1_st) (i : vi1_in) : vsg_in :=
  {| vsg_i_height := (vrf_o_height (vi1_u_register_file s) vrf_idle); vsg_i_new_input := (vi1_i_valid_in i); vsg_i_rst := (vi1_i_rst i); vsg_i_width := (vrf_o_width (vi1_u_register_file s) vrf_idle) |}.
Definition vi1_step (s : vi1_st) (i : vi1_in) : vi1_st := {| vi1_u_difference := vdf_step (vi1_u_difference s) (vi1_p_difference s i); vi1_u_encode := ven_step (vi1_u_encode s) (vi1_p_encode s i); vi1_u_force_end := vfe_step (vi1_u_force_end s) (vi1_p_force_end s i); vi1_u_merge := vme_step (vi1_u_merge s) (vi1_p_merge s i); vi1_u_normalize := vno_step (vi1_u_normalize s) (vi1_p_normalize s i); vi1_u_predictor := vpr_step (vi1_u_predictor s) (vi1_p_predictor s i); vi1_u_register_file := vrf_step (vi1_u_register_file s) (vi1_p_register_file s i); vi1_u_signals := vsg_step (vi1_u_signals s) (vi1_p_signals s i) |}.
Definition vi1_o_enc_out (s : vi1_st) (i : vi1_in) : Z :=
  (vme_o_enc_out (vi1_u_merge s) vme_idle).
Definition vi1_o_enc_out_ctr (s : vi1_st) (i : vi1_in) : Z :=
  (vme_o_enc_out_ctr (vi1_u_merge s) vme_idle).
Definition vi1_o_end_of_frame (s : vi1_st) (i : vi1_in) : bool :=
  (vsg_o_end_of_frame (vi1_u_signals s) vsg_idle).
Definition vi1_o_end_out (s : vi1_st) (i : vi1_in) : bool :=
  (vme_o_end_out (vi1_u_merge s) vme_idle).
Definition vi1_o_fend_out (s : vi1_st) (i : vi1_in) : bool :=
  (vfe_o_fend (vi1_u_force_end s) vfe_idle).
Definition vi1_o_valid_out (s : vi1_st) (i : vi1_in) : bool :=
  (vme_o_valid_out (vi1_u_merge s) vme_idle).

(* /repo/verilog_src/beta_integration.v, lines 5207-5670: module integration_2 *)
Record vi2_st := { vi2_nready_reset : bool; vi2_nready_reset_counter : Z; vi2_nready_end_reg : bool; vi2_nready_end : bool; vi2_u_converter : vcv_st; vi2_u_converter_fifo : vcf_st; vi2_u_integration_1 : vi1_st; vi2_u_lj92_pipeline_fifo : vlf_st }.
Record vi2_in := { vi2_i_full_rst : bool; vi2_i_latch_output : bool; vi2_i_pixel_in : Z; vi2_i_pixel_in_1 : Z; vi2_i_rst : bool; vi2_i_valid_in : bool }.
Definition vi2_idle : vi2_in := {| vi2_i_full_rst := false; vi2_i_latch_output := false; vi2_i_pixel_in := 0; vi2_i_pixel_in_1 := 0; vi2_i_rst := false; vi2_i_valid_in := false |}.
(* widths: nready_reset 1, nready_reset_counter 3, nready_end_reg 1, nready_end 1, full_rst 1, latch_output 1, pixel_in 12, pixel_in_1 12, rst 1, valid_in 1 *)
Definition vi2_init : vi2_st := {| vi2_nready_reset := false; vi2_nready_reset_counter := 0; vi2_nready_end_reg := false; vi2_nready_end := false; vi2_u_converter := vcv_init; vi2_u_converter_fifo := vcf_init; vi2_u_integration_1 := vi1_init; vi2_u_lj92_pipeline_fifo := vlf_init |}.
Definition vi2_n_nready_reset (s : vi2_st) (i : vi2_in) : bool :=
  (let x1 := (if ((vi2_nready_reset_counter s) =? 7) then true else (vi2_nready_reset s)) in (if (vi2_i_rst i) then false else x1)).
Definition vi2_n_nready_reset_counter (s : vi2_st) (i : vi2_in) : Z :=
  (let x2 := (slice 0 3 (((vi2_nready_reset_counter s) + 1) mod 2 ^ 4)) in (if (vi2_i_rst i) then 0 else x2)).
Definition vi2_n_nready_end_reg (s : vi2_st) (i : vi2_in) : bool :=
  (let x4 := (if (andb (andb (Bool.eqb (vi1_o_end_of_frame (vi2_u_integration_1 s) vi1_idle) true) (Bool.eqb (vi2_i_valid_in i) true)) (Bool.eqb (orb (orb (Bool.eqb (vlf_o_close_full (vi2_u_lj92_pipeline_fifo s) vlf_idle) true) (Bool.eqb (vi2_nready_end s) true)) (Bool.eqb (vi2_nready_reset s) false)) false)) then true else (vi2_nready_end_reg s)) in (if (vi2_i_rst i) then false else x4)).
Definition vi2_n_nready_end (s : vi2_st) (i : vi2_in) : bool :=
  (let x6 := (orb (Bool.eqb (if (andb (andb (Bool.eqb (vi1_o_end_of_frame (vi2_u_integration_1 s) vi1_idle) true) (Bool.eqb (vi2_i_valid_in i) true)) (Bool.eqb (orb (orb (Bool.eqb (vlf_o_close_full (vi2_u_lj92_pipeline_fifo s) vlf_idle) true) (Bool.eqb (vi2_nready_end s) true)) (Bool.eqb (vi2_nready_reset s) false)) false)) then true else false) true) (Bool.eqb (vi2_nready_end_reg s) true)) in (if (vi2_i_rst i) then false else x6)).
Definition vi2_p_converter (s : vi2_st) (i : vi2_in) : vcv_in :=
  {| vcv_i_close_full := (vcf_o_close_full (vi2_u_converter_fifo s) vcf_idle); vcv_i_enc_out := (vlf_o_enc_out (vi2_u_lj92_pipeline_fifo s) vlf_idle); vcv_i_enc_out_ctr := (vlf_o_enc_out_ctr (vi2_u_lj92_pipeline_fifo s) vlf_idle); vcv_i_out_end := (vlf_o_out_end (vi2_u_lj92_pipeline_fifo s) vlf_idle); vcv_i_rst := (vi2_i_rst i); vcv_i_valid_out := (vlf_o_valid_out (vi2_u_lj92_pipeline_fifo s) vlf_idle) |}.
Definition vi2_p_converter_fifo (s : vi2_st) (i : vi2_in) : vcf_in :=
  {| vcf_i_enc_in := (vcv_o_enc_in (vi2_u_converter s) vcv_idle); vcf_i_enc_in_ctr := (vcv_o_enc_in_ctr (vi2_u_converter s) vcv_idle); vcf_i_in_end := (vcv_o_in_end (vi2_u_converter s) vcv_idle); vcf_i_latch_output := (vi2_i_latch_output i); vcf_i_rst := (vi2_i_rst i); vcf_i_valid_in := (vcv_o_valid_in (vi2_u_converter s) vcv_idle) |}.
Definition vi2_p_integration_1 (s : vi2_st) (i : vi2_in) : vi1_in :=
  {| vi1_i_full_rst := (vi2_i_full_rst i); vi1_i_pixel_in := (vi2_i_pixel_in i); vi1_i_pixel_in_1 := (vi2_i_pixel_in_1 i); vi1_i_rst := (vi2_i_rst i); vi1_i_valid_in := (andb (Bool.eqb (vi2_i_valid_in i) true) (Bool.eqb (orb (orb (Bool.eqb (vlf_o_close_full (vi2_u_lj92_pipeline_fifo s) vlf_idle) true) (Bool.eqb (vi2_nready_end s) true)) (Bool.eqb (vi2_nready_reset s) false)) false)) |}.
Definition vi2_p_lj92_pipeline_fifo (s : vi2_st) (i : vi2_in) : vlf_in :=
  {| vlf_i_enc_in := (vi1_o_enc_out (vi2_u_integration_1 s) vi1_idle); vlf_i_enc_in_ctr := (vi1_o_enc_out_ctr (vi2_u_integration_1 s) vi1_idle); vlf_i_in_end := (vi1_o_end_out (vi2_u_integration_1 s) vi1_idle); vlf_i_latch_output := (vcv_o_latch_output (vi2_u_converter s) vcv_idle); vlf_i_rst := (vi2_i_rst i); vlf_i_valid_in := (vi1_o_valid_out (vi2_u_integration_1 s) vi1_idle) |}.
Definition vi2_step (s : vi2_st) (i : vi2_in) : vi2_st := {| vi2_nready_reset := vi2_n_nready_reset s i; vi2_nready_reset_counter := vi2_n_nready_reset_counter s i; vi2_nready_end_reg := vi2_n_nready_end_reg s i; vi2_nready_end := vi2_n_nready_end s i; vi2_u_converter := vcv_step (vi2_u_converter s) (vi2_p_converter s i); vi2_u_converter_fifo := vcf_step (vi2_u_converter_fifo s) (vi2_p_converter_fifo s i); vi2_u_integration_1 := vi1_step (vi2_u_integration_1 s) (vi2_p_integration_1 s i); vi2_u_lj92_pipeline_fifo := vlf_step (vi2_u_lj92_pipeline_fifo s) (vi2_p_lj92_pipeline_fifo s i) |}.
Definition vi2_o_enc_out (s : vi2_st) (i : vi2_in) : Z :=
  (vcf_o_enc_out (vi2_u_converter_fifo s) vcf_idle).
Definition vi2_o_enc_out_ctr (s : vi2_st) (i : vi2_in) : Z :=
  (vcf_o_enc_out_ctr (vi2_u_converter_fifo s) vcf_idle).
Definition vi2_o_fend_out (s : vi2_st) (i : vi2_in) : bool :=
  (vi1_o_fend_out (vi2_u_integration_1 s) vi1_idle).
Definition vi2_o_nready (s : vi2_st) (i : vi2_in) : bool :=
  (orb (orb (Bool.eqb (vlf_o_close_full (vi2_u_lj92_pipeline_fifo s) vlf_idle) true) (Bool.eqb (vi2_nready_end s) true)) (Bool.eqb (vi2_nready_reset s) false)).
Definition vi2_o_out_end (s : vi2_st) (i : vi2_in) : bool :=
  (vcf_o_out_end (vi2_u_converter_fifo s) vcf_idle).
Definition vi2_o_valid_out (s : vi2_st) (i : vi2_in) : bool :=
  (vcf_o_valid_out (vi2_u_converter_fifo s) vcf_idle).

(* /repo/verilog_src/beta_integration.v, lines 5674-5857: module integration_3 *)
Record vi3_st := { vi3_u_integration_2 : vi2_st; vi3_u_vbits_to_cbits : vvb_st }.
Record vi3_in := { vi3_i_busy_in : bool; vi3_i_full_rst : bool; vi3_i_pixel_in : Z; vi3_i_pixel_in_1 : Z; vi3_i_rst : bool; vi3_i_valid_in : bool }.
Definition vi3_idle : vi3_in := {| vi3_i_busy_in := false; vi3_i_full_rst := false; vi3_i_pixel_in := 0; vi3_i_pixel_in_1 := 0; vi3_i_rst := false; vi3_i_valid_in := false |}.
(* widths: busy_in 1, full_rst 1, pixel_in 12, pixel_in_1 12, rst 1, valid_in 1 *)
Definition vi3_init : vi3_st := {| vi3_u_integration_2 := vi2_init; vi3_u_vbits_to_cbits := vvb_init |}.
Definition vi3_p_integration_2 (s : vi3_st) (i : vi3_in) : vi2_in :=
  {| vi2_i_full_rst := (vi3_i_full_rst i); vi2_i_latch_output := (vvb_o_latch_input (vi3_u_vbits_to_cbits s) vvb_idle); vi2_i_pixel_in := (vi3_i_pixel_in i); vi2_i_pixel_in_1 := (vi3_i_pixel_in_1 i); vi2_i_rst := (vi3_i_rst i); vi2_i_valid_in := (vi3_i_valid_in i) |}.
Definition vi3_p_vbits_to_cbits (s : vi3_st) (i : vi3_in) : vvb_in :=
  {| vvb_i_busy_in := (vi3_i_busy_in i); vvb_i_enc_in := (slice 0 30 (vi2_o_enc_out (vi3_u_integration_2 s) vi2_idle)); vvb_i_enc_in_ctr := (slice 0 5 (vi2_o_enc_out_ctr (vi3_u_integration_2 s) vi2_idle)); vvb_i_in_end := (vi2_o_out_end (vi3_u_integration_2 s) vi2_idle); vvb_i_rst := (vi3_i_rst i); vvb_i_valid_in := (vi2_o_valid_out (vi3_u_integration_2 s) vi2_idle) |}.
Definition vi3_step (s : vi3_st) (i : vi3_in) : vi3_st := {| vi3_u_integration_2 := vi2_step (vi3_u_integration_2 s) (vi3_p_integration_2 s i); vi3_u_vbits_to_cbits := vvb_step (vi3_u_vbits_to_cbits s) (vi3_p_vbits_to_cbits s i) |}.
Definition vi3_o_data_out (s : vi3_st) (i : vi3_in) : Z :=
  (vvb_o_data_out (vi3_u_vbits_to_cbits s) vvb_idle).
Definition vi3_o_end_out (s : vi3_st) (i : vi3_in) : bool :=
  (vvb_o_end_out (vi3_u_vbits_to_cbits s) vvb_idle).
Definition vi3_o_fend_out (s : vi3_st) (i : vi3_in) : bool :=
  (vi2_o_fend_out (vi3_u_integration_2 s) vi2_idle).
Definition vi3_o_nready (s : vi3_st) (i : vi3_in) : bool :=
  (vi2_o_nready (vi3_u_integration_2 s) vi2_idle).
Definition vi3_o_valid_out (s : vi3_st) (i : vi3_in) : bool :=
  (vvb_o_valid_out (vi3_u_vbits_to_cbits s) vvb_idle).

(* /repo/verilog_src/beta_integration.v, lines 7626-7990: module top *)
Record vtp_st := { vtp_u_auto_reset : var_st; vtp_u_fix_0xff : vfx_st; vtp_u_fix_0xff2 : vf2_st; vtp_u_integration_3 : vi3_st; vtp_u_markers : vmk_st }.
Record vtp_in := { vtp_i_busy_in : bool; vtp_i_full_rst : bool; vtp_i_pixel_in1 : Z; vtp_i_pixel_in2 : Z; vtp_i_valid_in : bool }.
Definition vtp_idle : vtp_in := {| vtp_i_busy_in := false; vtp_i_full_rst := false; vtp_i_pixel_in1 := 0; vtp_i_pixel_in2 := 0; vtp_i_valid_in := false |}.
(* widths: busy_in 1, full_rst 1, pixel_in1 12, pixel_in2 12, valid_in 1 *)
Definition vtp_init : vtp_st := {| vtp_u_auto_reset := var_init; vtp_u_fix_0xff := vfx_init; vtp_u_fix_0xff2 := vf2_init; vtp_u_integration_3 := vi3_init; vtp_u_markers := vmk_init |}.
Definition vtp_p_auto_reset (s : vtp_st) (i : vtp_in) : var_in :=
  {| var_i_end_in := (vmk_o_end_out (vtp_u_markers s) {| vmk_i_data_in := 0; vmk_i_end_in := false; vmk_i_force_end_in := false; vmk_i_i_busy := (vtp_i_busy_in i); vmk_i_rst := false; vmk_i_valid_in := false |}); var_i_hs1_in := (vmk_o_valid_out (vtp_u_markers s) {| vmk_i_data_in := 0; vmk_i_end_in := false; vmk_i_force_end_in := (vi3_o_fend_out (vtp_u_integration_3 s) vi3_idle); vmk_i_i_busy := (vtp_i_busy_in i); vmk_i_rst := false; vmk_i_valid_in := (vf2_o_valid_out (vtp_u_fix_0xff2 s) vf2_idle) |}); var_i_hs2_in := (Bool.eqb (vtp_i_busy_in i) false); var_i_rst := (orb (Bool.eqb (var_o_reset_out (vtp_u_auto_reset s) var_idle) true) (Bool.eqb (vtp_i_full_rst i) true)) |}.
Definition vtp_p_fix_0xff (s : vtp_st) (i : vtp_in) : vfx_in :=
  {| vfx_i_data_in := (vi3_o_data_out (vtp_u_integration_3 s) vi3_idle); vfx_i_end_in := (vi3_o_end_out (vtp_u_integration_3 s) vi3_idle); vfx_i_i_busy := (vf2_o_o_busy (vtp_u_fix_0xff2 s) vf2_idle); vfx_i_rst := (orb (Bool.eqb (var_o_reset_out (vtp_u_auto_reset s) var_idle) true) (Bool.eqb (vtp_i_full_rst i) true)); vfx_i_valid_in := (vi3_o_valid_out (vtp_u_integration_3 s) vi3_idle) |}.
Definition vtp_p_fix_0xff2 (s : vtp_st) (i : vtp_in) : vf2_in :=
  {| vf2_i_data_in := (vfx_o_data_out (vtp_u_fix_0xff s) vfx_idle); vf2_i_data_in_ctr := (vfx_o_data_out_ctr (vtp_u_fix_0xff s) vfx_idle); vf2_i_end_in := (vfx_o_end_out (vtp_u_fix_0xff s) vfx_idle); vf2_i_i_busy := (vmk_o_o_busy (vtp_u_markers s) {| vmk_i_data_in := 0; vmk_i_end_in := false; vmk_i_force_end_in := (vi3_o_fend_out (vtp_u_integration_3 s) vi3_idle); vmk_i_i_busy := (vtp_i_busy_in i); vmk_i_rst := false; vmk_i_valid_in := false |}); vf2_i_rst := (orb (Bool.eqb (var_o_reset_out (vtp_u_auto_reset s) var_idle) true) (Bool.eqb (vtp_i_full_rst i) true)); vf2_i_valid_in := (vfx_o_valid_out (vtp_u_fix_0xff s) vfx_idle) |}.
Definition vtp_p_integration_3 (s : vtp_st) (i : vtp_in) : vi3_in :=
  {| vi3_i_busy_in := (vfx_o_o_busy (vtp_u_fix_0xff s) vfx_idle); vi3_i_full_rst := (vtp_i_full_rst i); vi3_i_pixel_in := (vtp_i_pixel_in1 i); vi3_i_pixel_in_1 := (vtp_i_pixel_in2 i); vi3_i_rst := (orb (Bool.eqb (var_o_reset_out (vtp_u_auto_reset s) var_idle) true) (Bool.eqb (vtp_i_full_rst i) true)); vi3_i_valid_in := (vtp_i_valid_in i) |}.
Definition vtp_p_markers (s : vtp_st) (i : vtp_in) : vmk_in :=
  {| vmk_i_data_in := (vf2_o_data_out (vtp_u_fix_0xff2 s) vf2_idle); vmk_i_end_in := (vf2_o_end_out (vtp_u_fix_0xff2 s) vf2_idle); vmk_i_force_end_in := (vi3_o_fend_out (vtp_u_integration_3 s) vi3_idle); vmk_i_i_busy := (vtp_i_busy_in i); vmk_i_rst := (orb (Bool.eqb (var_o_reset_out (vtp_u_auto_reset s) var_idle) true) (Bool.eqb (vtp_i_full_rst i) true)); vmk_i_valid_in := (vf2_o_valid_out (vtp_u_fix_0xff2 s) vf2_idle) |}.
Definition vtp_step (s : vtp_st) (i : vtp_in) : vtp_st := {| vtp_u_auto_reset := var_step (vtp_u_auto_reset s) (vtp_p_auto_reset s i); vtp_u_fix_0xff := vfx_step (vtp_u_fix_0xff s) (vtp_p_fix_0xff s i); vtp_u_fix_0xff2 := vf2_step (vtp_u_fix_0xff2 s) (vtp_p_fix_0xff2 s i); vtp_u_integration_3 := vi3_step (vtp_u_integration_3 s) (vtp_p_integration_3 s i); vtp_u_markers := vmk_step (vtp_u_markers s) (vtp_p_markers s i) |}.
Definition vtp_o_data_out (s : vtp_st) (i : vtp_in) : Z :=
  (vmk_o_data_out (vtp_u_markers s) {| vmk_i_data_in := (vf2_o_data_out (vtp_u_fix_0xff2 s) vf2_idle); vmk_i_end_in := false; vmk_i_force_end_in := (vi3_o_fend_out (vtp_u_integration_3 s) vi3_idle); vmk_i_i_busy := (vtp_i_busy_in i); vmk_i_rst := false; vmk_i_valid_in := false |}).
Definition vtp_o_end_out (s : vtp_st) (i : vtp_in) : bool :=
  (vmk_o_end_out (vtp_u_markers s) {| vmk_i_data_in := 0; vmk_i_end_in := false; vmk_i_force_end_in := false; vmk_i_i_busy := (vtp_i_busy_in i); vmk_i_rst := false; vmk_i_valid_in := false |}).
Definition vtp_o_nready (s : vtp_st) (i : vtp_in) : bool :=
  (vi3_o_nready (vtp_u_integration_3 s) vi3_idle).
Definition vtp_o_valid_out (s : vtp_st) (i : vtp_in) : bool :=
  (vmk_o_valid_out (vtp_u_markers s) {| vmk_i_data_in := 0; vmk_i_end_in := false; vmk_i_force_end_in := (vi3_o_fend_out (vtp_u_integration_3 s) vi3_idle); vmk_i_i_busy := (vtp_i_busy_in i); vmk_i_rst := false; vmk_i_valid_in := (vf2_o_valid_out (vtp_u_fix_0xff2 s) vf2_idle) |}).

