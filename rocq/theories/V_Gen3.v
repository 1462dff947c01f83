(* GENERATED by tools/mkvgen3.py: do not edit.
   verilog_src/core_axi_lite.v, translated (tools/verilog2coq.py); conventions as in V_Gen.v. *)
From Verif Require Import Bits.
Local Open Scope bool_scope.

(* /repo/verilog_src/core_axi_lite.v, lines 5-196: module debug_module *)
Record vdg_st := { vdg_wsignal_7 : Z; vdg_wsignal_6 : Z; vdg_wsignal_5 : Z; vdg_wsignal_4 : Z; vdg_wsignal_3 : Z; vdg_wsignal_2 : Z; vdg_wsignal_1 : Z; vdg_wsignal : Z }.
Record vdg_in := { vdg_i_full_rst : bool; vdg_i_regs_en : Z }.
Definition vdg_idle : vdg_in := {| vdg_i_full_rst := false; vdg_i_regs_en := 0 |}.
(* widths: wsignal_7 32, wsignal_6 32, wsignal_5 32, wsignal_4 32, wsignal_3 32, wsignal_2 32, wsignal_1 32, wsignal 32, full_rst 1, regs_en 8 *)
Definition vdg_init : vdg_st := {| vdg_wsignal_7 := 0; vdg_wsignal_6 := 0; vdg_wsignal_5 := 0; vdg_wsignal_4 := 0; vdg_wsignal_3 := 0; vdg_wsignal_2 := 0; vdg_wsignal_1 := 0; vdg_wsignal := 0 |}.
Definition vdg_n_wsignal_7 (s : vdg_st) (i : vdg_in) : Z :=
  (let x1 := (if (Z.testbit (vdg_i_regs_en i) 7) then (slice 0 32 (((vdg_wsignal_7 s) + 1) mod 2 ^ 33)) else (vdg_wsignal_7 s)) in (if (vdg_i_full_rst i) then 0 else x1)).
Definition vdg_n_wsignal_6 (s : vdg_st) (i : vdg_in) : Z :=
  (let x3 := (if (Z.testbit (vdg_i_regs_en i) 6) then (slice 0 32 (((vdg_wsignal_6 s) + 1) mod 2 ^ 33)) else (vdg_wsignal_6 s)) in (if (vdg_i_full_rst i) then 0 else x3)).
Definition vdg_n_wsignal_5 (s : vdg_st) (i : vdg_in) : Z :=
  (let x5 := (if (Z.testbit (vdg_i_regs_en i) 5) then (slice 0 32 (((vdg_wsignal_5 s) + 1) mod 2 ^ 33)) else (vdg_wsignal_5 s)) in (if (vdg_i_full_rst i) then 0 else x5)).
Definition vdg_n_wsignal_4 (s : vdg_st) (i : vdg_in) : Z :=
  (let x7 := (if (Z.testbit (vdg_i_regs_en i) 4) then (slice 0 32 (((vdg_wsignal_4 s) + 1) mod 2 ^ 33)) else (vdg_wsignal_4 s)) in (if (vdg_i_full_rst i) then 0 else x7)).
Definition vdg_n_wsignal_3 (s : vdg_st) (i : vdg_in) : Z :=
  (let x9 := (if (Z.testbit (vdg_i_regs_en i) 3) then (slice 0 32 (((vdg_wsignal_3 s) + 1) mod 2 ^ 33)) else (vdg_wsignal_3 s)) in (if (vdg_i_full_rst i) then 0 else x9)).
Definition vdg_n_wsignal_2 (s : vdg_st) (i : vdg_in) : Z :=
  (let x11 := (if (Z.testbit (vdg_i_regs_en i) 2) then (slice 0 32 (((vdg_wsignal_2 s) + 1) mod 2 ^ 33)) else (vdg_wsignal_2 s)) in (if (vdg_i_full_rst i) then 0 else x11)).
Definition vdg_n_wsignal_1 (s : vdg_st) (i : vdg_in) : Z :=
  (let x13 := (if (Z.testbit (vdg_i_regs_en i) 1) then (slice 0 32 (((vdg_wsignal_1 s) + 1) mod 2 ^ 33)) else (vdg_wsignal_1 s)) in (if (vdg_i_full_rst i) then 0 else x13)).
Definition vdg_n_wsignal (s : vdg_st) (i : vdg_in) : Z :=
  (let x15 := (if (Z.testbit (vdg_i_regs_en i) 0) then (slice 0 32 (((vdg_wsignal s) + 1) mod 2 ^ 33)) else (vdg_wsignal s)) in (if (vdg_i_full_rst i) then 0 else x15)).
Definition vdg_step (s : vdg_st) (i : vdg_in) : vdg_st := {| vdg_wsignal_7 := vdg_n_wsignal_7 s i; vdg_wsignal_6 := vdg_n_wsignal_6 s i; vdg_wsignal_5 := vdg_n_wsignal_5 s i; vdg_wsignal_4 := vdg_n_wsignal_4 s i; vdg_wsignal_3 := vdg_n_wsignal_3 s i; vdg_wsignal_2 := vdg_n_wsignal_2 s i; vdg_wsignal_1 := vdg_n_wsignal_1 s i; vdg_wsignal := vdg_n_wsignal s i |}.
Definition vdg_o_wsignal (s : vdg_st) (i : vdg_in) : Z :=
  (vdg_wsignal s).
Definition vdg_o_wsignal_1 (s : vdg_st) (i : vdg_in) : Z :=
  (vdg_wsignal_1 s).
Definition vdg_o_wsignal_2 (s : vdg_st) (i : vdg_in) : Z :=
  (vdg_wsignal_2 s).
Definition vdg_o_wsignal_3 (s : vdg_st) (i : vdg_in) : Z :=
  (vdg_wsignal_3 s).
Definition vdg_o_wsignal_4 (s : vdg_st) (i : vdg_in) : Z :=
  (vdg_wsignal_4 s).
Definition vdg_o_wsignal_5 (s : vdg_st) (i : vdg_in) : Z :=
  (vdg_wsignal_5 s).
Definition vdg_o_wsignal_6 (s : vdg_st) (i : vdg_in) : Z :=
  (vdg_wsignal_6 s).
Definition vdg_o_wsignal_7 (s : vdg_st) (i : vdg_in) : Z :=
  (vdg_wsignal_7 s).

(* /repo/verilog_src/core_axi_lite.v, lines 201-1246: module top *)
Record vca_st := { vca_allowed_cycles : Z; vca_rdata_v : Z; vca_arready_v : bool; vca_rp_addr : Z; vca_addr_v : Z; vca_fsm_state : Z; vca_bvalid_v : bool; vca_rvalid_v : bool; vca_height_width : Z; vca_bresp_v : Z; vca_wp_en : bool; vca_wp_data : Z; vca_wp_addr : Z; vca_wready_v : bool; vca_awready_v : bool; vca_rresp_v : Z; vca_u_debug_module : vdg_st }.
Record vca_in := { vca_i_debug_en : Z; vca_i_full_rst : bool; vca_i_rp_data : Z; vca_i_rst : bool; vca_i_s_axi_ri__araddr : Z; vca_i_s_axi_ri__arvalid : bool; vca_i_s_axi_ri__rready : bool; vca_i_s_axi_wi__awaddr : Z; vca_i_s_axi_wi__awvalid : bool; vca_i_s_axi_wi__bready : bool; vca_i_s_axi_wi__wdata : Z; vca_i_s_axi_wi__wstrb : Z; vca_i_s_axi_wi__wvalid : bool }.
Definition vca_idle : vca_in := {| vca_i_debug_en := 0; vca_i_full_rst := false; vca_i_rp_data := 0; vca_i_rst := false; vca_i_s_axi_ri__araddr := 0; vca_i_s_axi_ri__arvalid := false; vca_i_s_axi_ri__rready := false; vca_i_s_axi_wi__awaddr := 0; vca_i_s_axi_wi__awvalid := false; vca_i_s_axi_wi__bready := false; vca_i_s_axi_wi__wdata := 0; vca_i_s_axi_wi__wstrb := 0; vca_i_s_axi_wi__wvalid := false |}.
(* widths: allowed_cycles 24, rdata_v 32, arready_v 1, rp_addr 5, addr_v 32, fsm_state 4, bvalid_v 1, rvalid_v 1, height_width 32, bresp_v 2, wp_en 1, wp_data 33, wp_addr 5, wready_v 1, awready_v 1, rresp_v 2, debug_en 8, full_rst 1, rp_data 33, rst 1, s_axi_ri__araddr 32, s_axi_ri__arvalid 1, s_axi_ri__rready 1, s_axi_wi__awaddr 32, s_axi_wi__awvalid 1, s_axi_wi__bready 1, s_axi_wi__wdata 32, s_axi_wi__wstrb 4, s_axi_wi__wvalid 1 *)
Definition vca_init : vca_st := {| vca_allowed_cycles := 0; vca_rdata_v := 0; vca_arready_v := false; vca_rp_addr := 0; vca_addr_v := 0; vca_fsm_state := 0; vca_bvalid_v := false; vca_rvalid_v := false; vca_height_width := 0; vca_bresp_v := 0; vca_wp_en := false; vca_wp_data := 0; vca_wp_addr := 0; vca_wready_v := false; vca_awready_v := false; vca_rresp_v := 0; vca_u_debug_module := vdg_init |}.
Definition vca_n_allowed_cycles (s : vca_st) (i : vca_in) : Z :=
  (let x21 := (if ((vca_fsm_state s) =? 8) then (if (vca_i_s_axi_wi__wvalid i) then (if (andb (Bool.eqb (Z.testbit (vca_addr_v s) 10) true) ((slice 0 6 (vca_addr_v s)) <? 26)) then (vca_allowed_cycles s) else if (Bool.eqb (Z.testbit (vca_addr_v s) 11) true) then (let x15 := (let x9 := (if (Z.testbit (if ((vca_fsm_state s) =? 8) then (if (vca_i_s_axi_wi__wvalid i) then (vca_i_s_axi_wi__wstrb i) else 0) else 0) 0) then (if (Bool.eqb (Z.testbit (vca_addr_v s) 0) false) then (vca_allowed_cycles s) else (slice 8 24 (vca_allowed_cycles s) * 2 ^ 8 + (slice 0 8 (if ((vca_fsm_state s) =? 8) then (if (vca_i_s_axi_wi__wvalid i) then (vca_i_s_axi_wi__wdata i) else 0) else 0)) * 2 ^ 0 + slice 0 0 (vca_allowed_cycles s))) else (vca_allowed_cycles s)) in (if (Z.testbit (if ((vca_fsm_state s) =? 8) then (if (vca_i_s_axi_wi__wvalid i) then (vca_i_s_axi_wi__wstrb i) else 0) else 0) 1) then (if (Bool.eqb (Z.testbit (vca_addr_v s) 0) false) then x9 else (slice 16 24 x9 * 2 ^ 16 + (slice 8 16 (if ((vca_fsm_state s) =? 8) then (if (vca_i_s_axi_wi__wvalid i) then (vca_i_s_axi_wi__wdata i) else 0) else 0)) * 2 ^ 8 + slice 0 8 x9)) else x9)) in (if (Z.testbit (if ((vca_fsm_state s) =? 8) then (if (vca_i_s_axi_wi__wvalid i) then (vca_i_s_axi_wi__wstrb i) else 0) else 0) 2) then (if (Bool.eqb (Z.testbit (vca_addr_v s) 0) false) then x15 else (slice 24 24 x15 * 2 ^ 24 + (slice 16 24 (if ((vca_fsm_state s) =? 8) then (if (vca_i_s_axi_wi__wvalid i) then (vca_i_s_axi_wi__wdata i) else 0) else 0)) * 2 ^ 16 + slice 0 16 x15)) else x15)) else (vca_allowed_cycles s)) else (vca_allowed_cycles s)) else (vca_allowed_cycles s)) in (if (vca_i_full_rst i) then 0 else x21)).
Definition vca_n_rdata_v (s : vca_st) (i : vca_in) : Z :=
  (let x27 := (if ((vca_fsm_state s) =? 5) then (if (andb (Bool.eqb (Z.testbit (vca_addr_v s) 10) true) ((slice 0 6 (vca_addr_v s)) <? 26)) then (if (Bool.eqb (Z.testbit (slice 0 6 (vca_addr_v s)) 0) false) then (slice 0 32 (vca_i_rp_data i)) else (slice 32 64 (vca_i_rp_data i))) else if (Bool.eqb (Z.testbit (vca_addr_v s) 11) true) then (if (Bool.eqb (Z.testbit (vca_addr_v s) 0) false) then (vca_height_width s) else (vca_allowed_cycles s)) else if (Bool.eqb (Z.testbit (vca_addr_v s) 12) true) then (if ((slice 0 3 (vca_addr_v s)) =? 0) then (vdg_o_wsignal (vca_u_debug_module s) vdg_idle) else if ((slice 0 3 (vca_addr_v s)) =? 1) then (vdg_o_wsignal_1 (vca_u_debug_module s) vdg_idle) else if ((slice 0 3 (vca_addr_v s)) =? 2) then (vdg_o_wsignal_2 (vca_u_debug_module s) vdg_idle) else if ((slice 0 3 (vca_addr_v s)) =? 3) then (vdg_o_wsignal_3 (vca_u_debug_module s) vdg_idle) else if ((slice 0 3 (vca_addr_v s)) =? 4) then (vdg_o_wsignal_4 (vca_u_debug_module s) vdg_idle) else if ((slice 0 3 (vca_addr_v s)) =? 5) then (vdg_o_wsignal_5 (vca_u_debug_module s) vdg_idle) else if ((slice 0 3 (vca_addr_v s)) =? 6) then (vdg_o_wsignal_6 (vca_u_debug_module s) vdg_idle) else (vdg_o_wsignal_7 (vca_u_debug_module s) vdg_idle)) else (vca_rdata_v s)) else (vca_rdata_v s)) in (if (vca_i_full_rst i) then 0 else x27)).
Definition vca_n_arready_v (s : vca_st) (i : vca_in) : bool :=
  (let x29 := (if ((vca_fsm_state s) =? 1) then true else if ((vca_fsm_state s) =? 3) then false else (vca_arready_v s)) in (if (vca_i_full_rst i) then false else x29)).
Definition vca_n_rp_addr (s : vca_st) (i : vca_in) : Z :=
  (let x31 := (if ((vca_fsm_state s) =? 1) then (slice 0 5 ((vca_i_s_axi_ri__araddr i) / 2 ^ 3)) else if ((vca_fsm_state s) =? 2) then (slice 0 5 ((vca_i_s_axi_wi__awaddr i) / 2 ^ 3)) else (vca_rp_addr s)) in (if (vca_i_full_rst i) then 0 else x31)).
Definition vca_n_addr_v (s : vca_st) (i : vca_in) : Z :=
  (let x33 := (if ((vca_fsm_state s) =? 1) then ((vca_i_s_axi_ri__araddr i) / 2 ^ 2) else if ((vca_fsm_state s) =? 2) then ((vca_i_s_axi_wi__awaddr i) / 2 ^ 2) else (vca_addr_v s)) in (if (vca_i_full_rst i) then 0 else x33)).
Definition vca_n_fsm_state (s : vca_st) (i : vca_in) : Z :=
  (let x39 := (if ((vca_fsm_state s) =? 0) then (if (vca_i_s_axi_ri__arvalid i) then 1 else if (vca_i_s_axi_wi__awvalid i) then 2 else (vca_fsm_state s)) else if ((vca_fsm_state s) =? 1) then 3 else if ((vca_fsm_state s) =? 3) then 4 else if ((vca_fsm_state s) =? 4) then 5 else if ((vca_fsm_state s) =? 5) then (if (vca_i_s_axi_ri__rready i) then 0 else (vca_fsm_state s)) else if ((vca_fsm_state s) =? 2) then 6 else if ((vca_fsm_state s) =? 6) then 7 else if ((vca_fsm_state s) =? 7) then 8 else if ((vca_fsm_state s) =? 8) then (if (vca_i_s_axi_wi__wvalid i) then 9 else (vca_fsm_state s)) else if ((vca_fsm_state s) =? 9) then (if (vca_i_s_axi_wi__bready i) then 0 else (vca_fsm_state s)) else (vca_fsm_state s)) in (if (vca_i_rst i) then 0 else x39)).
Definition vca_n_bvalid_v (s : vca_st) (i : vca_in) : bool :=
  (let x42 := (if ((vca_fsm_state s) =? 0) then false else if ((vca_fsm_state s) =? 9) then (if (vca_i_s_axi_wi__bready i) then true else (vca_bvalid_v s)) else (vca_bvalid_v s)) in (if (vca_i_full_rst i) then false else x42)).
Definition vca_n_rvalid_v (s : vca_st) (i : vca_in) : bool :=
  (let x45 := (if ((vca_fsm_state s) =? 0) then false else if ((vca_fsm_state s) =? 5) then (if (vca_i_s_axi_ri__rready i) then true else (vca_rvalid_v s)) else (vca_rvalid_v s)) in (if (vca_i_full_rst i) then false else x45)).
Definition vca_n_height_width (s : vca_st) (i : vca_in) : Z :=
  (let x73 := (if ((vca_fsm_state s) =? 8) then (if (vca_i_s_axi_wi__wvalid i) then (if (andb (Bool.eqb (Z.testbit (vca_addr_v s) 10) true) ((slice 0 6 (vca_addr_v s)) <? 26)) then (vca_height_width s) else if (Bool.eqb (Z.testbit (vca_addr_v s) 11) true) then (let x67 := (let x61 := (let x55 := (if (Z.testbit (if ((vca_fsm_state s) =? 8) then (if (vca_i_s_axi_wi__wvalid i) then (vca_i_s_axi_wi__wstrb i) else 0) else 0) 0) then (if (Bool.eqb (Z.testbit (vca_addr_v s) 0) false) then (slice 8 32 (vca_height_width s) * 2 ^ 8 + (slice 0 8 (if ((vca_fsm_state s) =? 8) then (if (vca_i_s_axi_wi__wvalid i) then (vca_i_s_axi_wi__wdata i) else 0) else 0)) * 2 ^ 0 + slice 0 0 (vca_height_width s)) else (vca_height_width s)) else (vca_height_width s)) in (if (Z.testbit (if ((vca_fsm_state s) =? 8) then (if (vca_i_s_axi_wi__wvalid i) then (vca_i_s_axi_wi__wstrb i) else 0) else 0) 1) then (if (Bool.eqb (Z.testbit (vca_addr_v s) 0) false) then (slice 16 32 x55 * 2 ^ 16 + (slice 8 16 (if ((vca_fsm_state s) =? 8) then (if (vca_i_s_axi_wi__wvalid i) then (vca_i_s_axi_wi__wdata i) else 0) else 0)) * 2 ^ 8 + slice 0 8 x55) else x55) else x55)) in (if (Z.testbit (if ((vca_fsm_state s) =? 8) then (if (vca_i_s_axi_wi__wvalid i) then (vca_i_s_axi_wi__wstrb i) else 0) else 0) 2) then (if (Bool.eqb (Z.testbit (vca_addr_v s) 0) false) then (slice 24 32 x61 * 2 ^ 24 + (slice 16 24 (if ((vca_fsm_state s) =? 8) then (if (vca_i_s_axi_wi__wvalid i) then (vca_i_s_axi_wi__wdata i) else 0) else 0)) * 2 ^ 16 + slice 0 16 x61) else x61) else x61)) in (if (Z.testbit (if ((vca_fsm_state s) =? 8) then (if (vca_i_s_axi_wi__wvalid i) then (vca_i_s_axi_wi__wstrb i) else 0) else 0) 3) then (if (Bool.eqb (Z.testbit (vca_addr_v s) 0) false) then (slice 32 32 x67 * 2 ^ 32 + (slice 24 32 (if ((vca_fsm_state s) =? 8) then (if (vca_i_s_axi_wi__wvalid i) then (vca_i_s_axi_wi__wdata i) else 0) else 0)) * 2 ^ 24 + slice 0 24 x67) else x67) else x67)) else (vca_height_width s)) else (vca_height_width s)) else (vca_height_width s)) in (if (vca_i_full_rst i) then 0 else x73)).
Definition vca_n_bresp_v (s : vca_st) (i : vca_in) : Z :=
  (let x77 := (if ((vca_fsm_state s) =? 8) then (if (vca_i_s_axi_wi__wvalid i) then (if (andb (Bool.eqb (Z.testbit (vca_addr_v s) 10) true) ((slice 0 6 (vca_addr_v s)) <? 26)) then 0 else if (Bool.eqb (Z.testbit (vca_addr_v s) 11) true) then 0 else if (Bool.eqb (Z.testbit (vca_addr_v s) 12) true) then 2 else 3) else (vca_bresp_v s)) else (vca_bresp_v s)) in (if (vca_i_full_rst i) then 0 else x77)).
Definition vca_n_wp_en (s : vca_st) (i : vca_in) : bool :=
  (let x81 := (if ((vca_fsm_state s) =? 8) then (if (vca_i_s_axi_wi__wvalid i) then (if (andb (Bool.eqb (Z.testbit (vca_addr_v s) 10) true) ((slice 0 6 (vca_addr_v s)) <? 26)) then true else (vca_wp_en s)) else (vca_wp_en s)) else if ((vca_fsm_state s) =? 9) then false else (vca_wp_en s)) in (if (vca_i_full_rst i) then false else x81)).
Definition vca_n_wp_data (s : vca_st) (i : vca_in) : Z :=
  (let x121 := (if ((vca_fsm_state s) =? 8) then (if (vca_i_s_axi_wi__wvalid i) then (if (andb (Bool.eqb (Z.testbit (vca_addr_v s) 10) true) ((slice 0 6 (vca_addr_v s)) <? 26)) then (slice 0 33 (if ((vca_fsm_state s) =? 8) then (if (vca_i_s_axi_wi__wvalid i) then (if (andb (Bool.eqb (Z.testbit (vca_addr_v s) 10) true) ((slice 0 6 (vca_addr_v s)) <? 26)) then (if (Bool.eqb (Z.testbit (slice 0 6 (vca_addr_v s)) 0) false) then (let x104 := (let x99 := (let x94 := (if (Z.testbit (if ((vca_fsm_state s) =? 8) then (if (vca_i_s_axi_wi__wvalid i) then (vca_i_s_axi_wi__wstrb i) else 0) else 0) 0) then (slice 8 64 0 * 2 ^ 8 + (slice 0 8 (if ((vca_fsm_state s) =? 8) then (if (vca_i_s_axi_wi__wvalid i) then (vca_i_s_axi_wi__wdata i) else 0) else 0)) * 2 ^ 0 + slice 0 0 0) else (slice 8 64 0 * 2 ^ 8 + (slice 0 8 (vca_i_rp_data i)) * 2 ^ 0 + slice 0 0 0)) in (if (Z.testbit (if ((vca_fsm_state s) =? 8) then (if (vca_i_s_axi_wi__wvalid i) then (vca_i_s_axi_wi__wstrb i) else 0) else 0) 1) then (slice 16 64 x94 * 2 ^ 16 + (slice 8 16 (if ((vca_fsm_state s) =? 8) then (if (vca_i_s_axi_wi__wvalid i) then (vca_i_s_axi_wi__wdata i) else 0) else 0)) * 2 ^ 8 + slice 0 8 x94) else (slice 16 64 x94 * 2 ^ 16 + (slice 8 16 (vca_i_rp_data i)) * 2 ^ 8 + slice 0 8 x94))) in (if (Z.testbit (if ((vca_fsm_state s) =? 8) then (if (vca_i_s_axi_wi__wvalid i) then (vca_i_s_axi_wi__wstrb i) else 0) else 0) 2) then (slice 24 64 x99 * 2 ^ 24 + (slice 16 24 (if ((vca_fsm_state s) =? 8) then (if (vca_i_s_axi_wi__wvalid i) then (vca_i_s_axi_wi__wdata i) else 0) else 0)) * 2 ^ 16 + slice 0 16 x99) else (slice 24 64 x99 * 2 ^ 24 + (slice 16 24 (vca_i_rp_data i)) * 2 ^ 16 + slice 0 16 x99))) in (if (Z.testbit (if ((vca_fsm_state s) =? 8) then (if (vca_i_s_axi_wi__wvalid i) then (vca_i_s_axi_wi__wstrb i) else 0) else 0) 3) then (slice 32 64 x104 * 2 ^ 32 + (slice 24 32 (if ((vca_fsm_state s) =? 8) then (if (vca_i_s_axi_wi__wvalid i) then (vca_i_s_axi_wi__wdata i) else 0) else 0)) * 2 ^ 24 + slice 0 24 x104) else (slice 32 64 x104 * 2 ^ 32 + (slice 24 32 (vca_i_rp_data i)) * 2 ^ 24 + slice 0 24 x104))) else (let x118 := (let x115 := (let x112 := (if (Z.testbit (if ((vca_fsm_state s) =? 8) then (if (vca_i_s_axi_wi__wvalid i) then (vca_i_s_axi_wi__wstrb i) else 0) else 0) 0) then (slice 40 64 0 * 2 ^ 40 + 0 * 2 ^ 32 + slice 0 32 0) else (slice 40 64 0 * 2 ^ 40 + (slice 32 40 (vca_i_rp_data i)) * 2 ^ 32 + slice 0 32 0)) in (if (Z.testbit (if ((vca_fsm_state s) =? 8) then (if (vca_i_s_axi_wi__wvalid i) then (vca_i_s_axi_wi__wstrb i) else 0) else 0) 1) then (slice 48 64 x112 * 2 ^ 48 + 0 * 2 ^ 40 + slice 0 40 x112) else (slice 48 64 x112 * 2 ^ 48 + (slice 40 48 (vca_i_rp_data i)) * 2 ^ 40 + slice 0 40 x112))) in (if (Z.testbit (if ((vca_fsm_state s) =? 8) then (if (vca_i_s_axi_wi__wvalid i) then (vca_i_s_axi_wi__wstrb i) else 0) else 0) 2) then (slice 56 64 x115 * 2 ^ 56 + 0 * 2 ^ 48 + slice 0 48 x115) else (slice 56 64 x115 * 2 ^ 56 + (slice 48 56 (vca_i_rp_data i)) * 2 ^ 48 + slice 0 48 x115))) in (if (Z.testbit (if ((vca_fsm_state s) =? 8) then (if (vca_i_s_axi_wi__wvalid i) then (vca_i_s_axi_wi__wstrb i) else 0) else 0) 3) then (slice 64 64 x118 * 2 ^ 64 + 0 * 2 ^ 56 + slice 0 56 x118) else (slice 64 64 x118 * 2 ^ 64 + (slice 56 64 (vca_i_rp_data i)) * 2 ^ 56 + slice 0 56 x118)))) else 0) else 0) else 0)) else (vca_wp_data s)) else (vca_wp_data s)) else (vca_wp_data s)) in (if (vca_i_full_rst i) then 0 else x121)).
Definition vca_n_wp_addr (s : vca_st) (i : vca_in) : Z :=
  (let x125 := (if ((vca_fsm_state s) =? 8) then (if (vca_i_s_axi_wi__wvalid i) then (if (andb (Bool.eqb (Z.testbit (vca_addr_v s) 10) true) ((slice 0 6 (vca_addr_v s)) <? 26)) then (slice 0 5 ((slice 0 6 (vca_addr_v s)) / 2 ^ (b2z true))) else (vca_wp_addr s)) else (vca_wp_addr s)) else (vca_wp_addr s)) in (if (vca_i_full_rst i) then 0 else x125)).
Definition vca_n_wready_v (s : vca_st) (i : vca_in) : bool :=
  (let x127 := (if ((vca_fsm_state s) =? 8) then true else if ((vca_fsm_state s) =? 9) then false else (vca_wready_v s)) in (if (vca_i_full_rst i) then false else x127)).
Definition vca_n_awready_v (s : vca_st) (i : vca_in) : bool :=
  (let x129 := (if ((vca_fsm_state s) =? 2) then true else if ((vca_fsm_state s) =? 6) then false else (vca_awready_v s)) in (if (vca_i_full_rst i) then false else x129)).
Definition vca_n_rresp_v (s : vca_st) (i : vca_in) : Z :=
  (let x133 := (if ((vca_fsm_state s) =? 5) then (if (andb (Bool.eqb (Z.testbit (vca_addr_v s) 10) true) ((slice 0 6 (vca_addr_v s)) <? 26)) then 0 else if (Bool.eqb (Z.testbit (vca_addr_v s) 11) true) then (if (Bool.eqb (Z.testbit (vca_addr_v s) 0) false) then 0 else 0) else if (Bool.eqb (Z.testbit (vca_addr_v s) 12) true) then 0 else 3) else (vca_rresp_v s)) in (if (vca_i_full_rst i) then 0 else x133)).
Definition vca_p_debug_module (s : vca_st) (i : vca_in) : vdg_in :=
  {| vdg_i_full_rst := (vca_i_full_rst i); vdg_i_regs_en := (vca_i_debug_en i) |}.
Definition vca_step (s : vca_st) (i : vca_in) : vca_st := {| vca_allowed_cycles := vca_n_allowed_cycles s i; vca_rdata_v := vca_n_rdata_v s i; vca_arready_v := vca_n_arready_v s i; vca_rp_addr := vca_n_rp_addr s i; vca_addr_v := vca_n_addr_v s i; vca_fsm_state := vca_n_fsm_state s i; vca_bvalid_v := vca_n_bvalid_v s i; vca_rvalid_v := vca_n_rvalid_v s i; vca_height_width := vca_n_height_width s i; vca_bresp_v := vca_n_bresp_v s i; vca_wp_en := vca_n_wp_en s i; vca_wp_data := vca_n_wp_data s i; vca_wp_addr := vca_n_wp_addr s i; vca_wready_v := vca_n_wready_v s i; vca_awready_v := vca_n_awready_v s i; vca_rresp_v := vca_n_rresp_v s i; vca_u_debug_module := vdg_step (vca_u_debug_module s) (vca_p_debug_module s i) |}.
Definition vca_o_allowed_cycles (s : vca_st) (i : vca_in) : Z :=
  (vca_allowed_cycles s).
Definition vca_o_height (s : vca_st) (i : vca_in) : Z :=
  (slice 0 16 (vca_height_width s)).
Definition vca_o_rp_addr (s : vca_st) (i : vca_in) : Z :=
  (vca_rp_addr s).
Definition vca_o_s_axi_ro__arready (s : vca_st) (i : vca_in) : bool :=
  (vca_arready_v s).
Definition vca_o_s_axi_ro__rdata (s : vca_st) (i : vca_in) : Z :=
  (vca_rdata_v s).
Definition vca_o_s_axi_ro__rresp (s : vca_st) (i : vca_in) : Z :=
  (vca_rresp_v s).
Definition vca_o_s_axi_ro__rvalid (s : vca_st) (i : vca_in) : bool :=
  (vca_rvalid_v s).
Definition vca_o_s_axi_wo__awready (s : vca_st) (i : vca_in) : bool :=
  (vca_awready_v s).
Definition vca_o_s_axi_wo__bresp (s : vca_st) (i : vca_in) : Z :=
  (vca_bresp_v s).
Definition vca_o_s_axi_wo__bvalid (s : vca_st) (i : vca_in) : bool :=
  (vca_bvalid_v s).
Definition vca_o_s_axi_wo__wready (s : vca_st) (i : vca_in) : bool :=
  (vca_wready_v s).
Definition vca_o_width (s : vca_st) (i : vca_in) : Z :=
  (slice 16 32 (vca_height_width s)).
Definition vca_o_wp_addr (s : vca_st) (i : vca_in) : Z :=
  (vca_wp_addr s).
Definition vca_o_wp_data (s : vca_st) (i : vca_in) : Z :=
  (vca_wp_data s).
Definition vca_o_wp_en (s : vca_st) (i : vca_in) : bool :=
  (vca_wp_en s).

