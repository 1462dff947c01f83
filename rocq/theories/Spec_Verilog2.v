(* SPECIFICATION for C90, continued: pins and clocked machines of b16_b64.v, b16_b40.v, b64_b32_2.v, axihp_writer.v, axihp_reader.v, axi_lite.v. *)
From Verif Require Import Bits V_Gen2 M_Width M_Lvds M_AxiHP M_AxiLite M_Bridge Spec_Verilog.
Ltac Zify.zify_post_hook ::= idtac.

Definition vb6_read (i : vb6_in) : pk_in := {| pi_valid := vb6_i_valid_in i; pi_data := vb6_i_data_in i; pi_end := vb6_i_end_in i; pi_busy := vb6_i_i_busy i |}.
Definition vb6_pins s i := (vb6_o_valid_out s i, vb6_o_data_out s i, vb6_o_end_out s i, vb6_o_o_busy s i).
Definition p64_pins (m : p64_st) (_ : vb6_in) := (p64_valid m, p64_data m, p64_end m, p64_busy m).
Definition p64_clock := clocked vb6_i_rst p64_init (fun m i => p64_step m (vb6_read i)).

Definition vb4_read (i : vb4_in) : pk_in := {| pi_valid := vb4_i_valid_in i; pi_data := vb4_i_data_in i; pi_end := false; pi_busy := vb4_i_i_busy i |}.
Definition vb4_pins s i := (vb4_o_valid_out s i, vb4_o_data_out s i, vb4_o_o_busy s i).
Definition p40_pins (m : p40_st) (_ : vb4_in) := (p40_valid m, p40_data m, p40_busy m).
(* b16_b40.py has two clock domains with one clock: rst resets the state machine (domain sync), full_rst all other registers (domain full) *)
Definition p40_full_reset (m : p40_st) : p40_st :=
  {| p40_fsm_st := p40_fsm_st m; p40_b1 := tri0; p40_v1 := false; p40_b2 := tri0; p40_v2 := false; p40_chs := false; p40_temp := 0; p40_valid := false; p40_busy := false |}.
Definition p40_clock (m : p40_st) (i : vb4_in) : p40_st :=
  let n := p40_step m (vb4_read i) in let n := if vb4_i_rst i then p40_fsm_reset n else n in if vb4_i_full_rst i then p40_full_reset n else n.

Definition vb2_read (i : vb2_in) : pk_in := {| pi_valid := vb2_i_valid_in i; pi_data := vb2_i_data_in i; pi_end := false; pi_busy := vb2_i_i_busy i |}.
Definition vb2_pins s i := (vb2_o_valid_out s i, vb2_o_data_out s i, vb2_o_o_busy s i).
Definition s24_pins (m : s24_st) (_ : vb2_in) := (s24_valid m, s24_data m, s24_busy m).
Definition s24_clock := clocked vb2_i_full_rst s24_init (fun m i => s24_step m (vb2_read i)).

(* axihp_writer: address channel (constant signals included), data channel, response channel, what the design sees *)
Definition vhw_read (i : vhw_in) : hw_in :=
  {| hwi_enable := vhw_i_enable i; hwi_addr_empty := vhw_i_addr_empty i; hwi_data_empty := vhw_i_data_empty i;
     hwi_awready := vhw_i_m_axi_wi__awready i; hwi_wready := vhw_i_m_axi_wi__wready i; hwi_bvalid := vhw_i_m_axi_wi__bvalid i; hwi_bresp := vhw_i_m_axi_wi__bresp i |}.
Definition vhw_pins s i :=
  ((vhw_o_m_axi_wo__awvalid s i, vhw_o_m_axi_wo__awaddr s i, vhw_o_m_axi_wo__awlen s i, vhw_o_m_axi_wo__awsize s i, vhw_o_m_axi_wo__awburst s i, vhw_o_m_axi_wo__awid s i, vhw_o_m_axi_wo__awprot s i),
   (vhw_o_m_axi_wo__wvalid s i, vhw_o_m_axi_wo__wlast s i, vhw_o_m_axi_wo__wdata s i, vhw_o_m_axi_wo__wstrb s i, vhw_o_m_axi_wo__wid s i), vhw_o_m_axi_wo__bready s i,
   (vhw_o_addr_enable s i, vhw_o_data_enable s i, vhw_o_inactive s i, vhw_o_writer_active s i, vhw_o_writer_unconf s i, vhw_o_writer_error s i)).
Definition hw_pins (m : hw_st) (i : vhw_in) :=
  ((hw_awvalid m, vhw_i_addr_in i, hw_awlen 16, 3, 1, 0, 0), (hw_wvalid m, hw_wlast m, vhw_i_data_in i, vhw_i_write_strobe i, 0), hw_bready m,
   (hw_addr_en m (vhw_read i), hw_data_en m (vhw_read i), hw_inactive m, hw_active m, hw_unconf m, hw_error m (vhw_read i))).
Definition hw_clock := clocked vhw_i_rst hw_init (fun m i => hw_step 16 m (vhw_read i)).

Definition vhr_read (i : vhr_in) : hr_in :=
  {| hri_enable := vhr_i_enable i; hri_addr_empty := vhr_i_addr_empty i; hri_data_full := vhr_i_data_full i; hri_arready := vhr_i_m_axi_ri__arready i;
     hri_rvalid := vhr_i_m_axi_ri__rvalid i; hri_rlast := vhr_i_m_axi_ri__rlast i; hri_rdata := vhr_i_m_axi_ri__rdata i; hri_rresp := vhr_i_m_axi_ri__rresp i |}.
Definition vhr_pins s i :=
  ((vhr_o_m_axi_ro__arvalid s i, vhr_o_m_axi_ro__araddr s i, vhr_o_m_axi_ro__arlen s i, vhr_o_m_axi_ro__arsize s i, vhr_o_m_axi_ro__arburst s i, vhr_o_m_axi_ro__arid s i, vhr_o_m_axi_ro__arprot s i),
   vhr_o_m_axi_ro__rready s i, (vhr_o_addr_enable s i, vhr_o_data_enable s i, vhr_o_data_out s i, vhr_o_inactive s i, vhr_o_reader_active s i, vhr_o_reader_error s i)).
Definition hr_pins (m : hr_st) (i : vhr_in) :=
  ((hr_arvalid m, vhr_i_addr_in i, 15, 3, 1, 0, 0), hr_rready m,
   (hr_addr_en m (vhr_read i), hr_data_en m (vhr_read i), vhr_i_m_axi_ri__rdata i, hr_inactive m, hr_active m, hr_error m (vhr_read i))).
Definition hr_clock := clocked vhr_i_rst hr_init (fun m i => hr_step m (vhr_read i)).

(* axi_lite: what the slave sees, and what the processor sees *)
Definition val_cpu (i : val_in) : zb_in :=
  {| zb_bus := {| ai_arvalid := val_i_s_axi_ri__arvalid i; ai_araddr := val_i_s_axi_ri__araddr i; ai_rready := val_i_s_axi_ri__rready i; ai_awvalid := val_i_s_axi_wi__awvalid i;
       ai_awaddr := val_i_s_axi_wi__awaddr i; ai_wvalid := val_i_s_axi_wi__wvalid i; ai_wdata := val_i_s_axi_wi__wdata i; ai_wstrb := val_i_s_axi_wi__wstrb i; ai_bready := val_i_s_axi_wi__bready i |};
     zb_arid := val_i_s_axi_ri__arid i; zb_awid := val_i_s_axi_wi__awid i; zb_arlen := 0; zb_awlen := 0; zb_wid := 0; zb_wlast := true |}.
Definition val_slave (i : val_in) : ax_out :=
  {| ao_arready := val_i_m_axi_ri__arready i; ao_rvalid := val_i_m_axi_ri__rvalid i; ao_rdata := val_i_m_axi_ri__rdata i; ao_rresp := val_i_m_axi_ri__rresp i;
     ao_awready := val_i_m_axi_wi__awready i; ao_wready := val_i_m_axi_wi__wready i; ao_bvalid := val_i_m_axi_wi__bvalid i; ao_bresp := val_i_m_axi_wi__bresp i |}.
Definition val_pins s i :=
  ({| ai_arvalid := val_o_m_axi_ro__arvalid s i; ai_araddr := val_o_m_axi_ro__araddr s i; ai_rready := val_o_m_axi_ro__rready s i; ai_awvalid := val_o_m_axi_wo__awvalid s i;
      ai_awaddr := val_o_m_axi_wo__awaddr s i; ai_wvalid := val_o_m_axi_wo__wvalid s i; ai_wdata := val_o_m_axi_wo__wdata s i; ai_wstrb := val_o_m_axi_wo__wstrb s i; ai_bready := val_o_m_axi_wo__bready s i |},
   {| zo_bus := {| ao_arready := val_o_s_axi_ro__arready s i; ao_rvalid := val_o_s_axi_ro__rvalid s i; ao_rdata := val_o_s_axi_ro__rdata s i; ao_rresp := val_o_s_axi_ro__rresp s i;
        ao_awready := val_o_s_axi_wo__awready s i; ao_wready := val_o_s_axi_wo__wready s i; ao_bvalid := val_o_s_axi_wo__bvalid s i; ao_bresp := val_o_s_axi_wo__bresp s i |};
      zo_rid := val_o_s_axi_ro__rid s i; zo_bid := val_o_s_axi_wo__bid s i; zo_rlast := val_o_s_axi_ro__rlast s i |}).
Definition zb_pins (m : zb_st) (i : val_in) := (zb_down (val_cpu i), zb_up m (val_slave i)).
Definition zb_clock := clocked val_i_rst zb_init (fun m i => zb_step m (val_cpu i)).
