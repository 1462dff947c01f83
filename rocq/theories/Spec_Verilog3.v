(* SPECIFICATION for C90, continued: pins and clocked machine of dma_axi_lite.v. *)
From Verif Require Import Bits V_Gen2 M_AxiLite Spec_Verilog.
Ltac Zify.zify_post_hook ::= idtac.

(* the bus of the processor, the nine status words, what the processor sees, and the three registers the design sees *)
Definition vdm_bus (i : vdm_in) : ax_in :=
  {| ai_arvalid := vdm_i_s_axi_ri___arvalid i; ai_araddr := vdm_i_s_axi_ri___araddr i; ai_rready := vdm_i_s_axi_ri___rready i; ai_awvalid := vdm_i_s_axi_wi___awvalid i;
     ai_awaddr := vdm_i_s_axi_wi___awaddr i; ai_wvalid := vdm_i_s_axi_wi___wvalid i; ai_wdata := vdm_i_s_axi_wi___wdata i; ai_wstrb := vdm_i_s_axi_wi___wstrb i; ai_bready := vdm_i_s_axi_wi___bready i |}.
Definition vdm_ins (i : vdm_in) : list Z :=
  [vdm_i_in1 i; vdm_i_in2 i; vdm_i_in3 i; vdm_i_in4 i; vdm_i_in5 i; vdm_i_in6 i; vdm_i_in7 i; vdm_i_in8 i; vdm_i_in9 i].
Definition vdm_pins s i :=
  ({| ao_arready := vdm_o_s_axi_ro___arready s i; ao_rvalid := vdm_o_s_axi_ro___rvalid s i; ao_rdata := vdm_o_s_axi_ro___rdata s i; ao_rresp := vdm_o_s_axi_ro___rresp s i;
      ao_awready := vdm_o_s_axi_wo___awready s i; ao_wready := vdm_o_s_axi_wo___wready s i; ao_bvalid := vdm_o_s_axi_wo___bvalid s i; ao_bresp := vdm_o_s_axi_wo___bresp s i |},
   (vdm_o_read_addr s i, vdm_o_write_addr s i, vdm_o_start s i)).
Definition dl_pins (m : dl_st) (_ : vdm_in) := (dl_out m, (dl_read_addr m, dl_write_addr m, dl_start m)).
Definition dl_clock := clocked vdm_i_rst dl_init (fun m i => dl_step m (vdm_bus i) (vdm_ins i)).
