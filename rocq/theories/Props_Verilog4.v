(* C90, continued: the shipped Verilog of core_axi_lite, with its table memory attached. *)
From Verif Require Import Bits V_Gen3 M_Encode M_AxiLite M_Misc Spec_Verilog P_Verilog Spec_Verilog4 P_Verilog4.
Ltac Zify.zify_post_hook ::= idtac.

Theorem C90_core_axi_lite : forall l : list vca_in, Forall (fun i => vca_i_full_rst i = false) l ->
  trace core_step core_pins (vca_init, init_huff_table 12, 0) l = trace al_clock al_pins (al_init 12, dbg_regs_init) l.
Proof. intros l F. apply (trace_sim _ _ _ _ _ _ core_axi_lite_sim); [apply core_axi_lite_R0|exact F]. Qed.

(* the last read is that of the debug counter 1: 26 counted cycles.  Before it the time limit (address 0x2004) is set to 0x223344 with byte strobes 0011; then the table entry 3 (address 0x1018) gets a new low half, 0x11223344 with strobes 0011, and is read back *)
Definition C90_inca (wr rd : bool) (ad st : Z) : vca_in :=
  {| vca_i_debug_en := 3; vca_i_full_rst := false; vca_i_rp_data := 0; vca_i_rst := false; vca_i_s_axi_ri__araddr := ad; vca_i_s_axi_ri__arvalid := rd; vca_i_s_axi_ri__rready := true;
     vca_i_s_axi_wi__awaddr := ad; vca_i_s_axi_wi__awvalid := wr; vca_i_s_axi_wi__bready := true; vca_i_s_axi_wi__wdata := 0x11223344; vca_i_s_axi_wi__wstrb := st; vca_i_s_axi_wi__wvalid := true |}.
Example C90_core_axi_lite_example :
  let l := repeat (C90_inca true false 0x2004 3) 6 ++ repeat (C90_inca true false 0x1018 3) 6 ++ repeat (C90_inca false true 0x1018 0) 7 ++ repeat (C90_inca false true 0x4004 0) 10 in
  let t := trace core_step core_pins (vca_init, init_huff_table 12, 0) l in
  Forall (fun i => vca_i_full_rst i = false) l /\
  map (fun o => snd (snd (fst o))) (firstn 7 t) = [0; 0; 0; 0; 0; 0x3344; 0x3344] /\
  option_map (fun o => fst (fst (snd o))) (nth_error t 11) = Some (true, 3) /\
  option_map (fun o => let a := fst (fst o) in (ao_rvalid a, ao_rdata a, ao_rresp a)) (nth_error t 17) = Some (true, 0x30003344, 0) /\
  option_map (fun o => let a := fst (fst o) in (ao_rvalid a, ao_rdata a, ao_rresp a)) (nth_error t 27) = Some (true, 26, 0).
Proof. intros l t. split; [repeat constructor|]. vm_compute. repeat split. Qed.
