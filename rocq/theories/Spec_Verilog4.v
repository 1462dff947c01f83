(* SPECIFICATION for C90, continued: core_axi_lite.v with its table memory attached. *)
From Verif Require Import Bits V_Gen3 M_Encode M_AxiLite M_Misc Spec_Verilog.
Ltac Zify.zify_post_hook ::= idtac.

(* the bus of the processor *)
Definition vca_bus (i : vca_in) : ax_in :=
  {| ai_arvalid := vca_i_s_axi_ri__arvalid i; ai_araddr := vca_i_s_axi_ri__araddr i; ai_rready := vca_i_s_axi_ri__rready i; ai_awvalid := vca_i_s_axi_wi__awvalid i;
     ai_awaddr := vca_i_s_axi_wi__awaddr i; ai_wvalid := vca_i_s_axi_wi__wvalid i; ai_wdata := vca_i_s_axi_wi__wdata i; ai_wstrb := vca_i_s_axi_wi__wstrb i; ai_bready := vca_i_s_axi_wi__bready i |}.
(* the module with the word w at its input rp_data *)
Definition feed (i : vca_in) (w : Z) : vca_in :=
  {| vca_i_debug_en := vca_i_debug_en i; vca_i_full_rst := vca_i_full_rst i; vca_i_rp_data := w; vca_i_rst := vca_i_rst i;
     vca_i_s_axi_ri__araddr := vca_i_s_axi_ri__araddr i; vca_i_s_axi_ri__arvalid := vca_i_s_axi_ri__arvalid i; vca_i_s_axi_ri__rready := vca_i_s_axi_ri__rready i;
     vca_i_s_axi_wi__awaddr := vca_i_s_axi_wi__awaddr i; vca_i_s_axi_wi__awvalid := vca_i_s_axi_wi__awvalid i; vca_i_s_axi_wi__bready := vca_i_s_axi_wi__bready i;
     vca_i_s_axi_wi__wdata := vca_i_s_axi_wi__wdata i; vca_i_s_axi_wi__wstrb := vca_i_s_axi_wi__wstrb i; vca_i_s_axi_wi__wvalid := vca_i_s_axi_wi__wvalid i |}.
(* one edge of the module together with the memory it is wired to (encode.py:195-201, integration_1.py:136-140: 4 address bits, one write port, one transparent read port);
   mem its words, ra the latched read address *)
Definition core_step (x : vca_st * list Z * Z) (i : vca_in) : vca_st * list Z * Z :=
  let '(s, mem, ra) := x in let i' := feed i (nth (Z.to_nat ra) mem 0) in
  (vca_step s i', if vca_o_wp_en s i' then set_nth (Z.to_nat (trunc 4 (vca_o_wp_addr s i'))) (vca_o_wp_data s i') mem else mem, trunc 4 (vca_o_rp_addr s i')).
(* what the processor sees, the picture size and time limit the core sees, and the memory port *)
Definition core_pins (x : vca_st * list Z * Z) (i0 : vca_in) :=
  let '(s, mem, ra) := x in let i := feed i0 (nth (Z.to_nat ra) mem 0) in
  ({| ao_arready := vca_o_s_axi_ro__arready s i; ao_rvalid := vca_o_s_axi_ro__rvalid s i; ao_rdata := vca_o_s_axi_ro__rdata s i; ao_rresp := vca_o_s_axi_ro__rresp s i;
      ao_awready := vca_o_s_axi_wo__awready s i; ao_wready := vca_o_s_axi_wo__wready s i; ao_bvalid := vca_o_s_axi_wo__bvalid s i; ao_bresp := vca_o_s_axi_wo__bresp s i |},
   (vca_o_height s i, vca_o_width s i, vca_o_allowed_cycles s i), (vca_o_wp_en s i, vca_o_wp_addr s i, vca_o_wp_data s i, vca_o_rp_addr s i)).

(* the model: 12 bits per pixel, debug counters built in; the state with the eight debug counters *)
Definition al_pins (x : al_st * list Z) (_ : vca_in) :=
  let m := fst x in (al_out m, (al_height m, al_width m, al_allowed m), (al_wp_en m, al_wp_addr m, al_wp_data m, al_rp_addr m)).
Definition al_clock (x : al_st * list Z) (i : vca_in) : al_st * list Z :=
  (al_step 12 true (fst x) (vca_bus i) (snd x) (vca_i_rst i), dbg_step 0 (snd x) (vca_i_debug_en i)).
