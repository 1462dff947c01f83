(* C90: the modules of the Verilog shipped in verilog_src show at their pins, in every cycle and for every input history (resets at any
   time included), what the models, read from the Python source, say. *)
From Verif Require Import Bits V_Gen M_Markers M_Signals M_Difference M_Config M_VBits M_Converter M_Fix M_Predictor M_Misc M_AxiHP M_Normalize M_Encode M_Merge M_Fifo M_Beta Spec_Verilog P_Verilog P_VerilogFx P_VerilogMid.
Ltac Zify.zify_post_hook ::= idtac.

Theorem C90_markers (l : list vmk_in) : trace vmk_step vmk_pins vmk_init l = trace (clocked vmk_i_rst mk_init (fun m i => mk_step m (vmk_read i))) mk_pins mk_init l.
Proof. apply (trace_sim _ _ _ _ _ _ markers_sim _ _ _ markers_R0 (Forall_T l)). Qed.

Theorem C90_force_end (l : list vfe_in) : trace vfe_step vfe_o_fend vfe_init l =
  trace (clocked vfe_i_rst fe_init (fun m i => fe_step m (vfe_i_valid_in i) (vfe_i_allowed_cycles i))) (fun m _ => fe_fend m) fe_init l.
Proof. apply (trace_sim _ _ _ _ _ _ force_end_sim _ _ _ force_end_R0 (Forall_T l)). Qed.

Theorem C90_auto_reset (l : list var_in) : trace var_step var_o_reset_out var_init l =
  trace (clocked var_i_rst false (fun m i => ar_step m (var_i_end_in i) (var_i_hs1_in i) (var_i_hs2_in i))) (fun m _ => m) false l.
Proof. apply (trace_sim _ _ _ _ _ _ auto_reset_sim _ _ _ auto_reset_R0 (Forall_T l)). Qed.

Theorem C90_register_file (l : list vrf_in) : trace vrf_step (fun s i => (vrf_o_width s i, vrf_o_height s i, vrf_o_allowed_cycles s i)) vrf_init l =
  trace (clocked vrf_i_full_rst rf_init (fun m _ => rf_step m)) (fun m _ => (rf_width m, rf_height m, rf_allowed m)) rf_init l.
Proof. apply (trace_sim _ _ _ _ _ _ register_file_sim _ _ _ register_file_R0 (Forall_T l)). Qed.

Theorem C90_signals (l : list vsg_in) : Forall (fun i => wide 16 (vsg_i_width i)) l ->
  trace vsg_step (fun s i => (vsg_o_new_row s i, vsg_o_end_of_frame s i)) vsg_init l =
  trace (clocked vsg_i_rst sig_init (fun m i => sig_step 2 m (vsg_i_new_input i) (vsg_i_width i) (vsg_i_height i)))
    (fun m _ => (sg_new_row m, sg_end_of_frame m)) sig_init l.
Proof. intros H. apply (trace_sim _ _ _ _ _ _ signals_sim _ _ _ signals_R0 H). Qed.

Theorem C90_difference (l : list vdf_in) : trace vdf_step vdf_pins vdf_init l =
  trace (clocked vdf_i_rst (diff_init 2) (fun m i => diff_step 12 m (vdf_i_valid_in i) (vdf_i_end_in i)
           [vdf_i_pixel_in i; vdf_i_pixel_in_1 i] [vdf_i_predic_in i; vdf_i_predic_in_2 i])) df_pins (diff_init 2) l.
Proof. apply (trace_sim _ _ _ _ _ _ difference_sim _ _ _ difference_R0 (Forall_T l)). Qed.

Theorem C90_output_handler (l : list voh_in) : trace voh_step voh_pins voh_init l =
  trace (clocked voh_i_rst vo_init (fun m i => vo_step beta_cfg m (voh_i_buffer i) (voh_i_buff_consum i) (voh_i_end_in i) (voh_i_busy_in i))) vo_pins vo_init l.
Proof. apply (trace_sim _ _ _ _ _ _ output_handler_sim _ _ _ output_handler_R0 (Forall_T l)). Qed.

Theorem C90_fix_0xff (l : list vfx_in) : Forall (fun i => wide 16 (vfx_i_data_in i)) l ->
  trace vfx_step vfx_pins vfx_init l = trace (clocked vfx_i_rst f1_init (fun m i => f1_step m (vfx_read i))) f1_pins f1_init l.
Proof. intros H. apply (trace_sim _ _ _ _ _ _ fix_0xff_sim _ _ _ fix_0xff_R0 H). Qed.

Theorem C90_delayer (l : list vdl_in) : trace vdl_step vdl_o_out_sig vdl_init l = trace (clocked vdl_i_rst (dly_init 3 8) (fun m i => dly_step 3 m (vdl_i_in_sig i))) (fun m _ => dy_out m) (dly_init 3 8) l.
Proof. apply (trace_sim _ _ _ _ _ _ delayer_sim _ _ _ delayer_R0 (Forall_T l)). Qed.

Theorem C90_address_generator (l : list vag_in) : Forall (fun i => wide 32 (vag_i_starting_address i)) l ->
  trace vag_step (fun s i => (vag_o_address_o s i, vag_o_address_valid s i)) vag_init l =
  trace (clocked vag_i_rst ag_init (fun m i => ag_step 16 m (vag_i_starting_address i) (vag_i_address_latch i))) (fun m _ => (ag_addr m, ag_valid m)) ag_init l.
Proof. intros H. apply (trace_sim _ _ _ _ _ _ address_generator_sim _ _ _ address_generator_R0 H). Qed.

Theorem C90_debug_module (l : list vdb_in) : trace vdb_step vdb_pins vdb_init l = trace (clocked vdb_i_full_rst dbg_regs_init (fun m i => dbg_step 0 m (vdb_i_regs_en i))) (fun m _ => m) dbg_regs_init l.
Proof. apply (trace_sim _ _ _ _ _ _ debug_module_sim _ _ _ debug_module_R0 (Forall_T l)). Qed.

Theorem C90_converter (l : list vcv_in) : trace vcv_step vcv_pins vcv_init l =
  trace (clocked vcv_i_rst cv_init (fun m i => cv_step beta_cfg m (vcv_i_enc_out i) (vcv_i_enc_out_ctr i) (vcv_i_out_end i) (vcv_i_valid_out i) (vcv_i_close_full i)))
    cv_pins cv_init l.
Proof. apply (trace_sim _ _ _ _ _ _ converter_sim _ _ _ converter_R0 (Forall_T l)). Qed.

Theorem C90_input_handler (l : list vih_in) : Forall (fun i => wide 5 (vih_i_enc_in_ctr i)) l ->
  trace vih_step vih_pins vih_init l =
  trace (clocked vih_i_rst vi_init (fun m i => vi_step beta_cfg m (vih_i_enc_in i) (vih_i_enc_in_ctr i) (vih_i_in_end i) (vih_i_valid_in i) (vih_i_dec_buff i)))
    vi_pins vi_init l.
Proof. intros H. apply (trace_sim _ _ _ _ _ _ input_handler_sim _ _ _ input_handler_R0 H). Qed.

Theorem C90_predictor (l : list vpr_in) : trace vpr_step vpr_pins vpr_init l =
  trace (clocked vpr_i_rst (p12_init 12 2) (fun m i => p12_step 2 m (vpr_i_valid_in i) (vpr_i_new_row i) (vpr_i_end_in i) [vpr_i_pixel_in i; vpr_i_pixel_in_1 i]))
    pr_pins (p12_init 12 2) l.
Proof. apply (trace_sim _ _ _ _ _ _ predictor_sim _ _ _ predictor_R0 (Forall_T l)). Qed.

Theorem C90_fix_0xff2 (l : list vf2_in) : trace vf2_step vf2_pins vf2_init l = trace (clocked vf2_i_rst f2_init (fun m i => f2_step m (vf2_read i))) f2_pins f2_init l.
Proof. apply (trace_sim _ _ _ _ _ _ fix_0xff2_sim _ _ _ fix_0xff2_R0 (Forall_T l)). Qed.

Theorem C90_normalize (l : list vno_in) : trace vno_step vno_pins vno_init l =
  trace (clocked vno_i_rst (norm_init 2) (fun m i => norm_step 12 m (vno_i_valid_in i) (vno_i_end_in i)
           [vno_i_val_in i; vno_i_val_in_1 i] [vno_i_vals_in_mns i; vno_i_vals_in_mns_2 i])) nm_pins (norm_init 2) l.
Proof. apply (trace_sim _ _ _ _ _ _ normalize_sim _ _ _ normalize_R0 (Forall_T l)). Qed.

(* whatever the registers without initial value hold *)
Theorem C90_encode (a0 a1 : Z) (l : list ven_in) : trace ven_step ven_pins (ven_powerup a0 a1) l = trace (encode_step (init_huff_table 12)) en_pins (enc_init 2) l.
Proof.
  apply (trace_sim _ _ _ _ _ _ encode_sim); [|apply Forall_T].
  exists 0, 0. split; [reflexivity|]. split; [reflexivity|]. split; [discriminate|]. repeat split; unfold wide; cbn; lia.
Qed.

Theorem C90_merge (l : list vme_in) : Forall merge_P l ->
  trace vme_step vme_pins vme_init l =
  trace (clocked vme_i_rst (merge_init 2) (fun m i => merge_step 2 28 m (vme_i_valid_in i) (vme_i_end_in i)
           [(vme_i_enc_in i, vme_i_enc_in_ctr i); (vme_i_enc_in_1 i, vme_i_enc_in_ctr_2 i)])) mg_pins (merge_init 2) l.
Proof. intros H. apply (trace_sim _ _ _ _ _ _ merge_sim _ _ _ merge_R0 H). Qed.

Theorem C90_lj92_pipeline_fifo (d : Z) (l : list vlf_in) : Forall (fun i => wide 56 (vlf_i_enc_in i) /\ wide 6 (vlf_i_enc_in_ctr i)) l ->
  trace vlf_step lj_fifo_pins (vlf_powerup d) l = trace lj_fifo_step lj_fifo_mpins (fifo_reset (repeat 0 511) d, false) l.
Proof. intros H. apply (trace_sim _ _ _ _ _ _ lj_fifo_sim); [|exact H]. split; [reflexivity|cbn; lia]. Qed.

Theorem C90_converter_fifo (d : Z) (l : list vcf_in) : Forall (fun i => wide 30 (vcf_i_enc_in i) /\ wide 5 (vcf_i_enc_in_ctr i)) l ->
  trace vcf_step cv_fifo_pins (vcf_powerup d) l = trace cv_fifo_step cv_fifo_mpins (fifo_reset (repeat 0 511) d, false) l.
Proof. intros H. apply (trace_sim _ _ _ _ _ _ cv_fifo_sim); [|exact H]. split; [reflexivity|cbn; lia]. Qed.

(* ---------------------------------------------------------------- examples: the traces are not trivial and the hypotheses can be met *)
Example C90_markers_example :
  trace vmk_step vmk_pins vmk_init
    (map (fun k => {| vmk_i_data_in := 7; vmk_i_end_in := false; vmk_i_force_end_in := false; vmk_i_i_busy := (k =? 3); vmk_i_rst := false; vmk_i_valid_in := true |})
       [0;1;2;3;4;5;6;7;8;9;10;11;12]) =
  [(false, 0, false, true)] ++ repeat (true, 65535, false, true) 9 ++ [(false, 0, false, true)] ++ repeat (true, 7, false, false) 2.
Proof. reflexivity. Qed.
Example C90_signals_example :
  let l := repeat {| vsg_i_height := 2; vsg_i_new_input := true; vsg_i_rst := false; vsg_i_width := 4 |} 6 in
  Forall (fun i => wide 16 (vsg_i_width i)) l /\
  trace vsg_step (fun s i => (vsg_o_new_row s i, vsg_o_end_of_frame s i)) vsg_init l =
    [(true, false); (false, false); (true, false); (false, true); (false, true); (false, true)].
Proof. split; [repeat constructor; cbn; lia|reflexivity]. Qed.
Example C90_fix_0xff_example :
  let l := map (fun d => {| vfx_i_data_in := d; vfx_i_end_in := false; vfx_i_i_busy := false; vfx_i_rst := false; vfx_i_valid_in := true |}) [258; 65535; 511; 65282; 0] in
  Forall (fun i => wide 16 (vfx_i_data_in i)) l /\
  trace vfx_step vfx_pins vfx_init l =
    [(false, 0, 0, false, false); (true, 258, 2, false, false); (true, 4278255360, 4, false, false); (true, 130816, 3, false, false); (true, 16711682, 3, false, false)].
Proof. split; [repeat constructor; cbn; lia|reflexivity]. Qed.
Example C90_address_generator_example :
  let l := map (fun b => {| vag_i_address_latch := b; vag_i_rst := false; vag_i_starting_address := 4294967280 |}) [false; true; true; false; false] in
  Forall (fun i => wide 32 (vag_i_starting_address i)) l /\
  trace vag_step (fun s i => (vag_o_address_o s i, vag_o_address_valid s i)) vag_init l = [(0, false); (4294967280, true); (0, true); (16, true); (16, true)].
Proof. split; [repeat constructor; cbn; lia|reflexivity]. Qed.
Example C90_input_handler_example :
  let l := repeat {| vih_i_dec_buff := false; vih_i_enc_in := 5; vih_i_enc_in_ctr := 3; vih_i_in_end := false; vih_i_rst := false; vih_i_valid_in := true |} 6 in
  Forall (fun i => wide 5 (vih_i_enc_in_ctr i)) l /\
  trace vih_step vih_pins vih_init l =
    [(0, 0, false, false); (0, 0, false, true); (0, 0, false, true); (3, 5, false, true); (6, 45, false, true); (9, 365, false, true)].
Proof. split; [repeat constructor; cbn; lia|reflexivity]. Qed.
Example C90_merge_example :
  let l := [{| vme_i_enc_in := 5; vme_i_enc_in_1 := 2; vme_i_enc_in_ctr := 3; vme_i_enc_in_ctr_2 := 4; vme_i_end_in := false; vme_i_rst := false; vme_i_valid_in := true |};
            {| vme_i_enc_in := 1; vme_i_enc_in_1 := 1; vme_i_enc_in_ctr := 9; vme_i_enc_in_ctr_2 := 9; vme_i_end_in := false; vme_i_rst := false; vme_i_valid_in := false |}] in
  Forall merge_P l /\ trace vme_step vme_pins vme_init l = [(0, 0, false, false); (82, 7, true, false)].
Proof. split; [repeat constructor; unfold wide; cbn; lia|reflexivity]. Qed.
Example C90_lj92_pipeline_fifo_example :
  let i k := {| vlf_i_enc_in := 100 + k; vlf_i_enc_in_ctr := 9; vlf_i_in_end := (k =? 2); vlf_i_latch_output := true; vlf_i_rst := false; vlf_i_valid_in := k <? 3 |} in
  let l := map i [0; 1; 2; 3; 4; 5] in
  Forall (fun i => wide 56 (vlf_i_enc_in i) /\ wide 6 (vlf_i_enc_in_ctr i)) l /\
  trace vlf_step lj_fifo_pins (vlf_powerup 77) l =
    [(false, 77, 0, false, false); (false, 77, 0, false, false); (false, 100, 9, false, true); (false, 101, 9, false, true); (false, 102, 9, true, true); (false, 102, 9, true, false)].
Proof. split; [repeat constructor; unfold wide; cbn; lia|vm_compute; reflexivity]. Qed.
Example C90_converter_fifo_example :
  let i k := {| vcf_i_enc_in := 100 + k; vcf_i_enc_in_ctr := 9; vcf_i_in_end := (k =? 2); vcf_i_latch_output := true; vcf_i_rst := false; vcf_i_valid_in := k <? 3 |} in
  let l := map i [0; 1; 2; 3; 4; 5] in
  Forall (fun i => wide 30 (vcf_i_enc_in i) /\ wide 5 (vcf_i_enc_in_ctr i)) l /\
  trace vcf_step cv_fifo_pins (vcf_powerup 77) l =
    [(false, 77, 0, false, false); (false, 77, 0, false, false); (false, 100, 9, false, true); (false, 101, 9, false, true); (false, 102, 9, true, true); (false, 102, 9, true, false)].
Proof. split; [repeat constructor; unfold wide; cbn; lia|vm_compute; reflexivity]. Qed.
Example C90_encode_example :
  trace ven_step (fun s i => (ven_o_enc_out s i, ven_o_enc_ctr s i, ven_o_valid_out s i)) (ven_powerup 3 4)
    (repeat {| ven_i_end_in := false; ven_i_rst := false; ven_i_ssss := 2; ven_i_ssss_2 := 0; ven_i_val_in := 3; ven_i_val_in_1 := 0; ven_i_valid_in := true |} 4) =
  [(0, 0, false); (0, 0, false); (7, 5, true); (7, 5, true)].
Proof. vm_compute. reflexivity. Qed.
