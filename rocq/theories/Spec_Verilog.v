(* What it means for a Verilog module to do what a model says.
   trace step out s l: the values at the output pins in each cycle, from state s, when the input pins carry l. *)
From Verif Require Import Bits V_Gen M_Markers M_Signals M_Difference M_Config M_VBits M_Converter M_Fix M_Predictor M_Misc M_AxiHP M_Normalize M_Encode M_Merge M_Fifo M_I1 M_I3 M_Beta.
Ltac Zify.zify_post_hook ::= idtac.

Fixpoint trace {S I O} (step : S -> I -> S) (out : S -> I -> O) (s : S) (l : list I) : list O :=
  match l with [] => [] | i :: r => out s i :: trace step out (step s i) r end.

(* synchronous reset: when rst is 1 at the clock edge the registers take their initial values *)
Definition clocked {S I} (rst : I -> bool) (init : S) (step : S -> I -> S) (s : S) (i : I) : S := if rst i then init else step s i.
(* a w-bit value *)
Definition wide (w x : Z) : Prop := 0 <= x < 2 ^ w.

(* ---- markers: all four outputs *)
Definition vmk_pins s i := (vmk_o_valid_out s i, vmk_o_data_out s i, vmk_o_end_out s i, vmk_o_o_busy s i).
Definition vmk_read (i : vmk_in) : mk_in :=
  {| mki_valid := vmk_i_valid_in i; mki_data := vmk_i_data_in i; mki_end := vmk_i_end_in i; mki_force := vmk_i_force_end_in i; mki_busy := vmk_i_i_busy i |}.
Definition mk_pins s i := let o := mk_comb s (vmk_read i) in (mko_valid o, mko_data o, mko_end o, mko_busy o).

(* ---- difference: the pixels and predictions are numbered 0, 1 in the model *)
Definition vdf_pins s i := (vdf_o_valid_out s i, vdf_o_end_out s i, [vdf_o_val_out s i; vdf_o_val_out_3 s i], [vdf_o_val_out_4 s i; vdf_o_val_out_5 s i]).
Definition df_pins (s : diff_st) (_ : vdf_in) := (df_valid s, df_end s, df_vals s, df_mns s).

(* ---- output_handler *)
Definition voh_pins s i := (voh_o_valid_out s i, voh_o_end_out s i, voh_o_data_out s i, voh_o_dec_buff_out s i).
Definition vo_pins (s : vo_st) i := (vo_valid s, vo_end s, vo_data s, vo_dec beta_cfg s (voh_i_buff_consum i) (voh_i_end_in i) (voh_i_busy_in i)).

(* ---- input_handler *)
Definition vih_pins s i := (vih_o_buff_consum s i, vih_o_buffer s i, vih_o_end_out s i, vih_o_latch_input s i).
Definition vi_pins (s : vi_st) (_ : vih_in) := (vi_consum s, vi_buffer s, vi_end s, vi_latch_input s).

(* ---- converter *)
Definition vcv_pins s i := (vcv_o_enc_in s i, vcv_o_enc_in_ctr s i, vcv_o_in_end s i, vcv_o_latch_output s i, vcv_o_valid_in s i).
Definition cv_pins (s : cv_st) (_ : vcv_in) := (cv_enc_in s, cv_enc_in_ctr s, cv_in_end s, cv_latch_output s, cv_valid_in s).

(* ---- fix_0xff *)
Definition vfx_pins s i := (vfx_o_valid_out s i, vfx_o_data_out s i, vfx_o_data_out_ctr s i, vfx_o_end_out s i, vfx_o_o_busy s i).
Definition f1_pins (s : f1_st) (_ : vfx_in) := (f1_vout s, f1_dout s, f1_ctr s, f1_eout s, f1_obusy s).
Definition vfx_read (i : vfx_in) : f1_in := {| f1i_valid := vfx_i_valid_in i; f1i_data := vfx_i_data_in i; f1i_end := vfx_i_end_in i; f1i_busy := vfx_i_i_busy i |}.

(* ---- predictor *)
Definition vpr_pins s i := (vpr_o_valid_out s i, vpr_o_end_out s i, [vpr_o_pixel_out s i; vpr_o_pixel_out_2 s i], [vpr_o_predic_out s i; vpr_o_predic_out_3 s i]).
Definition pr_pins (s : p12_st) (_ : vpr_in) := (p12_valid_out s, p12_end_out s, p12_pixels_out s, p12_predics_out s).

(* ---- debug_module: the eight counters *)
Definition vdb_pins s i := [vdb_o_wsignal s i; vdb_o_wsignal_1 s i; vdb_o_wsignal_2 s i; vdb_o_wsignal_3 s i; vdb_o_wsignal_4 s i; vdb_o_wsignal_5 s i; vdb_o_wsignal_6 s i; vdb_o_wsignal_7 s i].

(* ---- fix_0xff2 *)
Definition vf2_read (i : vf2_in) : f2_in :=
  {| f2i_valid := vf2_i_valid_in i; f2i_data := vf2_i_data_in i; f2i_ctr := vf2_i_data_in_ctr i; f2i_end := vf2_i_end_in i; f2i_busy := vf2_i_i_busy i |}.
Definition vf2_pins s i := (vf2_o_valid_out s i, vf2_o_data_out s i, vf2_o_end_out s i, vf2_o_o_busy s i).
Definition f2_pins (s : f2_st) (_ : vf2_in) := (f2_vout s, f2_dout s, f2_eout s, f2_obusy s).

(* ---- normalize *)
Definition vno_pins s i := ([(vno_o_val_out s i, vno_o_ssss s i); (vno_o_val_out_4 s i, vno_o_ssss_3 s i)], vno_o_valid_out s i, vno_o_end_out s i).
Definition nm_pins (s : norm_st) (_ : vno_in) := (nm_out s, nm_valid s, nm_end s).

(* ---- encode: at a reset the data register of the block RAM keeps its value *)
Definition ven_pins s i := ([(ven_o_enc_out s i, ven_o_enc_ctr s i); (ven_o_enc_out_3 s i, ven_o_enc_ctr_4 s i)], ven_o_valid_out s i, ven_o_end_out s i).
Definition en_pins (s : enc_st) (_ : ven_in) := (enc_outs s, en_valid_out s, en_end_out s).
Definition encode_step (mem : list Z) (m : enc_st) (i : ven_in) : enc_st :=
  let n := enc_step 12 mem m (ven_i_valid_in i) (ven_i_end_in i) [(ven_i_val_in i, ven_i_ssss i); (ven_i_val_in_1 i, ven_i_ssss_2 i)] in
  if ven_i_rst i then enc_reset (map e1_rp_data (en_px n)) else n.

(* ---- merge *)
Definition vme_pins s i := (vme_o_enc_out s i, vme_o_enc_out_ctr s i, vme_o_valid_out s i, vme_o_end_out s i).
Definition mg_pins (s : merge_st) (_ : vme_in) := (merge_out 2 28 s, mg_valid (merge_top s), mg_end (merge_top s)).
(* the widths of the input pins *)
Definition merge_P (i : vme_in) : Prop := wide 28 (vme_i_enc_in i) /\ wide 28 (vme_i_enc_in_1 i) /\ wide 5 (vme_i_enc_in_ctr i) /\ wide 5 (vme_i_enc_in_ctr_2 i).

(* ---- lj92_pipeline_fifo: the model is the fifo and the flag close_full; at a reset the memory and its read register keep their values *)
Definition lj_fifo_pins s i := (vlf_o_close_full s i, vlf_o_enc_out s i, vlf_o_enc_out_ctr s i, vlf_o_out_end s i, vlf_o_valid_out s i).
Definition lj_fifo_mpins (m : fifo_st * bool) (_ : vlf_in) :=
  (snd m, item_enc 56 6 (ff_dout (fst m)), item_ctr 56 6 (ff_dout (fst m)), item_end 56 6 (ff_dout (fst m)), ff_rd (fst m)).
Definition lj_fifo_step (m : fifo_st * bool) (i : vlf_in) : fifo_st * bool :=
  let n := fifo_step 512 (fst m) (vlf_i_valid_in i) (item_pack 56 6 (vlf_i_enc_in i) (vlf_i_enc_in_ctr i) (vlf_i_in_end i)) (vlf_i_latch_output i) in
  if vlf_i_rst i then (fifo_reset (ff_stor n) (ff_dout n), false) else (n, 502 <=? fifo_level (fst m)).

(* ---- converter_fifo *)
Definition cv_fifo_pins s i := (vcf_o_close_full s i, vcf_o_enc_out s i, vcf_o_enc_out_ctr s i, vcf_o_out_end s i, vcf_o_valid_out s i).
Definition cv_fifo_mpins (m : fifo_st * bool) (_ : vcf_in) :=
  (snd m, item_enc 30 5 (ff_dout (fst m)), item_ctr 30 5 (ff_dout (fst m)), item_end 30 5 (ff_dout (fst m)), ff_rd (fst m)).
Definition cv_fifo_step (m : fifo_st * bool) (i : vcf_in) : fifo_st * bool :=
  let n := fifo_step 512 (fst m) (vcf_i_valid_in i) (item_pack 30 5 (vcf_i_enc_in i) (vcf_i_enc_in_ctr i) (vcf_i_in_end i)) (vcf_i_latch_output i) in
  if vcf_i_rst i then (fifo_reset (ff_stor n) (ff_dout n), false) else (n, 507 <=? fifo_level (fst m)).

(* ---- top (beta_integration.v): the whole core.  The model is the state of M_Beta and of the register file.  full_rst resets everything at this clock edge. *)
Definition vtp_pins s i := (vtp_o_valid_out s i, vtp_o_data_out s i, vtp_o_end_out s i, vtp_o_nready s i).
Definition vtp_read (rf : rf_st) (i : vtp_in) : bt_in :=
  {| bi_valid := vtp_i_valid_in i; bi_px := [vtp_i_pixel_in1 i; vtp_i_pixel_in2 i]; bi_busy := vtp_i_busy_in i; bi_w := rf_width rf; bi_h := rf_height rf; bi_allowed := rf_allowed rf |}.
Definition bt_pins (m : bt_st * rf_st) i := let o := bt_out (fst m) (vtp_read (snd m) i) in (mko_valid o, mko_data o, mko_end o, bt_nready (fst m)).
Definition bt_clock (m : bt_st * rf_st) (i : vtp_in) : bt_st * rf_st :=
  let x := vtp_read (snd m) i in let mem := init_huff_table 12 in
  if vtp_i_full_rst i then (bt_reset_with (i3_keep_reset beta_cfg (b_i3 (bt_next beta_cfg mem (fst m) x))), rf_init)
  else (bt_step beta_cfg mem (fst m) x, rf_step (snd m)).
(* The state after configuration of the FPGA.  Four registers, all of them read registers of block RAMs, have no initial value in the Verilog: a0, a1 (addresses of the Huffman table), d1, d2 (outputs of the fifos). *)
Definition ven_powerup (a0 a1 : Z) : ven_st := {| ven__0_ := a0; ven__1_ := a1; ven_u_w13 := ven_u_w13 ven_init; ven_u_w22 := ven_u_w22 ven_init |}.
Definition vi1_powerup (a0 a1 : Z) : vi1_st :=
  {| vi1_u_difference := vdf_init; vi1_u_encode := ven_powerup a0 a1; vi1_u_force_end := vfe_init; vi1_u_merge := vme_init; vi1_u_normalize := vno_init; vi1_u_predictor := vpr_init;
     vi1_u_register_file := vrf_init; vi1_u_signals := vsg_init |}.
Definition vlf_powerup (d : Z) : vlf_st := {| vlf_close_full := false; vlf_u_fifo := {| vff_readable := false;
  vff_u_unbuffered := {| vua_level := 0; vua_consume := 0; vua_produce := 0; vua__0_ := d; vua_storage := repeat 0 511 |} |} |}.
Definition vcf_powerup (d : Z) : vcf_st := {| vcf_close_full := false; vcf_u_fifo := {| vfg_readable := false;
  vfg_u_unbuffered := {| vub_level := 0; vub_consume := 0; vub_produce := 0; vub__0_ := d; vub_storage := repeat 0 511 |} |} |}.
Definition vtp_powerup (a0 a1 d1 d2 : Z) : vtp_st :=
  {| vtp_u_auto_reset := var_init; vtp_u_fix_0xff := vfx_init; vtp_u_fix_0xff2 := vf2_init; vtp_u_markers := vmk_init;
     vtp_u_integration_3 := {| vi3_u_vbits_to_cbits := vvb_init; vi3_u_integration_2 :=
       {| vi2_nready_reset := false; vi2_nready_reset_counter := 0; vi2_nready_end_reg := false; vi2_nready_end := false; vi2_u_converter := vcv_init;
          vi2_u_converter_fifo := vcf_powerup d2; vi2_u_integration_1 := vi1_powerup a0 a1; vi2_u_lj92_pipeline_fifo := vlf_powerup d1 |} |} |}.
Definition bt_powerup (d1 d2 : Z) : bt_st * rf_st :=
  (bt_reset_with (i3_reset beta_cfg (repeat 0 511) d1 (repeat 0 511) d2 [0; 0]), rf_init).
