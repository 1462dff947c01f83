(* Lemmas for C90: the shipped beta core, from integration_1 to the pins of top. *)
From Verif Require Import Bits V_Gen M_Config M_Markers M_Signals M_Difference M_Normalize M_Encode M_Merge M_VBits M_Converter M_Fix M_Predictor M_Fifo M_I1 M_I3 M_Beta.
From Verif Require Import Spec_Verilog P_Verilog P_VerilogFx P_VerilogMid.
Ltac Zify.zify_post_hook ::= idtac.
Local Open Scope bool_scope.

(* ---------------------------------------------------------------- integration_1 *)
Notation hmem := (init_huff_table 12).
Definition vi1_R (s : vi1_st) (m : i1_st) (fe : fe_st) (rf : rf_st) : Prop :=
  signals_R (vi1_u_signals s) (i1_sig m) /\ (exists p, i1_pred m = PRED12 p /\ predictor_R (vi1_u_predictor s) p) /\ difference_R (vi1_u_difference s) (i1_diff m) /\
  normalize_R (vi1_u_normalize s) (i1_norm m) /\ encode_R (vi1_u_encode s) (i1_enc m) /\ merge_R (vi1_u_merge s) (i1_merge m) /\
  force_end_R (vi1_u_force_end s) fe /\ register_file_R (vi1_u_register_file s) rf /\ wide 16 (rf_width rf).
Definition vi1_next (m : i1_st) (rf : rf_st) (i : vi1_in) : i1_st :=
  i1_step beta_cfg hmem m (vi1_i_valid_in i) [vi1_i_pixel_in i; vi1_i_pixel_in_1 i] (rf_width rf) (rf_height rf).

Lemma vi1_outs s m fe rf : vi1_R s m fe rf ->
  vi1_o_valid_out s vi1_idle = i1_valid_out beta_cfg m /\ vi1_o_end_out s vi1_idle = i1_end_out beta_cfg m /\ (vi1_o_enc_out s vi1_idle, vi1_o_enc_out_ctr s vi1_idle) = i1_out beta_cfg m /\
  vi1_o_end_of_frame s vi1_idle = sg_end_of_frame (i1_sig m) /\ vi1_o_fend_out s vi1_idle = fe_fend fe /\
  wide 56 (vi1_o_enc_out s vi1_idle) /\ wide 6 (vi1_o_enc_out_ctr s vi1_idle).
Proof.
  intros (Rs & (p & Ep & Rp) & Rd & Rn & Re & Rm & Rf & Rr & W).
  assert (Om := proj1 (merge_sim _ _ vme_idle ltac:(repeat split; unfold wide; cbn; lia) Rm)). unfold vme_pins, mg_pins in Om. injection Om as O1a O1b O2 O3.
  assert (Os := proj1 (signals_sim _ _ vsg_idle ltac:(unfold wide; cbn; lia) Rs)). injection Os as _ Os.
  assert (Of := proj1 (force_end_sim _ _ vfe_idle I Rf)).
  destruct Rm as (_ & W1 & W2).
  split; [exact O2|split; [exact O3|split; [|split; [exact Os|split; [exact Of|split; [exact W1|exact W2]]]]]].
  change (i1_out beta_cfg m) with (merge_out 2 28 (i1_merge m)). unfold merge_out. change (28 * 2) with 56. change (56 + 1) with 57. rewrite <- O1a, <- O1b. reflexivity.
Qed.
Lemma vi1_step_R s m fe rf i : vi1_R s m fe rf ->
  let n := vi1_next m rf i in
  vi1_R (vi1_step s i) (if vi1_i_rst i then i1_reset beta_cfg (map e1_rp_data (en_px (i1_enc n))) else n)
    (if vi1_i_rst i then fe_init else fe_step fe (vi1_i_valid_in i) (rf_allowed rf)) (if vi1_i_full_rst i then rf_init else rf_step rf).
Proof.
  intros (Rs & (p & Ep & Rp) & Rd & Rn & Re & Rm & Rf & Rr & W).
  assert (Os := proj1 (signals_sim _ _ vsg_idle ltac:(unfold wide; cbn; lia) Rs)). injection Os as Os1 Os2.
  assert (Op := proj1 (predictor_sim _ _ vpr_idle I Rp)). unfold vpr_pins, pr_pins in Op. injection Op as Op1 Op2 Op3 Op4.
  assert (Od := proj1 (difference_sim _ _ vdf_idle I Rd)). unfold vdf_pins, df_pins in Od. injection Od as Od1 Od2 Od3 Od4.
  assert (On := proj1 (normalize_sim _ _ vno_idle I Rn)). unfold vno_pins, nm_pins in On. injection On as On1 On2 On3.
  assert (Oe := proj1 (encode_sim _ _ ven_idle I Re)). unfold ven_pins, en_pins in Oe. injection Oe as Oe1 Oe2 Oe3.
  assert (Or := proj1 (register_file_sim _ _ vrf_idle I Rr)). injection Or as Or1 Or2 Or3.
  assert (We : merge_P (vi1_p_merge s i)) by (destruct Re as (r1 & r2 & _ & _ & _ & W1 & W2 & W3 & W4); exact (conj W1 (conj W2 (conj W3 W4)))).
  assert (Ws : wide 16 (vsg_i_width (vi1_p_signals s i))) by (unfold vi1_p_signals; cbn [vsg_i_width]; rewrite Or1; exact W).
  apply (fun x => proj2 (signals_sim _ _ (vi1_p_signals s i) Ws x)) in Rs.
  apply (fun x => proj2 (predictor_sim _ _ (vi1_p_predictor s i) I x)) in Rp.
  apply (fun x => proj2 (difference_sim _ _ (vi1_p_difference s i) I x)) in Rd.
  apply (fun x => proj2 (normalize_sim _ _ (vi1_p_normalize s i) I x)) in Rn.
  apply (fun x => proj2 (encode_sim _ _ (vi1_p_encode s i) I x)) in Re.
  apply (fun x => proj2 (merge_sim _ _ (vi1_p_merge s i) We x)) in Rm.
  apply (fun x => proj2 (force_end_sim _ _ (vi1_p_force_end s i) I x)) in Rf.
  apply (fun x => proj2 (register_file_sim _ _ (vi1_p_register_file s i) I x)) in Rr.
  cbv zeta. unfold vi1_R, vi1_step.
  cbn [vi1_u_difference vi1_u_encode vi1_u_force_end vi1_u_merge vi1_u_normalize vi1_u_predictor vi1_u_register_file vi1_u_signals].
  revert Rs Rp Rd Rn Re Rm Rf Rr.
  generalize (vsg_step (vi1_u_signals s) (vi1_p_signals s i)), (vpr_step (vi1_u_predictor s) (vi1_p_predictor s i)), (vdf_step (vi1_u_difference s) (vi1_p_difference s i)),
    (vno_step (vi1_u_normalize s) (vi1_p_normalize s i)), (ven_step (vi1_u_encode s) (vi1_p_encode s i)), (vme_step (vi1_u_merge s) (vi1_p_merge s i)),
    (vfe_step (vi1_u_force_end s) (vi1_p_force_end s i)), (vrf_step (vi1_u_register_file s) (vi1_p_register_file s i)).
  intros t1 t2 t3 t4 t5 t6 t7 t8 Rs Rp Rd Rn Re Rm Rf Rr.
  unfold clocked, vi1_p_signals, vi1_p_predictor, vi1_p_difference, vi1_p_normalize, vi1_p_encode, vi1_p_merge, vi1_p_force_end, vi1_p_register_file, encode_step in *.
  cbn [vsg_i_height vsg_i_new_input vsg_i_rst vsg_i_width vpr_i_end_in vpr_i_new_row vpr_i_pixel_in vpr_i_pixel_in_1 vpr_i_rst vpr_i_valid_in
    vdf_i_end_in vdf_i_pixel_in vdf_i_pixel_in_1 vdf_i_predic_in vdf_i_predic_in_2 vdf_i_rst vdf_i_valid_in
    vno_i_end_in vno_i_rst vno_i_val_in vno_i_val_in_1 vno_i_valid_in vno_i_vals_in_mns vno_i_vals_in_mns_2
    ven_i_end_in ven_i_rst ven_i_ssss ven_i_ssss_2 ven_i_val_in ven_i_val_in_1 ven_i_valid_in
    vme_i_enc_in vme_i_enc_in_1 vme_i_enc_in_ctr vme_i_enc_in_ctr_2 vme_i_end_in vme_i_rst vme_i_valid_in vfe_i_allowed_cycles vfe_i_rst vfe_i_valid_in vrf_i_full_rst] in *.
  rewrite Os1, Os2 in *. rewrite Op1, Op2, Op3, Op4 in *. rewrite Od1, Od2, Od3, Od4 in *. rewrite On1, On2, On3 in *. rewrite Oe1, Oe2, Oe3 in *. rewrite Or1, Or2, Or3 in *.
  unfold vi1_next. unfold i1_step, i1_reset. rewrite Ep. cbn [pred_step pred_valid_out pred_end_out pred_pixels_out pred_predics_out].
  destruct (vi1_i_rst i); cbn [i1_sig i1_pred i1_diff i1_norm i1_enc i1_merge].
  - split; [exact Rs|split; [exists (p12_init 12 2); split; [reflexivity|exact Rp]|split; [exact Rd|split; [exact Rn|split; [exact Re|split; [exact Rm|split; [exact Rf|split; [exact Rr|]]]]]]]].
    destruct (vi1_i_full_rst i); unfold wide; cbn; lia.
  - split; [exact Rs|split; [eexists; split; [reflexivity|exact Rp]|split; [exact Rd|split; [exact Rn|split; [exact Re|split; [exact Rm|split; [exact Rf|split; [exact Rr|]]]]]]]].
    destruct (vi1_i_full_rst i); unfold wide; cbn; lia.
Qed.

(* ---------------------------------------------------------------- integration_2 and integration_3 *)
Definition vi3_read (rf : rf_st) (i : vi3_in) : i3_in :=
  {| in_valid := vi3_i_valid_in i; in_px := [vi3_i_pixel_in i; vi3_i_pixel_in_1 i]; in_busy := vi3_i_busy_in i; in_w := rf_width rf; in_h := rf_height rf |}.
Definition vi3_R (s : vi3_st) (m : i3_st) (fe : fe_st) (rf : rf_st) : Prop :=
  let s2 := vi3_u_integration_2 s in let vb := vi3_u_vbits_to_cbits s in
  vi1_R (vi2_u_integration_1 s2) (s_i1 m) fe rf /\ lj_fifo_R (vi2_u_lj92_pipeline_fifo s2) (s_ljf m, s_lj_cf m) /\ cv_fifo_R (vi2_u_converter_fifo s2) (s_cf m, s_cf_cf m) /\
  converter_R (vi2_u_converter s2) (s_cv m) /\ input_handler_R (vvb_u_input_handler vb) (vb_in (s_vb m)) /\ output_handler_R (vvb_u_output_handler vb) (vb_out (s_vb m)) /\
  (vi2_nready_end s2 = s_nready_end m /\ vi2_nready_end_reg s2 = s_nready_end_reg m /\ vi2_nready_reset s2 = s_nready_reset m /\ vi2_nready_reset_counter s2 = s_nready_ctr m) /\
  (wide 30 (cv_enc_in (s_cv m)) /\ wide 5 (cv_enc_in_ctr (s_cv m)) /\ wide 16 (vo_data (vb_out (s_vb m)))).

Lemma cv_step_wide s a b c d e : wide 30 (cv_enc_in s) -> wide 5 (cv_enc_in_ctr s) ->
  wide 30 (cv_enc_in (cv_step beta_cfg s a b c d e)) /\ wide 5 (cv_enc_in_ctr (cv_step beta_cfg s a b c d e)).
Proof.
  intros A B. unfold cv_step. assert (T1 : forall x, wide 30 (trunc (conv beta_cfg) x)) by (intros; apply (wide_trunc 30); lia).
  assert (T2 : forall x, wide 5 (trunc (clog2 (conv beta_cfg + 1)) x)) by (intros; apply (wide_trunc 5); lia).
  destruct (cv_state s) as [| | |k].
  - destruct (cv_try s false d e). split; assumption.
  - split; assumption.
  - destruct (cv_valid_reg s); [|split; assumption]. destruct (cv_ctr_reg s <=? conv beta_cfg); cbn [cv_enc_in cv_enc_in_ctr]; [split; auto|].
    destruct (cv_pick beta_cfg (cv_ctr_reg s) 0 (Z.to_nat (cv_steps beta_cfg))) as [[[x y] z]|]; split; auto.
  - match goal with |- context[let '(lo, nx) := ?x in _] => destruct x end. cbn [cv_enc_in cv_enc_in_ctr]. split; auto.
Qed.
Lemma vo_step_wide s a b c d : wide 16 (vo_data s) -> wide 16 (vo_data (vo_step beta_cfg s a b c d)).
Proof.
  intros A. unfold vo_step. destruct (vo_dec beta_cfg s b c d).
  - cbn [vo_data]. unfold vo_word. destruct (vo_ge beta_cfg b); apply (wide_trunc 16); lia.
  - destruct (vo_state s); try assumption. destruct d; assumption.
Qed.

Lemma vi3_outs s m fe rf : vi3_R s m fe rf ->
  vi3_o_data_out s vi3_idle = i3_data_out m /\ vi3_o_end_out s vi3_idle = i3_end_out m /\ vi3_o_valid_out s vi3_idle = i3_valid_out m /\
  vi3_o_fend_out s vi3_idle = fe_fend fe /\ vi3_o_nready s vi3_idle = i3_nready m /\ wide 16 (i3_data_out m).
Proof.
  intros (R1 & Rl & Rc & Rv & Ri & Ro & (E1 & E2 & E3 & E4) & (W1 & W2 & W3)).
  pose proof (vi1_outs _ _ _ _ R1) as (_ & _ & _ & _ & Of & _ & _).
  assert (Ol := proj1 (lj_fifo_sim _ _ vlf_idle ltac:(split; unfold wide; cbn; lia) Rl)). unfold lj_fifo_pins, lj_fifo_mpins in Ol. injection Ol as Ol1 _ _ _ _.
  assert (Oo := proj1 (output_handler_sim _ _ voh_idle I Ro)). unfold voh_pins, vo_pins in Oo. injection Oo as Oo1 Oo2 Oo3 _.
  split; [exact Oo3|split; [exact Oo2|split; [exact Oo1|split; [exact Of|split; [|exact W3]]]]].
  unfold vi3_o_nready, vi2_o_nready, i3_nready. rewrite Ol1, !eqb_t, eqb_f, E1, E3. reflexivity.
Qed.

Lemma vi3_step_R s m fe rf i : vi3_R s m fe rf ->
  let x := vi3_read rf i in let n := i3_step beta_cfg hmem m x in
  vi3_R (vi3_step s i) (if vi3_i_rst i then i3_keep_reset beta_cfg n else n)
    (if vi3_i_rst i then fe_init else fe_step fe (i3_accept m x) (rf_allowed rf)) (if vi3_i_full_rst i then rf_init else rf_step rf).
Proof.
  intros (R1 & Rl & Rc & Rv & Ri & Ro & (E1 & E2 & E3 & E4) & (W1 & W2 & W3)).
  pose proof (vi1_outs _ _ _ _ R1) as (O1 & O2 & O3 & O4 & _ & Wa & Wb).
  assert (Ol := proj1 (lj_fifo_sim _ _ vlf_idle ltac:(split; unfold wide; cbn; lia) Rl)). unfold lj_fifo_pins, lj_fifo_mpins in Ol. injection Ol as Ol1 Ol2 Ol3 Ol4 Ol5.
  assert (Oc := proj1 (cv_fifo_sim _ _ vcf_idle ltac:(split; unfold wide; cbn; lia) Rc)). unfold cv_fifo_pins, cv_fifo_mpins in Oc. injection Oc as Oc1 Oc2 Oc3 Oc4 Oc5.
  assert (Ov := proj1 (converter_sim _ _ vcv_idle I Rv)). unfold vcv_pins, cv_pins in Ov. injection Ov as Ov1 Ov2 Ov3 Ov4 Ov5.
  assert (Oi := proj1 (input_handler_sim _ _ vih_idle ltac:(unfold wide; cbn; lia) Ri)). unfold vih_pins, vi_pins in Oi. injection Oi as Oi1 Oi2 Oi3 Oi4.
  assert (Oo := proj1 (output_handler_sim _ _ {| voh_i_buff_consum := vi_consum (vb_in (s_vb m)); voh_i_buffer := 0; voh_i_busy_in := vi3_i_busy_in i; voh_i_end_in := vi_end (vb_in (s_vb m)); voh_i_rst := false |} I Ro)).
  unfold voh_pins, vo_pins in Oo. injection Oo as _ _ _ Oo4. cbn [voh_i_buff_consum voh_i_end_in voh_i_busy_in] in Oo4.
  assert (Nr : orb (orb (Bool.eqb (vlf_o_close_full (vi2_u_lj92_pipeline_fifo (vi3_u_integration_2 s)) vlf_idle) true) (Bool.eqb (vi2_nready_end (vi3_u_integration_2 s)) true)) (Bool.eqb (vi2_nready_reset (vi3_u_integration_2 s)) false) = i3_nready m).
  { unfold i3_nready. rewrite Ol1, !eqb_t, eqb_f, E1, E3. reflexivity. }
  set (i2 := vi3_p_integration_2 s i). set (iv := vi3_p_vbits_to_cbits s i).
  set (s2 := vi3_u_integration_2 s) in *. set (vb := vi3_u_vbits_to_cbits s) in *.
  assert (Pl : wide 56 (vlf_i_enc_in (vi2_p_lj92_pipeline_fifo s2 i2)) /\ wide 6 (vlf_i_enc_in_ctr (vi2_p_lj92_pipeline_fifo s2 i2))) by (split; [exact Wa|exact Wb]).
  assert (Pc : wide 30 (vcf_i_enc_in (vi2_p_converter_fifo s2 i2)) /\ wide 5 (vcf_i_enc_in_ctr (vi2_p_converter_fifo s2 i2)))
    by (unfold vi2_p_converter_fifo; cbn [vcf_i_enc_in vcf_i_enc_in_ctr]; rewrite Ov1, Ov2; split; assumption).
  assert (Pi : wide 5 (vih_i_enc_in_ctr (vvb_p_input_handler vb iv))) by (unfold vvb_p_input_handler, iv, vi3_p_vbits_to_cbits; cbn [vih_i_enc_in_ctr vvb_i_enc_in_ctr]; rewrite slice0; apply wide_trunc; lia).
  apply (fun x => vi1_step_R _ _ _ _ (vi2_p_integration_1 s2 i2) x) in R1. cbv zeta in R1.
  apply (fun x => proj2 (lj_fifo_sim _ _ (vi2_p_lj92_pipeline_fifo s2 i2) Pl x)) in Rl.
  apply (fun x => proj2 (cv_fifo_sim _ _ (vi2_p_converter_fifo s2 i2) Pc x)) in Rc.
  apply (fun x => proj2 (converter_sim _ _ (vi2_p_converter s2 i2) I x)) in Rv.
  apply (fun x => proj2 (input_handler_sim _ _ (vvb_p_input_handler vb iv) Pi x)) in Ri.
  apply (fun x => proj2 (output_handler_sim _ _ (vvb_p_output_handler vb iv) I x)) in Ro.
  assert (En := conj E1 (conj E2 (conj E3 E4))). 
  assert (N : (vi2_n_nready_end s2 i2 = (if vi3_i_rst i then false else sg_end_of_frame (i1_sig (s_i1 m)) && vi3_i_valid_in i && negb (i3_nready m) || s_nready_end_reg m)) /\
    (vi2_n_nready_end_reg s2 i2 = (if vi3_i_rst i then false else sg_end_of_frame (i1_sig (s_i1 m)) && vi3_i_valid_in i && negb (i3_nready m) || s_nready_end_reg m)) /\
    (vi2_n_nready_reset s2 i2 = (if vi3_i_rst i then false else if s_nready_ctr m =? 7 then true else s_nready_reset m)) /\
    (vi2_n_nready_reset_counter s2 i2 = (if vi3_i_rst i then 0 else trunc 3 (s_nready_ctr m + 1)))).
  { unfold vi2_n_nready_end, vi2_n_nready_end_reg, vi2_n_nready_reset, vi2_n_nready_reset_counter, i2, vi3_p_integration_2. cbn [vi2_i_valid_in vi2_i_rst].
    rewrite Nr, O4, E2, E3, E4, !eqb_t, eqb_f, (slice0_mod 3 4) by lia.
    destruct (vi3_i_rst i); repeat split; destruct (sg_end_of_frame (i1_sig (s_i1 m)) && vi3_i_valid_in i && negb (i3_nready m)); reflexivity. }
  cbv zeta. unfold vi3_R, vi3_step, vi2_step, vvb_step. fold i2 iv s2 vb.
  cbn [vi3_u_integration_2 vi3_u_vbits_to_cbits vi2_u_integration_1 vi2_u_lj92_pipeline_fifo vi2_u_converter_fifo vi2_u_converter vvb_u_input_handler vvb_u_output_handler
    vi2_nready_end vi2_nready_end_reg vi2_nready_reset vi2_nready_reset_counter].
  revert R1 Rl Rc Rv Ri Ro N.
  generalize (vi1_step (vi2_u_integration_1 s2) (vi2_p_integration_1 s2 i2)), (vlf_step (vi2_u_lj92_pipeline_fifo s2) (vi2_p_lj92_pipeline_fifo s2 i2)), (vcf_step (vi2_u_converter_fifo s2) (vi2_p_converter_fifo s2 i2)),
    (vcv_step (vi2_u_converter s2) (vi2_p_converter s2 i2)), (vih_step (vvb_u_input_handler vb) (vvb_p_input_handler vb iv)), (voh_step (vvb_u_output_handler vb) (vvb_p_output_handler vb iv)),
    (vi2_n_nready_end s2 i2), (vi2_n_nready_end_reg s2 i2), (vi2_n_nready_reset s2 i2), (vi2_n_nready_reset_counter s2 i2).
  intros t1 t2 t3 t4 t5 t6 b1 b2 b3 b4 R1 Rl Rc Rv Ri Ro N.
  assert (Wv := fun a b c d e => cv_step_wide (s_cv m) a b c d e W1 W2). assert (Wo := fun a b c d => vo_step_wide (vb_out (s_vb m)) a b c d W3).
  unfold clocked, vi1_next, lj_fifo_step, cv_fifo_step, vi2_p_integration_1, vi2_p_lj92_pipeline_fifo, vi2_p_converter_fifo, vi2_p_converter, vvb_p_input_handler, vvb_p_output_handler in *.
  cbn [vi1_i_full_rst vi1_i_pixel_in vi1_i_pixel_in_1 vi1_i_rst vi1_i_valid_in vlf_i_enc_in vlf_i_enc_in_ctr vlf_i_in_end vlf_i_latch_output vlf_i_rst vlf_i_valid_in
    vcf_i_enc_in vcf_i_enc_in_ctr vcf_i_in_end vcf_i_latch_output vcf_i_rst vcf_i_valid_in vcv_i_close_full vcv_i_enc_out vcv_i_enc_out_ctr vcv_i_out_end vcv_i_rst vcv_i_valid_out
    vih_i_dec_buff vih_i_enc_in vih_i_enc_in_ctr vih_i_in_end vih_i_rst vih_i_valid_in voh_i_buff_consum voh_i_buffer voh_i_busy_in voh_i_end_in voh_i_rst fst snd] in *.
  unfold i2, iv, vi3_p_integration_2, vi3_p_vbits_to_cbits in *.
  cbn [vi2_i_full_rst vi2_i_latch_output vi2_i_pixel_in vi2_i_pixel_in_1 vi2_i_rst vi2_i_valid_in vvb_i_busy_in vvb_i_enc_in vvb_i_enc_in_ctr vvb_i_in_end vvb_i_rst vvb_i_valid_in] in *.
  fold s2 vb in R1, Rl, Rc, Rv, Ri, Ro. unfold vi2_o_enc_out, vi2_o_enc_out_ctr, vi2_o_out_end, vi2_o_valid_out, vvb_o_latch_input in *.
  rewrite Oi1, Oi2, Oi3 in *. rewrite Oi4 in *. rewrite Oo4 in *. rewrite Ov1, Ov2, Ov3, Ov4, Ov5 in *. rewrite Oc1, Oc2, Oc3, Oc4, Oc5 in *. rewrite Ol2, Ol3, Ol4, Ol5 in *. rewrite Nr in R1. rewrite O1, O2 in *.
  rewrite eqb_t, eqb_f in R1.
  assert (S1 : slice 0 30 (item_enc 30 5 (ff_dout (s_cf m))) = item_enc 30 5 (ff_dout (s_cf m))).
  { rewrite (slice0 30). apply wide_id. apply (slice_wide 0 30 30); lia. }
  assert (S2 : slice 0 5 (item_ctr 30 5 (ff_dout (s_cf m))) = item_ctr 30 5 (ff_dout (s_cf m))).
  { rewrite (slice0 5). apply wide_id. apply (slice_wide 30 35 5); lia. }
  rewrite S1, S2 in Ri.
  destruct (i1_out beta_cfg (s_i1 m)) as [le lc] eqn:Q. injection O3 as O3a O3b. rewrite O3a, O3b in Rl.
  unfold i3_keep_reset, i3_step. rewrite Q.
  destruct N as (N1 & N2 & N3 & N4).
  destruct (vi3_i_rst i) eqn:Rst;
    cbn [i3_reset s_i1 s_ljf s_lj_cf s_cv s_cf s_cf_cf s_nready_end s_nready_end_reg s_nready_reset s_nready_ctr s_vb vb_init vb_in vb_out].
  - split; [exact R1|split; [exact Rl|split; [exact Rc|split; [exact Rv|split; [exact Ri|split; [exact Ro|split; [exact (conj N1 (conj N2 (conj N3 N4)))|]]]]]]].
    repeat split; unfold wide; cbn; lia.
  - split; [exact R1|split; [exact Rl|split; [exact Rc|split; [exact Rv|split; [exact Ri|split; [exact Ro|split; [exact (conj N1 (conj N2 (conj N3 N4)))|]]]]]]].
    split; [apply Wv|split; [apply Wv|apply Wo]].
Qed.

(* ---------------------------------------------------------------- top *)
Definition top_R (s : vtp_st) (m : bt_st * rf_st) : Prop :=
  vi3_R (vtp_u_integration_3 s) (b_i3 (fst m)) (b_fe (fst m)) (snd m) /\ fix_0xff_R (vtp_u_fix_0xff s) (b_f1 (fst m)) /\ fix_0xff2_R (vtp_u_fix_0xff2 s) (b_f2 (fst m)) /\
  markers_R (vtp_u_markers s) (b_mk (fst m)) /\ auto_reset_R (vtp_u_auto_reset s) (b_rst (fst m)).
Lemma top_sim : sim top_R (fun _ => True) vtp_step bt_clock vtp_pins bt_pins.
Proof.
  unfold sim, top_R. intros s [m rf] i _ (R3 & R1 & R2 & Rm & Ra). cbn [fst snd] in *.
  pose proof (vi3_outs _ _ _ _ R3) as (O1 & O2 & O3 & O4 & O5 & W).
  assert (F1 := proj1 (fix_0xff_sim _ _ vfx_idle ltac:(unfold wide; cbn; lia) R1)). unfold vfx_pins, f1_pins in F1. injection F1 as F11 F12 F13 F14 F15.
  assert (F2 := proj1 (fix_0xff2_sim _ _ vf2_idle I R2)). unfold vf2_pins, f2_pins in F2. injection F2 as F21 F22 F23 F24.
  assert (A := proj1 (auto_reset_sim _ _ var_idle I Ra)). cbn beta in A.
  assert (M := proj1 (markers_sim _ _ (vtp_p_markers s i) I Rm)). unfold vmk_pins, mk_pins in M.
  assert (Em : mk_comb (b_mk m) (vmk_read (vtp_p_markers s i)) = bt_out m (vtp_read rf i)).
  { unfold bt_out, vmk_read, bt_mk_in, vtp_p_markers. cbn [vmk_i_data_in vmk_i_end_in vmk_i_force_end_in vmk_i_i_busy vmk_i_valid_in vtp_read bi_busy]. rewrite O4, F21, F22, F23. reflexivity. }
  rewrite Em in M. cbv zeta in M. injection M as M1 M2 M3 M4.
  split.
  { unfold vtp_pins, bt_pins, bt_nready. cbn [fst snd]. rewrite <- M1, <- M2, <- M3, <- O5. reflexivity. }
  assert (W1 : wide 16 (vfx_i_data_in (vtp_p_fix_0xff s i))) by (unfold vtp_p_fix_0xff; cbn [vfx_i_data_in]; rewrite O1; exact W).
  apply (fun x => vi3_step_R _ _ _ _ (vtp_p_integration_3 s i) x) in R3. cbv zeta in R3.
  apply (fun x => proj2 (fix_0xff_sim _ _ (vtp_p_fix_0xff s i) W1 x)) in R1.
  apply (fun x => proj2 (fix_0xff2_sim _ _ (vtp_p_fix_0xff2 s i) I x)) in R2.
  apply (fun x => proj2 (markers_sim _ _ (vtp_p_markers s i) I x)) in Rm.
  apply (fun x => proj2 (auto_reset_sim _ _ (vtp_p_auto_reset s i) I x)) in Ra.
  unfold vtp_step. cbn [vtp_u_integration_3 vtp_u_fix_0xff vtp_u_fix_0xff2 vtp_u_markers vtp_u_auto_reset].
  revert R3 R1 R2 Rm Ra.
  generalize (vi3_step (vtp_u_integration_3 s) (vtp_p_integration_3 s i)), (vfx_step (vtp_u_fix_0xff s) (vtp_p_fix_0xff s i)), (vf2_step (vtp_u_fix_0xff2 s) (vtp_p_fix_0xff2 s i)),
    (vmk_step (vtp_u_markers s) (vtp_p_markers s i)), (var_step (vtp_u_auto_reset s) (vtp_p_auto_reset s i)).
  intros t1 t2 t3 t4 t5 R3 R1 R2 Rm Ra.
  assert (M1' : var_i_hs1_in (vtp_p_auto_reset s i) = mko_valid (bt_out m (vtp_read rf i))) by exact M1.
  assert (M3' : var_i_end_in (vtp_p_auto_reset s i) = mko_end (bt_out m (vtp_read rf i))) by exact M3.
  assert (M4' : vf2_i_i_busy (vtp_p_fix_0xff2 s i) = mko_busy (bt_out m (vtp_read rf i))) by exact M4.
  unfold clocked, vi3_read, vfx_read, vf2_read, vmk_read in *. rewrite M1', M3' in Ra. rewrite M4' in R2.
  unfold vtp_p_integration_3, vtp_p_fix_0xff, vtp_p_fix_0xff2, vtp_p_markers, vtp_p_auto_reset in *.
  cbn [vi3_i_busy_in vi3_i_full_rst vi3_i_pixel_in vi3_i_pixel_in_1 vi3_i_rst vi3_i_valid_in vfx_i_data_in vfx_i_end_in vfx_i_i_busy vfx_i_rst vfx_i_valid_in
    vf2_i_data_in vf2_i_data_in_ctr vf2_i_end_in vf2_i_rst vf2_i_valid_in vmk_i_data_in vmk_i_end_in vmk_i_force_end_in vmk_i_i_busy vmk_i_rst vmk_i_valid_in var_i_hs2_in var_i_rst] in *.
  rewrite A, !eqb_t in *. rewrite F15, F24 in *. rewrite O1, O2, O3 in *. rewrite F11, F12, F13, F14 in *. rewrite F21, F22, F23, O4 in Rm. rewrite eqb_f in Ra.
  unfold bt_clock, bt_step. cbn [fst snd].
  destruct (vtp_i_full_rst i) eqn:F; [|destruct (b_rst m) eqn:B]; cbn [orb fst snd] in *; rewrite ?B in *; cbn [orb] in *.
  - rewrite orb_true_r in *. split; [exact R3|split; [exact R1|split; [exact R2|split; [exact Rm|exact Ra]]]].
  - split; [exact R3|split; [exact R1|split; [exact R2|split; [exact Rm|exact Ra]]]].
  - split; [exact R3|split; [exact R1|split; [exact R2|split; [exact Rm|]]]]. unfold bt_next. cbn [b_rst]. rewrite B. exact Ra.
Qed.
Lemma top_R0 a0 a1 d1 d2 : top_R (vtp_powerup a0 a1 d1 d2) (bt_powerup d1 d2).
Proof.
  unfold top_R, bt_powerup, bt_reset_with, vtp_powerup. cbn [fst snd vtp_u_integration_3 vtp_u_fix_0xff vtp_u_fix_0xff2 vtp_u_markers vtp_u_auto_reset b_i3 b_fe b_f1 b_f2 b_mk b_rst].
  split; [|split; [exact fix_0xff_R0|split; [exact fix_0xff2_R0|split; [exact markers_R0|exact auto_reset_R0]]]].
  unfold vi3_R, i3_reset. cbn [vi3_u_integration_2 vi3_u_vbits_to_cbits vi2_u_integration_1 vi2_u_lj92_pipeline_fifo vi2_u_converter_fifo vi2_u_converter
    s_i1 s_ljf s_lj_cf s_cf s_cf_cf s_cv s_vb s_nready_end s_nready_end_reg s_nready_reset s_nready_ctr vb_init vb_in vb_out vi2_nready_end vi2_nready_end_reg vi2_nready_reset vi2_nready_reset_counter].
  split; [|split; [|split; [|split; [exact converter_R0|split; [exact input_handler_R0|split; [exact output_handler_R0|split; [repeat split|repeat split; unfold wide; cbn; lia]]]]]]].
  - unfold vi1_R, vi1_powerup, i1_reset. cbn [vi1_u_signals vi1_u_predictor vi1_u_difference vi1_u_normalize vi1_u_encode vi1_u_merge vi1_u_force_end vi1_u_register_file i1_sig i1_pred i1_diff i1_norm i1_enc i1_merge].
    split; [exact signals_R0|split; [eexists; split; [reflexivity|exact predictor_R0]|split; [exact difference_R0|split; [exact normalize_R0|split; [|split; [exact merge_R0|split; [exact force_end_R0|split; [exact register_file_R0|unfold wide; cbn; lia]]]]]]]].
    exists 0, 0. split; [reflexivity|]. split; [reflexivity|]. split; [discriminate|]. repeat split; unfold wide; cbn; lia.
  - split; [reflexivity|cbn; lia].
  - split; [reflexivity|cbn; lia].
Qed.
