(* Lemmas for C90: the leaf modules of the Verilog shipped in verilog_src do in every cycle what the models, read from the Python source, say. *)
From Verif Require Import Bits V_Gen M_Markers M_Signals M_Difference M_Config M_VBits M_Converter M_Fix M_Predictor M_Misc M_AxiHP M_Beta Spec_Verilog.
Ltac Zify.zify_post_hook ::= idtac.

(* g simulates f: from related states, in every cycle, the pins agree and the next states are related *)
Definition sim {S M I O} (R : S -> M -> Prop) (P : I -> Prop) (f : S -> I -> S) (g : M -> I -> M) (a : S -> I -> O) (b : M -> I -> O) : Prop :=
  forall s m i, P i -> R s m -> a s i = b m i /\ R (f s i) (g m i).
Lemma trace_sim {S M I O} (R : S -> M -> Prop) (P : I -> Prop) (f : S -> I -> S) (g : M -> I -> M) (a : S -> I -> O) (b : M -> I -> O) :
  sim R P f g a b ->
  forall l s m, R s m -> Forall P l -> trace f a s l = trace g b m l.
Proof.
  intros H l. induction l as [|i r IH]; intros s m HR HP; [reflexivity|]. inversion HP; subst.
  destruct (H s m i) as [E R']; auto. cbn [trace]. rewrite E. f_equal. auto.
Qed.
Lemma Forall_T {A} (l : list A) : Forall (fun _ => True) l. Proof. induction l; auto. Qed.

Lemma eqb_f b : Bool.eqb b false = negb b. Proof. destruct b; reflexivity. Qed.
Lemma eqb_t b : Bool.eqb b true = b. Proof. destruct b; reflexivity. Qed.
Lemma geb_le a b : (a >=? b) = (b <=? a). Proof. apply Z.geb_leb. Qed.
Lemma slice0_mod w v x : 0 <= w <= v -> slice 0 w (x mod 2 ^ v) = trunc w x.
Proof.
  intros H. unfold slice, trunc. rewrite Z.pow_0_r, Z.div_1_r, Z.sub_0_r.
  replace v with (w + (v - w)) by lia. rewrite Z.pow_add_r by lia. rewrite Z.rem_mul_r by (try apply Z.pow_nonzero; try apply Z.pow_pos_nonneg; lia).
  rewrite (Z.mul_comm (2 ^ w)), Z.mod_add by (apply Z.pow_nonzero; lia). apply Z.mod_mod. apply Z.pow_nonzero; lia.
Qed.
Lemma slice0 w x : slice 0 w x = trunc w x.
Proof. unfold slice, trunc. now rewrite Z.pow_0_r, Z.div_1_r, Z.sub_0_r. Qed.
Lemma wide_trunc w x : 0 <= w -> wide w (trunc w x). Proof. apply trunc_range. Qed.
Lemma wide_id w x : wide w x -> trunc w x = x. Proof. apply trunc_id. Qed.
Lemma if_same {A} (b : bool) (x : A) : (if b then x else x) = x. Proof. destruct b; reflexivity. Qed.

(* ---------------------------------------------------------------- markers *)
Definition mk_code (f : mk_fsm) : Z :=
  match f with MK_IDLE => 0 | MK_START => 1 | MK_FRAME => 2 | MK_ENDM => 3 | MK_DONE => 4 | MK_FENDM => 5 | MK_FDONE => 6 end.
Definition mk_R (s : vmk_st) (m : mk_st) : Prop :=
  vmk_fsm_state s = mk_code (mk_fsm_st m) /\ vmk_counter s = mk_ctr m /\ vmk_end_cond s = mk_end_cond m.


Definition markers_R : _ -> _ -> Prop := mk_R.
Lemma markers_sim : sim markers_R (fun _ => True) vmk_step (clocked vmk_i_rst mk_init (fun m i => mk_step m (vmk_read i))) vmk_pins mk_pins.
Proof. unfold sim, markers_R.
  intros [f c e] [mf mc me] [d en fo b rs v] _ (H1 & H2 & H3). cbn [vmk_fsm_state vmk_counter vmk_end_cond mk_fsm_st mk_ctr mk_end_cond] in *. subst f c e.
  assert (T : slice 0 4 ((mc - 1) mod 2 ^ 5) = trunc 4 (mc - 1)) by (apply slice0_mod; lia).
  unfold vmk_pins, mk_pins, mk_comb, clocked, mk_R, vmk_step, mk_step, vmk_read, vmk_n_fsm_state, vmk_n_counter, vmk_n_end_cond,
    vmk_o_valid_out, vmk_o_data_out, vmk_o_end_out, vmk_o_o_busy;
  cbn [vmk_fsm_state vmk_counter vmk_end_cond mk_fsm_st mk_ctr mk_end_cond vmk_i_data_in vmk_i_end_in vmk_i_force_end_in vmk_i_i_busy vmk_i_rst
       vmk_i_valid_in mki_valid mki_data mki_end mki_force mki_busy]; rewrite T, !eqb_f, !eqb_t.
  destruct rs, mf, b, v, en, fo, me; cbn [mk_code Z.eqb Pos.eqb negb andb]; destruct (mc =? 0), (mc =? 1); repeat split.
Qed.

Lemma markers_R0 : markers_R vmk_init mk_init. Proof. repeat split. Qed.



(* ---------------------------------------------------------------- force_end *)
Definition fe_code (f : fe_fsm) : Z := match f with FE_IDLE => 0 | FE_COUNTING => 1 | FE_END => 2 end.

Definition force_end_R : _ -> _ -> Prop := fun s m => vfe_fsm_state s = fe_code (fe_fsm_st m) /\ vfe_counter s = fe_ctr m /\ vfe_fend s = fe_fend m.
Lemma force_end_sim : sim force_end_R (fun _ => True) vfe_step (clocked vfe_i_rst fe_init (fun m i => fe_step m (vfe_i_valid_in i) (vfe_i_allowed_cycles i))) vfe_o_fend (fun m _ => fe_fend m).
Proof. unfold sim, force_end_R.
  intros [f c e] [mf mc me] [al rs v] _ (H1 & H2 & H3). cbn [vfe_fend vfe_counter vfe_fsm_state fe_fsm_st fe_ctr fe_fend] in *. subst.
  split; [reflexivity|]. unfold clocked, vfe_step, fe_step, vfe_n_fend, vfe_n_counter, vfe_n_fsm_state.
  rewrite (slice0_mod 25 26) by lia.
  cbn [vfe_fend vfe_counter vfe_fsm_state fe_fsm_st fe_ctr fe_fend vfe_i_rst vfe_i_valid_in vfe_i_allowed_cycles].
  destruct rs, mf, v; cbn [fe_code Z.eqb Pos.eqb]; destruct (mc =? al); repeat split.
Qed.

Lemma force_end_R0 : force_end_R vfe_init fe_init. Proof. repeat split. Qed.



(* ---------------------------------------------------------------- auto_reset, register_file *)

Definition auto_reset_R : _ -> _ -> Prop := fun s m => var_reset_out s = m.
Lemma auto_reset_sim : sim auto_reset_R (fun _ => True) var_step (clocked var_i_rst false (fun m i => ar_step m (var_i_end_in i) (var_i_hs1_in i) (var_i_hs2_in i))) var_o_reset_out (fun m _ => m).
Proof. unfold sim, auto_reset_R.
  intros [s] m [e h1 h2 rs] _ H. cbn [var_reset_out] in H. subst s. split; [reflexivity|].
  destruct rs, e, h1, h2, m; reflexivity.
Qed.

Lemma auto_reset_R0 : auto_reset_R var_init false. Proof. repeat split. Qed.



Definition register_file_R : _ -> _ -> Prop := fun s m => vrf_width_reg s = rf_width m /\ vrf_height_reg s = rf_height m /\ vrf_allowed_cycles_reg s = rf_allowed m.
Lemma register_file_sim : sim register_file_R (fun _ => True) vrf_step (clocked vrf_i_full_rst rf_init (fun m _ => rf_step m)) (fun s i => (vrf_o_width s i, vrf_o_height s i, vrf_o_allowed_cycles s i)) (fun m _ => (rf_width m, rf_height m, rf_allowed m)).
Proof. unfold sim, register_file_R.
  intros [a h w] [mw mh ma] [rs] _ (H1 & H2 & H3). cbn [vrf_width_reg vrf_height_reg vrf_allowed_cycles_reg rf_width rf_height rf_allowed] in *. subst.
  split; [reflexivity|]. destruct rs; repeat split.
Qed.

Lemma register_file_R0 : register_file_R vrf_init rf_init. Proof. repeat split. Qed.



(* ---------------------------------------------------------------- signals (two pixels per cycle) *)
Definition sg_code (f : sig_fsm) : Z := match f with SIG_IDLE => 0 | SIG_LOOP => 1 | SIG_END => 2 end.

Definition signals_R : _ -> _ -> Prop := fun s m => vsg_fsm_state s = sg_code (sg_fsm m) /\ vsg_width_temp s = sg_width m /\ vsg_height_temp s = sg_height m /\
                     vsg_end_of_frame s = sg_end_of_frame m /\ vsg_new_row s = sg_new_row m.
Lemma signals_sim : sim signals_R (fun i => wide 16 (vsg_i_width i)) vsg_step (clocked vsg_i_rst sig_init (fun m i => sig_step 2 m (vsg_i_new_input i) (vsg_i_width i) (vsg_i_height i))) (fun s i => (vsg_o_new_row s i, vsg_o_end_of_frame s i)) (fun m _ => (sg_new_row m, sg_end_of_frame m)).
Proof. unfold sim, signals_R.
  intros [e f n h w] [mf mw mh me mn] [ih inew rs iw] W (H1 & H2 & H3 & H4 & H5).
  cbn [vsg_fsm_state vsg_width_temp vsg_height_temp vsg_end_of_frame vsg_new_row sg_fsm sg_width sg_height sg_end_of_frame sg_new_row vsg_i_width] in *. subst.
  split; [reflexivity|]. unfold clocked, vsg_step, sig_step, vsg_n_end_of_frame, vsg_n_fsm_state, vsg_n_new_row, vsg_n_height_temp, vsg_n_width_temp.
  rewrite !(slice0_mod 16 17) by lia.
  cbn [vsg_fsm_state vsg_width_temp vsg_height_temp vsg_end_of_frame vsg_new_row sg_fsm sg_width sg_height sg_end_of_frame sg_new_row
       vsg_i_width vsg_i_height vsg_i_new_input vsg_i_rst].
  rewrite (wide_id 16 iw W). change (2 * 2) with 4.
  destruct rs, mf, inew; cbn [sg_code Z.eqb Pos.eqb]; repeat split; destruct (mh =? 0), (mw =? 4), (mw =? 2); repeat split.
Qed.

Lemma signals_R0 : signals_R vsg_init sig_init. Proof. repeat split. Qed.



(* ---------------------------------------------------------------- difference (12 bits, two pixels per cycle) *)

Definition difference_R : _ -> _ -> Prop := fun s m => vdf_pins s {| vdf_i_end_in := false; vdf_i_pixel_in := 0; vdf_i_pixel_in_1 := 0; vdf_i_predic_in := 0; vdf_i_predic_in_2 := 0;
                                  vdf_i_rst := false; vdf_i_valid_in := false |} = (df_valid m, df_end m, df_vals m, df_mns m).
Lemma difference_sim : sim difference_R (fun _ => True) vdf_step (clocked vdf_i_rst (diff_init 2) (fun m i => diff_step 12 m (vdf_i_valid_in i) (vdf_i_end_in i)
           [vdf_i_pixel_in i; vdf_i_pixel_in_1 i] [vdf_i_predic_in i; vdf_i_predic_in_2 i])) vdf_pins df_pins.
Proof. unfold sim, difference_R.
  intros [e v a5 a4 a3 a] [mv mm mva me] [ie p p1 q q2 rs iv] _ H.
  unfold vdf_pins, df_pins, vdf_o_valid_out, vdf_o_end_out, vdf_o_val_out, vdf_o_val_out_3, vdf_o_val_out_4, vdf_o_val_out_5 in *.
  cbn [vdf_end_out vdf_valid_out vdf_val_out_5 vdf_val_out_4 vdf_val_out_3 vdf_val_out df_vals df_mns df_valid df_end] in *.
  injection H as -> -> <- <-. split; [reflexivity|].
  unfold clocked, vdf_step, diff_step, sub_val, sub_mns, vdf_n_end_out, vdf_n_valid_out, vdf_n_val_out_5, vdf_n_val_out_4, vdf_n_val_out_3, vdf_n_val_out, trunc.
  assert (M : forall x, slice 0 13 ((x mod 2 ^ 13 - 1) mod 2 ^ 14) = (x - 1) mod 2 ^ 13).
  { intros x. rewrite slice0_mod by lia. unfold trunc. rewrite Zminus_mod_idemp_l. reflexivity. }
  rewrite !M. cbn [vdf_end_out vdf_valid_out vdf_val_out_5 vdf_val_out_4 vdf_val_out_3 vdf_val_out vdf_i_end_in vdf_i_pixel_in vdf_i_pixel_in_1
    vdf_i_predic_in vdf_i_predic_in_2 vdf_i_rst vdf_i_valid_in df_vals df_mns df_valid df_end].
  change (12 + 1) with 13. destruct rs, iv; reflexivity.
Qed.

Lemma difference_R0 : difference_R vdf_init (diff_init 2). Proof. reflexivity. Qed.



(* ---------------------------------------------------------------- output_handler *)
Definition vo_code (f : vo_fsm) : Z := match f with VO_OUTPUT => 0 | VO_BURST => 1 | VO_END => 2 end.

Definition output_handler_R : _ -> _ -> Prop := fun s m => voh_fsm_state s = vo_code (vo_state m) /\ voh_data_out s = vo_data m /\ voh_valid_out s = vo_valid m /\ voh_end_out s = vo_end m.
Lemma output_handler_sim : sim output_handler_R (fun _ => True) voh_step (clocked voh_i_rst vo_init (fun m i => vo_step beta_cfg m (voh_i_buffer i) (voh_i_buff_consum i) (voh_i_end_in i) (voh_i_busy_in i))) voh_pins vo_pins.
Proof. unfold sim, output_handler_R.
  intros [v e d f] [mf md mv me] [ic ib iu ie rs] _ (H1 & H2 & H3 & H4). cbn [voh_fsm_state voh_data_out voh_valid_out voh_end_out vo_state vo_data vo_valid vo_end] in *. subst.
  assert (A : slice 0 16 (ib / 2 ^ slice 0 6 ((ic - 16) mod 2 ^ 8)) = trunc 16 (Z.shiftr ib (trunc 6 (ic - 16)))).
  { rewrite (slice0_mod 6 8), slice0 by lia. rewrite Z.shiftr_div_pow2; [reflexivity|apply trunc_range; lia]. }
  assert (B : slice 0 16 ((ib * 2 ^ slice 0 4 ((16 - ic) mod 2 ^ 8)) mod 2 ^ 92) = trunc 16 (Z.shiftl ib (trunc 4 (16 - ic)))).
  { rewrite (slice0_mod 4 8), slice0_mod by lia. rewrite Z.shiftl_mul_pow2; [reflexivity|apply trunc_range; lia]. }
  unfold voh_pins, vo_pins, clocked, voh_step, vo_step, vo_dec, vo_word, vo_ge, vo_le, voh_n_valid_out, voh_n_end_out, voh_n_data_out, voh_n_fsm_state,
    voh_o_valid_out, voh_o_end_out, voh_o_data_out, voh_o_dec_buff_out.
  change (clog2 (bufs beta_cfg - outb beta_cfg + 1)) with 6. change (clog2 (outb beta_cfg)) with 4. change (outb beta_cfg) with 16.
  cbn [voh_fsm_state voh_data_out voh_valid_out voh_end_out vo_state vo_data vo_valid vo_end voh_i_buff_consum voh_i_buffer voh_i_busy_in voh_i_end_in voh_i_rst].
  rewrite A, B, !eqb_f, !geb_le. destruct rs, mf, iu, ie; cbn [vo_code Z.eqb Pos.eqb negb andb orb]; destruct (16 <=? ic), (ic <=? 16); repeat split.
Qed.

Lemma output_handler_R0 : output_handler_R voh_init vo_init. Proof. repeat split. Qed.



(* ---------------------------------------------------------------- fix_0xff *)

Definition fix_0xff_R : _ -> _ -> Prop := fun s m => s = {| vfx_end_out_reg := f1_ereg m; vfx_data_out_ctr_reg := f1_creg m; vfx_data_out_reg := f1_dreg m; vfx_data_out_valid := f1_dval m;
      vfx_o_busy := f1_obusy m; vfx_data_out_ctr := f1_ctr m; vfx_data_out := f1_dout m; vfx_end_out := f1_eout m; vfx_valid_out := f1_vout m;
      vfx_zeros := 0; vfx_ones := 255 |}.
Lemma fix_0xff_sim : sim fix_0xff_R (fun i => wide 16 (vfx_i_data_in i)) vfx_step (clocked vfx_i_rst f1_init (fun m i => f1_step m (vfx_read i))) vfx_pins f1_pins.
Proof. unfold sim, fix_0xff_R.
  intros s [mv md mc me mo mdr mcr mer mdv] [d e b rs v] W ->. split; [reflexivity|]. cbn [vfx_i_data_in] in W.
  assert (L : f1_logic d = ((if d =? 65535 then (((255 * 2 ^ 8 + 0) * 2 ^ 8 + 255) * 2 ^ 8 + 0)
     else if slice 0 8 d =? 255 then ((slice 8 16 d * 2 ^ 8 + 255) * 2 ^ 8 + 0)
     else if slice 8 16 d =? 255 then ((255 * 2 ^ 8 + 0) * 2 ^ 8 + slice 0 8 d) else d),
     (if d =? 65535 then 4 else if slice 0 8 d =? 255 then 3 else if slice 8 16 d =? 255 then 3 else 2))).
  { unfold f1_logic. rewrite slice0, (wide_id 16 d W). repeat match goal with |- context[if ?b then _ else _] => destruct b end; try reflexivity; f_equal; ring. }
  unfold clocked, vfx_step, f1_step, vfx_read, vfx_n_end_out_reg, vfx_n_data_out_ctr_reg, vfx_n_data_out_reg, vfx_n_data_out_valid, vfx_n_o_busy, vfx_n_data_out_ctr,
    vfx_n_data_out, vfx_n_end_out, vfx_n_valid_out, vfx_n_zeros, vfx_n_ones.
  cbn [vfx_end_out_reg vfx_data_out_ctr_reg vfx_data_out_reg vfx_data_out_valid vfx_o_busy vfx_data_out_ctr vfx_data_out vfx_end_out vfx_valid_out vfx_zeros vfx_ones
    vfx_i_data_in vfx_i_end_in vfx_i_i_busy vfx_i_rst vfx_i_valid_in f1_vout f1_dout f1_ctr f1_eout f1_obusy f1_dreg f1_creg f1_ereg f1_dval
    f1i_valid f1i_data f1i_end f1i_busy]. rewrite L, !eqb_f, !eqb_t.
  destruct rs, b, mdv, mo, mv, v; reflexivity.
Qed.

Lemma fix_0xff_R0 : fix_0xff_R vfx_init f1_init. Proof. reflexivity. Qed.



(* ---------------------------------------------------------------- delayer, address_generator, debug_module *)

Definition delayer_R : _ -> _ -> Prop := fun s m => vdl_timer s = dy_timer m /\ vdl_timer_start s = dy_start m /\ vdl_out_val s = dy_out m.
Lemma delayer_sim : sim delayer_R (fun _ => True) vdl_step (clocked vdl_i_rst (dly_init 3 8) (fun m i => dly_step 3 m (vdl_i_in_sig i))) vdl_o_out_sig (fun m _ => dy_out m).
Proof. unfold sim, delayer_R.
  intros [o t st] [mt ms mo] [i rs] _ (H1 & H2 & H3). cbn [vdl_timer vdl_timer_start vdl_out_val dy_timer dy_start dy_out] in *. subst.
  split; [reflexivity|]. unfold clocked, vdl_step, dly_step, vdl_n_out_val, vdl_n_timer, vdl_n_timer_start. rewrite (slice0_mod 3 4) by lia.
  cbn [vdl_timer vdl_timer_start vdl_out_val dy_timer dy_start dy_out vdl_i_in_sig vdl_i_rst]. destruct rs, ms, i; repeat split.
Qed.

Lemma delayer_R0 : delayer_R vdl_init (dly_init 3 8). Proof. repeat split. Qed.



Definition address_generator_R : _ -> _ -> Prop := fun s m => vag_fsm_state s = ag_loop m /\ vag_address_o s = ag_addr m /\ vag_address_valid s = ag_valid m.
Lemma address_generator_sim : sim address_generator_R (fun i => wide 32 (vag_i_starting_address i)) vag_step (clocked vag_i_rst ag_init (fun m i => ag_step 16 m (vag_i_starting_address i) (vag_i_address_latch i))) (fun s i => (vag_o_address_o s i, vag_o_address_valid s i)) (fun m _ => (ag_addr m, ag_valid m)).
Proof. unfold sim, address_generator_R.
  intros [f v a] [ml ma mv] [la rs st] W (H1 & H2 & H3). cbn [vag_fsm_state vag_address_o vag_address_valid ag_loop ag_addr ag_valid vag_i_starting_address] in *. subst.
  split; [reflexivity|]. unfold clocked, vag_step, ag_step, vag_n_fsm_state, vag_n_address_valid, vag_n_address_o. rewrite !(slice0_mod 32 33) by lia.
  cbn [vag_fsm_state vag_address_o vag_address_valid ag_loop ag_addr ag_valid vag_i_starting_address vag_i_address_latch vag_i_rst]. rewrite (wide_id 32 st W).
  destruct rs, ml, la; repeat split.
Qed.

Lemma address_generator_R0 : address_generator_R vag_init ag_init. Proof. repeat split. Qed.



Definition debug_module_R : _ -> _ -> Prop := fun s m => m = [vdb_wsignal s; vdb_wsignal_1 s; vdb_wsignal_2 s; vdb_wsignal_3 s; vdb_wsignal_4 s; vdb_wsignal_5 s; vdb_wsignal_6 s; vdb_wsignal_7 s].
Lemma debug_module_sim : sim debug_module_R (fun _ => True) vdb_step (clocked vdb_i_full_rst dbg_regs_init (fun m i => dbg_step 0 m (vdb_i_regs_en i))) vdb_pins (fun m _ => m).
Proof. unfold sim, debug_module_R.
  intros s m [rs en] _ ->. split; [reflexivity|].
  unfold clocked, vdb_step, vdb_n_wsignal, vdb_n_wsignal_1, vdb_n_wsignal_2, vdb_n_wsignal_3, vdb_n_wsignal_4, vdb_n_wsignal_5, vdb_n_wsignal_6, vdb_n_wsignal_7.
  rewrite !(slice0_mod 32 33) by lia.
  cbn [vdb_wsignal vdb_wsignal_1 vdb_wsignal_2 vdb_wsignal_3 vdb_wsignal_4 vdb_wsignal_5 vdb_wsignal_6 vdb_wsignal_7 vdb_i_full_rst vdb_i_regs_en dbg_step].
  destruct rs; reflexivity.
Qed.

Lemma debug_module_R0 : debug_module_R vdb_init dbg_regs_init. Proof. repeat split. Qed.



(* ---------------------------------------------------------------- converter (30 bits, words of at most 56) *)
Definition cv_code (f : cv_fsm) : Z := match f with CV_IDLE => 0 | CV_BURST => 1 | CV_BURST_PREPARE => 2 | CV_STEPS _ => 3 end.
Lemma slice_wide k w v x : 0 <= k -> 0 <= w - k <= v -> wide v (slice k w x).
Proof. intros A B. pose proof (slice_range k w x ltac:(lia)). unfold wide. assert (2 ^ (w - k) <= 2 ^ v) by (apply Z.pow_le_mono_r; lia). lia. Qed.
Definition cv_R (s : vcv_st) (m : cv_st) : Prop :=
  s = {| vcv_out_end_latch := cv_end_latch m; vcv_enc_out_latch := cv_latch m; vcv_in_end := cv_in_end m; vcv_enc_in_ctr := cv_enc_in_ctr m; vcv_enc_in := cv_enc_in m;
         vcv_valid_out_reg := cv_valid_reg m; vcv_out_end_reg := cv_end_reg m; vcv_enc_out_ctr_reg := cv_ctr_reg m; vcv_enc_out_reg := cv_reg m;
         vcv_fsm_state := cv_code (cv_state m); vcv_latch_output := cv_latch_output m; vcv_valid_in := cv_valid_in m |} /\
  wide 30 (cv_latch m) /\ (forall i, cv_state m = CV_STEPS i -> i = O).

Definition converter_R : _ -> _ -> Prop := cv_R.
Lemma converter_sim : sim converter_R (fun _ => True) vcv_step (clocked vcv_i_rst cv_init (fun m i => cv_step beta_cfg m (vcv_i_enc_out i) (vcv_i_enc_out_ctr i) (vcv_i_out_end i) (vcv_i_valid_out i) (vcv_i_close_full i))) vcv_pins cv_pins.
Proof. unfold sim, converter_R.
  intros s [ms mlo mei mec mie mvi ml mel mr mcr mer mvr] [cf d dc de rs v] _ (-> & W & Z0). split; [reflexivity|].
  cbn [cv_latch cv_state] in W, Z0.
  assert (A : trunc 30 (slice 30 56 mr) = slice 30 56 mr) by (apply wide_id, slice_wide; lia).
  assert (B : trunc 30 (slice 0 30 ml) = ml) by (rewrite slice0, !(wide_id 30 ml W); reflexivity).
  assert (C : slice 0 5 ((mcr - 30) mod 2 ^ 7) = trunc 5 (mcr - 30)) by (apply slice0_mod; lia).
  assert (D : slice 0 30 mr = trunc 30 mr) by apply slice0.
  assert (E : slice 0 5 mcr = trunc 5 mcr) by apply slice0.
  assert (E30 : wide 30 (trunc 30 mr)) by (apply wide_trunc; lia).
  assert (W0 : wide 30 0) by (unfold wide; cbn; lia).
  unfold clocked, vcv_step, cv_step, cv_R, cv_try, vcv_n_out_end_latch, vcv_n_enc_out_latch, vcv_n_in_end, vcv_n_enc_in_ctr, vcv_n_enc_in, vcv_n_valid_out_reg,
    vcv_n_out_end_reg, vcv_n_enc_out_ctr_reg, vcv_n_enc_out_reg, vcv_n_fsm_state, vcv_n_latch_output, vcv_n_valid_in.
  assert (Pk : cv_pick beta_cfg mcr 0 (Z.to_nat (cv_steps beta_cfg)) = if mcr <=? 56 then Some (30, 56, 0%nat) else None) by reflexivity.
  change (conv beta_cfg) with 30. change (clog2 (30 + 1)) with 5. change (cv_data_top beta_cfg) with 30.
  cbn [cv_state cv_latch_output cv_enc_in cv_enc_in_ctr cv_in_end cv_valid_in cv_latch cv_end_latch cv_reg cv_ctr_reg cv_end_reg cv_valid_reg
    vcv_out_end_latch vcv_enc_out_latch vcv_in_end vcv_enc_in_ctr vcv_enc_in vcv_valid_out_reg vcv_out_end_reg vcv_enc_out_ctr_reg vcv_enc_out_reg vcv_fsm_state
    vcv_latch_output vcv_valid_in vcv_i_close_full vcv_i_enc_out vcv_i_enc_out_ctr vcv_i_out_end vcv_i_rst vcv_i_valid_out].
  rewrite C, D, E, !eqb_f, !Pk. change (trunc 5 30) with 30.
  destruct ms as [| | |k]; [| | |rewrite (Z0 k eq_refl) in *; change (Z.of_nat 0 * 30) with 0; change (0 + 30) with 30; rewrite B];
  destruct rs; cbn [cv_code Z.eqb Pos.eqb]; try (split; [reflexivity|split; [exact W0|discriminate]]);
  destruct mvr, cf, v; cbn [negb andb]; try (split; [reflexivity|split; [assumption|intros; congruence]]);
  destruct (mcr <=? 30); try (split; [reflexivity|split; [assumption|intros; congruence]]);
  destruct (mcr <=? 56); rewrite ?A; (split; [reflexivity|split; [assumption|cbn [cv_state]; intros; congruence]]).
Qed.

Lemma converter_R0 : converter_R vcv_init cv_init. Proof. split; [reflexivity|split; [unfold wide; cbn; lia|discriminate]]. Qed.



(* ---------------------------------------------------------------- input_handler *)
Definition vi_code (f : vi_fsm) : Z := match f with VI_INPUT => 0 | VI_CLEAN => 1 | VI_BURST => 2 | VI_REGISTER => 3 end.
Lemma lor_mod a b n : 0 <= n -> (Z.lor a b) mod 2 ^ n = Z.lor (a mod 2 ^ n) (b mod 2 ^ n).
Proof. intros H. rewrite <- !Z.land_ones by lia. apply Z.land_lor_distr_l. Qed.
Lemma mod_mod_le x w v : 0 <= w <= v -> (x mod 2 ^ v) mod 2 ^ w = x mod 2 ^ w.
Proof. intros H. pose proof (slice0_mod w v x H) as E. rewrite slice0 in E. exact E. Qed.
Definition vi_R (s : vih_st) (m : vi_st) : Prop :=
  vih_buff_consum s = vi_consum m /\ vih_valid_in_reg s = vi_valid_reg m /\ vih_end_out s = vi_end m /\ vih_buffer s = vi_buffer m /\ vih_valid_in_buff s = vi_valid_buff m /\
  vih_latch_input s = vi_latch_input m /\ vih_fsm_state s = vi_code (vi_state m) /\ vih_in_end_reg s = vi_end_reg m /\ vih_enc_in_ctr_reg s = vi_ctr_reg m /\
  vih_enc_in_reg s = vi_reg m /\ vih_in_end_buff s = vi_end_buff m /\ vih_enc_in_ctr_buff s = vi_ctr_buff m /\ vih_enc_in_buff s = vi_buff m /\
  vih_start s = vi_start m /\ vih_buff_free s = vi_free m /\ 0 <= vi_ctr_reg m /\ 0 <= vi_ctr_buff m /\
  (vi_start m = false -> vi_state m = VI_INPUT).

Definition input_handler_R : _ -> _ -> Prop := vi_R.
Lemma input_handler_sim : sim input_handler_R (fun i => wide 5 (vih_i_enc_in_ctr i)) vih_step (clocked vih_i_rst vi_init (fun m i => vi_step beta_cfg m (vih_i_enc_in i) (vih_i_enc_in_ctr i) (vih_i_in_end i) (vih_i_valid_in i) (vih_i_dec_buff i))) vih_pins vi_pins.
Proof. unfold sim, input_handler_R.
  intros [c1 c2 c3 c4 c5 c6 c7 c8 c9 c10 c11 c12 c13 c14 c15 c16] [ms mla mb mc me mst mf mr mcr mer mvr mu mcu meu mvu] [db ie iec iend rs iv] W R.
  unfold vi_R in R.
  cbn [vih_buff_consum vih_valid_in_reg vih_end_out vih_buffer vih_valid_in_buff vih_latch_input vih_fsm_state vih_in_end_reg vih_enc_in_ctr_reg vih_enc_in_reg
    vih_in_end_buff vih_enc_in_ctr_buff vih_enc_in_buff vih_start vih_buff_free vi_state vi_latch_input vi_buffer vi_consum vi_end vi_start vi_free vi_reg vi_ctr_reg
    vi_end_reg vi_valid_reg vi_buff vi_ctr_buff vi_end_buff vi_valid_buff vih_i_enc_in_ctr] in *.
  destruct R as (-> & -> & -> & -> & -> & -> & -> & -> & -> & -> & -> & -> & -> & -> & -> & N1 & N2 & NS). destruct W as [W _].
  split; [reflexivity|].
  assert (A : slice 0 77 (Z.lor ((mb * 2 ^ mcr) mod 2 ^ 108) mr) = trunc 77 (Z.lor (Z.shiftl mb mcr) mr)).
  { rewrite slice0. unfold trunc. rewrite Z.shiftl_mul_pow2 by lia. rewrite !lor_mod by lia. now rewrite mod_mod_le by lia. }
  assert (B1 : slice 0 7 (((mc - 16) mod 2 ^ 8 + mcr) mod 2 ^ 9) = trunc 7 (mc - 16 + mcr)).
  { rewrite slice0_mod by lia. unfold trunc. rewrite <- (Z.add_mod_idemp_l (mc - 16)) by lia. rewrite <- (mod_mod_le (mc - 16) 7 8) by lia. now rewrite Z.add_mod_idemp_l by lia. }
  assert (B2 : slice 0 7 (((mf + 16) mod 2 ^ 8 - mcr) mod 2 ^ 9) = trunc 7 (mf + 16 - mcr)).
  { rewrite slice0_mod by lia. unfold trunc. rewrite <- (Zminus_mod_idemp_l (mf + 16)). rewrite <- (mod_mod_le (mf + 16) 7 8) by lia. now rewrite Zminus_mod_idemp_l. }
  unfold clocked, vih_step, vi_step, vi_R, vi_inc, vih_n_buff_consum, vih_n_valid_in_reg, vih_n_end_out, vih_n_buffer, vih_n_valid_in_buff, vih_n_latch_input, vih_n_fsm_state,
    vih_n_in_end_reg, vih_n_enc_in_ctr_reg, vih_n_enc_in_reg, vih_n_in_end_buff, vih_n_enc_in_ctr_buff, vih_n_enc_in_buff, vih_n_start, vih_n_buff_free, vih_n_valid_in_late.
  change (clog2 (bufs beta_cfg + 1)) with 7. change (bufs beta_cfg) with 77. change (outb beta_cfg) with 16.
  cbn [vih_buff_consum vih_valid_in_reg vih_end_out vih_buffer vih_valid_in_buff vih_latch_input vih_fsm_state vih_in_end_reg vih_enc_in_ctr_reg vih_enc_in_reg
    vih_in_end_buff vih_enc_in_ctr_buff vih_enc_in_buff vih_start vih_buff_free vi_state vi_latch_input vi_buffer vi_consum vi_end vi_start vi_free vi_reg vi_ctr_reg
    vi_end_reg vi_valid_reg vi_buff vi_ctr_buff vi_end_buff vi_valid_buff vih_i_dec_buff vih_i_enc_in vih_i_enc_in_ctr vih_i_in_end vih_i_rst vih_i_valid_in].
  rewrite A, B1, B2, !(slice0_mod 7 8), !eqb_f by lia. clear A B1 B2.
  destruct rs; [repeat split; try discriminate; cbn; lia|].
  destruct ms; cbn [vi_code Z.eqb Pos.eqb]; destruct mst; try (specialize (NS eq_refl); discriminate);
  destruct mvr, mvu; cbn [negb andb orb];
  try destruct (mcr <=? mf); try destruct (mcu <=? mf); destruct db; cbn [negb andb orb]; rewrite ?Z.sub_0_r, ?Z.add_0_r; repeat split; assumption || discriminate || lia.
Qed.

Lemma input_handler_R0 : input_handler_R vih_init vi_init. Proof. repeat split; cbn; lia. Qed.



(* ---------------------------------------------------------------- predictor (12 bits, two pixels per cycle) *)
Definition pr_R (s : vpr_st) (m : p12_st) : Prop :=
  m = {| p12_pixels_out := [vpr_pixel_out s; vpr_pixel_out_2 s]; p12_predics_out := [vpr_predic_out s; vpr_predic_out_3 s];
         p12_valid_out := vpr_valid_out s; p12_end_out := vpr_end_out s;
         p12_buffs := [[vpr_buff s; vpr_buff_24 s]; [vpr_buff_25 s; vpr_buff_26 s]];
         p12_lbuffs := [[vpr_lbuff s; vpr_lbuff_30 s]; [vpr_lbuff_31 s; vpr_lbuff_32 s]];
         p12_buff_ctr := b2z (vpr_buff_ctr s); p12_lbuff_ctr := b2z (vpr_lbuff_ctr s); p12_new_row_reg := vpr_new_row_reg s |}.

Definition predictor_R : _ -> _ -> Prop := pr_R.
Lemma predictor_sim : sim predictor_R (fun _ => True) vpr_step (clocked vpr_i_rst (p12_init 12 2) (fun m i => p12_step 2 m (vpr_i_valid_in i) (vpr_i_new_row i) (vpr_i_end_in i) [vpr_i_pixel_in i; vpr_i_pixel_in_1 i])) vpr_pins pr_pins.
Proof. unfold sim, predictor_R.
  intros [c1 c2 c3 c4 c5 c6 c7 c8 c9 c10 c11 c12 c13 c14 c15 c16 c17 c18] m [ie inr ip ip1 rs iv] _ ->. split; [reflexivity|].
  unfold pr_R, clocked, vpr_step, p12_step.
  cbn [vpr_end_out vpr_valid_out vpr_predic_out_3 vpr_predic_out vpr_lbuff_32 vpr_lbuff_31 vpr_lbuff_30 vpr_lbuff vpr_lbuff_ctr vpr_buff_26 vpr_buff_25 vpr_buff_24
    vpr_buff vpr_buff_ctr vpr_pixel_out_2 vpr_pixel_out vpr_debug_counter vpr_new_row_reg vpr_i_end_in vpr_i_new_row vpr_i_pixel_in vpr_i_pixel_in_1 vpr_i_rst vpr_i_valid_in].
  unfold vpr_n_end_out, vpr_n_valid_out, vpr_n_predic_out_3, vpr_n_predic_out, vpr_n_lbuff_32, vpr_n_lbuff_31, vpr_n_lbuff_30, vpr_n_lbuff, vpr_n_lbuff_ctr,
    vpr_n_buff_26, vpr_n_buff_25, vpr_n_buff_24, vpr_n_buff, vpr_n_buff_ctr, vpr_n_pixel_out_2, vpr_n_pixel_out, vpr_n_new_row_reg.
  cbn [vpr_end_out vpr_valid_out vpr_predic_out_3 vpr_predic_out vpr_lbuff_32 vpr_lbuff_31 vpr_lbuff_30 vpr_lbuff vpr_lbuff_ctr vpr_buff_26 vpr_buff_25 vpr_buff_24
    vpr_buff vpr_buff_ctr vpr_pixel_out_2 vpr_pixel_out vpr_debug_counter vpr_new_row_reg vpr_i_end_in vpr_i_new_row vpr_i_pixel_in vpr_i_pixel_in_1 vpr_i_rst vpr_i_valid_in
    p12_pixels_out p12_predics_out p12_valid_out p12_end_out p12_buffs p12_lbuffs p12_buff_ctr p12_lbuff_ctr p12_new_row_reg].
  destruct rs, iv, inr, c18, c9, c14; reflexivity.
Qed.

Lemma predictor_R0 : predictor_R vpr_init (p12_init 12 2). Proof. reflexivity. Qed.


