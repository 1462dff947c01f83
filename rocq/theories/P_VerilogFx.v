(* Lemmas for C90: the whole shipped beta core, module by module up to its pins. *)
From Verif Require Import Bits V_Gen M_Config M_Markers M_Signals M_Difference M_Normalize M_Encode M_Merge M_VBits M_Converter M_Fix M_Predictor M_Fifo M_I1 M_I3 M_Beta.
From Verif Require Import Spec_Verilog P_Verilog.
Ltac Zify.zify_post_hook ::= idtac.
Local Open Scope bool_scope.

(* ---------------------------------------------------------------- fix_0xff2 *)
Definition f2_code (f : f2_fsm) : Z := match f with F2_NORMAL => 0 | F2_CLEAN => 1 | F2_PRE_END => 2 | F2_END => 3 end.
Definition fix_0xff2_R (s : vf2_st) (m : f2_st) : Prop :=
  s = {| vf2_fsm_state := f2_code (f2_fsm_st m); vf2_o_busy := f2_obusy m; vf2_buffer_count := f2_cnt m; vf2_buffer_data := f2_buf m; vf2_data_out := f2_dout m;
         vf2_valid_out := f2_vout m; vf2_end_out_reg := f2_ereg m; vf2_data_out_reg := f2_dreg m; vf2_data_out_valid := f2_dval m; vf2_end_reg := f2_endr m;
         vf2_end_out := f2_eout m |} /\ (f2_cnt m = 0 \/ f2_cnt m = 1 \/ f2_cnt m = 2 \/ f2_cnt m = 3) /\
  (f2_fsm_st m = F2_NORMAL -> f2_obusy m = f2_dval m).   (* elsewhere the shipped Verilog, made from an older source, sets o_busy differently *)
Lemma f2_part a b c : slice 8 16 (slice 16 16 a * 2 ^ 16 + slice 0 8 b * 2 ^ 8 + slice 0 8 c) * 2 ^ 8 + 0 * 2 ^ 0 + slice 0 0 (slice 16 16 a * 2 ^ 16 + slice 0 8 b * 2 ^ 8 + slice 0 8 c) =
  slice 0 8 b * 2 ^ 8.
Proof.
  unfold slice. change (16 - 16) with 0. change (16 - 8) with 8. change (8 - 0) with 8. change (0 - 0) with 0. rewrite !Z.pow_0_r, !Z.div_1_r, !Z.mod_1_r.
  pose proof (Z.mod_pos_bound b (2 ^ 8) ltac:(lia)). pose proof (Z.mod_pos_bound c (2 ^ 8) ltac:(lia)).
  replace ((0 * 2 ^ 16 + b mod 2 ^ 8 * 2 ^ 8 + c mod 2 ^ 8) / 2 ^ 8) with (b mod 2 ^ 8).
  - rewrite Z.mod_mod by lia. ring.
  - replace (0 * 2 ^ 16 + b mod 2 ^ 8 * 2 ^ 8 + c mod 2 ^ 8) with (c mod 2 ^ 8 + b mod 2 ^ 8 * 2 ^ 8) by ring. rewrite Z.div_add by lia. rewrite Z.div_small by lia. reflexivity.
Qed.
Ltac f2_open := unfold vf2_step, vf2_n_fsm_state, vf2_n_o_busy, vf2_n_buffer_count, vf2_n_buffer_data, vf2_n_data_out, vf2_n_valid_out, vf2_n_end_out_reg, vf2_n_data_out_reg, vf2_n_data_out_valid, vf2_n_end_reg, vf2_n_end_out; cbn [Z.eqb Pos.eqb vf2_read vf2_step vf2_n_fsm_state vf2_n_o_busy vf2_n_buffer_count vf2_n_buffer_data vf2_n_data_out vf2_n_valid_out vf2_n_end_out_reg vf2_n_data_out_reg
    vf2_n_data_out_valid vf2_n_end_reg vf2_n_end_out f2_step f2_normal f2_clean f2_drain f2_goto normal_logic nl_switch nl_none oget nl_data nl_buf nl_cnt nl_end nl_busy nl_endr nl_next
    vf2_fsm_state vf2_o_busy vf2_buffer_count vf2_buffer_data vf2_data_out vf2_valid_out vf2_end_out_reg vf2_data_out_reg vf2_data_out_valid vf2_end_reg vf2_end_out
    vf2_i_data_in vf2_i_data_in_ctr vf2_i_end_in vf2_i_i_busy vf2_i_rst vf2_i_valid_in f2_fsm_st f2_buf f2_cnt f2_dout f2_vout f2_eout f2_obusy f2_dreg f2_ereg f2_dval f2_endr
    f2i_valid f2i_data f2i_ctr f2i_end f2i_busy f2_code negb andb orb Bool.eqb Z.leb Z.compare Pos.compare Pos.compare_cont].
Ltac f2_close := split; [first [reflexivity | f2_open; rewrite ?f2_part; reflexivity]|split; [cbn; auto|cbn; discriminate || reflexivity]].
Lemma fix_0xff2_sim : sim fix_0xff2_R (fun _ => True) vf2_step (clocked vf2_i_rst f2_init (fun m i => f2_step m (vf2_read i))) vf2_pins f2_pins.
Proof.
  unfold sim, fix_0xff2_R. intros s [st mb mc md mv me mo mdr mer mdv mend] [d c e b rs v] _ (-> & C & N). split; [reflexivity|]. cbn [f2_cnt f2_fsm_st f2_obusy f2_dval] in C, N.
  destruct rs; [split; [reflexivity|split; [left; reflexivity|reflexivity]]|].
  cbn [f2_fsm_st f2_buf f2_cnt f2_dout f2_vout f2_eout f2_obusy f2_dreg f2_ereg f2_dval f2_endr].
  unfold clocked; cbn [vf2_i_rst].
  destruct st.
  2-4: destruct C as [->|[->|[->| ->]]], b, mdv; try (f2_close; fail); destruct mend; f2_close.
  specialize (N eq_refl). subst mdv. destruct v.
  2: destruct C as [->|[->|[->| ->]]], b, mo, mv; f2_close.
  assert (Q : c = 2 \/ c = 3 \/ c = 4 \/ ((c =? 2) = false /\ (c =? 3) = false /\ (c =? 4) = false)) by (destruct (Z.eqb_spec c 2), (Z.eqb_spec c 3), (Z.eqb_spec c 4); auto 10).
  destruct C as [->|[->|[->| ->]]].
  3-4: destruct b, mo, mv, e; f2_close.
  all: destruct Q as [->|[->|[->|(Q1 & Q2 & Q3)]]].
  1-3, 5-7: destruct b, mo, mv, e; f2_close.
  all: destruct b, mo, mv, e.
  all: f2_open; rewrite ?Q1, ?Q2, ?Q3; (split; [reflexivity|split; [cbn; auto|cbn; discriminate || reflexivity]]).
Qed.
Lemma fix_0xff2_R0 : fix_0xff2_R vf2_init f2_init. Proof. split; [reflexivity|split; [left; reflexivity|reflexivity]]. Qed.
