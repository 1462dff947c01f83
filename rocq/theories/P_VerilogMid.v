(* Lemmas for C90: normalize, encode, merge and the two fifos of the shipped beta core. *)
From Verif Require Import Bits V_Gen M_Config M_Difference M_Normalize M_Encode M_Merge M_Predictor M_Fifo M_Beta.
From Verif Require Import Spec_Verilog P_Verilog.
Ltac Zify.zify_post_hook ::= idtac.
Local Open Scope bool_scope.

(* ---------------------------------------------------------------- normalize *)
Lemma norm12_neg v m : Z.testbit v 12 = true -> norm1 12 v m =
  (if (slice 6 13 m) =? 127 then (if (slice 3 13 m) =? 1023 then (if (slice 2 13 m) =? 2047 then (if (slice 1 13 m) =? 4095 then neg_leaf 12 v 0 else neg_leaf 12 v 1) else neg_leaf 12 v 2)
     else (if (slice 5 13 m) =? 255 then (if (slice 4 13 m) =? 511 then neg_leaf 12 v 3 else neg_leaf 12 v 4) else neg_leaf 12 v 5))
   else (if (slice 9 13 m) =? 15 then (if (slice 8 13 m) =? 31 then (if (slice 7 13 m) =? 63 then neg_leaf 12 v 6 else neg_leaf 12 v 7) else neg_leaf 12 v 8)
     else (if (slice 11 13 m) =? 3 then (if (slice 10 13 m) =? 7 then neg_leaf 12 v 9 else neg_leaf 12 v 10) else neg_leaf 12 v 11))).
Proof.
  intros H. unfold norm1. rewrite H.
  assert (E : neg_tree (Z.to_nat 12) 12 m v 0 (12 - 1) =
    Some (if neg_hit 12 m 5 then (if neg_hit 12 m 2 then (if neg_hit 12 m 1 then (if neg_hit 12 m 0 then neg_leaf 12 v 0 else neg_leaf 12 v 1) else neg_leaf 12 v 2)
       else (if neg_hit 12 m 4 then (if neg_hit 12 m 3 then neg_leaf 12 v 3 else neg_leaf 12 v 4) else neg_leaf 12 v 5))
     else (if neg_hit 12 m 8 then (if neg_hit 12 m 7 then (if neg_hit 12 m 6 then neg_leaf 12 v 6 else neg_leaf 12 v 7) else neg_leaf 12 v 8)
       else (if neg_hit 12 m 10 then (if neg_hit 12 m 9 then neg_leaf 12 v 9 else neg_leaf 12 v 10) else neg_leaf 12 v 11)))).
  { change (Z.to_nat 12) with 12%nat. change (12 - 1) with 11.
    assert (S1 : forall f a b, b =? a = false -> b =? a + 1 = false -> neg_tree (S f) 12 m v a b = (if neg_hit 12 m ((b + a) / 2) then neg_tree f 12 m v a ((b + a) / 2) else neg_tree f 12 m v ((b + a) / 2 + 1) b))
      by (intros f a b Q1 Q2; cbn [neg_tree]; rewrite Q1, Q2; reflexivity).
    assert (S2 : forall f a b, b =? a = false -> b =? a + 1 = true -> neg_tree (S f) 12 m v a b = Some (if neg_hit 12 m a then neg_leaf 12 v a else neg_leaf 12 v b))
      by (intros f a b Q1 Q2; cbn [neg_tree]; rewrite Q1, Q2; reflexivity).
    assert (S3 : forall f a b, b =? a = true -> neg_tree (S f) 12 m v a b = Some (neg_leaf 12 v a))
      by (intros f a b Q1; cbn [neg_tree]; rewrite Q1; reflexivity).
    rewrite (S1 11%nat 0 11) by reflexivity. change ((11 + 0) / 2) with 5. change (5 + 1) with 6.
    rewrite (S1 10%nat 0 5) by reflexivity. change ((5 + 0) / 2) with 2. change (2 + 1) with 3.
    rewrite (S1 10%nat 6 11) by reflexivity. change ((11 + 6) / 2) with 8. change (8 + 1) with 9.
    rewrite (S1 9%nat 0 2) by reflexivity. change ((2 + 0) / 2) with 1. change (1 + 1) with 2.
    rewrite (S1 9%nat 3 5) by reflexivity. change ((5 + 3) / 2) with 4. change (4 + 1) with 5.
    rewrite (S1 9%nat 6 8) by reflexivity. change ((8 + 6) / 2) with 7. change (7 + 1) with 8.
    rewrite (S1 9%nat 9 11) by reflexivity. change ((11 + 9) / 2) with 10. change (10 + 1) with 11.
    rewrite (S2 8%nat 0 1), (S2 8%nat 3 4), (S2 8%nat 6 7), (S2 8%nat 9 10), (S3 8%nat 2 2), (S3 8%nat 5 5), (S3 8%nat 8 8), (S3 8%nat 11 11) by reflexivity.
    repeat match goal with |- context[if neg_hit 12 m ?k then _ else _] => destruct (neg_hit 12 m k) end; reflexivity. }
  rewrite E. reflexivity.
Qed.
Lemma norm12_pos v m : Z.testbit v 12 = false -> norm1 12 v m = (trunc 12 v,
  if Z.testbit v 11 then 12 else if Z.testbit v 10 then 11 else if Z.testbit v 9 then 10 else if Z.testbit v 8 then 9 else if Z.testbit v 7 then 8 else
  if Z.testbit v 6 then 7 else if Z.testbit v 5 then 6 else if Z.testbit v 4 then 5 else if Z.testbit v 3 then 4 else if Z.testbit v 2 then 3 else
  if Z.testbit v 1 then 2 else if Z.testbit v 0 then 1 else 0).
Proof.
  intros H. unfold norm1. rewrite H. change (Z.to_nat 12) with 12%nat. cbn [pos_tree Z.of_nat Pos.of_succ_nat Pos.succ]. reflexivity.
Qed.
(* what the two SingleNormalizer of the Verilog compute *)
Lemma vna_norm s i : vna_i_rst i = false -> vna_i_valid i = true -> (vna_n_val_out s i, vna_n_ssss s i) = norm1 12 (vna_i_val_in i) (vna_i_val_in_mns i).
Proof.
  destruct i as [e r v m b]. cbn [vna_i_rst vna_i_valid vna_i_val_in vna_i_val_in_mns]. intros -> ->.
  unfold vna_n_val_out, vna_n_ssss. cbn [vna_i_rst vna_i_valid vna_i_val_in vna_i_val_in_mns]. rewrite !eqb_t. cbv zeta.
  rewrite !(slice0_mod 12 14) by lia. rewrite !slice0.
  destruct (Z.testbit v 12) eqn:T; [rewrite (norm12_neg v m T)|rewrite (norm12_pos v m T)].
  - unfold neg_leaf. repeat match goal with |- context[if slice ?a ?b m =? ?c then _ else _] => destruct (slice a b m =? c) end; reflexivity.
  - reflexivity.
Qed.
Definition vna_of (i : vnb_in) : vna_in := {| vna_i_end_in := vnb_i_end_in i; vna_i_rst := vnb_i_rst i; vna_i_val_in := vnb_i_val_in i; vna_i_val_in_mns := vnb_i_val_in_mns i; vna_i_valid := vnb_i_valid i |}.
Lemma vnb_vna s t i : vnb_val_out s = vna_val_out t -> vnb_ssss s = vna_ssss t -> vnb_n_val_out s i = vna_n_val_out t (vna_of i) /\ vnb_n_ssss s i = vna_n_ssss t (vna_of i).
Proof. intros A B. unfold vnb_n_val_out, vnb_n_ssss. rewrite A, B. split; reflexivity. Qed.
Lemma vna_hold s i : vna_i_rst i = false -> vna_i_valid i = false -> (vna_n_val_out s i, vna_n_ssss s i) = (vna_val_out s, vna_ssss s).
Proof. destruct i as [ie ir iv im ib]. cbn [vna_i_rst vna_i_valid]. intros -> ->. reflexivity. Qed.
Lemma vna_rst s i : vna_i_rst i = true -> (vna_n_val_out s i, vna_n_ssss s i) = (0, 0).
Proof. destruct i as [ie ir iv im ib]. cbn [vna_i_rst vna_i_valid]. intros ->. reflexivity. Qed.

Definition normalize_R (s : vno_st) (m : norm_st) : Prop := vno_pins s vno_idle = nm_pins m vno_idle.
Lemma normalize_sim : sim normalize_R (fun _ => True) vno_step
  (clocked vno_i_rst (norm_init 2) (fun m i => norm_step 12 m (vno_i_valid_in i) (vno_i_end_in i) [vno_i_val_in i; vno_i_val_in_1 i] [vno_i_vals_in_mns i; vno_i_vals_in_mns_2 i])) vno_pins nm_pins.
Proof.
  unfold sim, normalize_R. intros s [mo mv me] i _ H. split; [exact H|].
  unfold vno_pins, nm_pins, vno_o_val_out, vno_o_ssss, vno_o_val_out_4, vno_o_ssss_3, vno_o_valid_out, vno_o_end_out, vna_o_val_out, vna_o_ssss, vnb_o_val_out, vnb_o_ssss,
    vna_o_valid_o, vna_o_end_out in *. cbn [nm_out nm_valid nm_end] in H.
  unfold vno_step. cbn [vno_u_w10 vno_u_w17]. unfold vna_step, vnb_step. cbn [vna_val_out vna_ssss vna_valid_o vna_end_out vnb_val_out vnb_ssss].
  set (t := {| vna_end_out := false; vna_valid_o := false; vna_ssss := vnb_ssss (vno_u_w17 s); vna_val_out := vnb_val_out (vno_u_w17 s) |}).
  destruct (vnb_vna (vno_u_w17 s) t (vno_p_w17 s i) eq_refl eq_refl) as [-> ->].
  injection H as H1 H2 H3. subst.
  unfold vna_n_valid_o, vna_n_end_out, clocked.
  destruct (vno_i_rst i) eqn:R.
  - rewrite (vna_rst _ (vno_p_w10 s i) R), (vna_rst t (vna_of (vno_p_w17 s i)) R). unfold vno_p_w10. cbn [vna_i_rst]. rewrite R. reflexivity.
  - unfold norm_step. cbn [nm_out nm_valid nm_end]. destruct (vno_i_valid_in i) eqn:V.
    + rewrite (vna_norm _ (vno_p_w10 s i) R V), (vna_norm t (vna_of (vno_p_w17 s i)) R V). unfold vno_p_w10. cbn [vna_i_rst vna_i_valid vna_i_end_in]. rewrite R, V. reflexivity.
    + rewrite (vna_hold _ (vno_p_w10 s i) R V), (vna_hold t (vna_of (vno_p_w17 s i)) R V). unfold vno_p_w10. cbn [vna_i_rst vna_i_valid vna_i_end_in]. rewrite R, V. reflexivity.
Qed.
Lemma normalize_R0 : normalize_R vno_init (norm_init 2). Proof. reflexivity. Qed.

(* ---------------------------------------------------------------- merge *)
Definition merge_R (s : vme_st) (m : merge_st) : Prop :=
  m = [[{| mg_enc := vma_enc_out (vme_u_w9 s); mg_ctr := vma_enc_out_ctr (vme_u_w9 s); mg_valid := vma_valid_out (vme_u_w9 s); mg_end := vma_end_out (vme_u_w9 s) |}]]
  /\ wide 56 (vma_enc_out (vme_u_w9 s)) /\ wide 6 (vma_enc_out_ctr (vme_u_w9 s)).
Lemma merge_sim : sim merge_R merge_P vme_step
  (clocked vme_i_rst (merge_init 2) (fun m i => merge_step 2 28 m (vme_i_valid_in i) (vme_i_end_in i) [(vme_i_enc_in i, vme_i_enc_in_ctr i); (vme_i_enc_in_1 i, vme_i_enc_in_ctr_2 i)])) vme_pins mg_pins.
Proof.
  unfold sim, merge_R. intros [[e v a c]] m [a1 a2 c1 c2 ie rs iv] (P1 & P2 & P3 & P4) (-> & W1 & W2). cbn [vme_u_w9 vma_enc_out vma_enc_out_ctr vma_valid_out vma_end_out] in *.
  cbn [vme_i_enc_in vme_i_enc_in_1 vme_i_enc_in_ctr vme_i_enc_in_ctr_2] in *. split.
  { unfold vme_pins, mg_pins, merge_out. cbn [merge_top last hd mg_enc mg_ctr mg_valid mg_end]. change (28 * 2) with 56. change (clog2 (56 + 1)) with 6.
    rewrite (wide_id 56 a W1), (wide_id 6 c W2). reflexivity. }
  unfold vme_step, vma_step, vma_n_end_out, vma_n_valid_out, vma_n_enc_out, vma_n_enc_out_ctr, clocked, merge_step.
  cbn [vme_u_w9 vme_p_w9 vma_enc_out vma_enc_out_ctr vma_valid_out vma_end_out vma_i_rst vma_i_end_in vma_i_valid_in vma_i_enc_in1 vma_i_enc_in2 vma_i_enc_in_ctr1 vma_i_enc_in_ctr2
    vme_i_enc_in vme_i_enc_in_1 vme_i_enc_in_ctr vme_i_enc_in_ctr_2 vme_i_end_in vme_i_rst vme_i_valid_in].
  destruct rs. { repeat split; unfold wide; cbn; lia. }
  change (merge_pad 2 [(a1, c1); (a2, c2)]) with [(a1, c1); (a2, c2)]. cbn [pair_up levels_step level_step]. unfold mg_step.
  cbn [mi_enc1 mi_enc2 mi_ctr1 mi_ctr2 mi_valid mi_end]. change (clog2 (28 + 1)) with 5. change (2 * 28) with 56. change (clog2 (56 + 1)) with 6. cbn [mg_enc mg_ctr].
  rewrite (wide_id 28 a1 P1), (wide_id 28 a2 P2), (wide_id 5 c1 P3), (wide_id 5 c2 P4).
  destruct iv; [|repeat split; assumption || apply W1 || apply W2].
  assert (E : slice 0 56 (Z.lor ((a1 * 2 ^ c2) mod 2 ^ 59) a2) = trunc 56 (Z.lor (Z.shiftl a1 c2) a2)).
  { rewrite slice0. unfold trunc. rewrite !lor_mod by lia. rewrite mod_mod_le by lia. rewrite Z.shiftl_mul_pow2 by (unfold wide in P4; lia). reflexivity. }
  rewrite E. repeat split; try (apply wide_trunc; lia). 
  all: apply (wide_trunc 6); lia.
Qed.
Lemma merge_R0 : merge_R vme_init (merge_init 2). Proof. repeat split; unfold wide; cbn; lia. Qed.
(* ---------------------------------------------------------------- encode *)
(* the data register of the block RAM in the model is the address register followed by the memory in the Verilog; before the first valid pixel it is not looked at *)
Definition encode_R (s : ven_st) (m : enc_st) : Prop :=
  let a := ven_u_w13 s in let b := ven_u_w22 s in
  exists r1 r2, m = {| en_px := [{| e1_ssss_late := vea_ssss_late a; e1_val_late := vea_val_in_late a; e1_rp_data := r1; e1_enc_out := vea_enc_out a; e1_enc_ctr := vea_enc_ctr a |};
                                 {| e1_ssss_late := veb_ssss_late b; e1_val_late := veb_val_in_late b; e1_rp_data := r2; e1_enc_out := veb_enc_out b; e1_enc_ctr := veb_enc_ctr b |}];
                       en_valid_late := vea_valid_late a; en_valid_out := vea_valid_out a; en_end_late := vea_end_late a; en_end_out := vea_end_out a |} /\
  veb_valid_late b = vea_valid_late a /\
  (vea_valid_late a = true -> r1 = nth (Z.to_nat (ven__1_ s)) ven_mem 0 /\ r2 = nth (Z.to_nat (ven__0_ s)) ven_mem 0) /\
  wide 28 (vea_enc_out a) /\ wide 28 (veb_enc_out b) /\ wide 5 (vea_enc_ctr a) /\ wide 5 (veb_enc_ctr b).
Lemma ven_mem_eq : ven_mem = init_huff_table 12. Proof. reflexivity. Qed.
Lemma encode_sim : sim encode_R (fun _ => True) ven_step (encode_step (init_huff_table 12)) ven_pins en_pins.
Proof.
  unfold sim, encode_R. rewrite <- ven_mem_eq. intros [a0 a1 [p1 p2 p3 p4 p5 p6 p7 p8] [q1 q2 q3 q4 q5 q6 q7 q8]] m [ie rs s1 s2 v1 v2 iv] _ (r1 & r2 & -> & B & M & W1 & W2 & W3 & W4).
  cbn [ven_u_w13 ven_u_w22 ven__0_ ven__1_ vea_end_out vea_end_late vea_valid_out vea_valid_late vea_enc_ctr vea_enc_out vea_val_in_late vea_ssss_late
    veb_end_out veb_end_late veb_valid_out veb_valid_late veb_enc_ctr veb_enc_out veb_val_in_late veb_ssss_late] in *. subst q8.
  split; [reflexivity|].
  unfold encode_step, enc_step, ven_step, ven_n__0_, ven_n__1_, vea_o_rp_addr, veb_o_rp_addr, vea_step, veb_step, vea_n_end_out, vea_n_end_late, vea_n_valid_out, vea_n_valid_late, vea_n_enc_ctr, vea_n_enc_out,
    vea_n_val_in_late, vea_n_ssss_late, veb_n_enc_ctr, veb_n_enc_out, veb_n_val_in_late, veb_n_ssss_late, veb_n_end_out, veb_n_end_late, veb_n_valid_out, veb_n_valid_late.
  cbn [ven_u_w13 ven_u_w22 ven__0_ ven__1_ vea_end_out vea_end_late vea_valid_out vea_valid_late vea_enc_ctr vea_enc_out vea_val_in_late vea_ssss_late
    veb_end_out veb_end_late veb_valid_out veb_valid_late veb_enc_ctr veb_enc_out veb_val_in_late veb_ssss_late ven_p_w13 ven_p_w22
    vea_i_end_in vea_i_rp_data vea_i_rst vea_i_ssss vea_i_val_in vea_i_valid_in veb_i_end_in veb_i_rp_data veb_i_rst veb_i_ssss veb_i_val_in veb_i_valid_in
    ven_i_end_in ven_i_rst ven_i_ssss ven_i_ssss_2 ven_i_val_in ven_i_val_in_1 ven_i_valid_in en_px en_valid_late en_end_late map2].
  rewrite !(slice0_mod 5 6) by lia. rewrite !(slice0 28). cbv zeta.
  unfold enc1_step, enc_logic. cbn [e1_ssss_late e1_val_late e1_rp_data e1_enc_out e1_enc_ctr]. change (12 =? 16) with false. cbn [andb].
  change (Z.min (16 + 12) 31) with 28. change (16 + 12 + 5) with 33. change (16 + 12) with 28. cbn [map e1_rp_data en_px].
  destruct rs.
  { exists (mem_read 12 ven_mem s1), (mem_read 12 ven_mem s2). repeat split; try discriminate; unfold wide; cbn; lia. }
  exists (mem_read 12 ven_mem s1), (mem_read 12 ven_mem s2). split; [|split; [reflexivity|split; [|]]].
  - destruct p4; [|reflexivity]. destruct (M eq_refl) as [-> ->]. reflexivity.
  - intros _. unfold mem_read. change (clog2 (12 + 1)) with 4. rewrite !slice0. split; reflexivity.
  - destruct p4; [|auto]. repeat split; try (apply (wide_trunc 28); lia); apply (wide_trunc 5); lia.
Qed.
Lemma bit_slice x k : 0 <= k -> Z.testbit x k = (slice k (k + 1) x =? 1).
Proof. intros H. unfold slice. rewrite Z.testbit_eqb by exact H. replace (k + 1 - k) with 1 by ring. reflexivity. Qed.

(* ---------------------------------------------------------------- lj_fifo *)
Definition lj_fifo_R (s : vlf_st) (m : fifo_st * bool) : Prop :=
  let f := vlf_u_fifo s in let u := vff_u_unbuffered f in
  m = ({| ff_stor := vua_storage u; ff_prod := vua_produce u; ff_cons := vua_consume u; ff_lvl := vua_level u; ff_rd := vff_readable f; ff_dout := vua__0_ u |}, vlf_close_full s)
  /\ 0 <= vua_level u <= 511 /\ 0 <= vua_produce u <= 510 /\ 0 <= vua_consume u <= 510.
Lemma lj_fifo_sim : sim lj_fifo_R (fun i => wide 56 (vlf_i_enc_in i) /\ wide 6 (vlf_i_enc_in_ctr i)) vlf_step lj_fifo_step lj_fifo_pins lj_fifo_mpins.
Proof.
  unfold sim, lj_fifo_R. intros [cf [rd [lv co pr d0 st]]] m [ie ic iend la rs iv] (W1 & W2) (-> & L & Pr & Co).
  cbn [vlf_close_full vlf_u_fifo vff_readable vff_u_unbuffered vua_level vua_consume vua_produce vua__0_ vua_storage vlf_i_enc_in vlf_i_enc_in_ctr] in *. split.
  { unfold lj_fifo_pins, lj_fifo_mpins, vlf_o_close_full, vlf_o_enc_out, vlf_o_enc_out_ctr, vlf_o_out_end, vlf_o_valid_out, vff_o_dout, vff_o_readable, vua_o_dout, item_enc, item_ctr, item_end.
    cbn [vlf_close_full vlf_u_fifo vff_readable vff_u_unbuffered vua__0_ ff_dout ff_rd fst snd]. rewrite bit_slice by lia. reflexivity. }
  unfold lj_fifo_step, vlf_step, vlf_n_close_full, vff_step, vff_n_readable, vff_o_level, vua_step, vua_n_level, vua_n_consume, vua_n_produce, vua_n__0_, vua_n_storage, vua_o_readable, vua_o_level, fifo_step, fifo_reset, fifo_level.
  cbn [vlf_close_full vlf_u_fifo vff_readable vff_u_unbuffered vua_level vua_consume vua_produce vua__0_ vua_storage vlf_p_fifo vff_p_unbuffered vff_i_din vff_i_re vff_i_rst vff_i_we
    vua_i_din vua_i_re vua_i_replace vua_i_rst vua_i_we vlf_i_enc_in vlf_i_enc_in_ctr vlf_i_in_end vlf_i_latch_output vlf_i_rst vlf_i_valid_in fst snd ff_stor ff_prod ff_cons ff_lvl ff_rd ff_dout].
  unfold vua_o_readable. cbn [vua_level].
  assert (E : ((b2z iend) * 2 ^ 6 + ic) * 2 ^ 56 + ie = item_pack 56 6 ie ic iend) by (unfold item_pack; rewrite (wide_id 56 ie W1), (wide_id 6 ic W2); ring).
  rewrite E. unfold fifo_writable, fifo_incr. cbn [ff_lvl]. change (512 - 1) with 511. change (512 - 2) with 510.
  rewrite geb_le, (Z.mod_small (lv + b2z rd)) by (destruct rd; cbn [b2z]; lia).
  rewrite !(slice0_mod 9 10) by lia. cbn [negb andb orb]. rewrite !andb_true_r, !orb_false_r.
  assert (T1 : lv <> 511 -> trunc 9 (lv + 1) = lv + 1) by (intros; apply wide_id; unfold wide; lia).
  assert (T2 : lv <> 0 -> trunc 9 (lv - 1) = lv - 1) by (intros; apply wide_id; unfold wide; lia).
  assert (I : forall p, 0 <= p <= 510 -> slice 0 9 (if p =? 510 then 0 else (p + 1) mod 2 ^ 10) = if p =? 510 then 0 else p + 1).
  { intros p Hp. destruct (Z.eqb_spec p 510); [reflexivity|]. rewrite (slice0_mod 9 10) by lia. apply wide_id. unfold wide. lia. }
  assert (J : forall p, 0 <= p <= 510 -> 0 <= (if p =? 510 then 0 else p + 1) <= 510) by (intros p Hp; destruct (Z.eqb_spec p 510); lia).
  rewrite !I by assumption. pose proof (J pr Pr). pose proof (J co Co).
  rewrite (andb_comm iv).
  destruct (Z.eqb_spec lv 511), (Z.eqb_spec lv 0); try lia; rewrite ?T1, ?T2 by assumption; destruct rs, rd, la, iv; cbn [negb andb orb]; (split; [reflexivity|]); lia.
Qed.
(* ---------------------------------------------------------------- cv_fifo *)
Definition cv_fifo_R (s : vcf_st) (m : fifo_st * bool) : Prop :=
  let f := vcf_u_fifo s in let u := vfg_u_unbuffered f in
  m = ({| ff_stor := vub_storage u; ff_prod := vub_produce u; ff_cons := vub_consume u; ff_lvl := vub_level u; ff_rd := vfg_readable f; ff_dout := vub__0_ u |}, vcf_close_full s)
  /\ 0 <= vub_level u <= 511 /\ 0 <= vub_produce u <= 510 /\ 0 <= vub_consume u <= 510.
Lemma cv_fifo_sim : sim cv_fifo_R (fun i => wide 30 (vcf_i_enc_in i) /\ wide 5 (vcf_i_enc_in_ctr i)) vcf_step cv_fifo_step cv_fifo_pins cv_fifo_mpins.
Proof.
  unfold sim, cv_fifo_R. intros [cf [rd [lv co pr d0 st]]] m [ie ic iend la rs iv] (W1 & W2) (-> & L & Pr & Co).
  cbn [vcf_close_full vcf_u_fifo vfg_readable vfg_u_unbuffered vub_level vub_consume vub_produce vub__0_ vub_storage vcf_i_enc_in vcf_i_enc_in_ctr] in *. split.
  { unfold cv_fifo_pins, cv_fifo_mpins, vcf_o_close_full, vcf_o_enc_out, vcf_o_enc_out_ctr, vcf_o_out_end, vcf_o_valid_out, vfg_o_dout, vfg_o_readable, vub_o_dout, item_enc, item_ctr, item_end.
    cbn [vcf_close_full vcf_u_fifo vfg_readable vfg_u_unbuffered vub__0_ ff_dout ff_rd fst snd]. rewrite bit_slice by lia. reflexivity. }
  unfold cv_fifo_step, vcf_step, vcf_n_close_full, vfg_step, vfg_n_readable, vfg_o_level, vub_step, vub_n_level, vub_n_consume, vub_n_produce, vub_n__0_, vub_n_storage, vub_o_readable, vub_o_level, fifo_step, fifo_reset, fifo_level.
  cbn [vcf_close_full vcf_u_fifo vfg_readable vfg_u_unbuffered vub_level vub_consume vub_produce vub__0_ vub_storage vcf_p_fifo vfg_p_unbuffered vfg_i_din vfg_i_re vfg_i_rst vfg_i_we
    vub_i_din vub_i_re vub_i_replace vub_i_rst vub_i_we vcf_i_enc_in vcf_i_enc_in_ctr vcf_i_in_end vcf_i_latch_output vcf_i_rst vcf_i_valid_in fst snd ff_stor ff_prod ff_cons ff_lvl ff_rd ff_dout].
  unfold vub_o_readable. cbn [vub_level].
  assert (E : ((b2z iend) * 2 ^ 5 + ic) * 2 ^ 30 + ie = item_pack 30 5 ie ic iend) by (unfold item_pack; rewrite (wide_id 30 ie W1), (wide_id 5 ic W2); ring).
  rewrite E. unfold fifo_writable, fifo_incr. cbn [ff_lvl]. change (512 - 1) with 511. change (512 - 2) with 510.
  rewrite geb_le, (Z.mod_small (lv + b2z rd)) by (destruct rd; cbn [b2z]; lia).
  rewrite !(slice0_mod 9 10) by lia. cbn [negb andb orb]. rewrite !andb_true_r, !orb_false_r.
  assert (T1 : lv <> 511 -> trunc 9 (lv + 1) = lv + 1) by (intros; apply wide_id; unfold wide; lia).
  assert (T2 : lv <> 0 -> trunc 9 (lv - 1) = lv - 1) by (intros; apply wide_id; unfold wide; lia).
  assert (I : forall p, 0 <= p <= 510 -> slice 0 9 (if p =? 510 then 0 else (p + 1) mod 2 ^ 10) = if p =? 510 then 0 else p + 1).
  { intros p Hp. destruct (Z.eqb_spec p 510); [reflexivity|]. rewrite (slice0_mod 9 10) by lia. apply wide_id. unfold wide. lia. }
  assert (J : forall p, 0 <= p <= 510 -> 0 <= (if p =? 510 then 0 else p + 1) <= 510) by (intros p Hp; destruct (Z.eqb_spec p 510); lia).
  rewrite !I by assumption. pose proof (J pr Pr). pose proof (J co Co).
  rewrite (andb_comm iv).
  destruct (Z.eqb_spec lv 511), (Z.eqb_spec lv 0); try lia; rewrite ?T1, ?T2 by assumption; destruct rs, rd, la, iv; cbn [negb andb orb]; (split; [reflexivity|]); lia.
Qed.
