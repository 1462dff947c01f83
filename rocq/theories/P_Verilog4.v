(* Lemmas for C90: the shipped Verilog of core_axi_lite against M_AxiLite. *)
From Verif Require Import Bits V_Gen3 M_Encode M_AxiLite M_Misc Spec_Verilog P_Verilog Spec_Verilog2 P_Verilog2 P_Verilog3 Spec_Verilog4.
Ltac Zify.zify_post_hook ::= idtac.
Local Open Scope bool_scope.

Lemma byte_w l (p : bool) d x : wide 8 (if p then slice l (l + 8) d else slice l (l + 8) x). Proof. apply w8. Qed.
Ltac by_three := unfold wide in *; change (2 ^ 0) with 1 in *; change (2 ^ 8) with 256 in *; change (2 ^ 16) with 65536 in *; change (2 ^ 24) with 16777216 in *; change (2 ^ 32) with 4294967296 in *;
  change (2 ^ 40) with 1099511627776 in *; change (2 ^ 48) with 281474976710656 in *; change (2 ^ 56) with 72057594037927936 in *; change (2 ^ 64) with 18446744073709551616 in *; lia.
(* a byte put above a shorter word *)
Lemma put_top l t h e x : 0 <= l -> t = l + 8 -> t <= h -> wide l x -> slice t h x * 2 ^ t + e * 2 ^ l + slice 0 l x = e * 2 ^ l + x.
Proof.
  intros L T H W. rewrite (put l 8 t h (h - t) x 0 0 x e); try lia; try assumption; split; try lia; apply Z.pow_pos_nonneg; lia.
Qed.
Lemma if_put (b : bool) A u v B l : (if b then A + u * 2 ^ l + B else A + v * 2 ^ l + B) = A + (if b then u else v) * 2 ^ l + B.
Proof. destruct b; reflexivity. Qed.
Ltac four y0 y1 y2 y3 W0 W1 W2 W3 :=
  revert W0 W1 W2 W3; match goal with |- wide 8 ?a -> wide 8 ?b -> wide 8 ?c -> wide 8 ?d -> _ => generalize a b c d; intros y0 y1 y2 y3 W0 W1 W2 W3 end.
Lemma lo_v st x d :
  (let x104 := (let x99 := (let x94 := (if Z.testbit st 0 then slice 8 64 0 * 2 ^ 8 + slice 0 8 d * 2 ^ 0 + slice 0 0 0 else slice 8 64 0 * 2 ^ 8 + slice 0 8 x * 2 ^ 0 + slice 0 0 0) in
    (if Z.testbit st 1 then slice 16 64 x94 * 2 ^ 16 + slice 8 16 d * 2 ^ 8 + slice 0 8 x94 else slice 16 64 x94 * 2 ^ 16 + slice 8 16 x * 2 ^ 8 + slice 0 8 x94)) in
    (if Z.testbit st 2 then slice 24 64 x99 * 2 ^ 24 + slice 16 24 d * 2 ^ 16 + slice 0 16 x99 else slice 24 64 x99 * 2 ^ 24 + slice 16 24 x * 2 ^ 16 + slice 0 16 x99)) in
    (if Z.testbit st 3 then slice 32 64 x104 * 2 ^ 32 + slice 24 32 d * 2 ^ 24 + slice 0 24 x104 else slice 32 64 x104 * 2 ^ 32 + slice 24 32 x * 2 ^ 24 + slice 0 24 x104)) = al_merge st x d.
Proof.
  rewrite al_merge_by4. pose proof (byte_w 0 (Z.testbit st 0) d x) as W0. pose proof (byte_w 8 (Z.testbit st 1) d x) as W1. pose proof (byte_w 16 (Z.testbit st 2) d x) as W2. pose proof (byte_w 24 (Z.testbit st 3) d x) as W3.
  change (0 + 8) with 8 in *. change (8 + 8) with 16 in *. change (16 + 8) with 24 in *. change (24 + 8) with 32 in *. cbv zeta. rewrite !if_put. four y0 y1 y2 y3 W0 W1 W2 W3.
  rewrite (put_top 0 8 64 y0 0) by (try lia; split; reflexivity). replace (y0 * 2 ^ 0 + 0) with y0 by by_three.
  rewrite (put_top 8 16 64 y1 y0) by (lia || assumption). rewrite (put_top 16 24 64 y2) by (lia || by_three). rewrite (put_top 24 32 64 y3) by (lia || by_three). unfold by4. lia.
Qed.
Lemma hi_v st x :
  (let x118 := (let x115 := (let x112 := (if Z.testbit st 0 then slice 40 64 0 * 2 ^ 40 + 0 * 2 ^ 32 + slice 0 32 0 else slice 40 64 0 * 2 ^ 40 + slice 32 40 x * 2 ^ 32 + slice 0 32 0) in
    (if Z.testbit st 1 then slice 48 64 x112 * 2 ^ 48 + 0 * 2 ^ 40 + slice 0 40 x112 else slice 48 64 x112 * 2 ^ 48 + slice 40 48 x * 2 ^ 40 + slice 0 40 x112)) in
    (if Z.testbit st 2 then slice 56 64 x115 * 2 ^ 56 + 0 * 2 ^ 48 + slice 0 48 x115 else slice 56 64 x115 * 2 ^ 56 + slice 48 56 x * 2 ^ 48 + slice 0 48 x115)) in
    (if Z.testbit st 3 then slice 64 64 x118 * 2 ^ 64 + 0 * 2 ^ 56 + slice 0 56 x118 else slice 64 64 x118 * 2 ^ 64 + slice 56 64 x * 2 ^ 56 + slice 0 56 x118)) = al_merge_hi st x.
Proof.
  assert (Wb : forall l (b : bool), wide 8 (if b then 0 else slice l (l + 8) x)) by (intros l [|]; [split; reflexivity || discriminate|apply wide_slice8]).
  unfold al_merge_hi, al_byte_hi. change (32 + 8 * 0) with 32. change (32 + 8 * 1) with 40. change (32 + 8 * 2) with 48. change (32 + 8 * 3) with 56.
  pose proof (Wb 32 (Z.testbit st 0)) as W0. pose proof (Wb 40 (Z.testbit st 1)) as W1. pose proof (Wb 48 (Z.testbit st 2)) as W2. pose proof (Wb 56 (Z.testbit st 3)) as W3.
  change (32 + 8) with 40 in *. change (40 + 8) with 48 in *. change (48 + 8) with 56 in *. change (56 + 8) with 64 in *. cbv zeta. rewrite !if_put. four y0 y1 y2 y3 W0 W1 W2 W3.
  rewrite (put_top 32 40 64 y0 0) by (try lia; split; reflexivity). rewrite Z.add_0_r.
  rewrite (put_top 40 48 64 y1) by (lia || by_three). rewrite (put_top 48 56 64 y2) by (lia || by_three). rewrite (put_top 56 64 64 y3) by (lia || by_three). lia.
Qed.

(* the 24-bit register *)
Definition by3 (b c d : Z) : Z := b * 2 ^ 16 + c * 2 ^ 8 + d.
Lemma split3 x : wide 24 x -> x = by3 (slice 16 24 x) (slice 8 16 x) (slice 0 8 x).
Proof.
  intros W. rewrite (split4 x) at 1 by (unfold wide in *; change (2 ^ 24) with 16777216 in W; change (2 ^ 32) with 4294967296; lia).
  replace (slice 24 32 x) with 0; [unfold by4, by3; lia|]. unfold slice, wide in *. rewrite Z.div_small by lia. reflexivity.
Qed.
Lemma al_merge24_by3 st x d : al_merge24 st x d =
  by3 (if Z.testbit st 2 then slice 16 24 d else slice 16 24 x) (if Z.testbit st 1 then slice 8 16 d else slice 8 16 x) (if Z.testbit st 0 then slice 0 8 d else slice 0 8 x).
Proof.
  unfold al_merge24, al_byte, by3. change (8 * 0) with 0. change (8 * 1) with 8. change (8 * 2) with 16. change (0 + 8) with 8. change (8 + 8) with 16.
  change (16 + 8) with 24. change (2 ^ 0) with 1. lia.
Qed.
Lemma al_merge24_wide st x d : wide 24 (al_merge24 st x d).
Proof.
  rewrite al_merge24_by3. pose proof (byte_w 0 (Z.testbit st 0) d x). pose proof (byte_w 8 (Z.testbit st 1) d x). pose proof (byte_w 16 (Z.testbit st 2) d x).
  change (0 + 8) with 8 in *. change (8 + 8) with 16 in *. change (16 + 8) with 24 in *. unfold by3. by_two.
Qed.
Lemma merge24_v (k : bool) st x d : wide 24 x ->
  (let x15 := (let x9 := (if Z.testbit st 0 then (if k then x else slice 8 24 x * 2 ^ 8 + slice 0 8 d * 2 ^ 0 + slice 0 0 x) else x) in
     (if Z.testbit st 1 then (if k then x9 else slice 16 24 x9 * 2 ^ 16 + slice 8 16 d * 2 ^ 8 + slice 0 8 x9) else x9)) in
     (if Z.testbit st 2 then (if k then x15 else slice 24 24 x15 * 2 ^ 24 + slice 16 24 d * 2 ^ 16 + slice 0 16 x15) else x15)) = if k then x else al_merge24 st x d.
Proof.
  intros W. destruct k; [destruct (Z.testbit st 0), (Z.testbit st 1), (Z.testbit st 2); reflexivity|].
  rewrite al_merge24_by3.
  pose proof (wide_slice8 0 x) as X0. pose proof (wide_slice8 8 x) as X1. pose proof (wide_slice8 16 x) as X2.
  pose proof (wide_slice8 0 d) as D0. pose proof (wide_slice8 8 d) as D1. pose proof (wide_slice8 16 d) as D2.
  change (0 + 8) with 8 in *. change (8 + 8) with 16 in *. change (16 + 8) with 24 in *.
  pose proof (split3 x W) as S. remember (slice 16 24 x) as x2 eqn:E2. remember (slice 8 16 x) as x1 eqn:E1. remember (slice 0 8 x) as x0 eqn:E0.
  clear E0 E1 E2 W. subst x.
  generalize dependent (slice 0 8 d). generalize dependent (slice 8 16 d). generalize dependent (slice 16 24 d). intros d2 D2 d1 D1 d0 D0. cbv zeta.
  assert (B0 : forall e, slice 8 24 (by3 x2 x1 x0) * 2 ^ 8 + e * 2 ^ 0 + slice 0 0 (by3 x2 x1 x0) = by3 x2 x1 e)
    by (intros e; rewrite (put 0 8 8 24 16 _ (x2 * 2 ^ 8 + x1) x0 0); try lia; try assumption; unfold by3; by_two).
  replace (if Z.testbit st 0 then slice 8 24 (by3 x2 x1 x0) * 2 ^ 8 + d0 * 2 ^ 0 + slice 0 0 (by3 x2 x1 x0) else by3 x2 x1 x0) with (by3 x2 x1 (if Z.testbit st 0 then d0 else x0))
    by (destruct (Z.testbit st 0); [rewrite B0|]; reflexivity).
  assert (Y0 : wide 8 (if Z.testbit st 0 then d0 else x0)) by (destruct (Z.testbit st 0); assumption).
  revert Y0. generalize (if Z.testbit st 0 then d0 else x0). intros y0 Y0.
  assert (B1 : forall e, slice 16 24 (by3 x2 x1 y0) * 2 ^ 16 + e * 2 ^ 8 + slice 0 8 (by3 x2 x1 y0) = by3 x2 e y0)
    by (intros e; rewrite (put 8 8 16 24 8 _ x2 x1 y0); try lia; try assumption; unfold by3; by_two).
  replace (if Z.testbit st 1 then slice 16 24 (by3 x2 x1 y0) * 2 ^ 16 + d1 * 2 ^ 8 + slice 0 8 (by3 x2 x1 y0) else by3 x2 x1 y0) with (by3 x2 (if Z.testbit st 1 then d1 else x1) y0)
    by (destruct (Z.testbit st 1); [rewrite B1|]; reflexivity).
  assert (Y1 : wide 8 (if Z.testbit st 1 then d1 else x1)) by (destruct (Z.testbit st 1); assumption).
  revert Y1. generalize (if Z.testbit st 1 then d1 else x1). intros y1 Y1.
  destruct (Z.testbit st 2); [|reflexivity]. rewrite (put 16 8 24 24 0 _ 0 x2 (y1 * 2 ^ 8 + y0)); try lia; try assumption; unfold by3; by_two.
Qed.

Definition al_code (f : al_fsm) : Z :=
  match f with AL_IDLE => 0 | AL_READ_ADDRESS => 1 | AL_WRITE_ADDRESS => 2 | AL_READ_DATA_DELAY1 => 3 | AL_READ_DATA_DELAY2 => 4 | AL_READ_DATA => 5
  | AL_WRITE_DATA_DELAY1 => 6 | AL_WRITE_DATA_DELAY2 => 7 | AL_WRITE_DATA => 8 | AL_WRITE_RESPONSE => 9 end.
Definition vdg_list (d : vdg_st) : list Z := [vdg_wsignal d; vdg_wsignal_1 d; vdg_wsignal_2 d; vdg_wsignal_3 d; vdg_wsignal_4 d; vdg_wsignal_5 d; vdg_wsignal_6 d; vdg_wsignal_7 d].
Definition al_of (m : al_st) (g : vdg_st) : vca_st :=
  {| vca_allowed_cycles := al_allowed m; vca_rdata_v := al_rdata m; vca_arready_v := al_arready m; vca_rp_addr := al_rp_addr m; vca_addr_v := al_addr m; vca_fsm_state := al_code (al_fsm_st m);
     vca_bvalid_v := al_bvalid m; vca_rvalid_v := al_rvalid m; vca_height_width := al_hw m; vca_bresp_v := al_bresp m; vca_wp_en := al_wp_en m; vca_wp_data := al_wp_data m; vca_wp_addr := al_wp_addr m;
     vca_wready_v := al_wready m; vca_awready_v := al_awready m; vca_rresp_v := al_rresp m; vca_u_debug_module := g |}.
Definition core_axi_lite_R (x : vca_st * list Z * Z) (m : al_st * list Z) : Prop :=
  (exists g, fst (fst x) = al_of (fst m) g /\ snd m = vdg_list g) /\ snd (fst x) = al_mem (fst m) /\ snd x = al_raddr (fst m) /\ wide 32 (al_hw (fst m)) /\ wide 24 (al_allowed (fst m)).
Lemma core_axi_lite_R0 : core_axi_lite_R (vca_init, init_huff_table 12, 0) (al_init 12, dbg_regs_init).
Proof. split; [exists vdg_init; split; reflexivity|]. repeat split; cbn; lia. Qed.

Section Reg.
Variables (m : al_st) (g : vdg_st) (i : vca_in).
Let s := al_of m g.
Let w := nth (Z.to_nat (al_raddr m)) (al_mem m) 0.
Let n := al_step 12 true m (vca_bus i) (vdg_list g) (vca_i_rst i).
Hypothesis W : wide 32 (al_hw m) /\ wide 24 (al_allowed m).
Hypothesis RST : vca_i_full_rst i = false.
Ltac start d := unfold n, d; cbv zeta; cbn [feed vca_i_debug_en vca_i_full_rst vca_i_rp_data vca_i_rst vca_i_s_axi_ri__araddr vca_i_s_axi_ri__arvalid vca_i_s_axi_ri__rready
  vca_i_s_axi_wi__awaddr vca_i_s_axi_wi__awvalid vca_i_s_axi_wi__bready vca_i_s_axi_wi__wdata vca_i_s_axi_wi__wstrb vca_i_s_axi_wi__wvalid];
  rewrite ?RST; unfold al_step, s, al_of, vca_bus; fold w;
  cbn [vca_allowed_cycles vca_rdata_v vca_arready_v vca_rp_addr vca_addr_v vca_fsm_state vca_bvalid_v vca_rvalid_v vca_height_width vca_bresp_v vca_wp_en vca_wp_data vca_wp_addr
  vca_wready_v vca_awready_v vca_rresp_v vca_u_debug_module al_fsm_st al_addr al_arready al_rvalid al_awready al_wready al_bvalid al_rdata al_rresp al_bresp al_hw al_allowed
  al_wp_addr al_wp_data al_wp_en al_rp_addr al_mem al_raddr
  ai_arvalid ai_araddr ai_rready ai_awvalid ai_awaddr ai_wvalid ai_wdata ai_wstrb ai_bready];
  unfold al_ssss_en, al_hw_en, al_dbg_en; change (2 * (12 + 1)) with 26; change (12 + 21) with 33; rewrite ?slice0, ?eqb_t, ?eqb_f.
Ltac fsm := destruct (al_fsm_st m); cbn [al_code Z.eqb Pos.eqb andb]; try reflexivity.
Lemma c_hw : vca_n_height_width s (feed i w) = al_hw n.
Proof.
  start vca_n_height_width. fsm. destruct (vca_i_s_axi_wi__wvalid i); [|reflexivity]. cbn [andb].
  destruct (Z.testbit (al_addr m) 10 && (trunc 6 (al_addr m) <? 26)); [reflexivity|]. destruct (Z.testbit (al_addr m) 11); [|reflexivity]. cbn [andb negb].
  destruct W as [A B]. rewrite <- (merge_v (negb (Z.testbit (al_addr m) 0)) _ _ _ A). cbv zeta. rewrite ?slice0. reflexivity.
Qed.
Lemma c_allowed : vca_n_allowed_cycles s (feed i w) = al_allowed n.
Proof.
  start vca_n_allowed_cycles. fsm. destruct (vca_i_s_axi_wi__wvalid i); [|reflexivity]. cbn [andb].
  destruct (Z.testbit (al_addr m) 10 && (trunc 6 (al_addr m) <? 26)); [reflexivity|]. destruct (Z.testbit (al_addr m) 11); [|reflexivity]. cbn [andb negb].
  destruct W as [A B]. replace (if negb (negb (Z.testbit (al_addr m) 0)) then al_merge24 (vca_i_s_axi_wi__wstrb i) (al_allowed m) (vca_i_s_axi_wi__wdata i) else al_allowed m)
    with (if negb (Z.testbit (al_addr m) 0) then al_allowed m else al_merge24 (vca_i_s_axi_wi__wstrb i) (al_allowed m) (vca_i_s_axi_wi__wdata i)) by (destruct (Z.testbit (al_addr m) 0); reflexivity).
  rewrite <- (merge24_v (negb (Z.testbit (al_addr m) 0)) _ _ _ B). cbv zeta. rewrite ?slice0. reflexivity.
Qed.
Lemma tb0 : Z.testbit (trunc 6 (al_addr m)) 0 = Z.testbit (al_addr m) 0.
Proof. unfold trunc. apply Z.mod_pow2_bits_low. lia. Qed.
Lemma c_wp_data : vca_n_wp_data s (feed i w) = al_wp_data n.
Proof.
  start vca_n_wp_data. fsm. destruct (vca_i_s_axi_wi__wvalid i); [|reflexivity]. cbn [andb].
  destruct (Z.testbit (al_addr m) 10 && (trunc 6 (al_addr m) <? 26)); [|reflexivity]. rewrite tb0. f_equal. destruct (Z.testbit (al_addr m) 0); cbn [negb].
  - rewrite <- hi_v. cbv zeta. rewrite ?slice0. reflexivity.
  - rewrite <- lo_v. cbv zeta. rewrite ?slice0. reflexivity.
Qed.
Lemma c_rdata : vca_n_rdata_v s (feed i w) = al_rdata n.
Proof.
  start vca_n_rdata_v. fsm. rewrite tb0. destruct (Z.testbit (al_addr m) 10 && (trunc 6 (al_addr m) <? 26)); [reflexivity|].
  destruct (Z.testbit (al_addr m) 11); [reflexivity|]. destruct (Z.testbit (al_addr m) 12); [|reflexivity]. cbn [andb].
  assert (R : 0 <= trunc 3 (al_addr m) < 8) by (apply Z.mod_pos_bound; reflexivity). revert R. generalize (trunc 3 (al_addr m)). intros v R.
  assert (C : v = 0 \/ v = 1 \/ v = 2 \/ v = 3 \/ v = 4 \/ v = 5 \/ v = 6 \/ v = 7) by lia. repeat (destruct C as [-> | C]; [reflexivity|]). subst v. reflexivity.
Qed.
Lemma c_rresp : vca_n_rresp_v s (feed i w) = al_rresp n.
Proof.
  start vca_n_rresp_v. fsm. all: destruct (Z.testbit (al_addr m) 10 && (trunc 6 (al_addr m) <? 26)), (Z.testbit (al_addr m) 11), (Z.testbit (al_addr m) 12), (Z.testbit (al_addr m) 0); reflexivity.
Qed.
Lemma c_bresp : vca_n_bresp_v s (feed i w) = al_bresp n.
Proof.
  start vca_n_bresp_v. fsm. all: destruct (vca_i_s_axi_wi__wvalid i); [|reflexivity].
  all: destruct (Z.testbit (al_addr m) 10 && (trunc 6 (al_addr m) <? 26)), (Z.testbit (al_addr m) 11), (Z.testbit (al_addr m) 12); reflexivity.
Qed.
Lemma c_wp_en : vca_n_wp_en s (feed i w) = al_wp_en n.
Proof.
  start vca_n_wp_en. fsm. all: destruct (vca_i_s_axi_wi__wvalid i); [|reflexivity]. all: destruct (Z.testbit (al_addr m) 10 && (trunc 6 (al_addr m) <? 26)); reflexivity.
Qed.
Lemma c_wp_addr : vca_n_wp_addr s (feed i w) = al_wp_addr n.
Proof.
  start vca_n_wp_addr. fsm. destruct (vca_i_s_axi_wi__wvalid i); [|reflexivity]. destruct (Z.testbit (al_addr m) 10 && (trunc 6 (al_addr m) <? 26)); [|reflexivity]. cbn [andb].
  change (2 ^ b2z true) with 2. unfold trunc at 1. apply Z.mod_small. assert (R : 0 <= trunc 6 (al_addr m) < 64) by (apply Z.mod_pos_bound; reflexivity). change (2 ^ 5) with 32.
  split; [apply Z.div_pos; lia|apply Z.div_lt_upper_bound; lia].
Qed.
Ltac small d := start d; fsm;
  destruct (vca_i_s_axi_ri__arvalid i), (vca_i_s_axi_wi__awvalid i), (vca_i_s_axi_ri__rready i), (vca_i_s_axi_wi__wvalid i), (vca_i_s_axi_wi__bready i); reflexivity.
Lemma c_fsm : vca_n_fsm_state s (feed i w) = al_code (al_fsm_st n).
Proof. start vca_n_fsm_state. destruct (vca_i_rst i); [reflexivity|]. fsm;
  destruct (vca_i_s_axi_ri__arvalid i), (vca_i_s_axi_wi__awvalid i), (vca_i_s_axi_ri__rready i), (vca_i_s_axi_wi__wvalid i), (vca_i_s_axi_wi__bready i); reflexivity. Qed.
Lemma c_addr : vca_n_addr_v s (feed i w) = al_addr n. Proof. small vca_n_addr_v. Qed.
Lemma c_rp_addr : vca_n_rp_addr s (feed i w) = al_rp_addr n. Proof. small vca_n_rp_addr. Qed.
Lemma c_bvalid : vca_n_bvalid_v s (feed i w) = al_bvalid n. Proof. small vca_n_bvalid_v. Qed.
Lemma c_rvalid : vca_n_rvalid_v s (feed i w) = al_rvalid n. Proof. small vca_n_rvalid_v. Qed.
Lemma c_wready : vca_n_wready_v s (feed i w) = al_wready n. Proof. small vca_n_wready_v. Qed.
Lemma c_awready : vca_n_awready_v s (feed i w) = al_awready n. Proof. small vca_n_awready_v. Qed.
Lemma c_arready : vca_n_arready_v s (feed i w) = al_arready n. Proof. small vca_n_arready_v. Qed.
Lemma c_dbg : dbg_step 0 (vdg_list g) (vca_i_debug_en i) = vdg_list (vdg_step g (vca_p_debug_module s (feed i w))).
Proof.
  unfold vdg_list, vdg_step, vca_p_debug_module, vdg_n_wsignal, vdg_n_wsignal_1, vdg_n_wsignal_2, vdg_n_wsignal_3, vdg_n_wsignal_4, vdg_n_wsignal_5, vdg_n_wsignal_6, vdg_n_wsignal_7.
  cbn [feed vca_i_debug_en vca_i_full_rst vdg_i_full_rst vdg_i_regs_en]. rewrite RST. rewrite !(slice0_mod 32 33) by lia. reflexivity.
Qed.
Lemma c_wide : wide 32 (al_hw n) /\ wide 24 (al_allowed n).
Proof.
  unfold n, al_step. cbn [al_hw al_allowed]. destruct W as (A & B).
  split; match goal with |- wide _ (if ?c then _ else _) => destruct c; [apply al_merge_wide || apply al_merge24_wide|assumption] end.
Qed.
End Reg.
Lemma core_axi_lite_sim : sim core_axi_lite_R (fun i => vca_i_full_rst i = false) core_step al_clock core_pins al_pins.
Proof.
  unfold sim. intros [[s mem] ra] [m dr] i RST ((g & E1 & E2) & E3 & E4 & W1 & W2). cbn [fst snd] in *. subst s dr mem ra. split; [reflexivity|].
  unfold al_clock, core_step. cbn [fst snd]. split; [|split; [|split; [|apply c_wide; split; assumption]]].
  - cbn [fst snd]. exists (vdg_step g (vca_p_debug_module (al_of m g) (feed i (nth (Z.to_nat (al_raddr m)) (al_mem m) 0)))). split; [|apply c_dbg, RST]. unfold vca_step.
    rewrite c_hw, c_allowed, c_wp_data, c_rdata, c_rresp, c_bresp, c_wp_en, c_wp_addr, c_fsm, c_addr, c_rp_addr, c_bvalid, c_rvalid, c_wready, c_awready, c_arready by (assumption || split; assumption). reflexivity.
  - reflexivity.
  - reflexivity.
Qed.
