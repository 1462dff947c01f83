(* Lemmas for C90: the shipped Verilog of dma_axi_lite against M_AxiLite. *)
From Verif Require Import Bits V_Gen2 M_AxiLite Spec_Verilog P_Verilog Spec_Verilog2 P_Verilog2 Spec_Verilog3.
Ltac Zify.zify_post_hook ::= idtac.
Local Open Scope bool_scope.

Definition by4 (a b c d : Z) : Z := a * 2 ^ 24 + b * 2 ^ 16 + c * 2 ^ 8 + d.
Lemma wide_slice8 l x : wide 8 (slice l (l + 8) x).
Proof. unfold slice, wide. replace (l + 8 - l) with 8 by lia. apply Z.mod_pos_bound. reflexivity. Qed.
Lemma split4 x : wide 32 x -> x = by4 (slice 24 32 x) (slice 16 24 x) (slice 8 16 x) (slice 0 8 x).
Proof.
  intros [A B]. unfold by4, slice. change (32 - 24) with 8. change (24 - 16) with 8. change (16 - 8) with 8. change (8 - 0) with 8.
  change (2 ^ 0) with 1. change (2 ^ 8) with 256. change (2 ^ 16) with (256 * 256). change (2 ^ 24) with (256 * 256 * 256). change (2 ^ 32) with 4294967296 in B.
  rewrite Z.div_1_r, <- !Z.div_div by lia. set (y := x / 256). set (z := y / 256). set (w := z / 256).
  pose proof (Z.div_mod x 256 ltac:(lia)). pose proof (Z.div_mod y 256 ltac:(lia)). pose proof (Z.div_mod z 256 ltac:(lia)). fold y in H. fold z in H0. fold w in H1.
  assert (W : w mod 256 = w). { apply Z.mod_small. pose proof (Z.mod_pos_bound x 256 ltac:(lia)). pose proof (Z.mod_pos_bound y 256 ltac:(lia)). pose proof (Z.mod_pos_bound z 256 ltac:(lia)). lia. }
  rewrite W. lia.
Qed.
Ltac by_two := unfold wide in *; change (2 ^ 0) with 1 in *; change (2 ^ 8) with 256 in *; change (2 ^ 16) with 65536 in *; change (2 ^ 24) with 16777216 in *; change (2 ^ 32) with 4294967296 in *; lia.
Section Bytes.
Variables (a b c d e : Z) (WA : wide 8 a) (WB : wide 8 b) (WC : wide 8 c) (WD : wide 8 d).
Lemma byte0 : slice 8 32 (by4 a b c d) * 2 ^ 8 + e * 2 ^ 0 + slice 0 0 (by4 a b c d) = by4 a b c e.
Proof. rewrite (put 0 8 8 32 24 _ (a * 2 ^ 16 + b * 2 ^ 8 + c) d 0); try lia; try assumption; unfold by4; by_two. Qed.
Lemma byte1 : slice 16 32 (by4 a b c d) * 2 ^ 16 + e * 2 ^ 8 + slice 0 8 (by4 a b c d) = by4 a b e d.
Proof. rewrite (put 8 8 16 32 16 _ (a * 2 ^ 8 + b) c d); try lia; try assumption; unfold by4; by_two. Qed.
Lemma byte2 : slice 24 32 (by4 a b c d) * 2 ^ 24 + e * 2 ^ 16 + slice 0 16 (by4 a b c d) = by4 a e c d.
Proof. rewrite (put 16 8 24 32 8 _ a b (c * 2 ^ 8 + d)); try lia; try assumption; unfold by4; by_two. Qed.
Lemma byte3 : slice 32 32 (by4 a b c d) * 2 ^ 32 + e * 2 ^ 24 + slice 0 24 (by4 a b c d) = by4 e b c d.
Proof. rewrite (put 24 8 32 32 0 _ 0 a (b * 2 ^ 16 + c * 2 ^ 8 + d)); try lia; try assumption; unfold by4; by_two. Qed.
End Bytes.

Lemma al_merge_by4 st x d : al_merge st x d =
  by4 (if Z.testbit st 3 then slice 24 32 d else slice 24 32 x) (if Z.testbit st 2 then slice 16 24 d else slice 16 24 x)
      (if Z.testbit st 1 then slice 8 16 d else slice 8 16 x) (if Z.testbit st 0 then slice 0 8 d else slice 0 8 x).
Proof.
  unfold al_merge, al_byte, by4. change (8 * 0) with 0. change (8 * 1) with 8. change (8 * 2) with 16. change (8 * 3) with 24. change (0 + 8) with 8. change (8 + 8) with 16.
  change (16 + 8) with 24. change (24 + 8) with 32. change (2 ^ 0) with 1. lia.
Qed.
Lemma w8 (l : Z) (p : bool) d x : wide 8 (if p then slice l (l + 8) d else slice l (l + 8) x).
Proof. destruct p; apply wide_slice8. Qed.
Lemma al_merge_wide st x d : wide 32 (al_merge st x d).
Proof.
  rewrite al_merge_by4. pose proof (w8 0 (Z.testbit st 0) d x). pose proof (w8 8 (Z.testbit st 1) d x). pose proof (w8 16 (Z.testbit st 2) d x). pose proof (w8 24 (Z.testbit st 3) d x).
  change (0 + 8) with 8 in *. change (8 + 8) with 16 in *. change (16 + 8) with 24 in *. change (24 + 8) with 32 in *. unfold by4. by_two.
Qed.
Lemma merge_v (k : bool) st x d : wide 32 x ->
  (let x21 := (let x15 := (let x9 := (if Z.testbit st 0 then (if k then slice 8 32 x * 2 ^ 8 + slice 0 8 d * 2 ^ 0 + slice 0 0 x else x) else x) in
     (if Z.testbit st 1 then (if k then slice 16 32 x9 * 2 ^ 16 + slice 8 16 d * 2 ^ 8 + slice 0 8 x9 else x9) else x9)) in
     (if Z.testbit st 2 then (if k then slice 24 32 x15 * 2 ^ 24 + slice 16 24 d * 2 ^ 16 + slice 0 16 x15 else x15) else x15)) in
     (if Z.testbit st 3 then (if k then slice 32 32 x21 * 2 ^ 32 + slice 24 32 d * 2 ^ 24 + slice 0 24 x21 else x21) else x21)) = if k then al_merge st x d else x.
Proof.
  intros W. destruct k; [|destruct (Z.testbit st 0), (Z.testbit st 1), (Z.testbit st 2), (Z.testbit st 3); reflexivity].
  rewrite al_merge_by4.
  pose proof (wide_slice8 0 x) as X0. pose proof (wide_slice8 8 x) as X1. pose proof (wide_slice8 16 x) as X2. pose proof (wide_slice8 24 x) as X3.
  pose proof (wide_slice8 0 d) as D0. pose proof (wide_slice8 8 d) as D1. pose proof (wide_slice8 16 d) as D2. pose proof (wide_slice8 24 d) as D3.
  change (0 + 8) with 8 in *. change (8 + 8) with 16 in *. change (16 + 8) with 24 in *. change (24 + 8) with 32 in *.
  pose proof (split4 x W) as S. remember (slice 24 32 x) as x3 eqn:E3. remember (slice 16 24 x) as x2 eqn:E2. remember (slice 8 16 x) as x1 eqn:E1. remember (slice 0 8 x) as x0 eqn:E0.
  clear E0 E1 E2 E3 W. subst x.
  generalize dependent (slice 0 8 d). generalize dependent (slice 8 16 d). generalize dependent (slice 16 24 d). generalize dependent (slice 24 32 d). intros d3 D3 d2 D2 d1 D1 d0 D0.
  cbv zeta.
  replace (if Z.testbit st 0 then slice 8 32 (by4 x3 x2 x1 x0) * 2 ^ 8 + d0 * 2 ^ 0 + slice 0 0 (by4 x3 x2 x1 x0) else by4 x3 x2 x1 x0) with (by4 x3 x2 x1 (if Z.testbit st 0 then d0 else x0))
    by (destruct (Z.testbit st 0); [rewrite byte0 by assumption|]; reflexivity).
  assert (Y0 : wide 8 (if Z.testbit st 0 then d0 else x0)) by (destruct (Z.testbit st 0); assumption).
  revert Y0. generalize (if Z.testbit st 0 then d0 else x0). intros y0 Y0. rewrite ?Z.add_assoc.
  replace (if Z.testbit st 1 then slice 16 32 (by4 x3 x2 x1 y0) * 2 ^ 16 + d1 * 2 ^ 8 + slice 0 8 (by4 x3 x2 x1 y0) else by4 x3 x2 x1 y0) with (by4 x3 x2 (if Z.testbit st 1 then d1 else x1) y0)
    by (destruct (Z.testbit st 1); [rewrite byte1 by assumption|]; reflexivity).
  assert (Y1 : wide 8 (if Z.testbit st 1 then d1 else x1)) by (destruct (Z.testbit st 1); assumption).
  revert Y1. generalize (if Z.testbit st 1 then d1 else x1). intros y1 Y1. rewrite ?Z.add_assoc.
  replace (if Z.testbit st 2 then slice 24 32 (by4 x3 x2 y1 y0) * 2 ^ 24 + d2 * 2 ^ 16 + slice 0 16 (by4 x3 x2 y1 y0) else by4 x3 x2 y1 y0) with (by4 x3 (if Z.testbit st 2 then d2 else x2) y1 y0)
    by (destruct (Z.testbit st 2); [rewrite byte2 by assumption|]; reflexivity).
  assert (Y2 : wide 8 (if Z.testbit st 2 then d2 else x2)) by (destruct (Z.testbit st 2); assumption).
  revert Y2. generalize (if Z.testbit st 2 then d2 else x2). intros y2 Y2. rewrite ?Z.add_assoc.
  destruct (Z.testbit st 3); [rewrite byte3 by assumption|]; reflexivity.
Qed.

Lemma strobes st : negb (trunc 4 st =? 0) = Z.testbit st 0 || Z.testbit st 1 || Z.testbit st 2 || Z.testbit st 3.
Proof.
  assert (T : forall k, 0 <= k < 4 -> Z.testbit st k = Z.testbit (trunc 4 st) k) by (intros k K; unfold trunc; symmetry; apply Z.mod_pow2_bits_low; lia).
  rewrite !T by lia. assert (R : 0 <= trunc 4 st < 16) by (apply Z.mod_pos_bound; reflexivity). revert R. generalize (trunc 4 st). intros v R.
  assert (C : v = 0 \/ v = 1 \/ v = 2 \/ v = 3 \/ v = 4 \/ v = 5 \/ v = 6 \/ v = 7 \/ v = 8 \/ v = 9 \/ v = 10 \/ v = 11 \/ v = 12 \/ v = 13 \/ v = 14 \/ v = 15) by lia.
  repeat (destruct C as [-> | C]; [reflexivity|]). subst. reflexivity.
Qed.
Lemma slice4_cases a : (slice 0 4 a = trunc 4 a) /\ (trunc 4 a = 0 \/ trunc 4 a = 1 \/ trunc 4 a = 2 \/ trunc 4 a = 3 \/ trunc 4 a = 4 \/ trunc 4 a = 5 \/ trunc 4 a = 6 \/ trunc 4 a = 7 \/ trunc 4 a = 8 \/
  trunc 4 a = 9 \/ trunc 4 a = 10 \/ trunc 4 a = 11 \/ trunc 4 a = 12 \/ trunc 4 a = 13 \/ trunc 4 a = 14 \/ trunc 4 a = 15).
Proof. split; [apply slice0|]. assert (R : 0 <= trunc 4 a < 16) by (apply Z.mod_pos_bound; reflexivity). lia. Qed.

Definition dl_code (f : dl_fsm) : Z :=
  match f with DL_IDLE => 0 | DL_READ_ADDRESS => 1 | DL_WRITE_ADDRESS => 2 | DL_READ_DATA => 3 | DL_WRITE_DATA => 4 | DL_WRITE_RESPONSE => 5 end.
Definition dma_axi_lite_R (s : vdm_st) (m : dl_st) : Prop :=
  s = {| vdm_start := dl_start m; vdm_addr_v := dl_addr m; vdm_fsm_state := dl_code (dl_fsm_st m); vdm_bvalid_v := dl_bvalid m; vdm_rvalid_v := dl_rvalid m; vdm_write_addr := dl_write_addr m;
         vdm_read_addr := dl_read_addr m; vdm_bresp_v := dl_bresp m; vdm_wready_v := dl_wready m; vdm_awready_v := dl_awready m; vdm_rresp_v := dl_rresp m; vdm_rdata_v := dl_rdata m; vdm_arready_v := dl_arready m |} /\
  wide 32 (dl_read_addr m) /\ wide 32 (dl_write_addr m) /\ wide 32 (dl_start m).
Lemma dma_axi_lite_R0 : dma_axi_lite_R vdm_init dl_init.
Proof. split; [reflexivity|]. repeat split; cbn; lia. Qed.

Section Reg.
Variables (m : dl_st) (i : vdm_in).
Let s := {| vdm_start := dl_start m; vdm_addr_v := dl_addr m; vdm_fsm_state := dl_code (dl_fsm_st m); vdm_bvalid_v := dl_bvalid m; vdm_rvalid_v := dl_rvalid m; vdm_write_addr := dl_write_addr m;
         vdm_read_addr := dl_read_addr m; vdm_bresp_v := dl_bresp m; vdm_wready_v := dl_wready m; vdm_awready_v := dl_awready m; vdm_rresp_v := dl_rresp m; vdm_rdata_v := dl_rdata m; vdm_arready_v := dl_arready m |}.
Hypothesis W : wide 32 (dl_read_addr m) /\ wide 32 (dl_write_addr m) /\ wide 32 (dl_start m).
Hypothesis RST : vdm_i_rst i = false.
Ltac start d := unfold d; cbv zeta; rewrite RST; unfold dl_step, s, vdm_bus, vdm_ins; cbn [vdm_start vdm_addr_v vdm_fsm_state vdm_write_addr vdm_read_addr vdm_bresp_v vdm_rdata_v vdm_rresp_v vdm_bvalid_v vdm_rvalid_v
  vdm_wready_v vdm_awready_v vdm_arready_v dl_fsm_st dl_addr dl_arready dl_rvalid dl_awready dl_wready dl_bvalid dl_rdata dl_rresp dl_bresp dl_read_addr dl_write_addr dl_start
  ai_arvalid ai_araddr ai_rready ai_awvalid ai_awaddr ai_wvalid ai_wdata ai_wstrb ai_bready].
Lemma n_start : vdm_n_start s i = dl_start (dl_step m (vdm_bus i) (vdm_ins i)).
Proof.
  start vdm_n_start. destruct (dl_fsm_st m); try reflexivity. cbn [dl_code Z.eqb Pos.eqb]. destruct (vdm_i_s_axi_wi___wvalid i); [|reflexivity]. cbn [andb].
  destruct (Z.testbit (dl_addr m) 10); [|reflexivity]. cbn [andb]. rewrite slice0. destruct W as (A & B & C). exact (merge_v (trunc 4 (dl_addr m) =? 2) (vdm_i_s_axi_wi___wstrb i) (dl_start m) (vdm_i_s_axi_wi___wdata i) C).
Qed.
Lemma n_write_addr : vdm_n_write_addr s i = dl_write_addr (dl_step m (vdm_bus i) (vdm_ins i)).
Proof.
  start vdm_n_write_addr. destruct (dl_fsm_st m); try reflexivity. cbn [dl_code Z.eqb Pos.eqb]. destruct (vdm_i_s_axi_wi___wvalid i); [|reflexivity]. cbn [andb].
  destruct (Z.testbit (dl_addr m) 10); [|reflexivity]. cbn [andb]. rewrite slice0. destruct W as (A & B & C). exact (merge_v (trunc 4 (dl_addr m) =? 1) (vdm_i_s_axi_wi___wstrb i) (dl_write_addr m) (vdm_i_s_axi_wi___wdata i) B).
Qed.
Lemma n_read_addr : vdm_n_read_addr s i = dl_read_addr (dl_step m (vdm_bus i) (vdm_ins i)).
Proof.
  start vdm_n_read_addr. destruct (dl_fsm_st m); try reflexivity. cbn [dl_code Z.eqb Pos.eqb]. destruct (vdm_i_s_axi_wi___wvalid i); [|reflexivity]. cbn [andb].
  destruct (Z.testbit (dl_addr m) 10); [|reflexivity]. cbn [andb]. rewrite slice0. destruct W as (A & B & C). exact (merge_v (trunc 4 (dl_addr m) =? 0) (vdm_i_s_axi_wi___wstrb i) (dl_read_addr m) (vdm_i_s_axi_wi___wdata i) A).
Qed.
Lemma n_bresp : vdm_n_bresp_v s i = dl_bresp (dl_step m (vdm_bus i) (vdm_ins i)).
Proof.
  start vdm_n_bresp_v. destruct (dl_fsm_st m); try reflexivity. cbn [dl_code Z.eqb Pos.eqb]. destruct (vdm_i_s_axi_wi___wvalid i); [|reflexivity]. cbn [andb].
  destruct (Z.testbit (dl_addr m) 10); [|reflexivity]. rewrite strobes. destruct (slice4_cases (dl_addr m)) as [-> C].
  repeat (destruct C as [-> | C]; [cbn [Z.eqb Pos.eqb Z.leb Z.compare Pos.compare Pos.compare_cont andb]; destruct (Z.testbit (vdm_i_s_axi_wi___wstrb i) 0), (Z.testbit (vdm_i_s_axi_wi___wstrb i) 1), (Z.testbit (vdm_i_s_axi_wi___wstrb i) 2), (Z.testbit (vdm_i_s_axi_wi___wstrb i) 3); reflexivity|]).
  rewrite C. destruct (Z.testbit (vdm_i_s_axi_wi___wstrb i) 0), (Z.testbit (vdm_i_s_axi_wi___wstrb i) 1), (Z.testbit (vdm_i_s_axi_wi___wstrb i) 2), (Z.testbit (vdm_i_s_axi_wi___wstrb i) 3); reflexivity.
Qed.
Lemma n_rdata : vdm_n_rdata_v s i = dl_rdata (dl_step m (vdm_bus i) (vdm_ins i)).
Proof.
  start vdm_n_rdata_v. destruct (dl_fsm_st m); try reflexivity. cbn [dl_code Z.eqb Pos.eqb]. destruct (Z.testbit (dl_addr m) 10); [|reflexivity].
  destruct (slice4_cases (dl_addr m)) as [-> C]. repeat (destruct C as [-> | C]; [reflexivity|]). rewrite C. reflexivity.
Qed.
Ltac small d := start d; destruct (dl_fsm_st m); cbn [dl_code Z.eqb Pos.eqb]; try reflexivity;
  destruct (vdm_i_s_axi_ri___arvalid i), (vdm_i_s_axi_wi___awvalid i), (vdm_i_s_axi_ri___rready i), (vdm_i_s_axi_wi___wvalid i), (vdm_i_s_axi_wi___bready i); reflexivity.
Lemma n_fsm : vdm_n_fsm_state s i = dl_code (dl_fsm_st (dl_step m (vdm_bus i) (vdm_ins i))). Proof. small vdm_n_fsm_state. Qed.
Lemma n_addr : vdm_n_addr_v s i = dl_addr (dl_step m (vdm_bus i) (vdm_ins i)). Proof. small vdm_n_addr_v. Qed.
Lemma n_bvalid : vdm_n_bvalid_v s i = dl_bvalid (dl_step m (vdm_bus i) (vdm_ins i)). Proof. small vdm_n_bvalid_v. Qed.
Lemma n_rvalid : vdm_n_rvalid_v s i = dl_rvalid (dl_step m (vdm_bus i) (vdm_ins i)). Proof. small vdm_n_rvalid_v. Qed.
Lemma n_wready : vdm_n_wready_v s i = dl_wready (dl_step m (vdm_bus i) (vdm_ins i)). Proof. small vdm_n_wready_v. Qed.
Lemma n_awready : vdm_n_awready_v s i = dl_awready (dl_step m (vdm_bus i) (vdm_ins i)). Proof. small vdm_n_awready_v. Qed.
Lemma n_rresp : vdm_n_rresp_v s i = dl_rresp (dl_step m (vdm_bus i) (vdm_ins i)). Proof. small vdm_n_rresp_v. Qed.
Lemma n_arready : vdm_n_arready_v s i = dl_arready (dl_step m (vdm_bus i) (vdm_ins i)). Proof. small vdm_n_arready_v. Qed.
Lemma n_wide : let n := dl_step m (vdm_bus i) (vdm_ins i) in wide 32 (dl_read_addr n) /\ wide 32 (dl_write_addr n) /\ wide 32 (dl_start n).
Proof.
  cbv zeta. unfold dl_step. cbn [dl_read_addr dl_write_addr dl_start]. destruct W as (A & B & C).
  split; [|split]; match goal with |- wide 32 (if ?c then _ else _) => destruct c; [apply al_merge_wide|assumption] end.
Qed.
End Reg.
Lemma dma_axi_lite_sim : sim dma_axi_lite_R (fun _ => True) vdm_step dl_clock vdm_pins dl_pins.
Proof.
  unfold sim. intros s m i _ (-> & W). split; [reflexivity|]. unfold dl_clock, clocked. destruct (vdm_i_rst i) eqn:RST.
  - replace (vdm_step _ i) with vdm_init; [apply dma_axi_lite_R0|]. unfold vdm_step, vdm_n_start, vdm_n_addr_v, vdm_n_fsm_state, vdm_n_bvalid_v, vdm_n_rvalid_v, vdm_n_write_addr, vdm_n_read_addr, vdm_n_bresp_v,
      vdm_n_wready_v, vdm_n_awready_v, vdm_n_rresp_v, vdm_n_rdata_v, vdm_n_arready_v. cbv zeta. rewrite RST. reflexivity.
  - split; [|apply n_wide, W]. unfold vdm_step. rewrite n_start, n_write_addr, n_read_addr, n_bresp, n_rdata, n_fsm, n_addr, n_bvalid, n_rvalid, n_wready, n_awready, n_rresp, n_arready by assumption. reflexivity.
Qed.
