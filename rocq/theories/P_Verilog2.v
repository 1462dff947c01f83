(* Lemmas for C90: the shipped Verilog of b16_b64 and b16_b40 against M_Width. *)
From Verif Require Import Bits V_Gen2 M_Width M_Lvds M_AxiHP M_AxiLite M_Bridge Spec_Verilog P_Verilog Spec_Verilog2.
Ltac Zify.zify_post_hook ::= idtac.
Local Open Scope bool_scope.

(* replacing the bits l..h-1 of a word *)
Lemma slice_hi l h a r : 0 <= l <= h -> wide l r -> wide (h - l) a -> slice l h (a * 2 ^ l + r) = a.
Proof.
  intros L R A. unfold slice, wide in *. assert (0 < 2 ^ l) by (apply Z.pow_pos_nonneg; lia).
  rewrite (Z.add_comm (a * 2 ^ l)), Z.div_add, (Z.div_small r) by lia. rewrite Z.add_0_l. apply Z.mod_small, A.
Qed.
Lemma slice_lo l a r : 0 <= l -> wide l r -> slice 0 l (a * 2 ^ l + r) = r.
Proof. intros L R. rewrite slice0. unfold trunc, wide in *. assert (0 < 2 ^ l) by (apply Z.pow_pos_nonneg; lia). rewrite Z.add_comm, Z.mod_add by lia. apply Z.mod_small, R. Qed.
Lemma put l k t h w x a m r d : 0 <= l -> 0 <= k -> t = l + k -> w = h - t -> 0 <= w -> wide l r -> wide k m -> wide w a -> x = a * 2 ^ t + m * 2 ^ l + r ->
  slice t h x * 2 ^ t + d * 2 ^ l + slice 0 l x = a * 2 ^ t + d * 2 ^ l + r.
Proof.
  intros L K -> -> H R M A ->. f_equal; [f_equal; f_equal|].
  - rewrite <- Z.add_assoc. apply slice_hi; [lia| |exact A]. unfold wide in *. rewrite Z.pow_add_r by lia. nia.
  - replace (a * 2 ^ (l + k) + m * 2 ^ l + r) with ((a * 2 ^ k + m) * 2 ^ l + r) by (rewrite Z.pow_add_r by lia; ring). apply slice_lo; assumption.
Qed.

Definition quad_ok (q : quad) : Prop := wide 16 (q3 q) /\ wide 16 (q2 q) /\ wide 16 (q1 q) /\ wide 16 (q0 q).
Ltac two := unfold wide in *; change (2 ^ 0) with 1 in *; change (2 ^ 16) with 65536 in *; change (2 ^ 24) with 16777216 in *; change (2 ^ 32) with 4294967296 in *;
  change (2 ^ 40) with 1099511627776 in *; change (2 ^ 48) with 281474976710656 in *; change (2 ^ 64) with 18446744073709551616 in *; change (2 ^ 8) with 256 in *; lia.
Lemma put1 q d : quad_ok q -> slice 64 64 (quad_word q) * 2 ^ 64 + d * 2 ^ 48 + slice 0 48 (quad_word q) = quad_word {| q3 := d; q2 := q2 q; q1 := q1 q; q0 := q0 q |}.
Proof. intros (A & B & C & D). rewrite (put 48 16 64 64 0 _ 0 (q3 q) (q2 q * 2 ^ 32 + q1 q * 2 ^ 16 + q0 q)); try lia; try assumption; unfold quad_word; cbn [q3 q2 q1 q0]; try two. Qed.
Lemma put2 q d : quad_ok q -> slice 48 64 (quad_word q) * 2 ^ 48 + d * 2 ^ 32 + slice 0 32 (quad_word q) = quad_word {| q3 := q3 q; q2 := d; q1 := q1 q; q0 := q0 q |}.
Proof. intros (A & B & C & D). rewrite (put 32 16 48 64 16 _ (q3 q) (q2 q) (q1 q * 2 ^ 16 + q0 q)); try lia; try assumption; unfold quad_word; cbn [q3 q2 q1 q0]; try two. Qed.
Lemma put3 q d : quad_ok q -> slice 32 64 (quad_word q) * 2 ^ 32 + d * 2 ^ 16 + slice 0 16 (quad_word q) = quad_word {| q3 := q3 q; q2 := q2 q; q1 := d; q0 := q0 q |}.
Proof. intros (A & B & C & D). rewrite (put 16 16 32 64 32 _ (q3 q * 2 ^ 16 + q2 q) (q1 q) (q0 q)); try lia; try assumption; unfold quad_word; cbn [q3 q2 q1 q0]; try two. Qed.
Lemma put4 q d : quad_ok q -> slice 16 64 (quad_word q) * 2 ^ 16 + d * 2 ^ 0 + slice 0 0 (quad_word q) = quad_word {| q3 := q3 q; q2 := q2 q; q1 := q1 q; q0 := d |}.
Proof. intros (A & B & C & D). rewrite (put 0 16 16 64 48 _ (q3 q * 2 ^ 32 + q2 q * 2 ^ 16 + q1 q) (q0 q) 0); try lia; try assumption; unfold quad_word; cbn [q3 q2 q1 q0]; try two. Qed.

Definition p64_code (side : bool) (p : pk_pos) : Z :=
  match side, p with false, PK_IDLE => 0 | false, PK_F1 => 1 | false, PK_F2 => 2 | false, PK_F3 => 3 | false, PK_F4 => 4
  | true, PK_IDLE => 6 | true, PK_F1 => 5 | true, PK_F2 => 7 | true, PK_F3 => 8 | true, PK_F4 => 9 end.
Definition b16_b64_R (s : vb6_st) (m : p64_st) : Prop :=
  s = {| vb6_buffer2 := quad_word (p64_b2 m); vb6_end_out := p64_end m; vb6_counter := p64_ctr m; vb6_reg_end := p64_rend m; vb6_buffer1 := quad_word (p64_b1 m);
         vb6_fsm_state := p64_code (p64_side m) (p64_pos m); vb6_o_busy := p64_busy m; vb6_buffer2_valid := p64_v2 m; vb6_buffer1_valid := p64_v1 m;
         vb6_buff_chs := p64_chs m; vb6_valid_out := p64_valid m; vb6_data_out := p64_data m |} /\ quad_ok (p64_b1 m) /\ quad_ok (p64_b2 m).
Lemma quad_fill_ok p d q : wide 16 d -> quad_ok q -> quad_ok (quad_fill p d q).
Proof. intros W (A & B & C & D). destruct p; repeat split; cbn [quad_fill q3 q2 q1 q0]; first [apply W|apply A|apply B|apply C|apply D]. Qed.
Lemma b16_b64_sim : sim b16_b64_R (fun i => wide 16 (vb6_i_data_in i)) vb6_step p64_clock vb6_pins p64_pins.
Proof.
  unfold sim, b16_b64_R. intros s [sd ps b1 v1 b2 v2 ch da va bu re ct en] [d e b rs v] W (-> & Q1 & Q2). split; [reflexivity|].
  cbn [vb6_i_data_in p64_b1 p64_b2] in *. unfold p64_clock, clocked. cbn [vb6_i_rst]. split; [|split].
  - destruct rs; [reflexivity|].
    unfold vb6_step, vb6_n_buffer2, vb6_n_end_out, vb6_n_counter, vb6_n_reg_end, vb6_n_buffer1, vb6_n_fsm_state, vb6_n_o_busy, vb6_n_buffer2_valid, vb6_n_buffer1_valid, vb6_n_buff_chs, vb6_n_valid_out, vb6_n_data_out, p64_step, vb6_read.
    cbn [vb6_buffer2 vb6_end_out vb6_counter vb6_reg_end vb6_buffer1 vb6_fsm_state vb6_o_busy vb6_buffer2_valid vb6_buffer1_valid vb6_buff_chs vb6_valid_out vb6_data_out
      vb6_i_data_in vb6_i_end_in vb6_i_i_busy vb6_i_rst vb6_i_valid_in p64_side p64_pos p64_b1 p64_v1 p64_b2 p64_v2 p64_chs p64_data p64_valid p64_busy p64_rend p64_ctr p64_end
      pi_valid pi_data pi_end pi_busy].
    rewrite !(put1 b1), !(put2 b1), !(put3 b1), !(put4 b1), !(put1 b2), !(put2 b2), !(put3 b2), !(put4 b2) by assumption.
    rewrite (slice0_mod 3 4) by lia. rewrite (wide_id 16 d W), !eqb_f, !eqb_t.
    f_equal.
    all: try (destruct sd, ps, v; reflexivity).
    all: try (destruct sd, ps, v, v1, v2, bu, va, b, ch; reflexivity).
    all: try (destruct re, va, b; reflexivity).
    all: try (destruct ch; reflexivity).
    all: try (destruct v, bu; reflexivity).
    all: try (destruct va, b, v1, v2; reflexivity).
  - destruct rs; [repeat split; cbn; lia|]. unfold p64_step. cbn [p64_b1 vb6_read pi_data pi_valid vb6_i_data_in vb6_i_valid_in p64_side p64_pos].
    destruct (negb sd && v); [|exact Q1]. apply quad_fill_ok; [apply wide_trunc; lia|exact Q1].
  - destruct rs; [repeat split; cbn; lia|]. unfold p64_step. cbn [p64_b2 vb6_read pi_data pi_valid vb6_i_data_in vb6_i_valid_in p64_side p64_pos].
    destruct (sd && v); [|exact Q2]. apply quad_fill_ok; [apply wide_trunc; lia|exact Q2].
Qed.
Lemma b16_b64_R0 : b16_b64_R vb6_init p64_init. Proof. repeat split; cbn; lia. Qed.

(* ---------------------------------------------------------------- b16_b40 *)
Definition tri1_ok (t : tri) : Prop := wide 16 (t2 t) /\ wide 16 (t1 t) /\ wide 8 (t0 t).
Definition tri2_ok (t : tri) : Prop := wide 8 (t2 t) /\ wide 16 (t1 t) /\ wide 16 (t0 t).
Lemma pa1 t d : tri1_ok t -> slice 40 40 (tri_word1 t) * 2 ^ 40 + d * 2 ^ 24 + slice 0 24 (tri_word1 t) = tri_word1 {| t2 := d; t1 := t1 t; t0 := t0 t |}.
Proof. intros (A & B & C). rewrite (put 24 16 40 40 0 _ 0 (t2 t) (t1 t * 2 ^ 8 + t0 t)); try lia; try assumption; unfold tri_word1; cbn [t2 t1 t0]; try two. Qed.
Lemma pa2 t d : tri1_ok t -> slice 24 40 (tri_word1 t) * 2 ^ 24 + d * 2 ^ 8 + slice 0 8 (tri_word1 t) = tri_word1 {| t2 := t2 t; t1 := d; t0 := t0 t |}.
Proof. intros (A & B & C). rewrite (put 8 16 24 40 16 _ (t2 t) (t1 t) (t0 t)); try lia; try assumption; unfold tri_word1; cbn [t2 t1 t0]; try two. Qed.
Lemma pa3 t d : tri1_ok t -> slice 8 40 (tri_word1 t) * 2 ^ 8 + d * 2 ^ 0 + slice 0 0 (tri_word1 t) = tri_word1 {| t2 := t2 t; t1 := t1 t; t0 := d |}.
Proof. intros (A & B & C). rewrite (put 0 8 8 40 32 _ (t2 t * 2 ^ 16 + t1 t) (t0 t) 0); try lia; try assumption; unfold tri_word1; cbn [t2 t1 t0]; try two. Qed.
Lemma pb1 t d : tri2_ok t -> slice 40 40 (tri_word2 t) * 2 ^ 40 + d * 2 ^ 32 + slice 0 32 (tri_word2 t) = tri_word2 {| t2 := d; t1 := t1 t; t0 := t0 t |}.
Proof. intros (A & B & C). rewrite (put 32 8 40 40 0 _ 0 (t2 t) (t1 t * 2 ^ 16 + t0 t)); try lia; try assumption; unfold tri_word2; cbn [t2 t1 t0]; try two. Qed.
Lemma pb2 t d : tri2_ok t -> slice 32 40 (tri_word2 t) * 2 ^ 32 + d * 2 ^ 16 + slice 0 16 (tri_word2 t) = tri_word2 {| t2 := t2 t; t1 := d; t0 := t0 t |}.
Proof. intros (A & B & C). rewrite (put 16 16 32 40 8 _ (t2 t) (t1 t) (t0 t)); try lia; try assumption; unfold tri_word2; cbn [t2 t1 t0]; try two. Qed.
Lemma pb3 t d : tri2_ok t -> slice 16 40 (tri_word2 t) * 2 ^ 16 + d * 2 ^ 0 + slice 0 0 (tri_word2 t) = tri_word2 {| t2 := t2 t; t1 := t1 t; t0 := d |}.
Proof. intros (A & B & C). rewrite (put 0 16 16 40 24 _ (t2 t * 2 ^ 16 + t1 t) (t0 t) 0); try lia; try assumption; unfold tri_word2; cbn [t2 t1 t0]; try two. Qed.

Definition p40_code (f : p40_fsm) : Z := match f with P40_1I => 0 | P40_1F1 => 1 | P40_1F2 => 2 | P40_1F3 => 3 | P40_2I => 5 | P40_2F1 => 4 | P40_2F2 => 6 end.
Definition b16_b40_R (s : vb4_st) (m : p40_st) : Prop :=
  vb4_fsm_state s = p40_code (p40_fsm_st m) /\ b2z (vb4_temp_8 s) = p40_temp m /\
  vb4_buffer1 s = tri_word1 (p40_b1 m) /\ vb4_buffer2 s = tri_word2 (p40_b2 m) /\ vb4_o_busy s = p40_busy m /\ vb4_buffer1_valid s = p40_v1 m /\ vb4_buffer2_valid s = p40_v2 m /\
  vb4_buff_chs s = p40_chs m /\ vb4_valid_out s = p40_valid m /\ tri1_ok (p40_b1 m) /\ tri2_ok (p40_b2 m).
Lemma bit0 d : b2z (Z.testbit d 0) = trunc 1 (slice 0 8 d).
Proof.
  rewrite slice0. unfold trunc. change (2 ^ 1) with 2. replace ((d mod 2 ^ 8) mod 2) with (d mod 2).
  - rewrite Z.bit0_odd, Zmod_odd. destruct (Z.odd d); reflexivity.
  - change (2 ^ 8) with (2 * 128). rewrite Z.rem_mul_r by lia. rewrite (Z.mul_comm 2), Z.mod_add by lia. symmetry. apply Z.mod_mod. lia.
Qed.
Lemma b16_b40_sim : sim b16_b40_R (fun i => wide 16 (vb4_i_data_in i)) vb4_step p40_clock vb4_pins p40_pins.
Proof.
  unfold sim, b16_b40_R. intros [st sb2 sb1 sf so sv2 sv1 sc sv] [fs b1 v1 b2 v2 ch te va bu] [d fr b rs v] W H. cbn [vb4_i_data_in] in W.
  cbn [vb4_temp_8 vb4_buffer2 vb4_buffer1 vb4_fsm_state vb4_o_busy vb4_buffer2_valid vb4_buffer1_valid vb4_buff_chs vb4_valid_out
    p40_fsm_st p40_b1 p40_v1 p40_b2 p40_v2 p40_chs p40_temp p40_valid p40_busy] in H.
  destruct H as (-> & T & -> & -> & -> & -> & -> & -> & -> & Q1 & Q2).
  split; [unfold vb4_pins, p40_pins, vb4_o_data_out, p40_data; cbn; destruct ch; reflexivity|].
  assert (T8 : wide 8 te) by (rewrite <- T; destruct st; unfold wide; cbn; lia).
  assert (D : trunc 16 d = d) by (apply wide_id, W).
  unfold vb4_step, vb4_n_temp_8, vb4_n_buffer2, vb4_n_buffer1, vb4_n_fsm_state, vb4_n_o_busy, vb4_n_buffer2_valid, vb4_n_buffer1_valid, vb4_n_buff_chs, vb4_n_valid_out, p40_clock, p40_step, vb4_read.
  cbn [vb4_temp_8 vb4_buffer2 vb4_buffer1 vb4_fsm_state vb4_o_busy vb4_buffer2_valid vb4_buffer1_valid vb4_buff_chs vb4_valid_out
    p40_fsm_st p40_b1 p40_v1 p40_b2 p40_v2 p40_chs p40_temp p40_valid p40_busy vb4_i_data_in vb4_i_full_rst vb4_i_i_busy vb4_i_rst vb4_i_valid_in pi_valid pi_data pi_end pi_busy].
  rewrite T, D, !(pa1 b1), !(pa2 b1), !(pa3 b1), !(pb1 b2), !(pb2 b2), !(pb3 b2), !eqb_f, !eqb_t by assumption.
  assert (S1 : wide 8 (slice 8 16 d)) by (apply slice_wide; lia). assert (S2 : wide 8 (slice 0 8 d)) by (apply slice_wide; lia).
  assert (Z8 : wide 8 0) by (unfold wide; lia). assert (Z16 : wide 16 0) by (unfold wide; lia).
  destruct Q1 as (A1 & A2 & A3), Q2 as (B1 & B2 & B3).
  destruct fr, rs; unfold p40_full_reset, p40_fsm_reset;
    cbn [p40_fsm_st p40_b1 p40_v1 p40_b2 p40_v2 p40_chs p40_temp p40_valid p40_busy].
  all: split; [destruct fs, v, v1, v2; reflexivity|].
  all: split; [destruct fs, v, v2; first [reflexivity|exact T|apply bit0]|].
  all: split; [destruct fs, v; reflexivity|].
  all: split; [destruct fs, v, v2; reflexivity|].
  all: split; [destruct fs, v, v1, v2; reflexivity|].
  all: split; [destruct fs, v, va, b, ch; reflexivity|].
  all: split; [destruct fs, v, va, b, ch; reflexivity|].
  all: split; [destruct va, b, ch; reflexivity|].
  all: split; [destruct va, b, v1, v2; reflexivity|].
  all: split; [destruct fs, v|destruct fs, v, v2]; unfold tri1_ok, tri2_ok, tri0; cbn [t2 t1 t0 negb andb]; repeat split;
    first [apply W|apply S1|apply S2|apply A1|apply A2|apply A3|apply B1|apply B2|apply B3|apply T8|apply Z8|apply Z16].
Qed.
Lemma b16_b40_R0 : b16_b40_R vb4_init p40_init. Proof. repeat split; cbn; lia. Qed.

(* ---------------------------------------------------------------- b64_b32_2 *)
Definition b64_b32_2_R (s : vb2_st) (m : s24_st) : Prop :=
  s = {| vb2_half_latched := s24_half m; vb2_valid_out := s24_valid m; vb2_data_out := s24_data m; vb2_reg_valid := s24_rv m; vb2_reg := s24_reg m; vb2_o_busy := s24_busy m |}.
Lemma b64_b32_2_sim : sim b64_b32_2_R (fun i => wide 64 (vb2_i_data_in i)) vb2_step s24_clock vb2_pins s24_pins.
Proof.
  unfold sim, b64_b32_2_R. intros s [rg rv ha da va bu] [d fr b v] W ->. split; [reflexivity|]. cbn [vb2_i_data_in] in W.
  unfold s24_clock, clocked, vb2_step, s24_step, vb2_read, vb2_n_half_latched, vb2_n_valid_out, vb2_n_data_out, vb2_n_reg_valid, vb2_n_reg, vb2_n_o_busy.
  cbn [vb2_half_latched vb2_valid_out vb2_data_out vb2_reg_valid vb2_reg vb2_o_busy vb2_i_data_in vb2_i_full_rst vb2_i_i_busy vb2_i_valid_in s24_reg s24_rv s24_half s24_data s24_valid s24_busy
    pi_valid pi_data pi_end pi_busy]. rewrite (wide_id 64 d W). destruct fr, rv, ha, va, b, v; reflexivity.
Qed.
Lemma b64_b32_2_R0 : b64_b32_2_R vb2_init s24_init. Proof. reflexivity. Qed.

(* ---------------------------------------------------------------- axihp_writer, axihp_reader *)
Lemma below_max_bit a : wide 4 a -> negb (Z.testbit a 3) = below_max a.
Proof.
  unfold wide, below_max. intros H. change (2 ^ 4) with 16 in H.
  assert (C : a = 0 \/ a = 1 \/ a = 2 \/ a = 3 \/ a = 4 \/ a = 5 \/ a = 6 \/ a = 7 \/ a = 8 \/ a = 9 \/ a = 10 \/ a = 11 \/ a = 12 \/ a = 13 \/ a = 14 \/ a = 15) by lia.
  repeat (destruct C as [->|C]; [reflexivity|]). rewrite C. reflexivity.
Qed.
Definition axihp_writer_R (s : vhw_st) (m : hw_st) : Prop :=
  s = {| vhw_unconf := hw_unconf m; vhw_active := hw_active m; vhw_bready := hw_bready m; vhw_wvalid := hw_wvalid m; vhw_wlast := hw_wlast m; vhw_counter := hw_ctr m; vhw_awvalid := hw_awvalid m |} /\
  wide 4 (hw_active m).
Lemma axihp_writer_sim : sim axihp_writer_R (fun _ => True) vhw_step hw_clock vhw_pins hw_pins.
Proof.
  unfold sim, axihp_writer_R. intros s [av wv wl ct br ac un] [ae ai de di en ck awr brs bv wr rs ws] _ (-> & W). cbn [hw_active] in W. split.
  - unfold vhw_pins, hw_pins, vhw_o_addr_enable, vhw_o_data_enable, vhw_o_inactive, vhw_o_writer_error. rewrite !eqb_t. reflexivity.
  - unfold hw_clock, clocked, vhw_step, hw_step, vhw_read, hw_addr_en, hw_data_en, hw_resp_en, vhw_n_unconf, vhw_n_active, vhw_n_bready, vhw_n_wvalid, vhw_n_wlast, vhw_n_counter, vhw_n_awvalid.
    cbn [vhw_unconf vhw_active vhw_bready vhw_wvalid vhw_wlast vhw_counter vhw_awvalid vhw_i_addr_empty vhw_i_addr_in vhw_i_data_empty vhw_i_data_in vhw_i_enable vhw_i_m_axi_aclk
      vhw_i_m_axi_wi__awready vhw_i_m_axi_wi__bresp vhw_i_m_axi_wi__bvalid vhw_i_m_axi_wi__wready vhw_i_rst vhw_i_write_strobe
      hw_awvalid hw_wvalid hw_wlast hw_ctr hw_bready hw_active hw_unconf hwi_enable hwi_addr_empty hwi_data_empty hwi_awready hwi_wready hwi_bvalid hwi_bresp].
    rewrite !(slice0_mod 4 5), !eqb_f, !eqb_t, (below_max_bit ac W) by lia. change (16 - 1) with 15.
    destruct rs; cbn [hw_init hw_awvalid hw_wvalid hw_wlast hw_ctr hw_bready hw_active hw_unconf]; (split; [|first [solve [unfold wide; cbn; lia]|repeat match goal with |- context[if ?b then _ else _] => destruct b end; first [exact W|apply wide_trunc; lia]]]).
    + reflexivity.
    + f_equal.
      * destruct br, (un =? 0), en; reflexivity.
      * destruct wv, wl, de, (ac =? 0); reflexivity.
      * destruct wv, wr, (ct =? 15); reflexivity.
      * destruct av, awr, en, ae, (below_max ac); reflexivity.
Qed.
Lemma axihp_writer_R0 : axihp_writer_R vhw_init hw_init. Proof. repeat split; cbn; lia. Qed.
Definition axihp_reader_R (s : vhr_st) (m : hr_st) : Prop :=
  s = {| vhr_active := hr_active m; vhr_rready := hr_rready m; vhr_arvalid := hr_arvalid m |} /\ wide 4 (hr_active m).
Lemma axihp_reader_sim : sim axihp_reader_R (fun _ => True) vhr_step hr_clock vhr_pins hr_pins.
Proof.
  unfold sim, axihp_reader_R. intros s [av rr ac] [ae ai df en ck arr rd rl rrs rv rs] _ (-> & W). cbn [hr_active] in W. split.
  - unfold vhr_pins, hr_pins, vhr_o_addr_enable, vhr_o_data_enable, vhr_o_inactive, vhr_o_reader_error. rewrite !eqb_t. reflexivity.
  - unfold hr_clock, clocked, vhr_step, hr_step, vhr_read, hr_addr_en, vhr_n_active, vhr_n_rready, vhr_n_arvalid.
    cbn [vhr_active vhr_rready vhr_arvalid vhr_i_addr_empty vhr_i_addr_in vhr_i_data_full vhr_i_enable vhr_i_m_axi_aclk_ vhr_i_m_axi_ri__arready vhr_i_m_axi_ri__rdata vhr_i_m_axi_ri__rlast
      vhr_i_m_axi_ri__rresp vhr_i_m_axi_ri__rvalid vhr_i_rst hr_arvalid hr_rready hr_active hri_enable hri_addr_empty hri_data_full hri_arready hri_rvalid hri_rlast hri_rdata hri_rresp].
    rewrite !(slice0_mod 4 5), !eqb_f, !eqb_t, (below_max_bit ac W) by lia.
    destruct rs; cbn [hr_init hr_arvalid hr_rready hr_active]; (split; [|first [solve [unfold wide; cbn; lia]|repeat match goal with |- context[if ?b then _ else _] => destruct b end; first [exact W|apply wide_trunc; lia]]]).
    + reflexivity.
    + f_equal.
      * destruct rr, df, rl, (ac =? 0); reflexivity.
      * destruct av, arr, en, ae, (below_max ac); reflexivity.
Qed.
Lemma axihp_reader_R0 : axihp_reader_R vhr_init hr_init. Proof. repeat split; cbn; lia. Qed.

(* ---------------------------------------------------------------- axi_lite *)
Definition axi_lite_R (s : val_st) (m : zb_st) : Prop := s = {| val_s_axi_wo__bid := zb_bid m; val_s_axi_ro__rid := zb_rid m; val_rwid := zb_rwid m |}.
Lemma axi_lite_sim : sim axi_lite_R (fun _ => True) val_step zb_clock val_pins zb_pins.
Proof. unfold sim, axi_lite_R. intros s m i _ ->. split; [reflexivity|]. unfold zb_clock, clocked, val_step, val_n_s_axi_wo__bid, val_n_s_axi_ro__rid, val_n_rwid. destruct (val_i_rst i); reflexivity. Qed.
Lemma axi_lite_R0 : axi_lite_R val_init zb_init. Proof. reflexivity. Qed.
