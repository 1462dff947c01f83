(* The beta core in time: how the cycles of one frame add up. *)
From Verif Require Import Bits Spec Spec_Core Spec_Rate Spec_Beta Spec_Time M_Config M_Signals M_Predictor M_Difference M_Encode M_Merge M_I1 M_Fifo M_Converter M_VBits M_I3 M_Fix M_Markers M_Beta
  P_Fifo P_Encode P_Merge P_Signals P_Predictor P_I1 P_Tokens P_Converter P_VBits P_I3 P_Decode P_Run P_Live P_Live2 P_Rate P_Rate2 P_Rate3 P_Rate4 P_Rate5 P_Delay P_Drain
  P_Fix P_Markers Props_Arith Props_Core Props_Live Props_Frame P_Pack P_Beta Props_Beta P_BetaLive Props_BetaLive P_Stall P_Budget P_Deadline.
Ltac Zify.zify_post_hook ::= idtac.

(* bytes 0xFF among the words *)
Definition ffw (ws : list Z) : Z := len (filter (fun b => b =? 255) (flat_map bytes_of ws)).
Lemma ffw_app a b : ffw (a ++ b) = ffw a + ffw b.
Proof. unfold ffw. rewrite flat_map_app, filter_app, len_app. reflexivity. Qed.
Lemma ffw_nonneg a : 0 <= ffw a.
Proof. apply len_nonneg. Qed.
Definition iff (l : list (Z * Z * bool)) : Z := fold_right (fun x a => snd (fst x) - 2 + a) 0 l.
Lemma iff_app a b : iff (a ++ b) = iff a + iff b.
Proof. induction a as [|x a IH]; cbn [app iff fold_right]; [reflexivity|]. fold (iff (a ++ b)). rewrite IH. fold (iff a). lia. Qed.
Lemma f1_ctr_ff d : 0 <= d < 2 ^ 16 -> snd (f1_logic d) - 2 = ffw [d].
Proof.
  intros Hd. unfold ffw. cbn [flat_map bytes_of app]. destruct (byte_div d Hd) as (Ha & Hb & E). unfold f1_logic. rewrite slice_byte0, slice_byte1 by assumption.
  assert (E16 : slice 0 16 d = d) by (unfold slice; change (2 ^ 0) with 1; rewrite Z.div_1_r; apply Z.mod_small; assumption). rewrite E16.
  change 0xFFFF with 65535. change 0xFF with 255. cbn [filter]. destruct (d / 256 =? 255) eqn:E1, (d mod 256 =? 255) eqn:E2, (d =? 65535) eqn:E3; cbn [snd len length]; try reflexivity; unfold len; cbn [length]; lia.
Qed.
Lemma iff_items l : Forall (fun x => word_ok (fst x)) l -> iff (map f1_item l) = ffw (map fst l).
Proof.
  induction l as [|x l IH]; intros HF; [reflexivity|]. apply Forall_cons_iff in HF. destruct HF as [H1 H2]. cbn [map iff fold_right]. fold (iff (map f1_item l)). rewrite (IH H2).
  change (fst x :: map fst l) with ([fst x] ++ map fst l). rewrite ffw_app, <- f1_ctr_ff by exact H1. reflexivity.
Qed.

(* ------------------------------------------------------------------ the stuffing stages *)

Lemma f1_busy_next s i : f1_inv s -> f1_obusy (f1_step s i) = true -> f1i_busy i = true.
Proof. intros _. unfold f1_step. destruct (f1_logic (f1i_data i)). destruct (f1i_busy i); [reflexivity|]. cbn [negb]. destruct (f1_dval s); cbn [negb f1_obusy]; discriminate. Qed.
Lemma f1_ff s i : f1_inv s -> iff (f1_held s) + iff (if f1i_valid i && negb (f1_obusy s) then [f1_item (f1i_data i, f1i_end i)] else []) =
  (if f1_vout s && negb (f1i_busy i) then f1_ctr s - 2 else 0) + iff (f1_held (f1_step s i)).
Proof. intros I. destruct (f1_step_ok s i I) as [_ E]. rewrite <- iff_app, E, iff_app. f_equal. destruct (f1_vout s && negb (f1i_busy i)); cbn [iff fold_right fst snd]; lia. Qed.

(* not at the end of the frame *)
Definition f2_open (s : f2_st) : Prop := f2_fsm_st s = F2_NORMAL \/ f2_fsm_st s = F2_CLEAN /\ f2_endr s = false.
Definition f2_p (s : f2_st) : Z := match f2_fsm_st s with F2_CLEAN => b2z (f2_dval s) | _ => 0 end.
Definition f2_r (s : f2_st) : Z := match f2_fsm_st s with F2_CLEAN => f2_cnt s - 2 | _ => f2_cnt s end.
Lemma f2_account s i done B : f2_inv s done B false -> f2_ok i -> (f2_took s i = true -> f2i_end i = false) -> let s' := f2_step s i in
  2 * b2z (f2_obusy s') + 2 * f2_p s' + f2_r s' <= 2 * b2z (f2i_busy i && f2_vout s) + 2 * f2_p s + f2_r s + (if f2_took s i then f2i_ctr i - 2 else 0).
Proof.
  intros I Hok He. unfold f2_inv in I. unfold f2_took in *. unfold f2_ok in Hok. cbv zeta. unfold f2_p, f2_r, f2_step. destruct (f2_fsm_st s) eqn:Es.
  - destruct I as (I1 & I2 & I3 & I4 & I5 & I6 & _). unfold f2_normal. rewrite I1 in *.
    destruct (f2_dval s) eqn:Ed.
    + specialize (I2 eq_refl). rewrite I2. cbn [negb andb orb]. rewrite !andb_false_r, !orb_false_r. cbn [negb andb orb].
      destruct (f2i_busy i) eqn:Eb; cbn [negb andb orb f2_obusy f2_fsm_st f2_cnt f2_dval b2z]; rewrite ?I1; cbn [b2z]; lia.
    + cbn [negb] in *. rewrite !andb_true_r in *. destruct (f2i_valid i) eqn:Ev.
      * specialize (Hok eq_refl). specialize (He eq_refl). unfold normal_logic. rewrite Ev, He.
        assert (Q : nl_switch (f2_cnt s) (f2_buf s) (f2i_data i) (f2i_ctr i) = nl_switch (f2_cnt s) (f2_buf s) (f2i_data i) (f2i_ctr i)) by reflexivity.
        unfold nl_switch.
        assert (C : f2i_ctr i = 2 \/ f2i_ctr i = 3 \/ f2i_ctr i = 4) by lia.
        destruct I3 as [I3|I3]; destruct C as [C|[C|C]]; rewrite I3, C; cbn [Z.eqb Pos.eqb nl_data nl_buf nl_cnt nl_end nl_busy nl_endr nl_next oget];
          destruct (f2i_busy i), (f2_vout s) eqn:Evo; cbn [negb andb orb f2_obusy f2_fsm_st f2_cnt f2_dval b2z oget]; rewrite ?I3; lia.
      * unfold normal_logic. rewrite Ev. cbn [nl_none nl_data nl_buf nl_cnt nl_end nl_busy nl_endr nl_next oget andb].
        destruct (f2i_busy i), (f2_vout s) eqn:Evo; cbn [negb andb orb f2_obusy f2_fsm_st f2_cnt f2_dval b2z oget]; rewrite ?I1; cbn [b2z]; lia.
  - destruct I as (I1 & I2 & I3 & I4 & I5 & I6 & I7 & _). symmetry in I5. rewrite I1, I2. cbn [negb]. rewrite andb_false_r, andb_true_r. specialize (I7 I5).
    destruct (f2i_busy i); cbn [negb].
    + rewrite I1, Es. cbn [b2z]. lia.
    + destruct (f2_dval s) eqn:Ed; cbn [negb].
      * unfold f2_drain. cbn [f2_obusy f2_fsm_st f2_cnt f2_dval b2z]. rewrite I1. cbn [b2z]. lia.
      * unfold f2_clean. rewrite I5. cbn [f2_obusy f2_fsm_st f2_cnt f2_dval b2z]. assert (C : f2_cnt s = 2 \/ f2_cnt s = 3) by lia. destruct C as [C|C]; rewrite C; cbn [Z.eqb Pos.eqb]; lia.
  - destruct I as (I & _). discriminate.
  - destruct I as (I & _). discriminate.
Qed.

(* ------------------------------------------------------------------ the markers *)

Definition mk_open (s : mk_st) : Prop := match mk_fsm_st s with MK_IDLE => True | MK_START => 0 <= mk_ctr s <= 8 | MK_FRAME => mk_end_cond s = false | _ => False end.
Definition mkpot (s : mk_st) : Z := match mk_fsm_st s with MK_IDLE => 10 | MK_START => mk_ctr s + 1 | _ => 0 end.
Lemma mk_account s i : mk_open s -> mki_force i = false -> let s' := mk_step s i in
  b2z (mko_busy (mk_comb s i) && mki_valid i) + mkpot s' <= mkpot s + b2z (mki_busy i) /\ 0 <= mkpot s'.
Proof.
  intros Ho Hf. unfold mk_open in Ho. cbv zeta. unfold mk_comb, mk_step, mkpot. rewrite Hf. destruct (mk_fsm_st s) eqn:Es; try contradiction.
  - cbn [mko_busy andb]. destruct (mki_valid i), (mki_busy i); cbn [mk_fsm_st mk_ctr b2z]; lia.
  - destruct (mki_busy i); cbn [negb andb].
    + cbn [mko_busy mk_fsm_st mk_ctr andb b2z]. destruct (mki_valid i); cbn [b2z]; lia.
    + destruct (mk_ctr s =? 0) eqn:E0; cbn [mko_busy mk_fsm_st mk_ctr andb b2z]; [destruct (mki_valid i); cbn [b2z]; lia|].
      rewrite trunc_id by (change (2 ^ 4) with 16; lia). destruct (mki_valid i); cbn [b2z]; lia.
  - rewrite Ho. cbn [mko_busy mk_fsm_st]. destruct (mki_busy i), (mki_valid i); cbn [andb b2z]; lia.
Qed.

(* ------------------------------------------------------------------ the state of a frame *)

Definition bx (c : config) (t : table) (W H : Z) (A : list (list Z)) (O : list (Z * bool)) (s : bt_st) (P : list tok) (hist : hist_t) (d1 d2 : list (Z * bool)) : Prop :=
  i3_inv c t W H (W / ps c) A P d1 hist (b_i3 s) /\ fx_inv (b_f1 s, b_f2 s) d1 d2 /\ mk_inv (b_mk s) d2 O (fe_fend (b_fe s)) /\ b_rst s = existsb snd O.
Lemma bx_next c t W H A O s i P hist d1 d2 : bt_hyp c t W H -> bt_ok c W H s i -> bx c t W H A O s P hist d1 d2 ->
  bx c t W H (A ++ bt_took s i) (O ++ bt_gave s i) (bt_next c (mem_of (bd c) t) s i)
    (P ++ vb_emit c (s_vb (b_i3 s)) (f1_obusy (b_f1 s))) (i3_new c (W / ps c) A (b_i3 s) (bt_i3_in s i) :: hist)
    (d1 ++ transferred (s_vb (b_i3 s)) (f1_obusy (b_f1 s))) (d2 ++ mk_took (b_mk s) (bt_mk_in s i)).
Proof.
  intros HY Hok (I1 & I2 & I3 & I4). destruct HY as (Hc & Ho & Ht & [Hf Hb]) eqn:EHY. clear EHY.
  destruct (frame_geom c W H Hc Hf) as [Hg HG4].
  pose proof (i3_inv_step c t W H (W / ps c) A P d1 hist (b_i3 s) (bt_i3_in s i) Hc Ht Hg HG4 Hok I1) as J1.
  assert (J2 : fx_inv (fx_step (b_f1 s, b_f2 s) (bt_fx_in s i)) (d1 ++ fx_took (b_f1 s, b_f2 s) (bt_fx_in s i)) (d2 ++ fx_gave (b_f1 s, b_f2 s) (bt_fx_in s i))).
  { apply fx_step_ok; [exact I2|]. intros Hv _. pose proof (offered_range _ _ _ _ _ _ _ _ _ _ I1 Hv) as R. rewrite Ho in R. exact R. }
  assert (J3 : mk_inv (mk_step (b_mk s) (bt_mk_in s i)) (d2 ++ mk_took (b_mk s) (bt_mk_in s i)) (O ++ mk_gave (b_mk s) (bt_mk_in s i)) (fe_fend (b_fe s) || fe_fend (b_fe s))).
  { apply mk_step_ok; [exact I3|]. intros -> Hv He. exfalso. unfold bt_mk_in in Hv, He. cbn [mki_valid mki_end] in Hv, He.
    destruct (fx_first_end (b_f1 s, b_f2 s) d1 I2 Hv He) as (x & Hx).
    assert (Hd : existsb snd d1 = true) by (rewrite <- existsb_cut, Hx; reflexivity).
    destruct (full_bits c t W H A P d1 hist (b_i3 s) HY I1 Hd) as (pw & w & Hcut & Hne & _). rewrite Hcut in Hx. destruct pw as [|a [|b pw]]; [contradiction|discriminate|discriminate]. }
  split; [exact J1|]. split; [|split].
  - unfold bt_next. cbn [b_f1 b_f2]. rewrite <- surjective_pairing. exact J2.
  - unfold bt_next. cbn [b_mk b_fe]. eapply mk_inv_mono; [exact J3|]. rewrite orb_diag. apply fe_fend_mono.
  - unfold bt_next. cbn [b_rst]. unfold ar_step, bt_gave. rewrite I4, existsb_app. rewrite orb_comm. f_equal.
    destruct (mko_valid (bt_out s i)), (bi_busy i), (mko_end (bt_out s i)); reflexivity.
Qed.

Definition kap (s : bt_st) : Z :=
  2 * b2z (f1_obusy (b_f1 s)) + 2 * b2z (f2_obusy (b_f2 s)) + 2 * f2_p (b_f2 s) + f2_r (b_f2 s) + 2 * mkpot (b_mk s) + iff (f1_held (b_f1 s)).

Lemma mk_opened s acc O e : mk_inv s acc O false -> existsb snd acc = false -> e = existsb snd O -> e = false -> mk_open s.
Proof.
  intros I Ha -> He. unfold mk_inv in I. unfold mk_open. destruct (mk_fsm_st s); try exact Logic.I.
  - apply I.
  - destruct I as (_ & _ & ws & w & ->). rewrite existsb_app in Ha. cbn in Ha. rewrite orb_true_r in Ha. discriminate.
  - destruct I as (_ & _ & _ & X). discriminate.
  - destruct I as (_ & _ & ws & [(_ & X)|(w & -> & _)]); [exact X|]. rewrite existsb_app in Ha. cbn in Ha. rewrite orb_true_r in Ha. discriminate.
  - destruct I as (_ & ws & w & ->). rewrite existsb_app in Ha. cbn in Ha. rewrite orb_true_r in Ha. discriminate.
  - destruct I as (_ & _ & X). discriminate.
Qed.

Lemma kap_step c t W H A O s i P hist d1 d2 : bt_hyp c t W H -> bx c t W H A O s P hist d1 d2 -> existsb snd d1 = false -> fe_fend (b_fe s) = false -> b_rst s = false ->
  2 * b2z (f1_obusy (b_f1 s)) + kap (bt_next c (mem_of (bd c) t) s i) <= kap s + 2 * b2z (bi_busy i) + ffw (map fst (transferred (s_vb (b_i3 s)) (f1_obusy (b_f1 s)))).
Proof.
  intros HY (I1 & I2 & I3 & I4) Hd Hf Hr. destruct HY as (Hc & Ho & Ht & [Hfr Hb]).
  assert (Hd2 : existsb snd d2 = false) by (destruct (existsb snd d2) eqn:X; [destruct (fx_obs _ _ _ I2) as [Q _]; destruct (Q X); congruence|reflexivity]).
  rewrite Hf in I3. pose proof (mk_opened _ _ _ _ I3 Hd2 I4 Hr) as Hmo.
  pose proof I2 as [F1 (mid & Hmid & F2) Fw]. cbn [fst snd] in *.
  assert (Hit : existsb snd (mid ++ f1_held (b_f1 s)) = false) by (rewrite <- Hmid, existsb_items; exact Hd). rewrite existsb_app in Hit. apply orb_false_elim in Hit. destruct Hit as [Hm1 Hm2]. rewrite Hm1 in F2.
  set (fi := bt_fx_in s i). set (i1 := fx_in1 (b_f1 s, b_f2 s) fi). set (i2 := fx_in2 (b_f1 s, b_f2 s) fi).
  assert (Hn1 : b_f1 (bt_next c (mem_of (bd c) t) s i) = f1_step (b_f1 s) i1) by reflexivity. assert (Hn2 : b_f2 (bt_next c (mem_of (bd c) t) s i) = f2_step (b_f2 s) i2) by reflexivity.
  assert (Hn3 : b_mk (bt_next c (mem_of (bd c) t) s i) = mk_step (b_mk s) (bt_mk_in s i)) by reflexivity.
  (* f1 *)
  pose proof (f1_ff (b_f1 s) i1 F1) as E1. pose proof (f1_busy_next (b_f1 s) i1 F1) as E2. change (f1i_busy i1) with (f2_obusy (b_f2 s)) in E1, E2. change (f1i_valid i1) with (i3_valid_out (b_i3 s)) in E1.
  assert (E3 : b2z (f1_obusy (f1_step (b_f1 s) i1)) <= b2z (f2_obusy (b_f2 s))) by (destruct (f1_obusy (f1_step (b_f1 s) i1)); [rewrite (E2 eq_refl); lia|cbn [b2z]; pose proof (b2z_01 (f2_obusy (b_f2 s))); lia]).
  assert (E4 : iff (if i3_valid_out (b_i3 s) && negb (f1_obusy (b_f1 s)) then [f1_item (f1i_data i1, f1i_end i1)] else []) = ffw (map fst (transferred (s_vb (b_i3 s)) (f1_obusy (b_f1 s))))).
  { unfold transferred, i3_valid_out. destruct (vo_valid (vb_out (s_vb (b_i3 s))) && negb (f1_obusy (b_f1 s))) eqn:X; [|reflexivity].
    apply andb_prop in X. destruct X as [X _]. pose proof (offered_range _ _ _ _ _ _ _ _ _ _ I1 X) as R. rewrite Ho in R.
    cbn [map fst]. change [i3_data_out (b_i3 s)] with [vo_data (vb_out (s_vb (b_i3 s)))] in *. rewrite <- f1_ctr_ff by exact R. unfold f1_item. cbn [iff fold_right fst snd]. change (f1i_data i1) with (vo_data (vb_out (s_vb (b_i3 s)))). lia. }
  (* f2 *)
  assert (Hok2 : f2_ok i2).
  { unfold f2_ok. change (f2i_valid i2) with (f1_vout (b_f1 s)). change (f2i_ctr i2) with (f1_ctr (b_f1 s)). intros X.
    assert (Y : In (f1_dout (b_f1 s), f1_ctr (b_f1 s), f1_eout (b_f1 s)) (map f1_item d1)) by (rewrite Hmid; apply in_or_app; right; unfold f1_held; rewrite X; left; reflexivity).
    apply in_map_iff in Y. destruct Y as (y & Y1 & Y2). rewrite Forall_forall in Fw. specialize (Fw _ Y2). pose proof (f1_item_ctr y Fw) as Z. rewrite Y1 in Z. exact Z. }
  assert (He2 : f2_took (b_f2 s) i2 = true -> f2i_end i2 = false).
  { unfold f2_took. change (f2i_valid i2) with (f1_vout (b_f1 s)). change (f2i_end i2) with (f1_eout (b_f1 s)). intros X. apply andb_prop in X. destruct X as [X _]. unfold f1_held in Hm2. rewrite X in Hm2. cbn [app existsb snd] in Hm2. apply orb_false_elim in Hm2. apply Hm2. }
  pose proof (f2_account (b_f2 s) i2 d2 _ F2 Hok2 He2) as E5. cbv zeta in E5. unfold f2_took in E5. change (f2i_valid i2) with (f1_vout (b_f1 s)) in E5. change (f2i_ctr i2) with (f1_ctr (b_f1 s)) in E5. change (f2i_busy i2) with (mko_busy (mk_comb (b_mk s) (bt_mk_in s i))) in E5.
  (* markers *)
  destruct (mk_account (b_mk s) (bt_mk_in s i) Hmo Hf) as [E6 E7]. change (mki_valid (bt_mk_in s i)) with (f2_vout (b_f2 s)) in E6. change (mki_busy (bt_mk_in s i)) with (bi_busy i) in E6.
  unfold kap. rewrite Hn1, Hn2, Hn3. rewrite E4 in E1. lia.
Qed.

Lemma held_ff s d1 mid : Forall (fun x => word_ok (fst x)) d1 -> map f1_item d1 = mid ++ f1_held s -> 0 <= iff (f1_held s) <= 4.
Proof.
  intros Fw Hmid. assert (Y : forall x, In x (f1_held s) -> 2 <= snd (fst x) <= 4).
  { intros x Hx. assert (Z : In x (map f1_item d1)) by (rewrite Hmid; apply in_or_app; right; exact Hx). apply in_map_iff in Z. destruct Z as (y & <- & Z2). rewrite Forall_forall in Fw. apply f1_item_ctr. apply Fw. exact Z2. }
  unfold f1_held in *. destruct (f1_vout s), (f1_dval s); cbn [app] in *; cbn [iff fold_right fst snd].
  - pose proof (Y _ (or_introl eq_refl)) as Y1. pose proof (Y _ (or_intror (or_introl eq_refl))) as Y2. cbn [fst snd] in Y1, Y2. lia.
  - pose proof (Y _ (or_introl eq_refl)) as Y1. cbn [fst snd] in Y1. lia.
  - pose proof (Y _ (or_introl eq_refl)) as Y1. cbn [fst snd] in Y1. lia.
  - lia.
Qed.
Lemma kap_range c t W H A O s P hist d1 d2 : bx c t W H A O s P hist d1 d2 -> existsb snd d1 = false -> fe_fend (b_fe s) = false -> b_rst s = false -> 0 <= kap s <= 32.
Proof.
  intros (I1 & I2 & I3 & I4) Hd Hf Hr.
  assert (Hd2 : existsb snd d2 = false) by (destruct (existsb snd d2) eqn:X; [destruct (fx_obs _ _ _ I2) as [Q _]; destruct (Q X); congruence|reflexivity]).
  rewrite Hf in I3. pose proof (mk_opened _ _ _ _ I3 Hd2 I4 Hr) as Hmo. pose proof I2 as [F1 (mid & Hmid & F2) Fw]. cbn [fst snd] in *.
  assert (Hit : existsb snd (mid ++ f1_held (b_f1 s)) = false) by (rewrite <- Hmid, existsb_items; exact Hd). rewrite existsb_app in Hit. apply orb_false_elim in Hit. destruct Hit as [Hm1 Hm2]. rewrite Hm1 in F2.
  pose proof (held_ff _ _ _ Fw Hmid) as K. unfold kap. pose proof (b2z_01 (f1_obusy (b_f1 s))). pose proof (b2z_01 (f2_obusy (b_f2 s))).
  assert (0 <= mkpot (b_mk s) <= 10) by (unfold mk_open in Hmo; unfold mkpot; destruct (mk_fsm_st (b_mk s)); try contradiction; lia).
  unfold f2_inv in F2. unfold f2_p, f2_r. destruct (f2_fsm_st (b_f2 s)).
  - destruct F2 as (_ & _ & X & _). lia.
  - destruct F2 as (_ & _ & _ & _ & X & Y & Z & _). specialize (Z (eq_sym X)). pose proof (b2z_01 (f2_dval (b_f2 s))). lia.
  - destruct F2 as (X & _). discriminate.
  - destruct F2 as (X & _). discriminate.
Qed.

(* ------------------------------------------------------------------ after the end word has left the core *)

Definition f2_endb (s : f2_st) : bool := match f2_fsm_st s with F2_NORMAL => false | F2_CLEAN => f2_endr s | _ => true end.
Definition nu (s : f2_st) : Z := match f2_fsm_st s with F2_NORMAL => b2z (f2_dval s) | F2_CLEAN => 2 + f2_cnt s + b2z (f2_dval s) | F2_PRE_END => 2 | F2_END => 1 end.
Definition hwz (s1 : f1_st) (s2 : f2_st) : Z := if f2_endb s2 then 0 else len (cut (f1_held s1)).
Definition mw (s : bt_st) : Z := 8 * hwz (b_f1 s) (b_f2 s) + nu (b_f2 s).
Definition rho (s : bt_st) : Z :=
  match mk_fsm_st (b_mk s) with
  | MK_IDLE | MK_START => 10 + mkpot (b_mk s) + mw s
  | MK_FRAME => if mk_end_cond (b_mk s) then 9 else 10 + mw s
  | MK_ENDM => mk_ctr (b_mk s) | _ => 0 end.

Lemma f2_endb_inv s done B e : f2_inv s done B e -> f2_endb s = e.
Proof. unfold f2_inv, f2_endb. destruct (f2_fsm_st s); intros I; symmetry; apply I. Qed.
Lemma nu_range s done B e : f2_inv s done B e -> 0 <= nu s <= 6.
Proof. unfold f2_inv, nu. pose proof (b2z_01 (f2_dval s)). destruct (f2_fsm_st s); intros I; lia. Qed.
Lemma nu_step s i done B e : f2_inv s done B e -> f2_ok i -> (e = false -> f2i_valid i = true) ->
  if negb e && f2_took s i then True else
  nu (f2_step s i) <= nu s /\ (f2i_busy i = false -> nu (f2_step s i) < nu s \/ f2_vout s = true /\ f2_eout s = true) /\ f2_vout s = true.
Proof.
  intros I Hok Hv. unfold f2_inv in I. unfold f2_took. destruct (f2_fsm_st s) eqn:Es.
  - destruct I as (I1 & I2 & I3 & I4 & I5 & I6 & -> & _). rewrite (Hv eq_refl). cbn [negb andb]. rewrite I1. destruct (f2_dval s) eqn:Ed; [|exact Logic.I]. cbn [negb].
    specialize (I2 eq_refl). unfold nu, f2_step. rewrite Es. unfold f2_normal. rewrite I1, I2, Ed. cbn [negb andb orb]. rewrite !andb_false_r. cbn [orb].
    destruct (f2i_busy i); cbn [negb andb orb f2_fsm_st f2_dval f2_cnt]; rewrite ?andb_false_r; cbn [b2z]; (split; [lia|]); (split; [intros; try discriminate; left; lia|reflexivity]).
  - destruct I as (I1 & I2 & I3 & I4 & I5 & I6 & I7 & _). rewrite I1. cbn [negb]. rewrite !andb_false_r. split; [|split; [|exact I2]].
    + unfold nu, f2_step. rewrite Es. destruct (f2i_busy i); cbn [negb]; [rewrite Es; lia|]. destruct (f2_dval s) eqn:Ed; cbn [negb]; [unfold f2_drain; cbn [f2_fsm_st f2_cnt f2_dval b2z]; lia|].
      unfold f2_clean. cbn [f2_fsm_st f2_cnt f2_dval]. rewrite Ed. assert (C : f2_cnt s = 1 \/ f2_cnt s = 2 \/ f2_cnt s = 3) by lia.
      destruct (f2_endr s); destruct C as [C|[C|C]]; rewrite C; cbn [Z.eqb Z.leb Z.compare Pos.compare Pos.compare_cont Pos.eqb b2z]; lia.
    + intros Eb. left. unfold nu, f2_step. rewrite Es, Eb. cbn [negb]. destruct (f2_dval s) eqn:Ed; cbn [negb]; [unfold f2_drain; cbn [f2_fsm_st f2_cnt f2_dval b2z]; lia|].
      unfold f2_clean. cbn [f2_fsm_st f2_cnt f2_dval]. rewrite Ed. assert (C : f2_cnt s = 1 \/ f2_cnt s = 2 \/ f2_cnt s = 3) by lia.
      destruct (f2_endr s); destruct C as [C|[C|C]]; rewrite C; cbn [Z.eqb Z.leb Z.compare Pos.compare Pos.compare_cont Pos.eqb b2z]; lia.
  - destruct I as (-> & I2 & I3 & _). cbn [negb andb]. unfold nu, f2_step. rewrite Es. destruct (f2i_busy i); cbn [negb]; [rewrite Es; split; [lia|]; split; [discriminate|exact I2]|].
    destruct (f2_dval s); cbn [f2_drain f2_goto f2_fsm_st]; (split; [lia|]); (split; [left; lia|exact I2]).
  - destruct I as (-> & I2 & I3 & _). cbn [negb andb]. unfold nu, f2_step. rewrite Es, Es. split; [lia|]. auto.
Qed.

Lemma mw_step c t W H A O s i P hist d1 d2 : bt_hyp c t W H -> bx c t W H A O s P hist d1 d2 -> existsb snd d1 = true ->
  let s' := bt_next c (mem_of (bd c) t) s i in let bz := mko_busy (mk_comb (b_mk s) (bt_mk_in s i)) in
  0 <= mw s <= 22 /\ 0 <= mw s' /\ mw s' <= mw s /\ (bz = false -> mw s' < mw s \/ f2_vout (b_f2 s) = true /\ f2_eout (b_f2 s) = true) /\ (f2_vout (b_f2 s) = false -> mw s' < mw s).
Proof.
  intros HY (I1 & I2 & I3 & I4) Hd s' bz. pose proof I2 as [F1 (mid & Hmid & F2) Fw]. cbn [fst snd] in *.
  set (fi := bt_fx_in s i). set (i1 := fx_in1 (b_f1 s, b_f2 s) fi). set (i2 := fx_in2 (b_f1 s, b_f2 s) fi).
  assert (Hn1 : b_f1 s' = f1_step (b_f1 s) i1) by reflexivity. assert (Hn2 : b_f2 s' = f2_step (b_f2 s) i2) by reflexivity.
  set (e := existsb snd mid) in *.
  assert (Hheld : e = false -> existsb snd (f1_held (b_f1 s)) = true).
  { intros X. rewrite <- existsb_items, Hmid, existsb_app in Hd. fold e in Hd. rewrite X in Hd. exact Hd. }
  assert (Hv : e = false -> f2i_valid i2 = true).
  { intros X. specialize (Hheld X). change (f2i_valid i2) with (f1_vout (b_f1 s)). destruct (f1_vout (b_f1 s)) eqn:Ev; [reflexivity|]. unfold f1_held in Hheld. rewrite Ev in Hheld. destruct F1 as [_ F1]. destruct (f1_dval (b_f1 s)); [specialize (F1 eq_refl); congruence|]. cbn in Hheld. discriminate. }
  assert (Hok2 : f2_ok i2).
  { unfold f2_ok. change (f2i_valid i2) with (f1_vout (b_f1 s)). change (f2i_ctr i2) with (f1_ctr (b_f1 s)). intros X.
    assert (Y : In (f1_dout (b_f1 s), f1_ctr (b_f1 s), f1_eout (b_f1 s)) (map f1_item d1)) by (rewrite Hmid; apply in_or_app; right; unfold f1_held; rewrite X; left; reflexivity).
    apply in_map_iff in Y. destruct Y as (y & Y1 & Y2). rewrite Forall_forall in Fw. specialize (Fw _ Y2). pose proof (f1_item_ctr y Fw) as Z. rewrite Y1 in Z. exact Z. }
  pose proof (f2_step_ok (b_f2 s) i2 _ _ _ F2 Hok2) as F3. rewrite <- Hn2 in F3.
  pose proof (f2_endb_inv _ _ _ _ F2) as E1. pose proof (f2_endb_inv _ _ _ _ F3) as E2. pose proof (nu_range _ _ _ _ F2) as N1. pose proof (nu_range _ _ _ _ F3) as N2.
  pose proof (nu_step _ i2 _ _ _ F2 Hok2 Hv) as N3. rewrite <- Hn2 in N3. change (f2i_busy i2) with bz in N3.
  destruct (f1_step_ok (b_f1 s) i1 F1) as [_ Hs]. rewrite <- Hn1 in Hs. change (f1i_busy i1) with (f2_obusy (b_f2 s)) in Hs.
  assert (Hlen : 0 <= len (cut (f1_held (b_f1 s))) <= 2).
  { split; [apply len_nonneg|]. pose proof (f1_held_len (b_f1 s)). assert (X : forall (l : list (Z * Z * bool)), len (cut l) <= len l). { induction l as [|[x y] l IH]; [cbn; lia|]. cbn [cut]. unfold len in *. cbn [length]. destruct y; cbn [length]; lia. } specialize (X (f1_held (b_f1 s))). lia. }
  unfold mw, hwz. rewrite E1, E2. pose proof (len_nonneg (cut (f1_held (b_f1 s')))) as Hl'.
  destruct e eqn:Ee; cbn [orb negb andb] in *.
  { destruct N3 as (N3 & N4 & N5). split; [lia|]. split; [lia|]. split; [lia|]. split; [intros X; destruct (N4 X); [left; lia|auto]|congruence]. }
  specialize (Hheld eq_refl). specialize (Hv eq_refl). change (f2i_valid i2) with (f1_vout (b_f1 s)) in Hv. rewrite Hv in Hs. cbn [andb] in Hs.
  assert (Ht : f2_took (b_f2 s) i2 = negb (f2_obusy (b_f2 s))) by (unfold f2_took; change (f2i_valid i2) with (f1_vout (b_f1 s)); rewrite Hv; reflexivity). rewrite Ht in *.
  apply (f_equal cut) in Hs. rewrite cut_hasend in Hs by exact Hheld. rewrite Hs in *.
  destruct (f2_obusy (b_f2 s)); cbn [negb andb app] in *.
  - destruct N3 as (N3 & N4 & N5). split; [lia|]. split; [lia|]. split; [lia|]. split; [intros X; destruct (N4 X); [left; lia|auto]|congruence].
  - change (f2i_end i2) with (f1_eout (b_f1 s)) in *. cbn [cut] in *. destruct (f1_eout (b_f1 s)).
    + unfold len in *. cbn [length] in *. lia.
    + assert (Z : len ((f1_dout (b_f1 s), f1_ctr (b_f1 s), false) :: cut (f1_held (b_f1 s'))) = 1 + len (cut (f1_held (b_f1 s')))) by (unfold len; cbn [length]; lia). rewrite Z in *. lia.
Qed.

Lemma rho_step c t W H A O s i P hist d1 d2 : bt_hyp c t W H -> bx c t W H A O s P hist d1 d2 -> existsb snd d1 = true -> fe_fend (b_fe s) = false -> b_rst s = false ->
  let s' := bt_next c (mem_of (bd c) t) s i in 1 <= rho s <= 42 /\ (b_rst s' = false -> rho s' + (if bi_busy i then 0 else 1) <= rho s).
Proof.
  intros HY B Hd Hf Hr s'. destruct (mw_step c t W H A O s i P hist d1 d2 HY B Hd) as (M0 & M0' & M1 & M2 & M3). fold s' in M0', M1, M2, M3. destruct B as (I1 & I2 & I3 & I4). rewrite Hr in I4. rewrite Hf in I3.
  unfold s'. rewrite rst_next by exact Hr. fold s'. assert (Hm : b_mk s' = mk_step (b_mk s) (bt_mk_in s i)) by reflexivity.
  unfold rho, mkpot. rewrite Hm. unfold bt_gave, bt_out. unfold mk_comb, mk_step, mk_inv in *. cbn [bt_mk_in mki_busy mki_valid mki_force mki_data mki_end] in *. rewrite Hf in *.
  destruct (mk_fsm_st (b_mk s)) eqn:Es.
  - split; [lia|]. intros _. specialize (M3). destruct (f2_vout (b_f2 s)) eqn:Ev; cbn [mk_fsm_st mk_ctr]; [destruct (bi_busy i); lia|]. specialize (M3 eq_refl). destruct (bi_busy i); lia.
  - destruct I3 as (_ & I3 & _). split; [lia|]. intros _. destruct (bi_busy i); cbn [negb andb mk_fsm_st mk_ctr]; [lia|].
    destruct (mk_ctr (b_mk s) =? 0) eqn:E0; cbn [mk_fsm_st mk_ctr mk_end_cond].
    + destruct (f2_vout (b_f2 s) && f2_eout (b_f2 s)); lia.
    + rewrite trunc_id by (change (2 ^ 4) with 16; lia). lia.
  - destruct I3 as (I3 & _). split; [lia|]. destruct (bi_busy i); cbn [negb andb mk_fsm_st mk_ctr]; [lia|]. cbn [mko_valid mko_data mko_end existsb snd].
    destruct (mk_ctr (b_mk s) =? 1) eqn:E0; cbn [mk_fsm_st mk_ctr orb]; [discriminate|]. intros _. rewrite trunc_id by (change (2 ^ 4) with 16; lia). lia.
  - destruct I3 as (_ & _ & _ & X). discriminate.
  - destruct I3 as (I3 & _). split; [destruct (mk_end_cond (b_mk s)); lia|]. intros _. cbn [mk_fsm_st mk_ctr mk_end_cond]. destruct (mk_end_cond (b_mk s)) eqn:Ec; cbn [mk_fsm_st mk_ctr mk_end_cond].
    + destruct (bi_busy i); lia.
    + cbn [mko_busy] in M2. destruct (bi_busy i); cbn [negb andb]; [lia|]. destruct (f2_vout (b_f2 s) && f2_eout (b_f2 s)) eqn:X; [lia|]. destruct (M2 eq_refl) as [Y|[Y1 Y2]]; [lia|]. rewrite Y1, Y2 in X. discriminate.
  - exfalso. destruct I3 as (X & _). apply (f_equal (existsb snd)) in X. rewrite existsb_cut, <- I4, existsb_app in X. cbn in X. rewrite orb_true_r in X. discriminate.
  - destruct I3 as (_ & _ & X). discriminate.
Qed.

(* ------------------------------------------------------------------ when all groups are in *)

(* bytes 0xFF of the code of the pixels *)
Definition ffc (c : config) (t : table) (W : Z) (A : list (list Z)) : Z := ffw (pack 16 (ref_encode t (bd c) W [] (concat A))).
Lemma ffw_le c t W H A O s P hist d1 d2 x : bt_hyp c t W H -> bx c t W H A O s P hist d1 d2 -> existsb snd d1 = false -> ffw (map fst d1) <= ffc c t W (A ++ x).
Proof.
  intros (Hc & Ho & _) (I1 & _) Hd. destruct (inv_running _ _ _ _ _ _ _ _ _ _ Hc I1 Hd) as (pw & rest & -> & Hw & E). rewrite Ho in *. unfold ffc.
  rewrite concat_app, ref_encode_app, E, <- app_assoc, pack_app, ffw_app by (assumption || lia). rewrite plain_fst. pose proof (ffw_nonneg (pack 16 (rest ++ ref_encode t (bd c) W ([] ++ concat A) (concat x)))). lia.
Qed.

Definition pot (c : config) (hist : hist_t) (s : bt_st) (d1 : list (Z * bool)) (F : Z) : Z :=
  if existsb snd d1 then 2 * rho s else 2 * om c hist (b_i3 s) + kap s + (F - ffw (map fst d1)) + 86.

Lemma om_nonneg c t W H G A P done hist s : cfg_ok c = true -> i3_inv c t W H G A P done hist s -> 0 <= om c hist s.
Proof.
  intros Hc I. destruct (finished_dec s) as [F|F]; [rewrite om_fin by exact F; lia|]. rewrite om_open by exact F. pose proof (psi_nonneg _ _ _ _ _ _ _ _ _ _ Hc I F).
  destruct (v_vb _ _ _ _ _ _ _ _ _ _ I) as [_ Vi]. specialize (Vi F). destruct Vi as (_ & _ & _ & _ & V5 & _). assert (0 <= bufs c) by (unfold cfg_ok in Hc; lia).
  destruct (vi_end (vb_in (s_vb s))); [unfold chi; destruct (vo_state (vb_out (s_vb s)))|]; lia.
Qed.

Lemma pot_step c t W H A O s i P hist d1 d2 : bt_hyp c t W H -> bt_ok c W H s i -> bx c t W H A O s P hist d1 d2 -> op_inv c (b_i3 s) -> len A = W / ps c * H -> fe_fend (b_fe s) = false -> b_rst s = false ->
  let s' := bt_next c (mem_of (bd c) t) s i in let d1' := d1 ++ transferred (s_vb (b_i3 s)) (f1_obusy (b_f1 s)) in let F := ffc c t W A in
  2 <= pot c hist s d1 F /\
  (fe_fend (b_fe s') = false -> b_rst s' = false -> bt_took s i = [] /\ i3_new c (W / ps c) A (b_i3 s) (bt_i3_in s i) = None /\ pot c (None :: hist) s' d1' F + (if bi_busy i then 0 else 2) <= pot c hist s d1 F).
Proof.
  intros HY Hok B Op HA Hf Hr s' d1' F. pose proof HY as (Hc & Ho & Ht & [Hfr Hb]). destruct (frame_geom c W H Hc Hfr) as [Hg HG4].
  pose proof B as (I1 & I2 & I3 & I4). pose proof (om_nonneg _ _ _ _ _ _ _ _ _ _ Hc I1) as Om.
  pose proof (full_noaccept _ _ _ _ _ _ _ _ _ _ (bt_i3_in s i) I1 HA) as Ea.
  assert (Et : bt_took s i = []) by (unfold bt_took; change (bt_accept s i) with (i3_accept (b_i3 s) (bt_i3_in s i)); rewrite Ea; reflexivity).
  assert (En : i3_new c (W / ps c) A (b_i3 s) (bt_i3_in s i) = None) by (unfold i3_new; rewrite Ea; reflexivity).
  pose proof (bx_next c t W H A O s i P hist d1 d2 HY Hok B) as B'. rewrite Et, app_nil_r, En in B'. fold s' d1' in B'.
  assert (Hp : 2 <= pot c hist s d1 F).
  { unfold pot. destruct (existsb snd d1) eqn:Ed; [destruct (rho_step c t W H A O s i P hist d1 d2 HY B Ed Hf Hr); lia|].
    pose proof (kap_range _ _ _ _ _ _ _ _ _ _ _ B Ed Hf Hr). pose proof (ffw_le c t W H A O s P hist d1 d2 [] HY B Ed) as X. rewrite app_nil_r in X. fold F in X. lia. }
  split; [exact Hp|]. intros Hf' Hr'. split; [exact Et|]. split; [exact En|].
  unfold pot in *. destruct (existsb snd d1) eqn:Ed.
  { assert (Ed' : existsb snd d1' = true) by (unfold d1'; rewrite existsb_app, Ed; reflexivity). rewrite Ed'. destruct (rho_step c t W H A O s i P hist d1 d2 HY B Ed Hf Hr) as [_ R]. specialize (R Hr'). fold s' in R. destruct (bi_busy i); lia. }
  pose proof (kap_range _ _ _ _ _ _ _ _ _ _ _ B Ed Hf Hr) as K1. pose proof (ffw_le c t W H A O s P hist d1 d2 [] HY B Ed) as X. rewrite app_nil_r in X. fold F in X.
  destruct (existsb snd d1') eqn:Ed'.
  { destruct (rho_step c t W H A _ s' i _ _ _ _ HY B' Ed' Hf' Hr') as [R _]. destruct (bi_busy i); lia. }
  pose proof (kap_range _ _ _ _ _ _ _ _ _ _ _ B' Ed' Hf' Hr') as K2. pose proof (kap_step c t W H A O s i P hist d1 d2 HY B Ed Hf Hr) as K3. fold s' in K3.
  assert (Xs : ffw (map fst d1') = ffw (map fst d1) + ffw (map fst (transferred (s_vb (b_i3 s)) (f1_obusy (b_f1 s))))) by (unfold d1'; rewrite map_app, ffw_app; reflexivity). rewrite Xs.
  destruct (om_step c t W H (W / ps c) A P d1 hist (b_i3 s) (bt_i3_in s i) Hc I1 Op HA Ht Hg HG4) as (O1 & O2). change (i3_step c (mem_of (bd c) t) (b_i3 s) (bt_i3_in s i)) with (b_i3 s') in O1, O2. change (in_busy (bt_i3_in s i)) with (f1_obusy (b_f1 s)) in O2.
  destruct (f1_obusy (b_f1 s)) eqn:Eb; cbn [b2z] in K3.
  - destruct (bi_busy i); cbn [b2z] in K3; lia.
  - assert (Hnf : ~ finished (b_i3 s)).
    { intros Q. assert (T : existsb snd (transferred (s_vb (b_i3 s)) false) = true).
      { destruct (v_vb _ _ _ _ _ _ _ _ _ _ I1) as [Vo _]. unfold vo_inv in Vo. unfold finished in Q. rewrite Q in Vo. destruct Vo as [V1 V2]. unfold transferred. rewrite V1, V2. reflexivity. }
      unfold d1' in Ed'. rewrite existsb_app, T, orb_true_r in Ed'. discriminate. }
    specialize (O2 eq_refl Hnf). destruct (bi_busy i); cbn [b2z] in K3; lia.
Qed.

Lemma ready_cons i l : ready_cycles (i :: l) = (if bi_busy i then 0 else 1) + ready_cycles l.
Proof. unfold ready_cycles, len. cbn [filter]. destruct (bi_busy i); cbn [negb length]; lia. Qed.
Lemma ready_nonneg l : 0 <= ready_cycles l.
Proof. apply len_nonneg. Qed.
Lemma log_nonempty c mem : forall l A O s, (1 <= length (bt_log c mem A O s l))%nat.
Proof. induction l as [|i l IH]; intros; cbn [bt_log]; [cbn; lia|]. destruct (b_rst s); [cbn [length]; lia|apply IH]. Qed.
Lemma early_open n T A O s : early_inv n T A O s -> T <= n + 2 -> fe_fend (b_fe s) = false.
Proof. intros (E & _) HT. destruct (fe_fsm_st (b_fe s)); try apply E. destruct (fe_fend (b_fe s)); [lia|reflexivity]. Qed.

Section run.
Variables (c : config) (t : table) (sizes : nat -> Z * Z) (allows : nat -> Z).
Hypothesis HY : forall k, bt_hyp c t (fst (sizes k)) (snd (sizes k)).
Hypothesis HA : forall k, 0 <= allows k < 2 ^ 24.
Let mem := mem_of (bd c) t.

Lemma drain_phase : forall l n T A O s, frame_at c t sizes allows n A O s l -> 0 <= T -> early_inv (allows n) T A O s -> T + len l <= allows n + 2 -> 1 <= ready_cycles l ->
  (b_rst s = false -> exists P hist d1 d2, bx c t (fst (sizes n)) (snd (sizes n)) A O s P hist d1 d2 /\ op_inv c (b_i3 s) /\ len A = fst (sizes n) / ps c * snd (sizes n) /\
     pot c hist s d1 (ffc c t (fst (sizes n)) A) + 2 <= 2 * ready_cycles l) ->
  (1 < length (bt_log c mem A O s l))%nat.
Proof.
  induction l as [|i l IH]; intros n T A O s F HT Ei HL Hr0 HQ.
  { unfold ready_cycles in Hr0. cbn in Hr0. lia. }
  assert (HLc : len (i :: l) = 1 + len l) by (unfold len; cbn [length]; lia). pose proof (len_nonneg l) as Hll.
  cbn [bt_log]. fold mem. destruct (b_rst s) eqn:Er.
  { cbn [length]. pose proof (log_nonempty c mem l [] [] (bt_step c mem s i)). lia. }
  destruct (HQ eq_refl) as (P & hist & d1 & d2 & B & Op & Hfull & Hpot). destruct (frame_next c t sizes allows HY HA _ _ _ _ _ _ F Er) as [F' Es]. fold mem in Es. rewrite Es. fold mem in F'.
  pose proof F as (_ & Bu & [Hok _] & [Hal _]).
  pose proof (early_open _ _ _ _ _ Ei ltac:(lia)) as Hf.
  assert (Ei2 : early_inv (allows n) (T + 1) (A ++ bt_took s i) (O ++ bt_gave s i) (bt_next c mem s i)) by exact (early_step c t (allows n) T A O s i (HA n) HT Hal Bu Er Ei).
  pose proof (early_open _ _ _ _ _ Ei2 ltac:(lia)) as Hf'.
  destruct (pot_step c t _ _ A O s i P hist d1 d2 (HY n) Hok B Op Hfull Hf Er) as (Q1 & Q2). fold mem in Q2. rewrite ready_cons in Hpot, Hr0.
  apply (IH n (T + 1)); try assumption; try lia.
  - destruct (bi_busy i); lia.
  - intros Er'. destruct (Q2 Hf' Er') as (Q3 & Q4 & Q5). pose proof (bx_next c t _ _ A O s i P hist d1 d2 (HY n) Hok B) as B'. rewrite Q4, Q3, app_nil_r in *. fold mem in B'.
    eexists _, _, _, _. split; [exact B'|]. split; [|split; [exact Hfull|]].
    + destruct (HY n) as (Hc & _). destruct B as (I1 & _). exact (op_step c t _ _ _ _ _ _ _ _ (bt_i3_in s i) Hc I1 Op).
    + destruct (bi_busy i); lia.
Qed.

Lemma gaps_cons i l : gaps (i :: l) = b2z (negb (bi_valid i)) + gaps l.
Proof. unfold gaps, len. cbn [filter]. destruct (bi_valid i); cbn [negb length b2z]; lia. Qed.
Lemma stalls_cons i l : stalls (i :: l) = b2z (bi_busy i) + stalls l.
Proof. unfold stalls, len. cbn [filter]. destruct (bi_busy i); cbn [length b2z]; lia. Qed.

(* T cycles after the reset, of which g without a group on offer and b with a busy sink *)
Definition ph1 (M : Z) (n : nat) (T g b : Z) (A : list (list Z)) (O : list (Z * bool)) (s : bt_st) : Prop :=
  b_rst s = false -> exists P hist d1 d2, let W := fst (sizes n) in let H := snd (sizes n) in
  bx c t W H A O s P hist d1 d2 /\ op_inv c (b_i3 s) /\
  (len A = W / ps c * H \/ len A < W / ps c * H /\ exists x, dl_inv c t M hist (b_i3 s) x /\ x <= T /\ (s_nready_reset (b_i3 s) = false -> s_nready_ctr (b_i3 s) = T /\ T < 8) /\
     2 * (T - len A - g - x) + kap s <= 20 + 2 * b + ffw (map fst d1)).

Lemma ph1_step M n T g b A O s i l : delay_cond c M -> frame_at c t sizes allows n A O s (i :: l) -> 0 <= T -> fe_fend (b_fe s) = false -> b_rst s = false ->
  small_groups c t (fst (sizes n)) M (A ++ bt_took s i) -> ph1 M n T g b A O s ->
  ph1 M n (T + 1) (g + b2z (negb (bi_valid i))) (b + b2z (bi_busy i)) (A ++ bt_took s i) (O ++ bt_gave s i) (bt_next c mem s i).
Proof.
  intros HD F HT Hf Hr Hs HP Hr'. destruct (HP Hr) as (P & hist & d1 & d2 & B & Op & HQ). cbv zeta in *. set (W := fst (sizes n)) in *. set (H := snd (sizes n)) in *.
  pose proof F as (_ & _ & [Hok _] & _). fold W H in Hok. pose proof (HY n) as HYn. fold W H in HYn. pose proof HYn as (Hc & Ho & Ht & [Hfr Hb]). destruct (frame_geom c W H Hc Hfr) as [Hg HG4].
  pose proof (bx_next c t W H A O s i P hist d1 d2 HYn Hok B) as B'. fold mem in B'.
  exists (P ++ vb_emit c (s_vb (b_i3 s)) (f1_obusy (b_f1 s))), (i3_new c (W / ps c) A (b_i3 s) (bt_i3_in s i) :: hist), (d1 ++ transferred (s_vb (b_i3 s)) (f1_obusy (b_f1 s))), (d2 ++ mk_took (b_mk s) (bt_mk_in s i)).
  split; [exact B'|]. pose proof B as (I1 & _). pose proof B' as (I1' & _).
  split; [exact (op_step c t W H _ _ _ _ _ _ (bt_i3_in s i) Hc I1 Op)|].
  assert (Hacc : bt_took s i = if i3_accept (b_i3 s) (bt_i3_in s i) then [bi_px i] else []) by reflexivity.
  assert (HL : len (A ++ bt_took s i) = len A + b2z (i3_accept (b_i3 s) (bt_i3_in s i))) by (rewrite len_app, Hacc; destruct (i3_accept (b_i3 s) (bt_i3_in s i)); reflexivity).
  pose proof (v_len _ _ _ _ _ _ _ _ _ _ I1') as HLe. pose proof (b2z_01 (i3_accept (b_i3 s) (bt_i3_in s i))) as Bac.
  destruct HQ as [HQ|(HQ & x & D & Dx & Dn & Dk)].
  { left. pose proof (full_noaccept _ _ _ _ _ _ _ _ _ _ (bt_i3_in s i) I1 HQ) as Ea. rewrite HL, Ea. cbn [b2z]. lia. }
  destruct (Z.eq_dec (len (A ++ bt_took s i)) (W / ps c * H)) as [E|E]; [left; exact E|right]. split; [lia|].
  assert (Ed : existsb snd d1 = false).
  { destruct (existsb snd d1) eqn:X; [|reflexivity]. destruct (inv_ended _ _ _ _ _ _ _ _ _ _ I1 X) as [Y _]. lia. }
  pose proof (kap_step c t W H A O s i P hist d1 d2 HYn B Ed Hf Hr) as K. fold mem in K.
  exists (x + 1 - b2z (i3_accept (b_i3 s) (bt_i3_in s i)) - b2z (lost (bt_i3_in s i))).
  assert (Hlost : b2z (lost (bt_i3_in s i)) <= b2z (negb (bi_valid i)) + b2z (f1_obusy (b_f1 s)) /\ 0 <= b2z (lost (bt_i3_in s i))).
  { unfold lost. cbn [bt_i3_in in_valid in_busy]. destruct (bi_valid i), (f1_obusy (b_f1 s)); cbn; lia. }
  split; [|split; [|split]].
  - apply (dl_step c t M W H (W / ps c) A P d1 hist (b_i3 s) (bt_i3_in s i) x Hc Ht HD I1 HQ); [|intros X; destruct (Dn X); lia|exact D].
    apply (new_size c t W H (W / ps c) A P d1 hist (b_i3 s) (bt_i3_in s i) M Hc Hg HG4 I1 Hok); [destruct HD; lia|].
    intros X. rewrite Hacc, X in Hs. cbn [bt_i3_in in_px]. apply (Hs A (bi_px i) []). reflexivity.
  - lia.
  - intros X. destruct (nready_step c mem (b_i3 s) (bt_i3_in s i)) as [N1 N2]. change (i3_step c mem (b_i3 s) (bt_i3_in s i)) with (b_i3 (bt_next c mem s i)) in N1, N2. rewrite N1 in X.
    destruct (s_nready_ctr (b_i3 s) =? 7) eqn:E7; [discriminate|]. destruct (Dn X) as [D1 D2]. rewrite N2, D1. rewrite trunc_id by (change (2 ^ 3) with 8; lia). lia.
  - rewrite HL. rewrite map_app, ffw_app. lia.
Qed.

Lemma bt_log_app : forall l1 l2 A O s, (length (bt_log c mem A O s l1) <= length (bt_log c mem A O s (l1 ++ l2)))%nat.
Proof.
  induction l1 as [|i l1 IH]; intros; cbn [app bt_log]; [cbn [length]; apply log_nonempty|]. destruct (b_rst s); [cbn [length]; specialize (IH l2 [] [] (bt_step c mem s i)); lia|apply IH].
Qed.

Lemma load_phase M : delay_cond c M -> forall l rest n T g b A O s, frame_at c t sizes allows n A O s (l ++ rest) -> 0 <= T -> early_inv (allows n) T A O s -> T + len l <= allows n + 2 ->
  ph1 M n T g b A O s -> (forall A' O', nth_error (bt_log c mem A O s l) 0 = Some (A', O') -> small_groups c t (fst (sizes n)) M A') ->
  (1 < length (bt_log c mem A O s l))%nat \/
  exists A' O' s', bt_log c mem A O s l = [(A', O')] /\ (forall r, bt_log c mem A O s (l ++ r) = bt_log c mem A' O' s' r) /\ frame_at c t sizes allows n A' O' s' rest /\
     early_inv (allows n) (T + len l) A' O' s' /\ ph1 M n (T + len l) (g + gaps l) (b + stalls l) A' O' s'.
Proof.
  intros HD. induction l as [|i l IH]; intros rest n T g b A O s F HT Ei HL HP Hs.
  - right. exists A, O, s. split; [reflexivity|]. split; [reflexivity|]. split; [exact F|]. change (len (@nil bt_in)) with 0. change (gaps []) with 0. change (stalls []) with 0. rewrite !Z.add_0_r. auto.
  - assert (HLc : len (i :: l) = 1 + len l) by (unfold len; cbn [length]; lia). pose proof (len_nonneg l) as Hll. cbn [app] in F. cbn [bt_log app] in *. destruct (b_rst s) eqn:Er.
    { left. cbn [length]. pose proof (log_nonempty c mem l [] [] (bt_step c mem s i)). lia. }
    destruct (frame_next c t sizes allows HY HA _ _ _ _ _ _ F Er) as [F' Es]. fold mem in Es, F'. rewrite Es in *.
    pose proof F as (_ & Bu & _ & [Hal _]).
    assert (Ei2 : early_inv (allows n) (T + 1) (A ++ bt_took s i) (O ++ bt_gave s i) (bt_next c mem s i)) by exact (early_step c t (allows n) T A O s i (HA n) HT Hal Bu Er Ei).
    pose proof (early_open _ _ _ _ _ Ei ltac:(lia)) as Hf.
    assert (HP' : ph1 M n (T + 1) (g + b2z (negb (bi_valid i))) (b + b2z (bi_busy i)) (A ++ bt_took s i) (O ++ bt_gave s i) (bt_next c mem s i)).
    { apply (ph1_step M n T g b A O s i (l ++ rest)); try assumption.
      destruct (bt_log c mem (A ++ bt_took s i) (O ++ bt_gave s i) (bt_next c mem s i) l) as [|[A' O'] tl] eqn:EL; [pose proof (log_nonempty c mem l (A ++ bt_took s i) (O ++ bt_gave s i) (bt_next c mem s i)) as X; rewrite EL in X; cbn in X; lia|].
      destruct (log_first c mem l _ _ _ A' O' ltac:(rewrite EL; reflexivity)) as (x & y & -> & _). eapply small_app. apply (Hs _ O'). reflexivity. }
    specialize (IH rest n (T + 1) _ _ _ _ _ F' ltac:(lia) Ei2 ltac:(lia) HP' Hs).
    replace (T + len (i :: l)) with (T + 1 + len l) by lia. rewrite gaps_cons, stalls_cons. rewrite !Z.add_assoc. exact IH.
Qed.

Lemma kap_init i3 : kap (bt_reset_with i3) = 20.
Proof. reflexivity. Qed.

Lemma ph1_init M n i3 : delay_cond c M -> is_reset c i3 -> ph1 M n 0 0 0 [] [] (bt_reset_with i3).
Proof.
  intros HD Hi _. set (W := fst (sizes n)). set (H := snd (sizes n)). pose proof (HY n) as HYn. fold W H in HYn. pose proof HYn as (Hc & Ho & Ht & [Hfr Hb]). destruct (frame_geom c W H Hc Hfr) as [Hg HG4].
  exists [], [], [], []. cbv zeta. split; [|split].
  - split; [|split; [|split]].
    + destruct Hi as (st1 & e1 & st2 & e2 & rps & L1 & L2 & L3 & ->). apply i3_inv_reset; assumption.
    + apply fx_inv_init.
    + split; reflexivity.
    + reflexivity.
  - apply op_reset. exact Hi.
  - right. split; [change (len (@nil (list Z))) with 0; unfold geom in Hg; nia|].
    exists 0. split; [apply dl_reset; assumption|]. split; [lia|]. split; [destruct Hi as (? & ? & ? & ? & ? & _ & _ & _ & ->); intros _; cbn; lia|]. rewrite kap_init. cbn. lia.
Qed.

(* the two phases together *)
Lemma in_time M i3 n la lb A O : delay_cond c M -> is_reset c i3 -> frame_at c t sizes allows n [] [] (bt_reset_with i3) (la ++ lb) ->
  nth_error (bt_log c mem [] [] (bt_reset_with i3) (la ++ lb)) 0 = Some (A, O) -> small_groups c t (fst (sizes n)) M A ->
  36 + 2 * (fst (sizes n) / ps c * snd (sizes n)) + 2 * gaps la + 2 * stalls la + ffc c t (fst (sizes n)) A <= 2 * len la ->
  2 * drain_cycles c + ffc c t (fst (sizes n)) A + 120 <= 2 * ready_cycles lb ->
  len la + len lb <= allows n + 2 ->
  (1 < length (bt_log c mem [] [] (bt_reset_with i3) (la ++ lb)))%nat.
Proof.
  intros HD Hi F E Hs H1 H2 H3. pose proof (len_nonneg la) as Lla. pose proof (len_nonneg lb) as Llb.
  assert (Ei : early_inv (allows n) 0 [] [] (bt_reset_with i3)).
  { apply (early_start c t sizes allows n (la ++ lb)). exact F. }
  assert (Hpre : forall A' O', nth_error (bt_log c mem [] [] (bt_reset_with i3) la) 0 = Some (A', O') -> exists x, A = A' ++ x).
  { intros A' O' E'. destruct (frame_reach c t sizes allows HY HA la lb n [] [] _ F) as (f & A1 & O1 & R1 & R2 & _). fold mem in R1, R2. rewrite R1 in E'. rewrite R2 in E. destruct f as [|y f].
    - cbn in E'. inversion E'; subst. cbn [app] in E. destruct (log_first c mem _ _ _ _ _ _ E) as (x & y & -> & _). eauto.
    - cbn in E, E'. exists []. rewrite app_nil_r. congruence. }
  assert (Hsm : forall A' O', nth_error (bt_log c mem [] [] (bt_reset_with i3) la) 0 = Some (A', O') -> small_groups c t (fst (sizes n)) M A') by (intros A' O' E'; destruct (Hpre _ _ E') as (x & ->); eapply small_app; exact Hs).
  destruct (load_phase M HD la lb n 0 0 0 [] [] (bt_reset_with i3) F ltac:(lia) Ei ltac:(lia) (ph1_init M n i3 HD Hi) Hsm) as [L|(A' & O' & s' & L1 & L2 & F' & Ei' & HP)].
  { pose proof (bt_log_app la lb [] [] (bt_reset_with i3)). lia. }
  rewrite L2 in *. rewrite !Z.add_0_l in *. destruct (Hpre A' O' ltac:(rewrite L1; reflexivity)) as (y & HAy). assert (HF0 : 0 <= ffc c t (fst (sizes n)) A) by apply ffw_nonneg.
  assert (Hdr : 0 <= drain_cycles c).
  { destruct (HY n) as (Hc & _). assert (Hcv1 : 1 <= conv c) by apply (cfg_cv c Hc). assert (Hst : 1 <= cv_steps c) by (destruct (cfg_cv c Hc); unfold cv_steps; apply Z.div_le_lower_bound; lia).
    assert (Hlj : 25 <= ljd c) by (unfold cfg_ok in Hc; lia). assert (Hb : 0 <= bufs c) by (unfold cfg_ok in Hc; lia). assert (Hcf : 0 <= cfd c) by (pose proof (cfg_cfd c Hc); pose proof (cv_k_bound c (cfg_cv c Hc)) as (K1 & _); assert (cf_steps c = cv_k c + 3) by reflexivity; lia).
    assert (Hd : drain_cycles c = 3 * bufs c + (conv c + 30) * (cfd c + 2) + (gw c + 20) * (ljd c + 1) + 64) by reflexivity. assert (0 <= gw c) by (unfold gw; nia). nia. }
  apply (drain_phase lb n (len la) A' O' s' F'); try assumption; try lia.
  intros Er. destruct (HP Er) as (P & hist & d1 & d2 & B & Op & HQ). cbv zeta in *. pose proof (HY n) as HYn.
  assert (Hf : fe_fend (b_fe s') = false) by (apply (early_open _ _ _ _ _ Ei'); lia).
  exists P, hist, d1, d2. split; [exact B|]. split; [exact Op|]. assert (HX : len A' = fst (sizes n) / ps c * snd (sizes n)).
  { destruct HQ as [HQ|(HQ & x & D & _ & _ & Dk)]; [exact HQ|exfalso]. pose proof B as (I1 & _).
    assert (Ed : existsb snd d1 = false) by (destruct (existsb snd d1) eqn:X; [destruct (inv_ended _ _ _ _ _ _ _ _ _ _ I1 X) as [Y _]; lia|reflexivity]).
    pose proof (ffw_le c t _ _ A' O' s' P hist d1 d2 y HYn B Ed) as X. rewrite <- HAy in X. pose proof (kap_range _ _ _ _ _ _ _ _ _ _ _ B Ed Hf Er) as K. pose proof (dl_A _ _ _ _ _ _ D) as Dx. lia. }
  split; [exact HX|].
  assert (HAA : A = A').
  { destruct (log_first c mem _ _ _ _ _ _ E) as (x & z & -> & _). pose proof F as (J0 & _ & HE & _).
    assert (E2 : nth_error (bt_log c (mem_of (bd c) t) [] [] (bt_reset_with i3) (la ++ lb)) 0 = Some (A' ++ x, O)) by (fold mem; rewrite L2; exact E).
    destruct (bt_log_ok c t sizes HY (la ++ lb) [] [] (bt_reset_with i3) n J0 eq_refl HE 0%nat _ _ E2) as (s2 & I2 & _). destruct I2 as (P2 & h2 & e1 & e2 & I2 & _). rewrite Nat.add_0_r in I2.
    pose proof (v_len _ _ _ _ _ _ _ _ _ _ I2) as Y. rewrite len_app in Y. destruct x as [|g x]; [apply app_nil_r|exfalso]. unfold len at 2 in Y. cbn [length] in Y. lia. }
  rewrite HAA in *. unfold pot. destruct (existsb snd d1) eqn:Ed.
  - destruct (rho_step c t _ _ A' O' s' {| bi_valid := false; bi_px := []; bi_busy := true; bi_w := 0; bi_h := 0; bi_allowed := 0 |} P hist d1 d2 HYn B Ed Hf Er) as [R _]. lia.
  - pose proof (kap_range _ _ _ _ _ _ _ _ _ _ _ B Ed Hf Er) as K. destruct HYn as (Hc & _). destruct B as (I1 & _). pose proof (om_bound _ _ _ _ _ _ _ _ _ _ Hc I1) as Ob. pose proof (ffw_nonneg (map fst d1)). lia.
Qed.
End run.
