(* After the last group of a frame: a measure that falls in every cycle in which the sink is ready. *)
From Verif Require Import Bits Spec Spec_Core Spec_Rate M_Config M_Signals M_Predictor M_Difference M_Encode M_Merge M_I1 M_Fifo M_Converter M_VBits M_I3
  P_Fifo P_Encode P_Merge P_Signals P_Predictor P_I1 P_Tokens P_Converter P_VBits P_I3 P_Decode P_Run P_Live P_Live2 P_Rate P_Rate2 P_Rate3 P_Rate4 P_Rate5 P_Delay Props_Arith Props_Core Props_Live.
Ltac Zify.zify_post_hook ::= idtac.

(* weight of a group in front of the converter *)
Definition gw (c : config) : Z := (cv_steps c + 1) * (conv c + 40).
Definition cvp (s : cv_st) : Z := match cv_state s with CV_STEPS i => Z.of_nat i + 1 | _ => 0 end.
Definition cvr (s : cv_st) : Z := match cv_state s with CV_IDLE => 2 | CV_BURST_PREPARE => 1 | _ => 0 end.
Definition vir (i : vi_st) : Z :=
  match vi_state i with VI_INPUT => 3 | VI_CLEAN => 2 | VI_REGISTER => 1 | VI_BURST => if vi_valid_reg i && negb (vi_ctr_reg i <=? vi_free i) then 4 else 0 end.
Definition stale (c : config) (s : i3_st) : Z := b2z (s_cf_cf s && (fifo_level (s_cf s) <? cfd c - cf_steps c)).
Definition psi (c : config) (hist : hist_t) (s : i3_st) : Z :=
  vi_consum (vb_in (s_vb s)) + (conv c + 10) * vn (vb_in (s_vb s)) + (conv c + 20) * len (fifo_q (cfd c) (s_cf s)) + (conv c + 30) * b2z (cv_valid_in (s_cv s)) +
  (conv c + 40) * cvp (s_cv s) + gw c * b2z (cv_valid_reg (s_cv s)) + (gw c + 10) * len (fifo_q (ljd c) (s_ljf s)) + (gw c + 20) * hcount hist (latency c) +
  hd_w (latency c) hist + vir (vb_in (s_vb s)) + cvr (s_cv s) + phi (s_cf s) + phi (s_ljf s) + stale c s.

(* the converter *)
Lemma cv_account c s enc ctr e valid cf : cv_ok c -> cv_inv c s -> let s' := cv_step c s enc ctr e valid cf in
  (conv c + 40) * cvp s' + gw c * b2z (cv_valid_reg s') + (conv c + 40) * b2z (cv_valid_in s') <= (conv c + 40) * cvp s + gw c * b2z (cv_valid_reg s) + gw c * b2z (cv_latch_output s && valid) /\
  cvr s' <= cvr s + 2 * b2z (cv_valid_in s') /\
  (cv_valid_in s' = false -> cvr s' < cvr s \/ (cv_state s = CV_IDLE /\ (cf = true \/ (cv_valid_reg s = false /\ valid = false))) \/ (cv_state s = CV_BURST /\ cv_valid_reg s = false)).
Proof.
  intros Hc I. pose proof (cv_step_ok c s enc ctr e valid cf Hc I) as SO. destruct I as (I1 & I2 & I3 & I4 & I5). cbv zeta.
  assert (Hcv : 1 <= conv c) by apply Hc. pose proof (b2z_01 valid) as Bv. assert (Hst : 1 <= cv_steps c) by (destruct Hc; unfold cv_steps; apply Z.div_le_lower_bound; lia).
  assert (Hgw : gw c = (cv_steps c + 1) * (conv c + 40)) by reflexivity. assert (Hg2 : 2 * (conv c + 40) <= gw c) by nia.
  unfold cv_step, cv_try, cvp, cvr in *. rewrite I1. destruct (cv_state s) as [| | |k] eqn:Es.
  - destruct (cv_valid_reg s) eqn:Er, cf, valid; cbn [andb negb cv_state cv_valid_reg cv_valid_in cv_latch_output b2z]; rewrite ?Er; cbn [b2z]; (split; [lia|]); (split; [lia|]); intros _; auto 6; left; lia.
  - cbn [cv_state cv_valid_reg cv_valid_in andb b2z]. rewrite (I2 eq_refl). cbn [b2z]. split; [lia|]. split; [lia|]. intros _; left; lia.
  - destruct (cv_valid_reg s) eqn:Er.
    + destruct (cv_ctr_reg s <=? conv c) eqn:El.
      * destruct cf; cbn [cv_state cv_valid_reg cv_valid_in andb b2z]; (split; [nia|]); (split; [lia|]); discriminate.
      * cbn [cv_state cv_valid_reg cv_valid_in andb b2z].
        assert (X : match cv_pick c (cv_ctr_reg s) 0 (Z.to_nat (cv_steps c)) with Some (_, _, i) => Z.of_nat i < cv_steps c | None => True end).
        { destruct (cv_pick c (cv_ctr_reg s) 0 (Z.to_nat (cv_steps c))) as [[[st en] k]|] eqn:Ep; [|exact Logic.I].
          assert (P : forall n i, cv_pick c (cv_ctr_reg s) i n = Some (st, en, k) -> (k < i + n)%nat).
          { induction n as [|n IH]; intros i X; cbn [cv_pick] in X; [discriminate|]. match type of X with (if ?b then _ else _) = _ => destruct b end; [assert (i = k) by congruence; lia|]. specialize (IH _ X). lia. }
          specialize (P _ _ Ep). lia. }
        destruct (cv_pick c (cv_ctr_reg s) 0 (Z.to_nat (cv_steps c))) as [[[st en] k]|]; cbn beta iota in *.
        -- split; [|split; [lia|discriminate]]. rewrite Hgw. nia.
        -- split; [nia|]. split; [lia|discriminate].
    + cbn [cv_state cv_valid_reg cv_valid_in andb b2z]. split; [lia|]. split; [lia|]. intros _. right. right. auto.
  - destruct k as [|k].
    + destruct (cv_valid_reg s) eqn:Er, cf, valid; cbn [andb negb cv_state cv_valid_reg cv_valid_in cv_latch_output b2z Z.of_nat]; rewrite ?Er; cbn [b2z]; (split; [lia|]); (split; [lia|]); discriminate.
    + cbn [cv_state cv_valid_reg cv_valid_in andb b2z]. split; [nia|]. split; [lia|discriminate].
Qed.

Lemma phi_write D f we din re : 0 <= ff_lvl f -> phi (fifo_step D f we din re) <= phi f + b2z we.
Proof.
  intros L. destruct we.
  - cbn [b2z]. unfold phi at 1. pose proof (b2z_01 (negb (ff_rd (fifo_step D f true din re)) && (0 <? ff_lvl (fifo_step D f true din re)))). assert (0 <= phi f) by (unfold phi; apply b2z_01). lia.
  - cbn [b2z]. pose proof (phi_nowrite D f din re L) as X. cbv zeta in X. lia.
Qed.

(* the packer *)
Lemma vi_account c i enc ctr e valid dec f v : vi_inv c i -> bk_inv c (conv c) i f v -> vi_start (vi_step c i enc ctr e valid dec) = true ->
  vir (vi_step c i enc ctr e valid dec) <= vir i + 4 * (b2z (vi_latch_input i && valid) + b2z (vi_inc i)).
Proof.
  intros Hi B Hs. pose proof Hi as (I1 & I2 & I3 & I4 & I5 & I6 & I7 & I8 & I9 & I10).
  assert (Hb : forall j, 0 <= vir j <= 4) by (intros j; unfold vir; destruct (vi_state j); try lia; destruct (vi_valid_reg j && negb (vi_ctr_reg j <=? vi_free j)); lia).
  pose proof (Hb (vi_step c i enc ctr e valid dec)) as Hb1. pose proof (Hb i) as Hb2. rewrite I1.
  destruct (vi_state i) eqn:Es; cbn [andb].
  - unfold vir at 1. unfold vi_step, vi_inc. rewrite Es. cbn [vi_state]. unfold vir. rewrite Es. destruct (vi_valid_buff i) eqn:Eb.
    + destruct (vi_ctr_buff i <=? vi_free i); cbn [andb b2z]; lia.
    + destruct (bk_start _ _ _ _ _ B Es Eb) as (_ & _ & X). rewrite X. cbn [b2z]. lia.
  - assert (vi_inc i = true) as -> by (unfold vi_inc; rewrite Es; reflexivity). cbn [b2z]. lia.
  - destruct valid; cbn [b2z]; [pose proof (b2z_01 (vi_inc i)); lia|]. unfold vir, vi_step. rewrite Es. cbn [vi_state vi_valid_reg andb]. unfold vi_inc. rewrite Es. cbn [b2z]. lia.
  - destruct valid; cbn [b2z]; [pose proof (b2z_01 (vi_inc i)); lia|]. unfold vi_inc. rewrite Es. unfold vir, vi_step. rewrite Es. cbn [vi_state vi_valid_reg]. destruct (vi_valid_reg i), (vi_ctr_reg i <=? vi_free i); cbn [andb negb b2z]; lia.
Qed.

(* no token is left in front of the packer *)
Lemma empty_full c t W H G A P done hist s : i3_inv c t W H G A P done hist s -> ~ finished s ->
  hcount hist (latency c) = 0 -> fifo_q (ljd c) (s_ljf s) = [] -> cv_valid_in (s_cv s) = false -> cv_valid_reg (s_cv s) = false -> cvp (s_cv s) = 0 -> fifo_q (cfd c) (s_cf s) = [] ->
  vi_state (vb_in (s_vb s)) = VI_BURST -> vi_valid_reg (vb_in (s_vb s)) = false -> len A = G * H -> vi_end (vb_in (s_vb s)) = true.
Proof.
  intros I Hnf Q1 Q2 Q5 Q6 Q7 Q8 Q10 Q11 HA.
  pose proof (v_tok _ _ _ _ _ _ _ _ _ _ I) as T. pose proof (v_done _ _ _ _ _ _ _ _ _ _ I) as D. unfold vb_done in D. unfold finished in Hnf.
  assert (DP : exists bs, P = map Some bs) by (destruct (vo_state (vb_out (s_vb s))); [| |congruence]; destruct D as (pw & _ & _ & ->); eexists; reflexivity). destruct DP as [bs ->].
  unfold vb_pend in T. assert (Ep : match vo_state (vb_out (s_vb s)) with VO_END => [] | _ => vi_pend (vb_in (s_vb s)) end = vi_pend (vb_in (s_vb s))) by (destruct (vo_state (vb_out (s_vb s))); congruence).
  rewrite Ep in T. unfold vi_pend, vi_items in T. rewrite Q10, Q11, app_nil_r in T. rewrite Q2, Q8 in T. unfold cv_outtok, cv_contents in T. rewrite Q5, Q6 in T.
  assert (Ec : match cv_state (s_cv s) with CV_STEPS i => tk (cv_latch s.(s_cv)) ((Z.of_nat i + 1) * conv c) (cv_end_latch (s_cv s)) | _ => [] end = []) by (unfold cvp in Q7; destruct (cv_state (s_cv s)); try reflexivity; lia).
  rewrite Ec in T. cbn [app qtok flat_map] in T.
  assert (Hh : htok t hist (latency c) = []).
  { revert Q1. generalize (latency c) as n. clear. intros n. unfold hcount, htok. intros Q1. assert (F : filter is_some (firstn n hist) = []) by (destruct (filter is_some (firstn n hist)); [reflexivity|cbn in Q1; lia]).
    clear Q1. revert F. generalize (firstn n hist) as l. clear. intros l F.
    assert (K : forall h, In h l -> h = None). { intros h Hh. destruct h; [|reflexivity]. assert (X : In (Some g) (filter is_some l)) by (apply filter_In; auto). rewrite F in X. destruct X. }
    clear F. assert (K' : forall h, In h (rev l) -> h = None) by (intros h Hh; apply K; apply in_rev; exact Hh). clear K. induction (rev l) as [|h r IH]; [reflexivity|]. cbn. rewrite (K' h (or_introl eq_refl)). cbn. apply IH. intros h' Hh'. apply K'. right. exact Hh'. }
  rewrite Hh, app_nil_r in T. unfold frame_toks in T. rewrite HA, Z.eqb_refl in T.
  destruct (vi_end (vb_in (s_vb s))) eqn:E; [reflexivity|]. unfold tk in T. rewrite app_nil_r, <- map_app in T.
  assert (X : In None (map Some (bs ++ bitsz (vi_consum (vb_in (s_vb s))) (vi_buffer (vb_in (s_vb s)))))) by (rewrite T; apply in_app_iff; right; left; reflexivity).
  apply in_map_iff in X. destruct X as (? & X & _). discriminate.
Qed.

(* nothing but an incomplete word in the packer *)
Definition hollow (c : config) (hist : hist_t) (s : i3_st) : Prop :=
  hcount hist (latency c) = 0 /\ fifo_q (ljd c) (s_ljf s) = [] /\ cv_valid_in (s_cv s) = false /\ cv_valid_reg (s_cv s) = false /\ cvp (s_cv s) = 0 /\ fifo_q (cfd c) (s_cf s) = [] /\
  vi_state (vb_in (s_vb s)) = VI_BURST /\ vi_valid_reg (vb_in (s_vb s)) = false /\ vi_consum (vb_in (s_vb s)) < outb c.
Section step.
  Variables (c : config) (t : table) (W H G : Z) (A : list (list Z)) (P : list tok) (done : list (Z * bool)) (hist : hist_t) (s : i3_st) (i : i3_in).
  Hypotheses (Hc : cfg_ok c = true) (I : i3_inv c t W H G A P done hist s) (Hcl : ~ closing s)
    (B : bk_inv c (conv c) (vb_in (s_vb s)) (s_cf s) (cv_valid_in (s_cv s))).
  Let mem := mem_of (bd c) t.
  Let s' := i3_step c mem s i.

  Lemma psi_step0 : psi c (None :: hist) s' <= psi c hist s /\ (in_busy i = false -> psi c (None :: hist) s' < psi c hist s \/ hollow c hist s).
  Proof.
    pose proof (v_cff _ _ _ _ _ _ _ _ _ _ I) as Cf. pose proof (v_ljf _ _ _ _ _ _ _ _ _ _ I) as Jf. pose proof (cfg_cv c Hc) as Hcv. pose proof (cfg_vb c Hc) as Hvb.
    pose proof (cfg_cfd c Hc) as Hcfd. pose proof (cv_k_bound c Hcv) as (K1 & _). assert (Hst : cf_steps c = cv_k c + 3) by reflexivity.
    pose proof (latency_bound c Hc) as Hlat. assert (Hljd : 25 <= ljd c) by (unfold cfg_ok in Hc; lia).
    assert (Hnf : ~ finished s) by (intros X; apply Hcl; right; exact X).
    assert (He : vi_end (vb_in (s_vb s)) = false) by (destruct (vi_end (vb_in (s_vb s))) eqn:X; [elim Hcl; left; exact X|reflexivity]).
    destruct (v_vb _ _ _ _ _ _ _ _ _ _ I) as [Vo Vi]. specialize (Vi Hnf). assert (Hob : 1 <= outb c) by apply Hvb. assert (Hcv1 : 1 <= conv c) by apply Hcv. assert (Hcb : conv c + outb c <= bufs c) by (unfold cfg_ok in Hc; lia).
    pose proof (cf_writable _ _ _ _ _ _ _ _ _ _ Hc I) as Cw. pose proof (lj_writable _ _ _ _ _ _ _ _ _ _ Hc I) as Jw.
    assert (Hdg := dec_ge0 c (vb_in (s_vb s)) (vb_out (s_vb s)) (in_busy i) He). assert (Hnd := nodec0 c (vb_in (s_vb s)) (vb_out (s_vb s)) (in_busy i) He Hnf).
    (* packer *)
    set (dec := vo_dec c (vb_out (s_vb s)) (vi_consum (vb_in (s_vb s))) (vi_end (vb_in (s_vb s))) (in_busy i)) in *.
    pose proof (vi_arith c (vb_in (s_vb s)) (item_enc (cf_db c) (cf_cb c) (ff_dout (s_cf s))) (cctr c (ff_dout (s_cf s))) (item_end (cf_db c) (cf_cb c) (ff_dout (s_cf s))) (ff_rd (s_cf s)) dec Hvb Vi ltac:(congruence) Hdg ltac:(congruence)) as (A1 & A2 & A3 & A4 & _).
    pose proof (vi_account c (vb_in (s_vb s)) (item_enc (cf_db c) (cf_cb c) (ff_dout (s_cf s))) (cctr c (ff_dout (s_cf s))) (item_end (cf_db c) (cf_cb c) (ff_dout (s_cf s))) (ff_rd (s_cf s)) dec (s_cf s) (cv_valid_in (s_cv s)) Vi B A3) as A5.
    pose proof (vn_step c (conv c) (vb_in (s_vb s)) (s_cf s) (cv_valid_in (s_cv s)) (item_enc (cf_db c) (cf_cb c) (ff_dout (s_cf s))) (item_end (cf_db c) (cf_cb c) (ff_dout (s_cf s))) dec Vi B) as A6.
    assert (Evi : vb_in (s_vb s') = vi_step c (vb_in (s_vb s)) (item_enc (cf_db c) (cf_cb c) (ff_dout (s_cf s))) (cctr c (ff_dout (s_cf s))) (item_end (cf_db c) (cf_cb c) (ff_dout (s_cf s))) (ff_rd (s_cf s)) dec) by (unfold s'; rewrite st_vb; reflexivity).
    rewrite <- Evi in A1, A4, A5, A6.
    assert (Hinc : vi_inc (vb_in (s_vb s)) = true -> 1 <= vi_ctr_reg (vb_in (s_vb s)) <= conv c) by (intros X; destruct (vi_inc_items c _ Vi X) as ((Y & _) & _); lia).
    set (m2 := vi_latch_input (vb_in (s_vb s)) && ff_rd (s_cf s)) in *. set (inc := vi_inc (vb_in (s_vb s))) in *.
    (* fifos *)
    assert (Ecf := st_cf c mem s i). fold s' in Ecf. assert (Elj := st_ljf c mem s i). fold s' in Elj.
    pose proof (lq_len (cfd c) (s_cf s) (cv_valid_in (s_cv s)) (item_pack (cf_db c) (cf_cb c) (cv_enc_in (s_cv s)) (cv_enc_in_ctr (s_cv s)) (cv_in_end (s_cv s))) (vi_latch_input (vb_in (s_vb s))) ltac:(lia) Cf Cw) as B1.
    pose proof (lq_len (ljd c) (s_ljf s) (i1_valid_out c (s_i1 s)) (item_pack (lj_db c) (lj_cb c) (fst (i1_out c (s_i1 s))) (snd (i1_out c (s_i1 s))) (i1_end_out c (s_i1 s))) (cv_latch_output (s_cv s)) ltac:(lia) Jf Jw) as B2.
    assert (L1 : 0 <= ff_lvl (s_cf s)) by apply Cf. assert (L2 : 0 <= ff_lvl (s_ljf s)) by apply Jf.
    pose proof (phi_write (cfd c) (s_cf s) (cv_valid_in (s_cv s)) (item_pack (cf_db c) (cf_cb c) (cv_enc_in (s_cv s)) (cv_enc_in_ctr (s_cv s)) (cv_in_end (s_cv s))) (vi_latch_input (vb_in (s_vb s))) L1) as B3.
    pose proof (phi_write (ljd c) (s_ljf s) (i1_valid_out c (s_i1 s)) (item_pack (lj_db c) (lj_cb c) (fst (i1_out c (s_i1 s))) (snd (i1_out c (s_i1 s))) (i1_end_out c (s_i1 s))) (cv_latch_output (s_cv s)) L2) as B4.
    destruct (fifo_step_ok (cfd c) (s_cf s) (cv_valid_in (s_cv s)) (item_pack (cf_db c) (cf_cb c) (cv_enc_in (s_cv s)) (cv_enc_in_ctr (s_cv s)) (cv_in_end (s_cv s))) (vi_latch_input (vb_in (s_vb s))) ltac:(lia) Cf) as [Cf' _].
    rewrite <- Ecf in B1, B3, Cf'. rewrite <- Elj in B2, B4. fold m2 in B1. set (m1 := cv_latch_output (s_cv s) && ff_rd (s_ljf s)) in *.
    (* converter *)
    assert (Ecv := st_cv c mem s i). fold s' in Ecv.
    destruct (cv_account c (s_cv s) (item_enc (lj_db c) (lj_cb c) (ff_dout (s_ljf s))) (item_ctr (lj_db c) (lj_cb c) (ff_dout (s_ljf s))) (item_end (lj_db c) (lj_cb c) (ff_dout (s_ljf s))) (ff_rd (s_ljf s)) (s_cf_cf s) Hcv (v_cv _ _ _ _ _ _ _ _ _ _ I)) as (D1 & D2 & D3).
    rewrite <- Ecv in D1, D2, D3. fold m1 in D1.
    (* pipeline *)
    destruct (latency c) as [|n] eqn:En; [lia|]. pose proof (hd_w_S n hist) as Hh. pose proof (hcount_le hist (S n)) as Hcn. pose proof (hcount_le hist n) as Hcn2. pose proof (hd_w_bound n hist) as Hcn3.
    assert (Hh' : hd_w (S n) (None :: hist) = hd_w n hist) by reflexivity.
    destruct (i1_inv_out c mem (s_i1 s) hist Hc (v_i1 _ _ _ _ _ _ _ _ _ _ I)) as [Hvo _]. rewrite En in Hvo. replace (S n - 1)%nat with n in Hvo by lia.
    assert (Hh2 : hcount (None :: hist) (S n) = hcount hist (S n) - b2z (i1_valid_out c (s_i1 s))) by (rewrite hcount_cons, hcount_S, Hvo; cbn [is_some b2z]; lia).
    (* stale *)
    assert (Hkap : stale c s' <= b2z m2).
    { unfold stale, s' at 1. rewrite st_cfcf. fold s'. pose proof (fifo_level_q _ _ Cf) as X1. pose proof (fifo_level_q _ _ Cf') as X2. pose proof (b2z_01 (cv_valid_in (s_cv s))) as X3. pose proof (b2z_01 m2). unfold len in B1.
      destruct (cfd c - cf_steps c <=? fifo_level (s_cf s)) eqn:Y1; cbn [andb]; [|cbn [b2z]; lia]. destruct (fifo_level (s_cf s') <? cfd c - cf_steps c) eqn:Y2; cbn [b2z]; [|lia].
      destruct m2; cbn [b2z] in *; [lia|]. lia. }
    assert (Hk0 : 0 <= stale c s <= 1) by (unfold stale; apply b2z_01).
    assert (Ph : 0 <= phi (s_cf s) <= 1 /\ 0 <= phi (s_ljf s) <= 1) by (unfold phi; split; apply b2z_01).
    unfold psi. rewrite En, Hh', Hh2, Hh, B1, B2, A6, A4.
    pose proof (b2z_01 m1) as b1. pose proof (b2z_01 m2) as b2. pose proof (b2z_01 inc) as b3. pose proof (b2z_01 (i1_valid_out c (s_i1 s))) as b4. pose proof (b2z_01 (cv_valid_in (s_cv s))) as b5. pose proof (b2z_01 (cv_valid_in (s_cv s'))) as b6.
    assert (Hinc' : (if inc then vi_ctr_reg (vb_in (s_vb s)) else 0) <= conv c * b2z inc) by (destruct inc; cbn [b2z]; [specialize (Hinc eq_refl)|]; lia).
    assert (Hdec' : 0 <= (if dec then outb c else 0)) by (destruct dec; lia).
    assert (E1 : (conv c + 10) * (vn (vb_in (s_vb s)) + b2z m2 - b2z inc) = (conv c + 10) * vn (vb_in (s_vb s)) + (conv c + 10) * b2z m2 - (conv c + 10) * b2z inc) by ring.
    assert (E2 : (conv c + 20) * (len (fifo_q (cfd c) (s_cf s)) + b2z (cv_valid_in (s_cv s)) - b2z m2) = (conv c + 20) * len (fifo_q (cfd c) (s_cf s)) + (conv c + 20) * b2z (cv_valid_in (s_cv s)) - (conv c + 20) * b2z m2) by ring.
    assert (E3 : (gw c + 10) * (len (fifo_q (ljd c) (s_ljf s)) + b2z (i1_valid_out c (s_i1 s)) - b2z m1) = (gw c + 10) * len (fifo_q (ljd c) (s_ljf s)) + (gw c + 10) * b2z (i1_valid_out c (s_i1 s)) - (gw c + 10) * b2z m1) by ring.
    assert (E4 : (gw c + 20) * (hcount hist (S n) - b2z (i1_valid_out c (s_i1 s))) = (gw c + 20) * hcount hist (S n) - (gw c + 20) * b2z (i1_valid_out c (s_i1 s))) by ring.
    rewrite E1, E2, E3, E4.
    (* everything that moves falls by three at least *)
    set (X := vi_consum (vb_in (s_vb s)) + (conv c + 10) * vn (vb_in (s_vb s)) + (conv c + 20) * len (fifo_q (cfd c) (s_cf s)) + (conv c + 30) * b2z (cv_valid_in (s_cv s)) + (conv c + 40) * cvp (s_cv s) + gw c * b2z (cv_valid_reg (s_cv s)) + (gw c + 10) * len (fifo_q (ljd c) (s_ljf s)) + (gw c + 20) * hcount hist (S n)) in *.
    match goal with |- ?a <= ?b /\ _ => assert (Main : a + 3 * (b2z m1 + b2z m2 + b2z inc + b2z (i1_valid_out c (s_i1 s)) + b2z (cv_valid_in (s_cv s)) + b2z (cv_valid_in (s_cv s'))) + hcount hist (S n) + (if dec then outb c else 0)
       + (phi (s_cf s) + b2z (cv_valid_in (s_cv s)) - phi (s_cf s')) + (phi (s_ljf s) + b2z (i1_valid_out c (s_i1 s)) - phi (s_ljf s')) + (stale c s + b2z m2 - stale c s') +
       (vir (vb_in (s_vb s)) + 4 * (b2z m2 + b2z inc) - vir (vb_in (s_vb s'))) + (cvr (s_cv s) + 2 * b2z (cv_valid_in (s_cv s')) - cvr (s_cv s')) <= b) end.
    { unfold X. lia. }
    split; [lia|]. intros Hb.
    (* something falls *)
    destruct m1 eqn:Em1; cbn [b2z] in *; [lia|]. destruct m2 eqn:Em2; cbn [b2z] in *; [lia|]. destruct inc eqn:Einc; cbn [b2z] in *; [lia|].
    destruct (i1_valid_out c (s_i1 s)) eqn:Ew; cbn [b2z] in *; [lia|]. destruct (cv_valid_in (s_cv s)) eqn:Ev; cbn [b2z] in *; [lia|]. destruct (cv_valid_in (s_cv s')) eqn:Ev'; cbn [b2z] in *; [lia|].
    destruct dec eqn:Ed; [lia|]. specialize (Hnd eq_refl Hb). destruct (Z.eq_dec (hcount hist (S n)) 0) as [Hz|Hz]; [|lia].
    assert (Vw : vir (vb_in (s_vb s')) < vir (vb_in (s_vb s)) \/ (vi_state (vb_in (s_vb s)) = VI_BURST /\ vi_valid_reg (vb_in (s_vb s)) = false)).
    { pose proof Vi as (V1 & V2 & V3 & V4 & V5 & V6 & V7 & V8 & V9 & V10).
      rewrite Evi. unfold vir, vi_step. unfold inc, vi_inc in Einc. destruct (vi_state (vb_in (s_vb s))) eqn:Es; [| discriminate| |].
      - left. cbn [vi_state]. destruct (vi_valid_buff (vb_in (s_vb s))) eqn:Eb; cbn [andb].
        + assert (Y : vi_ctr_buff (vb_in (s_vb s)) <= conv c) by (apply V9; reflexivity).
          destruct (vi_start (vb_in (s_vb s))) eqn:E2'; [|destruct (V3 eq_refl) as (_ & Y' & _); congruence].
          specialize (V4 eq_refl). replace (vi_ctr_buff (vb_in (s_vb s)) <=? vi_free (vb_in (s_vb s))) with true by lia. lia.
        + destruct (bk_start _ _ _ _ _ B Es Eb) as (_ & _ & Y). rewrite Y. lia.
      - left. cbn [vi_state vi_valid_reg]. unfold m2 in Em2. rewrite V1 in Em2. cbn [andb] in Em2. rewrite Em2. cbn [andb]. lia.
      - right. destruct (vi_valid_reg (vb_in (s_vb s))) eqn:Er; [|auto]. exfalso. cbn [andb] in Einc.
        assert (Y : vi_ctr_reg (vb_in (s_vb s)) <= conv c) by (apply V7; right; reflexivity).
        destruct (vi_start (vb_in (s_vb s))) eqn:E2'; [|destruct (V3 eq_refl) as (Y' & _); congruence]. specialize (V4 eq_refl). lia. }
    destruct Vw as [Vw|[Vs Vr]]; [lia|].
    assert (R2 : ff_rd (s_cf s) = false) by (unfold m2 in Em2; destruct Vi as (V1 & _); rewrite V1, Vs in Em2; exact Em2).
    pose proof (phi_nowrite (cfd c) (s_cf s) (item_pack (cf_db c) (cf_cb c) (cv_enc_in (s_cv s)) (cv_enc_in_ctr (s_cv s)) (cv_in_end (s_cv s))) (vi_latch_input (vb_in (s_vb s))) L1) as P2. cbv zeta in P2. rewrite <- Ecf in P2. destruct P2 as (P21 & P22 & P23 & P24).
    destruct (Z.eq_dec (phi (s_cf s)) 1) as [Ep|Ep]; [specialize (P23 Ep); lia|]. assert (Lv2 : ff_lvl (s_cf s) = 0) by (apply P24; [exact R2|lia]).
    assert (Hq2 : fifo_q (cfd c) (s_cf s) = []). { pose proof (fifo_level_q _ _ Cf) as Y. unfold fifo_level in Y. rewrite Lv2, R2 in Y. destruct (fifo_q (cfd c) (s_cf s)); [reflexivity|cbn in Y; lia]. }
    destruct (s_cf_cf s) eqn:Ecc.
    { assert (stale c s = 1); [|lia]. unfold stale. rewrite Ecc. unfold fifo_level. rewrite Lv2, R2. cbn [b2z andb]. replace (0 + 0 <? cfd c - cf_steps c) with true by lia. reflexivity. }
    destruct (D3 eq_refl) as [D|D]; [lia|].
    assert (Cr : cv_valid_reg (s_cv s) = false /\ ff_rd (s_ljf s) = false /\ cvp (s_cv s) = 0).
    { destruct (v_cv _ _ _ _ _ _ _ _ _ _ I) as (C1 & _). destruct D as [(Y1 & [Y2|(Y2 & Y3)])|(Y1 & Y2)]; [discriminate| |]; (split; [exact Y2|]); (split; [|unfold cvp; rewrite Y1; reflexivity]); [exact Y3|].
      unfold m1 in Em1. rewrite C1, Y1 in Em1. exact Em1. }
    destruct Cr as (Cr1 & R1 & Cr3).
    pose proof (phi_nowrite (ljd c) (s_ljf s) (item_pack (lj_db c) (lj_cb c) (fst (i1_out c (s_i1 s))) (snd (i1_out c (s_i1 s))) (i1_end_out c (s_i1 s))) (cv_latch_output (s_cv s)) L2) as P1. cbv zeta in P1. rewrite <- Elj in P1. destruct P1 as (P11 & P12 & P13 & P14).
    destruct (Z.eq_dec (phi (s_ljf s)) 1) as [Eq|Eq]; [specialize (P13 Eq); lia|]. assert (Lv1 : ff_lvl (s_ljf s) = 0) by (apply P14; [exact R1|lia]).
    assert (Hq1 : fifo_q (ljd c) (s_ljf s) = []). { pose proof (fifo_level_q _ _ Jf) as Y. unfold fifo_level in Y. rewrite Lv1, R1 in Y. destruct (fifo_q (ljd c) (s_ljf s)); [reflexivity|cbn in Y; lia]. }
    right. unfold hollow. rewrite En. auto 12.
  Qed.
  Lemma psi_step (HA : len A = G * H) : psi c (None :: hist) s' <= psi c hist s /\ (in_busy i = false -> psi c (None :: hist) s' < psi c hist s).
  Proof.
    destruct psi_step0 as [X1 X2]. split; [exact X1|]. intros Hb. destruct (X2 Hb) as [X|X]; [exact X|]. exfalso. destruct X as (Q1 & Q2 & Q5 & Q6 & Q7 & Q8 & Q10 & Q11 & _).
    assert (Hnf : ~ finished s) by (intros X; apply Hcl; right; exact X).
    assert (He : vi_end (vb_in (s_vb s)) = false) by (destruct (vi_end (vb_in (s_vb s))) eqn:X; [elim Hcl; left; exact X|reflexivity]).
    assert (vi_end (vb_in (s_vb s)) = true); [|congruence]. eapply empty_full; eassumption.
  Qed.
End step.

(* ------------------------------------------------------------------ the whole core *)

Definition op_inv (c : config) (s : i3_st) : Prop := closing s \/ bk_inv c (conv c) (vb_in (s_vb s)) (s_cf s) (cv_valid_in (s_cv s)).
Lemma closing_dec s : {closing s} + {~ closing s}.
Proof.
  unfold closing. destruct (vi_end (vb_in (s_vb s))) eqn:E; [left; left; reflexivity|]. destruct (finished_dec s) as [F|F]; [left; right; exact F|]. right. intros [X|X]; [discriminate|contradiction].
Qed.
Lemma op_step c t W H G A P done hist s i : cfg_ok c = true -> i3_inv c t W H G A P done hist s -> op_inv c s -> op_inv c (i3_step c (mem_of (bd c) t) s i).
Proof.
  intros Hc I O. destruct (closing_dec s) as [Hcl|Hcl]; [left; eapply closing_step; eassumption|]. destruct O as [O|B]; [contradiction|]. right.
  pose proof (v_cff _ _ _ _ _ _ _ _ _ _ I) as Cf. pose proof (cfg_vb c Hc) as Hvb. pose proof (cfg_cfd c Hc) as Hcfd. pose proof (cv_k_bound c (cfg_cv c Hc)) as (K1 & _). assert (Hst : cf_steps c = cv_k c + 3) by reflexivity.
  assert (Hnf : ~ finished s) by (intros X; apply Hcl; right; exact X).
  assert (He : vi_end (vb_in (s_vb s)) = false) by (destruct (vi_end (vb_in (s_vb s))) eqn:X; [elim Hcl; left; exact X|reflexivity]).
  destruct (v_vb _ _ _ _ _ _ _ _ _ _ I) as [_ Vi]. specialize (Vi Hnf). assert (Hcv1 : 1 <= conv c) by apply (cfg_cv c Hc).
  rewrite st_cf, st_vb. unfold vb_step. cbn [vb_in]. eapply (bk_step c (conv c)) with (v := cv_valid_in (s_cv s)); try assumption; try lia.
  - eapply cf_writable; eassumption.
  - intros E. destruct (v_cv _ _ _ _ _ _ _ _ _ _ I) as (_ & _ & _ & C4 & _). destruct (C4 E) as [X1 X2]. unfold cctr, cf_db, cf_cb. rewrite ctr_pack by assumption. lia.
  - exact (dec_ge0 c (vb_in (s_vb s)) (vb_out (s_vb s)) (in_busy i) He).
Qed.
Lemma op_reset c s0 : is_reset c s0 -> op_inv c s0.
Proof. intros (st1 & d1 & st2 & d2 & rps & L1 & L2 & L3 & ->). right. apply bk_reset. Qed.

Lemma full_noaccept c t W H G A P done hist s i : i3_inv c t W H G A P done hist s -> len A = G * H -> i3_accept s i = false.
Proof. intros I HA. unfold i3_accept, i3_nready. rewrite (v_ne1 _ _ _ _ _ _ _ _ _ _ I). replace (G * H <=? len A) with true by lia. rewrite ?orb_true_r. destruct (in_valid i); cbn; rewrite ?orb_true_r; reflexivity. Qed.

Definition chi (s : i3_st) : Z := 2 * vi_consum (vb_in (s_vb s)) + match vo_state (vb_out (s_vb s)) with VO_BURST => 1 | _ => 0 end.
Definition om (c : config) (hist : hist_t) (s : i3_st) : Z :=
  match vo_state (vb_out (s_vb s)) with
  | VO_END => 0
  | _ => if vi_end (vb_in (s_vb s)) then 1 + chi s else 2 * bufs c + 3 + psi c hist s end.
Lemma om_open c hist s : ~ finished s -> om c hist s = if vi_end (vb_in (s_vb s)) then 1 + chi s else 2 * bufs c + 3 + psi c hist s.
Proof. unfold finished, om. destruct (vo_state (vb_out (s_vb s))); congruence. Qed.
Lemma om_fin c hist s : finished s -> om c hist s = 0.
Proof. unfold finished, om. intros ->. reflexivity. Qed.

Lemma psi_nonneg c t W H G A P done hist s : cfg_ok c = true -> i3_inv c t W H G A P done hist s -> ~ finished s -> 0 <= psi c hist s.
Proof.
  intros Hc I Hnf. destruct (v_vb _ _ _ _ _ _ _ _ _ _ I) as [_ Vi]. specialize (Vi Hnf). destruct Vi as (_ & _ & _ & _ & V5 & _).
  assert (Hcv1 : 1 <= conv c) by apply (cfg_cv c Hc). assert (Hst : 1 <= cv_steps c) by (destruct (cfg_cv c Hc); unfold cv_steps; apply Z.div_le_lower_bound; lia).
  pose proof (vn_nonneg (vb_in (s_vb s))). pose proof (len_nonneg (fifo_q (cfd c) (s_cf s))). pose proof (len_nonneg (fifo_q (ljd c) (s_ljf s))). pose proof (b2z_01 (cv_valid_in (s_cv s))). pose proof (b2z_01 (cv_valid_reg (s_cv s))).
  pose proof (hcount_le hist (latency c)). pose proof (hd_w_bound (latency c) hist).
  assert (0 <= cvp (s_cv s)) by (unfold cvp; destruct (cv_state (s_cv s)); lia). assert (0 <= cvr (s_cv s)) by (unfold cvr; destruct (cv_state (s_cv s)); lia).
  assert (0 <= vir (vb_in (s_vb s))) by (unfold vir; destruct (vi_state (vb_in (s_vb s))); try lia; destruct (_ && _); lia).
  assert (0 <= phi (s_cf s)) by (unfold phi; apply b2z_01). assert (0 <= phi (s_ljf s)) by (unfold phi; apply b2z_01). assert (0 <= stale c s) by (unfold stale; apply b2z_01).
  assert (0 <= gw c) by (unfold gw; nia). unfold psi. nia.
Qed.

(* the last words *)
Lemma chi_step c t W H G A P done hist s i : cfg_ok c = true -> i3_inv c t W H G A P done hist s -> ~ finished s -> vi_end (vb_in (s_vb s)) = true ->
  let s' := i3_step c (mem_of (bd c) t) s i in ~ finished s' -> vi_end (vb_in (s_vb s')) = true /\ chi s' <= chi s /\ (in_busy i = false -> chi s' < chi s).
Proof.
  intros Hc I Hnf He s' Hnf'. assert (E' : vi_end (vb_in (s_vb s')) = true) by (destruct (closing_step c t W H G A P done hist s i Hc I (or_introl He)) as [X|X]; [exact X|contradiction]).
  split; [exact E'|]. pose proof (end_no_items _ _ _ _ _ _ _ _ _ _ I Hnf He) as Hn. destruct (v_vb _ _ _ _ _ _ _ _ _ _ I) as [Vo Vi]. specialize (Vi Hnf).
  assert (Ei : vi_inc (vb_in (s_vb s)) = false) by (pose proof (vi_inc_items c (vb_in (s_vb s)) Vi) as Hinc; destruct (vi_inc (vb_in (s_vb s))); [destruct (Hinc eq_refl) as (_ & _ & X & _); congruence|reflexivity]).
  assert (Hob : 1 <= outb c) by apply (cfg_vb c Hc).
  set (dec := vo_dec c (vb_out (s_vb s)) (vi_consum (vb_in (s_vb s))) (vi_end (vb_in (s_vb s))) (in_busy i)).
  assert (Hfin : dec = true -> outb c < vi_consum (vb_in (s_vb s))).
  { intros X. unfold s', finished in Hnf'. rewrite st_vb in Hnf'. unfold vb_step in Hnf'. cbn [vb_out] in Hnf'. unfold vo_step in Hnf'. fold dec in Hnf'. rewrite X, He in Hnf'. cbn [vo_state] in Hnf'.
    destruct (vo_le c (vi_consum (vb_in (s_vb s)))) eqn:Y; [elim Hnf'; reflexivity|]. unfold vo_le in Y. lia. }
  set (cq := ff_dout (s_cf s)).
  destruct (vi_arith c (vb_in (s_vb s)) (item_enc (cf_db c) (cf_cb c) cq) (item_ctr (cf_db c) (cf_cb c) cq) (item_end (cf_db c) (cf_cb c) cq) (ff_rd (s_cf s)) dec (cfg_vb c Hc) Vi (fun _ => Hn) ltac:(intros X; specialize (Hfin X); lia) (fun X _ => Hfin X)) as (_ & _ & _ & E & _).
  rewrite Ei in E. unfold chi, s'. rewrite st_vb. unfold vb_step. cbn [vb_in vb_out]. fold dec cq. rewrite E. unfold vo_step. fold dec.
  destruct dec eqn:Ed; cbn [vo_state].
  - rewrite He, andb_true_r. specialize (Hfin eq_refl). destruct (vo_le c (vi_consum (vb_in (s_vb s)))); destruct (vo_state (vb_out (s_vb s))); (split; [lia|intros _; lia]).
  - unfold dec, vo_dec in Ed. rewrite He in Ed. unfold finished in Hnf. destruct (vo_state (vb_out (s_vb s))) eqn:Es; [| |congruence].
    + exfalso. unfold vo_ge, vo_le in Ed. lia.
    + destruct (in_busy i); cbn [vo_state]; rewrite ?Es; (split; [lia|intros; try discriminate; lia]).
Qed.

Lemma om_step c t W H G A P done hist s i : cfg_ok c = true -> i3_inv c t W H G A P done hist s -> op_inv c s -> len A = G * H ->
  let s' := i3_step c (mem_of (bd c) t) s i in
  table_ok (bd c) t -> geom (ps c) W H G -> 4 / ps c <= G ->
  om c (None :: hist) s' <= om c hist s /\ (in_busy i = false -> ~ finished s -> om c (None :: hist) s' < om c hist s).
Proof.
  intros Hc I O HA s' Ht Hg HG4. pose proof (full_noaccept c t W H G A P done hist s i I HA) as Ea.
  assert (I' : i3_inv c t W H G A (P ++ vb_emit c (s_vb s) (in_busy i)) (done ++ transferred (s_vb s) (in_busy i)) (None :: hist) s').
  { assert (Hao : acc_ok c W H s i) by (intros X; congruence). pose proof (i3_inv_step c t W H G A P done hist s i Hc Ht Hg HG4 Hao I) as X. unfold i3_new in X. rewrite Ea, app_nil_r in X. exact X. }
  assert (Hb : 0 <= bufs c) by (unfold cfg_ok in Hc; lia).
  destruct (finished_dec s) as [F|F].
  { assert (F' : finished s') by (unfold finished in *; unfold s'; rewrite st_vb; unfold vb_step; cbn [vb_out]; unfold vo_step, vo_dec; rewrite F; exact F). rewrite !om_fin by assumption. split; [lia|intros _ X; contradiction]. }
  assert (Hp : 0 <= psi c hist s) by (eapply psi_nonneg; eassumption).
  assert (Hch : forall x, 0 <= vi_consum (vb_in (s_vb x)) <= bufs c -> 0 <= chi x <= 2 * bufs c + 1) by (intros x X; unfold chi; destruct (vo_state (vb_out (s_vb x))); lia).
  assert (Hcs : chi s >= 0) by (destruct (v_vb _ _ _ _ _ _ _ _ _ _ I) as [_ Vi]; specialize (Vi F); destruct Vi as (_ & _ & _ & _ & V5 & _); specialize (Hch s V5); lia).
  rewrite (om_open c hist s F). destruct (finished_dec s') as [F'|F'].
  { rewrite om_fin by assumption. destruct (vi_end (vb_in (s_vb s))); split; intros; lia. }
  rewrite (om_open c (None :: hist) s' F').
  destruct (vi_end (vb_in (s_vb s))) eqn:He.
  - destruct (chi_step c t W H G A P done hist s i Hc I F He F') as (X1 & X2 & X3). fold s' in X1, X2, X3. rewrite X1. split; [lia|]. intros Y _. specialize (X3 Y). lia.
  - destruct (vi_end (vb_in (s_vb s'))) eqn:He'.
    + destruct (v_vb _ _ _ _ _ _ _ _ _ _ I') as [_ Vi]. specialize (Vi F'). destruct Vi as (_ & _ & _ & _ & V5 & _). specialize (Hch s' V5). split; intros; lia.
    + assert (Hcl : ~ closing s) by (intros [X|X]; [congruence|contradiction]). destruct O as [O|B]; [contradiction|].
      destruct (psi_step c t W H G A P done hist s i Hc I Hcl B HA) as (X1 & X2). fold s' in X1, X2. split; [lia|]. intros Y _. specialize (X2 Y). lia.
Qed.

(* how much can be stored *)
Lemma om_bound c t W H G A P done hist s : cfg_ok c = true -> i3_inv c t W H G A P done hist s -> om c hist s < drain_cycles c.
Proof.
  intros Hc I. pose proof (cfg_cv c Hc) as Hcv. assert (Hcv1 : 1 <= conv c) by apply Hcv. assert (Hst : 1 <= cv_steps c) by (destruct Hcv; unfold cv_steps; apply Z.div_le_lower_bound; lia).
  assert (Hlj : 25 <= ljd c) by (unfold cfg_ok in Hc; lia). assert (Hb : 0 <= bufs c) by (unfold cfg_ok in Hc; lia). assert (Hcf : 0 <= cfd c) by (pose proof (cfg_cfd c Hc); pose proof (cv_k_bound c Hcv) as (K1 & _); assert (cf_steps c = cv_k c + 3) by reflexivity; lia).
  assert (Hd : drain_cycles c = 3 * bufs c + (conv c + 30) * (cfd c + 2) + (gw c + 20) * (ljd c + 1) + 64) by reflexivity.
  assert (Hg2 : (conv c + 40) * cv_steps c <= gw c) by (unfold gw; nia). assert (Hg0 : 0 <= gw c) by (unfold gw; nia).
  assert (Hm1 : 0 <= (conv c + 30) * (cfd c + 2)) by nia. assert (Hm2 : 0 <= (gw c + 20) * (ljd c + 1)) by nia.
  destruct (finished_dec s) as [F|F]; [rewrite om_fin by exact F; lia|]. rewrite om_open by exact F.
  destruct (v_vb _ _ _ _ _ _ _ _ _ _ I) as [_ Vi]. specialize (Vi F). destruct Vi as (_ & _ & _ & _ & V5 & _).
  destruct (vi_end (vb_in (s_vb s))).
  { unfold chi. destruct (vo_state (vb_out (s_vb s))); lia. }
  assert (Hvn : vn (vb_in (s_vb s)) <= 2) by (unfold vn; pose proof (b2z_01 (vi_valid_reg (vb_in (s_vb s)))); pose proof (b2z_01 (vi_valid_buff (vb_in (s_vb s)))); destruct (vi_state (vb_in (s_vb s))); lia).
  destruct (v_cv _ _ _ _ _ _ _ _ _ _ I) as (_ & _ & _ & _ & C5).
  assert (Hp : 0 <= cvp (s_cv s) <= cv_steps c) by (unfold cvp; destruct (cv_state (s_cv s)) as [| | |k]; try lia; specialize (C5 k eq_refl); lia).
  assert (Hw : 0 <= cv_weight c (s_cv s) /\ b2z (cv_valid_in (s_cv s)) <= cv_weight c (s_cv s)).
  { unfold cv_weight. pose proof (b2z_01 (cv_valid_in (s_cv s))). pose proof (cv_k_bound c Hcv) as (K1 & _). pose proof (b2z_01 (cv_valid_reg (s_cv s))). destruct (cv_state (s_cv s)); try lia; nia. }
  destruct (v_cfb _ _ _ _ _ _ _ _ _ _ I) as [Q1 _]. rewrite (fifo_level_q _ _ (v_cff _ _ _ _ _ _ _ _ _ _ I)) in Q1. destruct (v_ljb _ _ _ _ _ _ _ _ _ _ I) as [Q2 _]. rewrite (fifo_level_q _ _ (v_ljf _ _ _ _ _ _ _ _ _ _ I)) in Q2.
  fold (len (fifo_q (cfd c) (s_cf s))) in Q1. fold (len (fifo_q (ljd c) (s_ljf s))) in Q2.
  pose proof (b2z_01 (cv_valid_in (s_cv s))) as b1. pose proof (b2z_01 (cv_valid_reg (s_cv s))) as b2. pose proof (latency_bound c Hc) as Hlat. pose proof (hcount_le hist (latency c)) as Hh. pose proof (hd_w_bound (latency c) hist) as Hw2.
  assert (Hw3 : hd_w (latency c) hist <= 49) by nia.
  assert (cvr (s_cv s) <= 2) by (unfold cvr; destruct (cv_state (s_cv s)); lia). assert (vir (vb_in (s_vb s)) <= 4) by (unfold vir; destruct (vi_state (vb_in (s_vb s))); try lia; destruct (_ && _); lia).
  assert (phi (s_cf s) <= 1) by (unfold phi; apply b2z_01). assert (phi (s_ljf s) <= 1) by (unfold phi; apply b2z_01). assert (stale c s <= 1) by (unfold stale; apply b2z_01).
  assert (T1 : (conv c + 10) * vn (vb_in (s_vb s)) <= (conv c + 10) * 2) by (apply Z.mul_le_mono_nonneg_l; lia).
  assert (T2 : (conv c + 20) * len (fifo_q (cfd c) (s_cf s)) + (conv c + 30) * b2z (cv_valid_in (s_cv s)) <= (conv c + 30) * (cfd c - 1)).
  { assert (X : (conv c + 30) * (len (fifo_q (cfd c) (s_cf s)) + b2z (cv_valid_in (s_cv s))) <= (conv c + 30) * (cfd c - 1)) by (apply Z.mul_le_mono_nonneg_l; lia). pose proof (len_nonneg (fifo_q (cfd c) (s_cf s))). lia. }
  assert (T3 : (conv c + 40) * cvp (s_cv s) <= gw c) by nia.
  assert (T4 : gw c * b2z (cv_valid_reg (s_cv s)) <= gw c) by nia.
  assert (T5 : (gw c + 10) * len (fifo_q (ljd c) (s_ljf s)) + (gw c + 20) * hcount hist (latency c) <= (gw c + 20) * (ljd c - 2)).
  { assert (X : (gw c + 20) * (len (fifo_q (ljd c) (s_ljf s)) + hcount hist (latency c)) <= (gw c + 20) * (ljd c - 2)) by (apply Z.mul_le_mono_nonneg_l; lia). pose proof (len_nonneg (fifo_q (ljd c) (s_ljf s))). lia. }
  unfold psi. lia.
Qed.

Section run.
  Variables (c : config) (t : table) (W H G : Z).
  Hypotheses (Hc : cfg_ok c = true) (Ht : table_ok (bd c) t) (Hg : geom (ps c) W H G) (HG4 : 4 / ps c <= G).
  Let mem := mem_of (bd c) t.
  Lemma op_run : forall ins s A P done hist, run_ok c mem W H s ins -> i3_inv c t W H G A P done hist s -> op_inv c s -> op_inv c (i3_run c mem s ins).
  Proof.
    induction ins as [|i ins IH]; intros s A P done hist R I O; [exact O|]. destruct R as [R1 R2]. cbn [i3_run].
    eapply IH; [exact R2|apply (i3_inv_step c t W H G A P done hist s i); assumption|eapply op_step; eassumption].
  Qed.
  (* once the frame is in, every cycle in which the sink is ready brings the end nearer *)
  Lemma drain_run : forall ins s A P done hist, i3_inv c t W H G A P done hist s -> op_inv c s -> len A = G * H ->
    om c hist s < len (filter (fun i => negb (in_busy i)) ins) -> existsb snd (i3_transfers c mem s ins) = true.
  Proof.
    induction ins as [|i ins IH]; intros s A P done hist I O HA Hn.
    - exfalso. cbn [filter] in Hn. change (len (@nil i3_in)) with 0 in Hn. destruct (finished_dec s) as [F|F]; [rewrite om_fin in Hn by exact F; lia|]. rewrite om_open in Hn by exact F.
      pose proof (psi_nonneg _ _ _ _ _ _ _ _ _ _ Hc I F). destruct (v_vb _ _ _ _ _ _ _ _ _ _ I) as [_ Vi]. specialize (Vi F). destruct Vi as (_ & _ & _ & _ & V5 & _).
      destruct (vi_end (vb_in (s_vb s))); [unfold chi in Hn; destruct (vo_state (vb_out (s_vb s)))|]; lia.
    - cbn [i3_transfers]. fold mem. rewrite existsb_app. cbn [filter] in Hn.
      pose proof (om_step c t W H G A P done hist s i Hc I O HA Ht Hg HG4) as (M1 & M2). fold mem in M1, M2.
      pose proof (full_noaccept c t W H G A P done hist s i I HA) as Ea.
      assert (Hao : acc_ok c W H s i) by (intros X; congruence).
      pose proof (i3_inv_step c t W H G A P done hist s i Hc Ht Hg HG4 Hao I) as I'. unfold i3_new in I'. rewrite Ea, app_nil_r in I'. fold mem in I'.
      assert (O' : op_inv c (i3_step c mem s i)) by (eapply op_step; eassumption).
      destruct (in_busy i) eqn:Eb; cbn [negb] in Hn.
      + rewrite (IH _ _ _ _ _ I' O' HA); [apply orb_true_r|]. lia.
      + change (len (i :: filter (fun i => negb (in_busy i)) ins)) with (len ([i] ++ filter (fun i => negb (in_busy i)) ins)) in Hn. rewrite len_app in Hn. change (len [i]) with 1 in Hn.
        destruct (finished_dec s) as [F|F].
        * destruct (v_vb _ _ _ _ _ _ _ _ _ _ I) as [Vo _]. unfold vo_inv in Vo. unfold finished in F. rewrite F in Vo. destruct Vo as [V1 V2]. unfold i3_valid_out, i3_data_out, i3_end_out. rewrite V1, V2. reflexivity.
        * rewrite (IH _ _ _ _ _ I' O' HA); [apply orb_true_r|]. specialize (M2 eq_refl F). lia.
  Qed.
End run.
