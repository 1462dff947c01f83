(* No deadlock, continued: a measure that falls in every cycle without acceptance and without output. *)
From Verif Require Import Bits Spec Spec_Core M_Config M_Signals M_Predictor M_Difference M_Encode M_Merge M_I1 M_Fifo M_Converter M_VBits M_I3
  P_Fifo P_Encode P_Merge P_Signals P_Predictor P_I1 P_Tokens P_Converter P_VBits P_I3 P_Decode P_Run P_Live.
Ltac Zify.zify_post_hook ::= idtac.

(* groups in the pipeline, weighted by the cycles they still need *)
Fixpoint hd_w (n : nat) (hist : hist_t) : Z :=
  match n, hist with S m, h :: r => (if is_some h then Z.of_nat n else 0) + hd_w m r | _, _ => 0 end.
Lemma hd_w_S m : forall hist, hd_w (S m) hist = hd_w m hist + hcount hist (S m).
Proof.
  induction m as [|m IH]; intros [|h r]; try reflexivity.
  - unfold hcount. cbn. destruct (is_some h); reflexivity.
  - rewrite hcount_cons. change (hd_w (S (S m)) (h :: r)) with ((if is_some h then Z.of_nat (S (S m)) else 0) + hd_w (S m) r).
    change (hd_w (S m) (h :: r)) with ((if is_some h then Z.of_nat (S m) else 0) + hd_w m r). rewrite IH. destruct (is_some h); cbn [b2z]; lia.
Qed.
Lemma hd_w_bound n : forall hist, 0 <= hd_w n hist <= Z.of_nat n * Z.of_nat n.
Proof.
  induction n as [|n IH]; intros hist; [destruct hist; cbn; lia|]. rewrite hd_w_S. pose proof (hcount_le hist (S n)). specialize (IH hist). lia.
Qed.

Definition viw (s : i3_st) : Z := match vi_state (vb_in (s_vb s)) with VI_INPUT => 3 | VI_CLEAN => 2 | VI_REGISTER => 1 | VI_BURST => 0 end.
Definition cvw (s : i3_st) : Z := match cv_state (s_cv s) with CV_IDLE => 2 | CV_BURST_PREPARE => 1 | _ => 0 end.
Definition phi (f : fifo_st) : Z := b2z (negb (ff_rd f) && (0 <? ff_lvl f)).
Definition rstw (s : i3_st) : Z := if s_nready_reset s then 0 else 8 - s_nready_ctr s.
Definition minor (c : config) (hist : hist_t) (s : i3_st) : Z :=
  1000 * hd_w (latency c) hist + 100 * viw s + 20 * cvw s + 5 * phi (s_cf s) + 5 * phi (s_ljf s) + 2 * b2z (s_cf_cf s) + b2z (s_lj_cf s) + rstw s.
Definition mu (c : config) (t : table) (hist : hist_t) (s : i3_st) : Z := 100000 * bigsum c t hist s + minor c hist s.

Lemma b2z_01 b : 0 <= b2z b <= 1.
Proof. destruct b; cbn; lia. Qed.
Lemma minor_bound c hist s : cfg_ok c = true -> 0 <= s_nready_ctr s <= 7 -> 0 <= minor c hist s < 50000.
Proof.
  intros Hc Hr. pose proof (latency_bound c Hc) as Hl. pose proof (hd_w_bound (latency c) hist) as B.
  assert (0 <= viw s <= 3) by (unfold viw; destruct (vi_state (vb_in (s_vb s))); lia).
  assert (0 <= cvw s <= 2) by (unfold cvw; destruct (cv_state (s_cv s)); lia).
  assert (0 <= rstw s <= 8) by (unfold rstw; destruct (s_nready_reset s); lia).
  assert (Z.of_nat (latency c) * Z.of_nat (latency c) <= 49) by nia.
  pose proof (b2z_01 (negb (ff_rd (s_cf s)) && (0 <? ff_lvl (s_cf s)))). pose proof (b2z_01 (negb (ff_rd (s_ljf s)) && (0 <? ff_lvl (s_ljf s)))).
  pose proof (b2z_01 (s_cf_cf s)). pose proof (b2z_01 (s_lj_cf s)). unfold minor, phi. lia.
Qed.

(* nothing moves inside the core *)
Definition quiet (c : config) (hist : hist_t) (s : i3_st) : Prop :=
  hcount hist (latency c) = 0 /\ ff_lvl (s_ljf s) = 0 /\ ff_rd (s_ljf s) = false /\ s_lj_cf s = false /\
  cv_valid_in (s_cv s) = false /\ cv_valid_reg (s_cv s) = false /\ (cv_state (s_cv s) = CV_IDLE \/ cv_state (s_cv s) = CV_BURST) /\
  ff_lvl (s_cf s) = 0 /\ ff_rd (s_cf s) = false /\ vi_state (vb_in (s_vb s)) = VI_BURST /\ vi_valid_reg (vb_in (s_vb s)) = false /\
  s_nready_reset s = true.

Section fields.
  Variables (c : config) (mem : list Z) (s : i3_st) (i : i3_in).
  Let s' := i3_step c mem s i.
  Lemma st_ljf : s_ljf s' = fifo_step (ljd c) (s_ljf s) (i1_valid_out c (s_i1 s))
    (item_pack (lj_db c) (lj_cb c) (fst (i1_out c (s_i1 s))) (snd (i1_out c (s_i1 s))) (i1_end_out c (s_i1 s))) (cv_latch_output (s_cv s)).
  Proof. unfold s', i3_step. destruct (i1_out c (s_i1 s)). reflexivity. Qed.
  Lemma st_ljcf : s_lj_cf s' = (ljd c - 10 <=? fifo_level (s_ljf s)).
  Proof. unfold s', i3_step. destruct (i1_out c (s_i1 s)). reflexivity. Qed.
  Lemma st_cv : s_cv s' = cv_step c (s_cv s) (item_enc (lj_db c) (lj_cb c) (ff_dout (s_ljf s))) (item_ctr (lj_db c) (lj_cb c) (ff_dout (s_ljf s)))
    (item_end (lj_db c) (lj_cb c) (ff_dout (s_ljf s))) (ff_rd (s_ljf s)) (s_cf_cf s).
  Proof. unfold s', i3_step. destruct (i1_out c (s_i1 s)). reflexivity. Qed.
  Lemma st_cf : s_cf s' = fifo_step (cfd c) (s_cf s) (cv_valid_in (s_cv s))
    (item_pack (cf_db c) (cf_cb c) (cv_enc_in (s_cv s)) (cv_enc_in_ctr (s_cv s)) (cv_in_end (s_cv s))) (vi_latch_input (vb_in (s_vb s))).
  Proof. unfold s', i3_step. destruct (i1_out c (s_i1 s)). reflexivity. Qed.
  Lemma st_cfcf : s_cf_cf s' = (cfd c - cf_steps c <=? fifo_level (s_cf s)).
  Proof. unfold s', i3_step. destruct (i1_out c (s_i1 s)). reflexivity. Qed.
  Lemma st_vb : s_vb s' = vb_step c (s_vb s) (item_enc (cf_db c) (cf_cb c) (ff_dout (s_cf s))) (item_ctr (cf_db c) (cf_cb c) (ff_dout (s_cf s)))
    (item_end (cf_db c) (cf_cb c) (ff_dout (s_cf s))) (ff_rd (s_cf s)) (in_busy i).
  Proof. unfold s', i3_step. destruct (i1_out c (s_i1 s)). reflexivity. Qed.
  Lemma st_rst : s_nready_reset s' = (if s_nready_ctr s =? 7 then true else s_nready_reset s) /\ s_nready_ctr s' = trunc 3 (s_nready_ctr s + 1).
  Proof. unfold s', i3_step. destruct (i1_out c (s_i1 s)). auto. Qed.
End fields.

(* a fifo without write: the flag phi *)
Lemma phi_nowrite D f din re : 0 <= ff_lvl f -> let f' := fifo_step D f false din re in
  phi f' <= phi f /\ ff_lvl f' <= ff_lvl f /\ (phi f = 1 -> phi f' = 0) /\ (ff_rd f = false -> phi f = 0 -> ff_lvl f = 0).
Proof.
  intros B f'. unfold f', phi, fifo_step. cbn [ff_rd ff_lvl]. rewrite andb_false_r. cbn [negb andb].
  destruct (ff_lvl f =? 0) eqn:E; cbn [negb andb].
  - assert (E0 : ff_lvl f = 0) by lia. rewrite E0. cbn. rewrite !andb_false_r. cbn. destruct re; cbn; rewrite ?andb_false_r; cbn; repeat split; lia.
  - destruct (ff_rd f) eqn:Er; cbn [negb orb].
    + destruct re; cbn [negb andb orb]; rewrite ?Er; cbn; repeat split; try lia; discriminate.
    + replace (0 <? ff_lvl f) with true by lia. cbn. repeat split; try lia.
Qed.

Lemma quiet_stable c mem hist s i : cfg_ok c = true -> i1_inv c mem (s_i1 s) hist -> quiet c hist s -> quiet c (None :: hist) (i3_step c mem s i).
Proof.
  intros Hc Ii1 (Q1 & Q2 & Q3 & Q4 & Q5 & Q6 & Q7 & Q8 & Q9 & Q10 & Q11 & Q12).
  pose proof (latency_bound c Hc) as Hl. destruct (latency c) as [|n] eqn:En; [lia|].
  pose proof (hcount_S hist n) as HS. pose proof (hcount_le hist n).
  destruct (i1_inv_out c mem (s_i1 s) hist Hc Ii1) as [Hvo _]. rewrite En in Hvo. replace (S n - 1)%nat with n in Hvo by lia. rewrite <- Hvo in HS.
  assert (Hv : i1_valid_out c (s_i1 s) = false) by (destruct (i1_valid_out c (s_i1 s)); [cbn [b2z] in HS; lia|reflexivity]).
  rewrite Hv in HS. cbn [b2z] in HS.
  unfold quiet. rewrite En, hcount_cons, st_ljf, st_ljcf, st_cv, st_cf, st_vb. destruct (st_rst c mem s i) as [-> _]. rewrite Q3, Q5, Q9, Q12, Hv. cbn [is_some b2z].
  split; [lia|]. unfold fifo_step, fifo_level, vb_step, vi_step. cbn [ff_lvl ff_rd vb_in]. rewrite Q2, Q3, Q8, Q9, Q10, Q11. cbn [b2z negb andb Z.eqb]. rewrite !andb_false_r. cbn [andb].
  split; [reflexivity|]. split; [destruct (cv_latch_output (s_cv s)); reflexivity|]. split; [unfold cfg_ok in Hc; lia|].
  assert (C : cv_valid_in (cv_step c (s_cv s) (item_enc (lj_db c) (lj_cb c) (ff_dout (s_ljf s))) (item_ctr (lj_db c) (lj_cb c) (ff_dout (s_ljf s))) (item_end (lj_db c) (lj_cb c) (ff_dout (s_ljf s))) false (s_cf_cf s)) = false /\
    cv_valid_reg (cv_step c (s_cv s) (item_enc (lj_db c) (lj_cb c) (ff_dout (s_ljf s))) (item_ctr (lj_db c) (lj_cb c) (ff_dout (s_ljf s))) (item_end (lj_db c) (lj_cb c) (ff_dout (s_ljf s))) false (s_cf_cf s)) = false /\
    (cv_state (cv_step c (s_cv s) (item_enc (lj_db c) (lj_cb c) (ff_dout (s_ljf s))) (item_ctr (lj_db c) (lj_cb c) (ff_dout (s_ljf s))) (item_end (lj_db c) (lj_cb c) (ff_dout (s_ljf s))) false (s_cf_cf s)) = CV_IDLE \/ 
     cv_state (cv_step c (s_cv s) (item_enc (lj_db c) (lj_cb c) (ff_dout (s_ljf s))) (item_ctr (lj_db c) (lj_cb c) (ff_dout (s_ljf s))) (item_end (lj_db c) (lj_cb c) (ff_dout (s_ljf s))) false (s_cf_cf s)) = CV_BURST)).
  { unfold cv_step, cv_try. destruct Q7 as [-> | ->]; rewrite Q6; cbn; auto. }
  destruct C as (C1 & C2 & C3). split; [exact C1|]. split; [exact C2|]. split; [exact C3|]. split; [reflexivity|]. split; [destruct (vi_latch_input (vb_in (s_vb s))); reflexivity|].
  cbn [vi_state vi_valid_reg]. repeat split. destruct (s_nready_ctr s =? 7); reflexivity.
Qed.

Lemma live_step c t W H G A P done hist s i :
  cfg_ok c = true -> table_ok (bd c) t -> geom (ps c) W H G -> 4 / ps c <= G ->
  i3_inv c t W H G A P done hist s -> 0 <= s_nready_ctr s <= 7 ->
  ~ finished s -> ~ pending c s -> i3_accept s i = false ->
  let s' := i3_step c (mem_of (bd c) t) s i in
  ~ pending c s' -> quiet c hist s \/ mu c t (None :: hist) s' < mu c t hist s.
Proof.
  intros Hc Ht Hg HG4 I Hr Hnf Hnp Hacc s' Hnp'.
  destruct (step_moves c t W H G A P done hist s i Hc Ht Hg HG4 I Hnf Hnp Hacc Hnp') as (y1 & x2 & x1 & w & B & B1 & B2 & B3 & B4 & M1 & M2 & M3 & M4 & M5 & M6).
  fold s' in B, M6.
  assert (Hr' : 0 <= s_nready_ctr s' <= 7).
  { unfold s'. destruct (st_rst c (mem_of (bd c) t) s i) as [_ ->]. unfold trunc. change (2 ^ 3) with 8. pose proof (Z.mod_pos_bound (s_nready_ctr s + 1) 8). lia. }
  pose proof (minor_bound c hist s Hc Hr) as N1. pose proof (minor_bound c (None :: hist) s' Hc Hr') as N2.
  assert (Zo : 0 <= z_o s /\ 0 <= z_o s') by (split; apply len_nonneg). destruct Zo as [Zo1 Zo2].
  destruct (Z.eq_dec (y1 + x2 + z_o s + z_o s' + x1 + w) 0) as [E0|E0]; [|right; unfold mu; lia].
  unfold mu. replace (bigsum c t (None :: hist) s') with (bigsum c t hist s) by lia.
  assert (F1 : vi_inc (vb_in (s_vb s)) = false) by (destruct (vi_inc (vb_in (s_vb s))); [specialize (M1 eq_refl); lia|reflexivity]).
  assert (F2 : moved2 s = false) by (destruct (moved2 s); [specialize (M2 eq_refl); lia|reflexivity]).
  assert (F3 : moved1 s = false) by (destruct (moved1 s); [specialize (M3 eq_refl); lia|reflexivity]).
  assert (F4 : i1_valid_out c (s_i1 s) = false) by (destruct (i1_valid_out c (s_i1 s)); [specialize (M4 eq_refl); lia|reflexivity]).
  assert (F5 : cv_valid_in (s_cv s) = false) by (destruct (cv_valid_in (s_cv s)); [specialize (M5 eq_refl); lia|reflexivity]).
  assert (F6 : cv_valid_in (s_cv s') = false) by (destruct (cv_valid_in (s_cv s')); [specialize (M6 eq_refl); lia|reflexivity]).
  clear M1 M2 M3 M4 M5 M6 B B1 B2 B3 B4 E0 Zo1 Zo2 y1 x2 x1 w.
  (* pipeline *)
  pose proof (latency_bound c Hc) as Hl. destruct (latency c) as [|n] eqn:En; [lia|].
  pose proof (hd_w_S n hist) as Hh. pose proof (hcount_le hist (S n)) as Hcn.
  assert (Hh' : hd_w (S n) (None :: hist) = hd_w n hist) by reflexivity.
  (* packer *)
  destruct I as [Ilen IA Isig Ipred Ii1 Ihist Ine1 Ine2 Iljf Iljw Iljb Icv Icff Icfw Icfb Ivb Idone Iend Itok].
  destruct Ivb as [_ Ivi]. specialize (Ivi Hnf). destruct Ivi as (V1 & V2 & V3 & V4 & V5 & V6 & V7 & V8 & V9 & V10).
  assert (Hfree : vi_start (vb_in (s_vb s)) = true -> conv c < vi_free (vb_in (s_vb s))).
  { intros E. specialize (V4 E). unfold pending in Hnp. unfold cfg_ok in Hc. lia. }
  assert (Vw : viw s' < viw s \/ (vi_state (vb_in (s_vb s)) = VI_BURST /\ vi_valid_reg (vb_in (s_vb s)) = false /\ viw s' = 0 /\ viw s = 0)).
  { unfold viw, s'. rewrite st_vb. unfold vb_step. cbn [vb_in]. unfold vi_step, vi_inc in *. destruct (vi_state (vb_in (s_vb s))) eqn:Es; [| discriminate| |].
    - left. cbn [vi_state]. destruct (vi_valid_buff (vb_in (s_vb s))) eqn:Eb; cbn [andb].
      + assert (X : vi_ctr_buff (vb_in (s_vb s)) <= conv c) by (apply V9; reflexivity).
        destruct (vi_start (vb_in (s_vb s))) eqn:E2; [|destruct (V3 eq_refl) as (_ & Y & _); congruence].
        specialize (Hfree eq_refl). replace (vi_ctr_buff (vb_in (s_vb s)) <=? vi_free (vb_in (s_vb s))) with true by lia. lia.
      + destruct (vi_valid_reg (vb_in (s_vb s))); lia.
    - left. cbn [vi_state]. lia.
    - right. destruct (vi_valid_reg (vb_in (s_vb s))) eqn:Ev; cbn [andb] in *.
      + assert (X : vi_ctr_reg (vb_in (s_vb s)) <= conv c) by (apply V7; right; reflexivity).
        destruct (vi_start (vb_in (s_vb s))) eqn:E2; [|destruct (V3 eq_refl) as (Y & _); congruence].
        specialize (Hfree eq_refl). lia.
      + cbn. auto. }
  (* fifos *)
  assert (L1 : 0 <= ff_lvl (s_cf s)) by (destruct Icff; lia). assert (L2 : 0 <= ff_lvl (s_ljf s)) by (destruct Iljf; lia).
  pose proof (phi_nowrite (cfd c) (s_cf s) (item_pack (cf_db c) (cf_cb c) (cv_enc_in (s_cv s)) (cv_enc_in_ctr (s_cv s)) (cv_in_end (s_cv s))) (vi_latch_input (vb_in (s_vb s))) L1) as P2.
  cbv zeta in P2. assert (Ecf := st_cf c (mem_of (bd c) t) s i). rewrite F5 in Ecf. fold s' in Ecf. rewrite <- Ecf in P2. clear Ecf. destruct P2 as (P21 & P22 & P23 & P24).
  pose proof (phi_nowrite (ljd c) (s_ljf s) (item_pack (lj_db c) (lj_cb c) (fst (i1_out c (s_i1 s))) (snd (i1_out c (s_i1 s))) (i1_end_out c (s_i1 s))) (cv_latch_output (s_cv s)) L2) as P1.
  cbv zeta in P1. assert (Elj := st_ljf c (mem_of (bd c) t) s i). rewrite F4 in Elj. fold s' in Elj. rewrite <- Elj in P1. clear Elj. destruct P1 as (P11 & P12 & P13 & P14).
  assert (Ph : 0 <= phi (s_cf s) <= 1 /\ 0 <= phi (s_ljf s) <= 1 /\ 0 <= phi (s_cf s') <= 1 /\ 0 <= phi (s_ljf s') <= 1) by (unfold phi; repeat split; apply b2z_01).
  destruct Ph as (Ph1 & Ph2 & Ph3 & Ph4).
  (* converter *)
  destruct Icv as (C1 & C2 & C3 & C4 & C5).
  assert (Cw : cvw s' <= cvw s /\ 0 <= cvw s' <= 2 /\ 0 <= cvw s <= 2 /\
    (s_cf_cf s = false -> cvw s' < cvw s \/ ((cv_state (s_cv s) = CV_IDLE \/ cv_state (s_cv s) = CV_BURST) /\ cv_valid_reg (s_cv s) = false /\ ff_rd (s_ljf s) = false))).
  { unfold moved1 in F3. revert F6. unfold cvw, s'. rewrite st_cv. unfold cv_step, cv_try. rewrite C1 in F3. destruct (cv_state (s_cv s)) as [| | |k] eqn:Es.
    - destruct (cv_valid_reg (s_cv s)), (ff_rd (s_ljf s)), (s_cf_cf s); cbn; intros _; repeat split; try lia; try discriminate; intros _; auto; left; lia.
    - cbn. intros _. repeat split; try lia.
    - cbn [andb] in F3. destruct (cv_valid_reg (s_cv s)); [destruct (cv_ctr_reg (s_cv s) <=? conv c); cbn [cv_valid_in]; discriminate|]. cbn. intros _. repeat split; try lia. intros _. right. auto.
    - destruct k; [destruct (cv_valid_reg (s_cv s)), (ff_rd (s_ljf s)), (s_cf_cf s)|]; cbn; discriminate. }
  destruct Cw as (Cw1 & Cw2 & Cw3 & Cw4).
  assert (Rw : 0 <= rstw s' <= rstw s /\ rstw s <= 8 /\ (s_nready_reset s = false -> rstw s' < rstw s)).
  { unfold rstw. destruct (st_rst c (mem_of (bd c) t) s i) as [E1 E2]. fold s' in E1, E2. rewrite E1, E2. unfold trunc. change (2 ^ 3) with 8. destruct (s_nready_ctr s =? 7) eqn:E7.
    - destruct (s_nready_reset s); repeat split; try lia; discriminate.
    - rewrite Z.mod_small by lia. destruct (s_nready_reset s); repeat split; try lia; discriminate. }
  destruct Rw as (Rw1 & Rw2 & Rw3).
  assert (Ec1 : s_cf_cf s' = (cfd c - cf_steps c <=? fifo_level (s_cf s))) by (unfold s'; apply st_cfcf).
  assert (Ec2 : s_lj_cf s' = (ljd c - 10 <=? fifo_level (s_ljf s))) by (unfold s'; apply st_ljcf).
  pose proof (b2z_01 (s_cf_cf s)). pose proof (b2z_01 (s_cf_cf s')). pose proof (b2z_01 (s_lj_cf s)). pose proof (b2z_01 (s_lj_cf s')).
  assert (0 <= viw s <= 3 /\ 0 <= viw s' <= 3) as [Vb1 Vb2] by (unfold viw; split; [destruct (vi_state (vb_in (s_vb s)))|destruct (vi_state (vb_in (s_vb s')))]; lia).
  unfold minor. rewrite En, Hh'.
  destruct (Z.eq_dec (hcount hist (S n)) 0) as [Hz|Hz]; [|right; lia].
  destruct Vw as [Vw|(Vs & Vr & Vw1 & Vw2)]; [right; lia|].
  assert (R2 : ff_rd (s_cf s) = false) by (unfold moved2 in F2; rewrite V1, Vs in F2; exact F2).
  destruct (Z.eq_dec (phi (s_cf s)) 1) as [Ep|Ep]; [right; specialize (P23 Ep); lia|].
  assert (Lv2 : ff_lvl (s_cf s) = 0) by (apply P24; [exact R2|lia]).
  assert (Ec1' : s_cf_cf s' = false).
  { rewrite Ec1. unfold fifo_level. rewrite Lv2, R2. cbn [b2z]. pose proof (cfg_cfd c Hc). lia. }
  rewrite Ec1' in *. cbn [b2z] in *.
  destruct (s_cf_cf s) eqn:Ecc; [right; cbn [b2z]; lia|]. cbn [b2z] in *.
  destruct (Cw4 eq_refl) as [Cx|(Cs & Cr & R1)]; [right; lia|].
  destruct (Z.eq_dec (phi (s_ljf s)) 1) as [Eq|Eq]; [right; specialize (P13 Eq); lia|].
  assert (Lv1 : ff_lvl (s_ljf s) = 0) by (apply P14; [exact R1|lia]).
  assert (Ec2' : s_lj_cf s' = false).
  { rewrite Ec2. unfold fifo_level. rewrite Lv1, R1. cbn [b2z]. unfold cfg_ok in Hc. lia. }
  rewrite Ec2' in *. cbn [b2z] in *.
  destruct (s_lj_cf s) eqn:Elc; [right; cbn [b2z]; lia|]. cbn [b2z] in *.
  destruct (s_nready_reset s) eqn:Err; [|right; specialize (Rw3 eq_refl); lia].
  left. unfold quiet. rewrite En. repeat split; assumption.
Qed.
