(* Throughput, continued: one clock cycle of the complete encoder. *)
From Verif Require Import Bits Spec Spec_Core M_Config M_Signals M_Predictor M_Difference M_Encode M_Merge M_I1 M_Fifo M_Converter M_VBits M_I3
  P_Fifo P_Encode P_Merge P_Signals P_Predictor P_I1 P_Tokens P_Converter P_VBits P_I3 P_Decode P_Run P_Live P_Live2 P_Rate P_Rate2 P_Rate3 Props_Arith Props_Core Props_Live.
Ltac Zify.zify_post_hook ::= idtac.

(* the end mark has reached the packer's buffer *)
Definition closing (s : i3_st) : Prop := vi_end (vb_in (s_vb s)) = true \/ finished s.

Lemma closing_step c t W H G A P done hist s i : cfg_ok c = true -> i3_inv c t W H G A P done hist s -> closing s -> closing (i3_step c (mem_of (bd c) t) s i).
Proof.
  intros Hc I Hcl. destruct (finished_dec s) as [Hf|Hnf].
  - right. unfold finished in *. rewrite st_vb. unfold vb_step. cbn [vb_out]. unfold vo_step, vo_dec. rewrite Hf. exact Hf.
  - destruct Hcl as [He|Hf]; [left|contradiction]. pose proof (end_no_items _ _ _ _ _ _ _ _ _ _ I Hnf He) as Hn.
    pose proof (v_vb _ _ _ _ _ _ _ _ _ _ I) as [_ Vi]. specialize (Vi Hnf). pose proof (vi_inc_items c (vb_in (s_vb s)) Vi) as Hinc.
    assert (Ei : vi_inc (vb_in (s_vb s)) = false) by (destruct (vi_inc (vb_in (s_vb s))); [destruct (Hinc eq_refl) as (_ & _ & X & _); congruence|reflexivity]).
    rewrite st_vb. unfold vb_step. cbn [vb_in]. unfold vi_step. rewrite Ei. destruct (vi_state (vb_in (s_vb s))); cbn [vi_end]; exact He.
Qed.

Lemma open_frame c t W H G A P done hist s : i3_inv c t W H G A P done hist s -> len A < G * H -> ~ closing s.
Proof.
  intros I Hl Hcl. pose proof (v_tok _ _ _ _ _ _ _ _ _ _ I) as T. unfold frame_toks in T. replace (len A =? G * H) with false in T by lia. rewrite app_nil_r in T.
  assert (N : ~ In None (map (@Some bool) (ref_encode t (bd c) W [] (concat A)))) by (intros X; apply in_map_iff in X; destruct X as (? & X & _); discriminate). apply N. rewrite <- T. clear N.
  destruct (finished_dec s) as [Hf|Hnf].
  - destruct (v_end _ _ _ _ _ _ _ _ _ _ I Hf) as [p ->]. apply in_app_iff. left. apply in_app_iff. right. left. reflexivity.
  - destruct Hcl as [He|Hf]; [|contradiction]. apply in_app_iff. right. apply in_app_iff. left. unfold vb_pend. unfold finished in Hnf. 
    assert (Ep : match vo_state (vb_out (s_vb s)) with VO_END => [] | _ => vi_pend (vb_in (s_vb s)) end = vi_pend (vb_in (s_vb s))) by (destruct (vo_state (vb_out (s_vb s))); congruence).
    rewrite Ep. unfold vi_pend, tk. rewrite He. apply in_app_iff. left. apply in_app_iff. right. left. reflexivity.
Qed.

(* the group accepted in this cycle *)
Lemma new_size c t W H G A P done hist s i M : cfg_ok c = true -> geom (ps c) W H G -> 4 / ps c <= G -> i3_inv c t W H G A P done hist s -> acc_ok c W H s i -> 0 <= M ->
  (i3_accept s i = true -> len (ref_encode t (bd c) W (concat A) (in_px i)) <= M) -> gsize t (i3_new c G A s i) <= M.
Proof.
  intros Hc Hg HG4 I Hok HM Hs. unfold i3_new. destruct (i3_accept s i) eqn:Ea; [|exact HM]. specialize (Hs eq_refl). destruct (Hok Ea) as ((L1 & _) & _).
  assert (Hps : ps c = 1 \/ ps c = 2 \/ ps c = 4) by (unfold cfg_ok in Hc; lia).
  assert (HWG : W = G * ps c) by (unfold geom in Hg; lia).
  assert (HG2 : 2 <= G) by (unfold geom in Hg; lia).
  rewrite HWG in Hs. pose proof (ref_encode_group t (bd c) (ps c) G A (in_px i) Hps HG2 HG4) as Q. rewrite Q in Hs; try assumption.
  eapply Forall_impl; [|exact (v_A _ _ _ _ _ _ _ _ _ _ I)]. intros g [X _]; exact X.
Qed.

Lemma dec_ge0 c i o busy : vi_end i = false -> vo_dec c o (vi_consum i) (vi_end i) busy = true -> outb c <= vi_consum i.
Proof.
  intros He. unfold vo_dec, vo_ge, vo_le. rewrite He. destruct (vo_state o); [rewrite andb_false_r, orb_false_r; lia| |discriminate].
  destruct busy; cbn [negb andb]; [discriminate|lia].
Qed.
Lemma nodec0 c i o busy : vi_end i = false -> vo_state o <> VO_END -> vo_dec c o (vi_consum i) (vi_end i) busy = false -> busy = false -> vi_consum i < outb c.
Proof.
  intros He Hv. unfold vo_dec, vo_ge, vo_le. rewrite He. destruct (vo_state o); [rewrite andb_false_r, orb_false_r; lia| |congruence].
  intros X ->. cbn [negb andb] in X. lia.
Qed.

(* what one cycle hands to the packer's invariants *)
Lemma cf_facts c t W H G A P done hist s M : cfg_ok c = true -> i3_inv c t W H G A P done hist s -> fr_inv c t M hist s -> fifo_level (s_cf s) <= cfd c - 2 ->
  3 <= cfd c /\ (cv_valid_in (s_cv s) = true -> fifo_writable (cfd c) (s_cf s) = true) /\
  (cv_valid_in (s_cv s) = true -> cctr c (item_pack (cf_db c) (cf_cb c) (cv_enc_in (s_cv s)) (cv_enc_in_ctr (s_cv s)) (cv_in_end (s_cv s))) <= M).
Proof.
  intros Hc I Fr Hl. pose proof (cfg_cfd c Hc). pose proof (cv_k_bound c (cfg_cv c Hc)) as (K1 & _). assert (cf_steps c = cv_k c + 3) by reflexivity. split; [lia|]. split.
  - intros _. apply fifo_writable_level; [apply (v_cff _ _ _ _ _ _ _ _ _ _ I)|exact Hl].
  - intros E. destruct (v_cv _ _ _ _ _ _ _ _ _ _ I) as (_ & _ & _ & C4 & _). destruct (C4 E) as [X1 X2]. unfold cctr, cf_db, cf_cb. rewrite ctr_pack by assumption. apply (fr_in _ _ _ _ _ Fr E).
Qed.

Definition rate_cond (c : config) (M r Dm E0 : Z) : Prop :=
  1 <= M <= conv c /\ 0 <= r /\ 0 <= Dm /\ (1 + r) * M <= outb c /\ 2 * M + outb c - 1 + low c M r Dm <= bufs c /\ top c M r Dm E0 - low c M r Dm < M * (cfd c - cf_steps c).

Record rt_inv (c : config) (t : table) (M r Dm E0 : Z) (hist : hist_t) (s : i3_st) (D E : Z) : Prop := {
  rt_fr : fr_inv c t M hist s;
  rt_bk : bk_inv c M (vb_in (s_vb s)) (s_cf s) (cv_valid_in (s_cv s));
  rt_pot : pot_ok c M r Dm E0 (vb_in (s_vb s)) (s_cf s) (cv_valid_in (s_cv s)) (vb_out (s_vb s)) D E;
  rt_cf : s_cf_cf s = false }.

Lemma vn_nonneg i : 0 <= vn i.
Proof. unfold vn. pose proof (b2z_01 (vi_valid_reg i)). pose proof (b2z_01 (vi_valid_buff i)). destruct (vi_state i); lia. Qed.

(* few items wait *)
Lemma pot_level c M r Dm E0 i f v o D E : rate_cond c M r Dm E0 -> fifo_inv (cfd c) f -> pot_ok c M r Dm E0 i f v o D E -> 0 <= E -> fifo_level f <= waiting c i f v /\ waiting c i f v < cfd c - cf_steps c.
Proof.
  intros (H1 & H2 & H3 & H4 & H5 & H6) Hf [P _] HE. pose proof (vn_nonneg i). pose proof (b2z_01 v). split.
  - unfold waiting, len. rewrite <- (fifo_level_q _ _ Hf). lia.
  - unfold potential in P. assert (0 <= M * E) by nia. assert (M * waiting c i f v < M * (cfd c - cf_steps c)) by lia. apply Z.mul_lt_mono_pos_l in H8; lia.
Qed.

Lemma rt_step c t M r Dm E0 W H G A P done hist s i D E D' E' :
  cfg_ok c = true -> table_ok (bd c) t -> rate_cond c M r Dm E0 ->
  i3_inv c t W H G A P done hist s -> ~ closing s -> gsize t (i3_new c G A s i) <= M ->
  0 <= D <= Dm -> 0 <= D' <= Dm -> 0 <= E' -> E' <= E -> E <= E0 ->
  D' + E' <= D + E - b2z (in_busy i) + r * b2z (i3_valid_out s && negb (in_busy i)) ->
  rt_inv c t M r Dm E0 hist s D E -> rt_inv c t M r Dm E0 (i3_new c G A s i :: hist) (i3_step c (mem_of (bd c) t) s i) D' E'.
Proof.
  intros Hc Ht HR I Hcl Hg HD HD' HE HE1 HE2 Hcr [R1 R2 R3 R4]. pose proof HR as (H1 & H2 & H3 & H4 & H5 & H6). set (mem := mem_of (bd c) t).
  pose proof (v_cff _ _ _ _ _ _ _ _ _ _ I) as Jf. destruct (pot_level c M r Dm E0 _ _ _ _ _ _ HR Jf R3 ltac:(lia)) as [L1 L2].
  pose proof (cfg_cfd c Hc) as Hcfd. pose proof (cv_k_bound c (cfg_cv c Hc)) as (K1 & _). assert (Hst : cf_steps c = cv_k c + 3) by reflexivity.
  destruct (cf_facts c t W H G A P done hist s M Hc I R1 ltac:(lia)) as (F1 & F2 & F3).
  assert (Hnf : ~ finished s) by (intros X; apply Hcl; right; exact X).
  assert (He : vi_end (vb_in (s_vb s)) = false) by (destruct (vi_end (vb_in (s_vb s))) eqn:X; [elim Hcl; left; exact X|reflexivity]).
  destruct (v_vb _ _ _ _ _ _ _ _ _ _ I) as [Vo Vi]. specialize (Vi Hnf). pose proof (cfg_vb c Hc) as Hvb.
  split.
  - eapply fr_step; eassumption.
  - rewrite st_vb, st_cf. unfold vb_step. cbn [vb_in]. apply bk_step; try assumption.
    intros X. exact (dec_ge0 c (vb_in (s_vb s)) (vb_out (s_vb s)) (in_busy i) He X).
  - rewrite st_vb, st_cf. unfold vb_step. cbn [vb_in vb_out]. apply (pot_step c M r Dm E0) with (D := D) (E := E); try assumption; try lia.
  - rewrite st_cfcf. lia.
Qed.

(* without a busy sink *)
Record nb_inv (c : config) (t : table) (M : Z) (hist : hist_t) (s : i3_st) : Prop := {
  nb_fr : fr_inv c t M hist s;
  nb_bk : bk_inv c M (vb_in (s_vb s)) (s_cf s) (cv_valid_in (s_cv s));
  nb_st : match vi_state (vb_in (s_vb s)) with VI_INPUT => vi_valid_buff (vb_in (s_vb s)) = false | VI_CLEAN => False | _ => True end;
  nb_consum : vi_consum (vb_in (s_vb s)) <= outb c - 1 + M;
  nb_lvl : ff_lvl (s_cf s) <= 1;
  nb_cf : s_cf_cf s = false }.

Lemma nb_step c t M W H G A P done hist s i :
  cfg_ok c = true -> table_ok (bd c) t -> 1 <= M <= conv c -> M <= outb c -> outb c - 1 + 2 * M <= bufs c ->
  i3_inv c t W H G A P done hist s -> ~ closing s -> gsize t (i3_new c G A s i) <= M -> in_busy i = false ->
  nb_inv c t M hist s -> nb_inv c t M (i3_new c G A s i :: hist) (i3_step c (mem_of (bd c) t) s i).
Proof.
  intros Hc Ht HM HM2 Hb I Hcl Hg Hbusy [R1 R2 R3 R4 R5 R6]. set (mem := mem_of (bd c) t).
  pose proof (v_cff _ _ _ _ _ _ _ _ _ _ I) as Jf. pose proof (b2z_01 (ff_rd (s_cf s))) as Brd.
  pose proof (cfg_cfd c Hc) as Hcfd. pose proof (cv_k_bound c (cfg_cv c Hc)) as (K1 & _). assert (Hst : cf_steps c = cv_k c + 3) by reflexivity.
  destruct (cf_facts c t W H G A P done hist s M Hc I R1 ltac:(unfold fifo_level; lia)) as (F1 & F2 & F3).
  assert (Hnf : ~ finished s) by (intros X; apply Hcl; right; exact X).
  assert (He : vi_end (vb_in (s_vb s)) = false) by (destruct (vi_end (vb_in (s_vb s))) eqn:X; [elim Hcl; left; exact X|reflexivity]).
  destruct (v_vb _ _ _ _ _ _ _ _ _ _ I) as [Vo Vi]. specialize (Vi Hnf). pose proof (cfg_vb c Hc) as Hvb.
  assert (Hdg := dec_ge0 c (vb_in (s_vb s)) (vb_out (s_vb s)) (in_busy i) He). assert (Hnd := nodec0 c (vb_in (s_vb s)) (vb_out (s_vb s)) (in_busy i) He Hnf).
  set (dec := vo_dec c (vb_out (s_vb s)) (vi_consum (vb_in (s_vb s))) (vi_end (vb_in (s_vb s))) (in_busy i)) in *.
  pose proof (vi_arith c (vb_in (s_vb s)) (item_enc (cf_db c) (cf_cb c) (ff_dout (s_cf s))) (cctr c (ff_dout (s_cf s))) (item_end (cf_db c) (cf_cb c) (ff_dout (s_cf s))) (ff_rd (s_cf s)) dec Hvb Vi ltac:(congruence) Hdg ltac:(congruence)) as (A1 & A2 & A3 & A4 & _).
  pose proof Vi as (I1 & I2 & I3 & I4 & I5 & I6 & I7 & I8 & I9 & I10). pose proof (b2z_01 (cv_valid_in (s_cv s))) as Bv. assert (L0 : 0 <= ff_lvl (s_cf s)) by apply Jf.
  split.
  - eapply fr_step; eassumption.
  - rewrite st_vb, st_cf. unfold vb_step. cbn [vb_in]. apply bk_step; assumption.
  - rewrite st_vb. unfold vb_step. cbn [vb_in]. fold dec. unfold vi_step. destruct (vi_state (vb_in (s_vb s))) eqn:Es; cbn [vi_state vi_valid_buff].
    + rewrite R3. destruct (vi_valid_reg (vb_in (s_vb s))); exact Logic.I.
    + destruct R3.
    + exact Logic.I.
    + destruct (vi_valid_reg (vb_in (s_vb s))) eqn:Er; cbn [andb]; [|exact Logic.I].
      assert (Es' : vi_start (vb_in (s_vb s)) = true) by (destruct (vi_start (vb_in (s_vb s))) eqn:E''; [reflexivity|destruct (I3 eq_refl) as (Z & _); congruence]). specialize (I4 Es').
      pose proof (bk_reg _ _ _ _ _ R2 (or_intror Er)). replace (vi_ctr_reg (vb_in (s_vb s)) <=? vi_free (vb_in (s_vb s))) with true by lia. exact Logic.I.
  - rewrite st_vb. unfold vb_step. cbn [vb_in]. fold dec. fold (cctr c (ff_dout (s_cf s))). rewrite A4.
    assert (Hi : (if vi_inc (vb_in (s_vb s)) then vi_ctr_reg (vb_in (s_vb s)) else 0) <= M).
    { destruct (vi_inc (vb_in (s_vb s))) eqn:X; [|lia]. apply (bk_reg _ _ _ _ _ R2). unfold vi_inc in X. destruct (vi_state (vb_in (s_vb s))); try discriminate; [auto|right; destruct (vi_valid_reg (vb_in (s_vb s))); [reflexivity|discriminate]]. }
    destruct dec; [lia|]. specialize (Hnd eq_refl Hbusy). lia.
  - rewrite st_cf, (lvl_step (cfd c)) by assumption. rewrite I1. destruct (vi_state (vb_in (s_vb s))) eqn:Es.
    + destruct (bk_start _ _ _ _ _ R2 Es R3) as (X1 & X2 & _). rewrite X2. apply (f_equal (@length Z)) in X1. cbn [length] in X1. pose proof (fifo_level_q _ _ Jf) as X. rewrite X1 in X. unfold fifo_level in X. cbn [Z.of_nat b2z] in *. pose proof (b2z_01 (negb (ff_lvl (s_cf s) =? 0) && (negb (ff_rd (s_cf s)) || false))). lia.
    + destruct R3.
    + rewrite orb_true_r, andb_true_r. destruct (ff_lvl (s_cf s) =? 0) eqn:E0; cbn [negb b2z]; lia.
    + rewrite orb_true_r, andb_true_r. destruct (ff_lvl (s_cf s) =? 0) eqn:E0; cbn [negb b2z]; lia.
  - rewrite st_cfcf. unfold fifo_level. lia.
Qed.

(* reset *)
Lemma bk_reset c M st2 d2 : bk_inv c M vi_init (fifo_reset st2 d2) false.
Proof. split; cbn; try discriminate; try constructor; try lia; try (intros [X|X]; discriminate); auto. Qed.
Lemma rt_reset c t M r Dm E0 s0 : cfg_ok c = true -> rate_cond c M r Dm E0 -> 0 <= E0 -> is_reset c s0 -> rt_inv c t M r Dm E0 [] s0 0 E0.
Proof.
  intros Hc HR HE (st1 & d1 & st2 & d2 & rps & L1 & L2 & L3 & ->). pose proof HR as (H1 & H2 & H3 & H4 & H5 & H6). pose proof (cfg_vb c Hc) as (V1 & V2 & V3).
  split; [apply fr_reset; assumption|apply bk_reset| |reflexivity].
  assert (X : potential c M r Dm vi_init (fifo_reset st2 d2) false vo_init 0 E0 <= top c M r Dm E0 - M).
  { unfold potential, waiting, top. cbn [vi_init vi_consum vo_init vo_valid b2z]. rewrite fifo_reset_q. unfold vn. cbn [vi_state vi_init vi_valid_reg vi_valid_buff b2z]. change (len (@nil Z)) with 0.
    assert (0 <= M * (Dm + r)) by (apply Z.mul_nonneg_nonneg; lia). lia. }
  split; cbn [i3_reset s_vb s_cf s_cv vb_init vb_in vb_out]; [|intros _]; cbn [cv_init cv_valid_in]; lia.
Qed.
Lemma nb_reset c t M s0 : cfg_ok c = true -> 1 <= M -> is_reset c s0 -> nb_inv c t M [] s0.
Proof.
  intros Hc HM (st1 & d1 & st2 & d2 & rps & L1 & L2 & L3 & ->). pose proof (cfg_vb c Hc) as (V1 & V2 & V3).
  split; [apply fr_reset; assumption|apply bk_reset|reflexivity|cbn; lia|cbn; lia|reflexivity].
Qed.
