(* Throughput, continued: complete runs. *)
From Verif Require Import Bits Spec Spec_Core Spec_Rate M_Config M_Signals M_Predictor M_Difference M_Encode M_Merge M_I1 M_Fifo M_Converter M_VBits M_I3
  P_Fifo P_Encode P_Merge P_Signals P_Predictor P_I1 P_Tokens P_Converter P_VBits P_I3 P_Decode P_Run P_Live P_Live2 P_Rate P_Rate2 P_Rate3 P_Rate4 Props_Arith Props_Core Props_Live.
Ltac Zify.zify_post_hook ::= idtac.

Lemma firstn_snoc {A} (l : list A) x : forall n, firstn n (l ++ [x]) = firstn n l ++ (if (length l <? n)%nat then [x] else []).
Proof.
  intros n. rewrite firstn_app. f_equal. destruct (length l <? n)%nat eqn:E.
  - apply Nat.ltb_lt in E. destruct (n - length l)%nat eqn:X; [lia|]. cbn [firstn]. rewrite firstn_nil. reflexivity.
  - apply Nat.ltb_ge in E. replace (n - length l)%nat with 0%nat by lia. reflexivity.
Qed.
Lemma on_offer_snoc c W H pre i : on_offer c W H (pre ++ [i]) =
  on_offer c W H pre ++ (if (8 <=? length pre)%nat && in_valid i && (length (on_offer c W H pre) <? Z.to_nat (W * H / ps c))%nat then [in_px i] else []).
Proof.
  unfold on_offer. rewrite skipn_app. destruct (8 <=? length pre)%nat eqn:E.
  - apply Nat.leb_le in E. replace (8 - length pre)%nat with 0%nat by lia. cbn [skipn]. rewrite filter_app. cbn [filter]. destruct (in_valid i); cbn [andb].
    + rewrite map_app. cbn [map]. rewrite firstn_snoc. f_equal. rewrite firstn_length. set (n := Z.to_nat _). set (l := length _).
      destruct (l <? n)%nat eqn:X; [apply Nat.ltb_lt in X|apply Nat.ltb_ge in X]; destruct (Nat.min n l <? n)%nat eqn:Y; [reflexivity|apply Nat.ltb_ge in Y; lia|apply Nat.ltb_lt in Y; lia|reflexivity].
    + rewrite !app_nil_r. reflexivity.
  - apply Nat.leb_gt in E. cbn [andb]. rewrite app_nil_r. rewrite (skipn_all2 pre) by lia. cbn [app]. rewrite (skipn_all2 [i]) by (cbn [length]; lia). reflexivity.
Qed.
Lemma small_app c t W M a b : small_groups c t W M (a ++ b) -> small_groups c t W M a.
Proof. intros S A g B E. apply (S A g (B ++ b)). rewrite E, <- app_assoc. reflexivity. Qed.

Lemma run_ok_app c mem W H : forall a s b, run_ok c mem W H s (a ++ b) -> run_ok c mem W H s a /\ run_ok c mem W H (i3_run c mem s a) b.
Proof.
  induction a as [|i a IH]; intros s b X; [split; [exact Logic.I|exact X]|]. cbn [app run_ok] in X. destruct X as [X1 X2]. destruct (IH _ _ X2) as [Y1 Y2]. cbn [run_ok i3_run]. auto.
Qed.

Section Run.
  Variables (c : config) (t : table) (W H M : Z) (s0 : i3_st).
  Variable K : list i3_in -> hist_t -> i3_st -> Prop.
  Variable okin : list i3_in -> i3_in -> Prop.
  Let G := W / ps c.
  Let mem := mem_of (bd c) t.
  Hypothesis Hc : cfg_ok c = true.
  Hypothesis Ht : table_ok (bd c) t.
  Hypothesis Hf : frame_ok c W H.
  Hypothesis Hr : is_reset c s0.
  Hypothesis HM : 0 <= M.
  Hypothesis K0 : K [] [] s0.
  Hypothesis KS : forall pre i A P done hist s, i3_inv c t W H G A P done hist s -> s = i3_run c mem s0 pre -> ~ closing s -> gsize t (i3_new c G A s i) <= M -> okin pre i ->
    K pre hist s -> K (pre ++ [i]) (i3_new c G A s i :: hist) (i3_step c mem s i).
  Hypothesis Kl : forall pre hist s, K pre hist s -> s_lj_cf s = false.

  Lemma full_rate : forall ins, run_ok c mem W H s0 ins -> (forall pre i post, ins = pre ++ i :: post -> okin pre i) -> small_groups c t W M (on_offer c W H ins) ->
    i3_accepted c mem s0 ins = on_offer c W H ins /\
    exists P hist, i3_inv c t W H G (i3_accepted c mem s0 ins) P (i3_transfers c mem s0 ins) hist (i3_run c mem s0 ins) /\
      (~ closing (i3_run c mem s0 ins) -> K ins hist (i3_run c mem s0 ins)).
  Proof.
    destruct (frame_geom c W H Hc Hf) as [Hg HG4]. fold G in Hg, HG4. pose proof Hg as (Q1 & Q2 & Q3 & Q4 & Q5 & Q6 & Q7).
    assert (HN : W * H / ps c = G * H) by (rewrite Q2; replace (G * ps c * H) with (G * H * ps c) by lia; apply Z.div_mul; lia).
    assert (Hr' : s_nready_reset s0 = false /\ s_nready_ctr s0 = 0) by (destruct Hr as (? & ? & ? & ? & ? & _ & _ & _ & ->); auto). destruct Hr' as (R1 & R2).
    induction ins as [|i ins IH] using rev_ind; intros HF Hok Hs.
    - assert (E0 : on_offer c W H [] = []) by (unfold on_offer; cbn [skipn filter map]; apply firstn_nil).
      split; [rewrite E0; reflexivity|]. destruct Hr as (st1 & d1 & st2 & d2 & rps & L1 & L2 & L3 & E). exists [], []. split; [|intros _; exact K0].
      cbn [i3_accepted i3_transfers i3_run]. rewrite E. apply i3_inv_reset; assumption.
    - apply run_ok_app in HF. destruct HF as [HF1 HF2]. cbn [run_ok] in HF2. destruct HF2 as [HF2 _].
      rewrite on_offer_snoc in Hs. destruct (IH HF1) as (E & P & hist & I & HK).
      { intros pre j post X. apply (Hok pre j (post ++ [i])). rewrite X, <- app_assoc. reflexivity. }
      { apply small_app in Hs. exact Hs. }
      set (s := i3_run c mem s0 ins) in *. set (A := i3_accepted c mem s0 ins) in *.
      assert (Hrs : s_nready_reset s = (8 <=? length ins)%nat).
      { destruct (nready_startup c mem ins s0 R1 ltac:(lia)) as [S1 S2]. fold s in S1, S2. unfold len in S1, S2. destruct (8 <=? length ins)%nat eqn:X.
        - apply Nat.leb_le in X. apply S2; lia.
        - apply Nat.leb_gt in X. apply S1. lia. }
      pose proof (v_len _ _ _ _ _ _ _ _ _ _ I) as Vl. pose proof (v_ne1 _ _ _ _ _ _ _ _ _ _ I) as Vn.
      assert (Hacc : i3_accept s i = (8 <=? length ins)%nat && in_valid i && (length (on_offer c W H ins) <? Z.to_nat (W * H / ps c))%nat).
      { unfold i3_accept, i3_nready. rewrite Vn, Hrs, <- E, HN. destruct (in_valid i); [|rewrite andb_false_r; reflexivity]. cbn [andb]. rewrite andb_true_r.
        destruct (Z_lt_le_dec (len A) (G * H)) as [X|X].
        - assert (Hl : s_lj_cf s = false) by (eapply Kl, HK, open_frame; eassumption). rewrite Hl. replace (G * H <=? len A) with false by lia.
          replace (length A <? Z.to_nat (G * H))%nat with true by (symmetry; apply Nat.ltb_lt; unfold len in X; lia). destruct (8 <=? length ins)%nat; reflexivity.
        - replace (G * H <=? len A) with true by lia. rewrite orb_true_r. replace (length A <? Z.to_nat (G * H))%nat with false by (symmetry; apply Nat.ltb_ge; unfold len in X; lia). rewrite andb_false_r. reflexivity. }
      assert (Hacc' : i3_accepted c mem s0 (ins ++ [i]) = A ++ (if i3_accept s i then [in_px i] else [])) by (rewrite accepted_app; cbn [i3_accepted]; rewrite app_nil_r; reflexivity).
      assert (Hnew : gsize t (i3_new c G A s i) <= M).
      { eapply new_size; try eassumption. intros X. rewrite <- Hacc, X in Hs. apply (Hs A (in_px i) []). rewrite E. reflexivity. }
      split; [rewrite Hacc', on_offer_snoc, <- Hacc, E; reflexivity|].
      exists (P ++ vb_emit c (s_vb s) (in_busy i)), (i3_new c G A s i :: hist).
      assert (Hrun : i3_run c mem s0 (ins ++ [i]) = i3_step c mem s i) by (rewrite run_app; reflexivity). rewrite Hrun.
      split.
      + rewrite Hacc'. replace (i3_transfers c mem s0 (ins ++ [i])) with (i3_transfers c mem s0 ins ++ transferred (s_vb s) (in_busy i)); [apply i3_inv_step; assumption|].
        rewrite transfers_app. cbn [i3_transfers]. rewrite app_nil_r. reflexivity.
      + intros Hcl. assert (Hcl0 : ~ closing s) by (intros X; apply Hcl; eapply closing_step; eassumption).
        eapply KS; [exact I|reflexivity|exact Hcl0|exact Hnew|apply (Hok ins i []); reflexivity|apply HK, Hcl0].
  Qed.
End Run.
