(* How soon everything complete is out once the source is silent: the potential of P_Drain.v falls in every ready cycle until nothing but an
   incomplete word is left. *)
From Verif Require Import Bits Spec Spec_Core Spec_Rate M_Config M_Signals M_Predictor M_Difference M_Encode M_Merge M_I1 M_Fifo M_Converter M_VBits M_I3
  P_Fifo P_Encode P_Merge P_Signals P_Predictor P_I1 P_Tokens P_Converter P_VBits P_I3 P_Decode P_Run P_Live P_Live2 P_Rate P_Rate2 P_Rate3 P_Rate4 P_Rate5 P_Delay P_Drain Props_Arith Props_Core Props_Live.
Ltac Zify.zify_post_hook ::= idtac.

Lemma hollow_toks c t W H G A P done hist s : i3_inv c t W H G A P done hist s -> ~ finished s -> hollow c hist s ->
  P ++ tk (vi_buffer (vb_in (s_vb s))) (vi_consum (vb_in (s_vb s))) (vi_end (vb_in (s_vb s))) = frame_toks t (bd c) W A (G * H).
Proof.
  intros I Hnf (Q1 & Q2 & Q5 & Q6 & Q7 & Q8 & Q10 & Q11 & _).
  pose proof (v_tok _ _ _ _ _ _ _ _ _ _ I) as T. unfold finished in Hnf.
  unfold vb_pend in T. assert (Ep : match vo_state (vb_out (s_vb s)) with VO_END => [] | _ => vi_pend (vb_in (s_vb s)) end = vi_pend (vb_in (s_vb s))) by (destruct (vo_state (vb_out (s_vb s))); congruence).
  rewrite Ep in T. unfold vi_pend, vi_items in T. rewrite Q10, Q11, app_nil_r in T. rewrite Q2, Q8 in T. unfold cv_outtok, cv_contents in T. rewrite Q5, Q6 in T.
  assert (Ec : match cv_state (s_cv s) with CV_STEPS i => tk (cv_latch s.(s_cv)) ((Z.of_nat i + 1) * conv c) (cv_end_latch (s_cv s)) | _ => [] end = []) by (unfold cvp in Q7; destruct (cv_state (s_cv s)); try reflexivity; lia).
  rewrite Ec in T. cbn [app qtok flat_map] in T.
  assert (Hh : htok t hist (latency c) = []).
  { revert Q1. generalize (latency c) as n. clear. intros n. unfold hcount, htok. intros Q1. assert (F : filter is_some (firstn n hist) = []) by (destruct (filter is_some (firstn n hist)); [reflexivity|cbn in Q1; lia]).
    clear Q1. revert F. generalize (firstn n hist) as l. clear. intros l F.
    assert (K : forall h, In h l -> h = None). { intros h Hh. destruct h; [|reflexivity]. assert (X : In (Some g) (filter is_some l)) by (apply filter_In; auto). rewrite F in X. destruct X. }
    clear F. assert (K' : forall h, In h (rev l) -> h = None) by (intros h Hh; apply K; apply in_rev; exact Hh). clear K. induction (rev l) as [|h r IH]; [reflexivity|]. cbn. rewrite (K' h (or_introl eq_refl)). cbn. apply IH. intros h' Hh'. apply K'. right. exact Hh'. }
  rewrite Hh, app_nil_r in T. exact T.
Qed.
Lemma hollow_bits c t W H G A P done hist s : i3_inv c t W H G A P done hist s -> ~ finished s -> hollow c hist s -> vi_end (vb_in (s_vb s)) = false ->
  Z.of_nat (length (ref_encode t (bd c) W [] (concat A))) < Z.of_nat (length P) + outb c.
Proof.
  intros I Hnf Q He. pose proof (hollow_toks _ _ _ _ _ _ _ _ _ _ I Hnf Q) as T. apply (f_equal (@length tok)) in T.
  destruct Q as (_ & _ & _ & _ & _ & _ & _ & _ & Hp). destruct (v_vb _ _ _ _ _ _ _ _ _ _ I) as [_ Vi]. specialize (Vi Hnf). destruct Vi as (_ & _ & _ & _ & Vc & _).
  pose proof (tk_len (vi_buffer (vb_in (s_vb s))) (vi_consum (vb_in (s_vb s))) false ltac:(lia)) as L. cbn [b2z] in L. rewrite He in T. unfold len in L.
  unfold frame_toks in T. rewrite !app_length, map_length in T. lia.
Qed.

Lemma om_step0 c t W H G A P done hist s i : cfg_ok c = true -> i3_inv c t W H G A P done hist s -> op_inv c s -> i3_accept s i = false ->
  let s' := i3_step c (mem_of (bd c) t) s i in
  table_ok (bd c) t -> geom (ps c) W H G -> 4 / ps c <= G ->
  om c (None :: hist) s' <= om c hist s /\
  (in_busy i = false -> ~ finished s -> om c (None :: hist) s' < om c hist s \/ (hollow c hist s /\ vi_end (vb_in (s_vb s)) = false)).
Proof.
  intros Hc I O Ea s' Ht Hg HG4.
  assert (I' : i3_inv c t W H G A (P ++ vb_emit c (s_vb s) (in_busy i)) (done ++ transferred (s_vb s) (in_busy i)) (None :: hist) s').
  { assert (Hao : acc_ok c W H s i) by (intros X; congruence). pose proof (i3_inv_step c t W H G A P done hist s i Hc Ht Hg HG4 Hao I) as X. unfold i3_new in X. rewrite Ea, app_nil_r in X. exact X. }
  assert (Hb : 0 <= bufs c) by (unfold cfg_ok in Hc; lia).
  destruct (finished_dec s) as [F|F].
  { assert (F' : finished s') by (unfold finished in *; unfold s'; rewrite st_vb; unfold vb_step; cbn [vb_out]; unfold vo_step, vo_dec; rewrite F; exact F). rewrite !om_fin by assumption. split; [lia|intros _ X; contradiction]. }
  assert (Hp : 0 <= psi c hist s) by (eapply psi_nonneg; eassumption).
  assert (Hch : forall x, 0 <= vi_consum (vb_in (s_vb x)) <= bufs c -> 0 <= chi x <= 2 * bufs c + 1) by (intros x X; unfold chi; destruct (vo_state (vb_out (s_vb x))); lia).
  assert (Hcs : chi s >= 0) by (destruct (v_vb _ _ _ _ _ _ _ _ _ _ I) as [_ Vi]; specialize (Vi F); destruct Vi as (_ & _ & _ & _ & V5 & _); specialize (Hch s V5); lia).
  rewrite (om_open c hist s F). destruct (finished_dec s') as [F'|F'].
  { rewrite om_fin by assumption. destruct (vi_end (vb_in (s_vb s))); split; intros; lia. }
  rewrite (om_open c (None :: hist) s' F').
  destruct (vi_end (vb_in (s_vb s))) eqn:He.
  - destruct (chi_step c t W H G A P done hist s i Hc I F He F') as (X1 & X2 & X3). fold s' in X1, X2, X3. rewrite X1. split; [lia|]. intros Y _. specialize (X3 Y). lia.
  - destruct (vi_end (vb_in (s_vb s'))) eqn:He'.
    + destruct (v_vb _ _ _ _ _ _ _ _ _ _ I') as [_ Vi]. specialize (Vi F'). destruct Vi as (_ & _ & _ & _ & V5 & _). specialize (Hch s' V5). split; intros; lia.
    + assert (Hcl : ~ closing s) by (intros [X|X]; [congruence|contradiction]). destruct O as [O|B]; [contradiction|].
      destruct (psi_step0 c t W H G A P done hist s i Hc I Hcl B) as (X1 & X2). fold s' in X1, X2. split; [lia|]. intros Y _. destruct (X2 Y) as [Z|Z]; [left; lia|right; auto].
Qed.

Section run.
  Variables (c : config) (t : table) (W H G : Z).
  Hypotheses (Hc : cfg_ok c = true) (Ht : table_ok (bd c) t) (Hg : geom (ps c) W H G) (HG4 : 4 / ps c <= G).
  Let mem := mem_of (bd c) t.
  Lemma flush_run : forall ins s A P done hist, i3_inv c t W H G A P done hist s -> op_inv c s -> i3_accepted c mem s ins = [] ->
    om c hist s < len (filter (fun i => negb (in_busy i)) ins) ->
    existsb snd (i3_transfers c mem s ins) = true \/
    Z.of_nat (length (ref_encode t (bd c) W [] (concat A))) < outb c * len (done ++ i3_transfers c mem s ins) + outb c.
  Proof.
    induction ins as [|i ins IH]; intros s A P done hist I O HA Hn.
    - exfalso. cbn [filter] in Hn. change (len (@nil i3_in)) with 0 in Hn. destruct (finished_dec s) as [F|F]; [rewrite om_fin in Hn by exact F; lia|]. rewrite om_open in Hn by exact F.
      pose proof (psi_nonneg _ _ _ _ _ _ _ _ _ _ Hc I F). destruct (v_vb _ _ _ _ _ _ _ _ _ _ I) as [_ Vi]. specialize (Vi F). destruct Vi as (_ & _ & _ & _ & V5 & _).
      destruct (vi_end (vb_in (s_vb s))); [unfold chi in Hn; destruct (vo_state (vb_out (s_vb s)))|]; lia.
    - cbn [i3_transfers]. fold mem. rewrite existsb_app. cbn [filter] in Hn.
      cbn [i3_accepted] in HA. apply app_eq_nil in HA. destruct HA as [Ea HA]. assert (Ea' : i3_accept s i = false) by (unfold i3_accept; destruct (in_valid i && negb (i3_nready s)); [discriminate Ea|reflexivity]). clear Ea. fold mem in HA.
      pose proof (om_step0 c t W H G A P done hist s i Hc I O Ea' Ht Hg HG4) as (M1 & M2). fold mem in M1, M2.
      assert (Hao : acc_ok c W H s i) by (intros X; congruence).
      pose proof (i3_inv_step c t W H G A P done hist s i Hc Ht Hg HG4 Hao I) as I'. unfold i3_new in I'. rewrite Ea', app_nil_r in I'. fold mem in I'.
      assert (O' : op_inv c (i3_step c mem s i)) by (eapply op_step; eassumption).
      set (tr0 := if i3_valid_out s && negb (in_busy i) then [(i3_data_out s, i3_end_out s)] else []) in *.
      assert (E0 : tr0 = transferred (s_vb s) (in_busy i)) by reflexivity.
      assert (HIH : om c (None :: hist) (i3_step c mem s i) < len (filter (fun i => negb (in_busy i)) ins) ->
        existsb snd tr0 || existsb snd (i3_transfers c mem (i3_step c mem s i) ins) = true \/
        Z.of_nat (length (ref_encode t (bd c) W [] (concat A))) < outb c * len (done ++ tr0 ++ i3_transfers c mem (i3_step c mem s i) ins) + outb c).
      { intros X. destruct (IH _ _ _ _ _ I' O' HA X) as [Y|Y]; [left; rewrite Y; apply orb_true_r|right]. rewrite app_assoc, E0. exact Y. }
      destruct (in_busy i) eqn:Eb; cbn [negb] in Hn.
      + apply HIH. lia.
      + change (len (i :: filter (fun i => negb (in_busy i)) ins)) with (len ([i] ++ filter (fun i => negb (in_busy i)) ins)) in Hn. rewrite len_app in Hn. change (len [i]) with 1 in Hn.
        destruct (finished_dec s) as [F|F].
        * left. destruct (v_vb _ _ _ _ _ _ _ _ _ _ I) as [Vo _]. unfold vo_inv in Vo. unfold finished in F. rewrite F in Vo. destruct Vo as [V1 V2]. unfold tr0, i3_valid_out, i3_data_out, i3_end_out. rewrite V1, V2. reflexivity.
        * destruct (M2 eq_refl F) as [X|[Q He]]; [apply HIH; lia|]. right.
          pose proof (hollow_bits _ _ _ _ _ _ _ _ _ _ I F Q He) as B.
          pose proof (v_done _ _ _ _ _ _ _ _ _ _ I) as D. unfold vb_done in D. unfold finished in F.
          assert (DD : exists pw, done ++ offered (s_vb s) = plain pw /\ P = map Some (wbits (outb c) pw)) by (destruct (vo_state (vb_out (s_vb s))); [| |congruence]; destruct D as (pw & E1 & _ & E2); exists pw; auto).
          destruct DD as (pw & E1 & E2). apply (f_equal (@length tok)) in E2. rewrite map_length in E2.
          assert (Ho : 0 <= outb c) by (unfold cfg_ok in Hc; lia). pose proof (wbits_length (outb c) pw Ho) as WL.
          assert (ET : tr0 = offered (s_vb s)) by (rewrite E0; unfold transferred, offered; rewrite andb_true_r; reflexivity).
          rewrite ET, app_assoc, len_app, E1. assert (len (plain pw) = len pw) as -> by (unfold len, plain; rewrite map_length; reflexivity).
          pose proof (len_nonneg (i3_transfers c mem (i3_step c mem s i) ins)). nia.
  Qed.
End run.
