(* Nothing is held back: if the sink is ready again and again, every complete word of the accepted
   pixels is handed over, whatever the source does afterwards. *)
From Verif Require Import Bits Spec Spec_Core M_Config M_Signals M_Predictor M_Difference M_Encode M_Merge M_I1 M_Fifo M_Converter M_VBits M_I3
  P_Fifo P_Encode P_Merge P_Signals P_Predictor P_I1 P_Tokens P_Converter P_VBits P_I3 P_Decode P_Run P_Live P_Live2 Props_Arith Props_Core Props_Live.
Ltac Zify.zify_post_hook ::= idtac.

(* a quiet core holds only the bits of the packer's buffer *)
Lemma quiet_toks c t W H G A P done hist s : i3_inv c t W H G A P done hist s -> ~ finished s -> quiet c hist s ->
  P ++ tk (vi_buffer (vb_in (s_vb s))) (vi_consum (vb_in (s_vb s))) (vi_end (vb_in (s_vb s))) = frame_toks t (bd c) W A (G * H).
Proof.
  intros I Hnf (Q1 & Q2 & Q3 & Q4 & Q5 & Q6 & Q7 & Q8 & Q9 & Q10 & Q11 & Q12).
  pose proof (v_tok _ _ _ _ _ _ _ _ _ _ I) as T. unfold finished in Hnf.
  unfold vb_pend in T. assert (Ep : match vo_state (vb_out (s_vb s)) with VO_END => [] | _ => vi_pend (vb_in (s_vb s)) end = vi_pend (vb_in (s_vb s))) by (destruct (vo_state (vb_out (s_vb s))); congruence).
  rewrite Ep in T. unfold vi_pend, vi_items in T. rewrite Q10, Q11, app_nil_r in T.
  unfold fifo_q in T. rewrite Q2, Q3, Q8, Q9 in T. cbn in T. unfold cv_outtok, cv_contents in T. rewrite Q5, Q6 in T.
  assert (Ec : match cv_state (s_cv s) with CV_STEPS i => tk (cv_latch s.(s_cv)) ((Z.of_nat i + 1) * conv c) (cv_end_latch (s_cv s)) | _ => [] end = []) by (destruct Q7 as [-> | ->]; reflexivity).
  rewrite Ec in T. cbn [app] in T.
  assert (Hh : htok t hist (latency c) = []).
  { revert Q1. generalize (latency c) as n. clear. intros n. unfold hcount, htok. intros Q1. assert (F : filter is_some (firstn n hist) = []) by (destruct (filter is_some (firstn n hist)); [reflexivity|cbn in Q1; lia]).
    clear Q1. revert F. generalize (firstn n hist) as l. clear. intros l F.
    assert (K : forall h, In h l -> h = None). { intros h Hh. destruct h; [|reflexivity]. assert (X : In (Some g) (filter is_some l)) by (apply filter_In; auto). rewrite F in X. destruct X. }
    clear F. assert (K' : forall h, In h (rev l) -> h = None) by (intros h Hh; apply K; apply in_rev; exact Hh). clear K. induction (rev l) as [|h r IH]; [reflexivity|]. cbn. rewrite (K' h (or_introl eq_refl)). cbn. apply IH. intros h' Hh'. apply K'. right. exact Hh'. }
  rewrite Hh, app_nil_r in T. exact T.
Qed.

Lemma quiet_bits c t W H G A P done hist s : i3_inv c t W H G A P done hist s -> ~ finished s -> quiet c hist s -> ~ pending c s ->
  Z.of_nat (length (ref_encode t (bd c) W [] (concat A))) < Z.of_nat (length P) + outb c.
Proof.
  intros I Hnf Q Hp. pose proof (quiet_toks _ _ _ _ _ _ _ _ _ _ I Hnf Q) as T. apply (f_equal (@length tok)) in T.
  destruct (v_vb _ _ _ _ _ _ _ _ _ _ I) as [_ Vi]. specialize (Vi Hnf). destruct Vi as (_ & _ & _ & _ & Vc & _).
  unfold pending in Hp. assert (He : vi_end (vb_in (s_vb s)) = false) by (destruct (vi_end (vb_in (s_vb s))); [elim Hp; right; reflexivity|reflexivity]).
  pose proof (tk_len (vi_buffer (vb_in (s_vb s))) (vi_consum (vb_in (s_vb s))) false ltac:(lia)) as L. cbn [b2z] in L. rewrite He in T. unfold len in L.
  unfold frame_toks in T. rewrite !app_length, map_length in T. lia.
Qed.

Section flush.
  Variables (c : config) (t : table) (W H : Z) (s0 : i3_st) (ins : nat -> i3_in).
  Hypotheses (Hc : cfg_ok c = true) (Ht : table_ok (bd c) t) (Hf : frame_ok c W H) (Hr : is_reset c s0) (Hin : forall n, acc_ok c W H (i3_run c (mem_of (bd c) t) s0 (upto ins n)) (ins n)).
  Let mem := mem_of (bd c) t.
  Let G := W / ps c.
  Let st n := i3_run c mem s0 (upto ins n).
  Let ac n := i3_accepted c mem s0 (upto ins n).
  Let tr n := i3_transfers c mem s0 (upto ins n).
  Hypothesis busy_fair : forall n, exists m, (n <= m)%nat /\ in_busy (ins m) = false.
  Let inv n P hist := i3_inv c t W H G (ac n) P (tr n) hist (st n) /\ 0 <= s_nready_ctr (st n) <= 7.
  Let stS : forall n, st (S n) = i3_step c mem (st n) (ins n) := st_S c t s0 ins.
  Let acS : forall n, ac (S n) = ac n ++ (if i3_accept (st n) (ins n) then [in_px (ins n)] else []) := ac_S c t s0 ins.
  Let trS : forall n, tr (S n) = tr n ++ transferred (s_vb (st n)) (in_busy (ins n)) := tr_S c t s0 ins.
  Let invS : forall n P hist, inv n P hist -> inv (S n) (P ++ vb_emit c (s_vb (st n)) (in_busy (ins n))) (i3_new c G (ac n) (st n) (ins n) :: hist)
    := inv_S c t W H s0 ins Hc Ht Hf Hin.

  (* nothing left but an incomplete word *)
  Let drained n hist := ~ finished (st n) /\ ~ pending c (st n) /\ quiet c hist (st n).

  Lemma to_pending2 M : forall n P hist, inv n P hist -> ~ finished (st n) -> mu c t hist (st n) < Z.of_nat M ->
    exists n' hist', (n <= n')%nat /\ inv n' P hist' /\ ac n' = ac n /\ ~ finished (st n') /\
      (pending c (st n') \/ i3_accept (st n') (ins n') = true \/ drained n' hist').
  Proof.
    induction M as [|M IH]; intros n P hist I Hnf HM.
    - exfalso. pose proof (minor_bound c hist (st n) Hc (proj2 I)). unfold mu, bigsum in HM. assert (0 <= z_v (st n) /\ 0 <= z_q2 c (st n) /\ 0 <= z_o (st n) /\ 0 <= z_k c (st n) /\ 0 <= z_q1 c (st n) /\ 0 <= z_h c t hist) by (repeat split; apply len_nonneg). lia.
    - destruct (i3_accept (st n) (ins n)) eqn:Ea; [exists n, hist; auto 8|]. destruct (pending_dec c (st n)) as [Hp|Hp]; [exists n, hist; auto 8|].
      pose proof (invS n P hist I) as I'. pose proof (notpending_nodec c (st n) (ins n) Hp) as Hd. unfold vb_emit, i3_new in I'. rewrite Hd, Ea, app_nil_r in I'.
      assert (Hnf' : ~ finished (st (S n))) by (rewrite stS; apply nodec_not_finished; assumption).
      assert (Ea' : ac (S n) = ac n) by (rewrite acS, Ea, app_nil_r; reflexivity).
      destruct (pending_dec c (st (S n))) as [Hp'|Hp']; [exists (S n), (None :: hist); split; [lia|auto]|].
      destruct (frame_geom c W H Hc Hf) as [Hg HG4].
      assert (LS : quiet c hist (st n) \/ mu c t (None :: hist) (st (S n)) < mu c t hist (st n)).
      { rewrite stS in *. exact (live_step c t W H G (ac n) P (tr n) hist (st n) (ins n) Hc Ht Hg HG4 (proj1 I) (proj2 I) Hnf Hp Ea Hp'). }
      destruct LS as [Q|Hmu].
      + exists n, hist. split; [lia|]. split; [exact I|]. split; [reflexivity|]. split; [exact Hnf|]. right. right. split; [exact Hnf|]. split; [exact Hp|exact Q].
      + destruct (IH (S n) P (None :: hist) I' Hnf' ltac:(lia)) as (n' & hist' & L & J1 & J2 & J3 & J4). exists n', hist'. split; [lia|]. split; [exact J1|]. split; [congruence|auto].
  Qed.

  Let progress n (P : list tok) : Prop := exists n' P' hist', (n <= n')%nat /\ inv n' P' hist' /\
    (finished (st n') \/ len (ac n) < len (ac n') \/ (ac n' = ac n /\ (length P < length P')%nat)).
  Lemma always_progress2 n P hist : inv n P hist -> ~ finished (st n) ->
    progress n P \/ exists n' hist', (n <= n')%nat /\ inv n' P hist' /\ ac n' = ac n /\ drained n' hist'.
  Proof.
    intros I Hnf. destruct (to_pending2 (S (Z.to_nat (mu c t hist (st n)))) n P hist I Hnf ltac:(lia)) as (n' & hist' & L & J1 & J2 & J3 & J4).
    assert (X : progress n' P \/ drained n' hist').
    { destruct J4 as [J4|[J4|J4]]; [|left; exact (accept_progress c t W H s0 ins Hc Ht Hf Hin n' P hist' J1 J4)|right; exact J4].
      left. destruct (busy_fair n') as (m & Hm & Hb). apply (pending_progress c t W H s0 ins Hc Ht Hf Hin (m - n') n' P hist' J1 J3 J4). rewrite <- Hb. f_equal. f_equal. lia. }
    destruct X as [(n2 & P2 & h2 & L2 & K1 & K2)|D].
    - left. exists n2, P2, h2. split; [lia|]. split; [exact K1|]. rewrite J2 in K2. exact K2.
    - right. exists n', hist'. auto.
  Qed.

  Lemma reaches2 a : forall b n P hist, inv n P hist -> G * H - len (ac n) <= Z.of_nat a -> (length (frame_toks t (bd c) W (ac n) (G * H)) - length P <= b)%nat ->
    exists n' P' hist', (n <= n')%nat /\ inv n' P' hist' /\ (finished (st n') \/ drained n' hist').
  Proof.
    induction a as [a IHa] using lt_wf_ind. induction b as [b IHb] using lt_wf_ind. intros n P hist I La Lb.
    destruct (finished_dec (st n)) as [Hfin|Hnf]; [exists n, P, hist; auto|].
    destruct (always_progress2 n P hist I Hnf) as [(n' & P' & hist' & L & I' & [Hfin|[HA|[HA HP]]])|(n' & hist' & L & I' & _ & D)]; [exists n', P', hist'; auto| | |exists n', P, hist'; auto].
    - pose proof (v_len _ _ _ _ _ _ _ _ _ _ (proj1 I')) as L'. destruct (IHa (Z.to_nat (G * H - len (ac n'))) ltac:(lia) _ n' P' hist' I' ltac:(lia) (le_n _)) as (n2 & P2 & h2 & L2 & K). exists n2, P2, h2. split; [lia|exact K].
    - pose proof (P_le c t W H s0 ins n' P' hist' I') as B. fold mem G st ac tr in B. fold (ac n') in B. rewrite HA in B.
      destruct (IHb (length (frame_toks t (bd c) W (ac n) (G * H)) - length P')%nat ltac:(lia) n' P' hist' I') as (n2 & P2 & h2 & L2 & K); [rewrite HA; exact La|rewrite HA; lia|]. exists n2, P2, h2. split; [lia|exact K].
  Qed.

  Lemma inv_later k : forall n P hist, inv n P hist -> exists P' hist', inv (n + k) (P ++ P') hist'.
  Proof.
    induction k as [|k IH]; intros n P hist I; [exists [], hist; rewrite Nat.add_0_r, app_nil_r; exact I|].
    destruct (IH (S n) _ _ (invS n P hist I)) as (P' & h' & J). rewrite <- app_assoc in J. exists (vb_emit c (s_vb (st n)) (in_busy (ins n)) ++ P'), h'.
    replace (n + S k)%nat with (S n + k)%nat by lia. exact J.
  Qed.
  Lemma ac_later k : forall n, exists X, ac (n + k) = ac n ++ X.
  Proof.
    induction k as [|k IH]; intros n; [exists []; rewrite Nat.add_0_r, app_nil_r; reflexivity|].
    destruct (IH (S n)) as [X E]. rewrite acS, <- app_assoc in E. replace (n + S k)%nat with (S n + k)%nat by lia. eauto.
  Qed.
  Lemma ac_bits n m : (n <= m)%nat -> (length (ref_encode t (bd c) W [] (concat (ac n))) <= length (ref_encode t (bd c) W [] (concat (ac m))))%nat.
  Proof. intros L. destruct (ac_later (m - n) n) as [X E]. replace (n + (m - n))%nat with m in E by lia. rewrite E, concat_app, ref_encode_app, app_length. lia. Qed.

  Lemma live_flush n0 : exists n, (n0 <= n)%nat /\ (existsb snd (tr n) = true \/
    Z.of_nat (length (ref_encode t (bd c) W [] (concat (ac n0)))) < outb c * len (tr n) + outb c).
  Proof.
    destruct (inv_exists c t W H s0 ins Hc Ht Hf Hr Hin n0) as (P0 & h0 & I0).
    destruct (reaches2 (Z.to_nat (G * H - len (ac n0))) (length (frame_toks t (bd c) W (ac n0) (G * H)) - length P0)%nat n0 P0 h0 I0) as (n & P & hist & L & I & Hend); [|lia|].
    { rewrite Z2Nat.id; [lia|]. pose proof (v_len _ _ _ _ _ _ _ _ _ _ (proj1 I0)) as X. unfold ac, G, mem. lia. }
    destruct (busy_fair n) as (m & Hm & Hb). destruct (inv_later (m - n) n P hist I) as (P' & h' & I'). replace (n + (m - n))%nat with m in I' by lia.
    exists (S m). split; [lia|]. rewrite trS. destruct I' as [I' _].
    destruct (finished_dec (st m)) as [Hfin|Hnf].
    - left. rewrite existsb_app. destruct (v_vb _ _ _ _ _ _ _ _ _ _ I') as [Vo _]. unfold vo_inv in Vo. unfold finished in Hfin. rewrite Hfin in Vo. destruct Vo as [V1 V2].
      unfold transferred. rewrite V1, V2, Hb. cbn. apply orb_true_r.
    - right. destruct Hend as [Hfin|(D1 & D2 & D3)].
      { exfalso. apply Hnf. pose proof (finished_stays c t s0 ins n Hfin (m - n)) as X. replace (n + (m - n))%nat with m in X by lia. exact X. }
      pose proof (quiet_bits _ _ _ _ _ _ _ _ _ _ (proj1 I) D1 D3 D2) as B. pose proof (ac_bits n0 n L) as B2.
      pose proof (v_done _ _ _ _ _ _ _ _ _ _ I') as D. unfold vb_done in D. unfold finished in Hnf.
      assert (DD : exists pw, tr m ++ offered (s_vb (st m)) = plain pw /\ P ++ P' = map Some (wbits (outb c) pw)) by (destruct (vo_state (vb_out (s_vb (st m)))); [| |congruence]; destruct D as (pw & E1 & _ & E2); exists pw; auto).
      destruct DD as (pw & E1 & E2). apply (f_equal (@length tok)) in E2. rewrite app_length, map_length in E2.
      assert (Ho : 0 <= outb c) by (unfold cfg_ok in Hc; lia). pose proof (wbits_length (outb c) pw Ho) as WL.
      assert (ET : transferred (s_vb (st m)) (in_busy (ins m)) = offered (s_vb (st m))) by (unfold transferred, offered; rewrite Hb, andb_true_r; reflexivity).
      rewrite ET, E1. assert (len (plain pw) = len pw) as -> by (unfold len, plain; rewrite map_length; reflexivity). lia.
  Qed.
End flush.
