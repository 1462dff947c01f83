(* C18: no deadlock.  Whatever the timing, if the sink is ready again and again and the source offers pixels again and again while
   pixels are missing, the frame is finished. *)
From Verif Require Import Bits Spec Spec_Core M_Config M_Signals M_Predictor M_Difference M_Encode M_Merge M_I1 M_Fifo M_Converter M_VBits M_I3
  P_Fifo P_Encode P_Merge P_Signals P_Predictor P_I1 P_Tokens P_Converter P_VBits P_I3 P_Decode P_Run P_Live P_Live2 Props_Arith Props_Core.
Ltac Zify.zify_post_hook ::= idtac.

(* the first n cycles of an infinite schedule *)
Definition upto (ins : nat -> i3_in) (n : nat) : list i3_in := map ins (seq 0 n).
Lemma upto_S ins n : upto ins (S n) = upto ins n ++ [ins n].
Proof. unfold upto. rewrite seq_S, map_app. reflexivity. Qed.
Lemma i3_run_app c mem : forall a s b, i3_run c mem s (a ++ b) = i3_run c mem (i3_run c mem s a) b.
Proof. induction a as [|i a IH]; intros s b; [reflexivity|]. cbn. apply IH. Qed.
Lemma transfers_app c mem : forall a s b, i3_transfers c mem s (a ++ b) = i3_transfers c mem s a ++ i3_transfers c mem (i3_run c mem s a) b.
Proof. induction a as [|i a IH]; intros s b; [reflexivity|]. cbn. rewrite IH, app_assoc. reflexivity. Qed.

Lemma finished_dec s : {finished s} + {~ finished s}.
Proof. unfold finished. destruct (vo_state (vb_out (s_vb s))); [right|right|left]; congruence. Qed.
Lemma pending_dec c s : {pending c s} + {~ pending c s}.
Proof.
  unfold pending. destruct (outb c <=? vi_consum (vb_in (s_vb s))) eqn:E1; [left; left; lia|]. destruct (vi_end (vb_in (s_vb s))); [left; auto|right].
  intros [X|X]; [lia|discriminate].
Qed.

(* one step, without acceptance, keeps a pending word pending *)
Lemma end_no_items c t W H G A P done hist s : i3_inv c t W H G A P done hist s -> ~ finished s -> vi_end (vb_in (s_vb s)) = true -> vi_items (vb_in (s_vb s)) = [].
Proof.
  intros I Hnf E. pose proof (v_tok _ _ _ _ _ _ _ _ _ _ I) as T. unfold vb_pend in T. unfold finished in Hnf.
  assert (Ep : match vo_state (vb_out (s_vb s)) with VO_END => [] | _ => vi_pend (vb_in (s_vb s)) end = vi_pend (vb_in (s_vb s))) by (destruct (vo_state (vb_out (s_vb s))); congruence).
  rewrite Ep in T. unfold vi_pend, tk in T. rewrite E in T. rewrite <- !app_assoc in T. cbn [app] in T. rewrite app_assoc in T. apply none_last in T. apply app_eq_nil in T. apply T.
Qed.
Lemma pending_stable c t W H G A P done hist s i : cfg_ok c = true -> i3_inv c t W H G A P done hist s -> ~ finished s -> pending c s ->
  vo_dec c (vb_out (s_vb s)) (vi_consum (vb_in (s_vb s))) (vi_end (vb_in (s_vb s))) (in_busy i) = false ->
  pending c (i3_step c (mem_of (bd c) t) s i).
Proof.
  intros Hc I Hnf Hp Hd. pose proof (end_no_items _ _ _ _ _ _ _ _ _ _ I Hnf) as He. pose proof (v_vb _ _ _ _ _ _ _ _ _ _ I) as [_ Vi]. specialize (Vi Hnf).
  unfold pending. rewrite st_vb. unfold vb_step. rewrite Hd. cbn [vb_in].
  set (cq := ff_dout (s_cf s)).
  destruct (vi_arith c (vb_in (s_vb s)) (item_enc (cf_db c) (cf_cb c) cq) (item_ctr (cf_db c) (cf_cb c) cq) (item_end (cf_db c) (cf_cb c) cq) (ff_rd (s_cf s)) false (cfg_vb c Hc) Vi He ltac:(discriminate) ltac:(discriminate)) as (_ & _ & _ & E & _).
  pose proof (vi_inc_items c (vb_in (s_vb s)) Vi) as Hinc.
  destruct Hp as [Hp|Hp].
  - left. rewrite E. destruct (vi_inc (vb_in (s_vb s))); [destruct (Hinc eq_refl) as ((X & _) & _); lia|lia].
  - right. assert (Ei : vi_inc (vb_in (s_vb s)) = false) by (destruct (vi_inc (vb_in (s_vb s))); [destruct (Hinc eq_refl) as (_ & _ & X & _); elim X; apply He, Hp|reflexivity]).
    unfold vi_step. rewrite Ei. destruct (vi_state (vb_in (s_vb s))); cbn [vi_end]; exact Hp.
Qed.
Lemma nodec_not_finished c mem s i : ~ finished s -> vo_dec c (vb_out (s_vb s)) (vi_consum (vb_in (s_vb s))) (vi_end (vb_in (s_vb s))) (in_busy i) = false -> ~ finished (i3_step c mem s i).
Proof.
  unfold finished. intros Hnf Hd. rewrite st_vb. unfold vb_step. cbn [vb_out]. unfold vo_step. rewrite Hd. destruct (vo_state (vb_out (s_vb s))) eqn:E; [congruence| |congruence].
  destruct (in_busy i); [congruence|]. cbn. discriminate.
Qed.
Lemma notpending_nodec c s i : ~ pending c s -> vo_dec c (vb_out (s_vb s)) (vi_consum (vb_in (s_vb s))) (vi_end (vb_in (s_vb s))) (in_busy i) = false.
Proof.
  unfold pending, vo_dec, vo_ge. intros H. destruct (vi_end (vb_in (s_vb s))); [elim H; auto|]. replace (outb c <=? vi_consum (vb_in (s_vb s))) with false by lia.
  destruct (vo_state (vb_out (s_vb s))); rewrite ?andb_false_r; reflexivity.
Qed.
(* a quiet core that has accepted the whole frame shows the end *)
Lemma quiet_full c t W H G A P done hist s : i3_inv c t W H G A P done hist s -> ~ finished s -> quiet c hist s -> len A = G * H -> pending c s.
Proof.
  intros I Hnf (Q1 & Q2 & Q3 & Q4 & Q5 & Q6 & Q7 & Q8 & Q9 & Q10 & Q11 & Q12) HA. right.
  pose proof (v_tok _ _ _ _ _ _ _ _ _ _ I) as T. pose proof (v_done _ _ _ _ _ _ _ _ _ _ I) as D. unfold vb_done in D. unfold finished in Hnf.
  assert (DP : exists bs, P = map Some bs) by (destruct (vo_state (vb_out (s_vb s))); [| |congruence]; destruct D as (pw & _ & _ & ->); eexists; reflexivity). destruct DP as [bs ->].
  unfold vb_pend in T. assert (Ep : match vo_state (vb_out (s_vb s)) with VO_END => [] | _ => vi_pend (vb_in (s_vb s)) end = vi_pend (vb_in (s_vb s))) by (destruct (vo_state (vb_out (s_vb s))); congruence).
  rewrite Ep in T. unfold vi_pend, vi_items in T. rewrite Q10, Q11, app_nil_r in T.
  unfold fifo_q in T. rewrite Q2, Q3, Q8, Q9 in T. cbn in T. unfold cv_outtok, cv_contents in T. rewrite Q5, Q6 in T.
  assert (Ec : match cv_state (s_cv s) with CV_STEPS i => tk (cv_latch s.(s_cv)) ((Z.of_nat i + 1) * conv c) (cv_end_latch (s_cv s)) | _ => [] end = []) by (destruct Q7 as [-> | ->]; reflexivity).
  rewrite Ec in T. cbn [app] in T.
  assert (Hh : htok t hist (latency c) = []).
  { revert Q1. generalize (latency c) as n. clear. intros n. unfold hcount, htok. intros Q1. assert (F : filter is_some (firstn n hist) = []) by (destruct (filter is_some (firstn n hist)); [reflexivity|cbn in Q1; lia]).
    clear Q1. revert F. generalize (firstn n hist) as l. clear. intros l F.
    assert (K : forall h, In h l -> h = None). { intros h Hh. destruct h; [|reflexivity]. assert (X : In (Some g) (filter is_some l)) by (apply filter_In; auto). rewrite F in X. destruct X. }
    clear F. assert (K' : forall h, In h (rev l) -> h = None) by (intros h Hh; apply K; apply in_rev; exact Hh). clear K. induction (rev l) as [|h r IH]; [reflexivity|]. cbn. rewrite (K' h (or_introl eq_refl)). cbn. apply IH. intros h' Hh'. apply K'. right. exact Hh'. }
  rewrite Hh, app_nil_r in T. unfold frame_toks in T. rewrite HA, Z.eqb_refl in T.
  destruct (vi_end (vb_in (s_vb s))) eqn:E; [reflexivity|]. unfold tk in T. rewrite app_nil_r, <- map_app in T.
  assert (X : In None (map Some (bs ++ bitsz (vi_consum (vb_in (s_vb s))) (vi_buffer (vb_in (s_vb s)))))) by (rewrite T; apply in_app_iff; right; left; reflexivity).
  apply in_map_iff in X. destruct X as (? & X & _). discriminate.
Qed.

Section live.
  Variables (c : config) (t : table) (W H : Z) (s0 : i3_st) (ins : nat -> i3_in).
  Hypotheses (Hc : cfg_ok c = true) (Ht : table_ok (bd c) t) (Hf : frame_ok c W H) (Hr : is_reset c s0) (Hin : forall n, acc_ok c W H (i3_run c (mem_of (bd c) t) s0 (upto ins n)) (ins n)).
  Let mem := mem_of (bd c) t.
  Let G := W / ps c.
  Let st n := i3_run c mem s0 (upto ins n).
  Let ac n := i3_accepted c mem s0 (upto ins n).
  Let tr n := i3_transfers c mem s0 (upto ins n).
  Hypothesis busy_fair : forall n, exists m, (n <= m)%nat /\ in_busy (ins m) = false.
  Hypothesis valid_fair : forall n, len (concat (ac n)) < W * H -> exists m, (n <= m)%nat /\ in_valid (ins m) = true.

  Let inv n P hist := i3_inv c t W H G (ac n) P (tr n) hist (st n) /\ 0 <= s_nready_ctr (st n) <= 7.

  Lemma st_S n : st (S n) = i3_step c mem (st n) (ins n).
  Proof. unfold st. rewrite upto_S, i3_run_app. reflexivity. Qed.
  Lemma ac_S n : ac (S n) = ac n ++ (if i3_accept (st n) (ins n) then [in_px (ins n)] else []).
  Proof. unfold ac, st. rewrite upto_S, accepted_app. cbn [i3_accepted]. rewrite app_nil_r. reflexivity. Qed.
  Lemma tr_S n : tr (S n) = tr n ++ transferred (s_vb (st n)) (in_busy (ins n)).
  Proof. unfold tr, st. rewrite upto_S, transfers_app. cbn [i3_transfers]. rewrite app_nil_r. reflexivity. Qed.
  Lemma inv_S n P hist : inv n P hist -> inv (S n) (P ++ vb_emit c (s_vb (st n)) (in_busy (ins n))) (i3_new c G (ac n) (st n) (ins n) :: hist).
  Proof.
    intros [I B]. destruct (frame_geom c W H Hc Hf) as [Hg HG4]. split.
    - rewrite st_S, ac_S, tr_S. apply i3_inv_step; try assumption. apply Hin.
    - rewrite st_S. destruct (st_rst c mem (st n) (ins n)) as [_ ->]. unfold trunc. change (2 ^ 3) with 8. pose proof (Z.mod_pos_bound (s_nready_ctr (st n) + 1) 8). lia.
  Qed.
  Lemma ac_pixels n P hist : inv n P hist -> len (concat (ac n)) = len (ac n) * ps c /\ W * H = G * H * ps c /\ 1 <= ps c.
  Proof.
    intros [I _]. destruct (inv_pixels _ _ _ _ _ _ _ _ _ _ I) as [_ ->]. destruct (frame_geom c W H Hc Hf) as [(Q1 & Q2 & _) _]. fold G in Q2. split; [reflexivity|]. split; [nia|]. unfold cfg_ok in Hc. lia.
  Qed.

  (* in a quiet core an acceptance follows *)
  Lemma quiet_accept k : forall n P hist, inv n P hist -> ~ finished (st n) -> quiet c hist (st n) -> in_valid (ins (n + k)) = true ->
    exists n' hist', (n <= n')%nat /\ inv n' P hist' /\ ac n' = ac n /\ ~ finished (st n') /\ (pending c (st n') \/ i3_accept (st n') (ins n') = true).
  Proof.
    induction k as [|k IH]; intros n P hist I Hnf Q Hv.
    - exists n, hist. split; [lia|]. split; [exact I|]. split; [reflexivity|]. split; [exact Hnf|]. destruct I as [I _]. pose proof (v_len _ _ _ _ _ _ _ _ _ _ I) as L.
      destruct (Z.eq_dec (len (ac n)) (G * H)) as [E|E]; [left; exact (quiet_full _ _ _ _ _ _ _ _ _ _ I Hnf Q E)|right].
      rewrite Nat.add_0_r in Hv. unfold i3_accept, i3_nready. rewrite Hv, (v_ne1 _ _ _ _ _ _ _ _ _ _ I). destruct Q as (_ & _ & _ & -> & _ & _ & _ & _ & _ & _ & _ & ->). replace (G * H <=? len (ac n)) with false by lia. reflexivity.
    - destruct (i3_accept (st n) (ins n)) eqn:Ea; [exists n, hist; auto 7|]. destruct (pending_dec c (st n)) as [Hp|Hp]; [exists n, hist; auto 7|].
      pose proof (inv_S n P hist I) as I'. pose proof (notpending_nodec c (st n) (ins n) Hp) as Hd. unfold vb_emit, i3_new in I'. rewrite Hd, Ea, app_nil_r in I'.
      assert (Q' : quiet c (None :: hist) (st (S n))) by (rewrite st_S; apply quiet_stable; [exact Hc|exact (v_i1 _ _ _ _ _ _ _ _ _ _ (proj1 I))|exact Q]).
      destruct (IH (S n) P (None :: hist) I') as (n' & hist' & L & J1 & J2 & J3 & J4); [rewrite st_S; apply nodec_not_finished; assumption|exact Q'|rewrite <- Hv; f_equal; f_equal; lia|].
      exists n', hist'. split; [lia|]. split; [exact J1|]. split; [rewrite J2, ac_S, Ea, app_nil_r; reflexivity|]. auto.
  Qed.
  Lemma to_pending M : forall n P hist, inv n P hist -> ~ finished (st n) -> mu c t hist (st n) < Z.of_nat M ->
    exists n' hist', (n <= n')%nat /\ inv n' P hist' /\ ac n' = ac n /\ ~ finished (st n') /\ (pending c (st n') \/ i3_accept (st n') (ins n') = true).
  Proof.
    induction M as [|M IH]; intros n P hist I Hnf HM.
    - exfalso. pose proof (minor_bound c hist (st n) Hc (proj2 I)). unfold mu, bigsum in HM. assert (0 <= z_v (st n) /\ 0 <= z_q2 c (st n) /\ 0 <= z_o (st n) /\ 0 <= z_k c (st n) /\ 0 <= z_q1 c (st n) /\ 0 <= z_h c t hist) by (repeat split; apply len_nonneg). lia.
    - destruct (i3_accept (st n) (ins n)) eqn:Ea; [exists n, hist; auto 7|]. destruct (pending_dec c (st n)) as [Hp|Hp]; [exists n, hist; auto 7|].
      pose proof (inv_S n P hist I) as I'. pose proof (notpending_nodec c (st n) (ins n) Hp) as Hd. unfold vb_emit, i3_new in I'. rewrite Hd, Ea, app_nil_r in I'.
      assert (Hnf' : ~ finished (st (S n))) by (rewrite st_S; apply nodec_not_finished; assumption).
      assert (Ea' : ac (S n) = ac n) by (rewrite ac_S, Ea, app_nil_r; reflexivity).
      destruct (pending_dec c (st (S n))) as [Hp'|Hp']; [exists (S n), (None :: hist); split; [lia|auto]|].
      destruct (frame_geom c W H Hc Hf) as [Hg HG4].
      assert (LS : quiet c hist (st n) \/ mu c t (None :: hist) (st (S n)) < mu c t hist (st n)).
      { rewrite st_S in *. exact (live_step c t W H G (ac n) P (tr n) hist (st n) (ins n) Hc Ht Hg HG4 (proj1 I) (proj2 I) Hnf Hp Ea Hp'). }
      destruct LS as [Q|Hmu].
      + pose proof (v_len _ _ _ _ _ _ _ _ _ _ (proj1 I)) as L.
        destruct (Z.eq_dec (len (ac n)) (G * H)) as [E|E]; [elim Hp; exact (quiet_full _ _ _ _ _ _ _ _ _ _ (proj1 I) Hnf Q E)|].
        destruct (ac_pixels n P hist I) as (X1 & X2 & X3). destruct (valid_fair n) as (m & Hm & Hv); [rewrite X1, X2; nia|].
        apply (quiet_accept (m - n) n P hist I Hnf Q). rewrite <- Hv. f_equal. f_equal. lia.
      + destruct (IH (S n) P (None :: hist) I' Hnf' ltac:(lia)) as (n' & hist' & L & J1 & J2 & J3 & J4). exists n', hist'. split; [lia|]. split; [exact J1|]. split; [congruence|auto].
  Qed.

  (* progress: finished, or more pixels accepted, or more tokens put out *)
  Let progress n (P : list tok) : Prop := exists n' P' hist', (n <= n')%nat /\ inv n' P' hist' /\
    (finished (st n') \/ len (ac n) < len (ac n') \/ (ac n' = ac n /\ (length P < length P')%nat)).
  Lemma emit_progress n P hist : inv n P hist -> ~ finished (st n) -> vo_dec c (vb_out (s_vb (st n))) (vi_consum (vb_in (s_vb (st n)))) (vi_end (vb_in (s_vb (st n)))) (in_busy (ins n)) = true -> progress n P.
  Proof.
    intros I Hnf Hd. pose proof (inv_S n P hist I) as I'. eexists (S n), _, _. split; [lia|]. split; [exact I'|]. right.
    rewrite ac_S. destruct (i3_accept (st n) (ins n)); [left; rewrite len_app; cbn; lia|right]. rewrite app_nil_r. split; [reflexivity|].
    rewrite app_length. unfold vb_emit. rewrite Hd. assert (Ho : 1 <= outb c) by (unfold cfg_ok in Hc; lia).
    destruct (vo_fin c (vi_consum (vb_in (s_vb (st n)))) (vi_end (vb_in (s_vb (st n))))).
    - unfold tk. rewrite app_length. cbn. lia.
    - rewrite map_length. assert (Z.of_nat (length (bitsz (outb c) (vo_word c (vi_buffer (vb_in (s_vb (st n)))) (vi_consum (vb_in (s_vb (st n))))))) = outb c) by (apply bitsz_length; lia). lia.
  Qed.
  Lemma progress_later n P P' hist' : inv (S n) P' hist' -> (length P <= length P')%nat -> ac (S n) = ac n -> progress (S n) P' -> progress n P.
  Proof. intros _ L E (n' & P2 & h2 & L2 & J1 & J2). exists n', P2, h2. split; [lia|]. split; [exact J1|]. rewrite E in J2. destruct J2 as [J2|[J2|[J2 J3]]]; [auto|auto|]. right. right. split; [exact J2|lia]. Qed.
  Lemma accept_progress n P hist : inv n P hist -> i3_accept (st n) (ins n) = true -> progress n P.
  Proof. intros I Ha. pose proof (inv_S n P hist I) as I'. eexists (S n), _, _. split; [lia|]. split; [exact I'|]. right. left. rewrite ac_S, Ha, len_app. cbn. lia. Qed.
  Lemma pending_output n P hist : inv n P hist -> ~ finished (st n) -> pending c (st n) -> vo_state (vb_out (s_vb (st n))) = VO_OUTPUT -> progress n P.
  Proof.
    intros I Hnf Hp Es. apply (emit_progress n P hist I Hnf). unfold vo_dec. rewrite Es. unfold vo_ge, vo_le. destruct Hp as [Hp|Hp]; [replace (outb c <=? vi_consum (vb_in (s_vb (st n)))) with true by lia; reflexivity|].
    rewrite Hp, andb_true_r. destruct (outb c <=? vi_consum (vb_in (s_vb (st n)))) eqn:E; [reflexivity|]. cbn. lia.
  Qed.
  Lemma pending_progress k : forall n P hist, inv n P hist -> ~ finished (st n) -> pending c (st n) -> in_busy (ins (n + k)) = false -> progress n P.
  Proof.
    induction k as [|k IH]; intros n P hist I Hnf Hp Hb.
    all: destruct (i3_accept (st n) (ins n)) eqn:Ea; [apply (accept_progress n P hist I Ea)|].
    all: destruct (vo_state (vb_out (s_vb (st n)))) eqn:Es; [apply (pending_output n P hist I Hnf Hp Es)| |elim Hnf; exact Es].
    all: destruct (vo_dec c (vb_out (s_vb (st n))) (vi_consum (vb_in (s_vb (st n)))) (vi_end (vb_in (s_vb (st n)))) (in_busy (ins n))) eqn:Hd; [apply (emit_progress n P hist I Hnf Hd)|].
    all: pose proof (inv_S n P hist I) as I'; unfold vb_emit in I'; rewrite Hd, app_nil_r in I'.
    all: assert (Ea' : ac (S n) = ac n) by (rewrite ac_S, Ea, app_nil_r; reflexivity).
    all: assert (Hnf' : ~ finished (st (S n))) by (rewrite st_S; apply nodec_not_finished; assumption).
    all: assert (Hp' : pending c (st (S n))) by (rewrite st_S; apply (pending_stable _ _ _ _ _ _ _ _ _ _ _ Hc (proj1 I) Hnf Hp Hd)).
    - rewrite Nat.add_0_r in Hb. eapply progress_later; [exact I'|apply le_n|exact Ea'|]. eapply pending_output; [exact I'|exact Hnf'|exact Hp'|].
      rewrite st_S, st_vb. unfold vb_step. cbn [vb_out]. unfold vo_step. rewrite Hd, Es, Hb. reflexivity.
    - eapply progress_later; [exact I'|apply le_n|exact Ea'|]. eapply IH; [exact I'|exact Hnf'|exact Hp'|]. rewrite <- Hb. f_equal. f_equal. lia.
  Qed.
  Lemma always_progress n P hist : inv n P hist -> ~ finished (st n) -> progress n P.
  Proof.
    intros I Hnf. destruct (to_pending (S (Z.to_nat (mu c t hist (st n)))) n P hist I Hnf ltac:(lia)) as (n' & hist' & L & J1 & J2 & J3 & J4).
    assert (X : progress n' P).
    { destruct J4 as [J4|J4]; [|exact (accept_progress n' P hist' J1 J4)]. destruct (busy_fair n') as (m & Hm & Hb). apply (pending_progress (m - n') n' P hist' J1 J3 J4). rewrite <- Hb. f_equal. f_equal. lia. }
    destruct X as (n2 & P2 & h2 & L2 & K1 & K2). exists n2, P2, h2. split; [lia|]. split; [exact K1|]. rewrite J2 in K2. exact K2.
  Qed.
  Lemma P_le n P hist : inv n P hist -> (length P <= length (frame_toks t (bd c) W (ac n) (G * H)))%nat.
  Proof. intros [I _]. rewrite <- (v_tok _ _ _ _ _ _ _ _ _ _ I), app_length. lia. Qed.
  Lemma reaches_end a : forall b n P hist, inv n P hist -> G * H - len (ac n) <= Z.of_nat a -> (length (frame_toks t (bd c) W (ac n) (G * H)) - length P <= b)%nat -> exists n', finished (st n').
  Proof.
    induction a as [a IHa] using lt_wf_ind. induction b as [b IHb] using lt_wf_ind. intros n P hist I La Lb.
    destruct (finished_dec (st n)) as [Hfin|Hnf]; [exists n; exact Hfin|].
    destruct (always_progress n P hist I Hnf) as (n' & P' & hist' & L & I' & [Hfin|[HA|[HA HP]]]); [exists n'; exact Hfin| |].
    - pose proof (v_len _ _ _ _ _ _ _ _ _ _ (proj1 I')) as L'. apply (IHa (Z.to_nat (G * H - len (ac n'))) ltac:(lia) _ n' P' hist' I' ltac:(lia) (le_n _)).
    - pose proof (P_le n' P' hist' I') as B. rewrite HA in B. apply (IHb (length (frame_toks t (bd c) W (ac n) (G * H)) - length P')%nat ltac:(lia) n' P' hist' I'); [rewrite HA; exact La|rewrite HA; lia].
  Qed.
  Lemma finished_stays n : finished (st n) -> forall k, finished (st (n + k)).
  Proof.
    intros Hfin. induction k as [|k IH]; [rewrite Nat.add_0_r; exact Hfin|]. rewrite Nat.add_succ_r, st_S. unfold finished in *. rewrite st_vb. unfold vb_step. cbn [vb_out]. unfold vo_step, vo_dec. rewrite IH. exact IH.
  Qed.
  Lemma inv_exists n : exists P hist, inv n P hist.
  Proof.
    induction n as [|n (P & hist & I)]; [|eexists _, _; apply (inv_S n P hist I)].
    destruct Hr as (st1 & d1 & st2 & d2 & rps & L1 & L2 & L3 & E). destruct (frame_geom c W H Hc Hf) as [Hg HG4]. exists [], []. split; [|unfold st; cbn; rewrite E; cbn; lia].
    unfold st, ac, tr. cbn. rewrite E. apply i3_inv_reset; assumption.
  Qed.
  Lemma live_end : exists n, existsb snd (tr n) = true.
  Proof.
    destruct (inv_exists 0) as (P & hist & I). destruct (reaches_end _ _ 0 P hist I ltac:(rewrite <- (Z2Nat.id (G * H - len (ac 0))); [apply Z.le_refl|pose proof (v_len _ _ _ _ _ _ _ _ _ _ (proj1 I)); lia]) (le_n _)) as [n Hn].
    destruct (busy_fair n) as (m & Hm & Hb). exists (S m). rewrite tr_S, existsb_app. destruct (inv_exists m) as (P2 & h2 & I2 & _).
    pose proof (finished_stays n Hn (m - n)) as Fm. replace (n + (m - n))%nat with m in Fm by lia. destruct (v_vb _ _ _ _ _ _ _ _ _ _ I2) as [Vo _]. unfold vo_inv in Vo. unfold finished in Fm. rewrite Fm in Vo. destruct Vo as [V1 V2].
    unfold transferred. rewrite V1, V2, Hb. cbn. apply orb_true_r.
  Qed.
End live.

(* C18.  For every configuration, frame size, table, pixel data and every infinite schedule of source and sink in which
   - the sink is ready again and again,
   - the source offers pixels again and again as long as pixels of the frame are missing,
   the word with the end mark is handed over after finitely many cycles; then exactly the W x H pixels were accepted and
   the words decode to them. *)
Theorem C18_completes : forall c t W H s0 (ins : nat -> i3_in),
  cfg_ok c = true -> table_ok (bd c) t -> frame_ok c W H -> is_reset c s0 -> (forall n, in_ok c W H (ins n)) ->
  (forall n, exists m, (n <= m)%nat /\ in_busy (ins m) = false) ->
  (forall n, len (concat (i3_accepted c (mem_of (bd c) t) s0 (upto ins n))) < W * H -> exists m, (n <= m)%nat /\ in_valid (ins m) = true) ->
  exists n, let out := i3_transfers c (mem_of (bd c) t) s0 (upto ins n) in let acc := i3_accepted c (mem_of (bd c) t) s0 (upto ins n) in
    existsb snd out = true /\ len (concat acc) = W * H /\
    (bd c <= 15 -> prefix_free t -> decode_frame t (bd c) W H (stream (outb c) (map fst (cut out))) = Some (concat acc)).
Proof.
  intros c t W H s0 ins Hc Ht Hf Hr Hin Hb Hv. destruct (live_end c t W H s0 ins Hc Ht Hf Hr (fun n => in_ok_acc c W H _ _ (Hin n)) Hb Hv) as [n Hn]. exists n.
  assert (HF : Forall (in_ok c W H) (upto ins n)) by (apply Forall_forall; intros i Hi; apply in_map_iff in Hi; destruct Hi as (k & <- & _); apply Hin).
  cbv zeta. split; [exact Hn|]. destruct (C15_end_word c t W H s0 (upto ins n) Hc Ht Hf Hr HF Hn) as [L _]. split; [exact L|]. intros B Hp.
  apply (C01_lossless_table c t W H s0 (upto ins n) Hc B Ht Hp Hf Hr HF Hn).
Qed.
(* C18.  In particular the core never stops for good: from every reachable state, also after any number of stalls, a ready sink and an
   offering source finish the frame (the schedule before is arbitrary). *)
Theorem C18_from_any_state : forall c t W H s0 pre (ins : nat -> i3_in),
  cfg_ok c = true -> table_ok (bd c) t -> frame_ok c W H -> is_reset c s0 -> Forall (in_ok c W H) pre -> (forall n, in_ok c W H (ins n)) ->
  (forall n, in_busy (ins n) = false /\ in_valid (ins n) = true) ->
  exists n, existsb snd (i3_transfers c (mem_of (bd c) t) s0 (pre ++ upto ins n)) = true.
Proof.
  intros c t W H s0 pre ins Hc Ht Hf Hr Hp Hin Hgo.
  set (all := fun k => if Nat.ltb k (length pre) then nth k pre (ins 0%nat) else ins (k - length pre)%nat).
  assert (Hall : forall n, in_ok c W H (all n)).
  { intros n. unfold all. destruct (Nat.ltb_spec n (length pre)); [|apply Hin]. rewrite Forall_forall in Hp. apply Hp, nth_In. assumption. }
  assert (Hfair : forall n, exists m, (n <= m)%nat /\ in_busy (all m) = false /\ in_valid (all m) = true).
  { intros n. exists (n + length pre)%nat. split; [lia|]. unfold all. destruct (Nat.ltb_spec (n + length pre) (length pre)); [lia|]. apply Hgo. }
  destruct (C18_completes c t W H s0 all Hc Ht Hf Hr Hall) as (n & Hn & _).
  { intros n. destruct (Hfair n) as (m & L & A & _). exists m. auto. }
  { intros n _. destruct (Hfair n) as (m & L & _ & A). exists m. auto. }
  exists n. assert (E : forall k, upto all (length pre + k) = pre ++ upto ins k).
  { intros k. unfold upto. rewrite seq_app, map_app. f_equal.
    - apply nth_ext with (d := ins 0%nat) (d' := ins 0%nat); [rewrite map_length, seq_length; reflexivity|]. intros j Hj. rewrite map_length, seq_length in Hj.
      rewrite (nth_indep _ _ (all 0%nat)) by (rewrite map_length, seq_length; exact Hj). rewrite map_nth, seq_nth by exact Hj. unfold all. cbn [Nat.add]. destruct (Nat.ltb_spec j (length pre)); [reflexivity|lia].
    - cbn [Nat.add]. replace (length pre) with (length pre + 0)%nat at 1 by lia. generalize 0%nat as o. induction k as [|k IH]; intros o; [reflexivity|]. cbn [seq map]. f_equal; [|rewrite <- Nat.add_succ_r; apply IH].
      unfold all. destruct (Nat.ltb_spec (length pre + o) (length pre)); [lia|]. f_equal. lia. }
  rewrite <- E. assert (L : exists r, upto all (length pre + n) = upto all n ++ r).
  { unfold upto. rewrite Nat.add_comm, seq_app, map_app. eexists. reflexivity. }
  destruct L as [r ->]. rewrite transfers_app, existsb_app, Hn. reflexivity.
Qed.

(* a source that offers in one cycle of five and a sink that is ready in one of three *)
Definition live_ex (k : nat) : i3_in :=
  {| in_valid := Nat.eqb (Nat.modulo k 5) 2; in_px := [Z.of_nat k * 37 mod 4096; 4095 - Z.of_nat k * 51 mod 4096]; in_busy := negb (Nat.eqb (Nat.modulo k 3) 1); in_w := 4; in_h := 3 |}.
Example C18_example : (forall n, in_ok ex_cfg 4 3 (live_ex n)) /\ (forall n, exists m, (n <= m)%nat /\ in_busy (live_ex m) = false) /\ (forall n, exists m, (n <= m)%nat /\ in_valid (live_ex m) = true) /\
  existsb snd (i3_transfers ex_cfg (init_huff_table 12) (i3_init ex_cfg) (upto live_ex 100)) = true.
Proof.
  split; [|split; [|split]].
  - intros k _. split; [|split; reflexivity]. split; [reflexivity|].
    assert (0 <= Z.of_nat k * 37 mod 4096 < 4096) by (apply Z.mod_pos_bound; lia).
    assert (0 <= Z.of_nat k * 51 mod 4096 < 4096) by (apply Z.mod_pos_bound; lia).
    constructor; [|constructor; [|constructor]]; unfold in_range; change (2 ^ bd ex_cfg) with 4096; lia.
  - intros n. exists (1 + n * 3)%nat. split; [lia|]. cbn [in_busy live_ex]. rewrite Nat.mod_add by lia. reflexivity.
  - intros n. exists (2 + n * 5)%nat. split; [lia|]. cbn [in_valid live_ex]. rewrite Nat.mod_add by lia. reflexivity.
  - vm_compute. reflexivity.
Qed.
