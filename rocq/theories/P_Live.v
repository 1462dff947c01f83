(* No deadlock: with a sink that is ready again and again and a source that offers pixels
   again and again, the whole frame comes out. *)
From Verif Require Import Bits Spec Spec_Core M_Config M_Signals M_Predictor M_Difference M_Encode M_Merge M_I1 M_Fifo M_Converter M_VBits M_I3
  P_Fifo P_Encode P_Merge P_Signals P_Predictor P_I1 P_Tokens P_Converter P_VBits P_I3 P_Decode P_Run.
Ltac Zify.zify_post_hook ::= idtac.

Definition pending (c : config) (s : i3_st) : Prop :=
  outb c <= vi_consum (vb_in (s_vb s)) \/ vi_end (vb_in (s_vb s)) = true.

Definition finished (s : i3_st) : Prop := vo_state (vb_out (s_vb s)) = VO_END.

(* ---- sizes ---- *)
Definition z_v (s : i3_st) : Z := len (vi_items (vb_in (s_vb s))).
Definition z_q2 (c : config) (s : i3_st) : Z := len (qtok (cf_db c) (cf_cb c) (fifo_q (cfd c) (s_cf s))).
Definition z_o (s : i3_st) : Z := len (cv_outtok (s_cv s)).
Definition z_k (c : config) (s : i3_st) : Z := len (cv_contents c (s_cv s)).
Definition z_q1 (c : config) (s : i3_st) : Z := len (qtok (lj_db c) (lj_cb c) (fifo_q (ljd c) (s_ljf s))).
Definition z_h (c : config) (t : table) (hist : hist_t) : Z := len (htok t hist (latency c)).

Definition bigsum (c : config) (t : table) (hist : hist_t) (s : i3_st) : Z :=
  z_v s + 2 * z_q2 c s + 3 * z_o s + 4 * z_k c s + 5 * z_q1 c s + 6 * z_h c t hist.

Lemma len_app {X} (a b : list X) : len (a ++ b) = len a + len b.
Proof. unfold len. rewrite app_length. lia. Qed.
Lemma len_nonneg {X} (a : list X) : 0 <= len a.
Proof. unfold len. lia. Qed.

Lemma tk_len v n e : 0 <= n -> len (tk v n e) = n + b2z e.
Proof.
  intros. unfold tk. rewrite len_app, len_map. unfold len at 1. rewrite bitsz_length by lia. destruct e; reflexivity.
Qed.

Definition moved2 (s : i3_st) : bool := vi_latch_input (vb_in (s_vb s)) && ff_rd (s_cf s).
Definition moved1 (s : i3_st) : bool := cv_latch_output (s_cv s) && ff_rd (s_ljf s).

(* movement of tokens in a step without acceptance and without an output word *)
Lemma step_moves c t W H G A P done hist s i :
  cfg_ok c = true -> table_ok (bd c) t -> geom (ps c) W H G -> 4 / ps c <= G ->
  i3_inv c t W H G A P done hist s ->
  ~ finished s -> ~ pending c s -> i3_accept s i = false ->
  let s' := i3_step c (mem_of (bd c) t) s i in
  ~ pending c s' ->
  exists y1 x2 x1 w,
    bigsum c t (None :: hist) s' = bigsum c t hist s - (y1 + x2 + z_o s + z_o s' + x1 + w) /\
    0 <= y1 /\ 0 <= x2 /\ 0 <= x1 /\ 0 <= w /\
    (vi_inc (vb_in (s_vb s)) = true -> 1 <= y1) /\
    (moved2 s = true -> 1 <= x2) /\ (moved1 s = true -> 1 <= x1) /\
    (i1_valid_out c (s_i1 s) = true -> 1 <= w) /\
    (cv_valid_in (s_cv s) = true -> 1 <= z_o s) /\
    (cv_valid_in (s_cv s') = true -> 1 <= z_o s').
Proof.
  intros Hc Ht Hg HG4 I Hnf Hnp Hacc s' Hnp'.
  assert (Hin : acc_ok c W H s i) by (intros X; congruence).
  pose proof (i3_inv_step c t W H G A P done hist s i Hc Ht Hg HG4 Hin I) as I'.
  pose proof (cfg_cv c Hc) as Hcv. pose proof (cfg_vb c Hc) as Hvb. pose proof (cfg_cfd c Hc) as Hcfd.
  pose proof (cv_k_bound c Hcv) as (K1 & K2 & K3). assert (Hst : cf_steps c = cv_k c + 3) by reflexivity.
  assert (Hljd : 25 <= ljd c) by (unfold cfg_ok in Hc; lia).
  pose proof (latency_bound c Hc) as Hlat.
  set (mem := mem_of (bd c) t) in *. fold s' in I'.
  destruct I as [Ilen IA Isig Ipred Ii1 Ihist Ine1 Ine2 Iljf Iljw Iljb Icv Icff Icfw Icfb Ivb Idone Iend Itok].
  (* packer *)
  destruct Ivb as [Ivo Ivi]. specialize (Ivi Hnf).
  assert (Hem : vo_dec c (vb_out (s_vb s)) (vi_consum (vb_in (s_vb s))) (vi_end (vb_in (s_vb s))) (in_busy i) = false).
  { unfold pending in Hnp. unfold vo_dec, vo_ge.
    destruct (vi_end (vb_in (s_vb s))); [exfalso; apply Hnp; right; reflexivity|].
    replace (outb c <=? vi_consum (vb_in (s_vb s))) with false by lia.
    destruct (vo_state (vb_out (s_vb s))); rewrite ?andb_false_r; reflexivity. }
  assert (Hne : vi_end (vb_in (s_vb s)) = false).
  { destruct (vi_end (vb_in (s_vb s))) eqn:E; [|reflexivity]. exfalso. apply Hnp. right. assumption. }
  assert (Hne' : vi_end (vb_in (s_vb s')) = false).
  { destruct (vi_end (vb_in (s_vb s'))) eqn:E; [|reflexivity]. exfalso. apply Hnp'. right. assumption. }
  set (cq := ff_dout (s_cf s)) in *. set (lq := ff_dout (s_ljf s)) in *.
  assert (Hv2 : ff_rd (s_cf s) = true -> iok c (item_enc (cf_db c) (cf_cb c) cq) (item_ctr (cf_db c) (cf_cb c) cq)).
  { intros E. destruct (fifo_head (cfd c) _ E) as [r Hr]. rewrite Hr in Icfw. inversion Icfw as [|? ? [X1 X2] _]; subst. split; assumption. }
  assert (Hvb' : vb_in (s_vb s') = vi_step c (vb_in (s_vb s)) (item_enc (cf_db c) (cf_cb c) cq) (item_ctr (cf_db c) (cf_cb c) cq)
            (item_end (cf_db c) (cf_cb c) cq) (ff_rd (s_cf s)) false).
  { unfold s', i3_step. destruct (i1_out c (s_i1 s)). cbn [s_vb]. unfold vb_step; cbn [vb_in]. rewrite Hem. reflexivity. }
  destruct (vi_step_ok c (vb_in (s_vb s)) (item_enc (cf_db c) (cf_cb c) cq) (item_ctr (cf_db c) (cf_cb c) cq)
            (item_end (cf_db c) (cf_cb c) cq) (ff_rd (s_cf s)) false Hvb Ivi Hv2 ltac:(congruence) ltac:(discriminate) ltac:(discriminate)) as [Vi1 Vi2].
  pose proof (vi_arith c (vb_in (s_vb s)) (item_enc (cf_db c) (cf_cb c) cq) (item_ctr (cf_db c) (cf_cb c) cq)
            (item_end (cf_db c) (cf_cb c) cq) (ff_rd (s_cf s)) false Hvb Ivi ltac:(congruence) ltac:(discriminate) ltac:(discriminate)) as VA.
  cbv zeta in VA, Vi1, Vi2. rewrite <- Hvb' in *. destruct VA as (VA1 & _ & _ & VA4 & _).
  apply (f_equal len) in Vi2. cbn [app] in Vi2. unfold vi_pend in Vi2. rewrite !len_app in Vi2.
  fold (moved2 s) in Vi2. fold (wtok (cf_db c) (cf_cb c) cq) in Vi2.
  rewrite !tk_len in Vi2 by (destruct Ivi as (_ & _ & _ & _ & X & _); lia).
  rewrite Hne, Hne' in Vi2. cbn [b2z] in Vi2.
  fold (z_v s) (z_v s') in Vi2.
  pose proof (vi_inc_items c (vb_in (s_vb s)) Ivi) as Hinc.
  set (y1 := if vi_inc (vb_in (s_vb s)) then vi_ctr_reg (vb_in (s_vb s)) else 0) in *.
  set (x2 := len (if moved2 s then wtok (cf_db c) (cf_cb c) cq else [])) in *.
  (* converter *)
  assert (Hlq : ff_rd (s_ljf s) = true -> 1 <= item_ctr (lj_db c) (lj_cb c) lq <= total_ctr c /\
     0 <= item_enc (lj_db c) (lj_cb c) lq < 2 ^ item_ctr (lj_db c) (lj_cb c) lq).
  { intros E. destruct (fifo_head (ljd c) _ E) as [r Hr]. rewrite Hr in Iljw. inversion Iljw as [|? ? [X1 X2] _]; subst.
    split; assumption. }
  destruct (cv_step_ok c (s_cv s) (item_enc (lj_db c) (lj_cb c) lq) (item_ctr (lj_db c) (lj_cb c) lq)
              (item_end (lj_db c) (lj_cb c) lq) (ff_rd (s_ljf s)) (s_cf_cf s) Hcv Icv Hlq) as [Cv1 Cv2].
  assert (Ecv : s_cv s' = cv_step c (s_cv s) (item_enc (lj_db c) (lj_cb c) lq) (item_ctr (lj_db c) (lj_cb c) lq)
              (item_end (lj_db c) (lj_cb c) lq) (ff_rd (s_ljf s)) (s_cf_cf s)).
  { unfold s', i3_step. destruct (i1_out c (s_i1 s)). reflexivity. }
  rewrite <- Ecv in Cv1, Cv2. apply (f_equal len) in Cv2. rewrite !len_app in Cv2.
  fold (z_o s') (z_k c s') (z_k c s) (moved1 s) (wtok (lj_db c) (lj_cb c) lq) in Cv2.
  set (x1 := len (if moved1 s then wtok (lj_db c) (lj_cb c) lq else [])) in *.
  (* converter fifo *)
  set (cw := item_pack (cf_db c) (cf_cb c) (cv_enc_in (s_cv s)) (cv_enc_in_ctr (s_cv s)) (cv_in_end (s_cv s))) in *.
  assert (Hcw : cv_valid_in (s_cv s) = true -> wtok (cf_db c) (cf_cb c) cw = cv_outtok (s_cv s)).
  { intros E. destruct Icv as (_ & _ & _ & X4 & _). destruct (X4 E) as [Y1 Y2].
    unfold cv_outtok. rewrite E. unfold cw, cf_db, cf_cb. apply wtok_pack; assumption. }
  destruct (fifo_step_ok (cfd c) (s_cf s) (cv_valid_in (s_cv s)) cw (vi_latch_input (vb_in (s_vb s))) ltac:(lia) Icff) as [Fc1 Fc2].
  assert (Hcwr : cv_valid_in (s_cv s) && fifo_writable (cfd c) (s_cf s) = cv_valid_in (s_cv s)).
  { destruct (cv_valid_in (s_cv s)) eqn:E; [|reflexivity]. apply fifo_writable_level; [assumption|].
    destruct Icfb as [X _]. unfold cv_weight in X. rewrite E in X. cbn [b2z] in X.
    assert (0 <= match cv_state (s_cv s) with CV_IDLE => 0 | CV_STEPS i0 => Z.of_nat i0 + 1 | _ => cv_k c end)
      by (destruct (cv_state (s_cv s)); lia). lia. }
  rewrite Hcwr in Fc2.
  assert (Ecf : s_cf s' = fifo_step (cfd c) (s_cf s) (cv_valid_in (s_cv s)) cw (vi_latch_input (vb_in (s_vb s)))).
  { unfold s', i3_step. destruct (i1_out c (s_i1 s)). reflexivity. }
  assert (Hq2 : z_q2 c s' = z_q2 c s - x2 + z_o s).
  { unfold z_q2. rewrite Ecf, Fc2, qtok_app, len_app. unfold fifo_take. fold (moved2 s).
    assert (len (qtok (cf_db c) (cf_cb c) (if cv_valid_in (s_cv s) then [cw] else [])) = z_o s) as ->.
    { unfold z_o. destruct (cv_valid_in (s_cv s)) eqn:E.
      - cbn [qtok flat_map]. rewrite app_nil_r, Hcw by reflexivity. reflexivity.
      - unfold cv_outtok. rewrite E. reflexivity. }
    unfold x2. destruct (moved2 s) eqn:E; [|change (len []) with 0; lia].
    unfold moved2 in E. apply andb_prop in E. destruct E as [_ E].
    destruct (fifo_head (cfd c) _ E) as [r Hr]. rewrite Hr. cbn [tl qtok flat_map]. rewrite len_app. fold cq. unfold qtok. lia. }
  (* LJ fifo *)
  destruct (i1_inv_out c mem (s_i1 s) hist Hc Ii1) as [Hvo Hout].
  assert (HlS : exists n, latency c = S n) by (exists (latency c - 1)%nat; lia). destruct HlS as [n Hn].
  set (lw := item_pack (lj_db c) (lj_cb c) (fst (i1_out c (s_i1 s))) (snd (i1_out c (s_i1 s))) (i1_end_out c (s_i1 s))) in *.
  assert (Hitem : i1_valid_out c (s_i1 s) = true -> wtok (lj_db c) (lj_cb c) lw = tok1 t (nth n hist None) /\ 1 <= len (wtok (lj_db c) (lj_cb c) lw)).
  { intros E. rewrite Hvo in E. rewrite Hn in E, Hout. replace (S n - 1)%nat with n in * by lia.
    destruct (nth n hist None) as [[[px0 pr0] e0]|] eqn:En; [|discriminate E].
    assert (Hgk : group_ok (bd c) (ps c) px0 /\ group_ok (bd c) (ps c) pr0).
    { unfold hist_ok in Ihist. rewrite Forall_forall in Ihist. apply (Ihist (nth n hist None)) with (e := e0); [|assumption].
      apply nth_In. destruct (Nat.ltb n (length hist)) eqn:El; [apply Nat.ltb_lt; assumption|].
      apply Nat.ltb_ge in El. rewrite nth_overflow in En by assumption. discriminate. }
    destruct Hgk as [Hok1 Hok2].
    destruct (pipe_item c t px0 pr0 e0 Hc Ht Hok1 Hok2) as (X1 & X2 & X3). fold mem in X1, X2, X3.
    destruct (Hout _ _ _ eq_refl) as [Y1 Y2].
    { apply (h_items_spec (bd c) t px0 pr0); [unfold cfg_ok in Hc; lia|assumption|apply Hok1|apply Hok2]. }
    unfold lw. rewrite Y1, Y2. unfold lj_db, lj_cb.
    destruct (wtok_pack (total_ctr c) _ _ e0 X1 X2) as [Z1 Z2]. rewrite Z1. split; [assumption|].
    rewrite tk_len by lia. destruct e0; cbn [b2z]; lia. }
  assert (Hcnt := hcount_S hist n). rewrite <- Hn in Hcnt.
  replace (nth n hist None) with (nth (latency c - 1) hist None) in Hcnt by (rewrite Hn; f_equal; lia). rewrite <- Hvo in Hcnt.
  destruct (fifo_step_ok (ljd c) (s_ljf s) (i1_valid_out c (s_i1 s)) lw (cv_latch_output (s_cv s)) ltac:(lia) Iljf) as [Fl1 Fl2].
  assert (Hwe : i1_valid_out c (s_i1 s) && fifo_writable (ljd c) (s_ljf s) = i1_valid_out c (s_i1 s)).
  { destruct (i1_valid_out c (s_i1 s)) eqn:E; [|reflexivity]. apply fifo_writable_level; [assumption|].
    pose proof (hcount_le hist n). cbn [b2z] in Hcnt. lia. }
  rewrite Hwe in Fl2.
  assert (Elj : s_ljf s' = fifo_step (ljd c) (s_ljf s) (i1_valid_out c (s_i1 s)) lw (cv_latch_output (s_cv s))).
  { unfold s', i3_step, lw. destruct (i1_out c (s_i1 s)). reflexivity. }
  set (w := len (tok1 t (nth n hist None))).
  assert (Hw : len (qtok (lj_db c) (lj_cb c) (if i1_valid_out c (s_i1 s) then [lw] else [])) = w).
  { unfold w. destruct (i1_valid_out c (s_i1 s)) eqn:E.
    - cbn [qtok flat_map]. rewrite app_nil_r. destruct (Hitem eq_refl) as [-> _]. reflexivity.
    - rewrite Hn in Hvo. replace (S n - 1)%nat with n in Hvo by lia.
      destruct (nth n hist None); [discriminate Hvo|reflexivity]. }
  assert (Hq1 : z_q1 c s' = z_q1 c s - x1 + w).
  { unfold z_q1. rewrite Elj, Fl2, qtok_app, len_app, Hw. unfold fifo_take. fold (moved1 s).
    unfold x1. destruct (moved1 s) eqn:E; [|change (len []) with 0; lia].
    unfold moved1 in E. apply andb_prop in E. destruct E as [_ E].
    destruct (fifo_head (ljd c) _ E) as [r Hr]. rewrite Hr. cbn [tl qtok flat_map]. rewrite len_app. fold lq. unfold qtok. lia. }
  assert (Hh : z_h c t (None :: hist) = z_h c t hist - w).
  { unfold z_h. rewrite Hn, htok_cons, htok_S, !len_app. unfold w. cbn [tok1]. change (len []) with 0. lia. }
  exists y1, x2, x1, w. split.
  { unfold bigsum. lia. }
  split; [unfold y1; destruct (vi_inc (vb_in (s_vb s))); [destruct (Hinc eq_refl) as [[X _] _]; lia|lia]|].
  split; [apply len_nonneg|]. split; [apply len_nonneg|]. split; [apply len_nonneg|].
  split; [unfold y1; intros E; rewrite E; destruct (Hinc E) as [[X _] _]; lia|].
  split.
  { intros E. unfold x2. rewrite E. unfold moved2 in E. apply andb_prop in E. destruct E as [_ E].
    destruct (Hv2 E) as [X _]. unfold wtok. rewrite tk_len by lia. destruct (item_end (cf_db c) (cf_cb c) cq); cbn [b2z]; lia. }
  split.
  { intros E. unfold x1. rewrite E. unfold moved1 in E. apply andb_prop in E. destruct E as [_ E].
    destruct (Hlq E) as [X _]. unfold wtok. rewrite tk_len by lia. destruct (item_end (lj_db c) (lj_cb c) lq); cbn [b2z]; lia. }
  split.
  { intros E. destruct (Hitem E) as [X1 X2]. unfold w. rewrite <- X1. exact X2. }
  split.
  - intros E. destruct Icv as (_ & _ & _ & X4 & _). destruct (X4 E) as [Y1 _].
    unfold z_o, cv_outtok. rewrite E, tk_len by lia. destruct (cv_in_end (s_cv s)); cbn [b2z]; lia.
  - intros E. destruct Cv1 as (_ & _ & _ & X4 & _). destruct (X4 E) as [Y1 _].
    unfold z_o, cv_outtok. rewrite E, tk_len by lia. destruct (cv_in_end (s_cv s')); cbn [b2z]; lia.
Qed.
