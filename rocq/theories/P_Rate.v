(* Throughput: while the groups code into few bits the stages in front of the bit packer never wait. *)
From Verif Require Import Bits Spec Spec_Core M_Config M_Signals M_Predictor M_Difference M_Encode M_Merge M_I1 M_Fifo M_Converter M_VBits M_I3
  P_Fifo P_Encode P_Merge P_Signals P_Predictor P_I1 P_Tokens P_Converter P_VBits P_I3 P_Decode P_Run P_Live P_Live2.
Ltac Zify.zify_post_hook ::= idtac.

(* code bits of a group in the pipeline *)
Definition gsize (t : table) (h : option grp) : Z :=
  match h with Some (px, pr, _) => len (concat (map2 (fun p q => encode_diff t (p - q)) px pr)) | None => 0 end.
Definition lctr (c : config) (w : Z) : Z := item_ctr (lj_db c) (lj_cb c) w.
Definition cctr (c : config) (w : Z) : Z := item_ctr (cf_db c) (cf_cb c) w.

Record fr_inv (c : config) (t : table) (M : Z) (hist : hist_t) (s : i3_st) : Prop := {
  fr_h : Forall (fun h => gsize t h <= M) hist;
  fr_q : Forall (fun w => lctr c w <= M) (fifo_q (ljd c) (s_ljf s));
  fr_st : match cv_state (s_cv s) with
          | CV_IDLE => cv_valid_reg (s_cv s) = false /\ ff_lvl (s_ljf s) <= 1
          | CV_BURST_PREPARE => ff_rd (s_ljf s) = true /\ ff_lvl (s_ljf s) <= 2
          | CV_BURST => ff_lvl (s_ljf s) <= 2
          | CV_STEPS _ => False end;
  fr_reg : cv_valid_reg (s_cv s) = true -> cv_ctr_reg (s_cv s) <= M;
  fr_in : cv_valid_in (s_cv s) = true -> cv_enc_in_ctr (s_cv s) <= M;
  fr_cf : s_lj_cf s = false }.

Lemma ctr_pack db v n e : 1 <= n <= db -> 0 <= v < 2 ^ n -> item_ctr db (clog2 (db + 1)) (item_pack db (clog2 (db + 1)) v n e) = n.
Proof.
  intros Hn Hv. assert (Hcb : 0 <= clog2 (db + 1)) by (apply clog2_spec; lia).
  assert (Hv' : 0 <= v < 2 ^ db) by (pose proof (pow2_le n db ltac:(lia)); lia).
  assert (Hn' : 0 <= n < 2 ^ clog2 (db + 1)) by (apply clog2_fits; lia).
  apply item_ctr_pack; assumption || lia.
Qed.

(* fifo levels: write enable w, read enable r *)
Lemma lvl_step D f we din re : fifo_inv D f -> (we = true -> fifo_writable D f = true) ->
  ff_lvl (fifo_step D f we din re) = ff_lvl f + b2z we - b2z (negb (ff_lvl f =? 0) && (negb (ff_rd f) || re)).
Proof.
  intros _ Hw. unfold fifo_step. cbn [ff_lvl]. destruct we; [rewrite (Hw eq_refl)|rewrite andb_false_r]; cbn [andb];
    destruct (negb (ff_lvl f =? 0) && (negb (ff_rd f) || re)); cbn [andb negb b2z]; lia.
Qed.

Lemma fr_reset c t M st1 d1 st2 d2 rps : cfg_ok c = true -> Z.of_nat (length st1) = ljd c - 1 -> fr_inv c t M [] (i3_reset c st1 d1 st2 d2 rps).
Proof. intros Hc Hl. split; cbn; try discriminate; try constructor; try constructor; lia. Qed.

(* the item leaving the arithmetic pipeline *)
Lemma i1_item c t W H G A P done hist s px pr e : cfg_ok c = true -> table_ok (bd c) t -> i3_inv c t W H G A P done hist s ->
  nth (latency c - 1) hist None = Some (px, pr, e) ->
  let v := fst (i1_out c (s_i1 s)) in let n := snd (i1_out c (s_i1 s)) in
  1 <= n <= total_ctr c /\ 0 <= v < 2 ^ n /\ n = gsize t (Some (px, pr, e)).
Proof.
  intros Hc Ht I E. pose proof (v_i1 _ _ _ _ _ _ _ _ _ _ I) as Ii. pose proof (v_hist _ _ _ _ _ _ _ _ _ _ I) as Ih.
  assert (Hb : 2 <= bd c <= 16) by (unfold cfg_ok in Hc; lia).
  destruct (i1_inv_out c (mem_of (bd c) t) (s_i1 s) hist Hc Ii) as [_ Ho].
  assert (Hok : group_ok (bd c) (ps c) px /\ group_ok (bd c) (ps c) pr).
  { unfold hist_ok in Ih. rewrite Forall_forall in Ih. apply (Ih (nth (latency c - 1) hist None)) with (e := e); [|assumption].
    apply nth_In. destruct (Nat.ltb (latency c - 1) (length hist)) eqn:El; [apply Nat.ltb_lt; assumption|].
    apply Nat.ltb_ge in El. rewrite nth_overflow in E by assumption. discriminate. }
  destruct (pipe_item c t px pr e Hc Ht (proj1 Hok) (proj2 Hok)) as (X1 & X2 & X3).
  destruct (Ho _ _ _ E) as [Y1 _]. { apply (h_items_spec (bd c) t px pr Hb Ht); apply Hok. }
  rewrite Y1. split; [exact X1|]. split; [exact X2|].
  apply (f_equal (@len tok)) in X3. rewrite tk_len in X3 by lia. unfold tok1, gsize in *. unfold len in *. rewrite app_length, map_length in X3. destruct e; cbn [length b2z] in X3; lia.
Qed.

Lemma lj_writable c t W H G A P done hist s : cfg_ok c = true -> i3_inv c t W H G A P done hist s ->
  i1_valid_out c (s_i1 s) = true -> fifo_writable (ljd c) (s_ljf s) = true.
Proof.
  intros Hc I E. pose proof (v_ljb _ _ _ _ _ _ _ _ _ _ I) as [B _]. pose proof (latency_bound c Hc) as Hl.
  destruct (i1_inv_out c (mem_of (bd c) t) (s_i1 s) hist Hc (v_i1 _ _ _ _ _ _ _ _ _ _ I)) as [Hv _]. rewrite E in Hv.
  apply fifo_writable_level; [apply (v_ljf _ _ _ _ _ _ _ _ _ _ I)|].
  destruct (latency c) as [|n] eqn:En; [lia|]. rewrite hcount_S in B. replace (S n - 1)%nat with n in Hv by lia. pose proof (hcount_le hist n). destruct (is_some (nth n hist None)); cbn [b2z] in B; [lia|discriminate].
Qed.

Lemma fr_step c t M W H G A P done hist s i :
  cfg_ok c = true -> table_ok (bd c) t -> 1 <= M <= conv c ->
  i3_inv c t W H G A P done hist s -> fr_inv c t M hist s -> s_cf_cf s = false ->
  gsize t (i3_new c G A s i) <= M ->
  fr_inv c t M (i3_new c G A s i :: hist) (i3_step c (mem_of (bd c) t) s i).
Proof.
  intros Hc Ht HM I [Fh Fq Fs Fr Fi Fc] Hcf Hg. set (mem := mem_of (bd c) t).
  pose proof (v_ljf _ _ _ _ _ _ _ _ _ _ I) as Jf. pose proof (v_cv _ _ _ _ _ _ _ _ _ _ I) as (C1 & C2 & C3 & C4 & C5).
  pose proof (lj_writable _ _ _ _ _ _ _ _ _ _ Hc I) as Jw.
  assert (Hl : 0 <= ff_lvl (s_ljf s)) by (apply Jf).
  assert (Hd : ff_rd (s_ljf s) = true -> lctr c (ff_dout (s_ljf s)) <= M).
  { intros E. destruct (fifo_head (ljd c) _ E) as [r Hr]. rewrite Hr in Fq. inversion Fq. assumption. }
  assert (Hljd : 25 <= ljd c) by (unfold cfg_ok in Hc; lia).
  assert (Hlv := lvl_step (ljd c) (s_ljf s) (i1_valid_out c (s_i1 s)) (item_pack (lj_db c) (lj_cb c) (fst (i1_out c (s_i1 s))) (snd (i1_out c (s_i1 s))) (i1_end_out c (s_i1 s))) (cv_latch_output (s_cv s)) Jf Jw).
  assert (Hrd := fifo_step_rd (ljd c) (s_ljf s) (i1_valid_out c (s_i1 s)) (item_pack (lj_db c) (lj_cb c) (fst (i1_out c (s_i1 s))) (snd (i1_out c (s_i1 s))) (i1_end_out c (s_i1 s))) (cv_latch_output (s_cv s))).
  rewrite <- (st_ljf c mem s i) in Hlv, Hrd. pose proof (b2z_01 (i1_valid_out c (s_i1 s))) as Hb.
  pose proof (st_cv c mem s i) as Ecv. rewrite Hcf in Ecv. fold (lctr c (ff_dout (s_ljf s))) in Ecv.
  assert (Hcap : trunc (clog2 (conv c + 1)) (cv_ctr_reg (s_cv s)) <= cv_ctr_reg (s_cv s) \/ cv_valid_reg (s_cv s) = false).
  { destruct (cv_valid_reg (s_cv s)) eqn:Er; [left|right; reflexivity]. rewrite trunc_clog2; [lia|]. specialize (C3 eq_refl). specialize (Fr eq_refl). lia. }
  split.
  - constructor; assumption.
  - rewrite st_ljf. destruct (fifo_step_ok (ljd c) (s_ljf s) (i1_valid_out c (s_i1 s)) (item_pack (lj_db c) (lj_cb c) (fst (i1_out c (s_i1 s))) (snd (i1_out c (s_i1 s))) (i1_end_out c (s_i1 s))) (cv_latch_output (s_cv s)) ltac:(lia) Jf) as [_ ->].
    apply Forall_app. split; [unfold fifo_take; apply Forall_tl; assumption|].
    destruct (i1_valid_out c (s_i1 s)) eqn:Ev; cbn [andb]; [|constructor]. destruct (fifo_writable (ljd c) (s_ljf s)); [|constructor].
    constructor; [|constructor]. destruct (i1_inv_out c mem (s_i1 s) hist Hc (v_i1 _ _ _ _ _ _ _ _ _ _ I)) as [Hv _]. rewrite Ev in Hv.
    destruct (nth (latency c - 1) hist None) as [[[px pr] e]|] eqn:En; [|discriminate].
    destruct (i1_item c t W H G A P done hist s px pr e Hc Ht I En) as (X1 & X2 & X3). unfold lctr, lj_db, lj_cb. rewrite ctr_pack by assumption. assert (X4 : gsize t (nth (latency c - 1) hist None) <= M); [|rewrite En in X4; cbv zeta in X3; rewrite X3; exact X4]. rewrite Forall_forall in Fh.
    destruct (Nat.ltb (latency c - 1) (length hist)) eqn:El; [apply Nat.ltb_lt in El; apply Fh, nth_In; assumption|apply Nat.ltb_ge in El; rewrite nth_overflow by assumption; cbn; lia].
  - rewrite Ecv. unfold cv_step, cv_try. destruct (cv_state (s_cv s)) eqn:Es.
    + destruct Fs as [F1 F2]. rewrite F1. cbn [andb negb]. destruct (ff_rd (s_ljf s)) eqn:Er; cbn [andb negb cv_state cv_valid_reg].
      * rewrite C1, orb_false_r, andb_false_r in Hrd. cbn [negb orb andb b2z] in Hlv, Hrd. rewrite C1, andb_false_r in Hlv. cbn [b2z] in Hlv. split; [exact Hrd|lia].
      * split; [first [assumption|reflexivity]|]. cbn [negb orb] in Hlv. rewrite andb_true_r in Hlv. destruct (ff_lvl (s_ljf s) =? 0) eqn:E0; cbn [negb b2z] in Hlv; lia.
    + destruct Fs as [F1 F2]. cbn [cv_state]. rewrite C1, F1 in Hlv. cbn [negb orb] in Hlv. rewrite andb_true_r in Hlv. destruct (ff_lvl (s_ljf s) =? 0) eqn:E0; cbn [negb b2z] in Hlv; lia.
    + assert (Hlv' : ff_lvl (s_ljf (i3_step c mem s i)) <= 2).
      { rewrite C1, orb_true_r, andb_true_r in Hlv. destruct (ff_lvl (s_ljf s) =? 0) eqn:E0; cbn [negb b2z] in Hlv; lia. }
      destruct (cv_valid_reg (s_cv s)) eqn:Er; [|cbn [cv_state]; exact Hlv']. replace (cv_ctr_reg (s_cv s) <=? conv c) with true by (specialize (Fr eq_refl); lia). cbn [cv_state]. exact Hlv'.
    + destruct Fs.
  - rewrite Ecv. unfold cv_step, cv_try. destruct (cv_state (s_cv s)) eqn:Es.
    + destruct (cv_valid_reg (s_cv s) && negb false); [|destruct (ff_rd (s_ljf s) && negb false)]; cbn [cv_valid_reg cv_ctr_reg]; exact Fr.
    + cbn [cv_valid_reg cv_ctr_reg]. exact Hd.
    + destruct (cv_valid_reg (s_cv s)) eqn:Er; [|cbn [cv_valid_reg cv_ctr_reg]; exact Hd]. destruct (cv_ctr_reg (s_cv s) <=? conv c); cbn [cv_valid_reg cv_ctr_reg]; exact Hd.
    + destruct Fs.
  - rewrite Ecv. unfold cv_step, cv_try. destruct (cv_state (s_cv s)) eqn:Es.
    + destruct (cv_valid_reg (s_cv s) && negb false); [|destruct (ff_rd (s_ljf s) && negb false)]; cbn [cv_valid_in]; discriminate.
    + cbn [cv_valid_in]. discriminate.
    + destruct (cv_valid_reg (s_cv s)) eqn:Er; [|cbn [cv_valid_in]; discriminate]. replace (cv_ctr_reg (s_cv s) <=? conv c) with true by (specialize (Fr eq_refl); lia). cbn [cv_valid_in cv_enc_in_ctr].
      intros _. destruct Hcap; [specialize (Fr eq_refl); lia|discriminate].
    + destruct Fs.
  - rewrite st_ljcf. apply Z.leb_gt. unfold fifo_level. pose proof (b2z_01 (ff_rd (s_ljf s))). destruct (cv_state (s_cv s)); lia.
Qed.
