(* If the position signals never raise end_of_frame, no end flag appears anywhere in the core,
   whatever the memory, the pixels and the sink do. *)
From Verif Require Import Bits Spec Spec_Core M_Config M_Signals M_Predictor M_Difference M_Normalize M_Encode M_Merge
  M_I1 M_Fifo M_Converter M_VBits M_I3 P_Fifo P_Run Props_Arith.
Ltac Zify.zify_post_hook ::= idtac.

Definition mg_quiet (m : mg_st) : Prop := mg_end m = false.
Definition mgi_quiet (i : mg_in) : Prop := mi_end i = false.

Lemma level_quiet w l : forall ins, Forall mgi_quiet ins -> Forall mg_quiet (level_step w l ins).
Proof.
  induction l as [|m l IH]; intros [|i ins] H; cbn [level_step]; try constructor.
  - inversion H; subst. assumption.
  - inversion H; subst. apply IH. assumption.
Qed.

Lemma pair_mg_quiet : forall l, Forall mg_quiet l -> Forall mgi_quiet (pair_mg l).
Proof.
  fix IH 1. intros [|a [|b r]] H; cbn [pair_mg]; try constructor.
  - inversion H; subst. assumption.
  - inversion H; subst. inversion H3; subst. apply IH. assumption.
Qed.

Lemma pair_up_quiet v : forall l, Forall mgi_quiet (pair_up l v false).
Proof. fix IH 1. intros [|[? ?] [|[? ?] r]]; cbn [pair_up]; constructor; [reflexivity|apply IH]. Qed.

Lemma levels_quiet : forall ls w ins, Forall (Forall mg_quiet) ls -> Forall mgi_quiet ins ->
  Forall (Forall mg_quiet) (levels_step w ls ins).
Proof.
  induction ls as [|l ls IH]; intros w ins H Hi; cbn [levels_step]; constructor.
  - apply level_quiet. assumption.
  - inversion H; subst. apply IH; [assumption|]. apply pair_mg_quiet. assumption.
Qed.

Lemma init_quiet n : Forall (Forall mg_quiet) (merge_init_levels n).
Proof.
  induction n; cbn [merge_init_levels]; constructor; [|assumption].
  apply Forall_forall. intros x Hx. apply repeat_spec in Hx. subst. reflexivity.
Qed.

Lemma top_quiet s : Forall (Forall mg_quiet) s -> mg_end (merge_top s) = false.
Proof.
  unfold merge_top. intros H. assert (Hl : Forall mg_quiet (last s [])).
  { induction s as [|a [|b r] IH]; cbn [last]; [constructor|inversion H; assumption|]. apply IH. inversion H; assumption. }
  destruct Hl as [|x l Hx Hl]; [reflexivity|]. exact Hx.
Qed.

Definition i1_quiet (s : i1_st) : Prop :=
  pred_end_out (i1_pred s) = false /\ df_end (i1_diff s) = false /\ nm_end (i1_norm s) = false /\
  en_end_late (i1_enc s) = false /\ en_end_out (i1_enc s) = false /\ Forall (Forall mg_quiet) (i1_merge s).

Lemma i1_quiet_reset c rps : i1_quiet (i1_reset c rps).
Proof.
  unfold i1_quiet, i1_reset. cbn [i1_pred i1_diff i1_norm i1_enc i1_merge].
  repeat split; try reflexivity.
  - unfold pred_init. destruct (ps c =? 4); reflexivity.
  - destruct (1 <? ps c); [apply init_quiet|constructor].
Qed.

Lemma i1_quiet_step c mem s v px w h : i1_quiet s -> sg_end_of_frame (i1_sig s) = false ->
  i1_quiet (i1_step c mem s v px w h).
Proof.
  intros (Q1 & Q2 & Q3 & Q4 & Q5 & Q6) He. unfold i1_quiet, i1_step. cbn [i1_pred i1_diff i1_norm i1_enc i1_merge].
  repeat split; try assumption.
  - rewrite He. unfold pred_step. destruct (i1_pred s); reflexivity.
  - destruct (1 <? ps c); [|constructor]. unfold merge_step. rewrite Q5. apply levels_quiet; [assumption|]. apply pair_up_quiet.
Qed.

Lemma i1_quiet_out c s : i1_quiet s -> i1_end_out c s = false.
Proof. intros (_ & _ & _ & _ & Q & Q6). unfold i1_end_out. destruct (1 <? ps c); [apply top_quiet|]; assumption. Qed.

Lemma pack_end db cb enc ctr e : 0 <= db -> 0 <= cb -> item_end db cb (item_pack db cb enc ctr e) = e.
Proof.
  intros Hd Hc. pose proof (trunc_range db enc Hd) as R1. pose proof (trunc_range cb ctr Hc) as R2.
  transitivity (item_end db cb (item_pack db cb (trunc db enc) (trunc cb ctr) e)).
  - f_equal. unfold item_pack. rewrite (trunc_id db (trunc db enc)), (trunc_id cb (trunc cb ctr)) by assumption. reflexivity.
  - apply item_end_pack; assumption.
Qed.

Definition q_quiet (D db cb : Z) (f : fifo_st) : Prop :=
  fifo_inv D f /\ Forall (fun x => item_end db cb x = false) (fifo_q D f).

Lemma Forall_tl {A} (P : A -> Prop) l : Forall P l -> Forall P (tl l).
Proof. intros []; [constructor|assumption]. Qed.

Lemma q_quiet_step D db cb f we enc ctr re : 3 <= D -> 0 <= db -> 0 <= cb -> q_quiet D db cb f ->
  q_quiet D db cb (fifo_step D f we (item_pack db cb enc ctr false) re).
Proof.
  intros HD Hd Hc [I Q]. destruct (fifo_step_ok D f we (item_pack db cb enc ctr false) re HD I) as [I' E].
  split; [exact I'|]. rewrite E. apply Forall_app. split.
  - unfold fifo_take. destruct (re && ff_rd f); [apply Forall_tl|]; exact Q.
  - destruct (we && fifo_writable D f); [|constructor]. constructor; [|constructor]. apply pack_end; assumption.
Qed.

Lemma q_quiet_head D db cb f : q_quiet D db cb f -> ff_rd f = true -> item_end db cb (ff_dout f) = false.
Proof. intros [_ Q] H. destruct (fifo_head D f H) as [r E]. rewrite E in Q. inversion Q. assumption. Qed.

Definition cv_quiet (s : cv_st) : Prop :=
  cv_in_end s = false /\ cv_end_latch s = false /\ (cv_valid_reg s = true -> cv_end_reg s = false).

Lemma cv_quiet_step c s enc ctr e v cf : cv_quiet s -> (v = true -> e = false) -> cv_quiet (cv_step c s enc ctr e v cf).
Proof.
  intros (Q1 & Q2 & Q3) He. unfold cv_quiet, cv_step. destruct (cv_state s) as [| | |i].
  - destruct (cv_try _ _ _ _). cbn [cv_in_end cv_end_latch cv_valid_reg cv_end_reg]. auto.
  - cbn [cv_in_end cv_end_latch cv_valid_reg cv_end_reg]. auto.
  - destruct (cv_valid_reg s) eqn:Ev; [destruct (cv_ctr_reg s <=? conv c)|];
      cbn [cv_in_end cv_end_latch cv_valid_reg cv_end_reg]; auto.
  - destruct i as [|i]; [destruct (cv_try _ _ _ _)|]; cbn [cv_in_end cv_end_latch cv_valid_reg cv_end_reg]; auto.
Qed.

Definition vi_quiet (s : vi_st) : Prop :=
  vi_end s = false /\
  match vi_state s with
  | VI_CLEAN => vi_end_reg s = false /\ (vi_valid_reg s = true -> vi_end_buff s = false)
  | _ => (vi_valid_reg s = true -> vi_end_reg s = false) /\ (vi_valid_buff s = true -> vi_end_buff s = false)
  end.

Lemma vi_quiet_step c s enc ctr e v dec : vi_quiet s -> (v = true -> e = false) -> vi_quiet (vi_step c s enc ctr e v dec).
Proof.
  intros (Q1 & Q2) He. unfold vi_quiet, vi_step, vi_inc. destruct (vi_state s) eqn:Es; cbn [vi_end vi_state vi_end_reg vi_valid_reg vi_end_buff vi_valid_buff].
  - destruct Q2 as [Q2 Q3]. split; [assumption|]. destruct (vi_valid_buff s) eqn:Eb; cbn [andb].
    + destruct (vi_ctr_buff s <=? vi_free s); auto.
    + destruct (vi_valid_reg s); split; auto; discriminate.
  - destruct Q2 as [Q2 Q3]. split; [assumption|]. destruct (vi_valid_reg s); split; auto; discriminate.
  - destruct Q2 as [Q2 Q3]. auto.
  - destruct Q2 as [Q2 Q3]. split.
    + destruct (vi_valid_reg s && _) eqn:E; [|assumption]. apply andb_prop in E. destruct E. auto.
    + destruct (vi_valid_reg s && _); auto.
Qed.

Definition vo_quiet (s : vo_st) : Prop := vo_end s = false /\ vo_state s <> VO_END.

Lemma vo_quiet_step c s b n busy : vo_quiet s -> vo_quiet (vo_step c s b n false busy).
Proof.
  intros [Q1 Q2]. unfold vo_step. rewrite andb_false_r. destruct (vo_dec _ _ _ _ _).
  - split; [assumption|discriminate].
  - destruct (vo_state s) eqn:E; [split; [assumption|rewrite E; discriminate]| |congruence].
    destruct busy; [split; [assumption|rewrite E; discriminate]|split; [assumption|discriminate]].
Qed.

Definition i3_quiet (c : config) (s : i3_st) : Prop :=
  i1_quiet (s_i1 s) /\ q_quiet (ljd c) (lj_db c) (lj_cb c) (s_ljf s) /\ cv_quiet (s_cv s) /\
  q_quiet (cfd c) (cf_db c) (cf_cb c) (s_cf s) /\ vi_quiet (vb_in (s_vb s)) /\ vo_quiet (vb_out (s_vb s)) /\
  s_nready_end s = false /\ s_nready_end_reg s = false.

Lemma cfg_sizes c : cfg_ok c = true ->
  3 <= ljd c /\ 3 <= cfd c /\ 0 <= lj_db c /\ 0 <= lj_cb c /\ 0 <= cf_db c /\ 0 <= cf_cb c.
Proof.
  intros Hc. unfold lj_db, lj_cb, cf_db, cf_cb, clog2. unfold cfg_ok, cf_steps in Hc.
  assert (0 <= (total_ctr c + conv c - 1) / conv c) by (apply Z.div_pos; lia).
  repeat split; try lia; apply Z.log2_up_nonneg.
Qed.

Lemma i3_quiet_reset c s : cfg_ok c = true -> is_reset c s -> i3_quiet c s.
Proof.
  intros Hc (st1 & d1 & st2 & d2 & rps & L1 & L2 & L3 & ->). destruct (cfg_sizes c Hc) as (S1 & S2 & _).
  unfold i3_quiet, i3_reset. cbn [s_i1 s_ljf s_cv s_cf s_vb s_nready_end s_nready_end_reg vb_in vb_out vb_init].
  split; [apply i1_quiet_reset|]. split; [split; [apply fifo_reset_inv; lia|constructor]|].
  split; [repeat split; reflexivity|]. split; [split; [apply fifo_reset_inv; lia|constructor]|].
  repeat split; try reflexivity; try discriminate.
Qed.

Lemma i3_quiet_step c mem s i : cfg_ok c = true -> i3_quiet c s -> sg_end_of_frame (i1_sig (s_i1 s)) = false ->
  i3_quiet c (i3_step c mem s i).
Proof.
  intros Hc (Q1 & Q2 & Q3 & Q4 & Q5 & Q6 & Q7 & Q8) He. destruct (cfg_sizes c Hc) as (S1 & S2 & S3 & S4 & S5 & S6).
  unfold i3_step. destruct (i1_out c (s_i1 s)) as [lenc lctr]. rewrite (i1_quiet_out c _ Q1).
  destruct Q3 as (C1 & C2 & C3). rewrite C1, He, Q8. cbn [andb orb].
  unfold i3_quiet, vb_step. cbn [s_i1 s_ljf s_cv s_cf s_vb s_nready_end s_nready_end_reg vb_in vb_out].
  split; [apply i1_quiet_step; assumption|]. split; [apply q_quiet_step; assumption|].
  split; [apply cv_quiet_step; [repeat split; assumption|apply q_quiet_head with (D := ljd c); assumption]|].
  split; [apply q_quiet_step; assumption|].
  pose proof Q5 as (V1 & V2). rewrite V1.
  split; [apply vi_quiet_step; [assumption|apply q_quiet_head with (D := cfd c); assumption]|].
  split; [apply vo_quiet_step; assumption|]. split; reflexivity.
Qed.

(* the inputs the position signals see during a run *)
Fixpoint i3_sig_in (c : config) (mem : list Z) (s : i3_st) (ins : list i3_in) : list (bool * Z * Z) :=
  match ins with [] => [] | i :: r => (i3_accept s i, in_w i, in_h i) :: i3_sig_in c mem (i3_step c mem s i) r end.

Lemma i3_sig_step c mem s i : i1_sig (s_i1 (i3_step c mem s i)) = sig_step (ps c) (i1_sig (s_i1 s)) (i3_accept s i) (in_w i) (in_h i).
Proof. unfold i3_step. destruct (i1_out c (s_i1 s)). reflexivity. Qed.

Lemma i3_sig_run c mem : forall ins s, i1_sig (s_i1 (i3_run c mem s ins)) = sig_run (ps c) (i1_sig (s_i1 s)) (i3_sig_in c mem s ins).
Proof. induction ins as [|i ins IH]; intros s; [reflexivity|]. cbn [i3_run i3_sig_in sig_run]. rewrite IH, i3_sig_step. reflexivity. Qed.

Lemma i3_sig_inputs c mem : forall ins s, inputs (i3_sig_in c mem s ins) = len (i3_accepted c mem s ins).
Proof.
  induction ins as [|i ins IH]; intros s; [reflexivity|]. cbn [i3_sig_in i3_accepted].
  change ((i3_accept s i, in_w i, in_h i) :: i3_sig_in c mem (i3_step c mem s i) ins) with ([(i3_accept s i, in_w i, in_h i)] ++ i3_sig_in c mem (i3_step c mem s i) ins).
  rewrite inputs_app, IH. unfold len at 2. rewrite app_length, Nat2Z.inj_add. f_equal.
  unfold i3_accept. destruct (in_valid i && negb (i3_nready s)); reflexivity.
Qed.

Lemma i3_run_app c mem : forall a s b, i3_run c mem s (a ++ b) = i3_run c mem (i3_run c mem s a) b.
Proof. induction a as [|i a IH]; intros; [reflexivity|]. cbn [app i3_run]. apply IH. Qed.
Lemma i3_accepted_app c mem : forall a s b,
  i3_accepted c mem s (a ++ b) = i3_accepted c mem s a ++ i3_accepted c mem (i3_run c mem s a) b.
Proof. induction a as [|i a IH]; intros; [reflexivity|]. cbn [app i3_accepted i3_run]. rewrite IH, app_assoc. reflexivity. Qed.
Lemma i3_transfers_app c mem : forall a s b,
  i3_transfers c mem s (a ++ b) = i3_transfers c mem s a ++ i3_transfers c mem (i3_run c mem s a) b.
Proof. induction a as [|i a IH]; intros; [reflexivity|]. cbn [app i3_transfers i3_run]. rewrite IH, app_assoc. reflexivity. Qed.

Lemma quiet_run c mem s0 ins : cfg_ok c = true -> is_reset c s0 ->
  (forall a b, ins = a ++ b -> b <> [] -> sg_end_of_frame (i1_sig (s_i1 (i3_run c mem s0 a))) = false) ->
  i3_quiet c (i3_run c mem s0 ins) /\ Forall (fun x => snd x = false) (i3_transfers c mem s0 ins).
Proof.
  intros Hc Hr. induction ins as [|i ins IH] using rev_ind; intros H.
  - split; [apply i3_quiet_reset; assumption|constructor].
  - destruct IH as [Q F].
    { intros a b -> Hb. apply H with (b := b ++ [i]); [rewrite app_assoc; reflexivity|]. destruct b; discriminate. }
    rewrite i3_run_app, i3_transfers_app. cbn [i3_run i3_transfers]. split.
    + apply i3_quiet_step; [assumption..|]. apply H with (b := [i]); [reflexivity|discriminate].
    + apply Forall_app. split; [assumption|]. destruct (i3_valid_out _ && _); cbn [app]; [|constructor].
      constructor; [|constructor]. cbn [snd]. unfold i3_end_out. apply Q.
Qed.

Lemma i3_sig_sized c mem W H : forall ins s,
  Forall (fun i => in_valid i = true -> in_w i = W /\ in_h i = H) ins -> Forall (sized W H) (i3_sig_in c mem s ins).
Proof.
  induction ins as [|i ins IH]; intros s HF; [constructor|]. apply Forall_cons_iff in HF. destruct HF as [Hi HF]. cbn [i3_sig_in]. constructor; [|apply IH; assumption].
  unfold sized, i3_accept. cbn [fst snd]. intros E. apply andb_prop in E. apply Hi, E.
Qed.
