(* The complete core and a source that stops: below 16 bits of code nothing ever comes out; from 16 bits on the
   force-end timer ends the frame. *)
From Verif Require Import Bits Spec Spec_Core Spec_Beta M_Config M_Signals M_Predictor M_Encode M_I1 M_Fifo M_Converter M_VBits M_I3 M_Fix M_Markers M_Beta
  P_Fifo P_Encode P_I1 P_Tokens P_Converter P_VBits P_I3 P_Decode P_Run P_Live P_Live2 P_Fix P_Markers Props_Core Props_Frame P_Pack P_Beta Props_Live Props_Beta P_Flush P_BetaLive Props_BetaLive.
Ltac Zify.zify_post_hook ::= idtac.

Definition code_len (c : config) (t : table) (W : Z) (A : list (list Z)) : Z := Z.of_nat (length (ref_encode t (bd c) W [] (concat A))).

Lemma code_len_app c t W A B : code_len c t W A <= code_len c t W (A ++ B).
Proof. unfold code_len. rewrite concat_app, ref_encode_app, app_length. lia. Qed.

(* ---------- below 16 bits ---------- *)
Lemma few_no_words c t W H A P d1 hist s : bt_hyp c t W H -> i3_inv c t W H (W / ps c) A P d1 hist s -> code_len c t W A < 16 -> d1 = [].
Proof.
  intros HY I Hl. pose proof HY as (Hc & Ho & Ht & [Hf Hb]). destruct (existsb snd d1) eqn:E.
  - exfalso. destruct (full_bits c t W H A P d1 hist s HY I E) as (pw & w & _ & _ & HL & _). destruct (inv_pixels _ _ _ _ _ _ _ _ _ _ I) as [J1 _].
    assert (Hb2 : 2 <= bd c) by (unfold cfg_ok in Hc; lia).
    pose proof (ref_encode_min (bd c) W t (concat A) ltac:(lia) Ht [] ltac:(constructor) J1) as Y. unfold code_len in Hl. unfold len in HL. lia.
  - destruct (inv_running _ _ _ _ _ _ _ _ _ _ Hc I E) as (pw & r & Hd & _ & Hx). rewrite Hd. destruct pw as [|x pw]; [reflexivity|]. exfalso.
    unfold code_len in Hl. rewrite Hx, app_length in Hl. pose proof (wbits_length (outb c) (x :: pw) ltac:(lia)) as L. unfold len in L. cbn [length] in L. lia.
Qed.
Lemma fx_empty s d2 : fx_inv s [] d2 -> f2_vout (snd s) = false.
Proof.
  intros I. pose proof (fx_step_ok s {| fxi_valid := false; fxi_data := 0; fxi_end := false; fxi_busy := false |} [] d2 I ltac:(discriminate)) as J.
  unfold fx_took, fx_gave in J. cbn [fxi_valid fxi_busy andb negb app] in J. rewrite andb_true_r in J.
  destruct (f2_vout (snd s)) eqn:Ev; [|reflexivity]. exfalso. destruct (fx_obs _ _ _ J) as [K1 K2].
  destruct (existsb snd (d2 ++ [(f2_dout (snd s), f2_eout (snd s))])) eqn:E; [destruct (K1 eq_refl) as [X _]; discriminate|].
  destruct (K2 eq_refl) as (_ & rest & X & _). apply (f_equal (@length Z)) in X. rewrite app_length, flat_bytes_len, map_length, app_length in X. cbn in X. lia.
Qed.

Definition silent_inv (c : config) (t : table) (W H : Z) (A : list (list Z)) (s : bt_st) : Prop := bt_inv c t W H A [] s /\ mk_fsm_st (b_mk s) = MK_IDLE /\ b_rst s = false.
Lemma silent_out c t W H A s i : silent_inv c t W H A s -> mko_valid (bt_out s i) = false /\ bt_gave s i = [].
Proof. intros (_ & Hm & _). unfold bt_gave, bt_out, mk_comb. rewrite Hm. split; reflexivity. Qed.
Lemma silent_step c t W H A s i : bt_hyp c t W H -> bt_ok c W H s i -> silent_inv c t W H A s -> code_len c t W A < 16 ->
  silent_inv c t W H (A ++ bt_took s i) (bt_step c (mem_of (bd c) t) s i) /\ bt_gave s i = [].
Proof.
  intros HY Hok S Hl. pose proof (proj2 (silent_out c t W H A s i S)) as Hg. split; [|exact Hg]. destruct S as (I & Hm & Hr).
  pose proof (bt_inv_next c t W H A [] s i HY Hok I) as J. rewrite Hg in J. cbn [app] in J. unfold bt_step. rewrite Hr. split; [exact J|]. split.
  - destruct I as (P & hist & d1 & d2 & I1 & I2 & _). rewrite (few_no_words c t W H A P d1 hist (b_i3 s) HY I1 Hl) in I2. pose proof (fx_empty _ _ I2) as Hv. cbn [snd] in Hv.
    unfold bt_next. cbn [b_mk]. unfold mk_step. rewrite Hm. cbn [bt_mk_in mki_valid mk_fsm_st]. rewrite Hv. reflexivity.
  - apply bt_next_rst; [exact Hr|rewrite Hg; reflexivity].
Qed.
Lemma silent_run c t W H sizes n : bt_hyp c t W H -> sizes n = (W, H) -> forall l A s, silent_inv c t W H A s ->
  bt_env c (mem_of (bd c) t) sizes n s l -> code_len c t W (A ++ bt_accepted c (mem_of (bd c) t) s l) < 16 ->
  bt_outs c (mem_of (bd c) t) s l = [] /\ silent_inv c t W H (A ++ bt_accepted c (mem_of (bd c) t) s l) (bt_run c (mem_of (bd c) t) s l).
Proof.
  intros HY Hs. induction l as [|i l IH]; intros A s S HE Hl; [cbn; rewrite app_nil_r; auto|].
  cbn [bt_env bt_outs bt_accepted bt_run] in *. rewrite Hs in HE. destruct HE as [Hok HE]. cbn [fst snd] in Hok.
  destruct (silent_step c t W H A s i HY Hok S) as [S' Hg].
  { eapply Z.le_lt_trans; [|exact Hl]. apply code_len_app. }
  replace (b_rst s) with false in HE by (symmetry; apply S). rewrite app_assoc in *. destruct (IH _ _ S' HE Hl) as [K1 K2]. rewrite Hg, K1. split; [reflexivity|exact K2].
Qed.

(* ---------- from 16 bits on ---------- *)
Section stall.
  Variables (c : config) (t : table) (W H : Z) (i3 : i3_st) (ins : nat -> bt_in).
  Let mem := mem_of (bd c) t.
  Let st := nst c t i3 ins.
  Hypotheses (HY : bt_hyp c t W H) (Hi : is_reset c i3).
  Hypothesis Hok : forall n, b_rst (st n) = false -> bt_ok c W H (st n) (ins n).
  Hypothesis ready_fair : forall n, exists m, (n <= m)%nat /\ bi_busy (ins m) = false.

  (* a word that has left the encoder reaches the marker stage *)
  Fixpoint got (n : nat) : bool := match n with O => false | S k => got k || (i3_valid_out (b_i3 (st k)) && negb (f1_obusy (b_f1 (st k)))) end.
  Lemma fx_wake n : bt_over (st n) = false -> f2_vout (b_f2 (st n)) = false ->
    (f1_vout (b_f1 (st n)) = true -> f2_vout (b_f2 (st (S n))) = true) /\
    (i3_valid_out (b_i3 (st n)) = true -> f1_obusy (b_f1 (st n)) = false -> f1_vout (b_f1 (st (S n))) = true).
  Proof.
    intros E Hv. destruct (n_f2 c t W H i3 ins HY Hi Hok n E) as (done & B & e & F2). pose proof (n_f1 c t W H i3 ins HY Hi Hok n E) as F1. fold st in F1, F2.
    unfold st; cbn [nst]; fold st. unfold bt_next. cbn [b_f1 b_f2 fst snd fx_step].
    unfold f2_inv in F2. destruct (f2_fsm_st (b_f2 (st n))) eqn:Ef; [|destruct F2 as (_ & X & _); congruence|destruct F2 as (_ & X & _); congruence|destruct F2 as (_ & X & _); congruence].
    destruct F2 as (Fo & Fd & _). assert (Hd : f2_dval (b_f2 (st n)) = false) by (destruct (f2_dval (b_f2 (st n))); [rewrite Hv in Fd; specialize (Fd eq_refl); discriminate|reflexivity]).
    rewrite Hd in Fo. split.
    - intros H1. unfold f2_step. rewrite Ef. unfold f2_normal. rewrite Hd, Hv. unfold fx_in2. cbn [f2i_valid f2i_busy fst]. rewrite H1.
      destruct (fxi_busy _); reflexivity.
    - intros H3 Hob. destruct F1 as [F1a F1b]. rewrite Hob in F1a. unfold f1_step. unfold fx_in1. cbn [f1i_valid f1i_data f1i_end f1i_busy snd].
      rewrite Fo, <- F1a. cbn [negb]. destruct (f1_logic _) as [ld lc]. cbn [f1_vout bt_fx_in fxi_valid]. exact H3.
  Qed.
  Lemma mk_left n : bt_over (st n) = false -> mk_fsm_st (b_mk (st n)) <> MK_IDLE -> mk_fsm_st (b_mk (st (S n))) <> MK_IDLE.
  Proof.
    intros E Hm. unfold st; cbn [nst]; fold st. unfold bt_next. cbn [b_mk]. unfold mk_step. destruct (mk_fsm_st (b_mk (st n))); [congruence|..].
    - destruct (negb _); cbn [mk_fsm_st]; [destruct (_ =? 0)|]; discriminate.
    - destruct (negb _); cbn [mk_fsm_st]; [destruct (_ =? 1)|]; discriminate.
    - destruct (negb _); cbn [mk_fsm_st]; [destruct (_ =? 1)|]; discriminate.
    - cbn [mk_fsm_st]. destruct (mk_end_cond _); [discriminate|]. destruct (mki_force _); discriminate.
    - discriminate.
    - discriminate.
  Qed.
  Lemma mk_wake n : mk_fsm_st (b_mk (st n)) = MK_IDLE -> (f2_vout (b_f2 (st n)) = true -> mk_fsm_st (b_mk (st (S n))) <> MK_IDLE) /\
    (mk_fsm_st (b_mk (st (S n))) = MK_IDLE -> f2_vout (b_f2 (st n)) = false).
  Proof.
    intros Hm. unfold st; cbn [nst]; fold st. unfold bt_next. cbn [b_mk]. unfold mk_step. rewrite Hm. cbn [bt_mk_in mki_valid mk_fsm_st].
    destruct (f2_vout (b_f2 (st n))); cbn [mk_fsm_st]; split; congruence.
  Qed.
  Lemma got_inv n : bt_over (st n) = false -> got n = true -> mk_fsm_st (b_mk (st n)) = MK_IDLE -> f1_vout (b_f1 (st n)) = true \/ f2_vout (b_f2 (st n)) = true.
  Proof.
    induction n as [|n IH]; [discriminate|]. intros E Hg Hm.
    assert (E0 : bt_over (st n) = false) by (apply (not_over_before c t i3 ins (S n) E); lia).
    assert (Hm0 : mk_fsm_st (b_mk (st n)) = MK_IDLE). { destruct (mk_fsm_st (b_mk (st n))) eqn:X; [reflexivity|..]; exfalso; apply (mk_left n E0); congruence. }
    pose proof (proj2 (mk_wake n Hm0) Hm) as Hv. destruct (fx_wake n E0 Hv) as [K1 K2]. cbn [got] in Hg. apply orb_prop in Hg. destruct Hg as [Hg|Hg].
    - destruct (IH E0 Hg Hm0) as [X|X]; [right; apply K1, X|congruence].
    - apply andb_prop in Hg. destruct Hg as [G1 G2]. left. apply K2; [exact G1|]. apply negb_true_iff in G2. exact G2.
  Qed.
  Lemma got_wakes n : got n = true -> exists m, (n <= m)%nat /\ (bt_over (st m) = true \/ mk_fsm_st (b_mk (st m)) <> MK_IDLE).
  Proof.
    intros Hg. destruct (bt_over (st n)) eqn:E; [exists n; auto|]. destruct (mk_fsm_st (b_mk (st n))) eqn:Hm; try (exists n; split; [lia|right; congruence]).
    destruct (f2_vout (b_f2 (st n))) eqn:Hv; [exists (S n); split; [lia|right; apply mk_wake; assumption]|].
    destruct (got_inv n E Hg Hm) as [X|X]; [|congruence]. destruct (fx_wake n E Hv) as [K1 _]. specialize (K1 X).
    destruct (mk_fsm_st (b_mk (st (S n)))) eqn:Hm'; try (exists (S n); split; [lia|right; congruence]).
    exists (S (S n)). split; [lia|right]. apply mk_wake; assumption.
  Qed.

  Lemma transfers_got n : bt_over (st n) = false -> i3_transfers c mem i3 (upto (jin c t W H i3 ins) n) <> [] -> got n = true.
  Proof.
    induction n as [|n IH]; [intros _ X; elim X; reflexivity|]. intros E Hne. assert (Hb : forall k, (k <= S n)%nat -> bt_over (st k) = false) by (apply (not_over_before c t i3 ins (S n) E)).
    rewrite upto_S, transfers_app in Hne. cbn [i3_transfers got] in *. rewrite app_nil_r in Hne.
    destruct (got n) eqn:G; [reflexivity|]. cbn [orb].
    assert (Hn : i3_transfers c mem i3 (upto (jin c t W H i3 ins) n) = []).
    { destruct (i3_transfers c mem i3 (upto (jin c t W H i3 ins) n)) eqn:X; [reflexivity|]. rewrite <- X in IH. assert (false = true) by (apply IH; [apply Hb; lia|congruence]). discriminate. }
    rewrite Hn in Hne. cbn [app] in Hne. unfold mem in Hne. rewrite (js_eq c t W H i3 ins n) in Hne by (intros; apply Hb; lia). fold st in Hne.
    unfold jin in Hne. fold st in Hne. rewrite Hb in Hne by lia. cbn [bt_i3_in in_busy] in Hne.
    destruct (i3_valid_out (b_i3 (st n)) && negb (f1_obusy (b_f1 (st n)))); [reflexivity|elim Hne; reflexivity].
  Qed.

  Lemma stall_wakes n0 : bt_over (st n0) = false -> 16 <= code_len c t W (nacc c t i3 ins n0) ->
    exists m, (n0 <= m)%nat /\ (bt_over (st m) = true \/ mk_fsm_st (b_mk (st m)) <> MK_IDLE).
  Proof.
    intros E Hl. destruct HY as (Hc & Ho & Ht & [Hf Hb]) eqn:EHY. clear EHY.
    destruct (live_flush c t W H i3 (jin c t W H i3 ins) Hc Ht Hf Hi) with (n0 := n0) as (n & L & X).
    { intros n. assert (Ej : jin c t W H i3 ins n = if bt_over (st n) then {| in_valid := true; in_px := repeat 0 (Z.to_nat (ps c)); in_busy := false; in_w := W; in_h := H |} else bt_i3_in (st n) (ins n)) by reflexivity. rewrite Ej. clear Ej. destruct (bt_over (st n)) eqn:En.
      + intros _. cbn [in_px in_w in_h]. split; [|auto]. assert (1 <= ps c) by (unfold cfg_ok in Hc; lia). assert (2 <= bd c) by (unfold cfg_ok in Hc; lia). split; [unfold len; rewrite repeat_length; lia|].
        apply Forall_forall. intros x Hx. apply repeat_spec in Hx. subst x. split; [lia|apply pow2_pos; lia].
      + rewrite js_eq by (intros; apply (not_over_before c t i3 ins n En); lia). exact (Hok n (not_over c t i3 ins n En)). }
    { intros n. destruct (f1_frees c t W H i3 ins HY Hi Hok ready_fair n) as (m & L & X). exists m. split; [exact L|]. unfold jin. destruct X as [-> |[-> X]]; [reflexivity|exact X]. }
    fold mem in X. rewrite Ho in X.
    destruct (bt_over (st n)) eqn:En; [exists n; auto|].
    assert (Hne : i3_transfers c mem i3 (upto (jin c t W H i3 ins) n) <> []).
    { destruct X as [X|X]; [intros Z0; rewrite Z0 in X; discriminate|]. unfold mem in X at 1. rewrite jacc_eq in X by exact E. fold mem in X. unfold code_len in Hl. intros Z0. rewrite Z0 in X. unfold len in X. cbn in X. lia. }
    destruct (got_wakes n (transfers_got n En Hne)) as (m & Lm & Y). exists m. split; [lia|exact Y].
  Qed.
End stall.
