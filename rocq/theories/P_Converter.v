(* The converter splits wide items into narrow ones without changing the token stream,
   and the fifo behind it never overflows. *)
From Verif Require Import Bits M_Config M_Fifo M_Converter P_Fifo P_Tokens.
Ltac Zify.zify_post_hook ::= idtac.

Definition cv_ok (c : config) : Prop := 1 <= conv c <= total_ctr c.

Definition cv_contents (c : config) (s : cv_st) : list tok :=
  (match cv_state s with
   | CV_STEPS i => tk (cv_latch s) ((Z.of_nat i + 1) * conv c) (cv_end_latch s)
   | _ => [] end) ++
  (if cv_valid_reg s then tk (cv_reg s) (cv_ctr_reg s) (cv_end_reg s) else []).
Definition cv_outtok (s : cv_st) : list tok :=
  if cv_valid_in s then tk (cv_enc_in s) (cv_enc_in_ctr s) (cv_in_end s) else [].

Definition cv_inv (c : config) (s : cv_st) : Prop :=
  (cv_latch_output s = match cv_state s with CV_BURST | CV_BURST_PREPARE => true | _ => false end) /\
  (cv_state s = CV_BURST_PREPARE -> cv_valid_reg s = false) /\
  (cv_valid_reg s = true -> 1 <= cv_ctr_reg s <= total_ctr c /\ 0 <= cv_reg s < 2 ^ cv_ctr_reg s) /\
  (cv_valid_in s = true -> 1 <= cv_enc_in_ctr s <= conv c /\ 0 <= cv_enc_in s < 2 ^ cv_enc_in_ctr s) /\
  (forall i, cv_state s = CV_STEPS i -> Z.of_nat i < cv_steps c).

Lemma cv_inv_init c : cv_inv c cv_init.
Proof. unfold cv_inv, cv_init; cbn. repeat split; discriminate. Qed.

Lemma cv_steps_bound c : cv_ok c -> 
  1 <= cv_steps c /\ cv_steps c * conv c <= total_ctr c < (cv_steps c + 1) * conv c.
Proof.
  intros [H1 H2]. unfold cv_steps.
  pose proof (Z.div_mod (total_ctr c) (conv c) ltac:(lia)).
  pose proof (Z.mod_pos_bound (total_ctr c) (conv c) ltac:(lia)).
  assert (1 <= total_ctr c / conv c) by (apply Z.div_le_lower_bound; lia).
  nia.
Qed.

Lemma cv_pick_ok c ctr : cv_ok c -> forall n i,
  Z.of_nat i + Z.of_nat n = cv_steps c -> 
  (Z.of_nat i + 1) * conv c < ctr <= total_ctr c ->
  exists j, cv_pick c ctr i n = Some ((Z.of_nat j + 1) * conv c, Z.min ((Z.of_nat j + 2) * conv c) (total_ctr c), j) /\
    Z.of_nat j < cv_steps c /\ (Z.of_nat j + 1) * conv c < ctr <= (Z.of_nat j + 2) * conv c.
Proof.
  intros Hc. pose proof (cv_steps_bound c Hc) as [S1 S2]. destruct Hc as [C1 C2].
  induction n as [|n IH]; intros i Hi Hr.
  - exfalso. assert (Z.of_nat i = cv_steps c) by lia. nia.
  - cbn [cv_pick]. destruct (ctr <=? Z.min ((Z.of_nat i + 2) * conv c) (total_ctr c)) eqn:E.
    + exists i. split; [reflexivity|]. split; [lia|]. split; [lia|]. lia.
    + apply IH; [lia|]. split; [|lia].
      replace (Z.of_nat (S i) + 1) with (Z.of_nat i + 2) by lia. lia.
Qed.

Lemma cv_try_ok s lo valid cf lo' nx : cv_try s lo valid cf = (lo', nx) ->
  lo = false ->
  lo' = (match nx with CV_BURST | CV_BURST_PREPARE => true | _ => false end) /\
  (nx = CV_BURST_PREPARE -> cv_valid_reg s = false) /\
  (nx = CV_IDLE \/ (cf = false /\ (nx = CV_BURST \/ nx = CV_BURST_PREPARE))).
Proof.
  unfold cv_try. intros H ->.
  destruct (cv_valid_reg s) eqn:E1, valid, cf; cbn in H; inversion H; subst; repeat split; auto; discriminate.
Qed.

Lemma cv_step_ok c s enc ctr e valid cf : cv_ok c -> cv_inv c s ->
  (valid = true -> 1 <= ctr <= total_ctr c /\ 0 <= enc < 2 ^ ctr) ->
  let s' := cv_step c s enc ctr e valid cf in
  cv_inv c s' /\
  cv_outtok s' ++ cv_contents c s' =
    cv_contents c s ++ (if cv_latch_output s && valid then tk enc ctr e else []).
Proof.
  intros Hc (I1 & I2 & I3 & I4 & I5) Hv. pose proof (cv_steps_bound c Hc) as [S1 S2]. destruct Hc as [C1 C2].
  assert (Hcc : trunc (clog2 (conv c + 1)) (conv c) = conv c) by (apply trunc_clog2; lia).
  unfold cv_step, cv_contents, cv_outtok, cv_inv.
  destruct (cv_state s) as [| | |i] eqn:Est.
  - (* IDLE *)
    destruct (cv_try s false valid cf) as [lo nx] eqn:Et.
    destruct (cv_try_ok _ _ _ _ _ _ Et eq_refl) as (T1 & T2 & T3).
    cbn. rewrite I1. cbn [andb]. rewrite app_nil_r.
    assert (Hns : forall i, nx <> CV_STEPS i) by (intros i ->; destruct T3 as [T|[_ [T|T]]]; discriminate).
    split; [split; [assumption|split; [assumption|split; [assumption|split; [discriminate|]]]]|].
    + intros i Hi. exfalso. apply (Hns i Hi).
    + destruct nx; try reflexivity. exfalso. eapply Hns; reflexivity.
  - (* BURST_PREPARE *)
    cbn. rewrite I1, (I2 eq_refl). cbn. repeat split; auto; try discriminate; apply Hv; assumption.
  - (* BURST *)
    rewrite I1. cbn [andb].
    destruct (cv_valid_reg s) eqn:Ev.
    + destruct (I3 eq_refl) as [R1 R2].
      destruct (cv_ctr_reg s <=? conv c) eqn:E.
      * cbn. rewrite (trunc_clog2 (conv c + 1) (cv_ctr_reg s)) by lia.
        assert (Htr : trunc (conv c) (cv_reg s) = cv_reg s).
        { apply trunc_id. pose proof (pow2_le (cv_ctr_reg s) (conv c) ltac:(lia)). lia. }
        rewrite Htr.
        repeat split; try (destruct cf; (reflexivity || discriminate || (intros; discriminate))); try lia; try (apply Hv; assumption).
      * destruct (cv_pick_ok c (cv_ctr_reg s) (conj C1 C2) (Z.to_nat (cv_steps c)) 0) as (j & J1 & J2 & J3); [lia|lia|].
        cbv zeta. rewrite J1. cbn [cv_state cv_latch_output cv_enc_in cv_enc_in_ctr cv_in_end cv_valid_in cv_latch cv_end_latch
          cv_reg cv_ctr_reg cv_end_reg cv_valid_reg].
        set (st := (Z.of_nat j + 1) * conv c) in *.
        assert (Hst : 0 <= st <= cv_data_top c) by (unfold st, cv_data_top; nia).
        assert (Hen : (Z.of_nat j + 2) * conv c = st + conv c) by (unfold st; ring).
        rewrite (trunc_clog2 (conv c + 1) (cv_ctr_reg s - st)) by lia.
        pose proof (pow2_pos st ltac:(lia)) as Hp.
        assert (Hq : 0 <= cv_reg s / 2 ^ st < 2 ^ (cv_ctr_reg s - st)).
        { split; [apply Z.div_pos; lia|]. apply Z.div_lt_upper_bound; [lia|].
          rewrite <- pow2_add by lia. replace (st + (cv_ctr_reg s - st)) with (cv_ctr_reg s) by lia. lia. }
        assert (Hsl : slice st (Z.min ((Z.of_nat j + 2) * conv c) (total_ctr c)) (cv_reg s) = cv_reg s / 2 ^ st).
        { unfold slice. apply Z.mod_small. rewrite Hen.
          pose proof (pow2_le (cv_ctr_reg s - st) (Z.min (st + conv c) (total_ctr c) - st) ltac:(lia)). lia. }
        rewrite Hsl.
        assert (Htr : trunc (conv c) (cv_reg s / 2 ^ st) = cv_reg s / 2 ^ st).
        { apply trunc_id. pose proof (pow2_le (cv_ctr_reg s - st) (conv c) ltac:(lia)). lia. }
        rewrite Htr.
        split.
        -- split; [reflexivity|]. split; [discriminate|]. split; [exact Hv|]. split; [intros _; lia|].
           intros i Hi. inversion Hi; subst. assumption.
        -- rewrite app_nil_l, app_assoc. f_equal.
           rewrite (tk_ext (slice 0 (cv_data_top c) (cv_reg s)) (cv_reg s) st).
           ++ rewrite <- tk_split by lia. f_equal. lia.
           ++ unfold slice. rewrite Z.pow_0_r, Z.div_1_r, Z.sub_0_r. apply (bitsz_trunc st (cv_data_top c)). lia.
    + cbn. repeat split; auto; try discriminate; try (apply Hv; assumption).
  - (* STEPS *)
    rewrite I1. cbn [andb]. rewrite app_nil_r.
    specialize (I5 i eq_refl).
    set (start := Z.of_nat i * conv c).
    assert (Hs0 : 0 <= start) by (unfold start; nia).
    pose proof (pow2_pos start Hs0) as Hp. pose proof (pow2_pos (conv c) ltac:(lia)) as Hp2.
    assert (Hsl : bitsz (conv c) (trunc (conv c) (slice start (start + conv c) (cv_latch s))) =
                  bitsz (conv c) (cv_latch s / 2 ^ start)).
    { rewrite bitsz_trunc by lia. apply slice_slice_bits; lia. }
    assert (Hrng : 0 <= trunc (conv c) (slice start (start + conv c) (cv_latch s)) < 2 ^ conv c)
      by (apply trunc_range; lia).
    assert (Hspl : tk (cv_latch s) ((Z.of_nat i + 1) * conv c) (cv_end_latch s) =
       tk (trunc (conv c) (slice start (start + conv c) (cv_latch s))) (conv c) false ++
       tk (cv_latch s) start (cv_end_latch s)).
    { rewrite (tk_ext _ _ _ _ Hsl). rewrite <- tk_split by lia. f_equal. unfold start. ring. }
    rewrite Hspl. clear Hspl.
    destruct i as [|k].
    + destruct (cv_try s false valid cf) as [lo nx] eqn:Et.
      destruct (cv_try_ok _ _ _ _ _ _ Et eq_refl) as (T1 & T2 & T3).
      cbv zeta. 
      cbn [cv_state cv_latch_output cv_enc_in cv_enc_in_ctr cv_in_end cv_valid_in cv_latch cv_end_latch
          cv_reg cv_ctr_reg cv_end_reg cv_valid_reg]. rewrite Hcc.
      assert (Hns : forall i, nx <> CV_STEPS i) by (intros i ->; destruct T3 as [T|[_ [T|T]]]; discriminate).
      split.
      * split; [assumption|]. split; [assumption|]. split; [assumption|]. split; [intros _; lia|].
        intros i Hi. exfalso. apply (Hns i Hi).
      * replace (match nx with CV_STEPS i => _ | _ => [] end) with (@nil tok)
          by (destruct nx; try reflexivity; exfalso; eapply Hns; reflexivity).
        rewrite app_nil_l. f_equal.
        assert (start = 0) as H0 by (unfold start; lia). rewrite H0. clear.
        unfold tk. rewrite bitsz_0. cbn [map app]. rewrite app_nil_r. reflexivity.
    + cbn [cv_state cv_latch_output cv_enc_in cv_enc_in_ctr cv_in_end cv_valid_in cv_latch cv_end_latch
          cv_reg cv_ctr_reg cv_end_reg cv_valid_reg]. rewrite Hcc.
      split.
      * split; [reflexivity|]. split; [discriminate|]. split; [assumption|]. split; [intros _; lia|].
        intros i Hi. inversion Hi; subst. lia.
      * replace ((Z.of_nat k + 1) * conv c) with start by (unfold start; lia).
        rewrite app_assoc. reflexivity.
Qed.

(* ---- occupancy of the fifo behind the converter ---- *)
Definition cv_k (c : config) : Z := (total_ctr c + conv c - 1) / conv c.

Definition cv_weight (c : config) (s : cv_st) : Z :=
  b2z (cv_valid_in s) +
  match cv_state s with
  | CV_IDLE => 0 | CV_BURST | CV_BURST_PREPARE => cv_k c | CV_STEPS i => Z.of_nat i + 1
  end.

Definition cvf_bound (c : config) (s : cv_st) (L : Z) (cf : bool) : Prop :=
  L + cv_weight c s <= cfd c - 1 /\ (cf = false -> L <= cfd c - cf_steps c).

Lemma cv_k_bound c : cv_ok c -> 1 <= cv_k c /\ total_ctr c <= cv_k c * conv c /\ cv_steps c <= cv_k c.
Proof.
  intros [H1 H2]. unfold cv_k, cv_steps.
  pose proof (Z.div_mod (total_ctr c + conv c - 1) (conv c) ltac:(lia)).
  pose proof (Z.mod_pos_bound (total_ctr c + conv c - 1) (conv c) ltac:(lia)).
  assert (1 <= (total_ctr c + conv c - 1) / conv c) by (apply Z.div_le_lower_bound; lia).
  split; [assumption|]. split; [nia|]. apply Z.div_le_mono; lia.
Qed.

Lemma cvf_bound_step c s enc ctr e valid cf L L' : cv_ok c -> cv_inv c s ->
  cvf_bound c s L cf -> L' <= L + b2z (cv_valid_in s) ->
  cvf_bound c (cv_step c s enc ctr e valid cf) L' (cfd c - cf_steps c <=? L).
Proof.
  intros Hc (I1 & I2 & I3 & I4 & I5) [B1 B2] HL.
  pose proof (cv_k_bound c Hc) as (K1 & K2 & K3). pose proof (cv_steps_bound c Hc) as [S1 S2].
  assert (Hs : cf_steps c = cv_k c + 3) by reflexivity.
  assert (Hb : forall b, 0 <= b2z b <= 1) by (intros []; cbn; lia).
  pose proof (Hb (cv_valid_in s)) as Hvi.
  split; [|intros E; lia].
  unfold cv_weight in *. unfold cv_step.
  destruct (cv_state s) as [| | |i] eqn:Est.
  - destruct (cv_try s false valid cf) as [lo nx] eqn:Et.
    destruct (cv_try_ok _ _ _ _ _ _ Et eq_refl) as (T1 & T2 & T3).
    cbn [cv_valid_in cv_state b2z].
    destruct T3 as [->|[-> [-> | ->]]]; specialize (Hb (cv_valid_in s)); lia.
  - cbn [cv_valid_in cv_state b2z]. lia.
  - destruct (cv_valid_reg s) eqn:Ev.
    + destruct (I3 eq_refl) as [R1 R2].
      destruct (cv_ctr_reg s <=? conv c) eqn:E; cbn [cv_valid_in cv_state b2z].
      * destruct cf; [lia|]. specialize (B2 eq_refl). lia.
      * destruct Hc as [C1 C2].
        destruct (cv_pick_ok c (cv_ctr_reg s) (conj C1 C2) (Z.to_nat (cv_steps c)) 0) as (j & J1 & J2 & J3); [lia|lia|].
        cbv zeta. rewrite J1. cbn [cv_valid_in cv_state b2z].
        assert (Z.of_nat j + 2 <= cv_k c) by nia. lia.
    + cbn [cv_valid_in cv_state b2z]. lia.
  - rewrite I1. destruct i as [|k].
    + destruct (cv_try s false valid cf) as [lo nx] eqn:Et.
      destruct (cv_try_ok _ _ _ _ _ _ Et eq_refl) as (T1 & T2 & T3).
      cbv zeta. rewrite ?Et. cbn [cv_valid_in cv_state b2z].
      destruct T3 as [->|[-> [-> | ->]]]; try specialize (B2 eq_refl); lia.
    + cbv zeta. cbn [cv_valid_in cv_state b2z]. lia.
Qed.
