(* decoding arbitrary bytes: what nextdiff reads *)
From Verif Require Import Bits Spec M_Lj92 P_Lj92 P_Rob.
Ltac Zify.zify_post_hook ::= idtac.

Definition nd_rng (s : nd_st) : Prop := 0 <= n_cnt s /\ 0 <= n_b s < 2 ^ n_cnt s.
(* s -> s' by reading: bits gained at most eight per byte, at most k bytes *)
Definition adv (k : Z) (s s' : nd_st) : Prop :=
  n_cnt s' - n_cnt s <= 8 * (n_ix s' - n_ix s) /\ n_ix s <= n_ix s' <= n_ix s + k /\
  (n_hi s' = n_hi s /\ n_ix s' = n_ix s \/ n_ix s' - 2 <= n_hi s') /\ n_hi s' <= Z.max (n_hi s) (n_ix s' - 1).
Lemma adv_trans a b s1 s2 s3 : adv a s1 s2 -> adv b s2 s3 -> adv (a + b) s1 s3.
Proof. unfold adv. intros (A1 & A2 & A3 & A4) (B1 & B2 & B3 & B4). repeat split; try lia. Qed.

Lemma land_ones b n : 0 <= n -> Z.land b (Z.shiftl 1 n - 1) = b mod 2 ^ n.
Proof. intros Hn. rewrite Z.shiftl_mul_pow2, Z.mul_1_l by exact Hn. rewrite <- Z.land_ones by exact Hn. f_equal. rewrite Z.ones_equiv. lia. Qed.

Section Nd.
Variable d : lmem.
Hypothesis Hd : byte_mem d.
Lemma refill_step need s : nd_rng s -> n_cnt s < need -> need <= 16 ->
  exists s', refill 1 d need s = s' /\ nd_rng s' /\ n_oob s' = n_oob s /\ adv 3 s s' /\ (n_cnt s' = n_cnt s + 16 \/ n_cnt s' = n_cnt s + 8 /\ adv 2 s s') /\
  forall f, refill (S f) d need s = refill f d need s'.
Proof.
  intros [H1 H2] Hc Hn. eexists. split; [reflexivity|]. cbn [refill]. replace (n_cnt s <? need) with true by lia. cbv zeta.
  pose proof (Hd (n_ix s)) as B1. pose proof (Hd (n_ix s + 1)) as B2. set (one := d (n_ix s)) in *. set (two := d (n_ix s + 1)) in *.
  assert (EB : trunc 32 (Z.lor (Z.lor (Z.shiftl (n_b s) 16) (Z.shiftl one 8)) two) = n_b s * 2 ^ 16 + one * 2 ^ 8 + two).
  { rewrite (Z.shiftl_mul_pow2 one) by lia. rewrite (Z.shiftl_mul_pow2 (n_b s)) by lia. rewrite (lor_add (n_b s) 16) by (change (2 ^ 16) with 65536; change (2 ^ 8) with 256; lia).
    replace (n_b s * 2 ^ 16 + one * 2 ^ 8) with ((n_b s * 2 ^ 8 + one) * 2 ^ 8) by (change (2 ^ 16) with (2 ^ 8 * 2 ^ 8); lia).
    rewrite lor_add by (change (2 ^ 8) with 256; lia). apply trunc_id. assert (P : n_b s < 2 ^ 15 * 2). { assert (2 ^ n_cnt s <= 2 ^ 15) by (apply Z.pow_le_mono_r; lia). lia. }
    change (2 ^ 15) with 32768 in P. change (2 ^ 8) with 256. change (2 ^ 32) with 4294967296. lia. }
  rewrite EB. assert (RB : 0 <= n_b s * 2 ^ 16 + one * 2 ^ 8 + two < 2 ^ (n_cnt s + 16)).
  { rewrite Z.pow_add_r by lia. change (2 ^ 16) with 65536. change (2 ^ 8) with 256. lia. }
  set (b := n_b s * 2 ^ 16 + one * 2 ^ 8 + two) in *. clearbody b. clear EB.
  assert (RS : 0 <= Z.shiftr b 8 < 2 ^ (n_cnt s + 16 - 8)).
  { rewrite Z.shiftr_div_pow2 by lia. pose proof (pow2_pos 8 ltac:(lia)). split; [apply Z.div_pos; lia|]. apply Z.div_lt_upper_bound; [lia|]. rewrite <- Z.pow_add_r by lia. replace (8 + (n_cnt s + 16 - 8)) with (n_cnt s + 16) by lia. lia. }
  destruct (one =? 255); [|destruct (two =? 255)]; unfold nd_rng, adv; cbn [n_b n_cnt n_ix n_hi n_oob]; repeat split; try lia; try reflexivity.
Qed.
Lemma refill_any need s : nd_rng s -> 0 <= need <= 16 ->
  let s' := refill 4 d need s in nd_rng s' /\ need <= n_cnt s' /\ n_oob s' = n_oob s /\ adv 5 s s'.
Proof.
  intros Hs Hn. assert (A0 : forall z, adv 0 z z) by (intros z; unfold adv; repeat split; lia).
  assert (Stop : forall f z, need <= n_cnt z -> refill f d need z = z) by (intros f z Hz; destruct f; cbn [refill]; [reflexivity|]; replace (n_cnt z <? need) with false by lia; reflexivity).
  cbv zeta. destruct (Z_lt_ge_dec (n_cnt s) need) as [Hc|Hc]; [|rewrite Stop by lia; split; [exact Hs|]; split; [lia|]; split; [reflexivity|]; unfold adv; repeat split; lia].
  destruct (refill_step need s Hs Hc ltac:(lia)) as (s1 & _ & R1 & O1 & A1 & C1 & F1). rewrite F1. pose proof Hs as [HC _].
  destruct (Z_lt_ge_dec (n_cnt s1) need) as [Hc1|Hc1].
  - destruct C1 as [C1|[C1 A1']]; [lia|]. destruct (refill_step need s1 R1 Hc1 ltac:(lia)) as (s2 & _ & R2 & O2 & A2 & C2 & F2). rewrite F2. rewrite Stop by (destruct C2 as [C2|[C2 _]]; lia).
    split; [exact R2|]. split; [destruct C2 as [C2|[C2 _]]; lia|]. split; [congruence|]. exact (adv_trans 2 3 _ _ _ A1' A2).
  - rewrite Stop by lia. split; [exact R1|]. split; [lia|]. split; [exact O1|]. unfold adv in *. repeat split; lia.
Qed.

(* one difference, whatever the bytes: either an array is left, or at least one bit is consumed and at most ten bytes are read *)
Variables (U M : Z) (lut : list Z).
Hypothesis HM : 0 <= M <= 16.
Hypothesis Hsh : Forall (fun e => exists v l, 0 <= v < 256 /\ 1 <= l <= M /\ e = v * 256 + l) lut.
Definition full : Prop := Z.of_nat (length lut) = 2 ^ M /\ Forall (fun e => e < 16 * 256) lut.
Definition nd_mid (s1 : nd_st) (index e : Z) : nd_st :=
  {| n_b := Z.land (n_b s1) (Z.shiftl 1 (n_cnt s1 - Z.land e 255) - 1); n_cnt := n_cnt s1 - Z.land e 255; n_ix := n_ix s1; n_hi := n_hi s1;
     n_oob := n_oob s1 || (index <? 0) || (Z.of_nat (length lut) <=? index) || (16 <=? Z.shiftr e 8) |}.
Definition nd_fin (s2 : nd_st) (t : Z) : nd_st :=
  {| n_b := Z.land (n_b s2) (Z.shiftl 1 (n_cnt s2 - t) - 1); n_cnt := n_cnt s2 - t; n_ix := n_ix s2; n_hi := n_hi s2; n_oob := n_oob s2 |}.
Lemma nextdiff_snd s s1 index e s2 : s1 = refill 4 d M s -> index = Z.shiftr (n_b s1) (n_cnt s1 - M) -> e = nth (Z.to_nat index) lut 0 ->
  s2 = refill 4 d (Z.shiftr e 8) (nd_mid s1 index e) -> snd (nextdiff U d M lut s) = nd_fin s2 (Z.shiftr e 8).
Proof. intros E1 E2 E3 E4. unfold nextdiff. rewrite <- E1. cbv zeta. rewrite <- E2. rewrite <- E3. unfold nd_mid in E4. rewrite <- E4. reflexivity. Qed.
Lemma refill_oob : forall f t z, n_oob (refill f d t z) = n_oob z.
Proof. induction f as [|f IH]; intros t z; cbn [refill]; [reflexivity|]. cbv zeta. destruct (n_cnt z <? t); [|reflexivity]. destruct (_ =? 255); [rewrite IH; reflexivity|]. destruct (_ =? 255); rewrite IH; reflexivity. Qed.
Lemma nextdiff_any s : nd_rng s -> n_oob s = false -> let s' := snd (nextdiff U d M lut s) in
  (n_oob s' = true /\ ~ full) \/ (nd_rng s' /\ n_oob s' = false /\ 8 * n_ix s - n_cnt s + 1 <= 8 * n_ix s' - n_cnt s' /\ adv 10 {| n_b := 0; n_cnt := n_cnt s; n_ix := n_ix s; n_hi := n_hi s; n_oob := false |} s').
Proof.
  intros Hs Ho. destruct (refill_any M s Hs HM) as ([C1 B1] & N1 & O1 & A1).
  remember (refill 4 d M s) as s1 eqn:E1. remember (Z.shiftr (n_b s1) (n_cnt s1 - M)) as index eqn:E2. remember (nth (Z.to_nat index) lut 0) as e eqn:E3.
  remember (refill 4 d (Z.shiftr e 8) (nd_mid s1 index e)) as s2 eqn:E4. pose proof (nextdiff_snd s s1 index e s2 E1 E2 E3 E4) as EN. cbv zeta. rewrite EN. clear EN E1.
  assert (OO : n_oob s2 = n_oob (nd_mid s1 index e)) by (rewrite E4; apply refill_oob). rewrite <- O1 in Ho || rewrite Ho in O1. unfold nd_mid at 1 in OO. cbn [n_oob] in OO.
  assert (HI : 0 <= index < 2 ^ M).
  { rewrite E2. rewrite Z.shiftr_div_pow2 by lia. pose proof (pow2_pos (n_cnt s1 - M) ltac:(lia)). split; [apply Z.div_pos; lia|]. apply Z.div_lt_upper_bound; [lia|]. rewrite <- Z.pow_add_r by lia. replace (n_cnt s1 - M + M) with (n_cnt s1) by lia. lia. }
  clear E2. replace (n_oob s1) with false in OO by congruence. replace (index <? 0) with false in OO by lia. cbn [orb] in OO.
  destruct (Z.of_nat (length lut) <=? index) eqn:EL.
  { left. unfold nd_fin. cbn [n_oob]. rewrite OO. split; [reflexivity|]. intros [F _]. lia. }
  assert (HIn : In e lut) by (rewrite E3; apply nth_In; lia). clear E3.
  assert (HE : exists v l, 0 <= v < 256 /\ 1 <= l <= M /\ e = v * 256 + l) by (rewrite Forall_forall in Hsh; apply Hsh; exact HIn). destruct HE as (v & l & Hv & Hl & Ee).
  assert (F1 : Z.land e 255 = l). { rewrite Ee. change 255 with (Z.ones 8). rewrite Z.land_ones by lia. change (2 ^ 8) with 256. rewrite Z.add_comm, Z.mod_add by lia. apply Z.mod_small. lia. }
  assert (F2 : Z.shiftr e 8 = v). { rewrite Ee. rewrite Z.shiftr_div_pow2 by lia. change (2 ^ 8) with 256. rewrite Z.add_comm, Z.div_add, Z.div_small by lia. lia. }
  rewrite F2 in *. cbn [orb] in OO. destruct (16 <=? v) eqn:E16.
  { left. unfold nd_fin. cbn [n_oob]. rewrite OO. split; [reflexivity|]. intros [_ F]. rewrite Forall_forall in F. apply F in HIn. lia. }
  right. remember (nd_mid s1 index e) as z eqn:Ez.
  assert (Zc : n_cnt z = n_cnt s1 - l) by (rewrite Ez; unfold nd_mid; cbn [n_cnt]; lia). assert (Zi : n_ix z = n_ix s1) by (rewrite Ez; reflexivity). assert (Zh : n_hi z = n_hi s1) by (rewrite Ez; reflexivity).
  assert (Zb : n_b z = n_b s1 mod 2 ^ (n_cnt s1 - l)) by (rewrite Ez; unfold nd_mid; cbn [n_b]; rewrite F1; apply land_ones; lia). clear Ez.
  assert (Hz : nd_rng z). { unfold nd_rng. rewrite Zc, Zb. split; [lia|]. apply Z.mod_pos_bound. apply pow2_pos. lia. }
  destruct (refill_any v z Hz ltac:(lia)) as ([C2 B2] & N2 & _ & A2). rewrite <- E4 in *. clear E4.
  unfold nd_fin, nd_rng. cbn [n_b n_cnt n_ix n_hi n_oob]. rewrite land_ones by lia.
  split; [split; [lia|apply Z.mod_pos_bound, pow2_pos; lia]|]. split; [exact OO|]. unfold adv in *. cbn [n_b n_cnt n_ix n_hi n_oob] in *.
  destruct A1 as (P1 & P2 & P3 & P4). destruct A2 as (Q1 & Q2 & Q3 & Q4). rewrite Zc, Zi, Zh in *. split; [lia|]. repeat split; lia.
Qed.
End Nd.
