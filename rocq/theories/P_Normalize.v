(* difference.py and normalize.py compute exact differences, categories and offsets. *)
From Verif Require Import Bits Spec M_Difference M_Normalize.

Lemma category_0 : category 0 = 0. Proof. reflexivity. Qed.

Lemma category_range n d : 0 <= n -> Z.abs d < 2 ^ n -> 0 <= category d <= n.
Proof.
  intros Hn H. unfold category. destruct (d =? 0) eqn:E; [lia|].
  pose proof (Z.log2_nonneg (Z.abs d)).
  assert (Z.log2 (Z.abs d) < n) by (apply Z.log2_lt_pow2; lia). lia.
Qed.

Lemma category_bounds d : d <> 0 ->
  1 <= category d /\ 2 ^ (category d - 1) <= Z.abs d < 2 ^ category d.
Proof.
  intros H. unfold category. replace (d =? 0) with false by lia.
  pose proof (Z.log2_nonneg (Z.abs d)).
  pose proof (Z.log2_spec (Z.abs d) ltac:(lia)) as [H1 H2].
  replace (Z.log2 (Z.abs d) + 1 - 1) with (Z.log2 (Z.abs d)) by lia.
  replace (Z.log2 (Z.abs d) + 1) with (Z.succ (Z.log2 (Z.abs d))) by lia. lia.
Qed.

Lemma category_unique d s : 1 <= s -> 2 ^ (s - 1) <= Z.abs d < 2 ^ s -> category d = s.
Proof.
  intros Hs [H1 H2]. pose proof (pow2_pos (s - 1) ltac:(lia)).
  unfold category. replace (d =? 0) with false by lia.
  assert (Z.log2 (Z.abs d) = s - 1); [|lia].
  apply Z.log2_unique; [lia|]. replace (Z.succ (s - 1)) with s by lia. lia.
Qed.

(* the test on val_in_mns decides whether |d| needs at most i+1 bits *)
Lemma neg_hit_spec bd d i : 0 <= i < bd -> - 2 ^ bd < d < 0 ->
  neg_hit bd ((d - 1) mod 2 ^ (bd + 1)) i = (category d <=? i + 1).
Proof.
  intros Hi Hd. unfold neg_hit, neg_test, slice.
  set (B := bd - i).
  assert (HB : 2 ^ (bd + 1) = 2 ^ B * 2 ^ (1 + i)) by (rewrite <- pow2_add by lia; f_equal; lia).
  replace (bd + 1 - (1 + i)) with B by lia.
  pose proof (pow2_pos B ltac:(lia)) as PB. pose proof (pow2_pos (1 + i) ltac:(lia)) as PI.
  rewrite HB.
  assert (Hq : (d - 1) mod (2 ^ B * 2 ^ (1 + i)) / 2 ^ (1 + i) = ((d - 1) / 2 ^ (1 + i)) mod 2 ^ B).
  { rewrite (Z.mul_comm (2 ^ B)). rewrite Z.rem_mul_r by lia.
    rewrite Z.add_comm, Z.mul_comm, Z.div_add_l by lia.
    rewrite (Z.div_small ((d-1) mod 2 ^ (1 + i))) by (apply Z.mod_pos_bound; lia). lia. }
  rewrite Hq. rewrite Z.mod_mod by lia.
  set (q := (d - 1) / 2 ^ (1 + i)).
  assert (Hbd : 2 ^ bd * 2 = 2 ^ B * 2 ^ (1 + i)).
  { rewrite <- HB. rewrite pow2_S by lia. lia. }
  assert (Hq1 : q < 0) by (apply Z.div_lt_upper_bound; lia).
  assert (Hq2 : - 2 ^ B <= q).
  { apply Z.div_le_lower_bound; [lia|]. nia. }
  assert (Hm : q mod 2 ^ B = q + 2 ^ B).
  { rewrite <- (Z.mod_add q 1) by lia. destruct (Z.eq_dec q (- 2 ^ B)) as [E|E].
    - (* impossible: d-1 >= -2^bd, so q >= -2^(B-1) *)
      exfalso.
      assert (HB1 : 2 ^ B = 2 * 2 ^ (B - 1)) by (rewrite <- pow2_S by lia; f_equal; lia).
      assert (- 2 ^ (B - 1) <= q) by (apply Z.div_le_lower_bound; [lia|]; nia).
      pose proof (pow2_pos (B - 1) ltac:(lia)). lia.
    - rewrite Z.mod_small; lia. }
  rewrite Hm.
  assert (Hd0 : d <> 0) by lia.
  destruct (category_bounds d Hd0) as (Hc1 & Hc2 & Hc3).
  assert (Hiff : q = -1 <-> Z.abs d < 2 ^ (1 + i)).
  { unfold q. split; intros Hx.
    - pose proof (Z.mul_div_le (d - 1) (2 ^ (1 + i)) ltac:(lia)).
      pose proof (Z.mod_pos_bound (d - 1) (2 ^ (1 + i)) ltac:(lia)).
      pose proof (Z.div_mod (d - 1) (2 ^ (1 + i)) ltac:(lia)). rewrite Hx in *. lia.
    - symmetry. apply Z.div_unique with (d - 1 + 2 ^ (1 + i)); lia. }
  destruct (category d <=? i + 1) eqn:E.
  - assert (Z.abs d < 2 ^ (1 + i)).
    { eapply Z.lt_le_trans; [exact Hc3|]. apply pow2_le. lia. }
    apply Hiff in H. lia.
  - assert (q <> -1).
    { intros Hx. apply Hiff in Hx.
      assert (2 ^ (1 + i) <= 2 ^ (category d - 1)) by (apply pow2_le; lia). lia. }
    lia.
Qed.

Lemma neg_tree_ok fuel bd d v start en :
  - 2 ^ bd < d < 0 ->
  0 <= start -> start <= en -> en < bd -> en - start < Z.of_nat fuel ->
  start < category d <= en + 1 ->
  neg_tree fuel bd ((d - 1) mod 2 ^ (bd + 1)) v start en = Some (neg_leaf bd v (category d - 1)).
Proof.
  intros Hd. revert start en. induction fuel as [|f IH]; intros start en H0 H1 H2 Hf Hc; [lia|].
  cbn [neg_tree].
  destruct (en =? start) eqn:E1.
  { do 2 f_equal. lia. }
  destruct (en =? start + 1) eqn:E2.
  { f_equal. rewrite neg_hit_spec by lia.
    destruct (category d <=? start + 1) eqn:E; f_equal; lia. }
  assert (Hm : start < (en + start) / 2 < en) by lia.
  set (mid := (en + start) / 2) in *. clearbody mid.
  rewrite neg_hit_spec by lia.
  destruct (category d <=? mid + 1) eqn:E; apply IH; lia.
Qed.

Lemma neg_tree_total bd d v : 1 <= bd -> - 2 ^ bd < d < 0 ->
  neg_tree (Z.to_nat bd) bd ((d - 1) mod 2 ^ (bd + 1)) v 0 (bd - 1) =
  Some (neg_leaf bd v (category d - 1)).
Proof.
  intros Hb Hd. apply neg_tree_ok; try lia.
  assert (Hd0 : d <> 0) by lia. pose proof (category_bounds d Hd0).
  pose proof (category_range bd d ltac:(lia) ltac:(lia)). lia.
Qed.

Lemma pos_tree_ok n v : Z.of_nat n < 32 -> 0 <= v < 2 ^ Z.of_nat n -> pos_tree n v = category v.
Proof.
  intros Hn. induction n as [|n IH]; intros Hv.
  - cbn in *. replace v with 0 by lia. reflexivity.
  - cbn [pos_tree]. rewrite pow2_nat_S in Hv. pose proof (pow2_pos (Z.of_nat n) ltac:(lia)) as Hp.
    destruct (Z.testbit v (Z.of_nat n)) eqn:E.
    + assert (2 ^ Z.of_nat n <= v).
      { destruct (Z_lt_le_dec v (2 ^ Z.of_nat n)) as [Hlt|]; [|assumption]. exfalso.
        destruct (Z.eq_dec v 0) as [->|]; [rewrite Z.bits_0 in E; discriminate|].
        rewrite Z.bits_above_log2 in E; [discriminate|lia|]. apply Z.log2_lt_pow2; lia. }
      rewrite trunc_id.
      * symmetry. apply category_unique; [lia|].
        replace (Z.of_nat (S n) - 1) with (Z.of_nat n) by lia. rewrite pow2_nat_S. lia.
      * change (2 ^ 5) with 32. lia.
    + apply IH; [lia|]. split; [lia|].
      destruct (Z_lt_le_dec v (2 ^ Z.of_nat n)) as [Hlt|Hge]; [assumption|]. exfalso.
      assert (Z.log2 v = Z.of_nat n).
      { apply Z.log2_unique; [lia|]. replace (Z.succ (Z.of_nat n)) with (Z.of_nat n + 1) by lia.
        rewrite pow2_S by lia. lia. }
      pose proof (Z.bit_log2 v ltac:(lia)) as Hb. rewrite H in Hb. congruence.
Qed.

(* value and class for a difference given in two's complement *)
Definition offset (d : Z) : Z := if d <? 0 then d + 2 ^ category d - 1 else d.

Lemma testbit_top bd d : 0 <= bd -> - 2 ^ bd <= d < 2 ^ bd ->
  Z.testbit (d mod 2 ^ (bd + 1)) bd = (d <? 0).
Proof.
  intros Hb Hd. rewrite Z.mod_pow2_bits_low by lia.
  destruct (d <? 0) eqn:E.
  - rewrite <- (Z.lnot_involutive d). rewrite Z.lnot_spec by lia.
    apply negb_true_iff. destruct (Z.eq_dec (Z.lnot d) 0) as [->|]; [apply Z.bits_0|].
    assert (Z.lnot d = - d - 1) by (unfold Z.lnot; lia).
    apply Z.bits_above_log2; [lia|]. apply Z.log2_lt_pow2; lia.
  - destruct (Z.eq_dec d 0) as [->|]; [apply Z.bits_0|].
    apply Z.bits_above_log2; [lia|]. apply Z.log2_lt_pow2; lia.
Qed.

Lemma offset_range bd d : 0 <= bd -> - 2 ^ bd < d < 2 ^ bd ->
  0 <= offset d < 2 ^ category d /\ 2 ^ category d <= 2 ^ bd.
Proof.
  intros Hb Hd. pose proof (category_range bd d Hb ltac:(lia)) as Hr.
  split; [|apply pow2_le; lia].
  destruct (Z.eq_dec d 0) as [->|Hn]; [cbn; lia|].
  destruct (category_bounds d Hn) as (H1 & H2 & H3).
  assert (H4 : 2 ^ category d = 2 * 2 ^ (category d - 1)).
  { rewrite <- pow2_S by lia. f_equal; lia. }
  unfold offset. destruct (d <? 0) eqn:E; lia.
Qed.

Lemma norm1_ok bd d : 2 <= bd <= 16 -> - 2 ^ bd < d < 2 ^ bd ->
  norm1 bd (d mod 2 ^ (bd + 1)) ((d - 1) mod 2 ^ (bd + 1)) = (offset d, category d).
Proof.
  intros Hb Hd. unfold norm1. rewrite testbit_top by lia.
  pose proof (offset_range bd d ltac:(lia) Hd) as [Ho1 Ho2].
  pose proof (category_range bd d ltac:(lia) ltac:(lia)) as Hr.
  assert (Hm : 2 ^ (bd + 1) = 2 * 2 ^ bd) by (apply pow2_S; lia).
  pose proof (pow2_pos bd ltac:(lia)) as Hp.
  destruct (d <? 0) eqn:E.
  - rewrite neg_tree_total by lia. unfold neg_leaf, neg_added, neg_ssss.
    assert (Hd0 : d <> 0) by lia. destruct (category_bounds d Hd0) as (Hc1 & _ & _).
    replace (category d - 1 + 1) with (category d) by lia.
    f_equal.
    + assert (Hmod : d mod 2 ^ (bd + 1) = d + 2 ^ (bd + 1)).
      { rewrite <- (Z.mod_add d 1) by lia. rewrite Z.mod_small; lia. }
      rewrite Hmod. unfold trunc. unfold offset in *. rewrite E in *. rewrite Hm.
      replace (d + 2 * 2 ^ bd + (2 ^ category d - 1)) with (d + 2 ^ category d - 1 + 2 * 2 ^ bd) by lia.
      rewrite Z.mod_add by lia. apply Z.mod_small. lia.
    + apply trunc_id. change (2 ^ 5) with 32. lia.
  - rewrite (Z.mod_small d) by lia. unfold offset. rewrite E. f_equal.
    + apply trunc_id; lia.
    + apply pos_tree_ok; rewrite Z2Nat.id; lia.
Qed.

(* normalizer fed by the difference stage *)
Lemma norm1_of_pixels bd p q : 2 <= bd <= 16 -> 0 <= p < 2 ^ bd -> 0 <= q < 2 ^ bd ->
  norm1 bd (sub_val bd p q) (sub_mns bd p q) = (offset (p - q), category (p - q)).
Proof. intros. unfold sub_val, sub_mns, trunc. apply norm1_ok; lia. Qed.

(* the extra bits of the specification are the offset bits *)
Lemma extra_bits_offset d : category d <> 16 -> extra_bits d = bitsz (category d) (offset d).
Proof.
  intros H. unfold extra_bits. replace (category d =? 16) with false by lia.
  unfold offset. destruct (d <? 0) eqn:E; [|reflexivity].
  unfold bitsz. rewrite <- (bitsn_mod _ (category d) (d - 1)).
  - rewrite <- (Z.mod_add (d - 1) 1).
    + rewrite bitsn_mod; [f_equal; lia|].
      assert (Hd0 : d <> 0) by lia. pose proof (category_bounds d Hd0). lia.
    + assert (Hd0 : d <> 0) by lia. pose proof (category_bounds d Hd0).
      pose proof (pow2_pos (category d)). lia.
  - assert (Hd0 : d <> 0) by lia. pose proof (category_bounds d Hd0). lia.
Qed.
