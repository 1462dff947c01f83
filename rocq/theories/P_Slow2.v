(* liblj92 with SLOW_HUFF: one difference, bit by bit and through the lookup table *)
From Verif Require Import Bits Spec Spec_Lj92 M_Predictor M_Lj92 M_Pred6 M_Slow P_Lj92 P_Lj92b P_Slow.
Ltac Zify.zify_post_hook ::= idtac.

Section Reader.
Variable d : lmem.
Hypothesis Hd : byte_mem d.

Definition sl_wf (s : nd_st) : Prop := 0 <= n_cnt s <= 8 /\ 0 <= n_b s < 256.
Lemma shl_byte b : 0 <= b < 256 -> Z.land (Z.shiftl b 1) 255 = (2 * b) mod 256.
Proof. intros _. rewrite Z.shiftl_mul_pow2 by lia. change (2 ^ 1) with 2. change 255 with (Z.ones 8). rewrite Z.land_ones by lia. change (2 ^ 8) with 256. f_equal. lia. Qed.
Lemma nextbit_wf s : sl_wf s -> let '(bit, s') := sl_nextbit d s in 0 <= bit <= 1 /\ sl_wf s' /\ n_oob s' = n_oob s /\ n_ix s <= n_ix s'.
Proof.
  intros (C & B). unfold sl_nextbit. cbv zeta. set (b := if n_cnt s =? 0 then d (n_ix s) else n_b s). assert (Hb : 0 <= b < 256) by (unfold b; destruct (n_cnt s =? 0); [apply Hd|lia]).
  rewrite Z.shiftr_div_pow2 by lia. change (2 ^ 7) with 128. split. { split; [apply Z.div_pos; lia|]. pose proof (Z.div_lt_upper_bound b 128 2 ltac:(lia) ltac:(lia)). lia. }
  unfold sl_wf. cbn [n_cnt n_b n_oob n_ix]. rewrite shl_byte by exact Hb. pose proof (Z.mod_pos_bound (2 * b) 256 ltac:(lia)). destruct (n_cnt s =? 0) eqn:E; [destruct (d (n_ix s) =? 255)|]; repeat split; lia.
Qed.
Definition rcv (n : Z) (s : nd_st) : Z * nd_st := sl_receive (Z.to_nat n) d 0 s.
Lemma receive_app : forall a b v s, sl_receive (a + b) d v s = let (v1, s1) := sl_receive a d v s in sl_receive b d v1 s1.
Proof. induction a as [|a IH]; intros b v s; cbn [plus sl_receive]; [reflexivity|]. destruct (sl_nextbit d s) as [bit s']. apply IH. Qed.
Lemma receive_val : forall n v s, sl_receive n d v s = (v * 2 ^ Z.of_nat n + fst (sl_receive n d 0 s), snd (sl_receive n d 0 s)).
Proof.
  induction n as [|n IH]; intros v s; cbn [sl_receive fst snd]; [f_equal; change (2 ^ Z.of_nat 0) with 1; lia|]. destruct (sl_nextbit d s) as [bit s'].
  rewrite (IH (Z.shiftl v 1 + bit)). rewrite (IH (Z.shiftl 0 1 + bit)). cbn [fst snd]. f_equal. change (Z.shiftl 0 1) with 0. rewrite Z.shiftl_mul_pow2 by lia. change (2 ^ 1) with 2.
  rewrite Nat2Z.inj_succ, Z.pow_succ_r by lia. lia.
Qed.
Lemma receive_wf : forall n s, sl_wf s -> let '(v, s') := sl_receive n d 0 s in 0 <= v < 2 ^ Z.of_nat n /\ sl_wf s' /\ n_oob s' = n_oob s /\ n_ix s <= n_ix s'.
Proof.
  induction n as [|n IH]; intros s W; cbn [sl_receive]; [cbn; repeat split; try apply W; try lia|]. pose proof (nextbit_wf s W) as N. destruct (sl_nextbit d s) as [bit s']. destruct N as (N1 & N2 & N3 & N4).
  rewrite receive_val. specialize (IH s' N2). destruct (sl_receive n d 0 s') as [v s2]. cbn [fst snd]. destruct IH as (I1 & I2 & I3 & I4). change (Z.shiftl 0 1) with 0. rewrite Nat2Z.inj_succ, Z.pow_succ_r by lia.
  pose proof (pow2_pos (Z.of_nat n) ltac:(lia)). split; [nia|]. split; [exact I2|]. split; [congruence|lia].
Qed.
Lemma rcv_wf n s : sl_wf s -> 0 <= n -> let '(v, s') := rcv n s in 0 <= v < 2 ^ n /\ sl_wf s' /\ n_oob s' = n_oob s /\ n_ix s <= n_ix s'.
Proof. intros W Hn. unfold rcv. pose proof (receive_wf (Z.to_nat n) s W) as R. rewrite Z2Nat.id in R by lia. exact R. Qed.
Lemma rcv_add a b s : 0 <= a -> 0 <= b -> rcv (a + b) s = let (v, s1) := rcv a s in let (w, s2) := rcv b s1 in (v * 2 ^ b + w, s2).
Proof.
  intros Ha Hb. unfold rcv. rewrite Z2Nat.inj_add by lia. rewrite receive_app. destruct (sl_receive (Z.to_nat a) d 0 s) as [v s1]. rewrite receive_val. rewrite Z2Nat.id by lia. destruct (sl_receive (Z.to_nat b) d 0 s1); reflexivity.
Qed.
(* the rest of a loaded byte *)
Lemma receive_rest : forall k s y, n_cnt s = Z.of_nat k -> (k <= 8)%nat -> 0 <= y < 2 ^ Z.of_nat k -> n_b s = y * 2 ^ (8 - Z.of_nat k) ->
  exists s', sl_receive k d 0 s = (y, s') /\ n_cnt s' = 0 /\ n_ix s' = n_ix s.
Proof.
  induction k as [|k IH]; intros s y Hc Hk Hy Hb.
  - exists s. cbn [sl_receive]. change (2 ^ Z.of_nat 0) with 1 in Hy. split; [f_equal; lia|]. split; [lia|reflexivity].
  - cbn [sl_receive]. unfold sl_nextbit. replace (n_cnt s =? 0) with false by lia. cbv zeta. rewrite receive_val. change (Z.shiftl 0 1) with 0. rewrite Z.add_0_l.
    rewrite Nat2Z.inj_succ in *. rewrite Z.pow_succ_r in Hy by lia. set (P := 2 ^ Z.of_nat k) in *. assert (HP : 0 < P) by (apply pow2_pos; lia).
    assert (E8 : P * 2 ^ (8 - Z.of_nat k) = 256) by (unfold P; rewrite <- Z.pow_add_r by lia; replace (Z.of_nat k + (8 - Z.of_nat k)) with 8 by lia; reflexivity).
    assert (E7 : 2 ^ (8 - Z.of_nat k) = 2 * 2 ^ (8 - Z.succ (Z.of_nat k))) by (rewrite <- Z.pow_succ_r by lia; f_equal; lia).
    set (Q := 2 ^ (8 - Z.succ (Z.of_nat k))) in *. rewrite E7 in E8. assert (HPQ : P * Q = 128) by lia. assert (HQ : 0 < Q) by (apply pow2_pos; lia).
    assert (Eb : Z.shiftr (n_b s) 7 = y / P). { rewrite Z.shiftr_div_pow2 by lia. change (2 ^ 7) with 128. rewrite <- HPQ, Hb. apply Z.div_mul_cancel_r; lia. }
    assert (Em : Z.land (Z.shiftl (n_b s) 1) 255 = (y mod P) * 2 ^ (8 - Z.of_nat k)).
    { rewrite shl_byte by (rewrite Hb; nia). rewrite E7. replace (2 * n_b s) with (y * (2 * Q)) by lia. replace 256 with (P * (2 * Q)) by lia. rewrite Z.mul_mod_distr_r by lia. reflexivity. }
    destruct (IH {| n_b := Z.land (Z.shiftl (n_b s) 1) 255; n_cnt := n_cnt s - 1; n_ix := n_ix s; n_hi := n_hi s; n_oob := n_oob s |} (y mod P)) as (s' & I1 & I2 & I3).
    + cbn [n_cnt]. lia.
    + lia.
    + apply Z.mod_pos_bound. exact HP.
    + exact Em.
    + exists s'. rewrite I1. cbn [fst snd]. split; [|split; [exact I2|exact I3]]. rewrite Eb. f_equal. pose proof (Z.div_mod y P ltac:(lia)). lia.
Qed.
Definition after (ix : Z) : Z := if d ix =? 255 then ix + 2 else ix + 1.
Lemma rcv_byte s : n_cnt s = 0 -> exists s', rcv 8 s = (d (n_ix s), s') /\ n_cnt s' = 0 /\ n_ix s' = after (n_ix s).
Proof.
  intros Hc. unfold rcv. change (Z.to_nat 8) with 8%nat.
  set (s8 := {| n_b := d (n_ix s); n_cnt := 8; n_ix := after (n_ix s); n_hi := Z.max (n_hi s) (n_ix s); n_oob := n_oob s |}).
  assert (E : sl_receive 8 d 0 s = sl_receive 8 d 0 s8). { change 8%nat with (S 7). cbn [sl_receive]. assert (E : sl_nextbit d s = sl_nextbit d s8) by (unfold sl_nextbit; rewrite Hc; reflexivity). rewrite E. reflexivity. }
  rewrite E. destruct (receive_rest 8 s8 (d (n_ix s))) as (s' & R1 & R2 & R3); [reflexivity|lia|change (2 ^ Z.of_nat 8) with 256; apply Hd|cbn [n_b s8]; change (8 - Z.of_nat 8) with 0; lia|].
  exists s'. auto.
Qed.

(* the buffered reader holds the next bits of the bit-by-bit reader, and both continue at the same byte *)
Definition rel (s1 s2 : nd_st) : Prop :=
  0 <= n_cnt s1 <= 31 /\ sl_wf s2 /\ exists s3, rcv (n_cnt s1) s2 = (n_b s1, s3) /\ n_cnt s3 = 0 /\ n_ix s3 = n_ix s1.
Lemma rel_ix s1 s2 : rel s1 s2 -> n_ix s2 <= n_ix s1.
Proof. intros (C & W & s3 & E & _ & Hx). pose proof (rcv_wf (n_cnt s1) s2 W ltac:(lia)) as R. rewrite E in R. lia. Qed.
Lemma rel_b s1 s2 : rel s1 s2 -> 0 <= n_b s1 < 2 ^ n_cnt s1.
Proof. intros (C & W & s3 & E & _ & Hx). pose proof (rcv_wf (n_cnt s1) s2 W ltac:(lia)) as R. rewrite E in R. apply R. Qed.
Lemma refill_rel_step need s1 s2 : rel s1 s2 -> n_cnt s1 < need -> need <= 16 ->
  exists s', (forall f, refill (S f) d need s1 = refill f d need s') /\ rel s' s2 /\ n_cnt s1 + 8 <= n_cnt s' /\ n_oob s' = n_oob s1.
Proof.
  intros HR Hc Hn. pose proof (rel_b _ _ HR) as B. destruct HR as (C & W & s3 & E & Hc3 & Hx3). cbn [refill]. replace (n_cnt s1 <? need) with true by lia.
  destruct (word_bits (n_b s1) (n_cnt s1) (d (n_ix s1)) (d (n_ix s1 + 1)) ltac:(lia) B (Hd _) (Hd _) ltac:(lia)) as (W1 & _ & _ & W4 & _ & _).
  cbv zeta in *. set (w := trunc 32 _) in *.
  destruct (rcv_byte s3 Hc3) as (s4 & E4 & Hc4 & Hx4). rewrite Hx3 in E4, Hx4. unfold after in Hx4.
  assert (R8 : rcv (n_cnt s1 + 8) s2 = (n_b s1 * 256 + d (n_ix s1), s4)) by (rewrite rcv_add by lia; rewrite E, E4; reflexivity).
  destruct (d (n_ix s1) =? 255) eqn:E1.
  - eexists. split; [intros f; reflexivity|]. cbn [n_cnt n_oob]. split; [|split; [lia|reflexivity]]. unfold rel. cbn [n_cnt n_b n_ix]. split; [lia|]. split; [exact W|]. exists s4. rewrite W4. replace (n_cnt s1 + 16 - 8) with (n_cnt s1 + 8) by lia. auto.
  - destruct (rcv_byte s4 Hc4) as (s5 & E5 & Hc5 & Hx5). rewrite Hx4 in E5, Hx5. unfold after in Hx5.
    assert (R16 : rcv (n_cnt s1 + 16) s2 = (w, s5)). { replace (n_cnt s1 + 16) with (n_cnt s1 + 8 + 8) by lia. rewrite rcv_add by lia. rewrite R8, E5. f_equal. rewrite W1. change (2 ^ 8) with 256. lia. }
    destruct (d (n_ix s1 + 1) =? 255) eqn:E2; (eexists; split; [intros f; reflexivity|]; cbn [n_cnt n_oob]; split; [|split; [lia|reflexivity]]; unfold rel; cbn [n_cnt n_b n_ix]; split; [lia|]; split; [exact W|]; exists s5; split; [exact R16|]; split; [exact Hc5|lia]).
Qed.
Lemma refill_rel need s2 : need <= 16 -> forall f s1, rel s1 s2 -> need - n_cnt s1 <= 8 * Z.of_nat f ->
  let s' := refill f d need s1 in rel s' s2 /\ need <= n_cnt s' /\ n_oob s' = n_oob s1.
Proof.
  intros Hn. induction f as [|f IH]; intros s1 HR Hf; [cbn [refill]; split; [exact HR|]; split; [lia|reflexivity]|]. cbv zeta. destruct (n_cnt s1 <? need) eqn:Ec.
  - destruct (refill_rel_step need s1 s2 HR ltac:(lia) Hn) as (s' & E1 & R' & Hc & Ho). rewrite E1. destruct (IH s' R' ltac:(lia)) as (J1 & J2 & J3). split; [exact J1|]. split; [exact J2|congruence].
  - cbn [refill]. rewrite Ec. split; [exact HR|]. split; [lia|reflexivity].
Qed.
Lemma take_rel l s1 s2 : rel s1 s2 -> 0 <= l <= n_cnt s1 -> let c := n_cnt s1 - l in let '(v, s2') := rcv l s2 in
  v = n_b s1 / 2 ^ c /\ forall hi oob, rel {| n_b := n_b s1 mod 2 ^ c; n_cnt := c; n_ix := n_ix s1; n_hi := hi; n_oob := oob |} s2'.
Proof.
  intros (C & W & s3 & E & Hc3 & Hx3) Hl c. replace (n_cnt s1) with (l + c) in E by (unfold c; lia). rewrite rcv_add in E by (unfold c; lia).
  pose proof (rcv_wf l s2 W ltac:(lia)) as R. destruct (rcv l s2) as [v s2']. destruct R as (R1 & R2 & R3 & R4).
  pose proof (rcv_wf c s2' R2 ltac:(unfold c; lia)) as R. destruct (rcv c s2') as [w s4] eqn:E4. destruct R as (Q1 & _). injection E as Eb <-.
  assert (Ev : v = n_b s1 / 2 ^ c) by (apply Z.div_unique with w; [left; lia|lia]). split; [exact Ev|]. intros hi oob.
  assert (Ew : w = n_b s1 mod 2 ^ c) by (apply Z.mod_unique with v; [left; lia|lia]).
  unfold rel. cbn [n_cnt n_b n_ix]. split; [unfold c; lia|]. split; [exact R2|]. exists s4. rewrite <- Ew. auto.
Qed.

(* ------------------------------------------------------------------ decode *)
Variables (t : sl_tab) (bits : list nat) (vals : list Z).
Hypothesis HT : tab_ok t bits vals.
Hypothesis H16 : length bits = 16%nat.
Hypothesis Hvals : length vals = list_sum bits.

Lemma decode_levels s : sl_wf s -> forall f k, (16 - k < f)%nat -> (k < 16)%nat -> 
  let i := 1 + Z.of_nat k in
  first_code bits k <= fst (rcv i s) ->
  let '(v, s') := sl_decode f d t i (fst (rcv i s)) (snd (rcv i s)) in
  (exists l j, (l < 16)%nat /\ (j < nth l bits 0)%nat /\ fst (rcv (1 + Z.of_nat l) s) = first_code bits l + Z.of_nat j /\ v = nth (list_sum (firstn l bits) + j) vals 0 /\ s' = snd (rcv (1 + Z.of_nat l) s)) \/
  (n_oob s' = true /\ v = 0 /\ kraft bits 16 <= fst (rcv 16 s) /\ sl_wf s').
Proof.
  intros W. destruct HT as [HV HT']. induction f as [|f IH]; intros k Hf Hk i Hlow; [lia|]. cbn [sl_decode]. replace (16 <? i) with false by (unfold i; lia).
  destruct (HT' k Hk) as [T0 T1]. fold i in T0, T1. set (n := nth k bits 0%nat) in *.
  pose proof (rcv_wf i s W ltac:(unfold i; lia)) as R. destruct (rcv i s) as [p s1] eqn:Ep. cbn [fst snd] in *. destruct R as (R1 & R2 & R3 & R4).
  destruct (t_max t i <? p) eqn:Ec.
  - assert (Hhi : kraft bits (S k) <= p). { rewrite kraft_S by lia. fold n. destruct (Nat.eq_dec n 0) as [N0|N0]; [lia|]. destruct (T1 N0) as (T1' & _). lia. }
    assert (Enext : rcv (i + 1) s = let (bit, s2) := sl_nextbit d s1 in (Z.shiftl p 1 + bit, s2)).
    { rewrite rcv_add by (unfold i; lia). rewrite Ep. unfold rcv. change (Z.to_nat 1) with 1%nat. cbn [sl_receive]. destruct (sl_nextbit d s1) as [bit s2]. f_equal. change (Z.shiftl 0 1) with 0. rewrite Z.shiftl_mul_pow2 by lia. lia. }
    pose proof (nextbit_wf s1 R2) as NW. destruct (sl_nextbit d s1) as [bit s2]. destruct NW as (NW1 & NW2 & NW3 & NW4).
    destruct (Nat.eq_dec k 15) as [K15|K15].
    + subst k. destruct f as [|f]; [lia|]. cbn [sl_decode]. replace (16 <? i + 1) with true by (unfold i; lia). right. change i with 16 in Ep. rewrite Ep. cbn [fst]. split; [reflexivity|]. split; [reflexivity|]. split; [exact Hhi|exact NW2].
    + specialize (IH (S k) ltac:(lia) ltac:(lia)). replace (1 + Z.of_nat (S k)) with (i + 1) in IH by (unfold i; lia). rewrite Enext in IH. cbn [fst snd] in IH. apply IH.
      rewrite first_code_kraft by lia. rewrite Z.shiftl_mul_pow2 by lia. change (2 ^ 1) with 2. lia.
  - assert (N0 : n <> 0%nat) by (intros N0; rewrite T0 in Ec by exact N0; lia). destruct (T1 N0) as (Ta & Tb & Tc). rewrite Tb, Tc.
    set (j := Z.to_nat (p - first_code bits k)). assert (Hj : (j < n)%nat) by (unfold j; lia).
    pose proof (annexC_at bits k j ltac:(lia) Hj) as AA. assert (AL : (list_sum (firstn k bits) + j < list_sum bits)%nat). { rewrite <- (annexC_len bits 1 0). apply nth_error_Some. congruence. }
    replace (Z.of_nat (list_sum (firstn k bits)) + p - first_code bits k) with (Z.of_nat (list_sum (firstn k bits) + j)) by (unfold j; lia).
    rewrite HV. replace (Z.of_nat (list_sum (firstn k bits) + j) <? 0) with false by lia. replace (Z.of_nat (length vals) <=? Z.of_nat (list_sum (firstn k bits) + j)) with false by lia. cbn [orb]. rewrite Nat2Z.id.
    left. exists k, j. split; [exact Hk|]. split; [exact Hj|]. fold i. rewrite Ep. cbn [fst snd]. split; [unfold j; lia|]. auto.
Qed.

(* ------------------------------------------------------------------ one difference *)
Variables (U M : Z) (lut : list Z).
Hypothesis HL : lut_ok M lut bits vals.
Hypothesis Hcat : Forall (fun v => 0 <= v <= 16) vals.

(* both agree; or both leave their tables; or the class is 16 and only the table-driven build leaves an array *)
Lemma nextdiff_rel s1 s2 : rel s1 s2 -> let '(v1, s1') := nextdiff U d M lut s1 in let '(v2, s2') := sl_nextdiff U d t s2 in
  (n_oob s1' = n_oob s1 /\ n_oob s2' = n_oob s2 /\ v1 = v2 /\ rel s1' s2') \/ (n_oob s1' = true /\ (n_oob s2' = true \/ In 16 vals)).
Proof.
  intros HR. destruct HL as (HM & (HK & HF) & HC). assert (W : sl_wf s2) by apply HR.
  unfold nextdiff. destruct (refill_rel M s2 ltac:(lia) 4%nat s1 HR) as (R1 & C1 & O1). { change (8 * Z.of_nat 4) with 32. destruct HR as ((? & ?) & _). lia. }
  set (sA := refill 4 d M s1) in *. clearbody sA. pose proof (rel_b _ _ R1) as BA. pose proof (proj1 R1) as CA.
  pose proof (take_rel M sA s2 R1 ltac:(lia)) as TM. cbv zeta in TM. pose proof (rcv_wf M s2 W ltac:(lia)) as RM. destruct (rcv M s2) as [q sM] eqn:EqM. destruct TM as [Eq _]. destruct RM as (Rq & _ & _ & _).
  assert (Hi : Z.shiftr (n_b sA) (n_cnt sA - M) = q) by (rewrite Z.shiftr_div_pow2 by lia; symmetry; exact Eq). rewrite Hi.
  (* the slow side *)
  unfold sl_nextdiff. assert (E1 : rcv 1 s2 = sl_nextbit d s2). { unfold rcv. change (Z.to_nat 1) with 1%nat. cbn [sl_receive]. destruct (sl_nextbit d s2). f_equal. }
  pose proof (decode_levels s2 W 17 0 ltac:(lia) ltac:(lia)) as DL. change (1 + Z.of_nat 0) with 1 in DL. cbv zeta in DL. rewrite E1 in DL.
  pose proof (nextbit_wf s2 W) as NW. destruct (sl_nextbit d s2) as [bit sb] eqn:Enb. destruct NW as (NW1 & _). cbn [fst snd] in DL. specialize (DL ltac:(cbn; lia)).
  destruct (sl_decode 17 d t 1 bit sb) as [cat sc]. destruct DL as [(l & j & Hl & Hj & Hp & Hv & Hs)|(Ho & Hv & Hk & Wc)].
  - pose proof (annexC_at bits l j ltac:(lia) Hj) as AA. destruct (HC _ _ _ AA) as (Hl1 & Hcode & Hent). set (ll := 1 + Z.of_nat l) in *. set (code := first_code bits l + Z.of_nat j) in *.
    assert (Hidx : (list_sum (firstn l bits) + j < length vals)%nat). { rewrite Hvals, <- (annexC_len bits 1 0). apply nth_error_Some. congruence. }
    rewrite <- Hv in Hent. assert (Hc16 : 0 <= cat <= 16). { rewrite Hv. rewrite Forall_forall in Hcat. apply Hcat. apply nth_In. exact Hidx. }
    assert (Hin : In cat vals) by (rewrite Hv; apply nth_In; exact Hidx).
    (* the index splits into the code and the rest *)
    assert (EM : rcv M s2 = let (v, x1) := rcv ll s2 in let (w, x2) := rcv (M - ll) x1 in (v * 2 ^ (M - ll) + w, x2)) by (rewrite <- rcv_add by lia; f_equal; lia).
    pose proof (take_rel ll sA s2 R1 ltac:(lia)) as TL. cbv zeta in TL. pose proof (rcv_wf ll s2 W ltac:(lia)) as RL. destruct (rcv ll s2) as [p x1] eqn:Ell. cbn [fst snd] in Hp, Hs. subst p x1.
    destruct RL as (RL1 & RL2 & RL3 & RL4). destruct TL as [TL1 TL2].
    pose proof (rcv_wf (M - ll) sc RL2 ltac:(lia)) as RW. destruct (rcv (M - ll) sc) as [r x2]. destruct RW as (Rr & _). rewrite EqM in EM. injection EM as Eq2 _.
    specialize (Hent r Rr). rewrite <- Eq2 in Hent.
    assert (Hn : nth (Z.to_nat q) lut 0 = cat * 256 + ll) by (apply nth_error_nth; exact Hent). rewrite Hn.
    assert (Hlen : Z.of_nat (length lut) <=? q = false). { assert (N : nth_error lut (Z.to_nat q) <> None) by congruence. apply nth_error_Some in N. lia. }
    assert (Hu : Z.land (cat * 256 + ll) 255 = ll). { change 255 with (Z.ones 8). rewrite Z.land_ones by lia. change (2 ^ 8) with 256. rewrite Z.add_comm, Z.mod_add by lia. apply Z.mod_small. lia. }
    assert (Ht : Z.shiftr (cat * 256 + ll) 8 = cat). { rewrite Z.shiftr_div_pow2 by lia. change (2 ^ 8) with 256. symmetry. apply Z.div_unique with ll; lia. }
    rewrite Hu, Ht, Hlen. replace (q <? 0) with false by lia. rewrite !orb_false_r.
    rewrite (land_ones (n_b sA) (n_cnt sA - ll)) by lia. specialize (TL2 (n_hi sA) (n_oob sA || (16 <=? cat))). set (sB := {| n_b := _; n_cnt := n_cnt sA - ll; n_ix := _; n_hi := _; n_oob := _ |}) in *.
    destruct (refill_rel cat sc ltac:(lia) 4%nat sB TL2) as (R2 & C2 & O2). { change (8 * Z.of_nat 4) with 32. cbn [n_cnt sB]. lia. }
    set (sC := refill 4 d cat sB) in *. clearbody sC. pose proof (proj1 R2) as CC.
    pose proof (take_rel cat sC sc R2 ltac:(lia)) as TC. cbv zeta in TC. fold (rcv cat sc). pose proof (rcv_wf cat sc RL2 ltac:(lia)) as RC. destruct (rcv cat sc) as [v sd] eqn:Ecat. destruct TC as [TC1 TC2]. destruct RC as (_ & _ & RC3 & _).
    rewrite land_ones by lia. specialize (TC2 (n_hi sC) (n_oob sC)). rewrite Z.shiftr_div_pow2 by lia. rewrite <- TC1.
    destruct (16 <=? cat) eqn:E16.
    + right. cbn [n_oob]. rewrite O2. cbn [sB n_oob]. split; [apply orb_true_r|]. right. replace 16 with cat by lia. exact Hin.
    + left. cbn [n_oob]. rewrite O2. cbn [sB n_oob]. rewrite orb_false_r. split; [exact O1|]. split; [congruence|]. split; [reflexivity|exact TC2].
  - (* no code *)
    subst cat. change (Z.to_nat 0) with 0%nat. cbn [sl_receive]. cbv zeta. cbn beta iota. right. split; [|left; exact Ho].
    assert (Hq : Z.of_nat (length lut) <= q).
    { assert (E16 : rcv 16 s2 = let (v, x1) := rcv M s2 in let (w, x2) := rcv (16 - M) x1 in (v * 2 ^ (16 - M) + w, x2)) by (rewrite <- rcv_add by lia; f_equal; lia).
      rewrite EqM in E16. assert (WM : sl_wf sM) by (pose proof (rcv_wf M s2 W ltac:(lia)) as X; rewrite EqM in X; apply X). pose proof (rcv_wf (16 - M) sM WM ltac:(lia)) as X. destruct (rcv (16 - M) sM) as [w x2]. destruct X as (X1 & _).
      rewrite E16 in Hk. cbn [fst] in Hk. unfold kraft in Hk. rewrite firstn_all2 in Hk by lia. rewrite <- HK in Hk. unfold len in Hk. pose proof (pow2_pos (16 - M) ltac:(lia)). nia. }
    set (sB := {| n_b := _; n_cnt := _; n_ix := n_ix sA; n_hi := _; n_oob := _ |}). cbn [n_oob].
    assert (G : forall f need s, n_oob (refill f d need s) = n_oob s).
    { clear. induction f as [|f IH]; intros need s; [reflexivity|]. cbn [refill]. destruct (n_cnt s <? need); [|reflexivity]. cbv zeta. destruct (d (n_ix s) =? 255); [rewrite IH; reflexivity|]. destruct (d (n_ix s + 1) =? 255); rewrite IH; reflexivity. }
    rewrite G. cbn [sB n_oob]. replace (Z.of_nat (length lut) <=? q) with true by lia. rewrite orb_true_r. reflexivity.
Qed.
End Reader.
