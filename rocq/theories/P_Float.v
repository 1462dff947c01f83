(* binary32 arithmetic (SpecFloat) on the range createEncodeTable uses: positive normal numbers, rounding errors below 2^-23 *)
From Coq Require Import Floats.SpecFloat.
From Verif Require Import Bits M_Enc92.
Ltac Zify.zify_post_hook ::= idtac.

Lemma digits2_bounds p : 2 ^ (Z.pos (digits2_pos p) - 1) <= Z.pos p < 2 ^ Z.pos (digits2_pos p).
Proof.
  induction p as [p IH|p IH|]; cbn [digits2_pos]; try (rewrite Pos2Z.inj_succ; unfold Z.succ).
  - replace (Z.pos (digits2_pos p) + 1 - 1) with (Z.pos (digits2_pos p) - 1 + 1) by lia. rewrite !Z.pow_add_r by lia. change (2 ^ 1) with 2. rewrite (Pos2Z.inj_xI p). lia.
  - replace (Z.pos (digits2_pos p) + 1 - 1) with (Z.pos (digits2_pos p) - 1 + 1) by lia. rewrite !Z.pow_add_r by lia. change (2 ^ 1) with 2. rewrite (Pos2Z.inj_xO p). lia.
  - cbn. lia.
Qed.
Lemma digits2_log2 p : Z.pos (digits2_pos p) = Z.log2 (Z.pos p) + 1.
Proof.
  pose proof (digits2_bounds p) as B. assert (E : Z.log2 (Z.pos p) = Z.pos (digits2_pos p) - 1); [|lia].
  apply Z.log2_unique; [lia|]. replace (Z.succ (Z.pos (digits2_pos p) - 1)) with (Z.pos (digits2_pos p)) by lia. exact B.
Qed.
Lemma zdigits2_log2 m : 0 < m -> Zdigits2 m = Z.log2 m + 1.
Proof. destruct m as [|p|p]; intros H; try lia. cbn [Zdigits2]. apply digits2_log2. Qed.

Lemma shr_1_m x : 0 <= shr_m x -> shr_m (shr_1 x) = shr_m x / 2.
Proof.
  destruct x as [m r s]. cbn [shr_m]. intros H. destruct m as [|[p|p|]|p]; try lia; cbn [shr_1 shr_m]; try reflexivity.
  - rewrite (Pos2Z.inj_xI p). apply (Z.div_unique_pos _ 2 _ 1); lia.
  - rewrite (Pos2Z.inj_xO p). apply (Z.div_unique_pos _ 2 _ 0); lia.
Qed.
Lemma iter_shr_m p : forall x, 0 <= shr_m x -> shr_m (SpecFloat.iter_pos shr_1 p x) = shr_m x / 2 ^ Z.pos p.
Proof.
  induction p as [p IH|p IH|]; intros x H; cbn [SpecFloat.iter_pos].
  - assert (H1 : 0 <= shr_m (shr_1 x)) by (rewrite shr_1_m by exact H; apply Z.div_pos; lia).
    assert (H2 : 0 <= shr_m (SpecFloat.iter_pos shr_1 p (shr_1 x))) by (rewrite IH by exact H1; apply Z.div_pos; [exact H1|apply pow2_pos; lia]).
    rewrite IH by exact H2. rewrite IH by exact H1. rewrite shr_1_m by exact H. pose proof (pow2_pos (Z.pos p) ltac:(lia)). rewrite !Z.div_div by lia. f_equal.
    rewrite (Pos2Z.inj_xI p). rewrite Z.pow_add_r by lia. replace (2 * Z.pos p) with (Z.pos p + Z.pos p) by lia. rewrite Z.pow_add_r by lia. lia.
  - assert (H2 : 0 <= shr_m (SpecFloat.iter_pos shr_1 p x)) by (rewrite IH by exact H; apply Z.div_pos; [exact H|apply pow2_pos; lia]).
    rewrite IH by exact H2. rewrite IH by exact H. pose proof (pow2_pos (Z.pos p) ltac:(lia)). rewrite !Z.div_div by lia. f_equal.
    rewrite (Pos2Z.inj_xO p). replace (2 * Z.pos p) with (Z.pos p + Z.pos p) by lia. rewrite Z.pow_add_r by lia. lia.
  - rewrite shr_1_m by exact H. reflexivity.
Qed.
Lemma shr_m_of_loc m l : shr_m (shr_record_of_loc m l) = m.
Proof. destruct l as [|[ | | ]]; reflexivity. Qed.
Lemma rne_bounds m l : m <= round_nearest_even m l <= m + 1.
Proof. destruct l as [|[ | | ]]; cbn; try lia. destruct (Z.even m); lia. Qed.

Definition T23 : Z := 8388608.
Lemma T23_eq : T23 = 2 ^ 23. Proof. reflexivity. Qed.
Opaque T23.

(* a positive normal number; its value in units of 2^-149 *)
Definition is_norm (f : f32) : Prop := exists m e, f = S754_finite false m e /\ T23 <= Z.pos m < 2 * T23 /\ -100 <= e <= 90.
Definition fval (f : f32) : Z := match f with S754_finite false m e => Z.pos m * 2 ^ (e + 149) | _ => 0 end.

(* rounding a positive number m * 2^e of at least 24 bits: relative error at most 2^-23 *)
Lemma round_aux_ok m e l : T23 <= m -> -100 <= e -> e + Z.log2 m <= 100 ->
  exists p e2, binary_round_aux 24 128 false m e l = S754_finite false p e2 /\ T23 <= Z.pos p < 2 * T23 /\ e <= e2 <= 90 /\
    T23 * (Z.pos p * 2 ^ (e2 - e)) <= (T23 + 1) * m /\ (T23 - 1) * m <= T23 * (Z.pos p * 2 ^ (e2 - e)).
Proof.
  intros Hm He He2. pose proof T23_eq as HT. assert (Hm0 : 0 < m) by (pose proof (pow2_pos 23 ltac:(lia)); lia).
  pose proof (Z.log2_spec m Hm0) as HL. assert (HL23 : 23 <= Z.log2 m) by (apply Z.log2_le_pow2; lia). set (k := Z.log2 m) in *.
  assert (HT2 : 2 * T23 = 2 ^ 24) by (rewrite HT; reflexivity).
  unfold binary_round_aux, shr_fexp. rewrite zdigits2_log2 by exact Hm0. fold k.
  assert (Ef : fexp 24 128 (k + 1 + e) - e = k - 23) by (unfold fexp, emin; lia). rewrite Ef.
  assert (S1 : exists mrs, shr (shr_record_of_loc m l) e (k - 23) = (mrs, e + (k - 23)) /\ shr_m mrs = m / 2 ^ (k - 23)).
  { destruct (k - 23) as [|p|p] eqn:Ek; [| |lia]; cbn [shr].
    - eexists. split; [f_equal; lia|]. rewrite shr_m_of_loc. cbn. rewrite Z.div_1_r. reflexivity.
    - eexists. split; [reflexivity|]. rewrite iter_shr_m; rewrite shr_m_of_loc; [reflexivity|lia]. }
  destruct S1 as (mrs & -> & Em). set (n := k - 23) in *. assert (Hn : 0 <= n) by (unfold n; lia). pose proof (pow2_pos n Hn) as Hp.
  set (q := m / 2 ^ n) in *. pose proof (Z.div_mod m (2 ^ n) ltac:(lia)) as DM. pose proof (Z.mod_pos_bound m (2 ^ n) ltac:(lia)) as MB. fold q in DM.
  assert (Hk : 2 ^ k = T23 * 2 ^ n) by (rewrite HT, <- Z.pow_add_r by lia; f_equal; unfold n; lia).
  assert (Hq : T23 <= q < 2 * T23).
  { rewrite Z.pow_succ_r in HL by lia. rewrite Hk in HL. unfold q. split; [apply Z.div_le_lower_bound; lia|apply Z.div_lt_upper_bound; lia]. }
  rewrite Em. fold q. set (m2 := round_nearest_even q (loc_of_shr_record mrs)). pose proof (rne_bounds q (loc_of_shr_record mrs)) as HR. fold m2 in HR. clearbody m2.
  assert (Hm2 : T23 <= m2 <= 2 * T23) by lia. assert (B1 : m2 * 2 ^ n <= m + 2 ^ n) by nia. assert (B2 : m - 2 ^ n <= m2 * 2 ^ n) by nia.
  assert (B3 : T23 * 2 ^ n <= m) by lia. assert (Hm20 : 0 < m2) by (pose proof (pow2_pos 23 ltac:(lia)); lia).
  rewrite zdigits2_log2 by exact Hm20.
  destruct (Z.eq_dec m2 (2 * T23)) as [E2|N2].
  - assert (EL : Z.log2 m2 = 24) by (rewrite E2, HT2; apply Z.log2_pow2; lia). rewrite EL.
    assert (Ef2 : fexp 24 128 (24 + 1 + (e + n)) - (e + n) = 1) by (unfold fexp, emin; lia). rewrite Ef2. cbn [shr SpecFloat.iter_pos shr_record_of_loc].
    rewrite shr_1_m by (cbn [shr_m]; lia). cbn [shr_m]. replace (m2 / 2) with T23 by (rewrite E2; symmetry; rewrite Z.mul_comm; apply Z.div_mul; lia).
    assert (ET : exists tp, T23 = Z.pos tp) by (exists (Z.to_pos T23); symmetry; apply Z2Pos.id; pose proof (pow2_pos 23 ltac:(lia)); lia). destruct ET as (tp & ET). rewrite ET. cbn iota.
    assert (Ee : (e + n + 1 <=? 128 - 24) = true) by (unfold n; lia).
    change Zle_bool with Z.leb. rewrite Ee. eexists _, _. split; [reflexivity|]. rewrite <- ET. split; [lia|]. split; [unfold n; lia|].
    replace (e + n + 1 - e) with (n + 1) by lia. rewrite Z.pow_add_r by lia. change (2 ^ 1) with 2. rewrite E2 in B1, B2. nia.
  - assert (EL : Z.log2 m2 = 23) by (apply Z.log2_unique; [lia|]; change (Z.succ 23) with 24; lia). rewrite EL.
    assert (Ef2 : fexp 24 128 (23 + 1 + (e + n)) - (e + n) = 0) by (unfold fexp, emin; lia). rewrite Ef2. cbn [shr shr_record_of_loc shr_m].
    destruct m2 as [|p|p]; try lia. assert (Ee : (e + n <=? 128 - 24) = true) by (unfold n; lia).
    change Zle_bool with Z.leb. rewrite Ee. eexists _, _. split; [reflexivity|]. split; [lia|]. split; [unfold n; lia|].
    replace (e + n - e) with n by lia. nia.
Qed.

Lemma shift_pos_mul d p : Z.pos (shift_pos d p) = Z.pos p * 2 ^ Z.pos d.
Proof. rewrite shift_pos_correct. change (Z.pow_pos 2 d) with (2 ^ Z.pos d). lia. Qed.
Lemma shl_align_ok p e e' : e' <= e -> Z.pos (fst (shl_align p e e')) = Z.pos p * 2 ^ (e - e').
Proof.
  intros H. unfold shl_align. destruct (e' - e) as [|d|d] eqn:E; [| lia|]; cbn [fst].
  - replace (e - e') with 0 by lia. change (2 ^ 0) with 1. lia.
  - rewrite shift_pos_mul. do 2 f_equal. lia.
Qed.
Lemma shl_align_id p e e' : e <= e' -> shl_align p e e' = (p, e).
Proof. intros H. unfold shl_align. destruct (e' - e) as [|d|d] eqn:E; try reflexivity. lia. Qed.
Lemma shl_align_pair p e e' : e' <= e -> exists p', shl_align p e e' = (p', e') /\ Z.pos p' = Z.pos p * 2 ^ (e - e').
Proof.
  intros H. pose proof (shl_align_ok p e e' H) as K. unfold shl_align in *. destruct (e' - e) as [|d|d] eqn:E; [| lia|]; cbn [fst] in K.
  - exists p. split; [f_equal; lia|exact K].
  - eexists. split; [reflexivity|exact K].
Qed.

Lemma pow_split a b : 0 <= a -> 0 <= b -> 2 ^ (a + b) = 2 ^ a * 2 ^ b.
Proof. intros. apply Z.pow_add_r; assumption. Qed.

Lemma f32_add_ok x y : is_norm x -> is_norm y -> fval x + fval y < 4 * 2 ^ 149 ->
  is_norm (f32_add x y) /\ T23 * fval (f32_add x y) <= (T23 + 1) * (fval x + fval y).
Proof.
  intros (mx & ex & -> & Hmx & Hex) (my & ey & -> & Hmy & Hey) HS. pose proof T23_eq as HT. unfold f32_add, SFadd. set (ez := Z.min ex ey).
  assert (Hx : ez <= ex) by (unfold ez; lia). assert (Hy : ez <= ey) by (unfold ez; lia). assert (Hz : -100 <= ez <= 90) by (unfold ez; lia). clearbody ez.
  cbn [cond_Zopp]. set (px := fst (shl_align mx ex ez)). set (py := fst (shl_align my ey ez)).
  assert (Ex : Z.pos px = Z.pos mx * 2 ^ (ex - ez)) by (apply shl_align_ok; lia). assert (Ey : Z.pos py = Z.pos my * 2 ^ (ey - ez)) by (apply shl_align_ok; lia).
  clearbody px py. cbn [fval] in *. pose proof (pow2_pos (ez + 149) ltac:(lia)) as Pz.
  assert (Fx : Z.pos mx * 2 ^ (ex + 149) = Z.pos px * 2 ^ (ez + 149)).
  { rewrite Ex. replace (ex + 149) with (ex - ez + (ez + 149)) by lia. rewrite pow_split by lia. lia. }
  assert (Fy : Z.pos my * 2 ^ (ey + 149) = Z.pos py * 2 ^ (ez + 149)).
  { rewrite Ey. replace (ey + 149) with (ey - ez + (ez + 149)) by lia. rewrite pow_split by lia. lia. }
  rewrite Fx, Fy in *.
  change (Z.pos px + Z.pos py)%Z with (Z.pos (px + py)). unfold binary_normalize, binary_round.
  assert (Hs : T23 <= Z.pos (px + py)). { rewrite Pos2Z.inj_add, Ex. pose proof (pow2_pos (ex - ez) ltac:(lia)). nia. }
  assert (HL : 23 <= Z.log2 (Z.pos (px + py))) by (apply Z.log2_le_pow2; lia).
  rewrite shl_align_id by (rewrite digits2_log2; unfold fexp, emin; lia).
  assert (HU : ez + Z.log2 (Z.pos (px + py)) <= 100).
  { pose proof (Z.log2_spec (Z.pos (px + py)) ltac:(lia)) as [L1 _]. set (k := Z.log2 (Z.pos (px + py))) in *.
    assert (L2 : 2 ^ k * 2 ^ (ez + 149) < 4 * 2 ^ 149) by (rewrite Pos2Z.inj_add in L1; nia). rewrite <- pow_split in L2 by lia. change 4 with (2 ^ 2) in L2. rewrite <- pow_split in L2 by lia.
    apply Z.pow_lt_mono_r_iff in L2; lia. }
  destruct (round_aux_ok (Z.pos (px + py)) ez loc_Exact Hs ltac:(lia) HU) as (p & e2 & -> & H1 & H2 & H3 & H4).
  split; [exists p, e2; split; [reflexivity|]; split; [exact H1|lia]|]. cbn [fval].
  replace (e2 + 149) with (e2 - ez + (ez + 149)) by lia. rewrite pow_split by lia. rewrite Pos2Z.inj_add in *. nia.
Qed.

Lemma f32_of_int_ok h : 1 <= h < 2 ^ 31 -> exists m e, f32_of_int h = S754_finite false m e /\ T23 <= Z.pos m < 2 * T23 /\ -23 <= e <= 20 /\
  T23 * fval (f32_of_int h) <= (T23 + 1) * (h * 2 ^ 149) /\ (T23 - 1) * (h * 2 ^ 149) <= T23 * fval (f32_of_int h).
Proof.
  intros Hh. pose proof T23_eq as HT. destruct h as [|p|p]; try lia. unfold f32_of_int, binary_normalize, binary_round. rewrite digits2_log2.
  pose proof (Z.log2_spec (Z.pos p) ltac:(lia)) as HL. set (k := Z.log2 (Z.pos p)) in *. assert (Hk : 0 <= k < 31).
  { split; [apply Z.log2_nonneg|]. apply (Z.pow_lt_mono_r_iff 2); lia. }
  assert (Ef : fexp 24 128 (k + 1 + 0) = k - 23) by (unfold fexp, emin; lia). rewrite Ef.
  assert (K : exists p' e', shl_align p 0 (k - 23) = (p', e') /\ Z.pos p' = Z.pos p * 2 ^ (- e') /\ -23 <= e' <= 0 /\ T23 <= Z.pos p').
  { destruct (Z_le_gt_dec (k - 23) 0) as [Hc|Hc].
    - destruct (shl_align_pair p 0 (k - 23) Hc) as (p' & E1 & E2). exists p', (k - 23). split; [exact E1|]. replace (0 - (k - 23)) with (- (k - 23)) in E2 by lia. split; [exact E2|]. split; [lia|].
      rewrite E2, HT. replace (2 ^ 23) with (2 ^ k * 2 ^ (- (k - 23))) by (rewrite <- pow_split by lia; f_equal; lia). pose proof (pow2_pos (- (k - 23)) ltac:(lia)). nia.
    - exists p, 0. rewrite shl_align_id by lia. split; [reflexivity|]. split; [change (2 ^ (- 0)) with 1; lia|]. split; [lia|]. rewrite HT. pose proof (pow2_le 23 k ltac:(lia)). lia. }
  destruct K as (p' & e' & -> & E2 & He & Hp').
  assert (HU : e' + Z.log2 (Z.pos p') <= 100).
  { rewrite E2, Z.log2_mul_pow2 by lia. fold k. lia. }
  destruct (round_aux_ok (Z.pos p') e' loc_Exact Hp' ltac:(lia) HU) as (q & e2 & EQ & H1 & H2 & H3 & H4). rewrite EQ. exists q, e2. split; [reflexivity|]. split; [exact H1|].
  assert (Hb : e2 <= 20).
  { destruct (Z_le_gt_dec e2 20) as [P|P]; [exact P|]. exfalso.
    assert (A1 : Z.pos q * 2 ^ (e2 - e') <= 2 * Z.pos p') by nia.
    replace (e2 - e') with (e2 + (- e')) in A1 by lia. rewrite pow_split in A1 by lia. rewrite E2 in A1. pose proof (pow2_pos (- e') ltac:(lia)).
    assert (A2 : Z.pos q * 2 ^ e2 <= 2 * Z.pos p) by nia.
    assert (A3 : 2 ^ 20 <= 2 ^ e2) by (apply pow2_le; lia). change (2 ^ 31) with (2 ^ 8 * 2 ^ 23) in Hh. change (2 ^ 20) with (2 ^ 10 * 1024) in A3. rewrite <- HT in Hh. change (2 ^ 8) with 256 in Hh. change (2 ^ 10) with 1024 in A3. nia. }
  split; [lia|]. cbn [fval].
  assert (F : Z.pos q * 2 ^ (e2 + 149) = Z.pos q * 2 ^ (e2 - e') * 2 ^ (e' + 149)) by (replace (e2 + 149) with (e2 - e' + (e' + 149)) by lia; rewrite pow_split by lia; lia).
  assert (G : Z.pos p * 2 ^ 149 = Z.pos p' * 2 ^ (e' + 149)).
  { rewrite E2. replace 149 with (- e' + (e' + 149)) at 1 by lia. rewrite pow_split by lia. lia. }
  rewrite F, G. pose proof (pow2_pos (e' + 149) ltac:(lia)). split; nia.
Qed.

Lemma f32_div_ok m1 e1 m2 e2 : T23 <= Z.pos m1 < 2 * T23 -> -23 <= e1 <= 20 -> T23 <= Z.pos m2 < 2 * T23 -> -23 <= e2 <= 20 ->
  let x := S754_finite false m1 e1 in let y := S754_finite false m2 e2 in
  is_norm (f32_div x y) /\ T23 * (fval (f32_div x y) * fval y) <= (T23 + 1) * (fval x * 2 ^ 149).
Proof.
  intros H1 He1 H2 He2 x y. pose proof T23_eq as HT. assert (HTT : 2 * T23 = 2 ^ 24) by (rewrite HT; reflexivity). unfold x, y, f32_div, SFdiv, SFdiv_core_binary. cbn [xorb].
  assert (L1 : Z.log2 (Z.pos m1) = 23) by (apply Z.log2_unique; [lia|]; change (Z.succ 23) with 24; lia).
  assert (L2 : Z.log2 (Z.pos m2) = 23) by (apply Z.log2_unique; [lia|]; change (Z.succ 23) with 24; lia).
  rewrite !zdigits2_log2, L1, L2 by lia. change (23 + 1) with 24.
  assert (Ee : Z.min (fexp 24 128 (24 + e1 - (24 + e2))) (e1 - e2) = e1 - e2 - 24) by (unfold fexp, emin; lia). rewrite Ee.
  replace (e1 - e2 - (e1 - e2 - 24)) with 24 by lia. cbn iota. rewrite Z.shiftl_mul_pow2 by lia.
  pose proof (Z_div_mod (Z.pos m1 * 2 ^ 24) (Z.pos m2) ltac:(lia)) as DM. destruct (Z.div_eucl (Z.pos m1 * 2 ^ 24) (Z.pos m2)) as [q r]. destruct DM as [DM DR]. rewrite <- HTT in DM.
  assert (Hq : T23 <= q < 4 * T23). { pose proof (pow2_pos 23 ltac:(lia)) as P23. rewrite <- HT in P23. clear - DM DR H1 H2 P23. nia. }
  assert (LQ : Z.log2 q <= 24). { assert (P : Z.log2 q < 25); [|lia]. apply Z.log2_lt_pow2; [pose proof (pow2_pos 23 ltac:(lia)); lia|]. change (2 ^ 25) with (4 * 2 ^ 23). rewrite <- HT. lia. }
  destruct (round_aux_ok q (e1 - e2 - 24) (new_location (Z.pos m2) r) ltac:(lia) ltac:(lia) ltac:(lia)) as (p & ee & EQ & P1 & P2 & P3 & P4).
  rewrite EQ. split; [exists p, ee; split; [reflexivity|]; split; [exact P1|lia]|]. cbn [fval].
  set (e' := e1 - e2 - 24) in *.
  assert (F : Z.pos p * 2 ^ (ee + 149) = Z.pos p * 2 ^ (ee - e') * 2 ^ (e' + 149)) by (replace (ee + 149) with (ee - e' + (e' + 149)) by lia; rewrite pow_split by lia; lia).
  assert (G : 2 ^ (e1 + 149) * 2 ^ 149 = 2 ^ 24 * (2 ^ (e' + 149) * 2 ^ (e2 + 149))) by (rewrite <- !pow_split by lia; f_equal; unfold e'; lia).
  rewrite F. replace (Z.pos m1 * 2 ^ (e1 + 149) * 2 ^ 149) with (Z.pos m1 * (2 ^ (e1 + 149) * 2 ^ 149)) by lia. rewrite G.
  pose proof (pow2_pos (e' + 149) ltac:(lia)) as Pa. pose proof (pow2_pos (e2 + 149) ltac:(lia)) as Pb. set (A := 2 ^ (e' + 149)) in *. set (Bq := 2 ^ (e2 + 149)) in *. clearbody A Bq.
  set (w := Z.pos p * 2 ^ (ee - e')) in *. clearbody w.
  assert (K : q * Z.pos m2 <= Z.pos m1 * 2 ^ 24) by (rewrite <- HTT; lia).
  assert (K2 : T23 * w * Z.pos m2 <= (T23 + 1) * (Z.pos m1 * 2 ^ 24)). { pose proof (pow2_pos 23 ltac:(lia)) as P23. rewrite <- HT in P23. clear - K P3 H2 P23. nia. }
  assert (Pc : 0 < A * Bq) by nia. replace (T23 * (w * A * (Z.pos m2 * Bq))) with (T23 * w * Z.pos m2 * (A * Bq)) by ring.
  replace ((T23 + 1) * (Z.pos m1 * (2 ^ 24 * (A * Bq)))) with ((T23 + 1) * (Z.pos m1 * 2 ^ 24) * (A * Bq)) by ring. apply Z.mul_le_mono_nonneg_r; [lia|exact K2].
Qed.

(* the frequency of a class: 0 exactly if there is none, otherwise positive and at most 1.1 times the true one *)
Lemma freq_zero n : 1 <= n < 2 ^ 31 -> f32_div (f32_of_int 0) (f32_of_int n) = f32_0.
Proof. intros H. destruct (f32_of_int_ok n H) as (m & e & -> & _). reflexivity. Qed.
Lemma freq_pos h n : 1 <= h <= n -> n < 2 ^ 31 ->
  let f := f32_div (f32_of_int h) (f32_of_int n) in is_norm f /\ 10 * (fval f * n) <= 11 * (h * 2 ^ 149).
Proof.
  intros Hh Hn f. destruct (f32_of_int_ok h ltac:(lia)) as (m1 & e1 & E1 & M1 & B1 & U1 & _). destruct (f32_of_int_ok n ltac:(lia)) as (m2 & e2 & E2 & M2 & B2 & _ & D2).
  unfold f. rewrite E1, E2 in *. destruct (f32_div_ok m1 e1 m2 e2 M1 B1 M2 B2) as (N & Q). split; [exact N|].
  set (x := S754_finite false m1 e1) in *. set (y := S754_finite false m2 e2) in *. set (v := f32_div x y) in *.
  assert (Pv : 0 <= fval v). { destruct N as (m & e & -> & _ & He). cbn [fval]. pose proof (pow2_pos (e + 149) ltac:(lia)). lia. }
  set (fv := fval v) in *. set (fx := fval x) in *. set (fy := fval y) in *. clearbody fv fx fy. set (B := 2 ^ 149) in *. assert (PB : 0 < B) by (apply pow2_pos; lia). clearbody B.
  pose proof T23_eq as HT. assert (HT' : 1000 < T23) by (rewrite HT; reflexivity). set (T := T23) in *. clearbody T. clear HT.
  assert (A1 : (T - 1) * (fv * n * B) <= T * (fv * fy)) by nia.
  assert (A2 : T * ((T + 1) * (fx * B)) <= (T + 1) * ((T + 1) * (h * B) * B)) by nia.
  assert (A3 : (T * (T - 1)) * (fv * n * B) <= ((T + 1) * (T + 1) * (h * B)) * B) by nia.
  assert (A4 : (T * (T - 1)) * (fv * n) <= (T + 1) * (T + 1) * (h * B)) by nia.
  assert (A5 : 10 * ((T + 1) * (T + 1)) <= 11 * (T * (T - 1))) by nia.
  assert (A6 : 0 < T * (T - 1)) by nia. assert (0 <= h * B) by nia. set (hb := h * B) in *. set (fn := fv * n) in *. set (TT := T * (T - 1)) in *. set (SS := (T + 1) * (T + 1)) in *. clearbody hb fn TT SS. nia.
Qed.

Lemma norm_pos f : is_norm f -> SFltb f32_0 f = true /\ 0 < fval f.
Proof. intros (m & e & -> & _ & He). split; [reflexivity|]. cbn [fval]. pose proof (pow2_pos (e + 149) ltac:(lia)). lia. Qed.
Lemma sf_cmp_m m1 m2 e : Z.pos m1 < Z.pos m2 -> SFcompare (S754_finite false m1 e) (S754_finite false m2 e) = Some Lt.
Proof. intros H. cbn [SFcompare]. rewrite Z.compare_refl. f_equal. apply Z.compare_lt_iff in H. exact H. Qed.
Lemma sf_cmp_e m1 m2 e1 e2 : e1 < e2 -> SFcompare (S754_finite false m1 e1) (S754_finite false m2 e2) = Some Lt.
Proof. intros H. cbn [SFcompare]. apply Z.compare_lt_iff in H. rewrite H. reflexivity. Qed.
Lemma norm_lt3 f : is_norm f -> fval f < 3 * 2 ^ 149 -> SFltb f f32_3 = true /\ SFleb f f32_3 = true.
Proof.
  intros (m & e & -> & Hm & He) HV. cbn [fval] in HV. pose proof T23_eq as HT.
  assert (K : SFcompare (S754_finite false m e) f32_3 = Some Lt).
  { unfold f32_3. generalize (eq_refl : Z.pos 12582912 = 3 * 2 ^ 22). generalize 12582912%positive. intros c Hc.
    destruct (Z_lt_ge_dec e (-22)) as [L|G]; [apply sf_cmp_e; exact L|].
    destruct (Z.eq_dec e (-22)) as [->|N].
    - apply sf_cmp_m. change (-22 + 149) with 127 in HV. replace 149 with (22 + 127) in HV by lia. rewrite pow_split in HV by lia. pose proof (pow2_pos 127 ltac:(lia)) as P.
      rewrite Hc. apply (Z.mul_lt_mono_pos_r (2 ^ 127)); [exact P|]. rewrite <- Z.mul_assoc. exact HV.
    - exfalso. pose proof (pow2_le 128 (e + 149) ltac:(lia)) as K1. change 149 with (21 + 128) in HV at 2. rewrite (pow_split 21 128) in HV by lia.
      pose proof (pow2_pos 128 ltac:(lia)) as P. set (A := 2 ^ 128) in *. set (C := 2 ^ (e + 149)) in *. clearbody A C. clear Hc. change (2 ^ 23) with (4 * 2 ^ 21) in HT. pose proof (pow2_pos 21 ltac:(lia)) as P2.
      set (t := 2 ^ 21) in *. clearbody t. nia. }
  unfold SFltb, SFleb. rewrite K. split; reflexivity.
Qed.
