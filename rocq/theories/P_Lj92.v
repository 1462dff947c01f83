(* Proofs about the liblj92 model: the Huffman lookup table. *)
From Verif Require Import Bits Spec Spec_Lj92 M_Predictor M_Lj92.
Ltac Zify.zify_post_hook ::= idtac.

Definition byte_mem (d : lmem) : Prop := forall a, 0 <= d a < 256.

Lemma max_bits_spec n bits : (exists k, (0 < k <= n)%nat /\ bits (Z.of_nat k) <> 0) ->
  1 <= max_bits n bits <= Z.of_nat n /\ bits (max_bits n bits) <> 0 /\ forall k, max_bits n bits < k <= Z.of_nat n -> bits k = 0.
Proof.
  induction n as [|n IH]; intros (k & Hk & Hb); [lia|]. cbn [max_bits]. destruct (bits (Z.of_nat (S n)) =? 0) eqn:E; cbn [negb].
  - destruct IH as (I1 & I2 & I3).
    { exists k. split; [|exact Hb]. assert (k <> S n) by (intros ->; lia). lia. }
    split; [lia|]. split; [exact I2|]. intros j Hj. destruct (Z.eq_dec j (Z.of_nat (S n))) as [->|N]; [lia|]. apply I3. lia.
  - split; [lia|]. split; [lia|]. intros; lia.
Qed.

Section Lut.
Variable M : Z.
Variable bits vals : lmem.
Hypothesis HM : 1 <= M <= 16.
Hypothesis Hv : byte_mem vals.

Fixpoint fill (L : list Z) (hv : Z) : list Z :=
  match L with [] => [] | l :: r => repeat (vals hv * 256 + l) (Z.to_nat (2 ^ (M - l))) ++ fill r (hv + 1) end.
Fixpoint lens_from (rows : list nat) (bu : Z) : list Z := match rows with [] => [] | n :: r => repeat bu n ++ lens_from r (bu + 1) end.

Lemma lor_byte v bu : 0 <= v < 256 -> 0 <= bu < 256 -> trunc 16 (Z.lor (Z.shiftl v 8) bu) = v * 256 + bu.
Proof.
  intros H1 H2. rewrite Z.shiftl_mul_pow2 by lia. rewrite lor_add by (try (change (2 ^ 8) with 256); lia). change (2 ^ 8) with 256.
  rewrite trunc_id; [lia|]. change (2 ^ 16) with 65536. lia.
Qed.

Lemma skipn_repeat_S {A} (x : A) n k r : (k < n)%nat -> skipn k (repeat x n ++ r) = x :: skipn (S k) (repeat x n ++ r).
Proof.
  revert k. induction n as [|n IH]; intros k Hk; [lia|]. destruct k as [|k]; [reflexivity|]. cbn [repeat app skipn]. rewrite IH by lia. reflexivity.
Qed.
Lemma skipn_repeat_all {A} (x : A) n r : skipn n (repeat x n ++ r) = r.
Proof. induction n as [|n IH]; [reflexivity|]. cbn [repeat app skipn]. exact IH. Qed.

Lemma lut_done f acc i hv rv vl : lut_loop f bits vals M acc i hv rv vl (M + 1) = rev acc.
Proof. destruct f as [|f]; [reflexivity|]. cbn [lut_loop]. destruct (i <? 2 ^ M); [|reflexivity]. replace (M <? M + 1) with true by lia. reflexivity. Qed.

Lemma lut_loop_ok : forall fuel n r acc i hv rv vl bu,
  (forall k, (k < length r)%nat -> bits (bu + 1 + Z.of_nat k) = Z.of_nat (nth k r 0%nat)) -> bu + Z.of_nat (length r) = M -> 1 <= bu ->
  bits bu = vl + Z.of_nat n -> 0 <= vl -> 0 <= rv <= 2 ^ (M - bu) -> (n = 0%nat -> rv = 0) ->
  let L := repeat bu n ++ lens_from r (bu + 1) in
  i + (len (fill L hv) - rv) <= 2 ^ M ->
  len (fill L hv) - rv + len L + (M + 1 - bu) <= Z.of_nat fuel ->
  lut_loop fuel bits vals M acc i hv rv vl bu = rev acc ++ skipn (Z.to_nat rv) (fill L hv).
Proof.
  induction fuel as [|f IH]; intros n r acc i hv rv vl bu Hr HMr Hbu Hb Hvl Hrv Hn0 L Hi Hf.
  { exfalso. unfold L in Hf. pose proof (pow2_pos (M - bu) ltac:(lia)). unfold len in Hf. destruct n as [|n].
    - rewrite Hn0 in Hf by reflexivity. lia.
    - cbn [repeat app fill] in Hf. rewrite app_length, repeat_length in Hf. lia. }
  cbn [lut_loop]. destruct (i <? 2 ^ M) eqn:Ei.
  2:{ (* nothing left *)
      assert (E : skipn (Z.to_nat rv) (fill L hv) = []). { apply skipn_all2. unfold len in Hi. lia. }
      rewrite E, app_nil_r. reflexivity. }
  replace (M <? bu) with false by lia. destruct n as [|n].
  - rewrite (Hn0 eq_refl) in *. cbn [repeat app] in L. replace (bits bu <=? vl) with true by lia.
    destruct r as [|m r].
    + cbn [length] in HMr. replace (bu + 1) with (M + 1) by lia. rewrite lut_done. unfold L. cbn [lens_from fill skipn Z.to_nat]. rewrite app_nil_r. reflexivity.
    + cbn [length lens_from] in *. apply (IH m r acc i hv 0 0 (bu + 1)).
      * intros k Hk. specialize (Hr (S k) ltac:(lia)). cbn [nth] in Hr. rewrite <- Hr. f_equal. lia.
      * lia.
      * lia.
      * specialize (Hr 0%nat ltac:(lia)). cbn [nth] in Hr. rewrite Z.add_0_l, <- Hr. f_equal. lia.
      * lia.
      * pose proof (pow2_pos (M - (bu + 1)) ltac:(lia)). lia.
      * auto.
      * exact Hi.
      * fold L. lia.
  - replace (bits bu <=? vl) with false by lia. destruct (rv =? 2 ^ (M - bu)) eqn:Er.
    + assert (rv = 2 ^ (M - bu)) as -> by lia. clear Er. unfold L in *. cbn [repeat app fill] in *. rewrite skipn_repeat_all.
      apply (IH n r acc i (hv + 1) 0 (vl + 1) bu); try assumption; try lia.
      * unfold len in *. rewrite app_length, repeat_length in Hi. lia.
      * unfold len in *. rewrite app_length, repeat_length in Hf. cbn [length] in Hf. lia.
    + unfold L in *. cbn [repeat app fill] in *. rewrite skipn_repeat_S by lia. rewrite lor_byte by (try apply Hv; lia).
      rewrite (IH (S n) r _ (i + 1) hv (rv + 1) vl bu); try assumption; try lia.
      * cbn [rev repeat app fill]. rewrite <- app_assoc. cbn [app]. do 2 f_equal. replace (Z.to_nat (rv + 1)) with (S (Z.to_nat rv)) by lia. reflexivity.
      * cbn [repeat app fill]. lia.
      * cbn [repeat app fill]. lia.
Qed.

Lemma lens_annexC rows : forall bu c, map fst (annexC rows bu c) = lens_from rows bu.
Proof.
  induction rows as [|n r IH]; intros bu c; [reflexivity|]. cbn [annexC lens_from]. rewrite map_app, IH. f_equal.
  revert c. induction n as [|n IHn]; intros c; [reflexivity|]. cbn [annexC_row map fst repeat]. rewrite IHn. reflexivity.
Qed.
Lemma annexC_row_nth : forall n l c j, (j < n)%nat -> nth_error (annexC_row n l c) j = Some (l, c + Z.of_nat j).
Proof.
  induction n as [|n IH]; intros l c j Hj; [lia|]. destruct j as [|j]; cbn [annexC_row nth_error]; [f_equal; f_equal; lia|]. rewrite IH by lia. f_equal. f_equal. lia.
Qed.
Lemma annexC_row_len : forall n l c, length (annexC_row n l c) = n.
Proof. induction n as [|n IH]; intros l c; cbn [annexC_row length]; [reflexivity|]. rewrite IH. reflexivity. Qed.
Lemma fill_app : forall a b hv, fill (a ++ b) hv = fill a hv ++ fill b (hv + len a).
Proof.
  induction a as [|l a IH]; intros b hv; cbn [app fill]; [f_equal; unfold len; cbn [length]; lia|]. rewrite IH, <- app_assoc. do 2 f_equal. unfold len. cbn [length]. f_equal. lia.
Qed.
Lemma fill_repeat l n hv j r : (j < n)%nat -> 0 <= r < 2 ^ (M - l) -> l <= M ->
  nth_error (fill (repeat l n) hv) (Z.to_nat (Z.of_nat j * 2 ^ (M - l) + r)) = Some (vals (hv + Z.of_nat j) * 256 + l).
Proof.
  revert hv j. induction n as [|n IH]; intros hv j Hj Hr Hl; [lia|]. cbn [repeat fill]. destruct j as [|j].
  - change (Z.of_nat 0) with 0. rewrite Z.mul_0_l, Z.add_0_r, Z.add_0_l. rewrite nth_error_app1 by (rewrite repeat_length; lia).
    apply nth_error_repeat. lia.
  - pose proof (pow2_pos (M - l) ltac:(lia)). rewrite nth_error_app2 by (rewrite repeat_length; nia). rewrite repeat_length.
    replace (Z.to_nat (Z.of_nat (S j) * 2 ^ (M - l) + r) - Z.to_nat (2 ^ (M - l)))%nat with (Z.to_nat (Z.of_nat j * 2 ^ (M - l) + r)) by nia.
    rewrite IH by lia. do 3 f_equal. f_equal. lia.
Qed.
Lemma fill_repeat_len l n hv : l <= M -> len (fill (repeat l n) hv) = Z.of_nat n * 2 ^ (M - l).
Proof.
  intros Hl. revert hv. pose proof (pow2_pos (M - l) ltac:(lia)). induction n as [|n IH]; intros hv; [reflexivity|]. cbn [repeat fill]. unfold len in *. rewrite app_length, repeat_length, Nat2Z.inj_add, IH. lia.
Qed.

Lemma code_at : forall rows bu c hv j l code, bu + len rows = M + 1 -> 1 <= bu -> 0 <= c ->
  nth_error (annexC rows bu c) j = Some (l, code) ->
  bu <= l <= M /\ c * 2 ^ (M - bu) <= code * 2 ^ (M - l) /\
  forall r, 0 <= r < 2 ^ (M - l) ->
    nth_error (fill (lens_from rows bu) hv) (Z.to_nat (code * 2 ^ (M - l) + r - c * 2 ^ (M - bu))) = Some (vals (hv + Z.of_nat j) * 256 + l).
Proof.
  induction rows as [|n rows IH]; intros bu c hv j l code HL Hbu Hc E; [destruct j; discriminate|]. cbn [annexC lens_from] in *. unfold len in HL. cbn [length] in HL.
  assert (P : 0 < 2 ^ (M - bu)) by (apply pow2_pos; lia). rewrite fill_app.
  destruct (lt_dec j n) as [Hj|Hj].
  - rewrite nth_error_app1 in E by (rewrite annexC_row_len; exact Hj). rewrite annexC_row_nth in E by exact Hj. injection E as <- <-.
    split; [lia|]. split; [nia|]. intros r Hr.
    replace ((c + Z.of_nat j) * 2 ^ (M - bu) + r - c * 2 ^ (M - bu)) with (Z.of_nat j * 2 ^ (M - bu) + r) by lia.
    rewrite nth_error_app1; [apply fill_repeat; lia|]. pose proof (fill_repeat_len bu n hv ltac:(lia)) as FL. unfold len in FL. nia.
  - rewrite nth_error_app2 in E by (rewrite annexC_row_len; lia). rewrite annexC_row_len in E.
    destruct rows as [|m rows]; [destruct (j - n)%nat; discriminate|]. cbn [length] in HL.
    destruct (IH (bu + 1) (2 * (c + Z.of_nat n)) (hv + len (repeat bu n)) (j - n)%nat l code) as (I1 & I2 & I3); [unfold len; cbn [length]; lia|lia|lia|exact E|].
    assert (P2 : 2 ^ (M - bu) = 2 * 2 ^ (M - (bu + 1))) by (rewrite <- Z.pow_succ_r by lia; f_equal; lia).
    split; [lia|]. split; [nia|]. intros r Hr. specialize (I3 r Hr). pose proof (fill_repeat_len bu n hv ltac:(lia)) as FL. unfold len in FL.
    rewrite nth_error_app2 by nia.
    replace (Z.to_nat (code * 2 ^ (M - l) + r - c * 2 ^ (M - bu)) - length (fill (repeat bu n) hv))%nat
      with (Z.to_nat (code * 2 ^ (M - l) + r - 2 * (c + Z.of_nat n) * 2 ^ (M - (bu + 1)))) by nia.
    rewrite I3. do 3 f_equal. unfold len. rewrite repeat_length. f_equal. lia.
Qed.

(* Kraft sum *)
Lemma fill_len : forall rows bu hv, bu + len rows = M + 1 -> 1 <= bu -> len (fill (lens_from rows bu) hv) = fold_left (fun a n => 2 * a + Z.of_nat n) rows 0.
Proof.
  assert (K : forall rows a, fold_left (fun a n => 2 * a + Z.of_nat n) rows a = a * 2 ^ len rows + fold_left (fun a n => 2 * a + Z.of_nat n) rows 0).
  { induction rows as [|n rows IH]; intros a; cbn [fold_left]; [unfold len; cbn; lia|]. rewrite (IH (2 * a + Z.of_nat n)), (IH (2 * 0 + Z.of_nat n)).
    unfold len. cbn [length]. rewrite Nat2Z.inj_succ, Z.pow_succ_r by lia. lia. }
  induction rows as [|n rows IH]; intros bu hv HL Hbu; [reflexivity|]. cbn [lens_from fold_left]. rewrite fill_app.
  unfold len in *. cbn [length] in HL. rewrite app_length, Nat2Z.inj_add. pose proof (fill_repeat_len bu n hv ltac:(lia)) as FL. unfold len in FL. rewrite FL.
  destruct rows as [|m rows].
  - cbn [lens_from fill length fold_left] in *. replace (M - bu) with 0 by lia. change (2 ^ 0) with 1. lia.
  - rewrite IH by (cbn [length] in *; lia). rewrite (K (m :: rows) (2 * 0 + Z.of_nat n)). unfold len. replace (M - bu) with (Z.of_nat (length (m :: rows))) by lia. lia.
Qed.
Lemma lens_len : forall rows bu, length (lens_from rows bu) = list_sum rows.
Proof. induction rows as [|n r IH]; intros bu; [reflexivity|]. cbn [lens_from list_sum fold_right]. rewrite app_length, repeat_length, IH. reflexivity. Qed.
End Lut.

Lemma annexC_app : forall a b l c, annexC (a ++ b) l c = annexC a l c ++ annexC b (l + len a) (fold_left (fun x n => 2 * (x + Z.of_nat n)) a c).
Proof.
  induction a as [|n a IH]; intros b l c; cbn [app annexC fold_left]; [f_equal; unfold len; cbn; lia|]. rewrite IH, <- app_assoc.
  replace (l + 1 + len a) with (l + len (n :: a)) by (unfold len; cbn [length]; lia). reflexivity.
Qed.
Lemma annexC_zero : forall b l c, Forall (fun n => n = 0%nat) b -> annexC b l c = [].
Proof. induction b as [|n b IH]; intros l c HF; [reflexivity|]. apply Forall_cons_iff in HF. destruct HF as [-> HF]. cbn [annexC annexC_row app]. apply IH. exact HF. Qed.
Lemma annexC_len : forall b l c, length (annexC b l c) = list_sum b.
Proof. induction b as [|n b IH]; intros l c; [reflexivity|]. cbn [annexC list_sum fold_right]. rewrite app_length, annexC_row_len, IH. reflexivity. Qed.
Lemma list_sum_zero b : Forall (fun n => n = 0%nat) b -> list_sum b = 0%nat.
Proof. induction 1 as [|n b E H IH]; [reflexivity|]. cbn. unfold list_sum in IH. lia. Qed.
Lemma Forall_zero_dec b : Forall (fun n => n = 0%nat) b \/ exists k, (k < length b)%nat /\ nth k b 0%nat <> 0%nat.
Proof.
  induction b as [|n b IH]; [left; constructor|]. destruct n as [|n]; [|right; exists 0%nat; cbn; lia].
  destruct IH as [IH|(k & H1 & H2)]; [left; constructor; auto|right; exists (S k); cbn; split; [lia|exact H2]].
Qed.

(* the lookup table of a DHT segment *)
Definition lut_ok (M : Z) (lut : list Z) (bits : list nat) (vals : list Z) : Prop :=
  1 <= M <= 16 /\
  (len lut * 2 ^ (16 - M) = fold_left (fun a n => 2 * a + Z.of_nat n) bits 0 /\ Forall (fun e => exists v l, In v vals /\ 1 <= l <= M /\ e = v * 256 + l) lut) /\
  forall j l code, nth_error (annexC bits 1 0) j = Some (l, code) ->
    1 <= l <= M /\ 0 <= code < 2 ^ l /\ forall r, 0 <= r < 2 ^ (M - l) -> nth_error lut (Z.to_nat (code * 2 ^ (M - l) + r)) = Some (nth j vals 0 * 256 + l).
Lemma lut_built bits vals bf vf : dht_ok bits vals -> byte_mem vf ->
  (forall k, (k < 16)%nat -> bf (1 + Z.of_nat k) = Z.of_nat (nth k bits 0%nat)) ->
  (forall k, (k < length vals)%nat -> vf (Z.of_nat k) = nth k vals 0) ->
  (length vals <= 200)%nat ->
  let M := max_bits 16 bf in lut_ok M (lut_loop (lut_fuel M) bf vf M [] 0 0 0 0 1) bits vals.
Proof.
  intros (L16 & Lv & Hne & Hvr & HK) Hvf Hbf Hvals Hlv M.
  assert (Hex : exists k, (0 < k <= 16)%nat /\ bf (Z.of_nat k) <> 0).
  { destruct (Forall_zero_dec bits) as [HZ|(k & K1 & K2)].
    - apply list_sum_zero in HZ. destruct vals; [congruence|]. cbn [length] in Lv. lia.
    - exists (S k). split; [lia|]. replace (Z.of_nat (S k)) with (1 + Z.of_nat k) by lia. rewrite Hbf by lia. lia. }
  destruct (max_bits_spec 16 bf Hex) as (M1 & M2 & M3). fold M in M1, M2, M3. change (Z.of_nat 16) with 16 in M1, M3. clearbody M.
  set (rows := firstn (Z.to_nat M) bits). set (tl := skipn (Z.to_nat M) bits).
  assert (Hrl : len rows = M) by (unfold len, rows; rewrite firstn_length; lia).
  assert (Ebits : bits = rows ++ tl) by (symmetry; apply firstn_skipn).
  assert (Htl : Forall (fun n => n = 0%nat) tl).
  { destruct (Forall_zero_dec tl) as [HZ|(k & K1 & K2)]; [exact HZ|exfalso]. unfold tl in K1, K2. rewrite skipn_length in K1.
    assert (E : nth k (skipn (Z.to_nat M) bits) 0%nat = nth (Z.to_nat M + k) bits 0%nat).
    { clear - Ebits. rewrite <- (firstn_skipn (Z.to_nat M) bits) at 2. destruct (le_lt_dec (length bits) (Z.to_nat M)).
      - rewrite skipn_all2 by lia. rewrite app_nil_r. rewrite !nth_overflow; [reflexivity| |cbn; lia]. rewrite firstn_length. lia.
      - rewrite app_nth2 by (rewrite firstn_length; lia). rewrite firstn_length. f_equal. lia. }
    rewrite E in K2. specialize (M3 (1 + Z.of_nat (Z.to_nat M + k))). rewrite Hbf in M3 by lia. lia. }
  assert (EA : annexC bits 1 0 = annexC rows 1 0) by (rewrite Ebits, annexC_app, (annexC_zero tl), app_nil_r by exact Htl; reflexivity).
  assert (Hk0 : fold_left (fun a n => 2 * a + Z.of_nat n) rows 0 * 2 ^ (16 - M) = fold_left (fun a n => 2 * a + Z.of_nat n) bits 0).
  { rewrite Ebits, fold_left_app.
    assert (Kz : forall l a, Forall (fun n => n = 0%nat) l -> fold_left (fun a n => 2 * a + Z.of_nat n) l a = a * 2 ^ len l).
    { clear. induction l as [|n l IH]; intros a HF; cbn [fold_left]; [unfold len; cbn; lia|]. apply Forall_cons_iff in HF. destruct HF as [-> HF]. rewrite IH by exact HF.
      unfold len. cbn [length]. rewrite Nat2Z.inj_succ, Z.pow_succ_r by lia. lia. }
    rewrite (Kz tl) by exact Htl. assert (Lt : len tl = 16 - M) by (unfold len, tl; rewrite skipn_length; lia). rewrite Lt. reflexivity. }
  assert (Hk : fold_left (fun a n => 2 * a + Z.of_nat n) rows 0 <= 2 ^ M).
  { rewrite <- Hk0 in HK. assert (E2 : 2 ^ 16 = 2 ^ M * 2 ^ (16 - M)) by (rewrite <- Z.pow_add_r by lia; f_equal; lia). pose proof (pow2_pos (16 - M) ltac:(lia)). nia. }
  assert (Hsum : list_sum rows = length vals).
  { rewrite Lv, Ebits, list_sum_app, (list_sum_zero tl Htl). lia. }
  assert (ELut : lut_loop (lut_fuel M) bf vf M [] 0 0 0 0 1 = fill M vf (lens_from rows 1) 0).
  { clearbody rows. destruct rows as [|n r]; [unfold len in Hrl; cbn in Hrl; lia|].
    assert (Hrow : forall k, (k < length (n :: r))%nat -> nth k (n :: r) 0%nat = nth k bits 0%nat) by (intros k Hkk; rewrite Ebits, app_nth1 by exact Hkk; reflexivity).
    assert (Hb0 : bf 1 = Z.of_nat n). { change 1 with (1 + Z.of_nat 0). rewrite Hbf by lia. rewrite <- Hrow by (cbn; lia). reflexivity. }
    assert (FL : len (fill M vf (lens_from (n :: r) 1) 0) = fold_left (fun a n => 2 * a + Z.of_nat n) (n :: r) 0) by (apply fill_len; lia).
    unfold len in Hrl. cbn [length] in Hrl.
    rewrite (lut_loop_ok M bf vf M1 Hvf (lut_fuel M) n r [] 0 0 0 0 1).
    - reflexivity.
    - intros k Hkr. change (nth k r 0%nat) with (nth (S k) (n :: r) 0%nat). replace (1 + 1 + Z.of_nat k) with (1 + Z.of_nat (S k)) by lia. rewrite Hbf by lia. rewrite <- Hrow by (cbn [length]; lia). reflexivity.
    - lia.
    - lia.
    - lia.
    - lia.
    - pose proof (pow2_pos (M - 1) ltac:(lia)). lia.
    - auto.
    - change (repeat 1 n ++ lens_from r (1 + 1)) with (lens_from (n :: r) 1). lia.
    - change (repeat 1 n ++ lens_from r (1 + 1)) with (lens_from (n :: r) 1). unfold len at 2. rewrite lens_len, Hsum. unfold lut_fuel. pose proof (pow2_pos M ltac:(lia)). lia. }
  rewrite ELut. split; [exact M1|]. split.
  { split.
    - rewrite <- Hk0. f_equal. apply fill_len; lia.
    - assert (FE : forall ls hv, 0 <= hv -> hv + len ls <= len vals -> Forall (fun l => 1 <= l <= M) ls -> Forall (fun e => exists v l, In v vals /\ 1 <= l <= M /\ e = v * 256 + l) (fill M vf ls hv)).
      { induction ls as [|l ls IHl]; intros hv H0 Hls HF; cbn [fill]; [constructor|]. apply Forall_cons_iff in HF. destruct HF as [Hl HF]. unfold len in *. cbn [length] in Hls. apply Forall_app. split; [|apply IHl; [lia|lia|exact HF]].
        apply Forall_forall. intros z Hz. apply repeat_spec in Hz. subst z. exists (vf hv), l. split; [|auto]. rewrite <- (Z2Nat.id hv) by lia. rewrite Hvals by lia. apply nth_In. lia. }
      apply FE; [lia| |].
      + unfold len. rewrite lens_len, Hsum. lia.
      + clear - Hrl. assert (G : forall rs b, 1 <= b -> b + len rs <= M + 1 -> Forall (fun l => 1 <= l <= M) (lens_from rs b)); [|apply G; lia].
        induction rs as [|n rs IHr]; intros b Hb Hl; cbn [lens_from]; [constructor|]. unfold len in *. cbn [length] in Hl. apply Forall_app. split; [|apply IHr; lia]. apply Forall_forall. intros z Hz. apply repeat_spec in Hz. lia. }
  intros j l code E. rewrite EA in E.
  assert (Hj : (j < length vals)%nat). { rewrite <- Hsum, <- (annexC_len rows 1 0). apply nth_error_Some. congruence. }
  destruct (code_at M vf M1 rows 1 0 0 j l code ltac:(lia) ltac:(lia) ltac:(lia) E) as (C1 & C2 & C3).
  assert (Hc0 : 0 <= code). { pose proof (pow2_pos (M - l) ltac:(lia)). rewrite Z.mul_0_l in C2. nia. }
  split; [lia|]. split.
  - split; [exact Hc0|]. pose proof (pow2_pos (M - l) ltac:(lia)) as P.
    specialize (C3 (2 ^ (M - l) - 1) ltac:(lia)). assert (N : nth_error (fill M vf (lens_from rows 1) 0) (Z.to_nat (code * 2 ^ (M - l) + (2 ^ (M - l) - 1) - 0 * 2 ^ (M - 1))) <> None) by congruence.
    apply nth_error_Some in N. pose proof (fill_len M vf rows 1 0 ltac:(lia) ltac:(lia)) as FL. unfold len in FL.
    assert (E2 : 2 ^ M = 2 ^ l * 2 ^ (M - l)) by (rewrite <- Z.pow_add_r by lia; f_equal; lia). rewrite Z.mul_0_l, Z.sub_0_r in N. rewrite E2 in Hk. nia.
  - intros r Hr. specialize (C3 r Hr). rewrite Z.mul_0_l, Z.sub_0_r in C3. rewrite C3. do 3 f_equal. rewrite Z.add_0_l. apply Hvals. exact Hj.
Qed.
