(* The reference decoder inverts the reference encoder. *)
From Verif Require Import Bits Spec P_Normalize P_Predictor P_I3.
Ltac Zify.zify_post_hook ::= idtac.

Lemma strip_prefix_app p l : strip_prefix p (p ++ l) = Some l.
Proof. induction p as [|b p IH]; cbn; [reflexivity|]. rewrite Bool.eqb_reflx. exact IH. Qed.

Lemma strip_prefix_some p l r : strip_prefix p l = Some r -> l = p ++ r.
Proof.
  revert l. induction p as [|b p IH]; intros [|x l] H; cbn in H; inversion H; subst; try reflexivity.
  destruct (Bool.eqb b x) eqn:E; [|discriminate]. apply Bool.eqb_prop in E. subst. cbn. f_equal. apply IH. assumption.
Qed.

(* two prefixes of one string are comparable *)
Lemma prefix_comparable a b l : (exists x, l = a ++ x) -> (exists y, l = b ++ y) ->
  is_prefix a b = true \/ is_prefix b a = true.
Proof.
  revert b l. induction a as [|p a IH]; intros b l [x Hx] [y Hy].
  - left. reflexivity.
  - destruct b as [|q b]; [right; reflexivity|]. subst l. cbn in Hy. inversion Hy; subst.
    destruct (IH b (a ++ x)) as [H|H]; [eexists; reflexivity|exists y; assumption| |];
      unfold is_prefix in *; cbn; rewrite Bool.eqb_reflx; [left|right]; assumption.
Qed.

Lemma code_bits_cons e t s : 0 < s -> code_bits (e :: t) s = code_bits t (s - 1).
Proof.
  intros. unfold code_bits. replace (Z.to_nat s) with (S (Z.to_nat (s - 1))) by lia. reflexivity.
Qed.

Lemma decode_category_gen t : forall base s l,
  0 <= s < len t ->
  (forall s2, 0 <= s2 < s -> strip_prefix (code_bits t s2) (code_bits t s ++ l) = None) ->
  decode_category t base (code_bits t s ++ l) = Some (base + s, l).
Proof.
  induction t as [|[n code] t IH]; intros base s l Hs Hno; [unfold len in Hs; cbn in Hs; lia|].
  cbn [decode_category].
  destruct (Z.eq_dec s 0) as [->|Hn].
  - unfold code_bits. cbn [Z.to_nat nth_error]. rewrite strip_prefix_app. f_equal. f_equal. lia.
  - pose proof (Hno 0 ltac:(lia)) as H0. unfold code_bits at 1 in H0. cbn [Z.to_nat nth_error] in H0. rewrite H0.
    rewrite code_bits_cons by lia.
    rewrite IH.
    + f_equal. f_equal. lia.
    + unfold len in *. cbn [length] in Hs. lia.
    + intros s2 Hs2. specialize (Hno (s2 + 1) ltac:(lia)). rewrite !code_bits_cons in Hno by lia.
      replace (s2 + 1 - 1) with s2 in Hno by lia. exact Hno.
Qed.

Lemma decode_category_ok t s l : prefix_free t -> 0 <= s < len t ->
  decode_category t 0 (code_bits t s ++ l) = Some (s, l).
Proof.
  intros Hp Hs. rewrite decode_category_gen; [f_equal|assumption|].
  intros s2 Hs2. destruct (strip_prefix (code_bits t s2) (code_bits t s ++ l)) as [r|] eqn:E; [|reflexivity].
  exfalso. apply strip_prefix_some in E.
  destruct (prefix_comparable (code_bits t s) (code_bits t s2) (code_bits t s ++ l)) as [H|H].
  - eexists; reflexivity.
  - exists r. assumption.
  - rewrite Hp in H by (unfold len in *; lia). discriminate.
  - rewrite Hp in H by (unfold len in *; lia). discriminate.
Qed.

Lemma category_bounds d : d <> 0 -> 1 <= category d /\ 2 ^ (category d - 1) <= Z.abs d < 2 ^ category d.
Proof.
  intros Hd. unfold category. replace (d =? 0) with false by lia.
  pose proof (Z.log2_nonneg (Z.abs d)). split; [lia|].
  replace (Z.log2 (Z.abs d) + 1 - 1) with (Z.log2 (Z.abs d)) by lia.
  pose proof (Z.log2_spec (Z.abs d) ltac:(lia)). rewrite <- Z.add_1_r in *. lia.
Qed.

Lemma extend_ok d : d <> 0 -> extend (category d) ((if d <? 0 then d - 1 else d) mod 2 ^ category d) = d.
Proof.
  intros Hd. destruct (category_bounds d Hd) as [H1 H2]. unfold extend.
  set (s := category d) in *.
  assert (Hp : 2 ^ s = 2 * 2 ^ (s - 1)) by (rewrite <- pow2_S by lia; f_equal; lia).
  destruct (d <? 0) eqn:E.
  - assert ((d - 1) mod 2 ^ s = d - 1 + 2 ^ s) as ->.
    { symmetry. apply Z.mod_unique with (-1); lia. }
    replace (d - 1 + 2 ^ s <? 2 ^ (s - 1)) with true by lia. lia.
  - rewrite Z.mod_small by lia. replace (d <? 2 ^ (s - 1)) with false by lia. reflexivity.
Qed.

(* what the decoder returns for the code of difference d *)

Lemma decode_diff_ok t d l : prefix_free t -> category d < len t -> category d <= 16 ->
  decode_diff t (encode_diff t d ++ l) = Some (seen d, l).
Proof.
  intros Hp Hs H16. assert (Hc0 : 0 <= category d).
  { unfold category. destruct (d =? 0); [lia|]. pose proof (Z.log2_nonneg (Z.abs d)). lia. }
  unfold encode_diff, decode_diff. rewrite <- app_assoc, decode_category_ok by (assumption || lia).
  unfold seen, extra_bits.
  destruct (category d =? 0) eqn:E0.
  - replace (category d =? 16) with false by lia. assert (category d = 0) as Ez by lia. rewrite Ez.
    cbn [bitsz bitsn app Z.to_nat]. 
    assert (d = 0) as ->; [|reflexivity].
    unfold category in E0. destruct (d =? 0) eqn:E; [lia|]. pose proof (Z.log2_nonneg (Z.abs d)). lia.
  - destruct (category d =? 16) eqn:E; [reflexivity|].
    assert (Hd : d <> 0) by (intros ->; cbn in E0; discriminate).
    set (v := if d <? 0 then d - 1 else d).
    assert (Hl : length (bitsz (category d) v) = Z.to_nat (category d)) by (apply bitsn_length).
    replace (Z.of_nat (length (bitsz (category d) v ++ l)) <? category d) with false
      by (rewrite app_length, Hl; lia).
    rewrite <- Hl at 1. rewrite firstn_app_exact. rewrite <- Hl at 1. rewrite skipn_app_exact.
    rewrite bval_bitsz by lia. unfold v. rewrite extend_ok by assumption. reflexivity.
Qed.

Definition pix_seen (q p : Z) : Z := (q + seen (p - q)) mod 2 ^ 16.

Lemma pix_seen_ok bd q p : 0 <= bd <= 16 -> in_range bd q -> in_range bd p -> Z.abs (p - q) <= 2 ^ 15 ->
  pix_seen q p = p.
Proof.
  intros Hb Hq Hp Ha. unfold in_range in *. pose proof (pow2_le bd 16 ltac:(lia)).
  unfold pix_seen, seen. destruct (category (p - q) =? 16) eqn:E.
  - assert (Hd : p - q <> 0) by (intros Ez; rewrite Ez in E; discriminate).
    destruct (category_bounds _ Hd) as [_ C]. replace (category (p - q)) with 16 in C by lia.
    change (16 - 1) with 15 in C. change (2 ^ 15) with 32768 in *. change (2 ^ 16) with 65536 in *.
    assert (p - q = 32768 \/ p - q = -32768) as [X|X] by lia.
    + replace (q + 32768) with p by lia. apply Z.mod_small. lia.
    + replace (q + 32768) with (p + 1 * 65536) by lia. rewrite Z.mod_add by lia. apply Z.mod_small. lia.
  - replace (q + (p - q)) with p by lia. apply Z.mod_small. lia.
Qed.

(* every difference can be decoded *)

Lemma nth_range bd n img : 0 <= bd -> Forall (in_range bd) img -> in_range bd (nth n img 0).
Proof.
  intros Hb HF. destruct (nth_in_or_default n img 0) as [H|H].
  - rewrite Forall_forall in HF. apply HF. assumption.
  - rewrite H. unfold in_range. pose proof (pow2_pos bd Hb). lia.
Qed.

Lemma prediction_range bd W img i : 1 <= bd -> Forall (in_range bd) img -> in_range bd (prediction bd W img i).
Proof.
  intros Hb HF. unfold prediction.
  destruct (i mod W <? 4); [destruct (i <? W)|]; try (apply nth_range; [lia|assumption]).
  unfold in_range. pose proof (pow2_pos (bd - 1) ltac:(lia)). pose proof (pow2_lt (bd - 1) bd ltac:(lia) ltac:(lia)). lia.
Qed.

Lemma category_le bd d : 0 <= bd -> Z.abs d < 2 ^ bd -> category d <= bd.
Proof.
  intros Hb Hd. destruct (Z.eq_dec d 0) as [->|Hn]; [cbn; lia|].
  destruct (category_bounds d Hn) as [H1 H2].
  destruct (Z_le_gt_dec (category d) bd) as [|Hg]; [assumption|].
  pose proof (pow2_le bd (category d - 1) ltac:(lia)). lia.
Qed.

Lemma ref_decode_ok t bd W px : 2 <= bd <= 16 -> prefix_free t -> len t = bd + 1 -> forall img l,
  Forall (in_range bd) img -> Forall (in_range bd) px -> all_small bd W img px ->
  ref_decode t bd W (length px) img (ref_encode t bd W img px ++ l) = Some (img ++ px).
Proof.
  intros Hb Hp Ht. induction px as [|p px IH]; intros img l Hi Hx Hs.
  - cbn. rewrite app_nil_r. reflexivity.
  - inversion Hx as [|? ? Hp1 Hx1]; subst. destruct Hs as [Hs1 Hs2].
    cbn [ref_encode ref_decode length].
    pose proof (prediction_range bd W img (Z.of_nat (length img)) ltac:(lia) Hi) as Hq.
    set (q := prediction bd W img (Z.of_nat (length img))) in *.
    assert (Hc : category (p - q) <= bd) by (apply category_le; [lia|unfold in_range in *; lia]).
    rewrite <- app_assoc, decode_diff_ok by (assumption || lia).
    fold (pix_seen q p). rewrite (pix_seen_ok bd) by (assumption || lia).
    rewrite IH; [rewrite <- app_assoc; reflexivity| |assumption|assumption].
    apply Forall_app. split; [assumption|]. constructor; [assumption|constructor].
Qed.

Lemma all_small_15 bd W px : 2 <= bd <= 15 -> forall img,
  Forall (in_range bd) img -> Forall (in_range bd) px -> all_small bd W img px.
Proof.
  intros Hb. induction px as [|p px IH]; intros img Hi Hx; cbn [all_small]; [trivial|].
  inversion Hx as [|? ? Hp1 Hx1]; subst.
  pose proof (prediction_range bd W img (Z.of_nat (length img)) ltac:(lia) Hi) as Hq.
  split.
  - pose proof (pow2_le bd 15 ltac:(lia)). unfold in_range in *. lia.
  - apply IH; [|assumption]. apply Forall_app. split; [assumption|]. constructor; [assumption|constructor].
Qed.
