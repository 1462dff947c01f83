(* The reference payload: packing into words, stuffing, and reading it back. *)
From Verif Require Import Bits Spec P_I3 P_Run P_Live P_Fix Props_Frame P_Decode.
Ltac Zify.zify_post_hook ::= idtac.

Lemma firstn_repeat {X} (x : X) a b : firstn a (repeat x b) = repeat x (Nat.min a b).
Proof. revert b. induction a as [|a IH]; intros [|b]; cbn; [reflexivity..|]. rewrite IH. reflexivity. Qed.
Lemma skipn_repeat {X} (x : X) a b : skipn a (repeat x b) = repeat x (b - a).
Proof. revert b. induction a as [|a IH]; intros [|b]; cbn; try reflexivity. apply IH. Qed.

Lemma firstn_pad (bs : list bool) n m1 m2 : (n <= length bs + m1)%nat -> (n <= length bs + m2)%nat ->
  firstn n (bs ++ repeat false m1) = firstn n (bs ++ repeat false m2).
Proof. intros. rewrite !firstn_app, !firstn_repeat. do 2 f_equal. lia. Qed.

Lemma pack_n_words w ws : 1 <= w -> Forall (wrange w) ws -> forall bs pad,
  wbits w ws = bs ++ repeat false pad -> pack_n (length ws) w bs = ws.
Proof.
  intros Hw. induction ws as [|x ws IH]; intros HF bs pad HE; [reflexivity|].
  apply Forall_cons_iff in HF. destruct HF as [Hx HF]. unfold wbits in HE. cbn [map concat] in HE. fold (wbits w ws) in HE.
  assert (Hbl : length (bitsz w x) = Z.to_nat w) by (pose proof (bitsz_length w x ltac:(lia)); lia).
  cbn [length pack_n]. f_equal.
  - assert (Hl : (Z.to_nat w <= length bs + pad)%nat).
    { apply (f_equal (@length bool)) in HE. rewrite !app_length, repeat_length in HE. lia. }
    rewrite (firstn_pad bs (Z.to_nat w) (Z.to_nat w) pad) by lia. rewrite <- HE, <- Hbl, firstn_app_exact, bval_bitsz by lia.
    apply Z.mod_small. exact Hx.
  - apply (IH HF _ (pad - (Z.to_nat w - length bs))%nat).
    apply (f_equal (skipn (Z.to_nat w))) in HE. rewrite <- Hbl in HE at 1. rewrite skipn_app_exact, skipn_app, skipn_repeat in HE. exact HE.
Qed.

Lemma packs_pack w ws bs : 1 <= w -> packs w ws bs -> ws = pack w bs.
Proof.
  intros Hw (HF & pad & Hp & HE). fold (wbits w ws) in HE. unfold pack.
  assert (Hl : w * len ws = len bs + Z.of_nat pad).
  { rewrite <- wbits_length by lia. rewrite HE, app_length, repeat_length. unfold len. lia. }
  replace ((len bs + w - 1) / w) with (len ws).
  - unfold len. rewrite Nat2Z.id. symmetry. eapply pack_n_words; eauto.
  - apply (Z.div_unique _ _ _ (w - 1 - Z.of_nat pad)); [left; lia|]. lia.
Qed.

Lemma pack_app w ws rest : 1 <= w -> Forall (wrange w) ws -> pack w (wbits w ws ++ rest) = ws ++ pack w rest.
Proof.
  intros Hw HF. unfold pack. rewrite len_app. unfold len at 1. rewrite wbits_length by lia.
  replace ((w * len ws + len rest + w - 1) / w) with (len ws + (len rest + w - 1) / w).
  2:{ replace (w * len ws + len rest + w - 1) with ((len rest + w - 1) + len ws * w) by lia. rewrite Z.div_add by lia. lia. }
  assert (0 <= (len rest + w - 1) / w) by (apply Z.div_pos; pose proof (len_nonneg rest); lia).
  rewrite Z2Nat.inj_add by (pose proof (len_nonneg ws); lia). unfold len at 1. rewrite Nat2Z.id.
  generalize (Z.to_nat ((len rest + w - 1) / w)) as m. intros m. clear H. induction HF as [|x ws Hx HF IH]; [reflexivity|].
  assert (Hbl : length (bitsz w x) = Z.to_nat w) by (pose proof (bitsz_length w x ltac:(lia)); lia).
  cbn [length Nat.add pack_n]. unfold wbits in *. cbn [map concat]. rewrite <- !app_assoc. cbn [app].
  rewrite <- Hbl at 1 3. rewrite firstn_app_exact, skipn_app_exact. rewrite bval_bitsz by lia. rewrite (Z.mod_small _ _ Hx). f_equal. exact IH.
Qed.

Lemma pack_n_bits w : 1 <= w -> forall n bs, (length bs <= n * Z.to_nat w)%nat ->
  wbits w (pack_n n w bs) = bs ++ repeat false (n * Z.to_nat w - length bs) /\ Forall (wrange w) (pack_n n w bs).
Proof.
  intros Hw. induction n as [|n IH]; intros bs Hl.
  - destruct bs; [|cbn in Hl; lia]. split; [reflexivity|constructor].
  - cbn [pack_n]. unfold wbits. cbn [map concat]. fold (wbits w (pack_n n w (skipn (Z.to_nat w) bs))).
    set (h := firstn (Z.to_nat w) (bs ++ repeat false (Z.to_nat w))).
    assert (Hh : length h = Z.to_nat w) by (unfold h; rewrite firstn_length, app_length, repeat_length; lia).
    destruct (IH (skipn (Z.to_nat w) bs)) as [I1 I2]; [rewrite skipn_length; lia|]. split.
    + rewrite I1. unfold bitsz. rewrite <- Hh at 1. rewrite bitsn_bval. unfold h. rewrite firstn_app, firstn_repeat.
      rewrite skipn_length. destruct (Nat.le_gt_cases (Z.to_nat w) (length bs)) as [Hc|Hc].
      * replace (Nat.min (Z.to_nat w - length bs) (Z.to_nat w)) with 0%nat by lia. cbn [repeat]. rewrite app_nil_r, app_assoc, firstn_skipn. do 2 f_equal. lia.
      * rewrite firstn_all2, skipn_all2 by lia. cbn [app]. rewrite <- app_assoc, <- repeat_app. do 2 f_equal. lia.
    + constructor; [|exact I2]. unfold wrange. pose proof (bval_bound h) as B. rewrite Hh in B. rewrite Z2Nat.id in B by lia. exact B.
Qed.

Lemma pack_bits w bs : 1 <= w -> exists pad, wbits w (pack w bs) = bs ++ repeat false pad /\ Forall (wrange w) (pack w bs).
Proof.
  intros Hw. unfold pack. destruct (pack_n_bits w Hw (Z.to_nat ((len bs + w - 1) / w)) bs) as [A B]; [|eauto].
  pose proof (Z.div_mod (len bs + w - 1) w ltac:(lia)). pose proof (Z.mod_pos_bound (len bs + w - 1) w ltac:(lia)).
  pose proof (len_nonneg bs). assert (0 <= (len bs + w - 1) / w) by (apply Z.div_pos; lia). unfold len in *. nia.
Qed.

Lemma words_of_app : forall ws r, words_of (flat_map bytes_of ws ++ r) = map (fun w => w / 256 * 256 + w mod 256) ws ++ words_of r.
Proof. induction ws as [|w ws IH]; intros r; [reflexivity|]. cbn [flat_map bytes_of app map words_of]. rewrite IH. reflexivity. Qed.
Lemma words_of_app_ok ws r : Forall word_ok ws -> words_of (flat_map bytes_of ws ++ r) = ws ++ words_of r.
Proof.
  intros HF. rewrite words_of_app. f_equal. induction HF as [|w ws Hw HF IH]; [reflexivity|]. cbn [map]. rewrite IH, bytes_word by assumption. reflexivity.
Qed.

Lemma stream8_bytes ws : stream 8 (flat_map bytes_of ws) = wbits 16 ws.
Proof.
  unfold stream, wbits. induction ws as [|w ws IH]; [reflexivity|]. cbn [flat_map bytes_of app map concat]. rewrite IH, app_assoc. f_equal.
  change 16 with (8 + 8). rewrite bitsz_app by lia. f_equal. change 256 with (2 ^ 8). apply (bitsz_trunc 8 8). lia.
Qed.

Lemma stuff_app a b : stuff (a ++ b) = stuff a ++ stuff b.
Proof. unfold stuff. apply flat_map_app. Qed.

Lemma payload_bytes t bd W px : Forall is_byte (flat_map bytes_of (pack 16 (ref_encode t bd W [] px))).
Proof. destruct (pack_bits 16 (ref_encode t bd W [] px) ltac:(lia)) as (pad & _ & HF). apply bytes_of_bytes. exact HF. Qed.

(* reading the payload back *)
Lemma payload_bits t bd W px : exists tail,
  stream 8 (unstuff (flat_map bytes_of (payload t bd W px))) = ref_encode t bd W [] px ++ tail.
Proof.
  unfold payload. destruct (C19_reversible _ (payload_bytes t bd W px)) as [_ ->]. unfold stream at 1. rewrite map_app, concat_app.
  fold (stream 8 (flat_map bytes_of (pack 16 (ref_encode t bd W [] px)))). rewrite stream8_bytes.
  destruct (pack_bits 16 (ref_encode t bd W [] px) ltac:(lia)) as (pad & -> & _). rewrite <- app_assoc. eauto.
Qed.
