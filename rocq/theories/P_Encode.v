(* encode.py: the encoder outputs code bits followed by offset bits. *)
From Verif Require Import Bits Spec M_Difference M_Normalize M_Encode P_Normalize.

(* memory image of a code table, in the format of encode.py:62-72 *)
Definition mem_of (bd : Z) (t : table) : list Z :=
  huff_entries bd 0 (map (fun e => (snd e, fst e)) t).

Lemma nth_huff_entries bd t ind k : (k < length t)%nat ->
  nth k (huff_entries bd ind (map (fun e => (snd e, fst e)) t)) 0 =
  huff_entry bd (ind + Z.of_nat k) (snd (nth k t (0, 0))) (fst (nth k t (0, 0))).
Proof.
  revert ind k. induction t as [|[l c] t IH]; intros ind [|k] H; cbn in H; try lia.
  - cbn. rewrite Z.add_0_r. reflexivity.
  - cbn [map huff_entries nth]. rewrite IH by lia. f_equal; lia.
Qed.

Lemma mem_read_ok bd t s : 2 <= bd -> table_ok bd t -> 0 <= s <= bd ->
  mem_read bd (mem_of bd t) s =
  huff_entry bd s (snd (nth (Z.to_nat s) t (0, 0))) (fst (nth (Z.to_nat s) t (0, 0))).
Proof.
  intros Hb (Hl & _) Hs. unfold mem_read. rewrite trunc_clog2 by lia.
  unfold mem_of. rewrite nth_huff_entries by lia. f_equal. lia.
Qed.

Lemma code_bits_nth t s : 0 <= s < Z.of_nat (length t) ->
  code_bits t s = bitsz (fst (nth (Z.to_nat s) t (0, 0))) (snd (nth (Z.to_nat s) t (0, 0))).
Proof.
  intros H. unfold code_bits. destruct (nth_error t (Z.to_nat s)) as [[l c]|] eqn:E.
  - rewrite (nth_error_nth t _ _ E). reflexivity.
  - apply nth_error_None in E. lia.
Qed.

Lemma table_entry bd t s : table_ok bd t -> 0 <= s <= bd ->
  1 <= fst (nth (Z.to_nat s) t (0, 0)) <= 16 /\
  0 <= snd (nth (Z.to_nat s) t (0, 0)) < 2 ^ fst (nth (Z.to_nat s) t (0, 0)).
Proof.
  intros (Hl & HF) Hs. rewrite Forall_forall in HF. apply HF. apply nth_In. lia.
Qed.

Lemma huff_entry_val bd s code len : 2 <= bd <= 16 -> 0 <= s <= bd ->
  1 <= len <= 16 -> 0 <= code < 2 ^ len ->
  huff_entry bd s code len = len * 2 ^ (16 + bd) + code * (if s =? 16 then 1 else 2 ^ s).
Proof.
  intros Hb Hs Hl Hc. unfold huff_entry.
  assert (H16 : 2 ^ len <= 2 ^ 16) by (apply pow2_le; lia).
  assert (Hsb : 2 ^ s <= 2 ^ bd) by (apply pow2_le; lia).
  pose proof (pow2_pos s ltac:(lia)). pose proof (pow2_pos bd ltac:(lia)).
  assert (HP : 2 ^ (16 + bd) = 2 ^ 16 * 2 ^ bd) by (apply pow2_add; lia).
  destruct (s =? 16) eqn:E.
  - rewrite lor_shl_add; [lia|lia|]. nia.
  - rewrite (Z.shiftl_mul_pow2 code) by lia. rewrite lor_shl_add; [lia|lia|]. nia.
Qed.

Definition enc_ok (bd : Z) (t : table) (d : Z) (r : Z * Z) : Prop :=
  bitsz (snd r) (fst r) = encode_diff t d /\ 0 <= fst r < 2 ^ snd r /\
  1 <= snd r <= Z.min (16 + bd) 31.

Lemma div_pow_mod a n w x : 0 <= w <= n -> 0 <= x < 2 ^ w -> (a * 2 ^ n + x) mod 2 ^ w = x.
Proof.
  intros Hw Hx. pose proof (pow2_pos w ltac:(lia)).
  replace n with ((n - w) + w) by lia. rewrite pow2_add by lia.
  rewrite Z.mul_assoc, Z.add_comm, Z.mod_add by lia. apply Z.mod_small; lia.
Qed.

Lemma enc_logic_ok bd t d : 2 <= bd <= 16 -> table_ok bd t -> - 2 ^ bd < d < 2 ^ bd ->
  enc_ok bd t d (enc_logic bd (category d) (offset d) (mem_read bd (mem_of bd t) (category d))).
Proof.
  intros Hb Ht Hd.
  pose proof (category_range bd d ltac:(lia) ltac:(lia)) as Hr.
  pose proof (offset_range bd d ltac:(lia) Hd) as [Ho Ho2].
  rewrite mem_read_ok by (assumption || lia).
  destruct (table_entry bd t (category d) Ht Hr) as [Hlen Hcode].
  assert (Hcb : code_bits t (category d) = bitsz (fst (nth (Z.to_nat (category d)) t (0, 0)))
                                              (snd (nth (Z.to_nat (category d)) t (0, 0)))).
  { apply code_bits_nth. destruct Ht as [-> _]. lia. }
  set (len := fst (nth (Z.to_nat (category d)) t (0, 0))) in *.
  set (code := snd (nth (Z.to_nat (category d)) t (0, 0))) in *.
  clearbody len code.
  unfold enc_ok, encode_diff. rewrite Hcb.
  set (s := category d) in *.
  assert (HP : 2 ^ (16 + bd) = 2 ^ 16 * 2 ^ bd) by (apply pow2_add; lia).
  assert (H16 : 2 ^ len <= 2 ^ 16) by (apply pow2_le; lia).
  pose proof (pow2_pos s ltac:(lia)) as Ps. pose proof (pow2_pos bd ltac:(lia)) as Pb.
  pose proof (pow2_pos len ltac:(lia)) as Pl.
  assert (Hval := huff_entry_val bd s code len Hb Hr Hlen Hcode).
  assert (Hslice : slice (16 + bd) (16 + bd + 5) (huff_entry bd s code len) = len).
  { rewrite Hval. unfold slice. replace (16 + bd + 5 - (16 + bd)) with 5 by lia.
    rewrite Z.div_add_l by (pose proof (pow2_pos (16 + bd)); lia).
    rewrite Z.div_small; [rewrite Z.add_0_r; apply Z.mod_small; change (2 ^ 5) with 32; lia|].
    split; [destruct (s =? 16); nia|]. destruct (s =? 16); nia. }
  unfold enc_logic. rewrite Hslice.
  set (w := Z.min (16 + bd) 31).
  destruct ((bd =? 16) && (s =? 16)) eqn:E.
  - assert (s = 16) by lia. assert (bd = 16) by lia.
    cbn [fst snd].
    assert (Hex : extra_bits d = []).
    { unfold extra_bits. fold s. replace (s =? 16) with true by lia. reflexivity. }
    rewrite Hex, app_nil_r.
    assert (Hc1 : trunc 5 len = len) by (apply trunc_id; change (2 ^ 5) with 32; lia).
    assert (Hw : 0 <= code < 2 ^ w).
    { split; [lia|]. apply Z.lt_le_trans with (2 ^ len); [lia|]. apply pow2_le. unfold w; lia. }
    assert (Hv1 : trunc w (huff_entry bd s code len) = code).
    { rewrite Hval. replace (s =? 16) with true by lia. rewrite Z.mul_1_r.
      unfold trunc. apply div_pow_mod; [unfold w; lia|exact Hw]. }
    rewrite Hc1, Hv1. repeat split; try lia; unfold w in *; lia.
  - assert (Hs16 : s < 16) by lia.
    cbn [fst snd].
    assert (Hsl : slice 0 4 s = s).
    { unfold slice. rewrite Z.pow_0_r, Z.div_1_r, Z.sub_0_r. apply Z.mod_small. change (2 ^ 4) with 16. lia. }
    rewrite Hsl.
    rewrite (trunc_id 5 (len + s)) by (change (2 ^ 5) with 32; lia).
    assert (Hx : 0 <= code * 2 ^ s + offset d < 2 ^ (len + s)).
    { apply cat_bound; lia. }
    assert (Hv1 : trunc w (Z.lor (huff_entry bd s code len) (offset d)) = code * 2 ^ s + offset d).
    { rewrite Hval. replace (s =? 16) with false by lia.
      assert (Hfac : len * 2 ^ (16 + bd) + code * 2 ^ s = (len * 2 ^ (16 + bd - s) + code) * 2 ^ s).
      { replace (16 + bd) with ((16 + bd - s) + s) at 1 by lia. rewrite pow2_add by lia. ring. }
      rewrite Hfac, lor_add by lia. rewrite <- Hfac. rewrite <- Z.add_assoc.
      unfold trunc. apply div_pow_mod; [unfold w; lia|].
      split; [lia|]. eapply Z.lt_le_trans; [apply Hx|]. apply pow2_le. unfold w; lia. }
    rewrite Hv1. rewrite bitsz_cat by lia.
    rewrite extra_bits_offset by (fold s; lia). fold s.
    repeat split; try lia.
Qed.

(* the shipped table *)
Lemma init_huff_table_std bd : 2 <= bd <= 16 -> init_huff_table bd = mem_of bd (std_table bd).
Proof.
  intros H. unfold init_huff_table, mem_of, std_table.
  rewrite <- firstn_map. f_equal. 
Qed.

Lemma std_table_ok bd : 2 <= bd <= 16 -> table_ok bd (std_table bd).
Proof.
  intros H. split.
  - unfold std_table. rewrite firstn_length. change (length std_full) with 17%nat. lia.
  - unfold std_table. apply Forall_forall. intros e He.
    assert (Hin : In e std_full).
    { rewrite <- (firstn_skipn (Z.to_nat (bd + 1)) std_full). apply in_or_app. auto. }
    assert (Hall : forallb (fun e => (1 <=? fst e) && (fst e <=? 16) && (0 <=? snd e) && (snd e <? 2 ^ fst e)) std_full = true)
      by (vm_compute; reflexivity).
    rewrite forallb_forall in Hall. specialize (Hall e Hin). lia.
Qed.
