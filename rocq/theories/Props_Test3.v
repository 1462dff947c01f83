(* C59: a concrete test; C60: the DMA driver. *)
From Verif Require Import Bits Spec Spec_Core M_Driver M_Test M_Top P_Fix P_Pack Props_Frame P_Beta Props_Beta Props_Test Props_Test2.
Ltac Zify.zify_post_hook ::= idtac.

(* ---------- C59: examples ---------- *)

Definition store_words (l : list Z) : memory := fun a => if a <? 0 then 0 else lebyte l a.
Lemma store_holds l : Forall word_ok l -> bytes_mem (store_words l) /\ holds (store_words l) l /\ zero_after (store_words l) l.
Proof.
  intros HF. split; [|split].
  - intros a. unfold store_words. destruct (a <? 0); [lia|]. unfold lebyte. set (w := nth _ l 0).
    assert (Hw : word_ok w). { unfold w. destruct (nth_in_or_default (Z.to_nat (a / 2)) l 0) as [Hin| ->]; [|unfold word_ok; lia]. rewrite Forall_forall in HF. apply HF, Hin. }
    unfold word_ok in Hw. change (2 ^ 16) with 65536 in Hw. destruct (Z.even a); [apply Z.mod_pos_bound; lia|].
    pose proof (Z.div_lt_upper_bound w 256 256 ltac:(lia) ltac:(lia)). pose proof (Z.div_pos w 256 ltac:(lia) ltac:(lia)). lia.
  - intros j Hj. unfold store_words. replace (2 * Z.of_nat j <? 0) with false by lia. replace (2 * Z.of_nat j + 1 <? 0) with false by lia.
    rewrite le_even, le_odd, Nat2Z.id by lia. split; reflexivity.
  - intros a Ha. pose proof (len_nonneg _ l) as Hl. unfold store_words, lebyte. replace (a <? 0) with false by lia.
    rewrite nth_overflow; [destruct (Z.even a); reflexivity|]. pose proof (Z.div_le_lower_bound a 2 (len l) ltac:(lia) ltac:(lia)). unfold len in *. lia.
Qed.
(* a picture of 8 x 3 samples of 12 bits, its reference file, and the same with one sample changed *)
Definition C59_px : list Z := [0; 4095; 17; 2048; 2048; 2047; 100; 101; 5; 6; 7; 8; 4095; 0; 4095; 0; 1; 2; 3; 4; 4000; 3000; 2000; 1000].
Definition C59_py : list Z := [0; 4095; 17; 2048; 2048; 2047; 100; 101; 5; 6; 7; 9; 4095; 0; 4095; 0; 1; 2; 3; 4; 4000; 3000; 2000; 1000].
Definition C59_P (px : list Z) : list Z := payload (std_table 12) 12 8 px.
Definition C59_B (px : list Z) : list Z := flat_map bytes_of (C59_P px).
Definition C59_test (px : list Z) (dest : memory) : bool * last_msg * val_msg :=
  let B := C59_B px in (check_first_marker dest, check_last_marker dest (len B), validate dest (re_order_lj92 (load_file B) (len B)) (len B)).
(* passes; a wrong sample is found; a frame cut short is not announced as such, and fails; the announcement of a frame
   cut behind its payload, with the additional trailer word; a wrong last byte of an odd file is not found *)
Example C59_example :
  C59_test C59_px (store_words (framed (C59_P C59_px) false)) = (true, NormalMarker 0, Succeeded) /\
  C59_test C59_px (store_words (framed (C59_P C59_py) false)) = (true, NoMarker, FailedWord 6) /\
  C59_test C59_px (store_words (framed (firstn 10 (C59_P C59_px)) true)) = (true, NoMarker, FailedWord 5) /\
  C59_test C59_px (store_words (framed (C59_P C59_px) true ++ [0xFFFE])) = (true, ForceMarker 1, Succeeded) /\
  len (C59_B C59_px) = 52 /\ 10 <= len (C59_B C59_px) < 2 ^ 31 /\ Forall word_ok (framed (C59_P C59_px) true ++ [0xFFFE]) /\
  (let B := [1; 2; 3; 4; 5; 6; 7; 8; 9; 10; 11] in let B' := [1; 2; 3; 4; 5; 6; 7; 8; 9; 10; 77] in
   let dest := store_words (framed (words_of B) false) in
   validate dest (re_order_lj92 (load_file B) 11) 11 = Succeeded /\ check_last_marker dest 11 = NormalMarker 1 /\
   validate dest (re_order_lj92 (load_file B') 11) 11 = Succeeded) /\
  (let B := [1; 2; 3; 4; 5; 6] in let B' := [1; 2; 3; 4; 5; 77] in
   validate (store_words (framed (words_of B) false)) (re_order_lj92 (load_file B') 6) 6 = Succeeded).
Proof.
  split; [vm_compute; reflexivity|]. split; [vm_compute; reflexivity|]. split; [vm_compute; reflexivity|]. split; [vm_compute; reflexivity|].
  split; [vm_compute; reflexivity|]. split; [vm_compute; split; [discriminate|reflexivity]|]. split; [|split; [vm_compute; repeat split|vm_compute; reflexivity]].
  assert (K : forallb (fun w => (0 <=? w) && (w <? 65536)) (framed (C59_P C59_px) true ++ [0xFFFE]) = true) by (vm_compute; reflexivity).
  rewrite forallb_forall in K. apply Forall_forall. intros w Hw. apply K in Hw. unfold word_ok. change (2 ^ 16) with 65536. lia.
Qed.

(* ---------- C60: specification ---------- *)

(* what a program does to the registers, at byte offsets, when the device answers its loads with the given values *)
Inductive access := Wr (offset v : Z) | Rd (offset : Z).
Fixpoint perform {A} (answers : nat -> Z) (n : nat) (p : prog A) : list access * A :=
  match p with
  | Ret a => ([], a)
  | Load off k => let (t, a) := perform answers (S n) (k (answers n)) in (Rd (4 * off) :: t, a)
  | Store off v k => let (t, a) := perform answers n k in (Wr (4 * off) v :: t, a)
  end.
(* Xilinx AXI DMA (simple mode): MM2S_DMACR 0x00, MM2S_SA 0x18, MM2S_LENGTH 0x28; S2MM_DMACR 0x30, S2MM_DA 0x48, S2MM_LENGTH 0x58.
   DMACR bit 0: run, bit 2: reset.  A transfer starts when the length is written, with run set. *)

(* C60.  Programming the DMA: reset, stop, both addresses, run, and at the very end the two lengths: the receiving
   channel before the sending one; the receiving length is a multiple of 4 and large enough for
   the start marker, the payload of lj_length bytes, the end marker and the additional word, the source
   region is exactly what re_order_set_raw12_64bits (32bits) fills, and no region runs into another. *)
Theorem C60_program : forall n answers k, 0 <= n -> n + 1027 < 2 ^ 32 ->
  exists L, perform answers k (program_dma n) =
    ([Wr 0x30 4; Wr 0x00 4; Wr 0x30 0; Wr 0x00 0; Wr 0x48 0x12000000; Wr 0x18 0x10000000; Wr 0x30 0xf001; Wr 0x00 0xf001; Wr 0x58 L; Wr 0x28 25165824], tt) /\
  L mod 4 = 0 /\ n + 1024 <= L < n + 1028 /\
  (forall P extra, 2 * len P <= n -> len extra <= 1 -> 2 * len (framed P false ++ extra) <= L /\ 2 * len (framed P true ++ extra) <= L) /\
  0x10000000 + 25165824 <= 0x12000000 /\ (n <= 0x2000000 - 1028 -> L <= 0x2000000).
Proof.
  intros n answers k Hn Hn2. exists (divisible_4 (trunc 32 (n + 1024))). p32. rewrite trunc_id by (p32; lia).
  destruct (C59_divisible (n + 1024) ltac:(lia)) as [D _]. destruct (D ltac:(p32; lia)) as [D1 D2]. split.
  - unfold program_dma, reset_dma, halt_dma, set_dma_src_dist, start_dma, set_dma_transfer_len, dma_set. cbn [bind perform].
    rewrite trunc_id by (p32; lia). reflexivity.
  - split; [exact D1|]. split; [lia|]. split; [|split; lia]. intros P extra HP HE.
    assert (LL : forall b, len (framed P b ++ extra) = 16 + len P + len extra) by (intros b; unfold framed, len; rewrite !app_length, !repeat_length; lia).
    rewrite !LL. lia.
Qed.
Lemma raw64_length : forall l n, length l = (6 * n)%nat -> length (raw_words64 l) = n.
Proof.
  intros l n. revert l. induction n as [|n IH]; intros l Hl; [destruct l; [reflexivity|discriminate]|].
  destruct l as [|b0 [|b1 [|b2 [|b3 [|b4 [|b5 r]]]]]]; cbn [length] in Hl; try lia. cbn [raw_words64 length]. rewrite IH by lia. reflexivity.
Qed.
Lemma raw32_length : forall l n, length l = (3 * n)%nat -> length (raw_words32 l) = n.
Proof.
  intros l n. revert l. induction n as [|n IH]; intros l Hl; [destruct l; [reflexivity|discriminate]|].
  destruct l as [|b0 [|b1 [|b2 r]]]; cbn [length] in Hl; try lia. cbn [raw_words32 length]. rewrite IH by lia. reflexivity.
Qed.
Theorem C60_source : forall file, len file = 4096 * 3072 * 12 / 8 ->
  8 * len (raw_words64 file) = 25165824 /\ 4 * len (raw_words32 file) = 25165824.
Proof.
  intros file H. change (4096 * 3072 * 12 / 8) with 18874368 in H. unfold len in *. split.
  - rewrite (raw64_length file (Z.to_nat 3145728)) by lia. lia.
  - rewrite (raw32_length file (Z.to_nat 6291456)) by lia. lia.
Qed.

(* C60.  Waiting: the driver reads only the status register; it goes on exactly when a status with both IOC_Irq
   (bit 12) and idle (bit 1) was read, at the first one. *)
Definition done_status (v : Z) : Prop := Z.testbit v 12 = true /\ Z.testbit v 1 = true.
Lemma more_spec v : sync_more v = false <-> done_status v.
Proof. unfold sync_more, done_status. destruct (Z.testbit v 12), (Z.testbit v 1); cbn; intuition discriminate. Qed.
Theorem C60_sync : forall reg answers n k, (exists j, reg = 4 * j) ->
  let (t, r) := perform answers k (dma_sync n reg) in
  t = repeat (Rd reg) (length t) /\
  (r = true -> (1 <= length t <= S n)%nat /\ done_status (answers (k + length t - 1)%nat) /\ forall i, (i < length t - 1)%nat -> ~ done_status (answers (k + i)%nat)) /\
  (r = false -> length t = S n /\ forall i, (i <= n)%nat -> ~ done_status (answers (k + i)%nat)).
Proof.
  intros reg answers n k (j & ->). revert k. induction n as [|n IH]; intros k; cbn [dma_sync perform].
  - destruct (sync_more (answers k)) eqn:E; cbn [perform]; rewrite Z.shiftr_div_pow2 by lia; change (2 ^ 2) with 4;
      replace (4 * (4 * j / 4)) with (4 * j) by (rewrite (Z.mul_comm 4 j), Z.div_mul by lia; lia).
    + split; [reflexivity|]. split; [discriminate|]. intros _. split; [reflexivity|]. intros i Hi. replace (k + i)%nat with k by lia. rewrite <- more_spec, E. discriminate.
    + split; [reflexivity|]. split; [|discriminate]. intros _. cbn [length]. split; [lia|]. replace (k + 1 - 1)%nat with k by lia. split; [apply more_spec, E|]. intros; lia.
  - destruct (sync_more (answers k)) eqn:E; cbn [perform].
    + specialize (IH (S k)). destruct (perform answers (S k) (dma_sync n (4 * j))) as [t r]. rewrite Z.shiftr_div_pow2 by lia; change (2 ^ 2) with 4.
      replace (4 * (4 * j / 4)) with (4 * j) by (rewrite (Z.mul_comm 4 j), Z.div_mul by lia; lia). destruct IH as (I1 & I2 & I3).
      assert (N : ~ done_status (answers k)) by (rewrite <- more_spec, E; discriminate).
      split; [cbn [length repeat]; rewrite <- I1; reflexivity|]. cbn [length]. split; intros Hr.
      * destruct (I2 Hr) as (J1 & J2 & J3). split; [lia|]. replace (k + S (length t) - 1)%nat with (S k + length t - 1)%nat by lia. split; [exact J2|].
        intros i Hi. destruct i as [|i]; [rewrite Nat.add_0_r; exact N|]. replace (k + S i)%nat with (S k + i)%nat by lia. apply J3. lia.
      * destruct (I3 Hr) as (J1 & J2). split; [lia|]. intros i Hi. destruct i as [|i]; [rewrite Nat.add_0_r; exact N|]. replace (k + S i)%nat with (S k + i)%nat by lia. apply J2. lia.
    + rewrite Z.shiftr_div_pow2 by lia; change (2 ^ 2) with 4. replace (4 * (4 * j / 4)) with (4 * j) by (rewrite (Z.mul_comm 4 j), Z.div_mul by lia; lia).
      split; [reflexivity|]. split; [|discriminate]. intros _. cbn [length]. split; [lia|]. replace (k + 1 - 1)%nat with k by lia. split; [apply more_spec, E|]. intros; lia.
Qed.
Example C60_example :
  perform (fun k => nth k [0; 0x1000; 2; 0x1002; 0x1003] 0) 0 (dma_sync 20 S2MM_STATUS) = ([Rd 0x34; Rd 0x34; Rd 0x34; Rd 0x34], true) /\
  fst (perform (fun _ => 0) 0 (program_dma 1001)) =
    [Wr 0x30 4; Wr 0x00 4; Wr 0x30 0; Wr 0x00 0; Wr 0x48 0x12000000; Wr 0x18 0x10000000; Wr 0x30 0xf001; Wr 0x00 0xf001; Wr 0x58 2028; Wr 0x28 25165824].
Proof. split; vm_compute; reflexivity. Qed.
