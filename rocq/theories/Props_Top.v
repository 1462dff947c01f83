(* C51: from the RAW12 file through the test program's packing and the AXI stream into the core, and
   back from the core's output to the samples. *)
From Verif Require Import Bits Spec Spec_Core Spec_Beta M_Config M_Encode M_I1 M_Fifo M_I3 M_Fix M_Markers M_Beta
  P_Encode P_Tokens P_I3 P_Decode P_Run P_Live P_Fix P_Markers Props_Arith Props_Core Props_Frame P_Pack P_Beta Props_Beta
  M_Width Props_Width M_Top.
Ltac Zify.zify_post_hook ::= idtac.

(* ---------- SPECIFICATION ---------- *)

(* AXI stream, slave side: an offered word is held until it is taken (tvalid, tdata, tready) *)
Fixpoint stream_ok (off : option Z) (tr : list (bool * Z * bool)) : Prop :=
  match tr with
  | [] => True
  | (v, d, rdy) :: r => match off with Some w => v = true /\ d = w | None => True end /\
      stream_ok (if v && negb rdy then Some d else None) r
  end.
(* the words transferred *)
Definition taken (tr : list (bool * Z * bool)) : list Z := flat_map (fun x => match x with (v, d, rdy) => if v && rdy then [d] else [] end) tr.
(* the word still on offer at the end *)
Fixpoint pending (off : option Z) (tr : list (bool * Z * bool)) : option Z :=
  match tr with [] => off | (v, d, rdy) :: r => pending (if v && negb rdy then Some d else None) r end.

(* the four samples of a 64-bit word, the two of a 32-bit word: 12-bit fields from the top *)
Definition unpack64 (w : Z) : list Z := [w / 2 ^ 52 mod 2 ^ 12; w / 2 ^ 40 mod 2 ^ 12; w / 2 ^ 28 mod 2 ^ 12; w / 2 ^ 16 mod 2 ^ 12].
Definition unpack32 (w : Z) : list Z := [w / 2 ^ 20 mod 2 ^ 12; w / 2 ^ 8 mod 2 ^ 12].
(* bytes and 12-bit samples as bit strings *)
Definition bits8 (l : list Z) : list bool := flat_map (bitsz 8) l.
Definition bits12 (l : list Z) : list bool := flat_map (bitsz 12) l.
Definition byte (b : Z) : Prop := 0 <= b < 256.

(* ---------- the packing ---------- *)

Lemma land_F0 b : byte b -> Z.shiftr (Z.land b 0xF0) 4 = b / 16.
Proof.
  intros Hb. unfold byte in Hb. change 0xF0 with (Z.shiftl 15 4). rewrite Z.shiftr_land, Z.shiftr_shiftl_l by lia. change (4 - 4) with 0. rewrite Z.shiftl_0_r.
  change 15 with (Z.ones 4). rewrite Z.land_ones by lia. rewrite Z.shiftr_div_pow2 by lia. change (2 ^ 4) with 16. apply Z.mod_small.
  split; [apply Z.div_pos; lia|apply Z.div_lt_upper_bound; lia].
Qed.
Lemma lor_shl a b n : 0 <= n -> 0 <= b < 2 ^ n -> Z.lor (Z.shiftl a n) b = a * 2 ^ n + b.
Proof. intros Hn Hb. rewrite Z.shiftl_mul_pow2 by lia. apply lor_add; assumption. Qed.
Lemma raw_p1_val b0 b1 : byte b0 -> byte b1 -> raw_p1 b0 b1 = b0 * 16 + b1 / 16.
Proof.
  intros H0 H1. unfold raw_p1. rewrite land_F0 by exact H1. apply lor_shl; [lia|].
  unfold byte in H1. split; [apply Z.div_pos; lia|apply Z.div_lt_upper_bound; change (2 ^ 4) with 16; lia].
Qed.
Lemma raw_p2_val b1 b2 : byte b1 -> byte b2 -> raw_p2 b1 b2 = b1 mod 16 * 256 + b2.
Proof.
  intros H1 H2. unfold raw_p2. change 0x0F with (Z.ones 4). rewrite Z.land_ones by lia. apply lor_shl; [lia|exact H2].
Qed.
Lemma raw_p1_range b0 b1 : byte b0 -> byte b1 -> 0 <= raw_p1 b0 b1 < 2 ^ 12.
Proof. intros H0 H1. rewrite raw_p1_val by assumption. unfold byte in *. assert (0 <= b1 / 16 < 16) by (split; [apply Z.div_pos; lia|apply Z.div_lt_upper_bound; lia]). change (2 ^ 12) with 4096. lia. Qed.
Lemma raw_p2_range b1 b2 : byte b1 -> byte b2 -> 0 <= raw_p2 b1 b2 < 2 ^ 12.
Proof. intros H0 H1. rewrite raw_p2_val by assumption. unfold byte in *. pose proof (Z.mod_pos_bound b1 16 ltac:(lia)). change (2 ^ 12) with 4096. lia. Qed.

(* two samples = three bytes, as bits *)
Lemma raw_bits b0 b1 b2 : byte b0 -> byte b1 -> byte b2 -> bits12 [raw_p1 b0 b1; raw_p2 b1 b2] = bits8 [b0; b1; b2].
Proof.
  intros H0 H1 H2. unfold bits12, bits8. cbn [flat_map]. rewrite !app_nil_r.
  apply bval_inj; [rewrite !app_length; unfold bitsz; rewrite !bitsn_length; reflexivity|].
  rewrite !bval_app, !bval_bitsz by lia. rewrite !app_length. unfold bitsz. rewrite !bitsn_length.
  rewrite raw_p1_val, raw_p2_val by assumption. unfold byte in *.
  change (Z.of_nat (Z.to_nat 12)) with 12. change (Z.of_nat (Z.to_nat 8 + Z.to_nat 8)) with 16. change (Z.of_nat (Z.to_nat 8)) with 8.
  change (2 ^ 12) with 4096. change (2 ^ 16) with 65536. change (2 ^ 8) with 256.
  pose proof (Z.div_mod b1 16 ltac:(lia)). pose proof (Z.mod_pos_bound b1 16 ltac:(lia)).
  assert (0 <= b1 / 16 < 16) by (split; [apply Z.div_pos; lia|apply Z.div_lt_upper_bound; lia]).
  set (q := b1 / 16) in *. set (r := b1 mod 16) in *. clearbody q r.
  rewrite !Z.mod_small by lia. lia.
Qed.

Ltac pw := change (2 ^ 52) with 4503599627370496; change (2 ^ 40) with 1099511627776; change (2 ^ 28) with 268435456;
  change (2 ^ 20) with 1048576; change (2 ^ 16) with 65536; change (2 ^ 8) with 256.
Lemma fields64 a b c d : 0 <= a < 2 ^ 12 -> 0 <= b < 2 ^ 12 -> 0 <= c < 2 ^ 12 -> 0 <= d < 2 ^ 12 ->
  let w := Z.lor (Z.lor (Z.lor (Z.shiftl a 52) (Z.shiftl b 40)) (Z.shiftl c 28)) (Z.shiftl d 16) in
  unpack64 w = [a; b; c; d] /\ 0 <= w < 2 ^ 64.
Proof.
  intros Ha Hb Hc Hd w.
  assert (E : w = a * 2 ^ 52 + b * 2 ^ 40 + c * 2 ^ 28 + d * 2 ^ 16).
  { unfold w. change (2 ^ 12) with 4096 in *.
    rewrite (Z.shiftl_mul_pow2 b), (Z.shiftl_mul_pow2 c), (Z.shiftl_mul_pow2 d) by lia.
    rewrite (lor_shl a (b * 2 ^ 40) 52) by (try lia; change (2 ^ 40) with 1099511627776; change (2 ^ 52) with 4503599627370496; lia).
    replace (a * 2 ^ 52 + b * 2 ^ 40) with ((a * 4096 + b) * 2 ^ 40) by (pw; lia).
    rewrite <- (Z.shiftl_mul_pow2 _ 40) by lia.
    rewrite (lor_shl _ (c * 2 ^ 28) 40) by (try lia; change (2 ^ 28) with 268435456; change (2 ^ 40) with 1099511627776; lia).
    replace ((a * 4096 + b) * 2 ^ 40 + c * 2 ^ 28) with (((a * 4096 + b) * 4096 + c) * 2 ^ 28) by (pw; lia).
    rewrite <- (Z.shiftl_mul_pow2 _ 28) by lia.
    rewrite (lor_shl _ (d * 2 ^ 16) 28) by (try lia; change (2 ^ 16) with 65536; change (2 ^ 28) with 268435456; lia).
    rewrite ?Z.shiftl_mul_pow2 by lia. pw; lia. }
  clearbody w. subst w. change (2 ^ 12) with 4096 in *. split.
  - unfold unpack64. change (2 ^ 12) with 4096. f_equal; [|f_equal; [|f_equal; [|f_equal]]].
    + replace (a * 2 ^ 52 + b * 2 ^ 40 + c * 2 ^ 28 + d * 2 ^ 16) with (b * 2 ^ 40 + c * 2 ^ 28 + d * 2 ^ 16 + a * 2 ^ 52) by ring.
      rewrite Z.div_add, Z.div_small by (try discriminate; change (2 ^ 52) with 4503599627370496; change (2 ^ 40) with 1099511627776; change (2 ^ 28) with 268435456; change (2 ^ 16) with 65536; lia).
      apply Z.mod_small. lia.
    + replace (a * 2 ^ 52 + b * 2 ^ 40 + c * 2 ^ 28 + d * 2 ^ 16) with (c * 2 ^ 28 + d * 2 ^ 16 + (b + a * 4096) * 2 ^ 40) by (pw; lia).
      rewrite Z.div_add, Z.div_small by (try discriminate; change (2 ^ 40) with 1099511627776; change (2 ^ 28) with 268435456; change (2 ^ 16) with 65536; lia).
      rewrite Z.add_0_l, Z_mod_plus by lia. apply Z.mod_small. lia.
    + replace (a * 2 ^ 52 + b * 2 ^ 40 + c * 2 ^ 28 + d * 2 ^ 16) with (d * 2 ^ 16 + (c + (b + a * 4096) * 4096) * 2 ^ 28) by (pw; lia).
      rewrite Z.div_add, Z.div_small by (try discriminate; change (2 ^ 28) with 268435456; change (2 ^ 16) with 65536; lia).
      rewrite Z.add_0_l, Z_mod_plus by lia. apply Z.mod_small. lia.
    + replace (a * 2 ^ 52 + b * 2 ^ 40 + c * 2 ^ 28 + d * 2 ^ 16) with ((d + (c + (b + a * 4096) * 4096) * 4096) * 2 ^ 16) by (pw; lia).
      rewrite Z.div_mul by discriminate. rewrite Z_mod_plus by lia. apply Z.mod_small. lia.
  - change (2 ^ 52) with 4503599627370496; change (2 ^ 40) with 1099511627776; change (2 ^ 28) with 268435456; change (2 ^ 16) with 65536; change (2 ^ 64) with 18446744073709551616. lia.
Qed.
Lemma fields32 a b : 0 <= a < 2 ^ 12 -> 0 <= b < 2 ^ 12 ->
  let w := Z.lor (Z.shiftl a 20) (Z.shiftl b 8) in unpack32 w = [a; b] /\ 0 <= w < 2 ^ 32.
Proof.
  intros Ha Hb w. assert (E : w = a * 2 ^ 20 + b * 2 ^ 8).
  { unfold w. rewrite (Z.shiftl_mul_pow2 b) by lia. apply lor_shl; [lia|]. change (2 ^ 12) with 4096 in *. change (2 ^ 8) with 256; change (2 ^ 20) with 1048576. lia. }
  clearbody w. subst w. change (2 ^ 12) with 4096 in *. split.
  - unfold unpack32. change (2 ^ 12) with 4096. f_equal; [|f_equal].
    + rewrite Z.add_comm, Z.div_add, Z.div_small by (try discriminate; change (2 ^ 20) with 1048576; change (2 ^ 8) with 256; lia). apply Z.mod_small. lia.
    + replace (a * 2 ^ 20 + b * 2 ^ 8) with ((b + a * 4096) * 2 ^ 8) by (pw; lia).
      rewrite Z.div_mul by discriminate. rewrite Z_mod_plus by lia. apply Z.mod_small. lia.
  - change (2 ^ 20) with 1048576; change (2 ^ 8) with 256; change (2 ^ 32) with 4294967296. lia.
Qed.

Lemma list6_ind (P : list Z -> Prop) :
  (forall l, (length l < 6)%nat -> P l) -> (forall a b c d e f l, P l -> P (a :: b :: c :: d :: e :: f :: l)) -> forall l, P l.
Proof.
  intros H1 H2 l. remember (length l) as n eqn:En. assert (Hn : (length l <= n)%nat) by lia. clear En. revert l Hn.
  induction n as [|n IH]; intros l Hn; [apply H1; lia|].
  destruct l as [|a [|b [|c [|d [|e [|f l]]]]]]; try (apply H1; cbn; lia). apply H2, IH. cbn in Hn. lia.
Qed.
Lemma bits12_app a b : bits12 (a ++ b) = bits12 a ++ bits12 b.
Proof. apply flat_map_app. Qed.
Lemma bits8_app a b : bits8 (a ++ b) = bits8 a ++ bits8 b.
Proof. apply flat_map_app. Qed.

(* C51.  The words the test program writes for the DMA carry, in the order in which the core unpacks
   them, exactly the bits of the RAW12 file: for files whose size is a multiple of 6 (3) bytes the
   12-bit samples written one after the other are the bytes written one after the other. *)
Theorem C51_packing64 : forall file, Forall byte file -> (exists n, length file = 6 * n)%nat ->
  bits12 (flat_map unpack64 (raw_words64 file)) = bits8 file /\ Forall (fun w => 0 <= w < 2 ^ 64) (raw_words64 file).
Proof.
  intros file. induction file as [l Hl|b0 b1 b2 b3 b4 b5 l IH] using list6_ind; intros HF [n Hn].
  - destruct n; [|lia]. destruct l; [|discriminate]. cbn. auto.
  - do 6 (apply Forall_cons_iff in HF; destruct HF as [? HF]). cbn [raw_words64 flat_map].
    destruct (IH HF) as [I1 I2]; [exists (pred n); cbn [length] in Hn; lia|].
    destruct (fields64 (raw_p1 b0 b1) (raw_p2 b1 b2) (raw_p1 b3 b4) (raw_p2 b4 b5)) as [E R]; try (apply raw_p1_range; assumption); try (apply raw_p2_range; assumption).
    cbv zeta in E, R. split; [|constructor; assumption]. rewrite E, bits12_app, I1.
    change [raw_p1 b0 b1; raw_p2 b1 b2; raw_p1 b3 b4; raw_p2 b4 b5] with ([raw_p1 b0 b1; raw_p2 b1 b2] ++ [raw_p1 b3 b4; raw_p2 b4 b5]).
    rewrite bits12_app, !raw_bits by assumption. rewrite <- !bits8_app. reflexivity.
Qed.
Theorem C51_packing32 : forall file, Forall byte file -> (exists n, length file = 3 * n)%nat ->
  bits12 (flat_map unpack32 (raw_words32 file)) = bits8 file /\ Forall (fun w => 0 <= w < 2 ^ 32) (raw_words32 file).
Proof.
  intros file HF [n Hn]. revert file HF Hn. induction n as [|n IH]; intros file HF Hn.
  - destruct file; [|discriminate]. cbn. auto.
  - destruct file as [|b0 [|b1 [|b2 l]]]; cbn [length] in Hn; try lia.
    do 3 (apply Forall_cons_iff in HF; destruct HF as [? HF]). cbn [raw_words32 flat_map].
    destruct (IH l HF ltac:(lia)) as [I1 I2].
    destruct (fields32 (raw_p1 b0 b1) (raw_p2 b1 b2)) as [E R]; try (apply raw_p1_range; assumption); try (apply raw_p2_range; assumption).
    cbv zeta in E, R. split; [|constructor; assumption]. rewrite E, bits12_app, I1, raw_bits by assumption. rewrite <- bits8_app. reflexivity.
Qed.

(* ---------- the 64-bit stream ---------- *)

Notation M12 := (init_huff_table 12) (only parsing).
Definition t64_run_ins (s : s24_st) (bt : bt_st) (rf : rf_st) (l : list ts_in) : list bt_in := bt_rf_ins rf (t64_sched s bt rf l).
Definition ts64 (i : ts_in) : Prop := 0 <= ts_data i < 2 ^ 64.
Definition ts32 (i : ts_in) : Prop := 0 <= ts_data i < 2 ^ 32.

Lemma bt_rf_ins_cons rf x r : bt_rf_ins rf (x :: r) = rf_bt rf x :: bt_rf_ins (rf_step rf) r.
Proof. destruct x as [[v p] b]. reflexivity. Qed.

(* the groups of all frames, one after the other, are the groups accepted in the run *)
Lemma bt_log_groups c mem : forall l A O s, concat (map fst (bt_log c mem A O s l)) = A ++ bt_accepted c mem s l.
Proof.
  induction l as [|i l IH]; intros A O s; cbn [bt_log bt_accepted].
  - cbn. rewrite !app_nil_r. reflexivity.
  - destruct (b_rst s); [cbn [map concat fst]|]; rewrite IH; [rewrite <- app_assoc; reflexivity|rewrite app_assoc; reflexivity].
Qed.

Lemma t64_wire_facts : forall l s bt rf off,
  (stream_ok off (t64_wire s bt rf l) -> src_ok s off (t64_pks s bt rf l)) /\
  pending off (t64_wire s bt rf l) = src_end s off (t64_pks s bt rf l) /\
  taken (t64_wire s bt rf l) = s24_accepted s (t64_pks s bt rf l).
Proof.
  induction l as [|i l IH]; intros s bt rf off; [cbn; auto|]. cbn [t64_wire t64_pks stream_ok src_ok pending src_end s24_accepted].
  assert (N : src_next s (t64_pk bt i) = if ts_valid i && negb (negb (s24_busy s)) then Some (ts_data i) else None) by (rewrite negb_involutive; reflexivity).
  rewrite N. destruct (IH (s24_step s (t64_pk bt i)) (bt_step beta_cfg M12 bt (rf_bt rf (t64_x s i))) (rf_step rf) (if ts_valid i && negb (negb (s24_busy s)) then Some (ts_data i) else None)) as (I1 & I2 & I3).
  split; [intros [H1 H2]; split; [exact H1|apply I1, H2]|]. split; [exact I2|]. unfold taken in *. cbn [flat_map]. rewrite I3. reflexivity.
Qed.
Lemma t64_groups : forall l s bt rf,
  bt_accepted beta_cfg M12 bt (t64_run_ins s bt rf l) = map tp24 (s24_delivered s (t64_pks s bt rf l)).
Proof.
  induction l as [|i l IH]; intros s bt rf; [reflexivity|]. unfold t64_run_ins in *. cbn [t64_sched t64_pks]. rewrite bt_rf_ins_cons. cbn [bt_accepted s24_delivered].
  rewrite map_app, IH. f_equal. unfold bt_took, bt_accept, s24_del, t64_x, t64_pk, rf_bt. cbn [bi_valid bi_px pi_busy fst snd].
  destruct (s24_valid s && negb (bt_nready bt)); reflexivity.
Qed.
Lemma t64_pks_in64 : forall l s bt rf, Forall ts64 l -> Forall in64 (t64_pks s bt rf l).
Proof. induction l as [|i l IH]; intros s bt rf H; [constructor|]. apply Forall_cons_iff in H. destruct H. constructor; [assumption|apply IH; assumption]. Qed.
Lemma tp24_split w : flat_map tp24 (split24 w) = unpack64 w.
Proof.
  unfold split24, unpack64, tp24. cbn [flat_map app]. unfold slice.
  change (24 - 12) with 12. change (12 - 0) with 12. change (2 ^ 0) with 1. rewrite !Z.div_1_r.
  change (2 ^ 24) with (2 ^ 12 * 2 ^ 12).
  rewrite !Z.rem_mul_r by (try apply Z.pow_nonzero; lia).
  assert (K : forall x y, (x + 2 ^ 12 * y) / 2 ^ 12 = x / 2 ^ 12 + y) by (intros; rewrite Z.mul_comm, Z.div_add by discriminate; reflexivity).
  assert (L : forall x y, (x mod 2 ^ 12 + 2 ^ 12 * y) mod 2 ^ 12 = x mod 2 ^ 12) by (intros; rewrite Z.mul_comm, Z_mod_plus by lia; apply Z.mod_mod; discriminate).
  assert (S : forall x, x mod 2 ^ 12 / 2 ^ 12 = 0) by (intros; apply Z.div_small, Z.mod_pos_bound; lia).
  rewrite !K, !L, !S. rewrite !Z.add_0_l, !Z.mod_mod by discriminate.
  rewrite !Z.div_div by (try discriminate; lia). rewrite <- !Z.pow_add_r by lia. reflexivity.
Qed.
Lemma tp24_splits l : flat_map tp24 (flat_map split24 l) = flat_map unpack64 l.
Proof. induction l as [|w l IH]; [reflexivity|]. cbn [flat_map]. rewrite flat_map_app, IH, tp24_split. reflexivity. Qed.
Lemma tp24_ok d : group_ok 12 2 (tp24 d).
Proof. split; [reflexivity|]. repeat constructor; unfold in_range; apply (slice_range 12 24 d ltac:(lia)) || apply (slice_range 0 12 d ltac:(lia)). Qed.
Lemma t64_sched_ok : forall l s bt rf x, In x (t64_sched s bt rf l) -> group_ok 12 2 (snd (fst x)).
Proof. induction l as [|i l IH]; intros s bt rf x []; [subst x; apply tp24_ok|eapply IH; eassumption]. Qed.

(* what is received of a finished frame *)
Definition finished (log : list (list (list Z) * list (Z * bool))) (k : nat) (A : list (list Z)) (O : list (Z * bool)) : Prop :=
  nth_error log k = Some (A, O) /\ (S k < length log)%nat.
Definition lossless_or_flagged (A : list (list Z)) (O : list (Z * bool)) : Prop :=
  (snd (deframe (map fst O)) = Some false /\ len (concat A) = 4096 * 3072 /\ receive (std_table 12) 12 4096 3072 (map fst O) = Some (concat A)) \/
  snd (deframe (map fst O)) = Some true.
(* all samples the core has accepted, frame after frame *)
Definition samples (log : list (list (list Z) * list (Z * bool))) : list Z := flat_map (fun x => concat (fst x)) log.
Lemma samples_groups log : samples log = concat (concat (map fst log)).
Proof. unfold samples. rewrite flat_map_concat_map. induction log as [|x log IH]; [reflexivity|]. cbn [map concat]. rewrite concat_app, IH. reflexivity. Qed.

(* C51.  beta_integration_fifo_axistream.py, any stream source that obeys the AXI stream rule (an offered
   word stays on offer until it is taken), any sink: the samples accepted by the core in all its
   frames, followed by at most 6 samples still in the width converter, are the 12-bit fields of the words
   transferred (and of the word on offer that is being transferred in this cycle), in order; and every finished
   frame is received without loss or flagged. *)
Theorem C51_stream64 : forall (l : list ts_in) i3, is_reset beta_cfg i3 -> Forall ts64 l ->
  let bt := bt_reset_with i3 in let wire := t64_wire s24_init bt rf_init l in
  let log := bt_log beta_cfg M12 [] [] bt (bt_rf_ins rf_init (t64_sched s24_init bt rf_init l)) in
  stream_ok None wire ->
  (exists now held, flat_map unpack64 (taken wire ++ now) = samples log ++ held /\ (length held <= 6)%nat /\
      (now = [] \/ exists w, now = [w] /\ pending None wire = Some w)) /\
  (forall k A O, finished log k A O -> lossless_or_flagged A O).
Proof.
  intros l i3 Hi HF bt wire log HS. destruct (t64_wire_facts l s24_init bt rf_init None) as (W1 & W2 & W3). fold wire in W1, W2, W3. split.
  - destruct (C38_splitting (t64_pks s24_init bt rf_init l) (t64_pks_in64 _ _ _ _ HF) (W1 HS)) as (now & held & E & L & N).
    exists now, (flat_map tp24 held). split; [|split].
    + rewrite <- tp24_splits, W3, E, flat_map_app. f_equal. rewrite samples_groups. unfold log. rewrite bt_log_groups. cbn [app].
      fold (t64_run_ins s24_init bt rf_init l). rewrite t64_groups. symmetry. rewrite <- flat_map_concat_map. reflexivity.
    + assert (K : forall h, length (flat_map tp24 h) = (2 * length h)%nat) by (induction h; cbn [flat_map length app tp24]; lia). rewrite K. lia.
    + destruct N as [N|(w & N1 & N2 & _)]; [left; exact N|right]. exists w. rewrite W2. auto.
  - intros k A O [H1 H2]. apply (C25_shipped _ i3 Hi (fun x => t64_sched_ok l s24_init bt rf_init x) k A O H1 H2).
Qed.

(* ---------- the 32-bit stream ---------- *)
Lemma tp32_ok d : group_ok 12 2 (tp32 d).
Proof. split; [reflexivity|]. repeat constructor; unfold in_range; apply (slice_range 20 32 d ltac:(lia)) || apply (slice_range 8 20 d ltac:(lia)). Qed.
Lemma t32_groups : forall l bt rf, bt_accepted beta_cfg M12 bt (bt_rf_ins rf (t32_sched l)) = map tp32 (taken (t32_wire bt rf l)).
Proof.
  induction l as [|i l IH]; intros bt rf; [reflexivity|]. unfold t32_sched in *. cbn [map t32_wire]. rewrite bt_rf_ins_cons. cbn [bt_accepted]. unfold taken in *. cbn [flat_map].
  rewrite map_app, IH. f_equal. unfold bt_took, bt_accept, rf_bt. cbn [bi_valid bi_px fst snd]. destruct (ts_valid i && negb (bt_nready bt)); reflexivity.
Qed.

(* C51.  beta_integration_axistream.py, any source whatsoever, any sink: the samples accepted in all frames are
   exactly the 12-bit fields of the words transferred. *)
Theorem C51_stream32 : forall (l : list ts_in) i3, is_reset beta_cfg i3 ->
  let bt := bt_reset_with i3 in let wire := t32_wire bt rf_init l in
  let log := bt_log beta_cfg M12 [] [] bt (bt_rf_ins rf_init (t32_sched l)) in
  flat_map unpack32 (taken wire) = samples log /\ (forall k A O, finished log k A O -> lossless_or_flagged A O).
Proof.
  intros l i3 Hi bt wire log. split.
  - rewrite samples_groups. unfold log. rewrite bt_log_groups. cbn [app]. rewrite t32_groups, <- flat_map_concat_map. reflexivity.
  - intros k A O [H1 H2]. refine (C25_shipped _ i3 Hi _ k A O H1 H2). intros x Hx. apply in_map_iff in Hx. destruct Hx as (i & <- & _). apply tp32_ok.
Qed.

(* ---------- from file to file ---------- *)

Lemma prefix_firstn (A : Type) (a b c : list A) : a ++ b = c -> a = firstn (length a) c.
Proof. intros <-. rewrite firstn_app, Nat.sub_diag, firstn_O, app_nil_r, firstn_all. reflexivity. Qed.
Lemma bits12_length l : length (bits12 l) = (12 * length l)%nat.
Proof. unfold bits12. induction l as [|x l IH]; [reflexivity|]. cbn [flat_map length]. rewrite app_length, IH. unfold bitsz. rewrite bitsn_length. change (Z.to_nat 12) with 12%nat. lia. Qed.
Lemma bits8_length l : length (bits8 l) = (8 * length l)%nat.
Proof. unfold bits8. induction l as [|x l IH]; [reflexivity|]. cbn [flat_map length]. rewrite app_length, IH. unfold bitsz. rewrite bitsn_length. change (Z.to_nat 8) with 8%nat. lia. Qed.
Lemma bits8_firstn n l : firstn (8 * n) (bits8 l) = bits8 (firstn n l).
Proof.
  revert n. induction l as [|x l IH]; intros n; [rewrite !firstn_nil; reflexivity|]. destruct n; [reflexivity|]. cbn [firstn]. unfold bits8 in *. cbn [flat_map].
  rewrite <- IH. replace (8 * S n)%nat with (length (bitsz 8 x) + 8 * n)%nat by (unfold bitsz; rewrite bitsn_length; change (Z.to_nat 8) with 8%nat; lia). apply firstn_app_2.
Qed.

Lemma first_frame_bits px more rest file n : bits12 (px ++ more) ++ rest = bits8 file -> length px = (2 * n)%nat -> bits12 px = bits8 (firstn (3 * n) file).
Proof.
  intros E L. rewrite bits12_app, <- app_assoc in E. apply prefix_firstn in E. rewrite E at 1. rewrite bits12_length, L.
  replace (12 * (2 * n))%nat with (8 * (3 * n))%nat by lia. apply bits8_firstn.
Qed.
Lemma bits8_skipn n l : skipn (8 * n) (bits8 l) = bits8 (skipn n l).
Proof.
  revert n. induction l as [|x l IH]; intros n; [rewrite !skipn_nil; reflexivity|]. destruct n; [reflexivity|]. cbn [skipn]. unfold bits8 in *. cbn [flat_map].
  rewrite <- IH. replace (8 * S n)%nat with (length (bitsz 8 x) + 8 * n)%nat by (unfold bitsz; rewrite bitsn_length; change (Z.to_nat 8) with 8%nat; lia).
  rewrite skipn_app. rewrite skipn_all2 by lia. cbn [app]. f_equal. lia.
Qed.
Lemma skipn_plus (A : Type) (l : list A) : forall a b, skipn a (skipn b l) = skipn (b + a) l.
Proof. induction l as [|x l IH]; intros a b; [rewrite !skipn_nil; reflexivity|]. destruct b; [reflexivity|]. cbn [skipn Nat.add]. apply IH. Qed.

Lemma frames_bits n : forall k log A O file rest,
  (forall j Aj Oj, (j <= k)%nat -> nth_error log j = Some (Aj, Oj) -> length (concat Aj) = (2 * n)%nat) ->
  nth_error log k = Some (A, O) -> bits12 (samples log) ++ rest = bits8 file ->
  bits12 (concat A) = bits8 (firstn (3 * n) (skipn (k * (3 * n)) file)).
Proof.
  induction k as [|k IH]; intros log A O file rest HL HN HE; destruct log as [|[A0 O0] log]; try discriminate.
  - cbn [nth_error] in HN. injection HN as -> ->. cbn [Nat.mul skipn]. apply first_frame_bits with (more := samples log) (rest := rest); [exact HE|]. apply (HL 0%nat A O); [lia|reflexivity].
  - cbn [nth_error] in HN. assert (L0 : length (concat A0) = (2 * n)%nat) by (apply (HL 0%nat A0 O0); [lia|reflexivity]).
    unfold samples in HE. cbn [flat_map fst] in HE. rewrite bits12_app, <- app_assoc in HE.
    rewrite (IH log A O (skipn (3 * n) file) rest).
    + rewrite skipn_plus. f_equal.
    + intros j Aj Oj Hj Hn. apply (HL (S j) Aj Oj); [lia|exact Hn].
    + exact HN.
    + rewrite <- bits8_skipn, <- HE. rewrite skipn_app, bits12_length, L0. rewrite skipn_all2 by (rewrite bits12_length; lia).
      replace (8 * (3 * n) - 12 * (2 * n))%nat with 0%nat by lia. reflexivity.
Qed.

Definition frame_bytes : nat := Z.to_nat (4096 * 3072 * 12 / 8).
(* the frames up to number k are finished and not cut short *)
Definition complete_frames (log : list (list (list Z) * list (Z * bool))) (k : nat) : Prop :=
  (S k < length log)%nat /\ forall j A O, (j <= k)%nat -> nth_error log j = Some (A, O) -> snd (deframe (map fst O)) <> Some true.
Definition offered (wire : list (bool * Z * bool)) : list Z := taken wire ++ match pending None wire with Some w => [w] | None => [] end.

Lemma file_frames (unpack : Z -> list Z) words file log held k A O :
  (forall j A O, finished log j A O -> lossless_or_flagged A O) ->
  bits12 (flat_map unpack words) = bits8 file ->
  (exists more, samples log ++ held ++ more = flat_map unpack words) ->
  complete_frames log k -> nth_error log k = Some (A, O) ->
  exists px, receive (std_table 12) 12 4096 3072 (map fst O) = Some px /\ bits12 px = bits8 (firstn frame_bytes (skipn (k * frame_bytes) file)).
Proof.
  intros HL HB [more HM] [K1 K2] HN.
  assert (X : forall j Aj Oj, (j <= k)%nat -> nth_error log j = Some (Aj, Oj) -> len (concat Aj) = 4096 * 3072 /\ receive (std_table 12) 12 4096 3072 (map fst Oj) = Some (concat Aj)).
  { intros j Aj Oj Hj Hn. destruct (HL j Aj Oj) as [(_ & Y1 & Y2)|Y]; [split; [exact Hn|lia]|auto|]. exfalso. apply (K2 j Aj Oj Hj Hn Y). }
  destruct (X k A O ltac:(lia) HN) as [X1 X2]. exists (concat A). split; [exact X2|].
  change frame_bytes with (Z.to_nat (3 * 6291456)). rewrite Z2Nat.inj_mul by lia. change (Z.to_nat 3) with 3%nat.
  apply (frames_bits (Z.to_nat 6291456) k log A O file (bits12 (held ++ more))).
  - intros j Aj Oj Hj Hn. destruct (X j Aj Oj Hj Hn) as [Y _]. unfold len in Y. lia.
  - exact HN.
  - rewrite <- HB, <- HM, (bits12_app (samples log)). reflexivity.
Qed.

(* C51.  From the RAW12 file to the receiver.  The DMA sends the words the test program made of the
   file; sink and source stall as they like.  As long as no frame was flagged as cut short, what
   is received of frame number k is, as a bit string, the k-th 4096 x 3072 x 12 bits of the file. *)
Theorem C51_file64 : forall (l : list ts_in) i3 file, is_reset beta_cfg i3 -> Forall ts64 l ->
  let bt := bt_reset_with i3 in let wire := t64_wire s24_init bt rf_init l in
  let log := bt_log beta_cfg M12 [] [] bt (bt_rf_ins rf_init (t64_sched s24_init bt rf_init l)) in
  stream_ok None wire ->
  Forall byte file -> (exists n, length file = 6 * n)%nat -> (exists rest, offered wire ++ rest = raw_words64 file) ->
  forall k A O, complete_frames log k -> nth_error log k = Some (A, O) ->
  exists px, receive (std_table 12) 12 4096 3072 (map fst O) = Some px /\ bits12 px = bits8 (firstn frame_bytes (skipn (k * frame_bytes) file)).
Proof.
  intros l i3 file Hi HF bt wire log HS HB HL6 [rest HR] k A O HC HN.
  destruct (C51_stream64 l i3 Hi HF HS) as [(now & held & E & _ & N) HLF]. fold bt wire log in E, N, HLF.
  apply (file_frames unpack64 (raw_words64 file) file log held k A O); auto.
  - apply C51_packing64; assumption.
  - rewrite <- HR. unfold offered. destruct N as [->|(w & -> & N)].
    + rewrite app_nil_r in E. eexists. rewrite app_assoc, <- E, <- app_assoc, flat_map_app. reflexivity.
    + rewrite N. exists (flat_map unpack64 rest). rewrite app_assoc, <- E. symmetry. apply flat_map_app.
Qed.
Theorem C51_file32 : forall (l : list ts_in) i3 file, is_reset beta_cfg i3 ->
  let bt := bt_reset_with i3 in let wire := t32_wire bt rf_init l in
  let log := bt_log beta_cfg M12 [] [] bt (bt_rf_ins rf_init (t32_sched l)) in
  Forall byte file -> (exists n, length file = 3 * n)%nat -> (exists rest, offered wire ++ rest = raw_words32 file) ->
  forall k A O, complete_frames log k -> nth_error log k = Some (A, O) ->
  exists px, receive (std_table 12) 12 4096 3072 (map fst O) = Some px /\ bits12 px = bits8 (firstn frame_bytes (skipn (k * frame_bytes) file)).
Proof.
  intros l i3 file Hi bt wire log HB HL3 [rest HR] k A O HC HN.
  destruct (C51_stream32 l i3 Hi) as [E HLF]. fold bt wire log in E, HLF.
  apply (file_frames unpack32 (raw_words32 file) file log [] k A O); auto.
  - apply C51_packing32; assumption.
  - rewrite <- HR. unfold offered. rewrite !flat_map_app, <- E. eexists. cbn [app]. rewrite <- app_assoc. reflexivity.
Qed.
(* The two words of a file are the same bytes in both packings; the core with the 64-bit stream fed from power-on. *)
Example C51_example : let file := [0x12; 0x34; 0x56; 0x78; 0x9a; 0xbc; 0xde; 0xf0; 0x11; 0x22; 0x33; 0x44] in
  raw_words64 file = [0x123456789abc0000; 0xdef0112233440000] /\ raw_words32 file = [0x12345600; 0x789abc00; 0xdef01100; 0x22334400] /\
  let ins := repeat {| ts_valid := true; ts_data := 0x123456789abc0000; ts_mready := true |} 2 ++ repeat {| ts_valid := true; ts_data := 0xdef0112233440000; ts_mready := false |} 40 in
  let bt := bt_reset_with (i3_init beta_cfg) in
  let wire := t64_wire s24_init bt rf_init ins in
  stream_ok None wire /\ firstn 2 (taken wire) = raw_words64 file /\
  firstn 6 (samples (bt_log beta_cfg M12 [] [] bt (bt_rf_ins rf_init (t64_sched s24_init bt rf_init ins)))) = [0x123; 0x456; 0x789; 0xabc; 0xdef; 0x011].
Proof. vm_compute. repeat split. Qed.
