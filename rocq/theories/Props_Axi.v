(* C32-C35: core_axi_lite as a register bank on the bus. *)
From Verif Require Import Bits M_Encode M_AxiLite Spec_Axi P_AxiLite.
Ltac Zify.zify_post_hook ::= idtac.

Definition no_rst (l : list (ax_in * list Z * bool)) : Prop := Forall (fun x => snd x = false) l.
Definition bank0 (bd : Z) : bank := {| k_hw := 0; k_allowed := 0; k_mem := init_huff_table bd |}.

Lemma bank0_ok bd : 2 <= bd <= 16 -> bank_ok bd (bank0 bd).
Proof.
  intros Hb. assert (K : forallb (fun bd => (Nat.eqb (length (init_huff_table bd)) (Z.to_nat (bd + 1))) && forallb (fun x => (0 <=? x) && (x <? 2 ^ (bd + 21))) (init_huff_table bd))
     (map Z.of_nat (seq 2 15)) = true) by (vm_compute; reflexivity).
  rewrite forallb_forall in K. specialize (K bd). rewrite in_map_iff in K.
  assert (X : exists x, Z.of_nat x = bd /\ In x (seq 2 15)) by (exists (Z.to_nat bd); rewrite in_seq; lia). specialize (K X).
  apply andb_prop in K. destruct K as [K1 K2]. apply Nat.eqb_eq in K1. unfold bank_ok, bank0. cbn [k_hw k_allowed k_mem].
  split; [lia|]. split; [lia|]. split; [exact K1|]. apply Forall_forall. intros x Hx. rewrite forallb_forall in K2. specialize (K2 x Hx). lia.
Qed.

Lemma al_inv_init bd dbg sn : 2 <= bd <= 16 -> al_inv bd dbg sn ms_init (bank0 bd) (al_init bd).
Proof. intros Hb. unfold al_inv. cbn [al_fsm_st al_init]. split; [reflexivity|]. left. repeat split. Qed.

Lemma explained_app {B} rd wr : forall l1 l2 (a b c : B), explained rd wr a l1 b -> explained rd wr b l2 c -> explained rd wr a (l1 ++ l2) c.
Proof.
  induction l1 as [|[x y z|x y z w] l1 IH]; intros l2 a b c H1 H2; cbn [explained app] in *; [subst; exact H2| |]; destruct H1 as [H0 H1]; split; eauto.
Qed.

Lemma al_run_inv bd dbg (sn : list Z -> Prop) : 2 <= bd <= 16 -> forall l m B s, Forall (fun x => sn (snd (fst x))) l -> no_rst l -> bank_ok bd B -> al_inv bd dbg sn m B s -> m_all_ok m (al_trace bd dbg s l) ->
  exists B', explained (bank_rd bd dbg sn) (bank_wr bd dbg) B (m_log m (al_trace bd dbg s l)) B' /\ bank_ok bd B' /\
    al_inv bd dbg sn (m_run m (al_trace bd dbg s l)) B' (al_run bd dbg s l) /\ m_all_sane m (al_trace bd dbg s l).
Proof.
  intros Hb. induction l as [|[[i dr] rst] l IH]; intros m B s Hsn Hn HB I Hok; cbn [al_trace al_run m_run m_log m_all_ok m_all_sane] in *.
  - exists B. repeat split; auto; try apply HB.
  - apply Forall_cons_iff in Hn. destruct Hn as [Hr Hn]. cbn [snd] in Hr. subst rst. destruct Hok as [O1 O2].
    apply Forall_cons_iff in Hsn. destruct Hsn as [Hs1 Hsn]. cbn [fst snd] in Hs1.
    destruct (al_inv_step bd dbg sn m B s i dr Hs1 Hb HB I O1) as (B1 & X1 & X2 & X3 & X4).
    destruct (IH _ _ _ Hsn Hn X2 X3 O2) as (B2 & Y1 & Y2 & Y3 & Y4). exists B2. split; [eapply explained_app; eauto|]. auto.
Qed.

Lemma al_inv_idle_write bd dbg sn m B s : al_inv bd dbg sn m B s -> m_aw m = PNot -> al_bank bd s = B /\ al_wp_en s = false.
Proof.
  intros I Ha. unfold al_inv in I. destruct (al_fsm_st s).
  - destruct I as (Hw & [I|[I|I]]); [tauto|tauto|]. destruct I as (_ & _ & a & d & st & X & _). congruence.
  - tauto. - tauto. - tauto. - tauto.
  - destruct I as (_ & _ & _ & _ & _ & a & X). congruence.
  - destruct I as (_ & _ & _ & _ & _ & a & X & _). congruence.
  - destruct I as (_ & _ & _ & _ & _ & a & X & _). congruence.
  - destruct I as (_ & _ & _ & _ & _ & a & X & _). congruence.
  - destruct I as (w & a & d & st & _ & _ & X & _). congruence.
Qed.

(* the debug counters were dr in some cycle of the run l *)
Definition counters_of (l : list (ax_in * list Z * bool)) (dr : list Z) : Prop := exists i rst, In (i, dr, rst) l.
Lemma counters_of_all l : Forall (fun x => counters_of l (snd (fst x))) l.
Proof. apply Forall_forall. intros [[i dr] rst] Hx. exists i, rst. exact Hx. Qed.

(* C32.  From reset, for every master that holds its signals until answered (reads and writes may
   overlap, with any wait states), any debug counters, and no auto reset: the completed
   transactions, in the order of their completion, are exactly what a register bank would answer
   (every read returns the content left by the writes completed before it,
   or, for a debug counter, a value that counter had during the run); the slave never answers
   what was not asked; and whenever no write address is pending, the height, width and
   allowed-cycles outputs and the Huffman memory are those of the bank. *)
Theorem C32_sequential : forall bd dbg l, 2 <= bd <= 16 -> no_rst l ->
  let tr := al_trace bd dbg (al_init bd) l in
  m_all_ok ms_init tr ->
  m_all_sane ms_init tr /\
  exists B, explained (bank_rd bd dbg (counters_of l)) (bank_wr bd dbg) (bank0 bd) (m_log ms_init tr) B /\
    let s := al_run bd dbg (al_init bd) l in
    (m_aw (m_run ms_init tr) = PNot ->
       al_height s = k_hw B mod 2 ^ 16 /\ al_width s = k_hw B / 2 ^ 16 /\ al_allowed s = k_allowed B /\ al_mem s = k_mem B).
Proof.
  intros bd dbg l Hb Hn tr Hok. destruct (al_run_inv bd dbg (counters_of l) Hb l ms_init (bank0 bd) (al_init bd) (counters_of_all l) Hn (bank0_ok bd Hb) (al_inv_init bd dbg _ Hb) Hok) as (B & X1 & X2 & X3 & X4).
  split; [exact X4|]. exists B. split; [exact X1|]. cbv zeta. intros Ha. destruct (al_inv_idle_write _ _ _ _ _ _ X3 Ha) as [K1 K2].
  destruct X2 as (Hh & _). rewrite <- K1 in Hh |- *. unfold al_bank in *. rewrite K2. cbn [k_hw k_allowed k_mem] in *. unfold al_height, al_width, slice.
  change (2 ^ 0) with 1. rewrite Z.div_1_r. change (16 - 0) with 16. change (32 - 16) with 16. repeat split.
  apply Z.mod_small. split; [apply Z.div_pos; [lia|reflexivity]|]. apply Z.div_lt_upper_bound; [reflexivity|]. change (2 ^ 16 * 2 ^ 16) with (2 ^ 32). lia.
Qed.

(* ---------- what the bank's answers mean ---------- *)

Lemma testbit_slice lo hi x j : 0 <= lo -> lo <= hi -> 0 <= j -> Z.testbit (slice lo hi x) j = if j <? hi - lo then Z.testbit x (j + lo) else false.
Proof.
  intros. unfold slice. rewrite <- Z.shiftr_div_pow2, <- Z.land_ones, Z.land_spec, Z.shiftr_spec, Z.testbit_ones_nonneg by lia.
  destruct (j <? hi - lo); [rewrite andb_true_r|rewrite andb_false_r]; reflexivity.
Qed.
Lemma add_lor a b n : 0 <= n -> 0 <= a < 2 ^ n -> a + b * 2 ^ n = Z.lor a (b * 2 ^ n).
Proof. intros Hn Ha. rewrite Z.lor_comm, lor_add by lia. lia. Qed.

Lemma al_merge_bits st old d j : 0 <= j -> Z.testbit (al_merge st old d) j = if j <? 32 then (if Z.testbit st (j / 8) then Z.testbit d j else Z.testbit old j) else false.
Proof.
  intros Hj. set (b i := if Z.testbit st i then slice (8 * i) (8 * i + 8) d else slice (8 * i) (8 * i + 8) old).
  assert (Hb : forall i, 0 <= i -> 0 <= b i < 2 ^ 8).
  { intros i Hi. unfold b. pose proof (slice_range (8 * i) (8 * i + 8) d ltac:(lia)). pose proof (slice_range (8 * i) (8 * i + 8) old ltac:(lia)).
    replace (8 * i + 8 - 8 * i) with 8 in * by lia. destruct (Z.testbit st i); assumption. }
  assert (E : al_merge st old d = Z.lor (b 0) (Z.lor (b 1 * 2 ^ 8) (Z.lor (b 2 * 2 ^ 16) (b 3 * 2 ^ 24)))).
  { pose proof (Hb 0 ltac:(lia)). pose proof (Hb 1 ltac:(lia)). pose proof (Hb 2 ltac:(lia)). pose proof (Hb 3 ltac:(lia)). change (2 ^ 8) with 256 in *.
    rewrite <- (add_lor (b 2 * 2 ^ 16) (b 3) 24) by (change (2 ^ 16) with 65536; change (2 ^ 24) with 16777216; lia).
    replace (b 2 * 2 ^ 16 + b 3 * 2 ^ 24) with ((b 2 + b 3 * 256) * 2 ^ 16) by (change (2 ^ 16) with 65536; change (2 ^ 24) with 16777216; lia).
    change 256 with (2 ^ 8) at 1. rewrite <- (add_lor (b 1 * 2 ^ 8) _ 16) by (change (2 ^ 8) with 256; change (2 ^ 16) with 65536; lia).
    replace (b 1 * 2 ^ 8 + (b 2 + b 3 * 256) * 2 ^ 16) with ((b 1 + (b 2 + b 3 * 256) * 256) * 2 ^ 8) by (change (2 ^ 16) with 65536; change (2 ^ 8) with 256; lia).
    rewrite <- add_lor by (change (2 ^ 8) with 256; lia). unfold al_merge, al_byte. fold (b 0) (b 1) (b 2) (b 3). unfold b.
    change (2 ^ (8 * 0)) with 1. change (2 ^ (8 * 1)) with 256. change (2 ^ (8 * 2)) with 65536. change (2 ^ (8 * 3)) with 16777216. change (2 ^ 8) with 256. lia. }
  rewrite E, !Z.lor_spec, !Z.mul_pow2_bits by lia.
  assert (Bt : forall i k, 0 <= i -> Z.testbit (b i) k = if (0 <=? k) && (k <? 8) then (if Z.testbit st i then Z.testbit d (k + 8 * i) else Z.testbit old (k + 8 * i)) else false).
  { intros i k Hi. destruct (0 <=? k) eqn:E0; [|cbn [andb]; apply Z.testbit_neg_r; lia]. cbn [andb]. unfold b.
    destruct (Z.testbit st i); rewrite testbit_slice by lia; replace (8 * i + 8 - 8 * i) with 8 by lia; reflexivity. }
  rewrite !Bt by lia.
  assert (Hd : j / 8 = 0 /\ 0 <= j < 8 \/ j / 8 = 1 /\ 8 <= j < 16 \/ j / 8 = 2 /\ 16 <= j < 24 \/ j / 8 = 3 /\ 24 <= j < 32 \/ 32 <= j).
  { pose proof (Z.div_mod j 8 ltac:(lia)). pose proof (Z.mod_pos_bound j 8 ltac:(lia)). lia. }
  destruct Hd as [[-> H]|[[-> H]|[[-> H]|[[-> H]|H]]]].
  - replace (0 <=? j) with true by lia. replace (j <? 8) with true by lia. replace (0 <=? j - 8) with false by lia. replace (0 <=? j - 16) with false by lia. replace (0 <=? j - 24) with false by lia.
    replace (j <? 32) with true by lia. cbn [andb]. rewrite !orb_false_r. replace (j + 8 * 0) with j by lia. reflexivity.
  - replace (j <? 8) with false by lia. replace (0 <=? j - 8) with true by lia. replace (j - 8 <? 8) with true by lia. replace (0 <=? j - 16) with false by lia. replace (0 <=? j - 24) with false by lia.
    replace (j <? 32) with true by lia. rewrite andb_false_r. cbn [andb orb]. rewrite !orb_false_r. replace (j - 8 + 8 * 1) with j by lia. reflexivity.
  - replace (j <? 8) with false by lia. replace (j - 8 <? 8) with false by lia. replace (0 <=? j - 16) with true by lia. replace (j - 16 <? 8) with true by lia. replace (0 <=? j - 24) with false by lia.
    replace (j <? 32) with true by lia. rewrite !andb_false_r. cbn [andb orb]. rewrite !orb_false_r. replace (j - 16 + 8 * 2) with j by lia. reflexivity.
  - replace (j <? 8) with false by lia. replace (j - 8 <? 8) with false by lia. replace (j - 16 <? 8) with false by lia. replace (0 <=? j - 24) with true by lia. replace (j - 24 <? 8) with true by lia.
    replace (j <? 32) with true by lia. rewrite !andb_false_r. cbn [andb orb]. replace (j - 24 + 8 * 3) with j by lia. reflexivity.
  - replace (j <? 8) with false by lia. replace (j - 8 <? 8) with false by lia. replace (j - 16 <? 8) with false by lia. replace (j - 24 <? 8) with false by lia.
    replace (j <? 32) with false by lia. rewrite !andb_false_r. reflexivity.
Qed.

Lemma al_merge_strobed st old d : strobed st old d (al_merge st old d).
Proof. split; [apply al_merge_range|]. intros j Hj. rewrite al_merge_bits by lia. replace (j <? 32) with true by lia. reflexivity. Qed.

(* C32.  A write to the height/width word changes exactly its strobed bytes and nothing else; a
   write to the allowed-cycles word likewise, keeping 24 bits. *)
Theorem C32_write_effect : forall bd dbg b a d st,
  let b' := fst (bank_wr bd dbg b a d st) in
  (decode bd dbg a = T_hw -> strobed st (k_hw b) d (k_hw b') /\ k_allowed b' = k_allowed b /\ k_mem b' = k_mem b) /\
  (decode bd dbg a = T_allowed -> exists v, strobed st (k_allowed b) d v /\ k_allowed b' = v mod 2 ^ 24 /\ k_hw b' = k_hw b /\ k_mem b' = k_mem b) /\
  (forall k hi, decode bd dbg a = T_huff k hi -> k_hw b' = k_hw b /\ k_allowed b' = k_allowed b).
Proof.
  intros bd dbg b a d st b'. unfold b', bank_wr. split; [|split].
  - intros ->. cbn. split; [apply al_merge_strobed|auto].
  - intros ->. cbn. exists (al_merge st (k_allowed b) d). split; [apply al_merge_strobed|auto].
  - intros k hi ->. cbn. auto.
Qed.

(* the documented addresses, for a base address that is a multiple of 64 KiB *)
Theorem C32_addresses : forall bd dbg base k, 2 <= bd <= 16 -> base mod 65536 = 0 ->
  decode bd dbg (base + 4 * 0x800) = T_hw /\ decode bd dbg (base + 4 * 0x801) = T_allowed /\
  (0 <= k <= bd -> decode bd dbg (base + 4 * (0x400 + 2 * k)) = T_huff k false /\ decode bd dbg (base + 4 * (0x400 + 2 * k + 1)) = T_huff k true) /\
  (0 <= k < 8 -> decode bd true (base + 4 * (0x1000 + k)) = T_debug k /\ decode bd false (base + 4 * (0x1000 + k)) = T_none) /\
  (0 <= k < 0x400 -> decode bd dbg (base + 4 * k) = T_none).
Proof.
  intros bd dbg base k Hb Hbase. pose proof (Z.div_mod base 65536 ltac:(lia)) as Hd. rewrite Hbase, Z.add_0_r in Hd. set (q := base / 65536) in *.
  assert (K : forall x, 0 <= x < 16384 -> (base + 4 * x) / 4 = x + q * 2 ^ 14).
  { intros x Hx. rewrite Hd. replace (65536 * q + 4 * x) with ((x + q * 2 ^ 14) * 4) by (change (2 ^ 14) with 16384; lia). apply Z.div_mul. lia. }
  assert (T : forall x n, 0 <= x < 16384 -> 0 <= n < 14 -> Z.testbit (x + q * 2 ^ 14) n = Z.testbit x n).
  { intros x n Hx Hn. rewrite add_lor by (change (2 ^ 14) with 16384; lia). rewrite Z.lor_spec, Z.mul_pow2_bits_low by lia. apply orb_false_r. }
  assert (M : forall x, (x + q * 2 ^ 14) mod 64 = x mod 64) by (intros; change (2 ^ 14) with (256 * 64); rewrite Z.mul_assoc; apply Z.mod_add; lia).
  assert (M8 : forall x, (x + q * 2 ^ 14) mod 8 = x mod 8) by (intros; change (2 ^ 14) with (2048 * 8); rewrite Z.mul_assoc; apply Z.mod_add; lia).
  assert (O : forall x, Z.odd (x + q * 2 ^ 14) = Z.odd x) by (intros; rewrite Z.odd_add, Z.odd_mul; cbn [Z.odd Z.pow Z.pow_pos Pos.iter Z.mul Pos.mul]; rewrite andb_false_r; apply xorb_false_r).
  assert (D : forall x, 0 <= x < 16384 -> decode bd dbg (base + 4 * x) =
    if Z.testbit x 10 && (x mod 64 <? 2 * (bd + 1)) then T_huff (x mod 64 / 2) (Z.odd x) else if Z.testbit x 11 then (if Z.odd x then T_allowed else T_hw)
    else if dbg && Z.testbit x 12 then T_debug (x mod 8) else T_none).
  { intros x Hx. unfold decode. rewrite K, !T, M, M8, O by lia. reflexivity. }
  assert (TB : forall n x, 0 <= n -> 2 ^ n <= x < 2 ^ (n + 1) -> Z.testbit x n = true).
  { intros n x Hn Hx. rewrite Z.testbit_true by lia. replace (x / 2 ^ n) with 1; [reflexivity|]. rewrite pow2_S in Hx by lia.
    pose proof (pow2_pos n Hn). apply Z.div_unique with (x - 2 ^ n); lia. }
  assert (TS : forall n x, 0 <= n -> 0 <= x < 2 ^ n -> Z.testbit x n = false).
  { intros n x Hn Hx. rewrite Z.testbit_false by lia. rewrite Z.div_small by lia. reflexivity. }
  assert (TA : forall n x c, 0 <= n -> 0 <= x < 2 ^ n -> Z.testbit (c * 2 ^ (n + 1) + x) n = false).
  { intros n x c Hn Hx. rewrite Z.testbit_false by lia. rewrite pow2_S by lia. pose proof (pow2_pos n Hn). replace (c * (2 * 2 ^ n) + x) with (x + (2 * c) * 2 ^ n) by ring.
    rewrite Z.div_add, Z.div_small by lia. rewrite Z.add_0_l, Z.mul_comm. apply Z.mod_mul. lia. }
  split; [rewrite D by lia; reflexivity|]. split; [rewrite D by lia; reflexivity|]. split; [|split].
  - intros Hk. rewrite !D by lia.
    assert (X : forall y, 0 <= y < 64 -> (0x400 + y) mod 64 = y). { intros y Hy. replace (0x400 + y) with (y + 16 * 64) by lia. rewrite Z.mod_add, Z.mod_small by lia. reflexivity. }
    replace (0x400 + 2 * k + 1) with (0x400 + (2 * k + 1)) by lia. rewrite !X by lia.
    rewrite !(TB 10) by (change (2 ^ (10 + 1)) with 2048; change (2 ^ 10) with 1024; lia). replace (2 * k <? 2 * (bd + 1)) with true by lia. replace (2 * k + 1 <? 2 * (bd + 1)) with true by lia. cbn [andb].
    rewrite !Z.odd_add, !Z.odd_mul. cbn [Z.odd xorb andb]. split; f_equal.
    + rewrite Z.mul_comm. apply Z.div_mul. lia.
    + symmetry. apply Z.div_unique with 1; lia.
  - intros Hk.
    assert (E10 : Z.testbit (0x1000 + k) 10 = false) by (change 0x1000 with (2 * 2 ^ (10 + 1)); apply TA; change (2 ^ 10) with 1024; lia).
    assert (E11 : Z.testbit (0x1000 + k) 11 = false) by (change 0x1000 with (1 * 2 ^ (11 + 1)); apply TA; change (2 ^ 11) with 2048; lia).
    assert (E12 : Z.testbit (0x1000 + k) 12 = true) by (apply TB; change (2 ^ (12 + 1)) with 8192; change (2 ^ 12) with 4096; lia).
    assert (E8 : (0x1000 + k) mod 8 = k) by (replace (0x1000 + k) with (k + 512 * 8) by lia; rewrite Z.mod_add, Z.mod_small by lia; reflexivity).
    unfold decode. rewrite !K, !T, E10, E11, E12, M8, E8 by lia. split; reflexivity.
  - intros Hk. rewrite D by lia. rewrite (TS 10), (TS 11), (TS 12) by (try (change (2 ^ 10) with 1024); try (change (2 ^ 11) with 2048); try (change (2 ^ 12) with 4096); lia).
    cbn [andb]. rewrite andb_false_r. reflexivity.
Qed.

(* ---------- Huffman entries ---------- *)

Lemma entry_wr bd dbg b a d st k hi j : decode bd dbg a = T_huff k hi -> 0 <= j ->
  length (k_mem b) = Z.to_nat (bd + 1) -> 2 <= bd ->
  entry (fst (bank_wr bd dbg b a d st)) j = if j =? k then huff_after bd (entry b k) hi d st else entry b j.
Proof.
  intros Hd Hj Hl Hb. assert (Hk : 0 <= k < bd + 1).
  { unfold decode in Hd. destruct (Z.testbit (a / 4) 10 && ((a / 4) mod 64 <? 2 * (bd + 1))) eqn:E; [|destruct (Z.testbit (a / 4) 11); [destruct (Z.odd (a / 4)); discriminate|destruct (dbg && Z.testbit (a / 4) 12); discriminate]].
    injection Hd as <- _. apply andb_prop in E. destruct E as [_ E]. pose proof (Z.mod_pos_bound (a / 4) 64 ltac:(lia)).
    split; [apply Z.div_pos; lia|apply Z.div_lt_upper_bound; lia]. }
  unfold bank_wr. rewrite Hd. cbn [fst]. unfold entry at 1. cbn [k_mem]. destruct (j =? k) eqn:E.
  - apply Z.eqb_eq in E. subst j. rewrite nth_set_nth_same by lia. reflexivity.
  - apply nth_set_nth_other. lia.
Qed.

(* C33.  A completed write to the low word of Huffman entry k: bits 0..31 are the strobed merge with
   the data (entries have bd+21 bits), all bits from 32 on become 0; other entries are unchanged. *)
Theorem C33_low_word : forall bd dbg b a d st k, 2 <= bd <= 16 -> bank_ok bd b ->
  decode bd dbg a = T_huff k false ->
  let b' := fst (bank_wr bd dbg b a d st) in
  (forall j, j <> k -> 0 <= j -> entry b' j = entry b j) /\
  (forall n, 0 <= n < 32 -> n < bd + 21 -> Z.testbit (entry b' k) n = if Z.testbit st (n / 8) then Z.testbit d n else Z.testbit (entry b k) n) /\
  (forall n, 32 <= n -> Z.testbit (entry b' k) n = false).
Proof.
  intros bd dbg b a d st k Hb HB Hd b'. assert (Hl := HB). destruct Hl as (_ & _ & Hl & _).
  assert (E : forall j, 0 <= j -> entry b' j = if j =? k then huff_after bd (entry b k) false d st else entry b j) by (intros; apply entry_wr; auto; lia).
  assert (Hk : 0 <= k). { unfold decode in Hd. destruct (_ && _) in Hd; [injection Hd as <- _; apply Z.div_pos; [apply Z.mod_pos_bound; lia|lia]|]. destruct (Z.testbit _ 11) in Hd; [destruct (Z.odd _) in Hd; discriminate|]. destruct (_ && _) in Hd; discriminate. }
  split; [intros j Hj Hj0; rewrite E by assumption; replace (j =? k) with false by lia; reflexivity|].
  rewrite (E k Hk), Z.eqb_refl. unfold huff_after. split; intros n Hn.
  - intros Hn2. rewrite Z.mod_pow2_bits_low by lia. rewrite al_merge_bits by lia. replace (n <? 32) with true by lia.
    destruct (Z.testbit st (n / 8)); [reflexivity|]. apply Z.mod_pow2_bits_low. lia.
  - destruct (Z_lt_dec n (bd + 21)) as [L|L]; [rewrite Z.mod_pow2_bits_low by lia|apply Z.mod_pow2_bits_high; lia].
    rewrite al_merge_bits by lia. replace (n <? 32) with false by lia. reflexivity.
Qed.

(* C33.  A completed write to the high word writes no data at all: the low word and the strobed
   bytes of the high word become 0, whatever the data. *)
Theorem C33_high_word : forall bd dbg b a d st k, 2 <= bd <= 16 -> bank_ok bd b ->
  decode bd dbg a = T_huff k true ->
  let b' := fst (bank_wr bd dbg b a d st) in
  (forall j, j <> k -> 0 <= j -> entry b' j = entry b j) /\
  (forall n, 0 <= n < 32 -> Z.testbit (entry b' k) n = false) /\
  (forall n, 32 <= n < 64 -> Z.testbit (entry b' k) n = negb (Z.testbit st ((n - 32) / 8)) && Z.testbit (entry b k) n).
Proof.
  intros bd dbg b a d st k Hb HB Hd b'. assert (Hl := HB). destruct Hl as (_ & _ & Hl & HF).
  assert (E : forall j, 0 <= j -> entry b' j = if j =? k then huff_after bd (entry b k) true d st else entry b j) by (intros; apply entry_wr; auto; lia).
  assert (Hk : 0 <= k < bd + 1).
  { unfold decode in Hd. destruct (Z.testbit (a / 4) 10 && ((a / 4) mod 64 <? 2 * (bd + 1))) eqn:Ed; [|destruct (Z.testbit (a / 4) 11); [destruct (Z.odd (a / 4)); discriminate|destruct (dbg && Z.testbit (a / 4) 12); discriminate]].
    injection Hd as <- _. apply andb_prop in Ed. destruct Ed as [_ Ed]. pose proof (Z.mod_pos_bound (a / 4) 64 ltac:(lia)).
    split; [apply Z.div_pos; lia|apply Z.div_lt_upper_bound; lia]. }
  split; [intros j Hj Hj0; rewrite E by assumption; replace (j =? k) with false by lia; reflexivity|].
  rewrite (E k) by lia. rewrite Z.eqb_refl. unfold huff_after.
  assert (Hx : 0 <= entry b k < 2 ^ (bd + 21)) by (unfold entry; rewrite Forall_forall in HF; apply HF, nth_In; lia).
  split; intros n Hn.
  - destruct (Z_lt_dec n (bd + 21)) as [L|L]; [rewrite Z.mod_pow2_bits_low by lia; apply Z.mul_pow2_bits_low; lia|apply Z.mod_pow2_bits_high; lia].
  - destruct (Z_lt_dec n (bd + 21)) as [L|L].
    + rewrite Z.mod_pow2_bits_low, Z.mul_pow2_bits by lia. rewrite al_merge_bits by lia. replace (n - 32 <? 32) with true by lia.
      rewrite Z.testbit_0_l. rewrite <- Z.shiftr_div_pow2, Z.shiftr_spec by lia. replace (n - 32 + 32) with n by lia. destruct (Z.testbit st ((n - 32) / 8)); reflexivity.
    + rewrite Z.mod_pow2_bits_high by lia. rewrite <- (Z.mod_small _ _ Hx), Z.mod_pow2_bits_high by lia. rewrite andb_false_r. reflexivity.
Qed.

(* C33.  No sequence of transactions ever sets a bit from 32 on of a Huffman entry: such bits can only
   be cleared.  (For 16-bit samples the whole code length field is there.) *)
Theorem C33_upper_bits_only_clear : forall bd dbg sn l b b', 2 <= bd <= 16 -> bank_ok bd b ->
  explained (bank_rd bd dbg sn) (bank_wr bd dbg) b l b' ->
  forall k n, 0 <= k -> 32 <= n -> Z.testbit (entry b' k) n = true -> Z.testbit (entry b k) n = true.
Proof.
  intros bd dbg sn l b b' Hb. revert b. induction l as [|[a v r|a d st r] l IH]; intros b HB X k n Hk Hn Ht; cbn [explained] in X.
  - subst b'. exact Ht.
  - destruct X as [_ X]. eapply IH; eauto.
  - destruct X as [_ X]. assert (HB' : bank_ok bd (fst (bank_wr bd dbg b a d st))) by (apply bank_wr_ok; [lia|exact HB]).
    specialize (IH _ HB' X k n Hk Hn Ht).
    destruct (decode bd dbg a) as [k0 hi| | | |] eqn:Ed.
    + assert (Hl := HB). destruct Hl as (_ & _ & Hl & HF). destruct hi.
      * destruct (C33_high_word bd dbg b a d st k0 Hb HB Ed) as (Q1 & Q2 & Q3). destruct (Z.eq_dec k k0) as [->|Hne]; [|rewrite Q1 in IH by assumption; exact IH].
        destruct (Z_lt_dec n 64) as [L|L]; [rewrite Q3 in IH by lia; apply andb_prop in IH; apply IH|].
        exfalso. destruct HB' as (_ & _ & Hl' & HF').
        assert (Hx : 0 <= entry (fst (bank_wr bd dbg b a d st)) k0 < 2 ^ (bd + 21)).
        { unfold entry. destruct (le_lt_dec (length (k_mem (fst (bank_wr bd dbg b a d st)))) (Z.to_nat k0)) as [Hov|Hov]; [rewrite nth_overflow by exact Hov; pose proof (pow2_pos (bd + 21) ltac:(lia)); lia|].
          rewrite Forall_forall in HF'. apply HF', nth_In. exact Hov. }
        rewrite <- (Z.mod_small _ _ Hx), Z.mod_pow2_bits_high in IH by lia. discriminate.
      * destruct (C33_low_word bd dbg b a d st k0 Hb HB Ed) as (Q1 & Q2 & Q3). destruct (Z.eq_dec k k0) as [->|Hne]; [rewrite Q3 in IH by lia; discriminate|].
        rewrite Q1 in IH by assumption. exact IH.
    + unfold bank_wr in IH. rewrite Ed in IH. exact IH.
    + unfold bank_wr in IH. rewrite Ed in IH. exact IH.
    + unfold bank_wr in IH. rewrite Ed in IH. exact IH.
    + unfold bank_wr in IH. rewrite Ed in IH. exact IH.
Qed.

(* C33.  With 16-bit samples, writing the low word of an entry erases its code length (bits 32..36),
   and it stays erased for ever: every later read of the high word returns 0. *)
Theorem C33_length_lost : forall dbg sn b a d st l b' a' v r k, bank_ok 16 b ->
  decode 16 dbg a = T_huff k false -> decode 16 dbg a' = T_huff k true ->
  explained (bank_rd 16 dbg sn) (bank_wr 16 dbg) b (Did_write a d st 0 :: l ++ [Did_read a' v r]) b' -> v = 0.
Proof.
  intros dbg sn b a d st l b' a' v r k HB Hd Hd' X. cbn [explained] in X. destruct X as [_ X].
  assert (HB' : bank_ok 16 (fst (bank_wr 16 dbg b a d st))) by (apply bank_wr_ok; [lia|exact HB]).
  assert (Y : exists b1, explained (bank_rd 16 dbg sn) (bank_wr 16 dbg) (fst (bank_wr 16 dbg b a d st)) l b1 /\ bank_rd 16 dbg sn b1 a' v r /\ bank_ok 16 b1).
  { clear - X HB'. revert X HB'. generalize (fst (bank_wr 16 dbg b a d st)) as b0. induction l as [|[x y z|x y z w] l IH]; intros b0 X HB'; cbn [explained app] in *.
    - exists b0. split; [reflexivity|]. split; [apply X|exact HB'].
    - destruct X as [X0 X]. destruct (IH _ X HB') as (b1 & Y1 & Y2 & Y3). exists b1. auto.
    - destruct X as [X0 X]. destruct (IH _ X) as (b1 & Y1 & Y2 & Y3); [apply bank_wr_ok; [lia|exact HB']|]. exists b1. auto. }
  destruct Y as (b1 & Y1 & Y2 & Y3). unfold bank_rd in Y2. rewrite Hd' in Y2. destruct Y2 as [-> _].
  assert (Hk : 0 <= k < 17).
  { unfold decode in Hd. destruct (Z.testbit (a / 4) 10 && ((a / 4) mod 64 <? 2 * (16 + 1))) eqn:Ed; [|destruct (Z.testbit (a / 4) 11); [destruct (Z.odd (a / 4)); discriminate|destruct (dbg && Z.testbit (a / 4) 12); discriminate]].
    injection Hd as <- _. apply andb_prop in Ed. destruct Ed as [_ Ed]. pose proof (Z.mod_pos_bound (a / 4) 64 ltac:(lia)).
    split; [apply Z.div_pos; lia|apply Z.div_lt_upper_bound; lia]. }
  apply Z.bits_inj'. intros n Hn. rewrite Z.testbit_0_l, <- Z.shiftr_div_pow2, Z.shiftr_spec by lia.
  destruct (Z.testbit (entry b1 k) (n + 32)) eqn:E; [|reflexivity]. exfalso.
  pose proof (C33_upper_bits_only_clear 16 dbg sn l _ _ ltac:(lia) HB' Y1 k (n + 32) ltac:(lia) ltac:(lia) E) as Z1.
  destruct (C33_low_word 16 dbg b a d st k ltac:(lia) HB Hd) as (_ & _ & Q3). rewrite Q3 in Z1 by lia. discriminate.
Qed.

(* ---------- address errors ---------- *)

Definition decoded (bd : Z) (dbg : bool) (e : event) : bool :=
  match e with Did_read a _ _ | Did_write a _ _ _ => match decode bd dbg a with T_none => false | _ => true end end.
Definition resp_of (e : event) : Z := match e with Did_read _ _ r => r | Did_write _ _ _ r => r end.

(* C34.  In every run of a compliant master, transactions that decode to nothing answer 3 and all
   others do not (0, or 2 for a write to a debug counter); and the log without the undecoded
   transactions is explained just as well, by the same final contents: they change nothing. *)
Theorem C34_errors : forall bd dbg l, 2 <= bd <= 16 -> no_rst l ->
  let tr := al_trace bd dbg (al_init bd) l in
  m_all_ok ms_init tr ->
  (forall e, In e (m_log ms_init tr) -> (resp_of e = 3 <-> decoded bd dbg e = false)) /\
  exists B, explained (bank_rd bd dbg (counters_of l)) (bank_wr bd dbg) (bank0 bd) (m_log ms_init tr) B /\
    explained (bank_rd bd dbg (counters_of l)) (bank_wr bd dbg) (bank0 bd) (filter (decoded bd dbg) (m_log ms_init tr)) B.
Proof.
  intros bd dbg l Hb Hn tr Hok. destruct (C32_sequential bd dbg l Hb Hn Hok) as (_ & B & X & _). fold tr in X.
  assert (K : forall sn log b, explained (bank_rd bd dbg sn) (bank_wr bd dbg) b log B ->
     (forall e, In e log -> (resp_of e = 3 <-> decoded bd dbg e = false)) /\ explained (bank_rd bd dbg sn) (bank_wr bd dbg) b (filter (decoded bd dbg) log) B).
  { clear. intros sn. induction log as [|[a v r|a d st r] log IH]; intros b X; cbn [explained filter] in *.
    - split; [intros e []|exact X].
    - destruct X as [X0 X]. destruct (IH b X) as [I1 I2]. split.
      + intros e [<-|He]; [|auto]. cbn [resp_of decoded]. unfold bank_rd in X0. destruct (decode bd dbg a) as [k []| | | |]; cbv beta iota in X0; try (match type of X0 with _ /\ _ => destruct X0 as [_ X0] end); rewrite X0; split; intros; try discriminate; reflexivity.
      + cbn [decoded]. destruct (decode bd dbg a) eqn:Ed; try (split; [exact X0|exact I2]). exact I2.
    - destruct X as [X0 X]. destruct (IH _ X) as [I1 I2]. split.
      + intros e [<-|He]; [|auto]. cbn [resp_of decoded]. unfold bank_wr in X0. destruct (decode bd dbg a) as [k []| | | |]; cbn [snd] in X0; rewrite <- X0; split; intros; try discriminate; reflexivity.
      + cbn [decoded]. destruct (decode bd dbg a) eqn:Ed; try (split; [exact X0|exact I2]).
        assert (Eb : fst (bank_wr bd dbg b a d st) = b) by (unfold bank_wr; rewrite Ed; reflexivity). rewrite Eb in I2. exact I2. }
  destruct (K _ _ _ X) as [K1 K2]. split; [exact K1|]. exists B. auto.
Qed.
