(* C46: the register driver on top of the core's bus interface. *)
From Verif Require Import Bits Spec M_Encode P_Encode M_AxiLite Spec_Axi P_AxiLite Props_Arith Props_Axi Props_Axi2 M_Driver.
Ltac Zify.zify_post_hook ::= idtac.

(* ---------- SPECIFICATION ---------- *)

(* the completed bus transactions evs are those of program p, which then returned a *)
Fixpoint plays {A} (base : Z) (p : prog A) (evs : list event) (a : A) : Prop :=
  match p with
  | Ret x => evs = [] /\ a = x
  | Load off k => exists v r evs', evs = Did_read (base + 4 * off) v r :: evs' /\ plays base (k v) evs' a
  | Store off d k => exists r evs', evs = Did_write (base + 4 * off) d 15 r :: evs' /\ plays base k evs' a
  end.
(* program p run on the register bank b may return a and leave the bank b'.  sn: the values the
   debug counters may have had.  Every access is answered without error (response 0). *)
Fixpoint exec {A} (bd : Z) (dbg : bool) (sn : list Z -> Prop) (base : Z) (p : prog A) (b : bank) (a : A) (b' : bank) : Prop :=
  match p with
  | Ret x => a = x /\ b' = b
  | Load off k => exists v r, bank_rd bd dbg sn b (base + 4 * off) v r /\ exec bd dbg sn base (k v) b a b'
  | Store off d k => exec bd dbg sn base k (fst (bank_wr bd dbg b (base + 4 * off) d 15)) a b'
  end.

Lemma plays_exec {A} bd dbg sn base (p : prog A) : forall evs a b b',
  plays base p evs a -> explained (bank_rd bd dbg sn) (bank_wr bd dbg) b evs b' -> exec bd dbg sn base p b a b'.
Proof.
  induction p as [x|off k IH|off v k IH]; intros evs a b b' Hp He; cbn [plays exec] in *.
  - destruct Hp as [-> ->]. cbn in He. auto.
  - destruct Hp as (v & r & evs' & -> & Hp). cbn [explained] in He. destruct He as [H1 H2]. exists v, r. split; [exact H1|]. eapply IH; eauto.
  - destruct Hp as (r & evs' & -> & Hp). cbn [explained] in He. destruct He as [H1 H2]. eapply IH; eauto.
Qed.
Lemma exec_bind {A B} bd dbg sn base (p : prog A) (f : A -> prog B) : forall b c b',
  exec bd dbg sn base (bind p f) b c b' <-> exists a b1, exec bd dbg sn base p b a b1 /\ exec bd dbg sn base (f a) b1 c b'.
Proof.
  induction p as [x|off k IH|off v k IH]; intros b c b'; cbn [bind exec].
  - split; [intros H; exists x, b; auto|]. intros (a & b1 & (-> & ->) & H). exact H.
  - split.
    + intros (v & r & H1 & H2). apply IH in H2. destruct H2 as (a & b1 & H2 & H3). exists a, b1. split; eauto.
    + intros (a & b1 & (v & r & H1 & H2) & H3). exists v, r. split; [exact H1|]. apply IH. eauto.
  - apply IH.
Qed.

(* ---------- each call, on any contents of the registers ---------- *)

Section Calls.
  Variables (bd base : Z) (dbg : bool) (sn : list Z -> Prop).
  Hypothesis Hbd : 2 <= bd <= 16.
  Hypothesis Hbase : base mod 65536 = 0.
  Notation run := (exec bd dbg sn base).

  Let Dhw : decode bd dbg (base + 4 * HW_OFFSET) = T_hw.
  Proof. apply (C32_addresses bd dbg base 0 Hbd Hbase). Qed.
  Let Dal : decode bd dbg (base + 4 * (HW_OFFSET + 1)) = T_allowed.
  Proof. apply (C32_addresses bd dbg base 0 Hbd Hbase). Qed.

  Lemma merge_full old d : 0 <= d < 2 ^ 32 -> al_merge 15 old d = d.
  Proof.
    intros Hd. apply Z.bits_inj'. intros j Hj. rewrite al_merge_bits by exact Hj.
    destruct (Z.ltb_spec j 32) as [H|H].
    - replace (Z.testbit 15 (j / 8)) with true; [reflexivity|].
      assert (H8 : j / 8 = 0 \/ j / 8 = 1 \/ j / 8 = 2 \/ j / 8 = 3).
      { assert (0 <= j / 8) by (apply Z.div_pos; lia). assert (j / 8 < 4) by (apply Z.div_lt_upper_bound; lia). lia. }
      destruct H8 as [-> | [-> | [-> | ->]]]; reflexivity.
    - symmetry. destruct (Z.eq_dec d 0) as [->|Hn]; [apply Z.testbit_0_l|]. apply Z.bits_above_log2; [lia|].
      apply Z.log2_lt_pow2; [lia|]. pose proof (pow2_le 32 j ltac:(lia)). lia.
  Qed.
  Lemma hw_split v : 0 <= v < 2 ^ 32 -> trunc 16 (Z.land v (2 ^ 16 - 1)) = v mod 2 ^ 16 /\ trunc 16 (Z.shiftr v 16) = v / 2 ^ 16.
  Proof.
    intros Hv. split.
    - change (2 ^ 16 - 1) with (Z.ones 16). rewrite Z.land_ones by lia. unfold trunc. apply Zmod_mod.
    - rewrite Z.shiftr_div_pow2 by lia. apply trunc_id. split; [apply Z.div_pos; [lia|reflexivity]|]. apply Z.div_lt_upper_bound; [reflexivity|]. exact (proj2 Hv).
  Qed.
  Lemma lor_hw w h : 0 <= w < 2 ^ 16 -> 0 <= h < 2 ^ 16 -> Z.lor (trunc 32 (Z.shiftl w 16)) h = w * 2 ^ 16 + h.
  Proof.
    intros Hw Hh. rewrite Z.shiftl_mul_pow2 by lia. rewrite trunc_id by (change (2 ^ 16) with 65536 in *; change (2 ^ 32) with 4294967296; lia).
    rewrite Z.lor_comm, <- (Props_Axi.add_lor h w 16) by lia. lia.
  Qed.
  Lemma hw_join w h : 0 <= w < 2 ^ 16 -> 0 <= h < 2 ^ 16 ->
    0 <= w * 2 ^ 16 + h < 2 ^ 32 /\ (w * 2 ^ 16 + h) mod 2 ^ 16 = h /\ (w * 2 ^ 16 + h) / 2 ^ 16 = w.
  Proof.
    intros Hw Hh. split; [change (2 ^ 16) with 65536 in *; change (2 ^ 32) with 4294967296; lia|]. split.
    - rewrite Z.add_comm, Z.mod_add by (compute; discriminate). apply Z.mod_small. exact Hh.
    - rewrite Z.add_comm, Z.div_add by (compute; discriminate). rewrite Z.div_small by exact Hh. reflexivity.
  Qed.

  (* reading *)
  Lemma x_get_height b v b' : bank_ok bd b -> run get_height b v b' <-> v = k_hw b mod 2 ^ 16 /\ b' = b.
  Proof.
    intros Hok. unfold get_height. cbn [exec]. unfold bank_rd. rewrite Dhw. destruct (hw_split (k_hw b)) as [E _]; [apply Hok|]. split.
    - intros (w & r & (-> & _) & -> & ->). auto.
    - intros (-> & ->). exists (k_hw b), 0. rewrite E. auto.
  Qed.
  Lemma x_get_width b v b' : bank_ok bd b -> run get_width b v b' <-> v = k_hw b / 2 ^ 16 /\ b' = b.
  Proof.
    intros Hok. unfold get_width. cbn [exec]. unfold bank_rd. rewrite Dhw. destruct (hw_split (k_hw b)) as [_ E]; [apply Hok|]. split.
    - intros (w & r & (-> & _) & -> & ->). auto.
    - intros (-> & ->). exists (k_hw b), 0. rewrite E. auto.
  Qed.
  Lemma x_get_allowed b v b' : run get_allowed_cycles b v b' <-> v = k_allowed b /\ b' = b.
  Proof.
    unfold get_allowed_cycles. cbn [exec]. unfold bank_rd. rewrite Dal. split.
    - intros (w & r & (-> & _) & -> & ->). auto.
    - intros (-> & ->). exists (k_allowed b), 0. auto.
  Qed.
  Lemma x_store_hw b d b' : 0 <= d < 2 ^ 32 ->
    run (Store HW_OFFSET d (Ret tt)) b tt b' <-> b' = {| k_hw := d; k_allowed := k_allowed b; k_mem := k_mem b |}.
  Proof. intros Hd. cbn [exec]. unfold bank_wr. rewrite Dhw. cbn [fst]. rewrite merge_full by exact Hd. tauto. Qed.
  Lemma x_set_height b h b' : bank_ok bd b -> 0 <= h < 2 ^ 16 ->
    run (set_height h) b tt b' <-> b' = {| k_hw := k_hw b / 2 ^ 16 * 2 ^ 16 + h; k_allowed := k_allowed b; k_mem := k_mem b |}.
  Proof.
    intros Hok Hh. assert (Hw : 0 <= k_hw b / 2 ^ 16 < 2 ^ 16).
    { destruct Hok as (H & _). split; [apply Z.div_pos; [lia|reflexivity]|]. apply Z.div_lt_upper_bound; [reflexivity|]. exact (proj2 H). }
    unfold set_height. rewrite exec_bind. split.
    - intros (w & b1 & H1 & H2). apply x_get_width in H1; [|exact Hok]. destruct H1 as [-> ->].
      rewrite lor_hw in H2 by assumption. apply x_store_hw in H2; [exact H2|]. apply hw_join; assumption.
    - intros ->. exists (k_hw b / 2 ^ 16), b. split; [apply x_get_width; auto|]. rewrite lor_hw by assumption. apply x_store_hw; [apply hw_join; assumption|reflexivity].
  Qed.
  Lemma x_set_width b w b' : bank_ok bd b -> 0 <= w < 2 ^ 16 ->
    run (set_width w) b tt b' <-> b' = {| k_hw := w * 2 ^ 16 + k_hw b mod 2 ^ 16; k_allowed := k_allowed b; k_mem := k_mem b |}.
  Proof.
    intros Hok Hw. assert (Hh : 0 <= k_hw b mod 2 ^ 16 < 2 ^ 16) by (apply Z.mod_pos_bound; reflexivity).
    unfold set_width. rewrite exec_bind. split.
    - intros (h & b1 & H1 & H2). apply x_get_height in H1; [|exact Hok]. destruct H1 as [-> ->].
      rewrite lor_hw in H2 by assumption. apply x_store_hw in H2; [exact H2|]. apply hw_join; assumption.
    - intros ->. exists (k_hw b mod 2 ^ 16), b. split; [apply x_get_height; auto|]. rewrite lor_hw by assumption. apply x_store_hw; [apply hw_join; assumption|reflexivity].
  Qed.
  Lemma x_set_allowed b n b' : 0 <= n < 2 ^ 32 ->
    run (set_allowed_cycles n) b tt b' <-> b' = {| k_hw := k_hw b; k_allowed := n mod 2 ^ 24; k_mem := k_mem b |}.
  Proof. intros Hn. unfold set_allowed_cycles. cbn [exec]. unfold bank_wr. rewrite Dal. cbn [fst]. rewrite merge_full by exact Hn. tauto. Qed.
  Lemma ok_hw b d : bank_ok bd b -> 0 <= d < 2 ^ 32 -> bank_ok bd {| k_hw := d; k_allowed := k_allowed b; k_mem := k_mem b |}.
  Proof. intros (_ & H2 & H3 & H4) Hd. repeat split; cbn; try assumption; tauto. Qed.
End Calls.

(* C46.  Getters and setters mean what they say, whatever the registers hold: get_height / get_width /
   get_allowed_cycles return the current configuration and change nothing; set_height changes the
   height only, set_width the width only, set_allowed_cycles the cycle limit only (of which the
   hardware keeps the low 24 bits).  (An iff: the call can always be carried out, and only so.) *)
Definition conf (b : bank) (w h n : Z) : Prop := k_hw b = w * 2 ^ 16 + h /\ k_allowed b = n /\ 0 <= w < 2 ^ 16 /\ 0 <= h < 2 ^ 16.
Theorem C46_calls : forall bd base dbg sn b w h n, 2 <= bd <= 16 -> base mod 65536 = 0 -> bank_ok bd b -> conf b w h n ->
  let run {A} (p : prog A) := exec bd dbg sn base p b in
  (forall v b', run get_height v b' <-> v = h /\ b' = b) /\
  (forall v b', run get_width v b' <-> v = w /\ b' = b) /\
  (forall v b', run get_allowed_cycles v b' <-> v = n /\ b' = b) /\
  (forall x b', 0 <= x < 2 ^ 16 -> run (set_height x) tt b' <-> conf b' w x n /\ k_mem b' = k_mem b) /\
  (forall x b', 0 <= x < 2 ^ 16 -> run (set_width x) tt b' <-> conf b' x h n /\ k_mem b' = k_mem b) /\
  (forall x b', 0 <= x < 2 ^ 32 -> run (set_allowed_cycles x) tt b' <-> conf b' w h (x mod 2 ^ 24) /\ k_mem b' = k_mem b).
Proof.
  intros bd base dbg sn b w h n Hb Hbase Hok (Hhw & Hal & Hw & Hh). cbv beta zeta.
  destruct (hw_join w h Hw Hh) as (Hr & Hm & Hd).
  assert (Hext : forall b' w' h' n', 0 <= w' < 2 ^ 16 -> 0 <= h' < 2 ^ 16 ->
     b' = {| k_hw := w' * 2 ^ 16 + h'; k_allowed := n'; k_mem := k_mem b |} <-> conf b' w' h' n' /\ k_mem b' = k_mem b).
  { intros b' w' h' n' H1 H2. split; [intros ->; repeat split; cbn; try lia|]. intros ((E1 & E2 & _) & E3). destruct b' as [x y z]. cbn in *. subst. reflexivity. }
  refine (conj _ (conj _ (conj _ (conj _ (conj _ _))))).
  - intros v b'. rewrite x_get_height by assumption. rewrite Hhw, Hm. tauto.
  - intros v b'. rewrite x_get_width by assumption. rewrite Hhw, Hd. tauto.
  - intros v b'. rewrite x_get_allowed by assumption. rewrite Hal. tauto.
  - intros x b' Hx. rewrite x_set_height by assumption. rewrite Hhw, Hd, Hal. apply Hext; assumption.
  - intros x b' Hx. rewrite x_set_width by assumption. rewrite Hhw, Hm, Hal. apply Hext; assumption.
  - intros x b' Hx. rewrite x_set_allowed by assumption. rewrite Hhw. apply Hext; assumption.
Qed.

(* ---------- get_ssss ---------- *)

Lemma exec_get_codes bd dbg sn base b : 2 <= bd <= 16 -> base mod 65536 = 0 -> bank_ok bd b -> forall n i l b', 0 <= i -> i + Z.of_nat n <= bd + 1 ->
  exec bd dbg sn base (get_codes n i) b l b' -> b' = b /\ l = map (fun j => entry b (i + Z.of_nat j)) (seq 0 n).
Proof.
  intros Hb Hbase Hok. induction n as [|n IH]; intros i l b' Hi Hn H.
  - cbn in H. destruct H as [-> ->]. auto.
  - cbn [get_codes exec] in H. destruct H as (lo & r1 & H1 & hi & r2 & H2 & H3).
    apply exec_bind in H3. destruct H3 as (l' & b1 & H3 & H4). cbn [exec] in H4. destruct H4 as [-> ->].
    apply IH in H3; [|lia|lia]. destruct H3 as [-> ->]. split; [reflexivity|].
    destruct (C32_addresses bd dbg base i Hb Hbase) as (_ & _ & D & _). specialize (D ltac:(lia)). destruct D as [D1 D2].
    unfold bank_rd in H1, H2. change SSSS_OFFSET with 0x400 in *. rewrite D1 in H1. rewrite D2 in H2. destruct H1 as [-> _], H2 as [-> _].
    cbn [seq map]. f_equal.
    + rewrite Z.add_0_r. rewrite Z.shiftl_mul_pow2 by lia. rewrite Z.lor_comm.
      rewrite <- (Props_Axi.add_lor (entry b i mod 2 ^ 32) (entry b i / 2 ^ 32) 32); [|lia|apply Z.mod_pos_bound; reflexivity].
      pose proof (Z.div_mod (entry b i) (2 ^ 32) ltac:(discriminate)). lia.
    + rewrite <- seq_shift, map_map. apply map_ext. intros j. f_equal. lia.
Qed.

Lemma ssss_infos_nth bd : forall l i, ssss_infos bd i l = map (fun j => ssss_info bd (i + Z.of_nat j) (nth j l 0)) (seq 0 (length l)).
Proof.
  induction l as [|c l IH]; intros i; [reflexivity|]. cbn [ssss_infos length seq map nth]. f_equal; [f_equal; lia|].
  rewrite IH, <- seq_shift, map_map. apply map_ext. intros j. f_equal. lia.
Qed.

Lemma ssss_info_entry bd i n c : 2 <= bd <= 16 -> 0 <= i < bd -> 1 <= n <= 16 -> 0 <= c < 2 ^ n ->
  ssss_info bd i (huff_entry bd i c n) = (i, c, n).
Proof.
  intros Hb Hi Hn Hc. unfold huff_entry. replace (i =? 16) with false by (symmetry; apply Z.eqb_neq; lia).
  rewrite !Z.shiftl_mul_pow2 by lia.
  assert (Hp : 0 < 2 ^ i) by (apply pow2_pos; lia). assert (Hp2 : 0 < 2 ^ (16 + bd)) by (apply pow2_pos; lia).
  assert (Hc2 : c * 2 ^ i < 2 ^ (16 + bd)).
  { apply Z.lt_le_trans with (2 ^ n * 2 ^ i); [apply Z.mul_lt_mono_pos_r; lia|]. rewrite <- pow2_add by lia. apply pow2_le. lia. }
  assert (Hcp : 0 <= c * 2 ^ i) by (apply Z.mul_nonneg_nonneg; lia).
  rewrite Z.lor_comm, <- (Props_Axi.add_lor (c * 2 ^ i) n (16 + bd)) by lia.
  unfold ssss_info. rewrite !Z.shiftr_div_pow2 by lia.
  rewrite Z.div_add, (Z.div_small (c * 2 ^ i)) by lia. rewrite Z.add_0_l.
  assert (Hn32 : 0 <= n < 2 ^ 32) by (change (2 ^ 32) with 4294967296; lia).
  rewrite (trunc_id 32 n) by exact Hn32.
  replace (i =? 16) with false by (symmetry; apply Z.eqb_neq; lia).
  f_equal. f_equal.
  replace (2 ^ n - 1) with (Z.ones n) by (rewrite Z.ones_equiv; lia). rewrite Z.land_ones by lia.
  replace (16 + bd) with ((16 + bd - i) + i) by lia. rewrite pow2_add by lia. rewrite Z.mul_assoc, <- Z.mul_add_distr_r, Z.div_mul by lia.
  replace (16 + bd - i) with ((16 + bd - i - n) + n) by lia. rewrite pow2_add by lia. rewrite Z.mul_assoc, Z.mod_add by (pose proof (pow2_pos n); lia).
  rewrite Z.mod_small by exact Hc. apply trunc_id. split; [lia|]. pose proof (pow2_le n 32 ltac:(lia)). lia.
Qed.

(* C46.  get_ssss reports (class, code, length) of the installed Huffman table for the classes
   0 .. bit_depth - 1 and changes nothing.  The table has bit_depth + 1 classes: the last one is never
   reported. *)
Theorem C46_get_ssss : forall bd base dbg sn b t r b', 2 <= bd <= 16 -> base mod 65536 = 0 ->
  table_ok bd t -> bank_ok bd b -> k_mem b = mem_of bd t ->
  exec bd dbg sn base (get_ssss_list bd) b r b' ->
  b' = b /\ map (fun x => (snd x, snd (fst x))) r = firstn (Z.to_nat bd) t /\ map (fun x => fst (fst x)) r = map Z.of_nat (seq 0 (Z.to_nat bd)).
Proof.
  intros bd base dbg sn b t r b' Hb Hbase (Ht1 & Ht2) Hok Hm H. unfold get_ssss_list in H. apply exec_bind in H.
  destruct H as (codes & b1 & H1 & H2). apply exec_get_codes in H1; try assumption; try lia. destruct H1 as [-> ->].
  cbn [exec] in H2. destruct H2 as [-> ->]. split; [reflexivity|].
  assert (E : ssss_infos bd 0 (map (fun j => entry b (0 + Z.of_nat j)) (seq 0 (Z.to_nat bd)))
     = map (fun j => (Z.of_nat j, snd (nth j t (0, 0)), fst (nth j t (0, 0)))) (seq 0 (Z.to_nat bd))).
  { rewrite ssss_infos_nth, map_length, seq_length. apply map_ext_in. intros j Hj. apply in_seq in Hj.
    rewrite (nth_indep _ _ (entry b (0 + Z.of_nat 0))) by (rewrite map_length, seq_length; lia).
    rewrite (map_nth (fun j => entry b (0 + Z.of_nat j))). rewrite seq_nth by lia. cbn [Nat.add]. rewrite !Z.add_0_l.
    unfold entry. rewrite Nat2Z.id, Hm. unfold mem_of. rewrite nth_huff_entries by lia. rewrite Z.add_0_l.
    rewrite Forall_forall in Ht2. assert (Hin : In (nth j t (0, 0)) t) by (apply nth_In; lia).
    destruct (Ht2 _ Hin) as [T1 T2]. apply ssss_info_entry; try assumption; lia. }
  rewrite E, !map_map. cbn [fst snd]. split; [|reflexivity].
  assert (Hl : (Z.to_nat bd <= length t)%nat) by lia. clear - Hl. revert Hl. generalize (Z.to_nat bd) as n. intros n. revert t.
  induction n as [|n IH]; intros t Hl; [reflexivity|]. destruct t as [|[x y] t]; [cbn in Hl; lia|].
  cbn [seq map firstn nth fst snd]. f_equal. rewrite <- seq_shift, map_map. cbn [nth]. apply IH. cbn in Hl. lia.
Qed.

(* ---------- get_debug ---------- *)

(* C46.  On a core with debug counters, get_debug returns the eight counters in order, each a value
   that counter had during the run (not necessarily all at the same time), and changes nothing *)
Theorem C46_get_debug : forall bd base sn b r b', 2 <= bd <= 16 -> base mod 65536 = 0 ->
  exec bd true sn base get_debug b r b' ->
  b' = b /\ length r = 8%nat /\ forall k, (k < 8)%nat -> exists dr, sn dr /\ nth k r 0 = nth k dr 0.
Proof.
  intros bd base sn b r b' Hb Hbase H. unfold get_debug in H.
  assert (G : forall n i r b', 0 <= i -> i + Z.of_nat n <= 8 -> exec bd true sn base (get_debug_from n i) b r b' ->
     b' = b /\ length r = n /\ forall k, (k < n)%nat -> exists dr, sn dr /\ nth k r 0 = nth (Z.to_nat i + k) dr 0).
  { induction n as [|n IH]; intros i r0 b0 Hi Hn H0.
    - cbn in H0. destruct H0 as [-> ->]. repeat split. intros; lia.
    - cbn [get_debug_from exec] in H0. destruct H0 as (v & r1 & H1 & H2). apply exec_bind in H2. destruct H2 as (l & b1 & H2 & H3).
      cbn [exec] in H3. destruct H3 as [-> ->]. apply IH in H2; [|lia|lia]. destruct H2 as (-> & Hl & Hk).
      destruct (C32_addresses bd true base i Hb Hbase) as (_ & _ & _ & D & _). specialize (D ltac:(lia)). destruct D as [D _].
      unfold bank_rd in H1. change DEBUG_OFFSET with 0x1000 in *. rewrite D in H1. destruct H1 as [(dr & Hs & Hv) _].
      split; [reflexivity|]. split; [cbn [length]; lia|]. intros [|k] Hlt.
      + exists dr. split; [exact Hs|]. rewrite Nat.add_0_r. exact Hv.
      + destruct (Hk k ltac:(lia)) as (dr' & Hs' & E'). exists dr'. split; [exact Hs'|]. cbn [nth]. rewrite E'. f_equal. lia. }
  destruct (G 8%nat 0 r b' ltac:(lia) ltac:(lia) H) as (-> & Hl & Hk). split; [reflexivity|]. split; [exact Hl|]. intros k Hlt. exact (Hk k Hlt).
Qed.

(* ---------- down to the hardware ---------- *)

(* C46.  The test program's configuration sequence on the real bus: from reset, for every compliant
   master (any wait states) whose completed transactions are those of configure(w, h, n), the
   program reads back w, h and n mod 2^24, and the core sees width w, height h and limit n mod 2^24,
   with the Huffman table untouched. *)
Theorem C46_hardware : forall bd dbg l base w h n res, 2 <= bd <= 16 -> base mod 65536 = 0 -> no_rst l ->
  0 <= w < 2 ^ 16 -> 0 <= h < 2 ^ 16 -> 0 <= n < 2 ^ 32 ->
  let tr := al_trace bd dbg (al_init bd) l in
  m_all_ok ms_init tr -> m_aw (m_run ms_init tr) = PNot ->
  plays base (configure w h n) (m_log ms_init tr) res ->
  let s := al_run bd dbg (al_init bd) l in
  res = (w, h, n mod 2 ^ 24) /\
  al_width s = w /\ al_height s = h /\ al_allowed s = n mod 2 ^ 24 /\ al_mem s = init_huff_table bd.
Proof.
  intros bd dbg l base w h n res Hb Hbase Hn Hw Hh Hnn tr Hok Haw Hp s.
  destruct (C32_sequential bd dbg l Hb Hn Hok) as (_ & B & HB & Hs). specialize (Hs Haw).
  pose proof (plays_exec _ _ _ _ _ _ _ _ _ Hp HB) as X. clear Hp HB.
  unfold configure in X. pose proof (bank0_ok bd Hb) as Hok0.
  apply exec_bind in X. destruct X as ([] & b1 & X1 & X). apply x_set_width in X1; try assumption.
  change (k_hw (bank0 bd) mod 2 ^ 16) with 0 in X1.
  destruct (hw_join w 0 Hw ltac:(split; [lia|reflexivity])) as (Q1 & Q2 & Q3).
  assert (Ok1 : bank_ok bd b1) by (rewrite X1; apply ok_hw; assumption).
  apply exec_bind in X. destruct X as ([] & b2 & X2 & X). apply x_set_height in X2; try assumption.
  assert (E1 : k_hw b1 = w * 2 ^ 16 + 0) by (rewrite X1; reflexivity). rewrite E1, Q3 in X2.
  destruct (hw_join w h Hw Hh) as (R1 & R2 & R3).
  assert (Ok2 : bank_ok bd b2) by (rewrite X2; apply ok_hw; assumption).
  assert (E2 : k_hw b2 = w * 2 ^ 16 + h) by (rewrite X2; reflexivity).
  apply exec_bind in X. destruct X as (w' & b3 & X3 & X). apply x_get_width in X3; try assumption. destruct X3 as [-> ->]. rewrite E2, R3 in X.
  apply exec_bind in X. destruct X as (h' & b3 & X3 & X). apply x_get_height in X3; try assumption. destruct X3 as [-> ->]. rewrite E2, R2 in X.
  apply exec_bind in X. destruct X as ([] & b3 & X3 & X). apply x_set_allowed in X3; try assumption.
  apply exec_bind in X. destruct X as (n' & b4 & X4 & X). apply x_get_allowed in X4; try assumption. destruct X4 as [-> ->].
  cbn [exec] in X. destruct X as [-> ->]. rewrite X3 in Hs |- *. cbn [k_hw k_allowed k_mem] in Hs |- *.
  rewrite E2, R2, R3 in Hs. split; [reflexivity|]. unfold s. destruct Hs as (S1 & S2 & S3 & S4). rewrite S1, S2, S3, S4. repeat split.
  rewrite X2, X1. reflexivity.
Qed.

(* a concrete run of the bus carrying out configure(4096, 3072, 0x1ffffff) at the shipped base address
   (config.h:8): it meets the hypotheses of C46_hardware *)
Definition drv_base := 0x83C00000.
Definition drv_rd (off : Z) := repeat (bus_in true (drv_base + 4 * off) true false 0 false 0 0 true) 3 ++ repeat (bus_in false 0 true false 0 false 0 0 true) 4.
Definition drv_wr (off v : Z) := repeat (bus_in false 0 true true (drv_base + 4 * off) true v 15 true) 3 ++ repeat (bus_in false 0 true false 0 true v 15 true) 3 ++ repeat (bus_in false 0 true false 0 false 0 0 true) 3.
Definition drv_run :=
  drv_rd 0x800 ++ drv_wr 0x800 (4096 * 65536) ++ drv_rd 0x800 ++ drv_wr 0x800 (4096 * 65536 + 3072) ++
  drv_rd 0x800 ++ drv_rd 0x800 ++ drv_wr 0x801 0x1ffffff ++ drv_rd 0x801.
Definition imp (a b : bool) : bool := negb a || b.
Definition m_okb (m : ms) (i : ax_in) : bool :=
  match m_rd m with
  | RIdle => true
  | RAddr a k => ai_arvalid i && (ai_araddr i =? a) && imp k (ai_rready i)
  | RWait a k => negb (ai_arvalid i) && imp k (ai_rready i)
  end &&
  match m_aw m with
  | PNot => true
  | PHeld a => ai_awvalid i && (ai_awaddr i =? a)
  | PDone a => negb (ai_awvalid i)
  end &&
  match m_wd m with
  | PNot => true
  | PHeld (d, st) => ai_wvalid i && (ai_wdata i =? d) && (ai_wstrb i =? st)
  | PDone _ => negb (ai_wvalid i)
  end &&
  imp (m_b m) (ai_bready i) &&
  (0 <=? ai_araddr i) && (ai_araddr i <? 2 ^ 32) && (0 <=? ai_awaddr i) && (ai_awaddr i <? 2 ^ 32) &&
  (0 <=? ai_wdata i) && (ai_wdata i <? 2 ^ 32) && (0 <=? ai_wstrb i) && (ai_wstrb i <? 16).
Lemma m_okb_ok m i : m_okb m i = true -> m_ok m i.
Proof.
  unfold m_okb, m_ok, imp. rewrite !andb_true_iff. intros H.
  repeat match goal with H : _ /\ _ |- _ => destruct H end.
  rewrite ?Z.leb_le, ?Z.ltb_lt in *.
  repeat split; try assumption.
  - destruct (m_rd m) as [|a k|a k]; [exact I| |].
    + apply andb_prop in H. destruct H as [H Hk]. apply andb_prop in H. destruct H as [H Ha]. apply Z.eqb_eq in Ha. repeat split; try assumption.
      intros ->. exact Hk.
    + apply andb_prop in H. destruct H as [H Hk]. split; [destruct (ai_arvalid i); [discriminate|reflexivity]|]. intros ->. exact Hk.
  - destruct (m_aw m) as [|a|a]; [exact I| |].
    + apply andb_prop in H10. destruct H10 as [? Ha]. apply Z.eqb_eq in Ha. auto.
    + destruct (ai_awvalid i); [discriminate|reflexivity].
  - destruct (m_wd m) as [|[d st]|a]; [exact I| |].
    + apply andb_prop in H9. destruct H9 as [H9 Hst]. apply andb_prop in H9. destruct H9 as [H9 Hd]. apply Z.eqb_eq in Hst, Hd. auto.
    + destruct (ai_wvalid i); [discriminate|reflexivity].
  - intros E. rewrite E in H8. exact H8.
Qed.
Fixpoint m_all_okb (m : ms) (l : list (ax_in * ax_out)) : bool :=
  match l with [] => true | (i, o) :: r => m_okb m i && m_all_okb (fst (m_next m i o)) r end.
Lemma m_all_okb_ok : forall l m, m_all_okb m l = true -> m_all_ok m l.
Proof.
  induction l as [|[i o] l IH]; intros m H; cbn [m_all_okb m_all_ok] in *; [exact I|].
  apply andb_prop in H. destruct H. split; [apply m_okb_ok; assumption|apply IH; assumption].
Qed.
Example C46_example :
  let tr := al_trace 12 true (al_init 12) drv_run in
  m_all_ok ms_init tr /\ no_rst drv_run /\ m_aw (m_run ms_init tr) = PNot /\ drv_base mod 65536 = 0 /\
  plays drv_base (configure 4096 3072 0x1ffffff) (m_log ms_init tr) (4096, 3072, 0xffffff).
Proof.
  cbv zeta. split; [|split; [repeat constructor|split; [vm_compute; reflexivity|split; [reflexivity|]]]].
  - apply m_all_okb_ok. vm_compute. reflexivity.
  - replace (m_log ms_init (al_trace 12 true (al_init 12) drv_run)) with
      [Did_read (drv_base + 4 * 0x800) 0 0; Did_write (drv_base + 4 * 0x800) (4096 * 65536) 15 0;
       Did_read (drv_base + 4 * 0x800) (4096 * 65536) 0; Did_write (drv_base + 4 * 0x800) (4096 * 65536 + 3072) 15 0;
       Did_read (drv_base + 4 * 0x800) (4096 * 65536 + 3072) 0; Did_read (drv_base + 4 * 0x800) (4096 * 65536 + 3072) 0;
       Did_write (drv_base + 4 * 0x801) 0x1ffffff 15 0; Did_read (drv_base + 4 * 0x801) 0xffffff 0] by (vm_compute; reflexivity).
    unfold configure, set_width, set_height, get_width, get_height, set_allowed_cycles, get_allowed_cycles. cbn [bind plays].
    repeat eexists.
Qed.
Example C46_ssss_example : map (fun c => ssss_info 12 0 c) (firstn 1 (init_huff_table 12)) = [(0, 14, 4)] /\ ssss_info 12 11 (nth 11 (init_huff_table 12) 0) = (11, 254, 8).
Proof. split; reflexivity. Qed.
