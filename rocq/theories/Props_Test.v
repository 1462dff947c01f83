(* C59, C60: the checks of the test program (xilinx_test.cpp) on the memory the DMA wrote, and the
   DMA driver (xilinx_dma.cpp). *)
From Verif Require Import Bits Spec Spec_Core M_Driver M_Test Props_Frame Props_Beta.
Ltac Zify.zify_post_hook ::= idtac.

(* ---------- specification ---------- *)

Definition bytes_mem (m : memory) : Prop := forall a, 0 <= m a < 256.
(* the DMA has stored the words of a 16-bit stream in the buffer, low byte first *)
Definition holds (dest : memory) (O : list Z) : Prop :=
  forall j, (j < length O)%nat ->
    dest (2 * Z.of_nat j) = nth j O 0 mod 256 /\ dest (2 * Z.of_nat j + 1) = nth j O 0 / 256.
(* all bytes beyond the words are still as zero_dest left them *)
Definition zero_after (dest : memory) (O : list Z) : Prop := forall a, 2 * len O <= a -> dest a = 0.
(* the other byte of the 16-bit word *)
Definition mate (a : Z) : Z := if Z.even a then a + 1 else a - 1.

Ltac p32 := change (2 ^ 32) with 4294967296 in *.

(* ---------- words and bytes ---------- *)

Lemma ld32_inj m m' a b : bytes_mem m -> bytes_mem m' ->
  ld32 m a = ld32 m' b <-> m a = m' b /\ m (a + 1) = m' (b + 1) /\ m (a + 2) = m' (b + 2) /\ m (a + 3) = m' (b + 3).
Proof.
  intros H H'. unfold ld32. pose proof (H a); pose proof (H (a + 1)); pose proof (H (a + 2)); pose proof (H (a + 3)).
  pose proof (H' b); pose proof (H' (b + 1)); pose proof (H' (b + 2)); pose proof (H' (b + 3)). split; [lia|].
  intros (-> & -> & -> & ->). reflexivity.
Qed.
Lemma lt_u_pos i n : 0 <= i < 2 ^ 32 -> lt_u i n = (i <? n).
Proof. intros. unfold lt_u. rewrite Z.mod_small by lia. reflexivity. Qed.

Lemma val_words_none core lj n : bytes_mem core -> bytes_mem lj -> 0 <= n < 2 ^ 32 ->
  forall fuel i, 0 <= i -> i + Z.of_nat fuel = n / 4 ->
  (val_words fuel core lj n i = None <-> forall a, 4 * i <= a < 4 * (n / 4) -> core a = lj a).
Proof.
  intros Hc Hl Hn. assert (Hq : n / 4 <= n) by (apply Z.div_le_upper_bound; lia).
  induction fuel as [|f IH]; intros i Hi Hf; cbn [val_words].
  - split; [intros _ a Ha; lia|reflexivity].
  - rewrite lt_u_pos by (p32; lia). replace (i <? n / 4) with true by lia.
    destruct (Z.eqb_spec (ld32 core (4 * i)) (ld32 lj (4 * i))) as [E|E].
    + rewrite (IH (i + 1)) by lia. apply ld32_inj in E; [|assumption|assumption]. destruct E as (E0 & E1 & E2 & E3). split.
      * intros H a Ha. destruct (Z_lt_ge_dec a (4 * (i + 1))); [|apply H; lia].
        assert (a = 4 * i \/ a = 4 * i + 1 \/ a = 4 * i + 2 \/ a = 4 * i + 3) as [->|[->|[->| ->]]] by lia; assumption.
      * intros H a Ha. apply H. lia.
    + split; [discriminate|]. intros H. destruct E. apply ld32_inj; [assumption|assumption|]. repeat split; apply H; lia.
Qed.
Lemma val_words_some core lj n : bytes_mem core -> bytes_mem lj -> 0 <= n < 2 ^ 32 ->
  forall fuel i k, 0 <= i -> i + Z.of_nat fuel = n / 4 ->
  val_words fuel core lj n i = Some k ->
  i <= k < n / 4 /\ (forall a, 4 * i <= a < 4 * k -> core a = lj a) /\ exists a, 4 * k <= a < 4 * k + 4 /\ core a <> lj a.
Proof.
  intros Hc Hl Hn. assert (Hq : n / 4 <= n) by (apply Z.div_le_upper_bound; lia).
  induction fuel as [|f IH]; intros i k Hi Hf HS; cbn [val_words] in HS; [discriminate|].
  rewrite lt_u_pos in HS by (p32; lia). replace (i <? n / 4) with true in HS by lia.
  destruct (Z.eqb_spec (ld32 core (4 * i)) (ld32 lj (4 * i))) as [E|E].
  - apply IH in HS; [|lia|lia]. destruct HS as (H1 & H2 & H3). split; [lia|]. split; [|exact H3].
    apply ld32_inj in E; [|assumption|assumption]. destruct E as (E0 & E1 & E2 & E3).
    intros a Ha. destruct (Z_lt_ge_dec a (4 * (i + 1))); [|apply H2; lia].
    assert (a = 4 * i \/ a = 4 * i + 1 \/ a = 4 * i + 2 \/ a = 4 * i + 3) as [->|[->|[->| ->]]] by lia; assumption.
  - injection HS as <-. split; [lia|]. split; [intros; lia|].
    destruct (Z.eq_dec (core (4 * i)) (lj (4 * i))) as [D0|]; [|exists (4 * i); split; [lia|assumption]].
    destruct (Z.eq_dec (core (4 * i + 1)) (lj (4 * i + 1))) as [D1|]; [|exists (4 * i + 1); split; [lia|assumption]].
    destruct (Z.eq_dec (core (4 * i + 2)) (lj (4 * i + 2))) as [D2|]; [|exists (4 * i + 2); split; [lia|assumption]].
    destruct (Z.eq_dec (core (4 * i + 3)) (lj (4 * i + 3))) as [D3|]; [|exists (4 * i + 3); split; [lia|assumption]].
    destruct E. apply ld32_inj; auto.
Qed.
Lemma val_bytes_none core lj n : 0 <= n < 2 ^ 32 ->
  forall fuel i, 0 <= i -> i + Z.of_nat fuel = n ->
  (val_bytes fuel core lj n i = None <-> forall a, i <= a < n -> core a = lj a).
Proof.
  intros Hn. induction fuel as [|f IH]; intros i Hi Hf; cbn [val_bytes].
  - split; [intros _ a Ha; lia|reflexivity].
  - rewrite lt_u_pos by (p32; lia). replace (i <? n) with true by lia.
    destruct (Z.eqb_spec (core i) (lj i)) as [E|E].
    + rewrite (IH (i + 1)) by lia. split; intros H a Ha.
      * destruct (Z.eq_dec a i) as [->|]; [assumption|apply H; lia].
      * apply H; lia.
    + split; [discriminate|]. intros H. destruct E. apply H. lia.
Qed.
Lemma val_bytes_some core lj n : 0 <= n < 2 ^ 32 ->
  forall fuel i k, 0 <= i -> i + Z.of_nat fuel = n ->
  val_bytes fuel core lj n i = Some k -> i <= k < n /\ (forall a, i <= a < k -> core a = lj a) /\ core k <> lj k.
Proof.
  intros Hn. induction fuel as [|f IH]; intros i k Hi Hf HS; cbn [val_bytes] in HS; [discriminate|].
  rewrite lt_u_pos in HS by (p32; lia). replace (i <? n) with true in HS by lia.
  destruct (Z.eqb_spec (core i) (lj i)) as [E|E].
  - apply IH in HS; [|lia|lia]. destruct HS as (H1 & H2 & H3). split; [lia|]. split; [|exact H3].
    intros a Ha. destruct (Z.eq_dec a i) as [->|]; [assumption|apply H2; lia].
  - injection HS as <-. split; [lia|]. split; [intros; lia|assumption].
Qed.
Lemma val_bytes_short core lj n : 0 <= n < 10 -> val_bytes 10 core lj n (n - 10) = None.
Proof.
  intros H. cbn [val_bytes]. unfold lt_u. replace ((n - 10) mod 2 ^ 32) with (n - 10 + 1 * 2 ^ 32).
  - replace (n - 10 + 1 * 2 ^ 32 <? n) with false by (p32; lia). reflexivity.
  - rewrite <- (Z_mod_plus (n - 10) 1) by (p32; lia). symmetry. apply Z.mod_small. p32. lia.
Qed.

(* C59.  For reference files of at least 10 bytes, "Validation succeeded." is printed exactly if all
   bytes of the file are found in memory behind the 16 bytes of the start marker; a reported
   failure names a word or byte that differs, and everything before it is equal. *)
Theorem C59_validate : forall dest lj n, bytes_mem dest -> bytes_mem lj -> 10 <= n < 2 ^ 31 ->
  (validate dest lj n = Succeeded <-> forall i, 0 <= i < n -> dest (i + 16) = lj i) /\
  (forall k, validate dest lj n = FailedWord k ->
     (forall i, 0 <= i < 4 * k -> dest (i + 16) = lj i) /\ exists i, 4 * k <= i < 4 * k + 4 /\ i < n /\ dest (i + 16) <> lj i) /\
  (forall k, validate dest lj n = FailedByte k ->
     0 <= k < n /\ (forall i, 0 <= i < k -> dest (i + 16) = lj i) /\ dest (k + 16) <> lj k).
Proof.
  intros dest lj n Hd Hl Hn. set (core := fun a => dest (a + 16)). change (2 ^ 31) with 2147483648 in Hn.
  assert (Hc : bytes_mem core) by (intro a; apply Hd).
  assert (Hq : 4 * (n / 4) <= n /\ n < 4 * (n / 4) + 4) by (pose proof (Z.div_mod n 4 ltac:(lia)); pose proof (Z.mod_pos_bound n 4 ltac:(lia)); lia).
  assert (Hn32 : 0 <= n < 2 ^ 32) by (p32; lia). assert (Hfw : 0 + Z.of_nat (Z.to_nat (n / 4)) = n / 4) by lia.
  assert (Hfb : n - 10 + Z.of_nat 10 = n) by lia.
  pose proof (val_words_none core lj n Hc Hl Hn32 _ 0 ltac:(lia) Hfw) as W.
  pose proof (val_words_some core lj n Hc Hl Hn32 (Z.to_nat (n / 4)) 0) as WS.
  pose proof (val_bytes_none core lj n Hn32 10%nat (n - 10) ltac:(lia) Hfb) as B.
  pose proof (val_bytes_some core lj n Hn32 10%nat (n - 10)) as BS.
  unfold validate. change (fun a => dest (a + 16)) with core. change (forall i, 0 <= i < n -> dest (i + 16) = lj i) with (forall i, 0 <= i < n -> core i = lj i).
  destruct (val_words (Z.to_nat (n / 4)) core lj n 0) as [k|] eqn:EW.
  - destruct (WS k ltac:(lia) Hfw eq_refl) as (K1 & K2 & a & K3 & K4). split; [|split].
    + split; [discriminate|]. intros H. destruct K4. apply H. lia.
    + intros k' E. injection E as <-. split; [intros i Hi; apply K2; lia|]. exists a. split; [lia|]. split; [lia|exact K4].
    + discriminate.
  - pose proof (proj1 W eq_refl) as HW. destruct (val_bytes 10 core lj n (n - 10)) as [k|] eqn:EB.
    + destruct (BS k ltac:(lia) Hfb eq_refl) as (K1 & K2 & K3). split; [|split].
      * split; [discriminate|]. intros H. destruct K3. apply H. lia.
      * discriminate.
      * intros k' E. injection E as <-. split; [lia|]. split; [|exact K3]. intros i Hi. destruct (Z_lt_ge_dec i (n - 10)); [|apply K2; lia].
        apply HW. lia.
    + pose proof (proj1 B eq_refl) as HB. split; [|split; discriminate]. split; [|reflexivity]. intros _ i Hi.
      destruct (Z_lt_ge_dec i (n - 10)); [apply HW; lia|apply HB; lia].
Qed.

(* C59.  For shorter files the byte loop never runs (its start, length-10, is negative and is compared as an
   unsigned number): the bytes after the last whole 32-bit word are not looked at. *)
Theorem C59_validate_short : forall dest lj n, bytes_mem dest -> bytes_mem lj -> 0 <= n < 10 ->
  (validate dest lj n = Succeeded <-> forall i, 0 <= i < 4 * (n / 4) -> dest (i + 16) = lj i).
Proof.
  intros dest lj n Hd Hl Hn. set (core := fun a => dest (a + 16)).
  assert (Hc : bytes_mem core) by (intro a; apply Hd).
  assert (Hq : 4 * (n / 4) <= n) by (apply Z.mul_div_le; lia). assert (Hq0 : 0 <= n / 4) by (apply Z.div_pos; lia).
  pose proof (val_words_none core lj n Hc Hl ltac:(p32; lia) (Z.to_nat (n / 4)) 0 ltac:(lia) ltac:(lia)) as W.
  unfold validate. change (fun a => dest (a + 16)) with core. change (forall i, 0 <= i < 4 * (n / 4) -> dest (i + 16) = lj i) with (forall i, 0 <= i < 4 * (n / 4) -> core i = lj i).
  rewrite val_bytes_short by lia. destruct (val_words (Z.to_nat (n / 4)) core lj n 0).
  - split; [discriminate|]. intros H. discriminate (proj2 W H).
  - split; [intros _; apply W; reflexivity|reflexivity].
Qed.

(* ---------- rounding up, swapping bytes ---------- *)

Lemma even_mod n : Z.even n = (n mod 2 =? 0).
Proof. rewrite Zmod_even. destruct (Z.even n); reflexivity. Qed.

(* C59.  The rounding functions give the next multiple of 4 (2). *)
Theorem C59_divisible : forall n, 0 <= n ->
  (n + 3 < 2 ^ 32 -> divisible_4 n mod 4 = 0 /\ n <= divisible_4 n < n + 4) /\
  (n + 1 < 2 ^ 32 -> divisible_2 n mod 2 = 0 /\ n <= divisible_2 n < n + 2).
Proof.
  intros n Hn. split; intros Hn2; p32.
  - pose proof (Z.div_mod n 4 ltac:(lia)) as D. pose proof (Z.mod_pos_bound n 4 ltac:(lia)) as M. set (r := n mod 4) in *. set (q := n / 4) in *. clearbody r q. subst n.
    unfold divisible_4. cbn [div_loop]. replace (4 * q + r) with (r + q * 4) by ring.
    assert (T : forall x, 0 <= x < 4294967296 -> trunc 32 x = x) by (intros; apply trunc_id; exact H).
    assert (Mx : forall x y, (x + y * 4) mod 4 = x mod 4) by (intros; apply Z_mod_plus; lia).
    assert (C : r = 0 \/ r = 1 \/ r = 2 \/ r = 3) by lia. destruct C as [->|[->|[->| ->]]].
    + rewrite Mx. change (0 mod 4 =? 0) with true. cbv iota. rewrite Mx. split; [reflexivity|lia].
    + rewrite Mx. change (1 mod 4 =? 0) with false. cbv iota. rewrite T by lia. replace (1 + q * 4 + 1) with (2 + q * 4) by ring. rewrite Mx. change (2 mod 4 =? 0) with false. cbv iota.
      rewrite T by lia. replace (2 + q * 4 + 1) with (3 + q * 4) by ring. rewrite Mx. change (3 mod 4 =? 0) with false. cbv iota. rewrite T by lia. replace (3 + q * 4 + 1) with (0 + (q + 1) * 4) by ring. rewrite Mx. cbn -[Z.mul Z.add].
      rewrite Mx. split; [reflexivity|lia].
    + rewrite Mx. change (2 mod 4 =? 0) with false. cbv iota. rewrite T by lia. replace (2 + q * 4 + 1) with (3 + q * 4) by ring. rewrite Mx. change (3 mod 4 =? 0) with false. cbv iota.
      rewrite T by lia. replace (3 + q * 4 + 1) with (0 + (q + 1) * 4) by ring. rewrite Mx. change (0 mod 4 =? 0) with true. cbv iota. rewrite Mx. split; [reflexivity|lia].
    + rewrite Mx. change (3 mod 4 =? 0) with false. cbv iota. rewrite T by lia. replace (3 + q * 4 + 1) with (0 + (q + 1) * 4) by ring. rewrite Mx. change (0 mod 4 =? 0) with true. cbv iota.
      rewrite Mx. split; [reflexivity|lia].
  - unfold divisible_2. cbn [div_loop]. pose proof (Z.mod_pos_bound n 2 ltac:(lia)) as M. destruct (n mod 2 =? 0) eqn:E; [split; lia|].
    rewrite trunc_id by (p32; lia). assert (E2 : (n + 1) mod 2 = 0). { rewrite Zplus_mod. replace (n mod 2) with 1 by lia. reflexivity. }
    rewrite E2. cbn [Z.eqb]. rewrite E2. split; lia.
Qed.
Lemma divisible_2_eq n : 0 <= n -> n + 1 < 2 ^ 32 -> divisible_2 n = 2 * ((n + 1) / 2).
Proof.
  intros H1 H2. destruct (C59_divisible n H1) as [_ K]. destruct (K H2) as [K1 K2].
  pose proof (Z.div_mod (divisible_2 n) 2 ltac:(lia)). pose proof (Z.div_mod (n + 1) 2 ltac:(lia)). pose proof (Z.mod_pos_bound (n + 1) 2 ltac:(lia)). lia.
Qed.

Lemma bswap_store m a : bytes_mem m -> forall x, st16 m a (bswap16 (ld16 m a)) x = if x =? a then m (a + 1) else if x =? a + 1 then m a else m x.
Proof.
  intros H x. unfold st16, st8, bswap16, ld16. pose proof (H a). pose proof (H (a + 1)).
  assert (E1 : (m a + 256 * m (a + 1)) mod 256 = m a) by (rewrite Z.mul_comm, Z_mod_plus by lia; apply Z.mod_small; lia).
  assert (E2 : (m a + 256 * m (a + 1)) / 256 = m (a + 1)) by (rewrite Z.mul_comm, Z_div_plus by lia; rewrite Z.div_small by lia; lia).
  rewrite E1, E2. rewrite Z.div_add_l, Z.div_small by lia. rewrite (Z.add_comm (m a * 256)), Z_mod_plus by lia. rewrite (Z.mod_small (m (a + 1))) by lia.
  rewrite Z.add_0_r, (Z.mod_small (m a)) by lia.
  destruct (x =? a + 1) eqn:Ex; destruct (x =? a) eqn:Ey; try reflexivity; lia.
Qed.
Lemma reorder_loop_eq len2 : 0 <= len2 < 2 ^ 32 -> len2 mod 2 = 0 -> forall fuel k m, bytes_mem m -> 0 <= k -> 2 * k <= len2 -> len2 - 2 * k <= 2 * Z.of_nat fuel ->
  forall x, reorder_loop fuel len2 (2 * k) m x = if (2 * k <=? x) && (x <? len2) then m (mate x) else m x.
Proof.
  intros Hl He. pose proof (Z.div_mod len2 2 ltac:(lia)) as Dl. rewrite He, Z.add_0_r in Dl. set (h := len2 / 2) in *. clearbody h. clear He. subst len2. p32.
  induction fuel as [|f IH]; intros k m Hm Hk Hk2 Hf x; cbn [reorder_loop].
  - replace ((2 * k <=? x) && (x <? 2 * h)) with false by lia. reflexivity.
  - destruct (Z_lt_ge_dec k h).
    + rewrite lt_u_pos by (p32; lia). replace (2 * k <? 2 * h) with true by lia.
      replace (2 * k / 2) with k by (rewrite Z.mul_comm, Z.div_mul by lia; reflexivity).
      set (m' := st16 m (2 * k) (bswap16 (ld16 m (2 * k)))). replace (2 * k + 2) with (2 * (k + 1)) by ring.
      pose proof (bswap_store m (2 * k) Hm) as E. fold m' in E.
      assert (Hm' : bytes_mem m') by (intros a; rewrite E; destruct (a =? 2 * k), (a =? 2 * k + 1); apply Hm).
      rewrite IH by (try assumption; lia). rewrite !E. unfold mate.
      destruct (Z.even x) eqn:Ev; rewrite ?even_mod in Ev; pose proof (Z.div_mod x 2 ltac:(lia)); pose proof (Z.mod_pos_bound x 2 ltac:(lia)); set (q := x / 2) in *; set (r := x mod 2) in *; clearbody q r.
      * assert (r = 0) by lia. subst r. destruct (Z.lt_trichotomy q k) as [?|[?|?]].
        -- replace (2 * (k + 1) <=? x) with false by lia. replace (2 * k <=? x) with false by lia. cbn [andb]. replace (x =? 2 * k) with false by lia. replace (x =? 2 * k + 1) with false by lia. reflexivity.
        -- subst q. replace x with (2 * k) by lia. replace (2 * (k + 1) <=? 2 * k) with false by lia. replace (2 * k <=? 2 * k) with true by lia. replace (2 * k <? 2 * h) with true by lia. cbn [andb]. replace (2 * k =? 2 * k) with true by lia. reflexivity.
        -- replace (2 * (k + 1) <=? x) with true by lia. replace (2 * k <=? x) with true by lia. cbn [andb].
           replace (x =? 2 * k) with false by lia. replace (x =? 2 * k + 1) with false by lia. replace (x + 1 =? 2 * k) with false by lia. replace (x + 1 =? 2 * k + 1) with false by lia. reflexivity.
      * assert (r = 1) by lia. subst r. destruct (Z.lt_trichotomy q k) as [?|[?|?]].
        -- replace (2 * (k + 1) <=? x) with false by lia. replace (2 * k <=? x) with false by lia. cbn [andb]. replace (x =? 2 * k) with false by lia. replace (x =? 2 * k + 1) with false by lia. reflexivity.
        -- subst q. replace x with (2 * k + 1) by lia. replace (2 * (k + 1) <=? 2 * k + 1) with false by lia. replace (2 * k <=? 2 * k + 1) with true by lia. replace (2 * k + 1 <? 2 * h) with true by lia. cbn [andb].
           replace (2 * k + 1 =? 2 * k) with false by lia. replace (2 * k + 1 =? 2 * k + 1) with true by lia. f_equal. lia.
        -- replace (2 * (k + 1) <=? x) with true by lia. replace (2 * k <=? x) with true by lia. cbn [andb].
           replace (x =? 2 * k) with false by lia. replace (x =? 2 * k + 1) with false by lia. replace (x - 1 =? 2 * k) with false by lia. replace (x - 1 =? 2 * k + 1) with false by lia. reflexivity.
    + rewrite lt_u_pos by (p32; lia). replace (2 * k <? 2 * h) with false by lia. replace ((2 * k <=? x) && (x <? 2 * h)) with false by lia. reflexivity.
Qed.
Lemma mate_mate a : mate (mate a) = a.
Proof.
  unfold mate. destruct (Z.even a) eqn:E.
  - replace (Z.even (a + 1)) with false; [lia|]. rewrite Z.even_add, E. reflexivity.
  - replace (Z.even (a - 1)) with true; [lia|]. rewrite Z.even_sub, E. reflexivity.
Qed.
Lemma mate_range a h : 0 <= a < 2 * h <-> 0 <= mate a < 2 * h.
Proof.
  unfold mate. rewrite even_mod. pose proof (Z.div_mod a 2 ltac:(lia)). pose proof (Z.mod_pos_bound a 2 ltac:(lia)). destruct (a mod 2 =? 0) eqn:E; lia.
Qed.

(* C59.  re_order_lj92 swaps the two bytes of every 16-bit word of the file (the last one including the
   first byte behind the file if the length is odd) and changes nothing else; doing it twice
   changes nothing. *)
Theorem C59_reorder : forall m n, bytes_mem m -> 0 <= n < 2 ^ 31 ->
  (forall a, re_order_lj92 m n a = if (0 <=? a) && (a <? 2 * ((n + 1) / 2)) then m (mate a) else m a) /\
  bytes_mem (re_order_lj92 m n) /\
  (forall a, re_order_lj92 (re_order_lj92 m n) n a = m a).
Proof.
  intros m n Hm Hn. change (2 ^ 31) with 2147483648 in Hn.
  assert (Hd : divisible_2 n = 2 * ((n + 1) / 2)) by (apply divisible_2_eq; p32; lia).
  pose proof (Z.div_mod (n + 1) 2 ltac:(lia)) as D. pose proof (Z.mod_pos_bound (n + 1) 2 ltac:(lia)) as M.
  assert (K : forall m, bytes_mem m -> forall a, re_order_lj92 m n a = if (0 <=? a) && (a <? 2 * ((n + 1) / 2)) then m (mate a) else m a).
  { intros m' Hm' a. unfold re_order_lj92. rewrite Hd. set (h := (n + 1) / 2) in *. clearbody h.
    change 0 with (2 * 0) at 1. rewrite reorder_loop_eq; [reflexivity|p32; lia| |assumption|lia|lia|lia]. rewrite Z.mul_comm. apply Z.mod_mul. lia. }
  assert (B : bytes_mem (re_order_lj92 m n)) by (intros a; rewrite (K m Hm a); destruct (_ && _); apply Hm).
  split; [exact (K m Hm)|]. split; [exact B|]. intros a. rewrite (K _ B), !(K m Hm).
  pose proof (mate_range a ((n + 1) / 2)) as R. set (h := (n + 1) / 2) in *. clearbody h. rewrite mate_mate.
  destruct ((0 <=? a) && (a <? 2 * h)) eqn:E; [|reflexivity]. replace ((0 <=? mate a) && (mate a <? 2 * h)) with true by lia. reflexivity.
Qed.
