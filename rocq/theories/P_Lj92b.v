(* Proofs about the liblj92 model: the entropy decoder nextdiff. *)
From Verif Require Import Bits Spec Spec_Lj92 M_Predictor M_Lj92 P_Lj92 P_Decode.
Ltac Zify.zify_post_hook ::= idtac.

Definition is_byte8 (x : Z) : Prop := 0 <= x < 256.

Section Dec.
Variable d : lmem.
Hypothesis Hd : byte_mem d.
(* E: the index just after the stuffed bytes of the scan *)
Variable E : Z.

(* the bits R are still to be decoded *)
Definition nd_inv (R : list bool) (s : nd_st) : Prop :=
  0 <= n_cnt s <= 31 /\ 0 <= n_b s < 2 ^ n_cnt s /\ n_hi s <= E + 3 /\
  ((exists Q, Forall is_byte8 Q /\ holds d (n_ix s) (stuff Q) /\ n_ix s + len (stuff Q) = E /\ R = bitsz (n_cnt s) (n_b s) ++ stream 8 Q) \/
   (exists g, bitsz (n_cnt s) (n_b s) = R ++ g /\ ((len g = 8 /\ n_ix s <= E + 2) \/ 16 <= len g))).

Lemma word_bits b cnt one two : 0 <= cnt -> 0 <= b < 2 ^ cnt -> is_byte8 one -> is_byte8 two -> cnt <= 15 ->
  let w := trunc 32 (Z.lor (Z.lor (Z.shiftl b 16) (Z.shiftl one 8)) two) in
  w = b * 65536 + one * 256 + two /\ 0 <= w < 2 ^ (cnt + 16) /\ bitsz (cnt + 16) w = bitsz cnt b ++ bitsz 8 one ++ bitsz 8 two /\
  Z.shiftr w 8 = b * 256 + one /\ 0 <= Z.shiftr w 8 < 2 ^ (cnt + 8) /\ bitsz (cnt + 8) (Z.shiftr w 8) = bitsz cnt b ++ bitsz 8 one.
Proof.
  intros H0 Hb H1 H2 Hc w. unfold is_byte8 in *.
  assert (P15 : 2 ^ cnt <= 2 ^ 15) by (apply pow2_le; lia). change (2 ^ 15) with 32768 in P15.
  assert (Pa : 2 ^ (cnt + 16) = 2 ^ cnt * 65536) by (rewrite Z.pow_add_r by lia; reflexivity).
  assert (Pb : 2 ^ (cnt + 8) = 2 ^ cnt * 256) by (rewrite Z.pow_add_r by lia; reflexivity).
  assert (Ew : w = b * 65536 + one * 256 + two).
  { unfold w. rewrite !Z.shiftl_mul_pow2 by lia. rewrite lor_add by (change (2 ^ 8) with 256; change (2 ^ 16) with 65536; lia).
    replace (b * 2 ^ 16 + one * 2 ^ 8) with ((b * 256 + one) * 2 ^ 8) by (change (2 ^ 8) with 256; change (2 ^ 16) with 65536; lia).
    rewrite lor_add by (change (2 ^ 8) with 256; lia). rewrite trunc_id; change (2 ^ 8) with 256; [lia|change (2 ^ 32) with 4294967296; lia]. }
  assert (Es : Z.shiftr w 8 = b * 256 + one).
  { rewrite Z.shiftr_div_pow2 by lia. change (2 ^ 8) with 256. symmetry. apply Z.div_unique with two; [left; lia|rewrite Ew; lia]. }
  split; [exact Ew|]. split; [rewrite Ew; nia|]. split.
  - rewrite Ew. replace (cnt + 16) with (cnt + (8 + 8)) by lia. replace (b * 65536 + one * 256 + two) with (b * 2 ^ (8 + 8) + (one * 2 ^ 8 + two)) by (change (2 ^ 8) with 256; change (2 ^ (8 + 8)) with 65536; lia).
    rewrite bitsz_cat by (try (change (2 ^ 8) with 256; change (2 ^ (8 + 8)) with 65536); lia). f_equal. apply bitsz_cat; try (change (2 ^ 8) with 256); lia.
  - split; [exact Es|]. rewrite Es. split; [nia|]. change 256 with (2 ^ 8). apply bitsz_cat; try (change (2 ^ 8) with 256); lia.
Qed.

Lemma holds_cons d' a x l : holds d' a (x :: l) -> d' a = x /\ holds d' (a + 1) l.
Proof.
  intros H. split; [specialize (H 0%nat ltac:(cbn; lia)); rewrite Z.add_0_r in H; exact H|]. intros k Hk. specialize (H (S k) ltac:(cbn; lia)). cbn [nth] in H. rewrite <- H. f_equal. lia.
Qed.

Lemma refill_step R s need : nd_inv R s -> n_cnt s < need -> need <= 16 ->
  exists s', (forall f, refill (S f) d need s = refill f d need s') /\ nd_inv R s' /\ n_cnt s + 8 <= n_cnt s' /\ n_oob s' = n_oob s.
Proof.
  intros (C & B & Hhi & HI) Hc Hn. cbn [refill]. replace (n_cnt s <? need) with true by lia.
  destruct (word_bits (n_b s) (n_cnt s) (d (n_ix s)) (d (n_ix s + 1)) ltac:(lia) B (Hd _) (Hd _) ltac:(lia)) as (W1 & W2 & W3 & W4 & W5 & W6).
  cbv zeta in *. set (w := trunc 32 _) in *.
  set (sA := {| n_b := Z.shiftr w 8; n_cnt := n_cnt s + 16 - 8; n_ix := n_ix s + 2; n_hi := Z.max (n_hi s) (n_ix s + 1); n_oob := n_oob s |}).
  set (sB := {| n_b := w; n_cnt := n_cnt s + 16; n_ix := n_ix s + 3; n_hi := Z.max (n_hi s) (n_ix s + 1); n_oob := n_oob s |}).
  set (sC := {| n_b := w; n_cnt := n_cnt s + 16; n_ix := n_ix s + 2; n_hi := Z.max (n_hi s) (n_ix s + 1); n_oob := n_oob s |}).
  assert (EA : n_cnt s + 16 - 8 = n_cnt s + 8) by lia.
  destruct HI as [(Q & FQ & HQ & EQ & ER)|(g & Eg & Hg)].
  - destruct Q as [|x Q].
    + (* payload exhausted *)
      unfold len in EQ. cbn [stuff flat_map length] in EQ. unfold stream in ER. cbn [map concat] in ER. rewrite app_nil_r in ER.
      destruct (d (n_ix s) =? 255) eqn:E1.
      * exists sA. split; [reflexivity|]. split; [|cbn; split; [lia|reflexivity]]. split; [cbn; lia|]. cbn [n_cnt n_b n_hi n_ix sA]. rewrite EA. split; [exact W5|]. split; [lia|]. right.
        exists (bitsz 8 (d (n_ix s))). rewrite W6, ER. split; [reflexivity|]. left. unfold len. rewrite bitsz_length by lia. lia.
      * assert (K : nd_inv R sB /\ nd_inv R sC).
        { split; (split; [cbn; lia|]; cbn [n_cnt n_b n_hi n_ix sB sC]; split; [exact W2|]; split; [lia|]; right; exists (bitsz 8 (d (n_ix s)) ++ bitsz 8 (d (n_ix s + 1)));
            rewrite W3, ER; split; [reflexivity|]; right; unfold len; rewrite app_length, Nat2Z.inj_add, !bitsz_length by lia; lia). }
        destruct (d (n_ix s + 1) =? 255); [exists sB|exists sC]; (split; [reflexivity|]; split; [apply K|cbn; split; [lia|reflexivity]]).
    + apply Forall_cons_iff in FQ. destruct FQ as [Fx FQ]. cbn [stuff flat_map] in HQ, EQ. unfold stream in ER. cbn [map concat] in ER. unfold stuff_byte in HQ, EQ at 1. destruct (x =? 255) eqn:Ex.
      * cbn [app] in HQ, EQ. apply holds_cons in HQ. destruct HQ as [D0 HQ]. apply holds_cons in HQ. destruct HQ as [D1 HQ]. rewrite D0 in *. cbn [Z.eqb Pos.eqb].
        exists sA. split; [reflexivity|]. split; [|cbn; split; [lia|reflexivity]]. split; [cbn; lia|]. cbn [n_cnt n_b n_hi n_ix sA]. rewrite EA. split; [exact W5|].
        unfold len in EQ. cbn [length] in EQ. split; [lia|]. left. exists Q. split; [exact FQ|]. replace (n_ix s + 2) with (n_ix s + 1 + 1) by lia. split; [exact HQ|].
        split; [unfold len, stuff; lia|]. rewrite W6, ER, <- app_assoc. f_equal. f_equal. f_equal. lia.
      * cbn [app] in HQ, EQ. apply holds_cons in HQ. destruct HQ as [D0 HQ]. rewrite D0 in *. replace (x =? 255) with false in * by lia.
        unfold len in EQ. cbn [length] in EQ. destruct Q as [|y Q].
        { (* the last byte; the second one is garbage *)
          cbn [flat_map length] in EQ. cbn [map concat] in ER. rewrite app_nil_r in ER.
          assert (K : nd_inv R sB /\ nd_inv R sC).
          { split; (split; [cbn; lia|]; cbn [n_cnt n_b n_hi n_ix sB sC]; split; [exact W2|]; split; [lia|]; right; exists (bitsz 8 (d (n_ix s + 1)));
              rewrite W3, ER, <- app_assoc; split; [reflexivity|]; left; unfold len; rewrite bitsz_length by lia; lia). }
          destruct (d (n_ix s + 1) =? 255); [exists sB|exists sC]; (split; [reflexivity|]; split; [apply K|cbn; split; [lia|reflexivity]]). }
        apply Forall_cons_iff in FQ. destruct FQ as [Fy FQ]. cbn [flat_map map concat] in HQ, EQ, ER. unfold stuff_byte in HQ, EQ at 1. destruct (y =? 255) eqn:Ey.
        { cbn [app length] in HQ, EQ. apply holds_cons in HQ. destruct HQ as [D1 HQ]. apply holds_cons in HQ. destruct HQ as [D2 HQ]. rewrite D1 in *. cbn [Z.eqb Pos.eqb].
          exists sB. split; [reflexivity|]. split; [|cbn; split; [lia|reflexivity]]. split; [cbn; lia|]. cbn [n_cnt n_b n_hi n_ix sB]. split; [exact W2|]. split; [lia|].
          left. exists Q. split; [exact FQ|]. replace (n_ix s + 3) with (n_ix s + 1 + 1 + 1) by lia. split; [exact HQ|]. split; [unfold len, stuff; lia|].
          rewrite W3, ER, <- !app_assoc. do 3 f_equal. f_equal. lia. }
        { cbn [app length] in HQ, EQ. apply holds_cons in HQ. destruct HQ as [D1 HQ]. rewrite D1 in *. replace (y =? 255) with false in * by lia.
          exists sC. split; [reflexivity|]. split; [|cbn; split; [lia|reflexivity]]. split; [cbn; lia|]. cbn [n_cnt n_b n_hi n_ix sC]. split; [exact W2|]. split; [lia|].
          left. exists Q. split; [exact FQ|]. replace (n_ix s + 2) with (n_ix s + 1 + 1) by lia. split; [exact HQ|]. split; [unfold len, stuff; lia|].
          rewrite W3, ER, <- !app_assoc. reflexivity. }
  - assert (Lg : len R + len g = n_cnt s). { unfold len. rewrite <- Nat2Z.inj_add, <- app_length, <- Eg. apply bitsz_length. lia. }
    assert (LR : 0 <= len R) by (unfold len; lia).
    destruct (d (n_ix s) =? 255).
    + exists sA. split; [reflexivity|]. split; [|cbn; split; [lia|reflexivity]]. split; [cbn; lia|]. cbn [n_cnt n_b n_hi n_ix sA]. rewrite EA. split; [exact W5|]. split; [lia|]. right.
      exists (g ++ bitsz 8 (d (n_ix s))). rewrite W6, Eg, <- app_assoc. split; [reflexivity|]. right. unfold len in *. rewrite app_length, Nat2Z.inj_add, bitsz_length by lia. lia.
    + assert (K : nd_inv R sB /\ nd_inv R sC).
      { split; (split; [cbn; lia|]; cbn [n_cnt n_b n_hi n_ix sB sC]; split; [exact W2|]; split; [lia|]; right; exists (g ++ bitsz 8 (d (n_ix s)) ++ bitsz 8 (d (n_ix s + 1)));
          rewrite W3, Eg, <- app_assoc; split; [reflexivity|]; right; unfold len in *; rewrite !app_length, !Nat2Z.inj_add, !bitsz_length by lia; lia). }
      destruct (d (n_ix s + 1) =? 255); [exists sB|exists sC]; (split; [reflexivity|]; split; [apply K|cbn; split; [lia|reflexivity]]).
Qed.
Lemma refill_ok R need : need <= 16 -> forall f s, nd_inv R s -> need - n_cnt s <= 8 * Z.of_nat f ->
  let s' := refill f d need s in nd_inv R s' /\ need <= n_cnt s' /\ n_oob s' = n_oob s.
Proof.
  intros Hn. induction f as [|f IH]; intros s I Hf; [cbn [refill]; split; [exact I|]; split; [lia|reflexivity]|]. cbv zeta.
  destruct (n_cnt s <? need) eqn:Ec.
  - destruct (refill_step R s need I ltac:(lia) Hn) as (s' & E1 & I' & Hc & Ho). rewrite E1. destruct (IH s' I' ltac:(lia)) as (J1 & J2 & J3). split; [exact J1|]. split; [exact J2|]. congruence.
  - cbn [refill]. rewrite Ec. split; [exact I|]. split; [lia|reflexivity].
Qed.
Lemma consume A R s : nd_inv (A ++ R) s -> len A <= n_cnt s ->
  let c := n_cnt s - len A in
  n_b s / 2 ^ c = bval A /\
  forall oob, nd_inv R {| n_b := n_b s mod 2 ^ c; n_cnt := c; n_ix := n_ix s; n_hi := n_hi s; n_oob := oob |}.
Proof.
  intros (C & B & Hhi & HI) HA c. assert (LA : 0 <= len A) by (unfold len; lia). assert (Hc : 0 <= c) by (unfold c; lia).
  assert (Ea : n_cnt s = len A + c) by (unfold c; lia).
  pose proof (bitsz_app (len A) c (n_b s) LA Hc) as Hb. rewrite <- Ea in Hb.
  assert (Hq : 0 <= n_b s / 2 ^ c < 2 ^ len A).
  { split; [apply Z.div_pos; [lia|apply pow2_pos; lia]|]. apply Z.div_lt_upper_bound; [apply pow2_pos; lia|]. rewrite <- Z.pow_add_r by lia. replace (c + len A) with (n_cnt s) by lia. lia. }
  assert (Lq : length (bitsz (len A) (n_b s / 2 ^ c)) = length A) by (unfold bitsz; rewrite bitsn_length; unfold len; lia).
  assert (G : bitsz (len A) (n_b s / 2 ^ c) = A -> n_b s / 2 ^ c = bval A).
  { intros Hx. rewrite <- Hx. rewrite bval_bitsz by lia. symmetry. apply Z.mod_small. exact Hq. }
  assert (Hm : bitsz c (n_b s mod 2 ^ c) = bitsz c (n_b s)) by (apply (bitsz_trunc c c); lia).
  assert (Bm : 0 <= n_b s mod 2 ^ c < 2 ^ c) by (apply Z.mod_pos_bound; apply pow2_pos; lia).
  assert (SPL : forall X Y Z1 Z2 : list bool, length X = length Y -> X ++ Z1 = Y ++ Z2 -> X = Y /\ Z1 = Z2).
  { clear. induction X as [|x X IH]; intros [|y Y] Z1 Z2 L HX; try discriminate; [auto|]. injection HX as -> HX. injection L as L. destruct (IH Y Z1 Z2 L HX) as [-> ->]. auto. }
  destruct HI as [(Q & FQ & HQ & EQ & ER)|(g & Eg & Hg)].
  - rewrite Hb, <- app_assoc in ER. symmetry in ER. destruct (SPL _ _ _ _ Lq ER) as [G1 G2]. split; [apply G; exact G1|]. intros oob.
    split; [cbn; lia|]. split; [exact Bm|]. split; [exact Hhi|]. left. exists Q. cbn [n_ix n_cnt n_b]. rewrite Hm. auto.
  - rewrite Hb, <- app_assoc in Eg. destruct (SPL _ _ _ _ Lq Eg) as [G1 G2]. split; [apply G; exact G1|]. intros oob.
    split; [cbn; lia|]. split; [exact Bm|]. split; [exact Hhi|]. right. exists g. cbn [n_ix n_cnt n_b]. rewrite Hm. auto.
Qed.
Lemma land_ones x n : 0 <= n -> Z.land x (Z.shiftl 1 n - 1) = x mod 2 ^ n.
Proof. intros H. rewrite Z.shiftl_1_l. rewrite <- Z.land_ones by exact H. f_equal. rewrite Z.ones_equiv. lia. Qed.

Variable U : Z.
Variable M : Z.
Variable lut : list Z.
Hypothesis HM : 1 <= M <= 16.

Lemma nextdiff_ok l code cat X R s : nd_inv (bitsz l code ++ X ++ R) s ->
  1 <= l <= M -> 0 <= code < 2 ^ l -> 0 <= cat <= 15 -> len X = cat ->
  (forall r, 0 <= r < 2 ^ (M - l) -> nth_error lut (Z.to_nat (code * 2 ^ (M - l) + r)) = Some (cat * 256 + l)) ->
  exists s', nextdiff U d M lut s = (if cat =? 0 then 0 else extend cat (bval X), s') /\ nd_inv R s' /\ n_oob s' = n_oob s.
Proof.
  intros I Hl Hcode Hcat HX HL. unfold nextdiff.
  destruct (refill_ok _ M ltac:(lia) 4%nat s I) as (I1 & C1 & O1). { change (8 * Z.of_nat 4) with 32. pose proof (proj1 (proj1 I)). lia. }
  set (s1 := refill 4 d M s) in *. clearbody s1. pose proof I1 as I1'. destruct I1 as (Cn & Bn & _).
  assert (Ll : len (bitsz l code) = l) by (apply bitsz_length; lia).
  destruct (consume _ _ s1 I1' ltac:(lia)) as (K1 & K2). rewrite Ll in K1, K2. rewrite bval_bitsz, Z.mod_small in K1 by lia.
  (* the index *)
  assert (P1 : 0 < 2 ^ (n_cnt s1 - M)) by (apply pow2_pos; lia).
  assert (EP : 2 ^ (n_cnt s1 - l) = 2 ^ (n_cnt s1 - M) * 2 ^ (M - l)) by (rewrite <- Z.pow_add_r by lia; f_equal; lia).
  assert (PM : 0 < 2 ^ (M - l)) by (apply pow2_pos; lia).
  set (q := n_b s1 / 2 ^ (n_cnt s1 - M)) in *.
  assert (Eq1 : q / 2 ^ (M - l) = code) by (unfold q; rewrite Z.div_div by lia; rewrite <- EP; exact K1).
  set (r := q mod 2 ^ (M - l)) in *.
  assert (Eq2 : q = code * 2 ^ (M - l) + r) by (pose proof (Z.div_mod q (2 ^ (M - l)) ltac:(lia)) as DM; rewrite Eq1 in DM; unfold r; lia).
  assert (Hr : 0 <= r < 2 ^ (M - l)) by (apply Z.mod_pos_bound; lia). specialize (HL r Hr). rewrite <- Eq2 in HL.
  assert (Hi : Z.shiftr (n_b s1) (n_cnt s1 - M) = q) by (rewrite Z.shiftr_div_pow2 by lia; reflexivity). rewrite Hi.
  assert (Hn : nth (Z.to_nat q) lut 0 = cat * 256 + l) by (apply nth_error_nth; exact HL). rewrite Hn.
  assert (Hq0 : 0 <= q) by (unfold q; apply Z.div_pos; lia).
  assert (Hlen : Z.of_nat (length lut) <=? q = false).
  { assert (N : nth_error lut (Z.to_nat q) <> None) by congruence. apply nth_error_Some in N. lia. }
  assert (Hu : Z.land (cat * 256 + l) 255 = l).
  { change 255 with (Z.ones 8). rewrite Z.land_ones by lia. change (2 ^ 8) with 256. rewrite Z.add_comm, Z.mod_add by lia. apply Z.mod_small. lia. }
  assert (Ht : Z.shiftr (cat * 256 + l) 8 = cat).
  { rewrite Z.shiftr_div_pow2 by lia. change (2 ^ 8) with 256. symmetry. apply Z.div_unique with l; lia. }
  rewrite Hu, Ht, Hlen. replace (q <? 0) with false by lia. replace (16 <=? cat) with false by lia. rewrite !orb_false_r.
  rewrite land_ones by lia.
  specialize (K2 (n_oob s1)). set (s1b := {| n_b := _; n_cnt := n_cnt s1 - l; n_ix := _; n_hi := _; n_oob := _ |}) in *.
  destruct (refill_ok _ cat ltac:(lia) 4%nat s1b K2) as (I2 & C2 & O2). { change (8 * Z.of_nat 4) with 32. cbn [n_cnt s1b]. lia. }
  set (s2 := refill 4 d cat s1b) in *. clearbody s2. pose proof (proj1 I2) as Cn2.
  destruct (consume X R s2 I2 ltac:(lia)) as (K3 & K4). rewrite HX in K3, K4. rewrite Z.shiftr_div_pow2 by lia. rewrite K3.
  rewrite land_ones by lia. eexists. split; [f_equal|split; [apply K4|cbn [n_oob]; rewrite O2; cbn [s1b n_oob]; exact O1]].
  destruct (cat =? 0) eqn:E0.
  - assert (cat = 0) by lia. destruct X; [|unfold len in HX; cbn [length] in HX; lia]. cbn [bval]. subst cat. cbn [len length]. unfold shl1. change (Z.of_nat 0 - 1 <? 0) with true. cbn beta iota.
    change (Z.shiftl (-1) (len [])) with (-1). destruct (0 <? _); lia.
  - unfold shl1, extend. replace (cat - 1 <? 0) with false by lia. rewrite Z.shiftl_1_l. rewrite Z.shiftl_mul_pow2 by lia.
    destruct (bval X <? 2 ^ (cat - 1)); lia.
Qed.
End Dec.
