(* lj92_open on arbitrary bytes: termination, what is read, what is written *)
From Verif Require Import Bits M_Lj92 P_Lj92.
Ltac Zify.zify_post_hook ::= idtac.

(* ------------------------------------------------------------------ find *)
Lemma find_ff_spec d dl : forall f ix, 0 <= ix -> dl - ix <= Z.of_nat f ->
  let p := find_ff f d dl ix in ix <= p /\ (p = ix \/ p <= dl - 1) /\ (d p = 255 \/ dl - 1 <= p).
Proof.
  induction f as [|f IH]; intros ix Hix Hf; cbn [find_ff]; [lia|]. destruct (negb (d ix =? 255) && (ix <? dl - 1)) eqn:E.
  - apply andb_prop in E. destruct E as [E1 E2]. destruct (IH (ix + 1) ltac:(lia) ltac:(lia)) as (A & B & C). split; [lia|]. split; [lia|exact C].
  - cbv zeta. apply andb_false_iff in E. rewrite negb_false_iff in E. lia.
Qed.
Lemma find_ff_fuel d dl : forall f g ix, 0 <= ix -> dl - ix <= Z.of_nat f -> dl - ix <= Z.of_nat g -> find_ff f d dl ix = find_ff g d dl ix.
Proof.
  assert (Z0 : forall g ix, 0 <= ix -> dl - 1 <= ix -> find_ff g d dl ix = ix).
  { intros g ix H1 H2. destruct g; cbn [find_ff]; [reflexivity|]. replace (ix <? dl - 1) with false by lia. rewrite andb_false_r. reflexivity. }
  induction f as [|f IH]; intros g ix Hix Hf Hg; [rewrite (Z0 g) by lia; reflexivity|]. destruct g as [|g]; [rewrite (Z0 (S f)) by lia; reflexivity|]. cbn [find_ff].
  destruct (negb _ && _) eqn:E; [|reflexivity]. apply IH; lia.
Qed.
Lemma find_ff_agree d d2 dl B : (forall k, 0 <= k < B -> d2 k = d k) -> dl <= B -> forall f ix, 0 <= ix < B -> find_ff f d2 dl ix = find_ff f d dl ix.
Proof.
  intros HA HB. induction f as [|f IH]; intros ix Hix; cbn [find_ff]; [reflexivity|]. rewrite HA by lia. destruct (negb _ && _) eqn:E; [|reflexivity]. apply IH. apply andb_prop in E. lia.
Qed.
Lemma lfind_spec d dl ix : 0 <= ix -> let '(mk, ix') := lfind d dl ix in
  (mk = -1 /\ ix' = ix) \/ (ix + 2 <= ix' < dl /\ mk = d (ix' - 1) /\ d (ix' - 2) = 255).
Proof.
  intros Hix. unfold lfind. destruct (find_ff_spec d dl (Z.to_nat dl) ix Hix ltac:(lia)) as (A & B & C). set (p := find_ff _ d dl ix) in *. clearbody p. cbv zeta. destruct (dl <=? p + 2) eqn:E; [left; auto|right].
  split; [lia|]. split; [reflexivity|]. replace (p + 2 - 2) with p by lia. lia.
Qed.
Lemma lfind_agree d d2 dl B ix : (forall k, 0 <= k < B -> d2 k = d k) -> dl <= B -> 0 <= ix < B -> lfind d2 dl ix = lfind d dl ix.
Proof.
  intros HA HB Hix. unfold lfind. rewrite (find_ff_agree d d2 dl B HA HB _ ix Hix). cbv zeta. destruct (dl <=? _) eqn:E; [reflexivity|]. rewrite HA; [reflexivity|].
  pose proof (find_ff_spec d dl (Z.to_nat dl) ix ltac:(lia) ltac:(lia)) as S. cbv zeta in S. lia.
Qed.

(* ------------------------------------------------------------------ the lookup table *)
Lemma max_bits_range bits : forall n, 0 <= max_bits n bits <= Z.of_nat n.
Proof. induction n as [|n IH]; cbn [max_bits]; [lia|]. destruct (negb _); lia. Qed.
Lemma max_bits_agree b b2 : forall n, (forall k, 1 <= k <= Z.of_nat n -> b2 k = b k) -> max_bits n b2 = max_bits n b.
Proof. induction n as [|n IH]; intros HA; cbn [max_bits]; [reflexivity|]. rewrite HA by lia. rewrite IH by (intros; apply HA; lia). reflexivity. Qed.

Section Lut.
Variables (bits vals : lmem) (M : Z).
Hypothesis HM : 0 <= M <= 16.
Hypothesis Hb : forall k, 1 <= k <= 16 -> 0 <= bits k < 256.
Definition lst (acc : list Z) (i hv vl bu : Z) : Prop :=
  1 <= bu <= M + 1 /\ 0 <= vl /\ (bu <= M -> vl <= bits bu) /\ (M < bu -> vl = 0) /\ 0 <= hv <= 255 * (bu - 1) + vl /\ i = Z.of_nat (length acc) /\ i <= 2 ^ M.
Lemma lst_hv acc i hv vl bu : lst acc i hv vl bu -> hv <= 4080.
Proof. intros (A & B & C & D & E & _). destruct (Z.eq_dec bu (M + 1)) as [->|N]; [lia|]. specialize (Hb bu ltac:(lia)). lia. Qed.
Lemma lst_next acc i hv vl bu : lst acc i hv vl bu -> i < 2 ^ M -> bu <= M ->
  (bits bu <= vl -> lst acc i hv 0 (bu + 1)) /\ (vl < bits bu -> lst acc i (hv + 1) (vl + 1) bu /\ forall e, lst (e :: acc) (i + 1) hv vl bu).
Proof.
  intros (A & B & C & D & E & F & G) H1 H2. specialize (C H2). pose proof (Hb bu ltac:(lia)) as B1. split.
  - intros H. unfold lst. split; [lia|]. split; [lia|]. split; [intros H3; pose proof (Hb (bu + 1) ltac:(lia)); lia|]. split; [lia|]. split; [lia|]. auto.
  - intros H. split; [|intros e]; unfold lst; cbn [length]; repeat split; intros; lia.
Qed.
Definition lut_left (i hv bu : Z) : Z := (2 ^ M - i) + (M + 1 - bu) + (4080 - hv) + 1.
Lemma lut_loop_fuel : forall f g acc i hv rv vl bu, lst acc i hv vl bu -> lut_left i hv bu <= Z.of_nat f -> lut_left i hv bu <= Z.of_nat g ->
  lut_loop f bits vals M acc i hv rv vl bu = lut_loop g bits vals M acc i hv rv vl bu.
Proof.
  unfold lut_left. induction f as [|f IH]; intros g acc i hv rv vl bu HI Hf Hg; pose proof (lst_hv _ _ _ _ _ HI); pose proof HI as (A & _ & _ & _ & _ & _ & G); [lia|]. destruct g as [|g]; [lia|].
  cbn [lut_loop]. destruct (i <? 2 ^ M) eqn:E1; [|reflexivity]. destruct (M <? bu) eqn:E2; [reflexivity|]. destruct (lst_next _ _ _ _ _ HI ltac:(lia) ltac:(lia)) as [N1 N2].
  destruct (bits bu <=? vl) eqn:E3; [apply IH; [apply N1; lia|lia|lia]|]. destruct (N2 ltac:(lia)) as [N3 N4]. destruct (rv =? 2 ^ (M - bu)) eqn:E4; [apply IH; [exact N3|lia|lia]|]. apply IH; [apply N4|lia|lia].
Qed.
Lemma lut_loop_agree bits2 vals2 : (forall k, 1 <= k <= 16 -> bits2 k = bits k) -> (forall k, 0 <= k < 4080 -> vals2 k = vals k) ->
  forall f acc i hv rv vl bu, lst acc i hv vl bu -> lut_loop f bits2 vals2 M acc i hv rv vl bu = lut_loop f bits vals M acc i hv rv vl bu.
Proof.
  intros HB HV. induction f as [|f IH]; intros acc i hv rv vl bu HI; cbn [lut_loop]; [reflexivity|]. pose proof HI as (A & B & C & D & E & _).
  destruct (i <? 2 ^ M) eqn:E1; [|reflexivity]. destruct (M <? bu) eqn:E2; [reflexivity|]. destruct (lst_next _ _ _ _ _ HI ltac:(lia) ltac:(lia)) as [N1 N2]. rewrite HB by lia.
  destruct (bits bu <=? vl) eqn:E3; [apply IH; apply N1; lia|]. destruct (N2 ltac:(lia)) as [N3 N4]. destruct (rv =? 2 ^ (M - bu)) eqn:E4; [apply IH; exact N3|].
  rewrite HV; [apply IH; apply N4|]. specialize (C ltac:(lia)). pose proof (Hb bu ltac:(lia)). nia.
Qed.
(* every entry: a byte of the segment and a length between 1 and M; never more than 2^M entries *)
Lemma lut_loop_shape : (forall k, 0 <= vals k < 256) -> forall f acc i hv rv vl bu, lst acc i hv vl bu -> Forall (fun e => exists v l, 0 <= v < 256 /\ 1 <= l <= M /\ e = v * 256 + l) acc ->
  let r := lut_loop f bits vals M acc i hv rv vl bu in Forall (fun e => exists v l, 0 <= v < 256 /\ 1 <= l <= M /\ e = v * 256 + l) r /\ Z.of_nat (length r) <= 2 ^ M.
Proof.
  intros HV. induction f as [|f IH]; intros acc i hv rv vl bu HI HF; pose proof HI as (A & B & C & D & E & F & G).
  - cbn [lut_loop]. rewrite rev_length. split; [apply Forall_rev; exact HF|lia].
  - cbn [lut_loop]. destruct (i <? 2 ^ M) eqn:E1; [|rewrite rev_length; split; [apply Forall_rev; exact HF|lia]].
    destruct (M <? bu) eqn:E2; [rewrite rev_length; split; [apply Forall_rev; exact HF|lia]|]. destruct (lst_next _ _ _ _ _ HI ltac:(lia) ltac:(lia)) as [N1 N2].
    destruct (bits bu <=? vl) eqn:E3; [apply IH; [apply N1; lia|exact HF]|]. destruct (N2 ltac:(lia)) as [N3 N4]. destruct (rv =? 2 ^ (M - bu)) eqn:E4; [apply IH; [exact N3|exact HF]|].
    apply IH; [apply N4|]. constructor; [|exact HF]. exists (vals hv), bu. split; [apply HV|]. split; [lia|]. apply lor_byte; [apply HV|lia].
Qed.
End Lut.

(* ------------------------------------------------------------------ the segments *)
Lemma beh_range d a : byte_mem d -> 0 <= beh d a < 65536.
Proof. intros Hd. unfold beh. rewrite Z.shiftl_mul_pow2 by lia. pose proof (Hd a). pose proof (Hd (a + 1)). rewrite lor_add by (try (change (2 ^ 8) with 256); lia). change (2 ^ 8) with 256. lia. Qed.
Lemma beh_agree d d2 a : d2 a = d a -> d2 (a + 1) = d (a + 1) -> beh d2 a = beh d a.
Proof. intros H1 H2. unfold beh. rewrite H1, H2. reflexivity. Qed.
Lemma upd_byte d a v : byte_mem d -> 0 <= v < 256 -> byte_mem (upd d a v).
Proof. intros Hd Hv k. unfold upd. destruct (k =? a); [exact Hv|apply Hd]. Qed.

Definition shape (h : lj_hdr) : Prop :=
  0 <= j_x h < 65536 /\ 0 <= j_y h < 65536 /\ 0 <= j_bits h < 256 /\ 0 <= j_comp h < 256 /\ 0 <= j_huffbits h <= 16 /\
  Z.of_nat (length (j_lut h)) <= 2 ^ j_huffbits h /\ Forall (fun e => exists v l, 0 <= v < 256 /\ 1 <= l <= j_huffbits h /\ e = v * 256 + l) (j_lut h).
Lemma shape0 : shape hdr0.
Proof. unfold shape, hdr0. cbn. repeat split; try lia. constructor. Qed.
Lemma lst0 bits M : (forall k, 1 <= k <= 16 -> 0 <= bits k < 256) -> 0 <= M <= 16 -> lst bits M [] 0 0 0 1.
Proof. intros Hb HM. unfold lst. cbn [length]. pose proof (pow2_pos M ltac:(lia)). repeat split; try lia. intros. specialize (Hb 1 ltac:(lia)). lia. Qed.
Lemma parse_huff_shape d dl ix h : byte_mem d -> shape h -> let '(r, d', h') := parse_huff d dl ix h in shape h' /\ (r = NONE \/ r = CORRUPT) /\ j_scan h' = j_scan h.
Proof.
  intros Hd Hs. unfold parse_huff. pose proof (upd_byte d (ix + 2) 0 Hd ltac:(lia)) as Hd'. set (d' := upd d (ix + 2) 0) in *. clearbody d'. cbv zeta. destruct (dl <=? _); [auto|].
  set (bits := fun k => d' (ix + 2 + k)). pose proof (max_bits_range bits 16) as HM. change (Z.of_nat 16) with 16 in HM. set (M := max_bits 16 bits) in *. clearbody M.
  assert (Hb : forall k, 1 <= k <= 16 -> 0 <= bits k < 256) by (intros; apply Hd'). 
  destruct (lut_loop_shape bits (fun k => d' (ix + 19 + k)) M HM Hb ltac:(intros; apply Hd') (lut_fuel M) [] 0 0 0 0 1 (lst0 bits M Hb HM) ltac:(constructor)) as [S1 S2].
  destruct Hs as (A & B & C & D & _). split; [|auto]. unfold shape. cbn [j_x j_y j_bits j_comp j_huffbits j_lut]. auto 10.
Qed.
Lemma parse_sof3_shape d dl ix h : byte_mem d -> shape h -> let '(r, ix', h') := parse_sof3 d dl ix h in shape h' /\ (r = NONE \/ r = CORRUPT) /\ j_scan h' = j_scan h.
Proof.
  intros Hd Hs. unfold parse_sof3. destruct (dl <=? _); [auto|]. split; [|auto]. destruct Hs as (A & B & C & D & E). unfold shape. cbn [j_x j_y j_bits j_comp j_huffbits j_lut].
  pose proof (beh_range d (ix + 5) Hd). pose proof (beh_range d (ix + 3) Hd). pose proof (Hd (ix + 2)). pose proof (Hd (ix + 7)). auto 10.
Qed.

(* what changes: the byte three after a pair FF C4 becomes zero *)
Definition zeroed (d0 : lmem) (dl : Z) (d : lmem) : Prop := forall k, d k <> d0 k -> d k = 0 /\ d0 (k - 4) = 255 /\ d0 (k - 3) = 0xc4 /\ 4 <= k <= dl + 1.
Lemma zeroed_orig d0 dl d k v : zeroed d0 dl d -> d k = v -> v <> 0 -> d0 k = v.
Proof. intros HZ E Hv. destruct (Z.eq_dec (d k) (d0 k)) as [EE|N]; [congruence|]. apply HZ in N. lia. Qed.

Lemma parse_image_inv d0 dl : forall f d ix h, zeroed d0 dl d -> byte_mem d -> shape h -> 0 <= ix -> j_scan h = 0 ->
  let '(r, d', h') := parse_image f d dl ix h in zeroed d0 dl d' /\ byte_mem d' /\ shape h' /\ (r = NONE \/ r = CORRUPT) /\
    (j_scan h' = 0 \/ ix + 2 <= j_scan h' < dl /\ d0 (j_scan h' - 2) = 255 /\ d0 (j_scan h' - 1) = 0xda).
Proof.
  induction f as [|f IH]; intros d ix h HZ Hd Hs Hix Hsc; cbn [parse_image]; [auto 8|]. pose proof (lfind_spec d dl ix Hix) as L. destruct (lfind d dl ix) as [mk ix'].
  assert (Weak : forall ix2 h2 d2 r2, ix' <= ix2 -> (zeroed d0 dl d2 /\ byte_mem d2 /\ shape h2 /\ (r2 = NONE \/ r2 = CORRUPT) /\ (j_scan h2 = 0 \/ ix2 + 2 <= j_scan h2 < dl /\ d0 (j_scan h2 - 2) = 255 /\ d0 (j_scan h2 - 1) = 0xda)) ->
     (zeroed d0 dl d2 /\ byte_mem d2 /\ shape h2 /\ (r2 = NONE \/ r2 = CORRUPT) /\ (j_scan h2 = 0 \/ ix + 2 <= j_scan h2 < dl /\ d0 (j_scan h2 - 2) = 255 /\ d0 (j_scan h2 - 1) = 0xda))).
  { intros ix2 h2 d2 r2 H1 (P1 & P2 & P3 & P4 & P5). do 4 (split; [assumption|]). destruct P5 as [P5|P5]; [left; exact P5|right; destruct P5 as (Q1 & Q2 & Q3); split; [lia|auto]]. }
  destruct (mk =? 0xc4) eqn:E1.
  { destruct L as [[L _]|(L1 & L2 & L3)]; [lia|]. pose proof (parse_huff_shape d dl ix' h Hd Hs) as PS.
    assert (HZ' : zeroed d0 dl (upd d (ix' + 2) 0)).
    { intros k. unfold upd. destruct (k =? ix' + 2) eqn:Ek; [|apply HZ]. intros _. assert (k = ix' + 2) by lia. subst k. split; [reflexivity|]. split; [|split; [|lia]].
      - replace (ix' + 2 - 4) with (ix' - 2) by lia. apply (zeroed_orig d0 dl d _ 255 HZ L3). lia.
      - replace (ix' + 2 - 3) with (ix' - 1) by lia. apply (zeroed_orig d0 dl d _ 0xc4 HZ); [lia|lia]. }
    pose proof (upd_byte d (ix' + 2) 0 Hd ltac:(lia)) as Hd'.
    assert (ED : snd (fst (parse_huff d dl ix' h)) = upd d (ix' + 2) 0) by (unfold parse_huff; cbv zeta; destruct (dl <=? _); reflexivity).
    destruct (parse_huff d dl ix' h) as [[r d1] h1]. cbn [fst snd] in ED. subst d1. destruct PS as (S1 & S2 & S3). destruct (r =? NONE) eqn:Er.
    - pose proof (IH _ ix' h1 HZ' Hd' S1 ltac:(lia) ltac:(congruence)) as G. destruct (parse_image f _ dl ix' h1) as [[r2 d2] h2]. apply (Weak ix'); [lia|exact G].
    - split; [exact HZ'|]. split; [exact Hd'|]. split; [exact S1|]. split; [exact S2|]. left. congruence. }
  destruct (mk =? 0xc3) eqn:E2.
  { destruct L as [[L _]|(L1 & L2 & L3)]; [lia|]. pose proof (parse_sof3_shape d dl ix' h Hd Hs) as PS.
    assert (EI : ix' <= snd (fst (parse_sof3 d dl ix' h))) by (unfold parse_sof3; pose proof (beh_range d ix' Hd); destruct (dl <=? _); cbn [fst snd]; lia).
    destruct (parse_sof3 d dl ix' h) as [[r ix1] h1]. cbn [fst snd] in EI. destruct PS as (S1 & S2 & S3). destruct (r =? NONE) eqn:Er.
    - pose proof (IH d ix1 h1 HZ Hd S1 ltac:(lia) ltac:(congruence)) as G. destruct (parse_image f _ dl ix1 h1) as [[r2 d2] h2]. apply (Weak ix1); [lia|exact G].
    - split; [exact HZ|]. split; [exact Hd|]. split; [exact S1|]. split; [exact S2|]. left. congruence. }
  destruct (mk =? 0xd9) eqn:E3; [auto 8|]. destruct (mk =? 0xda) eqn:E4.
  { destruct L as [[L _]|(L1 & L2 & L3)]; [lia|]. split; [exact HZ|]. split; [exact Hd|]. split; [exact Hs|]. split; [auto|]. right. cbn [j_scan]. split; [lia|]. split; [apply (zeroed_orig d0 dl d _ 255 HZ L3); lia|apply (zeroed_orig d0 dl d _ 0xda HZ); lia]. }
  destruct (mk =? -1) eqn:E5; [auto 8|]. destruct L as [[L _]|(L1 & L2 & L3)]; [lia|].
  pose proof (beh_range d ix' Hd). unfold parse_block. destruct (dl <=? ix' + beh d ix') eqn:E6; [change (CORRUPT =? NONE) with false; cbn beta iota; auto 8|]. change (NONE =? NONE) with true. cbn beta iota.
  pose proof (IH d (ix' + beh d ix') h HZ Hd Hs ltac:(lia) Hsc) as G. destruct (parse_image f d dl (ix' + beh d ix') h) as [[r2 d2] h2]. apply (Weak (ix' + beh d ix')); [lia|exact G].
Qed.

(* fuel: every turn of the loop moves ix by at least two *)
Lemma parse_image_fuel dl : forall f g d ix h, byte_mem d -> 0 <= ix -> dl - ix + 2 <= 2 * Z.of_nat f -> dl - ix + 2 <= 2 * Z.of_nat g -> (1 <= f)%nat -> (1 <= g)%nat ->
  parse_image f d dl ix h = parse_image g d dl ix h.
Proof.
  induction f as [|f IH]; intros g d ix h Hd Hix Hf Hg H1 H2; [lia|]. destruct g as [|g]; [lia|]. cbn [parse_image]. pose proof (lfind_spec d dl ix Hix) as L. destruct (lfind d dl ix) as [mk ix'].
  destruct (mk =? 0xc4) eqn:E1.
  { destruct L as [[L _]|(L1 & L2 & L3)]; [lia|]. assert (ED : snd (fst (parse_huff d dl ix' h)) = upd d (ix' + 2) 0) by (unfold parse_huff; cbv zeta; destruct (dl <=? _); reflexivity).
    destruct (parse_huff d dl ix' h) as [[r d1] h1]. cbn [fst snd] in ED. subst d1. destruct (r =? NONE); [|reflexivity]. apply IH; try lia. apply upd_byte; [exact Hd|lia]. }
  destruct (mk =? 0xc3) eqn:E2.
  { destruct L as [[L _]|(L1 & L2 & L3)]; [lia|].
    assert (EI : ix' <= snd (fst (parse_sof3 d dl ix' h))) by (unfold parse_sof3; pose proof (beh_range d ix' Hd); destruct (dl <=? _); cbn [fst snd]; lia).
    destruct (parse_sof3 d dl ix' h) as [[r ix1] h1]. cbn [fst snd] in EI. destruct (r =? NONE); [|reflexivity]. apply IH; try lia. exact Hd. }
  destruct (mk =? 0xd9); [reflexivity|]. destruct (mk =? 0xda); [reflexivity|]. destruct (mk =? -1) eqn:E5; [reflexivity|]. destruct L as [[L _]|(L1 & L2 & L3)]; [lia|].
  pose proof (beh_range d ix' Hd). unfold parse_block. destruct (dl <=? ix' + beh d ix'); [reflexivity|]. change (NONE =? NONE) with true. cbn beta iota. apply IH; try lia. exact Hd.
Qed.

(* two memories that agree on the first dl+65535 bytes *)
Lemma parse_huff_agree d d2 dl ix h : byte_mem d -> byte_mem d2 -> (forall k, 0 <= k < dl + 65535 -> d2 k = d k) -> 0 <= ix < dl ->
  let '(r, e, h1) := parse_huff d dl ix h in exists e2, parse_huff d2 dl ix h = (r, e2, h1) /\ forall k, 0 <= k < dl + 65535 -> e2 k = e k.
Proof.
  intros Hd Hd2 HA Hix. unfold parse_huff. cbv zeta. set (e := upd d (ix + 2) 0). set (e2 := upd d2 (ix + 2) 0).
  assert (HE : forall k, 0 <= k < dl + 65535 -> e2 k = e k) by (intros k Hk; unfold e, e2, upd; destruct (k =? _); [reflexivity|apply HA; exact Hk]).
  assert (Be : byte_mem e) by (apply upd_byte; [exact Hd|lia]). assert (Be2 : byte_mem e2) by (apply upd_byte; [exact Hd2|lia]). clearbody e e2.
  rewrite (beh_agree e e2 ix) by (apply HE; lia). destruct (dl <=? _); [eauto|]. exists e2. split; [|exact HE].
  set (bits := fun k => e (ix + 2 + k)). assert (Hb : forall k, 1 <= k <= 16 -> 0 <= bits k < 256) by (intros; apply Be).
  rewrite (max_bits_agree bits (fun k => e2 (ix + 2 + k)) 16) by (intros k Hk; apply HE; lia).
  pose proof (max_bits_range bits 16) as HM. change (Z.of_nat 16) with 16 in HM. set (M := max_bits 16 bits) in *. clearbody M.
  rewrite (lut_loop_agree bits (fun k => e (ix + 19 + k)) M HM Hb (fun k => e2 (ix + 2 + k)) (fun k => e2 (ix + 19 + k))); [reflexivity|intros; apply HE; lia|intros; apply HE; lia|apply lst0; assumption].
Qed.
Lemma parse_image_agree dl : forall f d d2 ix h, byte_mem d -> byte_mem d2 -> (forall k, 0 <= k < dl + 65535 -> d2 k = d k) -> 0 <= ix < dl + 65535 ->
  let '(r, e, h1) := parse_image f d dl ix h in exists e2, parse_image f d2 dl ix h = (r, e2, h1) /\ forall k, 0 <= k < dl + 65535 -> e2 k = e k.
Proof.
  induction f as [|f IH]; intros d d2 ix h Hd Hd2 HA Hix; cbn [parse_image]; [eauto|]. rewrite (lfind_agree d d2 dl (dl + 65535) ix HA ltac:(lia) Hix).
  pose proof (lfind_spec d dl ix ltac:(lia)) as L. destruct (lfind d dl ix) as [mk ix'].
  destruct (mk =? 0xc4) eqn:E1.
  { destruct L as [[L _]|(L1 & L2 & L3)]; [lia|]. pose proof (parse_huff_agree d d2 dl ix' h Hd Hd2 HA ltac:(lia)) as PA.
    assert (ED : forall d, snd (fst (parse_huff d dl ix' h)) = upd d (ix' + 2) 0) by (intros z; unfold parse_huff; cbv zeta; destruct (dl <=? _); reflexivity). pose proof (ED d) as ED1. pose proof (ED d2) as ED2. clear ED.
    destruct (parse_huff d dl ix' h) as [[r e] h1]. destruct PA as (e2 & P1 & P2). rewrite P1 in *. cbn [fst snd] in ED1, ED2. destruct (r =? NONE); [|eauto].
    apply IH; [rewrite ED1; apply upd_byte; [exact Hd|lia]|rewrite ED2; apply upd_byte; [exact Hd2|lia]|exact P2|lia]. }
  destruct (mk =? 0xc3) eqn:E2.
  { destruct L as [[L _]|(L1 & L2 & L3)]; [lia|]. unfold parse_sof3. destruct (dl <=? ix' + 6) eqn:E6; [change (CORRUPT =? NONE) with false; cbn beta iota; eauto|]. change (NONE =? NONE) with true. cbn beta iota.
    pose proof (beh_range d ix' Hd). rewrite (beh_agree d d2 ix'), (beh_agree d d2 (ix' + 5)), (beh_agree d d2 (ix' + 3)), (HA (ix' + 2)), (HA (ix' + 7)) by (try apply HA; lia).
    apply IH; try assumption. lia. }
  destruct (mk =? 0xd9); [eauto|]. destruct (mk =? 0xda); [eauto|]. destruct (mk =? -1) eqn:E5; [eauto|]. destruct L as [[L _]|(L1 & L2 & L3)]; [lia|].
  pose proof (beh_range d ix' Hd). unfold parse_block. rewrite (beh_agree d d2 ix') by (apply HA; lia). destruct (dl <=? ix' + beh d ix') eqn:E6; [change (CORRUPT =? NONE) with false; cbn beta iota; eauto|].
  change (NONE =? NONE) with true. cbn beta iota. apply IH; try assumption. lia.
Qed.
