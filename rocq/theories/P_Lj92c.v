(* liblj92: one difference against the reference decoder; the loops of the scan *)
From Verif Require Import Bits Spec Spec_Lj92 P_Decode M_Predictor M_Lj92 P_Lj92 P_Lj92b.
Ltac Zify.zify_post_hook ::= idtac.

Lemma lookup_nth s : forall vals codes, In s vals -> length codes = length vals ->
  exists j, nth_error codes j = Some (lookup s vals codes) /\ nth j vals 0 = s /\ (j < length vals)%nat.
Proof.
  induction vals as [|v vs IH]; intros codes Hin L; [destruct Hin|]. destruct codes as [|c cs]; [discriminate|]. cbn [length] in L. cbn [lookup].
  destruct (v =? s) eqn:E.
  - exists 0%nat. cbn [nth_error nth length]. split; [reflexivity|]. split; lia.
  - destruct Hin as [->|Hin]; [lia|]. destruct (IH cs Hin ltac:(lia)) as (j & J1 & J2 & J3). exists (S j). cbn [nth_error nth length]. split; [exact J1|]. split; [exact J2|lia].
Qed.
Lemma decode_category_inv : forall t base l s rest, decode_category t base l = Some (s, rest) ->
  exists n code, base <= s < base + len t /\ nth_error t (Z.to_nat (s - base)) = Some (n, code) /\ l = bitsz n code ++ rest.
Proof.
  induction t as [|[n code] t IH]; intros base l s rest E; cbn [decode_category] in E; [discriminate|]. unfold len. cbn [length].
  destruct (strip_prefix (bitsz n code) l) as [r|] eqn:Es.
  - injection E as <- <-. exists n, code. split; [lia|]. rewrite Z.sub_diag. cbn [Z.to_nat nth_error]. split; [reflexivity|]. apply strip_prefix_some. exact Es.
  - destruct (IH _ _ _ _ E) as (n' & c' & B & N & L). exists n', c'. unfold len in B. split; [lia|]. split; [|exact L].
    replace (Z.to_nat (s - base)) with (S (Z.to_nat (s - (base + 1)))) by lia. exact N.
Qed.

Lemma extend_small c v : 1 <= c <= 15 -> 0 <= v < 2 ^ c -> - 32768 < extend c v < 32768.
Proof.
  intros Hc Hv. unfold extend. pose proof (pow2_le c 15 ltac:(lia)) as P. change (2 ^ 15) with 32768 in P.
  destruct (v <? 2 ^ (c - 1)); lia.
Qed.
Lemma decode_diff_small t R dv rest : len t <= 16 -> decode_diff t R = Some (dv, rest) -> dv <> 32768.
Proof.
  intros Hl ED. unfold decode_diff in ED. destruct (decode_category t 0 R) as [[c rest0]|] eqn:EC; [|discriminate].
  destruct (decode_category_inv _ _ _ _ _ EC) as (n & code & B & _). destruct (c =? 0) eqn:E0; [injection ED as <- <-; lia|].
  replace (c =? 16) with false in ED by lia. destruct (Z.of_nat (length rest0) <? c) eqn:Er; [discriminate|]. injection ED as <- <-.
  pose proof (bval_bound (firstn (Z.to_nat c) rest0)) as Bv. rewrite firstn_length, Nat.min_l, Z2Nat.id in Bv by lia.
  pose proof (extend_small c _ ltac:(lia) Bv). lia.
Qed.

(* one call of nextdiff follows the reference decoder, class 16 excepted *)
Lemma nextdiff_ref d E U M lut bits vals t R s dv rest :
  byte_mem d -> lut_ok M lut bits vals -> length vals = list_sum bits -> described_by t bits vals -> len t <= 17 ->
  nd_inv d E R s -> decode_diff t R = Some (dv, rest) -> dv <> 32768 ->
  exists s', nextdiff U d M lut s = (dv, s') /\ nd_inv d E rest s' /\ n_oob s' = n_oob s.
Proof.
  intros Hd (HM & _ & HL) Hlv Ht Hlen I ED Hdv. unfold decode_diff in ED. destruct (decode_category t 0 R) as [[c rest0]|] eqn:EC; [|discriminate].
  destruct (decode_category_inv _ _ _ _ _ EC) as (n & code & B & N & ->). rewrite Z.add_0_l in B. rewrite Z.sub_0_r in N.
  destruct (Ht _ _ N) as [Hin El]. rewrite Z2Nat.id in Hin, El by lia.
  destruct (lookup_nth c vals (annexC bits 1 0) Hin ltac:(rewrite annexC_len; lia)) as (j & J1 & J2 & J3). rewrite <- El in J1.
  destruct (HL _ _ _ J1) as (L1 & L2 & L3). rewrite J2 in L3. clear J2.
  destruct (c =? 0) eqn:E0.
  - injection ED as <- <-. assert (c = 0) by lia. subst c.
    destruct (nextdiff_ok d Hd E U M lut HM n code 0 [] rest0 s I L1 L2 ltac:(lia) eq_refl L3) as (s' & S1 & S2 & S3). exists s'. cbn in S1. auto.
  - destruct (c =? 16) eqn:E16; [congruence|]. destruct (Z.of_nat (length rest0) <? c) eqn:Er; [discriminate|]. injection ED as <- <-.
    rewrite <- (firstn_skipn (Z.to_nat c) rest0) in I.
    destruct (nextdiff_ok d Hd E U M lut HM n code c (firstn (Z.to_nat c) rest0) (skipn (Z.to_nat c) rest0) s I L1 L2 ltac:(lia)) as (s' & S1 & S2 & S3).
    + unfold len. rewrite firstn_length. lia.
    + exact L3.
    + exists s'. rewrite E0 in S1. auto.
Qed.
Lemma refill_oob d need : forall f s, n_oob (refill f d need s) = n_oob s.
Proof.
  induction f as [|f IH]; intros s; cbn [refill]; [reflexivity|]. destruct (n_cnt s <? need); [|reflexivity]. destruct (d (n_ix s) =? 255); [rewrite IH; reflexivity|].
  destruct (d (n_ix s + 1) =? 255); rewrite IH; reflexivity.
Qed.
Lemma nextdiff_oob_eq U d M lut s dv s' : nextdiff U d M lut s = (dv, s') -> n_oob s = true -> n_oob s' = true.
Proof.
  intros EQ H. unfold nextdiff in EQ. assert (O1 : n_oob (refill 4 d M s) = true) by (rewrite refill_oob; exact H). set (s1 := refill 4 d M s) in *. clearbody s1.
  set (sb := {| n_b := _; n_cnt := n_cnt s1 - _; n_ix := _; n_hi := _; n_oob := _ |}) in *. assert (O2 : n_oob sb = true) by (unfold sb; cbn [n_oob]; rewrite O1; reflexivity). clearbody sb.
  match type of EQ with context [refill 4 d ?T sb] => assert (O3 : n_oob (refill 4 d T sb) = true) by (rewrite refill_oob; exact O2); set (s2 := refill 4 d T sb) in * end. clearbody s2.
  injection EQ as _ <-. exact O3.
Qed.
Lemma nextdiff_oob U d M lut s : n_oob s = true -> n_oob (snd (nextdiff U d M lut s)) = true.
Proof. intros H. destruct (nextdiff U d M lut s) as [dv s'] eqn:EQ. exact (nextdiff_oob_eq _ _ _ _ _ _ _ EQ H). Qed.
(* class 16: sssshist[16] *)
Lemma nextdiff_16 d E U M lut bits vals t R rest s :
  byte_mem d -> lut_ok M lut bits vals -> length vals = list_sum bits -> described_by t bits vals -> len t = 17 ->
  nd_inv d E R s -> R = code_bits t 16 ++ rest -> n_oob (snd (nextdiff U d M lut s)) = true.
Proof.
  intros Hd (HM & _ & HL) Hlv Ht Hlen I ER. destruct (nextdiff U d M lut s) as [dv s'] eqn:EQ. cbn [snd]. unfold code_bits in ER. change (Z.to_nat 16) with 16%nat in ER.
  destruct (nth_error t 16) as [[l code]|] eqn:N; [|apply nth_error_None in N; unfold len in Hlen; lia].
  destruct (Ht _ _ N) as [Hin El]. change (Z.of_nat 16) with 16 in Hin, El.
  destruct (lookup_nth 16 vals (annexC bits 1 0) Hin ltac:(rewrite annexC_len; lia)) as (j & J1 & J2 & J3). rewrite <- El in J1.
  destruct (HL _ _ _ J1) as (Hl & Hcode & L3). rewrite J2 in L3. subst R.
  unfold nextdiff in EQ.
  destruct (refill_ok d Hd E _ M ltac:(lia) 4%nat s I) as (I1 & C1 & O1). { change (8 * Z.of_nat 4) with 32. pose proof (proj1 (proj1 I)). lia. }
  set (s1 := refill 4 d M s) in *. clearbody s1. pose proof I1 as I1'. destruct I1 as (Cn & Bn & _).
  assert (Ll : len (bitsz l code) = l) by (apply bitsz_length; lia).
  destruct (consume d E _ _ s1 I1' ltac:(lia)) as (K1 & _). rewrite Ll in K1. rewrite bval_bitsz, Z.mod_small in K1 by lia.
  assert (P1 : 0 < 2 ^ (n_cnt s1 - M)) by (apply pow2_pos; lia).
  assert (EP : 2 ^ (n_cnt s1 - l) = 2 ^ (n_cnt s1 - M) * 2 ^ (M - l)) by (rewrite <- Z.pow_add_r by lia; f_equal; lia).
  assert (PM : 0 < 2 ^ (M - l)) by (apply pow2_pos; lia).
  set (q := n_b s1 / 2 ^ (n_cnt s1 - M)) in *.
  assert (Eq1 : q / 2 ^ (M - l) = code) by (unfold q; rewrite Z.div_div by lia; rewrite <- EP; exact K1).
  set (r := q mod 2 ^ (M - l)) in *.
  assert (Eq2 : q = code * 2 ^ (M - l) + r) by (pose proof (Z.div_mod q (2 ^ (M - l)) ltac:(lia)) as DM; rewrite Eq1 in DM; unfold r; lia).
  assert (Hr : 0 <= r < 2 ^ (M - l)) by (apply Z.mod_pos_bound; lia). specialize (L3 r Hr). rewrite <- Eq2 in L3.
  assert (Hi : Z.shiftr (n_b s1) (n_cnt s1 - M) = q) by (rewrite Z.shiftr_div_pow2 by lia; reflexivity). rewrite Hi in EQ.
  assert (Hn : nth (Z.to_nat q) lut 0 = 16 * 256 + l) by (apply nth_error_nth; exact L3). rewrite Hn in EQ.
  assert (Hs : Z.shiftr (16 * 256 + l) 8 = 16). { rewrite Z.shiftr_div_pow2 by lia. change (2 ^ 8) with 256. symmetry. apply Z.div_unique with l; lia. }
  rewrite Hs in EQ. set (sb := {| n_b := _; n_cnt := n_cnt s1 - _; n_ix := _; n_hi := _; n_oob := _ |}) in *.
  assert (O2 : n_oob sb = true) by (unfold sb; cbn [n_oob]; apply orb_true_r). clearbody sb.
  assert (O3 : n_oob (refill 4 d 16 sb) = true) by (rewrite refill_oob; exact O2). set (s2 := refill 4 d 16 sb) in *. clearbody s2. injection EQ as _ <-. exact O3.
Qed.

Lemma for_loop_inv {A} (body : Z -> A -> option A) (P : Z -> A -> Prop) : forall n i x, P i x ->
  (forall k y, i <= k < i + Z.of_nat n -> P k y -> exists z, body k y = Some z /\ P (k + 1) z) ->
  exists y, for_loop n i body x = Some y /\ P (i + Z.of_nat n) y.
Proof.
  induction n as [|n IH]; intros i x H0 HS; cbn [for_loop]; [exists x; rewrite Z.add_0_r; auto|].
  destruct (HS i x ltac:(lia) H0) as (z & -> & Hz). destruct (IH (i + 1) z Hz) as (y & E & Hy).
  - intros k y Hk. apply HS. lia.
  - exists y. split; [exact E|]. replace (i + Z.of_nat (S n)) with (i + 1 + Z.of_nat n) by lia. exact Hy.
Qed.

Lemma ref_decode_len t bd W : forall n img l px, ref_decode t bd W n img l = Some px -> length px = (length img + n)%nat /\ firstn (length img) px = img.
Proof.
  induction n as [|n IH]; intros img l px E; cbn [ref_decode] in E.
  - injection E as <-. split; [lia|apply firstn_all].
  - destruct (decode_diff t l) as [[dv rest]|]; [|discriminate]. apply IH in E. destruct E as [E1 E2]. rewrite app_length in E1, E2. cbn [length] in E1, E2. split; [lia|].
    apply (f_equal (firstn (length img))) in E2. rewrite firstn_firstn, Nat.min_l in E2 by lia. rewrite E2, firstn_app, Nat.sub_diag, firstn_all, app_nil_r. reflexivity.
Qed.
Lemma u16_rem x : trunc 16 (Z.rem x 65536) = x mod 2 ^ 16.
Proof.
  unfold trunc. change (2 ^ 16) with 65536. pose proof (Z.quot_rem x 65536 ltac:(lia)) as E.
  replace (Z.rem x 65536) with (x + (- Z.quot x 65536) * 65536) by lia. apply Z.mod_add. lia.
Qed.
Lemma nth_firstn {A} (dflt : A) : forall n k l, (k < n)%nat -> nth k (firstn n l) dflt = nth k l dflt.
Proof. induction n as [|n IH]; intros k l Hk; [lia|]. destruct l as [|x l]; [reflexivity|]. destruct k; [reflexivity|]. cbn [firstn nth]. apply IH. lia. Qed.

Section Scan.
Variable d : lmem.
Hypothesis Hd : byte_mem d.
Variable E U : Z.
Variable h : lj_hdr.
Variables (bits : list nat) (vals : list Z) (t : table) (px : list Z) (img0 : lmem) (a : dec_arg).
Let W := 4 * j_x h.
Let H := j_y h.
Hypothesis Hlut : lut_ok (j_huffbits h) (j_lut h) bits vals.
Hypothesis Hlv : length vals = list_sum bits.
Hypothesis Ht : described_by t bits vals.
Hypothesis Htl : len t <= 17.
Hypothesis Hcomp : j_comp h = 4.
Hypothesis Hx : 1 <= j_x h.
Hypothesis Hy : 0 <= j_y h.
Hypothesis Hskip : 0 <= da_skip a.
Hypothesis Hlin : da_lin a <> None -> Forall (fun p => p <= da_linlen a) px.

Definition lin_of (p : Z) : Z := match da_lin a with None => p | Some f => f p end.
(* where sample k goes in the target *)
Definition pos_of (k : Z) : Z := k / W * (W + da_skip a) + k mod W.
Hypothesis Hpx : len px = W * H.

(* the row buffers: row r is written at 0 if r is even, else at x *)
Definition ptrs (r : Z) (s : sc_st) : Prop :=
  s_out s = r * (W + da_skip a) /\
  s_this s = (if Z.even r then 0 else j_x h) /\ s_last s = (if Z.even r then j_x h else 0).
Record base_inv (i : Z) (R : list bool) (s : sc_st) : Prop := {
  bi_bits : nd_inv d E R (s_nd s);
  bi_oob : n_oob (s_nd s) = false;
  bi_img : forall k, 0 <= k < i -> s_img s (pos_of k) = lin_of (nth (Z.to_nat k) px 0);
  bi_frame : forall p, (forall k, 0 <= k < i -> p <> pos_of k) -> s_img s p = img0 p }.
(* before sample c of column col of row r: everything is as it should be, except that the first samples of the row above an odd row may be
   overwritten from number x on *)
Definition row_inv (r col c : Z) (R : list bool) (s : sc_st) : Prop :=
  base_inv (r * W + 4 * col + c) R s /\
  (forall j, 0 <= j < 4 * col + c -> s_rows s (s_this s + j) = nth (Z.to_nat (r * W + j)) px 0) /\
  (col = 0 -> 1 <= r -> forall j, c <= j < 4 -> (Z.even r = true \/ j < j_x h) -> s_rows s (s_last s + j) = nth (Z.to_nat ((r - 1) * W + j)) px 0).

Lemma pos_inj k k' : 0 <= k -> 0 <= k' -> pos_of k = pos_of k' -> k = k'.
Proof.
  intros H1 H2 Ep. unfold pos_of in Ep. assert (HW : 4 <= W) by (unfold W; lia).
  pose proof (Z.mod_pos_bound k W ltac:(lia)). pose proof (Z.mod_pos_bound k' W ltac:(lia)).
  assert (Eq : k / W = k' / W) by nia. rewrite (Z.div_mod k W), (Z.div_mod k' W) by lia. rewrite Eq in *. lia.
Qed.
Lemma idx r col c : 0 <= r < H -> 0 <= col < j_x h -> 0 <= c < 4 -> let i := r * W + 4 * col + c in
  i mod W = 4 * col + c /\ i / W = r /\ 0 <= i < W * H.
Proof.
  intros Hr Hcol Hc i. assert (HW : 4 <= W) by (unfold W; lia). repeat split.
  - unfold i. rewrite <- Z.add_assoc, Z.add_comm, Z.mod_add by lia. apply Z.mod_small. unfold W. lia.
  - unfold i. rewrite <- Z.add_assoc, Z.add_comm, Z.div_add, Z.div_small by (unfold W; lia). lia.
  - unfold i. nia.
  - unfold i. unfold W in *. nia.
Qed.

(* what a sample changes, whatever is decoded *)
Lemma sample_any r col c s : da_lin a = None -> ptrs r s ->
  exists s' v, sample U d h 1 a r col c s = Some s' /\ ptrs r s' /\ s_img s' = upd (s_img s) (s_out s + col * 4 + c) v /\
    (n_oob (snd (nextdiff U d (j_huffbits h) (j_lut h) (s_nd s))) = true -> n_oob (s_nd s') = true).
Proof.
  intros Hl HP. unfold sample, sample_px. rewrite Hcomp, Hl.
  destruct (nextdiff U d (j_huffbits h) (j_lut h) (s_nd s)) as [dv nd1]. match goal with |- context [let '(p, ok) := ?e in _] => destruct e as [p1 ok1] end. eexists _, _. split; [reflexivity|]. split; [exact HP|]. split; [reflexivity|].
  cbn [s_nd n_oob snd]. intros ->. reflexivity.
Qed.

(* the sample when its prediction is right *)
Lemma sample_ok r col c R s dv rest : 0 <= r < H -> 0 <= col < j_x h -> 0 <= c < 4 -> ptrs r s -> row_inv r col c R s ->
  let i := r * W + 4 * col + c in
  decode_diff t R = Some (dv, rest) -> dv <> 32768 ->
  nth (Z.to_nat i) px 0 = (prediction (j_bits h) W (firstn (Z.to_nat i) px) i + dv) mod 2 ^ 16 ->
  (1 <= r -> col = 0 -> Z.even r = true \/ c < j_x h) ->
  exists s', sample U d h 1 a r col c s = Some s' /\ ptrs r s' /\ row_inv r col (c + 1) rest s'.
Proof.
  intros Hr Hcol Hc (Ho & Hth & Hla) (B & Hthis & Hlast) i ED Hdv Ev Hok. unfold sample, sample_px. rewrite Hcomp.
  assert (HW : 4 <= W) by (unfold W; lia).
  destruct (idx r col c Hr Hcol Hc) as (Him & Hid & Hi0). fold i in Him, Hid, Hi0.
  fold i in B. destruct B as [BN Boob Bimg Bframe].
  destruct (nextdiff_ref d E U _ _ bits vals t R (s_nd s) dv rest Hd Hlut Hlv Ht Htl BN ED Hdv) as (nd' & ND & NI & NO). rewrite ND.
  set (P := prediction (j_bits h) W (firstn (Z.to_nat i) px) i) in *.
  assert (Hth' : s_this s = 0 \/ s_this s = j_x h) by (rewrite Hth; destruct (Z.even r); auto).
  assert (Hla' : s_last s = 0 \/ s_last s = j_x h) by (rewrite Hla; destruct (Z.even r); auto).
  (* the prediction *)
  match goal with |- context [let '(p, ok) := ?e in _] => assert (EP : e = (P, true)) end.
  { unfold P, prediction. rewrite Him. destruct (col =? 0) eqn:E0.
    - assert (col = 0) by lia. subst col. replace (4 * 0 + c <? 4) with true by lia. cbn [andb]. destruct (r =? 0) eqn:Er.
      + replace (i <? W) with true by (unfold i; nia). rewrite Z.shiftl_1_l. reflexivity.
      + replace (i <? W) with false by (unfold i; nia). rewrite nth_firstn by lia. rewrite Hlast by (lia || (apply Hok; lia)). unfold row_ok. rewrite Hcomp. f_equal; [f_equal; f_equal; unfold i; lia|].
        destruct Hla' as [R2|R2]; rewrite R2; lia.
    - replace (4 * col + c <? 4) with false by lia. cbn [andb]. change (1 =? 0) with false. change (1 =? 1) with true. cbn beta iota.
      rewrite nth_firstn by lia. rewrite Hthis by lia. unfold row_ok. rewrite Hcomp.
      replace (i - 4) with (r * W + ((col - 1) * 4 + c)) by (unfold i; lia).
      destruct (r =? 0); f_equal; destruct Hth' as [R1|R1]; rewrite ?R1; lia. }
  rewrite EP. clear EP. cbv zeta. rewrite u16_rem. set (v := (P + dv) mod 2 ^ 16) in *.
  assert (EL : match da_lin a with None => Some v | Some f => if da_linlen a <? v then None else Some (f v) end = Some (lin_of v)).
  { unfold lin_of. destruct (da_lin a) as [f|] eqn:El; [|reflexivity]. assert (Hin : In v px) by (rewrite <- Ev; apply nth_In; unfold len in Hpx; lia).
    assert (Hle : Forall (fun p => p <= da_linlen a) px) by (apply Hlin; discriminate). rewrite Forall_forall in Hle. specialize (Hle _ Hin). replace (da_linlen a <? v) with false by lia. reflexivity. }
  rewrite EL. eexists. split; [reflexivity|].
  set (w := s_this s + col * 4 + c). assert (Ew : w = s_this s + (4 * col + c)) by (unfold w; lia). clearbody w.
  assert (Ep : s_out s + col * 4 + c = pos_of i) by (unfold pos_of; rewrite Hid, Him, Ho; lia).
  rewrite Ep. split; [unfold ptrs; cbn [s_out s_this s_last]; auto|].
  split; [|split; cbn [s_this s_last s_rows]].
  - replace (r * W + 4 * col + (c + 1)) with (i + 1) by (unfold i; lia). constructor; cbn [s_nd s_img n_oob].
    + exact NI.
    + rewrite NO, Boob. unfold row_ok. rewrite Hcomp. cbn [negb orb]. rewrite Ew. unfold W in *. destruct Hth' as [R1|R1]; rewrite R1; lia.
    + intros k Hk. unfold upd. destruct (Z.eq_dec k i) as [->|Hne]; [rewrite Z.eqb_refl, Ev; reflexivity|].
      destruct (pos_of k =? pos_of i) eqn:Ek; [exfalso; apply Hne, pos_inj; lia|]. apply Bimg. lia.
    + intros p Hp. unfold upd. destruct (p =? pos_of i) eqn:Ek; [exfalso; apply (Hp i); lia|]. apply Bframe. intros k Hk. apply Hp. lia.
  - intros j Hj. unfold upd. destruct (Z.eq_dec j (4 * col + c)) as [->|Hne].
    + rewrite Ew, Z.eqb_refl, <- Ev. f_equal. f_equal. unfold i. lia.
    + replace (s_this s + j =? w) with false by lia. apply Hthis. lia.
  - intros H0 H1 j Hj Hev. unfold upd. subst col. assert (Hnw : s_last s + j <> w) by (rewrite Ew, Hth, Hla; destruct (Z.even r); lia).
    replace (s_last s + j =? w) with false by lia. apply Hlast; try lia. exact Hev.
Qed.

(* the first sample of an odd row whose prediction is overwritten: component x of column 0, when x < 4 *)
Lemma sample_bad r R s dv rest : 1 <= r < H -> Z.even r = false -> j_x h < 4 -> da_lin a = None -> ptrs r s -> row_inv r 0 (j_x h) R s ->
  decode_diff t R = Some (dv, rest) -> dv <> 32768 ->
  exists s', sample U d h 1 a r 0 (j_x h) s = Some s' /\ ptrs r s' /\
    s_img s' (pos_of (r * W + j_x h)) = (nth (Z.to_nat (r * W)) px 0 + dv) mod 2 ^ 16.
Proof.
  intros Hr Hodd Hx4 Hnl (Ho & Hth & Hla) (B & Hthis & _) ED Hdv. destruct B as [BN _ _ _]. unfold sample, sample_px. rewrite Hcomp, Hnl. rewrite Hodd in Hth, Hla.
  destruct (nextdiff_ref d E U _ _ bits vals t R (s_nd s) dv rest Hd Hlut Hlv Ht Htl BN ED Hdv) as (nd' & ND & NI & NO). rewrite ND.
  change (0 =? 0) with true. replace (r =? 0) with false by lia. cbn [andb]. cbv zeta. rewrite u16_rem.
  assert (Ev : s_rows s (s_last s + j_x h) = nth (Z.to_nat (r * W)) px 0).
  { replace (s_last s + j_x h) with (s_this s + 0) by lia. rewrite Hthis by lia. do 2 f_equal. lia. }
  rewrite Ev. eexists. split; [reflexivity|]. split; [unfold ptrs; cbn [s_out s_this s_last]; rewrite Hodd; auto|]. cbn [s_img]. unfold upd.
  destruct (idx r 0 (j_x h) ltac:(lia) ltac:(lia) ltac:(lia)) as (Im & Id & _). replace (r * W + 4 * 0 + j_x h) with (r * W + j_x h) in Im, Id by lia.
  unfold pos_of. rewrite Im, Id, Ho. replace (r * (W + da_skip a) + (4 * 0 + j_x h) =? r * (W + da_skip a) + 0 * 4 + j_x h) with true by lia. reflexivity.
Qed.

Definition swap (s : sc_st) : sc_st :=
  {| s_nd := s_nd s; s_rows := s_rows s; s_img := s_img s; s_left := s_left s; s_this := s_last s; s_last := s_this s; s_out := s_out s + (j_x h * j_comp h + da_skip a) |}.
Lemma ptrs_swap r s : ptrs r s -> ptrs (r + 1) (swap s).
Proof.
  intros (Ho & Hth & Hla). unfold ptrs, swap. cbn [s_out s_this s_last]. rewrite Hcomp, Ho, Hth, Hla. rewrite Z.even_add. change (Z.even 1) with false.
  split; [unfold W; lia|]. destruct (Z.even r); auto.
Qed.
Lemma row_carry r col R s : 0 <= col -> row_inv r col 4 R s -> row_inv r (col + 1) 0 R s.
Proof.
  intros Hc (B & Hthis & Hlast). unfold row_inv. replace (r * W + 4 * (col + 1) + 0) with (r * W + 4 * col + 4) by lia. split; [exact B|]. split; [|intros; lia].
  intros j Hj. apply Hthis. lia.
Qed.
Lemma row_end r R s : 0 <= r < H -> row_inv r (j_x h) 0 R s -> row_inv (r + 1) 0 0 R (swap s).
Proof.
  intros Hr (B & Hthis & Hlast). assert (HW : W = 4 * j_x h) by reflexivity.
  split; [|cbn [swap s_this s_last s_rows]; split; [intros; lia|]].
  - replace ((r + 1) * W + 4 * 0 + 0) with (r * W + 4 * j_x h + 0) by lia. destruct B as [B1 B2 B3 B4]. constructor; cbn [swap s_nd s_img]; assumption.
  - intros _ _ j Hj _. rewrite Hthis by lia. do 2 f_equal. lia.
Qed.

(* the loops *)
Lemma scan_gen (INV : Z -> Z -> Z -> sc_st -> Prop) :
  (forall r col c s, 0 <= r < H -> 0 <= col < j_x h -> 0 <= c < 4 -> INV r col c s -> exists s', sample U d h 1 a r col c s = Some s' /\ INV r col (c + 1) s') ->
  (forall r col s, 0 <= r < H -> 0 <= col < j_x h -> INV r col 4 s -> INV r (col + 1) 0 s) ->
  (forall r s, 0 <= r < H -> INV r (j_x h) 0 s -> INV (r + 1) 0 0 (swap s)) ->
  forall s, INV 0 0 0 s -> exists s', for_loop (Z.to_nat H) 0 (scan_row U d h 1 a) s = Some s' /\ INV H 0 0 s'.
Proof.
  intros HS HC HR s I. destruct (for_loop_inv (scan_row U d h 1 a) (fun r => INV r 0 0) (Z.to_nat H) 0 s I) as (s' & E1 & I').
  - intros r y Hr Iy. rewrite Z2Nat.id in Hr by exact Hy. unfold scan_row, scan_cols.
    destruct (for_loop_inv (fun col => for_loop (Z.to_nat (j_comp h)) 0 (fun c => sample U d h 1 a r col c)) (fun col => INV r col 0) (Z.to_nat (j_x h)) 0 y Iy) as (z & E2 & Iz).
    + intros col z Hcol Iz. rewrite Z2Nat.id in Hcol by lia. rewrite Hcomp. change (Z.to_nat 4) with 4%nat.
      destruct (for_loop_inv (fun c => sample U d h 1 a r col c) (fun c => INV r col c) 4 0 z Iz) as (z' & E3 & Iz').
      * intros c w Hc Iw. change (0 + Z.of_nat 4) with 4 in Hc. apply HS; auto; lia.
      * exists z'. split; [exact E3|]. change (0 + Z.of_nat 4) with 4 in Iz'. apply HC; [lia|lia|exact Iz'].
    + rewrite E2. eexists. split; [reflexivity|]. apply HR; [lia|]. rewrite Z2Nat.id in Iz by lia. exact Iz.
  - exists s'. split; [exact E1|]. rewrite Z2Nat.id in I' by exact Hy. exact I'.
Qed.
End Scan.
