(* parsePred6 refines the T.81 decoder for predictor 6 *)
From Verif Require Import Bits Spec Spec_Lj92 Spec_P6 M_Lj92 M_Pred6 P_Lj92 P_Lj92b P_Lj92c P_Lj92d P_Decode.
Ltac Zify.zify_post_hook ::= idtac.

Lemma read_code_inv : forall vals codes l s rest, length vals = length codes -> read_code (combine vals codes) l = Some (s, rest) ->
  exists j n code, nth_error codes j = Some (n, code) /\ nth j vals 0 = s /\ (j < length vals)%nat /\ l = bitsz n code ++ rest.
Proof.
  induction vals as [|v vals IH]; intros [|[n code] codes] l s rest L E; cbn [combine read_code] in E; try discriminate.
  destruct (strip_prefix (bitsz n code) l) as [r|] eqn:Es.
  - injection E as <- <-. exists 0%nat, n, code. cbn [nth_error nth length]. split; [reflexivity|]. split; [reflexivity|]. split; [lia|]. apply strip_prefix_some. exact Es.
  - cbn [length] in L. destruct (IH codes l s rest ltac:(lia) E) as (j & n' & c' & H1 & H2 & H3 & H4). exists (S j), n', c'. cbn [nth_error nth length]. split; [exact H1|]. split; [exact H2|]. split; [lia|exact H4].
Qed.

Lemma nextdiff_p6 d E U M lut bits vals R s dv rest :
  byte_mem d -> lut_ok M lut bits vals -> dht_ok bits vals ->
  nd_inv d E R s -> read_diff (book_of bits vals) R = Some (dv, rest) -> dv <> 32768 ->
  (exists s', nextdiff U d M lut s = (dv, s') /\ nd_inv d E rest s' /\ n_oob s' = n_oob s) /\ len rest + 1 <= len R.
Proof.
  intros Hd (HM & _ & HL) (_ & Hlv & _ & Hvr & _) I ED Hdv. unfold read_diff in ED. destruct (read_code (book_of bits vals) R) as [[c rest0]|] eqn:EC; [|discriminate].
  destruct (read_code_inv vals (annexC bits 1 0) _ _ _ ltac:(rewrite annexC_len; lia) EC) as (j & n & code & N & Ev & Hj & ->).
  destruct (HL _ _ _ N) as (L1 & L2 & L3). rewrite Ev in L3.
  assert (Hc : 0 <= c <= 16) by (rewrite <- Ev; rewrite Forall_forall in Hvr; apply Hvr; apply nth_In; exact Hj).
  assert (LB : len (bitsz n code ++ rest0) = n + len rest0) by (unfold len; rewrite app_length, Nat2Z.inj_add, bitsz_length by lia; lia). rewrite LB.
  destruct (c =? 0) eqn:E0.
  - injection ED as <- <-. split; [|lia]. assert (c = 0) by lia. subst c. rewrite H in L3.
    destruct (nextdiff_ok d Hd E U M lut HM n code 0 [] rest0 s I L1 L2 ltac:(lia) eq_refl L3) as (s' & S1 & S2 & S3). exists s'. cbn in S1. auto.
  - destruct (c =? 16) eqn:E16; [congruence|]. destruct (Z.of_nat (length rest0) <? c) eqn:Er; [discriminate|]. injection ED as <- <-.
    split; [|unfold len; rewrite skipn_length; lia].
    rewrite <- (firstn_skipn (Z.to_nat c) rest0) in I.
    destruct (nextdiff_ok d Hd E U M lut HM n code c (firstn (Z.to_nat c) rest0) (skipn (Z.to_nat c) rest0) s I L1 L2 ltac:(lia)) as (s' & S1 & S2 & S3).
    + unfold len. rewrite firstn_length. lia.
    + exact L3.
    + exists s'. rewrite E0 in S1. auto.
Qed.

Lemma read_samples_len bk bd W : forall n img l px, read_samples bk bd W n img l = Some px -> length px = (length img + n)%nat /\ firstn (length img) px = img.
Proof.
  induction n as [|n IH]; intros img l px E; cbn [read_samples] in E.
  - injection E as <-. split; [lia|apply firstn_all].
  - destruct (read_diff bk l) as [[dv rest]|]; [|discriminate]. apply IH in E. destruct E as [E1 E2]. rewrite app_length in E1, E2. cbn [length] in E1, E2. split; [lia|].
    apply (f_equal (firstn (length img))) in E2. rewrite firstn_firstn, Nat.min_l in E2 by lia. rewrite E2, firstn_app, Nat.sub_diag, firstn_all, app_nil_r. reflexivity.
Qed.

Lemma pixels_small h : 0 <= j_y h * j_x h < 2 ^ 31 -> pixels h = j_y h * j_x h.
Proof. intros Hh. unfold pixels, int32. rewrite Z.mod_small by lia. lia. Qed.
Lemma pixels_big h : 2 ^ 31 <= j_y h * j_x h < 2 ^ 32 -> pixels h = j_y h * j_x h - 2 ^ 32.
Proof. intros Hh. unfold pixels, int32. rewrite <- (Z.mod_unique_pos (j_y h * j_x h + 2 ^ 31) (2 ^ 32) 1 (j_y h * j_x h - 2 ^ 31)); lia. Qed.
Lemma pixels_cases h : 0 <= j_x h < 65536 -> 0 <= j_y h < 65536 -> pixels h = j_y h * j_x h \/ (pixels h < 0 /\ 2 ^ 31 <= j_y h * j_x h).
Proof. intros Hx Hy. assert (0 <= j_y h * j_x h < 2 ^ 32) by nia. destruct (Z_lt_ge_dec (j_y h * j_x h) (2 ^ 31)); [left; apply pixels_small|right; rewrite pixels_big]; lia. Qed.
Lemma rowcount_pos h : 1 <= j_x h < 65536 -> rowcount h = j_x h - 1.
Proof. intros Hx. unfold rowcount. apply Z.mod_small. lia. Qed.

Section P6.
Variable d : lmem.
Hypothesis Hd : byte_mem d.
Variable E : Z.
Variable U : Z.
Variable h : lj_hdr.
Variable bits : list nat.
Variable vals : list Z.
Hypothesis Hok : dht_ok bits vals.
Hypothesis Hlut : lut_ok (j_huffbits h) (j_lut h) bits vals.
Hypothesis Hv15 : Forall (fun v => v <= 15) vals.
Variable px : list Z.
Variable img0 : lmem.
Variable a : dec_arg.
Variable wl : Z.
Hypothesis Hskip : 0 <= da_skip a.
Hypothesis Hwl : 2 <= wl.
Hypothesis Hcomp : 1 <= j_comp h.
Let W := j_x h.
(* the number of rows that can be read; the height, except where it is said otherwise *)
Variable H : Z.
Let bk := book_of bits vals.
Hypothesis Hpx : len px = W * H.
Hypothesis HW : 1 <= W < 65536.
Hypothesis HH : 0 <= H.
Hypothesis Hlin : da_lin a <> None -> Forall (fun p => p <= da_linlen a) px.
Definition lin6 (p : Z) : Z := match da_lin a with None => p | Some f => f p end.
Let pos := tile_pos wl (da_skip a).
Let at_ k := nth (Z.to_nat k) px 0.

Definition pinv (i : Z) (R : list bool) (s : p6_st) : Prop :=
  nd_inv d E R (q_nd s) /\ n_oob (q_nd s) = false /\ q_c s = i /\ (0 < i -> q_left s = at_ (i - 1)) /\
  (forall k, 0 <= k < i -> q_img s (pos k) = lin6 (at_ k)) /\
  (forall p, (forall k, 0 <= k < i -> p <> pos k) -> q_img s p = img0 p).
Definition rinv (r col : Z) (s : p6_st) : Prop :=
  q_col s = col /\ q_this s = (if Z.even r then 0 else W) /\ q_last s = (if Z.even r then W else 0) /\
  (forall j, 0 <= j < col -> q_rows s (q_this s + j) = at_ (r * W + j)) /\
  (1 <= r -> forall j, 0 <= j < W -> q_rows s (q_last s + j) = at_ ((r - 1) * W + j)).
Definition winv (i : Z) (s : p6_st) : Prop := q_out s = i / wl * da_skip a /\ q_write s = wl - i mod wl.
Definition sinv (i : Z) (R : list bool) : Prop := read_samples bk (j_bits h) W (Z.to_nat (W * H - i)) (firstn (Z.to_nat i) px) R = Some px.

Lemma pos_lt k k' : 0 <= k < k' -> pos k < pos k'.
Proof. clear Hlin.
  intros Hk. unfold pos, tile_pos. pose proof (Z.div_le_mono k k' wl ltac:(lia) ltac:(lia)). pose proof (Z.div_pos k wl ltac:(lia) ltac:(lia)). nia.
Qed.

Lemma diff_small16 R dv rest : read_diff bk R = Some (dv, rest) -> dv <> 32768.
Proof. clear Hlin.
  intros ED. unfold read_diff in ED. destruct (read_code bk R) as [[c rest0]|] eqn:EC; [|discriminate].
  pose proof Hok as (_ & Hlv & _ & Hvr & _).
  destruct (read_code_inv vals (annexC bits 1 0) _ _ _ ltac:(rewrite annexC_len; lia) EC) as (j & n & code & _ & Ev & Hj & _).
  assert (Hc : 0 <= c <= 15). { rewrite <- Ev. pose proof (nth_In vals 0 Hj) as Hin. rewrite Forall_forall in Hvr, Hv15. apply Hvr in Hin as A1. apply Hv15 in Hin. lia. }
  destruct (c =? 0) eqn:E0; [injection ED as <- <-; lia|]. replace (c =? 16) with false in ED by lia. destruct (Z.of_nat (length rest0) <? c) eqn:Er; [discriminate|]. injection ED as <- <-.
  pose proof (bval_bound (firstn (Z.to_nat c) rest0)) as Bv. rewrite firstn_length, Nat.min_l, Z2Nat.id in Bv by lia.
  pose proof (extend_small c _ ltac:(lia) Bv). lia.
Qed.

(* what the next sample is *)
Lemma next_sample i R : 0 <= i < W * H -> sinv i R ->
  exists dv rest, read_diff bk R = Some (dv, rest) /\ at_ i = (pred6 (j_bits h) W (firstn (Z.to_nat i) px) + dv) mod 2 ^ 16 /\ sinv (i + 1) rest.
Proof. clear Hlin.
  intros Hi HS. unfold sinv in HS. destruct (Z.to_nat (W * H - i)) as [|m] eqn:Em; [lia|]. cbn [read_samples] in HS.
  destruct (read_diff bk R) as [[dv rest]|]; [|discriminate]. exists dv, rest. split; [reflexivity|].
  assert (Lf : length (firstn (Z.to_nat i) px) = Z.to_nat i) by (rewrite firstn_length; unfold len in Hpx; lia).
  destruct (read_samples_len _ _ _ _ _ _ _ HS) as [Lpx Fpx]. rewrite app_length, Lf in Lpx, Fpx. cbn [length] in Lpx, Fpx.
  split.
  - unfold at_. rewrite <- (nth_firstn 0 (Z.to_nat i + 1)) by lia. rewrite Fpx, app_nth2 by lia. rewrite Lf, Nat.sub_diag. reflexivity.
  - unfold sinv. replace (Z.to_nat (W * H - (i + 1))) with m by lia. replace (Z.to_nat (i + 1)) with (Z.to_nat i + 1)%nat by lia. rewrite Fpx. exact HS.
Qed.
Lemma sinv_len i R : 0 <= i <= W * H -> sinv i R -> W * H - i <= len R.
Proof. clear Hlin.
  intros Hi. remember (Z.to_nat (W * H - i)) as n eqn:En. revert i Hi En R. induction n as [|n IH]; intros i Hi En R HS; [unfold len; lia|].
  destruct (next_sample i R ltac:(lia) HS) as (dv & rest & ED & _ & HS').
  specialize (IH (i + 1) ltac:(lia) ltac:(lia) rest HS').
  assert (K : len rest + 1 <= len R).
  { unfold read_diff in ED. destruct (read_code bk R) as [[c rest0]|] eqn:EC; [|discriminate].
    pose proof Hok as (_ & Hlv & _ & Hvr & _).
    destruct (read_code_inv vals (annexC bits 1 0) _ _ _ ltac:(rewrite annexC_len; lia) EC) as (j & n' & code & N & Ev & Hj & ->).
    destruct Hlut as (_ & _ & HL). destruct (HL _ _ _ N) as (L1 & _). unfold len. rewrite app_length, Nat2Z.inj_add, bitsz_length by lia.
    assert (length rest <= length rest0)%nat; [|lia]. destruct (c =? 0); [injection ED as <- <-; lia|]. destruct (c =? 16); [injection ED as <- <-; lia|].
    destruct (Z.of_nat (length rest0) <? c); [discriminate|]. injection ED as <- <-. rewrite skipn_length. lia. }
  lia.
Qed.
Lemma not_end i R s dl : dl = E + 2 -> pinv i R s -> 24 <= len R -> p6_end dl s = false.
Proof. clear Hlin.
  intros -> ((C & B & Hhi & HI) & _) HR. unfold p6_end. destruct HI as [(Q & _ & _ & HE & _)|(g & Eg & Hg)].
  - unfold len in HE. lia.
  - apply (f_equal (fun l => Z.of_nat (length l))) in Eg. rewrite bitsz_length, app_length in Eg by lia. unfold len in *. lia.
Qed.

Lemma put_ok chk i r col p ok R s : i = r * W + col -> 0 <= r < H -> 0 <= col < W -> pinv i R s -> rinv r col s -> winv i s -> sinv i R ->
  ok = true -> p = pred6 (j_bits h) W (firstn (Z.to_nat i) px) ->
  exists s' rest, p6_put U d h a chk p ok s = Go s' /\ pinv (i + 1) rest s' /\ rinv r (col + 1) s' /\ sinv (i + 1) rest /\ q_out s' = q_out s /\ q_write s' = q_write s.
Proof.
  intros Hi Hr Hcol (PN & PO & PC & PL & PI & PF) (RC & RT & RL & RTh & RLa) (WO & WW) HS -> ->. assert (Hi' : 0 <= i < W * H) by nia.
  destruct (next_sample i R Hi' HS) as (dv & rest & ED & Eat & HS').
  destruct (nextdiff_p6 d E U _ _ bits vals R (q_nd s) dv rest Hd Hlut Hok PN ED (diff_small16 _ _ _ ED)) as [(nd & EN & IN & ON) _].
  unfold p6_put. rewrite EN. rewrite u16_rem. rewrite <- Eat. set (p := at_ i) in *.
  assert (Hp : In p px) by (unfold p, at_; apply nth_In; unfold len in Hpx; lia).
  assert (Hli : forall f, da_lin a = Some f -> (da_linlen a <? p) = false).
  { intros f Ef. specialize (Hlin ltac:(rewrite Ef; discriminate)). rewrite Forall_forall in Hlin. apply Hlin in Hp. lia. }
  assert (Hw : row_ok h (q_this s + q_col s) = true).
  { unfold row_ok. pose proof Hcomp. assert (2 * W <= 2 * W * j_comp h) by nia. rewrite RT, RC. fold W. destruct (Z.even r); lia. }
  assert (Eo : q_out s + q_c s = pos i) by (unfold pos, tile_pos; rewrite WO, PC; lia).
  eexists _, rest. split.
  { transitivity (Go {| q_nd := {| n_b := n_b nd; n_cnt := n_cnt nd; n_ix := n_ix nd; n_hi := n_hi nd; n_oob := false |}; q_rows := upd (q_rows s) (q_this s + q_col s) p;
      q_img := upd (q_img s) (pos i) (lin6 p); q_left := p; q_this := q_this s; q_last := q_last s; q_col := q_col s + 1; q_c := q_c s + 1; q_out := q_out s; q_write := q_write s |}); [|reflexivity].
    rewrite ON, PO, Hw, Eo. cbn [orb negb]. unfold lin6. destruct (da_lin a) as [f|]; [rewrite (Hli f eq_refl), andb_false_r|]; reflexivity. }
  split; [|split; [|split; [exact HS'|split; reflexivity]]].
  - unfold pinv. cbn [q_nd q_c q_left q_img n_oob]. split; [|split; [reflexivity|split; [lia|split; [intros _; unfold p; f_equal; lia|split]]]].
    + destruct IN as (I1 & I2 & I3 & I4). split; [exact I1|]. split; [exact I2|]. split; [exact I3|exact I4].
    + intros k Hk. unfold upd. destruct (Z.eq_dec k i) as [->|Hn]; [rewrite Z.eqb_refl; reflexivity|].
      pose proof (pos_lt k i ltac:(lia)). replace (pos k =? pos i) with false by lia. apply PI. lia.
    + intros q Hq. unfold upd. pose proof (Hq i ltac:(lia)). replace (q =? pos i) with false by lia. apply PF. intros k Hk. apply Hq. lia.
  - unfold rinv. cbn [q_col q_this q_last q_rows]. split; [lia|]. split; [exact RT|]. split; [exact RL|]. unfold upd. split.
    + intros j Hj. destruct (Z.eq_dec j col) as [->|Hn].
      * rewrite RC, Z.eqb_refl. unfold p. f_equal. exact Hi.
      * replace (q_this s + j =? q_this s + q_col s) with false by lia. apply RTh. lia.
    + intros Hr1 j Hj. replace (q_last s + j =? q_this s + q_col s) with false by (rewrite RT, RL, RC; destruct (Z.even r); lia). apply RLa; assumption.
Qed.

Lemma skip_ok i R r col s : 0 <= i -> pinv (i + 1) R s -> rinv r col s -> q_out s = i / wl * da_skip a -> q_write s = wl - i mod wl ->
  let s' := p6_skip a wl s in pinv (i + 1) R s' /\ rinv r col s' /\ winv (i + 1) s'.
Proof. clear Hlin.
  intros Hi P R0 HO HWr. cbv zeta. split; [exact P|]. split; [exact R0|]. unfold winv, p6_skip. cbn [q_out q_write]. rewrite HO, HWr.
  pose proof (Z.mod_pos_bound i wl ltac:(lia)) as M. pose proof (Z.div_mod i wl ltac:(lia)) as D.
  destruct (wl - i mod wl - 1 =? 0) eqn:Ez.
  - assert (Eq : (i + 1) / wl = i / wl + 1) by (symmetry; apply (Z.div_unique_pos (i + 1) wl (i / wl + 1) 0); lia).
    assert (Em : (i + 1) mod wl = 0) by (symmetry; apply (Z.mod_unique_pos (i + 1) wl (i / wl + 1) 0); lia). rewrite Eq, Em. lia.
  - assert (Eq : (i + 1) / wl = i / wl) by (symmetry; apply (Z.div_unique_pos (i + 1) wl (i / wl) (i mod wl + 1)); lia).
    assert (Em : (i + 1) mod wl = i mod wl + 1) by (symmetry; apply (Z.mod_unique_pos (i + 1) wl (i / wl) (i mod wl + 1)); lia). rewrite Eq, Em. lia.
Qed.

Lemma firstn_at i k : 0 <= k < i -> i <= W * H -> nth (Z.to_nat k) (firstn (Z.to_nat i) px) 0 = at_ k.
Proof. clear Hlin. intros Hk Hi. unfold at_. apply nth_firstn. lia. Qed.
Lemma firstn_len i : 0 <= i <= W * H -> len (firstn (Z.to_nat i) px) = i.
Proof. clear Hlin. intros Hi. unfold len in *. rewrite firstn_length. lia. Qed.

(* the whole loop invariant *)
Definition linv (r col : Z) (s : p6_st) : Prop := exists R, pinv (r * W + col) R s /\ rinv r col s /\ winv (r * W + col) s /\ sinv (r * W + col) R.

Lemma first_step dl col s : dl = E + 2 -> 25 <= W -> 2 <= H -> 1 <= col < W -> linv 0 col s ->
  exists s', p6_first_body U d dl h a wl s = Go s' /\ linv 0 (col + 1) s'.
Proof.
  intros Hdl HW25 HH2 Hcol (R & P & R0 & W0 & HS). unfold p6_first_body.
  destruct (put_ok false (0 * W + col) 0 col (q_left s) true R s eq_refl ltac:(lia) ltac:(lia) P R0 W0 HS eq_refl) as (s1 & rest & -> & P1 & R1 & S1 & O1 & O2).
  { unfold pred6. rewrite firstn_len by nia. replace (0 * W + col =? 0) with false by lia. replace (0 * W + col <? W) with true by lia. rewrite firstn_at by nia.
    destruct P as (_ & _ & _ & PL & _). apply PL. lia. }
  pose proof (sinv_len (0 * W + col + 1) rest ltac:(nia) S1) as HL. rewrite (not_end _ rest s1 dl Hdl P1) by nia.
  destruct W0 as [W1 W2]. destruct (skip_ok (0 * W + col) rest 0 (col + 1) s1 ltac:(lia) P1 R1 ltac:(congruence) ltac:(congruence)) as (A1 & A2 & A3). cbv zeta in *.
  eexists. split; [reflexivity|]. exists rest. replace (0 * W + (col + 1)) with (0 * W + col + 1) by lia. auto.
Qed.
Lemma row_step r col s : 1 <= r < H -> 1 <= col < W -> linv r col s ->
  exists s', p6_row_body U d h a wl s = Go s' /\ linv r (col + 1) s'.
Proof.
  intros Hr Hcol (R & P & R0 & W0 & HS). unfold p6_row_body. pose proof R0 as (RC & RT & RL & RTh & RLa). assert (Hi : 0 <= r * W + col < W * H) by nia.
  destruct (put_ok true (r * W + col) r col (q_rows s (q_last s + q_col s) + Z.shiftr (q_left s - q_rows s (q_last s + q_col s - 1)) 1)
    (row_ok h (q_last s + q_col s) && row_ok h (q_last s + q_col s - 1)) R s eq_refl ltac:(lia) ltac:(lia) P R0 W0 HS) as (s1 & rest & -> & P1 & R1 & S1 & O1 & O2).
  { unfold row_ok. pose proof Hcomp. assert (2 * W <= 2 * W * j_comp h) by nia. rewrite RL, RC. fold W. destruct (Z.even r); lia. }
  { unfold pred6. rewrite firstn_len by lia. replace (r * W + col =? 0) with false by nia. replace (r * W + col <? W) with false by nia.
    assert (Em : (r * W + col) mod W = col) by (rewrite Z.add_comm, Z.mod_add by lia; apply Z.mod_small; lia). rewrite Em. replace (col =? 0) with false by lia.
    rewrite !firstn_at by nia. rewrite Z.shiftr_div_pow2 by lia. change (2 ^ 1) with 2. rewrite RC. rewrite RLa by lia.
    replace (q_last s + col - 1) with (q_last s + (col - 1)) by lia. rewrite RLa by lia.
    destruct P as (_ & _ & _ & PL & _). rewrite PL by nia. replace (r * W + col - W) with ((r - 1) * W + col) by lia. replace ((r - 1) * W + col - 1) with ((r - 1) * W + (col - 1)) by lia. reflexivity. }
  destruct W0 as [W1 W2]. destruct (skip_ok (r * W + col) rest r (col + 1) s1 ltac:(nia) P1 R1 ltac:(congruence) ltac:(congruence)) as (A1 & A2 & A3). cbv zeta in *.
  eexists. split; [reflexivity|]. exists rest. replace (r * W + (col + 1)) with (r * W + col + 1) by lia. auto.
Qed.
Lemma p6_loop_inv body (INV : Z -> p6_st -> Prop) n : forall lo s, (forall c s, lo <= c < lo + Z.of_nat n -> INV c s -> exists s', body s = Go s' /\ INV (c + 1) s') -> INV lo s ->
  exists s', p6_loop n body s = Go s' /\ INV (lo + Z.of_nat n) s'.
Proof. clear Hlin.
  induction n as [|n IH]; intros lo s HB H0; cbn [p6_loop]; [exists s; rewrite Z.add_0_r; auto|].
  destruct (HB lo s ltac:(lia) H0) as (s1 & -> & H1). destruct (IH (lo + 1) s1) as (s2 & E2 & H2); [intros; apply HB; [lia|assumption]|exact H1|].
  exists s2. split; [exact E2|]. replace (lo + Z.of_nat (S n)) with (lo + 1 + Z.of_nat n) by lia. exact H2.
Qed.
Lemma row_swap r s : 0 <= r -> linv r W s -> linv (r + 1) 0 (p6_col0 (p6_swap s)).
Proof. clear Hlin.
  intros Hr (R & P & (RC & RT & RL & RTh & RLa) & W0 & HS). exists R. replace ((r + 1) * W + 0) with (r * W + W) by lia. split; [exact P|]. split; [|split; [exact W0|exact HS]].
  unfold rinv, p6_swap, p6_col0. cbn [q_col q_this q_last q_rows]. rewrite Z.even_add. change (Z.even 1) with false. rewrite RT, RL. split; [reflexivity|].
  split; [destruct (Z.even r); reflexivity|]. split; [destruct (Z.even r); reflexivity|]. split; [intros; lia|]. intros _ j Hj. rewrite <- RT. rewrite RTh by lia. f_equal. lia.
Qed.

(* a row after the first: it goes on, or the loop is left after the last row *)
Lemma row_ok6 dl r s : pixels h = H * W -> dl = E + 2 -> 25 <= W -> 1 <= r < H -> linv r 0 (p6_col0 s) ->
  exists s', linv r W s' /\ ((p6_row U d dl h a wl s = Go (p6_swap s')) \/ (r = H - 1 /\ p6_row U d dl h a wl s = Ret NONE (p6_swap s'))).
Proof.
  intros HP Hdl HW25 Hr (R & P & R0 & W0 & HS). unfold p6_row. set (s0 := p6_col0 s) in *. clearbody s0. cbv zeta.
  pose proof R0 as (RC & RT & RL & RTh & RLa). assert (Hi : 0 <= r * W + 0 < W * H) by nia.
  destruct (put_ok true (r * W + 0) r 0 (q_rows s0 (q_last s0)) (row_ok h (q_last s0)) R s0 eq_refl ltac:(lia) ltac:(lia) P R0 W0 HS) as (s1 & rest & -> & P1 & R1 & S1 & O1 & O2).
  { unfold row_ok. pose proof Hcomp. assert (2 * W <= 2 * W * j_comp h) by nia. rewrite RL. fold W. destruct (Z.even r); lia. }
  { unfold pred6. rewrite firstn_len by lia. replace (r * W + 0 =? 0) with false by nia. replace (r * W + 0 <? W) with false by nia.
    assert (Em : (r * W + 0) mod W = 0) by (rewrite Z.add_0_r; apply Z.mod_mul; lia). rewrite Em. change (0 =? 0) with true. cbn iota. rewrite firstn_at by nia.
    rewrite <- (Z.add_0_r (q_last s0)). rewrite RLa by lia. f_equal. lia. }
  pose proof (sinv_len (r * W + 0 + 1) rest ltac:(nia) S1) as HL. rewrite (not_end _ rest s1 dl Hdl P1) by nia.
  destruct W0 as [W1 W2]. destruct (skip_ok (r * W + 0) rest r (0 + 1) s1 ltac:(nia) P1 R1 ltac:(congruence) ltac:(congruence)) as (A1 & A2 & A3). cbv zeta in *.
  assert (L1 : linv r 1 (p6_skip a wl s1)). { exists rest. replace (r * W + 1) with (r * W + 0 + 1) by lia. auto. }
  destruct (p6_loop_inv (p6_row_body U d h a wl) (linv r) (Z.to_nat (rowcount h)) 1 (p6_skip a wl s1)) as (s2 & -> & L2); [|exact L1|].
  { intros c s2 Hc L2. apply row_step; [lia|rewrite (rowcount_pos h HW) in Hc; fold W in Hc; lia|exact L2]. }
  rewrite (rowcount_pos h HW) in *. fold W in L2. replace (1 + Z.of_nat (Z.to_nat (W - 1))) with W in L2 by lia. exists s2. split; [exact L2|].
  destruct (p6_end dl (p6_swap s2)) eqn:Ee; [right|left; reflexivity].
  destruct L2 as (R2 & P2 & R2' & W2' & S2). destruct (Z.eq_dec r (H - 1)) as [Er|Hn].
  - split; [exact Er|]. destruct P2 as (_ & _ & PC & _). unfold p6_swap. cbn [q_c]. rewrite PC. rewrite HP. replace (H * W <=? r * W + W) with true by nia. reflexivity.
  - exfalso. pose proof (sinv_len (r * W + W) R2 ltac:(nia) S2) as HL2. pose proof (not_end _ R2 s2 dl Hdl P2 ltac:(nia)) as Hne. unfold p6_end, p6_swap in *. cbn [q_nd] in Ee. congruence.
Qed.

Lemma rows_ok dl : pixels h = H * W -> dl = E + 2 -> 25 <= W -> forall fuel r s, 1 <= r <= H -> H - r < Z.of_nat fuel -> linv r 0 (p6_col0 s) ->
  exists s', p6_rows fuel U d dl h a wl s = (NONE, s') /\ exists R, pinv (H * W) R s'.
Proof.
  intros HP Hdl HW25. induction fuel as [|f IH]; intros r s Hr Hf HL; [lia|]. cbn [p6_rows]. rewrite HP.
  assert (Ec : q_c s = r * W) by (destruct HL as (R & (_ & _ & PC & _) & _); unfold p6_col0 in PC; cbn [q_c] in PC; lia).
  destruct (q_c s <? H * W) eqn:Ei.
  - assert (Hr' : r < H) by nia. destruct (row_ok6 dl r s HP Hdl HW25 ltac:(lia) HL) as (s' & L' & [-> | [Er ->]]).
    + apply (IH (r + 1)); [lia|lia|]. apply row_swap; [lia|exact L'].
    + exists (p6_swap s'). split; [reflexivity|]. destruct L' as (R & P & _). exists R. replace (H * W) with (r * W + W) by nia. exact P.
  - assert (r = H) by nia. subst r. exists s. split; [reflexivity|]. destruct HL as (R & P & _). exists R. replace (H * W) with (H * W + 0) by lia. exact P.
Qed.

Lemma pred6_ok dl rows R0 : pixels h = H * W -> H = j_y h -> dl = E + 2 -> 25 <= W -> 2 <= H -> 1 <= j_bits h ->
  nd_inv d E R0 {| n_b := 0; n_cnt := 0; n_ix := j_scan h + beh d (j_scan h); n_hi := 0; n_oob := false |} -> sinv 0 R0 ->
  exists s', parse_pred6 U d dl h a wl rows img0 = (NONE, s') /\ exists R, pinv (W * H) R s'.
Proof.
  intros HP HY Hdl HW25 HH2 Hbd HN HS. unfold parse_pred6. set (s0 := {| q_nd := _; q_rows := _ |}).
  assert (P0 : pinv 0 R0 s0). { unfold pinv, s0. cbn [q_nd n_oob q_c q_left q_img]. split; [exact HN|]. split; [reflexivity|]. split; [reflexivity|]. split; [intros; lia|]. split; [intros; lia|reflexivity]. }
  assert (R1 : rinv 0 0 s0). { unfold rinv, s0. cbn [q_col q_this q_last q_rows]. change (Z.even 0) with true. fold W. repeat (split; [reflexivity|]). split; intros; lia. }
  assert (W0 : winv 0 s0). { unfold winv, s0. cbn [q_out q_write]. rewrite Z.div_0_l, Z.mod_0_l by lia. lia. }
  assert (E0 : 0 = 0 * W + 0) by lia.
  destruct (put_ok false 0 0 0 (Z.shiftl 1 (j_bits h - 1)) true R0 s0 E0 ltac:(lia) ltac:(lia) P0 R1 W0 HS eq_refl) as (s1 & rest & -> & P1 & R1' & S1 & O1 & O2).
  { unfold pred6. cbn [Z.to_nat firstn]. rewrite Z.shiftl_1_l. reflexivity. }
  pose proof (sinv_len (0 + 1) rest ltac:(nia) S1) as HL. rewrite (not_end _ rest s1 dl Hdl P1) by nia.
  assert (L1 : linv 0 1 (p6_dec s1)).
  { exists rest. split; [exact P1|]. split; [exact R1'|]. split; [|exact S1]. destruct W0 as [W1 W2]. unfold winv, p6_dec. cbn [q_out q_write]. rewrite O1, O2, W1, W2.
    change (0 * W + 1) with 1. rewrite Z.div_0_l, Z.mod_0_l by lia. rewrite Z.div_small, Z.mod_small by lia. lia. }
  destruct (p6_loop_inv (p6_first_body U d dl h a wl) (linv 0) (Z.to_nat (rowcount h)) 1 (p6_dec s1)) as (s2 & -> & L2); [|exact L1|].
  { intros c s2 Hc L2. apply first_step; try assumption. rewrite (rowcount_pos h HW) in Hc. fold W in Hc; lia. }
  rewrite (rowcount_pos h HW) in *. fold W in L2. replace (1 + Z.of_nat (Z.to_nat (W - 1))) with W in L2 by lia.
  rewrite <- HY. destruct (rows_ok dl HP Hdl HW25 (S (Z.to_nat H)) 1 (p6_swap s2)) as (s3 & E3 & R3 & P3); [lia|lia| |].
  - apply (row_swap 0); [lia|exact L2].
  - exists s3. split; [exact E3|]. exists R3. rewrite Z.mul_comm. exact P3.
Qed.

(* ------------------------------------------------------------------ any size, any linearization table *)

(* i samples have been delivered *)
Definition dinv (i : Z) (s : p6_st) : Prop :=
  n_hi (q_nd s) <= E + 3 /\ n_oob (q_nd s) = false /\
  (forall k, 0 <= k < i -> q_img s (pos k) = lin6 (at_ k)) /\
  (forall p, (forall k, 0 <= k < i -> p <> pos k) -> q_img s p = img0 p).
(* all samples outside the first row so far were in the table *)
Definition vinv (i : Z) : Prop := da_lin a <> None -> forall k, W <= k < i -> at_ k <= da_linlen a.
Definition small : Prop := W < 25 \/ H < 2.
Definition fin (r : Z) (s : p6_st) : Prop := exists i, 1 <= i <= W * H /\ dinv i s /\ vinv i /\
  ((r = NONE /\ i = W * H) \/ (r = CORRUPT /\ da_lin a <> None /\ W <= i < W * H /\ da_linlen a < at_ i) \/ (r = CORRUPT /\ small)).

Lemma pinv_dinv i R s : pinv i R s -> dinv i s.
Proof. clear Hlin. intros ((_ & _ & A & _) & B & _ & _ & C & D). split; [lia|]. auto. Qed.

Lemma put_w chk i r col p ok R s : i = r * W + col -> 0 <= r < H -> 0 <= col < W -> pinv i R s -> rinv r col s -> winv i s -> sinv i R ->
  ok = true -> p = pred6 (j_bits h) W (firstn (Z.to_nat i) px) ->
  (exists s' rest, p6_put U d h a chk p ok s = Go s' /\ pinv (i + 1) rest s' /\ rinv r (col + 1) s' /\ sinv (i + 1) rest /\ q_out s' = q_out s /\ q_write s' = q_write s /\
     (chk = true -> da_lin a <> None -> at_ i <= da_linlen a)) \/
  (chk = true /\ da_lin a <> None /\ da_linlen a < at_ i /\ exists s', p6_put U d h a chk p ok s = Ret CORRUPT s' /\ dinv i s').
Proof. clear Hlin.
  intros Hi Hr Hcol (PN & PO & PC & PL & PI & PF) (RC & RT & RL & RTh & RLa) (WO & WW) HS -> ->. assert (Hi' : 0 <= i < W * H) by nia.
  destruct (next_sample i R Hi' HS) as (dv & rest & ED & Eat & HS').
  destruct (nextdiff_p6 d E U _ _ bits vals R (q_nd s) dv rest Hd Hlut Hok PN ED (diff_small16 _ _ _ ED)) as [(nd & EN & IN & ON) _].
  unfold p6_put. rewrite EN. rewrite u16_rem. rewrite <- Eat. set (p := at_ i) in *.
  assert (Hw : row_ok h (q_this s + q_col s) = true).
  { unfold row_ok. pose proof Hcomp. assert (2 * W <= 2 * W * j_comp h) by nia. rewrite RT, RC. fold W. destruct (Z.even r); lia. }
  assert (Eo : q_out s + q_c s = pos i) by (unfold pos, tile_pos; rewrite WO, PC; lia).
  rewrite ON, PO, Hw, Eo. cbn [orb negb]. set (g := da_lin a) in *.
  assert (X : (exists f, g = Some f /\ chk && (da_linlen a <? p) = true) \/
    ((chk = true -> g <> None -> p <= da_linlen a) /\
     match g with
     | Some f => if chk && (da_linlen a <? p) then False else True
     | None => True end)).
  { destruct g as [f|]; [|right; split; [congruence|exact I]]. destruct (chk && (da_linlen a <? p)) eqn:Ec; [left; exists f; auto|]. right. split; [|exact I]. intros -> _. cbn [andb] in Ec. lia. }
  destruct X as [(f & Ef & Ec)|[Hle X]].
  - right. apply andb_prop in Ec as Ec2. destruct Ec2 as [-> E2]. split; [reflexivity|]. split; [rewrite Ef; discriminate|]. split; [lia|]. rewrite Ef, Ec. eexists. split; [reflexivity|].
    unfold dinv. cbn [q_nd n_hi n_oob q_img]. split; [destruct IN as (_ & _ & IN & _); exact IN|]. split; [reflexivity|]. split; [exact PI|exact PF].
  - left. exists {| q_nd := {| n_b := n_b nd; n_cnt := n_cnt nd; n_ix := n_ix nd; n_hi := n_hi nd; n_oob := false |}; q_rows := upd (q_rows s) (q_this s + q_col s) p;
      q_img := upd (q_img s) (pos i) (lin6 p); q_left := p; q_this := q_this s; q_last := q_last s; q_col := q_col s + 1; q_c := q_c s + 1; q_out := q_out s; q_write := q_write s |}, rest.
    split. { unfold lin6. fold g. destruct g as [f|]; [|reflexivity]. destruct (chk && (da_linlen a <? p)); [contradiction|reflexivity]. }
    split; [|split; [|split; [exact HS'|split; [reflexivity|split; [reflexivity|exact Hle]]]]].
    + unfold pinv. cbn [q_nd q_c q_left q_img n_oob]. split; [|split; [reflexivity|split; [lia|split; [intros _; unfold p; f_equal; lia|split]]]].
      * destruct IN as (I1 & I2 & I3 & I4). split; [exact I1|]. split; [exact I2|]. split; [exact I3|exact I4].
      * intros k Hk. unfold upd. destruct (Z.eq_dec k i) as [->|Hn]; [rewrite Z.eqb_refl; reflexivity|].
        pose proof (pos_lt k i ltac:(lia)). replace (pos k =? pos i) with false by lia. apply PI. lia.
      * intros q Hq. unfold upd. pose proof (Hq i ltac:(lia)). replace (q =? pos i) with false by lia. apply PF. intros k Hk. apply Hq. lia.
    + unfold rinv. cbn [q_col q_this q_last q_rows]. split; [lia|]. split; [exact RT|]. split; [exact RL|]. unfold upd. split.
      * intros j Hj. destruct (Z.eq_dec j col) as [->|Hn].
        -- rewrite RC, Z.eqb_refl. unfold p. f_equal. exact Hi.
        -- replace (q_this s + j =? q_this s + q_col s) with false by lia. apply RTh. lia.
      * intros Hr1 j Hj. replace (q_last s + j =? q_this s + q_col s) with false by (rewrite RT, RL, RC; destruct (Z.even r); lia). apply RLa; assumption.
Qed.

Definition lvinv (r col : Z) (s : p6_st) : Prop := linv r col s /\ vinv (r * W + col).
Lemma vinv_first i : i <= W -> vinv i.
Proof. clear Hlin. intros Hi _ k Hk. lia. Qed.
Lemma vinv_next i : vinv i -> (da_lin a <> None -> at_ i <= da_linlen a) -> vinv (i + 1).
Proof. clear Hlin. intros V Hx Hl k Hk. destruct (Z.eq_dec k i) as [->|]; [apply Hx; exact Hl|]. apply V; [exact Hl|lia]. Qed.

Lemma not_end' i R s dl : dl = E + 2 -> pinv i R s -> (small \/ 24 <= len R) -> p6_end dl s = true -> small.
Proof. clear Hlin. intros Hdl P [S|HR] Ee; [exact S|]. rewrite (not_end i R s dl Hdl P HR) in Ee. discriminate. Qed.

Lemma first_step_w dl col s : dl = E + 2 -> 1 <= H -> 1 <= col < W -> lvinv 0 col s ->
  (exists s', p6_first_body U d dl h a wl s = Go s' /\ lvinv 0 (col + 1) s') \/ (exists s' r, p6_first_body U d dl h a wl s = Ret r s' /\ fin r s').
Proof. clear Hlin.
  intros Hdl HH2 Hcol ((R & P & R0 & W0 & HS) & V). unfold p6_first_body.
  destruct (put_w false (0 * W + col) 0 col (q_left s) true R s eq_refl ltac:(lia) ltac:(lia) P R0 W0 HS eq_refl) as [(s1 & rest & -> & P1 & R1 & S1 & O1 & O2 & _)|(F & _)]; [|  |discriminate F].
  { unfold pred6. rewrite firstn_len by nia. replace (0 * W + col =? 0) with false by lia. replace (0 * W + col <? W) with true by lia. rewrite firstn_at by nia.
    destruct P as (_ & _ & _ & PL & _). apply PL. lia. }
  pose proof (sinv_len (0 * W + col + 1) rest ltac:(nia) S1) as HL. destruct (p6_end dl s1) eqn:Ee.
  - right. exists s1, CORRUPT. split; [reflexivity|]. exists (0 * W + col + 1). split; [nia|]. split; [eapply pinv_dinv; exact P1|]. split; [apply vinv_first; lia|]. right; right. split; [reflexivity|].
    eapply not_end'; [exact Hdl|exact P1| |exact Ee]. unfold small. nia.
  - left. destruct W0 as [W1 W2]. destruct (skip_ok (0 * W + col) rest 0 (col + 1) s1 ltac:(lia) P1 R1 ltac:(congruence) ltac:(congruence)) as (A1 & A2 & A3). cbv zeta in *.
    eexists. split; [reflexivity|]. split; [|apply vinv_first; lia]. exists rest. replace (0 * W + (col + 1)) with (0 * W + col + 1) by lia. auto.
Qed.
Lemma row_step_w r col s : 1 <= r < H -> 1 <= col < W -> lvinv r col s ->
  (exists s', p6_row_body U d h a wl s = Go s' /\ lvinv r (col + 1) s') \/ (exists s' c, p6_row_body U d h a wl s = Ret c s' /\ fin c s').
Proof. clear Hlin.
  intros Hr Hcol ((R & P & R0 & W0 & HS) & V). unfold p6_row_body. pose proof R0 as (RC & RT & RL & RTh & RLa). assert (Hi : 0 <= r * W + col < W * H) by nia.
  destruct (put_w true (r * W + col) r col (q_rows s (q_last s + q_col s) + Z.shiftr (q_left s - q_rows s (q_last s + q_col s - 1)) 1)
    (row_ok h (q_last s + q_col s) && row_ok h (q_last s + q_col s - 1)) R s eq_refl ltac:(lia) ltac:(lia) P R0 W0 HS) as [(s1 & rest & -> & P1 & R1 & S1 & O1 & O2 & Hle)|(_ & F1 & F2 & s1 & -> & D1)].
  { unfold row_ok. pose proof Hcomp. assert (2 * W <= 2 * W * j_comp h) by nia. rewrite RL, RC. fold W. destruct (Z.even r); lia. }
  { unfold pred6. rewrite firstn_len by lia. replace (r * W + col =? 0) with false by nia. replace (r * W + col <? W) with false by nia.
    assert (Em : (r * W + col) mod W = col) by (rewrite Z.add_comm, Z.mod_add by lia; apply Z.mod_small; lia). rewrite Em. replace (col =? 0) with false by lia.
    rewrite !firstn_at by nia. rewrite Z.shiftr_div_pow2 by lia. change (2 ^ 1) with 2. rewrite RC. rewrite RLa by lia.
    replace (q_last s + col - 1) with (q_last s + (col - 1)) by lia. rewrite RLa by lia.
    destruct P as (_ & _ & _ & PL & _). rewrite PL by nia. replace (r * W + col - W) with ((r - 1) * W + col) by lia. replace ((r - 1) * W + col - 1) with ((r - 1) * W + (col - 1)) by lia. reflexivity. }
  - left. destruct W0 as [W1 W2]. destruct (skip_ok (r * W + col) rest r (col + 1) s1 ltac:(nia) P1 R1 ltac:(congruence) ltac:(congruence)) as (A1 & A2 & A3). cbv zeta in *.
    eexists. split; [reflexivity|]. replace (r * W + (col + 1)) with (r * W + col + 1) by lia. unfold lvinv. replace (r * W + (col + 1)) with (r * W + col + 1) by lia.
    split; [|apply vinv_next; [exact V|apply Hle; reflexivity]]. exists rest. replace (r * W + (col + 1)) with (r * W + col + 1) by lia. auto.
  - right. exists s1, CORRUPT. split; [reflexivity|]. exists (r * W + col). split; [nia|]. split; [exact D1|]. split; [exact V|]. right; left. split; [reflexivity|]. split; [exact F1|]. split; [nia|exact F2].
Qed.
Lemma p6_loop_w body (INV : Z -> p6_st -> Prop) (F : Z -> p6_st -> Prop) n : forall lo s,
  (forall c s, lo <= c < lo + Z.of_nat n -> INV c s -> (exists s', body s = Go s' /\ INV (c + 1) s') \/ (exists s' r, body s = Ret r s' /\ F r s')) -> INV lo s ->
  (exists s', p6_loop n body s = Go s' /\ INV (lo + Z.of_nat n) s') \/ (exists s' r, p6_loop n body s = Ret r s' /\ F r s').
Proof. clear Hlin.
  induction n as [|n IH]; intros lo s HB H0; cbn [p6_loop]; [left; exists s; rewrite Z.add_0_r; auto|].
  destruct (HB lo s ltac:(lia) H0) as [(s1 & -> & H1)|(s1 & r & -> & H1)]; [|right; exists s1, r; auto].
  destruct (IH (lo + 1) s1) as [(s2 & E2 & H2)|K]; [intros; apply HB; [lia|assumption]|exact H1| |right; exact K].
  left. exists s2. split; [exact E2|]. replace (lo + Z.of_nat (S n)) with (lo + 1 + Z.of_nat n) by lia. exact H2.
Qed.
Lemma row_w dl r s : pixels h = H * W -> dl = E + 2 -> 1 <= r < H -> lvinv r 0 (p6_col0 s) ->
  (exists s', p6_row U d dl h a wl s = Go (p6_swap s') /\ lvinv r W s') \/ (exists s' c, p6_row U d dl h a wl s = Ret c s' /\ fin c s').
Proof. clear Hlin.
  intros HP Hdl Hr ((R & P & R0 & W0 & HS) & V). unfold p6_row. set (s0 := p6_col0 s) in *. clearbody s0. cbv zeta.
  pose proof R0 as (RC & RT & RL & RTh & RLa). assert (Hi : 0 <= r * W + 0 < W * H) by nia.
  destruct (put_w true (r * W + 0) r 0 (q_rows s0 (q_last s0)) (row_ok h (q_last s0)) R s0 eq_refl ltac:(lia) ltac:(lia) P R0 W0 HS) as [(s1 & rest & -> & P1 & R1 & S1 & O1 & O2 & Hle)|(_ & F1 & F2 & s1 & -> & D1)].
  { unfold row_ok. pose proof Hcomp. assert (2 * W <= 2 * W * j_comp h) by nia. rewrite RL. fold W. destruct (Z.even r); lia. }
  { unfold pred6. rewrite firstn_len by lia. replace (r * W + 0 =? 0) with false by nia. replace (r * W + 0 <? W) with false by nia.
    assert (Em : (r * W + 0) mod W = 0) by (rewrite Z.add_0_r; apply Z.mod_mul; lia). rewrite Em. change (0 =? 0) with true. cbn iota. rewrite firstn_at by nia.
    rewrite <- (Z.add_0_r (q_last s0)). rewrite RLa by lia. f_equal. lia. }
  2:{ right. exists s1, CORRUPT. split; [reflexivity|]. exists (r * W + 0). split; [nia|]. split; [exact D1|]. split; [exact V|]. right; left. split; [reflexivity|]. split; [exact F1|]. split; [nia|exact F2]. }
  pose proof (vinv_next _ V (Hle eq_refl)) as V1. pose proof (sinv_len (r * W + 0 + 1) rest ltac:(nia) S1) as HL. destruct (p6_end dl s1) eqn:Ee.
  { right. exists s1. eexists. split; [reflexivity|]. exists (r * W + 0 + 1). split; [nia|]. split; [eapply pinv_dinv; exact P1|]. split; [exact V1|].
    destruct P1 as (A1 & A2 & PC & A3). rewrite PC. rewrite HP. destruct (H * W <=? r * W + 0 + 1) eqn:El; [left; split; [reflexivity|nia]|]. right; right. split; [reflexivity|].
    eapply not_end'; [exact Hdl|split; [exact A1|split; [exact A2|split; [exact PC|exact A3]]]| |exact Ee]. unfold small. nia. }
  destruct W0 as [W1 W2]. destruct (skip_ok (r * W + 0) rest r (0 + 1) s1 ltac:(nia) P1 R1 ltac:(congruence) ltac:(congruence)) as (A1 & A2 & A3). cbv zeta in *.
  assert (L1 : lvinv r 1 (p6_skip a wl s1)). { unfold lvinv. replace (r * W + 1) with (r * W + 0 + 1) by lia. split; [|exact V1]. exists rest. replace (r * W + 1) with (r * W + 0 + 1) by lia. auto. }
  destruct (p6_loop_w (p6_row_body U d h a wl) (lvinv r) fin (Z.to_nat (rowcount h)) 1 (p6_skip a wl s1)) as [(s2 & -> & L2)|(s2 & c & -> & F2)]; [|exact L1| |right; exists s2, c; auto].
  { intros c s2 Hc L2. apply row_step_w; [lia|rewrite (rowcount_pos h HW) in Hc; fold W in Hc; lia|exact L2]. }
  rewrite (rowcount_pos h HW) in *. fold W in L2. replace (1 + Z.of_nat (Z.to_nat (W - 1))) with W in L2 by lia.
  destruct (p6_end dl (p6_swap s2)) eqn:Ee2; [right|left; exists s2; auto]. destruct L2 as ((R2 & P2 & R2' & W2' & S2) & V2).
  exists (p6_swap s2). eexists. split; [reflexivity|]. exists (r * W + W). split; [nia|]. split; [apply (pinv_dinv _ R2); exact P2|]. split; [exact V2|].
  pose proof P2 as (_ & _ & PC & _). change (q_c (p6_swap s2)) with (q_c s2). rewrite PC. rewrite HP. destruct (H * W <=? r * W + W) eqn:El; [left; split; [reflexivity|nia]|]. right; right. split; [reflexivity|].
  pose proof (sinv_len (r * W + W) R2 ltac:(nia) S2) as HL2. eapply (not_end' (r * W + W) R2 s2 dl Hdl P2); [|exact Ee2].
  destruct (Z_lt_ge_dec W 25) as [|HW25]; [left; left; lia|right]. assert (r + 1 < H) by nia. nia.
Qed.
Lemma rows_w dl : pixels h = H * W -> dl = E + 2 -> forall fuel r s, 1 <= r <= H -> H - r < Z.of_nat fuel -> lvinv r 0 (p6_col0 s) ->
  exists s' c, p6_rows fuel U d dl h a wl s = (c, s') /\ fin c s'.
Proof. clear Hlin.
  intros HP Hdl. induction fuel as [|f IH]; intros r s Hr Hf HL; [lia|]. cbn [p6_rows]. rewrite HP.
  assert (Ec : q_c s = r * W) by (destruct HL as ((R & (_ & _ & PC & _) & _) & _); unfold p6_col0 in PC; cbn [q_c] in PC; lia).
  destruct (q_c s <? H * W) eqn:Ei.
  - assert (Hr' : r < H) by nia. destruct (row_w dl r s HP Hdl ltac:(lia) HL) as [(s' & -> & L' & V')|(s' & c & -> & F)]; [|exists s', c; auto].
    apply (IH (r + 1)); [lia|lia|]. split; [apply row_swap; [lia|exact L']|]. replace ((r + 1) * W + 0) with (r * W + W) by lia. exact V'.
  - assert (r = H) by nia. subst r. exists s, NONE. split; [reflexivity|]. destruct HL as ((R & P & _) & V). exists (W * H). split; [nia|].
    replace (H * W + 0) with (W * H) in * by lia. split; [apply (pinv_dinv _ R); exact P|]. split; [exact V|]. left. auto.
Qed.
Lemma pred6_w dl rows R0 : pixels h = H * W -> H = j_y h -> dl = E + 2 -> 1 <= H -> 1 <= j_bits h ->
  nd_inv d E R0 {| n_b := 0; n_cnt := 0; n_ix := j_scan h + beh d (j_scan h); n_hi := 0; n_oob := false |} -> sinv 0 R0 ->
  exists s' c, parse_pred6 U d dl h a wl rows img0 = (c, s') /\ fin c s'.
Proof. clear Hlin.
  intros HP HY Hdl HH2 Hbd HN HS. unfold parse_pred6. set (s0 := {| q_nd := _; q_rows := _ |}).
  assert (P0 : pinv 0 R0 s0). { unfold pinv, s0. cbn [q_nd n_oob q_c q_left q_img]. split; [exact HN|]. split; [reflexivity|]. split; [reflexivity|]. split; [intros; lia|]. split; [intros; lia|reflexivity]. }
  assert (R1 : rinv 0 0 s0). { unfold rinv, s0. cbn [q_col q_this q_last q_rows]. change (Z.even 0) with true. fold W. repeat (split; [reflexivity|]). split; intros; lia. }
  assert (W0 : winv 0 s0). { unfold winv, s0. cbn [q_out q_write]. rewrite Z.div_0_l, Z.mod_0_l by lia. lia. }
  assert (E0 : 0 = 0 * W + 0) by lia.
  destruct (put_w false 0 0 0 (Z.shiftl 1 (j_bits h - 1)) true R0 s0 E0 ltac:(lia) ltac:(lia) P0 R1 W0 HS eq_refl) as [(s1 & rest & -> & P1 & R1' & S1 & O1 & O2 & _)|(F & _)]; [| |discriminate F].
  { unfold pred6. cbn [Z.to_nat firstn]. rewrite Z.shiftl_1_l. reflexivity. }
  pose proof (sinv_len (0 + 1) rest ltac:(nia) S1) as HL. destruct (p6_end dl s1) eqn:Ee.
  { exists s1, CORRUPT. split; [reflexivity|]. exists (0 + 1). split; [nia|]. split; [eapply pinv_dinv; exact P1|]. split; [apply vinv_first; lia|]. right; right. split; [reflexivity|].
    eapply not_end'; [exact Hdl|exact P1| |exact Ee]. unfold small. nia. }
  assert (L1 : lvinv 0 1 (p6_dec s1)).
  { split; [|apply vinv_first; lia]. exists rest. split; [exact P1|]. split; [exact R1'|]. split; [|exact S1]. destruct W0 as [W1 W2]. unfold winv, p6_dec. cbn [q_out q_write]. rewrite O1, O2, W1, W2.
    change (0 * W + 1) with 1. rewrite Z.div_0_l, Z.mod_0_l by lia. rewrite Z.div_small, Z.mod_small by lia. lia. }
  destruct (p6_loop_w (p6_first_body U d dl h a wl) (lvinv 0) fin (Z.to_nat (rowcount h)) 1 (p6_dec s1)) as [(s2 & -> & L2 & V2)|(s2 & c & -> & F2)]; [|exact L1| |exists s2, c; auto].
  { intros c s2 Hc L2. apply first_step_w; try assumption. rewrite (rowcount_pos h HW) in Hc. fold W in Hc; lia. }
  rewrite (rowcount_pos h HW) in *. fold W in L2. replace (1 + Z.of_nat (Z.to_nat (W - 1))) with W in * by lia.
  rewrite <- HY. apply (rows_w dl HP Hdl (S (Z.to_nat H)) 1 (p6_swap s2)); [lia|lia|]. split; [apply (row_swap 0); [lia|exact L2]|]. apply vinv_first. lia.
Qed.

(* x*y >= 2^31: the product wraps, and the loop over the rows is not entered.  H is the number of rows that can be read, at least two *)
Lemma first_step_n dl col s : dl = E + 2 -> 25 <= W -> 2 <= H -> 1 <= col < W -> linv 0 col s ->
  exists s', p6_first_body U d dl h a wl s = Go s' /\ linv 0 (col + 1) s'.
Proof. clear Hlin.
  intros Hdl HW25 HH2 Hcol (R & P & R0 & W0 & HS). unfold p6_first_body.
  destruct (put_w false (0 * W + col) 0 col (q_left s) true R s eq_refl ltac:(lia) ltac:(lia) P R0 W0 HS eq_refl) as [(s1 & rest & -> & P1 & R1 & S1 & O1 & O2 & _)|(F & _)]; [|  |discriminate F].
  { unfold pred6. rewrite firstn_len by nia. replace (0 * W + col =? 0) with false by lia. replace (0 * W + col <? W) with true by lia. rewrite firstn_at by nia.
    destruct P as (_ & _ & _ & PL & _). apply PL. lia. }
  pose proof (sinv_len (0 * W + col + 1) rest ltac:(nia) S1) as HL. rewrite (not_end _ rest s1 dl Hdl P1) by nia.
  destruct W0 as [W1 W2]. destruct (skip_ok (0 * W + col) rest 0 (col + 1) s1 ltac:(lia) P1 R1 ltac:(congruence) ltac:(congruence)) as (A1 & A2 & A3). cbv zeta in *.
  eexists. split; [reflexivity|]. exists rest. replace (0 * W + (col + 1)) with (0 * W + col + 1) by lia. auto.
Qed.
Lemma pred6_wrap dl rows R0 : pixels h < 0 -> dl = E + 2 -> 25 <= W -> 2 <= H -> 1 <= j_bits h ->
  nd_inv d E R0 {| n_b := 0; n_cnt := 0; n_ix := j_scan h + beh d (j_scan h); n_hi := 0; n_oob := false |} -> sinv 0 R0 ->
  exists s', parse_pred6 U d dl h a wl rows img0 = (NONE, s') /\ exists R, pinv W R s'.
Proof. clear Hlin.
  intros HP Hdl HW25 HH2 Hbd HN HS. unfold parse_pred6. set (s0 := {| q_nd := _; q_rows := _ |}).
  assert (P0 : pinv 0 R0 s0). { unfold pinv, s0. cbn [q_nd n_oob q_c q_left q_img]. split; [exact HN|]. split; [reflexivity|]. split; [reflexivity|]. split; [intros; lia|]. split; [intros; lia|reflexivity]. }
  assert (R1 : rinv 0 0 s0). { unfold rinv, s0. cbn [q_col q_this q_last q_rows]. change (Z.even 0) with true. fold W. repeat (split; [reflexivity|]). split; intros; lia. }
  assert (W0 : winv 0 s0). { unfold winv, s0. cbn [q_out q_write]. rewrite Z.div_0_l, Z.mod_0_l by lia. lia. }
  assert (E0 : 0 = 0 * W + 0) by lia.
  destruct (put_w false 0 0 0 (Z.shiftl 1 (j_bits h - 1)) true R0 s0 E0 ltac:(lia) ltac:(lia) P0 R1 W0 HS eq_refl) as [(s1 & rest & -> & P1 & R1' & S1 & O1 & O2 & _)|(F & _)]; [| |discriminate F].
  { unfold pred6. cbn [Z.to_nat firstn]. rewrite Z.shiftl_1_l. reflexivity. }
  pose proof (sinv_len (0 + 1) rest ltac:(nia) S1) as HL. rewrite (not_end _ rest s1 dl Hdl P1) by nia.
  assert (L1 : linv 0 1 (p6_dec s1)).
  { exists rest. split; [exact P1|]. split; [exact R1'|]. split; [|exact S1]. destruct W0 as [W1 W2]. unfold winv, p6_dec. cbn [q_out q_write]. rewrite O1, O2, W1, W2.
    change (0 * W + 1) with 1. rewrite Z.div_0_l, Z.mod_0_l by lia. rewrite Z.div_small, Z.mod_small by lia. lia. }
  destruct (p6_loop_inv (p6_first_body U d dl h a wl) (linv 0) (Z.to_nat (rowcount h)) 1 (p6_dec s1)) as (s2 & -> & L2); [|exact L1|].
  { intros c s2 Hc L2. apply first_step_n; try assumption. rewrite (rowcount_pos h HW) in Hc. fold W in Hc; lia. }
  rewrite (rowcount_pos h HW) in *. fold W in L2. replace (1 + Z.of_nat (Z.to_nat (W - 1))) with W in L2 by lia.
  cbn [p6_rows]. destruct L2 as (R & P & _). pose proof P as (_ & _ & PC & _). change (q_c (p6_swap s2)) with (q_c s2). replace (q_c s2 <? pixels h) with false by nia.
  exists (p6_swap s2). split; [reflexivity|]. exists R. exact P.
Qed.
End P6.
