(* what the encoder writes *)
From Verif Require Import Bits Spec Spec_Lj92 Spec_P6 M_Lj92 M_Enc92 P_I3 P_Lj92 P_Lj92b P_Lj92c P_Decode P_Pack P_Fix P_Enc92.
Ltac Zify.zify_post_hook ::= idtac.

Lemma find_lookup c : forall vals codes, length codes = length vals -> In c vals ->
  find_code (combine vals codes) c = bitsz (fst (lookup c vals codes)) (snd (lookup c vals codes)) /\ In (lookup c vals codes) codes.
Proof.
  induction vals as [|v vs IH]; intros [|[l x] cs] HL HI; try discriminate; [destruct HI|]. cbn [combine find_code lookup]. destruct (Z.eqb_spec v c) as [->|N].
  - split; [reflexivity|left; reflexivity].
  - destruct HI as [HI|HI]; [congruence|]. destruct (IH cs ltac:(cbn in HL; lia) HI) as [A B]. split; [exact A|right; exact B].
Qed.
(* the bits that follow the code *)
Lemma extra_value d : Z.abs d < 2 ^ 15 -> let s := category d in
  let vt := if 0 <? s then Z.shiftl 1 (s - 1) else 0 in let v := if d <? vt then d + (Z.shiftl 1 s - 1) else d in
  0 <= v < 2 ^ s /\ extra_bits d = bitsz s v.
Proof.
  intros H s vt v. pose proof (category_range d H) as R. fold s in R. unfold v, vt, extra_bits. fold s. replace (s =? 16) with false by lia. clear v vt. rewrite !Z.shiftl_1_l.
  unfold s, category in *. destruct (Z.eqb_spec d 0) as [->|N].
  - cbn [Z.ltb Z.compare Z.pow]. split; [lia|reflexivity].
  - clear s. set (l := Z.log2 (Z.abs d)) in *. destruct (Z.log2_spec (Z.abs d) ltac:(lia)) as [L1 L2]. fold l in L1, L2. pose proof (Z.log2_nonneg (Z.abs d)) as L0. fold l in L0. clearbody l. replace (0 <? l + 1) with true by lia. replace (l + 1 - 1) with l by lia.
    assert (P : 2 ^ (l + 1) = 2 * 2 ^ l) by (rewrite Z.pow_add_r by lia; lia). replace (Z.succ l) with (l + 1) in L2 by lia.
    destruct (Z.ltb_spec d (2 ^ l)) as [A|A]; destruct (Z.ltb_spec d 0) as [B|B]; try (exfalso; lia).
    + split; [lia|]. rewrite <- (bitsz_trunc (l + 1) (l + 1) (d - 1)) by lia. f_equal. unfold trunc. replace (d + (2 ^ (l + 1) - 1)) with (d - 1 + 1 * 2 ^ (l + 1)) by lia. symmetry. rewrite <- (Z.mod_small (d - 1 + 1 * 2 ^ (l + 1)) (2 ^ (l + 1))) by lia. apply Z.mod_add. lia.
    + split; [lia|reflexivity].
Qed.

Section Body.
Variables (img : lmem) (bd w rl sl : Z) (px : list Z) (t : enc_tab) (vals : list Z) (codes : list (Z * Z)) (L H0 : Z) (out0 : lmem).
Hypothesis Hw : 1 <= w.
Hypothesis Hrl : 1 <= rl.
Hypothesis Hpx : forall k, 0 <= k < len px -> nth (Z.to_nat k) px 0 = img (tile_pos rl sl k).
Hypothesis Hsm : diffs_small bd w [] px.
Hypothesis Hlen : length codes = length vals.
Hypothesis Hcod : forall l x, In (l, x) codes -> 1 <= l <= 16 /\ 0 <= x < 2 ^ l - 1.
Hypothesis Hsym : forall c, In c vals -> nth (Z.to_nat (t_sym t c)) (t_codes t) (0, 0) = lookup c vals codes.
Let bk := combine vals codes.
Lemma body_ok : forall rest pre s o bs, px = pre ++ rest -> einv w rl sl px (len pre) s -> oinv L H0 out0 bs o ->
  (forall d, In d (diffs6 bd w pre rest) -> In (category d) vals) ->
  match write_body (length rest) img None t L bd w rl sl s o with
  | Some o' => oinv L H0 out0 (bs ++ write_samples bk bd w pre rest) o' | None => ofull L H0 (bs ++ write_samples bk bd w pre rest) end.
Proof.
  induction rest as [|p rest IH]; intros pre s o bs E I O HV; cbn [length write_body write_samples]; [rewrite app_nil_r; exact O|].
  destruct (step_at img bd w rl sl px Hw Hrl Hpx Hsm pre p rest s E I) as (A & B & C). pose proof (small_at bd w px Hsm pre p rest E) as S.
  cbn [diffs6] in HV. set (d := p - pred6 bd w pre) in *. rewrite B, ssss_category. pose proof (HV d (or_introl eq_refl)) as Hin.
  destruct (find_lookup (category d) vals codes Hlen Hin) as [F1 F2]. rewrite (Hsym _ Hin). set (code := lookup (category d) vals codes) in *. clearbody code. destruct code as [l x]. cbn [fst snd] in *.
  destruct (Hcod l x F2) as [Hl Hx]. destruct (extra_value d S) as [V1 V2]. pose proof (category_range d S) as CR.
  set (v := if d <? _ then _ else _) in *. clearbody v.
  pose proof (put_ok_bits L H0 out0 32 x l bs o ltac:(lia) ltac:(lia) ltac:(lia) O) as P1.
  unfold write_diff. fold bk in F1. rewrite F1, V2. destruct (put_bits 32 L x l o) as [o1|]; [|rewrite <- app_assoc, app_assoc; apply ofull_app; exact P1].
  pose proof (put_ok_bits L H0 out0 32 v (category d) _ o1 ltac:(lia) ltac:(lia) V1 P1) as P2. destruct (put_bits 32 L v (category d) o1) as [o2|].
  2:{ rewrite <- !app_assoc. rewrite !app_assoc. rewrite <- (app_assoc bs). rewrite <- (app_assoc bs) in P2. apply ofull_app. exact P2. }
  specialize (IH (pre ++ [p]) _ o2 _ ltac:(rewrite <- app_assoc; exact E) C P2 ltac:(intros d' Hd'; apply HV; right; exact Hd')).
  rewrite <- !app_assoc in IH. rewrite <- !app_assoc. exact IH.
Qed.
End Body.

(* ------------------------------------------------------------------ the last byte *)
Lemma pack_short r : (0 < length r < 8)%nat -> pack 8 r = [bval r * 2 ^ (8 - len r)].
Proof.
  intros H. unfold pack. replace ((len r + 8 - 1) / 8) with 1; [|apply (Z.div_unique _ 8 _ (len r - 1)); unfold len; lia].
  change (Z.to_nat 1) with 1%nat. cbn [pack_n]. change (Z.to_nat 8) with 8%nat. rewrite firstn_app, firstn_all2, firstn_repeat by lia.
  replace (Nat.min (8 - length r) 8) with (8 - length r)%nat by lia. rewrite bval_app, repeat_length. f_equal.
  assert (B0 : forall n, bval (repeat false n) = 0). { induction n as [|n IH]; [reflexivity|]. change (repeat false (S n)) with ([false] ++ repeat false n). rewrite bval_app, IH. change (bval [false]) with 0. lia. }
  rewrite B0, Z.add_0_r. f_equal. f_equal. unfold len. lia.
Qed.
Lemma flush_ok L H0 out0 bs o : oinv L H0 out0 bs o -> let (out, n) := flush_body o in
  holds out H0 (stuff (pack 8 bs)) /\ n = H0 + len (stuff (pack 8 bs)) /\ (forall p, p < H0 \/ n <= p -> out p = out0 p) /\ n <= Z.max H0 L + 1.
Proof.
  intros (Q & r & -> & HQ & Hr & E1 & E2 & E3 & E4 & E5 & E6). unfold flush_body. rewrite E1.
  assert (HQ' : Forall (wrange 8) Q) by (eapply Forall_impl; [|exact HQ]; intros b Hb; exact Hb). pose proof (pack_app 8 Q r ltac:(lia) HQ') as EP. change (wbits 8 Q) with (stream 8 Q) in EP. rewrite EP. clear EP.
  destruct (Z.ltb_spec (8 - len r) 8) as [H|H].
  - rewrite pack_short by (unfold len in *; lia). rewrite E2, E3. destruct (stuff_put (b_out o) H0 Q (bval r * 2 ^ (8 - len r)) E4) as (A & B & C). cbv zeta in A, B, C. rewrite E3 in *.
    assert (NF : (bval r * 2 ^ (8 - len r) =? 255) = false).
    { apply Z.eqb_neq. intros X. assert (Hr8 : 0 <= len r < 8) by (unfold len; lia). replace (8 - len r) with (1 + (7 - len r)) in X by lia. rewrite Z.pow_add_r in X by lia. change (2 ^ 1) with 2 in X.
      apply (f_equal Z.odd) in X. rewrite Z.mul_comm, <- Z.mul_assoc, Z.odd_mul in X. discriminate. }
    rewrite NF in *. (split; [exact A|split; [exact C|split; [|lia]]]); intros p Hp; rewrite C in Hp; rewrite B by exact Hp; apply E5;
      (destruct Hp as [Hp|Hp]; [left; exact Hp|right]; rewrite stuff_app in Hp; unfold len in *; rewrite app_length in Hp; lia).
  - assert (r = []) as -> by (destruct r; [reflexivity|unfold len in H; cbn [length] in H; lia]). change (pack 8 []) with (@nil Z). rewrite app_nil_r. split; [exact E4|]. split; [exact E3|]. split; [exact E5|lia].
Qed.
Lemma full_long L H0 bs : ofull L H0 bs -> L <= H0 + len (stuff (pack 8 bs)).
Proof.
  intros (Q & b & r & -> & HQ & HL). assert (HQ' : Forall (wrange 8) (Q ++ [b])) by (eapply Forall_impl; [|exact HQ]; intros x Hx; exact Hx).
  pose proof (pack_app 8 (Q ++ [b]) r ltac:(lia) HQ') as EP. change (wbits 8 (Q ++ [b])) with (stream 8 (Q ++ [b])) in EP. rewrite EP, !stuff_app. unfold len in *. rewrite !app_length.
  assert (1 <= length (stuff [b]))%nat; [|lia]. unfold stuff, stuff_byte. cbn [flat_map]. destruct (b =? 255); cbn; lia.
Qed.

(* ------------------------------------------------------------------ the header *)
Lemma write_list_ok : forall l m a, holds (write_list m a l) a l /\ (forall p, p < a \/ a + len l <= p -> write_list m a l p = m p).
Proof.
  induction l as [|x l IH]; intros m a; cbn [write_list]; [split; [intros k Hk; cbn in Hk; lia|reflexivity]|].
  destruct (IH (upd m a x) (a + 1)) as [A B]. assert (LL : len (x :: l) = 1 + len l) by (unfold len; cbn [length]; lia). rewrite LL. split.
  - intros [|k] Hk; cbn [nth].
    + rewrite B by lia. unfold upd. replace (a + Z.of_nat 0 =? a) with true by lia. reflexivity.
    + cbn in Hk. pose proof (A k ltac:(lia)) as X. rewrite <- X. f_equal. lia.
  - intros p Hp. rewrite B by lia. unfold upd. replace (p =? a) with false; [reflexivity|]. unfold len in Hp. lia.
Qed.
Lemma fold_add (f : nat -> Z) : forall l a, fold_left (fun a i => a + f i) l a = a + fold_right Z.add 0 (map f l).
Proof. induction l as [|x l IH]; intros a; cbn [fold_left map fold_right]; [lia|]. rewrite IH. lia. Qed.
Lemma sum_nat (f : nat -> Z) : forall l, (forall i, In i l -> 0 <= f i) -> fold_right Z.add 0 (map f l) = Z.of_nat (list_sum (map (fun i => Z.to_nat (f i)) l)) /\ (forall i, In i l -> f i <= Z.of_nat (list_sum (map (fun i => Z.to_nat (f i)) l))).
Proof.
  unfold list_sum. induction l as [|x l IH]; intros H; cbn [map fold_right]; [split; [reflexivity|intros i []]|]. destruct IH as [A B]; [intros; apply H; right; assumption|]. pose proof (H x (or_introl eq_refl)).
  split; [rewrite A; lia|]. intros i [<-|Hi]; [lia|]. specialize (B i Hi). lia.
Qed.
Lemma map_nth_seq (l : list Z) : map (fun i => nth i l 0) (seq 0 (length l)) = l.
Proof.
  apply nth_ext with (d := 0) (d' := 0); [rewrite map_length, seq_length; reflexivity|]. intros k Hk. rewrite map_length, seq_length in Hk.
  rewrite (nth_indep _ 0 (nth 0%nat l 0)) by (rewrite map_length, seq_length; exact Hk). rewrite (map_nth (fun i => nth i l 0)). rewrite seq_nth by exact Hk. reflexivity.
Qed.
Definition rows16 (t : enc_tab) : list nat := map (fun i => Z.to_nat (t_bits t (Z.of_nat i))) (seq 1 16).
Lemma header_ok t bd w h : dht_ok (rows16 t) (t_vals t) -> (length (t_vals t) <= 17)%nat -> t_bits t 0 = 0 -> (forall i, 1 <= i <= 16 -> 0 <= t_bits t i) ->
  0 <= bd < 256 -> 0 <= w < 65536 -> 0 <= h < 65536 -> header_bytes t bd w h = [255; 0xd8] ++ dht (rows16 t) (t_vals t) ++ sof3_1 bd w h ++ sos_6.
Proof.
  intros (L16 & LV & _ & FV & _) L17 B0 BP Hbd Hw Hh. unfold header_bytes. rewrite fold_add. change (seq 0 17) with (0%nat :: seq 1 16). cbn [map fold_right]. change (Z.of_nat 0) with 0. rewrite B0.
  destruct (sum_nat (fun i => t_bits t (Z.of_nat i)) (seq 1 16)) as [SA SB]; [intros i Hi; apply in_seq in Hi; apply BP; lia|]. rewrite SA. fold (rows16 t) in SA, SB |- *. rewrite <- LV in *.
  replace (0 + (0 + Z.of_nat (length (t_vals t)))) with (Z.of_nat (length (t_vals t))) by lia. rewrite Nat2Z.id, map_nth_seq.
  assert (T8 : forall x, 0 <= x < 256 -> trunc 8 x = x) by (intros x Hx; apply trunc_id; exact Hx).
  assert (M1 : map (trunc 8) (map (fun i => t_bits t (Z.of_nat i)) (seq 1 16)) = map Z.of_nat (rows16 t)).
  { unfold rows16. rewrite !map_map. apply map_ext_in. intros i Hi. pose proof (SB i Hi). apply in_seq in Hi. pose proof (BP (Z.of_nat i) ltac:(lia)). rewrite T8 by lia. lia. }
  assert (M2 : map (trunc 8) (t_vals t) = t_vals t).
  { rewrite <- (map_id (t_vals t)) at 2. apply map_ext_in. intros v Hv. rewrite Forall_forall in FV. specialize (FV v Hv). apply T8. lia. }
  rewrite !map_app, M1, M2. unfold dht, sof3_1, sos_6, be16. rewrite <- !app_assoc. cbn [app map]. rewrite !Z.shiftr_div_pow2 by lia. change (2 ^ 8) with 256. change 255 with (Z.ones 8). rewrite !Z.land_ones by lia. change (2 ^ 8) with 256. change (Z.ones 8) with 255.
  pose proof (Z.div_pos w 256 ltac:(lia) ltac:(lia)). pose proof (Z.div_lt_upper_bound w 256 256 ltac:(lia) ltac:(lia)). pose proof (Z.div_pos h 256 ltac:(lia) ltac:(lia)). pose proof (Z.div_lt_upper_bound h 256 256 ltac:(lia) ltac:(lia)).
  pose proof (Z.mod_pos_bound w 256 ltac:(lia)). pose proof (Z.mod_pos_bound h 256 ltac:(lia)).
  rewrite (T8 bd), (T8 (h / 256)), (T8 (h mod 256)), (T8 (w / 256)), (T8 (w mod 256)) by lia.
  rewrite (T8 (17 + 2 + Z.of_nat (length (t_vals t)))) by lia. change (trunc 8 255) with 255.
  assert (D1 : (19 + len (t_vals t)) / 256 = 0) by (apply Z.div_small; unfold len; lia). assert (D2 : (19 + len (t_vals t)) mod 256 = 17 + 2 + Z.of_nat (length (t_vals t))) by (rewrite Z.mod_small; unfold len; lia). rewrite D1, D2.
  reflexivity.
Qed.
