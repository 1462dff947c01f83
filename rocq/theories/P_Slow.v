(* liblj92 with SLOW_HUFF: the tables, and the bit-by-bit reader against the buffered one *)
From Verif Require Import Bits Spec Spec_Lj92 M_Predictor M_Lj92 M_Pred6 M_Slow P_Lj92 P_Lj92b.
Ltac Zify.zify_post_hook ::= idtac.

(* ------------------------------------------------------------------ the tables *)
Definition first_code (bits : list nat) (k : nat) : Z := fold_left (fun x n => 2 * (x + Z.of_nat n)) (firstn k bits) 0.
Definition kraft (bits : list nat) (k : nat) : Z := fold_left (fun a n => 2 * a + Z.of_nat n) (firstn k bits) 0.
Definition tab_ok (t : sl_tab) (bits : list nat) (vals : list Z) : Prop :=
  t_val t = vals /\
  forall k, (k < 16)%nat -> let n := nth k bits 0%nat in let i := 1 + Z.of_nat k in
    (n = 0%nat -> t_max t i = -1) /\
    (n <> 0%nat -> t_max t i = first_code bits k + Z.of_nat n - 1 /\ t_min t i = first_code bits k /\ t_ptr t i = Z.of_nat (list_sum (firstn k bits))).

Lemma firstn_S_nth (bits : list nat) k : (k < length bits)%nat -> firstn (S k) bits = firstn k bits ++ [nth k bits 0%nat].
Proof.
  revert k. induction bits as [|n bits IH]; intros k Hk; cbn [length] in Hk; [lia|]. destruct k as [|k]; [reflexivity|]. cbn [firstn nth app]. f_equal. rewrite <- IH by lia. reflexivity.
Qed.
Lemma first_code_kraft bits : forall k, (k <= length bits)%nat -> first_code bits k = 2 * kraft bits k.
Proof.
  induction k as [|k IH]; intros Hk; [reflexivity|]. unfold first_code, kraft in *. rewrite firstn_S_nth by lia. rewrite !fold_left_app. cbn [fold_left]. rewrite IH by lia. lia.
Qed.
Lemma kraft_S bits k : (k < length bits)%nat -> kraft bits (S k) = first_code bits k + Z.of_nat (nth k bits 0%nat).
Proof. intros Hk. rewrite first_code_kraft by lia. unfold kraft. rewrite firstn_S_nth by lia. rewrite fold_left_app. reflexivity. Qed.
Lemma annexC_at bits k j : (k < length bits)%nat -> (j < nth k bits 0)%nat ->
  nth_error (annexC bits 1 0) (list_sum (firstn k bits) + j) = Some (1 + Z.of_nat k, first_code bits k + Z.of_nat j).
Proof.
  intros Hk Hj. rewrite <- (firstn_skipn k bits) at 1. rewrite annexC_app. rewrite nth_error_app2 by (rewrite annexC_len; lia). rewrite annexC_len.
  replace (list_sum (firstn k bits) + j - list_sum (firstn k bits))%nat with j by lia.
  assert (E : skipn k bits = nth k bits 0%nat :: skipn (S k) bits).
  { clear Hj. revert k Hk. induction bits as [|n bits IH]; intros k Hk; cbn [length] in Hk; [lia|]. destruct k as [|k]; [reflexivity|]. cbn [skipn nth]. rewrite IH by lia. reflexivity. }
  rewrite E. cbn [annexC]. rewrite nth_error_app1 by (rewrite annexC_row_len; lia). rewrite annexC_row_nth by lia. do 2 f_equal. unfold len. rewrite firstn_length. lia.
Qed.

(* huffsize *)
Lemma sl_sizes_ok bf : forall bits i, (forall k, (k < length bits)%nat -> bf (i + Z.of_nat k) = Z.of_nat (nth k bits 0%nat)) ->
  sl_sizes (length bits) i bf = lens_from bits i ++ [0].
Proof.
  induction bits as [|n bits IH]; intros i H; [reflexivity|]. cbn [length sl_sizes lens_from]. rewrite <- app_assoc. rewrite <- IH.
  - f_equal. specialize (H 0%nat ltac:(cbn; lia)). rewrite Z.add_0_r in H. cbn [nth] in H. rewrite H, Nat2Z.id. reflexivity.
  - intros k Hk. specialize (H (S k) ltac:(cbn [length]; lia)). cbn [nth] in H. rewrite <- H. f_equal. lia.
Qed.
(* huffcode *)
Lemma sl_codes_row : forall n f i r code, (n < f)%nat -> sl_codes f (repeat i n ++ r) code i =
  match sl_codes (f - n) r (code + Z.of_nat n) i with Some l => Some (map snd (annexC_row n i code) ++ l) | None => None end.
Proof.
  induction n as [|n IH]; intros f i r code Hf.
  - cbn [repeat app annexC_row map]. replace (f - 0)%nat with f by lia. change (Z.of_nat 0) with 0. rewrite Z.add_0_r. destruct (sl_codes f r code i); reflexivity.
  - destruct f as [|f]; [lia|]. cbn [repeat app sl_codes annexC_row map snd]. rewrite Z.eqb_refl. rewrite IH by lia. replace (S f - S n)%nat with (f - n)%nat by lia.
    replace (code + Z.of_nat (S n)) with (code + 1 + Z.of_nat n) by lia. destruct (sl_codes (f - n) r _ i); reflexivity.
Qed.
Lemma sl_codes_shift : forall m f z r code si, 0 < z -> si + Z.of_nat m = z -> (m < f)%nat ->
  sl_codes f (z :: r) code si = sl_codes (f - m) (z :: r) (code * 2 ^ Z.of_nat m) z.
Proof.
  induction m as [|m IH]; intros f z r code si Hz E Hf.
  - change (2 ^ Z.of_nat 0) with 1. replace (f - 0)%nat with f by lia. f_equal; lia.
  - destruct f as [|f]; [lia|]. cbn [sl_codes]. replace (z =? si) with false by lia. replace (z =? 0) with false by lia. rewrite (IH f z r _ (si + 1)) by lia. replace (S f - S m)%nat with (f - m)%nat by lia.
    f_equal. rewrite Z.shiftl_mul_pow2 by lia. rewrite Nat2Z.inj_succ, Z.pow_succ_r by lia. change (2 ^ 1) with 2. lia.
Qed.
Lemma sl_codes_ok : forall rows f bu si code, 1 <= si <= bu -> bu + len rows - si + Z.of_nat (list_sum rows) < Z.of_nat f ->
  sl_codes f (lens_from rows bu ++ [0]) code si = Some (map snd (annexC rows bu (code * 2 ^ (bu - si)))).
Proof.
  induction rows as [|n rows IH]; intros f bu si code Hs Hf.
  - destruct f as [|f]; [unfold len in Hf; cbn in Hf; lia|]. cbn [lens_from app sl_codes annexC map]. replace (0 =? si) with false by lia. reflexivity.
  - cbn [lens_from annexC]. rewrite <- app_assoc. unfold len in Hf. cbn [length list_sum fold_right] in Hf. fold (list_sum rows) in Hf.
    assert (E2 : 2 ^ (bu + 1 - si) = 2 * 2 ^ (bu - si)) by (replace (bu + 1 - si) with (Z.succ (bu - si)) by lia; apply Z.pow_succ_r; lia).
    destruct n as [|n].
    + cbn [repeat app annexC_row map]. rewrite IH by (unfold len; lia). do 3 f_equal. rewrite E2. lia.
    + assert (EE : sl_codes f (repeat bu (S n) ++ lens_from rows (bu + 1) ++ [0]) code si = sl_codes (f - Z.to_nat (bu - si)) (repeat bu (S n) ++ lens_from rows (bu + 1) ++ [0]) (code * 2 ^ (bu - si)) bu).
      { cbn [repeat app]. rewrite (sl_codes_shift (Z.to_nat (bu - si))) by lia. rewrite Z2Nat.id by lia. reflexivity. }
      rewrite EE. rewrite sl_codes_row by lia. rewrite IH by (unfold len; lia). rewrite map_app. do 2 f_equal. do 2 f_equal. replace (bu + 1 - bu) with 1 by lia. lia.
Qed.
(* maxcode, mincode, valptr *)
Lemma sl_tables_ok bf bits codes : (forall k, (k < length bits)%nat -> bf (1 + Z.of_nat k) = Z.of_nat (nth k bits 0%nat)) -> codes = map snd (annexC bits 1 0) ->
  forall n k t, (k + n = length bits)%nat ->
  let t' := sl_tables n (1 + Z.of_nat k) (Z.of_nat (list_sum (firstn k bits))) bf codes t in
  t_val t' = t_val t /\
  (forall i, (i < k)%nat -> t_max t' (1 + Z.of_nat i) = t_max t (1 + Z.of_nat i) /\ t_min t' (1 + Z.of_nat i) = t_min t (1 + Z.of_nat i) /\ t_ptr t' (1 + Z.of_nat i) = t_ptr t (1 + Z.of_nat i)) /\
  forall i, (k <= i < length bits)%nat -> let m := nth i bits 0%nat in
    (m = 0%nat -> t_max t' (1 + Z.of_nat i) = -1) /\
    (m <> 0%nat -> t_max t' (1 + Z.of_nat i) = first_code bits i + Z.of_nat m - 1 /\ t_min t' (1 + Z.of_nat i) = first_code bits i /\ t_ptr t' (1 + Z.of_nat i) = Z.of_nat (list_sum (firstn i bits))).
Proof.
  intros Hb Hc. induction n as [|n IH]; intros k t Hk.
  - cbn [sl_tables]. split; [reflexivity|]. split; [auto|]. intros; lia.
  - cbn [sl_tables]. rewrite Hb by lia. destruct (Z.of_nat (nth k bits 0%nat) =? 0) eqn:E0.
    + set (t1 := {| t_val := t_val t; t_max := upd (t_max t) (1 + Z.of_nat k) (-1); t_min := t_min t; t_ptr := t_ptr t |}).
      specialize (IH (S k) t1 ltac:(lia)). replace (1 + Z.of_nat (S k)) with (1 + Z.of_nat k + 1) in IH by lia.
      assert (EL : list_sum (firstn (S k) bits) = list_sum (firstn k bits)) by (rewrite firstn_S_nth, list_sum_app by lia; cbn [list_sum fold_right]; lia). rewrite EL in IH.
      cbv zeta in IH |- *. set (t' := sl_tables n _ _ _ _ t1) in *. clearbody t'. destruct IH as (I1 & I2 & I3). split; [exact I1|]. split.
      * intros i Hi. destruct (I2 i ltac:(lia)) as (J1 & J2 & J3). rewrite J1, J2, J3. cbn [t1 t_max t_min t_ptr]. unfold upd. replace (1 + Z.of_nat i =? 1 + Z.of_nat k) with false by lia. auto.
      * intros i Hi. destruct (Nat.eq_dec i k) as [->|N]; [|apply I3; lia]. destruct (I2 k ltac:(lia)) as (J1 & _). split; [intros _; rewrite J1; cbn [t1 t_max]; unfold upd; rewrite Z.eqb_refl; reflexivity|lia].
    + set (m := nth k bits 0%nat) in *. set (p := list_sum (firstn k bits)) in *.
      assert (C : forall j, (j < m)%nat -> nth (p + j) codes 0 = first_code bits k + Z.of_nat j).
      { intros j Hj. rewrite Hc. change 0 with (snd (0, 0)) at 2. rewrite map_nth. rewrite (nth_error_nth _ _ _ (annexC_at bits k j ltac:(lia) Hj)). reflexivity. }
      assert (Ca : nth (Z.to_nat (Z.of_nat p)) codes 0 = first_code bits k). { rewrite Nat2Z.id. specialize (C 0%nat ltac:(lia)). rewrite Nat.add_0_r in C. rewrite C. lia. }
      assert (Cb : nth (Z.to_nat (Z.of_nat p + Z.of_nat m - 1)) codes 0 = first_code bits k + Z.of_nat m - 1).
      { replace (Z.to_nat (Z.of_nat p + Z.of_nat m - 1)) with (p + (m - 1))%nat by lia. rewrite C by lia. lia. }
      rewrite Ca, Cb. set (t1 := {| t_val := t_val t; t_max := _; t_min := _; t_ptr := _ |}).
      specialize (IH (S k) t1 ltac:(lia)). replace (1 + Z.of_nat (S k)) with (1 + Z.of_nat k + 1) in IH by lia.
      assert (EL : Z.of_nat (list_sum (firstn (S k) bits)) = Z.of_nat p + Z.of_nat m) by (rewrite firstn_S_nth, list_sum_app by lia; cbn [list_sum fold_right]; fold m; fold p; lia). rewrite EL in IH.
      cbv zeta in IH |- *. set (t' := sl_tables n _ _ _ _ t1) in *. clearbody t'. destruct IH as (I1 & I2 & I3). split; [exact I1|]. split.
      * intros i Hi. destruct (I2 i ltac:(lia)) as (J1 & J2 & J3). rewrite J1, J2, J3. cbn [t1 t_max t_min t_ptr]. unfold upd. replace (1 + Z.of_nat i =? 1 + Z.of_nat k) with false by lia. auto.
      * intros i Hi. destruct (Nat.eq_dec i k) as [->|N]; [|apply I3; lia]. destruct (I2 k ltac:(lia)) as (J1 & J2 & J3). rewrite J1, J2, J3. cbn [t1 t_max t_min t_ptr]. unfold upd. rewrite !Z.eqb_refl.
        cbv zeta. fold m. split; [intros Hm; exfalso; lia|]. intros _. split; [reflexivity|]. split; [reflexivity|]. reflexivity.
Qed.
Lemma tab_built bf bits vals : dht_ok bits vals -> (forall k, (k < 16)%nat -> bf (1 + Z.of_nat k) = Z.of_nat (nth k bits 0%nat)) ->
  let sizes := sl_sizes 16 1 bf in
  exists codes, sl_codes (length sizes + 17) sizes 0 (hd 0 sizes) = Some codes /\ forall t, t_val t = vals -> tab_ok (sl_tables 16 1 0 bf codes t) bits vals.
Proof.
  intros (L16 & Lv & Hne & _) Hb sizes. assert (Hb' : forall k, (k < length bits)%nat -> bf (1 + Z.of_nat k) = Z.of_nat (nth k bits 0%nat)) by (intros; apply Hb; lia).
  assert (ES : sizes = lens_from bits 1 ++ [0]) by (unfold sizes; rewrite <- L16; apply sl_sizes_ok; exact Hb').
  exists (map snd (annexC bits 1 0)). split.
  - assert (LS : length sizes = S (list_sum bits)) by (rewrite ES, app_length, lens_len; cbn; lia).
    assert (HR : forall rs b z, In z (lens_from rs b) -> b <= z < b + len rs).
    { induction rs as [|n rs IHr]; intros b z Hz; cbn [lens_from] in Hz; [destruct Hz|]. unfold len in *. cbn [length]. apply in_app_or in Hz. destruct Hz as [Hz|Hz]; [apply repeat_spec in Hz; lia|apply IHr in Hz; lia]. }
    pose proof (sl_codes_ok bits (length sizes + 17 + Z.to_nat (hd 0 sizes - 1)) 1 1 0 ltac:(lia)) as K. rewrite <- ES in K. change (0 * 2 ^ (1 - 1)) with 0 in K.
    destruct sizes as [|z r] eqn:Ez; [discriminate|]. cbn [hd] in *.
    assert (Hz : 1 <= z <= 16).
    { assert (Hl : (0 < length (lens_from bits 1))%nat) by (rewrite lens_len; destruct vals; [congruence|cbn [length] in Lv; lia]).
      destruct (lens_from bits 1) as [|y ys] eqn:El; [cbn in Hl; lia|]. injection ES as <- _. assert (I : In z (lens_from bits 1)) by (rewrite El; left; reflexivity). apply HR in I. unfold len in I. lia. }
    rewrite (sl_codes_shift (Z.to_nat (z - 1))) in K by lia. change (0 * 2 ^ Z.of_nat (Z.to_nat (z - 1))) with 0 in K.
    replace (length (z :: r) + 17 + Z.to_nat (z - 1) - Z.to_nat (z - 1))%nat with (length (z :: r) + 17)%nat in K by lia. apply K. unfold len. rewrite L16. lia.
  - intros t Ht. destruct (sl_tables_ok bf bits _ Hb' eq_refl 16 0 t ltac:(lia)) as (T1 & _ & T3). split; [rewrite <- Ht; exact T1|]. intros k Hk. apply T3. lia.
Qed.
