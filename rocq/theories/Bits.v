(* Bit strings (most significant bit first) and fixed-width arithmetic. *)
From Coq Require Export ZArith List Bool Lia ZifyBool.
Export ListNotations.
Open Scope Z_scope.

Ltac Zify.zify_post_hook ::= Z.div_mod_to_equations.

(* The value kept by a w-bit register / wire when x is assigned to it. *)
Definition trunc (w x : Z) : Z := x mod 2 ^ w.

(* x[lo:hi] *)
Definition slice (lo hi x : Z) : Z := (x / 2 ^ lo) mod 2 ^ (hi - lo).

Definition b2z (b : bool) : Z := if b then 1 else 0.

(* width of nMigen's Signal(max=m) (bits_for(m-1)) and of ceil(log2 m) for m>=1 *)
Definition clog2 (m : Z) : Z := Z.log2_up m.

(* the low n bits of v, most significant first *)
Fixpoint bitsn (n : nat) (v : Z) : list bool :=
  match n with
  | O => []
  | S k => Z.testbit v (Z.of_nat k) :: bitsn k v
  end.

(* the number written by a bit string *)
Fixpoint bval (l : list bool) : Z :=
  match l with
  | [] => 0
  | b :: r => b2z b * 2 ^ Z.of_nat (length r) + bval r
  end.

Definition bitsz (n v : Z) : list bool := bitsn (Z.to_nat n) v.

Lemma pow2_pos n : 0 <= n -> 0 < 2 ^ n.
Proof. intros. apply Z.pow_pos_nonneg; lia. Qed.

Lemma pow2_ge1 n : 0 <= n -> 1 <= 2 ^ n.
Proof. intros. pose proof (pow2_pos n). lia. Qed.

Lemma pow2_S n : 0 <= n -> 2 ^ (n + 1) = 2 * 2 ^ n.
Proof. intros. replace (n+1) with (Z.succ n) by lia. apply Z.pow_succ_r; lia. Qed.

Lemma pow2_nat_S k : 2 ^ Z.of_nat (S k) = 2 * 2 ^ Z.of_nat k.
Proof. replace (Z.of_nat (S k)) with (Z.succ (Z.of_nat k)) by lia.
  apply Z.pow_succ_r; lia. Qed.

Lemma pow2_add a b : 0 <= a -> 0 <= b -> 2 ^ (a + b) = 2 ^ a * 2 ^ b.
Proof. intros. apply Z.pow_add_r; lia. Qed.

Lemma pow2_le a b : a <= b -> 2 ^ a <= 2 ^ b.
Proof. intros. apply Z.pow_le_mono_r; lia. Qed.

Lemma pow2_lt a b : 0 <= b -> a < b -> 2 ^ a < 2 ^ b.
Proof. intros. apply Z.pow_lt_mono_r; lia. Qed.

Lemma trunc_range w x : 0 <= w -> 0 <= trunc w x < 2 ^ w.
Proof. intros. apply Z.mod_pos_bound. apply pow2_pos; lia. Qed.

Lemma trunc_id w x : 0 <= x < 2 ^ w -> trunc w x = x.
Proof. intros. apply Z.mod_small; lia. Qed.

Lemma slice_range lo hi x : lo <= hi -> 0 <= slice lo hi x < 2 ^ (hi - lo).
Proof. intros. apply Z.mod_pos_bound. apply pow2_pos; lia. Qed.

Lemma bitsn_length n v : length (bitsn n v) = n.
Proof. induction n; simpl; congruence. Qed.

Lemma bitsz_length n v : 0 <= n -> Z.of_nat (length (bitsz n v)) = n.
Proof. intros. unfold bitsz. rewrite bitsn_length. lia. Qed.

Lemma bitsn_ext n v w :
  (forall i, 0 <= i < Z.of_nat n -> Z.testbit v i = Z.testbit w i) ->
  bitsn n v = bitsn n w.
Proof.
  induction n as [|n IH]; intros H; simpl; [reflexivity|].
  f_equal; [apply H; lia|]. apply IH. intros; apply H; lia.
Qed.

Lemma bitsn_mod n m v : Z.of_nat n <= m -> bitsn n (v mod 2 ^ m) = bitsn n v.
Proof.
  intros. apply bitsn_ext. intros i Hi. apply Z.mod_pow2_bits_low. lia.
Qed.

Lemma bitsz_trunc n m v : 0 <= n <= m -> bitsz n (trunc m v) = bitsz n v.
Proof. intros. unfold bitsz, trunc. apply bitsn_mod. lia. Qed.

Lemma bitsn_app a b v : bitsn (a + b) v = bitsn a (v / 2 ^ Z.of_nat b) ++ bitsn b v.
Proof.
  induction a as [|a IH]; simpl; [reflexivity|].
  rewrite IH. f_equal. rewrite Z.div_pow2_bits by lia. f_equal. lia.
Qed.

Lemma bitsz_app a b v : 0 <= a -> 0 <= b ->
  bitsz (a + b) v = bitsz a (v / 2 ^ b) ++ bitsz b v.
Proof.
  intros. unfold bitsz. rewrite Z2Nat.inj_add by lia.
  rewrite bitsn_app. rewrite Z2Nat.id by lia. reflexivity.
Qed.

Lemma bval_bound l : 0 <= bval l < 2 ^ Z.of_nat (length l).
Proof.
  induction l as [|b l IH]; [simpl; lia|].
  cbn [bval length]. rewrite pow2_nat_S. destruct b; unfold b2z; lia.
Qed.

Lemma bval_bitsn n v : bval (bitsn n v) = v mod 2 ^ Z.of_nat n.
Proof.
  induction n as [|n IH].
  - simpl. rewrite Z.mod_1_r. reflexivity.
  - cbn [bitsn bval]. rewrite IH, bitsn_length.
    set (k := Z.of_nat n).
    rewrite pow2_nat_S. fold k.
    pose proof (pow2_pos k ltac:(lia)) as Hp.
    rewrite (Z.mul_comm 2 (2^k)).
    rewrite Z.rem_mul_r by lia.
    assert (b2z (Z.testbit v k) = (v / 2 ^ k) mod 2) as ->.
    { rewrite <- Z.testbit_spec' by lia. destruct (Z.testbit v k); reflexivity. }
    lia.
Qed.

Lemma bval_bitsz n v : 0 <= n -> bval (bitsz n v) = v mod 2 ^ n.
Proof. intros. unfold bitsz. rewrite bval_bitsn, Z2Nat.id by lia. reflexivity. Qed.

Lemma bval_app a b : bval (a ++ b) = bval a * 2 ^ Z.of_nat (length b) + bval b.
Proof.
  induction a as [|x a IH]; [simpl; lia|].
  cbn [app bval]. rewrite IH, app_length, Nat2Z.inj_add, pow2_add by lia. lia.
Qed.

Lemma bval_inj a b : length a = length b -> bval a = bval b -> a = b.
Proof.
  revert b. induction a as [|x a IH]; intros [|y b]; cbn [length bval]; try (intros; congruence); intros Hl Hv.
  assert (Hl' : length a = length b) by congruence. rewrite Hl' in Hv.
  pose proof (bval_bound a) as Ha. pose proof (bval_bound b) as Hb. rewrite Hl' in Ha.
  set (P := 2 ^ Z.of_nat (length b)) in *.
  destruct x, y; unfold b2z in *; try lia; f_equal; apply IH; auto; lia.
Qed.

Lemma bitsn_bval l : bitsn (length l) (bval l) = l.
Proof.
  apply bval_inj; [apply bitsn_length|].
  rewrite bval_bitsn. apply Z.mod_small. apply bval_bound.
Qed.

Lemma bitsn_inj n v w : 0 <= v < 2 ^ Z.of_nat n -> 0 <= w < 2 ^ Z.of_nat n ->
  bitsn n v = bitsn n w -> v = w.
Proof.
  intros Hv Hw H. apply (f_equal bval) in H. rewrite !bval_bitsn in H.
  rewrite !Z.mod_small in H by lia. exact H.
Qed.

Lemma bitsz_inj n v w : 0 <= v < 2 ^ n -> 0 <= w < 2 ^ n -> bitsz n v = bitsz n w -> v = w.
Proof.
  intros Hv Hw H. assert (0 <= n) by (destruct (Z_lt_le_dec n 0); [rewrite Z.pow_neg_r in Hv; lia | lia]).
  unfold bitsz in H. eapply bitsn_inj; try exact H; rewrite Z2Nat.id by lia; assumption.
Qed.

Lemma lor_add a n b : 0 <= n -> 0 <= b < 2 ^ n -> Z.lor (a * 2 ^ n) b = a * 2 ^ n + b.
Proof.
  intros Hn Hb. symmetry.
  rewrite <- Z.lxor_lor.
  - apply Z.add_nocarry_lxor. apply Z.bits_inj'. intros i Hi. rewrite Z.land_spec, Z.bits_0.
    destruct (Z_lt_le_dec i n).
    + rewrite Z.mul_pow2_bits_low by lia. reflexivity.
    + replace (Z.testbit b i) with false; [apply andb_false_r|].
      symmetry. destruct (Z.eq_dec b 0) as [->|]; [apply Z.bits_0|].
      apply Z.bits_above_log2; [lia|]. apply Z.log2_lt_pow2; [lia|].
      apply Z.lt_le_trans with (2^n); [lia|]. apply pow2_le; lia.
  - apply Z.bits_inj'. intros i Hi. rewrite Z.land_spec, Z.bits_0.
    destruct (Z_lt_le_dec i n).
    + rewrite Z.mul_pow2_bits_low by lia. reflexivity.
    + replace (Z.testbit b i) with false; [apply andb_false_r|].
      symmetry. destruct (Z.eq_dec b 0) as [->|]; [apply Z.bits_0|].
      apply Z.bits_above_log2; [lia|]. apply Z.log2_lt_pow2; [lia|].
      apply Z.lt_le_trans with (2^n); [lia|]. apply pow2_le; lia.
Qed.

Lemma lor_shl_add a n b : 0 <= n -> 0 <= b < 2 ^ n -> Z.lor (Z.shiftl a n) b = a * 2 ^ n + b.
Proof. intros. rewrite Z.shiftl_mul_pow2 by lia. apply lor_add; lia. Qed.

Lemma bitsz_cat a b x y : 0 <= a -> 0 <= b -> 0 <= y < 2 ^ b ->
  bitsz (a + b) (x * 2 ^ b + y) = bitsz a x ++ bitsz b y.
Proof.
  intros Ha Hb Hy. rewrite bitsz_app by lia. pose proof (pow2_pos b Hb).
  f_equal.
  - f_equal. rewrite Z.div_add_l by lia. rewrite Z.div_small by lia. lia.
  - unfold bitsz. rewrite <- (bitsn_mod _ b (x * 2^b + y)) by lia.
    rewrite Z.add_comm, Z.mod_add by lia. rewrite bitsn_mod by lia. reflexivity.
Qed.

Lemma bitsz_0 v : bitsz 0 v = [].
Proof. reflexivity. Qed.

Lemma cat_bound a b x y : 0 <= a -> 0 <= b -> 0 <= x < 2 ^ a -> 0 <= y < 2 ^ b ->
  0 <= x * 2 ^ b + y < 2 ^ (a + b).
Proof. intros. rewrite pow2_add by lia. nia. Qed.

Lemma slice_slice_bits lo hi n x : 0 <= lo -> lo <= hi -> n = hi - lo ->
  bitsz n (slice lo hi x) = bitsz n (x / 2 ^ lo).
Proof. intros ? ? ->. unfold slice. unfold bitsz. apply bitsn_mod. lia. Qed.

Lemma clog2_spec m : 1 <= m -> 0 <= clog2 m /\ m <= 2 ^ clog2 m.
Proof.
  intros. unfold clog2. split; [apply Z.log2_up_nonneg|].
  destruct (Z.eq_dec m 1) as [->|]; [simpl; lia|].
  apply Z.log2_up_spec. lia.
Qed.

Lemma clog2_fits m x : 0 <= x < m -> 0 <= x < 2 ^ clog2 m.
Proof. intros. pose proof (clog2_spec m ltac:(lia)). lia. Qed.

Lemma trunc_clog2 m x : 0 <= x < m -> trunc (clog2 m) x = x.
Proof. intros. apply trunc_id. apply clog2_fits. lia. Qed.

(* generic list facts *)
Lemma firstn_app_exact {A} (a b : list A) : firstn (length a) (a ++ b) = a.
Proof. rewrite firstn_app, Nat.sub_diag, firstn_O, app_nil_r. apply firstn_all. Qed.

Lemma skipn_app_exact {A} (a b : list A) : skipn (length a) (a ++ b) = b.
Proof. rewrite skipn_app, Nat.sub_diag, skipn_all. reflexivity. Qed.

Lemma app_eq_len {A} (a b c d : list A) : length a = length c -> a ++ b = c ++ d -> a = c /\ b = d.
Proof.
  revert c. induction a as [|x a IH]; intros [|y c] Hl H; cbn in *; try discriminate; [auto|].
  inversion H; subst. destruct (IH c) as [-> ->]; auto.
Qed.
