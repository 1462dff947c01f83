(* createEncodeTable, second part: from the code lengths to BITS (no length above 16, the all-ones code removed), HUFFVAL, the codes and the
   class-to-code index *)
From Coq Require Import Permutation.
From Verif Require Import Bits Spec Spec_Lj92 M_Lj92 M_Enc92 P_Lj92 P_Float P_Huff.
Ltac Zify.zify_post_hook ::= idtac.

Fixpoint crange (n : nat) (i : Z) : list Z := match n with O => [] | S k => i :: crange k (i + 1) end.
Lemma crange_in n : forall i c, In c (crange n i) <-> i <= c < i + Z.of_nat n.
Proof. induction n as [|n IH]; intros i c; cbn [crange In]; [lia|]. rewrite IH. lia. Qed.
Lemma crange_nodup n : forall i, NoDup (crange n i).
Proof. induction n as [|n IH]; intros i; cbn [crange]; constructor; [|apply IH]. rewrite crange_in. lia. Qed.
Lemma crange_app a b : forall i, crange (a + b) i = crange a i ++ crange b (i + Z.of_nat a).
Proof.
  induction a as [|a IH]; intros i; cbn [Nat.add crange app]; [f_equal; lia|]. rewrite IH. do 3 f_equal. lia.
Qed.
Lemma crange_seq n : forall k, crange n (Z.of_nat k) = map Z.of_nat (seq k n).
Proof. induction n as [|n IH]; intros k; [reflexivity|]. cbn [crange seq map]. f_equal. replace (Z.of_nat k + 1) with (Z.of_nat (S k)) by lia. apply IH. Qed.

Definition r17 : list Z := crange 17 1.
Definition Kr (b : lmem) : Z := zsum (fun i => b i * 2 ^ (17 - i)) r17.
Definition Nr (b : lmem) : Z := zsum b r17.
Lemma r17_in i : In i r17 <-> 1 <= i <= 17. Proof. unfold r17. rewrite crange_in. lia. Qed.
Lemma Kr_upd b i v : 1 <= i <= 17 -> Kr (upd b i v) = Kr b + (v - b i) * 2 ^ (17 - i).
Proof.
  intros H. unfold Kr. rewrite (zsum_ext _ (upd (fun i => b i * 2 ^ (17 - i)) i (v * 2 ^ (17 - i)))).
  - rewrite zsum_upd; [lia|apply crange_nodup|apply r17_in; exact H].
  - intros x _. unfold upd. destruct (Z.eqb_spec x i); [subst; reflexivity|reflexivity].
Qed.
Lemma Nr_upd b i v : 1 <= i <= 17 -> Nr (upd b i v) = Nr b + (v - b i).
Proof. intros H. unfold Nr. rewrite zsum_upd; [lia|apply crange_nodup|apply r17_in; exact H]. Qed.

Lemma count_ok cs n : forall i b, (forall j, i <= j < i + Z.of_nat n -> 0 <= cs j <= 17) -> (forall k, 0 <= b k) ->
  let b' := count_bits n i cs b in
  Kr b' = Kr b + zsum (fun j => if cs j =? 0 then 0 else 2 ^ (17 - cs j)) (crange n i) /\
  Nr b' = Nr b + zsum (fun j => if cs j =? 0 then 0 else 1) (crange n i) /\
  (forall k, 0 <= b' k) /\ (forall k, k < 1 \/ 17 < k -> b' k = b k).
Proof.
  induction n as [|n IH]; intros i b Hc Hb; cbn [count_bits crange].
  - cbn [zsum fold_right]. split; [lia|]. split; [lia|]. split; [exact Hb|reflexivity].
  - rewrite !zsum_cons. pose proof (Hc i ltac:(lia)) as Hi. destruct (Z.eqb_spec (cs i) 0) as [E|E].
    + destruct (IH (i + 1) b ltac:(intros; apply Hc; lia) Hb) as (A & B & C & D). cbv zeta. rewrite A, B. split; [lia|]. split; [lia|]. split; assumption.
    + assert (Hb' : forall k, 0 <= upd b (cs i) (b (cs i) + 1) k) by (intros k; unfold upd; pose proof (Hb k); pose proof (Hb (cs i)); destruct (_ =? _); lia).
      destruct (IH (i + 1) (upd b (cs i) (b (cs i) + 1)) ltac:(intros; apply Hc; lia) Hb') as (A & B & C & D). cbv zeta. rewrite A, B, Kr_upd, Nr_upd by lia. split; [lia|]. split; [lia|]. split; [exact C|].
      intros k Hk. rewrite D by exact Hk. unfold upd. destruct (Z.eqb_spec k (cs i)); [lia|reflexivity].
Qed.

(* ------------------------------------------------------------------ limiting the lengths to 16 *)
Definition ainv (b : lmem) : Prop := (forall k, 0 <= b k) /\ (forall k, k < 1 \/ 17 < k -> b k = 0) /\ Kr b = 2 ^ 17 /\ 2 <= Nr b <= 18.
Lemma find_j_ok b : forall fuel J, (exists j, J - Z.of_nat fuel <= j < J /\ 0 < b j) -> let r := find_j fuel b J in r < J /\ 0 < b r.
Proof.
  induction fuel as [|f IH]; intros J (j & Hj & Hb); [lia|]. cbn [find_j]. destruct (b (J - 1) <=? 0) eqn:E; [|cbv zeta; lia].
  assert (Nj : j <> J - 1) by (intros ->; lia). destruct (IH (J - 1) ltac:(exists j; split; [lia|exact Hb])) as [A B]. cbv zeta. split; [lia|exact B].
Qed.
Lemma down_ok b : (forall k, 0 <= b k) -> forall fuel I, (exists j, I - Z.of_nat fuel < j <= I /\ 0 < b j) ->
  let r := down_to fuel b I in r <= I /\ 0 < b r /\ forall k, r < k <= I -> b k = 0.
Proof.
  intros Hp. induction fuel as [|f IH]; intros I (j & Hj & Hb); [lia|]. cbn [down_to]. destruct (Z.eqb_spec (b I) 0) as [E|E].
  - assert (Nj : j <> I) by (intros ->; lia). destruct (IH (I - 1) ltac:(exists j; split; [lia|exact Hb])) as (A & B & C). cbv zeta. split; [lia|]. split; [exact B|].
    intros k Hk. destruct (Z.eq_dec k I) as [->|]; [exact E|]. apply C. lia.
  - cbv zeta. pose proof (Hp I). split; [lia|]. split; [lia|]. intros; lia.
Qed.
Lemma Kr_split b : exists t, Kr b = b 17 + 2 * (b 16 + 2 * t) /\ t = zsum (fun i => b i * 2 ^ (15 - i)) (crange 15 1).
Proof.
  exists (zsum (fun i => b i * 2 ^ (15 - i)) (crange 15 1)). split; [|reflexivity]. unfold Kr, r17. rewrite (crange_app 15 2). rewrite zsum_app. change (crange 2 (1 + Z.of_nat 15)) with [16; 17]. rewrite (zsum_cons _ 16), (zsum_cons _ 17). change (zsum _ []) with 0. change (17 - 16) with 1. change (17 - 17) with 0.
  rewrite (zsum_ext (fun i => b i * 2 ^ (17 - i)) (fun i => 4 * (b i * 2 ^ (15 - i)))).
  - rewrite zsum_scale. change (2 ^ 1) with 2. change (2 ^ 0) with 1. lia.
  - intros i Hi. apply crange_in in Hi. replace (17 - i) with (2 + (15 - i)) by lia. rewrite Z.pow_add_r by lia. change (2 ^ 2) with 4. lia.
Qed.
Lemma exists_pos (b : lmem) l : (forall k, 0 <= b k) -> (exists j, In j l /\ 0 < b j) \/ (forall j, In j l -> b j = 0).
Proof.
  intros Hp. destruct (existsb (fun j => 0 <? b j) l) eqn:E.
  - left. apply existsb_exists in E. destruct E as (j & H1 & H2). exists j. split; [exact H1|lia].
  - right. intros j Hj. destruct (0 <? b j) eqn:E2; [|pose proof (Hp j); lia]. assert (K : existsb (fun j => 0 <? b j) l = true) by (apply existsb_exists; exists j; split; assumption). congruence.
Qed.
Lemma ainv_even b : ainv b -> exists h, b 17 = 2 * h.
Proof. intros (_ & _ & K & _). destruct (Kr_split b) as (t & E & _). change (2 ^ 17) with (2 * 65536) in K. exists (65536 - (b 16 + 2 * t)). lia. Qed.
Lemma Nr_le (b : lmem) i : (forall k, 0 <= b k) -> 1 <= i <= 17 -> b i <= Nr b.
Proof. intros H Hi. apply zsum_in_le; [intros; apply H|apply r17_in; exact Hi]. Qed.
Lemma ainv_j b : ainv b -> exists j, 1 <= j <= 15 /\ 0 < b j.
Proof.
  intros (P & Z0 & K & N). destruct (exists_pos b (crange 15 1) P) as [(j & Hj & Hb)|H]; [exists j; apply crange_in in Hj; split; [lia|exact Hb]|]. exfalso.
  destruct (Kr_split b) as (t & E & Et). assert (T0 : t = 0). { rewrite Et. rewrite (zsum_ext _ (fun _ => 0)); [reflexivity|]. intros x Hx. rewrite H by exact Hx. lia. }
  pose proof (Nr_le b 16 P ltac:(lia)). pose proof (Nr_le b 17 P ltac:(lia)). change (2 ^ 17) with 131072 in K. lia.
Qed.
Lemma adjust_ok n : forall fuel b, ainv b -> b 17 <= 2 * Z.of_nat n -> (n < fuel)%nat ->
  exists b' I, adjust fuel b 17 = upd b' I (b' I - 1) /\ ainv b' /\ Nr b' = Nr b /\ 1 <= I <= 16 /\ 0 < b' I /\ (forall k, I < k -> b' k = 0).
Proof.
  induction n as [|n IH]; intros fuel b HA Hn Hf; (destruct fuel as [|f]; [lia|]); cbn [adjust]; pose proof HA as (P & Z0 & K & N); destruct (ainv_even b HA) as (h & Eh); pose proof (ainv_j b HA) as (j & Hj & Hbj).
  - assert (E0 : b 17 = 0) by (pose proof (P 17); lia). rewrite E0. change (0 <? 0) with false. cbn iota. change (negb (17 - 1 =? 16)) with false. cbn iota. change (17 - 1) with 16.
    destruct (down_ok b P 18 16 ltac:(exists j; split; [lia|exact Hbj])) as (D1 & D2 & D3). set (I := down_to 18 b 16) in *. clearbody I. cbv zeta in D1, D2, D3. exists b, I. split; [reflexivity|]. split; [exact HA|]. split; [reflexivity|].
    assert (HI : 1 <= I) by (destruct (Z_lt_ge_dec I 1) as [L|G]; [rewrite Z0 in D2 by lia; lia|lia]). split; [lia|]. split; [exact D2|]. intros k Hk. destruct (Z.eq_dec k 17) as [->|]; [exact E0|]. destruct (Z_le_gt_dec k 16); [apply D3; lia|apply Z0; lia].
  - destruct (0 <? b 17) eqn:E17.
    + change (17 - 1) with 16. destruct (find_j_ok b 18 16 ltac:(exists j; split; [lia|exact Hbj])) as (J1 & J2). set (J := find_j 18 b 16) in *. clearbody J. cbv zeta in J1, J2.
      assert (HJ : 1 <= J <= 15) by (destruct (Z_lt_ge_dec J 1) as [L|G]; [rewrite Z0 in J2 by lia; lia|lia]).
      set (b1 := upd b 17 (b 17 - 2)). set (b2 := upd b1 16 (b1 16 + 1)). set (b3 := upd b2 (J + 1) (b2 (J + 1) + 2)). set (b4 := upd b3 J (b3 J - 1)).
      assert (K4 : Kr b4 = Kr b). { unfold b4, b3, b2, b1. rewrite !Kr_upd by lia. change (17 - 17) with 0. change (17 - 16) with 1. replace (17 - J) with (1 + (17 - (J + 1))) by lia. rewrite Z.pow_add_r by lia. change (2 ^ 0) with 1. change (2 ^ 1) with 2. ring. }
      assert (N4 : Nr b4 = Nr b) by (unfold b4, b3, b2, b1; rewrite !Nr_upd by lia; lia).
      assert (B4 : forall k, b4 k = b k + (if k =? J + 1 then 2 else 0) + (if k =? 16 then 1 else 0) - (if k =? 17 then 2 else 0) - (if k =? J then 1 else 0)).
      { intros k. unfold b4, b3, b2, b1, upd. clear - HJ. destruct (Z.eq_dec J 15) as [->|NJ]; [change (15 + 1) with 16|];
        repeat match goal with |- context [?a =? ?c] => destruct (Z.eqb_spec a c) end; subst; lia. }
      assert (A4 : ainv b4).
      { split; [|split; [|split; [rewrite K4; exact K|rewrite N4; exact N]]].
        - intros k. rewrite B4. pose proof (P k). repeat match goal with |- context [?a =? ?c] => destruct (Z.eqb_spec a c) end; subst; lia.
        - intros k Hk. rewrite B4. rewrite Z0 by exact Hk. repeat match goal with |- context [?a =? ?c] => destruct (Z.eqb_spec a c) end; subst; lia. }
      assert (B17 : b4 17 = b 17 - 2). { rewrite B4. replace (17 =? J + 1) with false by lia. replace (17 =? J) with false by lia. cbn [Z.eqb Pos.eqb]. lia. }
      destruct (IH f b4 A4 ltac:(lia) ltac:(lia)) as (b' & I & Q1 & Q2 & Q3 & Q4). exists b', I. split; [exact Q1|]. split; [exact Q2|]. split; [lia|exact Q4].
    + assert (E0 : b 17 = 0) by (pose proof (P 17); lia). change (negb (17 - 1 =? 16)) with false. cbn iota. change (17 - 1) with 16.
      destruct (down_ok b P 18 16 ltac:(exists j; split; [lia|exact Hbj])) as (D1 & D2 & D3). set (I := down_to 18 b 16) in *. clearbody I. cbv zeta in D1, D2, D3. exists b, I. split; [reflexivity|]. split; [exact HA|]. split; [reflexivity|].
      assert (HI : 1 <= I) by (destruct (Z_lt_ge_dec I 1) as [L|G]; [rewrite Z0 in D2 by lia; lia|lia]). split; [lia|]. split; [exact D2|]. intros k Hk. destruct (Z.eq_dec k 17) as [->|]; [exact E0|]. destruct (Z_le_gt_dec k 16); [apply D3; lia|apply Z0; lia].
Qed.

(* BITS after the adjustment *)
Definition bits_fin (b : lmem) (n : Z) : Prop :=
  (forall k, 0 <= b k) /\ (forall k, k < 1 \/ 16 < k -> b k = 0) /\ zsum (fun i => b i * 2 ^ (16 - i)) (crange 16 1) < 2 ^ 16 /\ zsum b (crange 16 1) = n.
Lemma bits_adjusted b : ainv b -> bits_fin (adjust 40 b 17) (Nr b - 1).
Proof.
  intros HA. pose proof HA as (P & _ & _ & N). pose proof (Nr_le b 17 P ltac:(lia)) as L17. destruct (adjust_ok 9 40 b HA ltac:(lia) ltac:(lia)) as (b' & I & -> & (P' & Z' & K' & _) & EN & HI & HbI & HZ).
  set (b2 := upd b' I (b' I - 1)).
  assert (K2 : Kr b2 = 2 ^ 17 - 2 ^ (17 - I)) by (unfold b2; rewrite Kr_upd by lia; lia). assert (N2 : Nr b2 = Nr b - 1) by (unfold b2; rewrite Nr_upd by lia; lia).
  assert (Z2 : forall k, k < 1 \/ 16 < k -> b2 k = 0). { intros k Hk. unfold b2, upd. destruct (Z.eqb_spec k I); [lia|]. destruct Hk as [Hk|Hk]; [apply Z'; lia|apply HZ; lia]. }
  split; [|split; [exact Z2|]].
  - intros k. unfold b2, upd. pose proof (P' k). destruct (Z.eqb_spec k I); [lia|exact H].
  - set (nb := Nr b) in *. clearbody nb. unfold Kr, Nr, r17 in K2, N2. rewrite (crange_app 16 1) in K2, N2. rewrite zsum_app in K2, N2. change (crange 1 (1 + Z.of_nat 16)) with [17] in *. rewrite zsum_cons in K2, N2. change (zsum _ []) with 0 in K2, N2. rewrite (Z2 17) in K2, N2 by lia.
    split; [|lia]. rewrite (zsum_ext _ (fun i => 2 * (b2 i * 2 ^ (16 - i)))) in K2.
    + rewrite zsum_scale in K2. pose proof (pow2_pos (17 - I) ltac:(lia)). change (2 ^ 17) with (2 * 2 ^ 16) in K2. lia.
    + intros i Hi. apply crange_in in Hi. replace (17 - i) with (1 + (16 - i)) by lia. rewrite Z.pow_add_r by lia. change (2 ^ 1) with 2. lia.
Qed.
