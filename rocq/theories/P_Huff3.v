(* createEncodeTable, third part: HUFFVAL, the code words and the class-to-code index *)
From Coq Require Import Permutation.
From Verif Require Import Bits Spec Spec_Lj92 M_Lj92 M_Enc92 P_Lj92 P_Float P_Huff P_Huff2.
Ltac Zify.zify_post_hook ::= idtac.

Lemma huff_vals_in cs c : In c (huff_vals cs) <-> 0 <= c <= 16 /\ 1 <= cs c <= 32.
Proof.
  unfold huff_vals. rewrite in_flat_map. split.
  - intros (i & Hi & Hc). apply filter_In in Hc. destruct Hc as [Hc E]. apply in_map_iff in Hi. destruct Hi as (k & <- & Hk). apply in_seq in Hk. apply in_map_iff in Hc. destruct Hc as (j & <- & Hj). apply in_seq in Hj. lia.
  - intros (H1 & H2). exists (cs c). split; [apply in_map_iff; exists (Z.to_nat (cs c)); split; [lia|apply in_seq; lia]|]. apply filter_In. split; [|apply Z.eqb_refl]. apply in_map_iff. exists (Z.to_nat c). split; [lia|apply in_seq; lia].
Qed.
Lemma nodup_app (a b : list Z) : NoDup a -> NoDup b -> (forall c, In c a -> In c b -> False) -> NoDup (a ++ b).
Proof.
  induction a as [|x a IH]; intros Na Nb D; [exact Nb|]. apply NoDup_cons_iff in Na. destruct Na as [N1 N2]. cbn [app]. constructor.
  - intros H. apply in_app_or in H. destruct H as [H|H]; [contradiction|]. apply (D x); [left; reflexivity|exact H].
  - apply IH; [exact N2|exact Nb|]. intros c Hc. apply D. right. exact Hc.
Qed.
Lemma huff_vals_nodup cs : NoDup (huff_vals cs).
Proof.
  unfold huff_vals. assert (NJ : NoDup (map Z.of_nat (seq 0 17))) by (apply FinFun.Injective_map_NoDup; [intros a b H; lia|apply seq_NoDup]).
  assert (NI : NoDup (map Z.of_nat (seq 1 32))) by (apply FinFun.Injective_map_NoDup; [intros a b H; lia|apply seq_NoDup]).
  revert NI. generalize (map Z.of_nat (seq 1 32)) as L. induction L as [|i L IH]; intros NI; [constructor|]. apply NoDup_cons_iff in NI. destruct NI as [N1 N2]. cbn [flat_map]. apply nodup_app; [apply NoDup_filter; exact NJ|apply IH; exact N2|].
  intros c Ha Hb. apply filter_In in Ha. destruct Ha as [_ Ha]. apply in_flat_map in Hb. destruct Hb as (i' & Hi' & Hb). apply filter_In in Hb. destruct Hb as [_ Hb]. assert (i = i') by lia. subst i'. contradiction.
Qed.

(* ------------------------------------------------------------------ the code words *)
Definition rows_of (b : lmem) (n : nat) (i : Z) : list nat := map (fun k => Z.to_nat (b k)) (crange n i).
Lemma code_row b M bu fuel r : forall acc c vl, b bu = vl + Z.of_nat r -> 0 <= c -> 1 <= bu <= M -> M <= 16 ->
  (c + Z.of_nat r) * 2 ^ (M - bu) < 2 ^ M ->
  code_loop (2 * r + S fuel) b M acc (c * 2 ^ (M - bu)) 0 vl bu = code_loop fuel b M (rev (annexC_row r bu c) ++ acc) ((c + Z.of_nat r) * 2 ^ (M - bu)) 0 0 (bu + 1).
Proof.
  pose proof (fun H => pow2_pos (M - bu) H) as PP. induction r as [|r IH]; intros acc c vl Hb Hc Hbu HM HK.
  - cbn [Nat.mul Nat.add code_loop annexC_row rev app]. assert (E1 : (c * 2 ^ (M - bu) <? 2 ^ M) = true) by lia. rewrite E1. replace (M <? bu) with false by lia. replace (b bu <=? vl) with true by lia.
    replace (c + Z.of_nat 0) with c by lia. reflexivity.
  - specialize (PP ltac:(lia)). replace (2 * S r + S fuel)%nat with (S (S (2 * r + S fuel)))%nat by lia. cbn [code_loop]. set (w := 2 ^ (M - bu)) in *.
    assert (E1 : (c * w <? 2 ^ M) = true) by nia. rewrite E1. replace (M <? bu) with false by lia. replace (b bu <=? vl) with false by lia. replace (0 =? w) with false by lia.
    replace (c * w + w) with ((c + 1) * w) by lia. assert (E2 : ((c + 1) * w <? 2 ^ M) = true) by nia. rewrite E2. rewrite Z.eqb_refl.
    unfold w. rewrite IH; [|lia|lia|lia|lia|fold w; replace (c + 1 + Z.of_nat r) with (c + Z.of_nat (S r)) by lia; exact HK].
    cbn [annexC_row rev]. rewrite <- app_assoc. cbn [app]. replace (c + 1 + Z.of_nat r) with (c + Z.of_nat (S r)) by lia. do 2 f_equal. f_equal. f_equal.
    + unfold trunc. apply Z.mod_small. change (2 ^ 16) with 65536. lia.
    + rewrite Z.shiftr_div_pow2 by lia. fold w. rewrite Z.div_mul by lia. unfold trunc. apply Z.mod_small. split; [exact Hc|].
      assert (c < 2 ^ bu). { assert (Eq : 2 ^ M = 2 ^ bu * w) by (unfold w; rewrite <- Z.pow_add_r by lia; f_equal; lia). nia. }
      pose proof (pow2_le bu 16 ltac:(lia)). lia.
Qed.
Fixpoint steps (rs : list nat) : nat := match rs with [] => O | r :: t => (2 * r + 1 + steps t)%nat end.
Lemma code_rows b M : (forall k, 0 <= b k) -> 1 <= M <= 16 -> forall n bu fuel acc i c, bu = M + 1 - Z.of_nat n -> 1 <= bu -> (n = O \/ i = c * 2 ^ (M - bu)) -> 0 <= c ->
  i + zsum (fun k => b k * 2 ^ (M - k)) (crange n bu) < 2 ^ M -> (steps (rows_of b n bu) < fuel)%nat ->
  code_loop fuel b M acc i 0 0 bu = rev acc ++ annexC (rows_of b n bu) bu c.
Proof.
  intros Hp HM. induction n as [|n IH]; intros bu fuel acc i c Ebu Hbu Hi Hc HK HF.
  - destruct fuel as [|f]; [cbn in HF; lia|]. cbn [rows_of crange map annexC code_loop zsum fold_right] in *. rewrite Z.add_0_r in HK. replace (i <? 2 ^ M) with true by lia. replace (M <? bu) with true by lia. rewrite app_nil_r. reflexivity.
  - destruct Hi as [Hi|Hi]; [discriminate|]. unfold rows_of in *. cbn [crange map annexC steps] in *. rewrite zsum_cons in HK. pose proof (Hp bu) as Pb. set (r := Z.to_nat (b bu)) in *. assert (Er : b bu = 0 + Z.of_nat r) by (unfold r; lia).
    assert (P2 : 0 < 2 ^ (M - bu)) by (apply pow2_pos; lia).
    assert (PS : 0 <= zsum (fun k => b k * 2 ^ (M - k)) (crange n (bu + 1))). { apply zsum_nonneg. intros x _. pose proof (Hp x). pose proof (Z.pow_nonneg 2 (M - x) ltac:(lia)). nia. }
    assert (HK2 : (c + Z.of_nat r) * 2 ^ (M - bu) < 2 ^ M) by (rewrite Er in HK; nia).
    remember (map (fun k => Z.to_nat (b k)) (crange n (bu + 1))) as rs eqn:Ers.
    replace fuel with (2 * r + S (fuel - (2 * r + 1)))%nat by lia. subst i. rewrite code_row by (try assumption; lia).
    rewrite (IH (bu + 1) (fuel - (2 * r + 1))%nat _ _ (2 * (c + Z.of_nat r))); [|lia|lia| |lia| |rewrite <- Ers; lia].
    + rewrite <- Ers, rev_app_distr, rev_involutive, <- app_assoc. reflexivity.
    + destruct n as [|n]; [left; reflexivity|right]. replace (M - bu) with (1 + (M - (bu + 1))) by lia. rewrite Z.pow_add_r by lia. change (2 ^ 1) with 2. lia.
    + rewrite Er in HK. nia.
Qed.
Lemma max_bits_ok b : (forall k, 0 <= b k) -> forall n, let M := max_bits n b in 0 <= M <= Z.of_nat n /\ (forall k, M < k <= Z.of_nat n -> b k = 0) /\ (0 < M -> 0 < b M).
Proof.
  intros Hp. induction n as [|n IH]; cbn [max_bits]; [cbv zeta; split; [lia|split; intros; lia]|]. cbv zeta in *. pose proof (Hp (Z.of_nat (S n))). destruct (Z.eqb_spec (b (Z.of_nat (S n))) 0) as [E|E]; cbn [negb].
  - destruct IH as (A & B & C). split; [lia|]. split; [|exact C]. intros k Hk. destruct (Z.eq_dec k (Z.of_nat (S n))) as [->|]; [exact E|apply B; lia].
  - split; [lia|]. split; [intros; lia|intros; lia].
Qed.
Lemma steps_sum rs : steps rs = (2 * list_sum rs + length rs)%nat.
Proof. induction rs as [|r t IH]; [reflexivity|]. cbn [steps length]. rewrite IH. change (list_sum (r :: t)) with (r + list_sum t)%nat. lia. Qed.
Lemma sum_rows b n : (forall k, 0 <= b k) -> forall i, Z.of_nat (list_sum (rows_of b n i)) = zsum b (crange n i).
Proof. intros Hp. induction n as [|n IH]; intros i; [reflexivity|]. unfold rows_of. cbn [crange map]. rewrite zsum_cons, <- IH. unfold rows_of. pose proof (Hp i). change (list_sum (?a :: ?t)) with (a + list_sum t)%nat. lia. Qed.
Lemma rows_app b a n i : rows_of b (a + n) i = rows_of b a i ++ rows_of b n (i + Z.of_nat a).
Proof. unfold rows_of. rewrite crange_app, map_app. reflexivity. Qed.
Lemma rows_len b n : forall i, length (rows_of b n i) = n.
Proof. unfold rows_of. intros i. rewrite map_length. revert i. induction n as [|n IH]; intros i; [reflexivity|]. cbn [crange length]. rewrite IH. reflexivity. Qed.

Lemma codes_ok b n : bits_fin b n -> 1 <= n <= 18 ->
  code_loop 100 b (max_bits 16 b) [] 0 0 0 1 = annexC (rows_of b 16 1) 1 0 /\ 1 <= max_bits 16 b <= 16.
Proof.
  intros (Hp & Hz & HK & HN) Hn. destruct (max_bits_ok b Hp 16) as (A & B & C). set (M := max_bits 16 b) in *. clearbody M. cbv zeta in *. change (Z.of_nat 16) with 16 in *.
  assert (HM : 1 <= M). { destruct (Z.eq_dec M 0) as [->|]; [|lia]. exfalso. rewrite (zsum_ext _ (fun _ => 0)) in HN; [|intros x Hx; apply crange_in in Hx; apply B; lia]. change (zsum _ (crange 16 1)) with 0 in HN. lia. }
  split; [|lia]. set (m := Z.to_nat M). assert (E16 : 16%nat = (m + (16 - m))%nat) by (unfold m; lia).
  assert (ZR : Forall (fun n => n = 0%nat) (rows_of b (16 - m) (1 + Z.of_nat m))).
  { apply Forall_forall. intros x Hx. unfold rows_of in Hx. apply in_map_iff in Hx. destruct Hx as (k & <- & Hk). apply crange_in in Hk. rewrite B by (unfold m in *; lia). reflexivity. }
  assert (ER : rows_of b 16 1 = rows_of b m 1 ++ rows_of b (16 - m) (1 + Z.of_nat m)) by (rewrite <- rows_app, <- E16; reflexivity).
  assert (EC : crange 16 1 = crange m 1 ++ crange (16 - m) (1 + Z.of_nat m)) by (rewrite <- crange_app, <- E16; reflexivity).
  rewrite ER, annexC_app. rewrite (annexC_zero (rows_of b (16 - m) _)) by exact ZR. rewrite app_nil_r.
  rewrite EC, zsum_app in HK. rewrite (zsum_ext _ (fun _ => 0) (crange (16 - m) (1 + Z.of_nat m))) in HK.
  2:{ intros x Hx. apply crange_in in Hx. rewrite B by (unfold m in *; lia). lia. }
  assert (Z00 : forall l, zsum (fun _ => 0) l = 0) by (clear; induction l; [reflexivity|rewrite zsum_cons; lia]). rewrite Z00 in HK.
  rewrite (zsum_ext _ (fun k => 2 ^ (16 - M) * (b k * 2 ^ (M - k)))) in HK.
  2:{ intros x Hx. apply crange_in in Hx. replace (16 - x) with (16 - M + (M - x)) by (unfold m in *; lia). rewrite Z.pow_add_r by (unfold m in *; lia). lia. }
  rewrite zsum_scale in HK. apply (code_rows b M Hp ltac:(lia) m 1 100 [] 0 0); [unfold m; lia|lia|right; lia|lia| |].
  - replace (2 ^ 16) with (2 ^ (16 - M) * 2 ^ M) in HK by (rewrite <- Z.pow_add_r by lia; f_equal; lia). pose proof (pow2_pos (16 - M) ltac:(lia)). nia.
  - rewrite steps_sum, rows_len. pose proof (sum_rows b m Hp 1) as S1. assert (S2 : zsum b (crange m 1) <= zsum b (crange 16 1)). { rewrite EC, zsum_app. pose proof (zsum_nonneg b (crange (16 - m) (1 + Z.of_nat m)) ltac:(intros; apply Hp)). lia. }
    unfold m in *. lia.
Qed.

Lemma annex_bound b n : (forall k, 0 <= b k) -> forall bu c l code, 0 <= c -> 1 <= bu -> bu + Z.of_nat n = 17 -> In (l, code) (annexC (rows_of b n bu) bu c) ->
  bu <= l <= 16 /\ 0 <= code /\ (code + 1) * 2 ^ (16 - l) <= c * 2 ^ (16 - bu) + zsum (fun k => b k * 2 ^ (16 - k)) (crange n bu).
Proof.
  intros Hp. induction n as [|n IH]; intros bu c l code Hc Hbu Hn HI; [contradiction|]. unfold rows_of in HI. cbn [crange map annexC] in *. rewrite zsum_cons. apply in_app_or in HI. pose proof (Hp bu).
  assert (P2 : 0 < 2 ^ (16 - bu)) by (apply pow2_pos; lia).
  assert (PS : 0 <= zsum (fun k => b k * 2 ^ (16 - k)) (crange n (bu + 1))). { apply zsum_nonneg. intros x _. pose proof (Hp x). pose proof (Z.pow_nonneg 2 (16 - x) ltac:(lia)). nia. }
  destruct HI as [HI|HI].
  - apply In_nth_error in HI. destruct HI as (j & HI). assert (Hj : (j < Z.to_nat (b bu))%nat). { rewrite <- (annexC_row_len (Z.to_nat (b bu)) bu c). apply nth_error_Some. rewrite HI. discriminate. }
    rewrite annexC_row_nth in HI by exact Hj. injection HI as <- <-. split; [lia|]. split; [lia|]. nia.
  - destruct n as [|n]; [contradiction|]. destruct (IH (bu + 1) (2 * (c + Z.of_nat (Z.to_nat (b bu)))) l code ltac:(lia) ltac:(lia) ltac:(lia) HI) as (A & B & C). split; [lia|]. split; [lia|].
    rewrite Z2Nat.id in C by lia. replace (2 ^ (16 - bu)) with (2 * 2 ^ (16 - (bu + 1))) in *; [lia|]. rewrite <- Z.pow_succ_r by lia. f_equal. lia.
Qed.

(* ------------------------------------------------------------------ the index *)
Lemma lookup_nth : forall vals codes s p, NoDup vals -> (p < length vals)%nat -> length codes = length vals -> nth p vals 0 = s -> lookup s vals codes = nth p codes (0, 0).
Proof.
  induction vals as [|v vals IH]; intros codes s p N Hp HL E; [cbn in Hp; lia|]. destruct codes as [|c codes]; [discriminate|]. cbn [lookup]. apply NoDup_cons_iff in N. destruct N as [N1 N2]. destruct p as [|p].
  - cbn [nth] in *. subst v. rewrite Z.eqb_refl. reflexivity.
  - cbn [nth length] in *. destruct (Z.eqb_spec v s) as [->|Ne]; [exfalso; apply N1; rewrite <- E; apply nth_In; lia|]. apply IH; [exact N2|lia|lia|exact E].
Qed.
Lemma huff_syms_ok codes vals s p : NoDup vals -> length codes = length vals -> (forall l c, In (l, c) codes -> 0 < l) -> (p < length vals)%nat -> nth p vals 0 = s ->
  forall n i sym, i + Z.of_nat n = 18 -> 0 <= i -> (length vals <= 18)%nat -> (Z.of_nat p < i -> sym s = Z.of_nat p) -> huff_syms n i codes vals sym s = Z.of_nat p.
Proof.
  intros N HL HP Hp E. induction n as [|n IH]; intros i sym Hi Hi0 H18 HS; cbn [huff_syms]; [apply HS; lia|]. apply IH; [lia|lia|exact H18|]. intros Hpi.
  destruct (lt_dec (Z.to_nat i) (length codes)) as [Hl|Hl].
  - destruct (nth (Z.to_nat i) codes (0, 0)) as [l c] eqn:En. cbn [fst]. assert (Hl0 : 0 < l) by (apply (HP l c); rewrite <- En; apply nth_In; exact Hl). replace (0 <? l) with true by lia. unfold upd.
    destruct (Z.eqb_spec s (nth (Z.to_nat i) vals 0)) as [Es|Es].
    + assert (X : Z.to_nat i = p). { apply (proj1 (NoDup_nth vals 0) N); [lia|exact Hp|congruence]. } lia.
    + apply HS. destruct (Z.eq_dec (Z.of_nat p) i) as [Ep|]; [|lia]. exfalso. apply Es. rewrite <- E. f_equal. lia.
  - rewrite nth_overflow by lia. cbn [fst]. change (0 <? 0) with false. cbn iota. apply HS. lia.
Qed.

Lemma kraft_fold b n : (forall k, 0 <= b k) -> forall i a, i + Z.of_nat n = 17 -> fold_left (fun a n => 2 * a + Z.of_nat n) (rows_of b n i) a = a * 2 ^ Z.of_nat n + zsum (fun k => b k * 2 ^ (16 - k)) (crange n i).
Proof.
  intros Hp. induction n as [|n IH]; intros i a Hi; unfold rows_of; cbn [crange map fold_left]; [cbn; lia|]. fold (rows_of b n (i + 1)). rewrite IH by lia. rewrite zsum_cons. replace (16 - i) with (Z.of_nat n) by lia. rewrite Nat2Z.inj_succ, Z.pow_succ_r by lia. pose proof (Hp i). rewrite Z2Nat.id by lia. lia.
Qed.
