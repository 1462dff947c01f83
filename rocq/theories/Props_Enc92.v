(* C65: the Huffman table liblj92's encoder builds *)
From Coq Require Import Permutation.
From Verif Require Import Bits Spec Spec_Lj92 Spec_P6 M_Lj92 M_Enc92 P_Lj92 P_Float P_Huff P_Huff2 P_Huff3.
Ltac Zify.zify_post_hook ::= idtac.

(* what writeHeader stores: BITS and HUFFVAL *)
Definition bits_of (t : enc_tab) : list nat := map (fun i => Z.to_nat (t_bits t (Z.of_nat i))) (seq 1 16).
(* number of samples per difference class; total over the classes 0..16 *)
Definition hist_total (hist : lmem) : Z := fold_right Z.add 0 (map (fun k => hist (Z.of_nat k)) (seq 0 17)).
Definition good_table (hist : lmem) (t : enc_tab) : Prop :=
  dht_ok (bits_of t) (t_vals t) /\ NoDup (t_vals t) /\ (forall c, In c (t_vals t) <-> 0 <= c <= 16 /\ 0 < hist c) /\
  (forall l code, In (l, code) (annexC (bits_of t) 1 0) -> 1 <= l <= 16 /\ 0 <= code < 2 ^ l - 1) /\
  (forall c, In c (t_vals t) -> nth (Z.to_nat (t_sym t c)) (t_codes t) (0, 0) = lookup c (t_vals t) (annexC (bits_of t) 1 0)) /\
  t_codes t = annexC (bits_of t) 1 0 /\ t_bits t 0 = 0 /\ (forall i, 1 <= i <= 16 -> 0 <= t_bits t i).

Lemma table_parts hist n : let t := create_table hist n in let cs := code_sizes hist n in
  t_bits t = adjust 40 (count_bits 18 0 cs (fun _ => 0)) 17 /\ t_vals t = huff_vals cs /\ t_codes t = code_loop 100 (t_bits t) (max_bits 16 (t_bits t)) [] 0 0 0 1 /\
  t_sym t = huff_syms 18 0 (code_loop 100 (t_bits t) (max_bits 16 (t_bits t)) [] 0 0 0 1) (huff_vals cs) (fun _ => 0).
Proof.
  intros t cs. unfold t, create_table. fold cs. clearbody cs. clear t. set (b := adjust 40 (count_bits 18 0 cs (fun _ => 0)) 17). clearbody b. set (v := huff_vals cs). clearbody v.
  cbv zeta. set (c := code_loop 100 b (max_bits 16 b) [] 0 0 0 1). cbn [t_bits t_vals t_codes t_sym]. fold c. clearbody c. split; [reflexivity|]. split; [reflexivity|]. split; reflexivity.
Qed.

Lemma symbols_len hist ch vals : NoDup ch -> (forall c, In c ch <-> symbols hist c) -> NoDup vals -> (forall c, In c vals <-> 0 <= c <= 16 /\ 0 < hist c) -> S (length vals) = length ch.
Proof.
  intros ND IN NV IV. assert (PV : Permutation (17 :: vals) ch).
  { apply NoDup_Permutation; [constructor; [intros H; apply IV in H; lia|exact NV]|exact ND|]. intros c. split; intros H.
    - apply IN. unfold symbols. destruct H as [H|H]; [left; symmetry; exact H|right; apply IV; exact H].
    - apply IN in H. unfold symbols in H. destruct H as [H|H]; [left; symmetry; exact H|right; apply IV; exact H]. }
  exact (Permutation_length PV).
Qed.

(* Whatever the histogram: exactly the classes that occur have a code, the counts obey the Kraft inequality, no code is longer than 16 bits
   or consists of ones only, and the code looked up for a class is its Annex C code. *)
Theorem C65_table : forall hist pixels, (forall c, 0 <= hist c) -> hist_total hist = pixels -> 1 <= pixels < 2 ^ 31 -> good_table hist (create_table hist pixels).
Proof.
  intros hist n H0 HS0 Hn. assert (HS : hsum hist = n). { rewrite <- HS0. unfold hsum, hist_total, zsum. generalize (seq 0 17). induction l as [|x l IH]; [reflexivity|]. cbn [map fold_right]. rewrite IH. reflexivity. }
  destruct (code_sizes_ok hist n H0 HS Hn) as (ch & ND & IN & LC & CB & CZ & CK). 
  destruct (table_parts hist n) as (Eb & Ev & Ec & Es). set (t := create_table hist n) in *. clearbody t. set (cs := code_sizes hist n) in *. clearbody cs.
  assert (Dom : forall c, In c ch -> 0 <= c < 18) by (intros c Hc; apply IN in Hc; destruct Hc as [->|[A _]]; lia).
  assert (CB17 : forall j, 0 <= j < 0 + Z.of_nat 18 -> 0 <= cs j <= 17).
  { intros j Hj. destruct (in_dec Z.eq_dec j ch) as [Hi|Hi]; [pose proof (CB j Hi); unfold len in *; lia|rewrite CZ by exact Hi; lia]. }
  destruct (count_ok cs 18 0 (fun _ => 0) CB17 ltac:(intros; lia)) as (K1 & N1 & P1 & Z1). set (b0 := count_bits 18 0 cs (fun _ => 0)) in *. clearbody b0. cbv zeta in *.
  assert (PM : Permutation ch (filter (fun c => negb (cs c =? 0)) (crange 18 0))).
  { apply NoDup_Permutation; [exact ND|apply NoDup_filter, crange_nodup|]. intros c. rewrite filter_In, crange_in. split.
    - intros Hc. pose proof (CB c Hc). pose proof (Dom c Hc). split; [lia|]. destruct (Z.eqb_spec (cs c) 0); [lia|reflexivity].
    - intros [_ Hc]. destruct (in_dec Z.eq_dec c ch) as [Hi|Hi]; [exact Hi|]. rewrite CZ in Hc by exact Hi. discriminate. }
  assert (FS : forall f l, zsum f (filter (fun c => negb (cs c =? 0)) l) = zsum (fun c => if cs c =? 0 then 0 else f c) l).
  { intros f. induction l as [|x l IH]; [reflexivity|]. cbn [filter]. rewrite zsum_cons. destruct (cs x =? 0); cbn [negb]; [rewrite IH; lia|rewrite zsum_cons, IH; lia]. }
  assert (LS : forall l, zsum (fun _ => 1) l = len l). { induction l as [|x l IH]; [reflexivity|]. rewrite zsum_cons, IH. unfold len. cbn [length]. lia. }
  change (Kr (fun _ => 0)) with 0 in K1. change (Nr (fun _ => 0)) with 0 in N1. rewrite <- (FS (fun c => 2 ^ (17 - cs c))), <- (zsum_perm _ _ _ PM), CK in K1. rewrite <- (FS (fun _ => 1)), <- (zsum_perm _ _ _ PM), LS in N1.
  assert (AI : ainv b0) by (split; [exact P1|split; [exact Z1|split; [lia|unfold len in N1; lia]]]).
  pose proof (bits_adjusted b0 AI) as BF. rewrite <- Eb in BF. set (b := t_bits t) in *. assert (EB : bits_of t = rows_of b 16 1).
  { unfold bits_of, rows_of. fold b. rewrite (crange_seq 16 1 : crange 16 1 = _), map_map. reflexivity. }
  unfold good_table. fold b. rewrite EB, Ev, Ec, Es. clear EB Ev Ec Es Eb. clearbody b. clear t. rewrite N1 in BF. rewrite Z.add_0_l in BF.
  destruct (codes_ok b _ BF ltac:(unfold len; lia)) as (EC & EM). destruct BF as (BP & BZ & BK & BN).
  rewrite EC. clear EC.
  pose proof (huff_vals_nodup cs) as NV. pose proof (huff_vals_in cs) as IV. set (vals := huff_vals cs) in *. clearbody vals.
  assert (IV' : forall c, In c vals <-> 0 <= c <= 16 /\ 0 < hist c).
  { intros c. rewrite IV. split.
    - intros (A & B). split; [exact A|]. destruct (in_dec Z.eq_dec c ch) as [Hi|Hi]; [|rewrite CZ in B by exact Hi; lia]. apply IN in Hi. destruct Hi as [->|[_ Hi]]; [lia|exact Hi].
    - intros (A & B). assert (Hi : In c ch) by (apply IN; right; split; assumption). pose proof (CB c Hi). unfold len in *. lia. }
  pose proof (symbols_len hist ch vals ND IN NV IV') as LV.
  pose proof (sum_rows b 16 BP 1) as SR. rewrite BN in SR.
  assert (LR : length vals = list_sum (rows_of b 16 1)) by (unfold len in SR; lia).
  assert (LA : length (annexC (rows_of b 16 1) 1 0) = length vals) by (rewrite annexC_len; congruence).
  assert (AB : forall l code, In (l, code) (annexC (rows_of b 16 1) 1 0) -> 1 <= l <= 16 /\ 0 <= code < 2 ^ l - 1).
  { intros l code HI. destruct (annex_bound b 16 BP 1 0 l code ltac:(lia) ltac:(lia) ltac:(lia) HI) as (A & B & C). split; [lia|]. split; [exact B|].
    replace (2 ^ 16) with (2 ^ l * 2 ^ (16 - l)) in BK by (rewrite <- Z.pow_add_r by lia; f_equal; lia). pose proof (pow2_pos (16 - l) ltac:(lia)). nia. }
  split; [|split; [exact NV|split; [exact IV'|split; [exact AB|split; [|split; [reflexivity|split; [apply BZ; lia|intros; apply BP]]]]]]].
  - split; [apply rows_len|]. split; [exact LR|]. split; [intros ->; cbn in LV; lia|]. split; [apply Forall_forall; intros c Hc; apply IV' in Hc; apply Hc|].
    rewrite kraft_fold by (try assumption; lia). lia.
  - intros c Hc. destruct (In_nth vals c 0 Hc) as (p & Hp & Ep). rewrite (huff_syms_ok _ vals c p NV LA); [|intros l x Hl; apply AB in Hl; lia|exact Hp|exact Ep|lia|lia|lia|intros; lia].
    rewrite Nat2Z.id. symmetry. apply lookup_nth; assumption.
Qed.

(* 100 samples: class 0 60 times, 1 25 times, 2 10 times, 5 5 times; and Fibonacci numbers, where the unadjusted tree has codes of 17 bits *)
Definition ex_hist : lmem := fun c => if c =? 0 then 60 else if c =? 1 then 25 else if c =? 2 then 10 else if c =? 5 then 5 else 0.
Definition ex_fib : lmem := fun c => if (0 <=? c) && (c <=? 16) then nth (Z.to_nat c) [1; 1; 2; 3; 5; 8; 13; 21; 34; 55; 89; 144; 233; 377; 610; 987; 1597] 0 else 0.
Example C65_example :
  hist_total ex_hist = 100 /\ hist_total ex_fib = 4180 /\
  bits_of (create_table ex_hist 100) = [1; 1; 1; 1; 0; 0; 0; 0; 0; 0; 0; 0; 0; 0; 0; 0]%nat /\ t_vals (create_table ex_hist 100) = [0; 1; 2; 5] /\
  t_codes (create_table ex_hist 100) = [(1, 0); (2, 2); (3, 6); (4, 14)] /\
  code_sizes ex_fib 4180 0 = 17 /\ bits_of (create_table ex_fib 4180) = [1; 1; 1; 1; 1; 1; 1; 1; 1; 1; 1; 1; 1; 1; 0; 3]%nat.
Proof. vm_compute. repeat split. Qed.
