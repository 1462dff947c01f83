(* C18 with an explicit bound: how long the rest of a frame can take at most. *)
From Verif Require Import Bits Spec Spec_Core M_Config M_Signals M_Predictor M_Difference M_Encode M_Merge M_I1 M_Fifo M_Converter M_VBits M_I3
  P_Fifo P_Encode P_Merge P_Signals P_Predictor P_I1 P_Tokens P_Converter P_VBits P_I3 P_Decode P_Run P_Live P_Live2 Props_Arith Props_Core Props_Live P_LiveBound.
Ltac Zify.zify_post_hook ::= idtac.

(* cycles that suffice for the rest of a frame of W x H pixels on core c, when source and sink each answer at least once in every K
   cycles: a constant of the configuration and K, times the number of pixels *)
Definition cycles_enough (c : config) (K W H : Z) : Z := (32 * (W * H) + 1) * (100000 * capacity c + 50000 + 2 * K + 3) + K.

(* C18.  After any beginning `pre` (any stalls, any state the core got into), if from then on in every window of K consecutive cycles the
   sink is ready at least once and, while pixels of the frame are missing, the source offers at least once, then the end word is
   handed over within cycles_enough c K W H cycles.  The bound does not depend on the beginning, the table, the pixels or the schedule,
   and it is linear in the number of pixels. *)
Theorem C18_bounded : forall c t W H s0 pre (ins : nat -> i3_in) K,
  cfg_ok c = true -> table_ok (bd c) t -> frame_ok c W H -> is_reset c s0 -> Forall (in_ok c W H) pre -> (forall n, in_ok c W H (ins n)) -> 1 <= K ->
  (forall n, exists m, (n <= m)%nat /\ Z.of_nat m < Z.of_nat n + K /\ in_busy (ins m) = false) ->
  (forall n, len (concat (i3_accepted c (mem_of (bd c) t) s0 (pre ++ upto ins n))) < W * H ->
     exists m, (n <= m)%nat /\ Z.of_nat m < Z.of_nat n + K /\ in_valid (ins m) = true) ->
  exists n, Z.of_nat n <= cycles_enough c K W H /\ existsb snd (i3_transfers c (mem_of (bd c) t) s0 (pre ++ upto ins n)) = true.
Proof.
  intros c t W H s0 pre ins K Hc Ht Hf Hr Hp Hin HK Hb Hv.
  set (all := fun k => if Nat.ltb k (length pre) then nth k pre (ins 0%nat) else ins (k - length pre)%nat).
  assert (Hall : forall n, in_ok c W H (all n)).
  { intros n. unfold all. destruct (Nat.ltb_spec n (length pre)); [|apply Hin]. rewrite Forall_forall in Hp. apply Hp, nth_In. assumption. }
  assert (E : forall k, upto all (length pre + k) = pre ++ upto ins k).
  { intros k. unfold upto. rewrite seq_app, map_app. f_equal.
    - apply nth_ext with (d := ins 0%nat) (d' := ins 0%nat); [rewrite map_length, seq_length; reflexivity|]. intros j Hj. rewrite map_length, seq_length in Hj.
      rewrite (nth_indep _ _ (all 0%nat)) by (rewrite map_length, seq_length; exact Hj). rewrite map_nth, seq_nth by exact Hj. unfold all. cbn [Nat.add]. destruct (Nat.ltb_spec j (length pre)); [reflexivity|lia].
    - cbn [Nat.add]. replace (length pre) with (length pre + 0)%nat at 1 by lia. generalize 0%nat as o. induction k as [|k IH]; intros o; [reflexivity|]. cbn [seq map]. f_equal; [|rewrite <- Nat.add_succ_r; apply IH].
      unfold all. destruct (Nat.ltb_spec (length pre + o) (length pre)); [lia|]. f_equal. lia. }
  assert (Sh : forall m, all (length pre + m)%nat = ins m). { intros m. unfold all. destruct (Nat.ltb_spec (length pre + m) (length pre)); [lia|]. f_equal. lia. }
  destruct (blive c t W H s0 all (length pre) K Hc Ht Hf Hr (fun n => in_ok_acc c W H _ _ (Hall n))) as (n & N1 & N2 & N3); [| |exact HK|].
  - intros n Hn. destruct (Hb (n - length pre)%nat) as (m & M1 & M2 & M3). exists (length pre + m)%nat. rewrite Sh. split; [lia|]. split; [lia|exact M3].
  - intros n Hn Hl. replace n with (length pre + (n - length pre))%nat in Hl by lia. rewrite E in Hl. destruct (Hv (n - length pre)%nat Hl) as (m & M1 & M2 & M3).
    exists (length pre + m)%nat. rewrite Sh. split; [lia|]. split; [lia|exact M3].
  - exists (n - length pre)%nat. split; [unfold cycles_enough; lia|]. rewrite <- E. replace (length pre + (n - length pre))%nat with n by lia. exact N3.
Qed.

(* the schedule of C18_example meets the hypotheses with K = 5, and 100 cycles are indeed less than the bound *)
Example C18_bounded_example :
  (forall n, in_ok ex_cfg 4 3 (live_ex n)) /\
  (forall n, exists m, (n <= m)%nat /\ Z.of_nat m < Z.of_nat n + 5 /\ in_busy (live_ex m) = false) /\
  (forall n, exists m, (n <= m)%nat /\ Z.of_nat m < Z.of_nat n + 5 /\ in_valid (live_ex m) = true) /\
  100 <= cycles_enough ex_cfg 5 4 3 /\
  exists n, Z.of_nat n <= cycles_enough ex_cfg 5 4 3 /\ existsb snd (i3_transfers ex_cfg (mem_of 12 (std_table 12)) (i3_init ex_cfg) (upto live_ex 7 ++ upto live_ex n)) = true.
Proof.
  assert (A : forall n, in_ok ex_cfg 4 3 (live_ex n)) by apply C18_example.
  assert (B : forall n, exists m, (n <= m)%nat /\ Z.of_nat m < Z.of_nat n + 5 /\ in_busy (live_ex m) = false).
  { intros n. pose proof (Nat.div_mod n 3 ltac:(lia)) as D. pose proof (Nat.mod_upper_bound n 3 ltac:(lia)) as U.
    exists (if Nat.leb (Nat.modulo n 3) 1 then 1 + Nat.div n 3 * 3 else 1 + S (Nat.div n 3) * 3)%nat.
    destruct (Nat.leb_spec (Nat.modulo n 3) 1); (split; [lia|]; split; [lia|]; cbn [in_busy live_ex]; rewrite Nat.mod_add by lia; reflexivity). }
  assert (C : forall n, exists m, (n <= m)%nat /\ Z.of_nat m < Z.of_nat n + 5 /\ in_valid (live_ex m) = true).
  { intros n. pose proof (Nat.div_mod n 5 ltac:(lia)) as D. pose proof (Nat.mod_upper_bound n 5 ltac:(lia)) as U.
    exists (if Nat.leb (Nat.modulo n 5) 2 then 2 + Nat.div n 5 * 5 else 2 + S (Nat.div n 5) * 5)%nat.
    destruct (Nat.leb_spec (Nat.modulo n 5) 2); (split; [lia|]; split; [lia|]; cbn [in_valid live_ex]; rewrite Nat.mod_add by lia; reflexivity). }
  split; [exact A|]. split; [exact B|]. split; [exact C|]. split; [vm_compute; discriminate|].
  apply (C18_bounded ex_cfg (std_table 12) 4 3 (i3_init ex_cfg) (upto live_ex 7) live_ex 5); try assumption; try (apply C01_example); try lia.
  - apply C07_example.
  - apply Forall_forall; intros i Hi; apply in_map_iff in Hi; destruct Hi as (k & <- & _); apply A.
  - intros n _. apply C.
Qed.
