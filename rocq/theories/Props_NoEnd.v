(* C11 for the complete core: with the sizes for which the last group is not recognised, no word
   is ever marked as the last one and the core goes on accepting pixels. *)
From Verif Require Import Bits Spec Spec_Core M_Config M_Signals M_Encode M_I1 M_Fifo M_I3 P_Run Props_Arith P_NoEnd Props_Core.
Ltac Zify.zify_post_hook ::= idtac.

(* the frame sizes whose end is missed: one group per row, or one row of two groups *)
Definition end_missed (c : config) (W H : Z) : Prop := W = ps c \/ W = 2 * ps c /\ H = 1.

Lemma missed_sig c mem W H s0 ins : cfg_ok c = true -> is_reset c s0 -> 1 <= H < 2 ^ 16 -> end_missed c W H ->
  Forall (fun i => in_valid i = true -> in_w i = W /\ in_h i = H) ins ->
  (W = ps c /\ 2 <= H \/ len (i3_accepted c mem s0 ins) * ps c < 2 ^ 16) ->
  sg_end_of_frame (i1_sig (s_i1 (i3_run c mem s0 ins))) = false.
Proof.
  intros Hc (st1 & d1 & st2 & d2 & rps & _ & _ & _ & ->) HH Hm HF Hn.
  assert (Hps : ps c = 1 \/ ps c = 2 \/ ps c = 4) by (unfold cfg_ok in Hc; lia).
  rewrite i3_sig_run. change (i1_sig (s_i1 (i3_reset c st1 d1 st2 d2 rps))) with sig_init.
  set (s0 := i3_reset c st1 d1 st2 d2 rps) in *. pose proof (i3_sig_sized c mem W H ins s0 HF) as HS.
  rewrite <- i3_sig_inputs in Hn.
  assert (Hnn : 0 <= inputs (i3_sig_in c mem s0 ins)) by (unfold inputs, len; lia).
  destruct Hm as [->|[-> ->]].
  - destruct (Z.eq_dec H 1) as [->|]; [apply C11_one_group|apply C11_single_group_rows with (H := H)]; try assumption; lia.
  - apply C11_two_groups; [lia|assumption|]. destruct Hn; [lia|]. nia.
Qed.

Lemma nready_start c mem s0 ins : is_reset c s0 ->
  (len ins < 8 -> s_nready_ctr (i3_run c mem s0 ins) = len ins) /\
  (8 <= len ins -> s_nready_reset (i3_run c mem s0 ins) = true).
Proof.
  intros (st1 & d1 & st2 & d2 & rps & _ & _ & _ & ->). induction ins as [|i ins IH] using rev_ind.
  - split; [reflexivity|]. unfold len. cbn [length]. lia.
  - rewrite i3_run_app. cbn [i3_run]. destruct IH as [IH1 IH2]. set (s := i3_run _ _ _ ins) in *.
    assert (E : len (ins ++ [i]) = len ins + 1) by (unfold len; rewrite app_length; cbn [length]; lia). rewrite E.
    assert (Hs : s_nready_reset (i3_step c mem s i) = (if s_nready_ctr s =? 7 then true else s_nready_reset s) /\
                 s_nready_ctr (i3_step c mem s i) = trunc 3 (s_nready_ctr s + 1)).
    { unfold i3_step. destruct (i1_out c (s_i1 s)). split; reflexivity. }
    destruct Hs as [-> ->]. assert (0 <= len ins) by (unfold len; lia). split; intros Hl.
    + rewrite IH1 by lia. apply trunc_id. lia.
    + destruct (Z.eq_dec (len ins) 7) as [E7|].
      * rewrite IH1 by lia. rewrite E7. reflexivity.
      * rewrite IH2 by lia. destruct (_ =? 7); reflexivity.
Qed.

(* Whatever the pixels, the Huffman memory and the sink: no transferred word carries the end flag,
   none is being offered with it, and the core refuses pixels only during the eight cycles after
   reset or because its first FIFO holds at least ljd-10 groups -- never because the frame is over.
   (One group per row and two or more rows: for ever.  One-row frames: during the first 2^16
   samples, i.e. 2^16/W frames.) *)
Theorem C11_core_never_ends : forall c mem W H s0 ins, cfg_ok c = true -> is_reset c s0 ->
  1 <= H < 2 ^ 16 -> end_missed c W H ->
  Forall (fun i => in_valid i = true -> in_w i = W /\ in_h i = H) ins ->
  (W = ps c /\ 2 <= H \/ len (i3_accepted c mem s0 ins) * ps c < 2 ^ 16) ->
  Forall (fun x => snd x = false) (i3_transfers c mem s0 ins) /\
  i3_end_out (i3_run c mem s0 ins) = false /\
  (forall pre i, ins = pre ++ [i] -> 7 <= len pre -> i3_nready (i3_run c mem s0 ins) = true ->
     ljd c - 10 <= fifo_level (s_ljf (i3_run c mem s0 pre))).
Proof.
  intros c mem W H s0 ins Hc Hr HH Hm HF Hn.
  destruct (quiet_run c mem s0 ins Hc Hr) as [Q F].
  { intros a b -> Hb. apply missed_sig with (W := W) (H := H); try assumption.
    - apply Forall_app in HF. apply HF.
    - destruct Hn as [Hn|Hn]; [left; assumption|right]. rewrite i3_accepted_app in Hn. unfold len in *. rewrite app_length in Hn.
      assert (Hps : ps c = 1 \/ ps c = 2 \/ ps c = 4) by (unfold cfg_ok in Hc; lia). nia. }
  split; [exact F|]. destruct Q as (_ & _ & _ & _ & _ & [Qe _] & Qn & _). split; [exact Qe|].
  intros pre i -> Hl Hy. destruct (nready_start c mem s0 (pre ++ [i]) Hr) as [_ N].
  unfold i3_nready in Hy. rewrite Qn, N in Hy by (unfold len in *; rewrite app_length; cbn [length]; lia).
  cbn [negb orb] in Hy. rewrite !orb_false_r in Hy. rewrite i3_run_app in Hy. cbn [i3_run] in Hy.
  unfold i3_step in Hy. destruct (i1_out c _). cbn [s_lj_cf] in Hy. lia.
Qed.

(* a 2x3 frame at two pixels per cycle, sent twice: the six groups are accepted as one frame and
   nothing is marked as its end *)
Definition ne_in (v : bool) (k : Z) : i3_in := {| in_valid := v; in_px := [k; 40 * k]; in_busy := false; in_w := 2; in_h := 3 |}.
Definition ne_ins : list i3_in := map (fun k => ne_in (Z.of_nat k <? 15) (Z.of_nat k)) (seq 0 60).

Example C11_core_example : end_missed ex_cfg 2 3 /\ ps ex_cfg = 2 /\
  Forall (fun i => in_valid i = true -> in_w i = 2 /\ in_h i = 3) ne_ins /\
  len (i3_accepted ex_cfg (init_huff_table 12) (i3_init ex_cfg) ne_ins) = 7 /\
  len (i3_transfers ex_cfg (init_huff_table 12) (i3_init ex_cfg) ne_ins) > 4.
Proof.
  split; [left; reflexivity|]. split; [reflexivity|]. split.
  - apply Forall_forall. intros x Hx. apply in_map_iff in Hx. destruct Hx as [k [<- _]]. split; reflexivity.
  - split; vm_compute; reflexivity.
Qed.
