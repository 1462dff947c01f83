(* C52, continued: the start register and the end marks of the DMA design *)
From Verif Require Import Bits M_Config M_Encode M_I3 M_Fix M_Markers M_Beta M_Predictor M_Width M_SyncFifo M_AxiHP M_AxiLite M_FullAxi Props_FullAxi.
Ltac Zify.zify_post_hook ::= idtac.

(* C52.  As long as the start register does not hold 0xFFFFFFFF no burst is issued on either port, whatever the memory and the bus do, over any number of
   frames. *)
Lemma no_go_next R s i : dl_start (fa_dl s) <> 0xFFFFFFFF -> hw_awvalid (ws_w (fa_ws s)) = false -> hr_arvalid (rs_r (fa_rs s)) = false ->
  hw_awvalid (ws_w (fa_ws (fa_step R s i))) = false /\ hr_arvalid (rs_r (fa_rs (fa_step R s i))) = false.
Proof.
  intros H1 H2 H3. unfold fa_step. destruct (b_rst (fa_bt s)); [cbn; auto|]. unfold fa_next. cbn [fa_ws fa_rs].
  assert (G : fa_go s = false) by (unfold fa_go; apply Z.eqb_neq; exact H1). split.
  - unfold ws_step. cbn [ws_w]. unfold hw_step. cbn [hw_awvalid]. rewrite H2. unfold ws_hw, fa_ws_in. cbn [hwi_enable wsi_enable]. rewrite G. reflexivity.
  - unfold rs_step. cbn [rs_r]. unfold hr_step. cbn [hr_arvalid]. rewrite H3. unfold rs_hr, fa_rs_in. cbn [hri_enable rsi_enable]. rewrite G. reflexivity.
Qed.
Theorem C52_not_started : forall R s l, fa_fresh s -> (forall l1 l2, l = l1 ++ l2 -> dl_start (fa_dl (fa_run R s l1)) <> 0xFFFFFFFF) ->
  ev_waddrs (fa_events R s l) = [] /\ ev_raddrs (fa_events R s l) = [].
Proof.
  intros R s l HF. destruct HF as (_ & _ & _ & (str & _ & E2) & (stw & _ & E3) & _).
  assert (A : hw_awvalid (ws_w (fa_ws s)) = false) by (rewrite E3; reflexivity). assert (B : hr_arvalid (rs_r (fa_rs s)) = false) by (rewrite E2; reflexivity). clear E2 E3.
  revert s A B. induction l as [|i l IH]; intros s A B H; [split; reflexivity|]. cbn [fa_events ev_app ev_waddrs ev_raddrs].
  pose proof (H [] (i :: l) eq_refl) as H0. cbn [fa_run] in H0. destruct (no_go_next R s i H0 A B) as [A' B'].
  destruct (IH _ A' B') as [-> ->]. { intros l1 l2 E. apply (H (i :: l1) l2). rewrite E. reflexivity. }
  rewrite !app_nil_r. unfold fa_event. cbn [ev_waddrs ev_raddrs]. unfold ws_addr_en, rs_addr_en. rewrite A, B. auto.
Qed.
(* once it holds that value, and the frame is not just ending, a burst is offered on each port in the next cycle, unless eight are outstanding or one is being
   taken *)
Theorem C52_started : forall R s i, dl_start (fa_dl s) = 0xFFFFFFFF -> b_rst (fa_bt s) = false ->
  ag_valid (ws_a (fa_ws s)) = true -> ag_valid (rs_a (fa_rs s)) = true ->
  (hw_awvalid (ws_w (fa_ws s)) = false -> hw_active (ws_w (fa_ws s)) < 8 -> hw_awvalid (ws_w (fa_ws (fa_step R s i))) = true) /\
  (hr_arvalid (rs_r (fa_rs s)) = false -> hr_active (rs_r (fa_rs s)) < 8 -> hr_arvalid (rs_r (fa_rs (fa_step R s i))) = true).
Proof.
  intros R s i H0 Hr V1 V2. unfold fa_step. rewrite Hr. unfold fa_next. cbn [fa_ws fa_rs]. assert (G : fa_go s = true) by (unfold fa_go; apply Z.eqb_eq; exact H0). split; intros H1 H2.
  - unfold ws_step. cbn [ws_w]. unfold hw_step. cbn [hw_awvalid]. rewrite H1. unfold ws_hw, fa_ws_in. cbn [hwi_enable wsi_enable hwi_addr_empty wsi_awready]. rewrite G, V1. unfold ws_end, ws_addr_en. rewrite H1, andb_false_r. cbn [andb orb negb].
    unfold below_max. apply Z.ltb_lt. exact H2.
  - unfold rs_step. cbn [rs_r]. unfold hr_step. cbn [hr_arvalid]. rewrite H1. unfold rs_hr, fa_rs_in. cbn [hri_enable rsi_enable hri_addr_empty rsi_arready]. rewrite G, V2. unfold rs_end, rs_addr_en. rewrite H1, andb_false_r. cbn [andb orb negb].
    unfold below_max. apply Z.ltb_lt. exact H2.
Qed.

(* C52.  The end of a frame is never visible: the reset at the end of a frame comes before the end mark has left b16_b64, so in every cycle of every run the
   bits 0 and 2 of the first status register (end of b16_b64, end at the head of the writer FIFO) are zero *)
Definition even_stor (s : sf_st) : Prop := Forall (fun x => x mod 2 = 0) (sf_stor s).
Definition no_mark (s : fa_st) : Prop :=
  p64_end (fa_p64 s) = false /\ p64_ctr (fa_p64 s) = 0 /\ (p64_rend (fa_p64 s) = true -> b_rst (fa_bt s) = true) /\ even_stor (ws_f (fa_ws s)).
Lemma upd_even n x l : x mod 2 = 0 -> Forall (fun x => x mod 2 = 0) l -> Forall (fun x => x mod 2 = 0) (upd n x l).
Proof. intros Hx. revert n. induction l as [|a l IH]; intros n H; [destruct n; exact H|]. apply Forall_cons_iff in H. destruct H as [Ha H]. destruct n; cbn; constructor; auto. Qed.
Lemma no_mark_step R s i : no_mark s -> no_mark (fa_step R s i).
Proof.
  intros (E1 & E2 & E3 & E4). unfold no_mark.
  assert (E5 : even_stor (ws_f (fa_ws (fa_next R s i)))).
  { unfold fa_next. cbn [fa_ws]. unfold ws_step. cbn [ws_f]. unfold even_stor, af_step, sf_step. cbn [sf_stor]. destruct (_ && _); [|exact E4]. apply upd_even; [|exact E4].
    unfold af_word, fa_ws_in. cbn [af_data_in af_end_in wsi_data wsi_end]. rewrite E1. cbn [b2z]. rewrite Z.add_0_r. apply Z.mod_mul. lia. }
  unfold fa_step. destruct (b_rst (fa_bt s)) eqn:Hr.
  - unfold fa_keep_reset. cbn [fa_p64 fa_bt fa_ws]. split; [reflexivity|]. split; [reflexivity|]. split; [discriminate|]. exact E5.
  - assert (Q : p64_rend (fa_p64 s) = false) by (destruct (p64_rend (fa_p64 s)); [specialize (E3 eq_refl); discriminate|reflexivity]).
    split; [|split; [|split; [|exact E5]]]; unfold fa_next; cbn [fa_p64 fa_bt]; unfold p64_step; cbn [p64_end p64_ctr p64_rend]; rewrite ?Q; cbn [andb]; try assumption.
    unfold bt_step. rewrite Hr. cbn [bt_next b_rst]. unfold ar_step. rewrite Hr, orb_false_r. unfold fa_p64_in. cbn [pi_valid pi_end]. change (M_Beta.bi_busy (fa_bt_in s)) with (p64_busy (fa_p64 s)).
    destruct (mko_valid _), (p64_busy (fa_p64 s)); cbn [andb negb]; try discriminate; auto.
Qed.
Lemma even_nth l k : Forall (fun x => x mod 2 = 0) l -> nth k l 0 mod 2 = 0.
Proof. intros H. revert k. induction H as [|x l Hx Hl IH]; intros [|k]; cbn; auto. Qed.
Theorem C52_no_end_mark : forall R l i, let s := fa_run R fa_init l in
  Z.testbit (nth 0 (fa_ins s i) 0) 0 = false /\ Z.testbit (nth 0 (fa_ins s i) 0) 2 = false.
Proof.
  intros R l i s. assert (N : no_mark s).
  { assert (K : forall l s, no_mark s -> no_mark (fa_run R s l)) by (clear; induction l as [|i l IH]; intros s H; [exact H|]; cbn [fa_run]; apply IH, no_mark_step, H).
    apply K. split; [reflexivity|]. split; [reflexivity|]. split; [discriminate|]. unfold even_stor. cbn. repeat constructor. }
  clearbody s. destruct N as (E1 & _ & _ & E4).
  assert (E6 : af_end_out (ws_f (fa_ws s)) = false).
  { unfold af_end_out, slice, sf_dout. change (1 - 0) with 1. change (2 ^ 0) with 1. rewrite Z.div_1_r. unfold even_stor in E4. pose proof (even_nth _ (Z.to_nat (sf_cons (ws_f (fa_ws s)))) E4) as M.
    change (2 ^ 1) with 2. rewrite M. reflexivity. }
  unfold fa_ins. cbn [nth]. rewrite E1, E6. cbn [cat1 b2z].
  assert (RB : b2z (p64_valid (fa_p64 s)) = 0 \/ b2z (p64_valid (fa_p64 s)) = 1) by (destruct (p64_valid _); auto).
  set (b1 := b2z (p64_valid _)) in *. set (b3 := b2z (af_valid_out _)). set (X := b2z (ws_data_en _ _) + _). set (a := hw_active _). set (b := hr_active _). set (c := hw_unconf _). clearbody b1 b3 X a b c.
  assert (F : 0 + 2 * (b1 + 2 * (0 + 2 * (b3 + 2 * X))) + 2 ^ 11 * a + 2 ^ 15 * b + 2 ^ 19 * c = 2 * b1 + 8 * (b3 + 2 * X + 2 ^ 8 * a + 2 ^ 12 * b + 2 ^ 16 * c)).
  { change (2 ^ 11) with 2048. change (2 ^ 15) with 32768. change (2 ^ 19) with 524288. change (2 ^ 8) with 256. change (2 ^ 12) with 4096. change (2 ^ 16) with 65536. ring. }
  rewrite F. set (Y := b3 + _ + _ + _ + _). clearbody Y. assert (T : forall z n, 0 <= n -> Z.testbit z n = ((z / 2 ^ n) mod 2 =? 1)).
  { intros z n Hn. pose proof (Z.testbit_spec' z n Hn) as TS. destruct (Z.testbit z n); cbn [Z.b2z] in TS; rewrite <- TS; reflexivity. }
  rewrite !T by lia. change (2 ^ 0) with 1. change (2 ^ 2) with 4. rewrite Z.div_1_r. assert (B1 : b1 = 0 \/ b1 = 1) by assumption.
  replace ((2 * b1 + 8 * Y) mod 2) with 0 by (replace (2 * b1 + 8 * Y) with ((b1 + 4 * Y) * 2) by ring; rewrite Z.mod_mul; lia).
  replace ((2 * b1 + 8 * Y) / 4) with (2 * Y); [|apply Z.div_unique with (2 * b1); lia]. replace ((2 * Y) mod 2) with 0 by (rewrite Z.mul_comm, Z.mod_mul; lia). auto.
Qed.


(* the run of C52_example: bits 1 and 3 of the status register (a word leaving b16_b64, a word in the writer FIFO) are seen set; with a start register that does not
   hold 0xFFFFFFFF (nothing written to it) no burst is issued in 50 cycles *)
Fixpoint fx_status (R : rf_st) (s : fa_st) (l : list fa_in) : list Z := match l with [] => [] | i :: r => nth 0 (fa_ins s i) 0 :: fx_status R (fa_step R s i) r end.
Example C52_example2 :
  let st := fx_status fx_R fa_init (fx_gen fx_R 120 0 0 0 fa_init) in
  existsb (fun z => Z.testbit z 1) st = true /\ existsb (fun z => Z.testbit z 3) st = true /\ existsb (fun z => Z.testbit z 0 || Z.testbit z 2) st = false /\
  let idle := repeat {| fai_lite := fx_lite false; fai_arready := true; fai_rvalid := true; fai_rlast := false; fai_rdata := 5; fai_rresp := 0;
                        fai_awready := true; fai_wready := true; fai_bvalid := true; fai_bresp := 0 |} 50 in
  ev_waddrs (fa_events fx_R fa_init idle) = [] /\ ev_raddrs (fa_events fx_R fa_init idle) = [].
Proof. vm_compute. auto 6. Qed.
