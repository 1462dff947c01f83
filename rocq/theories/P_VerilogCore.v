(* Lemmas for C91: from the pins of the shipped Verilog core to the runs of the model of the beta core. *)
From Verif Require Import Bits Spec Spec_Core Spec_Beta V_Gen M_Config M_Encode M_Merge M_Predictor M_Fifo M_I1 M_I3 M_Fix M_Markers M_Beta
  Spec_Verilog P_Fifo P_Verilog P_VerilogMid P_VerilogTop Spec_VerilogCore.
Ltac Zify.zify_post_hook ::= idtac.
Local Open Scope bool_scope.

Definition tri (i : vtp_in) : bool * list Z * bool := (vtp_i_valid_in i, [vtp_i_pixel_in1 i; vtp_i_pixel_in2 i], vtp_i_busy_in i).

Lemma log_bridge l : Forall vtp_ok l -> forall m rf A O,
  pin_log (b_rst m) A O (combine l (trace bt_clock bt_pins (m, rf) l)) = bt_log beta_cfg (init_huff_table 12) A O m (bt_rf_ins rf (map tri l)).
Proof.
  induction l as [|i r IH]; intros F m rf A O; [reflexivity|]. inversion F as [|x y (F1 & _) Fr]; subst.
  cbn [trace combine map]. unfold tri at 1. cbn [bt_rf_ins].
  change {| bi_valid := vtp_i_valid_in i; bi_px := [vtp_i_pixel_in1 i; vtp_i_pixel_in2 i]; bi_busy := vtp_i_busy_in i; bi_w := rf_width rf; bi_h := rf_height rf; bi_allowed := rf_allowed rf |}
    with (vtp_read rf i).
  cbn [bt_log pin_log].
  assert (T : taken i (bt_pins (m, rf) i) = bt_took m (vtp_read rf i)) by reflexivity.
  assert (G : given i (bt_pins (m, rf) i) = bt_gave m (vtp_read rf i)) by reflexivity.
  rewrite T, G. replace (bt_clock (m, rf) i) with (bt_step beta_cfg (init_huff_table 12) m (vtp_read rf i), rf_step rf) by (unfold bt_clock; rewrite F1; reflexivity).
  destruct (b_rst m) eqn:B.
  - f_equal. rewrite <- (IH Fr). f_equal. unfold bt_step. rewrite B. reflexivity.
  - rewrite <- (IH Fr). f_equal. unfold bt_step. rewrite B. unfold bt_next. cbn [b_rst]. rewrite B. unfold ar_step, bt_gave.
    destruct (mko_valid (bt_out m (vtp_read rf i))), (mko_end (bt_out m (vtp_read rf i))), (vtp_i_busy_in i) eqn:E; cbn [vtp_read bi_busy]; rewrite ?E; reflexivity.
Qed.

Definition sized (m : bt_st * rf_st) : Prop := length (ff_stor (s_ljf (b_i3 (fst m)))) = 511%nat /\ length (ff_stor (s_cf (b_i3 (fst m)))) = 511%nat.
Lemma fifo_len D s we d re : length (ff_stor (fifo_step D s we d re)) = length (ff_stor s).
Proof. unfold fifo_step. cbn [ff_stor]. destruct (fifo_writable D s && we); [apply upd_length|reflexivity]. Qed.
Lemma i3_len c mem s i : length (ff_stor (s_ljf (i3_step c mem s i))) = length (ff_stor (s_ljf s)) /\ length (ff_stor (s_cf (i3_step c mem s i))) = length (ff_stor (s_cf s)).
Proof. unfold i3_step. destruct (i1_out c (s_i1 s)). cbn [s_ljf s_cf]. split; apply fifo_len. Qed.
Lemma keep_stor c s : ff_stor (s_ljf (i3_keep_reset c s)) = ff_stor (s_ljf s) /\ ff_stor (s_cf (i3_keep_reset c s)) = ff_stor (s_cf s).
Proof. split; reflexivity. Qed.
Lemma sized_clock m i : sized m -> sized (bt_clock m i).
Proof.
  intros (A & B). destruct m as [m rf]. cbn [fst] in *.
  pose proof (i3_len beta_cfg (init_huff_table 12) (b_i3 m) (bt_i3_in m (vtp_read rf i))) as (C & D). rewrite A in C. rewrite B in D.
  unfold sized, bt_clock, bt_step. cbn [fst snd]. destruct (vtp_i_full_rst i); [|destruct (b_rst m)]; cbn [fst snd]; unfold bt_reset_with, bt_next; cbn [b_i3];
    rewrite ?(proj1 (keep_stor _ _)), ?(proj2 (keep_stor _ _)); split; assumption.
Qed.
Lemma reach l : forall s m, top_R s m -> sized m -> top_R (fold_left vtp_step l s) (fold_left bt_clock l m) /\ sized (fold_left bt_clock l m).
Proof.
  induction l as [|i r IH]; intros s m R Z; [split; assumption|]. cbn [fold_left]. apply IH; [|apply sized_clock; exact Z].
  apply (top_sim s m i I R).
Qed.
Lemma top_R_px s m : top_R s m -> length (en_px (i1_enc (s_i1 (b_i3 (fst m))))) = 2%nat.
Proof. intros ((( _ & _ & _ & _ & Re & _) & _) & _). destruct Re as (r1 & r2 & E & _). rewrite E. reflexivity. Qed.
Lemma fresh_R s : vtp_fresh s -> exists i3, is_reset beta_cfg i3 /\ top_R s (bt_reset_with i3, rf_init).
Proof.
  intros [a0 a1 d1 d2|a0 a1 d1 d2 l i F].
  - exists (i3_reset beta_cfg (repeat 0 511) d1 (repeat 0 511) d2 [0; 0]). split; [|apply top_R0].
    exists (repeat 0 511), d1, (repeat 0 511), d2, [0; 0]. repeat split.
  - destruct (reach l _ _ (top_R0 a0 a1 d1 d2) ltac:(split; reflexivity)) as (R & Z).
    set (m := fold_left bt_clock l (bt_powerup d1 d2)) in *. set (s' := fold_left vtp_step l (vtp_powerup a0 a1 d1 d2)) in *.
    pose proof (proj2 (top_sim s' m i I R)) as R'. pose proof (sized_clock m i Z) as Z'. pose proof (top_R_px _ _ R') as P'.
    assert (E : bt_clock m i = (bt_reset_with (i3_keep_reset beta_cfg (b_i3 (bt_next beta_cfg (init_huff_table 12) (fst m) (vtp_read (snd m) i)))), rf_init)) by (unfold bt_clock; rewrite F; reflexivity).
    rewrite E in *. eexists. split; [|exact R'].
    destruct Z' as (Z1 & Z2). cbn [fst bt_reset_with b_i3] in Z1, Z2, P'.
    set (n := b_i3 (bt_next beta_cfg (init_huff_table 12) (fst m) (vtp_read (snd m) i))) in *.
    unfold i3_keep_reset at 1. exists (ff_stor (s_ljf n)), (ff_dout (s_ljf n)), (ff_stor (s_cf n)), (ff_dout (s_cf n)), (map e1_rp_data (en_px (i1_enc (s_i1 n)))).
    split; [|split; [|split; [|reflexivity]]].
    + change (ff_stor (s_ljf n)) with (ff_stor (s_ljf (i3_keep_reset beta_cfg n))). rewrite Z1. reflexivity.
    + change (ff_stor (s_cf n)) with (ff_stor (s_cf (i3_keep_reset beta_cfg n))). rewrite Z2. reflexivity.
    + unfold i3_keep_reset, i3_reset, i1_reset, enc_reset in P'. cbn [s_i1 i1_enc en_px] in P'. rewrite map_length in P'. rewrite P'. reflexivity.
Qed.
(* the log at the pins is the log of the model *)
Lemma pins_log s : vtp_fresh s -> exists i3, is_reset beta_cfg i3 /\ forall l, Forall vtp_ok l ->
  pin_log false [] [] (pins s l) = bt_log beta_cfg (init_huff_table 12) [] [] (bt_reset_with i3) (bt_rf_ins rf_init (map tri l)).
Proof.
  intros H. destruct (fresh_R s H) as (i3 & Hi & R). exists i3. split; [exact Hi|]. intros l F. unfold pins.
  rewrite (trace_sim _ _ _ _ _ _ top_sim l _ _ R (Forall_T l)). exact (log_bridge l F (bt_reset_with i3) rf_init [] []).
Qed.
Lemma tri_ok l x : Forall vtp_ok l -> In x (map tri l) -> group_ok 12 2 (snd (fst x)).
Proof.
  intros F H. apply in_map_iff in H. destruct H as (i & <- & Hi). rewrite Forall_forall in F. destruct (F i Hi) as (_ & A & B). split; [reflexivity|]. repeat constructor; assumption || apply A || apply B.
Qed.
