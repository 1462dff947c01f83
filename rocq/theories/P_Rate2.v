(* Throughput, continued: the bit packer and the fifo in front of it.  The items waiting there are bounded by a potential. *)
From Verif Require Import Bits Spec Spec_Core M_Config M_Signals M_Predictor M_Difference M_Encode M_Merge M_I1 M_Fifo M_Converter M_VBits M_I3
  P_Fifo P_Encode P_Merge P_Signals P_Predictor P_I1 P_Tokens P_Converter P_VBits P_I3 P_Decode P_Run P_Live P_Live2 P_Rate.
Ltac Zify.zify_post_hook ::= idtac.

(* items held by the packer *)
Definition vn (i : vi_st) : Z :=
  match vi_state i with
  | VI_BURST => b2z (vi_valid_reg i) | VI_REGISTER => 0
  | VI_INPUT => b2z (vi_valid_buff i) + b2z (vi_valid_reg i)
  | VI_CLEAN => 1 + b2z (vi_valid_reg i)
  end.
(* items between the converter and the buffer *)
Definition waiting (c : config) (i : vi_st) (f : fifo_st) (v : bool) : Z := len (fifo_q (cfd c) f) + b2z v + vn i.

Record bk_inv (c : config) (M : Z) (i : vi_st) (f : fifo_st) (v : bool) : Prop := {
  bk_q : Forall (fun w => cctr c w <= M) (fifo_q (cfd c) f);
  bk_reg : vi_state i = VI_CLEAN \/ vi_valid_reg i = true -> vi_ctr_reg i <= M;
  bk_buff1 : vi_state i = VI_CLEAN -> vi_valid_reg i = true -> vi_ctr_buff i <= M;
  bk_buff2 : vi_state i = VI_INPUT -> vi_valid_buff i = true -> vi_ctr_buff i <= M;
  bk_in : vi_state i = VI_INPUT -> vi_valid_buff i = true -> bufs c - M - outb c + 1 <= vi_consum i;
  bk_start : vi_state i = VI_INPUT -> vi_valid_buff i = false -> fifo_q (cfd c) f = [] /\ v = false /\ vi_valid_reg i = false;
  bk_rd : ff_rd f = false -> ff_lvl f <= 1;
  bk_burst : vi_state i = VI_BURST -> vi_valid_reg i = false -> ff_lvl f <= 1 }.

Section step.
  Variables (c : config) (M : Z) (i : vi_st) (f : fifo_st) (v v' : bool) (din enc : Z) (e dec : bool).
  Hypotheses (Hvb : vb_ok c) (HM : 1 <= M) (HD : 3 <= cfd c) (Hf : fifo_inv (cfd c) f) (Hw : v = true -> fifo_writable (cfd c) f = true)
    (Hdin : v = true -> cctr c din <= M) (Hi : vi_inv c i) (He : vi_end i = false) (Hdec : dec = true -> outb c <= vi_consum i) (B : bk_inv c M i f v).
  Let f' := fifo_step (cfd c) f v din (vi_latch_input i).
  Let i' := vi_step c i enc (cctr c (ff_dout f)) e (ff_rd f) dec.

  Lemma q_len : len (fifo_q (cfd c) f') = len (fifo_q (cfd c) f) + b2z v - b2z (vi_latch_input i && ff_rd f).
  Proof.
    destruct (fifo_step_ok (cfd c) f v din (vi_latch_input i) HD Hf) as [_ E]. unfold f'. rewrite E. unfold len, fifo_take. rewrite app_length.
    assert (X : length (if v && fifo_writable (cfd c) f then [din] else []) = Z.to_nat (b2z v)).
    { destruct v; [rewrite (Hw eq_refl)|]; reflexivity. }
    rewrite X. pose proof (b2z_01 v). destruct (vi_latch_input i && ff_rd f) eqn:El.
    - apply andb_prop in El. destruct El as [_ El]. destruct (fifo_head (cfd c) f El) as [r ->]. cbn [tl length b2z]. lia.
    - cbn [b2z]. lia.
  Qed.

  Lemma vn_step : vn i' = vn i + b2z (vi_latch_input i && ff_rd f) - b2z (vi_inc i).
  Proof.
    destruct Hi as (I1 & I2 & I3 & I4 & I5 & I6 & I7 & I8 & I9 & I10). unfold i', vi_step, vi_inc, vn. rewrite I1.
    destruct (vi_state i) eqn:Es; cbn [vi_state vi_valid_reg vi_valid_buff andb].
    - destruct (vi_valid_buff i) eqn:Eb; cbn [andb].
      + destruct (vi_ctr_buff i <=? vi_free i); cbn [b2z]; lia.
      + destruct (bk_start _ _ _ _ _ B Es Eb) as (_ & _ & ->). cbn. lia.
    - destruct (vi_valid_reg i); cbn [b2z]; lia.
    - cbn [b2z]. lia.
    - destruct (vi_valid_reg i), (vi_ctr_reg i <=? vi_free i); cbn [andb negb b2z]; lia.
  Qed.

  Lemma waiting_step : waiting c i' f' v' = waiting c i f v + b2z v' - b2z (vi_inc i).
  Proof. unfold waiting. rewrite q_len, vn_step. lia. Qed.

  Lemma lvl_small : ff_lvl f' = ff_lvl f + b2z v - b2z (negb (ff_lvl f =? 0) && (negb (ff_rd f) || vi_latch_input i)).
  Proof. unfold f'. apply lvl_step; assumption. Qed.

  Lemma head_small : ff_rd f = true -> cctr c (ff_dout f) <= M.
  Proof. intros E. destruct (fifo_head (cfd c) f E) as [r Hr]. pose proof (bk_q _ _ _ _ _ B) as Q. rewrite Hr in Q. inversion Q; assumption. Qed.

  Lemma bk_step : bk_inv c M i' f' v'.
  Proof.
    pose proof (vi_arith c i enc (cctr c (ff_dout f)) e (ff_rd f) dec Hvb Hi ltac:(congruence) Hdec ltac:(congruence)) as (A1 & A2 & A3 & A4 & _). fold i' in A1, A2, A3, A4.
    pose proof Hi as (I1 & I2 & I3 & I4 & I5 & I6 & I7 & I8 & I9 & I10).
    pose proof head_small as Hh. pose proof lvl_small as Hl. assert (L0 : 0 <= ff_lvl f) by (apply Hf). pose proof (b2z_01 v) as Bv.
    assert (Hq : Forall (fun w => cctr c w <= M) (fifo_q (cfd c) f')).
    { destruct (fifo_step_ok (cfd c) f v din (vi_latch_input i) HD Hf) as [_ E]. unfold f'. rewrite E. apply Forall_app. split; [unfold fifo_take; apply Forall_tl; apply B|].
      destruct v; cbn [andb]; [|constructor]. destruct (fifo_writable (cfd c) f); constructor; auto. }
    destruct B as [B1 B2 B3 B4 B5 B6 B7 B8].
    assert (Hrd : ff_rd f' = false -> ff_lvl f' <= 1).
    { unfold f' at 1. rewrite fifo_step_rd. intros E. rewrite Hl. destruct (ff_lvl f =? 0) eqn:E0; cbn [negb andb b2z] in *; [lia|]. apply orb_false_iff in E. destruct E as [E1 E2]. rewrite E1 in *. apply orb_false_iff in E1. destruct E1 as [E3 E4]. rewrite E4 in E2. destruct (ff_rd f); discriminate. }
    assert (Hob : 0 <= (if dec then outb c else 0) <= outb c) by (destruct Hvb as (?&?&?); destruct dec; lia).
    split.
    - exact Hq.
    - unfold i', vi_step. destruct (vi_state i) eqn:Es; cbn [vi_state vi_valid_reg vi_ctr_reg].
      + destruct (vi_valid_buff i) eqn:Eb; cbn [andb].
        * destruct (vi_ctr_buff i <=? vi_free i); intros [X|X]; try discriminate; auto.
        * destruct (vi_valid_reg i) eqn:Er; intros [X|X]; try discriminate; auto.
      + destruct (vi_valid_reg i) eqn:Er; intros [X|X]; try discriminate; auto.
      + intros [X|X]; [discriminate|auto].
      + destruct (vi_valid_reg i && negb (vi_ctr_reg i <=? vi_free i)); intros [X|X]; try discriminate; auto.
    - unfold i', vi_step. destruct (vi_state i) eqn:Es; cbn [vi_state vi_valid_reg vi_ctr_buff].
      + destruct (vi_valid_buff i) eqn:Eb; cbn [andb].
        * destruct (vi_ctr_buff i <=? vi_free i); intros X Y; try discriminate; auto.
        * destruct (vi_valid_reg i) eqn:Er; intros X Y; discriminate.
      + destruct (vi_valid_reg i); discriminate.
      + discriminate.
      + destruct (vi_valid_reg i && negb (vi_ctr_reg i <=? vi_free i)); discriminate.
    - unfold i', vi_step. destruct (vi_state i) eqn:Es; cbn [vi_state vi_valid_buff vi_ctr_buff].
      + destruct (vi_valid_buff i) eqn:Eb; cbn [andb].
        * destruct (vi_ctr_buff i <=? vi_free i); intros X Y; try discriminate; auto.
        * destruct (vi_valid_reg i) eqn:Er; intros X Y; discriminate.
      + destruct (vi_valid_reg i); discriminate.
      + discriminate.
      + destruct (vi_valid_reg i) eqn:Er; cbn [andb]; [|discriminate]. destruct (vi_ctr_reg i <=? vi_free i); cbn [negb]; [discriminate|]. auto.
    - intros X Y. rewrite A4. revert X Y. unfold i', vi_step, vi_inc. destruct (vi_state i) eqn:Es; cbn [vi_state vi_valid_buff].
      + destruct (vi_valid_buff i) eqn:Eb; cbn [andb].
        * destruct (vi_ctr_buff i <=? vi_free i) eqn:E; intros X Y; [discriminate|]. specialize (B4 eq_refl eq_refl).
          assert (Es' : vi_start i = true) by (destruct (vi_start i) eqn:E'; [reflexivity|destruct (I3 eq_refl) as (_ & Z & _); congruence]). specialize (I4 Es'). lia.
        * destruct (vi_valid_reg i); intros X; discriminate.
      + destruct (vi_valid_reg i); discriminate.
      + discriminate.
      + destruct (vi_valid_reg i) eqn:Er; cbn [andb]; [|discriminate]. destruct (vi_ctr_reg i <=? vi_free i) eqn:E; cbn [negb]; [discriminate|]. intros _ _.
        assert (Es' : vi_start i = true) by (destruct (vi_start i) eqn:E'; [reflexivity|destruct (I3 eq_refl) as (Z & _); congruence]). specialize (I4 Es'). specialize (B2 (or_intror eq_refl)). lia.
    - intros X Y. exfalso. revert X Y. unfold i', vi_step. destruct (vi_state i) eqn:Es; cbn [vi_state vi_valid_buff].
      + destruct (vi_valid_buff i) eqn:Eb; cbn [andb].
        * destruct (vi_ctr_buff i <=? vi_free i); discriminate.
        * destruct (vi_valid_reg i); discriminate.
      + destruct (vi_valid_reg i); discriminate.
      + discriminate.
      + destruct (vi_valid_reg i) eqn:Er; cbn [andb]; [|discriminate]. destruct (vi_ctr_reg i <=? vi_free i); cbn [negb]; discriminate.
    - exact Hrd.
    - intros X Y. rewrite Hl, I1. revert X Y. unfold i', vi_step. destruct (vi_state i) eqn:Es; cbn [vi_state vi_valid_reg].
      + destruct (vi_valid_buff i) eqn:Eb; cbn [andb].
        * destruct (vi_ctr_buff i <=? vi_free i); discriminate.
        * destruct (B6 eq_refl eq_refl) as (_ & _ & ->). discriminate.
      + destruct (vi_valid_reg i); discriminate.
      + intros _ Y. specialize (B7 Y). rewrite orb_true_r, andb_true_r. destruct (ff_lvl f =? 0) eqn:E0; cbn [negb b2z]; lia.
      + intros _ Y. specialize (B7 Y). rewrite orb_true_r, andb_true_r. destruct (ff_lvl f =? 0) eqn:E0; cbn [negb b2z]; lia.
  Qed.
End step.
