(* signals.py: new_row / end_of_frame as functions of the number of accepted groups. *)
From Verif Require Import Bits M_Signals.

(* supported frame geometry: G groups of ps pixels per row, H rows *)
Definition geom (ps W H G : Z) : Prop :=
  1 <= ps /\ W = G * ps /\ 2 <= G /\ 1 <= H /\ 3 <= G * H /\ W < 2 ^ 16 /\ H < 2 ^ 16.

Definition sig_rel (ps W H G k : Z) (s : sig_st) : Prop :=
  sg_new_row s = (k mod G =? 0) /\
  sg_end_of_frame s = (G * H - 1 <=? k) /\
  sg_fsm s = (if k =? 0 then SIG_IDLE else if k <? G * H - 1 then SIG_LOOP else SIG_END) /\
  (1 <= k < G * H - 1 -> sg_width s = (G - k mod G) * ps /\ sg_height s = H - 1 - k / G).

Lemma sig_rel_init ps W H G : geom ps W H G -> sig_rel ps W H G 0 sig_init.
Proof.
  intros (H1 & H2 & H3 & H4 & H5 & H6 & H7).
  unfold sig_rel, sig_init; cbn [sg_new_row sg_end_of_frame sg_fsm sg_width sg_height].
  rewrite Z.mod_0_l by lia. repeat split; try lia.
Qed.

Lemma sig_step_idle ps s w h : sg_fsm s <> SIG_END -> sig_step ps s false w h = s.
Proof. unfold sig_step. destruct (sg_fsm s); intros; try reflexivity. congruence. Qed.

Lemma sig_step_gap ps W H G k s w h : sig_rel ps W H G k s -> 0 <= k ->
  sig_rel ps W H G k (sig_step ps s false w h).
Proof.
  intros (R1 & R2 & R3 & R4) Hk.
  unfold sig_step. destruct (sg_fsm s) eqn:E; try (repeat split; (assumption || apply R4; lia) || congruence).
  - unfold sig_rel; cbn [sg_new_row sg_end_of_frame sg_fsm sg_width sg_height].
    repeat split; try assumption; try (apply R4; lia).
    destruct (k =? 0) eqn:E1; [discriminate|]. destruct (k <? G * H - 1) eqn:E2; [discriminate|]. lia.
Qed.

Lemma succ_mod k G : 2 <= G -> 0 <= k ->
  (k + 1) mod G = (if k mod G =? G - 1 then 0 else k mod G + 1) /\
  (k + 1) / G = (if k mod G =? G - 1 then k / G + 1 else k / G).
Proof.
  intros HG Hk. pose proof (Z.div_mod k G ltac:(lia)) as Hd.
  pose proof (Z.mod_pos_bound k G ltac:(lia)) as Hm.
  destruct (k mod G =? G - 1) eqn:E.
  - assert (k + 1 = (k / G + 1) * G) as -> by nia.
    rewrite Z.mod_mul, Z.div_mul by lia. lia.
  - replace (k + 1) with ((k mod G + 1) + (k / G) * G) by nia.
    rewrite Z.mod_add, Z.div_add by lia. rewrite Z.mod_small, Z.div_small by lia. lia.
Qed.

Lemma sig_step_acc ps W H G k s : geom ps W H G -> sig_rel ps W H G k s -> 0 <= k < G * H - 1 ->
  sig_rel ps W H G (k + 1) (sig_step ps s true W H).
Proof.
  intros (H1 & H2 & H3 & H4 & H5 & H6 & H7) (R1 & R2 & R3 & R4) Hk.
  destruct (succ_mod k G ltac:(lia) ltac:(lia)) as [Sm Sd].
  pose proof (Z.mod_pos_bound k G ltac:(lia)) as Hm.
  pose proof (Z.div_mod k G ltac:(lia)) as Hd.
  unfold sig_step. rewrite R3.
  destruct (k =? 0) eqn:E0.
  - assert (k = 0) by lia. subst k. cbn [Z.add] in *.
    rewrite Z.mod_0_l, Z.div_0_l in * by lia.
    unfold sig_rel; cbn [sg_new_row sg_end_of_frame sg_fsm sg_width sg_height Z.add].
    rewrite Sm, Sd. replace (0 =? G - 1) with false by lia.
    rewrite R2. replace (1 <? G * H - 1) with true by lia.
    repeat split; try lia.
    + rewrite trunc_id by nia. nia.
    + rewrite trunc_id by lia. lia.
  - replace (k <? G * H - 1) with true by lia. specialize (R4 ltac:(lia)). destruct R4 as [Rw Rh].
    assert (HkG : k / G <= H - 1) by (apply Z.lt_succ_r; apply Z.div_lt_upper_bound; nia).
    assert (HkG0 : 0 <= k / G) by (apply Z.div_pos; lia).
    assert (Hrow : (sg_width s =? ps) = (k mod G =? G - 1)).
    { rewrite Rw. destruct (k mod G =? G - 1) eqn:E.
      - replace (G - k mod G) with 1 by lia. lia.
      - assert (2 <= G - k mod G) by lia. nia. }
    assert (Hfin : ((sg_height s =? 0) && (sg_width s =? 2 * ps)) = (k =? G * H - 2)).
    { rewrite Rw, Rh. destruct (k =? G * H - 2) eqn:E.
      - assert (k = (H - 1) * G + (G - 2)) by nia.
        assert (k / G = H - 1) by (symmetry; apply Z.div_unique with (G - 2); lia).
        assert (k mod G = G - 2) by (symmetry; apply Z.mod_unique with (H - 1); lia).
        nia.
      - destruct (H - 1 - k / G =? 0) eqn:E1; [|reflexivity]. cbn [andb].
        assert (k / G = H - 1) by lia.
        assert (G - k mod G <> 2) by nia. nia. }
    cbv zeta. rewrite Hrow, Hfin.
    unfold sig_rel; cbn [sg_new_row sg_end_of_frame sg_fsm sg_width sg_height].
    rewrite Sm, Sd, R2. replace (k + 1 =? 0) with false by lia.
    destruct (k =? G * H - 2) eqn:Ef.
    + replace (k + 1 <? G * H - 1) with false by lia.
      repeat split; try lia.
      destruct (k mod G =? G - 1) eqn:E; lia.
    + replace (k + 1 <? G * H - 1) with true by lia.
      repeat split; try lia.
      * destruct (k mod G =? G - 1) eqn:E; lia.
      * destruct (k mod G =? G - 1) eqn:E.
        -- rewrite trunc_id by nia. nia.
        -- rewrite Rw. rewrite trunc_id by nia. nia.
      * destruct (k mod G =? G - 1) eqn:E.
        -- rewrite Rh. rewrite trunc_id; [lia|].
           assert (k / G < H - 1); [|lia].
           assert (k <> G * H - 1) by lia.
           assert (k / G <> H - 1); [|lia]. intros Hx. rewrite Hx in Hd. nia.
        -- lia.
Qed.

(* after the last group nothing more is claimed than that end_of_frame stays set *)
Lemma sig_end_stays ps s v w h : sg_fsm s = SIG_END -> sg_end_of_frame s = true ->
  sg_fsm (sig_step ps s v w h) = SIG_END /\ sg_end_of_frame (sig_step ps s v w h) = true.
Proof. intros H1 H2. unfold sig_step. rewrite H1. split; reflexivity. Qed.
