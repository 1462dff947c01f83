(* The SyncFIFO is a bounded queue. *)
From Verif Require Import Bits M_Predictor M_Fifo P_Fifo M_SyncFifo.
Ltac Zify.zify_post_hook ::= idtac.

(* the queue, oldest first *)
Definition sq (D : Z) (s : sf_st) : list Z := fq (D + 1) (sf_stor s) (sf_cons s) (Z.to_nat (sf_lvl s)).
Definition sf_inv (D : Z) (s : sf_st) : Prop :=
  Z.of_nat (length (sf_stor s)) = D /\ 0 <= sf_cons s < D /\ 0 <= sf_lvl s <= D /\ sf_prod s = (sf_cons s + sf_lvl s) mod D.
Arguments sq : simpl never.
Arguments sf_inv : simpl never.
Arguments sf_step : simpl never.

Lemma sf_reset_inv D stor : 1 <= D -> Z.of_nat (length stor) = D -> sf_inv D (sf_reset stor) /\ sq D (sf_reset stor) = [].
Proof. intros H1 H2. repeat split; cbn; try lia. Qed.
Lemma sq_length D s : sf_inv D s -> Z.of_nat (length (sq D s)) = sf_lvl s.
Proof. intros (_ & _ & H & _). unfold sq. rewrite fq_length. lia. Qed.
Lemma sf_readable_q D s : sf_inv D s -> sf_readable s = match sq D s with [] => false | _ => true end.
Proof. intros I. pose proof (sq_length D s I) as L. unfold sf_readable. destruct (sq D s); cbn [length] in L; destruct (sf_lvl s =? 0) eqn:E; try reflexivity; lia. Qed.
Lemma sf_writable_q D s : sf_inv D s -> sf_writable D s = (Z.of_nat (length (sq D s)) <? D).
Proof. intros I. pose proof (sq_length D s I) as L. destruct I as (_ & _ & H & _). unfold sf_writable. rewrite L. destruct (sf_lvl s =? D) eqn:E; cbn; symmetry; lia. Qed.
Lemma sf_dout_q D s x r : sf_inv D s -> sq D s = x :: r -> sf_dout s = x.
Proof. intros _. unfold sq, sf_dout. destruct (Z.to_nat (sf_lvl s)); cbn [fq]; intros H; [discriminate|]. injection H as H _. exact H. Qed.
Lemma sf_incr_eq D p : sf_incr D p = fifo_incr (D + 1) p.
Proof. unfold sf_incr, fifo_incr. replace (D + 1 - 2) with (D - 1) by lia. reflexivity. Qed.

Lemma sf_step_ok D s we din re : 1 <= D -> sf_inv D s ->
  sf_inv D (sf_step D s we din re) /\
  sq D (sf_step D s we din re) = (if re then tl (sq D s) else sq D s) ++ (if we && sf_writable D s then [din] else []).
Proof.
  intros HD (H1 & H2 & H3 & H4).
  set (w := we && sf_writable D s). assert (Ew : sf_writable D s && we = w) by (unfold w; apply andb_comm).
  assert (Hw : w = true -> sf_lvl s < D) by (unfold w, sf_writable; intros E; apply andb_prop in E as [_ E]; lia).
  unfold sf_step. rewrite Ew, !sf_incr_eq. clearbody w. clear Ew. unfold sf_inv, sq, sf_readable. cbn [sf_stor sf_prod sf_cons sf_lvl].
  assert (Hp : 0 <= sf_prod s < D) by (rewrite H4; apply Z.mod_pos_bound; lia).
  assert (C1 : 0 <= sf_cons s < D + 1 - 1) by lia. pose proof (incr_range (D + 1) _ C1) as C2.
  assert (Ic : fifo_incr (D + 1) (sf_cons s) = (sf_cons s + 1) mod D) by (rewrite fifo_incr_mod by lia; f_equal; lia).
  assert (Ip : fifo_incr (D + 1) (sf_prod s) = (sf_cons s + (sf_lvl s + 1)) mod D).
  { rewrite fifo_incr_mod by lia. replace (D + 1 - 1) with D by lia. rewrite H4, mod_add_one by lia. f_equal; lia. }
  assert (U : Z.of_nat (length (upd (Z.to_nat (sf_prod s)) din (sf_stor s))) = D) by (rewrite upd_length; exact H1).
  assert (SN : forall p n, 0 <= p < D -> Z.of_nat n < D -> (p + Z.of_nat n) mod D = sf_prod s ->
     fq (D + 1) (upd (Z.to_nat (sf_prod s)) din (sf_stor s)) p (S n) = fq (D + 1) (sf_stor s) p n ++ [din]).
  { intros p n A B C. rewrite <- C. replace D with (D + 1 - 1) at 2 by lia. apply fq_snoc; lia. }
  destruct (sf_lvl s =? 0) eqn:E0; cbn [negb andb].
  - assert (L0 : sf_lvl s = 0) by lia. destruct w; cbn [negb andb].
    + split; [repeat split; try lia; try exact U; exact Ip|].
      rewrite L0. change (Z.to_nat (0 + 1)) with 1%nat. rewrite (SN (sf_cons s) 0%nat ltac:(lia) ltac:(lia) ltac:(rewrite H4, L0; reflexivity)). cbn. destruct re; reflexivity.
    + split; [repeat split; try lia; assumption|]. rewrite L0. cbn. destruct re; reflexivity.
  - assert (Lp : 0 < sf_lvl s) by lia. destruct re, w; cbn [negb andb].
    + split; [repeat split; try lia; try exact U; rewrite Ip, Ic, Z.add_mod_idemp_l by lia; f_equal; lia|].
      replace (Z.to_nat (sf_lvl s)) with (S (Z.to_nat (sf_lvl s - 1))) by lia. rewrite SN; [reflexivity|lia|lia|].
      rewrite Ic, Z.add_mod_idemp_l, H4 by lia. f_equal. lia.
    + split; [repeat split; try lia; try exact H1; rewrite H4, Ic, Z.add_mod_idemp_l by lia; f_equal; lia|].
      rewrite app_nil_r. replace (Z.to_nat (sf_lvl s)) with (S (Z.to_nat (sf_lvl s - 1))) by lia. reflexivity.
    + specialize (Hw eq_refl). split; [repeat split; try lia; try exact U; exact Ip|].
      replace (Z.to_nat (sf_lvl s + 1)) with (S (Z.to_nat (sf_lvl s))) by lia. apply SN; [lia|lia|]. rewrite H4. f_equal. lia.
    + split; [repeat split; try lia; assumption|]. rewrite app_nil_r. reflexivity.
Qed.
