(* SyncFIFOBuffered refines a bounded queue. *)
From Verif Require Import Bits M_Predictor M_Fifo.

Lemma upd_length {A} i (x : A) l : length (upd i x l) = length l.
Proof. revert i; induction l as [|y l IH]; intros [|i]; cbn; auto. Qed.

Lemma nth_upd_eq {A} i (x d : A) l : (i < length l)%nat -> nth i (upd i x l) d = x.
Proof. revert i; induction l as [|y l IH]; intros [|i] H; cbn in *; try lia; auto. apply IH; lia. Qed.

Lemma nth_upd_ne {A} i j (x d : A) l : i <> j -> nth j (upd i x l) d = nth j l d.
Proof.
  revert i j; induction l as [|y l IH]; intros [|i] [|j] H; cbn in *; auto; try lia.
Qed.

(* n items of the storage starting at pointer p, wrapping at D-1 *)
Fixpoint fq (D : Z) (stor : list Z) (p : Z) (n : nat) : list Z :=
  match n with
  | O => []
  | S k => nth (Z.to_nat p) stor 0 :: fq D stor (fifo_incr D p) k
  end.

(* abstraction: the queue, oldest first *)
Definition fifo_q (D : Z) (s : fifo_st) : list Z :=
  (if ff_rd s then [ff_dout s] else []) ++ fq D (ff_stor s) (ff_cons s) (Z.to_nat (ff_lvl s)).

Definition fifo_inv (D : Z) (s : fifo_st) : Prop :=
  Z.of_nat (length (ff_stor s)) = D - 1 /\
  0 <= ff_cons s < D - 1 /\ 0 <= ff_lvl s <= D - 1 /\
  ff_prod s = (ff_cons s + ff_lvl s) mod (D - 1).

Lemma fifo_incr_mod D p : 0 <= p < D - 1 -> fifo_incr D p = (p + 1) mod (D - 1).
Proof.
  intros H. unfold fifo_incr. destruct (p =? D - 2) eqn:E.
  - replace (p + 1) with (D - 1) by lia. rewrite Z.mod_same; lia.
  - rewrite Z.mod_small; lia.
Qed.

Lemma fq_length D stor p n : length (fq D stor p n) = n.
Proof. revert p; induction n; intros; cbn; auto. Qed.

Lemma incr_range D p : 0 <= p < D - 1 -> 0 <= fifo_incr D p < D - 1.
Proof. intros. unfold fifo_incr. destruct (p =? D - 2) eqn:E; lia. Qed.

(* appending at the write pointer *)
Lemma fq_snoc D stor p n x : 0 <= p < D - 1 -> Z.of_nat n < D - 1 ->
  Z.of_nat (length stor) = D - 1 ->
  fq D (upd (Z.to_nat ((p + Z.of_nat n) mod (D - 1))) x stor) p (S n) = fq D stor p n ++ [x].
Proof.
  intros Hp Hn Hl. revert p Hp Hn. induction n as [|n IH]; intros p Hp Hn.
  - cbn. rewrite Z.add_0_r, Z.mod_small by lia. rewrite nth_upd_eq by lia. reflexivity.
  - cbn [fq app]. f_equal.
    + rewrite nth_upd_ne; auto.
      assert (0 <= (p + Z.of_nat (S n)) mod (D - 1) < D - 1) by (apply Z.mod_pos_bound; lia).
      intro Heq. apply Z2Nat.inj in Heq; try lia.
      destruct (Z_lt_le_dec (p + Z.of_nat (S n)) (D - 1)).
      * rewrite Z.mod_small in Heq by lia. lia.
      * assert ((p + Z.of_nat (S n)) mod (D - 1) = p + Z.of_nat (S n) - (D - 1)).
        { rewrite <- (Z.mod_small (p + Z.of_nat (S n) - (D - 1)) (D - 1)) by lia.
          rewrite <- (Z.mod_add (p + Z.of_nat (S n) - (D - 1)) 1 (D - 1)) by lia. f_equal; lia. }
        lia.
    + rewrite <- IH; [|apply incr_range; lia|lia].
      cbn [fq].
      replace ((fifo_incr D p + Z.of_nat n) mod (D - 1)) with ((p + Z.of_nat (S n)) mod (D - 1)); [reflexivity|].
      rewrite fifo_incr_mod by lia. rewrite Z.add_mod_idemp_l by lia. f_equal; lia.
Qed.

Lemma fifo_reset_inv D stor dout : 2 <= D -> Z.of_nat (length stor) = D - 1 ->
  fifo_inv D (fifo_reset stor dout).
Proof. intros H1 H2. repeat split; cbn; try lia. Qed.

Lemma fifo_level_q D s : fifo_inv D s -> fifo_level s = Z.of_nat (length (fifo_q D s)).
Proof.
  intros (H1 & H2 & H3 & H4). unfold fifo_level, fifo_q. rewrite app_length, fq_length.
  destruct (ff_rd s); cbn [length b2z]; lia.
Qed.

Definition fifo_take (re : bool) (s : fifo_st) (q : list Z) : list Z :=
  if re && ff_rd s then tl q else q.

Lemma mod_add_one a m : 0 < m -> (a mod m + 1) mod m = (a + 1) mod m.
Proof. intros. rewrite Z.add_mod_idemp_l by lia. reflexivity. Qed.

Lemma fifo_step_ok D s we din re : 3 <= D -> fifo_inv D s ->
  fifo_inv D (fifo_step D s we din re) /\
  fifo_q D (fifo_step D s we din re) =
    fifo_take re s (fifo_q D s) ++ (if we && fifo_writable D s then [din] else []).
Proof.
  intros HD (H1 & H2 & H3 & H4).
  unfold fifo_step, fifo_take.
  set (w := fifo_writable D s && we).
  assert (Hw : we && fifo_writable D s = w) by (unfold w; apply andb_comm). rewrite Hw.
  assert (Hw2 : w = true -> ff_lvl s < D - 1).
  { unfold w, fifo_writable. intros E. apply andb_prop in E as [E _]. lia. }
  clearbody w. clear Hw.
  assert (Hprod : 0 <= ff_prod s < D - 1) by (rewrite H4; apply Z.mod_pos_bound; lia).
  assert (Hincp : fifo_incr D (ff_prod s) = (ff_cons s + (ff_lvl s + 1)) mod (D - 1)).
  { rewrite fifo_incr_mod by lia. rewrite H4, mod_add_one by lia. f_equal; lia. }
  assert (Hupd : Z.of_nat (length (upd (Z.to_nat (ff_prod s)) din (ff_stor s))) = D - 1)
    by (rewrite upd_length; exact H1).
  assert (Hincc := incr_range D (ff_cons s) H2).
  assert (Hincm := fifo_incr_mod D (ff_cons s) H2).
  destruct (ff_lvl s =? 0) eqn:E0; cbn [negb andb].
  - (* empty unbuffered part *)
    assert (Hl0 : ff_lvl s = 0) by lia.
    split.
    + repeat split; cbn [ff_stor ff_cons ff_lvl ff_prod]; destruct w; cbn [negb andb]; try lia; try assumption.
    + unfold fifo_q; cbn [ff_stor ff_cons ff_lvl ff_prod ff_rd ff_dout].
      rewrite Hl0. cbn [Z.to_nat fq]. rewrite app_nil_r.
      destruct w; cbn [andb negb].
      * replace (Z.to_nat (0 + 1)) with 1%nat by lia. rewrite H4, Hl0.
        pose proof (fq_snoc D (ff_stor s) (ff_cons s) 0 din H2 ltac:(lia) H1) as Hs.
        cbn [Z.of_nat] in Hs. rewrite Hs. cbn [fq app].
        destruct re, (ff_rd s); reflexivity.
      * cbn [fq]. destruct re, (ff_rd s); reflexivity.
  - assert (Hpos : 0 < ff_lvl s) by lia.
    destruct (negb (ff_rd s) || re) eqn:Eu; cbn [negb andb].
    + (* head moves to the output register *)
      assert (Hcat : forall st, fq D st (ff_cons s) (Z.to_nat (ff_lvl s)) =
                nth (Z.to_nat (ff_cons s)) st 0 :: fq D st (fifo_incr D (ff_cons s)) (Z.to_nat (ff_lvl s - 1))).
      { intros. replace (Z.to_nat (ff_lvl s)) with (S (Z.to_nat (ff_lvl s - 1))) by lia. reflexivity. }
      split.
      * repeat split; cbn [ff_stor ff_cons ff_lvl ff_prod]; destruct w; cbn [negb andb]; try lia; try assumption.
        -- rewrite Hincp, Hincm. rewrite Z.add_mod_idemp_l by lia. f_equal; lia.
        -- rewrite Hincm, H4. rewrite Z.add_mod_idemp_l by lia. f_equal; lia.
      * unfold fifo_q; cbn [ff_stor ff_cons ff_lvl ff_prod ff_rd ff_dout].
        rewrite Hcat.
        assert (Htl : (if re && ff_rd s then tl ((if ff_rd s then [ff_dout s] else []) ++
                   nth (Z.to_nat (ff_cons s)) (ff_stor s) 0 :: fq D (ff_stor s) (fifo_incr D (ff_cons s)) (Z.to_nat (ff_lvl s - 1)))
                 else (if ff_rd s then [ff_dout s] else []) ++
                   nth (Z.to_nat (ff_cons s)) (ff_stor s) 0 :: fq D (ff_stor s) (fifo_incr D (ff_cons s)) (Z.to_nat (ff_lvl s - 1)))
               = nth (Z.to_nat (ff_cons s)) (ff_stor s) 0 :: fq D (ff_stor s) (fifo_incr D (ff_cons s)) (Z.to_nat (ff_lvl s - 1))).
        { destruct re, (ff_rd s); cbn in *; try reflexivity; discriminate. }
        rewrite Htl. clear Htl. cbn [app].
        destruct w; cbn [andb negb].
        -- f_equal.
           pose proof (fq_snoc D (ff_stor s) (fifo_incr D (ff_cons s)) (Z.to_nat (ff_lvl s - 1)) din Hincc) as Hs.
           specialize (Hw2 eq_refl). specialize (Hs ltac:(lia) H1).
           replace (S (Z.to_nat (ff_lvl s - 1))) with (Z.to_nat (ff_lvl s)) in Hs by lia.
           rewrite <- Hs. f_equal. f_equal. f_equal.
           rewrite H4, Hincm. rewrite Z.add_mod_idemp_l by lia. f_equal. lia.
        -- rewrite app_nil_r. reflexivity.
    + apply orb_false_elim in Eu as [Er Ere]. subst re. apply negb_false_iff in Er. rewrite Er.
      cbn [andb].
      split.
      * repeat split; cbn [ff_stor ff_cons ff_lvl ff_prod]; destruct w; cbn [negb andb]; try lia; try assumption.
        all: try (specialize (Hw2 eq_refl); lia).
      * unfold fifo_q; cbn [ff_stor ff_cons ff_lvl ff_prod ff_rd ff_dout]. rewrite Er.
        cbn [app]. f_equal. destruct w; cbn [andb negb].
        -- specialize (Hw2 eq_refl).
           pose proof (fq_snoc D (ff_stor s) (ff_cons s) (Z.to_nat (ff_lvl s)) din H2 ltac:(lia) H1) as Hs.
           replace (S (Z.to_nat (ff_lvl s))) with (Z.to_nat (ff_lvl s + 1)) in Hs by lia.
           rewrite <- Hs. f_equal. f_equal. f_equal. rewrite H4. f_equal. lia.
        -- rewrite app_nil_r. reflexivity.
Qed.

Lemma fifo_head D s : ff_rd s = true -> exists r, fifo_q D s = ff_dout s :: r.
Proof. intros H. unfold fifo_q. rewrite H. eexists; reflexivity. Qed.

(* an item stored but not yet at the output appears there in the next cycle *)
Lemma fifo_step_rd D s we din re :
  ff_rd (fifo_step D s we din re) =
    negb (ff_lvl s =? 0) && (negb (ff_rd s) || re) || (ff_rd s && negb re).
Proof.
  unfold fifo_step; cbn [ff_rd].
  destruct (ff_lvl s =? 0), (ff_rd s), re; reflexivity.
Qed.

Lemma fifo_writable_level D s : fifo_inv D s -> fifo_level s <= D - 2 -> fifo_writable D s = true.
Proof.
  intros (H1 & H2 & H3 & H4) H. unfold fifo_writable, fifo_level, b2z in *.
  destruct (ff_rd s); lia.
Qed.

(* ---- packed items ---- *)
Section Items.
  Variables db cb : Z.
  Hypothesis Hdb : 0 <= db.
  Hypothesis Hcb : 0 <= cb.

  Lemma item_enc_pack enc ctr e : 0 <= enc < 2 ^ db ->
    item_enc db cb (item_pack db cb enc ctr e) = enc.
  Proof.
    intros H. unfold item_enc, item_pack, slice.
    rewrite Z.sub_0_r, Z.pow_0_r, Z.div_1_r.
    rewrite (trunc_id db enc H). rewrite Z.mul_comm, Z.mod_add.
    - apply Z.mod_small; lia.
    - pose proof (pow2_pos db Hdb); lia.
  Qed.

  Lemma item_ctr_pack enc ctr e : 0 <= enc < 2 ^ db -> 0 <= ctr < 2 ^ cb ->
    item_ctr db cb (item_pack db cb enc ctr e) = ctr.
  Proof.
    intros H Hc. unfold item_ctr, item_pack, slice.
    rewrite (trunc_id db enc H), (trunc_id cb ctr Hc).
    pose proof (pow2_pos db Hdb). pose proof (pow2_pos cb Hcb).
    rewrite (Z.mul_comm (2 ^ db)), Z.div_add by lia.
    rewrite Z.div_small by lia. rewrite Z.add_0_l.
    replace (db + cb - db) with cb by lia.
    rewrite (Z.mul_comm (2 ^ cb)), Z.mod_add by lia. apply Z.mod_small; lia.
  Qed.

  Lemma item_end_pack enc ctr e : 0 <= enc < 2 ^ db -> 0 <= ctr < 2 ^ cb ->
    item_end db cb (item_pack db cb enc ctr e) = e.
  Proof.
    intros H Hc. unfold item_end, item_pack, slice.
    rewrite (trunc_id db enc H), (trunc_id cb ctr Hc).
    pose proof (pow2_pos db Hdb). pose proof (pow2_pos cb Hcb).
    rewrite pow2_add by lia. rewrite <- Z.div_div by lia.
    rewrite (Z.mul_comm (2 ^ db)), Z.div_add by lia.
    rewrite (Z.div_small enc) by lia. rewrite Z.add_0_l.
    rewrite (Z.mul_comm (2 ^ cb)), Z.div_add by lia.
    rewrite Z.div_small by lia. rewrite Z.add_0_l.
    replace (db + cb + 1 - (db + cb)) with 1 by lia.
    destruct e; reflexivity.
  Qed.
End Items.
