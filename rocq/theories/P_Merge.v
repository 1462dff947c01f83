(* merge.py: the merge tree concatenates, level by level, with no loss. *)
From Verif Require Import Bits M_Merge.

Definition item_bits (x : Z * Z) : list bool := bitsz (snd x) (fst x).
Definition items_bits (l : list (Z * Z)) : list bool := flat_map item_bits l.
Definition item_ok (w : Z) (x : Z * Z) : Prop := 0 <= snd x <= w /\ 0 <= fst x < 2 ^ snd x.
Definition sum_ctr (l : list (Z * Z)) : Z := fold_right (fun x a => snd x + a) 0 l.

(* the data computed by one merger *)
Definition merge2 (w : Z) (a b : Z * Z) : Z * Z :=
  (trunc (2 * w) (Z.lor (Z.shiftl (trunc w (fst a)) (trunc (clog2 (w + 1)) (snd b))) (trunc w (fst b))),
   trunc (clog2 (2 * w + 1)) (trunc (clog2 (w + 1)) (snd a) + trunc (clog2 (w + 1)) (snd b))).

Fixpoint pure_level (w : Z) (l : list (Z * Z)) : list (Z * Z) :=
  match l with
  | a :: b :: r => merge2 w a b :: pure_level w r
  | _ => []
  end.

Lemma merge2_ok w a b : 0 <= w -> item_ok w a -> item_ok w b ->
  item_ok (2 * w) (merge2 w a b) /\
  item_bits (merge2 w a b) = item_bits a ++ item_bits b /\
  snd (merge2 w a b) = snd a + snd b.
Proof.
  destruct a as [e1 c1], b as [e2 c2]. unfold item_ok, item_bits, merge2. cbn [fst snd].
  intros Hw [Hc1 He1] [Hc2 He2].
  assert (H1 : 2 ^ c1 <= 2 ^ w) by (apply pow2_le; lia).
  assert (H2 : 2 ^ c2 <= 2 ^ w) by (apply pow2_le; lia).
  rewrite !(trunc_clog2 (w + 1)) by lia.
  rewrite (trunc_clog2 (2 * w + 1)) by lia.
  rewrite !(trunc_id w) by lia.
  rewrite lor_shl_add by lia.
  pose proof (cat_bound c1 c2 e1 e2 ltac:(lia) ltac:(lia) He1 He2) as Hb.
  assert (2 ^ (c1 + c2) <= 2 ^ (2 * w)) by (apply pow2_le; lia).
  rewrite trunc_id by lia.
  rewrite bitsz_cat by lia. repeat split; lia.
Qed.

Lemma pair_ind2 {A} (P : list A -> Prop) :
  P [] -> (forall a, P [a]) -> (forall a b r, P r -> P (a :: b :: r)) -> forall l, P l.
Proof.
  intros H0 H1 H2. fix F 1. intros [|a [|b r]]; [exact H0|apply H1|apply H2; apply F].
Qed.

Lemma pure_level_ok w l : 0 <= w -> Nat.even (length l) = true -> Forall (item_ok w) l ->
  Forall (item_ok (2 * w)) (pure_level w l) /\
  items_bits (pure_level w l) = items_bits l /\
  sum_ctr (pure_level w l) = sum_ctr l /\
  (length l = 2 * length (pure_level w l))%nat.
Proof.
  intros Hw. induction l as [|a|a b r IH] using pair_ind2; intros Hl HF.
  - repeat split; constructor.
  - discriminate.
  - inversion HF as [|? ? Ha HF1]; subst. inversion HF1 as [|? ? Hb HF2]; subst.
    destruct (IH Hl HF2) as (I1 & I2 & I3 & I4).
    destruct (merge2_ok w a b Hw Ha Hb) as (M1 & M2 & M3).
    cbn [pure_level]. repeat split.
    + constructor; assumption.
    + unfold items_bits in *. cbn [flat_map]. rewrite I2, M2, <- app_assoc. reflexivity.
    + cbn [sum_ctr fold_right] in *. fold (sum_ctr (pure_level w r)) (sum_ctr r). lia.
    + cbn [length]. lia.
Qed.

(* n levels *)
Fixpoint pure_levels (n : nat) (w : Z) (l : list (Z * Z)) : list (Z * Z) :=
  match n with O => l | S k => pure_levels k (2 * w) (pure_level w l) end.

Lemma pow2_even n : Nat.even (Nat.pow 2 (S n)) = true.
Proof. cbn [Nat.pow]. rewrite Nat.even_mul. reflexivity. Qed.

Lemma pure_levels_ok n w l : 0 <= w -> length l = Nat.pow 2 n -> Forall (item_ok w) l ->
  exists x, pure_levels n w l = [x] /\ item_bits x = items_bits l /\ snd x = sum_ctr l /\
            0 <= fst x < 2 ^ snd x /\ 0 <= snd x.
Proof.
  revert w l. induction n as [|n IH]; intros w l Hw Hl HF.
  - destruct l as [|x [|y r]]; cbn in Hl; try lia. inversion HF as [|? ? Hx _]; subst.
    exists x. unfold items_bits, sum_ctr, item_ok in *. cbn. rewrite app_nil_r.
    repeat split; try lia.
  - destruct (pure_level_ok w l Hw) as (P1 & P2 & P3 & P4); [rewrite Hl; apply pow2_even|assumption|].
    destruct (IH (2 * w) (pure_level w l)) as (x & X1 & X2 & X3 & X4 & X5); [lia| |assumption|].
    + cbn [Nat.pow] in Hl. lia.
    + exists x. cbn [pure_levels]. rewrite <- P2, <- P3. auto 10.
Qed.

(* ---------- the registers ---------- *)
Definition regs_of (l : list mg_st) : list (Z * Z) := map (fun m => (mg_enc m, mg_ctr m)) l.

Definition level_rel (l : list mg_st) (g : option (list (Z * Z) * bool)) : Prop :=
  match g with
  | Some (its, e) => regs_of l = its /\ Forall (fun m => mg_valid m = true /\ mg_end m = e) l
  | None => Forall (fun m => mg_valid m = false) l
  end.

Definition ins_rel (ins : list mg_in) (g : option (list (Z * Z) * bool)) : Prop :=
  match g with
  | Some (its, e) => ins = pair_up its true e
  | None => Forall (fun i => mi_valid i = false) ins
  end.

Definition gmap (f : list (Z * Z) -> list (Z * Z)) (g : option (list (Z * Z) * bool)) :=
  match g with Some (its, e) => Some (f its, e) | None => None end.

Lemma level_step_rel w l ins g : length l = length ins -> ins_rel ins g ->
  level_rel (level_step w l ins) (gmap (pure_level w) g).
Proof.
  destruct g as [[its e]|]; cbn [ins_rel gmap level_rel].
  - intros Hl ->. revert l Hl. induction its as [|[e1 c1]|[e1 c1] [e2 c2] r IH] using pair_ind2; intros l Hl.
    + destruct l; [split; [reflexivity|constructor]|discriminate].
    + destruct l; [split; [reflexivity|constructor]|discriminate].
    + destruct l as [|m l]; [discriminate|]. cbn [pair_up length] in Hl.
      destruct (IH l ltac:(congruence)) as [I1 I2].
      cbn [pair_up level_step pure_level]. split.
      * unfold regs_of in *. cbn [map]. rewrite I1. reflexivity.
      * constructor; [split; reflexivity|assumption].
  - revert l. induction ins as [|i ins IH]; intros [|m l] Hl HF; cbn [level_step]; try constructor; try discriminate.
    + inversion HF; subst. cbn. assumption.
    + inversion HF; subst. apply IH; [cbn in Hl; congruence|assumption].
Qed.

Lemma pair_mg_rel l g : Nat.even (length l) = true -> level_rel l g -> ins_rel (pair_mg l) g.
Proof.
  destruct g as [[its e]|]; cbn [ins_rel level_rel].
  - intros He [<- HF]. revert He HF. induction l as [|a|a b r IH] using pair_ind2; intros He HF.
    + reflexivity.
    + discriminate.
    + inversion HF as [|? ? [Ha1 Ha2] HF1]; subst. inversion HF1 as [|? ? [Hb1 Hb2] HF2]; subst.
      cbn [regs_of map pair_up pair_mg]. rewrite Ha1. f_equal. apply (IH He HF2).
  - induction l as [|a|a b r IH] using pair_ind2; intros He HF; cbn [pair_mg]; try constructor.
    + inversion HF; assumption.
    + inversion HF as [|? ? Ha HF1]; subst. inversion HF1; subst. apply IH; assumption.
Qed.

Lemma pair_mg_length l n : length l = (2 * n)%nat -> length (pair_mg l) = n.
Proof.
  revert n. induction l as [|a|a b r IH] using pair_ind2; intros n H; cbn in *; try lia.
  destruct n; [lia|]. rewrite (IH n) by lia. reflexivity.
Qed.

Lemma pair_up_length l v e n : length l = (2 * n)%nat -> length (pair_up l v e) = n.
Proof.
  revert n. induction l as [|[a1 a2]|[a1 a2] [b1 b2] r IH] using pair_ind2; intros n H; cbn in *; try lia.
  destruct n; [lia|]. rewrite (IH n) by lia. reflexivity.
Qed.

(* level j holds the group that entered j+1 cycles ago; hist: most recent first *)
Fixpoint merge_rel (n : nat) (w : Z) (f : list (Z * Z) -> list (Z * Z)) (ls : merge_st)
    (hist : list (option (list (Z * Z) * bool))) : Prop :=
  match n, ls with
  | O, [] => True
  | S k, l :: r =>
      length l = Nat.pow 2 k /\
      level_rel l (gmap (fun x => pure_level w (f x)) (hd None hist)) /\
      merge_rel k (2 * w) (fun x => pure_level w (f x)) r (tl hist)
  | _, _ => False
  end.

Lemma gmap_gmap f h g : gmap f (gmap h g) = gmap (fun x => f (h x)) g.
Proof. destruct g as [[its e]|]; reflexivity. Qed.

Lemma level_step_length w l ins : length l = length ins -> length (level_step w l ins) = length l.
Proof. revert ins; induction l; intros [|i ins] H; cbn in *; try congruence. f_equal; auto. Qed.

Lemma levels_step_rel n w f ls hist ins g :
  (match n with O => True | S k => length ins = Nat.pow 2 k end) ->
  ins_rel ins (gmap f g) -> merge_rel n w f ls hist ->
  merge_rel n w f (levels_step w ls ins) (g :: hist).
Proof.
  revert w f ls hist ins g. induction n as [|n IH]; intros w f ls hist ins g Hl Hi HR.
  - destruct ls; [exact I|destruct HR].
  - destruct ls as [|l r]; [destruct HR|]. destruct HR as (H1 & H2 & H3).
    cbn [levels_step merge_rel hd tl].
    assert (Hll : length l = length ins) by congruence.
    repeat split.
    + rewrite level_step_length; assumption.
    + rewrite <- (gmap_gmap (pure_level w) f). apply level_step_rel; assumption.
    + destruct n as [|n].
      { destruct r; [exact I|destruct H3]. }

      assert (Hr : merge_rel (S n) (2 * w) (fun x => pure_level w (f x)) (levels_step (2 * w) r (pair_mg l)) (hd None hist :: tl hist)).
      { apply IH.
        - apply pair_mg_length. rewrite H1. cbn [Nat.pow]. lia.
        - apply pair_mg_rel; [rewrite H1; apply pow2_even|assumption].
        - assumption. }
      destruct r as [|l2 r2]; [destruct H3|]. destruct hist as [|h hist]; exact Hr.
Qed.

Lemma merge_init_rel n w f : merge_rel n w f (merge_init_levels n) [].
Proof.
  revert w f. induction n as [|n IH]; intros w f; cbn [merge_init_levels merge_rel]; [exact I|].
  repeat split.
  - apply repeat_length.
  - cbn [hd gmap level_rel]. apply Forall_forall. intros m Hm. apply repeat_spec in Hm. subst. reflexivity.
  - apply (IH (2 * w)).
Qed.

Lemma last_cons2 {A} (x y : A) l d : last (x :: y :: l) d = last (y :: l) d.
Proof. reflexivity. Qed.

(* the top register *)
Lemma merge_rel_top n w f ls hist : merge_rel (S n) w f ls hist ->
  level_rel (last ls []) (gmap (fun x => pure_levels (S n) w (f x)) (nth n hist None)) /\
  length (last ls []) = 1%nat.
Proof.
  revert w f ls hist. induction n as [|n IH]; intros w f ls hist HR.
  - destruct ls as [|l r]; [destruct HR|]. destruct HR as (H1 & H2 & H3).
    destruct r; [|destruct H3]. cbn [last]. destruct hist; split; assumption.
  - destruct ls as [|l r]; [destruct HR|]. destruct HR as (H1 & H2 & H3).
    destruct r as [|l2 r2]; [destruct H3|]. rewrite last_cons2.
    destruct (IH (2 * w) (fun x => pure_level w (f x)) (l2 :: r2) (tl hist) H3) as [I1 I2].
    split; [|assumption].
    destruct hist as [|h hist]; cbn [tl nth] in *; [destruct n; exact I1|exact I1].
Qed.

(* ---------- the whole tree ---------- *)
Definition mpad (ps : Z) (its : list (Z * Z)) := merge_pad ps its.

Lemma items_bits_pad l k : items_bits (l ++ repeat (0, 0) k) = items_bits l.
Proof.
  unfold items_bits. rewrite flat_map_app.
  assert (flat_map item_bits (repeat (0, 0) k) = []) as ->; [|apply app_nil_r].
  induction k; cbn; auto.
Qed.

Lemma sum_ctr_app a b : sum_ctr (a ++ b) = sum_ctr a + sum_ctr b.
Proof. unfold sum_ctr. induction a; cbn in *; lia. Qed.

Lemma sum_ctr_pad l k : sum_ctr (l ++ repeat (0, 0) k) = sum_ctr l.
Proof.
  rewrite sum_ctr_app. assert (sum_ctr (repeat (0, 0) k) = 0) as ->; [|lia].
  unfold sum_ctr. induction k; cbn in *; lia.
Qed.

Lemma merge_levels_fits ps : 1 <= ps -> (Z.to_nat ps <= Nat.pow 2 (Z.to_nat (merge_levels ps)))%nat.
Proof.
  intros H. destruct (clog2_spec ps H) as [H1 H2]. unfold merge_levels.
  apply Nat2Z.inj_le. rewrite Nat2Z.inj_pow. change (Z.of_nat 2) with 2.
  rewrite !Z2Nat.id by lia. exact H2.
Qed.

Lemma merge_pad_length ps its : 1 <= ps -> Z.of_nat (length its) = ps ->
  length (merge_pad ps its) = Nat.pow 2 (Z.to_nat (merge_levels ps)).
Proof.
  intros H Hl. unfold merge_pad. rewrite app_length, repeat_length.
  pose proof (merge_levels_fits ps H). lia.
Qed.

Lemma merge_pad_ok ps w its : 0 <= w -> Forall (item_ok w) its -> Forall (item_ok w) (merge_pad ps its).
Proof.
  intros Hw H. apply Forall_app. split; [assumption|].
  apply Forall_forall. intros x Hx. apply repeat_spec in Hx. subst. unfold item_ok; cbn. lia.
Qed.

Lemma sum_ctr_le w l : Forall (item_ok w) l -> 0 <= sum_ctr l <= w * Z.of_nat (length l).
Proof.
  intros H. induction H as [|x l [Hx _] _ IH]; cbn [sum_ctr fold_right length]; [lia|].
  fold (sum_ctr l). lia.
Qed.

(* value/count of the concatenation of items, as one item *)
Definition concat_item (its : list (Z * Z)) : Z * Z := (bval (items_bits its), sum_ctr its).

Lemma items_bits_length w its : Forall (item_ok w) its ->
  Z.of_nat (length (items_bits its)) = sum_ctr its.
Proof.
  intros H. induction H as [|x l [Hx _] _ IH]; [reflexivity|].
  unfold items_bits in *. cbn [flat_map sum_ctr fold_right]. fold (sum_ctr l).
  rewrite app_length, Nat2Z.inj_add, IH. unfold item_bits. rewrite bitsz_length by lia. reflexivity.
Qed.

Lemma merge_tree_out ps w its : 2 <= ps -> 0 <= w -> Z.of_nat (length its) = ps ->
  Forall (item_ok w) its ->
  exists x, pure_levels (Z.to_nat (merge_levels ps)) w (merge_pad ps its) = [x] /\
    (trunc (w * ps) (fst x), trunc (clog2 (w * ps + 1)) (snd x)) = concat_item its.
Proof.
  intros Hp Hw Hl HF.
  destruct (pure_levels_ok (Z.to_nat (merge_levels ps)) w (merge_pad ps its) Hw)
    as (x & X1 & X2 & X3 & X4 & X5).
  - apply merge_pad_length; lia.
  - apply merge_pad_ok; assumption.
  - exists x. split; [assumption|].
    unfold merge_pad in X2, X3. rewrite items_bits_pad in X2. rewrite sum_ctr_pad in X3.
    pose proof (sum_ctr_le w its HF) as Hs. rewrite Hl in Hs.
    rewrite (trunc_clog2 (w * ps + 1)) by lia.
    rewrite trunc_id.
    + unfold concat_item. rewrite <- X2, <- X3. unfold item_bits. rewrite bval_bitsz by lia.
      rewrite Z.mod_small by lia. reflexivity.
    + assert (2 ^ snd x <= 2 ^ (w * ps)) by (apply pow2_le; lia). lia.
Qed.

Lemma concat_item_ok w its : Forall (item_ok w) its ->
  item_bits (concat_item its) = items_bits its /\
  item_ok (w * Z.of_nat (length its)) (concat_item its).
Proof.
  intros HF. pose proof (items_bits_length w its HF) as Hl.
  pose proof (sum_ctr_le w its HF) as Hs.
  pose proof (bval_bound (items_bits its)) as Hb. rewrite Hl in Hb.
  unfold item_bits, concat_item, item_ok; cbn [fst snd]. split; [|split; [lia|lia]].
  unfold bitsz. rewrite <- Hl, Nat2Z.id. apply bitsn_bval.
Qed.
