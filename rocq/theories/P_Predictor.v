(* Both predictors implement predictor 1 with four interleaved components. *)
From Verif Require Import Bits Spec M_Predictor P_Fifo P_Signals.

Definition zn {A} (l : list A) (i : Z) (d : A) : A := nth (Z.to_nat i) l d.

Definition ginit (bd ps : Z) : list Z := repeat (2 ^ (bd - 1)) (Z.to_nat ps).

(* group number m of A, or the initial value for m<0 *)
Definition agrp (bd ps : Z) (A : list (list Z)) (m : Z) : list Z :=
  if m <? 0 then ginit bd ps else zn A m [].

(* prediction for group number k when A lists the earlier groups *)
Definition gpred (bd ps G : Z) (A : list (list Z)) (k : Z) : list Z :=
  if k mod G <? 4 / ps then agrp bd ps A (k - G) else agrp bd ps A (k - 4 / ps).


Lemma agrp_snoc bd ps A x m : m < len A -> agrp bd ps (A ++ [x]) m = agrp bd ps A m.
Proof.
  unfold agrp, zn, len. intros H. destruct (m <? 0) eqn:E; [reflexivity|].
  apply app_nth1. lia.
Qed.

Lemma agrp_last bd ps A x : agrp bd ps (A ++ [x]) (len A) = x.
Proof.
  unfold agrp, zn, len. replace (Z.of_nat (length A) <? 0) with false by lia.
  rewrite Nat2Z.id, app_nth2 by lia. rewrite Nat.sub_diag. reflexivity.
Qed.

Lemma zn_repeat {A} (x : A) n i : 0 <= i < Z.of_nat n -> forall d, zn (repeat x n) i d = x.
Proof.
  intros H d. unfold zn. apply (repeat_spec n). apply nth_In. rewrite repeat_length. lia.
Qed.

Lemma zn_upd_eq {A} i (x d : A) l : 0 <= i < len l -> zn (upd (Z.to_nat i) x l) i d = x.
Proof. unfold zn, len. intros. apply nth_upd_eq. lia. Qed.
Lemma zn_upd_ne {A} i j (x d : A) l : 0 <= i -> 0 <= j -> i <> j ->
  zn (upd (Z.to_nat i) x l) j d = zn l j d.
Proof. unfold zn. intros. apply nth_upd_ne. lia. Qed.
Lemma len_upd {A} i (x : A) l : len (upd i x l) = len l.
Proof. unfold len. rewrite upd_length. reflexivity. Qed.
Lemma zn_dflt {A} (l : list A) i d d' : 0 <= i < len l -> zn l i d = zn l i d'.
Proof. unfold zn, len. intros. apply nth_indep. lia. Qed.

(* ---- one or two pixels per cycle ---- *)
Definition p12_rel (bd ps G : Z) (A : list (list Z)) (s : p12_st) : Prop :=
  let k := len A in let c := k mod G in let gb := 4 / ps in
  p12_buff_ctr s = k mod gb /\
  len (p12_buffs s) = gb /\ len (p12_lbuffs s) = gb /\
  (forall i, 1 <= i <= gb -> zn (p12_buffs s) ((k - i) mod gb) [] = agrp bd ps A (k - i)) /\
  p12_lbuff_ctr s = (if c <? gb then c else 0) /\
  p12_new_row_reg s = ((0 <? c) && (c <? gb)) /\
  (forall i, 0 <= i < gb -> zn (p12_lbuffs s) i [] =
       (if i <? c then agrp bd ps A (k - c + i) else agrp bd ps A (k - c - G + i))).

Lemma p12_rel_init bd ps G : ps = 1 \/ ps = 2 -> 4 / ps <= G -> p12_rel bd ps G [] (p12_init bd ps).
Proof.
  intros Hps HG. assert (Hgb : 1 <= 4 / ps <= 4) by (destruct Hps; subst; cbn; lia).
  unfold p12_rel, p12_init, p12_gb; cbn [p12_buff_ctr p12_buffs p12_lbuffs p12_lbuff_ctr p12_new_row_reg].
  change (len (@nil (list Z))) with 0. set (gb := 4 / ps) in *. clearbody gb.
  rewrite !Z.mod_0_l by lia.
  assert (Hlen : len (repeat (repeat (2 ^ (bd - 1)) (Z.to_nat ps)) (Z.to_nat gb)) = gb).
  { unfold len. rewrite repeat_length. lia. }
  repeat split; try lia.
  - intros i Hi. rewrite zn_repeat.
    + unfold agrp. replace (0 - i <? 0) with true by lia. reflexivity.
    + pose proof (Z.mod_pos_bound (0 - i) gb ltac:(lia)). lia.
  - destruct (0 <? gb); reflexivity.
  - intros i Hi. rewrite zn_repeat by lia. replace (i <? 0) with false by lia.
    unfold agrp. replace (0 - 0 - G + i <? 0) with true by lia. reflexivity.
Qed.

Lemma p12_step_gap bd ps G A s nr e px : p12_rel bd ps G A s ->
  p12_rel bd ps G A (p12_step ps s false nr e px).
Proof.
  intros (R1 & R2 & R2' & R3 & R4 & R5 & R6).
  unfold p12_rel, p12_step; cbn [p12_buff_ctr p12_buffs p12_lbuffs p12_lbuff_ctr p12_new_row_reg andb].
  repeat split; assumption.
Qed.

Lemma clog2_gb ps : ps = 1 \/ ps = 2 -> 2 ^ clog2 (4 / ps) = 4 / ps.
Proof. intros [->| ->]; reflexivity. Qed.

Lemma mod_diff_ne k i gb : 1 <= i < gb -> (k - i) mod gb <> k mod gb.
Proof.
  intros Hi Heq.
  assert (H : (k - (k - i)) mod gb = 0).
  { rewrite Zminus_mod, Heq, Z.sub_diag. apply Z.mod_0_l. lia. }
  replace (k - (k - i)) with i in H by lia. rewrite Z.mod_small in H; lia.
Qed.

Ltac Zify.zify_post_hook ::= idtac.

Lemma p12_step_acc bd ps G A s e px : ps = 1 \/ ps = 2 -> 4 / ps <= G -> 
  p12_rel bd ps G A s ->
  let s' := p12_step ps s true (len A mod G =? 0) e px in
  p12_rel bd ps G (A ++ [px]) s' /\
  p12_pixels_out s' = px /\ p12_predics_out s' = gpred bd ps G A (len A).
Proof.
  intros Hps HG (R1 & R2 & R2' & R3 & R4 & R5 & R6).
  assert (Hgb : 2 <= 4 / ps <= 4) by (destruct Hps; subst; cbn; lia).
  assert (Hcl := clog2_gb ps Hps).
  cbv zeta.
  unfold p12_step, p12_gb; cbn [p12_buff_ctr p12_buffs p12_lbuffs p12_lbuff_ctr p12_new_row_reg
     p12_pixels_out p12_predics_out andb].
  set (k := len A) in *. set (gb := 4 / ps) in *.
  assert (Hk : 0 <= k) by (unfold k, len; lia).
  set (c := k mod G) in *.
  assert (Hc : 0 <= c < G) by (apply Z.mod_pos_bound; lia).
  assert (Hck : c <= k) by (apply Z.mod_le; lia).
  destruct (succ_mod k G ltac:(lia) ltac:(lia)) as [Sm _]. fold c in Sm.
  assert (Hlatch : ((c =? 0) || p12_new_row_reg s) = (c <? gb)).
  { rewrite R5. destruct (c =? 0) eqn:E1, (0 <? c) eqn:E2, (c <? gb) eqn:E3; cbn; lia. }
  rewrite Hlatch.
  assert (Hk1 : len (A ++ [px]) = k + 1) by (unfold k, len; rewrite app_length; cbn; lia).
  pose proof (Z.mod_pos_bound k gb ltac:(lia)) as Hkg.
  split; [|split; [reflexivity|]].
  - (* relation *)
    unfold p12_rel; cbn [p12_buff_ctr p12_buffs p12_lbuffs p12_lbuff_ctr p12_new_row_reg].
    rewrite Hk1, Sm. fold gb.
    repeat split.
    + rewrite R1. unfold trunc. rewrite Hcl. rewrite mod_add_one by lia. reflexivity.
    + rewrite len_upd. assumption.
    + destruct (c <? gb); [rewrite len_upd|]; assumption.
    + intros i Hi. rewrite R1. destruct (Z.eq_dec i 1) as [->|Hne].
      * replace (k + 1 - 1) with k by lia. rewrite zn_upd_eq by lia.
        symmetry. apply (agrp_last bd ps A px).
      * rewrite zn_upd_ne; [|lia|apply Z.mod_pos_bound; lia|].
        -- replace (k + 1 - i) with (k - (i - 1)) by lia. rewrite R3 by lia.
           symmetry. apply agrp_snoc. fold k. lia.
        -- replace (k + 1 - i) with (k - (i - 1)) by lia. apply not_eq_sym. apply mod_diff_ne. lia.
    + (* lbuff_ctr *)
      rewrite R4. unfold trunc. rewrite Hcl. fold gb.
      destruct (c <? gb) eqn:E; destruct (c =? G - 1) eqn:E2; cbn [negb andb].
      * assert (c + 1 = gb) as -> by lia. rewrite Z.mod_same by lia.
        replace (0 <? gb) with true by lia. reflexivity.
      * destruct (c + 1 <? gb) eqn:E3; [apply Z.mod_small; lia|].
        assert (c + 1 = gb) as -> by lia. apply Z.mod_same; lia.
      * replace (0 <? gb) with true by lia. reflexivity.
      * replace (c + 1 <? gb) with false by lia. reflexivity.
    + (* new_row_reg *)
      rewrite R4, R5.
      destruct (c =? 0) eqn:E0.
      * replace (c =? G - 1) with false by lia. symmetry. apply andb_true_intro. lia.
      * destruct (c <? gb) eqn:E; destruct (c =? G - 1) eqn:E2.
        -- replace (c =? gb - 1) with true by lia. reflexivity.
        -- destruct (c =? gb - 1) eqn:E3; lia.
        -- replace (0 =? gb - 1) with false by lia. rewrite andb_false_r. reflexivity.
        -- replace (0 =? gb - 1) with false by lia. lia.
    + (* lbuffs contents *)
      intros i Hi. destruct (c =? G - 1) eqn:E2.
      * replace (i <? 0) with false by lia.
        replace (k + 1 - 0 - G + i) with (k - c + i) by lia.
        destruct (c <? gb) eqn:E.
        -- rewrite R4. rewrite ?E. destruct (Z.eq_dec i c) as [->|Hn].
           ++ rewrite zn_upd_eq by lia. replace (k - c + c) with k by lia. symmetry. apply agrp_last.
           ++ rewrite zn_upd_ne by lia. rewrite R6 by lia. replace (i <? c) with true by lia.
              symmetry. apply agrp_snoc. fold k. lia.
        -- rewrite R6 by lia. replace (i <? c) with true by lia. symmetry. apply agrp_snoc. fold k. lia.
      * replace (k + 1 - (c + 1)) with (k - c) by lia.
        destruct (c <? gb) eqn:E.
        -- rewrite R4. rewrite ?E. destruct (Z.eq_dec i c) as [->|Hn].
           ++ rewrite zn_upd_eq by lia. replace (c <? c + 1) with true by lia.
              replace (k - c + c) with k by lia. symmetry. apply agrp_last.
           ++ rewrite zn_upd_ne by lia. rewrite R6 by lia.
              destruct (i <? c) eqn:E3.
              ** replace (i <? c + 1) with true by lia. symmetry. apply agrp_snoc. fold k. lia.
              ** replace (i <? c + 1) with false by lia. symmetry. apply agrp_snoc. fold k. lia.
        -- rewrite R6 by lia. replace (i <? c) with true by lia. replace (i <? c + 1) with true by lia.
           symmetry. apply agrp_snoc. fold k. lia.
  - (* prediction *)
    unfold gpred. fold gb c. destruct (c <? gb) eqn:E.
    + rewrite R4. rewrite ?E. change (nth (Z.to_nat c)) with (fun l d => @zn (list Z) l c d). cbv beta.
      rewrite (zn_dflt _ _ _ []) by lia. rewrite R6 by lia.
      replace (c <? c) with false by lia. f_equal. lia.
    + rewrite R1. change (nth (Z.to_nat (k mod gb))) with (fun l d => @zn (list Z) l (k mod gb) d). cbv beta.
      rewrite (zn_dflt _ _ _ []) by lia.
      replace (k mod gb) with ((k - gb) mod gb).
      * apply R3. lia.
      * rewrite <- (Z.mod_add (k - gb) 1) by lia. f_equal. lia.
Qed.

(* ---- four pixels per cycle ---- *)
Definition p4_rel (bd G : Z) (A : list (list Z)) (s : p4_st) : Prop :=
  let k := len A in let c := k mod G in
  p4_buffs s = agrp bd 4 A (k - 1) /\
  p4_lbuffs s = (if 0 <? c then agrp bd 4 A (k - c) else agrp bd 4 A (k - G)).

Lemma p4_rel_init bd G : 1 <= G -> p4_rel bd G [] (p4_init bd).
Proof.
  intros HG. unfold p4_rel, p4_init; cbn [p4_buffs p4_lbuffs]. change (len (@nil (list Z))) with 0.
  rewrite Z.mod_0_l by lia. cbn [Z.ltb Z.compare].
  unfold agrp. replace (0 - 1 <? 0) with true by lia. replace (0 - G <? 0) with true by lia.
  split; reflexivity.
Qed.

Lemma p4_step_gap bd G A s nr e px : p4_rel bd G A s -> p4_rel bd G A (p4_step s false nr e px).
Proof. intros H. exact H. Qed.

Lemma p4_step_acc bd G A s e px : 2 <= G -> p4_rel bd G A s ->
  let s' := p4_step s true (len A mod G =? 0) e px in
  p4_rel bd G (A ++ [px]) s' /\
  p4_pixels_out s' = px /\ p4_predics_out s' = gpred bd 4 G A (len A).
Proof.
  intros HG (R1 & R2). cbv zeta. unfold p4_step; cbn [p4_buffs p4_lbuffs p4_pixels_out p4_predics_out andb].
  set (k := len A) in *. assert (Hk : 0 <= k) by (unfold k, len; lia).
  set (c := k mod G) in *. assert (Hc : 0 <= c < G) by (apply Z.mod_pos_bound; lia).
  assert (Hck : c <= k) by (apply Z.mod_le; lia).
  destruct (succ_mod k G ltac:(lia) ltac:(lia)) as [Sm _]. fold c in Sm.
  assert (Hk1 : len (A ++ [px]) = k + 1) by (unfold k, len; rewrite app_length; cbn; lia).
  split; [|split; [reflexivity|]].
  - unfold p4_rel; cbn [p4_buffs p4_lbuffs]. rewrite Hk1, Sm. split.
    + replace (k + 1 - 1) with k by lia. symmetry. apply agrp_last.
    + destruct (c =? 0) eqn:E0.
      * replace (c =? G - 1) with false by lia. replace (0 <? c + 1) with true by lia.
        replace (k + 1 - (c + 1)) with k by lia. symmetry. apply agrp_last.
      * rewrite R2. replace (0 <? c) with true by lia.
        destruct (c =? G - 1) eqn:E1.
        -- cbn [Z.ltb Z.compare]. replace (k + 1 - G) with (k - c) by lia. symmetry. apply agrp_snoc. fold k. lia.
        -- replace (0 <? c + 1) with true by lia. replace (k + 1 - (c + 1)) with (k - c) by lia.
           symmetry. apply agrp_snoc. fold k. lia.
  - unfold gpred. fold c. change (4 / 4) with 1. destruct (c =? 0) eqn:E0.
    + replace (c <? 1) with true by lia. rewrite R2. replace (0 <? c) with false by lia. reflexivity.
    + replace (c <? 1) with false by lia. exact R1.
Qed.

(* ---- either predictor ---- *)
Definition pred_rel (bd ps G : Z) (A : list (list Z)) (s : pred_st) : Prop :=
  match s with
  | PRED4 s => ps = 4 /\ p4_rel bd G A s
  | PRED12 s => (ps = 1 \/ ps = 2) /\ p12_rel bd ps G A s
  end.

Lemma pred_rel_init bd ps G : ps = 1 \/ ps = 2 \/ ps = 4 -> 4 / ps <= G ->
  pred_rel bd ps G [] (pred_init bd ps).
Proof.
  intros Hps HG. unfold pred_init. destruct (ps =? 4) eqn:E.
  - assert (ps = 4) by lia. subst. split; [reflexivity|]. apply p4_rel_init. exact HG.
  - split; [lia|]. apply p12_rel_init; [lia|assumption].
Qed.

Lemma pred_step_gap bd ps G A s nr e px : pred_rel bd ps G A s ->
  pred_rel bd ps G A (pred_step ps s false nr e px).
Proof.
  destruct s; cbn [pred_step pred_rel]; intros [H1 H2]; split; try assumption.
Qed.

Lemma pred_step_acc bd ps G A s e px : 4 / ps <= G -> 2 <= G -> pred_rel bd ps G A s ->
  let s' := pred_step ps s true (len A mod G =? 0) e px in
  pred_rel bd ps G (A ++ [px]) s' /\
  pred_pixels_out s' = px /\ pred_predics_out s' = gpred bd ps G A (len A).
Proof.
  intros HG HG2. destruct s; cbn [pred_step pred_rel pred_pixels_out pred_predics_out]; intros [H1 H2]; cbv zeta.
  - subst ps. destruct (p4_step_acc bd G A s e px HG2 H2) as (I1 & I2 & I3). auto.
  - destruct (p12_step_acc bd ps G A s e px H1 HG H2) as (I1 & I2 & I3). auto.
Qed.

(* ---- the group prediction is the pixel-wise specification ---- *)
Lemma concat_nth ps (A : list (list Z)) m j : 0 <= ps -> Forall (fun g => len g = ps) A ->
  0 <= m < len A -> 0 <= j < ps -> zn (concat A) (m * ps + j) 0 = zn (zn A m []) j 0.
Proof.
  intros Hps HF. revert m. induction HF as [|g A Hg HF IH]; intros m Hm Hj.
  - unfold len in Hm; cbn in Hm; lia.
  - unfold zn in *. cbn [concat].
    destruct (Z.eq_dec m 0) as [->|Hn].
    + rewrite app_nth1 by (unfold len in Hg; lia). reflexivity.
    + rewrite app_nth2 by (unfold len in Hg; nia).
      replace (Z.to_nat (m * ps + j) - length g)%nat with (Z.to_nat ((m - 1) * ps + j)) by (unfold len in Hg; nia).
      rewrite IH by (unfold len in *; cbn in *; lia).
      replace (Z.to_nat m) with (S (Z.to_nat (m - 1))) by lia. reflexivity.
Qed.

Lemma gpred_spec bd ps G A j : ps = 1 \/ ps = 2 \/ ps = 4 -> 2 <= G -> 4 / ps <= G ->
  Forall (fun g => len g = ps) A -> 0 <= j < ps ->
  zn (gpred bd ps G A (len A)) j 0 = prediction bd (G * ps) (concat A) (len A * ps + j).
Proof.
  intros Hps HG HG4 HF Hj. set (k := len A). assert (Hk : 0 <= k) by (unfold k, len; lia).
  unfold gpred, prediction.
  pose proof (Z.div_mod k G ltac:(lia)) as Hd. pose proof (Z.mod_pos_bound k G ltac:(lia)) as Hm.
  assert (Hmod : (k * ps + j) mod (G * ps) = (k mod G) * ps + j).
  { symmetry. apply Z.mod_unique with (k / G); [left; nia|]. nia. }
  rewrite Hmod.
  assert (H4 : 4 / ps * ps = 4) by (destruct Hps as [->|[->| ->]]; reflexivity).
  assert (Hlt : (k mod G * ps + j <? 4) = (k mod G <? 4 / ps)).
  { destruct (k mod G <? 4 / ps) eqn:E; nia. }
  rewrite Hlt.
  assert (Hltk : (k * ps + j <? G * ps) = (k <? G)).
  { destruct (k <? G) eqn:E; nia. }
  rewrite Hltk.
  destruct (k mod G <? 4 / ps) eqn:E.
  - unfold agrp. replace (k - G <? 0) with (k <? G) by lia. destruct (k <? G) eqn:E2.
    + apply zn_repeat. lia.
    + rewrite <- (concat_nth ps A (k - G) j) by (assumption || (fold k; lia) || lia).
      unfold zn. f_equal. f_equal. ring.
  - assert (Hkgb : 4 / ps <= k).
    { assert (k mod G <= k) by (apply Z.mod_le; lia). lia. }
    unfold agrp. replace (k - 4 / ps <? 0) with false by lia.
    assert (1 <= 4 / ps) by (destruct Hps as [->|[->| ->]]; cbn; lia).
    rewrite <- (concat_nth ps A (k - 4 / ps) j) by (assumption || (fold k; lia) || lia).
    unfold zn. f_equal. f_equal. nia.
Qed.

Lemma agrp_len bd ps A m : 0 <= ps -> Forall (fun g => len g = ps) A -> m < len A ->
  len (agrp bd ps A m) = ps.
Proof.
  intros Hp HF Hm. unfold agrp. destruct (m <? 0) eqn:E.
  - unfold ginit, len. rewrite repeat_length. lia.
  - rewrite Forall_forall in HF. apply HF. unfold zn, len in *. apply nth_In. lia.
Qed.

Lemma gpred_len bd ps G A : ps = 1 \/ ps = 2 \/ ps = 4 -> 1 <= G ->
  Forall (fun g => len g = ps) A -> len (gpred bd ps G A (len A)) = ps.
Proof.
  intros Hps HG HF. unfold gpred.
  assert (1 <= 4 / ps) by (destruct Hps as [->|[->| ->]]; cbn; lia).
  destruct (_ <? _); apply agrp_len; try assumption; lia.
Qed.


Lemma gpred_range bd ps G A : 1 <= bd -> ps = 1 \/ ps = 2 \/ ps = 4 -> 1 <= G ->
  Forall (group_ok bd ps) A -> Forall (in_range bd) (gpred bd ps G A (len A)).
Proof.
  intros Hb Hps HG HF.
  assert (Ha : forall m, m < len A -> Forall (in_range bd) (agrp bd ps A m)).
  { intros m Hm. unfold agrp. destruct (m <? 0) eqn:E.
    - apply Forall_forall. intros x Hx. apply repeat_spec in Hx. subst. unfold in_range.
      pose proof (pow2_pos (bd - 1) ltac:(lia)). assert (2 ^ (bd - 1) < 2 ^ bd) by (apply pow2_lt; lia). lia.
    - rewrite Forall_forall in HF. apply HF. unfold zn, len in *. apply nth_In. lia. }
  unfold gpred. assert (1 <= 4 / ps) by (destruct Hps as [->|[->| ->]]; cbn; lia).
  destruct (_ <? _); apply Ha; lia.
Qed.
