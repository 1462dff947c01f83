(* The arithmetic pipeline: fixed latency, no group lost, duplicated or mixed up. *)
From Verif Require Import Bits Spec M_Config M_Signals M_Predictor M_Difference M_Normalize
  M_Encode M_Merge M_I1 P_Fifo P_Normalize P_Encode P_Merge P_Signals P_Predictor.

Ltac Zify.zify_post_hook ::= idtac.

(* pixels, predictions, end flag of an accepted group *)
Definition grp := (list Z * list Z * bool)%type.
Definition hist_t := list (option grp).

Definition h_norm (bd : Z) (px pr : list Z) : list (Z * Z) :=
  map2 (norm1 bd) (map2 (sub_val bd) px pr) (map2 (sub_mns bd) px pr).
Definition h_items (bd : Z) (mem : list Z) (px pr : list Z) : list (Z * Z) :=
  map (fun x => enc_logic bd (snd x) (fst x) (mem_read bd mem (snd x))) (h_norm bd px pr).
Definition h_mg (bd : Z) (mem : list Z) (h : option grp) : option (list (Z * Z) * bool) :=
  match h with Some (px, pr, e) => Some (h_items bd mem px pr, e) | None => None end.

Definition is_some {A} (o : option A) : bool := match o with Some _ => true | None => false end.

Definition late_of (bd : Z) (mem : list Z) (x : Z * Z) : Z * Z * Z :=
  (snd x, fst x, mem_read bd mem (snd x)).

Definition i1_inv (c : config) (mem : list Z) (s : i1_st) (hist : hist_t) : Prop :=
  let h k := nth k hist None in
  Forall (fun o => forall px pr e, o = Some (px, pr, e) -> len px = ps c /\ len pr = ps c) hist /\
  (* predictor *)
  pred_valid_out (i1_pred s) = is_some (h 0%nat) /\
  (forall px pr e, h 0%nat = Some (px, pr, e) ->
     pred_pixels_out (i1_pred s) = px /\ pred_predics_out (i1_pred s) = pr /\ pred_end_out (i1_pred s) = e) /\
  (* difference *)
  df_valid (i1_diff s) = is_some (h 1%nat) /\
  (forall px pr e, h 1%nat = Some (px, pr, e) ->
     df_vals (i1_diff s) = map2 (sub_val (bd c)) px pr /\ df_mns (i1_diff s) = map2 (sub_mns (bd c)) px pr /\
     df_end (i1_diff s) = e) /\
  (* normalize *)
  nm_valid (i1_norm s) = is_some (h 2%nat) /\ len (nm_out (i1_norm s)) = ps c /\
  (forall px pr e, h 2%nat = Some (px, pr, e) ->
     nm_out (i1_norm s) = h_norm (bd c) px pr /\ nm_end (i1_norm s) = e) /\
  (* encode, first half *)
  en_valid_late (i1_enc s) = is_some (h 3%nat) /\ len (en_px (i1_enc s)) = ps c /\
  (forall px pr e, h 3%nat = Some (px, pr, e) ->
     map (fun x => (e1_ssss_late x, e1_val_late x, e1_rp_data x)) (en_px (i1_enc s)) =
       map (late_of (bd c) mem) (h_norm (bd c) px pr) /\
     en_end_late (i1_enc s) = e) /\
  (* encode, second half *)
  en_valid_out (i1_enc s) = is_some (h 4%nat) /\
  (forall px pr e, h 4%nat = Some (px, pr, e) ->
     enc_outs (i1_enc s) = h_items (bd c) mem px pr /\ en_end_out (i1_enc s) = e) /\
  (* merge *)
  (1 < ps c -> merge_rel (Z.to_nat (merge_levels (ps c))) (single_ctr c) (merge_pad (ps c)) (i1_merge s)
      (map (h_mg (bd c) mem) (skipn 5 hist))).

Lemma map2_length {A B C} (f : A -> B -> C) a b : length (map2 f a b) = min (length a) (length b).
Proof. revert b; induction a; intros [|y b]; cbn; auto. Qed.

Lemma len_map2 {A B C} (f : A -> B -> C) a b n : len a = n -> len b = n -> len (map2 f a b) = n.
Proof. unfold len. intros. rewrite map2_length. lia. Qed.

Lemma len_map {A B} (f : A -> B) l : len (map f l) = len l.
Proof. unfold len. rewrite map_length. reflexivity. Qed.

Lemma h_items_len bd mem px pr n : len px = n -> len pr = n -> len (h_items bd mem px pr) = n.
Proof. intros. unfold h_items. rewrite len_map. unfold h_norm. repeat apply len_map2; assumption. Qed.

Lemma enc1_late bd mem v l ins : len l = len ins ->
  map (fun x => (e1_ssss_late x, e1_val_late x, e1_rp_data x)) (map2 (enc1_step bd mem v) l ins) =
  map (late_of bd mem) ins.
Proof.
  unfold len. revert ins. induction l as [|x l IH]; intros [|[v1 s1] ins] H; cbn in H; try lia; [reflexivity|].
  cbn [map2 map]. rewrite IH by lia. unfold enc1_step.
  destruct (enc_logic bd (e1_ssss_late x) (e1_val_late x) (e1_rp_data x)) as [eo ec]. reflexivity.
Qed.

Lemma enc1_outs bd mem l ins : len l = len ins ->
  map (fun e => (e1_enc_out e, e1_enc_ctr e)) (map2 (enc1_step bd mem true) l ins) =
  map (fun x => enc_logic bd (fst (fst x)) (snd (fst x)) (snd x))
      (map (fun x => (e1_ssss_late x, e1_val_late x, e1_rp_data x)) l).
Proof.
  unfold len. revert ins. induction l as [|x l IH]; intros [|[v1 s1] ins] H; cbn in H; try lia; [reflexivity|].
  cbn [map2 map]. rewrite IH by lia. unfold enc1_step. cbn [fst snd].
  destruct (enc_logic bd (e1_ssss_late x) (e1_val_late x) (e1_rp_data x)) as [eo ec]. reflexivity.
Qed.

Lemma pred_valid_step ps s v nr e px : pred_valid_out (pred_step ps s v nr e px) = v.
Proof. destruct s; reflexivity. Qed.
Lemma pred_end_step ps s v nr e px : pred_end_out (pred_step ps s v nr e px) = e.
Proof. destruct s; reflexivity. Qed.
Lemma pred_px_step ps s nr e px : pred_pixels_out (pred_step ps s true nr e px) = px.
Proof. destruct s; reflexivity. Qed.

Lemma i1_inv_reset c mem rps : 1 <= ps c -> len rps = ps c -> i1_inv c mem (i1_reset c rps) [].
Proof.
  intros Hp Hr. unfold i1_inv. cbv zeta. unfold i1_reset; cbn [i1_pred i1_diff i1_norm i1_enc i1_merge nth].
  split; [constructor|]. split; [|split]; [destruct (pred_init (bd c) (ps c)) eqn:E| |].
  1,2: unfold pred_init in E; destruct (ps c =? 4); inversion E; reflexivity.
  - discriminate.
  - split; [reflexivity|]. split; [discriminate|]. split; [reflexivity|].
    split; [unfold norm_init, len; cbn [nm_out]; rewrite repeat_length; lia|].
    split; [discriminate|]. split; [reflexivity|].
    split; [unfold enc_reset; cbn [en_px]; rewrite len_map; exact Hr|].
    split; [discriminate|]. split; [reflexivity|]. split; [discriminate|].
    intros H1. replace (1 <? ps c) with true by lia. cbn [skipn map]. apply merge_init_rel.
Qed.

Lemma map_skipn_cons {A B} (f : A -> B) n (l : list A) x d :
  (n < length (x :: l))%nat -> map f (skipn n (x :: l)) = f (nth n (x :: l) d) :: map f (skipn (S n) (x :: l)).
Proof.
  revert l x. induction n as [|n IH]; intros l x H; [reflexivity|].
  destruct l as [|y l]; [cbn in H; lia|]. cbn [skipn nth]. apply (IH l y). cbn in *. lia.
Qed.

(* padding the history with None does not matter for merge_rel *)
Lemma merge_rel_hd n w f ls g hist : merge_rel n w f ls (g :: hist) ->
  g = None -> hist = [] -> merge_rel n w f ls [].
Proof. intros H -> ->. destruct n, ls; exact H. Qed.

Lemma i1_inv_step c mem s hist v px w h pr :
  ps c = 1 \/ ps c = 2 \/ ps c = 4 ->
  i1_inv c mem s hist ->
  let s' := i1_step c mem s v px w h in
  (v = true -> len px = ps c /\ len pr = ps c /\ pred_predics_out (i1_pred s') = pr) ->
  i1_inv c mem s'
    ((if v then Some (px, pr, sg_end_of_frame (i1_sig s)) else None) :: hist).
Proof.
  intros Hps (I0 & Ip1 & Ip2 & Id1 & Id2 & In1 & In2 & In3 & El1 & El2 & El3 & Eo1 & Eo2 & Im) s' Hv.
  set (new := if v then Some (px, pr, sg_end_of_frame (i1_sig s)) else None).
  assert (Hlen : forall k px pr e, nth k hist None = Some (px, pr, e) -> len px = ps c /\ len pr = ps c).
  { intros k px0 pr0 e0 Hk. rewrite Forall_forall in I0.
    assert (Hin : In (nth k hist None) hist).
    { apply nth_In. destruct (Nat.ltb k (length hist)) eqn:E; [apply Nat.ltb_lt; assumption|].
      apply Nat.ltb_ge in E. rewrite nth_overflow in Hk by assumption. discriminate. }
    apply (I0 _ Hin px0 pr0 e0 Hk). }
  unfold i1_inv. cbv zeta. cbn [nth].
  split; [|split; [|split; [|split; [|split; [|split; [|split; [|split; [|split; [|split; [|split; [|split; [|split]]]]]]]]]]]].
  - constructor; [|assumption]. unfold new. intros px0 pr0 e0 Hn. destruct v; [|discriminate].
    inversion Hn; subst. destruct (Hv eq_refl) as (? & ? & ?). auto.
  - unfold s', i1_step; cbn [i1_pred]. rewrite pred_valid_step. unfold new. destruct v; reflexivity.
  - unfold new. intros px0 pr0 e0 Hn. destruct v; [|discriminate]. inversion Hn; subst.
    destruct (Hv eq_refl) as (_ & _ & Hpr). split; [|split; [exact Hpr|]].
    + unfold s', i1_step; cbn [i1_pred]. apply pred_px_step.
    + unfold s', i1_step; cbn [i1_pred]. apply pred_end_step.
  - unfold s', i1_step; cbn [i1_diff diff_step df_valid]. exact Ip1.
  - intros px0 pr0 e0 Hn. destruct (Ip2 _ _ _ Hn) as (P1 & P2 & P3).
    unfold s', i1_step, diff_step; cbn [i1_diff df_vals df_mns df_end]. rewrite Ip1, Hn, P1, P2, P3.
    cbn [is_some]. auto.
  - unfold s', i1_step; cbn [i1_norm norm_step nm_valid]. exact Id1.
  - unfold s', i1_step, norm_step; cbn [i1_norm nm_out]. rewrite Id1.
    destruct (nth 1 hist None) as [[[px0 pr0] e0]|] eqn:E; cbn [is_some]; [|assumption].
    destruct (Id2 _ _ _ eq_refl) as (P1 & P2 & P3). destruct (Hlen _ _ _ _ E) as [L1 L2].
    rewrite P1, P2. repeat apply len_map2; assumption.
  - intros px0 pr0 e0 Hn. destruct (Id2 _ _ _ Hn) as (P1 & P2 & P3).
    unfold s', i1_step, norm_step; cbn [i1_norm nm_out nm_end]. rewrite Id1, Hn, P1, P2, P3.
    cbn [is_some]. auto.
  - unfold s', i1_step; cbn [i1_enc enc_step en_valid_late]. exact In1.
  - unfold s', i1_step, enc_step; cbn [i1_enc en_px]. apply len_map2; assumption.
  - intros px0 pr0 e0 Hn. destruct (In3 _ _ _ Hn) as (P1 & P2).
    unfold s', i1_step, enc_step; cbn [i1_enc en_px en_end_late].
    rewrite enc1_late by congruence. rewrite P1. auto.
  - unfold s', i1_step; cbn [i1_enc enc_step en_valid_out]. exact El1.
  - intros px0 pr0 e0 Hn. destruct (El3 _ _ _ Hn) as (P1 & P2).
    unfold s', i1_step, enc_step; cbn [i1_enc en_px en_end_out]. unfold enc_outs; cbn [en_px].
    rewrite El1, Hn. cbn [is_some]. rewrite enc1_outs by congruence. rewrite P1.
    split; [|assumption]. rewrite map_map. unfold h_items, late_of. cbn [fst snd]. reflexivity.
  - intros H1. specialize (Im H1).
    unfold s', i1_step; cbn [i1_merge]. replace (1 <? ps c) with true by lia.
    unfold merge_step.
    assert (Hg : merge_rel (Z.to_nat (merge_levels (ps c))) (single_ctr c) (merge_pad (ps c))
       (levels_step (single_ctr c) (i1_merge s)
          (pair_up (merge_pad (ps c) (enc_outs (i1_enc s))) (en_valid_out (i1_enc s)) (en_end_out (i1_enc s))))
       (h_mg (bd c) mem (nth 4 hist None) :: map (h_mg (bd c) mem) (skipn 5 hist))).
    { assert (Hol : len (enc_outs (i1_enc s)) = ps c) by (unfold enc_outs; rewrite len_map; assumption).
      assert (Hlv : exists k, Z.to_nat (merge_levels (ps c)) = S k).
      { destruct Hps as [E|[E|E]]; rewrite E; [lia| |]; eexists; reflexivity. }
      destruct Hlv as [k Hlv].
      pose proof (merge_pad_length (ps c) (enc_outs (i1_enc s)) ltac:(lia) Hol) as Hpl.
      apply levels_step_rel; [|  |exact Im].
      - rewrite Hlv in *. apply pair_up_length. rewrite Hpl. cbn [Nat.pow]. lia.
      - rewrite Eo1. destruct (nth 4 hist None) as [[[px0 pr0] e0]|] eqn:E; cbn [is_some h_mg gmap ins_rel].
        + destruct (Eo2 _ _ _ eq_refl) as [P1 P2]. rewrite P1, P2. reflexivity.
        + generalize (merge_pad (ps c) (enc_outs (i1_enc s))). intros l.
          induction l as [|[a1 a2]|[a1 a2] [b1 b2] r IH] using pair_ind2; cbn [pair_up]; constructor; auto. }
    change (skipn 5 (new :: hist)) with (skipn 4 hist).
    destruct (Nat.leb 5 (length hist)) eqn:E5.
    + apply Nat.leb_le in E5.
      destruct hist as [|h0 hist]; [cbn in E5; lia|].
      rewrite (map_skipn_cons (h_mg (bd c) mem) 4 hist h0 None) by lia. exact Hg.
    + apply Nat.leb_gt in E5.
      rewrite (skipn_all2 hist) by lia. rewrite (skipn_all2 hist) in Hg by lia.
      rewrite nth_overflow in Hg by lia. cbn [map h_mg] in *.
      eapply merge_rel_hd; [exact Hg|reflexivity|reflexivity].
Qed.

(* number of cycles between acceptance and output *)
Definition latency (c : config) : nat :=
  if 1 <? ps c then (5 + Z.to_nat (merge_levels (ps c)))%nat else 5%nat.

Lemma i1_inv_out c mem s hist : cfg_ok c = true -> i1_inv c mem s hist ->
  i1_valid_out c s = is_some (nth (latency c - 1) hist None) /\
  forall px pr e, nth (latency c - 1) hist None = Some (px, pr, e) ->
    Forall (item_ok (single_ctr c)) (h_items (bd c) mem px pr) ->
    i1_out c s = concat_item (h_items (bd c) mem px pr) /\ i1_end_out c s = e.
Proof.
  intros Hc (I0 & Ip1 & Ip2 & Id1 & Id2 & In1 & In2 & In3 & El1 & El2 & El3 & Eo1 & Eo2 & Im).
  assert (Hps : ps c = 1 \/ ps c = 2 \/ ps c = 4) by (unfold cfg_ok in Hc; lia).
  assert (Hlen : forall k px pr e, nth k hist None = Some (px, pr, e) -> len px = ps c /\ len pr = ps c).
  { intros k px0 pr0 e0 Hk. rewrite Forall_forall in I0.
    assert (Hin : In (nth k hist None) hist).
    { apply nth_In. destruct (Nat.ltb k (length hist)) eqn:E; [apply Nat.ltb_lt; assumption|].
      apply Nat.ltb_ge in E. rewrite nth_overflow in Hk by assumption. discriminate. }
    apply (I0 _ Hin px0 pr0 e0 Hk). }
  unfold i1_valid_out, i1_out, i1_end_out, latency.
  destruct (1 <? ps c) eqn:E1.
  - specialize (Im ltac:(lia)).
    assert (Hlv : exists k, Z.to_nat (merge_levels (ps c)) = S k).
    { destruct Hps as [E|[E|E]]; rewrite E; [lia| |]; eexists; reflexivity. }
    destruct Hlv as [k Hlv]. rewrite Hlv in *.
    destruct (merge_rel_top k _ _ _ _ Im) as [T1 T2].
    replace (nth k (map (h_mg (bd c) mem) (skipn 5 hist)) None) with (h_mg (bd c) mem (nth (5 + k) hist None)) in T1.
    2:{ change None with (h_mg (bd c) mem None) at 2. rewrite map_nth. f_equal.
        clear. generalize 5%nat as n. intros n. revert hist. induction n; intros [|x l]; cbn; auto. destruct k; reflexivity. }
    replace (5 + S k - 1)%nat with (5 + k)%nat by lia.
    unfold merge_out, merge_top. 
    destruct (last (i1_merge s) []) as [|m [|m2 r]]; cbn in T2; try lia. cbn [hd].
    destruct (nth (5 + k) hist None) as [[[px pr] e]|] eqn:E; cbn [h_mg gmap level_rel is_some] in *.
    + destruct T1 as [T1 T3]. inversion T3 as [|? ? [V1 V2] _]; subst. split; [assumption|].
      intros px0 pr0 e0 Hx HF. inversion Hx; subst px0 pr0 e0.
      destruct (Hlen _ _ _ _ E) as [L1 L2].
      destruct (merge_tree_out (ps c) (single_ctr c) (h_items (bd c) mem px pr)) as (x & X1 & X2); try assumption.
      * lia.
      * unfold single_ctr, cfg_ok in *. lia.
      * apply h_items_len; assumption.
      * rewrite Hlv in X1. rewrite X1 in T1. unfold regs_of in T1. cbn [map] in T1. inversion T1 as [Hx1].
        split; [|reflexivity]. rewrite <- X2. rewrite <- Hx1. reflexivity.
    + inversion T1; subst. split; [assumption|]. discriminate.
  - cbn [Nat.sub]. split; [exact Eo1|]. intros px pr e Hn HF.
    destruct (Eo2 _ _ _ Hn) as [P1 P2]. split; [|exact P2]. rewrite P1.
    destruct (Hlen _ _ _ _ Hn) as [L1 L2].
    pose proof (h_items_len (bd c) mem px pr _ L1 L2) as Hl.
    assert (ps c = 1) by lia. rewrite H in Hl. unfold len in Hl.
    destruct (h_items (bd c) mem px pr) as [|[e0 c0] [|y r]]; cbn in Hl; try lia.
    cbn [hd]. unfold concat_item, items_bits, item_bits. cbn [flat_map fst snd sum_ctr fold_right].
    rewrite app_nil_r. inversion HF as [|? ? [Hx1 Hx2] _]; subst. cbn [fst snd] in *.
    rewrite bval_bitsz by lia. rewrite Z.mod_small by lia. f_equal. lia.
Qed.

(* the items of a group are the code words of its differences *)
Lemma h_items_spec bd t px pr : 2 <= bd <= 16 -> table_ok bd t ->
  Forall (in_range bd) px -> Forall (in_range bd) pr ->
  Forall (item_ok (Z.min (16 + bd) 31)) (h_items bd (mem_of bd t) px pr) /\
  Forall (fun x => 1 <= snd x) (h_items bd (mem_of bd t) px pr) /\
  items_bits (h_items bd (mem_of bd t) px pr) =
    concat (map2 (fun p q => encode_diff t (p - q)) px pr).
Proof.
  intros Hb Ht Hpx. revert pr. induction Hpx as [|p px Hp Hpx IH]; intros pr Hpr.
  - cbn. repeat split; constructor.
  - destruct pr as [|q pr]; [cbn; repeat split; constructor|].
    inversion Hpr as [|? ? Hq Hpr']; subst. destruct (IH pr Hpr') as (I1 & I2 & I3).
    unfold h_items, h_norm in *. cbn [map2 map].
    rewrite norm1_of_pixels by (assumption || lia). cbn [fst snd].
    assert (Hd : - 2 ^ bd < p - q < 2 ^ bd) by (unfold in_range in *; lia).
    destruct (enc_logic_ok bd t (p - q) Hb Ht Hd) as (E1 & E2 & E3).
    repeat split.
    + constructor; [|assumption]. split; [lia|]. assumption.
    + constructor; [lia|assumption].
    + unfold items_bits in *. cbn [flat_map concat]. rewrite I3. f_equal. exact E1.
Qed.
