(* the heap of liblj92: what an open handle owns, what is lost *)
From Coq Require Import Permutation.
From Verif Require Import Bits M_Lj92 P_Lj92 P_Lj92b P_Lj92c P_Lj92d P_Rob M_Enc92 M_Heap Spec_Heap.
Ltac Zify.zify_post_hook ::= idtac.


Lemma filter_out b l : NoDup l -> In b l -> Permutation l (b :: filter (fun x => negb (Nat.eqb b x)) l).
Proof.
  induction l as [|a l IH]; [contradiction|]. intros ND [->|Hin]; apply NoDup_cons_iff in ND; destruct ND as [N ND]; cbn [filter].
  - rewrite Nat.eqb_refl. cbn [negb]. apply Permutation_cons; [reflexivity|]. clear IH ND. induction l as [|x l IH]; [constructor|]. cbn [filter]. destruct (Nat.eqb b x) eqn:E.
    + apply Nat.eqb_eq in E. exfalso. apply N. left. auto.
    + cbn [negb]. apply Permutation_cons; [reflexivity|]. apply IH. intros HI. apply N. right. exact HI.
  - destruct (Nat.eqb b a) eqn:E; [apply Nat.eqb_eq in E; subst; contradiction|]. cbn [negb]. rewrite perm_swap. apply Permutation_cons; [reflexivity|]. apply IH; assumption.
Qed.
Lemma hfree_some b H : heap_ok H -> In b (hp_live H) -> heap_ok (hfree (Some b) H) /\ Permutation (hp_live H) (b :: hp_live (hfree (Some b) H)) /\ hp_n (hfree (Some b) H) = hp_n H.
Proof.
  intros (A & B & C) Hin. unfold hfree. replace (existsb (Nat.eqb b) (hp_live H)) with true by (symmetry; apply existsb_exists; exists b; split; [exact Hin|apply Nat.eqb_refl]).
  unfold heap_ok. cbn [hp_n hp_live hp_bad]. split; [split; [exact A|]; split; [apply NoDup_filter; exact B|intros x Hx; apply filter_In in Hx; apply C; tauto]|]. split; [apply filter_out; assumption|reflexivity].
Qed.
Lemma hfree_opt p l H : heap_ok H -> Permutation (hp_live H) (oblk p ++ l) -> heap_ok (hfree p H) /\ Permutation (hp_live (hfree p H)) l /\ hp_n (hfree p H) = hp_n H.
Proof.
  intros HO HP. destruct p as [b|]; [|cbn [hfree oblk app] in *; auto]. assert (Hin : In b (hp_live H)) by (rewrite HP; left; reflexivity).
  destruct (hfree_some b H HO Hin) as (A & B & C). split; [exact A|]. split; [|exact C]. apply Permutation_cons_inv with b. rewrite <- B. exact HP.
Qed.
Lemma halloc_spec ok H : heap_ok H -> let (p, H1) := halloc ok H in heap_ok H1 /\ Permutation (hp_live H1) (oblk p ++ hp_live H) /\ hp_n H1 = S (hp_n H) /\ (p = None <-> ok (hp_n H) = false).
Proof.
  intros (A & B & C). unfold halloc. destruct (ok (hp_n H)); unfold heap_ok; cbn [hp_n hp_live hp_bad oblk app].
  - split. { split; [exact A|]. split; [constructor; [|exact B]; intros Hin; apply C in Hin; lia|]. intros b [<-|Hin]; [lia|apply C in Hin; lia]. } split; [reflexivity|]. split; [reflexivity|]. split; discriminate.
  - split. { split; [exact A|]. split; [exact B|]. intros b Hin. apply C in Hin. lia. } split; [reflexivity|]. split; [reflexivity|]. split; reflexivity.
Qed.
Lemma release_spec k l H : heap_ok H -> Permutation (hp_live H) (blocks (Some k) ++ l) -> heap_ok (hp_release k H) /\ Permutation (hp_live (hp_release k H)) l /\ hp_n (hp_release k H) = hp_n H.
Proof.
  intros HO HP. cbn [blocks] in HP. unfold hp_release.
  destruct (hfree_opt (k_lut k) (oblk (k_row k) ++ [k_self k] ++ l) H HO) as (A1 & B1 & C1). { rewrite HP. cbn [app]. rewrite (app_assoc (oblk (k_lut k)) (oblk (k_row k)) (k_self k :: l)). apply Permutation_middle. }
  destruct (hfree_opt (k_row k) ([k_self k] ++ l) _ A1 B1) as (A2 & B2 & C2).
  destruct (hfree_opt (Some (k_self k)) l _ A2 B2) as (A3 & B3 & C3). split; [exact A3|]. split; [exact B3|congruence].
Qed.

Lemma pairs_mono d n m : n <= m -> (pairs d n <= pairs d m)%nat.
Proof.
  intros H. unfold pairs. destruct (Z_lt_le_dec n 0); [replace (Z.to_nat n) with 0%nat by lia; cbn; lia|]. replace (Z.to_nat m) with (Z.to_nat n + Z.to_nat (m - n))%nat by lia. rewrite seq_app, filter_app, app_length. lia.
Qed.
Lemma pairs_step d n k : 0 <= n <= k -> c4_at d k = true -> (pairs d n + 1 <= pairs d (k + 1))%nat.
Proof.
  intros H HC. pose proof (pairs_mono d n k ltac:(lia)). unfold pairs in *. replace (Z.to_nat (k + 1)) with (Z.to_nat k + 1)%nat by lia. rewrite seq_app, filter_app, app_length. cbn [seq filter plus].
  replace (Z.of_nat (Z.to_nat k)) with k by lia. rewrite HC. cbn [length]. lia.
Qed.

Lemma parse_huff_fst d dl ix h : fst (fst (parse_huff d dl ix h)) = (if dl <=? ix + beh (upd d (ix + 2) 0) ix then CORRUPT else NONE) /\ snd (fst (parse_huff d dl ix h)) = upd d (ix + 2) 0.
Proof. unfold parse_huff. cbv zeta. destruct (dl <=? _); split; reflexivity. Qed.

(* while parsing: the handle's table, the tables overwritten (lost), everything else *)
Definition img_inv (d0 : lmem) (n : Z) (base : list nat) (lut : ptr) (H : heap) : Prop :=
  heap_ok H /\ exists lost, Permutation (hp_live H) (oblk lut ++ lost ++ base) /\ (length (oblk lut) + length lost <= pairs d0 n)%nat /\ (lut = None -> lost = []).
Lemma img_inv_mono d0 n m base lut H : n <= m -> img_inv d0 n base lut H -> img_inv d0 m base lut H.
Proof. intros Hm (A & lost & B & C & D). split; [exact A|]. exists lost. split; [exact B|]. split; [|exact D]. pose proof (pairs_mono d0 n m Hm). lia. Qed.


Lemma hp_img_inv ok d0 dl base : forall f d ix h lut H, zeroed d0 dl d -> byte_mem d -> 0 <= ix -> img_inv d0 (Z.min (ix - 1) dl) base lut H ->
  let '(r, d', h', lut', H') := hp_parse_image ok f d dl ix h lut H in img_inv d0 dl base lut' H'.
Proof.
  induction f as [|f IH]; intros d ix h lut H HZ Hd Hix HI; cbn [hp_parse_image].
  { apply (img_inv_mono d0 (Z.min (ix - 1) dl)); [lia|exact HI]. }
  pose proof (lfind_spec d dl ix Hix) as L. destruct (lfind d dl ix) as [mk ix'].
  destruct (mk =? 0xc4) eqn:E1.
  { destruct L as [[L _]|(L1 & L2 & L3)]; [lia|].
    assert (HZ' : zeroed d0 dl (upd d (ix' + 2) 0)).
    { intros k. unfold upd. destruct (k =? ix' + 2) eqn:Ek; [|apply HZ]. intros _. assert (k = ix' + 2) by lia. subst k. split; [reflexivity|]. split; [|split; [|lia]].
      - replace (ix' + 2 - 4) with (ix' - 2) by lia. apply (zeroed_orig d0 dl d _ 255 HZ L3). lia.
      - replace (ix' + 2 - 3) with (ix' - 1) by lia. apply (zeroed_orig d0 dl d _ 0xc4 HZ); [lia|lia]. }
    pose proof (upd_byte d (ix' + 2) 0 Hd ltac:(lia)) as Hd'.
    assert (HC : c4_at d0 (ix' - 2) = true). { unfold c4_at. rewrite (zeroed_orig d0 dl d (ix' - 2) 255 HZ L3) by lia. replace (ix' - 2 + 1) with (ix' - 1) by lia. rewrite (zeroed_orig d0 dl d (ix' - 1) 0xc4 HZ) by lia. reflexivity. }
    assert (PS : (pairs d0 (Z.min (ix - 1) dl) + 1 <= pairs d0 (ix' - 1))%nat).
    { pose proof (pairs_step d0 (Z.max 0 (Z.min (ix - 1) dl)) (ix' - 2) ltac:(lia) HC) as PS. replace (ix' - 2 + 1) with (ix' - 1) in PS by lia. pose proof (pairs_mono d0 (Z.min (ix - 1) dl) (Z.max 0 (Z.min (ix - 1) dl)) ltac:(lia)). lia. }
    unfold hp_parse_huff. destruct (dl <=? _) eqn:El.
    { change (CORRUPT =? NONE) with false. cbn beta iota. apply (img_inv_mono d0 (Z.min (ix - 1) dl)); [lia|exact HI]. }
    destruct HI as (HO & lost & HP & HL & HN). pose proof (halloc_spec ok H HO) as HA. destruct (halloc ok H) as [p H1]. destruct HA as (A1 & A2 & A3 & A4). destruct p as [b|].
    - pose proof (parse_huff_fst d dl ix' h) as [PF1 PF2]. rewrite El in PF1. destruct (parse_huff d dl ix' h) as [[r d1] h1]. cbn [fst snd] in PF1, PF2. subst r d1. change (NONE =? NONE) with true. cbn beta iota.
      apply IH; [exact HZ'|exact Hd'|lia|]. replace (Z.min (ix' - 1) dl) with (ix' - 1) by lia.
      split; [exact A1|]. exists (oblk lut ++ lost). cbn [oblk app] in *. split; [rewrite A2, HP, <- app_assoc; reflexivity|]. split; [|discriminate]. rewrite app_length. cbn [length]. lia.
    - change (NO_MEMORY =? NONE) with false. cbn beta iota. apply (img_inv_mono d0 (Z.min (ix - 1) dl)); [lia|]. split; [exact A1|]. exists lost. cbn [oblk app] in A2. split; [rewrite A2; exact HP|]. auto. }
  assert (End : img_inv d0 dl base lut H) by (apply (img_inv_mono d0 (Z.min (ix - 1) dl)); [lia|exact HI]).
  assert (Skip : forall ix1, ix <= ix1 -> img_inv d0 (Z.min (ix1 - 1) dl) base lut H) by (intros ix1 Hle; apply (img_inv_mono d0 (Z.min (ix - 1) dl)); [lia|exact HI]).
  destruct (mk =? 0xc3) eqn:E2.
  { destruct L as [[L _]|(L1 & L2 & L3)]; [lia|]. unfold parse_sof3. pose proof (beh_range d ix' Hd). destruct (dl <=? _); [change (CORRUPT =? NONE) with false; cbn beta iota; exact End|].
    change (NONE =? NONE) with true. cbn beta iota. apply IH; [exact HZ|exact Hd|lia|]. apply Skip. lia. }
  destruct (mk =? 0xd9); [exact End|]. destruct (mk =? 0xda); [exact End|]. destruct (mk =? -1) eqn:E5; [exact End|].
  destruct L as [[L _]|(L1 & L2 & L3)]; [lia|]. unfold parse_block. pose proof (beh_range d ix' Hd). destruct (dl <=? _); [change (CORRUPT =? NONE) with false; cbn beta iota; exact End|].
  change (NONE =? NONE) with true. cbn beta iota. apply IH; [exact HZ|exact Hd|lia|]. apply Skip. lia.
Qed.

(* what is returned is what lj92_open returns, unless an allocation fails *)
Lemma hp_img_same ok dl : forall f d ix h lut H, let '(r, d', h', lut', H') := hp_parse_image ok f d dl ix h lut H in
  (hp_n H <= hp_n H')%nat /\
  (r <> NO_MEMORY /\ parse_image f d dl ix h = (r, d', h') \/ r = NO_MEMORY /\ exists k, (hp_n H <= k < hp_n H')%nat /\ ok k = false).
Proof.
  induction f as [|f IH]; intros d ix h lut H; cbn [hp_parse_image parse_image]; [split; [lia|left; split; [discriminate|reflexivity]]|].
  destruct (lfind d dl ix) as [mk ix']. destruct (mk =? 0xc4).
  { unfold hp_parse_huff. pose proof (parse_huff_fst d dl ix' h) as [PF1 PF2]. unfold parse_huff. cbv zeta. unfold parse_huff in PF1, PF2. cbv zeta in PF1, PF2. destruct (dl <=? _) eqn:El.
    { change (CORRUPT =? NONE) with false. cbn beta iota. split; [lia|left; split; [discriminate|reflexivity]]. }
    unfold halloc. destruct (ok (hp_n H)) eqn:Ek.
    - match goal with |- context [hp_parse_image ok f ?dd dl ix' ?hh ?l ?HH] => pose proof (IH dd ix' hh l HH) as G; destruct (hp_parse_image ok f dd dl ix' hh l HH) as [[[[r d'] h'] lut'] H'] end.
      cbn [hp_n] in G. change (NONE =? NONE) with true. cbn beta iota. destruct G as [G0 [G|(G1 & k & G2 & G3)]]; (split; [lia|]); [left; exact G|right; split; [exact G1|exists k; split; [lia|exact G3]]].
    - change (NO_MEMORY =? NONE) with false. cbn beta iota. cbn [hp_n]. split; [lia|]. right. split; [reflexivity|]. exists (hp_n H). split; [lia|exact Ek]. }
  destruct (mk =? 0xc3).
  { destruct (parse_sof3 d dl ix' h) as [[r ix1] h1] eqn:EP. assert (Hr : r <> NO_MEMORY) by (revert EP; unfold parse_sof3; destruct (dl <=? _); intros EP; injection EP as <- <- <-; discriminate). destruct (r =? NONE); [apply IH|]. split; [lia|left; split; [exact Hr|reflexivity]]. }
  destruct (mk =? 0xd9); [split; [lia|left; split; [discriminate|reflexivity]]|]. destruct (mk =? 0xda); [split; [lia|left; split; [discriminate|reflexivity]]|]. destruct (mk =? -1); [split; [lia|left; split; [discriminate|reflexivity]]|].
  unfold parse_block. destruct (dl <=? _); [change (CORRUPT =? NONE) with false; cbn beta iota; split; [lia|left; split; [discriminate|reflexivity]]|]. change (NONE =? NONE) with true. cbn beta iota. apply IH.
Qed.

Lemma zeroed_refl d dl : zeroed d dl d. Proof. intros k H. contradiction. Qed.
Lemma opt_nil (lost : list nat) n : (length lost <= n - 1)%nat -> n = 0%nat -> lost = []. Proof. intros. destruct lost; [reflexivity|cbn in *; lia]. Qed.

(* lj92_open: the blocks of the handle, and the tables lost: one less than the pairs FF C4 at most *)
Lemma hp_open_spec ok d dl H : byte_mem d -> heap_ok H ->
  let '(r, d', h, lj, H') := hp_open ok d dl H in heap_ok H' /\ (r = NONE <-> lj <> None) /\
    exists lost, Permutation (hp_live H') (blocks lj ++ lost ++ hp_live H) /\ (length lost <= pairs d dl - 1)%nat.
Proof.
  intros Hd HO. unfold hp_open. pose proof (halloc_spec ok H HO) as HA. destruct (halloc ok H) as [self H1]. destruct HA as (A1 & A2 & A3 & _).
  destruct self as [s|]; [|split; [exact A1|]; split; [split; [discriminate|intros X; contradiction X; reflexivity]|]; exists []; cbn [oblk app blocks length] in *; split; [exact A2|lia]].
  cbn [oblk app] in A2. destruct (lfind d dl 0) as [mk ix] eqn:EL. pose proof (lfind_spec d dl 0 ltac:(lia)) as L. rewrite EL in L.
  set (X := if mk =? 0xd8 then _ else _).
  assert (HX : let '(r, d', h, lut, H') := X in img_inv d dl (hp_live H1) lut H').
  { assert (I0 : forall n, img_inv d n (hp_live H1) None H1). { intros n. split; [exact A1|]. exists []. cbn [oblk app length]. split; [reflexivity|]. split; [lia|reflexivity]. }
    unfold X. destruct (mk =? 0xd8); [|apply I0]. apply hp_img_inv; [apply zeroed_refl|exact Hd|lia|apply I0]. }
  destruct X as [[[[r d'] h] lut] H2]. destruct HX as (B1 & lost & B2 & B3 & B4).
  assert (HL : (length lost <= pairs d dl - 1)%nat). { destruct lut as [b|]; cbn [oblk length] in B3; [lia|rewrite B4 by reflexivity; cbn [length]; lia]. }
  assert (REL : heap_ok (hp_release {| k_self := s; k_lut := lut; k_row := None |} H2) /\ Permutation (hp_live (hp_release {| k_self := s; k_lut := lut; k_row := None |} H2)) (lost ++ hp_live H)).
  { destruct (release_spec {| k_self := s; k_lut := lut; k_row := None |} (lost ++ hp_live H) H2 B1) as (C1 & C2 & _); [|auto].
    rewrite B2, A2. cbn [blocks k_self k_lut k_row oblk]. rewrite app_nil_r. rewrite app_assoc. symmetry. rewrite <- app_comm_cons, app_assoc. apply Permutation_middle. }
  destruct (r =? NONE) eqn:Er.
  - apply Z.eqb_eq in Er. subst r. pose proof (halloc_spec ok H2 B1) as HA. destruct (halloc ok H2) as [rc H3] eqn:E3. destruct HA as (C1 & C2 & _ & _). destruct rc as [b|].
    + split; [exact C1|]. split; [split; [discriminate|reflexivity]|]. exists lost. split; [|exact HL]. rewrite C2, B2, A2. cbn [blocks k_self k_lut k_row oblk app].
      transitivity (oblk lut ++ b :: lost ++ s :: hp_live H); [apply Permutation_middle|]. rewrite <- app_assoc. cbn [app].
      symmetry. transitivity (oblk lut ++ s :: b :: lost ++ hp_live H); [apply Permutation_middle|]. apply Permutation_app_head. rewrite perm_swap. apply Permutation_cons; [reflexivity|]. apply Permutation_middle.
    + clear C1 C2 REL. assert (E : halloc ok H2 = (None, H3)) by exact E3. unfold halloc in E. destruct (ok (hp_n H2)); [discriminate|]. injection E as <-.
      destruct (release_spec {| k_self := s; k_lut := lut; k_row := None |} (lost ++ hp_live H) {| hp_n := S (hp_n H2); hp_live := hp_live H2; hp_bad := hp_bad H2 |}) as (C1 & C2 & _).
      { destruct B1 as (Q1 & Q2 & Q3). split; [exact Q1|]. split; [exact Q2|]. intros b Hb. apply Q3 in Hb. cbn [hp_n]. lia. }
      { cbn [hp_live]. rewrite B2, A2. cbn [blocks k_self k_lut k_row oblk]. rewrite app_nil_r. rewrite app_assoc. symmetry. rewrite <- app_comm_cons, app_assoc. apply Permutation_middle. }
      split; [exact C1|]. split; [split; [discriminate|intros X; contradiction X; reflexivity]|]. exists lost. split; [exact C2|exact HL].
  - split; [tauto|]. split; [split; [intros ->; discriminate|intros X; contradiction X; reflexivity]|]. exists lost. cbn [blocks app]. tauto.
Qed.

(* a program with any number of handles *)

Lemma put_null_blocks : forall tab k, Permutation (tab_blocks tab) (blocks (nth k tab None) ++ tab_blocks (put_null k tab)).
Proof.
  induction tab as [|x tab IH]; intros k; [destruct k; reflexivity|]. destruct k as [|k]; cbn [put_null nth tab_blocks flat_map blocks app]; [reflexivity|].
  unfold tab_blocks in IH. rewrite (IH k) at 1. rewrite !app_assoc. apply Permutation_app_tail. apply Permutation_app_comm.
Qed.
Lemma hp_run_spec ok base : forall ops tab H lost, Forall op_bytes ops -> heap_ok H -> Permutation (hp_live H) (tab_blocks tab ++ lost ++ base) ->
  let '(tab', H') := hp_run ok ops tab H in heap_ok H' /\ exists lost', Permutation (hp_live H') (tab_blocks tab' ++ lost' ++ base) /\ (length lost' <= length lost + list_sum (map op_files ops))%nat.
Proof.
  induction ops as [|op ops IH]; intros tab H lost HB HO HP; cbn [hp_run]; [split; [exact HO|]; exists lost; split; [exact HP|lia]|].
  apply Forall_cons_iff in HB. destruct HB as [Hb HB]. destruct op as [d dl|k].
  - pose proof (hp_open_spec ok d dl H Hb HO) as S. destruct (hp_open ok d dl H) as [[[[r d'] h] lj] H1]. destruct S as (A & _ & l1 & B & C).
    specialize (IH (tab ++ [lj]) H1 (l1 ++ lost) HB A). destruct (hp_run ok ops (tab ++ [lj]) H1) as [tab' H']. destruct IH as (D & lost' & E & F).
    + rewrite B, HP. unfold tab_blocks. rewrite flat_map_app. cbn [flat_map]. rewrite app_nil_r, <- !app_assoc. rewrite (Permutation_app_comm (flat_map blocks tab) (blocks lj ++ _)). rewrite <- !app_assoc. apply Permutation_app_head. apply Permutation_app_head.
      rewrite (Permutation_app_comm (flat_map blocks tab)). rewrite <- app_assoc. reflexivity.
    + split; [exact D|]. exists lost'. split; [exact E|]. rewrite app_length in F. cbn [map list_sum op_files fold_right] in *. unfold list_sum in *. lia.
  - assert (A : heap_ok (hp_close (nth k tab None) H) /\ Permutation (hp_live (hp_close (nth k tab None) H)) (tab_blocks (put_null k tab) ++ lost ++ base)).
    { rewrite (put_null_blocks tab k), <- app_assoc in HP. destruct (nth k tab None) as [hk|]; cbn [hp_close]; [|split; [exact HO|exact HP]].
      destruct (release_spec hk _ H HO HP) as (A & B & _). split; [exact A|exact B]. }
    destruct A as [A B]. specialize (IH (put_null k tab) _ lost HB A B). cbn [map]. unfold list_sum in *. cbn [fold_right op_files]. exact IH.
Qed.
