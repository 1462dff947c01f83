(* C88, C89: what liblj92 allocates and frees *)
From Coq Require Import Permutation.
From Verif Require Import Bits Spec Spec_Lj92 Spec_P6 Spec_Pn M_Lj92 P_Lj92 P_Lj92b P_Lj92c P_Lj92d P_Open P_Rob M_Enc92 M_Heap Spec_Heap P_Heap P_Heap2 Props_Pred6 Props_ScanN2.
Ltac Zify.zify_post_hook ::= idtac.

(* C88: a program that opens any files (any bytes), in any order, and closes handles in any order, with any pattern of failing allocations: nothing is freed
   that is not allocated; what is allocated at any time is what the open handles own, what was there before, and for each file at most one block less than
   it has pairs FF C4 *)
Theorem C88_program : forall ok ops H, Forall op_bytes ops -> heap_ok H ->
  let '(tab, H') := hp_run ok ops [] H in
  heap_ok H' /\ exists lost, Permutation (hp_live H') (tab_blocks tab ++ lost ++ hp_live H) /\ (length lost <= list_sum (map op_files ops))%nat.
Proof.
  intros ok ops H HB HO. pose proof (hp_run_spec ok (hp_live H) ops [] H [] HB HO (Permutation_refl _)) as G. destruct (hp_run ok ops [] H) as [tab H']. exact G.
Qed.
(* with files that have one DHT marker, and all handles closed (or NULL): everything is given back *)
Theorem C88_no_leak : forall ok ops H, Forall op_bytes ops -> heap_ok H -> (forall d dl, In (OOpen d dl) ops -> (pairs d dl <= 1)%nat) ->
  let '(tab, H') := hp_run ok ops [] H in
  hp_bad H' = false /\ Permutation (hp_live H') (tab_blocks tab ++ hp_live H) /\ (Forall (fun lj => lj = None) tab -> Permutation (hp_live H') (hp_live H)).
Proof.
  intros ok ops H HB HO H1. pose proof (C88_program ok ops H HB HO) as G. destruct (hp_run ok ops [] H) as [tab H']. destruct G as ((B & _) & lost & P & L).
  assert (S : list_sum (map op_files ops) = 0%nat).
  { clear - H1. induction ops as [|[d dl|k] ops IH]; [reflexivity| |]; unfold list_sum in *; cbn [map fold_right op_files].
    - rewrite IH by (intros d' dl' HI; apply H1; right; exact HI). specialize (H1 d dl (or_introl eq_refl)). lia.
    - rewrite IH by (intros d' dl' HI; apply H1; right; exact HI). reflexivity. }
  rewrite S in L. destruct lost; [|cbn [length] in L; lia]. cbn [app] in P. split; [exact B|]. split; [exact P|]. intros HN.
  replace (tab_blocks tab) with (@nil nat) in P; [exact P|]. clear - HN. induction HN as [|x tab -> _ IH]; [reflexivity|exact IH].
Qed.
(* a failing lj92_open hands out no handle and keeps nothing but tables that were overwritten *)
Theorem C88_open : forall ok d dl H, byte_mem d -> heap_ok H ->
  let '(r, d', h, lj, H') := hp_open ok d dl H in
  heap_ok H' /\ (r = NONE <-> lj <> None) /\ exists lost, Permutation (hp_live H') (blocks lj ++ lost ++ hp_live H) /\ (length lost <= pairs d dl - 1)%nat.
Proof. exact hp_open_spec. Qed.
(* the result is the one of lj92_open (M_Lj92.v), unless one of the allocations of this call fails *)
Theorem C88_same : forall ok d dl H, let '(r, d', h, lj, H') := hp_open ok d dl H in
  (r <> NO_MEMORY /\ lj92_open d dl = (r, d', h)) \/ (r = NO_MEMORY /\ exists k, (hp_n H <= k < hp_n H')%nat /\ ok k = false).
Proof.
  intros ok d dl H. unfold hp_open. destruct (halloc ok H) as [self H1] eqn:E1. unfold halloc in E1.
  destruct (ok (hp_n H)) eqn:Ek; injection E1 as <- <-; [|right; split; [reflexivity|exists (hp_n H); cbn [hp_n]; split; [lia|exact Ek]]].
  assert (RN : forall k H, hp_n (hp_release k H) = hp_n H). { assert (FN : forall p H, hp_n (hfree p H) = hp_n H) by (intros [b|] H'; [unfold hfree; destruct (existsb _ _); reflexivity|reflexivity]). intros k H'. unfold hp_release. rewrite !FN. reflexivity. }
  unfold lj92_open. destruct (lfind d dl 0) as [mk ix]. set (HA := {| hp_n := S (hp_n H); hp_live := _; hp_bad := _ |}). assert (NA : hp_n HA = S (hp_n H)) by reflexivity. clearbody HA.
  assert (X : let '(r, d', h, lut, H2) := (if mk =? 0xd8 then hp_parse_image ok (Z.to_nat dl) d dl ix hdr0 None HA else (CORRUPT, d, hdr0, None, HA)) in
    (hp_n HA <= hp_n H2)%nat /\ (r <> NO_MEMORY /\ (if mk =? 0xd8 then parse_image (Z.to_nat dl) d dl ix hdr0 else (CORRUPT, d, hdr0)) = (r, d', h) \/ r = NO_MEMORY /\ exists k, (hp_n HA <= k < hp_n H2)%nat /\ ok k = false)).
  { destruct (mk =? 0xd8); [apply hp_img_same|]. split; [lia|left; split; [discriminate|reflexivity]]. }
  destruct (if mk =? 0xd8 then hp_parse_image ok (Z.to_nat dl) d dl ix hdr0 None HA else (CORRUPT, d, hdr0, None, HA)) as [[[[r d'] h] lut] H2]. destruct X as [X0 X].
  destruct (r =? NONE) eqn:Er.
  - apply Z.eqb_eq in Er. subst r. destruct X as [[_ X]|[X _]]; [|discriminate]. unfold halloc. destruct (ok (hp_n H2)) eqn:E2; [left; split; [discriminate|exact X]|]. right. split; [reflexivity|]. exists (hp_n H2). rewrite RN. cbn [hp_n]. split; [lia|exact E2].
  - destruct X as [X|(X1 & k & X2 & X3)]; [left; exact X|right]. split; [exact X1|]. exists k. rewrite RN. split; [lia|exact X3].
Qed.
(* a well-formed file: the handle, and after closing it exactly one block less than the file has DHT segments is lost *)
Theorem C88_exact : forall ok d segs p sel tail scan bits vals bd x y N H, byte_mem d -> wf_header segs sel tail bits vals bd x y N -> 0 <= N <= 255 ->
  holds d 0 (pn_file segs p sel tail scan) -> heap_ok H -> (forall k, ok k = true) ->
  exists d' h k H1, hp_open ok d (len (pn_file segs p sel tail scan)) H = (NONE, d', h, Some k, H1) /\
    heap_ok (hp_close (Some k) H1) /\ exists lost, Permutation (hp_live (hp_close (Some k) H1)) (lost ++ hp_live H) /\ length lost = (list_sum (map seg_dht segs) - 1)%nat.
Proof.
  intros ok d segs p sel tail scan bits vals bd x y N H Hd Hwf HN HH HO Hok. pose proof Hwf as (HS & HF & Hsel & Htail).
  destruct (open_n d segs p sel tail scan bits vals bd x y N Hd Hwf HN HH) as (d' & h & EO & _). cbv zeta in EO. pose proof (C88_same ok d (len (pn_file segs p sel tail scan)) H) as SM.
  set (dl := len (pn_file segs p sel tail scan)) in *.
  assert (FL : dl = 4 + len (flat_map seg_bytes segs) + (6 + 2 * N) + len scan + 2). { unfold dl, pn_file, sos_n, be16. rewrite !len_app_. rewrite Htail, Hsel. unfold len. cbn [length]. lia. }
  clearbody dl. revert SM. unfold hp_open. pose proof (halloc_spec ok H HO) as HA. destruct (halloc ok H) as [self H1]. destruct HA as (A1 & A2 & A3 & A4). destruct self as [s|]; [|destruct A4 as [A4 _]; specialize (A4 eq_refl); rewrite Hok in A4; discriminate].
  unfold pn_file in HH. cbn [app] in HH. do 2 hc HH. change (0 + 1) with 1 in *. change (1 + 1) with 2 in *. pose proof (len_pos (flat_map seg_bytes segs)). pose proof (len_pos scan).
  rewrite (lfind_skip dl d 0 0xd8 0); [|lia|lia|intros; lia|exact B|exact B0|lia]. change (0xd8 =? 0xd8) with true. cbn beta iota. change (0 + 0 + 2) with 2. pose proof (segs_len segs HS) as SL.
  destruct (hsegs_ok ok dl (sos_n p sel tail ++ scan ++ [255; 0xd9]) (tl (sos_n p sel tail ++ scan ++ [255; 0xd9])) (hp_live H1) Hok segs (Z.to_nat dl) d 2 2 hdr0 None H1 0%nat) as (d1 & h1 & ix1 & lut & HH2 & E1 & D1 & X1 & N1 & C1); try assumption; try reflexivity; try (unfold len in *; lia).
  { split; [exact A1|]. exists []. cbn [oblk app length]. split; [reflexivity|]. split; [reflexivity|auto]. }
  rewrite E1. destruct C1 as (C1 & lost & C2 & C3 & C4).
  destruct (Z.to_nat dl - length segs)%nat as [|f] eqn:Ef; [unfold len in *; lia|]. cbn [hp_parse_image]. apply holds_app in HH. destruct HH as [_ HH]. set (q := 2 + len (flat_map seg_bytes segs)) in *.
  unfold sos_n, be16 in HH. rewrite <- !app_assoc in HH. cbn [app] in HH. do 5 hc HH.
  rewrite (lfind_skip dl d1 (q - ix1) 0xda ix1); [|lia|lia|intros k Hk; rewrite D1; apply N1; lia|rewrite D1; rewrite <- B1; f_equal; lia|rewrite D1; rewrite <- B2; f_equal; lia|lia].
  change (0xda =? 0xc4) with false. change (0xda =? 0xc3) with false. change (0xda =? 0xd9) with false. change (0xda =? 0xda) with true. cbn beta iota. change (NONE =? NONE) with true. cbn beta iota.
  pose proof (halloc_spec ok HH2 C1) as HA. destruct (halloc ok HH2) as [rc H3]. destruct HA as (R1 & R2 & R3 & R4). destruct rc as [b|]; [|destruct R4 as [R4 _]; specialize (R4 eq_refl); rewrite Hok in R4; discriminate].
  intros _. eexists _, _, _, H3. split; [reflexivity|]. cbn [hp_close].
  destruct (release_spec {| k_self := s; k_lut := lut; k_row := Some b |} (lost ++ hp_live H) H3 R1) as (F1 & F2 & _).
  { rewrite R2, C2, A2. cbn [blocks k_self k_lut k_row oblk app]. transitivity (oblk lut ++ b :: lost ++ s :: hp_live H); [apply Permutation_middle|]. rewrite <- app_assoc. cbn [app].
    symmetry. transitivity (oblk lut ++ s :: b :: lost ++ hp_live H); [apply Permutation_middle|]. apply Permutation_app_head. rewrite perm_swap. apply Permutation_cons; [reflexivity|]. apply Permutation_middle. }
  split; [exact F1|]. exists lost. split; [exact F2|]. cbn [plus] in C3. destruct lut as [q0|]; [cbn [oblk length] in C3; lia|rewrite C4 by reflexivity; rewrite C4 in C3 by reflexivity; cbn [oblk length] in *; lia].
Qed.

(* the file of C70_example has two DHT segments: every time it is opened and closed one table is lost for good.  Closing a handle twice (the caller keeping
   it) would free what is not allocated. *)
Definition C88_h0 : heap := {| hp_n := 0; hp_live := []; hp_bad := false |}.
Definition C88_file : list Z := pn_file (C70_segs 4 1 1) 1 (C70_sel 1) [0; 0] [0; 0; 0; 0].
Definition C88_mem : lmem := fun k => if k <? 0 then 0 else nth (Z.to_nat k) C88_file 0.
Theorem C88_example :
  let '(r, _, _, lj, H1) := hp_open (fun _ => true) C88_mem (len C88_file) C88_h0 in
  r = NONE /\ lj = Some {| k_self := 0; k_lut := Some 2%nat; k_row := Some 3%nat |} /\ hp_live (hp_close lj H1) = [1%nat] /\
  hp_bad (hp_close lj H1) = false /\ hp_bad (hp_close lj (hp_close lj H1)) = true /\ pairs C88_mem (len C88_file) = 2%nat /\
  (let '(r, _, _, lj, H1) := hp_open (fun k => negb (Nat.eqb k 2)) C88_mem (len C88_file) C88_h0 in r = NO_MEMORY /\ lj = None /\ hp_live H1 = [] /\ hp_bad H1 = false).
Proof. vm_compute. auto 10. Qed.

(* C89: lj92_encode.  Whatever allocation fails: nothing is freed that is not allocated, an error leaves nothing behind, success leaves exactly the buffer that
   *encoded points to (realloc failing: LJ92_ERROR_NONE with a NULL pointer, and the buffer is lost) *)
Lemma hp_rows_spec ok n H H' : heap_ok H -> hp_rows ok n H = Some H' -> heap_ok H' /\ Permutation (hp_live H') (hp_live H) /\ hp_n H' = S (hp_n H).
Proof.
  intros HO. unfold hp_rows. pose proof (halloc_spec ok H HO) as HA. destruct (halloc ok H) as [rc H1]. destruct HA as (A1 & A2 & A3 & A4). destruct rc as [b|].
  - intros E. assert (EH : H' = hfree (Some b) H1) by congruence. subst H'. destruct (hfree_opt (Some b) (hp_live H) H1 A1 A2) as (B1 & B2 & B3). split; [exact B1|]. split; [exact B2|rewrite B3; exact A3].
  - destruct (0 <? n); [discriminate|]. intros E. injection E as <-. cbn [oblk app] in A2. auto.
Qed.
Lemma hp_rows_none ok n H : hp_rows ok n H = None <-> 0 < n /\ ok (hp_n H) = false.
Proof.
  unfold hp_rows, halloc. destruct (ok (hp_n H)); [split; [discriminate|intros [_ X]; discriminate]|]. destruct (0 <? n) eqn:E; [split; [intros _; split; [lia|reflexivity]|reflexivity]|split; [discriminate|intros [X _]; lia]].
Qed.
Theorem C89_encode : forall ok img w h bd rl sl delin mem0 H r out H', heap_ok H -> hp_encode ok img w h bd rl sl delin mem0 H = Some (r, out, H') ->
  heap_ok H' /\
  (r <> NONE -> out = None /\ Permutation (hp_live H') (hp_live H)) /\
  (r = NONE -> exists b, Permutation (hp_live H') (b :: hp_live H) /\ (out = Some b \/ out = None /\ ok (hp_n H' - 1)%nat = false)).
Proof.
  intros ok img w h bd rl sl delin mem0 H r out H' HO. unfold hp_encode. pose proof (halloc_spec ok H HO) as HA. destruct (halloc ok H) as [self H1]. destruct HA as (A1 & A2 & A3 & A4). destruct self as [s|].
  2:{ intros E. injection E as <- <- <-. cbn [oblk app] in A2. split; [exact A1|]. split; [intros _; split; [reflexivity|exact A2]|discriminate]. }
  pose proof (halloc_spec ok H1 A1) as HA. destruct (halloc ok H1) as [enc H2]. destruct HA as (B1 & B2 & B3 & B4). destruct enc as [e|].
  2:{ intros E. injection E as <- <- <-. cbn [oblk app] in B2. destruct (hfree_opt (Some s) (hp_live H) H2 B1 ltac:(rewrite B2; exact A2)) as (C1 & C2 & _). split; [exact C1|]. split; [intros _; split; [reflexivity|exact C2]|discriminate]. }
  destruct (hp_rows ok (w * h) H2) as [H3|] eqn:E3; [|discriminate]. destruct (hp_rows_spec _ _ _ _ B1 E3) as (D1 & D2 & D3).
  destruct (hp_rows ok (w * h) H3) as [H4|] eqn:E4; [|discriminate]. destruct (hp_rows_spec _ _ _ _ D1 E4) as (F1 & F2 & F3).
  assert (P4 : Permutation (hp_live H4) (e :: s :: hp_live H)) by (rewrite F2, D2, B2; cbn [oblk app]; apply Permutation_cons; [reflexivity|exact A2]).
  destruct (lj92_encode img w h bd rl sl delin mem0) as [[re me] ne]. destruct (re =? NONE) eqn:Er.
  - unfold hrealloc. pose proof (halloc_spec ok H4 F1) as HA. destruct (ok (hp_n H4)) eqn:Ek.
    + destruct (halloc ok H4) as [q H5]. destruct HA as (G1 & G2 & G3 & G4). destruct q as [q|]; [|destruct G4 as [G4 _]; specialize (G4 eq_refl); congruence].
      intros E. injection E as <- <- <-. destruct (hfree_opt (Some e) (q :: s :: hp_live H) H5 G1) as (I1 & I2 & _). { rewrite G2, P4. cbn [oblk app]. apply perm_swap. }
      destruct (hfree_opt (Some s) (q :: hp_live H) _ I1) as (J1 & J2 & _). { rewrite I2. cbn [oblk app]. apply perm_swap. }
      split; [exact J1|]. split; [intros X; contradiction X; reflexivity|]. intros _. exists q. split; [exact J2|left; reflexivity].
    + destruct (halloc ok H4) as [q H5]. destruct HA as (G1 & G2 & G3 & G4). destruct q as [q|]; [destruct G4 as [_ G4]; specialize (G4 eq_refl); discriminate|].
      intros E. assert (X1 : r = NONE /\ out = None /\ H' = hfree (Some s) H5) by (split; [|split]; congruence). destruct X1 as (-> & -> & ->). clear E. cbn [oblk app] in G2. destruct (hfree_opt (Some s) (e :: hp_live H) H5 G1) as (J1 & J2 & J3). { rewrite G2, P4. cbn [oblk app]. apply perm_swap. }
      split; [exact J1|]. split; [intros X; contradiction X; reflexivity|]. intros _. exists e. split; [exact J2|right; split; [reflexivity|]]. rewrite J3, G3. cbn [Nat.sub]. rewrite Nat.sub_0_r. exact Ek.
  - intros E. injection E as <- <- <-. destruct (hfree_opt (Some e) (s :: hp_live H) H4 F1 P4) as (I1 & I2 & _). destruct (hfree_opt (Some s) (hp_live H) _ I1 I2) as (J1 & J2 & _).
    split; [exact J1|]. split; [intros _; split; [reflexivity|exact J2]|]. intros ->. discriminate.
Qed.
(* it dies exactly if there is a pixel and the rowcache of one of the two passes cannot be allocated *)
Theorem C89_dies : forall ok img w h bd rl sl delin mem0 H, heap_ok H ->
  (hp_encode ok img w h bd rl sl delin mem0 H = None <->
   0 < w * h /\ let n := hp_n H in ok n = true /\ ok (n + 1)%nat = true /\ (ok (n + 2)%nat = false \/ ok (n + 3)%nat = false)).
Proof.
  intros ok img w h bd rl sl delin mem0 H HO. unfold hp_encode. pose proof (halloc_spec ok H HO) as HA. destruct (halloc ok H) as [self H1]. destruct HA as (A1 & A2 & A3 & A4). cbv zeta.
  destruct self as [s|]; [|destruct A4 as [A4 _]; specialize (A4 eq_refl); split; [discriminate|intros (_ & X & _); congruence]].
  pose proof (halloc_spec ok H1 A1) as HA. destruct (halloc ok H1) as [enc H2]. destruct HA as (B1 & B2 & B3 & B4).
  assert (T0 : ok (hp_n H) = true) by (destruct (ok (hp_n H)); [reflexivity|destruct A4 as [_ A4]; specialize (A4 eq_refl); discriminate]).
  assert (N1 : hp_n H1 = (hp_n H + 1)%nat) by lia. rewrite N1 in B4.
  destruct enc as [e|]; [|destruct B4 as [B4 _]; specialize (B4 eq_refl); split; [discriminate|intros (_ & _ & X & _); congruence]].
  assert (T1 : ok (hp_n H + 1)%nat = true) by (destruct (ok (hp_n H + 1)%nat); [reflexivity|destruct B4 as [_ B4]; specialize (B4 eq_refl); discriminate]).
  assert (N2 : hp_n H2 = (hp_n H + 2)%nat) by lia. pose proof (hp_rows_none ok (w * h) H2) as R2. rewrite N2 in R2.
  destruct (hp_rows ok (w * h) H2) as [H3|] eqn:E3; [|split; [intros _; destruct R2 as [R2 _]; specialize (R2 eq_refl); tauto|reflexivity]].
  destruct (hp_rows_spec _ _ _ _ B1 E3) as (D1 & D2 & D3). assert (N3 : hp_n H3 = (hp_n H + 3)%nat) by lia. pose proof (hp_rows_none ok (w * h) H3) as R3. rewrite N3 in R3.
  destruct (hp_rows ok (w * h) H3) as [H4|] eqn:E4; [|split; [intros _; destruct R3 as [R3 _]; specialize (R3 eq_refl); tauto|reflexivity]].
  split.
  - destruct (lj92_encode _ _ _ _ _ _ _ _) as [[re me] ne]. destruct (re =? NONE); [destruct (hrealloc ok (Some e) H4); discriminate|discriminate].
  - intros (X & _ & _ & [Y|Y]); [destruct R2 as [_ R2]; specialize (R2 (conj X Y)); discriminate|destruct R3 as [_ R3]; specialize (R3 (conj X Y)); discriminate].
Qed.
(* all allocations succeed: the result is the one of lj92_encode (M_Enc92.v); five blocks have been asked for *)
Theorem C89_same : forall ok img w h bd rl sl delin mem0 H, heap_ok H -> (forall k, ok k = true) ->
  exists out H', hp_encode ok img w h bd rl sl delin mem0 H = Some (fst (fst (lj92_encode img w h bd rl sl delin mem0)), out, H') /\
    (fst (fst (lj92_encode img w h bd rl sl delin mem0)) = NONE -> exists b, out = Some b /\ Permutation (hp_live H') (b :: hp_live H)) /\
    (fst (fst (lj92_encode img w h bd rl sl delin mem0)) <> NONE -> out = None /\ Permutation (hp_live H') (hp_live H)).
Proof.
  intros ok img w h bd rl sl delin mem0 H HO Hok.
  destruct (hp_encode ok img w h bd rl sl delin mem0 H) as [[[r out] H']|] eqn:E.
  2:{ apply C89_dies in E; [|exact HO]. destruct E as (_ & _ & _ & [E|E]); rewrite Hok in E; discriminate. }
  destruct (C89_encode _ _ _ _ _ _ _ _ _ _ _ _ _ HO E) as (_ & G2 & G3).
  assert (Er : r = fst (fst (lj92_encode img w h bd rl sl delin mem0))).
  { revert E. unfold hp_encode, hp_rows, hrealloc, halloc. rewrite ?Hok. cbn [hp_n]. rewrite ?Hok. destruct (lj92_encode img w h bd rl sl delin mem0) as [[re me] ne]. cbn [fst].
    destruct (re =? NONE) eqn:Er; intros E; injection E as <- _ _; [apply Z.eqb_eq in Er; auto|reflexivity]. }
  exists out, H'. rewrite <- Er. split; [reflexivity|]. split; [|exact G2]. intros X. destruct (G3 X) as (b & P & [Q|[_ Q]]); [exists b; auto|rewrite Hok in Q; discriminate].
Qed.
(* a 2 x 2 image; the fifth allocation (realloc) failing; the third (rowcache) failing *)
Theorem C89_example :
  let img : lmem := fun k => 100 * k in
  (match hp_encode (fun _ => true) img 2 2 12 2 0 None (fun _ => 0) C88_h0 with Some (r, out, H) => r = NONE /\ out = Some 4%nat /\ hp_live H = [4%nat] /\ hp_bad H = false | None => False end) /\
  (match hp_encode (fun k => negb (Nat.eqb k 4)) img 2 2 12 2 0 None (fun _ => 0) C88_h0 with Some (r, out, H) => r = NONE /\ out = None /\ hp_live H = [1%nat] | None => False end) /\
  hp_encode (fun k => negb (Nat.eqb k 2)) img 2 2 12 2 0 None (fun _ => 0) C88_h0 = None.
Proof. vm_compute. auto 10. Qed.
