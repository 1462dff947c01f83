(* liblj92 with SLOW_HUFF: the scan in lockstep with the table-driven build *)
From Verif Require Import Bits M_Lj92 M_Pred6 M_Slow P_Pred6.
Ltac Zify.zify_post_hook ::= idtac.

Definition seto (o : bool) (s : nd_st) : nd_st := {| n_b := n_b s; n_cnt := n_cnt s; n_ix := n_ix s; n_hi := n_hi s; n_oob := o |}.

(* a for loop with its two exits: (true, state after) or (false, state in which the body returned) *)
Definition run1 {A} (body : Z -> A -> option A) (stop : Z -> A -> A) (i : Z) (x : A) : bool * A := match body i x with Some y => (true, y) | None => (false, stop i x) end.
Definition for_run {A} (n : nat) (i : Z) (body : Z -> A -> option A) (stop : Z -> A -> A) (x : A) : bool * A :=
  match for_loop n i body x with Some y => (true, y) | None => (false, for_stop n i body stop x) end.
Lemma for_run_S {A} n i body stop (x : A) : for_run (S n) i body stop x = let (go, y) := run1 body stop i x in if go then for_run n (i + 1) body stop y else (false, y).
Proof. unfold for_run, run1. cbn [for_loop for_stop]. destruct (body i x) as [y|]; reflexivity. Qed.

Section Loops.
Variables (A : Type) (R : A -> A -> Prop) (bd : A -> bool) (bad : Prop).
Definition RR (p1 p2 : bool * A) : Prop := (fst p1 = fst p2 /\ R (snd p1) (snd p2)) \/ (bd (snd p1) = true /\ (bd (snd p2) = true \/ bad)).
Definition mono (f : A -> bool * A) : Prop := forall x, bd x = true -> bd (snd (f x)) = true.
Definition okk (f1 f2 : A -> bool * A) : Prop := (forall x1 x2, R x1 x2 -> RR (f1 x1) (f2 x2)) /\ mono f1 /\ mono f2.
Lemma for_run_mono body stop : (forall i, mono (run1 body stop i)) -> forall n i, mono (for_run n i body stop).
Proof.
  intros H. induction n as [|n IH]; intros i x Hx; [exact Hx|]. rewrite for_run_S. specialize (H i x Hx). destruct (run1 body stop i x) as [[|] y]; [apply IH; exact H|exact H].
Qed.
Lemma for_run_okk b1 st1 b2 st2 : (forall i, okk (run1 b1 st1 i) (run1 b2 st2 i)) -> forall n i, okk (for_run n i b1 st1) (for_run n i b2 st2).
Proof.
  intros H n i. split; [|split; apply for_run_mono; intros j; apply H]. revert i. induction n as [|n IH]; intros i x1 x2 HR; [left; split; [reflexivity|exact HR]|].
  rewrite !for_run_S. destruct (H i) as (H1 & _ & _). specialize (H1 x1 x2 HR). pose proof (for_run_mono b1 st1 (fun j => proj1 (proj2 (H j))) n (i + 1)) as M1. pose proof (for_run_mono b2 st2 (fun j => proj2 (proj2 (H j))) n (i + 1)) as M2.
  destruct (run1 b1 st1 i x1) as [g1 y1], (run1 b2 st2 i x2) as [g2 y2]. destruct H1 as [[E HR1]|[B1 B2]]; cbn [fst snd] in *.
  - subst g2. destruct g1; [apply IH; exact HR1|left; split; [reflexivity|exact HR1]].
  - right. split; [destruct g1; [apply M1; exact B1|exact B1]|]. destruct B2 as [B2|B2]; [left|right; exact B2]. destruct g2; [apply M2; exact B2|exact B2].
Qed.
End Loops.

Section Lock.
Variables (nd1 nd2 : nd_st -> Z * nd_st) (rel : nd_st -> nd_st -> Prop) (bad : Prop).
Hypothesis Hrel : forall s1 s2, rel s1 s2 -> let '(v1, s1') := nd1 s1 in let '(v2, s2') := nd2 s2 in
  (n_oob s1' = n_oob s1 /\ n_oob s2' = n_oob s2 /\ v1 = v2 /\ rel s1' s2') \/ (n_oob s1' = true /\ (n_oob s2' = true \/ bad)).
Hypothesis Hseto : forall o1 o2 s1 s2, rel s1 s2 -> rel (seto o1 s1) (seto o2 s2).
Hypothesis Hm1 : forall s, n_oob s = true -> n_oob (snd (nd1 s)) = true.
Hypothesis Hm2 : forall s, n_oob s = true -> n_oob (snd (nd2 s)) = true.
Hypothesis Hix : forall s1 s2, rel s1 s2 -> n_ix s2 <= n_ix s1.
Variables (h : lj_hdr) (a : dec_arg).

(* ------------------------------------------------------------------ parseScan *)
Definition srel (x y : sc_st) : Prop :=
  rel (s_nd x) (s_nd y) /\ n_oob (s_nd x) = n_oob (s_nd y) /\ s_rows x = s_rows y /\ s_img x = s_img y /\ s_left x = s_left y /\ s_this x = s_this y /\ s_last x = s_last y /\ s_out x = s_out y.
Definition soob (x : sc_st) : bool := n_oob (s_nd x).

Lemma sample_px_eq pred row col c x y : srel x y -> sample_px h pred row col c x = sample_px h pred row col c y.
Proof. intros (_ & _ & E1 & _ & E2 & E3 & E4 & _). unfold sample_px. rewrite E1, E2, E3, E4. reflexivity. Qed.
Lemma sample_okk pred row col c : okk _ srel soob bad (run1 (fun c => sample_g nd1 h pred a row col c) (fun c => sample_stop_g nd1 h pred row col c) c) (run1 (fun c => sample_g nd2 h pred a row col c) (fun c => sample_stop_g nd2 h pred row col c) c).
Proof.
  assert (MM : forall nd, (forall s, n_oob s = true -> n_oob (snd (nd s)) = true) -> mono _ soob (run1 (fun c => sample_g nd h pred a row col c) (fun c => sample_stop_g nd h pred row col c) c)).
  { intros nd Hm x Hx. unfold soob in *. specialize (Hm _ Hx). unfold run1, sample_g, sample_stop_g. destruct (sample_px h pred row col c x) as [px ok]. destruct (nd (s_nd x)) as [df s']. cbn [snd] in Hm.
    destruct (da_lin a) as [f|]; [destruct (da_linlen a <? _)|]; cbn [snd s_nd n_oob]; rewrite Hm; reflexivity. }
  split; [|split; apply MM; assumption]. intros x y HR. pose proof (sample_px_eq pred row col c x y HR) as EP. destruct HR as (R & RO & E1 & E2 & E3 & E4 & E5 & E6). pose proof (Hrel _ _ R) as HN.
  unfold run1, sample_g, sample_stop_g. rewrite EP. destruct (sample_px h pred row col c y) as [px ok]. destruct (nd1 (s_nd x)) as [v1 s1]. destruct (nd2 (s_nd y)) as [v2 s2].
  destruct HN as [(O1 & O2 & -> & R')|(O1 & O2)].
  - left. rewrite E1, E2, E4, E5, E6. set (left := trunc 16 _).
    assert (K : forall o1 o2, o1 = o2 -> rel {| n_b := n_b s1; n_cnt := n_cnt s1; n_ix := n_ix s1; n_hi := n_hi s1; n_oob := o1 |} {| n_b := n_b s2; n_cnt := n_cnt s2; n_ix := n_ix s2; n_hi := n_hi s2; n_oob := o2 |}) by (intros o1 o2 _; apply (Hseto o1 o2); exact R').
    assert (EO : n_oob s1 = n_oob s2) by congruence.
    destruct (da_lin a) as [f|]; [destruct (da_linlen a <? left)|]; cbn [fst snd]; (split; [reflexivity|]); unfold srel; cbn [s_nd s_rows s_img s_left s_this s_last s_out n_oob]; rewrite ?EO; repeat split; try (apply K; reflexivity); auto.
  - right. unfold soob. split.
    + destruct (da_lin a) as [f|]; [destruct (da_linlen a <? _)|]; cbn [fst snd s_nd n_oob]; rewrite O1; reflexivity.
    + destruct O2 as [O2|O2]; [left|right; exact O2]. destruct (da_lin a) as [f|]; [destruct (da_linlen a <? _)|]; cbn [fst snd s_nd n_oob]; rewrite O2; reflexivity.
Qed.
Lemma run1_loop {A} n (body : Z -> Z -> A -> option A) stop col : run1 (fun col => for_loop n 0 (body col)) (fun col => for_stop n 0 (body col) (stop col)) col = for_run n 0 (body col) (stop col).
Proof. reflexivity. Qed.
Lemma okk_ext {A} (R : A -> A -> Prop) b bd f1 f2 g1 g2 : (forall x, f1 x = g1 x) -> (forall x, f2 x = g2 x) -> okk A R b bd g1 g2 -> okk A R b bd f1 f2.
Proof. intros E1 E2 (H1 & H2 & H3). split; [intros x y HR; rewrite E1, E2; apply H1; exact HR|]. split; intros x Hx; [rewrite E1; apply H2|rewrite E2; apply H3]; exact Hx. Qed.

Definition row_stop nd pred row : sc_st -> sc_st :=
  for_stop (Z.to_nat (j_x h)) 0 (fun col => for_loop (Z.to_nat (j_comp h)) 0 (fun c => sample_g nd h pred a row col c))
       (fun col => for_stop (Z.to_nat (j_comp h)) 0 (fun c => sample_g nd h pred a row col c) (fun c => sample_stop_g nd h pred row col c)).
Definition swp (s : sc_st) : sc_st :=
  {| s_nd := s_nd s; s_rows := s_rows s; s_img := s_img s; s_left := s_left s; s_this := s_last s; s_last := s_this s; s_out := s_out s + (j_x h * j_comp h + da_skip a) |}.
Lemma row_okk pred row : okk _ srel soob bad (run1 (scan_row_g nd1 h pred a) (row_stop nd1 pred) row) (run1 (scan_row_g nd2 h pred a) (row_stop nd2 pred) row).
Proof.
  set (cr nd := for_run (Z.to_nat (j_x h)) 0 (fun col => for_loop (Z.to_nat (j_comp h)) 0 (fun c => sample_g nd h pred a row col c))
       (fun col => for_stop (Z.to_nat (j_comp h)) 0 (fun c => sample_g nd h pred a row col c) (fun c => sample_stop_g nd h pred row col c))).
  assert (E : forall nd x, run1 (scan_row_g nd h pred a) (row_stop nd pred) row x = let (go, y) := cr nd x in if go then (true, swp y) else (false, y)).
  { intros nd x. unfold run1, scan_row_g, cr, for_run, scan_cols_g, row_stop. destruct (for_loop _ _ _ _); reflexivity. }
  assert (KO : okk _ srel soob bad (cr nd1) (cr nd2)).
  { apply for_run_okk. intros col. rewrite !(run1_loop (Z.to_nat (j_comp h)) (fun col c => sample_g _ h pred a row col c) (fun col c => sample_stop_g _ h pred row col c) col). apply for_run_okk. intros c. apply sample_okk. }
  apply (okk_ext _ _ _ _ _ _ _ (E nd1) (E nd2)). destruct KO as (K1 & K2 & K3). split; [|split].
  - intros x y HR. specialize (K1 x y HR). destruct (cr nd1 x) as [g1 y1], (cr nd2 y) as [g2 y2]. destruct K1 as [[EG HR1]|[B1 B2]]; cbn [fst snd] in *.
    + subst g2. left. destruct g1; (split; [reflexivity|]); [|exact HR1]. destruct HR1 as (? & ? & ? & ? & ? & ? & ? & ?). unfold srel, swp. cbn [snd s_nd s_rows s_img s_left s_this s_last s_out]. repeat split; auto. congruence.
    + right. unfold soob in *. split; [destruct g1; exact B1|]. destruct B2 as [B2|B2]; [left|right; exact B2]. destruct g2; exact B2.
  - intros x Hx. specialize (K2 x Hx). destruct (cr nd1 x) as [[|] y1]; exact K2.
  - intros x Hx. specialize (K3 x Hx). destruct (cr nd2 x) as [[|] y1]; exact K3.
Qed.
Lemma scan_rel pred n s1 s2 : srel s1 s2 ->
  let r nd s := for_run n 0 (scan_row_g nd h pred a) (row_stop nd pred) s in RR _ srel soob bad (r nd1 s1) (r nd2 s2).
Proof. intros HR. apply (for_run_okk _ srel soob bad _ _ _ _ (row_okk pred)). exact HR. Qed.

(* lj92_decode, not predictor 6 *)
Lemma decode_rel d rows img : (forall s1 s2, n_ix s1 = n_ix s2 -> n_cnt s1 = 0 -> n_cnt s2 = 0 -> n_b s1 = 0 -> n_b s2 = 0 -> rel s1 s2) ->
  match decode_g nd1 d h a rows img, decode_g nd2 d h a rows img with
  | None, None => True
  | Some (r1, s1), Some (r2, s2) => (r1 = r2 /\ s_img s1 = s_img s2 /\ s_rows s1 = s_rows s2 /\ n_oob (s_nd s1) = n_oob (s_nd s2)) \/ (n_oob (s_nd s1) = true /\ (n_oob (s_nd s2) = true \/ bad))
  | _, _ => False
  end.
Proof.
  intros H0. unfold decode_g. cbv zeta. set (pred := d _). set (s0 := {| s_nd := _; s_rows := rows; s_img := img; s_left := _; s_this := _; s_last := _; s_out := _ |}).
  assert (R0 : srel s0 s0) by (unfold srel; repeat split; apply H0; reflexivity).
  destruct (7 <? pred); [left; repeat split|]. destruct (pred =? 6); [exact I|].
  pose proof (scan_rel pred (Z.to_nat (j_y h)) s0 s0 R0) as K. cbv zeta in K. unfold for_run in K.
  change (scan_stop_g nd1 h pred a s0) with (for_stop (Z.to_nat (j_y h)) 0 (scan_row_g nd1 h pred a) (row_stop nd1 pred) s0).
  change (scan_stop_g nd2 h pred a s0) with (for_stop (Z.to_nat (j_y h)) 0 (scan_row_g nd2 h pred a) (row_stop nd2 pred) s0).
  destruct (for_loop (Z.to_nat (j_y h)) 0 (scan_row_g nd1 h pred a) s0) as [x1|], (for_loop (Z.to_nat (j_y h)) 0 (scan_row_g nd2 h pred a) s0) as [x2|];
    (destruct K as [[E HR]|K]; [left; cbn [fst snd] in *; try discriminate E; destruct HR as (? & ? & ? & ? & _); auto|right; exact K]).
Qed.

(* ------------------------------------------------------------------ parsePred6 *)
Definition prel (x y : p6_st) : Prop :=
  rel (q_nd x) (q_nd y) /\ n_oob (q_nd x) = n_oob (q_nd y) /\ q_rows x = q_rows y /\ q_img x = q_img y /\ q_left x = q_left y /\ q_this x = q_this y /\ q_last x = q_last y /\
  q_col x = q_col y /\ q_c x = q_c y /\ q_out x = q_out y /\ q_write x = q_write y.
Definition poob (x : p6_st) : bool := n_oob (q_nd x).
Lemma put_lock chk px ok x y x' : prel x y -> p6_put_g nd1 h a chk px ok x = Go x' -> poob x' = false ->
  exists y', p6_put_g nd2 h a chk px ok y = Go y' /\ prel x' y' /\ q_c x' = q_c x + 1.
Proof.
  intros (R & RO & E1 & E2 & E3 & E4 & E5 & E6 & E7 & E8 & E9) HG Ho. pose proof (Hrel _ _ R) as HN. unfold p6_put_g in *. destruct (nd1 (q_nd x)) as [v1 s1]. destruct (nd2 (q_nd y)) as [v2 s2].
  destruct HN as [(O1 & O2 & -> & R')|(O1 & O2)].
  - set (left := trunc 16 _) in *. assert (EO : n_oob s1 = n_oob s2) by congruence.
    destruct (da_lin a) as [f|]; [destruct (chk && (da_linlen a <? left)); [discriminate HG|]|]; injection HG as <-; eexists; (split; [reflexivity|]); unfold prel; cbn [q_nd q_rows q_img q_left q_this q_last q_col q_c q_out q_write n_oob];
      rewrite <- E1, <- E2, <- E4, <- E5, <- E6, <- E7, <- E8, <- E9, EO; (split; [|reflexivity]); (split; [apply (Hseto _ _ s1 s2 R')|]); repeat split.
  - exfalso. unfold poob in Ho. destruct (da_lin a) as [f|]; [destruct (chk && (da_linlen a <? _)); [discriminate HG|]|]; injection HG as <-; cbn [q_nd n_oob] in Ho; rewrite O1 in Ho; discriminate.
Qed.
Lemma put_mono chk px ok x x' : p6_put_g nd1 h a chk px ok x = Go x' -> poob x' = false -> poob x = false.
Proof.
  unfold p6_put_g, poob. intros HG Ho. destruct (n_oob (q_nd x)) eqn:E; [|reflexivity]. pose proof (Hm1 _ E) as HM. destruct (nd1 (q_nd x)) as [v s]. cbn [snd] in HM.
  destruct (da_lin a) as [f|]; [destruct (chk && (da_linlen a <? _)); [discriminate HG|]|]; injection HG as <-; cbn [q_nd n_oob] in Ho; rewrite HM in Ho; discriminate.
Qed.
Lemma skip_lock wl x y : prel x y -> prel (p6_skip a wl x) (p6_skip a wl y).
Proof. intros (R & RO & E1 & E2 & E3 & E4 & E5 & E6 & E7 & E8 & E9). unfold prel, p6_skip. cbn [q_nd q_rows q_img q_left q_this q_last q_col q_c q_out q_write]. rewrite E8, E9. repeat split; assumption. Qed.
Lemma end_lock dl x y : prel x y -> p6_end dl x = false -> p6_end dl y = false.
Proof. intros (R & _) H. unfold p6_end in *. apply Hix in R. lia. Qed.
Lemma loop_lock body1 body2 : (forall x x', body1 x = Go x' -> poob x' = false -> poob x = false) ->
  (forall x y x', prel x y -> body1 x = Go x' -> poob x' = false -> exists y', body2 y = Go y' /\ prel x' y' /\ q_c x' = q_c x + 1) ->
  forall n, (forall x x', p6_loop n body1 x = Go x' -> poob x' = false -> poob x = false) /\
    (forall x y x', prel x y -> p6_loop n body1 x = Go x' -> poob x' = false -> exists y', p6_loop n body2 y = Go y' /\ prel x' y' /\ q_c x' = q_c x + Z.of_nat n).
Proof.
  intros HM HB. induction n as [|n [I1 I2]]; (split; [intros x x' HG Ho|intros x y x' HR HG Ho]); cbn [p6_loop] in *.
  - injection HG as <-. exact Ho.
  - injection HG as <-. exists y. split; [reflexivity|]. split; [exact HR|lia].
  - destruct (body1 x) as [x1|] eqn:E1; [|discriminate HG]. apply (HM x x1 E1). apply (I1 x1 x' HG Ho).
  - destruct (body1 x) as [x1|] eqn:E1; [|discriminate HG]. destruct (HB x y x1 HR E1 (I1 _ _ HG Ho)) as (y1 & F1 & R1 & C1). rewrite F1. destruct (I2 x1 y1 x' R1 HG Ho) as (y' & F2 & R2 & C2). exists y'. split; [exact F2|]. split; [exact R2|lia].
Qed.
Lemma first_body_lock dl wl : let body nd := p6_first_body_g nd dl h a wl in
  (forall x x', body nd1 x = Go x' -> poob x' = false -> poob x = false) /\
  (forall x y x', prel x y -> body nd1 x = Go x' -> poob x' = false -> exists y', body nd2 y = Go y' /\ prel x' y' /\ q_c x' = q_c x + 1).
Proof.
  cbv zeta. unfold p6_first_body_g. split.
  - intros x x' HG Ho. destruct (p6_put_g nd1 h a false (q_left x) true x) as [x1|] eqn:E1; [|discriminate HG]. destruct (p6_end dl x1); [discriminate HG|]. injection HG as <-. apply (put_mono _ _ _ _ _ E1). exact Ho.
  - intros x y x' HR HG Ho. destruct (p6_put_g nd1 h a false (q_left x) true x) as [x1|] eqn:E1; [|discriminate HG]. destruct (p6_end dl x1) eqn:Ee; [discriminate HG|]. injection HG as <-.
    destruct (put_lock _ _ _ _ _ _ HR E1 Ho) as (y1 & F1 & R1 & C1). assert (EL : q_left x = q_left y) by apply HR. rewrite <- EL, F1. rewrite (end_lock dl _ _ R1 Ee). eexists. split; [reflexivity|]. split; [apply skip_lock; exact R1|exact C1].
Qed.
Lemma row_body_lock wl : let body nd := p6_row_body_g nd h a wl in
  (forall x x', body nd1 x = Go x' -> poob x' = false -> poob x = false) /\
  (forall x y x', prel x y -> body nd1 x = Go x' -> poob x' = false -> exists y', body nd2 y = Go y' /\ prel x' y' /\ q_c x' = q_c x + 1).
Proof.
  cbv zeta. unfold p6_row_body_g. split.
  - intros x x' HG Ho. destruct (p6_put_g _ _ _ _ _ _ _) as [x1|] eqn:E1; [|discriminate HG]. injection HG as <-. apply (put_mono _ _ _ _ _ E1). exact Ho.
  - intros x y x' HR HG Ho. destruct (p6_put_g nd1 _ _ _ _ _ _) as [x1|] eqn:E1; [|discriminate HG]. injection HG as <-.
    destruct (put_lock _ _ _ _ _ _ HR E1 Ho) as (y1 & F1 & R1 & C1). pose proof HR as (_ & _ & G1 & _ & G3 & _ & G5 & G6 & _). rewrite <- G1, <- G3, <- G5, <- G6. rewrite F1. eexists. split; [reflexivity|]. split; [apply skip_lock; exact R1|exact C1].
Qed.
(* one row: the table-driven build goes on, or stops successfully *)
Lemma row_lock dl wl x y : 1 <= j_x h < 65536 -> 0 <= j_y h < 65536 -> prel x y -> forall r, p6_row_g nd1 dl h a wl x = r ->
  match r with
  | Go x' => poob x' = false -> (exists y', p6_row_g nd2 dl h a wl y = Go y' /\ prel x' y' /\ q_c x' = q_c x + j_x h) /\ poob x = false
  | Ret c x' => c = NONE -> poob x' = false -> (exists k, q_c x = k * j_x h) -> 0 <= q_c x < pixels h ->
      poob x = false /\ exists y', (p6_row_g nd2 dl h a wl y = Go y' \/ p6_row_g nd2 dl h a wl y = Ret NONE y') /\ n_oob (q_nd y') = false /\ q_img y' = q_img x' /\ q_rows y' = q_rows x' /\ pixels h <= q_c y'
  end.
Proof.
  intros Hx Hy HR r. pose proof (pixels_cases h ltac:(lia) Hy) as PX. pose proof (rowcount_pos h Hx) as RC. unfold p6_row_g. cbv zeta.
  assert (R0 : prel (p6_col0 x) (p6_col0 y)) by (destruct HR as (? & ? & ? & ? & ? & ? & ? & ? & ? & ? & ?); unfold prel, p6_col0; cbn [q_nd q_rows q_img q_left q_this q_last q_col q_c q_out q_write]; repeat split; assumption).
  assert (Eput : p6_put_g nd2 h a true (q_rows (p6_col0 y) (q_last (p6_col0 y))) (row_ok h (q_last (p6_col0 y))) (p6_col0 y) = p6_put_g nd2 h a true (q_rows (p6_col0 x) (q_last (p6_col0 x))) (row_ok h (q_last (p6_col0 x))) (p6_col0 y)).
  { destruct R0 as (_ & _ & G1 & _ & _ & _ & G5 & _). rewrite G1, G5. reflexivity. }
  rewrite Eput. change (poob x) with (poob (p6_col0 x)). change (q_c x) with (q_c (p6_col0 x)). destruct (p6_put_g nd1 h a true _ _ (p6_col0 x)) as [x1|c1 x1] eqn:E1.
  2:{ intros <- Hc. exfalso. unfold p6_put_g in E1. destruct (nd1 _) as [v s]. destruct (da_lin a) as [f|]; [destruct (true && (da_linlen a <? _)); [injection E1 as <- <-; discriminate Hc|discriminate E1]|discriminate E1]. }
  destruct (row_body_lock wl) as [RB1 RB2]. destruct (loop_lock _ _ RB1 RB2 (Z.to_nat (rowcount h))) as [L1 L2].
  assert (Hend : forall z z' : p6_st, q_c z = q_c z' -> (if pixels h <=? q_c z then NONE else CORRUPT) = (if pixels h <=? q_c z' then NONE else CORRUPT)) by (intros z z' ->; reflexivity).
  destruct (p6_end dl x1) eqn:Ee1.
  - intros <- Hc Ho (k & Hk) Hlt. assert (HP : pixels h = j_y h * j_x h) by lia. pose proof (put_mono _ _ _ _ _ E1 Ho) as Hm0. split; [exact Hm0|]. destruct (put_lock _ _ _ _ _ _ R0 E1 Ho) as (y1 & F1 & R1 & C1). rewrite F1.
    assert (Hfin : pixels h <= q_c x1) by (destruct (pixels h <=? q_c x1) eqn:EE; [lia|discriminate Hc]).
    assert (X1 : j_x h = 1). { assert (E : (j_y h - k) * j_x h = 1) by (rewrite Z.mul_sub_distr_r; lia). assert (0 < j_y h - k) by nia. nia. }
    replace (Z.to_nat (rowcount h)) with 0%nat by (rewrite RC; lia). cbn [p6_loop].
    pose proof R1 as (R1a & R1b & R1c & R1d & R1e & R1f & R1g & R1h & R1i & _). unfold poob in Ho.
    assert (Hq : (pixels h <=? q_c y1) = true) by lia.
    destruct (p6_end dl y1).
    + eexists. split; [right; rewrite Hq; reflexivity|]. split; [congruence|]. split; [congruence|]. split; [congruence|]. lia.
    + destruct (p6_end dl (p6_swap (p6_skip a wl y1))).
      * eexists. split; [right; change (q_c (p6_swap (p6_skip a wl y1))) with (q_c y1); rewrite Hq; reflexivity|]. unfold p6_swap, p6_skip. cbn [q_nd q_img q_rows q_c]. split; [congruence|]. split; [congruence|]. split; [congruence|]. lia.
      * eexists. split; [left; reflexivity|]. unfold p6_swap, p6_skip. cbn [q_nd q_img q_rows q_c]. split; [congruence|]. split; [congruence|]. split; [congruence|]. lia.
  - destruct (p6_loop (Z.to_nat (rowcount h)) (p6_row_body_g nd1 h a wl) (p6_skip a wl x1)) as [x2|c2 x2] eqn:E2.
    2:{ intros <- Hc. exfalso. clear L1 L2. subst c2. remember (p6_skip a wl x1) as z eqn:Ez. clear Ez. revert z E2. induction (Z.to_nat (rowcount h)) as [|n IHn]; intros z E2; cbn [p6_loop] in E2; [discriminate|].
        destruct (p6_row_body_g nd1 h a wl z) as [z1|c z1] eqn:Eb; [apply (IHn z1 E2)|]. injection E2 as -> ->. unfold p6_row_body_g in Eb. cbv zeta in Eb. match type of Eb with context [p6_put_g ?n ?h0 ?a0 ?c0 ?p0 ?o0 ?s0] => destruct (p6_put_g n h0 a0 c0 p0 o0 s0) as [w|cw w] eqn:Ew end; [discriminate|]. injection Eb as -> ->.
        unfold p6_put_g in Ew. destruct (nd1 _) as [v s]. destruct (da_lin a) as [f|]; [destruct (true && (da_linlen a <? _)); [discriminate Ew|discriminate Ew]|discriminate Ew]. }
    assert (KK : poob (p6_swap x2) = false -> poob (p6_col0 x) = false /\ exists y1 y2, p6_put_g nd2 h a true (q_rows (p6_col0 x) (q_last (p6_col0 x))) (row_ok h (q_last (p6_col0 x))) (p6_col0 y) = Go y1 /\ p6_end dl y1 = false /\
              p6_loop (Z.to_nat (rowcount h)) (p6_row_body_g nd2 h a wl) (p6_skip a wl y1) = Go y2 /\ prel (p6_swap x2) (p6_swap y2) /\ q_c x2 = q_c (p6_col0 x) + j_x h).
    { intros Ho. change (poob (p6_swap x2)) with (poob x2) in Ho. pose proof (L1 _ _ E2 Ho) as Ho1. change (poob (p6_skip a wl x1)) with (poob x1) in Ho1. split; [exact (put_mono _ _ _ _ _ E1 Ho1)|].
      destruct (put_lock _ _ _ _ _ _ R0 E1 Ho1) as (y1 & F1 & R1 & C1). destruct (L2 _ _ _ (skip_lock wl _ _ R1) E2 Ho) as (y2 & F2 & R2 & C2). exists y1, y2. split; [exact F1|]. split; [exact (end_lock dl _ _ R1 Ee1)|]. split; [exact F2|].
      split. { destruct R2 as (? & ? & ? & ? & ? & ? & ? & ? & ? & ? & ?). unfold prel, p6_swap. cbn [q_nd q_rows q_img q_left q_this q_last q_col q_c q_out q_write]. repeat split; assumption. }
      change (q_c (p6_skip a wl x1)) with (q_c x1) in C2. lia. }
    destruct (p6_end dl (p6_swap x2)) eqn:Ee2.
    + intros <- Hc Ho _ Hlt. destruct (KK Ho) as (H0 & y1 & y2 & F1 & Fe & F2 & R2 & C2). split; [exact H0|]. rewrite F1, Fe, F2.
      pose proof R2 as (R2a & R2b & R2c & R2d & R2e & R2f & R2g & R2h & R2i & _). unfold poob in Ho.
      assert (Hfin : pixels h <= q_c (p6_swap x2)) by (destruct (pixels h <=? q_c (p6_swap x2)) eqn:EE; [lia|discriminate Hc]).
      exists (p6_swap y2). split; [|split; [congruence|split; [congruence|split; [congruence|lia]]]].
      destruct (p6_end dl (p6_swap y2)); [right|left; reflexivity]. f_equal. rewrite <- R2i. replace (pixels h <=? q_c (p6_swap x2)) with true by lia. reflexivity.
    + intros <- Ho. destruct (KK Ho) as (H0 & y1 & y2 & F1 & Fe & F2 & R2 & C2). split; [|exact H0]. rewrite F1, Fe, F2. rewrite (end_lock dl _ _ R2 Ee2). exists (p6_swap y2). split; [reflexivity|]. split; [exact R2|exact C2].
Qed.
Lemma rows_mono dl wl : forall g z z', poob z = true -> p6_rows_g nd1 g dl h a wl z = (NONE, z') -> poob z' = true.
Proof.
  assert (PM : forall chk px ok z, poob z = true -> match p6_put_g nd1 h a chk px ok z with Go z' => poob z' = true | Ret _ z' => poob z' = true end).
        { intros chk px ok z Hz. unfold poob in *. apply Hm1 in Hz. unfold p6_put_g. destruct (nd1 (q_nd z)) as [v s]. cbn [snd] in Hz. destruct (da_lin a) as [f|]; [destruct (chk && (da_linlen a <? _))|]; cbn [q_nd n_oob]; rewrite Hz; reflexivity. }
        assert (BM : forall z, poob z = true -> match p6_row_body_g nd1 h a wl z with Go z' => poob z' = true | Ret _ z' => poob z' = true end).
        { intros z Hz. unfold p6_row_body_g. cbv zeta. match goal with |- context [p6_put_g nd1 h a ?c ?p ?o z] => pose proof (PM c p o z Hz) as K; destruct (p6_put_g nd1 h a c p o z) end; exact K. }
        assert (LM : forall n z, poob z = true -> match p6_loop n (p6_row_body_g nd1 h a wl) z with Go z' => poob z' = true | Ret _ z' => poob z' = true end).
        { induction n as [|n IHn]; intros z Hz; cbn [p6_loop]; [exact Hz|]. pose proof (BM z Hz) as K. destruct (p6_row_body_g nd1 h a wl z); [apply IHn; exact K|exact K]. }
        assert (RM : forall z, poob z = true -> match p6_row_g nd1 dl h a wl z with Go z' => poob z' = true | Ret _ z' => poob z' = true end).
        { intros z Hz. unfold p6_row_g. cbv zeta. pose proof (PM true (q_rows (p6_col0 z) (q_last (p6_col0 z))) (row_ok h (q_last (p6_col0 z))) (p6_col0 z) Hz) as K. destruct (p6_put_g _ _ _ _ _ _ _) as [z1|c z1]; [|exact K]. destruct (p6_end dl z1); [exact K|].
          pose proof (LM (Z.to_nat (rowcount h)) (p6_skip a wl z1) K) as K2. destruct (p6_loop _ _ _) as [z2|c z2]; [|exact K2]. destruct (p6_end dl (p6_swap z2)); exact K2. }
        induction g as [|g IHg]; intros z z' Hz HG; cbn [p6_rows_g] in HG; [discriminate|]. destruct (q_c z <? _); [|injection HG as <-; exact Hz]. pose proof (RM z Hz) as K. destruct (p6_row_g nd1 dl h a wl z) as [z1|c z1]; [apply (IHg z1 z' K HG)|]. injection HG as _ <-. exact K.
Qed.
Lemma rows_lock dl wl : 1 <= j_x h < 65536 -> 0 <= j_y h < 65536 -> forall f x y x', prel x y -> p6_rows_g nd1 f dl h a wl x = (NONE, x') -> poob x' = false -> (exists k, 0 <= k /\ q_c x = k * j_x h /\ j_y h - k < Z.of_nat f) ->
  poob x = false /\ exists y', p6_rows_g nd2 f dl h a wl y = (NONE, y') /\ n_oob (q_nd y') = false /\ q_img y' = q_img x' /\ q_rows y' = q_rows x'.
Proof.
  intros Hx Hy. pose proof (pixels_cases h ltac:(lia) Hy) as PX. induction f as [|f IH]; intros x y x' HR HG Ho (k & Hk0 & Hk & Hf); cbn [p6_rows_g] in *; [discriminate|].
  pose proof HR as (_ & RO & G1 & G2 & _ & _ & _ & _ & G7 & _). rewrite <- G7. destruct (q_c x <? pixels h) eqn:Ec.
  2:{ injection HG as <-. unfold poob in *. split; [exact Ho|]. exists y. split; [reflexivity|]. split; [congruence|]. split; [congruence|congruence]. }
  pose proof (row_lock dl wl x y Hx Hy HR _ eq_refl) as K. destruct (p6_row_g nd1 dl h a wl x) as [x1|c x1].
  - destruct (poob x1) eqn:Ep.
    + exfalso. (* the flag stays set *)
      rewrite (rows_mono dl wl _ _ _ Ep HG) in Ho. discriminate.
    + destruct (K eq_refl) as ((y1 & F1 & R1 & C1) & Hp). split; [exact Hp|]. rewrite F1. apply (IH x1 y1 x' R1 HG Ho). exists (k + 1). split; [lia|]. split; [lia|lia].
  - injection HG as -> <-. destruct (K eq_refl Ho ltac:(exists k; exact Hk) ltac:(nia)) as (Hp & y1 & F & Fo & Fi & Fr & Fc). split; [exact Hp|]. destruct F as [F|F]; rewrite F.
    + assert (Hk1 : k < j_y h) by nia. destruct f as [|f]; [lia|]. cbn [p6_rows_g]. replace (q_c y1 <? pixels h) with false by lia. exists y1. auto.
    + exists y1. auto.
Qed.
Lemma pred6_lock d dl wl rows img x' : (forall s1 s2, n_ix s1 = n_ix s2 -> n_cnt s1 = 0 -> n_cnt s2 = 0 -> n_b s1 = 0 -> n_b s2 = 0 -> rel s1 s2) -> 1 <= j_x h < 65536 -> 0 <= j_y h < 65536 ->
  parse_pred6_g nd1 d dl h a wl rows img = (NONE, x') -> poob x' = false ->
  exists y', parse_pred6_g nd2 d dl h a wl rows img = (NONE, y') /\ n_oob (q_nd y') = false /\ q_img y' = q_img x' /\ q_rows y' = q_rows x'.
Proof.
  intros H0 Hx Hy HG Ho. unfold parse_pred6_g in *. cbv zeta in *. set (s0 := {| q_nd := _; q_rows := rows; q_img := img; q_left := _; q_this := _; q_last := _; q_col := _; q_c := _; q_out := _; q_write := _ |}) in *.
  assert (R0 : prel s0 s0) by (unfold prel; repeat split; apply H0; reflexivity).
  destruct (p6_put_g nd1 h a false _ true s0) as [x1|c x1] eqn:E1.
  2:{ exfalso. injection HG as -> ->. unfold p6_put_g in E1. destruct (nd1 _) as [v s]. destruct (da_lin a) as [f|]; discriminate E1. }
  destruct (p6_end dl x1) eqn:Ee; [discriminate|]. destruct (first_body_lock dl wl) as [FB1 FB2]. destruct (loop_lock _ _ FB1 FB2 (Z.to_nat (rowcount h))) as [L1 L2]. cbv zeta in *.
  destruct (p6_loop (Z.to_nat (rowcount h)) (p6_first_body_g nd1 dl h a wl) (p6_dec x1)) as [x2|c x2] eqn:E2.
  2:{ exfalso. injection HG as -> ->. clear L1 L2. remember (p6_dec x1) as z eqn:Ez. clear Ez. revert z E2. induction (Z.to_nat (rowcount h)) as [|n IHn]; intros z E2; cbn [p6_loop] in E2; [discriminate|].
      destruct (p6_first_body_g nd1 dl h a wl z) as [z1|c z1] eqn:Eb; [apply (IHn z1 E2)|]. injection E2 as -> ->. unfold p6_first_body_g in Eb. match type of Eb with context [p6_put_g ?n ?h0 ?a0 ?c0 ?p0 ?o0 ?s0] => destruct (p6_put_g n h0 a0 c0 p0 o0 s0) as [w|cw w] eqn:Ew end.
      - destruct (p6_end dl w); discriminate.
      - injection Eb as -> ->. unfold p6_put_g in Ew. destruct (nd1 _) as [v s]. destruct (da_lin a) as [f|]; discriminate Ew. }
  assert (C0 : q_c x2 = j_x h).
  { assert (PC : forall chk px ok z z', p6_put_g nd1 h a chk px ok z = Go z' -> q_c z' = q_c z + 1). { clear. intros chk px ok z z' E. unfold p6_put_g in E. destruct (nd1 _) as [v s]. destruct (da_lin a) as [f|]; [destruct (chk && _); [discriminate|]|]; injection E as <-; reflexivity. }
    assert (LC : forall n z z', p6_loop n (p6_first_body_g nd1 dl h a wl) z = Go z' -> q_c z' = q_c z + Z.of_nat n).
    { clear - PC. induction n as [|n IHn]; intros z z' E; cbn [p6_loop] in E; [injection E as <-; lia|]. destruct (p6_first_body_g nd1 dl h a wl z) as [z1|] eqn:Eb; [|discriminate]. apply IHn in E. unfold p6_first_body_g in Eb.
      destruct (p6_put_g nd1 h a false (q_left z) true z) as [w|] eqn:Ew; [|discriminate]. apply PC in Ew. destruct (p6_end dl w); [discriminate|]. injection Eb as <-. change (q_c (p6_skip a wl w)) with (q_c w) in E. lia. }
    apply LC in E2. rewrite (rowcount_pos h Hx) in E2. apply PC in E1. change (q_c (p6_dec x1)) with (q_c x1) in E2. change (q_c s0) with 0 in E1. lia. }
  assert (ST : forall y, prel (p6_swap x2) y -> poob (p6_swap x2) = false /\ exists y', p6_rows_g nd2 (S (Z.to_nat (j_y h))) dl h a wl y = (NONE, y') /\ n_oob (q_nd y') = false /\ q_img y' = q_img x' /\ q_rows y' = q_rows x').
  { intros y HR. apply (rows_lock dl wl Hx Hy _ (p6_swap x2) y x' HR HG Ho). exists 1. change (q_c (p6_swap x2)) with (q_c x2). split; [lia|]. split; lia. }
  destruct (poob x2) eqn:Ep.
  - exfalso. rewrite (rows_mono dl wl _ (p6_swap x2) x' Ep HG) in Ho. discriminate.
  - pose proof (L1 _ _ E2 Ep) as Ep1. change (poob (p6_dec x1)) with (poob x1) in Ep1. destruct (put_lock _ _ _ _ _ _ R0 E1 Ep1) as (y1 & F1 & R1 & _). rewrite F1. rewrite (end_lock dl _ _ R1 Ee).
    assert (RD : prel (p6_dec x1) (p6_dec y1)). { destruct R1 as (? & ? & ? & ? & ? & ? & ? & ? & ? & ? & ?). unfold prel, p6_dec. cbn [q_nd q_rows q_img q_left q_this q_last q_col q_c q_out q_write]. repeat split; try assumption. congruence. }
    destruct (L2 _ _ _ RD E2 Ep) as (y2 & F2 & R2 & _). rewrite F2. apply ST. destruct R2 as (? & ? & ? & ? & ? & ? & ? & ? & ? & ? & ?). unfold prel, p6_swap. cbn [q_nd q_rows q_img q_left q_this q_last q_col q_c q_out q_write]. repeat split; assumption.
Qed.
End Lock.
