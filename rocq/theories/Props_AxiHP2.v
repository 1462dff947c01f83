(* C50: AXI HP reader with its fifo and a compliant slave; C42: the limits do not limit; examples for C40-C42, C50. *)
From Verif Require Import Bits Spec M_Predictor M_SyncFifo P_SyncFifo Props_B32 M_AxiHP Props_AxiHP.
Ltac Zify.zify_post_hook ::= idtac.

(* A compliant slave on the read side.  out: bursts requested and not completed; k: beats of the current burst already transferred.
   It answers only requested bursts, each with 16 beats (arlen = 15), rlast exactly with the valid 16th beat. *)
Definition rsl_next (out k : nat) (s : rs_st) (i : rs_in) : nat * nat :=
  let last := rs_data_en s i && Nat.eqb k 15 in
  (out + (if rs_addr_en s i then 1 else 0) - (if last then 1 else 0),
   if rs_data_en s i then (if Nat.eqb k 15 then 0 else S k) else k)%nat.
Fixpoint rslave_ok (out k : nat) (s : rs_st) (l : list rs_in) : Prop :=
  match l with
  | [] => True
  | i :: r => (rsi_rvalid i = true -> (0 < out)%nat) /\ rsi_rlast i = rsi_rvalid i && Nat.eqb k 15 /\ 0 <= rsi_rdata i < 2 ^ 64 /\
              rslave_ok (fst (rsl_next out k s i)) (snd (rsl_next out k s i)) (rs_step true s i) r
  end.
Fixpoint rslave_end (out k : nat) (s : rs_st) (l : list rs_in) : nat * nat :=
  match l with [] => (out, k) | i :: r => rslave_end (fst (rsl_next out k s i)) (snd (rsl_next out k s i)) (rs_step true s i) r end.

Definition rs_inv (out k : nat) (s : rs_st) : Prop :=
  hr_active (rs_r s) = Z.of_nat out /\ (out <= 8)%nat /\ (hr_arvalid (rs_r s) = true -> (out <= 7)%nat) /\ (k <= 15)%nat /\
  ((0 < k)%nat -> hr_rready (rs_r s) = true) /\ sf_inv 32 (rs_f s) /\ sf_lvl (rs_f s) <= 28 /\
  (hr_rready (rs_r s) = true -> sf_lvl (rs_f s) <= 12 + Z.of_nat k).
Lemma rs_inv_step out k s i : (rsi_rvalid i = true -> (0 < out)%nat) -> rsi_rlast i = rsi_rvalid i && Nat.eqb k 15 -> rs_inv out k s ->
  rs_inv (fst (rsl_next out k s i)) (snd (rsl_next out k s i)) (rs_step true s i) /\ (rs_data_en s i = true -> af_writable (rs_f s) = true).
Proof.
  intros Hv Hl (I1 & I2 & I3 & I4 & I5 & I6 & I7 & I8).
  assert (Wr : rs_data_en s i = true -> sf_lvl (rs_f s) <= 27).
  { unfold rs_data_en. intros E. apply andb_prop in E. destruct E as [E _]. specialize (I8 E). lia. }
  split.
  - set (fi := {| af_data_in := rsi_rdata i; af_end_in := false; af_valid_in := rs_data_en s i; af_read := rsi_pop i |}).
    destruct (sf_step_ok 32 (rs_f s) (rs_data_en s i) (af_word fi) (rsi_pop i) ltac:(lia) I6) as [J6 _].
    assert (Lv : sf_lvl (rs_f (rs_step true s i)) <= sf_lvl (rs_f s) + (if rs_data_en s i then 1 else 0)).
    { unfold rs_step, af_step, sf_step. cbn [rs_f sf_lvl af_valid_in af_read]. destruct (rs_data_en s i); rewrite ?andb_false_r; cbn [andb negb]; repeat match goal with |- context [if ?b then _ else _] => destruct b end; lia. }
    assert (La : rsi_rlast i = rs_data_en s i && Nat.eqb k 15).
    { rewrite Hl. unfold rs_data_en. destruct (Nat.eqb_spec k 15); [|rewrite !andb_false_r; reflexivity]. rewrite !andb_true_r. rewrite I5 by lia. reflexivity. }
    assert (Aw : rs_addr_en s i = true -> (out <= 7)%nat) by (unfold rs_addr_en; intros E; apply andb_prop in E; apply I3, E).
    assert (Dv : rs_data_en s i = true -> hr_rready (rs_r s) = true /\ (0 < out)%nat) by (unfold rs_data_en; intros E; apply andb_prop in E; destruct E as [E1 E2]; auto).
    assert (Ae : hr_addr_en (rs_r s) (rs_hr true s i) = rs_addr_en s i) by reflexivity.
    unfold rsl_next. cbn [fst snd].
    unfold rs_inv. split; [|split; [|split; [|split; [|split; [|split; [|split]]]]]].
    + unfold rs_step, hr_step. cbn [rs_r hr_active]. rewrite Ae. cbn [hri_rlast rs_hr]. rewrite La, I1.
      destruct (rs_addr_en s i) eqn:Ea, (rs_data_en s i && Nat.eqb k 15) eqn:El; cbn [andb negb]; rewrite ?trunc_small by (change (2 ^ 4) with 16; try specialize (Aw eq_refl); try (apply andb_prop in El; destruct El as [El _]; destruct (Dv El)); lia); try lia.
      apply andb_prop in El. destruct El as [El _]. destruct (Dv El). lia.
    + destruct (rs_addr_en s i) eqn:Ea; [specialize (Aw eq_refl)|]; destruct (rs_data_en s i && Nat.eqb k 15); lia.
    + unfold rs_step, hr_step. cbn [rs_r hr_arvalid]. cbn [hri_arready hri_enable hri_addr_empty rs_hr]. unfold rs_addr_en in *. destruct (hr_arvalid (rs_r s)).
      * destruct (rsi_arready i); [discriminate|]. intros _. specialize (I3 eq_refl). cbn [andb]. lia.
      * intros E. apply andb_prop in E. destruct E as [_ E]. unfold below_max in E. cbn [andb]. lia.
    + destruct (rs_data_en s i); [destruct (Nat.eqb_spec k 15); lia|lia].
    + unfold rs_step, hr_step. cbn [rs_r hr_rready]. cbn [hri_rlast rs_hr]. rewrite La. intros E. destruct (rs_data_en s i) eqn:Ed.
      * destruct (Dv eq_refl) as [D1 _]. rewrite D1. destruct (Nat.eqb k 15); [lia|reflexivity].
      * rewrite (I5 E). reflexivity.
    + exact J6.
    + destruct (rs_data_en s i); [specialize (Wr eq_refl)|]; lia.
    + unfold rs_step at 1, hr_step. cbn [rs_r hr_rready]. cbn [hri_rlast hri_data_full rs_hr]. rewrite La. intros E. destruct (hr_rready (rs_r s)) eqn:Er.
      * specialize (I8 eq_refl). destruct (rs_data_en s i) eqn:Ed; cbn [andb negb] in E; [destruct (Nat.eqb k 15); [discriminate|lia]|lia].
      * apply andb_prop in E. destruct E as [E _]. rewrite negb_involutive in E. unfold af_writable16 in E. apply Z.leb_le in E.
        assert (Ed : rs_data_en s i = false) by (unfold rs_data_en; rewrite Er; reflexivity). rewrite Ed in *. lia.
  - intros E. specialize (Wr E). unfold af_writable, sf_writable. destruct (sf_lvl (rs_f s) =? 32) eqn:E2; [lia|reflexivity].
Qed.
Lemma rs_init_inv stor : len stor = 32 -> rs_inv 0 0 (rs_init stor).
Proof. intros H. unfold len in H. destruct (sf_reset_inv 32 stor ltac:(lia) H) as [I _]. repeat split; cbn; try lia; try discriminate; try apply I. Qed.

(* C50.  Reader, fifo and address generator with a compliant slave, for every timing of slave and consumer: every beat
   transferred on the bus comes out of the fifo, in order; the fifo never overflows (at most 28 of 32
   entries are used); the in-flight count is the number of bursts requested and not yet completed and never exceeds 8. *)
Theorem C50_no_loss : forall stor l, len stor = 32 -> rslave_ok 0 0 (rs_init stor) l ->
  let s := rs_run true (rs_init stor) l in
  (exists q, rs_beats true (rs_init stor) l = rs_out true (rs_init stor) l ++ q /\ len q <= 28) /\
  hr_active (rs_r s) = Z.of_nat (fst (rslave_end 0 0 (rs_init stor) l)) /\ hr_active (rs_r s) <= 8.
Proof.
  intros stor l Hs HS s.
  assert (K : forall l out k s, rslave_ok out k s l -> rs_inv out k s ->
     rs_inv (fst (rslave_end out k s l)) (snd (rslave_end out k s l)) (rs_run true s l) /\
     exists fl, Forall af_ok fl /\ rs_f (rs_run true s l) = af_run (rs_f s) fl /\
     rs_beats true s l = map fst (af_written (rs_f s) fl) /\ rs_out true s l = map fst (af_readout (rs_f s) fl)).
  { clear. induction l as [|i l IH]; intros out k s HS I; [cbn; split; [exact I|]; exists []; repeat split; constructor|]. cbn [rslave_ok] in HS. destruct HS as (H1 & H2 & H3 & HS).
    destruct (rs_inv_step out k s i H1 H2 I) as [J1 J2]. destruct (IH _ _ _ HS J1) as (K1 & fl & K2 & K3 & K4 & K5). split; [exact K1|].
    exists ({| af_data_in := rsi_rdata i; af_end_in := false; af_valid_in := rs_data_en s i; af_read := rsi_pop i |} :: fl). split; [constructor; [exact H3|exact K2]|].
    cbn [rs_run rs_beats rs_out af_run af_written af_readout af_valid_in af_data_in af_end_in af_read]. rewrite !map_app, K3, K4, K5. split; [reflexivity|]. split.
    - f_equal. destruct (rs_data_en s i); [rewrite J2 by reflexivity; reflexivity|reflexivity].
    - f_equal. destruct (rsi_pop i && af_valid_out (rs_f s)); reflexivity. }
  destruct (K l 0%nat 0%nat (rs_init stor) HS (rs_init_inv stor Hs)) as ((I1 & I2 & _ & _ & _ & I6 & I7 & _) & fl & K2 & K3 & K4 & K5). fold s in I1, I6, I7, K3.
  destruct (C49_fifo stor fl Hs K2) as (q & E & _ & _ & _ & _ & _ & _ & _ & L). split; [|rewrite I1; split; [reflexivity|lia]]. exists (map fst q). rewrite K4, K5. cbn [rs_f rs_init]. rewrite E, map_app. split; [reflexivity|].
  cbn [rs_f rs_init] in K3. rewrite <- K3 in L. unfold len in *. rewrite map_length. lia.
Qed.

(* C50.  rlast is used without looking at rvalid: a slave that shows rlast without rvalid (allowed by AXI: rlast has no meaning
   then) makes the reader count a burst as completed and drop rready, although no beat was transferred; from the in-flight
   count 0 it goes to 15 and no address is requested any more until 8 further rlast cycles. *)
Theorem C50_rlast_without_rvalid : forall limit s i, rsi_rlast i = true -> rsi_rvalid i = false -> rs_addr_en s i = false -> 0 <= hr_active (rs_r s) < 16 ->
  rs_beats limit s [i] = [] /\ hr_active (rs_r (rs_step limit s i)) = (hr_active (rs_r s) - 1) mod 16 /\
  (hr_rready (rs_r s) = true -> hr_rready (rs_r (rs_step limit s i)) = false) /\
  (hr_active (rs_r s) = 0 -> hr_arvalid (rs_r s) = false -> hr_active (rs_r (rs_step limit s i)) = 15).
Proof.
  intros limit s i Hl Hv Ha B. assert (Hd : rs_data_en s i = false) by (unfold rs_data_en; rewrite Hv; apply andb_false_r).
  cbn [rs_beats]. rewrite Hd. split; [reflexivity|]. unfold rs_step, hr_step. cbn [rs_r hr_active hr_rready hr_arvalid]. change (hr_addr_en (rs_r s) (rs_hr limit s i)) with (rs_addr_en s i).
  rewrite Ha. cbn [hri_rlast rs_hr]. rewrite Hl. cbn [negb andb]. unfold trunc. change (2 ^ 4) with 16. split; [reflexivity|]. split; [intros ->; reflexivity|]. intros -> _. reflexivity.
Qed.

(* ------------------------------------------------------------------ C42: no limit on the number of bursts *)

(* the part of the reader side that decides what happens next *)
Record rs_abs := { ra_ar : bool; ra_rr : bool; ra_act : Z; ra_lvl : Z; ra_valid : bool }.
Definition rs_ab (s : rs_st) : rs_abs :=
  {| ra_ar := hr_arvalid (rs_r s); ra_rr := hr_rready (rs_r s); ra_act := hr_active (rs_r s); ra_lvl := sf_lvl (rs_f s); ra_valid := ag_valid (rs_a s) |}.
(* input of one period: nothing ready / address taken / beat / last beat *)
Inductive rkind := RNone | RAddr | RBeat | RLast.
Definition rk_in (S0 : Z) (k : rkind) : rs_in :=
  {| rsi_enable := true; rsi_start := S0; rsi_pop := true; rsi_arready := match k with RAddr => true | _ => false end;
     rsi_rvalid := match k with RBeat | RLast => true | _ => false end; rsi_rlast := match k with RLast => true | _ => false end; rsi_rdata := 7; rsi_rresp := 0 |}.
Lemma ag_valid_step sh a st la : ag_valid (ag_step sh a st la) = (if ag_loop a then ag_valid a else true).
Proof. unfold ag_step. destruct (ag_loop a); reflexivity. Qed.
Definition ra_step (a : rs_abs) (k : rkind) : rs_abs :=
  let d := ra_rr a && match k with RBeat | RLast => true | _ => false end in
  let ad := ra_ar a && match k with RAddr => true | _ => false end in
  let la := match k with RLast => true | _ => false end in
  let wr := negb (ra_lvl a =? 32) && d in let rd := negb (ra_lvl a =? 0) in
  {| ra_ar := if ra_ar a then negb (match k with RAddr => true | _ => false end) else ra_valid a && below_max (ra_act a);
     ra_rr := if ra_rr a then negb la else (ra_lvl a <=? 12) && negb (ra_act a =? 0);
     ra_act := if ad && negb la then trunc 4 (ra_act a + 1) else if negb ad && la then trunc 4 (ra_act a - 1) else ra_act a;
     ra_lvl := if rd && negb wr then ra_lvl a - 1 else if wr && negb rd then ra_lvl a + 1 else ra_lvl a;
     ra_valid := true |}.
Lemma ra_step_ok S0 s k : (ag_loop (rs_a s) = true -> ag_valid (rs_a s) = true) ->
  rs_ab (rs_step true s (rk_in S0 k)) = ra_step (rs_ab s) k /\ (ag_loop (rs_a (rs_step true s (rk_in S0 k))) = true -> ag_valid (rs_a (rs_step true s (rk_in S0 k))) = true).
Proof.
  intros Hv. assert (E : ag_valid (ag_step 128 (rs_a s) S0 (rs_addr_en s (rk_in S0 k))) = true).
  { rewrite ag_valid_step. destruct (ag_loop (rs_a s)); [apply Hv; reflexivity|reflexivity]. }
  split; [|intros _; exact E].
  unfold rs_ab, ra_step. cbn [ra_ar ra_rr ra_act ra_lvl ra_valid].
  assert (X : forall a b c d a' b' c' d' e, a = a' -> b = b' -> c = c' -> d = d' -> e = true -> Build_rs_abs a b c d e = Build_rs_abs a' b' c' d' true) by congruence.
  apply X; [| | | |exact E].
  - destruct (C42_read_limit_ignored [rk_in S0 k] s) as [El _]. cbn [rs_run] in El. rewrite El. unfold rs_step, hr_step, rs_hr. cbn [rs_r hr_arvalid hri_arready hri_enable hri_addr_empty].
    destruct (hr_arvalid (rs_r s)); [destruct k; reflexivity|]. cbn. rewrite orb_false_r, negb_involutive. reflexivity.
  - unfold rs_step, hr_step, rs_hr. cbn [rs_r hr_rready hri_rlast hri_data_full]. rewrite negb_involutive. destruct k; reflexivity.
  - unfold rs_step, hr_step, hr_addr_en, rs_hr. cbn [rs_r hr_active hri_rlast hri_arready]. destruct k; reflexivity.
  - unfold rs_step, af_step, sf_step, sf_writable, sf_readable, rs_data_en. cbn [rs_f sf_lvl af_valid_in af_read rsi_pop rk_in rsi_rvalid].
    rewrite andb_true_r. destruct k; reflexivity.
Qed.
Definition rperiod : list rkind := RAddr :: RNone :: repeat RBeat 15 ++ [RLast; RNone].
Fixpoint ra_run (a : rs_abs) (l : list rkind) : rs_abs := match l with [] => a | k :: r => ra_run (ra_step a k) r end.
Fixpoint ra_addrs (a : rs_abs) (l : list rkind) : nat := match l with [] => 0 | k :: r => (if ra_ar a && match k with RAddr => true | _ => false end then 1 else 0) + ra_addrs (ra_step a k) r end%nat.
Definition ra_next (o k : nat) (a : rs_abs) (x : rkind) : nat * nat :=
  let d := ra_rr a && match x with RBeat | RLast => true | _ => false end in
  (o + (if ra_ar a && match x with RAddr => true | _ => false end then 1 else 0) - (if d && Nat.eqb k 15 then 1 else 0), if d then (if Nat.eqb k 15 then 0 else S k) else k)%nat.
Fixpoint ra_ok (o k : nat) (a : rs_abs) (l : list rkind) : bool :=
  match l with
  | [] => Nat.eqb o 0 && Nat.eqb k 0
  | x :: r => match x with RBeat => Nat.ltb 0 o && negb (Nat.eqb k 15) | RLast => Nat.ltb 0 o && Nat.eqb k 15 | _ => true end && ra_ok (fst (ra_next o k a x)) (snd (ra_next o k a x)) (ra_step a x) r
  end.
Lemma ra_run_ok S0 l : forall o k s rest, (ag_loop (rs_a s) = true -> ag_valid (rs_a s) = true) -> ra_ok o k (rs_ab s) l = true ->
  let l' := map (rk_in S0) l in let s' := rs_run true s l' in
  rs_ab s' = ra_run (rs_ab s) l /\ (ag_loop (rs_a s') = true -> ag_valid (rs_a s') = true) /\ length (rs_addrs true s l') = ra_addrs (rs_ab s) l /\
  (rslave_ok 0 0 s' rest -> rslave_ok o k s (l' ++ rest)).
Proof.
  induction l as [|x l IH]; intros o k s rest Hv HO.
  - cbn in HO. apply andb_prop in HO. destruct HO as [O1 O2]. apply Nat.eqb_eq in O1, O2. subst o k. cbn. auto.
  - cbn [ra_ok] in HO. apply andb_prop in HO. destruct HO as [O1 O2]. destruct (ra_step_ok S0 s x Hv) as [E1 E2]. cbn [map rs_run rs_addrs app rslave_ok ra_run ra_addrs].
    assert (En : rsl_next o k s (rk_in S0 x) = ra_next o k (rs_ab s) x) by (unfold rsl_next, ra_next, rs_data_en, rs_addr_en; destruct x; reflexivity).
    rewrite <- E1 in O2. rewrite En. specialize (IH _ _ (rs_step true s (rk_in S0 x)) rest E2 O2). cbn zeta in IH. destruct IH as (J1 & J2 & J3 & J4). rewrite E1 in J1, J3.
    split; [exact J1|]. split; [exact J2|]. split.
    + rewrite app_length, J3. f_equal. unfold rs_addr_en. cbn [ra_ar rs_ab rsi_arready rk_in]. destruct (hr_arvalid (rs_r s) && match x with RAddr => true | _ => false end); reflexivity.
    + intros R. split; [|split; [|split; [cbn; lia|apply J4, R]]].
      * destruct x; cbn; try discriminate; intros _; apply andb_prop in O1; destruct O1 as [O1 _]; apply Nat.ltb_lt in O1; exact O1.
      * destruct x; cbn; try reflexivity; apply andb_prop in O1; destruct O1 as [_ O1]; [apply negb_true_iff in O1|]; rewrite O1; reflexivity.
Qed.
(* C42.  The number of read bursts requested by an enabled core is not bounded by the limit of 196608 (0x30000) addresses or by any
   other number: for every n there is a run with a compliant slave in which n addresses are requested. *)
Theorem C42_read_unbounded : forall n S0 stor, len stor = 32 -> exists l,
  rslave_ok 0 0 (rs_init stor) l /\ Forall (fun i => rsi_enable i = true /\ rsi_start i = S0) l /\ length (rs_addrs true (rs_init stor) l) = n.
Proof.
  intros n S0 stor Hs.
  set (Q := {| ra_ar := true; ra_rr := false; ra_act := 0; ra_lvl := 0; ra_valid := true |}).
  assert (K : forall n s, rs_ab s = Q -> (ag_loop (rs_a s) = true -> ag_valid (rs_a s) = true) -> exists l, rslave_ok 0 0 s l /\ Forall (fun i => rsi_enable i = true /\ rsi_start i = S0) l /\ length (rs_addrs true s l) = n).
  { clear. induction n as [|n IH]; intros s HQ Hv; [exists []; repeat split; constructor|].
    assert (HO : ra_ok 0 0 (rs_ab s) rperiod = true) by (rewrite HQ; reflexivity).
    destruct (ra_run_ok S0 rperiod 0 0 s [] Hv HO) as (J1 & J2 & J3 & _). rewrite HQ in J1, J3. change (ra_run Q rperiod) with Q in J1. change (ra_addrs Q rperiod) with 1%nat in J3.
    destruct (IH _ J1 J2) as (l & K1 & K2 & K3). exists (map (rk_in S0) rperiod ++ l). destruct (ra_run_ok S0 rperiod 0 0 s l Hv HO) as (_ & _ & _ & J4). split; [exact (J4 K1)|]. split.
    - apply Forall_app. split; [|exact K2]. apply Forall_forall. intros x Hx. apply in_map_iff in Hx. destruct Hx as (y & <- & _). auto.
    - assert (A : forall l1 l2 s, rs_addrs true s (l1 ++ l2) = rs_addrs true s l1 ++ rs_addrs true (rs_run true s l1) l2).
      { clear. induction l1 as [|i l1 IH]; intros l2 s; [reflexivity|]. cbn [app rs_addrs rs_run]. rewrite IH, app_assoc. reflexivity. }
      rewrite A, app_length, J3, K3. reflexivity. }
  set (pre := [RNone; RNone]). destruct (ra_run_ok S0 pre 0 0 (rs_init stor) [] ltac:(cbn; discriminate) eq_refl) as (J1 & J2 & J3 & _).
  destruct (K n _ J1 J2) as (l & K1 & K2 & K3). exists (map (rk_in S0) pre ++ l). destruct (ra_run_ok S0 pre 0 0 (rs_init stor) l ltac:(cbn; discriminate) eq_refl) as (_ & _ & _ & J4). split; [exact (J4 K1)|]. split.
  - apply Forall_app. split; [|exact K2]. cbn. repeat constructor.
  - assert (A : forall l1 l2 s, rs_addrs true s (l1 ++ l2) = rs_addrs true s l1 ++ rs_addrs true (rs_run true s l1) l2).
    { clear. induction l1 as [|i l1 IH]; intros l2 s; [reflexivity|]. cbn [app rs_addrs rs_run]. rewrite IH, app_assoc. reflexivity. }
    rewrite A, app_length, J3, K3. reflexivity.
Qed.
(* C42.  The counter behind the limit: it is the number of requested bursts, but stops at 196608 (0x30000). *)
Theorem C42_read_counter : forall stor l,
  rs_c (rs_run true (rs_init stor) l) = Z.min (len (rs_addrs true (rs_init stor) l)) 196608.
Proof.
  intros stor l. unfold len.
  assert (K : forall l s, (hr_arvalid (rs_r s) = true -> ag_valid (rs_a s) = true) -> (ag_loop (rs_a s) = true -> ag_valid (rs_a s) = true) -> 0 <= rs_c s <= 196608 ->
     rs_c (rs_run true s l) = Z.min (rs_c s + Z.of_nat (length (rs_addrs true s l))) 196608).
  { clear. induction l as [|i l IH]; intros s H1 H2 Bc; [cbn; lia|]. cbn [rs_run rs_addrs]. rewrite app_length.
    assert (V : ag_valid (rs_a (rs_step true s i)) = true) by (cbn [rs_step rs_a]; rewrite ag_valid_step; destruct (ag_loop (rs_a s)); auto).
    assert (C : rs_c (rs_step true s i) = Z.min (rs_c s + (if rs_addr_en s i then 1 else 0)) 196608).
    { cbn [rs_step rs_c]. destruct (rs_addr_en s i) eqn:E; rewrite ?andb_false_r; cbn [andb]; [|lia]. unfold rs_addr_en in E. apply andb_prop in E. rewrite H1 by apply E. cbn [andb].
      destruct (rs_c s =? 196608) eqn:E2; cbn [negb]; [lia|]. rewrite trunc_small by (change (2 ^ 32) with 4294967296; lia). lia. }
    rewrite IH; [|intros _; exact V|intros _; exact V|destruct (rs_addr_en s i); lia]. rewrite C. destruct (rs_addr_en s i); cbn [length]; lia. }
  rewrite K; [reflexivity|discriminate|discriminate|cbn; lia].
Qed.

(* The write side with a slave that answers a burst only after its wlast beat; pend: bursts ended and not yet answered. *)
Definition wsl_next (pend : nat) (s : ws_st) (i : ws_in) : nat :=
  (pend + (if ws_data_en s i && hw_wlast (ws_w s) then 1 else 0) - (if hw_bready (ws_w s) && wsi_bvalid i then 1 else 0))%nat.
Fixpoint wslave_ok (pend : nat) (s : ws_st) (l : list ws_in) : Prop :=
  match l with
  | [] => True
  | i :: r => (wsi_bvalid i = true -> (0 < pend)%nat) /\ wslave_ok (wsl_next pend s i) (ws_step true s i) r
  end.
(* always ready slave that answers at once, full supply of data *)
Definition wk_in (S0 : Z) (pend : nat) : ws_in :=
  {| wsi_enable := true; wsi_start := S0; wsi_push := true; wsi_data := 7; wsi_end := false; wsi_awready := true; wsi_wready := true; wsi_bvalid := Nat.ltb 0 pend; wsi_bresp := 0 |}.
Record ws_abs := { wa_w : hw_st; wa_lvl : Z; wa_pend : nat; wa_valid : bool }.
Definition ws_ab (p : nat) (s : ws_st) : ws_abs := {| wa_w := ws_w s; wa_lvl := sf_lvl (ws_f s); wa_pend := p; wa_valid := ag_valid (ws_a s) |}.
Definition wa_step (a : ws_abs) : ws_abs :=
  let d := hw_wvalid (wa_w a) in
  let wr := negb (wa_lvl a =? 32) in let rd := negb (wa_lvl a =? 0) && d in
  {| wa_w := hw_step 16 (wa_w a) {| hwi_enable := true; hwi_addr_empty := negb (wa_valid a); hwi_data_empty := negb (16 <=? wa_lvl a); hwi_awready := true; hwi_wready := true; hwi_bvalid := Nat.ltb 0 (wa_pend a); hwi_bresp := 0 |};
     wa_lvl := if rd && negb wr then wa_lvl a - 1 else if wr && negb rd then wa_lvl a + 1 else wa_lvl a;
     wa_pend := (wa_pend a + (if d && hw_wlast (wa_w a) then 1 else 0) - (if hw_bready (wa_w a) && Nat.ltb 0 (wa_pend a) then 1 else 0))%nat;
     wa_valid := true |}.
Lemma wa_step_ok S0 p s : (ag_loop (ws_a s) = true -> ag_valid (ws_a s) = true) ->
  let i := wk_in S0 p in
  ws_ab (wsl_next p s i) (ws_step true s i) = wa_step (ws_ab p s) /\ (ag_loop (ws_a (ws_step true s i)) = true -> ag_valid (ws_a (ws_step true s i)) = true).
Proof.
  intros Hv i. assert (E : ag_valid (ag_step 128 (ws_a s) S0 (ws_addr_en s i)) = true).
  { rewrite ag_valid_step. destruct (ag_loop (ws_a s)); [apply Hv; reflexivity|reflexivity]. }
  split; [|intros _; exact E].
  unfold ws_ab, wa_step. cbn [wa_w wa_lvl wa_pend wa_valid].
  assert (X : forall a b c a' b' c' e, a = a' -> b = b' -> c = c' -> e = true -> Build_ws_abs a b c e = Build_ws_abs a' b' c' true) by congruence.
  apply X; [| | |exact E].
  - destruct (C42_write_limit_ignored [i] s) as [El _]. cbn [ws_run] in El. rewrite El. cbn [ws_step ws_w]. unfold ws_hw. cbn [andb]. rewrite orb_false_r. reflexivity.
  - unfold ws_step, af_step, sf_step, sf_writable, sf_readable, ws_data_en. cbn [ws_f sf_lvl af_valid_in af_read wsi_push wsi_wready i wk_in]. rewrite !andb_true_r. reflexivity.
  - unfold wsl_next, ws_data_en. cbn [wsi_wready wsi_bvalid i wk_in]. rewrite andb_true_r. reflexivity.
Qed.
Fixpoint wa_iter (n : nat) (a : ws_abs) : ws_abs := match n with O => a | S m => wa_iter m (wa_step a) end.
Fixpoint wa_addrs (n : nat) (a : ws_abs) : nat := match n with O => 0 | S m => (if hw_awvalid (wa_w a) then 1 else 0) + wa_addrs m (wa_step a) end%nat.
(* the schedule of the closed loop *)
Fixpoint wsched (S0 : Z) (n p : nat) (s : ws_st) : list ws_in :=
  match n with O => [] | S m => wk_in S0 p :: wsched S0 m (wsl_next p s (wk_in S0 p)) (ws_step true s (wk_in S0 p)) end.
Lemma wsched_ok S0 n : forall p s, (ag_loop (ws_a s) = true -> ag_valid (ws_a s) = true) ->
  wslave_ok p s (wsched S0 n p s) /\ length (ws_addrs true s (wsched S0 n p s)) = wa_addrs n (ws_ab p s) /\
  Forall (fun i => wsi_enable i = true /\ wsi_start i = S0 /\ wsi_wready i = true /\ wsi_awready i = true) (wsched S0 n p s).
Proof.
  induction n as [|n IH]; intros p s Hv; [cbn; auto|]. destruct (wa_step_ok S0 p s Hv) as [E1 E2]. destruct (IH (wsl_next p s (wk_in S0 p)) _ E2) as (J1 & J2 & J3).
  cbn [wsched wslave_ok ws_addrs wa_addrs]. split; [split; [cbn; intros H; apply Nat.ltb_lt; exact H|exact J1]|]. split; [|constructor; [cbn; auto|exact J3]].
  rewrite app_length, J2, E1. unfold ws_addr_en. cbn [wsi_awready wk_in wa_w ws_ab]. rewrite andb_true_r. destruct (hw_awvalid (ws_w s)); reflexivity.
Qed.
Lemma wa_iter_add n m a : wa_iter (n + m) a = wa_iter m (wa_iter n a).
Proof. revert a. induction n as [|n IH]; intros a; [reflexivity|]. cbn [Nat.add wa_iter]. apply IH. Qed.
Lemma wa_addrs_add n m a : wa_addrs (n + m) a = (wa_addrs n a + wa_addrs m (wa_iter n a))%nat.
Proof. revert a. induction n as [|n IH]; intros a; [reflexivity|]. cbn [Nat.add wa_iter wa_addrs]. rewrite IH. lia. Qed.
(* C42.  The number of write bursts is not bounded by the limit of 131072 (0x20000) or by any other number. *)
Theorem C42_write_unbounded : forall n S0 stor, len stor = 32 -> exists l,
  wslave_ok 0 (ws_init stor) l /\ Forall (fun i => wsi_enable i = true /\ wsi_start i = S0 /\ wsi_wready i = true /\ wsi_awready i = true) l /\
  (n <= length (ws_addrs true (ws_init stor) l))%nat.
Proof.
  intros n S0 stor Hs. exists (wsched S0 (400 + 17 * n) 0 (ws_init stor)). destruct (wsched_ok S0 (400 + 17 * n) 0 (ws_init stor)) as (J1 & J2 & J3); [cbn; discriminate|].
  split; [exact J1|]. split; [exact J3|]. rewrite J2. change (ws_ab 0 (ws_init stor)) with (ws_ab 0 (ws_init [])). rewrite wa_addrs_add.
  set (A := wa_iter 400 (ws_ab 0 (ws_init []))). assert (P : wa_iter 17 A = A) by (vm_compute; reflexivity). assert (Q : wa_addrs 17 A = 1%nat) by (vm_compute; reflexivity).
  assert (K : wa_addrs (17 * n) A = n); [|lia]. clear - P Q. induction n as [|n IH]; [reflexivity|]. replace (17 * S n)%nat with (17 + 17 * n)%nat by lia. rewrite wa_addrs_add, Q, P, IH. reflexivity.
Qed.
Theorem C42_write_counter : forall stor l, ws_c (ws_run true (ws_init stor) l) = Z.min (len (ws_addrs true (ws_init stor) l)) 131072.
Proof.
  intros stor l. unfold len.
  assert (K : forall l s, (hw_awvalid (ws_w s) = true -> ag_valid (ws_a s) = true) -> (ag_loop (ws_a s) = true -> ag_valid (ws_a s) = true) -> 0 <= ws_c s <= 131072 ->
     ws_c (ws_run true s l) = Z.min (ws_c s + Z.of_nat (length (ws_addrs true s l))) 131072).
  { clear. induction l as [|i l IH]; intros s H1 H2 Bc; [cbn; lia|]. cbn [ws_run ws_addrs]. rewrite app_length.
    assert (V : ag_valid (ws_a (ws_step true s i)) = true) by (cbn [ws_step ws_a]; rewrite ag_valid_step; destruct (ag_loop (ws_a s)); auto).
    assert (C : ws_c (ws_step true s i) = Z.min (ws_c s + (if ws_addr_en s i then 1 else 0)) 131072).
    { cbn [ws_step ws_c]. destruct (ws_addr_en s i) eqn:E; rewrite ?andb_false_r; cbn [andb]; [|lia]. unfold ws_addr_en in E. apply andb_prop in E. rewrite H1 by apply E. cbn [andb].
      destruct (ws_c s =? 131072) eqn:E2; cbn [negb]; [lia|]. rewrite trunc_small by (change (2 ^ 32) with 4294967296; lia). lia. }
    rewrite IH; [|intros _; exact V|intros _; exact V|destruct (ws_addr_en s i); lia]. rewrite C. destruct (ws_addr_en s i); cbn [length]; lia. }
  rewrite K; [reflexivity|discriminate|discriminate|cbn; lia].
Qed.

(* ------------------------------------------------------------------ examples *)

Definition wsi (push : bool) (d : Z) (aw w : bool) : ws_in :=
  {| wsi_enable := true; wsi_start := 4096; wsi_push := push; wsi_data := d; wsi_end := false; wsi_awready := aw; wsi_wready := w; wsi_bvalid := false; wsi_bresp := 0 |}.
(* 16 words are put into the fifo, the slave is always ready: 17 beats are transferred in one go, the last one carries wlast but no word
   of the fifo *)
Example C40_example :
  let l := map (fun k => wsi true (Z.of_nat k) true true) (seq 1 16) ++ repeat (wsi false 0 true true) 30 in
  let b := ws_beats true (ws_init (repeat 0 32)) l in
  map wbeat_last b = repeat false 16 ++ [true] /\ map wbeat_real b = repeat true 16 ++ [false] /\ map wbeat_data (firstn 16 b) = map Z.of_nat (seq 1 16) /\
  ws_addrs true (ws_init (repeat 0 32)) l = seq_addrs 4096 9.
Proof. vm_compute. repeat split. Qed.
(* the slave is not ready when wlast is first shown: the beat is withdrawn and the in-flight count falls in every cycle *)
Example C40_withdrawn_example :
  let l := map (fun k => wsi true (Z.of_nat k) true true) (seq 1 20) ++ repeat (wsi true 9 true true) 13 in
  let s := ws_run true (ws_init (repeat 0 32)) l in
  let s' := ws_step true s (wsi true 9 false false) in
  hw_wvalid (ws_w s) = true /\ hw_wlast (ws_w s) = true /\ hw_active (ws_w s) = 8 /\
  hw_wvalid (ws_w s') = false /\ hw_active (ws_w (ws_run true s (repeat (wsi true 9 false false) 11))) = 13.
Proof. vm_compute. repeat split. Qed.
Example C41_example : ws_addrs true (ws_init (repeat 0 32)) (repeat (wsi true 3 true true) 100) = seq_addrs 4096 12 /\
  nth 11 (seq_addrs 4096 12) 0 = 4096 + 11 * 128 /\ seq_addrs (2 ^ 32 - 128) 3 = [2 ^ 32 - 128; 0; 128].
Proof. vm_compute. repeat split. Qed.
Example C42_example : let l := map (rk_in 64) ([RNone; RNone] ++ rperiod ++ rperiod) in
  rs_addrs true (rs_init (repeat 0 32)) l = [64; 192] /\ rs_c (rs_run true (rs_init (repeat 0 32)) l) = 2 /\ length (rs_beats true (rs_init (repeat 0 32)) l) = 32%nat.
Proof. vm_compute. repeat split. Qed.
(* one burst of 16 beats with a consumer that then takes five words *)
Example C50_example :
  let mk := fun ar rv k pop => {| rsi_enable := true; rsi_start := 0; rsi_pop := pop; rsi_arready := ar; rsi_rvalid := rv; rsi_rlast := rv && Nat.eqb k 15; rsi_rdata := Z.of_nat k; rsi_rresp := 0 |} in
  let l := repeat (mk true false 0%nat false) 6 ++ map (fun k => mk true true k false) (seq 0 16) ++ repeat (mk true false 0%nat true) 5 in
  rslave_ok 0 0 (rs_init (repeat 0 32)) l /\ rs_beats true (rs_init (repeat 0 32)) l = map Z.of_nat (seq 0 16) /\ rs_out true (rs_init (repeat 0 32)) l = map Z.of_nat (seq 0 5).
Proof. cbv zeta. split; [vm_compute; repeat split; try lia; try discriminate|vm_compute; repeat split]. Qed.
