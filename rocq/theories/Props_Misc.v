(* C43: delay line, bit reverser, debug counters.  C44: the frame-constraint collector. *)
From Verif Require Import Bits Spec M_Misc.
Ltac Zify.zify_post_hook ::= idtac.

(* ================= C43: delayer ================= *)

(* the first cycle before n with an input *)
Fixpoint first_before (i : nat -> bool) (n : nat) : option nat :=
  match n with
  | O => None
  | S k => match first_before i k with Some t => Some t | None => if i k then Some k else None end
  end.
Lemma first_some i n t : first_before i n = Some t -> (t < n)%nat /\ i t = true /\ forall u, (u < t)%nat -> i u = false.
Proof.
  revert t. induction n as [|k IH]; intros t H; cbn [first_before] in H; [discriminate|].
  destruct (first_before i k) as [t'|] eqn:E.
  - injection H as <-. destruct (IH t' eq_refl) as (? & ? & ?). repeat split; auto; lia.
  - destruct (i k) eqn:Ek; [|discriminate]. injection H as <-. repeat split; auto.
    intros u Hu. clear IH. revert u Hu. induction k as [|k IH]; intros u Hu; [lia|].
    cbn [first_before] in E. destruct (first_before i k) eqn:E2; [discriminate|]. destruct (i k) eqn:E3; [discriminate|].
    destruct (Nat.eq_dec u k) as [->|]; [assumption|].
    assert (H1 : (u < k)%nat) by lia. clear - E2 H1.
    revert u H1. induction k as [|k IH]; intros u H1; [lia|].
    cbn [first_before] in E2. destruct (first_before i k) eqn:E; [discriminate|]. destruct (i k) eqn:E3; [discriminate|].
    destruct (Nat.eq_dec u k) as [->|]; [assumption|]. apply IH; auto; lia.
Qed.
Lemma first_none i n : first_before i n = None -> forall u, (u < n)%nat -> i u = false.
Proof.
  induction n as [|k IH]; intros H u Hu; [lia|]. cbn [first_before] in H.
  destruct (first_before i k); [discriminate|]. destruct (i k) eqn:E; [discriminate|].
  destruct (Nat.eq_dec u k) as [->|]; [assumption|]. apply IH; auto; lia.
Qed.

Lemma dly_inv w d i n : 3 <= d -> d <= 2 ^ w ->
  let s := dly_at w d i n in
  match first_before i n with
  | None => dy_start s = false /\ dy_timer s = d - 2 /\ dy_out s = false
  | Some t => dy_start s = true /\
      (Z.of_nat n <= Z.of_nat t + d - 1 -> dy_timer s = d - 1 + Z.of_nat t - Z.of_nat n) /\
      dy_out s = (Z.of_nat t + d <=? Z.of_nat n)
  end.
Proof.
  intros Hd Hw. induction n as [|k IH].
  - cbn [first_before dly_at dly_init dy_start dy_timer dy_out]. split; [reflexivity|]. split; [|reflexivity].
    apply trunc_id. lia.
  - cbv zeta in *. cbn [first_before dly_at dly_step dy_start dy_timer dy_out].
    destruct (first_before i k) as [t|] eqn:E.
    + destruct (first_some _ _ _ E) as (Ht & _ & _). destruct IH as (Hs & Htm & Ho). rewrite Hs, orb_true_r. split; [reflexivity|]. split.
      * intros Hle. rewrite Htm by lia. rewrite trunc_id by lia. lia.
      * destruct (Z_le_gt_dec (Z.of_nat k) (Z.of_nat t + d - 1)) as [Hle|Hgt].
        -- rewrite Htm by exact Hle. rewrite Ho.
           destruct (Z.eqb_spec (d - 1 + Z.of_nat t - Z.of_nat k) 0); destruct (Z.leb_spec (Z.of_nat t + d) (Z.of_nat k));
             destruct (Z.leb_spec (Z.of_nat t + d) (Z.of_nat (S k))); lia || reflexivity.
        -- rewrite Ho. destruct (Z.leb_spec (Z.of_nat t + d) (Z.of_nat k)); [|lia]. rewrite orb_true_r.
           symmetry. apply Z.leb_le. lia.
    + destruct IH as (Hs & Htm & Ho). rewrite Hs, Htm, Ho.
      destruct (i k) eqn:Ek; cbn [orb].
      * split; [reflexivity|]. split; [intros; lia|].
        destruct (Z.eqb_spec (d - 2) 0); destruct (Z.leb_spec (Z.of_nat k + d) (Z.of_nat (S k))); lia || reflexivity.
      * repeat split; auto. destruct (Z.eqb_spec (d - 2) 0); [lia|reflexivity].
Qed.

(* Delayer(d), d >= 3: for every input sequence the output is 1 in cycle n exactly if the input was 1
   in some cycle at least d cycles earlier (the output stays 1 for ever) *)
Theorem C43_delayer : forall w d (i : nat -> bool) n, 3 <= d -> d <= 2 ^ w ->
  (dy_out (dly_at w d i n) = true <-> exists t, i t = true /\ Z.of_nat t + d <= Z.of_nat n).
Proof.
  intros w d i n Hd Hw. pose proof (dly_inv w d i n Hd Hw) as H. cbv zeta in H.
  destruct (first_before i n) as [t|] eqn:E.
  - destruct H as (_ & _ & Ho). rewrite Ho, Z.leb_le. destruct (first_some _ _ _ E) as (Ht & Hi & Hu). split.
    + intros. exists t. auto.
    + intros (u & Hiu & Hle). destruct (Nat.lt_ge_cases u t) as [Hlt|]; [rewrite (Hu u Hlt) in Hiu; discriminate|]. lia.
  - destruct H as (_ & _ & Ho). rewrite Ho. split; [discriminate|]. intros (u & Hiu & Hle).
    rewrite (first_none _ _ E u) in Hiu; [discriminate|lia].
Qed.
(* Delayer(2) does not wait at all: its output is 1 from cycle 1 on whatever the input *)
Theorem C43_delayer_two : forall w (i : nat -> bool) n, dy_out (dly_at w 2 i n) = (1 <=? Z.of_nat n).
Proof.
  intros w i n. destruct n as [|n]; [reflexivity|].
  replace (1 <=? Z.of_nat (S n)) with true by (symmetry; apply Z.leb_le; lia).
  induction n as [|n IH].
  - cbn [dly_at dly_step dy_out dly_init dy_timer]. unfold trunc. replace (2 - 2) with 0 by lia. rewrite Zmod_0_l. reflexivity.
  - set (k := S n) in *. cbn [dly_at dly_step dy_out]. rewrite IH. apply orb_true_r.
Qed.
Example C43_delayer_example :
  map (fun n => dy_out (dly_at 3 8 (fun t => Nat.eqb t 2) n)) (seq 0 13)
  = [false; false; false; false; false; false; false; false; false; false; true; true; true].
Proof. reflexivity. Qed.

(* ================= C43: reverser ================= *)

Lemma rev_comb_S n x : rev_comb (S n) x = 2 * rev_comb n x + b2z (Z.testbit x (Z.of_nat n)).
Proof.
  unfold rev_comb. rewrite seq_S, fold_right_app. cbn [fold_right Nat.add].
  replace (Z.of_nat (S n) - 1 - Z.of_nat n) with 0 by lia. rewrite Z.pow_0_r, Z.mul_1_r, Z.add_0_l.
  set (b := b2z _). clearbody b.
  assert (H : forall l, (forall i, In i l -> (i < n)%nat) -> forall b,
    fold_right (fun i acc => acc + b2z (Z.testbit x (Z.of_nat i)) * 2 ^ (Z.of_nat (S n) - 1 - Z.of_nat i)) b l
    = 2 * fold_right (fun i acc => acc + b2z (Z.testbit x (Z.of_nat i)) * 2 ^ (Z.of_nat n - 1 - Z.of_nat i)) 0 l + b).
  { induction l as [|a l IH]; intros Hl b0; cbn [fold_right]; [lia|].
    rewrite IH by (intros; apply Hl; right; assumption).
    assert (Ha : (a < n)%nat) by (apply Hl; left; reflexivity).
    replace (Z.of_nat (S n) - 1 - Z.of_nat a) with (Z.of_nat n - 1 - Z.of_nat a + 1) by lia.
    rewrite pow2_S by lia. lia. }
  apply H. intros i Hi. apply in_seq in Hi. lia.
Qed.
Lemma rev_comb_bval n x : rev_comb n x = bval (rev (bitsn n x)).
Proof.
  induction n as [|n IH]; [reflexivity|]. rewrite rev_comb_S, IH. cbn [bitsn rev]. rewrite bval_app.
  cbn [bval length]. change (2 ^ Z.of_nat 0) with 1. change (2 ^ Z.of_nat 1) with 2. lia.
Qed.
(* the output written as n bits is the input written as n bits, read backwards; applying the module
   twice gives the input back *)
Theorem C43_reverser : forall n x, 0 <= x < 2 ^ Z.of_nat n ->
  0 <= rev_comb n x < 2 ^ Z.of_nat n /\ bitsn n (rev_comb n x) = rev (bitsn n x) /\ rev_comb n (rev_comb n x) = x.
Proof.
  intros n x Hx. rewrite !rev_comb_bval.
  assert (Hl : length (rev (bitsn n x)) = n) by (rewrite rev_length, bitsn_length; reflexivity).
  assert (Hb : bitsn n (bval (rev (bitsn n x))) = rev (bitsn n x)) by (rewrite <- Hl at 1; apply bitsn_bval).
  repeat split.
  - apply bval_bound.
  - pose proof (bval_bound (rev (bitsn n x))) as H. rewrite Hl in H. lia.
  - exact Hb.
  - rewrite Hb, rev_involutive, bval_bitsn. apply Z.mod_small. exact Hx.
Qed.
(* the registered variant shows in each cycle the reversed input of the cycle before *)
Theorem C43_reverser_sync : forall n s l x, 0 <= x < 2 ^ Z.of_nat n ->
  bitsn n (fold_left (rev_sync_step n) (l ++ [x]) s) = rev (bitsn n x).
Proof. intros n s l x Hx. rewrite fold_left_app. cbn [fold_left]. apply C43_reverser. exact Hx. Qed.
Example C43_reverser_example : rev_comb 8 0xD1 = 0x8B.
Proof. reflexivity. Qed.

(* ================= C43: debug counters ================= *)

(* SPECIFICATION.  Counter k observes one of four signals at one level. *)
Definition observed (k : Z) (i : db_in) : bool :=
  if k =? 0 then negb (di_valid_in i) else if k =? 1 then di_valid_in i
  else if k =? 2 then negb (di_valid_out i) else if k =? 3 then di_valid_out i
  else if k =? 4 then di_nready i else if k =? 5 then negb (di_nready i)
  else if k =? 6 then di_busy_in i else negb (di_busy_in i).
(* The cycles counted by counter k: those after the first valid_in of the frame (started), without
   end_out, two cycles or more before the end of the run (the pipeline), neither they nor the next
   being the reset cycle. *)
Fixpoint hits (k : Z) (started : bool) (l : list db_in) : Z :=
  match l with
  | i :: ((j :: _ :: _) as r) =>
      b2z (negb (di_rst i) && negb (di_rst j) && started && negb (di_end_out i) && observed k i)
      + hits k (negb (di_rst i) && (started || di_valid_in i)) r
  | _ => 0
  end.

Lemma dbg_step_nth en : forall regs k n, (n < length regs)%nat ->
  nth n (dbg_step k regs en) 0 = if Z.testbit en (k + Z.of_nat n) then trunc 32 (nth n regs 0 + 1) else nth n regs 0.
Proof.
  induction regs as [|r regs IH]; intros k n Hn; cbn [length] in Hn; [lia|].
  destruct n as [|n]; cbn [dbg_step nth].
  - rewrite Z.add_0_r. reflexivity.
  - rewrite IH by lia. replace (k + 1 + Z.of_nat n) with (k + Z.of_nat (S n)) by lia. reflexivity.
Qed.
Lemma dbg_step_length en : forall regs k, length (dbg_step k regs en) = length regs.
Proof. induction regs; intros; cbn [dbg_step length]; auto. Qed.

Lemma db_en_bit st i k : 0 <= k < 8 -> Z.testbit (db_en st i) k = st && negb (di_end_out i) && observed k i.
Proof.
  intros Hk. assert (H : k = 0 \/ k = 1 \/ k = 2 \/ k = 3 \/ k = 4 \/ k = 5 \/ k = 6 \/ k = 7) by lia.
  unfold db_en. destruct i as [r vi eo vo nr bi]; cbn [di_rst di_valid_in di_end_out di_valid_out di_nready di_busy_in observed].
  destruct H as [-> | [-> | [-> | [-> | [-> | [-> | [-> | ->]]]]]]]; destruct st, eo, vi, vo, nr, bi; reflexivity.
Qed.

Lemma db_regs_gen : forall l s k, length (ds_regs s) = 8%nat -> (k < 8)%nat ->
  0 <= nth k (ds_regs s) 0 < 2 ^ 32 ->
  nth k (ds_regs (db_run s l)) 0 =
  trunc 32 (nth k (ds_regs s) 0
    + (match l with [] => 0 | i :: l' => b2z (Z.testbit (ds_en2 s) (Z.of_nat k)) +
        match l' with [] => 0 | _ => b2z (negb (di_rst i) && Z.testbit (ds_en1 s) (Z.of_nat k)) end end)
    + hits (Z.of_nat k) (ds_started s) l).
Proof.
  induction l as [|i l IH]; intros s k Hlen Hk Hr.
  - cbn [db_run hits]. rewrite trunc_id; lia.
  - cbn [db_run].
    assert (Hn : nth k (ds_regs (db_step s i)) 0 = trunc 32 (nth k (ds_regs s) 0 + b2z (Z.testbit (ds_en2 s) (Z.of_nat k)))).
    { cbn [db_step ds_regs]. rewrite dbg_step_nth by lia. rewrite Z.add_0_l.
      destruct (Z.testbit (ds_en2 s) (Z.of_nat k)); cbn [b2z]; [reflexivity|]. rewrite trunc_id; lia. }
    rewrite IH; [|cbn [db_step ds_regs]; rewrite dbg_step_length; exact Hlen|exact Hk|rewrite Hn; apply trunc_range; lia].
    rewrite Hn. unfold trunc. rewrite <- !Z.add_assoc, Zplus_mod_idemp_l. f_equal.
    rewrite <- !Z.add_assoc. f_equal. f_equal.
    destruct l as [|j l]; [cbn [hits]; lia|].
    assert (H2 : Z.testbit (ds_en2 (db_step s i)) (Z.of_nat k) = negb (di_rst i) && Z.testbit (ds_en1 s) (Z.of_nat k)).
    { cbn [db_step ds_en2]. destruct (di_rst i); [apply Z.testbit_0_l|reflexivity]. }
    rewrite H2. rewrite <- Z.add_assoc. f_equal.
    destruct l as [|x l]; [reflexivity|].
    assert (H1 : Z.testbit (ds_en1 (db_step s i)) (Z.of_nat k) =
       negb (di_rst i) && ds_started s && negb (di_end_out i) && observed (Z.of_nat k) i).
    { cbn [db_step ds_en1]. destruct (di_rst i); [apply Z.testbit_0_l|]. rewrite db_en_bit by lia. reflexivity. }
    rewrite H1.
    change (hits (Z.of_nat k) (ds_started s) (i :: j :: x :: l)) with
      (b2z (negb (di_rst i) && negb (di_rst j) && ds_started s && negb (di_end_out i) && observed (Z.of_nat k) i)
       + hits (Z.of_nat k) (negb (di_rst i) && (ds_started s || di_valid_in i)) (j :: x :: l)).
    f_equal.
    + destruct (di_rst i), (di_rst j), (ds_started s); reflexivity.
    + f_equal. cbn [db_step ds_started]. destruct (di_rst i); reflexivity.
Qed.

(* Each of the eight counters counts its cycles modulo 2^32, over every run and across any number of
   frame resets *)
Theorem C43_counters : forall l k, 0 <= k < 8 ->
  nth (Z.to_nat k) (ds_regs (db_run db_init l)) 0 = hits k false l mod 2 ^ 32.
Proof.
  intros l k Hk. rewrite db_regs_gen; [|reflexivity|lia|].
  - rewrite Z2Nat.id by lia. cbn [db_init ds_regs ds_en1 ds_en2 ds_started].
    rewrite Z.testbit_0_l.
    replace (nth (Z.to_nat k) dbg_regs_init 0) with 0.
    + unfold trunc. f_equal. destruct l as [|i [|j l]]; cbn [b2z]; try rewrite andb_false_r; cbn [b2z]; try lia; cbn [hits]; lia.
    + assert (H : k = 0 \/ k = 1 \/ k = 2 \/ k = 3 \/ k = 4 \/ k = 5 \/ k = 6 \/ k = 7) by lia.
      destruct H as [-> | [-> | [-> | [-> | [-> | [-> | [-> | ->]]]]]]]; reflexivity.
  - assert (H : k = 0 \/ k = 1 \/ k = 2 \/ k = 3 \/ k = 4 \/ k = 5 \/ k = 6 \/ k = 7) by lia.
    destruct H as [-> | [-> | [-> | [-> | [-> | [-> | [-> | ->]]]]]]]; (split; [discriminate|reflexivity]).
Qed.

Lemma hits_pair k k' : (forall i, observed k' i = negb (observed k i)) -> forall q q', (forall i, observed q' i = negb (observed q i)) ->
  forall l st, hits k st l + hits k' st l = hits q st l + hits q' st l.
Proof.
  intros Hk q q' Hq. induction l as [|i l IH]; intros st; [reflexivity|].
  destruct l as [|j [|x l]]; [reflexivity|reflexivity|].
  set (r := j :: x :: l) in *.
  change (hits k st (i :: r)) with (b2z (negb (di_rst i) && negb (di_rst j) && st && negb (di_end_out i) && observed k i) + hits k (negb (di_rst i) && (st || di_valid_in i)) r).
  change (hits k' st (i :: r)) with (b2z (negb (di_rst i) && negb (di_rst j) && st && negb (di_end_out i) && observed k' i) + hits k' (negb (di_rst i) && (st || di_valid_in i)) r).
  change (hits q st (i :: r)) with (b2z (negb (di_rst i) && negb (di_rst j) && st && negb (di_end_out i) && observed q i) + hits q (negb (di_rst i) && (st || di_valid_in i)) r).
  change (hits q' st (i :: r)) with (b2z (negb (di_rst i) && negb (di_rst j) && st && negb (di_end_out i) && observed q' i) + hits q' (negb (di_rst i) && (st || di_valid_in i)) r).
  specialize (IH (negb (di_rst i) && (st || di_valid_in i))). rewrite Hk, Hq.
  assert (H : forall c b : bool, b2z (c && b) + b2z (c && negb b) = b2z c) by (intros [] []; reflexivity).
  pose proof (H (negb (di_rst i) && negb (di_rst j) && st && negb (di_end_out i)) (observed k i)).
  pose proof (H (negb (di_rst i) && negb (di_rst j) && st && negb (di_end_out i)) (observed q i)).
  lia.
Qed.
(* the two counters of each signal always add up to the same number of cycles *)
Theorem C43_pairs : forall l k q, 0 <= k < 4 -> 0 <= q < 4 ->
  let c j := nth (Z.to_nat j) (ds_regs (db_run db_init l)) 0 in
  (c (2 * k) + c (2 * k + 1)) mod 2 ^ 32 = (c (2 * q) + c (2 * q + 1)) mod 2 ^ 32.
Proof.
  intros l k q Hk Hq. cbv beta zeta. rewrite !C43_counters by lia. rewrite <- !Zplus_mod. f_equal.
  assert (H : forall k, 0 <= k < 4 -> forall i, observed (2 * k + 1) i = negb (observed (2 * k) i)).
  { intros m Hm i. assert (Hc : m = 0 \/ m = 1 \/ m = 2 \/ m = 3) by lia.
    destruct Hc as [-> | [-> | [-> | ->]]]; unfold observed; cbn [Z.mul Z.add Z.eqb Pos.mul Pos.add Pos.eqb]; rewrite ?negb_involutive; reflexivity. }
  apply hits_pair; apply H; assumption.
Qed.
Example C43_counters_example :
  let i v := {| di_rst := false; di_valid_in := v; di_end_out := false; di_valid_out := false; di_nready := true; di_busy_in := false |} in
  ds_regs (db_run db_init [i true; i false; i true; i true; i false; i false]) = [1; 2; 3; 0; 3; 0; 0; 3].
Proof. reflexivity. Qed.

(* ================= C44: constraints ================= *)

(* the values requested for each quantity, with the component that asked, in order *)
Definition asked_h (l : list upd) := flat_map (fun u => match u with U_height v c => [(v, c)] | _ => [] end) l.
Definition asked_w (l : list upd) := flat_map (fun u => match u with U_width v c => [(v, c)] | _ => [] end) l.
Definition asked_b (l : list upd) := flat_map (fun u => match u with U_depth v c => [(v, c)] | _ => [] end) l.
Definition asked_hm (l : list upd) := flat_map (fun u => match u with U_hmul v c => [(v, c)] | _ => [] end) l.
Definition asked_wm (l : list upd) := flat_map (fun u => match u with U_wmul v c => [(v, c)] | _ => [] end) l.

(* the recorded bound (component, value) is the extreme of the default and the requests; it names the
   first component that asked for the extreme value *)
Definition is_largest (dflt : Z) (q : list (Z * Z)) (b : Z * Z) : Prop :=
  dflt <= snd b /\ Forall (fun x => fst x <= snd b) q /\
  (b = (0, dflt) \/ exists p r, q = p ++ (snd b, fst b) :: r /\ dflt < snd b /\ Forall (fun x => fst x < snd b) p).
Definition is_smallest (dflt : Z) (q : list (Z * Z)) (b : Z * Z) : Prop :=
  snd b <= dflt /\ Forall (fun x => snd b <= fst x) q /\
  (b = (0, dflt) \/ exists p r, q = p ++ (snd b, fst b) :: r /\ snd b < dflt /\ Forall (fun x => snd b < fst x) p).

Lemma up_largest dflt q b v c : is_largest dflt q b -> is_largest dflt (q ++ [(v, c)]) (up b v c).
Proof.
  intros (H1 & H2 & H3). unfold up. destruct (Z.ltb_spec (snd b) v) as [Hlt|Hge].
  - split; [cbn [snd]; lia|]. split.
    + rewrite Forall_app. split; [eapply Forall_impl; [|exact H2]; cbn [snd]; intros; lia|]. constructor; [cbn; lia|constructor].
    + right. exists q, []. cbn [fst snd]. split; [reflexivity|]. split; [lia|]. eapply Forall_impl; [|exact H2]; cbn beta; intros; lia.
  - split; [exact H1|]. split.
    + rewrite Forall_app. split; [exact H2|]. constructor; [cbn [fst]; lia|constructor].
    + destruct H3 as [H3|(p & r & -> & Hd & Hp)]; [left; exact H3|right]. exists p, (r ++ [(v, c)]). split; [|auto].
      rewrite <- app_assoc. reflexivity.
Qed.
Lemma down_smallest dflt q b v c : is_smallest dflt q b -> is_smallest dflt (q ++ [(v, c)]) (down b v c).
Proof.
  intros (H1 & H2 & H3). unfold down. destruct (Z.ltb_spec v (snd b)) as [Hlt|Hge].
  - split; [cbn [snd]; lia|]. split.
    + rewrite Forall_app. split; [eapply Forall_impl; [|exact H2]; cbn [snd]; intros; lia|]. constructor; [cbn; lia|constructor].
    + right. exists q, []. cbn [fst snd]. split; [reflexivity|]. split; [lia|]. eapply Forall_impl; [|exact H2]; cbn beta; intros; lia.
  - split; [exact H1|]. split.
    + rewrite Forall_app. split; [exact H2|]. constructor; [cbn [fst]; lia|constructor].
    + destruct H3 as [H3|(p & r & -> & Hd & Hp)]; [left; exact H3|right]. exists p, (r ++ [(v, c)]). split; [|auto].
      rewrite <- app_assoc. reflexivity.
Qed.

Theorem C44_bounds : forall l, let k := cons_run cons_init l in
  is_largest 1 (asked_h l) (cn_hmin k) /\ is_smallest 65535 (asked_h l) (cn_hmax k) /\
  is_largest 1 (asked_w l) (cn_wmin k) /\ is_smallest 65535 (asked_w l) (cn_wmax k) /\
  is_largest 2 (asked_b l) (cn_bmin k) /\ is_smallest 16 (asked_b l) (cn_bmax k) /\
  is_largest 1 (asked_hm l) (cn_hmul k) /\ is_largest 1 (asked_wm l) (cn_wmul k).
Proof.
  intros l. induction l as [|u l IH] using rev_ind.
  - cbn. unfold is_largest, is_smallest. cbn [fst snd]. repeat split; try lia; auto.
  - cbv zeta in *. unfold cons_run in *. rewrite fold_left_app. cbn [fold_left].
    unfold asked_h, asked_w, asked_b, asked_hm, asked_wm in *. rewrite !flat_map_app. cbn [flat_map].
    destruct IH as (H1 & H2 & H3 & H4 & H5 & H6 & H7 & H8).
    destruct u; cbn [cons_upd cn_hmin cn_hmax cn_wmin cn_wmax cn_bmin cn_bmax cn_hmul cn_wmul app];
      rewrite ?app_nil_r; refine (conj _ (conj _ (conj _ (conj _ (conj _ (conj _ (conj _ _))))))); try assumption;
      first [apply up_largest|apply down_smallest]; assumption.
Qed.
(* A single request of value v closes the range from both sides: minimum >= v >= maximum.  So the
   recorded width range contains at most the requested value, and none at all after two different
   requests. *)
Theorem C44_inverted : forall l v c, In (U_width v c) l ->
  let k := cons_run cons_init l in snd (cn_wmax k) <= v <= snd (cn_wmin k) /\
  (forall v' c', In (U_width v' c') l -> v' <> v -> snd (cn_wmax k) < snd (cn_wmin k)).
Proof.
  intros l v c Hin. cbv zeta. destruct (C44_bounds l) as (_ & _ & (_ & Hmin & _) & (_ & Hmax & _) & _).
  rewrite Forall_forall in Hmin, Hmax.
  assert (H : forall v c, In (U_width v c) l -> In (v, c) (asked_w l)).
  { intros v0 c0 H0. apply in_flat_map. exists (U_width v0 c0). split; [exact H0|left; reflexivity]. }
  pose proof (Hmin _ (H _ _ Hin)) as A. pose proof (Hmax _ (H _ _ Hin)) as B. cbn [fst] in A, B. split; [lia|].
  intros v' c' Hin' Hne. pose proof (Hmin _ (H _ _ Hin')) as A'. pose proof (Hmax _ (H _ _ Hin')) as B'. cbn [fst] in A', B'. lia.
Qed.
(* Building any predictor (ps = 1, 2 or 4 pixels per cycle) leaves a width range of exactly {ps},
   which contradicts every frame the core can actually encode *)
Theorem C44_predictor : forall ps comp, ps = 1 \/ ps = 2 \/ ps = 4 ->
  let k := cons_run cons_init (predictor_updates ps comp) in
  snd (cn_wmin k) = ps /\ snd (cn_wmax k) = ps /\ snd (cn_wmul k) = ps /\
  snd (cn_hmin k) = 1 /\ snd (cn_hmax k) = 65535 /\ snd (cn_bmin k) = 2 /\ snd (cn_bmax k) = 16.
Proof. intros ps comp [-> | [-> | ->]]; cbn; repeat split; reflexivity. Qed.
(* multiples are combined by maximum, not by least common multiple: a width that meets the recorded
   multiple need not meet all the requested ones *)
Theorem C44_multiples_not_combined : exists l w, asked_wm l = [(2, 1); (3, 2)] /\
  w mod snd (cn_wmul (cons_run cons_init l)) = 0 /\ w mod 2 <> 0.
Proof. exists [U_wmul 2 1; U_wmul 3 2], 3. cbn. repeat split. discriminate. Qed.
Example C44_example : cons_run cons_init [U_width 8 1; U_width 4 2; U_width 8 3] =
  {| cn_hmin := (0, 1); cn_wmin := (1, 8); cn_bmin := (0, 2); cn_hmax := (0, 65535); cn_wmax := (2, 4); cn_bmax := (0, 16); cn_hmul := (0, 1); cn_wmul := (0, 1) |}.
Proof. reflexivity. Qed.
