(* C40 AXI HP writer, C41 address generator, C42 DMA limits, C50 AXI HP reader. *)
From Verif Require Import Bits Spec M_Predictor M_SyncFifo P_SyncFifo Props_B32 M_AxiHP.
Ltac Zify.zify_post_hook ::= idtac.

Lemma trunc_small n x : 0 <= x < 2 ^ n -> trunc n x = x.
Proof. intros H. unfold trunc. apply Z.mod_small. exact H. Qed.

(* ------------------------------------------------------------------ C40: wlast *)

(* C40.  For every burst length C, every slave, every data source: which transferred data beats carry wlast depends only
   on their number.  The beats with wlast are number C, 2C, 3C, ... counted from 0, not C-1, 2C-1, ... *)
Definition last_flag (C : Z) (n : nat) : bool := negb (Nat.eqb n 0) && (Z.of_nat n mod C =? 0).
Lemma mod_succ_last C k : 1 <= C -> 0 <= k -> (k mod C =? C - 1) = ((k + 1) mod C =? 0) /\ (if k mod C =? C - 1 then 0 else k mod C + 1) = (k + 1) mod C.
Proof.
  intros HC Hk. pose proof (Z.mod_pos_bound k C ltac:(lia)) as B. destruct (k mod C =? C - 1) eqn:E.
  - apply Z.eqb_eq in E. assert (M : (k + 1) mod C = 0). { rewrite <- Z.add_mod_idemp_l, E by lia. replace (C - 1 + 1) with C by lia. apply Z.mod_same. lia. } rewrite M. auto.
  - apply Z.eqb_neq in E. assert (M : (k + 1) mod C = k mod C + 1). { rewrite <- Z.add_mod_idemp_l by lia. apply Z.mod_small. lia. } rewrite M. split; [symmetry; apply Z.eqb_neq; lia|reflexivity].
Qed.
Definition hw_count (C : Z) (k : nat) (s : hw_st) : Prop := hw_ctr s = Z.of_nat k mod C /\ hw_wlast s = last_flag C k.
Lemma hw_count_step C k s i : 1 <= C <= 16 -> hw_count C k s -> hw_count C (if hw_data_en s i then S k else k) (hw_step C s i).
Proof.
  intros HC [H1 H2]. unfold hw_count, hw_step. cbn [hw_ctr hw_wlast]. destruct (hw_data_en s i); [|auto].
  destruct (mod_succ_last C (Z.of_nat k) ltac:(lia) ltac:(lia)) as [M1 M2]. pose proof (Z.mod_pos_bound (Z.of_nat k) C ltac:(lia)) as B.
  rewrite H1. unfold last_flag. replace (Z.of_nat (S k)) with (Z.of_nat k + 1) by lia. cbn [Nat.eqb negb andb]. split; [|exact M1].
  destruct (Z.of_nat k mod C =? C - 1) eqn:E; [exact M2|]. rewrite trunc_small; [exact M2|]. change (2 ^ 4) with 16. apply Z.eqb_neq in E. lia.
Qed.
Theorem C40_wlast_position : forall C l n b, 1 <= C <= 16 -> nth_error (hw_beats C hw_init l) n = Some b ->
  b = negb (Nat.eqb n 0) && (Z.of_nat n mod C =? 0).
Proof.
  intros C l n b HC.
  assert (K : forall l k s n, hw_count C k s -> nth_error (hw_beats C s l) n = Some b -> b = last_flag C (k + n)).
  { induction l0 as [|i l0 IH]; intros k s m I H; [destruct m; discriminate|]. cbn [hw_beats] in H. pose proof (hw_count_step C k s i HC I) as I'. destruct (hw_data_en s i).
    - cbn [app] in H. destruct m as [|m]; cbn [nth_error] in H; [injection H as <-; rewrite Nat.add_0_r; apply I|]. rewrite (IH (S k) _ m I' H). f_equal. lia.
    - cbn [app] in H. exact (IH k _ m I' H). }
  intros H. apply (K l 0%nat hw_init n); [|exact H]. split; [|reflexivity]. symmetry. apply Z.mod_0_l. lia.
Qed.
(* C40.  The bursts announced on the address channel have awlen + 1 = 16 beats.  No burst has wlast on its 16th beat: wlast comes
   on the first beat of the following burst. *)
Theorem C40_burst_misaligned : forall l k, (16 * k + 16 < length (hw_beats 16 hw_init l))%nat ->
  hw_awlen 16 = 15 /\ nth (16 * k + 15) (hw_beats 16 hw_init l) true = false /\ nth (16 * k + 16) (hw_beats 16 hw_init l) false = true.
Proof.
  intros l k H. split; [reflexivity|].
  assert (E : forall n d, (n < length (hw_beats 16 hw_init l))%nat -> nth n (hw_beats 16 hw_init l) d = negb (Nat.eqb n 0) && (Z.of_nat n mod 16 =? 0)).
  { intros n d Hn. destruct (nth_error (hw_beats 16 hw_init l) n) as [b|] eqn:En; [|apply nth_error_None in En; lia].
    rewrite (nth_error_nth _ _ d En). exact (C40_wlast_position 16 l n b ltac:(lia) En). }
  rewrite !E by lia. split.
  - replace (Z.of_nat (16 * k + 15)) with (15 + Z.of_nat k * 16) by lia. rewrite Z.mod_add by lia. apply andb_false_r.
  - replace (Z.of_nat (16 * k + 16)) with (0 + (Z.of_nat k + 1) * 16) by lia. rewrite Z.mod_add by lia. destruct (Nat.eqb_spec (16 * k + 16) 0); [lia|reflexivity].
Qed.

(* C40.  If the slave is not ready in the cycle in which wlast is first shown, the writer withdraws the beat (wvalid falls
   without a transfer), keeps wlast and counts one burst as completed in every following cycle in which no
   address is handed over, until a further beat is transferred. *)
Theorem C40_last_beat_withdrawn : forall C s i, hw_wvalid s = true -> hw_wlast s = true -> hwi_wready i = false ->
  hw_wvalid (hw_step C s i) = false /\ hw_wlast (hw_step C s i) = true.
Proof. intros C s i H1 H2 H3. unfold hw_step, hw_data_en. cbn [hw_wvalid hw_wlast]. rewrite H1, H2, H3. auto. Qed.
Theorem C40_active_runs_away : forall C l s, hw_wlast s = true -> Forall (fun i => hwi_wready i = false /\ hwi_awready i = false) l ->
  hw_wlast (hw_run C s l) = true /\ (hw_active (hw_run C s l) mod 16 = (hw_active s - Z.of_nat (length l)) mod 16).
Proof.
  induction l as [|i l IH]; intros s Hl HF; [cbn; split; [exact Hl|f_equal; lia]|]. apply Forall_cons_iff in HF. destruct HF as [[F1 F2] HF]. cbn [hw_run].
  assert (E : hw_wlast (hw_step C s i) = true /\ hw_active (hw_step C s i) = trunc 4 (hw_active s - 1)).
  { unfold hw_step, hw_data_en, hw_addr_en. cbn [hw_wlast hw_active]. rewrite Hl, F1, F2, !andb_false_r. auto. }
  destruct E as [E1 E2]. destruct (IH _ E1 HF) as [J1 J2]. split; [exact J1|]. rewrite J2, E2. unfold trunc. change (2 ^ 4) with 16. rewrite Zminus_mod_idemp_l. f_equal. cbn [length]. lia.
Qed.

(* C40.  With a slave that is always ready for data the books are right: the in-flight count is the number of addresses handed
   over minus the number of wlast beats, it stays between 0 and 8, wlast is only shown with a valid beat. *)
Definition lasts (l : list bool) : nat := count_occ Bool.bool_dec l true.
Definition hw_ready_inv (C : Z) (s : hw_st) : Prop :=
  (hw_wlast s = true -> hw_wvalid s = true /\ hw_ctr s = 0) /\ (hw_wvalid s = true -> 1 <= hw_active s) /\ 0 <= hw_active s <= 8 /\ (hw_awvalid s = true -> hw_active s <= 7).
Lemma hw_ready_step C s i : 2 <= C <= 16 -> hwi_wready i = true -> hw_ready_inv C s ->
  hw_ready_inv C (hw_step C s i) /\ hw_active (hw_step C s i) = hw_active s + (if hw_addr_en s i then 1 else 0) - (if hw_wlast s then 1 else 0) /\ (hw_wlast s = true -> hw_data_en s i = true).
Proof.
  intros HC Hr (I1 & I2 & I3 & I4).
  assert (A : hw_active (hw_step C s i) = hw_active s + (if hw_addr_en s i then 1 else 0) - (if hw_wlast s then 1 else 0)).
  { unfold hw_step. cbn [hw_active]. destruct (hw_addr_en s i) eqn:Ea, (hw_wlast s) eqn:El; cbn [andb negb]; try lia.
    - rewrite trunc_small; [lia|]. change (2 ^ 4) with 16. lia.
    - destruct (I1 eq_refl) as [W _]. specialize (I2 W). rewrite trunc_small; [lia|]. change (2 ^ 4) with 16. lia. }
  assert (Aw : hw_addr_en s i = true -> hw_active s <= 7) by (unfold hw_addr_en; intros E; apply andb_prop in E; apply I4, E).
  split; [|split; [exact A|intros L; unfold hw_data_en; destruct (I1 L) as [-> _]; rewrite Hr; reflexivity]].
  unfold hw_ready_inv. rewrite A. unfold hw_step, hw_data_en. cbn [hw_wlast hw_wvalid hw_ctr hw_awvalid]. rewrite Hr, andb_true_r.
  split; [|split; [|split]].
  - destruct (hw_wvalid s) eqn:Ev.
    + intros E. rewrite E. split; [|reflexivity]. destruct (hw_wlast s); [|reflexivity]. destruct (I1 eq_refl) as [_ Z0]. lia.
    + intros E. destruct (I1 E). discriminate.
  - destruct (hw_wvalid s) eqn:Ev; intros E.
    + destruct (hw_wlast s); [discriminate|]. specialize (I2 eq_refl). destruct (hw_addr_en s i); lia.
    + destruct (hw_wlast s) eqn:El; [destruct (I1 eq_refl); discriminate|]. apply andb_prop in E. destruct E as [_ E]. destruct (hw_addr_en s i); lia.
  - destruct (hw_wlast s) eqn:El; [destruct (I1 eq_refl) as [W _]; specialize (I2 W)|]; destruct (hw_addr_en s i) eqn:Ea; try (specialize (Aw eq_refl)); lia.
  - unfold hw_addr_en in *. destruct (hw_awvalid s) eqn:Eav; intros E.
    + specialize (I4 eq_refl). destruct (hwi_awready i); [discriminate|]. cbn [andb]. destruct (hw_wlast s); lia.
    + cbn [andb]. apply andb_prop in E. destruct E as [_ E]. unfold below_max in E. destruct (hw_wlast s); lia.
Qed.
Theorem C40_ready_slave : forall C l, 2 <= C <= 16 -> Forall (fun i => hwi_wready i = true) l ->
  let s := hw_run C hw_init l in
  Z.of_nat (hw_addrs C hw_init l) = hw_active s + Z.of_nat (lasts (hw_beats C hw_init l)) /\ 0 <= hw_active s <= 8 /\ (hw_wlast s = true -> hw_wvalid s = true).
Proof.
  intros C l HC HF s.
  assert (K : forall l s, Forall (fun i => hwi_wready i = true) l -> hw_ready_inv C s ->
    hw_ready_inv C (hw_run C s l) /\ hw_active s + Z.of_nat (hw_addrs C s l) = hw_active (hw_run C s l) + Z.of_nat (lasts (hw_beats C s l))).
  { clear - HC. induction l as [|i l IH]; intros s HF I; [cbn; split; [exact I|lia]|]. apply Forall_cons_iff in HF. destruct HF as [F1 HF]. cbn [hw_run hw_addrs hw_beats].
    destruct (hw_ready_step C s i HC F1 I) as (J1 & J2 & J3). destruct (IH _ HF J1) as [K1 K2]. split; [exact K1|]. unfold lasts in *. rewrite count_occ_app.
    destruct (hw_wlast s) eqn:El.
    - rewrite (J3 eq_refl). cbn [count_occ]. destruct (Bool.bool_dec true true); [|congruence]. destruct (hw_addr_en s i); lia.
    - assert (Z0 : count_occ Bool.bool_dec (if hw_data_en s i then [false] else []) true = 0%nat) by (destruct (hw_data_en s i); reflexivity). rewrite Z0. destruct (hw_addr_en s i); lia. }
  destruct (K l hw_init HF) as [K1 K2]; [repeat split; cbn; try discriminate; lia|]. fold s in K1, K2. destruct K1 as (I1 & I2 & I3 & I4). cbn [hw_active hw_init] in K2. split; [lia|]. split; [exact I3|]. intros E. apply I1, E.
Qed.

(* C40.  The unconfirmed count is the number of addresses handed over minus the accepted responses, modulo 16, for every environment. *)
Theorem C40_unconfirmed : forall C l, hw_unconf (hw_run C hw_init l) = (Z.of_nat (hw_addrs C hw_init l) - Z.of_nat (hw_resps C hw_init l)) mod 16.
Proof.
  intros C l.
  assert (K : forall l s, 0 <= hw_unconf s < 16 -> hw_unconf (hw_run C s l) = (hw_unconf s + Z.of_nat (hw_addrs C s l) - Z.of_nat (hw_resps C s l)) mod 16).
  { clear. induction l as [|i l IH]; intros s B; cbn [hw_run hw_addrs hw_resps]; [rewrite Z.mod_small; lia|].
    assert (E : exists z, hw_unconf (hw_step C s i) = (hw_unconf s + (if hw_addr_en s i then 1 else 0) - (if hw_resp_en s i then 1 else 0)) + z * 16 /\ 0 <= hw_unconf (hw_step C s i) < 16).
    { unfold hw_step. cbn [hw_unconf]. assert (M : forall x, exists z, trunc 4 x = x + z * 16 /\ 0 <= trunc 4 x < 16).
      { intros x. exists (- (x / 16)). unfold trunc. change (2 ^ 4) with 16. pose proof (Z.mod_pos_bound x 16 ltac:(lia)). pose proof (Z.div_mod x 16 ltac:(lia)). lia. }
      destruct (hw_addr_en s i), (hw_resp_en s i); cbn [andb negb].
      - exists 0. lia.
      - destruct (M (hw_unconf s + 1)) as (z & M1 & M2). exists z. lia.
      - destruct (M (hw_unconf s - 1)) as (z & M1 & M2). exists z. lia.
      - exists 0. lia. }
    destruct E as (z & E1 & E2). rewrite IH by exact E2. rewrite E1.
    destruct (hw_addr_en s i), (hw_resp_en s i); match goal with |- ?a mod 16 = ?b mod 16 => replace a with (b + z * 16) by lia end; apply Z.mod_add; lia. }
  apply K. cbn. lia.
Qed.

(* the response channel on the bus, cycle by cycle: (bready, bvalid, bresp, writer_error) *)
Fixpoint hw_resp_trace (C : Z) (s : hw_st) (l : list hw_in) : list (bool * bool * Z * bool) :=
  match l with [] => [] | i :: r => (hw_bready s, hwi_bvalid i, hwi_bresp i, hw_error s i) :: hw_resp_trace C (hw_step C s i) r end.
(* C40.  An error is reported in exactly the cycles in which a response other than OKAY is transferred. *)
Theorem C40_error_flag : forall C l bready bvalid bresp err, In (bready, bvalid, bresp, err) (hw_resp_trace C hw_init l) ->
  (err = true <-> bready = true /\ bvalid = true /\ bresp <> 0).
Proof.
  intros C l bready bvalid bresp err. generalize hw_init as s. induction l as [|i l IH]; intros s H; [destruct H|]. destruct H as [H|H]; [|exact (IH _ H)].
  injection H as <- <- <- <-. unfold hw_error, hw_resp_en. rewrite !andb_true_iff, negb_true_iff, Z.eqb_neq. tauto.
Qed.
(* C40.  While the writer stays enabled and a burst is unconfirmed, a response the slave holds for two cycles is taken; with no burst
   unconfirmed the writer withdraws bready every second cycle. *)
Theorem C40_response_taken : forall C l i j, hwi_enable i = true -> hwi_bvalid i = true -> hwi_bvalid j = true ->
  let s := hw_run C hw_init l in hw_unconf s <> 0 -> hw_resp_en s i = true \/ hw_resp_en (hw_step C s i) j = true.
Proof.
  intros C l i j He Hi Hj s Hu. unfold hw_resp_en. rewrite Hi, Hj, !andb_true_r. destruct (hw_bready s) eqn:E; [auto|right]. unfold hw_step. cbn [hw_bready]. rewrite E. exact He.
Qed.
Theorem C40_response_idle : forall C l i, let s := hw_run C hw_init l in hw_bready s = true -> (hw_bready (hw_step C s i) = false <-> hw_unconf s = 0).
Proof. intros C l i s Hb. unfold hw_step. cbn [hw_bready]. rewrite Hb, negb_false_iff, Z.eqb_eq. reflexivity. Qed.
(* C40.  A writer disabled while bready is withdrawn takes no response any more, however long the slave offers one: the unconfirmed
   count never falls, so `inactive' is never reported again.  Such a state is reached by disabling the writer at the wrong moment. *)
Theorem C40_disabled_never_confirms : forall C l1 l2, let s := hw_run C hw_init l1 in
  hw_bready s = false -> Forall (fun i => hwi_enable i = false /\ hwi_awready i = false) l2 ->
  hw_resps C s l2 = 0%nat /\ hw_unconf (hw_run C s l2) = hw_unconf s /\ (hw_unconf s <> 0 -> hw_inactive (hw_run C s l2) = false).
Proof.
  intros C l1 l2 s. generalize s. clear. intros s. revert s. induction l2 as [|i l2 IH]; intros s Hb HF.
  - cbn [hw_resps hw_run]. repeat split. intros H. unfold hw_inactive. apply Z.eqb_neq in H. rewrite H. apply andb_false_r.
  - apply Forall_cons_iff in HF. destruct HF as [[F1 F2] HF]. cbn [hw_resps hw_run].
    assert (R : hw_resp_en s i = false) by (unfold hw_resp_en; rewrite Hb; reflexivity).
    assert (N : hw_bready (hw_step C s i) = false /\ hw_unconf (hw_step C s i) = hw_unconf s).
    { unfold hw_step. cbn [hw_bready hw_unconf]. rewrite R, Hb, F1. unfold hw_addr_en. rewrite F2, andb_false_r. auto. }
    destruct N as [N1 N2]. destruct (IH _ N1 HF) as (J1 & J2 & J3). rewrite R, J1, J2, N2. rewrite N2 in J3. auto.
Qed.
Example C40_example_disabled : exists l1, let s := hw_run 16 hw_init l1 in hw_bready s = false /\ hw_unconf s = 1 /\ last (map hwi_enable l1) false = true.
Proof.
  exists (repeat {| hwi_enable := true; hwi_addr_empty := false; hwi_data_empty := true; hwi_awready := true; hwi_wready := true; hwi_bvalid := false; hwi_bresp := 0 |} 2).
  vm_compute. auto.
Qed.

(* C40.  An address offered stays offered until it is taken. *)
Theorem C40_address_held : forall C s i, hw_awvalid s = true -> hwi_awready i = false -> hw_awvalid (hw_step C s i) = true.
Proof. intros C s i H1 H2. unfold hw_step. cbn [hw_awvalid]. rewrite H1, H2. reflexivity. Qed.

(* ------------------------------------------------------------------ C40: the writer with its fifo *)

Definition wbeat_data (b : Z * bool * bool) : Z := fst (fst b).
Definition wbeat_last (b : Z * bool * bool) : bool := snd (fst b).
Definition wbeat_real (b : Z * bool * bool) : bool := snd b.

(* beats still to come in the running burst, after k beats *)
Definition rem_beats (k : nat) : Z := if Nat.leb k 16 then 17 - Z.of_nat k else 16 - (Z.of_nat k - 1) mod 16.
Definition under_inv (k : nat) (s : ws_st) : Prop :=
  hw_count 16 k (ws_w s) /\ sf_inv 32 (ws_f s) /\
  (hw_wvalid (ws_w s) = false -> k = 0%nat \/ ((17 <= k)%nat /\ Z.of_nat k mod 16 = 1)) /\
  (hw_wvalid (ws_w s) = true -> rem_beats k - (if Nat.leb k 16 then 1 else 0) <= sf_lvl (ws_f s)).
Lemma rem_succ k : last_flag 16 k = false -> rem_beats (S k) = rem_beats k - 1.
Proof.
  unfold last_flag, rem_beats. intros H. destruct (Nat.leb_spec k 16), (Nat.leb_spec (S k) 16); try lia.
  - assert (k = 16%nat) by lia. subst. discriminate H.
  - replace (Nat.eqb k 0) with false in H by (symmetry; apply Nat.eqb_neq; lia). cbn [negb andb] in H. apply Z.eqb_neq in H.
    replace (Z.of_nat (S k) - 1) with ((Z.of_nat k - 1) + 1) by lia. destruct (mod_succ_last 16 (Z.of_nat k - 1) ltac:(lia) ltac:(lia)) as [M1 M2].
    rewrite <- M2. destruct ((Z.of_nat k - 1) mod 16 =? 16 - 1) eqn:E; [|lia]. exfalso. replace (Z.of_nat k - 1 + 1) with (Z.of_nat k) in M1 by lia. lia.
Qed.
Lemma rem_pos k : 1 <= rem_beats k.
Proof. unfold rem_beats. destruct (Nat.leb_spec k 16); [lia|]. pose proof (Z.mod_pos_bound (Z.of_nat k - 1) 16 ltac:(lia)). lia. Qed.
Lemma under_step lim k s i : wsi_wready i = true -> 0 <= wsi_data i < 2 ^ 64 -> under_inv k s ->
  under_inv (if ws_data_en s i then S k else k) (ws_step lim s i) /\ (ws_data_en s i = true -> k <> 16%nat -> af_readable (ws_f s) = true).
Proof.
  intros Hr Hd (I1 & I2 & I3 & I4). set (fi := {| af_data_in := wsi_data i; af_end_in := wsi_end i; af_valid_in := wsi_push i; af_read := ws_data_en s i |}).
  assert (De : hw_data_en (ws_w s) (ws_hw lim s i) = ws_data_en s i) by reflexivity.
  pose proof (hw_count_step 16 k (ws_w s) (ws_hw lim s i) ltac:(lia) I1) as J1. rewrite De in J1.
  destruct (sf_step_ok 32 (ws_f s) (wsi_push i) (af_word fi) (ws_data_en s i) ltac:(lia) I2) as [J2 _].
  assert (Dv : ws_data_en s i = hw_wvalid (ws_w s)) by (unfold ws_data_en; rewrite Hr; apply andb_true_r).
  assert (Lv : sf_lvl (ws_f s) - 1 <= sf_lvl (ws_f (ws_step lim s i))).
  { unfold ws_step, af_step, sf_step. cbn [ws_f sf_lvl]. repeat match goal with |- context [if ?b then _ else _] => destruct b end; lia. }
  assert (Lr : ws_data_en s i = false -> sf_lvl (ws_f s) <= sf_lvl (ws_f (ws_step lim s i))).
  { intros E. unfold ws_step, af_step, sf_step. cbn [ws_f sf_lvl af_read af_valid_in]. rewrite E, andb_false_r. cbn [andb]. repeat match goal with |- context [if ?b then _ else _] => destruct b end; lia. }
  split.
  - split; [exact J1|]. split; [exact J2|]. rewrite Dv in *. clear De. unfold ws_step. cbn [ws_w]. unfold hw_step at 1. cbn [hw_wvalid]. unfold hw_step at 1. cbn [hw_wvalid].
    destruct I1 as [_ I1]. rewrite I1. destruct (hw_wvalid (ws_w s)) eqn:Ev.
    + specialize (I4 eq_refl). destruct (last_flag 16 k) eqn:El; cbn [negb]; split; intros E; try discriminate.
      * right. unfold last_flag in El. apply andb_prop in El. destruct El as [E1 E2]. apply negb_true_iff, Nat.eqb_neq in E1. apply Z.eqb_eq in E2.
        assert (E3 : 16 <= Z.of_nat k). { destruct (Z_lt_le_dec (Z.of_nat k) 16) as [L|L]; [|exact L]. rewrite Z.mod_small in E2 by lia. lia. }
        split; [lia|]. replace (Z.of_nat (S k)) with (Z.of_nat k + 1) by lia. rewrite <- Z.add_mod_idemp_l, E2 by lia. reflexivity.
      * rewrite (rem_succ k El). assert (B : (if Nat.leb (S k) 16 then 1 else 0) >= (if Nat.leb k 16 then 1 else 0) \/ k = 16%nat).
        { destruct (Nat.leb_spec k 16), (Nat.leb_spec (S k) 16); lia. }
        destruct B as [B | ->]; [|discriminate El]. unfold ws_step in Lv. cbn [ws_f] in *. lia.
    + cbn [hwi_data_empty ws_hw]. split; intros E; [destruct (I3 eq_refl); auto|].
      apply andb_prop in E. destruct E as [E _]. rewrite negb_involutive in E. unfold af_readable16 in E. apply Z.leb_le in E. specialize (Lr eq_refl). cbn [ws_f ws_step] in Lr.
      assert (R : rem_beats k - (if Nat.leb k 16 then 1 else 0) = 16).
      { destruct (I3 eq_refl) as [-> | [K1 K2]]; [reflexivity|]. unfold rem_beats. destruct (Nat.leb_spec k 16); [lia|]. rewrite <- Zminus_mod_idemp_l, K2. reflexivity. }
      cbn [ws_f]. lia.
  - intros E Hk. rewrite Dv in E. specialize (I4 E). unfold af_readable, sf_readable. assert (1 <= sf_lvl (ws_f s)); [|destruct (sf_lvl (ws_f s) =? 0) eqn:E0; [lia|reflexivity]].
    pose proof (rem_pos k). unfold rem_beats in *. destruct (Nat.leb_spec k 16); lia.
Qed.
Definition wsi_ok (i : ws_in) : Prop := wsi_wready i = true /\ 0 <= wsi_data i < 2 ^ 64.
(* C40.  Writer and fifo with a slave that is always ready for data, any filling of the fifo: every transferred beat
   is a word of the fifo, except possibly beat number 16 (the 17th), for which the fifo can be empty. *)
Theorem C40_underrun_only_beat_16 : forall stor l n b, len stor = 32 -> Forall wsi_ok l ->
  nth_error (ws_beats true (ws_init stor) l) n = Some b -> n <> 16%nat -> wbeat_real b = true.
Proof.
  intros stor l n b Hs HF.
  assert (K : forall l k s n, Forall wsi_ok l -> under_inv k s -> nth_error (ws_beats true s l) n = Some b -> (k + n <> 16)%nat -> wbeat_real b = true).
  { clear. induction l as [|i l IH]; intros k s n HF I H Hn; [destruct n; discriminate|]. apply Forall_cons_iff in HF. destruct HF as [[F1 F2] HF]. cbn [ws_beats] in H.
    destruct (under_step true k s i F1 F2 I) as [J1 J2]. destruct (ws_data_en s i) eqn:Ed.
    - cbn [app] in H. destruct n as [|n]; cbn [nth_error] in H; [injection H as <-; apply J2; [reflexivity|lia]|]. apply (IH (S k) _ n HF J1 H). lia.
    - exact (IH k _ n HF J1 H Hn). }
  intros H Hn. apply (K l 0%nat (ws_init stor) n HF); [|exact H|exact Hn]. unfold len in Hs. destruct (sf_reset_inv 32 stor ltac:(lia) Hs) as [I0 _].
  split; [split; reflexivity|]. split; [exact I0|]. split; [auto|]. cbn. discriminate.
Qed.
(* C40.  The real beats are the words put into the fifo, in order, for every environment. *)
Fixpoint ws_pushed (s : ws_st) (l : list ws_in) : list Z :=
  match l with [] => [] | i :: r => (if wsi_push i && af_writable (ws_f s) then [wsi_data i] else []) ++ ws_pushed (ws_step true s i) r end.
Theorem C40_beats_in_order : forall stor l, len stor = 32 -> Forall (fun i => 0 <= wsi_data i < 2 ^ 64) l ->
  exists q, ws_pushed (ws_init stor) l = map wbeat_data (filter wbeat_real (ws_beats true (ws_init stor) l)) ++ q /\ len q <= 32.
Proof.
  intros stor l Hs HF.
  assert (K : forall l s, exists fl, (Forall (fun i => 0 <= wsi_data i < 2 ^ 64) l -> Forall af_ok fl) /\ ws_f (ws_run true s l) = af_run (ws_f s) fl /\
     ws_pushed s l = map fst (af_written (ws_f s) fl) /\ map wbeat_data (filter wbeat_real (ws_beats true s l)) = map fst (af_readout (ws_f s) fl)).
  { clear. induction l as [|i l IH]; intros s; [exists []; repeat split; constructor|].
    destruct (IH (ws_step true s i)) as (fl & J1 & J2 & J3 & J4).
    exists ({| af_data_in := wsi_data i; af_end_in := wsi_end i; af_valid_in := wsi_push i; af_read := ws_data_en s i |} :: fl).
    split; [intros HF; apply Forall_cons_iff in HF; destruct HF as [F1 HF]; constructor; [exact F1|auto]|].
    cbn [ws_run ws_pushed ws_beats af_run af_written af_readout af_valid_in af_data_in af_end_in af_read].
    rewrite filter_app, !map_app, J2, J3, J4. split; [reflexivity|]. split.
    - f_equal. destruct (wsi_push i && af_writable (ws_f s)); reflexivity.
    - f_equal. unfold af_readable, af_valid_out. destruct (ws_data_en s i); cbn [filter andb map]; [|reflexivity]. unfold wbeat_real at 1. cbn [snd]. destruct (sf_readable (ws_f s)); reflexivity. }
  destruct (K l (ws_init stor)) as (fl & J1 & J2 & J3 & J4). destruct (C49_fifo stor fl Hs (J1 HF)) as (q & E & L & _).
  exists (map fst q). rewrite J3, J4. cbn [ws_f ws_init]. rewrite E, map_app. split; [reflexivity|]. unfold len in *. rewrite map_length. exact L.
Qed.

(* ------------------------------------------------------------------ C41: addresses *)

(* inputs of a cycle: starting address, latch *)
Fixpoint ag_run (shift : Z) (s : ag_st) (l : list (Z * bool)) : ag_st := match l with [] => s | (a, b) :: r => ag_run shift (ag_step shift s a b) r end.
Fixpoint ag_latched (shift : Z) (s : ag_st) (l : list (Z * bool)) : list Z :=
  match l with [] => [] | (a, b) :: r => (if b then [ag_addr s] else []) ++ ag_latched shift (ag_step shift s a b) r end.
Definition latches (l : list (Z * bool)) : nat := length (filter snd l).
Lemma ag_loop_seq shift : forall l s, ag_loop s = true -> 0 <= ag_addr s < 2 ^ 32 -> ag_latched shift s l = map (fun k => (ag_addr s + Z.of_nat k * shift) mod 2 ^ 32) (seq 0 (latches l)).
Proof.
  induction l as [|[a b] l IH]; intros s Hl B; [reflexivity|]. cbn [ag_latched]. unfold ag_step. rewrite Hl. destruct b.
  - rewrite IH by (cbn [ag_loop ag_addr]; try reflexivity; apply trunc_range; lia). unfold latches. cbn [filter snd length seq map app]. f_equal; [rewrite Z.mod_small; lia|].
    cbn [ag_addr]. rewrite <- seq_shift, map_map. apply map_ext. intros k. unfold trunc. rewrite Z.add_mod_idemp_l by lia. f_equal. lia.
  - rewrite IH by (cbn [ag_loop ag_addr]; auto). reflexivity.
Qed.
(* C41.  For every history of latches and of the start register: if a is the start value in the cycle before the first latch, the
   addresses at the latches are a, a + shift, a + 2 shift, ... modulo 2^32. *)
Theorem C41_sequence : forall shift pre a b post, Forall (fun x => snd x = false) pre -> 0 <= a < 2 ^ 32 ->
  ag_latched shift ag_init (pre ++ (a, false) :: (b, true) :: post) = map (fun k => (a + Z.of_nat k * shift) mod 2 ^ 32) (seq 0 (S (latches post))).
Proof.
  intros shift pre a b post HF Ba.
  assert (K : forall pre s r, ag_loop s = false -> Forall (fun x => snd x = false) pre -> exists s', ag_loop s' = false /\ ag_latched shift s (pre ++ r) = ag_latched shift s' r).
  { clear. induction pre as [|[x y] pre IH]; intros s r Hl HF; [exists s; auto|]. apply Forall_cons_iff in HF. destruct HF as [F1 HF]. cbn in F1. subst y. cbn [app ag_latched].
    apply IH; [|exact HF]. unfold ag_step. rewrite Hl. reflexivity. }
  destruct (K pre ag_init ((a, false) :: (b, true) :: post) eq_refl HF) as (s' & L & ->). cbn [ag_latched app]. unfold ag_step. rewrite L. cbn [ag_loop ag_addr].
  rewrite trunc_small by exact Ba. rewrite ag_loop_seq by (cbn [ag_loop ag_addr]; try reflexivity; apply trunc_range; lia). cbn [ag_addr seq map]. f_equal; [rewrite Z.mod_small; lia|].
  rewrite <- seq_shift, map_map. apply map_ext. intros k. unfold trunc. rewrite Z.add_mod_idemp_l by lia. f_equal. lia.
Qed.
(* C41.  In the DMA core, as long as software leaves the start register alone, the bursts go to S, S + 128, S + 256, ... modulo 2^32, on the
   write side and on the read side. *)
Definition seq_addrs (S0 : Z) (n : nat) : list Z := map (fun k => (S0 + Z.of_nat k * 128) mod 2 ^ 32) (seq 0 n).
Definition ag_sys_inv (S0 : Z) (k : nat) (valid : bool) (s : ag_st) : Prop :=
  if ag_loop s then ag_valid s = true /\ ag_addr s = (S0 + Z.of_nat k * 128) mod 2 ^ 32
  else k = 0%nat /\ (if ag_valid s then ag_addr s = S0 else valid = false).
Lemma ag_sys_step S0 k v s latch : 0 <= S0 < 2 ^ 32 -> (latch = true -> v = true) -> ag_sys_inv S0 k v s ->
  (latch = true -> ag_addr s = (S0 + Z.of_nat k * 128) mod 2 ^ 32) /\
  forall v', (v' = true -> ag_valid (ag_step 128 s S0 latch) = true) -> ag_sys_inv S0 (if latch then S k else k) v' (ag_step 128 s S0 latch).
Proof.
  intros B Hv I. unfold ag_sys_inv, ag_step in *. destruct (ag_loop s).
  - destruct I as [I1 I2]. split; [auto|]. intros v' _. cbn [ag_loop ag_valid ag_addr]. split; [exact I1|]. destruct latch; [|exact I2]. rewrite I2. unfold trunc. rewrite Z.add_mod_idemp_l by lia. f_equal. lia.
  - destruct I as [-> I]. destruct latch.
    + specialize (Hv eq_refl). subst v. destruct (ag_valid s); [|discriminate]. split; [intros _; rewrite I; change (Z.of_nat 0) with 0; rewrite Z.mul_0_l, Z.add_0_r; symmetry; apply Z.mod_small; exact B|]. intros v' _. cbn [ag_loop ag_valid ag_addr]. split; [reflexivity|].
      rewrite I. unfold trunc. f_equal.
    + split; [discriminate|]. intros v' _. cbn [ag_loop ag_valid ag_addr]. split; [reflexivity|]. apply trunc_small. exact B.
Qed.
Lemma map_seq_shift S0 k n : map (fun j => (S0 + Z.of_nat j * 128) mod 2 ^ 32) (seq k n) = match n with O => [] | S m => ((S0 + Z.of_nat k * 128) mod 2 ^ 32) :: map (fun j => (S0 + Z.of_nat j * 128) mod 2 ^ 32) (seq (S k) m) end.
Proof. destruct n; reflexivity. Qed.
Theorem C41_write_addresses : forall S0 stor l, 0 <= S0 < 2 ^ 32 -> Forall (fun i => wsi_start i = S0) l ->
  ws_addrs true (ws_init stor) l = seq_addrs S0 (length (ws_addrs true (ws_init stor) l)).
Proof.
  intros S0 stor l B HF.
  assert (K : forall l k s, Forall (fun i => wsi_start i = S0) l -> ag_sys_inv S0 k (hw_awvalid (ws_w s)) (ws_a s) ->
     ws_addrs true s l = map (fun j => (S0 + Z.of_nat j * 128) mod 2 ^ 32) (seq k (length (ws_addrs true s l)))).
  { clear - B. induction l as [|i l IH]; intros k s HF I; [reflexivity|]. apply Forall_cons_iff in HF. destruct HF as [F1 HF]. cbn [ws_addrs].
    destruct (ag_sys_step S0 k (hw_awvalid (ws_w s)) (ws_a s) (ws_addr_en s i) B) as [J1 J2]; [unfold ws_addr_en; intros E; apply andb_prop in E; apply E|exact I|].
    assert (J : ag_sys_inv S0 (if ws_addr_en s i then S k else k) (hw_awvalid (ws_w (ws_step true s i))) (ws_a (ws_step true s i))).
    { cbn [ws_a ws_step ws_w]. rewrite F1. apply J2. unfold hw_step. cbn [hw_awvalid]. intros E. unfold ag_step.
      destruct (hw_awvalid (ws_w s)) eqn:Ea; [|destruct (ag_loop (ws_a s)) eqn:El; cbn [ag_valid]; [|reflexivity]; unfold ag_sys_inv in I; rewrite El in I; apply I].
      unfold ag_sys_inv in I. destruct (ag_loop (ws_a s)); cbn [ag_valid]; [apply I|reflexivity]. }
    destruct (ws_addr_en s i).
    - cbn [app length seq map]. f_equal; [apply J1; reflexivity|]. exact (IH (S k) _ HF J).
    - exact (IH k _ HF J). }
  apply (K l 0%nat (ws_init stor) HF). split; reflexivity.
Qed.
Theorem C41_read_addresses : forall S0 stor l, 0 <= S0 < 2 ^ 32 -> Forall (fun i => rsi_start i = S0) l ->
  rs_addrs true (rs_init stor) l = seq_addrs S0 (length (rs_addrs true (rs_init stor) l)).
Proof.
  intros S0 stor l B HF.
  assert (K : forall l k s, Forall (fun i => rsi_start i = S0) l -> ag_sys_inv S0 k (hr_arvalid (rs_r s)) (rs_a s) ->
     rs_addrs true s l = map (fun j => (S0 + Z.of_nat j * 128) mod 2 ^ 32) (seq k (length (rs_addrs true s l)))).
  { clear - B. induction l as [|i l IH]; intros k s HF I; [reflexivity|]. apply Forall_cons_iff in HF. destruct HF as [F1 HF]. cbn [rs_addrs].
    destruct (ag_sys_step S0 k (hr_arvalid (rs_r s)) (rs_a s) (rs_addr_en s i) B) as [J1 J2]; [unfold rs_addr_en; intros E; apply andb_prop in E; apply E|exact I|].
    assert (J : ag_sys_inv S0 (if rs_addr_en s i then S k else k) (hr_arvalid (rs_r (rs_step true s i))) (rs_a (rs_step true s i))).
    { cbn [rs_a rs_step rs_r]. rewrite F1. apply J2. intros E. unfold ag_step. unfold ag_sys_inv in I. destruct (ag_loop (rs_a s)); cbn [ag_valid]; [apply I|reflexivity]. }
    destruct (rs_addr_en s i).
    - cbn [app length seq map]. f_equal; [apply J1; reflexivity|]. exact (IH (S k) _ HF J).
    - exact (IH k _ HF J). }
  apply (K l 0%nat (rs_init stor) HF). split; reflexivity.
Qed.
(* C41.  A waiting write address does not change. *)
Theorem C41_address_stable : forall S0 stor l i, 0 <= S0 < 2 ^ 32 -> Forall (fun i => wsi_start i = S0) (l ++ [i]) ->
  let s := ws_run true (ws_init stor) l in hw_awvalid (ws_w s) = true -> wsi_awready i = false -> ag_addr (ws_a (ws_step true s i)) = ag_addr (ws_a s).
Proof.
  intros S0 stor l i B HF s Hv Hr. apply Forall_app in HF. destruct HF as [HF F1]. apply Forall_cons_iff in F1. destruct F1 as [F1 _].
  assert (K : forall l s, Forall (fun i => wsi_start i = S0) l -> (exists k, ag_sys_inv S0 k (hw_awvalid (ws_w s)) (ws_a s)) -> exists k, ag_sys_inv S0 k (hw_awvalid (ws_w (ws_run true s l))) (ws_a (ws_run true s l))).
  { clear - B. induction l as [|i l IH]; intros s HF [k I]; [exists k; exact I|]. apply Forall_cons_iff in HF. destruct HF as [F1 HF]. cbn [ws_run]. apply IH; [exact HF|].
    destruct (ag_sys_step S0 k (hw_awvalid (ws_w s)) (ws_a s) (ws_addr_en s i) B) as [J1 J2]; [unfold ws_addr_en; intros E; apply andb_prop in E; apply E|exact I|].
    exists (if ws_addr_en s i then S k else k). cbn [ws_a ws_step ws_w]. rewrite F1. apply J2. intros E. unfold ag_step. unfold ag_sys_inv in I. destruct (ag_loop (ws_a s)); cbn [ag_valid]; [apply I|reflexivity]. }
  destruct (K l (ws_init stor) HF) as [k I]; [exists 0%nat; split; reflexivity|]. fold s in I. rewrite Hv in I. cbn [ws_step ws_a]. unfold ws_addr_en. rewrite Hr, andb_false_r, F1. unfold ag_sys_inv, ag_step in *.
  destruct (ag_loop (ws_a s)); cbn [ag_addr]; [reflexivity|]. destruct I as [_ I]. destruct (ag_valid (ws_a s)); [|discriminate]. rewrite I. apply trunc_small. exact B.
Qed.

(* ------------------------------------------------------------------ C42: the limits *)

(* C42.  In every state and for every input the design behaves as if the limit terms were not there. *)
Theorem C42_write_limit_ignored : forall l s, ws_run true s l = ws_run false s l /\ ws_beats true s l = ws_beats false s l /\ ws_addrs true s l = ws_addrs false s l.
Proof.
  assert (E : forall s i, ws_step true s i = ws_step false s i).
  { intros s i. unfold ws_step. f_equal. unfold hw_step, hw_addr_en, hw_data_en, hw_resp_en, ws_hw, ws_end, ws_addr_en.
    cbn [hwi_enable hwi_addr_empty hwi_data_empty hwi_awready hwi_wready hwi_bvalid hwi_bresp]. f_equal. destruct (hw_awvalid (ws_w s)); [reflexivity|]. cbn [andb]. rewrite andb_false_r. reflexivity. }
  induction l as [|i l IH]; intros s; [auto|]. cbn [ws_run ws_beats ws_addrs]. rewrite E. destruct (IH (ws_step false s i)) as (-> & -> & ->). auto.
Qed.
Theorem C42_read_limit_ignored : forall l s, rs_run true s l = rs_run false s l /\ rs_beats true s l = rs_beats false s l /\ rs_addrs true s l = rs_addrs false s l.
Proof.
  assert (E : forall s i, rs_step true s i = rs_step false s i).
  { intros s i. unfold rs_step. f_equal. unfold hr_step, hr_addr_en, rs_hr, rs_end, rs_addr_en.
    cbn [hri_enable hri_addr_empty hri_data_full hri_arready hri_rvalid hri_rlast]. f_equal. destruct (hr_arvalid (rs_r s)); [reflexivity|]. cbn [andb]. rewrite andb_false_r. reflexivity. }
  induction l as [|i l IH]; intros s; [auto|]. cbn [rs_run rs_beats rs_addrs]. rewrite E. destruct (IH (rs_step false s i)) as (-> & -> & ->). auto.
Qed.
