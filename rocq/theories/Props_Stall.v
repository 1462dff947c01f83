(* C48 and C78: what the complete core does when the source stops. *)
From Verif Require Import Bits Spec Spec_Core Spec_Beta M_Config M_Encode M_I3 M_Fix M_Markers M_Beta P_Encode
  P_I3 P_Run P_Live P_Fix P_Markers Props_Core Props_Frame P_Beta Props_Live Props_Beta P_BetaLive Props_BetaLive P_Stall.
Ltac Zify.zify_post_hook ::= idtac.

(* C48 for the complete core.  As long as the accepted pixels have fewer than 16 bits of code -- they do not fill one payload word --
   the core offers nothing, hands over nothing and does not reset itself, whatever the force-end timer says, in every run of any length. *)
Theorem C48_core : forall c t W H i3 l,
  cfg_ok c = true -> outb c = 16 -> table_ok (bd c) t -> beta_frame_ok c W H -> is_reset c i3 ->
  (forall i, In i l -> bi_valid i = true -> group_ok (bd c) (ps c) (bi_px i) /\ bi_w i = W /\ bi_h i = H) ->
  let mem := mem_of (bd c) t in let s0 := bt_reset_with i3 in
  len (ref_encode t (bd c) W [] (concat (bt_accepted c mem s0 l))) < 16 ->
  bt_outs c mem s0 l = [] /\ b_rst (bt_run c mem s0 l) = false /\
  forall i, mko_valid (bt_out (bt_run c mem s0 l) i) = false.
Proof.
  intros c t W H i3 l Hc Ho Ht Hf Hi Hin mem s0 Hl. assert (HY : bt_hyp c t W H) by (repeat split; assumption || apply Ht || apply Hf).
  destruct (silent_run c t W H (fun _ => (W, H)) 0 HY eq_refl l [] s0) as [K1 K2].
  - split; [apply bt_inv_init; assumption|]. split; reflexivity.
  - apply bt_env_all. exact Hin.
  - exact Hl.
  - fold mem in K1, K2. split; [exact K1|]. split; [apply K2|]. intros i. exact (proj1 (silent_out _ _ _ _ _ _ i K2)).
Qed.

(* number of ready cycles in a fair schedule *)
Lemma ready_many (ins : nat -> bt_in) : (forall n, exists m, (n <= m)%nat /\ bi_busy (ins m) = false) ->
  forall k n, exists d, Z.of_nat k <= bt_ready (bupto (fun j => ins (n + j)%nat) d).
Proof.
  intros Hb. induction k as [|k IH]; intros n; [exists 0%nat; unfold bt_ready, len; cbn; lia|]. destruct (IH n) as (d & Hd). destruct (Hb (n + d)%nat) as (m & L & Hm).
  exists (S (m - n)). rewrite bupto_S. unfold bt_ready in *. rewrite filter_app, len_app. cbn [filter]. replace (n + (m - n))%nat with m by lia. rewrite Hm. cbn [negb].
  replace (m - n)%nat with (d + (m - n - d))%nat by lia. rewrite bupto_add, filter_app, len_app. unfold len at 3. cbn [length]. pose proof (len_nonneg (filter (fun i => negb (bi_busy i)) (bupto (fun j => ins (n + (d + j))%nat) (m - n - d)))). lia.
Qed.

(* C78.  The complete core, a sink that is ready again and again, a fixed time limit, and any behaviour of the source at all: the frame is
   ended if and only if the core at some time has accepted pixels with at least 16 bits of code.  (What the ended frame looks like: C25, C26.) *)
Theorem C78_ends_iff : forall c t W H i3 allowed (ins : nat -> bt_in),
  cfg_ok c = true -> outb c = 16 -> table_ok (bd c) t -> beta_frame_ok c W H -> is_reset c i3 -> 0 <= allowed < 2 ^ 24 ->
  (forall n, bi_allowed (ins n) = allowed) ->
  (forall n, bi_valid (ins n) = true -> group_ok (bd c) (ps c) (bi_px (ins n)) /\ bi_w (ins n) = W /\ bi_h (ins n) = H) ->
  (forall n, exists m, (n <= m)%nat /\ bi_busy (ins m) = false) ->
  let mem := mem_of (bd c) t in let s0 := bt_reset_with i3 in
  (exists n, existsb snd (bt_outs c mem s0 (bupto ins n)) = true) <->
  (exists n, 16 <= len (ref_encode t (bd c) W [] (concat (bt_accepted c mem s0 (bupto ins n))))).
Proof.
  intros c t W H i3 allowed ins Hc Ho Ht Hf Hi Hal Hall Hin Hb mem s0. assert (HY : bt_hyp c t W H) by (repeat split; assumption || apply Ht || apply Hf).
  split.
  - intros (n & Hn). exists n. destruct (Z_lt_ge_dec (len (ref_encode t (bd c) W [] (concat (bt_accepted c mem s0 (bupto ins n))))) 16) as [L|L]; [|lia]. exfalso.
    destruct (C48_core c t W H i3 (bupto ins n) Hc Ho Ht Hf Hi) as (E & _); [|exact L|fold mem s0 in E; rewrite E in Hn; discriminate].
    intros i Hi'. apply in_map_iff in Hi'. destruct Hi' as (k & <- & _). apply Hin.
  - intros (n0 & Hn0).
    assert (Hok : forall n, b_rst (nst c t i3 ins n) = false -> bt_ok c W H (nst c t i3 ins n) (ins n)).
    { intros n _ Ha. apply Hin. unfold bt_accept in Ha. apply andb_prop in Ha. apply Ha. }
    (* while no end word was handed over the run is the run without reset *)
    assert (Hrun : forall n, existsb snd (bt_outs c mem s0 (bupto ins n)) = false -> forall k, (k <= n)%nat ->
      b_rst (nst c t i3 ins k) = false /\ bt_run c mem s0 (bupto ins k) = nst c t i3 ins k /\ bt_accepted c mem s0 (bupto ins k) = nacc c t i3 ins k).
    { intros n He k. induction k as [|k IH]; intros L; [auto|]. destruct (IH ltac:(lia)) as (R1 & R2 & R3). rewrite !bupto_S, bt_run_app, bt_accepted_app, R2, R3. cbn [bt_run bt_accepted].
      assert (Hg : existsb snd (bt_gave (nst c t i3 ins k) (ins k)) = false).
      { replace n with (S k + (n - S k))%nat in He by lia. rewrite bupto_add, bt_outs_app, bupto_S, bt_outs_app, !existsb_app, R2 in He. cbn [bt_outs] in He. rewrite app_nil_r in He. apply orb_false_elim in He. destruct He as [He _]. apply orb_false_elim in He. apply He. }
      unfold bt_step. rewrite R1. cbn [nst nacc]. rewrite app_nil_r. split; [apply bt_next_rst; assumption|auto]. }
    assert (Wake : exists m, (n0 <= m)%nat /\ (existsb snd (bt_outs c mem s0 (bupto ins m)) = true \/
              (existsb snd (bt_outs c mem s0 (bupto ins m)) = false /\ mk_fsm_st (b_mk (nst c t i3 ins m)) <> MK_IDLE))).
    { assert (Over : forall m, bt_over (nst c t i3 ins m) = true -> (n0 <= m)%nat -> existsb snd (bt_outs c mem s0 (bupto ins m)) = true \/
        (existsb snd (bt_outs c mem s0 (bupto ins m)) = false /\ mk_fsm_st (b_mk (nst c t i3 ins m)) <> MK_IDLE)).
      { intros m Om _. destruct (existsb snd (bt_outs c mem s0 (bupto ins m))) eqn:E; [auto|]. right. split; [reflexivity|].
        destruct (Hrun m E m (le_n _)) as (R & _). unfold bt_over in Om. rewrite R, orb_false_r in Om. unfold mk_past in Om. intros X. rewrite X in Om. discriminate. }
      destruct (existsb snd (bt_outs c mem s0 (bupto ins n0))) eqn:E0; [exists n0; auto|].
      destruct (Hrun n0 E0 n0 (le_n _)) as (R1 & R2 & R3). destruct (bt_over (nst c t i3 ins n0)) eqn:Eo; [exists n0; auto|].
      destruct (stall_wakes c t W H i3 ins HY Hi Hok Hb n0 Eo) as (m & L & X); [unfold code_len; rewrite <- R3; exact Hn0|].
      exists m. split; [exact L|]. destruct X as [X|X]; [auto|]. destruct (existsb snd (bt_outs c mem s0 (bupto ins m))); auto. }
    destruct Wake as (m & Lm & [W1|[W1 W2]]); [eauto|].
    (* the first accepted group and the timer *)
    assert (Hacc : bt_accepted c mem s0 (bupto ins n0) <> []) by (intros X; rewrite X in Hn0; unfold len in Hn0; cbn in Hn0; lia).
    destruct (first_accept c mem (bupto ins n0) s0) as [[X _]|(p & j & q & Ep & Hp & Hj & Hidle)]; [congruence|].
    set (n1 := (m + Z.to_nat (allowed + 3))%nat). destruct (ready_many ins Hb 18 n1) as (d & Hd).
    exists (n1 + d)%nat. rewrite bupto_add, bt_outs_app, existsb_app. destruct (existsb snd (bt_outs c mem s0 (bupto ins n1))) eqn:E1; [reflexivity|]. cbn [orb].
    pose proof (cut_inv_run c mem (bupto ins n1) s0 [] (cut_inv_init i3) E1) as CI. cbn [app] in CI.
    destruct (Hrun n1 E1 n1 (le_n _)) as (_ & R2 & _).
    apply (bt_force_progress c mem _ _ _ CI).
    + rewrite R2. clear - W2. unfold n1. generalize (Z.to_nat (allowed + 3)) as k. induction k as [|k IH]; [rewrite Nat.add_0_r; exact W2|]. rewrite Nat.add_succ_r.
      cbn [nst]. unfold bt_next. cbn [b_mk]. unfold mk_step. destruct (mk_fsm_st (b_mk (nst c t i3 ins (m + k)))); [congruence|..].
      * destruct (negb _); cbn [mk_fsm_st]; [destruct (_ =? 0)|]; discriminate.
      * destruct (negb _); cbn [mk_fsm_st]; [destruct (_ =? 1)|]; discriminate.
      * destruct (negb _); cbn [mk_fsm_st]; [destruct (_ =? 1)|]; discriminate.
      * cbn [mk_fsm_st]. destruct (mk_end_cond _); [discriminate|]. destruct (mki_force _); discriminate.
      * discriminate.
      * discriminate.
    + destruct CI as (_ & -> & _). unfold n1. replace (m + Z.to_nat (allowed + 3))%nat with (n0 + (m - n0 + Z.to_nat (allowed + 3)))%nat by lia.
      rewrite bupto_add, Ep, <- app_assoc. cbn [app]. set (q2 := q ++ bupto _ _). rewrite bt_fe_ins_app. cbn [bt_fe_ins]. rewrite Hj.
      assert (Hq : allowed + 2 <= len q2) by (unfold q2, bupto; rewrite len_app; unfold len; rewrite map_length, seq_length; lia).
      assert (Ha : forall x, In x (bt_fe_ins c mem (bt_step c mem (bt_run c mem s0 p) j) q2) -> snd x = allowed).
      { apply fe_ins_allowed. intros i Hi'. unfold q2 in Hi'. apply in_app_iff in Hi'. destruct Hi' as [Hi'|Hi'].
        - assert (In i (bupto ins n0)) as K by (rewrite Ep; apply in_app_iff; right; right; exact Hi'). apply in_map_iff in K. destruct K as (k & <- & _). apply Hall.
        - apply in_map_iff in Hi'. destruct Hi' as (k & <- & _). apply Hall. }
      destruct (C26_timer (bt_fe_ins c mem s0 p) allowed (bi_allowed j) (bt_fe_ins c mem (bt_step c mem (bt_run c mem s0 p) j) q2) Hal Hidle Ha) as [_ T].
      rewrite T, bt_fe_ins_len. lia.
    + eapply Z.le_trans; [|exact Hd]. destruct CI as (_ & _ & Hm). unfold bt_left. destruct (mk_fsm_st (b_mk (bt_run c mem s0 (bupto ins n1)))); lia || tauto.
Qed.

(* 12-bit pixels, two per cycle, 6x3 frame, 40 cycles allowed; the source stops for ever after one group (38 bits of code: the frame is
   ended), or after one group of mid-range pixels (8 bits: silence). *)
Definition C78_in (px : list Z) (k : nat) : bt_in :=
  {| bi_valid := Nat.eqb k 10; bi_px := px; bi_busy := Nat.eqb (Nat.modulo k 5) 1; bi_w := 6; bi_h := 3; bi_allowed := 40 |}.
Example C78_example : beta_frame_ok beta_cfg 6 3 /\
  (forall n, bi_valid (C78_in [1000; 77] n) = true -> group_ok 12 2 (bi_px (C78_in [1000; 77] n))) /\
  (forall n, bi_valid (C78_in [2048; 2049] n) = true -> group_ok 12 2 (bi_px (C78_in [2048; 2049] n))) /\
  (forall px n, exists m, (n <= m)%nat /\ bi_busy (C78_in px m) = false) /\
  (forall px n, bi_allowed (C78_in px n) = 40) /\
  let mem := init_huff_table 12 in
  let out px := bt_outs beta_cfg mem (bt_init beta_cfg) (bupto (C78_in px) 100) in
  let acc px := bt_accepted beta_cfg mem (bt_init beta_cfg) (bupto (C78_in px) 100) in
  acc [1000; 77] = [[1000; 77]] /\ existsb snd (out [1000; 77]) = true /\ snd (deframe (map fst (out [1000; 77]))) = Some true /\
  len (ref_encode (std_table 12) 12 6 [] [1000; 77]) = 38 /\
  acc [2048; 2049] = [[2048; 2049]] /\ out [2048; 2049] = [] /\ len (ref_encode (std_table 12) 12 6 [] [2048; 2049]) = 8.
Proof.
  split; [unfold beta_frame_ok, frame_ok; cbn; lia|]. split; [intros n _; split; [reflexivity|]; repeat constructor; unfold in_range; lia|]. split; [intros n _; split; [reflexivity|]; repeat constructor; unfold in_range; lia|].
  split; [intros px n; exists (0 + n * 5)%nat; split; [lia|]; cbn [bi_busy C78_in]; rewrite Nat.mod_add by lia; reflexivity|]. split; [reflexivity|].
  vm_compute. repeat split.
Qed.
