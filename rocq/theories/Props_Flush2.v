(* C77, continued: how soon.  drain_cycles (Spec_Rate.v) is the bound of C85. *)
From Verif Require Import Bits Spec Spec_Core Spec_Rate M_Config M_Signals M_Predictor M_Difference M_Encode M_Merge M_I1 M_Fifo M_Converter M_VBits M_I3
  P_Fifo P_Encode P_Merge P_Signals P_Predictor P_I1 P_Tokens P_Converter P_VBits P_I3 P_Decode P_Run P_Live P_Live2 P_Rate P_Rate2 P_Rate3 P_Rate4 P_Rate5 P_Delay P_Drain
  Props_Arith Props_Core Props_Live P_Flush Props_Flush P_Flush2.
Ltac Zify.zify_post_hook ::= idtac.

Lemma flush_bits c t W H s0 la lb :
  cfg_ok c = true -> table_ok (bd c) t -> frame_ok c W H -> is_reset c s0 -> Forall (in_ok c W H) (la ++ lb) ->
  i3_accepted c (mem_of (bd c) t) s0 (la ++ lb) = i3_accepted c (mem_of (bd c) t) s0 la -> drain_cycles c <= ready_cycles lb ->
  let out := i3_transfers c (mem_of (bd c) t) s0 (la ++ lb) in
  existsb snd out = true \/ Z.of_nat (length (ref_encode t (bd c) W [] (concat (i3_accepted c (mem_of (bd c) t) s0 la)))) < outb c * len out + outb c.
Proof.
  intros Hc Ht Hf Hr HF HA Hn out. apply Forall_app in HF. destruct HF as [HF _]. destruct (frame_geom c W H Hc Hf) as [Hg HG4].
  pose proof (in_ok_run _ (mem_of (bd c) t) _ _ _ HF s0) as R.
  destruct (run_from_reset c t W H s0 la Hc Ht Hf Hr R) as (P & hist & I).
  assert (HA' : i3_accepted c (mem_of (bd c) t) (i3_run c (mem_of (bd c) t) s0 la) lb = []) by (rewrite accepted_app in HA; apply (app_inv_head (i3_accepted c (mem_of (bd c) t) s0 la)); rewrite HA, app_nil_r; reflexivity).
  assert (O : op_inv c (i3_run c (mem_of (bd c) t) s0 la)).
  { destruct Hr as (st1 & d1 & st2 & d2 & rps & L1 & L2 & L3 & Es). eapply (op_run c t W H (W / ps c)); try eassumption; [rewrite Es; apply i3_inv_reset; assumption|]. apply op_reset. exists st1, d1, st2, d2, rps. auto. }
  pose proof (om_bound _ _ _ _ _ _ _ _ _ _ Hc I) as B. unfold ready_cycles in Hn.
  destruct (flush_run c t W H (W / ps c) Hc Ht Hg HG4 lb _ _ _ _ _ I O HA' ltac:(lia)) as [X|X].
  - left. unfold out. rewrite transfers_app, existsb_app, X. apply orb_true_r.
  - right. unfold out. rewrite transfers_app. exact X.
Qed.

(* C77.  However the source and the sink have behaved in la: if then the core takes no pixel while the sink is ready in drain_cycles cycles (counted whenever they
   come), every word that the pixels accepted so far complete has been handed over, and the words are right. *)
Theorem C77_bounded : forall c t W H s0 la lb,
  cfg_ok c = true -> table_ok (bd c) t -> frame_ok c W H -> is_reset c s0 -> Forall (in_ok c W H) (la ++ lb) ->
  i3_accepted c (mem_of (bd c) t) s0 (la ++ lb) = i3_accepted c (mem_of (bd c) t) s0 la ->
  drain_cycles c <= ready_cycles lb ->
  let code := ref_encode t (bd c) W [] (concat (i3_accepted c (mem_of (bd c) t) s0 la)) in
  let out := i3_transfers c (mem_of (bd c) t) s0 (la ++ lb) in
  forall k : nat, Z.of_nat k * outb c <= Z.of_nat (length code) ->
  Z.of_nat k <= len (cut out) /\ firstn (k * Z.to_nat (outb c)) (stream (outb c) (map fst (cut out))) = firstn (k * Z.to_nat (outb c)) code.
Proof.
  intros c t W H s0 la lb Hc Ht Hf Hr HF HA Hn code out k Hk. set (mem := mem_of (bd c) t) in *. assert (Ho : 1 <= outb c) by (unfold cfg_ok in Hc; lia).
  pose proof (flush_bits c t W H s0 la lb Hc Ht Hf Hr HF HA Hn) as HE. cbv zeta in HE. fold mem in HE. fold out code in HE.
  set (K := (k * Z.to_nat (outb c))%nat). assert (HK : (K <= length code)%nat) by (unfold K; nia).
  destruct (existsb snd out) eqn:Ee.
  - destruct (finished_run c t W H s0 (la ++ lb) Hc Ht Hf Hr (in_ok_run _ _ _ _ _ HF _)) as (_ & _ & _ & pad & Hp & ES); [exact Ee|].
    fold mem out in ES. rewrite HA in ES. fold code in ES. split.
    + apply (f_equal (@length bool)) in ES. rewrite !app_length in ES. pose proof (stream_len (outb c) ltac:(lia) (map fst (cut out))) as SL. unfold len in *. rewrite map_length in SL. unfold K in HK. nia.
    + rewrite ES. apply firstn_prefix. exact HK.
  - destruct (C01_prefix c t W H s0 (la ++ lb) Hc Ht Hf Hr HF Ee) as [rest ER]. fold mem out in ER. rewrite HA in ER. fold code in ER.
    rewrite (cut_noend out Ee). destruct HE as [HE|HE]; [discriminate|]. assert (Hl : Z.of_nat k <= len out) by nia.
    split; [exact Hl|]. rewrite ER. symmetry. apply firstn_prefix. pose proof (stream_len (outb c) ltac:(lia) (map fst out)) as SL. unfold len in *. rewrite map_length in SL. unfold K. nia.
Qed.

(* C77.  When the frame is not complete: exactly those words are out, without an end mark; less than a word is inside. *)
Theorem C77_bounded_exact : forall c t W H s0 la lb,
  cfg_ok c = true -> table_ok (bd c) t -> frame_ok c W H -> is_reset c s0 -> Forall (in_ok c W H) (la ++ lb) ->
  let acc := i3_accepted c (mem_of (bd c) t) s0 la in
  i3_accepted c (mem_of (bd c) t) s0 (la ++ lb) = acc ->
  drain_cycles c <= ready_cycles lb -> len (concat acc) < W * H ->
  let code := ref_encode t (bd c) W [] (concat acc) in
  let out := i3_transfers c (mem_of (bd c) t) s0 (la ++ lb) in
  existsb snd out = false /\ len out = Z.of_nat (length code) / outb c /\
  exists rest, code = stream (outb c) (map fst out) ++ rest /\ Z.of_nat (length rest) < outb c.
Proof.
  intros c t W H s0 la lb Hc Ht Hf Hr HF acc HA Hn Hl code out. set (mem := mem_of (bd c) t) in *. assert (Ho : 1 <= outb c) by (unfold cfg_ok in Hc; lia).
  pose proof (flush_bits c t W H s0 la lb Hc Ht Hf Hr HF HA Hn) as HE. cbv zeta in HE. fold mem in HE. fold acc out in HE. fold code in HE.
  assert (Ee : existsb snd out = false).
  { destruct (existsb snd out) eqn:E; [|reflexivity]. destruct (finished_run c t W H s0 (la ++ lb) Hc Ht Hf Hr (in_ok_run _ _ _ _ _ HF _)) as (_ & X & _); [exact E|]. fold mem in X. rewrite HA in X. lia. }
  split; [exact Ee|]. destruct HE as [HE|HE]; [congruence|]. destruct (C01_prefix c t W H s0 (la ++ lb) Hc Ht Hf Hr HF Ee) as [rest ER]. fold mem out in ER. rewrite HA in ER. fold code in ER.
  pose proof (stream_len (outb c) ltac:(lia) (map fst out)) as SL. pose proof (f_equal (@length bool) ER) as EL. rewrite app_length in EL.
  assert (Elen : len (map fst out) = len out) by (unfold len; rewrite map_length; reflexivity). rewrite Elen in SL.
  split; [|exists rest; split; [exact ER|nia]].
  apply (Z.div_unique_pos _ _ _ (Z.of_nat (length rest))); nia.
Qed.

(* C77.  A silent source is enough: it need not even be looked at what the core would have taken *)
Corollary C77_silent : forall c t W H s0 la lb,
  cfg_ok c = true -> table_ok (bd c) t -> frame_ok c W H -> is_reset c s0 -> Forall (in_ok c W H) la -> Forall (fun i => in_valid i = false) lb ->
  drain_cycles c <= ready_cycles lb ->
  let acc := i3_accepted c (mem_of (bd c) t) s0 la in
  let code := ref_encode t (bd c) W [] (concat acc) in
  let out := i3_transfers c (mem_of (bd c) t) s0 (la ++ lb) in
  len (concat acc) < W * H -> len out = Z.of_nat (length code) / outb c /\
  exists rest, code = stream (outb c) (map fst out) ++ rest /\ Z.of_nat (length rest) < outb c.
Proof.
  intros c t W H s0 la lb Hc Ht Hf Hr HF HV Hn acc code out Hl.
  assert (HF2 : Forall (in_ok c W H) (la ++ lb)).
  { apply Forall_app. split; [exact HF|]. eapply Forall_impl; [|exact HV]. intros i Hi X. cbn beta in Hi. congruence. }
  assert (HA : i3_accepted c (mem_of (bd c) t) s0 (la ++ lb) = acc).
  { rewrite accepted_app. fold acc. replace (i3_accepted c (mem_of (bd c) t) (i3_run c (mem_of (bd c) t) s0 la) lb) with (@nil (list Z)); [apply app_nil_r|].
    generalize (i3_run c (mem_of (bd c) t) s0 la). clear -HV. induction HV as [|i l Hi HV IH]; intros s; [reflexivity|]. cbn [i3_accepted]. rewrite Hi, andb_false_l, <- IH. reflexivity. }
  apply (C77_bounded_exact c t W H s0 la lb Hc Ht Hf Hr HF2 HA Hn Hl).
Qed.

(* the stalled run of C77_example: 23 cycles, then a silent source for three times the bound; the sink is ready in one cycle of three *)
Definition stall_tail : list i3_in :=
  concat (repeat (map (fun b => {| in_valid := false; in_px := []; in_busy := b; in_w := 0; in_h := 0 |}) [true; false; true]) (Z.to_nat (drain_cycles ex_cfg))).
Example C77_example2 :
  cfg_ok ex_cfg = true /\ frame_ok ex_cfg 4 3 /\ is_reset ex_cfg (i3_init ex_cfg) /\ Forall (in_ok ex_cfg 4 3) (upto stall_ex 23) /\ Forall (fun i => in_valid i = false) stall_tail /\
  drain_cycles ex_cfg <= ready_cycles stall_tail /\
  let acc := i3_accepted ex_cfg (init_huff_table 12) (i3_init ex_cfg) (upto stall_ex 23) in len (concat acc) = 6 /\ len (ref_encode (std_table 12) 12 4 [] (concat acc)) = 106 /\
  len (i3_transfers ex_cfg (init_huff_table 12) (i3_init ex_cfg) (upto stall_ex 23)) = 0.
Proof.
  split; [reflexivity|]. split; [repeat split; cbn; lia|]. split; [apply is_reset_init; reflexivity|]. split; [apply upto_in; apply C77_example|].
  split; [apply Forall_concat, Forall_forall; intros x Hx; apply repeat_spec in Hx; subst x; repeat constructor|].
  split; [|vm_compute; auto].
  unfold stall_tail. set (D := drain_cycles ex_cfg). assert (HD : 0 <= D) by (vm_compute; discriminate). clearbody D.
  assert (E : forall l n, ready_cycles (concat (repeat l n)) = Z.of_nat n * ready_cycles l) by (intros l; induction n as [|n IH]; [reflexivity|]; cbn [repeat concat]; unfold ready_cycles in *; rewrite filter_app, len_app, IH; lia).
  rewrite E, Z2Nat.id by exact HD. replace (ready_cycles _) with 1 by reflexivity. lia.
Qed.
