(* C85: the core empties itself in a bounded number of ready cycles. *)
From Verif Require Import Bits Spec Spec_Core Spec_Rate M_Config M_Signals M_Predictor M_Difference M_Encode M_Merge M_I1 M_Fifo M_Converter M_VBits M_I3
  P_Fifo P_Encode P_Merge P_Signals P_Predictor P_I1 P_Tokens P_Converter P_VBits P_I3 P_Decode P_Run P_Live P_Live2 P_Rate P_Rate2 P_Rate3 P_Rate4 P_Rate5 P_Delay P_Drain Props_Arith Props_Core Props_Live Props_Rate Props_Delay M_Beta M_Stream3 M_Micro.
Ltac Zify.zify_post_hook ::= idtac.

(* C85.  For every configuration, table, frame size, pixel data and timing: when all pixels of the frame are in, the last word with its end
   mark has been handed over as soon as the sink has been ready in drain_cycles cycles (counted whenever they come). *)
Theorem C85_drain : forall c t W H s0 la lb,
  cfg_ok c = true -> table_ok (bd c) t -> frame_ok c W H -> is_reset c s0 -> Forall (in_ok c W H) (la ++ lb) ->
  len (concat (i3_accepted c (mem_of (bd c) t) s0 la)) = W * H ->
  drain_cycles c <= ready_cycles lb ->
  existsb snd (i3_transfers c (mem_of (bd c) t) s0 (la ++ lb)) = true.
Proof.
  intros c t W H s0 la lb Hc Ht Hf Hr HF HA Hn. apply Forall_app in HF. destruct HF as [HF _]. destruct (frame_geom c W H Hc Hf) as [Hg HG4].
  pose proof (in_ok_run _ (mem_of (bd c) t) _ _ _ HF s0) as R.
  destruct (run_from_reset c t W H s0 la Hc Ht Hf Hr R) as (P & hist & I).
  destruct (inv_pixels _ _ _ _ _ _ _ _ _ _ I) as [_ E]. rewrite E in HA. pose proof Hg as (Q1 & Q2 & _). assert (HP : 1 <= ps c) by (unfold cfg_ok in Hc; lia).
  assert (HA' : len (i3_accepted c (mem_of (bd c) t) s0 la) = W / ps c * H) by nia.
  rewrite transfers_app, existsb_app. apply orb_true_intro. right.
  eapply (drain_run c t W H (W / ps c)); try eassumption.
  - destruct Hr as (st1 & d1 & st2 & d2 & rps & L1 & L2 & L3 & Es). eapply (op_run c t W H (W / ps c)); try eassumption; [rewrite Es; apply i3_inv_reset; assumption|]. apply op_reset. exists st1, d1, st2, d2, rps. auto.
  - pose proof (om_bound _ _ _ _ _ _ _ _ _ _ Hc I). unfold ready_cycles in Hn. lia.
Qed.

(* C85.  With C84: a bound on the whole frame that does not mention the state of the core.  The source and the sink may lose cycles at any
   time; once the source has had enough time for the frame and the sink has then been ready often enough, the frame is complete and the words
   decode to the pixels. *)
Theorem C85_frame_time : forall c t W H M s0 la lb,
  cfg_ok c = true -> table_ok (bd c) t -> frame_ok c W H -> is_reset c s0 -> Forall (in_ok c W H) (la ++ lb) ->
  1 <= M <= conv c -> M <= outb c -> 3 * outb c + M <= bufs c -> cf_steps c + 9 + bufs c / outb c <= cfd c ->
  small_groups c t W M (i3_accepted c (mem_of (bd c) t) s0 la) ->
  8 + W * H / ps c + lost_cycles la <= len la ->
  drain_cycles c <= ready_cycles lb ->
  let out := i3_transfers c (mem_of (bd c) t) s0 (la ++ lb) in
  existsb snd out = true /\
  (bd c <= 15 -> prefix_free t -> decode_frame t (bd c) W H (stream (outb c) (map fst (cut out))) = Some (concat (i3_accepted c (mem_of (bd c) t) s0 (la ++ lb)))).
Proof.
  intros c t W H M s0 la lb Hc Ht Hf Hr HF HM1 HM2 HM3 HM4 Hs Hl Hn out.
  assert (HFa : Forall (in_ok c W H) la) by (apply Forall_app in HF; apply HF).
  assert (E : existsb snd out = true) by (apply (C85_drain c t W H s0 la lb); try assumption; eapply C84_frame_taken; eassumption).
  split; [exact E|]. intros B Hp. apply (C01_lossless_table c t W H s0 (la ++ lb) Hc B Ht Hp Hf Hr HF E).
Qed.

(* the numbers for the three cores of the repository *)
Theorem C85_numbers : drain_cycles beta_cfg = 113215 /\ drain_cycles s3_cfg = 57256 /\ drain_cycles micro_cfg = 113047.
Proof. repeat split; vm_compute; reflexivity. Qed.

(* ------------------------------------------------------------------ example: a sink that is busy until the whole frame waits in the fifos, then a silent source and a sink that is busy in every second cycle *)
Definition drain_in (k : nat) : i3_in := {| in_valid := true; in_px := rate_px (k mod 100); in_busy := true; in_w := 40; in_h := 6 |}.
Definition drain_head : list i3_in := map drain_in (seq 0 150).
Definition drain_tail : list i3_in :=
  concat (repeat [{| in_valid := false; in_px := []; in_busy := true; in_w := 0; in_h := 0 |}; {| in_valid := false; in_px := []; in_busy := false; in_w := 0; in_h := 0 |}] (Z.to_nat 113215)).
Lemma ready_repeat l : forall n, ready_cycles (concat (repeat l n)) = Z.of_nat n * ready_cycles l.
Proof. induction n as [|n IH]; [reflexivity|]. cbn [repeat concat]. unfold ready_cycles in *. rewrite filter_app, len_app, IH. lia. Qed.
Lemma drain_ok : Forall (in_ok beta_cfg 40 6) drain_head.
Proof.
  apply Forall_forall. intros i Hi. apply in_map_iff in Hi. destruct Hi as (k & <- & _). intros _. split; [|split; reflexivity]. unfold drain_in, rate_px. cbn [in_px]. set (n := (k mod 100)%nat).
  assert (0 <= Z.of_nat (n / 2) mod 31 < 31) by (apply Z.mod_pos_bound; lia). assert (0 <= Z.of_nat (n / 2 * 7) mod 15 < 15) by (apply Z.mod_pos_bound; lia).
  split; [reflexivity|]. constructor; [|constructor; [|constructor]]; unfold in_range; change (2 ^ bd beta_cfg) with 4096; destruct (Nat.even (n / 20)); lia.
Qed.
Example C85_example :
  frame_ok beta_cfg 40 6 /\ is_reset beta_cfg (i3_init beta_cfg) /\ Forall (in_ok beta_cfg 40 6) (drain_head ++ drain_tail) /\
  len (concat (i3_accepted beta_cfg (init_huff_table 12) (i3_init beta_cfg) drain_head)) = 40 * 6 /\
  drain_cycles beta_cfg <= ready_cycles drain_tail /\ existsb snd (i3_transfers beta_cfg (init_huff_table 12) (i3_init beta_cfg) drain_head) = false.
Proof.
  split; [repeat split; cbn; lia|]. split; [apply is_reset_init; reflexivity|].
  split; [apply Forall_app; split; [apply drain_ok|]; apply Forall_concat, Forall_forall; intros x Hx; apply repeat_spec in Hx; subst x; repeat constructor; intros; discriminate|].
  split; [vm_compute; reflexivity|]. split; [|vm_compute; reflexivity].
  unfold drain_tail. rewrite ready_repeat. vm_compute. discriminate.
Qed.
