(* C84: a lost cycle is lost only once. *)
From Verif Require Import Bits Spec Spec_Core Spec_Rate M_Config M_Signals M_Predictor M_Difference M_Encode M_Merge M_I1 M_Fifo M_Converter M_VBits M_I3 M_Beta M_Micro M_Stream3
  P_Fifo P_Encode P_Merge P_Signals P_Predictor P_I1 P_Tokens P_Converter P_VBits P_I3 P_Decode P_Run P_Live P_Live2 P_LiveBound P_Rate P_Rate2 P_Rate3 P_Rate4 P_Rate5 P_Delay Props_Arith Props_Core Props_Live Props_Rate.
Ltac Zify.zify_post_hook ::= idtac.

(* While the frame is not complete the core is behind the clock by no more than the eight cycles after reset and the cycles in which the source
   had nothing to offer or the sink was busy - whatever the order of those cycles. *)
Theorem C84_delay : forall c t W H M s0 ins,
  cfg_ok c = true -> table_ok (bd c) t -> frame_ok c W H -> is_reset c s0 -> Forall (in_ok c W H) ins ->
  1 <= M <= conv c -> M <= outb c -> 3 * outb c + M <= bufs c -> cf_steps c + 9 + bufs c / outb c <= cfd c ->
  small_groups c t W M (i3_accepted c (mem_of (bd c) t) s0 ins) ->
  len (i3_accepted c (mem_of (bd c) t) s0 ins) < W * H / ps c ->
  len ins <= 8 + len (i3_accepted c (mem_of (bd c) t) s0 ins) + lost_cycles ins.
Proof.
  intros c t W H M s0 ins Hc Ht Hf Hr HF HM HM2 Hb Hd Hs Hl.
  destruct (frame_geom c W H Hc Hf) as [(Q1 & Q2 & Q3 & Q4 & _) _]. set (G := W / ps c) in *.
  assert (HN : W * H / ps c = G * H) by (rewrite Q2; replace (G * ps c * H) with (G * H * ps c) by lia; apply Z.div_mul; lia). rewrite HN in Hl.
  destruct (delay_run c t W H M s0 Hc Ht Hf Hr (conj HM (conj HM2 (conj Hb Hd))) ins (in_ok_run _ _ _ _ _ HF _) Hs Hl) as (P & hist & _ & D).
  pose proof (dl_A _ _ _ _ _ _ D). lia.
Qed.

(* so a run that is long enough takes the whole frame, word for word what C01 says *)
Theorem C84_frame_taken : forall c t W H M s0 ins,
  cfg_ok c = true -> table_ok (bd c) t -> frame_ok c W H -> is_reset c s0 -> Forall (in_ok c W H) ins ->
  1 <= M <= conv c -> M <= outb c -> 3 * outb c + M <= bufs c -> cf_steps c + 9 + bufs c / outb c <= cfd c ->
  small_groups c t W M (i3_accepted c (mem_of (bd c) t) s0 ins) ->
  8 + W * H / ps c + lost_cycles ins <= len ins ->
  len (concat (i3_accepted c (mem_of (bd c) t) s0 ins)) = W * H.
Proof.
  intros c t W H M s0 ins Hc Ht Hf Hr HF HM HM2 Hb Hd Hs Hl.
  destruct (run_from_reset c t W H s0 ins Hc Ht Hf Hr (in_ok_run _ _ _ _ _ HF _)) as (P & hist & I). pose proof (v_len _ _ _ _ _ _ _ _ _ _ I) as Vl.
  pose proof (C84_delay c t W H M s0 ins Hc Ht Hf Hr HF HM HM2 Hb Hd Hs) as D.
  destruct (inv_pixels _ _ _ _ _ _ _ _ _ _ I) as [_ J]. rewrite J. set (A := i3_accepted c (mem_of (bd c) t) s0 ins) in *.
  destruct (frame_geom c W H Hc Hf) as [(Q1 & Q2 & Q3 & Q4 & _) _]. set (G := W / ps c) in *.
  assert (HN : W * H / ps c = G * H) by (rewrite Q2; replace (G * ps c * H) with (G * H * ps c) by lia; apply Z.div_mul; lia).
  assert (len A = G * H) as -> by lia. rewrite Q2. ring.
Qed.

Lemma small_smooth c W k (gs : list (list Z)) : 1 <= k <= 8 -> Forall (fun g => len g = ps c) gs -> smooth (bd c) W (2 ^ k - 1) (concat gs) -> small_groups c (std_table (bd c)) W (ps c * std_cost k) gs.
Proof.
  intros Hk L HS A g B E. rewrite E in L. apply Forall_app in L. destruct L as [_ L]. inversion L as [|? ? L1 _]; subst.
  rewrite <- L1. rewrite concat_app in HS. cbn [concat] in HS. eapply smooth_group; [|exact HS]. intros d Hd. apply std_small; lia.
Qed.

(* the two cores that are built with more than one sample per cycle, power-on table, samples within 31 of their prediction *)
Theorem C84_shipped : forall c W H s0 ins,
  c = beta_cfg \/ c = s3_cfg ->
  frame_ok c W H -> is_reset c s0 -> Forall (in_ok c W H) ins ->
  smooth 12 W 31 (concat (i3_accepted c (init_huff_table 12) s0 ins)) ->
  8 + W * H / ps c + lost_cycles ins <= len ins ->
  len (concat (i3_accepted c (init_huff_table 12) s0 ins)) = W * H.
Proof.
  intros c W H s0 ins Hcc Hf Hr HF HS Hl. assert (X : cfg_ok c = true /\ bd c = 12) by (destruct Hcc as [-> | ->]; split; reflexivity). destruct X as [Hc Hb].
  destruct (std_mem c Hc) as (E1 & E2 & _). rewrite <- Hb in *. rewrite E1 in *.
  destruct (run_from_reset c (std_table (bd c)) W H s0 ins Hc E2 Hf Hr (in_ok_run _ _ _ _ _ HF _)) as (P & hist & I).
  apply C84_frame_taken with (M := ps c * std_cost 5); try assumption.
  - destruct Hcc as [-> | ->]; vm_compute; split; discriminate.
  - destruct Hcc as [-> | ->]; vm_compute; discriminate.
  - destruct Hcc as [-> | ->]; vm_compute; discriminate.
  - destruct Hcc as [-> | ->]; vm_compute; discriminate.
  - apply small_smooth; [lia| |exact HS]. eapply Forall_impl; [|apply (v_A _ _ _ _ _ _ _ _ _ _ I)]. intros g [Y _]; exact Y.
Qed.

(* ------------------------------------------------------------------ examples *)

(* the beta core; the source pauses in every ninth cycle and the sink is busy for thirty cycles and in every seventh *)
Definition delay_in (k : nat) : i3_in :=
  {| in_valid := negb (k mod 9 =? 4)%nat; in_px := rate_px (k mod 100); in_busy := ((40 <=? k) && (k <? 70))%nat || (k mod 7 =? 2)%nat; in_w := 40; in_h := 6 |}.
Definition delay_ins : list i3_in := map delay_in (seq 0 199).
Lemma delay_ok : Forall (in_ok beta_cfg 40 6) delay_ins.
Proof.
  apply Forall_forall. intros i Hi. apply in_map_iff in Hi. destruct Hi as (k & <- & _). intros _. split; [|split; reflexivity]. unfold delay_in, rate_px. cbn [in_px]. set (n := (k mod 100)%nat).
  assert (0 <= Z.of_nat (n / 2) mod 31 < 31) by (apply Z.mod_pos_bound; lia). assert (0 <= Z.of_nat (n / 2 * 7) mod 15 < 15) by (apply Z.mod_pos_bound; lia).
  split; [reflexivity|]. constructor; [|constructor; [|constructor]]; unfold in_range; change (2 ^ bd beta_cfg) with 4096; destruct (Nat.even (n / 20)); lia.
Qed.
Example C84_example :
  frame_ok beta_cfg 40 6 /\ is_reset beta_cfg (i3_init beta_cfg) /\ Forall (in_ok beta_cfg 40 6) delay_ins /\
  16 <= conv beta_cfg /\ 16 <= outb beta_cfg /\ 3 * outb beta_cfg + 16 <= bufs beta_cfg /\ cf_steps beta_cfg + 9 + bufs beta_cfg / outb beta_cfg <= cfd beta_cfg /\
  small_groups beta_cfg (std_table 12) 40 16 (i3_accepted beta_cfg (init_huff_table 12) (i3_init beta_cfg) delay_ins) /\
  8 + 40 * 6 / ps beta_cfg + lost_cycles delay_ins <= len delay_ins /\
  smooth 12 40 31 (concat (i3_accepted beta_cfg (init_huff_table 12) (i3_init beta_cfg) delay_ins)).
Proof.
  split; [repeat split; cbn; lia|]. split; [apply is_reset_init; reflexivity|]. split; [apply delay_ok|].
  repeat (split; [vm_compute; discriminate|]).
  split; [apply (check_small_ok beta_cfg); vm_compute; reflexivity|]. split; [vm_compute; discriminate|].
  apply check_smooth_ok; vm_compute; reflexivity.
Qed.

(* a core with short fifos: the sink is busy for 150 cycles, and most of them show up in front of the core *)
Definition tight_cfg : config := {| bd := 12; ps := 2; ljd := 25; conv := 20; cfd := 19; outb := 16; bufs := 64 |}.
Definition tight_in (k : nat) : i3_in := {| in_valid := true; in_px := rate_px (k mod 100); in_busy := ((20 <=? k) && (k <? 170))%nat; in_w := 40; in_h := 6 |}.
Example C84_tight_example :
  cfg_ok tight_cfg = true /\ 16 <= conv tight_cfg /\ 16 <= outb tight_cfg /\ 3 * outb tight_cfg + 16 <= bufs tight_cfg /\ cf_steps tight_cfg + 9 + bufs tight_cfg / outb tight_cfg <= cfd tight_cfg /\
  small_groups tight_cfg (std_table 12) 40 16 (i3_accepted tight_cfg (init_huff_table 12) (i3_init tight_cfg) (map tight_in (seq 0 220))) /\
  len (i3_accepted tight_cfg (init_huff_table 12) (i3_init tight_cfg) (map tight_in (seq 0 220))) < 120 /\
  lost_cycles (map tight_in (seq 0 220)) = 150.
Proof.
  repeat (split; [vm_compute; first [reflexivity|discriminate]|]). split; [apply (check_small_ok tight_cfg); vm_compute; reflexivity|]. split; vm_compute; reflexivity.
Qed.
