(* Properties of the complete core (integration_3): C01, C02, C12 - C17, and its FIFOs: C31. *)
From Verif Require Import Bits Spec Spec_Core M_Config M_Signals M_Predictor M_Encode M_I1 M_Fifo M_Converter M_VBits M_I3
  P_Fifo P_Normalize P_Encode P_Signals P_Predictor P_I1 P_Tokens P_Converter P_VBits P_I3 P_Decode P_Run Props_Arith.
Ltac Zify.zify_post_hook ::= idtac.

Lemma std_mem c : cfg_ok c = true -> init_huff_table (bd c) = mem_of (bd c) (std_table (bd c)) /\
  table_ok (bd c) (std_table (bd c)) /\ prefix_free (std_table (bd c)).
Proof.
  intros Hc. assert (2 <= bd c <= 16) by (unfold cfg_ok in Hc; lia).
  split; [apply init_huff_table_std; assumption|]. split; [apply std_table_ok; assumption|apply std_prefix_free; assumption].
Qed.

Lemma map_fst_cut {A} pw (w : A) : map fst (plain pw ++ [(w, true)]) = pw ++ [w].
Proof. rewrite map_app. cbn. f_equal. unfold plain. rewrite map_map. cbn. apply map_id. Qed.

Lemma inv_pixels c t W H G A P done hist s : i3_inv c t W H G A P done hist s ->
  Forall (in_range (bd c)) (concat A) /\ len (concat A) = len A * ps c.
Proof.
  intros I. pose proof (v_A _ _ _ _ _ _ _ _ _ _ I) as HA. split.
  - clear I. induction HA as [|g A Hg HA IH]; [constructor|]. cbn. apply Forall_app. split; [apply Hg|assumption].
  - apply concat_len. eapply Forall_impl; [|exact HA]. intros g X. apply X.
Qed.

(* everything known about a finished run *)
Lemma finished_run c t W H s0 ins : cfg_ok c = true -> table_ok (bd c) t -> frame_ok c W H ->
  is_reset c s0 -> run_ok c (mem_of (bd c) t) W H s0 ins ->
  let out := i3_transfers c (mem_of (bd c) t) s0 ins in
  let acc := i3_accepted c (mem_of (bd c) t) s0 ins in
  existsb snd out = true ->
  len acc = W / ps c * H /\ len (concat acc) = W * H /\ Forall (in_range (bd c)) (concat acc) /\
  exists pad : nat, Z.of_nat pad < outb c /\
    stream (outb c) (map fst (cut out)) = ref_encode t (bd c) W [] (concat acc) ++ repeat false pad.
Proof.
  intros Hc Ht Hf Hr HF out acc He.
  destruct (run_from_reset c t W H s0 ins Hc Ht Hf Hr HF) as (P & hist & I). fold out acc in I.
  destruct (inv_ended _ _ _ _ _ _ _ _ _ _ I He) as (Hl & pw & w & Hcut & Hp1 & pad & Hp2 & Hp3).
  destruct (inv_pixels _ _ _ _ _ _ _ _ _ _ I) as [J1 J2].
  destruct (frame_geom c W H Hc Hf) as [(Q1 & Q2 & _) _].
  split; [assumption|]. split; [rewrite J2, Hl; nia|]. split; [assumption|].
  exists pad. split; [assumption|]. rewrite Hcut, map_fst_cut. exact Hp3.
Qed.

(* ------------------------------------------------------------------ C01 *)

(* Any programmed table that is a prefix code. *)
Theorem C01_lossless_table : forall c t W H s0 ins,
  cfg_ok c = true -> bd c <= 15 -> table_ok (bd c) t -> prefix_free t -> frame_ok c W H ->
  is_reset c s0 -> Forall (in_ok c W H) ins ->
  let out := i3_transfers c (mem_of (bd c) t) s0 ins in
  let acc := i3_accepted c (mem_of (bd c) t) s0 ins in
  existsb snd out = true ->
  len (concat acc) = W * H /\
  decode_frame t (bd c) W H (stream (outb c) (map fst (cut out))) = Some (concat acc).
Proof.
  intros c t W H s0 ins Hc Hb Ht Hp Hf Hr HF out acc He.
  destruct (finished_run c t W H s0 ins Hc Ht Hf Hr (in_ok_run _ _ _ _ _ HF _) He) as (L1 & L2 & L3 & pad & _ & Hs).
  fold out acc in L1, L2, L3, Hs. split; [assumption|]. unfold decode_frame. rewrite Hs.
  assert (Hb2 : 2 <= bd c <= 15) by (unfold cfg_ok in Hc; lia).
  replace (Z.to_nat (W * H)) with (length (concat acc)) by (unfold len in L2; lia).
  apply (ref_decode_ok t (bd c) W (concat acc)); try assumption; try lia.
  - apply Ht.
  - constructor.
  - apply all_small_15; [lia|constructor|assumption].
Qed.

(* The shipped table. *)
Theorem C01_lossless : forall c W H s0 ins,
  cfg_ok c = true -> bd c <= 15 -> frame_ok c W H -> is_reset c s0 -> Forall (in_ok c W H) ins ->
  let out := i3_transfers c (init_huff_table (bd c)) s0 ins in
  let acc := i3_accepted c (init_huff_table (bd c)) s0 ins in
  existsb snd out = true ->
  len (concat acc) = W * H /\
  decode_frame (std_table (bd c)) (bd c) W H (stream (outb c) (map fst (cut out))) = Some (concat acc).
Proof.
  intros c W H s0 ins Hc Hb Hf Hr HF. destruct (std_mem c Hc) as (-> & Ht & Hp).
  apply C01_lossless_table; assumption.
Qed.

(* While the frame is not finished: what was handed over is the beginning of the encoding of
   what was accepted, so the words of two runs that accept the same frame agree, whatever
   the schedules. *)
Theorem C01_prefix : forall c t W H s0 ins,
  cfg_ok c = true -> table_ok (bd c) t -> frame_ok c W H ->
  is_reset c s0 -> Forall (in_ok c W H) ins ->
  let out := i3_transfers c (mem_of (bd c) t) s0 ins in
  let acc := i3_accepted c (mem_of (bd c) t) s0 ins in
  existsb snd out = false ->
  exists rest, ref_encode t (bd c) W [] (concat acc) = stream (outb c) (map fst out) ++ rest.
Proof.
  intros c t W H s0 ins Hc Ht Hf Hr HF out acc He.
  destruct (run_from_reset c t W H s0 ins Hc Ht Hf Hr (in_ok_run _ _ _ _ _ HF _)) as (P & hist & I). fold out acc in I.
  destruct (inv_running _ _ _ _ _ _ _ _ _ _ Hc I He) as (pw & rest & Hd & _ & Hx).
  exists rest. rewrite Hd. unfold plain. rewrite map_map. cbn. rewrite map_id. exact Hx.
Qed.

(* a complete small run: 12-bit pixels, two per cycle, 4x3 frame, source with gaps, sink with stalls *)
Definition ex_in (k : nat) : i3_in :=
  {| in_valid := negb (Nat.eqb (Nat.modulo k 3) 0);
     in_px := [Z.of_nat k * 37 mod 4096; 4095 - Z.of_nat k * 51 mod 4096];
     in_busy := Nat.eqb (Nat.modulo k 4) 1; in_w := 4; in_h := 3 |}.
Definition ex_ins : list i3_in := map ex_in (seq 0 60).

Lemma ex_ins_ok : Forall (in_ok ex_cfg 4 3) ex_ins.
Proof.
  apply Forall_forall. intros i Hi. apply in_map_iff in Hi. destruct Hi as (k & <- & _).
  intros _. split; [|split; reflexivity]. split; [reflexivity|].
  assert (0 <= Z.of_nat k * 37 mod 4096 < 4096) by (apply Z.mod_pos_bound; lia).
  assert (0 <= Z.of_nat k * 51 mod 4096 < 4096) by (apply Z.mod_pos_bound; lia).
  constructor; [|constructor; [|constructor]]; unfold in_range; change (2 ^ bd ex_cfg) with 4096; lia.
Qed.

Example C01_example :
  cfg_ok ex_cfg = true /\ frame_ok ex_cfg 4 3 /\ is_reset ex_cfg (i3_init ex_cfg) /\ Forall (in_ok ex_cfg 4 3) ex_ins /\
  existsb snd (i3_transfers ex_cfg (init_huff_table 12) (i3_init ex_cfg) ex_ins) = true /\
  len (i3_accepted ex_cfg (init_huff_table 12) (i3_init ex_cfg) ex_ins) = 6.
Proof.
  split; [reflexivity|]. split; [repeat split; cbn; lia|]. split; [apply is_reset_init; reflexivity|].
  split; [apply ex_ins_ok|]. split; vm_compute; reflexivity.
Qed.

(* ------------------------------------------------------------------ C02 *)

Lemma category_17 d : category d = 16 <-> 32768 <= Z.abs d < 65536.
Proof. apply (C04_category_meaning d 16). lia. Qed.

Lemma seen_exact q p : in_range 16 q -> in_range 16 p ->
  ((q + seen (p - q)) mod 2 ^ 16 = p <-> Z.abs (p - q) <= 2 ^ 15).
Proof.
  intros Hq Hp. split; [|apply (pix_seen_ok 16); [lia|assumption|assumption]].
  unfold in_range in *. intros E. destruct (Z_le_gt_dec (Z.abs (p - q)) (2 ^ 15)); [assumption|exfalso].
  unfold seen in E. rewrite (proj2 (category_17 (p - q))) in E by lia. change (16 =? 16) with true in E. cbv iota in E.
  assert (p - q > 0 \/ p - q < 0) as [Hs|Hs] by lia.
  - rewrite Z.mod_small in E by lia. lia.
  - assert ((q + 32768) mod 2 ^ 16 = q - 32768) by (symmetry; apply Z.mod_unique with (q := 1); lia). lia.
Qed.

Lemma ref_decode_ext t bd W n : forall img l r, ref_decode t bd W n img l = Some r -> exists x, r = img ++ x.
Proof.
  induction n as [|n IH]; intros img l r E; cbn in E.
  - injection E as <-. exists []. rewrite app_nil_r. reflexivity.
  - destruct (decode_diff t l) as [[d rest]|]; [|discriminate]. apply IH in E. destruct E as [x ->].
    rewrite <- app_assoc. eauto.
Qed.

Lemma ref_decode_16 t W px : prefix_free t -> len t = 17 -> forall img l,
  Forall (in_range 16) img -> Forall (in_range 16) px ->
  (ref_decode t 16 W (length px) img (ref_encode t 16 W img px ++ l) = Some (img ++ px) <-> all_small 16 W img px).
Proof.
  intros Hp Hl. induction px as [|p px IH]; intros img l Hi Hx.
  - cbn. rewrite app_nil_r. split; auto.
  - apply Forall_cons_iff in Hx. destruct Hx as [Hx1 Hx]. cbn [length ref_encode ref_decode all_small].
    set (q := prediction 16 W img (Z.of_nat (length img))).
    assert (Hq : in_range 16 q) by (apply prediction_range; [lia|assumption]).
    assert (Hcat : 0 <= category (p - q) <= 16) by (apply category_range; unfold in_range in *; lia).
    rewrite <- app_assoc, decode_diff_ok by (try assumption; lia).
    split.
    + intros E. destruct (ref_decode_ext _ _ _ _ _ _ _ E) as [x Ex].
      assert (Hp1 : (q + seen (p - q)) mod 2 ^ 16 = p).
      { rewrite <- app_assoc in Ex. apply app_inv_head in Ex. cbn [app] in Ex. injection Ex as Ex _. symmetry. exact Ex. }
      split; [apply (seen_exact q p Hq Hx1); assumption|].
      rewrite Hp1 in E. replace (img ++ p :: px) with ((img ++ [p]) ++ px) in E by (rewrite <- app_assoc; reflexivity).
      apply IH in E; [assumption| |assumption]. apply Forall_app. auto.
    + intros [E1 E2]. rewrite (proj2 (seen_exact q p Hq Hx1) E1).
      replace (img ++ p :: px) with ((img ++ [p]) ++ px) by (rewrite <- app_assoc; reflexivity).
      apply IH; [|assumption|assumption]. apply Forall_app. auto.
Qed.

(* bit depth 16: decoding gives back the accepted frame exactly when no sample is further than
   2^15 from its prediction *)
Theorem C02_depth16 : forall c t W H s0 ins,
  cfg_ok c = true -> bd c = 16 -> table_ok 16 t -> prefix_free t -> frame_ok c W H ->
  is_reset c s0 -> Forall (in_ok c W H) ins ->
  let out := i3_transfers c (mem_of 16 t) s0 ins in
  let acc := i3_accepted c (mem_of 16 t) s0 ins in
  existsb snd out = true ->
  (decode_frame t 16 W H (stream (outb c) (map fst (cut out))) = Some (concat acc)
   <-> all_small 16 W [] (concat acc)).
Proof.
  intros c t W H s0 ins Hc Hb Ht Hp Hf Hr HF out acc He. rewrite <- Hb in Ht.
  pose proof (finished_run c t W H s0 ins Hc Ht Hf Hr (in_ok_run _ _ _ _ _ HF _)) as K. cbv zeta in K. rewrite Hb in K. fold out acc in K.
  destruct (K He) as (L1 & L2 & L3 & pad & _ & Hs). unfold decode_frame. rewrite Hs.
  replace (Z.to_nat (W * H)) with (length (concat acc)) by (unfold len in L2; lia).
  apply (ref_decode_16 t W (concat acc) Hp); [rewrite Hb in Ht; destruct Ht as [X _]; exact X|constructor|assumption].
Qed.

(* No decoder whatsoever can do better: two different frames, same words. *)
Definition ex16 : config := {| bd := 16; ps := 4; ljd := 25; conv := 40; cfd := 20; outb := 16; bufs := 56 |}.
Definition ex16_in (x : Z) (k : nat) : i3_in :=
  {| in_valid := true; in_px := if Nat.ltb k 9 then [0; 0; 0; 0] else [x; x; x; x]; in_busy := false; in_w := 8; in_h := 2 |}.
Definition ex16_run (x : Z) := map (ex16_in x) (seq 0 60).
Theorem C02_not_injective : exists c W H ins1 ins2,
  cfg_ok c = true /\ frame_ok c W H /\ Forall (in_ok c W H) ins1 /\ Forall (in_ok c W H) ins2 /\
  let mem := init_huff_table (bd c) in
  existsb snd (i3_transfers c mem (i3_init c) ins1) = true /\
  i3_transfers c mem (i3_init c) ins1 = i3_transfers c mem (i3_init c) ins2 /\
  i3_accepted c mem (i3_init c) ins1 <> i3_accepted c mem (i3_init c) ins2.
Proof.
  exists ex16, 8, 2, (ex16_run 40000), (ex16_run 50000).
  split; [reflexivity|]. split; [repeat split; cbn; lia|].
  assert (K : forall x, 0 <= x < 65536 -> Forall (in_ok ex16 8 2) (ex16_run x)).
  { intros x Hx. apply Forall_forall. intros i Hi. apply in_map_iff in Hi. destruct Hi as (k & <- & _).
    intros _. split; [|split; reflexivity]. unfold ex16_in, in_px. destruct (Nat.ltb k 9); split; try reflexivity;
    apply Forall_forall; intros y Hy; unfold in_range; change (2 ^ bd ex16) with 65536; cbn in Hy; lia. }
  split; [apply K; lia|]. split; [apply K; lia|]. cbv zeta. split; [vm_compute; reflexivity|]. split; [vm_compute; reflexivity|].
  intros E. vm_compute in E. discriminate.
Qed.

Example C02_example : exists ins, Forall (in_ok ex16 8 2) ins /\ is_reset ex16 (i3_init ex16) /\
  existsb snd (i3_transfers ex16 (mem_of 16 (std_table 16)) (i3_init ex16) ins) = true.
Proof.
  exists (ex16_run 7). split; [|split; [apply is_reset_init; reflexivity|vm_compute; reflexivity]].
  apply Forall_forall. intros i Hi. apply in_map_iff in Hi. destruct Hi as (k & <- & _).
  intros _. split; [|split; reflexivity]. unfold ex16_in, in_px. destruct (Nat.ltb k 9); split; try reflexivity;
  apply Forall_forall; intros y Hy; unfold in_range; change (2 ^ bd ex16) with 65536; cbn in Hy; lia.
Qed.

(* ------------------------------------------------------------------ C12, C13 (fifo part) *)

(* in every reachable state of the core both fifos have room for what is written into them *)
Theorem C12_no_overflow : forall c t W H s0 ins,
  cfg_ok c = true -> table_ok (bd c) t -> frame_ok c W H -> is_reset c s0 -> Forall (in_ok c W H) ins ->
  let s := i3_run c (mem_of (bd c) t) s0 ins in
  (i1_valid_out c (s_i1 s) = true -> fifo_writable (ljd c) (s_ljf s) = true) /\
  (cv_valid_in (s_cv s) = true -> fifo_writable (cfd c) (s_cf s) = true).
Proof.
  intros c t W H s0 ins Hc Ht Hf Hr HF s.
  destruct (run_from_reset c t W H s0 ins Hc Ht Hf Hr (in_ok_run _ _ _ _ _ HF _)) as (P & hist & I). fold s in I.
  pose proof (latency_bound c Hc) as Hlat. pose proof (cfg_cv c Hc) as Hcv.
  pose proof (cv_k_bound c Hcv) as (K1 & K2 & K3).
  destruct I as [Ilen IA Isig Ipred Ii1 Ihist Ine1 Ine2 Iljf Iljw Iljb Icv Icff Icfw Icfb Ivb Idone Iend Itok].
  split; intros E.
  - apply fifo_writable_level; [assumption|]. pose proof (hcount_le hist (latency c)). lia.
  - apply fifo_writable_level; [assumption|]. destruct Icfb as [X _]. unfold cv_weight in X. rewrite E in X. cbn [b2z] in X.
    assert (0 <= match cv_state (s_cv s) with CV_IDLE => 0 | CV_STEPS i0 => Z.of_nat i0 + 1 | _ => cv_k c end)
      by (destruct (cv_state (s_cv s)); lia). lia.
Qed.

(* ... hence nothing accepted is lost on the way: the groups accepted so far are either in the
   words handed over or still inside (stated as: the encoding of the accepted groups is what was
   handed over plus a bounded rest) - see C01_prefix and C01_lossless. *)

(* ------------------------------------------------------------------ C15 *)

(* the first end word comes only when the frame is complete, with the last 1..out_bits bits *)
Theorem C15_end_word : forall c t W H s0 ins,
  cfg_ok c = true -> table_ok (bd c) t -> frame_ok c W H -> is_reset c s0 -> Forall (in_ok c W H) ins ->
  let out := i3_transfers c (mem_of (bd c) t) s0 ins in
  let acc := i3_accepted c (mem_of (bd c) t) s0 ins in
  existsb snd out = true ->
  len (concat acc) = W * H /\
  (len (cut out) - 1) * outb c < len (ref_encode t (bd c) W [] (concat acc)) <= len (cut out) * outb c.
Proof.
  intros c t W H s0 ins Hc Ht Hf Hr HF out acc He.
  destruct (finished_run c t W H s0 ins Hc Ht Hf Hr (in_ok_run _ _ _ _ _ HF _) He) as (L1 & L2 & L3 & pad & Hpad & Hs).
  fold out acc in L1, L2, L3, Hs. split; [assumption|].
  apply (f_equal len) in Hs. unfold stream in Hs. fold (wbits (outb c) (map fst (cut out))) in Hs.
  assert (Ho : 1 <= outb c) by (unfold cfg_ok in Hc; lia).
  unfold len at 1 in Hs. rewrite wbits_length in Hs by lia. unfold len in *. rewrite app_length, repeat_length, map_length in Hs.
  rewrite Nat2Z.inj_add in Hs. nia.
Qed.

(* ------------------------------------------------------------------ C16 *)

Lemma nready_run c mem : forall ins s, s_nready_reset s = true -> s_nready_reset (i3_run c mem s ins) = true.
Proof.
  induction ins as [|i ins IH]; intros s Hs; [exact Hs|]. cbn [i3_run]. apply IH. unfold i3_step.
  destruct (i1_out c (s_i1 s)). cbn [s_nready_reset]. destruct (_ =? 7); [reflexivity|assumption].
Qed.

Lemma nready_step c mem s i : s_nready_reset (i3_step c mem s i) = (if s_nready_ctr s =? 7 then true else s_nready_reset s) /\
  s_nready_ctr (i3_step c mem s i) = trunc 3 (s_nready_ctr s + 1).
Proof. unfold i3_step. destruct (i1_out c (s_i1 s)). split; reflexivity. Qed.

Lemma nready_startup c mem : forall ins s, s_nready_reset s = false -> 0 <= s_nready_ctr s ->
  (len ins + s_nready_ctr s < 8 -> s_nready_reset (i3_run c mem s ins) = false /\ s_nready_ctr (i3_run c mem s ins) = s_nready_ctr s + len ins) /\
  (s_nready_ctr s < 8 -> 8 <= len ins + s_nready_ctr s -> s_nready_reset (i3_run c mem s ins) = true).
Proof.
  induction ins as [|i ins IH]; intros s Hs Hc.
  - cbn [i3_run]. change (len (@nil i3_in)) with 0. split; intros; [split; [assumption|lia]|lia].
  - cbn [i3_run]. destruct (nready_step c mem s i) as [E1 E2].
    assert (Hl : len (i :: ins) = len ins + 1) by (unfold len; cbn; lia). assert (Hnn : 0 <= len ins) by (unfold len; lia).
    rewrite Hl. destruct (Z.eq_dec (s_nready_ctr s) 7) as [E7|N7].
    + split; [lia|]. intros _ _. apply nready_run. rewrite E1, E7. reflexivity.
    + replace (s_nready_ctr s =? 7) with false in E1 by lia. 
      destruct (Z_lt_le_dec (s_nready_ctr s) 8) as [H8|H8]; [|split; lia].
      assert (E3 : trunc 3 (s_nready_ctr s + 1) = s_nready_ctr s + 1) by (apply trunc_id; lia).
      rewrite E3 in E2. destruct (IH (i3_step c mem s i)) as [I1 I2]; [congruence|lia|]. rewrite E2 in *.
      split; intros; [destruct I1; [lia|]; split; [assumption|lia]|apply I2; lia].
Qed.

Lemma empty_level c t W H G P done hist s : cfg_ok c = true -> geom (ps c) W H G -> i3_inv c t W H G [] P done hist s -> fifo_level (s_ljf s) = 0.
Proof.
  intros Hc Hg I. pose proof (v_tok _ _ _ _ _ _ _ _ _ _ I) as T. unfold frame_toks in T. change (len (@nil (list Z))) with 0 in T.
  destruct Hg as (Q1 & Q2 & Q3 & Q4 & Q5 & _).
  replace (0 =? G * H) with false in T by lia. cbn [map concat ref_encode app] in T.
  apply app_eq_nil in T. destruct T as [_ T]. apply app_eq_nil in T. destruct T as [_ T]. apply app_eq_nil in T. destruct T as [_ T].
  apply app_eq_nil in T. destruct T as [_ T]. apply app_eq_nil in T. destruct T as [_ T]. apply app_eq_nil in T. destruct T as [T _].
  rewrite (fifo_level_q (ljd c)) by apply (v_ljf _ _ _ _ _ _ _ _ _ _ I).
  rewrite (qtok_nil _ _ _ (v_ljw _ _ _ _ _ _ _ _ _ _ I) T). reflexivity.
Qed.

Lemma accepted_app c mem a b s : i3_accepted c mem s (a ++ b) = i3_accepted c mem s a ++ i3_accepted c mem (i3_run c mem s a) b.
Proof. revert s. induction a as [|y a IHa]; intros; [reflexivity|]. cbn [app i3_accepted i3_run]. rewrite IHa, app_assoc. reflexivity. Qed.
Lemma run_app c mem a b s : i3_run c mem s (a ++ b) = i3_run c mem (i3_run c mem s a) b.
Proof. revert s. induction a as [|y a IHa]; intros; [reflexivity|]. cbn [app i3_run]. apply IHa. Qed.
Lemma transfers_app c mem a b s : i3_transfers c mem s (a ++ b) = i3_transfers c mem s a ++ i3_transfers c mem (i3_run c mem s a) b.
Proof. revert s. induction a as [|y a IHa]; intros; [reflexivity|]. cbn [app i3_transfers i3_run]. rewrite IHa, app_assoc. reflexivity. Qed.

(* no pixel in the first eight cycles; ready in the ninth; at most one frame; refused for ever after *)
Theorem C16_one_frame : forall c t W H s0 ins,
  cfg_ok c = true -> table_ok (bd c) t -> frame_ok c W H -> is_reset c s0 -> Forall (in_ok c W H) ins ->
  let acc := i3_accepted c (mem_of (bd c) t) s0 ins in
  let s := i3_run c (mem_of (bd c) t) s0 ins in
  (len ins < 8 -> i3_nready s = true) /\
  (len ins <= 8 -> acc = []) /\
  (len ins = 8 -> i3_nready s = false) /\
  len (concat acc) <= W * H /\
  (len (concat acc) = W * H -> i3_nready s = true).
Proof.
  intros c t W H s0 ins Hc Ht Hf Hr HF acc s.
  assert (Hr' : s_nready_reset s0 = false /\ s_nready_ctr s0 = 0 /\ s_lj_cf s0 = false) by (destruct Hr as (? & ? & ? & ? & ? & _ & _ & _ & ->); auto).
  destruct Hr' as (R1 & R2 & R3).
  assert (Hnr : forall l, len l < 8 -> i3_nready (i3_run c (mem_of (bd c) t) s0 l) = true).
  { intros l Hl. destruct (nready_startup c (mem_of (bd c) t) l s0 R1 ltac:(lia)) as [S1 _].
    unfold i3_nready. rewrite (proj1 (S1 ltac:(lia))). rewrite orb_true_r. reflexivity. }
  assert (Hacc0 : forall l, len l <= 8 -> i3_accepted c (mem_of (bd c) t) s0 l = []).
  { induction l as [|x l IH] using rev_ind; intros Hl; [reflexivity|].
    rewrite accepted_app, IH by (unfold len in *; rewrite app_length in Hl; cbn in Hl; lia). cbn [i3_accepted app].
    rewrite Hnr by (unfold len in *; rewrite app_length in Hl; cbn in Hl; lia). rewrite andb_false_r. reflexivity. }
  destruct (run_from_reset c t W H s0 ins Hc Ht Hf Hr (in_ok_run _ _ _ _ _ HF _)) as (P & hist & I). fold acc s in I.
  destruct (inv_pixels _ _ _ _ _ _ _ _ _ _ I) as [_ J2].
  destruct (frame_geom c W H Hc Hf) as [Hg _]. pose proof Hg as (Q1 & Q2 & Q3 & Q4 & Q5 & Q6 & Q7). set (G := W / ps c) in *.
  pose proof (v_len _ _ _ _ _ _ _ _ _ _ I) as Vl. pose proof (v_ne1 _ _ _ _ _ _ _ _ _ _ I) as Vn.
  split; [intros Hl; apply Hnr; assumption|]. split; [apply Hacc0|].
  split.
  { intros H8. assert (Hacc : acc = []) by (apply Hacc0; lia).
    assert (Hrst : s_nready_reset s = true) by (apply (nready_startup c (mem_of (bd c) t) ins s0 R1 ltac:(lia)); lia).
    unfold i3_nready. rewrite Hrst, Vn, Hacc. change (len (@nil (list Z))) with 0. replace (G * H <=? 0) with false by lia. cbn [negb]. rewrite !orb_false_r.
    unfold s. destruct (exists_last (l := ins)) as (l & x & E); [intros E; rewrite E in H8; discriminate H8|].
    rewrite E, run_app. cbn [i3_run]. unfold i3_step. destruct (i1_out c _). cbn [s_lj_cf].
    assert (HFl : Forall (in_ok c W H) l) by (rewrite E in HF; apply Forall_app in HF; apply HF).
    assert (Hll : len l = 7) by (rewrite E in H8; unfold len in *; rewrite app_length in H8; cbn in H8; lia).
    destruct (run_from_reset c t W H s0 l Hc Ht Hf Hr (in_ok_run _ _ _ _ _ HFl _)) as (P7 & hist7 & I7). rewrite Hacc0 in I7 by lia.
    rewrite (empty_level c t W H G _ _ _ _ Hc Hg I7). unfold cfg_ok in Hc. lia. }
  split; [rewrite J2; nia|].
  intros Hl. unfold i3_nready. rewrite Vn. rewrite J2 in Hl. replace (G * H <=? len acc) with true by nia. rewrite orb_true_r. reflexivity.
Qed.

(* once the last group of the frame was accepted, nothing more is, for every continuation *)
Theorem C16_closed : forall c t W H s0 ins more,
  cfg_ok c = true -> table_ok (bd c) t -> frame_ok c W H -> is_reset c s0 -> Forall (in_ok c W H) (ins ++ more) ->
  len (concat (i3_accepted c (mem_of (bd c) t) s0 ins)) = W * H ->
  i3_accepted c (mem_of (bd c) t) (i3_run c (mem_of (bd c) t) s0 ins) more = [] /\
  i3_nready (i3_run c (mem_of (bd c) t) s0 (ins ++ more)) = true.
Proof.
  intros c t W H s0 ins more Hc Ht Hf Hr HF Hl.
  destruct (C16_one_frame c t W H s0 (ins ++ more) Hc Ht Hf Hr HF) as (_ & _ & _ & B & C).
  rewrite accepted_app, concat_app in B, C. unfold len in *. rewrite app_length in B, C.
  assert (H0 : length (concat (i3_accepted c (mem_of (bd c) t) (i3_run c (mem_of (bd c) t) s0 ins) more)) = 0%nat) by lia.
  split; [|apply C; lia].
  destruct (run_from_reset c t W H s0 (ins ++ more) Hc Ht Hf Hr (in_ok_run _ _ _ _ _ HF _)) as (P & hist & I).
  pose proof (v_A _ _ _ _ _ _ _ _ _ _ I) as HA. rewrite accepted_app in HA. apply Forall_app in HA. destruct HA as [_ HA].
  destruct (i3_accepted c (mem_of (bd c) t) (i3_run c (mem_of (bd c) t) s0 ins) more) as [|g r]; [reflexivity|exfalso].
  apply Forall_cons_iff in HA. destruct HA as [[Hg _] _]. cbn in H0. rewrite app_length in H0. unfold cfg_ok, len in *. lia.
Qed.

(* ------------------------------------------------------------------ C17 *)

(* while a word is offered and not taken, the outputs do not change *)
Theorem C17_stable : forall c t W H s0 ins i,
  cfg_ok c = true -> table_ok (bd c) t -> frame_ok c W H -> is_reset c s0 -> Forall (in_ok c W H) ins ->
  let s := i3_run c (mem_of (bd c) t) s0 ins in
  let s' := i3_step c (mem_of (bd c) t) s i in
  i3_valid_out s = true -> in_busy i = true ->
  i3_valid_out s' = true /\ i3_data_out s' = i3_data_out s /\ i3_end_out s' = i3_end_out s.
Proof.
  intros c t W H s0 ins i Hc Ht Hf Hr HF s s' Hv Hb.
  destruct (run_from_reset c t W H s0 ins Hc Ht Hf Hr (in_ok_run _ _ _ _ _ HF _)) as (P & hist & I). fold s in I.
  destruct (v_vb _ _ _ _ _ _ _ _ _ _ I) as [Vo _].
  unfold i3_valid_out, i3_data_out, i3_end_out in *.
  assert (E : vb_out (s_vb s') = vb_out (s_vb s)); [|rewrite E; auto].
  unfold s', i3_step. destruct (i1_out c (s_i1 s)). cbn [s_vb]. unfold vb_step. cbn [vb_out]. rewrite Hb. unfold vo_step, vo_dec.
  unfold vo_inv in Vo. destruct (vo_state (vb_out (s_vb s))); [destruct Vo; congruence| |]; cbn [negb andb]; reflexivity.
Qed.

Example C17_example : exists ins, Forall (in_ok ex_cfg 4 3) ins /\
  i3_valid_out (i3_run ex_cfg (mem_of 12 (std_table 12)) (i3_init ex_cfg) ins) = true.
Proof. exists ex_ins. split; [apply ex_ins_ok|vm_compute; reflexivity]. Qed.
