(* C80: throughput.  Groups that code into few bits are taken in every cycle. *)
From Verif Require Import Bits Spec Spec_Core Spec_Rate M_Config M_Signals M_Predictor M_Difference M_Encode M_Merge M_I1 M_Fifo M_Converter M_VBits M_I3 M_Beta M_Micro M_Stream3
  P_Fifo P_Encode P_Merge P_Signals P_Predictor P_I1 P_Tokens P_Converter P_VBits P_I3 P_Decode P_Run P_Live P_Live2 P_LiveBound P_Rate P_Rate2 P_Rate3 P_Rate4 P_Rate5 Props_Arith Props_Core Props_Live.
Ltac Zify.zify_post_hook ::= idtac.

(* ------------------------------------------------------------------ a sink that is never busy *)

Theorem C80_full_rate : forall c t W H M s0 ins,
  cfg_ok c = true -> table_ok (bd c) t -> frame_ok c W H -> is_reset c s0 -> Forall (in_ok c W H) ins ->
  1 <= M <= conv c -> M <= outb c -> outb c - 1 + 2 * M <= bufs c ->
  small_groups c t W M (on_offer c W H ins) -> Forall (fun i => in_busy i = false) ins ->
  i3_accepted c (mem_of (bd c) t) s0 ins = on_offer c W H ins.
Proof.
  intros c t W H M s0 ins Hc Ht Hf Hr HF HM HM2 Hb Hs Hnb.
  apply (full_rate c t W H M s0 (fun _ hist s => nb_inv c t M hist s) (fun _ i => in_busy i = false)); try assumption; try lia.
  - apply nb_reset; assumption || lia.
  - intros pre i A P done hist s I _ Hcl Hg Hi K. eapply nb_step; eassumption || lia.
  - intros pre hist s K. apply (nb_fr _ _ _ _ _ K).
  - apply in_ok_run. exact HF.
  - intros pre i post E. rewrite E in Hnb. apply Forall_app in Hnb. destruct Hnb as [_ Hnb]. inversion Hnb; assumption.
Qed.

(* ------------------------------------------------------------------ a sink that is busy now and then *)


(* the credits along a run *)
Lemma paced_split r Dm : forall l D E, 0 <= D <= Dm -> 0 <= E -> 0 <= r -> paced r Dm D E l ->
  exists f : nat -> Z * Z, f 0%nat = (D, E) /\ forall n v b, nth_error l n = Some (v, b) ->
    let '(D1, E1) := f n in let '(D2, E2) := f (S n) in
    0 <= D1 <= Dm /\ 0 <= D2 <= Dm /\ 0 <= E2 /\ E2 <= E1 /\ E1 <= E /\ D2 + E2 <= D1 + E1 - b2z b + r * b2z (v && negb b).
Proof.
  induction l as [|[v b] l IH]; intros D E HD HE Hr HP.
  - exists (fun _ => (D, E)). split; [reflexivity|]. intros [|n] v b X; discriminate.
  - assert (X : exists D2 E2, paced r Dm D2 E2 l /\ 0 <= D2 <= Dm /\ 0 <= E2 <= E /\ D2 + E2 <= D + E - b2z b + r * b2z (v && negb b)).
    { cbn [paced] in HP. destruct b.
      - destruct HP as [[X1 X2]|[X1 X2]]; [exists (D - 1), E|exists D, (E - 1)]; (split; [exact X2|]); rewrite andb_false_r; cbn [b2z]; lia.
      - exists (Z.min Dm (D + (if v then r else 0))), E. split; [exact HP|]. rewrite andb_true_r. destruct v; cbn [b2z]; lia. }
    destruct X as (D2 & E2 & X1 & X2 & X3 & X4). destruct (IH D2 E2 X2 ltac:(lia) Hr X1) as (f & F0 & F1).
    exists (fun n => match n with O => (D, E) | S m => f m end). split; [reflexivity|]. intros [|n] v' b' Y.
    + cbn in Y. injection Y as <- <-. rewrite F0. lia.
    + cbn in Y. specialize (F1 n v' b' Y). destruct (f n) as [D1 E1], (f (S n)) as [D3 E3]. lia.
Qed.
Lemma sink_log_app c mem : forall a s b, sink_log c mem s (a ++ b) = sink_log c mem s a ++ sink_log c mem (i3_run c mem s a) b.
Proof. induction a as [|i a IH]; intros s b; [reflexivity|]. cbn. rewrite IH. reflexivity. Qed.
Lemma sink_log_len c mem : forall a s, length (sink_log c mem s a) = length a.
Proof. induction a as [|i a IH]; intros s; cbn; [reflexivity|rewrite IH; reflexivity]. Qed.

Theorem C80_paced_sink : forall c t W H M r Dm E s0 ins,
  cfg_ok c = true -> table_ok (bd c) t -> frame_ok c W H -> is_reset c s0 -> Forall (in_ok c W H) ins ->
  1 <= M <= conv c -> 0 <= r -> 0 <= Dm -> 0 <= E -> (1 + r) * M <= outb c ->
  3 * M + 2 * (outb c - 1) + M * (Dm + r) <= bufs c -> bufs c + 11 * M + M * E - (outb c - 1) < M * (cfd c - cf_steps c) ->
  small_groups c t W M (on_offer c W H ins) -> paced r Dm 0 E (sink_log c (mem_of (bd c) t) s0 ins) ->
  i3_accepted c (mem_of (bd c) t) s0 ins = on_offer c W H ins.
Proof.
  intros c t W H M r Dm E s0 ins Hc Ht Hf Hr HF HM Hr0 HDm HE Hrm Hb Hcap Hs HP.
  destruct (paced_split r Dm _ 0 E ltac:(lia) HE Hr0 HP) as (f & F0 & F1).
  assert (HR : rate_cond c M r Dm E) by (unfold rate_cond, low, top; repeat split; lia).
  apply (full_rate c t W H M s0 (fun pre hist s => rt_inv c t M r Dm E hist s (fst (f (length pre))) (snd (f (length pre))))
    (fun pre i => forall v b, (v, b) = (i3_valid_out (i3_run c (mem_of (bd c) t) s0 pre), in_busy i) -> nth_error (sink_log c (mem_of (bd c) t) s0 ins) (length pre) = Some (v, b))); try assumption; try lia.
  - cbn [length]. rewrite F0. cbn [fst snd]. apply rt_reset; assumption.
  - intros pre i A P done hist s I Es Hcl Hg Hi K. specialize (Hi _ _ eq_refl). specialize (F1 _ _ _ Hi). rewrite <- Es in F1.
    rewrite app_length. cbn [length]. replace (length pre + 1)%nat with (S (length pre)) by lia.
    destruct (f (length pre)) as [D1 E1], (f (S (length pre))) as [D2 E2]. cbn [fst snd] in *. destruct F1 as (Y1 & Y2 & Y3 & Y4 & Y5 & Y6).
    apply (rt_step c t M r Dm E W H (W / ps c) A P done hist s i D1 E1 D2 E2); assumption || lia.
  - intros pre hist s K. apply (rt_fr _ _ _ _ _ _ _ _ _ _ K).
  - apply in_ok_run. exact HF.
  - intros pre i post E' v b Ev. rewrite E', sink_log_app. cbn [sink_log]. rewrite nth_error_app2 by (rewrite sink_log_len; lia). rewrite sink_log_len, Nat.sub_diag. cbn. rewrite Ev. reflexivity.
Qed.

(* ------------------------------------------------------------------ smooth images with the built-in code *)

Lemma nth_error_firstn {A} : forall n (l : list A) k, nth_error (firstn n l) k = if (k <? n)%nat then nth_error l k else None.
Proof.
  induction n as [|n IH]; intros l k; [destruct k; reflexivity|]. destruct l as [|x l]; [destruct (k <? S n)%nat; destruct k; reflexivity|].
  destruct k as [|k]; [reflexivity|]. cbn [firstn nth_error]. rewrite IH. reflexivity.
Qed.
Lemma len_bitsz n v : 0 <= n -> len (bitsz n v) = n.
Proof. intros Hn. unfold len. rewrite bitsz_length; lia. Qed.
(* code bits of a sample that is close to its prediction *)
Definition std_cost (k : Z) : Z := if k <=? 7 then Z.max 4 (3 + k) else 13.
Lemma std_small bd d k : 1 <= k <= 8 -> Z.abs d < 2 ^ k -> len (encode_diff (std_table bd) d) <= std_cost k.
Proof.
  intros Hk Hd. assert (Hr : 0 <= category d <= k) by (apply (P_Normalize.category_range k d); lia).
  unfold encode_diff, extra_bits. rewrite len_app. replace (category d =? 16) with false by lia. rewrite len_bitsz by lia.
  assert (Hc : len (code_bits (std_table bd) (category d)) <= if category d =? 0 then 4 else if category d <=? 7 then 3 else 5).
  { unfold code_bits, std_table. rewrite nth_error_firstn. destruct (_ <? _)%nat.
    - assert (X : category d = 0 \/ category d = 1 \/ category d = 2 \/ category d = 3 \/ category d = 4 \/ category d = 5 \/ category d = 6 \/ category d = 7 \/ category d = 8) by lia.
      destruct X as [X|[X|[X|[X|[X|[X|[X|[X|X]]]]]]]]; rewrite X; vm_compute; discriminate.
    - change (len (@nil bool)) with 0. destruct (category d =? 0), (category d <=? 7); lia. }
  unfold std_cost. destruct (category d =? 0) eqn:E0, (category d <=? 7) eqn:E7, (k <=? 7) eqn:Ek; lia.
Qed.
Lemma smooth_group bd W D t b : (forall d, Z.abs d <= D -> len (encode_diff t d) <= b) -> forall g img r, smooth bd W D (img ++ g ++ r) -> len (ref_encode t bd W img g) <= len g * b.
Proof.
  intros Hb. induction g as [|p g IH]; intros img r HS; [cbn; lia|]. cbn [ref_encode]. rewrite len_app.
  pose proof (Hb _ (HS img p (g ++ r) eq_refl)) as X. change (Z.of_nat (length img)) with (len img). set (e := encode_diff t (p - prediction bd W img (len img))) in *.
  specialize (IH (img ++ [p]) r). rewrite <- app_assoc in IH. specialize (IH HS). unfold len in *. cbn [length]. lia.
Qed.
Lemma on_offer_groups c W H ins : Forall (in_ok c W H) ins -> Forall (fun g => len g = ps c) (on_offer c W H ins).
Proof.
  intros HF. apply Forall_forall. intros g Hg. unfold on_offer in Hg.
  assert (X : In g (map in_px (filter in_valid (skipn 8 ins)))).
  { pose proof (firstn_skipn (Z.to_nat (W * H / ps c)) (map in_px (filter in_valid (skipn 8 ins)))) as X. rewrite <- X. apply in_app_iff. left. exact Hg. }
  apply in_map_iff in X. destruct X as (i & <- & X). apply filter_In in X. destruct X as [X1 X2].
  pose proof (firstn_skipn 8 ins) as Y. assert (In i ins) by (rewrite <- Y; apply in_app_iff; right; exact X1). rewrite Forall_forall in HF. apply (HF i H0 X2).
Qed.
Lemma smooth_small c W H k ins : 1 <= k <= 8 -> Forall (in_ok c W H) ins -> smooth (bd c) W (2 ^ k - 1) (concat (on_offer c W H ins)) ->
  small_groups c (std_table (bd c)) W (ps c * std_cost k) (on_offer c W H ins).
Proof.
  intros Hk HF HS A g B E. pose proof (on_offer_groups c W H ins HF) as L. rewrite E in L. apply Forall_app in L. destruct L as [_ L]. inversion L as [|? ? L1 _]; subst.
  rewrite <- L1. rewrite E, concat_app in HS. cbn [concat] in HS. eapply smooth_group; [|exact HS]. intros d Hd. apply std_small; lia.
Qed.

(* k is the number of bits that hold the differences: codes are 4 bits (k = 1), 3 + k bits (k <= 7), 13 bits (k = 8) long at most *)
Theorem C80_smooth : forall c W H k s0 ins,
  cfg_ok c = true -> frame_ok c W H -> is_reset c s0 -> Forall (in_ok c W H) ins ->
  1 <= k <= 8 -> ps c * (if k =? 8 then 13 else k + 3) <= Z.min (conv c) (outb c) -> outb c - 1 + 2 * (ps c * (if k =? 8 then 13 else k + 3)) <= bufs c ->
  smooth (bd c) W (2 ^ k - 1) (concat (on_offer c W H ins)) -> Forall (fun i => in_busy i = false) ins ->
  i3_accepted c (init_huff_table (bd c)) s0 ins = on_offer c W H ins.
Proof.
  intros c W H k s0 ins Hc Hf Hr HF Hk HM Hb HS Hnb. destruct (std_mem c Hc) as (E1 & E2 & _). rewrite E1.
  assert (Hps : ps c = 1 \/ ps c = 2 \/ ps c = 4) by (unfold cfg_ok in Hc; lia).
  assert (Ek : std_cost k = (if k =? 8 then 13 else k + 3)) by (unfold std_cost; destruct (k =? 8) eqn:X, (k <=? 7) eqn:Y; lia).
  apply (C80_full_rate c (std_table (bd c)) W H (ps c * std_cost k)); try assumption; try (rewrite Ek; lia).
  - rewrite Ek. destruct (k =? 8); lia.
  - apply smooth_small; assumption.
Qed.

(* the three cores that the code builds: 12-bit samples, differences up to 31 (two and four samples per cycle) or 255 (one per cycle) *)
Theorem C80_shipped : forall c D W H s0 ins,
  (c, D) = (beta_cfg, 31) \/ (c, D) = (s3_cfg, 31) \/ (c, D) = (micro_cfg, 255) ->
  frame_ok c W H -> is_reset c s0 -> Forall (in_ok c W H) ins ->
  smooth 12 W D (concat (on_offer c W H ins)) -> Forall (fun i => in_busy i = false) ins ->
  i3_accepted c (init_huff_table 12) s0 ins = on_offer c W H ins.
Proof.
  intros c D W H s0 ins Hc Hf Hr HF HS Hnb.
  assert (X : cfg_ok c = true /\ bd c = 12 /\ exists k, D = 2 ^ k - 1 /\ 1 <= k <= 8 /\ ps c * (if k =? 8 then 13 else k + 3) <= Z.min (conv c) (outb c) /\ outb c - 1 + 2 * (ps c * (if k =? 8 then 13 else k + 3)) <= bufs c).
  { destruct Hc as [E|[E|E]]; injection E as -> ->; (split; [reflexivity|]); (split; [reflexivity|]); [exists 5|exists 5|exists 8]; cbn; lia. }
  destruct X as (X1 & X2 & k & -> & X3 & X4 & X5). rewrite <- X2. rewrite <- X2 in HS. apply C80_smooth with (W := W) (H := H) (k := k); assumption.
Qed.

(* when a group is on offer in every cycle, the frame is taken in 8 cycles and one more for each group *)
Theorem C80_frame_time : forall c t W H M s0 ins,
  cfg_ok c = true -> table_ok (bd c) t -> frame_ok c W H -> is_reset c s0 -> Forall (in_ok c W H) ins ->
  1 <= M <= conv c -> M <= outb c -> outb c - 1 + 2 * M <= bufs c ->
  Forall (fun i => in_valid i = true /\ in_busy i = false) ins -> len ins = 8 + W * H / ps c ->
  small_groups c t W M (map in_px (skipn 8 ins)) ->
  i3_accepted c (mem_of (bd c) t) s0 ins = map in_px (skipn 8 ins) /\ len (concat (i3_accepted c (mem_of (bd c) t) s0 ins)) = W * H.
Proof.
  intros c t W H M s0 ins Hc Ht Hf Hr HF HM HM2 Hb Hv Hl Hs.
  assert (Eo : on_offer c W H ins = map in_px (skipn 8 ins)).
  { unfold on_offer. assert (E : filter in_valid (skipn 8 ins) = skipn 8 ins).
    { assert (X : Forall (fun i => in_valid i = true) (skipn 8 ins)).
      { pose proof (firstn_skipn 8 ins) as Y. rewrite <- Y in Hv. apply Forall_app in Hv. destruct Hv as [_ Hv]. eapply Forall_impl; [|exact Hv]. intros i Z. apply Z. }
      clear - X. induction X as [|i l X1 X2 IH]; [reflexivity|]. cbn [filter]. rewrite X1, IH. reflexivity. }
    rewrite E. apply firstn_all2. rewrite map_length, skipn_length. unfold len in Hl. lia. }
  assert (Ea : i3_accepted c (mem_of (bd c) t) s0 ins = map in_px (skipn 8 ins)).
  { rewrite <- Eo. apply (C80_full_rate c t W H M); try assumption; [rewrite Eo; exact Hs|]. eapply Forall_impl; [|exact Hv]. intros i Z. apply Z. }
  split; [exact Ea|]. destruct (run_from_reset c t W H s0 ins Hc Ht Hf Hr (in_ok_run _ _ _ _ _ HF _)) as (P & hist & I).
  destruct (inv_pixels _ _ _ _ _ _ _ _ _ _ I) as [_ J]. rewrite J, Ea. unfold len. rewrite map_length, skipn_length. unfold len in Hl.
  destruct (frame_geom c W H Hc Hf) as [(Q1 & Q2 & Q3 & Q4 & _) _]. set (G := W / ps c) in *.
  assert (HN : W * H / ps c = G * H) by (rewrite Q2; replace (G * ps c * H) with (G * H * ps c) by lia; apply Z.div_mul; lia).
  replace (Z.of_nat (length ins - 8)) with (G * H) by nia. rewrite Q2. ring.
Qed.

(* ------------------------------------------------------------------ and no more than the output word is wide: an upper bound for every run *)

Lemma packs_bits w ws bs : 0 <= w -> packs w ws bs -> len bs <= w * len ws.
Proof.
  intros Hw (_ & pad & _ & E). apply (f_equal (@length bool)) in E. rewrite app_length, repeat_length in E.
  pose proof (wbits_length w ws Hw) as X. unfold wbits in X. unfold len in *. lia.
Qed.
Lemma transfers_ready c mem : forall ins s, len (i3_transfers c mem s ins) <= len (filter (fun i => negb (in_busy i)) ins).
Proof.
  induction ins as [|i ins IH]; intros s; [cbn; lia|]. cbn [i3_transfers filter]. rewrite len_app. specialize (IH (i3_step c mem s i)).
  destruct (i3_valid_out s), (in_busy i); cbn [andb negb]; unfold len in *; cbn [length]; lia.
Qed.
Lemma cut_le {A} (l : list (A * bool)) : len (cut l) <= len l.
Proof. induction l as [|[x e] l IH]; [cbn; lia|]. cbn [cut]. destruct e; unfold len in *; cbn [length]; lia. Qed.

Lemma map_Some_None (a b : list bool) r (e : bool) : map Some a ++ None :: r = map Some b ++ (if e then [None] else []) -> b = a.
Proof.
  revert b. induction a as [|x a IH]; intros [|y b] E; cbn in E; try reflexivity; try discriminate.
  - destruct e; discriminate.
  - injection E as -> E. f_equal. apply (IH _ E).
Qed.

Theorem C80_bandwidth : forall c t W H s0 ins,
  cfg_ok c = true -> table_ok (bd c) t -> frame_ok c W H -> is_reset c s0 -> Forall (in_ok c W H) ins ->
  len (ref_encode t (bd c) W [] (concat (i3_accepted c (mem_of (bd c) t) s0 ins))) <= outb c * (len (filter (fun i => negb (in_busy i)) ins) + 1) + bufs c + capacity c.
Proof.
  intros c t W H s0 ins Hc Ht Hf Hr HF.
  destruct (run_from_reset c t W H s0 ins Hc Ht Hf Hr (in_ok_run _ _ _ _ _ HF _)) as (P & hist & I).
  pose proof (transfers_ready c (mem_of (bd c) t) ins s0) as HT. set (A := i3_accepted c (mem_of (bd c) t) s0 ins) in *. set (s := i3_run c (mem_of (bd c) t) s0 ins) in *.
  set (done := i3_transfers c (mem_of (bd c) t) s0 ins) in *. set (n := len (filter _ ins)) in *.
  pose proof (cfg_vb c Hc) as Hvb. pose proof (v_tok _ _ _ _ _ _ _ _ _ _ I) as T. pose proof (v_done _ _ _ _ _ _ _ _ _ _ I) as D. unfold vb_done in D.
  assert (Ho : len (done ++ offered (s_vb s)) <= n + 1) by (rewrite len_app; unfold offered; destruct (vo_valid (vb_out (s_vb s))); unfold len in *; cbn [length]; lia).
  assert (Hob : 1 <= outb c) by apply Hvb. assert (Hcap : 0 <= bufs c /\ 0 <= capacity c).
  { pose proof (cfg_cfd c Hc) as X1. pose proof (cv_k_bound c (cfg_cv c Hc)) as (K1 & _). assert (X2 : cf_steps c = cv_k c + 3) by reflexivity.
    assert (X3 : 1 <= conv c /\ conv c <= total_ctr c /\ 25 <= ljd c /\ conv c + outb c <= bufs c) by (unfold cfg_ok in Hc; lia). split; [lia|]. unfold capacity.
    assert (0 <= cfd c * (conv c + 1)) by nia. assert (0 <= ljd c * (total_ctr c + 1)) by nia. lia. }
  assert (Hft : len (frame_toks t (bd c) W A (W / ps c * H)) = len (ref_encode t (bd c) W [] (concat A)) + b2z (len A =? W / ps c * H)).
  { unfold frame_toks. rewrite len_app. unfold len at 1. rewrite map_length. fold (len (ref_encode t (bd c) W [] (concat A))). destruct (len A =? _); reflexivity. }
  destruct (finished_dec s) as [Hfin|Hnf].
  - unfold finished in Hfin. rewrite Hfin in D. destruct D as (pw & w & bs & D1 & _ & D2 & D3).
    assert (X : len bs <= outb c * (n + 1)).
    { pose proof (packs_bits (outb c) (pw ++ [w]) bs ltac:(lia) D2) as X. pose proof (cut_le (done ++ offered (s_vb s))) as Y. rewrite D1, len_app in Y. unfold plain in Y. unfold len at 1 in Y. rewrite map_length in Y. fold (len pw) in Y. change (len [(w, true)]) with 1 in Y. rewrite len_app in X. change (len [w]) with 1 in X. nia. }
    unfold frame_toks in T. rewrite D3 in T. 
    assert (Y : len (ref_encode t (bd c) W [] (concat A)) <= len bs); [|lia].
    rewrite <- app_assoc in T. cbn [app] in T. apply map_Some_None in T. rewrite T. lia.
  - assert (D' : exists pw, done ++ offered (s_vb s) = plain pw /\ P = map Some (wbits (outb c) pw)) by (unfold finished in Hnf; destruct (vo_state (vb_out (s_vb s))); [| |congruence]; destruct D as (pw & X1 & _ & X2); exists pw; auto).
    destruct D' as (pw & D1 & D2). pose proof (bigsum_cap _ _ _ _ _ _ _ _ _ _ Hc Ht I Hnf) as B. apply (f_equal len) in T. rewrite Hft in T. rewrite !len_app in T.
    assert (LP : len P <= outb c * (n + 1)).
    { rewrite D2. unfold len. rewrite map_length. rewrite wbits_length by lia. rewrite D1 in Ho. unfold plain in Ho. unfold len at 1 in Ho. rewrite map_length in Ho. fold (len pw) in Ho. nia. }
    destruct (v_vb _ _ _ _ _ _ _ _ _ _ I) as [_ Vi]. specialize (Vi Hnf).
    assert (LV : len (vb_pend (s_vb s)) <= bufs c + b2z (vi_end (vb_in (s_vb s))) + z_v s).
    { unfold vb_pend. unfold finished in Hnf.
      assert (Ep : match vo_state (vb_out (s_vb s)) with VO_END => [] | _ => vi_pend (vb_in (s_vb s)) end = vi_pend (vb_in (s_vb s))) by (destruct (vo_state (vb_out (s_vb s))); congruence).
      rewrite Ep. unfold vi_pend. rewrite len_app. destruct Vi as (_ & _ & _ & _ & V5 & _). rewrite tk_len by lia. unfold z_v. lia. }
    assert (Hend : b2z (vi_end (vb_in (s_vb s))) <= b2z (len A =? W / ps c * H)).
    { destruct (vi_end (vb_in (s_vb s))) eqn:Ee; [|apply b2z_01]. pose proof (v_len _ _ _ _ _ _ _ _ _ _ I) as Vl. destruct (Z_lt_le_dec (len A) (W / ps c * H)) as [X|X].
      - exfalso. eapply open_frame; [exact I|exact X|left; exact Ee].
      - replace (len A =? W / ps c * H) with true by lia. cbn [b2z]. lia. }
    unfold bigsum, z_q2, z_o, z_k, z_q1, z_h in B. 
    pose proof (len_nonneg (qtok (cf_db c) (cf_cb c) (fifo_q (cfd c) (s_cf s)))). pose proof (b2z_01 (len A =? W / ps c * H)). pose proof (len_nonneg (cv_outtok (s_cv s))). pose proof (len_nonneg (cv_contents c (s_cv s))).
    pose proof (len_nonneg (qtok (lj_db c) (lj_cb c) (fifo_q (ljd c) (s_ljf s)))). pose proof (len_nonneg (htok t hist (latency c))). lia.
Qed.

(* ------------------------------------------------------------------ examples *)

(* a 40x6 frame for the two-samples core: differences of 31, 30 and less; a group in every cycle *)
Definition rate_px (k : nat) : list Z := [2048 + Z.of_nat (k / 2) mod 31 - (if Nat.even (k / 20) then 0 else 1); 2048 - Z.of_nat (k / 2 * 7) mod 15].
Definition rate_in (k : nat) : i3_in := {| in_valid := true; in_px := rate_px (k - 8); in_busy := false; in_w := 40; in_h := 6 |}.
Definition rate_ins : list i3_in := map rate_in (seq 0 128).
Lemma rate_ok c : bd c = 12 -> ps c = 2 -> Forall (in_ok c 40 6) rate_ins.
Proof.
  intros E1 E2. apply Forall_forall. intros i Hi. apply in_map_iff in Hi. destruct Hi as (k & <- & _). intros _. split; [|split; reflexivity]. unfold rate_in, rate_px. cbn [in_px]. set (n := (k - 8)%nat). 
  assert (0 <= Z.of_nat (n / 2) mod 31 < 31) by (apply Z.mod_pos_bound; lia). assert (0 <= Z.of_nat (n / 2 * 7) mod 15 < 15) by (apply Z.mod_pos_bound; lia).
  split; [rewrite E2; reflexivity|]. rewrite E1. constructor; [|constructor; [|constructor]]; unfold in_range; change (2 ^ 12) with 4096; destruct (Nat.even (n / 20)); lia.
Qed.
(* the bound on the code bits, checked by running over a list of groups *)
Fixpoint check_small (t : table) (bd W M : Z) (img : list Z) (gs : list (list Z)) : bool :=
  match gs with [] => true | g :: r => (len (ref_encode t bd W img g) <=? M) && check_small t bd W M (img ++ g) r end.
Lemma check_small_ok c t W M : forall gs, check_small t (bd c) W M [] gs = true -> small_groups c t W M gs.
Proof.
  assert (X : forall gs img, check_small t (bd c) W M img gs = true -> forall A g B, gs = A ++ g :: B -> len (ref_encode t (bd c) W (img ++ concat A) g) <= M).
  { induction gs as [|h gs IH]; intros img E A g B EQ; [destruct A; discriminate|]. cbn [check_small] in E. apply andb_prop in E. destruct E as [E1 E2].
    destruct A as [|a A]; cbn [app] in EQ; injection EQ as -> ->; [cbn [concat]; rewrite app_nil_r; lia|]. cbn [concat]. rewrite app_assoc. apply (IH _ E2 A g B). reflexivity. }
  intros gs E A g B EQ. apply (X gs [] E A g B EQ).
Qed.
Example C80_example :
  frame_ok beta_cfg 40 6 /\ is_reset beta_cfg (i3_init beta_cfg) /\ Forall (in_ok beta_cfg 40 6) rate_ins /\ Forall (fun i => in_valid i = true /\ in_busy i = false) rate_ins /\
  len rate_ins = 8 + 40 * 6 / ps beta_cfg /\ small_groups beta_cfg (std_table 12) 40 16 (map in_px (skipn 8 rate_ins)) /\
  len (i3_accepted beta_cfg (init_huff_table 12) (i3_init beta_cfg) rate_ins) = 120.
Proof.
  split; [repeat split; cbn; lia|]. split; [apply is_reset_init; reflexivity|]. split; [apply rate_ok; reflexivity|].
  split; [apply Forall_forall; intros i Hi; apply in_map_iff in Hi; destruct Hi as (k & <- & _); split; reflexivity|]. split; [reflexivity|].
  split; [apply (check_small_ok beta_cfg); vm_compute; reflexivity|vm_compute; reflexivity].
Qed.

Fixpoint check_smooth (bd W D : Z) (img px : list Z) : bool :=
  match px with [] => true | p :: r => (Z.abs (p - prediction bd W img (len img)) <=? D) && check_smooth bd W D (img ++ [p]) r end.
Lemma check_smooth_ok bd W D px : check_smooth bd W D [] px = true -> smooth bd W D px.
Proof.
  assert (X : forall px img, check_smooth bd W D img px = true -> forall a p b, px = a ++ p :: b -> Z.abs (p - prediction bd W (img ++ a) (len (img ++ a))) <= D).
  { induction px0 as [|h px0 IH]; intros img E a p b EQ; [destruct a; discriminate|]. cbn [check_smooth] in E. apply andb_prop in E. destruct E as [E1 E2].
    destruct a as [|x a]; cbn [app] in EQ; injection EQ as -> ->; [rewrite app_nil_r; lia|]. replace (img ++ x :: a) with ((img ++ [x]) ++ a) by (rewrite <- app_assoc; reflexivity). apply (IH _ E2 a p b). reflexivity. }
  intros E a p b EQ. apply (X px [] E a p b EQ).
Qed.
Example C80_smooth_example : smooth 12 40 31 (concat (on_offer beta_cfg 40 6 rate_ins)) /\ len (on_offer beta_cfg 40 6 rate_ins) = 120.
Proof. split; [apply check_smooth_ok; vm_compute; reflexivity|vm_compute; reflexivity]. Qed.

(* a sink that rests for one cycle after each word, and for twenty cycles in the middle of the frame *)
Fixpoint paced_ins (n k : nat) (s : i3_st) (rest : bool) : list i3_in :=
  match n with
  | O => []
  | S m => let b := rest || ((60 <=? k) && (k <? 80))%nat in
           let i := {| in_valid := true; in_px := [2048 + Z.of_nat (k / 2) mod 2; 2048]; in_busy := b; in_w := 40; in_h := 6 |} in
           i :: paced_ins m (S k) (i3_step beta_cfg (init_huff_table 12) s i) (i3_valid_out s && negb b)
  end.
Definition rate_ins2 : list i3_in := paced_ins 128 0 (i3_init beta_cfg) false.
(* one way to spend the credits *)
Fixpoint check_paced (r Dm D E : Z) (l : list (bool * bool)) : bool :=
  match l with
  | [] => true
  | (v, b) :: l' => if b then if 0 <? D then check_paced r Dm (D - 1) E l' else (0 <? E) && check_paced r Dm D (E - 1) l' else check_paced r Dm (Z.min Dm (D + if v then r else 0)) E l'
  end.
Lemma check_paced_ok r Dm : forall l D E, check_paced r Dm D E l = true -> paced r Dm D E l.
Proof.
  induction l as [|[v b] l IH]; intros D E X; [exact Logic.I|]. cbn [check_paced paced] in *. destruct b; [|apply IH, X].
  destruct (0 <? D) eqn:Y; [left; split; [lia|apply IH, X]|right]. apply andb_prop in X. destruct X as [X1 X2]. split; [lia|apply IH, X2].
Qed.
Example C80_paced_example :
  8 <= conv beta_cfg /\ (1 + 1) * 8 <= outb beta_cfg /\ 3 * 8 + 2 * (outb beta_cfg - 1) + 8 * (1 + 1) <= bufs beta_cfg /\
  bufs beta_cfg + 11 * 8 + 8 * 20 - (outb beta_cfg - 1) < 8 * (cfd beta_cfg - cf_steps beta_cfg) /\
  small_groups beta_cfg (std_table 12) 40 8 (on_offer beta_cfg 40 6 rate_ins2) /\
  paced 1 1 0 20 (sink_log beta_cfg (mem_of 12 (std_table 12)) (i3_init beta_cfg) rate_ins2) /\
  len (filter in_busy rate_ins2) = 61 /\ len (i3_accepted beta_cfg (init_huff_table 12) (i3_init beta_cfg) rate_ins2) = 120.
Proof.
  repeat (split; [vm_compute; first [reflexivity|discriminate]|]). split; [apply (check_small_ok beta_cfg); vm_compute; reflexivity|].
  split; [apply check_paced_ok; vm_compute; reflexivity|]. split; vm_compute; reflexivity.
Qed.

(* larger groups are not all taken at once: noise in a small core *)
Definition rate_ins3 : list i3_in := map (fun k => {| in_valid := true; in_px := [Z.of_nat (k * k * 1237) mod 4096; Z.of_nat (k * k * 739) mod 4096]; in_busy := false; in_w := 40; in_h := 6 |}) (seq 0 128).
Example C80_stall_example :
  len (on_offer ex_cfg 40 6 rate_ins3) = 120 /\ len (i3_accepted ex_cfg (init_huff_table 12) (i3_init ex_cfg) rate_ins3) < 90.
Proof. split; vm_compute; reflexivity. Qed.
