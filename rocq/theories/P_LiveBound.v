(* C18 with an explicit bound: the tokens inside the core are bounded by its capacity, so each token needs a bounded number of cycles *)
From Verif Require P_Normalize.
From Verif Require Import Bits Spec Spec_Core M_Config M_Signals M_Predictor M_Difference M_Encode M_Merge M_I1 M_Fifo M_Converter M_VBits M_I3
  P_Fifo P_Encode P_Merge P_Signals P_Predictor P_I1 P_Tokens P_Converter P_VBits P_I3 P_Decode P_Run P_Live P_Live2 Props_Arith Props_Core Props_Live.
Ltac Zify.zify_post_hook ::= idtac.

(* bits and end marks the core can hold, each counted with the number of stages before it *)
Definition capacity (c : config) : Z :=
  5 * (conv c + 1) + 2 * (cfd c * (conv c + 1)) + 8 * (total_ctr c + 1) + 5 * (ljd c * (total_ctr c + 1)) + 42 * (total_ctr c + 1).

Lemma flat_len {A B} (f : A -> list B) l n b : Forall (fun x => len (f x) <= b) l -> len l <= n -> 0 <= b -> len (flat_map f l) <= n * b.
Proof.
  intros HF Hn Hb. assert (len (flat_map f l) <= len l * b); [|nia]. clear Hn. induction HF as [|x l Hx HF IH]; [cbn; lia|].
  cbn [flat_map]. rewrite len_app. unfold len at 3. cbn [length]. unfold len in *. nia.
Qed.
Lemma fq_length D st : forall n p, length (fq D st p n) = n.
Proof. induction n as [|n IH]; intros p; cbn [fq length]; [reflexivity|]. rewrite IH. reflexivity. Qed.
Lemma fq_len D f : fifo_inv D f -> 1 <= D -> len (fifo_q D f) <= D.
Proof.
  intros (_ & _ & L & _) HD. unfold fifo_q. rewrite len_app. assert (X : len (if ff_rd f then [ff_dout f] else []) <= 1) by (destruct (ff_rd f); cbn; lia).
  assert (Y : len (fq D (ff_stor f) (ff_cons f) (Z.to_nat (ff_lvl f))) = ff_lvl f). { unfold len. rewrite fq_length. lia. } lia.
Qed.
Lemma wok_len db cb x : wok db cb x -> len (wtok db cb x) <= db + 1.
Proof. intros [H _]. unfold wtok. rewrite tk_len by lia. pose proof (b2z_01 (item_end db cb x)). lia. Qed.

Lemma stage_cap c t W H G A P done hist s : cfg_ok c = true -> table_ok (bd c) t -> i3_inv c t W H G A P done hist s -> ~ finished s ->
  0 <= z_v s <= 2 * (conv c + 1) /\ 0 <= z_q2 c s <= cfd c * (conv c + 1) /\ 0 <= z_o s <= conv c + 1 /\ 0 <= z_k c s <= 2 * (total_ctr c + 1) /\
  0 <= z_q1 c s <= ljd c * (total_ctr c + 1) /\ 0 <= z_h c t hist <= 7 * (total_ctr c + 1).
Proof.
  intros Hc Ht I Hnf. assert (0 <= z_v s /\ 0 <= z_q2 c s /\ 0 <= z_o s /\ 0 <= z_k c s /\ 0 <= z_q1 c s /\ 0 <= z_h c t hist) as (N1 & N2 & N3 & N4 & N5 & N6) by (repeat split; apply len_nonneg).
  pose proof (cfg_cv c Hc) as Hcv. unfold cv_ok in Hcv. assert (Hcfd : 1 <= cfd c) by (pose proof (cfg_cfd c Hc); unfold cf_steps in *; pose proof (cv_k_bound c Hcv); unfold cv_k in *; lia).
  assert (Hljd : 25 <= ljd c) by (unfold cfg_ok in Hc; lia).
  assert (Q2 : z_q2 c s <= cfd c * (conv c + 1)).
  { unfold z_q2, qtok. apply flat_len; [|apply fq_len; [exact (v_cff _ _ _ _ _ _ _ _ _ _ I)|lia]|lia]. eapply Forall_impl; [|exact (v_cfw _ _ _ _ _ _ _ _ _ _ I)]. intros x Hx. apply wok_len in Hx. unfold cf_db in *. exact Hx. }
  assert (Q1 : z_q1 c s <= ljd c * (total_ctr c + 1)).
  { unfold z_q1, qtok. apply flat_len; [|apply fq_len; [exact (v_ljf _ _ _ _ _ _ _ _ _ _ I)|lia]|lia]. eapply Forall_impl; [|exact (v_ljw _ _ _ _ _ _ _ _ _ _ I)]. intros x Hx. apply wok_len in Hx. unfold lj_db in *. exact Hx. }
  pose proof (v_cv _ _ _ _ _ _ _ _ _ _ I) as (_ & _ & C3 & C4 & C5).
  assert (Qo : z_o s <= conv c + 1). { unfold z_o, cv_outtok. destruct (cv_valid_in (s_cv s)); [|cbn; lia]. destruct (C4 eq_refl) as [X _]. rewrite tk_len by lia. pose proof (b2z_01 (cv_in_end (s_cv s))). lia. }
  assert (Qk : z_k c s <= 2 * (total_ctr c + 1)).
  { unfold z_k, cv_contents. rewrite len_app. destruct (cv_steps_bound c Hcv) as (B1 & B2 & _).
    assert (X1 : len (match cv_state (s_cv s) with CV_STEPS i => tk (cv_latch (s_cv s)) ((Z.of_nat i + 1) * conv c) (cv_end_latch (s_cv s)) | _ => [] end) <= total_ctr c + 1).
    { destruct (cv_state (s_cv s)) as [| | |i]; try (cbn; lia). specialize (C5 i eq_refl). rewrite tk_len by nia. pose proof (b2z_01 (cv_end_latch (s_cv s))). nia. }
    assert (X2 : len (if cv_valid_reg (s_cv s) then tk (cv_reg (s_cv s)) (cv_ctr_reg (s_cv s)) (cv_end_reg (s_cv s)) else []) <= total_ctr c + 1).
    { destruct (cv_valid_reg (s_cv s)); [|cbn; lia]. destruct (C3 eq_refl) as [X _]. rewrite tk_len by lia. pose proof (b2z_01 (cv_end_reg (s_cv s))). lia. }
    lia. }
  assert (Qv : z_v s <= 2 * (conv c + 1)).
  { pose proof (v_vb _ _ _ _ _ _ _ _ _ _ I) as [_ Vi]. specialize (Vi Hnf). destruct Vi as (_ & _ & _ & _ & _ & _ & V1 & V2 & V3 & _). unfold z_v, vi_items, t_reg, t_buff. set (v := vb_in (s_vb s)) in *.
    pose proof (b2z_01 (vi_end_reg v)). pose proof (b2z_01 (vi_end_buff v)). destruct (vi_state v) eqn:Es.
    all: try (cbn; lia). all: destruct (vi_valid_reg v) eqn:Er; try (destruct (vi_valid_buff v) eqn:Eb); rewrite ?len_app.
    all: try (specialize (V1 ltac:(auto))); try (specialize (V2 eq_refl eq_refl)); try (specialize (V3 eq_refl eq_refl)); unfold iok in *; rewrite ?tk_len by lia; try (change (len (@nil tok)) with 0); try lia. }
  assert (Qh : z_h c t hist <= 7 * (total_ctr c + 1)).
  { unfold z_h, htok. pose proof (latency_bound c Hc) as HL. apply flat_len; [|unfold len; rewrite rev_length, firstn_length; lia|lia]. apply Forall_rev. pose proof (v_hist _ _ _ _ _ _ _ _ _ _ I) as HH. unfold hist_ok in HH.
    apply Forall_forall. intros o Ho. assert (Ho' : In o hist) by (rewrite <- (firstn_skipn (latency c) hist); apply in_app_iff; left; exact Ho). rewrite Forall_forall in HH. specialize (HH o Ho'). destruct o as [[[px pr] e]|]; [|cbn; lia].
    destruct (HH px pr e eq_refl) as [G1 G2]. destruct (pipe_item c t px pr e Hc Ht G1 G2) as (X1 & _ & X3). change (len (tok1 t (Some (px, pr, e))) <= total_ctr c + 1). rewrite <- X3, tk_len by lia. pose proof (b2z_01 e). lia. }
  repeat split; assumption.
Qed.
Lemma bigsum_cap c t W H G A P done hist s : cfg_ok c = true -> table_ok (bd c) t -> i3_inv c t W H G A P done hist s -> ~ finished s ->
  0 <= bigsum c t hist s <= capacity c.
Proof. intros Hc Ht I Hnf. pose proof (stage_cap _ _ _ _ _ _ _ _ _ _ Hc Ht I Hnf). unfold bigsum, capacity. lia. Qed.
(* at most 31 bits per pixel *)
Lemma code_len bd t d : 2 <= bd <= 16 -> table_ok bd t -> Z.abs d < 2 ^ bd -> len (encode_diff t d) <= 31.
Proof.
  intros Hb [Hl HF] Hd. assert (Hcat : 0 <= category d <= bd) by (apply (P_Normalize.category_range bd d); lia). unfold encode_diff. rewrite len_app.
  assert (X : len (extra_bits d) <= 15). { unfold extra_bits. destruct (category d =? 16) eqn:E; [cbn; lia|]. unfold len. rewrite bitsz_length by lia. lia. }
  assert (Y : len (code_bits t (category d)) <= 16).
  { unfold code_bits. destruct (nth_error t (Z.to_nat (category d))) as [[cl cd]|] eqn:E; [|cbn; lia].
    apply nth_error_In in E. rewrite Forall_forall in HF. specialize (HF _ E). cbn [fst snd] in HF. unfold len. rewrite bitsz_length by lia. lia. }
  lia.
Qed.
Lemma ref_len bd t W : 2 <= bd <= 16 -> table_ok bd t -> forall px img, Forall (in_range bd) img -> Forall (in_range bd) px -> len (ref_encode t bd W img px) <= 31 * len px.
Proof.
  intros Hb Ht. induction px as [|p px IH]; intros img Hi Hp; [cbn; lia|]. apply Forall_cons_iff in Hp. destruct Hp as [Hp1 Hp]. cbn [ref_encode]. rewrite len_app.
  assert (Hpr : in_range bd (prediction bd W img (Z.of_nat (length img)))) by (apply prediction_range; [lia|assumption]).
  pose proof (code_len bd t (p - prediction bd W img (Z.of_nat (length img))) Hb Ht ltac:(unfold in_range in *; lia)) as L.
  specialize (IH (img ++ [p]) ltac:(apply Forall_app; split; [assumption|constructor; [assumption|constructor]]) Hp). unfold len in *. cbn [length]. lia.
Qed.

Section bounded.
  Variables (c : config) (t : table) (W H : Z) (s0 : i3_st) (ins : nat -> i3_in) (n0 : nat) (K : Z).
  Hypotheses (Hc : cfg_ok c = true) (Ht : table_ok (bd c) t) (Hf : frame_ok c W H) (Hr : is_reset c s0) (Hin : forall n, acc_ok c W H (i3_run c (mem_of (bd c) t) s0 (upto ins n)) (ins n)).
  Let mem := mem_of (bd c) t.
  Let G := W / ps c.
  Let st n := i3_run c mem s0 (upto ins n).
  Let ac n := i3_accepted c mem s0 (upto ins n).
  Let tr n := i3_transfers c mem s0 (upto ins n).
  Let zn := Z.of_nat.
  Hypothesis busy_fair : forall n, (n0 <= n)%nat -> exists m, (n <= m)%nat /\ zn m < zn n + K /\ in_busy (ins m) = false.
  Hypothesis valid_fair : forall n, (n0 <= n)%nat -> len (concat (ac n)) < W * H -> exists m, (n <= m)%nat /\ zn m < zn n + K /\ in_valid (ins m) = true.
  Let inv n P hist := i3_inv c t W H G (ac n) P (tr n) hist (st n) /\ 0 <= s_nready_ctr (st n) <= 7.
  Let bSt := st_S c t s0 ins.
  Let bAc := ac_S c t s0 ins.
  Let bTr := tr_S c t s0 ins.
  Lemma binv_S n P hist : inv n P hist -> inv (S n) (P ++ vb_emit c (s_vb (st n)) (in_busy (ins n))) (i3_new c G (ac n) (st n) (ins n) :: hist).
  Proof. exact (inv_S c t W H s0 ins Hc Ht Hf Hin n P hist). Qed.

  Lemma bquiet_accept k : forall n P hist, inv n P hist -> ~ finished (st n) -> quiet c hist (st n) -> in_valid (ins (n + k)) = true ->
    exists n' hist', (n <= n')%nat /\ (n' <= n + k)%nat /\ inv n' P hist' /\ ac n' = ac n /\ ~ finished (st n') /\ (pending c (st n') \/ i3_accept (st n') (ins n') = true).
  Proof.
    induction k as [|k IH]; intros n P hist I Hnf Q Hv.
    - exists n, hist. split; [lia|]. split; [lia|]. split; [exact I|]. split; [reflexivity|]. split; [exact Hnf|]. destruct I as [I _]. pose proof (v_len _ _ _ _ _ _ _ _ _ _ I) as L.
      destruct (Z.eq_dec (len (ac n)) (G * H)) as [E|E]; [left; exact (quiet_full _ _ _ _ _ _ _ _ _ _ I Hnf Q E)|right].
      rewrite Nat.add_0_r in Hv. unfold i3_accept, i3_nready. rewrite Hv, (v_ne1 _ _ _ _ _ _ _ _ _ _ I). destruct Q as (_ & _ & _ & -> & _ & _ & _ & _ & _ & _ & _ & ->). replace (G * H <=? len (ac n)) with false by lia. reflexivity.
    - destruct (i3_accept (st n) (ins n)) eqn:Ea; [exists n, hist; split; [lia|]; split; [lia|]; auto 7|]. destruct (pending_dec c (st n)) as [Hp|Hp]; [exists n, hist; split; [lia|]; split; [lia|]; auto 7|].
      pose proof (binv_S n P hist I) as I'. pose proof (notpending_nodec c (st n) (ins n) Hp) as Hd. unfold vb_emit, i3_new in I'. rewrite Hd, Ea, app_nil_r in I'.
      assert (Q' : quiet c (None :: hist) (st (S n))) by (unfold st; rewrite bSt; apply quiet_stable; [exact Hc|exact (v_i1 _ _ _ _ _ _ _ _ _ _ (proj1 I))|exact Q]).
      destruct (IH (S n) P (None :: hist) I') as (n' & hist' & L & L2 & J1 & J2 & J3 & J4); [unfold st; rewrite bSt; apply nodec_not_finished; assumption|exact Q'|rewrite <- Hv; f_equal; f_equal; lia|].
      exists n', hist'. split; [lia|]. split; [lia|]. split; [exact J1|]. split; [rewrite J2; unfold ac; rewrite bAc; fold mem; fold (st n); rewrite Ea, app_nil_r; reflexivity|]. auto.
  Qed.
  Lemma bto_pending M : forall n P hist, (n0 <= n)%nat -> 1 <= K -> inv n P hist -> ~ finished (st n) -> mu c t hist (st n) < Z.of_nat M ->
    exists n' hist', (n <= n')%nat /\ zn n' <= zn n + zn M + K /\ inv n' P hist' /\ ac n' = ac n /\ ~ finished (st n') /\ (pending c (st n') \/ i3_accept (st n') (ins n') = true).
  Proof.
    unfold zn. induction M as [|M IH]; intros n P hist Hn0 HK I Hnf HM.
    - exfalso. pose proof (minor_bound c hist (st n) Hc (proj2 I)). pose proof (bigsum_cap _ _ _ _ _ _ _ _ _ _ Hc Ht (proj1 I) Hnf). unfold mu in HM. lia.
    - destruct (i3_accept (st n) (ins n)) eqn:Ea; [exists n, hist; split; [lia|]; split; [lia|]; auto 7|]. destruct (pending_dec c (st n)) as [Hp|Hp]; [exists n, hist; split; [lia|]; split; [lia|]; auto 7|].
      pose proof (binv_S n P hist I) as I'. pose proof (notpending_nodec c (st n) (ins n) Hp) as Hd. unfold vb_emit, i3_new in I'. rewrite Hd, Ea, app_nil_r in I'.
      assert (Hnf' : ~ finished (st (S n))) by (unfold st; rewrite bSt; apply nodec_not_finished; assumption).
      assert (Ea' : ac (S n) = ac n) by (unfold ac; rewrite bAc; fold mem; fold (st n); rewrite Ea, app_nil_r; reflexivity).
      destruct (pending_dec c (st (S n))) as [Hp'|Hp']; [exists (S n), (None :: hist); split; [lia|]; split; [lia|auto]|].
      destruct (frame_geom c W H Hc Hf) as [Hg HG4].
      assert (LS : quiet c hist (st n) \/ mu c t (None :: hist) (st (S n)) < mu c t hist (st n)).
      { unfold st in Hp' |- *. rewrite bSt in *. exact (live_step c t W H G (ac n) P (tr n) hist (st n) (ins n) Hc Ht Hg HG4 (proj1 I) (proj2 I) Hnf Hp Ea Hp'). }
      destruct LS as [Q|Hmu].
      + pose proof (v_len _ _ _ _ _ _ _ _ _ _ (proj1 I)) as L.
        destruct (Z.eq_dec (len (ac n)) (G * H)) as [E|E]; [elim Hp; exact (quiet_full _ _ _ _ _ _ _ _ _ _ (proj1 I) Hnf Q E)|].
        destruct (ac_pixels c t W H s0 ins Hc Hf n P hist I) as (X1 & X2 & X3). destruct (valid_fair n Hn0) as (m & Hm & Hm2 & Hv); [unfold ac, mem, G in *; rewrite X1, X2; nia|].
        destruct (bquiet_accept (m - n) n P hist I Hnf Q) as (n' & hist' & L1 & L2 & J); [rewrite <- Hv; f_equal; f_equal; lia|]. exists n', hist'. split; [exact L1|]. split; [unfold zn in *; lia|exact J].
      + destruct (IH (S n) P (None :: hist) ltac:(lia) HK I' Hnf' ltac:(lia)) as (n' & hist' & L & L2 & J1 & J2 & J3 & J4). exists n', hist'. split; [lia|]. split; [lia|]. split; [exact J1|]. split; [congruence|auto].
  Qed.

  (* progress within B cycles *)
  Let progress n (P : list tok) (B : Z) : Prop := exists n' P' hist', (n <= n')%nat /\ zn n' <= zn n + B /\ inv n' P' hist' /\
    (finished (st n') \/ (len (ac n) < len (ac n') /\ (length P <= length P')%nat) \/ (ac n' = ac n /\ (length P < length P')%nat)).
  Lemma bemit n P hist : inv n P hist -> ~ finished (st n) -> vo_dec c (vb_out (s_vb (st n))) (vi_consum (vb_in (s_vb (st n)))) (vi_end (vb_in (s_vb (st n)))) (in_busy (ins n)) = true -> progress n P 1.
  Proof.
    intros I Hnf Hd. pose proof (binv_S n P hist I) as I'. eexists (S n), _, _. split; [lia|]. split; [unfold zn; lia|]. split; [exact I'|]. right.
    rewrite app_length. unfold ac. rewrite bAc. fold mem. fold (st n). destruct (i3_accept (st n) (ins n)); [left; rewrite len_app; cbn; lia|right]. rewrite app_nil_r. split; [reflexivity|].
    unfold vb_emit. rewrite Hd. assert (Ho : 1 <= outb c) by (unfold cfg_ok in Hc; lia).
    destruct (vo_fin c (vi_consum (vb_in (s_vb (st n)))) (vi_end (vb_in (s_vb (st n))))).
    - unfold tk. rewrite app_length. cbn. lia.
    - rewrite map_length. assert (Z.of_nat (length (bitsz (outb c) (vo_word c (vi_buffer (vb_in (s_vb (st n)))) (vi_consum (vb_in (s_vb (st n))))))) = outb c) by (apply bitsz_length; lia). lia.
  Qed.
  Lemma blater n P B : ac (S n) = ac n -> progress (S n) P B -> progress n P (B + 1).
  Proof. intros E (n' & P2 & h2 & L & L2 & J1 & J2). exists n', P2, h2. split; [lia|]. split; [unfold zn in *; lia|]. split; [exact J1|]. rewrite E in J2. exact J2. Qed.
  Lemma bmore n P B B' : B <= B' -> progress n P B -> progress n P B'.
  Proof. intros HB (n' & P2 & h2 & L & L2 & J). exists n', P2, h2. split; [exact L|]. split; [lia|exact J]. Qed.
  Lemma baccept n P hist : inv n P hist -> i3_accept (st n) (ins n) = true -> progress n P 1.
  Proof. intros I Ha. pose proof (binv_S n P hist I) as I'. eexists (S n), _, _. split; [lia|]. split; [unfold zn; lia|]. split; [exact I'|]. right. left. rewrite app_length. unfold ac. rewrite bAc. fold mem. fold (st n). rewrite Ha, len_app. cbn. lia. Qed.
  Lemma bpend_out n P hist : inv n P hist -> ~ finished (st n) -> pending c (st n) -> vo_state (vb_out (s_vb (st n))) = VO_OUTPUT -> progress n P 1.
  Proof.
    intros I Hnf Hp Es. apply (bemit n P hist I Hnf). unfold vo_dec. rewrite Es. unfold vo_ge, vo_le. destruct Hp as [Hp|Hp]; [replace (outb c <=? vi_consum (vb_in (s_vb (st n)))) with true by lia; reflexivity|].
    rewrite Hp, andb_true_r. destruct (outb c <=? vi_consum (vb_in (s_vb (st n)))) eqn:E; [reflexivity|]. cbn. lia.
  Qed.
  Lemma bpending k : forall n P hist, inv n P hist -> ~ finished (st n) -> pending c (st n) -> in_busy (ins (n + k)) = false -> progress n P (zn k + 2).
  Proof.
    induction k as [|k IH]; intros n P hist I Hnf Hp Hb.
    all: destruct (i3_accept (st n) (ins n)) eqn:Ea; [apply (bmore n P 1); [unfold zn; lia|]; apply (baccept n P hist I Ea)|].
    all: destruct (vo_state (vb_out (s_vb (st n)))) eqn:Es; [apply (bmore n P 1); [unfold zn; lia|]; apply (bpend_out n P hist I Hnf Hp Es)| |elim Hnf; exact Es].
    all: destruct (vo_dec c (vb_out (s_vb (st n))) (vi_consum (vb_in (s_vb (st n)))) (vi_end (vb_in (s_vb (st n)))) (in_busy (ins n))) eqn:Hd; [apply (bmore n P 1); [unfold zn; lia|]; apply (bemit n P hist I Hnf Hd)|].
    all: pose proof (binv_S n P hist I) as I'; unfold vb_emit in I'; rewrite Hd, app_nil_r in I'.
    all: assert (Ea' : ac (S n) = ac n) by (unfold ac; rewrite bAc; fold mem; fold (st n); rewrite Ea, app_nil_r; reflexivity).
    all: assert (Hnf' : ~ finished (st (S n))) by (unfold st; rewrite bSt; apply nodec_not_finished; assumption).
    all: assert (Hp' : pending c (st (S n))) by (unfold st; rewrite bSt; apply (pending_stable _ _ _ _ _ _ _ _ _ _ _ Hc (proj1 I) Hnf Hp Hd)).
    - rewrite Nat.add_0_r in Hb. apply (blater n P 1 Ea'). eapply bpend_out; [exact I'|exact Hnf'|exact Hp'|].
      unfold st. rewrite bSt, st_vb. unfold vb_step. cbn [vb_out]. unfold vo_step. fold mem. fold (st n). rewrite Hd, Es, Hb. reflexivity.
    - replace (zn (S k) + 2) with (zn k + 2 + 1) by (unfold zn; lia). apply (blater n P _ Ea'). eapply IH; [exact I'|exact Hnf'|exact Hp'|]. rewrite <- Hb. f_equal. f_equal. lia.
  Qed.
  Let D := 100000 * capacity c + 50000 + 2 * K + 3.
  Lemma balways n P hist : (n0 <= n)%nat -> 1 <= K -> inv n P hist -> ~ finished (st n) -> progress n P D.
  Proof.
    intros Hn0 HK I Hnf. pose proof (minor_bound c hist (st n) Hc (proj2 I)) as MB. pose proof (bigsum_cap _ _ _ _ _ _ _ _ _ _ Hc Ht (proj1 I) Hnf) as BC.
    assert (Hmu : 0 <= mu c t hist (st n) < 100000 * capacity c + 50000) by (unfold mu; lia).
    destruct (bto_pending (S (Z.to_nat (mu c t hist (st n)))) n P hist Hn0 HK I Hnf ltac:(lia)) as (n' & hist' & L & L2 & J1 & J2 & J3 & J4).
    assert (X : progress n' P (K + 1)).
    { destruct J4 as [J4|J4]; [|apply (bmore n' P 1); [lia|]; exact (baccept n' P hist' J1 J4)]. destruct (busy_fair n' ltac:(lia)) as (m & Hm & Hm2 & Hb).
      apply (bmore n' P (zn (m - n') + 2)); [unfold zn in *; lia|]. apply (bpending (m - n') n' P hist' J1 J3 J4). rewrite <- Hb. f_equal. f_equal. lia. }
    destruct X as (n2 & P2 & h2 & L3 & L4 & K1 & K2). exists n2, P2, h2. split; [lia|]. split; [unfold D, zn in *; lia|]. split; [exact K1|]. rewrite J2 in K2. exact K2.
  Qed.
  Let T := 31 * (W * H) + 1.
  Lemma bP_le n P hist : inv n P hist -> zn (length P) <= T.
  Proof.
    intros I. pose proof (P_le c t W H s0 ins n P hist I) as L. destruct (ac_pixels c t W H s0 ins Hc Hf n P hist I) as (X1 & X2 & X3). destruct I as [I _]. destruct (inv_pixels _ _ _ _ _ _ _ _ _ _ I) as [XF _]. pose proof (v_len _ _ _ _ _ _ _ _ _ _ I) as VL.
    pose proof (ref_len (bd c) t W ltac:(unfold cfg_ok in Hc; lia) Ht (concat (ac n)) [] (Forall_nil _) XF) as R. unfold frame_toks in L. rewrite app_length, map_length in L.
    assert (E1 : (length (if (len (i3_accepted c (mem_of (bd c) t) s0 (upto ins n)) =? W / ps c * H)%Z then [@None bool] else []) <= 1)%nat) by (destruct (_ =? _); cbn; lia).
    unfold T, zn. unfold ac, mem, G in *. unfold len in R at 1. assert (len (concat (i3_accepted c (mem_of (bd c) t) s0 (upto ins n))) <= W * H) by (rewrite X1, X2; nia). lia.
  Qed.
  Lemma breaches : forall a n P hist, (n0 <= n)%nat -> 1 <= K -> inv n P hist -> G * H - len (ac n) + (T - zn (length P)) <= zn a -> exists n', (n <= n')%nat /\ zn n' <= zn n + zn a * D /\ finished (st n').
  Proof.
    assert (HD : 1 <= K -> 0 <= D). { intros HK. unfold D, capacity. pose proof (cfg_cv c Hc) as Hcv. unfold cv_ok in Hcv. pose proof (cfg_cfd c Hc). unfold cf_steps in *. pose proof (cv_k_bound c Hcv). unfold cv_k in *. assert (25 <= ljd c) by (unfold cfg_ok in Hc; lia). nia. }
    unfold zn. induction a as [a IH] using lt_wf_ind. intros n P hist Hn0 HK I La. specialize (HD HK).
    destruct (finished_dec (st n)) as [Hfin|Hnf]; [exists n; split; [lia|]; split; [nia|exact Hfin]|].
    pose proof (v_len _ _ _ _ _ _ _ _ _ _ (proj1 I)) as VL. pose proof (bP_le n P hist I) as PL. unfold zn in PL.
    destruct (balways n P hist Hn0 HK I Hnf) as (n' & P' & hist' & L & L2 & I' & J). unfold zn in L2. pose proof (v_len _ _ _ _ _ _ _ _ _ _ (proj1 I')) as VL'. pose proof (bP_le n' P' hist' I') as PL'. unfold zn in PL'.
    assert (Hstep : finished (st n') \/ G * H - len (ac n') + (T - zn (length P')) < G * H - len (ac n) + (T - zn (length P))).
    { unfold zn. destruct J as [J|[[J1 J2]|[J1 J2]]]; [left; exact J|right; lia|right; rewrite J1; lia]. }
    unfold zn in Hstep. destruct Hstep as [Hfin|Hstep].
    - exists n'. split; [exact L|]. split; [|exact Hfin]. destruct (Nat.eq_dec a 0) as [->|]; [|nia]. exfalso. pose proof (bP_le n P hist I). destruct J as [J|[[J1 J2]|[J1 J2]]]; try (unfold zn in *; lia).
      pose proof (v_end _ _ _ _ _ _ _ _ _ _ (proj1 I') Hfin) as (p & ->). (* everything was out already *)
      pose proof (P_le c t W H s0 ins n P hist I) as PL1. pose proof (v_tok _ _ _ _ _ _ _ _ _ _ (proj1 I)) as TK.
      assert (len (ac n) = G * H /\ Z.of_nat (length P) = T) as [E1 E2] by lia.
      pose proof (v_done _ _ _ _ _ _ _ _ _ _ (proj1 I)) as DN. unfold vb_done in DN. unfold finished in Hnf.
      assert (DP : exists bs, P = map Some bs) by (destruct (vo_state (vb_out (s_vb (st n)))); [| |congruence]; destruct DN as (pw & _ & _ & ->); eexists; reflexivity). destruct DP as [bs ->].
      unfold frame_toks in TK. apply (f_equal (fun l => length l)) in TK as TL. rewrite !app_length, !map_length in TL. rewrite E1, Z.eqb_refl in TK, TL. cbn [length] in TL.
      destruct (inv_pixels _ _ _ _ _ _ _ _ _ _ (proj1 I)) as [XF _]. pose proof (ref_len (bd c) t W ltac:(unfold cfg_ok in Hc; lia) Ht (concat (ac n)) [] (Forall_nil _) XF) as R. destruct (ac_pixels c t W H s0 ins Hc Hf n _ hist I) as (X1 & X2 & X3).
      assert (X1' : len (concat (ac n)) = len (ac n) * ps c) by exact X1. assert (X2' : W * H = G * H * ps c) by exact X2. rewrite map_length in E2. assert (LB : Z.of_nat (length bs) <= 31 * (W * H)).
      { assert (LL : (length bs <= length (ref_encode t (bd c) W [] (concat (ac n))))%nat). 
        { assert (HP2 : exists tl, map Some bs ++ tl = map Some (ref_encode t (bd c) W [] (concat (ac n))) ++ [None]) by (eexists; exact TK). destruct HP2 as [tl HP2]. clear - HP2.
          revert HP2. generalize (ref_encode t (bd c) W [] (concat (ac n))) as l. induction bs as [|b bs IHb]; intros l HP2; [cbn; lia|]. destruct l as [|b' l]; [cbn in HP2; discriminate|]. cbn [map app] in HP2. injection HP2 as _ HP2. specialize (IHb l HP2). cbn [length]. lia. }
        unfold len in R at 1. rewrite X1', E1 in R. lia. }
      unfold T in E2. lia.
    - destruct (Nat.eq_dec a 0) as [->|Ha]; [exfalso; lia|].
      destruct (IH (a - 1)%nat ltac:(lia) n' P' hist' ltac:(lia) HK I' ltac:(lia)) as (n2 & L3 & L4 & F). exists n2. split; [lia|]. split; [|exact F]. nia.
  Qed.
  Lemma blive : 1 <= K -> exists n, (n0 <= n)%nat /\ zn n <= zn n0 + (32 * (W * H) + 1) * D + K /\ existsb snd (tr n) = true.
  Proof.
    intros HK. destruct (inv_exists c t W H s0 ins Hc Ht Hf Hr Hin n0) as (P & hist & I). assert (I0 : inv n0 P hist) by exact I.
    pose proof (v_len _ _ _ _ _ _ _ _ _ _ (proj1 I0)) as VL. pose proof (bP_le n0 P hist I0) as PL. destruct (ac_pixels c t W H s0 ins Hc Hf n0 P hist I) as (X1 & X2 & X3). assert (X2' : W * H = G * H * ps c) by exact X2.
    assert (HGH : 0 <= G * H) by (pose proof (len_nonneg (ac n0)); lia). assert (HD : 0 <= D). { unfold D, capacity. pose proof (cfg_cv c Hc) as Hcv. unfold cv_ok in Hcv. pose proof (cfg_cfd c Hc). unfold cf_steps in *. pose proof (cv_k_bound c Hcv). unfold cv_k in *. assert (25 <= ljd c) by (unfold cfg_ok in Hc; lia). nia. }
    destruct (breaches (Z.to_nat (32 * (W * H) + 1)) n0 P hist (le_n _) HK I0) as (n & L1 & L2 & Hn).
    { pose proof (len_nonneg (ac n0)). unfold T, zn in *. rewrite Z2Nat.id by nia. nia. }
    unfold zn in L2. rewrite Z2Nat.id in L2 by nia.
    destruct (busy_fair n ltac:(lia)) as (m & Hm & Hm2 & Hb). unfold zn in Hm2. exists (S m). split; [lia|]. split; [unfold zn; lia|]. unfold tr. rewrite bTr, existsb_app. fold mem. fold (st m). destruct (inv_exists c t W H s0 ins Hc Ht Hf Hr Hin m) as (P2 & h2 & I2 & _).
    pose proof (finished_stays c t s0 ins n Hn (m - n)) as Fm. replace (n + (m - n))%nat with m in Fm by lia. destruct (v_vb _ _ _ _ _ _ _ _ _ _ I2) as [Vo _]. unfold vo_inv in Vo. unfold finished in Fm. rewrite Fm in Vo. destruct Vo as [V1 V2].
    unfold transferred. unfold st, mem. rewrite V1, V2, Hb. cbn. apply orb_true_r.
  Qed.
End bounded.
