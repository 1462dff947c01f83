(* C52: the full AXI design, beta_integration_fullaxi.py. *)
From Verif Require Import Bits Spec Spec_Core Spec_Beta M_Config M_Encode M_I1 M_Fifo M_I3 M_Fix M_Markers M_Beta
  P_Encode P_Tokens P_I3 P_Decode P_Run P_Live P_Fix P_Markers Props_Arith Props_Core Props_Frame P_Pack P_Beta Props_Beta
  M_Predictor M_Width Props_Width M_SyncFifo Props_B32 M_AxiHP Props_AxiHP Props_AxiHP2 M_AxiLite Spec_Axi P_AxiLite Props_Axi Props_Dma M_Top Props_Top M_FullAxi.
Ltac Zify.zify_post_hook ::= idtac.

(* ---------- the run without resets, component by component ---------- *)

Section Run.
Variable R : rf_st.
Fixpoint fn_run (s : fa_st) (l : list fa_in) : fa_st := match l with [] => s | i :: r => fn_run (fa_next R s i) r end.
Fixpoint fn_events (s : fa_st) (l : list fa_in) : fa_ev :=
  match l with [] => ev0 | i :: r => ev_app (fa_event s i) (fn_events (fa_next R s i) r) end.
Fixpoint fn_p64 (s : fa_st) (l : list fa_in) : list pk_in := match l with [] => [] | i :: r => fa_p64_in s :: fn_p64 (fa_next R s i) r end.
Fixpoint fn_b32 (s : fa_st) (l : list fa_in) : list b32_in := match l with [] => [] | i :: r => fa_b32_in s :: fn_b32 (fa_next R s i) r end.
Fixpoint fn_rs (s : fa_st) (l : list fa_in) : list rs_in := match l with [] => [] | i :: r => fa_rs_in s i :: fn_rs (fa_next R s i) r end.
Fixpoint fn_ws (s : fa_st) (l : list fa_in) : list ws_in := match l with [] => [] | i :: r => fa_ws_in s i :: fn_ws (fa_next R s i) r end.

Lemma fn_run_app l1 l2 s : fn_run s (l1 ++ l2) = fn_run (fn_run s l1) l2.
Proof. revert s. induction l1 as [|i l1 IH]; intros s; [reflexivity|]. cbn [app fn_run]. apply IH. Qed.
Lemma ev_app_assoc a b c : ev_app a (ev_app b c) = ev_app (ev_app a b) c.
Proof. unfold ev_app. cbn. rewrite !app_assoc. reflexivity. Qed.
Lemma ev_app_0_l a : ev_app ev0 a = a.
Proof. destruct a. reflexivity. Qed.
Lemma ev_app_0_r a : ev_app a ev0 = a.
Proof. destruct a. unfold ev_app. cbn. rewrite !app_nil_r. reflexivity. Qed.
Lemma fn_events_app l1 l2 s : fn_events s (l1 ++ l2) = ev_app (fn_events s l1) (fn_events (fn_run s l1) l2).
Proof. revert s. induction l1 as [|i l1 IH]; intros s; cbn [app fn_events fn_run]; [rewrite ev_app_0_l; reflexivity|]. rewrite IH, ev_app_assoc. reflexivity. Qed.

Lemma fn_p64_run l s : fa_p64 (fn_run s l) = p64_run (fa_p64 s) (fn_p64 s l).
Proof. revert s. induction l as [|i l IH]; intros s; [reflexivity|]. cbn [fn_run fn_p64 p64_run]. rewrite IH. reflexivity. Qed.
Lemma fn_p64_app l1 l2 s : fn_p64 s (l1 ++ l2) = fn_p64 s l1 ++ fn_p64 (fn_run s l1) l2.
Proof. revert s. induction l1 as [|i l1 IH]; intros s; [reflexivity|]. cbn [app fn_run fn_p64]. rewrite IH. reflexivity. Qed.

Lemma fn_accepted l s : p64_accepted (fa_p64 s) (fn_p64 s l) = map (fun x => trunc 16 (fst x)) (ev_gave (fn_events s l)).
Proof.
  revert s. induction l as [|i l IH]; intros s; [reflexivity|]. cbn [fn_p64 p64_accepted fn_events ev_app ev_gave].
  rewrite map_app, <- IH. change (fa_p64 (fa_next R s i)) with (p64_step (fa_p64 s) (fa_p64_in s)). f_equal.
  unfold p64_acc, fa_event, bt_gave, fa_p64_in. cbn [ev_gave pi_valid pi_data]. cbn [fa_bt_in M_Beta.bi_busy].
  destruct (mko_valid (bt_out (fa_bt s) (fa_bt_in s)) && negb (p64_busy (fa_p64 s))); reflexivity.
Qed.
Lemma fn_pushed l s : ws_pushed (fa_ws s) (fn_ws s l) = p64_delivered (fa_p64 s) (fn_p64 s l).
Proof.
  revert s. induction l as [|i l IH]; intros s; [reflexivity|]. cbn [fn_p64 fn_ws p64_delivered ws_pushed]. specialize (IH (fa_next R s i)).
  change (fa_p64 (fa_next R s i)) with (p64_step (fa_p64 s) (fa_p64_in s)) in IH.
  change (fa_ws (fa_next R s i)) with (ws_step true (fa_ws s) (fa_ws_in s i)) in IH. rewrite IH. f_equal.
  unfold p64_del, fa_p64_in, fa_ws_in. cbn [wsi_push wsi_data pi_busy]. rewrite negb_involutive. reflexivity.
Qed.
Lemma fn_wbeats l s : ws_beats true (fa_ws s) (fn_ws s l) = ev_wbeats (fn_events s l).
Proof.
  revert s. induction l as [|i l IH]; intros s; [reflexivity|]. cbn [fn_ws ws_beats fn_events ev_app ev_wbeats]. specialize (IH (fa_next R s i)).
  change (fa_ws (fa_next R s i)) with (ws_step true (fa_ws s) (fa_ws_in s i)) in IH. rewrite IH. reflexivity.
Qed.
Lemma fn_rbeats l s : rs_beats true (fa_rs s) (fn_rs s l) = ev_rbeats (fn_events s l).
Proof.
  revert s. induction l as [|i l IH]; intros s; [reflexivity|]. cbn [fn_rs rs_beats fn_events ev_app ev_rbeats]. specialize (IH (fa_next R s i)).
  change (fa_rs (fa_next R s i)) with (rs_step true (fa_rs s) (fa_rs_in s i)) in IH. rewrite IH. reflexivity.
Qed.
Lemma fn_waddrs l s : ws_addrs true (fa_ws s) (fn_ws s l) = ev_waddrs (fn_events s l).
Proof.
  revert s. induction l as [|i l IH]; intros s; [reflexivity|]. cbn [fn_ws ws_addrs fn_events ev_app ev_waddrs]. specialize (IH (fa_next R s i)).
  change (fa_ws (fa_next R s i)) with (ws_step true (fa_ws s) (fa_ws_in s i)) in IH. rewrite IH. reflexivity.
Qed.
Lemma fn_raddrs l s : rs_addrs true (fa_rs s) (fn_rs s l) = ev_raddrs (fn_events s l).
Proof.
  revert s. induction l as [|i l IH]; intros s; [reflexivity|]. cbn [fn_rs rs_addrs fn_events ev_app ev_raddrs]. specialize (IH (fa_next R s i)).
  change (fa_rs (fa_next R s i)) with (rs_step true (fa_rs s) (fa_rs_in s i)) in IH. rewrite IH. reflexivity.
Qed.
Lemma fn_popped l s : rs_out true (fa_rs s) (fn_rs s l) = b32_accepted (fa_b32 s) (fn_b32 s l).
Proof.
  revert s. induction l as [|i l IH]; intros s; [reflexivity|]. cbn [fn_rs rs_out fn_b32 b32_accepted]. specialize (IH (fa_next R s i)).
  change (fa_rs (fa_next R s i)) with (rs_step true (fa_rs s) (fa_rs_in s i)) in IH.
  change (fa_b32 (fa_next R s i)) with (b32_step (fa_b32 s) (fa_b32_in s)) in IH. rewrite IH. f_equal.
  unfold b32_acc, fa_b32_in, fa_rs_in. cbn [rsi_pop M_SyncFifo.bi_valid bi_data]. rewrite andb_comm. reflexivity.
Qed.
Lemma fn_took l s : map fa_px (b32_delivered (fa_b32 s) (fn_b32 s l)) = ev_took (fn_events s l).
Proof.
  revert s. induction l as [|i l IH]; intros s; [reflexivity|]. cbn [fn_b32 b32_delivered fn_events ev_app ev_took]. specialize (IH (fa_next R s i)).
  change (fa_b32 (fa_next R s i)) with (b32_step (fa_b32 s) (fa_b32_in s)) in IH. rewrite map_app, IH. f_equal.
  unfold b32_del, fa_b32_in, fa_event, bt_took, bt_accept, fa_bt_in. cbn [ev_took M_SyncFifo.bi_busy M_Beta.bi_valid bi_px].
  destruct (b32_valid (fa_b32 s) && negb (bt_nready (fa_bt s))); reflexivity.
Qed.
End Run.

(* ---------- frames ---------- *)

(* RAM sizes *)
Definition fa_lens (s : fa_st) : Prop :=
  len (sf_stor (b32_f64 (fa_b32 s))) = 2 /\ len (sf_stor (b32_f32 (fa_b32 s))) = 4 /\
  len (sf_stor (rs_f (fa_rs s))) = 32 /\ len (sf_stor (ws_f (fa_ws s))) = 32.
(* the state after a reset: everything but RAM contents and the register file has its power-on value *)
Definition fa_fresh (s : fa_st) : Prop :=
  (exists i3, fa_bt s = bt_reset_with i3) /\
  (exists st64 st32, len st64 = 2 /\ len st32 = 4 /\ fa_b32 s = b32_init st64 st32) /\
  fa_p64 s = p64_init /\
  (exists str, len str = 32 /\ fa_rs s = rs_init str) /\
  (exists stw, len stw = 32 /\ fa_ws s = ws_init stw) /\
  fa_dl s = dl_init.

Lemma sf_step_len D s we din re : len (sf_stor (sf_step D s we din re)) = len (sf_stor s).
Proof. unfold sf_step. cbn [sf_stor]. destruct (sf_writable D s && we); [|reflexivity]. unfold len. rewrite P_Fifo.upd_length. reflexivity. Qed.
Lemma fa_next_lens R s i : fa_lens s -> fa_lens (fa_next R s i).
Proof.
  unfold fa_lens, fa_next. cbn [fa_b32 fa_rs fa_ws]. unfold b32_step, rs_step, ws_step, af_step. cbn [b32_f64 b32_f32 rs_f ws_f]. rewrite !sf_step_len. auto.
Qed.
Lemma fa_keep_lens s : fa_lens s -> fa_lens (fa_keep_reset s).
Proof. unfold fa_lens. auto. Qed.
Lemma fa_step_lens R s i : fa_lens s -> fa_lens (fa_step R s i).
Proof. intros H. unfold fa_step. destruct (b_rst (fa_bt s)); [apply fa_keep_lens|]; apply fa_next_lens, H. Qed.
Lemma fa_fresh_lens s : fa_fresh s -> fa_lens s.
Proof. intros (_ & (a & b & Ha & Hb & E) & _ & (c & Hc & E2) & (d & Hd & E3) & _). unfold fa_lens. rewrite E, E2, E3. auto. Qed.
Lemma fa_reset_fresh R s i : fa_lens s -> b_rst (fa_bt s) = true -> fa_fresh (fa_step R s i).
Proof.
  intros H Hr. pose proof (fa_next_lens R s i H) as (H1 & H2 & H3 & H4). unfold fa_step. rewrite Hr. unfold fa_fresh, fa_keep_reset. cbn [fa_bt fa_b32 fa_p64 fa_rs fa_ws fa_dl].
  refine (conj _ (conj _ (conj eq_refl (conj _ (conj _ eq_refl))))).
  - unfold fa_next. cbn [fa_bt]. unfold bt_step. rewrite Hr. eexists. reflexivity.
  - eexists _, _. split; [exact H1|]. split; [exact H2|]. reflexivity.
  - eexists. split; [exact H3|]. reflexivity.
  - eexists. split; [exact H4|]. reflexivity.
Qed.
Lemma fa_init_fresh : fa_fresh fa_init.
Proof.
  unfold fa_fresh. refine (conj _ (conj _ (conj eq_refl (conj _ (conj _ eq_refl))))).
  - exists (i3_init beta_cfg). reflexivity.
  - exists (repeat 0 2), (repeat 0 4). repeat split.
  - exists (repeat 0 32). split; reflexivity.
  - exists (repeat 0 32). split; reflexivity.
Qed.

(* no reset is pending before any of the cycles of l *)
Definition quiet (R : rf_st) (s : fa_st) (l : list fa_in) : Prop := forall l1 l2, l = l1 ++ l2 -> l2 <> [] -> b_rst (fa_bt (fn_run R s l1)) = false.
Lemma quiet_snoc R s l i : quiet R s l -> b_rst (fa_bt (fn_run R s l)) = false -> quiet R s (l ++ [i]).
Proof.
  intros Q H l1 l2 E N. destruct (exists_last N) as (l2' & x & ->). rewrite app_assoc in E. apply app_inj_tail in E. destruct E as [E _].
  destruct l2' as [|y l2']; [rewrite app_nil_r in E; subst l1; exact H|]. apply (Q l1 (y :: l2')); [exact E|discriminate].
Qed.

(* every frame of the log comes from a fresh state, and its last cycle is the one with the reset pending *)
Lemma fa_log_frames R : forall l s0 pre k e, fa_fresh s0 -> quiet R s0 pre ->
  nth_error (fa_log R (fn_events R s0 pre) (fn_run R s0 pre) l) k = Some e ->
  exists s1 seg, fa_fresh s1 /\ e = fn_events R s1 seg /\
    ((S k < length (fa_log R (fn_events R s0 pre) (fn_run R s0 pre) l))%nat ->
      exists pre' i, seg = pre' ++ [i] /\ quiet R s1 pre' /\ b_rst (fa_bt (fn_run R s1 pre')) = true).
Proof.
  induction l as [|i l IH]; intros s0 pre k e HF HQ HN; cbn [fa_log] in *.
  - destruct k as [|[|k]]; try discriminate. injection HN as <-. exists s0, pre. split; [exact HF|]. split; [reflexivity|]. cbn. lia.
  - destruct (b_rst (fa_bt (fn_run R s0 pre))) eqn:Hr.
    + assert (HL : fa_lens (fn_run R s0 pre)).
      { clear - HF. apply fa_fresh_lens in HF. revert s0 HF. induction pre as [|j pre IH]; intros s0 H; [exact H|]. cbn [fn_run]. apply IH, fa_next_lens, H. }
      destruct k as [|k].
      * injection HN as <-. exists s0, (pre ++ [i]). split; [exact HF|]. split; [rewrite fn_events_app; cbn [fn_events]; rewrite ev_app_0_r; reflexivity|].
        intros _. exists pre, i. auto.
      * cbn [nth_error] in HN. destruct (IH (fa_step R (fn_run R s0 pre) i) [] k e) as (s1 & seg & A & B & C).
        { apply fa_reset_fresh; assumption. }
        { intros l1 l2 E N. destruct l1, l2; try discriminate. contradiction. }
        { exact HN. }
        exists s1, seg. split; [exact A|]. split; [exact B|]. intros L. apply C. cbn [length] in L. cbn [fn_events fn_run]. lia.
    + assert (E1 : ev_app (fn_events R s0 pre) (fa_event (fn_run R s0 pre) i) = fn_events R s0 (pre ++ [i])) by (rewrite fn_events_app; cbn [fn_events]; rewrite ev_app_0_r; reflexivity).
      assert (E2 : fa_step R (fn_run R s0 pre) i = fn_run R s0 (pre ++ [i])) by (rewrite fn_run_app; unfold fa_step; rewrite Hr; reflexivity).
      rewrite E1, E2 in *. apply (IH s0 (pre ++ [i]) k e HF); [apply quiet_snoc; assumption|exact HN].
Qed.

(* ---------- words are 16 bits wide ---------- *)
Definition f2_words (s : f2_st) : Prop := word_ok (f2_dout s) /\ word_ok (f2_dreg s).
Lemma slice_word lo d : 0 <= lo -> word_ok (slice lo (lo + 16) d).
Proof. intros H. pose proof (slice_range lo (lo + 16) d ltac:(lia)) as X. replace (lo + 16 - lo) with 16 in X by lia. exact X. Qed.
Lemma nl_words s i w : nl_data (normal_logic s i) = Some w -> word_ok w.
Proof.
  assert (K : forall cnt buf d n w, nl_data (nl_switch cnt buf d n) = Some w -> word_ok w).
  { clear. intros cnt buf d n w. unfold nl_switch.
    assert (B : forall lo x, 0 <= lo -> 0 <= slice lo (lo + 8) x < 2 ^ 8) by (intros lo x H; pose proof (slice_range lo (lo + 8) x ltac:(lia)) as X; replace (lo + 8 - lo) with 8 in X by lia; exact X).
    destruct (cnt =? 0); [|destruct (cnt =? 1)]; destruct (n =? 2), (n =? 3), (n =? 4); cbn; intros E; try discriminate; injection E as <-;
      first [apply (slice_word 0); lia|apply (slice_word 8); lia|apply (slice_word 16); lia|apply cat_word; [apply (B 0); lia|first [apply (B 8); lia|apply (B 16); lia|apply (B 24); lia]]]. }
  unfold normal_logic. destruct (f2i_valid i); [|discriminate]. destruct (f2i_end i); [destruct ((f2_cnt s =? 0) && (f2i_ctr i =? 2))|]; cbn [nl_data]; apply K.
Qed.
Lemma f2_step_words s i : f2_words s -> f2_words (f2_step s i).
Proof.
  intros [H1 H2]. unfold f2_step. destruct (f2_fsm_st s).
  - unfold f2_normal. assert (K : forall x, word_ok x -> word_ok (oget (nl_data (normal_logic s i)) x)).
    { intros x Hx. destruct (nl_data (normal_logic s i)) as [w|] eqn:E; [apply nl_words in E; exact E|exact Hx]. }
    destruct (f2i_busy i), (f2_dval s), (f2_vout s), (f2_obusy s), (f2i_valid i); cbn [negb andb orb]; unfold f2_words; cbn [f2_dout f2_dreg]; auto.
  - destruct (f2i_busy i); cbn [negb]; [split; assumption|]. destruct (f2_dval s); cbn [negb]; [split; assumption|]. unfold f2_clean, f2_words. cbn [f2_dout f2_dreg]. split; [|exact H2].
    destruct (f2_cnt s =? 1).
    + pose proof (slice_range 0 8 (f2_buf s) ltac:(lia)) as X. change (8 - 0) with 8 in X. unfold word_ok. change (2 ^ 8) with 256 in *. change (2 ^ 16) with 65536. lia.
    + destruct (f2_cnt s =? 2); [apply (slice_word 0); lia|]. destruct (f2_cnt s =? 3); [apply (slice_word 8); lia|exact H1].
  - destruct (f2i_busy i); cbn [negb]; [split; assumption|]. destruct (f2_dval s); split; assumption.
  - split; assumption.
Qed.
Lemma bt_step_words c mem s i : f2_words (b_f2 s) -> f2_words (b_f2 (bt_step c mem s i)).
Proof.
  intros H. unfold bt_step. destruct (b_rst s); [split; unfold word_ok; cbn; lia|]. unfold bt_next. cbn [b_f2 snd]. apply f2_step_words. exact H.
Qed.
Lemma bt_gave_words s i : f2_words (b_f2 s) -> Forall (fun x => word_ok (fst x)) (bt_gave s i).
Proof.
  intros [H _]. unfold bt_gave. destruct (mko_valid (bt_out s i) && negb (M_Beta.bi_busy i)); constructor; [|constructor]. cbn [fst].
  unfold bt_out, mk_comb, bt_mk_in. destruct (mk_fsm_st (b_mk s)); cbn [mki_busy mki_force mki_data];
    repeat match goal with |- context [if ?b then _ else _] => destruct b end; cbn [mko_data]; try exact H; unfold word_ok; lia.
Qed.
Lemma fn_gave_words R l s : f2_words (b_f2 (fa_bt s)) -> Forall (fun x => word_ok (fst x)) (ev_gave (fn_events R s l)).
Proof.
  revert s. induction l as [|i l IH]; intros s H; [constructor|]. cbn [fn_events ev_app ev_gave]. apply Forall_app. split; [apply bt_gave_words, H|].
  apply IH. cbn [fa_next fa_bt]. apply bt_step_words, H.
Qed.
Lemma fresh_words s : fa_fresh s -> f2_words (b_f2 (fa_bt s)).
Proof. intros [[i3 E] _]. rewrite E. split; unfold word_ok; cbn; lia. Qed.
Lemma words_trunc l : Forall (fun x => word_ok (fst x)) l -> map (fun x : Z * bool => trunc 16 (fst x)) l = map fst l.
Proof. induction 1 as [|x l Hx Hl IH]; [reflexivity|]. cbn [map]. rewrite IH. unfold trunc. rewrite Z.mod_small by exact Hx. reflexivity. Qed.

(* ---------- what reaches the writer FIFO of a finished frame ---------- *)

Lemma p64_two A D s i i' : p64_inv A D s -> exists r, pack4 A = D ++ p64_del s i ++ p64_del (p64_step s i) i' ++ r.
Proof.
  intros I. destruct (p64_inv_pack _ _ _ I) as [E _]. destruct I as (A4 & part & _ & _ & _ & _ & Hv & _ & Hs). rewrite E.
  destruct s as [side pos b1 v1 b2 v2 chs data valid busy rend ctr en]. unfold p64_held, p64_buf, p64_v, p64_del, p64_step in *. cbn in *.
  destruct valid.
  - destruct (Hv eq_refl) as [K1 K2]. rewrite K1 in *. rewrite K2. destruct (pi_busy i); cbn [negb andb].
    + destruct v1, v2, chs; cbn in *; try discriminate; try contradiction; destruct (pi_busy i'); cbn; eexists; rewrite <- ?app_assoc; cbn; reflexivity.
    + rewrite andb_false_r. cbn. eexists. reflexivity.
  - cbn [andb]. rewrite andb_true_r. destruct v1, v2, chs; cbn in *; try contradiction; destruct (pi_busy i'); cbn; eexists; rewrite <- ?app_assoc; cbn; reflexivity.
Qed.
Lemma pack4_prefix a b : exists r, pack4 (a ++ b) = pack4 a ++ r.
Proof.
  induction a as [l Hl|x y z w l IH] using list4_ind; [rewrite (pack4_short l) by exact Hl; eexists; reflexivity|].
  destruct IH as [r IH]. exists r. cbn [app pack4]. rewrite IH. reflexivity.
Qed.
Lemma pack4_length l : (4 * length (pack4 l) <= length l)%nat.
Proof. induction l as [l Hl|x y z w l IH] using list4_ind; [rewrite pack4_short by exact Hl; cbn; lia|cbn [pack4 length]; lia]. Qed.

Lemma fn_p64_in16 R l s : Forall in16 (fn_p64 R s l).
Proof. revert s. induction l as [|i l IH]; intros s; [constructor|]. cbn [fn_p64]. constructor; [|apply IH]. unfold in16, fa_p64_in. cbn [pi_data]. unfold trunc. apply Z.mod_pos_bound. reflexivity. Qed.

(* the end word is handed over in the cycle before the reset, and no end flag earlier *)
Lemma fn_no_end R : forall l s, quiet R s l -> b_rst (fa_bt (fn_run R s l)) = false -> Forall (fun x => snd x = false) (ev_gave (fn_events R s l)).
Proof.
  induction l as [|i l IH]; intros s Q H; [constructor|]. cbn [fn_events ev_app ev_gave]. apply Forall_app.
  assert (Q' : quiet R (fa_next R s i) l) by (intros l1 l2 E N; apply (Q (i :: l1) l2); [rewrite E; reflexivity|exact N]).
  split; [|apply IH; [exact Q'|exact H]].
  assert (Hr : b_rst (fa_bt (fa_next R s i)) = false) by (destruct l as [|j l]; [exact H|apply (Q' [] (j :: l)); [reflexivity|discriminate]]).
  assert (H0 : b_rst (fa_bt s) = false) by (apply (Q [] (i :: l)); [reflexivity|discriminate]).
  unfold fa_next in Hr. cbn [fa_bt] in Hr. unfold bt_step in Hr. rewrite H0 in Hr. cbn [bt_next b_rst] in Hr. unfold ar_step in Hr. rewrite H0, orb_false_r in Hr.
  unfold fa_event. cbn [ev_gave]. unfold bt_gave. destruct (mko_valid _ && negb _); [|constructor]. cbn [andb] in Hr. constructor; [exact Hr|constructor].
Qed.
Lemma fn_end R s l : quiet R s l -> l <> [] -> b_rst (fa_bt (fn_run R s l)) = true ->
  exists pre i w, l = pre ++ [i] /\ ev_gave (fa_event (fn_run R s pre) i) = [(w, true)] /\ Forall (fun x => snd x = false) (ev_gave (fn_events R s pre)).
Proof.
  intros Q N H. destruct (exists_last N) as (pre & i & E). subst l. exists pre, i.
  assert (H0 : b_rst (fa_bt (fn_run R s pre)) = false) by (apply (Q pre [i]); [reflexivity|discriminate]).
  rewrite fn_run_app in H. cbn [fn_run] in H. unfold fa_next in H. cbn [fa_bt] in H. unfold bt_step in H. rewrite H0 in H. cbn [bt_next b_rst] in H. unfold ar_step in H. rewrite H0, orb_false_r in H.
  apply andb_prop in H. destruct H as [H He]. exists (mko_data (bt_out (fa_bt (fn_run R s pre)) (fa_bt_in (fn_run R s pre)))).
  split; [reflexivity|]. split.
  - unfold fa_event. cbn [ev_gave]. unfold bt_gave. rewrite H, He. reflexivity.
  - apply fn_no_end; [|exact H0]. intros l1 l2 E2 N2. apply (Q l1 (l2 ++ [i])); [rewrite E2, app_assoc; reflexivity|destruct l2; discriminate].
Qed.
Lemma cut_end (a : list (Z * bool)) w b : Forall (fun x => snd x = false) a -> cut (a ++ (w, true) :: b) = a ++ [(w, true)].
Proof. induction 1 as [|[x e] a Hx Ha IH]; [reflexivity|]. cbn in Hx. subst e. cbn [app cut]. rewrite IH. reflexivity. Qed.

(* 64-bit words *)
Definition quad_ok (q : quad) : Prop := word_ok (q3 q) /\ word_ok (q2 q) /\ word_ok (q1 q) /\ word_ok (q0 q).
Definition p64_rng (s : p64_st) : Prop := quad_ok (p64_b1 s) /\ quad_ok (p64_b2 s) /\ 0 <= p64_data s < 2 ^ 64.
Lemma quad_word_rng q : quad_ok q -> 0 <= quad_word q < 2 ^ 64.
Proof.
  intros (A & B & C & D). unfold quad_word, word_ok in *. change (2 ^ 16) with 65536 in *. change (2 ^ 48) with 281474976710656. change (2 ^ 32) with 4294967296.
  change (2 ^ 64) with 18446744073709551616. lia.
Qed.
Lemma quad_fill_ok p d q : word_ok d -> quad_ok q -> quad_ok (quad_fill p d q).
Proof. intros H (A & B & C & D). unfold quad_ok. destruct p; cbn; auto. Qed.
Lemma p64_rng_step s i : p64_rng s -> p64_rng (p64_step s i).
Proof.
  intros (A & B & C). assert (T : word_ok (trunc 16 (pi_data i))) by (unfold word_ok, trunc; apply Z.mod_pos_bound; reflexivity).
  unfold p64_rng, p64_step. cbn [p64_b1 p64_b2 p64_data]. refine (conj _ (conj _ _)).
  - destruct (negb (p64_side s) && pi_valid i); [apply quad_fill_ok|]; assumption.
  - destruct (p64_side s && pi_valid i); [apply quad_fill_ok|]; assumption.
  - destruct (p64_chs s); apply quad_word_rng; assumption.
Qed.
Lemma fn_ws_rng R l s : p64_rng (fa_p64 s) -> Forall (fun i => 0 <= wsi_data i < 2 ^ 64) (fn_ws R s l).
Proof.
  revert s. induction l as [|i l IH]; intros s H; [constructor|]. cbn [fn_ws]. constructor; [apply H|]. apply IH. cbn [fa_next fa_p64]. apply p64_rng_step, H.
Qed.

Lemma fa_not_written R s pre i : fa_fresh s -> quiet R s pre -> b_rst (fa_bt (fn_run R s pre)) = true ->
  let e := fn_events R s (pre ++ [i]) in
  exists n, (4 * n < length (cut (ev_gave e)))%nat /\ map wbeat_data (filter wbeat_real (ev_wbeats e)) = firstn n (pack4 (map fst (ev_gave e))).
Proof.
  intros HF Q Hr e.
  assert (N : pre <> []). { intros ->. destruct HF as [[i3 E] _]. cbn [fn_run] in Hr. rewrite E in Hr. discriminate. }
  destruct (fn_end R s pre Q N Hr) as (pre0 & i0 & w & E & G & NE). subst pre.
  assert (G0 : ev_gave e = ev_gave (fn_events R s pre0) ++ (w, true) :: ev_gave (fa_event (fn_run R s (pre0 ++ [i0])) i)).
  { unfold e. rewrite <- app_assoc. rewrite fn_events_app. cbn [app fn_events ev_app ev_gave]. rewrite G, fn_run_app. cbn [fn_run app ev0 ev_gave]. rewrite app_nil_r. reflexivity. }
  assert (C : length (cut (ev_gave e)) = S (length (ev_gave (fn_events R s pre0)))) by (rewrite G0, cut_end by exact NE; rewrite app_length; cbn; lia).
  pose proof HF as HF'. destruct HF' as ((i3 & Hbt) & _ & Hp & _ & (stw & Hlw & Hw) & _).
  (* packed *)
  destruct pre0 as [|j pre0].
  { exfalso. cbn [fn_run] in G. unfold fa_event in G. cbn [ev_gave] in G. unfold bt_gave in G. rewrite Hbt in G. discriminate G. }
  set (P := j :: pre0) in *.
  assert (I : p64_inv (map fst (ev_gave (fn_events R s P))) (p64_delivered p64_init (fn_p64 R s P)) (p64_run p64_init (fn_p64 R s P))).
  { assert (A0 : p64_accepted p64_init (fn_p64 R s P) = map fst (ev_gave (fn_events R s P))).
    { rewrite <- Hp. rewrite fn_accepted, words_trunc; [reflexivity|]. apply fn_gave_words, fresh_words, HF. }
    rewrite <- A0. unfold P. cbn [fn_p64].
    pose proof (p64_from_reset (fa_p64_in s) (fn_p64 R (fa_next R s j) pre0)) as I. 
    assert (F : Forall in16 (fa_p64_in s :: fn_p64 R (fa_next R s j) pre0)) by (change (fa_p64_in s :: fn_p64 R (fa_next R s j) pre0) with (fn_p64 R s P); apply fn_p64_in16).
    specialize (I F). cbn [p64_accepted]. unfold p64_acc at 1.
    assert (V : pi_valid (fa_p64_in s) = false) by (unfold fa_p64_in; cbn [pi_valid]; rewrite Hbt; reflexivity).
    rewrite V. cbn [andb app]. exact I. }
  destruct (p64_two _ _ _ (fa_p64_in (fn_run R s P)) (fa_p64_in (fn_run R s (P ++ [i0]))) I) as [r Er].
  assert (D : p64_delivered p64_init (fn_p64 R s ((P ++ [i0]) ++ [i])) = p64_delivered p64_init (fn_p64 R s P) ++
     p64_del (p64_run p64_init (fn_p64 R s P)) (fa_p64_in (fn_run R s P)) ++ p64_del (p64_step (p64_run p64_init (fn_p64 R s P)) (fa_p64_in (fn_run R s P))) (fa_p64_in (fn_run R s (P ++ [i0])))).
  { rewrite <- app_assoc, fn_p64_app. cbn [app fn_p64]. destruct (p64_app (fn_p64 R s P) [fa_p64_in (fn_run R s P); fa_p64_in (fa_next R (fn_run R s P) i0)] p64_init) as (_ & X & _).
    rewrite X. cbn [p64_delivered]. rewrite app_nil_r. rewrite fn_run_app. reflexivity. }
  destruct (C40_beats_in_order stw (fn_ws R s ((P ++ [i0]) ++ [i])) Hlw) as (q & B & _).
  { apply fn_ws_rng. rewrite Hp. unfold p64_rng, quad_ok, word_ok. cbn. lia. }
  rewrite <- Hw, fn_pushed, fn_wbeats, Hp, D in B. fold e in B.
  set (M := map wbeat_data (filter wbeat_real (ev_wbeats e))) in *.
  exists (length M). split.
  - rewrite C. pose proof (pack4_length (map fst (ev_gave (fn_events R s P)))) as L. rewrite map_length in L. rewrite Er, !app_length in L.
    apply (f_equal (@length Z)) in B. rewrite !app_length in B. unfold P in *. lia.
  - rewrite G0, map_app. destruct (pack4_prefix (map fst (ev_gave (fn_events R s P))) (map fst ((w, true) :: ev_gave (fa_event (fn_run R s (P ++ [i0])) i)))) as [r' Er'].
    rewrite Er', Er. rewrite !app_assoc. rewrite !app_assoc in B. rewrite B. rewrite <- !app_assoc. rewrite firstn_app, Nat.sub_diag, firstn_O, app_nil_r, firstn_all. reflexivity.
Qed.

(* ---------- C52 ---------- *)

(* C52.  Every finished frame, for any register values, any AXI-lite traffic and any behaviour of the memory
   on the two AXI HP ports: the core has handed over its words up to the end word, but the data words
   written to memory (the beats for which the FIFO had a word to give) are the first n 64-bit words of the frame,
   with 4n less than the number of 16-bit words of the frame: the 64-bit word that contains the
   end word is never written.  No frame ever arrives complete. *)
Theorem C52_never_complete : forall R l k e,
  let log := fa_log R ev0 fa_init l in
  nth_error log k = Some e -> (S k < length log)%nat ->
  (exists a w, cut (ev_gave e) = a ++ [(w, true)]) /\
  exists n, (4 * n < length (cut (ev_gave e)))%nat /\
    map wbeat_data (filter wbeat_real (ev_wbeats e)) = firstn n (pack4 (map fst (ev_gave e))).
Proof.
  intros R l k e log HN HL.
  destruct (fa_log_frames R l fa_init [] k e fa_init_fresh) as (s1 & seg & F & E & S1).
  { intros l1 l2 E N. destruct l1, l2; try discriminate. contradiction. }
  { exact HN. }
  destruct (S1 HL) as (pre & i & -> & Q & Hr). subst e. split; [|apply fa_not_written; assumption].
  assert (N : pre <> []). { intros ->. destruct F as [[i3 E] _]. cbn [fn_run] in Hr. rewrite E in Hr. discriminate. }
  destruct (fn_end R s1 pre Q N Hr) as (pre0 & i0 & w & -> & G & NE). exists (ev_gave (fn_events R s1 pre0)), w.
  rewrite <- app_assoc. rewrite fn_events_app. cbn [app fn_events ev_app ev_gave]. rewrite G. cbn [app]. apply cut_end, NE.
Qed.

(* the core inside the design is the core of C25 *)
Fixpoint fa_sched (R : rf_st) (s : fa_st) (l : list fa_in) : list (bool * list Z * bool) :=
  match l with [] => [] | i :: r => fa_x s :: fa_sched R (fa_step R s i) r end.
Lemma fa_bt_step R s i : fa_bt (fa_step R s i) = bt_step beta_cfg M12 (fa_bt s) (fa_bt_in s).
Proof. unfold fa_step. destruct (b_rst (fa_bt s)); reflexivity. Qed.
Lemma fa_rf_step R s i : fa_rf (fa_step R s i) = R.
Proof. unfold fa_step. destruct (b_rst (fa_bt s)); reflexivity. Qed.
Lemma fa_log_core : forall l cur s,
  map (fun e => (ev_took e, ev_gave e)) (fa_log rf_shipped cur s l) =
  bt_log beta_cfg M12 (ev_took cur) (ev_gave cur) (fa_bt s) (bt_rf_ins (fa_rf s) (fa_sched rf_shipped s l)).
Proof.
  induction l as [|i l IH]; intros cur s; [reflexivity|]. cbn [fa_sched fa_log]. rewrite bt_rf_ins_cons. cbn [bt_log].
  assert (E : rf_bt (fa_rf s) (fa_x s) = fa_bt_in s) by reflexivity. rewrite E.
  destruct (b_rst (fa_bt s)); [cbn [map]|]; rewrite IH, fa_bt_step, fa_rf_step; reflexivity.
Qed.
Lemma fa_px_ok d : group_ok 12 2 (fa_px d).
Proof. split; [reflexivity|]. repeat constructor; unfold in_range; apply (slice_range 0 12 d ltac:(lia)) || apply (slice_range 12 24 d ltac:(lia)). Qed.

(* C52.  In the shipped design the words the core hands over in a finished frame decode to exactly the samples
   the core accepted, or are flagged as cut short - but they do not arrive: see C52_never_complete. *)
Theorem C52_core_output : forall l k e,
  let log := fa_log rf_shipped ev0 fa_init l in
  nth_error log k = Some e -> (S k < length log)%nat -> lossless_or_flagged (ev_took e) (ev_gave e).
Proof.
  intros l k e log HN HL. pose proof (fa_log_core l ev0 fa_init) as E. fold log in E.
  apply (C25_shipped (fa_sched rf_shipped fa_init l) (i3_init beta_cfg)) with (k := k).
  - apply is_reset_init; reflexivity.
  - assert (K : forall l s x, In x (fa_sched rf_shipped s l) -> group_ok 12 2 (snd (fst x))).
    { clear. induction l as [|i l IH]; intros s x []; [subst x; apply fa_px_ok|eapply IH; eassumption]. }
    apply K.
  - cbn [ev0 ev_took ev_gave fa_init fa_bt fa_rf] in E. unfold bt_init in E. rewrite <- E. rewrite nth_error_map, HN. reflexivity.
  - cbn [ev0 ev_took ev_gave fa_init fa_bt fa_rf] in E. unfold bt_init in E. rewrite <- E. rewrite map_length. exact HL.
Qed.

(* C52.  The reset at the end of a frame also clears the DMA registers: start, read and write address are
   0 again, and as long as no data is written over AXI-lite, no burst address is issued on either
   port, whatever the memory does. *)
Definition idle_dma (s : fa_st) : Prop :=
  dl_start (fa_dl s) = 0 /\ hw_awvalid (ws_w (fa_ws s)) = false /\ hr_arvalid (rs_r (fa_rs s)) = false.
Lemma idle_next R s i : idle_dma s -> ai_wvalid (fai_lite i) = false -> idle_dma (fa_step R s i).
Proof.
  intros (H1 & H2 & H3) Hw. unfold fa_step. destruct (b_rst (fa_bt s)); [unfold idle_dma; cbn; auto|]. unfold idle_dma, fa_next. cbn [fa_dl fa_ws fa_rs].
  refine (conj _ (conj _ _)).
  - unfold dl_step. cbn [dl_start]. rewrite Hw, andb_false_r. cbn [andb]. exact H1.
  - unfold ws_step. cbn [ws_w]. unfold hw_step. cbn [hw_awvalid]. rewrite H2. unfold ws_hw, fa_ws_in, fa_go. cbn [hwi_enable wsi_enable]. rewrite H1. reflexivity.
  - unfold rs_step. cbn [rs_r]. unfold hr_step. cbn [hr_arvalid]. rewrite H3. unfold rs_hr, fa_rs_in, fa_go. cbn [hri_enable rsi_enable]. rewrite H1. reflexivity.
Qed.
Lemma idle_events R : forall l s, idle_dma s -> Forall (fun i => ai_wvalid (fai_lite i) = false) l ->
  ev_waddrs (fa_events R s l) = [] /\ ev_raddrs (fa_events R s l) = [].
Proof.
  induction l as [|i l IH]; intros s H HF; [cbn; auto|]. apply Forall_cons_iff in HF. destruct HF as [Hi HF]. cbn [fa_events ev_app ev_waddrs ev_raddrs].
  destruct (IH _ (idle_next R s i H Hi) HF) as [-> ->]. rewrite !app_nil_r. destruct H as (_ & H2 & H3). unfold fa_event. cbn [ev_waddrs ev_raddrs].
  unfold ws_addr_en, rs_addr_en. rewrite H2, H3. cbn [andb]. auto.
Qed.
Lemma fa_run_lens R : forall l s, fa_lens s -> fa_lens (fa_run R s l).
Proof. induction l as [|i l IH]; intros s H; [exact H|]. cbn [fa_run]. apply IH, fa_step_lens, H. Qed.
Lemma fa_run_app R l1 l2 s : fa_run R s (l1 ++ l2) = fa_run R (fa_run R s l1) l2.
Proof. revert s. induction l1 as [|i l1 IH]; intros s; [reflexivity|]. cbn [app fa_run]. apply IH. Qed.
Theorem C52_dma_stops : forall R l i l',
  b_rst (fa_bt (fa_run R fa_init l)) = true -> Forall (fun i => ai_wvalid (fai_lite i) = false) l' ->
  let s := fa_run R fa_init (l ++ [i]) in
  dl_start (fa_dl s) = 0 /\ dl_read_addr (fa_dl s) = 0 /\ dl_write_addr (fa_dl s) = 0 /\
  ev_waddrs (fa_events R s l') = [] /\ ev_raddrs (fa_events R s l') = [].
Proof.
  intros R l i l' Hr HF s.
  assert (F : fa_fresh s) by (unfold s; rewrite fa_run_app; cbn [fa_run]; apply fa_reset_fresh; [apply fa_run_lens, fa_fresh_lens, fa_init_fresh|exact Hr]).
  destruct F as (_ & _ & _ & (str & _ & E2) & (stw & _ & E3) & E4).
  assert (I : idle_dma s) by (unfold idle_dma; rewrite E2, E3, E4; auto).
  destruct (idle_events R l' s I HF) as [X Y]. rewrite E4. auto.
Qed.

(* C52.  Words of the next frame that were already read are dropped by the reset (the FIFOs are empty, the
   converters are empty), and a last beat of an old burst that the memory still offers is taken into the new frame as
   pixel data three cycles later, without any address having been issued and even with the DMA not started. *)
Theorem C52_stale_beat : forall R s i0 i1 i2 d, fa_fresh s ->
  let offers i := fai_rvalid i = true /\ fai_rlast i = true /\ fai_rdata i = d in
  offers i0 -> offers i1 -> offers i2 -> Forall (fun i => ai_wvalid (fai_lite i) = false) [i0; i1; i2] ->
  let e := fa_events R s [i0; i1; i2] in ev_rbeats e = [d] /\ ev_raddrs e = [].
Proof.
  intros R s i0 i1 i2 d HF offers (A0 & B0 & C0) (A1 & B1 & C1) (A2 & B2 & C2) HW e.
  assert (I : idle_dma s) by (destruct HF as (_ & _ & _ & (str & _ & E2) & (stw & _ & E3) & E4); unfold idle_dma; rewrite E2, E3, E4; auto).
  split; [|apply (idle_events R [i0; i1; i2] s I HW)].
  destruct HF as ((i3 & Hbt) & (st64 & st32 & L1 & L2 & E1) & Hp & (str & L3 & E2) & (stw & L4 & E3) & E4).
  apply Forall_cons_iff in HW. destruct HW as [W0 HW]. apply Forall_cons_iff in HW. destruct HW as [W1 _].
  set (s1 := fa_step R s i0). set (s2 := fa_step R s1 i1).
  assert (N0 : b_rst (fa_bt s) = false) by (rewrite Hbt; reflexivity).
  assert (V0 : mko_valid (bt_out (fa_bt s) (fa_bt_in s)) = false) by (rewrite Hbt; reflexivity).
  assert (S1 : s1 = fa_next R s i0) by (unfold s1, fa_step; rewrite N0; reflexivity).
  assert (N1 : b_rst (fa_bt s1) = false) by (rewrite S1; unfold fa_next; cbn [fa_bt]; unfold bt_step; rewrite N0; unfold bt_next; cbn [b_rst]; unfold ar_step; rewrite V0, N0; reflexivity).
  assert (S2 : s2 = fa_next R s1 i1) by (unfold s2, fa_step; rewrite N1; reflexivity).
  assert (R1 : rs_r (fa_rs s1) = {| hr_arvalid := false; hr_rready := false; hr_active := 15 |}).
  { rewrite S1. unfold fa_next. cbn [fa_rs]. rewrite E2. unfold rs_step. cbn [rs_r rs_init]. unfold hr_step, hr_addr_en, rs_hr, fa_rs_in, fa_go.
    cbn [hr_init hr_arvalid hr_rready hr_active hri_enable hri_rlast hri_arready hri_data_full rsi_enable rsi_rlast rsi_arready]. rewrite E4, B0. cbn. reflexivity. }
  assert (F1 : sf_lvl (rs_f (fa_rs s1)) = 0).
  { rewrite S1. unfold fa_next. cbn [fa_rs]. rewrite E2. unfold rs_step, af_step, sf_step, rs_data_en. cbn [rs_f rs_init rs_r hr_init hr_rready andb af_valid_in af_read sf_lvl sf_reset sf_writable sf_readable]. reflexivity. }
  assert (R2 : hr_rready (rs_r (fa_rs s2)) = true).
  { rewrite S2. unfold fa_next. cbn [fa_rs]. unfold rs_step. cbn [rs_r]. unfold hr_step. rewrite R1. cbn [hr_rready hr_active]. unfold rs_hr. cbn [hri_data_full]. unfold af_writable16. rewrite F1. reflexivity. }
  unfold e. cbn [fa_events ev_app ev_rbeats]. fold s1. fold s2. unfold fa_event. cbn [ev_rbeats ev0]. unfold rs_data_en, fa_rs_in. cbn [rsi_rvalid].
  rewrite E2, R1, R2, A2, C2. cbn [rs_init rs_r hr_init hr_rready andb app]. reflexivity.
Qed.

(* the samples of a 64-bit memory word, in the order in which the core gets them *)
Definition fa_fields (w : Z) : list Z := [w / 2 ^ 32 mod 2 ^ 12; w / 2 ^ 44 mod 2 ^ 12; w mod 2 ^ 12; w / 2 ^ 12 mod 2 ^ 12].
Lemma fa_fields_px w : flat_map fa_px (halves w) = fa_fields w.
Proof.
  unfold halves, fa_fields, fa_px. cbn [flat_map app]. unfold slice. change (12 - 0) with 12. change (24 - 12) with 12. change (2 ^ 0) with 1. rewrite !Z.div_1_r.
  assert (M1 : forall x, (x mod 2 ^ 32) mod 2 ^ 12 = x mod 2 ^ 12).
  { intros x. change (2 ^ 32) with (2 ^ 12 * 2 ^ 20). rewrite Z.rem_mul_r by (try apply Z.pow_nonzero; lia). rewrite Z.mul_comm, Z_mod_plus by lia. apply Z.mod_mod. discriminate. }
  assert (M2 : forall x, (x mod 2 ^ 32) / 2 ^ 12 mod 2 ^ 12 = x / 2 ^ 12 mod 2 ^ 12).
  { intros x. change (2 ^ 32) with (2 ^ 12 * 2 ^ 20). rewrite Z.rem_mul_r by (try apply Z.pow_nonzero; lia). rewrite (Z.mul_comm (2 ^ 12)), Z.div_add by discriminate.
    rewrite (Z.div_small (x mod 2 ^ 12)) by (apply Z.mod_pos_bound; lia). rewrite Z.add_0_l. change (2 ^ 20) with (2 ^ 12 * 2 ^ 8).
    rewrite Z.rem_mul_r by (try apply Z.pow_nonzero; lia). rewrite Z.mul_comm, Z_mod_plus by lia. apply Z.mod_mod. discriminate. }
  rewrite !M1, !M2. rewrite Z.div_div by (try discriminate; lia). reflexivity.
Qed.
Lemma fa_fields_pxs l : flat_map fa_px (flat_map halves l) = flat_map fa_fields l.
Proof. induction l as [|w l IH]; [reflexivity|]. cbn [flat_map]. rewrite flat_map_app, IH, fa_fields_px. reflexivity. Qed.
Lemma flat_map_len (A B : Type) (f : A -> list B) n : (forall x, length (f x) = n) -> forall l, length (flat_map f l) = (n * length l)%nat.
Proof. intros H. induction l as [|x l IH]; cbn [flat_map length]; [lia|]. rewrite app_length, H, IH. lia. Qed.
Definition no_reset (R : rf_st) (s : fa_st) (l : list fa_in) : Prop := forall l1 l2, l = l1 ++ l2 -> l2 <> [] -> b_rst (fa_bt (fa_run R s l1)) = false.
Lemma no_reset_fn R : forall l s, no_reset R s l -> fa_run R s l = fn_run R s l /\ fa_events R s l = fn_events R s l.
Proof.
  induction l as [|i l IH]; intros s Q; [split; reflexivity|]. cbn [fa_run fn_run fa_events fn_events].
  assert (H0 : b_rst (fa_bt s) = false) by (apply (Q [] (i :: l)); [reflexivity|discriminate]).
  assert (E : fa_step R s i = fa_next R s i) by (unfold fa_step; rewrite H0; reflexivity).
  destruct (IH (fa_step R s i)) as [I1 I2].
  { intros l1 l2 E1 N. apply (Q (i :: l1) l2); [rewrite E1; reflexivity|exact N]. }
  rewrite I1, I2, E. auto.
Qed.
(* what the reader side sees in each cycle *)
Fixpoint fa_rs_ins (R : rf_st) (s : fa_st) (l : list fa_in) : list rs_in := match l with [] => [] | i :: r => fa_rs_in s i :: fa_rs_ins R (fa_step R s i) r end.

(* C52.  Within a frame, if the memory answers every read burst as it should (rslave_ok), the samples accepted by
   the core are the 12-bit fields of the words read from memory, in order - lower sample of a pair first, upper
   half of the word first -, with at most 136 samples in flight (and lost when the frame ends). *)
Theorem C52_samples : forall R s l, fa_fresh s -> no_reset R s l -> rslave_ok 0 0 (fa_rs s) (fa_rs_ins R s l) ->
  let e := fa_events R s l in
  exists held, flat_map fa_fields (ev_rbeats e) = concat (ev_took e) ++ held /\ (length held <= 136)%nat.
Proof.
  intros R s l HF HQ HS e. destruct (no_reset_fn R l s HQ) as [_ Ee]. unfold e. rewrite Ee.
  assert (Er : fa_rs_ins R s l = fn_rs R s l).
  { clear - HQ. revert s HQ. induction l as [|i l IH]; intros s Q; [reflexivity|]. cbn [fa_rs_ins fn_rs].
    assert (H0 : b_rst (fa_bt s) = false) by (apply (Q [] (i :: l)); [reflexivity|discriminate]).
    assert (E : fa_step R s i = fa_next R s i) by (unfold fa_step; rewrite H0; reflexivity).
    rewrite E. f_equal. apply IH. rewrite <- E. intros l1 l2 E1 N. apply (Q (i :: l1) l2); [rewrite E1; reflexivity|exact N]. }
  rewrite Er in HS. destruct HF as (_ & (st64 & st32 & L1 & L2 & E1) & _ & (str & L3 & E2) & _).
  rewrite E2 in HS. destruct (C50_no_loss str (fn_rs R s l) L3 HS) as [(q & B & Lq) _]. rewrite <- E2, fn_rbeats, fn_popped in B.
  destruct (C39_splitting st64 st32 (fn_b32 R s l) L1 L2) as (h & S & Lh).
  { clear. revert s. induction l as [|i l IH]; intros s; [constructor|]. cbn [fn_b32]. constructor; [|apply IH]. unfold bin64, fa_b32_in. cbn [bi_data]. unfold af_data_out. apply (slice_range 1 65). lia. }
  { destruct l as [|i l]; [exact I|]. cbn [fn_b32 bfirst_idle]. unfold fa_b32_in. cbn [M_SyncFifo.bi_valid]. rewrite E2. reflexivity. }
  rewrite <- E1 in S. exists (flat_map fa_px h ++ flat_map fa_fields q). split.
  - rewrite B, flat_map_app, <- fa_fields_pxs, S, flat_map_app, <- app_assoc. f_equal. rewrite <- (fn_took R l s). rewrite flat_map_concat_map. reflexivity.
  - rewrite app_length. rewrite (flat_map_len _ _ fa_px 2) by reflexivity. rewrite (flat_map_len _ _ fa_fields 4) by reflexivity. unfold len in Lq. lia.
Qed.

(* ------------------------------------------------------------------ C52: where the bursts go *)

Lemma ag_from shift : forall pre s a b post, ag_loop s = false -> Forall (fun x => snd x = false) pre ->
  ag_latched shift s (pre ++ (a, false) :: (b, true) :: post) = map (fun k => (a + Z.of_nat k * shift) mod 2 ^ 32) (seq 0 (S (latches post))).
Proof.
  induction pre as [|[x y] pre IH]; intros s a b post Hl HF.
  - cbn [app ag_latched]. assert (E : ag_step shift s a false = {| ag_loop := false; ag_addr := trunc 32 a; ag_valid := true |}) by (unfold ag_step; rewrite Hl; reflexivity).
    rewrite E. unfold ag_step. cbn [ag_loop ag_addr].
    rewrite ag_loop_seq by (cbn [ag_loop ag_addr]; try reflexivity; apply trunc_range; lia). cbn [ag_addr seq map app]. f_equal; [unfold trunc; f_equal; lia|].
    rewrite <- seq_shift, map_map. apply map_ext. intros k. unfold trunc. rewrite Z.add_mod_idemp_l by lia. rewrite <- Z.add_assoc, Z.add_mod_idemp_l by lia. f_equal. lia.
  - apply Forall_cons_iff in HF. destruct HF as [F1 HF]. cbn in F1. subst y. cbn [app ag_latched]. apply IH; [|exact HF]. unfold ag_step. rewrite Hl. reflexivity.
Qed.
Lemma first_latch (l : list (Z * bool)) : Forall (fun x => snd x = false) l \/ exists pre b post, l = pre ++ (b, true) :: post /\ Forall (fun x => snd x = false) pre.
Proof.
  induction l as [|[a [|]] l IH]; [left; constructor|right; exists [], a, l; split; [reflexivity|constructor]|].
  destruct IH as [IH|(pre & b & post & -> & HF)]; [left; constructor; auto|right; exists ((a, false) :: pre), b, post; split; [reflexivity|constructor; auto]].
Qed.
Lemma ag_none shift : forall l s, Forall (fun x => snd x = false) l -> ag_latched shift s l = [].
Proof. induction l as [|[a b] l IH]; intros s HF; [reflexivity|]. apply Forall_cons_iff in HF. destruct HF as [F1 HF]. cbn in F1. subst b. cbn [ag_latched app]. auto. Qed.
Lemma ag_latched_len shift : forall l s, length (ag_latched shift s l) = latches l.
Proof. induction l as [|[a b] l IH]; intros s; [reflexivity|]. cbn [ag_latched]. rewrite app_length, IH. unfold latches. cbn [filter snd]. destruct b; reflexivity. Qed.

(* the address register and the latch of each cycle of a run, for either side *)
Section Side.
Variable R : rf_st.
Variable src : fa_st -> Z.
Variable lat : fa_st -> fa_in -> bool.
Fixpoint fn_ag (s : fa_st) (l : list fa_in) : list (Z * bool) := match l with [] => [] | i :: r => (src s, lat s i) :: fn_ag (fa_next R s i) r end.
Lemma fn_ag_app l1 l2 s : fn_ag s (l1 ++ l2) = fn_ag s l1 ++ fn_ag (fn_run R s l1) l2.
Proof. revert s. induction l1 as [|i l1 IH]; intros s; [reflexivity|]. cbn [app fn_ag fn_run]. rewrite IH. reflexivity. Qed.
Lemma fn_ag_split : forall p q l s, fn_ag s l = p ++ q -> exists l1 l2, l = l1 ++ l2 /\ fn_ag s l1 = p /\ fn_ag (fn_run R s l1) l2 = q.
Proof.
  induction p as [|x p IH]; intros q l s E; [exists [], l; auto|]. destruct l as [|i l]; [discriminate|]. cbn [fn_ag app] in E. injection E as E0 E.
  destruct (IH q l _ E) as (l1 & l2 & -> & E1 & E2). exists (i :: l1), l2. cbn [fn_ag fn_run app]. rewrite E0, E1, E2. auto.
Qed.
Lemma side_addrs s l : (forall i, lat s i = false) ->
  Forall (fun x => snd x = false) (fn_ag s l) \/
  exists l1 i j l2, l = l1 ++ i :: j :: l2 /\ Forall (fun x => snd x = false) (fn_ag s (l1 ++ [i])) /\ lat (fn_run R s (l1 ++ [i])) j = true /\
    forall a, ag_loop a = false -> ag_latched 128 a (fn_ag s l) = seq_addrs (src (fn_run R s l1)) (length (ag_latched 128 a (fn_ag s l))).
Proof.
  intros H0. destruct (first_latch (fn_ag s l)) as [HF|(pre & b & post & E & HF)]; [auto|right].
  destruct (fn_ag_split pre ((b, true) :: post) l s E) as (l1 & l2 & -> & E1 & E2).
  destruct l2 as [|j l2]; [discriminate|]. cbn [fn_ag] in E2. injection E2 as Eb El E3.
  destruct (exists_last (l := l1)) as (l0 & i & E0); [intros ->; cbn [fn_run] in El; rewrite H0 in El; discriminate|]. subst l1.
  exists l0, i, j, l2. split; [rewrite <- app_assoc; reflexivity|]. rewrite E1. split; [exact HF|]. split; [exact El|].
  intros a Ha. rewrite fn_ag_app in E1. cbn [fn_ag] in E1. subst pre. apply Forall_app in HF. destruct HF as [HF F1].
  apply Forall_cons_iff in F1. destruct F1 as [F1 _]. cbn [snd] in F1. rewrite E, <- app_assoc, F1. cbn [app]. rewrite ag_from by assumption. unfold seq_addrs.
  rewrite map_length, seq_length. reflexivity.
Qed.
End Side.
Definition fn_rag R := fn_ag R (fun s => dl_read_addr (fa_dl s)) (fun s i => rs_addr_en (fa_rs s) (fa_rs_in s i)).
Definition fn_wag R := fn_ag R (fun s => dl_write_addr (fa_dl s)) (fun s i => ws_addr_en (fa_ws s) (fa_ws_in s i)).
Lemma fn_raddrs_ag R : forall l s, ev_raddrs (fn_events R s l) = ag_latched 128 (rs_a (fa_rs s)) (fn_rag R s l).
Proof. induction l as [|i l IH]; intros s; [reflexivity|]. cbn [fn_events ev_app ev_raddrs]. unfold fn_rag in *. cbn [fn_ag ag_latched]. rewrite IH. reflexivity. Qed.
Lemma fn_waddrs_ag R : forall l s, ev_waddrs (fn_events R s l) = ag_latched 128 (ws_a (fa_ws s)) (fn_wag R s l).
Proof. induction l as [|i l IH]; intros s; [reflexivity|]. cbn [fn_events ev_app ev_waddrs]. unfold fn_wag in *. cbn [fn_ag ag_latched]. rewrite IH. reflexivity. Qed.
Lemma no_reset_app R s l1 l2 : no_reset R s (l1 ++ l2) -> no_reset R s l1.
Proof. intros Q a b -> N. apply (Q a (b ++ l2)); [rewrite app_assoc; reflexivity|]. destruct b; [congruence|discriminate]. Qed.

(* C52.  Within a frame the read bursts go to S, S + 128, S + 256, ... modulo 2^32, where S is the content of the
   read address register in the cycle i that precedes the first address handshake; the same for the write bursts and the write
   address register. *)
Theorem C52_read_addresses : forall R s l, fa_fresh s -> no_reset R s l ->
  let A := ev_raddrs (fa_events R s l) in
  A = [] \/ exists l1 i j l2, l = l1 ++ i :: j :: l2 /\ ev_raddrs (fa_events R s (l1 ++ [i])) = [] /\ ev_raddrs (fa_event (fa_run R s (l1 ++ [i])) j) <> [] /\
    A = seq_addrs (dl_read_addr (fa_dl (fa_run R s l1))) (length A).
Proof.
  intros R s l HF HQ A. unfold A. destruct HF as (_ & _ & _ & (str & _ & Er) & _). rewrite (proj2 (no_reset_fn R l s HQ)), fn_raddrs_ag.
  destruct (side_addrs R (fun s => dl_read_addr (fa_dl s)) (fun s i => rs_addr_en (fa_rs s) (fa_rs_in s i)) s l) as [H|(l1 & i & j & l2 & E & H1 & H2 & H3)].
  - intros i. rewrite Er. reflexivity.
  - left. apply ag_none. exact H.
  - right. exists l1, i, j, l2. split; [exact E|]. assert (E' : l = (l1 ++ [i]) ++ j :: l2) by (rewrite E, <- app_assoc; reflexivity).
    rewrite E' in HQ. apply no_reset_app in HQ. destruct (no_reset_fn R _ s HQ) as [Q1 Q2]. rewrite Q2, fn_raddrs_ag, Q1. split; [apply ag_none; exact H1|].
    split; [unfold fa_event; cbn [ev_raddrs]; rewrite H2; discriminate|]. apply no_reset_app in HQ. rewrite (proj1 (no_reset_fn R _ s HQ)).
    apply H3. rewrite Er. reflexivity.
Qed.
Theorem C52_write_addresses : forall R s l, fa_fresh s -> no_reset R s l ->
  let A := ev_waddrs (fa_events R s l) in
  A = [] \/ exists l1 i j l2, l = l1 ++ i :: j :: l2 /\ ev_waddrs (fa_events R s (l1 ++ [i])) = [] /\ ev_waddrs (fa_event (fa_run R s (l1 ++ [i])) j) <> [] /\
    A = seq_addrs (dl_write_addr (fa_dl (fa_run R s l1))) (length A).
Proof.
  intros R s l HF HQ A. unfold A. destruct HF as (_ & _ & _ & _ & (stw & _ & Er) & _). rewrite (proj2 (no_reset_fn R l s HQ)), fn_waddrs_ag.
  destruct (side_addrs R (fun s => dl_write_addr (fa_dl s)) (fun s i => ws_addr_en (fa_ws s) (fa_ws_in s i)) s l) as [H|(l1 & i & j & l2 & E & H1 & H2 & H3)].
  - intros i. rewrite Er. reflexivity.
  - left. apply ag_none. exact H.
  - right. exists l1, i, j, l2. split; [exact E|]. assert (E' : l = (l1 ++ [i]) ++ j :: l2) by (rewrite E, <- app_assoc; reflexivity).
    rewrite E' in HQ. apply no_reset_app in HQ. destruct (no_reset_fn R _ s HQ) as [Q1 Q2]. rewrite Q2, fn_waddrs_ag, Q1. split; [apply ag_none; exact H1|].
    split; [unfold fa_event; cbn [ev_waddrs]; rewrite H2; discriminate|]. apply no_reset_app in HQ. rewrite (proj1 (no_reset_fn R _ s HQ)).
    apply H3. rewrite Er. reflexivity.
Qed.

(* ------------------------------------------------------------------ C52: the registers on the bus *)

(* the AXI-lite bus, cycle by cycle *)
Fixpoint fa_lite_trace (R : rf_st) (s : fa_st) (l : list fa_in) : list (ax_in * ax_out) :=
  match l with [] => [] | i :: r => (fai_lite i, dl_out (fa_dl s)) :: fa_lite_trace R (fa_step R s i) r end.
(* What the nine read-only registers show in the cycle with input i after the cycles l1 of a frame begun in s. *)
Definition fa_status_ok (R : rf_st) (s : fa_st) (l1 : list fa_in) (i : fa_in) (ins : list Z) : Prop :=
  let x := fa_run R s l1 in
  let ev := fa_events R s l1 in
  let w0 := nth 0 ins 0 in
  let bit k := Z.testbit w0 k in
  length ins = 9%nat /\ 0 <= w0 < 2 ^ 23 /\
  bit 0 = p64_end (fa_p64 x) /\ bit 1 = p64_valid (fa_p64 x) /\                        (* the packer's output *)
  bit 2 = af_end_out (ws_f (fa_ws x)) /\ bit 3 = af_valid_out (ws_f (fa_ws x)) /\      (* the writer FIFO's output *)
  bit 4 = negb (len (ev_wbeats (fa_event x i)) =? 0) /\                                (* a write beat in this cycle *)
  bit 7 = (hr_active (rs_r (fa_rs x)) =? 0) /\                                         (* no read burst outstanding *)
  bit 8 = ((hw_active (ws_w (fa_ws x)) =? 0) && (hw_unconf (ws_w (fa_ws x)) =? 0)) /\  (* no write burst outstanding or unconfirmed *)
  bit 9 = (hw_bready (ws_w (fa_ws x)) && fai_bvalid i && negb (fai_bresp i =? 0)) /\   (* an error response taken in this cycle *)
  bit 10 = (negb (len (ev_rbeats (fa_event x i)) =? 0) && negb (fai_rresp i =? 0)) /\  (* a read beat with an error in this cycle *)
  w0 / 2 ^ 11 mod 16 = hw_active (ws_w (fa_ws x)) /\ w0 / 2 ^ 15 mod 16 = hr_active (rs_r (fa_rs x)) /\ w0 / 2 ^ 19 = hw_unconf (ws_w (fa_ws x)) /\
  nth 1 ins 0 = ag_addr (rs_a (fa_rs x)) /\ nth 2 ins 0 = ag_addr (ws_a (fa_ws x)) /\  (* next read and write burst address *)
  nth 3 ins 0 = Z.min (len (ev_raddrs ev)) 196608 /\ nth 4 ins 0 = Z.min (len (ev_waddrs ev)) 131072 /\
  nth 5 ins 0 = mko_data (bt_out (fa_bt x) (fa_bt_in x)) /\                            (* the core's output *)
  nth 6 ins 0 + 2 ^ 32 * nth 7 ins 0 = p64_data (fa_p64 x) /\ nth 8 ins 0 = b32_data (fa_b32 x).

Lemma cat1_bit : forall bs rest k, 0 <= rest -> (k < length bs)%nat -> Z.testbit (cat1 bs + 2 ^ Z.of_nat (length bs) * rest) (Z.of_nat k) = nth k bs false.
Proof.
  induction bs as [|b bs IH]; intros rest k Hr Hk; [cbn in Hk; lia|]. cbn [length cat1] in *. rewrite Nat2Z.inj_succ, Z.pow_succ_r by lia.
  replace (b2z b + 2 * cat1 bs + 2 * 2 ^ Z.of_nat (length bs) * rest) with (2 * (cat1 bs + 2 ^ Z.of_nat (length bs) * rest) + Z.b2z b) by (set (T := 2 ^ Z.of_nat (length bs)); rewrite <- Z.mul_assoc; destruct b; cbn [b2z Z.b2z]; lia).
  destruct k as [|k]; [change (Z.of_nat 0) with 0; rewrite Z.testbit_0_r; reflexivity|]. rewrite Nat2Z.inj_succ, Z.testbit_succ_r by lia. cbn [nth]. apply IH; lia.
Qed.
Lemma cat1_range : forall bs, 0 <= cat1 bs < 2 ^ Z.of_nat (length bs).
Proof. induction bs as [|b bs IH]; cbn [cat1 length]; [cbn; lia|]. rewrite Nat2Z.inj_succ, Z.pow_succ_r by lia. destruct b; cbn [b2z]; lia. Qed.

Definition nib (x : Z) : Prop := 0 <= x < 16.
Definition side_inv (R : rf_st) (s : fa_st) (l : list fa_in) : Prop :=
  let x := fn_run R s l in let ev := fn_events R s l in
  (hr_arvalid (rs_r (fa_rs x)) = true -> ag_valid (rs_a (fa_rs x)) = true) /\ (ag_loop (rs_a (fa_rs x)) = true -> ag_valid (rs_a (fa_rs x)) = true) /\
  (hw_awvalid (ws_w (fa_ws x)) = true -> ag_valid (ws_a (fa_ws x)) = true) /\ (ag_loop (ws_a (fa_ws x)) = true -> ag_valid (ws_a (fa_ws x)) = true) /\
  rs_c (fa_rs x) = Z.min (len (ev_raddrs ev)) 196608 /\ ws_c (fa_ws x) = Z.min (len (ev_waddrs ev)) 131072 /\
  nib (hw_active (ws_w (fa_ws x))) /\ nib (hw_unconf (ws_w (fa_ws x))) /\ nib (hr_active (rs_r (fa_rs x))) /\ p64_rng (fa_p64 x).
Lemma ag_valid_step sh s a b : (ag_loop s = true -> ag_valid s = true) -> ag_valid (ag_step sh s a b) = true.
Proof. unfold ag_step. destruct (ag_loop s); cbn [ag_valid]; auto. Qed.
Lemma nib_step (a b : bool) x : nib x -> nib (if a then trunc 4 (x + 1) else if b then trunc 4 (x - 1) else x).
Proof. intros H. destruct a; [apply (trunc_range 4); lia|]. destruct b; [apply (trunc_range 4); lia|exact H]. Qed.
Lemma side_ok R s : fa_fresh s -> forall l, side_inv R s l.
Proof.
  intros HF l. induction l as [|i l IH] using rev_ind.
  - destruct HF as (_ & _ & Ep & (str & _ & Er) & (stw & _ & Ew) & _). unfold side_inv. cbn [fn_run fn_events ev0 ev_raddrs ev_waddrs]. rewrite Er, Ew, Ep.
    split; [auto|]. split; [auto|]. split; [auto|]. split; [auto|]. split; [reflexivity|]. split; [reflexivity|].
    split; [split; cbn; lia|]. split; [split; cbn; lia|]. split; [split; cbn; lia|]. unfold p64_rng, quad_ok, word_ok. cbn. repeat split; lia.
  - unfold side_inv in *. rewrite fn_run_app, fn_events_app. cbn [fn_run fn_events]. rewrite ev_app_0_r. cbn [ev_app ev_raddrs ev_waddrs].
    set (x := fn_run R s l) in *. destruct IH as (A1 & A2 & A3 & A4 & A5 & A6 & A7 & A8 & A9 & A10).
    cbn [fa_next fa_rs fa_ws fa_p64]. cbn [rs_step ws_step rs_a ws_a rs_c ws_c rs_r ws_w].
    split; [intros _; apply ag_valid_step; exact A2|]. split; [intros _; apply ag_valid_step; exact A2|].
    split; [intros _; apply ag_valid_step; exact A4|]. split; [intros _; apply ag_valid_step; exact A4|].
    split; [|split].
    + unfold len in *. rewrite app_length. unfold fa_event. cbn [ev_raddrs].
      assert (H1 : rs_addr_en (fa_rs x) (fa_rs_in x i) = true -> ag_valid (rs_a (fa_rs x)) = true) by (unfold rs_addr_en; intros H; apply andb_prop in H; apply A1; apply H).
      destruct (rs_addr_en (fa_rs x) (fa_rs_in x i)).
      * rewrite H1 by reflexivity. cbn [andb length]. destruct (rs_c (fa_rs x) =? 196608) eqn:E; cbn [negb]; [lia|]. unfold trunc. rewrite Z.mod_small by lia. lia.
      * rewrite andb_false_r. cbn [andb length]. lia.
    + unfold len in *. rewrite app_length. unfold fa_event. cbn [ev_waddrs].
      assert (H1 : ws_addr_en (fa_ws x) (fa_ws_in x i) = true -> ag_valid (ws_a (fa_ws x)) = true) by (unfold ws_addr_en; intros H; apply andb_prop in H; apply A3; apply H).
      destruct (ws_addr_en (fa_ws x) (fa_ws_in x i)).
      * rewrite H1 by reflexivity. cbn [andb length]. destruct (ws_c (fa_ws x) =? 131072) eqn:E; cbn [negb]; [lia|]. unfold trunc. rewrite Z.mod_small by lia. lia.
      * rewrite andb_false_r. cbn [andb length]. lia.
    + cbn [hw_step hw_active hw_unconf hr_step hr_active].
      split; [apply nib_step; exact A7|]. split; [apply nib_step; exact A8|]. split; [apply nib_step; exact A9|]. apply p64_rng_step. exact A10.
Qed.
Lemma fa_ins_status R s l i : fa_fresh s -> no_reset R s l -> fa_status_ok R s l i (fa_ins (fa_run R s l) i).
Proof.
  intros HF HQ. pose proof (side_ok R s HF l) as I. unfold side_inv in I. destruct (no_reset_fn R l s HQ) as [Q1 Q2]. unfold fa_status_ok. rewrite Q1, Q2.
  set (x := fn_run R s l) in *. destruct I as (A1 & A2 & A3 & A4 & A5 & A6 & A7 & A8 & A9 & (_ & _ & A10)). unfold nib in *.
  unfold fa_ins. cbn [nth]. rewrite <- A5, <- A6.
  match goal with |- context [cat1 ?b] => set (bs := b) end.
  assert (L : length bs = 11%nat) by reflexivity.
  assert (Ev : cat1 bs + 2 ^ 11 * hw_active (ws_w (fa_ws x)) + 2 ^ 15 * hr_active (rs_r (fa_rs x)) + 2 ^ 19 * hw_unconf (ws_w (fa_ws x)) =
    cat1 bs + 2 ^ Z.of_nat (length bs) * (hw_active (ws_w (fa_ws x)) + 16 * (hr_active (rs_r (fa_rs x)) + 16 * hw_unconf (ws_w (fa_ws x))))).
  { rewrite L. change (Z.of_nat 11) with 11. change (2 ^ 11) with 2048. change (2 ^ 15) with 32768. change (2 ^ 19) with 524288. lia. }
  rewrite Ev. pose proof (cat1_range bs) as Rg. rewrite L in Rg. change (2 ^ Z.of_nat 11) with 2048 in Rg.
  assert (Bt : forall k, (k < 11)%nat -> Z.testbit (cat1 bs + 2 ^ Z.of_nat (length bs) * (hw_active (ws_w (fa_ws x)) + 16 * (hr_active (rs_r (fa_rs x)) + 16 * hw_unconf (ws_w (fa_ws x))))) (Z.of_nat k) = nth k bs false) by (intros k Hk; apply cat1_bit; lia).
  clear Ev. set (w0 := cat1 bs + 2 ^ Z.of_nat (length bs) * _) in *.
  assert (Ew : w0 = cat1 bs + 2048 * (hw_active (ws_w (fa_ws x)) + 16 * (hr_active (rs_r (fa_rs x)) + 16 * hw_unconf (ws_w (fa_ws x))))) by (unfold w0; rewrite L; reflexivity).
  split; [reflexivity|]. split; [change (2 ^ 23) with 8388608; lia|].
  split; [exact (Bt 0%nat ltac:(lia))|]. split; [exact (Bt 1%nat ltac:(lia))|]. split; [exact (Bt 2%nat ltac:(lia))|]. split; [exact (Bt 3%nat ltac:(lia))|].
  split. { change 4 with (Z.of_nat 4) at 1. rewrite (Bt 4%nat ltac:(lia)). cbn [nth bs]. unfold fa_event. cbn [ev_wbeats]. destruct (ws_data_en _ _); reflexivity. }
  split; [exact (Bt 7%nat ltac:(lia))|]. split; [exact (Bt 8%nat ltac:(lia))|].
  split; [exact (Bt 9%nat ltac:(lia))|].
  split. { change 10 with (Z.of_nat 10) at 1. rewrite (Bt 10%nat ltac:(lia)). cbn [nth bs]. unfold fa_event. cbn [ev_rbeats]. unfold hr_error, hr_data_en, rs_hr, rs_data_en. cbn [hri_rvalid hri_rresp].
    unfold fa_rs_in. cbn [rsi_rvalid rsi_rresp]. destruct (hr_rready (rs_r (fa_rs x)) && fai_rvalid i); reflexivity. }
  assert (D1 : w0 / 2 ^ 11 = hw_active (ws_w (fa_ws x)) + 16 * (hr_active (rs_r (fa_rs x)) + 16 * hw_unconf (ws_w (fa_ws x)))) by (symmetry; apply Z.div_unique with (cat1 bs); [lia|change (2 ^ 11) with 2048; lia]).
  assert (D2 : w0 / 2 ^ 15 = hr_active (rs_r (fa_rs x)) + 16 * hw_unconf (ws_w (fa_ws x))).
  { symmetry; apply Z.div_unique with (cat1 bs + 2048 * hw_active (ws_w (fa_ws x))); change (2 ^ 15) with 32768; [left|]; lia. }
  assert (D3 : w0 / 2 ^ 19 = hw_unconf (ws_w (fa_ws x))).
  { symmetry; apply Z.div_unique with (cat1 bs + 2048 * hw_active (ws_w (fa_ws x)) + 32768 * hr_active (rs_r (fa_rs x))); change (2 ^ 19) with 524288; [left|]; lia. }
  rewrite D1, D2, D3.
  split; [symmetry; apply Z.mod_unique with (hr_active (rs_r (fa_rs x)) + 16 * hw_unconf (ws_w (fa_ws x))); [left|]; lia|].
  split; [symmetry; apply Z.mod_unique with (hw_unconf (ws_w (fa_ws x))); [left|]; lia|].
  split; [reflexivity|]. split; [reflexivity|]. split; [reflexivity|]. split; [reflexivity|]. split; [reflexivity|]. split; [reflexivity|]. split; [|reflexivity].
  unfold slice. change (32 - 0) with 32. change (64 - 32) with 32. change (2 ^ 0) with 1. rewrite Z.div_1_r.
  assert (B : 0 <= p64_data (fa_p64 x) / 2 ^ 32 < 2 ^ 32) by (split; [apply Z.div_pos; lia|apply Z.div_lt_upper_bound; lia]).
  rewrite (Z.mod_small (p64_data (fa_p64 x) / 2 ^ 32)) by exact B. pose proof (Z.div_mod (p64_data (fa_p64 x)) (2 ^ 32) ltac:(lia)). lia.
Qed.
Lemma explained_mono (sn sn' : list Z -> Prop) : (forall x, sn x -> sn' x) -> forall l b b', explained (dbank_rd sn) dbank_wr b l b' -> explained (dbank_rd sn') dbank_wr b l b'.
Proof.
  intros H. induction l as [|[a v r|a d st r] l IH]; intros b b' X; cbn [explained] in *; [exact X| |]; destruct X as [X1 X2]; split; auto.
  unfold dbank_rd in *. destruct (ddecode a); auto. destruct X1 as [(ins & S & E) Er]. split; [exists ins; auto|exact Er].
Qed.
Fixpoint fa_dl_ins (R : rf_st) (s : fa_st) (l : list fa_in) : list (ax_in * list Z) :=
  match l with [] => [] | i :: r => (fai_lite i, fa_ins s i) :: fa_dl_ins R (fa_step R s i) r end.
Lemma fa_dl_proj R : forall l s, no_reset R s l -> fa_dl (fa_run R s l) = dl_run (fa_dl s) (fa_dl_ins R s l) /\ fa_lite_trace R s l = dl_trace (fa_dl s) (fa_dl_ins R s l).
Proof.
  induction l as [|i l IH]; intros s Q; [split; reflexivity|]. cbn [fa_run fa_dl_ins dl_run fa_lite_trace dl_trace].
  assert (H0 : b_rst (fa_bt s) = false) by (apply (Q [] (i :: l)); [reflexivity|discriminate]).
  destruct (IH (fa_step R s i)) as [I1 I2].
  { intros l1 l2 E1 N. apply (Q (i :: l1) l2); [rewrite E1; reflexivity|exact N]. }
  assert (E : fa_dl (fa_step R s i) = dl_step (fa_dl s) (fai_lite i) (fa_ins s i)) by (unfold fa_step; rewrite H0; reflexivity).
  rewrite E in I1, I2. rewrite I1, I2. auto.
Qed.
Lemma fa_dl_ins_in R : forall l s x ins, In (x, ins) (fa_dl_ins R s l) -> exists l1 i l2, l = l1 ++ i :: l2 /\ ins = fa_ins (fa_run R s l1) i.
Proof.
  induction l as [|i l IH]; intros s x ins H; [destruct H|]. cbn [fa_dl_ins] in H. destruct H as [H|H].
  - injection H as _ <-. exists [], i, l. auto.
  - destruct (IH _ _ _ H) as (l1 & j & l2 & -> & E). exists (i :: l1), j, l2. auto.
Qed.
(* C52.  Within a frame, for every protocol-obeying AXI-lite master: the completed transactions are explained, in
   order, by the register bank read_addr, write_addr, start and nine read-only status registers, and a value read from status register
   k is what fa_status_ok says, in some cycle of the frame.  When no write is in progress, the three registers
   hold what the bank says. *)
Theorem C52_registers : forall R s l, fa_fresh s -> no_reset R s l ->
  let tr := fa_lite_trace R s l in
  m_all_ok ms_init tr ->
  m_all_sane ms_init tr /\
  exists B, explained (dbank_rd (fun ins => exists l1 i l2, l = l1 ++ i :: l2 /\ fa_status_ok R s l1 i ins)) dbank_wr dbank0 (m_log ms_init tr) B /\
    let x := fa_dl (fa_run R s l) in
    (m_aw (m_run ms_init tr) = PNot -> dl_read_addr x = g_read B /\ dl_write_addr x = g_write B /\ dl_start x = g_start B).
Proof.
  intros R s l HF HQ tr Hok. destruct (fa_dl_proj R l s HQ) as [P1 P2]. unfold tr in *. assert (Ed : fa_dl s = dl_init) by apply HF. rewrite Ed in P1, P2.
  rewrite P2 in *. destruct (C47_sequential (fa_dl_ins R s l) Hok) as (S1 & B & X & Y). split; [exact S1|]. exists B. split; [|cbv zeta in *; rewrite P1; exact Y].
  eapply explained_mono; [|exact X]. intros ins (x & Hin). destruct (fa_dl_ins_in R l s x ins Hin) as (l1 & i & l2 & E & ->). exists l1, i, l2. split; [exact E|].
  apply fa_ins_status; [exact HF|]. rewrite E in HQ. apply no_reset_app in HQ. exact HQ.
Qed.

(* A concrete run: the register file says 16 x 8, the start register is written over AXI-lite, the memory answers
   at full speed.  The first frame is finished: the core took 128 samples and gave 150 words
   (37 and a half 64-bit words), 33 beats were written to memory; then everything stops. *)
Definition fx_lite (go : bool) : ax_in :=
  {| ai_arvalid := false; ai_araddr := 0; ai_rready := true; ai_awvalid := go; ai_awaddr := 4104; ai_wvalid := go; ai_wdata := 4294967295; ai_wstrb := 15; ai_bready := true |}.
Fixpoint fx_gen (R : rf_st) (n : nat) (t out b : Z) (s : fa_st) : list fa_in :=
  match n with
  | O => []
  | S n =>
    let rv := 0 <? out in
    let i := {| fai_lite := fx_lite (t <? 6); fai_arready := true; fai_rvalid := rv; fai_rlast := rv && (b mod 16 =? 15);
                fai_rdata := (b * 1234567891234567 + 98765) mod 2 ^ 64; fai_rresp := 0;
                fai_awready := true; fai_wready := true; fai_bvalid := false; fai_bresp := 0 |} in
    let beat := rs_data_en (fa_rs s) (fa_rs_in s i) in
    let out' := out + (if rs_addr_en (fa_rs s) (fa_rs_in s i) then 1 else 0) - (if beat && (b mod 16 =? 15) then 1 else 0) in
    i :: fx_gen R n (t + 1) out' (if beat then b + 1 else b) (fa_step R s i)
  end.
Definition fx_R : rf_st := {| rf_width := 16; rf_height := 8; rf_allowed := 6666000 |}.
Example C52_example :
  let log := fa_log fx_R ev0 fa_init (fx_gen fx_R 400 0 0 0 fa_init) in
  length log = 2%nat /\
  match log with
  | [e; e'] =>
      length (concat (ev_took e)) = 128%nat /\ length (cut (ev_gave e)) = 150%nat /\
      length (filter wbeat_real (ev_wbeats e)) = 33%nat /\ length (pack4 (map fst (ev_gave e))) = 37%nat /\
      firstn 4 (ev_raddrs e) = [0; 128; 256; 384] /\ length (ev_rbeats e) = 64%nat /\ ev_raddrs e' = [] /\ ev_waddrs e' = []
  | _ => False
  end.
Proof. vm_compute. repeat split. Qed.
(* the same run up to cycle 60 obeys the hypotheses of C52_samples *)
Example C52_samples_example : let l := fx_gen fx_R 60 0 0 0 fa_init in
  rslave_ok 0 0 (fa_rs fa_init) (fa_rs_ins fx_R fa_init l) /\ (20 < length (concat (ev_took (fa_events fx_R fa_init l))))%nat /\
  existsb (fun n => b_rst (fa_bt (fa_run fx_R fa_init (firstn n l)))) (seq 0 61) = false.
Proof. vm_compute. repeat split; try lia; intros; try discriminate; auto. Qed.
(* Software writes 0x10000 and 0x20000 to the address registers, starts the DMA and reads the read-burst counter; the memory
   accepts read addresses and does not answer.  Eight bursts are requested, from 0x10000 on, and the counter read is 8. *)
Definition fb (arv : bool) (ara : Z) (awv : bool) (awa : Z) (wv : bool) (wd : Z) : ax_in :=
  {| ai_arvalid := arv; ai_araddr := ara; ai_rready := true; ai_awvalid := awv; ai_awaddr := awa; ai_wvalid := wv; ai_wdata := wd; ai_wstrb := 15; ai_bready := true |}.
Definition fw (a d : Z) : list ax_in := repeat (fb false 0 true a true d) 3 ++ repeat (fb false 0 false 0 true d) 1 ++ repeat (fb false 0 false 0 false 0) 2.
Definition fa_ex : list fa_in :=
  map (fun b => {| fai_lite := b; fai_arready := true; fai_rvalid := false; fai_rlast := false; fai_rdata := 0; fai_rresp := 0;
                   fai_awready := true; fai_wready := true; fai_bvalid := false; fai_bresp := 0 |})
    (fw (4 * 0x400) 0x10000 ++ fw (4 * 0x401) 0x20000 ++ fw (4 * 0x402) 0xFFFFFFFF ++ repeat (fb false 0 false 0 false 0) 20 ++
     repeat (fb true (4 * 0x406) false 0 false 0) 3 ++ repeat (fb false 0 false 0 false 0) 3).
Example C52_registers_example : let e := fa_events fx_R fa_init fa_ex in let tr := fa_lite_trace fx_R fa_init fa_ex in
  fa_fresh fa_init /\ no_reset fx_R fa_init fa_ex /\ m_all_ok ms_init tr /\
  ev_raddrs e = seq_addrs 0x10000 8 /\ ev_waddrs e = seq_addrs 0x20000 8 /\
  m_log ms_init tr = [Did_write (4 * 0x400) 0x10000 15 0; Did_write (4 * 0x401) 0x20000 15 0; Did_write (4 * 0x402) 0xFFFFFFFF 15 0; Did_read (4 * 0x406) 8 0].
Proof.
  cbv zeta. split; [exact fa_init_fresh|]. split; [|split; [|vm_compute; repeat split]].
  - assert (H : forallb (fun n => negb (b_rst (fa_bt (fa_run fx_R fa_init (firstn n fa_ex))))) (seq 0 (length fa_ex)) = true) by (vm_compute; reflexivity).
    rewrite forallb_forall in H. intros l1 l2 E N. specialize (H (length l1)). rewrite E, app_length in H. rewrite firstn_app, Nat.sub_diag, firstn_all, firstn_O, app_nil_r in H.
    destruct (b_rst (fa_bt (fa_run fx_R fa_init l1))); [|reflexivity]. symmetry. apply H. apply in_seq. destruct l2; [congruence|cbn [length]; lia].
  - vm_compute. repeat match goal with |- _ /\ _ => split | |- True => exact I end; intros; try reflexivity; try discriminate; congruence.
Qed.
