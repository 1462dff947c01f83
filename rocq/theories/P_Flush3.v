(* How soon everything complete is out when the source goes on as it likes. *)
From Verif Require Import Bits Spec Spec_Core Spec_Rate Spec_Flush M_Config M_Signals M_Predictor M_Difference M_Encode M_Merge M_I1 M_Fifo M_Converter M_VBits M_I3
  P_Fifo P_Encode P_Merge P_Signals P_Predictor P_I1 P_Tokens P_Converter P_VBits P_I3 P_Decode P_Run P_Live P_Live2 P_LiveBound P_Rate P_Rate2 P_Rate3 P_Rate4 P_Rate5 P_Delay P_Drain Props_Arith Props_Core Props_Live Props_Rate P_Flush2.
Ltac Zify.zify_post_hook ::= idtac.

(* a pixel has one bit at least *)
Lemma code_pos bd t d : 2 <= bd <= 16 -> table_ok bd t -> Z.abs d < 2 ^ bd -> 1 <= len (encode_diff t d).
Proof.
  intros Hb [Hl HF] Hd. assert (Hcat : 0 <= category d <= bd) by (apply (P_Normalize.category_range bd d); lia). unfold encode_diff. rewrite len_app. pose proof (len_nonneg (extra_bits d)).
  assert (1 <= len (code_bits t (category d))); [|lia]. unfold code_bits. destruct (nth_error t (Z.to_nat (category d))) as [[cl cd]|] eqn:E.
  - apply nth_error_In in E. rewrite Forall_forall in HF. specialize (HF _ E). cbn [fst snd] in HF. unfold len. rewrite bitsz_length by lia. lia.
  - apply nth_error_None in E. lia.
Qed.
Lemma ref_len_lo bd t W : 2 <= bd <= 16 -> table_ok bd t -> forall px img, Forall (in_range bd) img -> Forall (in_range bd) px -> len px <= len (ref_encode t bd W img px).
Proof.
  intros Hb Ht. induction px as [|p px IH]; intros img Hi Hp; [cbn; lia|]. apply Forall_cons_iff in Hp. destruct Hp as [Hp1 Hp]. cbn [ref_encode]. rewrite len_app.
  assert (Hpr : in_range bd (prediction bd W img (Z.of_nat (length img)))) by (apply prediction_range; [lia|assumption]).
  pose proof (code_pos bd t (p - prediction bd W img (Z.of_nat (length img))) Hb Ht ltac:(unfold in_range in *; lia)) as L.
  specialize (IH (img ++ [p]) ltac:(apply Forall_app; split; [assumption|constructor; [assumption|constructor]]) Hp). unfold len in *. cbn [length]. lia.
Qed.

Lemma stored_bits c t W H A P done hist s : cfg_ok c = true -> table_ok (bd c) t -> i3_inv c t W H (W / ps c) A P done hist s ->
  len (ref_encode t (bd c) W [] (concat A)) <= outb c * (len done + 1) + store_bits c.
Proof.
  intros Hc Ht I. set (G := W / ps c) in *.
  pose proof (cfg_vb c Hc) as Hvb. pose proof (v_tok _ _ _ _ _ _ _ _ _ _ I) as T. pose proof (v_done _ _ _ _ _ _ _ _ _ _ I) as D. unfold vb_done in D. set (n := len done) in *.
  assert (Ho : len (done ++ offered (s_vb s)) <= n + 1) by (rewrite len_app; unfold offered; destruct (vo_valid (vb_out (s_vb s))); unfold n, len in *; cbn [length]; lia).
  assert (Hob : 1 <= outb c) by apply Hvb. assert (Hcap : 0 <= bufs c /\ 0 <= store_bits c).
  { pose proof (cfg_cfd c Hc) as X1. pose proof (cv_k_bound c (cfg_cv c Hc)) as (K1 & _). assert (X2 : cf_steps c = cv_k c + 3) by reflexivity.
    assert (X3 : 1 <= conv c /\ conv c <= total_ctr c /\ 25 <= ljd c /\ conv c + outb c <= bufs c) by (unfold cfg_ok in Hc; lia). split; [lia|]. unfold store_bits.
    assert (0 <= cfd c * (conv c + 1)) by nia. assert (0 <= ljd c * (total_ctr c + 1)) by nia. lia. }
  assert (Hft : len (frame_toks t (bd c) W A (G * H)) = len (ref_encode t (bd c) W [] (concat A)) + b2z (len A =? G * H)).
  { unfold frame_toks. rewrite len_app. unfold len at 1. rewrite map_length. fold (len (ref_encode t (bd c) W [] (concat A))). destruct (len A =? _); reflexivity. }
  destruct (finished_dec s) as [Hfin|Hnf].
  - unfold finished in Hfin. rewrite Hfin in D. destruct D as (pw & w & bs & D1 & _ & D2 & D3).
    assert (X : len bs <= outb c * (n + 1)).
    { pose proof (packs_bits (outb c) (pw ++ [w]) bs ltac:(lia) D2) as X. pose proof (cut_le (done ++ offered (s_vb s))) as Y. rewrite D1, len_app in Y. unfold plain in Y. unfold len at 1 in Y. rewrite map_length in Y. fold (len pw) in Y. change (len [(w, true)]) with 1 in Y. rewrite len_app in X. change (len [w]) with 1 in X. nia. }
    unfold frame_toks in T. rewrite D3 in T.
    assert (Y : len (ref_encode t (bd c) W [] (concat A)) <= len bs); [|lia].
    rewrite <- app_assoc in T. cbn [app] in T. apply map_Some_None in T. rewrite T. lia.
  - assert (D' : exists pw, done ++ offered (s_vb s) = plain pw /\ P = map Some (wbits (outb c) pw)) by (unfold finished in Hnf; destruct (vo_state (vb_out (s_vb s))); [| |congruence]; destruct D as (pw & X1 & _ & X2); exists pw; auto).
    destruct D' as (pw & D1 & D2). pose proof (stage_cap _ _ _ _ _ _ _ _ _ _ Hc Ht I Hnf) as B. apply (f_equal len) in T. rewrite Hft in T. rewrite !len_app in T.
    assert (LP : len P <= outb c * (n + 1)).
    { rewrite D2. unfold len. rewrite map_length. rewrite wbits_length by lia. rewrite D1 in Ho. unfold plain in Ho. unfold len at 1 in Ho. rewrite map_length in Ho. fold (len pw) in Ho. nia. }
    destruct (v_vb _ _ _ _ _ _ _ _ _ _ I) as [_ Vi]. specialize (Vi Hnf).
    assert (LV : len (vb_pend (s_vb s)) <= bufs c + b2z (vi_end (vb_in (s_vb s))) + z_v s).
    { unfold vb_pend. unfold finished in Hnf.
      assert (Ep : match vo_state (vb_out (s_vb s)) with VO_END => [] | _ => vi_pend (vb_in (s_vb s)) end = vi_pend (vb_in (s_vb s))) by (destruct (vo_state (vb_out (s_vb s))); congruence).
      rewrite Ep. unfold vi_pend. rewrite len_app. destruct Vi as (_ & _ & _ & _ & V5 & _). rewrite tk_len by lia. unfold z_v. lia. }
    assert (Hend : b2z (vi_end (vb_in (s_vb s))) <= b2z (len A =? G * H)).
    { destruct (vi_end (vb_in (s_vb s))) eqn:Ee; [|apply b2z_01]. pose proof (v_len _ _ _ _ _ _ _ _ _ _ I) as Vl. destruct (Z_lt_le_dec (len A) (G * H)) as [X|X].
      - exfalso. eapply open_frame; [exact I|exact X|left; exact Ee].
      - replace (len A =? G * H) with true by lia. cbn [b2z]. lia. }
    unfold z_q2, z_o, z_k, z_q1, z_h in B. unfold store_bits. pose proof (b2z_01 (len A =? G * H)). lia.
Qed.

(* one cycle, whatever it does *)
Definition gcost (c : config) : Z := gw c + 27.
Lemma psi_cons c h hist s : cfg_ok c = true -> psi c (h :: hist) s <= psi c (None :: hist) s + gcost c * b2z (is_some h).
Proof.
  intros Hc. pose proof (latency_bound c Hc) as Hl. unfold psi, gcost. destruct (latency c) as [|n] eqn:En; [lia|]. rewrite !hcount_cons. change (is_some None) with false. cbn [b2z].
  change (hd_w (S n) (h :: hist)) with ((if is_some h then Z.of_nat (S n) else 0) + hd_w n hist). change (hd_w (S n) (None :: hist)) with (0 + hd_w n hist).
  destruct (is_some h); cbn [b2z]; lia.
Qed.
Lemma om_step1 c t W H G A P done hist s i : cfg_ok c = true -> i3_inv c t W H G A P done hist s -> op_inv c s -> acc_ok c W H s i ->
  let s' := i3_step c (mem_of (bd c) t) s i in
  table_ok (bd c) t -> geom (ps c) W H G -> 4 / ps c <= G ->
  om c (i3_new c G A s i :: hist) s' <= om c hist s + gcost c * b2z (i3_accept s i) /\
  (in_busy i = false -> ~ finished s -> om c (i3_new c G A s i :: hist) s' < om c hist s + gcost c * b2z (i3_accept s i) \/ (hollow c hist s /\ vi_end (vb_in (s_vb s)) = false)).
Proof.
  intros Hc I O Hao s' Ht Hg HG4.
  destruct (i3_accept s i) eqn:Ea.
  2:{ pose proof (om_step0 c t W H G A P done hist s i Hc I O Ea Ht Hg HG4) as X. fold s' in X. unfold i3_new. rewrite Ea. cbn [b2z]. rewrite Z.mul_0_r, Z.add_0_r. exact X. }
  pose proof (i3_inv_step c t W H G A P done hist s i Hc Ht Hg HG4 Hao I) as I'. fold s' in I'.
  assert (Hb : 0 <= bufs c) by (unfold cfg_ok in Hc; lia).
  assert (HA : len A < G * H).
  { destruct (Z_lt_le_dec (len A) (G * H)) as [X|X]; [exact X|]. exfalso. pose proof (v_len _ _ _ _ _ _ _ _ _ _ I). assert (Y : len A = G * H) by lia. pose proof (full_noaccept c t W H G A P done hist s i I Y). congruence. }
  pose proof (open_frame _ _ _ _ _ _ _ _ _ _ I HA) as Hcl. assert (He : vi_end (vb_in (s_vb s)) = false) by (destruct (vi_end (vb_in (s_vb s))) eqn:X; [elim Hcl; left; exact X|reflexivity]).
  assert (F : ~ finished s) by (intros X; apply Hcl; right; exact X). destruct O as [O|B]; [contradiction|].
  assert (Hp : 0 <= psi c hist s) by (eapply psi_nonneg; eassumption). assert (Hgc : 0 <= gcost c).
  { unfold gcost, gw. assert (Hcv1 : 1 <= conv c) by apply (cfg_cv c Hc). assert (Hst : 1 <= cv_steps c) by (destruct (cfg_cv c Hc); unfold cv_steps; apply Z.div_le_lower_bound; lia). nia. }
  assert (Hch : forall x, 0 <= vi_consum (vb_in (s_vb x)) <= bufs c -> 0 <= chi x <= 2 * bufs c + 1) by (intros x X; unfold chi; destruct (vo_state (vb_out (s_vb x))); lia).
  rewrite (om_open c hist s F), He. cbn [b2z]. destruct (finished_dec s') as [F'|F'].
  { rewrite om_fin by assumption. split; intros; lia. }
  rewrite (om_open c _ s' F'). destruct (vi_end (vb_in (s_vb s'))) eqn:He'.
  - destruct (v_vb _ _ _ _ _ _ _ _ _ _ I') as [_ Vi]. specialize (Vi F'). destruct Vi as (_ & _ & _ & _ & V5 & _). specialize (Hch s' V5). split; intros; lia.
  - destruct (psi_step0 c t W H G A P done hist s i Hc I Hcl B) as (X1 & X2). fold s' in X1, X2. pose proof (psi_cons c (i3_new c G A s i) hist s' Hc) as X3.
    assert (X4 : is_some (i3_new c G A s i) = true) by (unfold i3_new; rewrite Ea; reflexivity). rewrite X4 in X3. cbn [b2z] in X3.
    split; [lia|]. intros Y _. destruct (X2 Y) as [Z|Z]; [left; lia|right; auto].
Qed.

Section run.
  Variables (c : config) (t : table) (W H : Z).
  Hypotheses (Hc : cfg_ok c = true) (Ht : table_ok (bd c) t) (Hg : geom (ps c) W H (W / ps c)) (HG4 : 4 / ps c <= W / ps c).
  Let mem := mem_of (bd c) t.
  Let G := W / ps c.
  Lemma code_mono A X : (length (ref_encode t (bd c) W [] (concat A)) <= length (ref_encode t (bd c) W [] (concat (A ++ X))))%nat.
  Proof. rewrite concat_app, ref_encode_app, app_length. lia. Qed.
  (* the end, or everything complete of A out, or a group taken for every gcost ready cycles *)
  Lemma busy_run : forall ins s A P done hist, run_ok c mem W H s ins -> i3_inv c t W H G A P done hist s -> op_inv c s ->
    existsb snd (i3_transfers c mem s ins) = true \/
    Z.of_nat (length (ref_encode t (bd c) W [] (concat A))) < outb c * len (done ++ i3_transfers c mem s ins) + outb c \/
    len (filter (fun i => negb (in_busy i)) ins) <= om c hist s + gcost c * len (i3_accepted c mem s ins).
  Proof.
    induction ins as [|i ins IH]; intros s A P done hist R I O.
    - right. right. cbn [filter i3_accepted]. change (len (@nil i3_in)) with 0. change (len (@nil (list Z))) with 0. destruct (finished_dec s) as [F|F]; [rewrite om_fin by exact F; lia|]. rewrite om_open by exact F.
      pose proof (psi_nonneg _ _ _ _ _ _ _ _ _ _ Hc I F). destruct (v_vb _ _ _ _ _ _ _ _ _ _ I) as [_ Vi]. specialize (Vi F). destruct Vi as (_ & _ & _ & _ & V5 & _).
      destruct (vi_end (vb_in (s_vb s))); [unfold chi; destruct (vo_state (vb_out (s_vb s)))|]; lia.
    - destruct R as [R1 R2]. cbn [i3_transfers]. fold mem. rewrite existsb_app.
      pose proof (om_step1 c t W H G A P done hist s i Hc I O R1 Ht Hg HG4) as (M1 & M2). fold mem in M1, M2.
      pose proof (i3_inv_step c t W H G A P done hist s i Hc Ht Hg HG4 R1 I) as I'. fold mem in I'.
      assert (O' : op_inv c (i3_step c mem s i)) by (eapply op_step; eassumption).
      set (tr0 := if i3_valid_out s && negb (in_busy i) then [(i3_data_out s, i3_end_out s)] else []) in *.
      assert (E0 : tr0 = transferred (s_vb s) (in_busy i)) by reflexivity.
      assert (EA : len (i3_accepted c mem s (i :: ins)) = b2z (i3_accept s i) + len (i3_accepted c mem (i3_step c mem s i) ins)) by (cbn [i3_accepted]; rewrite len_app; unfold i3_accept; destruct (in_valid i && negb (i3_nready s)); reflexivity).
      rewrite EA. cbn [filter].
      pose proof (code_mono A (if i3_accept s i then [in_px i] else [])) as Hmono.
      assert (HIH : existsb snd tr0 || existsb snd (i3_transfers c mem (i3_step c mem s i) ins) = true \/
        Z.of_nat (length (ref_encode t (bd c) W [] (concat A))) < outb c * len (done ++ tr0 ++ i3_transfers c mem (i3_step c mem s i) ins) + outb c \/
        len (filter (fun i => negb (in_busy i)) ins) <= om c (i3_new c G A s i :: hist) (i3_step c mem s i) + gcost c * len (i3_accepted c mem (i3_step c mem s i) ins)).
      { destruct (IH _ _ _ _ _ R2 I' O') as [Y|[Y|Y]]; [left; rewrite Y; apply orb_true_r|right; left|right; right; exact Y]. rewrite app_assoc, E0. lia. }
      destruct (in_busy i) eqn:Eb; cbn [negb].
      + destruct HIH as [X|[X|X]]; [left; exact X|right; left; exact X|right; right; lia].
      + change (len (i :: filter (fun i => negb (in_busy i)) ins)) with (len ([i] ++ filter (fun i => negb (in_busy i)) ins)). rewrite (len_app [i]). change (len [i]) with 1.
        destruct (finished_dec s) as [F|F].
        * left. destruct (v_vb _ _ _ _ _ _ _ _ _ _ I) as [Vo _]. unfold vo_inv in Vo. unfold finished in F. rewrite F in Vo. destruct Vo as [V1 V2]. unfold tr0, i3_valid_out, i3_data_out, i3_end_out. rewrite V1, V2. reflexivity.
        * destruct (M2 eq_refl F) as [X|[Q He]]; [destruct HIH as [Z|[Z|Z]]; [left; exact Z|right; left; exact Z|right; right; lia]|]. right. left.
          pose proof (hollow_bits _ _ _ _ _ _ _ _ _ _ I F Q He) as B.
          pose proof (v_done _ _ _ _ _ _ _ _ _ _ I) as D. unfold vb_done in D. unfold finished in F.
          assert (DD : exists pw, done ++ offered (s_vb s) = plain pw /\ P = map Some (wbits (outb c) pw)) by (destruct (vo_state (vb_out (s_vb s))); [| |congruence]; destruct D as (pw & E1 & _ & E2); exists pw; auto).
          destruct DD as (pw & E1 & E2). apply (f_equal (@length tok)) in E2. rewrite map_length in E2.
          assert (Ho : 0 <= outb c) by (unfold cfg_ok in Hc; lia). pose proof (wbits_length (outb c) pw Ho) as WL.
          assert (ET : tr0 = offered (s_vb s)) by (rewrite E0; unfold transferred, offered; rewrite andb_true_r; reflexivity).
          rewrite ET, app_assoc, len_app, E1. assert (len (plain pw) = len pw) as -> by (unfold len, plain; rewrite map_length; reflexivity).
          pose proof (len_nonneg (i3_transfers c mem (i3_step c mem s i) ins)). nia.
  Qed.
End run.
