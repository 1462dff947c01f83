(* A core in front of which or behind which somebody waits: every lost cycle is lost only once. *)
From Verif Require Import Bits Spec Spec_Core Spec_Rate M_Config M_Signals M_Predictor M_Difference M_Encode M_Merge M_I1 M_Fifo M_Converter M_VBits M_I3
  P_Fifo P_Encode P_Merge P_Signals P_Predictor P_I1 P_Tokens P_Converter P_VBits P_I3 P_Decode P_Run P_Live P_Live2 P_Rate P_Rate2 P_Rate3 P_Rate4 P_Rate5 Props_Arith Props_Core Props_Live.
Ltac Zify.zify_post_hook ::= idtac.

(* groups in front of the converter *)
Definition early (c : config) (hist : hist_t) (s : i3_st) : Z := hcount hist (latency c) + len (fifo_q (ljd c) (s_ljf s)) + b2z (cv_valid_reg (s_cv s)).
Definition late (c : config) (s : i3_st) : Z := waiting c (vb_in (s_vb s)) (s_cf s) (cv_valid_in (s_cv s)).
Definition shortb (i : vi_st) : bool := match vi_state i with VI_REGISTER => true | VI_INPUT | VI_CLEAN => negb (vi_valid_reg i) | VI_BURST => false end.

Record gr_inv (c : config) (t : table) (M : Z) (hist : hist_t) (s : i3_st) : Prop := {
  gr_h : Forall (fun h => gsize t h <= M) hist;
  gr_q : Forall (fun w => lctr c w <= M) (fifo_q (ljd c) (s_ljf s));
  gr_st : match cv_state (s_cv s) with CV_STEPS _ => False | _ => True end;
  gr_reg : cv_valid_reg (s_cv s) = true -> cv_ctr_reg (s_cv s) <= M;
  gr_in : cv_valid_in (s_cv s) = true -> cv_enc_in_ctr (s_cv s) <= M;
  gr_rd : ff_rd (s_ljf s) = false -> ff_lvl (s_ljf s) <= 1;
  gr_burst : cv_state (s_cv s) = CV_BURST -> cv_valid_reg (s_cv s) = false -> ff_lvl (s_ljf s) <= 1;
  gr_ljcf : s_lj_cf s = true -> ljd c - 11 <= len (fifo_q (ljd c) (s_ljf s));
  gr_cfcf : s_cf_cf s = true -> cfd c - cf_steps c - 1 <= len (fifo_q (cfd c) (s_cf s)) }.

Lemma cf_writable c t W H G A P done hist s : cfg_ok c = true -> i3_inv c t W H G A P done hist s -> cv_valid_in (s_cv s) = true -> fifo_writable (cfd c) (s_cf s) = true.
Proof.
  intros Hc I E. apply fifo_writable_level; [apply (v_cff _ _ _ _ _ _ _ _ _ _ I)|]. destruct (v_cfb _ _ _ _ _ _ _ _ _ _ I) as [B _].
  pose proof (cv_k_bound c (cfg_cv c Hc)) as (K1 & _). unfold cv_weight in B. rewrite E in B. cbn [b2z] in B. destruct (cv_state (s_cv s)); lia.
Qed.

Lemma q_drop D f we din re : 3 <= D -> fifo_inv D f -> len (fifo_q D f) - 1 <= len (fifo_q D (fifo_step D f we din re)).
Proof.
  intros HD Hf. destruct (fifo_step_ok D f we din re HD Hf) as [_ ->]. unfold len. rewrite app_length. unfold fifo_take.
  destruct (re && ff_rd f); [|lia]. destruct (fifo_q D f); cbn [tl length]; lia.
Qed.
Lemma lq_len D f we din re : 3 <= D -> fifo_inv D f -> (we = true -> fifo_writable D f = true) ->
  len (fifo_q D (fifo_step D f we din re)) = len (fifo_q D f) + b2z we - b2z (re && ff_rd f).
Proof.
  intros HD Hf Hw. destruct (fifo_step_ok D f we din re HD Hf) as [_ ->]. unfold len. rewrite app_length.
  assert (X : length (if we && fifo_writable D f then [din] else []) = Z.to_nat (b2z we)) by (destruct we; [rewrite (Hw eq_refl)|]; reflexivity).
  rewrite X. pose proof (b2z_01 we). unfold fifo_take. destruct (re && ff_rd f) eqn:El.
  - apply andb_prop in El. destruct El as [_ El]. destruct (fifo_head D f El) as [r ->]. cbn [tl length b2z]. lia.
  - cbn [b2z]. lia.
Qed.

(* an item leaves the converter *)
Definition emits (s : i3_st) : bool := match cv_state (s_cv s) with CV_BURST => cv_valid_reg (s_cv s) | _ => false end.

Lemma gr_step c t M W H G A P done hist s i :
  cfg_ok c = true -> table_ok (bd c) t -> 1 <= M <= conv c ->
  i3_inv c t W H G A P done hist s -> gr_inv c t M hist s -> gsize t (i3_new c G A s i) <= M ->
  gr_inv c t M (i3_new c G A s i :: hist) (i3_step c (mem_of (bd c) t) s i) /\ cv_valid_in (s_cv (i3_step c (mem_of (bd c) t) s i)) = emits s /\
  early c (i3_new c G A s i :: hist) (i3_step c (mem_of (bd c) t) s i) = early c hist s + b2z (i3_accept s i) - b2z (emits s) /\
  (cv_state (s_cv (i3_step c (mem_of (bd c) t) s i)) =
    match cv_state (s_cv s) with
    | CV_IDLE => if s_cf_cf s then CV_IDLE else if cv_valid_reg (s_cv s) then CV_BURST else if ff_rd (s_ljf s) then CV_BURST_PREPARE else CV_IDLE
    | CV_BURST => if cv_valid_reg (s_cv s) && s_cf_cf s then CV_IDLE else CV_BURST
    | _ => CV_BURST end).
Proof.
  intros Hc Ht HM I [Fh Fq Fs Fr Fi Frd Fb Fl Fcf] Hg. set (mem := mem_of (bd c) t).
  pose proof (v_ljf _ _ _ _ _ _ _ _ _ _ I) as Jf. pose proof (v_cff _ _ _ _ _ _ _ _ _ _ I) as Cf. pose proof (v_cv _ _ _ _ _ _ _ _ _ _ I) as (C1 & C2 & C3 & C4 & C5).
  pose proof (lj_writable _ _ _ _ _ _ _ _ _ _ Hc I) as Jw.
  assert (Hd : ff_rd (s_ljf s) = true -> lctr c (ff_dout (s_ljf s)) <= M).
  { intros E. destruct (fifo_head (ljd c) _ E) as [r Hr]. rewrite Hr in Fq. inversion Fq. assumption. }
  assert (Hljd : 25 <= ljd c) by (unfold cfg_ok in Hc; lia). pose proof (cfg_cfd c Hc) as Hcfd. pose proof (cv_k_bound c (cfg_cv c Hc)) as (K1 & _). assert (Hst : cf_steps c = cv_k c + 3) by reflexivity.
  assert (L0 : 0 <= ff_lvl (s_ljf s)) by apply Jf. pose proof (b2z_01 (i1_valid_out c (s_i1 s))) as Hb.
  set (din := item_pack (lj_db c) (lj_cb c) (fst (i1_out c (s_i1 s))) (snd (i1_out c (s_i1 s))) (i1_end_out c (s_i1 s))).
  assert (Hlv := lvl_step (ljd c) (s_ljf s) (i1_valid_out c (s_i1 s)) din (cv_latch_output (s_cv s)) Jf Jw).
  assert (Hrd := fifo_step_rd (ljd c) (s_ljf s) (i1_valid_out c (s_i1 s)) din (cv_latch_output (s_cv s))).
  assert (Hql := lq_len (ljd c) (s_ljf s) (i1_valid_out c (s_i1 s)) din (cv_latch_output (s_cv s)) ltac:(lia) Jf Jw).
  assert (Hqd := q_drop (ljd c) (s_ljf s) (i1_valid_out c (s_i1 s)) din (cv_latch_output (s_cv s)) ltac:(lia) Jf).
  unfold din in Hlv, Hrd, Hql, Hqd. rewrite <- (st_ljf c mem s i) in Hlv, Hrd, Hql, Hqd.
  pose proof (st_cv c mem s i) as Ecv. fold (lctr c (ff_dout (s_ljf s))) in Ecv.
  assert (Hcap : cv_valid_reg (s_cv s) = true -> (cv_ctr_reg (s_cv s) <=? conv c) = true /\ trunc (clog2 (conv c + 1)) (cv_ctr_reg (s_cv s)) <= M).
  { intros Er. specialize (C3 Er). specialize (Fr Er). split; [lia|]. rewrite trunc_clog2; lia. }
  assert (Ein : cv_valid_in (s_cv (i3_step c mem s i)) = emits s).
  { rewrite Ecv. unfold cv_step, cv_try, emits. destruct (cv_state (s_cv s)) eqn:Es.
    - destruct (cv_valid_reg (s_cv s) && negb (s_cf_cf s)); [|destruct (ff_rd (s_ljf s) && negb (s_cf_cf s))]; reflexivity.
    - reflexivity.
    - destruct (cv_valid_reg (s_cv s)); [destruct (cv_ctr_reg (s_cv s) <=? conv c)|]; reflexivity.
    - destruct Fs. }
  assert (Est : cv_state (s_cv (i3_step c mem s i)) = match cv_state (s_cv s) with
    | CV_IDLE => if s_cf_cf s then CV_IDLE else if cv_valid_reg (s_cv s) then CV_BURST else if ff_rd (s_ljf s) then CV_BURST_PREPARE else CV_IDLE
    | CV_BURST => if cv_valid_reg (s_cv s) && s_cf_cf s then CV_IDLE else CV_BURST
    | _ => CV_BURST end).
  { rewrite Ecv. unfold cv_step, cv_try. destruct (cv_state (s_cv s)) eqn:Es.
    - destruct (cv_valid_reg (s_cv s)), (s_cf_cf s), (ff_rd (s_ljf s)); reflexivity.
    - reflexivity.
    - destruct (cv_valid_reg (s_cv s)); [destruct (Hcap eq_refl) as [-> _]; destruct (s_cf_cf s)|]; reflexivity.
    - destruct Fs. }
  assert (Evr : cv_valid_reg (s_cv (i3_step c mem s i)) = match cv_state (s_cv s) with CV_IDLE => cv_valid_reg (s_cv s) | _ => ff_rd (s_ljf s) end).
  { rewrite Ecv. unfold cv_step, cv_try. destruct (cv_state (s_cv s)) eqn:Es.
    - destruct (cv_valid_reg (s_cv s) && negb (s_cf_cf s)); [|destruct (ff_rd (s_ljf s) && negb (s_cf_cf s))]; reflexivity.
    - reflexivity.
    - destruct (cv_valid_reg (s_cv s)); [destruct (cv_ctr_reg (s_cv s) <=? conv c)|]; reflexivity.
    - destruct Fs. }
  assert (Hrd' : ff_rd (s_ljf (i3_step c mem s i)) = false -> ff_lvl (s_ljf (i3_step c mem s i)) <= 1).
  { rewrite Hrd. intros E. rewrite Hlv. destruct (ff_lvl (s_ljf s) =? 0) eqn:E0; cbn [negb andb b2z] in *; [lia|].
    apply orb_false_iff in E. destruct E as [E1 E2]. rewrite E1 in *. apply orb_false_iff in E1. destruct E1 as [E3 E4]. rewrite E4 in E2. destruct (ff_rd (s_ljf s)); discriminate. }
  assert (Hb' : ff_rd (s_ljf s) = false -> ff_lvl (s_ljf (i3_step c mem s i)) <= 1).
  { intros E. specialize (Frd E). rewrite Hlv, E. cbn [negb orb]. rewrite andb_true_r. destruct (ff_lvl (s_ljf s) =? 0) eqn:E0; cbn [negb b2z]; lia. }
  split.
  { split.
    - constructor; assumption.
    - rewrite st_ljf. destruct (fifo_step_ok (ljd c) (s_ljf s) (i1_valid_out c (s_i1 s)) (item_pack (lj_db c) (lj_cb c) (fst (i1_out c (s_i1 s))) (snd (i1_out c (s_i1 s))) (i1_end_out c (s_i1 s))) (cv_latch_output (s_cv s)) ltac:(lia) Jf) as [_ ->].
      apply Forall_app. split; [unfold fifo_take; apply Forall_tl; assumption|].
      destruct (i1_valid_out c (s_i1 s)) eqn:Ev; cbn [andb]; [|constructor]. destruct (fifo_writable (ljd c) (s_ljf s)); [|constructor].
      constructor; [|constructor]. destruct (i1_inv_out c mem (s_i1 s) hist Hc (v_i1 _ _ _ _ _ _ _ _ _ _ I)) as [Hv _]. rewrite Ev in Hv.
      destruct (nth (latency c - 1) hist None) as [[[px pr] e]|] eqn:En; [|discriminate].
      destruct (i1_item c t W H G A P done hist s px pr e Hc Ht I En) as (X1 & X2 & X3). unfold lctr, lj_db, lj_cb. rewrite ctr_pack by assumption. assert (X4 : gsize t (nth (latency c - 1) hist None) <= M); [|rewrite En in X4; cbv zeta in X3; rewrite X3; exact X4]. rewrite Forall_forall in Fh.
      destruct (Nat.ltb (latency c - 1) (length hist)) eqn:El; [apply Nat.ltb_lt in El; apply Fh, nth_In; assumption|apply Nat.ltb_ge in El; rewrite nth_overflow by assumption; cbn; lia].
    - rewrite Est. destruct (cv_state (s_cv s)); [|exact Logic.I| |destruct Fs]; [destruct (s_cf_cf s), (cv_valid_reg (s_cv s)), (ff_rd (s_ljf s))|destruct (cv_valid_reg (s_cv s) && s_cf_cf s)]; exact Logic.I.
    - rewrite Evr. rewrite Ecv. unfold cv_step, cv_try. destruct (cv_state (s_cv s)) eqn:Es.
      + destruct (cv_valid_reg (s_cv s) && negb (s_cf_cf s)); [|destruct (ff_rd (s_ljf s) && negb (s_cf_cf s))]; cbn [cv_ctr_reg]; exact Fr.
      + cbn [cv_ctr_reg]. exact Hd.
      + destruct (cv_valid_reg (s_cv s)) eqn:Er; [|cbn [cv_ctr_reg]; exact Hd]. destruct (cv_ctr_reg (s_cv s) <=? conv c); cbn [cv_ctr_reg]; exact Hd.
      + destruct Fs.
    - rewrite Ein. unfold emits. rewrite Ecv. unfold cv_step. destruct (cv_state (s_cv s)) eqn:Es; try discriminate. intros Er. rewrite Er. destruct (Hcap Er) as [-> X]. cbn [cv_enc_in_ctr]. exact X.
    - exact Hrd'.
    - rewrite Est, Evr. destruct (cv_state (s_cv s)) eqn:Es.
      + destruct (s_cf_cf s); [discriminate|]. destruct (cv_valid_reg (s_cv s)); [discriminate|]. destruct (ff_rd (s_ljf s)); discriminate.
      + intros _. exact Hb'.
      + intros _. exact Hb'.
      + destruct Fs.
    - rewrite st_ljcf. intros X. pose proof (fifo_level_q _ _ Jf) as Y. unfold len in *. lia.
    - rewrite st_cfcf, st_cf. intros X. pose proof (fifo_level_q _ _ Cf) as Y. pose proof (q_drop (cfd c) (s_cf s) (cv_valid_in (s_cv s)) (item_pack (cf_db c) (cf_cb c) (cv_enc_in (s_cv s)) (cv_enc_in_ctr (s_cv s)) (cv_in_end (s_cv s))) (vi_latch_input (vb_in (s_vb s))) ltac:(lia) Cf) as Z. unfold len in *. lia. }
  split; [exact Ein|]. split; [|exact Est].
  unfold early. rewrite Hql, Evr. pose proof (latency_bound c Hc) as Hl. destruct (latency c) as [|n] eqn:En; [lia|]. rewrite hcount_cons, hcount_S.
  destruct (i1_inv_out c mem (s_i1 s) hist Hc (v_i1 _ _ _ _ _ _ _ _ _ _ I)) as [Hvo _]. rewrite En in Hvo. replace (S n - 1)%nat with n in Hvo by lia. rewrite Hvo.
  assert (Ea : is_some (i3_new c G A s i) = i3_accept s i) by (unfold i3_new; destruct (i3_accept s i); reflexivity). rewrite Ea, C1. unfold emits.
  destruct (cv_state (s_cv s)) eqn:Es; cbn [andb b2z]; [lia| |lia|destruct Fs]. rewrite (C2 eq_refl). cbn [b2z]. lia.
Qed.

(* the packer *)
Section packer.
  Variables (c : config) (M cL : Z) (i : vi_st) (f : fifo_st) (v v' : bool) (o : vo_st) (din enc buffer : Z) (e busy : bool) (x x' : Z).
  Definition cV : Z := cL + 5 + bufs c / outb c.
  Hypotheses (Hvb : vb_ok c) (HM : 1 <= M) (HM2 : M <= outb c) (Hbuf : 3 * outb c + M <= bufs c)
    (HD : 3 <= cfd c) (Hf : fifo_inv (cfd c) f) (Hw : v = true -> fifo_writable (cfd c) f = true)
    (Hdin : v = true -> cctr c din <= M) (Hi : vi_inv c i) (He : vi_end i = false) (Hne : vo_state o <> VO_END)
    (B : bk_inv c M i f v).
  Let dec := vo_dec c o (vi_consum i) (vi_end i) busy.
  Let f' := fifo_step (cfd c) f v din (vi_latch_input i).
  Let i' := vi_step c i enc (cctr c (ff_dout f)) e (ff_rd f) dec.

  (* x: how far the packer is behind the clock, waiting cycles not counted *)
  Definition behind (i : vi_st) (x : Z) : Prop := x <= cV - b2z (shortb i) /\ vi_consum i + outb c * x <= outb c * (cV + 2 - b2z (shortb i)).

  Hypothesis Hx : x' <= x + 1 - b2z (vi_inc i) - b2z busy.
  (* what has left the converter is not far behind *)
  Hypothesis Hl : x - waiting c i f v <= cL.

  Lemma behind_step : behind i x -> behind i' x'.
  Proof.
    intros [P1 P2]. pose proof (dec_ge0 c i o busy He) as DG. pose proof (nodec0 c i o busy He Hne) as ND. fold dec in DG, ND.
    pose proof (vi_arith c i enc (cctr c (ff_dout f)) e (ff_rd f) dec Hvb Hi ltac:(congruence) DG ltac:(congruence)) as (C2 & _ & _ & C1 & _). fold i' in C1, C2.
    pose proof Hi as (I1 & I2 & I3 & I4 & I5 & I6 & I7 & I8 & I9 & I10).
    pose proof (b2z_01 v) as Bv. pose proof (b2z_01 (ff_rd f)) as Brd. pose proof (b2z_01 (vi_valid_reg i)) as Bvr. pose proof (b2z_01 busy) as Bb.
    assert (Hob : 1 <= outb c) by apply Hvb. pose proof (Z.div_mod (bufs c) (outb c) ltac:(lia)) as Q1. pose proof (Z.mod_pos_bound (bufs c) (outb c) ltac:(lia)) as Q2.
    assert (HcV : cV = cL + 5 + bufs c / outb c) by reflexivity. set (q := bufs c / outb c) in *. set (m := bufs c mod outb c) in *. assert (Hq : 3 <= q) by nia.
    assert (Hinc : vi_inc i = true -> 1 <= vi_ctr_reg i <= M).
    { intros X. destruct (vi_inc_items c i Hi X) as ((Y & _) & _). split; [lia|]. apply (bk_reg _ _ _ _ _ B). unfold vi_inc in X. destruct (vi_state i); try discriminate; [auto|right; destruct (vi_valid_reg i); [reflexivity|discriminate]]. }
    (* few items wait *)
    assert (Few : x <= cL + 3 -> x' <= cV - 1 /\ vi_consum i' + outb c * x' <= outb c * (cV + 1)).
    { intros X. pose proof (b2z_01 (vi_inc i)). assert (x' <= cL + 4) by lia. split; [lia|]. assert (outb c * x' <= outb c * (cL + 4)) by nia. rewrite HcV.
      replace (outb c * (cL + 5 + q + 1)) with (outb c * (cL + 4) + outb c * q + 2 * outb c) by ring. lia. }
    (* the word that leaves, or the busy sink, pays for the cycle *)
    assert (Pay : forall y, x <= y -> vi_consum i + outb c * x <= outb c * (y + 2) -> vi_inc i = true -> x' <= y /\ vi_consum i' + outb c * x' <= outb c * (y + 2)).
    { intros y X Y Z. specialize (Hinc Z). rewrite Z in Hx, C1. cbn [b2z] in Hx. split; [lia|]. destruct dec.
      - assert (outb c * x' <= outb c * x) by nia. lia.
      - destruct busy; cbn [b2z] in Hx.
        + assert (outb c * x' <= outb c * (x - 1)) by nia. lia.
        + specialize (ND eq_refl eq_refl). assert (outb c * x' <= outb c * y) by nia. lia. }
    assert (Full : forall y, vi_consum i + outb c * x <= outb c * (y + 2) -> 2 * outb c < vi_consum i -> vi_inc i = false -> x' <= y /\ vi_consum i' + outb c * x' <= outb c * (y + 2)).
    { intros y Y X Z. rewrite Z in Hx, C1. cbn [b2z] in Hx. assert (Hxy : x < y).
      { assert (outb c * x < outb c * y) by lia. apply Z.mul_lt_mono_pos_l in H; lia. }
      split; [lia|]. destruct dec.
      - assert (outb c * x' <= outb c * (x + 1)) by nia. lia.
      - destruct busy; cbn [b2z] in Hx.
        + assert (outb c * x' <= outb c * x) by nia. lia.
        + specialize (ND eq_refl eq_refl). lia. }
    unfold behind, shortb in *.
    assert (Est : vi_state i' = match vi_state i with
        | VI_INPUT => if vi_valid_buff i then (if vi_valid_buff i && (vi_ctr_buff i <=? vi_free i) then VI_CLEAN else VI_INPUT) else if vi_valid_reg i then VI_BURST else VI_REGISTER
        | VI_CLEAN => if vi_valid_reg i then VI_BURST else VI_REGISTER | VI_REGISTER => VI_BURST
        | VI_BURST => if vi_valid_reg i && negb (vi_ctr_reg i <=? vi_free i) then VI_INPUT else VI_BURST end) by (unfold i', vi_step; destruct (vi_state i); reflexivity).
    assert (Evr : vi_valid_reg i' = match vi_state i with VI_INPUT | VI_CLEAN => vi_valid_reg i | _ => ff_rd f end) by (unfold i', vi_step; destruct (vi_state i); reflexivity).
    assert (Einc : vi_inc i = match vi_state i with VI_CLEAN => true | VI_BURST => vi_valid_reg i && (vi_ctr_reg i <=? vi_free i) | _ => false end) by reflexivity.
    assert (Hwl : waiting c i f v = ff_lvl f + b2z (ff_rd f) + b2z v + vn i).
    { unfold waiting, len. rewrite <- (fifo_level_q _ _ Hf). reflexivity. }
    rewrite Est, Evr. destruct (vi_state i) eqn:Es.
    - destruct (vi_valid_buff i) eqn:Eb.
      + pose proof (bk_in _ _ _ _ _ B Es Eb) as X. cbn [andb]. set (sh := negb (vi_valid_reg i)) in *. destruct (Full (cV - b2z sh) ltac:(replace (cV - b2z sh + 2) with (cV + 2 - b2z sh) by ring; exact P2) ltac:(lia) Einc) as [Y1 Y2].
        replace (cV - b2z sh + 2) with (cV + 2 - b2z sh) in Y2 by ring. destruct (vi_ctr_buff i <=? vi_free i); split; assumption.
      + destruct (bk_start _ _ _ _ _ B Es Eb) as (X1 & X2 & X3). rewrite X3. destruct Few as [Y1 Y2]. { unfold waiting, vn in Hl. rewrite X1, X2, Es, Eb, X3 in Hl. cbn in Hl. lia. } cbn [b2z]. split; [lia|]. replace (cV + 2 - 1) with (cV + 1) by ring. exact Y2.
    - set (sh := negb (vi_valid_reg i)) in *. destruct (Pay (cV - b2z sh) P1 ltac:(replace (cV - b2z sh + 2) with (cV + 2 - b2z sh) by ring; exact P2) Einc) as [Y1 Y2]. replace (cV - b2z sh + 2) with (cV + 2 - b2z sh) in Y2 by ring.
      unfold sh in *. destruct (vi_valid_reg i); cbn [negb b2z] in *; split; assumption.
    - cbn [b2z] in *. rewrite Einc in Hx, C1. cbn [b2z] in Hx. split; [lia|]. destruct dec.
      + assert (outb c * x' <= outb c * (x + 1)) by nia. lia.
      + assert (outb c * x' <= outb c * (x + 1)) by nia. lia.
    - cbn [b2z] in P1, P2. rewrite Z.sub_0_r in P1, P2. destruct (vi_valid_reg i) eqn:Er.
      + destruct (vi_ctr_reg i <=? vi_free i) eqn:Ef; cbn [andb negb] in Einc |- *.
        * destruct (Pay cV P1 P2 Einc) as [Y1 Y2]. cbn [b2z]. rewrite !Z.sub_0_r. split; assumption.
        * assert (Es' : vi_start i = true) by (destruct (vi_start i) eqn:E''; [reflexivity|destruct (I3 eq_refl) as (Z & _); congruence]). specialize (I4 Es').
          pose proof (bk_reg _ _ _ _ _ B (or_intror Er)) as X. destruct (ff_rd f) eqn:Erd; cbn [negb b2z].
          -- rewrite !Z.sub_0_r. apply Full; [exact P2|lia|exact Einc].
          -- destruct Few as [Y1 Y2]. { rewrite Hwl in Hl. unfold vn in Hl. rewrite Es, Er in Hl. pose proof (bk_rd _ _ _ _ _ B Erd). cbn [b2z] in Hl. lia. } split; [lia|]. replace (cV + 2 - 1) with (cV + 1) by ring. exact Y2.
      + cbn [andb] in Einc |- *. destruct Few as [Y1 Y2]. { rewrite Hwl in Hl. unfold vn in Hl. rewrite Es, Er in Hl. pose proof (bk_burst _ _ _ _ _ B Es Er). cbn [b2z] in Hl. lia. }
        cbn [b2z]. rewrite !Z.sub_0_r. split; [lia|]. assert (outb c * (cV + 1) <= outb c * (cV + 2)) by nia. lia.
  Qed.
End packer.

(* ------------------------------------------------------------------ one cycle of the core *)

Definition cL (c : config) : Z := 12 + Z.of_nat (latency c).

Definition delay_cond (c : config) (M : Z) : Prop :=
  1 <= M <= conv c /\ M <= outb c /\ 3 * outb c + M <= bufs c /\ cf_steps c + 9 + bufs c / outb c <= cfd c.

(* x: clock cycles minus accepted groups minus lost cycles *)
Record dl_inv (c : config) (t : table) (M : Z) (hist : hist_t) (s : i3_st) (x : Z) : Prop := {
  dl_gr : gr_inv c t M hist s;
  dl_bk : bk_inv c M (vb_in (s_vb s)) (s_cf s) (cv_valid_in (s_cv s));
  dl_A : x <= 8;
  dl_L : x + early c hist s <= cL c - cvw s;
  dl_V : behind c (cL c) (vb_in (s_vb s)) (x + early c hist s + late c s) }.

Lemma dl_step c t M W H G A P done hist s i x :
  cfg_ok c = true -> table_ok (bd c) t -> delay_cond c M ->
  i3_inv c t W H G A P done hist s -> len A < G * H -> gsize t (i3_new c G A s i) <= M ->
  (s_nready_reset s = false -> x + 1 <= 8) ->
  dl_inv c t M hist s x -> dl_inv c t M (i3_new c G A s i :: hist) (i3_step c (mem_of (bd c) t) s i) (x + 1 - b2z (i3_accept s i) - b2z (lost i)).
Proof.
  intros Hc Ht (D1 & D2 & D3 & D4) I Hopen Hg Hstart [R1 R2 R3 R4 R5]. set (mem := mem_of (bd c) t).
  pose proof (open_frame _ _ _ _ _ _ _ _ _ _ I Hopen) as Hcl.
  pose proof (v_cff _ _ _ _ _ _ _ _ _ _ I) as Cf. pose proof (v_ljf _ _ _ _ _ _ _ _ _ _ I) as Jf.
  pose proof (cfg_cfd c Hc) as Hcfd. pose proof (cv_k_bound c (cfg_cv c Hc)) as (K1 & _). assert (Hst : cf_steps c = cv_k c + 3) by reflexivity.
  pose proof (latency_bound c Hc) as Hlat. assert (Hljd : 25 <= ljd c) by (unfold cfg_ok in Hc; lia).
  assert (Hnf : ~ finished s) by (intros X; apply Hcl; right; exact X).
  assert (He : vi_end (vb_in (s_vb s)) = false) by (destruct (vi_end (vb_in (s_vb s))) eqn:X; [elim Hcl; left; exact X|reflexivity]).
  destruct (v_vb _ _ _ _ _ _ _ _ _ _ I) as [Vo Vi]. specialize (Vi Hnf). pose proof (cfg_vb c Hc) as Hvb. assert (Hob : 1 <= outb c) by apply Hvb.
  destruct (gr_step c t M W H G A P done hist s i Hc Ht D1 I R1 Hg) as (S1 & S2 & S3 & S4). fold mem in S1, S2, S3, S4.
  assert (F2 : cv_valid_in (s_cv s) = true -> fifo_writable (cfd c) (s_cf s) = true) by (eapply cf_writable; eassumption).
  assert (F3 : cv_valid_in (s_cv s) = true -> cctr c (item_pack (cf_db c) (cf_cb c) (cv_enc_in (s_cv s)) (cv_enc_in_ctr (s_cv s)) (cv_in_end (s_cv s))) <= M).
  { intros E. destruct (v_cv _ _ _ _ _ _ _ _ _ _ I) as (_ & _ & _ & C4 & _). destruct (C4 E) as [X1 X2]. unfold cctr, cf_db, cf_cb. rewrite ctr_pack by assumption. apply (gr_in _ _ _ _ _ R1 E). }
  assert (Hdg := dec_ge0 c (vb_in (s_vb s)) (vb_out (s_vb s)) (in_busy i) He).
  assert (HcV : cV c (cL c) = cL c + 5 + bufs c / outb c) by reflexivity. assert (HcL : cL c = 12 + Z.of_nat (latency c)) by reflexivity.
  assert (Hlate : late c (i3_step c mem s i) = late c s + b2z (emits s) - b2z (vi_inc (vb_in (s_vb s)))).
  { unfold late. rewrite S2, st_cf, st_vb. unfold vb_step. cbn [vb_in]. apply (waiting_step c M); assumption || lia. }
  assert (Lq : 0 <= hcount hist (latency c) /\ hcount hist (latency c) <= Z.of_nat (latency c)) by apply hcount_le. pose proof (b2z_01 (cv_valid_reg (s_cv s))) as Bvr. pose proof (b2z_01 (emits s)) as Bem. pose proof (b2z_01 (i3_accept s i)) as Bac.
  assert (Hbz : 0 <= b2z (in_busy i) <= b2z (lost i) /\ b2z (lost i) <= 1) by (unfold lost; destruct (in_valid i), (in_busy i); cbn; lia).
  assert (Hqj : len (fifo_q (ljd c) (s_ljf s)) = ff_lvl (s_ljf s) + b2z (ff_rd (s_ljf s))) by (pose proof (fifo_level_q _ _ Jf) as X; unfold fifo_level in X; unfold len; lia).
  pose proof (b2z_01 (ff_rd (s_ljf s))) as Brd. assert (Hqc : len (fifo_q (cfd c) (s_cf s)) <= late c s).
  { unfold late, waiting. pose proof (vn_nonneg (vb_in (s_vb s))). pose proof (b2z_01 (cv_valid_in (s_cv s))). lia. }
  (* the fifo behind the converter is full: the converter is far ahead *)
  assert (Hfull : s_cf_cf s = true -> x + early c hist s <= cL c - 3).
  { intros X. pose proof (gr_cfcf _ _ _ _ _ R1 X). destruct R5 as [R5 _]. pose proof (b2z_01 (shortb (vb_in (s_vb s)))). lia. }
  split.
  - exact S1.
  - rewrite st_vb, st_cf. unfold vb_step. cbn [vb_in]. apply bk_step; try assumption; lia.
  - destruct (s_nready_reset s) eqn:Er; [|specialize (Hstart eq_refl); lia].
    destruct (lost i) eqn:Eco; cbn [b2z] in *; [lia|]. unfold lost in Eco. apply orb_false_iff in Eco. destruct Eco as [Ev Eb]. destruct (in_valid i) eqn:Evi; [|discriminate].
    destruct (i3_accept s i) eqn:Ea; cbn [b2z]; [lia|]. unfold i3_accept, i3_nready in Ea. rewrite Er, Evi, (v_ne1 _ _ _ _ _ _ _ _ _ _ I) in Ea. replace (G * H <=? len A) with false in Ea by lia. cbn [negb andb] in Ea. rewrite !orb_false_r in Ea.
    destruct (s_lj_cf s) eqn:El; [|discriminate]. pose proof (gr_ljcf _ _ _ _ _ R1 El) as X. assert (0 <= cvw s) by (unfold cvw; destruct (cv_state (s_cv s)); lia).
    unfold early in R4. lia.
  - unfold cvw. rewrite S3, S4. unfold cvw in R4. pose proof (gr_rd _ _ _ _ _ R1) as G1. pose proof (gr_burst _ _ _ _ _ R1) as G2. unfold emits in *. pose proof (gr_st _ _ _ _ _ R1) as G3. destruct (cv_state (s_cv s)) eqn:Es; cbn [b2z] in *.
    + destruct (s_cf_cf s) eqn:Ecf; [specialize (Hfull eq_refl); lia|]. destruct (cv_valid_reg (s_cv s)) eqn:Evr; [lia|]. destruct (ff_rd (s_ljf s)) eqn:Erd; [lia|]. specialize (G1 eq_refl).
      unfold early. rewrite Evr, Hqj, ?Erd. cbn [b2z]. lia.
    + lia.
    + destruct (cv_valid_reg (s_cv s)) eqn:Evr; cbn [andb b2z].
      * destruct (s_cf_cf s) eqn:Ecf; [specialize (Hfull eq_refl); lia|lia].
      * specialize (G2 eq_refl eq_refl). unfold early. rewrite Evr, Hqj. cbn [b2z]. lia.
    + destruct G3.
  - rewrite st_vb. unfold vb_step. cbn [vb_in]. apply (behind_step c M (cL c) (vb_in (s_vb s)) (s_cf s) (cv_valid_in (s_cv s)) (vb_out (s_vb s))) with (busy := in_busy i) (x := x + early c hist s + late c s); try assumption; try lia.
    fold (late c s). assert (0 <= cvw s) by (unfold cvw; destruct (cv_state (s_cv s)); lia). lia.
Qed.

Lemma dl_reset c t M s0 : cfg_ok c = true -> delay_cond c M -> is_reset c s0 -> dl_inv c t M [] s0 0.
Proof.
  intros Hc (D1 & D2 & D3 & D4) (st1 & d1 & st2 & d2 & rps & L1 & L2 & L3 & ->). pose proof (cfg_vb c Hc) as (V1 & V2 & V3).
  assert (Hq : 0 <= bufs c / outb c) by (apply Z.div_pos; lia).
  assert (E0 : early c [] (i3_reset c st1 d1 st2 d2 rps) = 0) by (unfold early, hcount; rewrite firstn_nil; reflexivity).
  assert (E1 : late c (i3_reset c st1 d1 st2 d2 rps) = 0) by reflexivity.
  split.
  - split; cbn; try discriminate; try constructor; try lia.
  - apply bk_reset.
  - lia.
  - rewrite E0. unfold cL, cvw. cbn [i3_reset s_cv cv_init cv_state]. lia.
  - rewrite E0, E1. unfold behind, cV, cL. cbn [i3_reset s_vb vb_init vb_in vi_init vi_consum shortb vi_state vi_valid_reg negb b2z]. nia.
Qed.

(* ------------------------------------------------------------------ runs *)

Lemma lost_cycles_snoc ins i : lost_cycles (ins ++ [i]) = lost_cycles ins + b2z (lost i).
Proof. unfold lost_cycles. rewrite filter_app, len_app. cbn [filter]. destruct (lost i); reflexivity. Qed.

Lemma delay_run c t W H M s0 : cfg_ok c = true -> table_ok (bd c) t -> frame_ok c W H -> is_reset c s0 -> delay_cond c M ->
  forall ins, run_ok c (mem_of (bd c) t) W H s0 ins -> small_groups c t W M (i3_accepted c (mem_of (bd c) t) s0 ins) ->
  let A := i3_accepted c (mem_of (bd c) t) s0 ins in
  len A < W / ps c * H ->
  exists P hist, i3_inv c t W H (W / ps c) A P (i3_transfers c (mem_of (bd c) t) s0 ins) hist (i3_run c (mem_of (bd c) t) s0 ins) /\
    dl_inv c t M hist (i3_run c (mem_of (bd c) t) s0 ins) (len ins - len A - lost_cycles ins).
Proof.
  intros Hc Ht Hf Hr HD. destruct (frame_geom c W H Hc Hf) as [Hg HG4]. set (G := W / ps c) in *. set (mem := mem_of (bd c) t).
  assert (Hr' : s_nready_reset s0 = false /\ s_nready_ctr s0 = 0) by (destruct Hr as (? & ? & ? & ? & ? & _ & _ & _ & ->); auto). destruct Hr' as (R1 & R2).
  induction ins as [|i ins IH] using rev_ind; intros HF Hs A Hl.
  - exists [], []. split; [|apply dl_reset; assumption]. destruct Hr as (st1 & d1 & st2 & d2 & rps & L1 & L2 & L3 & E).
    subst A. cbn [i3_accepted i3_transfers i3_run]. rewrite E. apply i3_inv_reset; assumption.
  - apply run_ok_app in HF. destruct HF as [HF1 HF2]. cbn [run_ok] in HF2. destruct HF2 as [HF2 _].
    set (s := i3_run c mem s0 ins) in *. set (A0 := i3_accepted c mem s0 ins) in *.
    assert (Hacc' : A = A0 ++ (if i3_accept s i then [in_px i] else [])) by (subst A; rewrite accepted_app; cbn [i3_accepted]; rewrite app_nil_r; reflexivity).
    assert (Hlen : len A = len A0 + b2z (i3_accept s i)) by (rewrite Hacc', len_app; destruct (i3_accept s i); reflexivity).
    pose proof (b2z_01 (i3_accept s i)) as Bac.
    destruct (IH HF1) as (P & hist & I & D). { fold mem in Hs. fold A in Hs. rewrite Hacc' in Hs. apply small_app in Hs. exact Hs. } { lia. }
    exists (P ++ vb_emit c (s_vb s) (in_busy i)), (i3_new c G A0 s i :: hist).
    assert (Hrun : i3_run c mem s0 (ins ++ [i]) = i3_step c mem s i) by (rewrite run_app; reflexivity). rewrite Hrun.
    assert (Hnew : gsize t (i3_new c G A0 s i) <= M).
    { eapply new_size; try eassumption; [destruct HD; lia|]. intros X. fold mem in Hs. fold A in Hs. rewrite Hacc', X in Hs. apply (Hs A0 (in_px i) []). reflexivity. }
    split.
    + rewrite Hacc'. replace (i3_transfers c mem s0 (ins ++ [i])) with (i3_transfers c mem s0 ins ++ transferred (s_vb s) (in_busy i)); [apply i3_inv_step; assumption|].
      rewrite transfers_app. cbn [i3_transfers]. rewrite app_nil_r. reflexivity.
    + rewrite Hlen, lost_cycles_snoc, len_app. change (len [i]) with 1. replace (len ins + 1 - (len A0 + b2z (i3_accept s i)) - (lost_cycles ins + b2z (lost i))) with ((len ins - len A0 - lost_cycles ins) + 1 - b2z (i3_accept s i) - b2z (lost i)) by ring.
      eapply dl_step; try eassumption; [lia|]. intros X. destruct (nready_startup c mem ins s0 R1 ltac:(lia)) as [S1 S2]. fold s in S1, S2.
      assert (len ins < 8) by (destruct (Z_lt_le_dec (len ins) 8); [lia|rewrite S2 in X by lia; discriminate]). pose proof (len_nonneg A0). assert (0 <= lost_cycles ins) by apply len_nonneg. lia.
Qed.
