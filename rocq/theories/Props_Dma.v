(* C47: dma_axi_lite as a register bank on the bus. *)
From Verif Require Import Bits M_Encode M_AxiLite Spec_Axi P_AxiLite Props_Axi Props_Axi2.
Ltac Zify.zify_post_hook ::= idtac.

Definition dl_bank (s : dl_st) : dbank := {| g_read := dl_read_addr s; g_write := dl_write_addr s; g_start := dl_start s |}.
Definition dl_hs (s : dl_st) (ar rv aw w b : bool) : Prop :=
  dl_arready s = ar /\ dl_rvalid s = rv /\ dl_awready s = aw /\ dl_wready s = w /\ dl_bvalid s = b.
Definition w_pend (m : ms) : Prop := match m_wd m with PDone _ => False | _ => True end.

Definition dl_inv (sn : list Z -> Prop) (m : ms) (B : dbank) (s : dl_st) : Prop :=
  match dl_fsm_st s with
  | DL_IDLE =>
       dl_hs s false false false false false /\ r_pre m /\ w_pre m /\ dl_bank s = B \/
       dl_hs s false true false false false /\ (exists a, m_rd m = RWait a true /\ dbank_rd sn B a (dl_rdata s) (dl_rresp s)) /\ w_pre m /\ dl_bank s = B \/
       dl_hs s false false false false true /\ r_pre m /\ exists a d st, m_aw m = PDone a /\ m_wd m = PDone (d, st) /\ m_b m = true /\
         dl_bank s = fst (dbank_wr B a d st) /\ dl_bresp s = snd (dbank_wr B a d st)
  | DL_READ_ADDRESS => dl_bank s = B /\ dl_hs s false false false false false /\ w_pre m /\ exists a k, m_rd m = RAddr a k
  | DL_READ_DATA => dl_bank s = B /\ w_pre m /\ exists a k, dl_addr s = a / 4 /\
      (dl_hs s true false false false false /\ m_rd m = RAddr a k \/ dl_hs s false false false false false /\ m_rd m = RWait a k)
  | DL_WRITE_ADDRESS => dl_bank s = B /\ dl_hs s false false false false false /\ r_pre m /\ w_pre m /\ exists a, m_aw m = PHeld a
  | DL_WRITE_DATA => dl_bank s = B /\ r_pre m /\ w_pend m /\ exists a, dl_addr s = a / 4 /\
      (dl_hs s false false true false false /\ m_aw m = PHeld a \/ (exists w, dl_hs s false false false w false) /\ m_aw m = PDone a)
  | DL_WRITE_RESPONSE => exists w a d st, dl_hs s false false false w false /\ r_pre m /\ m_aw m = PDone a /\
      (m_wd m = PDone (d, st) \/ m_wd m = PHeld (d, st) /\ w = true) /\
      dl_bank s = fst (dbank_wr B a d st) /\ dl_bresp s = snd (dbank_wr B a d st)
  end.

Lemma T4 x : trunc 4 x = x mod 16.
Proof. reflexivity. Qed.

Lemma dl_read_ok (sn : list Z -> Prop) s i ins a : sn ins -> dl_addr s = a / 4 -> dl_fsm_st s = DL_READ_DATA ->
  dbank_rd sn (dl_bank s) a (dl_rdata (dl_step s i ins)) (dl_rresp (dl_step s i ins)).
Proof.
  intros Hsn Ha Hst. unfold dl_step. rewrite Hst, Ha, T4. cbn [dl_rdata dl_rresp]. unfold dbank_rd, ddecode.
  destruct (Z.testbit (a / 4) 10); [|reflexivity]. pose proof (Z.mod_pos_bound (a / 4) 16 ltac:(lia)) as M. set (x := (a / 4) mod 16) in *.
  unfold dreg, dl_bank. cbn [g_read g_write g_start].
  destruct (x <? 3) eqn:E3.
  - split; [|reflexivity]. destruct (x =? 0) eqn:E0; [reflexivity|]. destruct (x =? 1) eqn:E1; [reflexivity|]. replace (x =? 2) with true by lia. reflexivity.
  - replace (x =? 0) with false by lia. replace (x =? 1) with false by lia. replace (x =? 2) with false by lia.
    destruct (x <=? 11); [|reflexivity]. split; [exists ins; auto|reflexivity].
Qed.
Lemma dl_write_ok s i ins a : 0 <= ai_wstrb i < 16 -> dl_addr s = a / 4 -> dl_fsm_st s = DL_WRITE_DATA -> ai_wvalid i = true ->
  dl_bank (dl_step s i ins) = fst (dbank_wr (dl_bank s) a (ai_wdata i) (ai_wstrb i)) /\
  dl_bresp (dl_step s i ins) = snd (dbank_wr (dl_bank s) a (ai_wdata i) (ai_wstrb i)).
Proof.
  intros Hs Ha Hst Hv. unfold dl_step, dl_bank, dbank_wr, ddecode. cbn [dl_bresp dl_read_addr dl_write_addr dl_start]. rewrite Hst, Hv, Ha, !T4. cbn [andb].
  rewrite (Z.mod_small (ai_wstrb i) 16 Hs).
  pose proof (Z.mod_pos_bound (a / 4) 16 ltac:(lia)) as M. set (x := (a / 4) mod 16) in *.
  destruct (Z.testbit (a / 4) 10); [|split; reflexivity]. cbn [andb].
  destruct (x <? 3) eqn:E3.
  - replace (3 <=? x) with false by lia. cbn [andb fst snd]. split; [|reflexivity]. unfold dset, dreg. cbn [g_read g_write g_start].
    destruct (x =? 0) eqn:E0; [replace (x =? 1) with false by lia; replace (x =? 2) with false by lia; reflexivity|].
    destruct (x =? 1) eqn:E1; [replace (x =? 2) with false by lia; reflexivity|]. reflexivity.
  - replace (3 <=? x) with true by lia. replace (x =? 0) with false by lia. replace (x =? 1) with false by lia. replace (x =? 2) with false by lia. cbn [andb].
    destruct (x <=? 11); cbn [fst snd andb]; split; try reflexivity. destruct (ai_wstrb i =? 0); reflexivity.
Qed.
Lemma dl_bank_keep s i ins : (dl_fsm_st s = DL_WRITE_DATA -> ai_wvalid i = false) -> dl_bank (dl_step s i ins) = dl_bank s.
Proof.
  intros H. unfold dl_bank, dl_step. cbn [dl_read_addr dl_write_addr dl_start]. destruct (dl_fsm_st s); cbn [andb]; try reflexivity.
  rewrite (H eq_refl). reflexivity.
Qed.

Lemma dl_inv_step (sn : list Z -> Prop) m B s i ins : sn ins -> dl_inv sn m B s -> m_ok m i ->
  let o := dl_out s in
  exists B', explained (dbank_rd sn) dbank_wr B (snd (m_next m i o)) B' /\
    dl_inv sn (fst (m_next m i o)) B' (dl_step s i ins) /\ m_sane m o.
Proof.
  intros Hsn I Hok. cbv zeta. pose proof Hok as (M1 & M2 & M3 & M4 & R1 & R2 & R3 & R4). unfold dl_inv in I.
  assert (O1 : ao_arready (dl_out s) = dl_arready s) by reflexivity. assert (O2 : ao_rvalid (dl_out s) = dl_rvalid s) by reflexivity.
  assert (O3 : ao_awready (dl_out s) = dl_awready s) by reflexivity. assert (O4 : ao_wready (dl_out s) = dl_wready s) by reflexivity.
  assert (O5 : ao_bvalid (dl_out s) = dl_bvalid s) by reflexivity.
  set (s' := dl_step s i ins). set (o := dl_out s) in *. set (m' := fst (m_next m i o)).
  destruct (dl_fsm_st s) eqn:Est.
  - (* IDLE *)
    assert (K1 : dl_bank s' = dl_bank s) by (apply dl_bank_keep; congruence).
    assert (Hnext : dl_fsm_st s' = if ai_arvalid i then DL_READ_ADDRESS else if ai_awvalid i then DL_WRITE_ADDRESS else DL_IDLE)
      by (unfold s', dl_step; rewrite Est; reflexivity).
    assert (Hhs : forall x y, dl_hs s false x false false y -> dl_hs s' false false false false false)
      by (intros x y (E1 & E2 & E3 & E4 & E5); unfold s', dl_hs, dl_step; rewrite Est; cbn; auto).
    assert (Hfin : forall B', dl_hs s' false false false false false -> dl_bank s = B' ->
      m_rd m' = (if ai_arvalid i then RAddr (ai_araddr i) (ai_rready i) else RIdle) -> w_pre m' -> m_aw m' = (if ai_awvalid i then PHeld (ai_awaddr i) else PNot) ->
      dl_inv sn m' B' s').
    { intros B' Hh Hbk Hr Hwp Haw. unfold dl_inv. rewrite Hnext, K1. unfold r_pre. destruct (ai_arvalid i); [repeat (split; auto); eauto|]. rewrite Hr.
      destruct (ai_awvalid i); [repeat (split; auto); eauto|]. left. auto. }
    destruct I as [(Hh & Hr & Hwp & Hbk)|[(Hh & (a & Hr & Hrd) & Hwp & Hbk)|(Hh & Hr & a & d & st & Ha & Hd & Hm & Hbk & Hresp)]];
      pose proof (Hhs _ _ Hh) as Hh'; destruct Hh as (E1 & E2 & E3 & E4 & E5).
    + destruct (nx_pre m i o Hwp ltac:(congruence) ltac:(congruence)) as (N1 & N2 & N3 & N4). fold m' in N1, N3, N4.
      pose proof (nx_rd_pre m i o Hr ltac:(congruence)) as N5. rewrite N5 in N1, N2. cbn [fst snd] in N1, N2.
      exists B. rewrite N2. split; [reflexivity|]. split; [apply Hfin; auto|]. unfold m_sane. rewrite O2, O5, E2, E5. split; discriminate.
    + destruct (nx_pre m i o Hwp ltac:(congruence) ltac:(congruence)) as (N1 & N2 & N3 & N4). fold m' in N1, N3, N4.
      rewrite Hr in M1. destruct M1 as [Mv Mr]. specialize (Mr eq_refl).
      assert (N5 : m_next_rd m i o = (RIdle, [Did_read a (dl_rdata s) (dl_rresp s)])) by (unfold m_next_rd; rewrite Hr, O2, E2, Mr; reflexivity).
      rewrite N5 in N1, N2. cbn [fst snd] in N1, N2. exists B. rewrite N2. split; [split; [exact Hrd|reflexivity]|].
      split; [apply Hfin; auto; rewrite Mv; exact N1|]. unfold m_sane. rewrite O2, O5, E2, E5. split; [eauto|discriminate].
    + specialize (M4 Hm). destruct (nx_answer m i o a d st Ha Hd ltac:(congruence) M4) as (N1 & N2 & N3 & N4). fold m' in N1, N3, N4.
      pose proof (nx_rd_pre m i o Hr ltac:(congruence)) as N5. rewrite N5 in N1, N2. cbn [fst snd app] in N1, N2.
      rewrite Ha in M2. exists (fst (dbank_wr B a d st)). rewrite N2. split; [split; [symmetry; exact Hresp|reflexivity]|].
      split; [apply Hfin; auto|].
      * unfold w_pre. rewrite N3, N4. split; exact Logic.I.
      * rewrite M2. exact N3.
      * unfold m_sane. rewrite O2, O5, E2, E5. split; [discriminate|eauto].
  - (* READ_ADDRESS *)
    assert (K1 : dl_bank s' = dl_bank s) by (apply dl_bank_keep; congruence).
    destruct I as (Hbk & (E1 & E2 & E3 & E4 & E5) & Hwp & a & k & Hr).
    destruct (nx_pre m i o Hwp ltac:(congruence) ltac:(congruence)) as (N1 & N2 & N3 & N4). fold m' in N1, N3, N4.
    assert (Hrp : r_pre m) by (unfold r_pre; rewrite Hr; exact Logic.I). rewrite (nx_rd_pre m i o Hrp ltac:(congruence)) in N1, N2. cbn [fst snd] in N1, N2.
    rewrite Hr in M1. destruct M1 as (Mv & Ma & Mr). rewrite Mv, Ma in N1. exists B. rewrite N2. split; [reflexivity|]. split.
    + unfold dl_inv. replace (dl_fsm_st s') with DL_READ_DATA by (unfold s', dl_step; rewrite Est; reflexivity).
      rewrite K1. split; [exact Hbk|]. split; [exact N4|]. exists a, (ai_rready i). split; [unfold s', dl_step; rewrite Est; cbn [dl_addr]; rewrite Ma; reflexivity|].
      left. split; [unfold dl_hs, s', dl_step; rewrite Est; cbn; auto|exact N1].
    + unfold m_sane. rewrite O2, O5, E2, E5. split; discriminate.
  - (* READ_DATA *)
    assert (K1 : dl_bank s' = dl_bank s) by (apply dl_bank_keep; congruence).
    destruct I as (Hbk & Hwp & a & k & Ha & I).
    assert (G : dl_rvalid s = false /\ dl_awready s = false /\ dl_wready s = false /\ dl_bvalid s = false /\ m_next_rd m i o = (RWait a (ai_rready i), []) /\
      dl_hs s' false (ai_rready i) false false false).
    { assert (H : forall x, dl_hs s x false false false false -> dl_hs s' false (ai_rready i) false false false).
      { intros x (E1 & E2 & E3 & E4 & E5). unfold dl_hs, s', dl_step. rewrite Est. cbn [dl_arready dl_rvalid dl_awready dl_wready dl_bvalid]. rewrite E2, orb_false_r. auto. }
      destruct I as [[Hh Hr]|[Hh Hr]]; pose proof (H _ Hh) as Hh'; destruct Hh as (E1 & E2 & E3 & E4 & E5); rewrite Hr in M1; repeat (split; [assumption|]); (split; [|exact Hh']).
      - destruct M1 as (Mv & Ma & _). unfold m_next_rd. rewrite Hr, O1, E1, Mv, Ma. reflexivity.
      - unfold m_next_rd. rewrite Hr, O2, E2. reflexivity. }
    destruct G as (E2 & E3 & E4 & E5 & N5 & G).
    destruct (nx_pre m i o Hwp ltac:(congruence) ltac:(congruence)) as (N1 & N2 & N3 & N4). fold m' in N1, N3, N4.
    rewrite N5 in N1, N2. cbn [fst snd] in N1, N2. exists B. rewrite N2. split; [reflexivity|]. split.
    + unfold dl_inv. replace (dl_fsm_st s') with (if ai_rready i then DL_IDLE else DL_READ_DATA) by (unfold s', dl_step; rewrite Est; reflexivity).
      rewrite K1. destruct (ai_rready i) eqn:Er.
      * right. left. split; [exact G|]. split; [|split; [exact N4|exact Hbk]]. exists a. split; [exact N1|]. rewrite <- Hbk. apply dl_read_ok; auto.
      * split; [exact Hbk|]. split; [exact N4|]. exists a, false. split; [unfold s', dl_step; rewrite Est; exact Ha|]. right. split; [exact G|exact N1].
    + unfold m_sane. rewrite O2, O5, E2, E5. split; discriminate.
  - (* WRITE_ADDRESS *)
    assert (K1 : dl_bank s' = dl_bank s) by (apply dl_bank_keep; congruence).
    destruct I as (Hbk & (E1 & E2 & E3 & E4 & E5) & Hrp & Hwp & a & Haw).
    destruct (nx_pre m i o Hwp ltac:(congruence) ltac:(congruence)) as (N1 & N2 & N3 & N4). fold m' in N1, N3, N4.
    pose proof (r_pre_next m i o m' Hrp ltac:(congruence) N1) as Hr'. rewrite (nx_rd_pre m i o Hrp ltac:(congruence)) in N2. cbn [snd] in N2.
    rewrite Haw in M2. destruct M2 as (Mv & Ma). rewrite Mv, Ma in N3. exists B. rewrite N2. split; [reflexivity|]. split.
    + unfold dl_inv. replace (dl_fsm_st s') with DL_WRITE_DATA by (unfold s', dl_step; rewrite Est; reflexivity).
      rewrite K1. split; [exact Hbk|]. split; [exact Hr'|]. split; [apply N4|]. exists a. split; [unfold s', dl_step; rewrite Est; cbn [dl_addr]; rewrite Ma; reflexivity|].
      left. split; [unfold dl_hs, s', dl_step; rewrite Est; cbn; auto|exact N3].
    + unfold m_sane. rewrite O2, O5, E2, E5. split; discriminate.
  - (* WRITE_DATA *)
    destruct I as (Hbk & Hrp & Hwp & a & Ha & I).
    assert (G : dl_arready s = false /\ dl_rvalid s = false /\ dl_bvalid s = false /\ dl_hs s' false false false true false).
    { destruct I as [[(E1 & E2 & E3 & E4 & E5) _]|[(w & E1 & E2 & E3 & E4 & E5) _]]; repeat (split; [assumption|]); unfold dl_hs, s', dl_step; rewrite Est; cbn; auto. }
    destruct G as (E1 & E2 & E5 & G).
    assert (N : m_rd m' = fst (m_next_rd m i o) /\ snd (m_next m i o) = snd (m_next_rd m i o) /\ m_aw m' = PDone a /\
      (if ai_wvalid i then m_wd m' = PDone (ai_wdata i, ai_wstrb i) \/ m_wd m' = PHeld (ai_wdata i, ai_wstrb i) else w_pend m')).
    { destruct I as [[(_ & _ & E3 & E4 & _) Haw]|[_ Haw]].
      - destruct (nx_aw m i o a) as (N1 & N2 & N3 & N4); auto; try congruence; [unfold w_pre; rewrite Haw; split; [exact Logic.I|exact Hwp]|]. fold m' in N1, N3, N4.
        repeat (split; [assumption|]). destruct (ai_wvalid i) eqn:Ev; [|exact N4]. right. unfold m', m_next, m_next_aw, m_next_wd. rewrite Ev, O4, E4.
        destruct (m_next_rd m i o) as [r e]. rewrite Haw. destruct (m_wd m) as [|[y z]|y] eqn:Ew; cbn [fst m_wd]; try reflexivity. unfold w_pend in Hwp. rewrite Ew in Hwp. contradiction.
      - destruct (nx_wd m i o a Haw Hwp) as (N1 & N2 & N3 & N4). fold m' in N1, N3, N4. repeat (split; [assumption|]). unfold w_pend. rewrite N4. destruct (ai_wvalid i); [destruct (ao_wready o); auto|exact Logic.I]. }
    destruct N as (N1 & N2 & N3 & N4).
    pose proof (r_pre_next m i o m' Hrp ltac:(congruence) N1) as Hr'. rewrite (nx_rd_pre m i o Hrp ltac:(congruence)) in N2. cbn [snd] in N2.
    exists B. rewrite N2. split; [reflexivity|]. split.
    + unfold dl_inv. replace (dl_fsm_st s') with (if ai_wvalid i then DL_WRITE_RESPONSE else DL_WRITE_DATA) by (unfold s', dl_step; rewrite Est; reflexivity).
      destruct (ai_wvalid i) eqn:Ev.
      * exists true, a, (ai_wdata i), (ai_wstrb i). split; [exact G|]. split; [exact Hr'|]. split; [exact N3|]. split; [tauto|].
        rewrite <- Hbk. apply dl_write_ok; auto.
      * assert (K1 : dl_bank s' = dl_bank s) by (apply dl_bank_keep; auto). rewrite K1. split; [exact Hbk|]. split; [exact Hr'|]. split; [exact N4|].
        exists a. split; [unfold s', dl_step; rewrite Est; exact Ha|]. right. split; [eauto|exact N3].
    + unfold m_sane. rewrite O2, O5, E2, E5. split; discriminate.
  - (* WRITE_RESPONSE *)
    destruct I as (w & a & d & st & (E1 & E2 & E3 & E4 & E5) & Hrp & Haw & Hwd & Hbk & Hresp).
    assert (K1 : dl_bank s' = dl_bank s) by (apply dl_bank_keep; congruence).
    assert (K3 : dl_bresp s' = dl_bresp s) by (unfold s', dl_step; rewrite Est; reflexivity).
    assert (N : m_rd m' = fst (m_next_rd m i o) /\ snd (m_next m i o) = snd (m_next_rd m i o) /\ m_aw m' = PDone a /\ m_wd m' = PDone (d, st) /\ m_b m' = ai_bready i).
    { destruct Hwd as [Hwd|[Hwd Hwt]].
      - apply nx_done; auto; congruence.
      - destruct (nx_wd m i o a Haw ltac:(rewrite Hwd; exact Logic.I)) as (N1 & N2 & N3 & N4). rewrite Hwd in M3. destruct M3 as (V & D1 & D2).
        rewrite V, O4, E4, Hwt, D1, D2 in N4. repeat split; auto. eapply nx_held_b; eauto; congruence. }
    destruct N as (N1 & N2 & N3 & N4 & N5).
    pose proof (r_pre_next m i o m' Hrp ltac:(congruence) N1) as Hr'. rewrite (nx_rd_pre m i o Hrp ltac:(congruence)) in N2. cbn [snd] in N2.
    exists B. rewrite N2. split; [reflexivity|]. split.
    + unfold dl_inv. replace (dl_fsm_st s') with (if ai_bready i then DL_IDLE else DL_WRITE_RESPONSE) by (unfold s', dl_step; rewrite Est; reflexivity).
      assert (G : dl_hs s' false false false false (ai_bready i)) by (unfold dl_hs, s', dl_step; rewrite Est; cbn [dl_arready dl_rvalid dl_awready dl_wready dl_bvalid]; rewrite E5, orb_false_r; auto).
      destruct (ai_bready i) eqn:Eb.
      * right. right. split; [exact G|]. split; [exact Hr'|]. exists a, d, st. rewrite K1, K3. auto 10.
      * exists false, a, d, st. rewrite K1, K3. split; [exact G|]. auto 10.
    + unfold m_sane. rewrite O2, O5, E2, E5. split; discriminate.
Qed.

Lemma dl_run_inv (sn : list Z -> Prop) : forall l m B s, Forall (fun x => sn (snd x)) l -> dl_inv sn m B s -> m_all_ok m (dl_trace s l) ->
  exists B', explained (dbank_rd sn) dbank_wr B (m_log m (dl_trace s l)) B' /\
    dl_inv sn (m_run m (dl_trace s l)) B' (dl_run s l) /\ m_all_sane m (dl_trace s l).
Proof.
  induction l as [|[i ins] l IH]; intros m B s Hsn I Hok; cbn [dl_trace dl_run m_run m_log m_all_ok m_all_sane] in *.
  - exists B. repeat split; auto.
  - apply Forall_cons_iff in Hsn. destruct Hsn as [Hs Hsn]. destruct Hok as [O1 O2].
    destruct (dl_inv_step sn m B s i ins Hs I O1) as (B1 & X1 & X3 & X4).
    destruct (IH _ _ _ Hsn X3 O2) as (B2 & Y1 & Y3 & Y4). exists B2. split; [eapply explained_app; eauto|]. auto.
Qed.

(* the status inputs were ins in some cycle of the run *)
Definition status_of (l : list (ax_in * list Z)) (ins : list Z) : Prop := exists i, In (i, ins) l.
Definition dbank0 : dbank := {| g_read := 0; g_write := 0; g_start := 0 |}.

(* C47.  From reset, for every protocol-obeying master and any status inputs, the completed
   transactions are explained, in order of completion, by the register bank: writes replace the
   strobed bytes, reads return the stored value (or a value the status input had during the run);
   nothing unasked is answered; and when no write is in progress the three output registers are
   those of the bank. *)
Theorem C47_sequential : forall l,
  let tr := dl_trace dl_init l in
  m_all_ok ms_init tr ->
  m_all_sane ms_init tr /\
  exists B, explained (dbank_rd (status_of l)) dbank_wr dbank0 (m_log ms_init tr) B /\
    let s := dl_run dl_init l in
    (m_aw (m_run ms_init tr) = PNot -> dl_read_addr s = g_read B /\ dl_write_addr s = g_write B /\ dl_start s = g_start B).
Proof.
  intros l tr Hok. assert (HF : Forall (fun x => status_of l (snd x)) l) by (apply Forall_forall; intros [i x] Hx; exists i; exact Hx).
  assert (I0 : dl_inv (status_of l) ms_init dbank0 dl_init) by (left; repeat split).
  destruct (dl_run_inv _ l ms_init dbank0 dl_init HF I0 Hok) as (B & X1 & X2 & X3). split; [exact X3|]. exists B. split; [exact X1|]. cbv zeta. intros Ha. fold tr in X2.
  assert (E : dl_bank (dl_run dl_init l) = B).
  { unfold dl_inv in X2. destruct (dl_fsm_st (dl_run dl_init l)).
    - destruct X2 as [X|[X|X]]; [tauto|tauto|]. destruct X as (_ & _ & a & d & st & X & _). congruence.
    - tauto.
    - tauto.
    - tauto.
    - tauto.
    - destruct X2 as (w & a & d & st & _ & _ & X & _). congruence. }
  rewrite <- E. repeat split.
Qed.

(* C47.  What a write does, register by register. *)
Theorem C47_write_effect : forall b a d st k,
  (ddecode a = D_reg k -> let b' := fst (dbank_wr b a d st) in
     0 <= k < 3 /\ strobed st (dreg b k) d (dreg b' k) /\ (forall j, 0 <= j < 3 -> j <> k -> dreg b' j = dreg b j)) /\
  (ddecode a <> D_reg k -> (forall j, ddecode a <> D_reg j) -> fst (dbank_wr b a d st) = b) /\
  (ddecode a = D_status k -> st <> 0 -> snd (dbank_wr b a d st) = 2) /\
  (ddecode a = D_none -> snd (dbank_wr b a d st) = 3).
Proof.
  intros b a d st k. split; [|split; [|split]].
  - intros E. cbv zeta. assert (Hk : 0 <= k < 3).
    { unfold ddecode in E. destruct (Z.testbit (a / 4) 10); [|discriminate]. destruct ((a / 4) mod 16 <? 3) eqn:E3; [injection E as <-; pose proof (Z.mod_pos_bound (a / 4) 16 ltac:(lia)); lia|].
      destruct ((a / 4) mod 16 <=? 11); discriminate. }
    split; [exact Hk|]. unfold dbank_wr. rewrite E. cbn [fst]. split.
    + replace (dreg (dset b k (al_merge st (dreg b k) d)) k) with (al_merge st (dreg b k) d); [apply al_merge_strobed|].
      unfold dreg at 2. unfold dset. cbn [g_read g_write g_start]. destruct (k =? 0) eqn:E0; [reflexivity|]. destruct (k =? 1) eqn:E1; [reflexivity|]. replace (k =? 2) with true by lia. reflexivity.
    + intros j Hj Hne. unfold dreg at 1. unfold dset. cbn [g_read g_write g_start]. unfold dreg at 4.
      destruct (j =? 0) eqn:J0; [replace (k =? 0) with false by lia; reflexivity|]. destruct (j =? 1) eqn:J1; [replace (k =? 1) with false by lia; reflexivity|]. replace (k =? 2) with false by lia. reflexivity.
  - intros _ H. unfold dbank_wr. destruct (ddecode a) eqn:E; try reflexivity. exfalso. eapply H. eauto.
  - intros E Hs. unfold dbank_wr. rewrite E. cbn [snd]. destruct (st =? 0) eqn:E0; [lia|reflexivity].
  - intros E. unfold dbank_wr. rewrite E. reflexivity.
Qed.

(* the addresses *)
Theorem C47_addresses : forall base k, base mod 65536 = 0 -> 0 <= k < 16 ->
  ddecode (base + 4 * (0x400 + k)) = (if k <? 3 then D_reg k else if k <=? 11 then D_status (k - 3) else D_hole) /\
  (forall j, 0 <= j < 0x400 -> ddecode (base + 4 * j) = D_none).
Proof.
  intros base k Hbase Hk. pose proof (Z.div_mod base 65536 ltac:(lia)) as Hd. rewrite Hbase, Z.add_0_r in Hd. set (q := base / 65536) in *.
  assert (K : forall x, (base + 4 * x) / 4 = x + q * 2 ^ 14).
  { intros x. rewrite Hd. replace (65536 * q + 4 * x) with ((x + q * 2 ^ 14) * 4) by (change (2 ^ 14) with 16384; lia). apply Z.div_mul. lia. }
  assert (T : forall x, 0 <= x < 16384 -> Z.testbit (x + q * 2 ^ 14) 10 = Z.testbit x 10).
  { intros x Hx. rewrite add_lor by (change (2 ^ 14) with 16384; lia). rewrite Z.lor_spec, Z.mul_pow2_bits_low by lia. apply orb_false_r. }
  assert (M : forall x, (x + q * 2 ^ 14) mod 16 = x mod 16) by (intros; change (2 ^ 14) with (1024 * 16); rewrite Z.mul_assoc; apply Z.mod_add; lia).
  split.
  - unfold ddecode. rewrite K, M, T by lia. replace ((0x400 + k) mod 16) with k by (apply Z.mod_unique with 64; lia).
    replace (Z.testbit (0x400 + k) 10) with true; [reflexivity|]. symmetry. rewrite Z.testbit_true by lia.
    replace ((0x400 + k) / 2 ^ 10) with 1; [reflexivity|]. apply Z.div_unique with k; [change (2 ^ 10) with 1024; lia|change (2 ^ 10) with 1024; lia].
  - intros j Hj. unfold ddecode. rewrite K, T by lia.
    assert (E : Z.testbit j 10 = false) by (rewrite Z.testbit_false by lia; rewrite Z.div_small by (change (2 ^ 10) with 1024; lia); reflexivity).
    rewrite E. reflexivity.
Qed.

(* A write of the start register and its read back. *)
Definition dl_in (x : ax_in * list Z * bool) : ax_in * list Z := (fst (fst x), [7; 8; 9; 10; 11; 12; 13; 14; 15]).
Definition dl_ex : list (ax_in * list Z) := map dl_in (
  repeat (bus_in false 0 true true (4 * 0x402) true 0x00400030 15 true) 3 ++
  repeat (bus_in false 0 true false 0 true 0x00400030 15 true) 1 ++
  repeat (bus_in false 0 true false 0 false 0 0 true) 1 ++
  repeat (bus_in true (4 * 0x402) true false 0 false 0 0 true) 3 ++
  repeat (bus_in false 0 true false 0 false 0 0 true) 1 ++
  repeat (bus_in true (4 * 0x404) true false 0 false 0 0 true) 3 ++
  repeat (bus_in false 0 true false 0 false 0 0 true) 4).
Example C47_example : m_all_ok ms_init (dl_trace dl_init dl_ex) /\
  m_log ms_init (dl_trace dl_init dl_ex) = [Did_write (4 * 0x402) 0x00400030 15 0; Did_read (4 * 0x402) 0x00400030 0; Did_read (4 * 0x404) 8 0] /\
  dl_start (dl_run dl_init dl_ex) = 0x00400030.
Proof.
  split; [|vm_compute; repeat split]. unfold dl_ex. cbn [repeat app map dl_in fst bus_in dl_trace m_all_ok].
  repeat match goal with |- _ /\ _ => split | |- True => exact I end.
  all: try (vm_compute; repeat split; intros; first [reflexivity|discriminate|congruence]).
Qed.
