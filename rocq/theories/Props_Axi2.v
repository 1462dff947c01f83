(* C32 (every transaction is answered, in bounded time) and C35 (the auto reset loses answers). *)
From Verif Require Import Bits M_Encode M_AxiLite Spec_Axi P_AxiLite Props_Axi.
Ltac Zify.zify_post_hook ::= idtac.

(* ---------- bounded response ---------- *)

(* a master that never delays: it takes answers immediately and offers write data no later than the
   acceptance of the write address *)
Definition m_eager (m : ms) (i : ax_in) : Prop :=
  ai_rready i = true /\ ai_bready i = true /\
  (match m_aw m with PDone _ => True | _ => False end -> match m_wd m with PDone _ => False | _ => True end -> ai_wvalid i = true).
Fixpoint m_all_eager (m : ms) (l : list (ax_in * ax_out)) : Prop :=
  match l with [] => True | (i, o) :: r => m_eager m i /\ m_all_eager (fst (m_next m i o)) r end.

Definition reading (m : ms) (a : Z) : Prop := exists k, m_rd m = RAddr a k \/ m_rd m = RWait a k.
Definition writing (m : ms) (a : Z) : Prop := m_aw m = PHeld a \/ m_aw m = PDone a.
Definition rank_r (s : al_st) (m : ms) : nat :=
  match al_fsm_st s with
  | AL_IDLE => match m_rd m with RWait _ _ => 1 | _ => 6 end
  | AL_READ_ADDRESS => 5 | AL_READ_DATA_DELAY1 => 4 | AL_READ_DATA_DELAY2 => 3 | AL_READ_DATA => 2
  | AL_WRITE_ADDRESS => 11 | AL_WRITE_DATA_DELAY1 => 10 | AL_WRITE_DATA_DELAY2 => 9 | AL_WRITE_DATA => 8 | AL_WRITE_RESPONSE => 7
  end%nat.
Definition rank_w (s : al_st) (m : ms) : nat :=
  match al_fsm_st s with
  | AL_IDLE => match m_aw m with PDone _ => 1 | _ => if al_rvalid s then 7 else 12 end
  | AL_READ_ADDRESS => 11 | AL_READ_DATA_DELAY1 => 10 | AL_READ_DATA_DELAY2 => 9 | AL_READ_DATA => 8
  | AL_WRITE_ADDRESS => 6 | AL_WRITE_DATA_DELAY1 => 5 | AL_WRITE_DATA_DELAY2 => 4 | AL_WRITE_DATA => 3 | AL_WRITE_RESPONSE => 2
  end%nat.

Lemma al_fsm_next bd dbg s i dr : al_fsm_st (al_step bd dbg s i dr false) =
  match al_fsm_st s with
  | AL_IDLE => if ai_arvalid i then AL_READ_ADDRESS else if ai_awvalid i then AL_WRITE_ADDRESS else AL_IDLE
  | AL_READ_ADDRESS => AL_READ_DATA_DELAY1
  | AL_READ_DATA_DELAY1 => AL_READ_DATA_DELAY2
  | AL_READ_DATA_DELAY2 => AL_READ_DATA
  | AL_READ_DATA => if ai_rready i then AL_IDLE else AL_READ_DATA
  | AL_WRITE_ADDRESS => AL_WRITE_DATA_DELAY1
  | AL_WRITE_DATA_DELAY1 => AL_WRITE_DATA_DELAY2
  | AL_WRITE_DATA_DELAY2 => AL_WRITE_DATA
  | AL_WRITE_DATA => if ai_wvalid i then AL_WRITE_RESPONSE else AL_WRITE_DATA
  | AL_WRITE_RESPONSE => if ai_bready i then AL_IDLE else AL_WRITE_RESPONSE
  end.
Proof. reflexivity. Qed.

Lemma nx_rd_any m i o : m_rd (fst (m_next m i o)) = fst (m_next_rd m i o) /\ incl (snd (m_next_rd m i o)) (snd (m_next m i o)).
Proof.
  unfold m_next. destruct (m_next_rd m i o) as [r e]. cbn [fst snd]. destruct (m_aw m) as [|x|x]; [split; [reflexivity|apply incl_refl]..|].
  destruct (m_wd m) as [|y|[y z]]; [split; [reflexivity|apply incl_refl]..|]. destruct (ao_bvalid o && ai_bready i); split; try reflexivity; try apply incl_refl.
  apply incl_appl, incl_refl.
Qed.

Lemma al_read_step bd dbg sn m B s i dr a : al_inv bd dbg sn m B s -> m_ok m i -> m_eager m i -> reading m a ->
  let o := al_out s in let m' := fst (m_next m i o) in let s' := al_step bd dbg s i dr false in
  (exists v r, In (Did_read a v r) (snd (m_next m i o))) \/ reading m' a /\ (rank_r s' m' < rank_r s m)%nat.
Proof.
  intros I Hok (G1 & G2 & G3) (k & Hk). cbv zeta. destruct (nx_rd_any m i (al_out s)) as [N1 N2]. pose proof Hok as (M1 & _).
  unfold rank_r. rewrite al_fsm_next, N1. unfold reading. rewrite N1. unfold al_inv in I.
  assert (X : forall a0 k0, m_rd m = RAddr a0 k0 -> al_arready s = false -> fst (m_next_rd m i (al_out s)) = RAddr a true /\ ai_arvalid i = true).
  { intros a0 k0 E Ea. unfold m_next_rd. cbn [ao_arready al_out]. rewrite Ea, E. rewrite E in M1. destruct M1 as (-> & -> & _). rewrite G1. destruct Hk; [|congruence]. cbn [fst]. split; congruence. }
  destruct (al_fsm_st s) eqn:Est.
  - destruct I as (Hw & [I|[I|I]]).
    + destruct I as ((E1 & _) & R & _). right. destruct Hk as [Hk|Hk]; [|unfold r_pre in R; rewrite Hk in R; contradiction].
      destruct (X _ _ Hk E1) as [-> ->]. rewrite Hk. split; [eauto|lia].
    + destruct I as ((E1 & E2 & _) & (a0 & R & _) & _). left. rewrite R in M1. destruct Hk as [Hk|Hk]; [congruence|]. assert (a0 = a) by congruence. subst a0.
      exists (al_rdata s), (al_rresp s). apply N2. unfold m_next_rd. rewrite R. cbn [ao_rvalid ao_rdata ao_rresp al_out]. rewrite E2, G1. left. reflexivity.
    + destruct I as ((E1 & _) & R & _). right. destruct Hk as [Hk|Hk]; [|unfold r_pre in R; rewrite Hk in R; contradiction].
      destruct (X _ _ Hk E1) as [-> ->]. rewrite Hk. split; [eauto|lia].
  - destruct I as (_ & _ & (E1 & _) & _ & a0 & k0 & R). right. destruct (X _ _ R E1) as [-> _]. split; [eauto|lia].
  - destruct I as (_ & _ & (E1 & _) & _ & a0 & k0 & R & _). right. rewrite R in M1. destruct M1 as (M1 & M2 & _). split; [|lia].
    unfold m_next_rd. rewrite R, M1. cbn [ao_arready al_out]. rewrite E1. cbn [fst]. exists (ai_rready i). right. destruct Hk; congruence.
  - destruct I as (_ & _ & (E1 & E2 & _) & _ & a0 & k0 & R & _). right. split; [|lia].
    unfold m_next_rd. rewrite R. cbn [ao_rvalid al_out]. rewrite E2. cbn [fst andb]. exists (ai_rready i). right. destruct Hk; congruence.
  - destruct I as (_ & _ & (E1 & E2 & _) & _ & a0 & k0 & R & _). right. rewrite G1. unfold m_next_rd. rewrite R. cbn [ao_rvalid al_out]. rewrite E2. cbn [fst andb]. split; [|lia].
    exists (ai_rready i). right. destruct Hk; congruence.
  - destruct I as (_ & _ & (E1 & _) & R & _). right. destruct Hk as [Hk|Hk]; [|unfold r_pre in R; rewrite Hk in R; contradiction]. destruct (X _ _ Hk E1) as [-> _]. split; [eauto|lia].
  - destruct I as (_ & _ & (E1 & _) & R & _). right. destruct Hk as [Hk|Hk]; [|unfold r_pre in R; rewrite Hk in R; contradiction]. destruct (X _ _ Hk E1) as [-> _]. split; [eauto|lia].
  - destruct I as (_ & _ & (E1 & _) & R & _). right. destruct Hk as [Hk|Hk]; [|unfold r_pre in R; rewrite Hk in R; contradiction]. destruct (X _ _ Hk E1) as [-> _]. split; [eauto|lia].
  - destruct I as (_ & _ & (w & E1 & _) & R & D & a0 & Ha & _). right. destruct Hk as [Hk|Hk]; [|unfold r_pre in R; rewrite Hk in R; contradiction]. destruct (X _ _ Hk E1) as [-> _].
    rewrite Ha in G3. rewrite G3 by auto. split; [eauto|lia].
  - destruct I as (w & a0 & d & st & (E1 & _) & R & _). right. destruct Hk as [Hk|Hk]; [|unfold r_pre in R; rewrite Hk in R; contradiction]. destruct (X _ _ Hk E1) as [-> _].
    rewrite G2. split; [eauto|lia].
Qed.

Lemma al_write_step bd dbg sn m B s i dr a : al_inv bd dbg sn m B s -> m_ok m i -> m_eager m i -> writing m a ->
  let o := al_out s in let m' := fst (m_next m i o) in let s' := al_step bd dbg s i dr false in
  (exists d st r, In (Did_write a d st r) (snd (m_next m i o))) \/ writing m' a /\ (rank_w s' m' < rank_w s m)%nat.
Proof.
  intros I Hok (G1 & G2 & G3) Hk. cbv zeta. pose proof Hok as (M1 & M2 & M3 & M4 & _). set (o := al_out s).
  assert (O1 : ao_arready o = al_arready s) by reflexivity. assert (O2 : ao_rvalid o = al_rvalid s) by reflexivity.
  assert (O3 : ao_awready o = al_awready s) by reflexivity. assert (O4 : ao_wready o = al_wready s) by reflexivity.
  assert (O5 : ao_bvalid o = al_bvalid s) by reflexivity.
  unfold rank_w. rewrite al_fsm_next. unfold writing. unfold al_inv in I.
  assert (P : w_pre m -> m_aw m = PHeld a /\ ai_awvalid i = true /\ ai_awaddr i = a).
  { intros [W _]. destruct Hk as [Hk|Hk]; rewrite Hk in *; [|contradiction]. tauto. }
  assert (Q : w_pre m -> al_awready s = false -> al_wready s = false -> m_aw (fst (m_next m i o)) = PHeld a).
  { intros W E1 E2. destruct (P W) as (P1 & P2 & P3). destruct (nx_pre m i o W ltac:(congruence) ltac:(congruence)) as (_ & _ & N & _). rewrite N, P2, P3. reflexivity. }
  destruct (al_fsm_st s) eqn:Est.
  - destruct I as (Hw & [I|[I|I]]).
    + destruct I as ((E1 & E2 & E3 & E4 & E5) & R & W & _). right. rewrite (Q W E3 E4). split; [auto|]. destruct (P W) as (P1 & P2 & P3). rewrite P1, P2, E2. destruct (ai_arvalid i); lia.
    + destruct I as ((E1 & E2 & E3 & E4 & E5) & (a0 & R & _) & W & _). right. rewrite (Q W E3 E4). split; [auto|]. destruct (P W) as (P1 & P2 & P3). rewrite R in M1. destruct M1 as [-> _]. rewrite P1, P2, E2. lia.
    + destruct I as ((E1 & E2 & E3 & E4 & E5) & R & a0 & d & st & A & D & Mb & _). left. assert (a0 = a) by (destruct Hk; congruence). subst a0. exists d, st, (ao_bresp o).
      destruct (nx_answer m i o a d st A D ltac:(congruence) G2) as (_ & -> & _). apply in_or_app. right. left. reflexivity.
  - destruct I as (_ & _ & (E1 & E2 & E3 & E4 & E5) & W & _). right. rewrite (Q W E3 E4). split; [auto|lia].
  - destruct I as (_ & _ & (E1 & E2 & E3 & E4 & E5) & W & _). right. rewrite (Q W E3 E4). split; [auto|lia].
  - destruct I as (_ & _ & (E1 & E2 & E3 & E4 & E5) & W & _). right. rewrite (Q W E3 E4). split; [auto|lia].
  - destruct I as (_ & _ & (E1 & E2 & E3 & E4 & E5) & W & _). right. rewrite (Q W E3 E4), G1. split; [auto|]. unfold al_step. rewrite Est, G1. cbn [al_rvalid orb]. lia.
  - destruct I as (_ & _ & (E1 & E2 & E3 & E4 & E5) & R & W & _). right. rewrite (Q W E3 E4). split; [auto|lia].
  - destruct I as (_ & _ & (E1 & E2 & E3 & E4 & E5) & R & W & _). right. destruct (P W) as (P1 & _).
    destruct (nx_aw m i o a W P1 Hok ltac:(congruence) ltac:(congruence)) as (_ & _ & N & _). rewrite N. split; [auto|lia].
  - destruct I as (_ & _ & (E1 & E2 & E3 & E4 & E5) & R & D & a0 & A & _). right. assert (a0 = a) by (destruct Hk; congruence). subst a0.
    destruct (nx_wd m i o a A D) as (_ & _ & N & _). rewrite N. split; [auto|lia].
  - destruct I as (_ & _ & (w & E1 & E2 & E3 & E4 & E5) & R & D & a0 & A & _). right. assert (a0 = a) by (destruct Hk; congruence). subst a0.
    destruct (nx_wd m i o a A D) as (_ & _ & N & _). rewrite N. rewrite A in G3. rewrite G3 by auto. split; [auto|lia].
  - destruct I as (w & a0 & d & st & (E1 & E2 & E3 & E4 & E5) & R & A & D & _). right. assert (a0 = a) by (destruct Hk; congruence). subst a0. rewrite G2.
    assert (N : m_aw (fst (m_next m i o)) = PDone a).
    { destruct D as [D|[D Hw]]; [destruct (nx_done m i o a (d, st) A D ltac:(congruence)) as (_ & _ & N & _)|
        destruct (nx_wd m i o a A ltac:(rewrite D; exact Logic.I)) as (_ & _ & N & _)]; exact N. }
    rewrite N. split; [auto|lia].
Qed.

Lemma all_true (l : list (ax_in * list Z * bool)) : Forall (fun x => (fun _ : list Z => True) (snd (fst x))) l.
Proof. induction l; constructor; auto. Qed.
Lemma al_trace_app bd dbg : forall l1 l2 s, al_trace bd dbg s (l1 ++ l2) = al_trace bd dbg s l1 ++ al_trace bd dbg (al_run bd dbg s l1) l2.
Proof. induction l1 as [|[[i dr] rst] l1 IH]; intros; cbn [al_trace al_run app]; [reflexivity|]. rewrite IH. reflexivity. Qed.
Lemma m_all_ok_app : forall l1 l2 m, m_all_ok m (l1 ++ l2) <-> m_all_ok m l1 /\ m_all_ok (m_run m l1) l2.
Proof. induction l1 as [|[i o] l1 IH]; intros; cbn [m_all_ok m_run app]; [tauto|]. rewrite IH. tauto. Qed.

(* C32.  Whatever happened before, a read that is in progress completes within 11 cycles, and a write
   within 12, of a master that does not delay (even if it keeps issuing transactions of the other
   kind: neither starves). *)
Theorem C32_answered : forall bd dbg l1 l2 a, 2 <= bd <= 16 -> no_rst (l1 ++ l2) ->
  let tr1 := al_trace bd dbg (al_init bd) l1 in
  let tr2 := al_trace bd dbg (al_run bd dbg (al_init bd) l1) l2 in
  let m := m_run ms_init tr1 in
  m_all_ok ms_init (tr1 ++ tr2) -> m_all_eager m tr2 ->
  (reading m a -> (11 <= length l2)%nat -> exists v r, In (Did_read a v r) (m_log m tr2)) /\
  (writing m a -> (12 <= length l2)%nat -> exists d st r, In (Did_write a d st r) (m_log m tr2)).
Proof.
  intros bd dbg l1 l2 a Hb Hn tr1 tr2 m Hok He. apply Forall_app in Hn. destruct Hn as [Hn1 Hn2]. apply m_all_ok_app in Hok. destruct Hok as [O1 O2].
  destruct (al_run_inv bd dbg (fun _ => True) Hb l1 ms_init (bank0 bd) (al_init bd) (all_true l1) Hn1 (bank0_ok bd Hb) (al_inv_init bd dbg _ Hb) O1) as (B & _ & HB & I & _).
  fold tr1 in O2, I. fold m in I, O2. unfold tr2 in *. clearbody m. clear tr1 tr2 O1 Hn1. revert O2 He I. generalize (al_run bd dbg (al_init bd) l1) as s. intros s O2 He I.
  split.
    + intros Hr L.
      assert (K : forall l n m s B, Forall (fun x => snd x = false) l -> bank_ok bd B -> m_all_ok m (al_trace bd dbg s l) -> m_all_eager m (al_trace bd dbg s l) -> al_inv bd dbg (fun _ => True) m B s -> reading m a ->
         (rank_r s m <= n)%nat -> (n <= length l)%nat -> exists v r, In (Did_read a v r) (m_log m (al_trace bd dbg s l))).
      { clear - Hb. induction l as [|[[i dr] rst] l IH]; intros n m s B Hn HB O2 He I Hr L1 L2.
        - cbn [length] in L2. assert (1 <= rank_r s m)%nat by (unfold rank_r; destruct (al_fsm_st s); [destruct (m_rd m)|..]; lia). lia.
        - cbn [al_trace m_all_ok m_all_eager m_log length] in *. apply Forall_cons_iff in Hn. destruct Hn as [Er Hn]. cbn [snd] in Er. subst rst.
          destruct O2 as [O2 O3]. destruct He as [E1 E2]. destruct (al_read_step bd dbg _ m B s i dr a I O2 E1 Hr) as [(v & r & D)|[D1 D2]].
          + exists v, r. apply in_or_app. auto.
          + destruct (al_inv_step bd dbg _ m B s i dr Logic.I Hb HB I O2) as (B' & _ & X2 & X3 & _).
            destruct (IH (pred n) _ _ B' Hn X2 O3 E2 X3 D1 ltac:(lia) ltac:(lia)) as (v & r & Y). exists v, r. apply in_or_app. auto. }
      apply (K _ 11%nat m s B Hn2 HB O2 He I Hr); [|exact L]. unfold rank_r. destruct (al_fsm_st s); [destruct (m_rd m)|..]; lia.
    + intros Hr L.
      assert (K : forall l n m s B, Forall (fun x => snd x = false) l -> bank_ok bd B -> m_all_ok m (al_trace bd dbg s l) -> m_all_eager m (al_trace bd dbg s l) -> al_inv bd dbg (fun _ => True) m B s -> writing m a ->
         (rank_w s m <= n)%nat -> (n <= length l)%nat -> exists d st r, In (Did_write a d st r) (m_log m (al_trace bd dbg s l))).
      { clear - Hb. induction l as [|[[i dr] rst] l IH]; intros n m s B Hn HB O2 He I Hr L1 L2.
        - cbn [length] in L2. assert (1 <= rank_w s m)%nat by (unfold rank_w; destruct (al_fsm_st s); [destruct (m_aw m), (al_rvalid s)|..]; lia). lia.
        - cbn [al_trace m_all_ok m_all_eager m_log length] in *. apply Forall_cons_iff in Hn. destruct Hn as [Er Hn]. cbn [snd] in Er. subst rst.
          destruct O2 as [O2 O3]. destruct He as [E1 E2]. destruct (al_write_step bd dbg _ m B s i dr a I O2 E1 Hr) as [(d & st & r & D)|[D1 D2]].
          + exists d, st, r. apply in_or_app. auto.
          + destruct (al_inv_step bd dbg _ m B s i dr Logic.I Hb HB I O2) as (B' & _ & X2 & X3 & _).
            destruct (IH (pred n) _ _ B' Hn X2 O3 E2 X3 D1 ltac:(lia) ltac:(lia)) as (d & st & r & Y). exists d, st, r. apply in_or_app. auto. }
      apply (K _ 12%nat m s B Hn2 HB O2 He I Hr); [|exact L]. unfold rank_w. destruct (al_fsm_st s); [destruct (m_aw m), (al_rvalid s)|..]; lia.
Qed.

(* ---------- the auto reset ---------- *)

(* C35.  If the auto reset hits after a write address was accepted, and the answer is not on the bus nor
   being put there in this cycle (bready is low, or the data is not accepted yet), then no master
   that obeys the protocol ever gets the answer, whatever it does (reads, further auto resets). *)
Theorem C35_write_answer_lost : forall bd dbg l i dr l' a, 2 <= bd <= 16 -> no_rst l ->
  let s := al_run bd dbg (al_init bd) l in
  let tr := al_trace bd dbg (al_init bd) l in
  let m := m_run ms_init tr in
  let tr' := al_trace bd dbg s ((i, dr, true) :: l') in
  m_all_ok ms_init (tr ++ tr') ->
  m_aw m = PDone a -> ao_bvalid (al_out s) = false ->
  ai_bready i = false \/ (ao_wready (al_out s) = false /\ match m_wd m with PDone _ => False | _ => True end) ->
  Forall (fun x => ao_bvalid (snd x) = false) tr' /\ m_aw (m_run m tr') = PDone a.
Proof.
  intros bd dbg l i dr l' a Hb Hn s tr m tr' Hok Ha Hbv Hc. apply m_all_ok_app in Hok. destruct Hok as [O1 O2].
  destruct (al_run_inv bd dbg (fun _ => True) Hb l ms_init (bank0 bd) (al_init bd) (all_true l) Hn (bank0_ok bd Hb) (al_inv_init bd dbg _ Hb) O1) as (B & _ & HB & I & _).
  fold tr m s in I, O2. cbn [ao_bvalid ao_wready al_out] in Hbv, Hc.
  assert (N : forall m i o, m_aw m = PDone a -> ao_bvalid o = false -> m_aw (fst (m_next m i o)) = PDone a).
  { clear. intros m i o Ha Hv. unfold m_next, m_next_aw. rewrite Ha, Hv. destruct (m_next_rd m i o) as [r e]. destruct (m_wd m) as [|y|[y z]]; reflexivity. }
  assert (Z1 : al_fsm_st (al_step bd dbg s i dr true) = AL_IDLE) by reflexivity.
  assert (Z2 : al_bvalid (al_step bd dbg s i dr true) = false).
  { unfold al_step. cbn [al_bvalid]. destruct (al_fsm_st s) eqn:Est; try exact Hbv; [reflexivity|]. destruct Hc as [Hc|[Hc D]]; [rewrite Hc; exact Hbv|].
    unfold al_inv in I. rewrite Est in I. destruct I as (w & a0 & d & st & (E1 & E2 & E3 & E4 & E5) & R & A & Y & _). destruct Y as [Y|[Y Hw]]; [rewrite Y in D; contradiction|congruence]. }
  assert (K : forall l m s, m_all_ok m (al_trace bd dbg s l) -> m_aw m = PDone a -> al_bvalid s = false ->
     match al_fsm_st s with AL_IDLE | AL_READ_ADDRESS | AL_READ_DATA_DELAY1 | AL_READ_DATA_DELAY2 | AL_READ_DATA => True | _ => False end ->
     Forall (fun x => ao_bvalid (snd x) = false) (al_trace bd dbg s l) /\ m_aw (m_run m (al_trace bd dbg s l)) = PDone a).
  { clear - N. induction l as [|[[i dr] rst] l IH]; intros m s O A V F; cbn [al_trace m_run]; [split; [constructor|exact A]|].
    cbn [al_trace m_all_ok] in O. destruct O as [O1 O2]. destruct O1 as (_ & M2 & _). rewrite A in M2.
    destruct (IH _ _ O2 (N m i (al_out s) A V)) as [I1 I2].
    - unfold al_step. cbn [al_bvalid]. destruct (al_fsm_st s); try contradiction; try exact V. reflexivity.
    - unfold al_step. cbn [al_fsm_st]. destruct rst; [exact I|]. rewrite M2. destruct (al_fsm_st s); try contradiction; try exact I; [destruct (ai_arvalid i)|destruct (ai_rready i)]; exact I.
    - split; [constructor; [exact V|exact I1]|exact I2]. }
  unfold tr' in *. cbn [al_trace m_run m_all_ok] in *. destruct O2 as [O2 O3].
  destruct (K l' _ _ O3 (N m i (al_out s) Ha Hbv) Z2) as [K1 K2]; [rewrite Z1; exact Logic.I|]. split; [constructor; [exact Hbv|exact K1]|exact K2].
Qed.

(* C35.  Likewise for a read whose address was accepted: it is never answered (if the reset does not
   hit the very cycle in which the answer is being put on the bus, which needs rready). *)
Theorem C35_read_answer_lost : forall bd dbg l i dr l' a k, 2 <= bd <= 16 -> no_rst l ->
  let s := al_run bd dbg (al_init bd) l in
  let tr := al_trace bd dbg (al_init bd) l in
  let m := m_run ms_init tr in
  let tr' := al_trace bd dbg s ((i, dr, true) :: l') in
  m_all_ok ms_init (tr ++ tr') ->
  m_rd m = RWait a k -> ao_rvalid (al_out s) = false -> ai_rready i = false ->
  Forall (fun x => ao_rvalid (snd x) = false) tr' /\ exists k', m_rd (m_run m tr') = RWait a k'.
Proof.
  intros bd dbg l i dr l' a k Hb Hn s tr m tr' Hok Ha Hbv Hc. apply m_all_ok_app in Hok. destruct Hok as [O1 O2].
  destruct (al_run_inv bd dbg (fun _ => True) Hb l ms_init (bank0 bd) (al_init bd) (all_true l) Hn (bank0_ok bd Hb) (al_inv_init bd dbg _ Hb) O1) as (B & _ & HB & I & _).
  fold tr m s in I, O2. cbn [ao_rvalid al_out] in Hbv.
  assert (N : forall m i o k, m_rd m = RWait a k -> ao_rvalid o = false -> m_rd (fst (m_next m i o)) = RWait a (ai_rready i)).
  { clear. intros m i o k Ha Hv. destruct (nx_rd_any m i o) as [-> _]. unfold m_next_rd. rewrite Ha, Hv. reflexivity. }
  assert (Z1 : al_fsm_st (al_step bd dbg s i dr true) = AL_IDLE) by reflexivity.
  assert (Z2 : al_rvalid (al_step bd dbg s i dr true) = false).
  { unfold al_step. cbn [al_rvalid]. destruct (al_fsm_st s) eqn:Est; try exact Hbv; [reflexivity|]. rewrite Hc. exact Hbv. }
  assert (K : forall l m s k, m_all_ok m (al_trace bd dbg s l) -> m_rd m = RWait a k -> al_rvalid s = false ->
     match al_fsm_st s with AL_IDLE | AL_WRITE_ADDRESS | AL_WRITE_DATA_DELAY1 | AL_WRITE_DATA_DELAY2 | AL_WRITE_DATA | AL_WRITE_RESPONSE => True | _ => False end ->
     Forall (fun x => ao_rvalid (snd x) = false) (al_trace bd dbg s l) /\ exists k', m_rd (m_run m (al_trace bd dbg s l)) = RWait a k').
  { clear - N. induction l as [|[[i dr] rst] l IH]; intros m s k O A V F; cbn [al_trace m_run]; [split; [constructor|eauto]|].
    cbn [al_trace m_all_ok] in O. destruct O as [O1 O2]. destruct O1 as (M2 & _). rewrite A in M2. destruct M2 as [M2 _].
    destruct (IH _ _ _ O2 (N m i (al_out s) k A V)) as [I1 I2].
    - unfold al_step. cbn [al_rvalid]. destruct (al_fsm_st s); try contradiction; try exact V. reflexivity.
    - unfold al_step. cbn [al_fsm_st]. destruct rst; [exact I|]. rewrite M2. destruct (al_fsm_st s); try contradiction; try exact I; [destruct (ai_awvalid i)|destruct (ai_wvalid i)|destruct (ai_bready i)]; exact I.
    - split; [constructor; [exact V|exact I1]|exact I2]. }
  unfold tr' in *. cbn [al_trace m_run m_all_ok] in *. destruct O2 as [O2 O3].
  destruct (K l' _ _ _ O3 (N m i (al_out s) _ Ha Hbv) Z2) as [K1 K2]; [rewrite Z1; exact Logic.I|]. split; [constructor; [exact Hbv|exact K1]|exact K2].
Qed.

(* a read of address a, then (the address being accepted) the address lines show x *)
Definition rd_in (v : bool) (a : Z) (r : bool) : ax_in :=
  {| ai_arvalid := v; ai_araddr := a; ai_rready := r; ai_awvalid := false; ai_awaddr := 0; ai_wvalid := false; ai_wdata := 0; ai_wstrb := 0; ai_bready := false |}.
Definition quiet_in (i : ax_in) : ax_in * list Z * bool := (i, [], false).
(* C35.  If the auto reset hits in the cycle in which the slave decides to accept a read address, the
   read is answered, but with the contents of whatever address is on the lines one cycle after the
   handshake: for all addresses a and x there is a run with a single auto reset in which a protocol-obeying
   master reads a and is given the answer for x. *)
Theorem C35_wrong_address : forall bd dbg a x, 2 <= bd <= 16 -> 0 <= a < 2 ^ 32 -> 0 <= x < 2 ^ 32 ->
  let l := [quiet_in (rd_in true a true); (rd_in true a true, [], true); quiet_in (rd_in true a true);
            quiet_in (rd_in false x true); quiet_in (rd_in false 0 true); quiet_in (rd_in false 0 true); quiet_in (rd_in false 0 true); quiet_in (rd_in false 0 true)] in
  let tr := al_trace bd dbg (al_init bd) l in
  m_all_ok ms_init tr /\ exists v r, m_log ms_init tr = [Did_read a v r] /\ bank_rd bd dbg (eq []) (bank0 bd) x v r.
Proof.
  intros bd dbg a x Hb Ha Hx. cbv zeta. split.
  - repeat (split; [|]); cbn; try exact I; try reflexivity; try lia; auto; intros; discriminate.
  - cbn [al_trace quiet_in].
    set (s1 := al_step _ _ (al_init bd) _ _ _). set (s2 := al_step _ _ s1 _ _ _). set (s3 := al_step _ _ s2 _ _ _). set (s4 := al_step _ _ s3 _ _ _).
    set (s5 := al_step _ _ s4 _ _ _). set (s6 := al_step _ _ s5 _ _ _). set (s7 := al_step _ _ s6 _ _ _).
    exists (al_rdata s7), (al_rresp s7). split; [reflexivity|].
    assert (E : al_bank bd s6 = bank0 bd) by reflexivity. rewrite <- E.
    apply (al_read_ok bd dbg (eq []) s6 (rd_in false 0 true) [] x eq_refl Hb); [reflexivity|rewrite E; apply bank0_ok; exact Hb| |reflexivity].
    unfold al_at2, al_at. split; [split; [lia|split; reflexivity]|reflexivity].
Qed.

(* ---------- concrete runs ---------- *)

Definition bus_in (arv : bool) (ara : Z) (rr : bool) (awv : bool) (awa : Z) (wv : bool) (wd st : Z) (br : bool) : ax_in * list Z * bool :=
  ({| ai_arvalid := arv; ai_araddr := ara; ai_rready := rr; ai_awvalid := awv; ai_awaddr := awa; ai_wvalid := wv; ai_wdata := wd; ai_wstrb := st; ai_bready := br |}, [], false).
(* Write 0x00400030 (width 64, height 48) to the height/width word with all strobes, then byte 1 of
   it, then read it, with a read of an undecoded address overlapping the second write. *)
Definition ex_run : list (ax_in * list Z * bool) :=
  repeat (bus_in false 0 true true (4 * 0x800) true 0x00400030 15 true) 3 ++
  repeat (bus_in false 0 true false 0 true 0x00400030 15 true) 3 ++
  repeat (bus_in false 0 true false 0 false 0 0 true) 1 ++
  repeat (bus_in true 4 true true (4 * 0x800) true 0x0000ff00 2 true) 3 ++
  repeat (bus_in false 4 true true (4 * 0x800) true 0x0000ff00 2 true) 3 ++
  repeat (bus_in false 4 true true (4 * 0x800) true 0x0000ff00 2 true) 2 ++
  repeat (bus_in false 0 true false 0 true 0x0000ff00 2 true) 3 ++
  repeat (bus_in false 0 true false 0 false 0 0 true) 1 ++
  repeat (bus_in true (4 * 0x800) true false 0 false 0 0 true) 3 ++
  repeat (bus_in false 0 true false 0 false 0 0 true) 4.
Example C32_example : m_all_ok ms_init (al_trace 16 false (al_init 16) ex_run) /\ no_rst ex_run /\
  m_log ms_init (al_trace 16 false (al_init 16) ex_run) =
    [Did_write (4 * 0x800) 0x00400030 15 0; Did_read 4 0 3; Did_write (4 * 0x800) 0x0000ff00 2 0; Did_read (4 * 0x800) 0x0040ff30 0] /\
  al_height (al_run 16 false (al_init 16) ex_run) = 0xff30 /\ al_width (al_run 16 false (al_init 16) ex_run) = 64.
Proof.
  split; [|split; [repeat constructor|vm_compute; repeat split]].
  unfold ex_run. cbn [repeat app al_trace bus_in m_all_ok].
  repeat match goal with |- _ /\ _ => split | |- True => exact I end.
  all: try (vm_compute; repeat split; intros; first [reflexivity|discriminate|congruence]).
Qed.

(* The same master, with the auto reset in the cycle after the write address was accepted: the
   hypotheses of C35_write_answer_lost are met, and the write is not answered in 1000 cycles. *)
Definition ex_pre : list (ax_in * list Z * bool) :=
  repeat (bus_in false 0 true true (4 * 0x800) true 0x00400030 15 true) 3.
Definition ex_wait : list (ax_in * list Z * bool) := repeat (bus_in false 0 true false 0 true 0x00400030 15 true) 1000.
Example C35_example :
  let s := al_run 16 false (al_init 16) ex_pre in
  let m := m_run ms_init (al_trace 16 false (al_init 16) ex_pre) in
  m_aw m = PDone (4 * 0x800) /\ ao_bvalid (al_out s) = false /\ ao_wready (al_out s) = false /\ match m_wd m with PDone _ => False | _ => True end /\
  m_log m (al_trace 16 false s ((fst (fst (bus_in false 0 true false 0 true 0x00400030 15 true)), [], true) :: ex_wait)) = [].
Proof. vm_compute. repeat split. Qed.
(* a read whose answer is lost *)
Example C35_example_read :
  let s := al_run 16 false (al_init 16) (repeat (bus_in true (4 * 0x800) false false 0 false 0 0 false) 3) in
  let m := m_run ms_init (al_trace 16 false (al_init 16) (repeat (bus_in true (4 * 0x800) false false 0 false 0 0 false) 3)) in
  m_rd m = RWait (4 * 0x800) false /\ ao_rvalid (al_out s) = false /\
  m_log m (al_trace 16 false s ((fst (fst (bus_in false 0 false false 0 false 0 0 false)), [], true) :: repeat (bus_in false 0 true false 0 false 0 0 false) 1000)) = [].
Proof. vm_compute. repeat split. Qed.

(* C33: entry 1 of the 16-bit table, rewritten through the bus with what was read from it. *)
Example C33_example : exists l, let b := bank0 16 in
  let lo := entry b 1 mod 2 ^ 32 in let hi := entry b 1 / 2 ^ 32 in
  hi <> 0 /\ l = [Did_write (4 * 0x402) lo 15 0; Did_write (4 * 0x403) hi 15 0; Did_read (4 * 0x402) 0 0; Did_read (4 * 0x403) 0 0] /\
  decode 16 false (4 * 0x402) = T_huff 1 false /\ decode 16 false (4 * 0x403) = T_huff 1 true /\
  exists b', explained (bank_rd 16 false (fun _ => False)) (bank_wr 16 false) b l b'.
Proof. eexists. cbv zeta. split; [vm_compute; discriminate|]. split; [reflexivity|]. split; [reflexivity|]. split; [reflexivity|]. eexists. vm_compute. repeat split. Qed.
Example C34_example : resp_of (Did_read 4 0 3) = 3 /\ decoded 16 false (Did_read 4 0 3) = false /\ decoded 16 true (Did_write (4 * 0x1000) 0 15 2) = true.
Proof. repeat split. Qed.
