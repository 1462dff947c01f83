(* C63: axi_lite.py, the AXI3 side of the register banks. *)
From Verif Require Import Bits M_Encode M_AxiLite Spec_Axi P_AxiLite Props_Axi Props_Axi2 Props_Dma M_Bridge.
Ltac Zify.zify_post_hook ::= idtac.

(* ---------- specification: transaction IDs ---------- *)

(* the bus without the AXI3 signals *)
Definition lite (x : zb_in * zb_out) : ax_in * ax_out := (zb_bus (fst x), zo_bus (snd x)).
(* the IDs of the read and of the write in progress: the ID that came with the address *)
Definition ids : Type := Z * Z.
Definition next_ids (w : ids) (i : zb_in) : ids :=
  (if ai_arvalid (zb_bus i) then zb_arid i else fst w, if ai_awvalid (zb_bus i) then zb_awid i else snd w).
(* a master holds the ID together with the address *)
Definition holds_ids (m : ms) (w : ids) (i : zb_in) : Prop :=
  (match m_rd m with RAddr _ _ => zb_arid i = fst w | _ => True end) /\ (match m_aw m with PHeld _ => zb_awid i = snd w | _ => True end).
(* it has no read and write in progress at the same time *)
Definition one_kind (m : ms) (i : zb_in) : Prop :=
  ((m_rd m <> RIdle \/ ai_arvalid (zb_bus i) = true) -> m_aw m = PNot /\ ai_awvalid (zb_bus i) = false).
Fixpoint master_ok (also : ms -> zb_in -> Prop) (m : ms) (w : ids) (tr : list (zb_in * zb_out)) : Prop :=
  match tr with
  | [] => True
  | (i, o) :: r => m_ok m (zb_bus i) /\ holds_ids m w i /\ also m i /\ master_ok also (fst (m_next m (zb_bus i) (zo_bus o))) (next_ids w i) r
  end.
(* the answers: read or write, ID of the request, ID of the answer, rlast *)
Inductive answer := Read_answer (asked got : Z) (last : bool) | Write_answer (asked got : Z).
Definition answers_of (w : ids) (o : zb_out) (e : event) : answer :=
  match e with Did_read _ _ _ => Read_answer (fst w) (zo_rid o) (zo_rlast o) | Did_write _ _ _ _ => Write_answer (snd w) (zo_bid o) end.
Fixpoint answers (m : ms) (w : ids) (tr : list (zb_in * zb_out)) : list answer :=
  match tr with
  | [] => []
  | (i, o) :: r => map (answers_of w o) (snd (m_next m (zb_bus i) (zo_bus o))) ++ answers (fst (m_next m (zb_bus i) (zo_bus o))) (next_ids w i) r
  end.
Definition right_id (a : answer) : Prop :=
  match a with Read_answer q g l => g = q /\ l = true | Write_answer q g => g = q end.
Definition anything (m : ms) (i : zb_in) : Prop := True.

(* ---------- transparency ---------- *)

Definition core_ins (l : list (zb_in * list Z * bool)) : list (ax_in * list Z * bool) := map (fun x => (zb_bus (fst (fst x)), snd (fst x), snd x)) l.
Definition dma_ins (l : list (zb_in * list Z)) : list (ax_in * list Z) := map (fun x => (zb_bus (fst x), snd x)) l.
Lemma core_lite bd dbg : forall l b s, map lite (zc_trace bd dbg b s l) = al_trace bd dbg s (core_ins l).
Proof. induction l as [|[[i dr] rst] l IH]; intros b s; [reflexivity|]. cbn [zc_trace map core_ins al_trace fst snd]. rewrite IH. reflexivity. Qed.
Lemma dma_lite : forall l b s, map lite (zd_trace b s l) = dl_trace s (dma_ins l).
Proof. induction l as [|[i x] l IH]; intros b s; [reflexivity|]. cbn [zd_trace map dma_ins dl_trace fst snd]. rewrite IH. reflexivity. Qed.
Lemma ok_lite also : forall tr m w, master_ok also m w tr -> m_all_ok m (map lite tr).
Proof. induction tr as [|[i o] tr IH]; intros m w Hok; [exact I|]. cbn [master_ok map m_all_ok lite fst snd] in *. destruct Hok as (H1 & _ & _ & H2). split; [exact H1|]. eapply IH, H2. Qed.

(* C63.  The processor sees the register bank itself: C32 holds word for word at the AXI3 pins. *)
Theorem C63_core_sequential : forall bd dbg l b, 2 <= bd <= 16 -> Forall (fun x => snd x = false) l ->
  let tr := map lite (zc_trace bd dbg b (al_init bd) l) in
  m_all_ok ms_init tr ->
  m_all_sane ms_init tr /\
  exists B, explained (bank_rd bd dbg (counters_of (core_ins l))) (bank_wr bd dbg) (bank0 bd) (m_log ms_init tr) B /\
    let s := al_run bd dbg (al_init bd) (core_ins l) in
    (m_aw (m_run ms_init tr) = PNot ->
       al_height s = k_hw B mod 2 ^ 16 /\ al_width s = k_hw B / 2 ^ 16 /\ al_allowed s = k_allowed B /\ al_mem s = k_mem B).
Proof.
  intros bd dbg l b Hb Hn. rewrite core_lite. apply C32_sequential; [exact Hb|]. unfold no_rst, core_ins. rewrite Forall_map. exact Hn.
Qed.
Theorem C63_dma_sequential : forall l b,
  let tr := map lite (zd_trace b dl_init l) in
  m_all_ok ms_init tr ->
  m_all_sane ms_init tr /\
  exists B, explained (dbank_rd (status_of (dma_ins l))) dbank_wr dbank0 (m_log ms_init tr) B /\
    let s := dl_run dl_init (dma_ins l) in
    (m_aw (m_run ms_init tr) = PNot -> dl_read_addr s = g_read B /\ dl_write_addr s = g_write B /\ dl_start s = g_start B).
Proof. intros l b. rewrite dma_lite. apply C47_sequential. Qed.

(* ---------- IDs in front of the core ---------- *)

Definition core_ids (w : ids) (b : zb_st) (s : al_st) : Prop :=
  match al_fsm_st s with
  | AL_IDLE => (al_rvalid s = true -> zb_rid b = fst w) /\ (al_bvalid s = true -> zb_bid b = snd w)
  | AL_READ_ADDRESS => zb_rwid b = fst w
  | AL_READ_DATA_DELAY1 | AL_READ_DATA_DELAY2 | AL_READ_DATA => zb_rwid b = fst w /\ zb_rid b = fst w
  | AL_WRITE_ADDRESS => zb_rwid b = snd w
  | _ => zb_rwid b = snd w /\ zb_bid b = snd w
  end.

Lemma ev_read m i o a v r : In (Did_read a v r) (snd (m_next m i o)) -> ao_rvalid o = true /\ m_rd m <> RIdle.
Proof.
  unfold m_next. intros Hin. destruct (m_next_rd m i o) as [rd e1] eqn:E. assert (Hin' : In (Did_read a v r) e1).
  { destruct (m_aw m); try exact Hin. destruct (m_wd m) as [| |[d st]]; try exact Hin. destruct (_ && _); [|exact Hin]. cbn [snd] in Hin. apply in_app_iff in Hin. destruct Hin as [X|[X|[]]]; [exact X|discriminate]. }
  unfold m_next_rd in E. destruct (m_rd m) eqn:Er.
  - destruct (ai_arvalid i); injection E as <- <-; destruct Hin'.
  - destruct (ai_arvalid i); injection E as <- <-; destruct Hin'.
  - destruct (ao_rvalid o); [split; [reflexivity|discriminate]|]. injection E as <- <-. destruct Hin'.
Qed.
Lemma ev_write m i o a d st r : In (Did_write a d st r) (snd (m_next m i o)) -> ao_bvalid o = true.
Proof.
  unfold m_next. intros Hin. destruct (m_next_rd m i o) as [rd e1] eqn:E. assert (Hno : ~ In (Did_write a d st r) e1).
  { unfold m_next_rd in E. destruct (m_rd m); repeat match type of E with context [if ?b then _ else _] => destruct b end; injection E as <- <-; cbn; intuition congruence. }
  destruct (m_aw m); try contradiction. destruct (m_wd m) as [| |[d' st']]; try contradiction. destruct (ao_bvalid o); [reflexivity|]. contradiction.
Qed.

Lemma idle_rd m : r_pre m -> m_rd m = RIdle \/ exists a k, m_rd m = RAddr a k.
Proof. unfold r_pre. destruct (m_rd m); eauto. intros []. Qed.

Lemma core_ids_step bd dbg sn m B s w b i dr : al_inv bd dbg sn m B s -> m_ok m (zb_bus i) -> holds_ids m w i -> one_kind m i -> core_ids w b s ->
  Forall right_id (map (answers_of w (zb_up b (al_out s))) (snd (m_next m (zb_bus i) (al_out s)))) /\
  core_ids (next_ids w i) (zb_step b i) (al_step bd dbg s (zb_down i) dr false).
Proof.
  intros I (M1 & M2 & _) (H1 & H2) H3 J. split.
  - apply Forall_map, Forall_forall. intros [a v r|a d st r] Hin; cbn [answers_of right_id zb_up zo_rid zo_bid zo_rlast].
    + split; [|reflexivity]. destruct (ev_read _ _ _ _ _ _ Hin) as [X _]. cbn [al_out ao_rvalid] in X. unfold al_inv in I. unfold core_ids in J.
      destruct (al_fsm_st s); [tauto| | | | | | | | |];
        exfalso; unfold al_hs in I;
        repeat match goal with H : _ /\ _ |- _ => destruct H | H : exists _, _ |- _ => destruct H end; congruence.
    + pose proof (ev_write _ _ _ _ _ _ _ Hin) as X. cbn [al_out ao_bvalid] in X. unfold al_inv in I. unfold core_ids in J.
      destruct (al_fsm_st s); [tauto| | | | | | | | |];
        exfalso; unfold al_hs in I;
        repeat match goal with H : _ /\ _ |- _ => destruct H | H : exists _, _ |- _ => destruct H end; congruence.
  - unfold core_ids, al_step, zb_step, next_ids, zb_down, al_inv, one_kind, holds_ids in *.
    cbn [al_fsm_st al_rvalid al_bvalid zb_rwid zb_rid zb_bid fst snd].
    destruct (al_fsm_st s) eqn:Ef.
    + destruct (ai_arvalid (zb_bus i)) eqn:Ea.
      * destruct (H3 (or_intror eq_refl)) as [_ ->]. reflexivity.
      * destruct (ai_awvalid (zb_bus i)) eqn:Ew; [reflexivity|]. split; discriminate.
    + destruct I as (_ & _ & _ & _ & a & k & Hr). rewrite Hr in *. destruct M1 as [-> _]. destruct (H3 ltac:(left; discriminate)) as [_ ->]. split; congruence.
    + destruct I as (_ & _ & _ & _ & a & k & Hr & _). rewrite Hr in *. destruct M1 as [-> _]. destruct (H3 ltac:(left; discriminate)) as [_ ->]. split; intuition congruence.
    + destruct I as (_ & _ & _ & _ & a & k & Hr & _). rewrite Hr in *. destruct M1 as [-> _]. destruct (H3 ltac:(left; discriminate)) as [_ ->]. split; intuition congruence.
    + destruct I as (_ & _ & E & _ & a & k & Hr & _). rewrite Hr in *. destruct M1 as [-> _]. destruct (H3 ltac:(left; discriminate)) as [_ ->].
      destruct E as (_ & _ & _ & _ & ->). destruct (ai_rready (zb_bus i)); (split; [intuition congruence|]); intuition congruence.
    + destruct I as (_ & _ & _ & Hr & _ & a & Ha). rewrite Ha in *. destruct M2 as [-> _].
      split; congruence.
    + destruct I as (_ & _ & _ & Hr & _ & a & Ha & _). rewrite Ha in *. destruct M2 as [-> _]. split; intuition congruence.
    + destruct I as (_ & _ & _ & Hr & _ & a & Ha & _). rewrite Ha in *. rewrite M2.
      destruct (ai_arvalid (zb_bus i)) eqn:Er; [destruct (H3 (or_intror eq_refl)); discriminate|]. split; intuition congruence.
    + destruct I as (_ & _ & _ & Hr & _ & a & Ha & _). rewrite Ha in *. rewrite M2.
      destruct (ai_arvalid (zb_bus i)) eqn:Er; [destruct (H3 (or_intror eq_refl)); discriminate|]. destruct (ai_wvalid (zb_bus i)); split; intuition congruence.
    + destruct I as (w0 & a & d & st & E & Hr & Ha & _). rewrite Ha in *. rewrite M2.
      destruct (ai_arvalid (zb_bus i)) eqn:Er; [destruct (H3 (or_intror eq_refl)); discriminate|]. destruct E as (_ & -> & _).
      destruct (ai_bready (zb_bus i)); (split; [intuition congruence|]); intuition congruence.
Qed.

Lemma core_ids_run bd dbg sn : 2 <= bd <= 16 -> forall l m w B b s, Forall (fun x => sn (snd (fst x))) l -> Forall (fun x => snd x = false) l -> bank_ok bd B ->
  al_inv bd dbg sn m B s -> core_ids w b s -> master_ok one_kind m w (zc_trace bd dbg b s l) -> Forall right_id (answers m w (zc_trace bd dbg b s l)).
Proof.
  intros Hb. induction l as [|[[i dr] rst] l IH]; intros m w B b s Hsn Hr HB I J Hok; [constructor|].
  apply Forall_cons_iff in Hsn. destruct Hsn as [Hs Hsn]. apply Forall_cons_iff in Hr. destruct Hr as [Hr0 Hr]. cbn [snd fst] in Hr0, Hs. subst rst.
  cbn [zc_trace master_ok answers zb_up zo_bus] in *. destruct Hok as (O1 & O2 & O3 & O4).
  destruct (core_ids_step bd dbg sn m B s w b i dr I O1 O2 O3 J) as [X1 X2]. destruct (al_inv_step bd dbg sn m B s (zb_bus i) dr Hs Hb HB I O1) as (B' & _ & HB' & I' & _).
  apply Forall_app. split; [exact X1|]. exact (IH _ _ _ _ _ Hsn Hr HB' I' X2 O4).
Qed.

(* C63.  In front of the core, for every master that holds addresses and IDs until accepted and has no read and write in progress at
   the same time: every answer carries the ID of its request, and every read is answered by one beat marked last. *)
Theorem C63_core_ids : forall bd dbg l b w, 2 <= bd <= 16 -> Forall (fun x => snd x = false) l ->
  let tr := zc_trace bd dbg b (al_init bd) l in
  master_ok one_kind ms_init w tr -> Forall right_id (answers ms_init w tr).
Proof.
  intros bd dbg l b w Hb Hn tr Hok. apply (core_ids_run bd dbg (fun _ => True) Hb l ms_init w (bank0 bd) b (al_init bd)); auto.
  - apply Forall_forall. auto.
  - apply bank0_ok, Hb.
  - apply al_inv_init, Hb.
  - unfold core_ids. cbn. split; discriminate.
Qed.

(* ---------- IDs in front of the DMA registers ---------- *)

Definition dma_ids (w : ids) (b : zb_st) (s : dl_st) : Prop :=
  match dl_fsm_st s with
  | DL_IDLE => (dl_rvalid s = true -> zb_rid b = fst w) /\ (dl_bvalid s = true -> zb_bid b = snd w)
  | DL_READ_ADDRESS => zb_rwid b = fst w
  | DL_READ_DATA => zb_rwid b = fst w /\ zb_rid b = fst w
  | DL_WRITE_ADDRESS => zb_rwid b = snd w
  | _ => zb_rwid b = snd w /\ zb_bid b = snd w
  end.
Lemma dma_ids_step sn m B s w b i ins : dl_inv sn m B s -> m_ok m (zb_bus i) -> holds_ids m w i -> one_kind m i -> dma_ids w b s ->
  Forall right_id (map (answers_of w (zb_up b (dl_out s))) (snd (m_next m (zb_bus i) (dl_out s)))) /\
  dma_ids (next_ids w i) (zb_step b i) (dl_step s (zb_down i) ins).
Proof.
  intros I (M1 & M2 & _) (H1 & H2) H3 J. split.
  - apply Forall_map, Forall_forall. intros [a v r|a d st r] Hin; cbn [answers_of right_id zb_up zo_rid zo_bid zo_rlast].
    + split; [|reflexivity]. destruct (ev_read _ _ _ _ _ _ Hin) as [X _]. cbn [dl_out ao_rvalid] in X. unfold dl_inv in I. unfold dma_ids in J.
      destruct (dl_fsm_st s); [tauto| | | | |];
        exfalso; unfold dl_hs in I;
        repeat match goal with H : _ /\ _ |- _ => destruct H | H : exists _, _ |- _ => destruct H | H : _ \/ _ |- _ => destruct H end; congruence.
    + pose proof (ev_write _ _ _ _ _ _ _ Hin) as X. cbn [dl_out ao_bvalid] in X. unfold dl_inv in I. unfold dma_ids in J.
      destruct (dl_fsm_st s); [tauto| | | | |];
        exfalso; unfold dl_hs in I;
        repeat match goal with H : _ /\ _ |- _ => destruct H | H : exists _, _ |- _ => destruct H | H : _ \/ _ |- _ => destruct H end; congruence.
  - unfold dma_ids, dl_step, zb_step, next_ids, zb_down, dl_inv, one_kind, holds_ids in *.
    cbn [dl_fsm_st dl_rvalid dl_bvalid zb_rwid zb_rid zb_bid fst snd].
    destruct (dl_fsm_st s) eqn:Ef.
    + destruct (ai_arvalid (zb_bus i)) eqn:Ea.
      * destruct (H3 (or_intror eq_refl)) as [_ ->]. reflexivity.
      * destruct (ai_awvalid (zb_bus i)) eqn:Ew; [reflexivity|]. split; discriminate.
    + destruct I as (_ & _ & _ & a & k & Hr). rewrite Hr in *. destruct M1 as [-> _]. destruct (H3 ltac:(left; discriminate)) as [_ ->]. split; congruence.
    + destruct I as (_ & _ & a & k & _ & [[E Hr]|[E Hr]]); rewrite Hr in *; destruct M1 as [-> _]; destruct (H3 ltac:(left; discriminate)) as [_ ->];
        destruct E as (_ & _ & _ & _ & ->); destruct (ai_rready (zb_bus i)); (split; [intuition congruence|]); intuition congruence.
    + destruct I as (_ & _ & Hr & _ & a & Ha). rewrite Ha in *. destruct M2 as [-> _]. split; congruence.
    + destruct I as (_ & Hr & _ & a & _ & [[E Ha]|[E Ha]]); rewrite Ha in *.
      * destruct M2 as [-> _]. destruct (ai_wvalid (zb_bus i)); split; intuition congruence.
      * rewrite M2. destruct (ai_arvalid (zb_bus i)) eqn:Er; [destruct (H3 (or_intror eq_refl)); discriminate|]. destruct (ai_wvalid (zb_bus i)); split; intuition congruence.
    + destruct I as (w0 & a & d & st & E & Hr & Ha & _). rewrite Ha in *. rewrite M2.
      destruct (ai_arvalid (zb_bus i)) eqn:Er; [destruct (H3 (or_intror eq_refl)); discriminate|]. destruct E as (_ & -> & _).
      destruct (ai_bready (zb_bus i)); (split; [intuition congruence|]); intuition congruence.
Qed.
Theorem C63_dma_ids : forall l b w,
  let tr := zd_trace b dl_init l in
  master_ok one_kind ms_init w tr -> Forall right_id (answers ms_init w tr).
Proof.
  intros l b w tr Hok. unfold tr in *. clear tr.
  assert (I : dl_inv (fun _ => True) ms_init dbank0 dl_init) by (left; repeat split).
  assert (J : dma_ids w b dl_init) by (unfold dma_ids; cbn; split; discriminate).
  revert Hok I J. generalize ms_init as m, dbank0 as B, dl_init as s. revert b w. induction l as [|[i x] l IH]; intros b w m B s Hok I J; [constructor|].
  cbn [zd_trace master_ok answers zb_up zo_bus] in *. destruct Hok as (O1 & O2 & O3 & O4).
  destruct (dma_ids_step _ m B s w b i x I O1 O2 O3 J) as [X1 X2]. destruct (dl_inv_step (fun _ => True) m B s (zb_bus i) x Logic.I I O1) as (B' & _ & I' & _).
  apply Forall_app. split; [exact X1|]. exact (IH _ _ _ _ _ O4 I' X2).
Qed.

(* ---------- a read and a write at the same time ---------- *)

Lemma ok_run_inv bd dbg : 2 <= bd <= 16 -> forall l m w B b s, Forall (fun x => snd x = false) l -> bank_ok bd B -> al_inv bd dbg (fun _ => True) m B s ->
  master_ok anything m w (zc_trace bd dbg b s l) ->
  exists B', bank_ok bd B' /\ al_inv bd dbg (fun _ => True) (m_run m (map lite (zc_trace bd dbg b s l))) B' (al_run bd dbg s (core_ins l)).
Proof.
  intros Hb. induction l as [|[[i dr] rst] l IH]; intros m w B b s Hr HB I Hok; [exists B; split; assumption|].
  apply Forall_cons_iff in Hr. destruct Hr as [Hr0 Hr]. cbn [snd] in Hr0. subst rst.
  cbn [zc_trace master_ok map lite m_run core_ins al_run zb_up zo_bus fst snd] in *. destruct Hok as (O1 & _ & _ & O4).
  destruct (al_inv_step bd dbg (fun _ => True) m B s (zb_bus i) dr Logic.I Hb HB I O1) as (B' & _ & HB' & I' & _).
  exact (IH _ _ _ _ _ Hr HB' I' O4).
Qed.
(* from the cycle after both addresses were offered to the first answer *)
Definition crossed (m : ms) (w : ids) (b : zb_st) (s : al_st) : Prop :=
  (exists a, m_aw m = PHeld a) /\
  match al_fsm_st s with
  | AL_READ_ADDRESS => zb_rwid b = snd w
  | AL_READ_DATA_DELAY1 | AL_READ_DATA_DELAY2 | AL_READ_DATA => zb_rwid b = snd w /\ zb_rid b = snd w
  | AL_IDLE => al_rvalid s = true /\ zb_rid b = snd w
  | _ => False
  end.
Lemma next_aw m i o : (exists a, m_aw m = PHeld a) -> ai_awvalid i = true -> ao_awready o = false -> exists a, m_aw (fst (m_next m i o)) = PHeld a.
Proof.
  intros [a Ha] Hv Hr. unfold m_next. destruct (m_next_rd m i o) as [rd e1]. unfold m_next_aw. rewrite Ha, Hv, Hr. cbn [fst m_aw]. eauto.
Qed.
Lemma crossed_step bd dbg sn m B s w b i dr : al_inv bd dbg sn m B s -> m_ok m (zb_bus i) -> holds_ids m w i -> crossed m w b s ->
  (exists a v r, snd (m_next m (zb_bus i) (al_out s)) = [Did_read a v r] /\ zb_rid b = snd w) \/
  (snd (m_next m (zb_bus i) (al_out s)) = [] /\ snd (next_ids w i) = snd w /\ fst (next_ids w i) = fst w /\
   crossed (fst (m_next m (zb_bus i) (al_out s))) (next_ids w i) (zb_step b i) (al_step bd dbg s (zb_down i) dr false)).
Proof.
  intros I (M1 & M2 & _) (H1 & H2) [(a0 & Ha) J]. rewrite Ha in M2, H2. destruct M2 as [M2 M2']. unfold al_inv in I.
  assert (Hid : snd (next_ids w i) = snd w) by (unfold next_ids; cbn [snd]; rewrite M2; exact H2).
  assert (Hev : al_rvalid s = false -> snd (m_next m (zb_bus i) (al_out s)) = []).
  { intros E. unfold m_next. destruct (m_next_rd m (zb_bus i) (al_out s)) as [rd e1] eqn:En. rewrite Ha. cbn [snd]. unfold m_next_rd in En. cbn [al_out ao_rvalid] in En. rewrite E in En. cbn [andb] in En.
    destruct (m_rd m); repeat match type of En with context [if ?c then _ else _] => destruct c end; injection En as <- <-; reflexivity. }
  assert (Hrw : zb_rwid (zb_step b i) = snd w) by (unfold zb_step; cbn [zb_rwid]; rewrite M2; exact H2).
  assert (Hr1 : zb_rid (zb_step b i) = zb_rwid b) by reflexivity.
  destruct (al_fsm_st s) eqn:Ef; try contradiction.
  - destruct J as [J1 J2]. destruct I as [_ [(E & _)|[(E & (a & Hr & _) & _)|(E & _)]]]; try (destruct E as (_ & E & _); congruence).
    left. exists a, (al_rdata s), (al_rresp s). split; [|exact J2]. rewrite Hr in M1. destruct M1 as [_ M1]. unfold m_next, m_next_rd. rewrite Hr, Ha. cbn [al_out ao_rvalid ao_rdata ao_rresp]. rewrite J1, (M1 eq_refl). reflexivity.
  - right. destruct I as (_ & _ & (E1 & E2 & E3 & E4 & E5) & _ & a & k & Hr). rewrite Hr in M1, H1. destruct M1 as [M1 _]. split; [exact (Hev E2)|]. split; [exact Hid|]. split; [unfold next_ids; cbn [fst]; rewrite M1; exact H1|].
    split; [apply next_aw; [eauto|exact M2|exact E3]|]. unfold al_step. cbn [al_fsm_st]. rewrite Ef, Hid, Hrw, Hr1. auto.
  - right. destruct I as (_ & _ & (E1 & E2 & E3 & E4 & E5) & _ & a & k & Hr & _). rewrite Hr in M1, H1. destruct M1 as [M1 _]. split; [exact (Hev E2)|]. split; [exact Hid|]. split; [unfold next_ids; cbn [fst]; rewrite M1; exact H1|].
    split; [apply next_aw; [eauto|exact M2|exact E3]|]. unfold al_step. cbn [al_fsm_st]. rewrite Ef, Hid, Hrw, Hr1. tauto.
  - right. destruct I as (_ & _ & (E1 & E2 & E3 & E4 & E5) & _ & a & k & Hr & _). rewrite Hr in M1. destruct M1 as [M1 _]. split; [exact (Hev E2)|]. split; [exact Hid|]. split; [unfold next_ids; cbn [fst]; rewrite M1; reflexivity|].
    split; [apply next_aw; [eauto|exact M2|exact E3]|]. unfold al_step. cbn [al_fsm_st]. rewrite Ef, Hid, Hrw, Hr1. tauto.
  - right. destruct I as (_ & _ & (E1 & E2 & E3 & E4 & E5) & _ & a & k & Hr & _). rewrite Hr in M1. destruct M1 as [M1 _]. split; [exact (Hev E2)|]. split; [exact Hid|]. split; [unfold next_ids; cbn [fst]; rewrite M1; reflexivity|].
    split; [apply next_aw; [eauto|exact M2|exact E3]|]. unfold al_step, zb_down. cbn [al_fsm_st al_rvalid]. rewrite Ef, Hid, Hrw, Hr1. destruct (ai_rready (zb_bus i)); cbn [orb]; tauto.
Qed.
Lemma crossed_run bd dbg : 2 <= bd <= 16 -> forall l m w B b s, Forall (fun x => snd x = false) l -> bank_ok bd B -> al_inv bd dbg (fun _ => True) m B s ->
  crossed m w b s -> master_ok anything m w (zc_trace bd dbg b s l) ->
  answers m w (zc_trace bd dbg b s l) = [] \/ exists r, answers m w (zc_trace bd dbg b s l) = Read_answer (fst w) (snd w) true :: r.
Proof.
  intros Hb. induction l as [|[[i dr] rst] l IH]; intros m w B b s Hr HB I J Hok; [left; reflexivity|].
  apply Forall_cons_iff in Hr. destruct Hr as [Hr0 Hr]. cbn [snd] in Hr0. subst rst.
  cbn [zc_trace master_ok answers zb_up zo_bus] in *. unfold zb_down in *. destruct Hok as (O1 & O2 & _ & O4).
  destruct (crossed_step bd dbg (fun _ => True) m B s w b i dr I O1 O2 J) as [(a & v & r & -> & E)|(-> & E1 & E2 & X)].
  - right. unfold zb_up. cbn [map answers_of app zo_rid zo_rlast]. rewrite E. eauto.
  - destruct (al_inv_step bd dbg (fun _ => True) m B s (zb_bus i) dr Logic.I Hb HB I O1) as (B' & _ & HB' & I' & _).
    cbn [map app]. destruct (IH _ _ _ _ _ Hr HB' I' X O4) as [Y|[q Y]]; [left; exact Y|right]. exists q. rewrite Y, E1, E2. reflexivity.
Qed.

(* C63.  The restriction is needed.  Whenever the processor, with nothing in progress, offers a read and a write address in the same
   cycle, the first answer (if any) is that of the read, and it carries the ID of the write. *)
Theorem C63_crossed_ids : forall bd dbg l1 i dr l2 b w, 2 <= bd <= 16 -> Forall (fun x => snd x = false) (l1 ++ (i, dr, false) :: l2) ->
  let tr := zc_trace bd dbg b (al_init bd) (l1 ++ (i, dr, false) :: l2) in
  let tr1 := firstn (length l1) tr in let tr2 := skipn (length l1) tr in
  let m := m_run ms_init (map lite tr1) in
  master_ok anything ms_init w tr ->
  m_rd m = RIdle -> m_aw m = PNot -> ai_arvalid (zb_bus i) = true -> ai_awvalid (zb_bus i) = true ->
  forall w', answers m w' tr2 = [] \/ exists r, answers m w' tr2 = Read_answer (zb_arid i) (zb_awid i) true :: r.
Proof.
  intros bd dbg l1 i dr l2 b w Hb Hn tr tr1 tr2 m Hok Hm1 Hm2 Hv1 Hv2 w'.
  apply Forall_app in Hn. destruct Hn as [Hn1 Hn2]. apply Forall_cons_iff in Hn2. destruct Hn2 as [_ Hn2].
  assert (Tapp : forall l b s k, exists b', zc_trace bd dbg b s (l ++ k) = zc_trace bd dbg b s l ++ zc_trace bd dbg b' (al_run bd dbg s (core_ins l)) k).
  { clear. induction l as [|[[i dr] rst] l IH]; intros b s k; [exists b; reflexivity|]. destruct (IH (zb_step b i) (al_step bd dbg s (zb_down i) dr rst) k) as [b' E]. exists b'. cbn [app zc_trace core_ins map al_run fst snd]. rewrite E. reflexivity. }
  assert (Tlen : forall l b s, length (zc_trace bd dbg b s l) = length l).
  { clear. induction l as [|[[i dr] rst] l IH]; intros b s; [reflexivity|]. cbn [zc_trace length]. rewrite IH. reflexivity. }
  destruct (Tapp l1 b (al_init bd) ((i, dr, false) :: l2)) as [b' E]. fold tr in E.
  assert (E1 : tr1 = zc_trace bd dbg b (al_init bd) l1) by (unfold tr1; rewrite E, firstn_app, Tlen, Nat.sub_diag, firstn_O, app_nil_r; rewrite <- (Tlen l1 b (al_init bd)) at 1; apply firstn_all).
  assert (E2 : tr2 = zc_trace bd dbg b' (al_run bd dbg (al_init bd) (core_ins l1)) ((i, dr, false) :: l2)) by (unfold tr2; rewrite E, skipn_app, Tlen, Nat.sub_diag; rewrite <- (Tlen l1 b (al_init bd)) at 1; rewrite skipn_all; reflexivity).
  assert (Oapp : forall a m w k, master_ok anything m w (a ++ k) -> master_ok anything m w a /\ exists w2, master_ok anything (m_run m (map lite a)) w2 k).
  { clear. induction a as [|[i o] a IH]; intros m w k Hx; [split; [exact I|exists w; exact Hx]|]. cbn [app master_ok map m_run lite fst snd] in *. destruct Hx as (X1 & X2 & X3 & X4). destruct (IH _ _ _ X4) as [Y1 Y2]. split; [tauto|exact Y2]. }
  rewrite E in Hok. apply Oapp in Hok. destruct Hok as [O1 [w2 O2]]. rewrite <- E1 in O2. fold m in O2. rewrite E2. clearbody tr tr2.
  destruct (ok_run_inv bd dbg Hb l1 ms_init w (bank0 bd) b (al_init bd) Hn1 (bank0_ok bd Hb) (al_inv_init bd dbg _ Hb) O1) as (B & HB & J).
  rewrite <- E1 in J. fold m in J. clearbody m. set (s := al_run bd dbg (al_init bd) (core_ins l1)) in *. clearbody s. clear - Hb Hn2 Hm1 Hm2 Hv1 Hv2 O2 HB J.
  cbn [zc_trace master_ok answers zb_up zo_bus] in *. destruct O2 as (M & H & _ & O).
  assert (Ef : al_fsm_st s = AL_IDLE).
  { unfold al_inv in J. destruct (al_fsm_st s); [reflexivity| | | | | | | | |]; exfalso;
      repeat match goal with H : _ /\ _ |- _ => destruct H | H : exists _, _ |- _ => destruct H | H : _ \/ _ |- _ => destruct H end; congruence. }
  assert (Hhs : al_hs s false false false false false).
  { unfold al_inv in J. rewrite Ef in J. destruct J as [_ [(X & _)|[(_ & (a & X & _) & _)|(_ & _ & a & d & st & X & _)]]]; [exact X|congruence|congruence]. }
  destruct Hhs as (A1 & A2 & A3 & A4 & A5).
  destruct (al_inv_step bd dbg (fun _ => True) m B s (zb_bus i) dr Logic.I Hb HB J M) as (B' & _ & HB' & J' & _).
  assert (Ev : snd (m_next m (zb_bus i) (al_out s)) = [] /\ exists a, m_aw (fst (m_next m (zb_bus i) (al_out s))) = PHeld a).
  { unfold m_next, m_next_rd, m_next_aw. rewrite Hm1, Hm2, Hv1, Hv2. cbn [al_out ao_awready ao_arready]. rewrite A1, A3. cbn [fst snd m_aw]. eauto. }
  destruct Ev as [-> Ev]. cbn [map app].
  assert (Hw : forall v, next_ids v i = (zb_arid i, zb_awid i)) by (intros v; unfold next_ids; rewrite Hv1, Hv2; reflexivity). rewrite Hw in *.
  destruct (crossed_run bd dbg Hb l2 (fst (m_next m (zb_bus i) (al_out s))) (zb_arid i, zb_awid i) B' (zb_step b' i) (al_step bd dbg s (zb_down i) dr false) Hn2 HB' J') as [Y|Y]; auto.
  split; [exact Ev|]. unfold al_step, zb_down. cbn [al_fsm_st]. rewrite Ef, Hv1. unfold zb_step. cbn [zb_rwid snd]. rewrite Hv2. reflexivity.
Qed.

(* a write with ID 7 and then a read with ID 9 *)
Definition zx (arid awid : Z) (x : ax_in * list Z * bool) : zb_in * list Z * bool :=
  ({| zb_bus := fst (fst x); zb_arid := arid; zb_awid := awid; zb_arlen := 0; zb_awlen := 0; zb_wid := awid; zb_wlast := true |}, snd (fst x), snd x).
Definition zx_seq : list (zb_in * list Z * bool) :=
  map (zx 9 7) (repeat (bus_in false 0 false true (4 * 0x800) true 0x00400030 15 true) 3 ++ repeat (bus_in false 0 false false 0 true 0x00400030 15 true) 3 ++
    repeat (bus_in false 0 false false 0 false 0 0 true) 3 ++ repeat (bus_in true (4 * 0x800) true false 0 false 0 0 false) 3 ++ repeat (bus_in false 0 true false 0 false 0 0 false) 4).
Example C63_example : master_ok one_kind ms_init (0, 0) (zc_trace 16 false zb_init (al_init 16) zx_seq) /\
  answers ms_init (0, 0) (zc_trace 16 false zb_init (al_init 16) zx_seq) = [Write_answer 7 7; Read_answer 9 9 true].
Proof.
  split; [|vm_compute; reflexivity]. unfold zx_seq. cbn [repeat app map zc_trace bus_in master_ok zx fst snd].
  repeat match goal with |- _ /\ _ => split | |- True => exact I end.
  all: try (vm_compute; repeat split; intros; first [reflexivity|discriminate|congruence|intuition congruence]).
Qed.
(* the same registers, both addresses at once *)
Definition zx_both : list (zb_in * list Z * bool) :=
  map (zx 9 7) (repeat (bus_in true (4 * 0x800) true true (4 * 0x800) true 0x00400030 15 true) 3 ++ repeat (bus_in false 0 true true (4 * 0x800) true 0x00400030 15 true) 3).
Example C63_example_crossed : master_ok anything ms_init (0, 0) (zc_trace 16 false zb_init (al_init 16) zx_both) /\
  answers ms_init (0, 0) (zc_trace 16 false zb_init (al_init 16) zx_both) = [Read_answer 9 7 true].
Proof.
  split; [|vm_compute; reflexivity]. unfold zx_both. cbn [repeat app map zc_trace bus_in master_ok zx fst snd].
  repeat match goal with |- _ /\ _ => split | |- True => exact I end.
  all: try (vm_compute; repeat split; intros; first [reflexivity|discriminate|congruence|intuition congruence]).
Qed.
