(* C62: integration_3_axi_stream.py. *)
From Verif Require Import Bits Spec Spec_Core M_Config M_Encode M_Signals M_VBits M_I3 M_Markers M_Stream3 P_Encode P_VBits P_I3 P_Decode P_Live2 P_Run P_Live Props_Core Props_Live.
Ltac Zify.zify_post_hook ::= idtac.

Local Notation mem12 := (init_huff_table 12).
(* four 12-bit samples in the low 48 bits of a beat, first sample lowest *)
Definition s3_samples (d : Z) : list Z := [d mod 2 ^ 12; d / 2 ^ 12 mod 2 ^ 12; d / 2 ^ 24 mod 2 ^ 12; d / 2 ^ 36 mod 2 ^ 12].

(* the core's inputs in a run of the wrapper *)
Fixpoint s3_ins (mem : list Z) (s : s3_st) (l : list s3_in) : list i3_in :=
  match l with [] => [] | i :: r => s3_i3 s i :: s3_ins mem (s3_step mem s i) r end.
Lemma s3_core_run mem : forall l s, s3_core (s3_run mem s l) = i3_run s3_cfg mem (s3_core s) (s3_ins mem s l).
Proof. induction l as [|i l IH]; intros s; [reflexivity|]. cbn [s3_run s3_ins i3_run]. rewrite IH. reflexivity. Qed.
Lemma s3_px i s : in_px (s3_i3 s i) = s3_samples (s3_tdata i).
Proof. unfold s3_i3, s3_samples, slice. cbn [in_px]. change (2 ^ 0) with 1. rewrite Z.div_1_r. reflexivity. Qed.
Lemma s3_in_beats mem : forall l s, concat (i3_accepted s3_cfg mem (s3_core s) (s3_ins mem s l)) = flat_map s3_samples (s3_beats_in mem s l).
Proof.
  induction l as [|i l IH]; intros s; [reflexivity|]. cbn [s3_ins i3_accepted s3_beats_in]. rewrite concat_app, flat_map_app. f_equal; [|apply (IH (s3_step mem s i))].
  unfold s3_sready. change (in_valid (s3_i3 s i)) with (s3_tvalid i). destruct (_ && _); [|reflexivity]. cbn [concat flat_map]. rewrite s3_px. reflexivity.
Qed.
Lemma s3_out_beats mem : forall l s, i3_transfers s3_cfg mem (s3_core s) (s3_ins mem s l) = s3_beats_out mem s l.
Proof.
  induction l as [|i l IH]; intros s; [reflexivity|]. cbn [s3_ins i3_transfers s3_beats_out]. f_equal; [|apply (IH (s3_step mem s i))].
  cbn [s3_i3 in_busy]. rewrite negb_involutive. reflexivity.
Qed.
Lemma s3_group d : group_ok 12 4 (s3_samples d).
Proof.
  split; [reflexivity|]. unfold s3_samples. repeat constructor; unfold in_range; apply Z.mod_pos_bound; reflexivity.
Qed.
Lemma s3_ok mem : forall l i3, is_reset s3_cfg i3 -> run_ok s3_cfg mem 4096 3072 i3 (s3_ins mem (s3_reset i3) l).
Proof.
  intros l i3 Hi.
  assert (X : forall l s, s3_rf s = rf_step rf_init -> run_ok s3_cfg mem 4096 3072 (s3_core s) (s3_ins mem s l)).
  { clear. induction l as [|i l IH]; intros s Hs; [exact I|]. cbn [s3_ins run_ok]. split.
    - intros _. rewrite s3_px. split; [apply s3_group|]. unfold s3_i3. cbn [in_w in_h]. rewrite Hs. split; reflexivity.
    - apply (IH (s3_step mem s i)). reflexivity. }
  destruct l as [|i l]; [exact I|]. cbn [s3_ins run_ok]. split.
  - intros E. exfalso. destruct Hi as (? & ? & ? & ? & ? & _ & _ & _ & ->). unfold i3_accept in E. cbn in E. rewrite andb_false_r in E. discriminate.
  - apply (X l (s3_step mem (s3_reset i3) i)). reflexivity.
Qed.
Lemma s3_frame : cfg_ok s3_cfg = true /\ frame_ok s3_cfg 4096 3072.
Proof. split; [reflexivity|]. unfold frame_ok. cbn. lia. Qed.

(* C62.  After any reset, for any schedule of tvalid and tready and any 64-bit data: if a beat with tlast has been handed over, exactly
   4096 x 3072 / 4 beats were taken in, and the 32-bit words up to tlast, first bit highest, decode to the samples in those beats. *)
Theorem C62_lossless : forall i3 l, is_reset s3_cfg i3 ->
  let taken := s3_beats_in mem12 (s3_reset i3) l in let out := s3_beats_out mem12 (s3_reset i3) l in
  existsb snd out = true ->
  4 * len taken = 4096 * 3072 /\
  decode_frame (std_table 12) 12 4096 3072 (stream 32 (map fst (cut out))) = Some (flat_map s3_samples taken).
Proof.
  intros i3 l Hi taken out He. destruct s3_frame as [Hc Hf]. destruct (std_mem s3_cfg Hc) as (Hm & Ht & Hp). cbn [bd s3_cfg] in Hm, Ht, Hp.
  pose proof (s3_ok mem12 l i3 Hi) as HR.
  assert (L4 : forall b, len (flat_map s3_samples b) = 4 * len b) by (induction b as [|d r IH]; [reflexivity|]; unfold len in *; cbn [flat_map length app s3_samples] in *; lia).
  pose proof (s3_out_beats mem12 l (s3_reset i3)) as E1. pose proof (s3_in_beats mem12 l (s3_reset i3)) as E2. cbn [s3_reset s3_core] in E1, E2. fold (s3_reset i3) in E1, E2.
  fold taken in E2. fold out in E1.
  pose proof (finished_run s3_cfg (std_table 12) 4096 3072 i3 (s3_ins mem12 (s3_reset i3) l) Hc Ht Hf Hi) as FR.
  cbn [bd s3_cfg outb ps] in FR. rewrite <- Hm in FR. cbv zeta in FR. rewrite E1, E2 in FR.
  destruct (FR HR He) as (L1 & L2 & L3 & pad & _ & Hs). clear FR. rewrite L4 in L2. split; [exact L2|].
  unfold decode_frame. rewrite Hs.
  replace (Z.to_nat (4096 * 3072)) with (length (flat_map s3_samples taken)) by (rewrite <- L4 in L2; unfold len in L2; lia).
  apply (ref_decode_ok (std_table 12) 12 4096 (flat_map s3_samples taken)); try assumption; try lia.
  - apply Ht.
  - constructor.
  - apply all_small_15; [lia|constructor|assumption].
Qed.

(* C62.  It is the only frame: no beat after those is ever taken in, whatever the environment does, until an external reset; and after
   the beat with tlast the same beat is offered again and again. *)
Theorem C62_one_frame : forall i3 l more, is_reset s3_cfg i3 ->
  let s := s3_run mem12 (s3_reset i3) l in
  4 * len (s3_beats_in mem12 (s3_reset i3) l) <= 4096 * 3072 /\
  (4 * len (s3_beats_in mem12 (s3_reset i3) l) = 4096 * 3072 -> s3_beats_in mem12 s more = [] /\ s3_sready (s3_run mem12 s more) = false) /\
  (existsb snd (s3_beats_out mem12 (s3_reset i3) l) = true ->
     s3_mvalid (s3_run mem12 s more) = true /\ s3_mlast (s3_run mem12 s more) = true /\ s3_mdata (s3_run mem12 s more) = s3_mdata s).
Proof.
  intros i3 l more Hi s. destruct s3_frame as [Hc Hf]. destruct (std_mem s3_cfg Hc) as (Hm & Ht & Hp). cbn [bd s3_cfg] in Hm, Ht, Hp.
  assert (L4 : forall b, len (flat_map s3_samples b) = 4 * len b) by (induction b as [|d r IH]; [reflexivity|]; unfold len in *; cbn [flat_map length app s3_samples] in *; lia).
  assert (Inv : forall l, exists P hist, i3_inv s3_cfg (std_table 12) 4096 3072 1024 (i3_accepted s3_cfg mem12 i3 (s3_ins mem12 (s3_reset i3) l)) P (s3_beats_out mem12 (s3_reset i3) l) hist (s3_core (s3_run mem12 (s3_reset i3) l)) /\
     4 * len (s3_beats_in mem12 (s3_reset i3) l) = 4 * len (i3_accepted s3_cfg mem12 i3 (s3_ins mem12 (s3_reset i3) l))).
  { intros k. destruct (run_from_reset s3_cfg (std_table 12) 4096 3072 i3 (s3_ins mem12 (s3_reset i3) k) Hc Ht Hf Hi) as (P & hist & I).
    - cbn [bd s3_cfg]. rewrite <- Hm. apply s3_ok, Hi.
    - exists P, hist. cbn [bd s3_cfg] in I. rewrite <- Hm in I. change (4096 / ps s3_cfg) with 1024 in I.
      pose proof (s3_out_beats mem12 k (s3_reset i3)) as E1. pose proof (s3_core_run mem12 k (s3_reset i3)) as E3. cbn [s3_reset s3_core] in E1, E3. fold (s3_reset i3) in E1, E3. rewrite E3, <- E1. split; [exact I|].
      pose proof (s3_in_beats mem12 k (s3_reset i3)) as E2. rewrite <- L4, <- E2. destruct (inv_pixels _ _ _ _ _ _ _ _ _ _ I) as [_ J]. cbn [ps s3_cfg s3_reset s3_core] in J. fold (s3_reset i3) in J. unfold s3_reset. cbn [s3_core]. fold (s3_reset i3). lia. }
  assert (App : forall a st b, s3_run mem12 st (a ++ b) = s3_run mem12 (s3_run mem12 st a) b) by (induction a as [|x a IH]; intros; [reflexivity|]; cbn; apply IH).
  assert (AppB : forall a st b, s3_beats_in mem12 st (a ++ b) = s3_beats_in mem12 st a ++ s3_beats_in mem12 (s3_run mem12 st a) b) by (induction a as [|x a IH]; intros; [reflexivity|]; cbn; rewrite IH, app_assoc; reflexivity).
  destruct (Inv l) as (P & hist & I & EL). destruct (Inv (l ++ more)) as (P2 & hist2 & I2 & EL2). rewrite App in I2. fold s in I, I2.
  pose proof (v_len _ _ _ _ _ _ _ _ _ _ I) as B1. pose proof (v_len _ _ _ _ _ _ _ _ _ _ I2) as B2.
  split; [lia|]. split.
  - intros E. rewrite AppB in EL2. fold s in EL2. rewrite len_app in EL2. split.
    + destruct (s3_beats_in mem12 s more) as [|d r] eqn:Eb; [reflexivity|]. exfalso. unfold len in *. cbn [length] in *. lia.
    + unfold s3_sready, i3_nready. rewrite (v_ne1 _ _ _ _ _ _ _ _ _ _ I2). pose proof (len_nonneg (s3_beats_in mem12 s more)). replace (1024 * 3072 <=? _) with true by lia. rewrite orb_true_r. reflexivity.
  - intros He. clear I2 EL2 B2 P2 hist2 Inv.
    assert (Fin : vo_state (vb_out (s_vb (s3_core s))) = VO_END).
    { pose proof (v_done _ _ _ _ _ _ _ _ _ _ I) as D. unfold vb_done in D. destruct (vo_state (vb_out (s_vb (s3_core s)))); [exfalso|exfalso|reflexivity]; destruct D as (pw & D & _);
        assert (X : existsb snd (s3_beats_out mem12 (s3_reset i3) l ++ offered (s_vb (s3_core s))) = true) by (rewrite existsb_app, He; reflexivity); rewrite D, existsb_plain in X; discriminate. }
    destruct (v_vb _ _ _ _ _ _ _ _ _ _ I) as [Vo _]. unfold vo_inv in Vo. rewrite Fin in Vo. destruct Vo as [V1 V2].
    assert (St : forall m st, vb_out (s_vb (s3_core st)) = vb_out (s_vb (s3_core s)) -> vb_out (s_vb (s3_core (s3_run mem12 st m))) = vb_out (s_vb (s3_core s))).
    { induction m as [|i m IH]; intros st E; [exact E|]. cbn [s3_run]. apply IH. rewrite <- E. unfold s3_step. cbn [s3_core]. rewrite st_vb. unfold vb_step. cbn [vb_out]. unfold vo_step, vo_dec. rewrite E, Fin. reflexivity. }
    unfold s3_mvalid, s3_mlast, s3_mdata, i3_valid_out, i3_end_out, i3_data_out. rewrite (St more s eq_refl). auto.
Qed.

(* C62.  No deadlock: with a sink that is ready again and again and a source that offers beats again and again while beats of the frame
   are missing, the beat with tlast is handed over. *)
Theorem C62_completes : forall i3 (ins : nat -> s3_in), is_reset s3_cfg i3 ->
  let pre n := map ins (seq 0 n) in
  (forall n, exists m, (n <= m)%nat /\ s3_mready (ins m) = true) ->
  (forall n, 4 * len (s3_beats_in mem12 (s3_reset i3) (pre n)) < 4096 * 3072 -> exists m, (n <= m)%nat /\ s3_tvalid (ins m) = true) ->
  exists n, existsb snd (s3_beats_out mem12 (s3_reset i3) (pre n)) = true.
Proof.
  intros i3 ins Hi pre Hb Hv. destruct s3_frame as [Hc Hf]. destruct (std_mem s3_cfg Hc) as (Hm & Ht & Hp). cbn [bd s3_cfg] in Hm, Ht, Hp.
  set (st := fun n => s3_run mem12 (s3_reset i3) (pre n)). set (jin := fun n => s3_i3 (st n) (ins n)).
  assert (App : forall a st b, s3_run mem12 st (a ++ b) = s3_run mem12 (s3_run mem12 st a) b) by (induction a as [|x a IH]; intros; [reflexivity|]; cbn; apply IH).
  assert (Hpre : forall n, pre (S n) = pre n ++ [ins n]) by (intros n; unfold pre; rewrite seq_S, map_app; reflexivity).
  assert (Hins : forall n, upto jin n = s3_ins mem12 (s3_reset i3) (pre n)).
  { assert (IA : forall a s b, s3_ins mem12 s (a ++ b) = s3_ins mem12 s a ++ s3_ins mem12 (s3_run mem12 s a) b) by (induction a as [|x a IH]; intros; [reflexivity|]; cbn; rewrite IH; reflexivity).
    induction n as [|n IH]; [reflexivity|]. rewrite upto_S, Hpre, IA, IH. reflexivity. }
  assert (L4 : forall b, len (flat_map s3_samples b) = 4 * len b) by (induction b as [|d r IH]; [reflexivity|]; unfold len in *; cbn [flat_map length app s3_samples] in *; lia).
  destruct (live_end s3_cfg (std_table 12) 4096 3072 i3 jin Hc Ht Hf Hi) as (n & Hn).
  - intros n. cbn [bd s3_cfg]. rewrite <- Hm. pose proof (s3_ok mem12 (pre (S n)) i3 Hi) as R. rewrite <- Hins, upto_S in R.
    assert (X : forall a s b, run_ok s3_cfg mem12 4096 3072 s (a ++ b) -> run_ok s3_cfg mem12 4096 3072 (i3_run s3_cfg mem12 s a) b) by (induction a as [|x a IH]; intros s b; [auto|]; cbn; intros [_ Y]; apply IH, Y).
    apply X in R. apply R.
  - intros n. destruct (Hb n) as (m & L & E). exists m. split; [exact L|]. unfold jin. cbn [s3_i3 in_busy]. rewrite E. reflexivity.
  - intros n Hl. cbn [bd s3_cfg] in Hl. rewrite <- Hm in Hl. rewrite Hins in Hl. pose proof (s3_in_beats mem12 (pre n) (s3_reset i3)) as E. cbn [s3_reset s3_core] in E. fold (s3_reset i3) in E. rewrite E, L4 in Hl.
    destruct (Hv n Hl) as (m & L & V). exists m. split; [exact L|exact V].
  - exists n. cbn [bd s3_cfg] in Hn. rewrite <- Hm, Hins in Hn. pose proof (s3_out_beats mem12 (pre n) (s3_reset i3)) as E. cbn [s3_reset s3_core] in E. fold (s3_reset i3) in E. rewrite <- E. exact Hn.
Qed.

(* schedules that meet the hypotheses; the first beats of such a run really come out of the core *)
Definition s3_ex (k : nat) : s3_in :=
  {| s3_tvalid := negb (Nat.eqb (Nat.modulo k 3) 0); s3_tdata := Z.of_nat k * 1234567891234567 mod 2 ^ 64; s3_tlast := false; s3_mready := negb (Nat.eqb (Nat.modulo k 4) 1) |}.
Example C62_example : is_reset s3_cfg (i3_init s3_cfg) /\
  (forall n, exists m, (n <= m)%nat /\ s3_mready (s3_ex m) = true) /\ (forall n, exists m, (n <= m)%nat /\ s3_tvalid (s3_ex m) = true) /\
  len (s3_beats_in mem12 (s3_reset (i3_init s3_cfg)) (map s3_ex (seq 0 40))) = 21 /\
  (4 < length (s3_beats_out mem12 (s3_reset (i3_init s3_cfg)) (map s3_ex (seq 0 40))))%nat.
Proof.
  split; [apply is_reset_init; reflexivity|]. split; [|split; [|split]].
  - intros n. exists (2 + n * 4)%nat. split; [lia|]. cbn [s3_mready s3_ex]. rewrite Nat.mod_add by lia. reflexivity.
  - intros n. exists (1 + n * 3)%nat. split; [lia|]. cbn [s3_tvalid s3_ex]. rewrite Nat.mod_add by lia. reflexivity.
  - vm_compute. reflexivity.
  - apply Nat.ltb_lt. vm_compute. reflexivity.
Qed.
