(* C61: the complete beta core finishes every frame. *)
From Verif Require Import Bits Spec Spec_Core Spec_Beta M_Config M_Encode M_I3 M_Fix M_Markers M_Beta P_Encode
  P_I3 P_Run P_Live P_Fix P_Markers Props_Core Props_Frame P_Beta Props_Live Props_Beta P_BetaLive.
Ltac Zify.zify_post_hook ::= idtac.

(* the first n cycles of an infinite schedule *)
Definition bupto (ins : nat -> bt_in) (n : nat) : list bt_in := map ins (seq 0 n).
Lemma bupto_S ins n : bupto ins (S n) = bupto ins n ++ [ins n].
Proof. unfold bupto. rewrite seq_S, map_app. reflexivity. Qed.
Lemma bupto_add ins n m : bupto ins (n + m) = bupto ins n ++ bupto (fun j => ins (n + j)%nat) m.
Proof.
  induction m as [|m IH]; [rewrite Nat.add_0_r, app_nil_r; reflexivity|]. rewrite Nat.add_succ_r, !bupto_S, IH, <- app_assoc. reflexivity.
Qed.

(* the log of a longer run *)
Lemma log_app c mem : forall a A O s b, exists front A' O',
  bt_log c mem A O s a = front ++ [(A', O')] /\ bt_log c mem A O s (a ++ b) = front ++ bt_log c mem A' O' (bt_run c mem s a) b.
Proof.
  induction a as [|i a IH]; intros A O s b; [exists [], A, O; split; reflexivity|]. cbn [app bt_log bt_run]. destruct (b_rst s).
  - destruct (IH [] [] (bt_step c mem s i) b) as (f & A' & O' & E1 & E2). exists ((A ++ bt_took s i, O ++ bt_gave s i) :: f), A', O'. rewrite E1, E2. split; reflexivity.
  - apply IH.
Qed.
Lemma env_app c mem sizes : forall a A O n s b, bt_env c mem sizes n s (a ++ b) -> bt_env c mem sizes (n + (length (bt_log c mem A O s a) - 1)) (bt_run c mem s a) b.
Proof.
  induction a as [|i a IH]; intros A O n s b HE.
  - cbn [app bt_log bt_run length] in *. replace (n + (1 - 1))%nat with n by lia. exact HE.
  - cbn [app bt_env bt_log bt_run] in *. destruct HE as [_ HE]. destruct (b_rst s) eqn:Er.
    + specialize (IH [] [] _ _ _ HE). cbn [length].
      assert (L : (1 <= length (bt_log c mem [] [] (bt_step c mem s i) a))%nat) by (destruct (log_app c mem a [] [] (bt_step c mem s i) []) as (f & ? & ? & -> & _); rewrite app_length; cbn; lia).
      replace (n + (S (length (bt_log c mem [] [] (bt_step c mem s i) a)) - 1))%nat with (S n + (length (bt_log c mem [] [] (bt_step c mem s i) a) - 1))%nat by lia. exact IH.
    + exact (IH _ _ _ _ _ HE).
Qed.

(* while no reset happened, the run without reset is the run *)
Lemma nst_run c t i3 ins : forall n, (forall k, (k < n)%nat -> b_rst (nst c t i3 ins k) = false) -> bt_run c (mem_of (bd c) t) (bt_reset_with i3) (bupto ins n) = nst c t i3 ins n.
Proof.
  induction n as [|n IH]; intros Hn; [reflexivity|]. rewrite bupto_S, bt_run_app, IH by (intros; apply Hn; lia). cbn [bt_run nst]. unfold bt_step. rewrite Hn by lia. reflexivity.
Qed.
Lemma nst_log c t i3 ins : forall n, (forall k, (k < n)%nat -> b_rst (nst c t i3 ins k) = false) ->
  exists O, bt_log c (mem_of (bd c) t) [] [] (bt_reset_with i3) (bupto ins n) = [(nacc c t i3 ins n, O)].
Proof.
  induction n as [|n IH]; intros Hn; [exists []; reflexivity|]. destruct (IH (fun k L => Hn k ltac:(lia))) as (O & E).
  rewrite bupto_S. destruct (log_app c (mem_of (bd c) t) (bupto ins n) [] [] (bt_reset_with i3) [ins n]) as (f & A' & O' & E1 & ->).
  rewrite E in E1. destruct f as [|x [|]]; try discriminate. injection E1 as <- <-. rewrite nst_run by (intros; apply Hn; lia). cbn [app bt_log]. rewrite Hn by lia. eexists. reflexivity.
Qed.

(* one frame: from a reset state the next reset comes *)
Lemma one_frame c t W H i3 ins sizes k : bt_hyp c t W H -> is_reset c i3 -> sizes k = (W, H) ->
  (forall n, bt_env c (mem_of (bd c) t) sizes k (bt_reset_with i3) (bupto ins n)) ->
  (forall n, exists m, (n <= m)%nat /\ bi_busy (ins m) = false) ->
  (forall n A O, bt_log c (mem_of (bd c) t) [] [] (bt_reset_with i3) (bupto ins n) = [(A, O)] -> len (concat A) < W * H -> exists m, (n <= m)%nat /\ bi_valid (ins m) = true) ->
  exists n, (forall j, (j < n)%nat -> b_rst (nst c t i3 ins j) = false) /\ b_rst (nst c t i3 ins n) = true.
Proof.
  intros HY Hi Hs HE Hb Hv. set (mem := mem_of (bd c) t) in *.
  assert (Mono : forall n j, (j <= n)%nat -> b_rst (nst c t i3 ins n) = false -> b_rst (nst c t i3 ins j) = false).
  { induction 1 as [|n L IH]; [auto|]. intros E. apply IH. apply (rst_mono c t i3 ins n E). }
  assert (Hok : forall n, b_rst (nst c t i3 ins n) = false -> bt_ok c W H (nst c t i3 ins n) (ins n)).
  { intros n E. pose proof (HE (S n)) as X. rewrite bupto_S in X. apply (env_app c mem sizes (bupto ins n) [] []) in X.
    destruct (nst_log c t i3 ins n (fun j L => Mono n j ltac:(lia) E)) as (O & EL). fold mem in EL. rewrite EL in X. cbn [length] in X. replace (k + (1 - 1))%nat with k in X by lia.
    unfold mem in X. rewrite (nst_run c t i3 ins n (fun j L => Mono n j ltac:(lia) E)) in X. cbn [bt_env] in X. rewrite Hs in X. apply X. }
  destruct (frame_resets c t W H i3 ins HY Hi Hok Hb) as (n & Hn).
  { intros n Ho Hl. pose proof (not_over c t i3 ins n Ho) as E. destruct (nst_log c t i3 ins n (fun j L => Mono n j ltac:(lia) E)) as (O & EL). exact (Hv n _ _ EL Hl). }
  destruct (least (fun j => b_rst (nst c t i3 ins j)) n 0) as (m & _ & Hm & Hj); [exact Hn|]. exists m. split; [intros; apply Hj; lia|exact Hm].
Qed.

Lemma frame_by_frame c t sizes i3 ins : cfg_ok c = true -> outb c = 16 -> table_ok (bd c) t ->
  (forall n, beta_frame_ok c (fst (sizes n)) (snd (sizes n))) -> is_reset c i3 ->
  let mem := mem_of (bd c) t in let log n := bt_log c mem [] [] (bt_reset_with i3) (bupto ins n) in
  (forall n, bt_env c mem sizes 0 (bt_reset_with i3) (bupto ins n)) ->
  (forall n, exists m, (n <= m)%nat /\ bi_busy (ins m) = false) ->
  (forall n A O k, nth_error (log n) k = Some (A, O) -> S k = length (log n) -> len (concat A) < fst (sizes k) * snd (sizes k) -> exists m, (n <= m)%nat /\ bi_valid (ins m) = true) ->
  forall k, exists n i3' front, is_reset c i3' /\ bt_run c mem (bt_reset_with i3) (bupto ins n) = bt_reset_with i3' /\ log n = front ++ [([], [])] /\ length front = k.
Proof.
  intros Hc Ho Ht Hf Hi mem log HE Hb Hv. induction k as [|k IH].
  - exists 0%nat, i3, []. split; [exact Hi|]. split; [reflexivity|]. split; reflexivity.
  - destruct IH as (n0 & i3' & front & Hi' & Hrun & Hlog & Hlen).
    set (ins' := fun j => ins (n0 + j)%nat). assert (HY : bt_hyp c t (fst (sizes k)) (snd (sizes k))) by exact (conj Hc (conj Ho (conj Ht (Hf k)))).
    assert (Hsplit : forall j, log (n0 + j)%nat = front ++ bt_log c mem [] [] (bt_reset_with i3') (bupto ins' j)).
    { intros j. unfold log. rewrite bupto_add. fold ins'. destruct (log_app c mem (bupto ins n0) [] [] (bt_reset_with i3) (bupto ins' j)) as (f & A' & O' & E1 & ->).
      fold (log n0) in E1. rewrite Hlog in E1. apply app_inj_tail in E1. destruct E1 as [<- E1]. injection E1 as <- <-. rewrite Hrun. reflexivity. }
    destruct (one_frame c t (fst (sizes k)) (snd (sizes k)) i3' ins' sizes k HY Hi') as (m & Hj & Hm).
    + destruct (sizes k); reflexivity.
    + intros j. pose proof (HE (n0 + j)%nat) as X. rewrite bupto_add in X. fold ins' in X. apply (env_app c mem sizes (bupto ins n0) [] []) in X. fold (log n0) in X. rewrite Hlog, app_length, Hlen in X. cbn [length] in X.
      fold mem. rewrite Hrun in X. replace (0 + (k + 1 - 1))%nat with k in X by lia. exact X.
    + intros j. destruct (Hb (n0 + j)%nat) as (m & L & E). exists (m - n0)%nat. split; [lia|]. unfold ins'. rewrite <- E. do 2 f_equal. lia.
    + intros j A O EL Hl. fold mem in EL. destruct (Hv (n0 + j)%nat A O k) as (m & L & E); [rewrite Hsplit, EL, nth_error_app2 by lia; rewrite Hlen, Nat.sub_diag; reflexivity|rewrite Hsplit, EL, app_length; cbn; lia|exact Hl|].
      exists (m - n0)%nat. split; [lia|]. unfold ins'. rewrite <- E. do 2 f_equal. lia.
    + pose proof (nst_run c t i3' ins' m Hj) as Hr1. fold mem in Hr1. destruct (nst_log c t i3' ins' m Hj) as (O1 & HL1). fold mem in HL1.
      assert (Hrst : b_rst (bt_run c mem (bt_reset_with i3') (bupto ins' m)) = true) by (rewrite Hr1; exact Hm).
      set (sz := fun j => sizes (k + j)%nat).
      assert (EV : forall j, bt_env c mem sz 0 (bt_reset_with i3') (bupto ins' j)).
      { intros j. assert (Sh : forall l a s, bt_env c mem sizes (k + a) s l -> bt_env c mem sz a s l).
        { induction l as [|i l IHl]; intros a s X; [exact I|]. cbn [bt_env] in *. destruct X as [X1 X2]. split; [exact X1|]. apply IHl. destruct (b_rst s); [rewrite Nat.add_succ_r|]; exact X2. }
        apply Sh. rewrite Nat.add_0_r. pose proof (HE (n0 + j)%nat) as X. rewrite bupto_add in X. fold ins' in X. apply (env_app c mem sizes (bupto ins n0) [] []) in X. fold (log n0) in X. rewrite Hlog, app_length, Hlen in X. cbn [length] in X.
        rewrite Hrun in X. replace (0 + (k + 1 - 1))%nat with k in X by lia. exact X. }
      pose proof (EV (S m)) as EVm. rewrite bupto_S in EVm.
      destruct (C27_restarts c t sz i3' (bupto ins' m) (ins' m) Hc Ho Ht (fun j => Hf (k + j)%nat) Hi' EVm Hrst) as (i3'' & Hi'' & Hr2). fold mem in Hr2.
      exists (n0 + S m)%nat, i3'', (front ++ [(nacc c t i3' ins' m ++ bt_took (bt_run c mem (bt_reset_with i3') (bupto ins' m)) (ins' m), O1 ++ bt_gave (bt_run c mem (bt_reset_with i3') (bupto ins' m)) (ins' m))]).
      split; [exact Hi''|]. split; [|split].
      * rewrite bupto_add, bt_run_app, Hrun. fold ins'. rewrite bupto_S. exact Hr2.
      * rewrite Hsplit, bupto_S, <- app_assoc. f_equal. destruct (log_app c mem (bupto ins' m) [] [] (bt_reset_with i3') [ins' m]) as (f & A' & O' & E1 & ->).
        rewrite HL1 in E1. destruct f as [|x [|]]; try discriminate. injection E1 as <- <-. cbn [bt_log app]. rewrite Hrst. reflexivity.
      * rewrite app_length. cbn. lia.
Qed.

(* C61.  For every configuration with 16-bit output, table, sequence of frame sizes and pixels, and every infinite schedule of source
   and sink in which
   - the sink is ready again and again,
   - the source offers samples again and again while the frame in progress lacks samples,
   every frame is finished: for each k there is a cycle at which frame k has been followed by a reset and frame k+1 begins with
   nothing accepted and nothing handed over.  What the finished frames contain is C25/C26. *)
Theorem C61_every_frame : forall c t sizes i3 (ins : nat -> bt_in),
  cfg_ok c = true -> outb c = 16 -> table_ok (bd c) t ->
  (forall n, beta_frame_ok c (fst (sizes n)) (snd (sizes n))) -> is_reset c i3 ->
  let log n := bt_log c (mem_of (bd c) t) [] [] (bt_reset_with i3) (bupto ins n) in
  (forall n, bt_env c (mem_of (bd c) t) sizes 0 (bt_reset_with i3) (bupto ins n)) ->
  (forall n, exists m, (n <= m)%nat /\ bi_busy (ins m) = false) ->
  (forall n A O k, nth_error (log n) k = Some (A, O) -> S k = length (log n) -> len (concat A) < fst (sizes k) * snd (sizes k) ->
     exists m, (n <= m)%nat /\ bi_valid (ins m) = true) ->
  forall k, exists n frames, log n = frames ++ [([], [])] /\ length frames = S k.
Proof.
  intros c t sizes i3 ins Hc Ho Ht Hf Hi log HE Hb Hv k.
  destruct (frame_by_frame c t sizes i3 ins Hc Ho Ht Hf Hi HE Hb Hv (S k)) as (n & i3' & front & _ & _ & HL & Hk). exists n, front. auto.
Qed.

(* C61.  With a source that never stops offering: for every k, frame k is received without loss or is flagged as cut short. *)
Theorem C61_received : forall c t sizes i3 (ins : nat -> bt_in),
  cfg_ok c = true -> outb c = 16 -> bd c <= 15 -> table_ok (bd c) t -> prefix_free t ->
  (forall n, beta_frame_ok c (fst (sizes n)) (snd (sizes n))) -> is_reset c i3 ->
  (forall n, bt_env c (mem_of (bd c) t) sizes 0 (bt_reset_with i3) (bupto ins n)) ->
  (forall n, exists m, (n <= m)%nat /\ bi_busy (ins m) = false) ->
  (forall n, exists m, (n <= m)%nat /\ bi_valid (ins m) = true) ->
  forall k, exists n A O, let log := bt_log c (mem_of (bd c) t) [] [] (bt_reset_with i3) (bupto ins n) in
    nth_error log k = Some (A, O) /\ (S k < length log)%nat /\ existsb snd O = true /\
    ((snd (deframe (map fst O)) = Some false /\ len (concat A) = fst (sizes k) * snd (sizes k) /\
      receive t (bd c) (fst (sizes k)) (snd (sizes k)) (map fst O) = Some (concat A)) \/
     snd (deframe (map fst O)) = Some true).
Proof.
  intros c t sizes i3 ins Hc Ho Hb15 Ht Hp Hf Hi HE Hb Hv k.
  destruct (C61_every_frame c t sizes i3 ins Hc Ho Ht Hf Hi HE Hb (fun n A O j _ _ _ => Hv n) k) as (n & fr & HL & Hlen).
  destruct (nth_error fr k) as [[A O]|] eqn:E; [|apply nth_error_None in E; lia].
  exists n, A, O. cbv zeta. assert (HN : nth_error (bt_log c (mem_of (bd c) t) [] [] (bt_reset_with i3) (bupto ins n)) k = Some (A, O)) by (rewrite HL, nth_error_app1 by lia; exact E).
  assert (HS : (S k < length (bt_log c (mem_of (bd c) t) [] [] (bt_reset_with i3) (bupto ins n)))%nat) by (rewrite HL, app_length; cbn; lia).
  split; [exact HN|]. split; [exact HS|]. split.
  - apply (C25_frames c t sizes i3 (bupto ins n) Hc Ho Ht Hf Hi (HE n) k A O HN). exact HS.
  - exact (C25_lossless_or_flagged c t sizes i3 (bupto ins n) Hc Ho Hb15 Ht Hp Hf Hi (HE n) k A O HN HS).
Qed.

(* C61.  The shipped beta_integration.py: any pixels, any schedule with a sink ready and a source offering again and again;
   every frame is received without loss or is flagged. *)
Theorem C61_shipped : forall (sched : nat -> bool * list Z * bool) i3,
  is_reset beta_cfg i3 -> (forall n, group_ok 12 2 (snd (fst (sched n)))) ->
  (forall n, exists m, (n <= m)%nat /\ snd (sched m) = false) ->
  (forall n, exists m, (n <= m)%nat /\ fst (fst (sched m)) = true) ->
  forall k, exists n A O,
    let log := bt_log beta_cfg (init_huff_table 12) [] [] (bt_reset_with i3) (bt_rf_ins rf_init (map sched (seq 0 n))) in
    nth_error log k = Some (A, O) /\ (S k < length log)%nat /\
    ((snd (deframe (map fst O)) = Some false /\ len (concat A) = 4096 * 3072 /\
      receive (std_table 12) 12 4096 3072 (map fst O) = Some (concat A)) \/
     snd (deframe (map fst O)) = Some true).
Proof.
  intros sched i3 Hi Hg Hb Hv k. destruct (std_mem beta_cfg eq_refl) as (Hm & Ht & Hp). cbn [bd beta_cfg] in Hm, Ht, Hp.
  set (inp := fun (rf : rf_st) (x : bool * list Z * bool) => {| bi_valid := fst (fst x); bi_px := snd (fst x); bi_busy := snd x; bi_w := rf_width rf; bi_h := rf_height rf; bi_allowed := rf_allowed rf |}).
  set (ins := fun j => inp (match j with O => rf_init | _ => rf_step rf_init end) (sched j)).
  assert (E : forall n, bupto ins n = bt_rf_ins rf_init (map sched (seq 0 n))).
  { intros n. unfold bupto. destruct n as [|n]; [reflexivity|]. cbn [seq map bt_rf_ins]. destruct (sched 0%nat) as [[v px] b] eqn:E0. unfold ins at 1. cbv beta. rewrite E0. cbn [bt_rf_ins]. unfold inp at 1. cbn [fst snd]. f_equal.
    assert (X : forall m o rf, rf = rf_step rf_init -> map ins (seq (S o) m) = bt_rf_ins rf (map sched (seq (S o) m))).
    { induction m as [|m IH]; intros o rf ->; [reflexivity|]. cbn [seq map]. destruct (sched (S o)) as [[v' px'] b'] eqn:E1. cbn [bt_rf_ins]. unfold ins at 1. cbv beta. rewrite E1. unfold inp at 1. cbn [fst snd]. f_equal. apply IH. reflexivity. }
    apply X. reflexivity. }
  destruct (C61_received beta_cfg (std_table 12) (fun _ => (4096, 3072)) i3 ins) with (k := k) as (n & A & O & HN & HS & _ & R); try reflexivity; try assumption.
  - cbn. lia.
  - intros n. unfold beta_frame_ok, frame_ok. cbn. lia.
  - intros n. rewrite E. apply shipped_env; [assumption|]. intros x Hx. apply in_map_iff in Hx. destruct Hx as (j & <- & _). apply Hg.
  - exists n, A, O. cbv zeta. cbn [bd beta_cfg fst snd] in HN, HS, R. rewrite E, <- Hm in HN, HS. auto.
Qed.

(* a source that offers in three cycles of four and a sink that is ready in four of five meet the hypotheses *)
Example C61_example : let ins := C25_in 1000 in
  (forall n, bt_env beta_cfg (mem_of 12 (std_table 12)) (fun _ => (6, 3)) 0 (bt_init beta_cfg) (bupto ins n)) /\
  (forall n, exists m, (n <= m)%nat /\ bi_busy (ins m) = false) /\ (forall n, exists m, (n <= m)%nat /\ bi_valid (ins m) = true) /\
  (exists n A O, let log := bt_log beta_cfg (mem_of 12 (std_table 12)) [] [] (bt_init beta_cfg) (bupto ins n) in
     nth_error log 41 = Some (A, O) /\ (42 < length log)%nat /\
     ((snd (deframe (map fst O)) = Some false /\ len (concat A) = 18 /\ receive (std_table 12) 12 6 3 (map fst O) = Some (concat A)) \/ snd (deframe (map fst O)) = Some true)).
Proof.
  cbv zeta. assert (HE : forall n, bt_env beta_cfg (mem_of 12 (std_table 12)) (fun _ => (6, 3)) 0 (bt_init beta_cfg) (bupto (C25_in 1000) n)).
  { intros n. apply bt_env_all. intros i Hi _. apply in_map_iff in Hi. destruct Hi as (k & <- & _). split; [|split; reflexivity].
    split; [reflexivity|]. assert (0 <= Z.of_nat k * 1237 mod 4096 < 4096) by (apply Z.mod_pos_bound; lia).
    assert (0 <= Z.of_nat k * 551 mod 4096 < 4096) by (apply Z.mod_pos_bound; lia).
    cbn [bi_px C25_in bd beta_cfg]. repeat constructor; unfold in_range; change (2 ^ 12) with 4096; lia. }
  assert (HB : forall n, exists m, (n <= m)%nat /\ bi_busy (C25_in 1000 m) = false).
  { intros n. exists (2 + n * 5)%nat. split; [lia|]. cbn [bi_busy C25_in]. rewrite Nat.mod_add by lia. reflexivity. }
  assert (HV : forall n, exists m, (n <= m)%nat /\ bi_valid (C25_in 1000 m) = true).
  { intros n. exists (2 + n * 4)%nat. split; [lia|]. cbn [bi_valid C25_in]. rewrite Nat.mod_add by lia. reflexivity. }
  split; [exact HE|]. split; [exact HB|]. split; [exact HV|].
  destruct (std_mem beta_cfg eq_refl) as (_ & Ht & Hp).
  destruct (C61_received beta_cfg (std_table 12) (fun _ => (6, 3)) (i3_init beta_cfg) (C25_in 1000) eq_refl eq_refl ltac:(cbn; lia) Ht Hp
    ltac:(intros n; unfold beta_frame_ok, frame_ok; cbn; lia) (is_reset_init beta_cfg eq_refl) HE HB HV 41%nat) as (n & A & O & R1 & R2 & _ & R3).
  exists n, A, O. auto.
Qed.
