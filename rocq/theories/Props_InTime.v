(* C86: the beta core delivers in time. *)
From Verif Require Import Bits Spec Spec_Core Spec_Rate Spec_Beta Spec_Time M_Config M_Signals M_Predictor M_Difference M_Encode M_Merge M_I1 M_Fifo M_Converter M_VBits M_I3 M_Fix M_Markers M_Beta
  P_Fifo P_Encode P_Merge P_Signals P_Predictor P_I1 P_Tokens P_Converter P_VBits P_I3 P_Decode P_Run P_Live P_Live2 P_Rate P_Rate2 P_Rate3 P_Rate4 P_Rate5 P_Delay P_Drain
  P_Fix P_Markers Props_Arith Props_Core Props_Live Props_Rate Props_Delay Props_Drain Props_Frame P_Pack P_Beta Props_Beta P_BetaLive Props_BetaLive P_Stall P_Budget Props_Budget P_Deadline Props_Deadline P_InTime.
Ltac Zify.zify_post_hook ::= idtac.

Lemma begins_start c t sizes allows i3 k p rest : (forall k, bt_hyp c t (fst (sizes k)) (snd (sizes k))) -> (forall k, 0 <= allows k < 2 ^ 24) ->
  is_reset c i3 -> bt_env c (mem_of (bd c) t) sizes 0 (bt_reset_with i3) (p ++ rest) -> allowed_env c (mem_of (bd c) t) allows 0 [] (bt_reset_with i3) (p ++ rest) ->
  begins_after c (mem_of (bd c) t) (bt_reset_with i3) k p ->
  let log l := bt_log c (mem_of (bd c) t) [] [] (bt_reset_with i3) l in
  exists front i3', is_reset c i3' /\ length front = k /\ log p = front ++ [([], [])] /\ (forall r, log (p ++ r) = front ++ bt_log c (mem_of (bd c) t) [] [] (bt_reset_with i3') r) /\
    frame_at c t sizes allows k [] [] (bt_reset_with i3') rest.
Proof.
  intros HY HA Hi HE HL [HB1 HB2] log. pose proof (frame_start c t sizes allows HY HA i3 _ Hi HE HL) as F.
  assert (RC : p = [] \/ exists p' i, p = p' ++ [i]) by (destruct p as [|x p0]; [left; reflexivity|right; destruct (@exists_last _ (x :: p0)) as (p' & i & E); [discriminate|]; exists p', i; exact E]).
  destruct RC as [->|(p' & i & ->)].
  - exists [], i3. cbn [app length log bt_log] in *. cbn in HB1. assert (k = 0%nat) as -> by lia. unfold log. cbn [bt_log app]. auto.
  - specialize (HB2 p' i eq_refl). rewrite <- app_assoc in F. cbn [app] in F.
    destruct (frame_reach c t sizes allows HY HA p' (i :: rest) 0 [] [] (bt_reset_with i3) F) as (f & A' & O' & E1 & E2 & G). rewrite E1 in HB2. rewrite app_length in HB2. cbn [length] in HB2. cbn [Nat.add] in G.
    rewrite E2 in HB1. cbn [bt_log] in HB1. rewrite app_length in HB1. set (s' := bt_run c (mem_of (bd c) t) (bt_reset_with i3) p') in *. destruct (b_rst s') eqn:Er; [|cbn [length] in HB1; lia].
    destruct (frame_reset c t sizes allows HY HA _ _ _ _ _ _ G Er) as [G' _]. pose proof G as (I & _ & [Hok _] & _).
    destruct (bt_reset_ok _ _ _ _ _ _ _ _ (HY (length f)) Hok I Er) as (i3' & Hi3 & Hst). rewrite Hst in *.
    exists (f ++ [(A' ++ bt_took s' i, O' ++ bt_gave s' i)]), i3'. split; [exact Hi3|]. split; [rewrite app_length; cbn [length]; lia|]. unfold log. split; [|split].
    + rewrite E2. cbn [bt_log]. fold s'. rewrite Er. cbn [bt_log]. rewrite <- app_assoc. reflexivity.
    + intros r. rewrite <- app_assoc. cbn [app]. rewrite E2. cbn [bt_log]. rewrite Er, Hst, <- app_assoc. reflexivity.
    + replace k with (S (length f)) by lia. exact G'.
Qed.

(* Frame k begins after p.  In the cycles la that follow, the source and the sink may pause at any time, but la is long enough: the groups of the frame, the
   gaps of the source, the stalls of the sink, half a cycle for each byte 0xFF of the code, and 18 cycles.  In the cycles lb after these the sink is ready
   often enough.  If all this fits into allowed_cycles + 2 cycles, frame k is finished, it is not cut short, and the receiver gets exactly its pixels. *)
Theorem C86_in_time : forall c t sizes allows i3 p la lb M,
  cfg_ok c = true -> outb c = 16 -> bd c <= 15 -> table_ok (bd c) t -> prefix_free t ->
  1 <= M <= conv c -> M <= outb c -> 3 * outb c + M <= bufs c -> cf_steps c + 9 + bufs c / outb c <= cfd c ->
  (forall n, beta_frame_ok c (fst (sizes n)) (snd (sizes n))) -> (forall n, 0 <= allows n < 2 ^ 24) ->
  is_reset c i3 -> bt_env c (mem_of (bd c) t) sizes 0 (bt_reset_with i3) (p ++ la ++ lb) -> allowed_env c (mem_of (bd c) t) allows 0 [] (bt_reset_with i3) (p ++ la ++ lb) ->
  let log l := bt_log c (mem_of (bd c) t) [] [] (bt_reset_with i3) l in
  forall k A O, begins_after c (mem_of (bd c) t) (bt_reset_with i3) k p -> nth_error (log (p ++ la ++ lb)) k = Some (A, O) ->
  let W := fst (sizes k) in let H := snd (sizes k) in
  small_groups c t W M A ->
  36 + 2 * (W * H / ps c) + 2 * gaps la + 2 * stalls la + ff_bytes t (bd c) W (concat A) <= 2 * len la ->
  120 + 2 * drain_cycles c + ff_bytes t (bd c) W (concat A) <= 2 * readies lb ->
  len la + len lb <= allows k + 2 ->
  (S k < length (log (p ++ la ++ lb)))%nat /\
  snd (deframe (map fst O)) = Some false /\ len (concat A) = W * H /\ receive t (bd c) W H (map fst O) = Some (concat A).
Proof.
  intros c t sizes allows i3 p la lb M Hc Ho Hb Ht Hp M1 M2 M3 M4 Hf Ha Hi HE HL log k A O HB HN W H Hs H1 H2 H3.
  assert (HY : forall k, bt_hyp c t (fst (sizes k)) (snd (sizes k))) by exact (fun k => conj Hc (conj Ho (conj Ht (Hf k)))).
  destruct (begins_start c t sizes allows i3 k p (la ++ lb) HY Ha Hi HE HL HB) as (front & i3' & Hi' & Hfr & E1 & E2 & F). unfold log in *.
  assert (HG : W * H / ps c = W / ps c * H).
  { destruct (frame_geom c W H Hc (proj1 (Hf k))) as [(Q1 & Q2 & Q3 & Q4 & _) _]. rewrite Q2 at 1. replace (W / ps c * ps c * H) with (W / ps c * H * ps c) by ring. apply Z.div_mul. lia. }
  assert (X : (1 < length (bt_log c (mem_of (bd c) t) [] [] (bt_reset_with i3') (la ++ lb)))%nat).
  { rewrite E2 in HN. rewrite nth_error_app2, Hfr, Nat.sub_diag in HN by lia.
    apply (in_time c t sizes allows HY Ha M i3' k la lb A O (conj M1 (conj M2 (conj M3 M4))) Hi' F HN Hs); fold W H; unfold ffc, ffw, ff_bytes, readies, ready_cycles in *; lia. }
  assert (Hk : (S k < length (bt_log c (mem_of (bd c) t) [] [] (bt_reset_with i3) (p ++ la ++ lb)))%nat) by (rewrite E2, app_length; lia).
  split; [exact Hk|]. apply (C82_in_time c t sizes allows i3 p (la ++ lb) Hc Ho Hb Ht Hp Hf Ha Hi HE HL k A O); try assumption.
  - apply HB.
  - rewrite E1, nth_error_app2, Hfr, Nat.sub_diag by lia. reflexivity.
  - rewrite len_app. lia.
Qed.

(* ------------------------------------------------------------------ as shipped *)

Lemma rf_ins_gaps : forall l rf, gaps (bt_rf_ins rf l) = len (filter (fun x => negb (fst (fst x))) l).
Proof. unfold gaps. induction l as [|[[v px] bs] l IH]; intros; [reflexivity|]. cbn [bt_rf_ins filter bi_valid fst]. unfold len in *. specialize (IH (rf_step rf)). destruct (negb v); cbn [length]; lia. Qed.
Lemma rf_ins_stalls : forall l rf, stalls (bt_rf_ins rf l) = len (filter snd l).
Proof. unfold stalls. induction l as [|[[v px] bs] l IH]; intros; [reflexivity|]. cbn [bt_rf_ins filter bi_busy snd]. unfold len in *. specialize (IH (rf_step rf)). destruct bs; cbn [length]; lia. Qed.
Lemma rf_ins_split : forall l a b rf, bt_rf_ins rf l = a ++ b -> exists la lb, l = la ++ lb /\ a = bt_rf_ins rf la /\ length la = length a.
Proof.
  induction l as [|[[v px] bs] l IH]; intros a b rf E.
  - cbn [bt_rf_ins] in E. symmetry in E. apply app_eq_nil in E. destruct E as [-> ->]. exists [], []. auto.
  - destruct a as [|x a]; [exists [], ((v, px, bs) :: l); auto|]. cbn [bt_rf_ins app] in E. inversion E as [[E1 E2]]. destruct (IH _ _ _ E2) as (la & lb & -> & E3 & E4). exists ((v, px, bs) :: la), lb. cbn [app bt_rf_ins length]. rewrite <- E3. auto.
Qed.

(* beta_integration.py as shipped (4096 x 3072, 6666000 cycles; schedules of (source valid, group, sink busy)), samples within 31 of their prediction: the
   time limit leaves 374546 cycles beyond one cycle for each group, to be shared by the gaps of the source, the stalls of the sink, the bytes 0xFF of the
   code and the cycles after the last group. *)
Theorem C86_shipped : forall (p la lb : list (bool * list Z * bool)) i3,
  is_reset beta_cfg i3 -> (forall x, In x (p ++ la ++ lb) -> group_ok 12 2 (snd (fst x))) ->
  let log l := bt_log beta_cfg (init_huff_table 12) [] [] (bt_reset_with i3) (bt_rf_ins rf_init l) in
  forall k A O, length (log p) = S k -> (forall p' x, p = p' ++ [x] -> length (log p') = k) -> nth_error (log (p ++ la ++ lb)) k = Some (A, O) ->
  smooth 12 4096 31 (concat A) ->
  let ff := ff_bytes (std_table 12) 12 4096 (concat A) in
  36 + 2 * 6291456 + 2 * len (filter (fun x => negb (fst (fst x))) la) + 2 * len (filter snd la) + ff <= 2 * len la ->
  226550 + ff <= 2 * len (filter (fun x => negb (snd x)) lb) ->
  len la + len lb <= 6666002 ->
  (S k < length (log (p ++ la ++ lb)))%nat /\
  snd (deframe (map fst O)) = Some false /\ len (concat A) = 4096 * 3072 /\ receive (std_table 12) 12 4096 3072 (map fst O) = Some (concat A).
Proof.
  intros p la lb i3 Hi Hs log k A O Hlen Hp' HN HS ff H1 H2 H3. destruct (std_mem beta_cfg eq_refl) as (Hm & Ht & Hp). cbn [bd beta_cfg] in Hm, Ht, Hp. unfold log in *. rewrite Hm in *.
  pose proof (shipped_env (p ++ la ++ lb) i3 (mem_of 12 (std_table 12)) Hi Hs) as HE. pose proof (shipped_allowed (p ++ la ++ lb) i3 (mem_of 12 (std_table 12)) Hi) as HL.
  assert (HA : Forall (fun g => len g = ps beta_cfg) A).
  { assert (HY : forall k : nat, bt_hyp beta_cfg (std_table 12) (fst ((fun _ : nat => (4096, 3072)) k)) (snd ((fun _ : nat => (4096, 3072)) k))) by (intros n; repeat split; try reflexivity; try apply Ht; cbn; lia).
    destruct (bt_log_ok beta_cfg (std_table 12) (fun _ => (4096, 3072)) HY _ [] [] (bt_reset_with i3) 0%nat (bt_inv_init _ _ _ _ _ (HY 0%nat) Hi) eq_refl HE k A O HN) as (s' & (P & h & d1 & d2 & I & _) & _).
    eapply Forall_impl; [|apply (v_A _ _ _ _ _ _ _ _ _ _ I)]. intros g [Y _]; exact Y. }
  rewrite !rf_ins_app in *. set (rf1 := rf_after rf_init p) in *. set (rf2 := rf_after rf1 la) in *.
  rewrite <- (rf_ins_ready lb rf2) in H2. rewrite <- (rf_ins_gaps la rf1), <- (rf_ins_stalls la rf1) in H1. rewrite <- (rf_ins_len la rf1) in H1, H3. rewrite <- (rf_ins_len lb rf2) in H3.
  apply (C86_in_time beta_cfg (std_table 12) (fun _ => (4096, 3072)) (fun _ => 6666000) i3 (bt_rf_ins rf_init p) (bt_rf_ins rf1 la) (bt_rf_ins rf2 lb) (2 * std_cost 5)) with (k := k) (A := A); try reflexivity; try assumption.
  - cbn. lia.
  - vm_compute. split; discriminate.
  - vm_compute. discriminate.
  - vm_compute. discriminate.
  - intros n. unfold beta_frame_ok, frame_ok. cbn. lia.
  - intros n. lia.
  - split; [exact Hlen|]. intros p' x E. destruct (rf_ins_split _ _ _ _ E) as (q & r & -> & -> & L).
    rewrite rf_ins_app in E. apply app_inv_head in E. destruct r as [|y [|z r]]; [discriminate| |destruct y as [[? ?] ?]; destruct z as [[? ?] ?]; discriminate]. apply (Hp' q y eq_refl).
  - apply (small_smooth beta_cfg 4096 5); [lia|exact HA|exact HS].
Qed.

(* example: a core with short fifos, two small frames (5 groups of the second one late, a busy sink every fifth cycle); the second frame *)
Definition it_in (k : nat) : bt_in :=
  {| bi_valid := negb (Nat.eqb (Nat.modulo k 4) 0) && (Nat.ltb k 200); bi_px := rate_px (k mod 100); bi_busy := Nat.eqb (Nat.modulo k 5) 1; bi_w := 10; bi_h := 4; bi_allowed := 20000 |}.
Definition it_log (n : nat) := bt_log tight_cfg (mem_of 12 (std_table 12)) [] [] (bt_init tight_cfg) (map it_in (seq 0 n)).

Example C86_example :
  let p := map it_in (seq 0 70) in let la := map it_in (seq 70 80) in let lb := map it_in (seq 150 8300) in
  let mem := mem_of 12 (std_table 12) in let s0 := bt_init tight_cfg in let L := bt_log tight_cfg mem [] [] s0 (p ++ la ++ lb) in
  cfg_ok tight_cfg = true /\ outb tight_cfg = 16 /\ 1 <= 16 <= conv tight_cfg /\ 3 * outb tight_cfg + 16 <= bufs tight_cfg /\ cf_steps tight_cfg + 9 + bufs tight_cfg / outb tight_cfg <= cfd tight_cfg /\
  beta_frame_ok tight_cfg 10 4 /\ is_reset tight_cfg (i3_init tight_cfg) /\
  bt_env tight_cfg mem (fun _ => (10, 4)) 0 s0 (p ++ la ++ lb) /\ allowed_env tight_cfg mem (fun _ => 20000) 0 [] s0 (p ++ la ++ lb) /\
  begins_after tight_cfg mem s0 1 p /\
  exists A O, nth_error L 1 = Some (A, O) /\ small_groups tight_cfg (std_table 12) 10 16 A /\
  36 + 2 * (10 * 4 / ps tight_cfg) + 2 * gaps la + 2 * stalls la + ff_bytes (std_table 12) 12 10 (concat A) <= 2 * len la /\
  120 + 2 * drain_cycles tight_cfg + ff_bytes (std_table 12) 12 10 (concat A) <= 2 * readies lb /\ len la + len lb <= 20000 + 2.
Proof.
  intros p la lb mem s0 L.
  split; [reflexivity|]. split; [reflexivity|]. split; [cbn; lia|]. split; [vm_compute; discriminate|]. split; [vm_compute; discriminate|]. split; [unfold beta_frame_ok, frame_ok; cbn; lia|]. split; [apply is_reset_init; reflexivity|].
  split; [|split; [|split]].
  - apply bt_env_all. intros i Hi _. unfold p, la, lb in Hi. rewrite <- !map_app in Hi. apply in_map_iff in Hi. destruct Hi as (k & <- & _). split; [|split; reflexivity].
    unfold it_in, rate_px. cbn [bi_px]. set (n := (k mod 100)%nat).
    assert (0 <= Z.of_nat (n / 2) mod 31 < 31) by (apply Z.mod_pos_bound; lia). assert (0 <= Z.of_nat (n / 2 * 7) mod 15 < 15) by (apply Z.mod_pos_bound; lia).
    split; [reflexivity|]. constructor; [|constructor; [|constructor]]; unfold in_range; change (2 ^ bd tight_cfg) with 4096; destruct (Nat.even (n / 20)); lia.
  - apply allowed_all. intros i Hi. unfold p, la, lb in Hi. rewrite <- !map_app in Hi. apply in_map_iff in Hi. destruct Hi as (k & <- & _). reflexivity.
  - split; [vm_compute; reflexivity|]. intros p' i E. unfold p in E. change (seq 0 70) with (seq 0 69 ++ [69%nat]) in E. rewrite map_app in E. cbn [map] in E. apply app_inj_tail in E. destruct E as [<- _]. vm_compute. reflexivity.
  - assert (X : exists A O, nth_error L 1 = Some (A, O) /\ check_small (std_table 12) (bd tight_cfg) 10 16 [] A = true /\ ff_bytes (std_table 12) 12 10 (concat A) = 0).
    { unfold L, s0, mem, p, la, lb. eexists _, _. split; [vm_compute; reflexivity|]. split; vm_compute; reflexivity. }
    destruct X as (A & O & X1 & X2 & X3). exists A, O. split; [exact X1|]. split; [apply (check_small_ok tight_cfg); exact X2|]. rewrite X3. split; [vm_compute; discriminate|]. split; vm_compute; discriminate.
Qed.
