(* C51 continued: the master side of the AXI-stream tops, beats and packets *)
From Verif Require Import Bits Spec Spec_Core Spec_Beta M_Config M_Encode M_I1 M_Fifo M_I3 M_Fix M_Markers M_Beta
  P_Encode P_Tokens P_I3 P_Decode P_Run P_Live P_Fix P_Markers Props_Arith Props_Core Props_Frame P_Pack P_Beta Props_Beta
  M_Width Props_Width M_Top Props_Top.
Ltac Zify.zify_post_hook ::= idtac.

(* ---------- specification: what an AXI stream receiver sees ---------- *)
(* the beats transferred: tvalid and tready in the same cycle *)
Definition beats (w : list (bool * Z * bool * bool)) : list (Z * bool) :=
  flat_map (fun x => match x with (v, d, e, r) => if v && r then [(d, e)] else [] end) w.
(* the packets: the beats up to and with one that carries tlast; an unfinished packet does not count *)
Fixpoint packets (cur : list Z) (l : list (Z * bool)) : list (list Z) :=
  match l with [] => [] | (d, e) :: r => if e then (cur ++ [d]) :: packets [] r else packets (cur ++ [d]) r end.
(* packets of more than one word *)
Definition long (p : list Z) : bool := 1 <? len p.

Lemma packets_plain pw : forall cur r, packets cur (plain pw ++ r) = packets (cur ++ pw) r.
Proof. induction pw as [|p pw IH]; intros cur r; cbn [plain map app packets]; [rewrite app_nil_r; reflexivity|]. unfold plain in IH. rewrite IH, <- app_assoc. reflexivity. Qed.
Lemma packets_end a w b : forall cur, packets cur (a ++ (w, true) :: b) = packets cur (a ++ [(w, true)]) ++ packets [] b.
Proof. induction a as [|[d e] a IH]; intros cur; cbn [app packets]; [reflexivity|]. destruct e; rewrite IH; reflexivity. Qed.

(* the words of all frames are the words handed over *)
Lemma bt_log_outs c mem : forall l A O s, concat (map snd (bt_log c mem A O s l)) = O ++ bt_outs c mem s l.
Proof.
  induction l as [|i l IH]; intros A O s; cbn [bt_log bt_outs].
  - cbn. rewrite !app_nil_r. reflexivity.
  - destruct (b_rst s); [cbn [map concat snd]|]; rewrite IH; [rewrite <- app_assoc; reflexivity|rewrite app_assoc; reflexivity].
Qed.

(* the words of a finished frame: a packet p of more than one word and perhaps a packet of one word *)
Definition frame_of_packet (O : list (Z * bool)) (p : list Z) : Prop :=
  exists b w, p = b ++ [w] /\ b <> [] /\ (O = plain b ++ [(w, true)] \/ exists x, O = plain b ++ [(w, true)] ++ [(x, true)]).

Lemma frame_packets O p r : frame_of_packet O p -> filter long (packets [] (O ++ r)) = p :: filter long (packets [] r).
Proof.
  intros (b & w & -> & Hb & HO). assert (L : long (b ++ [w]) = true). { unfold long, len. rewrite app_length. destruct b; [congruence|]. cbn [length]. lia. }
  destruct HO as [->|(x & ->)]; rewrite <- !app_assoc, packets_plain; cbn [app packets filter]; rewrite L; [reflexivity|]. change (long [x]) with false. reflexivity.
Qed.
Lemma nth_packets : forall (log : list (list (list Z) * list (Z * bool))) (ps : list (list Z)),
  (forall k A O, nth_error log k = Some (A, O) -> (S k < length log)%nat -> exists p, nth_error ps k = Some p /\ frame_of_packet O p) ->
  forall k A O, nth_error log k = Some (A, O) -> (S k < length log)%nat ->
  nth_error (filter long (packets [] (concat (map snd log)))) k = nth_error ps k.
Proof.
  induction log as [|[A0 O0] log IH]; intros ps H k A O HN Hk; [destruct k; discriminate|]. cbn [map concat snd].
  destruct (H 0%nat A0 O0 eq_refl ltac:(cbn [length] in *; lia)) as (p & P0 & F). rewrite (frame_packets O0 p _ F).
  destruct ps as [|p0 ps]; [discriminate|]. injection P0 as ->. destruct k as [|k]; [reflexivity|]. cbn [nth_error]. apply (IH ps) with (A := A) (O := O).
  - intros k' A' O' HN' Hk'. apply (H (S k') A' O' HN'). cbn [length]. lia.
  - exact HN.
  - cbn [length] in Hk. lia.
Qed.

(* a finished frame of the log: its packet, decoded *)
Lemma frame_packet : forall c t sizes i3 l,
  cfg_ok c = true -> outb c = 16 -> bd c <= 15 -> table_ok (bd c) t -> prefix_free t ->
  (forall n, beta_frame_ok c (fst (sizes n)) (snd (sizes n))) ->
  is_reset c i3 -> bt_env c (mem_of (bd c) t) sizes 0 (bt_reset_with i3) l ->
  let log := bt_log c (mem_of (bd c) t) [] [] (bt_reset_with i3) l in
  forall k A O, nth_error log k = Some (A, O) -> (S k < length log)%nat ->
  let W := fst (sizes k) in let H := snd (sizes k) in
  frame_of_packet O (map fst (cut O)) /\
  ((snd (deframe (map fst (cut O))) = Some false /\ len (concat A) = W * H /\ receive t (bd c) W H (map fst (cut O)) = Some (concat A)) \/
   snd (deframe (map fst (cut O))) = Some true).
Proof.
  intros c t sizes i3 l Hc Ho Hb Ht Hp Hf Hi HE log k A O HN Hk W H.
  destruct (C25_frames c t sizes i3 l Hc Ho Ht Hf Hi HE k A O HN) as [K _]. destruct (K Hk) as (He & forced & R & Ht2). fold W H in R.
  assert (Hb2 : 2 <= bd c) by (unfold cfg_ok in Hc; lia).
  assert (HY : forall k, bt_hyp c t (fst (sizes k)) (snd (sizes k))) by exact (fun k => conj Hc (conj Ho (conj Ht (Hf k)))).
  destruct (bt_log_ok c t sizes HY l [] [] (bt_reset_with i3) 0%nat (bt_inv_init _ _ _ _ _ (HY 0%nat) Hi) eq_refl HE k A O HN) as (s' & I & _).
  cbn [Nat.add] in I. destruct I as (P & hist & d1 & d2 & I1 & _). destruct (inv_pixels _ _ _ _ _ _ _ _ _ _ I1) as [HF HLp].
  assert (LF : forall pl f, 16 <= len (framed pl f)). { intros pl f. unfold framed, len. rewrite !app_length, !repeat_length. lia. }
  destruct (cut_exists_end O He) as (pw & w & EC).
  assert (FP : 2 <= len (map fst (cut O)) -> frame_of_packet O (map fst (cut O))).
  { intros L2. exists pw, w. rewrite EC, map_fst_cut in *. split; [reflexivity|]. split; [intros ->; cbn in L2; lia|]. destruct Ht2 as [E|E]; [left; congruence|right]. eexists. rewrite app_assoc. exact E. }
  destruct forced; cbn [frame_result] in R.
  - assert (Hlen : len (concat A) <= W * H).
    { pose proof (v_len _ _ _ _ _ _ _ _ _ _ I1) as L. destruct (frame_geom c W H Hc (proj1 (Hf k))) as [(Q1 & Q2 & _) _]. fold W H in L. rewrite HLp. nia. }
    destruct (R (concat A ++ repeat 0 (Z.to_nat (W * H - len (concat A)))) _ eq_refl) as (n & Hn).
    { rewrite len_app. unfold len at 2. rewrite repeat_length. lia. }
    split; [apply FP; rewrite Hn; pose proof (LF (firstn n (payload t (bd c) W (concat A ++ repeat 0 (Z.to_nat (W * H - len (concat A)))))) true); lia|]. right.
    rewrite Hn. unfold payload. pose proof (C24_delimitable _ n true [] (payload_bytes t (bd c) W (concat A ++ repeat 0 (Z.to_nat (W * H - len (concat A)))))) as D. cbv zeta in D. rewrite app_nil_r in D. rewrite D. reflexivity.
  - destruct R as [HL Hm]. split; [apply FP; rewrite Hm; pose proof (LF (payload t (bd c) W (concat A)) false); lia|]. left.
    rewrite Hm. destruct (C25_decodable t (bd c) W H (concat A) [] ltac:(lia) Ht Hp HL HF) as [D1 D2]. rewrite app_nil_r in *. auto.
Qed.

(* C51.  The core, any configuration with sixteen-bit words: of the packets a stream receiver sees, those of more than one word are the finished
   frames, in order; each decodes to exactly the samples of its frame or is flagged as cut short. *)
Theorem C51_packets : forall c t sizes i3 l,
  cfg_ok c = true -> outb c = 16 -> bd c <= 15 -> table_ok (bd c) t -> prefix_free t ->
  (forall n, beta_frame_ok c (fst (sizes n)) (snd (sizes n))) ->
  is_reset c i3 -> bt_env c (mem_of (bd c) t) sizes 0 (bt_reset_with i3) l ->
  let log := bt_log c (mem_of (bd c) t) [] [] (bt_reset_with i3) l in
  forall k A O, nth_error log k = Some (A, O) -> (S k < length log)%nat ->
  let W := fst (sizes k) in let H := snd (sizes k) in
  exists p, nth_error (filter long (packets [] (bt_outs c (mem_of (bd c) t) (bt_reset_with i3) l))) k = Some p /\
  ((snd (deframe p) = Some false /\ len (concat A) = W * H /\ receive t (bd c) W H p = Some (concat A)) \/ snd (deframe p) = Some true).
Proof.
  intros c t sizes i3 l Hc Ho Hb Ht Hp Hf Hi HE log k A O HN Hk W H. exists (map fst (cut O)).
  pose proof (frame_packet c t sizes i3 l Hc Ho Hb Ht Hp Hf Hi HE) as FP. cbv zeta in FP. fold log in FP.
  split; [|exact (proj2 (FP k A O HN Hk))].
  assert (E : bt_outs c (mem_of (bd c) t) (bt_reset_with i3) l = concat (map snd log)) by (unfold log; rewrite bt_log_outs; reflexivity). rewrite E.
  assert (NM : forall j A' O', nth_error log j = Some (A', O') -> nth_error (map (fun x => map fst (cut (snd x))) log) j = Some (map fst (cut O'))).
  { intros j A' O' HJ. rewrite nth_error_map, HJ. reflexivity. }
  rewrite (nth_packets log (map (fun x => map fst (cut (snd x))) log)) with (A := A) (O := O); [apply (NM k A O HN)| |exact HN|exact Hk].
  intros j A' O' HJ HK. exists (map fst (cut O')). split; [exact (NM j A' O' HJ)|exact (proj1 (FP j A' O' HJ HK))].
Qed.

(* ---------- the shipped tops, pin by pin ---------- *)
Notation M12 := (init_huff_table 12) (only parsing).
Lemma t32_beats : forall l bt rf, beats (t32_mwire bt rf l) = bt_outs beta_cfg M12 bt (bt_rf_ins rf (t32_sched l)).
Proof.
  induction l as [|i l IH]; intros bt rf; [reflexivity|]. unfold t32_sched in *. cbn [map t32_mwire]. rewrite bt_rf_ins_cons. cbn [bt_outs]. unfold beats in *. cbn [flat_map].
  rewrite IH. f_equal. unfold ts_mpins, bt_gave. cbn [rf_bt bi_busy snd]. rewrite negb_involutive. reflexivity.
Qed.
Lemma t64_beats : forall l s bt rf, beats (t64_mwire s bt rf l) = bt_outs beta_cfg M12 bt (bt_rf_ins rf (t64_sched s bt rf l)).
Proof.
  induction l as [|i l IH]; intros s bt rf; [reflexivity|]. cbn [t64_sched t64_mwire]. rewrite bt_rf_ins_cons. cbn [bt_outs]. unfold beats in *. cbn [flat_map].
  rewrite IH. f_equal. unfold ts_mpins, bt_gave. cbn [rf_bt t64_x bi_busy snd]. rewrite negb_involutive. reflexivity.
Qed.
Lemma shipped_packets : forall sched i3, is_reset beta_cfg i3 -> (forall x, In x sched -> group_ok 12 2 (snd (fst x))) ->
  let log := bt_log beta_cfg M12 [] [] (bt_reset_with i3) (bt_rf_ins rf_init sched) in
  forall k A O, finished log k A O ->
  exists p, nth_error (filter long (packets [] (bt_outs beta_cfg M12 (bt_reset_with i3) (bt_rf_ins rf_init sched)))) k = Some p /\
  ((snd (deframe p) = Some false /\ len (concat A) = 4096 * 3072 /\ receive (std_table 12) 12 4096 3072 p = Some (concat A)) \/ snd (deframe p) = Some true).
Proof.
  intros sched i3 Hi Hs log k A O [HN Hk]. destruct (std_mem beta_cfg eq_refl) as (Hm & Ht & Hp). cbn [bd beta_cfg] in Hm, Ht, Hp.
  unfold log in *. rewrite Hm in *.
  apply (C51_packets beta_cfg (std_table 12) (fun _ => (4096, 3072)) i3 (bt_rf_ins rf_init sched)) with (O := O); try reflexivity; try assumption.
  - cbn. lia.
  - intros n. unfold beta_frame_ok, frame_ok. cbn. lia.
  - apply shipped_env; assumption.
Qed.

(* the receiver behind the master port of the 64-bit top: packet by packet what the source sent *)
Theorem C51_master64 : forall (l : list ts_in) i3, is_reset beta_cfg i3 ->
  let bt := bt_reset_with i3 in
  let log := bt_log beta_cfg M12 [] [] bt (bt_rf_ins rf_init (t64_sched s24_init bt rf_init l)) in
  let out := beats (t64_mwire s24_init bt rf_init l) in
  concat (map snd log) = out /\
  forall k A O, finished log k A O -> exists p, nth_error (filter long (packets [] out)) k = Some p /\
    ((snd (deframe p) = Some false /\ len (concat A) = 4096 * 3072 /\ receive (std_table 12) 12 4096 3072 p = Some (concat A)) \/ snd (deframe p) = Some true).
Proof.
  intros l i3 Hi bt log out. unfold out. rewrite t64_beats. split; [unfold log; rewrite bt_log_outs; reflexivity|].
  intros k A O Hk. apply (shipped_packets _ i3 Hi (fun x => t64_sched_ok l s24_init bt rf_init x) k A O Hk).
Qed.
Theorem C51_master32 : forall (l : list ts_in) i3, is_reset beta_cfg i3 ->
  let bt := bt_reset_with i3 in
  let log := bt_log beta_cfg M12 [] [] bt (bt_rf_ins rf_init (t32_sched l)) in
  let out := beats (t32_mwire bt rf_init l) in
  concat (map snd log) = out /\
  forall k A O, finished log k A O -> exists p, nth_error (filter long (packets [] out)) k = Some p /\
    ((snd (deframe p) = Some false /\ len (concat A) = 4096 * 3072 /\ receive (std_table 12) 12 4096 3072 p = Some (concat A)) \/ snd (deframe p) = Some true).
Proof.
  intros l i3 Hi bt log out. unfold out. rewrite t32_beats. split; [unfold log; rewrite bt_log_outs; reflexivity|].
  intros k A O Hk. refine (shipped_packets _ i3 Hi _ k A O Hk). intros x Hx. apply in_map_iff in Hx. destruct Hx as (i & <- & _). apply tp32_ok.
Qed.
(* two 6 x 3 frames with gaps and stalls (C25_example; hypotheses: C25_hypotheses), seen packet by packet; and one cycle of the 64-bit top *)
Example C51_packets_example :
  let l := map (C25_in 1000) (seq 0 170) in let P := packets [] (bt_outs beta_cfg M12 (bt_init beta_cfg) l) in
  map (fun p => receive (std_table 12) 12 6 3 p) (firstn 2 (filter long P)) = map (fun x => Some (concat (fst x))) (firstn 2 (C25_log 1000 170)) /\
  (2 <= length (filter long P))%nat /\
  (let w := t64_mwire s24_init (bt_reset_with (i3_init beta_cfg)) rf_init
      (repeat {| ts_valid := true; ts_data := 0x123456789abc0000; ts_mready := true |} 40 ++ repeat {| ts_valid := true; ts_data := 0x123456789abc0000; ts_mready := false |} 20) in
   (8 < length (beats w))%nat /\ (length (filter (fun x => fst (fst (fst x))) w) = length (beats w) + 20)%nat).
Proof. vm_compute. repeat split; lia. Qed.
