(* C82: the time limit is a deadline, and nothing is cut short before it. *)
From Verif Require Import Bits Spec Spec_Core Spec_Beta Spec_Rate M_Config M_Encode M_I1 M_Fifo M_I3 M_Fix M_Markers M_Beta
  P_Encode P_Tokens P_I3 P_Decode P_Run P_Live P_Fix P_Markers Props_Arith Props_Core Props_Frame P_Pack P_Beta Props_Beta P_BetaLive Props_BetaLive P_Stall P_Budget Props_Budget P_Deadline.
Ltac Zify.zify_post_hook ::= idtac.

(* The run is cut in three: p, at the end of which frame k is in progress and has taken a group of pixels; l2, allowed_cycles + 2 cycles (or more), by the
   end of which frame k has handed over its first word; l3, in which the sink is ready 17 times (or more).  Then the end of frame k has been handed over -
   whatever the source does, and however many pixels are missing. *)
Theorem C82_deadline : forall c t sizes allows i3 p l2 l3,
  cfg_ok c = true -> outb c = 16 -> table_ok (bd c) t ->
  (forall n, beta_frame_ok c (fst (sizes n)) (snd (sizes n))) -> (forall n, 0 <= allows n < 2 ^ 24) ->
  is_reset c i3 -> bt_env c (mem_of (bd c) t) sizes 0 (bt_reset_with i3) (p ++ l2 ++ l3) -> allowed_env c (mem_of (bd c) t) allows 0 [] (bt_reset_with i3) (p ++ l2 ++ l3) ->
  let log l := bt_log c (mem_of (bd c) t) [] [] (bt_reset_with i3) l in
  forall k A O A1 O1 A2 O2,
  length (log p) = S k -> nth_error (log p) k = Some (A, O) -> A <> [] ->
  allows k + 2 <= len l2 -> nth_error (log (p ++ l2)) k = Some (A1, O1) -> O1 <> [] ->
  17 <= len (filter (fun i => negb (bi_busy i)) l3) -> nth_error (log (p ++ l2 ++ l3)) k = Some (A2, O2) ->
  existsb snd O2 = true.
Proof.
  intros c t sizes allows i3 p l2 l3 Hc Ho Ht Hf Ha Hi HE HL log k A O A1 O1 A2 O2 Hlen H0 HA H2 H1 HO H3 H4.
  assert (HY : forall k, bt_hyp c t (fst (sizes k)) (snd (sizes k))) by (intros; repeat split; try assumption; apply Hf || (apply Ht)).
  pose proof (frame_start c t sizes allows HY Ha i3 _ Hi HE HL) as F.
  destruct (frame_reach c t sizes allows HY Ha p (l2 ++ l3) 0 [] [] (bt_reset_with i3) F) as (f & A' & O' & E1 & E2 & G). unfold log in *.
  rewrite E1 in Hlen, H0. rewrite E2 in H1, H4. rewrite app_length in Hlen. cbn [length] in Hlen. assert (k = length f) as -> by lia. cbn [Nat.add] in G.
  rewrite nth_error_app2, Nat.sub_diag in H0, H1, H4 by lia. cbn in H0. inversion H0; subst.
  exact (deadline c t sizes allows HY Ha l2 l3 (length f) A O _ A1 O1 A2 O2 G HA H2 H1 HO H3 H4).
Qed.

(* Nothing is cut short earlier: if frame k had just begun after p (nothing taken, nothing handed over) and the end of a frame cut short (0xFFFE with the
   end flag) is among the words frame k has handed over after l2, then l2 has at least allowed_cycles + 12 cycles. *)
Theorem C82_not_early : forall c t sizes allows i3 p l2,
  cfg_ok c = true -> outb c = 16 -> table_ok (bd c) t ->
  (forall n, beta_frame_ok c (fst (sizes n)) (snd (sizes n))) -> (forall n, 0 <= allows n < 2 ^ 24) ->
  is_reset c i3 -> bt_env c (mem_of (bd c) t) sizes 0 (bt_reset_with i3) (p ++ l2) -> allowed_env c (mem_of (bd c) t) allows 0 [] (bt_reset_with i3) (p ++ l2) ->
  let log l := bt_log c (mem_of (bd c) t) [] [] (bt_reset_with i3) l in
  forall k A O, length (log p) = S k -> nth_error (log p) k = Some ([], []) -> nth_error (log (p ++ l2)) k = Some (A, O) ->
  In (0xFFFE, true) O -> allows k + 12 <= len l2.
Proof.
  intros c t sizes allows i3 p l2 Hc Ho Ht Hf Ha Hi HE HL log k A O Hlen H0 H1 HIn.
  assert (HY : forall k, bt_hyp c t (fst (sizes k)) (snd (sizes k))) by (intros; repeat split; try assumption; apply Hf || (apply Ht)).
  pose proof (frame_start c t sizes allows HY Ha i3 _ Hi HE HL) as F.
  destruct (frame_reach c t sizes allows HY Ha p l2 0 [] [] (bt_reset_with i3) F) as (f & A' & O' & E1 & E2 & G). unfold log in *.
  rewrite E1 in Hlen, H0. rewrite E2 in H1. rewrite app_length in Hlen. cbn [length] in Hlen. assert (k = length f) as -> by lia. cbn [Nat.add] in G.
  rewrite nth_error_app2, Nat.sub_diag in H0, H1 by lia. cbn in H0. inversion H0; subst.
  pose proof (early_run c t sizes allows HY Ha l2 (length f) 0 [] [] _ A O G ltac:(lia) (early_start _ _ _ _ _ _ _ G) H1 HIn). lia.
Qed.

(* ... so a finished frame that began after p and was done within allowed_cycles + 11 cycles is not flagged: it is complete. *)
Theorem C82_in_time : forall c t sizes allows i3 p l2,
  cfg_ok c = true -> outb c = 16 -> bd c <= 15 -> table_ok (bd c) t -> prefix_free t ->
  (forall n, beta_frame_ok c (fst (sizes n)) (snd (sizes n))) -> (forall n, 0 <= allows n < 2 ^ 24) ->
  is_reset c i3 -> bt_env c (mem_of (bd c) t) sizes 0 (bt_reset_with i3) (p ++ l2) -> allowed_env c (mem_of (bd c) t) allows 0 [] (bt_reset_with i3) (p ++ l2) ->
  let log l := bt_log c (mem_of (bd c) t) [] [] (bt_reset_with i3) l in
  forall k A O, length (log p) = S k -> nth_error (log p) k = Some ([], []) -> nth_error (log (p ++ l2)) k = Some (A, O) -> (S k < length (log (p ++ l2)))%nat ->
  len l2 < allows k + 12 ->
  let W := fst (sizes k) in let H := snd (sizes k) in
  snd (deframe (map fst O)) = Some false /\ len (concat A) = W * H /\ receive t (bd c) W H (map fst O) = Some (concat A).
Proof.
  intros c t sizes allows i3 p l2 Hc Ho Hb Ht Hp Hf Ha Hi HE HL log k A O Hlen H0 H1 Hk Hl W H.
  destruct (C25_lossless_or_flagged c t sizes i3 (p ++ l2) Hc Ho Hb Ht Hp Hf Hi HE k A O H1 Hk) as [R|R]; [exact R|exfalso].
  destruct (C25_frames c t sizes i3 (p ++ l2) Hc Ho Ht Hf Hi HE k A O H1) as [K _]. destruct (K Hk) as (He & forced & Fr & Htl). fold W H in Fr.
  assert (HO : exists tl, map fst O = map fst (cut O) ++ tl) by (destruct Htl as [E|E]; [exists []; rewrite app_nil_r; congruence|eexists; rewrite E at 1; apply map_app]).
  destruct HO as [tl HO].
  assert (HY : forall k, bt_hyp c t (fst (sizes k)) (snd (sizes k))) by exact (fun k => conj Hc (conj Ho (conj Ht (Hf k)))).
  destruct (bt_log_ok c t sizes HY (p ++ l2) [] [] (bt_reset_with i3) 0%nat (bt_inv_init _ _ _ _ _ (HY 0%nat) Hi) eq_refl HE k A O H1) as (s' & I & _).
  cbn [Nat.add] in I. destruct I as (P & hist & d1 & d2 & I1 & _). destruct (inv_pixels _ _ _ _ _ _ _ _ _ _ I1) as [HF HLp].
  assert (Hlen2 : len (concat A) <= W * H).
  { pose proof (v_len _ _ _ _ _ _ _ _ _ _ I1) as L. destruct (frame_geom c W H Hc (proj1 (Hf k))) as [(Q1 & Q2 & _) _]. fold W H in L. rewrite HLp. nia. }
  assert (HIn : In (0xFFFE, true) O).
  { destruct (cut_exists_end O He) as (pw & w & Ec). assert (Hw : w = 65534 -> In (65534, true) O).
    { intros ->. destruct (cut_end _ _ _ Ec) as (r & ->). apply in_or_app. right. left. reflexivity. }
    apply Hw. clear Hw. assert (EL : map fst (cut O) = pw ++ [w]). { rewrite Ec, map_app. unfold plain. rewrite map_map. cbn [map fst]. rewrite map_id. reflexivity. }
    assert (HB : exists B, map fst (cut O) = B ++ [65534]).
    { destruct forced; cbn [frame_result] in Fr.
      - destruct (Fr (concat A ++ repeat 0 (Z.to_nat (W * H - len (concat A)))) _ eq_refl) as (j & Hj).
        { rewrite len_app. unfold len at 2. rewrite repeat_length. lia. }
        rewrite Hj. unfold framed. exists (repeat 0xFFFF 8 ++ firstn j (payload t (bd c) W (concat A ++ repeat 0 (Z.to_nat (W * H - len (concat A))))) ++ repeat 65534 7). rewrite <- !app_assoc. reflexivity.
      - exfalso. destruct Fr as [HLf Hm]. rewrite HO, Hm in R. assert (Hb2 : 2 <= bd c) by (unfold cfg_ok in Hc; lia). destruct (C25_decodable t (bd c) W H (concat A) tl ltac:(lia) Ht Hp HLf HF) as [D1 D2]. congruence. }
    destruct HB as (B & HB). rewrite EL in HB. apply app_inj_tail in HB. tauto. }
  pose proof (C82_not_early c t sizes allows i3 p l2 Hc Ho Ht Hf Ha Hi HE HL k A O Hlen H0 H1 HIn). lia.
Qed.

(* ------------------------------------------------------------------ as shipped *)

Fixpoint rf_after (rf : rf_st) (l : list (bool * list Z * bool)) : rf_st := match l with [] => rf | _ :: r => rf_after (rf_step rf) r end.
Lemma rf_ins_app : forall a rf b, bt_rf_ins rf (a ++ b) = bt_rf_ins rf a ++ bt_rf_ins (rf_after rf a) b.
Proof. induction a as [|[[v px] bs] a IH]; intros; [reflexivity|]. cbn [app bt_rf_ins rf_after]. rewrite IH. reflexivity. Qed.
Lemma rf_ins_len : forall l rf, len (bt_rf_ins rf l) = len l.
Proof. induction l as [|[[v px] bs] l IH]; intros; [reflexivity|]. cbn [bt_rf_ins]. unfold len in *. cbn [length]. specialize (IH (rf_step rf)). lia. Qed.
Lemma rf_ins_ready : forall l rf, len (filter (fun i => negb (bi_busy i)) (bt_rf_ins rf l)) = len (filter (fun x => negb (snd x)) l).
Proof. induction l as [|[[v px] bs] l IH]; intros; [reflexivity|]. cbn [bt_rf_ins filter bi_busy snd]. unfold len in *. specialize (IH (rf_step rf)). destruct (negb bs); cbn [length]; lia. Qed.

(* beta_integration.py as shipped (schedules of (source valid, group, sink busy)): 6666002 cycles after a group of the frame was taken, with the first word
   out, 17 ready cycles end the frame. *)
Theorem C82_shipped : forall (p l2 l3 : list (bool * list Z * bool)) i3,
  is_reset beta_cfg i3 -> (forall x, In x (p ++ l2 ++ l3) -> group_ok 12 2 (snd (fst x))) ->
  let log l := bt_log beta_cfg (init_huff_table 12) [] [] (bt_reset_with i3) (bt_rf_ins rf_init l) in
  forall k A O A1 O1 A2 O2,
  length (log p) = S k -> nth_error (log p) k = Some (A, O) -> A <> [] ->
  6666002 <= len l2 -> nth_error (log (p ++ l2)) k = Some (A1, O1) -> O1 <> [] ->
  17 <= len (filter (fun x => negb (snd x)) l3) -> nth_error (log (p ++ l2 ++ l3)) k = Some (A2, O2) ->
  existsb snd O2 = true.
Proof.
  intros p l2 l3 i3 Hi Hs log k A O A1 O1 A2 O2 Hlen H0 HA H2 H1 HO H3 H4. destruct (std_mem beta_cfg eq_refl) as (Hm & Ht & Hp). cbn [bd beta_cfg] in Hm, Ht, Hp.
  unfold log in *. rewrite Hm in *. pose proof (shipped_env (p ++ l2 ++ l3) i3 (mem_of 12 (std_table 12)) Hi Hs) as HE. pose proof (shipped_allowed (p ++ l2 ++ l3) i3 (mem_of 12 (std_table 12)) Hi) as HL.
  rewrite !rf_ins_app in *. rewrite <- (rf_ins_ready l3 (rf_after (rf_after rf_init p) l2)) in H3. rewrite <- (rf_ins_len l2 (rf_after rf_init p)) in H2.
  apply (C82_deadline beta_cfg (std_table 12) (fun _ => (4096, 3072)) (fun _ => 6666000) i3 (bt_rf_ins rf_init p) (bt_rf_ins (rf_after rf_init p) l2) (bt_rf_ins (rf_after (rf_after rf_init p) l2) l3)) with (k := k) (A := A) (O := O) (A1 := A1) (O1 := O1) (A2 := A2); try reflexivity; try assumption.
  - intros n. unfold beta_frame_ok, frame_ok. cbn. lia.
  - intros n. lia.
Qed.

(* the run of C25_example with 30 allowed cycles: after 10 cycles the first frame has taken a group; 32 cycles later its first word is out; 22 more cycles have
   18 ready ones, and the frame is over (cut short). With 1000 allowed cycles the
   first frame is done after 80 cycles, complete. *)
Example C82_example :
  let p := map (C25_in 30) (seq 0 10) in let l2 := map (C25_in 30) (seq 10 32) in let l3 := map (C25_in 30) (seq 42 22) in
  let log l := bt_log beta_cfg (mem_of 12 (std_table 12)) [] [] (bt_init beta_cfg) l in
  bt_env beta_cfg (mem_of 12 (std_table 12)) (fun _ => (6, 3)) 0 (bt_init beta_cfg) (p ++ l2 ++ l3) /\
  allowed_env beta_cfg (mem_of 12 (std_table 12)) (fun _ => 30) 0 [] (bt_init beta_cfg) (p ++ l2 ++ l3) /\
  (length (log p), map (fun x => len (fst x)) (log p)) = (1%nat, [1]) /\ len l2 = 30 + 2 /\ map (fun x => len (snd x)) (log (p ++ l2)) = [9] /\
  len (filter (fun i => negb (bi_busy i)) l3) = 18 /\ map (fun x => existsb snd (snd x)) (firstn 1 (log (p ++ l2 ++ l3))) = [true] /\
  nth_error (C25_log 1000 0) 0 = Some ([], []) /\ length (C25_log 1000 81) = 2%nat /\ map (fun x => snd (deframe (map fst (snd x)))) (firstn 1 (C25_log 1000 81)) = [Some false].
Proof.
  split; [|split].
  - apply bt_env_all. intros i Hi _. rewrite <- !map_app in Hi. apply in_map_iff in Hi. destruct Hi as (k & <- & _). split; [|split; reflexivity].
    split; [reflexivity|]. assert (0 <= Z.of_nat k * 1237 mod 4096 < 4096) by (apply Z.mod_pos_bound; lia).
    assert (0 <= Z.of_nat k * 551 mod 4096 < 4096) by (apply Z.mod_pos_bound; lia).
    cbn [bi_px C25_in bd beta_cfg]. repeat constructor; unfold in_range; change (2 ^ 12) with 4096; lia.
  - apply allowed_all. intros i Hi. rewrite <- !map_app in Hi. apply in_map_iff in Hi. destruct Hi as (k & <- & _). reflexivity.
  - vm_compute. repeat split.
Qed.
