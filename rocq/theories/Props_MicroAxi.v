(* C75: micro_integration_axistream.py, the one-pixel core behind AXI-stream pins. *)
From Verif Require Import Bits Spec Spec_Core Spec_Beta M_Config M_I3 M_Fix M_Markers M_Beta M_Micro P_Encode P_Live P_I3 Props_Core Props_Micro.
Ltac Zify.zify_post_hook ::= idtac.

(* ---------- specification: the beats of the two streams (tvalid and tready in the same cycle) ---------- *)
Definition beats_in (l : list ma_in) (o : list ma_out) : list Z :=
  flat_map (fun x => if ma_tvalid (fst x) && mao_sready (snd x) then [ma_tdata (fst x)] else []) (combine l o).
Definition beats_out (l : list ma_in) (o : list ma_out) : list (Z * bool) :=
  flat_map (fun x => if mao_tvalid (snd x) && ma_mready (fst x) then [(mao_tdata (snd x), mao_tlast (snd x))] else []) (combine l o).
(* two cycles with the same input, up to s_tlast and the upper 20 bits of s_tdata *)
Definition same_in (i j : ma_in) : Prop :=
  ma_tvalid i = ma_tvalid j /\ ma_tdata i mod 2 ^ 12 = ma_tdata j mod 2 ^ 12 /\ ma_mready i = ma_mready j /\
  ma_w i = ma_w j /\ ma_h i = ma_h j /\ ma_allowed i = ma_allowed j.

Lemma slice12 d : slice 0 12 d = d mod 2 ^ 12.
Proof. unfold slice. change (2 ^ 0) with 1. rewrite Z.div_1_r. reflexivity. Qed.

Lemma ma_accepted mem : forall l s, map (fun d => [d mod 2 ^ 12]) (beats_in l (ma_trace mem s l)) = mc_accepted micro_cfg mem s (map ma_bt l).
Proof.
  induction l as [|i l IH]; intros s; [reflexivity|]. cbn [ma_trace map mc_accepted]. unfold beats_in in *. cbn [combine flat_map fst snd].
  rewrite map_app, IH. f_equal. unfold bt_took, bt_accept, ma_pins. cbn [mao_sready ma_bt bi_valid bi_px]. rewrite slice12. destruct (ma_tvalid i && negb (bt_nready s)); reflexivity.
Qed.
Lemma ma_outs mem : forall l s, beats_out l (ma_trace mem s l) = mc_outs micro_cfg mem s (map ma_bt l).
Proof.
  induction l as [|i l IH]; intros s; [reflexivity|]. cbn [ma_trace map mc_outs]. unfold beats_out in *. cbn [combine flat_map fst snd].
  rewrite IH. f_equal. unfold mc_gave, ma_pins. cbn [mao_tvalid mao_tdata mao_tlast]. change (bi_busy (ma_bt i)) with (negb (ma_mready i)). rewrite negb_involutive. reflexivity.
Qed.

(* C75.  The pins react only to the low 12 bits of s_tdata, and not at all to s_tlast: two runs that differ only there are
   identical on all output pins in every cycle, from every state. *)
Theorem C75_ignored : forall mem s l l', Forall2 same_in l l' -> ma_trace mem s l = ma_trace mem s l'.
Proof.
  intros mem s l l' H. revert s. induction H as [|i j l l' (A & B & C & D & E & F) _ IH]; intros s; [reflexivity|]. cbn [ma_trace].
  assert (X : ma_bt i = ma_bt j) by (unfold ma_bt; rewrite !slice12, A, B, C, D, E, F; reflexivity).
  unfold ma_pins, ma_step. rewrite X. f_equal. apply IH.
Qed.

(* C75.  Every beat of the output stream that carries m_tlast is a forced-end marker: no frame ever ends normally. *)
Theorem C75_tlast : forall mem i3 l w, In (w, true) (beats_out l (ma_trace mem (bt_reset_with i3) l)) -> w = 0xFFFE.
Proof. intros mem i3 l w. rewrite ma_outs. apply C30_never_normal. Qed.

Lemma ma_px_ok j W H : ma_w j = W /\ ma_h j = H -> group_ok (bd micro_cfg) (ps micro_cfg) (bi_px (ma_bt j)) /\ bi_w (ma_bt j) = W /\ bi_h (ma_bt j) = H.
Proof.
  intros [A B]. split; [|auto]. split; [reflexivity|]. constructor; [|constructor]. unfold in_range. cbn [ma_bt bi_px micro_cfg bd].
  pose proof (slice_range 0 12 (ma_tdata j) ltac:(lia)) as R. exact R.
Qed.
Lemma concat_single (f : Z -> Z) (l : list Z) : concat (map (fun d : Z => [f d]) l) = map f l.
Proof. induction l as [|x l IH]; cbn; [reflexivity|]. rewrite IH. reflexivity. Qed.

(* C75.  In every frame the first payload words are missing.  W x H is the size in the registers, l the cycles before the first
   beat with m_tlast, which is transferred in cycle i; the beats of the frame are a header, the payload words p, and a forced trailer; with
   the missing words in front, p agrees with the stuffed reference encoding of the samples (the low 12 bits of the input beats, in order,
   followed by whatever the source would have sent to complete the frame; the last word repeated if the whole frame went in). *)
Theorem C75_words_lost : forall t W H i3 l i w,
  table_ok 12 t -> beta_frame_ok micro_cfg W H -> is_reset micro_cfg i3 ->
  let out k := ma_trace (mem_of 12 t) (bt_reset_with i3) k in
  (forall j, In j (l ++ [i]) -> ma_tvalid j = true -> ma_w j = W /\ ma_h j = H) ->
  existsb snd (beats_out l (out l)) = false ->
  beats_out (l ++ [i]) (out (l ++ [i])) = beats_out l (out l) ++ [(w, true)] ->
  exists lost p, lost <> [] /\ map fst (beats_out (l ++ [i]) (out (l ++ [i]))) = framed p true /\
    forall X more, X = map (fun d => d mod 2 ^ 12) (beats_in (l ++ [i]) (out (l ++ [i]))) ++ more -> len X = W * H ->
      exists n rest, (n = 0%nat \/ more = []) /\
        flat_map bytes_of (lost ++ p) ++ rest = stuff (flat_map bytes_of (repeat_last n (pack 16 (ref_encode t 12 W [] X)))).
Proof.
  intros t W H i3 l i w Ht Hf Hi out Hl He Hg. unfold out in *. clear out. rewrite !ma_outs, map_app in *. cbn [map] in *. rewrite Hg.
  assert (E : forall l s, mc_outs micro_cfg (mem_of 12 t) s (l ++ [ma_bt i]) = mc_outs micro_cfg (mem_of 12 t) s l ++ mc_gave (mc_run micro_cfg (mem_of 12 t) s l) (ma_bt i)).
  { clear. induction l as [|a l IH]; intros s; cbn [app mc_outs mc_run]; [rewrite app_nil_r; reflexivity|]. rewrite IH, app_assoc. reflexivity. }
  rewrite E in Hg. apply app_inv_head in Hg.
  destruct (C30_words_lost micro_cfg t W H i3 (map ma_bt l) (ma_bt i) w eq_refl eq_refl Ht Hf Hi) as (lost & p & H1 & H2 & H3).
  - intros j Hj Hv. change [ma_bt i] with (map ma_bt [i]) in Hj. rewrite <- map_app in Hj. apply in_map_iff in Hj. destruct Hj as (j0 & <- & Hj). apply ma_px_ok. apply Hl; assumption.
  - exact He.
  - exact Hg.
  - exists lost, p. split; [exact H1|]. split; [rewrite map_app; exact H2|]. intros X more HX HL. apply (H3 X more); [|exact HL].
    rewrite HX. f_equal. change [ma_bt i] with (map ma_bt [i]). rewrite <- map_app. cbn [bd micro_cfg]. rewrite <- ma_accepted, concat_single. reflexivity.
Qed.

(* An 8 x 4 frame, the upper bits of s_tdata and s_tlast filled with noise: 32 beats in, and the single beat with m_tlast is 0xFFFE. *)
Definition C75_in (k : nat) : ma_in :=
  {| ma_tvalid := true; ma_tdata := Z.of_nat k * 123457 mod 2 ^ 32; ma_tlast := Nat.even k; ma_mready := true; ma_w := 8; ma_h := 4; ma_allowed := 400 |}.
Example C75_example :
  let l := map C75_in (seq 0 420) in let s := bt_init micro_cfg in
  let o := beats_out l (ma_trace (mem_of 12 (std_table 12)) s l) in
  len (beats_in l (ma_trace (mem_of 12 (std_table 12)) s l)) = 32 /\ filter snd o = [(0xFFFE, true)] /\ last o (0, false) = (0xFFFE, true).
Proof. vm_compute. repeat split. Qed.
