(* Invariant of the complete beta core: the stages' invariants, each stage's transfers being the
   next stage's input. *)
From Verif Require Import Bits Spec Spec_Core Spec_Beta M_Config M_Signals M_Predictor M_Encode M_I1 M_Fifo M_Converter M_VBits M_I3 M_Fix M_Markers M_Beta
  P_Fifo P_Encode P_I1 P_Tokens P_Converter P_VBits P_I3 P_Decode P_Run P_Live P_Fix P_Markers Props_Core Props_Frame P_Pack.
Ltac Zify.zify_post_hook ::= idtac.

(* ---------- small facts ---------- *)

Lemma mk_inv_mono s acc outs f f' : mk_inv s acc outs f -> (f = true -> f' = true) -> mk_inv s acc outs f'.
Proof.
  intros I Hf. unfold mk_inv in *. destruct (mk_fsm_st s); try exact I.
  - destruct I as (A & B & C & D). auto.
  - destruct I as (A & B & C). auto.
Qed.

Lemma fe_fend_mono s v a : fe_fend s = true -> fe_fend (fe_step s v a) = true.
Proof. intros H. unfold fe_step. destruct (fe_fsm_st s); cbn [fe_fend]; auto. Qed.

Lemma offered_range c t W H G A P done hist s : i3_inv c t W H G A P done hist s ->
  i3_valid_out s = true -> wrange (outb c) (i3_data_out s).
Proof.
  intros I Hv. pose proof (v_done _ _ _ _ _ _ _ _ _ _ I) as D. unfold vb_done in D. unfold i3_valid_out, i3_data_out in *.
  assert (K : (exists pw, done ++ offered (s_vb s) = plain pw /\ Forall (wrange (outb c)) pw /\ P = map Some (wbits (outb c) pw)) ->
     wrange (outb c) (vo_data (vb_out (s_vb s)))).
  { intros (pw & D1 & D2 & _). unfold offered in D1. rewrite Hv in D1. rewrite Forall_forall in D2. apply D2.
    rewrite <- (plain_fst pw), <- D1. rewrite map_app. apply in_or_app. right. left. reflexivity. }
  destruct (vo_state (vb_out (s_vb s))); [apply K, D..|].
  destruct D as (pw & w & bs & _ & -> & (HF & _) & _). rewrite Forall_forall in HF. apply HF. apply in_or_app. right. left. reflexivity.
Qed.

Lemma diff_bits_pos bd t d : 0 <= bd -> table_ok bd t -> Z.abs d < 2 ^ bd -> (1 <= length (encode_diff t d))%nat.
Proof.
  intros Hb [Hl HF] Hd. pose proof (category_le bd d Hb Hd) as Hc.
  assert (Hc0 : 0 <= category d) by (unfold category; destruct (d =? 0); pose proof (Z.log2_nonneg (Z.abs d)); lia).
  unfold encode_diff. rewrite app_length. unfold code_bits.
  destruct (nth_error t (Z.to_nat (category d))) as [[n code]|] eqn:E.
  - apply nth_error_In in E. rewrite Forall_forall in HF. specialize (HF _ E). cbn [fst] in HF. pose proof (bitsz_length n code ltac:(lia)). lia.
  - apply nth_error_None in E. lia.
Qed.

Lemma ref_encode_min bd W t px : 1 <= bd -> table_ok bd t -> forall img, Forall (in_range bd) img -> Forall (in_range bd) px ->
  (length px <= length (ref_encode t bd W img px))%nat.
Proof.
  intros Hb Ht. induction px as [|p px IH]; intros img Hi Hp; [cbn; lia|].
  apply Forall_cons_iff in Hp. destruct Hp as [Hp1 Hp]. cbn [ref_encode length]. rewrite app_length.
  specialize (IH (img ++ [p]) ltac:(apply Forall_app; auto) Hp).
  pose proof (prediction_range bd W img (Z.of_nat (length img)) Hb Hi) as Hr. unfold in_range in *.
  pose proof (diff_bits_pos bd t (p - prediction bd W img (Z.of_nat (length img))) ltac:(lia) Ht ltac:(lia)). lia.
Qed.

Lemma words_of_len_n : forall n l, (length l <= n)%nat -> (length l <= 2 * length (words_of l))%nat.
Proof.
  induction n as [|n IH]; intros l Hn; [destruct l; cbn in *; lia|]. destruct l as [|a [|b r]]; cbn [words_of length]; try lia.
  specialize (IH r). cbn [length] in Hn. lia.
Qed.
Lemma words_of_len l : (length l <= 2 * length (words_of l))%nat.
Proof. apply (words_of_len_n (length l)). lia. Qed.
Lemma stuff_len l : (length l <= length (stuff l))%nat.
Proof. induction l as [|b l IH]; [cbn; lia|]. unfold stuff in *. cbn [flat_map]. rewrite app_length. assert (1 <= length (stuff_byte b))%nat by (unfold stuff_byte; destruct (b =? 255); cbn; lia). cbn [length]. lia. Qed.
Lemma flat_bytes_len ws : length (flat_map bytes_of ws) = (2 * length ws)%nat.
Proof. induction ws as [|w ws IH]; [reflexivity|]. cbn [flat_map bytes_of app length]. lia. Qed.

(* if the very first word offered by the stuffing stage is the end word, it got one word only *)
Lemma fx_first_end s acc : fx_inv s acc [] -> f2_vout (snd s) = true -> f2_eout (snd s) = true ->
  exists x, cut acc = [(x, true)].
Proof.
  intros I Hv He.
  pose proof (fx_step_ok s {| fxi_valid := false; fxi_data := 0; fxi_end := false; fxi_busy := false |} acc [] I ltac:(discriminate)) as J.
  unfold fx_took, fx_gave in J. cbn [fxi_valid fxi_busy andb negb app] in J. rewrite Hv, He, app_nil_r in J. cbn [andb negb] in J.
  destruct (fx_obs _ _ _ J) as [K _]. destruct (K eq_refl) as [Ha Hw]. cbn [cut map fst] in Hw.
  destruct (cut_exists_end acc Ha) as (pw & w & Hc). rewrite Hc in *. rewrite map_fst_cut in Hw.
  destruct pw as [|y pw]; [exists w; reflexivity|]. exfalso.
  apply (f_equal (@length Z)) in Hw. pose proof (words_of_len (stuff (flat_map bytes_of ((y :: pw) ++ [w])))) as X.
  pose proof (stuff_len (flat_map bytes_of ((y :: pw) ++ [w]))) as Y. rewrite flat_bytes_len, app_length in Y. cbn [length] in *. lia.
Qed.

(* ---------- observations on the markers stage (mirrors C22) ---------- *)

Lemma mk_obs s outs acc f : mk_inv s acc outs f ->
  exists forced : bool,
    (forced = true -> f = true /\ existsb snd acc = false) /\
    (existsb snd outs = true ->
       map fst (cut outs) = framed (map fst acc) forced /\ existsb snd acc = negb forced /\ cut acc = acc /\
       mk_fsm_st s = if forced then MK_FDONE else MK_DONE) /\
    (existsb snd outs = false ->
       exists rest, map fst outs ++ rest = framed (map fst acc) forced).
Proof.
  intros I. unfold mk_inv in I.
  assert (Hpre : forall ws, existsb snd (plain ws : list (Z * bool)) = true -> False) by (intros ws X; rewrite existsb_plain in X; discriminate).
  assert (Hr : forall (x : Z) a b, (a + b = 8)%nat -> repeat x a ++ repeat x b = repeat x 8) by (intros x a b Hab; rewrite <- repeat_app, Hab; reflexivity).
  destruct (mk_fsm_st s) eqn:Est.
  - destruct I as [Ha Ho]. exists false. rewrite Ha, Ho. split; [discriminate|]. split; [discriminate|]. intros _. eexists. reflexivity.
  - destruct I as (Ha & Hc & Ho). exists false. rewrite Ha, Ho. split; [discriminate|]. split; [intros X; destruct (Hpre _ X)|]. intros _.
    rewrite plain_fst. exists (repeat 0xFFFF (Z.to_nat (mk_ctr s)) ++ repeat 0xFFFF 8). unfold framed. cbn [map app]. rewrite app_assoc, Hr by lia. reflexivity.
  - destruct I as (Hc & Ho & ws & w & Ha). exists false. split; [discriminate|]. split; [rewrite Ho; intros X; destruct (Hpre _ X)|]. intros _.
    rewrite Ho, plain_fst. eexists (repeat 0xFFFF (Z.to_nat (mk_ctr s))). unfold framed. rewrite <- !app_assoc, Hr by lia. reflexivity.
  - destruct I as (Hc & Ho & (ws & Ha) & Hf). exists true. split; [intros _; split; [exact Hf|rewrite Ha; apply existsb_plain]|]. split; [rewrite Ho; intros X; destruct (Hpre _ X)|]. intros _.
    rewrite Ho, plain_fst. eexists (repeat 0xFFFE (Z.to_nat (mk_ctr s))). unfold framed. rewrite <- !app_assoc, Hr by lia. reflexivity.
  - destruct I as (Hc & Ho & _). exists false. split; [discriminate|]. split; [rewrite Ho; intros X; destruct (Hpre _ X)|]. intros _.
    rewrite Ho, plain_fst. exists (repeat 0xFFFF 8). unfold framed. rewrite <- app_assoc. reflexivity.
  - destruct I as (Ho & ws & w & Ha). exists false. split; [discriminate|]. assert (Hca : cut acc = acc) by (rewrite Ha; apply cut_plain_end).
    split.
    + intros _. split; [|split; [|split; [assumption|reflexivity]]].
      * rewrite Ho, map_app, plain_fst. unfold framed, mk_hdr. rewrite <- !app_assoc. reflexivity.
      * rewrite Ha, existsb_app. cbn. apply orb_true_r.
    + intros X. rewrite <- existsb_cut, Ho, existsb_app in X. cbn in X. rewrite orb_true_r in X. discriminate.
  - destruct I as (Ho & (ws & Ha) & Hf). exists true. split; [intros _; split; [exact Hf|rewrite Ha; apply existsb_plain]|].
    assert (Hca : cut acc = acc) by (apply cut_noend; rewrite Ha; apply existsb_plain).
    split.
    + intros _. split; [|split; [|split; [assumption|reflexivity]]].
      * rewrite Ho, map_app, plain_fst. unfold framed, mk_hdr. rewrite <- !app_assoc. reflexivity.
      * rewrite Ha, existsb_plain. reflexivity.
    + intros X. rewrite <- existsb_cut, Ho, existsb_app in X. cbn in X. rewrite orb_true_r in X. discriminate.
Qed.

(* ---------- the invariant ---------- *)

(* A: groups accepted in this frame; O: words handed over in this frame *)
Definition bt_inv (c : config) (t : table) (W H : Z) (A : list (list Z)) (O : list (Z * bool)) (s : bt_st) : Prop :=
  exists P hist d1 d2,
    i3_inv c t W H (W / ps c) A P d1 hist (b_i3 s) /\
    fx_inv (b_f1 s, b_f2 s) d1 d2 /\
    mk_inv (b_mk s) d2 O (fe_fend (b_fe s)) /\
    b_rst s = existsb snd O.

Definition bt_hyp (c : config) (t : table) (W H : Z) : Prop :=
  cfg_ok c = true /\ outb c = 16 /\ table_ok (bd c) t /\ beta_frame_ok c W H.

Lemma bt_inv_init c t W H i3 : bt_hyp c t W H -> is_reset c i3 -> bt_inv c t W H [] [] (bt_reset_with i3).
Proof.
  intros (Hc & Ho & Ht & [Hf Hb]) (st1 & d1 & st2 & d2 & rps & L1 & L2 & L3 & ->).
  destruct (frame_geom c W H Hc Hf) as [Hg HG4].
  exists [], [], [], []. split; [|split; [|split]].
  - apply (i3_inv_reset c t W H (W / ps c) st1 d1 st2 d2 rps Hc Hg HG4 L1 L2 L3).
  - exact fx_inv_init.
  - exact mk_inv_init.
  - reflexivity.
Qed.

Lemma full_bits c t W H A P d1 hist s : bt_hyp c t W H -> i3_inv c t W H (W / ps c) A P d1 hist s ->
  existsb snd d1 = true -> exists pw w, cut d1 = plain pw ++ [(w, true)] /\ pw <> [] /\
    len (concat A) = W * H /\ map fst (cut d1) = pack 16 (ref_encode t (bd c) W [] (concat A)).
Proof.
  intros (Hc & Ho & Ht & [Hf Hb]) I He. destruct (inv_ended _ _ _ _ _ _ _ _ _ _ I He) as (Hl & pw & w & Hcut & Hp).
  destruct (inv_pixels _ _ _ _ _ _ _ _ _ _ I) as [J1 J2]. destruct (frame_geom c W H Hc Hf) as [(Q1 & Q2 & _) _].
  assert (HL : len (concat A) = W * H) by (rewrite J2, Hl; nia).
  assert (Hb2 : 2 <= bd c) by (unfold cfg_ok in Hc; lia).
  exists pw, w. split; [exact Hcut|]. rewrite Ho in Hp. split; [|split; [exact HL|]].
  - intros ->. destruct Hp as (_ & pad & Hp1 & Hp2). apply (f_equal (@length bool)) in Hp2. rewrite app_length, repeat_length in Hp2.
    cbn [app map concat] in Hp2. rewrite app_nil_r in Hp2. pose proof (bitsz_length 16 w ltac:(lia)) as X.
    pose proof (ref_encode_min (bd c) W t (concat A) ltac:(lia) Ht [] ltac:(constructor) J1) as Y. unfold len in HL. lia.
  - rewrite Hcut, map_fst_cut. apply packs_pack; [lia|exact Hp].
Qed.

Lemma bt_inv_next c t W H A O s i : bt_hyp c t W H -> bt_ok c W H s i -> bt_inv c t W H A O s ->
  bt_inv c t W H (A ++ bt_took s i) (O ++ bt_gave s i) (bt_next c (mem_of (bd c) t) s i).
Proof.
  intros HY Hok (P & hist & d1 & d2 & I1 & I2 & I3 & I4). destruct HY as (Hc & Ho & Ht & [Hf Hb]) eqn:EHY. clear EHY.
  destruct (frame_geom c W H Hc Hf) as [Hg HG4].
  pose proof (i3_inv_step c t W H (W / ps c) A P d1 hist (b_i3 s) (bt_i3_in s i) Hc Ht Hg HG4 Hok I1) as J1.
  assert (J2 : fx_inv (fx_step (b_f1 s, b_f2 s) (bt_fx_in s i)) (d1 ++ fx_took (b_f1 s, b_f2 s) (bt_fx_in s i)) (d2 ++ fx_gave (b_f1 s, b_f2 s) (bt_fx_in s i))).
  { apply fx_step_ok; [exact I2|]. intros Hv _. pose proof (offered_range _ _ _ _ _ _ _ _ _ _ I1 Hv) as R. rewrite Ho in R. exact R. }
  assert (J3 : mk_inv (mk_step (b_mk s) (bt_mk_in s i)) (d2 ++ mk_took (b_mk s) (bt_mk_in s i)) (O ++ mk_gave (b_mk s) (bt_mk_in s i)) (fe_fend (b_fe s) || fe_fend (b_fe s))).
  { apply mk_step_ok; [exact I3|]. intros -> Hv He. exfalso. unfold bt_mk_in in Hv, He. cbn [mki_valid mki_end] in Hv, He.
    destruct (fx_first_end (b_f1 s, b_f2 s) d1 I2 Hv He) as (x & Hx).
    assert (Hd : existsb snd d1 = true) by (rewrite <- existsb_cut, Hx; reflexivity).
    destruct (full_bits c t W H A P d1 hist (b_i3 s) HY I1 Hd) as (pw & w & Hcut & Hne & _). rewrite Hcut in Hx. destruct pw as [|a [|b pw]]; [contradiction|discriminate|discriminate]. }
  exists (P ++ vb_emit c (s_vb (b_i3 s)) (in_busy (bt_i3_in s i))), (i3_new c (W / ps c) A (b_i3 s) (bt_i3_in s i) :: hist),
    (d1 ++ transferred (s_vb (b_i3 s)) (f1_obusy (b_f1 s))), (d2 ++ mk_took (b_mk s) (bt_mk_in s i)).
  split; [exact J1|]. split; [|split].
  - unfold bt_next. cbn [b_f1 b_f2]. rewrite <- surjective_pairing. exact J2.
  - unfold bt_next. cbn [b_mk b_fe]. eapply mk_inv_mono; [exact J3|]. rewrite orb_diag. apply fe_fend_mono.
  - unfold bt_next. cbn [b_rst]. unfold ar_step, bt_gave. rewrite I4, existsb_app. rewrite orb_comm. f_equal.
    destruct (mko_valid (bt_out s i)), (bi_busy i), (mko_end (bt_out s i)); reflexivity.
Qed.

Lemma i3_keep_is_reset c t W H G A P d1 hist s : i3_inv c t W H G A P d1 hist s -> is_reset c (i3_keep_reset c s).
Proof.
  intros I. pose proof (v_ljf _ _ _ _ _ _ _ _ _ _ I) as F1. pose proof (v_cff _ _ _ _ _ _ _ _ _ _ I) as F2.
  pose proof (v_i1 _ _ _ _ _ _ _ _ _ _ I) as F3. unfold i1_inv in F3. cbv zeta in F3.
  unfold is_reset, i3_keep_reset. eexists _, _, _, _, _. split; [|split; [|split; [|reflexivity]]].
  - unfold fifo_inv in F1. tauto.
  - unfold fifo_inv in F2. tauto.
  - destruct F3 as (_ & _ & _ & _ & _ & _ & _ & _ & _ & X & _). rewrite map_length. exact X.
Qed.

Lemma bt_reset_ok c t W H A O s i : bt_hyp c t W H -> bt_ok c W H s i -> bt_inv c t W H A O s -> b_rst s = true ->
  exists i3, is_reset c i3 /\ bt_step c (mem_of (bd c) t) s i = bt_reset_with i3.
Proof.
  intros HY Hok I Hr. unfold bt_step. rewrite Hr. destruct (bt_inv_next c t W H A O s i HY Hok I) as (P & hist & d1 & d2 & J & _).
  eexists. split; [|reflexivity]. eapply i3_keep_is_reset. exact J.
Qed.

(* ---------- what the invariant says about the words handed over ---------- *)

Lemma bt_payload_prefix c t W H A P d1 hist s d2 fs X more : bt_hyp c t W H ->
  i3_inv c t W H (W / ps c) A P d1 hist s -> fx_inv fs d1 d2 -> existsb snd d2 = false ->
  X = concat A ++ more -> len X = W * H -> exists k, map fst d2 = firstn k (payload t (bd c) W X).
Proof.
  intros HY I I2 He HX HL. assert (Hlt : forall (a b : list Z), exists k, a = firstn k (a ++ b)) by (intros a b; exists (length a); symmetry; apply firstn_app_exact).
  destruct (fx_obs _ _ _ I2) as [_ Q]. destruct (Q He) as (Hok & rest & E & _).
  assert (Hpre : exists tl, pack 16 (ref_encode t (bd c) W [] X) = map fst (cut d1) ++ tl).
  { destruct (existsb snd d1) eqn:E1.
    - destruct (full_bits c t W H A P d1 hist s HY I E1) as (pw & w & Hcut & _ & HL' & Hm).
      assert (more = []) as ->. { rewrite HX, len_app in HL. destruct more; [reflexivity|]. exfalso. rewrite HL' in HL. unfold len in HL. cbn [length] in HL. lia. }
      rewrite app_nil_r in HX. subst X. rewrite Hm. exists []. rewrite app_nil_r. reflexivity.
    - destruct HY as (Hc & Ho & _). destruct (inv_running _ _ _ _ _ _ _ _ _ _ Hc I E1) as (pw & r & Hd & HF & Hx).
      rewrite (cut_noend _ E1), Hd, plain_fst, HX, ref_encode_app, Hx, <- app_assoc. rewrite Ho in HF. rewrite Ho, pack_app by (try lia; exact HF). eauto. }
  destruct Hpre as (tl & Htl). unfold payload. rewrite Htl, flat_map_app, stuff_app, E, <- app_assoc, words_of_app_ok by exact Hok. apply Hlt.
Qed.

Lemma bt_inv_ended c t W H A O s : bt_hyp c t W H -> bt_inv c t W H A O s -> existsb snd O = true ->
  exists forced, frame_result t (bd c) W H A O forced /\ (forced = true -> fe_fend (b_fe s) = true) /\
    mk_fsm_st (b_mk s) = if forced then MK_FDONE else MK_DONE.
Proof.
  intros HY (P & hist & d1 & d2 & I1 & I2 & I3 & _) He. destruct (mk_obs _ _ _ _ I3) as (forced & Hf & HE & _).
  destruct (HE He) as (Hm & Hd & Hcut & Hst). exists forced. split; [|split; [intros X; apply (Hf X)|exact Hst]]. destruct forced; cbn [frame_result negb] in *.
  - intros X more HX HL. destruct (bt_payload_prefix c t W H A P d1 hist _ d2 _ X more HY I1 I2 Hd HX HL) as (k & Hk). exists k. rewrite Hm, Hk. reflexivity.
  - destruct (fx_obs _ _ _ I2) as [Q _]. destruct (Q Hd) as [Hd1 Hw]. destruct (full_bits c t W H A P d1 hist _ HY I1 Hd1) as (pw & w & _ & _ & HL & Hp).
    split; [exact HL|]. rewrite Hm. f_equal. rewrite <- Hcut, Hw, Hp. reflexivity.
Qed.

Lemma bt_inv_running c t W H A O s : bt_hyp c t W H -> bt_inv c t W H A O s -> existsb snd O = false ->
  forall X more, X = concat A ++ more -> len X = W * H ->
    exists k forced rest, map fst O ++ rest = framed (firstn k (payload t (bd c) W X)) forced /\ (forced = true -> fe_fend (b_fe s) = true).
Proof.
  intros HY (P & hist & d1 & d2 & I1 & I2 & I3 & _) He X more HX HL. destruct (mk_obs _ _ _ _ I3) as (forced & Hf & _ & HR).
  destruct (HR He) as (rest & Hr). destruct (existsb snd d2) eqn:Ed.
  - destruct (fx_obs _ _ _ I2) as [Q _]. destruct (Q Ed) as [Hd1 Hw]. destruct (full_bits c t W H A P d1 hist _ HY I1 Hd1) as (pw & w & _ & _ & HL' & Hp).
    assert (more = []) as ->. { rewrite HX, len_app in HL. destruct more; [reflexivity|]. exfalso. rewrite HL' in HL. unfold len in HL. cbn [length] in HL. lia. }
    rewrite app_nil_r in HX. subst X. assert (forced = false) as ->. { destruct forced; [|reflexivity]. destruct (Hf eq_refl) as [_ Y]. rewrite Y in Ed. discriminate. }
    assert (Hc2 : cut d2 = d2).
    { unfold mk_inv in I3. destruct (mk_fsm_st (b_mk s)).
      - destruct I3 as [-> _]. reflexivity.
      - destruct I3 as [-> _]. reflexivity.
      - destruct I3 as (_ & _ & ws & x & ->). apply cut_plain_end.
      - destruct I3 as (_ & _ & (ws & ->) & _). apply cut_noend, existsb_plain.
      - destruct I3 as (_ & _ & ws & [[-> _]|(x & -> & _)]); [apply cut_noend, existsb_plain|apply cut_plain_end].
      - destruct I3 as (_ & ws & x & ->). apply cut_plain_end.
      - destruct I3 as (_ & (ws & ->) & _). apply cut_noend, existsb_plain. }
    exists (length (payload t (bd c) W (concat A))), false, rest. split; [|discriminate]. rewrite firstn_all, Hr. f_equal. rewrite <- Hc2, Hw, Hp. reflexivity.
  - destruct (bt_payload_prefix c t W H A P d1 hist _ d2 _ X more HY I1 I2 Ed HX HL) as (k & Hk). exists k, forced, rest. rewrite <- Hk. split; [exact Hr|]. intros Y. apply (Hf Y).
Qed.
