(* C30: the wiring of micro_integration.py. *)
From Verif Require Import Bits Spec Spec_Core Spec_Beta M_Config M_Signals M_Predictor M_Encode M_I1 M_Fifo M_Converter M_VBits M_I3 M_Fix M_Markers M_Beta M_Micro
  P_Fifo P_Encode P_I1 P_Tokens P_Converter P_VBits P_I3 P_Decode P_Run P_Live P_Fix P_Markers Props_Core Props_Frame P_Pack P_Beta.
Ltac Zify.zify_post_hook ::= idtac.

(* no end flag anywhere behind the packer *)
Definition no_end (s : bt_st) : Prop :=
  f1_eout (b_f1 s) = false /\ f1_ereg (b_f1 s) = false /\ f2_eout (b_f2 s) = false /\ f2_ereg (b_f2 s) = false /\ f2_endr (b_f2 s) = false /\
  (f2_fsm_st (b_f2 s) = F2_NORMAL \/ f2_fsm_st (b_f2 s) = F2_CLEAN) /\ mk_end_cond (b_mk s) = false /\
  mk_fsm_st (b_mk s) <> MK_ENDM /\ mk_fsm_st (b_mk s) <> MK_DONE.

Lemma no_end_reset i3 : no_end (bt_reset_with i3).
Proof. unfold no_end. cbn. repeat split; auto; discriminate. Qed.

Lemma nl_switch_plain a b d n : nl_end (nl_switch a b d n) = false /\ nl_endr (nl_switch a b d n) = false /\
  (nl_next (nl_switch a b d n) = None \/ nl_next (nl_switch a b d n) = Some F2_CLEAN).
Proof. unfold nl_switch. repeat (match goal with |- context [if ?x then _ else _] => destruct x end; cbn; auto). Qed.

Lemma no_end_f1 s i : f1_eout s = false -> f1_ereg s = false -> f1i_end i = false ->
  f1_eout (f1_step s i) = false /\ f1_ereg (f1_step s i) = false.
Proof.
  intros A B C. unfold f1_step. destruct (f1_logic (f1i_data i)) as [ld lc]. rewrite A, B, C.
  destruct (negb (f1i_busy i)); [destruct (negb (f1_dval s))|destruct (negb (f1_vout s)); [|destruct (f1i_valid i && negb (f1_obusy s))]];
    cbn [f1_eout f1_ereg]; destruct (f1_obusy s); auto.
Qed.

Lemma no_end_f2 s i : f2_eout s = false -> f2_ereg s = false -> f2_endr s = false ->
  (f2_fsm_st s = F2_NORMAL \/ f2_fsm_st s = F2_CLEAN) -> f2i_end i = false ->
  f2_eout (f2_step s i) = false /\ f2_ereg (f2_step s i) = false /\ f2_endr (f2_step s i) = false /\
  (f2_fsm_st (f2_step s i) = F2_NORMAL \/ f2_fsm_st (f2_step s i) = F2_CLEAN).
Proof.
  intros A B C D E. unfold f2_step. destruct D as [D|D]; rewrite D.
  - unfold f2_normal, normal_logic. rewrite E.
    set (r := if f2i_valid i then _ else nl_none).
    assert (R : nl_end r = false /\ nl_endr r = false /\ (nl_next r = None \/ nl_next r = Some F2_CLEAN)).
    { unfold r. destruct (f2i_valid i); [apply nl_switch_plain|cbn; auto]. }
    clearbody r. destruct R as (R1 & R2 & R3). rewrite A, B, C, R1, R2.
    destruct (negb (f2i_busy i)); [destruct (negb (f2_dval s))|destruct (negb (f2_vout s)); [|destruct (f2i_valid i && negb (f2_obusy s))]];
      cbn [f2_eout f2_ereg f2_endr f2_fsm_st orb]; rewrite ?orb_true_l, ?orb_false_l;
      (split; [reflexivity|]); (split; [destruct (negb (f2_obusy s)); reflexivity|]);
      (split; [match goal with |- (if ?x then _ else _) = _ => destruct x; reflexivity | |- false = false => reflexivity end|]);
      match goal with
      | |- (if ?x then _ else _) = _ \/ _ => destruct x; [destruct R3 as [-> | ->]; cbn; auto|auto]
      | |- _ => destruct R3 as [-> | ->]; cbn; auto
      end.
  - destruct (negb (f2i_busy i)); [destruct (negb (f2_dval s))|].
    + unfold f2_clean. rewrite C, A, B. cbn. auto.
    + unfold f2_drain. cbn [f2_eout f2_ereg f2_endr f2_fsm_st]. auto.
    + auto.
Qed.

Lemma no_end_mk s i : mk_end_cond s = false -> mk_fsm_st s <> MK_ENDM -> mk_fsm_st s <> MK_DONE -> mki_end i = false ->
  mk_end_cond (mk_step s i) = false /\ mk_fsm_st (mk_step s i) <> MK_ENDM /\ mk_fsm_st (mk_step s i) <> MK_DONE.
Proof.
  intros A B C D. unfold mk_step. rewrite D, A. destruct (mk_fsm_st s); try contradiction; rewrite ?andb_false_r;
    repeat (match goal with |- context [if ?x then _ else _] => destruct x end); cbn; repeat split; auto; discriminate.
Qed.

Lemma no_end_step c mem s i : no_end s -> no_end (mc_step c mem s i).
Proof.
  intros (A1 & A2 & A3 & A4 & A5 & A6 & A7 & A8 & A9). unfold mc_step. destruct (b_rst s); [apply no_end_reset|].
  unfold no_end, mc_next. cbn [b_f1 b_f2 b_mk].
  destruct (no_end_f1 (b_f1 s) (mc_in1 s i) A1 A2 eq_refl) as (B1 & B2).
  destruct (no_end_f2 (b_f2 s) (mc_in2 s i) A3 A4 A5 A6 eq_refl) as (B3 & B4 & B5 & B6).
  destruct (no_end_mk (b_mk s) (mc_mk_in s i) A7 A8 A9 A3) as (B7 & B8 & B9). repeat split; assumption.
Qed.

(* C30.  No frame of the micro core ever ends normally: whatever the configuration, pixels and
   schedule, the only end words the consumer ever receives are forced-end markers (0xFFFE). *)
Theorem C30_never_normal : forall c mem i3 l w,
  In (w, true) (mc_outs c mem (bt_reset_with i3) l) -> w = 0xFFFE.
Proof.
  intros c mem i3 l w. assert (K : forall l s, no_end s -> In (w, true) (mc_outs c mem s l) -> w = 0xFFFE).
  { clear l. induction l as [|i l IH]; intros s Hs Hin; [destruct Hin|]. cbn [mc_outs] in Hin. apply in_app_or in Hin. destruct Hin as [Hin|Hin].
    - destruct Hs as (_ & _ & _ & _ & _ & _ & A7 & A8 & A9). unfold mc_gave, mc_out, mk_comb in Hin.
      destruct (mk_fsm_st (b_mk s)); try contradiction; rewrite ?A7 in Hin;
        repeat (match type of Hin with context [if ?x then _ else _] => destruct x end; cbn [In mko_valid mko_data mko_end andb] in Hin);
        try (destruct Hin as [Hin|[]]; inversion Hin; auto); try contradiction.
    - apply (IH (mc_step c mem s i)); [apply no_end_step; exact Hs|exact Hin]. }
  apply K, no_end_reset.
Qed.

(* ---------- the words consumed behind the markers stage's back ---------- *)

(* d2: words taken from fix_0xff2 in this frame; O: words handed over *)
Definition mc_mk_inv (s : bt_st) (d2 O : list (Z * bool)) : Prop :=
  match mk_fsm_st (b_mk s) with
  | MK_IDLE => d2 = [] /\ O = []
  | MK_START => 0 <= mk_ctr (b_mk s) <= 8 /\ O = plain (repeat 0xFFFF (Z.to_nat (8 - mk_ctr (b_mk s)))) /\
                (d2 <> [] \/ f2_vout (b_f2 s) = true /\ mk_ctr (b_mk s) = 8)
  | MK_FRAME => mk_ctr (b_mk s) = 8 /\ exists lost p, lost <> [] /\ d2 = lost ++ p /\ O = plain (mk_hdr ++ map fst p)
  | MK_FENDM => 1 <= mk_ctr (b_mk s) <= 8 /\ exists lost p r, lost <> [] /\ d2 = lost ++ p ++ r /\
                O = plain (mk_hdr ++ map fst p ++ repeat 0xFFFE (Z.to_nat (8 - mk_ctr (b_mk s))))
  | MK_FDONE => exists lost p r, lost <> [] /\ d2 = lost ++ p ++ r /\
                cut O = plain (mk_hdr ++ map fst p ++ repeat 0xFFFE 7) ++ [(0xFFFE, true)]
  | _ => False
  end.

Definition mc_took2 (s : bt_st) (i : bt_in) : list (Z * bool) :=
  if f2_vout (b_f2 s) && negb (bi_busy i) then [(f2_dout (b_f2 s), f2_eout (b_f2 s))] else [].

Lemma f2_hold s i : f2i_busy i = true -> f2_vout s = true -> f2_vout (f2_step s i) = true.
Proof.
  intros B V. unfold f2_step. rewrite B. cbn [negb]. destruct (f2_fsm_st s); try exact V. unfold f2_normal. rewrite B, V. cbn [negb].
  destruct (f2i_valid i && negb (f2_obusy s)); reflexivity.
Qed.

Lemma mc_mk_inv_step c mem s i d2 O : no_end s -> mc_mk_inv s d2 O ->
  mc_mk_inv (mc_next c mem s i) (d2 ++ mc_took2 s i) (O ++ mc_gave s i).
Proof.
  intros NE I. unfold mc_mk_inv in I. unfold mc_took2, mc_gave, mc_out.
  destruct NE as (_ & _ & Eo & _ & _ & _ & Ec & _ & _).
  assert (Hr : f2_vout (b_f2 s) = true -> bi_busy i = true -> f2_vout (b_f2 (mc_next c mem s i)) = true).
  { intros V B. unfold mc_next. cbn [b_f2]. apply f2_hold; [exact B|exact V]. }
  remember (b_f2 (mc_next c mem s i)) as f2' eqn:Ef2. unfold mc_mk_inv. rewrite <- Ef2. clear Ef2.
  unfold mc_next. cbn [b_mk]. unfold mk_comb, mk_step. cbn [mc_mk_in bt_mk_in mki_valid mki_data mki_end mki_force mki_busy].
  rewrite Eo, !andb_false_r.
  destruct (mk_fsm_st (b_mk s)) eqn:Est; try contradiction.
  - destruct I as [-> ->]. cbn [mko_valid andb app]. cbn [mk_fsm_st mk_ctr]. destruct (f2_vout (b_f2 s)) eqn:Ev; cbn [andb]; [|auto].
    split; [lia|]. split; [reflexivity|]. destruct (bi_busy i) eqn:Eb; cbn [negb]; [right; auto|left; discriminate].
  - destruct I as (Hc & -> & Hd). destruct (bi_busy i) eqn:Eb; cbn [negb andb]; rewrite ?andb_false_r.
    + cbn [mko_valid mk_fsm_st mk_ctr andb]. rewrite !app_nil_r. split; [exact Hc|]. split; [reflexivity|]. destruct Hd as [Hd|[V E]]; [left; exact Hd|right; auto].
    + rewrite andb_true_r. assert (Hd' : d2 ++ (if f2_vout (b_f2 s) then [(f2_dout (b_f2 s), false)] else []) <> []).
      { intros E. apply app_eq_nil in E. destruct E as [-> E]. destruct Hd as [Hd|[V _]]; [congruence|]. rewrite V in E. discriminate. }
      destruct (mk_ctr (b_mk s) =? 0) eqn:E0; cbn [mko_valid mko_data mko_end mk_fsm_st mk_ctr andb].
      * apply Z.eqb_eq in E0. split; [reflexivity|]. exists (d2 ++ (if f2_vout (b_f2 s) then [(f2_dout (b_f2 s), false)] else [])), [].
        split; [exact Hd'|]. split; [rewrite app_nil_r; reflexivity|]. rewrite E0. reflexivity.
      * rewrite trunc_id by (change (2 ^ 4) with 16; lia). split; [lia|]. split; [|left; exact Hd'].
        rewrite plain_snoc, repeat_snoc. do 2 f_equal. lia.
  - destruct I as (Hc & lost & p & r & Hl & -> & ->). cbn [mko_valid mko_data mko_end andb].
    destruct (bi_busy i) eqn:Eb; cbn [negb andb].
    + rewrite andb_false_r, !app_nil_r. cbn [mk_fsm_st mk_ctr]. split; [exact Hc|]. exists lost, p, r. auto.
    + set (x := if f2_vout (b_f2 s) && true then _ else _). destruct (mk_ctr (b_mk s) =? 1) eqn:E1; cbn [mk_fsm_st mk_ctr].
      * exists lost, p, (r ++ x). split; [exact Hl|]. split; [rewrite <- !app_assoc; reflexivity|]. rewrite cut_plain_app. cbn [cut].
        replace (Z.to_nat (8 - mk_ctr (b_mk s))) with 7%nat by lia. reflexivity.
      * rewrite trunc_id by (change (2 ^ 4) with 16; lia). split; [lia|]. exists lost, p, (r ++ x). split; [exact Hl|]. split; [rewrite <- !app_assoc; reflexivity|].
        rewrite plain_snoc, <- !app_assoc, repeat_snoc. do 4 f_equal. lia.
  - destruct I as (Hc & lost & p & Hl & -> & ->). rewrite Ec.
    destruct (fe_fend (b_fe s)); cbn [mk_fsm_st mk_ctr mko_valid mko_data mko_end andb].
    + split; [lia|]. exists lost, p, (if f2_vout (b_f2 s) && negb (bi_busy i) then [(f2_dout (b_f2 s), false)] else []). split; [exact Hl|].
      split; [rewrite <- app_assoc; reflexivity|]. rewrite Hc. cbn [Z.sub Z.opp Z.add Z.pos_sub Z.to_nat repeat]. rewrite !app_nil_r. reflexivity.
    + split; [exact Hc|]. exists lost, (p ++ if f2_vout (b_f2 s) && negb (bi_busy i) then [(f2_dout (b_f2 s), false)] else []).
      split; [exact Hl|]. split; [rewrite <- app_assoc; reflexivity|].
      destruct (f2_vout (b_f2 s) && negb (bi_busy i)); [|rewrite !app_nil_r; reflexivity].
      rewrite plain_snoc, map_app, <- app_assoc. reflexivity.
  - destruct I as (lost & p & r & Hl & -> & Ho). cbn [mko_valid mko_data mko_end mk_fsm_st mk_ctr andb].
    set (x := if f2_vout (b_f2 s) && negb (bi_busy i) then _ else _). exists lost, p, (r ++ x). split; [exact Hl|]. split; [rewrite <- !app_assoc; reflexivity|].
    destruct (negb (bi_busy i)); [|rewrite app_nil_r; exact Ho]. rewrite <- Ho. apply cut_cut_app. rewrite Ho, existsb_app. cbn. apply orb_true_r.
Qed.

(* once the end word has been taken, the packer offers the same word for ever *)
Definition rep_inv (v : vb_st) (d1 : list (Z * bool)) : Prop :=
  existsb snd d1 = true -> vo_state (vb_out v) = VO_END /\ exists pw n, d1 = plain pw ++ repeat (vo_data (vb_out v), true) (S n).
Lemma rep_inv_step c t W H G A P d1 hist s enc ctr e valid busy : i3_inv c t W H G A P d1 hist s -> rep_inv (s_vb s) d1 ->
  rep_inv (vb_step c (s_vb s) enc ctr e valid busy) (d1 ++ transferred (s_vb s) busy).
Proof.
  intros I R He. pose proof (proj1 (v_vb _ _ _ _ _ _ _ _ _ _ I)) as Vo. pose proof (v_done _ _ _ _ _ _ _ _ _ _ I) as D. unfold vb_done in D.
  unfold vb_step. cbn [vb_out]. set (o := vb_out (s_vb s)) in *. unfold vo_inv in Vo.
  assert (Hst : vo_state o = VO_END).
  { destruct (existsb snd d1) eqn:E; [apply (R E)|]. rewrite existsb_app, E in He. cbn [orb] in He. unfold transferred in He. fold o in He.
    destruct (vo_state o); [| |reflexivity]; destruct Vo as [V1 V2]; destruct (vo_valid o && negb busy); cbn in He; rewrite ?V2 in He; discriminate. }
  rewrite Hst in Vo, D. destruct Vo as [V1 V2].
  assert (Hs : vo_step c o (vi_buffer (vb_in (s_vb s))) (vi_consum (vb_in (s_vb s))) (vi_end (vb_in (s_vb s))) busy = o).
  { unfold vo_step, vo_dec. rewrite Hst. reflexivity. }
  rewrite Hs. split; [exact Hst|]. unfold transferred in *. fold o in He |- *. rewrite V1, V2 in *. cbn [andb] in *.
  destruct (existsb snd d1) eqn:E.
  - destruct (R E) as (_ & pw & n & ->). destruct busy; cbn [negb]; [exists pw, n; rewrite app_nil_r; reflexivity|].
    exists pw, (S n). rewrite <- app_assoc. f_equal. rewrite repeat_snoc. reflexivity.
  - destruct busy; cbn [negb] in *; [rewrite app_nil_r, E in He; discriminate|].
    destruct D as (pw & w & bs & D1 & D2 & _). unfold offered in D1. fold o in D1, D2. rewrite V1, V2 in D1. rewrite cut_app_noend in D1 by exact E. cbn [cut] in D1.
    apply app_inj_tail in D1. destruct D1 as [-> _]. exists pw, 0%nat. reflexivity.
Qed.

Definition mc_inv (c : config) (t : table) (W H : Z) (A : list (list Z)) (O : list (Z * bool)) (s : bt_st) : Prop :=
  exists P hist d1 d2,
    i3_inv c t W H (W / ps c) A P d1 hist (b_i3 s) /\ fx_inv (b_f1 s, b_f2 s) (plain (map fst d1)) d2 /\ existsb snd d2 = false /\
    no_end s /\ mc_mk_inv s d2 O /\ rep_inv (s_vb (b_i3 s)) d1 /\ b_rst s = existsb snd O.

Lemma mc_inv_init c t W H i3 : bt_hyp c t W H -> is_reset c i3 -> mc_inv c t W H [] [] (bt_reset_with i3).
Proof.
  intros (Hc & Ho & Ht & [Hf Hb]) (st1 & d1 & st2 & d2 & rps & L1 & L2 & L3 & ->). destruct (frame_geom c W H Hc Hf) as [Hg HG4].
  exists [], [], [], []. split; [apply (i3_inv_reset c t W H (W / ps c) st1 d1 st2 d2 rps Hc Hg HG4 L1 L2 L3)|].
  split; [exact fx_inv_init|]. split; [reflexivity|]. split; [apply no_end_reset|]. split; [split; reflexivity|]. split; [discriminate|reflexivity].
Qed.

Lemma mc_inv_next c t W H A O s i : bt_hyp c t W H -> bt_ok c W H s i -> mc_inv c t W H A O s ->
  mc_inv c t W H (A ++ bt_took s i) (O ++ mc_gave s i) (mc_next c (mem_of (bd c) t) s i).
Proof.
  intros (Hc & Ho & Ht & [Hf Hb]) Hok (P & hist & d1 & d2 & I1 & I2 & I2e & I3 & I4 & I4r & I5). destruct (frame_geom c W H Hc Hf) as [Hg HG4].
  pose proof (i3_inv_step c t W H (W / ps c) A P d1 hist (b_i3 s) (mc_i3_in s i) Hc Ht Hg HG4 Hok I1) as J1.
  set (fi := {| fxi_valid := i3_valid_out (b_i3 s); fxi_data := i3_data_out (b_i3 s); fxi_end := false; fxi_busy := bi_busy i |}).
  assert (J2 : fx_inv (fx_step (b_f1 s, b_f2 s) fi) (plain (map fst d1) ++ fx_took (b_f1 s, b_f2 s) fi) (d2 ++ fx_gave (b_f1 s, b_f2 s) fi)).
  { apply fx_step_ok; [exact I2|]. intros Hv _. pose proof (offered_range _ _ _ _ _ _ _ _ _ _ I1 Hv) as R. rewrite Ho in R. exact R. }
  destruct I3 as (E1 & I3r). destruct I3r as (E2 & E3 & I3r).
  assert (Hfx : fx_step (b_f1 s, b_f2 s) fi = (f1_step (b_f1 s) (mc_in1 s i), f2_step (b_f2 s) (mc_in2 s i))).
  { unfold fx_step, fx_in1, fx_in2, mc_in1, mc_in2. cbn [fst snd fi fxi_valid fxi_data fxi_end fxi_busy]. rewrite E1. reflexivity. }
  rewrite Hfx in J2.
  exists (P ++ vb_emit c (s_vb (b_i3 s)) (in_busy (mc_i3_in s i))), (i3_new c (W / ps c) A (b_i3 s) (mc_i3_in s i) :: hist),
    (d1 ++ transferred (s_vb (b_i3 s)) (f1_obusy (b_f1 s))), (d2 ++ mc_took2 s i).
  split; [exact J1|]. split; [|split; [|split; [|split; [|split]]]].
  - unfold mc_next. cbn [b_f1 b_f2]. rewrite map_app, plain_app.
    replace (plain (map fst (transferred (s_vb (b_i3 s)) (f1_obusy (b_f1 s))))) with (fx_took (b_f1 s, b_f2 s) fi); [exact J2|].
    unfold fx_took, fi, transferred, i3_valid_out, i3_data_out. cbn [fxi_valid fxi_data fxi_end fst]. destruct (_ && _); reflexivity.
  - rewrite existsb_app, I2e. unfold mc_took2. rewrite E3. destruct (_ && _); reflexivity.
  - assert (K : no_end s) by (unfold no_end; tauto). pose proof (no_end_step c (mem_of (bd c) t) {| b_i3 := b_i3 s; b_fe := b_fe s; b_f1 := b_f1 s; b_f2 := b_f2 s; b_mk := b_mk s; b_rst := false |} i K) as X.
    unfold mc_step in X. cbn [b_rst] in X. exact X.
  - apply mc_mk_inv_step; [unfold no_end; tauto|exact I4].
  - unfold mc_next. cbn [b_i3]. unfold i3_step. destruct (i1_out c (s_i1 (b_i3 s))). cbn [s_vb]. eapply rep_inv_step; [exact I1|exact I4r].
  - unfold mc_next. cbn [b_rst]. unfold ar_step, mc_gave. rewrite I5, existsb_app, orb_comm. f_equal.
    destruct (mko_valid (mc_out s i)), (bi_busy i), (mko_end (mc_out s i)); reflexivity.
Qed.

Lemma mc_inv_run c t W H : bt_hyp c t W H -> forall l A O s, mc_inv c t W H A O s ->
  (forall i, In i l -> bi_valid i = true -> group_ok (bd c) (ps c) (bi_px i) /\ bi_w i = W /\ bi_h i = H) ->
  existsb snd (O ++ mc_outs c (mem_of (bd c) t) s l) = false ->
  mc_inv c t W H (A ++ mc_accepted c (mem_of (bd c) t) s l) (O ++ mc_outs c (mem_of (bd c) t) s l) (mc_run c (mem_of (bd c) t) s l).
Proof.
  intros HY. induction l as [|i l IH]; intros A O s I Hl He; cbn [mc_accepted mc_outs mc_run] in *.
  - rewrite !app_nil_r. exact I.
  - rewrite !app_assoc in *. assert (Hr : b_rst s = false).
    { destruct I as (? & ? & ? & ? & _ & _ & _ & _ & _ & _ & ->). rewrite <- app_assoc, existsb_app in He. apply orb_false_elim in He. apply He. }
    assert (Hs : mc_step c (mem_of (bd c) t) s i = mc_next c (mem_of (bd c) t) s i) by (unfold mc_step; rewrite Hr; reflexivity).
    rewrite Hs in *. apply IH; [|intros; apply Hl; [right|]; assumption|exact He].
    apply mc_inv_next; [exact HY| |exact I]. intros Ha. apply Hl; [left; reflexivity|]. unfold bt_accept in Ha. apply andb_prop in Ha. apply Ha.
Qed.

(* C30.  Every finished frame has lost at least its first payload word: its words are header, p,
   forced trailer, where p is what remains of the byte stream after taking away a non-empty sequence
   `lost` of words.  With the lost words put back, the bytes are the beginning of the stuffed reference
   bytes of the frame, whose last word is repeated (n times) when the whole frame went in, because nobody
   sees the packer's end flag.  (What the frame would have contained beyond the accepted samples is arbitrary: X.) *)
Definition repeat_last (n : nat) (ws : list Z) : list Z := ws ++ repeat (last ws 0) n.
Theorem C30_words_lost : forall c t W H i3 l i w,
  cfg_ok c = true -> outb c = 16 -> table_ok (bd c) t -> beta_frame_ok c W H -> is_reset c i3 ->
  let mem := mem_of (bd c) t in let s := bt_reset_with i3 in
  (forall j, In j (l ++ [i]) -> bi_valid j = true -> group_ok (bd c) (ps c) (bi_px j) /\ bi_w j = W /\ bi_h j = H) ->
  existsb snd (mc_outs c mem s l) = false -> mc_gave (mc_run c mem s l) i = [(w, true)] ->
  exists lost p, lost <> [] /\ map fst (mc_outs c mem s l) ++ [w] = framed p true /\
    forall X more, X = concat (mc_accepted c mem s (l ++ [i])) ++ more -> len X = W * H ->
      exists n rest, (n = 0%nat \/ more = []) /\
        flat_map bytes_of (lost ++ p) ++ rest = stuff (flat_map bytes_of (repeat_last n (pack 16 (ref_encode t (bd c) W [] X)))).
Proof.
  intros c t W H i3 l i w Hc Ho Ht Hf Hi mem s Hl He Hg. assert (HY : bt_hyp c t W H) by (unfold bt_hyp; auto).
  pose proof (mc_inv_run c t W H HY l [] [] s (mc_inv_init c t W H i3 HY Hi) ltac:(intros; apply Hl; [apply in_or_app; auto|assumption]) He) as I. cbn [app] in I.
  assert (J : mc_inv c t W H (mc_accepted c mem s l ++ bt_took (mc_run c mem s l) i) (mc_outs c mem s l ++ [(w, true)]) (mc_next c mem (mc_run c mem s l) i)).
  { rewrite <- Hg. apply mc_inv_next; [exact HY| |exact I]. intros Ha. apply Hl; [apply in_or_app; right; left; reflexivity|]. unfold bt_accept in Ha. apply andb_prop in Ha. apply Ha. }
  assert (HA : mc_accepted c mem s (l ++ [i]) = mc_accepted c mem s l ++ bt_took (mc_run c mem s l) i).
  { generalize s. clear. induction l as [|j l IH]; intros s; cbn [app mc_accepted mc_run]; [rewrite app_nil_r; reflexivity|]. rewrite IH, app_assoc. reflexivity. }
  rewrite HA. fold mem s in J. set (A := mc_accepted c mem s l ++ _) in *. set (s' := mc_next c mem (mc_run c mem s l) i) in *. clearbody A s'.
  destruct J as (P & hist & d1 & d2 & J1 & J2 & J3 & J4 & J5 & Jr & J6).
  assert (Hcut : cut (mc_outs c mem s l ++ [(w, true)]) = mc_outs c mem s l ++ [(w, true)]) by (rewrite cut_app_noend by exact He; reflexivity).
  assert (Hex : existsb snd (mc_outs c mem s l ++ [(w, true)]) = true) by (rewrite existsb_app; cbn; apply orb_true_r).
  set (O := mc_outs c mem s l) in *. clearbody O.
  assert (Hx : exists lost p r, lost <> [] /\ d2 = lost ++ p ++ r /\ cut (O ++ [(w, true)]) = plain (mk_hdr ++ map fst p ++ repeat 0xFFFE 7) ++ [(0xFFFE, true)]).
  { unfold mc_mk_inv in J5. destruct (mk_fsm_st (b_mk s')); try contradiction.
    - destruct J5 as [_ E]. rewrite E in Hex. discriminate.
    - destruct J5 as (_ & E & _). rewrite E, existsb_plain in Hex. discriminate.
    - destruct J5 as (_ & ? & ? & ? & _ & _ & E). rewrite E, existsb_plain in Hex. discriminate.
    - destruct J5 as (_ & ? & ? & _ & _ & E). rewrite E, existsb_plain in Hex. discriminate.
    - exact J5. }
  destruct Hx as (lost & p & r & Hlost & Hd2 & HO). exists (map fst lost), (map fst p). split; [destruct lost; [contradiction|discriminate]|].
  split.
  - rewrite Hcut in HO. apply (f_equal (map fst)) in HO. rewrite !map_app, plain_fst in HO. cbn [map fst] in HO. rewrite HO. unfold framed, mk_hdr. rewrite <- !app_assoc. reflexivity.
  - intros X more HX HL.
    destruct (fx_obs _ _ _ J2) as [_ Q]. destruct (Q J3) as (_ & rest & E & _). rewrite (cut_noend _ (existsb_plain _)), plain_fst in E.
    rewrite Hd2, !map_app, !flat_map_app, <- !app_assoc in E.
    destruct (existsb snd d1) eqn:E1.
    + destruct (full_bits c t W H A P d1 hist _ HY J1 E1) as (pw & x & _ & _ & HL' & Hm).
      assert (more = []) as ->. { rewrite HX, len_app in HL. destruct more; [reflexivity|]. exfalso. rewrite HL' in HL. unfold len in HL. cbn [length] in HL. lia. }
      rewrite app_nil_r in HX. subst X. rewrite <- Hm.
      destruct (Jr E1) as (_ & qw & n & Hd1). exists n, (flat_map bytes_of (map fst r) ++ rest). split; [right; reflexivity|].
      rewrite flat_map_app, <- app_assoc, <- E. do 2 f_equal. rewrite Hd1. rewrite cut_plain_app. cbn [repeat cut]. rewrite !map_app, plain_fst. cbn [map fst].
      unfold repeat_last. rewrite last_last, <- app_assoc. cbn [app]. do 2 f_equal. clear. induction n as [|n IH]; [reflexivity|]. cbn [repeat map fst]. rewrite IH. reflexivity.
    + destruct (inv_running _ _ _ _ _ _ _ _ _ _ Hc J1 E1) as (pw & rr & Hd & HF & Hxx).
      rewrite Hd, plain_fst in E. rewrite HX, ref_encode_app, Hxx, <- app_assoc. rewrite Ho in HF. rewrite Ho, pack_app by (try lia; exact HF).
      exists 0%nat. unfold repeat_last. cbn [repeat]. rewrite app_nil_r, !flat_map_app, stuff_app, E. eexists. split; [left; reflexivity|]. rewrite <- !app_assoc. reflexivity.
Qed.

(* The auto reset restores a reset state, so the two theorems above apply to every frame. *)
Theorem C30_every_frame : forall c t W H i3 l i w j,
  cfg_ok c = true -> outb c = 16 -> table_ok (bd c) t -> beta_frame_ok c W H -> is_reset c i3 ->
  let mem := mem_of (bd c) t in let s := bt_reset_with i3 in
  (forall j, In j (l ++ [i]) -> bi_valid j = true -> group_ok (bd c) (ps c) (bi_px j) /\ bi_w j = W /\ bi_h j = H) ->
  (bi_valid j = true -> group_ok (bd c) (ps c) (bi_px j) /\ bi_w j = W /\ bi_h j = H) ->
  existsb snd (mc_outs c mem s l) = false -> mc_gave (mc_run c mem s l) i = [(w, true)] ->
  exists i3', is_reset c i3' /\ mc_run c mem s (l ++ [i; j]) = bt_reset_with i3'.
Proof.
  intros c t W H i3 l i w j Hc Ho Ht Hf Hi mem s Hl Hj He Hg. assert (HY : bt_hyp c t W H) by (unfold bt_hyp; auto).
  pose proof (mc_inv_run c t W H HY l [] [] s (mc_inv_init c t W H i3 HY Hi) ltac:(intros; apply Hl; [apply in_or_app; auto|assumption]) He) as I. cbn [app] in I. fold mem s in I.
  assert (HR : mc_run c mem s (l ++ [i; j]) = mc_step c mem (mc_step c mem (mc_run c mem s l) i) j).
  { generalize s. clear. induction l as [|a l IH]; intros s; cbn [app mc_run]; [reflexivity|apply IH]. }
  rewrite HR. assert (Hok : forall s k, (bi_valid k = true -> group_ok (bd c) (ps c) (bi_px k) /\ bi_w k = W /\ bi_h k = H) -> bt_ok c W H s k).
  { intros s0 k X Ha. apply X. unfold bt_accept in Ha. apply andb_prop in Ha. apply Ha. }
  assert (Hr : b_rst (mc_run c mem s l) = false) by (destruct I as (? & ? & ? & ? & _ & _ & _ & _ & _ & _ & ->); exact He).
  pose proof (mc_inv_next c t W H _ _ _ i HY (Hok _ i ltac:(apply Hl; apply in_or_app; right; left; reflexivity)) I) as J. fold mem in J. rewrite Hg in J.
  unfold mc_step at 2. rewrite Hr. unfold mc_step.
  assert (Hr2 : b_rst (mc_next c mem (mc_run c mem s l) i) = true) by (destruct J as (? & ? & ? & ? & _ & _ & _ & _ & _ & _ & ->); rewrite existsb_app; cbn; apply orb_true_r).
  rewrite Hr2. pose proof (mc_inv_next c t W H _ _ _ j HY (Hok _ j Hj) J) as (? & ? & ? & ? & K & _). fold mem in K.
  eexists. split; [|reflexivity]. eapply i3_keep_is_reset. exact K.
Qed.

(* The micro core as configured, one 8 x 4 frame, no stalls: all 32 samples are accepted, the frame
   is cut short although 400 cycles would be plenty, 6 payload words are missing at the front, and
   the receiver does not get the samples back. *)
Definition C30_in (k : nat) : bt_in :=
  {| bi_valid := true; bi_px := [Z.of_nat k * 1237 mod 4096];
     bi_busy := false; bi_w := 8; bi_h := 4; bi_allowed := 400 |}.
Definition C30_mem := init_huff_table 12.
Definition C30_s := bt_init micro_cfg.
Example C30_example :
  let A := mc_accepted micro_cfg C30_mem C30_s (map C30_in (seq 0 424)) in
  let O := mc_outs micro_cfg C30_mem C30_s (map C30_in (seq 0 424)) in
  len A = 32 /\ existsb snd O = true /\ snd (deframe (map fst O)) = Some true /\
  firstn 33 (fst (deframe (map fst O))) = skipn 6 (payload (std_table 12) 12 8 (concat A)) /\
  receive (std_table 12) 12 8 4 (map fst O) <> Some (concat A).
Proof. vm_compute. repeat split. discriminate. Qed.

(* Not even a lost beginning is always noticed: the words of a frame of equal samples 2048 are all the same, so that the receiver, who gets
   the repetition of the last word instead of the lost ones, decodes the frame. *)
Definition C30_grey (k : nat) : bt_in :=
  {| bi_valid := true; bi_px := [2048]; bi_busy := false; bi_w := 8; bi_h := 4; bi_allowed := 400 |}.
Example C30_grey_example :
  let A := mc_accepted micro_cfg C30_mem C30_s (map C30_grey (seq 0 424)) in
  let O := mc_outs micro_cfg C30_mem C30_s (map C30_grey (seq 0 424)) in
  len A = 32 /\ snd (deframe (map fst O)) = Some true /\ receive (std_table 12) 12 8 4 (map fst O) = Some (concat A).
Proof. vm_compute. repeat split. Qed.
