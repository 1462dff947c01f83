(* Throughput, continued: the potential. *)
From Verif Require Import Bits Spec Spec_Core M_Config M_Signals M_Predictor M_Difference M_Encode M_Merge M_I1 M_Fifo M_Converter M_VBits M_I3
  P_Fifo P_Encode P_Merge P_Signals P_Predictor P_I1 P_Tokens P_Converter P_VBits P_I3 P_Decode P_Run P_Live P_Live2 P_Rate P_Rate2.
Ltac Zify.zify_post_hook ::= idtac.

Section pot.
  Variables (c : config) (M r Dm E0 : Z).
  Definition low : Z := outb c - 1 + M + M * (Dm + r).
  Definition top : Z := 6 * M + bufs c + M * (Dm + r) + M * E0.
  Definition potential (i : vi_st) (f : fifo_st) (v : bool) (o : vo_st) (D E : Z) : Z :=
    M * waiting c i f v + Z.max (vi_consum i + M * (D + r * b2z (vo_valid o))) low + M * E.
  Definition short (i : vi_st) : Prop := vi_state i = VI_REGISTER \/ ((vi_state i = VI_INPUT \/ vi_state i = VI_CLEAN) /\ vi_valid_reg i = false).
  Definition pot_ok (i : vi_st) (f : fifo_st) (v : bool) (o : vo_st) (D E : Z) : Prop :=
    potential i f v o D E <= top /\ (short i -> potential i f v o D E <= top - M).

  Variables (i : vi_st) (f : fifo_st) (v v' : bool) (o : vo_st) (din enc buffer : Z) (e busy : bool) (D E D' E' : Z).
  Hypotheses (Hvb : vb_ok c) (HM : 1 <= M) (Hr : 0 <= r) (HDm : 0 <= Dm) (Hrate : (1 + r) * M <= outb c) (Hbuf : 2 * M + outb c - 1 + low <= bufs c)
    (HD : 3 <= cfd c) (Hf : fifo_inv (cfd c) f) (Hw : v = true -> fifo_writable (cfd c) f = true)
    (Hdin : v = true -> cctr c din <= M) (Hi : vi_inv c i) (He : vi_end i = false) (Ho : vo_inv o) (Hne : vo_state o <> VO_END)
    (B : bk_inv c M i f v) (HD0 : 0 <= D <= Dm) (HD1 : 0 <= D' <= Dm) (HE : 0 <= E') (HE1 : E' <= E) (HE2 : E <= E0)
    (Hcred : D' + E' <= D + E - b2z busy + r * b2z (vo_valid o && negb busy)).
  Let dec := vo_dec c o (vi_consum i) (vi_end i) busy.
  Let f' := fifo_step (cfd c) f v din (vi_latch_input i).
  Let i' := vi_step c i enc (cctr c (ff_dout f)) e (ff_rd f) dec.
  Let o' := vo_step c o buffer (vi_consum i) (vi_end i) busy.

  Lemma dec_ge : dec = true -> outb c <= vi_consum i.
  Proof.
    unfold dec, vo_dec, vo_ge, vo_le. rewrite He. destruct (vo_state o); [rewrite andb_false_r, orb_false_r; lia| |discriminate].
    destruct busy; cbn [negb andb]; [discriminate|lia].
  Qed.
  (* a full word leaves the buffer unless the sink is busy *)
  Lemma nodec : dec = false -> busy = false -> vi_consum i < outb c.
  Proof.
    unfold dec, vo_dec, vo_ge, vo_le. rewrite He. destruct (vo_state o); [rewrite andb_false_r, orb_false_r; lia| |congruence].
    intros X ->. cbn [negb andb] in X. lia.
  Qed.
  Lemma vo_count : b2z (vo_valid o && negb busy) + b2z (vo_valid o') = b2z (vo_valid o) + b2z dec.
  Proof.
    unfold o', vo_step. fold dec. revert Ho. unfold vo_inv. destruct dec eqn:Ed.
    - cbn [vo_valid]. unfold dec, vo_dec in Ed. destruct (vo_state o) eqn:Es; [| |congruence]; intros [-> _].
      + reflexivity.
      + destruct busy; [discriminate|]. reflexivity.
    - destruct (vo_state o) eqn:Es; [| |congruence]; intros [X _]; rewrite ?X.
      + reflexivity.
      + destruct busy; cbn [vo_valid]; rewrite ?X; reflexivity.
  Qed.

  Lemma consum_step : vi_consum i' = vi_consum i - (if dec then outb c else 0) + (if vi_inc i then vi_ctr_reg i else 0) /\ 0 <= vi_consum i' <= bufs c.
  Proof. destruct (vi_arith c i enc (cctr c (ff_dout f)) e (ff_rd f) dec Hvb Hi ltac:(congruence) dec_ge ltac:(congruence)) as (A1 & _ & _ & A4 & _). split; assumption. Qed.

  (* small number of waiting items: nothing to prove *)
  Lemma few : waiting c i' f' v' <= 5 -> potential i' f' v' o' D' E' <= top - M.
  Proof.
    intros X. destruct consum_step as [_ Y]. unfold potential, top. pose proof (b2z_01 (vo_valid o')) as Z1.
    assert (M * waiting c i' f' v' <= 5 * M) by nia. assert (M * E' <= M * E0) by nia.
    assert (M * (D' + r * b2z (vo_valid o')) <= M * (Dm + r)) by (apply Z.mul_le_mono_nonneg_l; [lia|]; assert (r * b2z (vo_valid o') <= r) by nia; lia).
    assert (low <= bufs c) by (pose proof (proj1 Hvb); destruct Hvb as (?&?&?); lia). assert (0 <= M * (Dm + r)) by (apply Z.mul_nonneg_nonneg; lia). lia.
  Qed.

  Lemma pot_step : pot_ok i f v o D E -> pot_ok i' f' v' o' D' E'.
  Proof.
    intros [P1 P2]. destruct consum_step as [C1 C2]. pose proof vo_count as VC. pose proof nodec as ND. pose proof dec_ge as DG.
    pose proof (waiting_step c M i f v v' din enc e dec HD Hf Hw Hdin Hi B) as WS. fold i' f' in WS.
    pose proof few as FEW. pose proof Hi as (I1 & I2 & I3 & I4 & I5 & I6 & I7 & I8 & I9 & I10).
    pose proof (b2z_01 v') as Bv'. pose proof (b2z_01 v) as Bv. pose proof (b2z_01 (vo_valid o)) as Bo. pose proof (b2z_01 (vo_valid o')) as Bo'. pose proof (b2z_01 (ff_rd f)) as Brd. pose proof (b2z_01 (vi_valid_reg i)) as Bvr.
    set (a := vi_consum i + M * (D + r * b2z (vo_valid o))) in *. set (a' := vi_consum i' + M * (D' + r * b2z (vo_valid o'))) in *.
    assert (Hob : 1 <= outb c) by apply Hvb.
    assert (Hinc : vi_inc i = true -> 1 <= vi_ctr_reg i <= M).
    { intros X. destruct (vi_inc_items c i Hi X) as ((Y & _) & _). split; [lia|]. apply (bk_reg _ _ _ _ _ B). unfold vi_inc in X. destruct (vi_state i); try discriminate; [auto|right; destruct (vi_valid_reg i); [reflexivity|discriminate]]. }
    (* credit arithmetic *)
    assert (Hcr : a' + M * E' <= a + M * E - (if dec then outb c else 0) + (if vi_inc i then M else 0) - M * b2z busy + M * r * b2z dec).
    { assert (X : D' + r * b2z (vo_valid o') + E' <= D + r * b2z (vo_valid o) + E - b2z busy + r * b2z dec).
      { replace (r * b2z (vo_valid o')) with (r * b2z (vo_valid o) + r * b2z dec - r * b2z (vo_valid o && negb busy)) by nia. lia. }
      unfold a, a'. rewrite C1. assert (M * (D' + r * b2z (vo_valid o') + E') <= M * (D + r * b2z (vo_valid o) + E - b2z busy + r * b2z dec)) by (apply Z.mul_le_mono_nonneg_l; lia).
      destruct (vi_inc i); [specialize (Hinc eq_refl)|]; lia. }
    assert (Hrr : 0 <= r * M) by nia. assert (Hdr : (if dec then outb c else 0) >= M * b2z dec + M * r * b2z dec) by (destruct dec; cbn [b2z]; lia).
    assert (Hidle : dec = false -> busy = false -> a' <= low).
    { intros X Y. specialize (ND X Y). unfold a', low. rewrite C1, X. assert (M * (D' + r * b2z (vo_valid o')) <= M * (Dm + r)) by (apply Z.mul_le_mono_nonneg_l; [lia|]; assert (r * b2z (vo_valid o') <= r) by nia; lia).
      destruct (vi_inc i); [specialize (Hinc eq_refl)|]; lia. }
    assert (HME : M * E' <= M * E) by nia.
    (* in every case the part without the waiting items does not grow, if at most one item moves *)
    assert (Hflat : vi_inc i = true -> Z.max a' low + M * E' <= Z.max a low + M * E).
    { intros X. rewrite X in Hcr. destruct dec; cbn [b2z] in *; [destruct busy; cbn [b2z] in Hcr; lia|]. destruct busy; cbn [b2z] in Hcr; [lia|]. specialize (Hidle eq_refl eq_refl). lia. }
    assert (Hflat2 : Z.max a' low + M * E' <= Z.max a low + M * E).
    { destruct (vi_inc i) eqn:X; [auto|]. destruct dec; cbn [b2z] in *; [destruct busy; cbn [b2z] in Hcr; lia|]. destruct busy; cbn [b2z] in Hcr; [lia|]. specialize (Hidle eq_refl eq_refl). lia. }
    assert (Ha : vi_consum i <= a) by (unfold a; assert (0 <= M * (D + r * b2z (vo_valid o))) by (apply Z.mul_nonneg_nonneg; [lia|]; assert (0 <= r * b2z (vo_valid o)) by nia; lia); lia).
    assert (Hfall : low + M <= vi_consum i -> vi_inc i = false -> Z.max a' low + M * E' <= Z.max a low + M * E - M).
    { intros X Y. rewrite Y in Hcr. assert (outb c <= low + M) by (unfold low; assert (0 <= M * (Dm + r)) by (apply Z.mul_nonneg_nonneg; lia); lia).
      destruct dec; cbn [b2z] in *; [destruct busy; cbn [b2z] in Hcr; lia|]. destruct busy; cbn [b2z] in Hcr; [lia|]. specialize (ND eq_refl eq_refl). lia. }
    assert (Hpot' : potential i' f' v' o' D' E' = M * waiting c i f v + M * b2z v' - M * b2z (vi_inc i) + (Z.max a' low + M * E')) by (unfold potential; fold a'; rewrite WS; ring).
    assert (Hpot : potential i f v o D E = M * waiting c i f v + (Z.max a low + M * E)) by (unfold potential; fold a; ring).
    assert (Mv : M * b2z v' <= M) by nia.
    unfold pot_ok, short. 
    assert (Est : vi_state i' = match vi_state i with
        | VI_INPUT => if vi_valid_buff i then (if vi_valid_buff i && (vi_ctr_buff i <=? vi_free i) then VI_CLEAN else VI_INPUT) else if vi_valid_reg i then VI_BURST else VI_REGISTER
        | VI_CLEAN => if vi_valid_reg i then VI_BURST else VI_REGISTER | VI_REGISTER => VI_BURST
        | VI_BURST => if vi_valid_reg i && negb (vi_ctr_reg i <=? vi_free i) then VI_INPUT else VI_BURST end) by (unfold i', vi_step; destruct (vi_state i); reflexivity).
    assert (Evr : vi_valid_reg i' = match vi_state i with VI_INPUT | VI_CLEAN => vi_valid_reg i | _ => ff_rd f end) by (unfold i', vi_step; destruct (vi_state i); reflexivity).
    assert (Einc : vi_inc i = match vi_state i with VI_CLEAN => true | VI_BURST => vi_valid_reg i && (vi_ctr_reg i <=? vi_free i) | _ => false end) by reflexivity.
    assert (Hwl : waiting c i f v = ff_lvl f + b2z (ff_rd f) + b2z v + vn i).
    { unfold waiting, len. rewrite <- (fifo_level_q _ _ Hf). reflexivity. }
    destruct (vi_state i) eqn:Es.
    - destruct (vi_valid_buff i) eqn:Eb.
      + pose proof (bk_in _ _ _ _ _ B Es Eb) as X. specialize (Hfall ltac:(lia) Einc). rewrite Hpot', Einc. cbn [b2z]. rewrite Hpot in *.
        split; [lia|]. intros [Y|[_ Y]]; [rewrite Est in Y; cbn [andb] in Y; destruct (vi_ctr_buff i <=? vi_free i); discriminate|]. rewrite Evr in Y.
        assert (short i) as Sh by (right; auto). specialize (P2 Sh). lia.
      + destruct (bk_start _ _ _ _ _ B Es Eb) as (X1 & X2 & X3).
        assert (potential i' f' v' o' D' E' <= top - M) by (apply FEW; rewrite WS, Einc; unfold waiting, vn; rewrite X1, X2, Es, Eb, X3; cbn; lia). split; [lia|auto].
    - rewrite Hpot', Einc. cbn [b2z]. rewrite Hpot in *. split; [lia|]. intros Y. destruct (vi_valid_reg i) eqn:Er.
      + destruct Y as [Y|[[Y|Y] _]]; rewrite Est in Y; discriminate.
      + assert (short i) as Sh by (right; auto). specialize (P2 Sh). lia.
    - assert (short i) as Sh by (left; assumption). specialize (P2 Sh). rewrite Hpot', Einc. cbn [b2z]. rewrite Hpot in *. split; [lia|].
      intros [Y|[[Y|Y] _]]; rewrite Est in Y; discriminate.
    - destruct (vi_valid_reg i) eqn:Er.
      + destruct (vi_ctr_reg i <=? vi_free i) eqn:Ef; cbn [andb negb] in Einc, Est.
        * rewrite Hpot', Einc. cbn [b2z]. rewrite Hpot in *. split; [lia|]. intros [Y|[[Y|Y] _]]; rewrite Est in Y; discriminate.
        * assert (Es' : vi_start i = true) by (destruct (vi_start i) eqn:E''; [reflexivity|destruct (I3 eq_refl) as (Z & _); congruence]). specialize (I4 Es').
          pose proof (bk_reg _ _ _ _ _ B (or_intror Er)) as X. specialize (Hfall ltac:(lia) Einc). rewrite Hpot in *. split; [rewrite Hpot', Einc; cbn [b2z]; lia|].
          intros [Y|[_ Y]]; [rewrite Est in Y; discriminate|]. rewrite Evr in Y. apply FEW. rewrite WS, Einc, Hwl. unfold vn. rewrite Es, Er, Y. pose proof (bk_rd _ _ _ _ _ B Y). cbn [b2z]. lia.
      + cbn [andb] in Einc, Est. assert (potential i' f' v' o' D' E' <= top - M) as X.
        { apply FEW. rewrite WS, Einc, Hwl. unfold vn. rewrite Es, Er. pose proof (bk_burst _ _ _ _ _ B Es Er). cbn [b2z]. lia. }
        split; [lia|auto].
  Qed.
End pot.
