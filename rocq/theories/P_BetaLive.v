(* Progress of the complete beta core: once the sink is ready again and again, the stuffing and marker stages never block the
   encoder for good, and an end word entering them comes out as the end of the frame. *)
From Verif Require Import Bits Spec Spec_Core Spec_Beta M_Config M_Signals M_Predictor M_Encode M_I1 M_Fifo M_Converter M_VBits M_I3 M_Fix M_Markers M_Beta
  P_Fifo P_Encode P_I1 P_Tokens P_Converter P_VBits P_I3 P_Decode P_Run P_Live P_Live2 P_Fix P_Markers Props_Core Props_Frame P_Pack P_Beta Props_Live Props_Beta.
Ltac Zify.zify_post_hook ::= idtac.

Lemma least (P : nat -> bool) : forall k n, P (n + k)%nat = true ->
  exists m, (n <= m <= n + k)%nat /\ P m = true /\ forall j, (n <= j < m)%nat -> P j = false.
Proof.
  induction k as [|k IH]; intros n Hk.
  - exists n. rewrite Nat.add_0_r in Hk. split; [lia|]. split; [exact Hk|]. intros; lia.
  - destruct (P n) eqn:E; [exists n; split; [lia|]; split; [exact E|intros; lia]|].
    destruct (IH (S n)) as (m & L & Hm & Hj); [rewrite <- Hk; f_equal; lia|]. exists m. split; [lia|]. split; [exact Hm|].
    intros j Hjm. destruct (Nat.eq_dec j n) as [-> |]; [exact E|apply Hj; lia].
Qed.

(* the trailer has been begun *)
Definition mk_past (s : mk_st) : bool := match mk_fsm_st s with MK_ENDM | MK_FENDM | MK_DONE | MK_FDONE => true | _ => false end.
Definition bt_over (s : bt_st) : bool := mk_past (b_mk s) || b_rst s.

Lemma over_mono c mem s i : bt_over s = true -> bt_over (bt_next c mem s i) = true.
Proof.
  unfold bt_over, bt_next. cbn [b_mk b_rst]. intros E. apply orb_prop in E. apply orb_true_iff. destruct E as [E|E].
  - left. unfold mk_past, mk_step in *. destruct (mk_fsm_st (b_mk s)) eqn:Es; try discriminate; destruct (negb _); cbn [mk_fsm_st]; try destruct (_ =? _); reflexivity.
  - right. unfold ar_step. rewrite E. apply orb_true_r.
Qed.

(* what blocks fix_0xff2 *)
Definition f2_stuck (s : f2_st) : Prop := f2_vout s = true /\ (f2_fsm_st s = F2_NORMAL -> f2_obusy s = true).
Definition f2_ended (s : f2_st) : Prop := (f2_fsm_st s = F2_CLEAN /\ f2_endr s = true) \/ f2_fsm_st s = F2_PRE_END \/ f2_fsm_st s = F2_END.

Lemma f2_frozen s i : f2_stuck s -> f2i_busy i = true -> f2_step s i = s.
Proof.
  intros [Hv Ho] Hb. unfold f2_step. destruct (f2_fsm_st s) eqn:Es; rewrite ?Hb; try reflexivity.
  specialize (Ho eq_refl). unfold f2_normal. rewrite Hb, Hv, Ho. cbn [negb andb orb]. rewrite !andb_false_r. destruct s as [x0 x1 x2 x3 x4 x5 x6 x7 x8 x9 xa]. cbn [f2_fsm_st f2_buf f2_cnt f2_dout f2_vout f2_eout f2_obusy f2_dreg f2_ereg f2_dval f2_endr] in *. subst. reflexivity.
Qed.

Section blive.
  Variables (c : config) (t : table) (W H : Z) (i3 : i3_st) (ins : nat -> bt_in).
  Let mem := mem_of (bd c) t.
  (* the frame, run without the automatic reset *)
  Fixpoint nst (n : nat) : bt_st := match n with O => bt_reset_with i3 | S k => bt_next c mem (nst k) (ins k) end.
  Hypotheses (HY : bt_hyp c t W H) (Hi : is_reset c i3).
  Hypothesis Hok : forall n, b_rst (nst n) = false -> bt_ok c W H (nst n) (ins n).
  Hypothesis ready_fair : forall n, exists m, (n <= m)%nat /\ bi_busy (ins m) = false.

  Lemma rst_mono n : b_rst (nst (S n)) = false -> b_rst (nst n) = false.
  Proof. cbn [nst]. unfold bt_next. cbn [b_rst]. unfold ar_step. intros E. apply orb_false_elim in E. apply E. Qed.
  Lemma over_S n : bt_over (nst n) = true -> bt_over (nst (S n)) = true.
  Proof. cbn [nst]. apply over_mono. Qed.
  Lemma over_le n m : (n <= m)%nat -> bt_over (nst n) = true -> bt_over (nst m) = true.
  Proof. induction 1; [auto|]. intros E. apply over_S. auto. Qed.
  Lemma not_over n : bt_over (nst n) = false -> b_rst (nst n) = false.
  Proof. unfold bt_over. intros E. apply orb_false_elim in E. apply E. Qed.
  Lemma ninv n : b_rst (nst n) = false -> exists A O, bt_inv c t W H A O (nst n).
  Proof.
    induction n as [|n IH]; intros Hr; [exists [], []; apply bt_inv_init; assumption|].
    pose proof (rst_mono n Hr) as Hr0. destruct (IH Hr0) as (A & O & I). eexists _, _. cbn [nst]. apply bt_inv_next; [exact HY|apply Hok, Hr0|exact I].
  Qed.
  Lemma n_f1 n : bt_over (nst n) = false -> f1_inv (b_f1 (nst n)).
  Proof. intros E. destruct (ninv n (not_over n E)) as (A & O & P & hist & d1 & d2 & _ & [F _ _] & _). exact F. Qed.
  Lemma n_f2 n : bt_over (nst n) = false -> exists done B e, f2_inv (b_f2 (nst n)) done B e.
  Proof. intros E. destruct (ninv n (not_over n E)) as (A & O & P & hist & d1 & d2 & _ & [_ (mid & _ & F) _] & _). eauto. Qed.
  Lemma n_mk n : bt_over (nst n) = false -> mk_fsm_st (b_mk (nst n)) = MK_START -> 0 <= mk_ctr (b_mk (nst n)) <= 8.
  Proof. intros E Es. destruct (ninv n (not_over n E)) as (A & O & P & hist & d1 & d2 & _ & _ & I & _). unfold mk_inv in I. rewrite Es in I. tauto. Qed.

  Let mbusy n := mko_busy (mk_comb (b_mk (nst n)) (bt_mk_in (nst n) (ins n))).
  Let done_or (n : nat) (Q : nat -> Prop) : Prop := exists m, (n <= m)%nat /\ (bt_over (nst m) = true \/ (bt_over (nst m) = false /\ Q m)).

  Lemma done_or_later n n' Q : (n <= n')%nat -> done_or n' Q -> done_or n Q.
  Proof. intros L (m & Lm & X). exists m. split; [lia|exact X]. Qed.
  Lemma done_or_now n (Q : nat -> Prop) : (bt_over (nst n) = false -> Q n) -> done_or n Q.
  Proof. intros X. exists n. split; [lia|]. destruct (bt_over (nst n)); auto. Qed.
  Lemma done_or_bind n Q R : done_or n Q -> (forall m, (n <= m)%nat -> bt_over (nst m) = false -> Q m -> done_or m R) -> done_or n R.
  Proof. intros (m & L & [E|[E X]]) K; [exists m; auto|]. apply (done_or_later n m); [exact L|]. apply K; assumption. Qed.

  Lemma f2_busy_step n : f2_stuck (b_f2 (nst n)) -> mbusy n = true -> b_f2 (nst (S n)) = b_f2 (nst n).
  Proof. intros F E. cbn [nst]. unfold bt_next. cbn [b_f2 snd fx_step]. apply f2_frozen; [exact F|exact E]. Qed.

  (* the header goes out *)
  Lemma to_frame_start K : forall k n, bt_over (nst n) = false -> f2_stuck (b_f2 (nst n)) -> mk_fsm_st (b_mk (nst n)) = MK_START ->
    mk_ctr (b_mk (nst n)) = Z.of_nat K -> bi_busy (ins (n + k)%nat) = false ->
    done_or n (fun m => mk_fsm_st (b_mk (nst m)) = MK_FRAME /\ b_f2 (nst m) = b_f2 (nst n)).
  Proof.
    induction K as [|K IHK]; induction k as [|k IHk]; intros n Ho F Es Ec Hb;
      (assert (Hm : mbusy n = true) by (unfold mbusy, mk_comb; rewrite Es; destruct (_ && _); reflexivity));
      pose proof (f2_busy_step n F Hm) as Ef; apply (done_or_later n (S n)); try lia;
      (destruct (bt_over (nst (S n))) eqn:Ho'; [exists (S n); auto|]);
      (assert (Est : b_mk (nst (S n)) = mk_step (b_mk (nst n)) (bt_mk_in (nst n) (ins n))) by reflexivity);
      unfold mk_step in Est; rewrite Es in Est; cbn [bt_mk_in mki_busy] in Est.
    - rewrite Nat.add_0_r in Hb. rewrite Hb, Ec in Est. change (Z.of_nat 0 =? 0) with true in Est. cbn [negb] in Est. apply done_or_now. intros _. rewrite Est. auto.
    - destruct (bi_busy (ins n)) eqn:Eb; cbn [negb] in Est.
      + rewrite <- Ef. apply IHk; [exact Ho'|rewrite Ef; exact F|rewrite Est; reflexivity|rewrite Est; cbn [mk_ctr]; exact Ec|rewrite <- Hb; do 2 f_equal; lia].
      + rewrite Ec in Est. change (Z.of_nat 0 =? 0) with true in Est. cbn [negb] in Est. apply done_or_now. intros _. rewrite Est. auto.
    - rewrite Nat.add_0_r in Hb. rewrite Hb in Est. cbn [negb] in Est. replace (mk_ctr (b_mk (nst n)) =? 0) with false in Est by lia.
      pose proof (n_mk n Ho Es) as Hc8. rewrite trunc_id in Est by (change (2 ^ 4) with 16; lia).
      destruct (ready_fair (S n)) as (m & Lm & Hm2). rewrite <- Ef. apply (IHK (m - S n)%nat); [exact Ho'|rewrite Ef; exact F|rewrite Est; reflexivity|rewrite Est; cbn [mk_ctr]; lia|rewrite <- Hm2; do 2 f_equal; lia].
    - destruct (bi_busy (ins n)) eqn:Eb; cbn [negb] in Est.
      + rewrite <- Ef. apply IHk; [exact Ho'|rewrite Ef; exact F|rewrite Est; reflexivity|rewrite Est; cbn [mk_ctr]; exact Ec|rewrite <- Hb; do 2 f_equal; lia].
      + replace (mk_ctr (b_mk (nst n)) =? 0) with false in Est by lia.
        pose proof (n_mk n Ho Es) as Hc8. rewrite trunc_id in Est by (change (2 ^ 4) with 16; lia).
        destruct (ready_fair (S n)) as (m & Lm & Hm2). rewrite <- Ef. apply (IHK (m - S n)%nat); [exact Ho'|rewrite Ef; exact F|rewrite Est; reflexivity|rewrite Est; cbn [mk_ctr]; lia|rewrite <- Hm2; do 2 f_equal; lia].
  Qed.
  Lemma to_frame n : bt_over (nst n) = false -> f2_stuck (b_f2 (nst n)) ->
    done_or n (fun m => mk_fsm_st (b_mk (nst m)) = MK_FRAME /\ b_f2 (nst m) = b_f2 (nst n)).
  Proof.
    intros Ho F. assert (X : forall n, bt_over (nst n) = false -> f2_stuck (b_f2 (nst n)) -> mk_fsm_st (b_mk (nst n)) = MK_START ->
      done_or n (fun m => mk_fsm_st (b_mk (nst m)) = MK_FRAME /\ b_f2 (nst m) = b_f2 (nst n))).
    { clear n Ho F. intros n Ho F Es. destruct (ready_fair n) as (m & Lm & Hm). pose proof (n_mk n Ho Es).
      apply (to_frame_start (Z.to_nat (mk_ctr (b_mk (nst n)))) (m - n)%nat n Ho F Es); [lia|rewrite <- Hm; do 2 f_equal; lia]. }
    destruct (mk_fsm_st (b_mk (nst n))) eqn:Es; try (exfalso; unfold bt_over, mk_past in Ho; rewrite Es in Ho; discriminate).
    - assert (Hm : mbusy n = true) by (unfold mbusy, mk_comb; rewrite Es; reflexivity). pose proof (f2_busy_step n F Hm) as Ef.
      apply (done_or_later n (S n)); [lia|]. destruct (bt_over (nst (S n))) eqn:Ho'; [exists (S n); auto|]. rewrite <- Ef. apply X; [exact Ho'|rewrite Ef; exact F|].
      cbn [nst]. unfold bt_next. cbn [b_mk]. unfold mk_step. rewrite Es. cbn [mk_fsm_st bt_mk_in mki_valid]. rewrite (proj1 F). reflexivity.
    - apply X; assumption.
    - apply done_or_now. auto.
  Qed.
  (* the marker stage lets a blocked word through *)
  Lemma wait_open n : bt_over (nst n) = false -> f2_stuck (b_f2 (nst n)) ->
    done_or n (fun m => mbusy m = false /\ b_f2 (nst m) = b_f2 (nst n)).
  Proof.
    intros Ho F. apply (done_or_bind n _ _ (to_frame n Ho F)). intros m _ Hom [Em Ef]. rewrite <- Ef in *. clear n Ho Ef. rename m into n.
    destruct (ready_fair n) as (m & Lm & Hm). assert (Hk : bi_busy (ins (n + (m - n))%nat) = false) by (rewrite <- Hm; do 2 f_equal; lia).
    clear Lm Hm. revert Hk. generalize (m - n)%nat as k. clear m. intros k. revert n F Hom Em. induction k as [|k IH]; intros n F Hom Em Hb.
    - rewrite Nat.add_0_r in Hb. destruct (mbusy n) eqn:E; [|apply done_or_now; auto]. exists (S n). split; [lia|]. left.
      unfold mbusy, mk_comb in E. rewrite Em in E. unfold bt_over. cbn [nst]. unfold bt_next. cbn [b_mk]. unfold mk_step. rewrite Em.
      destruct (mk_end_cond (b_mk (nst n))); [reflexivity|]. destruct (mki_force _); [reflexivity|]. cbn in E. congruence.
    - destruct (mbusy n) eqn:E; [|apply done_or_now; auto]. pose proof (f2_busy_step n F E) as Ef. apply (done_or_later n (S n)); [lia|].
      destruct (bt_over (nst (S n))) eqn:Ho'; [exists (S n); auto|]. rewrite <- Ef. apply IH; [rewrite Ef; exact F|exact Ho'| |rewrite <- Hb; do 2 f_equal; lia].
      unfold bt_over in Ho'. revert Ho'. cbn [nst]. unfold bt_next. cbn [b_mk]. unfold mk_step. rewrite Em. cbn [mk_fsm_st].
      destruct (mk_end_cond (b_mk (nst n))); [discriminate|]. destruct (mki_force _); [discriminate|]. reflexivity.
  Qed.
  Lemma open_frame n : mbusy n = false -> mk_fsm_st (b_mk (nst n)) = MK_FRAME /\ mk_end_cond (b_mk (nst n)) = false /\ fe_fend (b_fe (nst n)) = false /\ bi_busy (ins n) = false.
  Proof.
    unfold mbusy, mk_comb. destruct (mk_fsm_st (b_mk (nst n))); try discriminate; try (destruct (_ && _); discriminate).
    destruct (mk_end_cond _); [discriminate|]. cbn [bt_mk_in mki_force mki_busy]. destruct (fe_fend _); [discriminate|]. cbn. auto.
  Qed.
  Lemma open_end n Q : mbusy n = false -> f2_vout (b_f2 (nst n)) = true -> f2_eout (b_f2 (nst n)) = true -> done_or n Q.
  Proof.
    intros E Hv He. destruct (open_frame n E) as (E1 & E2 & E3 & E4). exists (S (S n)). split; [lia|]. left.
    assert (X : b_mk (nst (S n)) = {| mk_fsm_st := MK_FRAME; mk_ctr := mk_ctr (b_mk (nst n)); mk_end_cond := true |}).
    { cbn [nst]. unfold bt_next. cbn [b_mk]. unfold mk_step. rewrite E1, E2. cbn [bt_mk_in mki_force mki_busy mki_valid mki_end]. rewrite E3, E4, Hv, He. reflexivity. }
    unfold bt_over. change (nst (S (S n))) with (bt_next c mem (nst (S n)) (ins (S n))). unfold bt_next. cbn [b_mk]. unfold mk_step. rewrite X. reflexivity.
  Qed.
  Lemma f2_open_step n : mbusy n = false -> exists i, f2i_busy i = false /\ b_f2 (nst (S n)) = f2_step (b_f2 (nst n)) i.
  Proof. intros E. eexists. split; [|reflexivity]. exact E. Qed.

  (* an end held by fix_0xff2 ends the frame *)
  Lemma end_over n Q : bt_over (nst n) = false -> f2_fsm_st (b_f2 (nst n)) = F2_END -> done_or n Q.
  Proof.
    intros Ho Es. destruct (n_f2 n Ho) as (d & B & e & I). unfold f2_inv in I. rewrite Es in I. destruct I as (_ & V & E & _).
    apply (done_or_bind n _ _ (wait_open n Ho ltac:(split; [exact V|congruence]))). intros m _ Hom [Em Ef]. apply (open_end m Q Em); rewrite Ef; assumption.
  Qed.
  Lemma preend_over n Q : bt_over (nst n) = false -> f2_fsm_st (b_f2 (nst n)) = F2_PRE_END -> done_or n Q.
  Proof.
    intros Ho Es. destruct (n_f2 n Ho) as (d & B & e & I). unfold f2_inv in I. rewrite Es in I. destruct I as (_ & V & E & _).
    apply (done_or_bind n _ _ (wait_open n Ho ltac:(split; [exact V|congruence]))). intros m _ Hom [Em Ef].
    destruct (f2_dval (b_f2 (nst n))) eqn:Ed.
    - apply (done_or_later m (S m)); [lia|]. destruct (bt_over (nst (S m))) eqn:Ho'; [exists (S m); auto|]. apply end_over; [exact Ho'|].
      destruct (f2_open_step m Em) as (i & Hb & ->). rewrite Ef. unfold f2_step. rewrite Es, Hb, Ed. reflexivity.
    - apply (open_end m Q Em); rewrite Ef; assumption.
  Qed.
  Lemma clean_end_over K : forall n Q, bt_over (nst n) = false -> f2_fsm_st (b_f2 (nst n)) = F2_CLEAN -> f2_endr (b_f2 (nst n)) = true ->
    (if f2_dval (b_f2 (nst n)) then 10 else 0) + f2_cnt (b_f2 (nst n)) < Z.of_nat K -> done_or n Q.
  Proof.
    induction K as [|K IH]; intros n Q Ho Es Er HK; destruct (n_f2 n Ho) as (d & B & e & I); unfold f2_inv in I; rewrite Es in I; destruct I as (_ & V & _ & _ & _ & C & _).
    - exfalso. destruct (f2_dval _); lia.
    - apply (done_or_bind n _ _ (wait_open n Ho ltac:(split; [exact V|congruence]))). intros m _ Hom [Em Ef].
      apply (done_or_later m (S m)); [lia|]. destruct (bt_over (nst (S m))) eqn:Ho'; [exists (S m); auto|].
      destruct (f2_open_step m Em) as (i & Hb & Es'). rewrite Ef in Es'. unfold f2_step in Es'. rewrite Es, Hb in Es'. cbn [negb] in Es'.
      destruct (f2_dval (b_f2 (nst n))) eqn:Ed; cbn [negb] in Es'.
      + apply IH; [exact Ho'|rewrite Es'; reflexivity|rewrite Es'; exact Er|]. rewrite Es'. cbn [f2_drain f2_dval f2_cnt]. lia.
      + destruct (f2_cnt (b_f2 (nst n)) <=? 2) eqn:Ec.
        * apply end_over; [exact Ho'|]. rewrite Es'. unfold f2_clean. cbn [f2_fsm_st]. rewrite Er, Ec. reflexivity.
        * assert (E3 : f2_cnt (b_f2 (nst n)) = 3) by lia. apply IH; [exact Ho'|rewrite Es'; unfold f2_clean; cbn [f2_fsm_st]; rewrite Er, Ec; reflexivity|rewrite Es'; exact Er|].
          rewrite Es'. unfold f2_clean. cbn [f2_dval f2_cnt]. rewrite E3, Ed. cbn. rewrite E3 in HK. lia.
  Qed.
  Lemma ended_over n Q : bt_over (nst n) = false -> f2_ended (b_f2 (nst n)) -> done_or n Q.
  Proof.
    intros Ho [[E1 E2]|[E|E]]; [|apply preend_over; assumption|apply end_over; assumption].
    apply (clean_end_over (Z.to_nat ((if f2_dval (b_f2 (nst n)) then 10 else 0) + f2_cnt (b_f2 (nst n)) + 1)) n Q Ho E1 E2).
    destruct (n_f2 n Ho) as (d & B & e & I); unfold f2_inv in I; rewrite E1 in I. destruct (f2_dval _); lia.
  Qed.

  (* fix_0xff2 becomes free *)
  Lemma f2_frees n : bt_over (nst n) = false -> done_or n (fun m => f2_obusy (b_f2 (nst m)) = false).
  Proof.
    intros Ho. destruct (f2_obusy (b_f2 (nst n))) eqn:Eo; [|apply done_or_now; auto].
    destruct (n_f2 n Ho) as (d & B & e & I).
    assert (Cl : forall n, bt_over (nst n) = false -> f2_fsm_st (b_f2 (nst n)) = F2_CLEAN -> f2_dval (b_f2 (nst n)) = false -> done_or n (fun m => f2_obusy (b_f2 (nst m)) = false)).
    { clear n Ho Eo d B e I. intros n Ho Es Ed. destruct (f2_endr (b_f2 (nst n))) eqn:Er; [apply ended_over; [exact Ho|left; auto]|].
      destruct (n_f2 n Ho) as (d & B & e & I). unfold f2_inv in I. rewrite Es in I. destruct I as (_ & V & _).
      apply (done_or_bind n _ _ (wait_open n Ho ltac:(split; [exact V|congruence]))). intros m _ Hom [Em Ef].
      apply (done_or_later m (S m)); [lia|]. apply done_or_now. intros _.
      destruct (f2_open_step m Em) as (i & Hb & ->). rewrite Ef. unfold f2_step. rewrite Es, Hb, Ed. cbn [negb]. unfold f2_clean. cbn [f2_obusy]. rewrite Er. reflexivity. }
    destruct (f2_fsm_st (b_f2 (nst n))) eqn:Es.
    - unfold f2_inv in I. rewrite Es in I. destruct I as (O1 & O2 & _). rewrite Eo in O1.
      apply (done_or_bind n _ _ (wait_open n Ho ltac:(split; auto))). intros m _ Hom [Em Ef].
      apply (done_or_later m (S m)); [lia|]. apply done_or_now. intros _. destruct (f2_open_step m Em) as (i & Hb & ->). rewrite Ef.
      unfold f2_step. rewrite Es. unfold f2_normal. rewrite Hb, <- O1, Eo. reflexivity.
    - destruct (f2_dval (b_f2 (nst n))) eqn:Ed; [|apply Cl; assumption]. unfold f2_inv in I. rewrite Es in I. destruct I as (_ & V & _).
      apply (done_or_bind n _ _ (wait_open n Ho ltac:(split; [exact V|congruence]))). intros m _ Hom [Em Ef].
      apply (done_or_later m (S m)); [lia|]. destruct (bt_over (nst (S m))) eqn:Ho'; [exists (S m); auto|].
      destruct (f2_open_step m Em) as (i & Hb & Es'). rewrite Ef in Es'. unfold f2_step in Es'. rewrite Es, Hb, Ed in Es'. cbn [negb] in Es'.
      apply Cl; [exact Ho'|rewrite Es'; reflexivity|rewrite Es'; reflexivity].
    - apply preend_over; assumption.
    - apply end_over; assumption.
  Qed.
  Lemma f2_frees_first n : bt_over (nst n) = false ->
    exists m, (n <= m)%nat /\ (bt_over (nst m) = true \/ (bt_over (nst m) = false /\ f2_obusy (b_f2 (nst m)) = false)) /\
      forall j, (n <= j < m)%nat -> f2_obusy (b_f2 (nst j)) = true /\ bt_over (nst j) = false.
  Proof.
    intros Ho. destruct (f2_frees n Ho) as (m & L & X).
    destruct (least (fun k => bt_over (nst k) || negb (f2_obusy (b_f2 (nst k)))) (m - n) n) as (m' & L' & Pm & Pj).
    { replace (n + (m - n))%nat with m by lia. destruct X as [-> |[_ ->]]; [reflexivity|apply orb_true_r]. }
    exists m'. split; [lia|]. split.
    - destruct (bt_over (nst m')); [auto|right; split; [reflexivity|]]. cbn in Pm. destruct (f2_obusy (b_f2 (nst m'))); [discriminate|reflexivity].
    - intros j Hj. specialize (Pj j Hj). apply orb_false_elim in Pj. destruct Pj as [P1 P2]. split; [|exact P1]. destruct (f2_obusy (b_f2 (nst j))); [reflexivity|discriminate].
  Qed.
  Lemma f1_frees n : done_or n (fun m => f1_obusy (b_f1 (nst m)) = false).
  Proof.
    destruct (bt_over (nst n)) eqn:Ho; [exists n; auto|]. apply (done_or_bind n _ _ (f2_frees n Ho)). intros m _ Hom Em.
    apply (done_or_later m (S m)); [lia|]. apply done_or_now. intros _. cbn [nst]. unfold bt_next. cbn [b_f1 fst fx_step]. unfold f1_step, fx_in1.
    cbn [f1i_busy f1i_data f1i_valid f1i_end snd fst]. rewrite Em. destruct (f1_logic _). cbn [negb]. destruct (negb _); reflexivity.
  Qed.

  Definition f1_has1 (s : f1_st) : Prop := f1_vout s = true /\ f1_eout s = true.
  Definition f1_has2 (s : f1_st) : Prop := f1_vout s = true /\ f1_dval s = true /\ f1_obusy s = true /\ f1_ereg s = true.
  Lemma f1_hold s i : f1i_busy i = true -> (f1_has1 s -> f1_has1 (f1_step s i)) /\ (f1_has2 s -> f1_has2 (f1_step s i)).
  Proof.
    intros Hb. unfold f1_step. destruct (f1_logic _) as [ld lc]. rewrite Hb. cbn [negb]. split.
    - intros [V E]. rewrite V. cbn [negb]. destruct (_ && _); split; cbn; auto.
    - intros (V & D & O & R). rewrite V, O. cbn [negb]. rewrite andb_false_r. repeat split; cbn; auto.
  Qed.
  Lemma has1_ends n : bt_over (nst n) = false -> f1_has1 (b_f1 (nst n)) -> done_or n (fun _ => False).
  Proof.
    intros Ho E1. destruct (f2_frees_first n Ho) as (m & L & X & Hj).
    assert (Hold : f1_has1 (b_f1 (nst m))).
    { clear X. induction L as [|m L IH]; [exact E1|]. assert (Hm : f1_has1 (b_f1 (nst m))) by (apply IH; intros; apply Hj; lia).
      cbn [nst]. unfold bt_next. cbn [b_f1 fst fx_step]. apply f1_hold; [|exact Hm]. cbn [fx_in1 f1i_busy snd]. apply Hj. lia. }
    apply (done_or_later n m); [exact L|]. destruct X as [X|[Hom Eo]]; [exists m; auto|]. destruct Hold as [V E].
    destruct (n_f2 m Hom) as (d & B & e & I). unfold f2_inv in I. destruct (f2_fsm_st (b_f2 (nst m))) eqn:Es.
    - apply (done_or_later m (S m)); [lia|]. destruct (bt_over (nst (S m))) eqn:Ho'; [exists (S m); auto|]. apply ended_over; [exact Ho'|].
      cbn [nst]. unfold bt_next. cbn [b_f2 snd fx_step]. unfold f2_step. rewrite Es. unfold f2_normal, normal_logic, fx_in2. cbn [f2i_valid f2i_data f2i_ctr f2i_end f2i_busy fst snd].
      rewrite V, E, Eo. cbn [negb]. rewrite orb_true_r. destruct ((f2_cnt _ =? 0) && _); cbn [nl_next nl_endr oget].
      + right. left. destruct (if negb _ then _ else _) as [[[[? ?] ?] ?] ?]. reflexivity.
      + left. destruct (if negb _ then _ else _) as [[[[? ?] ?] ?] ?]. split; reflexivity.
    - destruct I as (X & _). congruence.
    - apply ended_over; [exact Hom|right; left; exact Es].
    - apply ended_over; [exact Hom|right; right; exact Es].
  Qed.
  Lemma has2_ends n : bt_over (nst n) = false -> f1_has2 (b_f1 (nst n)) -> done_or n (fun _ => False).
  Proof.
    intros Ho E1. destruct (f2_frees_first n Ho) as (m & L & X & Hj).
    assert (Hold : f1_has2 (b_f1 (nst m))).
    { clear X. induction L as [|m L IH]; [exact E1|]. assert (Hm : f1_has2 (b_f1 (nst m))) by (apply IH; intros; apply Hj; lia).
      cbn [nst]. unfold bt_next. cbn [b_f1 fst fx_step]. apply f1_hold; [|exact Hm]. cbn [fx_in1 f1i_busy snd]. apply Hj. lia. }
    apply (done_or_later n (S m)); [lia|]. destruct X as [X|[Hom Eo]]; [exists (S m); split; [lia|left; apply over_S; exact X]|]. destruct Hold as (V & D & _ & E).
    destruct (bt_over (nst (S m))) eqn:Ho'; [exists (S m); auto|]. apply has1_ends; [exact Ho'|].
    cbn [nst]. unfold bt_next. cbn [b_f1 fst fx_step]. unfold f1_step, fx_in1. cbn [f1i_busy f1i_data f1i_valid f1i_end snd fst]. rewrite Eo, D. destruct (f1_logic _). cbn [negb].
    split; [reflexivity|exact E].
  Qed.
  (* the end word entering fix_0xff ends the frame *)
  Lemma end_taken n : bt_over (nst n) = false -> i3_valid_out (b_i3 (nst n)) = true -> i3_end_out (b_i3 (nst n)) = true -> f1_obusy (b_f1 (nst n)) = false ->
    done_or n (fun _ => False).
  Proof.
    intros Ho Hv He Eo. apply (done_or_later n (S n)); [lia|]. destruct (bt_over (nst (S n))) eqn:Ho'; [exists (S n); auto|].
    pose proof (n_f1 n Ho) as [F1 F2]. rewrite Eo in F1.
    assert (X : f1_has1 (b_f1 (nst (S n))) \/ f1_has2 (b_f1 (nst (S n)))).
    { cbn [nst]. unfold bt_next. cbn [b_f1 fst fx_step]. unfold f1_step, fx_in1, bt_fx_in. cbn [f1i_busy f1i_data f1i_valid f1i_end fxi_valid fxi_end fxi_data fxi_busy snd fst].
      rewrite Hv, He, Eo, <- F1. destruct (f1_logic _). cbn [negb andb]. destruct (f2_obusy _); cbn [negb]; [|left; split; reflexivity].
      destruct (f1_vout (b_f1 (nst n))) eqn:Ev; cbn [negb]; [right|left; split; reflexivity]. repeat split; cbn; assumption || reflexivity. }
    destruct X; [apply has1_ends|apply has2_ends]; assumption.
  Qed.

  (* the trailer goes out *)
  Lemma past_ctr n : b_rst (nst n) = false -> mk_past (b_mk (nst n)) = true ->
    1 <= mk_ctr (b_mk (nst n)) <= 8 /\ (mk_fsm_st (b_mk (nst n)) = MK_ENDM \/ mk_fsm_st (b_mk (nst n)) = MK_FENDM).
  Proof.
    intros Hr Hp. destruct (ninv n Hr) as (A & O & P & hist & d1 & d2 & _ & _ & I & R). unfold mk_inv in I. unfold mk_past in Hp.
    assert (Hx : forall w (x : list (Z * bool)), cut O = x ++ [(w, true)] -> False).
    { intros w x X. assert (Y : existsb snd (cut O) = true) by (rewrite X, existsb_app; cbn; apply orb_true_r). rewrite existsb_cut in Y. congruence. }
    destruct (mk_fsm_st (b_mk (nst n))) eqn:Es; try discriminate; try tauto; exfalso; destruct I as [D _]; exact (Hx _ _ D).
  Qed.
  Lemma trailer K : forall k n, b_rst (nst n) = false -> mk_past (b_mk (nst n)) = true -> mk_ctr (b_mk (nst n)) <= Z.of_nat K -> bi_busy (ins (n + k)%nat) = false ->
    exists m, (n <= m)%nat /\ b_rst (nst m) = true.
  Proof.
    induction K as [|K IHK]; induction k as [|k IHk]; intros n Hr Hp HK Hb; destruct (past_ctr n Hr Hp) as [Hc Hs]; try lia;
      (destruct (b_rst (nst (S n))) eqn:Hr'; [exists (S n); split; [lia|exact Hr']|]);
      assert (Hp' : mk_past (b_mk (nst (S n))) = true) by
        (pose proof (over_S n ltac:(unfold bt_over; rewrite Hp; reflexivity)) as X; unfold bt_over in X; rewrite Hr', orb_false_r in X; exact X);
      assert (Est : b_mk (nst (S n)) = mk_step (b_mk (nst n)) (bt_mk_in (nst n) (ins n))) by reflexivity;
      unfold mk_step in Est; cbn [bt_mk_in mki_busy] in Est.
    - rewrite Nat.add_0_r in Hb. rewrite Hb in Est. cbn [negb] in Est. rewrite trunc_id in Est by (change (2 ^ 4) with 16; lia).
      destruct (ready_fair (S n)) as (m & Lm & Hm). destruct (IHK (m - S n)%nat (S n) Hr' Hp') as (m' & L' & X); [|rewrite <- Hm; do 2 f_equal; lia|exists m'; split; [lia|exact X]].
      rewrite Est. destruct Hs as [Hs|Hs]; rewrite Hs; cbn [mk_ctr]; lia.
    - destruct (bi_busy (ins n)) eqn:Eb; cbn [negb] in Est.
      + destruct (IHk (S n) Hr' Hp') as (m' & L' & X); [rewrite Est; destruct Hs as [Hs|Hs]; rewrite Hs; exact HK|rewrite <- Hb; do 2 f_equal; lia|exists m'; split; [lia|exact X]].
      + rewrite trunc_id in Est by (change (2 ^ 4) with 16; lia). destruct (ready_fair (S n)) as (m & Lm & Hm).
        destruct (IHK (m - S n)%nat (S n) Hr' Hp') as (m' & L' & X); [|rewrite <- Hm; do 2 f_equal; lia|exists m'; split; [lia|exact X]].
        rewrite Est. destruct Hs as [Hs|Hs]; rewrite Hs; cbn [mk_ctr]; lia.
  Qed.
  Lemma over_resets n : bt_over (nst n) = true -> exists m, (n <= m)%nat /\ b_rst (nst m) = true.
  Proof.
    intros Ho. destruct (b_rst (nst n)) eqn:Hr; [exists n; auto|]. unfold bt_over in Ho. rewrite Hr, orb_false_r in Ho.
    destruct (ready_fair n) as (m & Lm & Hm). apply (trailer (Z.to_nat (mk_ctr (b_mk (nst n)))) (m - n)%nat n Hr Ho); [lia|rewrite <- Hm; do 2 f_equal; lia].
  Qed.

  (* the encoder, followed beyond the frame with harmless input *)
  Definition jin (n : nat) : i3_in :=
    if bt_over (nst n) then {| in_valid := true; in_px := repeat 0 (Z.to_nat (ps c)); in_busy := false; in_w := W; in_h := H |} else bt_i3_in (nst n) (ins n).
  Let js n := i3_run c mem i3 (upto jin n).
  Lemma js_S n : js (S n) = i3_step c mem (js n) (jin n).
  Proof. unfold js. rewrite upto_S, i3_run_app. reflexivity. Qed.
  Lemma js_eq n : (forall k, (k < n)%nat -> bt_over (nst k) = false) -> js n = b_i3 (nst n).
  Proof.
    induction n as [|n IH]; intros Hn; [reflexivity|]. rewrite js_S, IH by (intros; apply Hn; lia). unfold jin. rewrite Hn by lia. reflexivity.
  Qed.
  Lemma not_over_before n : bt_over (nst n) = false -> forall k, (k <= n)%nat -> bt_over (nst k) = false.
  Proof. intros E k L. destruct (bt_over (nst k)) eqn:Ek; [|reflexivity]. rewrite (over_le k n L Ek) in E. discriminate. Qed.

  Fixpoint nacc (n : nat) : list (list Z) := match n with O => [] | S k => nacc k ++ bt_took (nst k) (ins k) end.
  Lemma jacc_eq n : bt_over (nst n) = false -> i3_accepted c mem i3 (upto jin n) = nacc n.
  Proof.
    induction n as [|n IH]; intros E; [reflexivity|]. pose proof (not_over_before _ E) as Hb. rewrite upto_S, accepted_app, IH by (apply Hb; lia).
    cbn [nacc i3_accepted]. rewrite app_nil_r. f_equal. fold (js n). rewrite js_eq by (intros; apply Hb; lia). unfold jin. rewrite Hb by lia. reflexivity.
  Qed.
  Hypothesis valid_fair : forall n, bt_over (nst n) = false -> len (concat (nacc n)) < W * H -> exists m, (n <= m)%nat /\ bi_valid (ins m) = true.

  Lemma transfers_end n : existsb snd (i3_transfers c mem i3 (upto jin n)) = true ->
    exists k, (k < n)%nat /\ existsb snd (transferred (s_vb (js k)) (in_busy (jin k))) = true.
  Proof.
    induction n as [|n IH]; [discriminate|]. rewrite upto_S, transfers_app, existsb_app. intros E. apply orb_prop in E. destruct E as [E|E].
    - destruct (IH E) as (k & L & X). exists k. split; [lia|exact X].
    - exists n. split; [lia|]. cbn [i3_transfers] in E. rewrite app_nil_r in E. exact E.
  Qed.
  Theorem frame_resets : exists n, b_rst (nst n) = true.
  Proof.
    destruct HY as (Hc & Ho & Ht & [Hf Hb]).
    assert (Hend : exists n, existsb snd (i3_transfers c mem i3 (upto jin n)) = true).
    { apply (live_end c t W H i3 jin Hc Ht Hf Hi).
      - intros n. fold mem. fold (js n). unfold jin. destruct (bt_over (nst n)) eqn:E.
        + intros _. cbn [in_px in_w in_h]. split; [|auto]. assert (1 <= ps c) by (unfold cfg_ok in Hc; lia). assert (2 <= bd c) by (unfold cfg_ok in Hc; lia). split; [unfold len; rewrite repeat_length; lia|].
          apply Forall_forall. intros x Hx. apply repeat_spec in Hx. subst x. split; [lia|apply pow2_pos; lia].
        + rewrite js_eq by (intros; apply (not_over_before n E); lia). exact (Hok n (not_over n E)).
      - intros n. destruct (f1_frees n) as (m & L & X). exists m. split; [exact L|]. unfold jin. destruct X as [-> |[-> X]]; [reflexivity|exact X].
      - intros n Hl. destruct (bt_over (nst n)) eqn:E; [exists n; split; [lia|unfold jin; rewrite E; reflexivity]|].
        fold mem in Hl. rewrite jacc_eq in Hl by exact E. destruct (valid_fair n E Hl) as (m & L & V). exists m. split; [exact L|]. unfold jin. destruct (bt_over (nst m)); [reflexivity|exact V]. }
    destruct Hend as (n & Hn). destruct (transfers_end n Hn) as (k & _ & X).
    assert (K : exists m, bt_over (nst m) = true).
    { destruct (bt_over (nst k)) eqn:E; [eauto|]. rewrite js_eq in X by (intros; apply (not_over_before k E); lia). unfold jin in X. rewrite E in X.
      unfold transferred in X. cbn [bt_i3_in in_busy] in X. destruct (vo_valid _) eqn:Ev; [|discriminate]. destruct (f1_obusy _) eqn:Eo; [discriminate|]. cbn in X. rewrite orb_false_r in X.
      destruct (end_taken k E Ev X Eo) as (m & _ & [Y|[_ []]]). eauto. }
    destruct K as (m & Hm). destruct (over_resets m Hm) as (m' & _ & R). eauto.
  Qed.
End blive.
