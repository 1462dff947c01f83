(* When a frame is over: the time limit plus a constant number of cycles in which the sink is ready. *)
From Verif Require Import Bits Spec Spec_Core Spec_Beta M_Config M_Encode M_I1 M_Fifo M_I3 M_Fix M_Markers M_Beta
  P_Encode P_Tokens P_I3 P_Decode P_Run P_Live P_Fix P_Markers Props_Arith Props_Core Props_Frame P_Pack P_Beta Props_Beta P_BetaLive Props_BetaLive P_Stall P_Budget.
Ltac Zify.zify_post_hook ::= idtac.

(* number of cycles in which the sink is ready *)
Definition ready_cycles (l : list bt_in) : Z := len (filter (fun i => negb (bi_busy i)) l).

(* cycles until force_end is raised *)
Definition fl (n : Z) (f : fe_st) : Z :=
  match fe_fsm_st f with FE_IDLE => n + 3 | FE_COUNTING => n - fe_ctr f + 2 | FE_END => if fe_fend f then 0 else 1 end.
(* ready cycles until the end word, once force_end is raised *)
Definition ml (m : mk_st) : Z :=
  match mk_fsm_st m with MK_IDLE => 19 | MK_START => mk_ctr m + 10 | MK_FRAME => 9 | MK_ENDM | MK_FENDM => mk_ctr m | _ => 0 end.

Lemma fl_step n A f e v a : 0 <= n < 2 ^ 24 -> a = n -> A <> [] -> fe_ok n A f e -> fl n (fe_step f v a) <= Z.max 0 (fl n f - 1).
Proof.
  intros Hn -> HA. unfold fe_ok, fl, fe_step. destruct (fe_fsm_st f).
  - intros (X & _). contradiction.
  - intros (_ & H2 & H3 & _). cbn [fe_fsm_st fe_ctr fe_fend]. rewrite trunc_id by (change (2 ^ 24) with 16777216 in Hn; change (2 ^ 25) with 33554432; lia). rewrite H3. destruct (fe_ctr f =? n) eqn:E; lia.
  - intros _. cbn [fe_fsm_st fe_fend]. destruct (fe_fend f); lia.
Qed.
Lemma fl_zero n A f e : 0 <= n -> fe_ok n A f e -> fl n f <= 0 -> fe_fend f = true.
Proof. intros Hn. unfold fe_ok, fl. destruct (fe_fsm_st f); [intros _; lia|lia|]. destruct (fe_fend f); [reflexivity|lia]. Qed.
Lemma fl_start n A f e : A <> [] -> fe_ok n A f e -> fl n f <= n + 2 \/ fl n f <= 1.
Proof. intros HA. unfold fe_ok, fl. destruct (fe_fsm_st f); [intros (X & _); contradiction|lia|]. destruct (fe_fend f); lia. Qed.

Lemma rst_next c mem s i : b_rst s = false -> b_rst (bt_next c mem s i) = existsb snd (bt_gave s i).
Proof.
  intros Hr. unfold bt_next. cbn [b_rst]. unfold ar_step, bt_gave. rewrite Hr, orb_false_r. destruct (mko_valid (bt_out s i)), (bi_busy i), (mko_end (bt_out s i)); reflexivity.
Qed.
Lemma ml_step c mem n A O s i : bud_inv n A O s -> b_rst s = false -> fe_fend (b_fe s) = true -> mk_fsm_st (b_mk s) <> MK_IDLE ->
  let s' := bt_next c mem s i in
  fe_fend (b_fe s') = true /\ (b_rst s' = false -> mk_fsm_st (b_mk s') <> MK_IDLE /\ 1 <= ml (b_mk s') <= ml (b_mk s) - if bi_busy i then 0 else 1).
Proof.
  intros B Hr Hf Hm s'. split.
  - unfold s', bt_next. cbn [b_fe]. unfold fe_step. destruct (fe_fsm_st (b_fe s)); cbn [fe_fend]; auto.
  - unfold s'. rewrite rst_next by exact Hr. destruct (B Hr) as (_ & e & _ & Bm). unfold bt_next. cbn [b_mk]. unfold bt_gave, bt_out, mk_comb, mk_step, ml. cbn [bt_mk_in mki_busy mki_valid mki_force mki_data]. rewrite Hf.
    destruct (mk_fsm_st (b_mk s)) eqn:Est; try contradiction.
    + destruct Bm as (_ & B2 & _). destruct (bi_busy i); cbn [negb andb]; [intros _; cbn [mk_fsm_st mk_ctr]; split; [discriminate|lia]|]. destruct (mk_ctr (b_mk s) =? 0) eqn:E0; cbn [mk_fsm_st mk_ctr]; intros _; (split; [discriminate|]); [lia|].
      rewrite trunc_id by (change (2 ^ 4) with 16; lia). lia.
    + destruct Bm as (_ & B2 & _). destruct (bi_busy i); cbn [negb andb mko_valid mko_data mko_end existsb snd orb mk_fsm_st mk_ctr]; [intros _; split; [discriminate|lia]|]. destruct (mk_ctr (b_mk s) =? 1) eqn:E0; [discriminate|]. intros _.
      rewrite trunc_id by (change (2 ^ 4) with 16; lia). split; [discriminate|]. lia.
    + destruct Bm as (_ & B2 & _). destruct (bi_busy i); cbn [negb andb mko_valid mko_data mko_end existsb snd orb mk_fsm_st mk_ctr]; [intros _; split; [discriminate|lia]|]. destruct (mk_ctr (b_mk s) =? 1) eqn:E0; [discriminate|]. intros _.
      rewrite trunc_id by (change (2 ^ 4) with 16; lia). split; [discriminate|]. lia.
    + destruct Bm as (_ & B2 & _). rewrite B2. intros _. destruct (mk_end_cond (b_mk s)); cbn [mk_fsm_st mk_ctr]; (split; [discriminate|destruct (bi_busy i); lia]).
Qed.

Lemma log_first c mem : forall l A O s A' O', nth_error (bt_log c mem A O s l) 0 = Some (A', O') -> exists x y, A' = A ++ x /\ O' = O ++ y.
Proof.
  induction l as [|i l IH]; intros A O s A' O' E; cbn [bt_log] in E.
  - cbn in E. inversion E; subst. exists [], []. rewrite !app_nil_r. auto.
  - destruct (b_rst s).
    + cbn in E. inversion E; subst. eauto.
    + apply IH in E. destruct E as (x & y & -> & ->). rewrite <- !app_assoc. eauto.
Qed.
Lemma log_ended c mem l A O s A' O' : existsb snd O = true -> nth_error (bt_log c mem A O s l) 0 = Some (A', O') -> existsb snd O' = true.
Proof. intros He E. apply log_first in E. destruct E as (x & y & _ & ->). rewrite existsb_app, He. reflexivity. Qed.

Section run.
Variables (c : config) (t : table) (sizes : nat -> Z * Z) (allows : nat -> Z).
Hypothesis HY : forall k, bt_hyp c t (fst (sizes k)) (snd (sizes k)).
Hypothesis HA : forall k, 0 <= allows k < 2 ^ 24.
Let mem := mem_of (bd c) t.

Definition frame_at (n : nat) (A : list (list Z)) (O : list (Z * bool)) (s : bt_st) (l : list bt_in) : Prop :=
  bt_inv c t (fst (sizes n)) (snd (sizes n)) A O s /\ bud_inv (allows n) A O s /\ bt_env c mem sizes n s l /\ allowed_env c mem allows n A s l.

Lemma frame_start i3 l : is_reset c i3 -> bt_env c mem sizes 0 (bt_reset_with i3) l -> allowed_env c mem allows 0 [] (bt_reset_with i3) l -> frame_at 0 [] [] (bt_reset_with i3) l.
Proof. intros Hi HE HL. split; [apply bt_inv_init; [apply HY|exact Hi]|]. split; [apply bud_init, HA|]. split; assumption. Qed.
Lemma frame_next n A O s i l : frame_at n A O s (i :: l) -> b_rst s = false -> frame_at n (A ++ bt_took s i) (O ++ bt_gave s i) (bt_next c mem s i) l /\ bt_step c mem s i = bt_next c mem s i.
Proof.
  intros (I & B & [Hok HE] & [Hal HL]) Er. assert (Es : bt_step c mem s i = bt_next c mem s i) by (unfold bt_step; rewrite Er; reflexivity). split; [|exact Es].
  rewrite Es in *. rewrite Er in *. split; [apply bt_inv_next; [apply HY|exact Hok|exact I]|]. split; [|split; assumption]. apply (bud_step c t _ _ (allows n) A O s i (HY n) (HA n) I Er Hal B).
Qed.
Lemma frame_reset n A O s i l : frame_at n A O s (i :: l) -> b_rst s = true -> frame_at (S n) [] [] (bt_step c mem s i) l /\ existsb snd O = true.
Proof.
  intros (I & B & [Hok HE] & [Hal HL]) Er. split; [|destruct I as (P & hist & d1 & d2 & _ & _ & _ & X); congruence].
  destruct (bt_reset_ok _ _ _ _ _ _ _ _ (HY n) Hok I Er) as (i3 & Hi3 & Hst). fold mem in Hst. rewrite Hst in *. rewrite Er in *.
  split; [apply bt_inv_init; [apply HY|exact Hi3]|]. split; [apply bud_init, HA|]. split; assumption.
Qed.
Lemma frame_rst n A O s l : frame_at n A O s l -> b_rst s = existsb snd O.
Proof. intros ((P & hist & d1 & d2 & _ & _ & _ & X) & _). exact X. Qed.

(* where a run is after its first part *)
Lemma frame_reach : forall p rest n A O s, frame_at n A O s (p ++ rest) -> exists front A' O',
  bt_log c mem A O s p = front ++ [(A', O')] /\ (forall r, bt_log c mem A O s (p ++ r) = front ++ bt_log c mem A' O' (bt_run c mem s p) r) /\
  frame_at (n + length front) A' O' (bt_run c mem s p) rest.
Proof.
  induction p as [|i p IH]; intros rest n A O s F.
  - exists [], A, O. cbn [bt_log bt_run length]. rewrite Nat.add_0_r. auto.
  - cbn [app bt_log bt_run] in *. destruct (b_rst s) eqn:Er.
    + destruct (frame_reset _ _ _ _ _ _ F Er) as [F' _]. destruct (IH _ _ _ _ _ F') as (f & A' & O' & E1 & E2 & E3).
      exists ((A ++ bt_took s i, O ++ bt_gave s i) :: f), A', O'. rewrite E1. split; [reflexivity|]. split; [intros r; rewrite E2; reflexivity|]. cbn [length]. replace (n + S (length f))%nat with (S n + length f)%nat by lia. exact E3.
    + destruct (frame_next _ _ _ _ _ _ F Er) as [F' Es]. rewrite Es. apply (IH _ _ _ _ _ F').
Qed.

(* first phase: the time limit *)
Lemma limit_run : forall l rest n A O s A' O', frame_at n A O s (l ++ rest) -> A <> [] -> fl (allows n) (b_fe s) <= len l -> nth_error (bt_log c mem A O s l) 0 = Some (A', O') ->
  existsb snd O' = true \/ (forall r, bt_log c mem A O s (l ++ r) = bt_log c mem A' O' (bt_run c mem s l) r) /\ frame_at n A' O' (bt_run c mem s l) rest /\ fe_fend (b_fe (bt_run c mem s l)) = true.
Proof.
  induction l as [|i l IH]; intros rest n A O s A' O' F HNE Hl E; destruct (b_rst s) eqn:Er;
    try (left; pose proof (frame_rst _ _ _ _ _ F) as X; rewrite Er in X; exact (log_ended _ _ _ _ _ _ _ _ (eq_sym X) E)).
  - right. cbn in E. inversion E; subst. split; [reflexivity|]. split; [exact F|]. cbn [bt_run]. destruct F as (_ & B & _). destruct (B Er) as (_ & e & Fe & _). apply (fl_zero _ _ _ _ ltac:(apply HA) Fe). unfold len in Hl. cbn in Hl. lia.
  - cbn [app] in F. pose proof F as (_ & B & _ & [Hal _]). destruct (frame_next _ _ _ _ _ _ F Er) as [F' Es]. cbn [bt_log app bt_run] in *. rewrite Er in *. rewrite Es in *.
    destruct (B Er) as (_ & e & Fe & _). pose proof (fl_step (allows n) A (b_fe s) e (bt_accept s i) (bi_allowed i) (HA n) (Hal HNE) HNE Fe) as X. 
    change (fe_step (b_fe s) (bt_accept s i) (bi_allowed i)) with (b_fe (bt_next c mem s i)) in X. assert (len (i :: l) = 1 + len l) by (unfold len; cbn [length]; lia). pose proof (len_nonneg l).
    apply (IH rest n _ _ _ A' O' F'); [intros Y; apply app_eq_nil in Y; tauto|lia|exact E].
Qed.
(* second phase: the trailer *)
Lemma trailer_run : forall l n A O s A' O', frame_at n A O s l -> fe_fend (b_fe s) = true -> mk_fsm_st (b_mk s) <> MK_IDLE -> ml (b_mk s) <= ready_cycles l ->
  nth_error (bt_log c mem A O s l) 0 = Some (A', O') -> existsb snd O' = true.
Proof.
  induction l as [|i l IH]; intros n A O s A' O' F Hf Hm Hl E; destruct (b_rst s) eqn:Er;
    try (pose proof (frame_rst _ _ _ _ _ F) as X; rewrite Er in X; exact (log_ended _ _ _ _ _ _ _ _ (eq_sym X) E)).
  - exfalso. destruct F as (_ & B & _). destruct (B Er) as (_ & e & _ & Bm). unfold ml, ready_cycles, len in Hl. cbn [filter length] in Hl. destruct (mk_fsm_st (b_mk s)); try contradiction; lia.
  - pose proof F as (_ & B & _). destruct (frame_next _ _ _ _ _ _ F Er) as [F' Es]. cbn [bt_log] in *. rewrite Er in *. rewrite Es in *.
    destruct (ml_step c mem (allows n) A O s i B Er Hf Hm) as (G1 & G2). destruct (b_rst (bt_next c mem s i)) eqn:Er'.
    + pose proof (frame_rst _ _ _ _ _ F') as X. rewrite Er' in X. exact (log_ended _ _ _ _ _ _ _ _ (eq_sym X) E).
    + destruct (G2 eq_refl) as (G3 & G4). apply (IH n _ _ _ A' O' F' G1 G3); [|exact E].
      assert (ready_cycles (i :: l) = (if bi_busy i then 0 else 1) + ready_cycles l) by (unfold ready_cycles, len; cbn [filter]; destruct (bi_busy i); cbn [negb length]; lia). lia.
Qed.
Lemma out_begun n A O s l : frame_at n A O s l -> b_rst s = false -> O <> [] -> mk_fsm_st (b_mk s) <> MK_IDLE /\ ml (b_mk s) <= 17.
Proof.
  intros (_ & B & _) Er HO. destruct (B Er) as (_ & e & _ & Bm). assert (1 <= len O) by (destruct O; [congruence|unfold len; cbn [length]; lia]). unfold ml. destruct (mk_fsm_st (b_mk s)); try contradiction; (split; [discriminate|lia]).
Qed.

(* a frame that has taken a group, then allows n + 2 cycles by the end of which the first word is out, then 17 ready cycles: it is over *)
Lemma deadline l2 l3 n A O s A1 O1 A2 O2 : frame_at n A O s (l2 ++ l3) -> A <> [] -> allows n + 2 <= len l2 -> nth_error (bt_log c mem A O s l2) 0 = Some (A1, O1) -> O1 <> [] ->
  17 <= ready_cycles l3 -> nth_error (bt_log c mem A O s (l2 ++ l3)) 0 = Some (A2, O2) -> existsb snd O2 = true.
Proof.
  intros F HNE Hl2 E1 HO Hl3 E2. destruct (b_rst s) eqn:Er.
  { pose proof (frame_rst _ _ _ _ _ F) as X. rewrite Er in X. exact (log_ended _ _ _ _ _ _ _ _ (eq_sym X) E2). }
  assert (Hfl : fl (allows n) (b_fe s) <= len l2). { destruct F as (_ & B & _). destruct (B Er) as (_ & e & Fe & _). pose proof (HA n). destruct (fl_start (allows n) A (b_fe s) e HNE Fe); lia. }
  destruct (limit_run l2 l3 n A O s A1 O1 F HNE Hfl E1) as [X|(G1 & G2 & G3)].
  - destruct (frame_reach l2 l3 n A O s F) as (f & A' & O' & R1 & R2 & R3). rewrite R1 in E1. rewrite R2 in E2. destruct f as [|y f].
    + cbn in E1. inversion E1; subst. cbn [app] in E2. exact (log_ended _ _ _ _ _ _ _ _ X E2).
    + cbn in E1, E2. inversion E1; inversion E2; subst. congruence.
  - rewrite G1 in E2. destruct (b_rst (bt_run c mem s l2)) eqn:Er2.
    + pose proof (frame_rst _ _ _ _ _ G2) as X. rewrite Er2 in X. exact (log_ended _ _ _ _ _ _ _ _ (eq_sym X) E2).
    + destruct (out_begun _ _ _ _ _ G2 Er2 HO) as (K1 & K2). apply (trailer_run l3 n _ _ _ A2 O2 G2 G3 K1 ltac:(lia) E2).
Qed.

(* T cycles after a moment at which nothing had been accepted *)
Definition early_inv (n T : Z) (A : list (list Z)) (O : list (Z * bool)) (s : bt_st) : Prop :=
  match fe_fsm_st (b_fe s) with FE_IDLE => fe_fend (b_fe s) = false /\ fe_ctr (b_fe s) = 0 | FE_COUNTING => fe_fend (b_fe s) = false /\ 0 <= fe_ctr (b_fe s) <= n /\ fe_ctr (b_fe s) + 1 <= T | FE_END => n + (if fe_fend (b_fe s) then 3 else 2) <= T end /\
  match mk_fsm_st (b_mk s) with MK_FENDM => n + 12 - mk_ctr (b_mk s) <= T /\ 1 <= mk_ctr (b_mk s) | MK_FDONE => n + 12 <= T | _ => True end /\
  (In (65534, true) O -> n + 12 <= T).
Lemma early_gave n T A O s i : early_inv n T A O s -> In (65534, true) (bt_gave s i) -> n + 12 <= T + 1.
Proof.
  intros (_ & E2 & _) X. unfold bt_gave, bt_out, mk_comb in X. cbn [bt_mk_in mki_busy mki_valid mki_force mki_data] in X. destruct (mk_fsm_st (b_mk s)) eqn:Est.
  - destruct X.
  - destruct (bi_busy i); cbn [negb andb mko_valid mko_data mko_end] in X; [destruct X|]. destruct (mk_ctr (b_mk s) =? 0); cbn in X; [destruct X|]. destruct X as [X|[]]. inversion X.
  - destruct (bi_busy i); cbn in X; [destruct X|]. destruct X as [X|[]]. inversion X.
  - destruct (bi_busy i); cbn [negb andb mko_valid mko_data mko_end] in X; [destruct X|]. destruct X as [X|[]]. inversion X as [Y]. lia.
  - destruct (mk_end_cond (b_mk s)); [destruct X|]. destruct (fe_fend (b_fe s)); [destruct X|]. cbn [mko_valid mko_data mko_end] in X. destruct (_ && _) in X; [|destruct X]. destruct X as [X|[]]. inversion X.
  - destruct (bi_busy i); cbn in X; [destruct X|]. destruct X as [X|[]]. inversion X.
  - lia.
Qed.
Lemma early_step n T A O s i : 0 <= n < 2 ^ 24 -> 0 <= T -> (A <> [] -> bi_allowed i = n) -> bud_inv n A O s -> b_rst s = false -> early_inv n T A O s ->
  early_inv n (T + 1) (A ++ bt_took s i) (O ++ bt_gave s i) (bt_next c mem s i).
Proof.
  intros Hn HT Hal B Er (E1 & E2 & E3). destruct (B Er) as (_ & e & Fe & Bm). assert (Hfe : b_fe (bt_next c mem s i) = fe_step (b_fe s) (bt_accept s i) (bi_allowed i)) by reflexivity.
  assert (Hmk : b_mk (bt_next c mem s i) = mk_step (b_mk s) (bt_mk_in s i)) by reflexivity. split; [|split].
  - rewrite Hfe. unfold fe_step. unfold fe_ok in Fe. destruct (fe_fsm_st (b_fe s)).
    + destruct E1 as (X & Y). destruct (bt_accept s i); cbn [fe_fsm_st fe_ctr fe_fend]; (split; [exact X|lia]).
    + destruct Fe as (F1 & F2 & F3 & _). rewrite (Hal F1). destruct E1 as (E0 & E1 & E4). destruct (fe_ctr (b_fe s) =? n) eqn:E; cbn [fe_fsm_st fe_ctr fe_fend]; rewrite E0; [lia|].
      rewrite trunc_id by (change (2 ^ 24) with 16777216 in Hn; change (2 ^ 25) with 33554432; lia). split; [reflexivity|lia].
    + cbn [fe_fsm_st fe_fend]. destruct (fe_fend (b_fe s)); lia.
  - rewrite Hmk. unfold mk_step. cbn [bt_mk_in mki_busy mki_valid mki_force mki_data]. destruct (mk_fsm_st (b_mk s)) eqn:Est; cbn [mk_fsm_st mk_ctr].
    + destruct (f2_vout (b_f2 s)); exact I.
    + destruct (bi_busy i); cbn [negb mk_fsm_st]; [exact I|]. destruct (mk_ctr (b_mk s) =? 0); exact I.
    + destruct (bi_busy i); cbn [negb mk_fsm_st]; [exact I|]. destruct (mk_ctr (b_mk s) =? 1); exact I.
    + destruct Bm as (_ & B2 & _). destruct (bi_busy i); cbn [negb mk_fsm_st mk_ctr]; [lia|]. destruct (mk_ctr (b_mk s) =? 1) eqn:E; [lia|]. rewrite trunc_id by (change (2 ^ 4) with 16; lia). lia.
    + destruct Bm as (_ & B2 & _). destruct (mk_end_cond (b_mk s)); [exact I|]. destruct (fe_fend (b_fe s)) eqn:Ef; [|exact I]. rewrite B2. unfold fe_ok in Fe. destruct (fe_fsm_st (b_fe s)); [destruct E1; congruence|destruct E1; congruence|lia].
    + contradiction.
    + contradiction.
  - intros X. apply in_app_or in X. destruct X as [X|X]; [specialize (E3 X); lia|]. apply (early_gave n T A O s i); [split; [exact E1|split; assumption]|exact X].
Qed.
Lemma early_run : forall l n T A O s A' O', frame_at n A O s l -> 0 <= T -> early_inv (allows n) T A O s -> nth_error (bt_log c mem A O s l) 0 = Some (A', O') ->
  In (65534, true) O' -> allows n + 12 <= T + len l.
Proof.
  induction l as [|i l IH]; intros n T A O s A' O' F HT Ei E HI.
  - cbn in E. inversion E; subst. destruct Ei as (_ & _ & X). specialize (X HI). unfold len. cbn [length]. lia.
  - assert (HL : len (i :: l) = 1 + len l) by (unfold len; cbn [length]; lia). pose proof (len_nonneg l). cbn [bt_log] in E. destruct (b_rst s) eqn:Er.
    + cbn in E. inversion E; subst. apply in_app_or in HI. destruct HI as [X|X]; [destruct Ei as (_ & _ & Y); specialize (Y X); lia|]. pose proof (early_gave _ _ _ _ _ _ Ei X). lia.
    + pose proof F as (_ & B & _ & [Hal _]). destruct (frame_next _ _ _ _ _ _ F Er) as [F' Es]. rewrite Es in E.
      pose proof (early_step (allows n) T A O s i (HA n) HT Hal B Er Ei) as Ei'. pose proof (IH n (T + 1) _ _ _ A' O' F' ltac:(lia) Ei' E HI). lia.
Qed.
Lemma early_start n l s : frame_at n [] [] s l -> early_inv (allows n) 0 [] [] s.
Proof.
  intros F. pose proof (frame_rst _ _ _ _ _ F) as Er. cbn [existsb] in Er. destruct F as (_ & B & _). destruct (B Er) as (_ & e & Fe & Bm). unfold early_inv, fe_ok in *.
  split; [|split; [|intros []]].
  - destruct (fe_fsm_st (b_fe s)); [destruct Fe as (_ & X & Y & _); auto|destruct Fe as (X & _); contradiction|destruct Fe as (X & _); contradiction].
  - destruct (mk_fsm_st (b_mk s)); try exact I; [destruct Bm as (X & _); contradiction|contradiction].
Qed.
End run.
