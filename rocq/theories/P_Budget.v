(* The time limit of a frame bounds the words of a frame. *)
From Verif Require Import Bits Spec Spec_Core Spec_Beta M_Config M_Encode M_I1 M_Fifo M_I3 M_Fix M_Markers M_Beta
  P_Encode P_Tokens P_I3 P_Decode P_Run P_Live P_Fix P_Markers Props_Arith Props_Core Props_Frame P_Pack P_Beta Props_Beta P_BetaLive P_Stall.
Ltac Zify.zify_post_hook ::= idtac.

(* The allowed_cycles register while a frame is being sent: once the first group was accepted, it holds (allows k) until the frame is over.
   n: number of the frame, A: the groups accepted so far. *)
Fixpoint allowed_env (c : config) (mem : list Z) (allows : nat -> Z) (n : nat) (A : list (list Z)) (s : bt_st) (l : list bt_in) : Prop :=
  match l with
  | [] => True
  | i :: r => (A <> [] -> bi_allowed i = allows n) /\
              allowed_env c mem allows (if b_rst s then S n else n) (if b_rst s then [] else A ++ bt_took s i) (bt_step c mem s i) r
  end.

(* cycles since the first acceptance *)
Definition fe_ok (n : Z) (A : list (list Z)) (f : fe_st) (e : Z) : Prop :=
  match fe_fsm_st f with
  | FE_IDLE => A = [] /\ fe_ctr f = 0 /\ fe_fend f = false /\ e = 0
  | FE_COUNTING => A <> [] /\ 0 <= fe_ctr f <= n /\ fe_fend f = false /\ e = 1 + fe_ctr f
  | FE_END => A <> [] /\ (if fe_fend f then e = n + 3 else e = n + 2)
  end.
Lemma fe_next n A f e (v : bool) a px : 0 <= n < 2 ^ 24 -> (A <> [] -> a = n) -> fe_ok n A f e -> exists e', fe_ok n (A ++ if v then [px] else []) (fe_step f v a) e' /\
  (fe_fend (fe_step f v a) = false -> fe_fsm_st f <> FE_IDLE -> e' = e + 1) /\ (fe_fend (fe_step f v a) = true -> fe_fend f = false -> e = n + 2) /\ (fe_fend f = true -> fe_fend (fe_step f v a) = true).
Proof.
  intros Hn Ha. unfold fe_ok, fe_step. destruct (fe_fsm_st f) eqn:Ef.
  - intros (-> & E1 & E2 & ->). cbn [fe_fsm_st fe_ctr fe_fend app]. rewrite E1, E2. destruct v.
    + exists 1. split; [split; [discriminate|lia]|]. split; [congruence|]. split; congruence.
    + exists 0. split; [auto|]. split; [congruence|]. split; congruence.
  - intros (H1 & H2 & H3 & ->). specialize (Ha H1). subst a. cbn [fe_fsm_st fe_ctr fe_fend]. rewrite H3.
    assert (Hne : A ++ (if v then [px] else []) <> []) by (destruct A; [congruence|discriminate]).
    assert (Ht : trunc 25 (fe_ctr f + 1) = fe_ctr f + 1) by (apply trunc_id; change (2 ^ 24) with 16777216 in Hn; change (2 ^ 25) with 33554432; lia). rewrite Ht.
    exists (2 + fe_ctr f). destruct (fe_ctr f =? n) eqn:E; (split; [split; [exact Hne|lia]|]); (split; [intros; lia|]); split; congruence.
  - intros (H1 & H2). cbn [fe_fsm_st fe_ctr fe_fend]. assert (Hne : A ++ (if v then [px] else []) <> []) by (destruct A; [congruence|discriminate]).
    exists (n + 3). split; [split; [exact Hne|reflexivity]|]. split; [discriminate|]. split; [|auto]. intros _ E. rewrite E in H2. exact H2.
Qed.

(* how many words are out *)
Definition bud_inv (n : Z) (A : list (list Z)) (O : list (Z * bool)) (s : bt_st) : Prop :=
  b_rst s = false -> existsb snd O = false /\ exists e, fe_ok n A (b_fe s) e /\
  match mk_fsm_st (b_mk s) with
  | MK_IDLE => O = []
  | MK_START => A <> [] /\ 0 <= mk_ctr (b_mk s) <= 8 /\ len O <= 8 - mk_ctr (b_mk s) /\ (fe_fend (b_fe s) = false -> 10 - mk_ctr (b_mk s) <= e)
  | MK_FRAME => A <> [] /\ mk_ctr (b_mk s) = 8 /\ len O <= Z.max 8 n /\ (fe_fend (b_fe s) = false -> len O + 3 <= e)
  | MK_ENDM | MK_FENDM => A <> [] /\ 1 <= mk_ctr (b_mk s) <= 8 /\ len O <= Z.max 8 n + 8 - mk_ctr (b_mk s)
  | MK_DONE | MK_FDONE => False
  end.
(* ... or, at the end of the frame *)
Definition bud_end (n : Z) (O : list (Z * bool)) (s : bt_st) : Prop := b_rst s = true -> len (cut O) <= Z.max 8 n + 8.

Lemma gave_len s i : len (bt_gave s i) <= 1.
Proof. unfold bt_gave. destruct (_ && _); cbn; lia. Qed.
Lemma bud_init n i3 : 0 <= n -> bud_inv n [] [] (bt_reset_with i3) /\ bud_end n [] (bt_reset_with i3).
Proof. intros Hn. split; [|intros X; discriminate]. intros _. split; [reflexivity|]. exists 0. split; [repeat split|reflexivity]. Qed.

Lemma bud_step c t W H n A O s i : bt_hyp c t W H -> 0 <= n < 2 ^ 24 -> bt_inv c t W H A O s -> b_rst s = false -> (A <> [] -> bi_allowed i = n) ->
  bud_inv n A O s -> bud_inv n (A ++ bt_took s i) (O ++ bt_gave s i) (bt_next c (mem_of (bd c) t) s i) /\ bud_end n (O ++ bt_gave s i) (bt_next c (mem_of (bd c) t) s i).
Proof.
  intros HY Hn I Hr Ha B. destruct (B Hr) as (He & e & Fe & Bm). clear B.
  destruct (fe_next n A (b_fe s) e (bt_accept s i) (bi_allowed i) (bi_px i) Hn Ha Fe) as (e' & Fe' & N1 & N2 & N3).
  assert (Hsil : A = [] -> f2_vout (b_f2 s) = false).
  { intros ->. destruct I as (P & hist & d1 & d2 & I1 & I2 & _). assert (d1 = []) as -> by (eapply few_no_words; [exact HY|exact I1|cbn; lia]). apply (fx_empty _ _ I2). }
  assert (Hfi : fe_fsm_st (b_fe s) = FE_IDLE -> A = []) by (unfold fe_ok in Fe; intros X; rewrite X in Fe; apply Fe).
  assert (HA : A <> [] -> A ++ bt_took s i <> []) by (intros X; destruct A; [congruence|discriminate]).
  pose proof (gave_len s i) as Hgl. unfold fe_ok in Fe'. 
  assert (Hrst : b_rst (bt_next c (mem_of (bd c) t) s i) = existsb snd (bt_gave s i)).
  { unfold bt_next. cbn [b_rst]. unfold ar_step, bt_gave. rewrite Hr, orb_false_r. destruct (mko_valid (bt_out s i)), (bi_busy i), (mko_end (bt_out s i)); reflexivity. }
  assert (Hlen : len (O ++ bt_gave s i) = len O + len (bt_gave s i)) by apply len_app.
  assert (Hcut : cut (O ++ bt_gave s i) = O ++ bt_gave s i) by (apply cut_snoc; exact He).
  unfold bud_inv, bud_end. rewrite Hrst, existsb_app, He, Hcut, Hlen. cbn [orb].
  assert (Hfe : b_fe (bt_next c (mem_of (bd c) t) s i) = fe_step (b_fe s) (bt_accept s i) (bi_allowed i)) by reflexivity. rewrite Hfe.
  assert (Hmk : b_mk (bt_next c (mem_of (bd c) t) s i) = mk_step (b_mk s) (bt_mk_in s i)) by reflexivity. rewrite Hmk.
  fold (fe_ok n (A ++ bt_took s i) (fe_step (b_fe s) (bt_accept s i) (bi_allowed i)) e') in Fe'. set (f' := fe_step (b_fe s) (bt_accept s i) (bi_allowed i)) in *.
  assert (HFe' : fe_ok n (A ++ bt_took s i) f' e') by exact Fe'. clear Fe'.
  unfold bt_gave, bt_out, mk_comb, mk_step in *. cbn [bt_mk_in mki_busy mki_valid mki_force mki_data] in *.
  destruct (mk_fsm_st (b_mk s)) eqn:Est.
  - subst O. cbn [mko_valid andb existsb len length app mk_fsm_st mk_ctr] in *. split; [|discriminate]. intros _. split; [reflexivity|]. exists e'. split; [exact HFe'|].
    destruct (f2_vout (b_f2 s)) eqn:Ev; cbn [mk_fsm_st mk_ctr]; [|reflexivity].
    assert (HAn : A <> []) by (intros X; specialize (Hsil X); discriminate). split; [auto|]. split; [lia|]. split; [unfold len; cbn; lia|]. intros X.
    specialize (N1 X ltac:(intros Y; apply HAn, Hfi, Y)). assert (1 <= e); [|lia]. unfold fe_ok in Fe. destruct (fe_fsm_st (b_fe s)); [tauto|lia|]. destruct (fe_fend (b_fe s)); lia.
  - destruct Bm as (B1 & B2 & B3 & B4). assert (Hni : fe_fsm_st (b_fe s) <> FE_IDLE) by (intros Y; apply B1, Hfi, Y).
    assert (Hn' : fe_fend f' = false -> e' = e + 1 /\ fe_fend (b_fe s) = false) by (intros X; split; [auto|destruct (fe_fend (b_fe s)); [rewrite N3 in X by reflexivity; discriminate|reflexivity]]).
    destruct (bi_busy i) eqn:Eb; cbn [negb andb] in *.
    + cbn [mko_valid andb existsb mk_fsm_st mk_ctr] in *. change (len (@nil (Z * bool))) with 0 in *. split; [|discriminate]. intros _. split; [reflexivity|]. exists e'. split; [exact HFe'|]. split; [auto|]. split; [exact B2|]. split; [lia|].
      intros X. destruct (Hn' X) as [X1 X2]. specialize (B4 X2). lia.
    + destruct (mk_ctr (b_mk s) =? 0) eqn:E0; cbn [mko_valid mko_end mko_data andb existsb mk_fsm_st mk_ctr snd orb] in *; (split; [|discriminate]); intros _; (split; [reflexivity|]); exists e'; (split; [exact HFe'|]).
      * change (len (@nil (Z * bool))) with 0 in *. split; [auto|]. split; [reflexivity|]. split; [lia|]. intros X. destruct (Hn' X) as [X1 X2]. specialize (B4 X2). lia.
      * rewrite trunc_id by (change (2 ^ 4) with 16; lia). split; [auto|]. split; [lia|]. change (len [(65535, false)]) with 1 in *. split; [lia|]. intros X. destruct (Hn' X) as [X1 X2]. specialize (B4 X2). lia.
  - destruct Bm as (B1 & B2 & B3). destruct (bi_busy i) eqn:Eb; cbn [negb andb mko_valid mko_end mko_data existsb snd mk_fsm_st mk_ctr orb] in *.
    + split; [|discriminate]. intros _. split; [reflexivity|]. exists e'. split; [exact HFe'|]. split; [auto|]. split; [exact B2|]. change (len (@nil (Z * bool))) with 0. lia.
    + change (len [(65535, mk_ctr (b_mk s) =? 1)]) with 1 in *. destruct (mk_ctr (b_mk s) =? 1) eqn:E1; cbn [orb]; [split; [discriminate|]; intros _; lia|]. split; [|discriminate]. intros _. split; [reflexivity|]. exists e'. split; [exact HFe'|].
      cbn [mk_fsm_st mk_ctr]. rewrite trunc_id by (change (2 ^ 4) with 16; lia). split; [auto|]. lia.
  - destruct Bm as (B1 & B2 & B3). destruct (bi_busy i) eqn:Eb; cbn [negb andb mko_valid mko_end mko_data existsb snd mk_fsm_st mk_ctr orb] in *.
    + split; [|discriminate]. intros _. split; [reflexivity|]. exists e'. split; [exact HFe'|]. split; [auto|]. split; [exact B2|]. change (len (@nil (Z * bool))) with 0. lia.
    + change (len [(65534, mk_ctr (b_mk s) =? 1)]) with 1 in *. destruct (mk_ctr (b_mk s) =? 1) eqn:E1; cbn [orb]; [split; [discriminate|]; intros _; lia|]. split; [|discriminate]. intros _. split; [reflexivity|]. exists e'. split; [exact HFe'|].
      cbn [mk_fsm_st mk_ctr]. rewrite trunc_id by (change (2 ^ 4) with 16; lia). split; [auto|]. lia.
  - destruct Bm as (B1 & B2 & B3 & B4). assert (Hni : fe_fsm_st (b_fe s) <> FE_IDLE) by (intros Y; apply B1, Hfi, Y).
    destruct (mk_end_cond (b_mk s)).
    { cbn [mko_valid andb existsb mk_fsm_st mk_ctr] in *. change (len (@nil (Z * bool))) with 0. split; [|discriminate]. intros _. split; [reflexivity|]. exists e'. split; [exact HFe'|]. split; [auto|]. lia. }
    destruct (fe_fend (b_fe s)) eqn:Eff.
    { cbn [mko_valid andb existsb mk_fsm_st mk_ctr] in *. change (len (@nil (Z * bool))) with 0. split; [|discriminate]. intros _. split; [reflexivity|]. exists e'. split; [exact HFe'|]. split; [auto|]. lia. }
    specialize (B4 eq_refl). cbn [mko_valid mko_end mko_data mk_fsm_st mk_ctr] in *.
    assert (Hnoend : existsb snd (if f2_vout (b_f2 s) && negb (bi_busy i) then [(f2_dout (b_f2 s), false)] else []) = false) by (destruct (_ && _); reflexivity). rewrite Hnoend.
    split; [|discriminate]. intros _. split; [reflexivity|]. exists e'. split; [exact HFe'|]. split; [auto|]. split; [exact B2|].
    destruct (fe_fend f') eqn:Ef'.
    + specialize (N2 eq_refl eq_refl). split; [lia|discriminate].
    + specialize (N1 eq_refl Hni). assert (e' <= n + 2). { unfold fe_ok in HFe'. destruct (fe_fsm_st f'); [tauto|lia|]. rewrite Ef' in HFe'. lia. } split; [lia|intros _; lia].
  - destruct Bm.
  - destruct Bm.
Qed.

Lemma bud_log c t sizes allows : (forall k, bt_hyp c t (fst (sizes k)) (snd (sizes k))) -> (forall k, 0 <= allows k < 2 ^ 24) -> forall l A O s n,
  bt_inv c t (fst (sizes n)) (snd (sizes n)) A O s -> bud_inv (allows n) A O s -> bud_end (allows n) O s ->
  bt_env c (mem_of (bd c) t) sizes n s l -> allowed_env c (mem_of (bd c) t) allows n A s l ->
  forall k A' O', let L := bt_log c (mem_of (bd c) t) A O s l in nth_error L k = Some (A', O') -> (S k < length L)%nat -> len (cut O') <= Z.max 8 (allows (n + k)%nat) + 8.
Proof.
  intros HY HA. induction l as [|i l IH]; intros A O s n I B Be HE HL k A' O' L HN Hk; unfold L in *; clear L; cbn [bt_log bt_env allowed_env] in *.
  - cbn in Hk. lia.
  - destruct HE as [Hok HE]. destruct HL as [Hal HL]. pose proof (bt_inv_next _ _ _ _ _ _ _ _ (HY n) Hok I) as J. destruct (b_rst s) eqn:Er.
    + destruct (bt_reset_ok _ _ _ _ _ _ _ _ (HY n) Hok I Er) as (i3 & Hi3 & Hst). rewrite Hst in *.
      assert (He : existsb snd O = true) by (destruct I as (P & hist & d1 & d2 & _ & _ & _ & X); congruence). destruct k as [|k].
      * cbn [nth_error] in HN. inversion HN; subst. rewrite Nat.add_0_r. rewrite cut_hasend by assumption. apply (Be Er).
      * cbn [nth_error length] in *. destruct (bud_init (allows (S n)) i3 ltac:(apply HA)) as [B0 B1]. replace (n + S k)%nat with (S n + k)%nat by lia.
        apply (IH [] [] (bt_reset_with i3) (S n) (bt_inv_init _ _ _ _ _ (HY (S n)) Hi3) B0 B1 HE HL k A' O' HN). lia.
    + destruct (bud_step c t _ _ (allows n) A O s i (HY n) (HA n) I Er Hal B) as [B' Be']. unfold bt_step in HE, HN, HL, Hk |- *. rewrite Er in HE, HN, HL, Hk.
      apply (IH _ _ _ n J B' Be' HE HL k A' O' HN Hk).
Qed.
