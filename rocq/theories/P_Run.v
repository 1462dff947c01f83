(* Consequences of the invariant for complete runs of the core. *)
From Verif Require Import Bits Spec Spec_Core M_Config M_Signals M_Predictor M_Encode M_I1 M_Fifo M_Converter M_VBits M_I3
  P_Fifo P_Encode P_Signals P_Predictor P_I1 P_Tokens P_Converter P_VBits P_I3 P_Decode.
Ltac Zify.zify_post_hook ::= idtac.

Fixpoint run_ok (c : config) (mem : list Z) (W H : Z) (s : i3_st) (ins : list i3_in) : Prop :=
  match ins with [] => True | i :: r => acc_ok c W H s i /\ run_ok c mem W H (i3_step c mem s i) r end.
Lemma in_ok_run c mem W H ins : Forall (in_ok c W H) ins -> forall s, run_ok c mem W H s ins.
Proof. induction 1; intros s; cbn; [exact I|]. split; [apply in_ok_acc; assumption|apply IHForall]. Qed.

Lemma i3_run_inv c t W H G : cfg_ok c = true -> table_ok (bd c) t -> geom (ps c) W H G -> 4 / ps c <= G ->
  forall ins s A P done hist, run_ok c (mem_of (bd c) t) W H s ins -> i3_inv c t W H G A P done hist s ->
  exists P' hist', i3_inv c t W H G
    (A ++ i3_accepted c (mem_of (bd c) t) s ins) (P ++ P')
    (done ++ i3_transfers c (mem_of (bd c) t) s ins) hist' (i3_run c (mem_of (bd c) t) s ins).
Proof.
  intros Hc Ht Hg HG4. induction ins as [|i ins IH]; intros s A P done hist HF I.
  - exists [], hist. cbn. rewrite !app_nil_r. exact I.
  - destruct HF as [Hi HF']. cbn [i3_accepted i3_transfers i3_run].
    pose proof (i3_inv_step c t W H G A P done hist s i Hc Ht Hg HG4 Hi I) as I'.
    destruct (IH _ _ _ _ _ HF' I') as (P' & hist' & J).
    exists (vb_emit c (s_vb s) (in_busy i) ++ P'), hist'.
    rewrite <- !app_assoc in J. exact J.
Qed.

(* geometry as seen by a user *)

Lemma frame_geom c W H : cfg_ok c = true -> frame_ok c W H ->
  geom (ps c) W H (W / ps c) /\ 4 / ps c <= W / ps c.
Proof.
  intros Hc (F1 & F2 & F3 & F4 & F5 & F6 & F7).
  assert (Hps : ps c = 1 \/ ps c = 2 \/ ps c = 4) by (unfold cfg_ok in Hc; lia).
  assert (HW : W = W / ps c * ps c).
  { pose proof (Z.div_mod W (ps c) ltac:(lia)). lia. }
  set (G := W / ps c) in *.
  split.
  - unfold geom. repeat split; try lia; try nia.
  - destruct Hps as [E|[E|E]]; rewrite E in *; cbn; lia.
Qed.

(* a reset state: memories hold arbitrary words *)

Lemma is_reset_init c : cfg_ok c = true -> is_reset c (i3_init c).
Proof.
  intros Hc. unfold cfg_ok in Hc.
  assert (0 < cfd c).
  { pose proof (cv_k_bound c) as K. unfold cv_ok, cv_k in K. specialize (K ltac:(lia)). unfold cf_steps in Hc. lia. }
  eexists _, _, _, _, _. split; [|split; [|split; [|reflexivity]]]; rewrite repeat_length; lia.
Qed.

Lemma run_from_reset c t W H s0 ins : cfg_ok c = true -> table_ok (bd c) t -> frame_ok c W H ->
  is_reset c s0 -> run_ok c (mem_of (bd c) t) W H s0 ins ->
  exists P hist, i3_inv c t W H (W / ps c)
    (i3_accepted c (mem_of (bd c) t) s0 ins) P
    (i3_transfers c (mem_of (bd c) t) s0 ins) hist (i3_run c (mem_of (bd c) t) s0 ins).
Proof.
  intros Hc Ht Hf (st1 & d1 & st2 & d2 & rps & L1 & L2 & L3 & ->) HF.
  destruct (frame_geom c W H Hc Hf) as [Hg HG4].
  pose proof (i3_inv_reset c t W H (W / ps c) st1 d1 st2 d2 rps Hc Hg HG4 L1 L2 L3) as I.
  destruct (i3_run_inv c t W H (W / ps c) Hc Ht Hg HG4 ins _ _ _ _ _ HF I) as (P & hist & J).
  exists P, hist. exact J.
Qed.

Lemma cut_end {A} l pw (w : A) : cut l = plain pw ++ [(w, true)] -> exists r, l = plain pw ++ (w, true) :: r.
Proof.
  revert l. induction pw as [|x pw IH]; intros [|[y e] l] H; cbn in H.
  - discriminate.
  - inversion H; subst. exists l. reflexivity.
  - discriminate.
  - unfold plain in *. cbn in *. inversion H; subst. destruct (IH l H3) as [r ->]. exists r. reflexivity.
Qed.

(* words of a finished transfer sequence *)
Definition ended (l : list (Z * bool)) : Prop := exists pre w, cut l = pre ++ [(w, true)].

Lemma existsb_plain {A} (pw : list A) : existsb snd (plain pw) = false.
Proof. unfold plain. induction pw; cbn; auto. Qed.

Lemma cut_app_noend {A} (a b : list (A * bool)) : existsb snd a = false -> cut (a ++ b) = a ++ cut b.
Proof. induction a as [|[x []] a IH]; cbn; intros; try discriminate; [reflexivity|]. f_equal. auto. Qed.

Lemma cut_noend {A} (a : list (A * bool)) : existsb snd a = false -> cut a = a.
Proof. intros. rewrite <- (app_nil_r a) at 1. rewrite cut_app_noend by assumption. cbn. apply app_nil_r. Qed.

Lemma cut_hasend {A} (a b : list (A * bool)) : existsb snd a = true -> cut (a ++ b) = cut a.
Proof. induction a as [|[x []] a IH]; cbn; intros; try discriminate; [reflexivity|]. f_equal. auto. Qed.

Lemma cut_exists_end {A} (a : list (A * bool)) : existsb snd a = true -> exists pw w, cut a = plain pw ++ [(w, true)].
Proof.
  induction a as [|[x []] a IH]; cbn; intros H; try discriminate.
  - exists [], x. reflexivity.
  - destruct (IH H) as (pw & w & ->). exists (x :: pw), w. reflexivity.
Qed.

(* the end word has been taken: all of the frame is out *)
Lemma inv_ended c t W H G A P done hist s : i3_inv c t W H G A P done hist s ->
  existsb snd done = true ->
  len A = G * H /\ exists pw w, cut done = plain pw ++ [(w, true)] /\
    packs (outb c) (pw ++ [w]) (ref_encode t (bd c) W [] (concat A)).
Proof.
  intros I He. destruct I as [Ilen IA Isig Ipred Ii1 Ihist Ine1 Ine2 Iljf Iljw Iljb Icv Icff Icfw Icfb Ivb Idone Iend Itok].
  unfold vb_done in Idone.
  assert (HE : vo_state (vb_out (s_vb s)) = VO_END).
  { destruct (vo_state (vb_out (s_vb s))); [| |reflexivity];
    destruct Idone as (pw & D1 & _); assert (existsb snd (done ++ offered (s_vb s)) = false)
      by (rewrite D1; apply existsb_plain); rewrite existsb_app, He in *; discriminate. }
  rewrite HE in Idone. destruct Idone as (pw & w & bs & D1 & D2 & D3 & D4).
  unfold vb_pend in Itok. rewrite HE, D4, <- !app_assoc in Itok. cbn [app] in Itok. 
  unfold frame_toks in Itok.
  pose proof (none_last _ _ _ _ Itok) as Hnil. rewrite Hnil in Itok.
  destruct (len A =? G * H) eqn:E.
  - apply app_inj_tail in Itok. destruct Itok as [Hb _].
    assert (bs = ref_encode t (bd c) W [] (concat A)) as Hbs.
    { revert Hb. generalize (ref_encode t (bd c) W [] (concat A)). clear. induction bs as [|b bs IH]; intros [|x l] H; inversion H; [reflexivity|].
      f_equal. auto. }
    split; [lia|]. exists pw, w. split; [|rewrite <- Hbs; exact D3].
    rewrite cut_hasend in D1 by assumption. exact D1.
  - exfalso. rewrite app_nil_r in Itok. assert (In None (map Some (ref_encode t (bd c) W [] (concat A)))) as X.
    { rewrite <- Itok. apply in_app_iff. right. left. reflexivity. }
    apply in_map_iff in X. destruct X as (? & X & _). discriminate.
Qed.

(* before that, what was taken is a prefix of the encoding of what was accepted *)
Lemma map_Some_prefix (a b : list bool) (d : list tok) (e : bool) :
  map Some a ++ d = map Some b ++ (if e then [None] else []) -> exists r, b = a ++ r.
Proof.
  revert b. induction a as [|x a IH]; intros b H.
  - exists b. reflexivity.
  - destruct b as [|y b].
    + destruct e; discriminate.
    + cbn in H. inversion H; subst. destruct (IH b H2) as [r ->]. exists r. reflexivity.
Qed.

Lemma plain_app_inv {A} (done : list (A * bool)) o pw : done ++ o = plain pw -> exists p1 p2, done = plain p1 /\ pw = p1 ++ p2.
Proof.
  revert pw. induction done as [|x done IH]; intros pw H.
  - exists [], pw. auto.
  - destruct pw as [|y pw]; [discriminate|]. cbn in H. inversion H; subst.
    destruct (IH pw H2) as (p1 & p2 & -> & ->). exists (y :: p1), p2. auto.
Qed.

Lemma wbits_length w l : 0 <= w -> Z.of_nat (length (wbits w l)) = w * len l.
Proof.
  intros Hw. unfold wbits, len. induction l as [|x l IH]; [cbn; lia|].
  cbn [map concat length]. rewrite app_length, Nat2Z.inj_add, IH, bitsz_length by lia. lia.
Qed.

Lemma app_prefix {X} (a b c0 d : list X) : a ++ b = c0 ++ d -> (length a <= length c0)%nat -> exists r, c0 = a ++ r.
Proof.
  revert c0. induction a as [|x a IH]; intros c0 H Hl.
  - exists c0. reflexivity.
  - destruct c0 as [|y c0]; [cbn in Hl; lia|]. cbn in H. inversion H; subst. destruct (IH c0 H2) as [r ->]; [cbn in Hl; lia|].
    exists r. reflexivity.
Qed.

Lemma inv_running c t W H G A P done hist s : cfg_ok c = true -> i3_inv c t W H G A P done hist s ->
  existsb snd done = false ->
  exists pw rest, done = plain pw /\ Forall (wrange (outb c)) pw /\
    ref_encode t (bd c) W [] (concat A) = wbits (outb c) pw ++ rest.
Proof.
  intros Hc I He. assert (Ho : 1 <= outb c) by (unfold cfg_ok in Hc; lia).
  destruct I as [Ilen IA Isig Ipred Ii1 Ihist Ine1 Ine2 Iljf Iljw Iljb Icv Icff Icfw Icfb Ivb Idone Iend Itok].
  unfold vb_done in Idone. unfold frame_toks in Itok.
  assert (Hcase : exists bs pw, (exists r, bs = wbits (outb c) pw ++ r) /\ done = plain pw /\ Forall (wrange (outb c)) pw /\
    exists d, P = map Some bs ++ d).
  { destruct (vo_state (vb_out (s_vb s))).
    1,2: destruct Idone as (pw & D1 & D2 & D3); destruct (plain_app_inv _ _ _ D1) as (p1 & p2 & E1 & E2); subst pw;
      exists (wbits (outb c) (p1 ++ p2)), p1; apply Forall_app in D2; destruct D2 as [D2 _];
      (split; [exists (wbits (outb c) p2); unfold wbits; rewrite map_app, concat_app; reflexivity|]);
      (split; [assumption|]); (split; [assumption|]); exists []; rewrite app_nil_r; assumption.
    destruct Idone as (pw & w & bs & D1 & D2 & [D3 (pad & Hpad & D5)] & D4).
    rewrite cut_app_noend in D1 by assumption. 
    assert (done = plain pw) as Hd.
    { unfold offered in D1. destruct (vo_valid (vb_out (s_vb s))).
      - cbn [cut] in D1. destruct (vo_end (vb_out (s_vb s))); apply app_inj_tail in D1; apply D1.
      - cbn in D1. rewrite app_nil_r in D1. exfalso. rewrite D1 in He. rewrite existsb_app in He. cbn in He.
        rewrite orb_true_r in He. discriminate. }
    exists bs, pw. split; [|split; [assumption|split]].
    - fold (wbits (outb c) (pw ++ [w])) in D5. rewrite wbits_snoc in D5.
      apply (app_prefix (wbits (outb c) pw) _ bs (repeat false pad)) in D5; [assumption|].
      apply (f_equal (@length bool)) in D5. rewrite !app_length, repeat_length in D5.
      assert (Z.of_nat (length (bitsz (outb c) w)) = outb c) by (apply bitsz_length; lia). cbn in D5. lia.
    - apply Forall_app in D3. apply D3.
    - eexists. exact D4. }
  destruct Hcase as (bs & pw & (r & ->) & Hd & HF & (d & ->)).
  exists pw. rewrite <- app_assoc in Itok. apply map_Some_prefix in Itok. destruct Itok as [r2 Hr2].
  exists (r ++ r2). split; [assumption|]. split; [assumption|]. rewrite Hr2, app_assoc. reflexivity.
Qed.
