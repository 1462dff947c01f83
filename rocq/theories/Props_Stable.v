(* C29 for the complete cores: exactly when an offered output word is changed or withdrawn before it is taken. *)
From Verif Require Import Bits Spec M_Config M_I3 M_Fix M_Markers M_Beta M_Micro P_Live P_Fix Props_Frame.
Ltac Zify.zify_post_hook ::= idtac.

(* ---------- specification ---------- *)

(* what the consumer sees in a cycle: nothing, or a word with its end flag *)
Definition offer (o : mk_out) : option (Z * bool) := if mko_valid o then Some (mko_data o, mko_end o) else None.
(* the words handed over since the last end word *)
Fixpoint since (acc l : list (Z * bool)) : list (Z * bool) :=
  match l with [] => acc | (w, true) :: r => since [] r | (w, false) :: r => since (acc ++ [(w, false)]) r end.
(* In a cycle in which the words O have been handed over so far, (d, e) is offered to a consumer that is busy;
   in the next cycle the consumer is ready or not, and o is offered.  Either the offer stands, or: *)
Definition offer_next (O : list (Z * bool)) (d : Z) (e : bool) (ready expires : bool) (o : option (Z * bool)) : Prop :=
  o = Some (d, e)
  (* it was a ninth header word, withdrawn as soon as the consumer is ready *)
  \/ (len (since [] O) = 8 /\ d = 0xFFFF /\ e = false /\ ready = true /\ o = None)
  (* it is the eighth trailer word, which becomes the end word as soon as the consumer is ready *)
  \/ ((d = 0xFFFF \/ d = 0xFFFE) /\ (exists p, since [] O = p ++ repeat (d, false) 7) /\ e = false /\ ready = true /\ o = Some (d, true))
  (* the cycle budget expires, and the payload word is withdrawn *)
  \/ (expires = true /\ e = false /\ 8 <= len (since [] O) /\ o = None)
  (* the end word has been handed over in the cycle before; its repetition is withdrawn by the reset *)
  \/ (e = true /\ (exists p, O = p ++ [(d, true)]) /\ o = None).

(* ---------- proof, for any core with the output stage of these two ---------- *)

Lemma since_app a b : forall acc, since acc (a ++ b) = since (since acc a) b.
Proof. induction a as [|[w []] a IH]; intros acc; cbn [since app]; auto. Qed.
Lemma since_noend b : forall acc, existsb snd b = false -> since acc b = acc ++ b.
Proof.
  induction b as [|[w []] b IH]; intros acc E; cbn in *; [rewrite app_nil_r; reflexivity|discriminate|]. rewrite IH by exact E. rewrite <- app_assoc. reflexivity.
Qed.

Definition gout (s : bt_st) (i : bt_in) : mk_out := mk_comb (b_mk s) (bt_mk_in s i).
Definition ggave (s : bt_st) (i : bt_in) : list (Z * bool) :=
  if mko_valid (gout s i) && negb (bi_busy i) then [(mko_data (gout s i), mko_end (gout s i))] else [].

Record like_core (stp : bt_st -> bt_in -> bt_st) : Prop := {
  lc_rst : forall s i, b_rst s = true -> exists i3, stp s i = bt_reset_with i3;
  lc_mk : forall s i, b_rst s = false -> b_mk (stp s i) = mk_step (b_mk s) (bt_mk_in s i);
  lc_ar : forall s i, b_rst s = false -> b_rst (stp s i) = ar_step false (mko_end (gout s i)) (mko_valid (gout s i)) (negb (bi_busy i));
  lc_f2 : forall s i, b_rst s = false -> mk_fsm_st (b_mk s) = MK_FRAME -> bi_busy i = true -> f2_vout (b_f2 s) = true ->
    mk_end_cond (b_mk s) = false -> fe_fend (b_fe s) = false ->
    f2_vout (b_f2 (stp s i)) = true /\ f2_dout (b_f2 (stp s i)) = f2_dout (b_f2 s)
}.

Fixpoint grun (stp : bt_st -> bt_in -> bt_st) (s : bt_st) (l : list bt_in) : bt_st :=
  match l with [] => s | i :: r => grun stp (stp s i) r end.
Fixpoint gouts (stp : bt_st -> bt_in -> bt_st) (s : bt_st) (l : list bt_in) : list (Z * bool) :=
  match l with [] => [] | i :: r => ggave s i ++ gouts stp (stp s i) r end.

(* O: words handed over in the whole run *)
Definition st_inv (s : bt_st) (O : list (Z * bool)) : Prop :=
  if b_rst s then (exists p, mk_fsm_st (b_mk s) = MK_DONE /\ O = p ++ [(0xFFFF, true)] \/ mk_fsm_st (b_mk s) = MK_FDONE /\ O = p ++ [(0xFFFE, true)])
  else match mk_fsm_st (b_mk s) with
  | MK_IDLE => since [] O = []
  | MK_START => 0 <= mk_ctr (b_mk s) <= 8 /\ len (since [] O) = 8 - mk_ctr (b_mk s)
  | MK_FRAME => mk_ctr (b_mk s) = 8 /\ 8 <= len (since [] O)
  | MK_ENDM => 1 <= mk_ctr (b_mk s) <= 8 /\ 8 <= len (since [] O) /\ exists p, since [] O = p ++ repeat (0xFFFF, false) (Z.to_nat (8 - mk_ctr (b_mk s)))
  | MK_FENDM => 1 <= mk_ctr (b_mk s) <= 8 /\ 8 <= len (since [] O) /\ exists p, since [] O = p ++ repeat (0xFFFE, false) (Z.to_nat (8 - mk_ctr (b_mk s)))
  | _ => False
  end.

Lemma since_snoc O d : since [] (O ++ [(d, false)]) = since [] O ++ [(d, false)].
Proof. rewrite since_app. reflexivity. Qed.
Lemma since_end O d : since [] (O ++ [(d, true)]) = [].
Proof. rewrite since_app. reflexivity. Qed.
Lemma rep_snoc (A : Type) (x : A) n : repeat x n ++ [x] = repeat x (S n).
Proof. induction n; cbn; [reflexivity|]. rewrite IHn. reflexivity. Qed.

Lemma st_inv_step stp s i O : like_core stp -> st_inv s O -> st_inv (stp s i) (O ++ ggave s i).
Proof.
  intros L I. destruct (b_rst s) eqn:Er.
  - destruct (lc_rst stp L s i Er) as (i3 & ->). unfold st_inv in *. rewrite Er in I. cbn [bt_reset_with b_rst b_mk mk_init mk_fsm_st].
    destruct I as (p & [[Es ->]|[Es ->]]); unfold ggave, gout, mk_comb; rewrite Es; cbn [mko_valid mko_data mko_end andb];
      (destruct (negb (bi_busy i)); [rewrite since_end; reflexivity|rewrite app_nil_r, since_end; reflexivity]).
  - unfold st_inv. rewrite (lc_ar stp L s i Er), (lc_mk stp L s i Er). unfold st_inv in I. rewrite Er in I.
    unfold ggave, gout, mk_comb, mk_step, ar_step. cbn [bt_mk_in mki_valid mki_data mki_end mki_force mki_busy].
    destruct (mk_fsm_st (b_mk s)) eqn:Es; cbn [mko_valid mko_data mko_end mko_busy].
    + cbn [andb orb mk_fsm_st mk_ctr]. rewrite app_nil_r. destruct (f2_vout (b_f2 s)); cbn; [rewrite I; split; [lia|reflexivity]|exact I].
    + destruct I as [Hc Ho]. destruct (bi_busy i); cbn [negb andb].
      * rewrite ?andb_false_r, app_nil_r. cbn [mko_valid mko_end andb orb mk_fsm_st mk_ctr]. auto.
      * destruct (mk_ctr (b_mk s) =? 0) eqn:E; cbn [mko_valid mko_data mko_end andb orb mk_fsm_st mk_ctr].
        -- rewrite app_nil_r. apply Z.eqb_eq in E. split; [reflexivity|lia].
        -- rewrite trunc_id by (change (2 ^ 4) with 16; lia). split; [lia|]. rewrite since_snoc, len_app, Ho. unfold len. cbn [length]. lia.
    + destruct I as (Hc & Ho & p & Hp). destruct (bi_busy i); cbn [negb andb].
      * cbn [orb mk_fsm_st mk_ctr]. rewrite app_nil_r. split; [exact Hc|]. split; [exact Ho|]. exists p. exact Hp.
      * destruct (mk_ctr (b_mk s) =? 1) eqn:E; cbn [andb orb mk_fsm_st mk_ctr].
        -- exists O. left. split; reflexivity.
        -- rewrite trunc_id by (change (2 ^ 4) with 16; lia). split; [lia|]. rewrite since_snoc. split; [rewrite len_app; unfold len at 2; cbn [length]; lia|].
           exists p. rewrite Hp, <- app_assoc, rep_snoc. do 2 f_equal. lia.
    + destruct I as (Hc & Ho & p & Hp). destruct (bi_busy i); cbn [negb andb].
      * cbn [orb mk_fsm_st mk_ctr]. rewrite app_nil_r. split; [exact Hc|]. split; [exact Ho|]. exists p. exact Hp.
      * destruct (mk_ctr (b_mk s) =? 1) eqn:E; cbn [andb orb mk_fsm_st mk_ctr].
        -- exists O. right. split; reflexivity.
        -- rewrite trunc_id by (change (2 ^ 4) with 16; lia). split; [lia|]. rewrite since_snoc. split; [rewrite len_app; unfold len at 2; cbn [length]; lia|].
           exists p. rewrite Hp, <- app_assoc, rep_snoc. do 2 f_equal. lia.
    + destruct I as (Hc & Ho). destruct (mk_end_cond (b_mk s)); [|destruct (fe_fend (b_fe s))]; cbn [mko_valid mko_data mko_end andb orb mk_fsm_st mk_ctr].
      * rewrite app_nil_r. split; [lia|]. split; [exact Ho|]. exists (since [] O). rewrite Hc. cbn. rewrite app_nil_r. reflexivity.
      * rewrite app_nil_r. split; [lia|]. split; [exact Ho|]. exists (since [] O). rewrite Hc. cbn. rewrite app_nil_r. reflexivity.
      * rewrite andb_false_r. cbn [orb]. split; [exact Hc|]. destruct (f2_vout (b_f2 s) && negb (bi_busy i)); [|rewrite app_nil_r; exact Ho].
        rewrite since_snoc, len_app. unfold len at 2. cbn [length]. lia.
    + contradiction.
    + contradiction.
Qed.

Lemma st_inv_run stp : like_core stp -> forall l s O, st_inv s O -> st_inv (grun stp s l) (O ++ gouts stp s l).
Proof.
  intros L. induction l as [|i l IH]; intros s O I; cbn [grun gouts]; [rewrite app_nil_r; exact I|]. rewrite app_assoc. apply IH, st_inv_step; assumption.
Qed.
Lemma st_inv_init i3 : st_inv (bt_reset_with i3) [].
Proof. reflexivity. Qed.

Lemma stable_gen stp s O i j d e : like_core stp -> st_inv s O -> offer (gout s i) = Some (d, e) -> bi_busy i = true ->
  offer_next O d e (negb (bi_busy j)) (negb (fe_fend (b_fe s)) && fe_fend (b_fe (stp s i))) (offer (gout (stp s i) j)).
Proof.
  intros L I H B. destruct (b_rst s) eqn:Er.
  - destruct (lc_rst stp L s i Er) as (i3 & ->). unfold st_inv in I. rewrite Er in I. unfold gout, offer, mk_comb in H. unfold offer_next.
    repeat right. destruct I as (p & [[Es ->]|[Es ->]]); rewrite Es in H; cbn in H; injection H as <- <-; (split; [reflexivity|]); (split; [exists p; reflexivity|]); reflexivity.
  - pose proof (lc_f2 stp L s i Er) as Lf. pose proof (lc_mk stp L s i Er) as Lm. pose proof (lc_ar stp L s i Er) as La. remember (stp s i) as s' eqn:Es'. clear Es'.
    unfold st_inv in I. rewrite Er in I. unfold gout at 1. unfold gout in H, La. rewrite Lm. unfold mk_comb in H, La |- *. unfold mk_step.
    cbn [bt_mk_in mki_valid mki_data mki_end mki_force mki_busy] in *. rewrite B in *. cbn [negb andb] in *.
    destruct (mk_fsm_st (b_mk s)) eqn:Es; cbn [mk_fsm_st mk_ctr mk_end_cond].
    + discriminate H.
    + cbn in H. injection H as <- <-. destruct I as [Hc Ho]. unfold offer_next. destruct (bi_busy j); cbn [negb andb]; [left; reflexivity|].
      destruct (mk_ctr (b_mk s) =? 0) eqn:E; [|left; reflexivity]. right; left. apply Z.eqb_eq in E. split; [lia|]. repeat split.
    + cbn in H. injection H as <- <-. destruct I as (Hc & Ho & p & Hp). unfold offer_next, offer. cbn [mko_valid mko_data mko_end]. destruct (bi_busy j); cbn [negb andb]; [left; reflexivity|].
      destruct (mk_ctr (b_mk s) =? 1) eqn:E; [|left; reflexivity]. right; right; left. apply Z.eqb_eq in E. rewrite E in Hp.
      split; [left; reflexivity|]. split; [exists p; exact Hp|]. auto.
    + cbn in H. injection H as <- <-. destruct I as (Hc & Ho & p & Hp). unfold offer_next, offer. cbn [mko_valid mko_data mko_end]. destruct (bi_busy j); cbn [negb andb]; [left; reflexivity|].
      destruct (mk_ctr (b_mk s) =? 1) eqn:E; [|left; reflexivity]. right; right; left. apply Z.eqb_eq in E. rewrite E in Hp.
      split; [right; reflexivity|]. split; [exists p; exact Hp|]. auto.
    + destruct I as (Hc & Ho). destruct (mk_end_cond (b_mk s)) eqn:Ec; [discriminate H|]. destruct (fe_fend (b_fe s)) eqn:Ef; [discriminate H|].
      unfold offer in H. cbn [mko_valid mko_data mko_end] in H. destruct (f2_vout (b_f2 s)) eqn:Ev; [|discriminate H]. injection H as <- <-.
      destruct (Lf eq_refl eq_refl eq_refl eq_refl eq_refl) as (F1 & F2). unfold offer_next, offer. cbn [mk_fsm_st]. destruct (fe_fend (b_fe s')) eqn:Ef'; cbn [mko_valid mko_data mko_end negb andb].
      * right; right; right; left. repeat split. exact Ho.
      * left. rewrite F1, F2. reflexivity.
    + contradiction.
    + contradiction.
Qed.

Lemma f2_hold3 s i : f2i_busy i = true -> f2_vout s = true -> f2_vout (f2_step s i) = true /\ f2_dout (f2_step s i) = f2_dout s.
Proof.
  intros B V. unfold f2_step. rewrite B. cbn [negb]. destruct (f2_fsm_st s); auto. unfold f2_normal. rewrite B, V. cbn [negb].
  destruct (f2i_valid i && negb (f2_obusy s)); cbn [f2_vout f2_dout]; auto.
Qed.

Lemma beta_like c mem : like_core (bt_step c mem).
Proof.
  constructor; intros s i Er; unfold bt_step; rewrite Er.
  - eexists. reflexivity.
  - reflexivity.
  - unfold bt_next. cbn [b_rst]. rewrite Er. reflexivity.
  - intros Es B V E F. unfold bt_next. cbn [b_f2 snd fx_step]. apply f2_hold3; [|exact V].
    unfold fx_in2, bt_fx_in, mk_comb. cbn. rewrite Es, E, F. exact B.
Qed.
Lemma micro_like c mem : like_core (mc_step c mem).
Proof.
  constructor; intros s i Er; unfold mc_step; rewrite Er.
  - eexists. reflexivity.
  - reflexivity.
  - unfold mc_next. cbn [b_rst]. rewrite Er. reflexivity.
  - intros Es B V E F. unfold mc_next. cbn [b_f2]. apply f2_hold3; [exact B|exact V].
Qed.

Lemma grun_beta c mem l : forall s, grun (bt_step c mem) s l = bt_run c mem s l.
Proof. induction l as [|i l IH]; intros s; cbn [grun bt_run]; auto. Qed.
Lemma gouts_beta c mem l : forall s, gouts (bt_step c mem) s l = bt_outs c mem s l.
Proof. induction l as [|i l IH]; intros s; cbn [gouts bt_outs]; [reflexivity|]. rewrite IH. reflexivity. Qed.
Lemma grun_micro c mem l : forall s, grun (mc_step c mem) s l = mc_run c mem s l.
Proof. induction l as [|i l IH]; intros s; cbn [grun mc_run]; auto. Qed.
Lemma gouts_micro c mem l : forall s, gouts (mc_step c mem) s l = mc_outs c mem s l.
Proof. induction l as [|i l IH]; intros s; cbn [gouts mc_outs]; [reflexivity|]. rewrite IH. reflexivity. Qed.

(* ---------- the theorems ---------- *)

(* C29.  Beta core, any configuration, pixels, size and budget registers and schedule, any number of frames: if a word is
   offered while the consumer is busy, then the next cycle offers it again, with one of the four exceptions of offer_next. *)
Theorem C29_stable_beta : forall c mem i3 l i j d e,
  let s0 := bt_reset_with i3 in let s := bt_run c mem s0 l in let s' := bt_step c mem s i in
  offer (bt_out s i) = Some (d, e) -> bi_busy i = true ->
  offer_next (bt_outs c mem s0 l) d e (negb (bi_busy j)) (negb (fe_fend (b_fe s)) && fe_fend (b_fe s')) (offer (bt_out s' j)).
Proof.
  intros c mem i3 l i j d e s0 s s' H B. pose proof (st_inv_run _ (beta_like c mem) l s0 [] (st_inv_init i3)) as I. rewrite grun_beta, gouts_beta in I.
  exact (stable_gen _ _ _ i j d e (beta_like c mem) I H B).
Qed.
(* The same holds for the micro core. *)
Theorem C29_stable_micro : forall c mem i3 l i j d e,
  let s0 := bt_reset_with i3 in let s := mc_run c mem s0 l in let s' := mc_step c mem s i in
  offer (mc_out s i) = Some (d, e) -> bi_busy i = true ->
  offer_next (mc_outs c mem s0 l) d e (negb (bi_busy j)) (negb (fe_fend (b_fe s)) && fe_fend (b_fe s')) (offer (mc_out s' j)).
Proof.
  intros c mem i3 l i j d e s0 s s' H B. pose proof (st_inv_run _ (micro_like c mem) l s0 [] (st_inv_init i3)) as I. rewrite grun_micro, gouts_micro in I.
  exact (stable_gen _ _ _ i j d e (micro_like c mem) I H B).
Qed.

(* Three of the exceptions lie in wait in every frame.  In the cycle after the 8th header word a busy consumer is offered a ninth
   one, a ready consumer nothing. *)
Lemma hdr8_gen stp s O i : like_core stp -> st_inv s O -> len (since [] O) = 7 -> len (since [] (O ++ ggave s i)) = 8 ->
  forall j, offer (gout (stp s i) j) = if bi_busy j then Some (0xFFFF, false) else None.
Proof.
  intros L I H7 H8 j. pose proof I as J. unfold st_inv in J. destruct (b_rst s) eqn:Er.
  { destruct J as (p & [[_ ->]|[_ ->]]); rewrite since_end in H7; discriminate. }
  pose proof (lc_mk stp L s i Er) as Lm. unfold ggave, gout, mk_comb in H8. unfold gout, mk_comb. rewrite Lm. unfold mk_step.
  cbn [bt_mk_in mki_valid mki_data mki_end mki_force mki_busy] in *. destruct (mk_fsm_st (b_mk s)); cbn [mk_fsm_st mk_ctr]; try lia.
  - rewrite J in H7. discriminate.
  - destruct J as [Hc Ho]. destruct (bi_busy i); cbn [negb andb] in *; [rewrite andb_false_r, app_nil_r in H8; lia|]. replace (mk_ctr (b_mk s) =? 0) with false by lia.
    cbn [mk_fsm_st mk_ctr]. replace (mk_ctr (b_mk s) - 1) with 0 by lia. destruct (bi_busy j); reflexivity.
Qed.
Theorem C29_ninth : forall c mem i3 l i j,
  let s0 := bt_reset_with i3 in
  len (since [] (bt_outs c mem s0 l)) = 7 -> len (since [] (bt_outs c mem s0 (l ++ [i]))) = 8 ->
  offer (bt_out (bt_run c mem s0 (l ++ [i])) j) = if bi_busy j then Some (0xFFFF, false) else None.
Proof.
  intros c mem i3 l i j s0 H7 H8. pose proof (st_inv_run _ (beta_like c mem) l s0 [] (st_inv_init i3)) as I. rewrite grun_beta, gouts_beta in I.
  assert (E : forall l s, bt_outs c mem s (l ++ [i]) = bt_outs c mem s l ++ ggave (bt_run c mem s l) i /\ bt_run c mem s (l ++ [i]) = bt_step c mem (bt_run c mem s l) i).
  { clear. induction l as [|a l IH]; intros s; cbn [app bt_outs bt_run]; [rewrite app_nil_r; auto|]. destruct (IH (bt_step c mem s a)) as [-> ->]. rewrite app_assoc. auto. }
  destruct (E l s0) as [E1 E2]. rewrite E1 in H8. rewrite E2. exact (hdr8_gen _ _ _ i (beta_like c mem) I H7 H8 j).
Qed.

(* The end flag is a function of the consumer's readiness: in the cycle in which the end word of a frame is handed over, a busy
   consumer would have seen the same word without the flag.  One cycle later the end word is offered again, whether or not the
   consumer is ready, and one cycle after that nothing is offered. *)
Lemma endflag_gen stp s O i d : like_core stp -> st_inv s O -> b_rst s = false -> ggave s i = [(d, true)] ->
  (forall i', bi_busy i' = true -> offer (gout s i') = Some (d, false)) /\
  (forall j, offer (gout (stp s i) j) = Some (d, true)) /\
  (forall j k, offer (gout (stp (stp s i) j) k) = None).
Proof.
  intros L I Er G. assert (Hr : b_rst (stp s i) = true).
  { rewrite (lc_ar stp L s i Er). unfold ggave in G. unfold ar_step. destruct (mko_valid (gout s i)), (negb (bi_busy i)); try discriminate. injection G as _ ->. reflexivity. }
  assert (K : forall j k, offer (gout (stp (stp s i) j) k) = None).
  { intros j k. destruct (lc_rst stp L _ j Hr) as (i3 & ->). reflexivity. }
  pose proof (lc_mk stp L s i Er) as Lm. unfold st_inv in I. rewrite Er in I.
  assert (X : mk_fsm_st (b_mk s) = MK_ENDM \/ mk_fsm_st (b_mk s) = MK_FENDM).
  { unfold ggave, gout, mk_comb in G. cbn [bt_mk_in mki_valid mki_data mki_end mki_force mki_busy] in G.
    destruct (mk_fsm_st (b_mk s)); auto; try contradiction; exfalso;
      repeat (match type of G with context [if ?x then _ else _] => destruct x end; cbn [mko_valid mko_data mko_end andb negb] in G; try discriminate G). }
  unfold ggave, gout in G. unfold gout. rewrite Lm. unfold mk_comb, mk_step in *. cbn [bt_mk_in mki_valid mki_data mki_end mki_force mki_busy] in *.
  split; [|split; [|exact K]].
  - intros i' Hb. rewrite Hb. destruct X as [X|X]; rewrite X in *; cbn [mko_valid mko_data mko_end andb] in G;
      (destruct (negb (bi_busy i)); [injection G as <- _; reflexivity|discriminate G]).
  - intros j. destruct X as [X|X]; rewrite X in *; cbn [mko_valid mko_data mko_end andb] in G;
      (destruct (negb (bi_busy i)); [injection G as <- G; cbn [andb] in G; rewrite G; reflexivity|discriminate G]).
Qed.
Theorem C29_endflag : forall c mem i3 l i d,
  let s0 := bt_reset_with i3 in let s := bt_run c mem s0 l in
  b_rst s = false -> bt_gave s i = [(d, true)] ->
  (forall i', bi_busy i' = true -> offer (bt_out s i') = Some (d, false)) /\
  (forall j, offer (bt_out (bt_step c mem s i) j) = Some (d, true)) /\
  (forall j k, offer (bt_out (bt_step c mem (bt_step c mem s i) j) k) = None).
Proof.
  intros c mem i3 l i d s0 s Er G. pose proof (st_inv_run _ (beta_like c mem) l s0 [] (st_inv_init i3)) as I. rewrite grun_beta, gouts_beta in I.
  exact (endflag_gen _ _ _ i d (beta_like c mem) I Er G).
Qed.
Theorem C29_micro : forall c mem i3 l i,
  let s0 := bt_reset_with i3 in let s := mc_run c mem s0 l in let O := mc_outs c mem s0 l in
  (len (since [] O) = 7 -> len (since [] (O ++ mc_gave s i)) = 8 ->
   forall j, offer (mc_out (mc_step c mem s i) j) = if bi_busy j then Some (0xFFFF, false) else None) /\
  (forall d, b_rst s = false -> mc_gave s i = [(d, true)] ->
   (forall i', bi_busy i' = true -> offer (mc_out s i') = Some (d, false)) /\
   (forall j, offer (mc_out (mc_step c mem s i) j) = Some (d, true)) /\
   (forall j k, offer (mc_out (mc_step c mem (mc_step c mem s i) j) k) = None)).
Proof.
  intros c mem i3 l i s0 s O. pose proof (st_inv_run _ (micro_like c mem) l s0 [] (st_inv_init i3)) as I. rewrite grun_micro, gouts_micro in I.
  split; [intros H7 H8; exact (hdr8_gen _ _ _ i (micro_like c mem) I H7 H8)|]. intros d Er G. exact (endflag_gen _ _ _ i d (micro_like c mem) I Er G).
Qed.

(* The beta core as shipped but for an 8 x 4 frame, a consumer that is ready in every second cycle only: the ninth header word, the late
   end flag and the repeated end word are all seen; and with a budget of 60 cycles a payload word is withdrawn. *)
Definition C29_in (a : Z) (k : nat) : bt_in :=
  {| bi_valid := true; bi_px := [Z.of_nat k * 1237 mod 4096; Z.of_nat k * 517 mod 4096]; bi_busy := Nat.even k; bi_w := 8; bi_h := 4; bi_allowed := a |}.
Definition C29_trace (a : Z) (n : nat) : list (option (Z * bool)) :=
  let ins := map (C29_in a) (seq 0 n) in
  let fix go s l := match l with [] => [] | i :: r => offer (bt_out s i) :: go (bt_step beta_cfg (M_Encode.init_huff_table 12) s i) r end in
  go (bt_init beta_cfg) ins.
Definition C29_at (a : Z) (n : nat) : bt_st := bt_run beta_cfg (M_Encode.init_huff_table 12) (bt_init beta_cfg) (map (C29_in a) (seq 0 n)).
Example C29_stable_example :
  let t := C29_trace 1000 150 in let f := C29_trace 60 75 in
  (nth_error t 44, nth_error t 45) = (Some (Some (0xFFFF, false)), Some None) /\
  (nth_error t 144, nth_error t 145) = (Some (Some (0xFFFF, false)), Some (Some (0xFFFF, true))) /\
  (nth_error t 146, nth_error t 147) = (Some (Some (0xFFFF, true)), Some None) /\
  (nth_error f 70, nth_error f 71) = (Some (Some (5373, false)), Some None) /\
  b_rst (C29_at 1000 145) = false /\ bt_gave (C29_at 1000 145) (C29_in 1000 145) = [(0xFFFF, true)].
Proof. vm_compute. repeat split. Qed.
