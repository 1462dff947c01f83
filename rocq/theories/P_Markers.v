(* Invariant of the markers stage; the force-end counter. *)
From Verif Require Import Bits Spec M_Markers P_I3 P_Run P_Live P_Fix.
Ltac Zify.zify_post_hook ::= idtac.

Definition mk_hdr : list Z := repeat 0xFFFF 8.
Definition mk_took (s : mk_st) (i : mk_in) : list (Z * bool) :=
  if mki_valid i && negb (mko_busy (mk_comb s i)) then [(mki_data i, mki_end i)] else [].
Definition mk_gave (s : mk_st) (i : mk_in) : list (Z * bool) :=
  if mko_valid (mk_comb s i) && negb (mki_busy i) then [(mko_data (mk_comb s i), mko_end (mk_comb s i))] else [].

(* acc: payload words taken in; outs: words handed over; f: force-end was seen *)
Definition mk_inv (s : mk_st) (acc outs : list (Z * bool)) (f : bool) : Prop :=
  match mk_fsm_st s with
  | MK_IDLE => acc = [] /\ outs = []
  | MK_START => acc = [] /\ 0 <= mk_ctr s <= 8 /\ outs = plain (repeat 0xFFFF (Z.to_nat (8 - mk_ctr s)))
  | MK_FRAME => mk_ctr s = 8 /\ outs = plain (mk_hdr ++ map fst acc) /\
      (exists ws, acc = plain ws /\ mk_end_cond s = false \/ exists w, acc = plain ws ++ [(w, true)] /\ mk_end_cond s = true)
  | MK_ENDM => 1 <= mk_ctr s <= 8 /\ outs = plain (mk_hdr ++ map fst acc ++ repeat 0xFFFF (Z.to_nat (8 - mk_ctr s))) /\
      exists ws w, acc = plain ws ++ [(w, true)]
  | MK_FENDM => 1 <= mk_ctr s <= 8 /\ outs = plain (mk_hdr ++ map fst acc ++ repeat 0xFFFE (Z.to_nat (8 - mk_ctr s))) /\
      (exists ws, acc = plain ws) /\ f = true
  | MK_DONE => cut outs = plain (mk_hdr ++ map fst acc ++ repeat 0xFFFF 7) ++ [(0xFFFF, true)] /\
      exists ws w, acc = plain ws ++ [(w, true)]
  | MK_FDONE => cut outs = plain (mk_hdr ++ map fst acc ++ repeat 0xFFFE 7) ++ [(0xFFFE, true)] /\
      (exists ws, acc = plain ws) /\ f = true
  end.

Lemma cut_cut_app {A} (l : list (A * bool)) x : existsb snd (cut l) = true -> cut (l ++ [x]) = cut l.
Proof. intros H. apply cut_hasend. rewrite existsb_cut in H. exact H. Qed.

Lemma plain_app {A} (a b : list A) : plain (a ++ b) = plain a ++ plain b.
Proof. unfold plain. apply map_app. Qed.

Lemma repeat_snoc {A} (x : A) n : repeat x n ++ [x] = repeat x (S n).
Proof. induction n as [|n IH]; [reflexivity|]. cbn [repeat app]. rewrite IH. reflexivity. Qed.

Lemma mk_step_ok s i acc outs f : mk_inv s acc outs f ->
  (acc = [] -> mki_valid i = true -> mki_end i = true -> mk_fsm_st s = MK_FRAME) ->
  mk_inv (mk_step s i) (acc ++ mk_took s i) (outs ++ mk_gave s i) (f || mki_force i).
Proof.
  intros I Hfirst. unfold mk_inv in I. unfold mk_took, mk_gave.
  destruct (mk_fsm_st s) eqn:Est; unfold mk_comb, mk_step; rewrite Est.
  - (* IDLE *) destruct I as [-> ->]. cbn [mko_busy mko_valid negb andb]. rewrite andb_false_r. cbn [app].
    unfold mk_inv. cbn [mk_fsm_st mk_ctr]. destruct (mki_valid i); cbn; [|auto]. repeat split; lia.
  - (* START *) destruct I as (-> & Hc & ->).
    destruct (mki_busy i) eqn:Eb; cbn [negb andb].
    + cbn [mko_busy mko_valid negb andb]. rewrite andb_false_r. cbn [app]. rewrite app_nil_r. unfold mk_inv. cbn [mk_fsm_st mk_ctr]. auto.
    + destruct (mk_ctr s =? 0) eqn:Ec; cbn [mko_busy mko_valid mko_data mko_end negb andb]; rewrite andb_false_r; cbn [app]; unfold mk_inv; cbn [mk_fsm_st mk_ctr mk_end_cond].
      * apply Z.eqb_eq in Ec. rewrite Ec, app_nil_r. cbn [map]. rewrite app_nil_r. repeat split. exists []. left. split; [reflexivity|].
        destruct (mki_valid i) eqn:Ev, (mki_end i) eqn:Ee; try reflexivity. specialize (Hfirst eq_refl eq_refl eq_refl). discriminate.
      * rewrite trunc_id by (change (2 ^ 4) with 16; lia). repeat split; try lia.
        rewrite plain_snoc, repeat_snoc. do 2 f_equal. lia.
  - (* ENDM *) destruct I as (Hc & -> & ws & w & Ha). cbn [mko_busy mko_valid mko_data mko_end negb andb]. rewrite andb_false_r. rewrite app_nil_r.
    destruct (mki_busy i) eqn:Eb; cbn [negb andb].
    + rewrite app_nil_r. unfold mk_inv. cbn [mk_fsm_st mk_ctr]. repeat split; try lia. eauto.
    + destruct (mk_ctr s =? 1) eqn:Ec; unfold mk_inv; cbn [mk_fsm_st mk_ctr].
      * assert (mk_ctr s = 1) by lia. split; [|eauto]. rewrite cut_plain_app. cbn [cut]. replace (Z.to_nat (8 - mk_ctr s)) with 7%nat by lia. reflexivity.
      * rewrite trunc_id by (change (2 ^ 4) with 16; lia). split; [lia|]. split; [|eauto].
        rewrite plain_snoc, <- !app_assoc, repeat_snoc. do 4 f_equal. lia.
  - (* FENDM *) destruct I as (Hc & -> & (ws & Ha) & ->). cbn [mko_busy mko_valid mko_data mko_end negb andb]. rewrite andb_false_r. rewrite app_nil_r.
    destruct (mki_busy i) eqn:Eb; cbn [negb andb].
    + rewrite app_nil_r. unfold mk_inv. cbn [mk_fsm_st mk_ctr]. repeat split; try lia. eauto.
    + destruct (mk_ctr s =? 1) eqn:Ec; unfold mk_inv; cbn [mk_fsm_st mk_ctr].
      * assert (mk_ctr s = 1) by lia. split; [|eauto]. rewrite cut_plain_app. cbn [cut]. replace (Z.to_nat (8 - mk_ctr s)) with 7%nat by lia. reflexivity.
      * rewrite trunc_id by (change (2 ^ 4) with 16; lia). split; [lia|]. split; [|eauto].
        rewrite plain_snoc, <- !app_assoc, repeat_snoc. do 4 f_equal. lia.
  - (* FRAME *) destruct I as (Hc & -> & ws & Hws).
    destruct (mk_end_cond s) eqn:Eec.
    + destruct Hws as [[_ X]|(w & Ha & _)]; [discriminate|]. cbn [mko_busy mko_valid negb andb]. rewrite andb_false_r. rewrite !app_nil_r.
      unfold mk_inv. cbn [mk_fsm_st mk_ctr]. rewrite Hc. change (Z.to_nat (8 - 8)) with 0%nat. cbn [repeat]. rewrite app_nil_r.
      split; [lia|]. split; [reflexivity|]. eauto.
    + destruct Hws as [[Ha _]|(w & _ & X)]; [|discriminate]. destruct (mki_force i) eqn:Ef.
      * cbn [mko_busy mko_valid negb andb]. rewrite andb_false_r. rewrite !app_nil_r.
        unfold mk_inv. cbn [mk_fsm_st mk_ctr]. rewrite Hc. change (Z.to_nat (8 - 8)) with 0%nat. cbn [repeat]. rewrite app_nil_r.
        split; [lia|]. split; [reflexivity|]. split; [eauto|]. apply orb_true_r.
      * cbn [mko_busy mko_valid mko_data mko_end]. unfold mk_inv. cbn [mk_fsm_st mk_ctr mk_end_cond].
        split; [assumption|]. destruct (mki_valid i) eqn:Ev, (mki_busy i) eqn:Eb; cbn [negb andb]; rewrite ?app_nil_r.
        -- split; [reflexivity|]. exists ws. auto.
        -- split; [rewrite plain_snoc, map_app, <- app_assoc; reflexivity|].
           destruct (mki_end i).
           ++ exists ws. right. exists (mki_data i). rewrite Ha. auto.
           ++ exists (ws ++ [mki_data i]). left. rewrite Ha, plain_snoc. auto.
        -- split; [reflexivity|]. exists ws. auto.
        -- split; [reflexivity|]. exists ws. auto.
  - (* DONE *) destruct I as (D & ws & w & Ha). cbn [mko_busy mko_valid mko_data mko_end negb andb]. rewrite andb_false_r. rewrite app_nil_r.
    unfold mk_inv. cbn [mk_fsm_st mk_ctr]. split; [|eauto].
    destruct (negb (mki_busy i)); [|rewrite app_nil_r; exact D]. rewrite cut_cut_app; [exact D|].
    rewrite D, existsb_app. cbn. apply orb_true_r.
  - (* FDONE *) destruct I as (D & (ws & Ha) & ->). cbn [mko_busy mko_valid mko_data mko_end negb andb]. rewrite andb_false_r. rewrite app_nil_r.
    unfold mk_inv. cbn [mk_fsm_st mk_ctr]. split; [|eauto].
    destruct (negb (mki_busy i)); [|rewrite app_nil_r; exact D]. rewrite cut_cut_app; [exact D|].
    rewrite D, existsb_app. cbn. apply orb_true_r.
Qed.

(* until a word has been taken in, no word on offer carries the end flag *)
Definition not_first_end (s : mk_st) (acc : list (Z * bool)) (l : list mk_in) : Prop :=
  forall p i r, l = p ++ i :: r -> acc ++ mk_accepted s p = [] -> mki_valid i = true -> mki_end i = false.

Lemma mk_run_ok : forall l s acc outs f, mk_inv s acc outs f -> not_first_end s acc l ->
  mk_inv (mk_run s l) (acc ++ mk_accepted s l) (outs ++ mk_outs s l) (f || existsb mki_force l).
Proof.
  induction l as [|i l IH]; intros s acc outs f I Hn.
  - cbn. rewrite !app_nil_r, orb_false_r. exact I.
  - cbn [mk_run mk_accepted mk_outs existsb]. fold (mk_took s i). fold (mk_gave s i). rewrite !app_assoc, orb_assoc. apply IH.
    + apply mk_step_ok; [assumption|]. intros Ha Hv He. exfalso.
      assert (X : mki_end i = false) by (apply (Hn [] i l eq_refl); [cbn; rewrite app_nil_r; exact Ha|exact Hv]). congruence.
    + intros p j r -> Ha Hv. apply (Hn (i :: p) j r eq_refl); [|exact Hv]. cbn [mk_accepted]. fold (mk_took s i). rewrite app_assoc. exact Ha.
Qed.

Lemma mk_inv_init : mk_inv mk_init [] [] false.
Proof. split; reflexivity. Qed.

(* ------------------------------------------------------------ force_end *)

(* cycles since the first valid input *)
Lemma fe_count : forall l n, (forall x, In x l -> snd x = n) -> forall k, 0 <= k -> k + len l <= n -> n < 2 ^ 24 ->
  fe_run {| fe_fsm_st := FE_COUNTING; fe_ctr := k; fe_fend := false |} l =
  {| fe_fsm_st := FE_COUNTING; fe_ctr := k + len l; fe_fend := false |}.
Proof.
  induction l as [|[v a] l IH]; intros n Hl k Hk Hn Hb.
  - change (len (@nil (bool * Z))) with 0. rewrite Z.add_0_r. reflexivity.
  - assert (Hll : len ((v, a) :: l) = len l + 1) by (unfold len; cbn [length]; lia). pose proof (len_nonneg l).
    cbn [fe_run]. unfold fe_step. cbn [fe_fsm_st fe_ctr fe_fend]. assert (a = n) by (apply (Hl (v, a)); left; reflexivity). subst a.
    replace (k =? n) with false by lia. rewrite trunc_id by (change (2 ^ 24) with 16777216 in *; change (2 ^ 25) with 33554432; lia).
    rewrite (IH n) by (try lia; intros; apply Hl; right; assumption). f_equal. lia.
Qed.
