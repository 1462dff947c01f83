(* Property theorems for the complete beta core: C25 - C28. *)
From Verif Require Import Bits Spec Spec_Core Spec_Beta M_Config M_Encode M_I1 M_Fifo M_I3 M_Fix M_Markers M_Beta
  P_Encode P_Tokens P_I3 P_Decode P_Run P_Live P_Fix P_Markers Props_Arith Props_Core Props_Frame P_Pack P_Beta.
Ltac Zify.zify_post_hook ::= idtac.

Lemma gave_marker s i (forced : bool) : mk_fsm_st (b_mk s) = (if forced then MK_FDONE else MK_DONE) ->
  bt_gave s i = if bi_busy i then [] else [(if forced then 0xFFFE else 0xFFFF, true)].
Proof.
  intros H. unfold bt_gave, bt_out, mk_comb. rewrite H. destruct forced, (bi_busy i); reflexivity.
Qed.

Lemma cut_snoc (O : list (Z * bool)) s i : existsb snd O = false -> cut (O ++ bt_gave s i) = O ++ bt_gave s i.
Proof.
  intros H. rewrite cut_app_noend by assumption. f_equal. unfold bt_gave. destruct (_ && _); [|reflexivity]. cbn [cut]. destruct (mko_end _); reflexivity.
Qed.

(* everything about the frames of a run *)
Lemma bt_log_ok c t sizes : (forall k, bt_hyp c t (fst (sizes k)) (snd (sizes k))) -> forall l A O s n,
  bt_inv c t (fst (sizes n)) (snd (sizes n)) A O s -> cut O = O -> bt_env c (mem_of (bd c) t) sizes n s l ->
  forall k A' O', let L := bt_log c (mem_of (bd c) t) A O s l in nth_error L k = Some (A', O') ->
  exists s', bt_inv c t (fst (sizes (n + k)%nat)) (snd (sizes (n + k)%nat)) A' O' s' /\
    ((S k < length L)%nat -> existsb snd O' = true /\
       exists b, O' = cut O' ++ (if b : bool then [] else [(if match mk_fsm_st (b_mk s') with MK_FDONE => true | _ => false end then 0xFFFE else 0xFFFF, true)])) /\
    (S k = length L -> s' = bt_run c (mem_of (bd c) t) s l /\ cut O' = O').
Proof.
  intros HY. induction l as [|i l IH]; intros A O s n I Hcut HE k A' O' L HN; unfold L in *; clear L; cbn [bt_log bt_run bt_env] in *.
  - destruct k as [|k]; [|destruct k; discriminate]. inversion HN; subst. exists s. rewrite Nat.add_0_r. cbn. split; [exact I|]. split; [lia|auto].
  - destruct HE as [Hok HE]. pose proof (bt_inv_next _ _ _ _ _ _ _ _ (HY n) Hok I) as J.
    destruct (b_rst s) eqn:Er.
    + destruct (bt_reset_ok _ _ _ _ _ _ _ _ (HY n) Hok I Er) as (i3 & Hi3 & Hst). rewrite Hst in *.
      assert (He : existsb snd O = true) by (destruct I as (P & hist & d1 & d2 & _ & _ & _ & X); congruence).
      destruct k as [|k].
      * cbn [nth_error] in HN. inversion HN; subst. rewrite Nat.add_0_r. eexists. split; [exact J|]. split.
        -- intros _. split; [rewrite existsb_app, He; reflexivity|]. exists (bi_busy i). rewrite cut_hasend, Hcut by assumption. f_equal.
           destruct (bt_inv_ended _ _ _ _ _ _ _ (HY n) I He) as (forced & _ & _ & Hfs). rewrite (gave_marker s i forced Hfs). destruct (bi_busy i); [reflexivity|].
           unfold bt_next. cbn [b_mk]. unfold mk_step. rewrite Hfs. destruct forced; reflexivity.
        -- intros X. cbn [length] in X. exfalso. destruct l as [|j l]; cbn [bt_log] in X; [discriminate|].
           destruct (b_rst _) in X; [discriminate|]. assert (Y : forall l A O s, bt_log c (mem_of (bd c) t) A O s l <> []).
           { clear. induction l as [|i l IH]; intros; cbn [bt_log]; [discriminate|]. destruct (b_rst s); [discriminate|apply IH]. }
           specialize (Y l ([] ++ bt_took (bt_reset_with i3) j) ([] ++ bt_gave (bt_reset_with i3) j) (bt_step c (mem_of (bd c) t) (bt_reset_with i3) j)).
           destruct (bt_log _ _ _ _ _ l) in *; [apply Y; reflexivity|discriminate].
      * cbn [nth_error length] in *. destruct (IH [] [] (bt_reset_with i3) (S n) (bt_inv_init _ _ _ _ _ (HY (S n)) Hi3) eq_refl HE k A' O' HN) as (s' & J' & K1 & K2).
        exists s'. replace (n + S k)%nat with (S n + k)%nat by lia. split; [exact J'|]. split; [intros; apply K1; lia|intros; apply K2; lia].
    + assert (He : existsb snd O = false) by (destruct I as (P & hist & d1 & d2 & _ & _ & _ & X); congruence).
      unfold bt_step in HE, HN |- *. rewrite Er in HE, HN |- *. apply (IH _ _ _ n J); [|exact HE|exact HN]. apply cut_snoc. exact He.
Qed.

(* ------------------------------------------------------------------ C25 *)

(* Every run from reset, any schedule of valid/busy, any sizes per frame (registers may be changed
   between frames).  Each finished frame has, on the wire, exactly the words the frame result
   describes, plus at most one repetition of the last marker word; the frame in progress is a
   beginning of such a sequence. *)
Theorem C25_frames : forall c t sizes i3 l,
  cfg_ok c = true -> outb c = 16 -> table_ok (bd c) t ->
  (forall n, beta_frame_ok c (fst (sizes n)) (snd (sizes n))) ->
  is_reset c i3 -> bt_env c (mem_of (bd c) t) sizes 0 (bt_reset_with i3) l ->
  let log := bt_log c (mem_of (bd c) t) [] [] (bt_reset_with i3) l in
  forall k A O, nth_error log k = Some (A, O) ->
  let W := fst (sizes k) in let H := snd (sizes k) in
  (* finished frames *)
  ((S k < length log)%nat -> existsb snd O = true /\
     exists forced : bool, frame_result t (bd c) W H A O forced /\
       (O = cut O \/ O = cut O ++ [(if forced then 0xFFFE else 0xFFFF, true)])) /\
  (* the frame in progress *)
  (S k = length log ->
     (existsb snd O = true -> O = cut O /\ exists forced : bool, frame_result t (bd c) W H A O forced) /\
     (existsb snd O = false -> forall X more, X = concat A ++ more -> len X = W * H ->
        exists n forced rest, map fst O ++ rest = framed (firstn n (payload t (bd c) W X)) forced)).
Proof.
  intros c t sizes i3 l Hc Ho Ht Hf Hi HE log k A O HN W H.
  assert (HY : forall k, bt_hyp c t (fst (sizes k)) (snd (sizes k))) by (intros; repeat split; try assumption; apply Hf || (apply Ht)).
  destruct (bt_log_ok c t sizes HY l [] [] (bt_reset_with i3) 0%nat (bt_inv_init _ _ _ _ _ (HY 0%nat) Hi) eq_refl HE k A O HN) as (s' & I & K1 & K2).
  cbn [Nat.add] in I. fold W H in I. fold log in K1, K2. split.
  - intros Hk. destruct (K1 Hk) as (He & b & Hb). split; [exact He|]. destruct (bt_inv_ended _ _ _ _ _ _ _ (HY k) I He) as (forced & R & _ & Hst).
    exists forced. split; [exact R|]. rewrite Hst in Hb. destruct b; [left; rewrite app_nil_r in Hb; exact Hb|right]. destruct forced; exact Hb.
  - intros Hk. destruct (K2 Hk) as [_ Hcut]. split; intros He.
    + destruct (bt_inv_ended _ _ _ _ _ _ _ (HY k) I He) as (forced & R & _). eauto.
    + intros X more HX HL. destruct (bt_inv_running _ _ _ _ _ _ _ (HY k) I He X more HX HL) as (n & forced & rest & E & _). eauto.
Qed.

(* Header + reference payload + trailer is decodable, whatever follows on the wire: the receiver
   gets the samples back. *)
Theorem C25_decodable : forall t bd W H px rest, 2 <= bd <= 15 -> table_ok bd t -> prefix_free t ->
  len px = W * H -> Forall (in_range bd) px ->
  snd (deframe (framed (payload t bd W px) false ++ rest)) = Some false /\
  receive t bd W H (framed (payload t bd W px) false ++ rest) = Some px.
Proof.
  intros t bd W H px rest Hb Ht Hp HL HF. unfold receive.
  pose proof (C24_delimitable _ (length (payload t bd W px)) false rest (payload_bytes t bd W px)) as D. cbv zeta in D. fold (payload t bd W px) in D.
  rewrite firstn_all in D. rewrite D. cbn [fst snd]. split; [reflexivity|].
  destruct (payload_bits t bd W px) as (tail & ->). unfold decode_frame. replace (Z.to_nat (W * H)) with (length px) by (unfold len in HL; lia).
  apply (ref_decode_ok t bd W px); try assumption; try lia.
  - apply Ht.
  - constructor.
  - apply all_small_15; [lia|constructor|assumption].
Qed.

(* C25 in the user's terms: every finished frame of a run is either received without loss or
   flagged as cut short. *)
Theorem C25_lossless_or_flagged : forall c t sizes i3 l,
  cfg_ok c = true -> outb c = 16 -> bd c <= 15 -> table_ok (bd c) t -> prefix_free t ->
  (forall n, beta_frame_ok c (fst (sizes n)) (snd (sizes n))) ->
  is_reset c i3 -> bt_env c (mem_of (bd c) t) sizes 0 (bt_reset_with i3) l ->
  let log := bt_log c (mem_of (bd c) t) [] [] (bt_reset_with i3) l in
  forall k A O, nth_error log k = Some (A, O) -> (S k < length log)%nat ->
  let W := fst (sizes k) in let H := snd (sizes k) in
  (snd (deframe (map fst O)) = Some false /\ len (concat A) = W * H /\
     receive t (bd c) W H (map fst O) = Some (concat A)) \/
  snd (deframe (map fst O)) = Some true.
Proof.
  intros c t sizes i3 l Hc Ho Hb Ht Hp Hf Hi HE log k A O HN Hk W H.
  destruct (C25_frames c t sizes i3 l Hc Ho Ht Hf Hi HE k A O HN) as [K _]. destruct (K Hk) as (He & forced & R & Ht2). fold W H in R.
  assert (Hb2 : 2 <= bd c) by (unfold cfg_ok in Hc; lia).
  assert (HO : exists tl, map fst O = map fst (cut O) ++ tl) by (destruct Ht2 as [E|E]; [exists []; rewrite app_nil_r; congruence|eexists; rewrite E at 1; apply map_app]).
  destruct HO as (tl & HO). assert (HY : forall k, bt_hyp c t (fst (sizes k)) (snd (sizes k))) by exact (fun k => conj Hc (conj Ho (conj Ht (Hf k)))).
  destruct (bt_log_ok c t sizes HY l [] [] (bt_reset_with i3) 0%nat (bt_inv_init _ _ _ _ _ (HY 0%nat) Hi) eq_refl HE k A O HN) as (s' & I & _).
  cbn [Nat.add] in I. destruct I as (P & hist & d1 & d2 & I1 & _). destruct (inv_pixels _ _ _ _ _ _ _ _ _ _ I1) as [HF HLp].
  destruct forced; cbn [frame_result] in R.
  - right. assert (Hlen : len (concat A) <= W * H).
    { pose proof (v_len _ _ _ _ _ _ _ _ _ _ I1) as L. destruct (frame_geom c W H Hc (proj1 (Hf k))) as [(Q1 & Q2 & _) _]. fold W H in L. rewrite HLp. nia. }
    destruct (R (concat A ++ repeat 0 (Z.to_nat (W * H - len (concat A)))) _ eq_refl) as (n & Hn).
    { rewrite len_app. unfold len at 2. rewrite repeat_length. lia. }
    rewrite HO, Hn. unfold payload. rewrite (C24_delimitable _ n true tl (payload_bytes _ _ _ _)). reflexivity.
  - left. destruct R as [HL Hm]. rewrite HO, Hm. destruct (C25_decodable t (bd c) W H (concat A) tl ltac:(lia) Ht Hp HL HF) as [D1 D2]. auto.
Qed.

(* ------------------------------------------------------------------ runs within one frame *)

Lemma bt_run_app c mem : forall a s b, bt_run c mem s (a ++ b) = bt_run c mem (bt_run c mem s a) b.
Proof. induction a as [|i a IH]; intros; [reflexivity|]. cbn [app bt_run]. apply IH. Qed.
Lemma bt_outs_app c mem : forall a s b, bt_outs c mem s (a ++ b) = bt_outs c mem s a ++ bt_outs c mem (bt_run c mem s a) b.
Proof. induction a as [|i a IH]; intros; [reflexivity|]. cbn [app bt_outs bt_run]. rewrite IH, app_assoc. reflexivity. Qed.
Lemma bt_accepted_app c mem : forall a s b, bt_accepted c mem s (a ++ b) = bt_accepted c mem s a ++ bt_accepted c mem (bt_run c mem s a) b.
Proof. induction a as [|i a IH]; intros; [reflexivity|]. cbn [app bt_accepted bt_run]. rewrite IH, app_assoc. reflexivity. Qed.

Lemma bt_next_rst c mem s i : b_rst s = false -> existsb snd (bt_gave s i) = false -> b_rst (bt_next c mem s i) = false.
Proof.
  intros Hr Hg. unfold bt_next. cbn [b_rst]. unfold ar_step, bt_gave in *. rewrite Hr. destruct (mko_valid (bt_out s i)), (bi_busy i), (mko_end (bt_out s i)); cbn in *; congruence.
Qed.

(* the history of (group accepted, allowed_cycles) pairs force_end has seen *)
Fixpoint bt_fe_ins (c : config) (mem : list Z) (s : bt_st) (l : list bt_in) : list (bool * Z) :=
  match l with [] => [] | i :: r => (bt_accept s i, bi_allowed i) :: bt_fe_ins c mem (bt_step c mem s i) r end.
Lemma bt_fe_ins_app c mem : forall a s b, bt_fe_ins c mem s (a ++ b) = bt_fe_ins c mem s a ++ bt_fe_ins c mem (bt_run c mem s a) b.
Proof. induction a as [|i a IH]; intros; [reflexivity|]. cbn [app bt_fe_ins bt_run]. rewrite IH. reflexivity. Qed.
Lemma bt_fe_ins_len c mem : forall l s, len (bt_fe_ins c mem s l) = len l.
Proof. induction l as [|i l IH]; intros; [reflexivity|]. unfold len in *. cbn [bt_fe_ins length]. specialize (IH (bt_step c mem s i)). lia. Qed.

(* h: that history since reset; the part before the last (9 - counter) cycles already had fend=1 *)
Definition cut_inv (s : bt_st) (h : list (bool * Z)) : Prop :=
  b_rst s = false /\ b_fe s = fe_run fe_init h /\
  match mk_fsm_st (b_mk s) with
  | MK_IDLE => True
  | MK_START => 0 <= mk_ctr (b_mk s) <= 8
  | MK_FRAME => mk_ctr (b_mk s) = 8
  | MK_ENDM => 1 <= mk_ctr (b_mk s) <= 8
  | MK_FENDM => 1 <= mk_ctr (b_mk s) <= 8 /\
      exists h1 h2, h = h1 ++ h2 /\ fe_fend (fe_run fe_init h1) = true /\ 9 - mk_ctr (b_mk s) <= len h2
  | MK_DONE | MK_FDONE => False
  end.

Lemma cut_inv_step c mem s h i : cut_inv s h -> existsb snd (bt_gave s i) = false ->
  cut_inv (bt_step c mem s i) (h ++ [(bt_accept s i, bi_allowed i)]).
Proof.
  intros (Hr & Hfe & Hm) Hg. pose proof (bt_next_rst c mem s i Hr Hg) as Hr'. unfold bt_step. rewrite Hr. split; [exact Hr'|]. split.
  - rewrite fe_run_app, <- Hfe. reflexivity.
  - unfold bt_next. cbn [b_mk]. unfold bt_gave, bt_out in Hg. unfold mk_step, mk_comb in *. cbn [bt_mk_in mki_busy mki_valid mki_force] in *.
    destruct (mk_fsm_st (b_mk s)) eqn:Est.
    + cbn [mk_fsm_st mk_ctr]. destruct (f2_vout (b_f2 s)); cbn [mk_fsm_st]; [lia|exact I].
    + destruct (bi_busy i); cbn [negb mk_fsm_st mk_ctr]; [exact Hm|]. destruct (mk_ctr (b_mk s) =? 0) eqn:E; cbn [mk_fsm_st mk_ctr]; [reflexivity|].
      rewrite trunc_id by (change (2 ^ 4) with 16; lia). lia.
    + destruct (bi_busy i); cbn [negb mk_fsm_st mk_ctr] in *; [exact Hm|]. destruct (mk_ctr (b_mk s) =? 1) eqn:E; cbn [mk_fsm_st mk_ctr]; [discriminate|].
      rewrite trunc_id by (change (2 ^ 4) with 16; lia). lia.
    + destruct Hm as (Hc & h1 & h2 & Hh & Hf & Hl).
      assert (K : forall x, h ++ [x] = h1 ++ (h2 ++ [x])) by (intros; rewrite Hh, <- app_assoc; reflexivity).
      destruct (bi_busy i); cbn [negb mk_fsm_st mk_ctr] in *.
      * split; [exact Hc|]. exists h1, (h2 ++ [(bt_accept s i, bi_allowed i)]). rewrite len_app. unfold len at 2. cbn [length]. split; [apply K|]. split; [exact Hf|lia].
      * destruct (mk_ctr (b_mk s) =? 1) eqn:E; cbn [mk_fsm_st mk_ctr]; [discriminate|].
        rewrite trunc_id by (change (2 ^ 4) with 16; lia). split; [lia|].
        exists h1, (h2 ++ [(bt_accept s i, bi_allowed i)]). rewrite len_app. unfold len at 2. cbn [length]. split; [apply K|]. split; [exact Hf|lia].
    + destruct (mk_end_cond (b_mk s)); cbn [mk_fsm_st mk_ctr]; [lia|]. destruct (fe_fend (b_fe s)) eqn:Ef; cbn [mk_fsm_st mk_ctr]; [|exact Hm].
      split; [lia|]. exists h, [(bt_accept s i, bi_allowed i)]. split; [reflexivity|]. split; [rewrite <- Hfe; exact Ef|]. unfold len. cbn [length]. lia.
    + destruct Hm.
    + destruct Hm.
Qed.

Lemma cut_inv_run c mem : forall l s h, cut_inv s h -> existsb snd (bt_outs c mem s l) = false ->
  cut_inv (bt_run c mem s l) (h ++ bt_fe_ins c mem s l).
Proof.
  induction l as [|i l IH]; intros s h I He; cbn [bt_run bt_fe_ins bt_outs] in *; [rewrite app_nil_r; exact I|].
  rewrite existsb_app in He. apply orb_false_elim in He. destruct He as [He1 He2].
  change ((bt_accept s i, bi_allowed i) :: bt_fe_ins c mem (bt_step c mem s i) l) with ([(bt_accept s i, bi_allowed i)] ++ bt_fe_ins c mem (bt_step c mem s i) l).
  rewrite app_assoc. apply IH; [|exact He2]. apply cut_inv_step; assumption.
Qed.
Lemma cut_inv_init i3 : cut_inv (bt_reset_with i3) [].
Proof. split; [reflexivity|]. split; [reflexivity|exact I]. Qed.

(* the first accepted group of a run, if any *)
Lemma first_accept c mem : forall l s, bt_accepted c mem s l = [] /\ (forall x, In x (bt_fe_ins c mem s l) -> fst x = false) \/
  exists p j q, l = p ++ j :: q /\ bt_accepted c mem s p = [] /\ bt_accept (bt_run c mem s p) j = true /\
    (forall x, In x (bt_fe_ins c mem s p) -> fst x = false).
Proof.
  induction l as [|i l IH]; intros s; [left; split; [reflexivity|intros x []]|].
  destruct (bt_accept s i) eqn:E.
  - right. exists [], i, l. repeat split; auto. intros x [].
  - assert (T : bt_took s i = []) by (unfold bt_took; rewrite E; reflexivity).
    destruct (IH (bt_step c mem s i)) as [[A B]|(p & j & q & -> & A & B & C)].
    + left. cbn [bt_accepted bt_fe_ins]. rewrite T, A, E. split; [reflexivity|]. intros x [<-|Hx]; [reflexivity|apply B, Hx].
    + right. exists (i :: p), j, q. cbn [app bt_accepted bt_run bt_fe_ins]. rewrite T, A, E. repeat split; auto. intros x [<-|Hx]; [reflexivity|apply C, Hx].
Qed.

Lemma fe_ins_allowed c mem n : forall l s, (forall i, In i l -> bi_allowed i = n) -> forall x, In x (bt_fe_ins c mem s l) -> snd x = n.
Proof.
  induction l as [|i l IH]; intros s Hl x Hx; [destruct Hx|]. cbn [bt_fe_ins] in Hx. destruct Hx as [<-|Hx]; [apply Hl; left; reflexivity|].
  eapply IH; [|exact Hx]. intros; apply Hl; right; assumption.
Qed.

Lemma prefix_split {X} (h1 h2 a b : list X) : h1 ++ h2 = a ++ b -> (length a <= length h1)%nat -> exists b1, h1 = a ++ b1 /\ b = b1 ++ h2.
Proof.
  revert h1. induction a as [|x a IH]; intros h1 HE Hl; [exists h1; auto|]. destruct h1 as [|y h1]; [cbn in Hl; lia|].
  cbn in HE. inversion HE; subst. destruct (IH h1 H1 ltac:(cbn in Hl; lia)) as (b1 & -> & ->). exists b1. auto.
Qed.

(* ------------------------------------------------------------------ C26 (complete core) *)

(* A frame is cut short only after its time is over: if a run from reset hands over its first
   end word, and that word is the forced-end marker, then it is handed over at least allowed_cycles + 11 cycles
   after the first group of the frame was accepted (len q cycles lie in between). *)
Theorem C26_not_early : forall c mem i3 n l i, 0 <= n < 2 ^ 24 ->
  (forall j, In j (l ++ [i]) -> bi_allowed j = n) ->
  let s := bt_reset_with i3 in
  existsb snd (bt_outs c mem s l) = false -> bt_gave (bt_run c mem s l) i = [(0xFFFE, true)] ->
  exists p j q, l = p ++ j :: q /\ bt_accepted c mem s p = [] /\ bt_accept (bt_run c mem s p) j = true /\ n + 10 <= len q.
Proof.
  intros c mem i3 n l i Hn Hal s He Hg. pose proof (cut_inv_run c mem l s [] (cut_inv_init i3) He) as (_ & _ & Hm). cbn [app] in Hm.
  unfold bt_gave, bt_out, mk_comb in Hg. cbn [bt_mk_in mki_busy] in Hg.
  assert (Hal' : forall x, In x (bt_fe_ins c mem s l) -> snd x = n) by (apply fe_ins_allowed; intros; apply Hal; apply in_or_app; auto).
  destruct (mk_fsm_st (b_mk (bt_run c mem s l))) eqn:Est; cbn [mko_valid mko_data mko_end andb] in Hg; try discriminate.
  - destruct (negb (bi_busy i) && _) in Hg; cbn [mko_valid mko_data mko_end andb] in Hg; [discriminate|destruct (negb (bi_busy i)); discriminate].
  - destruct (negb (bi_busy i)); discriminate.
  - destruct Hm as (Hc & h1 & h2 & Hh & Hf & Hl). destruct (bi_busy i); [discriminate|]. cbn [negb andb] in Hg.
    assert (mk_ctr (b_mk (bt_run c mem s l)) = 1) by (destruct (mk_ctr (b_mk (bt_run c mem s l)) =? 1) eqn:E; [lia|discriminate]).
    destruct (first_accept c mem l s) as [[_ A]|(p & j & q & -> & A & B & C)].
    + rewrite fe_idle in Hf; [discriminate|]. intros x Hx. apply A. rewrite Hh. apply in_or_app. auto.
    + exists p, j, q. repeat split; try assumption. rewrite bt_fe_ins_app in Hh, Hal'. cbn [bt_fe_ins] in Hh, Hal'. rewrite B in Hh, Hal'.
      set (hp := bt_fe_ins c mem s p) in *. set (hq := bt_fe_ins c mem (bt_step c mem (bt_run c mem s p) j) q) in *.
      assert (Hq : len hq = len q) by apply bt_fe_ins_len.
      destruct (Nat.le_gt_cases (length h1) (length hp)) as [Hle|Hgt].
      * exfalso. assert (exists r, hp = h1 ++ r) as (r & Er) by (eapply app_prefix; [symmetry; exact Hh|exact Hle]).
        rewrite fe_idle in Hf; [discriminate|]. intros x Hx. apply C. rewrite Er. apply in_or_app. auto.
      * destruct (prefix_split h1 h2 hp ((true, bi_allowed j) :: hq) (eq_sym Hh) ltac:(lia)) as (b1 & E1 & E2).
        destruct b1 as [|[v a] b1]; [rewrite app_nil_r in E1; rewrite E1 in Hgt; lia|]. cbn [app] in E2. injection E2 as E2v E2a E2.
        rewrite E1, <- E2v in Hf. assert (Hb1 : forall x, In x b1 -> snd x = n).
        { intros x Hx. apply Hal'. apply in_or_app. right. right. rewrite E2. apply in_or_app. auto. }
        destruct (C26_timer hp n a b1 Hn C Hb1) as [_ T]. rewrite T in Hf. rewrite E2, len_app in Hq. lia.
  - destruct (mk_end_cond _) in Hg; [discriminate|]. destruct (mki_force _) in Hg; [discriminate|]. cbn [mko_valid mko_data mko_end andb] in Hg. destruct (_ && _) in Hg; discriminate.
  - destruct Hm.
  - destruct Hm.
Qed.

(* number of cycles in which the consumer is ready *)
Definition bt_ready (l : list bt_in) : Z := len (filter (fun i => negb (bi_busy i)) l).
Definition bt_left (s : mk_st) : Z :=
  match mk_fsm_st s with
  | MK_IDLE => 0 | MK_START => mk_ctr s + 10 | MK_FRAME => 9 | MK_ENDM | MK_FENDM => mk_ctr s | _ => 1 end.

Lemma bt_force_progress c mem : forall l s h, cut_inv s h -> mk_fsm_st (b_mk s) <> MK_IDLE -> fe_fend (b_fe s) = true ->
  bt_left (b_mk s) <= bt_ready l -> existsb snd (bt_outs c mem s l) = true.
Proof.
  induction l as [|i l IH]; intros s h I Hi Hf Hn.
  - exfalso. destruct I as (_ & _ & Hm). unfold bt_ready, len in Hn. cbn in Hn. unfold bt_left in Hn. destruct (mk_fsm_st (b_mk s)); lia || congruence || tauto.
  - cbn [bt_outs]. rewrite existsb_app. destruct (existsb snd (bt_gave s i)) eqn:Eg; [reflexivity|]. cbn [orb].
    assert (Hr : bt_ready (i :: l) = bt_ready l + b2z (negb (bi_busy i))).
    { unfold bt_ready. cbn [filter]. destruct (negb (bi_busy i)); unfold len; cbn [length b2z]; lia. }
    rewrite Hr in Hn. pose proof (cut_inv_step c mem s h i I Eg) as I'. destruct I as (Hrs & Hfe & Hm).
    apply (IH _ _ I').
    + unfold bt_step. rewrite Hrs. unfold bt_next. cbn [b_mk]. unfold mk_step. cbn [bt_mk_in mki_busy mki_force].
      destruct (mk_fsm_st (b_mk s)); [congruence| | | | |destruct Hm..].
      * destruct (bi_busy i); cbn [negb mk_fsm_st]; [discriminate|]. destruct (_ =? 0); discriminate.
      * destruct (bi_busy i); cbn [negb mk_fsm_st]; [discriminate|]. destruct (_ =? 1); discriminate.
      * destruct (bi_busy i); cbn [negb mk_fsm_st]; [discriminate|]. destruct (_ =? 1); discriminate.
      * cbn [mk_fsm_st]. destruct (mk_end_cond (b_mk s)); [discriminate|]. rewrite Hf. discriminate.
    + unfold bt_step. rewrite Hrs. unfold bt_next. cbn [b_fe]. apply fe_fend_mono, Hf.
    + unfold bt_step. rewrite Hrs. unfold bt_next. cbn [b_mk]. unfold bt_left, mk_step in *. cbn [bt_mk_in mki_busy mki_force].
      unfold bt_gave, bt_out, mk_comb in Eg. cbn [bt_mk_in mki_busy mki_force] in Eg.
      destruct (mk_fsm_st (b_mk s)); [congruence| | | | |destruct Hm..].
      * destruct (bi_busy i); cbn [negb mk_fsm_st mk_ctr b2z] in *; [lia|]. destruct (mk_ctr (b_mk s) =? 0) eqn:E; cbn [mk_fsm_st mk_ctr]; [lia|].
        rewrite trunc_id by (change (2 ^ 4) with 16; lia). lia.
      * destruct (bi_busy i); cbn [negb mk_fsm_st mk_ctr b2z] in *; [lia|]. destruct (mk_ctr (b_mk s) =? 1) eqn:E; cbn [mk_fsm_st mk_ctr]; [discriminate|].
        rewrite trunc_id by (change (2 ^ 4) with 16; lia). lia.
      * destruct (bi_busy i); cbn [negb mk_fsm_st mk_ctr b2z] in *; [lia|]. destruct (mk_ctr (b_mk s) =? 1) eqn:E; cbn [mk_fsm_st mk_ctr]; [discriminate|].
        rewrite trunc_id by (change (2 ^ 4) with 16; lia). lia.
      * cbn [mk_fsm_st mk_ctr]. rewrite Hf. destruct (mk_end_cond (b_mk s)); cbn [mk_fsm_st mk_ctr]; destruct (bi_busy i); cbn [negb b2z] in Hn; lia.
Qed.

Lemma started c mem : forall l s, mk_fsm_st (b_mk s) = MK_IDLE -> b_rst s = false -> existsb snd (bt_outs c mem s l) = false ->
  bt_outs c mem s l <> [] -> mk_fsm_st (b_mk (bt_run c mem s l)) <> MK_IDLE.
Proof.
  assert (K : forall l s, mk_fsm_st (b_mk s) <> MK_IDLE -> b_rst s = false -> existsb snd (bt_outs c mem s l) = false -> mk_fsm_st (b_mk (bt_run c mem s l)) <> MK_IDLE).
  { induction l as [|i l IH]; intros s Hs Hr He; [exact Hs|]. cbn [bt_run bt_outs] in *. rewrite existsb_app in He. apply orb_false_elim in He. destruct He as [He1 He2].
    pose proof (bt_next_rst c mem s i Hr He1) as Hr'. unfold bt_step in *. rewrite Hr in *. apply IH; [|exact Hr'|exact He2].
    unfold bt_next. cbn [b_mk]. unfold mk_step. destruct (mk_fsm_st (b_mk s)); [congruence|..].
    - destruct (negb _); cbn [mk_fsm_st]; [destruct (_ =? 0)|]; discriminate.
    - destruct (negb _); cbn [mk_fsm_st]; [destruct (_ =? 1)|]; discriminate.
    - destruct (negb _); cbn [mk_fsm_st]; [destruct (_ =? 1)|]; discriminate.
    - cbn [mk_fsm_st]. destruct (mk_end_cond _); [discriminate|]. destruct (mki_force _); discriminate.
    - discriminate.
    - discriminate. }
  induction l as [|i l IH]; intros s Hs Hr He Hne; [destruct (Hne eq_refl)|]. cbn [bt_run bt_outs] in *.
  rewrite existsb_app in He. apply orb_false_elim in He. destruct He as [He1 He2]. pose proof (bt_next_rst c mem s i Hr He1) as Hr'.
  assert (Hg : bt_gave s i = []) by (unfold bt_gave, bt_out, mk_comb; rewrite Hs; reflexivity). rewrite Hg in Hne. cbn [app] in Hne.
  assert (Hst : bt_step c mem s i = bt_next c mem s i) by (unfold bt_step; rewrite Hr; reflexivity). rewrite Hst in *.
  destruct (f2_vout (b_f2 s)) eqn:Ev.
  - apply K; [|exact Hr'|exact He2]. unfold bt_next. cbn [b_mk]. unfold mk_step. rewrite Hs. cbn [bt_mk_in mki_valid mk_fsm_st]. rewrite Ev. discriminate.
  - apply IH; [|exact Hr'|exact He2|exact Hne]. unfold bt_next. cbn [b_mk]. unfold mk_step. rewrite Hs. cbn [bt_mk_in mki_valid mk_fsm_st]. rewrite Ev. reflexivity.
Qed.

(* A frame that has begun to come out and whose time is over is ended, whatever the pixel source
   does, after at most 18 further cycles in which the consumer is ready. *)
Theorem C26_terminates : forall c mem i3 n p j q l2, 0 <= n < 2 ^ 24 ->
  (forall x, In x (p ++ j :: q) -> bi_allowed x = n) ->
  let s := bt_reset_with i3 in let l1 := p ++ j :: q in
  bt_accepted c mem s p = [] -> bt_accept (bt_run c mem s p) j = true -> n + 2 <= len q ->
  bt_outs c mem s l1 <> [] -> 18 <= bt_ready l2 ->
  existsb snd (bt_outs c mem s (l1 ++ l2)) = true.
Proof.
  intros c mem i3 n p j q l2 Hn Hal s l1 Hp Hj Hq Hne Hr. rewrite bt_outs_app, existsb_app.
  destruct (existsb snd (bt_outs c mem s l1)) eqn:He; [reflexivity|]. cbn [orb].
  pose proof (cut_inv_run c mem l1 s [] (cut_inv_init i3) He) as I. cbn [app] in I.
  assert (Hst : mk_fsm_st (b_mk (bt_run c mem s l1)) <> MK_IDLE) by (apply started; auto).
  apply (bt_force_progress c mem l2 _ _ I Hst).
  - destruct I as (_ & -> & _). unfold l1. rewrite bt_fe_ins_app. cbn [bt_fe_ins]. rewrite Hj.
    assert (Ha : forall x, In x (bt_fe_ins c mem s (p ++ j :: q)) -> snd x = n) by (apply fe_ins_allowed; exact Hal).
    rewrite bt_fe_ins_app in Ha. cbn [bt_fe_ins] in Ha.
    assert (Hidle : forall x, In x (bt_fe_ins c mem s p) -> fst x = false).
    { destruct (first_accept c mem p s) as [[_ A]|(p1 & j1 & q1 & -> & A & B & _)]; [exact A|]. exfalso.
      rewrite bt_accepted_app in Hp. cbn [bt_accepted] in Hp. unfold bt_took in Hp. rewrite B in Hp. apply app_eq_nil in Hp. destruct Hp as [_ Hp]. discriminate. }
    destruct (C26_timer (bt_fe_ins c mem s p) n (bi_allowed j) (bt_fe_ins c mem (bt_step c mem (bt_run c mem s p) j) q) Hn Hidle) as [_ T].
    + intros x Hx. apply Ha. apply in_or_app. right. right. exact Hx.
    + rewrite T, bt_fe_ins_len. lia.
  - destruct I as (_ & _ & Hm). unfold bt_left. destruct (mk_fsm_st (b_mk (bt_run c mem s l1))); lia || tauto.
Qed.

(* ------------------------------------------------------------------ C27, C28 (complete core) *)

Lemma reach_inv c t sizes i3 l : (forall k, bt_hyp c t (fst (sizes k)) (snd (sizes k))) -> is_reset c i3 ->
  bt_env c (mem_of (bd c) t) sizes 0 (bt_reset_with i3) l ->
  exists k A O, bt_inv c t (fst (sizes k)) (snd (sizes k)) A O (bt_run c (mem_of (bd c) t) (bt_reset_with i3) l).
Proof.
  intros HY Hi HE. set (L := bt_log c (mem_of (bd c) t) [] [] (bt_reset_with i3) l).
  assert (HL : (0 < length L)%nat).
  { unfold L. generalize (@nil (list Z)) (@nil (Z * bool)) (bt_reset_with i3). clear. induction l as [|i l IH]; intros A O s; cbn [bt_log length]; [lia|].
    destruct (b_rst s); cbn [length]; [lia|apply IH]. }
  destruct (nth_error L (length L - 1)) as [[A O]|] eqn:E; [|apply nth_error_None in E; lia].
  destruct (bt_log_ok c t sizes HY l [] [] (bt_reset_with i3) 0%nat (bt_inv_init _ _ _ _ _ (HY 0%nat) Hi) eq_refl HE _ A O E) as (s' & I & _ & K).
  fold L in K. destruct (K ltac:(lia)) as [-> _]. eauto.
Qed.

(* The reset is issued exactly in the cycle after a word with end_out was handed over. *)
Theorem C27_when : forall c mem s l i, b_rst s = false ->
  b_rst (bt_run c mem s (l ++ [i])) = true <->
  b_rst (bt_run c mem s l) = false /\ exists w, bt_gave (bt_run c mem s l) i = [(w, true)].
Proof.
  intros c mem s l i _. rewrite bt_run_app. cbn [bt_run]. set (s1 := bt_run c mem s l). unfold bt_step. destruct (b_rst s1) eqn:Er.
  - cbn. split; [discriminate|intros [X _]; discriminate].
  - unfold bt_next. cbn [b_rst]. unfold ar_step, bt_gave. rewrite Er, orb_false_r.
    destruct (mko_valid (bt_out s1 i)), (bi_busy i), (mko_end (bt_out s1 i)); cbn [negb andb]; split; try discriminate; try tauto; eauto; intros [_ [w X]]; discriminate.
Qed.

(* After the reset cycle the core is in a state that differs from power-on only in the contents of
   block RAMs and their read registers, so everything proved "from reset" applies to the next
   frame; the size registers may be changed. *)
Theorem C27_restarts : forall c t sizes i3 l i,
  cfg_ok c = true -> outb c = 16 -> table_ok (bd c) t ->
  (forall n, beta_frame_ok c (fst (sizes n)) (snd (sizes n))) -> is_reset c i3 ->
  bt_env c (mem_of (bd c) t) sizes 0 (bt_reset_with i3) (l ++ [i]) ->
  b_rst (bt_run c (mem_of (bd c) t) (bt_reset_with i3) l) = true ->
  exists i3', is_reset c i3' /\ bt_run c (mem_of (bd c) t) (bt_reset_with i3) (l ++ [i]) = bt_reset_with i3'.
Proof.
  intros c t sizes i3 l i Hc Ho Ht Hf Hi HE Hr. set (mem := mem_of (bd c) t) in *.
  assert (HY : forall k, bt_hyp c t (fst (sizes k)) (snd (sizes k))) by exact (fun k => conj Hc (conj Ho (conj Ht (Hf k)))).
  assert (X : forall l s A O n, bt_inv c t (fst (sizes n)) (snd (sizes n)) A O s -> bt_env c mem sizes n s (l ++ [i]) -> b_rst (bt_run c mem s l) = true ->
     exists i3', is_reset c i3' /\ bt_run c mem s (l ++ [i]) = bt_reset_with i3').
  { clear l HE Hr. induction l as [|j l IH]; intros s A O n I HE Hr; cbn [app bt_run bt_env] in *; destruct HE as [Hok HE].
    - exact (bt_reset_ok _ _ _ _ _ _ _ _ (HY n) Hok I Hr).
    - destruct (b_rst s) eqn:Er.
      + destruct (bt_reset_ok _ _ _ _ _ _ _ _ (HY n) Hok I Er) as (i3' & Hi' & Hs'). fold mem in Hs'. rewrite Hs' in *.
        apply (IH _ [] [] (S n)); [apply bt_inv_init; auto|exact HE|exact Hr].
      + pose proof (bt_inv_next _ _ _ _ _ _ _ _ (HY n) Hok I) as J. fold mem in J.
        assert (Es : bt_step c mem s j = bt_next c mem s j) by (unfold bt_step; rewrite Er; reflexivity). rewrite Es in *.
        apply (IH _ _ _ n J HE Hr). }
  apply (X l _ [] [] 0%nat); [apply bt_inv_init; auto|exact HE|exact Hr].
Qed.

(* In the reset cycle the core still offers its last marker word: a consumer that is ready in that
   cycle takes a ninth trailer word, marked end_out; one that is not, does not. *)
Theorem C28_core : forall c t sizes i3 l,
  cfg_ok c = true -> outb c = 16 -> table_ok (bd c) t ->
  (forall n, beta_frame_ok c (fst (sizes n)) (snd (sizes n))) -> is_reset c i3 ->
  bt_env c (mem_of (bd c) t) sizes 0 (bt_reset_with i3) l ->
  let s := bt_run c (mem_of (bd c) t) (bt_reset_with i3) l in
  b_rst s = true ->
  exists m, (m = 0xFFFF \/ m = 0xFFFE) /\ forall i, bt_gave s i = if bi_busy i then [] else [(m, true)].
Proof.
  intros c t sizes i3 l Hc Ho Ht Hf Hi HE s Hr.
  assert (HY : forall k, bt_hyp c t (fst (sizes k)) (snd (sizes k))) by exact (fun k => conj Hc (conj Ho (conj Ht (Hf k)))).
  destruct (reach_inv c t sizes i3 l HY Hi HE) as (k & A & O & I). fold s in I.
  assert (He : existsb snd O = true) by (destruct I as (P & hist & d1 & d2 & _ & _ & _ & X); congruence).
  destruct (bt_inv_ended _ _ _ _ _ _ _ (HY k) I He) as (forced & _ & _ & Hst).
  exists (if forced then 0xFFFE else 0xFFFF). split; [destruct forced; auto|]. intros i. apply gave_marker. exact Hst.
Qed.

(* state of the reset delay after k <= 8 cycles *)
Definition warm (c : config) (k : Z) (s : bt_st) : Prop :=
  b_rst s = false /\ s_nready_ctr (b_i3 s) = k mod 8 /\ s_nready_reset (b_i3 s) = (8 <=? k) /\ s_lj_cf (b_i3 s) = false /\
  (mk_fsm_st (b_mk s) = MK_IDLE \/ mk_fsm_st (b_mk s) = MK_START /\ 9 <= mk_ctr (b_mk s) + k /\ mk_ctr (b_mk s) <= 8).

(* After every reset nready is 1 for exactly 8 cycles, then 0: the next frame can begin. *)
Theorem C27_ready_again : forall c t i3 l, cfg_ok c = true -> outb c = 16 -> table_ok (bd c) t -> is_reset c i3 ->
  let nready l := bt_nready (bt_run c (mem_of (bd c) t) (bt_reset_with i3) l) in
  ((length l < 8)%nat -> nready l = true) /\ ((length l = 8)%nat -> nready l = false).
Proof.
  intros c t i3 l Hc Ho Ht Hi nready.
  set (W := 8 * ps c). set (H := 3). assert (Hps : ps c = 1 \/ ps c = 2 \/ ps c = 4) by (unfold cfg_ok in Hc; lia).
  assert (Hf : beta_frame_ok c W H).
  { unfold beta_frame_ok, frame_ok, W, H. repeat split; try lia; destruct Hps as [E|[E|E]]; rewrite E; cbn; lia. }
  assert (HY : bt_hyp c t W H) by exact (conj Hc (conj Ho (conj Ht Hf))).
  assert (Hljd : 25 <= ljd c) by (unfold cfg_ok in Hc; lia).
  set (mem := mem_of (bd c) t) in *.
  assert (X : forall l k s, 0 <= k -> (exists O, bt_inv c t W H [] O s) -> warm c k s -> k + len l <= 8 ->
     let s' := bt_run c mem s l in (exists O, bt_inv c t W H [] O s') /\ warm c (k + len l) s').
  { clear l nready. induction l as [|i l IH]; intros k s Hk [O I] Hw Hl s'; unfold s'; cbn [bt_run].
    - change (len (@nil bt_in)) with 0. rewrite Z.add_0_r. eauto.
    - assert (Hll : len (i :: l) = len l + 1) by (unfold len; cbn [length]; lia). pose proof (len_nonneg l).
      destruct Hw as (W1 & W2 & W3 & W4 & W5). assert (Hk8 : k < 8) by lia.
      assert (Hnr : bt_nready s = true) by (unfold bt_nready, i3_nready; rewrite W3; replace (8 <=? k) with false by lia; apply orb_true_r).
      assert (Hna : bt_accept s i = false) by (unfold bt_accept; rewrite Hnr; apply andb_false_r).
      assert (Hok : bt_ok c W H s i) by (unfold bt_ok; rewrite Hna; discriminate).
      assert (Ht0 : bt_took s i = []) by (unfold bt_took; rewrite Hna; reflexivity).
      assert (Hstep : bt_step c mem s i = bt_next c mem s i) by (unfold bt_step; rewrite W1; reflexivity).
      pose proof (bt_inv_next _ _ _ _ _ _ _ _ HY Hok I) as J. rewrite Ht0 in J. fold mem in J. rewrite app_nil_r in J. rewrite Hstep.
      assert (Hlev : fifo_level (s_ljf (b_i3 s)) = 0).
      { destruct I as (P & hist & d1 & d2 & I1 & _). pose proof (v_tok _ _ _ _ _ _ _ _ _ _ I1) as T. unfold frame_toks in T.
        change (len (@nil (list Z))) with 0 in T. destruct Hf as [Hf1 _]. destruct (frame_geom c W H Hc Hf1) as [(Q1 & Q2 & Q3) _].
        replace (0 =? W / ps c * H) with false in T by (symmetry; apply Z.eqb_neq; nia). cbn [concat ref_encode map app] in T.
        apply app_eq_nil in T. destruct T as [_ T]. apply app_eq_nil in T. destruct T as [_ T]. apply app_eq_nil in T. destruct T as [_ T].
        apply app_eq_nil in T. destruct T as [_ T]. apply app_eq_nil in T. destruct T as [_ T]. apply app_eq_nil in T. destruct T as [T _].
        rewrite (P_Fifo.fifo_level_q (ljd c)) by apply (v_ljf _ _ _ _ _ _ _ _ _ _ I1).
        rewrite (qtok_nil _ _ _ (v_ljw _ _ _ _ _ _ _ _ _ _ I1) T). reflexivity. }
      assert (Hgave : existsb snd (bt_gave s i) = false).
      { unfold bt_gave, bt_out, mk_comb. destruct W5 as [E|(E & _ & _)]; rewrite E; [reflexivity|]. destruct (_ && (_ =? 0)); cbn [mko_valid mko_end andb]; [reflexivity|].
        destruct (negb (bi_busy i)); reflexivity. }
      pose proof (bt_next_rst c mem s i W1 Hgave) as Hr'.
      replace (k + len (i :: l)) with ((k + 1) + len l) by lia.
      assert (Hw' : warm c (k + 1) (bt_next c mem s i)).
      { split; [exact Hr'|]. unfold bt_next. cbn [b_i3 b_mk]. unfold i3_step. destruct (i1_out c (s_i1 (b_i3 s))) as [? ?]. cbn [s_nready_ctr s_nready_reset s_lj_cf].
        assert (Hctr : s_nready_ctr (b_i3 s) = k) by (rewrite W2; apply Z.mod_small; lia).
        split; [|split; [|split]].
        - rewrite Hctr. reflexivity.
        - rewrite Hctr, W3. destruct (k =? 7) eqn:E; lia.
        - rewrite Hlev. lia.
        - unfold mk_step. cbn [bt_mk_in mki_busy mki_valid]. destruct W5 as [E|(E & C1 & C2)]; rewrite E.
          + cbn [mk_fsm_st mk_ctr]. destruct (f2_vout (b_f2 s)); [right|left; reflexivity]. repeat split; lia.
          + right. destruct (bi_busy i); cbn [negb mk_fsm_st mk_ctr]; [repeat split; lia|]. replace (mk_ctr (b_mk s) =? 0) with false by lia. cbn [mk_fsm_st mk_ctr].
            rewrite trunc_id by (change (2 ^ 4) with 16; lia). repeat split; lia. }
      apply IH; try lia; [|exact Hw']. eexists. exact J. }

  assert (W0 : warm c 0 (bt_reset_with i3)).
  { destruct Hi as (? & ? & ? & ? & ? & _ & _ & _ & ->). repeat split. left. reflexivity. }
  destruct (Z_le_gt_dec (len l) 8) as [Hl|Hl].
  - destruct (X l 0 (bt_reset_with i3) ltac:(lia) (ex_intro _ [] (bt_inv_init _ _ _ _ _ HY Hi)) W0 ltac:(lia)) as ((O & J) & (V1 & V2 & V3 & V4 & _)).
    unfold nready, bt_nready, i3_nready. cbn [Z.add] in V3. rewrite V3, V4. cbn [orb]. split; intros E.
    + unfold len in *. replace (8 <=? Z.of_nat (length l)) with false by lia. apply orb_true_r.
    + unfold len in *. replace (8 <=? Z.of_nat (length l)) with true by lia. rewrite orb_false_r.
      destruct J as (P & hist & d1 & d2 & J1 & _). rewrite (v_ne1 _ _ _ _ _ _ _ _ _ _ J1). change (len (@nil (list Z))) with 0.
      destruct Hf as [Hf1 _]. destruct (frame_geom c W H Hc Hf1) as [(Q1 & Q2 & Q3) _]. apply Z.leb_gt. nia.
  - unfold len in Hl. split; intros; lia.
Qed.

(* ------------------------------------------------------------------ what a cut frame still carries *)

Lemma unstuff_mono : forall n a b, (length a <= n)%nat -> exists r, unstuff (a ++ b) = unstuff a ++ r.
Proof.
  induction n as [|n IH]; intros a b Hn.
  - destruct a; [|cbn in Hn; lia]. exists (unstuff b). reflexivity.
  - destruct a as [|x a]; [exists (unstuff b); reflexivity|]. cbn [app unstuff]. destruct (x =? 255).
    + destruct a as [|y a]; cbn [app].
      * destruct b as [|z b]; eauto.
      * destruct (IH a b) as (r & ->); [cbn in Hn; lia|]. eauto.
    + destruct (IH a b) as (r & ->); [cbn in Hn; lia|]. eauto.
Qed.

(* A receiver of a frame cut short gets a beginning of the reference bit string of the frame, from
   which it can decode every sample whose code has arrived completely. *)
Theorem C26_cut_decodes : forall t bd W X k rest, 2 <= bd <= 15 -> table_ok bd t -> prefix_free t -> Forall (in_range bd) X ->
  let got := deframe (framed (firstn k (payload t bd W X)) true ++ rest) in
  let bits := stream 8 (unstuff (flat_map bytes_of (fst got))) in
  snd got = Some true /\
  (exists zeros r, bits ++ r = ref_encode t bd W [] X ++ zeros) /\
  (forall n, (n <= length X)%nat -> (length (ref_encode t bd W [] (firstn n X)) <= length bits)%nat ->
     ref_decode t bd W n [] bits = Some (firstn n X)).
Proof.
  intros t bd W X k rest Hb Ht Hp HX got bits.
  assert (Hgot : got = (firstn k (payload t bd W X), Some true)) by (unfold got, payload; apply C24_delimitable, payload_bytes).
  split; [rewrite Hgot; reflexivity|].
  assert (HP : exists zeros r, bits ++ r = ref_encode t bd W [] X ++ zeros).
  { destruct (payload_bits t bd W X) as (zeros & E). rewrite <- (firstn_skipn k (payload t bd W X)), flat_map_app in E.
    destruct (unstuff_mono _ (flat_map bytes_of (firstn k (payload t bd W X))) (flat_map bytes_of (skipn k (payload t bd W X))) (le_n _)) as (r & Er).
    rewrite Er in E. unfold stream in E at 1. rewrite map_app, concat_app in E. exists zeros, (concat (map (bitsz 8) r)). unfold bits. rewrite Hgot. exact E. }
  split; [exact HP|]. intros n Hn Hlen. destruct HP as (zeros & r & E).
  rewrite <- (firstn_skipn n X), ref_encode_app, <- app_assoc in E.
  destruct (app_prefix (ref_encode t bd W [] (firstn n X)) _ bits r (eq_sym E) Hlen) as (b2 & ->).
  assert (HF : Forall (in_range bd) (firstn n X)) by (rewrite <- (firstn_skipn n X) in HX; apply Forall_app in HX; apply HX).
  replace n with (length (firstn n X)) at 1 by (rewrite firstn_length; lia).
  apply (ref_decode_ok t bd W (firstn n X)); try assumption; try lia.
  - apply Ht.
  - constructor.
  - apply all_small_15; [lia|constructor|assumption].
Qed.

(* In a run of the core: every finished frame that is flagged as cut short still yields, decoded
   sample by sample, the samples that were accepted, as far as the received bits reach. *)
Theorem C26_cut_frame : forall c t sizes i3 l,
  cfg_ok c = true -> outb c = 16 -> bd c <= 15 -> table_ok (bd c) t -> prefix_free t ->
  (forall n, beta_frame_ok c (fst (sizes n)) (snd (sizes n))) ->
  is_reset c i3 -> bt_env c (mem_of (bd c) t) sizes 0 (bt_reset_with i3) l ->
  let log := bt_log c (mem_of (bd c) t) [] [] (bt_reset_with i3) l in
  forall k A O, nth_error log k = Some (A, O) -> (S k < length log)%nat ->
  let W := fst (sizes k) in
  snd (deframe (map fst O)) = Some true ->
  let bits := stream 8 (unstuff (flat_map bytes_of (fst (deframe (map fst O))))) in
  forall n, (n <= length (concat A))%nat -> (length (ref_encode t (bd c) W [] (firstn n (concat A))) <= length bits)%nat ->
    ref_decode t (bd c) W n [] bits = Some (firstn n (concat A)).
Proof.
  intros c t sizes i3 l Hc Ho Hb Ht Hp Hf Hi HE log k A O HN Hk W Hflag bits n Hn Hlen. set (H := snd (sizes k)).
  destruct (C25_frames c t sizes i3 l Hc Ho Ht Hf Hi HE k A O HN) as [K _]. destruct (K Hk) as (He & forced & R & Ht2). fold W H in R.
  assert (Hb2 : 2 <= bd c) by (unfold cfg_ok in Hc; lia).
  assert (HO : exists tl, map fst O = map fst (cut O) ++ tl) by (destruct Ht2 as [E|E]; [exists []; rewrite app_nil_r; congruence|eexists; rewrite E at 1; apply map_app]).
  destruct HO as (tl & HO). assert (HY : forall k, bt_hyp c t (fst (sizes k)) (snd (sizes k))) by exact (fun k => conj Hc (conj Ho (conj Ht (Hf k)))).
  destruct (bt_log_ok c t sizes HY l [] [] (bt_reset_with i3) 0%nat (bt_inv_init _ _ _ _ _ (HY 0%nat) Hi) eq_refl HE k A O HN) as (s' & I & _).
  cbn [Nat.add] in I. destruct I as (P & hist & d1 & d2 & I1 & _). destruct (inv_pixels _ _ _ _ _ _ _ _ _ _ I1) as [HF HLp].
  destruct forced; cbn [frame_result] in R.
  - assert (HlenA : len (concat A) <= W * H).
    { pose proof (v_len _ _ _ _ _ _ _ _ _ _ I1) as L. destruct (frame_geom c W H Hc (proj1 (Hf k))) as [(Q1 & Q2 & _) _]. fold W H in L. rewrite HLp. nia. }
    set (X := concat A ++ repeat 0 (Z.to_nat (W * H - len (concat A)))).
    destruct (R X _ eq_refl) as (m & Hm).
    { unfold X. rewrite len_app. unfold len at 2. rewrite repeat_length. lia. }
    assert (HX : Forall (in_range (bd c)) X).
    { apply Forall_app. split; [exact HF|]. apply Forall_forall. intros x Hx. apply repeat_spec in Hx. subst x. split; [lia|apply pow2_pos; lia]. }
    destruct (C26_cut_decodes t (bd c) W X m tl ltac:(lia) Ht Hp HX) as (_ & _ & D).
    assert (E : firstn n X = firstn n (concat A)) by (unfold X; rewrite firstn_app; replace (n - length (concat A))%nat with 0%nat by lia; apply app_nil_r).
    unfold bits in *. rewrite HO, Hm in *. rewrite <- E in Hlen |- *. apply D; [|exact Hlen].
    unfold X. rewrite app_length. lia.
  - exfalso. destruct R as [HL Hm]. rewrite HO, Hm in Hflag. destruct (C25_decodable t (bd c) W H (concat A) tl ltac:(lia) Ht Hp HL HF) as [D1 _]. congruence.
Qed.

(* ------------------------------------------------------------------ the shipped configuration, examples *)

Lemma bt_env_all c mem W H : forall l n s,
  (forall i, In i l -> bi_valid i = true -> group_ok (bd c) (ps c) (bi_px i) /\ bi_w i = W /\ bi_h i = H) ->
  bt_env c mem (fun _ => (W, H)) n s l.
Proof.
  induction l as [|i l IH]; intros n s Hl; [exact I|]. split.
  - intros Ha. apply Hl; [left; reflexivity|]. unfold bt_accept in Ha. apply andb_prop in Ha. apply Ha.
  - apply IH. intros. apply Hl; [right|]; assumption.
Qed.

Lemma shipped_env (sched : list (bool * list Z * bool)) i3 mem :
  is_reset beta_cfg i3 -> (forall x, In x sched -> group_ok 12 2 (snd (fst x))) ->
  bt_env beta_cfg mem (fun _ => (4096, 3072)) 0 (bt_reset_with i3) (bt_rf_ins rf_init sched).
Proof.
  intros Hi Hs. destruct sched as [|[[v px] b] r]; [exact I|]. cbn [bt_rf_ins bt_env].
  assert (Hnr : bt_nready (bt_reset_with i3) = true).
  { destruct Hi as (? & ? & ? & ? & ? & _ & _ & _ & ->). reflexivity. }
  split; [unfold bt_ok, bt_accept; rewrite Hnr, andb_false_r; discriminate|].
  apply bt_env_all. intros i Hin _. change (rf_step rf_init) with {| rf_width := 4096; rf_height := 3072; rf_allowed := 6666000 |} in Hin.
  assert (K : forall r, In i (bt_rf_ins {| rf_width := 4096; rf_height := 3072; rf_allowed := 6666000 |} r) -> (forall x, In x r -> group_ok 12 2 (snd (fst x))) ->
     group_ok 12 2 (bi_px i) /\ bi_w i = 4096 /\ bi_h i = 3072).
  { clear. induction r as [|[[v px] b] r IH]; intros Hin Hr; [destruct Hin|]. cbn [bt_rf_ins] in Hin. destruct Hin as [<-|Hin].
    - cbn [bi_px bi_w bi_h rf_width rf_height]. split; [apply (Hr (v, px, b)); left; reflexivity|auto].
    - apply IH; [exact Hin|]. intros; apply Hr; right; assumption. }
  apply (K r Hin). intros x Hx. apply Hs. right. exact Hx.
Qed.

(* beta_integration.py as shipped: 12-bit pixels two per cycle, register_file giving 4096 x 3072
   and 6666000 cycles, power-on or any later reset, any valid/busy schedule, any pixels: every
   finished frame is received without loss or is flagged as cut short. *)
Theorem C25_shipped : forall (sched : list (bool * list Z * bool)) i3,
  is_reset beta_cfg i3 -> (forall x, In x sched -> group_ok 12 2 (snd (fst x))) ->
  let log := bt_log beta_cfg (init_huff_table 12) [] [] (bt_reset_with i3) (bt_rf_ins rf_init sched) in
  forall k A O, nth_error log k = Some (A, O) -> (S k < length log)%nat ->
  (snd (deframe (map fst O)) = Some false /\ len (concat A) = 4096 * 3072 /\
     receive (std_table 12) 12 4096 3072 (map fst O) = Some (concat A)) \/
  snd (deframe (map fst O)) = Some true.
Proof.
  intros sched i3 Hi Hs log k A O HN Hk. destruct (std_mem beta_cfg eq_refl) as (Hm & Ht & Hp). cbn [bd beta_cfg] in Hm, Ht, Hp.
  unfold log in *. rewrite Hm in *.
  apply (C25_lossless_or_flagged beta_cfg (std_table 12) (fun _ => (4096, 3072)) i3 (bt_rf_ins rf_init sched)) with (k := k); try reflexivity; try assumption.
  - cbn. lia.
  - intros n. unfold beta_frame_ok, frame_ok. cbn. lia.
  - apply shipped_env; assumption.
Qed.

(* two 6 x 3 frames with gaps and stalls; the third frame is in progress *)
Definition C25_in (allowed : Z) (k : nat) : bt_in :=
  {| bi_valid := negb (Nat.eqb (Nat.modulo k 4) 0);
     bi_px := [Z.of_nat k * 1237 mod 4096; 4095 - Z.of_nat k * 551 mod 4096];
     bi_busy := Nat.eqb (Nat.modulo k 5) 1; bi_w := 6; bi_h := 3; bi_allowed := allowed |}.
Definition C25_log (allowed : Z) (n : nat) :=
  bt_log beta_cfg (init_huff_table 12) [] [] (bt_init beta_cfg) (map (C25_in allowed) (seq 0 n)).
Example C25_example : let L := C25_log 1000 170 in
  map (fun x => receive (std_table 12) 12 6 3 (map fst (snd x))) (firstn 2 L) = map (fun x => Some (concat (fst x))) (firstn 2 L) /\
  length L = 3%nat /\ map (fun x => len (fst x)) (firstn 2 L) = [9; 9].
Proof. vm_compute. repeat split. Qed.

Example C25_hypotheses : beta_frame_ok beta_cfg 6 3 /\
  bt_env beta_cfg (mem_of 12 (std_table 12)) (fun _ => (6, 3)) 0 (bt_init beta_cfg) (map (C25_in 1000) (seq 0 260)) /\ is_reset beta_cfg (i3_init beta_cfg).
Proof.
  split; [unfold beta_frame_ok, frame_ok; cbn; lia|]. split; [|apply is_reset_init; reflexivity].
  apply bt_env_all. intros i Hi _. apply in_map_iff in Hi. destruct Hi as (k & <- & _). split; [|split; reflexivity].
  split; [reflexivity|]. assert (0 <= Z.of_nat k * 1237 mod 4096 < 4096) by (apply Z.mod_pos_bound; lia).
  assert (0 <= Z.of_nat k * 551 mod 4096 < 4096) by (apply Z.mod_pos_bound; lia).
  cbn [bi_px C25_in bd beta_cfg]. repeat constructor; unfold in_range; change (2 ^ 12) with 4096; lia.
Qed.

(* with 40 allowed cycles the frames are cut short *)
Example C26_example : let L := C25_log 40 150 in
  map (fun x => snd (deframe (map fst (snd x)))) (firstn 2 L) = [Some true; Some true] /\
  map (fun x => len (fst (deframe (map fst (snd x))))) (firstn 2 L) = [9; 10] /\ length L = 3%nat.
Proof. vm_compute. repeat split. Qed.

(* C27, C28: the reset fires after the end word of the first frame (in the run of C25_example), and a
   ninth trailer word goes out because the consumer is ready in the reset cycle *)
Example C27_C28_example :
  let s n := bt_run beta_cfg (init_huff_table 12) (bt_init beta_cfg) (map (C25_in 1000) (seq 0 n)) in
  let s0 := s 80%nat in
  b_rst s0 = true /\ bt_gave s0 (C25_in 1000 80) = [(0xFFFF, true)].
Proof. vm_compute. repeat split. Qed.
