(* The whole core: the token stream is preserved from the pixel input to the output words. *)
From Verif Require Import Bits Spec Spec_Core M_Config M_Signals M_Predictor M_Difference M_Encode M_Merge M_I1 M_Fifo M_Converter M_VBits M_I3
  P_Fifo P_Normalize P_Encode P_Merge P_Signals P_Predictor P_I1 P_Tokens P_Converter P_VBits.
Ltac Zify.zify_post_hook ::= idtac.

(* ---------- words taken from the output ---------- *)
(* the words up to and including the first one marked as the end *)

Definition plain {A} (l : list A) : list (A * bool) := map (fun w => (w, false)) l.

Lemma cut_plain_app {A} (l : list A) r : cut (plain l ++ r) = plain l ++ cut r.
Proof. unfold plain. induction l; cbn; congruence. Qed.
Lemma cut_stop {A} a (w : A) b : cut (a ++ (w, true) :: b) = cut (a ++ [(w, true)]).
Proof. induction a as [|[x []] a IH]; cbn; congruence. Qed.

Definition offered (s : vb_st) : list (Z * bool) :=
  if vo_valid (vb_out s) then [(vo_data (vb_out s), vo_end (vb_out s))] else [].
Definition transferred (s : vb_st) (busy : bool) : list (Z * bool) :=
  if vo_valid (vb_out s) && negb busy then [(vo_data (vb_out s), vo_end (vb_out s))] else [].

Definition wbits (w : Z) (l : list Z) : list bool := concat (map (bitsz w) l).
Definition wrange (w : Z) (x : Z) : Prop := 0 <= x < 2 ^ w.

Lemma wbits_snoc w l x : wbits w (l ++ [x]) = wbits w l ++ bitsz w x.
Proof. unfold wbits. rewrite map_app, concat_app. cbn. rewrite app_nil_r. reflexivity. Qed.

Definition vb_done (c : config) (s : vb_st) (done : list (Z * bool)) (P : list tok) : Prop :=
  match vo_state (vb_out s) with
  | VO_END => exists pw w bs, cut (done ++ offered s) = plain pw ++ [(w, true)] /\ vo_data (vb_out s) = w /\
                packs (outb c) (pw ++ [w]) bs /\ P = map Some bs ++ [None]
  | _ => exists pw, done ++ offered s = plain pw /\ Forall (wrange (outb c)) pw /\
           P = map Some (wbits (outb c) pw)
  end.

Lemma vb_done_init c : vb_done c vb_init [] [].
Proof. exists []. repeat split; constructor. Qed.

Lemma plain_snoc {A} (l : list A) x : plain l ++ [(x, false)] = plain (l ++ [x]).
Proof. unfold plain. rewrite map_app. reflexivity. Qed.

Lemma vb_done_step c s enc ctr e valid busy done P : vb_ok c -> vb_inv c s ->
  vb_done c s done P ->
  vb_done c (vb_step c s enc ctr e valid busy) (done ++ transferred s busy) (P ++ vb_emit c s busy).
Proof.
  intros Hc [Io Ii] HD.
  unfold vb_done, vb_step, offered, transferred, vb_emit in *. cbn [vb_out].
  set (i := vb_in s) in *. set (o := vb_out s) in *.
  destruct (vo_dec c o (vi_consum i) (vi_end i) busy) eqn:Ed.
  - (* a new word *)
    assert (Hne : vo_state o <> VO_END) by (intros X; unfold vo_dec in Ed; rewrite X in Ed; discriminate).
    specialize (Ii Hne).
    assert (HD' : exists pw, done ++ (if vo_valid o && negb busy then [(vo_data o, vo_end o)] else []) = plain pw /\
       Forall (wrange (outb c)) pw /\ P = map Some (wbits (outb c) pw)).
    { unfold vo_inv in Io. unfold vo_dec in Ed. destruct (vo_state o); [| |congruence].
      - destruct Io as [Io1 Io2]. rewrite Io1 in *. exact HD.
      - destruct Io as [Io1 Io2]. rewrite Io1 in *. destruct busy; [discriminate|]. exact HD. }
    clear HD. destruct HD' as (pw & D1 & D2 & D3).
    assert (Hend : vo_end o = false).
    { unfold vo_inv in Io. destruct (vo_state o); [apply Io|apply Io|congruence]. }
    destruct Ii as (_ & _ & _ & _ & J5 & _ & _ & _ & _ & J10).
    unfold vo_step. rewrite Ed. cbn [vo_state vo_valid vo_data vo_end].
    unfold vo_fin. destruct (vo_le c (vi_consum i) && vi_end i) eqn:Ef.
    + apply andb_prop in Ef. destruct Ef as [Ef1 Ef2]. specialize (J10 Ef2). unfold vo_le in Ef1.
      exists pw, (vo_word c (vi_buffer i) (vi_consum i)), (wbits (outb c) pw ++ bitsz (vi_consum i) (vi_buffer i)).
      rewrite D1. split; [rewrite cut_plain_app; reflexivity|]. split; [reflexivity|].
      assert (Hw : 0 <= vo_word c (vi_buffer i) (vi_consum i) < 2 ^ outb c /\
        bitsz (outb c) (vo_word c (vi_buffer i) (vi_consum i)) =
          bitsz (vi_consum i) (vi_buffer i) ++ repeat false (Z.to_nat (outb c - vi_consum i))).
      { destruct (Z.eq_dec (vi_consum i) (outb c)) as [Heq|Hn].
        - destruct (vo_word_ge c (vi_buffer i) (vi_consum i) Hc ltac:(lia)) as [X1 X2].
          split; [assumption|]. rewrite X2, Heq, Z.sub_diag, Z.pow_0_r, Z.div_1_r. cbn. rewrite app_nil_r. reflexivity.
        - apply vo_word_lt; [assumption|]. lia. }
      destruct Hw as [W1 W2]. split.
      * split.
        -- apply Forall_app. split; [exact D2|]. constructor; [exact W1|constructor].
        -- exists (Z.to_nat (outb c - vi_consum i)). split; [destruct Hc; lia|].
           fold (wbits (outb c) (pw ++ [vo_word c (vi_buffer i) (vi_consum i)])).
           rewrite wbits_snoc, W2, app_assoc. reflexivity.
      * rewrite D3. unfold tk. rewrite map_app, <- app_assoc. reflexivity.
    + exists (pw ++ [vo_word c (vi_buffer i) (vi_consum i)]). rewrite D1, Hend, plain_snoc. split; [reflexivity|].
      assert (Hge : outb c <= vi_consum i).
      { unfold vo_dec in Ed. destruct (vo_state o); [| |congruence].
        - rewrite Ef, orb_false_r in Ed. unfold vo_ge in Ed. lia.
        - apply andb_prop in Ed. destruct Ed as [_ Ed]. unfold vo_ge in Ed. lia. }
      destruct (vo_word_ge c (vi_buffer i) (vi_consum i) Hc ltac:(lia)) as [X1 X2].
      split.
      * apply Forall_app. split; [exact D2|]. constructor; [exact X1|constructor].
      * rewrite wbits_snoc, map_app, D3. reflexivity.
  - rewrite app_nil_r. unfold vo_step. rewrite Ed. unfold vo_inv in Io.
    destruct (vo_state o) eqn:Eo.
    + destruct Io as [Io1 Io2]. rewrite Eo, Io1 in *. cbn [andb]. rewrite !app_nil_r in *. exact HD.
    + destruct Io as [Io1 Io2]. rewrite Io1 in *. cbn [andb]. destruct busy; cbn [negb].
      * rewrite Eo, Io1, app_nil_r. exact HD.
      * cbn [vo_state vo_valid]. rewrite app_nil_r. exact HD.
    + destruct Io as [Io1 Io2]. rewrite Eo, Io1, Io2 in *. cbn [andb]. destruct busy; cbn [negb].
      * rewrite app_nil_r. exact HD.
      * destruct HD as (pw & w & bs & D1 & D2 & D3). exists pw, w, bs. split; [|auto].
        rewrite <- app_assoc. cbn [app]. rewrite cut_stop. exact D1.
Qed.

(* ---------- the stream ---------- *)
Definition frame_toks (t : table) (bd W : Z) (A : list (list Z)) (n : Z) : list tok :=
  map Some (ref_encode t bd W [] (concat A)) ++ (if len A =? n then [None] else []).

Lemma ref_encode_app t bd W a b img :
  ref_encode t bd W img (a ++ b) = ref_encode t bd W img a ++ ref_encode t bd W (img ++ a) b.
Proof.
  revert img. induction a as [|p a IH]; intros img; cbn [ref_encode app].
  - rewrite app_nil_r. reflexivity.
  - rewrite IH, <- !app_assoc. reflexivity.
Qed.

Lemma concat_len ps (A : list (list Z)) : Forall (fun g => len g = ps) A -> len (concat A) = len A * ps.
Proof.
  unfold len. induction 1 as [|g A Hg HF IH]; [reflexivity|]. cbn [concat length]. rewrite app_length, Nat2Z.inj_add. lia.
Qed.

Lemma prediction_ext bd W img ext i : 4 <= W -> 0 <= i -> i - 4 < len img -> 
  prediction bd W (img ++ ext) i = prediction bd W img i.
Proof.
  intros HW Hi HL. unfold prediction, len in *.
  destruct (i mod W <? 4) eqn:E1.
  - destruct (i <? W) eqn:E2; [reflexivity|]. apply app_nth1. lia.
  - assert (4 <= i) by (pose proof (Z.mod_le i W ltac:(lia) ltac:(lia)); lia).
    apply app_nth1. lia.
Qed.

Lemma ref_encode_group t bd ps G A px : ps = 1 \/ ps = 2 \/ ps = 4 -> 2 <= G -> 4 / ps <= G ->
  Forall (fun g => len g = ps) A -> len px = ps ->
  ref_encode t bd (G * ps) (concat A) px =
    concat (map2 (fun p q => encode_diff t (p - q)) px (gpred bd ps G A (len A))).
Proof.
  intros Hps HG HG4 HF Hl.
  assert (H4 : 4 <= G * ps) by (destruct Hps as [->|[->| ->]]; cbn in HG4; lia).
  assert (Hp14 : 1 <= ps <= 4) by lia.
  pose proof (gpred_len bd ps G A Hps ltac:(lia) HF) as Hgl.
  pose proof (concat_len ps A HF) as Hcl.
  assert (Hq : forall j, 0 <= j < ps -> zn (gpred bd ps G A (len A)) j 0 =
             prediction bd (G * ps) (concat A) (len A * ps + j)) by (intros; apply gpred_spec; assumption).
  revert Hgl Hq. generalize (gpred bd ps G A (len A)) as pr. intros pr Hgl Hq.
  assert (Hgen : forall px pr pre j, len px = ps - j -> len pr = ps - j -> 0 <= j <= ps -> len pre = j ->
     (forall i, 0 <= i < ps - j -> zn pr i 0 = prediction bd (G * ps) (concat A) (len A * ps + j + i)) ->
     ref_encode t bd (G * ps) (concat A ++ pre) px = concat (map2 (fun p q => encode_diff t (p - q)) px pr)).
  { clear pr Hgl Hq px Hl.
    induction px as [|p px IH]; intros [|q pr] pre j Hlx Hlr Hj Hpre Hq; unfold len in Hlx, Hlr; cbn [length] in Hlx, Hlr;
      try lia; [reflexivity|].
    cbn [ref_encode map2 concat].
    f_equal.
    - f_equal. f_equal.
      assert (Hi : Z.of_nat (length (concat A ++ pre)) = len A * ps + j).
      { rewrite app_length, Nat2Z.inj_add. unfold len in *. lia. }
      rewrite Hi. specialize (Hq 0 ltac:(lia)). unfold zn in Hq. cbn in Hq. rewrite Z.add_0_r in Hq. rewrite Hq.
      apply prediction_ext; [assumption| |].
      + assert (0 <= len A) by (unfold len; lia). nia.
      + rewrite Hcl. lia.
    - rewrite <- app_assoc. apply (IH pr (pre ++ [p]) (j + 1)); try (unfold len; lia).
      + unfold len in *. rewrite app_length, Nat2Z.inj_add. cbn. lia.
      + intros i Hi. specialize (Hq (i + 1) ltac:(lia)). unfold zn in *.
        replace (Z.to_nat (i + 1)) with (S (Z.to_nat i)) in Hq by lia. cbn [nth] in Hq. rewrite Hq. f_equal. lia. }
  rewrite <- (app_nil_r (concat A)) at 1.
  apply (Hgen px pr [] 0); try (unfold len in *; cbn; lia).
  intros i Hi. rewrite Hq by lia. f_equal. lia.
Qed.

(* ---------- pipeline contents ---------- *)
Definition tok1 (t : table) (h : option grp) : list tok :=
  match h with
  | Some (px, pr, e) => map Some (concat (map2 (fun p q => encode_diff t (p - q)) px pr)) ++ (if e then [None] else [])
  | None => []
  end.
Definition htok (t : table) (hist : hist_t) (n : nat) : list tok := flat_map (tok1 t) (rev (firstn n hist)).
Definition hcount (hist : hist_t) (n : nat) : Z := Z.of_nat (length (filter is_some (firstn n hist))).

Lemma htok_S t hist n : htok t hist (S n) = tok1 t (nth n hist None) ++ htok t hist n.
Proof.
  unfold htok. destruct (Nat.ltb n (length hist)) eqn:E.
  - apply Nat.ltb_lt in E.
    assert (firstn (S n) hist = firstn n hist ++ [nth n hist None]) as ->.
    { clear -E. revert n E. induction hist as [|x l IH]; intros n E; [cbn in E; lia|].
      destruct n; [reflexivity|]. cbn [firstn app nth]. f_equal. apply IH. cbn in E; lia. }
    rewrite rev_app_distr. reflexivity.
  - apply Nat.ltb_ge in E. rewrite nth_overflow by lia. rewrite !firstn_all2 by lia. reflexivity.
Qed.

Lemma hcount_S hist n : hcount hist (S n) = hcount hist n + b2z (is_some (nth n hist None)).
Proof.
  unfold hcount. revert n. induction hist as [|x l IH]; intros n; [destruct n; reflexivity|].
  destruct n; [cbn [firstn filter nth]; destruct (is_some x); reflexivity|].
  specialize (IH n). cbn [firstn filter nth] in *. destruct (is_some x); cbn [length]; lia.
Qed.

Lemma htok_cons t h hist n : htok t (h :: hist) (S n) = htok t hist n ++ tok1 t h.
Proof. unfold htok. cbn [firstn rev]. rewrite flat_map_app. cbn. rewrite app_nil_r. reflexivity. Qed.

Lemma hcount_cons h hist n : hcount (h :: hist) (S n) = hcount hist n + b2z (is_some h).
Proof. unfold hcount. cbn [firstn filter]. destruct (is_some h); cbn [length b2z]; lia. Qed.

Lemma hcount_le hist n : 0 <= hcount hist n <= Z.of_nat n.
Proof.
  unfold hcount. split; [lia|].
  assert (length (filter is_some (firstn n hist)) <= length (firstn n hist))%nat.
  { generalize (firstn n hist) as l. induction l as [|x l IH]; cbn; [lia|]. destruct (is_some x); cbn; lia. }
  rewrite firstn_length in H. lia.
Qed.

Definition hist_ok (c : config) (hist : hist_t) : Prop :=
  Forall (fun o => forall px pr e, o = Some (px, pr, e) ->
     group_ok (bd c) (ps c) px /\ group_ok (bd c) (ps c) pr) hist.

Lemma latency_bound c : cfg_ok c = true -> (5 <= latency c <= 7)%nat.
Proof.
  intros H. unfold latency. destruct (1 <? ps c) eqn:E; [|lia].
  assert (ps c = 2 \/ ps c = 4) as [->| ->] by (unfold cfg_ok in H; lia); cbn; lia.
Qed.

Lemma sum_ctr_pos its : its <> [] -> Forall (fun x => 1 <= snd x) its -> 1 <= sum_ctr its.
Proof.
  intros Hn HF. induction HF as [|x l Hx HF IH]; [congruence|].
  cbn [sum_ctr fold_right]. fold (sum_ctr l). destruct l; [cbn; lia|]. specialize (IH ltac:(discriminate)). lia.
Qed.

(* the item leaving the pipeline *)
Lemma pipe_item c t px pr e : cfg_ok c = true -> table_ok (bd c) t ->
  group_ok (bd c) (ps c) px -> group_ok (bd c) (ps c) pr ->
  let it := concat_item (h_items (bd c) (mem_of (bd c) t) px pr) in
  1 <= snd it <= total_ctr c /\ 0 <= fst it < 2 ^ snd it /\
  tk (fst it) (snd it) e = tok1 t (Some (px, pr, e)).
Proof.
  intros Hc Ht [L1 F1] [L2 F2]. cbv zeta.
  assert (Hb : 2 <= bd c <= 16) by (unfold cfg_ok in Hc; lia).
  assert (Hp : 1 <= ps c) by (unfold cfg_ok in Hc; lia).
  destruct (h_items_spec (bd c) t px pr Hb Ht F1 F2) as (X1 & X2 & X3).
  pose proof (h_items_len (bd c) (mem_of (bd c) t) px pr _ L1 L2) as Hl.
  set (its := h_items (bd c) (mem_of (bd c) t) px pr) in *.
  destruct (concat_item_ok (single_ctr c) its X1) as [Y1 [Y2 Y3]].
  assert (1 <= snd (concat_item its)).
  { apply sum_ctr_pos; [|assumption]. intros E. rewrite E in Hl. unfold len in Hl. cbn in Hl. lia. }
  split; [unfold total_ctr; unfold len in Hl; rewrite Hl in Y2; lia|]. split; [assumption|].
  unfold tk, tok1. unfold item_bits in Y1. rewrite Y1, X3. reflexivity.
Qed.

(* ---------- end marks ---------- *)
Lemma none_last (a : list tok) y bs (e : bool) :
  a ++ None :: y = map Some bs ++ (if e then [None] else []) -> y = [].
Proof.
  revert bs. induction a as [|x a IH]; intros bs H.
  - destruct bs as [|b bs]; [|discriminate H]. destruct e; [|discriminate H]. cbn in H. inversion H. reflexivity.
  - destruct bs as [|b bs].
    + destruct e; cbn in H; [|discriminate]. inversion H; subst. destruct a; discriminate.
    + cbn in H. inversion H; subst. apply (IH bs). assumption.
Qed.

Definition wf_toks (l : list tok) : Prop := exists bs e, l = map Some bs ++ (if e : bool then [None] else []).

Lemma wf_none_last a y : wf_toks (a ++ None :: y) -> y = [].
Proof. intros (bs & e & H). eapply none_last. exact H. Qed.

Lemma qtok_nil db cb q : Forall (wok db cb) q -> qtok db cb q = [] -> q = [].
Proof.
  destruct q as [|x q]; [reflexivity|]. intros H. inversion H as [|? ? [H1 _] _]; subst. cbn [qtok flat_map].
  intros E. apply app_eq_nil in E. destruct E as [E _]. exfalso. apply (tk_nonempty _ _ _ (proj1 H1) E).
Qed.

(* packer fed from a fifo *)
Lemma vb_fifo_step c s q2 dout rd busy pre post : vb_ok c -> vb_inv c s ->
  Forall (wok (cf_db c) (cf_cb c)) q2 ->
  (rd = true -> exists r, q2 = dout :: r) ->
  wf_toks (pre ++ vb_pend s ++ qtok (cf_db c) (cf_cb c) q2 ++ post) ->
  (vo_state (vb_out s) = VO_END -> exists p, pre = p ++ [None]) ->
  let s' := vb_step c s (item_enc (cf_db c) (cf_cb c) dout) (item_ctr (cf_db c) (cf_cb c) dout)
               (item_end (cf_db c) (cf_cb c) dout) rd busy in
  vb_inv c s' /\
  vb_emit c s busy ++ vb_pend s' ++
    qtok (cf_db c) (cf_cb c) (if vi_latch_input (vb_in s) && rd then tl q2 else q2) =
  vb_pend s ++ qtok (cf_db c) (cf_cb c) q2 /\
  (vo_state (vb_out s') = VO_END -> exists p, pre ++ vb_emit c s busy = p ++ [None]).
Proof.
  intros Hc I HF Hrd Hwf Hend. cbv zeta.
  assert (Hv : rd = true -> iok c (item_enc (cf_db c) (cf_cb c) dout) (item_ctr (cf_db c) (cf_cb c) dout)).
  { intros E. destruct (Hrd E) as [r ->]. inversion HF as [|? ? [X1 X2] _]; subst. split; assumption. }
  assert (He : vo_state (vb_out s) <> VO_END -> vi_end (vb_in s) = true -> vi_items (vb_in s) = []).
  { intros Hn E. unfold vb_pend in Hwf.
    assert (Hwf' : wf_toks ((pre ++ map Some (bitsz (vi_consum (vb_in s)) (vi_buffer (vb_in s)))) ++
              None :: (vi_items (vb_in s) ++ qtok (cf_db c) (cf_cb c) q2 ++ post))).
    { unfold vi_pend, tk in Hwf. rewrite E in Hwf. destruct (vo_state (vb_out s)); try congruence;
      rewrite <- ?app_assoc in *; exact Hwf. }
    apply wf_none_last in Hwf'. apply app_eq_nil in Hwf'. apply Hwf'. }
  destruct (vb_step_ok c s _ _ (item_end (cf_db c) (cf_cb c) dout) rd busy Hc I Hv He) as (J1 & J2 & J3).
  split; [exact J1|].
  set (s' := vb_step c s _ _ _ rd busy) in *.
  destruct (vo_state (vb_out s)) eqn:Eo.
  3:{ (* already finished *)
      destruct (Hend eq_refl) as [p Hp].
      assert (Eq : q2 = []).
      { unfold vb_pend in Hwf. rewrite Eo, Hp, <- app_assoc in Hwf. cbn [app] in Hwf. apply wf_none_last in Hwf.
        apply app_eq_nil in Hwf. eapply qtok_nil; [exact HF|]. apply Hwf. }
      assert (Eemit : vb_emit c s busy = []) by (unfold vb_emit, vo_dec; rewrite Eo; reflexivity).
      assert (Eo' : vo_state (vb_out s') = VO_END).
      { unfold s', vb_step; cbn [vb_out]. unfold vo_step, vo_dec. rewrite Eo. exact Eo. }
      unfold vb_pend. rewrite Eemit, Eo', Eo, Eq. split.
      - destruct (vi_latch_input (vb_in s) && rd); reflexivity.
      - intros _. exists p. rewrite app_nil_r. exact Hp. }
  1,2: destruct (vo_state (vb_out s')) eqn:Eo'.
  1,2,4,5: split; [|discriminate]; rewrite app_assoc, (J2 ltac:(discriminate)), <- app_assoc; f_equal;
    destruct (vi_latch_input (vb_in s)), rd; cbn [andb app]; try reflexivity;
    destruct (Hrd eq_refl) as [r ->]; reflexivity.
  all: assert (Hem : vb_emit c s busy = vb_pend s) by (apply J3; [discriminate|reflexivity]).
  all: assert (Hpe : exists p, vb_emit c s busy = p ++ [None]).
  1,3: unfold vb_emit; unfold s', vb_step in Eo'; cbn [vb_out] in Eo'; unfold vo_step in Eo';
    destruct (vo_dec c (vb_out s) _ _ busy) eqn:Ed;
    [cbn [vo_state] in Eo'; unfold vo_fin; destruct (vo_le c _ && _); [|discriminate];
     eexists; reflexivity
    | exfalso; rewrite Eo in Eo'; try destruct busy; cbn in Eo'; congruence].
  all: destruct Hpe as [p Hpe]; rewrite <- Hem, Hpe in Hwf.
  all: assert (Eq : q2 = []);
    [ rewrite <- app_assoc in Hwf; cbn [app] in Hwf; rewrite app_assoc in Hwf; apply wf_none_last in Hwf;
      apply app_eq_nil in Hwf; eapply qtok_nil; [exact HF|apply Hwf] |].
  all: split; [unfold vb_pend at 1; rewrite Eo', Hem, Eq; destruct (vi_latch_input (vb_in s) && rd); reflexivity|].
  all: intros _; exists (pre ++ p); rewrite Hpe, app_assoc; reflexivity.
Qed.

(* ---------- the invariant ---------- *)
Record i3_inv (c : config) (t : table) (W H G : Z) (A : list (list Z)) (P : list tok)
    (done : list (Z * bool)) (hist : hist_t) (s : i3_st) : Prop := {
  v_len : len A <= G * H;
  v_A : Forall (group_ok (bd c) (ps c)) A;
  v_sig : len A < G * H -> sig_rel (ps c) W H G (len A) (i1_sig (s_i1 s));
  v_pred : pred_rel (bd c) (ps c) G A (i1_pred (s_i1 s));
  v_i1 : i1_inv c (mem_of (bd c) t) (s_i1 s) hist;
  v_hist : hist_ok c hist;
  v_ne1 : s_nready_end s = (G * H <=? len A);
  v_ne2 : s_nready_end_reg s = (G * H <=? len A);
  v_ljf : fifo_inv (ljd c) (s_ljf s);
  v_ljw : Forall (wok (lj_db c) (lj_cb c)) (fifo_q (ljd c) (s_ljf s));
  v_ljb : fifo_level (s_ljf s) + hcount hist (latency c) <= ljd c - 2 /\
          (s_lj_cf s = false -> fifo_level (s_ljf s) <= ljd c - 10);
  v_cv : cv_inv c (s_cv s);
  v_cff : fifo_inv (cfd c) (s_cf s);
  v_cfw : Forall (wok (cf_db c) (cf_cb c)) (fifo_q (cfd c) (s_cf s));
  v_cfb : cvf_bound c (s_cv s) (fifo_level (s_cf s)) (s_cf_cf s);
  v_vb : vb_inv c (s_vb s);
  v_done : vb_done c (s_vb s) done P;
  v_end : vo_state (vb_out (s_vb s)) = VO_END -> exists p, P = p ++ [None];
  v_tok : P ++ vb_pend (s_vb s) ++ qtok (cf_db c) (cf_cb c) (fifo_q (cfd c) (s_cf s)) ++
          cv_outtok (s_cv s) ++ cv_contents c (s_cv s) ++
          qtok (lj_db c) (lj_cb c) (fifo_q (ljd c) (s_ljf s)) ++ htok t hist (latency c) =
          frame_toks t (bd c) W A (G * H)
}.

Lemma cfg_cv c : cfg_ok c = true -> cv_ok c.
Proof. unfold cfg_ok, cv_ok. lia. Qed.
Lemma cfg_vb c : cfg_ok c = true -> vb_ok c.
Proof. unfold cfg_ok, vb_ok. lia. Qed.
Lemma cfg_cfd c : cfg_ok c = true -> cf_steps c + 3 < cfd c.
Proof. unfold cfg_ok. lia. Qed.

Lemma fifo_reset_q D st d : fifo_q D (fifo_reset st d) = [].
Proof. reflexivity. Qed.

Lemma i3_inv_reset c t W H G stor1 dout1 stor2 dout2 rps :
  cfg_ok c = true -> geom (ps c) W H G -> 4 / ps c <= G ->
  len stor1 = ljd c - 1 -> len stor2 = cfd c - 1 -> len rps = ps c ->
  i3_inv c t W H G [] [] [] [] (i3_reset c stor1 dout1 stor2 dout2 rps).
Proof.
  intros Hc Hg HG4 L1 L2 L3.
  assert (Hps : ps c = 1 \/ ps c = 2 \/ ps c = 4) by (unfold cfg_ok in Hc; lia).
  pose proof (cfg_cv c Hc) as Hcv. pose proof (cv_k_bound c Hcv) as (K1 & K2 & K3).
  pose proof (cfg_cfd c Hc) as Hcfd. assert (Hs : cf_steps c = cv_k c + 3) by reflexivity.
  assert (Hgh : 3 <= G * H) by (unfold geom in Hg; lia).
  assert (Hl : 25 <= ljd c) by (unfold cfg_ok in Hc; lia).
  constructor; unfold i3_reset; cbn [s_i1 s_ljf s_lj_cf s_cv s_cf s_cf_cf s_nready_end s_nready_end_reg s_nready_reset s_nready_ctr s_vb];
    rewrite ?fifo_reset_q.
  - unfold len; cbn; lia.
  - constructor.
  - intros _. apply sig_rel_init. assumption.
  - apply pred_rel_init; assumption.
  - apply i1_inv_reset; [lia|assumption].
  - constructor.
  - unfold len; cbn [length]. lia.
  - unfold len; cbn [length]. lia.
  - apply fifo_reset_inv; [lia|exact L1].
  - constructor.
  - unfold fifo_level; cbn. unfold hcount. rewrite firstn_nil. cbn. lia.
  - apply cv_inv_init.
  - apply fifo_reset_inv; [lia|exact L2].
  - constructor.
  - unfold cvf_bound, fifo_level, cv_weight; cbn. lia.
  - apply vb_inv_init. apply cfg_vb. assumption.
  - apply vb_done_init.
  - cbn. discriminate.
  - unfold frame_toks. replace (len (@nil (list Z)) =? G * H) with false
      by (symmetry; apply Z.eqb_neq; unfold len; cbn [length Z.of_nat]; lia).
    cbn. unfold htok. rewrite firstn_nil. reflexivity.
Qed.


Definition i3_new (c : config) (G : Z) (A : list (list Z)) (s : i3_st) (i : i3_in) : option grp :=
  if i3_accept s i
  then Some (in_px i, gpred (bd c) (ps c) G A (len A), sg_end_of_frame (i1_sig (s_i1 s))) else None.

Lemma tl_len {X} (b : bool) (q : list X) : (length (if b then tl q else q) <= length q)%nat.
Proof. destruct b; [|apply le_n]. destruct q; cbn; lia. Qed.

Lemma Forall_tl {X} (Q : X -> Prop) (b : bool) q : Forall Q q -> Forall Q (if b then tl q else q).
Proof. intros HF. destruct b; [|exact HF]. inversion HF; [constructor|assumption]. Qed.

Lemma len_snoc {X} (l : list X) x : len (l ++ [x]) = len l + 1.
Proof. unfold len. rewrite app_length. cbn. lia. Qed.

(* what the environment owes: an accepted group is well formed and the size registers are right *)
Definition acc_ok (c : config) (W H : Z) (s : i3_st) (i : i3_in) : Prop :=
  i3_accept s i = true -> group_ok (bd c) (ps c) (in_px i) /\ in_w i = W /\ in_h i = H.
Lemma in_ok_acc c W H s i : in_ok c W H i -> acc_ok c W H s i.
Proof. intros Hi E. unfold i3_accept in E. apply andb_prop in E. apply Hi, E. Qed.

Lemma i3_inv_step c t W H G A P done hist s i :
  cfg_ok c = true -> table_ok (bd c) t -> geom (ps c) W H G -> 4 / ps c <= G ->
  acc_ok c W H s i ->
  i3_inv c t W H G A P done hist s ->
  i3_inv c t W H G
    (A ++ (if i3_accept s i then [in_px i] else []))
    (P ++ vb_emit c (s_vb s) (in_busy i))
    (done ++ transferred (s_vb s) (in_busy i))
    (i3_new c G A s i :: hist)
    (i3_step c (mem_of (bd c) t) s i).
Proof.
  intros Hc Ht Hg HG4 Hin I.
  assert (Hps : ps c = 1 \/ ps c = 2 \/ ps c = 4) by (unfold cfg_ok in Hc; lia).
  assert (Hbd : 2 <= bd c <= 16) by (unfold cfg_ok in Hc; lia).
  assert (Hljd : 25 <= ljd c) by (unfold cfg_ok in Hc; lia).
  pose proof (cfg_cv c Hc) as Hcv. pose proof (cfg_vb c Hc) as Hvb. pose proof (cfg_cfd c Hc) as Hcfd.
  pose proof (cv_k_bound c Hcv) as (K1 & K2 & K3). assert (Hst : cf_steps c = cv_k c + 3) by reflexivity.
  assert (HG : 2 <= G) by (unfold geom in Hg; lia).
  assert (HWG : W = G * ps c) by (unfold geom in Hg; lia).
  pose proof (latency_bound c Hc) as Hlat.
  destruct I as [Ilen IA Isig Ipred Ii1 Ihist Ine1 Ine2 Iljf Iljw Iljb Icv Icff Icfw Icfb Ivb Idone Iend Itok].
  set (mem := mem_of (bd c) t) in *.
  set (acc := i3_accept s i) in *.
  unfold acc_ok in Hin. fold acc in Hin.
  (* acceptance *)
  assert (Hacc : acc = true -> in_valid i = true /\ s_lj_cf s = false /\ len A < G * H).
  { unfold acc, i3_accept, i3_nready. intros E. rewrite Ine1 in E.
    destruct (in_valid i), (s_lj_cf s), (G * H <=? len A) eqn:EE; cbn in E; try discriminate. repeat split; lia. }
  assert (Hgl : Forall (fun g => len g = ps c) A) by (eapply Forall_impl; [|exact IA]; intros g [Hx _]; exact Hx).
  set (pr := gpred (bd c) (ps c) G A (len A)).
  assert (Hpr : group_ok (bd c) (ps c) pr).
  { split; [apply gpred_len; try assumption; lia|apply gpred_range; try assumption; lia]. }
  set (e := sg_end_of_frame (i1_sig (s_i1 s))).
  (* predictor *)
  assert (Hpstep : acc = true ->
     pred_rel (bd c) (ps c) G (A ++ [in_px i]) (i1_pred (i1_step c mem (s_i1 s) acc (in_px i) (in_w i) (in_h i))) /\
     pred_predics_out (i1_pred (i1_step c mem (s_i1 s) acc (in_px i) (in_w i) (in_h i))) = pr).
  { intros E. destruct (Hacc E) as (E1 & E2 & E3). destruct (Isig E3) as (R1 & _).
    unfold i1_step; cbn [i1_pred]. rewrite E, R1.
    destruct (pred_step_acc (bd c) (ps c) G A (i1_pred (s_i1 s)) (sg_end_of_frame (i1_sig (s_i1 s))) (in_px i) HG4 HG Ipred) as (X1 & X2 & X3).
    auto. }
  (* pipeline *)
  assert (Hi1' : i1_inv c mem (i1_step c mem (s_i1 s) acc (in_px i) (in_w i) (in_h i)) (i3_new c G A s i :: hist)).
  { apply i1_inv_step; [assumption|assumption|]. intros E. destruct (Hacc E) as (E1 & _).
    destruct (Hin E) as ([X1 _] & _). destruct (Hpstep E) as [_ X2]. split; [assumption|]. split; [apply Hpr|exact X2]. }
  destruct (i1_inv_out c mem (s_i1 s) hist Hc Ii1) as [Hvo Hout].
  assert (Hitem : forall px pr0 e0, nth (latency c - 1) hist None = Some (px, pr0, e0) ->
     let w := item_pack (lj_db c) (lj_cb c) (fst (i1_out c (s_i1 s))) (snd (i1_out c (s_i1 s))) (i1_end_out c (s_i1 s)) in
     wtok (lj_db c) (lj_cb c) w = tok1 t (Some (px, pr0, e0)) /\ wok (lj_db c) (lj_cb c) w).
  { intros px0 pr0 e0 E. cbv zeta.
    assert (Hok : group_ok (bd c) (ps c) px0 /\ group_ok (bd c) (ps c) pr0).
    { unfold hist_ok in Ihist. rewrite Forall_forall in Ihist. apply (Ihist (nth (latency c - 1) hist None)) with (e := e0); [|assumption].
      apply nth_In. destruct (Nat.ltb (latency c - 1) (length hist)) eqn:El; [apply Nat.ltb_lt; assumption|].
      apply Nat.ltb_ge in El. rewrite nth_overflow in E by assumption. discriminate. }
    destruct Hok as [Hok1 Hok2].
    destruct (pipe_item c t px0 pr0 e0 Hc Ht Hok1 Hok2) as (X1 & X2 & X3). fold mem in X1, X2, X3.
    destruct (Hout _ _ _ E) as [Y1 Y2].
    { apply (h_items_spec (bd c) t px0 pr0 Hbd Ht); [apply Hok1|apply Hok2]. }
    rewrite Y1, Y2. unfold lj_db, lj_cb.
    destruct (wtok_pack (total_ctr c) _ _ e0 X1 X2) as [Z1 Z2]. rewrite Z1. split; assumption. }
  (* LJ fifo *)
  set (lw := item_pack (lj_db c) (lj_cb c) (fst (i1_out c (s_i1 s))) (snd (i1_out c (s_i1 s))) (i1_end_out c (s_i1 s))) in *.
  assert (Ew : i3_step c mem s i =
    {| s_i1 := i1_step c mem (s_i1 s) acc (in_px i) (in_w i) (in_h i);
       s_ljf := fifo_step (ljd c) (s_ljf s) (i1_valid_out c (s_i1 s)) lw (cv_latch_output (s_cv s));
       s_lj_cf := ljd c - 10 <=? fifo_level (s_ljf s);
       s_cv := s_cv (i3_step c mem s i);
       s_cf := s_cf (i3_step c mem s i); s_cf_cf := s_cf_cf (i3_step c mem s i);
       s_nready_end := e && in_valid i && negb (i3_nready s) || s_nready_end_reg s;
       s_nready_end_reg := e && in_valid i && negb (i3_nready s) || s_nready_end_reg s;
       s_nready_reset := s_nready_reset (i3_step c mem s i);
       s_nready_ctr := s_nready_ctr (i3_step c mem s i);
       s_vb := s_vb (i3_step c mem s i) |}).
  { unfold lw. unfold i3_step. destruct (i1_out c (s_i1 s)) as [l_enc l_ctr]. reflexivity. }
  assert (Hne : e && in_valid i && negb (i3_nready s) || s_nready_end_reg s =
    (G * H <=? len (A ++ (if acc then [in_px i] else [])))).
  { rewrite Ine2. rewrite <- andb_assoc. change (in_valid i && negb (i3_nready s)) with acc.
    destruct acc eqn:Ea.
    - destruct (Hacc eq_refl) as (E1 & E2 & E3). destruct (Isig E3) as (_ & R2 & _). unfold e. rewrite R2, len_snoc.
      destruct (G * H - 1 <=? len A) eqn:E4, (G * H <=? len A) eqn:E5; cbn; lia.
    - rewrite andb_false_r, app_nil_r. reflexivity. }
  pose proof (fifo_level_q (ljd c) _ Iljf) as Llj.
  pose proof (fifo_level_q (cfd c) _ Icff) as Lcf.
  set (L := fifo_level (s_ljf s)) in *.
  assert (HlS : exists n, latency c = S n) by (exists (latency c - 1)%nat; lia). destruct HlS as [n Hn].
  rewrite Hn in *. replace (S n - 1)%nat with n in * by lia.
  assert (Hcnt := hcount_S hist n). rewrite <- Hvo in Hcnt.
  assert (Hwr : i1_valid_out c (s_i1 s) = true -> fifo_writable (ljd c) (s_ljf s) = true).
  { intros E. rewrite E in Hcnt. cbn [b2z] in Hcnt. pose proof (hcount_le hist n). apply fifo_writable_level; [assumption|]. fold L. lia. }
  destruct (fifo_step_ok (ljd c) (s_ljf s) (i1_valid_out c (s_i1 s)) lw (cv_latch_output (s_cv s)) ltac:(lia) Iljf) as [Fl1 Fl2].
  assert (Hwe : i1_valid_out c (s_i1 s) && fifo_writable (ljd c) (s_ljf s) = i1_valid_out c (s_i1 s)).
  { destruct (i1_valid_out c (s_i1 s)) eqn:E; [rewrite Hwr by reflexivity|]; reflexivity. }
  rewrite Hwe in Fl2.
  pose proof (fifo_level_q (ljd c) _ Fl1) as Llj'.
  assert (Lstep : fifo_level (fifo_step (ljd c) (s_ljf s) (i1_valid_out c (s_i1 s)) lw (cv_latch_output (s_cv s))) <=
     L + b2z (i1_valid_out c (s_i1 s))).
  { rewrite Llj', Fl2, Llj, app_length. unfold fifo_take.
    assert (length (if cv_latch_output (s_cv s) && ff_rd (s_ljf s) then tl (fifo_q (ljd c) (s_ljf s)) else fifo_q (ljd c) (s_ljf s))
       <= length (fifo_q (ljd c) (s_ljf s)))%nat.
    { apply tl_len. }
    destruct (i1_valid_out c (s_i1 s)); cbn [length b2z]; lia. }
  (* converter *)
  set (lq := ff_dout (s_ljf s)) in *.
  assert (Hlq : ff_rd (s_ljf s) = true -> 1 <= item_ctr (lj_db c) (lj_cb c) lq <= total_ctr c /\
     0 <= item_enc (lj_db c) (lj_cb c) lq < 2 ^ item_ctr (lj_db c) (lj_cb c) lq).
  { intros E. destruct (fifo_head (ljd c) _ E) as [r Hr]. rewrite Hr in Iljw. inversion Iljw as [|? ? [X1 X2] _]; subst.
    split; assumption. }
  destruct (cv_step_ok c (s_cv s) (item_enc (lj_db c) (lj_cb c) lq) (item_ctr (lj_db c) (lj_cb c) lq)
              (item_end (lj_db c) (lj_cb c) lq) (ff_rd (s_ljf s)) (s_cf_cf s) Hcv Icv Hlq) as [Cv1 Cv2].
  (* converter fifo *)
  set (cw := item_pack (cf_db c) (cf_cb c) (cv_enc_in (s_cv s)) (cv_enc_in_ctr (s_cv s)) (cv_in_end (s_cv s))) in *.
  assert (Hcw : cv_valid_in (s_cv s) = true -> wtok (cf_db c) (cf_cb c) cw = cv_outtok (s_cv s) /\ wok (cf_db c) (cf_cb c) cw).
  { intros E. destruct Icv as (_ & _ & _ & X4 & _). destruct (X4 E) as [Y1 Y2].
    unfold cv_outtok. rewrite E. unfold cw, cf_db, cf_cb. apply wtok_pack; assumption. }
  destruct (fifo_step_ok (cfd c) (s_cf s) (cv_valid_in (s_cv s)) cw (vi_latch_input (vb_in (s_vb s))) ltac:(lia) Icff) as [Fc1 Fc2].
  assert (Hcwr : cv_valid_in (s_cv s) && fifo_writable (cfd c) (s_cf s) = cv_valid_in (s_cv s)).
  { destruct (cv_valid_in (s_cv s)) eqn:E; [|reflexivity]. apply fifo_writable_level; [assumption|].
    destruct Icfb as [X _]. unfold cv_weight in X. rewrite E in X. cbn [b2z] in X.
    assert (0 <= match cv_state (s_cv s) with CV_IDLE => 0 | CV_STEPS i0 => Z.of_nat i0 + 1 | _ => cv_k c end)
      by (destruct (cv_state (s_cv s)); lia). lia. }
  rewrite Hcwr in Fc2.
  pose proof (fifo_level_q (cfd c) _ Fc1) as Lcf'.
  assert (Cstep : fifo_level (fifo_step (cfd c) (s_cf s) (cv_valid_in (s_cv s)) cw (vi_latch_input (vb_in (s_vb s)))) <=
     fifo_level (s_cf s) + b2z (cv_valid_in (s_cv s))).
  { rewrite Lcf', Fc2, Lcf, app_length. unfold fifo_take.
    assert (length (if vi_latch_input (vb_in (s_vb s)) && ff_rd (s_cf s) then tl (fifo_q (cfd c) (s_cf s)) else fifo_q (cfd c) (s_cf s))
       <= length (fifo_q (cfd c) (s_cf s)))%nat.
    { apply tl_len. }
    destruct (cv_valid_in (s_cv s)); cbn [length b2z]; lia. }
  (* packer *)
  assert (Hwf : wf_toks (P ++ vb_pend (s_vb s) ++ qtok (cf_db c) (cf_cb c) (fifo_q (cfd c) (s_cf s)) ++
          cv_outtok (s_cv s) ++ cv_contents c (s_cv s) ++
          qtok (lj_db c) (lj_cb c) (fifo_q (ljd c) (s_ljf s)) ++ htok t hist (S n))).
  { rewrite Itok. unfold frame_toks. eexists _, _. reflexivity. }
  destruct (vb_fifo_step c (s_vb s) (fifo_q (cfd c) (s_cf s)) (ff_dout (s_cf s)) (ff_rd (s_cf s)) (in_busy i) P _
     Hvb Ivb Icfw (fifo_head (cfd c) (s_cf s)) Hwf Iend) as (Vb1 & Vb2 & Vb3).
  pose proof (vb_done_step c (s_vb s) (item_enc (cf_db c) (cf_cb c) (ff_dout (s_cf s)))
     (item_ctr (cf_db c) (cf_cb c) (ff_dout (s_cf s))) (item_end (cf_db c) (cf_cb c) (ff_dout (s_cf s)))
     (ff_rd (s_cf s)) (in_busy i) done P Hvb Ivb Idone) as Vb4.
  assert (Es : s_cv (i3_step c mem s i) = cv_step c (s_cv s) (item_enc (lj_db c) (lj_cb c) lq) (item_ctr (lj_db c) (lj_cb c) lq)
              (item_end (lj_db c) (lj_cb c) lq) (ff_rd (s_ljf s)) (s_cf_cf s) /\
     s_cf (i3_step c mem s i) = fifo_step (cfd c) (s_cf s) (cv_valid_in (s_cv s)) cw (vi_latch_input (vb_in (s_vb s))) /\
     s_cf_cf (i3_step c mem s i) = (cfd c - cf_steps c <=? fifo_level (s_cf s)) /\
     s_vb (i3_step c mem s i) = vb_step c (s_vb s) (item_enc (cf_db c) (cf_cb c) (ff_dout (s_cf s)))
     (item_ctr (cf_db c) (cf_cb c) (ff_dout (s_cf s))) (item_end (cf_db c) (cf_cb c) (ff_dout (s_cf s)))
     (ff_rd (s_cf s)) (in_busy i)).
  { unfold i3_step. destruct (i1_out c (s_i1 s)) as [l_enc l_ctr]. repeat split; reflexivity. }
  destruct Es as (Es1 & Es2 & Es3 & Es4).
  rewrite Ew. rewrite Es1, Es2, Es3, Es4. clear Ew Es1 Es2 Es3 Es4.
  constructor; cbn [s_i1 s_ljf s_lj_cf s_cv s_cf s_cf_cf s_nready_end s_nready_end_reg s_nready_reset s_nready_ctr s_vb].
  - destruct acc; [rewrite len_snoc; destruct (Hacc eq_refl) as (_ & _ & X); lia|rewrite app_nil_r; assumption].
  - apply Forall_app. split; [assumption|]. destruct acc; [|constructor]. destruct (Hacc eq_refl) as (X & _).
    constructor; [apply (Hin eq_refl)|constructor].
  - intros Hlt. unfold i1_step; cbn [i1_sig]. destruct acc.
    + destruct (Hacc eq_refl) as (X1 & _ & X2). destruct (Hin eq_refl) as (_ & Hw & Hh). rewrite Hw, Hh.
      rewrite len_snoc in *. apply sig_step_acc; [assumption|apply Isig; assumption|]. unfold len in *; lia.
    + rewrite app_nil_r in *. apply sig_step_gap; [apply Isig; assumption|unfold len; lia].
  - destruct acc eqn:Ea; [apply Hpstep; reflexivity|]. rewrite app_nil_r. unfold i1_step; cbn [i1_pred].
    apply pred_step_gap. assumption.
  - exact Hi1'.
  - constructor; [|assumption]. unfold i3_new. fold acc. intros px0 pr0 e0 E. destruct acc; [|discriminate].
    inversion E; subst. destruct (Hacc eq_refl) as (X & _). split; [apply (Hin eq_refl)|exact Hpr].
  - exact Hne.
  - exact Hne.
  - exact Fl1.
  - rewrite Fl2. apply Forall_app. split.
    + apply Forall_tl. assumption.
    + destruct (i1_valid_out c (s_i1 s)) eqn:E; [|constructor]. constructor; [|constructor].
      destruct (nth n hist None) as [[[px0 pr0] e0]|] eqn:En; [|discriminate Hvo].
      apply (Hitem px0 pr0 e0 eq_refl).
  - assert (Hb1 : 0 <= b2z (i1_valid_out c (s_i1 s)) <= 1) by (destruct (i1_valid_out c (s_i1 s)); cbn; lia).
    rewrite Hn, hcount_cons. split; [|intros E; lia].
    unfold i3_new. fold acc. destruct acc.
    + destruct (Hacc eq_refl) as (_ & X & _). destruct Iljb as [_ Y]. specialize (Y X). cbn [is_some b2z].
      pose proof (hcount_le hist n). assert (0 <= b2z (i1_valid_out c (s_i1 s)) <= 1) by (destruct (i1_valid_out c (s_i1 s)); cbn; lia). lia.
    + cbn [is_some b2z]. lia.
  - exact Cv1.
  - exact Fc1.
  - rewrite Fc2. apply Forall_app. split.
    + apply Forall_tl. assumption.
    + destruct (cv_valid_in (s_cv s)) eqn:E; [|constructor]. constructor; [|constructor]. apply Hcw. reflexivity.
  - apply cvf_bound_step; assumption.
  - exact Vb1.
  - exact Vb4.
  - exact Vb3.
  - (* tokens *)
    rewrite Fc2, Fl2, Hn, htok_cons, !qtok_app. unfold fifo_take.
    assert (Q2 : qtok (cf_db c) (cf_cb c) (if cv_valid_in (s_cv s) then [cw] else []) = cv_outtok (s_cv s)).
    { destruct (cv_valid_in (s_cv s)) eqn:E.
      - cbn. rewrite app_nil_r. apply Hcw. reflexivity.
      - unfold cv_outtok. rewrite E. reflexivity. }
    rewrite Q2.
    assert (Q1 : qtok (lj_db c) (lj_cb c) (if i1_valid_out c (s_i1 s) then [lw] else []) = tok1 t (nth n hist None)).
    { destruct (i1_valid_out c (s_i1 s)) eqn:E.
      - cbn. rewrite app_nil_r. destruct (nth n hist None) as [[[px0 pr0] e0]|] eqn:En; [|discriminate Hvo].
        apply (Hitem px0 pr0 e0 eq_refl).
      - destruct (nth n hist None); [discriminate Hvo|]. reflexivity. }
    rewrite Q1.
    assert (Q3 : (if cv_latch_output (s_cv s) && ff_rd (s_ljf s) then wtok (lj_db c) (lj_cb c) lq else []) ++
       qtok (lj_db c) (lj_cb c) (if cv_latch_output (s_cv s) && ff_rd (s_ljf s) then tl (fifo_q (ljd c) (s_ljf s)) else fifo_q (ljd c) (s_ljf s)) =
       qtok (lj_db c) (lj_cb c) (fifo_q (ljd c) (s_ljf s))).
    { destruct (cv_latch_output (s_cv s)); [|reflexivity]. destruct (ff_rd (s_ljf s)) eqn:E; [|reflexivity].
      cbn [andb]. destruct (fifo_head (ljd c) _ E) as [r Hr]. rewrite Hr. reflexivity. }
    assert (QT : frame_toks t (bd c) W (A ++ (if acc then [in_px i] else [])) (G * H) =
       frame_toks t (bd c) W A (G * H) ++ tok1 t (i3_new c G A s i)).
    { unfold i3_new. fold acc. destruct acc.
      - destruct (Hacc eq_refl) as (X1 & _ & X2). destruct (Hin eq_refl) as ([Y1 _] & _). destruct (Isig X2) as (_ & R2 & _).
        unfold frame_toks, tok1. rewrite len_snoc, concat_app, ref_encode_app. cbn [concat app]. rewrite app_nil_r.
        replace (len A =? G * H) with false by lia.
        rewrite HWG, (ref_encode_group t (bd c) (ps c) G A (in_px i)) by (assumption || lia).
        rewrite R2, map_app, app_nil_r, <- app_assoc. f_equal. f_equal.
        replace (len A + 1 =? G * H) with (G * H - 1 <=? len A) by (destruct (G * H - 1 <=? len A) eqn:E; lia). reflexivity.
      - cbn [tok1]. rewrite !app_nil_r. reflexivity. }
    rewrite QT, <- Itok, htok_S.
    rewrite <- Q3. fold (wtok (lj_db c) (lj_cb c) lq) in Cv2.
    rewrite <- !app_assoc.
    f_equal.
    transitivity ((vb_emit c (s_vb s) (in_busy i) ++ vb_pend (vb_step c (s_vb s) (item_enc (cf_db c) (cf_cb c) (ff_dout (s_cf s)))
     (item_ctr (cf_db c) (cf_cb c) (ff_dout (s_cf s))) (item_end (cf_db c) (cf_cb c) (ff_dout (s_cf s)))
     (ff_rd (s_cf s)) (in_busy i)) ++
      qtok (cf_db c) (cf_cb c) (if vi_latch_input (vb_in (s_vb s)) && ff_rd (s_cf s) then tl (fifo_q (cfd c) (s_cf s)) else fifo_q (cfd c) (s_cf s))) ++
      cv_outtok (s_cv s) ++ (cv_outtok (cv_step c (s_cv s) (item_enc (lj_db c) (lj_cb c) lq) (item_ctr (lj_db c) (lj_cb c) lq)
              (item_end (lj_db c) (lj_cb c) lq) (ff_rd (s_ljf s)) (s_cf_cf s)) ++
       cv_contents c (cv_step c (s_cv s) (item_enc (lj_db c) (lj_cb c) lq) (item_ctr (lj_db c) (lj_cb c) lq)
              (item_end (lj_db c) (lj_cb c) lq) (ff_rd (s_ljf s)) (s_cf_cf s))) ++
      qtok (lj_db c) (lj_cb c) (if cv_latch_output (s_cv s) && ff_rd (s_ljf s) then tl (fifo_q (ljd c) (s_ljf s)) else fifo_q (ljd c) (s_ljf s)) ++
      tok1 t (nth n hist None) ++ htok t hist n ++ tok1 t (i3_new c G A s i)).
    { rewrite <- !app_assoc. reflexivity. }
    rewrite Vb2, Cv2. rewrite <- !app_assoc. reflexivity.
Qed.
