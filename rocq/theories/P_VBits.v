(* The bit packer (vbits_to_cbits): it re-cuts the token stream into words of outb bits. *)
From Verif Require Import Bits M_Config M_VBits P_Tokens.
Ltac Zify.zify_post_hook ::= idtac.

Definition vb_ok (c : config) : Prop := 1 <= conv c /\ 1 <= outb c /\ conv c + outb c <= bufs c.

Definition iok (c : config) (v n : Z) : Prop := 1 <= n <= conv c /\ 0 <= v < 2 ^ n.

Definition t_reg (s : vi_st) := tk (vi_reg s) (vi_ctr_reg s) (vi_end_reg s).
Definition t_buff (s : vi_st) := tk (vi_buff s) (vi_ctr_buff s) (vi_end_buff s).

(* items held by the input handler, oldest first *)
Definition vi_items (s : vi_st) : list tok :=
  match vi_state s with
  | VI_BURST => if vi_valid_reg s then t_reg s else []
  | VI_REGISTER => []
  | VI_INPUT => (if vi_valid_buff s then t_buff s else []) ++ (if vi_valid_reg s then t_reg s else [])
  | VI_CLEAN => t_reg s ++ (if vi_valid_reg s then t_buff s else [])
  end.

Definition vi_pend (s : vi_st) : list tok :=
  tk (vi_buffer s) (vi_consum s) (vi_end s) ++ vi_items s.

Definition vi_inv (c : config) (s : vi_st) : Prop :=
  (vi_latch_input s = match vi_state s with VI_REGISTER | VI_BURST => true | _ => false end) /\
  (vi_state s = VI_REGISTER -> vi_valid_reg s = false) /\
  (vi_start s = false -> vi_state s = VI_INPUT /\ vi_valid_buff s = false /\ vi_valid_reg s = false /\
                         vi_consum s = 0 /\ vi_end s = false) /\
  (vi_start s = true -> vi_consum s + vi_free s = bufs c) /\
  0 <= vi_consum s <= bufs c /\
  (vi_state s = VI_CLEAN -> vi_ctr_reg s <= vi_free s) /\
  (vi_state s = VI_CLEAN \/ vi_valid_reg s = true -> iok c (vi_reg s) (vi_ctr_reg s)) /\
  (vi_state s = VI_CLEAN -> vi_valid_reg s = true -> iok c (vi_buff s) (vi_ctr_buff s)) /\
  (vi_state s = VI_INPUT -> vi_valid_buff s = true -> iok c (vi_buff s) (vi_ctr_buff s)) /\
  (vi_end s = true -> 1 <= vi_consum s).

Lemma vi_inv_init c : vb_ok c -> vi_inv c vi_init.
Proof.
  intros (H1 & H2 & H3). unfold vi_inv, vi_init; cbn.
  repeat (match goal with |- _ /\ _ => split end); try discriminate; try lia; try reflexivity.
  - auto.
  - intros [X|X]; discriminate.
Qed.

Definition vo_inv (s : vo_st) : Prop :=
  match vo_state s with
  | VO_OUTPUT => vo_valid s = false /\ vo_end s = false
  | VO_BURST => vo_valid s = true /\ vo_end s = false
  | VO_END => vo_valid s = true /\ vo_end s = true
  end.

Definition vo_fin (c : config) (consum : Z) (e : bool) : bool := vo_le c consum && e.

Lemma vo_inv_step c s buffer consum e busy : vo_inv s -> vo_inv (vo_step c s buffer consum e busy).
Proof.
  unfold vo_inv, vo_step, vo_dec. destruct (vo_state s) eqn:E.
  - destruct (vo_ge c consum || _); cbn; [|rewrite E; auto].
    destruct (vo_le c consum && e); cbn; auto. intros [_ ->]; auto.
  - destruct busy; cbn; [rewrite E; auto|].
    destruct (vo_ge c consum); cbn; [|intros [_ ->]; auto].
    destruct (vo_le c consum && e); cbn; auto. intros [_ ->]; auto.
  - cbn. rewrite E. auto.
Qed.

(* full word *)
Lemma vo_word_ge c buffer consum : vb_ok c -> outb c <= consum <= bufs c ->
  0 <= vo_word c buffer consum < 2 ^ outb c /\
  bitsz (outb c) (vo_word c buffer consum) = bitsz (outb c) (buffer / 2 ^ (consum - outb c)).
Proof.
  intros (H1 & H2 & H3) Hc. unfold vo_word, vo_ge. replace (outb c <=? consum) with true by lia.
  split; [apply trunc_range; lia|].
  rewrite bitsz_trunc by lia. rewrite (trunc_clog2 (bufs c - outb c + 1)) by lia.
  rewrite Z.shiftr_div_pow2 by lia. reflexivity.
Qed.

Lemma repeat_bits0 n : bitsn n 0 = repeat false n.
Proof. induction n; cbn [bitsn repeat]; [reflexivity|]. rewrite IHn, Z.testbit_0_l. reflexivity. Qed.

(* last word, padded *)
Lemma vo_word_lt c buffer consum : vb_ok c -> 1 <= consum < outb c ->
  0 <= vo_word c buffer consum < 2 ^ outb c /\
  bitsz (outb c) (vo_word c buffer consum) = bitsz consum buffer ++ repeat false (Z.to_nat (outb c - consum)).
Proof.
  intros (H1 & H2 & H3) Hc. unfold vo_word, vo_ge. replace (outb c <=? consum) with false by lia.
  split; [apply trunc_range; lia|].
  rewrite bitsz_trunc by lia. rewrite (trunc_clog2 (outb c)) by lia.
  rewrite Z.shiftl_mul_pow2 by lia.
  replace (outb c) with (consum + (outb c - consum)) at 1 by lia.
  rewrite <- (Z.add_0_r (buffer * 2 ^ (outb c - consum))).
  rewrite bitsz_cat; [|lia|lia|split; [lia|apply pow2_pos; lia]].
  f_equal. unfold bitsz. apply repeat_bits0.
Qed.

Lemma inc_tk c buffer n v k e : 0 <= n -> iok c v k -> n + k <= bufs c ->
  tk (trunc (bufs c) (Z.lor (Z.shiftl buffer k) v)) (n + k) e = tk buffer n false ++ tk v k e.
Proof.
  intros Hn [H1 H2] Hb. rewrite lor_shl_add by lia.
  unfold tk. rewrite bitsz_trunc by lia. rewrite bitsz_cat by lia. rewrite map_app, app_nil_r, app_assoc. reflexivity.
Qed.

Lemma tk_nonempty v n e : 1 <= n -> tk v n e <> [].
Proof.
  intros H. unfold tk. intros E. apply app_eq_nil in E. destruct E as [E _].
  apply map_eq_nil in E. apply (f_equal (@length bool)) in E. unfold bitsz in E. rewrite bitsn_length in E. cbn in E. lia.
Qed.

(* the input handler; dec: a word is taken out in the same cycle *)
Lemma vi_inc_items c s : vi_inv c s -> vi_inc s = true ->
  iok c (vi_reg s) (vi_ctr_reg s) /\ vi_ctr_reg s <= vi_free s /\ vi_items s <> [] /\ vi_start s = true.
Proof.
  intros (I1 & I2 & I3 & I4 & I5 & I6 & I7 & I8 & I9 & I10) H. unfold vi_inc in H. unfold vi_items.
  assert (Hs : vi_start s = true).
  { destruct (vi_start s); [reflexivity|]. destruct (I3 eq_refl) as (E & _). rewrite E in H. discriminate. }
  destruct (vi_state s) eqn:E; try discriminate.
  - assert (iok c (vi_reg s) (vi_ctr_reg s)) as Hi by (apply I7; auto).
    split; [assumption|]. split; [apply I6; reflexivity|]. split; [|assumption].
    intros Hn. apply app_eq_nil in Hn. destruct Hn as [Hn _]. destruct Hi as [Hi _].
    apply (tk_nonempty _ _ _ (proj1 Hi) Hn).
  - apply andb_prop in H. destruct H as [H1 H2].
    assert (iok c (vi_reg s) (vi_ctr_reg s)) as Hi by (apply I7; auto).
    split; [assumption|]. split; [lia|]. split; [|assumption]. rewrite H1.
    destruct Hi as [Hi _]. apply tk_nonempty. lia.
Qed.

(* arithmetic part: buffer, consum, free, end *)
Lemma vi_arith c s enc ctr e valid dec : vb_ok c -> vi_inv c s ->
  (vi_end s = true -> vi_items s = []) ->
  (dec = true -> outb c <= vi_consum s) ->
  (dec = true -> vi_end s = true -> outb c < vi_consum s) ->
  let s' := vi_step c s enc ctr e valid dec in
  0 <= vi_consum s' <= bufs c /\ vi_consum s' + vi_free s' = bufs c /\ vi_start s' = true /\
  vi_consum s' = vi_consum s - (if dec then outb c else 0) + (if vi_inc s then vi_ctr_reg s else 0) /\
  (vi_end s' = true -> 1 <= vi_consum s') /\
  (if dec then map Some (bitsz (outb c) (vo_word c (vi_buffer s) (vi_consum s))) else []) ++
    tk (vi_buffer s') (vi_consum s') (vi_end s') =
  tk (vi_buffer s) (vi_consum s) (vi_end s) ++ (if vi_inc s then t_reg s else []).
Proof.
  intros Hc I He Hd1 Hd2.
  pose proof (vi_inc_items c s I) as Hinc.
  destruct I as (I1 & I2 & I3 & I4 & I5 & I6 & I7 & I8 & I9 & I10).
  set (dv := if dec then outb c else 0). set (iv := if vi_inc s then vi_ctr_reg s else 0).
  assert (Hdv : 0 <= dv <= vi_consum s) by (unfold dv; destruct dec; [specialize (Hd1 eq_refl); destruct Hc; lia|lia]).
  assert (Hcl : 0 <= clog2 (bufs c + 1)) by (apply clog2_spec; destruct Hc; lia).
  assert (Hst : vi_start s = false -> dec = false /\ vi_inc s = false).
  { intros E. destruct (I3 E) as (E1 & _ & _ & E2 & _). split.
    - destruct dec; [|reflexivity]. specialize (Hd1 eq_refl). destruct Hc; lia.
    - unfold vi_inc. rewrite E1. reflexivity. }
  assert (Hiv : 0 <= iv /\ vi_consum s - dv + iv <= bufs c).
  { unfold iv. destruct (vi_inc s) eqn:Ei; [|lia].
    destruct (Hinc eq_refl) as ([X1 X2] & X3 & X4 & X5). specialize (I4 X5). lia. }
  assert (Hb : 0 <= bufs c) by (destruct Hc; lia).
  assert (Ecs : vi_consum (vi_step c s enc ctr e valid dec) = vi_consum s - dv + iv).
  { unfold vi_step. destruct (vi_state s); cbn [vi_consum]; fold dv iv;
    (destruct (vi_inc s || dec) eqn:E; [apply trunc_clog2; lia|]);
    apply orb_false_elim in E; destruct E as [E1 E2]; unfold dv, iv; rewrite E1, E2; lia. }
  assert (Efr : vi_free (vi_step c s enc ctr e valid dec) = bufs c - (vi_consum s - dv + iv)).
  { unfold vi_step. destruct (vi_start s) eqn:Es.
    - specialize (I4 eq_refl).
      destruct (vi_state s); cbn [vi_free negb]; fold dv iv;
      (destruct (vi_inc s || dec) eqn:E; [rewrite trunc_clog2 by lia; lia|]);
      apply orb_false_elim in E; destruct E as [E1 E2]; unfold dv, iv; rewrite E1, E2; lia.
    - destruct (Hst eq_refl) as [Q1 Q2]. destruct (I3 eq_refl) as (_ & _ & _ & E2 & _).
      unfold dv, iv. rewrite Q1, Q2. cbn [orb negb].
      destruct (vi_state s); cbn [vi_free]; lia. }
  assert (Esr : vi_start (vi_step c s enc ctr e valid dec) = true).
  { unfold vi_step. destruct (vi_state s); reflexivity. }
  assert (Een : vi_end (vi_step c s enc ctr e valid dec) = if vi_inc s then vi_end_reg s else vi_end s).
  { unfold vi_step. destruct (vi_state s); reflexivity. }
  assert (Ebu : vi_buffer (vi_step c s enc ctr e valid dec) =
    if vi_inc s then trunc (bufs c) (Z.lor (Z.shiftl (vi_buffer s) (vi_ctr_reg s)) (vi_reg s)) else vi_buffer s).
  { unfold vi_step. destruct (vi_state s); reflexivity. }
  cbv zeta. rewrite Ecs, Efr, Esr, Een, Ebu.
  split; [lia|]. split; [lia|]. split; [reflexivity|]. split; [reflexivity|].
  assert (Hie : vi_inc s = true -> vi_end s = false).
  { intros Hi. destruct (vi_end s) eqn:E; [|reflexivity]. destruct (Hinc Hi) as (_ & _ & X & _).
    elim X. apply He. reflexivity. }
  split.
  { unfold iv in *. destruct (vi_inc s) eqn:Ei.
    - destruct (Hinc eq_refl) as ([X1 X2] & _). intros _. lia.
    - intros E. specialize (I10 E). unfold dv in *. destruct dec; [specialize (Hd2 eq_refl E)|]; lia. }
  assert (Hdec : (if dec then map Some (bitsz (outb c) (vo_word c (vi_buffer s) (vi_consum s))) else []) ++
     tk (vi_buffer s) (vi_consum s - dv) (vi_end s) = tk (vi_buffer s) (vi_consum s) (vi_end s)).
  { unfold dv in *. destruct dec; [|rewrite Z.sub_0_r; reflexivity].
    specialize (Hd1 eq_refl). destruct (vo_word_ge c (vi_buffer s) (vi_consum s) Hc ltac:(lia)) as [_ ->].
    replace (vi_consum s) with (outb c + (vi_consum s - outb c)) at 3 by lia.
    destruct Hc as (Hc1 & Hc2 & Hc3).
    rewrite tk_split by lia. unfold tk at 2. rewrite app_nil_r. reflexivity. }
  rewrite <- Hdec. rewrite <- app_assoc. f_equal.
  unfold iv in *. destruct (vi_inc s) eqn:Ei.
  - destruct (Hinc eq_refl) as (X1 & _). rewrite (Hie eq_refl). apply (inc_tk c); [lia|assumption|lia].
  - rewrite Z.add_0_r, app_nil_r. reflexivity.
Qed.

Lemma vi_step_ok c s enc ctr e valid dec : vb_ok c -> vi_inv c s ->
  (valid = true -> iok c enc ctr) ->
  (vi_end s = true -> vi_items s = []) ->
  (dec = true -> outb c <= vi_consum s) ->
  (dec = true -> vi_end s = true -> outb c < vi_consum s) ->
  let s' := vi_step c s enc ctr e valid dec in
  vi_inv c s' /\
  (if dec then map Some (bitsz (outb c) (vo_word c (vi_buffer s) (vi_consum s))) else []) ++ vi_pend s' =
  vi_pend s ++ (if vi_latch_input s && valid then tk enc ctr e else []).
Proof.
  intros Hc I Hv He Hd1 Hd2.
  pose proof (vi_arith c s enc ctr e valid dec Hc I He Hd1 Hd2) as HA. cbv zeta in *.
  pose proof (vi_inc_items c s I) as Hinc.
  destruct I as (I1 & I2 & I3 & I4 & I5 & I6 & I7 & I8 & I9 & I10).
  destruct HA as (A1 & A2 & A3 & A4 & A5 & A6).
  unfold vi_pend. rewrite (app_assoc _ (tk (vi_buffer (vi_step c s enc ctr e valid dec)) _ _)), A6, <- !app_assoc.
  set (s' := vi_step c s enc ctr e valid dec) in *.
  assert (Hfree : forall k, vi_state s = VI_INPUT -> k <= vi_free s -> vi_start s = true -> k <= vi_free s').
  { intros k E Hk Hs. specialize (I4 Hs).
    assert (vi_inc s = false) as Ei by (unfold vi_inc; rewrite E; reflexivity). rewrite Ei in A4.
    assert (0 <= (if dec then outb c else 0)) by (destruct Hc as (?&?&?); destruct dec; lia). lia. }
  assert (Hgoal : 
    (vi_latch_input s' = match vi_state s' with VI_REGISTER | VI_BURST => true | _ => false end) /\
    (vi_state s' = VI_REGISTER -> vi_valid_reg s' = false) /\
    (vi_state s' = VI_CLEAN -> vi_ctr_reg s' <= vi_free s') /\
    (vi_state s' = VI_CLEAN \/ vi_valid_reg s' = true -> iok c (vi_reg s') (vi_ctr_reg s')) /\
    (vi_state s' = VI_CLEAN -> vi_valid_reg s' = true -> iok c (vi_buff s') (vi_ctr_buff s')) /\
    (vi_state s' = VI_INPUT -> vi_valid_buff s' = true -> iok c (vi_buff s') (vi_ctr_buff s')) /\
    (if vi_inc s then t_reg s else []) ++ vi_items s' =
      vi_items s ++ (if vi_latch_input s && valid then tk enc ctr e else [])).
  2:{ destruct Hgoal as (G1 & G2 & G3 & G4 & G5 & G6 & G7).
      split; [|rewrite G7; reflexivity].
      unfold vi_inv. repeat (split; [assumption || (rewrite A3; discriminate) || (intros _; lia) || idtac|]); try assumption. }
  clear A1 A2 A3 A4 A5 A6.
  rewrite I1. unfold vi_items. unfold vi_inc in *.
  destruct (vi_state s) eqn:E; unfold s', vi_step in *; rewrite E in *; cbn [vi_state vi_latch_input vi_valid_reg vi_valid_buff
     vi_reg vi_ctr_reg vi_end_reg vi_buff vi_ctr_buff vi_end_buff t_reg t_buff] in *.
  - (* INPUT *)
    destruct (vi_valid_buff s) eqn:Eb.
    + assert (Hs : vi_start s = true).
      { destruct (vi_start s); [reflexivity|]. destruct (I3 eq_refl) as (_ & X & _). congruence. }
      cbn [andb]. destruct (vi_ctr_buff s <=? vi_free s) eqn:Ec.
      * rewrite I1. split; [reflexivity|]. split; [discriminate|].
        split; [intros _; apply Hfree; [reflexivity|lia|assumption]|].
        split; [intros _; apply I9; reflexivity|].
        split; [intros _ X; apply I7; right; exact X|]. split; [discriminate|].
        unfold t_reg, t_buff. cbn. rewrite app_nil_r. reflexivity.
      * rewrite I1. split; [reflexivity|]. split; [discriminate|]. split; [discriminate|].
        split; [intros [X|X]; [discriminate|apply I7; right; exact X]|]. split; [discriminate|].
        split; [intros _ _; apply I9; reflexivity|]. unfold t_reg, t_buff. cbn. rewrite app_nil_r. reflexivity.
    + cbn [andb app]. destruct (vi_valid_reg s) eqn:Er.
      * split; [reflexivity|]. split; [discriminate|]. split; [discriminate|].
        split; [intros _; apply I7; right; reflexivity|]. split; [discriminate|]. split; [discriminate|].
        unfold t_reg. cbn. rewrite app_nil_r. reflexivity.
      * split; [reflexivity|]. split; [reflexivity|]. split; [discriminate|].
        split; [intros [X|X]; discriminate|]. split; [discriminate|]. split; [discriminate|]. reflexivity.
  - (* CLEAN *)
    destruct (vi_valid_reg s) eqn:Er.
    + split; [reflexivity|]. split; [discriminate|]. split; [discriminate|].
      split; [intros _; apply I8; reflexivity|]. split; [discriminate|]. split; [discriminate|].
      unfold t_reg, t_buff. cbn. rewrite app_nil_r. reflexivity.
    + split; [reflexivity|]. split; [reflexivity|]. split; [discriminate|].
      split; [intros [X|X]; discriminate|]. split; [discriminate|]. split; [discriminate|].
      unfold t_reg, t_buff. cbn. rewrite !app_nil_r. reflexivity.
  - (* REGISTER *)
    split; [rewrite I1; reflexivity|]. split; [discriminate|]. split; [discriminate|].
    split; [intros [X|X]; [discriminate|apply Hv; exact X]|]. split; [discriminate|]. split; [discriminate|].
    unfold t_reg. cbn. reflexivity.
  - (* BURST *)
    destruct (vi_valid_reg s) eqn:Er; cbn [andb negb].
    + destruct (vi_ctr_reg s <=? vi_free s) eqn:Ec; cbn [andb negb].
      * split; [reflexivity|]. split; [discriminate|]. split; [discriminate|].
        split; [intros [X|X]; [discriminate|apply Hv; exact X]|]. split; [discriminate|]. split; [discriminate|].
        unfold t_reg. cbn. reflexivity.
      * split; [reflexivity|]. split; [discriminate|]. split; [discriminate|].
        split; [intros [X|X]; [discriminate|apply Hv; exact X]|]. split; [discriminate|].
        split; [intros _ _; apply I7; right; reflexivity|].
        unfold t_reg, t_buff. cbn. reflexivity.
    + split; [rewrite I1; reflexivity|]. split; [discriminate|]. split; [discriminate|].
      split; [intros [X|X]; [discriminate|apply Hv; exact X]|]. split; [discriminate|]. split; [discriminate|].
      unfold t_reg. cbn. reflexivity.
Qed.

(* ---- whole packer ---- *)

(* tokens produced by one clock edge *)
Definition vb_emit (c : config) (s : vb_st) (busy : bool) : list tok :=
  if vo_dec c (vb_out s) (vi_consum (vb_in s)) (vi_end (vb_in s)) busy then
    if vo_fin c (vi_consum (vb_in s)) (vi_end (vb_in s))
    then tk (vi_buffer (vb_in s)) (vi_consum (vb_in s)) true
    else map Some (bitsz (outb c) (vo_word c (vi_buffer (vb_in s)) (vi_consum (vb_in s))))
  else [].

(* tokens inside, provided the last word has not been produced *)
Definition vb_pend (s : vb_st) : list tok :=
  match vo_state (vb_out s) with VO_END => [] | _ => vi_pend (vb_in s) end.

Definition vb_inv (c : config) (s : vb_st) : Prop :=
  vo_inv (vb_out s) /\ (vo_state (vb_out s) <> VO_END -> vi_inv c (vb_in s)).

Lemma vb_inv_init c : vb_ok c -> vb_inv c vb_init.
Proof. intros H. split; [cbn; auto|]. intros _. apply vi_inv_init. assumption. Qed.

Lemma vb_step_ok c s enc ctr e valid busy : vb_ok c -> vb_inv c s ->
  (valid = true -> iok c enc ctr) ->
  (vo_state (vb_out s) <> VO_END -> vi_end (vb_in s) = true -> vi_items (vb_in s) = []) ->
  let s' := vb_step c s enc ctr e valid busy in
  vb_inv c s' /\
  (vo_state (vb_out s') <> VO_END ->
   vb_emit c s busy ++ vb_pend s' =
     vb_pend s ++ (if vi_latch_input (vb_in s) && valid then tk enc ctr e else [])) /\
  (vo_state (vb_out s) <> VO_END -> vo_state (vb_out s') = VO_END -> vb_emit c s busy = vb_pend s).
Proof.
  intros Hc [Io Ii] Hv He. cbv zeta.
  unfold vb_inv, vb_step, vb_emit, vb_pend; cbn [vb_in vb_out].
  set (i := vb_in s) in *. set (o := vb_out s) in *.
  pose proof (vo_inv_step c o (vi_buffer i) (vi_consum i) (vi_end i) busy Io) as Io'.
  destruct (vo_dec c o (vi_consum i) (vi_end i) busy) eqn:Ed.
  - (* a word is produced *)
    assert (Hne : vo_state o <> VO_END) by (intros X; unfold vo_dec in Ed; rewrite X in Ed; discriminate).
    specialize (Ii Hne). specialize (He Hne).
    replace (match vo_state o with VO_END => [] | _ => vi_pend i end) with (vi_pend i)
      by (destruct (vo_state o); congruence).
    destruct (vo_fin c (vi_consum i) (vi_end i)) eqn:Ef.
    + (* last word *)
      unfold vo_step in *. rewrite Ed in *. unfold vo_fin in Ef. rewrite Ef in *. cbn [vo_state] in *.
      split; [split; [assumption|congruence]|]. split; [congruence|]. intros _ _.
      apply andb_prop in Ef. destruct Ef as [Ef1 Ef2]. unfold vi_pend. rewrite (He Ef2), app_nil_r, Ef2. reflexivity.
    + assert (Hge : outb c <= vi_consum i).
      { unfold vo_dec in Ed. unfold vo_fin in Ef. destruct (vo_state o); [| |congruence].
        - rewrite Ef, orb_false_r in Ed. unfold vo_ge in Ed. lia.
        - apply andb_prop in Ed. destruct Ed as [_ Ed]. unfold vo_ge in Ed. lia. }
      assert (Hgt : vi_end i = true -> outb c < vi_consum i).
      { intros X. unfold vo_fin, vo_le in Ef. rewrite X, andb_true_r in Ef. lia. }
      destruct (vi_step_ok c i enc ctr e valid true Hc Ii Hv He (fun _ => Hge) (fun _ => Hgt)) as [J1 J2].
      unfold vo_step in *. rewrite Ed in *. unfold vo_fin in Ef. rewrite Ef in *. cbn [vo_state] in *.
      split; [split; [assumption|intros _; exact J1]|]. split; [|discriminate]. intros _. exact J2.
  - assert (Hst : vo_state (vo_step c o (vi_buffer i) (vi_consum i) (vi_end i) busy) <> VO_END -> vo_state o <> VO_END).
    { unfold vo_step. rewrite Ed. destruct (vo_state o) eqn:Eo; [discriminate|discriminate|]. rewrite Eo. auto. }
    assert (Hst2 : vo_state o <> VO_END -> vo_state (vo_step c o (vi_buffer i) (vi_consum i) (vi_end i) busy) <> VO_END).
    { unfold vo_step. rewrite Ed. destruct (vo_state o) eqn:Eo; [rewrite Eo; auto| |congruence].
      intros _. destruct busy; [rewrite Eo|]; discriminate. }
    split; [split; [assumption|]|split].
    + intros H. destruct (vi_step_ok c i enc ctr e valid false Hc (Ii (Hst H)) Hv (He (Hst H))) as [J1 J2]; try discriminate.
      exact J1.
    + intros H. destruct (vi_step_ok c i enc ctr e valid false Hc (Ii (Hst H)) Hv (He (Hst H))) as [J1 J2]; try discriminate.
      destruct (vo_state (vo_step c o _ _ _ _)) eqn:E1; destruct (vo_state o) eqn:E2; try (exfalso; apply (Hst H); reflexivity); try congruence; exact J2.
    + intros H1 H2. exfalso. apply (Hst2 H1 H2).
Qed.
