(* C39: b64_b32, and C49: axihp_fifo. *)
From Verif Require Import Bits Spec M_Predictor M_SyncFifo P_SyncFifo.
Ltac Zify.zify_post_hook ::= idtac.

(* ------------------------------------------------------------------ b64_b32 *)

(* the upper half, then the lower half of a 64-bit word *)
Definition halves (w : Z) : list Z := [w / 2 ^ 32 mod 2 ^ 32; w mod 2 ^ 32].
Definition bin64 (i : b32_in) : Prop := 0 <= bi_data i < 2 ^ 64.
Definition bfirst_idle (l : list b32_in) : Prop := match l with [] => True | i :: _ => bi_valid i = false end.

Definition b32_mid (s : b32_st) : list Z := if b32_part2 s then [b32_din32 s; b32_buff s] else if b32_we32 s then [b32_din32 s] else [].
Definition b32_pend (s : b32_st) : list Z := match b32_fsm s with B32_IDLE => if b32_we64 s then [b32_din64 s] else [] | B32_FILL => [] | B32_REG => [b32_reg s] end.
Definition b32_inv (A D : list Z) (s : b32_st) (Q : list Z) : Prop :=
  sf_inv 2 (b32_f64 s) /\ sf_inv 4 (b32_f32 s) /\
  (if b32_re64 s then exists x, sq 2 (b32_f64 s) = x :: Q else sq 2 (b32_f64 s) = Q) /\
  flat_map halves A = D ++ sq 4 (b32_f32 s) ++ b32_mid s ++ flat_map halves (Q ++ b32_pend s) /\
  b32_busy s = match b32_fsm s with B32_FILL => false | _ => true end /\
  (b32_we64 s = true -> b32_fsm s = B32_IDLE /\ (length (sq 2 (b32_f64 s)) <= 1)%nat) /\
  (b32_re64 s = true -> b32_part2 s = true) /\
  (b32_part2 s = true -> b32_we32 s = true).

Lemma halves_slices w : halves w = [slice 32 64 w; slice 0 32 w].
Proof. unfold halves, slice. change (2 ^ 0) with 1. rewrite Z.div_1_r. reflexivity. Qed.

Lemma b32_inv_step A D s Q i : bin64 i -> b32_inv A D s Q -> exists Q', b32_inv (A ++ b32_acc s i) (D ++ b32_del s i) (b32_step s i) Q'.
Proof.
  intros Hi (I64 & I32 & HQ & HA & Hb & Hw & Hr & Hp).
  assert (T : trunc 64 (bi_data i) = bi_data i) by (apply trunc_id; exact Hi).
  destruct (sf_step_ok 2 (b32_f64 s) (b32_we64 s) (b32_din64 s) (b32_re64 s) ltac:(lia) I64) as [J64 E64].
  destruct (sf_step_ok 4 (b32_f32 s) (b32_we32 s) (b32_din32 s) (negb (bi_busy i)) ltac:(lia) I32) as [J32 E32].
  pose proof (sf_readable_q 2 _ I64) as R64. pose proof (sf_readable_q 4 _ I32) as R32. pose proof (sf_writable_q 2 _ I64) as W64. pose proof (sf_writable_q 4 _ I32) as W32.
  pose proof (sf_dout_q 2 (b32_f64 s)) as D64. pose proof (sf_dout_q 4 (b32_f32 s)) as D32.
  unfold b32_acc, b32_del, b32_valid, b32_data. rewrite R32.
  destruct s as [fsm we64 din64 reg busy part2 we32 din32 buff re64 f64 f32].
  unfold b32_inv, b32_step, b32_mid, b32_pend in *. cbn [b32_fsm b32_we64 b32_din64 b32_reg b32_busy b32_part2 b32_we32 b32_din32 b32_buff b32_re64 b32_f64 b32_f32] in *.
  rewrite T, R64 in *. clear T R64 R32.
  set (f64' := sf_step 2 f64 we64 din64 re64) in *. set (f32' := sf_step 4 f32 we32 din32 (negb (bi_busy i))) in *. clearbody f64' f32'.
  rewrite E64, E32. 
  (* what fifo32 does *)
  assert (K32 : forall P, (if match sq 4 f32 with [] => false | _ => true end && negb (bi_busy i) then [sf_dout f32] else []) ++ (if negb (bi_busy i) then tl (sq 4 f32) else sq 4 f32) ++ P = sq 4 f32 ++ P).
  { intros P. destruct (sq 4 f32) as [|x r] eqn:Eq; destruct (bi_busy i); cbn; try reflexivity. rewrite (D32 x r I32 eq_refl). reflexivity. }
  (* what fifo64's write side does: the writes arrive *)
  assert (Kw : we64 && sf_writable 2 f64 = we64).
  { destruct we64; [|reflexivity]. destruct (Hw eq_refl) as [_ L]. rewrite W64. cbn [andb]. apply Z.ltb_lt. lia. }
  rewrite Kw in *.
  (* the queue of 64-bit words seen by the splitter *)
  assert (KQ : (if re64 then tl (sq 2 f64) else sq 2 f64) = Q) by (destruct re64; [destruct HQ as [x ->]; reflexivity|exact HQ]). rewrite KQ in *.
  assert (Wq : we64 = false -> sf_writable 2 f64 = true -> (length (Q ++ (if we64 then [din64] else [])) <= 1)%nat).
  { intros -> Hx. rewrite W64 in Hx. apply Z.ltb_lt in Hx. rewrite app_nil_r, <- KQ. destruct re64; [destruct (sq 2 f64); cbn [tl length] in *; lia|lia]. }
  assert (HA' : flat_map halves (A ++ (if bi_valid i && negb busy then [bi_data i] else [])) =
     D ++ sq 4 f32 ++ (if part2 then [din32; buff] else if we32 then [din32] else []) ++
       flat_map halves ((Q ++ (if we64 then [din64] else [])) ++ (match fsm with B32_FILL => if bi_valid i then [bi_data i] else [] | B32_REG => [reg] | B32_IDLE => [] end))).
  { rewrite flat_map_app, HA, !flat_map_app, <- !app_assoc. do 4 f_equal. subst busy.
    destruct fsm; (destruct we64; [try (destruct (Hw eq_refl); discriminate)|]); destruct (bi_valid i); cbn [negb andb app flat_map]; rewrite ?app_nil_r; reflexivity. }
  rewrite HA'. clear HA HA'.
  (* the splitter *)
  set (Q1 := Q ++ (if we64 then [din64] else [])) in *.
  set (go := sf_writable 4 f32 && match sq 2 f64 with [] => false | _ => true end) in *.
  assert (G : exists Q',
    (if (if part2 then false else if go then true else re64) then exists x, Q1 = x :: Q' else Q1 = Q') /\
    forall E, (D ++ sq 4 f32 ++ (if part2 then [din32; buff] else if we32 then [din32] else []) ++ flat_map halves (Q1 ++ E)) =
      (D ++ (if match sq 4 f32 with [] => false | _ => true end && negb (bi_busy i) then [sf_dout f32] else [])) ++
      ((if negb (bi_busy i) then tl (sq 4 f32) else sq 4 f32) ++ (if we32 && sf_writable 4 f32 then [din32] else [])) ++
      (if (if part2 then negb (sf_writable 4 f32) else go)
       then [if part2 then if sf_writable 4 f32 then buff else din32 else if go then slice 32 64 (sf_dout f64) else din32;
             if part2 then buff else if go then slice 0 32 (sf_dout f64) else buff]
       else if (if part2 then we32 else if go then true else if sf_writable 4 f32 then false else we32) 
            then [if part2 then if sf_writable 4 f32 then buff else din32 else if go then slice 32 64 (sf_dout f64) else din32] else []) ++
      flat_map halves (Q' ++ E)).
  { destruct part2.
    - specialize (Hp eq_refl). subst we32. exists Q1. split; [reflexivity|]. intros E. rewrite <- !app_assoc. f_equal.
      rewrite K32. f_equal. destruct (sf_writable 4 f32); reflexivity.
    - destruct re64; [specialize (Hr eq_refl); discriminate|]. destruct go eqn:Eg.
      + unfold go in Eg. apply andb_prop in Eg. destruct Eg as [Eg1 Eg2]. destruct (sq 2 f64) as [|x r] eqn:E64q; [discriminate|]. subst Q.
        exists (r ++ (if we64 then [din64] else [])). split; [exists x; reflexivity|]. intros E. rewrite <- !app_assoc. f_equal. rewrite K32. f_equal. rewrite Eg1, andb_true_r.
        rewrite (D64 x r I64 eq_refl). unfold Q1. cbn [app flat_map]. rewrite halves_slices. destruct we32; rewrite <- ?app_assoc; reflexivity.
      + exists Q1. split; [reflexivity|]. intros E. rewrite <- !app_assoc. f_equal. rewrite K32. f_equal. destruct we32, (sf_writable 4 f32); reflexivity. }
  destruct G as (Q' & G1 & G2). exists Q'. split; [exact J64|]. split; [exact J32|]. split; [exact G1|]. split.
  { rewrite G2. do 5 f_equal. destruct fsm, (bi_valid i), (sf_writable 2 f64); cbn [andb negb]; try reflexivity. }
  split; [subst busy; destruct fsm; try (destruct (bi_valid i)); try (destruct (sf_writable 2 f64)); reflexivity|].
  split.
  { intros H. destruct fsm; try discriminate.
    - destruct we64; [destruct (Hw eq_refl); discriminate|]. destruct (bi_valid i), (sf_writable 2 f64) eqn:Ew; try discriminate. split; [reflexivity|]. apply Wq; reflexivity.
    - destruct we64; [destruct (Hw eq_refl); discriminate|]. destruct (sf_writable 2 f64) eqn:Ew; try discriminate. split; [reflexivity|]. apply Wq; reflexivity. }
  split; [destruct part2; [discriminate|]; destruct go; [reflexivity|exact Hr]|].
  destruct part2; [intros; apply Hp; reflexivity|]. destruct go; [reflexivity|discriminate].
Qed.

Lemma b32_run_inv : forall l A D s Q, Forall bin64 l -> b32_inv A D s Q -> exists Q', b32_inv (A ++ b32_accepted s l) (D ++ b32_delivered s l) (b32_run s l) Q'.
Proof.
  induction l as [|i l IH]; intros A D s Q HF I; cbn [b32_accepted b32_delivered b32_run]; [exists Q; rewrite !app_nil_r; exact I|].
  apply Forall_cons_iff in HF. destruct HF as [Hi HF]. destruct (b32_inv_step A D s Q i Hi I) as [Q' I']. rewrite !app_assoc. apply (IH _ _ _ Q'); assumption.
Qed.
Lemma b32_inv_first st64 st32 i : len st64 = 2 -> len st32 = 4 -> b32_inv [] [] (b32_step (b32_init st64 st32) i) [].
Proof.
  intros H1 H2. unfold len in *. unfold b32_inv. cbn [b32_step b32_init b32_fsm b32_we64 b32_din64 b32_reg b32_busy b32_part2 b32_we32 b32_din32 b32_buff b32_re64 b32_f64 b32_f32].
  destruct (sf_reset_inv 2 st64 ltac:(lia) H1) as [A1 A2]. destruct (sf_reset_inv 4 st32 ltac:(lia) H2) as [B1 B2].
  destruct (sf_step_ok 2 _ false 0 false ltac:(lia) A1) as [A3 A4]. destruct (sf_step_ok 4 _ false 0 (negb (bi_busy i)) ltac:(lia) B1) as [B3 B4]. rewrite A2, B2 in *.
  split; [exact A3|]. split; [exact B3|]. split; [exact A4|]. split; [rewrite B4; destruct (negb (bi_busy i)); reflexivity|]. repeat split; intros; try discriminate.
Qed.
Lemma b32_from_reset st64 st32 i l : len st64 = 2 -> len st32 = 4 -> Forall bin64 (i :: l) ->
  exists Q, b32_inv (b32_accepted (b32_step (b32_init st64 st32) i) l) (b32_delivered (b32_init st64 st32) (i :: l)) (b32_run (b32_init st64 st32) (i :: l)) Q.
Proof.
  intros H1 H2 HF. apply Forall_cons_iff in HF. destruct HF as [_ HF].
  destruct (b32_run_inv l [] [] _ [] HF (b32_inv_first st64 st32 i H1 H2)) as [Q I]. exists Q. cbn [app] in I. cbn [b32_run b32_delivered].
  assert (E : b32_del (b32_init st64 st32) i = []) by reflexivity. rewrite E. exact I.
Qed.
Definition b32_held (s : b32_st) (Q : list Z) : list Z := sq 4 (b32_f32 s) ++ b32_mid s ++ flat_map halves (Q ++ b32_pend s).
Lemma flat_halves_len l : length (flat_map halves l) = (2 * length l)%nat.
Proof. induction l as [|a l IH]; [reflexivity|]. cbn [flat_map length]. rewrite app_length, IH. cbn. lia. Qed.
Lemma b32_held_len A D s Q : b32_inv A D s Q -> (length (b32_held s Q) <= 12)%nat.
Proof.
  intros (I64 & I32 & HQ & _ & _ & _ & _). unfold b32_held. rewrite !app_length, flat_halves_len, app_length.
  pose proof (sq_length 2 _ I64) as L1. pose proof (sq_length 4 _ I32) as L2. destruct I64 as (_ & _ & B1 & _). destruct I32 as (_ & _ & B2 & _).
  assert (LQ : (length Q <= 2)%nat) by (destruct (b32_re64 s); [destruct HQ as [x HQ]; rewrite HQ in L1; cbn [length] in L1|rewrite <- HQ]; lia).
  assert (M : (length (b32_mid s) <= 2)%nat) by (unfold b32_mid; destruct (b32_part2 s), (b32_we32 s); cbn; lia).
  assert (N : (length (b32_pend s) <= 1)%nat) by (unfold b32_pend; destruct (b32_fsm s), (b32_we64 s); cbn; lia).
  lia.
Qed.

(* C39.  For every source and every consumer (nothing offered in the first cycle): the 32-bit words delivered so far,
   followed by at most twelve words still inside, are the two halves (upper half first) of every accepted
   64-bit word, in order.  The contents of the two memories after power up do not matter. *)
Theorem C39_splitting : forall st64 st32 l, len st64 = 2 -> len st32 = 4 -> Forall bin64 l -> bfirst_idle l ->
  exists held, flat_map halves (b32_accepted (b32_init st64 st32) l) = b32_delivered (b32_init st64 st32) l ++ held /\ (length held <= 12)%nat.
Proof.
  intros st64 st32 [|i l] H1 H2 HF Hf; [exists []; split; [reflexivity|cbn; lia]|]. destruct (b32_from_reset st64 st32 i l H1 H2 HF) as [Q I].
  exists (b32_held (b32_run (b32_init st64 st32) (i :: l)) Q). split; [|exact (b32_held_len _ _ _ _ I)].
  destruct I as (_ & _ & _ & I & _). cbn [bfirst_idle] in Hf. cbn [b32_accepted]. unfold b32_acc at 1. rewrite Hf. exact I.
Qed.

(* C39.  A word offered in the first cycle is accepted (o_busy is low) but lost. *)
Theorem C39_first_word_lost : forall st64 st32 i l, len st64 = 2 -> len st32 = 4 -> Forall bin64 (i :: l) -> bi_valid i = true ->
  let A := b32_accepted (b32_init st64 st32) (i :: l) in
  hd 0 A = bi_data i /\ exists held, flat_map halves (tl A) = b32_delivered (b32_init st64 st32) (i :: l) ++ held /\ (length held <= 12)%nat.
Proof.
  intros st64 st32 i l H1 H2 HF Hv A. unfold A. cbn [b32_accepted]. unfold b32_acc. rewrite Hv. cbn [b32_init b32_busy andb negb app hd tl]. split; [reflexivity|].
  destruct (b32_from_reset st64 st32 i l H1 H2 HF) as [Q I]. exists (b32_held (b32_run (b32_init st64 st32) (i :: l)) Q). split; [|exact (b32_held_len _ _ _ _ I)].
  destruct I as (_ & _ & _ & I & _). exact I.
Qed.

(* C39.  An offered output word is held unchanged until it is taken. *)
Theorem C39_stable : forall st64 st32 l i, len st64 = 2 -> len st32 = 4 -> Forall bin64 (l ++ [i]) ->
  let s := b32_run (b32_init st64 st32) l in
  b32_valid s = true -> bi_busy i = true -> b32_valid (b32_step s i) = true /\ b32_data (b32_step s i) = b32_data s.
Proof.
  intros st64 st32 l i H1 H2 HF s Hv Hb. apply Forall_app in HF. destruct HF as [HF _]. destruct l as [|i0 l]; [discriminate|].
  destruct (b32_from_reset st64 st32 i0 l H1 H2 HF) as [Q (_ & I & _)]. fold s in I. clearbody s. unfold b32_valid, b32_data, b32_step in *. cbn [b32_f32].
  destruct (sf_step_ok 4 (b32_f32 s) (b32_we32 s) (b32_din32 s) (negb (bi_busy i)) ltac:(lia) I) as [J E]. rewrite Hb in *. cbn [negb] in *.
  rewrite (sf_readable_q 4 _ I) in Hv. destruct (sq 4 (b32_f32 s)) as [|x r] eqn:Eq; [discriminate|]. cbn [app] in E.
  rewrite (sf_readable_q 4 _ J), E. split; [reflexivity|]. rewrite (sf_dout_q 4 _ _ _ J E). symmetry. exact (sf_dout_q 4 _ _ _ I Eq).
Qed.

(* C39.  Nothing gets stuck: after 25 cycles without input and without back-pressure everything accepted has been delivered. *)
Definition bdrain (i : b32_in) : Prop := bi_valid i = false /\ bi_busy i = false.
Definition b32_mu (s : b32_st) (Q : list Z) : nat :=
  (length (sq 4 (b32_f32 s)) + 2 * length (b32_mid s) + 5 * length Q + match b32_fsm s with B32_IDLE => if b32_we64 s then 6 else 0 | B32_FILL => 0 | B32_REG => 7 end)%nat.
Lemma b32_mu_zero A D s Q : b32_inv A D s Q -> b32_mu s Q = 0%nat -> b32_held s Q = [].
Proof.
  intros _ H. unfold b32_mu, b32_held, b32_pend in *. destruct (sq 4 (b32_f32 s)); [|cbn [length] in H; lia]. destruct (b32_mid s); [|cbn [length] in H; lia].
  destruct Q; [|cbn [length] in H; lia]. destruct (b32_fsm s), (b32_we64 s); try reflexivity; lia.
Qed.
Lemma b32_mu_step A D s Q A' D' Q' i : bdrain i -> b32_inv A D s Q -> b32_inv A' D' (b32_step s i) Q' -> (b32_mu (b32_step s i) Q' <= pred (b32_mu s Q))%nat.
Proof.
  intros [Ei Eb] (I64 & I32 & HQ & _ & Hb & Hw & Hr & Hp) (_ & _ & HQ' & _).
  destruct (sf_step_ok 2 (b32_f64 s) (b32_we64 s) (b32_din64 s) (b32_re64 s) ltac:(lia) I64) as [J64 E64].
  destruct (sf_step_ok 4 (b32_f32 s) (b32_we32 s) (b32_din32 s) (negb (bi_busy i)) ltac:(lia) I32) as [J32 E32].
  pose proof (sf_readable_q 2 _ I64) as R64. pose proof (sf_writable_q 2 _ I64) as W64. pose proof (sf_writable_q 4 _ I32) as W32.
  destruct s as [fsm we64 din64 reg busy part2 we32 din32 buff re64 f64 f32]. unfold b32_mu, b32_step, b32_mid in *.
  cbn [b32_fsm b32_we64 b32_din64 b32_reg b32_busy b32_part2 b32_we32 b32_din32 b32_buff b32_re64 b32_f64 b32_f32] in *.
  rewrite E32, Ei, Eb in *. rewrite E64 in HQ'. cbn [negb andb] in *.
  assert (Kw : we64 && sf_writable 2 f64 = we64).
  { destruct we64; [|reflexivity]. destruct (Hw eq_refl) as [_ L]. rewrite W64. cbn [andb]. apply Z.ltb_lt. lia. }
  assert (KQ : (if re64 then tl (sq 2 f64) else sq 2 f64) = Q) by (destruct re64; [destruct HQ as [x ->]; reflexivity|exact HQ]). rewrite Kw, KQ in *.
  rewrite app_length. destruct (sq 4 f32) as [|y q32] eqn:E32q.
  - (* fifo32 empty: something else moves *)
    assert (W : sf_writable 4 f32 = true) by (rewrite W32; reflexivity). rewrite W in *. cbn [andb negb tl length] in *. rewrite andb_true_r.
    destruct part2.
    + rewrite (Hp eq_refl) in *. cbn [negb] in *. subst Q'. destruct fsm, we64; try (destruct (Hw eq_refl); discriminate); destruct (sf_writable 2 f64); cbn [length app]; rewrite ?app_length; cbn [length]; lia.
    + destruct re64; [specialize (Hr eq_refl); discriminate|]. rewrite R64 in *. rewrite <- KQ in *. destruct (sq 2 f64) as [|x q64] eqn:E64q.
      * subst Q'. assert (W2 : sf_writable 2 f64 = true) by (rewrite W64; reflexivity). rewrite W2.
        destruct fsm, we64, we32; try (destruct (Hw eq_refl); discriminate); cbn [length app]; lia.
      * destruct HQ' as [x' HQ']. cbn [app] in HQ'. injection HQ' as _ <-. rewrite app_length.
        destruct fsm, we64, we32; try (destruct (Hw eq_refl); discriminate); destruct (sf_writable 2 f64); cbn [length app]; lia.
  - (* fifo32 delivers a word; the other moves do not increase the measure *)
    cbn [tl length] in *. rewrite R64 in *.
    destruct part2.
    + rewrite (Hp eq_refl) in *. subst Q'. rewrite app_length. destruct (sf_writable 4 f32), fsm, we64; try (destruct (Hw eq_refl); discriminate); destruct (sf_writable 2 f64); cbn [length negb andb]; lia.
    + destruct re64; [specialize (Hr eq_refl); discriminate|]. rewrite <- KQ in *. destruct (sf_writable 4 f32); cbn [andb] in *.
      * destruct (sq 2 f64) as [|x q64] eqn:E64q.
        -- subst Q'. destruct fsm, we64, we32; try (destruct (Hw eq_refl); discriminate); destruct (sf_writable 2 f64); cbn [length app andb]; lia.
        -- destruct HQ' as [x' HQ']. cbn [app] in HQ'. injection HQ' as _ <-. rewrite app_length.
           destruct fsm, we64, we32; try (destruct (Hw eq_refl); discriminate); destruct (sf_writable 2 f64); cbn [length app andb]; lia.
      * subst Q'. rewrite app_length. destruct fsm, we64, we32; try (destruct (Hw eq_refl); discriminate); destruct (sf_writable 2 f64); cbn [length app andb]; lia.
Qed.
Lemma b32_mu_bound A D s Q : b32_inv A D s Q -> (b32_mu s Q <= 25)%nat.
Proof.
  intros (I64 & I32 & HQ & _ & _ & Hw & _). unfold b32_mu.
  pose proof (sq_length 2 _ I64) as L1. pose proof (sq_length 4 _ I32) as L2. destruct I64 as (_ & _ & B1 & _). destruct I32 as (_ & _ & B2 & _).
  assert (LQ : (length Q <= 2)%nat) by (destruct (b32_re64 s); [destruct HQ as [x HQ]; rewrite HQ in L1; cbn [length] in L1|rewrite <- HQ]; lia).
  assert (M : (length (b32_mid s) <= 2)%nat) by (unfold b32_mid; destruct (b32_part2 s), (b32_we32 s); cbn; lia).
  destruct (b32_fsm s), (b32_we64 s); lia.
Qed.
Theorem C39_drains : forall st64 st32 l l', len st64 = 2 -> len st32 = 4 -> Forall bin64 (l ++ l') -> bfirst_idle (l ++ l') -> Forall bdrain l' -> (26 <= length l')%nat ->
  let s0 := b32_init st64 st32 in b32_delivered s0 (l ++ l') = flat_map halves (b32_accepted s0 l).
Proof.
  intros st64 st32 l l' H1 H2 HF Hf Hd Hl s0.
  assert (N : b32_accepted s0 (l ++ l') = b32_accepted s0 l).
  { clear - Hd. revert Hd. generalize s0 as s. induction l as [|i l IH]; intros s Hd; cbn [app b32_accepted].
    - revert s. induction l' as [|i l' IH]; intros s; [reflexivity|]. apply Forall_cons_iff in Hd. destruct Hd as [[D1 _] Hd]. cbn [b32_accepted]. unfold b32_acc. rewrite D1. apply IH, Hd.
    - rewrite IH by exact Hd. reflexivity. }
  assert (K : forall l' s A D Q, Forall bin64 l' -> Forall bdrain l' -> b32_inv A D s Q -> (b32_mu s Q <= length l')%nat ->
     exists Q', b32_inv (A ++ b32_accepted s l') (D ++ b32_delivered s l') (b32_run s l') Q' /\ b32_mu (b32_run s l') Q' = 0%nat).
  { clear. induction l' as [|i l' IH]; intros s A D Q HF Hd I Hm; cbn [length b32_run b32_accepted b32_delivered] in *; [exists Q; rewrite !app_nil_r; split; [exact I|lia]|].
    apply Forall_cons_iff in HF. destruct HF as [F1 HF]. apply Forall_cons_iff in Hd. destruct Hd as [D1 Hd].
    destruct (b32_inv_step A D s Q i F1 I) as [Q1 I1]. pose proof (b32_mu_step _ _ _ _ _ _ _ i D1 I I1).
    destruct (IH _ _ _ Q1 HF Hd I1 ltac:(lia)) as (Q' & J1 & J2). exists Q'. rewrite <- !app_assoc in J1. auto. }
  assert (G : exists Q, b32_inv (b32_accepted s0 (l ++ l')) (b32_delivered s0 (l ++ l')) (b32_run s0 (l ++ l')) Q /\ b32_mu (b32_run s0 (l ++ l')) Q = 0%nat).
  { destruct l as [|i l].
    - cbn [app] in *. destruct l' as [|i l']; [cbn in Hl; lia|]. cbn [b32_accepted b32_delivered b32_run length] in *. apply Forall_cons_iff in HF. destruct HF as [F1 HF]. apply Forall_cons_iff in Hd. destruct Hd as [[D1 D2] Hd].
      assert (E1 : b32_acc s0 i = []) by (unfold b32_acc; rewrite D1; reflexivity). assert (E2 : b32_del s0 i = []) by reflexivity. rewrite E1, E2.
      pose proof (b32_inv_first st64 st32 i H1 H2) as I0. exact (K l' _ _ _ _ HF Hd I0 ltac:(pose proof (b32_mu_bound _ _ _ _ I0); lia)).
    - cbn [app] in *. rewrite app_comm_cons in HF. apply Forall_app in HF. destruct HF as [HF1 HF2]. destruct (b32_from_reset st64 st32 i l H1 H2 HF1) as [Q I0].
      destruct (K l' _ _ _ _ HF2 Hd I0 ltac:(pose proof (b32_mu_bound _ _ _ _ I0); lia)) as (Q' & J1 & J2). exists Q'.
      assert (R : forall l1 l2 s, b32_run s (l1 ++ l2) = b32_run (b32_run s l1) l2 /\ b32_accepted s (l1 ++ l2) = b32_accepted s l1 ++ b32_accepted (b32_run s l1) l2 /\ b32_delivered s (l1 ++ l2) = b32_delivered s l1 ++ b32_delivered (b32_run s l1) l2).
      { clear. induction l1 as [|a l1 IH]; intros l2 s; cbn [app b32_run b32_accepted b32_delivered]; [auto|]. destruct (IH l2 (b32_step s a)) as (-> & -> & ->). rewrite !app_assoc. auto. }
      rewrite app_comm_cons. destruct (R (i :: l) l' s0) as (-> & -> & ->). split; [|exact J2].
      cbn [bfirst_idle] in Hf. cbn [b32_accepted]. unfold b32_acc at 1. rewrite Hf. exact J1. }
  destruct G as (Q & I & Z0). pose proof (b32_mu_zero _ _ _ _ I Z0) as Hh. destruct I as (_ & _ & _ & I & _). unfold b32_held in Hh. rewrite Hh, app_nil_r in I. rewrite <- I, N. reflexivity.
Qed.

Definition bw (v : bool) (d : Z) (b : bool) : b32_in := {| bi_valid := v; bi_data := d; bi_busy := b |}.
Fixpoint bdrive (s : b32_st) (ws : list Z) (bs : list bool) : list b32_in :=
  match bs with
  | [] => []
  | b :: r => let i := bw (match ws with [] => false | _ => true end) (hd 0 ws) b in
              i :: bdrive (b32_step s i) (match b32_acc s i with [] => ws | _ => tl ws end) r
  end.
Lemma bin64_forallb l : forallb (fun i => (0 <=? bi_data i) && (bi_data i <? 2 ^ 64)) l = true -> Forall bin64 l.
Proof. intros H. apply Forall_forall. intros i Hi. rewrite forallb_forall in H. specialize (H i Hi). unfold bin64. lia. Qed.
Example C39_example :
  let s0 := b32_init [7; 8] [1; 2; 3; 4] in
  let ws := [0x1111111122222222; 0x3333333344444444; 0x5555555566666666; 0x7777777788888888; 0x99999999aaaaaaaa; 0xbbbbbbbbcccccccc; 0xddddddddeeeeeeee] in
  let l := bw false 0 true :: bdrive (b32_step s0 (bw false 0 true)) ws (repeat true 20 ++ repeat false 30) in
  Forall bin64 l /\ bfirst_idle l /\ b32_accepted s0 l = ws /\
  b32_delivered s0 l = [0x11111111; 0x22222222; 0x33333333; 0x44444444; 0x55555555; 0x66666666; 0x77777777; 0x88888888; 0x99999999; 0xaaaaaaaa; 0xbbbbbbbb; 0xcccccccc; 0xdddddddd; 0xeeeeeeee].
Proof. cbv zeta. split; [apply bin64_forallb; vm_compute; reflexivity|]. split; [reflexivity|]. split; vm_compute; reflexivity. Qed.

(* ------------------------------------------------------------------ axihp_fifo *)

Definition af_ok (i : af_in) : Prop := 0 <= af_data_in i < 2 ^ 64.
Lemma af_word_slices i : af_ok i -> slice 1 65 (af_word i) = af_data_in i /\ (slice 0 1 (af_word i) =? 1) = af_end_in i.
Proof.
  intros H. unfold af_word. rewrite trunc_id by exact H. unfold slice. change (65 - 1) with 64. change (1 - 0) with 1. change (2 ^ 1) with 2. change (2 ^ 0) with 1. rewrite Z.div_1_r.
  rewrite (Z.add_comm (af_data_in i * 2)), Z.div_add, Z.mod_add by lia. destruct (af_end_in i); cbn [b2z].
  - change (1 / 2) with 0. rewrite Z.add_0_l, Z.mod_small by exact H. auto.
  - change (0 / 2) with 0. rewrite Z.add_0_l, Z.mod_small by exact H. auto.
Qed.
(* C49.  For every sequence of writes and reads (also writes while full, reads while empty): the words read so far followed by
   the queue of at most 32 words still inside are the words written while writable, each with its end
   flag; the flags writable, readable, readable16 and writable16 are those of the queue length; when the
   queue is not empty its head is on the output. *)
Theorem C49_fifo : forall stor l, len stor = 32 -> Forall af_ok l ->
  let s0 := sf_reset stor in let s := af_run s0 l in
  exists q, af_written s0 l = af_readout s0 l ++ q /\ len q <= 32 /\
    af_writable s = (len q <? 32) /\ af_readable s = (0 <? len q) /\ af_valid_out s = (0 <? len q) /\
    af_readable16 s = (16 <=? len q) /\ af_writable16 s = (len q <=? 12) /\
    (forall d e r, q = (d, e) :: r -> af_data_out s = d /\ af_end_out s = e) /\ sf_lvl s = len q.
Proof.
  intros stor l Hs HF s0 s. unfold len in Hs.
  pose (un := fun x => (slice 1 65 x, slice 0 1 x =? 1)).
  assert (G : forall l s, Forall af_ok l -> sf_inv 32 s -> sf_inv 32 (af_run s l) /\ map un (sq 32 s) ++ af_written s l = af_readout s l ++ map un (sq 32 (af_run s l))).
  { clear. induction l as [|i l IH]; intros s HF I; cbn [af_run af_written af_readout]; [rewrite app_nil_r; auto|].
    apply Forall_cons_iff in HF. destruct HF as [F1 HF]. destruct (sf_step_ok 32 s (af_valid_in i) (af_word i) (af_read i) ltac:(lia) I) as [J E].
    destruct (IH (af_step s i) HF J) as [K1 K2]. split; [exact K1|]. rewrite <- app_assoc, <- K2, !app_assoc. f_equal. unfold af_step in *. rewrite E, map_app.
    unfold af_writable. destruct (af_word_slices i F1) as [W1 W2].
    assert (Eu : map un (if af_valid_in i && sf_writable 32 s then [af_word i] else []) = (if af_valid_in i && sf_writable 32 s then [(af_data_in i, af_end_in i)] else [])).
    { destruct (af_valid_in i && sf_writable 32 s); [|reflexivity]. cbn [map]. unfold un. rewrite W1, W2. reflexivity. }
    rewrite Eu, app_assoc. f_equal. unfold af_valid_out, af_data_out, af_end_out. rewrite (sf_readable_q 32 s I). destruct (sq 32 s) as [|x r] eqn:Eq; [destruct (af_read i); reflexivity|].
    rewrite (sf_dout_q 32 s x r I Eq). destruct (af_read i); reflexivity. }
  destruct (sf_reset_inv 32 stor ltac:(lia) Hs) as [I0 Q0]. destruct (G l s0 HF I0) as [J1 J2]. unfold s0 in J2 at 1. rewrite Q0 in J2. cbn [map app] in J2. fold s in J1, J2.
  exists (map un (sq 32 s)). split; [exact J2|]. unfold len. rewrite map_length. pose proof (sq_length 32 s J1) as L. assert (B : 0 <= sf_lvl s <= 32) by apply J1. rewrite L.
  split; [lia|]. unfold af_writable, af_readable, af_valid_out, af_readable16, af_writable16, sf_writable, sf_readable.
  repeat split; try (destruct (sf_lvl s =? 32) eqn:E1; cbn; symmetry; lia); try (destruct (sf_lvl s =? 0) eqn:E1; cbn; symmetry; lia).
  - destruct (sq 32 s) as [|x r'] eqn:Eq; [discriminate|]. unfold af_data_out. rewrite (sf_dout_q 32 s x r' J1 Eq). cbn [map] in H. injection H as H _ _. exact H.
  - destruct (sq 32 s) as [|x r'] eqn:Eq; [discriminate|]. unfold af_end_out. rewrite (sf_dout_q 32 s x r' J1 Eq). cbn [map] in H. injection H as _ H _. exact H.
Qed.
(* C49.  The two thresholds keep whole bursts of 16 together: while the writer starts a burst only when readable16 holds
   and nobody else reads, 16 words can be read; and a burst of 16 words written from writable16 on always
   fits (in fact 20 words do). *)
Theorem C49_thresholds : forall stor l b, len stor = 32 -> Forall af_ok (l ++ b) ->
  let s := af_run (sf_reset stor) l in
  (af_readable16 s = true -> Forall (fun i => af_read i = true) b -> (length b <= 16)%nat -> length (af_readout s b) = length b) /\
  (af_writable16 s = true -> Forall (fun i => af_valid_in i = true) b -> (length b <= 20)%nat -> af_written s b = map (fun i => (af_data_in i, af_end_in i)) b).
Proof.
  intros stor l b Hs HF s. unfold len in Hs. apply Forall_app in HF. destruct HF as [HF1 HF2].
  assert (I : sf_inv 32 s).
  { unfold s. destruct (sf_reset_inv 32 stor ltac:(lia) Hs) as [I0 _]. revert I0. generalize (sf_reset stor) as t. clear. induction l as [|i l IH]; intros t I0; [exact I0|]. cbn [af_run]. apply IH. apply sf_step_ok; [lia|exact I0]. }
  clearbody s. clear HF1 l. split.
  - unfold af_readable16. intros H HR HL. apply Z.leb_le in H. assert (HL' : Z.of_nat (length b) <= sf_lvl s) by lia. clear H HL. revert s I HL'. induction b as [|i b IH]; intros s I HL; [reflexivity|].
    apply Forall_cons_iff in HR. destruct HR as [R1 HR]. apply Forall_cons_iff in HF2. destruct HF2 as [F1 HF2]. cbn [af_readout length] in *. rewrite R1. unfold af_valid_out.
    assert (Er : sf_readable s = true) by (unfold sf_readable; destruct (sf_lvl s =? 0) eqn:E; [lia|reflexivity]). rewrite Er. cbn [andb app length]. f_equal.
    destruct (sf_step_ok 32 s (af_valid_in i) (af_word i) (af_read i) ltac:(lia) I) as [J _]. apply IH; auto. unfold af_step, sf_step. cbn [sf_lvl]. rewrite Er, R1. cbn [andb]. destruct (sf_writable 32 s && af_valid_in i); cbn; lia.
  - unfold af_writable16. intros H HR HL. apply Z.leb_le in H. assert (HL' : Z.of_nat (length b) + sf_lvl s <= 32) by lia. clear H HL. revert s I HL'. induction b as [|i b IH]; intros s I HL; [reflexivity|].
    apply Forall_cons_iff in HR. destruct HR as [R1 HR]. apply Forall_cons_iff in HF2. destruct HF2 as [F1 HF2]. cbn [af_written length map] in *. rewrite R1. unfold af_writable.
    assert (Er : sf_writable 32 s = true) by (unfold sf_writable; destruct (sf_lvl s =? 32) eqn:E; [lia|reflexivity]). rewrite Er. cbn [andb app]. f_equal.
    destruct (sf_step_ok 32 s (af_valid_in i) (af_word i) (af_read i) ltac:(lia) I) as [J _]. apply IH; auto. unfold af_step, sf_step. cbn [sf_lvl]. rewrite Er, R1. cbn [andb]. destruct (sf_readable s && af_read i); cbn; lia.
Qed.

Definition afi (d : Z) (e v r : bool) : af_in := {| af_data_in := d; af_end_in := e; af_valid_in := v; af_read := r |}.
Lemma af_forallb l : forallb (fun i => (0 <=? af_data_in i) && (af_data_in i <? 2 ^ 64)) l = true -> Forall af_ok l.
Proof. intros H. apply Forall_forall. intros i Hi. rewrite forallb_forall in H. specialize (H i Hi). unfold af_ok. lia. Qed.
Example C49_example :
  let s0 := sf_reset (repeat 5 32) in
  let l := map (fun k => afi (Z.of_nat k) (Nat.eqb k 3) true false) (seq 1 40) ++ repeat (afi 0 false false true) 17 in
  Forall af_ok l /\ af_written s0 l = map (fun k => (Z.of_nat k, Nat.eqb k 3)) (seq 1 32) /\
  af_readout s0 l = map (fun k => (Z.of_nat k, Nat.eqb k 3)) (seq 1 17) /\ af_readable16 (af_run s0 l) = false /\ af_writable16 (af_run s0 l) = false.
Proof. cbv zeta. split; [apply af_forallb; vm_compute; reflexivity|]. vm_compute. repeat split. Qed.
