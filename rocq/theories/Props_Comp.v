(* Properties of the elastic components in isolation, for every environment:
   C31 (FIFO), C13 (converter and its FIFO), C14 (bit packer). *)
From Verif Require Import Bits Spec Spec_Core M_Config M_Fifo M_Converter M_VBits M_I3
  P_Fifo P_Predictor P_Tokens P_Converter P_VBits P_I3 P_Run P_Live Props_Arith.
Ltac Zify.zify_post_hook ::= idtac.

(* ------------------------------------------------------------------ C31 *)

(* one cycle: write enable, data, read enable *)
Definition fop := (bool * Z * bool)%type.
Fixpoint fifo_run (D : Z) (s : fifo_st) (l : list fop) : fifo_st :=
  match l with [] => s | (we, x, re) :: r => fifo_run D (fifo_step D s we x re) r end.
(* items stored: offered while the fifo says it is writable *)
Fixpoint fifo_written (D : Z) (s : fifo_st) (l : list fop) : list Z :=
  match l with
  | [] => []
  | (we, x, re) :: r => (if we && fifo_writable D s then [x] else []) ++ fifo_written D (fifo_step D s we x re) r
  end.
(* items delivered: on the output while readable, taken with read enable *)
Fixpoint fifo_read (D : Z) (s : fifo_st) (l : list fop) : list Z :=
  match l with
  | [] => []
  | (we, x, re) :: r => (if re && ff_rd s then [ff_dout s] else []) ++ fifo_read D (fifo_step D s we x re) r
  end.

Lemma fifo_level_bound D s : fifo_inv D s -> 0 <= fifo_level s <= D /\ (fifo_writable D s = false -> D - 1 <= fifo_level s).
Proof.
  intros (_ & _ & L & _). unfold fifo_level, fifo_writable. split; [destruct (ff_rd s); cbn; lia|].
  intros E. destruct (ff_rd s); cbn; lia.
Qed.

Theorem C31_fifo : forall D stor dout l, 3 <= D -> len stor = D - 1 ->
  let s0 := fifo_reset stor dout in let s := fifo_run D s0 l in
  exists q, fifo_written D s0 l = fifo_read D s0 l ++ q /\
    fifo_level s = len q /\ len q <= D /\
    (ff_rd s = true -> exists r, q = ff_dout s :: r) /\
    (fifo_writable D s = false -> D - 1 <= len q) /\
    (q <> [] -> forall we x, ff_rd (fifo_step D s we x false) = true).
Proof.
  intros D stor dout l HD Hst s0 s.
  assert (Hgen : forall l s, fifo_inv D s ->
    fifo_inv D (fifo_run D s l) /\ fifo_q D s ++ fifo_written D s l = fifo_read D s l ++ fifo_q D (fifo_run D s l)).
  { clear l s s0. induction l as [|[[we x] re] l IH]; intros s I.
    - cbn. rewrite app_nil_r. auto.
    - cbn [fifo_run fifo_written fifo_read]. destruct (fifo_step_ok D s we x re HD I) as [I' Q'].
      destruct (IH _ I') as [J1 J2]. split; [assumption|]. rewrite <- app_assoc, <- J2, Q', !app_assoc. f_equal.
      unfold fifo_take. rewrite <- !app_assoc. destruct (re && ff_rd s) eqn:E; [|reflexivity].
      apply andb_prop in E. destruct E as [_ E]. destruct (fifo_head D s E) as [r Hr]. rewrite Hr. reflexivity. }
  assert (I0 : fifo_inv D s0) by (apply fifo_reset_inv; [lia|exact Hst]).
  destruct (Hgen l s0 I0) as [J1 J2]. fold s in J1, J2. exists (fifo_q D s).
  assert (Q0 : fifo_q D s0 = []) by reflexivity. rewrite Q0 in J2. cbn [app] in J2.
  pose proof (fifo_level_q D s J1) as HL. pose proof (fifo_level_bound D s J1) as [B1 B2].
  split; [assumption|]. split; [exact HL|]. unfold len. rewrite <- HL. split; [lia|]. split; [apply fifo_head|]. split; [assumption|].
  intros Hq we x. rewrite fifo_step_rd. destruct (ff_rd s) eqn:Er; [rewrite andb_true_r; destruct (_ && _); reflexivity|].
  destruct (ff_lvl s =? 0) eqn:El; [|reflexivity]. exfalso. apply Hq. unfold fifo_q. rewrite Er.
  apply Z.eqb_eq in El. rewrite El. reflexivity.
Qed.

Example C31_example : fifo_read 3 (fifo_reset [0; 0] 7) [(true, 1, false); (true, 2, true); (true, 3, true); (false, 0, true); (true, 4, true); (false, 0, true)] = [1; 2; 3].
Proof. reflexivity. Qed.

(* ------------------------------------------------------------------ C13 *)

(* a chunk: value, number of bits, end flag; the bits of a sequence of chunks, with a mark
   (None) after each chunk that carries the end flag *)
Notation chunk := (Z * Z * bool)%type.
Definition chunk_bits (x : chunk) : list (option bool) :=
  let '(v, n, e) := x in map Some (bitsz n v) ++ (if e then [None] else []).
Definition chunks_bits (l : list chunk) : list (option bool) := flat_map chunk_bits l.

(* converter.py followed by converter_fifo.py *)
Record cvf_st := { x_cv : cv_st; x_ff : fifo_st; x_cf : bool }.
(* per cycle: what the left fifo shows (value, count, end, valid), and the right side's read *)
Record cvf_in := { y_enc : Z; y_ctr : Z; y_end : bool; y_valid : bool; y_re : bool }.

(* integration_2.py:92-117, converter_fifo.py:84-101 (as in i3_step) *)
Definition cvf_word (c : config) (s : cvf_st) : Z :=
  item_pack (cf_db c) (cf_cb c) (cv_enc_in (x_cv s)) (cv_enc_in_ctr (x_cv s)) (cv_in_end (x_cv s)).
Definition cvf_step (c : config) (s : cvf_st) (i : cvf_in) : cvf_st :=
  {| x_cv := cv_step c (x_cv s) (y_enc i) (y_ctr i) (y_end i) (y_valid i) (x_cf s);
     x_ff := fifo_step (cfd c) (x_ff s) (cv_valid_in (x_cv s)) (cvf_word c s) (y_re i);
     x_cf := cfd c - cf_steps c <=? fifo_level (x_ff s) |}.
Fixpoint cvf_run (c : config) (s : cvf_st) (l : list cvf_in) : cvf_st :=
  match l with [] => s | i :: r => cvf_run c (cvf_step c s i) r end.
(* chunks the converter pops from the left fifo (latch_output with a valid head) *)
Fixpoint cvf_popped (c : config) (s : cvf_st) (l : list cvf_in) : list chunk :=
  match l with
  | [] => []
  | i :: r => (if cv_latch_output (x_cv s) && y_valid i then [(y_enc i, y_ctr i, y_end i)] else [])
              ++ cvf_popped c (cvf_step c s i) r
  end.
(* chunks taken from the right fifo *)
Fixpoint cvf_out (c : config) (s : cvf_st) (l : list cvf_in) : list chunk :=
  match l with
  | [] => []
  | i :: r => (if y_re i && ff_rd (x_ff s)
               then [(item_enc (cf_db c) (cf_cb c) (ff_dout (x_ff s)), item_ctr (cf_db c) (cf_cb c) (ff_dout (x_ff s)),
                      item_end (cf_db c) (cf_cb c) (ff_dout (x_ff s)))] else [])
              ++ cvf_out c (cvf_step c s i) r
  end.
Definition cvf_init (stor : list Z) (dout : Z) : cvf_st :=
  {| x_cv := cv_init; x_ff := fifo_reset stor dout; x_cf := false |}.

(* the constructors' requirements on converter size and fifo depth *)
Definition cvf_cfg (c : config) : Prop := 1 <= conv c <= total_ctr c /\ cf_steps c + 3 < cfd c.

Definition cvf_inv (c : config) (s : cvf_st) : Prop :=
  cv_inv c (x_cv s) /\ fifo_inv (cfd c) (x_ff s) /\ Forall (wok (cf_db c) (cf_cb c)) (fifo_q (cfd c) (x_ff s)) /\
  cvf_bound c (x_cv s) (fifo_level (x_ff s)) (x_cf s).
Definition cvf_held (c : config) (s : cvf_st) : list tok :=
  qtok (cf_db c) (cf_cb c) (fifo_q (cfd c) (x_ff s)) ++ cv_outtok (x_cv s) ++ cv_contents c (x_cv s).

Lemma cvf_room c s : cvf_cfg c -> cvf_inv c s -> cv_valid_in (x_cv s) = true -> fifo_writable (cfd c) (x_ff s) = true.
Proof.
  intros [Hc Hd] (I1 & I2 & I3 & I4 & _) E. pose proof (cv_k_bound c Hc) as (K1 & K2 & K3).
  apply fifo_writable_level; [assumption|]. unfold cv_weight in I4. rewrite E in I4. cbn [b2z] in I4.
  assert (0 <= match cv_state (x_cv s) with CV_IDLE => 0 | CV_STEPS i0 => Z.of_nat i0 + 1 | _ => cv_k c end)
      by (destruct (cv_state (x_cv s)); lia). lia.
Qed.

Definition yok (c : config) (i : cvf_in) : Prop :=
  y_valid i = true -> 1 <= y_ctr i <= total_ctr c /\ 0 <= y_enc i < 2 ^ y_ctr i.

Lemma cvf_inv_step c s i : cvf_cfg c -> cvf_inv c s -> yok c i ->
  cvf_inv c (cvf_step c s i) /\
  cvf_held c s ++ (if cv_latch_output (x_cv s) && y_valid i then tk (y_enc i) (y_ctr i) (y_end i) else []) =
  (if y_re i && ff_rd (x_ff s) then wtok (cf_db c) (cf_cb c) (ff_dout (x_ff s)) else []) ++ cvf_held c (cvf_step c s i).
Proof.
  intros Hcfg I Hi. pose proof (cvf_room c s Hcfg I) as Hroom. destruct Hcfg as [Hc Hd]. destruct I as (I1 & I2 & I3 & I4).
  assert (Hst : cf_steps c = cv_k c + 3) by reflexivity. pose proof (cv_k_bound c Hc) as (K1 & K2 & K3).
  destruct (cv_step_ok c (x_cv s) (y_enc i) (y_ctr i) (y_end i) (y_valid i) (x_cf s) Hc I1 Hi) as [C1 C2].
  destruct (fifo_step_ok (cfd c) (x_ff s) (cv_valid_in (x_cv s)) (cvf_word c s) (y_re i) ltac:(lia) I2) as [F1 F2].
  assert (Hw : cv_valid_in (x_cv s) && fifo_writable (cfd c) (x_ff s) = cv_valid_in (x_cv s)).
  { destruct (cv_valid_in (x_cv s)) eqn:E; [|reflexivity]. apply Hroom. reflexivity. }
  rewrite Hw in F2.
  assert (Hcw : cv_valid_in (x_cv s) = true -> wtok (cf_db c) (cf_cb c) (cvf_word c s) = cv_outtok (x_cv s) /\ wok (cf_db c) (cf_cb c) (cvf_word c s)).
  { intros E. destruct I1 as (_ & _ & _ & X4 & _). destruct (X4 E) as [Y1 Y2]. unfold cv_outtok. rewrite E.
    unfold cvf_word, cf_db, cf_cb. apply wtok_pack; assumption. }
  split.
  - unfold cvf_inv. cbn [x_cv x_ff x_cf cvf_step]. split; [assumption|]. split; [assumption|]. split.
    + rewrite F2. apply Forall_app. split; [unfold fifo_take; apply Forall_tl; assumption|].
      destruct (cv_valid_in (x_cv s)) eqn:E; [|constructor]. constructor; [apply Hcw; reflexivity|constructor].
    + apply cvf_bound_step with (cf := x_cf s) (L := fifo_level (x_ff s)); try assumption.
      rewrite (fifo_level_q (cfd c) _ F1), (fifo_level_q (cfd c) _ I2), F2, app_length.
      unfold fifo_take. pose proof (tl_len (y_re i && ff_rd (x_ff s)) (fifo_q (cfd c) (x_ff s))).
      destruct (cv_valid_in (x_cv s)); cbn [length b2z]; lia.
  - unfold cvf_held. cbn [x_cv x_ff x_cf cvf_step]. rewrite C2, F2, qtok_app.
    rewrite <- !app_assoc. unfold fifo_take.
    assert (Ho : qtok (cf_db c) (cf_cb c) (if cv_valid_in (x_cv s) then [cvf_word c s] else []) = cv_outtok (x_cv s)).
    { destruct (cv_valid_in (x_cv s)) eqn:E.
      - cbn [qtok flat_map]. rewrite app_nil_r. apply Hcw. reflexivity.
      - unfold cv_outtok. rewrite E. reflexivity. }
    rewrite Ho. destruct (y_re i && ff_rd (x_ff s)) eqn:Er; [|reflexivity].
    apply andb_prop in Er. destruct Er as [_ Er]. destruct (fifo_head (cfd c) _ Er) as [r Hr]. rewrite Hr.
    cbn [qtok flat_map tl app]. rewrite <- !app_assoc. reflexivity.
Qed.

Lemma cvf_inv_init c stor dout : cvf_cfg c -> len stor = cfd c - 1 -> cvf_inv c (cvf_init stor dout).
Proof.
  intros [Hc Hd] Hl. assert (Hst : cf_steps c = cv_k c + 3) by reflexivity. pose proof (cv_k_bound c Hc) as (K1 & K2 & K3).
  split; [apply cv_inv_init|]. split; [apply fifo_reset_inv; [lia|exact Hl]|]. split; [constructor|].
  unfold cvf_bound, cv_weight, fifo_level. cbn. lia.
Qed.

Lemma qtok_len c q : Forall (wok (cf_db c) (cf_cb c)) q -> len (qtok (cf_db c) (cf_cb c) q) <= (conv c + 1) * len q.
Proof.
  induction 1 as [|x q [Hx _] HF IH]; [cbn; lia|]. cbn [qtok flat_map]. unfold qtok in IH. rewrite len_app.
  unfold wtok at 1. rewrite tk_len by lia. assert (Hdb : cf_db c = conv c) by reflexivity.
  assert (len (x :: q) = len q + 1) as -> by (unfold len; cbn; lia).
  destruct (item_end (cf_db c) (cf_cb c) x); cbn [b2z]; lia.
Qed.

Theorem C13_converter : forall c stor dout l, cvf_cfg c -> len stor = cfd c - 1 -> Forall (yok c) l ->
  let s0 := cvf_init stor dout in let s := cvf_run c s0 l in
  (* nothing is lost, duplicated or reordered; a bounded amount is in flight *)
  (exists rest, chunks_bits (cvf_popped c s0 l) = chunks_bits (cvf_out c s0 l) ++ rest /\
     len rest <= (conv c + 1) * (cfd c + 1) + 2 * (total_ctr c + 1)) /\
  (* delivered chunks are short *)
  Forall (fun x => 1 <= snd (fst x) <= conv c) (cvf_out c s0 l) /\
  (* no write into a full fifo *)
  (cv_valid_in (x_cv s) = true -> fifo_writable (cfd c) (x_ff s) = true).
Proof.
  intros c stor dout l Hc Hl HF s0 s.
  assert (Hgen : forall l s, cvf_inv c s -> Forall (yok c) l ->
    cvf_inv c (cvf_run c s l) /\ cvf_held c s ++ chunks_bits (cvf_popped c s l) = chunks_bits (cvf_out c s l) ++ cvf_held c (cvf_run c s l) /\
    Forall (fun x : chunk => 1 <= snd (fst x) <= conv c) (cvf_out c s l)).
  { clear l s s0 HF Hl. induction l as [|i l IH]; intros s I HF.
    - cbn. rewrite app_nil_r. auto.
    - apply Forall_cons_iff in HF. destruct HF as [Hi HF]. destruct (cvf_inv_step c s i Hc I Hi) as [I' T].
      destruct (IH _ I' HF) as (J1 & J2 & J3). cbn [cvf_run cvf_popped cvf_out].
      split; [assumption|]. split.
      + unfold chunks_bits in *. rewrite !flat_map_app. rewrite <- (app_assoc _ _ (cvf_held c (cvf_run c (cvf_step c s i) l))).
        rewrite <- J2, (app_assoc (cvf_held c s)), (app_assoc _ (cvf_held c (cvf_step c s i))). f_equal.
        transitivity (cvf_held c s ++ (if cv_latch_output (x_cv s) && y_valid i then tk (y_enc i) (y_ctr i) (y_end i) else [])).
        { f_equal. destruct (cv_latch_output (x_cv s) && y_valid i); [|reflexivity]. cbn [flat_map chunk_bits]. rewrite app_nil_r. reflexivity. }
        rewrite T. f_equal. destruct (y_re i && ff_rd (x_ff s)); [|reflexivity]. cbn [flat_map chunk_bits]. rewrite app_nil_r. reflexivity.
      + apply Forall_app. split; [|assumption]. destruct (y_re i && ff_rd (x_ff s)) eqn:E; [|constructor].
        apply andb_prop in E. destruct E as [_ E]. destruct (fifo_head (cfd c) _ E) as [r Hr].
        destruct I as (_ & _ & I3 & _). rewrite Hr in I3. apply Forall_cons_iff in I3. destruct I3 as [[X _] _].
        constructor; [exact X|constructor]. }
  destruct (Hgen l s0 (cvf_inv_init c stor dout Hc Hl) HF) as (J1 & J2 & J3). fold s in J1, J2.
  split; [|split; [assumption|apply cvf_room; assumption]].
  exists (cvf_held c s). split; [exact J2|].
  destruct Hc as [Hc Hd]. destruct J1 as (I1 & I2 & I3 & I4). pose proof (cv_steps_bound c Hc) as [S1 S2].
  unfold cvf_held. rewrite !len_app. pose proof (qtok_len c _ I3) as Hq.
  assert (Hlev : len (fifo_q (cfd c) (x_ff s)) <= cfd c).
  { unfold len. rewrite <- (fifo_level_q (cfd c) _ I2). apply fifo_level_bound. assumption. }
  destruct I1 as (A1 & A2 & A3 & A4 & A5).
  assert (Ho : len (cv_outtok (x_cv s)) <= conv c + 1).
  { unfold cv_outtok. destruct (cv_valid_in (x_cv s)); [|cbn; lia]. destruct (A4 eq_refl) as [X _]. rewrite tk_len by lia. destruct (cv_in_end (x_cv s)); cbn [b2z]; lia. }
  assert (Hk : len (cv_contents c (x_cv s)) <= 2 * (total_ctr c + 1)).
  { unfold cv_contents. rewrite len_app.
    assert (len (if cv_valid_reg (x_cv s) then tk (cv_reg (x_cv s)) (cv_ctr_reg (x_cv s)) (cv_end_reg (x_cv s)) else []) <= total_ctr c + 1).
    { destruct (cv_valid_reg (x_cv s)); [|change (len []) with 0; lia]. destruct (A3 eq_refl) as [X _]. rewrite tk_len by lia. destruct (cv_end_reg (x_cv s)); cbn [b2z]; lia. }
    assert (len (match cv_state (x_cv s) with CV_STEPS i => tk (cv_latch (x_cv s)) ((Z.of_nat i + 1) * conv c) (cv_end_latch (x_cv s)) | _ => [] end) <= total_ctr c + 1).
    { destruct (cv_state (x_cv s)) as [| | |i]; try (change (len []) with 0; lia). specialize (A5 i eq_refl). rewrite tk_len by nia.
      destruct (cv_end_latch (x_cv s)); cbn [b2z]; nia. }
    lia. }
  nia.
Qed.

Definition mky e n f v r := {| y_enc := e; y_ctr := n; y_end := f; y_valid := v; y_re := r |}.
Example C13_example :
  let l := repeat (mky 0xABCDE 20 true true true) 20 in
  let c := {| bd := 4; ps := 2; ljd := 25; conv := 7; cfd := 13; outb := 8; bufs := 15 |} in
  cvf_cfg c /\ Forall (yok c) l /\
  firstn 3 (cvf_out c (cvf_init (repeat 0 12) 0) l) = [(42, 6, false); (121, 7, false); (94, 7, true)].
Proof.
  cbv zeta. split; [split; cbn; lia|]. split; [|vm_compute; reflexivity]. apply Forall_forall. intros i Hi. apply repeat_spec in Hi. subst i.
  intros _. cbn. lia.
Qed.

(* ------------------------------------------------------------------ C14 *)

Record vb_in_t := { w_enc : Z; w_ctr : Z; w_end : bool; w_valid : bool; w_busy : bool }.
Definition vbs (c : config) (s : vb_st) (i : vb_in_t) : vb_st := vb_step c s (w_enc i) (w_ctr i) (w_end i) (w_valid i) (w_busy i).
Fixpoint vb_run (c : config) (s : vb_st) (l : list vb_in_t) : vb_st :=
  match l with [] => s | i :: r => vb_run c (vbs c s i) r end.
(* chunks popped from the fifo in front *)
Fixpoint vb_popped (c : config) (s : vb_st) (l : list vb_in_t) : list chunk :=
  match l with
  | [] => []
  | i :: r => (if vi_latch_input (vb_in s) && w_valid i then [(w_enc i, w_ctr i, w_end i)] else []) ++ vb_popped c (vbs c s i) r
  end.
(* words taken by the consumer *)
Fixpoint vb_out_words (c : config) (s : vb_st) (l : list vb_in_t) : list (Z * bool) :=
  match l with
  | [] => []
  | i :: r => (if vo_valid (vb_out s) && negb (w_busy i) then [(vo_data (vb_out s), vo_end (vb_out s))] else [])
              ++ vb_out_words c (vbs c s i) r
  end.
Definition wok_in (c : config) (i : vb_in_t) : Prop :=
  w_valid i = true -> 1 <= w_ctr i <= conv c /\ 0 <= w_enc i < 2 ^ w_ctr i.
(* the end flag is only on the last chunk *)
Definition end_last (l : list chunk) : Prop := exists bs e, chunks_bits l = map Some bs ++ (if e : bool then [None] else []).

Record vb_all (c : config) (s : vb_st) (P X : list tok) (done : list (Z * bool)) : Prop := {
  q_inv : vb_inv c s;
  q_done : vb_done c s done P;
  q_end : vo_state (vb_out s) = VO_END -> exists p, P = p ++ [None];
  q_tok : P ++ vb_pend s = X }.

Lemma vb_all_step c s P X done i : vb_ok c -> wok_in c i -> vb_all c s P X done ->
  wf_toks (X ++ (if vi_latch_input (vb_in s) && w_valid i then tk (w_enc i) (w_ctr i) (w_end i) else [])) ->
  vb_all c (vbs c s i) (P ++ vb_emit c s (w_busy i))
    (X ++ (if vi_latch_input (vb_in s) && w_valid i then tk (w_enc i) (w_ctr i) (w_end i) else [])) (done ++ transferred s (w_busy i)).
Proof.
  intros Hc Hi [I D E T] Hwf. subst X.
  assert (He : vo_state (vb_out s) <> VO_END -> vi_end (vb_in s) = true -> vi_items (vb_in s) = []).
  { intros Hn Ee. unfold vb_pend in Hwf.
    assert (Hwf' : wf_toks ((P ++ map Some (bitsz (vi_consum (vb_in s)) (vi_buffer (vb_in s)))) ++
              None :: (vi_items (vb_in s) ++ (if vi_latch_input (vb_in s) && w_valid i then tk (w_enc i) (w_ctr i) (w_end i) else [])))).
    { unfold vi_pend in Hwf. rewrite Ee in Hwf. destruct (vo_state (vb_out s)); try congruence;
      unfold tk at 1 in Hwf; rewrite <- ?app_assoc in *; exact Hwf. }
    apply wf_none_last in Hwf'. apply app_eq_nil in Hwf'. apply Hwf'. }
  destruct (vb_step_ok c s (w_enc i) (w_ctr i) (w_end i) (w_valid i) (w_busy i) Hc I Hi He) as (J1 & J2 & J3).
  fold (vbs c s i) in J1, J2, J3.
  set (new := if vi_latch_input (vb_in s) && w_valid i then tk (w_enc i) (w_ctr i) (w_end i) else []) in *.
  assert (Hnew : new = [] \/ new <> []) by (destruct new; [left|right]; congruence).
  split; [assumption|apply vb_done_step; assumption| |].
  - intros E'. destruct (vo_state (vb_out s)) eqn:Eo.
    3:{ destruct (E eq_refl) as [p ->]. exists p. unfold vb_emit, vo_dec. rewrite Eo. rewrite app_nil_r. reflexivity. }
    1,2: unfold vb_emit; unfold vbs, vb_step in E'; cbn [vb_out] in E'; unfold vo_step in E';
      destruct (vo_dec c (vb_out s) _ _ (w_busy i)) eqn:Ed;
      [cbn [vo_state] in E'; unfold vo_fin; destruct (vo_le c _ && _); [|discriminate]; eexists; unfold tk; rewrite app_assoc; reflexivity
      | exfalso; rewrite Eo in E'; try destruct (w_busy i); cbn in E'; congruence].
  - destruct (vo_state (vb_out s)) eqn:Eo.
    3:{ destruct (E eq_refl) as [p Hp]. assert (Eo' : vo_state (vb_out (vbs c s i)) = VO_END).
        { unfold vbs, vb_step; cbn [vb_out]. unfold vo_step, vo_dec. rewrite Eo. exact Eo. }
        unfold vb_emit, vo_dec. rewrite Eo. unfold vb_pend in *. rewrite Eo, Eo' in *. rewrite !app_nil_r in *.
        rewrite Hp, <- app_assoc in Hwf. cbn [app] in Hwf. apply wf_none_last in Hwf. rewrite Hwf, app_nil_r. reflexivity. }
    1,2: destruct (vo_state (vb_out (vbs c s i))) eqn:Eo'.
    1,2,4,5: rewrite <- !app_assoc; f_equal; apply J2; discriminate.
    all: assert (Hem : vb_emit c s (w_busy i) = vb_pend s) by (apply J3; [discriminate|reflexivity]).
    all: assert (Hpe : exists p, vb_emit c s (w_busy i) = p ++ [None]).
    1,3: unfold vb_emit; unfold vbs, vb_step in Eo'; cbn [vb_out] in Eo'; unfold vo_step in Eo';
      destruct (vo_dec c (vb_out s) _ _ (w_busy i)) eqn:Ed;
      [cbn [vo_state] in Eo'; unfold vo_fin; destruct (vo_le c _ && _); [|discriminate]; eexists; reflexivity
      | exfalso; rewrite Eo in Eo'; try destruct (w_busy i); cbn in Eo'; congruence].
    all: destruct Hpe as [p Hpe]; rewrite <- Hem, Hpe in Hwf.
    all: rewrite <- !app_assoc in Hwf; cbn [app] in Hwf; rewrite app_assoc in Hwf; apply wf_none_last in Hwf.
    all: rewrite Hwf, app_nil_r; unfold vb_pend at 1; rewrite Eo', app_nil_r, Hem; reflexivity.
Qed.

Lemma wf_prefix (a b : list tok) : wf_toks (a ++ b) -> wf_toks a.
Proof.
  intros (bs & e & E). revert bs E. induction a as [|x a IH]; intros bs E.
  - exists [], false. reflexivity.
  - destruct bs as [|y bs].
    + destruct e; [|discriminate]. cbn in E. injection E as -> E2. apply app_eq_nil in E2. destruct E2 as [-> _]. exists [], true. reflexivity.
    + cbn in E. injection E as -> E. destruct (IH bs E) as (bs' & e' & ->). exists (y :: bs'), e'. reflexivity.
Qed.

Lemma vb_run_all c : vb_ok c -> forall l s P X done, vb_all c s P X done -> Forall (wok_in c) l ->
  wf_toks (X ++ chunks_bits (vb_popped c s l)) ->
  exists P', vb_all c (vb_run c s l) P' (X ++ chunks_bits (vb_popped c s l)) (done ++ vb_out_words c s l).
Proof.
  intros Hc. induction l as [|i l IH]; intros s P X done A HF Hwf.
  - cbn in *. rewrite !app_nil_r. eauto.
  - apply Forall_cons_iff in HF. destruct HF as [Hi HF]. cbn [vb_popped vb_run vb_out_words] in *.
    unfold chunks_bits in *. rewrite flat_map_app in Hwf |- *.
    set (new := if vi_latch_input (vb_in s) && w_valid i then tk (w_enc i) (w_ctr i) (w_end i) else []).
    assert (En : flat_map chunk_bits (if vi_latch_input (vb_in s) && w_valid i then [(w_enc i, w_ctr i, w_end i)] else []) = new).
    { unfold new. destruct (_ && _); [|reflexivity]. cbn [flat_map chunk_bits]. rewrite app_nil_r. reflexivity. }
    rewrite En in Hwf |- *. rewrite app_assoc in Hwf.
    pose proof (vb_all_step c s P X done i Hc Hi A (wf_prefix _ _ Hwf)) as A'. fold new in A'.
    destruct (IH _ _ _ _ A' HF Hwf) as [P' J]. exists P'. rewrite <- !app_assoc in J. rewrite <- ?app_assoc. exact J.
Qed.

(* The packer: what the consumer has taken, up to and including the end word, packs exactly the
   bits popped, padded with fewer than out_bits zeros; before the end word it is a prefix of
   them, and at most the buffer and two chunks are held back. *)
Theorem C14_packer : forall c l, 1 <= conv c -> 1 <= outb c -> conv c + outb c <= bufs c ->
  Forall (wok_in c) l -> end_last (vb_popped c vb_init l) ->
  let out := vb_out_words c vb_init l in let popped := chunks_bits (vb_popped c vb_init l) in
  (existsb snd out = true ->
     exists bs, popped = map Some bs ++ [None] /\ packs (outb c) (map fst (cut out)) bs) /\
  (existsb snd out = false ->
     exists rest, popped = map Some (stream (outb c) (map fst out)) ++ rest /\
       len rest <= outb c + (bufs c + 1) + 2 * (conv c + 1)).
Proof.
  intros c l C1 C2 C3 HF Hend out popped.
  assert (Hc : vb_ok c) by (unfold vb_ok; lia).
  destruct (vb_run_all c Hc l vb_init [] [] []) as (P & [I D E T]).
  { split; [apply vb_inv_init; assumption|apply vb_done_init|discriminate|reflexivity]. }
  { assumption. }
  { exact Hend. }
  cbn [app] in *. fold out popped in T, D. set (s := vb_run c vb_init l) in *.
  destruct I as [Vo Vi]. unfold vb_done in D.
  destruct Hend as (obs & oe & Hobs). fold popped in Hobs.
  split; intros He.
  - assert (HE : vo_state (vb_out s) = VO_END).
    { destruct (vo_state (vb_out s)); [| |reflexivity];
      destruct D as (pw & D1 & _); assert (existsb snd (out ++ offered s) = false)
        by (rewrite D1; apply existsb_plain); rewrite existsb_app, He in *; discriminate. }
    rewrite HE in D. destruct D as (pw & w & bs & D1 & D2 & D3 & D4). exists bs.
    unfold vb_pend in T. rewrite HE, app_nil_r in T. split; [congruence|].
    rewrite cut_hasend in D1 by assumption. rewrite D1, map_app. cbn [map fst]. unfold plain. rewrite map_map. cbn. rewrite map_id. exact D3.
  - (* the packer never holds more than its buffer and two chunks *)
    assert (Hpend : vo_state (vb_out s) <> VO_END -> len (vb_pend s) <= (bufs c + 1) + 2 * (conv c + 1)).
    { intros Hn. specialize (Vi Hn). destruct Vi as (A1 & A2 & A3 & A4 & A5 & A6 & A7 & A8 & A9 & A10).
      assert (Hp : vb_pend s = vi_pend (vb_in s)) by (unfold vb_pend; destruct (vo_state (vb_out s)); congruence). rewrite Hp.
      unfold vi_pend. rewrite len_app, tk_len by lia.
      assert (HI : len (vi_items (vb_in s)) <= 2 * (conv c + 1)).
      { assert (B : forall v n e, iok c v n -> len (tk v n e) <= conv c + 1) by (intros v n e [X _]; rewrite tk_len by lia; destruct e; cbn [b2z]; lia).
        unfold vi_items, t_reg, t_buff. change (len (@nil tok)) with 0 in *.
        destruct (vi_state (vb_in s)) eqn:Es.
        - rewrite len_app. specialize (A9 eq_refl).
          assert (len (if vi_valid_buff (vb_in s) then tk (vi_buff (vb_in s)) (vi_ctr_buff (vb_in s)) (vi_end_buff (vb_in s)) else []) <= conv c + 1)
            by (destruct (vi_valid_buff (vb_in s)); [apply B, A9; reflexivity|change (len (@nil tok)) with 0; lia]).
          assert (len (if vi_valid_reg (vb_in s) then tk (vi_reg (vb_in s)) (vi_ctr_reg (vb_in s)) (vi_end_reg (vb_in s)) else []) <= conv c + 1)
            by (destruct (vi_valid_reg (vb_in s)); [apply B, A7; auto|change (len (@nil tok)) with 0; lia]).
          lia.
        - rewrite len_app. pose proof (B _ _ (vi_end_reg (vb_in s)) (A7 (or_introl eq_refl))).
          assert (len (if vi_valid_reg (vb_in s) then tk (vi_buff (vb_in s)) (vi_ctr_buff (vb_in s)) (vi_end_buff (vb_in s)) else []) <= conv c + 1)
            by (destruct (vi_valid_reg (vb_in s)); [apply B, A8; auto|change (len (@nil tok)) with 0; lia]).
          lia.
        - change (len (@nil tok)) with 0. lia.
        - assert (len (if vi_valid_reg (vb_in s) then tk (vi_reg (vb_in s)) (vi_ctr_reg (vb_in s)) (vi_end_reg (vb_in s)) else []) <= conv c + 1)
            by (destruct (vi_valid_reg (vb_in s)); [apply B, A7; auto|change (len (@nil tok)) with 0; lia]).
          lia. }
      destruct (vi_end (vb_in s)); cbn [b2z]; lia. }
    assert (Hoff : forall pw, out ++ offered s = plain pw -> exists r, pw = map fst out ++ r /\ len r <= 1).
    { intros pw E0. apply (f_equal (map fst)) in E0. rewrite map_app in E0. unfold plain in E0. rewrite map_map in E0. cbn in E0. rewrite map_id in E0.
      exists (map fst (offered s)). split; [congruence|]. unfold offered. destruct (vo_valid (vb_out s)); cbn; lia. }
    assert (Hst : forall a b, stream (outb c) (a ++ b) = stream (outb c) a ++ stream (outb c) b) by (intros; unfold stream; rewrite map_app, concat_app; reflexivity).
    assert (Hsl : forall r, len (stream (outb c) r) = outb c * len r) by (intros; unfold len at 1, stream; apply wbits_length; lia).
    destruct (vo_state (vb_out s)) eqn:Eo.
    1,2: destruct D as (pw & D1 & D2 & D3); destruct (Hoff pw D1) as (r & -> & Hr);
      exists (map Some (stream (outb c) r) ++ vb_pend s); split;
      [rewrite <- T, D3; unfold wbits; fold (stream (outb c) (map fst out ++ r)); rewrite Hst, map_app, <- app_assoc; reflexivity
      |rewrite len_app, P_I1.len_map, Hsl; specialize (Hpend ltac:(discriminate)); nia].
    destruct D as (pw & w & bs & D1 & D2 & [D3 (pad & Hpad & D5)] & D4).
    rewrite cut_app_noend in D1 by assumption.
    assert (Hd : out = plain pw).
    { unfold offered in D1. destruct (vo_valid (vb_out s)).
      - cbn [cut] in D1. destruct (vo_end (vb_out s)); apply app_inj_tail in D1; apply D1.
      - cbn in D1. rewrite app_nil_r in D1. exfalso. rewrite D1 in He. rewrite existsb_app in He. cbn in He.
        rewrite orb_true_r in He. discriminate. }
    assert (Hm : map fst out = pw) by (rewrite Hd; unfold plain; rewrite map_map; cbn; apply map_id).
    unfold vb_pend in T. rewrite Eo, app_nil_r in T. rewrite Hm.
    fold (wbits (outb c) (pw ++ [w])) in D5. rewrite wbits_snoc in D5.
    assert (Hlw : Z.of_nat (length (bitsz (outb c) w)) = outb c) by (apply bitsz_length; lia).
    assert (HD5 := D5). apply (app_prefix (wbits (outb c) pw) _ bs (repeat false pad)) in D5.
    2:{ apply (f_equal (@length bool)) in HD5. rewrite !app_length, repeat_length in HD5. lia. }
    destruct D5 as [r Hr]. exists (map Some r ++ [None]). split.
    + rewrite <- T, D4, Hr, map_app, <- app_assoc. reflexivity.
    + rewrite Hr in HD5. apply (f_equal (@length bool)) in HD5. rewrite !app_length, repeat_length in HD5.
      rewrite len_app, P_I1.len_map. unfold len. cbn [length]. lia.
Qed.

Definition mkw e n f v b := {| w_enc := e; w_ctr := n; w_end := f; w_valid := v; w_busy := b |}.
Example C14_example :
  let c := {| bd := 4; ps := 2; ljd := 25; conv := 7; cfd := 13; outb := 8; bufs := 15 |} in
  let l := [mkw 0 0 false false false; mkw 93 7 false true false; mkw 93 7 false true true; mkw 93 7 false true true;
            mkw 21 5 true true false] ++ repeat (mkw 0 0 false false false) 12 in
  Forall (wok_in c) l /\ end_last (vb_popped c vb_init l) /\
  cut (vb_out_words c vb_init l) = [(187, false); (118, false); (237, false); (64, true)].
Proof.
  cbv zeta. split; [|split; [|vm_compute; reflexivity]].
  - unfold wok_in. cbn [app repeat]. repeat constructor; intros; cbn in *; try discriminate; lia.
  - eexists (bitsz 7 93 ++ bitsz 7 93 ++ bitsz 7 93 ++ bitsz 5 21), true. vm_compute. reflexivity.
Qed.
