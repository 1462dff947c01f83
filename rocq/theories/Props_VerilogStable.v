(* C91, continued: what an offered output word of the shipped Verilog core may do while the sink is busy (C29 at the pins). *)
From Verif Require Import Bits Spec Spec_Core Spec_Beta V_Gen M_Config M_Encode M_I3 M_Markers M_Fix M_Beta Spec_Verilog P_Verilog P_VerilogMid P_VerilogTop
  Spec_VerilogCore P_VerilogCore P_Live Props_Stable Props_VerilogCore Props_Budget.
Ltac Zify.zify_post_hook ::= idtac.
Local Open Scope bool_scope.

(* ---------------------------------------------------------------- specification *)
(* the word at the pins, if any, with its end flag *)
Definition shows (o : bool * Z * bool * bool) : option (Z * bool) := let '(v, d, e, _) := o in if v then Some (d, e) else None.
(* the words handed over in the cycles l from state s on *)
Definition words (s : vtp_st) (l : list vtp_in) : list (Z * bool) := flat_map (fun x => given (fst x) (snd x)) (pins s l).
(* l ends in more than 6666000 cycles within one frame after a pair of pixels was taken: that pair is x, and no end word is handed over in q *)
Definition overdue (s : vtp_st) (l : list vtp_in) : Prop :=
  exists p x q, l = p ++ x :: q /\ 6666001 <= len q /\ taken x (vtp_pins (fold_left vtp_step p s) x) <> [] /\
    existsb snd (words (fold_left vtp_step (p ++ [x]) s) q) = false.

(* ---------------------------------------------------------------- proof *)
Definition mem := init_huff_table 12.
Lemma clock_run l : Forall vtp_ok l -> forall m rf,
  fold_left bt_clock l (m, rf) = (bt_run beta_cfg mem m (bt_rf_ins rf (map tri l)), fold_left (fun r _ => rf_step r) l rf).
Proof.
  induction l as [|i r IH]; intros F m rf; [reflexivity|]. inversion F as [|x y (F1 & _) Fr]; subst.
  cbn [fold_left map]. unfold tri at 1. cbn [bt_rf_ins bt_run]. rewrite <- (IH Fr). f_equal. unfold bt_clock. rewrite F1. reflexivity.
Qed.
Definition mwords (m : bt_st * rf_st) (l : list vtp_in) : list (Z * bool) := flat_map (fun x => given (fst x) (snd x)) (combine l (trace bt_clock bt_pins m l)).
Lemma clock_outs l : Forall vtp_ok l -> forall m rf, mwords (m, rf) l = bt_outs beta_cfg mem m (bt_rf_ins rf (map tri l)).
Proof.
  induction l as [|i r IH]; intros F m rf; [reflexivity|]. inversion F as [|x y (F1 & _) Fr]; subst. unfold mwords in *.
  cbn [trace combine flat_map map fst snd]. unfold tri at 1. cbn [bt_rf_ins bt_outs].
  replace (bt_clock (m, rf) i) with (bt_step beta_cfg mem m (vtp_read rf i), rf_step rf) by (unfold bt_clock; cbn [fst snd]; rewrite F1; reflexivity).
  rewrite (IH Fr). reflexivity.
Qed.
Lemma mwords_snoc l i : forall m, mwords m (l ++ [i]) = mwords m l ++ given i (bt_pins (fold_left bt_clock l m) i).
Proof.
  unfold mwords. induction l as [|a l IH]; intros m; cbn [app trace combine flat_map fst snd fold_left]; [rewrite app_nil_r; reflexivity|]. rewrite IH, app_assoc. reflexivity.
Qed.

(* the counter of the time limit *)
Definition rf_fixed : rf_st := {| rf_width := 4096; rf_height := 3072; rf_allowed := 6666000 |}.
Definition since_taken (m0 : bt_st * rf_st) (l : list vtp_in) (n : Z) : Prop :=
  exists p x q, l = p ++ x :: q /\ len q = n /\ taken x (bt_pins (fold_left bt_clock p m0) x) <> [] /\ existsb snd (mwords (fold_left bt_clock (p ++ [x]) m0) q) = false.
Definition fe_inv (m0 : bt_st * rf_st) (l : list vtp_in) (m : bt_st * rf_st) : Prop :=
  (l <> [] -> snd m = rf_fixed) /\
  (b_rst (fst m) = true \/
   match fe_fsm_st (b_fe (fst m)) with
   | FE_IDLE => fe_ctr (b_fe (fst m)) = 0 /\ fe_fend (b_fe (fst m)) = false
   | FE_COUNTING => fe_fend (b_fe (fst m)) = false /\ 0 <= fe_ctr (b_fe (fst m)) <= 6666000 /\ since_taken m0 l (fe_ctr (b_fe (fst m)))
   | FE_END => fe_fend (b_fe (fst m)) = true \/ since_taken m0 l 6666001
   end).
Lemma since_snoc' m0 l i n : since_taken m0 l n -> existsb snd (given i (bt_pins (fold_left bt_clock l m0) i)) = false -> since_taken m0 (l ++ [i]) (n + 1).
Proof.
  intros (p & x & q & -> & Hn & T & E) G. exists p, x, (q ++ [i]). split; [|split; [|split; [exact T|]]].
  - rewrite <- app_assoc. reflexivity.
  - rewrite len_app, Hn. reflexivity.
  - rewrite mwords_snoc, existsb_app, E. rewrite <- fold_left_app, <- app_assoc. exact G.
Qed.
Lemma fe_inv_step m0 l i : vtp_i_full_rst i = false -> fe_inv m0 l (fold_left bt_clock l m0) -> fe_inv m0 (l ++ [i]) (fold_left bt_clock (l ++ [i]) m0).
Proof.
  intros F. pose proof (since_snoc' m0 l i) as SN. rewrite fold_left_app. cbn [fold_left].
  assert (TK : since_taken m0 (l ++ [i]) 0 \/ taken i (bt_pins (fold_left bt_clock l m0) i) = []).
  { destruct (taken i (bt_pins (fold_left bt_clock l m0) i)) eqn:E; [right; reflexivity|]. left. exists l, i, []. split; [reflexivity|]. split; [reflexivity|]. split; [rewrite E; discriminate|reflexivity]. }
  set (m := fold_left bt_clock l m0) in *. intros (IA & IB). split.
  - intros _. unfold bt_clock. rewrite F. cbn [snd]. reflexivity.
  - unfold bt_clock. rewrite F. cbn [fst]. unfold bt_step. destruct (b_rst (fst m)) eqn:B.
    + right. cbn. split; reflexivity.
    + destruct IB as [IB|IB]; [discriminate|].
      unfold bt_next. cbn [b_rst b_fe]. rewrite B. unfold ar_step.
      assert (G : given i (bt_pins m i) = bt_gave (fst m) (vtp_read (snd m) i)) by reflexivity.
      assert (GE : existsb snd (given i (bt_pins m i)) = mko_valid (bt_out (fst m) (vtp_read (snd m) i)) && negb (bi_busy (vtp_read (snd m) i)) && mko_end (bt_out (fst m) (vtp_read (snd m) i))).
      { rewrite G. unfold bt_gave. destruct (mko_valid _ && negb _); cbn; [destruct (mko_end _); reflexivity|reflexivity]. }
      rewrite <- GE. destruct (existsb snd (given i (bt_pins m i))) eqn:EE; [left; reflexivity|]. right.
      unfold fe_step. destruct (fe_fsm_st (b_fe (fst m))) eqn:Q.
      * destruct IB as (C0 & Fe). destruct (bt_accept (fst m) (vtp_read (snd m) i)) eqn:Ac; cbn [fe_fsm_st fe_ctr fe_fend]; rewrite C0, ?Fe; [|split; reflexivity].
        split; [reflexivity|]. split; [lia|]. destruct TK as [TK|TK]; [exact TK|].
        change (taken i (bt_pins m i)) with (bt_took (fst m) (vtp_read (snd m) i)) in TK. unfold bt_took in TK. rewrite Ac in TK. discriminate.
      * destruct IB as (Fe & C & ST).
        assert (RF : snd m = rf_fixed). { apply IA. destruct ST as (p & x & q & -> & _). destruct p; discriminate. }
        cbn [vtp_read bi_allowed]. rewrite RF. cbn [rf_fixed rf_allowed]. destruct (fe_ctr (b_fe (fst m)) =? 6666000) eqn:CE; cbn [fe_fsm_st fe_ctr fe_fend].
        -- right. apply Z.eqb_eq in CE. rewrite CE in ST. apply (SN _ ST eq_refl).
        -- apply Z.eqb_neq in CE. assert (TR : trunc 25 (fe_ctr (b_fe (fst m)) + 1) = fe_ctr (b_fe (fst m)) + 1) by (unfold trunc; apply Z.mod_small; change (2 ^ 25) with 33554432; lia).
           rewrite TR. split; [exact Fe|]. split; [lia|]. apply (SN _ ST eq_refl).
      * cbn [fe_fsm_st fe_ctr fe_fend]. left. reflexivity.
Qed.
Lemma fe_inv_run i3 l : Forall vtp_ok l -> fe_inv (bt_reset_with i3, rf_init) l (fold_left bt_clock l (bt_reset_with i3, rf_init)).
Proof.
  induction l as [|i l IH] using rev_ind; intros F.
  - split; [intros X; elim X; reflexivity|]. right. cbn. split; reflexivity.
  - apply Forall_app in F. destruct F as (F & Fi). inversion Fi as [|a b (F1 & _) _]; subst. apply fe_inv_step; [exact F1|apply IH, F].
Qed.
Lemma fold_R l : forall s m, top_R s m -> top_R (fold_left vtp_step l s) (fold_left bt_clock l m).
Proof. induction l as [|i r IH]; intros s m R; [exact R|]. cbn [fold_left]. apply IH, (top_sim s m i I R). Qed.
Lemma words_m s m l : top_R s m -> words s l = mwords m l.
Proof. intros R. unfold words, mwords, pins. rewrite (trace_sim _ _ _ _ _ _ top_sim l _ _ R (Forall_T l)). reflexivity. Qed.
Lemma shows_m s m i : top_R s m -> shows (vtp_pins s i) = offer (bt_out (fst m) (vtp_read (snd m) i)).
Proof. intros R. rewrite (proj1 (top_sim s m i I R)). reflexivity. Qed.

(* In the cycles l the words (words s l) have been handed over; in cycle i the word d is shown, with end flag e, to a busy sink.  In the next cycle, j, the
   offer stands, or one of four exceptions applies (offer_next: ninth header word, late end flag, time limit, repeated end word); the third of them - a payload
   word withdrawn - only when more than 6666000 cycles have passed since a pair of this frame was taken. *)
Theorem C91_stable : forall s l i j d e, vtp_fresh s -> Forall vtp_ok (l ++ [i]) ->
  let s1 := fold_left vtp_step l s in let s2 := vtp_step s1 i in
  shows (vtp_pins s1 i) = Some (d, e) -> vtp_i_busy_in i = true ->
  exists expires, offer_next (words s l) d e (negb (vtp_i_busy_in j)) expires (shows (vtp_pins s2 j)) /\ (expires = true -> overdue s l).
Proof.
  intros s l i j d e H F s1 s2 S B. destruct (fresh_R s H) as (i3 & Hi & R). apply Forall_app in F. destruct F as (F & Fi). inversion Fi as [|a b (F1 & _) _]; subst.
  pose proof (fold_R l _ _ R) as R1. fold s1 in R1. pose proof (proj2 (top_sim s1 _ i I R1)) as R2. fold s2 in R2.
  rewrite (shows_m _ _ _ R1) in S. rewrite (shows_m _ _ _ R2), (words_m _ _ _ R).
  pose proof (fe_inv_run i3 l F) as (IA & IB). rewrite (clock_outs l F).
  set (m := fold_left bt_clock l (bt_reset_with i3, rf_init)) in *.
  assert (Em : m = (bt_run beta_cfg mem (bt_reset_with i3) (bt_rf_ins rf_init (map tri l)), fold_left (fun r _ => rf_step r) l rf_init)) by (apply clock_run, F).
  assert (E2 : fst (bt_clock m i) = bt_step beta_cfg mem (fst m) (vtp_read (snd m) i)) by (unfold bt_clock; rewrite F1; reflexivity).
  pose proof (C29_stable_beta beta_cfg mem i3 (bt_rf_ins rf_init (map tri l)) (vtp_read (snd m) i) (vtp_read (snd (bt_clock m i)) j) d e) as C.
  cbv zeta in C. replace (bt_run beta_cfg mem (bt_reset_with i3) (bt_rf_ins rf_init (map tri l))) with (fst m) in C by (rewrite Em; reflexivity).
  rewrite <- E2 in C. specialize (C S B). cbn [vtp_read bi_busy] in C. eexists. split; [exact C|]. clear C.
  intros X. apply andb_prop in X. destruct X as (X1 & X2). apply negb_true_iff in X1. rewrite E2 in X2. unfold bt_step in X2.
  destruct (b_rst (fst m)) eqn:Br; [cbn in X2; discriminate|]. destruct IB as [IB|IB]; [discriminate|].
  unfold bt_next in X2. cbn [b_fe] in X2. unfold fe_step in X2. destruct (fe_fsm_st (b_fe (fst m))) eqn:Q; cbn [fe_fend] in X2; try congruence.
  destruct IB as [IB|IB]; [congruence|]. destruct IB as (p & x & q & -> & Hn & T & G). exists p, x, q. split; [reflexivity|]. split; [lia|].
  pose proof (fold_R p _ _ R) as Rp. pose proof (fold_R (p ++ [x]) _ _ R) as Rx.
  split; [rewrite (proj1 (top_sim _ _ x I Rp)); exact T|rewrite (words_m _ _ _ Rx); exact G].
Qed.
(* In particular: within 6666001 cycles of configuration or full_rst, no payload word is ever withdrawn. *)
Theorem C91_not_withdrawn : forall s l i j d e, vtp_fresh s -> Forall vtp_ok (l ++ [i]) -> len l <= 6666001 ->
  let s1 := fold_left vtp_step l s in let s2 := vtp_step s1 i in
  shows (vtp_pins s1 i) = Some (d, e) -> vtp_i_busy_in i = true ->
  offer_next (words s l) d e (negb (vtp_i_busy_in j)) false (shows (vtp_pins s2 j)).
Proof.
  intros s l i j d e H F L s1 s2 S B. destruct (C91_stable s l i j d e H F S B) as ([|] & A & O); [|exact A].
  destruct (O eq_refl) as (p & x & q & -> & Hq & _). rewrite len_app in L; unfold len in L at 2; cbn [length] in L. pose proof (len_nonneg p). unfold len in *. lia.
Qed.

(* A frame whose code has more than 106655872 bits (8.476 bits for a sample) cannot be delivered within the time limit: it is flagged (C81 at the pins). *)
Theorem C91_budget : forall s (l : list vtp_in), vtp_fresh s -> Forall vtp_ok l ->
  let log := pin_log false [] [] (pins s l) in
  forall k A O, nth_error log k = Some (A, O) -> (S k < length log)%nat -> 106655872 < len (ref_encode (std_table 12) 12 4096 [] (concat A)) ->
  snd (deframe (map fst O)) = Some true.
Proof.
  intros s l H F log k A O HN Hk Hb. unfold log in *. destruct (pins_log s H) as (i3 & Hi & E). rewrite (E l F) in *.
  destruct (C81_shipped (map tri l) i3 Hi) with (k := k) (A := A) (O := O) as [X|(_ & _ & X)]; try assumption; [|lia].
  intros x. apply (tri_ok l x F).
Qed.

(* ---------------------------------------------------------------- examples *)
(* The Verilog, run: the sink is ready in the cycles 33 to 40 only.  It gets the 8 header words; in cycle 41 it is busy and is shown a ninth one, which stands
   in cycle 42 while the sink is still busy - and is gone in cycle 43, as the sink is ready. *)
Definition C91_hdr (k : nat) : vtp_in :=
  let i := C91_in (fun _ => false) k in
  {| vtp_i_busy_in := Nat.ltb k 33 || (Nat.ltb 40 k && Nat.ltb k 43); vtp_i_full_rst := false; vtp_i_pixel_in1 := vtp_i_pixel_in1 i; vtp_i_pixel_in2 := vtp_i_pixel_in2 i; vtp_i_valid_in := vtp_i_valid_in i |}.
Lemma C91_hdr_ok k : vtp_ok (C91_hdr k).
Proof. destruct (C91_in_ok k) as (A & B). split; [reflexivity|exact B]. Qed.
Example C91_stable_example :
  let s := vtp_powerup 3 7 12345 678 in let at_ k := fold_left vtp_step (map C91_hdr (seq 0 k)) s in
  vtp_fresh s /\ (forall k, Forall vtp_ok (map C91_hdr (seq 0 k) ++ [C91_hdr k])) /\
  words s (map C91_hdr (seq 0 41)) = repeat (0xFFFF, false) 8 /\
  shows (vtp_pins (at_ 41%nat) (C91_hdr 41)) = Some (0xFFFF, false) /\ vtp_i_busy_in (C91_hdr 41) = true /\
  shows (vtp_pins (at_ 42%nat) (C91_hdr 42)) = Some (0xFFFF, false) /\ vtp_i_busy_in (C91_hdr 42) = true /\
  shows (vtp_pins (at_ 43%nat) (C91_hdr 43)) = None /\ vtp_i_busy_in (C91_hdr 43) = false.
Proof.
  intros s at_. split; [apply fresh_powerup|]. split.
  - intros k. apply Forall_app. split; [|repeat constructor; apply C91_hdr_ok]. apply Forall_forall. intros x Hx. apply in_map_iff in Hx. destruct Hx as (n & <- & _). apply C91_hdr_ok.
  - vm_compute. repeat split.
Qed.
(* a payload word shown to a busy sink stands in the next cycle, also if the sink is ready then *)
Example C91_not_withdrawn_example :
  let s := vtp_powerup 3 7 12345 678 in let i := C91_in (fun _ => false) in let l := map i (seq 0 106) in
  Forall vtp_ok (l ++ [i 106%nat]) /\ len l <= 6666001 /\ 8 <= len (words s l) /\ vtp_i_busy_in (i 106%nat) = true /\ vtp_i_busy_in (i 107%nat) = false /\
  exists d, d <> 0xFFFF /\ shows (vtp_pins (fold_left vtp_step l s) (i 106%nat)) = Some (d, false) /\
    shows (vtp_pins (vtp_step (fold_left vtp_step l s) (i 106%nat)) (i 107%nat)) = Some (d, false).
Proof.
  intros s i l. split.
  - apply Forall_app. split; [|repeat constructor; apply C91_in_ok]. apply Forall_forall. intros x Hx. apply in_map_iff in Hx. destruct Hx as (n & <- & _). apply C91_in_ok.
  - split; [vm_compute; discriminate|]. split; [vm_compute; discriminate|]. split; [reflexivity|]. split; [reflexivity|].
    eexists. split; [|split; [vm_compute; reflexivity|vm_compute; reflexivity]]. discriminate.
Qed.
