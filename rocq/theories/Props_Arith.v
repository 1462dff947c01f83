(* Properties of the arithmetic pipeline components: C03 - C11.
   Each theorem is followed by an Example showing that its hypotheses are met. *)
From Verif Require Import Bits Spec M_Config M_Signals M_Predictor M_Difference M_Normalize
  M_Encode M_Merge M_I1 P_Fifo P_Normalize P_Encode P_Merge P_Signals P_Predictor P_I1 P_Tokens P_I3 P_Decode Spec_Core P_Run M_I3.
Ltac Zify.zify_post_hook ::= idtac.

(* ------------------------------------------------------------------ C03 *)

Lemma bd_cases (Q : Z -> Prop) : Forall Q [2;3;4;5;6;7;8;9;10;11;12;13;14;15;16] ->
  forall bd, 2 <= bd <= 16 -> Q bd.
Proof.
  intros HF bd Hb. rewrite Forall_forall in HF. apply HF.
  assert (E : bd = 2 \/ bd = 3 \/ bd = 4 \/ bd = 5 \/ bd = 6 \/ bd = 7 \/ bd = 8 \/ bd = 9 \/ bd = 10 \/ bd = 11 \/
    bd = 12 \/ bd = 13 \/ bd = 14 \/ bd = 15 \/ bd = 16) by lia. cbn. intuition.
Qed.

Definition zseq (n : Z) : list Z := map Z.of_nat (seq 0 (Z.to_nat n)).
Lemma zseq_in n k : 0 <= k < n -> In k (zseq n).
Proof. intros. unfold zseq. apply in_map_iff. exists (Z.to_nat k). split; [lia|]. apply in_seq. lia. Qed.

Definition prefix_freeb (t : table) : bool :=
  forallb (fun s1 => forallb (fun s2 => (s1 =? s2) || negb (is_prefix (code_bits t s1) (code_bits t s2)))
    (zseq (len t))) (zseq (len t)).
Lemma prefix_freeb_ok t : prefix_freeb t = true -> prefix_free t.
Proof.
  unfold prefix_freeb, prefix_free. intros Hb s1 s2 H1 H2 Hne.
  rewrite forallb_forall in Hb. specialize (Hb s1 (zseq_in _ _ H1)). rewrite forallb_forall in Hb.
  specialize (Hb s2 (zseq_in _ _ H2)). destruct (is_prefix (code_bits t s1) (code_bits t s2)); [|reflexivity].
  rewrite orb_false_r in Hb. apply Z.eqb_eq in Hb. contradiction.
Qed.

Lemma std_prefix_free bd : 2 <= bd <= 16 -> prefix_free (std_table bd).
Proof.
  intros Hb. apply prefix_freeb_ok. revert bd Hb. apply bd_cases. repeat constructor.
Qed.

(* no code word is all ones *)
Definition not_all_ones (l : list bool) : Prop := In false l.

(* The memory the core is built with (init_huff_table) holds, for each category s up to the
   bit depth, the code word of T.81 Annex C for the DHT segment (std_BITS, std_HUFFVAL): its
   length in the five top bits and the code, moved up by the s offset bits (none for category
   16), below; the code is prefix free and has no all-ones word. *)
Theorem C03_table : forall bd, 2 <= bd <= 16 ->
  prefix_free (std_table bd) /\
  len (init_huff_table bd) = bd + 1 /\
  forall s, 0 <= s <= bd ->
    not_all_ones (code_bits (std_table bd) s) /\
    exists n code, nth_error (std_table bd) (Z.to_nat s) = Some (n, code) /\
      lookup s std_HUFFVAL (annexC std_BITS 1 0) = (n, code) /\
      let w := nth (Z.to_nat s) (init_huff_table bd) 0 in
      0 <= w < 2 ^ (bd + 21) /\
      slice (16 + bd) (bd + 21) w = n /\
      slice 0 (16 + bd) w = code * (if s =? 16 then 1 else 2 ^ s).
Proof.
  intros bd Hb. split; [apply std_prefix_free; assumption|].
  assert (HL : len (init_huff_table bd) = bd + 1).
  { revert bd Hb. apply bd_cases. repeat constructor. }
  split; [assumption|]. intros s Hs.
  assert (Hchk : forallb (fun s => existsb negb (code_bits (std_table bd) s) &&
     match nth_error (std_table bd) (Z.to_nat s) with
     | Some (n, code) =>
        let w := nth (Z.to_nat s) (init_huff_table bd) 0 in
        (let '(n', c') := lookup s std_HUFFVAL (annexC std_BITS 1 0) in (n' =? n) && (c' =? code)) &&
        (0 <=? w) && (w <? 2 ^ (bd + 21)) && (slice (16 + bd) (bd + 21) w =? n) &&
        (slice 0 (16 + bd) w =? code * (if s =? 16 then 1 else 2 ^ s))
     | None => false end) (zseq (bd + 1)) = true).
  { clear s Hs HL. revert bd Hb. apply bd_cases. repeat constructor. }
  rewrite forallb_forall in Hchk. specialize (Hchk s (zseq_in (bd + 1) s ltac:(lia))).
  apply andb_prop in Hchk. destruct Hchk as [H1 H2]. split.
  { apply existsb_exists in H1. destruct H1 as (b & Hin & Hn). destruct b; [discriminate|]. assumption. }
  destruct (nth_error (std_table bd) (Z.to_nat s)) as [[n code]|]; [|discriminate].
  exists n, code. split; [reflexivity|].
  destruct (lookup s std_HUFFVAL (annexC std_BITS 1 0)) as [n' c'].
  cbv zeta in *. set (w := nth (Z.to_nat s) (init_huff_table bd) 0) in *. 
  repeat (apply andb_prop in H2; let X := fresh "X" in destruct H2 as [H2 X]).
  apply Z.eqb_eq in H2. repeat match goal with X : (_ =? _) = true |- _ => apply Z.eqb_eq in X end.
  apply Z.leb_le in X2. apply Z.ltb_lt in X1. split; [congruence|]. split; [lia|]. split; assumption.
Qed.

(* what prefix freeness gives a decoder: every code word is recognised, whatever follows it *)
Theorem C03_decodable : forall bd s l, 2 <= bd <= 16 -> 0 <= s <= bd ->
  decode_category (std_table bd) 0 (code_bits (std_table bd) s ++ l) = Some (s, l).
Proof.
  intros bd s l Hb Hs. apply decode_category_ok; [apply std_prefix_free; assumption|].
  destruct (std_table_ok bd Hb) as [X _]. unfold len. lia.
Qed.

(* the same for every table a user programs through AXI-lite *)
Theorem C03_decodable_any : forall bd t s l, table_ok bd t -> prefix_free t -> 0 <= s <= bd ->
  decode_category t 0 (code_bits t s ++ l) = Some (s, l).
Proof. intros bd t s l [X _] Hp Hs. apply decode_category_ok; [assumption|]. unfold len. lia. Qed.

Example C03_example : code_bits (std_table 12) 12 = [true;true;true;true;true;true;true;true;false] /\
  std_table 2 = [(4, 14); (3, 0); (3, 1)].
Proof. split; reflexivity. Qed.

(* ------------------------------------------------------------------ C04 *)

(* two's complement number of n bits *)
Definition twos (n x : Z) : Z := if x <? 2 ^ (n - 1) then x else x - 2 ^ n.

Lemma twos_mod n d : 1 <= n -> - 2 ^ (n - 1) <= d < 2 ^ (n - 1) -> twos n (d mod 2 ^ n) = d.
Proof.
  intros Hn Hd. assert (E : 2 ^ n = 2 * 2 ^ (n - 1)) by (rewrite <- pow2_S by lia; f_equal; lia).
  unfold twos. destruct (Z_lt_le_dec d 0).
  - assert (d mod 2 ^ n = d + 2 ^ n) as -> by (symmetry; apply Z.mod_unique with (q := -1); lia).
    replace (d + 2 ^ n <? 2 ^ (n - 1)) with false by lia. lia.
  - rewrite Z.mod_small by lia. replace (d <? 2 ^ (n - 1)) with true by lia. reflexivity.
Qed.

Lemma map2_map {A B C D} (f : B -> C -> D) (g : A -> B) (h : A -> C) l :
  map2 f (map g l) (map h l) = map (fun x => f (g x) (h x)) l.
Proof. induction l; cbn; congruence. Qed.

(* For any number of lanes: the registers loaded for the differences ds (given, as the
   difference stage does, in two's complement together with ds-1). *)
Theorem C04_normalizer : forall bd ds s e, 2 <= bd <= 16 ->
  Forall (fun d => Z.abs d < 2 ^ bd) ds ->
  let s' := norm_step bd s true e (map (fun d => d mod 2 ^ (bd + 1)) ds)
                                  (map (fun d => (d - 1) mod 2 ^ (bd + 1)) ds) in
  nm_out s' = map (fun d => (if d <? 0 then d + 2 ^ category d - 1 else d, category d)) ds /\
  nm_valid s' = true /\ nm_end s' = e.
Proof.
  intros bd ds s e Hb HF. cbn. split; [|auto]. rewrite map2_map. apply map_ext_in. intros d Hd.
  rewrite Forall_forall in HF. specialize (HF d Hd). cbv beta in HF.
  rewrite norm1_ok by lia. reflexivity.
Qed.

Theorem C04_hold : forall bd s e vals mns,
  nm_out (norm_step bd s false e vals mns) = nm_out s /\ nm_valid (norm_step bd s false e vals mns) = false.
Proof. intros. split; reflexivity. Qed.

(* category is the number of bits of |d| *)
Theorem C04_category_meaning : forall d k, 1 <= k -> (category d = k <-> 2 ^ (k - 1) <= Z.abs d < 2 ^ k).
Proof.
  intros d k Hk. split.
  - intros <-. assert (d <> 0). { intros ->. cbn in Hk. lia. } apply P_Normalize.category_bounds; assumption.
  - apply category_unique. assumption.
Qed.

Example C04_example :
  nm_out (norm_step 12 (norm_init 4) true false (map (fun d => d mod 2 ^ 13) [0; -1; 4095; -4095])
                                  (map (fun d => (d - 1) mod 2 ^ 13) [0; -1; 4095; -4095]))
  = [(0, 0); (0, 1); (4095, 12); (0, 12)].
Proof. reflexivity. Qed.

(* ------------------------------------------------------------------ C05 *)

Theorem C05_difference : forall bd px pr s e, 1 <= bd ->
  Forall (in_range bd) px -> Forall (in_range bd) pr -> len px = len pr ->
  let s' := diff_step bd s true e px pr in
  map (twos (bd + 1)) (df_vals s') = map2 (fun p q => p - q) px pr /\
  map (twos (bd + 1)) (df_mns s') = map2 (fun p q => p - q - 1) px pr /\
  df_valid s' = true /\ df_end s' = e.
Proof.
  intros bd px pr s e Hb Hp Hq Hl. cbn. split; [|split; [|auto]]; clear s e.
  - revert pr Hq Hl. induction Hp as [|p px Hp1 Hp IH]; intros [|q pr] Hq Hl; cbn; auto.
    inversion Hq as [|? ? Hq1 Hq2]; subst. f_equal; [|apply IH; [assumption|unfold len in *; cbn in Hl; lia]].
    unfold in_range in *. unfold sub_val, trunc. rewrite twos_mod; replace (bd + 1 - 1) with bd by lia; lia.
  - revert pr Hq Hl. induction Hp as [|p px Hp1 Hp IH]; intros [|q pr] Hq Hl; cbn; auto.
    inversion Hq as [|? ? Hq1 Hq2]; subst. f_equal; [|apply IH; [assumption|unfold len in *; cbn in Hl; lia]].
    unfold in_range in *. unfold sub_mns, trunc. rewrite twos_mod; replace (bd + 1 - 1) with bd by lia; lia.
Qed.

Theorem C05_hold : forall bd s e px pr,
  let s' := diff_step bd s false e px pr in
  df_vals s' = df_vals s /\ df_mns s' = df_mns s /\ df_valid s' = false.
Proof. intros. repeat split. Qed.

Example C05_example :
  map (twos 13) (df_vals (diff_step 12 (diff_init 2) true false [0; 4095] [4095; 0])) = [-4095; 4095] /\
  map (twos 13) (df_mns (diff_step 12 (diff_init 2) true false [0; 4095] [4095; 0])) = [-4096; 4094].
Proof. split; reflexivity. Qed.

(* ------------------------------------------------------------------ C06 *)

(* one cycle of the predictor's inputs *)
Record pin := { pi_valid : bool; pi_new_row : bool; pi_end : bool; pi_px : list Z }.

(* groups loaded by the inputs, and the (pixels, predictions) pairs seen at the outputs *)
Definition pins_groups (ins : list pin) : list (list Z) := map pi_px (filter pi_valid ins).
Fixpoint pred_outs (ps : Z) (s : pred_st) (ins : list pin) : list (list Z * list Z) :=
  match ins with
  | [] => []
  | i :: r =>
      let s' := pred_step ps s (pi_valid i) (pi_new_row i) (pi_end i) (pi_px i) in
      (if pred_valid_out s' then [(pred_pixels_out s', pred_predics_out s')] else []) ++ pred_outs ps s' r
  end.

(* new_row accompanies the first of every G groups; it is free on cycles without input *)
Fixpoint rows_marked (G k : Z) (ins : list pin) : Prop :=
  match ins with
  | [] => True
  | i :: r => if pi_valid i then pi_new_row i = (k mod G =? 0) /\ rows_marked G (k + 1) r
              else rows_marked G k r
  end.

Lemma map_zn {A B} (f : Z -> B) (l : list A) (g : A -> B) n :
  len l = n -> (forall j, 0 <= j < n -> forall a, nth_error l (Z.to_nat j) = Some a -> g a = f j) -> map g l = map f (zseq n).
Proof.
  intros Hl H. unfold zseq. rewrite map_map. apply nth_ext with (d := f 0) (d' := f 0).
  - rewrite !map_length, seq_length. unfold len in Hl. lia.
  - intros i Hi. rewrite map_length in Hi.
    assert (Hin : exists a, nth_error l i = Some a).
    { destruct (nth_error l i) eqn:E; [eauto|]. apply nth_error_None in E. lia. }
    destruct Hin as [a Ha].
    assert (Hlt : (i < length (seq 0 (Z.to_nat n)))%nat) by (rewrite seq_length; unfold len in Hl; lia).
    rewrite nth_indep with (d' := g a) by (rewrite map_length; assumption). rewrite map_nth.
    rewrite nth_indep with (d' := f (Z.of_nat 0)) by (rewrite map_length; assumption).
    rewrite (map_nth (fun x => f (Z.of_nat x))). rewrite seq_nth by (unfold len in Hl; lia). cbn [plus].
    rewrite (nth_error_nth l i a Ha). apply H; [unfold len in Hl; lia|]. rewrite Nat2Z.id. assumption.
Qed.

(* prediction only looks at earlier samples *)
Lemma gpred_is_spec bd ps G A px : ps = 1 \/ ps = 2 \/ ps = 4 -> 2 <= G -> 4 / ps <= G ->
  Forall (fun g => len g = ps) A ->
  gpred bd ps G A (len A) =
  map (fun j => prediction bd (G * ps) (concat A ++ px) (len A * ps + j)) (zseq ps).
Proof.
  intros Hps HG HG4 HF. rewrite <- (map_id (gpred bd ps G A (len A))).
  apply map_zn; [apply gpred_len; [assumption|lia|assumption]|].
  intros j Hj a Ha. 
  assert (HA : 0 <= len A) by (unfold len; lia).
  assert (H4 : 4 <= G * ps). { destruct Hps as [->|[->| ->]]; cbn in HG4; lia. }
  rewrite prediction_ext; [|assumption|nia|rewrite (concat_len ps) by assumption; lia].
  rewrite <- gpred_spec by assumption. unfold zn. symmetry. apply nth_error_nth. assumption.
Qed.

Lemma seq_off n : forall m o, seq (m + o) n = map (fun k => (m + k)%nat) (seq o n).
Proof.
  induction n as [|n IH]; intros m o; [reflexivity|]. cbn. f_equal. rewrite <- IH. f_equal. lia.
Qed.

Lemma zseq_app a b : 0 <= a -> 0 <= b -> zseq (a + b) = zseq a ++ map (fun j => a + j) (zseq b).
Proof.
  intros. unfold zseq. replace (Z.to_nat (a + b)) with (Z.to_nat a + Z.to_nat b)%nat by lia.
  rewrite seq_app, map_app. f_equal. cbn. rewrite !map_map.
  rewrite <- (Nat.add_0_r (Z.to_nat a)) at 1. rewrite seq_off, map_map. apply map_ext. intros. lia.
Qed.

Theorem C06_predictor : forall bd ps G ins, ps = 1 \/ ps = 2 \/ ps = 4 ->
  2 <= G -> 4 <= G * ps ->
  Forall (fun i => pi_valid i = true -> len (pi_px i) = ps) ins -> rows_marked G 0 ins ->
  let img := concat (pins_groups ins) in
  let outs := pred_outs ps (pred_init bd ps) ins in
  concat (map fst outs) = img /\
  concat (map snd outs) = map (prediction bd (G * ps) img) (zseq (len img)).
Proof.
  intros bd ps G ins Hps HG HG4 HF HR img outs.
  assert (HG4' : 4 / ps <= G). { destruct Hps as [->|[->| ->]]; cbn; lia. }
  assert (Hgen : forall ins A s, pred_rel bd ps G A s -> Forall (fun g => len g = ps) A ->
    Forall (fun i => pi_valid i = true -> len (pi_px i) = ps) ins -> rows_marked G (len A) ins ->
    concat (map fst (pred_outs ps s ins)) = concat (pins_groups ins) /\
    concat (map snd (pred_outs ps s ins)) =
      map (fun j => prediction bd (G * ps) (concat A ++ concat (pins_groups ins)) (len A * ps + j))
          (zseq (len (concat (pins_groups ins))))).
  { clear img outs ins HF HR. induction ins as [|i r IH]; intros A s R HA HF HR; [split; reflexivity|].
    inversion HF as [|? ? Hi HF']; subst. cbn [pred_outs rows_marked] in *. unfold pins_groups in *. cbn [filter].
    rewrite pred_valid_step. destruct (pi_valid i) eqn:Ev.
    - destruct HR as [Hnr HR]. rewrite Hnr. specialize (Hi eq_refl).
      destruct (pred_step_acc bd ps G A s (pi_end i) (pi_px i) HG4' HG R) as (R' & Hpx & Hpr).
      rewrite Hpx, Hpr.
      destruct (IH (A ++ [pi_px i]) _ R') as [J1 J2].
      { apply Forall_app. split; [assumption|]. constructor; [assumption|constructor]. }
      { assumption. }
      { rewrite len_snoc. assumption. }
      cbn [map app concat fst snd]. rewrite J1, J2. split; [reflexivity|].
      assert (Hll : len (pi_px i ++ concat (map pi_px (filter pi_valid r))) = ps + len (concat (map pi_px (filter pi_valid r)))).
      { unfold len in *. rewrite app_length. lia. }
      rewrite Hll, zseq_app by (unfold len; lia). rewrite map_app. f_equal.
      + apply gpred_is_spec; assumption.
      + rewrite map_map. apply map_ext. intros j. rewrite concat_app. cbn [concat]. rewrite app_nil_r, <- app_assoc, len_snoc.
        f_equal. lia.
    - destruct (IH A _ (pred_step_gap bd ps G A s (pi_new_row i) (pi_end i) (pi_px i) R) HA HF' HR) as [J1 J2].
      cbn [map app]. rewrite J1, J2. split; reflexivity. }
  destruct (Hgen ins [] (pred_init bd ps)) as [J1 J2]; try assumption.
  { apply pred_rel_init; assumption. }
  { constructor. }
  split; [exact J1|]. unfold outs. rewrite J2. fold img. apply map_ext. intros. reflexivity.
Qed.

Definition mkp v n px := {| pi_valid := v; pi_new_row := n; pi_end := false; pi_px := px |}.
Example C06_example :
  let ins := [mkp false true [9;9]; mkp true true [1;2]; mkp true false [3;4]; mkp false true [0;0];
              mkp true false [5;6]; mkp true true [7;8]; mkp true false [9;10]; mkp true false [11;12]] in
  Forall (fun i => pi_valid i = true -> len (pi_px i) = 2) ins /\ rows_marked 3 0 ins /\
  map snd (pred_outs 2 (pred_init 4 2) ins) = [[8;8];[8;8];[1;2];[1;2];[3;4];[7;8]].
Proof. cbv zeta. split; [repeat constructor|]. split; [cbn; auto 20|reflexivity]. Qed.

(* ------------------------------------------------------------------ C07 *)

Lemma mem_of_std bd : 2 <= bd <= 16 -> init_huff_table bd = mem_of bd (std_table bd).
Proof. apply init_huff_table_std. Qed.

(* A group enters with categories and offsets (as the normalizer delivers them) and is seen two
   edges later; the input of the second edge, and the rest of the state, are arbitrary. *)
Theorem C07_encoder : forall bd t ds s e v2 e2 ins2, 2 <= bd <= 16 -> table_ok bd t ->
  Forall (fun d => Z.abs d < 2 ^ bd) ds -> len (en_px s) = len ds -> len ins2 = len ds ->
  let s1 := enc_step bd (mem_of bd t) s true e
              (map (fun d => (if d <? 0 then d + 2 ^ category d - 1 else d, category d)) ds) in
  let s2 := enc_step bd (mem_of bd t) s1 v2 e2 ins2 in
  en_valid_out s2 = true /\ en_end_out s2 = e /\
  Forall2 (fun d r => let '(value, count) := r in
      bitsz count value = encode_diff t d /\ 0 <= value < 2 ^ count /\
      1 <= count <= Z.min (16 + bd) 31) ds (enc_outs s2).
Proof.
  intros bd t ds s e v2 e2 ins2 Hb Ht HF Hl1 Hl2 s1 s2. split; [reflexivity|]. split; [reflexivity|].
  assert (E : enc_outs s2 = map (fun d => enc_logic bd (category d) (offset d) (mem_read bd (mem_of bd t) (category d))) ds).
  { unfold enc_outs, s2. cbn [en_px enc_step]. 
    rewrite enc1_outs by (unfold s1; cbn [en_px enc_step]; rewrite (len_map2 _ _ _ (len ds)); [lia|assumption|rewrite len_map; reflexivity]).
    unfold s1. cbn [en_px enc_step]. rewrite enc1_late by (rewrite len_map; assumption).
    rewrite !map_map. apply map_ext. intros d. reflexivity. }
  rewrite E. clear E s1 s2 Hl1 Hl2. induction HF as [|d ds Hd HF IH]; [constructor|]. cbn [map]. constructor; [|assumption].
  pose proof (enc_logic_ok bd t d Hb Ht ltac:(lia)) as K. unfold enc_ok in K.
  destruct (enc_logic bd (category d) (offset d) (mem_read bd (mem_of bd t) (category d))). exact K.
Qed.

Example C07_example : table_ok 12 (std_table 12) /\ mem_of 12 (std_table 12) = init_huff_table 12 /\
  encode_diff (std_table 12) (-5) = [false; true; false; false; true; false].
Proof. split; [apply std_table_ok; lia|]. split; [symmetry; apply mem_of_std; lia|reflexivity]. Qed.

(* ------------------------------------------------------------------ C08 *)

(* one cycle of the merger's inputs: valid, end, the (value, bit count) pair of every lane *)
Definition mcycle := (bool * bool * list (Z * Z))%type.
Fixpoint merge_run (ps w : Z) (s : merge_st) (l : list mcycle) : merge_st :=
  match l with
  | [] => s
  | (v, e, its) :: r => merge_run ps w (merge_step ps w s v e its) r
  end.

Lemma merge_run_rel ps w : 2 <= ps -> forall l s hist,
  Forall (fun c => len (snd c) = ps) l ->
  merge_rel (Z.to_nat (merge_levels ps)) w (merge_pad ps) s hist ->
  merge_rel (Z.to_nat (merge_levels ps)) w (merge_pad ps) (merge_run ps w s l)
    (rev (map (fun c : mcycle => if fst (fst c) then Some (snd c, snd (fst c)) else None) l) ++ hist).
Proof.
  intros Hps. induction l as [|[[v e] its] l IH]; intros s hist HF R; [exact R|].
  apply Forall_cons_iff in HF. destruct HF as [Hl HF']. cbn [merge_run map rev fst snd]. rewrite <- app_assoc. apply IH; [assumption|].
  cbn [app fst snd] in *.
  assert (Hlen : length (merge_pad ps its) = Nat.pow 2 (Z.to_nat (merge_levels ps))) by (apply merge_pad_length; [lia|exact Hl]).
  unfold merge_step. apply levels_step_rel; [|destruct v; cbn|assumption].
  - destruct (Z.to_nat (merge_levels ps)) as [|k] eqn:E; [exact I|]. apply pair_up_length. rewrite Hlen. cbn. lia.
  - reflexivity.
  - clear. generalize (merge_pad ps its). apply pair_ind2; cbn; [constructor|intros [? ?]; constructor|].
    intros [? ?] [? ?] r Hr. constructor; [reflexivity|assumption].
Qed.

(* what enters is seen ceil(log2 ps) edges later, whatever entered before and after *)
Theorem C08_merge : forall ps w before v e its after, 2 <= ps -> 0 <= w ->
  Forall (fun c : mcycle => len (snd c) = ps) (before ++ (v, e, its) :: after) ->
  len after + 1 = merge_levels ps ->
  let s := merge_run ps w (merge_init ps) (before ++ (v, e, its) :: after) in
  mg_valid (merge_top s) = v /\
  (v = true -> Forall (fun x => 0 <= snd x <= w /\ 0 <= fst x < 2 ^ snd x) its ->
    mg_end (merge_top s) = e /\
    let '(value, count) := merge_out ps w s in
    bitsz count value = concat (map (fun x => bitsz (snd x) (fst x)) its) /\
    count = fold_right Z.add 0 (map snd its) /\ 0 <= value < 2 ^ count /\ count <= w * ps).
Proof.
  intros ps w before v e its after Hps Hw HF Hla s.
  pose proof (merge_run_rel ps w Hps _ (merge_init ps) [] HF (merge_init_rel _ w (merge_pad ps))) as R. fold s in R.
  assert (Hlv : exists n, Z.to_nat (merge_levels ps) = S n).
  { exists (length after). unfold len in Hla. lia. }
  destruct Hlv as [n Hn]. assert (Hn' : n = length after) by (unfold len in Hla; lia).
  rewrite Hn in R. apply merge_rel_top in R. destruct R as [R Hl1].
  set (g := if v then Some (its, e) else None : option (list (Z * Z) * bool)).
  assert (Hg : nth n (rev (map (fun c : mcycle => if fst (fst c) then Some (snd c, snd (fst c)) else None)
      (before ++ (v, e, its) :: after)) ++ []) None = g).
  { rewrite app_nil_r, map_app, rev_app_distr. cbn [map rev fst snd]. rewrite <- app_assoc.
    rewrite app_nth2; rewrite rev_length, map_length; [|lia]. replace (n - length after)%nat with 0%nat by lia. reflexivity. }
  rewrite Hg in R. unfold merge_out, merge_top in *.
  destruct (last s []) as [|m [|? ?]]; try discriminate Hl1. cbn [hd].
  unfold g in R. destruct v; cbn [gmap level_rel] in R.
  - destruct R as [Rr Rv]. apply Forall_cons_iff in Rv. destruct Rv as [[Rv1 Rv2] _]. split; [exact Rv1|]. intros _ Hok. split; [exact Rv2|].
    assert (Hits : len its = ps).
    { rewrite Forall_forall in HF. apply (HF (true, e, its)). apply in_app_iff. right. left. reflexivity. }
    destruct (merge_tree_out ps w its Hps Hw Hits Hok) as (x & X1 & X2).
    rewrite Hn in X1.
    rewrite X1 in Rr. destruct x as [x1 x2]. cbn [fst snd regs_of map] in Rr, X2. injection Rr as R1 R2. unfold concat_item in X2. injection X2 as X3 X4. rewrite R1, R2, X3, X4.
    destruct (concat_item_ok w its Hok) as [Y1 [Y2 Y3]]. unfold concat_item in *. cbn [fst snd] in *.
    split; [|split; [|split; [assumption|unfold len in Hits; lia]]].
    + unfold item_bits in Y1. cbn in Y1. rewrite Y1. unfold items_bits. rewrite flat_map_concat_map. reflexivity.
    + clear. induction its as [|[a b] r IH]; cbn; [reflexivity|]. unfold sum_ctr in IH. cbn in IH. lia.
  - apply Forall_cons_iff in R. destruct R as [R _]. split; [exact R|discriminate].
Qed.

Example C08_example : (* three lanes, two tree levels *)
  merge_levels 3 = 2 /\
  merge_out 3 8 (merge_run 3 8 (merge_init 3) ([] ++ (true, true, [(5, 3); (1, 1); (2, 2)]) :: [(false, false, [(0,0);(0,0);(0,0)])]))
    = (46, 6) /\ bitsz 6 46 = [true;false;true] ++ [true] ++ [true;false].
Proof. repeat split; reflexivity. Qed.

(* ------------------------------------------------------------------ C10, C11 *)

(* a run of the position signals: per cycle new_input and the width/height wires *)
Fixpoint sig_run (ps : Z) (s : sig_st) (l : list (bool * Z * Z)) : sig_st :=
  match l with [] => s | (v, w, h) :: r => sig_run ps (sig_step ps s v w h) r end.
Definition inputs (l : list (bool * Z * Z)) : Z := len (filter (fun x => fst (fst x)) l).
(* the registers hold the frame size whenever a group is presented *)
Definition sized (W H : Z) (x : bool * Z * Z) : Prop := fst (fst x) = true -> snd (fst x) = W /\ snd x = H.

Lemma inputs_app a b : inputs (a ++ b) = inputs a + inputs b.
Proof. unfold inputs, len. rewrite filter_app, app_length. lia. Qed.

Lemma sig_run_app ps s a b : sig_run ps s (a ++ b) = sig_run ps (sig_run ps s a) b.
Proof. revert s. induction a as [|[[v w] h] a IH]; intros; [reflexivity|]. cbn. apply IH. Qed.

Lemma sig_run_ok ps W H G : geom ps W H G -> forall l, Forall (sized W H) l ->
  (inputs l < G * H -> sig_rel ps W H G (inputs l) (sig_run ps sig_init l)) /\
  (G * H <= inputs l -> sg_fsm (sig_run ps sig_init l) = SIG_END /\ sg_end_of_frame (sig_run ps sig_init l) = true).
Proof.
  intros Hg l. pose proof Hg as (G1 & G2 & G3 & G4 & G5 & G6 & G7).
  induction l as [|x l IH] using rev_ind; intros HF.
  - split; [intros _; apply sig_rel_init; assumption|]. intros. cbn in H0. lia.
  - apply Forall_app in HF. destruct HF as [HF Hx]. apply Forall_cons_iff in Hx. destruct Hx as [Hs _]. specialize (IH HF). destruct IH as [IH1 IH2].
    rewrite sig_run_app, inputs_app. destruct x as [[v w] h]. cbn [sig_run]. unfold sized in Hs. cbn [fst snd] in Hs.
    assert (Hnn : 0 <= inputs l) by (unfold inputs, len; lia).
    destruct v.
    + destruct (Hs eq_refl) as [E1 E2]. clear Hs.
      assert (Hone : inputs [(true, w, h)] = 1) by reflexivity. rewrite ?Hone in *.
      split; intros Hk.
      * subst w h. apply sig_step_acc; [assumption|apply IH1; lia|lia].
      * destruct (Z_lt_le_dec (inputs l) (G * H)) as [Hlt|Hge].
        -- specialize (IH1 Hlt). assert (Hk' : inputs l = G * H - 1) by lia.
           destruct IH1 as (_ & S2 & S3 & _). apply sig_end_stays.
           ++ rewrite S3. replace (inputs l =? 0) with false by lia. replace (inputs l <? G * H - 1) with false by lia. reflexivity.
           ++ rewrite S2. lia.
        -- destruct (IH2 Hge). apply sig_end_stays; assumption.
    + assert (Hz : inputs [(false, w, h)] = 0) by reflexivity. rewrite Hz, Z.add_0_r.
      split; intros Hk.
      * apply sig_step_gap; [apply IH1; assumption|assumption].
      * destruct (IH2 Hk). apply sig_end_stays; assumption.
Qed.

(* the registered signals before the next group, after any number of groups and gaps *)
Theorem C10_signals : forall ps W H l, 1 <= ps -> W mod ps = 0 -> 2 * ps <= W -> 1 <= H -> 3 * ps <= W * H ->
  W < 2 ^ 16 -> H < 2 ^ 16 -> Forall (sized W H) l ->
  let G := W / ps in let s := sig_run ps sig_init l in let k := inputs l in
  (k < G * H -> (sg_new_row s = true <-> (exists row, k = row * G))) /\
  (sg_end_of_frame s = true <-> G * H - 1 <= k).
Proof.
  intros ps W H l P1 P2 P3 P4 P5 P6 P7 HF G s k.
  assert (HW : W = G * ps). { unfold G. pose proof (Z.div_mod W ps ltac:(lia)). lia. }
  assert (Hg : geom ps W H G).
  { unfold geom. repeat split; try lia; nia. }
  destruct (sig_run_ok ps W H G Hg l HF) as [S1 S2]. fold s k in S1, S2.
  destruct Hg as (_ & _ & G3 & _).
  split.
  - intros Hk. destruct (S1 Hk) as (R1 & _). rewrite R1, Z.eqb_eq. split.
    + intros E. exists (k / G). pose proof (Z.div_mod k G ltac:(lia)). lia.
    + intros [row ->]. apply Z.mod_mul. lia.
  - destruct (Z_lt_le_dec k (G * H)) as [Hlt|Hge].
    + destruct (S1 Hlt) as (_ & R2 & _). rewrite R2. lia.
    + destruct (S2 Hge) as [_ R]. rewrite R. split; [lia|reflexivity].
Qed.

Example C10_example :
  let l := [(true, 4, 2); (false, 0, 0); (true, 4, 2); (true, 4, 2)] in
  Forall (sized 4 2) l /\ sg_end_of_frame (sig_run 2 sig_init l) = true /\
  sg_new_row (sig_run 2 sig_init [(true, 4, 2); (false, 0, 0); (true, 4, 2)]) = true.
Proof. cbv zeta. split; [|split; reflexivity]. repeat constructor; discriminate. Qed.

Lemma sig_never ps H : 1 <= ps < 2 ^ 16 -> 2 <= H < 2 ^ 16 -> forall l s, Forall (sized ps H) l ->
  sg_end_of_frame s = false ->
  (sg_fsm s = SIG_IDLE \/ sg_fsm s = SIG_LOOP /\ (sg_height s <> 0 \/ sg_width s = ps)) ->
  sg_end_of_frame (sig_run ps s l) = false.
Proof.
  intros Hps HH. induction l as [|[[v w] h] l IH]; intros s HF He Hs; [exact He|].
  apply Forall_cons_iff in HF. destruct HF as [Hx HF]. cbn [sig_run]. unfold sized in Hx. cbn [fst snd] in Hx.
  apply IH; [assumption| |]; unfold sig_step; destruct v.
  - destruct (Hx eq_refl) as [-> ->]. destruct Hs as [->|[-> Hs]]; [exact He|].
    cbn [sg_end_of_frame]. destruct (_ && _) eqn:E; [|exact He]. apply andb_prop in E. lia.
  - destruct Hs as [->|[-> Hs]]; assumption.
  - right. destruct (Hx eq_refl) as [-> ->]. destruct Hs as [->|[-> Hs]].
    + cbn. split; [reflexivity|]. left. rewrite trunc_id by lia. lia.
    + cbn [sg_fsm sg_height sg_width]. destruct (_ && _) eqn:E; [apply andb_prop in E; lia|]. split; [reflexivity|].
      destruct (sg_width s =? ps) eqn:E2; [right; apply trunc_id; lia|]. left. destruct Hs; [assumption|lia].
  - destruct Hs as [E|[E Hs]]; rewrite E; [left|right; split]; assumption.
Qed.

(* One group per row and at least two rows: the end of the frame is never signalled, not on the
   last group and not on any later one. *)
Theorem C11_single_group_rows : forall ps H l, 1 <= ps < 2 ^ 16 -> 2 <= H < 2 ^ 16 ->
  Forall (sized ps H) l -> sg_end_of_frame (sig_run ps sig_init l) = false.
Proof. intros. apply sig_never with (H := H); auto. Qed.

(* The two remaining shapes: a frame of one group, a one-row frame of two groups.  The end is
   signalled only 65536 groups (resp. 65536 samples) later. *)
Theorem C11_one_group : forall ps l, 1 <= ps < 2 ^ 16 -> Forall (sized ps 1) l ->
  inputs l * ps < 2 ^ 16 -> sg_end_of_frame (sig_run ps sig_init l) = false.
Proof.
  intros ps l Hps HF. 
  assert (Hinv : inputs l * ps < 2 ^ 16 ->
    let s := sig_run ps sig_init l in let k := inputs l in
    sg_end_of_frame s = false /\
    (k = 0 /\ sg_fsm s = SIG_IDLE \/ 1 <= k /\ sg_fsm s = SIG_LOOP /\ sg_width s = trunc 16 (- (k - 1) * ps))).
  { induction l as [|x l IH] using rev_ind.
    - intros _. cbn. auto.
    - apply Forall_app in HF. destruct HF as [HF Hx]. apply Forall_cons_iff in Hx. destruct Hx as [Hx _]. specialize (IH HF).
      rewrite inputs_app, sig_run_app. intros Hk. cbv zeta in *. destruct x as [[v w] h]. cbn [sig_run].
      assert (Hnn : 0 <= inputs l) by (unfold inputs, len; lia).
      unfold sized in Hx. cbn [fst snd] in Hx. set (s := sig_run ps sig_init l) in *. set (k := inputs l) in *.
      assert (Hone : inputs [(v, w, h)] = b2z v) by (destruct v; reflexivity). rewrite Hone in *.
      assert (Hk0 : k * ps < 2 ^ 16) by (destruct v; cbn [b2z] in Hk; nia). specialize (IH Hk0). destruct IH as [I1 I2].
      destruct v; cbn [b2z] in *; unfold sig_step.
      + destruct (Hx eq_refl) as [-> ->]. destruct I2 as [[E1 E2]|[E1 [E2 E3]]]; rewrite E2.
        * cbn. rewrite E1. split; [assumption|]. right. split; [lia|]. split; [reflexivity|]. f_equal. lia.
        * assert (Hw : k = 1 /\ sg_width s = 0 \/ 2 <= k /\ sg_width s = 2 ^ 16 - (k - 1) * ps).
          { rewrite E3. unfold trunc. destruct (Z.eq_dec k 1) as [->|]; [left; split; [reflexivity|]; apply Z.mod_small; lia|].
            right. split; [lia|]. symmetry. apply Z.mod_unique with (q := -1); nia. }
          assert (N1 : (sg_width s =? 2 * ps) = false) by (apply Z.eqb_neq; nia).
          assert (N2 : (sg_width s =? ps) = false) by (apply Z.eqb_neq; nia).
          rewrite N1, N2, andb_false_r. cbn [sg_end_of_frame sg_fsm sg_width]. split; [assumption|]. right.
          split; [lia|]. split; [reflexivity|]. rewrite E3. unfold trunc. rewrite Zminus_mod_idemp_l. f_equal. lia.
      + rewrite Z.add_0_r. destruct I2 as [[E1 E2]|[E1 [E2 E3]]]; rewrite E2; auto. }
  intros Hk. apply Hinv. assumption.
Qed.

Theorem C11_two_groups : forall ps l, 1 <= ps < 2 ^ 15 -> Forall (sized (2 * ps) 1) l ->
  inputs l < 2 ^ 17 -> sg_end_of_frame (sig_run ps sig_init l) = false.
Proof.
  intros ps l Hps HF.
  assert (Hinv : inputs l < 2 ^ 17 ->
    let s := sig_run ps sig_init l in let k := inputs l in
    sg_end_of_frame s = false /\
    (k = 0 /\ sg_fsm s = SIG_IDLE \/
     1 <= k /\ sg_fsm s = SIG_LOOP /\ sg_width s = (if k mod 2 =? 1 then ps else 2 * ps) /\ sg_height s = trunc 16 (- (k / 2)))).
  { induction l as [|x l IH] using rev_ind.
    - intros _. cbn. auto.
    - apply Forall_app in HF. destruct HF as [HF Hx]. apply Forall_cons_iff in Hx. destruct Hx as [Hx _]. specialize (IH HF).
      rewrite inputs_app, sig_run_app. intros Hk. cbv zeta in *. destruct x as [[v w] h]. cbn [sig_run].
      assert (Hnn : 0 <= inputs l) by (unfold inputs, len; lia).
      unfold sized in Hx. cbn [fst snd] in Hx. set (s := sig_run ps sig_init l) in *. set (k := inputs l) in *.
      assert (Hone : inputs [(v, w, h)] = b2z v) by (destruct v; reflexivity). rewrite Hone in *.
      assert (Hk0 : k < 2 ^ 17) by (destruct v; cbn [b2z] in Hk; lia). specialize (IH Hk0). destruct IH as [I1 I2].
      destruct v; cbn [b2z] in *; unfold sig_step.
      + destruct (Hx eq_refl) as [-> ->]. destruct I2 as [[E1 E2]|[E1 [E2 [E3 E4]]]]; rewrite E2.
        * cbn [sg_end_of_frame sg_fsm sg_width sg_height]. split; [assumption|]. right. split; [lia|]. rewrite E1.
          split; [reflexivity|]. change ((0 + 1) mod 2 =? 1) with true. cbn iota. change (- ((0 + 1) / 2)) with 0. split; [rewrite trunc_id; lia|reflexivity].
        * destruct (succ_mod k 2 ltac:(lia) ltac:(lia)) as [M1 M2]. rewrite M1, M2. 
          assert (Hm : k mod 2 = 0 \/ k mod 2 = 1) by (pose proof (Z.mod_pos_bound k 2 ltac:(lia)); lia).
          cbn [sg_end_of_frame sg_fsm sg_width sg_height]. rewrite E3.
          destruct Hm as [Hm|Hm]; rewrite Hm.
          -- change (0 =? 1) with false. change (0 =? 2 - 1) with false. cbn iota.
             replace (2 * ps =? ps) with false by lia. rewrite Z.eqb_refl.
             assert (Hh : (sg_height s =? 0) = false).
             { apply Z.eqb_neq. rewrite E4. unfold trunc. assert (k = 2 * (k / 2)) by (pose proof (Z.div_mod k 2 ltac:(lia)); lia).
               assert ((- (k / 2)) mod 2 ^ 16 = 2 ^ 16 - k / 2) as ->; [|lia].
               symmetry. apply Z.mod_unique with (q := -1); lia. }
             rewrite Hh. cbn [andb]. split; [assumption|]. right. split; [lia|]. split; [reflexivity|]. split; [|assumption].
             change (0 + 1 =? 1) with true. cbn iota. rewrite trunc_id by lia. lia.
          -- change (1 =? 1) with true. change (1 =? 2 - 1) with true. cbn iota. rewrite Z.eqb_refl.
             replace (ps =? 2 * ps) with false by lia. rewrite andb_false_r. split; [assumption|]. right.
             split; [lia|]. split; [reflexivity|]. split; [change (0 =? 1) with false; cbn iota; apply trunc_id; lia|].
             rewrite E4. unfold trunc. rewrite Zminus_mod_idemp_l. f_equal. lia.
      + rewrite Z.add_0_r. destruct I2 as [[E1 E2]|[E1 [E2 E3]]]; rewrite E2; auto. }
  intros Hk. apply Hinv. assumption.
Qed.

(* so "the last group of the frame is marked" fails for every frame of these shapes *)
Theorem C11_end_missed : forall ps W H l, 1 <= ps < 2 ^ 15 -> 1 <= H < 2 ^ 16 ->
  (W = ps \/ W = 2 * ps /\ H = 1) -> Forall (sized W H) l ->
  inputs l = W / ps * H - 1 -> sg_end_of_frame (sig_run ps sig_init l) = false.
Proof.
  intros ps W H l Hps HH Hsh HF Hk. destruct Hsh as [->|[-> ->]].
  - destruct (Z.eq_dec H 1) as [->|].
    + apply C11_one_group; [lia|assumption|]. rewrite Z.div_same in Hk by lia. lia.
    + apply C11_single_group_rows with (H := H); [lia|lia|assumption].
  - apply C11_two_groups; [lia|assumption|]. rewrite Z.div_mul in Hk by lia. lia.
Qed.

Example C11_example : Forall (sized 4 3) [(true,4,3);(true,4,3)] /\ inputs [(true,4,3);(true,4,3)] = 4 / 4 * 3 - 1.
Proof. split; [repeat constructor|reflexivity]. Qed.

(* ------------------------------------------------------------------ C09 *)

Record i1_in := { j_valid : bool; j_px : list Z; j_w : Z; j_h : Z }.
Fixpoint i1_run (c : config) (mem : list Z) (s : i1_st) (l : list i1_in) : i1_st :=
  match l with [] => s | i :: r => i1_run c mem (i1_step c mem s (j_valid i) (j_px i) (j_w i) (j_h i)) r end.
Definition groups (l : list i1_in) : list (list Z) := map j_px (filter j_valid l).
Definition jok (c : config) (W H : Z) (i : i1_in) : Prop :=
  j_valid i = true -> group_ok (bd c) (ps c) (j_px i) /\ j_w i = W /\ j_h i = H.

Definition i1_entry (c : config) (G H : Z) (A : list (list Z)) (i : i1_in) : option grp :=
  if j_valid i then Some (j_px i, gpred (bd c) (ps c) G A (len A), G * H - 1 <=? len A) else None.

Lemma groups_app a b : groups (a ++ b) = groups a ++ groups b.
Proof. unfold groups. rewrite filter_app, map_app. reflexivity. Qed.

Lemma i1_run_ok c mem W H G : cfg_ok c = true -> geom (ps c) W H G -> 4 / ps c <= G ->
  forall l s A hist, i1_inv c mem s hist -> (len A < G * H -> sig_rel (ps c) W H G (len A) (i1_sig s)) ->
  pred_rel (bd c) (ps c) G A (i1_pred s) -> Forall (group_ok (bd c) (ps c)) A -> Forall (jok c W H) l ->
  len A + len (groups l) <= G * H ->
  exists h2, i1_inv c mem (i1_run c mem s l) (h2 ++ hist) /\ length h2 = length l /\
    forall a x b, l = a ++ x :: b -> nth (length b) h2 None = i1_entry c G H (A ++ groups a) x.
Proof.
  intros Hc Hg HG4. assert (Hps : ps c = 1 \/ ps c = 2 \/ ps c = 4) by (unfold cfg_ok in Hc; lia).
  induction l as [|i l IH]; intros s A hist I S R HA HF Hn.
  - exists []. split; [exact I|]. split; [reflexivity|]. intros [|? ?] x b E; discriminate.
  - apply Forall_cons_iff in HF. destruct HF as [Hi HF]. cbn [i1_run].
    set (s' := i1_step c mem s (j_valid i) (j_px i) (j_w i) (j_h i)).
    change (i :: l) with ([i] ++ l) in Hn. rewrite groups_app in Hn. 
    assert (Hn' : len A + len (groups [i]) + len (groups l) <= G * H) by (unfold len in *; rewrite app_length in Hn; lia).
    unfold groups in Hn' at 1. cbn [filter] in Hn'.
    assert (K : i1_inv c mem s' (i1_entry c G H A i :: hist) /\
      (len (A ++ groups [i]) < G * H -> sig_rel (ps c) W H G (len (A ++ groups [i])) (i1_sig s')) /\
      pred_rel (bd c) (ps c) G (A ++ groups [i]) (i1_pred s') /\ Forall (group_ok (bd c) (ps c)) (A ++ groups [i])).
    { unfold i1_entry, groups. cbn [filter]. destruct (j_valid i) eqn:Ev; cbn [map].
      - destruct (Hi Ev) as (X1 & X2 & X3). change (len (map j_px [i])) with 1 in Hn'.
        assert (Hlt : len A < G * H) by (unfold len in *; lia).
        destruct (S Hlt) as (S1 & S2 & S3 & S4). specialize (S Hlt).
        assert (Hp := pred_step_acc (bd c) (ps c) G A (i1_pred s) (sg_end_of_frame (i1_sig s)) (j_px i) HG4 ltac:(apply Hg) R).
        cbv zeta in Hp. rewrite <- S1 in Hp. destruct Hp as (P1 & P2 & P3).
        split; [|split; [|split]].
        + rewrite <- S2. unfold s'. apply (i1_inv_step c mem s hist true (j_px i) (j_w i) (j_h i) (gpred (bd c) (ps c) G A (len A)) Hps I).
          intros _. split; [apply X1|]. split; [|exact P3].
          apply gpred_len; [assumption|destruct Hg; lia|]. eapply Forall_impl; [|exact HA]. intros g Hg0. apply Hg0.
        + rewrite len_snoc. intros Hl2. unfold s'. rewrite X2, X3. cbn [i1_sig i1_step]. apply sig_step_acc; [assumption|assumption|].
          unfold len in *. lia.
        + unfold s'. exact P1.
        + apply Forall_app. split; [assumption|]. constructor; [assumption|constructor].
      - rewrite app_nil_r. split; [|split; [|split; [|assumption]]].
        + unfold s'. apply (i1_inv_step c mem s hist false (j_px i) (j_w i) (j_h i) [] Hps I). discriminate.
        + intros Hl2. unfold s'. cbn [i1_sig i1_step]. apply sig_step_gap; [auto|unfold len; lia].
        + unfold s'. cbn [i1_pred i1_step]. apply pred_step_gap. assumption. }
    destruct K as (K1 & K2 & K3 & K4).
    destruct (IH s' _ _ K1 K2 K3 K4 HF) as (h2 & J1 & J2 & J3).
    { unfold len in *. rewrite !app_length in *. lia. }
    exists (h2 ++ [i1_entry c G H A i]). split; [rewrite <- app_assoc; exact J1|].
    split; [rewrite app_length, J2; cbn; lia|].
    intros [|y a] x b E; cbn in E; injection E as E1 E2.
    + subst. rewrite <- J2, app_nth2, Nat.sub_diag by lia. cbn. rewrite app_nil_r. reflexivity.
    + subst i. rewrite app_nth1.
      * rewrite (J3 a x b E2). change (y :: a) with ([y] ++ a). rewrite groups_app, app_assoc. reflexivity.
      * rewrite J2, E2, app_length. cbn. lia.
Qed.

(* The arithmetic pipeline (integration_1) after `before`, the cycle x, and enough further cycles:
   its output is the encoding of the group of cycle x if x carried one, and invalid otherwise. *)
Theorem C09_pipeline : forall c t W H rps before x after,
  cfg_ok c = true -> table_ok (bd c) t -> frame_ok c W H -> len rps = ps c ->
  Forall (jok c W H) (before ++ x :: after) ->
  len (groups (before ++ x :: after)) * ps c <= W * H ->
  len after + 1 = 5 + clog2 (ps c) ->
  let s := i1_run c (mem_of (bd c) t) (i1_reset c rps) (before ++ x :: after) in
  i1_valid_out c s = j_valid x /\
  (j_valid x = true ->
    i1_end_out c s = (len (groups before) + 1 =? W / ps c * H) /\
    let '(value, count) := i1_out c s in
    bitsz count value = ref_encode t (bd c) W (concat (groups before)) (j_px x) /\
    0 <= value < 2 ^ count /\ 1 <= count <= total_ctr c).
Proof.
  intros c t W H rps before x after Hc Ht Hf Hr HF Hn Hla s.
  assert (Hps : ps c = 1 \/ ps c = 2 \/ ps c = 4) by (unfold cfg_ok in Hc; lia).
  destruct (frame_geom c W H Hc Hf) as [Hg HG4]. set (G := W / ps c) in *.
  pose proof Hg as (Q1 & Q2 & Q3 & Q4 & Q5 & Q6 & Q7).
  destruct (i1_run_ok c (mem_of (bd c) t) W H G Hc Hg HG4 (before ++ x :: after) (i1_reset c rps) [] [])
    as (h2 & I & L & E); try assumption.
  { apply i1_inv_reset; [lia|assumption]. }
  { intros _. apply sig_rel_init. assumption. }
  { apply pred_rel_init; assumption. }
  { constructor. }
  { change (len (@nil (list Z))) with 0. nia. }
  fold s in I. specialize (E before x after eq_refl). rewrite app_nil_r in I.
  assert (Hlat : (latency c - 1)%nat = length after).
  { unfold latency. assert (merge_levels (ps c) = clog2 (ps c)) as -> by reflexivity.
    destruct Hps as [P|[P|P]]; rewrite P in *; unfold len in Hla; cbn in Hla |- *; lia. }
  destruct (i1_inv_out c (mem_of (bd c) t) s h2 Hc I) as [V O]. rewrite Hlat, E in V, O.
  unfold i1_entry in V, O. cbn [app] in V, O. split; [rewrite V; destruct (j_valid x); reflexivity|].
  intros Hv. rewrite Hv in O.
  assert (HFx : jok c W H x). { rewrite Forall_forall in HF. apply HF. apply in_app_iff. right. left. reflexivity. }
  destruct (HFx Hv) as (X1 & X2 & X3).
  assert (HA : Forall (group_ok (bd c) (ps c)) (groups before)).
  { apply Forall_app in HF. destruct HF as [HF _]. clear - HF. induction HF as [|y l Hy HF IH]; [constructor|].
    unfold groups. cbn [filter]. destruct (j_valid y) eqn:E; [|exact IH]. cbn [map]. constructor; [apply Hy; assumption|exact IH]. }
  assert (HA' : Forall (fun g => len g = ps c) (groups before)).
  { eapply Forall_impl; [|exact HA]. intros g X. apply X. }
  assert (Hpr : group_ok (bd c) (ps c) (gpred (bd c) (ps c) G (groups before) (len (groups before)))).
  { split; [apply gpred_len; [assumption|lia|assumption]|]. apply gpred_range; [unfold cfg_ok in Hc; lia|assumption|lia|assumption]. }
  destruct (O _ _ _ eq_refl) as [O1 O2].
  { apply (h_items_spec (bd c) t); [unfold cfg_ok in Hc; lia|assumption|apply X1|apply Hpr]. }
  split.
  { rewrite O2. 
    assert (len (groups before) + 1 <= G * H).
    { rewrite groups_app in Hn. change (x :: after) with ([x] ++ after) in Hn. rewrite groups_app in Hn. unfold groups at 2 in Hn.
      cbn [filter] in Hn. rewrite Hv in Hn. cbn [map] in Hn. unfold len in *. rewrite !app_length in Hn. cbn [length] in Hn. nia. }
    lia. }
  destruct (pipe_item c t _ _ (G * H - 1 <=? len (groups before)) Hc Ht X1 Hpr) as (Y1 & Y2 & Y3).
  rewrite O1. destruct (concat_item _) as [v n]. cbn [fst snd] in *. split; [|split; assumption].
  unfold tk, tok1 in Y3. apply app_inv_tail in Y3.
  rewrite Q2, ref_encode_group by (try assumption; try apply X1; lia).
  revert Y3. generalize (bitsz n v). generalize (concat (map2 (fun p q => encode_diff t (p - q)) (j_px x)
     (gpred (bd c) (ps c) G (groups before) (len (groups before))))). clear.
  induction l as [|y l IH]; intros [|z l2] E; cbn in E; try discriminate; [reflexivity|].
  injection E as E1 E2. f_equal; [congruence|]. apply IH. assumption.
Qed.

(* a concrete pipeline: 2 pixels per cycle, one group and a gap *)
Definition ex_cfg : config := {| bd := 12; ps := 2; ljd := 25; conv := 20; cfd := 20; outb := 16; bufs := 36 |}.
Definition mkj v px := {| j_valid := v; j_px := px; j_w := 4; j_h := 2 |}.
Example C09_example :
  let l := [mkj false []] ++ mkj true [5; 4000] :: [mkj false []; mkj true [1;2]; mkj false []; mkj false []; mkj false []] in
  cfg_ok ex_cfg = true /\ frame_ok ex_cfg 4 2 /\ Forall (jok ex_cfg 4 2) l /\
  i1_valid_out ex_cfg (i1_run ex_cfg (init_huff_table 12) (i1_reset ex_cfg [0; 0]) l) = true.
Proof.
  cbv zeta. split; [reflexivity|]. split; [repeat split; cbn; lia|]. split; [|reflexivity].
  unfold jok, group_ok, in_range. repeat constructor; cbn; try discriminate; lia.
Qed.

(* ------------------------------------------------------------------ C45 *)

Definition max_bits (bd : Z) : Z := if bd <=? 7 then 3 + bd else 2 * Z.min bd 15 - 3.

Lemma code_size bd s : 2 <= bd <= 16 -> 0 <= s <= bd ->
  4 <= len (code_bits (std_table bd) s) + (if s =? 16 then 0 else s) <= max_bits bd.
Proof.
  intros Hb Hs.
  assert (Hchk : forallb (fun s => let n := len (code_bits (std_table bd) s) + (if s =? 16 then 0 else s) in
     (4 <=? n) && (n <=? max_bits bd)) (zseq (bd + 1)) = true).
  { clear s Hs. revert bd Hb. apply bd_cases. repeat constructor. }
  rewrite forallb_forall in Hchk. specialize (Hchk s (zseq_in (bd + 1) s ltac:(lia))). cbv zeta in Hchk. lia.
Qed.

(* the size of an encoded frame, and of its stuffed version *)
Theorem C45_size : forall bd W px img, 2 <= bd <= 16 -> Forall (in_range bd) img -> Forall (in_range bd) px ->
  4 * len px <= len (ref_encode (std_table bd) bd W img px) <= max_bits bd * len px.
Proof.
  intros bd W px img Hb. revert img. induction px as [|p px IH]; intros img Hi Hp; [cbn; lia|].
  apply Forall_cons_iff in Hp. destruct Hp as [Hp1 Hp]. cbn [ref_encode].
  specialize (IH (img ++ [p])). 
  assert (Hpr : in_range bd (prediction bd W img (Z.of_nat (length img)))) by (apply prediction_range; [lia|assumption]).
  set (d := p - prediction bd W img (Z.of_nat (length img))).
  assert (Hd : Z.abs d < 2 ^ bd) by (unfold in_range, d in *; lia).
  assert (Hcat : 0 <= category d <= bd) by (apply category_range; lia).
  pose proof (code_size bd (category d) Hb Hcat) as Hcs.
  assert (He : len (encode_diff (std_table bd) d) = len (code_bits (std_table bd) (category d)) + (if category d =? 16 then 0 else category d)).
  { unfold encode_diff, extra_bits. unfold len at 1. rewrite app_length, Nat2Z.inj_add.
    destruct (category d =? 16); [cbn; unfold len; lia|]. rewrite bitsz_length by lia. reflexivity. }
  assert (IH' := IH ltac:(apply Forall_app; split; [assumption|constructor; [assumption|constructor]]) Hp).
  unfold len in *. rewrite app_length. cbn [length]. lia.
Qed.

Theorem C45_stuffed : forall l, (length l <= length (stuff l) <= 2 * length l)%nat.
Proof.
  intros l. unfold stuff. induction l as [|b l IH]; [cbn; lia|]. cbn [flat_map]. rewrite app_length.
  assert (1 <= length (stuff_byte b) <= 2)%nat by (unfold stuff_byte; destruct (b =? 255); cbn; lia). cbn [length]. lia.
Qed.

Example C45_example : max_bits 12 = 21 /\ len (ref_encode (std_table 12) 12 4 [] [0; 4095; 2048; 2049]) = 48.
Proof. split; reflexivity. Qed.
