(* decoding arbitrary bytes: what parsePred6 writes and reads *)
From Verif Require Import Bits Spec Spec_Lj92 Spec_P6 M_Lj92 M_Pred6 P_Lj92 P_Pred6 P_Rob P_Rob2 P_Rob3.
Ltac Zify.zify_post_hook ::= idtac.

Section P6.
Variables (d : lmem) (U dl : Z) (h : lj_hdr) (a : dec_arg) (wl : Z) (img : lmem) (start : Z).
Hypothesis Hd : byte_mem d.
Hypothesis Hh : shape h.
Hypothesis Hstart : 0 <= start.
Let x := j_x h. Let y := j_y h. Let N := j_comp h.
Hypothesis Hx : 1 <= x.
Hypothesis HN : 1 <= N.
Definition pos6 (k : Z) : Z := if 2 <=? wl then tile_pos wl (da_skip a) k else k.
Definition region6 (p : Z) : Prop := exists k, 0 <= k < x * Z.max y 1 /\ p = pos6 k.
Definition rdh6 := rd (j_huffbits h) (j_lut h) start.
Definition orO (s : p6_st) (P : Prop) : Prop := n_oob (q_nd s) = true \/ P.
(* the write counter and the target pointer when c samples have been written *)
Definition wrel (c : Z) (s : p6_st) : Prop := (2 <= wl /\ q_write s = wl - c mod wl /\ q_out s = c / wl * da_skip a) \/ (wl <= 1 /\ q_out s = 0 /\ (q_write s <= 0 \/ c = 0)).
Definition core (c : Z) (s : p6_st) : Prop :=
  q_c s = c /\ (q_this s = 0 \/ q_this s = x) /\ (q_last s = 0 \/ q_last s = x) /\ (forall p, q_img s p <> img p -> region6 p) /\ rdh6 c (q_nd s).
(* at most m samples since the last comparison with the end of the file *)
Definition lim (m : Z) (s : p6_st) : Prop := orO s (n_ix (q_nd s) <= Z.max start dl + 10 * m).
Definition ends6 (s : p6_st) : Prop := (forall p, q_img s p <> img p -> region6 p) /\ (exists K, 0 <= K <= x * Z.max y 1 /\ rdh6 K (q_nd s)) /\ lim x s.

Lemma wrel_pos c s : 0 <= c -> wrel c s -> q_out s + c = pos6 c.
Proof.
  intros Hc [(A & B & C)|(A & B & C)]; unfold pos6.
  - replace (2 <=? wl) with true by lia. rewrite C. unfold tile_pos. lia.
  - replace (2 <=? wl) with false by lia. lia.
Qed.
Lemma put_inv chk px ok c m s : core c s -> wrel c s -> lim m s -> 0 <= m < x -> 0 <= q_col s < x -> 0 <= c < x * Z.max y 1 -> ok = true ->
  match p6_put U d h a chk px ok s with
  | Go s' => core (c + 1) s' /\ q_write s' = q_write s /\ q_out s' = q_out s /\ lim (m + 1) s' /\ q_col s' = q_col s + 1 /\ (forall P, orO s P -> orO s' P)
  | Ret r s' => r = CORRUPT /\ ends6 s' end.
Proof.
  intros (I1 & I2 & I3 & I4 & I5) HW HL Hm Hcol Hc ->. pose proof Hh as (S1 & S2 & S3 & S4 & S5 & S6 & S7). fold x in S1. fold y in S2. fold N in S4.
  pose proof (rd_next d U _ _ start Hd S5 S7 _ _ I5) as R. pose proof (nextdiff_oob d U (j_huffbits h) (j_lut h) (q_nd s)) as MO. pose proof (wrel_pos c s ltac:(lia) HW) as EP.
  assert (W : row_ok h (q_this s + q_col s) = true). { unfold row_ok. fold x. fold N. assert (x <= x * N) by nia. destruct I2 as [E|E]; rewrite E; lia. }
  assert (L : n_oob (snd (nextdiff U d (j_huffbits h) (j_lut h) (q_nd s))) = true \/ n_ix (snd (nextdiff U d (j_huffbits h) (j_lut h) (q_nd s))) <= Z.max start dl + 10 * (m + 1)).
  { destruct HL as [HL|HL]; [left; apply MO; exact HL|]. destruct I5 as [[A B]|(A & B & _)]; [left; apply MO; exact A|].
    destruct (nextdiff_any d Hd U _ _ S5 S7 (q_nd s) A B) as [[G _]|(_ & _ & _ & G)]; [left; exact G|right]. unfold adv in G. cbn [n_ix] in G. lia. }
  unfold p6_put. destruct (nextdiff U d (j_huffbits h) (j_lut h) (q_nd s)) as [diff nd]. cbn [snd] in *. set (left := trunc 16 _). clearbody left. rewrite W. cbn [negb]. rewrite !orb_false_r.
  assert (End : {| n_b := n_b nd; n_cnt := n_cnt nd; n_ix := n_ix nd; n_hi := n_hi nd; n_oob := n_oob nd |} = nd) by (destruct nd; reflexivity). rewrite End. clear End.
  assert (Good : forall v, match (Go {| q_nd := nd; q_rows := upd (q_rows s) (q_this s + q_col s) left; q_img := upd (q_img s) (q_out s + q_c s) v; q_left := left;
                     q_this := q_this s; q_last := q_last s; q_col := q_col s + 1; q_c := q_c s + 1; q_out := q_out s; q_write := q_write s |}) with
    | Go s' => core (c + 1) s' /\ q_write s' = q_write s /\ q_out s' = q_out s /\ lim (m + 1) s' /\ q_col s' = q_col s + 1 /\ (forall P, orO s P -> orO s' P) | Ret r s' => r = CORRUPT /\ ends6 s' end).
  { intros v. unfold core, lim, orO. cbn [q_c q_this q_last q_img q_nd q_write q_out q_col]. split; [split; [lia|]; split; [exact I2|]; split; [exact I3|]; split; [|exact R]|].
    - intros p. unfold upd. destruct (p =? _) eqn:Ep; [|apply I4]. intros _. exists c. split; [exact Hc|]. lia.
    - split; [reflexivity|]. split; [reflexivity|]. split; [exact L|]. split; [reflexivity|]. intros P [HP|HP]; [left; apply MO; exact HP|right; exact HP]. }
  destruct (da_lin a) as [f|]; [|apply Good]. destruct (chk && (da_linlen a <? left)); [|apply Good].
  split; [reflexivity|]. unfold ends6, lim, orO. cbn [q_img q_nd]. split; [exact I4|]. split; [exists (c + 1); split; [lia|exact R]|]. destruct L as [L|L]; [left; exact L|right; lia].
Qed.
Lemma skip_wrel c s s' : 0 <= c -> wrel c s -> (1 <= c \/ wl <= 1 -> True) -> q_write s' = q_write s -> q_out s' = q_out s -> 1 <= c -> wrel (c + 1) (p6_skip a wl s').
Proof.
  intros Hc HW _ E1 E2 H1. unfold wrel, p6_skip. cbn [q_write q_out]. rewrite E1, E2. destruct HW as [(A & B & C)|(A & B & C)].
  - left. split; [exact A|]. rewrite B, C. pose proof (Z.mod_pos_bound c wl ltac:(lia)) as HM. pose proof (Z.div_mod c wl ltac:(lia)) as HD. set (q := c / wl) in *. set (r := c mod wl) in *. clearbody q r.
    destruct (wl - r - 1 =? 0) eqn:E.
    + assert (EQ : c + 1 = (q + 1) * wl + 0) by nia. assert ((c + 1) mod wl = 0) by (rewrite EQ, Z.add_0_r, Z.mod_mul; lia). assert ((c + 1) / wl = q + 1) by (rewrite EQ, Z.add_0_r, Z.div_mul; lia). rewrite H, H0. lia.
    + assert (EQ : c + 1 = (r + 1) + q * wl) by lia. assert ((c + 1) mod wl = r + 1) by (rewrite EQ, Z.mod_add, Z.mod_small; lia). assert ((c + 1) / wl = q) by (rewrite EQ, Z.div_add, Z.div_small; lia). rewrite H, H0. lia.
  - right. assert (q_write s <= 0) by lia. replace (q_write s - 1 =? 0) with false by lia. split; [exact A|]. split; [exact B|]. left. lia.
Qed.
Lemma skip_core c s : core c s -> core c (p6_skip a wl s).
Proof. intros H. exact H. Qed.

(* c samples, column col, m samples since the last comparison *)
Definition st6 (c col m : Z) (s : p6_st) : Prop := core c s /\ wrel c s /\ lim m s /\ q_col s = col.

Lemma row_loop r : 1 <= r -> (r + 1) * x <= x * Z.max y 1 -> forall n col m s, st6 (r * x + col) col m s -> 1 <= col -> col + Z.of_nat n = x -> 0 <= m -> m < col ->
  match p6_loop n (p6_row_body U d h a wl) s with
  | Go s' => core ((r + 1) * x) s' /\ wrel ((r + 1) * x) s' /\ lim (m + Z.of_nat n) s' /\ (forall P, orO s P -> orO s' P)
  | Ret r s' => r = CORRUPT /\ ends6 s' end.
Proof.
  intros Hr Hy. induction n as [|n IH]; intros col m s (I1 & I2 & I3 & I4) Hcol Hn Hm Hmc.
  - cbn [p6_loop]. replace ((r + 1) * x) with (r * x + col) by lia. replace (m + Z.of_nat 0) with m by lia. auto.
  - cbn [p6_loop]. unfold p6_row_body at 1.
    assert (OK : row_ok h (q_last s + q_col s) && row_ok h (q_last s + q_col s - 1) = true). { destruct I1 as (_ & _ & I1 & _). rewrite I4. unfold row_ok. fold x. fold N. assert (x <= x * N) by nia. destruct I1 as [E|E]; rewrite E; lia. }
    pose proof (put_inv true (q_rows s (q_last s + q_col s) + Z.shiftr (q_left s - q_rows s (q_last s + q_col s - 1)) 1) _ _ m s I1 I2 I3 ltac:(lia) ltac:(lia) ltac:(nia) OK) as P.
    cbv zeta. rewrite OK in P. rewrite OK.
    destruct (p6_put U d h a true _ true s) as [s'|rr s']; [|exact P]. destruct P as (P1 & P2 & P3 & P4 & P5 & P6).
    specialize (IH (col + 1) (m + 1) (p6_skip a wl s')).
    assert (S' : st6 (r * x + (col + 1)) (col + 1) (m + 1) (p6_skip a wl s')).
    { replace (r * x + (col + 1)) with (r * x + col + 1) by lia. split; [exact P1|]. split; [apply (skip_wrel _ s); [nia|exact I2|auto|exact P2|exact P3|nia]|]. split; [exact P4|]. unfold p6_skip. cbn [q_col]. lia. }
    specialize (IH S' ltac:(lia) ltac:(lia) ltac:(lia) ltac:(lia)). destruct (p6_loop n _ _) as [s''|rr s'']; [|exact IH]. destruct IH as (A & B & C & D). split; [exact A|]. split; [exact B|].
    split; [replace (m + Z.of_nat (S n)) with (m + 1 + Z.of_nat n) by lia; exact C|]. intros Q HQ. apply D. exact (P6 Q HQ).
Qed.

(* what is known when the decoder returns *)
Definition fin6 (r : Z) (s : p6_st) : Prop := ends6 s /\ (r = NONE \/ r = CORRUPT) /\ (r = NONE -> pixels h = y * x -> orO s (x * (y - 1) <= 8 * (dl - start))).
Lemma core_ends c m s : core c s -> lim m s -> 0 <= c <= x * Z.max y 1 -> m <= x -> ends6 s.
Proof. intros (_ & _ & _ & A & B) L Hc Hm. split; [exact A|]. split; [exists c; auto|]. destruct L as [L|L]; [left; exact L|right; lia]. Qed.
Lemma short K s : core K s -> orO s (n_ix (q_nd s) < dl) -> orO s (K <= 8 * (dl - start)).
Proof. intros (_ & _ & _ & _ & [[A _]|(A & _ & _ & B & _)]) [H|H]; unfold orO; auto. right. destruct A. lia. Qed.
Lemma row_inv6 r s : pixels h = y * x -> 1 <= r < y -> core (r * x) s -> wrel (r * x) s -> orO s (n_ix (q_nd s) < dl) ->
  match p6_row U d dl h a wl s with
  | Go s' => core ((r + 1) * x) s' /\ wrel ((r + 1) * x) s' /\ orO s' (n_ix (q_nd s') < dl)
  | Ret rr s' => fin6 rr s' end.
Proof.
  intros HP Hr HC HW HE. assert (Hrx : (r + 1) * x <= x * Z.max y 1) by nia.
  pose proof (short _ _ HC HE) as HQ.
  assert (L0 : lim 0 s) by (destruct HE as [H|H]; [left; exact H|right; lia]). unfold p6_row. cbv zeta.
  assert (OK : row_ok h (q_last (p6_col0 s)) = true). { destruct HC as (_ & _ & I1 & _). unfold row_ok. cbn [p6_col0 q_last]. fold x. fold N. assert (x <= x * N) by nia. destruct I1 as [E|E]; rewrite E; lia. }
  pose proof (put_inv true (q_rows (p6_col0 s) (q_last (p6_col0 s))) _ (r * x) 0 (p6_col0 s) HC HW L0 ltac:(lia) ltac:(cbn [p6_col0 q_col]; lia) ltac:(nia) OK) as P. rewrite OK in *.
  destruct (p6_put U d h a true _ true (p6_col0 s)) as [s'|rr s'].
  2:{ destruct P as [-> P]. split; [exact P|]. split; [right; reflexivity|]. intros H; discriminate H. }
  destruct P as (P1 & P2 & P3 & P4 & P5 & P6). cbn [p6_col0 q_col] in P5. rewrite HP.
  assert (FN : forall s0, (if y * x <=? q_c s0 then NONE else CORRUPT) = NONE -> y * x <= q_c s0) by (intros s0; destruct (y * x <=? q_c s0) eqn:E; [lia|discriminate]).
  assert (F2 : forall s0, (if y * x <=? q_c s0 then NONE else CORRUPT) = NONE \/ (if y * x <=? q_c s0 then NONE else CORRUPT) = CORRUPT) by (intros s0; destruct (_ <=? _); auto).
  destruct (p6_end dl s') eqn:E1.
  - split; [apply (core_ends _ 1 _ P1 P4); nia|]. split; [apply F2|]. intros H _. apply FN in H. destruct P1 as (PC & _). rewrite PC in H. specialize (P6 _ HQ). destruct P6 as [P6|P6]; [left; exact P6|right; nia].
  - assert (S' : st6 (r * x + 1) 1 0 (p6_skip a wl s')).
    { split; [exact P1|]. split; [apply (skip_wrel _ (p6_col0 s)); [nia|exact HW|auto|exact P2|exact P3|nia]|]. split; [right; unfold p6_end in E1; unfold p6_skip; cbn [q_nd]; lia|]. unfold p6_skip. cbn [q_col]. lia. }
    assert (RC : rowcount h = x - 1) by (apply rowcount_pos; destruct Hh as (Sx & _); fold x in Sx; fold x; lia). rewrite RC in *. pose proof (row_loop r ltac:(lia) Hrx (Z.to_nat (x - 1)) 1 0 _ S' ltac:(lia) ltac:(lia) ltac:(lia) ltac:(lia)) as RL. destruct (p6_loop _ _ _) as [s''|rr s''].
    2:{ destruct RL as [-> RL]. split; [exact RL|]. split; [right; reflexivity|]. intros H; discriminate H. }
    destruct RL as (R1 & R2 & R3 & R4). assert (R1' : core ((r + 1) * x) (p6_swap s'')). { destruct R1 as (A & B & C & D & E). split; [exact A|]. split; [exact C|]. split; [exact B|]. split; [exact D|exact E]. }
    destruct (p6_end dl (p6_swap s'')) eqn:E2.
    + split; [apply (core_ends _ (0 + Z.of_nat (Z.to_nat (x - 1))) _ R1' R3); nia|]. split; [apply F2|]. intros H _. apply FN in H. destruct R1' as (PC & _). rewrite PC in H.
      specialize (R4 _ (P6 _ HQ)). destruct R4 as [R4|R4]; [left; exact R4|right; nia].
    + split; [exact R1'|]. split; [exact R2|]. right. unfold p6_end in E2. lia.
Qed.
Lemma rows_inv6 : forall f r s, 1 <= r -> r <= Z.max y 1 -> y - r < Z.of_nat f -> (1 <= f)%nat -> core (r * x) s -> wrel (r * x) s -> orO s (n_ix (q_nd s) < dl) ->
  let '(rr, s') := p6_rows f U d dl h a wl s in fin6 rr s'.
Proof.
  induction f as [|f IH]; intros r s Hr Hry Hf H1 HC HW HE; [lia|]. cbn [p6_rows]. pose proof Hh as (Sx & Sy & _). pose proof (pixels_cases h Sx Sy) as PX. fold x in PX. fold y in PX.
  destruct (q_c s <? pixels h) eqn:E.
  - assert (EC : q_c s = r * x) by (destruct HC as [EC _]; exact EC). assert (HP : pixels h = y * x) by (destruct PX as [PX|[PX _]]; [exact PX|nia]). assert (Hr2 : r < y) by nia.
    pose proof (row_inv6 r s HP ltac:(lia) HC HW HE) as P. destruct (p6_row U d dl h a wl s) as [s'|rr s']; [|exact P]. destruct P as (A & B & C). apply (IH (r + 1)); try assumption; lia.
  - split; [apply (core_ends _ 0 _ HC); [destruct HE as [H|H]; [left; exact H|right; lia]|nia|lia]|]. split; [left; reflexivity|]. intros _ HP. rewrite HP in E. pose proof (short _ _ HC HE) as HQ. assert (EC : q_c s = r * x) by (destruct HC as [EC _]; exact EC).
    destruct HQ as [HQ|HQ]; [left; exact HQ|right; nia].
Qed.
Lemma first_loop : forall n col s, st6 col col 0 s -> orO s (n_ix (q_nd s) < dl) -> 1 <= col -> col + Z.of_nat n = x ->
  match p6_loop n (p6_first_body U d dl h a wl) s with
  | Go s' => core x s' /\ wrel x s' /\ orO s' (n_ix (q_nd s') < dl)
  | Ret r s' => r = CORRUPT /\ ends6 s' end.
Proof.
  induction n as [|n IH]; intros col s (I1 & I2 & I3 & I4) HE Hcol Hn.
  - cbn [p6_loop]. replace x with col by lia. auto.
  - cbn [p6_loop]. unfold p6_first_body at 1. pose proof (put_inv false (q_left s) true col 0 s I1 I2 I3 ltac:(lia) ltac:(lia) ltac:(nia) eq_refl) as P.
    destruct (p6_put U d h a false _ true s) as [s'|rr s']; [|exact P]. destruct P as (P1 & P2 & P3 & P4 & P5 & P6). destruct (p6_end dl s') eqn:E1.
    + split; [reflexivity|]. apply (core_ends _ 1 _ P1 P4); nia.
    + apply (IH (col + 1)).
      * split; [exact P1|]. split; [apply (skip_wrel _ s); [lia|exact I2|auto|exact P2|exact P3|lia]|]. split; [right; unfold p6_end in E1; unfold p6_skip; cbn [q_nd]; lia|]. unfold p6_skip. cbn [q_col]. lia.
      * right. unfold p6_end in E1. unfold p6_skip. cbn [q_nd]. lia.
      * lia.
      * lia.
Qed.
Lemma pred6_any rows : start = j_scan h + beh d (j_scan h) -> let '(r, s) := parse_pred6 U d dl h a wl rows img in fin6 r s.
Proof.
  intros Es. unfold parse_pred6. set (s0 := {| q_nd := _ |}).
  assert (C0 : core 0 s0). { unfold core, s0. cbn [q_c q_this q_last q_img q_nd]. fold x. split; [reflexivity|]. split; [left; reflexivity|]. split; [right; reflexivity|]. split; [congruence|]. unfold rdh6. rewrite <- Es. apply rd0. exact Hstart. }
  assert (W0 : wrel 0 s0). { unfold wrel, s0. cbn [q_write q_out]. destruct (Z_le_dec 2 wl); [left|right; split; [lia|]; split; [reflexivity|right; reflexivity]]. rewrite Z.mod_0_l, Z.div_0_l by lia. lia. }
  assert (L0 : lim 0 s0). { right. unfold s0. cbn [q_nd n_ix]. lia. }
  pose proof (put_inv false (Z.shiftl 1 (j_bits h - 1)) true 0 0 s0 C0 W0 L0 ltac:(lia) ltac:(unfold s0; cbn [q_col]; lia) ltac:(nia) eq_refl) as P.
  assert (Ecol : q_col s0 = 0) by reflexivity. assert (Ew : q_write s0 = wl) by reflexivity. assert (Eo : q_out s0 = 0) by reflexivity. clearbody s0. clear C0 W0 L0.
  destruct (p6_put U d h a false _ true s0) as [s'|rr s'].
  2:{ destruct P as [-> P]. split; [exact P|]. split; [right; reflexivity|]. intros H; discriminate H. }
  destruct P as (P1 & P2 & P3 & P4 & P5 & P6). destruct (p6_end dl s') eqn:E1.
  - split; [apply (core_ends _ _ _ P1 P4); nia|]. split; [right; reflexivity|]. intros H; discriminate H.
  - assert (HE : orO (p6_dec s') (n_ix (q_nd (p6_dec s')) < dl)) by (right; unfold p6_end in E1; unfold p6_dec; cbn [q_nd]; lia).
    assert (S' : st6 1 1 0 (p6_dec s')).
    { split; [exact P1|]. split.
      - unfold wrel, p6_dec. cbn [q_write q_out]. rewrite P2, P3, Ew, Eo. destruct (Z_le_dec 2 wl); [left|right; lia]. rewrite Z.mod_small, Z.div_small by lia. lia.
      - split; [right; destruct HE as [HE|HE]; [|lia]; unfold p6_end in E1; unfold p6_dec; cbn [q_nd]; lia|]. unfold p6_dec. cbn [q_col]. lia. }
    assert (RC : rowcount h = x - 1) by (apply rowcount_pos; destruct Hh as (Sx & _); fold x in Sx; fold x; lia). rewrite RC in *. pose proof (first_loop (Z.to_nat (x - 1)) 1 _ S' HE ltac:(lia) ltac:(lia)) as FL. destruct (p6_loop _ _ _) as [s''|rr s''].
    2:{ destruct FL as [-> FL]. split; [exact FL|]. split; [right; reflexivity|]. intros H; discriminate H. }
    destruct FL as (R1 & R2 & R3). pose proof Hh as (_ & S2 & _). fold y in S2. fold y.
    apply (rows_inv6 _ 1); [lia|lia|lia|lia| |rewrite Z.mul_1_l; exact R2|exact R3].
    rewrite Z.mul_1_l. destruct R1 as (A & B & C & D & E). split; [exact A|]. split; [exact C|]. split; [exact B|]. split; [exact D|exact E].
Qed.
End P6.

(* what every step preserves, the decoder preserves *)
Section Keep.
Variables (d : lmem) (U dl : Z) (h : lj_hdr) (a : dec_arg) (wl : Z) (J : p6_st -> Prop).
Hypothesis JP : forall chk px ok s, J s -> match p6_put U d h a chk px ok s with Go s' => J s' | Ret _ s' => J s' end.
Hypothesis JD : forall s, J s -> J (p6_dec s).
Hypothesis JS : forall s, J s -> J (p6_skip a wl s).
Hypothesis JW : forall s, J s -> J (p6_swap s).
Hypothesis JC : forall s, J s -> J (p6_col0 s).
Lemma loop_keep body : (forall s, J s -> match body s with Go s' => J s' | Ret _ s' => J s' end) -> forall n s, J s -> match p6_loop n body s with Go s' => J s' | Ret _ s' => J s' end.
Proof. intros HB. induction n as [|n IH]; intros s Hs; cbn [p6_loop]; [exact Hs|]. pose proof (HB s Hs) as H. destruct (body s); [apply IH; exact H|exact H]. Qed.
Lemma row_keep s : J s -> match p6_row U d dl h a wl s with Go s' => J s' | Ret _ s' => J s' end.
Proof.
  intros Hs. unfold p6_row. cbv zeta. pose proof (JP true (q_rows (p6_col0 s) (q_last (p6_col0 s))) (row_ok h (q_last (p6_col0 s))) _ (JC s Hs)) as P. destruct (p6_put U d h a true _ _ _) as [s'|r s']; [|exact P].
  destruct (p6_end dl s'); [exact P|]. assert (B : forall s, J s -> match p6_row_body U d h a wl s with Go s' => J s' | Ret _ s' => J s' end).
  { intros z Hz. unfold p6_row_body. cbv zeta. match goal with |- context [p6_put U d h a true ?px ?ok z] => pose proof (JP true px ok z Hz) as Q; destruct (p6_put U d h a true px ok z) end; [apply JS; exact Q|exact Q]. }
  pose proof (loop_keep _ B (Z.to_nat (rowcount h)) _ (JS _ P)) as L. destruct (p6_loop _ _ _) as [s''|r s'']; [|exact L]. destruct (p6_end dl (p6_swap s'')); apply JW; exact L.
Qed.
Lemma rows_keep : forall f s, J s -> J (snd (p6_rows f U d dl h a wl s)).
Proof. induction f as [|f IH]; intros s Hs; cbn [p6_rows]; [exact Hs|]. destruct (_ <? _); [|exact Hs]. pose proof (row_keep s Hs) as P. destruct (p6_row U d dl h a wl s) as [s'|r s']; [apply IH; exact P|exact P]. Qed.
Lemma pred6_keep rows img :
  let s0 := {| q_nd := {| n_b := 0; n_cnt := 0; n_ix := j_scan h + beh d (j_scan h); n_hi := 0; n_oob := false |}; q_rows := rows; q_img := img; q_left := 0;
               q_this := 0; q_last := j_x h; q_col := 0; q_c := 0; q_out := 0; q_write := wl |} in
  match p6_put U d h a false (Z.shiftl 1 (j_bits h - 1)) true s0 with Go s' => J s' | Ret _ s' => J s' end -> J (snd (parse_pred6 U d dl h a wl rows img)).
Proof.
  intros s0 H. unfold parse_pred6. fold s0. destruct (p6_put U d h a false _ true s0) as [s'|r s']; [|exact H]. destruct (p6_end dl s'); [exact H|].
  assert (B : forall s, J s -> match p6_first_body U d dl h a wl s with Go s' => J s' | Ret _ s' => J s' end).
  { intros z Hz. unfold p6_first_body. pose proof (JP false (q_left z) true z Hz) as Q. destruct (p6_put U d h a false (q_left z) true z) as [z'|]; [|exact Q]. destruct (p6_end dl z'); [exact Q|apply JS; exact Q]. }
  pose proof (loop_keep _ B (Z.to_nat (rowcount h)) _ (JD _ H)) as L. destruct (p6_loop _ _ _) as [s''|r s'']; [|exact L]. apply rows_keep. apply JW. exact L.
Qed.
End Keep.
