(* decoding arbitrary bytes: what parseScan writes and reads *)
From Verif Require Import Bits Spec M_Lj92 P_Lj92 P_Rob P_Rob2.
Ltac Zify.zify_post_hook ::= idtac.

(* ------------------------------------------------------------------ loops *)
Lemma for_inv {A : Type} (I : Z -> A -> Prop) body : forall n i (x : A), I i x ->
  (forall j y, i <= j < i + Z.of_nat n -> I j y -> match body j y with Some y' => I (j + 1) y' | None => True end) ->
  match for_loop n i body x with Some y => I (i + Z.of_nat n) y | None => True end.
Proof.
  induction n as [|n IH]; intros i x H0 HS; cbn [for_loop]; [replace (i + Z.of_nat 0) with i by lia; exact H0|].
  pose proof (HS i x ltac:(lia) H0) as H1. destruct (body i x) as [y|]; [|exact Logic.I]. replace (i + Z.of_nat (S n)) with (i + 1 + Z.of_nat n) by lia. apply IH; [exact H1|]. intros j z Hj. apply HS. lia.
Qed.
Lemma for_stop_inv {A : Type} (I : Z -> A -> Prop) (J : A -> Prop) body stop : forall n i (x : A), I i x ->
  (forall j y, i <= j < i + Z.of_nat n -> I j y -> match body j y with Some y' => I (j + 1) y' | None => J (stop j y) end) ->
  for_loop n i body x = None -> J (for_stop n i body stop x).
Proof.
  induction n as [|n IH]; intros i x H0 HS; cbn [for_loop for_stop]; [discriminate|].
  pose proof (HS i x ltac:(lia) H0) as H1. destruct (body i x) as [y|]; [|intros _; exact H1]. apply IH; [exact H1|]. intros j z Hj. apply HS. lia.
Qed.
Lemma for_some {A : Type} body : (forall j (y : A), body j y <> None) -> forall n i x, for_loop n i body x <> None.
Proof. intros H. induction n as [|n IH]; intros i x; cbn [for_loop]; [discriminate|]. pose proof (H i x). destruct (body i x); [apply IH|congruence]. Qed.

(* ------------------------------------------------------------------ the reader after K samples *)
Section Rd.
Variables (d : lmem) (U M : Z) (lut : list Z) (start : Z).
Hypothesis Hd : byte_mem d.
Hypothesis HM : 0 <= M <= 16.
Hypothesis Hsh : Forall (fun e => exists v l, 0 <= v < 256 /\ 1 <= l <= M /\ e = v * 256 + l) lut.
Definition rd (K : Z) (s : nd_st) : Prop :=
  (n_oob s = true /\ ~ full M lut) \/
  (nd_rng s /\ n_oob s = false /\ start <= n_ix s <= start + 10 * K /\ 8 * start + K <= 8 * n_ix s - n_cnt s /\ (n_hi s = 0 /\ n_ix s = start \/ n_ix s - 2 <= n_hi s) /\ n_hi s <= Z.max 0 (n_ix s - 1)).
Definition same_rd (s s' : nd_st) : Prop := n_b s' = n_b s /\ n_cnt s' = n_cnt s /\ n_ix s' = n_ix s /\ n_hi s' = n_hi s /\ n_oob s' = n_oob s.
Lemma nextdiff_oob s : n_oob s = true -> n_oob (snd (nextdiff U d M lut s)) = true.
Proof.
  intros Ho. remember (refill 4 d M s) as s1 eqn:E1. remember (Z.shiftr (n_b s1) (n_cnt s1 - M)) as index eqn:E2. remember (nth (Z.to_nat index) lut 0) as e eqn:E3.
  remember (refill 4 d (Z.shiftr e 8) (nd_mid lut s1 index e)) as s2 eqn:E4. rewrite (nextdiff_snd d U M lut s s1 index e s2 E1 E2 E3 E4). unfold nd_fin. cbn [n_oob].
  rewrite E4, refill_oob. unfold nd_mid. cbn [n_oob]. rewrite E1, refill_oob, Ho. reflexivity.
Qed.
Lemma rd_next K s : rd K s -> rd (K + 1) (snd (nextdiff U d M lut s)).
Proof.
  intros [[A B]|(A & B & C & D & E & F)]; [left; split; [apply nextdiff_oob; exact A|exact B]|].
  destruct (nextdiff_any d Hd U M lut HM Hsh s A B) as [G|(G1 & G2 & G3 & G4)]; [left; exact G|right]. unfold adv in G4. cbn [n_cnt n_ix n_hi] in G4. destruct G4 as (P1 & P2 & P3 & P4).
  split; [exact G1|]. split; [exact G2|]. split; [lia|]. split; [lia|]. split; [|lia]. destruct P3 as [[P3 P3']|P3]; [rewrite P3, P3'; exact E|right; exact P3].
Qed.
Lemma rd0 : 0 <= start -> rd 0 {| n_b := 0; n_cnt := 0; n_ix := start; n_hi := 0; n_oob := false |}.
Proof. intros H. right. unfold nd_rng. cbn [n_b n_cnt n_ix n_hi n_oob]. change (2 ^ 0) with 1. repeat split; try lia. Qed.
End Rd.

(* ------------------------------------------------------------------ parseScan *)
Section Scan.
Variables (d : lmem) (U : Z) (h : lj_hdr) (pred : Z) (a : dec_arg) (img : lmem).
Hypothesis Hh : shape h.
Variable RR : Z -> nd_st -> Prop.
Hypothesis RRn : forall K s, 0 <= K -> RR K s -> RR (K + 1) (snd (nextdiff U d (j_huffbits h) (j_lut h) s)).
Let x := j_x h. Let y := j_y h. Let N := j_comp h.
Definition region (p : Z) : Prop := exists i j, 0 <= i < y /\ 0 <= j < N * x /\ p = i * (N * x + da_skip a) + j.
Definition ends (s : sc_st) : Prop := (forall p, s_img s p <> img p -> region p) /\ exists K, 1 <= K <= N * x * y /\ RR K (s_nd s).
Definition inv (row k : Z) (s : sc_st) : Prop :=
  s_out s = row * (N * x + da_skip a) /\ (s_this s = 0 \/ s_this s = x) /\ (s_last s = 0 \/ s_last s = x) /\
  (forall p, s_img s p <> img p -> region p) /\ RR (row * (N * x) + k) (s_nd s).
Lemma RR_flag K s ok : RR K s -> ok = true -> RR K {| n_b := n_b s; n_cnt := n_cnt s; n_ix := n_ix s; n_hi := n_hi s; n_oob := n_oob s || negb ok |}.
Proof. intros H ->. cbn [negb]. rewrite orb_false_r. destruct s. exact H. Qed.
Lemma RR_flag2 K s ok ok2 : RR K s -> ok = true -> ok2 = true -> RR K {| n_b := n_b s; n_cnt := n_cnt s; n_ix := n_ix s; n_hi := n_hi s; n_oob := n_oob s || negb ok || negb ok2 |}.
Proof. intros H -> ->. cbn [negb]. rewrite !orb_false_r. destruct s. exact H. Qed.
Lemma px_ok row col c s : 0 <= col < x -> 0 <= c < N -> (s_this s = 0 \/ s_this s = x) -> (s_last s = 0 \/ s_last s = x) -> snd (sample_px h pred row col c s) = true.
Proof.
  intros Hc Hn HT HL. unfold sample_px. fold N.
  assert (R : forall b j, (b = 0 \/ b = x) -> 0 <= j < N * x -> row_ok h (b + j) = true).
  { intros b j Hb Hj. unfold row_ok. fold x. fold N. assert (x <= N * x) by nia. destruct Hb as [-> | ->]; lia. }
  assert (R1 : row_ok h (s_last s + col * N + c) = true) by (rewrite <- Z.add_assoc; apply R; [exact HL|nia]).
  assert (R2 : 0 < col -> row_ok h (s_last s + (col - 1) * N + c) = true) by (intros; rewrite <- Z.add_assoc; apply R; [exact HL|nia]).
  assert (R3 : 0 < col -> row_ok h (s_this s + (col - 1) * N + c) = true) by (intros; rewrite <- Z.add_assoc; apply R; [exact HT|nia]).
  assert (R4 : row_ok h (s_last s + c) = true) by (apply R; [exact HL|nia]).
  cbv zeta. destruct (col =? 0) eqn:E0; cbn [andb].
  - destruct (row =? 0) eqn:Er; [reflexivity|]. cbn [snd]. exact R4.
  - specialize (R2 ltac:(lia)). specialize (R3 ltac:(lia)). destruct (row =? 0); [cbn [snd]; exact R3|]. rewrite R1, R2. destruct (pred =? 0); [reflexivity|]. destruct (pred =? 1); [exact R3|].
    destruct (pred =? 2); [reflexivity|]. destruct (pred =? 3); [reflexivity|]. destruct (pred =? 4); [reflexivity|]. destruct (pred =? 5); [reflexivity|]. destruct (pred =? 6); reflexivity.
Qed.
Lemma sample_inv row col c s : 0 <= row < y -> 0 <= col < x -> 0 <= c < N -> inv row (col * N + c) s ->
  match sample U d h pred a row col c s with Some s' => inv row (col * N + (c + 1)) s' | None => ends (sample_stop U d h pred row col c s) end.
Proof.
  intros Hr Hc Hn (I1 & I2 & I3 & I4 & I5). destruct Hh as (S1 & S2 & S3 & S4 & S5 & S6 & S7). fold x in S1. fold y in S2. fold N in S4.
  assert (T0 : 0 <= row * (N * x) + (col * N + c)) by nia. pose proof (RRn _ _ T0 I5) as R. clear T0. pose proof (px_ok row col c s Hc Hn I2 I3) as PX.
  assert (W : row_ok h (s_this s + col * N + c) = true). { unfold row_ok. fold x. fold N. assert (x <= N * x) by nia. assert (0 <= col * N + c < N * x) by nia. destruct I2 as [E|E]; rewrite E; lia. }
  assert (RG : region (s_out s + col * N + c)). { exists row, (col * N + c). split; [exact Hr|]. split; [nia|]. rewrite I1. lia. }
  unfold sample, sample_stop. fold N. destruct (sample_px h pred row col c s) as [px ok]. cbn [snd] in *. destruct (nextdiff U d (j_huffbits h) (j_lut h) (s_nd s)) as [diff nd]. cbn [snd] in R.
  set (left := trunc 16 _). clearbody left.
  assert (Go : forall v rw, inv row (col * N + (c + 1)) {| s_nd := {| n_b := n_b nd; n_cnt := n_cnt nd; n_ix := n_ix nd; n_hi := n_hi nd; n_oob := n_oob nd || negb ok || negb (row_ok h (s_this s + col * N + c)) |};
            s_rows := rw; s_img := upd (s_img s) (s_out s + col * N + c) v; s_left := left; s_this := s_this s; s_last := s_last s; s_out := s_out s |}).
  { intros v rw. unfold inv. cbn [s_nd s_img s_this s_last s_out]. split; [exact I1|]. split; [exact I2|]. split; [exact I3|]. split.
    - intros p. unfold upd. destruct (p =? _) eqn:Ep; [intros _; replace p with (s_out s + col * N + c) by lia; exact RG|apply I4].
    - apply RR_flag2; [|exact PX|exact W]. replace (row * (N * x) + (col * N + (c + 1))) with (row * (N * x) + (col * N + c) + 1) by lia. exact R. }
  assert (St : forall v, ends {| s_nd := {| n_b := n_b nd; n_cnt := n_cnt nd; n_ix := n_ix nd; n_hi := n_hi nd; n_oob := n_oob nd || negb ok |};
     s_rows := v; s_img := s_img s; s_left := s_left s; s_this := s_this s; s_last := s_last s; s_out := s_out s |}).
  { intros v. unfold ends. cbn [s_nd s_img]. split; [exact I4|]. exists (row * (N * x) + (col * N + c) + 1). assert (T : col * N + c + 1 <= N * x) by nia. assert (T0 : 0 <= col * N) by nia. assert (T2 : (row + 1) * (N * x) <= y * (N * x)) by (apply Z.mul_le_mono_nonneg_r; nia). assert (T3 : 0 <= row * (N * x)) by nia. split; [lia|]. apply RR_flag; [exact R|exact PX]. }
  clearbody x y N. destruct (da_lin a) as [f|]; [|apply Go]. destruct (da_linlen a <? left); [apply St|apply Go].
Qed.
Lemma col_inv row col s : 0 <= row < y -> 0 <= col < x -> inv row (col * N) s ->
  match for_loop (Z.to_nat N) 0 (fun c => sample U d h pred a row col c) s with
  | Some s' => inv row ((col + 1) * N) s'
  | None => ends (for_stop (Z.to_nat N) 0 (fun c => sample U d h pred a row col c) (fun c => sample_stop U d h pred row col c) s) end.
Proof.
  intros Hr Hc HI. pose proof Hh as (_ & _ & _ & S4 & _). fold N in S4.
  assert (ST : forall j z, 0 <= j < 0 + Z.of_nat (Z.to_nat N) -> inv row (col * N + j) z -> match sample U d h pred a row col j z with Some s' => inv row (col * N + (j + 1)) s' | None => ends (sample_stop U d h pred row col j z) end).
  { intros j z Hj Hz. apply sample_inv; [exact Hr|exact Hc|lia|exact Hz]. }
  assert (H0 : inv row (col * N + 0) s) by (rewrite Z.add_0_r; exact HI).
  pose proof (for_inv (fun j => inv row (col * N + j)) (fun c => sample U d h pred a row col c) (Z.to_nat N) 0 s H0) as F.
  pose proof (for_stop_inv (fun j => inv row (col * N + j)) ends (fun c => sample U d h pred a row col c) (fun c => sample_stop U d h pred row col c) (Z.to_nat N) 0 s H0 ST) as G.
  destruct (for_loop _ 0 _ s) as [s'|]; [|apply G; reflexivity]. replace ((col + 1) * N) with (col * N + (0 + Z.of_nat (Z.to_nat N))) by lia. apply F.
  intros j z Hj Hz. pose proof (ST j z Hj Hz) as Q. destruct (sample U d h pred a row col j z); [exact Q|exact Logic.I].
Qed.
Lemma row_inv row s : 0 <= row < y -> inv row 0 s ->
  match scan_row U d h pred a row s with
  | Some s' => inv (row + 1) 0 s'
  | None => ends (for_stop (Z.to_nat (j_x h)) 0 (fun col => for_loop (Z.to_nat (j_comp h)) 0 (fun c => sample U d h pred a row col c))
       (fun col => for_stop (Z.to_nat (j_comp h)) 0 (fun c => sample U d h pred a row col c) (fun c => sample_stop U d h pred row col c)) s) end.
Proof.
  intros Hr HI. pose proof Hh as (S1 & _ & _ & S4 & _). fold N in S4. fold x in S1. unfold scan_row, scan_cols. fold x. fold N.
  set (body := fun col => for_loop (Z.to_nat N) 0 (fun c => sample U d h pred a row col c)). set (stop := fun col => for_stop (Z.to_nat N) 0 (fun c => sample U d h pred a row col c) (fun c => sample_stop U d h pred row col c)).
  assert (ST : forall j z, 0 <= j < 0 + Z.of_nat (Z.to_nat x) -> inv row (j * N) z -> match body j z with Some s' => inv row ((j + 1) * N) s' | None => ends (stop j z) end).
  { intros j z Hj Hz. apply col_inv; [exact Hr|lia|exact Hz]. }
  assert (H0 : inv row (0 * N) s) by exact HI.
  pose proof (for_inv (fun j => inv row (j * N)) body (Z.to_nat x) 0 s H0) as F. pose proof (for_stop_inv (fun j => inv row (j * N)) ends body stop (Z.to_nat x) 0 s H0 ST) as G.
  destruct (for_loop (Z.to_nat x) 0 body s) as [s'|]; [|apply G; reflexivity].
  assert (FF : inv row (N * x) s'). { replace (N * x) with ((0 + Z.of_nat (Z.to_nat x)) * N) by (rewrite Z2Nat.id by lia; lia). apply F. intros j z Hj Hz. pose proof (ST j z Hj Hz) as Q. destruct (body j z); [exact Q|exact Logic.I]. }
  destruct FF as (I1 & I2 & I3 & I4 & I5). unfold inv. cbn [s_nd s_img s_this s_last s_out]. split; [rewrite I1; lia|]. split; [exact I3|]. split; [exact I2|]. split; [exact I4|].
  replace ((row + 1) * (N * x) + 0) with (row * (N * x) + N * x) by lia. exact I5.
Qed.
Lemma scan_inv s : inv 0 0 s -> match for_loop (Z.to_nat (j_y h)) 0 (scan_row U d h pred a) s with
  | Some s' => inv y 0 s' | None => ends (scan_stop U d h pred a s) end.
Proof.
  intros H0. pose proof Hh as (_ & S2 & _). fold y in S2. unfold scan_stop. fold y.
  match goal with |- context [for_stop (Z.to_nat y) 0 _ ?st s] => set (stop := st) end.
  assert (ST : forall j z, 0 <= j < 0 + Z.of_nat (Z.to_nat y) -> inv j 0 z -> match scan_row U d h pred a j z with Some s' => inv (j + 1) 0 s' | None => ends (stop j z) end).
  { intros j z Hj Hz. apply row_inv; [lia|exact Hz]. }
  pose proof (for_inv (fun j => inv j 0) (scan_row U d h pred a) (Z.to_nat y) 0 s H0) as F. pose proof (for_stop_inv (fun j => inv j 0) ends (scan_row U d h pred a) stop (Z.to_nat y) 0 s H0 ST) as G.
  destruct (for_loop (Z.to_nat y) 0 _ s) as [s'|]; [|apply G; reflexivity].
  rewrite Z2Nat.id in F by lia. apply F. intros j z Hj Hz. pose proof (ST j z ltac:(lia) Hz) as Q. destruct (scan_row U d h pred a j z); [exact Q|exact Logic.I].
Qed.
(* without a linearization table nothing stops the loops *)
Lemma scan_some s n i : da_lin a = None -> for_loop n i (scan_row U d h pred a) s <> None.
Proof.
  intros HL. apply for_some. intros row z. unfold scan_row, scan_cols. assert (Q : for_loop (Z.to_nat (j_x h)) 0 (fun col => for_loop (Z.to_nat (j_comp h)) 0 (fun c => sample U d h pred a row col c)) z <> None).
  { apply for_some. intros col w. apply for_some. intros c v. unfold sample. destruct (sample_px _ _ _ _ _ _). destruct (nextdiff _ _ _ _ _). rewrite HL. discriminate. }
  destruct (for_loop _ 0 _ z); [discriminate|congruence].
Qed.
End Scan.
