(* The bit-by-bit build on arbitrary bytes. *)
From Verif Require Import Bits Spec M_Lj92 M_Pred6 M_Slow P_Lj92 P_Open P_Rob P_Rob2 P_Rob3 P_Slow.
Ltac Zify.zify_post_hook ::= idtac.

(* ------------------------------------------------------------------ parseScan with any nextdiff (as P_Rob3.v) *)
Section ScanG.
Variables (nd_ : nd_st -> Z * nd_st) (h : lj_hdr) (pred : Z) (a : dec_arg) (img : lmem).
Hypothesis Hh : shape h.
Variable RR : Z -> nd_st -> Prop.
Hypothesis RRn : forall K s, 0 <= K -> RR K s -> RR (K + 1) (snd (nd_ s)).
Let x := j_x h. Let y := j_y h. Let N := j_comp h.
Definition region_g (p : Z) : Prop := exists i j, 0 <= i < y /\ 0 <= j < N * x /\ p = i * (N * x + da_skip a) + j.
Definition ends_g (s : sc_st) : Prop := (forall p, s_img s p <> img p -> region_g p) /\ exists K, 1 <= K <= N * x * y /\ RR K (s_nd s).
Definition inv_g (row k : Z) (s : sc_st) : Prop :=
  s_out s = row * (N * x + da_skip a) /\ (s_this s = 0 \/ s_this s = x) /\ (s_last s = 0 \/ s_last s = x) /\
  (forall p, s_img s p <> img p -> region_g p) /\ RR (row * (N * x) + k) (s_nd s).
Lemma RR_flag_g K s ok : RR K s -> ok = true -> RR K {| n_b := n_b s; n_cnt := n_cnt s; n_ix := n_ix s; n_hi := n_hi s; n_oob := n_oob s || negb ok |}.
Proof. intros H ->. cbn [negb]. rewrite orb_false_r. destruct s. exact H. Qed.
Lemma RR_flag2_g K s ok ok2 : RR K s -> ok = true -> ok2 = true -> RR K {| n_b := n_b s; n_cnt := n_cnt s; n_ix := n_ix s; n_hi := n_hi s; n_oob := n_oob s || negb ok || negb ok2 |}.
Proof. intros H -> ->. cbn [negb]. rewrite !orb_false_r. destruct s. exact H. Qed.
Lemma px_ok_g row col c s : 0 <= col < x -> 0 <= c < N -> (s_this s = 0 \/ s_this s = x) -> (s_last s = 0 \/ s_last s = x) -> snd (sample_px h pred row col c s) = true.
Proof.
  intros Hc Hn HT HL. unfold sample_px. fold N.
  assert (R : forall b j, (b = 0 \/ b = x) -> 0 <= j < N * x -> row_ok h (b + j) = true).
  { intros b j Hb Hj. unfold row_ok. fold x. fold N. assert (x <= N * x) by nia. destruct Hb as [-> | ->]; lia. }
  assert (R1 : row_ok h (s_last s + col * N + c) = true) by (rewrite <- Z.add_assoc; apply R; [exact HL|nia]).
  assert (R2 : 0 < col -> row_ok h (s_last s + (col - 1) * N + c) = true) by (intros; rewrite <- Z.add_assoc; apply R; [exact HL|nia]).
  assert (R3 : 0 < col -> row_ok h (s_this s + (col - 1) * N + c) = true) by (intros; rewrite <- Z.add_assoc; apply R; [exact HT|nia]).
  assert (R4 : row_ok h (s_last s + c) = true) by (apply R; [exact HL|nia]).
  cbv zeta. destruct (col =? 0) eqn:E0; cbn [andb].
  - destruct (row =? 0) eqn:Er; [reflexivity|]. cbn [snd]. exact R4.
  - specialize (R2 ltac:(lia)). specialize (R3 ltac:(lia)). destruct (row =? 0); [cbn [snd]; exact R3|]. rewrite R1, R2. destruct (pred =? 0); [reflexivity|]. destruct (pred =? 1); [exact R3|].
    destruct (pred =? 2); [reflexivity|]. destruct (pred =? 3); [reflexivity|]. destruct (pred =? 4); [reflexivity|]. destruct (pred =? 5); [reflexivity|]. destruct (pred =? 6); reflexivity.
Qed.
Lemma sample_inv_g row col c s : 0 <= row < y -> 0 <= col < x -> 0 <= c < N -> inv_g row (col * N + c) s ->
  match sample_g nd_ h pred a row col c s with Some s' => inv_g row (col * N + (c + 1)) s' | None => ends_g (sample_stop_g nd_ h pred row col c s) end.
Proof.
  intros Hr Hc Hn (I1 & I2 & I3 & I4 & I5). destruct Hh as (S1 & S2 & S3 & S4 & S5 & S6 & S7). fold x in S1. fold y in S2. fold N in S4.
  assert (T0 : 0 <= row * (N * x) + (col * N + c)) by nia. pose proof (RRn _ _ T0 I5) as R. clear T0. pose proof (px_ok_g row col c s Hc Hn I2 I3) as PX.
  assert (W : row_ok h (s_this s + col * N + c) = true). { unfold row_ok. fold x. fold N. assert (x <= N * x) by nia. assert (0 <= col * N + c < N * x) by nia. destruct I2 as [E|E]; rewrite E; lia. }
  assert (RG : region_g (s_out s + col * N + c)). { exists row, (col * N + c). split; [exact Hr|]. split; [nia|]. rewrite I1. lia. }
  unfold sample_g, sample_stop_g. fold N. destruct (sample_px h pred row col c s) as [px ok]. cbn [snd] in *. destruct (nd_ (s_nd s)) as [diff nd]. cbn [snd] in R.
  set (left := trunc 16 _). clearbody left.
  assert (Go : forall v rw, inv_g row (col * N + (c + 1)) {| s_nd := {| n_b := n_b nd; n_cnt := n_cnt nd; n_ix := n_ix nd; n_hi := n_hi nd; n_oob := n_oob nd || negb ok || negb (row_ok h (s_this s + col * N + c)) |};
            s_rows := rw; s_img := upd (s_img s) (s_out s + col * N + c) v; s_left := left; s_this := s_this s; s_last := s_last s; s_out := s_out s |}).
  { intros v rw. unfold inv_g. cbn [s_nd s_img s_this s_last s_out]. split; [exact I1|]. split; [exact I2|]. split; [exact I3|]. split.
    - intros p. unfold upd. destruct (p =? _) eqn:Ep; [intros _; replace p with (s_out s + col * N + c) by lia; exact RG|apply I4].
    - apply RR_flag2_g; [|exact PX|exact W]. replace (row * (N * x) + (col * N + (c + 1))) with (row * (N * x) + (col * N + c) + 1) by lia. exact R. }
  assert (St : forall v, ends_g {| s_nd := {| n_b := n_b nd; n_cnt := n_cnt nd; n_ix := n_ix nd; n_hi := n_hi nd; n_oob := n_oob nd || negb ok |};
     s_rows := v; s_img := s_img s; s_left := s_left s; s_this := s_this s; s_last := s_last s; s_out := s_out s |}).
  { intros v. unfold ends_g. cbn [s_nd s_img]. split; [exact I4|]. exists (row * (N * x) + (col * N + c) + 1). assert (T : col * N + c + 1 <= N * x) by nia. assert (T0 : 0 <= col * N) by nia. assert (T2 : (row + 1) * (N * x) <= y * (N * x)) by (apply Z.mul_le_mono_nonneg_r; nia). assert (T3 : 0 <= row * (N * x)) by nia. split; [lia|]. apply RR_flag_g; [exact R|exact PX]. }
  clearbody x y N. destruct (da_lin a) as [f|]; [|apply Go]. destruct (da_linlen a <? left); [apply St|apply Go].
Qed.
Lemma col_inv_g row col s : 0 <= row < y -> 0 <= col < x -> inv_g row (col * N) s ->
  match for_loop (Z.to_nat N) 0 (fun c => sample_g nd_ h pred a row col c) s with
  | Some s' => inv_g row ((col + 1) * N) s'
  | None => ends_g (for_stop (Z.to_nat N) 0 (fun c => sample_g nd_ h pred a row col c) (fun c => sample_stop_g nd_ h pred row col c) s) end.
Proof.
  intros Hr Hc HI. pose proof Hh as (_ & _ & _ & S4 & _). fold N in S4.
  assert (ST : forall j z, 0 <= j < 0 + Z.of_nat (Z.to_nat N) -> inv_g row (col * N + j) z -> match sample_g nd_ h pred a row col j z with Some s' => inv_g row (col * N + (j + 1)) s' | None => ends_g (sample_stop_g nd_ h pred row col j z) end).
  { intros j z Hj Hz. apply sample_inv_g; [exact Hr|exact Hc|lia|exact Hz]. }
  assert (H0 : inv_g row (col * N + 0) s) by (rewrite Z.add_0_r; exact HI).
  pose proof (for_inv (fun j => inv_g row (col * N + j)) (fun c => sample_g nd_ h pred a row col c) (Z.to_nat N) 0 s H0) as F.
  pose proof (for_stop_inv (fun j => inv_g row (col * N + j)) ends_g (fun c => sample_g nd_ h pred a row col c) (fun c => sample_stop_g nd_ h pred row col c) (Z.to_nat N) 0 s H0 ST) as G.
  destruct (for_loop _ 0 _ s) as [s'|]; [|apply G; reflexivity]. replace ((col + 1) * N) with (col * N + (0 + Z.of_nat (Z.to_nat N))) by lia. apply F.
  intros j z Hj Hz. pose proof (ST j z Hj Hz) as Q. destruct (sample_g nd_ h pred a row col j z); [exact Q|exact Logic.I].
Qed.
Lemma row_inv_g row s : 0 <= row < y -> inv_g row 0 s ->
  match scan_row_g nd_ h pred a row s with
  | Some s' => inv_g (row + 1) 0 s'
  | None => ends_g (for_stop (Z.to_nat (j_x h)) 0 (fun col => for_loop (Z.to_nat (j_comp h)) 0 (fun c => sample_g nd_ h pred a row col c))
       (fun col => for_stop (Z.to_nat (j_comp h)) 0 (fun c => sample_g nd_ h pred a row col c) (fun c => sample_stop_g nd_ h pred row col c)) s) end.
Proof.
  intros Hr HI. pose proof Hh as (S1 & _ & _ & S4 & _). fold N in S4. fold x in S1. unfold scan_row_g, scan_cols_g. fold x. fold N.
  set (body := fun col => for_loop (Z.to_nat N) 0 (fun c => sample_g nd_ h pred a row col c)). set (stop := fun col => for_stop (Z.to_nat N) 0 (fun c => sample_g nd_ h pred a row col c) (fun c => sample_stop_g nd_ h pred row col c)).
  assert (ST : forall j z, 0 <= j < 0 + Z.of_nat (Z.to_nat x) -> inv_g row (j * N) z -> match body j z with Some s' => inv_g row ((j + 1) * N) s' | None => ends_g (stop j z) end).
  { intros j z Hj Hz. apply col_inv_g; [exact Hr|lia|exact Hz]. }
  assert (H0 : inv_g row (0 * N) s) by exact HI.
  pose proof (for_inv (fun j => inv_g row (j * N)) body (Z.to_nat x) 0 s H0) as F. pose proof (for_stop_inv (fun j => inv_g row (j * N)) ends_g body stop (Z.to_nat x) 0 s H0 ST) as G.
  destruct (for_loop (Z.to_nat x) 0 body s) as [s'|]; [|apply G; reflexivity].
  assert (FF : inv_g row (N * x) s'). { replace (N * x) with ((0 + Z.of_nat (Z.to_nat x)) * N) by (rewrite Z2Nat.id by lia; lia). apply F. intros j z Hj Hz. pose proof (ST j z Hj Hz) as Q. destruct (body j z); [exact Q|exact Logic.I]. }
  destruct FF as (I1 & I2 & I3 & I4 & I5). unfold inv_g. cbn [s_nd s_img s_this s_last s_out]. split; [rewrite I1; lia|]. split; [exact I3|]. split; [exact I2|]. split; [exact I4|].
  replace ((row + 1) * (N * x) + 0) with (row * (N * x) + N * x) by lia. exact I5.
Qed.
Lemma scan_inv_g s : inv_g 0 0 s -> match for_loop (Z.to_nat (j_y h)) 0 (scan_row_g nd_ h pred a) s with
  | Some s' => inv_g y 0 s' | None => ends_g (scan_stop_g nd_ h pred a s) end.
Proof.
  intros H0. pose proof Hh as (_ & S2 & _). fold y in S2. unfold scan_stop_g. fold y.
  match goal with |- context [for_stop (Z.to_nat y) 0 _ ?st s] => set (stop := st) end.
  assert (ST : forall j z, 0 <= j < 0 + Z.of_nat (Z.to_nat y) -> inv_g j 0 z -> match scan_row_g nd_ h pred a j z with Some s' => inv_g (j + 1) 0 s' | None => ends_g (stop j z) end).
  { intros j z Hj Hz. apply row_inv_g; [lia|exact Hz]. }
  pose proof (for_inv (fun j => inv_g j 0) (scan_row_g nd_ h pred a) (Z.to_nat y) 0 s H0) as F. pose proof (for_stop_inv (fun j => inv_g j 0) ends_g (scan_row_g nd_ h pred a) stop (Z.to_nat y) 0 s H0 ST) as G.
  destruct (for_loop (Z.to_nat y) 0 _ s) as [s'|]; [|apply G; reflexivity].
  rewrite Z2Nat.id in F by lia. apply F. intros j z Hj Hz. pose proof (ST j z ltac:(lia) Hz) as Q. destruct (scan_row_g nd_ h pred a j z); [exact Q|exact Logic.I].
Qed.
(* without a linearization table nothing stops the loops *)
Lemma scan_some_g s n i : da_lin a = None -> for_loop n i (scan_row_g nd_ h pred a) s <> None.
Proof.
  intros HL. apply for_some. intros row z. unfold scan_row_g, scan_cols_g. assert (Q : for_loop (Z.to_nat (j_x h)) 0 (fun col => for_loop (Z.to_nat (j_comp h)) 0 (fun c => sample_g nd_ h pred a row col c)) z <> None).
  { apply for_some. intros col w. apply for_some. intros c v. unfold sample_g. destruct (sample_px _ _ _ _ _ _). destruct (nd_ _). rewrite HL. discriminate. }
  destruct (for_loop _ 0 _ z); [discriminate|congruence].
Qed.
End ScanG.
Lemma scan_any_g nd_ (RR : Z -> nd_st -> Prop) d h a rows img : shape h -> byte_mem d -> 0 <= j_scan h ->
  (forall K s, 0 <= K -> RR K s -> RR (K + 1) (snd (nd_ s))) ->
  RR 0 {| n_b := 0; n_cnt := 0; n_ix := j_scan h + beh d (j_scan h); n_hi := 0; n_oob := false |} ->
  d (j_scan h + 3 + 2 * d (j_scan h + 2)) <> 6 ->
  exists r s, decode_g nd_ d h a rows img = Some (r, s) /\ (r = NONE \/ r = CORRUPT) /\
  (forall p, s_img s p <> img p -> exists i j, 0 <= i < j_y h /\ 0 <= j < j_comp h * j_x h /\ p = i * (j_comp h * j_x h + da_skip a) + j) /\
  (exists K, 0 <= K <= j_comp h * j_x h * j_y h /\ RR K (s_nd s)) /\
  (d (j_scan h + 3 + 2 * d (j_scan h + 2)) <= 7 -> (da_lin a = None -> r = NONE) /\ (r = NONE -> RR (j_comp h * j_x h * j_y h) (s_nd s)) /\ (r = CORRUPT -> exists K, 1 <= K /\ RR K (s_nd s))).
Proof.
  intros Hh Hd Hs RRn RR0 Hp. unfold decode_g. cbv zeta. set (pred := d (j_scan h + 3 + 2 * d (j_scan h + 2))) in *. clearbody pred. set (s0 := {| s_nd := _ |}).
  pose proof Hh as (S1 & S2 & _ & S4 & _). assert (0 <= j_comp h * j_x h) by nia. assert (0 <= j_comp h * j_x h * j_y h) by nia.
  assert (I0 : inv_g h a img RR 0 0 s0). { unfold inv_g, s0. cbn [s_out s_this s_last s_img s_nd]. split; [lia|]. split; [left; reflexivity|]. split; [right; reflexivity|]. split; [congruence|]. exact RR0. }
  destruct (7 <? pred) eqn:E7.
  { exists CORRUPT, s0. split; [reflexivity|]. split; [right; reflexivity|]. split; [unfold s0; cbn [s_img]; congruence|]. split; [exists 0; split; [lia|exact RR0]|]. intros; lia. }
  replace (pred =? 6) with false by lia. pose proof (scan_inv_g nd_ h pred a img Hh RR RRn s0 I0) as P. pose proof (scan_some_g nd_ h pred a s0 (Z.to_nat (j_y h)) 0) as PS. destruct (for_loop _ 0 _ s0) as [s'|].
  - exists NONE, s'. destruct P as (_ & _ & _ & P4 & P5). split; [reflexivity|]. split; [left; reflexivity|]. split; [exact P4|].
    replace (j_y h * (j_comp h * j_x h) + 0) with (j_comp h * j_x h * j_y h) in P5 by lia. split; [eexists; split; [|exact P5]; lia|]. intros _. split; [reflexivity|]. split; [intros _; exact P5|discriminate].
  - eexists CORRUPT, _. split; [reflexivity|]. destruct P as (P1 & P2). split; [right; reflexivity|]. split; [exact P1|]. destruct P2 as (K & HK & RK). split; [exists K; split; [lia|exact RK]|]. intros _. split; [intros HL; exfalso; apply PS; auto|]. split; [discriminate|]. intros _. exists K. split; [lia|exact RK].
Qed.

(* ------------------------------------------------------------------ lj92_open *)
(* a pair FF C4 before place k of the file *)
Definition dht_at (d : lmem) (dl k : Z) : Prop := 2 <= k < dl /\ d (k - 2) = 255 /\ d (k - 1) = 0xc4.
Definition short_table (d : lmem) (dl : Z) : Prop := exists k, dht_at d dl k /\ beh d k < 19 /\ k + beh d k < dl.
Definition empty_table (d : lmem) (dl : Z) : Prop := exists k, dht_at d dl k /\ 19 <= beh d k /\ k + beh d k < dl /\ forall j, 1 <= j <= 16 -> d (k + 2 + j) = 0.
Definition is_b (v : Z) : Prop := 0 <= v < 256.

Lemma counts bf : (forall k, 1 <= k <= 16 -> 0 <= bf k < 256) -> exists bits, length bits = 16%nat /\ forall k, (k < 16)%nat -> bf (1 + Z.of_nat k) = Z.of_nat (nth k bits 0%nat).
Proof.
  intros H. exists (map (fun k => Z.to_nat (bf (1 + Z.of_nat k))) (seq 0 16)). split; [reflexivity|]. intros k Hk.
  rewrite (nth_indep _ 0%nat (Z.to_nat (bf (1 + Z.of_nat 0)))) by (rewrite map_length, seq_length; exact Hk).
  rewrite (map_nth (fun k => Z.to_nat (bf (1 + Z.of_nat k)))). rewrite seq_nth by exact Hk. cbn [Nat.add]. pose proof (H (1 + Z.of_nat k) ltac:(lia)). lia.
Qed.
Lemma lens_hd : forall bits i, (0 < list_sum bits)%nat -> i <= hd 0 (lens_from bits i ++ [0]) < i + len bits.
Proof.
  induction bits as [|n bits IH]; intros i H; [cbn in H; lia|]. cbn [lens_from]. unfold len. cbn [length]. destruct n as [|n]; [|cbn; lia].
  cbn [repeat app]. specialize (IH (i + 1) H). unfold len in IH. lia.
Qed.
Lemma lens_len : forall bits i, len (lens_from bits i) = Z.of_nat (list_sum bits).
Proof. induction bits as [|n bits IH]; intros i; [reflexivity|]. cbn [lens_from list_sum fold_right]. fold (list_sum bits). unfold len in *. rewrite app_length, repeat_length. specialize (IH (i + 1)). lia. Qed.
Lemma sum_zero : forall bits k, list_sum bits = 0%nat -> nth k bits 0%nat = 0%nat.
Proof. induction bits as [|n bits IH]; intros [|k] H; try reflexivity; cbn [list_sum fold_right] in H; fold (list_sum bits) in H; cbn [nth]; [lia|apply IH; lia]. Qed.

(* the codes exist unless the table is empty *)
Lemma codes_exist bf : (forall k, 1 <= k <= 16 -> 0 <= bf k < 256) -> let sizes := sl_sizes 16 1 bf in
  sl_codes (length sizes + 17) sizes 0 (hd 0 sizes) = None -> forall j, 1 <= j <= 16 -> bf j = 0.
Proof.
  intros Hb sizes. destruct (counts bf Hb) as (bits & HL & HB). unfold sizes. change 16%nat with (16%nat) at 1. rewrite <- HL. rewrite (sl_sizes_ok bf bits 1) by (intros k Hk; apply HB; lia).
  intros E j Hj. destruct (Nat.eq_dec (list_sum bits) 0) as [Z0|Z0].
  - specialize (HB (Z.to_nat (j - 1)) ltac:(lia)). replace (1 + Z.of_nat (Z.to_nat (j - 1))) with j in HB by lia. rewrite HB, sum_zero by exact Z0. reflexivity.
  - exfalso. pose proof (lens_hd bits 1 ltac:(lia)) as X. assert (len bits = 16) by (unfold len; lia).
    assert (S : exists si, si = hd 0 (lens_from bits 1 ++ [0])) by eauto. destruct S as [si ES]. rewrite <- ES in *.
    (* drop the empty lengths in front *)
    assert (G : forall rows f bu, (0 < list_sum rows)%nat -> 1 <= bu -> len rows + Z.of_nat (list_sum rows) < Z.of_nat f ->
       sl_codes f (lens_from rows bu ++ [0]) 0 (hd 0 (lens_from rows bu ++ [0])) <> None).
    { clear. induction rows as [|n rows IH]; intros f bu Hs Hbu Hf; [cbn in Hs; lia|]. destruct n as [|n].
      - cbn [lens_from repeat app]. apply IH; [exact Hs|lia|]. unfold len in *. cbn [length list_sum fold_right] in Hf. fold (list_sum rows) in Hf. lia.
      - rewrite (sl_codes_ok (S n :: rows) f bu); [discriminate| |]; cbn [lens_from repeat app hd]; lia. }
    rewrite ES in E; revert E; apply (G bits); [lia|lia|].
    pose proof (lens_len bits 1) as LL. unfold len in *. rewrite app_length. cbn [length]. lia.
Qed.

Lemma sl_image_inv d0 dl : forall f d ix h t o, (forall k, ix <= k -> d k = d0 k) -> zeroed d0 dl d -> byte_mem d -> shape h -> 0 <= ix -> j_scan h = 0 -> Forall is_b (t_val t) ->
  let '(r, d', h', t', o') := sl_parse_image f d dl ix h t o in zeroed d0 dl d' /\ byte_mem d' /\ shape h' /\ (r = 0 \/ r = -1 \/ r = -2) /\
    (r = -2 -> short_table d0 dl) /\ (o' = true -> o = true \/ empty_table d0 dl) /\ Forall is_b (t_val t') /\
    (j_scan h' = 0 \/ ix + 2 <= j_scan h' < dl /\ d0 (j_scan h' - 2) = 255 /\ d0 (j_scan h' - 1) = 0xda).
Proof.
  induction f as [|f IH]; intros d ix h t o HA HZ Hd Hs Hix Hsc Ht; cbn [sl_parse_image].
  { do 3 (split; [assumption|]). split; [auto|]. split; [discriminate|]. auto. }
  pose proof (lfind_spec d dl ix Hix) as L. destruct (lfind d dl ix) as [mk ix'].
  assert (Weak : forall ix2 h2 d2 t2 o2 r2 o1, ix' <= ix2 -> (o1 = true -> o = true \/ empty_table d0 dl) ->
     (zeroed d0 dl d2 /\ byte_mem d2 /\ shape h2 /\ (r2 = 0 \/ r2 = -1 \/ r2 = -2) /\ (r2 = -2 -> short_table d0 dl) /\ (o2 = true -> o1 = true \/ empty_table d0 dl) /\ Forall is_b (t_val t2) /\ (j_scan h2 = 0 \/ ix2 + 2 <= j_scan h2 < dl /\ d0 (j_scan h2 - 2) = 255 /\ d0 (j_scan h2 - 1) = 0xda)) ->
     (zeroed d0 dl d2 /\ byte_mem d2 /\ shape h2 /\ (r2 = 0 \/ r2 = -1 \/ r2 = -2) /\ (r2 = -2 -> short_table d0 dl) /\ (o2 = true -> o = true \/ empty_table d0 dl) /\ Forall is_b (t_val t2) /\ (j_scan h2 = 0 \/ ix + 2 <= j_scan h2 < dl /\ d0 (j_scan h2 - 2) = 255 /\ d0 (j_scan h2 - 1) = 0xda))).
  { intros ix2 h2 d2 t2 o2 r2 o1 H1 Ho (P1 & P2 & P3 & P4 & P5 & P6 & P7 & P8). do 5 (split; [assumption|]). split; [intros X; destruct (P6 X); auto|]. split; [exact P7|].
    destruct P8 as [P8|P8]; [left; exact P8|right]. destruct L as [[L1 L2]|(L1 & L2 & L3)]; destruct P8 as (Q1 & Q2 & Q3); (split; [lia|auto]). }
  destruct (mk =? 0xc4) eqn:E1.
  { destruct L as [[L _]|(L1 & L2 & L3)]; [lia|].
    assert (HZ' : zeroed d0 dl (upd d (ix' + 2) 0)).
    { intros k. unfold upd. destruct (k =? ix' + 2) eqn:Ek; [|apply HZ]. intros _. assert (k = ix' + 2) by lia. subst k. split; [reflexivity|]. split; [|split; [|lia]].
      - replace (ix' + 2 - 4) with (ix' - 2) by lia. apply (zeroed_orig d0 dl d _ 255 HZ L3). lia.
      - replace (ix' + 2 - 3) with (ix' - 1) by lia. apply (zeroed_orig d0 dl d _ 0xc4 HZ); [lia|lia]. }
    pose proof (upd_byte d (ix' + 2) 0 Hd ltac:(lia)) as Hd'.
    assert (DH : dht_at d0 dl ix'). { split; [lia|]. split; [apply (zeroed_orig d0 dl d _ 255 HZ L3); lia|apply (zeroed_orig d0 dl d _ 0xc4 HZ); lia]. }
    unfold sl_parse_huff. assert (EB : beh (upd d (ix' + 2) 0) ix' = beh d0 ix').
    { unfold beh, upd. replace (ix' =? ix' + 2) with false by lia. replace (ix' + 1 =? ix' + 2) with false by lia. rewrite (HA ix'), (HA (ix' + 1)) by lia. reflexivity. }
    cbv zeta. rewrite EB. destruct (dl <=? ix' + beh d0 ix') eqn:E6.
    { change (CORRUPT =? NONE) with false. cbn beta iota. do 3 (split; [assumption|]). split; [auto|]. split; [discriminate|]. rewrite orb_false_r. auto. }
    destruct (beh d0 ix' <? 19) eqn:E7.
    { change (NO_MEMORY =? NONE) with false. cbn beta iota. do 3 (split; [assumption|]). split; [auto|]. split; [intros _; exists ix'; split; [exact DH|lia]|]. rewrite orb_false_r. auto. }
    set (bf := fun k => upd d (ix' + 2) 0 (ix' + 2 + k)). set (sizes := sl_sizes 16 1 bf).
    assert (HV : Forall is_b (map (fun k => upd d (ix' + 2) 0 (ix' + 19 + Z.of_nat k)) (seq 0 (Z.to_nat (beh d0 ix' - 19))))) by (apply Forall_forall; intros v Hv; apply in_map_iff in Hv; destruct Hv as (k & <- & _); apply Hd').
    assert (Nx : forall k, ix' + beh d0 ix' <= k -> upd d (ix' + 2) 0 k = d0 k) by (intros k Hk; unfold upd; replace (k =? ix' + 2) with false by lia; apply HA; lia).
    destruct (sl_codes (length sizes + 17) sizes 0 (hd 0 sizes)) as [codes|] eqn:EC.
    - change (NONE =? NONE) with true. cbn beta iota. match goal with |- context [sl_tables 16 1 0 bf codes ?t1] => set (t2 := sl_tables 16 1 0 bf codes t1) end.
      assert (T2 : forall n i j b cd tt, t_val (sl_tables n i j b cd tt) = t_val tt) by (induction n; intros; cbn [sl_tables]; [reflexivity|]; destruct (_ =? 0); rewrite IHn; reflexivity).
      pose proof (IH (upd d (ix' + 2) 0) (ix' + beh d0 ix') h t2 (o || false) Nx HZ' Hd' Hs ltac:(lia) Hsc ltac:(unfold t2; rewrite T2; cbn [t_val]; exact HV)) as G.
      destruct (sl_parse_image f _ dl _ h t2 _) as [[[[r2 d2] h2] t3] o2]. apply (Weak (ix' + beh d0 ix') _ _ _ _ _ (o || false)); [lia|rewrite orb_false_r; auto|exact G].
    - change (NONE =? NONE) with true. cbn beta iota. assert (HE : empty_table d0 dl).
      { exists ix'. split; [exact DH|]. split; [lia|]. split; [lia|]. intros j Hj. pose proof (codes_exist bf ltac:(intros; apply Hd') EC j Hj) as X. unfold bf, upd in X. replace (ix' + 2 + j =? ix' + 2) with false in X by lia. rewrite HA in X by lia. exact X. }
      match goal with |- context [sl_parse_image f _ dl _ h ?tt _] => set (t2 := tt) end.
      pose proof (IH (upd d (ix' + 2) 0) (ix' + beh d0 ix') h t2 (o || true) Nx HZ' Hd' Hs ltac:(lia) Hsc HV) as G.
      destruct (sl_parse_image f _ dl _ h t2 _) as [[[[r2 d2] h2] t3] o2]. apply (Weak (ix' + beh d0 ix') _ _ _ _ _ (o || true)); [lia|auto|exact G]. }
  destruct (mk =? 0xc3) eqn:E2.
  { destruct L as [[L _]|(L1 & L2 & L3)]; [lia|]. pose proof (parse_sof3_shape d dl ix' h Hd Hs) as PS.
    assert (EI : ix' <= snd (fst (parse_sof3 d dl ix' h))) by (unfold parse_sof3; pose proof (beh_range d ix' Hd); destruct (dl <=? _); cbn [fst snd]; lia).
    destruct (parse_sof3 d dl ix' h) as [[r ix1] h1]. cbn [fst snd] in EI. destruct PS as (S1 & S2 & S3). destruct (r =? NONE) eqn:Er.
    - pose proof (IH d ix1 h1 t o ltac:(intros k Hk; apply HA; lia) HZ Hd S1 ltac:(lia) ltac:(congruence) Ht) as G. destruct (sl_parse_image f _ dl ix1 h1 t o) as [[[[r2 d2] h2] t3] o2]. apply (Weak ix1 _ _ _ _ _ o); [lia|auto|exact G].
    - do 3 (split; [assumption|]). unfold NONE, CORRUPT in *. split; [lia|]. split; [lia|]. split; [auto|]. split; [exact Ht|]. left. congruence. }
  destruct (mk =? 0xd9) eqn:E3. { do 3 (split; [assumption|]). split; [auto|]. split; [discriminate|]. auto. }
  destruct (mk =? 0xda) eqn:E4.
  { destruct L as [[L _]|(L1 & L2 & L3)]; [lia|]. split; [exact HZ|]. split; [exact Hd|]. split; [exact Hs|]. split; [auto|]. split; [discriminate|]. split; [auto|]. split; [exact Ht|]. right. cbn [j_scan]. split; [lia|]. split; [apply (zeroed_orig d0 dl d _ 255 HZ L3); lia|apply (zeroed_orig d0 dl d _ 0xda HZ); lia]. }
  destruct (mk =? -1) eqn:E5. { do 3 (split; [assumption|]). split; [auto|]. split; [discriminate|]. auto. }
  destruct L as [[L _]|(L1 & L2 & L3)]; [lia|].
  pose proof (beh_range d ix' Hd). unfold parse_block. destruct (dl <=? ix' + beh d ix') eqn:E6.
  { change (CORRUPT =? NONE) with false. cbn beta iota. do 3 (split; [assumption|]). split; [auto|]. split; [discriminate|]. auto. }
  change (NONE =? NONE) with true. cbn beta iota.
  pose proof (IH d (ix' + beh d ix') h t o ltac:(intros k Hk; apply HA; lia) HZ Hd Hs ltac:(lia) Hsc Ht) as G. destruct (sl_parse_image f d dl (ix' + beh d ix') h t o) as [[[[r2 d2] h2] t3] o2]. apply (Weak (ix' + beh d ix') _ _ _ _ _ o); [lia|auto|exact G].
Qed.
Lemma sl_image_fuel dl : forall f g d ix h t o, byte_mem d -> 0 <= ix -> dl - ix + 2 <= 2 * Z.of_nat f -> dl - ix + 2 <= 2 * Z.of_nat g -> (1 <= f)%nat -> (1 <= g)%nat ->
  sl_parse_image f d dl ix h t o = sl_parse_image g d dl ix h t o.
Proof.
  induction f as [|f IH]; intros g d ix h t o Hd Hix Hf Hg H1 H2; [lia|]. destruct g as [|g]; [lia|]. cbn [sl_parse_image]. pose proof (lfind_spec d dl ix Hix) as L. destruct (lfind d dl ix) as [mk ix'].
  destruct (mk =? 0xc4) eqn:E1.
  { destruct L as [[L _]|(L1 & L2 & L3)]; [lia|]. pose proof (upd_byte d (ix' + 2) 0 Hd ltac:(lia)) as Hd'. pose proof (beh_range _ ix' Hd') as HB. unfold sl_parse_huff. cbv zeta. destruct (dl <=? _); [reflexivity|]. destruct (_ <? 19); [reflexivity|].
    destruct (sl_codes _ _ _ _); change (NONE =? NONE) with true; cbn beta iota; (apply IH; try assumption; lia). }
  destruct (mk =? 0xc3) eqn:E2.
  { destruct L as [[L _]|(L1 & L2 & L3)]; [lia|].
    assert (EI : ix' <= snd (fst (parse_sof3 d dl ix' h))) by (unfold parse_sof3; pose proof (beh_range d ix' Hd); destruct (dl <=? _); cbn [fst snd]; lia).
    destruct (parse_sof3 d dl ix' h) as [[r ix1] h1]. cbn [fst snd] in EI. destruct (r =? NONE); [|reflexivity]. apply IH; try lia. exact Hd. }
  destruct (mk =? 0xd9); [reflexivity|]. destruct (mk =? 0xda); [reflexivity|]. destruct (mk =? -1) eqn:E5; [reflexivity|]. destruct L as [[L _]|(L1 & L2 & L3)]; [lia|].
  pose proof (beh_range d ix' Hd). unfold parse_block. destruct (dl <=? ix' + beh d ix'); [reflexivity|]. change (NONE =? NONE) with true. cbn beta iota. apply IH; try lia. exact Hd.
Qed.

(* ------------------------------------------------------------------ nextdiff: how much is read *)
Section Reads.
Variables (d : lmem) (U T start : Z) (tb : sl_tab).
Hypothesis HT : 0 <= T.
Hypothesis Htb : Forall (fun v => 0 <= v <= T) (t_val tb).
(* B bits have been taken since the start of the scan data *)
Definition taken (B : Z) (s : nd_st) : Prop :=
  0 <= n_cnt s <= 7 /\ 4 * (n_ix s - start) <= B + n_cnt s <= 8 * (n_ix s - start) /\ n_hi s <= Z.max 0 (n_ix s) /\ (start < n_ix s -> n_ix s - 2 <= n_hi s).
Lemma nextbit_taken B s : 0 <= B -> taken B s -> taken (B + 1) (snd (sl_nextbit d s)).
Proof.
  intros HB (A1 & A2 & A3 & A4). unfold sl_nextbit, taken. cbn [snd n_cnt n_ix n_hi]. destruct (n_cnt s =? 0) eqn:E; [destruct (d (n_ix s) =? 255)|]; (split; [lia|]; split; [lia|]; split; [lia|]); intros ?; lia.
Qed.
Lemma receive_taken : forall n v B s, 0 <= B -> taken B s -> taken (B + Z.of_nat n) (snd (sl_receive n d v s)).
Proof.
  induction n as [|n IH]; intros v B s HB H; [cbn [sl_receive snd]; rewrite Z.add_0_r; exact H|]. cbn [sl_receive]. pose proof (nextbit_taken B s HB H) as X. destruct (sl_nextbit d s) as [bit s1]. cbn [snd] in X.
  replace (B + Z.of_nat (S n)) with (B + 1 + Z.of_nat n) by lia. apply IH; [lia|exact X].
Qed.
Lemma decode_taken : forall f i code B s, 1 <= i <= 17 -> 17 - i <= Z.of_nat f -> 0 <= B -> taken B s -> let '(v, s') := sl_decode f d tb i code s in 0 <= v <= T /\ exists m, 0 <= m <= 17 - i /\ taken (B + m) s'.
Proof.
  assert (FL : forall B s, taken B s -> taken B (sl_flag s)) by (intros B s H; exact H).
  induction f as [|f IH]; intros i code B s Hi Hf HB H; cbn [sl_decode].
  - split; [lia|]. exists 0. rewrite Z.add_0_r. split; [lia|auto].
  - destruct (16 <? i) eqn:E1; [split; [lia|]; exists 0; rewrite Z.add_0_r; split; [lia|auto]|]. destruct (t_max tb i <? code).
    + pose proof (nextbit_taken B s HB H) as X. destruct (sl_nextbit d s) as [bit s1]. cbn [snd] in X. specialize (IH (i + 1) (Z.shiftl code 1 + bit) (B + 1) s1 ltac:(lia) ltac:(lia) ltac:(lia) X).
      destruct (sl_decode f d tb (i + 1) _ s1) as [v s2]. destruct IH as (V & m & Hm & Y). split; [exact V|]. exists (m + 1). split; [lia|]. replace (B + (m + 1)) with (B + 1 + m) by lia. exact Y.
    + set (j := t_ptr tb i + code - t_min tb i). destruct ((j <? 0) || (Z.of_nat (length (t_val tb)) <=? j)) eqn:E2; (split; [|exists 0; rewrite Z.add_0_r; split; [lia|auto]]); [lia|].
      rewrite Forall_forall in Htb. apply Htb, nth_In. lia.
Qed.
Lemma nextdiff_taken B s : 0 <= B -> taken B s -> exists k, 1 <= k <= 17 + T /\ taken (B + k) (snd (sl_nextdiff U d tb s)).
Proof.
  intros HB H. unfold sl_nextdiff. pose proof (nextbit_taken B s HB H) as X. destruct (sl_nextbit d s) as [bit s1]. cbn [snd] in X.
  pose proof (decode_taken 17 1 bit (B + 1) s1 ltac:(lia) ltac:(lia) ltac:(lia) X) as Y. destruct (sl_decode 17 d tb 1 bit s1) as [t s2]. destruct Y as (Ht & m & Hm & Y).
  pose proof (receive_taken (Z.to_nat t) 0 (B + 1 + m) s2 ltac:(lia) Y) as W. destruct (sl_receive (Z.to_nat t) d 0 s2) as [v s3]. cbn [snd] in *. exists (1 + m + t). split; [lia|]. replace (B + (1 + m + t)) with (B + 1 + m + Z.of_nat (Z.to_nat t)) by lia. exact W.
Qed.
Definition sd (K : Z) (s : nd_st) : Prop := exists B, K <= B <= (17 + T) * K /\ taken B s.
Lemma sd0 : sd 0 {| n_b := 0; n_cnt := 0; n_ix := start; n_hi := 0; n_oob := false |}.
Proof. exists 0. split; [lia|]. unfold taken. cbn [n_cnt n_ix n_hi]. repeat split; lia. Qed.
Lemma sd_next K s : 0 <= K -> sd K s -> sd (K + 1) (snd (sl_nextdiff U d tb s)).
Proof. intros HK (B & HB & H). destruct (nextdiff_taken B s ltac:(lia) H) as (k & Hk & H2). exists (B + k). split; [lia|exact H2]. Qed.
Lemma sd_hi K s : 0 <= K -> 0 <= start -> sd K s -> 4 * (n_hi s - start) <= (17 + T) * K + 7 /\ (1 <= K -> K <= 8 * (n_hi s + 2 - start)).
Proof. intros HK HS (B & HB & (A1 & A2 & A3 & A4)). split; [|intros H1; specialize (A4 ltac:(lia)); lia]. assert (0 <= (17 + T) * K) by nia. lia. Qed.
End Reads.
