(* parseScan with any number of components and any predictor but 6 *)
From Verif Require Import Bits Spec Spec_Lj92 Spec_P6 Spec_Pn M_Lj92 P_Lj92 P_Lj92b P_Lj92c P_Lj92d P_Decode P_Pred6.
Ltac Zify.zify_post_hook ::= idtac.

Lemma read_n_len bk p N bd W : forall n img l px, read_n bk p N bd W n img l = Some px -> length px = (length img + n)%nat /\ firstn (length img) px = img.
Proof.
  induction n as [|n IH]; intros img l px E; cbn [read_n] in E.
  - injection E as <-. split; [lia|apply firstn_all].
  - destruct (read_diff bk l) as [[dv rest]|]; [|discriminate]. apply IH in E. destruct E as [E1 E2]. rewrite app_length in E1, E2. cbn [length] in E1, E2. split; [lia|].
    apply (f_equal (firstn (length img))) in E2. rewrite firstn_firstn, Nat.min_l in E2 by lia. rewrite E2, firstn_app, Nat.sub_diag, firstn_all, app_nil_r. reflexivity.
Qed.
Lemma read_n_u16 bk p N bd W : forall n img l px, read_n bk p N bd W n img l = Some px -> Forall (fun q => 0 <= q < 2 ^ 16) img -> Forall (fun q => 0 <= q < 2 ^ 16) px.
Proof.
  induction n as [|n IH]; intros img l px E HF; cbn [read_n] in E; [injection E as <-; exact HF|].
  destruct (read_diff bk l) as [[dv rest]|]; [|discriminate]. apply IH in E; [exact E|]. apply Forall_app. split; [exact HF|]. constructor; [apply Z.mod_pos_bound; lia|constructor].
Qed.

(* the prediction of the model (lines 532-566) *)
Definition pe (h : lj_hdr) (pred row col c : Z) (s : sc_st) : Z * bool :=
  let n := j_comp h in
  let colx := col * n in
  let prev := (col - 1) * n in
  let this j := s_rows s (s_this s + j) in
  let last j := s_rows s (s_last s + j) in
  if (col =? 0) && (row =? 0) then (Z.shiftl 1 (j_bits h - 1), true)
  else if row =? 0 then (this (prev + c), row_ok h (s_this s + prev + c))
  else if col =? 0 then (last c, row_ok h (s_last s + c))
  else
    let kc := row_ok h (s_last s + colx + c) in
    let kp := row_ok h (s_last s + prev + c) in
    if pred =? 0 then (0, true)
    else if pred =? 1 then (this (prev + c), row_ok h (s_this s + prev + c))
    else if pred =? 2 then (last (colx + c), kc)
    else if pred =? 3 then (last (prev + c), kp)
    else if pred =? 4 then (s_left s + last (colx + c) - last (prev + c), kc && kp)
    else if pred =? 5 then (s_left s + Z.shiftr (last (colx + c) - last (prev + c)) 1, kc && kp)
    else if pred =? 6 then (last (colx + c) + Z.shiftr (s_left s - last (prev + c)) 1, kc && kp)
    else (Z.shiftr (s_left s + last (colx + c)) 1, kc).

Section ScanN.
Variable d : lmem.
Hypothesis Hd : byte_mem d.
Variable E U : Z.
Variable h : lj_hdr.
Variables (bits : list nat) (vals : list Z).
Hypothesis Hok : dht_ok bits vals.
Hypothesis Hlut : lut_ok (j_huffbits h) (j_lut h) bits vals.
Variables (p : Z) (px : list Z) (img0 : lmem) (a : dec_arg).
Let N := j_comp h.
Let x := j_x h.
Let W := N * x.
Let H := j_y h.
Hypothesis HN : 1 <= N.
Hypothesis Hx : 1 <= x.
Hypothesis Hy : 0 <= H.
Hypothesis Hp : 1 <= p <= 7 /\ p <> 6.
Hypothesis Hskip : 0 <= da_skip a.
Hypothesis Hpx : len px = W * H.
Let at_ (k : Z) : Z := nth (Z.to_nat k) px 0.
Definition lin_n (q : Z) : Z := match da_lin a with None => q | Some f => f q end.
Definition pos_n (k : Z) : Z := k / W * (W + da_skip a) + k mod W.
Definition ptrs_n (r : Z) (s : sc_st) : Prop :=
  s_out s = r * (W + da_skip a) /\ s_this s = (if Z.even r then 0 else x) /\ s_last s = (if Z.even r then x else 0).
(* sample j of the row above has not been overwritten by the first k samples of this row *)
Definition safe (r j k : Z) : Prop := if Z.even r then k <= j + x else j < x \/ x + k <= j.
Definition inv_n (r k : Z) (R : list bool) (s : sc_st) : Prop :=
  nd_inv d E R (s_nd s) /\ n_oob (s_nd s) = false /\
  (forall q, 0 <= q < r * W + k -> s_img s (pos_n q) = lin_n (at_ q)) /\
  (forall z, (forall q, 0 <= q < r * W + k -> z <> pos_n q) -> s_img s z = img0 z) /\
  (1 <= r * W + k -> s_left s = at_ (r * W + k - 1)) /\
  (forall j, 0 <= j < k -> s_rows s (s_this s + j) = at_ (r * W + j)) /\
  (1 <= r -> forall j, 0 <= j < W -> safe r j k -> s_rows s (s_last s + j) = at_ ((r - 1) * W + j)).

Lemma W_pos : 1 <= W. Proof. unfold W. nia. Qed.
Lemma k_range col c : 0 <= col < x -> 0 <= c < N -> 0 <= N * col + c < W.
Proof. intros H1 H2. unfold W. nia. Qed.
Lemma idx_n r k : 0 <= r < H -> 0 <= k < W -> let i := r * W + k in i mod W = k /\ i / W = r /\ 0 <= i < W * H.
Proof.
  intros Hr Hk i. pose proof W_pos. repeat split.
  - unfold i. rewrite Z.add_comm, Z.mod_add by lia. apply Z.mod_small. lia.
  - unfold i. rewrite Z.add_comm, Z.div_add, Z.div_small by lia. lia.
  - unfold i. nia.
  - unfold i. nia.
Qed.
Lemma pos_inj_n q q' : 0 <= q -> 0 <= q' -> pos_n q = pos_n q' -> q = q'.
Proof.
  intros H1 H2 Ep. unfold pos_n in Ep. pose proof W_pos.
  pose proof (Z.mod_pos_bound q W ltac:(lia)). pose proof (Z.mod_pos_bound q' W ltac:(lia)).
  assert (Eq : q / W = q' / W) by nia. rewrite (Z.div_mod q W), (Z.div_mod q' W) by lia. rewrite Eq in *. lia.
Qed.
Lemma ptr_cases r s : ptrs_n r s -> (s_this s = 0 \/ s_this s = x) /\ (s_last s = 0 \/ s_last s = x).
Proof. intros (_ & -> & ->). destruct (Z.even r); auto. Qed.

(* one sample, whatever the prediction *)
Lemma sample_step r col c s Q ok dv nd : pe h p r col c s = (Q, ok) -> nextdiff U d (j_huffbits h) (j_lut h) (s_nd s) = (dv, nd) ->
  let v := (Q + dv) mod 2 ^ 16 in
  (da_lin a <> None -> v <= da_linlen a) ->
  exists s', sample U d h p a r col c s = Some s' /\
    s_rows s' = upd (s_rows s) (s_this s + (N * col + c)) v /\ s_img s' = upd (s_img s) (s_out s + (N * col + c)) (lin_n v) /\ s_left s' = v /\
    s_this s' = s_this s /\ s_last s' = s_last s /\ s_out s' = s_out s /\
    n_b (s_nd s') = n_b nd /\ n_cnt (s_nd s') = n_cnt nd /\ n_ix (s_nd s') = n_ix nd /\ n_hi (s_nd s') = n_hi nd /\
    n_oob (s_nd s') = n_oob nd || negb ok || negb (row_ok h (s_this s + (N * col + c))).
Proof.
  intros EP ND v Hl. unfold sample, sample_px. rewrite ND.
  match goal with |- exists s', ?e = Some s' /\ _ => assert (EE : e = let '(px1, ok1) := pe h p r col c s in
    let left := trunc 16 (Z.rem (px1 + dv) 65536) in
    let lin := match da_lin a with None => Some left | Some f => if da_linlen a <? left then None else Some (f left) end in
    let w := s_this s + col * j_comp h + c in
    match lin with
    | None => None
    | Some v =>
      Some {| s_nd := {| n_b := n_b nd; n_cnt := n_cnt nd; n_ix := n_ix nd; n_hi := n_hi nd; n_oob := n_oob nd || negb ok1 || negb (row_ok h w) |};
              s_rows := upd (s_rows s) w left; s_img := upd (s_img s) (s_out s + col * j_comp h + c) v;
              s_left := left; s_this := s_this s; s_last := s_last s; s_out := s_out s |}
    end) end.
  { reflexivity. }
  rewrite EE. clear EE. rewrite EP. cbv zeta. rewrite u16_rem. fold v.
  assert (EL : match da_lin a with None => Some v | Some f => if da_linlen a <? v then None else Some (f v) end = Some (lin_n v)).
  { unfold lin_n. destruct (da_lin a) as [f|]; [|reflexivity]. specialize (Hl ltac:(discriminate)). replace (da_linlen a <? v) with false by lia. reflexivity. }
  rewrite EL. eexists. split; [reflexivity|]. cbn [s_rows s_img s_left s_this s_last s_out s_nd n_b n_cnt n_ix n_hi n_oob].
  replace (s_this s + col * j_comp h + c) with (s_this s + (N * col + c)) by (unfold N; lia). replace (s_out s + col * j_comp h + c) with (s_out s + (N * col + c)) by (unfold N; lia). auto 12.
Qed.

(* the sample is decoded right when its prediction is right *)
Lemma sample_right r col c R s dv rest Q : 0 <= r < H -> 0 <= col < x -> 0 <= c < N -> ptrs_n r s -> inv_n r (N * col + c) R s ->
  read_diff (book_of bits vals) R = Some (dv, rest) -> dv <> 32768 ->
  pe h p r col c s = (Q, true) -> at_ (r * W + (N * col + c)) = (Q + dv) mod 2 ^ 16 -> (da_lin a <> None -> at_ (r * W + (N * col + c)) <= da_linlen a) ->
  exists s', sample U d h p a r col c s = Some s' /\ ptrs_n r s' /\ inv_n r (N * col + c + 1) rest s'.
Proof.
  intros Hr Hcol Hc HP (I1 & I2 & I3 & I4 & I5 & I6 & I7) ED Hdv EP Ev Hlin. pose proof (k_range col c Hcol Hc) as Hk. set (k := N * col + c) in *.
  destruct (idx_n r k Hr Hk) as (Im & Id & Ir). set (i := r * W + k) in *. pose proof (ptr_cases r s HP) as (Pt & Pl). destruct HP as (Ho & Hth & Hla). pose proof W_pos as HW.
  destruct (nextdiff_p6 d E U _ _ bits vals R (s_nd s) dv rest Hd Hlut Hok I1 ED Hdv) as ((nd & ND & NI & NO) & _).
  destruct (sample_step r col c s Q true dv nd EP ND) as (s' & S1 & S2 & S3 & S4 & S5 & S6 & S7 & S8 & S9 & S10 & S11 & S12).
  { intros Hl. rewrite <- Ev. apply Hlin. exact Hl. }
  fold k in S2, S3, S12. rewrite <- Ev in S2, S3, S4. exists s'. split; [exact S1|]. split; [unfold ptrs_n; rewrite S5, S6, S7; auto|].
  unfold inv_n. replace (r * W + (k + 1)) with (i + 1) by (unfold i; lia).
  assert (Ep : s_out s + k = pos_n i) by (unfold pos_n; rewrite Id, Im, Ho; lia). rewrite Ep in S3.
  split. { unfold nd_inv in *. rewrite S8, S9, S10, S11. exact NI. }
  split. { rewrite S12, NO, I2. unfold row_ok. cbn [negb orb]. fold N x. replace (2 * x * N) with (2 * W) by (unfold W; lia). assert (x <= W) by (unfold W; nia). destruct Pt as [R1|R1]; rewrite R1; lia. }
  split. { intros q Hq. rewrite S3. unfold upd. destruct (Z.eq_dec q i) as [->|Hne]; [rewrite Z.eqb_refl; reflexivity|].
    destruct (pos_n q =? pos_n i) eqn:Ek; [exfalso; apply Hne, pos_inj_n; lia|]. apply I3. lia. }
  split. { intros z Hz. rewrite S3. unfold upd. destruct (z =? pos_n i) eqn:Ek; [exfalso; apply (Hz i); lia|]. apply I4. intros q Hq. apply Hz. lia. }
  split. { intros _. rewrite S4. f_equal. unfold i. lia. }
  split. { intros j Hj. rewrite S2, S5. unfold upd. destruct (Z.eq_dec j k) as [->|Hne]; [rewrite Z.eqb_refl; reflexivity|]. replace (s_this s + j =? s_this s + k) with false by lia. apply I6. lia. }
  intros Hr1 j Hj Hs. rewrite S2, S6. unfold upd. unfold safe in Hs. assert (Hnw : s_last s + j <> s_this s + k) by (rewrite Hth, Hla; destruct (Z.even r); lia).
  replace (s_last s + j =? s_this s + k) with false by lia. apply I7; [lia|lia|]. unfold safe. destruct (Z.even r); lia.
Qed.

(* when the prediction is the one of T.81 *)
Definition fits (r col c : Z) : Prop := let k := N * col + c in
  1 <= r -> (col = 0 -> safe r c c) /\ (1 <= col -> (p = 1 \/ p = 3 \/ safe r k k) /\ (p = 1 \/ p = 2 \/ p = 7 \/ safe r (k - N) k) /\ (p <= 3 \/ N = 1)).
Lemma pe_ok r col c R s : 0 <= r < H -> 0 <= col < x -> 0 <= c < N -> ptrs_n r s -> inv_n r (N * col + c) R s -> fits r col c ->
  pe h p r col c s = (predn p N (j_bits h) W (firstn (Z.to_nat (r * W + (N * col + c))) px), true).
Proof.
  intros Hr Hcol Hc HP (I1 & I2 & I3 & I4 & I5 & I6 & I7) HF. pose proof (k_range col c Hcol Hc) as Hk. unfold fits in HF. cbv zeta in HF. set (k := N * col + c) in *.
  destruct (idx_n r k Hr Hk) as (Im & Id & Ir). set (i := r * W + k) in *. pose proof (ptr_cases r s HP) as (Pt & Pl). pose proof W_pos as HW. clear I1 I2 I3 I4.
  assert (Li : len (firstn (Z.to_nat i) px) = i) by (unfold len in *; rewrite firstn_length; lia).
  unfold predn. rewrite Li. cbv zeta. assert (EN : forall z, 0 <= z < i -> nth (Z.to_nat z) (firstn (Z.to_nat i) px) 0 = at_ z) by (intros z Hz; rewrite nth_firstn by lia; reflexivity).
  assert (RO : forall z, 0 <= z < W -> row_ok h (s_this s + z) = true /\ row_ok h (s_last s + z) = true).
  { intros z Hz. unfold row_ok. fold N x. replace (2 * x * N) with (2 * W) by (unfold W; lia). assert (x <= W) by (unfold W; nia). destruct Pt as [R1|R1], Pl as [R2|R2]; rewrite R1, R2; lia. }
  unfold pe. cbv zeta. fold N. destruct (col =? 0) eqn:E0.
  - assert (col = 0) by lia. subst col. assert (Ekc : k = c) by (unfold k; lia). cbn [andb]. destruct (r =? 0) eqn:Er.
    + replace (i <? N) with true by (unfold i; nia). rewrite Z.shiftl_1_l. reflexivity.
    + assert (W <= i) by (unfold i; nia). assert (N <= W) by (unfold W; nia). replace (i <? N) with false by lia. replace (i <? W) with false by lia. rewrite Im. replace (k <? N) with true by lia.
      rewrite EN by lia. rewrite (proj2 (RO c ltac:(lia))). rewrite I7; [|lia|lia|]. 2:{ rewrite Ekc. apply HF; lia. } do 2 f_equal. unfold i. lia.
  - cbn [andb]. assert (Hkn : N <= k) by (unfold k; nia). assert (Epc : (col - 1) * N + c = k - N) by (unfold k; lia). assert (Ecc : col * N + c = k) by (unfold k; lia).
    rewrite <- !(Z.add_assoc _ _ c). rewrite Epc, Ecc. rewrite (proj1 (RO (k - N) ltac:(lia))), (proj2 (RO (k - N) ltac:(lia))), (proj2 (RO k ltac:(lia))).
    rewrite (I6 (k - N)) by lia. replace (r * W + (k - N)) with (i - N) by (unfold i; lia).
    destruct (r =? 0) eqn:Er.
    + assert (Eik : i = k) by (unfold i; nia). replace (i <? N) with false by lia. replace (i <? W) with true by lia. rewrite EN by lia. reflexivity.
    + assert (W <= i) by (unfold i; nia). replace (i <? N) with false by lia. replace (i <? W) with false by lia. rewrite Im. replace (k <? N) with false by lia.
      rewrite !EN by (unfold i in *; nia). destruct (HF ltac:(lia)) as [_ HF']. destruct (HF' ltac:(lia)) as (F2 & F3 & F4). clear HF HF'.
      assert (EB : p = 1 \/ p = 3 \/ s_rows s (s_last s + k) = at_ (i - W)).
      { destruct F2 as [F2|[F2|F2]]; [left; exact F2|right; left; exact F2|right; right]. rewrite I7 by (lia || exact F2). f_equal. unfold i. lia. }
      assert (EC : p = 1 \/ p = 2 \/ p = 7 \/ s_rows s (s_last s + (k - N)) = at_ (i - W - N)).
      { destruct F3 as [F3|[F3|[F3|F3]]]; [left; exact F3|right; left; exact F3|right; right; left; exact F3|right; right; right]. rewrite I7 by (lia || exact F3). f_equal. unfold i. lia. }
      assert (EL : p <= 3 \/ s_left s = at_ (i - N)). { destruct F4 as [F4|F4]; [left; exact F4|right]. fold i in I5. rewrite I5 by lia. f_equal. lia. }
      unfold select. rewrite !Z.shiftr_div_pow2 by lia. change (2 ^ 1) with 2. replace (p =? 0) with false by lia. cbn [andb].
      destruct (p =? 1) eqn:E1; [reflexivity|]. destruct (p =? 2) eqn:E2; [f_equal; destruct EB as [K|[K|K]]; [lia|lia|exact K]|].
      destruct (p =? 3) eqn:E3; [f_equal; destruct EC as [K|[K|[K|K]]]; [lia|lia|lia|exact K]|].
      destruct EB as [K|[K|EB]]; [lia|lia|]. destruct EL as [K|EL]; [lia|]. rewrite EB, EL.
      destruct (p =? 4) eqn:E4; [destruct EC as [K|[K|[K|K]]]; [lia|lia|lia|rewrite K; reflexivity]|].
      destruct (p =? 5) eqn:E5; [destruct EC as [K|[K|[K|K]]]; [lia|lia|lia|rewrite K; reflexivity]|].
      destruct (p =? 6) eqn:E6; [lia|]. reflexivity.
Qed.

(* the loops *)
Definition swap_n (s : sc_st) : sc_st :=
  {| s_nd := s_nd s; s_rows := s_rows s; s_img := s_img s; s_left := s_left s; s_this := s_last s; s_last := s_this s; s_out := s_out s + (j_x h * j_comp h + da_skip a) |}.
Lemma ptrs_swap_n r s : ptrs_n r s -> ptrs_n (r + 1) (swap_n s).
Proof.
  intros (Ho & Hth & Hla). unfold ptrs_n, swap_n. cbn [s_out s_this s_last]. fold N x. rewrite Ho, Hth, Hla. rewrite Z.even_add. change (Z.even 1) with false.
  split; [unfold W; lia|]. destruct (Z.even r); auto.
Qed.
Lemma inv_end r R s : 0 <= r -> inv_n r W R s -> inv_n (r + 1) 0 R (swap_n s).
Proof.
  intros Hr (I1 & I2 & I3 & I4 & I5 & I6 & I7). unfold inv_n, swap_n. cbn [s_nd s_img s_left s_rows s_this s_last]. replace ((r + 1) * W + 0) with (r * W + W) by lia.
  split; [exact I1|]. split; [exact I2|]. split; [exact I3|]. split; [exact I4|]. split; [exact I5|]. split; [intros; lia|].
  intros _ j Hj _. rewrite I6 by lia. f_equal. lia.
Qed.
Lemma scan_gen_n (INV : Z -> Z -> Z -> sc_st -> Prop) :
  (forall r col c s, 0 <= r < H -> 0 <= col < x -> 0 <= c < N -> INV r col c s -> exists s', sample U d h p a r col c s = Some s' /\ INV r col (c + 1) s') ->
  (forall r col s, 0 <= r < H -> 0 <= col < x -> INV r col N s -> INV r (col + 1) 0 s) ->
  (forall r s, 0 <= r < H -> INV r x 0 s -> INV (r + 1) 0 0 (swap_n s)) ->
  forall s, INV 0 0 0 s -> exists s', for_loop (Z.to_nat H) 0 (scan_row U d h p a) s = Some s' /\ INV H 0 0 s'.
Proof.
  intros HS HC HR s I. destruct (for_loop_inv (scan_row U d h p a) (fun r => INV r 0 0) (Z.to_nat H) 0 s I) as (s' & E1 & I').
  - intros r y Hr Iy. rewrite Z2Nat.id in Hr by exact Hy. unfold scan_row, scan_cols.
    destruct (for_loop_inv (fun col => for_loop (Z.to_nat (j_comp h)) 0 (fun c => sample U d h p a r col c)) (fun col => INV r col 0) (Z.to_nat (j_x h)) 0 y Iy) as (z & E2 & Iz).
    + intros col z Hcol Iz. fold x in Hcol. rewrite Z2Nat.id in Hcol by lia. fold N.
      destruct (for_loop_inv (fun c => sample U d h p a r col c) (fun c => INV r col c) (Z.to_nat N) 0 z Iz) as (z' & E3 & Iz').
      * intros c w Hc Iw. rewrite Z2Nat.id in Hc by lia. apply HS; auto; lia.
      * exists z'. split; [exact E3|]. rewrite Z2Nat.id in Iz' by lia. apply HC; [lia|lia|exact Iz'].
    + rewrite E2. eexists. split; [reflexivity|]. apply HR; [lia|]. fold x in Iz. rewrite Z2Nat.id in Iz by lia. exact Iz.
  - exists s'. split; [exact E1|]. rewrite Z2Nat.id in I' by exact Hy. exact I'.
Qed.

(* a sample that reads on, without a linearization table *)
Lemma sample_goes r col c s : da_lin a = None -> ptrs_n r s ->
  exists s' v, sample U d h p a r col c s = Some s' /\ ptrs_n r s' /\ s_img s' = upd (s_img s) (r * (W + da_skip a) + (N * col + c)) v.
Proof.
  intros Hl HP. destruct (pe h p r col c s) as [Q ok] eqn:EP. destruct (nextdiff U d (j_huffbits h) (j_lut h) (s_nd s)) as [dv nd] eqn:ND.
  destruct (sample_step r col c s Q ok dv nd EP ND) as (s' & S1 & S2 & S3 & S4 & S5 & S6 & S7 & _). { intros K. congruence. }
  exists s', (lin_n ((Q + dv) mod 2 ^ 16)). split; [exact S1|]. destruct HP as (Ho & Hth & Hla). rewrite Ho in S3. split; [unfold ptrs_n; rewrite S5, S6, S7; auto|exact S3].
Qed.

Variable bd : Z.
Hypothesis Hbd : j_bits h = bd.
Hypothesis Hv15 : Forall (fun v => v <= 15) vals.
Let bk := book_of bits vals.
Definition ref_n (i : Z) (R : list bool) : Prop := read_n bk p N bd W (Z.to_nat (W * H - i)) (firstn (Z.to_nat i) px) R = Some px.
Lemma ref_step i R : 0 <= i < W * H -> ref_n i R ->
  exists dv rest, read_diff bk R = Some (dv, rest) /\ dv <> 32768 /\ at_ i = (predn p N bd W (firstn (Z.to_nat i) px) + dv) mod 2 ^ 16 /\ ref_n (i + 1) rest.
Proof.
  intros Hi ER. unfold ref_n in ER. destruct (Z.to_nat (W * H - i)) as [|m] eqn:Em; [lia|]. cbn [read_n] in ER.
  destruct (read_diff bk R) as [[dv rest]|] eqn:ED; [|discriminate]. exists dv, rest. split; [reflexivity|].
  split; [apply (diff_small16 h bits vals Hok Hv15 R dv rest); exact ED|].
  assert (Lf : length (firstn (Z.to_nat i) px) = Z.to_nat i) by (rewrite firstn_length; unfold len in Hpx; lia).
  destruct (read_n_len _ _ _ _ _ _ _ _ _ ER) as [Lpx Fpx]. rewrite app_length, Lf in Lpx, Fpx. cbn [length] in Lpx, Fpx. split.
  - unfold at_. rewrite <- (nth_firstn 0 (Z.to_nat i + 1)) by lia. rewrite Fpx, app_nth2 by lia. rewrite Lf, Nat.sub_diag. reflexivity.
  - unfold ref_n. replace (Z.to_nat (W * H - (i + 1))) with m by lia. replace (Z.to_nat (i + 1)) with (Z.to_nat i + 1)%nat by lia. rewrite Fpx. exact ER.
Qed.

Lemma for_stop_inv {A : Type} (body : Z -> A -> option A) (stop : Z -> A -> A) (INV : Z -> A -> Prop) (STOP : A -> Prop) : forall n i y, INV i y ->
  (forall j z, i <= j < i + Z.of_nat n -> INV j z -> (exists z', body j z = Some z' /\ INV (j + 1) z') \/ (body j z = None /\ STOP (stop j z))) ->
  (exists z, for_loop n i body y = Some z /\ INV (i + Z.of_nat n) z) \/ (for_loop n i body y = None /\ STOP (for_stop n i body stop y)).
Proof.
  induction n as [|n IH]; intros i y Iy HB; cbn [for_loop for_stop].
  - left. exists y. split; [reflexivity|]. replace (i + Z.of_nat 0) with i by lia. exact Iy.
  - destruct (HB i y ltac:(lia) Iy) as [(z & E1 & I1)|(E1 & S1)]; rewrite E1; [|right; auto].
    replace (i + Z.of_nat (S n)) with (i + 1 + Z.of_nat n) by lia. apply IH; [exact I1|]. intros j z' Hj. apply HB. lia.
Qed.
Lemma scan_gen_stop (INV : Z -> Z -> Z -> sc_st -> Prop) (STOP : sc_st -> Prop) :
  (forall r col c s, 0 <= r < H -> 0 <= col < x -> 0 <= c < N -> INV r col c s ->
     (exists s', sample U d h p a r col c s = Some s' /\ INV r col (c + 1) s') \/ (sample U d h p a r col c s = None /\ STOP (sample_stop U d h p r col c s))) ->
  (forall r col s, 0 <= r < H -> 0 <= col < x -> INV r col N s -> INV r (col + 1) 0 s) ->
  (forall r s, 0 <= r < H -> INV r x 0 s -> INV (r + 1) 0 0 (swap_n s)) ->
  forall s, INV 0 0 0 s -> (exists s', for_loop (Z.to_nat H) 0 (scan_row U d h p a) s = Some s' /\ INV H 0 0 s') \/
    (for_loop (Z.to_nat H) 0 (scan_row U d h p a) s = None /\ STOP (scan_stop U d h p a s)).
Proof.
  intros HS HC HR s I. unfold scan_stop. fold H.
  match goal with |- _ \/ (_ /\ STOP (for_stop _ 0 _ ?st s)) => destruct (for_stop_inv (scan_row U d h p a) st (fun r => INV r 0 0) STOP (Z.to_nat H) 0 s I) as [(s' & E1 & I')|K]; [|left; exists s'|right; exact K] end.
  2: { split; [exact E1|]. rewrite Z2Nat.id in I' by exact Hy. exact I'. }
  intros r y Hr Iy. rewrite Z2Nat.id in Hr by exact Hy. unfold scan_row, scan_cols. fold x N.
  match goal with |- _ \/ (_ /\ STOP (for_stop _ 0 _ ?st y)) => destruct (for_stop_inv (fun col => for_loop (Z.to_nat N) 0 (fun c => sample U d h p a r col c)) st (fun col => INV r col 0) STOP (Z.to_nat x) 0 y Iy) as [(z & E2 & Iz)|(E2 & K)] end.
  - intros col z Hcol Iz. rewrite Z2Nat.id in Hcol by lia.
    destruct (for_stop_inv (fun c => sample U d h p a r col c) (fun c => sample_stop U d h p r col c) (fun c => INV r col c) STOP (Z.to_nat N) 0 z Iz) as [(z' & E3 & Iz')|K].
    + intros c w Hc Iw. rewrite Z2Nat.id in Hc by lia. apply HS; auto; lia.
    + left. exists z'. split; [exact E3|]. rewrite Z2Nat.id in Iz' by lia. apply HC; [lia|lia|exact Iz'].
    + right. exact K.
  - left. rewrite E2. eexists. split; [reflexivity|]. apply HR; [lia|]. rewrite Z2Nat.id in Iz by lia. exact Iz.
  - right. rewrite E2. split; [reflexivity|exact K].
Qed.
(* a sample outside the linearization table *)
Lemma sample_stops r col c R s dv rest Q : 0 <= r < H -> 0 <= col < x -> 0 <= c < N -> inv_n r (N * col + c) R s ->
  read_diff (book_of bits vals) R = Some (dv, rest) -> dv <> 32768 ->
  pe h p r col c s = (Q, true) -> at_ (r * W + (N * col + c)) = (Q + dv) mod 2 ^ 16 -> da_lin a <> None -> da_linlen a < at_ (r * W + (N * col + c)) ->
  sample U d h p a r col c s = None /\ n_oob (s_nd (sample_stop U d h p r col c s)) = false /\ n_hi (s_nd (sample_stop U d h p r col c s)) <= E + 3 /\
  s_img (sample_stop U d h p r col c s) = s_img s.
Proof.
  intros Hr Hcol Hc (I1 & I2 & _) ED Hdv EP Ev Hl Hbig.
  destruct (nextdiff_p6 d E U _ _ bits vals R (s_nd s) dv rest Hd Hlut Hok I1 ED Hdv) as ((nd & ND & NI & NO) & _).
  assert (EP' : sample_px h p r col c s = (Q, true)) by exact EP. unfold sample, sample_stop. rewrite ND, EP'. cbv zeta. rewrite u16_rem, <- Ev.
  split. { destruct (da_lin a) as [f|]; [|congruence]. replace (da_linlen a <? at_ (r * W + (N * col + c))) with true by lia. reflexivity. }
  cbn [s_nd n_oob n_hi s_img snd negb]. rewrite NO, I2. destruct NI as (_ & _ & NH & _). split; [reflexivity|]. split; [exact NH|reflexivity].
Qed.
(* what is known when the first i samples have been delivered *)
Definition some_n (i : Z) (s : sc_st) : Prop := n_oob (s_nd s) = false /\ n_hi (s_nd s) <= E + 3 /\
  (forall q, 0 <= q < i -> s_img s (pos_n q) = lin_n (at_ q)) /\ (forall z, (forall q, 0 <= q < i -> z <> pos_n q) -> s_img s z = img0 z) /\
  (da_lin a <> None -> forall q, 0 <= q < i -> at_ q <= da_linlen a).
Lemma scan_all s R : ptrs_n 0 s -> inv_n 0 0 R s -> ref_n 0 R -> (forall r col c, 0 <= r < H -> 0 <= col < x -> 0 <= c < N -> fits r col c) ->
  (exists s' R', for_loop (Z.to_nat H) 0 (scan_row U d h p a) s = Some s' /\ inv_n H 0 R' s' /\ some_n (W * H) s') \/
  (for_loop (Z.to_nat H) 0 (scan_row U d h p a) s = None /\ exists i, 0 <= i < W * H /\ da_lin a <> None /\ da_linlen a < at_ i /\ some_n i (scan_stop U d h p a s)).
Proof.
  intros HP HI HR HF.
  destruct (scan_gen_stop (fun r col c s => ptrs_n r s /\ (da_lin a <> None -> forall q, 0 <= q < r * W + (N * col + c) -> at_ q <= da_linlen a) /\ exists R, inv_n r (N * col + c) R s /\ ref_n (r * W + (N * col + c)) R)
    (fun s => exists i, 0 <= i < W * H /\ da_lin a <> None /\ da_linlen a < at_ i /\ some_n i s)) with (s := s) as [(s' & E1 & _ & V & R' & I' & _)|K].
  - intros r col c s1 Hr Hcol Hc (P1 & V1 & R1 & I1 & F1). pose proof (k_range col c Hcol Hc) as Hk. destruct (idx_n r _ Hr Hk) as (_ & _ & Ir).
    destruct (ref_step _ _ Ir F1) as (dv & rest & ED & Hdv & Ev & F2).
    assert (EP : pe h p r col c s1 = (predn p N bd W (firstn (Z.to_nat (r * W + (N * col + c))) px), true)) by (rewrite <- Hbd; apply (pe_ok r col c R1 s1); auto).
    assert (DL : (da_lin a <> None -> at_ (r * W + (N * col + c)) <= da_linlen a) \/ (da_lin a <> None /\ da_linlen a < at_ (r * W + (N * col + c)))).
    { destruct (da_lin a); [|left; congruence]. destruct (Z_lt_le_dec (da_linlen a) (at_ (r * W + (N * col + c)))); [right; split; [discriminate|lia]|left; intros _; lia]. }
    destruct DL as [DL|[D1 D2]].
    + left. destruct (sample_right r col c R1 s1 dv rest _ Hr Hcol Hc P1 I1 ED Hdv EP Ev DL) as (s2 & S1 & S2 & S3).
      exists s2. split; [exact S1|]. split; [exact S2|]. replace (N * col + (c + 1)) with (N * col + c + 1) by lia. split.
      * intros Hl q Hq. destruct (Z.eq_dec q (r * W + (N * col + c))) as [->|]; [apply DL; exact Hl|apply V1; [exact Hl|lia]].
      * exists rest. split; [exact S3|]. replace (r * W + (N * col + c + 1)) with (r * W + (N * col + c) + 1) by lia. exact F2.
    + right. destruct (sample_stops r col c R1 s1 dv rest _ Hr Hcol Hc I1 ED Hdv EP Ev D1 D2) as (S1 & S2 & S3 & S4). split; [exact S1|].
      exists (r * W + (N * col + c)). split; [exact Ir|]. split; [exact D1|]. split; [exact D2|]. destruct I1 as (_ & _ & I3 & I4 & _).
      unfold some_n. rewrite S4. auto.
  - intros r col s1 Hr Hcol K. replace (N * (col + 1) + 0) with (N * col + N) by lia. exact K.
  - intros r s1 Hr (P1 & V1 & R1 & I1 & F1). replace (N * x + 0) with W in * by (unfold W; lia). replace (N * 0 + 0) with 0 by lia. replace ((r + 1) * W + 0) with (r * W + W) by lia.
    split; [apply ptrs_swap_n; exact P1|]. split; [exact V1|]. exists R1. split; [apply inv_end; [lia|exact I1]|]. exact F1.
  - split; [exact HP|]. replace (N * 0 + 0) with 0 by lia. split; [intros; lia|]. exists R. auto.
  - left. replace (N * 0 + 0) with 0 in * by lia. exists s', R'. split; [exact E1|]. split; [exact I'|]. replace (W * H) with (H * W + 0) by lia. destruct I' as ((_ & _ & I0 & _) & I2 & I3 & I4 & _). unfold some_n. auto.
  - right. exact K.
Qed.
Lemma scan_all_right s R : (da_lin a <> None -> Forall (fun q => q <= da_linlen a) px) ->
  ptrs_n 0 s -> inv_n 0 0 R s -> ref_n 0 R -> (forall r col c, 0 <= r < H -> 0 <= col < x -> 0 <= c < N -> fits r col c) ->
  exists s' R', for_loop (Z.to_nat H) 0 (scan_row U d h p a) s = Some s' /\ inv_n H 0 R' s'.
Proof.
  intros Hlin HP HI HR HF. destruct (scan_all s R HP HI HR HF) as [(s' & R' & E1 & I1 & _)|(_ & i & Hi & Hl & Hb & _)]; [exists s', R'; auto|].
  exfalso. specialize (Hlin Hl). rewrite Forall_forall in Hlin. specialize (Hlin (at_ i) ltac:(apply nth_In; unfold len in Hpx; lia)). lia.
Qed.

(* the first wrong sample, number k0 of the second row *)
Lemma scan_wrong s R k0 : da_lin a = None -> 2 <= H -> 0 <= k0 < W -> ptrs_n 0 s -> inv_n 0 0 R s -> ref_n 0 R ->
  (forall col c, 0 <= col < x -> 0 <= c < N -> N * col + c < k0 -> fits 1 col c) ->
  (forall col c R1 s1 dv Q ok, 0 <= col < x -> 0 <= c < N -> N * col + c = k0 -> ptrs_n 1 s1 -> inv_n 1 k0 R1 s1 -> pe h p 1 col c s1 = (Q, ok) ->
     at_ (W + k0) = (predn p N bd W (firstn (Z.to_nat (W + k0)) px) + dv) mod 2 ^ 16 -> (Q + dv) mod 2 ^ 16 <> at_ (W + k0)) ->
  exists s', for_loop (Z.to_nat H) 0 (scan_row U d h p a) s = Some s' /\ s_img s' (W + da_skip a + k0) <> at_ (W + k0).
Proof.
  intros Hnl HH Hk0 HP HI HR HF HB. pose proof W_pos as HW. set (p0 := W + da_skip a + k0).
  destruct (scan_gen_n (fun r col c s => ptrs_n r s /\ if r * W + (N * col + c) <=? W + k0 then exists R, inv_n r (N * col + c) R s /\ ref_n (r * W + (N * col + c)) R
       else s_img s p0 <> at_ (W + k0))) with (s := s) as (s' & E1 & _ & I').
  - intros r col c s1 Hr Hcol Hc (P1 & K). pose proof (k_range col c Hcol Hc) as Hk. destruct (idx_n r _ Hr Hk) as (_ & _ & Ir).
    replace (r * W + (N * col + (c + 1))) with (r * W + (N * col + c) + 1) by lia. replace (N * col + (c + 1)) with (N * col + c + 1) by lia. set (k := N * col + c) in *. destruct (r * W + k <=? W + k0) eqn:Ei.
    + destruct K as (R1 & I1 & F1). destruct (ref_step _ _ Ir F1) as (dv & rest & ED & Hdv & Ev & F2). destruct (r * W + k + 1 <=? W + k0) eqn:Ei2.
      * destruct (sample_right r col c R1 s1 dv rest (predn p N bd W (firstn (Z.to_nat (r * W + k)) px)) Hr Hcol Hc P1 I1 ED Hdv) as (s2 & S1 & S2 & S3).
        { rewrite <- Hbd. apply (pe_ok r col c R1 s1); auto. intros Hr1. destruct (Z.eq_dec r 1) as [->|]; [apply (HF col c); auto; fold k; lia|exfalso; nia]. } { exact Ev. } { congruence. }
        exists s2. split; [exact S1|]. split; [exact S2|]. exists rest. split; [exact S3|]. replace (r * W + (k + 1)) with (r * W + k + 1) by lia. exact F2.
      * assert (Er : r = 1) by nia. subst r. assert (Ek : k = k0) by lia. rewrite Z.mul_1_l in *.
        destruct (pe h p 1 col c s1) as [Q ok] eqn:EP. pose proof I1 as (N1 & _). destruct (nextdiff U d (j_huffbits h) (j_lut h) (s_nd s1)) as [dv' nd] eqn:ND.
        destruct (nextdiff_p6 d E U _ _ bits vals R1 (s_nd s1) dv rest Hd Hlut Hok N1 ED Hdv) as ((nd' & ND' & _ & _) & _). rewrite ND in ND'. injection ND' as -> ->.
        destruct (sample_step 1 col c s1 Q ok dv nd' EP ND) as (s2 & S1 & S2 & S3 & S4 & S5 & S6 & S7 & _). { intros K. congruence. }
        exists s2. split; [exact S1|]. destruct P1 as (Ho & Hth & Hla). split; [unfold ptrs_n; rewrite S5, S6, S7; auto|].
        rewrite S3. unfold upd. rewrite Ho. fold k. replace (p0 =? 1 * (W + da_skip a) + k) with true by (unfold p0; lia). unfold lin_n. rewrite Hnl. 
        rewrite Ek in Ev, I1. apply (HB col c R1 s1 dv Q ok); auto. unfold ptrs_n. auto.
    + replace (r * W + k + 1 <=? W + k0) with false by lia. destruct (sample_goes r col c s1 Hnl P1) as (s2 & v & S1 & S2 & S3). exists s2. split; [exact S1|]. split; [exact S2|].
      rewrite S3. unfold upd. fold k. replace (p0 =? r * (W + da_skip a) + k) with false; [exact K|]. symmetry. apply Z.eqb_neq. intros Ep. unfold p0 in Ep. assert (r = 1) by nia. subst r. lia.
  - intros r col s1 Hr Hcol (P1 & K). split; [exact P1|]. replace (N * (col + 1) + 0) with (N * col + N) by lia. exact K.
  - intros r s1 Hr (P1 & K). split; [apply ptrs_swap_n; exact P1|]. replace (N * x + 0) with W in * by (unfold W; lia). replace (N * 0 + 0) with 0 by lia. replace ((r + 1) * W + 0) with (r * W + W) by lia.
    destruct (r * W + W <=? W + k0); [|exact K]. destruct K as (R1 & I1 & F1). exists R1. split; [apply inv_end; [lia|exact I1]|]. exact F1.
  - split; [exact HP|]. replace (N * 0 + 0) with 0 by lia. replace (0 * W + 0 <=? W + k0) with true by lia. exists R. auto.
  - exists s'. split; [exact E1|]. replace (H * W + (N * 0 + 0) <=? W + k0) with false in I' by nia. exact I'.
Qed.
End ScanN.
