(* C70, C71: the shipped decoder with any header, number of components and predictor *)
From Verif Require Import Bits Spec Spec_Beta Spec_Lj92 Spec_P6 Spec_Pn M_Lj92 M_Pred6 P_Lj92 P_Lj92b P_Lj92c P_Lj92d P_Fix P_Pred6 P_Pred6b P_Open P_ScanN
  Props_Frame Props_Lj92 Props_Pred6.
Ltac Zify.zify_post_hook ::= idtac.

(* lj92_open and lj92_decode on the file in d give the samples px, y rows of x columns of N samples: row r starts at r*(N*x+skip), nothing
   else of the target is touched, no array of the library is left, at most two bytes after the end of the file are read *)
Definition decodes_n (U : Z) (d : lmem) (file : list Z) (a : dec_arg) (wl : Z) (rows img : lmem) (bd x y N : Z) (px : list Z) : Prop :=
  let res := lj_run_all U d (len file) a wl rows img in
  la_open res = NONE /\ la_dec res = NONE /\ la_x res = x /\ la_y res = y /\ la_bits res = bd /\ la_comp res = N /\
  (forall r j, 0 <= r < y -> 0 <= j < N * x -> la_img res (r * (N * x + da_skip a) + j) = converted a (nth (Z.to_nat (r * (N * x) + j)) px 0)) /\
  (forall p, (forall r j, 0 <= r < y -> 0 <= j < N * x -> p <> r * (N * x + da_skip a) + j) -> la_img res p = img p) /\
  la_oob res = false /\ la_hi res <= len file + 1.

Lemma in_force_ok : forall segs t f bits vals bd x y N, Forall seg_ok segs ->
  (forall b v, t = Some (b, v) -> dht_ok b v /\ (length v <= 200)%nat) -> (forall b x y n, f = Some (b, x, y, n) -> 0 <= x < 65536 /\ 0 <= y < 65536) ->
  in_force segs t f = (Some (bits, vals), Some (bd, x, y, N)) -> dht_ok bits vals /\ (length vals <= 200)%nat /\ 0 <= x < 65536 /\ 0 <= y < 65536.
Proof.
  induction segs as [|s segs IH]; intros t f bits vals bd x y N HF Ht Hf EI.
  - cbn [in_force] in EI. injection EI as -> ->. destruct (Ht _ _ eq_refl). destruct (Hf _ _ _ _ eq_refl). auto.
  - apply Forall_cons_iff in HF. destruct HF as [Hs HF]. rewrite in_force_cons in EI. destruct s as [b v|b x' y' cs|mk body]; cbn [in_force] in EI; (eapply IH; [exact HF| | |exact EI]); try assumption.
    + intros b' v' EE. injection EE as <- <-. exact Hs.
    + intros b' x'' y'' n' EE. injection EE as <- <- <- <-. destruct Hs as (? & ? & _). auto.
Qed.

Lemma setup_n d segs p sel tail bits vals bd x y N Q : byte_mem d -> wf_header segs sel tail bits vals bd x y N -> 0 <= N <= 255 -> 0 <= p <= 7 -> Forall is_byte Q ->
  let file := pn_file segs p sel tail (stuff Q) in holds d 0 file ->
  exists d' h ix, lj92_open d (len file) = (NONE, d', h) /\ byte_mem d' /\ opened_n bits vals bd x y N (j_scan h) h /\ dht_ok bits vals /\ 0 <= x < 65536 /\ 0 <= y < 65536 /\
  j_scan h + beh d' (j_scan h) = ix /\ d' (j_scan h + 3 + 2 * d' (j_scan h + 2)) = p /\
  (p <> 6 -> forall U a rows img, lj92_decode U d' h a rows img =
     match for_loop (Z.to_nat y) 0 (scan_row U d' h p a) (scan_start (len vals) ix x rows img) with
     | None => Some (CORRUPT, scan_stop U d' h p a (scan_start (len vals) ix x rows img)) | Some s => Some (NONE, s) end) /\
  nd_inv d' (len file - 2) (stream 8 Q) {| n_b := 0; n_cnt := 0; n_ix := ix; n_hi := 0; n_oob := false |}.
Proof.
  intros Hd Hh HN Hp HQ file HH. pose proof Hh as (HS & HF & _).
  destruct (in_force_ok segs None None bits vals bd x y N HS ltac:(discriminate) ltac:(discriminate) HF) as (Hok & _ & Hx & Hy).
  destruct (open_n d segs p sel tail (stuff Q) bits vals bd x y N Hd Hh HN HH) as (d' & h & E1 & E2 & E3 & E4 & E5 & E6 & E7 & E8). fold file in E1, E7.
  set (st := 4 + len (flat_map seg_bytes segs)) in *. assert (Hst : 0 <= st) by (unfold st, len; lia). clearbody st. pose proof E3 as (Jx & Jy & Jb & Jc & Js & Jl).
  exists d', h, (st + (6 + 2 * N)). split; [exact E1|]. split; [intros k; rewrite E2; apply Hd|]. rewrite Js. split; [exact E3|]. split; [exact Hok|]. split; [exact Hx|]. split; [exact Hy|].
  split; [rewrite E4; reflexivity|]. split; [rewrite E5; exact E6|]. split.
  - intros Hp6 U a rows img. unfold lj92_decode. rewrite Js, E5, E6, E4, Jx, Jy. replace (7 <? p) with false by lia. replace (p =? 6) with false by lia. reflexivity.
  - apply holds_app in E8. destruct E8 as [E8 _]. unfold nd_inv. cbn [n_cnt n_b n_hi n_ix]. change (2 ^ 0) with 1. split; [lia|]. split; [lia|]. split; [unfold len in *; lia|].
    left. exists Q. split; [exact HQ|]. split; [exact E8|]. split; [lia|reflexivity].
Qed.

(* One component with any predictor, or several with predictor 1 (at least as many columns as components), or a single row: every well-formed
   file is decoded as T.81 says. *)
Theorem C70_decode : forall d segs p sel tail bits vals bd x y N Q px a wl rows img U,
  wf_header segs sel tail bits vals bd x y N -> Forall (fun v => v <= 15) vals ->
  1 <= N <= 255 -> 1 <= x -> 1 <= p <= 7 -> p <> 6 -> N = 1 \/ y <= 1 \/ p = 1 /\ N <= x ->
  Forall is_byte Q -> 0 <= da_skip a ->
  file_in d (pn_file segs p sel tail (stuff Q)) ->
  read_n (book_of bits vals) p N bd (N * x) (Z.to_nat (N * x * y)) [] (stream 8 Q) = Some px ->
  (da_lin a <> None -> Forall (fun q => q <= da_linlen a) px) ->
  decodes_n U d (pn_file segs p sel tail (stuff Q)) a wl rows img bd x y N px.
Proof.
  intros d segs p sel tail bits vals bd x y N Q px a wl rows img U Hh Hv HN Hx Hp Hp6 Hgood HQ Hskip [Hd HH] ED Hlin.
  destruct (setup_n d segs p sel tail bits vals bd x y N Q Hd Hh ltac:(lia) ltac:(lia) HQ HH) as (d' & h & ix & EO & Hd' & (Jx & Jy & Jb & Jc & _ & Jl) & Hok & Hx2 & Hy & _ & _ & EDec & HI).
  set (file := pn_file segs p sel tail (stuff Q)) in *. set (E := len file - 2) in *.
  assert (Hpx : len px = N * x * y). { apply read_n_len in ED. destruct ED as [L _]. cbn [length] in L. unfold len. nia. }
  assert (E0 : Z.to_nat (N * x * y - 0) = Z.to_nat (N * x * y)) by (f_equal; lia).
  destruct (scan_all_right d' Hd' E U h bits vals Hok Jl p px img a ltac:(rewrite Jc; lia) ltac:(rewrite Jx; lia) ltac:(rewrite Jy; lia) ltac:(lia) Hskip ltac:(rewrite Jc, Jx, Jy; exact Hpx) bd Jb Hv
    (scan_start (len vals) ix x rows img) (stream 8 Q) Hlin) as (s' & R' & E1 & I1 & I2 & I3 & I4 & _).
  - unfold ptrs_n, scan_start. cbn [s_out s_this s_last]. change (Z.even 0) with true. rewrite Jx. auto.
  - unfold inv_n. cbn [scan_start s_nd s_img s_left s_rows s_this s_last n_oob]. rewrite Z.mul_0_l. split; [exact HI|]. split; [reflexivity|]. split; [intros; lia|]. split; [reflexivity|]. split; [intros; lia|]. split; intros; lia.
  - unfold ref_n. rewrite Jc, Jx, Jy. change (firstn (Z.to_nat 0) px) with (@nil Z). rewrite E0. exact ED.
  - intros r col c Hr Hcol Hc. rewrite Jx in Hcol. rewrite Jy in Hr. rewrite Jc in Hc. unfold fits, safe. rewrite Jx, Jc. intros Hr1. destruct (Z.even r); nia.
  - rewrite Jy in E1. specialize (EDec Hp6 U a rows img). rewrite E1 in EDec. unfold decodes_n, lj_run_all, lj92_decode_all. fold file. rewrite EO, EDec. cbv zeta.
    cbn [la_open la_dec la_x la_y la_bits la_comp la_img la_oob la_hi]. do 2 (split; [reflexivity|]). do 4 (split; [assumption|]).
    unfold pos_n, lin_n in I3, I4. rewrite Jc, Jx, Jy in I3, I4. rewrite Z.add_0_r in I3, I4. assert (HW : 1 <= N * x) by nia.
    split; [|split; [|split; [exact I2|]]].
    + intros r j Hr Hj. specialize (I3 (r * (N * x) + j) ltac:(nia)).
      assert (Em : (r * (N * x) + j) mod (N * x) = j) by (rewrite Z.add_comm, Z.mod_add by lia; apply Z.mod_small; lia).
      assert (Ev : (r * (N * x) + j) / (N * x) = r) by (rewrite Z.add_comm, Z.div_add, Z.div_small by lia; lia). rewrite Em, Ev in I3. exact I3.
    + intros z Hz. apply I4. intros q Hq. apply Hz; [|apply Z.mod_pos_bound; lia]. split; [apply Z.div_pos; lia|]. apply Z.div_lt_upper_bound; nia.
    + destruct I1 as (_ & _ & I1 & _). unfold E in I1. lia.
Qed.

(* the same for predictor 6 (one component, 25 columns and two rows at least), with the runs of lj92_decode's writeLength *)
Lemma read_n_6 bk bd W : 1 <= W -> forall n img l, read_n bk 6 1 bd W n img l = read_samples bk bd W n img l.
Proof. intros HW. induction n as [|n IH]; intros img l; cbn [read_n read_samples]; [reflexivity|]. destruct (read_diff bk l) as [[dv rest]|]; [|reflexivity]. rewrite predn_6 by lia. apply IH. Qed.
Theorem C70_pred6 : forall d segs sel tail bits vals bd x y Q px a wl rows img U,
  wf_header segs sel tail bits vals bd x y 1 -> Forall (fun v => v <= 15) vals ->
  1 <= bd -> 25 <= x -> 2 <= y -> x * y < 2 ^ 31 -> Forall is_byte Q -> 0 <= da_skip a -> 2 <= wl ->
  file_in d (pn_file segs 6 sel tail (stuff Q)) ->
  read_n (book_of bits vals) 6 1 bd x (Z.to_nat (x * y)) [] (stream 8 Q) = Some px ->
  (da_lin a <> None -> Forall (fun q => q <= da_linlen a) px) ->
  decodes6 U d (pn_file segs 6 sel tail (stuff Q)) a wl rows img bd x y px.
Proof.
  intros d segs sel tail bits vals bd x y Q px a wl rows img U Hh Hv Hbd Hx Hy HXY HQ Hskip Hwl [Hd HH] ED Hlin. rewrite read_n_6 in ED by lia.
  destruct (setup_n d segs 6 sel tail bits vals bd x y 1 Q Hd Hh ltac:(lia) ltac:(lia) HQ HH) as (d' & h & ix & EO & Hd' & (Jx & Jy & Jb & Jc & _ & Jl) & Hok & Hx2 & Hy2 & Ei & Ep & _ & HI).
  set (file := pn_file segs 6 sel tail (stuff Q)) in *. set (E := len file - 2) in *.
  assert (Hpx : len px = j_x h * j_y h). { apply read_samples_len in ED. destruct ED as [L _]. cbn [length] in L. unfold len. rewrite Jx, Jy. nia. }
  destruct (pred6_ok d' Hd' E U h bits vals Hok Jl Hv px img a wl Hskip Hwl ltac:(lia) (j_y h) Hpx ltac:(lia) ltac:(lia) Hlin (len file) rows (stream 8 Q)) as (s' & E1 & R & P); try lia.
  - rewrite (pixels_small h) by (rewrite Jx, Jy; nia). reflexivity.
  - rewrite Ei. exact HI.
  - unfold sinv. rewrite Jx, Jy, Jb, Z.sub_0_r. exact ED.
  - unfold decodes6, lj_run_all. fold file. rewrite EO. unfold lj92_decode_all, lj92_decode. rewrite Ep. change (7 <? 6) with false. change (6 =? 6) with true. cbn beta iota. rewrite E1. cbv zeta. cbn [la_open la_dec la_x la_y la_bits la_comp la_img la_oob la_hi].
    rewrite Jx, Jy in P. destruct P as ((_ & _ & P1 & _) & P2 & _ & _ & P3 & P4).
    do 2 (split; [reflexivity|]). do 4 (split; [assumption|]). split; [exact P3|]. split; [exact P4|]. split; [exact P2|]. unfold E in P1. lia.
Qed.

(* ------------------------------------------------------------------ C71: several components *)

Lemma wrong_gen d segs p sel tail bits vals bd x y N Q px a wl rows img U k0 :
  wf_header segs sel tail bits vals bd x y N -> Forall (fun v => v <= 15) vals ->
  1 <= N <= 255 -> 1 <= x -> 2 <= y -> 1 <= p <= 7 -> p <> 6 -> Forall is_byte Q -> 0 <= da_skip a -> da_lin a = None ->
  file_in d (pn_file segs p sel tail (stuff Q)) ->
  read_n (book_of bits vals) p N bd (N * x) (Z.to_nat (N * x * y)) [] (stream 8 Q) = Some px ->
  0 <= k0 < N * x ->
  let at_ k := nth (Z.to_nat k) px 0 in let W := N * x in
  (forall col c, 0 <= col < x -> 0 <= c < N -> N * col + c < k0 ->
     (col = 0 -> c < x) /\ (1 <= col -> (p = 1 \/ p = 3 \/ N * col + c < x) /\ (p = 1 \/ p = 2 \/ p = 7 \/ N * col + c - N < x) /\ (p <= 3 \/ N = 1))) ->
  (forall col c (last : Z -> Z) left this Q dv, 0 <= col < x -> 0 <= c < N -> N * col + c = k0 ->
     (forall j, 0 <= j < x -> j < W -> last j = at_ j) -> (forall j, 0 <= j < k0 -> j + x < W -> last (j + x) = at_ (W + j)) -> (1 <= W + k0 -> left = at_ (W + k0 - 1)) ->
     (forall z, 0 <= z < W * y -> 0 <= at_ z < 2 ^ 16) ->
     Q = (if col =? 0 then last c else if p =? 1 then this else if p =? 2 then last k0 else if p =? 3 then last (k0 - N) else if p =? 4 then left + last k0 - last (k0 - N)
          else if p =? 5 then left + (last k0 - last (k0 - N)) / 2 else (left + last k0) / 2) ->
     at_ (W + k0) = ((if k0 <? N then at_ k0 else select p (at_ (W + k0 - N)) (at_ k0) (at_ (k0 - N))) + dv) mod 2 ^ 16 -> (Q + dv) mod 2 ^ 16 <> at_ (W + k0)) ->
  let res := lj_run_all U d (len (pn_file segs p sel tail (stuff Q))) a wl rows img in
  la_open res = NONE /\ la_dec res = NONE /\ la_img res (W + da_skip a + k0) <> at_ (W + k0).
Proof.
  intros Hh Hv HN Hx Hy Hp Hp6 HQ Hskip Hnl [Hd HH] ED Hk0 at_ W HF HB res. assert (Hlin : da_lin a <> None -> Forall (fun q => q <= da_linlen a) px) by congruence.
  destruct (setup_n d segs p sel tail bits vals bd x y N Q Hd Hh ltac:(lia) ltac:(lia) HQ HH) as (d' & h & ix & EO & Hd' & (Jx & Jy & Jb & Jc & _ & Jl) & Hok & Hx2 & Hy2 & _ & _ & EDec & HI).
  set (file := pn_file segs p sel tail (stuff Q)) in *. set (E := len file - 2) in *. assert (HW : 1 <= W) by (unfold W; nia).
  assert (Hpx : len px = N * x * y). { apply read_n_len in ED. destruct ED as [L _]. cbn [length] in L. unfold len. nia. }
  assert (Hu : forall z, 0 <= z < W * y -> 0 <= at_ z < 2 ^ 16).
  { intros z Hz. pose proof (read_n_u16 _ _ _ _ _ _ _ _ _ ED ltac:(constructor)) as HU. rewrite Forall_forall in HU. apply HU. apply nth_In. unfold len in Hpx. unfold W in Hz. lia. }
  assert (E0 : Z.to_nat (N * x * y - 0) = Z.to_nat (N * x * y)) by (f_equal; lia).
  destruct (scan_wrong d' Hd' E U h bits vals Hok Jl p px img a ltac:(rewrite Jc; lia) ltac:(rewrite Jx; lia) ltac:(rewrite Jy; lia) ltac:(lia) Hskip ltac:(rewrite Jc, Jx, Jy; exact Hpx) bd Jb Hv
    (scan_start (len vals) ix x rows img) (stream 8 Q) k0 Hnl ltac:(rewrite Jy; lia) ltac:(rewrite Jc, Jx; lia)) as (s' & E1 & I1).
  - unfold ptrs_n, scan_start. cbn [s_out s_this s_last]. change (Z.even 0) with true. rewrite Jx. auto.
  - unfold inv_n. cbn [scan_start s_nd s_img s_left s_rows s_this s_last n_oob]. rewrite Z.mul_0_l. split; [exact HI|]. split; [reflexivity|]. split; [intros; lia|]. split; [reflexivity|]. split; [intros; lia|]. split; intros; lia.
  - unfold ref_n. rewrite Jc, Jx, Jy. change (firstn (Z.to_nat 0) px) with (@nil Z). rewrite E0. exact ED.
  - intros col c Hcol Hc Hk _. rewrite Jc, Jx in *. unfold safe. rewrite Jx. change (Z.even 1) with false. cbn beta iota. specialize (HF col c Hcol Hc Hk). destruct HF as [F1 F2]. split; [lia|]. intros Hc1. specialize (F2 Hc1). lia.
  - intros col c R1 s1 dv Q1 ok Hcol Hc Hk HP (_ & _ & _ & _ & I5 & I6 & I7) EP Ev. rewrite Jc, Jx in *. fold W in I5, I6, I7, Ev |- *. rewrite Z.mul_1_l in I5, I6. destruct HP as (_ & Ht & Hl). change (Z.even 1) with false in Ht, Hl. cbn beta iota in Ht, Hl. rewrite Jx in Ht.
    unfold safe in I7. rewrite Jx in I7. change (Z.even 1) with false in I7. cbn beta iota in I7. change (1 - 1) with 0 in I7. rewrite Z.mul_0_l in I7. 
    apply (HB col c (fun j => s_rows s1 (s_last s1 + j)) (s_left s1) (s_rows s1 (s_this s1 + ((col - 1) * N + c))) Q1 dv Hcol Hc Hk).
    + intros j Hj Hj2. rewrite I7 by lia. reflexivity.
    + intros j Hj Hj2. rewrite Hl, Z.add_0_l, Z.add_comm, <- Ht. apply I6. lia.
    + exact I5.
    + exact Hu.
    + unfold pe in EP. rewrite Jc in EP. cbv zeta in EP. change (1 =? 0) with false in EP. rewrite andb_false_r in EP. cbn beta iota in EP.
      destruct (col =? 0) eqn:E2; [injection EP as <- _; reflexivity|]. replace (p =? 0) with false in EP by lia.
      assert (Epc : (col - 1) * N + c = k0 - N) by lia. assert (Ecc : col * N + c = k0) by lia. rewrite Epc, Ecc in EP. rewrite !Z.shiftr_div_pow2 in EP by lia. change (2 ^ 1) with 2 in EP.
      destruct (p =? 1); [injection EP as <- _; rewrite Epc; reflexivity|]. destruct (p =? 2); [injection EP as <- _; reflexivity|]. destruct (p =? 3); [injection EP as <- _; reflexivity|].
      destruct (p =? 4); [injection EP as <- _; reflexivity|]. destruct (p =? 5); [injection EP as <- _; reflexivity|]. replace (p =? 6) with false in EP by lia. injection EP as <- _. reflexivity.
    + fold (at_ (W + k0)) in Ev. rewrite Ev. f_equal. f_equal. unfold predn.
      assert (Li : len (firstn (Z.to_nat (W + k0)) px) = W + k0) by (unfold len in *; rewrite firstn_length; unfold W in *; nia). rewrite Li. cbv zeta.
      assert (N <= W) by (unfold W; nia). replace (W + k0 <? N) with false by lia. replace (W + k0 <? W) with false by lia.
      assert (Em : (W + k0) mod W = k0) by (replace (W + k0) with (k0 + 1 * W) by lia; rewrite Z.mod_add by lia; apply Z.mod_small; unfold W; lia). rewrite Em.
      destruct (k0 <? N) eqn:E2.
      * rewrite nth_firstn by lia. unfold at_. do 2 f_equal. lia.
      * rewrite !nth_firstn by lia. unfold at_. f_equal; do 2 f_equal; lia.
  - rewrite Jy in E1. rewrite Jc, Jx in I1. fold W in I1. specialize (EDec Hp6 U a rows img). rewrite E1 in EDec. unfold res, lj_run_all, lj92_decode_all. rewrite EO, EDec. cbn [la_open la_dec la_img]. split; [reflexivity|]. split; [reflexivity|exact I1].
Qed.

(* The two row buffers overlap (the second starts at sample x instead of N*x).  With several components and fewer columns than components, or predictor 2, or
   predictor 3: the library reports success, but sample number k0 of the second row is wrong whenever sample x of the first row and sample 0 of
   the second row differ. *)
Theorem C71_overlap : forall d segs p sel tail bits vals bd x y N Q px a wl rows img U k0,
  wf_header segs sel tail bits vals bd x y N -> Forall (fun v => v <= 15) vals ->
  2 <= N <= 255 -> 1 <= x -> 2 <= y -> 1 <= p <= 7 -> p <> 6 -> Forall is_byte Q -> 0 <= da_skip a -> da_lin a = None ->
  file_in d (pn_file segs p sel tail (stuff Q)) ->
  read_n (book_of bits vals) p N bd (N * x) (Z.to_nat (N * x * y)) [] (stream 8 Q) = Some px ->
  (x < N /\ k0 = x) \/ (N <= x /\ p = 2 /\ k0 = x) \/ (N <= x /\ p = 3 /\ k0 = x + N /\ k0 < N * x) ->
  nth (Z.to_nat x) px 0 <> nth (Z.to_nat (N * x)) px 0 ->
  let res := lj_run_all U d (len (pn_file segs p sel tail (stuff Q))) a wl rows img in
  la_open res = NONE /\ la_dec res = NONE /\ la_img res (N * x + da_skip a + k0) <> nth (Z.to_nat (N * x + k0)) px 0.
Proof.
  intros d segs p sel tail bits vals bd x y N Q px a wl rows img U k0 Hh Hv HN Hx Hy Hp Hp6 HQ Hskip Hnl HF ED Hk Hne.
  apply (wrong_gen d segs p sel tail bits vals bd x y N Q px a wl rows img U k0); auto; try lia; [nia| |].
  - intros col c Hcol Hc Hl. destruct Hk as [[K1 ->]|[(K1 & -> & ->)|(K1 & -> & -> & K2)]].
    + split; [lia|]. intros Hc1. exfalso. nia.
    + split; [lia|]. intros Hc1. split; [right; right; lia|]. split; [auto|lia].
    + split; [lia|]. intros Hc1. split; [auto|]. split; [right; right; right; lia|lia].
  - intros col c last left this Q1 dv Hcol Hc Ek HL1 HL2 Hleft Hu EQ Ev. rewrite Ev. set (W := N * x) in *. assert (HxW : x < W) by (unfold W; nia).
    assert (EL : last x = nth (Z.to_nat W) px 0). { replace x with (0 + x) by lia. rewrite HL2 by lia. do 2 f_equal. lia. }
    assert (K : Q1 = nth (Z.to_nat W) px 0 /\ (if k0 <? N then nth (Z.to_nat k0) px 0 else select p (nth (Z.to_nat (W + k0 - N)) px 0) (nth (Z.to_nat k0) px 0) (nth (Z.to_nat (k0 - N)) px 0)) = nth (Z.to_nat x) px 0).
    { destruct Hk as [[K1 K2]|[(K1 & K3 & K2)|(K1 & K3 & K2 & K4)]].
      - assert (col = 0) by nia. subst col. change (0 =? 0) with true in EQ. cbn beta iota in EQ. assert (c = x) by lia. subst c. rewrite EQ. split; [exact EL|]. rewrite K2. replace (x <? N) with true by lia. reflexivity.
      - subst p. unfold select. change (2 =? 1) with false in *. change (2 =? 2) with true in *. cbn beta iota in *. rewrite K2 in *. destruct (col =? 0) eqn:E0; [exfalso; nia|]. rewrite EQ. split; [exact EL|]. replace (x <? N) with false by lia. reflexivity.
      - subst p. unfold select. change (3 =? 1) with false in *. change (3 =? 2) with false in *. change (3 =? 3) with true in *. cbn beta iota in *. rewrite K2 in *. destruct (col =? 0) eqn:E0; [exfalso; nia|]. replace (x + N - N) with x in * by lia. rewrite EQ. split; [exact EL|]. replace (x + N <? N) with false by lia. reflexivity. }
    destruct K as [-> ->]. apply mod_differ; [apply Hu; nia|apply Hu; nia|]. intros K. apply Hne. symmetry. exact K.
Qed.
(* Predictors 4, 5 and 7 take the sample decoded last, which belongs to another component, for the sample to the left: the first sample of the
   second column of the second row is wrong whenever the first and the last component of the first column of that row differ (by at least two
   for predictor 7). *)
Theorem C71_left : forall d segs p sel tail bits vals bd x y N Q px a wl rows img U,
  wf_header segs sel tail bits vals bd x y N -> Forall (fun v => v <= 15) vals ->
  2 <= N <= 255 -> N < x -> 2 <= y -> p = 4 \/ p = 5 \/ p = 7 -> Forall is_byte Q -> 0 <= da_skip a -> da_lin a = None ->
  file_in d (pn_file segs p sel tail (stuff Q)) ->
  read_n (book_of bits vals) p N bd (N * x) (Z.to_nat (N * x * y)) [] (stream 8 Q) = Some px ->
  Z.abs (nth (Z.to_nat (N * x)) px 0 - nth (Z.to_nat (N * x + N - 1)) px 0) >= (if p =? 7 then 2 else 1) ->
  let res := lj_run_all U d (len (pn_file segs p sel tail (stuff Q))) a wl rows img in
  la_open res = NONE /\ la_dec res = NONE /\ la_img res (N * x + da_skip a + N) <> nth (Z.to_nat (N * x + N)) px 0.
Proof.
  intros d segs p sel tail bits vals bd x y N Q px a wl rows img U Hh Hv HN Hx Hy Hp HQ Hskip Hnl HF ED Hne.
  apply (wrong_gen d segs p sel tail bits vals bd x y N Q px a wl rows img U N); auto; try lia; [nia| |].
  - intros col c Hcol Hc Hl. split; [lia|]. intros Hc1. exfalso. nia.
  - intros col c last left this Q1 dv Hcol Hc Ek HL1 HL2 Hleft Hu EQ Ev. rewrite Ev. set (W := N * x) in *. assert (HxW : 2 * x <= W) by (unfold W; nia).
    assert (HWy : 2 * W <= W * y) by nia.
    assert (col = 1) by nia. subst col. change (1 =? 0) with false in EQ. cbn beta iota in EQ. replace (N <? N) with false by lia. rewrite Z.sub_diag in *. rewrite (HL1 N), (HL1 0) in EQ by lia. specialize (Hleft ltac:(lia)).
    replace (W + N - N) with W by lia. pose proof (Hu W ltac:(lia)) as H1. pose proof (Hu (W + N - 1) ltac:(lia)) as H2. pose proof (Hu N ltac:(lia)) as H3. rewrite <- Hleft in H2, Hne. clear Hleft HL1 HL2 Hu Ev HF ED.
    set (A := nth (Z.to_nat W) px 0) in *. set (B := nth (Z.to_nat N) px 0) in *. set (C := nth (Z.to_nat 0) px 0) in *.
    unfold select. destruct Hp as [-> | [-> | ->]]; cbn [Z.eqb Pos.eqb] in EQ, Hne |- *; subst Q1.
    + replace (left + B - C + dv) with (left + (B - C + dv)) by lia. replace (A + B - C + dv) with (A + (B - C + dv)) by lia. apply mod_differ; lia.
    + rewrite <- !Z.add_assoc. apply mod_differ; lia.
    + change (2 ^ 16) with 65536 in *. pose proof (Z.div_mod (left + B) 2 ltac:(lia)). pose proof (Z.mod_pos_bound (left + B) 2 ltac:(lia)). pose proof (Z.div_mod (A + B) 2 ltac:(lia)). pose proof (Z.mod_pos_bound (A + B) 2 ltac:(lia)).
      apply mod_differ; change (2 ^ 16) with 65536; lia.
Qed.
