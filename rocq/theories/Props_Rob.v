(* C72, C73, C74: the shipped decoder on arbitrary bytes *)
From Verif Require Import Bits Spec Spec_Lj92 Spec_P6 Spec_Pn M_Lj92 M_Pred6 P_Lj92 P_Pred6 P_Open P_Rob P_Rob2 P_Rob3 P_Rob4 Props_Lj92 Props_Pred6 Props_ScanN2.
Ltac Zify.zify_post_hook ::= idtac.

(* ------------------------------------------------------------------ C72: lj92_open *)

(* Whatever the dl bytes: success or CORRUPT, sizes in range; the only bytes it changes are third bytes after a pair FF C4, at most one place
   behind the last byte of the file plus one, and they become zero; the scan it finds starts behind a pair FF DA inside the file. *)
Theorem C72_open : forall d dl, byte_mem d -> 0 <= dl ->
  let '(r, d', h) := lj92_open d dl in
  (r = NONE \/ r = CORRUPT) /\ 0 <= j_x h < 65536 /\ 0 <= j_y h < 65536 /\ 0 <= j_bits h < 256 /\ 0 <= j_comp h < 256 /\
  (forall k, d' k <> d k -> d' k = 0 /\ d (k - 4) = 255 /\ d (k - 3) = 0xc4 /\ 4 <= k <= dl + 1) /\
  (j_scan h = 0 \/ 4 <= j_scan h < dl /\ d (j_scan h - 2) = 255 /\ d (j_scan h - 1) = 0xda).
Proof.
  intros d dl Hd Hdl. unfold lj92_open. pose proof (lfind_spec d dl 0 ltac:(lia)) as L. destruct (lfind d dl 0) as [mk ix]. destruct (mk =? 0xd8) eqn:E.
  - destruct L as [[L _]|(L1 & L2 & L3)]; [lia|].
    pose proof (parse_image_inv d dl (Z.to_nat dl) d ix hdr0 ltac:(intros k Hk; congruence) Hd shape0 ltac:(lia) eq_refl) as P. destruct (parse_image _ d dl ix hdr0) as [[r d'] h]. destruct P as (A & B & (C1 & C2 & C3 & C4 & _) & D & F).
    split; [exact D|]. split; [exact C1|]. split; [exact C2|]. split; [exact C3|]. split; [exact C4|]. split; [exact A|]. destruct F as [F|(F1 & F2 & F3)]; [left; exact F|right]. split; [lia|auto].
  - split; [right; reflexivity|]. cbn [hdr0 j_x j_y j_bits j_comp j_scan]. split; [lia|]. split; [lia|]. split; [lia|]. split; [lia|]. split; [congruence|left; reflexivity].
Qed.
Lemma open_shape d dl : byte_mem d -> 0 <= dl -> let '(r, d', h) := lj92_open d dl in shape h /\ byte_mem d' /\ 0 <= j_scan h.
Proof.
  intros Hd Hdl. unfold lj92_open. pose proof (lfind_spec d dl 0 ltac:(lia)) as L. destruct (lfind d dl 0) as [mk ix]. destruct (mk =? 0xd8) eqn:E.
  - destruct L as [[L _]|(L1 & L2 & L3)]; [lia|].
    pose proof (parse_image_inv d dl (Z.to_nat dl) d ix hdr0 ltac:(intros k Hk; congruence) Hd shape0 ltac:(lia) eq_refl) as P. destruct (parse_image _ d dl ix hdr0) as [[r d'] h]. destruct P as (A & B & C & D & F).
    split; [exact C|]. split; [exact B|]. lia.
  - split; [exact shape0|]. split; [exact Hd|]. cbn [hdr0 j_scan]. lia.
Qed.
(* what lj92_open reads lies within 65535 bytes of the end of the file: memories that agree up to there are indistinguishable *)
Theorem C72_reads : forall d d2 dl, byte_mem d -> byte_mem d2 -> 0 <= dl -> (forall k, 0 <= k < dl + 65535 -> d2 k = d k) ->
  let '(r, d', h) := lj92_open d dl in let '(r2, d2', h2) := lj92_open d2 dl in
  r2 = r /\ h2 = h /\ forall k, 0 <= k < dl + 65535 -> d2' k = d' k.
Proof.
  intros d d2 dl Hd Hd2 Hdl HA. unfold lj92_open. rewrite (lfind_agree d d2 dl (dl + 65535) 0 HA ltac:(lia) ltac:(lia)).
  pose proof (lfind_spec d dl 0 ltac:(lia)) as L. destruct (lfind d dl 0) as [mk ix]. destruct (mk =? 0xd8) eqn:E; [|auto].
  destruct L as [[L _]|(L1 & L2 & L3)]; [lia|].
  pose proof (parse_image_agree dl (Z.to_nat dl) d d2 ix hdr0 Hd Hd2 HA ltac:(lia)) as P. destruct (parse_image _ d dl ix hdr0) as [[r d'] h]. destruct P as (e2 & P1 & P2). rewrite P1. auto.
Qed.
(* the loops of lj92_open end by themselves: the number of turns the model allows is never the reason to stop *)
Theorem C72_terminates : forall d dl, byte_mem d -> 0 <= dl ->
  (forall ix f g, 0 <= ix -> dl - ix <= Z.of_nat f -> dl - ix <= Z.of_nat g -> find_ff f d dl ix = find_ff g d dl ix) /\
  (forall ix M f g, max_bits 16 (fun k => d (ix + 2 + k)) = M -> (lut_fuel M <= f)%nat -> (lut_fuel M <= g)%nat ->
     lut_loop f (fun k => d (ix + 2 + k)) (fun k => d (ix + 19 + k)) M [] 0 0 0 0 1 = lut_loop g (fun k => d (ix + 2 + k)) (fun k => d (ix + 19 + k)) M [] 0 0 0 0 1) /\
  (forall ix h f, 2 <= ix < dl -> (Z.to_nat dl <= f)%nat -> parse_image f d dl ix h = parse_image (Z.to_nat dl) d dl ix h).
Proof.
  intros d dl Hd Hdl. split; [intros; apply find_ff_fuel; assumption|]. split.
  - intros ix M f g EM Hf Hg. pose proof (max_bits_range (fun k => d (ix + 2 + k)) 16) as HM. rewrite EM in HM. change (Z.of_nat 16) with 16 in HM.
    assert (HB : forall k, 1 <= k <= 16 -> 0 <= d (ix + 2 + k) < 256) by (intros; apply Hd). pose proof (pow2_pos M ltac:(lia)).
    apply lut_loop_fuel; [exact HM|exact HB|apply (lst0 (fun k => d (ix + 2 + k))); [exact HB|exact HM]| |]; unfold lut_left, lut_fuel in *; lia.
  - intros ix h f Hix Hf. apply parse_image_fuel; try assumption; lia.
Qed.
(* a file that ends in the middle of a table: the byte two behind its last one is overwritten *)
Theorem C72_write_past_end : forall d, byte_mem d -> d 0 = 255 -> d 1 = 0xd8 -> d 2 = 255 -> d 3 = 0xc4 ->
  let '(r, d', h) := lj92_open d 5 in d' 6 = 0.
Proof.
  intros d Hd H0 H1 H2 H3. assert (L1 : lfind d 5 0 = (0xd8, 2)). { unfold lfind. change (Z.to_nat 5) with 5%nat. cbn [find_ff]. rewrite H0. change (255 =? 255) with true. cbn [negb andb]. rewrite <- H1. reflexivity. }
  assert (L2 : lfind d 5 2 = (0xc4, 4)). { unfold lfind. change (Z.to_nat 5) with 5%nat. cbn [find_ff]. rewrite H2. change (255 =? 255) with true. cbn [negb andb]. rewrite <- H3. reflexivity. }
  unfold lj92_open. rewrite L1. change (0xd8 =? 0xd8) with true. cbn beta iota. change (Z.to_nat 5) with (S 4)%nat. generalize 4%nat. intros n. cbn [parse_image]. rewrite L2. change (0xc4 =? 0xc4) with true. cbn beta iota.
  assert (ED : snd (fst (parse_huff d 5 4 hdr0)) = upd d 6 0) by (unfold parse_huff; cbv zeta; destruct (5 <=? _); reflexivity).
  pose proof (parse_huff_shape d 5 4 hdr0 Hd shape0) as PS. destruct (parse_huff d 5 4 hdr0) as [[r d1] h1]. cbn [fst snd] in ED. subst d1. destruct PS as (S1 & S2 & S3).
  assert (Hd' : byte_mem (upd d 6 0)) by (apply upd_byte; [exact Hd|lia]). assert (H6 : upd d 6 0 6 = 0) by reflexivity. set (d1 := upd d 6 0) in *. clearbody d1. destruct (r =? NONE); [|exact H6].
  pose proof (parse_image_inv d1 5 n d1 4 h1 ltac:(intros k Hk; congruence) Hd' S1 ltac:(lia) ltac:(rewrite S3; reflexivity)) as P.
  destruct (parse_image n d1 5 4 h1) as [[r2 d2] h2]. destruct P as (HZ & _). destruct (Z.eq_dec (d2 6) (d1 6)) as [E|E]; [congruence|]. apply HZ in E. tauto.
Qed.
(* start of image, end of image: reported as a success, an image of no size, and no scan is known *)
Theorem C72_eoi : forall d dl, d 0 = 255 -> d 1 = 0xd8 -> d 2 = 255 -> d 3 = 0xd9 -> 5 <= dl ->
  let '(r, d', h) := lj92_open d dl in r = NONE /\ j_x h = 0 /\ j_y h = 0 /\ j_bits h = 0 /\ j_comp h = 0 /\ j_scan h = 0.
Proof.
  intros d dl H0 H1 H2 H3 Hdl. unfold lj92_open, lfind. destruct (Z.to_nat dl) as [|n] eqn:En; [lia|]. cbn [find_ff]. rewrite H0. change (255 =? 255) with true. cbn [negb andb]. replace (dl <=? 0 + 2) with false by lia. change (0 + 2 - 1) with 1. cbn beta iota zeta.
  rewrite H1. change (0xd8 =? 0xd8) with true. cbn beta iota. change (0 + 2) with 2. cbn [parse_image]. unfold lfind. rewrite En. cbn [find_ff]. rewrite H2. change (255 =? 255) with true. cbn [negb andb].
  replace (dl <=? 2 + 2) with false by lia. change (2 + 2 - 1) with 3. cbn beta iota zeta. rewrite H3. change (0xd9 =? 0xc4) with false. change (0xd9 =? 0xc3) with false. change (0xd9 =? 0xd9) with true. cbn beta iota. repeat split.
Qed.

(* ------------------------------------------------------------------ C73: lj92_decode *)

(* the predictor and the index of the first byte of scan data, as lj92_decode takes them from what lj92_open found *)
Definition predictor_of (d : lmem) (dl : Z) : Z := let '(_, d', h) := lj92_open d dl in d' (j_scan h + 3 + 2 * d' (j_scan h + 2)).
Definition data_at (d : lmem) (dl : Z) : Z := let '(_, d', h) := lj92_open d dl in j_scan h + beh d' (j_scan h).

Lemma scan_any (RR : Z -> nd_st -> Prop) U d h a rows img : shape h -> byte_mem d -> 0 <= j_scan h ->
  (forall K s, 0 <= K -> RR K s -> RR (K + 1) (snd (nextdiff U d (j_huffbits h) (j_lut h) s))) ->
  RR 0 {| n_b := 0; n_cnt := 0; n_ix := j_scan h + beh d (j_scan h); n_hi := 0; n_oob := false |} ->
  d (j_scan h + 3 + 2 * d (j_scan h + 2)) <> 6 ->
  exists r s, lj92_decode U d h a rows img = Some (r, s) /\ (r = NONE \/ r = CORRUPT) /\
  (forall p, s_img s p <> img p -> exists i j, 0 <= i < j_y h /\ 0 <= j < j_comp h * j_x h /\ p = i * (j_comp h * j_x h + da_skip a) + j) /\
  (exists K, 0 <= K <= j_comp h * j_x h * j_y h /\ RR K (s_nd s)) /\
  (d (j_scan h + 3 + 2 * d (j_scan h + 2)) <= 7 -> (da_lin a = None -> r = NONE) /\ (r = NONE -> RR (j_comp h * j_x h * j_y h) (s_nd s)) /\ (r = CORRUPT -> exists K, 1 <= K /\ RR K (s_nd s))).
Proof.
  intros Hh Hd Hs RRn RR0 Hp. unfold lj92_decode. cbv zeta. set (pred := d (j_scan h + 3 + 2 * d (j_scan h + 2))) in *. clearbody pred. set (s0 := {| s_nd := _ |}).
  pose proof Hh as (S1 & S2 & _ & S4 & _). assert (0 <= j_comp h * j_x h) by nia. assert (0 <= j_comp h * j_x h * j_y h) by nia.
  assert (I0 : inv h a img RR 0 0 s0). { unfold inv, s0. cbn [s_out s_this s_last s_img s_nd]. split; [lia|]. split; [left; reflexivity|]. split; [right; reflexivity|]. split; [congruence|]. exact RR0. }
  destruct (7 <? pred) eqn:E7.
  { exists CORRUPT, s0. split; [reflexivity|]. split; [right; reflexivity|]. split; [unfold s0; cbn [s_img]; congruence|]. split; [exists 0; split; [lia|exact RR0]|]. intros; lia. }
  replace (pred =? 6) with false by lia. pose proof (scan_inv d U h pred a img Hh RR RRn s0 I0) as P. pose proof (scan_some d U h pred a s0 (Z.to_nat (j_y h)) 0) as PS. destruct (for_loop _ 0 _ s0) as [s'|].
  - exists NONE, s'. destruct P as (_ & _ & _ & P4 & P5). split; [reflexivity|]. split; [left; reflexivity|]. split; [exact P4|].
    replace (j_y h * (j_comp h * j_x h) + 0) with (j_comp h * j_x h * j_y h) in P5 by lia. split; [eexists; split; [|exact P5]; lia|]. intros _. split; [reflexivity|]. split; [intros _; exact P5|discriminate].
  - eexists CORRUPT, _. split; [reflexivity|]. destruct P as (P1 & P2). split; [right; reflexivity|]. split; [exact P1|]. destruct P2 as (K & HK & RK). split; [exists K; split; [lia|exact RK]|]. intros _. split; [intros HL; exfalso; apply PS; auto|]. split; [discriminate|]. intros _. exists K. split; [lia|exact RK].
Qed.
(* Files of any content, predictor other than 6: lj92_decode only changes the places of the target that belong to the image announced by
   lj92_open (row i starts at i*(components*width+skip)). *)
Theorem C73_writes : forall U d dl a wl rows img, byte_mem d -> 0 <= dl -> predictor_of d dl <> 6 ->
  let res := lj_run_all U d dl a wl rows img in
  forall p, la_img res p <> img p -> exists i j, 0 <= i < la_y res /\ 0 <= j < la_comp res * la_x res /\ p = i * (la_comp res * la_x res + da_skip a) + j.
Proof.
  intros U d dl a wl rows img Hd Hdl Hp. cbv zeta. unfold predictor_of in Hp. unfold lj_run_all. pose proof (open_shape d dl Hd Hdl) as S. destruct (lj92_open d dl) as [[r d'] h]. destruct S as (S1 & S2 & S3).
  destruct (scan_any (fun _ _ => True) U d' h a rows img S1 S2 S3 ltac:(auto) Logic.I Hp) as (r2 & s & E & _ & W & _). unfold lj92_decode_all. rewrite E. cbn [la_img la_y la_x la_comp]. exact W.
Qed.
(* Predictor 6 does not look at the number of components; it writes x*y samples in runs of writeLength, and at least one row even for an image of no rows *)
Theorem C73_writes6 : forall U d dl a wl rows img, byte_mem d -> 0 <= dl -> predictor_of d dl = 6 ->
  let res := lj_run_all U d dl a wl rows img in 1 <= la_x res -> 1 <= la_comp res ->
  forall p, la_img res p <> img p -> exists k, 0 <= k < la_x res * Z.max (la_y res) 1 /\ p = (if 2 <=? wl then tile_pos wl (da_skip a) k else k).
Proof.
  intros U d dl a wl rows img Hd Hdl Hp. cbv zeta. unfold predictor_of in Hp. unfold lj_run_all. pose proof (open_shape d dl Hd Hdl) as S. destruct (lj92_open d dl) as [[r d'] h]. destruct S as (S1 & S2 & S3).
  unfold lj92_decode_all, lj92_decode. cbv zeta. rewrite Hp. change (7 <? 6) with false. change (6 =? 6) with true. cbn beta iota.
  destruct (parse_pred6 U d' dl h a wl rows img) as [r2 s] eqn:E. cbn [la_img la_y la_x la_comp]. intros Hx HN.
  pose proof (pred6_any d' U dl h a wl img (j_scan h + beh d' (j_scan h)) S2 S1 ltac:(pose proof (beh_range d' (j_scan h) S2); lia) Hx HN rows eq_refl) as P. rewrite E in P.
  destruct P as ((P1 & _) & _). exact P1.
Qed.
Theorem C73_pred6_empty : forall U d dl a wl rows, byte_mem d -> 0 <= dl -> predictor_of d dl = 6 -> 0 <= da_skip a ->
  exists v, forall img, la_img (lj_run_all U d dl a wl rows img) 0 = v.
Proof.
  intros U d dl a wl rows Hd Hdl Hp Hsk. unfold predictor_of in Hp. unfold lj_run_all. pose proof (open_shape d dl Hd Hdl) as S. destruct (lj92_open d dl) as [[r d'] h]. destruct S as (S1 & S2 & S3).
  set (s0 := fun img => {| q_nd := {| n_b := 0; n_cnt := 0; n_ix := j_scan h + beh d' (j_scan h); n_hi := 0; n_oob := false |}; q_rows := rows; q_img := img; q_left := 0;
               q_this := 0; q_last := j_x h; q_col := 0; q_c := 0; q_out := 0; q_write := wl |}).
  set (left := trunc 16 (Z.rem (Z.shiftl 1 (j_bits h - 1) + fst (nextdiff U d' (j_huffbits h) (j_lut h) {| n_b := 0; n_cnt := 0; n_ix := j_scan h + beh d' (j_scan h); n_hi := 0; n_oob := false |})) 65536)).
  set (v := match da_lin a with None => left | Some f => f left end). exists v. intros img. unfold lj92_decode_all, lj92_decode. cbv zeta. rewrite Hp. change (7 <? 6) with false. change (6 =? 6) with true. cbn beta iota.
  set (J := fun s : p6_st => q_img s 0 = v /\ 1 <= q_c s /\ 0 <= q_out s).
  assert (K : J (snd (parse_pred6 U d' dl h a wl rows img))).
  { apply pred6_keep.
    - intros chk px ok s (A & B & C). unfold p6_put. destruct (nextdiff U d' (j_huffbits h) (j_lut h) (q_nd s)) as [diff nd]. 
      assert (UU : forall w, upd (q_img s) (q_out s + q_c s) w 0 = v) by (intros w; unfold upd; replace (0 =? q_out s + q_c s) with false by lia; exact A).
      destruct (da_lin a) as [f|]; [destruct (chk && _)|]; unfold J; cbn [q_img q_c q_out]; (split; [try exact A; apply UU|]); lia.
    - intros s H. exact H.
    - intros s (A & B & C). unfold J, p6_skip. cbn [q_img q_c q_out]. split; [exact A|]. split; [exact B|]. destruct (_ =? 0); lia.
    - intros s H. exact H.
    - intros s H. exact H.
    - unfold p6_put. cbn [q_nd q_this q_col q_rows q_img q_out q_c]. unfold v, left. destruct (nextdiff U d' (j_huffbits h) (j_lut h) _) as [diff nd]. cbn [fst]. cbn [andb]. destruct (da_lin a); unfold J; cbn [q_img q_c q_out]; (split; [reflexivity|]); lia. }
  destruct (parse_pred6 U d' dl h a wl rows img) as [r2 s]. cbn [snd la_img] in *. destruct K as (K & _). exact K.
Qed.

(* A well-formed header whose code uses every bit string (the code lengths add up to one) and only categories up to 15: no array of the library is
   left whatever the scan data are, and at most ten bytes are read per sample. *)
Lemma lut_full M lut bits vals : lut_ok M lut bits vals -> dht_ok bits vals -> fold_left (fun a n => 2 * a + Z.of_nat n) bits 0 = 2 ^ 16 -> Forall (fun v => v <= 15) vals -> full M lut.
Proof.
  intros (HM & (HL & HF) & _) (_ & _ & _ & HV & _) EK H15. split.
  - rewrite EK in HL. replace (2 ^ 16) with (2 ^ M * 2 ^ (16 - M)) in HL by (rewrite <- Z.pow_add_r by lia; f_equal; lia). pose proof (pow2_pos (16 - M) ltac:(lia)). unfold len in HL. nia.
  - apply Forall_forall. intros e He. rewrite Forall_forall in HF. destruct (HF e He) as (v & l & Hv & Hl & ->). rewrite Forall_forall in H15. apply H15 in Hv. lia.
Qed.
Lemma open_file d segs p sel tail scan bits vals bd x y N : wf_header segs sel tail bits vals bd x y N -> 0 <= N <= 255 -> file_in d (pn_file segs p sel tail scan) ->
  let file := pn_file segs p sel tail scan in
  exists d' h st, lj92_open d (len file) = (NONE, d', h) /\ byte_mem d' /\ shape h /\ opened_n bits vals bd x y N st h /\ 0 <= st /\
  beh d' st = 6 + 2 * N /\ d' (st + 2) = N /\ d' (st + 3 + 2 * N) = p /\ st + (6 + 2 * N) + len scan + 2 = len file /\ holds d' (st + (6 + 2 * N)) (scan ++ [255; 0xd9]).
Proof.
  intros Hh HN [Hd HH] file. destruct (open_n d segs p sel tail scan bits vals bd x y N Hd Hh HN HH) as (d' & h & E1 & E2 & E3 & E4 & E5 & E6 & E7 & E8). fold file in E1, E7.
  pose proof (open_shape d (len file) Hd ltac:(unfold len; lia)) as S. rewrite E1 in S. destruct S as (S1 & S2 & S3).
  exists d', h, (4 + len (flat_map seg_bytes segs)). split; [exact E1|]. split; [exact S2|]. split; [exact S1|]. split; [exact E3|]. split; [unfold len; lia|]. split; [exact E4|]. split; [exact E5|]. split; [exact E6|]. split; [lia|exact E8].
Qed.
Lemma in_force_dht : forall segs t f bits vals fr, Forall seg_ok segs -> (forall b v, t = Some (b, v) -> dht_ok b v) -> in_force segs t f = (Some (bits, vals), fr) -> dht_ok bits vals.
Proof.
  induction segs as [|s segs IH]; intros t f bits vals fr HF Ht EI; [cbn [in_force] in EI; injection EI as -> _; apply Ht; reflexivity|].
  apply Forall_cons_iff in HF. destruct HF as [Hs HF]. destruct s as [b v|b x' y' cs|mk body]; cbn [in_force] in EI; (eapply IH; [exact HF| |exact EI]); try assumption.
  intros b' v' EE. injection EE as <- <-. apply Hs.
Qed.
Theorem C73_safe : forall U d segs p sel tail scan bits vals bd x y N a wl rows img,
  wf_header segs sel tail bits vals bd x y N -> 1 <= N <= 255 -> 1 <= x ->
  fold_left (fun a n => 2 * a + Z.of_nat n) bits 0 = 2 ^ 16 -> Forall (fun v => v <= 15) vals ->
  file_in d (pn_file segs p sel tail scan) ->
  let file := pn_file segs p sel tail scan in
  let res := lj_run_all U d (len file) a wl rows img in
  la_oob res = false /\ la_hi res <= len file - 2 - len scan + 10 * (N * x * Z.max y 1).
Proof.
  intros U d segs p sel tail scan bits vals bd x y N a wl rows img Hh HN Hx EK H15 HF file. cbv zeta. unfold lj_run_all.
  destruct (open_file d segs p sel tail scan bits vals bd x y N Hh ltac:(lia) HF) as (d' & h & st & E1 & Hd' & Hs & (Jx & Jy & Jb & Jc & Js & Jl) & Hst & E4 & E5 & E6 & E7 & E8). fold file in E1, E7. rewrite E1.
  pose proof Hh as (W1 & W2 & _). pose proof (in_force_dht segs None None bits vals _ W1 ltac:(discriminate) W2) as Hok.
  pose proof (lut_full _ _ _ _ Jl Hok EK H15) as FU. pose proof Hs as (S1 & S2 & _ & _ & S5 & _ & S7). rewrite Jx in S1. rewrite Jy in S2.
  assert (Done : forall K nd, 0 <= K <= N * x * Z.max y 1 -> rd (j_huffbits h) (j_lut h) (st + (6 + 2 * N)) K nd -> n_oob nd = false /\ n_hi nd <= len file - 2 - len scan + 10 * (N * x * Z.max y 1)).
  { intros K nd HK [[A B]|(A & B & C & D & E & F)]; [contradiction|]. split; [exact B|]. lia. }
  destruct (Z.eq_dec p 6) as [E|E].
  - unfold lj92_decode_all, lj92_decode. cbv zeta. rewrite Js, E5, E6, E. change (7 <? 6) with false. change (6 =? 6) with true. cbn beta iota.
    pose proof (pred6_any d' U (len file) h a wl img (j_scan h + beh d' (j_scan h)) Hd' Hs ltac:(rewrite Js, E4; lia) ltac:(lia) ltac:(lia) rows eq_refl) as P. destruct (parse_pred6 U d' (len file) h a wl rows img) as [r2 s]. cbn [la_oob la_hi].
    destruct P as ((_ & (K & HK & RK) & _) & _). rewrite Jx, Jy in HK. unfold rdh6 in RK. rewrite Js, E4 in RK. apply (Done K); [nia|exact RK].
  - destruct (scan_any (rd (j_huffbits h) (j_lut h) (st + (6 + 2 * N))) U d' h a rows img Hs Hd' ltac:(lia)) as (r2 & s & EQ & _ & _ & (K & HK & RK) & _).
    + intros K s _. apply rd_next; assumption.
    + rewrite Js, E4. apply rd0. lia.
    + rewrite Js, E5, E6. exact E.
    + unfold lj92_decode_all. rewrite EQ. cbn [la_oob la_hi]. rewrite Jx, Jy, Jc in HK. apply (Done K); [nia|exact RK].
Qed.

(* An incomplete code, as T.81 requires, and scan data that start with ones: a place of the lookup table that was never written is used. *)
Lemma refill_ones d ix M s : d ix = 255 -> d (ix + 1) = 0 -> d (ix + 2) = 255 -> d (ix + 3) = 0 -> 1 <= M <= 16 ->
  refill 4 d M {| n_b := 0; n_cnt := 0; n_ix := ix; n_hi := 0; n_oob := false |} = s -> n_cnt s = (if M <=? 8 then 8 else 16) /\ n_b s = 2 ^ n_cnt s - 1.
Proof.
  intros H0 H1 H2 H3 HM <-.
  assert (S1 : forall f n b ix hi o, 0 <= n < M -> n < 16 -> d ix = 255 -> d (ix + 1) = 0 -> b = 2 ^ n - 1 ->
     refill (S f) d M {| n_b := b; n_cnt := n; n_ix := ix; n_hi := hi; n_oob := o |} = refill f d M {| n_b := 2 ^ (n + 8) - 1; n_cnt := n + 8; n_ix := ix + 2; n_hi := Z.max hi (ix + 1); n_oob := o |}).
  { intros f n b k hi o Hn Hn16 G0 G1 Eb. cbn [refill]. cbn [n_cnt n_ix n_b n_hi n_oob]. replace (n <? M) with true by lia. cbv zeta. rewrite G0, G1. change (255 =? 255) with true. cbn beta iota. f_equal. f_equal; [|lia].
    assert (T1 : 1 <= 2 ^ n <= 2 ^ 16) by (split; [pose proof (pow2_pos n); lia|apply Z.pow_le_mono_r; lia]). change (2 ^ 16) with 65536 in T1. rewrite Z.lor_0_r. rewrite (Z.shiftl_mul_pow2 255) by lia. rewrite (Z.shiftl_mul_pow2 b) by lia. rewrite (lor_add b 16) by (change (2 ^ 16) with 65536; change (2 ^ 8) with 256; lia).
    change (2 ^ 16) with 65536. change (255 * 2 ^ 8) with (255 * 256). unfold trunc. rewrite Z.mod_small by (change (2 ^ 32) with (65536 * 65536); lia). rewrite Z.shiftr_div_pow2 by lia. change (2 ^ 8) with 256.
    replace (b * 65536 + 255 * 256) with ((b * 256 + 255) * 256) by lia. rewrite Z.div_mul by lia. rewrite Z.pow_add_r by lia. change (2 ^ 8) with 256. lia. }
  assert (S0 : forall f z, M <= n_cnt z -> refill f d M z = z) by (intros f z Hz; destruct f; cbn [refill]; [reflexivity|]; replace (n_cnt z <? M) with false by lia; reflexivity).
  rewrite S1 by (try assumption; try reflexivity; lia). change (0 + 8) with 8. destruct (M <=? 8) eqn:E.
  - rewrite S0 by (cbn [n_cnt]; lia). split; reflexivity.
  - rewrite S1 by (try reflexivity; try (replace (ix + 2 + 1) with (ix + 3) by lia); try assumption; lia). change (8 + 8) with 16. rewrite S0 by (cbn [n_cnt]; lia). split; reflexivity.
Qed.
Lemma first_ones U d ix M lut : d ix = 255 -> d (ix + 1) = 0 -> d (ix + 2) = 255 -> d (ix + 3) = 0 -> 1 <= M <= 16 -> Z.of_nat (length lut) < 2 ^ M ->
  n_oob (snd (nextdiff U d M lut {| n_b := 0; n_cnt := 0; n_ix := ix; n_hi := 0; n_oob := false |})) = true.
Proof.
  intros H0 H1 H2 H3 HM HL. set (s := {| n_b := 0; n_cnt := 0; n_ix := ix; n_hi := 0; n_oob := false |}).
  remember (refill 4 d M s) as s1 eqn:E1. remember (Z.shiftr (n_b s1) (n_cnt s1 - M)) as index eqn:E2. remember (nth (Z.to_nat index) lut 0) as e eqn:E3.
  remember (refill 4 d (Z.shiftr e 8) (nd_mid lut s1 index e)) as s2 eqn:E4. rewrite (nextdiff_snd d U M lut s s1 index e s2 E1 E2 E3 E4). unfold nd_fin. cbn [n_oob].
  rewrite E4, refill_oob. unfold nd_mid. cbn [n_oob]. destruct (refill_ones d ix M s1 H0 H1 H2 H3 HM (eq_sym E1)) as [C B].
  assert (EI : index = 2 ^ M - 1).
  { rewrite E2, B. assert (HC : M <= n_cnt s1) by (rewrite C; destruct (M <=? 8) eqn:E; lia). set (c := n_cnt s1) in *. clearbody c. rewrite Z.shiftr_div_pow2 by lia.
    replace (2 ^ c - 1) with ((2 ^ M - 1) * 2 ^ (c - M) + (2 ^ (c - M) - 1)). 2:{ replace (2 ^ c) with (2 ^ M * 2 ^ (c - M)) by (rewrite <- Z.pow_add_r by lia; f_equal; lia). lia. }
    pose proof (pow2_pos (c - M) ltac:(lia)). rewrite Z.div_add_l by lia. rewrite Z.div_small by lia. lia. }
  replace (Z.of_nat (length lut) <=? index) with true by lia. rewrite orb_true_r. reflexivity.
Qed.
Theorem C73_uninit : forall U d segs p sel tail scan bits vals bd x y N a wl rows img,
  wf_header segs sel tail bits vals bd x y N -> 1 <= N <= 255 -> 1 <= x -> 1 <= y -> p <= 7 ->
  fold_left (fun a n => 2 * a + Z.of_nat n) bits 0 < 2 ^ 16 ->
  file_in d (pn_file segs p sel tail ([255; 0; 255; 0] ++ scan)) ->
  la_oob (lj_run_all U d (len (pn_file segs p sel tail ([255; 0; 255; 0] ++ scan))) a wl rows img) = true.
Proof.
  intros U d segs p sel tail scan bits vals bd x y N a wl rows img Hh HN Hx Hy Hp EK HF. set (file := pn_file segs p sel tail _) in *. unfold lj_run_all.
  destruct (open_file d segs p sel tail _ bits vals bd x y N Hh ltac:(lia) HF) as (d' & h & st & E1 & Hd' & Hs & (Jx & Jy & Jb & Jc & Js & Jl) & Hst & E4 & E5 & E6 & E7 & E8). fold file in E1, E7. rewrite E1.
  set (ix := st + (6 + 2 * N)) in *.
  assert (B0 : d' ix = 255) by (specialize (E8 0%nat ltac:(cbn; lia)); rewrite Z.add_0_r in E8; exact E8). assert (B1 : d' (ix + 1) = 0) by (exact (E8 1%nat ltac:(cbn; lia))).
  assert (B2 : d' (ix + 2) = 255) by (exact (E8 2%nat ltac:(cbn; lia))). assert (B3 : d' (ix + 3) = 0) by (exact (E8 3%nat ltac:(cbn; lia))).
  destruct Jl as (HM & (HL & _) & _).
  assert (HLL : Z.of_nat (length (j_lut h)) < 2 ^ j_huffbits h). { replace (2 ^ 16) with (2 ^ j_huffbits h * 2 ^ (16 - j_huffbits h)) in EK by (rewrite <- Z.pow_add_r by lia; f_equal; lia). pose proof (pow2_pos (16 - j_huffbits h) ltac:(lia)). unfold len in HL. nia. }
  pose proof (first_ones U d' ix (j_huffbits h) (j_lut h) B0 B1 B2 B3 HM HLL) as F1.
  destruct (Z.eq_dec p 6) as [E|E].
  - unfold lj92_decode_all, lj92_decode. cbv zeta. rewrite Js, E5, E6, E. change (7 <? 6) with false. change (6 =? 6) with true. cbn beta iota.
    assert (K : n_oob (q_nd (snd (parse_pred6 U d' (len file) h a wl rows img))) = true).
    { apply (pred6_keep d' U (len file) h a wl (fun s => n_oob (q_nd s) = true)); try (intros s H; exact H).
      - intros chk px ok s H. unfold p6_put. pose proof (nextdiff_oob d' U (j_huffbits h) (j_lut h) (q_nd s) H) as MO. destruct (nextdiff U d' (j_huffbits h) (j_lut h) (q_nd s)) as [diff nd]. cbn [snd] in MO. 
        destruct (da_lin a) as [f|]; [destruct (chk && _)|]; cbn [q_nd n_oob]; rewrite MO; reflexivity.
      - rewrite Js, E4. fold ix. unfold p6_put. cbn [q_nd]. destruct (nextdiff U d' (j_huffbits h) (j_lut h) _) as [diff nd]. cbn [snd] in F1. cbn [andb]. destruct (da_lin a); cbn [q_nd n_oob]; rewrite F1; reflexivity. }
    destruct (parse_pred6 U d' (len file) h a wl rows img) as [r2 s]. exact K.
  - destruct (scan_any (fun K s => K = 0 /\ s = {| n_b := 0; n_cnt := 0; n_ix := ix; n_hi := 0; n_oob := false |} \/ n_oob s = true) U d' h a rows img Hs Hd' ltac:(lia)) as (r2 & s & EQ & ER & _ & _ & HR).
    + intros K s _ [[_ ->]|H]; right; [exact F1|apply nextdiff_oob; exact H].
    + left. split; [reflexivity|]. rewrite Js, E4. reflexivity.
    + rewrite Js, E5, E6. exact E.
    + unfold lj92_decode_all. rewrite EQ. cbn [la_oob]. rewrite Js, E5, E6 in HR. specialize (HR Hp). rewrite Jx, Jy, Jc in *.
      assert (0 < N * x * y) by nia. destruct HR as (_ & R1 & R2). destruct ER as [ER|ER]; [destruct (R1 ER) as [[R _]|R]; [lia|exact R]|destruct (R2 ER) as (K & HK & [[R _]|R]); [lia|exact R]].
Qed.

(* Predictor 6 and no components: the row memory has no elements and is written *)
Theorem C73_no_components : forall U d dl a wl rows img, byte_mem d -> 0 <= dl -> predictor_of d dl = 6 ->
  let res := lj_run_all U d dl a wl rows img in la_comp res = 0 -> la_oob res = true.
Proof.
  intros U d dl a wl rows img Hd Hdl Hp. cbv zeta. unfold predictor_of in Hp. unfold lj_run_all. destruct (lj92_open d dl) as [[r d'] h].
  unfold lj92_decode_all, lj92_decode. cbv zeta. rewrite Hp. change (7 <? 6) with false. change (6 =? 6) with true. cbn beta iota. intros HN.
  assert (K : n_oob (q_nd (snd (parse_pred6 U d' dl h a wl rows img))) = true).
  { destruct (parse_pred6 U d' dl h a wl rows img) as [r2 s] eqn:E. cbn [la_comp] in HN. rewrite <- E. clear E.
    apply (pred6_keep d' U dl h a wl (fun s => n_oob (q_nd s) = true)); try (intros z H; exact H).
    - intros chk px ok z H. unfold p6_put. pose proof (nextdiff_oob d' U (j_huffbits h) (j_lut h) (q_nd z) H) as MO. destruct (nextdiff U d' (j_huffbits h) (j_lut h) (q_nd z)) as [diff nd]. cbn [snd] in MO. 
      destruct (da_lin a) as [f|]; [destruct (chk && _)|]; cbn [q_nd n_oob]; rewrite MO; reflexivity.
    - unfold p6_put. cbn [q_nd q_this q_col q_out q_c q_rows q_img]. destruct (nextdiff U d' (j_huffbits h) (j_lut h) _) as [diff nd]. cbn [andb]. unfold row_ok. rewrite HN, Z.mul_0_r. change ((0 <=? 0 + 0) && (0 + 0 <? 0)) with false. cbn [negb].
      destruct (da_lin a); cbn [q_nd n_oob]; rewrite orb_true_r; reflexivity. }
  destruct (parse_pred6 U d' dl h a wl rows img) as [r2 s]. exact K.
Qed.

(* ------------------------------------------------------------------ C74: too little scan data *)

(* Predictor other than 6, no conversion table: lj92_decode reports success whatever the bytes are; if the image needs more samples than there
   are bits of scan data (two bytes to spare), an array has been left or bytes behind the end of the file have been read. *)
Theorem C74_unchecked : forall U d dl a wl rows img, byte_mem d -> 0 <= dl -> predictor_of d dl <= 7 -> predictor_of d dl <> 6 -> da_lin a = None ->
  let res := lj_run_all U d dl a wl rows img in
  la_dec res = NONE /\
  (1 <= la_comp res * la_x res * la_y res -> 8 * (dl - data_at d dl + 2) <= la_comp res * la_x res * la_y res -> la_oob res = true \/ dl <= la_hi res).
Proof.
  intros U d dl a wl rows img Hd Hdl Hp7 Hp Hlin. cbv zeta. unfold predictor_of in Hp7, Hp. unfold data_at. unfold lj_run_all. pose proof (open_shape d dl Hd Hdl) as S. destruct (lj92_open d dl) as [[r d'] h]. destruct S as (S1 & S2 & S3).
  pose proof S1 as (_ & _ & _ & _ & Q5 & _ & Q7). pose proof (beh_range d' (j_scan h) S2) as HB.
  destruct (scan_any (rd (j_huffbits h) (j_lut h) (j_scan h + beh d' (j_scan h))) U d' h a rows img S1 S2 S3) as (r2 & s & E & _ & _ & _ & W).
  - intros K s _. apply rd_next; assumption.
  - apply rd0. lia.
  - exact Hp.
  - unfold lj92_decode_all. rewrite E. cbn [la_dec la_oob la_hi la_comp la_x la_y]. destruct (W Hp7) as (W1 & W2 & _). specialize (W1 Hlin). split; [exact W1|]. intros H1 H2. specialize (W2 W1).
    destruct W2 as [[A _]|((A & _) & _ & B & C & D & F)]; [left; exact A|right]. lia.
Qed.
(* Predictor 6: the end of the file is looked at once per row; at most ten bytes per column are read behind it, and success is
   only reported if all rows but the last started inside the file (x * y < 2^31: beyond that see C87) *)
Theorem C74_pred6 : forall U d dl a wl rows img, byte_mem d -> 0 <= dl -> predictor_of d dl = 6 ->
  let res := lj_run_all U d dl a wl rows img in 1 <= la_x res -> 1 <= la_comp res ->
  la_oob res = true \/
  (la_hi res <= Z.max (data_at d dl) dl + 10 * la_x res /\ (la_dec res = NONE -> la_x res * la_y res < 2 ^ 31 -> la_x res * (la_y res - 1) <= 8 * (dl - data_at d dl))).
Proof.
  intros U d dl a wl rows img Hd Hdl Hp. cbv zeta. unfold predictor_of in Hp. unfold data_at. unfold lj_run_all. pose proof (open_shape d dl Hd Hdl) as S. destruct (lj92_open d dl) as [[r d'] h]. destruct S as (S1 & S2 & S3).
  unfold lj92_decode_all, lj92_decode. cbv zeta. rewrite Hp. change (7 <? 6) with false. change (6 =? 6) with true. cbn beta iota. pose proof (beh_range d' (j_scan h) S2) as HB.
  destruct (parse_pred6 U d' dl h a wl rows img) as [r2 s] eqn:E. cbn [la_oob la_dec la_hi la_y la_x la_comp]. intros Hx HN.
  pose proof (pred6_any d' U dl h a wl img (j_scan h + beh d' (j_scan h)) S2 S1 ltac:(lia) Hx HN rows eq_refl) as P. rewrite E in P.
  destruct P as ((_ & (K & HK & RK) & L) & _ & Q). destruct RK as [[A _]|(_ & A & _ & _ & _ & F)]; [left; exact A|right]. unfold lim, orO in *. rewrite A in *.
  split; [destruct L as [L|L]; [discriminate|lia]|]. intros HR HP. destruct S1 as (Sx & Sy & _). destruct (Q HR) as [Q1|Q1]; [rewrite pixels_small by nia; reflexivity|discriminate|exact Q1].
Qed.

(* ------------------------------------------------------------------ concrete cases *)
Definition C73_bits : list nat := [2; 0; 0; 0; 0; 0; 0; 0; 0; 0; 0; 0; 0; 0; 0; 0]%nat.
Definition C73_segs (x y : Z) : list seg := [SDht C73_bits [3; 4]; SSof 12 x y [1; 17; 0; 2; 17; 0]].
Definition C73_sel : list Z := [1; 0; 2; 0].
Lemma C73_header x y : 0 <= x < 65536 -> 0 <= y < 65536 -> wf_header (C73_segs x y) C73_sel [0; 0] C73_bits [3; 4] 12 x y 2.
Proof.
  intros Hx Hy. split; [|split; [reflexivity|split; reflexivity]]. unfold C73_segs. apply Forall_cons; [|apply Forall_cons; [|apply Forall_nil]].
  - split; [|cbn [length]; lia]. unfold dht_ok. split; [reflexivity|]. split; [reflexivity|]. split; [discriminate|]. split; [repeat constructor; lia|vm_compute; discriminate].
  - cbn [seg_ok]. repeat split; try lia; try (vm_compute; discriminate).
Qed.
Definition C73_arg : dec_arg := {| da_skip := 2; da_lin := None; da_linlen := 0 |}.
Definition C73_go (file : list Z) (wl : Z) : lj_result_all := lj_run_all 0 (C70_mem file) (len file) C73_arg wl (fun _ => 9) (fun _ => 77).
Definition C73_file (p x y : Z) (scan : list Z) : list Z := pn_file (C73_segs x y) p C73_sel [0; 0] scan.
(* the five bytes of C72_write_past_end with a seven behind them; the five of C72_eoi *)
Example C72_example : byte_mem (C70_mem [255; 0xd8; 255; 0xc4; 1; 2; 7; 8]) /\
  snd (fst (lj92_open (C70_mem [255; 0xd8; 255; 0xc4; 1; 2; 7; 8]) 5)) 6 = 0 /\ C70_mem [255; 0xd8; 255; 0xc4; 1; 2; 7; 8] 6 = 7 /\
  fst (fst (lj92_open (C70_mem [255; 0xd8; 255; 0xd9; 0]) 5)) = NONE /\
  fst (fst (lj92_open (C70_mem (C73_file 1 3 2 [9])) (len (C73_file 1 3 2 [9])))) = NONE.
Proof. split; [|vm_compute; repeat split]. assert (F : file_in (C70_mem [255; 0xd8; 255; 0xc4; 1; 2; 7; 8]) [255; 0xd8; 255; 0xc4; 1; 2; 7; 8]) by (apply C70_mem_in, bytes_dec; reflexivity). destruct F as [F _]. exact F. Qed.
(* a complete code and arbitrary scan data; an incomplete code and ones; predictor 6 and no rows; predictor 6 and no components *)
Example C73_example :
  (fold_left (fun a n => 2 * a + Z.of_nat n) C73_bits 0 = 2 ^ 16 /\ (forall p, p = 1 \/ p = 6 -> file_in (C70_mem (C73_file p 3 2 [255; 255; 1; 255; 217; 3])) (C73_file p 3 2 [255; 255; 1; 255; 217; 3]) /\
     predictor_of (C70_mem (C73_file p 3 2 [255; 255; 1; 255; 217; 3])) (len (C73_file p 3 2 [255; 255; 1; 255; 217; 3])) = p /\
     la_oob (C73_go (C73_file p 3 2 [255; 255; 1; 255; 217; 3]) 3) = false /\ la_img (C73_go (C73_file p 3 2 [255; 255; 1; 255; 217; 3]) 3) 2 <> 77)) /\
  (let file := pn_file (C70_segs 8 3 1) 1 (C70_sel 1) [0; 0] ([255; 0; 255; 0] ++ []) in fold_left (fun a n => 2 * a + Z.of_nat n) C64_bits 0 < 2 ^ 16 /\ file_in (C70_mem file) file /\ la_oob (C73_go file 0) = true) /\
  (la_y (C73_go (C73_file 6 3 0 [1; 2; 3]) 3) = 0 /\ la_img (C73_go (C73_file 6 3 0 [1; 2; 3]) 3) 0 <> 77) /\
  (let file := pn_file [SDht C73_bits [3; 4]; SSof 12 3 2 []] 6 [] [0; 0] [5] in la_comp (C73_go file 3) = 0 /\ la_oob (C73_go file 3) = true).
Proof.
  split; [|split; [|split; [vm_compute; repeat split; discriminate|vm_compute; repeat split]]].
  - split; [reflexivity|]. intros p Hp. split; [apply C70_mem_in, bytes_dec; destruct Hp as [-> | ->]; reflexivity|]. destruct Hp as [-> | ->]; vm_compute; repeat split; discriminate.
  - cbv zeta. split; [reflexivity|]. split; [apply C70_mem_in, bytes_dec; reflexivity|reflexivity].
Qed.
(* no scan data at all for 20 x 20 x 2 samples: success; predictor 6 reports the file as corrupt *)
Example C74_example :
  (let file := C73_file 1 20 20 [] in predictor_of (C70_mem file) (len file) = 1 /\ data_at (C70_mem file) (len file) = len file - 2 /\
     la_dec (C73_go file 0) = NONE /\ la_oob (C73_go file 0) = false /\ len file <= la_hi (C73_go file 0)) /\
  (let file := C73_file 6 20 20 [] in predictor_of (C70_mem file) (len file) = 6 /\ la_oob (C73_go file 20) = false /\ la_dec (C73_go file 20) = CORRUPT).
Proof. vm_compute. repeat split; discriminate. Qed.
