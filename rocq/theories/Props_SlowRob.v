(* C83: the bit-by-bit (SLOW_HUFF) build of the shipped decoder on arbitrary bytes. *)
From Verif Require Import Bits Spec Spec_Lj92 Spec_P6 Spec_Pn M_Lj92 M_Pred6 M_Slow P_Lj92 P_Open P_Rob P_Rob2 P_Rob3 P_RobS Props_Lj92 Props_Pred6 Props_ScanN2 Props_Rob Props_Slow.
Ltac Zify.zify_post_hook ::= idtac.

(* lj92_open ends with success (0), CORRUPT (-1) or NO_MEMORY (-2), the last only for a table segment (FF C4) shorter than its 19 fixed bytes; sizes, changes
   and scan as in C72; its arrays are left only for a table without any code. *)
Theorem C83_open : forall d dl, byte_mem d -> 0 <= dl ->
  let '(r, d', h, t, oob) := sl_open d dl in
  (r = 0 \/ r = -1 \/ r = -2) /\
  (r = -2 -> exists k, 2 <= k < dl /\ d (k - 2) = 255 /\ d (k - 1) = 0xc4 /\ 256 * d k + d (k + 1) < 19 /\ k + (256 * d k + d (k + 1)) < dl) /\
  (oob = true -> exists k, 2 <= k < dl /\ d (k - 2) = 255 /\ d (k - 1) = 0xc4 /\ 19 <= 256 * d k + d (k + 1) /\ forall j, 1 <= j <= 16 -> d (k + 2 + j) = 0) /\
  0 <= j_x h < 65536 /\ 0 <= j_y h < 65536 /\ 0 <= j_bits h < 256 /\ 0 <= j_comp h < 256 /\
  (forall k, d' k <> d k -> d' k = 0 /\ d (k - 4) = 255 /\ d (k - 3) = 0xc4 /\ 4 <= k <= dl + 1) /\
  (j_scan h = 0 \/ 4 <= j_scan h < dl /\ d (j_scan h - 2) = 255 /\ d (j_scan h - 1) = 0xda).
Proof.
  intros d dl Hd Hdl. unfold sl_open. pose proof (lfind_spec d dl 0 ltac:(lia)) as L. destruct (lfind d dl 0) as [mk ix].
  assert (BE : forall k, beh d k = 256 * d k + d (k + 1)).
  { intros k. unfold beh. rewrite Z.shiftl_mul_pow2 by lia. pose proof (Hd (k + 1)). rewrite lor_add by (try (change (2 ^ 8) with 256); lia). change (2 ^ 8) with 256. lia. }
  destruct (mk =? 0xd8) eqn:E.
  - destruct L as [[L _]|(L1 & L2 & L3)]; [lia|].
    pose proof (sl_image_inv d dl (Z.to_nat dl) d ix hdr0 tab0 false ltac:(reflexivity) ltac:(intros k Hk; congruence) Hd shape0 ltac:(lia) eq_refl ltac:(constructor)) as P.
    destruct (sl_parse_image _ d dl ix hdr0 tab0 false) as [[[[r d'] h] t] o]. destruct P as (A & B & (C1 & C2 & C3 & C4 & _) & D1 & D2 & D3 & D4 & F).
    split; [exact D1|]. split; [intros X; destruct (D2 X) as (k & (K1 & K2 & K3) & K4 & K5); exists k; rewrite BE in *; auto 8|].
    split; [intros X; destruct (D3 X) as [Y|(k & (K1 & K2 & K3) & K4 & K5 & K6)]; [discriminate|exists k; rewrite BE in *; auto 8]|].
    split; [exact C1|]. split; [exact C2|]. split; [exact C3|]. split; [exact C4|]. split; [exact A|]. destruct F as [F|(F1 & F2 & F3)]; [left; exact F|right]. split; [lia|auto].
  - unfold CORRUPT. split; [lia|]. split; [discriminate|]. split; [discriminate|]. cbn [hdr0 j_x j_y j_bits j_comp j_scan]. split; [lia|]. split; [lia|]. split; [lia|]. split; [lia|]. split; [congruence|left; reflexivity].
Qed.
(* the loop over the segments ends by itself *)
Theorem C83_terminates : forall d dl ix h t o f, byte_mem d -> 2 <= ix < dl -> (Z.to_nat dl <= f)%nat -> sl_parse_image f d dl ix h t o = sl_parse_image (Z.to_nat dl) d dl ix h t o.
Proof. intros d dl ix h t o f Hd Hix Hf. apply sl_image_fuel; try assumption; lia. Qed.

Lemma sl_first_dht d dl : d 0 = 255 -> d 1 = 0xd8 -> d 2 = 255 -> d 3 = 0xc4 -> 5 <= dl ->
  sl_open d dl = sl_parse_image (Z.to_nat dl) d dl 2 hdr0 tab0 false /\ lfind d dl 2 = (0xc4, 4).
Proof.
  intros H0 H1 H2 H3 Hdl. unfold sl_open. assert (En : exists n, Z.to_nat dl = S n) by (exists (Z.to_nat (dl - 1)); lia). destruct En as [n En].
  assert (L : forall ix b, d ix = 255 -> d (ix + 1) = b -> ix + 2 < dl -> lfind d dl ix = (b, ix + 2)).
  { intros ix b E1 E2 Hi. unfold lfind. rewrite En. cbn [find_ff]. rewrite E1. change (255 =? 255) with true. cbn [negb andb]. cbv beta iota zeta. replace (dl <=? ix + 2) with false by lia. replace (ix + 2 - 1) with (ix + 1) by lia. rewrite E2. reflexivity. }
  rewrite (L 0 0xd8 H0 H1) by lia. rewrite (L 2 0xc4 H2 H3) by lia. change (0xd8 =? 0xd8) with true. cbv beta iota. split; reflexivity.
Qed.
(* NO_MEMORY does happen: a first table segment announcing fewer than 19 bytes *)
Theorem C83_short : forall d dl, byte_mem d -> d 0 = 255 -> d 1 = 0xd8 -> d 2 = 255 -> d 3 = 0xc4 -> 256 * d 4 + d 5 < 19 -> 4 + (256 * d 4 + d 5) < dl -> 6 <= dl ->
  let '(r, _, _, _, _) := sl_open d dl in r = -2.
Proof.
  intros d dl Hd H0 H1 H2 H3 Hs Hl Hdl. destruct (sl_first_dht d dl H0 H1 H2 H3 ltac:(lia)) as [-> L]. assert (En : exists n, Z.to_nat dl = S n) by (exists (Z.to_nat (dl - 1)); lia). destruct En as [n ->]. cbn [sl_parse_image]. rewrite L.
  change (0xc4 =? 0xc4) with true. cbv beta iota. unfold sl_parse_huff. cbv zeta.
  assert (EB : beh (upd d (4 + 2) 0) 4 = 256 * d 4 + d 5).
  { unfold beh, upd. change (4 =? 4 + 2) with false. change (4 + 1 =? 4 + 2) with false. cbv beta iota. rewrite Z.shiftl_mul_pow2 by lia. change (4 + 1) with 5. pose proof (Hd 5). rewrite lor_add by (try (change (2 ^ 8) with 256); lia). change (2 ^ 8) with 256. lia. }
  rewrite EB. replace (dl <=? 4 + (256 * d 4 + d 5)) with false by lia. replace (256 * d 4 + d 5 <? 19) with true by lia. reflexivity.
Qed.

(* ------------------------------------------------------------------ lj92_decode *)
Definition sl_predictor_of (d : lmem) (dl : Z) : Z := let '(_, d', h, _, _) := sl_open d dl in d' (j_scan h + 3 + 2 * d' (j_scan h + 2)).
Definition sl_data_at (d : lmem) (dl : Z) : Z := let '(_, d', h, _, _) := sl_open d dl in j_scan h + beh d' (j_scan h).
Lemma sl_open_shape d dl : byte_mem d -> 0 <= dl -> let '(r, d', h, t, o) := sl_open d dl in shape h /\ byte_mem d' /\ 0 <= j_scan h /\ Forall (fun v => 0 <= v <= 255) (t_val t).
Proof.
  intros Hd Hdl. unfold sl_open. pose proof (lfind_spec d dl 0 ltac:(lia)) as L. destruct (lfind d dl 0) as [mk ix]. destruct (mk =? 0xd8) eqn:E.
  - destruct L as [[L _]|(L1 & L2 & L3)]; [lia|].
    pose proof (sl_image_inv d dl (Z.to_nat dl) d ix hdr0 tab0 false ltac:(reflexivity) ltac:(intros k Hk; congruence) Hd shape0 ltac:(lia) eq_refl ltac:(constructor)) as P.
    destruct (sl_parse_image _ d dl ix hdr0 tab0 false) as [[[[r d'] h] t] o]. destruct P as (A & B & C & _ & _ & _ & D4 & F).
    split; [exact C|]. split; [exact B|]. split; [lia|]. eapply Forall_impl; [|exact D4]. unfold is_b. intros; lia.
  - split; [exact shape0|]. split; [exact Hd|]. split; [cbn [hdr0 j_scan]; lia|constructor].
Qed.
(* Any bytes, predictor other than 6: only places of the announced image are changed, success or CORRUPT, at most 68 bytes are read per sample (and two more).
   Without a linearization table the result is a success whatever the scan data, and with at least 8*(n+2) samples, n the number of bytes from the start of the scan data
   to the end of the file, bytes behind the end of the file were read. *)
Theorem C83_decode : forall U d dl a wl rows img, byte_mem d -> 0 <= dl -> sl_predictor_of d dl <> 6 ->
  let res := sl_run_all U d dl a wl rows img in
  let n := la_comp res * la_x res * la_y res in
  (la_dec res = 0 \/ la_dec res = -1) /\
  (forall p, la_img res p <> img p -> exists i j, 0 <= i < la_y res /\ 0 <= j < la_comp res * la_x res /\ p = i * (la_comp res * la_x res + da_skip a) + j) /\
  la_hi res <= sl_data_at d dl + 68 * n + 1 /\
  (sl_predictor_of d dl <= 7 -> da_lin a = None -> la_dec res = 0 /\ (1 <= n -> 8 * (dl - sl_data_at d dl + 2) <= n -> dl <= la_hi res)).
Proof.
  intros U d dl a wl rows img Hd Hdl Hp. cbv zeta. unfold sl_predictor_of, sl_data_at in *. unfold sl_run_all. pose proof (sl_open_shape d dl Hd Hdl) as S. destruct (sl_open d dl) as [[[[r d'] h] t] o]. destruct S as (S1 & S2 & S3 & S4).
  set (st := j_scan h + beh d' (j_scan h)) in *. pose proof (beh_range d' (j_scan h) S2) as HB.
  destruct (scan_any_g (sl_nextdiff U d' t) (sd 255 st) d' h a rows img S1 S2 S3 (fun K s HK H => sd_next d' U 255 st t ltac:(lia) S4 K s HK H) (sd0 255 st) Hp) as (r2 & s & E & R & W & (K & HK & RK) & X).
  unfold sl_decode_all, decode_all_g. rewrite E. cbn [la_dec la_img la_y la_x la_comp la_hi]. split; [exact R|]. split; [exact W|].
  pose proof (sd_hi 255 st ltac:(lia) K (s_nd s) ltac:(lia) ltac:(unfold st; lia) RK) as [Q1 Q2]. split; [lia|].
  intros H7 HL. destruct (X H7) as (X1 & X2 & _). specialize (X1 HL). split; [exact X1|]. intros N1 N2. specialize (X2 X1). destruct (sd_hi 255 st ltac:(lia) (j_comp h * j_x h * j_y h) (s_nd s) ltac:(lia) ltac:(unfold st; lia) X2) as [_ Q3]. lia.
Qed.

(* With a well-formed header, a complete code and categories up to 15 no array is left whatever the scan data; with an incomplete code without category 16
   scan data beginning with ones leave an array (maxcode is read behind its end). *)
Theorem C83_safe : forall U d segs p sel tail scan bits vals bd x y N a wl rows img,
  wf_header segs sel tail bits vals bd x y N -> 1 <= N <= 255 -> 1 <= x -> p <> 6 ->
  fold_left (fun a n => 2 * a + Z.of_nat n) bits 0 = 2 ^ 16 -> Forall (fun v => v <= 15) vals ->
  file_in d (pn_file segs p sel tail scan) ->
  la_oob (sl_run_all U d (len (pn_file segs p sel tail scan)) a wl rows img) = false.
Proof.
  intros U d segs p sel tail scan bits vals bd x y N a wl rows img Hh HN Hx Hp EK H15 HF.
  destruct (C73_safe U d segs p sel tail scan bits vals bd x y N a wl rows img Hh HN Hx EK H15 HF) as [F _].
  destruct (C79_same d segs p sel tail scan bits vals bd x y N a wl rows img U Hh ltac:(lia) HF) as (_ & _ & _ & _ & _ & _ & X & _). apply (X Hp F).
Qed.
Theorem C83_unsafe : forall U d segs p sel tail scan bits vals bd x y N a wl rows img,
  wf_header segs sel tail bits vals bd x y N -> 1 <= N <= 255 -> 1 <= x -> 1 <= y -> p <= 7 -> p <> 6 -> ~ In 16 vals ->
  fold_left (fun a n => 2 * a + Z.of_nat n) bits 0 < 2 ^ 16 ->
  file_in d (pn_file segs p sel tail ([255; 0; 255; 0] ++ scan)) ->
  la_oob (sl_run_all U d (len (pn_file segs p sel tail ([255; 0; 255; 0] ++ scan))) a wl rows img) = true.
Proof.
  intros U d segs p sel tail scan bits vals bd x y N a wl rows img Hh HN Hx Hy Hp7 Hp H16 EK HF.
  pose proof (C73_uninit U d segs p sel tail scan bits vals bd x y N a wl rows img Hh HN Hx Hy Hp7 EK HF) as F.
  destruct (C79_same d segs p sel tail ([255; 0; 255; 0] ++ scan) bits vals bd x y N a wl rows img U Hh ltac:(lia) HF) as (_ & _ & _ & _ & _ & _ & _ & X & _).
  destruct (la_oob (sl_run_all _ _ _ _ _ _ _)) eqn:E; [reflexivity|]. specialize (X Hp H16 eq_refl). congruence.
Qed.

(* ------------------------------------------------------------------ concrete files *)
(* a table whose values contain FF D9 (no lossless category is that large): the default build, which does not step over table segments, takes it as the end
   of the image and reports success with no image; this build reports the 8 x 3 image *)
Definition C83_file : list Z := [255; 0xd8; 255; 0xc4; 0; 22; 0; 0; 0; 3; 0; 0; 0; 0; 0; 0; 0; 0; 0; 0; 0; 0; 0; 255; 0xd9; 2;
  255; 0xc3; 0; 11; 12; 0; 3; 0; 8; 1; 1; 17; 0; 255; 0xda; 0; 8; 1; 1; 0; 1; 0; 0; 0; 0; 255; 0xd9].
Definition C83_mem (l : list Z) : lmem := fun k => if k <? 0 then 0 else nth (Z.to_nat k) l 0.
Example C83_differ :
  (let '(r, _, h) := lj92_open (C83_mem C83_file) (len C83_file) in (r, j_x h, j_y h, j_scan h)) = (0, 0, 0, 0) /\
  (let '(r, _, h, _, o) := sl_open (C83_mem C83_file) (len C83_file) in (r, j_x h, j_y h, j_scan h, o)) = (0, 8, 3, 41, false).
Proof. vm_compute. auto. Qed.
Example C83_example : byte_mem (C83_mem C83_file) /\ sl_predictor_of (C83_mem C83_file) (len C83_file) = 1 /\ sl_data_at (C83_mem C83_file) (len C83_file) = 49 /\
  (let '(r, _, _, _, _) := sl_open (C83_mem [255; 0xd8; 255; 0xc4; 0; 9; 1; 2; 3; 4; 5; 6; 7; 8]) 14 in r) = -2 /\
  (let '(r, _, _, _, o) := sl_open (C83_mem ([255; 0xd8; 255; 0xc4; 0; 19] ++ repeat 0 20)) 26 in (r, o)) = (-1, true).
Proof.
  split.
  { intros k. unfold C83_mem. destruct (k <? 0); [lia|]. assert (F : Forall (fun v => 0 <= v < 256) C83_file) by (unfold C83_file; repeat (apply Forall_cons; [lia|]); apply Forall_nil). destruct (nth_in_or_default (Z.to_nat k) C83_file 0) as [H|H]; [|rewrite H; lia].
    rewrite Forall_forall in F. apply F, H. }
  vm_compute. auto.
Qed.
