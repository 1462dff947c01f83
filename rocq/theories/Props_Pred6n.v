(* C71 continued: predictor 6 with several components *)
From Verif Require Import Bits Spec Spec_Beta Spec_Lj92 Spec_P6 Spec_Pn M_Lj92 M_Pred6 P_Lj92 P_Lj92b P_Lj92c P_Lj92d P_I3 P_Fix P_Decode P_Pack P_Pred6 P_Pred6b P_Open P_ScanN
  Props_Frame Props_Lj92 Props_Pred6 Props_ScanN Props_ScanN2 Props_Any6.
Ltac Zify.zify_post_hook ::= idtac.

(* the differences do not depend on the samples: what can be read with one prediction can be read with any other *)
Lemma read_any bk p N bd W p' N' bd' W' : forall n m img img' l px, (m <= n)%nat -> read_n bk p N bd W n img l = Some px -> exists px', read_n bk p' N' bd' W' m img' l = Some px'.
Proof.
  induction n as [|n IH]; intros m img img' l px Hm E.
  - replace m with O by lia. exists img'. reflexivity.
  - destruct m as [|m]; [exists img'; reflexivity|]. cbn [read_n] in *. destruct (read_diff bk l) as [[d rest]|]; [|discriminate]. eapply IH; [|exact E]. lia.
Qed.

(* A T.81 file of N >= 2 components with predictor 6: the library reads the first x*y of the N*x*y differences as those of an image with one
   component, and that image is what it delivers - as a success (or, as in C64, as corrupt: where a sample exceeds the linearization table's length,
   or in an image of fewer than 25 columns or one row). *)
Theorem C71_pred6 : forall d segs sel tail bits vals bd x y N Q px a wl rows img U,
  wf_header segs sel tail bits vals bd x y N -> Forall (fun v => v <= 15) vals ->
  2 <= N <= 255 -> 1 <= bd -> 1 <= x -> 1 <= y -> x * y < 2 ^ 31 -> Forall is_byte Q -> 0 <= da_skip a -> 2 <= wl ->
  let file := pn_file segs 6 sel tail (stuff Q) in
  file_in d file ->
  read_n (book_of bits vals) 6 N bd (N * x) (Z.to_nat (N * x * y)) [] (stream 8 Q) = Some px ->
  let res := lj_run_all U d (len file) a wl rows img in
  la_open res = NONE /\ la_x res = x /\ la_y res = y /\ la_bits res = bd /\ la_comp res = N /\
  exists ps i, read_n (book_of bits vals) 6 1 bd x (Z.to_nat (x * y)) [] (stream 8 Q) = Some ps /\ 1 <= i <= x * y /\ delivered res file a wl img ps i /\
    ((la_dec res = NONE /\ i = x * y) \/
     (la_dec res = CORRUPT /\ da_lin a <> None /\ x <= i < x * y /\ da_linlen a < nth (Z.to_nat i) ps 0) \/
     (la_dec res = CORRUPT /\ (x < 25 \/ y < 2))).
Proof.
  intros d segs sel tail bits vals bd x y N Q px a wl rows img U Hh Hv HN Hbd Hx Hy HXY HQ Hskip Hwl file [Hd HH] ED0.
  assert (XY : 1 <= x * y) by nia. assert (NXY : x * y <= N * x * y) by (rewrite <- Z.mul_assoc; nia).
  destruct (read_any (book_of bits vals) 6 N bd (N * x) 6 1 bd x (Z.to_nat (N * x * y)) (Z.to_nat (x * y)) [] [] _ _ ltac:(apply Z2Nat.inj_le; lia) ED0) as (ps & ED).
  assert (ED1 := ED). rewrite read_n_6 in ED by lia.
  destruct (setup_n d segs 6 sel tail bits vals bd x y N Q Hd Hh ltac:(lia) ltac:(lia) HQ HH) as (d' & h & ix & EO & Hd' & (Jx & Jy & Jb & Jc & _ & Jl) & Hok & Hx2 & Hy2 & Ei & Ep & _ & HI).
  fold file in EO, HI. set (E := len file - 2) in *.
  assert (Hpx : len ps = j_x h * j_y h). { apply read_samples_len in ED. destruct ED as [L _]. cbn [length] in L. unfold len. rewrite Jx, Jy. nia. }
  destruct (pred6_w d' Hd' E U h bits vals Hok Jl Hv ps img a wl Hskip Hwl ltac:(lia) (j_y h) Hpx ltac:(lia) ltac:(lia) (len file) rows (stream 8 Q)) as (s' & c & E1 & F); try lia.
  - rewrite (pixels_small h) by (rewrite Jx, Jy; nia). reflexivity.
  - rewrite Ei. exact HI.
  - unfold sinv. rewrite Jx, Jy, Jb, Z.sub_0_r. exact ED.
  - unfold delivered, lj_run_all. rewrite EO. unfold lj92_decode_all, lj92_decode. rewrite Ep. change (7 <? 6) with false. change (6 =? 6) with true. cbn beta iota. rewrite E1. cbv zeta. cbn [la_open la_dec la_x la_y la_bits la_comp la_img la_oob la_hi].
    unfold fin, dinv, vinv, small in F. rewrite Jx, Jy in F. destruct F as (i & Hi & (F1 & F2 & F3 & F4) & F5 & F6).
    split; [reflexivity|]. do 4 (split; [assumption|]). exists ps, i. split; [exact ED1|]. split; [exact Hi|]. split; [|exact F6].
    split; [exact F3|]. split; [exact F4|]. split; [exact F2|]. unfold E in F1. lia.
Qed.

Lemma read_n_prefix bk p N bd W : forall n img l px, read_n bk p N bd W n img l = Some px -> exists r, px = img ++ r.
Proof.
  induction n as [|n IH]; intros img l px E; cbn [read_n] in E.
  - exists []. rewrite app_nil_r. congruence.
  - destruct (read_diff bk l) as [[d rest]|]; [|discriminate]. destruct (IH _ _ _ E) as (r & ->). rewrite <- app_assoc. eauto.
Qed.
(* In particular: a success, no word beyond the first x*y samples' places is written, and the second sample is wrong unless the first one is 2^(bd-1). *)
Theorem C71_pred6_wrong : forall d segs sel tail bits vals bd x y N Q px a wl rows img U,
  wf_header segs sel tail bits vals bd x y N -> Forall (fun v => v <= 15) vals ->
  2 <= N <= 255 -> 1 <= bd <= 16 -> 25 <= x -> 2 <= y -> x * y < 2 ^ 31 -> Forall is_byte Q -> 0 <= da_skip a -> 2 <= wl -> da_lin a = None ->
  let file := pn_file segs 6 sel tail (stuff Q) in
  file_in d file ->
  read_n (book_of bits vals) 6 N bd (N * x) (Z.to_nat (N * x * y)) [] (stream 8 Q) = Some px ->
  let res := lj_run_all U d (len file) a wl rows img in
  la_open res = NONE /\ la_dec res = NONE /\ (forall p, tile_pos wl (da_skip a) (x * y - 1) < p -> la_img res p = img p) /\
  (nth 0 px 0 <> 2 ^ (bd - 1) -> la_img res 1 <> nth 1 px 0).
Proof.
  intros d segs sel tail bits vals bd x y N Q px a wl rows img U Hh Hv HN Hbd Hx Hy HXY HQ Hskip Hwl Hlin file HF ED res.
  destruct (C71_pred6 d segs sel tail bits vals bd x y N Q px a wl rows img U Hh Hv HN ltac:(lia) ltac:(lia) ltac:(lia) HXY HQ Hskip Hwl HF ED) as (A1 & _ & _ & _ & _ & ps & i & EP & Hi & (D1 & D2 & _) & A).
  fold file in A1, D1, D2, A. fold res in A1, D1, D2, A. destruct A as [[A ->]|[(_ & A & _)|(_ & A)]]; [|congruence|lia].
  split; [exact A1|]. split; [exact A|]. split.
  - intros p Hp. apply D2. intros k Hk ->. unfold tile_pos in Hp. assert (k / wl <= (x * y - 1) / wl) by (apply Z.div_le_mono; lia). nia.
  - intros Hne. assert (T1 : tile_pos wl (da_skip a) 1 = 1) by (unfold tile_pos; rewrite Z.div_small by lia; lia).
    rewrite <- T1. rewrite D1 by nia. unfold converted. rewrite Hlin. change (Z.to_nat 1) with 1%nat.
    destruct (Z.to_nat (N * x * y)) as [|[|n]] eqn:En; [nia|nia|]. destruct (Z.to_nat (x * y)) as [|[|m]] eqn:Em; [nia|nia|]. clear En Em. cbn [read_n] in ED, EP.
    destruct (read_diff (book_of bits vals) (stream 8 Q)) as [[d0 r0]|]; [|discriminate]. destruct (read_diff (book_of bits vals) r0) as [[d1 r1]|]; [|discriminate].
    apply read_n_prefix in ED, EP. destruct ED as (u & ->). destruct EP as (v & ->). cbn [app nth] in *.
    assert (P0 : forall n w, 1 <= n -> predn 6 n bd w [] = 2 ^ (bd - 1)). { intros n' w Hn'. unfold predn. change (len (@nil Z)) with 0. cbv zeta. replace (0 <? n') with true by lia. reflexivity. }
    rewrite !P0 in * by lia. set (q := (2 ^ (bd - 1) + d0) mod 2 ^ 16) in *.
    replace (predn 6 N bd (N * x) [q]) with (2 ^ (bd - 1)) by (unfold predn; change (len [q]) with 1; cbv zeta; replace (1 <? N) with true by lia; reflexivity).
    replace (predn 6 1 bd x [q]) with q by (unfold predn; change (len [q]) with 1; cbv zeta; change (1 <? 1) with false; replace (1 <? x) with true by lia; reflexivity).
    assert (0 <= q < 2 ^ 16) by (apply Z.mod_pos_bound; lia). assert (0 < 2 ^ (bd - 1) < 2 ^ 16) by (split; [apply Z.pow_pos_nonneg; lia|apply Z.pow_lt_mono_r; lia]).
    intros Ee. apply Hne. assert (D : (q - 2 ^ (bd - 1)) mod 2 ^ 16 = 0). { replace (q - 2 ^ (bd - 1)) with (q + d1 - (2 ^ (bd - 1) + d1)) by lia. rewrite Zminus_mod, Ee, Z.sub_diag. reflexivity. }
    apply Z.mod_divide in D; [|lia]. destruct D as [k Hk]. change (2 ^ 16) with 65536 in *. nia.
Qed.

(* two components of 25 x 2 with predictor 6: success, 50 samples for 100; the second sample, 4095, comes out as 2047 *)
Definition C71_px6 : list Z := C64_px ++ map (fun k => 4095 - k) C64_px.
Definition C71_Q6 : list Z := pack 8 (write_n (book_of C64_bits C64_vals) 6 2 12 50 [] C71_px6).
Definition C71_file6 : list Z := pn_file (C70_segs 25 2 2) 6 (C70_sel 2) [0; 0] (stuff C71_Q6).
Example C71_pred6_example :
  let res := lj_run_all 0 (C70_mem C71_file6) (len C71_file6) {| da_skip := 0; da_lin := None; da_linlen := 0 |} 50 (fun _ => 9) (fun _ => 77) in
  wf_header (C70_segs 25 2 2) (C70_sel 2) [0; 0] C64_bits C64_vals 12 25 2 2 /\ file_in (C70_mem C71_file6) C71_file6 /\
  read_n (book_of C64_bits C64_vals) 6 2 12 50 100 [] (stream 8 C71_Q6) = Some C71_px6 /\ firstn 2 C71_px6 = [0; 4095] /\
  la_dec res = NONE /\ la_comp res = 2 /\ map (fun k => la_img res k) [0; 1; 50; 51; 99] = [0; 2047; 77; 77; 77].
Proof.
  intros res. split; [apply (C70_header 25 2 2); lia|]. split; [apply C70_mem_in, bytes_dec; vm_compute; reflexivity|]. vm_compute. repeat split; reflexivity.
Qed.
