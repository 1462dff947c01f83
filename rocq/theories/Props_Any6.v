(* C64, C67, C70 continued: predictor 6 for every size and every linearization table *)
From Verif Require Import Bits Spec Spec_Beta Spec_Lj92 Spec_P6 Spec_Pn M_Lj92 M_Pred6 M_Enc92 P_Lj92 P_Lj92b P_Lj92c P_Lj92d P_I3 P_Fix P_Decode P_Pack P_Pred6 P_Pred6b P_Open P_ScanN
  Props_Frame Props_Lj92 Props_Pred6 P_Enc92 P_Enc92b P_Enc92c Props_Enc92b Props_Enc92c Props_ScanN.
Ltac Zify.zify_post_hook ::= idtac.

(* the first i samples of px were delivered, each at its place, and nothing else of the target was touched; no array of the library was left,
   at most two bytes after the end of the file were read *)
Definition delivered (res : lj_result_all) (file : list Z) (a : dec_arg) (wl : Z) (img : lmem) (px : list Z) (i : Z) : Prop :=
  (forall k, 0 <= k < i -> la_img res (tile_pos wl (da_skip a) k) = converted a (nth (Z.to_nat k) px 0)) /\
  (forall p, (forall k, 0 <= k < i -> p <> tile_pos wl (da_skip a) k) -> la_img res p = img p) /\
  la_oob res = false /\ la_hi res <= len file + 1.
(* what lj92_decode answers with predictor 6: NONE after all samples; CORRUPT at the first sample outside the first row that is larger than the
   table's length (its predecessors delivered); or, when the image has fewer than 25 columns or one row only, CORRUPT before the end *)
Definition outcome6 (res : lj_result_all) (file : list Z) (a : dec_arg) (wl : Z) (img : lmem) (bd x y : Z) (px : list Z) : Prop :=
  la_open res = NONE /\ la_x res = x /\ la_y res = y /\ la_bits res = bd /\ la_comp res = 1 /\
  exists i, 1 <= i <= x * y /\ delivered res file a wl img px i /\
    (da_lin a <> None -> forall k, x <= k < i -> nth (Z.to_nat k) px 0 <= da_linlen a) /\
    ((la_dec res = NONE /\ i = x * y) \/
     (la_dec res = CORRUPT /\ da_lin a <> None /\ x <= i < x * y /\ da_linlen a < nth (Z.to_nat i) px 0) \/
     (la_dec res = CORRUPT /\ (x < 25 \/ y < 2))).

Theorem C64_any : forall d bits vals bd x y Q px a wl rows img U,
  dht_ok bits vals -> (length vals <= 200)%nat -> Forall (fun v => v <= 15) vals ->
  1 <= bd -> 1 <= x < 65536 -> 1 <= y < 65536 -> x * y < 2 ^ 31 -> Forall is_byte Q -> 0 <= da_skip a -> 2 <= wl ->
  let file := p6_file bits vals bd x y (stuff Q) in
  file_in d file ->
  read_samples (book_of bits vals) bd x (Z.to_nat (x * y)) [] (stream 8 Q) = Some px ->
  outcome6 (lj_run_all U d (len file) a wl rows img) file a wl img bd x y px.
Proof.
  intros d bits vals bd x y Q px a wl rows img U Hok Hn Hv Hbd Hx Hy HXY HQ Hskip Hwl file [Hd HH] ED.
  destruct (setup6 d bits vals bd x y Q Hd Hok Hn ltac:(lia) ltac:(lia) HQ HH) as (d' & h & EO & Fd & Hd' & (Jx & Jy & Jb & Jc & Js & Jl) & Ei & EDec & _ & _ & _ & HI).
  fold file in EO, HI. set (E := len file - 2) in *.
  assert (Hpx : len px = j_x h * j_y h). { apply read_samples_len in ED. destruct ED as [L _]. cbn [length] in L. unfold len. rewrite Jx, Jy. nia. }
  destruct (pred6_w d' Hd' E U h bits vals Hok Jl Hv px img a wl Hskip Hwl ltac:(lia) (j_y h) Hpx ltac:(lia) ltac:(lia) (len file) rows (stream 8 Q)) as (s' & c & E1 & F); try lia.
  - rewrite (pixels_small h) by (rewrite Jx, Jy; nia). reflexivity.
  - rewrite Ei. exact HI.
  - unfold sinv. rewrite Jx, Jy, Jb, Z.sub_0_r. exact ED.
  - unfold outcome6, delivered, lj_run_all. rewrite EO, EDec, E1. cbv zeta. cbn [la_open la_dec la_x la_y la_bits la_comp la_img la_oob la_hi].
    unfold fin, dinv, vinv, small in F. rewrite Jx, Jy in F. destruct F as (i & Hi & (F1 & F2 & F3 & F4) & F5 & F6).
    split; [reflexivity|]. do 4 (split; [assumption|]). exists i. split; [exact Hi|]. split; [|split; [exact F5|exact F6]].
    split; [exact F3|]. split; [exact F4|]. split; [exact F2|]. unfold E in F1. lia.
Qed.

Theorem C70_pred6_any : forall d segs sel tail bits vals bd x y Q px a wl rows img U,
  wf_header segs sel tail bits vals bd x y 1 -> Forall (fun v => v <= 15) vals ->
  1 <= bd -> 1 <= x -> 1 <= y -> x * y < 2 ^ 31 -> Forall is_byte Q -> 0 <= da_skip a -> 2 <= wl ->
  let file := pn_file segs 6 sel tail (stuff Q) in
  file_in d file ->
  read_n (book_of bits vals) 6 1 bd x (Z.to_nat (x * y)) [] (stream 8 Q) = Some px ->
  outcome6 (lj_run_all U d (len file) a wl rows img) file a wl img bd x y px.
Proof.
  intros d segs sel tail bits vals bd x y Q px a wl rows img U Hh Hv Hbd Hx Hy HXY HQ Hskip Hwl file [Hd HH] ED. rewrite read_n_6 in ED by lia.
  destruct (setup_n d segs 6 sel tail bits vals bd x y 1 Q Hd Hh ltac:(lia) ltac:(lia) HQ HH) as (d' & h & ix & EO & Hd' & (Jx & Jy & Jb & Jc & _ & Jl) & Hok & Hx2 & Hy2 & Ei & Ep & _ & HI).
  fold file in EO, HI. set (E := len file - 2) in *.
  assert (Hpx : len px = j_x h * j_y h). { apply read_samples_len in ED. destruct ED as [L _]. cbn [length] in L. unfold len. rewrite Jx, Jy. nia. }
  destruct (pred6_w d' Hd' E U h bits vals Hok Jl Hv px img a wl Hskip Hwl ltac:(lia) (j_y h) Hpx ltac:(lia) ltac:(lia) (len file) rows (stream 8 Q)) as (s' & c & E1 & F); try lia.
  - rewrite (pixels_small h) by (rewrite Jx, Jy; nia). reflexivity.
  - rewrite Ei. exact HI.
  - unfold sinv. rewrite Jx, Jy, Jb, Z.sub_0_r. exact ED.
  - unfold outcome6, delivered, lj_run_all. rewrite EO. unfold lj92_decode_all, lj92_decode. rewrite Ep. change (7 <? 6) with false. change (6 =? 6) with true. cbn beta iota. rewrite E1. cbv zeta. cbn [la_open la_dec la_x la_y la_bits la_comp la_img la_oob la_hi].
    unfold fin, dinv, vinv, small in F. rewrite Jx, Jy in F. destruct F as (i & Hi & (F1 & F2 & F3 & F4) & F5 & F6).
    split; [reflexivity|]. do 4 (split; [assumption|]). exists i. split; [exact Hi|]. split; [|split; [exact F5|exact F6]].
    split; [exact F3|]. split; [exact F4|]. split; [exact F2|]. unfold E in F1. lia.
Qed.

(* Encode and decode for every size: either the exact samples come back, or the decoder says CORRUPT, and then what it delivered is right. *)
Theorem C67_any_size : forall img w h bd rl sl mem U wl skip rows dst,
  1 <= w < 65536 -> 1 <= h < 65536 -> 3 * w * h + 200 < 2 ^ 31 -> 1 <= bd <= 16 -> 1 <= rl -> 2 <= wl -> 0 <= skip ->
  (forall k, 0 <= k < w * h -> 0 <= img (tile_pos rl sl k) < 65536) ->
  diffs_small bd w [] (tile img rl sl (w * h)) ->
  (forall k, 0 <= mem k < 256) ->
  let '(r, m, n) := lj92_encode img w h bd rl sl None mem in
  r = NONE ->
  let res := lj_run_all U m n {| da_skip := skip; da_lin := None; da_linlen := 0 |} wl rows dst in
  la_open res = NONE /\ la_x res = w /\ la_y res = h /\ la_bits res = bd /\ la_comp res = 1 /\
  exists i, 1 <= i <= w * h /\ (forall k, 0 <= k < i -> la_img res (tile_pos wl skip k) = img (tile_pos rl sl k)) /\
    (forall p, (forall k, 0 <= k < i -> p <> tile_pos wl skip k) -> la_img res p = dst p) /\ la_oob res = false /\ la_hi res <= n + 1 /\
    ((la_dec res = NONE /\ i = w * h) \/ (la_dec res = CORRUPT /\ (w < 25 \/ h < 2))).
Proof.
  intros img w h bd rl sl mem U wl skip rows dst Hw Hh Hwh Hbd Hrl Hwl Hsk Hpx Hsm Hmem.
  destruct (C66_encode img w h bd rl sl mem ltac:(lia) ltac:(lia) Hwh Hbd Hrl Hsm) as (bits & vals & DO & ND & IV & CB & X). cbv zeta in X. 
  assert (Hn : 1 <= w * h) by nia. assert (TN : forall k, 0 <= k < w * h -> nth (Z.to_nat k) (tile img rl sl (w * h)) 0 = img (tile_pos rl sl k)) by (intros k Hk; apply tile_nth; exact Hk).
  assert (TL : len (tile img rl sl (w * h)) = w * h) by (apply tile_len; lia). set (px := tile img rl sl (w * h)) in *. clearbody px. unfold scan_of in X.
  destruct (lj92_encode img w h bd rl sl None mem) as [[r m] n]. intros Er. destruct X as [X _]. destruct (X Er) as (En & HH & Hout & _). clear X Er.
  assert (HC : Forall (fun c => 0 <= c <= 15) (map category (diffs6 bd w [] px))).
  { apply Forall_map. pose proof Hsm as Hs2. apply small_diffs6 in Hs2. eapply Forall_impl; [|exact Hs2]. intros d Hd. apply category_range. exact Hd. }
  assert (V15 : Forall (fun v => v <= 15) vals). { apply Forall_forall. intros v Hv. apply IV in Hv. rewrite Forall_forall in HC. specialize (HC v Hv). lia. }
  assert (LV : (length vals <= 17)%nat).
  { assert (G : incl vals (map Z.of_nat (seq 0 17))). { intros c Hc. apply IV in Hc. rewrite Forall_forall in HC. specialize (HC c Hc). apply in_map_iff. exists (Z.to_nat c). split; [lia|]. apply in_seq. lia. }
    apply NoDup_incl_length in G; [|exact ND]. rewrite map_length, seq_length in G. exact G. }
  set (bs := write_samples (book_of bits vals) bd w [] px) in *. destruct (pack_bits 8 bs ltac:(lia)) as (pad & PB & PF). set (Q := pack 8 bs) in *.
  assert (HQ : Forall is_byte Q) by (eapply Forall_impl; [|exact PF]; intros b Hb; exact Hb).
  assert (FB : Forall is_byte (p6_file bits vals bd w h (stuff Q))) by (apply file_bytes; try assumption; try lia; apply stuff_bytes; exact HQ).
  assert (FI : file_in m (p6_file bits vals bd w h (stuff Q))).
  { split; [|exact HH]. intros k. destruct (Z_lt_ge_dec k 0) as [Hk|Hk]; [rewrite Hout by lia; apply Hmem|]. destruct (Z_lt_ge_dec k n) as [Hk2|Hk2]; [|rewrite Hout by lia; apply Hmem].
    pose proof (HH (Z.to_nat k) ltac:(unfold len in En; lia)) as E. rewrite Z.add_0_l, Z2Nat.id in E by lia. rewrite E. rewrite Forall_forall in FB. apply FB. apply nth_In. unfold len in En. lia. }
  assert (RB : read_samples (book_of bits vals) bd w (Z.to_nat (w * h)) [] (stream 8 Q) = Some px).
  { change (stream 8 Q) with (wbits 8 Q). rewrite PB. replace (Z.to_nat (w * h)) with (length px) by (unfold len in TL; lia). unfold bs. rewrite (read_back bits vals DO CB bd w _ px [] Hsm); [reflexivity| |intros d Hd; apply IV, in_map; exact Hd].
    apply Forall_forall. intros p Hp. destruct (In_nth px p 0 Hp) as (k & Hk & <-). rewrite <- (Nat2Z.id k). rewrite TN by (unfold len in TL; lia). apply Hpx. unfold len in TL. lia. }
  destruct (C64_any m bits vals bd w h Q px {| da_skip := skip; da_lin := None; da_linlen := 0 |} wl rows dst U DO ltac:(lia) V15 ltac:(lia) Hw Hh ltac:(lia) HQ Hsk Hwl FI RB) as (A1 & A2 & A3 & A4 & A5 & i & Hi & (A6 & A7 & A8 & A9) & _ & A10).
  rewrite <- En in *. cbn [da_skip da_lin] in *. do 5 (split; [assumption|]). exists i. split; [exact Hi|]. split.
  - intros k Hk. rewrite (A6 k Hk). unfold converted. cbn [da_lin]. apply TN. lia.
  - split; [exact A7|]. split; [exact A8|]. split; [exact A9|]. destruct A10 as [A|[(_ & A & _)|A]]; [left; exact A|congruence|right; exact A].
Qed.

(* concrete cases: the file of C64_example with a table of 4001 entries - the 33rd sample, 4095, is the first one outside the first row that is too
   large: 32 samples are delivered - and the same samples with all the table can take *)
Definition C64_lin (n : Z) : dec_arg := {| da_skip := 3; da_lin := Some (fun v => 2 * v); da_linlen := n |}.
Example C64_any_example :
  let run n := lj_run_all 0 (fun k => if k <? 0 then 0 else nth (Z.to_nat k) C64_file 0) (len C64_file) (C64_lin n) 10 (fun _ => 0) (fun _ => 77) in
  la_dec (run 4000) = CORRUPT /\ map (fun k => la_img (run 4000) (tile_pos 10 3 (Z.of_nat k))) (seq 0 33) = map (fun p => trunc 16 (2 * p)) (firstn 32 C64_px) ++ [77] /\
  la_dec (run 4095) = NONE.
Proof. vm_compute. auto. Qed.
(* 3 x 2 samples decode, one row of 40 does not (C67_one_row) *)
Example C67_any_size_example :
  let '(r, m, n) := lj92_encode (fun k => 100 * k) 3 2 12 3 0 None (fun _ => 0) in
  let res := lj_run_all 0 m n {| da_skip := 0; da_lin := None; da_linlen := 0 |} 3 (fun _ => 0) (fun _ => 77) in
  r = NONE /\ (la_dec res, map (fun k => la_img res (Z.of_nat k)) (seq 0 7)) = (NONE, [0; 100; 200; 300; 400; 500; 77]).
Proof. vm_compute. auto. Qed.
