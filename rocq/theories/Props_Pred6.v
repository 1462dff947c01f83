(* C64: liblj92 decodes files with predictor 6 as T.81 says *)
From Verif Require Import Bits Spec Spec_Beta Spec_Lj92 Spec_P6 M_Lj92 M_Pred6 P_Lj92 P_Lj92b P_Lj92c P_Lj92d P_Fix P_Pred6 P_Pred6b Props_Frame Props_Lj92.
Ltac Zify.zify_post_hook ::= idtac.

(* lj92_open and lj92_decode (writeLength wl) on the file in d give the samples px, x columns and y rows: sample k is put at tile_pos k, nothing
   else of the target is touched, no array of the library is left, at most two bytes after the end of the file are read *)
Definition decodes6 (U : Z) (d : lmem) (file : list Z) (a : dec_arg) (wl : Z) (rows img : lmem) (bd x y : Z) (px : list Z) : Prop :=
  let res := lj_run_all U d (len file) a wl rows img in
  la_open res = NONE /\ la_dec res = NONE /\ la_x res = x /\ la_y res = y /\ la_bits res = bd /\ la_comp res = 1 /\
  (forall k, 0 <= k < x * y -> la_img res (tile_pos wl (da_skip a) k) = converted a (nth (Z.to_nat k) px 0)) /\
  (forall p, (forall k, 0 <= k < x * y -> p <> tile_pos wl (da_skip a) k) -> la_img res p = img p) /\
  la_oob res = false /\ la_hi res <= len file + 1.

Lemma setup6 d bits vals bd x y Q : byte_mem d -> dht_ok bits vals -> (length vals <= 200)%nat -> 0 <= x < 65536 -> 0 <= y < 65536 -> Forall is_byte Q ->
  let file := p6_file bits vals bd x y (stuff Q) in holds d 0 file ->
  exists d' h, lj92_open d (len file) = (NONE, d', h) /\ (forall k, d' k = d k) /\ byte_mem d' /\ opened1 bits vals bd x y h /\
  j_scan h + beh d' (j_scan h) = 46 + len vals /\
  (forall U dl a wl rows img, lj92_decode_all U d' dl h a wl rows img = (let (r, s) := parse_pred6 U d' dl h a wl rows img in (r, q_img s, q_nd s))) /\
  len file - 2 = 46 + len vals + len (stuff Q) /\ holds d' (46 + len vals) (stuff Q) /\ holds d' (len file - 2) [255; 0xd9] /\
  nd_inv d' (len file - 2) (stream 8 Q) {| n_b := 0; n_cnt := 0; n_ix := 46 + len vals; n_hi := 0; n_oob := false |}.
Proof.
  intros Hd Hok Hn Hx Hy HQ file HH.
  destruct (open_ok1 d bits vals bd x y (stuff Q) Hd Hok Hn Hx Hy HH) as (d' & h & EO & Fd & Op). exists d', h.
  split; [exact EO|]. split; [exact Fd|]. split; [intros k; rewrite Fd; apply Hd|]. split; [exact Op|].
  pose proof Hok as (L16 & Lv & _). set (n := len vals) in *. assert (Hn' : 0 <= n <= 200) by (unfold n, len; lia).
  assert (FL : len file = 48 + n + len (stuff Q)).
  { unfold file, p6_file, dht, sof3_1, sos_6, be16. unfold len, n. rewrite !app_length, map_length, L16. cbn [length]. unfold len. lia. }
  assert (HH' := HH). unfold file, p6_file in HH'. rewrite !app_assoc in HH'. rewrite <- (app_assoc _ (stuff Q)) in HH'. apply holds_app in HH'. destruct HH' as [Hh Hs].
  assert (HL : len ((([255; 216] ++ dht bits vals) ++ sof3_1 bd x y) ++ sos_6) = 46 + n).
  { unfold dht, sof3_1, sos_6, be16. unfold len, n. rewrite !app_length, map_length, L16. cbn [length]. unfold len. lia. }
  rewrite HL in Hs. rewrite Z.add_0_l in Hs. apply holds_app in Hs. destruct Hs as [Hs Ht]. apply holds_app in Hh. destruct Hh as [_ Hh].
  assert (HL2 : len (([255; 216] ++ dht bits vals) ++ sof3_1 bd x y) = 36 + n).
  { unfold dht, sof3_1, be16. unfold len, n. rewrite !app_length, map_length, L16. cbn [length]. unfold len. lia. }
  rewrite HL2 in Hh. unfold sos_6, be16 in Hh. cbn [app] in Hh. do 9 hc Hh. destruct Op as (Jx & Jy & Jb & Jc & Js & Jl).
  assert (Eb : beh d' (38 + n) = 8).
  { apply beh_be16; [lia| |]; rewrite Fd; [rewrite <- (eq_trans B1 (eq_refl : 8 / 256 = 8 / 256))|rewrite <- B2]; f_equal; lia. }
  split; [rewrite Js; fold n; rewrite Eb; lia|]. split.
  { intros U dl a wl rows img. unfold lj92_decode_all, lj92_decode. rewrite Js. fold n.
    assert (Ec : d' (38 + n + 2) = 1) by (rewrite Fd; rewrite <- B3; f_equal; lia). rewrite Ec.
    assert (Ep : d' (38 + n + 3 + 2 * 1) = 6) by (rewrite Fd; rewrite <- B6; f_equal; lia). rewrite Ep.
    change (7 <? 6) with false. change (6 =? 6) with true. cbn beta iota. reflexivity. }
  split; [lia|]. split; [apply (holds_ext d); assumption|]. split.
  { apply (holds_ext d); [exact Fd|]. replace (len file - 2) with (46 + n + len (stuff Q)) by lia. exact Ht. }
  unfold nd_inv. cbn [n_cnt n_b n_hi n_ix]. change (2 ^ 0) with 1. split; [lia|]. split; [lia|]. split; [unfold len in *; lia|].
  left. exists Q. split; [exact HQ|]. split; [apply (holds_ext d); assumption|]. split; [lia|reflexivity].
Qed.

(* Every file of the format, at least 25 samples wide and two rows high, is decoded as T.81 says. *)
Theorem C64_decode : forall d bits vals bd x y Q px a wl rows img U,
  dht_ok bits vals -> (length vals <= 200)%nat -> Forall (fun v => v <= 15) vals ->
  1 <= bd -> 25 <= x < 65536 -> 2 <= y < 65536 -> x * y < 2 ^ 31 -> Forall is_byte Q -> 0 <= da_skip a -> 2 <= wl ->
  file_in d (p6_file bits vals bd x y (stuff Q)) ->
  read_samples (book_of bits vals) bd x (Z.to_nat (x * y)) [] (stream 8 Q) = Some px ->
  (da_lin a <> None -> Forall (fun p => p <= da_linlen a) px) ->
  decodes6 U d (p6_file bits vals bd x y (stuff Q)) a wl rows img bd x y px.
Proof.
  intros d bits vals bd x y Q px a wl rows img U Hok Hn Hv Hbd Hx Hy HXY HQ Hskip Hwl [Hd HH] ED Hlin.
  destruct (setup6 d bits vals bd x y Q Hd Hok Hn ltac:(lia) ltac:(lia) HQ HH) as (d' & h & EO & Fd & Hd' & (Jx & Jy & Jb & Jc & Js & Jl) & Ei & EDec & _ & _ & _ & HI).
  set (file := p6_file bits vals bd x y (stuff Q)) in *. set (E := len file - 2) in *.
  assert (Hpx : len px = j_x h * j_y h). { apply read_samples_len in ED. destruct ED as [L _]. cbn [length] in L. unfold len. rewrite Jx, Jy. nia. }
  destruct (pred6_ok d' Hd' E U h bits vals Hok Jl Hv px img a wl Hskip Hwl ltac:(lia) (j_y h) Hpx ltac:(lia) ltac:(lia) Hlin (len file) rows (stream 8 Q)) as (s' & E1 & R & P); try lia.
  - rewrite (pixels_small h) by (rewrite Jx, Jy; nia). reflexivity.
  - rewrite Ei. exact HI.
  - unfold sinv. rewrite Jx, Jy, Jb, Z.sub_0_r. exact ED.
  - unfold decodes6, lj_run_all. fold file. rewrite EO, EDec, E1. cbv zeta. cbn [la_open la_dec la_x la_y la_bits la_comp la_img la_oob la_hi].
    rewrite Jx, Jy in P. destruct P as ((_ & _ & P1 & _) & P2 & _ & _ & P3 & P4).
    do 2 (split; [reflexivity|]). do 4 (split; [assumption|]). split; [exact P3|]. split; [exact P4|]. split; [exact P2|]. unfold E in P1. lia.
Qed.

(* ------------------------------------------------------------------ a concrete case: 25 x 2 samples of 12 bits, skip 3 after every run of 10 samples *)
Definition C64_bits : list nat := [0; 0; 0; 12; 4; 0; 0; 0; 0; 0; 0; 0; 0; 0; 0; 0]%nat.
Definition C64_vals : list Z := map Z.of_nat (seq 0 16).
Definition C64_px : list Z := [0; 4095; 17; 2048; 2048; 2047; 100; 101; 5; 6; 7; 8; 4095; 0; 4095; 0; 1; 2; 3; 4; 4000; 3000; 2000; 1000; 1;
  1; 1; 1; 9; 8; 7; 6; 4095; 4095; 4095; 0; 0; 0; 2000; 2001; 2002; 1500; 1000; 500; 250; 125; 62; 31; 15; 7].
Definition C64_Q : list Z := pack 8 (write_samples (book_of C64_bits C64_vals) 12 25 [] C64_px).
Definition C64_file : list Z := p6_file C64_bits C64_vals 12 25 2 (stuff C64_Q).
Definition C64_arg : dec_arg := {| da_skip := 3; da_lin := None; da_linlen := 0 |}.
Example C64_example :
  dht_ok C64_bits C64_vals /\ Forall is_byte C64_Q /\ file_in (fun k => if k <? 0 then 0 else nth (Z.to_nat k) C64_file 0) C64_file /\
  read_samples (book_of C64_bits C64_vals) 12 25 50 [] (stream 8 C64_Q) = Some C64_px /\
  (let r := lj_run_all 0 (fun k => if k <? 0 then 0 else nth (Z.to_nat k) C64_file 0) (len C64_file) C64_arg 10 (fun _ => 0) (fun _ => 77) in
   la_dec r = NONE /\ la_hi r <= len C64_file + 1 /\
   map (fun k => la_img r (Z.of_nat k)) (seq 0 65) =
     firstn 10 C64_px ++ [77; 77; 77] ++ firstn 10 (skipn 10 C64_px) ++ [77; 77; 77] ++ firstn 10 (skipn 20 C64_px) ++ [77; 77; 77]
     ++ firstn 10 (skipn 30 C64_px) ++ [77; 77; 77] ++ skipn 40 C64_px ++ [77; 77; 77]).
Proof.
  assert (HB : forall l, forallb (fun z => (0 <=? z) && (z <? 256)) l = true -> Forall is_byte l).
  { intros l H. rewrite forallb_forall in H. apply Forall_forall. intros z Hz. apply H in Hz. unfold is_byte. lia. }
  split. { unfold dht_ok. split; [reflexivity|]. split; [reflexivity|]. split; [discriminate|]. split; [|vm_compute; discriminate].
    apply Forall_forall. intros v Hv. unfold C64_vals in Hv. apply in_map_iff in Hv. destruct Hv as (k & <- & Hk). apply in_seq in Hk. lia. }
  split; [apply HB; vm_compute; reflexivity|]. split.
  { assert (HF : Forall is_byte C64_file) by (apply HB; vm_compute; reflexivity). split.
    - intros k. destruct (k <? 0); [lia|]. destruct (nth_in_or_default (Z.to_nat k) C64_file 0) as [Hin|E]; [|lia]. rewrite Forall_forall in HF. apply HF in Hin. exact Hin.
    - intros k Hk. rewrite Z.add_0_l. replace (Z.of_nat k <? 0) with false by lia. rewrite Nat2Z.id. reflexivity. }
  vm_compute. repeat split; discriminate.
Qed.
