(* C87: predictor 6 when the number of samples does not fit a C int (lj92.c:409), and when there are no columns *)
From Verif Require Import Bits Spec Spec_Beta Spec_Lj92 Spec_P6 Spec_Pn M_Lj92 M_Pred6 P_Lj92 P_Lj92b P_Lj92c P_Lj92d P_I3 P_Fix P_Decode P_Pack P_Pred6 P_Pred6b P_Open P_ScanN P_Rob P_Rob2 P_Rob3 P_Rob4
  Props_Frame Props_Lj92 Props_Pred6 Props_ScanN Props_ScanN2 Props_Any6 Props_Rob.
Ltac Zify.zify_post_hook ::= idtac.

(* a file of 2^31 or more samples of which the first two rows can be read: lj92_decode answers NONE (success) after the first row *)
Theorem C87_too_many : forall d bits vals bd x y Q px a wl rows img U,
  dht_ok bits vals -> (length vals <= 200)%nat -> Forall (fun v => v <= 15) vals ->
  1 <= bd -> x < 65536 -> y < 65536 -> 2 ^ 31 <= x * y -> 0 < x -> Forall is_byte Q -> 0 <= da_skip a -> 2 <= wl ->
  let file := p6_file bits vals bd x y (stuff Q) in
  file_in d file ->
  read_samples (book_of bits vals) bd x (Z.to_nat (x * 2)) [] (stream 8 Q) = Some px ->
  let res := lj_run_all U d (len file) a wl rows img in
  la_open res = NONE /\ la_x res = x /\ la_y res = y /\ la_dec res = NONE /\ delivered res file a wl img px x.
Proof.
  intros d bits vals bd x y Q px a wl rows img U Hok Hn Hv Hbd Hx Hy HXY Hx0 HQ Hskip Hwl file [Hd HH] ED.
  assert (X : 32769 <= x) by nia. assert (Y : 32769 <= y) by nia.
  destruct (setup6 d bits vals bd x y Q Hd Hok Hn ltac:(lia) ltac:(lia) HQ HH) as (d' & h & EO & Fd & Hd' & (Jx & Jy & Jb & Jc & Js & Jl) & Ei & EDec & _ & _ & _ & HI).
  fold file in EO, HI. set (E := len file - 2) in *.
  assert (Hpx : len px = j_x h * 2). { apply read_samples_len in ED. destruct ED as [L _]. cbn [length] in L. unfold len. rewrite Jx. nia. }
  destruct (pred6_wrap d' Hd' E U h bits vals Hok Jl Hv px img a wl Hskip Hwl ltac:(lia) 2 Hpx ltac:(lia) ltac:(lia) (len file) rows (stream 8 Q)) as (s' & E1 & R & F1 & F2 & F3 & F4 & F5 & F6); try lia.
  - rewrite pixels_big by (rewrite Jx, Jy; nia). rewrite Jx, Jy. nia.
  - rewrite Ei. exact HI.
  - unfold sinv. rewrite Jx, Jb, Z.sub_0_r. exact ED.
  - unfold delivered, lj_run_all. rewrite EO, EDec, E1. cbv zeta. cbn [la_open la_dec la_x la_y la_bits la_comp la_img la_oob la_hi]. rewrite Jx in *.
    repeat split; auto. destruct F1 as (_ & _ & F1 & _). unfold E in F1. lia.
Qed.

(* the same with any header layout and any number N >= 1 of components (the scan read as one component, which is what predictor 6 does) *)
Theorem C87_too_many_n : forall d segs sel tail bits vals bd x y N Q px a wl rows img U,
  wf_header segs sel tail bits vals bd x y N -> Forall (fun v => v <= 15) vals -> 1 <= N <= 255 ->
  1 <= bd -> 2 ^ 31 <= x * y -> Forall is_byte Q -> 0 <= da_skip a -> 2 <= wl ->
  let file := pn_file segs 6 sel tail (stuff Q) in
  file_in d file ->
  read_samples (book_of bits vals) bd x (Z.to_nat (x * 2)) [] (stream 8 Q) = Some px ->
  let res := lj_run_all U d (len file) a wl rows img in
  la_open res = NONE /\ la_x res = x /\ la_y res = y /\ la_dec res = NONE /\ delivered res file a wl img px x.
Proof.
  intros d segs sel tail bits vals bd x y N Q px a wl rows img U Hh Hv HN Hbd HXY HQ Hskip Hwl file [Hd HH] ED.
  destruct (setup_n d segs 6 sel tail bits vals bd x y N Q Hd Hh ltac:(lia) ltac:(lia) HQ HH) as (d' & h & ix & EO & Hd' & (Jx & Jy & Jb & Jc & _ & Jl) & Hok & Hx2 & Hy2 & Ei & Ep & _ & HI).
  assert (X : 32769 <= x) by nia. assert (Y : 32769 <= y) by nia.
  fold file in EO, HI. set (E := len file - 2) in *.
  assert (Hpx : len px = j_x h * 2). { apply read_samples_len in ED. destruct ED as [L _]. cbn [length] in L. unfold len. rewrite Jx. nia. }
  destruct (pred6_wrap d' Hd' E U h bits vals Hok Jl Hv px img a wl Hskip Hwl ltac:(lia) 2 Hpx ltac:(lia) ltac:(lia) (len file) rows (stream 8 Q)) as (s' & E1 & R & F1 & F2 & F3 & F4 & F5 & F6); try lia.
  - rewrite pixels_big by (rewrite Jx, Jy; nia). rewrite Jx, Jy. nia.
  - rewrite Ei. exact HI.
  - unfold sinv. rewrite Jx, Jb, Z.sub_0_r. exact ED.
  - unfold delivered, lj_run_all. rewrite EO. unfold lj92_decode_all, lj92_decode. rewrite Ep. change (7 <? 6) with false. change (6 =? 6) with true. cbn beta iota. rewrite E1.
    cbv zeta. cbn [la_open la_dec la_x la_y la_bits la_comp la_img la_oob la_hi]. rewrite Jx in *.
    repeat split; auto. destruct F1 as (_ & _ & F1 & _). unfold E in F1. lia.
Qed.

(* a file that declares no columns, predictor 6: the decoder leaves one of its arrays (the row it writes to has no element) *)
Theorem C87_no_columns : forall U d dl a wl rows img, byte_mem d -> 0 <= dl -> predictor_of d dl = 6 ->
  let res := lj_run_all U d dl a wl rows img in la_x res = 0 -> la_oob res = true.
Proof.
  intros U d dl a wl rows img Hd Hdl Hp. cbv zeta. unfold predictor_of in Hp. unfold lj_run_all. destruct (lj92_open d dl) as [[r d'] h].
  unfold lj92_decode_all, lj92_decode. cbv zeta. rewrite Hp. change (7 <? 6) with false. change (6 =? 6) with true. cbn beta iota. intros HN.
  assert (K : n_oob (q_nd (snd (parse_pred6 U d' dl h a wl rows img))) = true).
  { destruct (parse_pred6 U d' dl h a wl rows img) as [r2 s] eqn:E. cbn [la_x] in HN. rewrite <- E. clear E.
    apply (pred6_keep d' U dl h a wl (fun s => n_oob (q_nd s) = true)); try (intros z H; exact H).
    - intros chk px ok z H. unfold p6_put. pose proof (nextdiff_oob d' U (j_huffbits h) (j_lut h) (q_nd z) H) as MO. destruct (nextdiff U d' (j_huffbits h) (j_lut h) (q_nd z)) as [diff nd]. cbn [snd] in MO. 
      destruct (da_lin a) as [f|]; [destruct (chk && _)|]; cbn [q_nd n_oob]; rewrite MO; reflexivity.
    - unfold p6_put. cbn [q_nd q_this q_col q_out q_c q_rows q_img]. destruct (nextdiff U d' (j_huffbits h) (j_lut h) _) as [diff nd]. cbn [andb]. unfold row_ok. rewrite HN, Z.mul_0_l. change ((0 <=? 0 + 0) && (0 + 0 <? 0)) with false. cbn [negb].
      destruct (da_lin a); cbn [q_nd n_oob]; rewrite orb_true_r; reflexivity. }
  destruct (parse_pred6 U d' dl h a wl rows img) as [r2 s]. exact K.
Qed.

(* ------------------------------------------------------------------ a concrete case: 32769 columns, 65535 rows, all samples 2048 (one bit each) *)
Definition C87_bits : list nat := [2; 0; 0; 0; 0; 0; 0; 0; 0; 0; 0; 0; 0; 0; 0; 0]%nat.
Definition C87_Q : list Z := repeat 0 (Z.to_nat 8193).
Definition C87_px : list Z := repeat 2048 (Z.to_nat (32769 * 2)).
Definition C87_file : list Z := p6_file C87_bits [0; 1] 12 32769 65535 (stuff C87_Q).

Lemma repeat_len {A} (v : A) n : len (repeat v n) = Z.of_nat n.
Proof. unfold len. rewrite repeat_length. reflexivity. Qed.
Lemma repeat_nth (v d : Z) n k : (k < n)%nat -> nth k (repeat v n) d = v.
Proof. revert k. induction n as [|n IH]; intros [|k] Hk; cbn [repeat nth]; try lia; auto. apply IH. lia. Qed.
Lemma C87_pred k : pred6 12 32769 (repeat 2048 k) = 2048.
Proof.
  unfold pred6. rewrite repeat_len. destruct (Z.eqb_spec (Z.of_nat k) 0) as [|N]; [reflexivity|].
  destruct (Z.ltb_spec (Z.of_nat k) 32769); [apply repeat_nth; lia|].
  destruct (_ =? 0); [apply repeat_nth; lia|]. rewrite !repeat_nth by lia. reflexivity.
Qed.
Lemma C87_diff l : read_diff (book_of C87_bits [0; 1]) (false :: l) = Some (0, l).
Proof. unfold read_diff, book_of. vm_compute (annexC _ _ _). cbn. reflexivity. Qed.
Lemma C87_reads n : forall k m, (n <= m)%nat -> read_samples (book_of C87_bits [0; 1]) 12 32769 n (repeat 2048 k) (repeat false m) = Some (repeat 2048 (k + n)).
Proof.
  induction n as [|n IH]; intros k m Hm; cbn [read_samples]; [rewrite Nat.add_0_r; reflexivity|].
  destruct m as [|m]; [lia|]. cbn [repeat]. rewrite C87_diff, C87_pred. change ((2048 + 0) mod 2 ^ 16) with 2048.
  change (repeat 2048 k ++ [2048]) with (repeat 2048 k ++ repeat 2048 1). rewrite <- repeat_app, IH by lia. f_equal. f_equal. lia.
Qed.
Lemma C87_stream n : stream 8 (repeat 0 n) = repeat false (8 * n).
Proof. induction n as [|n IH]; [reflexivity|]. replace (8 * S n)%nat with (8 + 8 * n)%nat by lia. rewrite repeat_app, <- IH. reflexivity. Qed.

Lemma bytes_b l : forallb (fun z => (0 <=? z) && (z <? 256)) l = true -> Forall is_byte l.
Proof. intros H. rewrite forallb_forall in H. apply Forall_forall. intros z Hz. apply H in Hz. unfold is_byte. lia. Qed.

Example C87_example :
  let bits := C87_bits in let vals := [0; 1] in
  dht_ok bits vals /\ (length vals <= 200)%nat /\ Forall (fun v => v <= 15) vals /\ 2 ^ 31 <= 32769 * 65535 /\ Forall is_byte C87_Q /\
  file_in (fun k => if k <? 0 then 0 else nth (Z.to_nat k) C87_file 0) C87_file /\
  read_samples (book_of bits vals) 12 32769 (Z.to_nat (32769 * 2)) [] (stream 8 C87_Q) = Some C87_px /\
  (let r := lj_run_all 0 (fun k => if k <? 0 then 0 else nth (Z.to_nat k) C87_file 0) (len C87_file) C64_arg 32769 (fun _ => 0) (fun _ => 77) in
   la_dec r = NONE /\ la_img r 0 = 2048 /\ la_img r 32768 = 2048 /\ la_img r 32769 = 77 /\ la_img r 40000 = 77).
Proof.
  cbv zeta.
  assert (H1 : dht_ok C87_bits [0; 1]). { split; [reflexivity|]. split; [reflexivity|]. split; [discriminate|]. split; [repeat constructor; lia|vm_compute; discriminate]. }
  assert (H2 : (length [0; 1] <= 200)%nat) by (cbn; lia). assert (H3 : Forall (fun v => v <= 15) [0; 1]) by (repeat constructor; lia). assert (H4 : 2 ^ 31 <= 32769 * 65535) by lia.
  assert (H5 : Forall is_byte C87_Q). { apply Forall_forall. intros z Hz. apply repeat_spec in Hz. subst z. unfold is_byte. lia. }
  assert (H6 : file_in (fun k => if k <? 0 then 0 else nth (Z.to_nat k) C87_file 0) C87_file).
  { assert (S0 : forall n, stuff (repeat 0 n) = repeat 0 n). { induction n as [|n IH]; [reflexivity|]. cbn [repeat]. unfold stuff in *. cbn [flat_map]. rewrite IH. reflexivity. }
    assert (HF : Forall is_byte C87_file).
    { unfold C87_file, p6_file. unfold C87_Q. rewrite S0. assert (HR : forall n, Forall is_byte (repeat 0 n)) by (intros n; apply Forall_forall; intros z Hz; apply repeat_spec in Hz; subst z; unfold is_byte; lia).
      pose proof (HR (Z.to_nat 8193)) as HQ. generalize dependent (repeat 0 (Z.to_nat 8193)). intros q HQ. rewrite !Forall_app. repeat apply conj; try exact HQ; apply bytes_b; vm_compute; reflexivity. }
    split.
    - intros k. destruct (k <? 0); [lia|]. destruct (nth_in_or_default (Z.to_nat k) C87_file 0) as [Hin|E]; [|lia]. rewrite Forall_forall in HF. apply HF in Hin. exact Hin.
    - intros k Hk. rewrite Z.add_0_l. replace (Z.of_nat k <? 0) with false by lia. rewrite Nat2Z.id. reflexivity. }
  assert (H7 : read_samples (book_of C87_bits [0; 1]) 12 32769 (Z.to_nat (32769 * 2)) [] (stream 8 C87_Q) = Some C87_px).
  { unfold C87_Q, C87_px. rewrite C87_stream. change (@nil Z) with (repeat 2048 0). apply C87_reads. lia. }
  do 4 (split; [assumption|]). split; [exact H5|]. split; [exact H6|]. split; [exact H7|].
  pose proof (C87_too_many _ C87_bits [0; 1] 12 32769 65535 C87_Q C87_px C64_arg 32769 (fun _ => 0) (fun _ => 77) 0 H1 H2 H3 ltac:(lia) ltac:(lia) ltac:(lia) H4 ltac:(lia) H5 ltac:(cbn; lia) ltac:(lia) H6 H7) as (_ & _ & _ & D & F1 & F2 & _).
  split; [exact D|]. cbn [C64_arg da_skip] in F1, F2.
  assert (T : forall k, 0 <= k < 32769 -> tile_pos 32769 3 k = k) by (intros k Hk; unfold tile_pos; rewrite Z.div_small by lia; lia).
  split; [|split; [|split]].
  - specialize (F1 0 ltac:(lia)). rewrite T in F1 by lia. refine (eq_trans F1 _). unfold C87_px. rewrite repeat_nth by lia. reflexivity.
  - specialize (F1 32768 ltac:(lia)). rewrite T in F1 by lia. refine (eq_trans F1 _). unfold C87_px. rewrite repeat_nth by lia. reflexivity.
  - apply F2. intros k Hk. rewrite T by lia. lia.
  - apply F2. intros k Hk. rewrite T by lia. lia.
Qed.
