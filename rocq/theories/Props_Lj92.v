(* C54-C58: the decoder shipped with the core (liblj92) *)
From Verif Require Import Bits Spec Spec_Core Spec_Beta Spec_Lj92 M_Config M_Encode M_I1 M_Fifo M_I3 M_Fix M_Markers M_Beta M_Predictor M_Lj92
  P_Encode P_Tokens P_I3 P_Decode P_Run P_Live P_Fix P_Markers Props_Arith Props_Core Props_Frame P_Pack P_Beta Props_Beta
  P_Lj92 P_Lj92b P_Lj92c P_Lj92d.
Ltac Zify.zify_post_hook ::= idtac.

(* what the library does with a file: lj92_open, then lj92_decode into the image img (an array of 16-bit samples), skip samples
   between rows, an optional linearization table.  Result: return codes, width/height/bitdepth/components reported,
   image afterwards, largest file index read while decoding the scan, array overrun *)
Record lj_result := { lr_open : Z; lr_x : Z; lr_y : Z; lr_bits : Z; lr_comp : Z; lr_dec : Z; lr_img : lmem; lr_hi : Z; lr_oob : bool }.
Definition lj_run (U : Z) (d : lmem) (dl : Z) (a : dec_arg) (rows img : lmem) : option lj_result :=
  let '(r, d', h) := lj92_open d dl in
  match lj92_decode U d' h a rows img with
  | None => None
  | Some (r2, s) => Some {| lr_open := r; lr_x := j_x h; lr_y := j_y h; lr_bits := j_bits h; lr_comp := j_comp h; lr_dec := r2; lr_img := s_img s;
                            lr_hi := n_hi (s_nd s); lr_oob := n_oob (s_nd s) |}
  end.
(* the buffer given to the library: the bytes of the file, then whatever bytes are in memory after it *)
Definition file_in (d : lmem) (file : list Z) : Prop := (forall k, 0 <= d k < 256) /\ holds d 0 file.
Definition converted (a : dec_arg) (p : Z) : Z := match da_lin a with None => p | Some f => f p end.

(* ------------------------------------------------------------------ after lj92_open *)

Definition scan_start (n ix x : Z) (rows img : lmem) : sc_st :=
  {| s_nd := {| n_b := 0; n_cnt := 0; n_ix := ix; n_hi := 0; n_oob := false |}; s_rows := rows; s_img := img; s_left := 0; s_this := 0; s_last := x; s_out := 0 |}.
Lemma decode_setup d bits vals bd x y Q : byte_mem d -> dht_ok bits vals -> (length vals <= 200)%nat -> 0 <= x < 65536 -> 0 <= y < 65536 -> Forall is_byte Q ->
  let file := lj_file bits vals bd x y (stuff Q) in holds d 0 file ->
  exists d' h, lj92_open d (len file) = (NONE, d', h) /\ (forall k, d' k = d k) /\ byte_mem d' /\ opened bits vals bd x y h /\
  let E := len file - 2 in let ix := 61 + len vals in
  (forall U a rows img, lj92_decode U d' h a rows img =
     match for_loop (Z.to_nat y) 0 (scan_row U d' h 1 a) (scan_start (len vals) ix x rows img) with
     | None => Some (CORRUPT, scan_stop U d' h 1 a (scan_start (len vals) ix x rows img)) | Some s => Some (NONE, s) end) /\
  forall rows img, nd_inv d' E (stream 8 Q) (s_nd (scan_start (len vals) ix x rows img)).
Proof.
  intros Hd Hok Hn Hx Hy HQ file HH.
  destruct (open_ok d bits vals bd x y (stuff Q) Hd Hok Hn Hx Hy HH) as (d' & h & EO & Fd & Op). exists d', h.
  split; [exact EO|]. split; [exact Fd|]. split; [intros k; rewrite Fd; apply Hd|]. split; [exact Op|]. cbv zeta.
  pose proof Hok as (L16 & Lv & _). set (n := len vals) in *. assert (Hn' : 0 <= n <= 200) by (unfold n, len; lia).
  assert (FL : len file = 63 + n + len (stuff Q)).
  { unfold file, lj_file, lj_header, dht, sof3, sos, be16. unfold len, n. rewrite !app_length, map_length, L16. cbn [length]. unfold len. lia. }
  assert (HH' := HH). unfold file, lj_file in HH'. apply holds_app in HH'. destruct HH' as [Hh Hs].
  unfold lj_header in Hh. rewrite !app_assoc in Hh. apply holds_app in Hh. destruct Hh as [_ Hh].
  assert (HL : len (([255; 216] ++ dht bits vals) ++ sof3 bd x y) = 45 + n).
  { unfold dht, sof3, be16. unfold len, n. rewrite !app_length, map_length, L16. cbn [length]. unfold len. lia. }
  rewrite HL in Hh. replace (0 + len (lj_header bits vals bd x y)) with (61 + n) in Hs.
  2:{ unfold lj_header. rewrite !app_assoc. unfold len. rewrite app_length. unfold len in HL. rewrite Nat2Z.inj_add, HL. unfold sos, be16. cbn [app length]. lia. }
  apply holds_app in Hs. destruct Hs as [Hs _].
  unfold sos, be16 in Hh. cbn [app] in Hh. do 14 hc Hh. destruct Op as (Jx & Jy & Jb & Jc & Js & Jl). split.
  - intros U a rows img. unfold lj92_decode. rewrite Js, Jx, Jy. fold n.
    assert (Ec : d' (47 + n + 2) = 4) by (rewrite Fd; rewrite <- B3; f_equal; lia). rewrite Ec.
    assert (Ep : d' (47 + n + 3 + 2 * 4) = 1) by (rewrite Fd; rewrite <- B12; f_equal; lia). rewrite Ep.
    assert (Eb : beh d' (47 + n) = 14).
    { apply beh_be16; [lia| |]; rewrite Fd; [rewrite <- (eq_trans B1 (eq_refl : 14 / 256 = 14 / 256))|rewrite <- B2]; f_equal; lia. }
    rewrite Eb. change (7 <? 1) with false. change (1 =? 6) with false. cbn beta iota. unfold scan_start. replace (47 + n + 14) with (61 + n) by lia. reflexivity.
  - intros rows img. unfold nd_inv, scan_start. cbn [s_nd n_cnt n_b n_hi n_ix]. change (2 ^ 0) with 1. split; [lia|]. split; [lia|]. split; [unfold len in *; lia|].
    left. exists Q. split; [exact HQ|]. split; [apply (holds_ext d); assumption|]. split; [lia|reflexivity].
Qed.

(* ------------------------------------------------------------------ C54 *)

(* the library decodes the file in d to the samples px, x columns of four samples and y rows, and does nothing else: image written row by
   row, nothing outside touched, no array of the library left, at most two bytes after the end of the file read *)
Definition decodes (U : Z) (d : lmem) (file : list Z) (a : dec_arg) (rows img : lmem) (bd x y : Z) (px : list Z) : Prop :=
  exists res, lj_run U d (len file) a rows img = Some res /\
  lr_open res = NONE /\ lr_dec res = NONE /\ lr_x res = x /\ lr_y res = y /\ lr_bits res = bd /\ lr_comp res = 4 /\
  (forall r j, 0 <= r < y -> 0 <= j < 4 * x -> lr_img res (r * (4 * x + da_skip a) + j) = converted a (nth (Z.to_nat (r * (4 * x) + j)) px 0)) /\
  (forall p, (forall r j, 0 <= r < y -> 0 <= j < 4 * x -> p <> r * (4 * x + da_skip a) + j) -> lr_img res p = img p) /\
  lr_oob res = false /\ lr_hi res <= len file + 1.

(* Every file of the format is decoded as T.81 says. *)
Theorem C54_decode : forall d bits vals t bd x y Q px a rows img U,
  dht_ok bits vals -> (length vals <= 200)%nat -> described_by t bits vals -> len t <= 16 ->
  4 <= x < 65536 -> 0 <= y < 65536 -> Forall is_byte Q -> 0 <= da_skip a ->
  file_in d (lj_file bits vals bd x y (stuff Q)) ->
  decode_frame t bd (4 * x) y (stream 8 Q) = Some px ->
  (da_lin a <> None -> Forall (fun p => p <= da_linlen a) px) ->
  decodes U d (lj_file bits vals bd x y (stuff Q)) a rows img bd x y px.
Proof.
  intros d bits vals t bd x y Q px a rows img U Hok Hn Ht Htl Hx Hy HQ Hskip [Hd HH] ED Hlin.
  destruct (decode_setup d bits vals bd x y Q Hd Hok Hn ltac:(lia) Hy HQ HH) as (d' & h & EO & Fd & Hd' & (Jx & Jy & Jb & Jc & Js & Jl) & EDec & HI). cbv zeta in EDec, HI.
  set (file := lj_file bits vals bd x y (stuff Q)) in *. set (E := len file - 2) in *. unfold decode_frame in ED.
  assert (Hpx : len px = 4 * x * y). { apply ref_decode_len in ED. destruct ED as [L _]. cbn [length] in L. unfold len. nia. }
  pose proof Hok as (_ & Hlv & _).
  assert (Hd0 : 0 < 4 * x) by lia.
  destruct (scan_gen d' U h bits vals a Hlv Jc ltac:(rewrite Jx; lia) ltac:(rewrite Jy; lia)
    (fun r col c s => ptrs h a r s /\ exists R, row_inv d' E h px img a r col c R s /\
       ref_decode t bd (4 * x) (Z.to_nat (4 * x * y - (r * (4 * x) + 4 * col + c))) (firstn (Z.to_nat (r * (4 * x) + 4 * col + c)) px) R = Some px)) with (s := scan_start (len vals) (61 + len vals) x rows img) as (s' & EF & HP & R & (B & _ & _) & _).
  - intros r col c s Hr Hcol Hc (HP & R & HR & ER). rewrite Jx in Hcol. rewrite Jy in Hr.
    set (i := r * (4 * x) + 4 * col + c) in *. assert (Hi : 0 <= i < 4 * x * y) by (unfold i; nia).
    destruct (Z.to_nat (4 * x * y - i)) as [|m] eqn:Em; [lia|]. cbn [ref_decode] in ER.
    assert (Lf : length (firstn (Z.to_nat i) px) = Z.to_nat i) by (rewrite firstn_length; unfold len in Hpx; lia).
    rewrite Lf, Z2Nat.id in ER by lia. destruct (decode_diff t R) as [[dv rest]|] eqn:EDf; [|discriminate].
    destruct (ref_decode_len _ _ _ _ _ _ _ ER) as [Lpx Fpx]. rewrite app_length, Lf in Lpx, Fpx. cbn [length] in Lpx, Fpx.
    destruct (sample_ok d' Hd' E U h bits vals t px img a Jl Hlv Ht ltac:(lia) Jc ltac:(rewrite Jx; lia) ltac:(rewrite Jy; lia) Hskip Hlin ltac:(rewrite Jx, Jy; exact Hpx)
      r col c R s dv rest ltac:(rewrite Jy; lia) ltac:(rewrite Jx; lia) Hc HP HR EDf (decode_diff_small t R dv rest Htl EDf)) as (s1 & S1 & S2 & S3).
    + rewrite Jx, Jb. fold i. rewrite <- (nth_firstn 0 (Z.to_nat i + 1)) by lia. rewrite Fpx, app_nth2 by lia. rewrite Lf, Nat.sub_diag. reflexivity.
    + intros _ _. right. lia.
    + exists s1. split; [exact S1|]. split; [exact S2|]. exists rest. split; [exact S3|]. replace (r * (4 * x) + 4 * col + (c + 1)) with (i + 1) by (unfold i; lia).
      replace (Z.to_nat (4 * x * y - (i + 1))) with m by lia. replace (Z.to_nat (i + 1)) with (Z.to_nat i + 1)%nat by lia. rewrite Fpx. exact ER.
  - intros r col s Hr Hcol (HP & R & HR & ER). split; [exact HP|]. exists R. split; [apply (row_carry d' E h bits vals); [exact Hlv|lia|exact HR]|].
    replace (r * (4 * x) + 4 * (col + 1) + 0) with (r * (4 * x) + 4 * col + 4) by lia. exact ER.
  - intros r s Hr (HP & R & HR & ER). split; [apply (ptrs_swap h bits vals); assumption|]. exists R. split; [apply (row_end d' E h bits vals); [exact Hlv|rewrite Jx; lia|exact Hr|exact HR]|].
    replace ((r + 1) * (4 * x) + 4 * 0 + 0) with (r * (4 * x) + 4 * j_x h + 0) by (rewrite Jx; lia). exact ER.
  - split; [unfold ptrs, scan_start; cbn [s_out s_this s_last]; change (Z.even 0) with true; rewrite Jx; auto|]. exists (stream 8 Q). split.
    + split; [|split; intros; lia]. constructor; cbn [scan_start s_nd s_img n_oob]; [apply (HI rows img)|reflexivity|intros; lia|reflexivity].
    + cbn [Z.mul Z.add]. rewrite Z.sub_0_r. exact ED.
  - rewrite Jy in EF. specialize (EDec U a rows img). rewrite EF in EDec. unfold decodes, lj_run. fold file. rewrite EO, EDec. eexists. split; [reflexivity|].
    cbn [lr_open lr_dec lr_x lr_y lr_bits lr_comp lr_img lr_oob lr_hi]. do 2 (split; [reflexivity|]). do 4 (split; [assumption|]).
    destruct B as [B1 B2 B3 B4]. rewrite Jx in *. rewrite Jy in *. replace (y * (4 * x) + 4 * 0 + 0) with (4 * x * y) in * by lia. unfold pos_of in B3, B4. rewrite Jx in B3, B4.
    split; [|split; [|split; [exact B2|]]].
    + intros r j Hr Hj. specialize (B3 (r * (4 * x) + j) ltac:(nia)).
      assert (Em : (r * (4 * x) + j) mod (4 * x) = j) by (rewrite Z.add_comm, Z.mod_add by lia; apply Z.mod_small; lia).
      assert (Ev : (r * (4 * x) + j) / (4 * x) = r) by (rewrite Z.add_comm, Z.div_add, Z.div_small by lia; lia). rewrite Em, Ev in B3. exact B3.
    + intros p Hp. apply B4. intros k Hk. apply Hp; [|apply Z.mod_pos_bound; lia]. split; [apply Z.div_pos; lia|]. apply Z.div_lt_upper_bound; lia.
    + destruct B1 as (_ & _ & B1 & _). unfold E in B1. lia.
Qed.

(* ------------------------------------------------------------------ C55, C56: files made from the core's payload *)

Definition core_file (bits : list nat) (vals : list Z) (t : table) (bd x y : Z) (px : list Z) : list Z :=
  lj_file bits vals bd x y (flat_map bytes_of (payload t bd (4 * x) px)).

Lemma payload_stuff t bd W px : exists Q tail, Forall is_byte Q /\ flat_map bytes_of (payload t bd W px) = stuff Q /\ stream 8 Q = ref_encode t bd W [] px ++ tail.
Proof.
  pose proof (payload_bytes t bd W px) as HB. set (B := flat_map bytes_of (pack 16 (ref_encode t bd W [] px))) in *.
  assert (EB : exists tl, stream 8 B = ref_encode t bd W [] px ++ tl).
  { unfold B. rewrite stream8_bytes. destruct (pack_bits 16 (ref_encode t bd W [] px) ltac:(lia)) as (pad & -> & _). eauto. }
  destruct EB as (tl & EB). unfold payload. fold B. rewrite bytes_words by (apply stuff_bytes; exact HB).
  destruct (Nat.odd (length (stuff B))).
  - exists (B ++ [0]), (tl ++ stream 8 [0]). split; [apply Forall_app; split; [exact HB|constructor; [unfold is_byte; lia|constructor]]|]. split; [rewrite stuff_app; reflexivity|].
    unfold stream in *. rewrite map_app, concat_app, EB, <- app_assoc. reflexivity.
  - exists B, tl. rewrite app_nil_r. auto.
Qed.

Theorem C56_file : forall d bits vals t bd x y px a rows img U,
  2 <= bd <= 15 -> dht_ok bits vals -> (length vals <= 200)%nat -> described_by t bits vals -> table_ok bd t -> prefix_free t ->
  4 <= x < 65536 -> 0 <= y < 65536 -> 0 <= da_skip a ->
  len px = 4 * x * y -> Forall (in_range bd) px ->
  file_in d (core_file bits vals t bd x y px) ->
  (da_lin a <> None -> Forall (fun p => p <= da_linlen a) px) ->
  decodes U d (core_file bits vals t bd x y px) a rows img bd x y px.
Proof.
  intros d bits vals t bd x y px a rows img U Hb Hok Hn Hdes [Htl Ht] Hp Hx Hy Hs HL HF Hfile Hlin. unfold core_file in *.
  destruct (payload_stuff t bd (4 * x) px) as (Q & tail & HQ & EQ & ES). rewrite EQ in *.
  apply (C54_decode d bits vals t); try assumption.
  - unfold len. lia.
  - rewrite ES. unfold decode_frame. replace (Z.to_nat (4 * x * y)) with (length px) by (unfold len in HL; lia).
    apply (ref_decode_ok t bd (4 * x) px); try assumption; try lia.
    + constructor.
    + apply all_small_15; [lia|constructor|assumption].
Qed.

(* ------------------------------------------------------------------ C57: narrow frames *)

Lemma ref_decode_u16 t bd W : forall n img l px, ref_decode t bd W n img l = Some px -> Forall (fun p => 0 <= p < 2 ^ 16) img -> Forall (fun p => 0 <= p < 2 ^ 16) px.
Proof.
  induction n as [|n IH]; intros img l px E HF; cbn [ref_decode] in E; [injection E as <-; exact HF|].
  destruct (decode_diff t l) as [[dv rest]|]; [|discriminate]. apply IH in E; [exact E|]. apply Forall_app. split; [exact HF|]. constructor; [apply Z.mod_pos_bound; lia|constructor].
Qed.
Lemma mod_differ p q e : 0 <= p < 2 ^ 16 -> 0 <= q < 2 ^ 16 -> p <> q -> (p + e) mod 2 ^ 16 <> (q + e) mod 2 ^ 16.
Proof.
  intros Hp Hq Hne E. apply Hne. rewrite <- (Z.mod_small p (2 ^ 16)), <- (Z.mod_small q (2 ^ 16)) by lia.
  replace p with ((p + e) - e) by lia. replace q with ((q + e) - e) by lia. rewrite (Zminus_mod (p + e)), (Zminus_mod (q + e)), E. reflexivity.
Qed.

(* Frames less than 16 samples wide: the two row buffers overlap; the library reports success, but the sample below sample number x of
   the first row is wrong whenever the first sample of the second row differs from that sample. *)
Theorem C57_narrow : forall d bits vals t bd x y Q px a rows img U,
  dht_ok bits vals -> (length vals <= 200)%nat -> described_by t bits vals -> len t <= 16 ->
  1 <= x <= 3 -> 2 <= y < 65536 -> Forall is_byte Q -> 0 <= da_skip a -> da_lin a = None ->
  file_in d (lj_file bits vals bd x y (stuff Q)) ->
  decode_frame t bd (4 * x) y (stream 8 Q) = Some px ->
  nth (Z.to_nat (4 * x)) px 0 <> nth (Z.to_nat x) px 0 ->
  exists res, lj_run U d (len (lj_file bits vals bd x y (stuff Q))) a rows img = Some res /\ lr_dec res = NONE /\
    lr_img res ((4 * x + da_skip a) + x) <> nth (Z.to_nat (4 * x + x)) px 0.
Proof.
  intros d bits vals t bd x y Q px a rows img U Hok Hn Ht Htl Hx Hy HQ Hskip Hnl [Hd HH] ED Hne.
  destruct (decode_setup d bits vals bd x y Q Hd Hok Hn ltac:(lia) ltac:(lia) HQ HH) as (d' & h & EO & Fd & Hd' & (Jx & Jy & Jb & Jc & Js & Jl) & EDec & HI). cbv zeta in EDec, HI.
  set (file := lj_file bits vals bd x y (stuff Q)) in *. set (E := len file - 2) in *. unfold decode_frame in ED.
  assert (Hpx : len px = 4 * x * y). { apply ref_decode_len in ED. destruct ED as [L _]. cbn [length] in L. unfold len. nia. }
  assert (Hu16 : Forall (fun p => 0 <= p < 2 ^ 16) px) by (apply (ref_decode_u16 _ _ _ _ _ _ _ ED); constructor).
  pose proof Hok as (_ & Hlv & _).
  assert (Hd0 : 0 < 4 * x) by lia. set (i0 := 4 * x + x). set (p0 := (4 * x + da_skip a) + x).
  destruct (scan_gen d' U h bits vals a Hlv Jc ltac:(rewrite Jx; lia) ltac:(rewrite Jy; lia)
    (fun r col c s => ptrs h a r s /\ if r * (4 * x) + 4 * col + c <=? i0 then
       exists R, row_inv d' E h px img a r col c R s /\
         ref_decode t bd (4 * x) (Z.to_nat (4 * x * y - (r * (4 * x) + 4 * col + c))) (firstn (Z.to_nat (r * (4 * x) + 4 * col + c)) px) R = Some px
       else s_img s p0 <> nth (Z.to_nat i0) px 0)) with (s := scan_start (len vals) (61 + len vals) x rows img) as (s' & EF & HP & R).
  - intros r col c s Hr Hcol Hc (HP & HR). rewrite Jx in Hcol. rewrite Jy in Hr.
    set (i := r * (4 * x) + 4 * col + c) in *. assert (Hi : 0 <= i < 4 * x * y) by (unfold i; nia).
    replace (r * (4 * x) + 4 * col + (c + 1)) with (i + 1) by (unfold i; lia).
    destruct (i <=? i0) eqn:Ei.
    + destruct HR as (R & HR & ER).
      destruct (Z.to_nat (4 * x * y - i)) as [|m] eqn:Em; [lia|]. cbn [ref_decode] in ER.
      assert (Lf : length (firstn (Z.to_nat i) px) = Z.to_nat i) by (rewrite firstn_length; unfold len in Hpx; lia).
      rewrite Lf, Z2Nat.id in ER by lia. destruct (decode_diff t R) as [[dv rest]|] eqn:EDf; [|discriminate].
      destruct (ref_decode_len _ _ _ _ _ _ _ ER) as [Lpx Fpx]. rewrite app_length, Lf in Lpx, Fpx. cbn [length] in Lpx, Fpx.
      assert (Ev : nth (Z.to_nat i) px 0 = (prediction bd (4 * x) (firstn (Z.to_nat i) px) i + dv) mod 2 ^ 16).
      { rewrite <- (nth_firstn 0 (Z.to_nat i + 1)) by lia. rewrite Fpx, app_nth2 by lia. rewrite Lf, Nat.sub_diag. reflexivity. }
      destruct (i + 1 <=? i0) eqn:Ei2.
      * destruct (sample_ok d' Hd' E U h bits vals t px img a Jl Hlv Ht ltac:(lia) Jc ltac:(rewrite Jx; lia) ltac:(rewrite Jy; lia) Hskip ltac:(congruence) ltac:(rewrite Jx, Jy; exact Hpx)
          r col c R s dv rest ltac:(rewrite Jy; lia) ltac:(rewrite Jx; lia) Hc HP HR EDf (decode_diff_small t R dv rest Htl EDf)) as (s1 & S1 & S2 & S3).
        -- rewrite Jx, Jb. fold i. exact Ev.
        -- intros Hr1 Hc0. rewrite Jx. destruct (Z.eq_dec r 1) as [->|Hr2]; [right; unfold i, i0 in *; lia|exfalso; unfold i, i0 in *; nia].
        -- exists s1. split; [exact S1|]. split; [exact S2|]. exists rest. split; [exact S3|]. 
           replace (Z.to_nat (4 * x * y - (i + 1))) with m by lia. replace (Z.to_nat (i + 1)) with (Z.to_nat i + 1)%nat by lia. rewrite Fpx. exact ER.
      * assert (Hii : i = i0) by lia. assert (Hr1 : r = 1) by (unfold i, i0 in Hii; nia). subst r. assert (Hcc : col = 0 /\ c = x) by (unfold i, i0 in Hii; lia). destruct Hcc as [-> ->].
        rewrite <- Jx in HR. destruct (sample_bad d' Hd' E U h bits vals t px img a Jl Hlv Ht ltac:(lia) Jc ltac:(rewrite Jx; lia)
          1 R s dv rest ltac:(rewrite Jy; lia) eq_refl ltac:(rewrite Jx; lia) Hnl HP HR EDf (decode_diff_small t R dv rest Htl EDf)) as (s1 & S1 & S2 & S3).
        rewrite Jx in S1, S3. exists s1. split; [exact S1|]. split; [exact S2|].
        assert (Ep : pos_of h a (1 * (4 * x) + x) = p0).
        { unfold pos_of. rewrite Jx. assert (Em1 : (1 * (4 * x) + x) mod (4 * x) = x) by (rewrite Z.add_comm, Z.mod_add by lia; apply Z.mod_small; lia).
          assert (Ev1 : (1 * (4 * x) + x) / (4 * x) = 1) by (rewrite Z.add_comm, Z.div_add, Z.div_small by lia; lia). rewrite Em1, Ev1. unfold p0. lia. }
        rewrite Ep in S3. rewrite S3. rewrite <- Hii, Ev. unfold prediction. rewrite Hii. unfold i0.
        assert (Em1 : (4 * x + x) mod (4 * x) = x) by (replace (4 * x + x) with (x + 1 * (4 * x)) by lia; rewrite Z.mod_add by lia; apply Z.mod_small; lia).
        rewrite Em1. replace (x <? 4) with true by lia. replace (4 * x + x <? 4 * x) with false by lia. rewrite nth_firstn by lia. replace (4 * x + x - 4 * x) with x by lia.
        rewrite Z.mul_1_l. rewrite Forall_forall in Hu16. apply mod_differ; [apply Hu16, nth_In; unfold len in Hpx; nia|apply Hu16, nth_In; unfold len in Hpx; nia|exact Hne].
    + replace (i + 1 <=? i0) with false by lia.
      destruct (sample_any d' U h a Jc r col c s Hnl HP) as (s1 & v & S1 & S2 & S3 & _). exists s1. split; [exact S1|]. split; [exact S2|].
      rewrite S3. unfold upd. destruct HP as (Ho & _). rewrite Ho, Jx. replace (p0 =? r * (4 * x + da_skip a) + col * 4 + c) with false; [exact HR|].
      symmetry. apply Z.eqb_neq. intros Ep. unfold p0 in Ep. unfold i, i0 in Ei. assert (r = 1) by nia. subst r. lia.
  - intros r col s Hr Hcol (HP & HR). split; [exact HP|]. replace (r * (4 * x) + 4 * (col + 1) + 0) with (r * (4 * x) + 4 * col + 4) by lia.
    destruct (r * (4 * x) + 4 * col + 4 <=? i0); [|exact HR]. destruct HR as (R & HR & ER). exists R. split; [apply (row_carry d' E h bits vals); [exact Hlv|lia|exact HR]|]. exact ER.
  - intros r s Hr (HP & HR). split; [apply (ptrs_swap h bits vals); assumption|]. rewrite Jx in HR. replace ((r + 1) * (4 * x) + 4 * 0 + 0) with (r * (4 * x) + 4 * x + 0) by lia.
    destruct (r * (4 * x) + 4 * x + 0 <=? i0); [|exact HR]. destruct HR as (R & HR & ER). exists R. split; [apply (row_end d' E h bits vals); [exact Hlv|rewrite Jx; lia|exact Hr|rewrite Jx; exact HR]|]. exact ER.
  - split; [unfold ptrs, scan_start; cbn [s_out s_this s_last]; change (Z.even 0) with true; rewrite Jx; auto|]. replace (0 * (4 * x) + 4 * 0 + 0 <=? i0) with true by (unfold i0; lia). exists (stream 8 Q). split.
    + split; [|split; intros; lia]. constructor; cbn [scan_start s_nd s_img n_oob]; [apply (HI rows img)|reflexivity|intros; lia|reflexivity].
    + cbn [Z.mul Z.add]. rewrite Z.sub_0_r. exact ED.
  - rewrite Jy in EF, R. replace (y * (4 * x) + 4 * 0 + 0 <=? i0) with false in R by (unfold i0; nia).
    specialize (EDec U a rows img). rewrite EF in EDec. unfold lj_run. rewrite EO, EDec. eexists. split; [reflexivity|]. cbn [lr_dec lr_img]. split; [reflexivity|]. exact R.
Qed.

(* ------------------------------------------------------------------ C56: from the core's pins to the decoder's image *)

Lemma frame_words c t sizes i3 l :
  cfg_ok c = true -> outb c = 16 -> table_ok (bd c) t ->
  (forall n, beta_frame_ok c (fst (sizes n)) (snd (sizes n))) ->
  is_reset c i3 -> bt_env c (mem_of (bd c) t) sizes 0 (bt_reset_with i3) l ->
  let log := bt_log c (mem_of (bd c) t) [] [] (bt_reset_with i3) l in
  forall k A O, nth_error log k = Some (A, O) -> (S k < length log)%nat ->
  let W := fst (sizes k) in let H := snd (sizes k) in
  snd (deframe (map fst O)) = Some false ->
  fst (deframe (map fst O)) = payload t (bd c) W (concat A) /\ len (concat A) = W * H /\ Forall (in_range (bd c)) (concat A).
Proof.
  intros Hc Ho Ht Hf Hi HE log k A O HN Hk W H Hflag.
  destruct (C25_frames c t sizes i3 l Hc Ho Ht Hf Hi HE k A O HN) as [K _]. destruct (K Hk) as (He & forced & R & Ht2). fold W H in R.
  assert (HO : exists tl, map fst O = map fst (cut O) ++ tl) by (destruct Ht2 as [E|E]; [exists []; rewrite app_nil_r; congruence|eexists; rewrite E at 1; apply map_app]).
  destruct HO as (tl & HO). assert (HY : forall k, bt_hyp c t (fst (sizes k)) (snd (sizes k))) by exact (fun k => conj Hc (conj Ho (conj Ht (Hf k)))).
  destruct (bt_log_ok c t sizes HY l [] [] (bt_reset_with i3) 0%nat (bt_inv_init _ _ _ _ _ (HY 0%nat) Hi) eq_refl HE k A O HN) as (s' & I & _).
  cbn [Nat.add] in I. destruct I as (P & hist & d1 & d2 & I1 & _). destruct (inv_pixels _ _ _ _ _ _ _ _ _ _ I1) as [HF HLp].
  destruct forced; cbn [frame_result] in R.
  - exfalso. assert (Hlen : len (concat A) <= W * H).
    { pose proof (v_len _ _ _ _ _ _ _ _ _ _ I1) as L. destruct (frame_geom c W H Hc (proj1 (Hf k))) as [(Q1 & Q2 & _) _]. fold W H in L. rewrite HLp. nia. }
    destruct (R (concat A ++ repeat 0 (Z.to_nat (W * H - len (concat A)))) _ eq_refl) as (n & Hn).
    { unfold len in *. rewrite app_length, repeat_length. lia. }
    rewrite HO, Hn in Hflag. unfold payload in Hflag. rewrite (C24_delimitable _ n true tl (payload_bytes _ _ _ _)) in Hflag. discriminate.
  - destruct R as [HL Hm]. split; [|auto]. rewrite HO, Hm.
    pose proof (C24_delimitable _ (length (payload t (bd c) W (concat A))) false tl (payload_bytes t (bd c) W (concat A))) as D. cbv zeta in D. fold (payload t (bd c) W (concat A)) in D.
    rewrite firstn_all in D. rewrite D. reflexivity.
Qed.

(* Every finished frame that is not flagged as cut short, put into a file with the header for the programmed table, is decoded by the
   shipped library to exactly the samples the core accepted. *)
Theorem C56_core : forall c t bits vals sizes i3 l,
  cfg_ok c = true -> outb c = 16 -> bd c <= 15 -> table_ok (bd c) t -> prefix_free t ->
  dht_ok bits vals -> (length vals <= 200)%nat -> described_by t bits vals ->
  (forall n, beta_frame_ok c (fst (sizes n)) (snd (sizes n))) ->
  is_reset c i3 -> bt_env c (mem_of (bd c) t) sizes 0 (bt_reset_with i3) l ->
  let log := bt_log c (mem_of (bd c) t) [] [] (bt_reset_with i3) l in
  forall k A O, nth_error log k = Some (A, O) -> (S k < length log)%nat ->
  forall x H, sizes k = (4 * x, H) -> 4 <= x ->
  snd (deframe (map fst O)) = Some false ->
  let file := lj_file bits vals (bd c) x H (flat_map bytes_of (fst (deframe (map fst O)))) in
  forall U d a rows img, file_in d file -> 0 <= da_skip a -> (da_lin a <> None -> Forall (fun p => p <= da_linlen a) (concat A)) ->
  decodes U d file a rows img (bd c) x H (concat A).
Proof.
  intros c t bits vals sizes i3 l Hc Ho Hb Ht Hp Hok Hn Hdes Hf Hi HE log k A O HN Hk x H Hsz Hx Hflag file U d a rows img Hd Hs Hlin.
  destruct (frame_words c t sizes i3 l Hc Ho Ht Hf Hi HE k A O HN Hk Hflag) as (E & HL & HF). rewrite Hsz in E, HL. cbn [fst snd] in E, HL.
  pose proof (Hf k) as [Hfr _]. rewrite Hsz in Hfr. cbn [fst snd] in Hfr. unfold frame_ok in Hfr. assert (Hb2 : 2 <= bd c) by (unfold cfg_ok in Hc; lia).
  unfold file in *. rewrite E in *. apply C56_file; try assumption; try lia.
Qed.

Definition std_bits16 : list nat := std_BITS ++ [0; 0; 0]%nat.
Lemma std_described bd : 2 <= bd <= 16 -> described_by (std_table bd) std_bits16 std_HUFFVAL.
Proof.
  intros Hb s e E. assert (Ef : nth_error std_full s = Some e).
  { unfold std_table in E. rewrite <- (firstn_skipn (Z.to_nat (bd + 1)) std_full). rewrite nth_error_app1; [exact E|]. apply nth_error_Some. congruence. }
  assert (Hs : (s < 17)%nat). { assert (N : nth_error std_full s <> None) by congruence. apply nth_error_Some in N. exact N. }
  clear E Hb. assert (K : forallb (fun k => match nth_error std_full k with Some p => existsb (Z.eqb (Z.of_nat k)) std_HUFFVAL && (fst p =? fst (lookup (Z.of_nat k) std_HUFFVAL (annexC std_bits16 1 0))) && (snd p =? snd (lookup (Z.of_nat k) std_HUFFVAL (annexC std_bits16 1 0))) | None => false end) (seq 0 17) = true) by reflexivity.
  rewrite forallb_forall in K. specialize (K s ltac:(apply in_seq; lia)). rewrite Ef in K. apply andb_prop in K. destruct K as [K K3]. apply andb_prop in K. destruct K as [K1 K2].
  apply existsb_exists in K1. destruct K1 as (v & V1 & V2). apply Z.eqb_eq in V2. subst v. split; [exact V1|]. destruct e as [e1 e2]. destruct (lookup _ _ _) as [l1 l2]. cbn [fst snd] in K2, K3. f_equal; lia.
Qed.
Lemma std_dht_ok : dht_ok std_bits16 std_HUFFVAL.
Proof.
  split; [reflexivity|]. split; [reflexivity|]. split; [discriminate|]. split; [repeat constructor; lia|]. change (2 ^ 16) with 65536. cbn. lia.
Qed.

(* as shipped: 4096 x 3072 samples of 12 bits, the built-in table *)
Theorem C56_shipped : forall (sched : list (bool * list Z * bool)) i3,
  is_reset beta_cfg i3 -> (forall x, In x sched -> group_ok 12 2 (snd (fst x))) ->
  let log := bt_log beta_cfg (init_huff_table 12) [] [] (bt_reset_with i3) (bt_rf_ins rf_init sched) in
  forall k A O, nth_error log k = Some (A, O) -> (S k < length log)%nat ->
  snd (deframe (map fst O)) = Some false ->
  let file := lj_file std_bits16 std_HUFFVAL 12 1024 3072 (flat_map bytes_of (fst (deframe (map fst O)))) in
  forall U d a rows img, file_in d file -> 0 <= da_skip a -> da_lin a = None ->
  decodes U d file a rows img 12 1024 3072 (concat A).
Proof.
  intros sched i3 Hi Hs log k A O HN Hk Hflag file U d a rows img Hd Hsk Hl.
  destruct (std_mem beta_cfg eq_refl) as (Hm & Ht & Hp). cbn [bd beta_cfg] in Hm, Ht, Hp.
  unfold log in *. rewrite Hm in *.
  apply (C56_core beta_cfg (std_table 12) std_bits16 std_HUFFVAL (fun _ => (4096, 3072)) i3 (bt_rf_ins rf_init sched)) with (k := k); try reflexivity; try assumption.
  - cbn. lia.
  - exact std_dht_ok.
  - cbn. lia.
  - apply std_described. lia.
  - intros n. unfold beta_frame_ok, frame_ok. cbn. lia.
  - apply shipped_env; assumption.
  - lia.
  - congruence.
Qed.
