(* C67: liblj92 decodes what it encodes *)
From Verif Require Import Bits Spec Spec_Lj92 Spec_P6 M_Lj92 M_Pred6 M_Enc92 P_Lj92 P_Lj92b P_Lj92c P_I3 P_Fix P_Decode P_Pack Props_Frame Props_Lj92 Props_Pred6 P_Enc92 P_Enc92b P_Enc92c Props_Enc92b.
Ltac Zify.zify_post_hook ::= idtac.

Ltac fb := repeat (apply Forall_cons; [unfold is_byte; lia|]); apply Forall_nil.
Lemma file_bytes bits vals bd w h sc : dht_ok bits vals -> (length vals <= 17)%nat -> 0 <= bd < 256 -> 0 <= w < 65536 -> 0 <= h < 65536 -> Forall is_byte sc -> Forall is_byte (p6_file bits vals bd w h sc).
Proof.
  intros (L16 & LV & _ & FV & _) L17 Hbd Hw Hh Hsc. unfold p6_file, dht, sof3_1, sos_6. change (be16 11) with [0; 11]. change (be16 8) with [0; 8]. repeat (apply Forall_app; split); unfold be16.
  all: try fb.
  - assert (D1 : (19 + len vals) / 256 = 0) by (apply Z.div_small; unfold len; lia). assert (D2 : (19 + len vals) mod 256 = 19 + len vals) by (apply Z.mod_small; unfold len; lia). rewrite D1, D2. unfold len; fb.
  - apply Forall_forall. intros b Hb. apply in_map_iff in Hb. destruct Hb as (k & <- & Hk). unfold is_byte.
    assert (k <= list_sum bits)%nat; [|lia]. clear - Hk. unfold list_sum. induction bits as [|x l IH]; [destruct Hk|]. cbn [fold_right]. destruct Hk as [->|Hk]; [lia|]. specialize (IH Hk). lia.
  - eapply Forall_impl; [|exact FV]. intros v Hv. cbv beta in Hv. unfold is_byte. lia.
  - pose proof (Z.div_pos h 256 ltac:(lia) ltac:(lia)). pose proof (Z.div_lt_upper_bound h 256 256 ltac:(lia) ltac:(lia)). pose proof (Z.mod_pos_bound h 256 ltac:(lia)). fb.
  - pose proof (Z.div_pos w 256 ltac:(lia) ltac:(lia)). pose proof (Z.div_lt_upper_bound w 256 256 ltac:(lia) ltac:(lia)). pose proof (Z.mod_pos_bound w 256 ltac:(lia)). fb.
  - exact Hsc.
Qed.
Lemma stuff_bytes Q : Forall is_byte Q -> Forall is_byte (stuff Q).
Proof.
  intros H. unfold stuff. apply Forall_flat_map. eapply Forall_impl; [|exact H]. intros b Hb. unfold stuff_byte. destruct (b =? 255); repeat constructor; unfold is_byte in *; lia.
Qed.

(* Encoding a tile and decoding the result gives the samples back, at the places the decoder's own run and skip lengths say; nothing else of the
   target is touched and no byte beyond the first after the file is read. *)
Theorem C67_roundtrip : forall img w h bd rl sl mem U wl skip rows dst,
  25 <= w < 65536 -> 2 <= h < 65536 -> 3 * w * h + 200 < 2 ^ 31 -> 1 <= bd <= 16 -> 1 <= rl -> 2 <= wl -> 0 <= skip ->
  (forall k, 0 <= k < w * h -> 0 <= img (tile_pos rl sl k) < 65536) ->
  diffs_small bd w [] (tile img rl sl (w * h)) ->
  (forall k, 0 <= mem k < 256) ->
  let '(r, m, n) := lj92_encode img w h bd rl sl None mem in
  r = NONE ->
  let res := lj_run_all U m n {| da_skip := skip; da_lin := None; da_linlen := 0 |} wl rows dst in
  la_open res = NONE /\ la_dec res = NONE /\ la_x res = w /\ la_y res = h /\ la_bits res = bd /\ la_comp res = 1 /\
  (forall k, 0 <= k < w * h -> la_img res (tile_pos wl skip k) = img (tile_pos rl sl k)) /\
  (forall p, (forall k, 0 <= k < w * h -> p <> tile_pos wl skip k) -> la_img res p = dst p) /\
  la_oob res = false /\ la_hi res <= n + 1.
Proof.
  intros img w h bd rl sl mem U wl skip rows dst Hw Hh Hwh Hbd Hrl Hwl Hsk Hpx Hsm Hmem.
  destruct (C66_encode img w h bd rl sl mem ltac:(lia) ltac:(lia) Hwh Hbd Hrl Hsm) as (bits & vals & DO & ND & IV & CB & X). cbv zeta in X. 
  assert (Hn : 1 <= w * h) by nia. assert (TN : forall k, 0 <= k < w * h -> nth (Z.to_nat k) (tile img rl sl (w * h)) 0 = img (tile_pos rl sl k)) by (intros k Hk; apply tile_nth; exact Hk).
  assert (TL : len (tile img rl sl (w * h)) = w * h) by (apply tile_len; lia). set (px := tile img rl sl (w * h)) in *. clearbody px. unfold scan_of in X.
  destruct (lj92_encode img w h bd rl sl None mem) as [[r m] n]. intros Er. destruct X as [X _]. destruct (X Er) as (En & HH & Hout & _). clear X Er.
  assert (HC : Forall (fun c => 0 <= c <= 15) (map category (diffs6 bd w [] px))).
  { apply Forall_map. pose proof Hsm as Hs2. apply small_diffs6 in Hs2. eapply Forall_impl; [|exact Hs2]. intros d Hd. apply category_range. exact Hd. }
  assert (V15 : Forall (fun v => v <= 15) vals). { apply Forall_forall. intros v Hv. apply IV in Hv. rewrite Forall_forall in HC. specialize (HC v Hv). lia. }
  assert (LV : (length vals <= 17)%nat).
  { assert (G : incl vals (map Z.of_nat (seq 0 17))). { intros c Hc. apply IV in Hc. rewrite Forall_forall in HC. specialize (HC c Hc). apply in_map_iff. exists (Z.to_nat c). split; [lia|]. apply in_seq. lia. }
    apply NoDup_incl_length in G; [|exact ND]. rewrite map_length, seq_length in G. exact G. }
  set (bs := write_samples (book_of bits vals) bd w [] px) in *. destruct (pack_bits 8 bs ltac:(lia)) as (pad & PB & PF). set (Q := pack 8 bs) in *.
  assert (HQ : Forall is_byte Q) by (eapply Forall_impl; [|exact PF]; intros b Hb; exact Hb).
  assert (FB : Forall is_byte (p6_file bits vals bd w h (stuff Q))) by (apply file_bytes; try assumption; try lia; apply stuff_bytes; exact HQ).
  assert (FI : file_in m (p6_file bits vals bd w h (stuff Q))).
  { split; [|exact HH]. intros k. destruct (Z_lt_ge_dec k 0) as [Hk|Hk]; [rewrite Hout by lia; apply Hmem|]. destruct (Z_lt_ge_dec k n) as [Hk2|Hk2]; [|rewrite Hout by lia; apply Hmem].
    pose proof (HH (Z.to_nat k) ltac:(unfold len in En; lia)) as E. rewrite Z.add_0_l, Z2Nat.id in E by lia. rewrite E. rewrite Forall_forall in FB. apply FB. apply nth_In. unfold len in En. lia. }
  assert (RB : read_samples (book_of bits vals) bd w (Z.to_nat (w * h)) [] (stream 8 Q) = Some px).
  { change (stream 8 Q) with (wbits 8 Q). rewrite PB. replace (Z.to_nat (w * h)) with (length px) by (unfold len in TL; lia). unfold bs. rewrite (read_back bits vals DO CB bd w _ px [] Hsm); [reflexivity| |intros d Hd; apply IV, in_map; exact Hd].
    apply Forall_forall. intros p Hp. destruct (In_nth px p 0 Hp) as (k & Hk & <-). rewrite <- (Nat2Z.id k). rewrite TN by (unfold len in TL; lia). apply Hpx. unfold len in TL. lia. }
  destruct (C64_decode m bits vals bd w h Q px {| da_skip := skip; da_lin := None; da_linlen := 0 |} wl rows dst U DO ltac:(lia) V15 ltac:(lia) Hw Hh ltac:(lia) HQ Hsk Hwl FI RB ltac:(intros F; cbn in F; congruence)) as (A1 & A2 & A3 & A4 & A5 & A6 & A7 & A8 & A9 & A10).
  rewrite <- En in *. cbn [da_skip da_lin] in *. do 6 (split; [assumption|]). split; [|split; [exact A8|split; [exact A9|exact A10]]].
  intros k Hk. rewrite (A7 k Hk). unfold converted. cbn [da_lin]. apply TN. exact Hk.
Qed.

(* Samples of up to 14 bits always qualify. *)
Theorem C67_bits14 : forall img w h bd rl sl mem U wl skip rows dst,
  25 <= w < 65536 -> 2 <= h < 65536 -> 3 * w * h + 200 < 2 ^ 31 -> 1 <= bd <= 14 -> 1 <= rl -> 2 <= wl -> 0 <= skip ->
  (forall k, 0 <= k < w * h -> 0 <= img (tile_pos rl sl k) < 2 ^ bd) ->
  (forall k, 0 <= mem k < 256) ->
  let '(r, m, n) := lj92_encode img w h bd rl sl None mem in
  r = NONE ->
  let res := lj_run_all U m n {| da_skip := skip; da_lin := None; da_linlen := 0 |} wl rows dst in
  la_open res = NONE /\ la_dec res = NONE /\ la_x res = w /\ la_y res = h /\ la_bits res = bd /\
  (forall k, 0 <= k < w * h -> la_img res (tile_pos wl skip k) = img (tile_pos rl sl k)) /\
  (forall p, (forall k, 0 <= k < w * h -> p <> tile_pos wl skip k) -> la_img res p = dst p).
Proof.
  intros img w h bd rl sl mem U wl skip rows dst Hw Hh Hwh Hbd Hrl Hwl Hsk Hpx Hmem. assert (B16 : 2 ^ bd <= 2 ^ 16) by (apply Z.pow_le_mono_r; lia). change (2 ^ 16) with 65536 in B16.
  assert (Hn : 1 <= w * h) by nia.
  pose proof (C67_roundtrip img w h bd rl sl mem U wl skip rows dst Hw Hh Hwh ltac:(lia) Hrl Hwl Hsk ltac:(intros k Hk; specialize (Hpx k Hk); lia)) as R.
  assert (HS : diffs_small bd w [] (tile img rl sl (w * h))).
  { apply small_samples; [lia|lia|]. cbn [app]. apply Forall_forall. intros p Hp. unfold tile in Hp. apply in_map_iff in Hp. destruct Hp as (k & <- & Hk). apply in_seq in Hk. apply Hpx. lia. }
  specialize (R HS Hmem). destruct (lj92_encode img w h bd rl sl None mem) as [[r m] n]. intros Er. destruct (R Er) as (A1 & A2 & A3 & A4 & A5 & A6 & A7 & A8 & _).
  do 5 (split; [assumption|]). split; assumption.
Qed.
