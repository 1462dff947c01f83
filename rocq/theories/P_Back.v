(* what T.81 says to write is read back, for every usable Huffman table and every predictor *)
From Verif Require Import Bits Spec Spec_Lj92 Spec_P6 Spec_Pn P_Lj92 P_Lj92b P_Lj92c P_Decode P_Fix P_Enc92 P_Enc92b P_Enc92c.
Ltac Zify.zify_post_hook ::= idtac.

Lemma kraft_from : forall rows a, 0 <= a -> a * 2 ^ len rows <= fold_left (fun a n => 2 * a + Z.of_nat n) rows a.
Proof.
  induction rows as [|n rows IH]; intros a Ha; cbn [fold_left]; [unfold len; cbn [length]; change (Z.of_nat 0) with 0; change (2 ^ 0) with 1; lia|].
  specialize (IH (2 * a + Z.of_nat n) ltac:(lia)). unfold len in *. cbn [length]. rewrite Nat2Z.inj_succ, Z.pow_succ_r by lia. pose proof (pow2_pos (Z.of_nat (length rows)) ltac:(lia)). nia.
Qed.
Lemma annexC_range : forall rows l a m x, 0 <= a -> 1 <= l -> fold_left (fun a n => 2 * a + Z.of_nat n) rows a <= 2 ^ (l - 1 + len rows) ->
  In (m, x) (annexC rows l (2 * a)) -> l <= m /\ 0 <= x < 2 ^ m.
Proof.
  induction rows as [|n rows IH]; intros l a m x Ha Hl HK HI; [destruct HI|]. cbn [annexC fold_left] in *. apply in_app_or in HI. destruct HI as [HI|HI].
  - apply row_facts in HI. cbn [fst snd] in HI. destruct HI as [-> HI]. split; [lia|]. split; [lia|]. pose proof (kraft_from rows (2 * a + Z.of_nat n) ltac:(lia)) as K.
    unfold len in *. cbn [length] in HK. replace (l - 1 + Z.of_nat (S (length rows))) with (l + Z.of_nat (length rows)) in HK by lia. rewrite Z.pow_add_r in HK by lia. pose proof (pow2_pos (Z.of_nat (length rows)) ltac:(lia)). nia.
  - apply IH in HI; [lia|lia|lia|]. replace (l + 1 - 1 + len rows) with (l - 1 + len (n :: rows)) by (unfold len; cbn [length]; lia). exact HK.
Qed.
Lemma dht_codes bits vals l x : dht_ok bits vals -> In (l, x) (annexC bits 1 0) -> 1 <= l /\ 0 <= x < 2 ^ l.
Proof.
  intros (L16 & _ & _ & _ & HK) HI. apply (annexC_range bits 1 0 l x); [lia|lia| |exact HI]. unfold len. rewrite L16. exact HK.
Qed.
Lemma read_diff_back bits vals d rest : dht_ok bits vals -> Z.abs d < 2 ^ 15 -> In (category d) vals -> read_diff (book_of bits vals) (write_diff (book_of bits vals) d ++ rest) = Some (d, rest).
Proof.
  intros Hok Hd Hin. unfold read_diff, write_diff. rewrite <- app_assoc. unfold book_of. rewrite read_code_ok; [|rewrite annexC_len; destruct Hok as (_ & E & _); symmetry; exact E|apply annexC_ord; lia|intros l x H; apply (dht_codes bits vals l x Hok H)|exact Hin].
  pose proof (category_range d Hd) as R. destruct (Z.eqb_spec (category d) 0) as [E0|E0].
  - assert (d = 0) as ->. { destruct (Z.eq_dec d 0) as [E|N]; [exact E|]. destruct (category_bounds d N). lia. } reflexivity.
  - assert (Hd0 : d <> 0) by (intros ->; apply E0; reflexivity). unfold extra_bits. replace (category d =? 16) with false by lia. cbv zeta. replace (category d =? 16) with false by lia. set (v := if d <? 0 then d - 1 else d).
    assert (Hl : length (bitsz (category d) v) = Z.to_nat (category d)) by (apply bitsn_length).
    replace (Z.of_nat (length (bitsz (category d) v ++ rest)) <? category d) with false by (rewrite app_length, Hl; lia).
    rewrite <- Hl at 1. rewrite firstn_app_exact. rewrite <- Hl at 1. rewrite skipn_app_exact. rewrite bval_bitsz by lia. unfold v. rewrite extend_ok by assumption. reflexivity.
Qed.
Lemma read_n_back bits vals p N bd W rest : dht_ok bits vals -> forall px img, codable vals p N bd W img px -> Forall (fun q => 0 <= q < 2 ^ 16) px ->
  read_n (book_of bits vals) p N bd W (length px) img (write_n (book_of bits vals) p N bd W img px ++ rest) = Some (img ++ px).
Proof.
  intros Hok. induction px as [|q px IH]; intros img HS HF; [cbn [length read_n]; rewrite app_nil_r; reflexivity|]. cbn [length read_n write_n]. cbn [codable] in HS. destruct HS as [[S1 S3] S2]. apply Forall_cons_iff in HF. destruct HF as [Hp HF].
  rewrite <- app_assoc, read_diff_back by assumption. replace (predn p N bd W img + (q - predn p N bd W img)) with q by lia. rewrite Z.mod_small by lia. rewrite IH; [rewrite <- app_assoc; reflexivity|exact S2|exact HF].
Qed.
