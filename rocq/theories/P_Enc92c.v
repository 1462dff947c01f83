(* reading back what T.81 says to write: Annex C codes are prefix-free *)
From Verif Require Import Bits Spec Spec_Lj92 Spec_P6 P_Lj92 P_Lj92b P_Lj92c P_Decode P_Fix P_Enc92 P_Enc92b.
Ltac Zify.zify_post_hook ::= idtac.

Definition cord (a b : Z * Z) : Prop := fst a <= fst b /\ (snd a + 1) * 2 ^ (fst b - fst a) <= snd b.
Lemma row_facts : forall n l c e, In e (annexC_row n l c) -> fst e = l /\ c <= snd e < c + Z.of_nat n.
Proof. induction n as [|n IH]; intros l c e H; [destruct H|]. cbn [annexC_row] in H. destruct H as [<-|H]; [cbn [fst snd]; lia|]. apply IH in H. lia. Qed.
Lemma annexC_from : forall rows l c e, 0 <= c -> 0 <= l -> In e (annexC rows l c) -> l <= fst e /\ c * 2 ^ (fst e - l) <= snd e.
Proof.
  induction rows as [|n rows IH]; intros l c e Hc Hl H; [destruct H|]. cbn [annexC] in H. apply in_app_or in H. destruct H as [H|H].
  - apply row_facts in H. destruct H as [-> H]. rewrite Z.sub_diag. change (2 ^ 0) with 1. lia.
  - apply IH in H; [|lia|lia]. destruct H as [H1 H2]. split; [lia|]. replace (fst e - l) with (1 + (fst e - (l + 1))) by lia. rewrite Z.pow_add_r by lia. change (2 ^ 1) with 2. pose proof (pow2_pos (fst e - (l + 1)) ltac:(lia)). nia.
Qed.
Lemma row_ord : forall n l c, ForallOrdPairs cord (annexC_row n l c).
Proof.
  induction n as [|n IH]; intros l c; cbn [annexC_row]; constructor; [|apply IH]. apply Forall_forall. intros e He. apply row_facts in He. destruct He as [E He]. unfold cord. cbn [fst snd]. rewrite E, Z.sub_diag. change (2 ^ 0) with 1. lia.
Qed.
Lemma ord_app {A} (R : A -> A -> Prop) a b : ForallOrdPairs R a -> ForallOrdPairs R b -> (forall x y, In x a -> In y b -> R x y) -> ForallOrdPairs R (a ++ b).
Proof.
  induction a as [|x a IH]; intros Ha Hb H; [exact Hb|]. inversion Ha; subst. cbn [app]. constructor; [|apply IH; [assumption|assumption|intros; apply H; [right|]; assumption]].
  apply Forall_app. split; [assumption|]. apply Forall_forall. intros y Hy. apply H; [left; reflexivity|exact Hy].
Qed.
Lemma annexC_ord : forall rows l c, 0 <= c -> 0 <= l -> ForallOrdPairs cord (annexC rows l c).
Proof.
  induction rows as [|n rows IH]; intros l c Hc Hl; cbn [annexC]; [constructor|]. apply ord_app; [apply row_ord|apply IH; lia|]. intros x y Hx Hy.
  apply row_facts in Hx. destruct Hx as [E Hx]. apply annexC_from in Hy; [|lia|lia]. destruct Hy as [Y1 Y2]. unfold cord. rewrite E. split; [lia|].
  replace (fst y - l) with (1 + (fst y - (l + 1))) by lia. rewrite Z.pow_add_r by lia. change (2 ^ 1) with 2. pose proof (pow2_pos (fst y - (l + 1)) ltac:(lia)). nia.
Qed.

Lemma strip_none a b rest : cord a b -> 0 <= fst a -> 0 <= snd a < 2 ^ fst a -> 0 <= snd b < 2 ^ fst b -> strip_prefix (bitsz (fst a) (snd a)) (bitsz (fst b) (snd b) ++ rest) = None.
Proof.
  intros [O1 O2] Ha Ra Rb. destruct a as [l c], b as [n x]. cbn [fst snd] in *. destruct (strip_prefix _ _) as [r|] eqn:E; [|reflexivity]. exfalso. apply strip_prefix_some in E.
  replace n with (l + (n - l)) in E by lia. rewrite bitsz_app in E by lia. rewrite <- app_assoc in E. apply (f_equal (firstn (Z.to_nat l))) in E.
  assert (L1 : length (bitsz l c) = Z.to_nat l) by (pose proof (bitsz_length l c Ha); lia). assert (L2 : length (bitsz l (x / 2 ^ (n - l))) = Z.to_nat l) by (pose proof (bitsz_length l (x / 2 ^ (n - l)) Ha); lia).
  rewrite <- L2 in E at 1. rewrite firstn_app_exact in E. rewrite <- L1 in E at 1. rewrite firstn_app_exact in E. apply (f_equal bval) in E. rewrite !bval_bitsz in E by lia.
  pose proof (pow2_pos (n - l) ltac:(lia)) as P. assert (Q : c + 1 <= x / 2 ^ (n - l)) by (apply Z.div_le_lower_bound; lia).
  assert (Q2 : x / 2 ^ (n - l) < 2 ^ l). { apply Z.div_lt_upper_bound; [lia|]. rewrite <- Z.pow_add_r by lia. replace (n - l + l) with n by lia. lia. }
  rewrite !Z.mod_small in E by lia. lia.
Qed.
Lemma read_code_ok c rest : forall vals codes, length codes = length vals -> ForallOrdPairs cord codes -> (forall l x, In (l, x) codes -> 1 <= l /\ 0 <= x < 2 ^ l) -> In c vals ->
  read_code (combine vals codes) (find_code (combine vals codes) c ++ rest) = Some (c, rest).
Proof.
  induction vals as [|v vals IH]; intros [|[l x] codes] HL HO HC HI; try discriminate; [destruct HI|]. inversion HO as [|? ? F HO']; subst. cbn [combine find_code read_code]. destruct (Z.eqb_spec v c) as [->|N].
  - rewrite strip_prefix_app. reflexivity.
  - destruct HI as [HI|HI]; [congruence|]. assert (HL' : length codes = length vals) by (cbn [length] in HL; lia). destruct (find_lookup c vals codes HL' HI) as [E1 E2].
    set (e := lookup c vals codes) in *. clearbody e. destruct e as [n y]. cbn [fst snd] in E1.
    assert (SN : strip_prefix (bitsz l x) (find_code (combine vals codes) c ++ rest) = None).
    { rewrite E1. rewrite Forall_forall in F. destruct (HC l x (or_introl eq_refl)). destruct (HC n y (or_intror E2)). apply (strip_none (l, x) (n, y)); [apply F; exact E2|cbn [fst]; lia|cbn [fst snd]; lia|cbn [fst snd]; lia]. }
    rewrite SN. apply IH; [exact HL'|exact HO'|intros; apply HC; right; assumption|exact HI].
Qed.

Section ReadBack.
Variables (bits : list nat) (vals : list Z).
Hypothesis Hok : dht_ok bits vals.
Hypothesis Hcod : forall l x, In (l, x) (annexC bits 1 0) -> 1 <= l <= 16 /\ 0 <= x < 2 ^ l - 1.
Let bk := book_of bits vals.
Lemma read_diff_ok d rest : Z.abs d < 2 ^ 15 -> In (category d) vals -> read_diff bk (write_diff bk d ++ rest) = Some (d, rest).
Proof.
  intros Hd Hin. unfold read_diff, write_diff. rewrite <- app_assoc. unfold bk, book_of. rewrite read_code_ok; [|rewrite annexC_len; destruct Hok as (_ & E & _); symmetry; exact E|apply annexC_ord; lia|intros l x H; apply Hcod in H; lia|exact Hin].
  pose proof (category_range d Hd) as R. destruct (Z.eqb_spec (category d) 0) as [E0|E0].
  - assert (d = 0) as ->. { destruct (Z.eq_dec d 0) as [E|N]; [exact E|]. destruct (category_bounds d N). lia. } reflexivity.
  - assert (Hd0 : d <> 0) by (intros ->; apply E0; reflexivity). unfold extra_bits. replace (category d =? 16) with false by lia. cbv zeta. replace (category d =? 16) with false by lia. set (v := if d <? 0 then d - 1 else d).
    assert (Hl : length (bitsz (category d) v) = Z.to_nat (category d)) by (apply bitsn_length).
    replace (Z.of_nat (length (bitsz (category d) v ++ rest)) <? category d) with false by (rewrite app_length, Hl; lia).
    rewrite <- Hl at 1. rewrite firstn_app_exact. rewrite <- Hl at 1. rewrite skipn_app_exact. rewrite bval_bitsz by lia. unfold v. rewrite extend_ok by assumption. reflexivity.
Qed.
Lemma read_back bd W rest : forall px img, diffs_small bd W img px -> Forall (fun p => 0 <= p < 2 ^ 16) px -> (forall d, In d (diffs6 bd W img px) -> In (category d) vals) ->
  read_samples bk bd W (length px) img (write_samples bk bd W img px ++ rest) = Some (img ++ px).
Proof.
  induction px as [|p px IH]; intros img HS HF HI; [cbn [length read_samples]; rewrite app_nil_r; reflexivity|]. cbn [length read_samples write_samples]. cbn [diffs_small] in HS. destruct HS as [S1 S2]. apply Forall_cons_iff in HF. destruct HF as [Hp HF].
  cbn [diffs6] in HI. rewrite <- app_assoc, read_diff_ok by (try exact S1; apply HI; left; reflexivity).
  replace (pred6 bd W img + (p - pred6 bd W img)) with p by lia. rewrite Z.mod_small by lia. rewrite IH; [rewrite <- app_assoc; reflexivity|exact S2|exact HF|intros d Hd; apply HI; right; exact Hd].
Qed.
End ReadBack.

(* samples of at most 14 bits have differences of at most 15 bits *)
Lemma small_samples bd W : 1 <= bd <= 14 -> 1 <= W -> forall px img, Forall (fun p => 0 <= p < 2 ^ bd) (img ++ px) -> diffs_small bd W img px.
Proof.
  intros Hbd HW. induction px as [|p px IH]; intros img HF; cbn [diffs_small]; [exact I|]. split; [|apply IH; rewrite <- app_assoc; exact HF].
  assert (P : 2 ^ bd = 2 * 2 ^ (bd - 1)) by (rewrite <- pow2_S by lia; f_equal; lia). assert (P14 : 2 ^ bd <= 2 ^ 14) by (apply Z.pow_le_mono_r; lia). change (2 ^ 14) with 16384 in P14. change (2 ^ 15) with 32768. pose proof (pow2_pos (bd - 1) ltac:(lia)).
  apply Forall_app in HF. destruct HF as [HF Hp]. apply Forall_cons_iff in Hp. destruct Hp as [Hp _].
  assert (N : forall k, 0 <= nth k img 0 < 2 ^ bd). { intros k. destruct (nth_in_or_default k img 0) as [H1|H1]; [rewrite Forall_forall in HF; apply HF; exact H1|rewrite H1; lia]. }
  unfold pred6. cbv zeta. pose proof (N (Z.to_nat (len img - 1))). pose proof (N (Z.to_nat (len img - W))). pose proof (N (Z.to_nat (len img - W - 1))).
  destruct (len img =? 0); [lia|]. destruct (len img <? W); [lia|]. destruct (len img mod W =? 0); [lia|].
  set (q := (nth (Z.to_nat (len img - 1)) img 0 - nth (Z.to_nat (len img - W - 1)) img 0)) in *. pose proof (Z.div_mod q 2 ltac:(lia)). pose proof (Z.mod_pos_bound q 2 ltac:(lia)). lia.
Qed.
