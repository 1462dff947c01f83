(* C68: how far liblj92's encoder writes *)
From Verif Require Import Bits Spec Spec_Lj92 Spec_P6 M_Lj92 M_Enc92 P_Lj92 P_Lj92b P_Lj92c P_Fix P_Decode P_Enc92 P_Enc92b Props_Enc92 Props_Enc92b.
Ltac Zify.zify_post_hook ::= idtac.

Lemma rem_small x : Z.abs (Z.rem x 65536) < 2 ^ 16.
Proof. change (2 ^ 16) with 65536. pose proof (Z.rem_bound_abs x 65536 ltac:(lia)) as H. change (Z.abs 65536) with 65536 in H. exact H. Qed.
Lemma class16 d : Z.abs d < 2 ^ 16 -> 0 <= category d <= 16.
Proof.
  intros H. split; [|apply category_le; [lia|exact H]]. unfold category. destruct (d =? 0); [lia|]. pose proof (Z.log2_nonneg (Z.abs d)). lia.
Qed.
Lemma diff_class bd s : 0 <= ssss_of (es_diff bd s) <= 16.
Proof. rewrite ssss_category. apply class16. unfold es_diff. cbv zeta. apply rem_small. Qed.

(* the histogram of any image counts every sample once *)
Lemma total_upd hist c : 0 <= c <= 16 -> hist_total (upd hist c (hist c + 1)) = hist_total hist + 1.
Proof.
  intros Hc. unfold hist_total. assert (G : forall n a, fold_right Z.add 0 (map (fun k => upd hist c (hist c + 1) (Z.of_nat k)) (seq a n)) =
    fold_right Z.add 0 (map (fun k => hist (Z.of_nat k)) (seq a n)) + (if (Z.of_nat a <=? c) && (c <? Z.of_nat a + Z.of_nat n) then 1 else 0)).
  { induction n as [|n IH]; intros a; cbn [seq map fold_right]; [destruct (Z.leb_spec (Z.of_nat a) c), (Z.ltb_spec c (Z.of_nat a + Z.of_nat 0)); cbn [andb]; lia|].
    rewrite IH. unfold upd at 1. destruct (Z.eqb_spec (Z.of_nat a) c) as [<-|N].
    - replace (Z.of_nat (S a) <=? Z.of_nat a) with false by lia. replace (Z.of_nat a <=? Z.of_nat a) with true by lia. replace (Z.of_nat a <? Z.of_nat a + Z.of_nat (S n)) with true by lia. cbn [andb]. lia.
    - destruct (Z.leb_spec (Z.of_nat (S a)) c), (Z.leb_spec (Z.of_nat a) c), (Z.ltb_spec c (Z.of_nat (S a) + Z.of_nat n)), (Z.ltb_spec c (Z.of_nat a + Z.of_nat (S n))); cbn [andb]; lia. }
  rewrite G. replace ((Z.of_nat 0 <=? c) && (c <? Z.of_nat 0 + Z.of_nat 17)) with true by lia. reflexivity.
Qed.
Lemma freq_total img bd w rl sl : forall n s hist, (forall c, 0 <= hist c) ->
  let r := freq_scan n img bd w rl sl s hist in (forall c, 0 <= r c) /\ hist_total r = hist_total hist + Z.of_nat n.
Proof.
  induction n as [|n IH]; intros s hist H; cbn [freq_scan]; cbv zeta; [split; [exact H|lia]|].
  set (s1 := es_store (img (e_pix s)) s). pose proof (diff_class bd s1) as C. set (c := ssss_of (es_diff bd s1)) in *. clearbody c s1.
  destruct (IH (es_next w rl sl s1) (upd hist c (hist c + 1))) as [A B]; [intros k; unfold upd; pose proof (H k); pose proof (H c); destruct (k =? c); lia|].
  split; [exact A|]. rewrite B, total_upd by exact C. lia.
Qed.

(* the writer, whatever the differences are *)
Lemma value_range d : let s := category d in let vt := if 0 <? s then Z.shiftl 1 (s - 1) else 0 in let v := if d <? vt then d + (Z.shiftl 1 s - 1) else d in 0 <= v < 2 ^ s.
Proof.
  intros s vt v. unfold v, vt. clear v vt. rewrite !Z.shiftl_1_l. destruct (Z.eq_dec d 0) as [->|N]; [cbn; lia|]. destruct (category_bounds d N) as [C1 C2]. fold s in C1, C2. replace (0 <? s) with true by lia.
  assert (P : 2 ^ s = 2 * 2 ^ (s - 1)) by (rewrite <- pow2_S by lia; f_equal; lia). destruct (Z.ltb_spec d (2 ^ (s - 1))); lia.
Qed.
Lemma body_any img delin t L bd w rl sl H0 out0 : (forall l x, In (l, x) (t_codes t) -> 1 <= l <= 16 /\ 0 <= x < 2 ^ l - 1) ->
  forall n s o bs, oinv L H0 out0 bs o -> match write_body n img delin t L bd w rl sl s o with Some o' => exists bs', oinv L H0 out0 bs' o' | None => True end.
Proof.
  intros HC. induction n as [|n IH]; intros s o bs O; cbn [write_body]; [exists bs; exact O|].
  set (s1 := es_store _ s). clearbody s1. assert (HD : Z.abs (es_diff bd s1) < 2 ^ 16) by (unfold es_diff; cbv zeta; apply rem_small). set (d := es_diff bd s1) in *. clearbody d. rewrite ssss_category.
  pose proof (class16 d HD) as CR. pose proof (value_range d) as VR. cbv zeta in VR. set (v := if d <? _ then _ else _) in *. clearbody v.
  set (code := nth _ (t_codes t) (0, 0)). assert (RC : 0 <= fst code <= 16 /\ 0 <= snd code < 2 ^ fst code).
  { unfold code. destruct (nth_in_or_default (Z.to_nat (t_sym t (category d))) (t_codes t) (0, 0)) as [H|H]; [|rewrite H; cbn; lia].
    set (e := nth _ (t_codes t) (0, 0)) in *. clearbody e. destruct e as [l x]. apply HC in H. cbn [fst snd]. lia. }
  clearbody code. pose proof (put_ok_bits L H0 out0 32 (snd code) (fst code) bs o ltac:(lia) ltac:(lia) ltac:(lia) O) as P1. destruct (put_bits 32 L (snd code) (fst code) o) as [o1|]; [|exact I].
  pose proof (put_ok_bits L H0 out0 32 v (category d) _ o1 ltac:(lia) ltac:(lia) VR P1) as P2. destruct (put_bits 32 L v (category d) o1) as [o2|]; [|exact I].
  eapply IH. exact P2.
Qed.

(* For every image, bit depth, run and skip length and delinearization table: if the encoder succeeds, the length it reports covers everything
   it wrote and is at most three bytes more than the size of its buffer. *)
Theorem C68_bound : forall img w h bd rl sl delin mem,
  1 <= w < 65536 -> 1 <= h < 65536 -> 3 * w * h + 200 < 2 ^ 31 -> 1 <= bd <= 16 ->
  let '(r, m, n) := lj92_encode img w h bd rl sl delin mem in
  (r = NONE \/ r = -5) /\
  (r = NONE -> n <= buffer_size w h + 3 /\ (forall p, p < 0 \/ n <= p -> m p = mem p)).
Proof.
  intros img w h bd rl sl delin mem Hw Hh Hwh Hbd. assert (Hn : 1 <= w * h) by nia. unfold lj92_encode.
  destruct (freq_total img bd w rl sl (Z.to_nat (w * h)) (es_init w rl) (fun _ => 0) ltac:(intros; lia)) as [F1 F2]. change (hist_total (fun _ => 0)) with 0 in F2. rewrite Z2Nat.id in F2 by lia.
  cbv zeta. set (hist := freq_scan _ _ _ _ _ _ _ _) in *. clearbody hist. pose proof (C65_table hist (w * h) F1 F2 ltac:(lia)) as GT. set (t := create_table hist (w * h)) in *. clearbody t.
  destruct GT as (DO & ND & IV & CB & SY & TC & B0 & BP).
  assert (LV : (length (t_vals t) <= 17)%nat).
  { assert (G : incl (t_vals t) (map Z.of_nat (seq 0 17))). { intros c Hc. apply IV in Hc. apply in_map_iff. exists (Z.to_nat c). split; [lia|]. apply in_seq. lia. }
    apply NoDup_incl_length in G; [|exact ND]. rewrite map_length, seq_length in G. exact G. }
  rewrite (header_ok t bd w h DO LV B0 BP ltac:(lia) ltac:(lia) ltac:(lia)). change (rows16 t) with (bits_of t). set (hdr := [255; 0xd8] ++ dht (bits_of t) (t_vals t) ++ sof3_1 bd w h ++ sos_6).
  assert (Hh65 : 0 <= len hdr <= 65).
  { destruct DO as (L16 & _). unfold hdr, dht, sof3_1, sos_6, be16. unfold len. rewrite !app_length, map_length, L16. cbn [length]. unfold len. lia. }
  clearbody hdr. change (Z.of_nat (length hdr)) with (len hdr). destruct (write_list_ok hdr mem 0) as [W1 W2]. set (out0 := write_list mem 0 hdr) in *. clearbody out0. rewrite Z.add_0_l in W2.
  pose proof (body_any img delin t (buffer_size w h) bd w rl sl (len hdr) out0 ltac:(rewrite TC; exact CB) (Z.to_nat (w * h)) (es_init w rl) {| b_out := out0; b_w := len hdr; b_next := 0; b_nb := 8 |} []) as BO.
  assert (OI : oinv (buffer_size w h) (len hdr) out0 [] {| b_out := out0; b_w := len hdr; b_next := 0; b_nb := 8 |}).
  { exists [], []. cbn [b_out b_w b_next b_nb]. split; [reflexivity|]. split; [constructor|]. split; [cbn; lia|]. split; [reflexivity|]. split; [reflexivity|]. split; [cbn; lia|]. split; [intros k Hk; cbn in Hk; lia|]. split; [reflexivity|lia]. }
  specialize (BO OI). destruct (write_body _ _ _ _ _ _ _ _ _ _ _) as [o|]; [|split; [right; reflexivity|intros X; vm_compute in X; discriminate]].
  destruct BO as [bs BO]. pose proof (flush_ok _ _ _ _ _ BO) as BF. destruct (flush_body o) as [out n]. destruct BF as (G1 & G2 & G3 & G4). split; [left; reflexivity|]. intros _.
  assert (0 <= len (stuff (pack 8 bs))) by (unfold len; lia). split; [unfold buffer_size in *; nia|]. intros p Hp. unfold upd. replace (p =? n + 1) with false by lia. replace (p =? n) with false by lia. rewrite G3 by lia. apply W2. lia.
Qed.

(* ------------------------------------------------------------------ the bound is not the buffer: an image of 6 x 92 samples of 16 bits.  Row 0 is 250; from then on the rows
   go up by 32767 and down by 32768 from what predictor 6 expects, in turn; the last four samples differ *)
Fixpoint next_row (d y : Z) (first : bool) (row : list Z) : list Z :=
  match row with [] => [] | p :: r => let y := if first then d else y / 2 + d in p + y :: next_row d y false r end.
Fixpoint wild_rows (n : nat) (up : bool) (row : list Z) : list Z :=
  match n with O => row | S k => row ++ wild_rows k (negb up) (next_row (if up then 32767 else -32768) 0 true row) end.
Definition wild : list Z := firstn 548 (wild_rows 91 true [250; 250; 250; 250; 250; 250]) ++ [747; 42146; 57603; 47312].
Definition img_of (l : list Z) : lmem := fun k => nth (Z.to_nat k) l 0.
Theorem C68_overflow : exists img w h, 1 <= w < 65536 /\ 1 <= h < 65536 /\ 3 * w * h + 200 < 2 ^ 31 /\ (forall k, 0 <= img k < 65536) /\
  let '(r, m, n) := lj92_encode img w h 16 w 0 None (fun _ => 0) in r = NONE /\ n = buffer_size w h + 3.
Proof.
  exists (img_of wild), 6, 92. split; [lia|]. split; [lia|]. split; [reflexivity|]. split.
  - assert (H : forallb (fun z => (0 <=? z) && (z <? 65536)) wild = true) by (vm_compute; reflexivity). rewrite forallb_forall in H.
    intros k. unfold img_of. destruct (nth_in_or_default (Z.to_nat k) wild 0) as [E|E]; [specialize (H _ E); lia|rewrite E; lia].
  - vm_compute. split; reflexivity.
Qed.
(* with a few more rows the encoder gives up: not every 16-bit image can be encoded *)
Definition wild2 : list Z := wild_rows 95 true [250; 250; 250; 250; 250; 250].
Theorem C68_refused : exists img w h, 1 <= w < 65536 /\ 1 <= h < 65536 /\ 3 * w * h + 200 < 2 ^ 31 /\ (forall k, 0 <= img k < 65536) /\
  fst (fst (lj92_encode img w h 16 w 0 None (fun _ => 0))) = -5.
Proof.
  exists (img_of wild2), 6, 96. split; [lia|]. split; [lia|]. split; [reflexivity|]. split.
  - assert (H : forallb (fun z => (0 <=? z) && (z <? 65536)) wild2 = true) by (vm_compute; reflexivity). rewrite forallb_forall in H.
    intros k. unfold img_of. destruct (nth_in_or_default (Z.to_nat k) wild2 0) as [E|E]; [specialize (H _ E); lia|rewrite E; lia].
  - vm_compute. reflexivity.
Qed.
