(* C66: what liblj92's encoder writes *)
From Coq Require Import Permutation.
From Verif Require Import Bits Spec Spec_Lj92 Spec_P6 M_Lj92 M_Enc92 P_Lj92 P_Lj92b P_Lj92c P_Fix P_Huff3 P_Enc92 P_Enc92b Props_Enc92.
Ltac Zify.zify_post_hook ::= idtac.

Lemma count_total (l : list Z) : Forall (fun c => 0 <= c <= 16) l -> fold_right Z.add 0 (map (fun k => Z.of_nat (count_occ Z.eq_dec l (Z.of_nat k))) (seq 0 17)) = len l.
Proof.
  assert (IND : forall n x a, Z.of_nat a <= x < Z.of_nat a + Z.of_nat n -> fold_right Z.add 0 (map (fun k => if x =? Z.of_nat k then 1 else 0) (seq a n)) = 1).
  { assert (I0 : forall n x a, x < Z.of_nat a -> fold_right Z.add 0 (map (fun k => if x =? Z.of_nat k then 1 else 0) (seq a n)) = 0).
    { induction n as [|n IH]; intros x a H; [reflexivity|]. cbn [seq map fold_right]. rewrite IH by lia. replace (x =? Z.of_nat a) with false by lia. reflexivity. }
    induction n as [|n IH]; intros x a H; [lia|]. cbn [seq map fold_right]. destruct (Z.eqb_spec x (Z.of_nat a)) as [E|E]; [rewrite I0 by lia; reflexivity|]. rewrite IH by lia. reflexivity. }
  assert (ADD : forall f g (s : list nat), fold_right Z.add 0 (map (fun k => f k + g k) s) = fold_right Z.add 0 (map f s) + fold_right Z.add 0 (map g s)).
  { intros f g. induction s as [|x s IH]; [reflexivity|]. cbn [map fold_right]. rewrite IH. lia. }
  induction l as [|x l IH]; intros HF; [reflexivity|]. apply Forall_cons_iff in HF. destruct HF as [Hx HF].
  rewrite (map_ext _ (fun k => (if x =? Z.of_nat k then 1 else 0) + Z.of_nat (count_occ Z.eq_dec l (Z.of_nat k)))).
  - rewrite ADD, IH by exact HF. rewrite IND by lia. unfold len. cbn [length]. lia.
  - intros k. cbn [count_occ]. destruct (Z.eq_dec x (Z.of_nat k)) as [E|E]; [rewrite E, Z.eqb_refl; lia|replace (x =? Z.of_nat k) with false by lia; lia].
Qed.

Lemma tile_len img rl sl n : 0 <= n -> len (tile img rl sl n) = n.
Proof. intros H. unfold tile, len. rewrite map_length, seq_length. lia. Qed.
Lemma tile_nth img rl sl n k : 0 <= k < n -> nth (Z.to_nat k) (tile img rl sl n) 0 = img (tile_pos rl sl k).
Proof.
  intros H. unfold tile. rewrite (nth_indep _ 0 (img (tile_pos rl sl (Z.of_nat 0)))) by (rewrite map_length, seq_length; lia).
  rewrite (map_nth (fun k => img (tile_pos rl sl (Z.of_nat k)))). rewrite seq_nth by lia. f_equal. f_equal. lia.
Qed.

(* the scan *)
Definition scan_of (bits : list nat) (vals : list Z) (bd W : Z) (px : list Z) : list Z := stuff (pack 8 (write_samples (book_of bits vals) bd W [] px)).

(* the samples that are written: the encoder may pass them through a table first *)
Definition delinearized (delin : option (Z -> Z)) (img : Z -> Z) : Z -> Z := match delin with None => img | Some f => fun k => f (img k) end.
Lemma body_delin img delin t L bd w rl sl : forall n s o, write_body n img delin t L bd w rl sl s o = write_body n (delinearized delin img) None t L bd w rl sl s o.
Proof.
  induction n as [|n IH]; intros s o; [reflexivity|]. cbn [write_body]. destruct delin as [f|]; [|reflexivity]. cbn [delinearized] in *. destruct (put_bits 32 L _ _ o) as [o1|]; [|reflexivity].
  destruct (put_bits 32 L _ _ o1) as [o2|]; [|reflexivity]. apply IH.
Qed.
Lemma encode_gen : forall img w h bd rl sl delin mem,
  1 <= w < 65536 -> 1 <= h < 65536 -> 3 * w * h + 200 < 2 ^ 31 -> 1 <= bd <= 16 -> 1 <= rl ->
  let px := tile img rl sl (w * h) in let py := tile (delinearized delin img) rl sl (w * h) in
  diffs_small bd w [] px -> diffs_small bd w [] py -> incl (map category (diffs6 bd w [] py)) (map category (diffs6 bd w [] px)) ->
  exists bits vals,
    dht_ok bits vals /\ NoDup vals /\ (forall c, In c vals <-> In c (map category (diffs6 bd w [] px))) /\
    (forall l code, In (l, code) (annexC bits 1 0) -> 1 <= l <= 16 /\ 0 <= code < 2 ^ l - 1) /\
    let file := p6_file bits vals bd w h (scan_of bits vals bd w py) in
    let '(r, m, n) := lj92_encode img w h bd rl sl delin mem in
    (r = NONE -> n = len file /\ holds m 0 file /\ (forall p, p < 0 \/ n <= p -> m p = mem p) /\ n <= 3 * w * h + 203) /\
    (r <> NONE -> r = -5 /\ 3 * w * h + 202 <= len file).
Proof.
  intros img w h bd rl sl delin mem Hw Hh Hwh Hbd Hrl px py Hsm Hsy Hincl. assert (Hn : 1 <= w * h) by nia.
  assert (Lpx : len px = w * h) by (apply tile_len; lia). assert (Npx : Z.to_nat (w * h) = length px) by (unfold len in Lpx; lia).
  assert (Hpx : forall k, 0 <= k < len px -> nth (Z.to_nat k) px 0 = img (tile_pos rl sl k)) by (intros k Hk; apply tile_nth; lia).
  assert (Lpy : len py = w * h) by (apply tile_len; lia). assert (Npy : length py = length px) by (unfold len in *; lia).
  assert (Hpy : forall k, 0 <= k < len py -> nth (Z.to_nat k) py 0 = delinearized delin img (tile_pos rl sl k)) by (intros k Hk; apply tile_nth; lia).
  clearbody px py. unfold lj92_encode. rewrite Npx, body_delin.
  pose proof (freq_ok img bd w rl sl px ltac:(lia) Hrl Hpx Hsm px [] (es_init w rl) (fun _ => 0) eq_refl ltac:(apply einv_init; lia)) as FQ.
  set (hist := freq_scan (length px) img bd w rl sl (es_init w rl) (fun _ => 0)) in *. clearbody hist.
  assert (HC : Forall (fun c => 0 <= c <= 15) (map category (diffs6 bd w [] px))).
  { apply Forall_map. apply small_diffs6 in Hsm. eapply Forall_impl; [|exact Hsm]. intros d Hd. apply category_range. exact Hd. }
  assert (HT : hist_total hist = w * h).
  { unfold hist_total. rewrite (map_ext _ (fun k => Z.of_nat (count_occ Z.eq_dec (map category (diffs6 bd w [] px)) (Z.of_nat k)))) by (intros k; rewrite FQ; lia).
    rewrite count_total by (eapply Forall_impl; [|exact HC]; intros c Hc; cbv beta in Hc; lia). unfold len. rewrite map_length, dlist_len. unfold len in Lpx. lia. }
  pose proof (C65_table hist (w * h) ltac:(intros c; rewrite FQ; lia) HT ltac:(lia)) as GT. set (t := create_table hist (w * h)) in *. clearbody t.
  destruct GT as (DO & ND & IV & CB & SY & _ & B0 & BP). exists (bits_of t), (t_vals t).
  assert (IV' : forall c, In c (t_vals t) <-> In c (map category (diffs6 bd w [] px))).
  { intros c. rewrite IV, FQ. rewrite (count_occ_In Z.eq_dec). split; [lia|]. intros H. split; [|lia]. apply (count_occ_In Z.eq_dec) in H. rewrite Forall_forall in HC. specialize (HC c H). lia. }
  split; [exact DO|]. split; [exact ND|]. split; [exact IV'|]. split; [exact CB|]. cbv zeta.
  assert (LV : (length (t_vals t) <= 17)%nat).
  { assert (G : incl (t_vals t) (map Z.of_nat (seq 0 17))). { intros c Hc. apply IV in Hc. apply in_map_iff. exists (Z.to_nat c). split; [lia|]. apply in_seq. lia. }
    apply NoDup_incl_length in G; [|exact ND]. rewrite map_length, seq_length in G. exact G. }
  rewrite (header_ok t bd w h DO LV B0 BP ltac:(lia) ltac:(lia) ltac:(lia)). change (rows16 t) with (bits_of t). set (hdr := [255; 0xd8] ++ dht (bits_of t) (t_vals t) ++ sof3_1 bd w h ++ sos_6).
  assert (EF : forall sc, p6_file (bits_of t) (t_vals t) bd w h sc = hdr ++ sc ++ [255; 0xd9]) by (intros sc; unfold p6_file, hdr; rewrite <- !app_assoc; reflexivity). rewrite EF.
  assert (Hh65 : 0 <= len hdr <= 65).
  { destruct DO as (L16 & _). unfold hdr, dht, sof3_1, sos_6, be16. unfold len. rewrite !app_length, map_length, L16. cbn [length]. unfold len. lia. }
  clearbody hdr. change (Z.of_nat (length hdr)) with (len hdr).
  destruct (write_list_ok hdr mem 0) as [W1 W2]. set (out0 := write_list mem 0 hdr) in *. clearbody out0. rewrite Z.add_0_l in W2.
  assert (LA : length (annexC (bits_of t) 1 0) = length (t_vals t)). { rewrite annexC_len. destruct DO as (_ & E & _). symmetry. exact E. }
  rewrite <- Npy. pose proof (body_ok (delinearized delin img) bd w rl sl py t (t_vals t) (annexC (bits_of t) 1 0) (buffer_size w h) (len hdr) out0 ltac:(lia) Hrl Hpy Hsy LA CB SY py [] (es_init w rl)
    {| b_out := out0; b_w := len hdr; b_next := 0; b_nb := 8 |} [] eq_refl ltac:(apply einv_init; lia)) as BO.
  assert (OI : oinv (buffer_size w h) (len hdr) out0 [] {| b_out := out0; b_w := len hdr; b_next := 0; b_nb := 8 |}).
  { exists [], []. cbn [b_out b_w b_next b_nb]. split; [reflexivity|]. split; [constructor|]. split; [cbn; lia|]. split; [reflexivity|]. split; [reflexivity|]. split; [cbn; lia|]. split; [intros k Hk; cbn in Hk; lia|]. split; [reflexivity|lia]. }
  specialize (BO OI ltac:(intros d Hd; apply IV', Hincl; apply in_map; exact Hd)). cbn [app] in BO. fold (book_of (bits_of t) (t_vals t)) in BO. unfold scan_of.
  set (bs := write_samples (book_of (bits_of t) (t_vals t)) bd w [] py) in *. clearbody bs. unfold buffer_size in *.
  destruct (write_body _ _ _ _ _ _ _ _ _ _ _) as [o|].
  - pose proof (flush_ok _ _ _ _ _ BO) as BF. destruct (flush_body o) as [out n]. destruct BF as (F1 & F2 & F3 & F4). split; [intros _|intros X; congruence].
    set (sc := stuff (pack 8 bs)) in *. clearbody sc. assert (LS : 0 <= len sc) by (unfold len; lia).
    assert (FL : len (hdr ++ sc ++ [255; 217]) = len hdr + len sc + 2) by (unfold len; rewrite !app_length; cbn [length]; lia). rewrite FL. split; [lia|]. split; [|split].
    + apply (holds_snoc out0); [exact W1| |].
      * intros p Hp. unfold upd. replace (p =? n + 1) with false by lia. replace (p =? n) with false by lia. apply F3. left. lia.
      * rewrite Z.add_0_l. apply (holds_snoc out); [exact F1| |].
        -- intros p Hp. unfold upd. replace (p =? n + 1) with false by lia. replace (p =? n) with false by lia. reflexivity.
        -- rewrite <- F2. intros [|[|k]] Hk; [| |cbn in Hk; lia]; cbn [nth]; unfold upd; [replace (n + Z.of_nat 0 =? n + 1) with false by lia; replace (n + Z.of_nat 0 =? n) with true by lia|replace (n + Z.of_nat 1 =? n + 1) with true by lia]; reflexivity.
    + intros p Hp. unfold upd. replace (p =? n + 1) with false by lia. replace (p =? n) with false by lia. rewrite F3 by lia. apply W2. lia.
    + nia.
  - apply full_long in BO. split; [intros X; vm_compute in X; discriminate|]. intros _. split; [reflexivity|].
    assert (FL : len (hdr ++ stuff (pack 8 bs) ++ [255; 217]) = len hdr + len (stuff (pack 8 bs)) + 2) by (unfold len; rewrite !app_length; cbn [length]; lia). rewrite FL. lia.
Qed.

(* The file is a T.81 file with predictor 6 that has the samples of the tile, with a code for each class of difference that occurs and no
   other.  If it does not fit into the buffer of 3*width*height+200 bytes, the encoder gives up or writes at most three bytes too much. *)
Theorem C66_encode : forall img w h bd rl sl mem,
  1 <= w < 65536 -> 1 <= h < 65536 -> 3 * w * h + 200 < 2 ^ 31 -> 1 <= bd <= 16 -> 1 <= rl ->
  let px := tile img rl sl (w * h) in
  diffs_small bd w [] px ->
  exists bits vals,
    dht_ok bits vals /\ NoDup vals /\ (forall c, In c vals <-> In c (map category (diffs6 bd w [] px))) /\
    (forall l code, In (l, code) (annexC bits 1 0) -> 1 <= l <= 16 /\ 0 <= code < 2 ^ l - 1) /\
    let file := p6_file bits vals bd w h (scan_of bits vals bd w px) in
    let '(r, m, n) := lj92_encode img w h bd rl sl None mem in
    (r = NONE -> n = len file /\ holds m 0 file /\ (forall p, p < 0 \/ n <= p -> m p = mem p) /\ n <= 3 * w * h + 203) /\
    (r <> NONE -> r = -5 /\ 3 * w * h + 202 <= len file).
Proof.
  intros img w h bd rl sl mem Hw Hh Hwh Hbd Hrl px Hsm. exact (encode_gen img w h bd rl sl None mem Hw Hh Hwh Hbd Hrl Hsm Hsm (incl_refl _)).
Qed.

(* With a delinearization table the samples written are those of the table, provided their differences have no class that the differences of the
   original samples do not have. *)
Theorem C69_delinearize : forall img w h bd rl sl f mem,
  1 <= w < 65536 -> 1 <= h < 65536 -> 3 * w * h + 200 < 2 ^ 31 -> 1 <= bd <= 16 -> 1 <= rl ->
  let px := tile img rl sl (w * h) in let py := tile (fun k => f (img k)) rl sl (w * h) in
  diffs_small bd w [] px -> diffs_small bd w [] py -> incl (map category (diffs6 bd w [] py)) (map category (diffs6 bd w [] px)) ->
  exists bits vals,
    dht_ok bits vals /\ NoDup vals /\ (forall c, In c vals <-> In c (map category (diffs6 bd w [] px))) /\
    let file := p6_file bits vals bd w h (scan_of bits vals bd w py) in
    let '(r, m, n) := lj92_encode img w h bd rl sl (Some f) mem in
    (r = NONE -> n = len file /\ holds m 0 file /\ (forall p, p < 0 \/ n <= p -> m p = mem p)) /\
    (r <> NONE -> r = -5 /\ 3 * w * h + 202 <= len file).
Proof.
  intros img w h bd rl sl f mem Hw Hh Hwh Hbd Hrl px py Hsm Hsy Hincl.
  destruct (encode_gen img w h bd rl sl (Some f) mem Hw Hh Hwh Hbd Hrl Hsm Hsy Hincl) as (bits & vals & A & B & C & _ & X). exists bits, vals. split; [exact A|]. split; [exact B|]. split; [exact C|].
  cbv zeta in *. fold px py in X. cbn [delinearized] in X. fold py in X. destruct (lj92_encode img w h bd rl sl (Some f) mem) as [[r m] n]. destruct X as [X1 X2]. split; [|exact X2]. intros E. destruct (X1 E) as (Y1 & Y2 & Y3 & _). split; [exact Y1|split; assumption].
Qed.
