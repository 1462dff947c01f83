(* the encoder's walk over the samples, its histogram and its bit writer *)
From Verif Require Import Bits Spec Spec_Lj92 Spec_P6 M_Lj92 M_Enc92 P_Lj92 P_Lj92b P_Lj92c P_Decode P_Pack P_Fix.
Ltac Zify.zify_post_hook ::= idtac.

Lemma write_dlist bk bd W : forall px img, write_samples bk bd W img px = flat_map (write_diff bk) (diffs6 bd W img px).
Proof. induction px as [|p r IH]; intros img; [reflexivity|]. cbn [write_samples diffs6 flat_map]. rewrite IH. reflexivity. Qed.
Lemma small_diffs6 bd W : forall px img, diffs_small bd W img px <-> Forall (fun d => Z.abs d < 2 ^ 15) (diffs6 bd W img px).
Proof. induction px as [|p r IH]; intros img; cbn [diffs_small diffs6]; [split; [constructor|trivial]|]. rewrite Forall_cons_iff, IH. reflexivity. Qed.
Lemma dlist_len bd W : forall px img, length (diffs6 bd W img px) = length px.
Proof. induction px as [|p r IH]; intros img; cbn [diffs6 length]; [reflexivity|]. rewrite IH. reflexivity. Qed.
Lemma ssss_category d : ssss_of d = category d.
Proof. unfold ssss_of, category. destruct (d =? 0); [reflexivity|lia]. Qed.
Lemma category_range d : Z.abs d < 2 ^ 15 -> 0 <= category d <= 15.
Proof.
  intros H. unfold category. destruct (Z.eqb_spec d 0); [lia|]. assert (0 <= Z.log2 (Z.abs d) < 15); [|lia]. split; [apply Z.log2_nonneg|]. apply Z.log2_lt_pow2; lia.
Qed.

Lemma divmod_succ i w : 0 <= i -> 1 <= w ->
  (i mod w + 1 = w /\ (i + 1) mod w = 0 /\ (i + 1) / w = i / w + 1) \/ (i mod w + 1 < w /\ (i + 1) mod w = i mod w + 1 /\ (i + 1) / w = i / w).
Proof.
  intros Hi Hw. pose proof (Z.div_mod i w ltac:(lia)) as D. pose proof (Z.mod_pos_bound i w ltac:(lia)) as B. destruct (Z.eq_dec (i mod w + 1) w) as [E|N].
  - left. split; [exact E|]. assert (Q : (i + 1) / w = i / w + 1) by (symmetry; apply (Z.div_unique_pos _ w _ 0); lia). split; [|exact Q]. rewrite Z.mod_eq by lia. rewrite Q. lia.
  - right. split; [lia|]. assert (Q : (i + 1) / w = i / w) by (symmetry; apply (Z.div_unique_pos _ w _ (i mod w + 1)); lia). split; [|exact Q]. rewrite Z.mod_eq by lia. rewrite Q. lia.
Qed.

Section Walk.
Variables (img : lmem) (bd w rl sl : Z) (px : list Z).
Hypothesis Hw : 1 <= w.
Hypothesis Hrl : 1 <= rl.
Hypothesis Hpx : forall k, 0 <= k < len px -> nth (Z.to_nat k) px 0 = img (tile_pos rl sl k).
Let at_ k := nth (Z.to_nat k) px 0.
Definition einv (i : Z) (s : es_st) : Prop :=
  e_pix s = tile_pos rl sl i /\ e_scan s = rl - i mod rl /\ e_col s = i mod w /\ e_row s = i / w /\
  e_cur s = (if Z.even (i / w) then w else 0) /\ e_prev s = (if Z.even (i / w) then 0 else w) /\
  (forall j, 0 <= j < i mod w -> e_rows s (e_cur s + j) = at_ (i - i mod w + j)) /\
  (1 <= i / w -> forall j, 0 <= j < w -> e_rows s (e_prev s + j) = at_ (i - i mod w - w + j)).
Lemma einv_init : einv 0 (es_init w rl).
Proof.
  unfold einv, es_init, tile_pos. cbn [e_pix e_scan e_rows e_cur e_prev e_col e_row]. rewrite !Z.mod_0_l, !Z.div_0_l by lia. split; [lia|]. split; [lia|]. split; [reflexivity|]. split; [reflexivity|]. split; [reflexivity|]. split; [reflexivity|]. split; intros; lia.
Qed.
Lemma einv_step i s : 0 <= i < len px -> einv i s ->
  let s1 := es_store (img (e_pix s)) s in
  img (e_pix s) = at_ i /\ es_diff bd s1 = Z.rem (at_ i - pred6 bd w (firstn (Z.to_nat i) px)) 65536 /\ einv (i + 1) (es_next w rl sl s1).
Proof.
  intros Hi (P1 & P2 & P3 & P4 & P5 & P6 & P7 & P8). pose proof (Hpx i Hi) as Ep. fold (at_ i) in Ep. rewrite <- P1 in Ep. rewrite <- Ep. intros s1.
  split; [reflexivity|]. pose proof (Z.div_mod i w ltac:(lia)) as D. pose proof (Z.mod_pos_bound i w ltac:(lia)) as B. pose proof (Z.div_pos i w ltac:(lia) ltac:(lia)) as Q0.
  set (col := i mod w) in *. set (row := i / w) in *.
  assert (Hdis : forall j, 0 <= j < w -> e_prev s + j <> e_cur s + col) by (intros j Hj; rewrite P5, P6; destruct (Z.even row); lia).
  assert (R1 : forall j, 0 <= j < col -> e_rows s1 (e_cur s + j) = at_ (i - col + j)).
  { intros j Hj. unfold s1, es_store. cbn [e_rows]. unfold upd. rewrite P3. replace (e_cur s + j =? e_cur s + col) with false by lia. apply P7. exact Hj. }
  assert (R2 : e_rows s1 (e_cur s + col) = at_ i). { unfold s1, es_store. cbn [e_rows]. unfold upd. rewrite P3, Z.eqb_refl. reflexivity. }
  assert (R3 : 1 <= row -> forall j, 0 <= j < w -> e_rows s1 (e_prev s + j) = at_ (i - col - w + j)).
  { intros Hr j Hj. unfold s1, es_store. cbn [e_rows]. unfold upd. rewrite P3. pose proof (Hdis j Hj). replace (e_prev s + j =? e_cur s + col) with false by lia. apply P8; assumption. }
  split.
  - unfold es_diff. change (e_cur s1) with (e_cur s). change (e_prev s1) with (e_prev s). change (e_col s1) with (e_col s). change (e_row s1) with (e_row s). rewrite P3, P4. cbv zeta. rewrite R2. f_equal. f_equal.
    unfold pred6. assert (Lf : len (firstn (Z.to_nat i) px) = i) by (unfold len in *; rewrite firstn_length; lia). rewrite Lf. cbv zeta.
    assert (NF : forall k, 0 <= k < i -> nth (Z.to_nat k) (firstn (Z.to_nat i) px) 0 = at_ k) by (intros k Hk; unfold at_; apply nth_firstn; lia).
    destruct (Z.eqb_spec row 0) as [Er|Er]; cbn [andb].
    + assert (Ec : col = i) by lia. destruct (Z.eqb_spec col 0) as [Ec0|Ec0].
      * replace (i =? 0) with true by lia. rewrite Z.shiftl_1_l. reflexivity.
      * replace (i =? 0) with false by lia. replace (i <? w) with true by lia. rewrite R1 by lia. rewrite NF by lia. f_equal. lia.
    + assert (Hiw : w <= i) by nia. replace (i =? 0) with false by lia. replace (i <? w) with false by lia. fold col. specialize (R3 ltac:(lia)). destruct (Z.eqb_spec col 0) as [Ec0|Ec0].
      * rewrite R3 by lia. rewrite NF by lia. f_equal. lia.
      * assert (Hiw1 : w + 1 <= i) by nia. rewrite !R3, R1 by lia. rewrite (NF (i - w)), (NF (i - 1)), (NF (i - w - 1)) by lia. rewrite Z.shiftr_div_pow2 by lia. change (2 ^ 1) with 2. replace (i - col - w + col) with (i - w) by lia. replace (i - col + (col - 1)) with (i - 1) by lia. replace (i - col - w + (col - 1)) with (i - w - 1) by lia. reflexivity.
  - unfold einv, es_next. cbn [e_pix e_scan e_rows e_cur e_prev e_col e_row]. change (e_pix s1) with (e_pix s). change (e_scan s1) with (e_scan s). change (e_cur s1) with (e_cur s). change (e_prev s1) with (e_prev s). change (e_col s1) with (e_col s). change (e_row s1) with (e_row s).
    assert (PX : (if e_scan s - 1 =? 0 then e_pix s + 1 + sl else e_pix s + 1) = tile_pos rl sl (i + 1) /\ (if e_scan s - 1 =? 0 then rl else e_scan s - 1) = rl - (i + 1) mod rl).
    { rewrite P1, P2. unfold tile_pos. destruct (divmod_succ i rl ltac:(lia) Hrl) as [(E1 & E2 & E3)|(E1 & E2 & E3)]; rewrite E2, E3; [replace (rl - i mod rl - 1 =? 0) with true by lia|replace (rl - i mod rl - 1 =? 0) with false by lia]; split; lia. }
    destruct PX as [-> ->]. split; [reflexivity|]. split; [reflexivity|]. rewrite P3, P4. destruct (divmod_succ i w ltac:(lia) Hw) as [(E1 & E2 & E3)|(E1 & E2 & E3)]; fold col in E1, E2; fold row in E3; rewrite E2, E3.
    + replace (col + 1 =? w) with true by lia. split; [reflexivity|]. split; [reflexivity|].
      split; [rewrite P6; replace (row + 1) with (Z.succ row) by lia; rewrite Z.even_succ, <- Z.negb_even; destruct (Z.even row); reflexivity|].
      split; [rewrite P5; replace (row + 1) with (Z.succ row) by lia; rewrite Z.even_succ, <- Z.negb_even; destruct (Z.even row); reflexivity|].
      split; [intros; lia|]. intros _ j Hj. replace (i + 1 - 0 - w + j) with (i - col + j) by lia. destruct (Z.eq_dec j col) as [->|N]; [rewrite R2; f_equal; lia|apply R1; lia].
    + replace (col + 1 =? w) with false by lia. split; [reflexivity|]. split; [reflexivity|]. split; [exact P5|]. split; [exact P6|]. split.
      * intros j Hj. replace (i + 1 - (col + 1) + j) with (i - col + j) by lia. destruct (Z.eq_dec j col) as [->|N]; [rewrite R2; f_equal; lia|apply R1; lia].
      * intros Hr j Hj. replace (i + 1 - (col + 1) - w + j) with (i - col - w + j) by lia. apply R3; assumption.
Qed.

(* ------------------------------------------------------------------ the histogram *)
Hypothesis Hsm : diffs_small bd w [] px.
Lemma small_at pre p rest : px = pre ++ p :: rest -> Z.abs (p - pred6 bd w pre) < 2 ^ 15.
Proof.
  intros E. rewrite E in Hsm. assert (G : forall a img0, diffs_small bd w img0 (a ++ p :: rest) -> Z.abs (p - pred6 bd w (img0 ++ a)) < 2 ^ 15).
  { induction a as [|x a IH]; intros img0 H; [rewrite app_nil_r; apply H|]. cbn [app diffs_small] in H. destruct H as [_ H]. apply IH in H. rewrite <- app_assoc in H. exact H. }
  apply (G pre []). exact Hsm.
Qed.
Lemma step_at pre p rest s : px = pre ++ p :: rest -> einv (len pre) s ->
  let s1 := es_store (img (e_pix s)) s in img (e_pix s) = p /\ es_diff bd s1 = p - pred6 bd w pre /\ einv (len (pre ++ [p])) (es_next w rl sl s1).
Proof.
  intros E I. destruct (einv_step (len pre) s) as (A & B & C).
  - unfold len. rewrite E, app_length. cbn [length]. lia.
  - exact I.
  - cbv zeta. assert (Ea : at_ (len pre) = p) by (unfold at_, len; rewrite Nat2Z.id, E, app_nth2, Nat.sub_diag by lia; reflexivity).
    split; [rewrite A; exact Ea|]. split; [|unfold len in *; rewrite app_length, Nat2Z.inj_add; exact C].
    rewrite B, Ea. unfold len. rewrite Nat2Z.id, E, firstn_app_exact. apply Z.rem_small_iff; [lia|]. pose proof (small_at pre p rest E) as S. change (2 ^ 15) with 32768 in S. lia.
Qed.
Lemma freq_ok rest : forall pre s hist, px = pre ++ rest -> einv (len pre) s ->
  forall c, freq_scan (length rest) img bd w rl sl s hist c = hist c + Z.of_nat (count_occ Z.eq_dec (map category (diffs6 bd w pre rest)) c).
Proof.
  induction rest as [|p rest IH]; intros pre s hist E I c; cbn [length freq_scan diffs6 map count_occ]; [lia|].
  destruct (step_at pre p rest s E I) as (A & B & C). rewrite B, ssss_category. rewrite (IH (pre ++ [p])); [|rewrite <- app_assoc; exact E|exact C].
  unfold upd. destruct (Z.eqb_spec c (category (p - pred6 bd w pre))) as [->|N].
  - destruct (Z.eq_dec _ _) as [_|X]; [lia|congruence].
  - destruct (Z.eq_dec _ _) as [X|_]; [congruence|lia].
Qed.
End Walk.

(* ------------------------------------------------------------------ the bit writer *)
Section Writer.
Variables (L H0 : Z) (out0 : lmem).
Definition oinv (bs : list bool) (o : wb_st) : Prop :=
  exists Q r, bs = stream 8 Q ++ r /\ Forall is_byte8 Q /\ (length r < 8)%nat /\ b_nb o = 8 - len r /\ b_next o = bval r * 2 ^ (8 - len r) /\
    b_w o = H0 + len (stuff Q) /\ holds (b_out o) H0 (stuff Q) /\ (forall p, p < H0 \/ b_w o <= p -> b_out o p = out0 p) /\ b_w o <= Z.max H0 L.
(* the writer gives up: a whole byte does not fit *)
Definition ofull (bs : list bool) : Prop := exists Q b r, bs = stream 8 (Q ++ [b]) ++ r /\ Forall is_byte8 (Q ++ [b]) /\ L - 1 <= H0 + len (stuff Q).
Lemma ofull_app bs bs' : ofull bs -> ofull (bs ++ bs').
Proof. intros (Q & b & r & -> & H1 & H2). exists Q, b, (r ++ bs'). rewrite <- app_assoc. split; [reflexivity|split; assumption]. Qed.
Lemma stream_app a b : stream 8 (a ++ b) = stream 8 a ++ stream 8 b.
Proof. unfold stream. rewrite map_app, concat_app. reflexivity. Qed.
Lemma holds_snoc (d d' : lmem) a l l' : holds d a l -> (forall p, a <= p < a + len l -> d' p = d p) -> holds d' (a + len l) l' -> holds d' a (l ++ l').
Proof.
  intros H1 H2 H3 k Hk. rewrite app_length in Hk. destruct (lt_dec k (length l)) as [Hl|Hl].
  - rewrite app_nth1 by exact Hl. rewrite H2 by (unfold len; lia). apply H1. exact Hl.
  - rewrite app_nth2 by lia. pose proof (H3 (k - length l)%nat ltac:(lia)) as X. rewrite <- X. f_equal. unfold len. lia.
Qed.
Lemma stuff_put d H Q b : holds d H (stuff Q) -> let a := H + len (stuff Q) in let out := upd d a b in
  let out' := if b =? 255 then upd out (a + 1) 0 else out in
  holds out' H (stuff (Q ++ [b])) /\ (forall p, p < H \/ H + len (stuff (Q ++ [b])) <= p -> out' p = d p) /\ (if b =? 255 then a + 2 else a + 1) = H + len (stuff (Q ++ [b])).
Proof.
  intros HH a out out'. rewrite stuff_app. assert (Es : stuff [b] = if b =? 255 then [255; 0] else [b]) by (unfold stuff, stuff_byte; cbn [flat_map]; destruct (b =? 255); reflexivity). rewrite Es.
  assert (Ll : len (stuff Q ++ (if b =? 255 then [255; 0] else [b])) = len (stuff Q) + (if b =? 255 then 2 else 1)) by (unfold len; rewrite app_length; destruct (b =? 255); cbn [length]; lia). rewrite Ll.
  split; [|split].
  - apply (holds_snoc d); [exact HH| |].
    + intros p Hp. unfold out', out, upd, a. destruct (b =? 255); [replace (p =? H + len (stuff Q) + 1) with false by lia|]; replace (p =? H + len (stuff Q)) with false by lia; reflexivity.
    + fold a. unfold out', out. destruct (Z.eqb_spec b 255) as [->|N]; intros k Hk; unfold upd.
      * destruct k as [|[|k]]; [| |cbn in Hk; lia]; cbn [nth]; [replace (a + Z.of_nat 0 =? a + 1) with false by lia; replace (a + Z.of_nat 0 =? a) with true by lia; reflexivity|replace (a + Z.of_nat 1 =? a + 1) with true by lia; reflexivity].
      * destruct k as [|k]; [|cbn in Hk; lia]. cbn [nth]. replace (a + Z.of_nat 0 =? a) with true by lia. reflexivity.
  - intros p Hp. unfold out', out, upd, a. unfold len in *. destruct (b =? 255); [replace (p =? H + Z.of_nat (length (stuff Q)) + 1) with false by lia|]; replace (p =? H + Z.of_nat (length (stuff Q))) with false by lia; reflexivity.
  - unfold a. destruct (b =? 255); lia.
Qed.

Lemma put_ok_bits : forall fuel v n bs o, 0 <= n -> n <= Z.of_nat fuel -> 0 <= v < 2 ^ n -> oinv bs o ->
  match put_bits fuel L v n o with Some o' => oinv (bs ++ bitsz n v) o' | None => ofull (bs ++ bitsz n v) end.
Proof.
  induction fuel as [|f IH]; intros v n bs o Hn Hf Hv HO; cbn [put_bits].
  - assert (n = 0) by lia. subst n. rewrite bitsz_0, app_nil_r. exact HO.
  - destruct (Z.ltb_spec 0 n) as [Hpos|Hz]; [|assert (n = 0) by lia; subst n; rewrite bitsz_0, app_nil_r; exact HO].
    destruct HO as (Q & r & -> & HQ & Hr & E1 & E2 & E3 & E4 & E5 & E6). assert (Hlr : 0 <= len r < 8) by (unfold len; lia).
    cbv zeta. rewrite E1, E2, E3. set (nb := 8 - len r) in *. set (use := if nb <? n then nb else n) in *.
    assert (Hu : 1 <= use <= n /\ use <= nb) by (unfold use; destruct (Z.ltb_spec nb n); lia). clearbody use.
    set (top := Z.shiftr v (n - use)) in *. set (n' := n - use) in *. set (v' := Z.land v (Z.shiftl 1 n' - 1)) in *.
    assert (Pn : 0 < 2 ^ n') by (apply pow2_pos; unfold n'; lia).
    assert (Ev : v' = v mod 2 ^ n') by (unfold v'; rewrite Z.shiftl_1_l; rewrite Z.sub_1_r, <- Z.ones_equiv, Z.land_ones by (unfold n'; lia); reflexivity).
    assert (Et : top = v / 2 ^ n') by (unfold top, n'; apply Z.shiftr_div_pow2; lia). clearbody v' top.
    assert (Ht : 0 <= top < 2 ^ use). { rewrite Et. split; [apply Z.div_pos; lia|]. apply Z.div_lt_upper_bound; [lia|]. rewrite <- pow2_add by (unfold n'; lia). replace (n' + use) with n by (unfold n'; lia). lia. }
    assert (Hv' : 0 <= v' < 2 ^ n') by (rewrite Ev; apply Z.mod_pos_bound; lia).
    assert (EB : bitsz n v = bitsz use top ++ bitsz n' v').
    { replace n with (use + n') at 1 by (unfold n'; lia). rewrite bitsz_app by (unfold n'; lia). f_equal; [rewrite Et; reflexivity|]. rewrite Ev. symmetry. apply (bitsz_trunc n' n' v). unfold n'; lia. }
    set (r' := r ++ bitsz use top). assert (Lr' : len r' = len r + use) by (unfold r', len; rewrite app_length, Nat2Z.inj_add, bitsz_length by lia; reflexivity).
    assert (Br' : bval r' = bval r * 2 ^ use + top). { unfold r'. rewrite bval_app, bitsz_length, bval_bitsz, Z.mod_small by lia. reflexivity. }
    pose proof (bval_bound r') as BB. fold (len r') in BB.
    assert (NX : trunc 8 (Z.lor (bval r * 2 ^ nb) (Z.shiftl top (nb - use))) = bval r' * 2 ^ (8 - len r')).
    { rewrite Z.shiftl_mul_pow2 by lia. rewrite lor_add.
      - replace (2 ^ nb) with (2 ^ use * 2 ^ (nb - use)) by (rewrite <- pow2_add by lia; f_equal; lia). replace (8 - len r') with (nb - use) by (unfold nb; lia).
        replace (bval r * (2 ^ use * 2 ^ (nb - use)) + top * 2 ^ (nb - use)) with (bval r' * 2 ^ (nb - use)) by (rewrite Br'; ring). apply trunc_id.
        assert (2 ^ 8 = 2 ^ len r' * 2 ^ (nb - use)) by (rewrite <- pow2_add by lia; f_equal; unfold nb; lia). pose proof (pow2_pos (nb - use) ltac:(lia)). nia.
      - lia.
      - replace (2 ^ nb) with (2 ^ use * 2 ^ (nb - use)) by (rewrite <- pow2_add by lia; f_equal; lia). pose proof (pow2_pos (nb - use) ltac:(lia)). nia. }
    rewrite NX. assert (ES : (stream 8 Q ++ r) ++ bitsz n v = (stream 8 Q ++ r') ++ bitsz n' v') by (rewrite EB; unfold r'; rewrite <- !app_assoc; reflexivity). rewrite ES.
    destruct (Z.eqb_spec (nb - use) 0) as [E8|E8].
    + assert (L8 : len r' = 8) by (unfold nb in E8; lia). rewrite L8 in *. change (8 - 8) with 0 in *. change (2 ^ 0) with 1 in *. rewrite Z.mul_1_r in *.
      assert (SB : stream 8 (Q ++ [bval r']) = stream 8 Q ++ r').
      { rewrite stream_app. f_equal. unfold stream. cbn [map concat]. rewrite app_nil_r. unfold bitsz. assert (N8 : length r' = Z.to_nat 8) by (unfold len in L8; lia). rewrite <- N8. apply bitsn_bval. }
      assert (HQ' : Forall is_byte8 (Q ++ [bval r'])). { apply Forall_app. split; [exact HQ|]. constructor; [|constructor]. unfold is_byte8. change (2 ^ 8) with 256 in BB. exact BB. }
      destruct (Z.leb_spec (L - 1) (H0 + len (stuff Q))) as [Lfull|Lok].
      * rewrite <- SB. apply ofull_app. exists Q, (bval r'), []. rewrite app_nil_r. split; [reflexivity|]. split; [exact HQ'|exact Lfull].
      * destruct (stuff_put (b_out o) H0 Q (bval r') E4) as (A & B & C). cbv zeta in A, B, C. apply IH; [unfold n'; lia|unfold n'; lia|exact Hv'|].
        exists (Q ++ [bval r']), []. rewrite SB, app_nil_r. split; [reflexivity|]. split; [exact HQ'|]. split; [cbn; lia|]. cbn [b_out b_w b_next b_nb bval]. split; [reflexivity|]. split; [reflexivity|]. split; [exact C|]. split; [exact A|].
        split; [|rewrite C in *; rewrite <- C; destruct (bval r' =? 255); lia]. intros p Hp. rewrite C in Hp. rewrite B by exact Hp. apply E5. destruct Hp as [Hp|Hp]; [left; exact Hp|right]. rewrite E3. rewrite stuff_app in Hp. unfold len in *. rewrite app_length in Hp. lia.
    + apply IH; [unfold n'; lia|unfold n'; lia|exact Hv'|]. exists Q, r'. split; [reflexivity|]. split; [exact HQ|]. split; [assert (len r' < 8) by (unfold nb in E8, Hu; lia); unfold len in *; lia|]. cbn [b_out b_w b_next b_nb]. split; [unfold nb; lia|]. split; [reflexivity|]. split; [reflexivity|]. split; [exact E4|].
        rewrite <- E3. split; [exact E5|exact E6].
Qed.
End Writer.
