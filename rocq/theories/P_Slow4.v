(* liblj92 with SLOW_HUFF: lj92_open on a well-formed header, and the two builds side by side *)
From Verif Require Import Bits Spec Spec_Lj92 Spec_P6 Spec_Pn M_Lj92 M_Pred6 M_Slow P_Lj92 P_Lj92b P_Lj92c P_Lj92d P_Open P_Slow P_Slow2 P_Slow3.
Ltac Zify.zify_post_hook ::= idtac.

Definition sforce (t : option (list nat * list Z)) (f : option (Z * Z * Z * Z)) (h : lj_hdr) (tb : sl_tab) : Prop :=
  (forall bits vals, t = Some (bits, vals) -> tab_ok tb bits vals) /\
  (forall bd x y N, f = Some (bd, x, y, N) -> j_x h = x /\ j_y h = y /\ j_bits h = bd /\ j_comp h = N).

Lemma sseg_step dl f s rest d ix h tb t fr : seg_ok s -> byte_mem d -> 0 <= ix ->
  holds d ix (seg_bytes s ++ rest) -> ix + len (seg_bytes s) + 1 < dl -> sforce t fr h tb ->
  exists d' h' tb', sl_parse_image (S f) d dl ix h tb false = sl_parse_image f d' dl (ix + len (seg_bytes s)) h' tb' false /\ d_eq d d' /\
    (let '(t', fr') := in_force [s] t fr in sforce t' fr' h' tb').
Proof.
  intros Hs Hd Hix HH Hdl [HF1 HF2]. destruct s as [bits vals|bd x y comps|mk body].
  - destruct Hs as [Hok Hn]. pose proof Hok as (L16 & Lv & Hne & Hvr & HK). set (n := len vals) in *. assert (Hn' : 0 <= n <= 200) by (unfold n, len; lia).
    assert (FL : len (seg_bytes (SDht bits vals)) = 21 + n). { cbn [seg_bytes]. unfold dht, be16, n. rewrite !len_app_. unfold len. rewrite map_length, L16. cbn [length]. lia. }
    rewrite FL in *. cbn [seg_bytes] in HH. unfold dht, be16 in HH. fold n in HH. rewrite <- !app_assoc in HH. cbn [app] in HH.
    do 5 hc HH. apply holds_app in HH. destruct HH as [Hb HH]. apply holds_app in HH. destruct HH as [Hv _].
    assert (Lb : len (map Z.of_nat bits) = 16) by (unfold len; rewrite map_length; lia). rewrite Lb in *.
    assert (Fd : forall k, upd d (ix + 2 + 2) 0 k = d k) by (intros k; unfold upd; destruct (k =? ix + 2 + 2) eqn:Ek; [|reflexivity]; assert (k = ix + 2 + 2) by lia; subst k; rewrite <- B3; f_equal; lia).
    set (d' := upd d (ix + 2 + 2) 0) in *. cbn [sl_parse_image].
    rewrite (lfind_skip dl d 0 0xc4 ix); [|lia|lia|intros; lia|rewrite <- B; f_equal; lia|rewrite <- B0; f_equal; lia|lia].
    change (0xc4 =? 0xc4) with true. cbn beta iota. replace (ix + 0 + 2) with (ix + 2) by lia. unfold sl_parse_huff. fold d'.
    assert (Eb : beh d' (ix + 2) = 19 + n) by (apply beh_be16; [lia|rewrite Fd; rewrite <- B1; f_equal; lia|rewrite Fd; rewrite <- B2; f_equal; lia]). rewrite Eb. cbv zeta.
    replace (dl <=? ix + 2 + (19 + n)) with false by lia. replace (19 + n <? 19) with false by lia.
    destruct (tab_built (fun k => d' (ix + 2 + 2 + k)) bits vals Hok) as (codes & EC & HT).
    { intros k Hk. rewrite Fd. replace (ix + 2 + 2 + (1 + Z.of_nat k)) with (ix + 1 + 1 + 1 + 1 + 1 + Z.of_nat k) by lia. rewrite Hb by (rewrite map_length; lia). change 0 with (Z.of_nat 0). rewrite map_nth. reflexivity. }
    rewrite EC. change (NONE =? NONE) with true. cbn beta iota. cbn [orb].
    eexists d', _, _. replace (ix + 2 + (19 + n)) with (ix + (21 + n)) by lia. split; [reflexivity|]. split; [exact Fd|]. cbn [in_force]. split; [|exact HF2]. intros b v EE. injection EE as <- <-. apply HT. cbn [t_val].
    replace (Z.to_nat (19 + n - 19)) with (length vals) by (unfold n, len; lia).
    assert (G : forall l o, (forall k, (k < length l)%nat -> d' (ix + 2 + 19 + Z.of_nat (o + k)) = nth k l 0) -> map (fun k => d' (ix + 2 + 19 + Z.of_nat k)) (seq o (length l)) = l).
    { clear. induction l as [|z l IH]; intros o H; [reflexivity|]. cbn [length seq map]. f_equal; [specialize (H 0%nat ltac:(cbn; lia)); rewrite Nat.add_0_r in H; exact H|]. apply IH. intros k Hk. specialize (H (S k) ltac:(cbn; lia)). cbn [nth] in H. rewrite <- H. do 3 f_equal. lia. }
    apply G. intros k Hk. rewrite Fd. cbn [plus]. replace (ix + 2 + 19 + Z.of_nat k) with (ix + 1 + 1 + 1 + 1 + 1 + 16 + Z.of_nat k) by lia. apply Hv. exact Hk.
  - destruct Hs as (Hx & Hy & Hc3 & Hc). pose proof (len_pos comps) as Lc0. set (n := len comps) in *. assert (En : n = 3 * (n / 3)) by (pose proof (Z.div_mod n 3 ltac:(lia)); lia). assert (Hn3 : 0 <= n / 3) by (apply Z.div_pos; lia).
    assert (FL : len (seg_bytes (SSof bd x y comps)) = 10 + n). { cbn [seg_bytes]. unfold be16. fold n. rewrite !len_app_. fold n. unfold len. cbn [length]. lia. }
    rewrite FL in *. cbn [seg_bytes] in HH. unfold be16 in HH. fold n in HH. rewrite <- !app_assoc in HH. cbn [app] in HH. do 10 hc HH. cbn [sl_parse_image].
    rewrite (lfind_skip dl d 0 0xc3 ix); [|lia|lia|intros; lia|rewrite <- B; f_equal; lia|rewrite <- B0; f_equal; lia|lia].
    change (0xc3 =? 0xc4) with false. change (0xc3 =? 0xc3) with true. cbn beta iota. replace (ix + 0 + 2) with (ix + 2) by lia. unfold parse_sof3.
    replace (dl <=? ix + 2 + 6) with false by lia. change (NONE =? NONE) with true. cbn beta iota.
    assert (Eb : beh d (ix + 2) = 8 + n) by (apply beh_be16; [lia|rewrite <- B1; f_equal; lia|rewrite <- B2; f_equal; lia]). rewrite Eb.
    assert (Ey : beh d (ix + 2 + 3) = y) by (apply beh_be16; [lia|rewrite <- B4|rewrite <- B5]; f_equal; lia).
    assert (Ex : beh d (ix + 2 + 5) = x) by (apply beh_be16; [lia|rewrite <- B6|rewrite <- B7]; f_equal; lia). rewrite Ex, Ey.
    eexists d, _, tb. replace (ix + 2 + (8 + n)) with (ix + (10 + n)) by lia. split; [reflexivity|]. split; [intros k; reflexivity|].
    cbn [in_force]. split; cbn [j_x j_y j_bits j_comp]; [exact HF1|]. intros b x' y' N EE. injection EE as <- <- <- <-. split; [reflexivity|]. split; [reflexivity|]. split; [rewrite <- B3; f_equal; lia|fold n; rewrite <- B8; f_equal; lia].
  - destruct Hs as (Hm & Hl). pose proof (len_pos body) as L0. set (n := len body) in *.
    assert (FL : len (seg_bytes (SSkip mk body)) = 4 + n). { cbn [seg_bytes]. unfold be16. fold n. rewrite !len_app_. fold n. unfold len. cbn [length]. lia. }
    rewrite FL in *. cbn [seg_bytes] in HH. unfold be16 in HH. fold n in HH. rewrite <- !app_assoc in HH. cbn [app] in HH. do 4 hc HH. cbn [sl_parse_image].
    rewrite (lfind_skip dl d 0 mk ix); [|lia|lia|intros; lia|rewrite <- B; f_equal; lia|rewrite <- B0; f_equal; lia|lia].
    replace (mk =? 0xc4) with false by lia. replace (mk =? 0xc3) with false by lia. replace (mk =? 0xd9) with false by lia. replace (mk =? 0xda) with false by lia. replace (mk =? -1) with false by lia.
    replace (ix + 0 + 2) with (ix + 2) by lia. unfold parse_block.
    assert (Eb : beh d (ix + 2) = 2 + n) by (apply beh_be16; [lia|rewrite <- B1; f_equal; lia|rewrite <- B2; f_equal; lia]). rewrite Eb.
    replace (dl <=? ix + 2 + (2 + n)) with false by lia. change (NONE =? NONE) with true. cbn beta iota.
    eexists d, h, tb. replace (ix + 2 + (2 + n)) with (ix + (4 + n)) by lia. split; [reflexivity|]. split; [intros k; reflexivity|]. cbn [in_force]. split; assumption.
Qed.
Lemma ssegs_ok dl sos : forall segs fuel d ix h tb t fr, Forall seg_ok segs -> byte_mem d -> 0 <= ix -> (length segs <= fuel)%nat ->
  holds d ix (flat_map seg_bytes segs ++ sos) -> ix + len (flat_map seg_bytes segs) + 1 < dl -> sforce t fr h tb ->
  exists d' h' tb', sl_parse_image fuel d dl ix h tb false = sl_parse_image (fuel - length segs) d' dl (ix + len (flat_map seg_bytes segs)) h' tb' false /\ d_eq d d' /\
    (let '(t', fr') := in_force segs t fr in sforce t' fr' h' tb').
Proof.
  induction segs as [|s segs IH]; intros fuel d ix h tb t fr HS Hd Hix Hf HH Hdl HR.
  - exists d, h, tb. cbn [length]. rewrite Nat.sub_0_r. cbn [flat_map]. change (len []) with 0. rewrite Z.add_0_r. split; [reflexivity|]. split; [intros k; reflexivity|exact HR].
  - apply Forall_cons_iff in HS. destruct HS as [Hs HS]. cbn [flat_map] in *. rewrite <- app_assoc in HH. rewrite len_app_ in *. cbn [length] in Hf. destruct fuel as [|f]; [lia|].
    pose proof (len_pos (flat_map seg_bytes segs)).
    destruct (sseg_step dl f s (flat_map seg_bytes segs ++ sos) d ix h tb t fr Hs Hd Hix HH ltac:(lia) HR) as (d1 & h1 & tb1 & E1 & D1 & F1).
    apply holds_app in HH. destruct HH as [_ HH]. assert (Hd1 : byte_mem d1) by (intros k; rewrite D1; apply Hd).
    rewrite in_force_cons. destruct (in_force [s] t fr) as [t1 fr1] eqn:EF. pose proof (seg_len s Hs).
    destruct (IH f d1 (ix + len (seg_bytes s)) h1 tb1 t1 fr1 HS Hd1 ltac:(lia) ltac:(lia) (holds_ext _ _ _ _ D1 HH) ltac:(lia) F1) as (d2 & h2 & tb2 & E2 & D2 & F2).
    exists d2, h2, tb2. rewrite E1, E2. split; [cbn [length]; rewrite Z.add_assoc; reflexivity|]. split; [intros k; rewrite D2; apply D1|exact F2].
Qed.
Lemma sopen_n d segs p sel tail scan bits vals bd x y N : byte_mem d -> wf_header segs sel tail bits vals bd x y N -> 0 <= N <= 255 ->
  let file := pn_file segs p sel tail scan in holds d 0 file ->
  exists d' h tb, sl_open d (len file) = (NONE, d', h, tb, false) /\ d_eq d d' /\ j_x h = x /\ j_y h = y /\ j_bits h = bd /\ j_comp h = N /\ j_scan h = 4 + len (flat_map seg_bytes segs) /\ tab_ok tb bits vals.
Proof.
  intros Hd (HS & HF & Hsel & Htail) HN file HH. set (A := flat_map seg_bytes segs) in *. pose proof (len_pos A). pose proof (len_pos scan). pose proof (len_pos sel).
  assert (FL : len file = 4 + len A + (6 + 2 * N) + len scan + 2).
  { unfold file, pn_file, sos_n, be16. fold A. rewrite !len_app_. rewrite Htail, Hsel. unfold len. cbn [length]. lia. }
  set (dl := len file) in *. clearbody dl. unfold file, pn_file in HH. fold A in HH. cbn [app] in HH. do 2 hc HH. change (0 + 1) with 1 in *. change (1 + 1) with 2 in *.
  unfold sl_open. rewrite (lfind_skip dl d 0 0xd8 0); [|lia|lia|intros; lia|exact B|exact B0|lia]. change (0xd8 =? 0xd8) with true. cbn beta iota. change (0 + 0 + 2) with 2.
  pose proof (segs_len segs HS) as SL. fold A in SL.
  destruct (ssegs_ok dl (sos_n p sel tail ++ scan ++ [255; 0xd9]) segs (Z.to_nat dl) d 2 hdr0 tab0 None None HS Hd ltac:(lia) ltac:(unfold len in *; lia) HH) as (d1 & h1 & tb1 & E1 & D1 & F1).
  { fold A. lia. } { split; discriminate. }
  rewrite HF in F1. destruct F1 as [F1 F2]. specialize (F1 _ _ eq_refl). specialize (F2 _ _ _ _ eq_refl).
  rewrite E1. apply holds_app in HH. destruct HH as [_ HH]. fold A in HH |- *. set (q := 2 + len A) in *.
  destruct (Z.to_nat dl - length segs)%nat as [|f] eqn:Ef; [unfold len in *; lia|]. cbn [sl_parse_image].
  unfold sos_n, be16 in HH. rewrite <- !app_assoc in HH. cbn [app] in HH. do 2 hc HH.
  rewrite (lfind_skip dl d1 0 0xda q); [|unfold q; lia|unfold q; lia|intros; lia|rewrite D1; rewrite <- B1; f_equal; lia|rewrite D1; rewrite <- B2; f_equal; lia|unfold q; lia].
  change (0xda =? 0xc4) with false. change (0xda =? 0xc3) with false. change (0xda =? 0xd9) with false. change (0xda =? 0xda) with true. cbn beta iota.
  eexists d1, _, tb1. split; [reflexivity|]. split; [exact D1|]. cbn [j_x j_y j_bits j_comp j_scan]. destruct F2 as (? & ? & ? & ?). do 4 (split; [assumption|]). split; [unfold q; lia|exact F1].
Qed.

(* ------------------------------------------------------------------ the two builds *)
Lemma refill_ext d1 d2 : (forall k, d1 k = d2 k) -> forall f need s, refill f d1 need s = refill f d2 need s.
Proof. intros H. induction f as [|f IH]; intros need s; cbn [refill]; [reflexivity|]. rewrite !H. destruct (n_cnt s <? need); [|reflexivity]. cbv zeta. destruct (_ =? 255); [apply IH|]. destruct (_ =? 255); apply IH. Qed.
Lemma nextdiff_ext U d1 d2 M lut s : (forall k, d1 k = d2 k) -> nextdiff U d1 M lut s = nextdiff U d2 M lut s.
Proof. intros H. unfold nextdiff. rewrite !(refill_ext d1 d2 H). reflexivity. Qed.
Lemma beh_ext (d1 d2 : lmem) k : (forall k, d1 k = d2 k) -> beh d1 k = beh d2 k.
Proof. intros H. unfold beh. rewrite !H. reflexivity. Qed.

Lemma decode_g_hdr nd d1 d2 h1 h2 dl a wl rows img : (forall k, d1 k = d2 k) ->
  j_x h1 = j_x h2 -> j_y h1 = j_y h2 -> j_bits h1 = j_bits h2 -> j_comp h1 = j_comp h2 -> j_scan h1 = j_scan h2 ->
  decode_g nd d1 h1 a rows img = decode_g nd d2 h2 a rows img /\ parse_pred6_g nd d1 dl h1 a wl rows img = parse_pred6_g nd d2 dl h2 a wl rows img.
Proof.
  intros HD. destruct h1 as [x1 y1 b1 c1 s1 m1 l1], h2 as [x2 y2 b2 c2 s2 m2 l2]. cbn [j_x j_y j_bits j_comp j_scan]. intros -> -> -> -> ->.
  set (h1 := {| j_x := x2; j_y := y2; j_bits := b2; j_comp := c2; j_scan := s2; j_huffbits := m1; j_lut := l1 |}). set (h2 := {| j_x := x2; j_y := y2; j_bits := b2; j_comp := c2; j_scan := s2; j_huffbits := m2; j_lut := l2 |}). split.
  - unfold decode_g. rewrite !HD, (beh_ext d1 d2) by exact HD. reflexivity.
  - assert (R : forall f s, p6_rows_g nd f dl h1 a wl s = p6_rows_g nd f dl h2 a wl s).
    { induction f as [|f IH]; intros s; [reflexivity|]. cbn [p6_rows_g]. change (p6_row_g nd dl h1 a wl s) with (p6_row_g nd dl h2 a wl s). change (pixels h1) with (pixels h2). destruct (q_c s <? _); [|reflexivity]. destruct (p6_row_g nd dl h2 a wl s); [apply IH|reflexivity]. }
    unfold parse_pred6_g. rewrite (beh_ext d1 d2) by exact HD. change (j_scan h1) with (j_scan h2). change (j_x h1) with (j_x h2). change (j_y h1) with (j_y h2). change (j_bits h1) with (j_bits h2). cbv zeta.
    match goal with |- context [p6_put_g nd h1 ?a ?c ?p ?o ?s] => change (p6_put_g nd h1 a c p o s) with (p6_put_g nd h2 a c p o s) end.
    destruct (p6_put_g _ _ _ _ _ _ _) as [z|r z]; [|reflexivity]. destruct (p6_end dl z); [reflexivity|]. change (p6_first_body_g nd dl h1 a wl) with (p6_first_body_g nd dl h2 a wl). destruct (p6_loop _ _ _) as [z1|r z1]; [apply R|reflexivity].
Qed.

Lemma receive_seto d o : forall n v s, sl_receive n d v (seto o s) = (fst (sl_receive n d v s), seto o (snd (sl_receive n d v s))).
Proof. induction n as [|n IH]; intros v s; [reflexivity|]. cbn [sl_receive]. change (sl_nextbit d (seto o s)) with (fst (sl_nextbit d s), seto o (snd (sl_nextbit d s))). destruct (sl_nextbit d s) as [b s']. cbn [fst snd]. apply IH. Qed.
Lemma rel_seto d o1 o2 s1 s2 : rel d s1 s2 -> rel d (seto o1 s1) (seto o2 s2).
Proof.
  intros (C & W & s3 & E & Hc & Hx). split; [exact C|]. split; [exact W|]. exists (seto o2 s3). unfold rcv in *. cbn [seto n_cnt n_b n_ix]. rewrite receive_seto, E. auto.
Qed.
Definition nd_body (U : Z) (r : Z -> nd_st -> nd_st) (huffbits : Z) (lut : list Z) (s : nd_st) : Z * nd_st :=
  let s1 := r huffbits s in
  let index := Z.shiftr (n_b s1) (n_cnt s1 - huffbits) in
  let ssssused := nth (Z.to_nat index) lut 0 in
  let usedbits := Z.land ssssused 255 in
  let t := Z.shiftr ssssused 8 in
  let oob := n_oob s1 || (index <? 0) || (Z.of_nat (length lut) <=? index) || (16 <=? t) in
  let cnt := n_cnt s1 - usedbits in
  let b := Z.land (n_b s1) (Z.shiftl 1 cnt - 1) in
  let s2 := r t {| n_b := b; n_cnt := cnt; n_ix := n_ix s1; n_hi := n_hi s1; n_oob := oob |} in
  let cnt := n_cnt s2 - t in
  let diff := Z.shiftr (n_b s2) cnt in
  let diff := if diff <? shl1 U (t - 1) then diff + (Z.shiftl (-1) t + 1) else diff in
  (diff, {| n_b := Z.land (n_b s2) (Z.shiftl 1 cnt - 1); n_cnt := cnt; n_ix := n_ix s2; n_hi := n_hi s2; n_oob := n_oob s2 |}).
Lemma nd_body_mono U r M lut s : (forall n s, n_oob s = true -> n_oob (r n s) = true) -> n_oob s = true -> n_oob (snd (nd_body U r M lut s)) = true.
Proof. intros G H. unfold nd_body. cbn [snd n_oob]. apply G. cbn [n_oob]. rewrite (G M s H). reflexivity. Qed.
Lemma nd_body_eq U d M lut s : nextdiff U d M lut s = nd_body U (fun n s => refill 4 d n s) M lut s.
Proof. reflexivity. Qed.
Lemma refill_oob d : forall f need s, n_oob (refill f d need s) = n_oob s.
Proof.
  induction f as [|f IH]; intros need s; [reflexivity|]. cbn [refill]. destruct (n_cnt s <? need); [|reflexivity]. cbv zeta. destruct (d (n_ix s) =? 255); [rewrite IH; reflexivity|]. destruct (d (n_ix s + 1) =? 255); rewrite IH; reflexivity.
Qed.
Lemma nextdiff_mono U d M lut s : n_oob s = true -> n_oob (snd (nextdiff U d M lut s)) = true.
Proof. intros H. rewrite nd_body_eq. apply nd_body_mono; [|exact H]. intros n s0 H0. rewrite refill_oob. exact H0. Qed.
Lemma sl_nextdiff_mono U d t s : n_oob s = true -> n_oob (snd (sl_nextdiff U d t s)) = true.
Proof.
  intros H. unfold sl_nextdiff. assert (NB : forall s, n_oob (snd (sl_nextbit d s)) = n_oob s) by reflexivity. pose proof (NB s) as N1. destruct (sl_nextbit d s) as [b s1]. cbn [snd] in N1.
  assert (DM : forall f i c s, n_oob s = true -> n_oob (snd (sl_decode f d t i c s)) = true).
  { clear. induction f as [|f IH]; intros i c s H; [reflexivity|]. cbn [sl_decode]. destruct (16 <? i); [reflexivity|]. destruct (t_max t i <? c); [pose proof (eq_refl : n_oob (snd (sl_nextbit d s)) = n_oob s) as N; destruct (sl_nextbit d s) as [b s1]; cbn [snd] in N; apply IH; congruence|].
    cbv zeta. destruct (_ || _); [reflexivity|exact H]. }
  assert (RM : forall n v s, n_oob (snd (sl_receive n d v s)) = n_oob s).
  { clear. induction n as [|n IH]; intros v s; [reflexivity|]. cbn [sl_receive]. pose proof (eq_refl : n_oob (snd (sl_nextbit d s)) = n_oob s) as N. destruct (sl_nextbit d s) as [b s1]. cbn [snd] in N. rewrite IH. exact N. }
  specialize (DM 17%nat 1 b s1 ltac:(congruence)). destruct (sl_decode 17 d t 1 b s1) as [c s2]. cbn [snd] in DM. specialize (RM (Z.to_nat c) 0 s2). destruct (sl_receive (Z.to_nat c) d 0 s2) as [v s3]. cbn [snd] in *. congruence.
Qed.

Lemma builds_agree U d1 d2 dl h1 h2 t bits vals a wl rows img : byte_mem d2 -> (forall k, d1 k = d2 k) ->
  j_x h1 = j_x h2 -> j_y h1 = j_y h2 -> j_bits h1 = j_bits h2 -> j_comp h1 = j_comp h2 -> j_scan h1 = j_scan h2 ->
  dht_ok bits vals -> lut_ok (j_huffbits h1) (j_lut h1) bits vals -> tab_ok t bits vals ->
  let p := d2 (j_scan h2 + 3 + 2 * d2 (j_scan h2 + 2)) in
  let '(r1, i1, n1) := lj92_decode_all U d1 dl h1 a wl rows img in
  let '(r2, i2, n2) := sl_decode_all U d2 dl h2 t a wl rows img in
  (p <> 6 -> (r1 = r2 /\ i1 = i2 /\ n_oob n1 = n_oob n2) \/ (n_oob n1 = true /\ (n_oob n2 = true \/ In 16 vals))) /\
  (p = 6 -> 1 <= j_x h2 < 65536 -> 0 <= j_y h2 < 65536 -> r1 = NONE -> n_oob n1 = false -> r2 = NONE /\ i2 = i1 /\ n_oob n2 = false).
Proof.
  intros Hd HD Ex Ey Eb Ec Es (L16 & Lv & Hne & Hvr & HK) HL HT p. rewrite <- decode_g_fast. unfold sl_decode_all, decode_all_g.
  set (nd1 := nextdiff U d1 (j_huffbits h1) (j_lut h1)). set (nd2 := sl_nextdiff U d2 t).
  assert (Hrel : forall s1 s2, rel d2 s1 s2 -> let '(v1, s1') := nd1 s1 in let '(v2, s2') := nd2 s2 in
    (n_oob s1' = n_oob s1 /\ n_oob s2' = n_oob s2 /\ v1 = v2 /\ rel d2 s1' s2') \/ (n_oob s1' = true /\ (n_oob s2' = true \/ In 16 vals))).
  { intros s1 s2 HR. unfold nd1, nd2. rewrite (nextdiff_ext U d1 d2) by exact HD. apply (nextdiff_rel d2 Hd t bits vals HT L16 Lv U _ _ HL Hvr s1 s2 HR). }
  assert (H0 : forall s1 s2, n_ix s1 = n_ix s2 -> n_cnt s1 = 0 -> n_cnt s2 = 0 -> n_b s1 = 0 -> n_b s2 = 0 -> rel d2 s1 s2).
  { intros s1 s2 E1 E2 E3 E4 E5. split; [lia|]. split; [unfold sl_wf; lia|]. exists s2. unfold rcv. rewrite E2, E4. cbn [Z.to_nat sl_receive]. split; [reflexivity|]. split; [exact E3|congruence]. }
  assert (M1 : forall s, n_oob s = true -> n_oob (snd (nd1 s)) = true) by (intros; apply nextdiff_mono; assumption).
  assert (M2 : forall s, n_oob s = true -> n_oob (snd (nd2 s)) = true) by (intros; apply sl_nextdiff_mono; assumption).
  assert (HI : forall s1 s2, rel d2 s1 s2 -> n_ix s2 <= n_ix s1) by (intros s1 s2; apply rel_ix; exact Hd).
  destruct (decode_g_hdr nd1 d1 d2 h1 h2 dl a wl rows img HD Ex Ey Eb Ec Es) as [G1 G2]. rewrite G1, G2.
  pose proof (decode_rel nd1 nd2 (rel d2) (In 16 vals) Hrel (rel_seto d2) M1 M2 h2 a d2 rows img H0) as K.
  assert (D6 : forall nd, (decode_g nd d2 h2 a rows img = None <-> p = 6)).
  { intros nd. unfold decode_g. cbv zeta. fold p. destruct (7 <? p) eqn:E7; [split; [discriminate|lia]|]. destruct (p =? 6) eqn:E6; [split; [lia|reflexivity]|]. split; [destruct (for_loop _ _ _ _); discriminate|lia]. }
  pose proof (D6 nd1) as D1. pose proof (D6 nd2) as D2.
  destruct (decode_g nd1 d2 h2 a rows img) as [[r1 s1]|], (decode_g nd2 d2 h2 a rows img) as [[r2 s2]|]; try contradiction.
  - split; [intros _; destruct K as [(K1 & K2 & K3 & K4)|K]; [left; auto|right; exact K]|]. intros Hp. apply D1 in Hp. discriminate.
  - destruct (parse_pred6_g nd1 d2 dl h2 a wl rows img) as [r1 x1] eqn:E1. destruct (parse_pred6_g nd2 d2 dl h2 a wl rows img) as [r2 x2] eqn:E2. split; [intros Hp; exfalso; apply Hp; apply D1; reflexivity|].
    intros _ Hx Hy -> Ho. destruct (pred6_lock nd1 nd2 (rel d2) (In 16 vals) Hrel (rel_seto d2) M1 HI h2 a d2 dl wl rows img x1 H0 Hx Hy E1 Ho) as (y' & F1 & F2 & F3 & _).
    rewrite E2 in F1. injection F1 as -> ->. auto.
Qed.
