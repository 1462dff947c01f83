(* the heap on a well-formed header: one table for every DHT segment *)
From Coq Require Import Permutation.
From Verif Require Import Bits Spec Spec_Lj92 Spec_P6 Spec_Pn M_Lj92 P_Lj92 P_Lj92b P_Lj92c P_Lj92d P_Open P_Rob M_Enc92 M_Heap Spec_Heap P_Heap.
Ltac Zify.zify_post_hook ::= idtac.

(* n tables so far: the handle's and the lost ones *)
Definition cnt_inv (n : nat) (base : list nat) (lut : ptr) (H : heap) : Prop :=
  heap_ok H /\ exists lost, Permutation (hp_live H) (oblk lut ++ lost ++ base) /\ (length (oblk lut) + length lost = n)%nat /\ (lut = None -> lost = []).

Lemma hseg_step ok dl f s rest d ix h lut H base n : (forall k, ok k = true) -> cnt_inv n base lut H -> seg_ok s -> byte_mem d -> 0 <= ix ->
  holds d ix (seg_bytes s ++ rest) -> (exists r', rest = 255 :: r') -> ix + len (seg_bytes s) + 1 < dl ->
  forall ix0, 0 <= ix0 <= ix -> (forall k, ix0 <= k < ix -> d k <> 255) ->
  exists d' h' ix1 lut' H', hp_parse_image ok (S f) d dl ix0 h lut H = hp_parse_image ok f d' dl ix1 h' lut' H' /\ d_eq d d' /\ 0 <= ix1 <= ix + len (seg_bytes s) /\
    (forall k, ix1 <= k < ix + len (seg_bytes s) -> d k <> 255) /\
    cnt_inv (n + seg_dht s) base lut' H'.
Proof.
  intros Hok_ HC Hs Hd Hix HH [r' Hr] Hdl ix0 Hi0 Hno. destruct s as [bits vals|bd x y comps|mk body].
  - (* DHT *)
    destruct Hs as [Hok Hn]. pose proof Hok as (L16 & Lv & Hne & Hvr & HK). set (m := len vals) in *. assert (Hn' : 0 <= m <= 200) by (unfold m, len; lia).
    assert (FL : len (seg_bytes (SDht bits vals)) = 21 + m). { cbn [seg_bytes]. unfold dht, be16, m. rewrite !len_app_. unfold len. rewrite map_length, L16. cbn [length]. lia. }
    rewrite FL in *. cbn [seg_bytes] in HH. unfold dht, be16 in HH. fold m in HH. rewrite <- !app_assoc in HH. cbn [app] in HH.
    do 5 hc HH. apply holds_app in HH. destruct HH as [Hb HH]. apply holds_app in HH. destruct HH as [Hv _].
    assert (Lb : len (map Z.of_nat bits) = 16) by (unfold len; rewrite map_length; lia). rewrite Lb in *.
    assert (Fd : forall k, upd d (ix + 2 + 2) 0 k = d k) by (intros k; unfold upd; destruct (k =? ix + 2 + 2) eqn:Ek; [|reflexivity]; assert (k = ix + 2 + 2) by lia; subst k; rewrite <- B3; f_equal; lia).
    set (d' := upd d (ix + 2 + 2) 0) in *. cbn [hp_parse_image].
    rewrite (lfind_skip dl d (ix - ix0) 0xc4 ix0); [|lia|lia|intros; apply Hno; lia|rewrite <- B; f_equal; lia|rewrite <- B0; f_equal; lia|lia].
    change (0xc4 =? 0xc4) with true. cbn beta iota. replace (ix0 + (ix - ix0) + 2) with (ix + 2) by lia. unfold hp_parse_huff. fold d'.
    assert (Eb : beh d' (ix + 2) = 19 + m) by (apply beh_be16; [lia|rewrite Fd; rewrite <- B1; f_equal; lia|rewrite Fd; rewrite <- B2; f_equal; lia]). rewrite Eb.
    pose proof (parse_huff_fst d dl (ix + 2) h) as [PF1 PF2]. fold d' in PF1, PF2. rewrite Eb in PF1. replace (dl <=? ix + 2 + (19 + m)) with false in * by lia.
    destruct HC as (HO & lost & HP & HL & HN). pose proof (halloc_spec ok H HO) as HA. destruct (halloc ok H) as [p H1]. destruct HA as (A1 & A2 & A3 & A4). destruct p as [blk|]; [|destruct A4 as [A4 _]; specialize (A4 eq_refl); rewrite Hok_ in A4; discriminate].
    destruct (parse_huff d dl (ix + 2) h) as [[rr dd] hh]. cbn [fst snd] in PF1, PF2. subst rr dd. change (NONE =? NONE) with true. cbn beta iota.
    eexists d', hh, (ix + 2), (Some blk), H1. split; [reflexivity|]. split; [exact Fd|]. split; [lia|]. split.
    + intros k Hk. destruct (Z.eq_dec k (ix + 2)) as [->|]. { replace (ix + 2) with (ix + 1 + 1) by lia. rewrite B1. pose proof (Z.div_lt_upper_bound (19 + m) 256 2 ltac:(lia) ltac:(lia)). lia. }
      destruct (Z.eq_dec k (ix + 3)) as [->|]. { replace (ix + 3) with (ix + 1 + 1 + 1) by lia. rewrite B2. rewrite Z.mod_small by lia. lia. }
      destruct (Z.eq_dec k (ix + 4)) as [->|]. { replace (ix + 4) with (ix + 1 + 1 + 1 + 1) by lia. lia. }
      destruct (Z_lt_le_dec k (ix + 21)).
      * replace k with (ix + 1 + 1 + 1 + 1 + 1 + Z.of_nat (Z.to_nat (k - ix - 5))) by lia. rewrite Hb by (rewrite map_length; lia). change 0 with (Z.of_nat 0). rewrite map_nth.
        assert (Hin : In (nth (Z.to_nat (k - ix - 5)) bits 0%nat) bits) by (apply nth_In; lia). apply sum_bound in Hin. lia.
      * replace k with (ix + 1 + 1 + 1 + 1 + 1 + 16 + Z.of_nat (Z.to_nat (k - ix - 21))) by lia. rewrite Hv by (unfold m, len in Hk; lia).
        rewrite Forall_forall in Hvr. assert (Hin : In (nth (Z.to_nat (k - ix - 21)) vals 0) vals) by (apply nth_In; unfold m, len in Hk; lia). apply Hvr in Hin. lia.
    + cbn [seg_dht]. split; [exact A1|]. exists (oblk lut ++ lost). cbn [oblk app] in *. split; [rewrite A2, HP, <- app_assoc; reflexivity|]. split; [|discriminate]. rewrite app_length. cbn [length]. lia.
  - (* SOF3 *)
    destruct Hs as (Hx & Hy & Hc3 & Hc). pose proof (len_pos comps) as Lc0. set (m := len comps) in *. assert (En : m = 3 * (m / 3)) by (pose proof (Z.div_mod m 3 ltac:(lia)); lia). assert (Hn3 : 0 <= m / 3) by (apply Z.div_pos; lia).
    assert (FL : len (seg_bytes (SSof bd x y comps)) = 10 + m). { cbn [seg_bytes]. unfold be16. fold m. rewrite !len_app_. fold m. unfold len. cbn [length]. lia. }
    rewrite FL in *. cbn [seg_bytes] in HH. unfold be16 in HH. fold m in HH. rewrite <- !app_assoc in HH. cbn [app] in HH. do 10 hc HH. cbn [hp_parse_image].
    rewrite (lfind_skip dl d (ix - ix0) 0xc3 ix0); [|lia|lia|intros; apply Hno; lia|rewrite <- B; f_equal; lia|rewrite <- B0; f_equal; lia|lia].
    change (0xc3 =? 0xc4) with false. change (0xc3 =? 0xc3) with true. cbn beta iota. replace (ix0 + (ix - ix0) + 2) with (ix + 2) by lia. unfold parse_sof3.
    replace (dl <=? ix + 2 + 6) with false by lia. change (NONE =? NONE) with true. cbn beta iota.
    assert (Eb : beh d (ix + 2) = 8 + m) by (apply beh_be16; [lia|rewrite <- B1; f_equal; lia|rewrite <- B2; f_equal; lia]). rewrite Eb.
    assert (Ey : beh d (ix + 2 + 3) = y) by (apply beh_be16; [lia|rewrite <- B4|rewrite <- B5]; f_equal; lia).
    assert (Ex : beh d (ix + 2 + 5) = x) by (apply beh_be16; [lia|rewrite <- B6|rewrite <- B7]; f_equal; lia). rewrite Ex, Ey.
    eexists d, _, (ix + 2 + (8 + m)), lut, H. split; [reflexivity|]. split; [intros k; reflexivity|]. split; [lia|]. split; [intros; lia|].
    cbn [seg_dht]. rewrite Nat.add_0_r. exact HC.
  - (* skipped *)
    destruct Hs as (Hm & Hl). pose proof (len_pos body) as L0. set (m := len body) in *.
    assert (FL : len (seg_bytes (SSkip mk body)) = 4 + m). { cbn [seg_bytes]. unfold be16. fold m. rewrite !len_app_. fold m. unfold len. cbn [length]. lia. }
    rewrite FL in *. cbn [seg_bytes] in HH. unfold be16 in HH. fold m in HH. rewrite <- !app_assoc in HH. cbn [app] in HH. do 4 hc HH. cbn [hp_parse_image].
    rewrite (lfind_skip dl d (ix - ix0) mk ix0); [|lia|lia|intros; apply Hno; lia|rewrite <- B; f_equal; lia|rewrite <- B0; f_equal; lia|lia].
    replace (mk =? 0xc4) with false by lia. replace (mk =? 0xc3) with false by lia. replace (mk =? 0xd9) with false by lia. replace (mk =? 0xda) with false by lia. replace (mk =? -1) with false by lia.
    replace (ix0 + (ix - ix0) + 2) with (ix + 2) by lia. unfold parse_block.
    assert (Eb : beh d (ix + 2) = 2 + m) by (apply beh_be16; [lia|rewrite <- B1; f_equal; lia|rewrite <- B2; f_equal; lia]). rewrite Eb.
    replace (dl <=? ix + 2 + (2 + m)) with false by lia. change (NONE =? NONE) with true. cbn beta iota.
    eexists d, h, (ix + 2 + (2 + m)), lut, H. split; [reflexivity|]. split; [intros k; reflexivity|]. split; [lia|]. split; [intros; lia|]. cbn [seg_dht]. rewrite Nat.add_0_r. exact HC.
Qed.

Lemma hsegs_ok ok dl sos r' base : (forall k, ok k = true) -> forall segs fuel d ix ix0 h lut H n, cnt_inv n base lut H -> Forall seg_ok segs -> byte_mem d -> 0 <= ix -> sos = 255 :: r' -> (length segs <= fuel)%nat ->
  holds d ix (flat_map seg_bytes segs ++ sos) -> ix + len (flat_map seg_bytes segs) + 1 < dl ->
  0 <= ix0 <= ix -> (forall k, ix0 <= k < ix -> d k <> 255) ->
  let ixe := ix + len (flat_map seg_bytes segs) in
  exists d' h' ix1 lut' H', hp_parse_image ok fuel d dl ix0 h lut H = hp_parse_image ok (fuel - length segs) d' dl ix1 h' lut' H' /\ d_eq d d' /\ 0 <= ix1 <= ixe /\ (forall k, ix1 <= k < ixe -> d k <> 255) /\
    cnt_inv (n + list_sum (map seg_dht segs)) base lut' H'.
Proof.
  intros Hok_. induction segs as [|s segs IH]; intros fuel d ix ix0 h lut H n HC HS Hd Hix Er Hf HH Hdl Hi0 Hno ixe.
  - exists d, h, ix0, lut, H. cbn [length]. rewrite Nat.sub_0_r. unfold ixe. cbn [flat_map]. change (len []) with 0. rewrite Z.add_0_r. split; [reflexivity|]. split; [intros k; reflexivity|]. split; [lia|]. split; [exact Hno|].
    cbn [map list_sum fold_right]. unfold list_sum. cbn [fold_right]. rewrite Nat.add_0_r. exact HC.
  - apply Forall_cons_iff in HS. destruct HS as [Hs HS]. cbn [flat_map] in *. rewrite <- app_assoc in HH. rewrite len_app_ in *. cbn [length] in Hf. destruct fuel as [|f]; [lia|].
    pose proof (len_pos (flat_map seg_bytes segs)).
    assert (Hr : exists r0, flat_map seg_bytes segs ++ sos = 255 :: r0).
    { destruct segs as [|s2 segs]; [exists r'; exact Er|]. cbn [flat_map]. destruct s2; cbn [seg_bytes dht app]; eexists; reflexivity. }
    destruct (hseg_step ok dl f s (flat_map seg_bytes segs ++ sos) d ix h lut H base n Hok_ HC Hs Hd Hix HH Hr ltac:(lia) ix0 Hi0 Hno) as (d1 & h1 & ix1 & lut1 & K1 & E1 & D1 & X1 & N1 & F1).
    apply holds_app in HH. destruct HH as [_ HH]. assert (Hd1 : byte_mem d1) by (intros k; rewrite D1; apply Hd).
    pose proof (seg_len s Hs).
    destruct (IH f d1 (ix + len (seg_bytes s)) ix1 h1 lut1 K1 _ F1 HS Hd1 ltac:(lia) Er ltac:(lia) (holds_ext _ _ _ _ D1 HH) ltac:(lia) ltac:(lia)) as (d2 & h2 & ix2 & lut2 & K2 & E2 & D2 & X2 & N2 & F2).
    { intros k Hk. rewrite D1. apply N1. exact Hk. }
    exists d2, h2, ix2, lut2, K2. rewrite E1, E2. split; [reflexivity|]. split; [intros k; rewrite D2; apply D1|]. unfold ixe. rewrite len_app_. split; [lia|]. split.
    + intros k Hk. rewrite <- D1. apply N2. lia.
    + unfold list_sum in *. cbn [map fold_right]. rewrite Nat.add_assoc. exact F2.
Qed.
