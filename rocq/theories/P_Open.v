(* lj92_open on any well-formed header *)
From Verif Require Import Bits Spec Spec_Lj92 Spec_P6 Spec_Pn M_Lj92 P_Lj92 P_Lj92b P_Lj92c P_Lj92d.
Ltac Zify.zify_post_hook ::= idtac.

Definition force_rel (t : option (list nat * list Z)) (f : option (Z * Z * Z * Z)) (h : lj_hdr) : Prop :=
  (forall bits vals, t = Some (bits, vals) -> lut_ok (j_huffbits h) (j_lut h) bits vals) /\
  (forall bd x y N, f = Some (bd, x, y, N) -> j_x h = x /\ j_y h = y /\ j_bits h = bd /\ j_comp h = N).

Lemma len_pos {A} (l : list A) : 0 <= len l. Proof. unfold len. lia. Qed.
Lemma len_app_ {A} (a b : list A) : len (a ++ b) = len a + len b. Proof. unfold len. rewrite app_length. lia. Qed.

Definition d_eq (d d' : lmem) : Prop := forall k, d' k = d k.

(* one segment: parse_image goes on behind it (for DHT: somewhere before the next 255, which is behind it) *)
Lemma seg_step dl f s rest d ix h t fr : seg_ok s -> byte_mem d -> 0 <= ix ->
  holds d ix (seg_bytes s ++ rest) -> (exists r', rest = 255 :: r') -> ix + len (seg_bytes s) + 1 < dl -> force_rel t fr h ->
  forall ix0, 0 <= ix0 <= ix -> (forall k, ix0 <= k < ix -> d k <> 255) ->
  exists d' h' ix1, parse_image (S f) d dl ix0 h = parse_image f d' dl ix1 h' /\ d_eq d d' /\ 0 <= ix1 <= ix + len (seg_bytes s) /\
    (forall k, ix1 <= k < ix + len (seg_bytes s) -> d k <> 255) /\
    (let '(t', fr') := in_force [s] t fr in force_rel t' fr' h').
Proof.
  intros Hs Hd Hix HH [r' Hr] Hdl [HF1 HF2] ix0 Hi0 Hno. destruct s as [bits vals|bd x y comps|mk body].
  - (* DHT *)
    destruct Hs as [Hok Hn]. pose proof Hok as (L16 & Lv & Hne & Hvr & HK). set (n := len vals) in *. assert (Hn' : 0 <= n <= 200) by (unfold n, len; lia).
    assert (FL : len (seg_bytes (SDht bits vals)) = 21 + n). { cbn [seg_bytes]. unfold dht, be16, n. rewrite !len_app_. unfold len. rewrite map_length, L16. cbn [length]. lia. }
    rewrite FL in *. cbn [seg_bytes] in HH. unfold dht, be16 in HH. fold n in HH. rewrite <- !app_assoc in HH. cbn [app] in HH.
    do 5 hc HH. apply holds_app in HH. destruct HH as [Hb HH]. apply holds_app in HH. destruct HH as [Hv _].
    assert (Lb : len (map Z.of_nat bits) = 16) by (unfold len; rewrite map_length; lia). rewrite Lb in *.
    assert (Fd : forall k, upd d (ix + 2 + 2) 0 k = d k) by (intros k; unfold upd; destruct (k =? ix + 2 + 2) eqn:Ek; [|reflexivity]; assert (k = ix + 2 + 2) by lia; subst k; rewrite <- B3; f_equal; lia).
    set (d' := upd d (ix + 2 + 2) 0) in *. cbn [parse_image].
    rewrite (lfind_skip dl d (ix - ix0) 0xc4 ix0); [|lia|lia|intros; apply Hno; lia|rewrite <- B; f_equal; lia|rewrite <- B0; f_equal; lia|lia].
    change (0xc4 =? 0xc4) with true. cbn beta iota. replace (ix0 + (ix - ix0) + 2) with (ix + 2) by lia. unfold parse_huff. fold d'.
    assert (Eb : beh d' (ix + 2) = 19 + n) by (apply beh_be16; [lia|rewrite Fd; rewrite <- B1; f_equal; lia|rewrite Fd; rewrite <- B2; f_equal; lia]). rewrite Eb.
    replace (dl <=? ix + 2 + (19 + n)) with false by lia. change (NONE =? NONE) with true. cbn beta iota.
    set (M := max_bits 16 _). set (lut := lut_loop _ _ _ _ _ _ _ _ _ _).
    assert (HL : lut_ok M lut bits vals).
    { apply lut_built; [exact Hok|intros k; rewrite Fd; apply Hd| | |exact Hn].
      - intros k Hk. rewrite Fd. replace (ix + 2 + 2 + (1 + Z.of_nat k)) with (ix + 1 + 1 + 1 + 1 + 1 + Z.of_nat k) by lia. rewrite Hb by (rewrite map_length; lia). change 0 with (Z.of_nat 0). rewrite map_nth. reflexivity.
      - intros k Hk. rewrite Fd. replace (ix + 2 + 19 + Z.of_nat k) with (ix + 1 + 1 + 1 + 1 + 1 + 16 + Z.of_nat k) by lia. apply Hv. exact Hk. }
    clearbody M lut. eexists d', _, (ix + 2). split; [reflexivity|]. split; [exact Fd|]. split; [lia|]. split.
    + intros k Hk. destruct (Z.eq_dec k (ix + 2)) as [->|]. { replace (ix + 2) with (ix + 1 + 1) by lia. rewrite B1. pose proof (Z.div_lt_upper_bound (19 + n) 256 2 ltac:(lia) ltac:(lia)). lia. }
      destruct (Z.eq_dec k (ix + 3)) as [->|]. { replace (ix + 3) with (ix + 1 + 1 + 1) by lia. rewrite B2. rewrite Z.mod_small by lia. lia. }
      destruct (Z.eq_dec k (ix + 4)) as [->|]. { replace (ix + 4) with (ix + 1 + 1 + 1 + 1) by lia. lia. }
      destruct (Z_lt_le_dec k (ix + 21)).
      * replace k with (ix + 1 + 1 + 1 + 1 + 1 + Z.of_nat (Z.to_nat (k - ix - 5))) by lia. rewrite Hb by (rewrite map_length; lia). change 0 with (Z.of_nat 0). rewrite map_nth.
        assert (Hin : In (nth (Z.to_nat (k - ix - 5)) bits 0%nat) bits) by (apply nth_In; lia). apply sum_bound in Hin. lia.
      * replace k with (ix + 1 + 1 + 1 + 1 + 1 + 16 + Z.of_nat (Z.to_nat (k - ix - 21))) by lia. rewrite Hv by (unfold n, len in Hk; lia).
        rewrite Forall_forall in Hvr. assert (Hin : In (nth (Z.to_nat (k - ix - 21)) vals 0) vals) by (apply nth_In; unfold n, len in Hk; lia). apply Hvr in Hin. lia.
    + cbn [in_force]. split; cbn [j_x j_y j_bits j_comp j_huffbits j_lut]; [intros b v EE; injection EE as <- <-; exact HL|exact HF2].
  - (* SOF3 *)
    destruct Hs as (Hx & Hy & Hc3 & Hc). pose proof (len_pos comps) as Lc0. set (n := len comps) in *. assert (En : n = 3 * (n / 3)) by (pose proof (Z.div_mod n 3 ltac:(lia)); lia). assert (Hn3 : 0 <= n / 3) by (apply Z.div_pos; lia).
    assert (FL : len (seg_bytes (SSof bd x y comps)) = 10 + n). { cbn [seg_bytes]. unfold be16. fold n. rewrite !len_app_. fold n. unfold len. cbn [length]. lia. }
    rewrite FL in *. cbn [seg_bytes] in HH. unfold be16 in HH. fold n in HH. rewrite <- !app_assoc in HH. cbn [app] in HH. do 10 hc HH. cbn [parse_image].
    rewrite (lfind_skip dl d (ix - ix0) 0xc3 ix0); [|lia|lia|intros; apply Hno; lia|rewrite <- B; f_equal; lia|rewrite <- B0; f_equal; lia|lia].
    change (0xc3 =? 0xc4) with false. change (0xc3 =? 0xc3) with true. cbn beta iota. replace (ix0 + (ix - ix0) + 2) with (ix + 2) by lia. unfold parse_sof3.
    replace (dl <=? ix + 2 + 6) with false by lia. change (NONE =? NONE) with true. cbn beta iota.
    assert (Eb : beh d (ix + 2) = 8 + n) by (apply beh_be16; [lia|rewrite <- B1; f_equal; lia|rewrite <- B2; f_equal; lia]). rewrite Eb.
    assert (Ey : beh d (ix + 2 + 3) = y) by (apply beh_be16; [lia|rewrite <- B4|rewrite <- B5]; f_equal; lia).
    assert (Ex : beh d (ix + 2 + 5) = x) by (apply beh_be16; [lia|rewrite <- B6|rewrite <- B7]; f_equal; lia). rewrite Ex, Ey.
    eexists d, _, (ix + 2 + (8 + n)). split; [reflexivity|]. split; [intros k; reflexivity|]. split; [lia|]. split; [intros; lia|].
    cbn [in_force]. split; cbn [j_x j_y j_bits j_comp j_huffbits j_lut]; [exact HF1|]. intros b x' y' N EE. injection EE as <- <- <- <-. split; [reflexivity|]. split; [reflexivity|]. split; [rewrite <- B3; f_equal; lia|fold n; rewrite <- B8; f_equal; lia].
  - (* skipped *)
    destruct Hs as (Hm & Hl). pose proof (len_pos body) as L0. set (n := len body) in *.
    assert (FL : len (seg_bytes (SSkip mk body)) = 4 + n). { cbn [seg_bytes]. unfold be16. fold n. rewrite !len_app_. fold n. unfold len. cbn [length]. lia. }
    rewrite FL in *. cbn [seg_bytes] in HH. unfold be16 in HH. fold n in HH. rewrite <- !app_assoc in HH. cbn [app] in HH. do 4 hc HH. cbn [parse_image].
    rewrite (lfind_skip dl d (ix - ix0) mk ix0); [|lia|lia|intros; apply Hno; lia|rewrite <- B; f_equal; lia|rewrite <- B0; f_equal; lia|lia].
    replace (mk =? 0xc4) with false by lia. replace (mk =? 0xc3) with false by lia. replace (mk =? 0xd9) with false by lia. replace (mk =? 0xda) with false by lia. replace (mk =? -1) with false by lia.
    replace (ix0 + (ix - ix0) + 2) with (ix + 2) by lia. unfold parse_block.
    assert (Eb : beh d (ix + 2) = 2 + n) by (apply beh_be16; [lia|rewrite <- B1; f_equal; lia|rewrite <- B2; f_equal; lia]). rewrite Eb.
    replace (dl <=? ix + 2 + (2 + n)) with false by lia. change (NONE =? NONE) with true. cbn beta iota.
    eexists d, h, (ix + 2 + (2 + n)). split; [reflexivity|]. split; [intros k; reflexivity|]. split; [lia|]. split; [intros; lia|]. cbn [in_force]. split; assumption.
Qed.
Lemma in_force_cons s r t f : in_force (s :: r) t f = let '(t', f') := in_force [s] t f in in_force r t' f'.
Proof. destruct s; reflexivity. Qed.
Lemma seg_len s : seg_ok s -> 1 <= len (seg_bytes s).
Proof. intros _. destruct s; cbn [seg_bytes dht]; unfold len; cbn; lia. Qed.

Lemma segs_ok dl sos r' : forall segs fuel d ix ix0 h t fr, Forall seg_ok segs -> byte_mem d -> 0 <= ix -> sos = 255 :: r' -> (length segs <= fuel)%nat ->
  holds d ix (flat_map seg_bytes segs ++ sos) -> ix + len (flat_map seg_bytes segs) + 1 < dl -> force_rel t fr h ->
  0 <= ix0 <= ix -> (forall k, ix0 <= k < ix -> d k <> 255) ->
  let ixe := ix + len (flat_map seg_bytes segs) in
  exists d' h' ix1, parse_image fuel d dl ix0 h = parse_image (fuel - length segs) d' dl ix1 h' /\ d_eq d d' /\ 0 <= ix1 <= ixe /\ (forall k, ix1 <= k < ixe -> d k <> 255) /\
    (let '(t', fr') := in_force segs t fr in force_rel t' fr' h').
Proof.
  induction segs as [|s segs IH]; intros fuel d ix ix0 h t fr HS Hd Hix Er Hf HH Hdl HR Hi0 Hno ixe.
  - exists d, h, ix0. cbn [length]. rewrite Nat.sub_0_r. unfold ixe. cbn [flat_map]. change (len []) with 0. rewrite Z.add_0_r. split; [reflexivity|]. split; [intros k; reflexivity|]. split; [lia|]. split; [exact Hno|]. exact HR.
  - apply Forall_cons_iff in HS. destruct HS as [Hs HS]. cbn [flat_map] in *. rewrite <- app_assoc in HH. rewrite len_app_ in *. cbn [length] in Hf. destruct fuel as [|f]; [lia|].
    pose proof (len_pos (flat_map seg_bytes segs)).
    assert (Hr : exists r0, flat_map seg_bytes segs ++ sos = 255 :: r0).
    { destruct segs as [|s2 segs]; [exists r'; exact Er|]. cbn [flat_map]. destruct s2; cbn [seg_bytes dht app]; eexists; reflexivity. }
    destruct (seg_step dl f s (flat_map seg_bytes segs ++ sos) d ix h t fr Hs Hd Hix HH Hr ltac:(lia) HR ix0 Hi0 Hno) as (d1 & h1 & ix1 & E1 & D1 & X1 & N1 & F1).
    apply holds_app in HH. destruct HH as [_ HH]. assert (Hd1 : byte_mem d1) by (intros k; rewrite D1; apply Hd).
    rewrite in_force_cons. destruct (in_force [s] t fr) as [t1 fr1] eqn:EF.
    pose proof (seg_len s Hs).
    destruct (IH f d1 (ix + len (seg_bytes s)) ix1 h1 t1 fr1 HS Hd1 ltac:(lia) Er ltac:(lia) (holds_ext _ _ _ _ D1 HH) ltac:(lia) F1 ltac:(lia)) as (d2 & h2 & ix2 & E2 & D2 & X2 & N2 & F2).
    { intros k Hk. rewrite D1. apply N1. exact Hk. }
    exists d2, h2, ix2. rewrite E1, E2. split; [reflexivity|]. split; [intros k; rewrite D2; apply D1|]. unfold ixe. rewrite len_app_. split; [lia|]. split; [|exact F2].
    intros k Hk. rewrite <- D1. apply N2. lia.
Qed.
Lemma segs_len segs : Forall seg_ok segs -> (length segs <= length (flat_map seg_bytes segs))%nat.
Proof.
  induction 1 as [|s segs Hs _ IH]; [cbn [length]; lia|]. cbn [flat_map length]. rewrite app_length. pose proof (seg_len s Hs). unfold len in *. lia.
Qed.

(* the whole header *)
Definition opened_n (bits : list nat) (vals : list Z) (bd x y N scan : Z) (h : lj_hdr) : Prop :=
  j_x h = x /\ j_y h = y /\ j_bits h = bd /\ j_comp h = N /\ j_scan h = scan /\ lut_ok (j_huffbits h) (j_lut h) bits vals.
Lemma open_n d segs p sel tail scan bits vals bd x y N : byte_mem d -> wf_header segs sel tail bits vals bd x y N -> 0 <= N <= 255 ->
  let file := pn_file segs p sel tail scan in holds d 0 file ->
  let st := 4 + len (flat_map seg_bytes segs) in
  exists d' h, lj92_open d (len file) = (NONE, d', h) /\ d_eq d d' /\ opened_n bits vals bd x y N st h /\
    beh d' st = 6 + 2 * N /\ d' (st + 2) = N /\ d' (st + 3 + 2 * N) = p /\
    len file = st + (6 + 2 * N) + len scan + 2 /\ holds d' (st + (6 + 2 * N)) (scan ++ [255; 0xd9]).
Proof.
  intros Hd (HS & HF & Hsel & Htail) HN file HH st. set (A := flat_map seg_bytes segs) in *. pose proof (len_pos A). pose proof (len_pos scan). pose proof (len_pos sel).
  assert (FL : len file = st + (6 + 2 * N) + len scan + 2).
  { unfold file, pn_file, sos_n, be16. fold A. rewrite !len_app_. rewrite Htail, Hsel. unfold st, len. cbn [length]. lia. }
  set (dl := len file) in *. clearbody dl. unfold file, pn_file in HH. fold A in HH. cbn [app] in HH. do 2 hc HH. change (0 + 1) with 1 in *. change (1 + 1) with 2 in *.
  unfold lj92_open. rewrite (lfind_skip dl d 0 0xd8 0); [|lia|lia|intros; lia|exact B|exact B0|lia]. change (0xd8 =? 0xd8) with true. cbn beta iota. change (0 + 0 + 2) with 2.
  pose proof (segs_len segs HS) as SL. fold A in SL.
  destruct (segs_ok dl (sos_n p sel tail ++ scan ++ [255; 0xd9]) _ segs (Z.to_nat dl) d 2 2 hdr0 None None HS Hd ltac:(lia) eq_refl ltac:(unfold len in *; lia) HH) as (d1 & h1 & ix1 & E1 & D1 & X1 & N1 & F1).
  { fold A. lia. } { split; discriminate. } { lia. } { intros; lia. }
  rewrite HF in F1. destruct F1 as [F1 F2]. specialize (F1 _ _ eq_refl). specialize (F2 _ _ _ _ eq_refl).
  fold A in X1, N1. rewrite E1. apply holds_app in HH. destruct HH as [_ HH]. fold A in HH. set (q := 2 + len A) in *.
  destruct (Z.to_nat dl - length segs)%nat as [|f] eqn:Ef; [unfold len in *; lia|]. cbn [parse_image].
  unfold sos_n, be16 in HH. rewrite <- !app_assoc in HH. cbn [app] in HH. do 5 hc HH.
  rewrite (lfind_skip dl d1 (q - ix1) 0xda ix1); [|lia|lia|intros k Hk; rewrite D1; apply N1; lia|rewrite D1; rewrite <- B1; f_equal; lia|rewrite D1; rewrite <- B2; f_equal; lia|lia].
  change (0xda =? 0xc4) with false. change (0xda =? 0xc3) with false. change (0xda =? 0xd9) with false. change (0xda =? 0xda) with true. cbn beta iota.
  assert (Es : ix1 + (q - ix1) + 2 = st) by (unfold q, st; lia). rewrite Es. eexists d1, _. split; [reflexivity|]. split; [exact D1|]. split.
  { unfold opened_n. cbn [j_x j_y j_bits j_comp j_scan j_huffbits j_lut]. destruct F2 as (? & ? & ? & ?). auto 8. }
  rewrite Hsel in *. assert (Eq : q = st - 2) by (unfold q, st; lia).
  split; [apply beh_be16; [lia|rewrite D1; rewrite <- B3; f_equal; lia|rewrite D1; rewrite <- B4; f_equal; lia]|].
  split. { rewrite D1. transitivity (2 * N / 2); [rewrite <- B5; f_equal; lia|]. symmetry. apply Z.div_unique with 0; lia. }
  apply holds_app in HH. destruct HH as [_ HH]. rewrite Hsel in HH. hc HH. split; [rewrite D1; rewrite <- B6; f_equal; lia|]. split; [exact FL|].
  apply holds_app in HH. destruct HH as [_ HH]. rewrite Htail in HH. apply (holds_ext d); [exact D1|]. replace (st + (6 + 2 * N)) with (q + 1 + 1 + 1 + 1 + 1 + 2 * N + 1 + 2) by lia. exact HH.
Qed.
