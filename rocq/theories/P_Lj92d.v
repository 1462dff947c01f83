(* liblj92: parsing the header *)
From Verif Require Import Bits Spec Spec_Lj92 M_Predictor M_Lj92 P_Lj92 P_Lj92b P_Lj92c.
Ltac Zify.zify_post_hook ::= idtac.

Lemma holds_app d a l1 l2 : holds d a (l1 ++ l2) -> holds d a l1 /\ holds d (a + len l1) l2.
Proof.
  intros H. split; intros k Hk.
  - rewrite H by (rewrite app_length; lia). apply app_nth1. exact Hk.
  - unfold len. rewrite <- Z.add_assoc, <- Nat2Z.inj_add. rewrite H by (rewrite app_length; lia). rewrite app_nth2 by lia. f_equal. lia.
Qed.
Lemma holds_ext d d' a l : (forall k, d' k = d k) -> holds d a l -> holds d' a l.
Proof. intros E H k Hk. rewrite E. apply H. exact Hk. Qed.

Lemma find_ff_skip dl d m : forall fuel ix, (m < fuel)%nat -> (forall k, ix <= k < ix + Z.of_nat m -> d k <> 255) -> d (ix + Z.of_nat m) = 255 -> ix + Z.of_nat m <= dl - 1 ->
  find_ff fuel d dl ix = ix + Z.of_nat m.
Proof.
  induction m as [|m IH]; intros fuel ix Hf Hne He Hd; destruct fuel as [|f]; try lia; cbn [find_ff].
  - rewrite Z.add_0_r in He. rewrite He. cbn. lia.
  - assert (d ix <> 255) by (apply Hne; lia). replace (d ix =? 255) with false by lia. replace (ix <? dl - 1) with true by lia. cbn [negb andb].
    rewrite IH; try lia.
    + intros k Hk. apply Hne. lia.
    + rewrite <- He. f_equal. lia.
Qed.
Lemma lfind_skip dl d m mk ix : 0 <= m -> 0 <= ix -> (forall k, ix <= k < ix + m -> d k <> 255) -> d (ix + m) = 255 -> d (ix + m + 1) = mk -> ix + m + 2 < dl ->
  lfind d dl ix = (mk, ix + m + 2).
Proof.
  intros Hm Hi Hne He Hk Hd. unfold lfind. rewrite (find_ff_skip dl d (Z.to_nat m) (Z.to_nat dl) ix); rewrite ?Z2Nat.id by lia; try lia; try assumption.
  replace (dl <=? ix + m + 2) with false by lia. f_equal. rewrite <- Hk. f_equal. lia.
Qed.
Lemma beh_be16 d a x : 0 <= x < 65536 -> d a = x / 256 -> d (a + 1) = x mod 256 -> beh d a = x.
Proof.
  intros Hx E1 E2. unfold beh. rewrite E1, E2. pose proof (Z.mod_pos_bound x 256 ltac:(lia)). pose proof (Z.div_mod x 256 ltac:(lia)).
  rewrite lor_shl_add; change (2 ^ 8) with 256; lia.
Qed.

(* the handle after a successful open *)
Definition opened (bits : list nat) (vals : list Z) (bd x y : Z) (h : lj_hdr) : Prop :=
  j_x h = x /\ j_y h = y /\ j_bits h = bd /\ j_comp h = 4 /\ j_scan h = 47 + len vals /\ lut_ok (j_huffbits h) (j_lut h) bits vals.

Lemma sum_bound : forall bits n, In n bits -> (n <= list_sum bits)%nat.
Proof. induction bits as [|b bits IH]; intros n Hn; [destruct Hn|]. cbn [list_sum fold_right]. fold (list_sum bits). destruct Hn as [->|Hn]; [lia|]. specialize (IH _ Hn). lia. Qed.

Ltac hc H := let E := fresh "B" in apply holds_cons in H; destruct H as [E H].

Lemma open_ok d bits vals bd x y scan :
  byte_mem d -> dht_ok bits vals -> (length vals <= 200)%nat -> 0 <= x < 65536 -> 0 <= y < 65536 ->
  holds d 0 (lj_file bits vals bd x y scan) ->
  exists d' h, lj92_open d (len (lj_file bits vals bd x y scan)) = (NONE, d', h) /\ (forall k, d' k = d k) /\ opened bits vals bd x y h.
Proof.
  intros Hd Hok Hn Hx Hy HH. pose proof Hok as (L16 & Lv & Hne & Hvr & HK).
  set (n := len vals). assert (Hn' : 0 <= n <= 200) by (unfold n, len; lia).
  assert (FL : len (lj_file bits vals bd x y scan) = 63 + n + len scan).
  { unfold lj_file, lj_header, dht, sof3, sos, be16. unfold len, n. rewrite !app_length, map_length, L16. cbn [length]. unfold len. lia. }
  rewrite FL. set (dl := 63 + n + len scan). assert (Hdl : 63 + n <= dl) by (unfold dl, len; lia).
  unfold lj_file, lj_header, dht, be16 in HH. rewrite <- !app_assoc in HH. cbn [app] in HH. fold n in HH.
  do 7 hc HH.
  change (0 + 1) with 1 in *. change (1 + 1) with 2 in *. change (2 + 1) with 3 in *. change (3 + 1) with 4 in *. change (4 + 1) with 5 in *. change (5 + 1) with 6 in *. change (6 + 1) with 7 in *.
  apply holds_app in HH. destruct HH as [Hb HH]. apply holds_app in HH. destruct HH as [Hv HH].
  assert (Lb : len (map Z.of_nat bits) = 16) by (unfold len; rewrite map_length; lia). rewrite Lb in *. fold n in HH. change (7 + 16) with 23 in *.
  unfold sof3, sos, be16 in HH. rewrite <- !app_assoc in HH. cbn [app] in HH.
  do 36 hc HH.
  assert (Fd : forall k, upd d 6 0 k = d k) by (intros k; unfold upd; destruct (k =? 6) eqn:Ek; [|reflexivity]; assert (k = 6) by lia; subst k; lia).
  set (d' := upd d 6 0) in *.
  (* find SOI *)
  unfold lj92_open. rewrite (lfind_skip dl d 0 0xd8 0); [|lia|lia|intros; lia|exact B|exact B0|lia].
  change (0xd8 =? 0xd8) with true. cbn beta iota. change (0 + 0 + 2) with 2.
  destruct (Z.to_nat dl) as [|[|[|f]]] eqn:Ef; try lia.
  (* DHT *)
  cbn [parse_image]. rewrite (lfind_skip dl d 0 0xc4 2); [|lia|lia|intros; lia|exact B1|exact B2|lia].
  change (0xc4 =? 0xc4) with true. cbn beta iota. change (2 + 0 + 2) with 4. unfold parse_huff. change (4 + 2) with 6. fold d'.
  assert (Eb : beh d' 4 = 19 + n) by (apply beh_be16; [lia|rewrite Fd; exact B3|rewrite Fd; exact B4]). rewrite Eb.
  replace (dl <=? 4 + (19 + n)) with false by lia. change (NONE =? NONE) with true. cbn beta iota.
  set (M := max_bits 16 _). set (lut := lut_loop _ _ _ _ _ _ _ _ _ _).
  assert (HL : lut_ok M lut bits vals).
  { apply lut_built; [exact Hok|intros k; rewrite Fd; apply Hd| | |exact Hn].
    - intros k Hk. rewrite Fd. replace (6 + (1 + Z.of_nat k)) with (7 + Z.of_nat k) by lia. rewrite Hb by (rewrite map_length; lia). change 0 with (Z.of_nat 0). rewrite map_nth. reflexivity.
    - intros k Hk. rewrite Fd. change (4 + 19) with 23. apply Hv. exact Hk. }
  clearbody M lut.
  (* SOF3 *)
  rewrite (lfind_skip dl d' (19 + n) 0xc3 4); [|lia|lia| |rewrite Fd; rewrite <- B6; f_equal; lia|rewrite Fd; rewrite <- B7; f_equal; lia|lia].
  2:{ intros k Hk. rewrite Fd. destruct (Z.eq_dec k 4) as [->|]. { rewrite B3. pose proof (Z.div_lt_upper_bound (19 + n) 256 2 ltac:(lia) ltac:(lia)). lia. }
      destruct (Z.eq_dec k 5) as [->|]. { rewrite B4. rewrite Z.mod_small by lia. lia. }
      destruct (Z.eq_dec k 6) as [->|]; [lia|]. destruct (Z_lt_le_dec k 23).
      - replace k with (7 + Z.of_nat (Z.to_nat (k - 7))) by lia. rewrite Hb by (rewrite map_length; lia). change 0 with (Z.of_nat 0). rewrite map_nth.
        assert (Hin : In (nth (Z.to_nat (k - 7)) bits 0%nat) bits) by (apply nth_In; lia). apply sum_bound in Hin. lia.
      - replace k with (23 + Z.of_nat (Z.to_nat (k - 23))) by lia. rewrite Hv by (unfold n, len in Hk; lia).
        rewrite Forall_forall in Hvr. assert (Hin : In (nth (Z.to_nat (k - 23)) vals 0) vals) by (apply nth_In; unfold n, len in Hk; lia). apply Hvr in Hin. lia. }
  change (0xc3 =? 0xc4) with false. change (0xc3 =? 0xc3) with true. cbn beta iota.
  assert (E25 : 4 + (19 + n) + 2 = 25 + n) by lia. rewrite E25. unfold parse_sof3. replace (dl <=? 25 + n + 6) with false by lia. change (NONE =? NONE) with true. cbn beta iota.
  assert (Es : beh d' (25 + n) = 20).
  { apply beh_be16; [lia| |]; rewrite Fd; [rewrite <- (eq_trans B8 (eq_refl : 20 / 256 = 20 / 256))|rewrite <- B9]; f_equal; lia. }
  rewrite Es.
  assert (Ey : beh d' (25 + n + 3) = y) by (apply beh_be16; [lia| |]; rewrite Fd; [rewrite <- B11|rewrite <- B12]; f_equal; lia).
  assert (Ex : beh d' (25 + n + 5) = x) by (apply beh_be16; [lia| |]; rewrite Fd; [rewrite <- B13|rewrite <- B14]; f_equal; lia).
  rewrite Ex, Ey.
  (* SOS *)
  rewrite (lfind_skip dl d' 0 0xda (25 + n + 20)); [|lia|lia|intros; lia|rewrite Fd; rewrite <- B28; f_equal; lia|rewrite Fd; rewrite <- B29; f_equal; lia|lia].
  change (0xda =? 0xc4) with false. change (0xda =? 0xc3) with false. change (0xda =? 0xd9) with false. change (0xda =? 0xda) with true. cbn beta iota.
  eexists _, _. split; [reflexivity|]. split; [exact Fd|]. unfold opened. cbn [j_x j_y j_bits j_comp j_scan j_huffbits j_lut]. fold n.
  split; [reflexivity|]. split; [reflexivity|]. split; [|split; [|split; [lia|exact HL]]]; rewrite Fd; [rewrite <- B10|rewrite <- B15]; f_equal; lia.
Qed.
