(* C59, continued: the checks on what the core sends. *)
From Verif Require Import Bits Spec Spec_Core M_Driver M_Test P_Fix P_Pack Props_Frame P_Beta Props_Beta Props_Test.
Ltac Zify.zify_post_hook ::= idtac.

(* byte number a of the words l stored low byte first *)
Definition lebyte (l : list Z) (a : Z) : Z :=
  let w := nth (Z.to_nat (a / 2)) l 0 in if Z.even a then w mod 256 else w / 256.

Lemma half_even j : 2 * j / 2 = j.
Proof. rewrite Z.mul_comm. apply Z.div_mul. lia. Qed.
Lemma half_odd j : (2 * j + 1) / 2 = j.
Proof. replace (2 * j + 1) with (1 + j * 2) by ring. rewrite Z_div_plus by lia. reflexivity. Qed.
Lemma even_2 j : Z.even (2 * j) = true.
Proof. rewrite Z.even_mul. reflexivity. Qed.
Lemma even_21 j : Z.even (2 * j + 1) = false.
Proof. rewrite Z.even_add, even_2. reflexivity. Qed.
Lemma le_even l j : (0 <= j) -> lebyte l (2 * j) = nth (Z.to_nat j) l 0 mod 256.
Proof. intros. unfold lebyte. rewrite half_even, even_2. reflexivity. Qed.
Lemma le_odd l j : (0 <= j) -> lebyte l (2 * j + 1) = nth (Z.to_nat j) l 0 / 256.
Proof. intros. unfold lebyte. rewrite half_odd, even_21. reflexivity. Qed.
Lemma parity a : exists j, a = 2 * j \/ a = 2 * j + 1.
Proof. exists (a / 2). pose proof (Z.div_mod a 2 ltac:(lia)). pose proof (Z.mod_pos_bound a 2 ltac:(lia)). lia. Qed.
Lemma holds_le dest O : holds dest O -> forall a, 0 <= a < 2 * len O -> dest a = lebyte O a.
Proof.
  intros H a Ha. unfold len in Ha. destruct (parity a) as [j [->| ->]].
  - destruct (H (Z.to_nat j) ltac:(lia)) as [H1 _]. rewrite Z2Nat.id in H1 by lia. rewrite le_even by lia. exact H1.
  - destruct (H (Z.to_nat j) ltac:(lia)) as [_ H1]. rewrite Z2Nat.id in H1 by lia. rewrite le_odd by lia. exact H1.
Qed.
Lemma nth_skipn (A : Type) (d : A) : forall n l k, nth k (skipn n l) d = nth (n + k) l d.
Proof. induction n as [|n IH]; intros l k; [reflexivity|]. destruct l; [destruct k; reflexivity|]. cbn [skipn Nat.add nth]. apply IH. Qed.
Lemma le_skip l a : 0 <= a -> lebyte l (a + 16) = lebyte (skipn 8 l) a.
Proof.
  intros Ha. unfold lebyte. rewrite nth_skipn. replace (a + 16) with (a + 8 * 2) by ring. rewrite Z_div_plus by lia.
  replace (Z.to_nat (a / 2 + 8)) with (8 + Z.to_nat (a / 2))%nat by (pose proof (Z.div_pos a 2 ltac:(lia) ltac:(lia)); lia).
  rewrite Z.even_add. change (Z.even (8 * 2)) with true. destruct (Z.even a); reflexivity.
Qed.
Lemma le_word l j : Forall word_ok l -> (j < length l)%nat -> nth j l 0 = lebyte l (2 * Z.of_nat j) + 256 * lebyte l (2 * Z.of_nat j + 1).
Proof.
  intros H Hj. rewrite le_even, le_odd, Nat2Z.id by lia. pose proof (Z.div_mod (nth j l 0) 256 ltac:(lia)). lia.
Qed.

Lemma words_nth : forall n B j, (length B <= n)%nat -> (2 * j < length B)%nat -> nth j (words_of B) 0 = nth (2 * j) B 0 * 256 + nth (2 * j + 1) B 0.
Proof.
  induction n as [|n IH]; intros B j Hl Hj; [lia|]. destruct B as [|a [|b B]]; cbn [length] in *.
  - lia.
  - assert (j = 0%nat) by lia. subst j. cbn. lia.
  - destruct j as [|j]; [reflexivity|]. cbn [words_of nth]. rewrite (IH B j) by lia.
    replace (2 * S j)%nat with (S (S (2 * j))) by lia. replace (S (S (2 * j)) + 1)%nat with (S (S (2 * j + 1))) by lia. reflexivity.
Qed.
Lemma words_length : forall n B, (length B <= n)%nat -> Z.of_nat (length (words_of B)) = (len B + 1) / 2.
Proof.
  induction n as [|n IH]; intros B Hl; [destruct B; [reflexivity|cbn [length] in Hl; lia]|].
  destruct B as [|a [|b B]]; [reflexivity|reflexivity|]. cbn [words_of length]. cbn [length] in Hl. rewrite Nat2Z.inj_succ, IH by lia. unfold len. cbn [length].
  replace (Z.of_nat (S (S (length B))) + 1) with (Z.of_nat (length B) + 1 + 1 * 2) by lia. rewrite Z_div_plus by lia. lia.
Qed.

Lemma load_bytes B : Forall is_byte B -> bytes_mem (load_file B).
Proof.
  intros H a. unfold load_file. destruct (a <? 0); [lia|]. destruct (nth_in_or_default (Z.to_nat a) B 0) as [Hin|E]; [|lia].
  rewrite Forall_forall in H. apply H in Hin. exact Hin.
Qed.
(* the file after re_order_lj92 is its 16-bit words, low byte first *)
Lemma reordered_le B : Forall is_byte B -> len B < 2 ^ 31 ->
  forall a, 0 <= a < 2 * ((len B + 1) / 2) -> re_order_lj92 (load_file B) (len B) a = lebyte (words_of B) a.
Proof.
  intros HB Hl a Ha. pose proof (load_bytes B HB) as HM. destruct (C59_reorder _ (len B) HM ltac:(unfold len in *; lia)) as [E _]. rewrite E.
  replace ((0 <=? a) && (a <? 2 * ((len B + 1) / 2))) with true by lia.
  pose proof (words_length (length B) B (le_n _)) as WL.
  pose proof (Z.div_mod (len B + 1) 2 ltac:(lia)) as D. pose proof (Z.mod_pos_bound (len B + 1) 2 ltac:(lia)) as M. set (h := (len B + 1) / 2) in *. clearbody h.
  assert (HN : forall k, 0 <= nth k B 0 < 256) by (intros k; specialize (HM (Z.of_nat k)); unfold load_file in HM; replace (Z.of_nat k <? 0) with false in HM by lia; rewrite Nat2Z.id in HM; exact HM).
  destruct (parity a) as [j [->| ->]].
  - unfold mate. rewrite even_2, le_even by lia. unfold load_file. replace (2 * j + 1 <? 0) with false by lia.
    rewrite (words_nth (length B)) by (unfold len in *; lia). replace (Z.to_nat (2 * j + 1)) with (2 * Z.to_nat j + 1)%nat by lia.
    rewrite Z.add_comm, Z_mod_plus, Z.mod_small by (try lia; apply HN). reflexivity.
  - unfold mate. rewrite even_21, le_odd by lia. unfold load_file. replace (2 * j + 1 - 1 <? 0) with false by lia.
    rewrite (words_nth (length B)) by (unfold len in *; lia). replace (Z.to_nat (2 * j + 1 - 1)) with (2 * Z.to_nat j)%nat by lia.
    rewrite Z.div_add_l, (Z.div_small (nth (2 * Z.to_nat j + 1) B 0)) by (try lia; apply HN). lia.
Qed.

(* ---------- the markers ---------- *)

Definition all255 (m : memory) (a : Z) : Prop := m a = 255 /\ m (a + 1) = 255 /\ m (a + 2) = 255 /\ m (a + 3) = 255.
Definition swapped_fe (m : memory) (a : Z) : Prop := m a = 255 /\ m (a + 1) = 254 /\ m (a + 2) = 255 /\ m (a + 3) = 254.
Lemma ld32_ff m a : bytes_mem m -> ld32 m a = 0xFFFFFFFF <-> all255 m a.
Proof.
  intros H. unfold ld32, all255. pose proof (H a); pose proof (H (a + 1)); pose proof (H (a + 2)); pose proof (H (a + 3)). lia.
Qed.
Lemma is_mark_iff m a : bytes_mem m -> is_mark (ld32 m a) = true <-> all255 m a \/ swapped_fe m a.
Proof.
  intros H. unfold is_mark. change (bswap32 0xFFFEFFFE) with 0xFEFFFEFF. rewrite orb_true_iff, Z.eqb_eq, Z.eqb_eq, (ld32_ff m a H).
  unfold ld32, all255, swapped_fe. pose proof (H a); pose proof (H (a + 1)); pose proof (H (a + 2)); pose proof (H (a + 3)). lia.
Qed.
Lemma scan_spec m : bytes_mem m -> forall fuel o, let r := scan_loop fuel m o in
  o <= r <= o + Z.of_nat fuel /\ (r < o + Z.of_nat fuel -> is_mark (ld32 m r) = true) /\ (forall a, o <= a < r -> is_mark (ld32 m a) = false).
Proof.
  intros H. induction fuel as [|f IH]; intros o r; unfold r; cbn [scan_loop].
  - split; [lia|]. split; intros; lia.
  - destruct (is_mark (ld32 m o)) eqn:E.
    + split; [lia|]. split; [intros _; exact E|]. intros; lia.
    + destruct (IH (o + 1)) as (I1 & I2 & I3). split; [lia|]. split; [intros; apply I2; lia|]. intros a Ha. destruct (Z.eq_dec a o) as [->|]; [exact E|apply I3; lia].
Qed.
Lemma last_loop_spec m s : forall fuel i, last_loop fuel i m s = true <-> forall k, 0 <= k < Z.of_nat fuel -> is_mark (ld32 m (s + 4 * (i + k))) = true.
Proof.
  induction fuel as [|f IH]; intros i; cbn [last_loop].
  - split; [intros; lia|reflexivity].
  - destruct (is_mark (ld32 m (s + 4 * i))) eqn:E; cbn [negb].
    + rewrite IH. split; intros H k Hk.
      * destruct (Z.eq_dec k 0) as [->|]; [rewrite Z.add_0_r; exact E|]. specialize (H (k - 1) ltac:(lia)). replace (i + 1 + (k - 1)) with (i + k) in H by ring. exact H.
      * specialize (H (k + 1) ltac:(lia)). replace (i + (k + 1)) with (i + 1 + k) in H by ring. exact H.
    + split; [discriminate|]. intros H. specialize (H 0 ltac:(lia)). rewrite Z.add_0_r in H. congruence.
Qed.
(* what the messages mean *)
Lemma last_normal m size o : bytes_mem m -> check_last_marker m size = NormalMarker o -> 0 <= o <= 128 /\ all255 m (size + 16 + o).
Proof.
  intros H. unfold check_last_marker. pose proof (scan_spec m H 128 (size + 16)) as (S1 & _ & _). set (r := scan_loop 128 m (size + 16)) in *. clearbody r.
  destruct (last_loop 4 0 m r); [|discriminate]. destruct (ld32 m r =? 0xFFFFFFFF) eqn:E; [|discriminate]. intros X. injection X as <-. split; [lia|].
  replace (size + 16 + (r - size - 16)) with r by ring. apply ld32_ff; [assumption|]. lia.
Qed.
Lemma last_found m size o : bytes_mem m -> 0 <= o < 128 -> (forall a, size + 16 <= a < size + 16 + o -> is_mark (ld32 m a) = false) ->
  (forall a, size + 16 + o <= a < size + 16 + o + 16 -> m a = 255) -> check_last_marker m size = NormalMarker o.
Proof.
  intros H Ho Hb Hm. unfold check_last_marker. pose proof (scan_spec m H 128 (size + 16)) as (S1 & S2 & S3). set (r := scan_loop 128 m (size + 16)) in *. clearbody r.
  assert (M : forall k, 0 <= k < 4 -> is_mark (ld32 m (size + 16 + o + 4 * k)) = true).
  { intros k Hk. apply is_mark_iff; [assumption|]. left. unfold all255. repeat split; apply Hm; lia. }
  assert (r = size + 16 + o).
  { destruct (Z.lt_trichotomy r (size + 16 + o)) as [L|[L|L]]; [|exact L|].
    - specialize (Hb r ltac:(lia)). rewrite S2 in Hb by lia. discriminate.
    - specialize (S3 (size + 16 + o) ltac:(lia)). specialize (M 0 ltac:(lia)). rewrite Z.add_0_r in M. congruence. }
  subst r. replace (last_loop 4 0 m (size + 16 + o)) with true.
  - assert (E : ld32 m (size + 16 + o) = 0xFFFFFFFF) by (apply ld32_ff; [assumption|]; unfold all255; repeat split; apply Hm; lia). rewrite E, Z.eqb_refl. f_equal. lia.
  - symmetry. apply last_loop_spec. intros k Hk. apply M. lia.
Qed.
Lemma last_none m size : bytes_mem m -> (forall o, size + 16 <= o -> ~ (forall k, 0 <= k < 4 -> is_mark (ld32 m (o + 4 * k)) = true)) -> check_last_marker m size = NoMarker.
Proof.
  intros H Hn. unfold check_last_marker. pose proof (scan_spec m H 128 (size + 16)) as (S1 & _ & _). set (r := scan_loop 128 m (size + 16)) in *. clearbody r.
  destruct (last_loop 4 0 m r) eqn:E; [|reflexivity]. exfalso. apply (Hn r ltac:(lia)). intros k Hk. apply (proj1 (last_loop_spec m r 4 0) E k). lia.
Qed.
Lemma first_spec m : bytes_mem m -> check_first_marker m = true <-> forall a, 0 <= a < 16 -> m a = 255.
Proof.
  intros H. assert (G : forall fuel i, 0 <= i -> first_loop fuel i m = true <-> forall a, 4 * i <= a < 4 * (i + Z.of_nat fuel) -> m a = 255).
  { induction fuel as [|f IH]; intros i Hi; cbn [first_loop]; [split; [intros; lia|reflexivity]|].
    destruct (Z.eqb_spec (ld32 m (4 * i)) 0xFFFFFFFF) as [E|E].
    - apply ld32_ff in E; [|assumption]. destruct E as (E0 & E1 & E2 & E3). rewrite IH by lia. split; intros K a Ha.
      + destruct (Z_lt_ge_dec a (4 * (i + 1))); [|apply K; lia]. assert (a = 4 * i \/ a = 4 * i + 1 \/ a = 4 * i + 2 \/ a = 4 * i + 3) as [->|[->|[->| ->]]] by lia; assumption.
      + apply K. lia.
    - split; [discriminate|]. intros K. destruct E. apply ld32_ff; [assumption|]. unfold all255. repeat split; apply K; lia. }
  exact (G 4%nat 0 ltac:(lia)).
Qed.

(* ---------- the frames of the core ---------- *)

Lemma le_app1 a b i : 0 <= i < 2 * len a -> lebyte (a ++ b) i = lebyte a i.
Proof.
  intros Hi. unfold lebyte. rewrite app_nth1; [reflexivity|]. unfold len in Hi. pose proof (Z.div_lt_upper_bound i 2 (Z.of_nat (length a)) ltac:(lia) ltac:(lia)). pose proof (Z.div_pos i 2). lia.
Qed.
Lemma le_app2 a b i : 0 <= i -> lebyte (a ++ b) (2 * len a + i) = lebyte b i.
Proof.
  intros Hi. unfold lebyte, len. replace (2 * Z.of_nat (length a) + i) with (i + Z.of_nat (length a) * 2) by ring. rewrite Z_div_plus by lia. pose proof (Z.div_pos i 2 ltac:(lia) ltac:(lia)).
  rewrite app_nth2 by lia. replace (Z.to_nat (i / 2 + Z.of_nat (length a)) - length a)%nat with (Z.to_nat (i / 2)) by lia.
  rewrite Z.even_add, Z.even_mul. cbn [Z.even]. rewrite orb_true_r. destruct (Z.even i); reflexivity.
Qed.
Lemma le_repeat w n i : 0 <= i < 2 * Z.of_nat n -> lebyte (repeat w n) i = if Z.even i then w mod 256 else w / 256.
Proof.
  intros Hi. unfold lebyte. pose proof (Z.div_lt_upper_bound i 2 (Z.of_nat n) ltac:(lia) ltac:(lia)). pose proof (Z.div_pos i 2 ltac:(lia) ltac:(lia)).
  assert (E : nth (Z.to_nat (i / 2)) (repeat w n) 0 = w) by (apply (repeat_spec n w), nth_In; rewrite repeat_length; lia). rewrite E. reflexivity.
Qed.

(* the bytes of a stored frame *)
Lemma frame_mem dest P forced rest : holds dest (framed P forced ++ rest) ->
  let w := if forced then 0xFFFE else 0xFFFF in
  (forall a, 0 <= a < 16 -> dest a = 255) /\
  (forall a, 0 <= a < 2 * len P -> dest (a + 16) = lebyte P a) /\
  (forall a, 0 <= a < 16 -> dest (2 * len P + 16 + a) = if Z.even a then w mod 256 else w / 256) /\
  (forall a, 0 <= a < 2 * len rest -> dest (2 * len P + 32 + a) = lebyte rest a).
Proof.
  intros H w. pose proof (holds_le _ _ H) as E. unfold framed in E. fold w in E.
  assert (L : len ((repeat 0xFFFF 8 ++ P ++ repeat w 8) ++ rest) = 16 + len P + len rest) by (unfold len; rewrite !app_length, !repeat_length; lia).
  rewrite L in E. assert (L8 : len (repeat 0xFFFF 8) = 8) by reflexivity. assert (L8' : len (repeat w 8) = 8) by reflexivity.
  assert (HP0 : 0 <= len P /\ 0 <= len rest) by (unfold len; lia).
  assert (LF : len (repeat 0xFFFF 8 ++ P ++ repeat w 8) = 16 + len P) by (unfold len; rewrite !app_length, !repeat_length; lia).
  assert (LP : len (P ++ repeat w 8) = len P + 8) by (unfold len; rewrite !app_length, !repeat_length; lia).
  split; [|split; [|split]]; intros a Ha.
  - rewrite E by lia. rewrite le_app1 by lia. rewrite le_app1 by lia. rewrite le_repeat by (cbn; lia). destruct (Z.even a); reflexivity.
  - rewrite E by lia. rewrite le_app1 by lia. replace (a + 16) with (2 * len (repeat 0xFFFF 8) + a) by lia. rewrite le_app2 by lia. rewrite le_app1 by lia. reflexivity.
  - rewrite E by lia. rewrite le_app1 by lia. replace (2 * len P + 16 + a) with (2 * len (repeat 0xFFFF 8) + (2 * len P + a)) by lia. rewrite le_app2 by lia. rewrite le_app2 by lia. apply le_repeat. cbn; lia.
  - rewrite E by lia. replace (2 * len P + 32 + a) with (2 * len (repeat 0xFFFF 8 ++ P ++ repeat w 8) + a) by lia. apply le_app2. lia.
Qed.

(* C59.  The test passes when the core is right: the memory holds a normal frame whose payload is the
   reference file (padded to a whole number of words); then the start marker is found, the end
   marker is found at offset 0 (1 if the file has an odd number of bytes; its last byte must not be
   0xFF, as never happens in a stuffed stream), and the validation succeeds. *)
Theorem C59_passes : forall dest B rest, bytes_mem dest -> Forall is_byte B -> 10 <= len B < 2 ^ 31 ->
  holds dest (framed (words_of B) false ++ rest) ->
  (Z.odd (len B) = true -> nth (length B - 1) B 0 <> 255) ->
  check_first_marker dest = true /\
  check_last_marker dest (len B) = NormalMarker (if Z.odd (len B) then 1 else 0) /\
  validate dest (re_order_lj92 (load_file B) (len B)) (len B) = Succeeded.
Proof.
  intros dest B rest Hd HB Hl Hh Hlast. destruct (frame_mem dest _ _ _ Hh) as (F1 & F2 & F3 & _). cbv iota in F3. change (0xFFFF mod 256) with 255 in F3. change (0xFFFF / 256) with 255 in F3.
  pose proof (words_length (length B) B (le_n _)) as WL. fold (len (words_of B)) in WL.
  pose proof (Z.div_mod (len B + 1) 2 ltac:(lia)) as D. pose proof (Z.mod_pos_bound (len B + 1) 2 ltac:(lia)) as M.
  destruct (C59_reorder _ (len B) (load_bytes B HB) ltac:(lia)) as (_ & Hr & _).
  split; [apply first_spec; assumption|]. split.
  - assert (F3' : forall a, 2 * len (words_of B) + 16 <= a < 2 * len (words_of B) + 32 -> dest a = 255).
    { intros a Ha. replace a with (2 * len (words_of B) + 16 + (a - (2 * len (words_of B) + 16))) by ring. rewrite F3 by lia. destruct (Z.even _); reflexivity. }
    destruct (Z.odd (len B)) eqn:Eo; rewrite Zodd_mod in Eo.
    + assert (E1 : 2 * len (words_of B) = len B + 1).
      { apply Zeq_bool_eq in Eo. rewrite Zplus_mod, Eo in D. change ((1 + 1 mod 2) mod 2) with 0 in D. lia. }
      apply last_found; [assumption|lia| |intros a Ha; apply F3'; lia].
      intros a Ha. assert (a = len B + 16) by lia. subst a. destruct (is_mark (ld32 dest (len B + 16))) eqn:Em; [|reflexivity]. exfalso.
      apply is_mark_iff in Em; [|assumption]. assert (E255 : dest (len B + 16) = 255) by (destruct Em as [(X & _)|(X & _)]; exact X).
      assert (Hj : len B = 2 * (len (words_of B) - 1) + 1) by lia.
      rewrite F2 in E255 by lia. rewrite <- (reordered_le B HB ltac:(lia)) in E255 by lia.
      destruct (C59_reorder _ (len B) (load_bytes B HB) ltac:(lia)) as (ER & _ & _). rewrite ER in E255.
      replace ((0 <=? len B) && (len B <? 2 * ((len B + 1) / 2))) with true in E255 by lia.
      assert (EM : mate (len B) = len B - 1) by (rewrite Hj; unfold mate; rewrite even_21; reflexivity). rewrite EM in E255.
      apply (Hlast eq_refl). unfold load_file in E255. replace (len B - 1 <? 0) with false in E255 by lia.
      replace (Z.to_nat (len B - 1)) with (length B - 1)%nat in E255 by (unfold len; lia). exact E255.
    + assert (E1 : 2 * len (words_of B) = len B).
      { pose proof (Zmod_odd (len B)) as Z. rewrite Zodd_mod, Eo in Z. rewrite Zplus_mod, Z in D. change ((0 + 1 mod 2) mod 2) with 1 in D. lia. }
      apply last_found; [assumption|lia|intros; lia|intros a Ha; apply F3'; lia].
  - apply (C59_validate dest _ (len B) Hd Hr ltac:(lia)). intros i Hi. rewrite F2 by lia. rewrite reordered_le by (try assumption; lia). reflexivity.
Qed.

Lemma payload_ok t bd W X : Forall word_ok (payload t bd W X) /\ Forall (fun w => w <= 0xFF00) (payload t bd W X).
Proof.
  unfold payload. split.
  - apply words_word_ok, stuff_bytes, payload_bytes.
  - apply C24_no_marker_in_payload, payload_bytes.
Qed.
Lemma payload_file t bd W X : let P := payload t bd W X in let B := flat_map bytes_of P in
  Forall is_byte B /\ words_of B = P /\ len B = 2 * len P.
Proof.
  destruct (payload_ok t bd W X) as [HW _]. cbv zeta. set (P := payload t bd W X) in *. clearbody P. split; [|split].
  - induction HW as [|w P Hw HP IH]; [constructor|]. cbn [flat_map bytes_of app]. unfold word_ok in Hw. change (2 ^ 16) with 65536 in Hw.
    constructor; [|constructor; [|exact IH]].
    + unfold is_byte. pose proof (Z.div_lt_upper_bound w 256 256 ltac:(lia) ltac:(lia)). pose proof (Z.div_pos w 256 ltac:(lia) ltac:(lia)). lia.
    + unfold is_byte. apply Z.mod_pos_bound. lia.
  - pose proof (words_of_app_ok P [] HW) as E. rewrite !app_nil_r in E. exact E.
  - unfold len. clear HW. induction P as [|w P IH]; [reflexivity|]. cbn [flat_map bytes_of app length]. lia.
Qed.
Lemma len_nonneg (A : Type) (l : list A) : 0 <= len l.
Proof. unfold len. lia. Qed.
Lemma nth_len (A : Type) (P : A -> Prop) l d k : Forall P l -> (k < length l)%nat -> P (nth k l d).
Proof. intros H Hk. rewrite Forall_forall in H. apply H, nth_In, Hk. Qed.

(* what a successful validation against the payload of X says about the frame in memory: its payload, up to the
   length of X's payload, is X's payload; in particular it is not shorter *)
Lemma validated dest t bd W X P forced rest : bytes_mem dest -> Forall word_ok P -> holds dest (framed P forced ++ rest) ->
  let B := flat_map bytes_of (payload t bd W X) in 10 <= len B < 2 ^ 31 ->
  validate dest (re_order_lj92 (load_file B) (len B)) (len B) = Succeeded ->
  (length (payload t bd W X) <= length P)%nat /\ firstn (length (payload t bd W X)) P = payload t bd W X.
Proof.
  intros Hd HP Hh B Hl HV. destruct (payload_file t bd W X) as (HB & HWo & HL). fold B in HB, HWo, HL. destruct (payload_ok t bd W X) as [HX Hff].
  set (Q := payload t bd W X) in *. clearbody Q B.
  destruct (frame_mem dest _ _ _ Hh) as (F1 & F2 & F3 & _). cbv zeta in F3.
  destruct (C59_reorder _ (len B) (load_bytes B HB) ltac:(lia)) as (_ & Hr & _).
  pose proof (proj1 (proj1 (C59_validate dest _ (len B) Hd Hr ltac:(lia))) HV) as K.
  pose proof (words_length (length B) B (le_n _)) as WL. rewrite HWo in WL. fold (len Q) in WL.
  assert (K' : forall i, 0 <= i < 2 * len Q -> dest (i + 16) = lebyte Q i).
  { intros i Hi. rewrite K by lia. rewrite reordered_le by (try assumption; lia). rewrite HWo. reflexivity. }
  assert (Hle : (length Q <= length P)%nat).
  { destruct (le_lt_dec (length Q) (length P)) as [|Hlt]; [assumption|exfalso].
    assert (Ho : dest (2 * len P + 1 + 16) = 255).
    { replace (2 * len P + 1 + 16) with (2 * len P + 16 + 1) by ring. rewrite F3 by lia. cbn. destruct forced; reflexivity. }
    assert (He : dest (2 * len P + 16) = if forced then 254 else 255).
    { replace (2 * len P + 16) with (2 * len P + 16 + 0) by ring. rewrite F3 by lia. cbn. destruct forced; reflexivity. }
    rewrite K' in Ho by (unfold len; lia). rewrite K' in He by (unfold len; lia).
    pose proof (le_word Q (length P) HX Hlt) as E. fold (len P) in E. rewrite He, Ho in E.
    pose proof (nth_len _ _ Q 0 (length P) Hff Hlt) as G. cbv beta in G. destruct forced; lia. }
  split; [exact Hle|]. apply nth_ext with (d := 0) (d' := 0); [rewrite firstn_length; lia|].
  intros k Hk. rewrite firstn_length in Hk. assert (Hk2 : (k < length Q)%nat) by lia. rewrite <- (firstn_skipn (length Q) P) in F2, HP |- *.
  rewrite firstn_app, firstn_firstn, firstn_length, Nat.min_id. replace (length Q - min (length Q) (length P))%nat with 0%nat by lia. cbn [firstn]. rewrite app_nil_r.
  assert (LP : length (firstn (length Q) P) = length Q) by (rewrite firstn_length; lia).
  apply Forall_app in HP. destruct HP as [HP1 _]. rewrite (le_word _ k HP1), (le_word Q k HX Hk2) by lia.
  rewrite <- !(K' _) by (unfold len; lia). rewrite !F2 by (unfold len; rewrite app_length; lia). rewrite !le_app1 by (unfold len; lia). reflexivity.
Qed.

(* C59.  A passing test is conclusive: if the core sent a normal frame (of the image Y), the end marker was found
   right behind the reference file, and the validation against the reference file of an image X
   succeeded, then X = Y. *)
Theorem C59_sound : forall t bd W H X Y dest rest, 2 <= bd <= 15 -> table_ok bd t -> prefix_free t ->
  len X = W * H -> len Y = W * H -> Forall (in_range bd) X -> Forall (in_range bd) Y ->
  bytes_mem dest -> holds dest (framed (payload t bd W Y) false ++ rest) ->
  let B := flat_map bytes_of (payload t bd W X) in 10 <= len B < 2 ^ 31 ->
  check_last_marker dest (len B) = NormalMarker 0 ->
  validate dest (re_order_lj92 (load_file B) (len B)) (len B) = Succeeded -> X = Y.
Proof.
  intros t bd W H X Y dest rest Hb Ht Hp LX LY RX RY Hd Hh B Hl HM HV.
  destruct (payload_ok t bd W Y) as [HY Hff].
  destruct (validated dest t bd W X _ _ _ Hd HY Hh Hl HV) as [Hle Hpre].
  assert (E : payload t bd W X = payload t bd W Y).
  { destruct (le_lt_dec (length (payload t bd W Y)) (length (payload t bd W X))) as [Hge|Hlt]; [rewrite firstn_all2 in Hpre by assumption; congruence|exfalso].
    destruct (payload_file t bd W X) as (_ & _ & HL). fold B in HL. rewrite HL in HM. set (n := length (payload t bd W X)) in *.
    destruct (last_normal _ _ _ Hd HM) as (_ & (A0 & A1 & _)). destruct (frame_mem dest _ _ _ Hh) as (_ & F2 & _ & _).
    unfold len in A0, A1. fold n in A0, A1. replace (2 * Z.of_nat n + 16 + 0) with (2 * Z.of_nat n + 16) in A0, A1 by ring.
    replace (2 * Z.of_nat n + 16 + 1) with (2 * Z.of_nat n + 1 + 16) in A1 by ring.
    rewrite F2 in A0 by (unfold len; lia). rewrite F2 in A1 by (unfold len; lia).
    pose proof (le_word _ n HY Hlt) as E. rewrite A0, A1 in E. pose proof (nth_len _ _ _ 0 n Hff Hlt) as G. cbv beta in G. lia. }
  destruct (C25_decodable t bd W H X [] Hb Ht Hp LX RX) as [_ D1]. destruct (C25_decodable t bd W H Y [] Hb Ht Hp LY RY) as [_ D2]. rewrite E in D1. congruence.
Qed.

(* C59.  A frame that was cut short (of whatever image) before the length of the reference file never validates. *)
Theorem C59_cut_fails : forall t bd W X Y k dest rest,
  bytes_mem dest -> holds dest (framed (firstn k (payload t bd W Y)) true ++ rest) ->
  let B := flat_map bytes_of (payload t bd W X) in 10 <= len B < 2 ^ 31 -> (k < length (payload t bd W X))%nat ->
  validate dest (re_order_lj92 (load_file B) (len B)) (len B) <> Succeeded.
Proof.
  intros t bd W X Y k dest rest Hd Hh B Hl Hk HV.
  assert (HY : Forall word_ok (firstn k (payload t bd W Y))).
  { destruct (payload_ok t bd W Y) as [HY _]. rewrite <- (firstn_skipn k) in HY. apply Forall_app in HY. apply HY. }
  destruct (validated dest t bd W X _ _ _ Hd HY Hh Hl HV) as [Hle _]. rewrite firstn_length in Hle. lia.
Qed.

(* C59.  The message "force marker found" is never printed for such a frame, although the marker is in
   memory: the search begins behind it, and it looks for the bytes FF FE FF FE where the memory has
   FE FF FE FF.  Only if the frame was cut behind its whole payload and the core's
   additional trailer word (C28) was stored, too, the message appears, with offset 1. *)
Theorem C59_force_unreported : forall dest P tail size, bytes_mem dest -> (tail = [] \/ tail = [0xFFFE]) ->
  holds dest (framed P true ++ tail) -> zero_after dest (framed P true ++ tail) -> 2 * len P <= size -> Z.even size = true ->
  check_last_marker dest size = if (size =? 2 * len P) && negb (len tail =? 0) then ForceMarker 1 else NoMarker.
Proof.
  intros dest P tail size Hd Ht Hh Hz Hs Hev. destruct (frame_mem dest _ _ _ Hh) as (_ & _ & F3 & F4). cbv iota zeta in F3. change (0xFFFE mod 256) with 254 in F3. change (0xFFFE / 256) with 255 in F3.
  assert (L : len (framed P true ++ tail) = 16 + len P + len tail) by (unfold framed, len; rewrite !app_length, !repeat_length; lia).
  unfold zero_after in Hz. rewrite L in Hz. pose proof (len_nonneg _ P) as HP0. set (t0 := 2 * len P + 16) in *.
  assert (B : forall a, t0 <= a -> a < t0 + 16 + 2 * len tail -> dest a = if Z.even (a - t0) then 254 else 255).
  { intros a A1 A2. destruct (Z_lt_ge_dec a (t0 + 16)).
    - replace a with (t0 + (a - t0)) at 1 by ring. apply F3. lia.
    - destruct Ht as [-> | ->]; [cbn in A2; lia|]. change (len [0xFFFE]) with 1 in *. replace a with (2 * len P + 32 + (a - t0 - 16)) at 1 by lia. rewrite F4 by lia.
      assert (a = t0 + 16 \/ a = t0 + 17) as [->| ->] by lia.
      + replace (t0 + 16 - t0) with 16 by ring. reflexivity.
      + replace (t0 + 17 - t0) with 17 by ring. reflexivity. }
  assert (HT : len tail = 0 \/ len tail = 1) by (destruct Ht as [-> | ->]; [left|right]; reflexivity).
  (* a complete marker can only be at t0 + 1, and only with the additional word *)
  assert (Only : forall o, size + 16 <= o -> (forall k, 0 <= k < 4 -> is_mark (ld32 dest (o + 4 * k)) = true) -> o = t0 + 1 /\ len tail = 1).
  { intros o Ho Hk. assert (M0 := Hk 0 ltac:(lia)). assert (M3 := Hk 3 ltac:(lia)). rewrite Z.add_0_r in M0. change (4 * 3) with 12 in M3.
    apply is_mark_iff in M0; [|assumption]. apply is_mark_iff in M3; [|assumption].
    assert (N0 : dest o = 255) by (destruct M0 as [(X & _)|(X & _)]; exact X).
    assert (N15 : dest (o + 12 + 3) <> 0) by (destruct M3 as [(_ & _ & _ & X)|(_ & _ & _ & X)]; rewrite X; lia).
    assert (U : o + 12 + 3 < t0 + 16 + 2 * len tail). { destruct (Z_lt_ge_dec (o + 12 + 3) (t0 + 16 + 2 * len tail)); [assumption|]. destruct N15. apply Hz. lia. }
    rewrite B in N0 by lia. destruct (Z.even (o - t0)) eqn:Eo; [discriminate|].
    assert (C : o = t0 \/ o = t0 + 1 \/ o = t0 + 2) by lia.
    destruct C as [->|[->| ->]].
    - rewrite Z.sub_diag in Eo. discriminate.
    - split; lia.
    - replace (t0 + 2 - t0) with 2 in Eo by ring. discriminate. }
  destruct ((size =? 2 * len P) && negb (len tail =? 0)) eqn:Ec.
  - assert (Es : size = 2 * len P) by lia. assert (Et : len tail = 1) by lia.
    assert (B' : forall a, t0 <= a < t0 + 18 -> dest a = if Z.even (a - t0) then 254 else 255) by (intros; apply B; lia). clear B.
    assert (Bk : forall k, 0 <= k < 18 -> dest (t0 + k) = if Z.even k then 254 else 255) by (intros k Hk; rewrite B' by lia; replace (t0 + k - t0) with k by ring; reflexivity).
    assert (Mk : forall k, 0 <= k < 4 -> is_mark (ld32 dest (t0 + 1 + 4 * k)) = true).
    { intros k Hk. apply is_mark_iff; [assumption|]. right. unfold swapped_fe.
      replace (t0 + 1 + 4 * k + 1) with (t0 + (2 + 4 * k)) by ring. replace (t0 + 1 + 4 * k + 2) with (t0 + (3 + 4 * k)) by ring.
      replace (t0 + 1 + 4 * k + 3) with (t0 + (4 + 4 * k)) by ring. replace (t0 + 1 + 4 * k) with (t0 + (1 + 4 * k)) by ring.
      rewrite !Bk by lia. assert (k = 0 \/ k = 1 \/ k = 2 \/ k = 3) as [->|[->|[->| ->]]] by lia; repeat split. }
    unfold check_last_marker. pose proof (scan_spec dest Hd 128 (size + 16)) as (S1 & S2 & S3). set (r := scan_loop 128 dest (size + 16)) in *. clearbody r.
    replace (size + 16) with t0 in S1, S2, S3 by lia.
    assert (Er : r = t0 + 1).
    { destruct (Z.lt_trichotomy r (t0 + 1)) as [Lr|[Lr|Lr]]; [|exact Lr|].
      - assert (r = t0) by lia. subst r. specialize (S2 ltac:(lia)). apply is_mark_iff in S2; [|assumption]. pose proof (Bk 0 ltac:(lia)) as X0. rewrite Z.add_0_r in X0. cbn [Z.even] in X0.
        destruct S2 as [(Y & _)|(Y & _)]; lia.
      - specialize (S3 (t0 + 1) ltac:(lia)). specialize (Mk 0 ltac:(lia)). rewrite Z.add_0_r in Mk. congruence. }
    subst r. replace (last_loop 4 0 dest (t0 + 1)) with true by (symmetry; apply last_loop_spec; intros k Hk; apply (Mk k); lia).
    destruct (Z.eqb_spec (ld32 dest (t0 + 1)) 0xFFFFFFFF) as [Ef|Ef].
    + apply ld32_ff in Ef; [|assumption]. destruct Ef as (_ & Ef & _). pose proof (Bk 2 ltac:(lia)) as X2. cbn [Z.even] in X2. replace (t0 + 2) with (t0 + 1 + 1) in X2 by ring. lia.
    + f_equal. lia.
  - apply last_none; [assumption|]. intros o Ho Hk. destruct (Only o Ho Hk) as [-> E].
    rewrite even_mod in Hev. pose proof (Z.div_mod size 2 ltac:(lia)). lia.
Qed.

(* C59.  If the reference file has an odd number of bytes, its last byte is never looked at. *)
Theorem C59_odd_blind : forall dest lj lj' n, bytes_mem dest -> bytes_mem lj -> bytes_mem lj' -> 10 <= n < 2 ^ 31 -> Z.odd n = true ->
  (forall a, a <> n - 1 -> lj a = lj' a) ->
  (validate dest (re_order_lj92 lj n) n = Succeeded <-> validate dest (re_order_lj92 lj' n) n = Succeeded).
Proof.
  intros dest lj lj' n Hd Hl Hl' Hn Ho He.
  destruct (C59_reorder lj n Hl ltac:(lia)) as (E & B & _). destruct (C59_reorder lj' n Hl' ltac:(lia)) as (E' & B' & _).
  destruct (C59_validate dest _ n Hd B Hn) as [V _]. destruct (C59_validate dest _ n Hd B' Hn) as [V' _]. rewrite V, V'.
  assert (K : forall i, 0 <= i < n -> re_order_lj92 lj n i = re_order_lj92 lj' n i).
  { intros i Hi. rewrite E, E'. assert (Hnm : mate i <> n - 1).
    { unfold mate. rewrite even_mod. rewrite Zodd_mod in Ho. apply Zeq_bool_eq in Ho.
      pose proof (Z.div_mod i 2 ltac:(lia)). pose proof (Z.div_mod n 2 ltac:(lia)). pose proof (Z.mod_pos_bound i 2 ltac:(lia)).
      destruct (i mod 2 =? 0) eqn:Em; lia. }
    pose proof (Z.div_mod (n + 1) 2 ltac:(lia)). pose proof (Z.mod_pos_bound (n + 1) 2 ltac:(lia)).
    replace ((0 <=? i) && (i <? 2 * ((n + 1) / 2))) with true by lia. apply He, Hnm. }
  split; intros H i Hi; [rewrite <- K by assumption|rewrite K by assumption]; apply H; assumption.
Qed.

(* C59.  zero_dest clears the whole mapped destination region (0x2000000 bytes) and nothing else. *)
Theorem C59_zero_dest : forall m a, zero_dest m a = if (0 <=? a) && (a <? 0x2000000) then 0 else m a.
Proof.
  assert (G : forall fuel i m a, 0 <= i -> i + Z.of_nat fuel <= 0x800000 -> zero_loop fuel i m a = if (4 * i <=? a) && (a <? 4 * (i + Z.of_nat fuel)) then 0 else m a).
  { induction fuel as [|f IH]; intros i m a Hi Hf; cbn [zero_loop].
    - replace ((4 * i <=? a) && (a <? 4 * (i + Z.of_nat 0))) with false by lia. reflexivity.
    - replace (i <? 0x800000) with true by lia. rewrite IH by lia.
      assert (ES : st32 m (4 * i) 0 a = if (4 * i <=? a) && (a <? 4 * i + 4) then 0 else m a).
      { unfold st32, st16, st8. change (0 / 65536) with 0. change (0 / 256) with 0. change (0 mod 256) with 0.
        destruct (a =? 4 * i + 2 + 1) eqn:E1; [replace ((4 * i <=? a) && (a <? 4 * i + 4)) with true by lia; reflexivity|].
        destruct (a =? 4 * i + 2) eqn:E2; [replace ((4 * i <=? a) && (a <? 4 * i + 4)) with true by lia; reflexivity|].
        destruct (a =? 4 * i + 1) eqn:E3; [replace ((4 * i <=? a) && (a <? 4 * i + 4)) with true by lia; reflexivity|].
        destruct (a =? 4 * i) eqn:E4; [replace ((4 * i <=? a) && (a <? 4 * i + 4)) with true by lia; reflexivity|].
        replace ((4 * i <=? a) && (a <? 4 * i + 4)) with false by lia. reflexivity. }
      rewrite ES. destruct ((4 * (i + 1) <=? a) && (a <? 4 * (i + 1 + Z.of_nat f))) eqn:E1.
      + replace ((4 * i <=? a) && (a <? 4 * (i + Z.of_nat (S f)))) with true by lia. reflexivity.
      + destruct ((4 * i <=? a) && (a <? 4 * i + 4)) eqn:E2.
        * replace ((4 * i <=? a) && (a <? 4 * (i + Z.of_nat (S f)))) with true by lia. reflexivity.
        * replace ((4 * i <=? a) && (a <? 4 * (i + Z.of_nat (S f)))) with false by lia. reflexivity. }
  intros m a. unfold zero_dest. rewrite G by (rewrite ?Z2Nat.id; lia). rewrite Z2Nat.id by lia. reflexivity.
Qed.
