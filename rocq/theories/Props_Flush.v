(* C77: nothing is held back.  A sink that is ready again and again receives every complete word of
   the pixels the core has taken, whatever the source does afterwards (it may stop for ever). *)
From Verif Require Import Bits Spec Spec_Core M_Config M_Signals M_Predictor M_Difference M_Encode M_Merge M_I1 M_Fifo M_Converter M_VBits M_I3
  P_Fifo P_Encode P_Merge P_Signals P_Predictor P_I1 P_Tokens P_Converter P_VBits P_I3 P_Decode P_Run P_Live P_Live2 Props_Arith Props_Core Props_Live P_Flush.
Ltac Zify.zify_post_hook ::= idtac.

Lemma upto_in c W H ins n : (forall n, in_ok c W H (ins n)) -> Forall (in_ok c W H) (upto ins n).
Proof. intros Hin. apply Forall_forall. intros i Hi. apply in_map_iff in Hi. destruct Hi as (k & <- & _). apply Hin. Qed.
Lemma upto_le ins n m : (n <= m)%nat -> exists r, upto ins m = upto ins n ++ r.
Proof. intros L. unfold upto. replace m with (n + (m - n))%nat by lia. rewrite seq_app, map_app. eexists. reflexivity. Qed.
Lemma accepted_le c mem s0 ins n m : (n <= m)%nat -> exists r, i3_accepted c mem s0 (upto ins m) = i3_accepted c mem s0 (upto ins n) ++ r.
Proof. intros L. destruct (upto_le ins n m L) as [r ->]. rewrite accepted_app. eexists. reflexivity. Qed.
Lemma transfers_le c mem s0 ins n m : (n <= m)%nat -> exists r, i3_transfers c mem s0 (upto ins m) = i3_transfers c mem s0 (upto ins n) ++ r.
Proof. intros L. destruct (upto_le ins n m L) as [r ->]. rewrite transfers_app. eexists. reflexivity. Qed.
Lemma cut_noend {A} (l : list (A * bool)) : existsb snd l = false -> cut l = l.
Proof. induction l as [|[w e] l IH]; [reflexivity|]. cbn [existsb snd cut]. destruct e; [discriminate|]. intros E. rewrite IH by exact E. reflexivity. Qed.
Lemma stream_len w : 0 <= w -> forall l, Z.of_nat (length (stream w l)) = w * len l.
Proof. intros Hw l. apply (wbits_length w l Hw). Qed.
Lemma firstn_prefix {A} k (a r : list A) : (k <= length a)%nat -> firstn k (a ++ r) = firstn k a.
Proof. intros L. rewrite firstn_app. replace (k - length a)%nat with 0%nat by lia. cbn. apply app_nil_r. Qed.

(* However the source behaves: every word that the pixels accepted so far complete is handed over in the end. *)
Theorem C77_complete_words : forall c t W H s0 (ins : nat -> i3_in),
  cfg_ok c = true -> table_ok (bd c) t -> frame_ok c W H -> is_reset c s0 -> (forall n, in_ok c W H (ins n)) ->
  (forall n, exists m, (n <= m)%nat /\ in_busy (ins m) = false) ->
  forall n0 (k : nat), let code := ref_encode t (bd c) W [] (concat (i3_accepted c (mem_of (bd c) t) s0 (upto ins n0))) in
  Z.of_nat k * outb c <= Z.of_nat (length code) ->
  exists n, (n0 <= n)%nat /\ forall m, (n <= m)%nat ->
    let out := i3_transfers c (mem_of (bd c) t) s0 (upto ins m) in
    Z.of_nat k <= len (cut out) /\
    firstn (k * Z.to_nat (outb c)) (stream (outb c) (map fst (cut out))) = firstn (k * Z.to_nat (outb c)) code.
Proof.
  intros c t W H s0 ins Hc Ht Hf Hr Hin Hb n0 k code Hk. set (mem := mem_of (bd c) t) in *.
  destruct (live_flush c t W H s0 ins Hc Ht Hf Hr (fun n => in_ok_acc c W H _ _ (Hin n)) Hb n0) as (n & L & HE). fold mem in HE. fold code in HE.
  exists n. split; [exact L|]. intros m Lm out. assert (Ho : 1 <= outb c) by (unfold cfg_ok in Hc; lia).
  destruct (accepted_le c mem s0 ins n0 m ltac:(lia)) as [ra Ea]. destruct (transfers_le c mem s0 ins n m Lm) as [rt Et].
  assert (Ecode : exists x, ref_encode t (bd c) W [] (concat (i3_accepted c mem s0 (upto ins m))) = code ++ x).
  { rewrite Ea, concat_app, ref_encode_app. eexists. reflexivity. }
  destruct Ecode as [x Ex]. set (K := (k * Z.to_nat (outb c))%nat). assert (HK : (K <= length code)%nat) by (unfold K; nia).
  destruct (existsb snd out) eqn:Ee.
  - destruct (finished_run c t W H s0 (upto ins m) Hc Ht Hf Hr (in_ok_run _ _ _ _ _ (upto_in c W H ins m Hin) _)) as (_ & _ & _ & pad & Hp & ES); [exact Ee|].
    fold mem out in ES. rewrite Ex in ES. split.
    + apply (f_equal (@length bool)) in ES. rewrite !app_length in ES. pose proof (stream_len (outb c) ltac:(lia) (map fst (cut out))) as SL. unfold len in *. rewrite map_length in SL. unfold K in HK. nia.
    + rewrite ES, <- app_assoc. apply firstn_prefix. exact HK.
  - destruct (C01_prefix c t W H s0 (upto ins m) Hc Ht Hf Hr (upto_in c W H ins m Hin) Ee) as [rest ER]. fold mem out in ER. rewrite Ex in ER.
    rewrite (cut_noend out Ee). assert (Hl : Z.of_nat k <= len out).
    { unfold out in *. rewrite Et in *. rewrite existsb_app in Ee. apply orb_false_iff in Ee. destruct Ee as [Ee _]. rewrite Ee in HE. destruct HE as [|HE]; [discriminate|].
      unfold len in *. rewrite app_length. nia. }
    split; [exact Hl|]. pose proof (stream_len (outb c) ltac:(lia) (map fst out)) as SL. unfold len in *. rewrite map_length in SL.
    rewrite <- (firstn_prefix K _ rest), <- ER; [apply firstn_prefix; exact HK|]. unfold K. nia.
Qed.

(* If the source stops before the frame is complete, the words handed over settle at exactly the complete words of the accepted
   pixels; what stays inside the core is the last, incomplete word, for ever. *)
Theorem C77_stalled_source : forall c t W H s0 (ins : nat -> i3_in),
  cfg_ok c = true -> table_ok (bd c) t -> frame_ok c W H -> is_reset c s0 -> (forall n, in_ok c W H (ins n)) ->
  (forall n, exists m, (n <= m)%nat /\ in_busy (ins m) = false) ->
  forall n0, (forall n, (n0 <= n)%nat -> in_valid (ins n) = false) ->
  let acc := i3_accepted c (mem_of (bd c) t) s0 (upto ins n0) in
  let code := ref_encode t (bd c) W [] (concat acc) in
  len (concat acc) < W * H ->
  exists n, forall m, (n <= m)%nat ->
    let out := i3_transfers c (mem_of (bd c) t) s0 (upto ins m) in
    existsb snd out = false /\ len out = Z.of_nat (length code) / outb c /\
    exists rest, code = stream (outb c) (map fst out) ++ rest /\ Z.of_nat (length rest) < outb c.
Proof.
  intros c t W H s0 ins Hc Ht Hf Hr Hin Hb n0 Hs acc code Hl. set (mem := mem_of (bd c) t) in *. assert (Ho : 1 <= outb c) by (unfold cfg_ok in Hc; lia).
  assert (Hacc : forall d, i3_accepted c mem s0 (upto ins (n0 + d)) = acc).
  { induction d as [|d IH]; [rewrite Nat.add_0_r; reflexivity|]. rewrite Nat.add_succ_r, upto_S, accepted_app, IH. cbn [i3_accepted]. unfold i3_accept. rewrite Hs by lia. rewrite andb_false_l, app_nil_r. reflexivity. }
  destruct (live_flush c t W H s0 ins Hc Ht Hf Hr (fun n => in_ok_acc c W H _ _ (Hin n)) Hb n0) as (n & L & HE). fold mem in HE. fold acc in HE. fold code in HE.
  exists n. intros m Lm out. assert (Em : i3_accepted c mem s0 (upto ins m) = acc) by (replace m with (n0 + (m - n0))%nat by lia; apply Hacc).
  assert (Ee : existsb snd out = false).
  { destruct (existsb snd out) eqn:E; [|reflexivity]. destruct (finished_run c t W H s0 (upto ins m) Hc Ht Hf Hr (in_ok_run _ _ _ _ _ (upto_in c W H ins m Hin) _)) as (_ & X & _); [exact E|]. fold mem in X. rewrite Em in X. lia. }
  split; [exact Ee|]. destruct (C01_prefix c t W H s0 (upto ins m) Hc Ht Hf Hr (upto_in c W H ins m Hin) Ee) as [rest ER]. fold mem out in ER. rewrite Em in ER. fold code in ER.
  pose proof (stream_len (outb c) ltac:(lia) (map fst out)) as SL. pose proof (f_equal (@length bool) ER) as EL. rewrite app_length in EL.
  destruct (transfers_le c mem s0 ins n m Lm) as [rt Et]. fold out in Et. assert (Ee' := Ee). rewrite Et, existsb_app in Ee'. apply orb_false_iff in Ee'. destruct Ee' as [Ee' _]. rewrite Ee' in HE. destruct HE as [|HE]; [discriminate|].
  assert (Hlo : len (i3_transfers c mem s0 (upto ins n)) <= len out) by (rewrite Et, len_app; pose proof (len_nonneg rt); lia).
  assert (Elen : len (map fst out) = len out) by (unfold len; rewrite map_length; reflexivity). rewrite Elen in SL.
  split; [|exists rest; split; [exact ER|nia]].
  apply (Z.div_unique_pos _ _ _ (Z.of_nat (length rest))); nia.
Qed.

(* 12-bit pixels, two per cycle, 4x3 frame; the source stops for ever after three of the six groups, the sink is ready in one cycle
   of three.  The code of the six pixels has 106 bits: six words are handed over and 10 bits stay inside. *)
Definition stall_ex (k : nat) : i3_in :=
  {| in_valid := Nat.ltb k 23 && Nat.eqb (Nat.modulo k 5) 2; in_px := [Z.of_nat k * 37 mod 4096; 4095 - Z.of_nat k * 51 mod 4096]; in_busy := negb (Nat.eqb (Nat.modulo k 3) 1); in_w := 4; in_h := 3 |}.
Example C77_example : (forall n, in_ok ex_cfg 4 3 (stall_ex n)) /\ (forall n, exists m, (n <= m)%nat /\ in_busy (stall_ex m) = false) /\ (forall n, (23 <= n)%nat -> in_valid (stall_ex n) = false) /\
  let acc := i3_accepted ex_cfg (init_huff_table 12) (i3_init ex_cfg) (upto stall_ex 23) in
  let out := i3_transfers ex_cfg (init_huff_table 12) (i3_init ex_cfg) (upto stall_ex 100) in
  len (concat acc) = 6 /\ len (ref_encode (std_table 12) 12 4 [] (concat acc)) = 106 /\ len out = 6 /\ outb ex_cfg = 16.
Proof.
  split; [|split; [|split]].
  - intros k _. split; [|split; reflexivity]. split; [reflexivity|].
    assert (0 <= Z.of_nat k * 37 mod 4096 < 4096) by (apply Z.mod_pos_bound; lia).
    assert (0 <= Z.of_nat k * 51 mod 4096 < 4096) by (apply Z.mod_pos_bound; lia).
    constructor; [|constructor; [|constructor]]; unfold in_range; change (2 ^ bd ex_cfg) with 4096; lia.
  - intros n. exists (1 + n * 3)%nat. split; [lia|]. cbn [in_busy stall_ex]. rewrite Nat.mod_add by lia. reflexivity.
  - intros n L. cbn [in_valid stall_ex]. destruct (Nat.ltb_spec n 23); [lia|reflexivity].
  - vm_compute. auto.
Qed.
