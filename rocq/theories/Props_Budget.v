(* C81: the time limit of a frame decides which images can be delivered at all. *)
From Verif Require Import Bits Spec Spec_Core Spec_Beta Spec_Rate M_Config M_Encode M_I1 M_Fifo M_I3 M_Fix M_Markers M_Beta
  P_Encode P_Tokens P_I3 P_Decode P_Run P_Live P_Fix P_Markers Props_Arith Props_Core Props_Frame P_Pack P_Beta Props_Beta P_BetaLive P_Stall P_Budget Props_Rate.
Ltac Zify.zify_post_hook ::= idtac.

Lemma unstuff_len : forall l, (length (unstuff l) <= length l)%nat.
Proof.
  assert (X : forall n l, (length l <= n)%nat -> (length (unstuff l) <= length l)%nat).
  { induction n as [|n IH]; intros [|b l] Hl; cbn [length unstuff] in *; try lia. destruct (b =? 255); [|specialize (IH l); lia]. destruct l as [|x l]; cbn [length] in *; [lia|]. specialize (IH l). lia. }
  intros l. apply (X (length l)). lia.
Qed.
Lemma bytes_len : forall l, (length (flat_map bytes_of l) = 2 * length l)%nat.
Proof. induction l as [|w l IH]; [reflexivity|]. cbn [flat_map bytes_of app length]. rewrite IH. lia. Qed.
Lemma stream_len w : forall l, 0 <= w -> len (stream w l) = w * len l.
Proof. intros l Hw. unfold stream. pose proof (wbits_length w l Hw) as X. unfold wbits in X. unfold len in *. exact X. Qed.
Lemma code_payload t bd W px : len (ref_encode t bd W [] px) <= 16 * len (payload t bd W px).
Proof.
  destruct (payload_bits t bd W px) as (tail & E). apply (f_equal len) in E. rewrite stream_len, len_app in E by lia.
  pose proof (unstuff_len (flat_map bytes_of (payload t bd W px))) as X. rewrite bytes_len in X. pose proof (len_nonneg tail). unfold len in *. lia.
Qed.

(* Every finished frame carries at most allowed_cycles - 8 words between header and trailer. *)
Theorem C81_words : forall c t sizes allows i3 l,
  cfg_ok c = true -> outb c = 16 -> table_ok (bd c) t ->
  (forall n, beta_frame_ok c (fst (sizes n)) (snd (sizes n))) -> (forall n, 0 <= allows n < 2 ^ 24) ->
  is_reset c i3 -> bt_env c (mem_of (bd c) t) sizes 0 (bt_reset_with i3) l -> allowed_env c (mem_of (bd c) t) allows 0 [] (bt_reset_with i3) l ->
  let log := bt_log c (mem_of (bd c) t) [] [] (bt_reset_with i3) l in
  forall k A O, nth_error log k = Some (A, O) -> (S k < length log)%nat ->
  len (cut O) <= 16 + Z.max 0 (allows k - 8).
Proof.
  intros c t sizes allows i3 l Hc Ho Ht Hf Ha Hi HE HL log k A O HN Hk.
  assert (HY : forall k, bt_hyp c t (fst (sizes k)) (snd (sizes k))) by (intros; repeat split; try assumption; apply Hf || (apply Ht)).
  destruct (bud_init (allows 0%nat) i3 ltac:(apply Ha)) as [B0 B1].
  pose proof (bud_log c t sizes allows HY Ha l [] [] (bt_reset_with i3) 0%nat (bt_inv_init _ _ _ _ _ (HY 0%nat) Hi) B0 B1 HE HL k A O HN Hk) as X. cbn [Nat.add] in X. lia.
Qed.

(* So a frame that is not flagged as cut short has a code of at most 16 (allowed_cycles - 8) bits. *)
Theorem C81_budget : forall c t sizes allows i3 l,
  cfg_ok c = true -> outb c = 16 -> bd c <= 15 -> table_ok (bd c) t -> prefix_free t ->
  (forall n, beta_frame_ok c (fst (sizes n)) (snd (sizes n))) -> (forall n, 0 <= allows n < 2 ^ 24) ->
  is_reset c i3 -> bt_env c (mem_of (bd c) t) sizes 0 (bt_reset_with i3) l -> allowed_env c (mem_of (bd c) t) allows 0 [] (bt_reset_with i3) l ->
  let log := bt_log c (mem_of (bd c) t) [] [] (bt_reset_with i3) l in
  forall k A O, nth_error log k = Some (A, O) -> (S k < length log)%nat ->
  let W := fst (sizes k) in let H := snd (sizes k) in
  snd (deframe (map fst O)) = Some true \/
  snd (deframe (map fst O)) = Some false /\ len (concat A) = W * H /\ len (payload t (bd c) W (concat A)) <= Z.max 0 (allows k - 8) /\
    len (ref_encode t (bd c) W [] (concat A)) <= 16 * Z.max 0 (allows k - 8).
Proof.
  intros c t sizes allows i3 l Hc Ho Hb Ht Hp Hf Ha Hi HE HL log k A O HN Hk W H.
  pose proof (C81_words c t sizes allows i3 l Hc Ho Ht Hf Ha Hi HE HL k A O HN Hk) as X.
  destruct (C25_lossless_or_flagged c t sizes i3 l Hc Ho Hb Ht Hp Hf Hi HE k A O HN Hk) as [(R1 & R2 & R3)|R]; [right|left; exact R]. split; [exact R1|]. split; [exact R2|].
  destruct (C25_frames c t sizes i3 l Hc Ho Ht Hf Hi HE k A O HN) as [K _]. destruct (K Hk) as (He & forced & R & Ht2). fold W H in R.
  assert (HO : exists tl, map fst O = map fst (cut O) ++ tl) by (destruct Ht2 as [E|E]; [exists []; rewrite app_nil_r; congruence|eexists; rewrite E at 1; apply map_app]).
  destruct HO as [tl HO]. destruct forced.
  - exfalso. destruct (R (concat A ++ []) [] eq_refl ltac:(rewrite app_nil_r; exact R2)) as (j & Hj). rewrite HO, Hj in R1.
    pose proof (C24_delimitable _ j true tl (payload_bytes t (bd c) W (concat A ++ []))) as D. cbv zeta in D. fold (payload t (bd c) W (concat A ++ [])) in D. rewrite D in R1. discriminate.
  - destruct R as [_ Hm]. assert (len (payload t (bd c) W (concat A)) <= Z.max 0 (allows k - 8)).
    { apply (f_equal len) in Hm. unfold framed in Hm. rewrite !len_app in Hm. unfold len at 1 in Hm. rewrite map_length in Hm. fold (len (cut O)) in Hm.
      change (len (repeat 65535 8)) with 8 in Hm. lia. }
    split; [assumption|]. pose proof (code_payload t (bd c) W (concat A)). lia.
Qed.

(* ------------------------------------------------------------------ as shipped: 4096 x 3072 in 6666000 cycles *)

Lemma allowed_all c mem n : forall l k A s, (forall i, In i l -> bi_allowed i = n) -> allowed_env c mem (fun _ => n) k A s l.
Proof.
  induction l as [|i l IH]; intros k A s Hl; [exact I|]. split; [intros _; apply Hl; left; reflexivity|]. apply IH. intros; apply Hl; right; assumption.
Qed.
Lemma shipped_allowed sched i3 mem : is_reset beta_cfg i3 -> allowed_env beta_cfg mem (fun _ => 6666000) 0 [] (bt_reset_with i3) (bt_rf_ins rf_init sched).
Proof.
  intros Hi. destruct sched as [|[[v px] b] r]; [exact I|]. cbn [bt_rf_ins allowed_env]. split; [intros X; elim X; reflexivity|].
  apply allowed_all. change (rf_step rf_init) with {| rf_width := 4096; rf_height := 3072; rf_allowed := 6666000 |}.
  clear. induction r as [|[[v px] b] r IH]; intros i Hin; [destruct Hin|]. cbn [bt_rf_ins] in Hin. destruct Hin as [<-|Hin]; [reflexivity|apply IH, Hin].
Qed.

(* at most 106655872 bits, that is 8.476 bits for a sample *)
Theorem C81_shipped : forall (sched : list (bool * list Z * bool)) i3,
  is_reset beta_cfg i3 -> (forall x, In x sched -> group_ok 12 2 (snd (fst x))) ->
  let log := bt_log beta_cfg (init_huff_table 12) [] [] (bt_reset_with i3) (bt_rf_ins rf_init sched) in
  forall k A O, nth_error log k = Some (A, O) -> (S k < length log)%nat ->
  snd (deframe (map fst O)) = Some true \/
  snd (deframe (map fst O)) = Some false /\ len (concat A) = 4096 * 3072 /\ len (ref_encode (std_table 12) 12 4096 [] (concat A)) <= 106655872.
Proof.
  intros sched i3 Hi Hs log k A O HN Hk. destruct (std_mem beta_cfg eq_refl) as (Hm & Ht & Hp). cbn [bd beta_cfg] in Hm, Ht, Hp.
  unfold log in *. rewrite Hm in *.
  destruct (C81_budget beta_cfg (std_table 12) (fun _ => (4096, 3072)) (fun _ => 6666000) i3 (bt_rf_ins rf_init sched)) with (k := k) (A := A) (O := O) as [X|(X1 & X2 & _ & X3)]; try reflexivity; try assumption.
  - cbn. lia.
  - intros n. unfold beta_frame_ok, frame_ok. cbn. lia.
  - intros n. lia.
  - apply shipped_env; assumption.
  - apply shipped_allowed; assumption.
  - left; exact X.
  - right. split; [exact X1|]. split; [exact X2|]. cbn [fst bd beta_cfg] in X3. lia.
Qed.

(* every sample is at least D away from its prediction *)
Definition rough (bd W D : Z) (px : list Z) : Prop := forall a p b, px = a ++ p :: b -> D <= Z.abs (p - prediction bd W a (len a)).

Lemma std_large d : 32 <= Z.abs d < 2 ^ 12 -> 9 <= len (encode_diff (std_table 12) d).
Proof.
  intros Hd. assert (Hc : 6 <= category d <= 12).
  { pose proof (P_Normalize.category_range 12 d ltac:(lia) ltac:(lia)) as X. split; [|lia]. destruct (P_Normalize.category_bounds d ltac:(lia)) as [Y1 Y2].
    destruct (Z_lt_le_dec (category d) 6) as [Z|Z]; [|lia]. pose proof (Z.pow_le_mono_r 2 (category d) 5 ltac:(lia) ltac:(lia)). change (2 ^ 5) with 32 in *. lia. }
  unfold encode_diff, extra_bits. rewrite len_app. replace (category d =? 16) with false by lia. rewrite len_bitsz by lia.
  assert (3 <= len (code_bits (std_table 12) (category d))); [|lia].
  assert (X : category d = 6 \/ category d = 7 \/ category d = 8 \/ category d = 9 \/ category d = 10 \/ category d = 11 \/ category d = 12) by lia.
  destruct X as [X|[X|[X|[X|[X|[X|X]]]]]]; rewrite X; vm_compute; discriminate.
Qed.
Lemma pred_range W img k : Forall (in_range 12) img -> in_range 12 (prediction 12 W img k).
Proof.
  intros HF. assert (X : forall j, in_range 12 (nth j img 0)).
  { intros j. destruct (nth_in_or_default j img 0) as [Y|Y]; [rewrite Forall_forall in HF; apply HF, Y|rewrite Y; unfold in_range; lia]. }
  unfold prediction. destruct (_ <? 4); [destruct (_ <? W)|]; [unfold in_range; cbn; lia|apply X|apply X].
Qed.
Lemma rough_len W : forall px img, Forall (in_range 12) img -> Forall (in_range 12) px -> rough 12 W 32 (img ++ px) -> 9 * len px <= len (ref_encode (std_table 12) 12 W img px).
Proof.
  induction px as [|p px IH]; intros img Hi Hp HR; [cbn; lia|]. inversion Hp as [|? ? P1 P2]; subst. cbn [ref_encode]. rewrite len_app. change (Z.of_nat (length img)) with (len img).
  pose proof (pred_range W img (len img) Hi) as Q. unfold in_range in P1, Q. pose proof (HR img p px eq_refl) as R.
  pose proof (std_large (p - prediction 12 W img (len img)) ltac:(lia)) as L. specialize (IH (img ++ [p])). rewrite <- app_assoc in IH. cbn [app] in IH.
  specialize (IH ltac:(apply Forall_app; split; [exact Hi|repeat constructor; exact (proj1 P1) || exact (proj2 P1)]) P2 HR). unfold len in *. cbn [length]. lia.
Qed.

(* an image whose samples all differ from their predictions by 32 or more is never delivered complete, whatever the timing *)
Theorem C81_rough : forall (sched : list (bool * list Z * bool)) i3,
  is_reset beta_cfg i3 -> (forall x, In x sched -> group_ok 12 2 (snd (fst x))) ->
  let log := bt_log beta_cfg (init_huff_table 12) [] [] (bt_reset_with i3) (bt_rf_ins rf_init sched) in
  forall k A O, nth_error log k = Some (A, O) -> (S k < length log)%nat ->
  rough 12 4096 32 (concat A) -> snd (deframe (map fst O)) = Some true.
Proof.
  intros sched i3 Hi Hs log k A O HN Hk HR. destruct (C81_shipped sched i3 Hi Hs k A O HN Hk) as [X|(_ & X2 & X3)]; [exact X|exfalso].
  assert (HF : Forall (in_range 12) (concat A)).
  { destruct (std_mem beta_cfg eq_refl) as (Hm & Ht & Hp). cbn [bd beta_cfg] in Hm, Ht, Hp. unfold log in HN. rewrite Hm in HN.
    assert (HY : forall k : nat, bt_hyp beta_cfg (std_table 12) (fst (4096, 3072)) (snd (4096, 3072))) by (intros; repeat split; try assumption; try reflexivity; try (cbn; lia); apply Ht).
    destruct (bt_log_ok beta_cfg (std_table 12) (fun _ => (4096, 3072)) HY (bt_rf_ins rf_init sched) [] [] (bt_reset_with i3) 0%nat (bt_inv_init _ _ _ _ _ (HY 0%nat) Hi) eq_refl ltac:(apply shipped_env; assumption) k A O HN) as (s' & (P & hist & d1 & d2 & J & _) & _).
    apply (inv_pixels _ _ _ _ _ _ _ _ _ _ J). }
  pose proof (rough_len 4096 (concat A) [] ltac:(constructor) HF HR) as Y. lia.
Qed.

(* the frames of C25_example meet the hypotheses; with 1000 allowed cycles they are delivered, and with a limit below the bound they are flagged *)
Example C81_example : allowed_env beta_cfg (mem_of 12 (std_table 12)) (fun _ => 1000) 0 [] (bt_init beta_cfg) (map (C25_in 1000) (seq 0 170)) /\
  map (fun x => (snd (deframe (map fst (snd x))), len (cut (snd x)), len (payload (std_table 12) 12 6 (concat (fst x))))) (firstn 2 (C25_log 1000 170)) =
    [(Some false, 39, 23); (Some false, 40, 24)] /\
  map (fun x => (snd (deframe (map fst (snd x))), len (cut (snd x)))) (firstn 2 (C25_log 30 170)) = [(Some true, 17); (Some true, 18)].
Proof. split; [apply allowed_all; intros i Hi; apply in_map_iff in Hi; destruct Hi as (k & <- & _); reflexivity|]. vm_compute. repeat split. Qed.

Fixpoint check_rough (bd W D : Z) (img px : list Z) : bool :=
  match px with [] => true | p :: r => (D <=? Z.abs (p - prediction bd W img (len img))) && check_rough bd W D (img ++ [p]) r end.
Lemma check_rough_ok bd W D px : check_rough bd W D [] px = true -> rough bd W D px.
Proof.
  assert (X : forall px img, check_rough bd W D img px = true -> forall a p b, px = a ++ p :: b -> D <= Z.abs (p - prediction bd W (img ++ a) (len (img ++ a)))).
  { induction px0 as [|h px0 IH]; intros img E a p b EQ; [destruct a; discriminate|]. cbn [check_rough] in E. apply andb_prop in E. destruct E as [E1 E2].
    destruct a as [|x a]; cbn [app] in EQ; injection EQ as -> ->; [rewrite app_nil_r; lia|]. replace (img ++ x :: a) with ((img ++ [x]) ++ a) by (rewrite <- app_assoc; reflexivity). apply (IH _ E2 a p b). reflexivity. }
  intros E a p b EQ. apply (X px [] E a p b EQ).
Qed.
Example C81_rough_example : rough 12 8 32 [0; 4095; 2000; 1000; 40; 4000; 1900; 1100; 100; 4050; 1800; 900; 300; 3900; 1750; 950].
Proof. apply check_rough_ok. vm_compute. reflexivity. Qed.
