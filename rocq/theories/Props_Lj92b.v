(* C55, C58 and concrete runs of the shipped decoder *)
From Verif Require Import Bits Spec Spec_Core Spec_Beta Spec_Lj92 M_Config M_Encode M_I1 M_Fifo M_I3 M_Fix M_Markers M_Beta M_Predictor M_Lj92
  P_Encode P_Tokens P_I3 P_Decode P_Run P_Live P_Fix P_Markers Props_Arith Props_Core Props_Frame P_Pack P_Beta Props_Beta
  P_Lj92 P_Lj92b P_Lj92c P_Lj92d Props_Lj92.
Ltac Zify.zify_post_hook ::= idtac.

(* ------------------------------------------------------------------ C58: 16-bit samples *)

Lemma code_bits_firstn t n s : 0 <= s < Z.of_nat n -> code_bits (firstn n t) s = code_bits t s.
Proof.
  intros Hs. unfold code_bits. replace (nth_error (firstn n t) (Z.to_nat s)) with (nth_error t (Z.to_nat s)); [reflexivity|].
  rewrite <- (firstn_skipn n t) at 1. destruct (lt_dec (Z.to_nat s) (length (firstn n t))).
  - apply nth_error_app1. assumption.
  - rewrite firstn_length in *. destruct (le_lt_dec (length t) n).
    + rewrite firstn_skipn, firstn_all2 by lia. reflexivity.
    + lia.
Qed.
Lemma prefix_free_firstn t n : prefix_free t -> prefix_free (firstn n t).
Proof.
  intros Hp s1 s2 H1 H2 Hn. rewrite firstn_length in *. rewrite !code_bits_firstn by lia. apply Hp; lia.
Qed.
Lemma described_firstn t n bits vals : described_by t bits vals -> described_by (firstn n t) bits vals.
Proof.
  intros Hd s e E. apply Hd. rewrite <- (firstn_skipn n t). rewrite nth_error_app1; [exact E|]. apply nth_error_Some. congruence.
Qed.
Lemma category_16 d : Z.abs d < 2 ^ 15 -> 0 <= category d <= 15.
Proof.
  intros H. split; [unfold category; destruct (d =? 0); [lia|]; pose proof (Z.log2_nonneg (Z.abs d)); lia|]. apply category_le; lia.
Qed.
Lemma category_is_16 d : 2 ^ 15 <= Z.abs d < 2 ^ 16 -> category d = 16.
Proof.
  intros H. unfold category. replace (d =? 0) with false by lia. rewrite (Z.log2_unique (Z.abs d) 15) by lia. reflexivity.
Qed.
Lemma ref_decode_16 t W px : prefix_free t -> len t = 17 -> forall img l,
  Forall (in_range 16) img -> Forall (in_range 16) px -> no_class16 16 W img px ->
  ref_decode (firstn 16 t) 16 W (length px) img (ref_encode t 16 W img px ++ l) = Some (img ++ px).
Proof.
  intros Hp Ht. induction px as [|p px IH]; intros img l Hi Hx Hs.
  - cbn. rewrite app_nil_r. reflexivity.
  - inversion Hx as [|? ? Hp1 Hx1]; subst. destruct Hs as [Hs1 Hs2]. cbn [ref_encode ref_decode length].
    pose proof (prediction_range 16 W img (Z.of_nat (length img)) ltac:(lia) Hi) as Hq.
    set (q := prediction 16 W img (Z.of_nat (length img))) in *.
    pose proof (category_16 _ Hs1) as Hc. rewrite <- app_assoc.
    assert (EE : encode_diff t (p - q) = encode_diff (firstn 16 t) (p - q)) by (unfold encode_diff; rewrite code_bits_firstn by lia; reflexivity).
    rewrite EE, decode_diff_ok; [|apply prefix_free_firstn; exact Hp|unfold len in *; rewrite firstn_length; lia|lia].
    fold (pix_seen q p). rewrite (pix_seen_ok 16) by (assumption || lia).
    rewrite IH; [rewrite <- app_assoc; reflexivity| |assumption|assumption].
    apply Forall_app. split; [assumption|]. constructor; [assumption|constructor].
Qed.

(* without a difference of class 16 the library decodes 16-bit frames *)
Theorem C58_no_class16 : forall d bits vals t x y px a rows img U,
  dht_ok bits vals -> (length vals <= 200)%nat -> described_by t bits vals -> table_ok 16 t -> prefix_free t ->
  4 <= x < 65536 -> 0 <= y < 65536 -> 0 <= da_skip a ->
  len px = 4 * x * y -> Forall (in_range 16) px -> no_class16 16 (4 * x) [] px ->
  file_in d (core_file bits vals t 16 x y px) ->
  (da_lin a <> None -> Forall (fun p => p <= da_linlen a) px) ->
  decodes U d (core_file bits vals t 16 x y px) a rows img 16 x y px.
Proof.
  intros d bits vals t x y px a rows img U Hok Hn Hdes [Htl Ht] Hp Hx Hy Hs HL HF Hno Hfile Hlin. unfold core_file in *.
  destruct (payload_stuff t 16 (4 * x) px) as (Q & tail & HQ & EQ & ES). rewrite EQ in *.
  apply (C54_decode d bits vals (firstn 16 t)); try assumption.
  - apply described_firstn. exact Hdes.
  - unfold len. rewrite firstn_length. lia.
  - rewrite ES. unfold decode_frame. replace (Z.to_nat (4 * x * y)) with (length px) by (unfold len in HL; lia).
    apply (ref_decode_16 t (4 * x) px); try assumption. constructor.
Qed.

Lemma skipn_nth (l : list Z) : forall i, (i < length l)%nat -> skipn i l = nth i l 0 :: skipn (S i) l.
Proof. induction l as [|x l IH]; intros i Hi; [cbn in Hi; lia|]. destruct i; [reflexivity|]. cbn [length] in Hi. cbn [skipn nth]. apply (IH i). lia. Qed.
Lemma firstn_snoc (l : list Z) : forall i, (i < length l)%nat -> firstn (S i) l = firstn i l ++ [nth i l 0].
Proof. induction l as [|x l IH]; intros i Hi; [cbn in Hi; lia|]. destruct i; [reflexivity|]. cbn [length] in Hi. cbn [firstn nth app]. f_equal. apply (IH i). lia. Qed.

(* with one, it writes outside its statistics array *)
Theorem C58_class16 : forall d bits vals t x y px a rows img U,
  dht_ok bits vals -> (length vals <= 200)%nat -> described_by t bits vals -> table_ok 16 t -> prefix_free t ->
  4 <= x < 65536 -> 0 <= y < 65536 -> 0 <= da_skip a -> da_lin a = None ->
  len px = 4 * x * y -> Forall (in_range 16) px -> ~ no_class16 16 (4 * x) [] px ->
  file_in d (core_file bits vals t 16 x y px) ->
  exists res, lj_run U d (len (core_file bits vals t 16 x y px)) a rows img = Some res /\ lr_dec res = NONE /\ lr_oob res = true.
Proof.
  intros d bits vals t x y px a rows img U Hok Hn Ht [Htl0 Htr] Hpf Hx Hy Hskip Hnl Hpx HF Hno [Hd HH]. assert (Htl : len t = 17) by (unfold len; lia). unfold core_file in *.
  destruct (payload_stuff t 16 (4 * x) px) as (Q & tail & HQ & EQ & ES). rewrite EQ in *.
  destruct (decode_setup d bits vals 16 x y Q Hd Hok Hn ltac:(lia) ltac:(lia) HQ HH) as (d' & h & EO & Fd & Hd' & (Jx & Jy & Jb & Jc & Js & Jl) & EDec & HI). cbv zeta in EDec, HI.
  set (file := lj_file bits vals 16 x y (stuff Q)) in *. set (E := len file - 2) in *.
  pose proof Hok as (_ & Hlv & _). assert (Hd0 : 0 < 4 * x) by lia.
  destruct (scan_gen d' U h bits vals a Hlv Jc ltac:(rewrite Jx; lia) ltac:(rewrite Jy; lia)
    (fun r col c s => ptrs h a r s /\ (n_oob (s_nd s) = true \/
       exists R, row_inv d' E h px img a r col c R s /\ let i := Z.to_nat (r * (4 * x) + 4 * col + c) in
         (exists tl, R = ref_encode t 16 (4 * x) (firstn i px) (skipn i px) ++ tl) /\ ~ no_class16 16 (4 * x) (firstn i px) (skipn i px)))) with (s := scan_start (len vals) (61 + len vals) x rows img) as (s' & EF & HP & R).
  - intros r col c s Hr Hcol Hc (HP & HR). rewrite Jx in Hcol. rewrite Jy in Hr.
    destruct HR as [Hoob|(R & HR & (tl & ER) & HNo)].
    + destruct (sample_any d' U h a Jc r col c s Hnl HP) as (s1 & v & S1 & S2 & S3 & S4). exists s1. split; [exact S1|]. split; [exact S2|]. left. apply S4. apply nextdiff_oob. exact Hoob.
    + set (i := r * (4 * x) + 4 * col + c) in *. assert (Hi : 0 <= i < 4 * x * y) by (unfold i; nia).
      replace (r * (4 * x) + 4 * col + (c + 1)) with (i + 1) by (unfold i; lia).
      assert (Hil : (Z.to_nat i < length px)%nat) by (unfold len in Hpx; lia).
      assert (Lf : length (firstn (Z.to_nat i) px) = Z.to_nat i) by (rewrite firstn_length; lia).
      rewrite (skipn_nth px (Z.to_nat i) Hil) in ER, HNo. cbn [ref_encode no_class16] in ER, HNo. rewrite Lf, Z2Nat.id in ER, HNo by lia.
      set (p := nth (Z.to_nat i) px 0) in *. set (q := prediction 16 (4 * x) (firstn (Z.to_nat i) px) i) in *.
      assert (Hfi : Forall (in_range 16) (firstn (Z.to_nat i) px)) by (rewrite Forall_forall in *; intros z Hz; apply HF; rewrite <- (firstn_skipn (Z.to_nat i) px); apply in_or_app; left; exact Hz).
      assert (Hq : in_range 16 q) by (apply prediction_range; [lia|exact Hfi]).
      assert (Hp : in_range 16 p) by (rewrite Forall_forall in HF; apply HF; apply nth_In; exact Hil).
      rewrite <- firstn_snoc in ER, HNo by exact Hil. rewrite <- app_assoc in ER.
      destruct (Z_lt_le_dec (Z.abs (p - q)) (2 ^ 15)) as [Hlt|Hge].
      * pose proof (category_16 _ Hlt) as Hcat.
        assert (EDf : decode_diff t R = Some (p - q, ref_encode t 16 (4 * x) (firstn (S (Z.to_nat i)) px) (skipn (S (Z.to_nat i)) px) ++ tl)).
        { rewrite ER, decode_diff_ok by (assumption || lia). unfold seen. replace (category (p - q) =? 16) with false by lia. reflexivity. }
        destruct (sample_ok d' Hd' E U h bits vals t px img a Jl Hlv Ht ltac:(lia) Jc ltac:(rewrite Jx; lia) ltac:(rewrite Jy; lia) Hskip ltac:(congruence) ltac:(rewrite Jx, Jy; exact Hpx)
          r col c R s _ _ ltac:(rewrite Jy; lia) ltac:(rewrite Jx; lia) Hc HP HR EDf ltac:(lia)) as (s1 & S1 & S2 & S3).
        -- rewrite Jx, Jb. fold i. fold p q. replace (q + (p - q)) with p by lia. symmetry. apply Z.mod_small. exact Hp.
        -- intros Hr1 Hc0. rewrite Jx. right. lia.
        -- exists s1. split; [exact S1|]. split; [exact S2|]. right. exists (ref_encode t 16 (4 * x) (firstn (S (Z.to_nat i)) px) (skipn (S (Z.to_nat i)) px) ++ tl). split; [exact S3|]. cbv zeta.
           replace (Z.to_nat (i + 1)) with (S (Z.to_nat i)) by lia. split; [eauto|]. intros Hk. apply HNo. split; assumption.
      * destruct (sample_any d' U h a Jc r col c s Hnl HP) as (s1 & v & S1 & S2 & S3 & S4). exists s1. split; [exact S1|]. split; [exact S2|]. left. apply S4.
        assert (Hcat : category (p - q) = 16) by (apply category_is_16; unfold in_range in *; lia).
        destruct HR as ([BN _ _ _] & _). unfold encode_diff in ER. rewrite Hcat, <- app_assoc in ER. eapply (nextdiff_16 d' E U _ _ bits vals t R _ (s_nd s)); eassumption.
  - intros r col s Hr Hcol (HP & HR). split; [exact HP|]. destruct HR as [HR|(R & HR & K)]; [left; exact HR|right]. exists R. split; [apply (row_carry d' E h bits vals); [exact Hlv|lia|exact HR]|].
    replace (r * (4 * x) + 4 * (col + 1) + 0) with (r * (4 * x) + 4 * col + 4) by lia. exact K.
  - intros r s Hr (HP & HR). split; [apply (ptrs_swap h bits vals); assumption|]. destruct HR as [HR|(R & HR & K)]; [left; exact HR|right]. exists R. rewrite Jx in *.
    replace ((r + 1) * (4 * x) + 4 * 0 + 0) with (r * (4 * x) + 4 * x + 0) by lia. split; [apply (row_end d' E h bits vals); [exact Hlv|rewrite Jx; lia|exact Hr|rewrite Jx; exact HR]|]. exact K.
  - split; [unfold ptrs, scan_start; cbn [s_out s_this s_last]; change (Z.even 0) with true; rewrite Jx; auto|]. right. exists (stream 8 Q). split; [|split].
    + split; [|split; intros; lia]. constructor; cbn [scan_start s_nd s_img n_oob]; [apply (HI rows img)|reflexivity|intros; lia|reflexivity].
    + exists tail. exact ES.
    + exact Hno.
  - rewrite Jy in *. specialize (EDec U a rows img). rewrite EF in EDec. unfold lj_run. rewrite EO, EDec. eexists. split; [reflexivity|]. cbn [lr_dec lr_oob]. split; [reflexivity|].
    destruct R as [R|(R & _ & _ & K)]; [exact R|exfalso]. apply K. rewrite skipn_all2; [exact I|]. unfold len in Hpx. lia.
Qed.

(* ------------------------------------------------------------------ concrete files *)

Definition mem_of_list (l : list Z) : lmem := fun k => if k <? 0 then 0 else nth (Z.to_nat k) l 0.
Definition noarg : dec_arg := {| da_skip := 0; da_lin := None; da_linlen := 0 |}.
(* a second Huffman table, with codes of 4 and 5 bits (the decoder's look-up table has 32 entries) *)
Definition small_bits16 : list nat := [0; 0; 0; 14; 3; 0; 0; 0; 0; 0; 0; 0; 0; 0; 0; 0]%nat.
Definition small_vals : list Z := map Z.of_nat (seq 0 17).
Definition small_table (bd : Z) : table := firstn (Z.to_nat (bd + 1)) (annexC small_bits16 1 0).
Lemma small_ok : dht_ok small_bits16 small_vals /\ described_by (small_table 12) small_bits16 small_vals /\ len (small_table 12) <= 16 /\
  table_ok 12 (small_table 12) /\ prefix_free (small_table 12).
Proof.
  split; [|split; [|split; [|split]]].
  - split; [reflexivity|]. split; [reflexivity|]. split; [discriminate|]. split; [repeat constructor; lia|]. change (2 ^ 16) with 65536. cbn. lia.
  - intros k e E. do 13 (destruct k; [injection E as <-; split; [cbn; tauto|reflexivity]|]). destruct k; discriminate.
  - vm_compute. discriminate.
  - split; [reflexivity|]. repeat constructor; vm_compute; discriminate || reflexivity.
  - intros s1 s2 H1 H2 Hne. change (Z.of_nat (length (small_table 12))) with 13 in *.
    assert (K : forallb (fun a => forallb (fun b => (a =? b) || negb (is_prefix (code_bits (small_table 12) a) (code_bits (small_table 12) b))) (map Z.of_nat (seq 0 13))) (map Z.of_nat (seq 0 13)) = true) by (vm_compute; reflexivity).
    rewrite forallb_forall in K. specialize (K s1). rewrite forallb_forall in K.
    assert (I : forall z, 0 <= z < 13 -> In z (map Z.of_nat (seq 0 13))) by (intros z Hz; apply in_map_iff; exists (Z.to_nat z); split; [lia|apply in_seq; lia]).
    specialize (K (I s1 H1) s2 (I s2 H2)). destruct (is_prefix _ _); [|reflexivity]. cbn [negb] in K. lia.
Qed.
Definition std_file (bd x y : Z) (px : list Z) : list Z := core_file std_bits16 std_HUFFVAL (std_table bd) bd x y px.
Definition small_file (bd x y : Z) (px : list Z) : list Z := core_file small_bits16 small_vals (small_table bd) bd x y px.
(* decode without a linearization table, into an image full of 77s: (return code, image and one sample more, bytes read past the end, array overrun) *)
Definition run_file (f : list Z) (x y : Z) : option (Z * list Z * Z * bool) :=
  match lj_run 0 (mem_of_list f) (len f) noarg (fun _ => 0) (fun _ => 77) with
  | Some r => Some (lr_dec r, map (fun k => lr_img r (Z.of_nat k)) (seq 0 (Z.to_nat (4 * x * y) + 1)), lr_hi r + 1 - len f, lr_oob r)
  | None => None
  end.
Definition run_std (bd x y : Z) (px : list Z) : option (Z * list Z * Z * bool) := run_file (std_file bd x y px) x y.
Definition run_small (bd x y : Z) (px : list Z) : option (Z * list Z * Z * bool) := run_file (small_file bd x y px) x y.
Lemma file_in_list l : Forall is_byte l -> file_in (mem_of_list l) l.
Proof.
  intros HF. split.
  - intros k. unfold mem_of_list. destruct (k <? 0); [lia|]. destruct (nth_in_or_default (Z.to_nat k) l 0) as [Hin|E]; [|lia]. rewrite Forall_forall in HF. apply HF in Hin. exact Hin.
  - intros k Hk. rewrite Z.add_0_l. unfold mem_of_list. replace (Z.of_nat k <? 0) with false by lia. rewrite Nat2Z.id. reflexivity.
Qed.

(* 16 x 2 samples of 12 bits: the hypotheses of C54 and C56 hold and the run gives the samples back *)
Definition C54_px : list Z := [0; 4095; 17; 2048; 2048; 2047; 100; 101; 5; 6; 7; 8; 4095; 0; 4095; 0; 1; 2; 3; 4; 4000; 3000; 2000; 1000; 1; 1; 1; 1; 9; 8; 7; 6].
Definition byteb (z : Z) : bool := (0 <=? z) && (z <? 256).
Lemma bytes_check l : forallb byteb l = true -> Forall is_byte l.
Proof. rewrite forallb_forall, Forall_forall. unfold byteb, is_byte. intros H b Hb. apply H in Hb. lia. Qed.
Example C54_example :
  (exists Q px, Forall is_byte Q /\ flat_map bytes_of (payload (std_table 12) 12 16 C54_px) = stuff Q /\ decode_frame (std_table 12) 12 16 2 (stream 8 Q) = Some px) /\
  dht_ok std_bits16 std_HUFFVAL /\ described_by (std_table 12) std_bits16 std_HUFFVAL /\ len (std_table 12) <= 16 /\
  file_in (mem_of_list (std_file 12 4 2 C54_px)) (std_file 12 4 2 C54_px) /\
  run_std 12 4 2 C54_px = Some (0, C54_px ++ [77], -1, false).
Proof.
  split; [|split; [exact std_dht_ok|split; [apply std_described; lia|split; [vm_compute; discriminate|split; [apply file_in_list, bytes_check; vm_compute; reflexivity|vm_compute; reflexivity]]]]].
  destruct (payload_stuff (std_table 12) 12 16 C54_px) as (Q & tail & HQ & EQ & ES). exists Q, C54_px. split; [exact HQ|]. split; [exact EQ|]. rewrite ES. unfold decode_frame.
  change (Z.to_nat (16 * 2)) with (length C54_px). apply (ref_decode_ok (std_table 12) 12 16 C54_px); try lia.
  - apply std_prefix_free. lia.
  - reflexivity.
  - constructor.
  - unfold C54_px, in_range. change (2 ^ 12) with 4096. repeat constructor; lia.
  - apply all_small_15; [lia|constructor|]. unfold C54_px, in_range. change (2 ^ 12) with 4096. repeat constructor; lia.
Qed.

(* ------------------------------------------------------------------ C55: bytes past the end of the file *)

(* two bytes is the most, and it happens: 16 x 1 samples, all 2048 *)
Theorem C55_overread :
  (forall d bits vals t bd x y Q px a rows img U,
    dht_ok bits vals -> (length vals <= 200)%nat -> described_by t bits vals -> len t <= 16 ->
    4 <= x < 65536 -> 0 <= y < 65536 -> Forall is_byte Q -> 0 <= da_skip a ->
    file_in d (lj_file bits vals bd x y (stuff Q)) -> decode_frame t bd (4 * x) y (stream 8 Q) = Some px ->
    (da_lin a <> None -> Forall (fun p => p <= da_linlen a) px) ->
    exists res, lj_run U d (len (lj_file bits vals bd x y (stuff Q))) a rows img = Some res /\ lr_hi res + 1 - len (lj_file bits vals bd x y (stuff Q)) <= 2) /\
  run_std 12 4 1 (repeat 2048 16) = Some (0, repeat 2048 16 ++ [77], 2, false).
Proof.
  split; [|vm_compute; reflexivity]. intros d bits vals t bd x y Q px a rows img U H1 H2 H3 H4 H5 H6 H7 H8 H9 H10 H11.
  destruct (C54_decode d bits vals t bd x y Q px a rows img U H1 H2 H3 H4 H5 H6 H7 H8 H9 H10 H11) as (res & E & _ & _ & _ & _ & _ & _ & _ & _ & _ & Hh). exists res. split; [exact E|lia].
Qed.

(* C57: 8 x 2 and 12 x 2 samples come back wrong, with return code 0 *)
Example C57_example :
  run_small 12 2 2 [2040; 2041; 2042; 2043; 2044; 2045; 2046; 2047; 1; 2; 3; 4; 5; 6; 7; 8] =
    Some (0, [2040; 2041; 2042; 2043; 2044; 2045; 2046; 2047; 1; 2; 63498; 63499; 5; 6; 63502; 63503; 77], -2, false) /\
  run_small 12 3 2 ([2040; 2041; 2042; 2043; 2044; 2045; 2046; 2047; 1; 2; 3; 4] ++ [2040; 2041; 2042; 2043; 2044; 2045; 2046; 2047; 1; 2; 3; 4]) =
    Some (0, [2040; 2041; 2042; 2043; 2044; 2045; 2046; 2047; 1; 2; 3; 4; 2040; 2041; 2042; 2040; 2044; 2045; 2046; 2044; 1; 2; 3; 1; 77], -2, false).
Proof. split; vm_compute; reflexivity. Qed.

(* C56: two consecutive frames of 16 x 2 samples through the whole core, then through the decoder *)
Definition C56_in (k : nat) : bt_in :=
  {| bi_valid := negb (k mod 5 =? 3)%nat; bi_px := [(Z.of_nat k * 1237) mod 4096; (Z.of_nat k * 551) mod 4096]; bi_w := 16; bi_h := 2; bi_allowed := 1000; bi_busy := (k mod 7 =? 2)%nat |}.
Definition C56_log : list (list (list Z) * list (Z * bool)) := bt_log beta_cfg (mem_of 12 (small_table 12)) [] [] (bt_init beta_cfg) (map C56_in (seq 0 250)).
Definition C56_dec (w : list Z) : option (Z * list Z) :=
  let f := lj_file small_bits16 small_vals 12 4 2 (flat_map bytes_of (fst (deframe w))) in
  match lj_run 0 (mem_of_list f) (len f) noarg (fun _ => 0) (fun _ => 77) with
  | Some r => Some (lr_dec r, map (fun k => lr_img r (Z.of_nat k)) (seq 0 33))
  | None => None
  end.
Example C56_example : map (fun x => (snd (deframe (map fst (snd x))), C56_dec (map fst (snd x)))) (firstn 2 C56_log) =
    map (fun x => (Some false, Some (0, concat (fst x) ++ [77]))) (firstn 2 C56_log) /\
  length C56_log = 3%nat /\ map (fun x => len (concat (fst x))) (firstn 2 C56_log) = [32; 32].
Proof. vm_compute. repeat split. Qed.
Example C56_hypotheses : beta_frame_ok beta_cfg 16 2 /\
  bt_env beta_cfg (mem_of 12 (small_table 12)) (fun _ => (16, 2)) 0 (bt_init beta_cfg) (map C56_in (seq 0 250)) /\ is_reset beta_cfg (i3_init beta_cfg).
Proof.
  split; [unfold beta_frame_ok, frame_ok; cbn; lia|]. split; [|apply is_reset_init; reflexivity].
  apply bt_env_all. intros i Hi _. apply in_map_iff in Hi. destruct Hi as (k & <- & _). split; [|split; reflexivity].
  split; [reflexivity|]. assert (0 <= Z.of_nat k * 1237 mod 4096 < 4096) by (apply Z.mod_pos_bound; lia).
  assert (0 <= Z.of_nat k * 551 mod 4096 < 4096) by (apply Z.mod_pos_bound; lia).
  cbn [bi_px C56_in bd beta_cfg]. repeat constructor; unfold in_range; change (2 ^ 12) with 4096; lia.
Qed.

(* C58: with a difference of -32767 everything is decoded; with -32768 (class 16) the statistics array is left *)
Definition C58_px (p : Z) : list Z := [p; 65535; 32768; 32768; 2; 65535] ++ repeat 32768 10.
Example C58_example :
  no_class16 16 16 [] (C58_px 1) /\ ~ no_class16 16 16 [] (C58_px 0) /\
  (run_small 16 4 1 (C58_px 1) = Some (0, C58_px 1 ++ [77], -3, false)) /\
  (match run_small 16 4 1 (C58_px 0) with Some (r, im, _, oob) => r = 0 /\ oob = true /\ firstn 16 im <> C58_px 0 | None => False end).
Proof.
  split; [vm_compute; repeat split|]. split; [intros [H _]; vm_compute in H; discriminate|]. split; [vm_compute; reflexivity|]. vm_compute. repeat split. discriminate.
Qed.
