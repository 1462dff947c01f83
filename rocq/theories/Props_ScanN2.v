(* C70, C71: round trip and concrete cases *)
From Verif Require Import Bits Spec Spec_Beta Spec_Lj92 Spec_P6 Spec_Pn M_Lj92 M_Pred6 P_Lj92 P_Lj92b P_Lj92c P_Lj92d P_I3 P_Fix P_Decode P_Pack P_Pred6 P_Pred6b P_Enc92 P_Enc92b P_Enc92c P_Back P_Open P_ScanN
  Props_Frame Props_Lj92 Props_Pred6 Props_ScanN.
Ltac Zify.zify_post_hook ::= idtac.

(* Whatever samples a T.81 encoder writes with predictor p (one component; or several with predictor 1 and enough columns; or one row), behind any
   well-formed header, the library gives back. *)
Theorem C70_roundtrip : forall d segs p sel tail bits vals bd x y N px a wl rows img U,
  wf_header segs sel tail bits vals bd x y N -> Forall (fun v => v <= 15) vals ->
  1 <= N <= 255 -> 1 <= x -> 1 <= p <= 7 -> p <> 6 -> N = 1 \/ y <= 1 \/ p = 1 /\ N <= x -> 0 <= da_skip a ->
  len px = N * x * y -> Forall (fun q => 0 <= q < 65536) px -> codable vals p N bd (N * x) [] px ->
  let file := pn_file segs p sel tail (stuff (pack 8 (write_n (book_of bits vals) p N bd (N * x) [] px))) in
  file_in d file -> (da_lin a <> None -> Forall (fun q => q <= da_linlen a) px) ->
  decodes_n U d file a wl rows img bd x y N px.
Proof.
  intros d segs p sel tail bits vals bd x y N px a wl rows img U Hh Hv HN Hx Hp Hp6 Hgood Hskip Hl Hr Hc file Hf Hlin. pose proof Hh as (HS & HF & _).
  destruct (in_force_ok segs None None bits vals bd x y N HS ltac:(discriminate) ltac:(discriminate) HF) as (Hok & _).
  unfold file in *. set (bs := write_n (book_of bits vals) p N bd (N * x) [] px) in *. destruct (pack_bits 8 bs ltac:(lia)) as (pad & PB & PF).
  apply (C70_decode d segs p sel tail bits vals); auto; try lia; try (eapply Forall_impl; [|exact PF]; intros b Hb; exact Hb).
  change (stream 8 (pack 8 bs)) with (wbits 8 (pack 8 bs)). rewrite PB. unfold bs. replace (Z.to_nat (N * x * y)) with (length px) by (unfold len in Hl; lia).
  rewrite read_n_back; [reflexivity|assumption|assumption|exact Hr].
Qed.

(* ------------------------------------------------------------------ concrete cases *)
Definition C70_mem (l : list Z) : lmem := fun k => if k <? 0 then 0 else nth (Z.to_nat k) l 0.
Lemma bytes_dec l : forallb (fun z => (0 <=? z) && (z <? 256)) l = true -> Forall is_byte l.
Proof. intros H. rewrite forallb_forall in H. apply Forall_forall. intros z Hz. apply H in Hz. unfold is_byte. lia. Qed.
Lemma C70_mem_in l : Forall is_byte l -> file_in (C70_mem l) l.
Proof.
  intros HF. split.
  - intros k. unfold C70_mem. destruct (k <? 0); [lia|]. destruct (nth_in_or_default (Z.to_nat k) l 0) as [Hin|E]; [|lia]. rewrite Forall_forall in HF. apply HF in Hin. exact Hin.
  - intros k Hk. unfold C70_mem. rewrite Z.add_0_l. replace (Z.of_nat k <? 0) with false by lia. rewrite Nat2Z.id. reflexivity.
Qed.
(* frame header first, two tables of which the second counts, a comment and an APP1 segment *)
Definition C70_segs (x y : Z) (N : nat) : list seg :=
  [SSkip 0xe1 [1; 255; 0xda; 3]; SSof 12 x y (flat_map (fun k => [Z.of_nat k; 17; 0]) (seq 0 N)); SDht [2; 0; 0; 0; 0; 0; 0; 0; 0; 0; 0; 0; 0; 0; 0; 0]%nat [3; 4]; SSkip 0xfe [72; 105]; SDht C64_bits C64_vals].
Definition C70_sel (N : nat) : list Z := flat_map (fun k => [Z.of_nat k; 0]) (seq 0 N).
Lemma C70_header x y N : 0 <= x < 65536 -> 0 <= y < 65536 -> (N <= 255)%nat -> wf_header (C70_segs x y N) (C70_sel N) [0; 0] C64_bits C64_vals 12 x y (Z.of_nat N).
Proof.
  intros Hx Hy HN. assert (L3 : forall n b, length (flat_map (fun k => [Z.of_nat k; 17; 0]) (seq b n)) = (3 * n)%nat) by (induction n as [|n IH]; intros b; [reflexivity|]; cbn [seq flat_map app length]; rewrite IH; lia).
  assert (L2 : forall n b, length (flat_map (fun k => [Z.of_nat k; 0]) (seq b n)) = (2 * n)%nat) by (induction n as [|n IH]; intros b; [reflexivity|]; cbn [seq flat_map app length]; rewrite IH; lia).
  assert (D : len (flat_map (fun k => [Z.of_nat k; 17; 0]) (seq 0 N)) = Z.of_nat N * 3) by (unfold len; rewrite L3; lia).
  assert (DO : dht_ok C64_bits C64_vals). { unfold dht_ok. split; [reflexivity|]. split; [reflexivity|]. split; [discriminate|]. split; [|vm_compute; discriminate].
    apply Forall_forall. intros v Hv. unfold C64_vals in Hv. apply in_map_iff in Hv. destruct Hv as (k & <- & Hk). apply in_seq in Hk. lia. }
  split; [|split; [|split; [unfold len, C70_sel; rewrite L2; lia|reflexivity]]].
  - unfold C70_segs. repeat apply Forall_cons; [| | | | |apply Forall_nil]; unfold seg_ok.
    + split; [right; lia|vm_compute; discriminate].
    + rewrite D, Z.mod_mul, Z.div_mul by lia. repeat split; lia.
    + split; [|cbn [length]; lia]. unfold dht_ok. split; [reflexivity|]. split; [reflexivity|]. split; [discriminate|]. split; [repeat constructor; lia|vm_compute; discriminate].
    + split; [left; reflexivity|vm_compute; discriminate].
    + split; [exact DO|vm_compute; lia].
  - unfold C70_segs. cbn [in_force]. rewrite D, Z.div_mul by lia. reflexivity.
Qed.
Fixpoint codable_b (vals : list Z) (p N bd W : Z) (img px : list Z) : bool :=
  match px with [] => true | q :: r => let d := q - predn p N bd W img in (Z.abs d <? 2 ^ 15) && existsb (Z.eqb (category d)) vals && codable_b vals p N bd W (img ++ [q]) r end.
Lemma codable_dec vals p N bd W : forall px img, codable_b vals p N bd W img px = true -> codable vals p N bd W img px.
Proof.
  induction px as [|q px IH]; intros img H; [exact I|]. cbn [codable_b codable] in *. apply andb_true_iff in H. destruct H as [H H3]. apply andb_true_iff in H. destruct H as [H1 H2].
  split; [|apply IH; exact H3]. split; [lia|]. apply existsb_exists in H2. destruct H2 as (z & Hz & E). apply Z.eqb_eq in E. rewrite E. exact Hz.
Qed.
Definition C70_px : list Z := [0; 4095; 17; 2048; 2048; 2047; 100; 101; 5; 6; 7; 8; 4095; 0; 4095; 0; 1; 2; 3; 4; 4000; 3000; 2000; 1000].
Definition C70_file (p x y : Z) (N : nat) : list Z :=
  pn_file (C70_segs x y N) p (C70_sel N) [0; 0] (stuff (pack 8 (write_n (book_of C64_bits C64_vals) p (Z.of_nat N) 12 (Z.of_nat N * x) [] C70_px))).
Definition C70_run (p x y : Z) (N : nat) : lj_result_all := lj_run_all 0 (C70_mem (C70_file p x y N)) (len (C70_file p x y N)) {| da_skip := 2; da_lin := None; da_linlen := 0 |} 0 (fun _ => 9) (fun _ => 77).
(* the hypotheses of C70_roundtrip hold for three components of 4 x 2 with predictor 1, and one component of 8 x 3 with every other predictor *)
Example C70_example : forall p N x y, (p = 1 /\ N = 3%nat /\ x = 4 /\ y = 2) \/ ((p = 2 \/ p = 3 \/ p = 4 \/ p = 5 \/ p = 7) /\ N = 1%nat /\ x = 8 /\ y = 3) ->
  file_in (C70_mem (C70_file p x y N)) (C70_file p x y N) /\ codable C64_vals p (Z.of_nat N) 12 (Z.of_nat N * x) [] C70_px /\ len C70_px = Z.of_nat N * x * y /\
  la_dec (C70_run p x y N) = NONE /\ la_hi (C70_run p x y N) <= len (C70_file p x y N) + 1 /\
  map (fun k => la_img (C70_run p x y N) (Z.of_nat k)) (seq 0 14) = (if p =? 1 then firstn 12 C70_px ++ [77; 77] else firstn 8 C70_px ++ [77; 77] ++ firstn 4 (skipn 8 C70_px)).
Proof.
  intros p N x y H. assert (G : forallb (fun z => (0 <=? z) && (z <? 256)) (C70_file p x y N) = true /\ codable_b C64_vals p (Z.of_nat N) 12 (Z.of_nat N * x) [] C70_px = true /\ len C70_px = Z.of_nat N * x * y /\
    la_dec (C70_run p x y N) = NONE /\ la_hi (C70_run p x y N) <= len (C70_file p x y N) + 1 /\
    map (fun k => la_img (C70_run p x y N) (Z.of_nat k)) (seq 0 14) = (if p =? 1 then firstn 12 C70_px ++ [77; 77] else firstn 8 C70_px ++ [77; 77] ++ firstn 4 (skipn 8 C70_px))).
  { destruct H as [(-> & -> & -> & ->)|([-> | [-> | [-> | [-> | ->]]]] & -> & -> & ->)]; vm_compute; repeat split; discriminate. }
  destruct G as (G1 & G2 & G). split; [apply C70_mem_in, bytes_dec; exact G1|]. split; [apply codable_dec; exact G2|exact G].
Qed.
(* the hypotheses of C71_overlap (predictors 2 and 3, and three components of two columns) and of C71_left hold for two components of 6 x 2 *)
Example C71_example : forall p N x y, ((2 <= p <= 5 \/ p = 7) /\ N = 2%nat /\ x = 6 /\ y = 2) \/ (p = 1 /\ N = 3%nat /\ x = 2 /\ y = 4) ->
  let Q := pack 8 (write_n (book_of C64_bits C64_vals) p (Z.of_nat N) 12 (Z.of_nat N * x) [] C70_px) in
  file_in (C70_mem (C70_file p x y N)) (C70_file p x y N) /\ read_n (book_of C64_bits C64_vals) p (Z.of_nat N) 12 (Z.of_nat N * x) (Z.to_nat (Z.of_nat N * x * y)) [] (stream 8 Q) = Some C70_px /\
  nth (Z.to_nat x) C70_px 0 <> nth (Z.to_nat (Z.of_nat N * x)) C70_px 0 /\ (p <> 1 -> Z.abs (nth (Z.to_nat (Z.of_nat N * x)) C70_px 0 - nth (Z.to_nat (Z.of_nat N * x + Z.of_nat N - 1)) C70_px 0) >= 2) /\
  la_dec (C70_run p x y N) = NONE /\ map (fun k => la_img (C70_run p x y N) (Z.of_nat k)) (seq 0 (N * Z.to_nat x)) = firstn (N * Z.to_nat x) C70_px /\
  map (fun k => la_img (C70_run p x y N) (Z.of_nat N * x + 2 + Z.of_nat k)) (seq 0 (N * Z.to_nat x)) <> firstn (N * Z.to_nat x) (skipn (N * Z.to_nat x) C70_px).
Proof.
  intros p N x y H Q. assert (P : p = 1 \/ p = 2 \/ p = 3 \/ p = 4 \/ p = 5 \/ p = 7) by lia.
  assert (G : forallb (fun z => (0 <=? z) && (z <? 256)) (C70_file p x y N) = true /\ read_n (book_of C64_bits C64_vals) p (Z.of_nat N) 12 (Z.of_nat N * x) (Z.to_nat (Z.of_nat N * x * y)) [] (stream 8 Q) = Some C70_px /\
  nth (Z.to_nat x) C70_px 0 <> nth (Z.to_nat (Z.of_nat N * x)) C70_px 0 /\ (p <> 1 -> Z.abs (nth (Z.to_nat (Z.of_nat N * x)) C70_px 0 - nth (Z.to_nat (Z.of_nat N * x + Z.of_nat N - 1)) C70_px 0) >= 2) /\
  la_dec (C70_run p x y N) = NONE /\ map (fun k => la_img (C70_run p x y N) (Z.of_nat k)) (seq 0 (N * Z.to_nat x)) = firstn (N * Z.to_nat x) C70_px /\
  map (fun k => la_img (C70_run p x y N) (Z.of_nat N * x + 2 + Z.of_nat k)) (seq 0 (N * Z.to_nat x)) <> firstn (N * Z.to_nat x) (skipn (N * Z.to_nat x) C70_px)).
  { unfold Q. clear Q. destruct H as [(H1 & -> & -> & ->)|(-> & -> & -> & ->)].
    - destruct P as [-> | [-> | [-> | [-> | [-> | ->]]]]]; [lia| | | | |]; clear H1; vm_compute; repeat split; try discriminate; intros; discriminate.
    - clear P. vm_compute. repeat split; discriminate. }
  destruct G as (G1 & G). split; [apply C70_mem_in, bytes_dec; exact G1|exact G].
Qed.
