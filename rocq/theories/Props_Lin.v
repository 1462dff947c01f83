(* C76: the shipped decoder and the caller's linearization table *)
From Verif Require Import Bits Spec Spec_Beta Spec_Lj92 Spec_P6 Spec_Pn M_Lj92 M_Pred6 P_Lj92 P_Lj92b P_Lj92c P_Lj92d P_Fix P_Pred6 P_Pred6b P_Open P_ScanN
  Props_Frame Props_Lj92 Props_Pred6 Props_ScanN Props_ScanN2 Props_Any6 Props_Rob.
Ltac Zify.zify_post_hook ::= idtac.

Lemma for_loop_ext {A} n i (b b' : Z -> A -> option A) y : (forall j z, b j z = b' j z) -> for_loop n i b y = for_loop n i b' y.
Proof. intros H. revert i y. induction n as [|n IH]; intros i y; cbn [for_loop]; [reflexivity|]. rewrite H. destruct (b' i y); [apply IH|reflexivity]. Qed.
Lemma for_stop_ext {A} n i (b b' : Z -> A -> option A) st st' y : (forall j z, b j z = b' j z) -> (forall j z, st j z = st' j z) -> for_stop n i b st y = for_stop n i b' st' y.
Proof. intros H H'. revert i y. induction n as [|n IH]; intros i y; cbn [for_stop]; [reflexivity|]. rewrite H. destruct (b' i y); [apply IH|apply H']. Qed.

(* the arguments of lj92_decode with a table *)
Definition with_table (skip : Z) (f : lmem) (n : Z) : dec_arg := {| da_skip := skip; da_lin := Some f; da_linlen := n |}.

Section Reach.
Variables (skip n : Z) (f g : lmem).
Hypothesis HFG : forall k, 0 <= k <= n -> f k = g k.
Let a := with_table skip f n.
Let b := with_table skip g n.
Lemma sample_fg U d h p r c k s : sample U d h p a r c k s = sample U d h p b r c k s.
Proof.
  unfold sample. destruct (sample_px h p r c k s) as [q ok]. destruct (nextdiff U d (j_huffbits h) (j_lut h) (s_nd s)) as [df nd]. cbv zeta. cbn [a b with_table da_lin da_linlen].
  destruct (n <? trunc 16 (Z.rem (q + df) 65536)) eqn:E; [reflexivity|]. rewrite HFG; [reflexivity|]. pose proof (trunc_range 16 (Z.rem (q + df) 65536) ltac:(lia)). lia.
Qed.
Lemma row_fg U d h p r s : scan_row U d h p a r s = scan_row U d h p b r s.
Proof. unfold scan_row, scan_cols. erewrite for_loop_ext; [reflexivity|]. intros c z. apply for_loop_ext. intros k y. apply sample_fg. Qed.
Lemma decode_fg U d h rows img : lj92_decode U d h a rows img = lj92_decode U d h b rows img.
Proof.
  unfold lj92_decode. cbv zeta. destruct (7 <? _); [reflexivity|]. destruct (_ =? 6); [reflexivity|]. rewrite (for_loop_ext _ _ _ _ _ (row_fg U d h _)). destruct (for_loop _ _ _ _); [reflexivity|].
  unfold scan_stop. do 2 f_equal. apply for_stop_ext; [intros; apply row_fg|]. intros r z. apply for_stop_ext; [intros; apply for_loop_ext; intros; apply sample_fg|]. intros c y. apply for_stop_ext; [intros; apply sample_fg|reflexivity].
Qed.
End Reach.

(* Whatever the bytes of the file: unless they select predictor 6, the table is read at the indices 0 to its length only *)
Theorem C76_reach : forall U d dl skip f g n wl rows img, predictor_of d dl <> 6 -> (forall k, 0 <= k <= n -> f k = g k) ->
  lj_run_all U d dl (with_table skip f n) wl rows img = lj_run_all U d dl (with_table skip g n) wl rows img.
Proof.
  intros U d dl skip f g n wl rows img Hp HFG. unfold predictor_of in Hp. unfold lj_run_all. destruct (lj92_open d dl) as [[r d'] h]. unfold lj92_decode_all.
  rewrite (decode_fg skip n f g HFG). destruct (lj92_decode U d' h (with_table skip g n) rows img) as [[r2 s]|] eqn:E; [reflexivity|].
  exfalso. unfold lj92_decode in E. cbv zeta in E. destruct (7 <? _); [discriminate|]. destruct (_ =? 6) eqn:E6; [lia|]. destruct (for_loop _ _ _ _); discriminate.
Qed.

(* the first i samples (in the order of the file) were delivered, row r at r*(W+skip), nothing else was touched; no array was left *)
Definition delivered_n (res : lj_result_all) (file : list Z) (a : dec_arg) (img : lmem) (W : Z) (px : list Z) (i : Z) : Prop :=
  (forall k, 0 <= k < i -> la_img res (k / W * (W + da_skip a) + k mod W) = converted a (nth (Z.to_nat k) px 0)) /\
  (forall p, (forall k, 0 <= k < i -> p <> k / W * (W + da_skip a) + k mod W) -> la_img res p = img p) /\
  la_oob res = false /\ la_hi res <= len file + 1.

(* A file as in C70, any table: the library delivers all samples and succeeds when none is larger than the table's length, and otherwise delivers
   those before the first such sample and reports corruption. *)
Theorem C76_bad_sample : forall d segs p sel tail bits vals bd x y N Q px a wl rows img U,
  wf_header segs sel tail bits vals bd x y N -> Forall (fun v => v <= 15) vals ->
  1 <= N <= 255 -> 1 <= x -> 1 <= p <= 7 -> p <> 6 -> N = 1 \/ y <= 1 \/ p = 1 /\ N <= x ->
  Forall is_byte Q -> 0 <= da_skip a ->
  let file := pn_file segs p sel tail (stuff Q) in
  file_in d file ->
  read_n (book_of bits vals) p N bd (N * x) (Z.to_nat (N * x * y)) [] (stream 8 Q) = Some px ->
  let res := lj_run_all U d (len file) a wl rows img in
  la_open res = NONE /\
  exists i, 0 <= i <= N * x * y /\ delivered_n res file a img (N * x) px i /\
    (da_lin a <> None -> forall k, 0 <= k < i -> nth (Z.to_nat k) px 0 <= da_linlen a) /\
    ((la_dec res = NONE /\ i = N * x * y) \/
     (la_dec res = CORRUPT /\ da_lin a <> None /\ i < N * x * y /\ da_linlen a < nth (Z.to_nat i) px 0)).
Proof.
  intros d segs p sel tail bits vals bd x y N Q px a wl rows img U Hh Hv HN Hx Hp Hp6 Hgood HQ Hskip file [Hd HH] ED res.
  destruct (setup_n d segs p sel tail bits vals bd x y N Q Hd Hh ltac:(lia) ltac:(lia) HQ HH) as (d' & h & ix & EO & Hd' & (Jx & Jy & Jb & Jc & _ & Jl) & Hok & Hx2 & Hy & _ & _ & EDec & HI).
  fold file in EO, HI. set (E := len file - 2) in *.
  assert (Hpx : len px = N * x * y). { apply read_n_len in ED. destruct ED as [L _]. cbn [length] in L. unfold len. nia. }
  assert (E0 : Z.to_nat (N * x * y - 0) = Z.to_nat (N * x * y)) by (f_equal; lia).
  pose proof (scan_all d' Hd' E U h bits vals Hok Jl p px img a ltac:(rewrite Jc; lia) ltac:(rewrite Jx; lia) ltac:(rewrite Jy; lia) ltac:(lia) Hskip ltac:(rewrite Jc, Jx, Jy; exact Hpx) bd Jb Hv
    (scan_start (len vals) ix x rows img) (stream 8 Q)) as K. rewrite Jy in K.
  specialize (EDec Hp6 U a rows img).
  assert (G : exists i s code, lj92_decode U d' h a rows img = Some (code, s) /\ 0 <= i <= N * x * y /\ some_n E h px img a i s /\
     ((code = NONE /\ i = N * x * y) \/ (code = CORRUPT /\ da_lin a <> None /\ i < N * x * y /\ da_linlen a < nth (Z.to_nat i) px 0))).
  { destruct K as [(s' & R' & E1 & _ & K)|(E1 & i & Hi & K1 & K2 & K)].
    - unfold ptrs_n, scan_start. cbn [s_out s_this s_last]. change (Z.even 0) with true. rewrite Jx. auto.
    - unfold inv_n. cbn [scan_start s_nd s_img s_left s_rows s_this s_last n_oob]. rewrite Z.mul_0_l. split; [exact HI|]. split; [reflexivity|]. split; [intros; lia|]. split; [reflexivity|]. split; [intros; lia|]. split; intros; lia.
    - unfold ref_n. rewrite Jc, Jx, Jy. change (firstn (Z.to_nat 0) px) with (@nil Z). rewrite E0. exact ED.
    - intros r col c Hr Hcol Hc. rewrite Jx in Hcol. rewrite Jc in Hc. unfold fits, safe. rewrite Jx, Jc. intros Hr1. destruct (Z.even r); nia.
    - rewrite E1 in EDec. exists (N * x * y), s', NONE. split; [exact EDec|]. split; [nia|]. rewrite Jc, Jx in K. split; [exact K|]. left. auto.
    - rewrite E1 in EDec. rewrite Jc, Jx in Hi. exists i. eexists. exists CORRUPT. split; [exact EDec|]. split; [lia|]. split; [exact K|]. right. repeat split; try assumption; lia. }
  destruct G as (i & s & code & G1 & G2 & (G3 & G4 & G5 & G6 & G7) & G8). unfold res, lj_run_all, lj92_decode_all. rewrite EO, G1. cbv zeta. unfold delivered_n.
  cbn [la_open la_dec la_x la_y la_bits la_comp la_img la_oob la_hi]. split; [reflexivity|]. exists i. split; [exact G2|]. split; [|split; [exact G7|exact G8]].
  unfold pos_n, lin_n in G5, G6. rewrite Jc, Jx in G5, G6. split; [exact G5|]. split; [exact G6|]. split; [exact G3|]. unfold E in G4. lia.
Qed.

(* A table of n entries has no entry n, but a sample equal to n is looked up there: two tables that agree on all their n entries give different
   images. *)
Theorem C76_one_past : forall d segs p sel tail bits vals bd x y N Q px skip f g n wl rows img U,
  wf_header segs sel tail bits vals bd x y N -> Forall (fun v => v <= 15) vals ->
  1 <= N <= 255 -> 1 <= x -> 1 <= p <= 7 -> p <> 6 -> N = 1 \/ y <= 1 \/ p = 1 /\ N <= x ->
  Forall is_byte Q -> 0 <= skip ->
  let file := pn_file segs p sel tail (stuff Q) in
  file_in d file ->
  read_n (book_of bits vals) p N bd (N * x) (Z.to_nat (N * x * y)) [] (stream 8 Q) = Some px ->
  Forall (fun q => q <= n) px -> In n px -> (forall k, 0 <= k < n -> f k = g k) -> f n <> g n ->
  let r1 := lj_run_all U d (len file) (with_table skip f n) wl rows img in let r2 := lj_run_all U d (len file) (with_table skip g n) wl rows img in
  la_dec r1 = NONE /\ la_dec r2 = NONE /\ exists pos, la_img r1 pos = f n /\ la_img r2 pos = g n.
Proof.
  intros d segs p sel tail bits vals bd x y N Q px skip f g n wl rows img U Hh Hv HN Hx Hp Hp6 Hgood HQ Hskip file HF ED Hall Hin HFG Hne r1 r2.
  assert (Hpx : len px = N * x * y). { pose proof ED as ED2. apply read_n_len in ED2. destruct ED2 as [L _]. cbn [length] in L. unfold len. set (M := N * x * y) in *. clearbody M. destruct px as [|q0 px']; [destruct Hin|]. cbn [length] in L |- *. lia. }
  assert (D : forall t, decodes_n U d file (with_table skip t n) wl rows img bd x y N px).
  { intros t. unfold file. apply C70_decode with (bits := bits) (vals := vals); auto. }
  destruct (In_nth px n 0 Hin) as (k & Hk & Ek). assert (HW : 1 <= N * x) by nia. set (W := N * x) in *. set (r := Z.of_nat k / W). set (j := Z.of_nat k mod W).
  assert (Er : Z.of_nat k = r * W + j) by (unfold r, j; rewrite Z.mul_comm; apply Z.div_mod; lia). assert (Hj : 0 <= j < W) by (apply Z.mod_pos_bound; lia).
  assert (Hr : 0 <= r < y). { split; [apply Z.div_pos; lia|]. apply Z.div_lt_upper_bound; [lia|]. unfold len in Hpx. lia. }
  pose proof (D f) as (_ & A1 & _ & _ & _ & _ & A2 & _). pose proof (D g) as (_ & B1 & _ & _ & _ & _ & B2 & _). split; [exact A1|]. split; [exact B1|].
  exists (r * (W + skip) + j). specialize (A2 r j Hr Hj). specialize (B2 r j Hr Hj). cbn [with_table da_skip] in A2, B2. fold W in A2, B2. rewrite <- Er, Nat2Z.id, Ek in A2, B2. unfold converted in A2, B2. cbn [with_table da_lin] in A2, B2. auto.
Qed.

(* With predictor 6 the samples of the first row are looked up without a check: whatever the table's length, they come out as the table's entries
   at indices that may lie anywhere up to 65535. *)
Theorem C76_first_row : forall d bits vals bd x y Q px skip f n wl rows img U,
  dht_ok bits vals -> (length vals <= 200)%nat -> Forall (fun v => v <= 15) vals ->
  1 <= bd -> 25 <= x < 65536 -> 2 <= y < 65536 -> x * y < 2 ^ 31 -> Forall is_byte Q -> 0 <= skip -> 2 <= wl ->
  let file := p6_file bits vals bd x y (stuff Q) in
  file_in d file ->
  read_samples (book_of bits vals) bd x (Z.to_nat (x * y)) [] (stream 8 Q) = Some px ->
  forall k, 0 <= k < x -> la_img (lj_run_all U d (len file) (with_table skip f n) wl rows img) (tile_pos wl skip k) = f (nth (Z.to_nat k) px 0).
Proof.
  intros d bits vals bd x y Q px skip f n wl rows img U Hok Hn Hv Hbd Hx Hy HXY HQ Hskip Hwl file HF ED k Hk.
  destruct (C64_any d bits vals bd x y Q px (with_table skip f n) wl rows img U Hok Hn Hv Hbd ltac:(lia) ltac:(lia) HXY HQ Hskip Hwl HF ED) as (_ & _ & _ & _ & _ & i & Hi & (A & _) & _ & C).
  apply A. destruct C as [[_ ->]|[(_ & _ & C & _)|[_ C]]]; [|lia|lia]. split; [lia|]. nia.
Qed.

(* concrete cases: the files of C70_example (largest sample 4095) with tables of 4095 entries (accepted: entry 4095 is read) and 4000 entries; the file
   of C64_example with a table of one entry: the whole first row is delivered before the refusal *)
Definition C76_run (p x y : Z) (N : nat) (n : Z) := lj_run_all 0 (C70_mem (C70_file p x y N)) (len (C70_file p x y N)) (with_table 2 (fun v => v + 1) n) 1 (fun _ => 0) (fun _ => 77).
Definition C76_run6 (n : Z) := lj_run_all 0 (fun k => if k <? 0 then 0 else nth (Z.to_nat k) C64_file 0) (len C64_file) (with_table 0 (fun v => v + 1) n) 25 (fun _ => 0) (fun _ => 77).
Example C76_example :
  (forall p, p = 1 \/ p = 4 \/ p = 7 ->
     la_dec (C76_run p 8 3 1 4095) = NONE /\ la_img (C76_run p 8 3 1 4095) 1 = 4096 /\
     la_dec (C76_run p 8 3 1 4094) = CORRUPT /\ la_img (C76_run p 8 3 1 4094) 0 = 1 /\ la_img (C76_run p 8 3 1 4094) 1 = 77) /\
  la_dec (C76_run6 0) = CORRUPT /\ map (fun k => la_img (C76_run6 0) (Z.of_nat k)) (seq 0 26) = map (fun v => v + 1) (firstn 25 C64_px) ++ [77].
Proof. split; [|vm_compute; auto]. intros p [-> | [-> | ->]]; vm_compute; auto 6. Qed.
