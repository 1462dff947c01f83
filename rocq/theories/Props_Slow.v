(* C79: the library compiled with SLOW_HUFF (bit by bit) against the library as shipped (lookup table) *)
From Verif Require Import Bits Spec Spec_Beta Spec_Lj92 Spec_P6 Spec_Pn M_Lj92 M_Pred6 M_Slow P_Lj92 P_Lj92b P_Lj92c P_Lj92d P_Decode P_Open P_Pred6 P_Slow P_Slow2 P_Slow3 P_Slow4
  Props_Frame Props_Lj92 Props_Pred6 Props_ScanN Props_ScanN2.
Ltac Zify.zify_post_hook ::= idtac.

(* A well-formed header followed by ANY scan bytes: both builds open the file and report the same picture.  With a predictor other than 6, if the
   table-driven build stays inside its arrays, the other one returns the same code and writes exactly the same; and it stays inside its arrays only if the
   table-driven one does, unless the table lists class 16.  With predictor 6, if the table-driven build succeeds, so does the other one, with the same image. *)
Theorem C79_same : forall d segs p sel tail scan bits vals bd x y N a wl rows img U,
  wf_header segs sel tail bits vals bd x y N -> 0 <= N <= 255 ->
  let file := pn_file segs p sel tail scan in file_in d file ->
  let fast := lj_run_all U d (len file) a wl rows img in
  let slow := sl_run_all U d (len file) a wl rows img in
  la_open fast = NONE /\ la_open slow = NONE /\
  la_x slow = la_x fast /\ la_y slow = la_y fast /\ la_bits slow = la_bits fast /\ la_comp slow = la_comp fast /\
  (p <> 6 -> la_oob fast = false -> la_dec slow = la_dec fast /\ la_img slow = la_img fast /\ la_oob slow = false) /\
  (p <> 6 -> ~ In 16 vals -> la_oob slow = false -> la_oob fast = false) /\
  (p = 6 -> 1 <= x -> la_oob fast = false -> la_dec fast = NONE -> la_dec slow = NONE /\ la_img slow = la_img fast /\ la_oob slow = false).
Proof.
  intros d segs p sel tail scan bits vals bd x y N a wl rows img U Hh HN file [Hd HH] fast slow. pose proof Hh as (HS & HF & _).
  destruct (in_force_ok segs None None bits vals bd x y N HS ltac:(discriminate) ltac:(discriminate) HF) as (Hok & _ & Hx & Hy).
  destruct (open_n d segs p sel tail scan bits vals bd x y N Hd Hh HN HH) as (d1 & h1 & E1 & D1 & (Jx & Jy & Jb & Jc & Js & Jl) & _ & F1 & F2 & _).
  destruct (sopen_n d segs p sel tail scan bits vals bd x y N Hd Hh HN HH) as (d2 & h2 & t & E2 & D2 & Kx & Ky & Kb & Kc & Ks & Kt). fold file in E1, E2.
  assert (D12 : forall k, d1 k = d2 k) by (intros k; rewrite D1, D2; reflexivity).
  pose proof (builds_agree U d1 d2 (len file) h1 h2 t bits vals a wl rows img ltac:(intros k; rewrite D2; apply Hd) D12 ltac:(congruence) ltac:(congruence) ltac:(congruence) ltac:(congruence) ltac:(congruence) Hok Jl Kt) as K.
  cbv zeta in K. rewrite Ks in K. rewrite <- !D12 in K. rewrite F1, F2 in K.
  unfold fast, slow, lj_run_all, sl_run_all. rewrite E1, E2. destruct (lj92_decode_all U d1 (len file) h1 a wl rows img) as [[r1 i1] n1]. destruct (sl_decode_all U d2 (len file) h2 t a wl rows img) as [[r2 i2] n2].
  cbn [la_open la_x la_y la_bits la_comp la_dec la_img la_oob]. cbn [orb]. destruct K as [K1 K2].
  split; [reflexivity|]. split; [reflexivity|]. split; [congruence|]. split; [congruence|]. split; [congruence|]. split; [congruence|]. split; [|split].
  - intros Hp Ho. destruct (K1 Hp) as [(A1 & A2 & A3)|(A1 & _)]; [|congruence]. split; [congruence|]. split; [congruence|congruence].
  - intros Hp H16 Ho. destruct (K1 Hp) as [(A1 & A2 & A3)|(A1 & [A2|A2])]; [congruence|congruence|contradiction].
  - intros Hp Hx1 Ho Hr. apply K2; try assumption; lia.
Qed.

(* so the bit-by-bit build decodes what the standard says, in all the cases C70 covers for the shipped build *)
Theorem C79_decode : forall d segs p sel tail bits vals bd x y N Q px a wl rows img U,
  wf_header segs sel tail bits vals bd x y N -> Forall (fun v => v <= 15) vals ->
  1 <= N <= 255 -> 1 <= x -> 1 <= p <= 7 -> p <> 6 -> N = 1 \/ y <= 1 \/ p = 1 /\ N <= x ->
  Forall is_byte Q -> 0 <= da_skip a ->
  let file := pn_file segs p sel tail (stuff Q) in file_in d file ->
  read_n (book_of bits vals) p N bd (N * x) (Z.to_nat (N * x * y)) [] (stream 8 Q) = Some px ->
  (da_lin a <> None -> Forall (fun q => q <= da_linlen a) px) ->
  let res := sl_run_all U d (len file) a wl rows img in
  la_open res = NONE /\ la_dec res = NONE /\ la_x res = x /\ la_y res = y /\ la_bits res = bd /\ la_comp res = N /\
  (forall r j, 0 <= r < y -> 0 <= j < N * x -> la_img res (r * (N * x + da_skip a) + j) = converted a (nth (Z.to_nat (r * (N * x) + j)) px 0)) /\
  (forall k, (forall r j, 0 <= r < y -> 0 <= j < N * x -> k <> r * (N * x + da_skip a) + j) -> la_img res k = img k) /\
  la_oob res = false.
Proof.
  intros d segs p sel tail bits vals bd x y N Q px a wl rows img U Hh Hv HN Hx Hp Hp6 Hgood HQ Hskip file Hf ED Hlin res.
  pose proof (C70_decode d segs p sel tail bits vals bd x y N Q px a wl rows img U Hh Hv HN Hx Hp Hp6 Hgood HQ Hskip Hf ED Hlin) as K. fold file in K. unfold decodes_n in K. cbv zeta in K.
  destruct K as (A1 & A2 & A3 & A4 & A5 & A6 & A7 & A8 & A9 & _).
  destruct (C79_same d segs p sel tail (stuff Q) bits vals bd x y N a wl rows img U Hh ltac:(lia) Hf) as (_ & B2 & B3 & B4 & B5 & B6 & B7 & _). fold file in B2, B3, B4, B5, B6, B7. fold res in B2, B3, B4, B5, B6, B7.
  destruct (B7 Hp6 A9) as (C1 & C2 & C3). rewrite B3, B4, B5, B6, C1, C2. auto 12.
Qed.

(* concrete cases: the files of C70_example, and one with predictor 6 *)
Definition C79_arg : dec_arg := {| da_skip := 2; da_lin := None; da_linlen := 0 |}.
Definition C79_slow (p x y : Z) (N : nat) (wl : Z) := sl_run_all 0 (C70_mem (C70_file p x y N)) (len (C70_file p x y N)) C79_arg wl (fun _ => 9) (fun _ => 77).
Definition C79_fast (p x y : Z) (N : nat) (wl : Z) := lj_run_all 0 (C70_mem (C70_file p x y N)) (len (C70_file p x y N)) C79_arg wl (fun _ => 9) (fun _ => 77).
Example C79_example : forall p N x y, (p = 1 /\ N = 3%nat /\ x = 4 /\ y = 2) \/ ((p = 4 \/ p = 6) /\ N = 1%nat /\ x = 8 /\ y = 3) ->
  file_in (C70_mem (C70_file p x y N)) (C70_file p x y N) /\ wf_header (C70_segs x y N) (C70_sel N) [0; 0] C64_bits C64_vals 12 x y (Z.of_nat N) /\
  la_dec (C79_fast p x y N 8) = NONE /\ la_oob (C79_fast p x y N 8) = false /\ la_dec (C79_slow p x y N 8) = NONE /\ la_oob (C79_slow p x y N 8) = false /\
  map (fun k => la_img (C79_slow p x y N 8) (Z.of_nat k)) (seq 0 28) = map (fun k => la_img (C79_fast p x y N 8) (Z.of_nat k)) (seq 0 28) /\
  map (fun k => la_img (C79_slow p x y N 8) (Z.of_nat k)) (seq 0 8) = firstn 8 C70_px.
Proof.
  intros p N x y H. assert (G : forallb (fun z => (0 <=? z) && (z <? 256)) (C70_file p x y N) = true /\ 0 <= x < 65536 /\ 0 <= y < 65536 /\ (N <= 255)%nat /\
  la_dec (C79_fast p x y N 8) = NONE /\ la_oob (C79_fast p x y N 8) = false /\ la_dec (C79_slow p x y N 8) = NONE /\ la_oob (C79_slow p x y N 8) = false /\
  map (fun k => la_img (C79_slow p x y N 8) (Z.of_nat k)) (seq 0 28) = map (fun k => la_img (C79_fast p x y N 8) (Z.of_nat k)) (seq 0 28) /\
  map (fun k => la_img (C79_slow p x y N 8) (Z.of_nat k)) (seq 0 8) = firstn 8 C70_px).
  { destruct H as [(-> & -> & -> & ->)|([-> | ->] & -> & -> & ->)]; (split; [vm_compute; reflexivity|]; split; [lia|]; split; [lia|]; split; [lia|]; vm_compute; repeat split). }
  destruct G as (G1 & G2 & G3 & G4 & G). split; [apply C70_mem_in, bytes_dec; exact G1|]. split; [apply C70_header; assumption|exact G].
Qed.

(* Class 16 (a difference of 32768, no extra bits in the standard): the table-driven build leaves its histogram array, the bit-by-bit build stays inside its
   arrays but reads sixteen bits that are not there, and delivers a wrong sample without an error. *)
Theorem C79_class16 : exists d segs p sel tail bits vals bd x y N Q px,
  wf_header segs sel tail bits vals bd x y N /\ 1 <= N <= 255 /\ 1 <= x /\ 1 <= y /\ 1 <= p <= 7 /\ Forall is_byte Q /\
  let file := pn_file segs p sel tail (stuff Q) in file_in d file /\
  read_n (book_of bits vals) p N bd (N * x) (Z.to_nat (N * x * y)) [] (stream 8 Q) = Some px /\
  forall U wl rows img, let a := {| da_skip := 0; da_lin := None; da_linlen := 0 |} in
    let slow := sl_run_all U d (len file) a wl rows img in
    la_open slow = NONE /\ la_dec slow = NONE /\ la_oob slow = false /\ la_img slow 0 <> nth 0 px 0 /\
    la_oob (lj_run_all U d (len file) a wl rows img) = true.
Proof.
  set (bits := (1 :: repeat 0 15)%nat). set (segs := [SDht bits [16]; SSof 16 1 1 [1; 17; 0]]). set (Q := [0]).
  exists (C70_mem (pn_file segs 1 [1; 0] [0; 0] (stuff Q))), segs, 1, [1; 0], [0; 0], bits, [16], 16, 1, 1, 1, Q, [0].
  split. { split; [|split; [reflexivity|split; reflexivity]]. repeat apply Forall_cons; [| |apply Forall_nil]; unfold seg_ok.
    - split; [|cbn [length]; lia]. unfold dht_ok. split; [reflexivity|]. split; [reflexivity|]. split; [discriminate|]. split; [repeat constructor; lia|vm_compute; discriminate].
    - vm_compute. repeat split; discriminate. }
  split; [lia|]. split; [lia|]. split; [lia|]. split; [lia|]. split; [repeat constructor; lia|]. cbv zeta. split; [apply C70_mem_in, bytes_dec; vm_compute; reflexivity|]. split; [vm_compute; reflexivity|].
  intros U wl rows img. vm_compute. repeat split; discriminate.
Qed.
