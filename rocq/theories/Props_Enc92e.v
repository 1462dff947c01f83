(* C66-C69: concrete cases, and where the round trip ends *)
From Verif Require Import Bits Spec Spec_Lj92 Spec_P6 M_Lj92 M_Pred6 M_Enc92 Props_Enc92 Props_Enc92b Props_Enc92c Props_Enc92d.
Ltac Zify.zify_post_hook ::= idtac.

(* 25 x 2 samples of 12 bits, from an image where three samples are left out after every run of 10 *)
Definition ex_img : lmem := fun k => (k * k * 37 + k * 5) mod 4096.
Definition ex_px : list Z := tile ex_img 10 3 50.
Example C66_example :
  diffs_small 12 25 [] ex_px /\ firstn 12 ex_px = [0; 42; 158; 348; 612; 950; 1362; 1848; 2408; 3042; 2222; 3226] /\
  (let '(r, m, n) := lj92_encode ex_img 25 2 12 10 3 None (fun _ => 99) in
   r = NONE /\ n = 138 /\ map (fun k => m (Z.of_nat k)) (seq 0 7) = [255; 0xd8; 255; 0xc4; 0; 27; 0] /\ map m [-1; 138; 139] = [99; 99; 99]).
Proof. vm_compute. repeat split. Qed.
Example C67_example :
  (forall k, 0 <= ex_img k < 2 ^ 12) /\
  (let '(r, m, n) := lj92_encode ex_img 25 2 12 10 3 None (fun _ => 99) in
   let res := lj_run_all 0 m n {| da_skip := 1; da_lin := None; da_linlen := 0 |} 20 (fun _ => 5) (fun _ => 77) in
   r = NONE /\ la_dec res = NONE /\ map (fun k => la_img res (Z.of_nat k)) (seq 0 52) = firstn 20 ex_px ++ [77] ++ firstn 20 (skipn 20 ex_px) ++ [77] ++ skipn 40 ex_px).
Proof. split; [intros k; apply Z.mod_pos_bound; reflexivity|]. vm_compute. repeat split. Qed.

(* one row: the decoder may report a corrupt file and not deliver all samples *)
Theorem C67_one_row : exists v w bd, 25 <= w < 65536 /\ 1 <= bd <= 14 /\ 0 <= v < 2 ^ bd /\
  let '(r, m, n) := lj92_encode (fun _ => v) w 1 bd w 0 None (fun _ => 0) in
  r = NONE /\ let res := lj_run_all 0 m n {| da_skip := 0; da_lin := None; da_linlen := 0 |} w (fun _ => 0) (fun _ => 0) in
  la_open res = NONE /\ la_dec res = CORRUPT /\ exists k, 0 <= k < w /\ la_img res k <> v.
Proof.
  exists 2048, 40, 12. split; [lia|]. split; [lia|]. split; [lia|]. assert (E : let '(r, m, n) := lj92_encode (fun _ => 2048) 40 1 12 40 0 None (fun _ => 0) in
    let res := lj_run_all 0 m n {| da_skip := 0; da_lin := None; da_linlen := 0 |} 40 (fun _ => 0) (fun _ => 0) in (r, la_open res, la_dec res, la_img res 39) = (NONE, NONE, CORRUPT, 0)) by (vm_compute; reflexivity).
  destruct (lj92_encode (fun _ => 2048) 40 1 12 40 0 None (fun _ => 0)) as [[r m] n]. cbv zeta in *. injection E as E1 E2 E3 E4. split; [exact E1|]. split; [exact E2|]. split; [exact E3|]. exists 39. split; [lia|]. rewrite E4. lia.
Qed.

(* delinearization with no new class of difference: the table adds one *)
Definition ex_del : lmem := fun v => v + 1.
Definition ex_ramp : lmem := fun k => k + 1.
Example C69_example :
  let px := tile ex_ramp 25 0 50 in let py := tile (fun k => ex_del (ex_ramp k)) 25 0 50 in
  diffs_small 8 25 [] px /\ diffs_small 8 25 [] py /\ map category (diffs6 8 25 [] py) = map category (diffs6 8 25 [] px) /\
  (let '(r, m, n) := lj92_encode ex_ramp 25 2 8 25 0 (Some ex_del) (fun _ => 0) in
   let res := lj_run_all 0 m n {| da_skip := 0; da_lin := None; da_linlen := 0 |} 25 (fun _ => 0) (fun _ => 0) in
   r = NONE /\ la_dec res = NONE /\ map (fun k => la_img res (Z.of_nat k)) (seq 0 50) = map (fun k => Z.of_nat k + 2) (seq 0 50)).
Proof. vm_compute. repeat split. Qed.

(* a table that makes classes occur that the original samples do not have: no error is reported and the file decodes to other samples *)
Theorem C69_wrong_class : exists img f w h bd, 25 <= w < 65536 /\ 2 <= h < 65536 /\ 3 * w * h + 200 < 2 ^ 31 /\ 1 <= bd <= 14 /\
  (forall k, 0 <= k < w * h -> 0 <= img k < 2 ^ bd /\ 0 <= f (img k) < 2 ^ bd) /\
  let '(r, m, n) := lj92_encode img w h bd w 0 (Some f) (fun _ => 0) in
  let res := lj_run_all 0 m n {| da_skip := 0; da_lin := None; da_linlen := 0 |} w (fun _ => 0) (fun _ => 0) in
  r = NONE /\ la_open res = NONE /\ la_dec res = NONE /\ exists k, 0 <= k < w * h /\ la_img res k <> f (img k).
Proof.
  exists (fun k => k), (fun v => 16 * v), 25, 2, 12. split; [lia|]. split; [lia|]. split; [lia|]. split; [lia|]. split; [intros k Hk; lia|].
  assert (E : let '(r, m, n) := lj92_encode (fun k => k) 25 2 12 25 0 (Some (fun v => 16 * v)) (fun _ => 0) in
    let res := lj_run_all 0 m n {| da_skip := 0; da_lin := None; da_linlen := 0 |} 25 (fun _ => 0) (fun _ => 0) in (r, la_open res, la_dec res, la_img res 25) = (NONE, NONE, NONE, 12)) by (vm_compute; reflexivity).
  destruct (lj92_encode (fun k => k) 25 2 12 25 0 (Some (fun v => 16 * v)) (fun _ => 0)) as [[r m] n]. cbv zeta in *. injection E as E1 E2 E3 E4. split; [exact E1|]. split; [exact E2|]. split; [exact E3|]. exists 25. split; [lia|]. rewrite E4. lia.
Qed.
