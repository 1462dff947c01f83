(* C64, continued: writeLength 1 *)
From Verif Require Import Bits Spec Spec_Beta Spec_Lj92 Spec_P6 M_Lj92 M_Pred6 P_Lj92 P_Lj92b P_Lj92c P_Lj92d P_Fix P_Pred6 P_Pred6b Props_Frame Props_Lj92 Props_Pred6.
Ltac Zify.zify_post_hook ::= idtac.

Definition setw (v : Z) (s : p6_st) : p6_st :=
  {| q_nd := q_nd s; q_rows := q_rows s; q_img := q_img s; q_left := q_left s; q_this := q_this s; q_last := q_last s; q_col := q_col s; q_c := q_c s;
     q_out := q_out s; q_write := v |}.
Definition rsetw (v : Z) (r : p6_res) : p6_res := match r with Go s => Go (setw v s) | Ret c s => Ret c (setw v s) end.
Lemma put_setw U d h a chk px ok v s : p6_put U d h a chk px ok (setw v s) = rsetw v (p6_put U d h a chk px ok s).
Proof.
  unfold p6_put. change (q_nd (setw v s)) with (q_nd s). destruct (nextdiff U d (j_huffbits h) (j_lut h) (q_nd s)) as [diff nd]. destruct (da_lin a) as [f|]; [|reflexivity]. destruct (chk && _); reflexivity.
Qed.
Lemma put_write U d h a chk px ok s s' : p6_put U d h a chk px ok s = Go s' -> q_write s' = q_write s.
Proof.
  unfold p6_put. destruct (nextdiff U d (j_huffbits h) (j_lut h) (q_nd s)) as [diff nd]. destruct (da_lin a) as [f|]; [destruct (chk && _)|]; intros E; inversion E; reflexivity.
Qed.
Lemma skip_setw a wl wl' v s : v <= 0 -> 1 < q_write s -> p6_skip a wl (setw v s) = setw (v - 1) (p6_skip a wl' s) /\ q_write (p6_skip a wl' s) = q_write s - 1.
Proof. intros Hv Hs. unfold p6_skip, setw. cbn [q_nd q_rows q_img q_left q_this q_last q_col q_c q_out q_write]. replace (v - 1 =? 0) with false by lia. replace (q_write s - 1 =? 0) with false by lia. split; reflexivity. Qed.

(* the two runs: writeLength wl with a counter that is not positive, wl' with a counter that does not reach 0 *)
Section Sim.
Variables (U : Z) (d : lmem) (dl : Z) (h : lj_hdr) (a : dec_arg) (wl wl' : Z).
Definition rel (n : Z) (r r' : p6_res) : Prop :=
  match r, r' with
  | Go s, Go s' => exists v, v <= 0 /\ s = setw v s' /\ n < q_write s'
  | Ret c s, Ret c' s' => c = c' /\ exists v, s = setw v s'
  | _, _ => False
  end.
Lemma rel_put chk px ok v s n : v <= 0 -> n < q_write s -> rel n (p6_put U d h a chk px ok (setw v s)) (p6_put U d h a chk px ok s).
Proof.
  intros Hv Hn. rewrite put_setw. destruct (p6_put U d h a chk px ok s) as [s'|c s'] eqn:E; cbn [rsetw rel]; [|split; [reflexivity|exists v; reflexivity]]. exists v. split; [exact Hv|]. split; [reflexivity|]. rewrite (put_write _ _ _ _ _ _ _ _ _ E). exact Hn.
Qed.
Lemma rel_body (b b' : p6_st -> p6_res) : (forall v s n, v <= 0 -> 1 <= n -> n < q_write s -> rel (n - 1) (b (setw v s)) (b' s)) ->
  forall k v s n, v <= 0 -> Z.of_nat k <= n -> n < q_write s -> rel (n - Z.of_nat k) (p6_loop k b (setw v s)) (p6_loop k b' s).
Proof.
  intros HB. induction k as [|k IH]; intros v s n Hv Hk Hn; cbn [p6_loop]; [cbn [rel]; exists v; split; [exact Hv|split; [reflexivity|lia]]|].
  pose proof (HB v s n Hv ltac:(lia) Hn) as R. destruct (b (setw v s)) as [s1|c s1], (b' s) as [s1'|c' s1']; cbn [rel] in R; try (exfalso; exact R); [|exact R].
  destruct R as (v1 & V1 & -> & V2). specialize (IH v1 s1' (n - 1) V1 ltac:(lia) V2). replace (n - Z.of_nat (S k)) with (n - 1 - Z.of_nat k) by lia. exact IH.
Qed.
Lemma rel_skip s s' n : rel n (Go s) (Go s') -> 1 <= n -> rel (n - 1) (Go (p6_skip a wl s)) (Go (p6_skip a wl' s')).
Proof.
  intros (v & V & -> & W) Hn. destruct (skip_setw a wl wl' v s' V ltac:(lia)) as [E1 E2]. rewrite E1. cbn [rel]. exists (v - 1). split; [lia|]. split; [reflexivity|]. lia.
Qed.
Lemma rel_first v s n : v <= 0 -> 1 <= n -> n < q_write s -> rel (n - 1) (p6_first_body U d dl h a wl (setw v s)) (p6_first_body U d dl h a wl' s).
Proof.
  intros Hv H1 Hn. unfold p6_first_body. change (q_left (setw v s)) with (q_left s). pose proof (rel_put false (q_left s) true v s n Hv Hn) as R. destruct (p6_put _ _ _ _ _ _ _ (setw v s)) as [s1|c s1], (p6_put _ _ _ _ _ _ _ s) as [s2|c2 s2]; cbn [rel] in R; try (exfalso; exact R); [|exact R].
  pose proof R as (v1 & V1 & E & V2). assert (p6_end dl s1 = p6_end dl s2) as -> by (rewrite E; reflexivity). destruct (p6_end dl s2); [cbn [rel]; split; [reflexivity|exists v1; exact E]|]. apply rel_skip; [exact R|exact H1].
Qed.
Lemma rel_row_body v s n : v <= 0 -> 1 <= n -> n < q_write s -> rel (n - 1) (p6_row_body U d h a wl (setw v s)) (p6_row_body U d h a wl' s).
Proof.
  intros Hv H1 Hn. unfold p6_row_body. cbv zeta. change (q_left (setw v s)) with (q_left s). change (q_last (setw v s)) with (q_last s). change (q_col (setw v s)) with (q_col s). change (q_rows (setw v s)) with (q_rows s).
  match goal with |- context [p6_put U d h a true ?p ?o s] => pose proof (rel_put true p o v s n Hv Hn) as R end.
  destruct (p6_put _ _ _ _ _ _ _ (setw v s)) as [s1|c s1], (p6_put _ _ _ _ _ _ _ s) as [s2|c2 s2]; cbn [rel] in R; try (exfalso; exact R); [|exact R]. apply rel_skip; [exact R|exact H1].
Qed.
Lemma rel_row v s n : v <= 0 -> Z.of_nat (Z.to_nat (rowcount h)) + 1 <= n -> n < q_write s -> rel (n - 1 - Z.of_nat (Z.to_nat (rowcount h))) (p6_row U d dl h a wl (setw v s)) (p6_row U d dl h a wl' s).
Proof.
  intros Hv H1 Hn. unfold p6_row. cbv zeta. change (p6_col0 (setw v s)) with (setw v (p6_col0 s)). change (q_rows (setw v (p6_col0 s))) with (q_rows (p6_col0 s)). change (q_last (setw v (p6_col0 s))) with (q_last (p6_col0 s)).
  match goal with |- context [p6_put U d h a true ?p ?o (p6_col0 s)] => pose proof (rel_put true p o v (p6_col0 s) n Hv Hn) as R end.
  destruct (p6_put _ _ _ _ _ _ _ (setw v (p6_col0 s))) as [s1|c s1], (p6_put _ _ _ _ _ _ _ (p6_col0 s)) as [s2|c2 s2]; cbn [rel] in R; try (exfalso; exact R); [|exact R].
  pose proof R as (v1 & V1 & E & V2). assert (p6_end dl s1 = p6_end dl s2) as -> by (rewrite E; reflexivity). assert (q_c s1 = q_c s2) as -> by (rewrite E; reflexivity). destruct (p6_end dl s2); [cbn [rel]; split; [reflexivity|exists v1; exact E]|].
  pose proof (rel_skip s1 s2 n R ltac:(lia)) as (v3 & V3 & E3 & W3). rewrite E3. pose proof (rel_body _ _ rel_row_body (Z.to_nat (rowcount h)) v3 _ (n - 1) V3 ltac:(lia) W3) as R4.
  destruct (p6_loop _ _ (setw v3 _)) as [s5|c5 s5], (p6_loop _ _ (p6_skip a wl' s2)) as [s6|c6 s6]; cbn [rel] in R4; try (exfalso; exact R4); [|exact R4].
  destruct R4 as (v7 & V7 & -> & W7). change (p6_swap (setw v7 s6)) with (setw v7 (p6_swap s6)). change (p6_end dl (setw v7 (p6_swap s6))) with (p6_end dl (p6_swap s6)). change (q_c (setw v7 (p6_swap s6))) with (q_c (p6_swap s6)).
  destruct (p6_end dl (p6_swap s6)); cbn [rel]; [split; [reflexivity|exists v7; reflexivity]|]. exists v7. split; [exact V7|]. split; [reflexivity|exact W7].
Qed.
Lemma rel_rows : forall fuel v s n, v <= 0 -> Z.of_nat fuel * (Z.of_nat (Z.to_nat (rowcount h)) + 1) <= n -> n < q_write s ->
  let (r, s1) := p6_rows fuel U d dl h a wl (setw v s) in let (r', s1') := p6_rows fuel U d dl h a wl' s in r = r' /\ exists v', s1 = setw v' s1'.
Proof.
  induction fuel as [|f IH]; intros v s n Hv Hn Hw; cbn [p6_rows]; [split; [reflexivity|exists v; reflexivity]|].
  change (q_c (setw v s)) with (q_c s). destruct (q_c s <? pixels h); [|split; [reflexivity|exists v; reflexivity]].
  pose proof (rel_row v s n Hv ltac:(nia) Hw) as R. destruct (p6_row _ _ _ _ _ _ (setw v s)) as [s1|c s1], (p6_row _ _ _ _ _ _ s) as [s2|c2 s2]; cbn [rel] in R; try (exfalso; exact R).
  - destruct R as (v1 & V1 & -> & W1). apply (IH v1 s2 (n - 1 - Z.of_nat (Z.to_nat (rowcount h))) V1); [nia|exact W1].
  - exact R.
Qed.
End Sim.

(* writeLength 1: the first `--write` is not tested, so no sample is ever left out *)
Lemma parse_one U d dl h a rows img wl' : Z.of_nat (S (S (Z.to_nat (j_y h)))) * (Z.of_nat (Z.to_nat (rowcount h)) + 1) < wl' - 1 ->
  let (r, s) := parse_pred6 U d dl h a 1 rows img in let (r', s') := parse_pred6 U d dl h a wl' rows img in r = r' /\ exists v, s = setw v s'.
Proof.
  intros Hw. unfold parse_pred6. set (s0 := {| q_nd := _; q_write := wl' |}). match goal with |- context [p6_put _ _ _ _ _ _ _ {| q_nd := ?a1; q_rows := ?a2; q_img := ?a3; q_left := ?a4; q_this := ?a5; q_last := ?a6; q_col := ?a7; q_c := ?a8; q_out := ?a9; q_write := 1 |}] =>
    change {| q_nd := a1; q_rows := a2; q_img := a3; q_left := a4; q_this := a5; q_last := a6; q_col := a7; q_c := a8; q_out := a9; q_write := 1 |} with (setw 1 s0) end.
  rewrite put_setw. destruct (p6_put _ _ _ _ _ _ _ s0) as [s|c s] eqn:E; cbn [rsetw]; [|split; [reflexivity|exists 1; reflexivity]].
  change (p6_end dl (setw 1 s)) with (p6_end dl s). destruct (p6_end dl s); [split; [reflexivity|exists 1; reflexivity]|].
  assert (W : q_write (p6_dec s) = wl' - 1) by (unfold p6_dec; cbn [q_write]; rewrite (put_write _ _ _ _ _ _ _ _ _ E); reflexivity).
  change (p6_dec (setw 1 s)) with (setw 0 (p6_dec s)).
  pose proof (rel_body (p6_first_body U d dl h a 1) (p6_first_body U d dl h a wl') (rel_first U d dl h a 1 wl') (Z.to_nat (rowcount h)) 0 (p6_dec s) (wl' - 2) ltac:(lia) ltac:(nia) ltac:(lia)) as R.
  destruct (p6_loop _ _ (setw 0 (p6_dec s))) as [s1|c1 s1], (p6_loop _ _ (p6_dec s)) as [s2|c2 s2]; cbn [rel] in R; try (exfalso; exact R); [|exact R].
  destruct R as (v & V & -> & W2). change (p6_swap (setw v s2)) with (setw v (p6_swap s2)). apply (rel_rows U d dl h a 1 wl' (S (Z.to_nat (j_y h))) v (p6_swap s2) (wl' - 2 - Z.of_nat (Z.to_nat (rowcount h))) V); [nia|exact W2].
Qed.

Theorem C64_run_of_one : forall d bits vals bd x y Q px a rows img U,
  dht_ok bits vals -> (length vals <= 200)%nat -> Forall (fun v => v <= 15) vals ->
  1 <= bd -> 25 <= x < 65536 -> 2 <= y < 65536 -> x * y < 2 ^ 31 -> Forall is_byte Q -> 0 <= da_skip a ->
  file_in d (p6_file bits vals bd x y (stuff Q)) ->
  read_samples (book_of bits vals) bd x (Z.to_nat (x * y)) [] (stream 8 Q) = Some px ->
  (da_lin a <> None -> Forall (fun p => p <= da_linlen a) px) ->
  let res := lj_run_all U d (len (p6_file bits vals bd x y (stuff Q))) a 1 rows img in
  la_dec res = NONE /\
  (forall k, 0 <= k < x * y -> la_img res k = converted a (nth (Z.to_nat k) px 0)) /\
  (forall p, ~ 0 <= p < x * y -> la_img res p = img p).
Proof.
  intros d bits vals bd x y Q px a rows img U Hok Hn Hv Hbd Hx Hy HXY HQ Hskip HF ED Hlin. set (wl' := (y + 3) * x + 2).
  destruct (C64_decode d bits vals bd x y Q px a wl' rows img U Hok Hn Hv Hbd Hx Hy HXY HQ Hskip ltac:(unfold wl'; nia) HF ED Hlin) as (A1 & A2 & A3 & A4 & _ & _ & A7 & A8 & _).
  destruct HF as [Hd HH]. destruct (setup6 d bits vals bd x y Q Hd Hok Hn ltac:(lia) ltac:(lia) HQ HH) as (d' & h & EO & Fd & Hd' & (Jx & Jy & Jb & Jc & Js & Jl) & Ei & EDec & _).
  set (file := p6_file bits vals bd x y (stuff Q)) in *. unfold lj_run_all in *. rewrite EO in *. rewrite EDec in *.
  pose proof (parse_one U d' (len file) h a rows img wl' ltac:(rewrite (rowcount_pos h) by (rewrite Jx; lia); rewrite Jx, Jy; unfold wl'; nia)) as P.
  destruct (parse_pred6 U d' (len file) h a 1 rows img) as [r s], (parse_pred6 U d' (len file) h a wl' rows img) as [r' s']. destruct P as [-> [v ->]]. cbv zeta in *. cbn [la_open la_dec la_x la_y la_bits la_comp la_img la_oob la_hi] in *. change (q_img (setw v s')) with (q_img s').
  assert (TP : forall k, 0 <= k < x * y -> tile_pos wl' (da_skip a) k = k) by (intros k Hk; unfold tile_pos; rewrite Z.div_small by (unfold wl'; nia); lia).
  split; [exact A2|]. split; [intros k Hk; rewrite <- (A7 k Hk), TP by exact Hk; reflexivity|]. intros p Hp. apply A8. intros k Hk. rewrite TP by exact Hk. lia.
Qed.
