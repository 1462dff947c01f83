(* C91: what the shipped Verilog core (verilog_src/beta_integration.v, module top) does at its pins. *)
From Verif Require Import Bits Spec Spec_Core Spec_Beta Spec_Rate Spec_Time Spec_Lj92 V_Gen M_Config M_Encode M_I1 M_I3 M_Markers M_Beta M_Lj92 Spec_Verilog P_Verilog P_VerilogMid P_VerilogTop Spec_VerilogCore P_VerilogCore.
From Verif Require Import Props_Beta P_BetaLive Props_BetaLive P_Budget Props_Budget Props_Deadline Props_InTime Props_Lj92.
Ltac Zify.zify_post_hook ::= idtac.

(* The shipped Verilog and the model show the same at all four output pins in every cycle, for every history of the five input pins (full_rst and the
   automatic reset at any time included) and every content of the registers that have no initial value. *)
Theorem C91_top : forall a0 a1 d1 d2 (l : list vtp_in),
  trace vtp_step vtp_pins (vtp_powerup a0 a1 d1 d2) l = trace bt_clock bt_pins (bt_powerup d1 d2) l.
Proof. intros. apply (trace_sim _ _ _ _ _ _ top_sim _ _ _ (top_R0 a0 a1 d1 d2) (Forall_T l)). Qed.

(* Any 12-bit pixels, any schedule of valid_in and busy_in: a finished frame is the image that was taken, or it carries the marker of a cut frame. *)
Theorem C91_lossless_or_flagged : forall s (l : list vtp_in), vtp_fresh s -> Forall vtp_ok l ->
  let log := pin_log false [] [] (pins s l) in
  forall k A O, nth_error log k = Some (A, O) -> (S k < length log)%nat ->
  (snd (deframe (map fst O)) = Some false /\ len (concat A) = 4096 * 3072 /\ receive (std_table 12) 12 4096 3072 (map fst O) = Some (concat A)) \/
  snd (deframe (map fst O)) = Some true.
Proof.
  intros s l H F log k A O. unfold log. destruct (pins_log s H) as (i3 & Hi & E). rewrite (E l F).
  apply (C25_shipped (map tri l) i3 Hi). intros x. apply (tri_ok l x F).
Qed.

(* A sink that is ready again and again and a source that offers again and again: every frame is finished. *)
Theorem C91_every_frame : forall s (ins : nat -> vtp_in), vtp_fresh s -> (forall n, vtp_ok (ins n)) ->
  (forall n, exists m, (n <= m)%nat /\ vtp_i_busy_in (ins m) = false) ->
  (forall n, exists m, (n <= m)%nat /\ vtp_i_valid_in (ins m) = true) ->
  forall k, exists n A O,
    let log := pin_log false [] [] (pins s (map ins (seq 0 n))) in
    nth_error log k = Some (A, O) /\ (S k < length log)%nat /\
    ((snd (deframe (map fst O)) = Some false /\ len (concat A) = 4096 * 3072 /\ receive (std_table 12) 12 4096 3072 (map fst O) = Some (concat A)) \/
     snd (deframe (map fst O)) = Some true).
Proof.
  intros s ins H F Hb Hv k. destruct (pins_log s H) as (i3 & Hi & E).
  destruct (C61_shipped (fun j => tri (ins j)) i3 Hi) with (k := k) as (n & A & O & R); try assumption.
  - intros n. destruct (F n) as (_ & A & B). split; [reflexivity|]. repeat constructor; apply A || apply B.
  - exists n, A, O. cbv zeta. rewrite E by (apply Forall_forall; intros x Hx; apply in_map_iff in Hx; destruct Hx as (j & <- & _); apply F).
    rewrite map_map. exact R.
Qed.

(* Frame k begins after the cycles p; its image is smooth (each sample within 31 of its prediction); the cycles la suffice to feed it and lb to drain it, and
   both together are within the time limit: then it is delivered whole. *)
Theorem C91_in_time : forall s (p la lb : list vtp_in), vtp_fresh s -> Forall vtp_ok (p ++ la ++ lb) ->
  let log l := pin_log false [] [] (pins s l) in
  forall k A O, length (log p) = S k -> (forall p' x, p = p' ++ [x] -> length (log p') = k) -> nth_error (log (p ++ la ++ lb)) k = Some (A, O) ->
  smooth 12 4096 31 (concat A) ->
  let ff := ff_bytes (std_table 12) 12 4096 (concat A) in
  36 + 2 * 6291456 + 2 * len (filter (fun i => negb (vtp_i_valid_in i)) la) + 2 * len (filter vtp_i_busy_in la) + ff <= 2 * len la ->
  226550 + ff <= 2 * len (filter (fun i => negb (vtp_i_busy_in i)) lb) ->
  len la + len lb <= 6666002 ->
  (S k < length (log (p ++ la ++ lb)))%nat /\
  snd (deframe (map fst O)) = Some false /\ len (concat A) = 4096 * 3072 /\ receive (std_table 12) 12 4096 3072 (map fst O) = Some (concat A).
Proof.
  intros s p la lb H F log k A O L1 L2 HN Hs ff Ha Hb Hl. destruct (pins_log s H) as (i3 & Hi & E). unfold log in *.
  assert (Fp : Forall vtp_ok p) by (apply Forall_app in F; tauto).
  assert (FL : forall (f : bool * list Z * bool -> bool) l, len (filter f (map tri l)) = len (filter (fun i => f (tri i)) l)).
  { intros f l. unfold len. f_equal. induction l as [|i r IH]; [reflexivity|]. cbn [map filter]. destruct (f (tri i)); cbn [length]; rewrite IH; reflexivity. }
  assert (ML : forall l : list vtp_in, len (map tri l) = len l) by (intros; unfold len; rewrite map_length; reflexivity).
  rewrite (E _ F), !map_app in *. rewrite (E _ Fp) in L1.
  apply (C86_shipped (map tri p) (map tri la) (map tri lb) i3 Hi); try assumption.
  - intros x Hx. rewrite <- !map_app in Hx. exact (tri_ok _ x F Hx).
  - intros p' x Q. destruct (map_eq_app tri p p' [x] Q) as (q1 & q2 & -> & <- & Q2). destruct q2 as [|y [|]]; try discriminate.
    rewrite <- E; [exact (L2 q1 y eq_refl)|apply Forall_app in Fp; tauto].
  - rewrite !FL, ML. exact Ha.
  - rewrite FL. exact Hb.
  - rewrite !ML. exact Hl.
Qed.

(* The time limit is a deadline. *)
Theorem C91_deadline : forall s (p l2 l3 : list vtp_in), vtp_fresh s -> Forall vtp_ok (p ++ l2 ++ l3) ->
  let log l := pin_log false [] [] (pins s l) in
  forall k A O A1 O1 A2 O2,
  length (log p) = S k -> nth_error (log p) k = Some (A, O) -> A <> [] ->
  6666002 <= len l2 -> nth_error (log (p ++ l2)) k = Some (A1, O1) -> O1 <> [] ->
  17 <= len (filter (fun i => negb (vtp_i_busy_in i)) l3) -> nth_error (log (p ++ l2 ++ l3)) k = Some (A2, O2) ->
  existsb snd O2 = true.
Proof.
  intros s p l2 l3 H F log k A O A1 O1 A2 O2 L1 N1 NA Hl N2 NO Hr N3. destruct (pins_log s H) as (i3 & Hi & E). unfold log in *.
  assert (Fp : Forall vtp_ok p) by (apply Forall_app in F; tauto).
  assert (Fp2 : Forall vtp_ok (p ++ l2)) by (rewrite app_assoc in F; apply Forall_app in F; tauto).
  assert (FL : forall (f : bool * list Z * bool -> bool) l, len (filter f (map tri l)) = len (filter (fun i => f (tri i)) l)).
  { intros f l. unfold len. f_equal. induction l as [|i r IH]; [reflexivity|]. cbn [map filter]. destruct (f (tri i)); cbn [length]; rewrite IH; reflexivity. }
  rewrite (E _ F), !map_app in N3. rewrite (E _ Fp) in L1, N1. rewrite (E _ Fp2), map_app in N2.
  apply (C82_shipped (map tri p) (map tri l2) (map tri l3) i3 Hi) with (k := k) (A := A) (O := O) (A1 := A1) (O1 := O1) (A2 := A2); try assumption.
  - intros x Hx. rewrite <- !map_app in Hx. exact (tri_ok _ x F Hx).
  - unfold len. rewrite map_length. exact Hl.
  - rewrite FL. exact Hr.
Qed.

(* The decoder shipped with the core turns the words of an unflagged frame, in the file the host software makes of them, back into the pixels. *)
Theorem C91_decoder : forall s (l : list vtp_in), vtp_fresh s -> Forall vtp_ok l ->
  let log := pin_log false [] [] (pins s l) in
  forall k A O, nth_error log k = Some (A, O) -> (S k < length log)%nat -> snd (deframe (map fst O)) = Some false ->
  let file := lj_file std_bits16 std_HUFFVAL 12 1024 3072 (flat_map bytes_of (fst (deframe (map fst O)))) in
  forall U d a rows img, file_in d file -> 0 <= da_skip a -> da_lin a = None ->
  decodes U d file a rows img 12 1024 3072 (concat A).
Proof.
  intros s l H F log k A O. unfold log. destruct (pins_log s H) as (i3 & Hi & E). rewrite (E l F).
  apply (C56_shipped (map tri l) i3 Hi). intros x. apply (tri_ok l x F).
Qed.

(* ---------------------------------------------------------------- examples *)
(* The Verilog itself, run: with a reset in cycle 3 (full_rst) it is ready in cycle 12, offers its header from cycle 33 on, and then the words of the payload
   of the pixels taken so far - 125 words in 200 cycles, while the sink is busy every fifth cycle and the source pauses every fourth. *)
Definition C91_in (full : nat -> bool) (k : nat) : vtp_in :=
  {| vtp_i_busy_in := Nat.eqb (Nat.modulo k 5) 1; vtp_i_full_rst := full k; vtp_i_pixel_in1 := Z.of_nat k * 1237 mod 4096; vtp_i_pixel_in2 := 4095 - Z.of_nat k * 551 mod 4096;
     vtp_i_valid_in := negb (Nat.eqb (Nat.modulo k 4) 0) |}.
Lemma C91_in_ok k : vtp_ok (C91_in (fun _ => false) k).
Proof.
  split; [reflexivity|]. unfold C91_in, in_range. cbn [vtp_i_pixel_in1 vtp_i_pixel_in2]. change (2 ^ 12) with 4096.
  assert (0 <= Z.of_nat k * 1237 mod 4096 < 4096) by (apply Z.mod_pos_bound; lia). assert (0 <= Z.of_nat k * 551 mod 4096 < 4096) by (apply Z.mod_pos_bound; lia). lia.
Qed.
Example C91_top_example :
  let l := map (C91_in (Nat.eqb 3)) (seq 0 200) in let t := trace vtp_step vtp_pins (vtp_powerup 3 7 12345 678) l in
  t = trace bt_clock bt_pins (bt_powerup 12345 678) l /\
  map (fun o => snd o) (firstn 14 t) = repeat true 12 ++ [false; false] /\ map (fun o => fst (fst (fst o))) (firstn 34 t) = repeat false 33 ++ [true].
Proof. vm_compute. repeat split. Qed.
Example C91_payload_example :
  let l := map (C91_in (Nat.eqb 3)) (seq 0 3) in let r := map (C91_in (fun _ => false)) (seq 4 196) in
  let s := vtp_step (fold_left vtp_step l (vtp_powerup 3 7 12345 678)) (C91_in (Nat.eqb 3) 3) in
  vtp_fresh s /\ Forall vtp_ok r /\
  match pin_log false [] [] (pins s r) with
  | [(A, w)] => len A = 141 /\ len w = 133 /\ firstn 8 (map fst w) = repeat 65535 8 /\ skipn 8 (map fst w) = firstn 125 (payload (std_table 12) 12 4096 (concat A))
  | _ => False end.
Proof.
  intros l r s. split; [apply fresh_full_rst; reflexivity|]. split; [|vm_compute; repeat split].
  apply Forall_forall. intros x Hx. apply in_map_iff in Hx. destruct Hx as (k & <- & _). apply C91_in_ok.
Qed.
(* the hypotheses of C91_every_frame hold of that schedule, and therefore frame 41 is finished *)
Example C91_every_frame_example : exists n A O,
  let log := pin_log false [] [] (pins (vtp_powerup 3 7 12345 678) (map (C91_in (fun _ => false)) (seq 0 n))) in
  nth_error log 41 = Some (A, O) /\ (42 < length log)%nat /\
  ((snd (deframe (map fst O)) = Some false /\ len (concat A) = 4096 * 3072 /\ receive (std_table 12) 12 4096 3072 (map fst O) = Some (concat A)) \/ snd (deframe (map fst O)) = Some true).
Proof.
  apply (C91_every_frame (vtp_powerup 3 7 12345 678) (C91_in (fun _ => false)) (fresh_powerup 3 7 12345 678) C91_in_ok).
  - intros n. exists (2 + n * 5)%nat. split; [lia|]. cbn [vtp_i_busy_in C91_in]. rewrite Nat.mod_add by lia. reflexivity.
  - intros n. exists (2 + n * 4)%nat. split; [lia|]. cbn [vtp_i_valid_in C91_in]. rewrite Nat.mod_add by lia. reflexivity.
Qed.
