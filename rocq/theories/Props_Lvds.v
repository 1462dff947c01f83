(* C53: beta_integration_fifo_lvds.py, the 40-bit output across frames. *)
From Verif Require Import Bits Spec Spec_Core Spec_Beta M_Config M_Encode M_I1 M_Fifo M_VBits M_I3 M_Fix M_Markers M_Beta
  P_Encode P_Run P_Live P_Fix Props_Arith Props_Core Props_Beta M_Width Props_Width Props_B40 M_Top Props_Top Props_FullAxi M_Lvds.
Ltac Zify.zify_post_hook ::= idtac.

(* ---------- SPECIFICATION ---------- *)

(* What one frame adds to the 40-bit output when the sink is always ready.  ws: the 16-bit words of the frame as the core
   handed them over.  o: the two buffers of the converter are out of phase when the frame begins; o': when it ends.
   In phase: the bytes of the words, five at a time; the bytes that do not fill a 40-bit word are dropped.
   Out of phase: the same, but with a spurious word g in front (top byte: the low byte of the third word). *)
Definition ends_out_of_phase (ws : list Z) : bool := (3 <=? length ws mod 5)%nat.
Definition frame_rel (o : bool) (ws : list Z) (out : list Z) (o' : bool) : Prop :=
  (o = false /\ out = pack5 (bytes16 ws) /\ o' = ends_out_of_phase ws) \/
  (o = true /\ (3 <= length ws)%nat /\ o' = ends_out_of_phase ws /\ exists g, g / 2 ^ 32 = nth 2 ws 0 mod 256 /\ out = g :: pack5 (bytes16 ws)) \/
  (o = true /\ (length ws < 3)%nat /\ o' = true /\ out = []).
Inductive lvds_rel : list (list Z) -> list Z -> bool -> Prop :=
| lr_nil : lvds_rel [] [] false
| lr_snoc fs out o ws out' o' : lvds_rel fs out o -> frame_rel o ws out' o' -> lvds_rel (fs ++ [ws]) (out ++ out') o'.

(* ---------- the core is silent after a reset ---------- *)

(* n more cycles without an output word *)
Definition silent (n : nat) (s : bt_st) : Prop :=
  match n with O => True | S _ =>
  b_rst s = false /\ mk_fsm_st (b_mk s) = MK_IDLE /\
  (2 <= n -> f2_vout (b_f2 s) = false /\ f2_fsm_st (b_f2 s) = F2_NORMAL /\ f2_dval (b_f2 s) = false)%nat /\
  (3 <= n -> f1_vout (b_f1 s) = false /\ f1_dval (b_f1 s) = false)%nat /\
  (4 <= n -> vo_state (vb_out (s_vb (b_i3 s))) = VO_OUTPUT /\ vo_valid (vb_out (s_vb (b_i3 s))) = false)%nat /\
  (5 <= n -> vi_consum (vb_in (s_vb (b_i3 s))) = 0%Z /\ vi_end (vb_in (s_vb (b_i3 s))) = false)%nat /\
  (6 <= n -> vi_state (vb_in (s_vb (b_i3 s))) = VI_REGISTER \/ vi_state (vb_in (s_vb (b_i3 s))) = VI_INPUT)%nat /\
  (7 <= n -> vi_state (vb_in (s_vb (b_i3 s))) = VI_INPUT /\ vi_valid_buff (vb_in (s_vb (b_i3 s))) = false /\ vi_valid_reg (vb_in (s_vb (b_i3 s))) = false /\ n = 7)%nat
  end.
Lemma silent_reset i3 : s_vb i3 = vb_init -> silent 7 (bt_reset_with i3).
Proof.
  intros E. cbn [silent bt_reset_with b_rst b_mk b_f2 b_f1 b_i3]. rewrite E. refine (conj _ (conj _ (conj _ (conj _ (conj _ (conj _ (conj _ _)))))));
    intros; repeat split; try reflexivity. right. reflexivity.
Qed.
Lemma silent_valid n s i : (1 <= n)%nat -> silent n s -> mko_valid (bt_out s i) = false /\ mko_end (bt_out s i) = false.
Proof. destruct n; [lia|]. intros _ (_ & E & _). unfold bt_out, mk_comb. rewrite E. auto. Qed.
Lemma silent_step n s i : silent (S n) s -> silent n (bt_step beta_cfg (init_huff_table 12) s i).
Proof.
  intros H. destruct n as [|n]; [exact I|]. pose proof (silent_valid (S (S n)) s i ltac:(lia) H) as [V1 V2].
  destruct H as (H0 & H1 & H2 & H3 & H4 & H5 & H6 & H7). unfold bt_step. rewrite H0.
  destruct (H2 ltac:(lia)) as (F1 & F2 & F3). cbn [silent]. unfold bt_next. cbn [b_rst b_mk b_f2 b_f1 b_i3].
  refine (conj _ (conj _ (conj _ (conj _ (conj _ (conj _ (conj _ _))))))).
  - unfold ar_step. rewrite V2, H0, andb_false_r. reflexivity.
  - unfold mk_step. rewrite H1. cbn [mki_valid bt_mk_in]. rewrite F1. reflexivity.
  - intros K. destruct (H3 ltac:(lia)) as [G1 G2]. unfold fx_step. cbn [snd fst]. unfold f2_step. rewrite F2. unfold f2_normal, normal_logic, fx_in2. cbn [f2i_valid f2i_busy fst snd]. rewrite G1, F3, F1. cbn [nl_none nl_data nl_buf nl_cnt nl_end nl_busy nl_endr nl_next oget].
    destruct (fxi_busy _); cbn [negb andb orb f2_vout f2_fsm_st f2_dval]; rewrite ?if_same; repeat split; try reflexivity; destruct (f2_obusy (b_f2 s)); reflexivity.
  - intros K. destruct (H3 ltac:(lia)) as [G1 G2]. destruct (H4 ltac:(lia)) as [K1 K2]. unfold fx_step. cbn [fst]. unfold f1_step, fx_in1, bt_fx_in. cbn [f1i_valid f1i_data f1i_busy fxi_valid fxi_data fxi_end fst snd].
    unfold i3_valid_out. rewrite K2, G1, G2. destruct (f1_logic _) as [ld lc]. destruct (f2_obusy (b_f2 s)); cbn [negb f1_vout f1_dval]; auto.
  - intros K. destruct (H4 ltac:(lia)) as [K1 K2]. destruct (H5 ltac:(lia)) as [L1 L2]. unfold i3_step. destruct (i1_out _ _). cbn [s_vb]. unfold vb_step. cbn [vb_out].
    unfold vo_step, vo_dec, vo_ge, vo_le. rewrite K1, L1, L2, andb_false_r. cbn [orb]. change (outb beta_cfg <=? 0) with false. cbn [orb]. rewrite K1, K2. auto.
  - intros K. destruct (H4 ltac:(lia)) as [K1 K2]. destruct (H5 ltac:(lia)) as [L1 L2]. specialize (H6 ltac:(lia)). unfold i3_step. destruct (i1_out _ _). cbn [s_vb]. unfold vb_step. cbn [vb_in].
    assert (D : vo_dec beta_cfg (vb_out (s_vb (b_i3 s))) (vi_consum (vb_in (s_vb (b_i3 s)))) (vi_end (vb_in (s_vb (b_i3 s)))) (in_busy (bt_i3_in s i)) = false).
    { unfold vo_dec, vo_ge, vo_le. rewrite K1, L1, L2, andb_false_r. reflexivity. }
    rewrite D. unfold vi_step, vi_inc. destruct H6 as [H6|H6]; rewrite H6; cbn [orb vi_consum vi_end]; auto.
  - intros K. destruct (H7 ltac:(lia)) as (L1 & L2 & L3 & L4). unfold i3_step. destruct (i1_out _ _). cbn [s_vb]. unfold vb_step. cbn [vb_in]. unfold vi_step. rewrite L1, L2, L3. cbn [vi_state]. auto.
  - intros K. destruct (H7 ltac:(lia)) as (_ & _ & _ & L). lia.
Qed.

(* ---------- words, five at a time ---------- *)

Definition pw (ws : list Z) : list Z := pack5 (bytes16 ws).
Definition words16 (ws : list Z) : Prop := Forall (fun w => 0 <= w < 2 ^ 16) ws.
Lemma pw_pack40 ws : words16 ws -> pw ws = pack40 (map (fun w => (w, false)) ws).
Proof.
  intros H. rewrite pack40_bytes.
  - rewrite map_map, map_id. reflexivity.
  - rewrite Forall_map. exact H.
  - rewrite Forall_map. apply Forall_forall. reflexivity.
Qed.
Lemma pw_app A5 part : words16 (A5 ++ part) -> mult5 A5 -> pw (A5 ++ part) = pw A5 ++ pack40 (map (fun w => (w, false)) part).
Proof.
  intros H M. rewrite pw_pack40 by exact H. apply Forall_app in H. destruct H as [H1 H2]. rewrite (pw_pack40 A5 H1).
  rewrite map_app. apply pack40_app. unfold mult5 in *. rewrite map_length. exact M.
Qed.
Lemma mod5_app {T} (A5 part : list T) : mult5 A5 -> (length part < 5)%nat -> (length (A5 ++ part) mod 5 = length part)%nat.
Proof.
  unfold mult5. intros M L. rewrite app_length. apply Nat.div_exact in M; [|lia]. rewrite M, Nat.add_comm, Nat.mul_comm, Nat.mod_add by lia. apply Nat.mod_small, L.
Qed.
Lemma mult5_nil_or {T} (A5 : list T) : mult5 A5 -> A5 = [] \/ (5 <= length A5)%nat.
Proof. unfold mult5. intros M. destruct A5 as [|x A5]; [auto|]. right. apply Nat.div_exact in M; [|lia]. cbn [length] in *. destruct (S (length A5) / 5)%nat; lia. Qed.

Lemma lvds_snoc_inv fs ws out o : lvds_rel (fs ++ [ws]) out o -> exists b o1 f, out = b ++ f /\ lvds_rel fs b o1 /\ frame_rel o1 ws f o.
Proof.
  intros H. remember (fs ++ [ws]) as l eqn:E. destruct H as [|fs' b o1 ws' f o' H1 H2]; [destruct fs; discriminate|].
  apply app_inj_tail in E. destruct E as [-> ->]. exists b, o1, f. auto.
Qed.
(* a word that does not complete a 40-bit word *)
Lemma ext_none fs A5 part w out o : mult5 A5 -> words16 (A5 ++ part ++ [w]) -> length part = 0%nat \/ length part = 1%nat \/ length part = 3%nat ->
  lvds_rel (fs ++ [A5 ++ part]) out o -> lvds_rel (fs ++ [A5 ++ part ++ [w]]) out o.
Proof.
  intros M R L H. apply lvds_snoc_inv in H. destruct H as (b & o1 & f & -> & H1 & H2). apply (lr_snoc _ _ o1); [exact H1|].
  assert (R1 : words16 (A5 ++ part)) by (rewrite app_assoc in R; apply Forall_app in R; apply R).
  assert (E1 : pw (A5 ++ part ++ [w]) = pw (A5 ++ part)).
  { rewrite !pw_app by assumption. f_equal. destruct part as [|a [|b' [|c [|d part]]]]; cbn [length] in L; try lia; reflexivity. }
  assert (E2 : ends_out_of_phase (A5 ++ part ++ [w]) = ends_out_of_phase (A5 ++ part)).
  { unfold ends_out_of_phase. rewrite !mod5_app by (try exact M; rewrite ?app_length; cbn [length]; lia). rewrite app_length. cbn [length]. destruct L as [->|[->| ->]]; reflexivity. }
  unfold frame_rel in *. fold (pw (A5 ++ part ++ [w])). fold (pw (A5 ++ part)) in H2. rewrite E1, E2.
  destruct H2 as [H2|[(-> & L3 & -> & g & G1 & G2)|(-> & L3 & -> & ->)]]; [left; exact H2| |].
  - right. left. refine (conj eq_refl (conj _ (conj eq_refl _))); [rewrite app_length in L3 |- *; rewrite app_length; lia|].
    exists g. split; [|exact G2]. rewrite G1. rewrite app_assoc. rewrite (app_nth1 (A5 ++ part)) by lia. reflexivity.
  - right. right. refine (conj eq_refl (conj _ (conj eq_refl eq_refl))). rewrite app_length in L3 |- *. rewrite app_length. cbn [length].
    destruct (mult5_nil_or A5 M) as [->|M5]; [cbn [length] in *|]; lia.
Qed.
(* the third word of a group *)
Lemma ext_third fs A5 a b c out o : mult5 A5 -> words16 (A5 ++ [a; b; c]) ->
  lvds_rel (fs ++ [A5 ++ [a; b]]) out o ->
  let W := a * 2 ^ 24 + b * 2 ^ 8 + c / 256 in
  if o then forall g, g / 2 ^ 32 = c mod 256 -> lvds_rel (fs ++ [A5 ++ [a; b; c]]) (out ++ [g; W]) true
  else lvds_rel (fs ++ [A5 ++ [a; b; c]]) (out ++ [W]) true.
Proof.
  intros M R H W. apply lvds_snoc_inv in H. destruct H as (bb & o1 & f & -> & H1 & H2).
  assert (R1 : words16 (A5 ++ [a; b])) by (change [a; b; c] with ([a; b] ++ [c]) in R; rewrite app_assoc in R; apply Forall_app in R; apply R).
  assert (E1 : pw (A5 ++ [a; b; c]) = pw (A5 ++ [a; b]) ++ [W]) by (rewrite !pw_app by assumption; cbn [map pack40 fst]; rewrite app_nil_r; reflexivity).
  assert (E2 : ends_out_of_phase (A5 ++ [a; b]) = false) by (unfold ends_out_of_phase; rewrite mod5_app by (try exact M; cbn; lia); reflexivity).
  assert (E3 : ends_out_of_phase (A5 ++ [a; b; c]) = true) by (unfold ends_out_of_phase; rewrite mod5_app by (try exact M; cbn; lia); reflexivity).
  unfold frame_rel in H2. fold (pw (A5 ++ [a; b])) in H2. rewrite E2 in H2.
  destruct H2 as [(-> & -> & ->)|[(-> & L3 & -> & g & G1 & ->)|(-> & L3 & -> & ->)]].
  - rewrite <- app_assoc. apply (lr_snoc _ _ false); [exact H1|]. left. fold (pw (A5 ++ [a; b; c])). rewrite E1, E3. auto.
  - rewrite <- app_assoc. apply (lr_snoc _ _ true); [exact H1|]. right. left. fold (pw (A5 ++ [a; b; c])). rewrite E1, E3.
    refine (conj eq_refl (conj _ (conj eq_refl _))); [rewrite app_length in *; cbn [length] in *; lia|]. exists g. split; [|reflexivity].
    rewrite G1. change [a; b; c] with ([a; b] ++ [c]). rewrite (app_assoc A5), (app_nth1 (A5 ++ [a; b])) by exact L3. reflexivity.
  - intros g G. rewrite app_nil_r. apply (lr_snoc _ _ true); [exact H1|]. right. left. fold (pw (A5 ++ [a; b; c])). rewrite E1, E3.
    destruct (mult5_nil_or A5 M) as [->|M5]; [|rewrite app_length in L3; cbn [length] in L3; lia].
    refine (conj eq_refl (conj _ (conj eq_refl _))); [cbn; lia|]. exists g. split; [exact G|]. reflexivity.
Qed.
(* the fifth word of a group *)
Lemma ext_fifth fs A5 a b c d e out o : mult5 A5 -> words16 (A5 ++ [a; b; c; d; e]) ->
  lvds_rel (fs ++ [A5 ++ [a; b; c; d]]) out o ->
  let W := c mod 256 * 2 ^ 32 + d * 2 ^ 16 + e in lvds_rel (fs ++ [A5 ++ [a; b; c; d; e]]) (out ++ [W]) false.
Proof.
  intros M R H W. apply lvds_snoc_inv in H. destruct H as (bb & o1 & f & -> & H1 & H2).
  assert (R1 : words16 (A5 ++ [a; b; c; d])) by (change [a; b; c; d; e] with ([a; b; c; d] ++ [e]) in R; rewrite app_assoc in R; apply Forall_app in R; apply R).
  assert (E1 : pw (A5 ++ [a; b; c; d; e]) = pw (A5 ++ [a; b; c; d]) ++ [W]) by (rewrite !pw_app by assumption; cbn [map pack40 fst]; rewrite <- app_assoc; reflexivity).
  assert (E3 : ends_out_of_phase (A5 ++ [a; b; c; d; e]) = false).
  { unfold ends_out_of_phase. pose proof (mult5_add A5 a b c d e M) as M'. unfold mult5 in M'. rewrite M'. reflexivity. }
  rewrite <- app_assoc. apply (lr_snoc _ _ o1); [exact H1|]. unfold frame_rel in *. fold (pw (A5 ++ [a; b; c; d; e])). fold (pw (A5 ++ [a; b; c; d])) in H2. rewrite E1, E3.
  destruct H2 as [(-> & -> & ->)|[(-> & L3 & -> & g & G1 & ->)|(-> & L3 & -> & ->)]].
  - left. auto.
  - right. left. refine (conj eq_refl (conj _ (conj eq_refl _))); [rewrite app_length in *; cbn [length] in *; lia|]. exists g. split; [|reflexivity].
    rewrite G1. change [a; b; c; d; e] with ([a; b; c; d] ++ [e]). rewrite (app_assoc A5), (app_nth1 (A5 ++ [a; b; c; d])) by (rewrite app_length; cbn [length]; lia). reflexivity.
  - exfalso. rewrite app_length in L3. cbn [length] in L3. lia.
Qed.
Lemma ext_close fs out o : lvds_rel fs out o -> lvds_rel (fs ++ [[]]) out o.
Proof.
  intros H. rewrite <- (app_nil_r out). apply (lr_snoc _ _ o); [exact H|]. destruct o; [right; right; cbn; repeat split; lia|left; auto].
Qed.

(* ---------- the converter with an always ready sink, across resets of its FSM ---------- *)

Definition held_ok (p : p40_st) (H : list Z) : Prop :=
  match p40_v1 p, p40_v2 p, p40_chs p with
  | false, false, _ => H = []
  | true, false, false => H = [tri_word1 (p40_b1 p)]
  | true, true, false => H = [tri_word1 (p40_b1 p); tri_word2 (p40_b2 p)]
  | false, true, true => H = [tri_word2 (p40_b2 p)]
  | true, false, true => exists g, g / 2 ^ 32 = t2 (p40_b2 p) /\ H = [g; tri_word1 (p40_b1 p)]
  | _, _, _ => False
  end.
Definition phase (p : p40_st) : bool := if p40_v2 p then false else if p40_v1 p then true else p40_chs p.
Definition rng2 (p : p40_st) : Prop := 0 <= t1 (p40_b2 p) < 2 ^ 16 /\ 0 <= t0 (p40_b2 p) < 2 ^ 16.
Definition part5 (p : p40_st) (part : list Z) : Prop :=
  match p40_fsm_st p with
  | P40_1I | P40_1F1 => part = []
  | P40_1F2 => part = [t2 (p40_b1 p)]
  | P40_1F3 => part = [t2 (p40_b1 p); t1 (p40_b1 p)]
  | P40_2I => False
  | P40_2F1 => exists a b c, part = [a; b; c] /\ t2 (p40_b2 p) = c mod 256
  | P40_2F2 => exists a b c, part = [a; b; c; t1 (p40_b2 p)] /\ t2 (p40_b2 p) = c mod 256
  end.
Definition shape (p : p40_st) : Prop :=
  match p40_fsm_st p with
  | P40_1I => match p40_v1 p, p40_v2 p, p40_chs p with
              | false, false, _ => p40_valid p = false
              | false, true, true => True
              | true, _, false => True
              | true, false, true => True
              | _, _, _ => False
              end
  | P40_1F1 => p40_v1 p = false /\ p40_busy p = false /\ (if p40_v2 p then p40_chs p = true else p40_valid p = false)
  | P40_1F2 => p40_v1 p = false /\ p40_busy p = false /\ (if p40_v2 p then p40_chs p = true /\ p40_valid p = true else p40_valid p = false)
  | P40_1F3 => p40_v1 p = false /\ p40_busy p = false /\ p40_v2 p = false /\ p40_valid p = false
  | P40_2I => False
  | P40_2F1 => p40_v2 p = false /\ p40_busy p = false /\ (if p40_v1 p then True else p40_chs p = true /\ p40_valid p = false)
  | P40_2F2 => p40_v2 p = false /\ p40_busy p = false /\ (if p40_v1 p then (p40_chs p = true -> p40_valid p = true) else p40_chs p = true /\ p40_valid p = false)
  end.
Definition lvp (fs : list (list Z)) (cur D : list Z) (p : p40_st) : Prop :=
  rng2 p /\ (exists A5 part, cur = A5 ++ part /\ mult5 A5 /\ part5 p part) /\ shape p /\
  (forall H, held_ok p H -> lvds_rel (fs ++ [cur]) (D ++ H) (phase p)).
(* cycles until the FSM has left BUFF1_IDLE *)
Definition need (p : p40_st) : nat :=
  if p40_v1 p then (if p40_chs p then (if p40_valid p then 4 else 5) else (if p40_valid p then 2 else 3)) else 1.

Definition acc16 (p : p40_st) (i : pk_in) : list Z := if pi_valid i && negb (p40_busy p) then [pi_data i] else [].
Ltac lv_ext := try match goal with
    | HM : mult5 ?A5, HW : words16 _ |- lvds_rel (?fs ++ [?A5 ++ [?x]]) _ _ => apply (ext_none fs A5 [] x); [exact HM|exact HW|cbn; lia|rewrite app_nil_r]
    | HM : mult5 ?A5, HW : words16 (?A5 ++ [?y; ?x]) |- lvds_rel (?fs ++ [?A5 ++ [?y; ?x]]) _ _ => apply (ext_none fs A5 [y] x); [exact HM|exact HW|cbn; lia|]
    | HM : mult5 ?A5, HW : words16 (?A5 ++ [?y; ?z; ?u; ?x]) |- lvds_rel (?fs ++ [?A5 ++ [?y; ?z; ?u; ?x]]) _ _ => apply (ext_none fs A5 [y; z; u] x); [exact HM|exact HW|cbn; lia|]
    | HM : mult5 ?A5, HW : words16 (?A5 ++ [?y; ?z; ?x]) |- lvds_rel (?fs ++ [?A5 ++ [?y; ?z; ?x]]) (?D ++ [?g; ?w]) _ => apply (ext_third fs A5 y z x D true HM HW); [|assumption]
    | HM : mult5 ?A5, HW : words16 (?A5 ++ [?y; ?z; ?x]) |- lvds_rel (?fs ++ [?A5 ++ [?y; ?z; ?x]]) (?D ++ [?w]) _ => apply (ext_third fs A5 y z x D false HM HW)
    | HM : mult5 ?A5, HW : words16 (?A5 ++ [?y; ?z; ?u; ?v; ?x]), HP : t2 _ = _ |- lvds_rel (?fs ++ [?A5 ++ [?y; ?z; ?u; ?v; ?x]]) (?D ++ [?g; ?w1; ?w2]) _ =>
        change [g; w1; w2] with ([g; w1] ++ [w2]); rewrite (app_assoc D); unfold tri_word2 at 2; cbn [t2 t1 t0]; rewrite HP; apply (ext_fifth fs A5 y z u v x (D ++ [g; w1]) true HM HW)
    | HM : mult5 ?A5, HW : words16 (?A5 ++ [?y; ?z; ?u; ?v; ?x]), HP : t2 _ = _ |- lvds_rel (?fs ++ [?A5 ++ [?y; ?z; ?u; ?v; ?x]]) (?D ++ [?w1; ?w2]) _ =>
        change [w1; w2] with ([w1] ++ [w2]); rewrite (app_assoc D); unfold tri_word2; cbn [t2 t1 t0]; rewrite HP; apply (ext_fifth fs A5 y z u v x (D ++ [w1]) true HM HW)
    | HM : mult5 ?A5, HW : words16 (?A5 ++ [?y; ?z; ?u; ?v; ?x]), HP : t2 _ = _ |- lvds_rel (?fs ++ [?A5 ++ [?y; ?z; ?u; ?v; ?x]]) (?D ++ [?w2]) _ =>
        unfold tri_word2; cbn [t2 t1 t0]; rewrite HP; apply (ext_fifth fs A5 y z u v x D true HM HW)
    end.
Lemma lvp_step fs cur D p i : pi_busy i = false -> in16 i -> words16 (cur ++ acc16 p i) -> lvp fs cur D p ->
  (p40_fsm_st p = P40_1I -> p40_busy p = false -> pi_valid i = false) ->
  lvp fs (cur ++ acc16 p i) (D ++ p40_del p i) (p40_step p i).
Proof.
  intros Hb Hi HW (HR & (A5 & part & HA & HM & HP) & HS & HG) HI.
  destruct p as [fsm b1 v1 b2 v2 chs temp valid busy]. destruct i as [iv id ie ib]. unfold in16 in Hi. cbn in Hb, Hi. subst ib cur.
  assert (T : trunc 16 id = id) by (unfold trunc; apply Z.mod_small; exact Hi).
  unfold lvp, rng2, part5, shape, held_ok, phase, acc16, p40_del, p40_step, p40_data in *.
  cbn [p40_fsm_st p40_b1 p40_v1 p40_b2 p40_v2 p40_chs p40_temp p40_valid p40_busy pi_valid pi_data pi_busy] in *. rewrite T in *. clear T.
  assert (S8 : slice 8 16 id = id / 256) by (apply slice_top; exact Hi). assert (S0 : slice 0 8 id = id mod 256) by (rewrite carry_f; reflexivity). rewrite S8, S0 in *. clear S8 S0.
  assert (G2 : tri_word2 b2 / 2 ^ 32 = t2 b2).
  { unfold tri_word2. replace (t2 b2 * 2 ^ 32 + t1 b2 * 2 ^ 16 + t0 b2) with (t1 b2 * 2 ^ 16 + t0 b2 + t2 b2 * 2 ^ 32) by ring. destruct HR. rewrite Z.div_add, Z.div_small by lia. apply Z.add_0_l. }
  assert (HX : forall H, D ++ H = (D ++ []) ++ H) by (intros; rewrite app_nil_r; reflexivity).
  assert (HY : forall x H, D ++ x :: H = (D ++ [x]) ++ H) by (intros; rewrite <- app_assoc; reflexivity).
  destruct fsm, v1, v2, chs, valid; cbn [negb andb orb] in *; try contradiction;
    repeat match type of HS with _ /\ _ => destruct HS as [? HS] end; try discriminate; try (specialize (HS eq_refl); discriminate); subst;
    destruct iv; try (destruct busy; [|specialize (HI eq_refl eq_refl); discriminate]); cbn [negb andb orb] in *.
  all: repeat match type of HP with exists _, _ => destruct HP as [? HP] | _ /\ _ => destruct HP as [? HP] end; subst.
  all: refine (conj _ (conj _ (conj _ _))); [cbn [t2 t1 t0]; try exact HR; destruct HR; split; assumption| | |].
  (* contents *)
  all: try match goal with |- exists _ _, _ => rewrite ?app_nil_r;
     first [exists A5; eexists; split; [rewrite <- ?app_assoc; reflexivity|]; split; [exact HM|]; cbn [t2 t1 t0]; repeat (eexists; try reflexivity); try assumption; fail
           |eexists; exists []; rewrite app_nil_r; split; [reflexivity|]; split; [rewrite <- app_assoc; apply mult5_add; exact HM|reflexivity]] end.
  all: try match goal with |- forall H, _ = _ -> _ => intros HH -> | |- forall H, (exists g, _) -> _ => intros HH (g & EG & ->) end; cbn [t2 t1 t0] in *.
  all: try (repeat split; try reflexivity; intros; try discriminate; reflexivity).
  all: try rewrite <- HY; rewrite ?app_nil_r in *; rewrite <- ?app_assoc in *; cbn [app] in *.
  all: try solve [exists A5, []; rewrite app_nil_r; auto].
  all: try solve [apply HG; reflexivity|rewrite <- (app_nil_r D); apply HG; reflexivity|apply HG; exists (tri_word2 b2); split; [exact G2|reflexivity]|apply HG; eexists; split; [eassumption|reflexivity]].
  all: lv_ext.
  all: try solve [apply HG; reflexivity|rewrite <- (app_nil_r D); apply HG; reflexivity|apply HG; exists (tri_word2 b2); split; [exact G2|reflexivity]|apply HG; eexists; split; [eassumption|reflexivity]].
Qed.

Lemma need_step p i : pi_busy i = false -> pi_valid i = false -> shape p -> p40_fsm_st p = P40_1I ->
  p40_fsm_st (p40_step p i) = P40_1I -> (need (p40_step p i) < need p)%nat.
Proof.
  intros Hb Hv HS HF. destruct p as [fsm b1 v1 b2 v2 chs temp valid busy]. destruct i as [iv id ie ib]. cbn in Hb, Hv, HF. subst.
  unfold shape in HS. cbn [p40_fsm_st p40_v1 p40_v2 p40_chs p40_valid] in HS. unfold need, p40_step. cbn [p40_fsm_st p40_v1 p40_v2 p40_chs p40_valid pi_valid pi_busy].
  destruct v1, v2, chs, valid; cbn; try contradiction; try discriminate; intros; lia.
Qed.
Lemma busy_step p i : p40_fsm_st p <> P40_1I -> p40_busy p = false -> p40_fsm_st (p40_step p i) = P40_1I -> p40_busy (p40_step p i) = true.
Proof.
  destruct p as [fsm b1 v1 b2 v2 chs temp valid busy]. destruct i as [iv id ie ib]. unfold p40_step. cbn [p40_fsm_st p40_busy p40_v1 p40_v2 pi_valid].
  destruct fsm, iv, v1, v2; cbn; intros; try discriminate; try congruence; contradiction.
Qed.
Lemma busy_idle p i : p40_fsm_st p = P40_1I -> p40_fsm_st (p40_step p i) = P40_1I -> p40_busy (p40_step p i) = p40_busy p.
Proof.
  destruct p as [fsm b1 v1 b2 v2 chs temp valid busy]. destruct i as [iv id ie ib]. unfold p40_step. cbn [p40_fsm_st p40_busy p40_v1 p40_v2 pi_valid]. intros ->. destruct v1; cbn; [reflexivity|discriminate].
Qed.
Lemma shape_busy p : shape p -> p40_fsm_st p <> P40_1I -> p40_busy p = false.
Proof. unfold shape. destruct (p40_fsm_st p); intros HS HN; try contradiction; apply HS. Qed.
Lemma lvp_reset fs cur D p : lvp fs cur D p -> lvp (fs ++ [cur]) [] D (p40_fsm_reset p).
Proof.
  intros (HR & _ & HS & HG). destruct p as [fsm b1 v1 b2 v2 chs temp valid busy]. unfold lvp, rng2, shape, held_ok, phase, part5, p40_fsm_reset in *. cbn [p40_fsm_st p40_b1 p40_v1 p40_b2 p40_v2 p40_chs p40_temp p40_valid p40_busy] in *.
  refine (conj HR (conj _ (conj _ _))); [exists [], []; repeat split| |intros H HH; apply ext_close, HG, HH].
  destruct fsm, v1, v2, chs; try exact I; try contradiction; repeat match type of HS with _ /\ _ => destruct HS as [? HS] end; try discriminate; assumption.
Qed.
Lemma need_le p : (need p <= 5)%nat.
Proof. unfold need. repeat match goal with |- context [if ?b then _ else _] => destruct b end; lia. Qed.

Definition lvI (fs : list (list Z)) (cur D : list Z) (s : lv_st) : Prop :=
  lvp fs cur D (lv_p40 s) /\ f2_words (b_f2 (lv_bt s)) /\ words16 cur /\
  (p40_fsm_st (lv_p40 s) = P40_1I -> p40_busy (lv_p40 s) = false -> exists q, (need (lv_p40 s) <= q)%nat /\ silent q (lv_bt s)).
Lemma need_pos p : (1 <= need p)%nat.
Proof. unfold need. repeat match goal with |- context [if ?b then _ else _] => destruct b end; lia. Qed.
Lemma gave_acc s i : f2_words (b_f2 (lv_bt s)) -> acc16 (lv_p40 s) (lv_p40_in s i) = map fst (bt_gave (lv_bt s) (lv_bt_in s)) /\ words16 (acc16 (lv_p40 s) (lv_p40_in s i)).
Proof.
  intros HF. pose proof (bt_gave_words _ (lv_bt_in s) HF) as G. unfold acc16, lv_p40_in, bt_gave in *. cbn [pi_valid pi_data M_Beta.bi_busy lv_bt_in] in *.
  destruct (mko_valid (bt_out (lv_bt s) (lv_bt_in s)) && negb (p40_busy (lv_p40 s))); [|split; [reflexivity|constructor]].
  apply Forall_cons_iff in G. destruct G as [G _]. cbn [fst] in G. unfold word_ok in G. cbn [map fst]. unfold trunc. rewrite Z.mod_small by exact G. split; [reflexivity|]. constructor; [exact G|constructor].
Qed.
Lemma lvI_step R fs cur D s i : ts_mready i = true -> lvI fs cur D s ->
  let cur' := cur ++ map fst (bt_gave (lv_bt s) (lv_bt_in s)) in let D' := D ++ p40_del (lv_p40 s) (lv_p40_in s i) in
  if b_rst (lv_bt s) then lvI (fs ++ [cur']) [] D' (lv_step R s i) else lvI fs cur' D' (lv_step R s i).
Proof.
  intros Hr (HP & HF & HC & HQ) cur' D'. destruct (gave_acc s i HF) as [EA EW].
  assert (Hb : pi_busy (lv_p40_in s i) = false) by (cbn [lv_p40_in pi_busy]; rewrite Hr; reflexivity).
  assert (Hi : in16 (lv_p40_in s i)) by (unfold in16; cbn [lv_p40_in pi_data]; unfold trunc; apply Z.mod_pos_bound; lia).
  assert (Hv : p40_fsm_st (lv_p40 s) = P40_1I -> p40_busy (lv_p40 s) = false -> pi_valid (lv_p40_in s i) = false).
  { intros A B. destruct (HQ A B) as (q & Q1 & Q2). cbn [lv_p40_in pi_valid]. apply (silent_valid q); [pose proof (need_pos (lv_p40 s)); lia|exact Q2]. }
  assert (HW : words16 (cur ++ acc16 (lv_p40 s) (lv_p40_in s i))) by (apply Forall_app; auto).
  pose proof (lvp_step fs cur D (lv_p40 s) (lv_p40_in s i) Hb Hi HW HP Hv) as N. rewrite EA in N, HW. fold cur' in N, HW. fold D' in N.
  assert (HF' : f2_words (b_f2 (lv_bt (lv_step R s i)))) by (cbn [lv_step lv_bt]; apply bt_step_words, HF).
  destruct (b_rst (lv_bt s)) eqn:Er.
  - unfold lvI. split; [cbn [lv_step lv_p40]; rewrite Er; apply lvp_reset, N|]. split; [exact HF'|]. split; [constructor|].
    intros _ _. exists 7%nat. split; [pose proof (need_le (lv_p40 (lv_step R s i))); lia|]. cbn [lv_step lv_bt]. unfold bt_step. rewrite Er. apply silent_reset. reflexivity.
  - unfold lvI. split; [cbn [lv_step lv_p40]; rewrite Er; exact N|]. split; [exact HF'|]. split; [exact HW|].
    cbn [lv_step lv_p40 lv_bt]. rewrite Er. intros A B. destruct HP as (_ & _ & HS & _).
    assert (F : p40_fsm_st (lv_p40 s) = P40_1I).
    { destruct (p40_fsm_st (lv_p40 s)) eqn:E; [reflexivity|exfalso..]; rewrite busy_step in B; try discriminate; try (rewrite E; discriminate); try exact A; apply shape_busy; try exact HS; rewrite E; discriminate. }
    rewrite busy_idle in B by assumption. destruct (HQ F B) as (q & Q1 & Q2). destruct q as [|q]; [pose proof (need_pos (lv_p40 s)); lia|].
    exists q. split; [pose proof (need_step _ _ Hb (Hv F B) HS F A); lia|]. apply silent_step, Q2.
Qed.
Lemma held_exists p : shape p -> exists H, held_ok p H /\ (length H <= 2)%nat.
Proof.
  unfold shape, held_ok. intros HS.
  destruct (p40_v1 p), (p40_v2 p), (p40_chs p); try (eexists; split; [reflexivity|cbn; lia]);
    try (destruct (p40_fsm_st p); repeat match type of HS with _ /\ _ => destruct HS as [? HS] end; try discriminate; contradiction).
  eexists. split; [exists (t2 (p40_b2 p) * 2 ^ 32); split; [apply Z.div_mul; discriminate|reflexivity]|cbn; lia].
Qed.
Definition frame_words (log : list (list (list Z) * list (Z * bool))) : list (list Z) := map (fun x => map fst (snd x)) log.
Lemma lv_log_rel R : forall l fs A O D s, lvI fs (map fst O) D s -> Forall (fun i => ts_mready i = true) l ->
  exists held o, lvds_rel (fs ++ frame_words (lv_log R A O s l)) (D ++ lv_delivered R s l ++ held) o /\ (length held <= 2)%nat.
Proof.
  induction l as [|i l IH]; intros fs A O D s HI HF.
  - destruct HI as ((_ & _ & HS & HG) & _). destruct (held_exists _ HS) as (H & H1 & H2). exists H, (phase (lv_p40 s)). split; [apply HG, H1|exact H2].
  - apply Forall_cons_iff in HF. destruct HF as [Hr HF]. pose proof (lvI_step R fs (map fst O) D s i Hr HI) as N. cbv zeta in N. cbn [lv_log lv_delivered]. rewrite <- map_app in N.
    destruct (b_rst (lv_bt s)).
    + destruct (IH _ [] [] _ _ N HF) as (held & o & H1 & H2). exists held, o. split; [|exact H2]. cbn [frame_words map fst snd] in *. rewrite <- ?app_assoc in H1. rewrite <- ?app_assoc. exact H1.
    + destruct (IH _ (A ++ bt_took (lv_bt s) (lv_bt_in s)) _ _ _ N HF) as (held & o & H1 & H2). exists held, o. split; [|exact H2]. cbn [frame_words map fst snd] in *. rewrite <- ?app_assoc in H1. rewrite <- ?app_assoc. exact H1.
Qed.
Lemma lvI_init : lvI [] [] [] lv_init.
Proof.
  refine (conj (conj _ (conj _ (conj _ _))) (conj _ (conj _ _))).
  - split; cbn; lia.
  - exists [], []. repeat split.
  - reflexivity.
  - intros H E. cbn in E. subst H. apply (lr_snoc [] [] false [] []); [apply lr_nil|]. left. auto.
  - repeat split; cbn; lia.
  - constructor.
  - intros _ _. exists 7%nat. split; [cbn; lia|]. apply silent_reset. reflexivity.
Qed.

(* C53.  For every input stream, any register constants R, and a sink that is always ready: the 40-bit words delivered
   since power-on (and at most two still inside) are the frames one after the other as frame_rel describes:
   each frame loses the bytes that do not fill a 40-bit word, and a frame that follows one
   with 3 or 4 words left over (modulo 5) is preceded by a spurious word. *)
Theorem C53_ready_sink : forall R l, Forall (fun i => ts_mready i = true) l ->
  let log := lv_log R [] [] lv_init l in
  exists held o, lvds_rel (frame_words log) (lv_delivered R lv_init l ++ held) o /\ (length held <= 2)%nat.
Proof. intros R l HF log. exact (lv_log_rel R l [] [] [] [] lv_init lvI_init HF). Qed.

(* ---------- the frames themselves ---------- *)

Notation M12 := (init_huff_table 12) (only parsing).
Fixpoint lv_sched (R : rf_st) (s : lv_st) (l : list ts_in) : list (bool * list Z * bool) :=
  match l with [] => [] | i :: r => (s24_valid (lv_s24 s), tp24 (s24_data (lv_s24 s)), p40_busy (lv_p40 s)) :: lv_sched R (lv_step R s i) r end.
Lemma lv_log_core : forall l A O s, lv_rf s = rf_init \/ lv_rf s = M_FullAxi.rf_shipped ->
  lv_log M_FullAxi.rf_shipped A O s l = bt_log beta_cfg M12 A O (lv_bt s) (bt_rf_ins (lv_rf s) (lv_sched M_FullAxi.rf_shipped s l)).
Proof.
  induction l as [|i l IH]; intros A O s HR; [reflexivity|]. cbn [lv_log lv_sched]. rewrite bt_rf_ins_cons. cbn [bt_log].
  change (rf_bt (lv_rf s) (s24_valid (lv_s24 s), tp24 (s24_data (lv_s24 s)), p40_busy (lv_p40 s))) with (lv_bt_in s).
  rewrite !IH by (right; reflexivity). cbn [lv_step lv_bt lv_rf]. change (rf_step (lv_rf s)) with M_FullAxi.rf_shipped. reflexivity.
Qed.
(* C53.  In the shipped design (any source, any sink), the words the core hands over in a finished frame decode to exactly the
   samples it took, or are flagged as cut short. *)
Theorem C53_frames : forall l k A O, finished (lv_log M_FullAxi.rf_shipped [] [] lv_init l) k A O -> lossless_or_flagged A O.
Proof.
  intros l k A O [H1 H2]. rewrite (lv_log_core l [] [] lv_init (or_introl eq_refl)) in H1, H2.
  refine (C25_shipped _ (i3_init beta_cfg) _ _ k A O H1 H2).
  - apply is_reset_init; reflexivity.
  - clear. generalize lv_init as s. induction l as [|i l IH]; intros s x []; [subst x; apply tp24_ok|eapply IH; eassumption].
Qed.

(* the slave side of the wire: (s_tvalid, s_tdata, s_tready) *)
Fixpoint lv_wire (R : rf_st) (s : lv_st) (l : list ts_in) : list (bool * Z * bool) :=
  match l with [] => [] | i :: r => (ts_valid i, ts_data i, negb (s24_busy (lv_s24 s))) :: lv_wire R (lv_step R s i) r end.
Fixpoint lv_pks (R : rf_st) (s : lv_st) (l : list ts_in) : list pk_in :=
  match l with [] => [] | i :: r => t64_pk (lv_bt s) i :: lv_pks R (lv_step R s i) r end.
Lemma lv_wire_facts R : forall l s off,
  (stream_ok off (lv_wire R s l) -> src_ok (lv_s24 s) off (lv_pks R s l)) /\
  pending off (lv_wire R s l) = src_end (lv_s24 s) off (lv_pks R s l) /\
  taken (lv_wire R s l) = s24_accepted (lv_s24 s) (lv_pks R s l).
Proof.
  induction l as [|i l IH]; intros s off; [cbn; auto|]. cbn [lv_wire lv_pks stream_ok src_ok pending src_end s24_accepted].
  assert (N : src_next (lv_s24 s) (t64_pk (lv_bt s) i) = if ts_valid i && negb (negb (s24_busy (lv_s24 s))) then Some (ts_data i) else None) by (rewrite negb_involutive; reflexivity).
  rewrite N. destruct (IH (lv_step R s i) (if ts_valid i && negb (negb (s24_busy (lv_s24 s))) then Some (ts_data i) else None)) as (I1 & I2 & I3).
  split; [intros [H1 H2]; split; [exact H1|apply I1, H2]|]. split; [exact I2|]. unfold taken in *. cbn [flat_map]. rewrite I3. reflexivity.
Qed.
Lemma lv_groups R : forall l A O s, concat (map fst (lv_log R A O s l)) = A ++ map tp24 (s24_delivered (lv_s24 s) (lv_pks R s l)).
Proof.
  induction l as [|i l IH]; intros A O s; cbn [lv_log lv_pks s24_delivered]; [cbn; rewrite !app_nil_r; reflexivity|].
  assert (E : bt_took (lv_bt s) (lv_bt_in s) = map tp24 (s24_del (lv_s24 s) (t64_pk (lv_bt s) i))).
  { unfold bt_took, bt_accept, s24_del, t64_pk, lv_bt_in. cbn [M_Beta.bi_valid bi_px pi_busy]. destruct (s24_valid (lv_s24 s) && negb (bt_nready (lv_bt s))); reflexivity. }
  rewrite map_app. destruct (b_rst (lv_bt s)); [cbn [map concat fst]|]; rewrite IH, E; cbn [lv_step lv_s24 app]; rewrite <- ?app_assoc; reflexivity.
Qed.
(* C53.  Input side (any register constants, any sink, any number of frames): the samples the core took in all frames, followed by at
   most 6 in the width converter, are the 12-bit fields of the stream words transferred. *)
Theorem C53_samples : forall R l, Forall ts64 l -> let wire := lv_wire R lv_init l in stream_ok None wire ->
  let log := lv_log R [] [] lv_init l in
  exists now held, flat_map unpack64 (taken wire ++ now) = samples log ++ held /\ (length held <= 6)%nat /\
      (now = [] \/ exists w, now = [w] /\ pending None wire = Some w).
Proof.
  intros R l HF wire HS log. destruct (lv_wire_facts R l lv_init None) as (W1 & W2 & W3). fold wire in W1, W2, W3.
  assert (H64 : Forall in64 (lv_pks R lv_init l)).
  { clear - HF. revert HF. generalize lv_init as s. induction l as [|i l IH]; intros s HF; [constructor|]. apply Forall_cons_iff in HF. destruct HF. constructor; [assumption|apply IH; assumption]. }
  destruct (C38_splitting (lv_pks R lv_init l) H64 (W1 HS)) as (now & held & E & L & N).
  exists now, (flat_map tp24 held). split; [|split].
  - rewrite <- tp24_splits, W3. cbn [lv_init lv_s24]. rewrite E, flat_map_app. f_equal. rewrite samples_groups. unfold log. rewrite lv_groups. cbn [app].
    rewrite <- flat_map_concat_map. reflexivity.
  - rewrite (flat_map_len _ _ tp24 2) by reflexivity. lia.
  - destruct N as [N|(w & N1 & N2 & _)]; [left; exact N|right]. exists w. rewrite W2. auto.
Qed.

(* ---------- the first frame, any sink ---------- *)

Fixpoint lv_p40s (R : rf_st) (s : lv_st) (l : list ts_in) : list pk_in :=
  match l with [] => [] | i :: r => lv_p40_in s i :: lv_p40s R (lv_step R s i) r end.
Lemma lv_log_nonnil R : forall l A O s, lv_log R A O s l <> [].
Proof. induction l as [|j l IH]; intros A O s; cbn [lv_log]; [discriminate|]. destruct (b_rst (lv_bt s)); [discriminate|apply IH]. Qed.
Lemma lv_first R : forall l A O s, f2_words (b_f2 (lv_bt s)) -> length (lv_log R A O s l) = 1%nat ->
  frame_words (lv_log R A O s l) = [map fst O ++ p40_accepted (lv_p40 s) (lv_p40s R s l)] /\
  lv_delivered R s l = p40_delivered (lv_p40 s) (lv_p40s R s l).
Proof.
  induction l as [|i l IH]; intros A O s HF HL.
  - cbn. rewrite !app_nil_r. auto.
  - cbn [lv_log lv_delivered lv_p40s p40_accepted p40_delivered] in *. destruct (gave_acc s i HF) as [EA _].
    destruct (b_rst (lv_bt s)) eqn:Er.
    + exfalso. cbn [length] in HL. pose proof (lv_log_nonnil R l [] [] (lv_step R s i)) as N. destruct (lv_log R [] [] (lv_step R s i) l); [contradiction|discriminate].
    + assert (HF' : f2_words (b_f2 (lv_bt (lv_step R s i)))) by (cbn [lv_step lv_bt]; apply bt_step_words, HF).
      assert (EP : lv_p40 (lv_step R s i) = p40_step (lv_p40 s) (lv_p40_in s i)) by (cbn [lv_step lv_p40]; rewrite Er; reflexivity).
      destruct (IH _ _ _ HF' HL) as (I2 & I3). rewrite EP in I2, I3.
      rewrite I2, I3. split; [|reflexivity]. f_equal. rewrite map_app, <- app_assoc, <- EA. reflexivity.
Qed.
Lemma lv_p40s_16 R : forall l s, Forall in16 (lv_p40s R s l).
Proof. induction l as [|i l IH]; intros s; [constructor|]. constructor; [unfold in16; cbn [lv_p40_in pi_data]; unfold trunc; apply Z.mod_pos_bound; lia|apply IH]. Qed.
(* C53.  Until the first automatic reset, whatever the sink does (any register constants, any source), the words delivered (and at most two still
   inside) are the bytes of the words the core handed over, five at a time, except that the top byte of every
   second 40-bit word may be cut to its lowest bit (the b16_b40 defect of C37). *)
Theorem C53_first_frame : forall R l ws, frame_words (lv_log R [] [] lv_init l) = [ws] ->
  exists held, near (pack5 (bytes16 ws)) (lv_delivered R lv_init l ++ held) /\ (length held <= 2)%nat.
Proof.
  intros R l ws E.
  assert (L : length (lv_log R [] [] lv_init l) = 1%nat) by (apply (f_equal (@length _)) in E; unfold frame_words in E; rewrite map_length in E; exact E).
  assert (HF : f2_words (b_f2 (lv_bt lv_init))) by (repeat split; cbn; lia).
  destruct (lv_first R l [] [] lv_init HF L) as (E1 & E2). rewrite E in E1. injection E1 as ->. rewrite E2. apply C37_near; [apply lv_p40s_16|].
  destruct l as [|i l]; [exact I|]. cbn [lv_p40s first_idle lv_p40_in pi_valid].
  apply (silent_valid 7); [lia|]. apply silent_reset. reflexivity.
Qed.

(* ---------- concrete runs ---------- *)

Fixpoint stream_okb (off : option Z) (tr : list (bool * Z * bool)) : bool :=
  match tr with
  | [] => true
  | (v, d, rdy) :: r => match off with Some w => v && (d =? w) | None => true end && stream_okb (if v && negb rdy then Some d else None) r
  end.
Lemma stream_okb_ok : forall tr off, stream_okb off tr = true -> stream_ok off tr.
Proof.
  induction tr as [|[[v d] rdy] r IH]; intros off; cbn [stream_okb stream_ok]; [auto|]. rewrite andb_true_iff. intros [H1 H2]. split; [|apply IH, H2].
  destruct off as [w|]; [|exact I]. rewrite andb_true_iff, Z.eqb_eq in H1. exact H1.
Qed.
Lemma readyb_ok : forall l : list ts_in, forallb ts_mready l = true -> Forall (fun i => ts_mready i = true) l.
Proof. intros l H. apply Forall_forall. apply forallb_forall. exact H. Qed.
Lemma missing_ok : forall l m : list Z, forallb (fun w => negb (existsb (Z.eqb w) m)) l = true -> Forall (fun w => ~ In w m) l.
Proof.
  intros l m E. rewrite forallb_forall in E. apply Forall_forall. intros w Hw Hin. specialize (E w Hw). rewrite negb_true_iff in E.
  assert (T : existsb (Z.eqb w) m = true) by (apply existsb_exists; exists w; split; [exact Hin|apply Z.eqb_refl]). congruence.
Qed.

Definition ex_R : rf_st := {| rf_width := 4; rf_height := 2; rf_allowed := rf_allowed M_FullAxi.rf_shipped |}.
Definition ex_word (j : Z) : Z := ((j * j + 12) * 12 * 0x1234567890abcdef) mod 2 ^ 64.
(* a source that keeps a word until it is taken; sink k: the sink is ready in cycle k *)
Fixpoint ex_go (sink : nat -> bool) (s : lv_st) (j : Z) (k n : nat) : list ts_in :=
  match n with
  | O => []
  | S n => let i := {| ts_valid := true; ts_data := ex_word j; ts_mready := sink k |} in
           i :: ex_go sink (lv_step ex_R s i) (if s24_busy (lv_s24 s) then j else j + 1) (S k) n
  end.
Definition ex_run (sink : nat -> bool) (n : nat) : list ts_in := ex_go sink lv_init 0 0 n.
Lemma ex_run_64 sink n : Forall ts64 (ex_run sink n).
Proof.
  unfold ex_run. generalize lv_init as s, 0 as j, 0%nat as k. induction n as [|n IH]; intros s j k; [constructor|]. cbn [ex_go]. constructor; [|apply IH].
  unfold ts64. cbn [ts_data]. unfold ex_word. apply Z.mod_pos_bound. lia.
Qed.
Definition ex_frames (l : list ts_in) : list (list Z) := frame_words (lv_log ex_R [] [] lv_init l).
Definition ex_out (l : list ts_in) (k : nat) : list Z := pack5 (bytes16 (nth k (ex_frames l) [])).

(* frames of 4 x 2 samples, a sink that is always ready: the second and the third frame have 28 and 29 words (3 and 4 modulo 5), so the
   third and the fourth one come out with a spurious word in front *)
Definition ex_l1 : list ts_in := Eval vm_compute in ex_run (fun _ => true) 260.
Example C53_example_ready :
  Forall (fun i => ts_mready i = true) ex_l1 /\ Forall ts64 ex_l1 /\ stream_ok None (lv_wire ex_R lv_init ex_l1) /\
  map (@length Z) (ex_frames ex_l1) = [27; 28; 29; 27; 0]%nat /\
  exists g1 g2, lv_delivered ex_R lv_init ex_l1 = ex_out ex_l1 0 ++ ex_out ex_l1 1 ++ [g1] ++ ex_out ex_l1 2 ++ [g2] ++ ex_out ex_l1 3.
Proof.
  refine (conj _ (conj _ (conj _ (conj _ _)))).
  - apply readyb_ok. vm_compute. reflexivity.
  - replace ex_l1 with (ex_run (fun _ => true) 260) by (vm_compute; reflexivity). apply ex_run_64.
  - apply stream_okb_ok. vm_compute. reflexivity.
  - vm_compute. reflexivity.
  - do 2 eexists. vm_compute. reflexivity.
Qed.

(* C53.  The contents of a frame can be lost when the sink is not always ready: the sink stalls for 31 cycles around the end of the second
   frame, and the five 40-bit words with the data of the third frame (which is finished, with a fourth one after it) never come out,
   although the sink is ready from then on. *)
Definition ex_l2 : list ts_in := Eval vm_compute in ex_run (fun k => negb ((119 <=? k) && (k <? 150))%nat) 300.
Theorem C53_stalled_sink_loses : exists l ws,
  Forall ts64 l /\ stream_ok None (lv_wire ex_R lv_init l) /\ Forall (fun i => ts_mready i = true) (skipn 150 l) /\
  nth_error (ex_frames l) 2 = Some ws /\ length (ex_frames l) = 5%nat /\ length (pack5 (bytes16 ws)) = 11%nat /\
  Forall (fun w => ~ In w (lv_delivered ex_R lv_init l)) (firstn 5 (skipn 3 (pack5 (bytes16 ws)))).
Proof.
  exists ex_l2, (nth 2 (ex_frames ex_l2) []). refine (conj _ (conj _ (conj _ (conj _ (conj _ (conj _ _)))))).
  - replace ex_l2 with (ex_run (fun k => negb ((119 <=? k) && (k <? 150))%nat) 300) by (vm_compute; reflexivity). apply ex_run_64.
  - apply stream_okb_ok. vm_compute. reflexivity.
  - apply readyb_ok. vm_compute. reflexivity.
  - vm_compute. reflexivity.
  - vm_compute. reflexivity.
  - vm_compute. reflexivity.
  - apply missing_ok. vm_compute. reflexivity.
Qed.
