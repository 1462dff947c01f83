(* C77, continued: a bound that holds whatever the source does. *)
From Verif Require Import Bits Spec Spec_Core Spec_Rate Spec_Flush M_Config M_Signals M_Predictor M_Difference M_Encode M_Merge M_I1 M_Fifo M_Converter M_VBits M_I3
  P_Fifo P_Encode P_Merge P_Signals P_Predictor P_I1 P_Tokens P_Converter P_VBits P_I3 P_Decode P_Run P_Live P_Live2 P_LiveBound P_Rate P_Rate2 P_Rate3 P_Rate4 P_Rate5 P_Delay P_Drain
  Props_Arith Props_Core Props_Live Props_Rate P_Flush Props_Flush P_Flush2 P_Flush3 M_Beta M_Stream3 M_Micro.
Ltac Zify.zify_post_hook ::= idtac.

(* C77.  la: anything.  lb: the source goes on as it likes (offers pixels at any time or none), the sink is ready in flush_cycles cycles at least.  Then every word
   that the pixels accepted during la complete has been handed over, and these words are right.  flush_cycles depends on the configuration only. *)
Theorem C77_any_source : forall c t W H s0 la lb,
  cfg_ok c = true -> table_ok (bd c) t -> frame_ok c W H -> is_reset c s0 -> Forall (in_ok c W H) (la ++ lb) ->
  flush_cycles c <= ready_cycles lb ->
  let code := ref_encode t (bd c) W [] (concat (i3_accepted c (mem_of (bd c) t) s0 la)) in
  let out := i3_transfers c (mem_of (bd c) t) s0 (la ++ lb) in
  forall k : nat, Z.of_nat k * outb c <= Z.of_nat (length code) ->
  Z.of_nat k <= len (cut out) /\ firstn (k * Z.to_nat (outb c)) (stream (outb c) (map fst (cut out))) = firstn (k * Z.to_nat (outb c)) code.
Proof.
  intros c t W H s0 la lb Hc Ht Hf Hr HF Hn code out k Hk. set (mem := mem_of (bd c) t) in *. assert (Ho : 1 <= outb c) by (unfold cfg_ok in Hc; lia).
  destruct (frame_geom c W H Hc Hf) as [Hg HG4]. assert (HFa : Forall (in_ok c W H) la) by (apply Forall_app in HF; apply HF). assert (HFb : Forall (in_ok c W H) lb) by (apply Forall_app in HF; apply HF).
  destruct (run_from_reset c t W H s0 la Hc Ht Hf Hr (in_ok_run _ mem _ _ _ HFa s0)) as (P & hist & I). fold mem in I.
  destruct (run_from_reset c t W H s0 (la ++ lb) Hc Ht Hf Hr (in_ok_run _ mem _ _ _ HF s0)) as (P2 & hist2 & I2). fold mem in I2.
  assert (O : op_inv c (i3_run c mem s0 la)).
  { destruct Hr as (st1 & d1 & st2 & d2 & rps & L1 & L2 & L3 & Es). eapply (op_run c t W H (W / ps c)); try eassumption; [apply in_ok_run; exact HFa|rewrite Es; apply i3_inv_reset; assumption|]. apply op_reset. exists st1, d1, st2, d2, rps. auto. }
  set (A := i3_accepted c mem s0 la) in *. set (B := i3_accepted c mem (i3_run c mem s0 la) lb).
  assert (EA : i3_accepted c mem s0 (la ++ lb) = A ++ B) by apply accepted_app.
  set (x := ref_encode t (bd c) W ([] ++ concat A) (concat B)). assert (Ecode : ref_encode t (bd c) W [] (concat (A ++ B)) = code ++ x) by (rewrite concat_app, ref_encode_app; reflexivity).
  set (K := (k * Z.to_nat (outb c))%nat). assert (HK : (K <= length code)%nat) by (unfold K; nia).
  destruct (existsb snd out) eqn:Ee.
  - destruct (finished_run c t W H s0 (la ++ lb) Hc Ht Hf Hr (in_ok_run _ _ _ _ _ HF _)) as (_ & _ & _ & pad & Hp & ES); [exact Ee|].
    fold mem out in ES. rewrite EA, Ecode in ES. split.
    + apply (f_equal (@length bool)) in ES. rewrite !app_length in ES. pose proof (stream_len (outb c) ltac:(lia) (map fst (cut out))) as SL. unfold len in *. rewrite map_length in SL. unfold K in HK. nia.
    + rewrite ES, <- app_assoc. apply firstn_prefix. exact HK.
  - destruct (C01_prefix c t W H s0 (la ++ lb) Hc Ht Hf Hr HF Ee) as [rest ER]. fold mem out in ER. rewrite EA, Ecode in ER.
    rewrite (cut_noend out Ee).
    assert (HE : Z.of_nat (length code) < outb c * len out + outb c).
    { destruct (busy_run c t W H Hc Ht Hg HG4 lb _ _ _ _ _ (in_ok_run _ mem _ _ _ HFb _) I O) as [X|[X|X]]; fold mem in X.
      - exfalso. unfold out in Ee. rewrite transfers_app, existsb_app, X, orb_true_r in Ee. discriminate.
      - fold A code in X. unfold out. rewrite transfers_app. exact X.
      - pose proof (stored_bits c t W H _ _ _ _ _ Hc Ht I2) as S. rewrite EA, Ecode, len_app in S. fold out in S.
        destruct (inv_pixels _ _ _ _ _ _ _ _ _ _ I2) as [R2 L2]. rewrite EA in R2, L2. rewrite concat_app in R2, L2. rewrite !len_app in L2. apply Forall_app in R2. destruct R2 as [R2 R3].
        destruct (inv_pixels _ _ _ _ _ _ _ _ _ _ I) as [_ L1].
        assert (Hbd : 2 <= bd c <= 16) by (unfold cfg_ok in Hc; lia).
        pose proof (ref_len_lo (bd c) t W Hbd Ht (concat B) ([] ++ concat A) R2 R3) as Lx. fold x in Lx.
        pose proof (om_bound _ _ _ _ _ _ _ _ _ _ Hc I) as OB. unfold ready_cycles in Hn. fold B in X.
        assert (Hfc : flush_cycles c = drain_cycles c + gcost c * (store_bits c / ps c + 1)) by reflexivity.
        assert (Hps : 1 <= ps c) by (unfold cfg_ok in Hc; lia).
        assert (Hgc : 1 <= gcost c). { unfold gcost, gw. assert (Hcv1 : 1 <= conv c) by apply (cfg_cv c Hc). assert (Hst : 1 <= cv_steps c) by (destruct (cfg_cv c Hc); unfold cv_steps; apply Z.div_le_lower_bound; lia). nia. }
        pose proof (len_nonneg B). assert (HB : store_bits c / ps c + 1 < len B) by nia.
        assert (HS : store_bits c < ps c * (store_bits c / ps c) + ps c) by (pose proof (Z.div_mod (store_bits c) (ps c) ltac:(lia)); pose proof (Z.mod_pos_bound (store_bits c) (ps c) ltac:(lia)); lia).
        change (Z.of_nat (length code)) with (len code). nia. }
    assert (Hl : Z.of_nat k <= len out) by nia.
    split; [exact Hl|]. assert (E2 : firstn K (code ++ x) = firstn K code) by (apply firstn_prefix; exact HK). rewrite <- E2, ER. symmetry. apply firstn_prefix.
    pose proof (stream_len (outb c) ltac:(lia) (map fst out)) as SL. unfold len in *. rewrite map_length in SL. unfold K. nia.
Qed.

(* the numbers for the three cores of the repository *)
Theorem C77_numbers : flush_cycles beta_cfg = 3932505 /\ flush_cycles s3_cfg = 2117536 /\ flush_cycles micro_cfg = 4439918.
Proof. repeat split; vm_compute; reflexivity. Qed.

(* a 64x48 frame of which the source has delivered a part after 100 cycles (words are complete inside: 40 more bits than have been handed over at least); then it
   offers a group in every third cycle, and the sink is ready in another one of three *)
Definition slow_in (v b : bool) (k : Z) : i3_in := {| in_valid := v; in_px := [k * 37 mod 4096; 4095 - k * 51 mod 4096]; in_busy := b; in_w := 64; in_h := 48 |}.
Definition slow_head : list i3_in := map (fun k => slow_in true (negb (Nat.eqb (Nat.modulo k 5) 1)) (Z.of_nat k)) (seq 0 100).
Definition slow_tail : list i3_in := concat (repeat [slow_in true true 11; slow_in false true 0; slow_in false false 0] (Z.to_nat (flush_cycles ex_cfg))).
Lemma slow_ok v b k : in_ok ex_cfg 64 48 (slow_in v b k).
Proof.
  intros _. split; [|split; reflexivity]. split; [reflexivity|]. unfold slow_in. cbn [in_px].
  assert (0 <= k * 37 mod 4096 < 4096) by (apply Z.mod_pos_bound; lia). assert (0 <= k * 51 mod 4096 < 4096) by (apply Z.mod_pos_bound; lia).
  constructor; [|constructor; [|constructor]]; unfold in_range; change (2 ^ bd ex_cfg) with 4096; lia.
Qed.
Example C77_example3 :
  cfg_ok ex_cfg = true /\ frame_ok ex_cfg 64 48 /\ is_reset ex_cfg (i3_init ex_cfg) /\ Forall (in_ok ex_cfg 64 48) (slow_head ++ slow_tail) /\ flush_cycles ex_cfg <= ready_cycles slow_tail /\
  (outb ex_cfg * len (i3_transfers ex_cfg (init_huff_table 12) (i3_init ex_cfg) slow_head) + 40 <=?
   len (ref_encode (std_table 12) 12 64 [] (concat (i3_accepted ex_cfg (init_huff_table 12) (i3_init ex_cfg) slow_head)))) = true.
Proof.
  split; [reflexivity|]. split; [repeat split; cbn; lia|]. split; [apply is_reset_init; reflexivity|].
  split. { apply Forall_app. split; [apply Forall_forall; intros i Hi; apply in_map_iff in Hi; destruct Hi as (k & <- & _); apply slow_ok|]. apply Forall_concat, Forall_forall. intros x Hx. apply repeat_spec in Hx. subst x. repeat (constructor; [apply slow_ok|]). constructor. }
  split; [|vm_compute; reflexivity].
  unfold slow_tail. set (D := flush_cycles ex_cfg). assert (HD : 0 <= D) by (vm_compute; discriminate). clearbody D.
  assert (E : forall l n, ready_cycles (concat (repeat l n)) = Z.of_nat n * ready_cycles l) by (intros l; induction n as [|n IH]; [reflexivity|]; cbn [repeat concat]; unfold ready_cycles in *; rewrite filter_app, len_app, IH; lia).
  rewrite E, Z2Nat.id by exact HD. replace (ready_cycles _) with 1 by reflexivity. lia.
Qed.
