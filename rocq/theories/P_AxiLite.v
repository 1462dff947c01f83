(* core_axi_lite refines its register bank. *)
From Verif Require Import Bits M_Encode M_AxiLite Spec_Axi.
Ltac Zify.zify_post_hook ::= idtac.

Definition r_pre (m : ms) : Prop := match m_rd m with RWait _ _ => False | _ => True end.
Definition w_pre (m : ms) : Prop :=
  match m_aw m with PDone _ => False | _ => True end /\ match m_wd m with PDone _ => False | _ => True end.

Definition al_bank (bd : Z) (s : al_st) : bank :=
  {| k_hw := al_hw s; k_allowed := al_allowed s;
     k_mem := if al_wp_en s then set_nth (Z.to_nat (trunc (clog2 (bd + 1)) (al_wp_addr s))) (al_wp_data s) (al_mem s) else al_mem s |}.

Definition bank_ok (bd : Z) (b : bank) : Prop :=
  0 <= k_hw b < 2 ^ 32 /\ 0 <= k_allowed b < 2 ^ 24 /\ length (k_mem b) = Z.to_nat (bd + 1) /\ Forall (fun x => 0 <= x < 2 ^ (bd + 21)) (k_mem b).

(* the address registers hold address a *)
Definition al_at (s : al_st) (a : Z) : Prop := 0 <= a /\ al_addr s = a / 4 /\ al_rp_addr s = trunc 5 (a / 8).
Definition al_at2 (bd : Z) (s : al_st) (a : Z) : Prop := al_at s a /\ al_raddr s = trunc (clog2 (bd + 1)) (trunc 5 (a / 8)).

(* the five handshake outputs *)
Definition al_hs (s : al_st) (ar rv aw w b : bool) : Prop :=
  al_arready s = ar /\ al_rvalid s = rv /\ al_awready s = aw /\ al_wready s = w /\ al_bvalid s = b.

Definition al_inv (bd : Z) (dbg : bool) (sn : list Z -> Prop) (m : ms) (B : bank) (s : al_st) : Prop :=
  match al_fsm_st s with
  | AL_IDLE =>
      al_wp_en s = false /\
      (al_hs s false false false false false /\ r_pre m /\ w_pre m /\ al_bank bd s = B \/
       al_hs s false true false false false /\ (exists a, m_rd m = RWait a true /\ bank_rd bd dbg sn B a (al_rdata s) (al_rresp s)) /\ w_pre m /\ al_bank bd s = B \/
       al_hs s false false false false true /\ r_pre m /\ exists a d st, m_aw m = PDone a /\ m_wd m = PDone (d, st) /\ m_b m = true /\
         al_bank bd s = fst (bank_wr bd dbg B a d st) /\ al_bresp s = snd (bank_wr bd dbg B a d st))
  | AL_READ_ADDRESS => al_wp_en s = false /\ al_bank bd s = B /\ al_hs s false false false false false /\ w_pre m /\ exists a k, m_rd m = RAddr a k
  | AL_READ_DATA_DELAY1 => al_wp_en s = false /\ al_bank bd s = B /\ al_hs s true false false false false /\ w_pre m /\ exists a k, m_rd m = RAddr a k /\ al_at s a
  | AL_READ_DATA_DELAY2 => al_wp_en s = false /\ al_bank bd s = B /\ al_hs s false false false false false /\ w_pre m /\ exists a k, m_rd m = RWait a k /\ al_at2 bd s a
  | AL_READ_DATA => al_wp_en s = false /\ al_bank bd s = B /\ al_hs s false false false false false /\ w_pre m /\ exists a k, m_rd m = RWait a k /\ al_at2 bd s a
  | AL_WRITE_ADDRESS => al_wp_en s = false /\ al_bank bd s = B /\ al_hs s false false false false false /\ r_pre m /\ w_pre m /\ exists a, m_aw m = PHeld a
  | AL_WRITE_DATA_DELAY1 => al_wp_en s = false /\ al_bank bd s = B /\ al_hs s false false true false false /\ r_pre m /\ w_pre m /\ exists a, m_aw m = PHeld a /\ al_at s a
  | AL_WRITE_DATA_DELAY2 => al_wp_en s = false /\ al_bank bd s = B /\ al_hs s false false false false false /\ r_pre m /\
      match m_wd m with PDone _ => False | _ => True end /\ exists a, m_aw m = PDone a /\ al_at2 bd s a
  | AL_WRITE_DATA => al_wp_en s = false /\ al_bank bd s = B /\ (exists w, al_hs s false false false w false) /\ r_pre m /\
      match m_wd m with PDone _ => False | _ => True end /\ exists a, m_aw m = PDone a /\ al_at2 bd s a
  | AL_WRITE_RESPONSE => exists w a d st, al_hs s false false false w false /\ r_pre m /\ m_aw m = PDone a /\
      (m_wd m = PDone (d, st) \/ m_wd m = PHeld (d, st) /\ w = true) /\
      al_bank bd s = fst (bank_wr bd dbg B a d st) /\ al_bresp s = snd (bank_wr bd dbg B a d st)
  end.

(* ---------- arithmetic ---------- *)

Lemma index_half a : 0 <= a -> trunc 5 (a / 8) = (a / 4) mod 64 / 2.
Proof.
  intros Ha. unfold trunc. change (2 ^ 5) with 32. replace (a / 8) with (a / 4 / 2) by (rewrite Z.div_div by lia; reflexivity).
  set (x := a / 4). pose proof (Z.div_mod x 64 ltac:(lia)). pose proof (Z.mod_pos_bound x 64 ltac:(lia)).
  pose proof (Z.div_mod (x mod 64) 2 ltac:(lia)). pose proof (Z.mod_pos_bound (x mod 64) 2 ltac:(lia)).
  symmetry. apply Z.mod_unique with (q := x / 64); [lia|]. symmetry. apply Z.div_unique with (r := (x mod 64) mod 2); lia.
Qed.

Lemma al_byte_range st old d i : 0 <= i -> 0 <= al_byte st old d i <= 255 * 2 ^ (8 * i).
Proof.
  intros Hi. unfold al_byte. pose proof (slice_range (8 * i) (8 * i + 8) d ltac:(lia)). pose proof (slice_range (8 * i) (8 * i + 8) old ltac:(lia)).
  replace (8 * i + 8 - 8 * i) with 8 in * by lia. change (2 ^ 8) with 256 in *. pose proof (pow2_pos (8 * i) ltac:(lia)). destruct (Z.testbit st i); nia.
Qed.
Lemma al_merge24_range st old d : 0 <= al_merge24 st old d < 2 ^ 24.
Proof.
  unfold al_merge24. pose proof (al_byte_range st old d 0 ltac:(lia)). pose proof (al_byte_range st old d 1 ltac:(lia)). pose proof (al_byte_range st old d 2 ltac:(lia)).
  change (2 ^ (8 * 0)) with 1 in *. change (2 ^ (8 * 1)) with 256 in *. change (2 ^ (8 * 2)) with 65536 in *. change (2 ^ 24) with 16777216. lia.
Qed.
Lemma al_merge_range st old d : 0 <= al_merge st old d < 2 ^ 32.
Proof.
  pose proof (al_merge24_range st old d). unfold al_merge24, al_merge in *. pose proof (al_byte_range st old d 3 ltac:(lia)).
  change (2 ^ (8 * 3)) with 16777216 in *. change (2 ^ 24) with 16777216 in *. change (2 ^ 32) with 4294967296. lia.
Qed.
Lemma al_merge_mod24 st old d : al_merge st old d mod 2 ^ 24 = al_merge24 st old d.
Proof.
  pose proof (al_merge24_range st old d). unfold al_merge. unfold al_merge24 in *.
  unfold al_byte at 4. change (8 * 3) with 24. rewrite Z.mod_add by (compute; discriminate). apply Z.mod_small. exact H.
Qed.
Lemma slice_mod lo hi n x : 0 <= lo -> lo <= hi -> hi <= n -> slice lo hi (x mod 2 ^ n) = slice lo hi x.
Proof.
  intros. unfold slice. rewrite <- (Z.land_ones x n) by lia.
  rewrite <- !Z.shiftr_div_pow2 by lia. rewrite <- !Z.land_ones by lia. apply Z.bits_inj'. intros k Hk.
  rewrite !Z.land_spec, !Z.shiftr_spec, Z.land_spec, !Z.testbit_ones_nonneg by lia.
  destruct (k <? hi - lo) eqn:E; [|rewrite !andb_false_r; reflexivity]. rewrite (proj2 (Z.ltb_lt (k + lo) n)) by lia. rewrite andb_true_r. reflexivity.
Qed.
Lemma al_merge_mod st old d : al_merge st (old mod 2 ^ 32) d = al_merge st old d.
Proof. unfold al_merge, al_byte. rewrite !(slice_mod _ _ 32) by lia. reflexivity. Qed.
Lemma al_merge_hi_eq st old : al_merge_hi st old = al_merge st (old / 2 ^ 32) 0 * 2 ^ 32.
Proof.
  unfold al_merge_hi, al_merge.
  assert (K : forall i, 0 <= i -> al_byte_hi st old i = al_byte st (old / 2 ^ 32) 0 i * 2 ^ 32).
  { intros i Hi. unfold al_byte_hi, al_byte. rewrite pow2_add by lia.
    assert (slice (8 * i) (8 * i + 8) 0 = 0) as -> by (unfold slice; rewrite Zdiv.Zdiv_0_l; reflexivity).
    assert (slice (32 + 8 * i) (32 + 8 * i + 8) old = slice (8 * i) (8 * i + 8) (old / 2 ^ 32)) as ->.
    { unfold slice. rewrite Z.div_div, <- pow2_add by (try apply pow2_pos; try (assert (0 < 2 ^ 32) by reflexivity); lia). do 2 f_equal. lia. }
    destruct (Z.testbit st i); ring. }
  rewrite !K by lia. ring.
Qed.

Lemma set_nth_length n v l : length (set_nth n v l) = length l.
Proof. revert n. induction l as [|x l IH]; intros [|n]; cbn; auto. Qed.
Lemma set_nth_Forall (P : Z -> Prop) n v l : P v -> Forall P l -> Forall P (set_nth n v l).
Proof. intros Hv HF. revert n. induction HF as [|x l Hx HF IH]; intros [|n]; cbn; constructor; auto. Qed.
Lemma nth_set_nth_same n v l : (n < length l)%nat -> nth n (set_nth n v l) 0 = v.
Proof. revert n. induction l as [|x l IH]; intros [|n] Hn; cbn in *; try lia. apply IH. lia. Qed.
Lemma nth_set_nth_other n k v l : n <> k -> nth k (set_nth n v l) 0 = nth k l 0.
Proof. revert n k. induction l as [|x l IH]; intros [|n] [|k] Hn; cbn; auto; try lia. Qed.

(* ---------- reading and writing ---------- *)

Lemma T6 x : trunc 6 x = x mod 64.
Proof. reflexivity. Qed.
Lemma bank_eta b : {| k_hw := k_hw b; k_allowed := k_allowed b; k_mem := k_mem b |} = b.
Proof. destruct b; reflexivity. Qed.

Lemma al_read_ok bd dbg (sn : list Z -> Prop) s i dr a : sn dr -> 2 <= bd <= 16 -> al_wp_en s = false -> bank_ok bd (al_bank bd s) -> al_at2 bd s a -> al_fsm_st s = AL_READ_DATA ->
  let s' := al_step bd dbg s i dr false in bank_rd bd dbg sn (al_bank bd s) a (al_rdata s') (al_rresp s').
Proof.
  intros Hsn Hb Hw Hok [(Ha & A1 & A2) A3] Hst. cbv zeta. unfold al_step. rewrite Hst, A1, A3, index_half by assumption. cbn [al_rdata al_rresp].
  unfold bank_rd, decode, al_ssss_en, al_hw_en, al_dbg_en. rewrite ?T6, Z.bit0_odd.
  unfold al_bank in *. rewrite Hw in *. cbn [k_hw k_allowed k_mem] in *.
  destruct (Z.testbit (a / 4) 10 && ((a / 4) mod 64 <? 2 * (bd + 1))) eqn:E.
  - apply andb_prop in E. destruct E as [_ E]. apply Z.ltb_lt in E. pose proof (Z.mod_pos_bound (a / 4) 64 ltac:(lia)) as M.
    assert (Hk : 0 <= (a / 4) mod 64 / 2 < bd + 1) by (split; [apply Z.div_pos; lia|apply Z.div_lt_upper_bound; lia]).
    rewrite trunc_clog2 by exact Hk. cbn [orb]. unfold entry. cbn [k_mem].
    destruct Hok as (_ & _ & Hl & HF). cbn [k_mem] in *.
    set (x := nth (Z.to_nat ((a / 4) mod 64 / 2)) (al_mem s) 0).
    assert (Hx : 0 <= x < 2 ^ (bd + 21)) by (rewrite Forall_forall in HF; apply HF, nth_In; lia).
    destruct (Z.odd (a / 4)); cbn [negb]; split; try reflexivity.
    + unfold slice. change (64 - 32) with 32. apply Z.mod_small. split; [apply Z.div_pos; [lia|reflexivity]|].
      apply Z.div_lt_upper_bound; [reflexivity|]. change (2 ^ 32 * 2 ^ 32) with (2 ^ 64). pose proof (pow2_le (bd + 21) 64 ltac:(lia)). lia.
    + unfold slice. change (2 ^ 0) with 1. rewrite Z.div_1_r. reflexivity.
  - cbn [orb]. destruct (Z.testbit (a / 4) 11); cbn [orb]; [destruct (Z.odd (a / 4)); cbn [negb]; split; reflexivity|].
    destruct (dbg && Z.testbit (a / 4) 12); [split; [exists dr; split; [exact Hsn|reflexivity]|reflexivity]|reflexivity].
Qed.

Lemma al_write_ok bd dbg s i dr a : 2 <= bd <= 16 -> al_wp_en s = false -> bank_ok bd (al_bank bd s) -> al_at2 bd s a -> al_fsm_st s = AL_WRITE_DATA -> ai_wvalid i = true ->
  let s' := al_step bd dbg s i dr false in
  al_bank bd s' = fst (bank_wr bd dbg (al_bank bd s) a (ai_wdata i) (ai_wstrb i)) /\ al_bresp s' = snd (bank_wr bd dbg (al_bank bd s) a (ai_wdata i) (ai_wstrb i)).
Proof.
  intros Hb Hw Hok [(Ha & A1 & A2) A3] Hst Hv. cbv zeta. unfold al_step. rewrite Hst, Hv, A1, A3, Hw, index_half by assumption.
  cbn [andb]. unfold al_bank in *. rewrite Hw in *. cbn [k_hw k_allowed k_mem al_hw al_allowed al_mem al_wp_en al_wp_addr al_wp_data al_bresp] in *.
  unfold bank_wr, decode, al_ssss_en, al_hw_en, al_dbg_en. rewrite ?T6, ?Z.bit0_odd.
  destruct (Z.testbit (a / 4) 10 && ((a / 4) mod 64 <? 2 * (bd + 1))) eqn:E.
  - apply andb_prop in E. destruct E as [E1 E]. rewrite ?E1, ?E. apply Z.ltb_lt in E. pose proof (Z.mod_pos_bound (a / 4) 64 ltac:(lia)) as M.
    assert (Hk : 0 <= (a / 4) mod 64 / 2 < bd + 1) by (split; [apply Z.div_pos; lia|apply Z.div_lt_upper_bound; lia]).
    cbn [andb negb fst snd]. rewrite trunc_clog2 by exact Hk. split; [|reflexivity]. f_equal. f_equal. unfold huff_after, entry. cbn [k_mem].
    destruct (Z.odd (a / 4)); cbn [negb]; unfold trunc; [rewrite al_merge_hi_eq|rewrite al_merge_mod]; reflexivity.
  - rewrite ?E. cbn [andb negb].
    destruct (Z.testbit (a / 4) 11); cbn [andb negb].
    + destruct (Z.odd (a / 4)); cbn [negb fst snd]; split; try reflexivity. rewrite al_merge_mod24. reflexivity.
    + destruct (dbg && Z.testbit (a / 4) 12); cbn [fst snd]; split; reflexivity.
Qed.

Lemma bank_wr_ok bd dbg b a d st : 2 <= bd -> bank_ok bd b -> bank_ok bd (fst (bank_wr bd dbg b a d st)).
Proof.
  intros Hb (H1 & H2 & H3 & H4). unfold bank_wr. destruct (decode bd dbg a) as [k hi| | | |]; cbn [fst]; unfold bank_ok; cbn [k_hw k_allowed k_mem]; try (repeat split; assumption || lia).
  - repeat split; try lia; [rewrite set_nth_length; exact H3|]. apply set_nth_Forall; [|exact H4]. unfold huff_after. pose proof (pow2_pos (bd + 21) ltac:(lia)).
    destruct hi; apply Z.mod_pos_bound; assumption.
  - pose proof (al_merge_range st (k_hw b) d). repeat split; auto; lia.
  - pose proof (Z.mod_pos_bound (al_merge st (k_allowed b) d) (2 ^ 24) ltac:(reflexivity)). repeat split; auto; lia.
Qed.

(* a step that does not touch the bank *)
Lemma al_bank_keep bd dbg s i dr rst : al_wp_en s = false -> al_fsm_st s <> AL_WRITE_DATA ->
  al_bank bd (al_step bd dbg s i dr rst) = al_bank bd s /\ al_wp_en (al_step bd dbg s i dr rst) = false.
Proof.
  intros Hw Hs. unfold al_bank, al_step. cbn [al_hw al_allowed al_mem al_wp_en]. rewrite Hw.
  destruct (al_fsm_st s); try contradiction; cbn [andb]; split; reflexivity.
Qed.


(* ---------- the master's side ---------- *)

Lemma nx_pre m i o : w_pre m -> ao_awready o = false -> ao_wready o = false ->
  m_rd (fst (m_next m i o)) = fst (m_next_rd m i o) /\ snd (m_next m i o) = snd (m_next_rd m i o) /\
  m_aw (fst (m_next m i o)) = (if ai_awvalid i then PHeld (ai_awaddr i) else PNot) /\ w_pre (fst (m_next m i o)).
Proof.
  intros [A D] E1 E2. unfold m_next, m_next_aw, m_next_wd, w_pre. rewrite E1, E2. destruct (m_next_rd m i o) as [r e].
  destruct (m_aw m); try contradiction; destruct (m_wd m); try contradiction; cbn [fst snd m_rd m_aw m_wd];
    (split; [reflexivity|]); (split; [reflexivity|]); (split; [reflexivity|]); destruct (ai_awvalid i), (ai_wvalid i); split; exact I.
Qed.
Lemma nx_rd_pre m i o : r_pre m -> ao_arready o = false ->
  m_next_rd m i o = (if ai_arvalid i then RAddr (ai_araddr i) (ai_rready i) else RIdle, []).
Proof. intros R E. unfold m_next_rd, r_pre in *. rewrite E. destruct (m_rd m); try contradiction; destruct (ai_arvalid i); reflexivity. Qed.
(* the address was accepted in this cycle *)
Lemma nx_aw m i o a : w_pre m -> m_aw m = PHeld a -> m_ok m i -> ao_awready o = true -> ao_wready o = false ->
  m_rd (fst (m_next m i o)) = fst (m_next_rd m i o) /\ snd (m_next m i o) = snd (m_next_rd m i o) /\
  m_aw (fst (m_next m i o)) = PDone a /\ match m_wd (fst (m_next m i o)) with PDone _ => False | _ => True end.
Proof.
  intros [A D] Ha (_ & M2 & _) E1 E2. rewrite Ha in M2. destruct M2 as [V <-]. unfold m_next, m_next_aw, m_next_wd. rewrite E1, E2, Ha, V. destruct (m_next_rd m i o) as [r e].
  destruct (m_wd m); try contradiction; cbn [fst snd m_rd m_aw m_wd]; repeat (split; [reflexivity|]); destruct (ai_wvalid i); exact I.
Qed.
(* waiting for data *)
Lemma nx_wd m i o a : m_aw m = PDone a -> match m_wd m with PDone _ => False | _ => True end ->
  m_rd (fst (m_next m i o)) = fst (m_next_rd m i o) /\ snd (m_next m i o) = snd (m_next_rd m i o) /\
  m_aw (fst (m_next m i o)) = PDone a /\
  m_wd (fst (m_next m i o)) = (if ai_wvalid i then (if ao_wready o then PDone (ai_wdata i, ai_wstrb i) else PHeld (ai_wdata i, ai_wstrb i)) else PNot).
Proof.
  intros Ha Hd. unfold m_next, m_next_aw, m_next_wd. rewrite Ha. destruct (m_next_rd m i o) as [r e].
  destruct (m_wd m); try contradiction; cbn [fst snd m_rd m_aw m_wd]; auto.
Qed.
(* data delivered, no answer yet *)
Lemma nx_done m i o a x : m_aw m = PDone a -> m_wd m = PDone x -> ao_bvalid o = false ->
  m_rd (fst (m_next m i o)) = fst (m_next_rd m i o) /\ snd (m_next m i o) = snd (m_next_rd m i o) /\
  m_aw (fst (m_next m i o)) = PDone a /\ m_wd (fst (m_next m i o)) = PDone x /\ m_b (fst (m_next m i o)) = ai_bready i.
Proof.
  intros Ha Hd E. unfold m_next, m_next_aw, m_next_wd. rewrite Ha, Hd, E. destruct (m_next_rd m i o) as [r e]. destruct x. cbn. auto.
Qed.
Lemma nx_held_b m i o a x : m_aw m = PDone a -> m_wd m = PHeld x -> m_ok m i -> ao_wready o = true ->
  m_b (fst (m_next m i o)) = ai_bready i.
Proof.
  intros Ha Hd (_ & _ & M3 & _) E. unfold m_next, m_next_aw, m_next_wd. rewrite Ha, Hd. destruct (m_next_rd m i o) as [r e]. rewrite Hd in M3. destruct x. destruct M3 as (V & _ & _). rewrite V, E. reflexivity.
Qed.
Lemma nx_answer m i o a d st : m_aw m = PDone a -> m_wd m = PDone (d, st) -> ao_bvalid o = true -> ai_bready i = true ->
  m_rd (fst (m_next m i o)) = fst (m_next_rd m i o) /\ snd (m_next m i o) = snd (m_next_rd m i o) ++ [Did_write a d st (ao_bresp o)] /\
  m_aw (fst (m_next m i o)) = PNot /\ m_wd (fst (m_next m i o)) = PNot.
Proof.
  intros Ha Hd E E2. unfold m_next, m_next_aw, m_next_wd. rewrite Ha, Hd, E, E2. destruct (m_next_rd m i o) as [r e]. cbn. auto.
Qed.
Lemma r_pre_next m i o m' : r_pre m -> ao_arready o = false -> m_rd m' = fst (m_next_rd m i o) -> r_pre m'.
Proof. intros R E H. rewrite (nx_rd_pre m i o R E) in H. unfold r_pre. rewrite H. cbn [fst]. destruct (ai_arvalid i); exact I. Qed.

Lemma al_inv_step bd dbg (sn : list Z -> Prop) m B s i dr : sn dr -> 2 <= bd <= 16 -> bank_ok bd B -> al_inv bd dbg sn m B s -> m_ok m i ->
  let o := al_out s in
  exists B', explained (bank_rd bd dbg sn) (bank_wr bd dbg) B (snd (m_next m i o)) B' /\ bank_ok bd B' /\
    al_inv bd dbg sn (fst (m_next m i o)) B' (al_step bd dbg s i dr false) /\ m_sane m o.
Proof.
  intros Hsn Hb HB I Hok. cbv zeta. pose proof Hok as (M1 & M2 & M3 & M4 & R1 & R2 & R3 & R4). unfold al_inv in I.
  assert (O1 : ao_arready (al_out s) = al_arready s) by reflexivity. assert (O2 : ao_rvalid (al_out s) = al_rvalid s) by reflexivity.
  assert (O3 : ao_awready (al_out s) = al_awready s) by reflexivity. assert (O4 : ao_wready (al_out s) = al_wready s) by reflexivity.
  assert (O5 : ao_bvalid (al_out s) = al_bvalid s) by reflexivity.
  set (s' := al_step bd dbg s i dr false). set (o := al_out s) in *. set (m' := fst (m_next m i o)).
  assert (Hkeep : al_wp_en s = false -> al_fsm_st s <> AL_WRITE_DATA -> al_bank bd s' = al_bank bd s /\ al_wp_en s' = false) by apply al_bank_keep.
  destruct (al_fsm_st s) eqn:Est.
  - (* IDLE *)
    destruct I as (Hw & I). destruct (Hkeep Hw ltac:(congruence)) as [K1 K2].
    assert (Hnext : al_fsm_st s' = if ai_arvalid i then AL_READ_ADDRESS else if ai_awvalid i then AL_WRITE_ADDRESS else AL_IDLE)
      by (unfold s', al_step; rewrite Est; reflexivity).
    assert (Hhs : forall x y, al_hs s false x false false y -> al_hs s' false false false false false)
      by (intros x y (E1 & E2 & E3 & E4 & E5); unfold s', al_hs, al_step; rewrite Est; cbn; auto).
    assert (Hfin : forall B', al_hs s' false false false false false -> al_bank bd s = B' ->
      m_rd m' = (if ai_arvalid i then RAddr (ai_araddr i) (ai_rready i) else RIdle) -> w_pre m' -> m_aw m' = (if ai_awvalid i then PHeld (ai_awaddr i) else PNot) ->
      al_inv bd dbg sn m' B' s').
    { intros B' Hh Hbk Hr Hwp Haw. unfold al_inv. rewrite Hnext, K1, K2. unfold r_pre. destruct (ai_arvalid i); [repeat (split; auto); eauto|]. rewrite Hr.
      destruct (ai_awvalid i); [repeat (split; auto); eauto|]. split; [reflexivity|]. left. auto. }
    destruct I as [(Hh & Hr & Hwp & Hbk)|[(Hh & (a & Hr & Hrd) & Hwp & Hbk)|(Hh & Hr & a & d & st & Ha & Hd & Hm & Hbk & Hresp)]];
      pose proof (Hhs _ _ Hh) as Hh'; destruct Hh as (E1 & E2 & E3 & E4 & E5).
    + destruct (nx_pre m i o Hwp ltac:(congruence) ltac:(congruence)) as (N1 & N2 & N3 & N4). fold m' in N1, N3, N4.
      pose proof (nx_rd_pre m i o Hr ltac:(congruence)) as N5. rewrite N5 in N1, N2. cbn [fst snd] in N1, N2.
      exists B. rewrite N2. split; [reflexivity|]. split; [exact HB|]. split; [apply Hfin; auto|]. unfold m_sane. rewrite O2, O5, E2, E5. split; discriminate.
    + destruct (nx_pre m i o Hwp ltac:(congruence) ltac:(congruence)) as (N1 & N2 & N3 & N4). fold m' in N1, N3, N4.
      rewrite Hr in M1. destruct M1 as [Mv Mr]. specialize (Mr eq_refl).
      assert (N5 : m_next_rd m i o = (RIdle, [Did_read a (al_rdata s) (al_rresp s)])) by (unfold m_next_rd; rewrite Hr, O2, E2, Mr; reflexivity).
      rewrite N5 in N1, N2. cbn [fst snd] in N1, N2. exists B. rewrite N2. split; [split; [exact Hrd|reflexivity]|]. split; [exact HB|].
      split; [apply Hfin; auto; rewrite Mv; exact N1|]. unfold m_sane. rewrite O2, O5, E2, E5. split; [eauto|discriminate].
    + specialize (M4 Hm). destruct (nx_answer m i o a d st Ha Hd ltac:(congruence) M4) as (N1 & N2 & N3 & N4). fold m' in N1, N3, N4.
      pose proof (nx_rd_pre m i o Hr ltac:(congruence)) as N5. rewrite N5 in N1, N2. cbn [fst snd app] in N1, N2.
      rewrite Ha in M2. exists (fst (bank_wr bd dbg B a d st)). rewrite N2. split; [split; [symmetry; exact Hresp|reflexivity]|].
      split; [apply bank_wr_ok; [lia|exact HB]|]. split; [apply Hfin; auto|].
      * unfold w_pre. rewrite N3, N4. split; exact Logic.I.
      * rewrite M2. exact N3.
      * unfold m_sane. rewrite O2, O5, E2, E5. split; [discriminate|eauto].
  - (* READ_ADDRESS *)
    destruct I as (Hw & Hbk & (E1 & E2 & E3 & E4 & E5) & Hwp & a & k & Hr). destruct (Hkeep Hw ltac:(congruence)) as [K1 K2].
    destruct (nx_pre m i o Hwp ltac:(congruence) ltac:(congruence)) as (N1 & N2 & N3 & N4). fold m' in N1, N3, N4.
    assert (Hrp : r_pre m) by (unfold r_pre; rewrite Hr; exact Logic.I). rewrite (nx_rd_pre m i o Hrp ltac:(congruence)) in N1, N2. cbn [fst snd] in N1, N2.
    rewrite Hr in M1. destruct M1 as (Mv & Ma & Mr). rewrite Mv, Ma in N1. exists B. rewrite N2. split; [reflexivity|]. split; [exact HB|]. split.
    + unfold al_inv. replace (al_fsm_st s') with AL_READ_DATA_DELAY1 by (unfold s', al_step; rewrite Est; reflexivity).
      rewrite K1, K2. split; [reflexivity|]. split; [exact Hbk|]. split; [unfold al_hs, s', al_step; rewrite Est; cbn; auto|]. split; [exact N4|].
      exists a, (ai_rready i). split; [exact N1|]. unfold al_at, s', al_step. rewrite Est. cbn [al_addr al_rp_addr]. rewrite Ma. split; [lia|auto].
    + unfold m_sane. rewrite O2, O5, E2, E5. split; discriminate.
  - (* READ_DATA_DELAY1 *)
    destruct I as (Hw & Hbk & (E1 & E2 & E3 & E4 & E5) & Hwp & a & k & Hr & At0 & At1 & At2). destruct (Hkeep Hw ltac:(congruence)) as [K1 K2].
    destruct (nx_pre m i o Hwp ltac:(congruence) ltac:(congruence)) as (N1 & N2 & N3 & N4). fold m' in N1, N3, N4.
    rewrite Hr in M1. destruct M1 as (Mv & Ma & Mr).
    assert (N5 : m_next_rd m i o = (RWait a (ai_rready i), [])) by (unfold m_next_rd; rewrite Hr, O1, E1, Mv, Ma; reflexivity).
    rewrite N5 in N1, N2. cbn [fst snd] in N1, N2. exists B. rewrite N2. split; [reflexivity|]. split; [exact HB|]. split.
    + unfold al_inv. replace (al_fsm_st s') with AL_READ_DATA_DELAY2 by (unfold s', al_step; rewrite Est; reflexivity).
      rewrite K1, K2. split; [reflexivity|]. split; [exact Hbk|]. split; [unfold al_hs, s', al_step; rewrite Est; cbn; auto|]. split; [exact N4|].
      exists a, (ai_rready i). split; [exact N1|]. unfold al_at2, al_at, s', al_step. rewrite Est. cbn [al_addr al_rp_addr al_raddr]. rewrite At1, At2. auto.
    + unfold m_sane. rewrite O2, O5, E2, E5. split; discriminate.
  - (* READ_DATA_DELAY2 *)
    destruct I as (Hw & Hbk & (E1 & E2 & E3 & E4 & E5) & Hwp & a & k & Hr & (At0 & At1 & At2) & At3). destruct (Hkeep Hw ltac:(congruence)) as [K1 K2].
    destruct (nx_pre m i o Hwp ltac:(congruence) ltac:(congruence)) as (N1 & N2 & N3 & N4). fold m' in N1, N3, N4.
    assert (N5 : m_next_rd m i o = (RWait a (ai_rready i), [])) by (unfold m_next_rd; rewrite Hr, O2, E2; reflexivity).
    rewrite N5 in N1, N2. cbn [fst snd] in N1, N2. exists B. rewrite N2. split; [reflexivity|]. split; [exact HB|]. split.
    + unfold al_inv. replace (al_fsm_st s') with AL_READ_DATA by (unfold s', al_step; rewrite Est; reflexivity).
      rewrite K1, K2. split; [reflexivity|]. split; [exact Hbk|]. split; [unfold al_hs, s', al_step; rewrite Est; cbn; auto|]. split; [exact N4|].
      exists a, (ai_rready i). split; [exact N1|]. unfold al_at2, al_at, s', al_step. rewrite Est. cbn [al_addr al_rp_addr al_raddr]. rewrite At1, At2. auto.
    + unfold m_sane. rewrite O2, O5, E2, E5. split; discriminate.
  - (* READ_DATA *)
    destruct I as (Hw & Hbk & (E1 & E2 & E3 & E4 & E5) & Hwp & a & k & Hr & At). destruct (Hkeep Hw ltac:(congruence)) as [K1 K2].
    destruct (nx_pre m i o Hwp ltac:(congruence) ltac:(congruence)) as (N1 & N2 & N3 & N4). fold m' in N1, N3, N4.
    assert (N5 : m_next_rd m i o = (RWait a (ai_rready i), [])) by (unfold m_next_rd; rewrite Hr, O2, E2; reflexivity).
    rewrite N5 in N1, N2. cbn [fst snd] in N1, N2. exists B. rewrite N2. split; [reflexivity|]. split; [exact HB|]. split.
    + unfold al_inv. replace (al_fsm_st s') with (if ai_rready i then AL_IDLE else AL_READ_DATA) by (unfold s', al_step; rewrite Est; reflexivity).
      assert (G : al_hs s' false (ai_rready i) false false false).
      { unfold al_hs, s', al_step. rewrite Est. cbn [al_arready al_rvalid al_awready al_wready al_bvalid]. rewrite E2, orb_false_r. auto. }
      rewrite K1, K2. destruct (ai_rready i) eqn:Er.
      * split; [reflexivity|]. right. left. split; [exact G|]. split; [|split; [exact N4|exact Hbk]]. exists a. split; [exact N1|].
        rewrite <- Hbk. apply al_read_ok; auto. rewrite Hbk. exact HB.
      * split; [reflexivity|]. split; [exact Hbk|]. split; [exact G|]. split; [exact N4|]. exists a, false. split; [exact N1|].
        destruct At as ((At0 & At1 & At2) & At3). unfold al_at2, al_at, s', al_step. rewrite Est. cbn [al_addr al_rp_addr al_raddr]. rewrite At1, At2. auto.
    + unfold m_sane. rewrite O2, O5, E2, E5. split; discriminate.
  - (* WRITE_ADDRESS *)
    destruct I as (Hw & Hbk & (E1 & E2 & E3 & E4 & E5) & Hrp & Hwp & a & Haw). destruct (Hkeep Hw ltac:(congruence)) as [K1 K2].
    destruct (nx_pre m i o Hwp ltac:(congruence) ltac:(congruence)) as (N1 & N2 & N3 & N4). fold m' in N1, N3, N4.
    pose proof (r_pre_next m i o m' Hrp ltac:(congruence) N1) as Hr'. rewrite (nx_rd_pre m i o Hrp ltac:(congruence)) in N2. cbn [snd] in N2.
    rewrite Haw in M2. destruct M2 as (Mv & Ma). rewrite Mv, Ma in N3. exists B. rewrite N2. split; [reflexivity|]. split; [exact HB|]. split.
    + unfold al_inv. replace (al_fsm_st s') with AL_WRITE_DATA_DELAY1 by (unfold s', al_step; rewrite Est; reflexivity).
      rewrite K1, K2. split; [reflexivity|]. split; [exact Hbk|]. split; [unfold al_hs, s', al_step; rewrite Est; cbn; auto|]. split; [exact Hr'|]. split; [exact N4|].
      exists a. split; [exact N3|]. unfold al_at, s', al_step. rewrite Est. cbn [al_addr al_rp_addr]. rewrite Ma. split; [lia|auto].
    + unfold m_sane. rewrite O2, O5, E2, E5. split; discriminate.
  - (* WRITE_DATA_DELAY1 *)
    destruct I as (Hw & Hbk & (E1 & E2 & E3 & E4 & E5) & Hrp & Hwp & a & Haw & At0 & At1 & At2). destruct (Hkeep Hw ltac:(congruence)) as [K1 K2].
    destruct (nx_aw m i o a Hwp Haw Hok ltac:(congruence) ltac:(congruence)) as (N1 & N2 & N3 & N4). fold m' in N1, N3, N4.
    pose proof (r_pre_next m i o m' Hrp ltac:(congruence) N1) as Hr'. rewrite (nx_rd_pre m i o Hrp ltac:(congruence)) in N2. cbn [snd] in N2.
    exists B. rewrite N2. split; [reflexivity|]. split; [exact HB|]. split.
    + unfold al_inv. replace (al_fsm_st s') with AL_WRITE_DATA_DELAY2 by (unfold s', al_step; rewrite Est; reflexivity).
      rewrite K1, K2. split; [reflexivity|]. split; [exact Hbk|]. split; [unfold al_hs, s', al_step; rewrite Est; cbn; auto|]. split; [exact Hr'|]. split; [exact N4|].
      exists a. split; [exact N3|]. unfold al_at2, al_at, s', al_step. rewrite Est. cbn [al_addr al_rp_addr al_raddr]. rewrite At1, At2. auto.
    + unfold m_sane. rewrite O2, O5, E2, E5. split; discriminate.
  - (* WRITE_DATA_DELAY2 *)
    destruct I as (Hw & Hbk & (E1 & E2 & E3 & E4 & E5) & Hrp & Hwp & a & Haw & (At0 & At1 & At2) & At3). destruct (Hkeep Hw ltac:(congruence)) as [K1 K2].
    destruct (nx_wd m i o a Haw Hwp) as (N1 & N2 & N3 & N4). fold m' in N1, N3, N4.
    pose proof (r_pre_next m i o m' Hrp ltac:(congruence) N1) as Hr'. rewrite (nx_rd_pre m i o Hrp ltac:(congruence)) in N2. cbn [snd] in N2.
    exists B. rewrite N2. split; [reflexivity|]. split; [exact HB|]. split.
    + unfold al_inv. replace (al_fsm_st s') with AL_WRITE_DATA by (unfold s', al_step; rewrite Est; reflexivity).
      rewrite K1, K2. split; [reflexivity|]. split; [exact Hbk|]. split; [exists false; unfold al_hs, s', al_step; rewrite Est; cbn; auto|]. split; [exact Hr'|].
      split; [rewrite N4, O4, E4; destruct (ai_wvalid i); exact Logic.I|].
      exists a. split; [exact N3|]. unfold al_at2, al_at, s', al_step. rewrite Est. cbn [al_addr al_rp_addr al_raddr]. rewrite At1, At2. auto.
    + unfold m_sane. rewrite O2, O5, E2, E5. split; discriminate.
  - (* WRITE_DATA *)
    destruct I as (Hw & Hbk & (w & E1 & E2 & E3 & E4 & E5) & Hrp & Hwp & a & Haw & At).
    destruct (nx_wd m i o a Haw Hwp) as (N1 & N2 & N3 & N4). fold m' in N1, N3, N4.
    pose proof (r_pre_next m i o m' Hrp ltac:(congruence) N1) as Hr'. rewrite (nx_rd_pre m i o Hrp ltac:(congruence)) in N2. cbn [snd] in N2.
    exists B. rewrite N2. split; [reflexivity|]. split; [exact HB|]. split.
    + unfold al_inv. replace (al_fsm_st s') with (if ai_wvalid i then AL_WRITE_RESPONSE else AL_WRITE_DATA) by (unfold s', al_step; rewrite Est; reflexivity).
      assert (G : al_hs s' false false false true false) by (unfold al_hs, s', al_step; rewrite Est; cbn; auto).
      destruct (ai_wvalid i) eqn:Ev.
      * exists true, a, (ai_wdata i), (ai_wstrb i). split; [exact G|]. split; [exact Hr'|]. split; [exact N3|]. split; [rewrite N4; destruct (ao_wready o); auto|].
        rewrite <- Hbk. apply al_write_ok; auto. rewrite Hbk. exact HB.
      * assert (K : al_bank bd s' = al_bank bd s /\ al_wp_en s' = false).
        { unfold al_bank, s', al_step. cbn [al_hw al_allowed al_mem al_wp_en]. rewrite Hw, Est, Ev. cbn [andb]. split; reflexivity. }
        destruct K as [K1 K2]. rewrite K1, K2. split; [reflexivity|]. split; [exact Hbk|]. split; [eauto|]. split; [exact Hr'|]. rewrite N4. split; [exact Logic.I|].
        destruct At as ((At0 & At1 & At2) & At3). exists a. split; [exact N3|]. unfold al_at2, al_at, s', al_step. rewrite Est. cbn [al_addr al_rp_addr al_raddr]. rewrite At1, At2. auto.
    + unfold m_sane. rewrite O2, O5, E2, E5. split; discriminate.
  - (* WRITE_RESPONSE *)
    destruct I as (w & a & d & st & (E1 & E2 & E3 & E4 & E5) & Hrp & Haw & Hwd & Hbk & Hresp).
    assert (K : al_bank bd s' = al_bank bd s /\ al_wp_en s' = false /\ al_bresp s' = al_bresp s).
    { unfold al_bank, s', al_step. cbn [al_hw al_allowed al_mem al_wp_en al_bresp]. rewrite Est. cbn [andb]. repeat split. }
    destruct K as (K1 & K2 & K3).
    assert (N : m_rd m' = fst (m_next_rd m i o) /\ snd (m_next m i o) = snd (m_next_rd m i o) /\ m_aw m' = PDone a /\ m_wd m' = PDone (d, st) /\ m_b m' = ai_bready i).
    { destruct Hwd as [Hwd|[Hwd Hwt]].
      - apply nx_done; auto; congruence.
      - destruct (nx_wd m i o a Haw ltac:(rewrite Hwd; exact Logic.I)) as (N1 & N2 & N3 & N4). rewrite Hwd in M3. destruct M3 as (V & D1 & D2).
        rewrite V, O4, E4, Hwt, D1, D2 in N4. repeat split; auto. eapply nx_held_b; eauto; congruence. }
    destruct N as (N1 & N2 & N3 & N4 & N5).
    pose proof (r_pre_next m i o m' Hrp ltac:(congruence) N1) as Hr'. rewrite (nx_rd_pre m i o Hrp ltac:(congruence)) in N2. cbn [snd] in N2.
    exists B. rewrite N2. split; [reflexivity|]. split; [exact HB|]. split.
    + unfold al_inv. replace (al_fsm_st s') with (if ai_bready i then AL_IDLE else AL_WRITE_RESPONSE) by (unfold s', al_step; rewrite Est; reflexivity).
      assert (G : al_hs s' false false false false (ai_bready i)) by (unfold al_hs, s', al_step; rewrite Est; cbn [al_arready al_rvalid al_awready al_wready al_bvalid]; rewrite E5, orb_false_r; auto).
      destruct (ai_bready i) eqn:Eb.
      * split; [exact K2|]. right. right. split; [exact G|]. split; [exact Hr'|]. exists a, d, st. rewrite K1, K3. auto 10.
      * exists false, a, d, st. rewrite K1, K3. split; [exact G|]. auto 10.
    + unfold m_sane. rewrite O2, O5, E2, E5. split; discriminate.
Qed.
