(* Invariants of the byte-stuffing stages. *)
From Verif Require Import Bits Spec M_Fix P_I3 P_Run P_Live.
Ltac Zify.zify_post_hook ::= idtac.

Lemma low_bytes_len n d : length (low_bytes n d) = n.
Proof. revert d. induction n; intros; [reflexivity|]. cbn. rewrite app_length, IHn. cbn. lia. Qed.

(* ------------------------------------------------------------ fix_0xff *)

Lemma byte_div d : 0 <= d < 2 ^ 16 -> 0 <= d / 256 < 256 /\ 0 <= d mod 256 < 256 /\ d = 256 * (d / 256) + d mod 256.
Proof.
  intros. change (2 ^ 16) with 65536 in *. pose proof (Z.div_mod d 256 ltac:(lia)). pose proof (Z.mod_pos_bound d 256 ltac:(lia)).
  lia.
Qed.

Lemma low_bytes2 a b : 0 <= b < 256 -> 0 <= a < 256 -> low_bytes 2 (a * 256 + b) = [a; b].
Proof.
  intros. cbn [low_bytes app]. rewrite Z.div_add_l, (Z.div_small b) by lia. rewrite Z.add_0_r.
  rewrite (Z.add_comm (a * 256)), Z.mod_add, (Z.mod_small b), (Z.mod_small a) by lia. reflexivity.
Qed.
Lemma low_bytes_S n a b : 0 <= b < 256 -> low_bytes (S n) (a * 256 + b) = low_bytes n a ++ [b].
Proof.
  intros. cbn [low_bytes]. rewrite Z.div_add_l, (Z.div_small b) by lia. rewrite Z.add_0_r.
  rewrite (Z.add_comm (a * 256)), Z.mod_add, (Z.mod_small b) by lia. reflexivity.
Qed.

Lemma slice_byte0 d : slice 0 8 d = d mod 256.
Proof. unfold slice. change (2 ^ 0) with 1. rewrite Z.div_1_r. reflexivity. Qed.
Lemma slice_byte1 d : 0 <= d < 2 ^ 16 -> slice 8 16 d = d / 256.
Proof.
  intros. unfold slice. change (2 ^ 8) with 256. change (2 ^ (16 - 8)) with 256. apply Z.mod_small. apply byte_div. assumption.
Qed.

Lemma f1_logic_ok d : 0 <= d < 2 ^ 16 ->
  low_bytes (Z.to_nat (snd (f1_logic d))) (fst (f1_logic d)) = stuff (bytes_of d) /\
  2 <= snd (f1_logic d) <= 4.
Proof.
  intros Hd. destruct (byte_div d Hd) as (Ha & Hb & E). unfold f1_logic, bytes_of.
  rewrite slice_byte0, slice_byte1 by assumption.
  assert (E16 : slice 0 16 d = d) by (unfold slice; change (2 ^ 0) with 1; rewrite Z.div_1_r; apply Z.mod_small; assumption).
  rewrite E16. set (a := d / 256) in *. set (b := d mod 256) in *.
  destruct (d =? 0xFFFF) eqn:E1.
  - assert (a = 255) by lia. assert (b = 255) by lia. rewrite H, H0. split; [reflexivity|cbn; lia].
  - destruct (b =? 0xFF) eqn:E2.
    + assert (b = 255) by lia. assert (a <> 255) by lia. split; [|cbn; lia]. cbn [fst snd].
      change (Z.to_nat 3) with 3%nat. replace (a * 2 ^ 16 + 0xFF00) with ((a * 256 + 255) * 256 + 0) by (change (2 ^ 16) with 65536; lia).
      rewrite low_bytes_S, low_bytes2 by lia. unfold stuff. cbn [flat_map]. unfold stuff_byte.
      replace (a =? 255) with false by lia. rewrite H. reflexivity.
    + destruct (a =? 0xFF) eqn:E3.
      * split; [|cbn; lia]. cbn [fst snd]. change (Z.to_nat 3) with 3%nat.
        replace (0xFF0000 + b) with ((255 * 256 + 0) * 256 + b) by lia.
        rewrite low_bytes_S, low_bytes2 by lia. unfold stuff. cbn [flat_map]. unfold stuff_byte.
        rewrite E3, E2. replace a with 255 by lia. reflexivity.
      * split; [|cbn; lia]. cbn [fst snd]. change (Z.to_nat 2) with 2%nat.
        replace d with (a * 256 + b) at 1 by lia. rewrite low_bytes2 by lia.
        unfold stuff. cbn [flat_map]. unfold stuff_byte. rewrite E3, E2. reflexivity.
Qed.

(* items held, oldest first *)
Definition f1_held (s : f1_st) : list (Z * Z * bool) :=
  (if f1_vout s then [(f1_dout s, f1_ctr s, f1_eout s)] else []) ++
  (if f1_dval s then [(f1_dreg s, f1_creg s, f1_ereg s)] else []).
Definition f1_inv (s : f1_st) : Prop := f1_obusy s = f1_dval s /\ (f1_dval s = true -> f1_vout s = true).

Definition f1_item (x : Z * bool) : Z * Z * bool := (fst (f1_logic (fst x)), snd (f1_logic (fst x)), snd x).

Lemma f1_step_ok s i : f1_inv s ->
  f1_inv (f1_step s i) /\
  f1_held s ++ (if f1i_valid i && negb (f1_obusy s) then [f1_item (f1i_data i, f1i_end i)] else []) =
  (if f1_vout s && negb (f1i_busy i) then [(f1_dout s, f1_ctr s, f1_eout s)] else []) ++ f1_held (f1_step s i).
Proof.
  intros [I1 I2]. unfold f1_step, f1_item, f1_held, f1_inv. cbn [fst snd].
  destruct (f1_logic (f1i_data i)) as [ld lc]. cbn [fst snd].
  rewrite I1. destruct (f1i_busy i), (f1_dval s) eqn:Ed, (f1_vout s) eqn:Ev, (f1i_valid i);
    try (specialize (I2 eq_refl); discriminate); cbn; rewrite ?I1, ?Ed, ?Ev; cbn; auto.
Qed.

Lemma f1_run_ok : forall l s, f1_inv s ->
  f1_inv (f1_run s l) /\
  f1_held s ++ map f1_item (f1_accepted s l) = f1_outs s l ++ f1_held (f1_run s l).
Proof.
  induction l as [|i l IH]; intros s I.
  - cbn. rewrite app_nil_r. auto.
  - destruct (f1_step_ok s i I) as [I' E]. destruct (IH _ I') as [J1 J2]. cbn [f1_run f1_accepted f1_outs].
    split; [assumption|]. rewrite map_app, app_assoc.
    replace (map f1_item (if f1i_valid i && negb (f1_obusy s) then [(f1i_data i, f1i_end i)] else []))
      with (if f1i_valid i && negb (f1_obusy s) then [f1_item (f1i_data i, f1i_end i)] else []) by (destruct (_ && _); reflexivity).
    rewrite E, <- !app_assoc. f_equal. exact J2.
Qed.

Lemma f1_held_len s : len (f1_held s) <= 2.
Proof. unfold f1_held. rewrite len_app. destruct (f1_vout s), (f1_dval s); cbn; lia. Qed.

(* ------------------------------------------------------------ fix_0xff2 *)

Lemma low_bytes_mod n m d : (n <= m)%nat -> low_bytes n (d mod 2 ^ (8 * Z.of_nat m)) = low_bytes n d.
Proof.
  revert m d. induction n as [|n IH]; intros m d Hm; [reflexivity|]. destruct m as [|m]; [lia|].
  cbn [low_bytes]. 
  assert (E : 2 ^ (8 * Z.of_nat (S m)) = 256 * 2 ^ (8 * Z.of_nat m)).
  { replace (8 * Z.of_nat (S m)) with (8 + 8 * Z.of_nat m) by lia. rewrite Z.pow_add_r by lia. reflexivity. }
  assert (0 < 2 ^ (8 * Z.of_nat m)) by (apply Z.pow_pos_nonneg; lia).
  rewrite E. rewrite Z.rem_mul_r by lia.
  rewrite (Z.add_comm (d mod 256)), (Z.mul_comm 256), Z.div_add_l, (Z.div_small (d mod 256)) by (try apply Z.mod_pos_bound; lia).
  rewrite Z.add_0_r, IH by lia. f_equal. f_equal.
  rewrite Z.add_comm, Z.mod_add by lia. apply Z.mod_mod. lia.
Qed.

Lemma low_bytes_app a b d : low_bytes (a + b) d = low_bytes a (d / 2 ^ (8 * Z.of_nat b)) ++ low_bytes b d.
Proof.
  revert d. induction b as [|b IH]; intros d.
  - rewrite Nat.add_0_r. change (2 ^ (8 * Z.of_nat 0)) with 1. rewrite Z.div_1_r, app_nil_r. reflexivity.
  - rewrite Nat.add_succ_r. cbn [low_bytes]. rewrite IH, app_assoc.
    rewrite Z.div_div by (try apply Z.pow_pos_nonneg; lia).
    replace (256 * 2 ^ (8 * Z.of_nat b)) with (2 ^ (8 * Z.of_nat (S b))); [reflexivity|].
    replace (8 * Z.of_nat (S b)) with (8 + 8 * Z.of_nat b) by lia. rewrite Z.pow_add_r by lia. reflexivity.
Qed.

Lemma low_bytes_slice n lo hi d : 0 <= lo -> hi = lo + 8 * Z.of_nat n ->
  low_bytes n (slice lo hi d) = low_bytes n (d / 2 ^ lo).
Proof.
  intros H0 ->. unfold slice. replace (lo + 8 * Z.of_nat n - lo) with (8 * Z.of_nat n) by lia.
  apply low_bytes_mod. lia.
Qed.

Lemma low_bytes_range n d : Forall (fun b => 0 <= b < 256) (low_bytes n d).
Proof.
  revert d. induction n; intros; [constructor|]. cbn. apply Forall_app. split; [apply IHn|].
  constructor; [apply Z.mod_pos_bound; lia|constructor].
Qed.

Definition word_ok (w : Z) : Prop := 0 <= w < 2 ^ 16.
Definition wbytes (ws : list Z) : list Z := flat_map (low_bytes 2) ws.
Definition f2_bufb (s : f2_st) : list Z := low_bytes (Z.to_nat (f2_cnt s)) (f2_buf s).

Lemma low_bytes1_slice buf : low_bytes 1 (slice 0 8 buf) = low_bytes 1 buf.
Proof. rewrite (low_bytes_slice 1) by lia. change (2 ^ 0) with 1. rewrite Z.div_1_r. reflexivity. Qed.

Lemma cat_bytes a b : low_bytes 2 (slice 0 8 a * 2 ^ 8 + slice 0 8 b) = low_bytes 1 a ++ low_bytes 1 b.
Proof.
  change (2 ^ 8) with 256. rewrite low_bytes_S.
  - rewrite low_bytes1_slice. f_equal. cbn. rewrite slice_byte0. reflexivity.
  - pose proof (slice_range 0 8 b ltac:(lia)) as H. exact H.
Qed.

Lemma cat_word a b : 0 <= a < 2 ^ 8 -> 0 <= b < 2 ^ 8 -> word_ok (a * 2 ^ 8 + b).
Proof. unfold word_ok. change (2 ^ 8) with 256. change (2 ^ 16) with 65536. lia. Qed.

Lemma slice_shift lo n d : 0 <= lo -> slice lo (lo + n) d = slice 0 n (d / 2 ^ lo).
Proof. intros. unfold slice. change (2 ^ 0) with 1. rewrite Z.div_1_r. f_equal. f_equal. lia. Qed.

Lemma nl_switch_ok cnt buf d n : cnt = 0 \/ cnt = 1 -> 2 <= n <= 4 ->
  let r := nl_switch cnt buf d n in
  exists w, nl_data r = Some w /\ word_ok w /\
    oget (nl_cnt r) cnt = cnt + n - 2 /\
    low_bytes (Z.to_nat cnt) buf ++ low_bytes (Z.to_nat n) d =
    low_bytes 2 w ++ low_bytes (Z.to_nat (cnt + n - 2)) (oget (nl_buf r) buf) /\
    nl_end r = false /\ nl_endr r = false /\ nl_busy r = (2 <=? cnt + n - 2) /\
    nl_next r = (if 2 <=? cnt + n - 2 then Some F2_CLEAN else None).
Proof.
  intros Hc Hn. cbv zeta.
  assert (S2 : forall lo, 0 <= lo -> word_ok (slice lo (lo + 16) d)).
  { intros. pose proof (slice_range lo (lo + 16) d ltac:(lia)) as X. replace (lo + 16 - lo) with 16 in X by lia. exact X. }
  assert (B : forall x lo, 0 <= slice lo (lo + 8) x < 2 ^ 8).
  { intros. pose proof (slice_range lo (lo + 8) x ltac:(lia)) as X. replace (lo + 8 - lo) with 8 in X by lia. exact X. }
  assert (L0 : forall x, x / 2 ^ 0 = x) by (intros; change (2 ^ 0) with 1; apply Z.div_1_r).
  unfold nl_switch. destruct Hc as [-> | ->]; cbn [Z.eqb Pos.eqb].
  - destruct (n =? 2) eqn:E2; [|destruct (n =? 3) eqn:E3; [|destruct (n =? 4) eqn:E4; [|lia]]]; cbn [nl_data nl_cnt nl_buf nl_end nl_endr nl_busy nl_next oget].
    + assert (n = 2) by lia. subst n. eexists. split; [reflexivity|]. split; [apply (S2 0); lia|]. split; [reflexivity|].
      split; [|repeat split; reflexivity]. change (Z.to_nat 0) with 0%nat. change (Z.to_nat 2) with 2%nat. change (Z.to_nat (0 + 2 - 2)) with 0%nat.
      change (low_bytes 0 buf) with (@nil Z). rewrite app_nil_r, (low_bytes_slice 2 0 16 d), L0 by lia. reflexivity.
    + assert (n = 3) by lia. subst n. eexists. split; [reflexivity|]. split; [apply (S2 8); lia|]. split; [reflexivity|].
      split; [|repeat split; reflexivity]. change (Z.to_nat 0) with 0%nat. change (Z.to_nat 3) with (2 + 1)%nat. change (Z.to_nat (0 + 3 - 2)) with 1%nat.
      rewrite low_bytes_app. rewrite (low_bytes_slice 2 8 24) by lia. rewrite low_bytes1_slice. reflexivity.
    + assert (n = 4) by lia. subst n. eexists. split; [reflexivity|]. split; [apply (S2 16); lia|]. split; [reflexivity|].
      split; [|repeat split; reflexivity]. change (Z.to_nat 0) with 0%nat. change (Z.to_nat 4) with (2 + 2)%nat. change (Z.to_nat (0 + 4 - 2)) with 2%nat.
      rewrite low_bytes_app. rewrite (low_bytes_slice 2 16 32), (low_bytes_slice 2 0 16) by lia. rewrite L0. reflexivity.
  - destruct (n =? 2) eqn:E2; [|destruct (n =? 3) eqn:E3; [|destruct (n =? 4) eqn:E4; [|lia]]]; cbn [nl_data nl_cnt nl_buf nl_end nl_endr nl_busy nl_next oget].
    + assert (n = 2) by lia. subst n. eexists. split; [reflexivity|]. split; [apply cat_word; [apply (B buf 0)|apply (B d 8)]|]. split; [reflexivity|].
      split; [|repeat split; reflexivity]. change (Z.to_nat 1) with 1%nat. change (Z.to_nat 2) with (1 + 1)%nat. change (Z.to_nat (1 + 2 - 2)) with 1%nat.
      rewrite (slice_shift 8 8) by lia. rewrite cat_bytes, low_bytes_app, low_bytes1_slice, <- app_assoc. reflexivity.
    + assert (n = 3) by lia. subst n. eexists. split; [reflexivity|]. split; [apply cat_word; [apply (B buf 0)|apply (B d 16)]|]. split; [reflexivity|].
      split; [|repeat split; reflexivity]. change (Z.to_nat 1) with 1%nat. change (Z.to_nat 3) with (1 + 2)%nat. change (Z.to_nat (1 + 3 - 2)) with 2%nat.
      rewrite (slice_shift 16 8) by lia. rewrite cat_bytes, low_bytes_app, (low_bytes_slice 2 0 16), L0, <- app_assoc by lia. reflexivity.
    + assert (n = 4) by lia. subst n. eexists. split; [reflexivity|]. split; [apply cat_word; [apply (B buf 0)|apply (B d 24)]|]. split; [reflexivity|].
      split; [|repeat split; reflexivity]. change (Z.to_nat 1) with 1%nat. change (Z.to_nat 4) with (1 + 3)%nat. change (Z.to_nat (1 + 4 - 2)) with 3%nat.
      rewrite (slice_shift 24 8) by lia. rewrite cat_bytes, low_bytes_app, (low_bytes_slice 3 0 24), L0, <- app_assoc by lia. reflexivity.
Qed.

(* words on offer or about to be *)
Definition f2_offer (s : f2_st) : list (Z * bool) :=
  (if f2_vout s then [(f2_dout s, f2_eout s)] else []) ++
  (match f2_fsm_st s with
   | F2_END => []
   | F2_PRE_END => if f2_dval s then [(f2_dreg s, true)] else []
   | _ => if f2_dval s then [(f2_dreg s, false)] else [] end).

(* done: words handed over; B: bytes accepted; ended: the last accepted word carried the end *)
Definition f2_inv (s : f2_st) (done : list (Z * bool)) (B : list Z) (ended : bool) : Prop :=
  match f2_fsm_st s with
  | F2_NORMAL => f2_obusy s = f2_dval s /\ (f2_dval s = true -> f2_vout s = true) /\ (f2_cnt s = 0 \/ f2_cnt s = 1) /\
      f2_endr s = false /\ f2_eout s = false /\ f2_ereg s = false /\ ended = false /\
      exists pw, done ++ f2_offer s = plain pw /\ Forall word_ok pw /\ wbytes pw ++ f2_bufb s = B
  | F2_CLEAN => f2_obusy s = true /\ f2_vout s = true /\ f2_eout s = false /\ f2_ereg s = false /\ ended = f2_endr s /\
      1 <= f2_cnt s <= 3 /\ (f2_endr s = false -> 2 <= f2_cnt s) /\
      exists pw, done ++ f2_offer s = plain pw /\ Forall word_ok pw /\ wbytes pw ++ f2_bufb s = B
  | F2_PRE_END => ended = true /\ f2_vout s = true /\ f2_eout s = negb (f2_dval s) /\
      exists pw w, cut (done ++ f2_offer s) = plain pw ++ [(w, true)] /\ Forall word_ok (pw ++ [w]) /\ wbytes (pw ++ [w]) = B
  | F2_END => ended = true /\ f2_vout s = true /\ f2_eout s = true /\
      exists pw w pad, cut (done ++ f2_offer s) = plain pw ++ [(w, true)] /\ Forall word_ok (pw ++ [w]) /\
        wbytes (pw ++ [w]) = B ++ repeat 0 pad /\ (pad <= 1)%nat
  end.

Definition f2_ok (i : f2_in) : Prop := f2i_valid i = true -> 2 <= f2i_ctr i <= 4.
Definition f2_took (s : f2_st) (i : f2_in) : bool := f2i_valid i && negb (f2_obusy s).
Definition f2_gave (s : f2_st) (i : f2_in) : list (Z * bool) :=
  if f2_vout s && negb (f2i_busy i) then [(f2_dout s, f2_eout s)] else [].

Lemma wbytes_snoc pw w : wbytes (pw ++ [w]) = wbytes pw ++ low_bytes 2 w.
Proof. unfold wbytes. rewrite flat_map_app. cbn [flat_map]. rewrite app_nil_r. reflexivity. Qed.

Lemma plain_cons_inv {A} a (l : list (A * bool)) x pw : a ++ (x, false) :: l = plain pw -> a ++ [(x, false)] ++ l = plain pw.
Proof. auto. Qed.

Definition f2_fin (s : f2_st) (i : f2_in) : bool := f2i_end i && ((f2_cnt s =? 0) && (f2i_ctr i =? 2)).

Lemma normal_logic_ok s i : f2i_valid i = true -> f2_cnt s = 0 \/ f2_cnt s = 1 -> 2 <= f2i_ctr i <= 4 ->
  let r := normal_logic s i in let k := f2_cnt s + f2i_ctr i - 2 in
  exists w, nl_data r = Some w /\ word_ok w /\ oget (nl_cnt r) (f2_cnt s) = k /\
    f2_bufb s ++ low_bytes (Z.to_nat (f2i_ctr i)) (f2i_data i) =
    low_bytes 2 w ++ low_bytes (Z.to_nat k) (oget (nl_buf r) (f2_buf s)) /\
    nl_end r = f2_fin s i /\ nl_endr r = f2i_end i && negb (f2_fin s i) /\
    nl_busy r = (2 <=? k) || (f2i_end i && negb (f2_fin s i)) /\
    nl_next r = if f2i_end i then Some (if f2_fin s i then F2_PRE_END else F2_CLEAN)
                else if 2 <=? k then Some F2_CLEAN else None.
Proof.
  intros Hv Hc Hn. cbv zeta. unfold normal_logic, f2_fin. rewrite Hv.
  destruct (nl_switch_ok (f2_cnt s) (f2_buf s) (f2i_data i) (f2i_ctr i) Hc Hn) as (w & A1 & A2 & A3 & A4 & A5 & A6 & A7 & A8).
  exists w. destruct (f2i_end i).
  - destruct ((f2_cnt s =? 0) && (f2i_ctr i =? 2)) eqn:E; cbn [nl_data nl_cnt nl_buf nl_end nl_endr nl_busy nl_next andb negb orb];
      rewrite ?A5, ?A6, ?A7; repeat (split; [assumption || reflexivity|]); rewrite ?orb_false_r, ?orb_true_r; auto.
  - cbn [andb negb orb]. rewrite orb_false_r. repeat (split; [assumption|]). assumption.
Qed.

Lemma f2_step_ok s i done B ended : f2_inv s done B ended -> f2_ok i ->
  f2_inv (f2_step s i) (done ++ f2_gave s i)
    (if f2_took s i && negb ended then B ++ low_bytes (Z.to_nat (f2i_ctr i)) (f2i_data i) else B)
    (ended || (f2_took s i && f2i_end i)).
Proof.
  intros I Hi. unfold f2_inv in I. destruct (f2_fsm_st s) eqn:Est.
  - (* NORMAL *)
    destruct I as (N1 & N2 & N3 & N4 & N5 & N6 & -> & pw & D & Hpw & HB).
    cbn [orb negb]. rewrite andb_true_r. unfold f2_step. rewrite Est. unfold f2_normal, f2_gave, f2_took.
    unfold f2_offer in D. rewrite Est in D.
    rewrite N1. 
    destruct (f2i_valid i) eqn:Ev.
    + destruct (normal_logic_ok s i Ev N3 (Hi Ev)) as (w & A1 & A2 & A3 & A4 & A5 & A6 & A7 & A8). specialize (Hi Ev).
      destruct (f2_dval s) eqn:Ed.
      * (* holding a second word: not taken *)
        specialize (N2 eq_refl). rewrite N2 in *.
        destruct (f2i_busy i) eqn:Eb; cbn [negb andb orb]; unfold f2_inv; cbn [f2_fsm_st];
          cbn [f2_obusy f2_dval f2_vout f2_cnt f2_endr f2_eout f2_ereg];
          (split; [reflexivity|]); (split; [auto|]); (split; [assumption|]); (split; [assumption|]);
          (split; [assumption|]); (split; [assumption|]); (split; [reflexivity|]); exists pw; (split; [|split; [assumption|exact HB]]);
          unfold f2_offer; cbn [f2_fsm_st f2_vout f2_dval f2_dout f2_eout f2_dreg].
        -- rewrite app_nil_r. exact D.
        -- rewrite N6, <- app_assoc. exact D.
      * (* taken *)
        assert (Hdone : exists pw', Forall word_ok pw' /\ wbytes pw' ++ f2_bufb s = B /\ 
          done ++ (if f2_vout s then [(f2_dout s, false)] else []) = plain pw').
        { exists pw. rewrite N5, app_nil_r in D. auto. }
        clear pw D Hpw HB. destruct Hdone as (pw & Hpw & HB & D). cbn [negb andb orb] in *.
        rewrite A1. cbn [oget].
        assert (Hw : wbytes (pw ++ [w]) ++ low_bytes (Z.to_nat (f2_cnt s + f2i_ctr i - 2)) (oget (nl_buf (normal_logic s i)) (f2_buf s)) =
                     B ++ low_bytes (Z.to_nat (f2i_ctr i)) (f2i_data i)).
        { rewrite wbytes_snoc, <- app_assoc, <- A4, <- HB, app_assoc. reflexivity. }
        assert (Hpw' : Forall word_ok (pw ++ [w])) by (apply Forall_app; split; [assumption|constructor; [assumption|constructor]]).
        set (r := normal_logic s i) in *.
        assert (Hplain : plain (pw ++ [w]) = done ++ (if f2_vout s then [(f2_dout s, false)] else []) ++ [(w, false)]).
        { unfold plain at 1. rewrite map_app. fold (plain pw). rewrite <- D, <- app_assoc. reflexivity. }
        assert (Hcutp : cut (done ++ (if f2_vout s then [(f2_dout s, false)] else []) ++ [(w, true)]) = plain pw ++ [(w, true)]).
        { rewrite app_assoc, D, cut_plain_app. reflexivity. }
        (* the new outputs: either w is offered directly, or it goes to the register *)
        assert (Hfin : f2_fin s i = true -> f2i_end i = true /\ f2_cnt s + f2i_ctr i - 2 = 0).
        { unfold f2_fin. intros X. apply andb_prop in X. destruct X as [X1 X2]. split; [assumption|lia]. }
        assert (Hnf : f2i_end i = true -> f2_fin s i = false -> 1 <= f2_cnt s + f2i_ctr i - 2).
        { unfold f2_fin. intros -> X. cbn [andb] in X. lia. }
        destruct (f2i_busy i) eqn:Eb, (f2_vout s) eqn:Evo; cbn [negb andb orb app] in *.
        (* 4 cases: (busy, vout) ; only (true,true) stores in the register *)
        all: unfold f2_inv; cbn [f2_fsm_st]; rewrite A8;
          cbn [f2_obusy f2_dval f2_vout f2_cnt f2_endr f2_eout f2_ereg f2_dout f2_dreg f2_buf];
          rewrite ?A3, ?A5, ?A6, ?A7, ?N4, ?N5, ?N6, ?orb_false_r;
          destruct (f2i_end i) eqn:Ee; cbn [oget andb negb orb];
          [ destruct (f2_fin s i) eqn:Ef; cbn [andb negb orb oget]
          | replace (f2_fin s i) with false in * by (unfold f2_fin; rewrite Ee; reflexivity);
            destruct (2 <=? f2_cnt s + f2i_ctr i - 2) eqn:E2; cbn [oget] ].
        all: try (destruct (Hfin eq_refl) as [_ Hk0]).
        all: try rewrite Ef.
        all: rewrite ?orb_true_r; cbn [negb].
        all: repeat match goal with |- _ /\ _ => split end; try reflexivity; try lia; try (intros; congruence).
        all: lazymatch goal with |- exists _ _, _ => exists pw, w | |- exists _, _ => exists (pw ++ [w]) | |- _ => apply Hnf; [reflexivity|assumption || reflexivity] end.
        all: unfold f2_offer, f2_bufb; cbn [f2_fsm_st f2_vout f2_dval f2_dout f2_eout f2_dreg f2_cnt f2_buf app];
             rewrite ?A3, ?app_nil_r, <- ?app_assoc; cbn [app].
        all: (split; [first [symmetry; exact Hplain | exact Hcutp]|split; [assumption|]]).
        all: try exact Hw.
        all: rewrite Hk0 in Hw; change (Z.to_nat 0) with 0%nat in Hw; cbn [low_bytes] in Hw; rewrite app_nil_r in Hw; exact Hw.
    + (* nothing offered *)
      unfold normal_logic. rewrite Ev. cbn [nl_none nl_data nl_cnt nl_buf nl_end nl_endr nl_busy nl_next oget andb orb].
      rewrite N4, ?N5, ?N6.
      assert (Hlog : forall b : bool, (if b then false else false) = false) by (intros []; reflexivity).
      assert (Hst : forall b : bool, (if b then F2_NORMAL else F2_NORMAL) = F2_NORMAL) by (intros []; reflexivity).
      assert (Hid : forall (b : bool) (x : Z), (if b then x else x) = x) by (intros []; reflexivity).
      rewrite !andb_false_r, !Hlog, !Hst, !Hid.
      destruct (f2i_busy i) eqn:Eb, (f2_vout s) eqn:Evo, (f2_dval s) eqn:Ed; try (specialize (N2 eq_refl); discriminate);
        cbn [negb andb orb]; unfold f2_inv; cbn [f2_fsm_st f2_obusy f2_dval f2_vout f2_cnt f2_endr f2_eout f2_ereg f2_dout f2_dreg f2_buf];
        repeat match goal with |- _ /\ _ => split end; try reflexivity; try assumption; try (intros; congruence);
        exists pw; (split; [|split; [assumption|exact HB]]);
        unfold f2_offer; cbn [f2_fsm_st f2_vout f2_dval f2_dout f2_eout f2_dreg app]; cbn [app] in D; rewrite ?N5, ?N6 in D; rewrite ?N5, ?N6;
        rewrite ?app_nil_r, <- ?app_assoc in *; cbn [app] in *; exact D.
  - (* CLEAN *)
    destruct I as (N1 & N2 & N3 & N4 & -> & N5 & N6 & pw & D & Hpw & HB).
    unfold f2_took. rewrite N1. cbn [negb]. rewrite andb_false_r. cbn [andb]. rewrite orb_false_r.
    unfold f2_step. rewrite Est. unfold f2_gave. rewrite N2. unfold f2_offer in D. rewrite Est, N2, N3 in D.
    destruct (f2i_busy i) eqn:Eb; cbn [negb andb].
    + rewrite app_nil_r. unfold f2_inv, f2_offer. rewrite Est, N2, N3. repeat (split; [assumption || reflexivity|]). exists pw. auto.
    + destruct (f2_dval s) eqn:Ed; cbn [negb].
      * unfold f2_inv, f2_drain. cbn [f2_fsm_st f2_obusy f2_dval f2_vout f2_cnt f2_endr f2_eout f2_ereg f2_dout f2_dreg f2_buf].
        repeat (split; [assumption || reflexivity|]). exists pw. split; [|auto].
        unfold f2_offer. cbn [f2_fsm_st f2_vout f2_dval f2_dout f2_eout f2_dreg app]. rewrite N3, N4, <- app_assoc. exact D.
      * cbn [app] in D. 
        assert (Hbuf : exists w, word_ok w /\ f2_dout (f2_clean s) = w /\
          (f2_cnt s = 1 -> low_bytes 2 w = f2_bufb s ++ [0] /\ f2_cnt (f2_clean s) = 0) /\
          (2 <= f2_cnt s -> low_bytes 2 w ++ f2_bufb (f2_clean s) = f2_bufb s /\ f2_cnt (f2_clean s) = f2_cnt s - 2)).
        { unfold f2_bufb, f2_clean. cbn [f2_dout f2_cnt f2_buf]. eexists. split; [|split; [reflexivity|]].
          - destruct (f2_cnt s =? 1) eqn:E1; [|destruct (f2_cnt s =? 2) eqn:E2; [|replace (f2_cnt s =? 3) with true by lia]].
            + pose proof (slice_range 0 8 (f2_buf s) ltac:(lia)) as X. change (8 - 0) with 8 in X. unfold word_ok.
              change (2 ^ 8) with 256 in *. change (2 ^ 16) with 65536. lia.
            + apply (slice_range 0 16). lia.
            + apply (slice_range 8 24). lia.
          - split.
            + intros E1. rewrite E1. cbn [Z.eqb Pos.eqb]. split; [|reflexivity]. change (Z.to_nat 1) with 1%nat.
              replace (slice 0 8 (f2_buf s) * 2 ^ 8) with (slice 0 8 (f2_buf s) * 256 + 0) by (change (2 ^ 8) with 256; lia).
              rewrite low_bytes_S, low_bytes1_slice by lia. reflexivity.
            + intros E2. destruct (f2_cnt s =? 1) eqn:E1; [lia|]. destruct (f2_cnt s =? 2) eqn:E3; cbn [Z.eqb].
              * assert (E4 : f2_cnt s = 2) by lia. rewrite E4. cbn [Z.eqb Pos.eqb]. split; [|reflexivity]. change (Z.to_nat 0) with 0%nat. change (Z.to_nat 2) with 2%nat.
                change (low_bytes 0 (f2_buf s)) with (@nil Z). rewrite app_nil_r, (low_bytes_slice 2 0 16) by lia. change (2 ^ 0) with 1. rewrite Z.div_1_r. reflexivity.
              * assert (E4 : f2_cnt s = 3) by lia. rewrite E4. cbn [Z.eqb Pos.eqb]. split; [|reflexivity]. change (Z.to_nat 1) with 1%nat. change (Z.to_nat 3) with (2 + 1)%nat.
                rewrite (low_bytes_slice 2 8 24), low_bytes1_slice, low_bytes_app by lia. reflexivity. }
        destruct Hbuf as (w & Hw & Hdo & H1 & H2).
        assert (Hpw' : Forall word_ok (pw ++ [w])) by (apply Forall_app; split; [assumption|constructor; [assumption|constructor]]).
        assert (Hoff : f2_offer (f2_clean s) = [(w, f2_eout (f2_clean s))]).
        { unfold f2_offer. rewrite Hdo. replace (f2_dval (f2_clean s)) with false by (symmetry; exact Ed).
          change (f2_vout (f2_clean s)) with true. destruct (f2_fsm_st (f2_clean s)); reflexivity. }
        rewrite N3. unfold f2_inv. 
        destruct (f2_endr s) eqn:Er.
        -- destruct (f2_cnt s <=? 2) eqn:E2.
           ++ replace (f2_fsm_st (f2_clean s)) with F2_END by (unfold f2_clean; cbn; rewrite Er, E2; reflexivity).
              assert (Ee : f2_eout (f2_clean s) = true) by (unfold f2_clean; cbn; rewrite Er, E2; reflexivity).
              split; [reflexivity|]. split; [reflexivity|]. split; [assumption|].
              exists pw, w, (if f2_cnt s =? 1 then 1%nat else 0%nat). rewrite Hoff, Ee. split; [|split; [assumption|split]].
              ** rewrite <- app_assoc. cbn [app]. change [(f2_dout s, false); (w, true)] with ([(f2_dout s, false)] ++ [(w, true)]).
                 rewrite app_assoc, D, cut_plain_app. reflexivity.
              ** rewrite wbytes_snoc. destruct (f2_cnt s =? 1) eqn:E1.
                 --- destruct (H1 ltac:(lia)) as [X _]. rewrite X, <- HB, app_assoc. reflexivity.
                 --- destruct (H2 ltac:(lia)) as [X Y]. unfold f2_bufb in X at 1. rewrite Y in X. replace (f2_cnt s - 2) with 0 in X by lia.
                     change (Z.to_nat 0) with 0%nat in X. change (low_bytes 0 (f2_buf (f2_clean s))) with (@nil Z) in X. rewrite app_nil_r in X. cbn [repeat]. rewrite app_nil_r, X. exact HB.
              ** destruct (f2_cnt s =? 1); lia.
           ++ replace (f2_fsm_st (f2_clean s)) with F2_CLEAN by (unfold f2_clean; cbn; rewrite Er, E2; reflexivity).
              assert (Ee : f2_eout (f2_clean s) = false) by (unfold f2_clean; cbn; rewrite Er, E2, N3; reflexivity).
              assert (Ee2 : f2_endr (f2_clean s) = true) by (unfold f2_clean; cbn; rewrite Er; reflexivity).
              destruct (H2 ltac:(lia)) as [X Y].
              split; [unfold f2_clean; cbn; rewrite Er; assumption|]. split; [reflexivity|]. split; [assumption|]. split; [assumption|].
              split; [symmetry; assumption|]. split; [lia|]. split; [congruence|].
              exists (pw ++ [w]). rewrite Hoff, Ee. split; [|split; [assumption|]].
              ** rewrite D. apply plain_snoc.
              ** rewrite wbytes_snoc, <- app_assoc, X. exact HB.
        -- replace (f2_fsm_st (f2_clean s)) with F2_NORMAL by (unfold f2_clean; cbn; rewrite Er; reflexivity).
           assert (Ee : f2_eout (f2_clean s) = false) by (unfold f2_clean; cbn; rewrite Er, N3; reflexivity).
           specialize (N6 eq_refl). destruct (H2 ltac:(lia)) as [X Y].
           split; [unfold f2_clean; cbn; rewrite Er, Ed; reflexivity|]. split; [reflexivity|]. split; [lia|].
           split; [unfold f2_clean; cbn; assumption|]. split; [assumption|]. split; [assumption|]. split; [reflexivity|].
           exists (pw ++ [w]). rewrite Hoff, Ee. split; [|split; [assumption|]].
           ++ rewrite D. apply plain_snoc.
           ++ rewrite wbytes_snoc, <- app_assoc, X. exact HB.
  - (* PRE_END *)
    destruct I as (-> & N1 & N2 & pw & w & D & Hpw & HB). cbn [negb orb]. rewrite andb_false_r.
    unfold f2_step. rewrite Est. unfold f2_gave. rewrite N1. unfold f2_offer in D. rewrite Est, N1 in D.
    destruct (f2i_busy i) eqn:Eb; cbn [negb andb].
    + rewrite app_nil_r. unfold f2_inv, f2_offer. rewrite Est, N1. repeat (split; [assumption || reflexivity|]). exists pw, w. auto.
    + destruct (f2_dval s) eqn:Ed; cbn [negb] in *.
      * unfold f2_inv, f2_drain. cbn [f2_fsm_st f2_vout f2_eout]. repeat (split; [reflexivity|]).
        exists pw, w, 0%nat. cbn [repeat]. rewrite app_nil_r. split; [|auto].
        unfold f2_offer. cbn [f2_fsm_st f2_vout f2_dout f2_eout app]. rewrite <- app_assoc. exact D.
      * unfold f2_inv, f2_goto. cbn [f2_fsm_st f2_vout f2_eout]. repeat (split; [assumption || reflexivity|]).
        exists pw, w, 0%nat. cbn [repeat]. rewrite app_nil_r. split; [|auto].
        unfold f2_offer. cbn [f2_fsm_st f2_vout f2_dout f2_eout app]. rewrite N1. cbn [app] in *. rewrite N2 in *.
        rewrite <- app_assoc. cbn [app]. rewrite cut_stop. exact D.
  - (* END *)
    destruct I as (-> & N1 & N2 & pw & w & pad & D & Hpw & HB & Hp). cbn [negb orb]. rewrite andb_false_r.
    unfold f2_step. rewrite Est. unfold f2_gave. rewrite N1.
    unfold f2_inv. rewrite Est. repeat (split; [assumption || reflexivity|]). exists pw, w, pad. split; [|auto].
    unfold f2_offer in *. rewrite Est, N1, N2 in *. cbn [app] in *.
    destruct (negb (f2i_busy i)); cbn [andb]; [|rewrite app_nil_r; exact D].
    rewrite <- app_assoc. cbn [app]. rewrite cut_stop. exact D.
Qed.

Lemma existsb_cut {A} (l : list (A * bool)) : existsb snd (cut l) = existsb snd l.
Proof. induction l as [|[x []] l IH]; cbn; auto. Qed.

Lemma f2_run_ok : forall l s done B e, f2_inv s done B e -> Forall f2_ok l ->
  f2_inv (f2_run s l) (done ++ f2_outs s l)
    (B ++ item_bytes (if e then [] else cut (f2_accepted s l)))
    (e || existsb snd (f2_accepted s l)).
Proof.
  induction l as [|i l IH]; intros s done B e I HF.
  - cbn. rewrite app_nil_r, orb_false_r. destruct e; cbn; rewrite app_nil_r; assumption.
  - apply Forall_cons_iff in HF. destruct HF as [Hi HF]. pose proof (f2_step_ok s i done B e I Hi) as I'.
    specialize (IH _ _ _ _ I' HF). cbn [f2_run f2_outs f2_accepted]. fold (f2_took s i). fold (f2_gave s i). rewrite app_assoc.
    replace (B ++ item_bytes (if e then [] else cut ((if f2_took s i then [(f2i_data i, f2i_ctr i, f2i_end i)] else []) ++ f2_accepted (f2_step s i) l)))
      with ((if f2_took s i && negb e then B ++ low_bytes (Z.to_nat (f2i_ctr i)) (f2i_data i) else B) ++
            item_bytes (if e || (f2_took s i && f2i_end i) then [] else cut (f2_accepted (f2_step s i) l))).
    + replace (e || existsb snd ((if f2_took s i then [(f2i_data i, f2i_ctr i, f2i_end i)] else []) ++ f2_accepted (f2_step s i) l))
        with (e || (f2_took s i && f2i_end i) || existsb snd (f2_accepted (f2_step s i) l)); [exact IH|].
      rewrite existsb_app, <- orb_assoc. f_equal. f_equal. destruct (f2_took s i); cbn; [rewrite orb_false_r|]; reflexivity.
    + destruct e; cbn [negb andb orb]; [rewrite andb_false_r; reflexivity|]. rewrite andb_true_r.
      destruct (f2_took s i); cbn [andb app]; [|reflexivity]. cbn [cut]. destruct (f2i_end i); unfold item_bytes; cbn [flat_map fst snd].
      * rewrite !app_nil_r. reflexivity.
      * rewrite <- app_assoc. reflexivity.
Qed.

Lemma f2_inv_init : f2_inv f2_init [] [] false.
Proof. unfold f2_inv, f2_init. cbn. repeat split; auto; try discriminate. exists []. repeat split. constructor. Qed.

Lemma bytes_of_low w : word_ok w -> low_bytes 2 w = bytes_of w.
Proof. intros H. destruct (byte_div w H) as (A & B & E). unfold bytes_of. rewrite E at 1. rewrite (Z.mul_comm 256). apply low_bytes2; lia. Qed.

Lemma wbytes_of ws : Forall word_ok ws -> wbytes ws = flat_map bytes_of ws.
Proof. induction 1; [reflexivity|]. cbn [wbytes flat_map]. rewrite bytes_of_low by assumption. f_equal. exact IHForall. Qed.

Lemma bytes_word w : word_ok w -> w / 256 * 256 + w mod 256 = w.
Proof. intros. pose proof (Z.div_mod w 256 ltac:(lia)). lia. Qed.

(* pairing the bytes of words gives the words back, also when a final zero byte is dropped *)
Lemma words_of_bytes ws B pad : Forall word_ok ws -> wbytes ws = B ++ repeat 0 pad -> (pad <= 1)%nat -> words_of B = ws.
Proof.
  intros HF. rewrite wbytes_of by assumption. revert B. induction HF as [|w ws Hw HF IH]; intros B E Hp.
  - cbn in E. symmetry in E. apply app_eq_nil in E. destruct E as [-> _]. reflexivity.
  - cbn [flat_map bytes_of app] in E. destruct B as [|b [|b' B]].
    + destruct pad as [|[|]]; cbn [app repeat flat_map] in E; try discriminate; lia.
    + destruct pad as [|[|]]; cbn [app repeat flat_map] in E; [discriminate| |lia]. injection E as <- E1 E2.
      destruct ws as [|w' ws]; [|cbn [app repeat flat_map] in E2; discriminate]. cbn [words_of]. f_equal. pose proof (bytes_word w Hw). lia.
    + cbn [app repeat flat_map] in E. injection E as <- <- E. cbn [words_of]. rewrite (bytes_word w Hw). f_equal. apply IH; assumption.
Qed.

Lemma f2_offer_len s : len (f2_offer s) <= 2.
Proof. unfold f2_offer. rewrite len_app. destruct (f2_vout s), (f2_fsm_st s), (f2_dval s); cbn; lia. Qed.

Lemma plain_fst {A} (pw : list A) : map fst (plain pw) = pw.
Proof. unfold plain. rewrite map_map. cbn. apply map_id. Qed.

Lemma wbytes_app a b : wbytes (a ++ b) = wbytes a ++ wbytes b.
Proof. unfold wbytes. apply flat_map_app. Qed.

Lemma wbytes_len ws : len (wbytes ws) = 2 * len ws.
Proof. induction ws; [reflexivity|]. unfold wbytes in *. cbn [flat_map]. rewrite len_app, IHws. unfold len. rewrite low_bytes_len. cbn [length]. lia. Qed.

(* what the outside can see of a state satisfying the invariant *)
Lemma f2_obs s done B e : f2_inv s done B e ->
  (existsb snd done = true -> e = true /\ map fst (cut done) = words_of B) /\
  (existsb snd done = false -> Forall word_ok (map fst done) /\ exists rest, B = wbytes (map fst done) ++ rest /\ len rest <= 7).
Proof.
  intros I. unfold f2_inv in I. pose proof (f2_offer_len s) as Hol.
  assert (Hp : forall pw, done ++ f2_offer s = plain pw -> Forall word_ok pw -> wbytes pw ++ f2_bufb s = B -> 0 <= f2_cnt s <= 3 ->
    (existsb snd done = true -> e = true /\ map fst (cut done) = words_of B) /\
    (existsb snd done = false -> Forall word_ok (map fst done) /\ exists rest, B = wbytes (map fst done) ++ rest /\ len rest <= 7)).
  { intros pw D Hpw HB Hc. assert (Hex : existsb snd done = false).
    { assert (X : existsb snd (done ++ f2_offer s) = false) by (rewrite D; apply existsb_plain). rewrite existsb_app in X.
      apply orb_false_elim in X. apply X. }
    split; [congruence|]. intros _. apply (f_equal (map fst)) in D. rewrite map_app, plain_fst in D. rewrite <- D in Hpw, HB.
    apply Forall_app in Hpw. destruct Hpw as [Hpw _]. split; [assumption|].
    exists (wbytes (map fst (f2_offer s)) ++ f2_bufb s). rewrite wbytes_app, <- app_assoc in HB. split; [congruence|].
    rewrite len_app, wbytes_len. unfold len at 2. unfold f2_bufb. rewrite low_bytes_len.
    assert (len (map fst (f2_offer s)) = len (f2_offer s)) by (unfold len; rewrite map_length; reflexivity). lia. }
  assert (Hq : forall pw w pad, cut (done ++ f2_offer s) = plain pw ++ [(w, true)] -> Forall word_ok (pw ++ [w]) ->
     wbytes (pw ++ [w]) = B ++ repeat 0 pad -> (pad <= 1)%nat -> e = true ->
    (existsb snd done = true -> e = true /\ map fst (cut done) = words_of B) /\
    (existsb snd done = false -> Forall word_ok (map fst done) /\ exists rest, B = wbytes (map fst done) ++ rest /\ len rest <= 7)).
  { intros pw w pad D Hpw HB Hpad He. split; intros Hex.
    - split; [assumption|]. rewrite cut_hasend in D by assumption. rewrite D, map_app, plain_fst. cbn [map fst]. symmetry. eapply words_of_bytes; eauto.
    - rewrite cut_app_noend in D by assumption.
      assert (Hd : exists q, plain pw ++ [(w, true)] = done ++ q /\ q <> [] /\ len q <= 2).
      { exists (cut (f2_offer s)). split; [congruence|]. split.
        - intros E. rewrite E, app_nil_r in D. rewrite D, existsb_app in Hex. cbn in Hex. rewrite orb_true_r in Hex. discriminate.
        - assert (X : forall l : list (Z * bool), len (cut l) <= len l).
          { induction l as [|[x []] l IH]; cbn [cut]; unfold len in *; cbn [length] in *; lia. }
          specialize (X (f2_offer s)). lia. }
      destruct Hd as (q & E & Hq1 & Hq2). destruct (exists_last Hq1) as (q' & y & ->). rewrite app_assoc in E.
      apply app_inj_tail in E. destruct E as [E _]. apply (f_equal (map fst)) in E. rewrite plain_fst, map_app in E. rewrite E in Hpw, HB.
      rewrite <- app_assoc in Hpw, HB. apply Forall_app in Hpw. destruct Hpw as [Hpw _]. split; [assumption|].
      rewrite wbytes_app in HB. rewrite len_app in Hq2. unfold len in Hq2 at 2. cbn [length] in Hq2.
      assert (Hl : len (wbytes (map fst q' ++ [w])) = 2 * (len q' + 1)).
      { rewrite wbytes_len, len_app. unfold len. rewrite map_length. cbn [length]. lia. }
      destruct pad as [|[|]]; [| |lia].
      + cbn [repeat] in HB. rewrite app_nil_r in HB. eexists. split; [symmetry; exact HB|]. lia.
      + cbn [repeat] in HB. assert (Hne : wbytes (map fst q' ++ [w]) <> []) by (intros Z0; rewrite Z0 in Hl; change (len (@nil Z)) with 0 in Hl; pose proof (len_nonneg q'); lia).
        destruct (exists_last Hne) as (z & x & Hz). rewrite Hz, app_assoc in HB. apply app_inj_tail in HB. destruct HB as [HB _].
        exists z. split; [symmetry; exact HB|]. rewrite Hz, len_app in Hl. unfold len in Hl at 2. cbn [length] in Hl. lia. }
  destruct (f2_fsm_st s).
  - destruct I as (_ & _ & N3 & _ & _ & _ & -> & pw & D & Hpw & HB). apply (Hp pw); auto. lia.
  - destruct I as (_ & _ & _ & _ & _ & N3 & _ & pw & D & Hpw & HB). apply (Hp pw); auto. lia.
  - destruct I as (-> & _ & _ & pw & w & D & Hpw & HB). apply (Hq pw w 0%nat); auto. cbn. rewrite app_nil_r. assumption.
  - destruct I as (-> & _ & _ & pw & w & pad & D & Hpw & HB & Hp'). apply (Hq pw w pad); auto.
Qed.

(* ------------------------------------------------------------ both stages *)

Record fx_inv (s : f1_st * f2_st) (acc : list (Z * bool)) (outs : list (Z * bool)) : Prop := {
  fxv_1 : f1_inv (fst s);
  fxv_mid : exists mid, map f1_item acc = mid ++ f1_held (fst s) /\
     f2_inv (snd s) outs (item_bytes (cut mid)) (existsb snd mid);
  fxv_w : Forall (fun x => word_ok (fst x)) acc }.

Definition fx_took (s : f1_st * f2_st) (i : fx_in) : list (Z * bool) :=
  if fxi_valid i && negb (f1_obusy (fst s)) then [(fxi_data i, fxi_end i)] else [].
Definition fx_gave (s : f1_st * f2_st) (i : fx_in) : list (Z * bool) :=
  if f2_vout (snd s) && negb (fxi_busy i) then [(f2_dout (snd s), f2_eout (snd s))] else [].

Lemma f1_item_ctr x : word_ok (fst x) -> 2 <= snd (fst (f1_item x)) <= 4.
Proof. intros. apply f1_logic_ok. assumption. Qed.

Lemma fx_step_ok s i acc outs : fx_inv s acc outs ->
  (fxi_valid i = true -> f1_obusy (fst s) = false -> word_ok (fxi_data i)) ->
  fx_inv (fx_step s i) (acc ++ fx_took s i) (outs ++ fx_gave s i).
Proof.
  intros [I1 (mid & Hmid & I2) Hw] Hi. destruct s as [s1 s2]. cbn [fst snd] in *.
  destruct (f1_step_ok s1 (fx_in1 (s1, s2) i) I1) as [J1 E1]. unfold fx_in1 in E1. cbn [f1i_valid f1i_data f1i_end f1i_busy fst snd] in E1.
  fold (fx_in1 (s1, s2) i) in E1.
  assert (Hok : f2_ok (fx_in2 (s1, s2) i)).
  { unfold f2_ok, fx_in2. cbn [f2i_valid f2i_ctr fst]. intros Hv.
    assert (X : In (f1_dout s1, f1_ctr s1, f1_eout s1) (map f1_item acc)).
    { rewrite Hmid. apply in_or_app. right. unfold f1_held. rewrite Hv. left. reflexivity. }
    apply in_map_iff in X. destruct X as (x & Ex & Hx). rewrite Forall_forall in Hw. pose proof (f1_item_ctr x (Hw x Hx)) as Y. rewrite Ex in Y. exact Y. }
  pose proof (f2_step_ok s2 (fx_in2 (s1, s2) i) _ _ _ I2 Hok) as J2.
  unfold f2_took, f2_gave in J2. cbn [fx_in2 f2i_valid f2i_data f2i_ctr f2i_end f2i_busy fst snd] in J2.
  set (g := f1_vout s1 && negb (f2_obusy s2)) in *.
  assert (Hacc : Forall (fun x => word_ok (fst x)) (acc ++ fx_took (s1, s2) i)).
  { apply Forall_app. split; [assumption|]. unfold fx_took. cbn [fst]. destruct (fxi_valid i) eqn:Ev, (f1_obusy s1) eqn:Eo; cbn; try constructor; [apply Hi; reflexivity|constructor]. }
  split; [exact J1| |exact Hacc].
  exists (mid ++ (if g then [(f1_dout s1, f1_ctr s1, f1_eout s1)] else [])). split.
  - rewrite map_app, Hmid, <- !app_assoc. f_equal. unfold fx_took. cbn [fst].
    replace (map f1_item (if fxi_valid i && negb (f1_obusy s1) then [(fxi_data i, fxi_end i)] else []))
      with (if fxi_valid i && negb (f1_obusy s1) then [f1_item (fxi_data i, fxi_end i)] else []) by (destruct (fxi_valid i), (f1_obusy s1); reflexivity).
    exact E1.
  - replace (item_bytes (cut (mid ++ (if g then [(f1_dout s1, f1_ctr s1, f1_eout s1)] else []))))
      with (if g && negb (existsb snd mid) then item_bytes (cut mid) ++ low_bytes (Z.to_nat (f1_ctr s1)) (f1_dout s1) else item_bytes (cut mid)).
    + replace (existsb snd (mid ++ (if g then [(f1_dout s1, f1_ctr s1, f1_eout s1)] else [])))
        with (existsb snd mid || (g && f1_eout s1)); [exact J2|].
      rewrite existsb_app. destruct g; cbn; rewrite ?orb_false_r; reflexivity.
    + destruct (existsb snd mid) eqn:Em; cbn [negb].
      * rewrite andb_false_r, cut_hasend by assumption. reflexivity.
      * rewrite andb_true_r. destruct g; [|rewrite app_nil_r; reflexivity]. rewrite cut_app_noend, (cut_noend mid) by assumption.
        unfold item_bytes. rewrite flat_map_app. f_equal. cbn [cut]. destruct (f1_eout s1); cbn [flat_map fst snd]; rewrite app_nil_r; reflexivity.
Qed.

Lemma fx_inv_init : fx_inv fx_init [] [].
Proof. split; [split; [reflexivity|discriminate]| |constructor]. exists []. split; [reflexivity|exact f2_inv_init]. Qed.

Lemma item_bytes_stuff acc : Forall (fun x => word_ok (fst x)) acc ->
  item_bytes (cut (map f1_item acc)) = stuff (flat_map bytes_of (map fst (cut acc))).
Proof.
  induction 1 as [|[w e] acc Hw HF IH]; [reflexivity|]. cbn [map f1_item fst snd cut].
  unfold item_bytes in *. cbn [flat_map fst snd]. destruct (f1_logic_ok w Hw) as [-> _].
  unfold stuff. cbn [flat_map map fst]. rewrite flat_map_app. f_equal. destruct e; [reflexivity|]. exact IH.
Qed.

Lemma existsb_items acc : existsb snd (map f1_item acc) = existsb snd acc.
Proof. induction acc as [|[w e] acc IH]; cbn; congruence. Qed.

(* what the outside sees *)
Lemma fx_obs s acc outs : fx_inv s acc outs ->
  (existsb snd outs = true -> existsb snd acc = true /\
     map fst (cut outs) = words_of (stuff (flat_map bytes_of (map fst (cut acc))))) /\
  (existsb snd outs = false -> Forall word_ok (map fst outs) /\ exists rest,
     stuff (flat_map bytes_of (map fst (cut acc))) = flat_map bytes_of (map fst outs) ++ rest /\ len rest <= 15).
Proof.
  intros [I1 (mid & Hmid & I2) Hw]. destruct (f2_obs _ _ _ _ I2) as [A B].
  rewrite <- item_bytes_stuff, <- (existsb_items acc), Hmid by assumption. split; intros He.
  - destruct (A He) as [Hm X]. rewrite existsb_app, Hm. split; [reflexivity|]. rewrite cut_hasend by assumption. exact X.
  - destruct (B He) as (Hwo & rest & E & Hr). split; [assumption|].
    rewrite <- wbytes_of by assumption. destruct (existsb snd mid) eqn:Em.
    + rewrite cut_hasend by assumption. exists rest. split; [exact E|lia].
    + rewrite cut_app_noend by assumption. rewrite (cut_noend mid Em) in E. unfold item_bytes in *. rewrite flat_map_app, E.
      exists (rest ++ flat_map (fun x : Z * Z * bool => low_bytes (Z.to_nat (snd (fst x))) (fst (fst x))) (cut (f1_held (fst s)))). rewrite app_assoc. split; [reflexivity|].
      rewrite len_app.
      assert (Hh : Forall (fun x : Z * Z * bool => 2 <= snd (fst x) <= 4) (f1_held (fst s))).
      { assert (X : Forall (fun x : Z * Z * bool => 2 <= snd (fst x) <= 4) (map f1_item acc)).
        { apply Forall_forall. intros y Hy. apply in_map_iff in Hy. destruct Hy as (x & <- & Hx). rewrite Forall_forall in Hw. apply f1_item_ctr, Hw, Hx. }
        rewrite Hmid in X. apply Forall_app in X. apply X. }
      assert (X : forall l : list (Z * Z * bool), Forall (fun x => 2 <= snd (fst x) <= 4) l ->
        len (flat_map (fun x => low_bytes (Z.to_nat (snd (fst x))) (fst (fst x))) (cut l)) <= 4 * len l).
      { induction 1 as [|[[d n] e] l Hx HF IH]; [cbn; lia|]. cbn [cut flat_map fst snd] in *. rewrite len_app. unfold len at 1. rewrite low_bytes_len.
        assert (len ((d, n, e) :: l) = len l + 1) as -> by (unfold len; cbn [length]; lia). pose proof (len_nonneg l). destruct e; [change (len (flat_map _ [])) with 0; cbn [flat_map]; change (len (@nil Z)) with 0; lia|lia]. }
      specialize (X _ Hh). pose proof (f1_held_len (fst s)). lia.
Qed.
