(* Property theorems for byte stuffing, framing and the force-end timer: C19-C24, C26, C29. *)
From Verif Require Import Bits Spec M_Fix M_Markers P_I3 P_Run P_Live P_Fix P_Markers.
Ltac Zify.zify_post_hook ::= idtac.

(* ------------------------------------------------------------------ C20 *)

(* For every valid/busy schedule: the items handed over are, in order, the expanded versions of
   the words accepted (their bytes with 0x00 after every 0xFF, and their end flag); at most two
   are in flight. *)
Theorem C20_fix1 : forall l, (forall i, In i l -> 0 <= f1i_data i < 2 ^ 16) ->
  let outs := f1_outs f1_init l in let acc := f1_accepted f1_init l in
  exists held,
    map (fun x => (stuff (bytes_of (fst x)), snd x)) acc =
    map (fun x => (low_bytes (Z.to_nat (snd (fst x))) (fst (fst x)), snd x)) (outs ++ held) /\
    len held <= 2 /\ Forall (fun x => 2 <= snd (fst x) <= 4) outs.
Proof.
  intros l Hl outs acc. destruct (f1_run_ok l f1_init) as [_ E]; [split; [reflexivity|discriminate]|].
  change (f1_held f1_init) with (@nil (Z * Z * bool)) in E. cbn [app] in E. fold outs acc in E.
  exists (f1_held (f1_run f1_init l)). rewrite <- E.
  assert (Hacc : forall x, In x acc -> 0 <= fst x < 2 ^ 16).
  { unfold acc. clear E acc outs. revert Hl. generalize f1_init. induction l as [|i l IH]; intros s Hl x Hx; [destruct Hx|].
    cbn [f1_accepted] in Hx. apply in_app_or in Hx. destruct Hx as [Hx|Hx].
    - destruct (_ && _) in Hx; [|destruct Hx]. destruct Hx as [<-|[]]. apply Hl. left. reflexivity.
    - apply (IH (f1_step s i)); [intros; apply Hl; right; assumption|assumption]. }
  assert (Hf : Forall (fun x : Z * Z * bool => 2 <= snd (fst x) <= 4) (map f1_item acc)).
  { apply Forall_forall. intros y Hy. apply in_map_iff in Hy. destruct Hy as (x & <- & Hx). apply (f1_logic_ok _ (Hacc x Hx)). }
  split; [|split; [apply f1_held_len|]].
  - rewrite map_map. apply map_ext_in. intros x Hx. unfold f1_item. cbn [fst snd].
    destruct (f1_logic_ok _ (Hacc x Hx)) as [-> _]. reflexivity.
  - rewrite E in Hf. apply Forall_app in Hf. apply Hf.
Qed.

Definition mkf1 v d e b := {| f1i_valid := v; f1i_data := d; f1i_end := e; f1i_busy := b |}.
Example C20_example : f1_outs f1_init
  [mkf1 true 0x12FF false false; mkf1 true 0xFFFF false true; mkf1 true 0xFF34 true true; mkf1 true 0xFF34 true false;
   mkf1 true 0x5678 true false; mkf1 false 0 false false; mkf1 false 0 false false]
  = [(0x12FF00, 3, false); (0xFF00FF00, 4, false); (0x5678, 2, true)].
Proof. reflexivity. Qed.

(* the stage never offers a word and then changes or withdraws it *)
Theorem C20_stable : forall s i,
  f1_vout s = true -> f1i_busy i = true ->
  let s' := f1_step s i in f1_vout s' = true /\ f1_dout s' = f1_dout s /\ f1_ctr s' = f1_ctr s /\ f1_eout s' = f1_eout s.
Proof.
  intros s i Hv Hb s'. unfold s', f1_step. destruct (f1_logic (f1i_data i)). rewrite Hb, Hv. cbn [negb].
  destruct (f1i_valid i && negb (f1_obusy s)); cbn; auto.
Qed.

(* ------------------------------------------------------------------ C21 *)

(* For every schedule: once the end word has been handed over, the words up to it are exactly
   the accepted bytes (up to the item accepted with end_in), two per word, a final odd byte
   being completed with 0x00; before that, they are a prefix, at most 7 bytes being held. *)
Theorem C21_fix2 : forall l, (forall i, In i l -> f2i_valid i = true -> 2 <= f2i_ctr i <= 4) ->
  let outs := f2_outs f2_init l in let bytes := item_bytes (cut (f2_accepted f2_init l)) in
  (existsb snd outs = true ->
     existsb snd (f2_accepted f2_init l) = true /\ map fst (cut outs) = words_of bytes) /\
  (existsb snd outs = false ->
     exists rest, bytes = flat_map bytes_of (map fst outs) ++ rest /\ len rest <= 7).
Proof.
  intros l Hl outs bytes.
  pose proof (f2_run_ok l f2_init [] [] false f2_inv_init) as I. cbn [app orb] in I.
  specialize (I ltac:(apply Forall_forall; exact Hl)). destruct (f2_obs _ _ _ _ I) as [A B]. split; [exact A|].
  intros He. destruct (B He) as (Hw & rest & E & Hr). exists rest. rewrite <- wbytes_of by assumption. auto.
Qed.

(* number of cycles in which the next stage is ready *)
Definition ready_cycles (l : list f2_in) : Z := len (filter (fun i => negb (f2i_busy i)) l).

Definition f2_left (s : f2_st) : Z :=
  match f2_fsm_st s with
  | F2_NORMAL => 5
  | F2_CLEAN => 1 + b2z (f2_dval s) + (if f2_cnt s <=? 2 then 1 else 2)
  | F2_PRE_END => 1 + b2z (f2_dval s)
  | F2_END => 1
  end.

Lemma f2_progress : forall l s done B, f2_inv s done B true -> Forall f2_ok l -> f2_left s <= ready_cycles l ->
  existsb snd (f2_outs s l) = true.
Proof.
  induction l as [|i l IH]; intros s done B I HF Hn.
  - exfalso. unfold ready_cycles, len in Hn. cbn in Hn. unfold f2_left in Hn.
    destruct (f2_fsm_st s), (f2_dval s); cbn [b2z] in Hn; try lia; destruct (f2_cnt s <=? 2); lia.
  - apply Forall_cons_iff in HF. destruct HF as [Hi HF]. pose proof (f2_step_ok s i done B true I Hi) as I'.
    cbn [orb negb] in I'. rewrite andb_false_r in I'. cbn [f2_outs]. rewrite existsb_app.
    assert (Hr : ready_cycles (i :: l) = ready_cycles l + b2z (negb (f2i_busy i))).
    { unfold ready_cycles. cbn [filter]. destruct (negb (f2i_busy i)); unfold len; cbn [length b2z]; lia. }
    rewrite Hr in Hn. unfold f2_inv in I. unfold f2_left in Hn. unfold f2_step in *. destruct (f2_fsm_st s) eqn:Est.
    + destruct I as (_ & _ & _ & _ & _ & _ & X & _). discriminate.
    + destruct I as (_ & N2 & N3 & _ & N4 & N5 & _). rewrite N2, N3. destruct (f2i_busy i) eqn:Eb; cbn [negb andb b2z] in *.
      * cbn. eapply IH; [exact I'|assumption|]. unfold f2_left. rewrite Est. lia.
      * cbn [existsb snd orb]. destruct (f2_dval s) eqn:Ed; cbn [negb b2z] in *.
        -- eapply IH; [exact I'|assumption|]. unfold f2_left, f2_drain. cbn [f2_fsm_st f2_dval f2_cnt b2z]. lia.
        -- eapply IH; [exact I'|assumption|]. unfold f2_left, f2_clean. cbn [f2_fsm_st f2_dval f2_cnt b2z]. rewrite <- N4, Ed. cbn [b2z].
           destruct (f2_cnt s <=? 2) eqn:E2; [lia|]. replace (f2_cnt s =? 1) with false by lia. replace (f2_cnt s =? 2) with false by lia. replace (f2_cnt s =? 3) with true by lia. cbn. lia.
    + destruct I as (_ & N2 & N3 & _). rewrite N2, N3. destruct (f2i_busy i) eqn:Eb; cbn [negb andb b2z] in *.
      * cbn. eapply IH; [exact I'|assumption|]. unfold f2_left. rewrite Est. lia.
      * destruct (f2_dval s) eqn:Ed; cbn [negb b2z existsb snd orb] in *; [|reflexivity].
        eapply IH; [exact I'|assumption|]. unfold f2_left, f2_drain. cbn [f2_fsm_st]. lia.
    + destruct I as (_ & N2 & N3 & _). rewrite N2, N3. destruct (f2i_busy i) eqn:Eb; cbn [negb andb b2z] in *.
      * cbn. eapply IH; [exact I'|assumption|]. unfold f2_left. rewrite Est. lia.
      * reflexivity.
Qed.

(* it never gets stuck: when the end item has been accepted, the end word is handed over by the
   fourth cycle in which the next stage is ready *)
Theorem C21_ends : forall l1 l2, (forall i, In i (l1 ++ l2) -> f2i_valid i = true -> 2 <= f2i_ctr i <= 4) ->
  existsb snd (f2_accepted f2_init l1) = true -> 4 <= ready_cycles l2 ->
  existsb snd (f2_outs f2_init (l1 ++ l2)) = true.
Proof.
  intros l1 l2 Hl He Hr.
  assert (Happ : forall a s b, f2_outs s (a ++ b) = f2_outs s a ++ f2_outs (f2_run s a) b).
  { induction a as [|i a IH]; intros; [reflexivity|]. cbn. rewrite IH, app_assoc. reflexivity. }
  rewrite Happ, existsb_app. apply orb_true_iff. right.
  pose proof (f2_run_ok l1 f2_init [] [] false f2_inv_init) as I. cbn [app orb] in I.
  specialize (I ltac:(apply Forall_forall; intros i Hi Hv; apply Hl; [apply in_or_app; left; exact Hi|exact Hv])). rewrite He in I.
  eapply f2_progress; [exact I|apply Forall_forall; intros i Hi Hv; apply Hl; [apply in_or_app; right; exact Hi|exact Hv]|].
  unfold f2_left. unfold f2_inv in I. destruct (f2_fsm_st (f2_run f2_init l1)).
  - destruct I as (_ & _ & _ & _ & _ & _ & X & _). discriminate.
  - destruct (f2_dval _), (_ <=? 2); cbn [b2z]; lia.
  - destruct (f2_dval _); cbn [b2z]; lia.
  - lia.
Qed.

Definition mkf2 v d n e b := {| f2i_valid := v; f2i_data := d; f2i_ctr := n; f2i_end := e; f2i_busy := b |}.
Example C21_example :
  let l := [mkf2 true 0x12FF00 3 false false; mkf2 true 0xFF00FF00 4 false true; mkf2 true 0x5678 2 true true;
            mkf2 true 0x5678 2 true false; mkf2 true 0x5678 2 true false; mkf2 true 0x5678 2 true false] ++ repeat (mkf2 false 0 0 false false) 6 in
  cut (f2_outs f2_init l) = [(0x12FF, false); (0xFF, false); (0xFF, false); (0x56, false); (0x7800, true)].
Proof. reflexivity. Qed.


(* ------------------------------------------------------------------ C19 *)

(* every byte 0xFF is immediately followed by a byte 0x00 *)
Definition ff_marked (l : list Z) : Prop := forall a b, l = a ++ 255 :: b -> exists b', b = 0 :: b'.

Lemma unstuff_stuff l r : unstuff (stuff l ++ r) = l ++ unstuff r.
Proof.
  induction l as [|b l IH]; [reflexivity|]. unfold stuff in *. cbn [flat_map]. unfold stuff_byte at 1.
  destruct (b =? 255) eqn:E; cbn [app unstuff].
  - apply Z.eqb_eq in E. subst b. cbn [Z.eqb Pos.eqb]. rewrite IH. reflexivity.
  - rewrite E, IH. reflexivity.
Qed.

Lemma ff_marked_stuff l r : ff_marked r -> ff_marked (stuff l ++ r).
Proof.
  intros Hr. induction l as [|x l IH]; [exact Hr|]. unfold stuff in *. cbn [flat_map]. unfold stuff_byte at 1.
  destruct (x =? 255) eqn:E; cbn [app]; intros a b Hab.
  - destruct a as [|y [|z a]].
    + injection Hab as <-. eauto.
    + discriminate.
    + injection Hab as _ _ H. apply (IH a b H).
  - destruct a as [|y a].
    + injection Hab as H _. subst x. discriminate.
    + injection Hab as _ H. apply (IH a b H).
Qed.

Definition is_byte (b : Z) : Prop := 0 <= b < 256.

Lemma bytes_words_n : forall n l, (length l <= n)%nat -> Forall is_byte l ->
  flat_map bytes_of (words_of l) = l ++ (if Nat.odd (length l) then [0] else []).
Proof.
  induction n as [|n IH]; intros l Hn HF.
  - destruct l; [reflexivity|cbn in Hn; lia].
  - destruct l as [|a [|b l]]; [reflexivity| |].
    + cbn [words_of flat_map bytes_of app]. rewrite Z.div_mul, Z.mod_mul by lia. reflexivity.
    + apply Forall_cons_iff in HF. destruct HF as [Ha HF]. apply Forall_cons_iff in HF. destruct HF as [Hb HF]. unfold is_byte in *.
      cbn [words_of flat_map bytes_of app]. rewrite (IH l) by (cbn in Hn; try lia; assumption).
      rewrite Z.div_add_l, Z.div_small, Z.add_0_r by lia. rewrite Z.add_comm, Z.mod_add, Z.mod_small by lia. reflexivity.
Qed.
Lemma bytes_words l : Forall is_byte l -> flat_map bytes_of (words_of l) = l ++ (if Nat.odd (length l) then [0] else []).
Proof. apply (bytes_words_n (length l)). lia. Qed.

Lemma stuff_bytes l : Forall is_byte l -> Forall is_byte (stuff l).
Proof.
  induction 1 as [|b l Hb HF IH]; [constructor|]. unfold stuff in *. cbn [flat_map]. apply Forall_app. split; [|exact IH].
  unfold stuff_byte. destruct (b =? 255); repeat constructor; unfold is_byte in *; lia.
Qed.

Lemma bytes_of_bytes ws : Forall word_ok ws -> Forall is_byte (flat_map bytes_of ws).
Proof.
  induction 1 as [|w ws Hw HF IH]; [constructor|]. cbn [flat_map]. apply Forall_app. split; [|exact IH].
  destruct (byte_div w Hw) as (A & B & _). unfold bytes_of. repeat constructor; unfold is_byte; lia.
Qed.

(* The specification of stuffing is right: for any bytes B, the words carrying stuff B have a 0x00
   after every 0xFF byte, and unstuffing them gives B, plus one 0x00 when the length is odd. *)
Theorem C19_reversible : forall B, Forall (fun b => 0 <= b < 256) B ->
  let sent := flat_map bytes_of (words_of (stuff B)) in
  ff_marked sent /\ unstuff sent = B ++ (if Nat.odd (length (stuff B)) then [0] else []).
Proof.
  intros B HB sent. unfold sent. rewrite (bytes_words (stuff B)) by (apply stuff_bytes; exact HB). split.
  - apply ff_marked_stuff. destruct (Nat.odd _); intros a b H.
    + destruct a as [|x [|y a]]; discriminate.
    + destruct a; discriminate.
  - rewrite unstuff_stuff. destruct (Nat.odd _); reflexivity.
Qed.

Lemma fx_run_ok : forall l s acc outs, fx_inv s acc outs ->
  (forall i, In i l -> fxi_valid i = true -> 0 <= fxi_data i < 2 ^ 16) ->
  fx_inv (fx_run s l) (acc ++ fx_accepted s l) (outs ++ fx_outs s l).
Proof.
  induction l as [|i l IH]; intros s acc outs I Hl.
  - cbn. rewrite !app_nil_r. exact I.
  - cbn [fx_run fx_accepted fx_outs]. fold (fx_took s i). fold (fx_gave s i). rewrite !app_assoc. apply IH.
    + apply fx_step_ok; [exact I|]. intros Hv _. apply Hl; [left; reflexivity|exact Hv].
    + intros j Hj. apply Hl. right. exact Hj.
Qed.

(* For every schedule: once the end word has been handed over, the words up to it carry exactly
   the stuffed bytes of the words accepted (up to the end word); a receiver that removes the
   0x00 after every 0xFF gets the accepted bytes back, plus at most one 0x00. *)
Theorem C19_stuffing : forall l, (forall i, In i l -> fxi_valid i = true -> 0 <= fxi_data i < 2 ^ 16) ->
  let outs := fx_outs fx_init l in let acc := fx_accepted fx_init l in
  let B := flat_map bytes_of (map fst (cut acc)) in
  (existsb snd outs = true ->
     existsb snd acc = true /\ map fst (cut outs) = words_of (stuff B) /\
     ff_marked (flat_map bytes_of (map fst (cut outs))) /\
     unstuff (flat_map bytes_of (map fst (cut outs))) = B ++ (if Nat.odd (length (stuff B)) then [0] else [])) /\
  (existsb snd outs = false ->
     exists rest, stuff B = flat_map bytes_of (map fst outs) ++ rest /\ len rest <= 15).
Proof.
  intros l Hl outs acc B. pose proof (fx_run_ok l fx_init [] [] fx_inv_init Hl) as I. cbn [app] in I. fold outs acc in I.
  destruct (fx_obs _ _ _ I) as [P Q]. fold B in P, Q.
  assert (HB : Forall is_byte B).
  { apply bytes_of_bytes. destruct I as [_ _ Hw]. apply Forall_forall. intros w Hin. apply in_map_iff in Hin. destruct Hin as (x & <- & Hx).
    rewrite Forall_forall in Hw. apply Hw. clear -Hx. induction acc as [|[y []] acc IH]; cbn [cut] in Hx; [destruct Hx| |].
    - destruct Hx as [<-|[]]. left. reflexivity.
    - destruct Hx as [<-|Hx]; [left; reflexivity|right; apply IH, Hx]. }
  split; intros He.
  - destruct (P He) as [Ha Hw]. split; [exact Ha|]. split; [exact Hw|]. rewrite Hw. apply C19_reversible. exact HB.
  - destruct (Q He) as (_ & rest & E & Hr). eauto.
Qed.

Definition mkfx v d e b := {| fxi_valid := v; fxi_data := d; fxi_end := e; fxi_busy := b |}.
Definition C19_sched : list fx_in :=
  [mkfx true 0x12FF false false; mkfx true 0xFFFF false true; mkfx true 0xFF34 true true; mkfx true 0xFF34 true false;
   mkfx true 0xFF34 true false; mkfx false 0 false true] ++ repeat (mkfx false 0 false false) 8.
Example C19_example :
  cut (fx_accepted fx_init C19_sched) = [(0x12FF, false); (0xFFFF, false); (0xFF34, true)] /\
  cut (fx_outs fx_init C19_sched) = [(0x12FF, false); (0x00FF, false); (0x00FF, false); (0x00FF, false); (0x0034, true)] /\
  (forall i, In i C19_sched -> fxi_valid i = true -> 0 <= fxi_data i < 2 ^ 16).
Proof.
  split; [reflexivity|]. split; [reflexivity|]. intros i Hi _. cbn in Hi.
  repeat (destruct Hi as [<-|Hi]; [cbn; lia|]). destruct Hi.
Qed.

(* ------------------------------------------------------------------ C24 *)

Lemma in_bytes_split w ws : In w ws -> exists a b, flat_map bytes_of ws = a ++ [w / 256; w mod 256] ++ b.
Proof.
  intros H. apply in_split in H. destruct H as (x & y & ->). exists (flat_map bytes_of x), (flat_map bytes_of y).
  rewrite flat_map_app. reflexivity.
Qed.

Lemma words_word_ok l : Forall is_byte l -> Forall word_ok (words_of l).
Proof.
  assert (X : forall n l, (length l <= n)%nat -> Forall is_byte l -> Forall word_ok (words_of l)).
  { clear. induction n as [|n IH]; intros l Hn HF.
    - destruct l; [constructor|cbn in Hn; lia].
    - destruct l as [|a [|b l]]; cbn [words_of]; [constructor| |].
      + apply Forall_cons_iff in HF. destruct HF as [Ha _]. repeat constructor; unfold is_byte, word_ok in *; change (2 ^ 16) with 65536; lia.
      + apply Forall_cons_iff in HF. destruct HF as [Ha HF]. apply Forall_cons_iff in HF. destruct HF as [Hb HF].
        constructor; [unfold is_byte, word_ok in *; change (2 ^ 16) with 65536; lia|]. apply IH; [cbn in Hn; lia|assumption]. }
  apply (X (length l)). lia.
Qed.

(* No word of a stuffed payload reaches 0xFF01, so in particular none is 0xFFFF or 0xFFFE. *)
Theorem C24_no_marker_in_payload : forall B, Forall (fun b => 0 <= b < 256) B ->
  Forall (fun w => w <= 0xFF00) (words_of (stuff B)).
Proof.
  intros B HB. destruct (C19_reversible B HB) as [HM _]. apply Forall_forall. intros w Hw.
  assert (Hok : word_ok w). { pose proof (words_word_ok _ (stuff_bytes B HB)) as X. rewrite Forall_forall in X. apply X, Hw. }
  destruct (byte_div w Hok) as (A & Bd & E).
  destruct (in_bytes_split w _ Hw) as (a & b & Hab). destruct (Z.eq_dec (w / 256) 255) as [H255|]; [|lia].
  rewrite H255 in Hab. cbn [app] in Hab. destruct (HM _ _ Hab) as (b' & Hb'). injection Hb' as Hz _. lia.
Qed.

Lemma until_marker_app p m rest : Forall (fun w => w <= 0xFF00) p -> m = 0xFFFF \/ m = 0xFFFE ->
  until_marker (p ++ m :: rest) = (p, Some (m =? 0xFFFE)).
Proof.
  intros HF Hm. induction HF as [|w p Hw HF IH].
  - cbn [app until_marker]. destruct Hm as [->| ->]; reflexivity.
  - cbn [app until_marker]. replace (w =? 0xFFFF) with false by lia. replace (w =? 0xFFFE) with false by lia. rewrite IH. reflexivity.
Qed.

(* A receiver that collects the words after the 8 header words up to the first 0xFFFF/0xFFFE word
   gets exactly the payload (the whole stuffed stream, or the first k words of it when the frame
   was cut short), and the marker tells which; whatever follows on the wire is irrelevant. *)
Theorem C24_delimitable : forall B k forced rest, Forall (fun b => 0 <= b < 256) B ->
  let payload := firstn k (words_of (stuff B)) in
  deframe (framed payload forced ++ rest) = (payload, Some forced).
Proof.
  intros B k forced rest HB payload. unfold deframe, framed.
  change (skipn 8 ((repeat 0xFFFF 8 ++ payload ++ repeat (if forced then 0xFFFE else 0xFFFF) 8) ++ rest))
    with ((payload ++ repeat (if forced then 0xFFFE else 0xFFFF) 8) ++ rest).
  rewrite <- app_assoc. change (repeat (if forced then 0xFFFE else 0xFFFF) 8) with ((if forced then 0xFFFE else 0xFFFF) :: repeat (if forced then 0xFFFE else 0xFFFF) 7).
  cbn [app]. rewrite until_marker_app.
  - destruct forced; reflexivity.
  - unfold payload. apply Forall_forall. intros w Hw. pose proof (C24_no_marker_in_payload B HB) as X. rewrite Forall_forall in X. apply X.
    rewrite <- (firstn_skipn k). apply in_or_app. left. exact Hw.
  - destruct forced; auto.
Qed.

Example C24_example :
  let B := [0xFF; 0xFF; 0x12; 0xFE; 0xFF; 0xFE] in
  words_of (stuff B) = [0xFF00; 0xFF00; 0x12FE; 0xFF00; 0xFE00] /\
  deframe (framed (words_of (stuff B)) false ++ [0xFFFF; 7]) = (words_of (stuff B), Some false).
Proof. split; reflexivity. Qed.

(* ------------------------------------------------------------------ C22 *)

Lemma cut_plain_end {A} (ws : list A) w : cut (plain ws ++ [(w, true)]) = plain ws ++ [(w, true)].
Proof. rewrite cut_plain_app. reflexivity. Qed.

(* For every schedule in which the first payload word is not already the end word: once a word
   with end_out has been handed over, the words up to it are 8 x 0xFFFF, exactly the payload
   words taken in, and 8 x 0xFFFF if the end word of the payload was taken in, or 8 x 0xFFFE
   if it was not, which requires that force-end was asserted.  Before, they are a prefix. *)
Theorem C22_markers : forall l,
  (forall p i r, l = p ++ i :: r -> mk_accepted mk_init p = [] -> mki_valid i = true -> mki_end i = false) ->
  let outs := mk_outs mk_init l in let acc := mk_accepted mk_init l in
  exists forced : bool,
    (forced = true -> existsb mki_force l = true /\ existsb snd acc = false) /\
    (existsb snd outs = true ->
       map fst (cut outs) = framed (map fst (cut acc)) forced /\ existsb snd acc = negb forced /\ cut acc = acc) /\
    (existsb snd outs = false ->
       exists rest, map fst outs ++ rest = framed (map fst acc) forced /\ len rest <= 16).
Proof.
  intros l Hl outs acc. pose proof (mk_run_ok l mk_init [] [] false mk_inv_init) as I. cbn [app orb] in I. fold outs acc in I.
  specialize (I Hl). unfold mk_inv in I.
  assert (Hpre : forall ws, existsb snd (plain ws : list (Z * bool)) = true -> False) by (intros ws X; rewrite existsb_plain in X; discriminate).
  assert (Hr : forall (x : Z) a b, (a + b = 8)%nat -> repeat x a ++ repeat x b = repeat x 8) by (intros x a b Hab; rewrite <- repeat_app, Hab; reflexivity).
  assert (Hrl : forall (x : Z) n, len (repeat x n) = Z.of_nat n) by (intros; unfold len; rewrite repeat_length; reflexivity).
  destruct (mk_fsm_st (mk_run mk_init l)).
  - destruct I as [Ha Ho]. exists false. rewrite Ha, Ho. split; [discriminate|]. split; [discriminate|]. intros _. eexists. split; [reflexivity|]. cbn. lia.
  - destruct I as (Ha & Hc & Ho). exists false. rewrite Ha, Ho. split; [discriminate|]. split; [intros X; destruct (Hpre _ X)|]. intros _.
    rewrite plain_fst. exists (repeat 0xFFFF (Z.to_nat (mk_ctr (mk_run mk_init l))) ++ repeat 0xFFFF 8). unfold framed. cbn [map app]. rewrite app_assoc, Hr by lia.
    split; [reflexivity|]. rewrite len_app, !Hrl. lia.
  - destruct I as (Hc & Ho & ws & w & Ha). exists false. split; [discriminate|]. split; [rewrite Ho; intros X; destruct (Hpre _ X)|]. intros _.
    rewrite Ho, plain_fst. eexists (repeat 0xFFFF (Z.to_nat (mk_ctr (mk_run mk_init l)))). unfold framed. rewrite <- !app_assoc, Hr by lia.
    split; [reflexivity|]. rewrite Hrl. lia.
  - destruct I as (Hc & Ho & (ws & Ha) & Hf). exists true. split; [intros _; split; [exact Hf|rewrite Ha; apply existsb_plain]|]. split; [rewrite Ho; intros X; destruct (Hpre _ X)|]. intros _.
    rewrite Ho, plain_fst. eexists (repeat 0xFFFE (Z.to_nat (mk_ctr (mk_run mk_init l)))). unfold framed. rewrite <- !app_assoc, Hr by lia.
    split; [reflexivity|]. rewrite Hrl. lia.
  - destruct I as (Hc & Ho & _). exists false. split; [discriminate|]. split; [rewrite Ho; intros X; destruct (Hpre _ X)|]. intros _.
    rewrite Ho, plain_fst. exists (repeat 0xFFFF 8). unfold framed. rewrite <- app_assoc. split; [reflexivity|]. rewrite Hrl. lia.
  - destruct I as (Ho & ws & w & Ha). exists false. split; [discriminate|]. assert (Hca : cut acc = acc) by (rewrite Ha; apply cut_plain_end).
    rewrite Hca. split.
    + intros _. split; [|split; [|reflexivity]].
      * rewrite Ho, map_app, plain_fst. unfold framed, mk_hdr. rewrite <- !app_assoc. reflexivity.
      * rewrite Ha, existsb_app. cbn. apply orb_true_r.
    + intros X. rewrite <- existsb_cut, Ho, existsb_app in X. cbn in X. rewrite orb_true_r in X. discriminate.
  - destruct I as (Ho & (ws & Ha) & Hf). exists true. split; [intros _; split; [exact Hf|rewrite Ha; apply existsb_plain]|].
    assert (Hca : cut acc = acc) by (apply cut_noend; rewrite Ha; apply existsb_plain).
    rewrite Hca. split.
    + intros _. split; [|split; [|reflexivity]].
      * rewrite Ho, map_app, plain_fst. unfold framed, mk_hdr. rewrite <- !app_assoc. reflexivity.
      * rewrite Ha, existsb_plain. reflexivity.
    + intros X. rewrite <- existsb_cut, Ho, existsb_app in X. cbn in X. rewrite orb_true_r in X. discriminate.
Qed.

(* and the payload is never lost or reordered: what is taken in is exactly what is offered while
   o_busy=0 (definition of mk_accepted); the trailer is complete after 9 ready cycles *)
Definition mk_ready (l : list mk_in) : Z := len (filter (fun i => negb (mki_busy i)) l).
Definition mk_left (s : mk_st) : Z :=
  match mk_fsm_st s with MK_FRAME => 9 | MK_ENDM | MK_FENDM => mk_ctr s | _ => 1 end.
Definition mk_ending (s : mk_st) : Prop :=
  match mk_fsm_st s with
  | MK_FRAME => mk_end_cond s = true /\ mk_ctr s = 8
  | MK_ENDM | MK_FENDM => 1 <= mk_ctr s <= 8
  | MK_DONE | MK_FDONE => True
  | _ => False
  end.

Lemma mk_progress : forall l s, mk_ending s -> mk_left s <= mk_ready l -> existsb snd (mk_outs s l) = true.
Proof.
  induction l as [|i l IH]; intros s Hs Hn.
  - exfalso. unfold mk_ready, len in Hn. cbn in Hn. unfold mk_left, mk_ending in *. destruct (mk_fsm_st s); lia || destruct Hs.
  - assert (Hr : mk_ready (i :: l) = mk_ready l + b2z (negb (mki_busy i))).
    { unfold mk_ready. cbn [filter]. destruct (negb (mki_busy i)); unfold len; cbn [length b2z]; lia. }
    rewrite Hr in Hn. cbn [mk_outs]. rewrite existsb_app. unfold mk_ending, mk_left in *. unfold mk_step, mk_comb.
    destruct (mk_fsm_st s) eqn:Est; try (destruct Hs; fail).
    + (* ENDM *) cbn [mko_valid mko_data mko_end andb]. destruct (mki_busy i) eqn:Eb; cbn [negb b2z andb] in *.
      * cbn [existsb orb]. apply IH; cbn [mk_fsm_st mk_ctr]; lia.
      * destruct (mk_ctr s =? 1) eqn:E1; cbn [existsb snd orb]; [reflexivity|]. apply IH; cbn [mk_fsm_st mk_ctr]; rewrite trunc_id by (change (2 ^ 4) with 16; lia); lia.
    + (* FENDM *) cbn [mko_valid mko_data mko_end andb]. destruct (mki_busy i) eqn:Eb; cbn [negb b2z andb] in *.
      * cbn [existsb orb]. apply IH; cbn [mk_fsm_st mk_ctr]; lia.
      * destruct (mk_ctr s =? 1) eqn:E1; cbn [existsb snd orb]; [reflexivity|]. apply IH; cbn [mk_fsm_st mk_ctr]; rewrite trunc_id by (change (2 ^ 4) with 16; lia); lia.
    + (* FRAME *) destruct Hs as [He Hc]. rewrite He. cbn [mko_valid andb existsb orb]. apply IH; cbn [mk_fsm_st mk_ctr]; [lia|].
      destruct (mki_busy i); cbn [negb b2z] in Hn; lia.
    + cbn [mko_valid mko_data mko_end andb]. destruct (mki_busy i) eqn:Eb; cbn [negb b2z existsb snd orb andb] in *; [|reflexivity].
      apply IH; cbn [mk_fsm_st]; [exact I|lia].
    + cbn [mko_valid mko_data mko_end andb]. destruct (mki_busy i) eqn:Eb; cbn [negb b2z existsb snd orb andb] in *; [|reflexivity].
      apply IH; cbn [mk_fsm_st]; [exact I|lia].
Qed.

Lemma mk_outs_app : forall a s b, mk_outs s (a ++ b) = mk_outs s a ++ mk_outs (mk_run s a) b.
Proof. induction a as [|i a IH]; intros; [reflexivity|]. cbn [app mk_outs mk_run]. rewrite IH, app_assoc. reflexivity. Qed.
Lemma mk_run_app : forall a s b, mk_run s (a ++ b) = mk_run (mk_run s a) b.
Proof. induction a as [|i a IH]; intros; [reflexivity|]. cbn [app mk_run]. apply IH. Qed.
Lemma mk_accepted_app : forall a s b, mk_accepted s (a ++ b) = mk_accepted s a ++ mk_accepted (mk_run s a) b.
Proof. induction a as [|i a IH]; intros; [reflexivity|]. cbn [app mk_accepted mk_run]. rewrite IH, app_assoc. reflexivity. Qed.

Theorem C22_completes : forall l1 l2,
  (forall p i r, l1 = p ++ i :: r -> mk_accepted mk_init p = [] -> mki_valid i = true -> mki_end i = false) ->
  existsb snd (mk_accepted mk_init l1) = true -> 9 <= mk_ready l2 ->
  existsb snd (mk_outs mk_init (l1 ++ l2)) = true.
Proof.
  intros l1 l2 Hl He Hr. rewrite mk_outs_app, existsb_app. apply orb_true_iff. right.
  pose proof (mk_run_ok l1 mk_init [] [] false mk_inv_init Hl) as I. cbn [app orb] in I. unfold mk_inv in I.
  apply mk_progress; unfold mk_ending, mk_left; destruct (mk_fsm_st (mk_run mk_init l1)); try lia; try tauto.
  - destruct I as [Ha _]. rewrite Ha in He. discriminate.
  - destruct I as [Ha _]. rewrite Ha in He. discriminate.
  - destruct I as (Hc & _ & ws & [[Ha _]|(w & _ & X)]); [rewrite Ha, existsb_plain in He; discriminate|]. split; [exact X|exact Hc].
Qed.

(* 0: nothing offered; then a three-word payload with a stall in the header and in the trailer *)
Definition mkmk v d e f b := {| mki_valid := v; mki_data := d; mki_end := e; mki_force := f; mki_busy := b |}.
Definition C22_sched : list mk_in :=
  [mkmk false 0 false false false] ++ repeat (mkmk true 1 false false false) 4 ++ [mkmk true 1 false false true] ++
  repeat (mkmk true 1 false false false) 6 ++ [mkmk true 1 false false true; mkmk true 1 false false false; mkmk true 2 false false false;
   mkmk false 0 false false false; mkmk true 3 true false false] ++ [mkmk false 0 false false true] ++ repeat (mkmk false 0 false false false) 10.
Example C22_example :
  mk_accepted mk_init C22_sched = [(1, false); (2, false); (3, true)] /\
  map fst (cut (mk_outs mk_init C22_sched)) = framed [1; 2; 3] false /\
  (forall i, In i C22_sched -> mki_valid i = true -> mki_end i = true -> mki_data i = 3).
Proof.
  split; [reflexivity|]. split; [reflexivity|]. intros i Hi. cbn in Hi.
  repeat (destruct Hi as [<-|Hi]; [cbn; congruence|]). destruct Hi.
Qed.

(* ------------------------------------------------------------------ C23 *)

Definition lost_inv (s : mk_st) (outs : list (Z * bool)) : Prop :=
  match mk_fsm_st s with
  | MK_IDLE => outs = []
  | MK_START => 0 <= mk_ctr s <= 8 /\ outs = plain (repeat 0xFFFF (Z.to_nat (8 - mk_ctr s)))
  | MK_FRAME => mk_ctr s = 8 /\ mk_end_cond s = true /\ outs = plain mk_hdr
  | MK_ENDM => 1 <= mk_ctr s <= 8 /\ outs = plain (mk_hdr ++ repeat 0xFFFF (Z.to_nat (8 - mk_ctr s)))
  | MK_DONE => cut outs = plain (mk_hdr ++ repeat 0xFFFF 7) ++ [(0xFFFF, true)]
  | _ => False
  end.

Lemma lost_step s i outs : lost_inv s outs -> (mki_valid i = true /\ mki_end i = true) \/ (mki_valid i = false /\ mk_fsm_st s = MK_IDLE) ->
  lost_inv (mk_step s i) (outs ++ mk_gave s i) /\ mk_took s i = [].
Proof.
  intros I Hi. unfold lost_inv in I. unfold mk_took, mk_gave, mk_step, mk_comb. destruct (mk_fsm_st s) eqn:Est.
  - cbn [mko_valid mko_busy negb andb]. rewrite andb_false_r, app_nil_r. split; [|reflexivity]. unfold lost_inv. cbn [mk_fsm_st mk_ctr].
    destruct (mki_valid i); [|exact I]. rewrite I. split; [lia|reflexivity].
  - destruct Hi as [[Hv He]|[_ X]]; [|discriminate]. rewrite Hv, He. destruct I as [Hc Ho].
    destruct (mki_busy i) eqn:Eb; cbn [negb andb mko_valid mko_busy mko_data mko_end]; (split; [|try (destruct (mk_ctr s =? 0); reflexivity); reflexivity]).
    + rewrite app_nil_r. unfold lost_inv. cbn [mk_fsm_st mk_ctr]. auto.
    + destruct (mk_ctr s =? 0) eqn:E0; unfold lost_inv; cbn [mk_fsm_st mk_ctr mk_end_cond mko_valid mko_data mko_end andb].
      * rewrite app_nil_r, Ho. replace (mk_ctr s) with 0 by lia. auto.
      * rewrite trunc_id by (change (2 ^ 4) with 16; lia). split; [lia|]. rewrite Ho, plain_snoc, repeat_snoc. do 2 f_equal. lia.
  - destruct I as [Hc Ho]. cbn [mko_valid mko_busy mko_data mko_end negb andb]. rewrite andb_false_r. split; [|reflexivity].
    destruct (mki_busy i) eqn:Eb; cbn [negb andb].
    + rewrite app_nil_r. unfold lost_inv. cbn [mk_fsm_st mk_ctr]. auto.
    + destruct (mk_ctr s =? 1) eqn:E1; unfold lost_inv; cbn [mk_fsm_st mk_ctr].
      * rewrite Ho, cut_plain_app. cbn [cut]. replace (Z.to_nat (8 - mk_ctr s)) with 7%nat by lia. reflexivity.
      * rewrite trunc_id by (change (2 ^ 4) with 16; lia). split; [lia|]. rewrite Ho, plain_snoc, <- app_assoc, repeat_snoc. do 3 f_equal. lia.
  - destruct I.
  - destruct I as (Hc & He & Ho). rewrite He. cbn [mko_valid mko_busy negb andb]. rewrite andb_false_r, app_nil_r. split; [|reflexivity].
    unfold lost_inv. cbn [mk_fsm_st mk_ctr]. rewrite Hc. split; [lia|]. change (Z.to_nat (8 - 8)) with 0%nat. cbn [repeat]. rewrite app_nil_r. exact Ho.
  - cbn [mko_valid mko_busy mko_data mko_end negb andb]. rewrite andb_false_r. split; [|reflexivity]. unfold lost_inv. cbn [mk_fsm_st].
    destruct (negb (mki_busy i)); [|rewrite app_nil_r; exact I]. rewrite cut_cut_app; [exact I|]. rewrite I, existsb_app. apply orb_true_r.
  - destruct I.
Qed.

Lemma lost_run : forall l s outs, lost_inv s outs ->
  (forall i, In i l -> mki_valid i = true /\ mki_end i = true) ->
  lost_inv (mk_run s l) (outs ++ mk_outs s l) /\ mk_accepted s l = [].
Proof.
  induction l as [|i l IH]; intros s outs I Hl.
  - cbn. rewrite app_nil_r. auto.
  - cbn [mk_run mk_outs mk_accepted]. fold (mk_gave s i). fold (mk_took s i).
    destruct (lost_step s i outs I (or_introl (Hl i (or_introl eq_refl)))) as [I' ->]. cbn [app]. rewrite app_assoc.
    apply IH; [exact I'|]. intros j Hj. apply Hl. right. exact Hj.
Qed.

(* If the payload consists of a single word w (so w is offered together with end_in, and held, as
   it is never taken), then for every schedule: w is never taken, and the frame delivered is
   header and trailer with an empty payload; once 18 ready cycles have passed it is complete. *)
Theorem C23_single_word_lost : forall idle l w,
  (forall i, In i idle -> mki_valid i = false) ->
  (forall i, In i l -> mki_valid i = true /\ mki_data i = w /\ mki_end i = true) ->
  let outs := mk_outs mk_init (idle ++ l) in
  mk_accepted mk_init (idle ++ l) = [] /\
  (existsb snd outs = true -> map fst (cut outs) = framed [] false) /\
  (existsb snd outs = false -> exists n, map fst outs = repeat 0xFFFF n /\ (n < 16)%nat).
Proof.
  intros idle l w Hi Hl outs.
  assert (Hidle : forall l, (forall i, In i l -> mki_valid i = false) -> forall s, mk_fsm_st s = MK_IDLE ->
     mk_fsm_st (mk_run s l) = MK_IDLE /\ mk_outs s l = [] /\ mk_accepted s l = []).
  { clear. induction l as [|i l IH]; intros Hi s Hs; [auto|]. cbn [mk_run mk_outs mk_accepted].
    assert (Hv : mki_valid i = false) by (apply Hi; left; reflexivity).
    destruct (IH ltac:(intros j Hj; apply Hi; right; exact Hj) (mk_step s i)) as (A & B & C); [unfold mk_step; rewrite Hs, Hv; reflexivity|].
    rewrite A, B, C. unfold mk_comb. rewrite Hs, Hv. cbn. auto. }
  destruct (Hidle idle Hi mk_init eq_refl) as (A & B & C).
  destruct (lost_run l (mk_run mk_init idle) []) as [I D]; [unfold lost_inv; rewrite A; reflexivity|intros i Hin; destruct (Hl i Hin) as (X & _ & Y); auto|].
  cbn [app] in I. unfold outs. rewrite mk_accepted_app, mk_outs_app, B, C, D. cbn [app]. split; [reflexivity|].
  set (o := mk_outs (mk_run mk_init idle) l) in *. unfold lost_inv in I.
  destruct (mk_fsm_st (mk_run (mk_run mk_init idle) l)); try (destruct I; fail).
  - rewrite I. split; [discriminate|]. intros _. exists 0%nat. split; [reflexivity|lia].
  - destruct I as [Hc ->]. rewrite existsb_plain, plain_fst. split; [discriminate|]. intros _. eexists. split; [reflexivity|lia].
  - destruct I as [Hc ->]. rewrite existsb_plain, plain_fst. split; [discriminate|]. intros _. unfold mk_hdr. rewrite <- repeat_app. eexists. split; [reflexivity|lia].
  - destruct I as (Hc & _ & ->). rewrite existsb_plain, plain_fst. split; [discriminate|]. intros _. exists 8%nat. split; [reflexivity|lia].
  - rewrite <- existsb_cut, I, existsb_app, orb_true_r. split; [reflexivity|discriminate].
Qed.

Example C23_example :
  map fst (cut (mk_outs mk_init (repeat (mkmk false 0 false false false) 3 ++ repeat (mkmk true 0xABCD true false false) 25))) = framed [] false.
Proof. reflexivity. Qed.

(* ------------------------------------------------------------------ C26 (timer and truncation) *)

Lemma fe_idle : forall l, (forall x, In x l -> fst x = false) -> fe_run fe_init l = fe_init.
Proof.
  induction l as [|[v a] l IH]; intros H; [reflexivity|]. cbn [fe_run]. assert (v = false) as -> by (apply (H (v, a)); left; reflexivity).
  change (fe_step fe_init false a) with fe_init. apply IH. intros. apply H. right. assumption.
Qed.
Lemma fe_end_stays : forall l c, fe_run {| fe_fsm_st := FE_END; fe_ctr := c; fe_fend := true |} l = {| fe_fsm_st := FE_END; fe_ctr := c; fe_fend := true |}.
Proof. induction l as [|[v a] l IH]; intros c; [reflexivity|]. cbn [fe_run]. unfold fe_step. cbn [fe_fsm_st fe_ctr]. apply IH. Qed.
Lemma fe_run_app : forall a s b, fe_run s (a ++ b) = fe_run (fe_run s a) b.
Proof. induction a as [|[v n] a IH]; intros; [reflexivity|]. cbn [app fe_run]. apply IH. Qed.

(* With a constant 24-bit allowed_cycles n: no fend before the first valid input; if the first
   valid input is in cycle 0, fend is 1 from cycle n+3 on (k further cycles lead to cycle k+1). *)
Theorem C26_timer : forall idle n v l, 0 <= n < 2 ^ 24 ->
  (forall x, In x idle -> fst x = false) -> (forall x, In x l -> snd x = n) ->
  fe_fend (fe_run fe_init idle) = false /\
  fe_fend (fe_run fe_init (idle ++ (true, v) :: l)) = (n + 3 <=? len l + 1).
Proof.
  intros idle n v l Hn Hi Hl. rewrite fe_run_app, (fe_idle idle Hi). split; [reflexivity|]. cbn [fe_run].
  change (fe_step fe_init true v) with {| fe_fsm_st := FE_COUNTING; fe_ctr := 0; fe_fend := false |}.
  destruct (Z_le_gt_dec (len l) n) as [Hle|Hgt].
  - rewrite (fe_count l n Hl 0) by lia. cbn [fe_fend]. symmetry. lia.
  - rewrite <- (firstn_skipn (Z.to_nat n) l). rewrite fe_run_app.
    assert (Hfl : len (firstn (Z.to_nat n) l) = n) by (unfold len in *; rewrite firstn_length; lia).
    rewrite (fe_count _ n) by (try lia; intros x Hx; apply Hl; rewrite <- (firstn_skipn (Z.to_nat n) l); apply in_or_app; left; exact Hx).
    rewrite Hfl, firstn_skipn. cbn [Z.add].
    assert (Hsl : len (skipn (Z.to_nat n) l) = len l - n) by (unfold len in *; rewrite skipn_length; lia).
    assert (Hsn : forall x, In x (skipn (Z.to_nat n) l) -> snd x = n) by (intros x Hx; apply Hl; rewrite <- (firstn_skipn (Z.to_nat n) l); apply in_or_app; right; exact Hx).
    destruct (skipn (Z.to_nat n) l) as [|[v1 a1] r] eqn:Er; [change (len (@nil (bool * Z))) with 0 in Hsl; lia|].
    assert (a1 = n) by (apply (Hsn (v1, a1)); left; reflexivity). subst a1. cbn [fe_run]. unfold fe_step at 1. cbn [fe_fsm_st fe_ctr fe_fend]. rewrite Z.eqb_refl.
    destruct r as [|[v2 a2] r].
    + cbn [fe_run fe_fend]. unfold len in *. cbn [length] in *. lia.
    + cbn [fe_run]. unfold fe_step at 1. cbn [fe_fsm_st fe_ctr fe_fend]. rewrite fe_end_stays. cbn [fe_fend].
      unfold len in *. cbn [length] in *. lia.
Qed.

(* The same when allowed_cycles changes while the timer runs: fend is raised two cycles after the first cycle in which the number of cycles
   counted since the first valid input, modulo 2^25, is the value then in force. *)
Theorem C26_timer_any : forall idle v l, (forall x, In x idle -> fst x = false) ->
  (fe_fend (fe_run fe_init (idle ++ (true, v) :: l)) = true <-> exists k w a, nth_error l k = Some (w, a) /\ (k + 2 <= length l)%nat /\ a = Z.of_nat k mod 2 ^ 25).
Proof.
  intros idle v l Hi. rewrite fe_run_app, (fe_idle idle Hi). cbn [fe_run]. change (fe_step fe_init true v) with {| fe_fsm_st := FE_COUNTING; fe_ctr := 0 mod 2 ^ 25; fe_fend := false |}.
  assert (G : forall l b, 0 <= b -> (fe_fend (fe_run {| fe_fsm_st := FE_COUNTING; fe_ctr := b mod 2 ^ 25; fe_fend := false |} l) = true <->
     exists k w a, nth_error l k = Some (w, a) /\ (k + 2 <= length l)%nat /\ a = (b + Z.of_nat k) mod 2 ^ 25)).
  2:{ rewrite (G l 0 ltac:(lia)). reflexivity. }
  clear. induction l as [|[w a] l IH]; intros b Hb.
  - cbn [fe_run fe_fend length]. split; [discriminate|]. intros (k & _ & _ & _ & H & _). lia.
  - cbn [fe_run]. unfold fe_step at 1. cbn [fe_fsm_st fe_ctr fe_fend].
    assert (EB : trunc 25 (b mod 2 ^ 25 + 1) = (b + 1) mod 2 ^ 25) by (unfold trunc; rewrite Zplus_mod_idemp_l; reflexivity). rewrite EB. destruct (b mod 2 ^ 25 =? a) eqn:E.
    + destruct l as [|[w2 a2] r].
      * cbn [fe_run fe_fend length]. split; [discriminate|]. intros (k & w1 & a1 & H & H1 & _). lia.
      * cbn [fe_run]. unfold fe_step at 1. cbn [fe_fsm_st fe_ctr fe_fend]. rewrite fe_end_stays. cbn [fe_fend]. split; [intros _|reflexivity]. exists 0%nat, w, a. split; [reflexivity|]. split; [cbn [length]; lia|]. rewrite Z.add_0_r. lia.
    + rewrite (IH (b + 1) ltac:(lia)). split; intros (k & w1 & a1 & H & H1 & H2).
      * exists (S k), w1, a1. split; [exact H|]. split; [cbn [length]; lia|]. rewrite H2. f_equal. lia.
      * destruct k as [|k]; [cbn [nth_error] in H; injection H as <- <-; rewrite Z.add_0_r in H2; lia|]. exists k, w1, a1. split; [exact H|]. split; [cbn [length] in H1; lia|]. rewrite H2. f_equal. lia.
Qed.
Example C26_timer_example :
  let f l := fe_fend (fe_run fe_init l) in
  f (repeat (false, 5) 3 ++ (true, 5) :: repeat (true, 5) 6) = false /\
  f (repeat (false, 5) 3 ++ (true, 5) :: repeat (false, 5) 7) = true /\
  f (repeat (false, 5) 3 ++ (true, 5) :: repeat (true, 9) 6 ++ repeat (true, 5) 100) = false /\      (* changed too late to a value already passed *)
  f (repeat (false, 5) 3 ++ (true, 5) :: repeat (true, 5) 2 ++ repeat (true, 9) 9) = true.
Proof. repeat split; reflexivity. Qed.

(* A frame ended by force-end: header, the words taken so far (none of them the end word),
   8 x 0xFFFE; it happens as soon as the frame body is being passed on while force-end is held. *)
Theorem C26_truncates : forall l1 l2,
  (forall p i r, l1 ++ l2 = p ++ i :: r -> mk_accepted mk_init p = [] -> mki_valid i = true -> mki_end i = false) ->
  mk_accepted mk_init l1 <> [] -> existsb snd (mk_accepted mk_init l1) = false ->
  (forall i, In i l2 -> mki_force i = true) -> 9 <= mk_ready l2 ->
  let outs := mk_outs mk_init (l1 ++ l2) in
  existsb snd outs = true /\ map fst (cut outs) = framed (map fst (mk_accepted mk_init l1)) true.
Proof.
  intros l1 l2 Hl Hne Hnoend Hf Hr outs.
  assert (Hl1 : not_first_end mk_init [] l1).
  { intros p i r -> Ha Hv. apply (Hl p i (r ++ l2)); [rewrite <- app_assoc; reflexivity|exact Ha|exact Hv]. }
  pose proof (mk_run_ok l1 mk_init [] [] false mk_inv_init Hl1) as I. cbn [app orb] in I.
  assert (G : forall l2 s acc outs f, mk_inv s acc outs f -> acc <> [] -> existsb snd acc = false ->
     (forall i, In i l2 -> mki_force i = true) -> mk_accepted s l2 = [] /\ mk_inv (mk_run s l2) acc (outs ++ mk_outs s l2) true \/ l2 = []).
  { clear. induction l2 as [|i l2 IH]; intros s acc outs f I Hne Hx Hf; [right; reflexivity|]. left. cbn [mk_accepted mk_run mk_outs].
    fold (mk_took s i). fold (mk_gave s i).
    assert (Ht : mk_took s i = []).
    { unfold mk_took, mk_comb. unfold mk_inv in I. rewrite (Hf i (or_introl eq_refl)).
      destruct (mk_fsm_st s); cbn [mko_busy]; rewrite ?andb_false_r; try reflexivity.
      - destruct I as [-> _]. destruct Hne; reflexivity.
      - destruct (mk_end_cond s); cbn [mko_busy negb]; rewrite andb_false_r; reflexivity. }
    pose proof (mk_step_ok s i acc outs f I ltac:(intros; congruence)) as I'. rewrite Ht, app_nil_r in I'. rewrite Ht. cbn [app].
    rewrite (Hf i (or_introl eq_refl)), orb_true_r in I'.
    destruct (IH _ _ _ _ I' Hne Hx ltac:(intros; apply Hf; right; assumption)) as [[-> J]| ->].
    - split; [reflexivity|]. rewrite app_assoc. exact J.
    - cbn. split; [reflexivity|]. rewrite app_nil_r. exact I'. }
  destruct (G l2 _ _ _ _ I Hne Hnoend Hf) as [[HA J]| ->]; [|unfold mk_ready, len in Hr; cbn in Hr; lia].
  assert (He : existsb snd outs = true).
  { unfold outs. rewrite mk_outs_app, existsb_app. apply orb_true_iff. right. destruct l2 as [|i l2]; [unfold mk_ready, len in Hr; cbn in Hr; lia|].
    unfold mk_inv in I. destruct (mk_fsm_st (mk_run mk_init l1)) eqn:Est.
    - destruct I as [Ha _]. contradiction.
    - destruct I as [Ha _]. contradiction.
    - apply mk_progress; unfold mk_ending, mk_left; rewrite Est; lia.
    - apply mk_progress; unfold mk_ending, mk_left; rewrite Est; lia.
    - destruct I as (Hc & _ & ws & [[Ha Hec]|(w & Ha & _)]).
      + cbn [mk_outs]. rewrite existsb_app. apply orb_true_iff. right. apply mk_progress; unfold mk_ending, mk_left, mk_step; rewrite Est, Hec, (Hf i (or_introl eq_refl)); cbn [mk_fsm_st mk_ctr]; [lia|].
        unfold mk_ready in *. cbn [filter] in Hr. destruct (negb (mki_busy i)); unfold len in *; cbn [length] in *; lia.
      + rewrite Ha, existsb_app in Hnoend. cbn in Hnoend. rewrite orb_true_r in Hnoend. discriminate.
    - apply mk_progress; unfold mk_ending, mk_left; rewrite Est; [exact Logic.I|lia].
    - apply mk_progress; unfold mk_ending, mk_left; rewrite Est; [exact Logic.I|lia]. }
  split; [exact He|]. destruct (C22_markers (l1 ++ l2) Hl) as (forced & _ & HB & _). destruct (HB He) as (HC & HD & HE).
  rewrite mk_accepted_app, HA, app_nil_r in HC, HD, HE. rewrite HE in HC. unfold outs. rewrite HC. rewrite Hnoend in HD. destruct forced; [reflexivity|discriminate].
Qed.

Example C26_truncates_example :
  let l1 := repeat (mkmk true 1 false false false) 11 ++ [mkmk true 2 false false false] in
  let l2 := repeat (mkmk true 3 true true false) 9 in
  mk_accepted mk_init l1 = [(1, false); (2, false)] /\
  map fst (cut (mk_outs mk_init (l1 ++ l2))) = framed [1; 2] true.
Proof. split; reflexivity. Qed.

(* ------------------------------------------------------------------ C28 / C29 / C48 (stage level) *)

(* The stage never stops offering: after the frame, every further ready cycle hands over one more
   word, equal to the last one and marked end_out. *)
Theorem C28_repeats : forall l extra, existsb snd (mk_outs mk_init l) = true ->
  exists m, (m = 0xFFFF \/ m = 0xFFFE) /\
    mk_outs mk_init (l ++ extra) = mk_outs mk_init l ++ repeat (m, true) (Z.to_nat (mk_ready extra)).
Proof.
  intros l extra He. rewrite mk_outs_app.
  assert (D : forall l s, existsb snd (mk_outs s l) = true ->
     mk_fsm_st (mk_run s l) = MK_DONE \/ mk_fsm_st (mk_run s l) = MK_FDONE).
  { clear. assert (K : forall l s, mk_fsm_st s = MK_DONE \/ mk_fsm_st s = MK_FDONE -> mk_fsm_st (mk_run s l) = MK_DONE \/ mk_fsm_st (mk_run s l) = MK_FDONE).
    { induction l as [|i l IH]; intros s Hs; [exact Hs|]. cbn [mk_run]. apply IH. unfold mk_step. destruct Hs as [-> | ->]; auto. }
    induction l as [|i l IH]; intros s He; [discriminate|]. cbn [mk_outs] in He. cbn [mk_run]. rewrite existsb_app in He.
    apply orb_prop in He. destruct He as [He|He]; [|apply IH, He]. apply K.
    unfold mk_comb, mk_step in *. destruct (mk_fsm_st s); destruct (mki_busy i); cbn in He; try discriminate.
    - destruct (mk_ctr s =? 0); discriminate.
    - destruct (mk_ctr s =? 1); [auto|discriminate].
    - destruct (mk_ctr s =? 1); [auto|discriminate].
    - destruct (mk_end_cond s); [discriminate|]. destruct (mki_force i); [discriminate|]. cbn in He. destruct (mki_valid i); discriminate.
    - destruct (mk_end_cond s); [discriminate|]. destruct (mki_force i); [discriminate|]. cbn in He. destruct (mki_valid i); discriminate.
    - auto.
    - auto. }
  specialize (D l mk_init He). generalize dependent (mk_run mk_init l). intros s Hs.
  exists (if match mk_fsm_st s with MK_DONE => true | _ => false end then 0xFFFF else 0xFFFE).
  split; [destruct (mk_fsm_st s); auto|]. f_equal.
  revert s Hs. induction extra as [|i extra IH]; intros s Hs; [reflexivity|]. cbn [mk_outs].
  assert (Hr : Z.to_nat (mk_ready (i :: extra)) = ((if mki_busy i then 0 else 1) + Z.to_nat (mk_ready extra))%nat).
  { unfold mk_ready. cbn [filter]. destruct (mki_busy i); cbn [negb]; unfold len; cbn [length]; lia. }
  rewrite Hr, IH by (unfold mk_step; destruct Hs as [-> | ->]; auto). unfold mk_comb, mk_step.
  destruct Hs as [-> | ->]; destruct (mki_busy i); reflexivity.
Qed.

Definition hdr_inv (s : mk_st) (outs : list (Z * bool)) : Prop :=
  match mk_fsm_st s with
  | MK_IDLE => outs = []
  | MK_START => 0 <= mk_ctr s <= 8 /\ len outs = 8 - mk_ctr s
  | _ => 8 <= len outs
  end.
Lemma hdr_step s i outs : hdr_inv s outs -> hdr_inv (mk_step s i) (outs ++ mk_gave s i).
Proof.
  intros I. unfold hdr_inv in I. unfold mk_gave, mk_comb, mk_step.
  assert (HL : forall x : list (Z * bool), 8 <= len outs -> 8 <= len (outs ++ x)) by (intros x H; rewrite len_app; pose proof (len_nonneg x); lia).
  destruct (mk_fsm_st s) eqn:Est.
  - cbn [mko_valid andb]. rewrite app_nil_r. unfold hdr_inv. cbn [mk_fsm_st mk_ctr]. destruct (mki_valid i); [|exact I]. rewrite I. split; [lia|reflexivity].
  - destruct I as [Hc Ho]. destruct (mki_busy i); cbn [negb andb mko_valid].
    + rewrite app_nil_r. unfold hdr_inv. cbn [mk_fsm_st mk_ctr]. auto.
    + destruct (mk_ctr s =? 0) eqn:E; cbn [mko_valid andb]; unfold hdr_inv; cbn [mk_fsm_st mk_ctr].
      * rewrite app_nil_r. lia.
      * rewrite trunc_id by (change (2 ^ 4) with 16; lia). split; [lia|]. rewrite len_app. unfold len at 2. cbn [length]. lia.
  - unfold hdr_inv. destruct (mki_busy i); cbn [negb mk_fsm_st]; [apply HL; exact I|]. destruct (mk_ctr s =? 1); cbn [mk_fsm_st]; apply HL; exact I.
  - unfold hdr_inv. destruct (mki_busy i); cbn [negb mk_fsm_st]; [apply HL; exact I|]. destruct (mk_ctr s =? 1); cbn [mk_fsm_st]; apply HL; exact I.
  - unfold hdr_inv. cbn [mk_fsm_st]. destruct (mk_end_cond s); [apply HL; exact I|]. destruct (mki_force i); apply HL; exact I.
  - unfold hdr_inv. cbn [mk_fsm_st]. apply HL; exact I.
  - unfold hdr_inv. cbn [mk_fsm_st]. apply HL; exact I.
Qed.
Lemma hdr_run : forall l s outs, hdr_inv s outs -> hdr_inv (mk_run s l) (outs ++ mk_outs s l).
Proof.
  induction l as [|i l IH]; intros s outs I; cbn [mk_run mk_outs]; [rewrite app_nil_r; exact I|].
  fold (mk_gave s i). rewrite app_assoc. apply IH, hdr_step, I.
Qed.

(* In every run: in the cycle after the 8th header word was handed over, valid_out is 1 if the
   consumer is busy, and it is 0 again, nothing having been handed over, in the next cycle in which
   the consumer is ready: the offered word is withdrawn. *)
Theorem C29_withdrawn : forall l i,
  len (mk_outs mk_init l) = 7 -> len (mk_outs mk_init (l ++ [i])) = 8 ->
  let s := mk_run mk_init (l ++ [i]) in
  forall stall, stall <> [] -> (forall x, In x stall -> mki_busy x = true) ->
    (forall j, mki_busy j = true -> mko_valid (mk_comb s j) = true /\ mko_data (mk_comb s j) = 0xFFFF) /\
    mk_outs s stall = [] /\
    forall j, mki_busy j = false -> mko_valid (mk_comb (mk_run s stall) j) = false.
Proof.
  intros l i H7 H8 s stall Hne Hst.
  assert (Hs : mk_fsm_st s = MK_START /\ mk_ctr s = 0).
  { pose proof (hdr_run l mk_init [] eq_refl) as I. cbn [app] in I. unfold s. rewrite mk_run_app. cbn [mk_run]. rewrite mk_outs_app, len_app in H8.
    cbn [mk_outs] in H8. rewrite app_nil_r in H8. set (s0 := mk_run mk_init l) in *. unfold hdr_inv in I. unfold mk_comb in H8. unfold mk_step.
    destruct (mk_fsm_st s0); try lia.
    - rewrite I in H7. discriminate.
    - destruct I as [Hc Ho]. destruct (mki_busy i); cbn [negb andb mko_valid] in *; [change (len (@nil (Z * bool))) with 0 in H8; lia|].
      replace (mk_ctr s0 =? 0) with false in * by lia. cbn [mk_fsm_st mk_ctr]. split; [reflexivity|]. replace (mk_ctr s0 - 1) with 0 by lia. reflexivity. }
  destruct Hs as [Hs Hc]. assert (Hrun : forall l, (forall x, In x l -> mki_busy x = true) -> forall s, mk_fsm_st s = MK_START /\ mk_ctr s = 0 ->
     mk_outs s l = [] /\ mk_fsm_st (mk_run s l) = MK_START /\ mk_ctr (mk_run s l) = 0).
  { clear. induction l as [|x l IH]; intros Hl s [Hs Hc]; [auto|]. cbn [mk_outs mk_run]. assert (Hb : mki_busy x = true) by (apply Hl; left; reflexivity).
    rewrite Hb, andb_false_r. cbn [app]. apply IH; [intros; apply Hl; right; assumption|]. unfold mk_step. rewrite Hs, Hb. cbn [negb mk_fsm_st mk_ctr]. auto. }
  split; [|split].
  - intros j Hj. unfold mk_comb. rewrite Hs, Hj. cbn. auto.
  - apply Hrun; auto.
  - intros j Hj. destruct (Hrun stall Hst s (conj Hs Hc)) as (_ & A & B). unfold mk_comb. rewrite A, B, Hj. reflexivity.
Qed.

Example C29_example :
  let l := repeat (mkmk true 1 false false false) 8 in
  len (mk_outs mk_init l) = 7 /\ len (mk_outs mk_init (l ++ [mkmk true 1 false false false])) = 8.
Proof. split; reflexivity. Qed.

(* Force-end alone produces no frame: while no payload word has been offered, nothing is output. *)
Theorem C48_force_needs_payload : forall l, (forall i, In i l -> mki_valid i = false) ->
  mk_outs mk_init l = [] /\ forall i, mko_valid (mk_comb (mk_run mk_init l) i) = false.
Proof.
  intros l Hi. assert (X : forall s, mk_fsm_st s = MK_IDLE -> mk_outs s l = [] /\ mk_fsm_st (mk_run s l) = MK_IDLE).
  { induction l as [|i l IH]; intros s Hs; [auto|]. cbn [mk_run mk_outs]. assert (Hv : mki_valid i = false) by (apply Hi; left; reflexivity).
    destruct (IH ltac:(intros; apply Hi; right; assumption) (mk_step s i)) as [A B]; [unfold mk_step; rewrite Hs, Hv; reflexivity|].
    rewrite A, B. unfold mk_comb. rewrite Hs. auto. }
  destruct (X mk_init eq_refl) as [A B]. split; [exact A|]. intros i. unfold mk_comb. rewrite B. reflexivity.
Qed.
Example C48_example : mk_outs mk_init (repeat (mkmk false 7 true true false) 100) = [].
Proof. reflexivity. Qed.
