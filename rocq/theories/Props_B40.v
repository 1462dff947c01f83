(* C37: b16_b40, 16-bit words to 40-bit words. *)
From Verif Require Import Bits M_Predictor M_Width Props_Width.
Ltac Zify.zify_post_hook ::= idtac.

(* ---------- specification ---------- *)

(* bytes of 16-bit words, most significant first; groups of five bytes, most significant first *)
Definition bytes16 (l : list Z) : list Z := flat_map (fun w => [w / 256; w mod 256]) l.
Fixpoint pack5 (l : list Z) : list Z :=
  match l with
  | a :: b :: c :: d :: e :: r => (a * 2 ^ 32 + b * 2 ^ 24 + c * 2 ^ 16 + d * 2 ^ 8 + e) :: pack5 r
  | _ => []
  end.
(* accepted words; each with a flag: did the converter raise o_busy on taking it? *)
Definition p40_facc (s : p40_st) (i : pk_in) : list (Z * bool) :=
  if pi_valid i && negb (p40_busy s) then [(pi_data i, p40_busy (p40_step s i))] else [].
Fixpoint p40_faccepted (s : p40_st) (l : list pk_in) : list (Z * bool) :=
  match l with [] => [] | i :: r => p40_facc s i ++ p40_faccepted (p40_step s i) r end.
(* what comes out of five words: in the second 40-bit word the byte that is carried over from the third word
   is cut to one bit if the converter had to stall there *)
Definition carry (cf : Z * bool) : Z := fst cf mod (if snd cf then 2 else 256).
Fixpoint pack40 (l : list (Z * bool)) : list Z :=
  match l with
  | a :: b :: c :: d :: e :: r =>
      (fst a * 2 ^ 24 + fst b * 2 ^ 8 + fst c / 256) :: (carry c * 2 ^ 32 + fst d * 2 ^ 16 + fst e) :: pack40 r
  | a :: b :: c :: _ => [fst a * 2 ^ 24 + fst b * 2 ^ 8 + fst c / 256]
  | _ => []
  end.

Lemma p40_faccepted_fst : forall l s, map fst (p40_faccepted s l) = p40_accepted s l.
Proof.
  induction l as [|i l IH]; intros s; [reflexivity|]. cbn [p40_faccepted p40_accepted]. rewrite map_app, IH. f_equal.
  unfold p40_facc, p40_acc. destruct (pi_valid i && negb (p40_busy s)); reflexivity.
Qed.

Lemma list5_ind {T} (P : list T -> Prop) :
  (forall l, (length l < 5)%nat -> P l) -> (forall a b c d e l, P l -> P (a :: b :: c :: d :: e :: l)) -> forall l, P l.
Proof.
  intros H1 H2 l. remember (length l) as n eqn:En. assert (Hn : (length l <= n)%nat) by lia. clear En. revert l Hn.
  induction n as [|n IH]; intros l Hn; [apply H1; lia|].
  destruct l as [|a [|b [|c [|d [|e l]]]]]; try (apply H1; cbn; lia). apply H2, IH. cbn in Hn. lia.
Qed.
Definition mult5 {T} (l : list T) : Prop := Nat.modulo (length l) 5 = 0%nat.
Arguments mult5 : simpl never.
Lemma mult5_add {T} (A : list T) a b c d e : mult5 A -> mult5 (A ++ [a; b; c; d; e]).
Proof. unfold mult5. intros H. rewrite app_length. cbn [length]. replace (length A + 5)%nat with (length A + 1 * 5)%nat by lia. rewrite Nat.mod_add by lia. exact H. Qed.
Lemma pack40_app l1 l2 : mult5 l1 -> pack40 (l1 ++ l2) = pack40 l1 ++ pack40 l2.
Proof.
  unfold mult5. induction l1 as [l Hl|a b c d e l IH] using list5_ind; intros H.
  - destruct l as [|a [|b [|c [|d [|e l]]]]]; try (vm_compute in H; discriminate); [reflexivity|cbn in Hl; lia].
  - cbn [app pack40]. do 2 f_equal. apply IH. cbn [length] in H. replace (S (S (S (S (S (length l)))))) with (length l + 1 * 5)%nat in H by lia. rewrite Nat.mod_add in H by lia. exact H.
Qed.
(* without a stall: exactly the byte stream *)
Lemma pack40_bytes l : Forall (fun w => 0 <= fst w < 2 ^ 16) l -> Forall (fun w => snd w = false) l -> pack40 l = pack5 (bytes16 (map fst l)).
Proof.
  induction l as [l Hl|a b c d e l IH] using list5_ind; intros HR HF.
  - destruct l as [|[a fa] [|[b fb] [|[c fc] [|[d fd] [|[e fe] l]]]]]; cbn [length] in Hl; try lia; cbn [map fst bytes16 flat_map app pack5 pack40]; try reflexivity;
      do 3 (apply Forall_cons_iff in HR; destruct HR as [? HR]); cbn [fst] in *; f_equal;
      rewrite (Z.div_mod a 256) at 1 by lia; rewrite (Z.div_mod b 256) at 1 by lia; lia.
  - do 5 (apply Forall_cons_iff in HR; destruct HR as [? HR]). do 5 (apply Forall_cons_iff in HF; destruct HF as [? HF]).
    specialize (IH HR HF). destruct a as [a fa], b as [b fb], c as [c fc], d as [d fd], e as [e fe]. cbn [fst snd] in *. subst.
    cbn [map fst bytes16 flat_map app pack5 pack40] in *. unfold bytes16 in IH. rewrite IH. unfold carry. cbn [fst snd].
    f_equal; [|f_equal].
    + rewrite (Z.div_mod a 256) at 1 by lia; rewrite (Z.div_mod b 256) at 1 by lia; lia.
    + rewrite (Z.div_mod d 256) at 1 by lia; rewrite (Z.div_mod e 256) at 1 by lia; lia.
Qed.

(* ---------- invariant ---------- *)

Definition p40_side (s : p40_st) : bool := match p40_fsm_st s with P40_2I | P40_2F1 | P40_2F2 => true | _ => false end.
Definition p40_idle (s : p40_st) : bool := match p40_fsm_st s with P40_1I | P40_2I => true | _ => false end.
Definition p40_v (s : p40_st) (x : bool) : bool := if x then p40_v2 s else p40_v1 s.
Definition p40_word (s : p40_st) (x : bool) : Z := if x then tri_word2 (p40_b2 s) else tri_word1 (p40_b1 s).
Definition p40_held (s : p40_st) : list Z :=
  (if p40_v s (p40_chs s) then [p40_word s (p40_chs s)] else []) ++
  (if p40_v s (negb (p40_chs s)) then [p40_word s (negb (p40_chs s))] else []).
Definition part40 (s : p40_st) (part : list (Z * bool)) : Prop :=
  match p40_fsm_st s with
  | P40_1I | P40_1F1 => part = []
  | P40_1F2 => exists f, part = [(t2 (p40_b1 s), f)]
  | P40_1F3 => exists f g, part = [(t2 (p40_b1 s), f); (t1 (p40_b1 s), g)]
  | P40_2I => exists a b c, part = [a; b; (c, true)] /\ p40_temp s = carry (c, true)
  | P40_2F1 => exists a b c, part = [a; b; c] /\ t2 (p40_b2 s) = carry c
  | P40_2F2 => exists a b c g, part = [a; b; c; (t1 (p40_b2 s), g)] /\ t2 (p40_b2 s) = carry c
  end.
Definition p40_inv (A : list (Z * bool)) (D : list Z) (s : p40_st) : Prop :=
  (exists A5 part, A = A5 ++ part /\ mult5 A5 /\ part40 s part) /\
  pack40 A = D ++ p40_held s /\
  (p40_valid s = true -> p40_v s (p40_chs s) = true) /\
  p40_idle s = p40_busy s /\
  match p40_v s (p40_chs s), p40_v s (negb (p40_chs s)) with
  | true, true => p40_side s = p40_chs s /\ p40_idle s = true
  | true, false => p40_side s = negb (p40_chs s)
  | false, false => p40_side s = p40_chs s
  | false, true => False
  end.

Lemma carry_t c : 0 <= c < 2 ^ 16 -> trunc 1 (slice 0 8 c) = carry (c, true).
Proof.
  intros H. unfold trunc, slice, carry. cbn [fst snd]. change (2 ^ 0) with 1. rewrite Z.div_1_r. change (8 - 0) with 8. change (2 ^ 8) with 256. change (2 ^ 1) with 2.
  replace 256 with (2 * 128) by lia. rewrite Z.rem_mul_r by lia. rewrite Z.mul_comm, Z_mod_plus by lia. apply Z.mod_mod. lia.
Qed.
Lemma carry_f c : slice 0 8 c = carry (c, false).
Proof. unfold slice, carry. cbn [fst snd]. change (2 ^ 0) with 1. rewrite Z.div_1_r. reflexivity. Qed.
Lemma slice_top c : 0 <= c < 2 ^ 16 -> slice 8 16 c = c / 256.
Proof. intros H. unfold slice. change (16 - 8) with 8. change (2 ^ 8) with 256. apply Z.mod_small. split; [apply Z.div_pos; lia|apply Z.div_lt_upper_bound; lia]. Qed.

Ltac app5 := rewrite <- app_assoc; cbn [app].
Lemma p40_inv_step A D s i : in16 i -> p40_inv A D s -> p40_inv (A ++ p40_facc s i) (D ++ p40_del s i) (p40_step s i).
Proof.
  intros Hi ((A5 & part & HA & H5 & Hp) & Hd & Hv & Hb & Hs).
  assert (T : trunc 16 (pi_data i) = pi_data i) by (unfold trunc; apply Z.mod_small; exact Hi).
  destruct s as [fsm b1 v1 b2 v2 chs temp valid busy]. destruct i as [iv id ie ib]. cbn in Hi.
  unfold p40_facc, p40_del, p40_step, p40_data. cbn [p40_fsm_st p40_b1 p40_v1 p40_b2 p40_v2 p40_chs p40_temp p40_valid p40_busy pi_valid pi_data pi_busy] in *. rewrite T in *. rewrite slice_top, carry_t, carry_f by exact Hi.
  unfold p40_inv, p40_held, part40, p40_idle, p40_side, p40_v, p40_word in *.
  cbn [p40_fsm_st p40_b1 p40_v1 p40_b2 p40_v2 p40_chs p40_temp p40_valid p40_busy] in *.
  subst busy.
  destruct fsm, chs, v1, v2; cbn [negb andb orb] in *; try contradiction; try (destruct Hs; discriminate); try discriminate Hs; try (specialize (Hv eq_refl); discriminate); clear Hs;
  (destruct valid; [try (specialize (Hv eq_refl); discriminate)|]); clear Hv;
  repeat match type of Hp with exists _, _ => destruct Hp as [? Hp] | _ /\ _ => destruct Hp as [? Hp] end; subst;
  destruct iv, ib; cbn [negb andb orb app] in *; rewrite ?app_nil_r in *.
  all: try (split; [|split; [|split; [|split]]]; [|rewrite <- ?app_assoc; cbn [app]; first [exact Hd|rewrite Hd; reflexivity]|intros; try discriminate; reflexivity|reflexivity|repeat split];
    exists A5; eexists; split; [reflexivity|]; split; [exact H5|]; repeat (eexists; try reflexivity); assumption).
  all: try (split; [|split; [|split; [|split]]]; [| |intros; try discriminate; reflexivity|reflexivity|repeat split];
   [first [exists A5; eexists; split; [app5; reflexivity|]; split; [exact H5|]; repeat (eexists; try reflexivity); assumption
          |eexists; exists []; rewrite app_nil_r; split; [reflexivity|]; split; [app5; apply mult5_add; exact H5|reflexivity]]
   |app5; cbn [app] in *; rewrite !pack40_app in Hd |- * by exact H5; cbn [pack40 fst] in Hd |- *; rewrite ?app_assoc in Hd; rewrite ?app_assoc]).
  all: clear T. all: rewrite ?app_nil_r in Hd. all: try (rewrite ?app_nil_r, Hd; unfold tri_word1, tri_word2; cbn [t2 t1 t0]; rewrite <- ?app_assoc; reflexivity).
  all: try (match goal with |- _ ++ [?x; ?y] = _ => change [x; y] with ([x] ++ [y]) end; rewrite app_assoc, Hd; unfold tri_word1, tri_word2; cbn [t2 t1 t0]; rewrite <- ?app_assoc; cbn [app]; congruence).
  all: try (split; [exists A5, []; rewrite app_nil_r; auto|]; rewrite Hd, <- ?app_assoc; auto).
  all: try (split; [exists A5; eexists; split; [reflexivity|]; split; [exact H5|]; eexists; reflexivity|]; rewrite pack40_app by exact H5; cbn [pack40]; rewrite app_nil_r, Hd, <- ?app_assoc; auto).
Qed.

Lemma p40_run_inv : forall l A D s, Forall in16 l -> p40_inv A D s -> p40_inv (A ++ p40_faccepted s l) (D ++ p40_delivered s l) (p40_run s l).
Proof.
  induction l as [|i l IH]; intros A D s HF I; cbn [p40_faccepted p40_delivered p40_run]; [rewrite !app_nil_r; exact I|].
  apply Forall_cons_iff in HF. destruct HF as [Hi HF]. rewrite !app_assoc. apply IH; [exact HF|]. apply p40_inv_step; assumption.
Qed.
Lemma p40_inv_first i : p40_inv [] [] (p40_step p40_init i).
Proof. destruct i as [iv id ie ib]. split; [exists [], []; destruct iv, ib; repeat split|]. destruct iv, ib; repeat split; cbn; intros; discriminate. Qed.
Lemma p40_from_reset i l : Forall in16 (i :: l) -> p40_inv (p40_faccepted (p40_step p40_init i) l) (p40_delivered p40_init (i :: l)) (p40_run p40_init (i :: l)).
Proof.
  intros HF. apply Forall_cons_iff in HF. destruct HF as [_ HF].
  pose proof (p40_run_inv l [] [] _ HF (p40_inv_first i)) as I. cbn [app] in I. cbn [p40_delivered p40_run]. exact I.
Qed.
Lemma p40_held_len s : (length (p40_held s) <= 2)%nat.
Proof. unfold p40_held. rewrite app_length. destruct (p40_v s (p40_chs s)), (p40_v s (negb (p40_chs s))); cbn; lia. Qed.

(* C37.  For every producer and every consumer (nothing offered in the first cycle): the delivered 40-bit words,
   followed by at most two words still inside, are completely determined by the accepted words and the
   places where the converter stalled: five words give two 40-bit words, the carried byte of the
   third word is cut to its lowest bit exactly where the converter raised o_busy on taking that word. *)
Theorem C37_packing : forall l, Forall in16 l -> first_idle l ->
  map fst (p40_faccepted p40_init l) = p40_accepted p40_init l /\
  exists held, pack40 (p40_faccepted p40_init l) = p40_delivered p40_init l ++ held /\ (length held <= 2)%nat.
Proof.
  intros l HF Hf. split; [apply p40_faccepted_fst|]. destruct l as [|i l]; [exists []; split; [reflexivity|cbn; lia]|].
  destruct (p40_from_reset i l HF) as (_ & I & _). exists (p40_held (p40_run p40_init (i :: l))). split; [|apply p40_held_len].
  cbn [first_idle] in Hf. cbn [p40_faccepted]. unfold p40_facc at 1. rewrite Hf. exact I.
Qed.

(* C37.  So the byte stream is exact as long as the converter has never stalled its producer ... *)
Lemma p40_accepted_range : forall l s, Forall in16 l -> Forall (fun w => 0 <= fst w < 2 ^ 16) (p40_faccepted s l).
Proof.
  induction l as [|i l IH]; intros s H; [constructor|]. apply Forall_cons_iff in H. destruct H as [H0 H]. cbn [p40_faccepted]. apply Forall_app. split; [|apply IH, H].
  unfold p40_facc. destruct (pi_valid i && negb (p40_busy s)); [constructor; [exact H0|constructor]|constructor].
Qed.
Theorem C37_exact_without_stall : forall l, Forall in16 l -> first_idle l ->
  (forall n, p40_busy (p40_run p40_init (firstn n l)) = false) ->
  exists held, pack5 (bytes16 (p40_accepted p40_init l)) = p40_delivered p40_init l ++ held /\ (length held <= 2)%nat.
Proof.
  intros l HF Hf Hb. destruct (C37_packing l HF Hf) as [E (held & H1 & H2)]. exists held. split; [|exact H2].
  rewrite <- E, <- pack40_bytes, H1; [reflexivity|apply p40_accepted_range, HF|].
  clear - Hb. revert Hb. generalize p40_init as s. induction l as [|i l IH]; intros s Hb; [constructor|]. cbn [p40_faccepted]. apply Forall_app. split.
  - unfold p40_facc. destruct (pi_valid i && negb (p40_busy s)); [constructor; [exact (Hb 1%nat)|constructor]|constructor].
  - apply IH. intros n. exact (Hb (S n)).
Qed.

(* C37.  With a consumer that is always ready the converter stalls its producer only where nothing is carried
   over, so the byte stream is exact. *)
Definition cut_free (l : list (Z * bool)) : Prop := forall k, snd (nth (5 * k + 2) l (0, false)) = false.
Lemma pack40_bytes' l : Forall (fun w => 0 <= fst w < 2 ^ 16) l -> cut_free l -> pack40 l = pack5 (bytes16 (map fst l)).
Proof.
  unfold cut_free. induction l as [l Hl|a b c d e l IH] using list5_ind; intros HR HF.
  - destruct l as [|[a fa] [|[b fb] [|[c fc] [|[d fd] [|[e fe] l]]]]]; cbn [length] in Hl; try lia; cbn [map fst bytes16 flat_map app pack5 pack40]; try reflexivity;
      do 3 (apply Forall_cons_iff in HR; destruct HR as [? HR]); cbn [fst] in *; f_equal;
      rewrite (Z.div_mod a 256) at 1 by lia; rewrite (Z.div_mod b 256) at 1 by lia; lia.
  - do 5 (apply Forall_cons_iff in HR; destruct HR as [? HR]).
    assert (HF' : forall k, snd (nth (5 * k + 2) l (0, false)) = false).
    { intros k. specialize (HF (S k)). replace (5 * S k + 2)%nat with (S (S (S (S (S (5 * k + 2)))))) in HF by lia. exact HF. }
    specialize (IH HR HF'). specialize (HF 0%nat). destruct a as [a fa], b as [b fb], c as [c fc], d as [d fd], e as [e fe]. cbn [Nat.mul Nat.add nth fst snd] in *. subst.
    cbn [map fst bytes16 flat_map app pack5 pack40] in *. unfold bytes16 in IH. rewrite IH. unfold carry. cbn [fst snd].
    f_equal; [|f_equal].
    + rewrite (Z.div_mod a 256) at 1 by lia; rewrite (Z.div_mod b 256) at 1 by lia; lia.
    + rewrite (Z.div_mod d 256) at 1 by lia; rewrite (Z.div_mod e 256) at 1 by lia; lia.
Qed.
(* states reachable when the consumer is always ready; n: words accepted since the last complete group *)
Definition ready_inv (n : nat) (s : p40_st) : Prop :=
  match p40_fsm_st s with
  | P40_1I => n = 0%nat /\ p40_v1 s = false /\ p40_v2 s = true /\ p40_chs s = true /\ p40_valid s = false /\ p40_busy s = true
  | P40_1F1 => n = 0%nat /\ p40_v1 s = false /\ p40_busy s = false /\ (p40_v2 s = true /\ p40_chs s = true \/ p40_v2 s = false /\ p40_chs s = false /\ p40_valid s = false)
  | P40_1F2 => n = 1%nat /\ p40_v1 s = false /\ p40_busy s = false /\ (p40_v2 s = true /\ p40_chs s = true /\ p40_valid s = true \/ p40_v2 s = false /\ p40_chs s = false /\ p40_valid s = false)
  | P40_1F3 => n = 2%nat /\ p40_v1 s = false /\ p40_busy s = false /\ p40_v2 s = false /\ p40_chs s = false /\ p40_valid s = false
  | P40_2I => False
  | P40_2F1 => n = 3%nat /\ p40_v2 s = false /\ p40_busy s = false /\ (p40_v1 s = true /\ p40_chs s = false \/ p40_v1 s = false /\ p40_chs s = true /\ p40_valid s = false)
  | P40_2F2 => n = 4%nat /\ p40_v2 s = false /\ p40_busy s = false /\ (p40_v1 s = true /\ p40_chs s = false /\ p40_valid s = true \/ p40_v1 s = false /\ p40_chs s = true /\ p40_valid s = false)
  end.
Definition next5 (n : nat) : nat := match n with 4%nat => 0%nat | _ => S n end.
Lemma ready_step n s i : pi_busy i = false -> ready_inv n s ->
  match p40_facc s i with [] => ready_inv n (p40_step s i) | w :: _ => p40_facc s i = [w] /\ ready_inv (next5 n) (p40_step s i) /\ (n = 2%nat -> snd w = false) end.
Proof.
  intros Hb H. destruct i as [iv id ie ib]. cbn in Hb. subst ib. destruct s as [fsm b1 v1 b2 v2 chs temp valid busy]. unfold ready_inv, p40_facc in *.
  destruct fsm; cbn in H; try contradiction;
    repeat match type of H with _ /\ _ => destruct H as [? H] | _ \/ _ => destruct H as [H|H] end; subst; destruct iv; try destruct valid; cbn; repeat split; intros; try discriminate; auto.
Qed.
Lemma ready_run : forall l n s, Forall (fun i => pi_busy i = false) l -> ready_inv n s ->
  forall k, (exists q, k + n = 5 * q + 2)%nat -> snd (nth k (p40_faccepted s l) (0, false)) = false.
Proof.
  induction l as [|i l IH]; intros n s HF I k Hk; [destruct k; reflexivity|].
  apply Forall_cons_iff in HF. destruct HF as [F1 HF]. pose proof (ready_step n s i F1 I) as R. cbn [p40_faccepted].
  destruct (p40_facc s i) as [|w l'] eqn:E; [cbn [app]; apply (IH n); auto|]. destruct R as (R1 & R2 & R3). injection R1 as ->. cbn [app].
  assert (Hn : (n < 5)%nat) by (unfold ready_inv in I; destruct (p40_fsm_st s); [| | | | contradiction| |]; destruct I as [-> _]; lia).
  destruct k as [|k]; cbn [nth].
  - apply R3. destruct Hk as [q Hq]. lia.
  - apply (IH (next5 n)); auto. destruct Hk as [q Hq]. destruct (Nat.eq_dec n 4) as [->|N4]; [exists (q - 1)%nat; cbn [next5]; lia|].
    exists q. unfold next5. destruct n as [|[|[|[|[|n]]]]]; lia.
Qed.
Theorem C37_exact_always_ready : forall l, Forall in16 l -> first_idle l -> Forall (fun i => pi_busy i = false) l ->
  exists held, pack5 (bytes16 (p40_accepted p40_init l)) = p40_delivered p40_init l ++ held /\ (length held <= 2)%nat.
Proof.
  intros l HF Hf Hb. destruct (C37_packing l HF Hf) as [E (held & H1 & H2)]. exists held. split; [|exact H2].
  rewrite <- E, <- pack40_bytes', H1; [reflexivity|apply p40_accepted_range, HF|].
  destruct l as [|i l]; [intros k; destruct k; reflexivity|]. cbn [first_idle] in Hf. cbn [p40_faccepted]. unfold p40_facc at 1. rewrite Hf. cbn [andb app].
  apply Forall_cons_iff in Hb. destruct Hb as [B1 Hb]. intros k. apply (ready_run l 0%nat); [exact Hb| |exists k; lia].
  destruct i as [iv id ie ib]. cbn in Hf. subst iv. cbn. repeat split; auto.
Qed.

(* C37.  What can go wrong is confined to one byte in ten: every first word of a pair is exact, and every second word
   is exact or has the value of its top byte cut to 0 or 1 (the lowest bit). *)
Fixpoint near (l m : list Z) : Prop :=
  match l, m with
  | [], [] => True
  | [a], [a'] => a = a'
  | a :: b :: r, a' :: b' :: r' => a = a' /\ (b = b' \/ b' = (b / 2 ^ 32 mod 2) * 2 ^ 32 + b mod 2 ^ 32) /\ near r r'
  | _, _ => False
  end.
Theorem C37_near : forall l, Forall in16 l -> first_idle l ->
  exists held, near (pack5 (bytes16 (p40_accepted p40_init l))) (p40_delivered p40_init l ++ held) /\ (length held <= 2)%nat.
Proof.
  intros l HF Hf. destruct (C37_packing l HF Hf) as [E (held & H1 & H2)]. exists held. split; [|exact H2]. rewrite <- H1, <- E.
  pose proof (p40_accepted_range l p40_init HF) as HR. revert HR. generalize (p40_faccepted p40_init l) as m. clear.
  induction m as [m Hl|a b c d e m IH] using list5_ind; intros HR.
  - destruct m as [|[a fa] [|[b fb] [|[c fc] [|[d fd] [|[e fe] m]]]]]; cbn [length] in Hl; try lia; cbn [map fst bytes16 flat_map app pack5 pack40 near]; try exact I;
      rewrite (Z.div_mod a 256) at 3 by lia; rewrite (Z.div_mod b 256) at 3 by lia; lia.
  - do 5 (apply Forall_cons_iff in HR; destruct HR as [? HR]). specialize (IH HR). destruct a as [a fa], b as [b fb], c as [c fc], d as [d fd], e as [e fe]. cbn [fst snd] in *.
    cbn [map fst bytes16 flat_map app pack5 pack40 near] in *. split; [|split; [|exact IH]].
    + rewrite (Z.div_mod a 256) at 3 by lia; rewrite (Z.div_mod b 256) at 3 by lia; lia.
    + assert (Ed : c mod 256 * 2 ^ 32 + d / 256 * 2 ^ 24 + d mod 256 * 2 ^ 16 + e / 256 * 2 ^ 8 + e mod 256 = c mod 256 * 2 ^ 32 + (d * 2 ^ 16 + e))
        by (rewrite (Z.div_mod d 256) at 3 by lia; rewrite (Z.div_mod e 256) at 3 by lia; lia).
      rewrite Ed. unfold carry. cbn [fst snd]. destruct fc; [right|left; lia].
      rewrite (Z.add_comm (c mod 256 * 2 ^ 32)), Z.div_add, Z.mod_add by lia. rewrite (Z.div_small (d * 2 ^ 16 + e)), (Z.mod_small (d * 2 ^ 16 + e)) by lia. rewrite Z.add_0_l.
      assert (M : (c mod 256) mod 2 = c mod 2) by (change 256 with (2 * 128); rewrite Z.rem_mul_r by lia; rewrite Z.mul_comm, Z_mod_plus by lia; apply Z.mod_mod; lia).
      rewrite M. lia.
Qed.

(* C37.  A word offered in the first cycle is accepted (o_busy is low) but lost. *)
Theorem C37_first_word_lost : forall i l, Forall in16 (i :: l) -> pi_valid i = true ->
  p40_accepted p40_init (i :: l) = pi_data i :: p40_accepted (p40_step p40_init i) l /\
  exists held, pack40 (p40_faccepted (p40_step p40_init i) l) = p40_delivered p40_init (i :: l) ++ held /\ (length held <= 2)%nat.
Proof.
  intros i l HF Hv. split; [cbn [p40_accepted]; unfold p40_acc at 1; rewrite Hv; reflexivity|].
  destruct (p40_from_reset i l HF) as (_ & I & _). exists (p40_held (p40_run p40_init (i :: l))). split; [exact I|apply p40_held_len].
Qed.

(* C37.  Nothing gets stuck. *)
Definition p40_mu (s : p40_st) : nat :=
  (if p40_v s (p40_chs s) then (if p40_v s (negb (p40_chs s)) then 4 else 2) - (if p40_valid s then 1 else 0) else 0)%nat.
Lemma p40_mu_step A D s i : p40_inv A D s -> drain_in i -> (p40_mu (p40_step s i) <= pred (p40_mu s))%nat.
Proof.
  intros (_ & _ & Hv & Hb & Hs) [Ei Eb]. destruct i as [iv id ie ib]. cbn in Ei, Eb. subst iv ib.
  destruct s as [fsm b1 v1 b2 v2 chs temp valid busy]. unfold p40_mu, p40_v in *. cbn in *. rewrite !andb_false_r, !andb_true_r in *. cbn.
  destruct chs, v1, v2, valid; cbn in *; try contradiction; try (specialize (Hv eq_refl); discriminate); lia.
Qed.
Theorem C37_drains : forall l l', Forall in16 (l ++ l') -> first_idle (l ++ l') -> Forall drain_in l' -> (4 <= length l')%nat ->
  p40_delivered p40_init (l ++ l') = pack40 (p40_faccepted p40_init (l ++ l')).
Proof.
  intros l l' HF Hf Hd Hl.
  assert (R : forall l1 l2 s, p40_run s (l1 ++ l2) = p40_run (p40_run s l1) l2) by (induction l1; intros; cbn; auto).
  assert (K : forall l' s A D, Forall in16 l' -> Forall drain_in l' -> p40_inv A D s -> (p40_mu s <= length l')%nat -> p40_mu (p40_run s l') = 0%nat).
  { clear. induction l' as [|i l' IH]; intros s A D HF Hd I Hm; cbn [length p40_run] in *; [lia|].
    apply Forall_cons_iff in HF. destruct HF as [F1 HF]. apply Forall_cons_iff in Hd. destruct Hd as [D1 Hd].
    apply (IH _ (A ++ p40_facc s i) (D ++ p40_del s i)); auto; [apply p40_inv_step; auto|]. pose proof (p40_mu_step _ _ _ _ I D1). lia. }
  destruct (l ++ l') as [|i r] eqn:El; [apply app_eq_nil in El; destruct El; subst; cbn in Hl; lia|].
  pose proof (p40_from_reset i r HF) as I.
  assert (Hz : p40_held (p40_run p40_init (i :: r)) = []).
  { assert (Hm : p40_mu (p40_run p40_init (i :: r)) = 0%nat).
    { rewrite <- El, R. destruct l as [|i0 l0].
      - cbn [app] in El. subst l'. cbn [p40_run length] in *. apply Forall_cons_iff in HF. destruct HF as [_ HF]. apply Forall_cons_iff in Hd. destruct Hd as [_ Hd].
        apply (K r _ [] [] HF Hd (p40_inv_first i)). unfold p40_mu. destruct i as [[] id ie []]; cbn; lia.
      - cbn [app] in El. injection El as -> <-. change (i :: l0 ++ l') with ((i :: l0) ++ l') in HF. apply Forall_app in HF. destruct HF as [HF1 HF2].
        apply (K l' _ _ _ HF2 Hd (p40_from_reset i l0 HF1)). unfold p40_mu. repeat match goal with |- context [if ?b then _ else _] => destruct b end; lia. }
    destruct I as (_ & _ & Hv & _ & Hs). unfold p40_mu, p40_held in *. set (s := p40_run p40_init (i :: r)) in *.
    destruct (p40_v s (p40_chs s)), (p40_v s (negb (p40_chs s))); try contradiction; try reflexivity; destruct (p40_valid s); try lia. }
  destruct I as (_ & I & _). rewrite Hz, app_nil_r in I. rewrite <- I. cbn [first_idle] in Hf. cbn [p40_faccepted]. unfold p40_facc at 1. rewrite Hf. reflexivity.
Qed.

(* C37.  An offered output word is held unchanged until it is taken. *)
Theorem C37_stable : forall l i, Forall in16 (l ++ [i]) ->
  let s := p40_run p40_init l in
  p40_valid s = true -> pi_busy i = true -> p40_valid (p40_step s i) = true /\ p40_data (p40_step s i) = p40_data s.
Proof.
  intros l i HF s Hv Hb. pose proof HF as HF2. apply Forall_app in HF. destruct HF as [HF _]. unfold s in *. destruct l as [|i0 l]; [discriminate|].
  destruct (p40_from_reset i0 l HF) as (_ & _ & H & Hi & Hs). set (t := p40_run p40_init (i0 :: l)) in *. specialize (H Hv).
  destruct t as [fsm b1 v1 b2 v2 chs temp valid busy]. destruct i as [iv id ie ib]. unfold p40_v, p40_data, p40_step, p40_side, p40_idle in *. cbn in *. subst.
  destruct chs, v1, v2; cbn in *; try discriminate; split; try reflexivity; destruct fsm, iv; cbn in *; try discriminate; try reflexivity; destruct Hs; try discriminate.
Qed.

(* a producer that offers the words ws as long as they are not taken, a consumer with the given back-pressure *)
Fixpoint drive (s : p40_st) (ws : list Z) (bs : list bool) : list pk_in :=
  match bs with
  | [] => []
  | b :: r => let i := w16 (match ws with [] => false | _ => true end) (hd 0 ws) b in
              i :: drive (p40_step s i) (match p40_acc s i with [] => ws | _ => tl ws end) r
  end.
(* the consumer is busy for a while: the byte 0x07 of the third word comes out as 0x01, the rest is exact; the same words
   with a consumer that is always ready are exact *)
Example C37_example :
  let ws := [0x1112; 0x1314; 0x1516; 0x1718; 0x191a; 0x0102; 0x0304; 0x0507; 0x0708; 0x090a] in
  let slow := w16 false 0 true :: drive (p40_step p40_init (w16 false 0 true)) ws (repeat true 7 ++ repeat false 2 ++ repeat true 8 ++ repeat false 12) in
  let fast := w16 false 0 false :: drive (p40_step p40_init (w16 false 0 false)) ws (repeat false 24) in
  Forall in16 slow /\ first_idle slow /\ p40_accepted p40_init slow = ws /\
  p40_delivered p40_init slow = [0x1112131415; 0x161718191a; 0x0102030405; 0x010708090a] /\
  Forall in16 fast /\ first_idle fast /\ p40_accepted p40_init fast = ws /\
  p40_delivered p40_init fast = [0x1112131415; 0x161718191a; 0x0102030405; 0x070708090a].
Proof. cbv zeta. split; [vm_compute; repeat constructor; intros; discriminate|]. split; [reflexivity|]. split; [vm_compute; reflexivity|]. split; [vm_compute; reflexivity|].
  split; [vm_compute; repeat constructor; intros; discriminate|]. split; [reflexivity|]. split; [vm_compute; reflexivity|]. vm_compute. reflexivity. Qed.
