(* C36-C38: width converters. *)
From Verif Require Import Bits M_Predictor M_Width.
Ltac Zify.zify_post_hook ::= idtac.

(* ---------- specification ---------- *)

(* four 16-bit words to a 64-bit word, first word most significant; an incomplete group gives nothing *)
Fixpoint pack4 (l : list Z) : list Z :=
  match l with
  | a :: b :: c :: d :: r => (a * 2 ^ 48 + b * 2 ^ 32 + c * 2 ^ 16 + d) :: pack4 r
  | _ => []
  end.
Definition in16 (i : pk_in) : Prop := 0 <= pi_data i < 2 ^ 16.
Definition first_idle (l : list pk_in) : Prop := match l with [] => True | i :: _ => pi_valid i = false end.

Lemma list4_ind (P : list Z -> Prop) :
  (forall l, (length l < 4)%nat -> P l) -> (forall a b c d l, P l -> P (a :: b :: c :: d :: l)) -> forall l, P l.
Proof.
  intros H1 H2 l. remember (length l) as n eqn:En. assert (Hn : (length l <= n)%nat) by lia. clear En. revert l Hn.
  induction n as [|n IH]; intros l Hn; [apply H1; lia|].
  destruct l as [|a [|b [|c [|d l]]]]; try (apply H1; cbn; lia). apply H2, IH. cbn in Hn. lia.
Qed.
Definition mult4 (l : list Z) : Prop := Nat.modulo (length l) 4 = 0%nat.
Arguments mult4 : simpl never.
Lemma pack4_app l1 l2 : mult4 l1 -> pack4 (l1 ++ l2) = pack4 l1 ++ pack4 l2.
Proof.
  unfold mult4. induction l1 as [l Hl|a b c d l IH] using list4_ind; intros H.
  - destruct l as [|a [|b [|c [|d l]]]]; try (vm_compute in H; discriminate); [reflexivity|cbn in Hl; lia].
  - cbn [app pack4]. f_equal. apply IH. cbn [length] in H. replace (S (S (S (S (length l))))) with (length l + 1 * 4)%nat in H by lia. rewrite Nat.mod_add in H by lia. exact H.
Qed.
Lemma mult4_add A a b c d : mult4 A -> mult4 (A ++ [a; b; c; d]).
Proof. unfold mult4. intros H. rewrite app_length. cbn [length]. replace (length A + 4)%nat with (length A + 1 * 4)%nat by lia. rewrite Nat.mod_add by lia. exact H. Qed.
Lemma pack4_short l : (length l < 4)%nat -> pack4 l = [].
Proof. destruct l as [|a [|b [|c [|d l]]]]; cbn; intros; try reflexivity; lia. Qed.

(* ---------- invariant of b16_b64 ---------- *)

Definition p64_buf (s : p64_st) (x : bool) : quad := if x then p64_b2 s else p64_b1 s.
Definition p64_v (s : p64_st) (x : bool) : bool := if x then p64_v2 s else p64_v1 s.
Definition part_ok (p : pk_pos) (q : quad) (part : list Z) : Prop :=
  match p with
  | PK_IDLE | PK_F1 => part = []
  | PK_F2 => part = [q3 q]
  | PK_F3 => part = [q3 q; q2 q]
  | PK_F4 => part = [q3 q; q2 q; q1 q]
  end.
(* the complete words in the buffers, in order of delivery *)
Definition p64_held (s : p64_st) : list Z :=
  (if p64_v s (p64_chs s) then [quad_word (p64_buf s (p64_chs s))] else []) ++
  (if p64_v s (negb (p64_chs s)) then [quad_word (p64_buf s (negb (p64_chs s)))] else []).
Definition p64_inv (A D : list Z) (s : p64_st) : Prop :=
  exists A4 part, A = A4 ++ part /\ mult4 A4 /\ part_ok (p64_pos s) (p64_buf s (p64_side s)) part /\
    pack4 A4 = D ++ p64_held s /\
    (p64_valid s = true -> p64_v s (p64_chs s) = true /\ p64_data s = quad_word (p64_buf s (p64_chs s))) /\
    (p64_pos s = PK_IDLE <-> p64_busy s = true) /\
    (* which buffers are full *)
    match p64_v s (p64_chs s), p64_v s (negb (p64_chs s)) with
    | true, true => p64_side s = p64_chs s /\ p64_pos s = PK_IDLE
    | true, false => p64_side s = negb (p64_chs s)
    | false, false => p64_side s = p64_chs s
    | false, true => False
    end.

Lemma p64_acc16 s i : in16 i -> p64_acc s i = if pi_valid i && negb (p64_busy s) then [trunc 16 (pi_data i)] else [].
Proof. intros H. unfold p64_acc. unfold trunc; rewrite Z.mod_small by exact H. reflexivity. Qed.

Lemma p64_inv_step A D s i : in16 i -> p64_inv A D s -> p64_inv (A ++ p64_acc s i) (D ++ p64_del s i) (p64_step s i).
Proof.
  intros Hi (A4 & part & HA & H4 & Hp & Hd & Hv & Hb & Hs). rewrite p64_acc16 by exact Hi. set (d := trunc 16 (pi_data i)) in *.
  destruct s as [side pos b1 v1 b2 v2 chs data valid busy rend ctr en]. unfold p64_held, p64_buf, p64_v, p64_del in *. cbn in *.
  destruct i as [iv id ie ib]. cbn in *.
  (* busy is determined by pos *)
  destruct busy.
  - assert (pos = PK_IDLE) by (apply Hb; reflexivity). subst pos. cbn in Hp. subst part. rewrite andb_false_r. unfold p64_inv, p64_held, p64_buf, p64_v. cbn.
    exists A4, []. rewrite !app_nil_r in *.
    destruct side, chs, v1, v2; cbn in *; try (destruct Hs; congruence); try contradiction; try congruence; destruct valid, ib; cbn in *;
      try (destruct (Hv eq_refl) as [Hv1 Hv2]; try discriminate); subst; cbn; rewrite ?app_nil_r in *; rewrite <- ?app_assoc; cbn;
      repeat split; intros; try congruence; try (destruct iv; first [reflexivity|assumption]); auto.
  - assert (Hpos : pos <> PK_IDLE) by (intros E; apply Hb in E; discriminate). rewrite andb_true_r. clear Hb.
    subst A. unfold p64_inv, p64_held, p64_buf, p64_v. cbn.
    destruct side, chs, v1, v2; cbn in Hs; try contradiction; try discriminate Hs; try (destruct Hs; congruence);
      destruct valid; cbn in Hv; try (destruct (Hv eq_refl) as [Hv1 Hv2]; try discriminate Hv1); clear Hv;
      destruct pos; try congruence; cbn in Hp; subst part; destruct iv, ib; cbn; cbn in Hd.
    all: first
      [ exists A4; eexists; split; [rewrite <- app_assoc; cbn [app]; reflexivity|]; split; [exact H4|]; split; [reflexivity|]
      | eexists; exists []; rewrite app_nil_r; split; [reflexivity|]; rewrite <- app_assoc; cbn [app]; split; [apply mult4_add; exact H4|]; split; [reflexivity|];
        rewrite pack4_app by exact H4; cbn [pack4] ].
    all: rewrite Hd; subst; rewrite ?app_nil_r; rewrite <- ?app_assoc; cbn [app];
      repeat split; intros; try congruence; auto.
Qed.

Lemma p64_run_inv : forall l A D s, Forall in16 l -> p64_inv A D s -> p64_inv (A ++ p64_accepted s l) (D ++ p64_delivered s l) (p64_run s l).
Proof.
  induction l as [|i l IH]; intros A D s HF I; cbn [p64_accepted p64_delivered p64_run]; [rewrite !app_nil_r; exact I|].
  apply Forall_cons_iff in HF. destruct HF as [Hi HF]. rewrite !app_assoc. apply IH; [exact HF|]. apply p64_inv_step; assumption.
Qed.
(* after the first cycle *)
Lemma p64_inv_first i : p64_inv [] [] (p64_step p64_init i).
Proof. destruct i as [iv id ie ib]. exists [], []. unfold p64_held, p64_buf, p64_v, p64_step. destruct iv, ib; cbn; repeat split; intros; try discriminate; auto. Qed.

Lemma p64_app l1 l2 s : p64_accepted s (l1 ++ l2) = p64_accepted s l1 ++ p64_accepted (p64_run s l1) l2 /\
  p64_delivered s (l1 ++ l2) = p64_delivered s l1 ++ p64_delivered (p64_run s l1) l2 /\ p64_run s (l1 ++ l2) = p64_run (p64_run s l1) l2.
Proof.
  revert s. induction l1 as [|i l1 IH]; intros s; cbn [app p64_accepted p64_delivered p64_run]; [auto|].
  destruct (IH (p64_step s i)) as (-> & -> & ->). rewrite !app_assoc. auto.
Qed.

Lemma p64_from_reset i l : Forall in16 (i :: l) -> p64_inv (p64_accepted (p64_step p64_init i) l) (p64_delivered p64_init (i :: l)) (p64_run p64_init (i :: l)).
Proof.
  intros HF. apply Forall_cons_iff in HF. destruct HF as [_ HF].
  pose proof (p64_run_inv l [] [] _ HF (p64_inv_first i)) as I. cbn [app] in I. cbn [p64_delivered p64_run]. exact I.
Qed.
Lemma p64_inv_pack A D s : p64_inv A D s -> pack4 A = D ++ p64_held s /\ (length (p64_held s) <= 2)%nat.
Proof.
  intros (A4 & part & -> & H4 & Hp & Hd & _). split.
  - rewrite pack4_app by exact H4. rewrite (pack4_short part); [rewrite app_nil_r; exact Hd|]. destruct (p64_pos s); cbn in Hp; subst part; cbn; lia.
  - unfold p64_held. rewrite app_length. destruct (p64_v s (p64_chs s)), (p64_v s (negb (p64_chs s))); cbn; lia.
Qed.

(* C36.  For every schedule of a producer (any gaps) and a consumer (any back-pressure) in which no word is
   offered in the very first cycle: the delivered 64-bit words followed by at most two words still
   inside are the accepted words packed four by four. *)
Theorem C36_packing : forall l, Forall in16 l -> first_idle l ->
  exists held, pack4 (p64_accepted p64_init l) = p64_delivered p64_init l ++ held /\ (length held <= 2)%nat.
Proof.
  intros [|i l] HF Hf; [exists []; split; [reflexivity|cbn; lia]|]. pose proof (p64_inv_pack _ _ _ (p64_from_reset i l HF)) as [I1 I2].
  exists (p64_held (p64_run p64_init (i :: l))). split; [|exact I2]. cbn [first_idle] in Hf. cbn [p64_accepted]. unfold p64_acc at 1. rewrite Hf. cbn [andb app]. exact I1.
Qed.

(* C36.  A word offered in the first cycle is accepted (o_busy is low) but lost. *)
Theorem C36_first_word_lost : forall i l, Forall in16 (i :: l) -> pi_valid i = true ->
  exists held, p64_accepted p64_init (i :: l) = pi_data i :: tl (p64_accepted p64_init (i :: l)) /\
    pack4 (tl (p64_accepted p64_init (i :: l))) = p64_delivered p64_init (i :: l) ++ held /\ (length held <= 2)%nat.
Proof.
  intros i l HF Hv. pose proof (p64_inv_pack _ _ _ (p64_from_reset i l HF)) as [I1 I2]. exists (p64_held (p64_run p64_init (i :: l))).
  cbn [p64_accepted]. unfold p64_acc at 1 2 3. rewrite Hv. cbn [p64_busy p64_init andb negb app tl]. auto.
Qed.

Definition drain_in (i : pk_in) : Prop := pi_valid i = false /\ pi_busy i = false.
Definition p64_mu (s : p64_st) : nat :=
  (if p64_v s (p64_chs s) then (if p64_v s (negb (p64_chs s)) then 4 else 2) - (if p64_valid s then 1 else 0) else 0)%nat.
Lemma p64_mu_step A D s i : p64_inv A D s -> drain_in i -> (p64_mu (p64_step s i) <= pred (p64_mu s))%nat.
Proof.
  intros (A4 & part & HA & H4 & Hp & Hd & Hv & Hb & Hs) [Ei Eb]. destruct i as [iv id ie ib]. cbn in Ei, Eb. subst iv ib.
  destruct s as [side pos b1 v1 b2 v2 chs data valid busy rend ctr en]. unfold p64_mu, p64_v in *. cbn in *. rewrite !andb_false_r, !andb_true_r in *. cbn.
  destruct chs, v1, v2, valid; cbn in *; try contradiction; try (destruct (Hv eq_refl); discriminate); lia.
Qed.
(* C36.  Nothing gets stuck: after four cycles without input and without back-pressure everything accepted
   (in complete groups) has been delivered. *)
Theorem C36_drains : forall l l', Forall in16 (l ++ l') -> first_idle (l ++ l') -> Forall drain_in l' -> (4 <= length l')%nat ->
  p64_delivered p64_init (l ++ l') = pack4 (p64_accepted p64_init l).
Proof.
  intros l l' HF Hf Hd Hl.
  assert (N : p64_accepted p64_init (l ++ l') = p64_accepted p64_init l).
  { destruct (p64_app l l' p64_init) as (-> & _). assert (E : forall s l, Forall drain_in l -> p64_accepted s l = []).
    { clear. intros s l. revert s. induction l as [|i l IH]; intros s H; [reflexivity|]. apply Forall_cons_iff in H. destruct H as [[H1 H2] H]. cbn [p64_accepted]. unfold p64_acc. rewrite H1, IH by exact H. reflexivity. }
    rewrite (E _ l' Hd). apply app_nil_r. }
  assert (K : forall l' s A D, Forall in16 l' -> Forall drain_in l' -> p64_inv A D s -> (p64_mu s <= length l')%nat -> p64_mu (p64_run s l') = 0%nat).
  { clear. induction l' as [|i l' IH]; intros s A D HF Hd I Hm; cbn [length p64_run] in *; [lia|].
    apply Forall_cons_iff in HF. destruct HF as [F1 HF]. apply Forall_cons_iff in Hd. destruct Hd as [D1 Hd].
    apply (IH _ (A ++ p64_acc s i) (D ++ p64_del s i)); auto; [apply p64_inv_step; auto|]. pose proof (p64_mu_step _ _ _ _ I D1). lia. }
  destruct (l ++ l') as [|i r] eqn:El; [apply app_eq_nil in El; destruct El; subst; cbn in Hl; lia|].
  pose proof (p64_from_reset i r HF) as I. pose proof (p64_inv_pack _ _ _ I) as [I1 I2].
  assert (Hz : p64_held (p64_run p64_init (i :: r)) = []).
  { assert (Hm : p64_mu (p64_run p64_init (i :: r)) = 0%nat).
    { rewrite <- El. destruct (p64_app l l' p64_init) as (_ & _ & ->). destruct l as [|i0 l0].
      - cbn [app] in El. subst l'. cbn [p64_run length] in *. apply Forall_cons_iff in HF. destruct HF as [_ HF]. apply Forall_cons_iff in Hd. destruct Hd as [_ Hd].
        apply (K r _ [] [] HF Hd (p64_inv_first i)). unfold p64_mu. destruct i as [[] id ie []]; cbn; lia.
      - cbn [app] in El. injection El as -> <-. change (i :: l0 ++ l') with ((i :: l0) ++ l') in HF. apply Forall_app in HF. destruct HF as [HF1 HF2].
        apply (K l' _ _ _ HF2 Hd (p64_from_reset i l0 HF1)). unfold p64_mu. repeat match goal with |- context [if ?b then _ else _] => destruct b end; lia. }
    destruct I as (A4 & part & _ & _ & _ & _ & Hv & _ & Hs). unfold p64_mu, p64_held in *. set (s := p64_run p64_init (i :: r)) in *.
    destruct (p64_v s (p64_chs s)), (p64_v s (negb (p64_chs s))); try contradiction; try reflexivity; destruct (p64_valid s); try lia. }
  rewrite Hz, app_nil_r in I1. rewrite <- I1, <- N. cbn [first_idle] in Hf. cbn [p64_accepted]. unfold p64_acc at 1. rewrite Hf. reflexivity.
Qed.

(* C36.  With a consumer that is always ready the converter never stalls the producer. *)
Theorem C36_no_overhead : forall l, Forall in16 l -> Forall (fun i => pi_busy i = false) l -> p64_busy (p64_run p64_init l) = false.
Proof.
  intros l HF Hb.
  (* the side being filled is empty, and the other one is at most two cycles away from release when the last slice comes *)
  assert (K : forall l s, Forall (fun i => pi_busy i = false) l ->
     (p64_busy s = false /\ p64_pos s <> PK_IDLE /\ p64_v s (p64_side s) = false /\
      (if p64_v s (negb (p64_side s)) then p64_chs s = negb (p64_side s) /\ (if p64_valid s then p64_pos s = PK_F1 \/ p64_pos s = PK_F2 else p64_pos s = PK_F1)
       else p64_valid s = false /\ p64_chs s = p64_side s)) -> p64_busy (p64_run s l) = false).
  { clear. induction l as [|i l IH]; intros s Hb H; [apply H|]. apply Forall_cons_iff in Hb. destruct Hb as [B1 Hb]. cbn [p64_run]. apply IH; [exact Hb|].
    destruct H as (H1 & H2 & H3 & H4). destruct i as [iv id ie ib]. cbn in B1. subst ib.
    destruct s as [side pos b1 v1 b2 v2 chs data valid busy rend ctr en]. unfold p64_v in *. cbn in *. subst busy.
    destruct side, v1, v2; cbn in *; try discriminate; destruct valid; cbn in *;
      destruct H4 as [Ha Hc]; try discriminate Ha; try (match type of Hc with _ \/ _ => destruct Hc as [Hc|Hc] end); subst;
      destruct iv; cbn; try (destruct pos; try congruence); cbn; repeat split; try congruence; auto. }
  destruct l as [|i l]; [reflexivity|]. apply Forall_cons_iff in Hb. destruct Hb as [B1 Hb]. cbn [p64_run]. apply K; [exact Hb|].
  destruct i as [[] id ie ib]; cbn in *; subst; cbn; repeat split; congruence.
Qed.

(* C36.  An offered output word is held unchanged until it is taken. *)
Theorem C36_stable : forall l i, Forall in16 (l ++ [i]) ->
  let s := p64_run p64_init l in
  p64_valid s = true -> pi_busy i = true -> p64_valid (p64_step s i) = true /\ p64_data (p64_step s i) = p64_data s.
Proof.
  intros l i HF s Hv Hb. apply Forall_app in HF. destruct HF as [HF _]. unfold s in *. destruct l as [|i0 l]; [discriminate|].
  destruct (p64_from_reset i0 l HF) as (A4 & part & _ & _ & _ & _ & H & _ & Hs). set (t := p64_run p64_init (i0 :: l)) in *. destruct (H Hv) as [H1 H2].
  unfold p64_step. cbn [p64_valid p64_data]. rewrite Hb, Hv, H2. cbn [andb negb]. rewrite andb_true_r. unfold p64_v, p64_buf in *. destruct (p64_chs t); rewrite H1; split; try reflexivity. apply orb_true_r.
Qed.

(* C36.  end_out: never raised unless the last word accepted so far carried the end flag at some time;
   and when it is raised at least seven output words have been taken in cycles in which the last
   accepted word carried the end flag. *)
Fixpoint p64_after_end (s : p64_st) (last : bool) (l : list pk_in) : nat :=
  match l with
  | [] => 0
  | i :: r => (if last && p64_valid s && negb (pi_busy i) then 1 else 0) +
              p64_after_end (p64_step s i) (if pi_valid i && negb (p64_busy s) then pi_end i else last) r
  end%nat.
Theorem C36_end : forall l, p64_end (p64_run p64_init l) = true -> (7 <= p64_after_end p64_init false l)%nat.
Proof.
  assert (K : forall l s n, 0 <= p64_ctr s < 8 -> (Z.of_nat n >= p64_ctr s \/ (7 <= n)%nat) -> (p64_end s = true -> (7 <= n)%nat) ->
     p64_end (p64_run s l) = true -> (7 <= n + p64_after_end s (p64_rend s) l)%nat).
  { induction l as [|i l IH]; intros s n Hc Hn He H; cbn [p64_run p64_after_end] in *; [specialize (He H); lia|].
    set (b := p64_rend s && p64_valid s && negb (pi_busy i)).
    specialize (IH (p64_step s i) (n + if b then 1 else 0)%nat).
    assert (E : p64_rend (p64_step s i) = if pi_valid i && negb (p64_busy s) then pi_end i else p64_rend s) by reflexivity.
    rewrite E in IH. rewrite Nat.add_assoc. apply IH; clear IH; [| | |exact H].
    - unfold p64_step. cbn [p64_ctr]. destruct (p64_rend s && (p64_valid s && negb (pi_busy i))); [apply (trunc_range 3); lia|exact Hc].
    - unfold p64_step, b. cbn [p64_ctr]. rewrite <- andb_assoc. destruct (p64_rend s && (p64_valid s && negb (pi_busy i))); [|destruct Hn; [left|right]; lia].
      destruct Hn as [Hn|Hn]; [|right; lia]. left. destruct (Z.eq_dec (p64_ctr s) 7) as [E7|E7]; [rewrite E7; change (trunc 3 (7 + 1)) with 0; lia|].
      rewrite trunc_id by (change (2 ^ 3) with 8; lia). lia.
    - unfold p64_step. cbn [p64_end]. destruct (p64_rend s && (p64_ctr s =? 7)) eqn:E7; [|intros Hx; specialize (He Hx); lia].
      intros _. apply andb_prop in E7. destruct Hn; lia. }
  intros l H. specialize (K l p64_init 0%nat ltac:(cbn; lia) ltac:(left; cbn; lia) ltac:(discriminate) H). exact K.
Qed.

Definition w16 (v : bool) (d : Z) (b : bool) : pk_in := {| pi_valid := v; pi_data := d; pi_end := false; pi_busy := b |}.
Example C36_example :
  let l := w16 false 0 true :: map (fun k => w16 true (Z.of_nat k) true) (seq 1 12) ++ repeat (w16 true 77 true) 3 ++ repeat (w16 false 0 false) 6 in
  Forall in16 l /\ first_idle l /\ p64_accepted p64_init l = [1; 2; 3; 4; 5; 6; 7; 8] /\
  p64_delivered p64_init l = [0x0001000200030004; 0x0005000600070008].
Proof. split; [repeat constructor; cbn; lia|]. vm_compute. repeat split. Qed.

(* ------------------------------------------------------------------ b64_b32_2 *)

(* bits 63..40 and 39..16 of a 64-bit word; its low 16 bits are not used *)
Definition split24 (w : Z) : list Z := [w / 2 ^ 40 mod 2 ^ 24; w / 2 ^ 16 mod 2 ^ 24].
Definition in64 (i : pk_in) : Prop := 0 <= pi_data i < 2 ^ 64.
(* the source holds an offered word until it is taken; off: the word that must be offered now *)
Definition src_next (s : s24_st) (i : pk_in) : option Z := if pi_valid i && s24_busy s then Some (pi_data i) else None.
Fixpoint src_ok (s : s24_st) (off : option Z) (l : list pk_in) : Prop :=
  match l with
  | [] => True
  | i :: r => (match off with Some w => pi_valid i = true /\ pi_data i = w | None => True end) /\ src_ok (s24_step s i) (src_next s i) r
  end.
Fixpoint src_end (s : s24_st) (off : option Z) (l : list pk_in) : option Z :=
  match l with [] => off | i :: r => src_end (s24_step s i) (src_next s i) r end.

Definition s24_held (s : s24_st) : list Z :=
  (if s24_valid s then [s24_data s] else []) ++
  (if s24_rv s then (if s24_half s then tl (split24 (s24_reg s)) else split24 (s24_reg s)) else []).
Definition s24_inv (A D : list Z) (off : option Z) (s : s24_st) : Prop :=
  flat_map split24 (if s24_busy s then A else A ++ [s24_reg s]) = D ++ s24_held s /\
  (s24_busy s = false -> off = Some (s24_reg s) /\ s24_rv s = true /\ s24_half s = false) /\
  (s24_half s = true -> s24_rv s = true /\ s24_valid s = true).

Lemma slice_hi w : slice 40 64 w = w / 2 ^ 40 mod 2 ^ 24.
Proof. reflexivity. Qed.
Lemma slice_lo w : slice 16 40 w = w / 2 ^ 16 mod 2 ^ 24.
Proof. reflexivity. Qed.

Lemma s24_inv_step A D off s i : in64 i -> match off with Some w => pi_valid i = true /\ pi_data i = w | None => True end ->
  s24_inv A D off s -> s24_inv (A ++ s24_acc s i) (D ++ s24_del s i) (src_next s i) (s24_step s i).
Proof.
  intros Hi Ho (H1 & H2 & H3). assert (T : trunc 64 (pi_data i) = pi_data i) by (apply trunc_id; exact Hi).
  unfold s24_inv, s24_acc, s24_del, src_next, s24_step, s24_held in *. cbn [s24_busy s24_reg s24_rv s24_half s24_valid s24_data]. rewrite T, slice_hi, slice_lo in *.
  destruct s as [reg rv half data valid busy]. cbn [s24_busy s24_reg s24_rv s24_half s24_valid s24_data] in *. destruct i as [iv id ie ib]. cbn [pi_valid pi_data pi_busy] in *.
  destruct busy.
  - clear H2. rewrite andb_false_r, andb_true_r, app_nil_r.
    destruct half; [destruct (H3 eq_refl) as [-> ->]|]; clear H3; destruct iv, ib; try destruct valid; try destruct rv; cbn [andb orb negb app tl split24] in *; rewrite ?flat_map_app, H1, <- ?app_assoc; cbn [flat_map app tl split24];
      repeat split; intros; try discriminate; auto.
  - destruct (H2 eq_refl) as (-> & -> & ->). destruct Ho as [-> ->]. clear H2 H3.
    destruct ib, valid; cbn [andb orb negb app tl] in *; rewrite H1, <- ?app_assoc; cbn [app tl split24]; repeat split; intros; try discriminate; auto.
Qed.

Lemma s24_run_inv : forall l A D off s, Forall in64 l -> src_ok s off l -> s24_inv A D off s ->
  s24_inv (A ++ s24_accepted s l) (D ++ s24_delivered s l) (src_end s off l) (s24_run s l).
Proof.
  induction l as [|i l IH]; intros A D off s HF HS I; cbn [s24_accepted s24_delivered s24_run src_end src_ok] in *; [rewrite !app_nil_r; exact I|].
  apply Forall_cons_iff in HF. destruct HF as [Hi HF]. destruct HS as [H0 HS]. rewrite !app_assoc. apply IH; auto. apply s24_inv_step with (off := off); auto.
Qed.

(* C38.  For every source that holds its word until it is taken, and every consumer: the 24-bit words
   delivered so far, followed by at most three words still inside, are the two pieces of each 64-bit word
   taken from the source, in order (the piece inside may already include the word that is on offer
   and will be taken in this cycle). *)
Theorem C38_splitting : forall l, Forall in64 l -> src_ok s24_init None l ->
  exists now held, flat_map split24 (s24_accepted s24_init l ++ now) = s24_delivered s24_init l ++ held /\ (length held <= 3)%nat /\
    (now = [] \/ exists w, now = [w] /\ src_end s24_init None l = Some w /\ s24_busy (s24_run s24_init l) = false).
Proof.
  intros l HF HS. assert (I0 : s24_inv [] [] None s24_init) by (repeat split; intros; discriminate).
  destruct (s24_run_inv l [] [] None s24_init HF HS I0) as (I1 & I2 & I3). cbn [app] in *. set (s := s24_run s24_init l) in *.
  exists (if s24_busy s then [] else [s24_reg s]), (s24_held s). split; [destruct (s24_busy s); rewrite ?app_nil_r; exact I1|]. split.
  - unfold s24_held. destruct (s24_valid s), (s24_rv s), (s24_half s); cbn; lia.
  - destruct (s24_busy s); [left; reflexivity|]. right. exists (s24_reg s). destruct (I2 eq_refl) as (-> & _). auto.
Qed.

(* C38.  After four cycles without a new word on offer and without back-pressure, all pieces of all taken words
   have been delivered. *)
Definition s24_mu (s : s24_st) : nat :=
  ((if s24_rv s then (if s24_half s then 1 else if s24_valid s then 2 else 3) else 0) + (if s24_valid s then 1 else 0))%nat.
Theorem C38_drains : forall l l', Forall in64 (l ++ l') -> src_ok s24_init None (l ++ l') -> Forall drain_in l' -> (4 <= length l')%nat ->
  s24_delivered s24_init (l ++ l') = flat_map split24 (s24_accepted s24_init (l ++ l')).
Proof.
  intros l l' HF HS Hd Hl. assert (I0 : s24_inv [] [] None s24_init) by (repeat split; intros; discriminate).
  destruct (s24_run_inv (l ++ l') [] [] None s24_init HF HS I0) as (I1 & _ & _). cbn [app] in I1.
  assert (R : forall l1 l2 s, s24_run s (l1 ++ l2) = s24_run (s24_run s l1) l2) by (induction l1; intros; cbn; auto).
  assert (SO : forall l1 l2 s off, src_ok s off (l1 ++ l2) -> src_ok s off l1 /\ src_ok (s24_run s l1) (src_end s off l1) l2).
  { clear. induction l1 as [|i l1 IH]; intros l2 s off H; cbn in *; [auto|]. destruct H as [H1 H2]. destruct (IH _ _ _ H2). auto. }
  apply Forall_app in HF. destruct HF as [HF1 HF2]. destruct (SO _ _ _ _ HS) as [HS1 HS2].
  pose proof (s24_run_inv l [] [] None s24_init HF1 HS1 I0) as J.
  assert (K : forall l' s A D off, Forall in64 l' -> Forall drain_in l' -> src_ok s off l' -> s24_inv A D off s -> (s24_mu s <= length l')%nat ->
     s24_mu (s24_run s l') = 0%nat /\ (l' <> [] -> s24_busy (s24_run s l') = true)).
  { clear. induction l' as [|i l' IH]; intros s A D off HF Hd HS I Hm; cbn [length s24_run src_ok] in *; [split; [lia|congruence]|].
    apply Forall_cons_iff in HF. destruct HF as [F1 HF]. apply Forall_cons_iff in Hd. destruct Hd as [D1 Hd]. destruct HS as [HS1 HS2].
    pose proof (s24_inv_step A D off s i F1 HS1 I) as I'.
    assert (M : (s24_mu (s24_step s i) <= pred (s24_mu s))%nat /\ s24_busy (s24_step s i) = true).
    { destruct D1 as [E1 E2]. destruct I as (_ & _ & I3). unfold s24_mu, s24_step. cbn [s24_busy s24_rv s24_half s24_valid]. rewrite E1, E2.
      destruct s as [reg rv half data valid busy]. cbn in *. destruct half; [destruct (I3 eq_refl) as [-> ->]|]; try destruct valid; try destruct rv; cbn; split; try lia; reflexivity. }
    destruct (IH (s24_step s i) _ _ _ HF Hd HS2 I' ltac:(lia)) as [K1 K2]. split; [exact K1|]. intros _. destruct l'; [apply M|apply K2; congruence]. }
  assert (Hm : (s24_mu (s24_run s24_init l) <= 4)%nat) by (unfold s24_mu; repeat match goal with |- context [if ?b then _ else _] => destruct b end; lia).
  destruct (K l' _ _ _ _ HF2 Hd HS2 J ltac:(lia)) as [K1 K2]. rewrite R in I1. rewrite K2 in I1 by (intros ->; cbn in Hl; lia).
  rewrite I1. unfold s24_held, s24_mu in *. destruct (s24_valid _); [lia|]. destruct (s24_rv _); [destruct (s24_half _); lia|]. symmetry. apply app_nil_r.
Qed.

(* C38.  An always ready consumer and a never empty source: one 24-bit word per cycle from the third cycle on. *)
Theorem C38_full_rate : forall l, (2 <= length l)%nat -> Forall (fun i => pi_valid i = true /\ pi_busy i = false) l -> s24_valid (s24_run s24_init l) = true.
Proof.
  intros [|i [|j l]] Hl HF; cbn [length] in Hl; try lia. apply Forall_cons_iff in HF. destruct HF as [[A1 A2] HF]. apply Forall_cons_iff in HF. destruct HF as [[B1 B2] HF].
  cbn [s24_run].
  assert (K : forall l s, Forall (fun i => pi_valid i = true /\ pi_busy i = false) l -> s24_valid s = true /\ s24_rv s = true -> s24_valid (s24_run s l) = true).
  { clear. induction l as [|i l IH]; intros s HF H; [apply H|]. apply Forall_cons_iff in HF. destruct HF as [[A1 A2] HF]. cbn [s24_run]. apply IH; [exact HF|].
    unfold s24_step. cbn [s24_valid s24_rv]. destruct H as [-> ->]. rewrite A1, A2. cbn. destruct (s24_half s); split; reflexivity. }
  apply K; [exact HF|]. unfold s24_step. rewrite A1, A2, B1, B2. split; reflexivity.
Qed.

(* C38.  An offered output word is held until it is taken. *)
Theorem C38_stable : forall s i, s24_valid s = true -> pi_busy i = true -> s24_valid (s24_step s i) = true /\ s24_data (s24_step s i) = s24_data s.
Proof. intros s i H1 H2. unfold s24_step. cbn [s24_valid s24_data]. rewrite H1, H2. cbn [negb andb]. rewrite !andb_false_r. cbn [andb]. auto. Qed.

Example C38_example :
  let w1 := 0x0123456789abcdef in let w2 := 0xfedcba9876543210 in
  let l := [w16 true w1 false; w16 true w1 false; w16 true w2 true; w16 true w2 true; w16 true w2 false; w16 true w2 false; w16 false 0 false; w16 false 0 false; w16 false 0 false; w16 false 0 false] in
  Forall in64 l /\ src_ok s24_init None l /\ s24_accepted s24_init l = [w1; w2] /\ s24_delivered s24_init l = [0x012345; 0x6789ab; 0xfedcba; 0x987654].
Proof. cbv zeta. split; [repeat constructor; cbn; lia|]. split; [vm_compute; repeat split|]. vm_compute. repeat split. Qed.
