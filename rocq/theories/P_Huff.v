(* createEncodeTable, first part: merging frequencies gives the code lengths of a full binary tree over the classes that occur and symbol 17 *)
From Coq Require Import Floats.SpecFloat Permutation.
From Verif Require Import Bits Spec M_Lj92 M_Enc92 P_Float.
Ltac Zify.zify_post_hook ::= idtac.

Definition zsum (f : Z -> Z) (l : list Z) : Z := fold_right (fun x a => f x + a) 0 l.
Lemma zsum_app f a b : zsum f (a ++ b) = zsum f a + zsum f b.
Proof. induction a as [|x a IH]; cbn [zsum fold_right app]; [reflexivity|]. fold (zsum f (a ++ b)). fold (zsum f a). lia. Qed.
Lemma zsum_cons f x l : zsum f (x :: l) = f x + zsum f l. Proof. reflexivity. Qed.
Lemma zsum_ext f g l : (forall x, In x l -> f x = g x) -> zsum f l = zsum g l.
Proof. induction l as [|x l IH]; intros H; [reflexivity|]. rewrite !zsum_cons. rewrite (H x) by (left; reflexivity). rewrite IH; [reflexivity|]. intros y Hy. apply H. right. exact Hy. Qed.
Lemma zsum_upd f a v l : NoDup l -> In a l -> zsum (upd f a v) l = zsum f l - f a + v.
Proof.
  induction l as [|x l IH]; intros N I; [contradiction|]. inversion N as [|? ? Nx Nl]; subst. rewrite !zsum_cons. unfold upd at 1. destruct I as [->|I].
  - rewrite Z.eqb_refl. rewrite (zsum_ext (upd f a v) f); [lia|]. intros y Hy. unfold upd. destruct (y =? a) eqn:E; [|reflexivity]. apply Z.eqb_eq in E. subst y. contradiction.
  - destruct (x =? a) eqn:E; [apply Z.eqb_eq in E; subst x; contradiction|]. rewrite IH by assumption. lia.
Qed.
Lemma zsum_le f g l : (forall x, In x l -> f x <= g x) -> zsum f l <= zsum g l.
Proof. induction l as [|x l IH]; intros H; [reflexivity|]. rewrite !zsum_cons. pose proof (H x (or_introl eq_refl)). assert (zsum f l <= zsum g l) by (apply IH; intros y Hy; apply H; right; exact Hy). lia. Qed.
Lemma zsum_scale f k l : zsum (fun x => k * f x) l = k * zsum f l.
Proof. induction l as [|x l IH]; [cbn; lia|]. rewrite !zsum_cons, IH. lia. Qed.
Lemma zsum_plus f g l : zsum (fun x => f x + g x) l = zsum f l + zsum g l.
Proof. induction l as [|x l IH]; [reflexivity|]. rewrite !zsum_cons, IH. lia. Qed.
Lemma zsum_perm f a b : Permutation a b -> zsum f a = zsum f b.
Proof. induction 1; rewrite ?zsum_cons; lia. Qed.
Lemma zsum_nonneg f l : (forall x, In x l -> 0 <= f x) -> 0 <= zsum f l.
Proof. intros H. assert (E : zsum (fun _ => 0) l = 0) by (clear H; induction l; [reflexivity|rewrite zsum_cons; lia]). rewrite <- E. apply zsum_le. exact H. Qed.
Lemma zsum_in_le f l a : (forall x, In x l -> 0 <= f x) -> In a l -> f a <= zsum f l.
Proof.
  induction l as [|x l IH]; intros H I; [contradiction|]. rewrite zsum_cons. assert (Hr : forall y, In y l -> 0 <= f y) by (intros; apply H; right; assumption).
  destruct I as [->|I]; [pose proof (zsum_nonneg f l Hr); lia|]. pose proof (IH Hr I). pose proof (H x (or_introl eq_refl)). lia.
Qed.

(* the chain of a group in `others` *)
Fixpoint linked (others : lmem) (ch : list Z) : Prop :=
  match ch with [] => False | a :: r => match r with [] => others a = -1 | b :: _ => others a = b /\ linked others r end end.
Lemma linked_ext o o' ch : (forall c, In c ch -> o' c = o c) -> linked o ch -> linked o' ch.
Proof.
  induction ch as [|a [|b r] IH]; intros H L; [exact L| |].
  - cbn in *. rewrite H by (left; reflexivity). exact L.
  - destruct L as [L1 L2]. split; [rewrite H by (left; reflexivity); exact L1|]. apply IH; [|exact L2]. intros c Hc. apply H. right. exact Hc.
Qed.
Lemma linked_app o c1 v2 c2 : NoDup (c1 ++ v2 :: c2) -> linked o c1 -> linked o (v2 :: c2) ->
  linked (upd o (last c1 0) v2) (c1 ++ v2 :: c2) /\ linked (upd o (last c1 0) v2) (v2 :: c2).
Proof.
  intros N L1 L2.
  assert (K : linked (upd o (last c1 0) v2) (v2 :: c2)).
  { apply (linked_ext o); [|exact L2]. intros c Hc. unfold upd. destruct (c =? last c1 0) eqn:E; [|reflexivity]. exfalso. apply Z.eqb_eq in E. subst c.
    assert (NE : c1 <> []) by (destruct c1; [contradiction|discriminate]). destruct (exists_last NE) as (pre & z & ->). rewrite last_last in Hc. rewrite <- app_assoc in N. apply NoDup_remove_2 in N. apply N. apply in_or_app. right. exact Hc. }
  split; [|exact K]. set (o' := upd o (last c1 0) v2) in *.
  assert (G : forall c0, NoDup (c0 ++ v2 :: c2) -> linked o c0 -> (forall c, In c c0 -> c <> last c0 0 -> o' c = o c) -> o' (last c0 0) = v2 -> linked o' (c0 ++ v2 :: c2)).
  { clear N L1. induction c0 as [|a [|b r] IH]; intros N L H1 H2; [contradiction| |].
    - cbn in H2. cbn [app linked]. split; [exact H2|exact K].
    - destruct L as [La Lb]. cbn [app linked]. apply NoDup_cons_iff in N; destruct N as [Na Nb]. change (last (a :: b :: r) 0) with (last (b :: r) 0) in *. split.
      + rewrite H1; [exact La|left; reflexivity|]. intros Ea. apply Na. change (In a ((b :: r) ++ v2 :: c2)). apply in_or_app. left. rewrite Ea.
        destruct (exists_last (l := b :: r)) as (pre & z & Eq); [discriminate|]. rewrite Eq, last_last. apply in_or_app. right. left. reflexivity.
      + apply IH; [exact Nb|exact Lb| |exact H2]. intros c Hc. apply H1. right. exact Hc. }
  apply G; [exact N|exact L1| |].
  - intros c _ Hne. unfold o', upd. destruct (c =? last c1 0) eqn:E; [apply Z.eqb_eq in E; contradiction|reflexivity].
  - unfold o', upd. rewrite Z.eqb_refl. reflexivity.
Qed.
Definition inb (c : Z) (l : list Z) : bool := existsb (Z.eqb c) l.
Lemma inb_in c l : inb c l = true <-> In c l.
Proof. unfold inb. rewrite existsb_exists. split; [intros (x & Hx & E); apply Z.eqb_eq in E; subst; exact Hx|intros H; exists c; split; [exact H|apply Z.eqb_refl]]. Qed.
Lemma chain_inc_ok o ch : forall fuel cs v r, ch = v :: r -> linked o ch -> NoDup ch -> (forall c, In c ch -> 0 <= c) -> (length ch <= fuel)%nat ->
  exists cs', chain_inc fuel cs o v = (cs', last ch 0) /\ (forall c, cs' c = if inb c ch then cs c + 1 else cs c).
Proof.
  induction ch as [|a ch IH]; intros fuel cs v r E L N P F; [discriminate|]. injection E as -> ->. destruct fuel as [|f]; [cbn in F; lia|]. cbn [chain_inc].
  inversion N as [|? ? Nv Nr]; subst. destruct r as [|b r].
  - cbn [linked] in L. rewrite L. eexists. split; [reflexivity|]. intros c. cbn. unfold upd. rewrite Bool.orb_false_r. destruct (c =? v) eqn:E; [|reflexivity]. apply Z.eqb_eq in E. subst. reflexivity.
  - destruct L as [L1 L2]. rewrite L1. assert (Hb : 0 <= b) by (apply P; right; left; reflexivity). destruct (b =? -1) eqn:Eb; [lia|].
    destruct (IH f (upd cs v (cs v + 1)) b r eq_refl L2 Nr ltac:(intros c Hc; apply P; right; exact Hc) ltac:(cbn [length] in *; lia)) as (cs' & E1 & E2).
    exists cs'. split; [rewrite E1; reflexivity|]. intros c. rewrite E2. unfold inb at 2. cbn [existsb]. fold (inb c (b :: r)). change ((c =? b) || existsb (Z.eqb c) r)%bool with (inb c (b :: r)).
    unfold upd. destruct (c =? v) eqn:E; cbn [orb].
    + apply Z.eqb_eq in E. subst c. destruct (inb v (b :: r)) eqn:Ei; [apply inb_in in Ei; contradiction|reflexivity].
    + reflexivity.
Qed.

(* a frequency is 0 or a normal number below 3 *)
Definition fr_ok (f : f32) : Prop := f = f32_0 \/ (is_norm f /\ fval f < 3 * 2 ^ 149).
Lemma norm_nz f : is_norm f -> f <> f32_0.
Proof. intros (m & e & -> & _). discriminate. Qed.
Lemma pick1_ok freq n : forall i vf v, (forall j, i <= j < i + Z.of_nat n -> fr_ok (freq j)) ->
  let r := pick1 n i freq vf v in
  (r = v \/ (i <= r < i + Z.of_nat n /\ is_norm (freq r))) /\
  (vf = f32_3 -> forall j, i <= j < i + Z.of_nat n -> is_norm (freq j) -> i <= r < i + Z.of_nat n /\ is_norm (freq r)).
Proof.
  induction n as [|n IH]; intros i vf v H; cbn [pick1]; [split; [left; reflexivity|intros; lia]|].
  assert (H' : forall j, i + 1 <= j < i + 1 + Z.of_nat n -> fr_ok (freq j)) by (intros; apply H; lia).
  destruct (SFleb (freq i) vf && SFltb f32_0 (freq i)) eqn:E.
  - assert (Hi : is_norm (freq i)). { destruct (H i ltac:(lia)) as [Hz|[Hn _]]; [|exact Hn]. apply andb_true_iff in E. destruct E as [_ E]. rewrite Hz in E. discriminate. }
    pose proof (IH (i + 1) (freq i) i H') as K. cbv zeta in K. destruct K as [K _]. destruct K as [K|[K1 K2]].
    + rewrite K. split; [right; split; [lia|exact Hi]|intros; split; [lia|exact Hi]].
    + split; [right; split; [lia|exact K2]|intros; split; [lia|exact K2]].
  - pose proof (IH (i + 1) vf v H') as K. cbv zeta in K. destruct K as [K1 K2]. split.
    + destruct K1 as [K1|[K1 K3]]; [left; exact K1|right; split; [lia|exact K3]].
    + intros -> j Hj Nj. destruct (Z.eq_dec j i) as [->|N].
      * exfalso. destruct (H i ltac:(lia)) as [Hz|[_ Hl]]; [apply (norm_nz _ Nj Hz)|]. destruct (norm_lt3 _ Nj Hl) as [_ A]. destruct (norm_pos _ Nj) as [B _]. rewrite A, B in E. discriminate.
      * destruct (K2 eq_refl j ltac:(lia) Nj) as [A B]. split; [lia|exact B].
Qed.
Lemma pick2_ok freq v1 n : forall i vf v, (forall j, i <= j < i + Z.of_nat n -> fr_ok (freq j)) ->
  let r := pick2 n i freq v1 vf v in
  (r = v \/ (i <= r < i + Z.of_nat n /\ r <> v1 /\ is_norm (freq r))) /\
  (vf = f32_3 -> forall j, i <= j < i + Z.of_nat n -> j <> v1 -> is_norm (freq j) -> i <= r < i + Z.of_nat n /\ r <> v1 /\ is_norm (freq r)).
Proof.
  induction n as [|n IH]; intros i vf v H; cbn [pick2]; [split; [left; reflexivity|intros; lia]|].
  assert (H' : forall j, i + 1 <= j < i + 1 + Z.of_nat n -> fr_ok (freq j)) by (intros; apply H; lia).
  destruct (i =? v1) eqn:Ev.
  { pose proof (IH (i + 1) vf v H') as K. cbv zeta in K. destruct K as [K1 K2]. split.
    - destruct K1 as [K1|[K1 K3]]; [left; exact K1|right; split; [lia|exact K3]].
    - intros E3 j Hj Nv Nj. destruct (K2 E3 j ltac:(lia) Nv Nj) as [A B]. split; [lia|exact B]. }
  destruct (SFltb (freq i) vf && SFltb f32_0 (freq i)) eqn:E.
  - assert (Hi : is_norm (freq i)). { destruct (H i ltac:(lia)) as [Hz|[Hn _]]; [|exact Hn]. apply andb_true_iff in E. destruct E as [_ E]. rewrite Hz in E. discriminate. }
    pose proof (IH (i + 1) (freq i) i H') as K. cbv zeta in K. destruct K as [K _]. destruct K as [K|[K1 [K3 K2]]].
    + rewrite K. split; [right|intros]; (split; [lia|split; [lia|exact Hi]]).
    + split; [right|intros]; (split; [lia|split; [exact K3|exact K2]]).
  - pose proof (IH (i + 1) vf v H') as K. cbv zeta in K. destruct K as [K1 K2]. split.
    + destruct K1 as [K1|[K1 K3]]; [left; exact K1|right; split; [lia|exact K3]].
    + intros -> j Hj Nv Nj. destruct (Z.eq_dec j i) as [->|N].
      * exfalso. destruct (H i ltac:(lia)) as [Hz|[_ Hl]]; [apply (norm_nz _ Nj Hz)|]. destruct (norm_lt3 _ Nj Hl) as [A _]. destruct (norm_pos _ Nj) as [B _]. rewrite A, B in E. discriminate.
      * destruct (K2 eq_refl j ltac:(lia) Nv Nj) as [A B]. split; [lia|exact B].
Qed.

Definition r18 : list Z := map Z.of_nat (seq 0 18).
Lemma r18_in c : In c r18 <-> 0 <= c < 18.
Proof. unfold r18. rewrite in_map_iff. split; [intros (k & <- & Hk); apply in_seq in Hk; lia|]. intros H. exists (Z.to_nat c). split; [lia|]. apply in_seq. lia. Qed.
Lemma r18_nodup : NoDup r18.
Proof. unfold r18. apply FinFun.Injective_map_NoDup; [intros a b H; lia|apply seq_NoDup]. Qed.
Definition fsum (freq : Z -> f32) : Z := zsum (fun i => fval (freq i)) r18.

Definition ch_ok (cs others : lmem) (ch : list Z) : Prop :=
  linked others ch /\ (forall c, In c ch -> 0 <= cs c <= len ch - 1) /\ zsum (fun c => 2 ^ (17 - cs c)) ch = 2 ^ 17.
(* chains of the groups that are left *)
Record minv (Sy : Z -> Prop) (G : list (list Z)) (freq : Z -> f32) (cs others : lmem) : Prop := {
  mi_nd : NoDup (concat G);
  mi_in : forall c, In c (concat G) <-> Sy c;
  mi_dom : forall c, Sy c -> 0 <= c < 18;
  mi_ch : Forall (ch_ok cs others) G;
  mi_out : forall c, ~ Sy c -> cs c = 0;
  mi_head : forall i, 0 <= i < 18 -> (is_norm (freq i) /\ (exists ch, In (i :: ch) G)) \/ (freq i = f32_0 /\ forall ch, ~ In (i :: ch) G);
  mi_sum : 100 * fsum freq <= (230 - len G) * 2 ^ 149 }.

Lemma fval_nonneg f : 0 <= fval f.
Proof. destruct f as [| | |[|] m e]; cbn [fval]; lia. Qed.
Lemma nodup_split (a b : list Z) : NoDup (a ++ b) -> NoDup a /\ NoDup b /\ (forall c, In c a -> In c b -> False).
Proof.
  induction a as [|x a IH]; intros N; [split; [constructor|split; [exact N|intros c []]]|]. cbn [app] in N. apply NoDup_cons_iff in N. destruct N as [N1 N2]. destruct (IH N2) as (A & B & C).
  split; [constructor; [|exact A]|split; [exact B|]].
  - intros H. apply N1, in_or_app. left. exact H.
  - intros c [->|H] Hb; [apply N1, in_or_app; right; exact Hb|exact (C c H Hb)].
Qed.
Lemma concat_perm (G H : list (list Z)) : Permutation G H -> Permutation (concat G) (concat H).
Proof.
  induction 1; cbn [concat]; [constructor|apply Permutation_app_head; assumption| |econstructor; eassumption].
  rewrite !app_assoc. apply Permutation_app_tail. apply Permutation_app_comm.
Qed.
Lemma in_concat_head G (i : Z) ch : In (i :: ch) G -> In i (concat G).
Proof. intros H. apply in_concat. exists (i :: ch). split; [exact H|left; reflexivity]. Qed.
Lemma len_concat_le (G : list (list Z)) : NoDup (concat G) -> (forall c, In c (concat G) -> 0 <= c < 18) -> (length (concat G) <= 18)%nat.
Proof. intros N H. change 18%nat with (length r18). apply NoDup_incl_length; [exact N|]. intros c Hc. apply r18_in. apply H. exact Hc. Qed.

Lemma minv_fr Sy G freq cs others : minv Sy G freq cs others -> (1 <= length G)%nat -> forall j, 0 <= j < 18 -> fr_ok (freq j).
Proof.
  intros I LG j Hj. destruct (mi_head _ _ _ _ _ I j Hj) as [[Hn _]|[Hz _]]; [|left; exact Hz]. right. split; [exact Hn|].
  assert (K : fval (freq j) <= fsum freq) by (apply (zsum_in_le (fun i => fval (freq i))); [intros; apply fval_nonneg|apply r18_in; exact Hj]).
  pose proof (mi_sum _ _ _ _ _ I) as HS. unfold len in HS. pose proof (pow2_pos 149 ltac:(lia)). nia.
Qed.

Lemma merge_step Sy G freq cs others v1 v2 : minv Sy G freq cs others -> 0 <= v1 < 18 -> 0 <= v2 < 18 -> v1 <> v2 -> is_norm (freq v1) -> is_norm (freq v2) ->
  exists G' cs1 cs2 l1 l2, (length G = S (length G'))%nat /\ chain_inc 18 cs others v1 = (cs1, l1) /\ chain_inc 18 cs1 (upd others l1 v2) v2 = (cs2, l2) /\
    minv Sy G' (fupd (fupd freq v1 (f32_add (freq v1) (freq v2))) v2 f32_0) cs2 (upd others l1 v2).
Proof.
  intros I H1 H2 Hne N1 N2. pose proof I as [ND IN DOM CH OUT HD SUM].
  assert (HG1 : exists c1, In (v1 :: c1) G) by (destruct (HD v1 H1) as [[_ K]|[Hz _]]; [exact K|apply norm_nz in N1; contradiction]). destruct HG1 as (c1 & HG1).
  assert (HG2 : exists c2, In (v2 :: c2) G) by (destruct (HD v2 H2) as [[_ K]|[Hz _]]; [exact K|apply norm_nz in N2; contradiction]). destruct HG2 as (c2 & HG2).
  apply in_split in HG1. destruct HG1 as (A & B & EG). assert (P1 : Permutation G ((v1 :: c1) :: A ++ B)) by (rewrite EG; symmetry; apply Permutation_middle).
  assert (HG2' : In (v2 :: c2) (A ++ B)). { apply (Permutation_in _ P1) in HG2. destruct HG2 as [E|K]; [injection E as ->; lia|exact K]. }
  apply in_split in HG2'. destruct HG2' as (A' & B' & EG'). set (R := A' ++ B').
  assert (P : Permutation G ((v1 :: c1) :: (v2 :: c2) :: R)) by (rewrite P1, EG'; apply perm_skip; symmetry; apply Permutation_middle). clear EG EG' P1 A B. clearbody R. clear A' B'.
  pose proof (concat_perm _ _ P) as PC. cbn [concat] in PC. pose proof (Permutation_NoDup PC ND) as ND'. rewrite app_assoc in ND'.
  pose proof (Permutation_Forall P CH) as CH'. inversion CH' as [|? ? C1 CH'']; subst. inversion CH'' as [|? ? C2 CR]; subst. destruct C1 as (L1 & B1 & K1). destruct C2 as (L2 & B2 & K2).
  set (ch1 := v1 :: c1) in *. set (ch2 := v2 :: c2) in *. set (ch := ch1 ++ ch2) in *.
  assert (NDch : NoDup ch) by (apply (nodup_split _ _ ND')).
  assert (ND1 : NoDup ch1) by (apply (nodup_split _ _ NDch)). assert (ND2 : NoDup ch2) by (apply (nodup_split _ _ NDch)).
  assert (DomG : forall c, In c (ch ++ concat R) -> 0 <= c < 18).
  { intros c Hc. apply DOM, IN. apply (Permutation_in _ (Permutation_sym PC)). unfold ch in Hc. rewrite <- app_assoc in Hc. exact Hc. }
  assert (LL : (length (ch ++ concat R) <= 18)%nat) by (change 18%nat with (length r18); apply NoDup_incl_length; [exact ND'|]; intros c Hc; apply r18_in, DomG, Hc).
  assert (Lc : (length ch1 + length ch2 <= 18)%nat) by (unfold ch in LL; rewrite !app_length in LL; lia).
  destruct (chain_inc_ok others ch1 18 cs v1 c1 eq_refl L1 ND1 ltac:(intros c Hc; apply DomG; apply in_or_app; left; apply in_or_app; left; exact Hc) ltac:(lia)) as (cs1 & E1 & F1).
  destruct (linked_app others ch1 v2 c2 NDch L1 L2) as (LA & LB). fold ch2 in LA, LB. fold ch in LA. set (others' := upd others (last ch1 0) v2) in *.
  destruct (chain_inc_ok others' ch2 18 cs1 v2 c2 eq_refl LB ND2 ltac:(intros c Hc; apply DomG; apply in_or_app; left; apply in_or_app; right; exact Hc) ltac:(lia)) as (cs2 & E2 & F2).
  exists (ch :: R), cs1, cs2, (last ch1 0), (last ch2 0). split; [rewrite (Permutation_length P); reflexivity|]. split; [exact E1|]. split; [exact E2|].
  assert (Hlast : In (last ch1 0) ch1). { destruct (exists_last (l := ch1)) as (pre & z & Eq); [discriminate|]. rewrite Eq, last_last. apply in_or_app. right. left. reflexivity. }
  assert (D12 : forall c, In c ch1 -> In c ch2 -> False) by (apply (nodup_split _ _ NDch)).
  assert (DR : forall c, In c ch -> In c (concat R) -> False) by (apply (nodup_split _ _ ND')).
  assert (CS : forall c, cs2 c = if inb c ch then cs c + 1 else cs c).
  { intros c. rewrite F2, F1. unfold ch, inb. rewrite existsb_app. fold (inb c ch1). fold (inb c ch2). destruct (inb c ch1) eqn:X1, (inb c ch2) eqn:X2; try reflexivity. apply inb_in in X1, X2. destruct (D12 c X1 X2). }
  constructor.
  - cbn [concat]. exact ND'.
  - intros c. rewrite <- IN. cbn [concat]. unfold ch. rewrite <- app_assoc. split; intros H; [apply (Permutation_in _ (Permutation_sym PC)); exact H|apply (Permutation_in _ PC); exact H].
  - exact DOM.
  - constructor.
    + split; [exact LA|]. assert (CSi : forall c, In c ch -> cs2 c = cs c + 1) by (intros c Hc; rewrite CS; apply inb_in in Hc; rewrite Hc; reflexivity). split.
      * intros c Hc. rewrite CSi by exact Hc. unfold ch, len. rewrite app_length, Nat2Z.inj_add. assert (0 < Z.of_nat (length ch1) /\ 0 < Z.of_nat (length ch2)) by (unfold ch1, ch2; cbn [length]; lia).
        unfold ch in Hc. apply in_app_or in Hc. destruct Hc as [Hc|Hc]; [pose proof (B1 c Hc)|pose proof (B2 c Hc)]; unfold len in *; lia.
      * assert (Half : forall l, incl l ch -> (forall c, In c l -> 0 <= cs c <= 16) -> 2 * zsum (fun c => 2 ^ (17 - cs2 c)) l = zsum (fun c => 2 ^ (17 - cs c)) l).
        { intros l Hl Hb. rewrite <- zsum_scale. apply zsum_ext. intros c Hc. rewrite CSi by (apply Hl; exact Hc). pose proof (Hb c Hc). replace (17 - cs c) with (1 + (17 - (cs c + 1))) by lia. rewrite Z.pow_add_r by lia. reflexivity. }
        unfold ch. rewrite zsum_app. assert (X : forall c, In c ch -> 0 <= cs c <= 16).
        { intros c Hc. unfold ch in Hc. apply in_app_or in Hc. unfold len in B1, B2. unfold ch1, ch2 in Lc. cbn [length] in Lc. destruct Hc as [Hc|Hc]; [pose proof (B1 c Hc) as Q|pose proof (B2 c Hc) as Q]; unfold ch1, ch2 in Q; cbn [length] in Q; lia. }
        pose proof (Half ch1 ltac:(intros c Hc; apply in_or_app; left; exact Hc) ltac:(intros c Hc; apply X, in_or_app; left; exact Hc)) as Q1.
        pose proof (Half ch2 ltac:(intros c Hc; apply in_or_app; right; exact Hc) ltac:(intros c Hc; apply X, in_or_app; right; exact Hc)) as Q2. rewrite K1 in Q1. rewrite K2 in Q2. lia.
    + rewrite Forall_forall in CR |- *. intros r Hr. destruct (CR r Hr) as (La & Lb & Lk).
      assert (NR : forall c, In c r -> inb c ch = false). { intros c Hc. destruct (inb c ch) eqn:X; [|reflexivity]. apply inb_in in X. exfalso. apply (DR c X). apply in_concat. exists r. split; assumption. }
      assert (CR2 : forall c, In c r -> cs2 c = cs c) by (intros c Hc; rewrite CS, NR by exact Hc; reflexivity).
      split; [|split].
      * apply (linked_ext others); [|exact La]. intros c Hc. unfold others', upd. destruct (c =? last ch1 0) eqn:X; [|reflexivity]. apply Z.eqb_eq in X. subst c. exfalso. pose proof (NR _ Hc) as X. assert (Y : inb (last ch1 0) ch = true) by (apply inb_in, in_or_app; left; exact Hlast). congruence.
      * intros c Hc. rewrite CR2 by exact Hc. apply Lb. exact Hc.
      * rewrite <- Lk. apply zsum_ext. intros c Hc. rewrite CR2 by exact Hc. reflexivity.
  - intros c Hc. rewrite CS. destruct (inb c ch) eqn:X; [|apply OUT; exact Hc]. exfalso. apply Hc. apply IN. apply inb_in in X. apply (Permutation_in _ (Permutation_sym PC)). rewrite app_assoc. apply in_or_app. left. exact X.
  - assert (FR := minv_fr Sy G freq cs others I ltac:(rewrite (Permutation_length P); cbn; lia)).
    assert (HS2 : fval (freq v1) + fval (freq v2) <= fsum freq).
    { unfold fsum. assert (Q : exists l, Permutation r18 (v1 :: v2 :: l)).
      { assert (Q1 : In v1 r18) by (apply r18_in; exact H1). apply in_split in Q1. destruct Q1 as (a & b & Eq). assert (Pa : Permutation r18 (v1 :: a ++ b)) by (rewrite Eq; symmetry; apply Permutation_middle).
        assert (Q2 : In v2 (a ++ b)). { assert (Q2 : In v2 r18) by (apply r18_in; exact H2). apply (Permutation_in _ Pa) in Q2. destruct Q2 as [Q2|Q2]; [contradiction|exact Q2]. }
        apply in_split in Q2. destruct Q2 as (a' & b' & Eq2). exists (a' ++ b'). rewrite Pa, Eq2. apply perm_skip. symmetry. apply Permutation_middle. }
      destruct Q as (l & Q). rewrite (zsum_perm _ _ _ Q). rewrite !zsum_cons. pose proof (zsum_nonneg (fun i => fval (freq i)) l ltac:(intros; apply fval_nonneg)). lia. }
    assert (HB : fval (freq v1) + fval (freq v2) < 4 * 2 ^ 149).
    { unfold len in SUM. pose proof (pow2_pos 149 ltac:(lia)). nia. }
    destruct (f32_add_ok _ _ N1 N2 HB) as (NA & _).
    intros i Hi. unfold fupd. destruct (i =? v2) eqn:X2.
    + right. split; [reflexivity|]. apply Z.eqb_eq in X2. subst i. intros r [Hr|Hr].
      * unfold ch, ch1 in Hr. cbn [app] in Hr. injection Hr as Hr _. lia.
      * apply (DR v2); [apply in_or_app; right; left; reflexivity|]. apply (in_concat_head R v2 r). exact Hr.
    + destruct (i =? v1) eqn:X1.
      * apply Z.eqb_eq in X1. subst i. left. split; [exact NA|]. exists (c1 ++ ch2). left. reflexivity.
      * destruct (HD i Hi) as [[Q1 (r & Q2)]|[Q1 Q2]]; [left|right]; (split; [exact Q1|]).
        -- apply (Permutation_in _ P) in Q2. destruct Q2 as [Q2|[Q2|Q2]]; [injection Q2 as -> _; lia|injection Q2 as -> _; lia|]. exists r. right. exact Q2.
        -- intros r Hr. destruct Hr as [Hr|Hr]; [unfold ch, ch1 in Hr; cbn [app] in Hr; injection Hr as <- _; lia|]. apply (Q2 r). apply (Permutation_in _ (Permutation_sym P)). right. right. exact Hr.
  - assert (HS2 : fval (freq v1) + fval (freq v2) < 4 * 2 ^ 149 /\ fsum (fupd (fupd freq v1 (f32_add (freq v1) (freq v2))) v2 f32_0) = fsum freq - fval (freq v1) - fval (freq v2) + fval (f32_add (freq v1) (freq v2))).
    { split.
      - pose proof (minv_fr Sy G freq cs others I ltac:(rewrite (Permutation_length P); cbn; lia)) as FR.
        assert (A1 := zsum_in_le (fun i => fval (freq i)) r18 v1 ltac:(intros; apply fval_nonneg) ltac:(apply r18_in; exact H1)).
        assert (A2 := zsum_upd (fun i => fval (freq i)) v1 0 r18 r18_nodup ltac:(apply r18_in; exact H1)).
        assert (A3 := zsum_in_le (upd (fun i => fval (freq i)) v1 0) r18 v2 ltac:(intros; unfold upd; destruct (_ =? _); [lia|apply fval_nonneg]) ltac:(apply r18_in; exact H2)).
        rewrite A2 in A3. unfold upd in A3. replace (v2 =? v1) with false in A3 by lia. fold (fsum freq) in A3. cbv beta in A3. pose proof (pow2_pos 149 ltac:(lia)). unfold len in SUM. nia.
      - unfold fsum. set (g := fun i => fval (freq i)). set (w := fval (f32_add (freq v1) (freq v2))).
        rewrite (zsum_ext _ (upd (upd g v1 w) v2 0)).
        + rewrite zsum_upd; [|apply r18_nodup|apply r18_in; exact H2]. rewrite zsum_upd; [|apply r18_nodup|apply r18_in; exact H1]. unfold upd. replace (v2 =? v1) with false by lia. unfold g. lia.
        + intros x _. unfold fupd, upd. destruct (x =? v2); [reflexivity|]. destruct (x =? v1); reflexivity. }
    destruct HS2 as [HB ->]. destruct (f32_add_ok _ _ N1 N2 HB) as (_ & HA). rewrite (f_equal (fun n => Z.of_nat n) (Permutation_length P) : len G = _) in SUM. unfold len. cbn [length] in *.
    pose proof T23_eq as HT. assert (HT' : 1000 < T23) by (rewrite HT; reflexivity). set (a := fval (f32_add _ _)) in *. set (b := fval (freq v1) + fval (freq v2)) in *.
    replace (fsum freq - fval (freq v1) - fval (freq v2) + a) with (fsum freq - b + a) by (unfold b; lia). clearbody a b. set (T := T23) in *. clearbody T. clear HT. pose proof (pow2_pos 149 ltac:(lia)) as PB. set (Bq := 2 ^ 149) in *. clearbody Bq.
    set (fs := fsum freq) in *. clearbody fs. assert (100 * (a - b) <= Bq) by nia. lia.
Qed.

Lemma merge_loop Sy : forall fuel G freq cs others, minv Sy G freq cs others -> (1 <= length G <= fuel)%nat ->
  exists ch others' freq', minv Sy [ch] freq' (huff_merge fuel freq cs others) others'.
Proof.
  induction fuel as [|f IH]; intros G freq cs others I HL; [lia|]. cbn [huff_merge].
  pose proof (minv_fr _ _ _ _ _ I ltac:(lia)) as FR. assert (FR' : forall j, 0 <= j < 0 + Z.of_nat 18 -> fr_ok (freq j)) by (intros j Hj; apply FR; lia).
  pose proof (pick1_ok freq 18 0 f32_3 (-1) FR') as Q1. cbv zeta in Q1. set (v1 := pick1 18 0 freq f32_3 (-1)) in *.
  pose proof (pick2_ok freq v1 18 0 f32_3 (-1) FR') as Q2. cbv zeta in Q2. set (v2 := pick2 18 0 freq v1 f32_3 (-1)) in *. clearbody v1 v2. change (0 + Z.of_nat 18) with 18 in *.
  assert (HH : forall ch, In ch G -> exists i r, ch = i :: r /\ 0 <= i < 18 /\ is_norm (freq i)).
  { intros ch Hch. pose proof (mi_ch _ _ _ _ _ I) as CH. rewrite Forall_forall in CH. destruct (CH ch Hch) as (L & _). destruct ch as [|i r]; [contradiction|]. exists i, r. split; [reflexivity|].
    assert (Hi : 0 <= i < 18). { apply (mi_dom _ _ _ _ _ I). apply (mi_in _ _ _ _ _ I). apply (in_concat_head G i r). exact Hch. }
    split; [exact Hi|]. destruct (mi_head _ _ _ _ _ I i Hi) as [[K _]|[_ K]]; [exact K|]. destruct (K r Hch). }
  destruct Q1 as [_ Q1]. specialize (Q1 eq_refl). destruct Q2 as [Q2a Q2]. specialize (Q2 eq_refl).
  destruct G as [|g1 [|g2 G]]; [cbn in HL; lia| |].
  - destruct (HH g1 (or_introl eq_refl)) as (i & r & -> & Hi & Ni). destruct (Q1 i Hi Ni) as (Hv1 & Nv1).
    assert (E2 : v2 = -1).
    { destruct Q2a as [E|(Hv2 & Nv & Nv2)]; [exact E|]. exfalso.
      destruct (mi_head _ _ _ _ _ I v1 Hv1) as [[_ (a & Ka)]|[Kz _]]; [|apply (norm_nz _ Nv1 Kz)]. destruct (mi_head _ _ _ _ _ I v2 Hv2) as [[_ (b & Kb)]|[Kz _]]; [|apply (norm_nz _ Nv2 Kz)].
      destruct Ka as [Ka|[]]. destruct Kb as [Kb|[]]. rewrite Ka in Kb. injection Kb as Kb _. congruence. }
    rewrite E2. cbn [Z.eqb]. exists (i :: r), others, freq. exact I.
  - destruct (HH g1 (or_introl eq_refl)) as (i1 & r1 & E1 & Hi1 & Ni1). destruct (HH g2 (or_intror (or_introl eq_refl))) as (i2 & r2 & E2 & Hi2 & Ni2). destruct (Q1 i1 Hi1 Ni1) as (Hv1 & Nv1).
    assert (Nn : i1 <> i2). { pose proof (mi_nd _ _ _ _ _ I) as ND. rewrite E1, E2 in ND. cbn [concat app] in ND. apply NoDup_cons_iff in ND. destruct ND as [ND _]. intros ->. apply ND. apply in_or_app. right. left. reflexivity. }
    assert (Hv2 : 0 <= v2 < 18 /\ v2 <> v1 /\ is_norm (freq v2)).
    { destruct (Z.eq_dec i1 v1) as [->|N]; [apply (Q2 i2); [exact Hi2|congruence|exact Ni2]|apply (Q2 i1); assumption]. }
    destruct Hv2 as (Hv2 & Nv & Nv2). replace (v2 =? -1) with false by lia.
    destruct (merge_step _ _ _ _ _ v1 v2 I Hv1 Hv2 ltac:(congruence) Nv1 Nv2) as (G' & cs1 & cs2 & l1 & l2 & EL & C1 & C2 & I'). rewrite C1, C2. apply (IH G'); [exact I'|cbn [length] in *; lia].
Qed.

(* ------------------------------------------------------------------ the code lengths *)
Definition hsum (hist : lmem) : Z := zsum hist (map Z.of_nat (seq 0 17)).
Definition symbols (hist : lmem) (c : Z) : Prop := c = 17 \/ (0 <= c <= 16 /\ 0 < hist c).
Lemma hist_le hist n : (forall c, 0 <= hist c) -> hsum hist = n -> forall c, 0 <= c <= 16 -> hist c <= n.
Proof. intros H E c Hc. rewrite <- E. apply (zsum_in_le hist); [intros; apply H|]. apply in_map_iff. exists (Z.to_nat c). split; [lia|]. apply in_seq. lia. Qed.

Lemma minv_init hist n : (forall c, 0 <= hist c) -> hsum hist = n -> 1 <= n < 2 ^ 31 ->
  exists G, (1 <= length G <= 18)%nat /\ minv (symbols hist) G (freq0 hist n) (fun _ => 0) (fun _ => -1).
Proof.
  intros H0 HS Hn. set (keep := fun i => (i =? 17) || (0 <? hist i)). set (L := filter keep r18). set (G := map (fun i => [i]) L).
  assert (HL : forall c, In c L <-> symbols hist c).
  { intros c. unfold L, keep, symbols. rewrite filter_In, r18_in. split; [intros (A & B); destruct (Z.eqb_spec c 17); [left; assumption|right; cbn [orb] in B; lia]|]. intros [->|(A & B)]; [split; [lia|reflexivity]|]. split; [lia|]. destruct (c =? 17); [reflexivity|]. cbn [orb]. lia. }
  assert (HC : concat G = L) by (unfold G; clear; induction L as [|x l IH]; [reflexivity|cbn [map concat app]; rewrite IH; reflexivity]).
  assert (NL : NoDup L) by (apply NoDup_filter, r18_nodup).
  assert (LG : length G = length L) by (apply map_length). assert (L18 : (length L <= 18)%nat) by (change 18%nat with (length r18); apply NoDup_incl_length; [exact NL|]; intros c Hc; apply filter_In in Hc; apply Hc).
  assert (L1 : (1 <= length L)%nat). { assert (K : In 17 L) by (apply HL; left; reflexivity). destruct L; [contradiction|cbn; lia]. }
  assert (HIN : forall i ch, In (i :: ch) G <-> ch = [] /\ In i L). { intros i ch. unfold G. rewrite in_map_iff. split; [intros (x & E & Hx); injection E as -> <-; split; [reflexivity|exact Hx]|intros (-> & Hx); exists i; split; [reflexivity|exact Hx]]. }
  exists G. split; [lia|]. constructor.
  - rewrite HC. exact NL.
  - intros c. rewrite HC. apply HL.
  - intros c [->|[A _]]; lia.
  - apply Forall_forall. intros ch Hch. unfold G in Hch. apply in_map_iff in Hch. destruct Hch as (x & <- & _). split; [reflexivity|]. split; [intros c _; unfold len; cbn; lia|]. cbn. reflexivity.
  - reflexivity.
  - intros i Hi. unfold freq0. destruct (Z.eqb_spec i 17) as [->|N].
    + left. split; [|exists []; apply HIN; split; [reflexivity|apply HL; left; reflexivity]]. exists 8388608%positive, (-23). split; [reflexivity|]. rewrite T23_eq. split; [|lia]. split; [discriminate|reflexivity].
    + destruct (Z.eq_dec (hist i) 0) as [Ez|Ez].
      * right. rewrite Ez. split; [apply freq_zero; exact Hn|]. intros ch Hc. apply HIN in Hc. destruct Hc as [_ Hc]. apply HL in Hc. destruct Hc as [Hc|[_ Hc]]; lia.
      * left. pose proof (H0 i). pose proof (hist_le hist n H0 HS i ltac:(lia)). destruct (freq_pos (hist i) n ltac:(lia) ltac:(lia)) as [K _]. split; [exact K|]. exists []. apply HIN. split; [reflexivity|]. apply HL. right. lia.
  - assert (E18 : r18 = map Z.of_nat (seq 0 17) ++ [17]) by reflexivity. unfold fsum. rewrite E18, zsum_app.
    assert (E17 : zsum (fun i => fval (freq0 hist n i)) [17] = 2 ^ 149) by reflexivity. rewrite E17.
    assert (K : n * (10 * zsum (fun i => fval (freq0 hist n i)) (map Z.of_nat (seq 0 17))) <= n * (11 * 2 ^ 149)).
    { rewrite <- HS at 2. unfold hsum. replace (zsum hist (map Z.of_nat (seq 0 17)) * (11 * 2 ^ 149)) with (11 * 2 ^ 149 * zsum hist (map Z.of_nat (seq 0 17))) by ring.
      rewrite <- !zsum_scale. apply zsum_le. intros i Hi. apply in_map_iff in Hi. destruct Hi as (k & <- & Hk). apply in_seq in Hk. unfold freq0. replace (Z.of_nat k =? 17) with false by lia.
      pose proof (H0 (Z.of_nat k)). pose proof (hist_le hist n H0 HS (Z.of_nat k) ltac:(lia)) as Hle. destruct (Z.eq_dec (hist (Z.of_nat k)) 0) as [Ez|Ez].
      - rewrite Ez, freq_zero by exact Hn. cbn [fval f32_0]. lia.
      - destruct (freq_pos (hist (Z.of_nat k)) n ltac:(lia) ltac:(lia)) as [_ K]. lia. }
    apply Z.mul_le_mono_pos_l in K; [|lia]. unfold len. rewrite LG. pose proof (pow2_pos 149 ltac:(lia)) as PB. set (B := 2 ^ 149) in *. clearbody B. nia.
Qed.

Lemma code_sizes_ok hist n : (forall c, 0 <= hist c) -> hsum hist = n -> 1 <= n < 2 ^ 31 ->
  exists ch, NoDup ch /\ (forall c, In c ch <-> symbols hist c) /\ (2 <= length ch <= 18)%nat /\
    (forall c, In c ch -> 1 <= code_sizes hist n c <= len ch - 1) /\ (forall c, ~ In c ch -> code_sizes hist n c = 0) /\
    zsum (fun c => 2 ^ (17 - code_sizes hist n c)) ch = 2 ^ 17.
Proof.
  intros H0 HS Hn. destruct (minv_init hist n H0 HS Hn) as (G & LG & I). assert (M : exists ch others' freq', minv (symbols hist) [ch] freq' (code_sizes hist n) others').
  { unfold code_sizes. apply (merge_loop (symbols hist) 19 G); [exact I|lia]. }
  destruct M as (ch & o' & f' & I'). set (cs := code_sizes hist n) in *. clearbody cs. destruct I' as [ND IN DOM CH OUT _ _]. cbn [concat] in ND, IN. rewrite app_nil_r in ND, IN. inversion CH as [|? ? (L & B & K) _]; subst.
  assert (L18 : (length ch <= 18)%nat) by (change 18%nat with (length r18); apply NoDup_incl_length; [exact ND|]; intros c Hc; apply r18_in, DOM, IN, Hc).
  assert (E17 : In 17 ch) by (apply IN; left; reflexivity).
  assert (Ex : exists c0, In c0 ch /\ c0 <> 17).
  { assert (Q : exists c0, 0 <= c0 <= 16 /\ 0 < hist c0).
    { destruct (existsb (fun c => 0 <? hist c) (map Z.of_nat (seq 0 17))) eqn:E.
      - apply existsb_exists in E. destruct E as (c & Hc & E). apply in_map_iff in Hc. destruct Hc as (k & <- & Hk). apply in_seq in Hk. exists (Z.of_nat k). lia.
      - exfalso. assert (Z0 : hsum hist <= zsum (fun _ => 0) (map Z.of_nat (seq 0 17))).
        { apply zsum_le. intros x Hx. assert (K0 : (0 <? hist x) = false). { destruct (0 <? hist x) eqn:Ex; [|reflexivity]. assert (Y : existsb (fun c => 0 <? hist c) (map Z.of_nat (seq 0 17)) = true) by (apply existsb_exists; exists x; split; assumption). congruence. } lia. }
        change (zsum (fun _ => 0) (map Z.of_nat (seq 0 17))) with 0 in Z0. lia. }
    destruct Q as (c0 & A & A'). exists c0. split; [apply IN; right; split; assumption|lia]. }
  destruct Ex as (c0 & Hc0 & Nc0). exists ch. split; [exact ND|]. split; [exact IN|].
  assert (L2 : (2 <= length ch)%nat). { destruct ch as [|a [|b r]]; [contradiction| |cbn; lia]. destruct E17 as [E17|[]]. destruct Hc0 as [Hc0|[]]. congruence. }
  split; [lia|]. split; [|split; [intros c Hc; apply OUT; intros S; apply Hc, IN, S|exact K]].
  intros c Hc. pose proof (B c Hc) as Bc. split; [|lia]. destruct (Z.eq_dec (cs c) 0) as [Ez|]; [|lia]. exfalso.
  assert (Q : exists c', In c' ch /\ c' <> c). { destruct (Z.eq_dec c 17) as [->|N]; [exists c0; split; assumption|exists 17; split; [exact E17|congruence]]. }
  destruct Q as (c' & Hc' & Nc). apply in_split in Hc. destruct Hc as (a & b & ->). rewrite zsum_app, zsum_cons in K. rewrite Ez in K. change (17 - 0) with 17 in K.
  assert (Hc2 : In c' (a ++ b)) by (apply in_app_or in Hc'; destruct Hc' as [X|[X|X]]; [apply in_or_app; left; exact X|congruence|apply in_or_app; right; exact X]).
  pose proof (zsum_in_le (fun c => 2 ^ (17 - cs c)) (a ++ b) c') as Y. rewrite zsum_app in Y.
  assert (Y1 : 2 ^ (17 - cs c') <= zsum (fun c => 2 ^ (17 - cs c)) a + zsum (fun c => 2 ^ (17 - cs c)) b) by (apply Y; [intros; apply Z.pow_nonneg; lia|exact Hc2]).
  pose proof (B c' Hc') as Bc'. unfold len in Bc'. pose proof (pow2_pos (17 - cs c') ltac:(lia)). lia.
Qed.
