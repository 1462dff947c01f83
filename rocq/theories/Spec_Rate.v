(* Throughput: what is on offer, how large it is, how the sink behaves. *)
From Verif Require Import Bits Spec Spec_Core M_Config M_I3.

(* the groups on offer from the ninth clock cycle after reset on, and no more than a frame of them *)
Definition on_offer (c : config) (W H : Z) (ins : list i3_in) : list (list Z) :=
  firstn (Z.to_nat (W * H / ps c)) (map in_px (filter in_valid (skipn 8 ins))).
(* every group codes into at most M bits *)
Definition small_groups (c : config) (t : table) (W M : Z) (gs : list (list Z)) : Prop :=
  forall A g B, gs = A ++ g :: B -> len (ref_encode t (bd c) W (concat A) g) <= M.
(* every sample is within D of its prediction *)
Definition smooth (bd W D : Z) (px : list Z) : Prop :=
  forall a p b, px = a ++ p :: b -> Z.abs (p - prediction bd W a (len a)) <= D.

(* A sink (the list: is a word shown?  is the sink busy?) that earns r busy cycles with each word it takes and saves at most Dm of them;
   D is what it has saved, and E is a reserve for the whole frame. *)
Fixpoint paced (r Dm D E : Z) (l : list (bool * bool)) : Prop :=
  match l with
  | [] => True
  | (shown, busy) :: l' =>
      if busy then (0 < D /\ paced r Dm (D - 1) E l') \/ (0 < E /\ paced r Dm D (E - 1) l')
      else paced r Dm (Z.min Dm (D + if shown then r else 0)) E l'
  end.
(* what the sink sees in a run *)
Fixpoint sink_log (c : config) (mem : list Z) (s : i3_st) (ins : list i3_in) : list (bool * bool) :=
  match ins with [] => [] | i :: l => (i3_valid_out s, in_busy i) :: sink_log c mem (i3_step c mem s i) l end.

(* a cycle that the world outside loses: the source has nothing to offer, or the sink is busy *)
Definition lost (i : i3_in) : bool := negb (in_valid i) || in_busy i.
Definition lost_cycles (ins : list i3_in) : Z := len (filter lost ins).

(* the cycles in which the sink is ready *)
Definition ready_cycles (ins : list i3_in) : Z := len (filter (fun i => negb (in_busy i)) ins).
(* A number of ready cycles in which the core empties itself: a sum over its stores, each entry of the first fifo being cut into at most k
   pieces of conv bits. *)
Definition drain_cycles (c : config) : Z :=
  let k := Z.min (16 + bd c) 31 * ps c / conv c + 1 in
  3 * bufs c + (conv c + 30) * (cfd c + 2) + (k * (conv c + 40) + 20) * (ljd c + 1) + 64.
