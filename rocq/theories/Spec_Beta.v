(* SPECIFICATION, continued: the complete beta core, frame after frame. *)
From Verif Require Import Bits Spec Spec_Core M_Config M_I3 M_Beta.

(* supported frames; more than 16 samples, so that the payload has at least two words *)
Definition beta_frame_ok (c : config) (W H : Z) : Prop := frame_ok c W H /\ 16 < W * H.

(* what the environment owes in a cycle: if a group is accepted, its samples have bd bits and the
   size registers hold the size of the frame *)
Definition bt_ok (c : config) (W H : Z) (s : bt_st) (i : bt_in) : Prop :=
  bt_accept s i = true -> group_ok (bd c) (ps c) (bi_px i) /\ bi_w i = W /\ bi_h i = H.

(* in a whole run; frame number n has size (sizes n), and a new frame begins after each reset *)
Fixpoint bt_env (c : config) (mem : list Z) (sizes : nat -> Z * Z) (n : nat) (s : bt_st) (l : list bt_in) : Prop :=
  match l with
  | [] => True
  | i :: r => bt_ok c (fst (sizes n)) (snd (sizes n)) s i /\
              bt_env c mem sizes (if b_rst s then S n else n) (bt_step c mem s i) r
  end.

(* the run as seen from outside, frame by frame: the groups accepted and the words handed over
   between two resets (A, O: those of the current frame so far); the last entry is the frame in
   progress *)
Fixpoint bt_log (c : config) (mem : list Z) (A : list (list Z)) (O : list (Z * bool)) (s : bt_st) (l : list bt_in)
  : list (list (list Z) * list (Z * bool)) :=
  match l with
  | [] => [(A, O)]
  | i :: r =>
      if b_rst s then (A ++ bt_took s i, O ++ bt_gave s i) :: bt_log c mem [] [] (bt_step c mem s i) r
      else bt_log c mem (A ++ bt_took s i) (O ++ bt_gave s i) (bt_step c mem s i) r
  end.

(* What a frame must look like once its end word was handed over.
   Not forced: the core accepted exactly the W*H samples of the frame, and the words up to the end
   word are header, reference payload of those samples, trailer.
   Forced: header, the beginning of the reference payload (of the frame of which the accepted
   samples are the beginning, however it would have continued), forced trailer. *)
Definition frame_result (t : table) (bd W H : Z) (A : list (list Z)) (O : list (Z * bool)) (forced : bool) : Prop :=
  if forced then
    forall X more, X = concat A ++ more -> len X = W * H ->
      exists k, map fst (cut O) = framed (firstn k (payload t bd W X)) true
  else
    len (concat A) = W * H /\ map fst (cut O) = framed (payload t bd W (concat A)) false.
