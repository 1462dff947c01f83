(* Token streams: what flows through the fifos, the converter and the bit packer is a
   sequence of bits with an end mark; how it is cut into items does not matter. *)
From Verif Require Import Bits M_Fifo P_Fifo.
Ltac Zify.zify_post_hook ::= idtac.

Notation tok := (option bool).     (* Some b: a bit; None: end of frame *)

Definition tk (v n : Z) (e : bool) : list tok := map Some (bitsz n v) ++ (if e then [None] else []).

(* a packed fifo word as tokens, and its well-formedness *)
Definition wtok (db cb x : Z) : list tok := tk (item_enc db cb x) (item_ctr db cb x) (item_end db cb x).
Definition wok (db cb x : Z) : Prop :=
  1 <= item_ctr db cb x <= db /\ 0 <= item_enc db cb x < 2 ^ item_ctr db cb x.

Definition qtok (db cb : Z) (q : list Z) : list tok := flat_map (wtok db cb) q.

Lemma qtok_app db cb a b : qtok db cb (a ++ b) = qtok db cb a ++ qtok db cb b.
Proof. apply flat_map_app. Qed.

Lemma wtok_pack db v n e : 1 <= n <= db -> 0 <= v < 2 ^ n ->
  wtok db (clog2 (db + 1)) (item_pack db (clog2 (db + 1)) v n e) = tk v n e /\
  wok db (clog2 (db + 1)) (item_pack db (clog2 (db + 1)) v n e).
Proof.
  intros Hn Hv.
  assert (Hcb : 0 <= clog2 (db + 1)) by (apply clog2_spec; lia).
  assert (Hv' : 0 <= v < 2 ^ db) by (pose proof (pow2_le n db ltac:(lia)); lia).
  assert (Hn' : 0 <= n < 2 ^ clog2 (db + 1)) by (apply clog2_fits; lia).
  unfold wtok, wok.
  rewrite item_enc_pack, item_ctr_pack, item_end_pack by (assumption || lia). auto.
Qed.

Lemma tk_split v a b e : 0 <= a -> 0 <= b ->
  tk v (a + b) e = tk (v / 2 ^ b) a false ++ tk v b e.
Proof.
  intros. unfold tk. rewrite bitsz_app by lia. rewrite map_app, app_nil_r, <- app_assoc. reflexivity.
Qed.

Lemma tk_ext v w n e : bitsz n v = bitsz n w -> tk v n e = tk w n e.
Proof. unfold tk. intros ->. reflexivity. Qed.
