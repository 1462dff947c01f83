(* SPECIFICATION: lossless JPEG (ITU-T T.81) with any number of interleaved components, any predictor, and any order of header segments. *)
From Verif Require Import Bits Spec Spec_Lj92 Spec_P6.
Ltac Zify.zify_post_hook ::= idtac.

(* T.81 Table H.1: Ra the sample to the left, Rb the one above, Rc the one above left, all of the same component *)
Definition select (p ra rb rc : Z) : Z :=
  if p =? 1 then ra
  else if p =? 2 then rb
  else if p =? 3 then rc
  else if p =? 4 then ra + rb - rc
  else if p =? 5 then ra + (rb - rc) / 2
  else if p =? 6 then rb + (ra - rc) / 2
  else (ra + rb) / 2.
(* T.81 H.1.2.1, N components interleaved, W samples (of all components) per row; img: the samples before, in the order of the file *)
Definition predn (p N bd W : Z) (img : list Z) : Z :=
  let i := len img in
  let at_ k := nth (Z.to_nat k) img 0 in
  if i <? N then 2 ^ (bd - 1)
  else if i <? W then at_ (i - N)
  else if i mod W <? N then at_ (i - W)
  else select p (at_ (i - N)) (at_ (i - W)) (at_ (i - W - N)).
Fixpoint read_n (bk : book) (p N bd W : Z) (n : nat) (img : list Z) (l : list bool) : option (list Z) :=
  match n with
  | O => Some img
  | S k => match read_diff bk l with None => None | Some (d, rest) => read_n bk p N bd W k (img ++ [(predn p N bd W img + d) mod 2 ^ 16]) rest end
  end.
Fixpoint write_n (bk : book) (p N bd W : Z) (img px : list Z) : list bool :=
  match px with [] => [] | q :: r => write_diff bk (q - predn p N bd W img) ++ write_n bk p N bd W (img ++ [q]) r end.
(* the differences of the samples px from their predictions: fewer than 16 bits, and their categories have a code in vals *)
Fixpoint codable (vals : list Z) (p N bd W : Z) (img px : list Z) : Prop :=
  match px with [] => True | q :: r => let d := q - predn p N bd W img in (Z.abs d < 2 ^ 15 /\ In (category d) vals) /\ codable vals p N bd W (img ++ [q]) r end.

(* the segments between SOI and SOS (Annex B): a Huffman table, the frame header, a segment the decoder has to skip (APPn, COM) *)
Inductive seg := SDht (bits : list nat) (vals : list Z) | SSof (bd x y : Z) (comps : list Z) | SSkip (marker : Z) (body : list Z).
Definition seg_bytes (s : seg) : list Z :=
  match s with
  | SDht bits vals => dht bits vals
  | SSof bd x y comps => [255; 0xc3] ++ be16 (8 + len comps) ++ [bd] ++ be16 y ++ be16 x ++ [len comps / 3] ++ comps
  | SSkip mk body => [255; mk] ++ be16 (2 + len body) ++ body
  end.
Definition seg_ok (s : seg) : Prop :=
  match s with
  | SDht bits vals => dht_ok bits vals /\ (length vals <= 200)%nat
  | SSof bd x y comps => 0 <= x < 65536 /\ 0 <= y < 65536 /\ len comps mod 3 = 0 /\ len comps / 3 <= 255
  | SSkip mk body => (mk = 0xfe \/ 0xe0 <= mk <= 0xef) /\ len body <= 65533
  end.
(* the table and the frame header in force: the last ones *)
Fixpoint in_force (segs : list seg) (t : option (list nat * list Z)) (f : option (Z * Z * Z * Z)) : option (list nat * list Z) * option (Z * Z * Z * Z) :=
  match segs with
  | [] => (t, f)
  | SDht bits vals :: r => in_force r (Some (bits, vals)) f
  | SSof bd x y comps :: r => in_force r t (Some (bd, x, y, len comps / 3))
  | SSkip _ _ :: r => in_force r t f
  end.
(* the scan header: component selectors sel (two bytes each), predictor p *)
Definition sos_n (p : Z) (sel tail : list Z) : list Z := [255; 0xda] ++ be16 (6 + len sel) ++ [len sel / 2] ++ sel ++ [p] ++ tail.
Definition pn_file (segs : list seg) (p : Z) (sel tail scan : list Z) : list Z :=
  [255; 0xd8] ++ flat_map seg_bytes segs ++ sos_n p sel tail ++ scan ++ [255; 0xd9].
(* a well-formed header: table bits/vals, N components of x columns and y rows, bd bits *)
Definition wf_header (segs : list seg) (sel tail : list Z) (bits : list nat) (vals : list Z) (bd x y N : Z) : Prop :=
  Forall seg_ok segs /\ in_force segs None None = (Some (bits, vals), Some (bd, x, y, N)) /\ len sel = 2 * N /\ len tail = 2.

(* agreement with the specifications of the core's format and of predictor 6 *)
Lemma predn_core bd W img : predn 1 4 bd W img = prediction bd W img (Z.of_nat (length img)) \/ W < 4.
Proof.
  destruct (Z_lt_le_dec W 4) as [|HW]; [right; assumption|left]. unfold predn, prediction. fold (len img). cbv zeta. set (i := len img). assert (0 <= i) by (unfold i, len; lia).
  unfold select. change (1 =? 1) with true. cbn beta iota. destruct (i <? 4) eqn:E1.
  - rewrite Z.mod_small by lia. replace (i <? 4) with true by lia. replace (i <? W) with true by lia. reflexivity.
  - destruct (i <? W) eqn:E2; [rewrite Z.mod_small by lia; replace (i <? 4) with false by lia; reflexivity|]. destruct (i mod W <? 4); reflexivity.
Qed.
Lemma predn_6 bd W img : 1 <= W -> predn 6 1 bd W img = pred6 bd W img.
Proof.
  intros HW. unfold predn, pred6. cbv zeta. set (i := len img). assert (0 <= i) by (unfold i, len; lia). unfold select. change (6 =? 1) with false. change (6 =? 2) with false. change (6 =? 3) with false. change (6 =? 4) with false. change (6 =? 5) with false. change (6 =? 6) with true. cbn beta iota.
  destruct (i =? 0) eqn:E0; [replace (i <? 1) with true by lia; reflexivity|]. replace (i <? 1) with false by lia. destruct (i <? W); [reflexivity|].
  pose proof (Z.mod_pos_bound i W ltac:(lia)). destruct (i mod W =? 0) eqn:E3; [replace (i mod W <? 1) with true by lia; reflexivity|]. replace (i mod W <? 1) with false by lia. reflexivity.
Qed.
