(* SPECIFICATION.  Everything here is written from the JPEG lossless standard
   (ITU-T T.81 Annex C, H) and the documented behaviour, not from the hardware.
   The only thing shared with the models is the notion of a bit string (Bits.v). *)
From Verif Require Import Bits.

(* length of a list as an integer *)
Definition len {A} (l : list A) : Z := Z.of_nat (length l).

(* a pixel of bd bits; a group of ps pixels presented in one clock cycle *)
Definition in_range (bd x : Z) : Prop := 0 <= x < 2 ^ bd.
Definition group_ok (bd ps : Z) (g : list Z) : Prop := len g = ps /\ Forall (in_range bd) g.

(* ---------- Huffman categories ---------- *)

(* number of bits needed for |d| : the SSSS category of a difference *)
Definition category (d : Z) : Z := if d =? 0 then 0 else Z.log2 (Z.abs d) + 1.

(* A code table: entry number s is (length, code word value) of category s. *)
Definition table := list (Z * Z).

Definition code_bits (t : table) (s : Z) : list bool :=
  match nth_error t (Z.to_nat s) with
  | Some (len, code) => bitsz len code
  | None => []
  end.

(* T.81 H.1.2.2: after the code of category s come s additional bits, the low
   bits of d (d >= 0) or of d-1 (d < 0); none for categories 0 and 16. *)
Definition extra_bits (d : Z) : list bool :=
  let s := category d in
  if s =? 16 then [] else bitsz s (if d <? 0 then d - 1 else d).

Definition encode_diff (t : table) (d : Z) : list bool :=
  code_bits t (category d) ++ extra_bits d.

(* ---------- decoder (as in a software LJ92 decoder) ---------- *)

Fixpoint strip_prefix (p l : list bool) : option (list bool) :=
  match p, l with
  | [], _ => Some l
  | b :: p', c :: l' => if Bool.eqb b c then strip_prefix p' l' else None
  | _ :: _, [] => None
  end.

(* find the category whose code word starts the bit string *)
Fixpoint decode_category (t : table) (s : Z) (l : list bool) : option (Z * list bool) :=
  match t with
  | [] => None
  | (len, code) :: t' =>
      match strip_prefix (bitsz len code) l with
      | Some rest => Some (s, rest)
      | None => decode_category t' (s + 1) l
      end
  end.

(* T.81 F.2.2.1 EXTEND *)
Definition extend (s v : Z) : Z := if v <? 2 ^ (s - 1) then v - 2 ^ s + 1 else v.

Definition decode_diff (t : table) (l : list bool) : option (Z * list bool) :=
  match decode_category t 0 l with
  | None => None
  | Some (s, rest) =>
      if s =? 0 then Some (0, rest)
      else if s =? 16 then Some (32768, rest)
      else if Z.of_nat (length rest) <? s then None
      else Some (extend s (bval (firstn (Z.to_nat s) rest)), skipn (Z.to_nat s) rest)
  end.

(* ---------- prediction: predictor 1, four interleaved components ---------- *)

(* prediction for sample number i (raster order, 0-based) of an image that is
   W samples wide, when img lists the samples before it *)
Definition prediction (bd W : Z) (img : list Z) (i : Z) : Z :=
  if i mod W <? 4 then
    if i <? W then 2 ^ (bd - 1)                     (* first row, first four samples *)
    else nth (Z.to_nat (i - W)) img 0               (* sample above *)
  else nth (Z.to_nat (i - 4)) img 0.                (* same component, to the left *)

(* Reference encoder: bits for the samples number (length img), ... *)
Fixpoint ref_encode (t : table) (bd W : Z) (img pixels : list Z) : list bool :=
  match pixels with
  | [] => []
  | p :: rest =>
      encode_diff t (p - prediction bd W img (Z.of_nat (length img)))
        ++ ref_encode t bd W (img ++ [p]) rest
  end.

(* Decode n more samples; img: the samples decoded so far. *)
Fixpoint ref_decode (t : table) (bd W : Z) (n : nat) (img : list Z) (l : list bool)
  : option (list Z) :=
  match n with
  | O => Some img
  | S k =>
      match decode_diff t l with
      | None => None
      | Some (d, rest) =>
          ref_decode t bd W k
            (img ++ [(prediction bd W img (Z.of_nat (length img)) + d) mod 2 ^ 16]) rest
      end
  end.

Definition decode_frame (t : table) (bd W H : Z) (l : list bool) : option (list Z) :=
  ref_decode t bd W (Z.to_nat (W * H)) [] l.

(* the difference a decoder sees for an encoded difference d: every difference of
   category 16 is read back as 32768 (T.81 H.1.2.2) *)
Definition seen (d : Z) : Z := if category d =? 16 then 32768 else d.

(* every sample differs from its prediction by at most 2^15 *)
Fixpoint all_small (bd W : Z) (img px : list Z) : Prop :=
  match px with
  | [] => True
  | p :: r => Z.abs (p - prediction bd W img (Z.of_nat (length img))) <= 2 ^ 15 /\ all_small bd W (img ++ [p]) r
  end.

(* ---------- properties of a usable code table ---------- *)

Definition is_prefix (a b : list bool) : bool :=
  match strip_prefix a b with Some _ => true | None => false end.

(* no code word is a prefix of the code word of another category *)
Definition prefix_free (t : table) : Prop :=
  forall s1 s2, 0 <= s1 < Z.of_nat (length t) -> 0 <= s2 < Z.of_nat (length t) -> s1 <> s2 ->
    is_prefix (code_bits t s1) (code_bits t s2) = false.

(* T.81 Annex C: canonical code words.  From the number of codes of each length
   1,2,... (BITS) generate the list of (length, code) in order of increasing length. *)
Fixpoint annexC_row (n : nat) (len code : Z) : list (Z * Z) :=
  match n with O => [] | S k => (len, code) :: annexC_row k len (code + 1) end.
Fixpoint annexC (bits : list nat) (len code : Z) : list (Z * Z) :=
  match bits with
  | [] => []
  | n :: r => annexC_row n len code ++ annexC r (len + 1) (2 * (code + Z.of_nat n))
  end.

(* The code used by the core, as a JPEG DHT segment would describe it: number of codes
   of length 1..13 and the categories in order of increasing code. *)
Definition std_BITS : list nat := [0; 0; 7; 1; 1; 1; 1; 1; 1; 1; 1; 1; 1]%nat.
Definition std_HUFFVAL : list Z := [1; 2; 3; 4; 5; 6; 7; 0; 8; 9; 10; 11; 12; 13; 14; 15; 16].

Fixpoint lookup (s : Z) (vals : list Z) (codes : list (Z * Z)) : Z * Z :=
  match vals, codes with
  | v :: vs, c :: cs => if v =? s then c else lookup s vs cs
  | _, _ => (0, 0)
  end.

Definition std_full : table :=
  map (fun k => lookup (Z.of_nat k) std_HUFFVAL (annexC std_BITS 1 0)) (seq 0 17).
(* categories 0..bd for samples of bd bits *)
Definition std_table (bd : Z) : table := firstn (Z.to_nat (bd + 1)) std_full.

(* what a replacement table must satisfy: one code of 1..16 bits per category 0..bd *)
Definition table_ok (bd : Z) (t : table) : Prop :=
  Z.of_nat (length t) = bd + 1 /\
  Forall (fun e => 1 <= fst e <= 16 /\ 0 <= snd e < 2 ^ fst e) t.

(* ---------- packing ---------- *)

(* a sequence of transferred words with end flags, up to and including the first end word *)
Fixpoint cut {A} (l : list (A * bool)) : list (A * bool) :=
  match l with [] => [] | (w, e) :: r => (w, e) :: (if e then [] else cut r) end.

(* the bit string carried by words of w bits, most significant bit first *)
Definition stream (w : Z) (words : list Z) : list bool := concat (map (bitsz w) words).

(* words of w bits carry the bit string bs: only zero bits, fewer than w of
   them, are added at the end *)
Definition packs (w : Z) (words : list Z) (bs : list bool) : Prop :=
  Forall (fun x => 0 <= x < 2 ^ w) words /\
  exists pad : nat, Z.of_nat pad < w /\
    concat (map (bitsz w) words) = bs ++ repeat false pad.

(* ---------- byte stuffing and framing ---------- *)

Definition stuff_byte (b : Z) : list Z := if b =? 255 then [255; 0] else [b].
Definition stuff (l : list Z) : list Z := flat_map stuff_byte l.
Fixpoint unstuff (l : list Z) : list Z :=
  match l with
  | [] => []
  | b :: r =>
      b :: (if b =? 255 then match r with [] => [] | _ :: r' => unstuff r' end else unstuff r)
  end.

(* bytes of a 16-bit word, most significant first, and back *)
Definition bytes_of (w : Z) : list Z := [w / 256; w mod 256].
Fixpoint words_of (l : list Z) : list Z :=
  match l with
  | [] => []
  | [a] => [a * 256]
  | a :: b :: r => (a * 256 + b) :: words_of r
  end.

(* the low n bytes of d, most significant first *)
Fixpoint low_bytes (n : nat) (d : Z) : list Z :=
  match n with O => [] | S k => low_bytes k (d / 256) ++ [d mod 256] end.
(* the bytes of a sequence of items (data, number of bytes, end flag) *)
Definition item_bytes (l : list (Z * Z * bool)) : list Z :=
  flat_map (fun x => low_bytes (Z.to_nat (snd (fst x))) (fst (fst x))) l.

(* a frame on the wire: header, payload, trailer *)
Definition framed (payload : list Z) (forced : bool) : list Z :=
  repeat 0xFFFF 8 ++ payload ++ repeat (if forced then 0xFFFE else 0xFFFF) 8.
(* a receiver: skip the header, collect words up to the first marker word; the flag tells
   whether the frame was cut short (None: no trailer seen yet) *)
Fixpoint until_marker (l : list Z) : list Z * option bool :=
  match l with
  | [] => ([], None)
  | w :: r => if w =? 0xFFFF then ([], Some false) else if w =? 0xFFFE then ([], Some true)
              else let (p, m) := until_marker r in (w :: p, m)
  end.
Definition deframe (l : list Z) : list Z * option bool := until_marker (skipn 8 l).

(* ---------- the words of a frame ---------- *)

(* cut a bit string into words of w bits, completing the last one with zeros *)
Fixpoint pack_n (n : nat) (w : Z) (bs : list bool) : list Z :=
  match n with
  | O => []
  | S k => bval (firstn (Z.to_nat w) (bs ++ repeat false (Z.to_nat w))) :: pack_n k w (skipn (Z.to_nat w) bs)
  end.
Definition pack (w : Z) (bs : list bool) : list Z := pack_n (Z.to_nat ((len bs + w - 1) / w)) w bs.

(* the payload of the frame with samples px: encode, cut into 16-bit words, stuff *)
Definition payload (t : table) (bd W : Z) (px : list Z) : list Z :=
  words_of (stuff (flat_map bytes_of (pack 16 (ref_encode t bd W [] px)))).

(* a receiver: from the words on the wire to the samples *)
Definition receive (t : table) (bd W H : Z) (wire : list Z) : option (list Z) :=
  decode_frame t bd W H (stream 8 (unstuff (flat_map bytes_of (fst (deframe wire))))).
