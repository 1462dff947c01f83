(* converter.py *)
From Verif Require Import Bits M_Config.

(* converter.py:134-228 *)
Inductive cv_fsm := CV_IDLE | CV_BURST_PREPARE | CV_BURST | CV_STEPS (i : nat).

(* converter.py:59-70, 90-97 *)
Record cv_st := {
  cv_state : cv_fsm;
  cv_latch_output : bool;
  cv_enc_in : Z;            (* conv bits *)
  cv_enc_in_ctr : Z;        (* clog2(conv+1) bits *)
  cv_in_end : bool;
  cv_valid_in : bool;
  cv_latch : Z;             (* enc_out_latch, data_top bits *)
  cv_end_latch : bool;
  cv_reg : Z;               (* enc_out_reg *)
  cv_ctr_reg : Z;
  cv_end_reg : bool;
  cv_valid_reg : bool
}.

Definition cv_init : cv_st :=
  {| cv_state := CV_IDLE; cv_latch_output := false; cv_enc_in := 0; cv_enc_in_ctr := 0;
     cv_in_end := false; cv_valid_in := false; cv_latch := 0; cv_end_latch := false;
     cv_reg := 0; cv_ctr_reg := 0; cv_end_reg := false; cv_valid_reg := false |}.

(* converter.py:84-88 : the loop computes steps = floor(total/conv), data_top = steps*conv *)
Definition cv_steps (c : config) : Z := total_ctr c / conv c.
Definition cv_data_top (c : config) : Z := cv_steps c * conv c.

(* converter.py:111-130 try_burst_idle : (new latch_output, next state);
   lo = value latch_output keeps when not assigned here *)
Definition cv_try (s : cv_st) (lo : bool) (valid_out close_full : bool) : bool * cv_fsm :=
  if cv_valid_reg s && negb close_full then (true, CV_BURST)
  else if valid_out && negb close_full then (true, CV_BURST_PREPARE)
  else (lo, CV_IDLE).

(* converter.py:185-204 : the If/Elif chain over i in range(steps) for an oversized
   input; None = no branch taken.  Result: (start, end, i). *)
Fixpoint cv_pick (c : config) (ctr : Z) (i : nat) (n : nat) : option (Z * Z * nat) :=
  match n with
  | O => None
  | S m =>
      let start := (Z.of_nat i + 1) * conv c in
      let en := Z.min ((Z.of_nat i + 2) * conv c) (total_ctr c) in
      if ctr <=? en then Some (start, en, i) else cv_pick c ctr (S i) m
  end.

(* one clock edge; left fifo outputs enc, ctr, e, valid; close_full of the right fifo *)
Definition cv_step (c : config) (s : cv_st) (enc ctr : Z) (e valid close_full : bool) : cv_st :=
  match cv_state s with
  | CV_IDLE =>                                            (* converter.py:136-144 *)
      let '(lo, nx) := cv_try s false valid close_full in
      {| cv_state := nx; cv_latch_output := lo; cv_enc_in := cv_enc_in s;
         cv_enc_in_ctr := cv_enc_in_ctr s; cv_in_end := cv_in_end s; cv_valid_in := false;
         cv_latch := cv_latch s; cv_end_latch := cv_end_latch s;
         cv_reg := cv_reg s; cv_ctr_reg := cv_ctr_reg s; cv_end_reg := cv_end_reg s;
         cv_valid_reg := cv_valid_reg s |}
  | CV_BURST_PREPARE =>                                   (* converter.py:146-149 *)
      {| cv_state := CV_BURST; cv_latch_output := cv_latch_output s; cv_enc_in := cv_enc_in s;
         cv_enc_in_ctr := cv_enc_in_ctr s; cv_in_end := cv_in_end s; cv_valid_in := false;
         cv_latch := cv_latch s; cv_end_latch := cv_end_latch s;
         cv_reg := enc; cv_ctr_reg := ctr; cv_end_reg := e; cv_valid_reg := valid |}
  | CV_BURST =>                                           (* converter.py:154-206 *)
      if cv_valid_reg s then
        if cv_ctr_reg s <=? conv c then
          {| cv_state := if close_full then CV_IDLE else CV_BURST;
             cv_latch_output := if close_full then false else cv_latch_output s;
             cv_enc_in := trunc (conv c) (cv_reg s);
             cv_enc_in_ctr := trunc (clog2 (conv c + 1)) (cv_ctr_reg s);
             cv_in_end := cv_end_reg s; cv_valid_in := true;
             cv_latch := cv_latch s; cv_end_latch := cv_end_latch s;
             cv_reg := enc; cv_ctr_reg := ctr; cv_end_reg := e; cv_valid_reg := valid |}
        else
          let pick := cv_pick c (cv_ctr_reg s) 0 (Z.to_nat (cv_steps c)) in
          {| cv_state := match pick with Some (_, _, i) => CV_STEPS i | None => CV_BURST end;
             cv_latch_output := false;
             cv_enc_in := match pick with
                          | Some (st, en, _) => trunc (conv c) (slice st en (cv_reg s))
                          | None => cv_enc_in s end;
             cv_enc_in_ctr := match pick with
                              | Some (st, _, _) => trunc (clog2 (conv c + 1)) (cv_ctr_reg s - st)
                              | None => trunc (clog2 (conv c + 1)) (conv c) end;
             cv_in_end := false; cv_valid_in := true;
             cv_latch := slice 0 (cv_data_top c) (cv_reg s); cv_end_latch := cv_end_reg s;
             cv_reg := enc; cv_ctr_reg := ctr; cv_end_reg := e; cv_valid_reg := valid |}
      else
        {| cv_state := CV_BURST; cv_latch_output := cv_latch_output s; cv_enc_in := cv_enc_in s;
           cv_enc_in_ctr := cv_enc_in_ctr s; cv_in_end := cv_in_end s; cv_valid_in := false;
           cv_latch := cv_latch s; cv_end_latch := cv_end_latch s;
           cv_reg := enc; cv_ctr_reg := ctr; cv_end_reg := e; cv_valid_reg := valid |}
  | CV_STEPS i =>                                         (* converter.py:211-228 *)
      let start := Z.of_nat i * conv c in
      let '(lo, nx) := match i with
                       | O => cv_try s (cv_latch_output s) valid close_full
                       | S k => (cv_latch_output s, CV_STEPS k)
                       end in
      {| cv_state := nx; cv_latch_output := lo;
         cv_enc_in := trunc (conv c) (slice start (start + conv c) (cv_latch s));
         cv_enc_in_ctr := trunc (clog2 (conv c + 1)) (conv c);
         cv_in_end := match i with O => cv_end_latch s | S _ => false end;
         cv_valid_in := true;
         cv_latch := cv_latch s; cv_end_latch := cv_end_latch s;
         cv_reg := cv_reg s; cv_ctr_reg := cv_ctr_reg s; cv_end_reg := cv_end_reg s;
         cv_valid_reg := cv_valid_reg s |}
  end.
