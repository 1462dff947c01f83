From Verif Require Import M_I3 M_Config M_Encode M_VBits Bits.
Require Import Extraction.
Require Import ExtrOcamlBasic.
Extraction Language OCaml.
Extraction "core.ml" i3_step i3_init i3_nready i3_valid_out i3_data_out i3_end_out init_huff_table cfg_ok.
