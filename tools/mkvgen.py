#!/usr/bin/env python3
"""Generate rocq/theories/V_Gen.v from the Verilog in /repo/verilog_src (see verilog2coq.py)."""
import sys,os
sys.path.insert(0,os.path.dirname(__file__))
from verilog2coq import translate
B='/repo/verilog_src/beta_integration.v'
L=[(B,'markers','vmk'),(B,'force_end','vfe'),(B,'auto_reset','var'),(B,'register_file','vrf'),(B,'signals','vsg'),(B,'difference','vdf'),(B,'output_handler','voh'),
   (B,'input_handler','vih'),(B,'converter','vcv'),(B,'fix_0xff','vfx'),(B,'predictor','vpr'),
   ('/repo/verilog_src/delayer.v','top','vdl'),('/repo/verilog_src/address_generator.v','top','vag'),('/repo/verilog_src/debug_module.v','top','vdb'),
   (B,'fix_0xff2','vf2'),(B,'anonymous','vna'),(B,'anonymous$1','vnb'),(B,'normalize','vno'),(B,'anonymous$2','vea'),(B,'anonymous$3','veb'),(B,'encode','ven'),
   (B,'anonymous$4','vma'),(B,'merge','vme'),(B,'unbuffered','vua'),(B,'unbuffered$6','vub'),(B,'fifo','vff'),(B,'fifo$5','vfg'),(B,'lj92_pipeline_fifo','vlf'),(B,'converter_fifo','vcf'),
   (B,'vbits_to_cbits','vvb'),(B,'integration_1','vi1'),(B,'integration_2','vi2'),(B,'integration_3','vi3'),(B,'top','vtp')]
o=['(* GENERATED by tools/mkvgen.py: do not edit.','   Modules of the Verilog shipped in /repo/verilog_src, translated one by one (tools/verilog2coq.py): registers become the',
   '   fields of the _st record, inputs (the clock left out) those of the _in record, _step is one rising edge, _o_x the output x.',
   '   An instance becomes a field _u_name with its state and a function _p_name giving its inputs; a memory a list. *)',
   'From Verif Require Import Bits M_Predictor.','Local Open Scope bool_scope.','']
lib={}
for f,n,p in L:
    if not os.path.exists(f): print('missing',f); continue
    try: t,a,b=translate(f,n,p,lib if f==B else None)
    except SystemExit as e: print('refused',f,n,e); continue
    o.append('(* %s, lines %d-%d: module %s *)'%(f,a,b,n)); o.append(t); o.append('')
open(os.path.join(os.path.dirname(__file__),'..','rocq','theories','V_Gen.v'),'w').write('\n'.join(o)+'\n')
