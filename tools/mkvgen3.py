#!/usr/bin/env python3
"""Generate rocq/theories/V_Gen3.v from /repo/verilog_src/core_axi_lite.v (see verilog2coq.py)."""
import os,sys
sys.path.insert(0,os.path.dirname(__file__))
from verilog2coq import translate
F='/repo/verilog_src/core_axi_lite.v'
o=['(* GENERATED by tools/mkvgen3.py: do not edit.','   verilog_src/core_axi_lite.v, translated (tools/verilog2coq.py); conventions as in V_Gen.v. *)','From Verif Require Import Bits.','Local Open Scope bool_scope.','']
lib={}
for n,p in (('debug_module','vdg'),('top','vca')):
    t,a,b=translate(F,n,p,lib)
    o.append('(* %s, lines %d-%d: module %s *)'%(F,a,b,n)); o.append(t); o.append('')
open(os.path.join(os.path.dirname(__file__),'..','rocq','theories','V_Gen3.v'),'w').write('\n'.join(o)+'\n')
