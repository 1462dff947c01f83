#!/usr/bin/env python3
"""Generate rocq/theories/V_Gen2.v from further Verilog in /repo/verilog_src (see verilog2coq.py)."""
import sys,os
sys.path.insert(0,os.path.dirname(__file__))
from verilog2coq import translate
V='/repo/verilog_src/'
L=[(V+'b16_b64.v','top','vb6'),(V+'b16_b40.v','top','vb4'),(V+'axihp_writer.v','top','vhw'),(V+'axihp_reader.v','top','vhr'),(V+'b64_b32_2.v','top','vb2'),(V+'axi_lite.v','top','val'),(V+'dma_axi_lite.v','top','vdm')]
o=['(* GENERATED by tools/mkvgen2.py: do not edit.','   Further modules of the Verilog shipped in /repo/verilog_src, translated one by one (tools/verilog2coq.py); conventions as in V_Gen.v. *)',
   'From Verif Require Import Bits.','Local Open Scope bool_scope.','']
for f,n,p in L:
    if len(sys.argv)>1 and p not in sys.argv[1:]: continue
    try: t,a,b=translate(f,n,p,None)
    except SystemExit as e: print('refused',f,n,e); continue
    o.append('(* %s, lines %d-%d: module %s *)'%(f,a,b,n)); o.append(t); o.append('')
    print(f,'ok')
open(os.path.join(os.path.dirname(__file__),'..','rocq','theories','V_Gen2.v'),'w').write('\n'.join(o)+'\n')
