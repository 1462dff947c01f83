#!/usr/bin/env python3
"""Turn the waveforms in /repo/simulations (recorded by the project's own test benches) into a Coq file that runs the models on
the recorded inputs and compares with the recorded outputs, cycle by cycle.  Values are sampled at the rising edge of clk (core_axi_lite: full_clk, which rises first)."""
import re,sys,os
D='/repo/simulations/'
def load(fn,edge='clk'):
    names={};order=[]
    scope=[]
    cur={};rows=[];clkid=None
    body=False
    for line in open(D+fn):
        line=line.strip()
        if not body:
            m=re.match(r'\$scope module (\S+)',line)
            if m: scope.append(m.group(1))
            if line.startswith('$upscope'): scope.pop()
            m=re.match(r'\$var (\S+) (\d+) (\S+) (\S+)',line)
            if m:
                k=(tuple(scope),m.group(4)); 
                names[k]=m.group(3)
            if line.startswith('$enddefinitions'): body=True
            continue
        if not line or line[0] in '#$': continue
        if line[0]=='b':
            v,i=line[1:].split(); cur[i]=int(v,2)
        elif line[0]=='s':
            v,i=line[1:].split(); cur[i]=v
        elif line[0] in '01':
            i=line[1:]; v=int(line[0])
            if v==1 and cur.get(i)==0 and names.get((('top',),edge))==i:
                pre=dict(cur); rows.append(pre)
            if v==1 and cur.get(i)==0 and (('top',),edge) not in names and i in [names[k] for k in names if k[1].endswith('clk')]:
                if clkid in (None,i): clkid=i; rows.append(dict(cur))
            cur[i]=v
    top=min(len(k[0]) for k in names)
    byname={}
    for k,i in names.items():
        if len(k[0])==top and k[1] not in byname: byname[k[1]]=i
    for k,i in names.items():
        if len(k[0])==top+1: byname[k[0][-1]+'.'+k[1]]=i
    return [ {n:r.get(i,0) for n,i in byname.items()} for r in rows ]
def b(x): return 'true' if x else 'false'
def lst(l): return '['+'; '.join(l)+']'
def ix(n,k): return n if k==0 else '%s$%d'%(n,k)
out=['''(* GENERATED by tools/vcd2coq.py from the waveforms in /repo/simulations, which the project's test benches recorded.
   The models reproduce them cycle by cycle.  These are tests of the model, not properties. *)
From Verif Require Import Bits M_Signals M_Predictor M_Difference M_Normalize M_Encode M_Merge M_Markers M_AxiLite M_Fifo M_Misc.

Fixpoint lz_eqb (a b : list Z) : bool := match a, b with [], [] => true | x :: a', y :: b' => (x =? y) && lz_eqb a' b' | _, _ => false end.
Fixpoint pairs_flat (l : list (Z * Z)) : list Z := match l with [] => [] | (a, b) :: r => a :: b :: pairs_flat r end.
(* step, output of a state in a cycle; trace of inputs and recorded outputs *)
Fixpoint agrees {S I : Type} (step : S -> I -> S) (out : S -> I -> list Z) (s : S) (l : list (I * list Z)) : bool :=
  match l with [] => true | (i, o) :: r => lz_eqb (out s i) o && agrees step out (step s i) r end.
''']
n={}
# markers
R=load('markers_test_1.vcd'); n['markers']=len(R)
tr=lst(['({| mki_valid := %s; mki_data := %d; mki_end := %s; mki_force := %s; mki_busy := %s |}, [%d; %d; %d; %d; %d; %d])'%(b(r['valid_in']),r['data_in'],b(r['end_in']),b(r['force_end_in']),b(r['i_busy']),r['o_busy'],r['valid_out'],r['end_out'],r['data_out'],r['counter'],r['end_cond']) for r in R])
out.append('''(* markers_test_1.vcd: o_busy, valid_out, end_out, data_out, counter, end_cond *)
Example markers_vcd : agrees mk_step (fun s i => let o := mk_comb s i in [b2z (mko_busy o); b2z (mko_valid o); b2z (mko_end o); mko_data o; mk_ctr s; b2z (mk_end_cond s)]) mk_init
  %s = true.
Proof. vm_compute. reflexivity. Qed.
'''%tr)
# signals
R=load('signals_test_1.vcd'); n['signals']=len(R)
tr=lst(['((%s, %d, %d), [%d; %d; %d; %d])'%(b(r['new_input']),r['width'],r['height'],r['new_row'],r['end_of_frame'],r['width_temp'],r['height_temp']) for r in R])
for ps in (1,2,4):
    pass
out.append('''(* signals_test_1.vcd: new_row, end_of_frame, width_temp, height_temp *)
Example signals_vcd : agrees (fun s '(v, w, h) => sig_step %d s v w h) (fun s _ => [b2z (sg_new_row s); b2z (sg_end_of_frame s); sg_width s; sg_height s]) sig_init
  %s = true.
Proof. vm_compute. reflexivity. Qed.
'''%(4,tr))
# difference
R=load('diff_test_1.vcd'); n['difference']=len(R)
def diffrow(r): return '((%s, %s, %s, %s), [%s; %d; %d])'%(b(r['valid_in']),b(r['end_in']),lst([str(r[ix('pixel_in',k)]) for k in range(4)]),lst([str(r[ix('predic_in',k)]) for k in range(4)]),
  '; '.join(str(r[ix('val_out',k)]) for k in range(8)),r['valid_out'],r['end_out'])
out.append('''(* diff_test_1.vcd: vals_out, vals_out_mns, valid_out, end_out *)
Example difference_vcd : agrees (fun s '(v, e, p, q) => diff_step 16 s v e p q) (fun s _ => df_vals s ++ df_mns s ++ [b2z (df_valid s); b2z (df_end s)]) (diff_init 4)
  %s = true.
Proof. vm_compute. reflexivity. Qed.
'''%lst(map(diffrow,R)))
# predictor
R=load('predictor_test_1.vcd'); n['predictor']=len(R)
def prow(r): return '((%s, %s, %s, %s), [%s; %s; %d; %d])'%(b(r['valid_in']),b(r['new_row']),b(r['end_in']),lst([str(r[ix('pixel_in',k)]) for k in range(4)]),
  '; '.join(str(r[ix('pixel_out',k)]) for k in range(4)),'; '.join(str(r[ix('predic_out',k)]) for k in range(4)),r['valid_out'],r['end_out'])
out.append('''(* predictor_test_1.vcd: pixels_out, predics_out, valid_out, end_out *)
Example predictor_vcd : agrees (fun s '(v, n, e, p) => p4_step s v n e p) (fun s _ => p4_pixels_out s ++ p4_predics_out s ++ [b2z (p4_valid_out s); b2z (p4_end_out s)]) (p4_init 12)
  %s = true.
Proof. vm_compute. reflexivity. Qed.
'''%lst(map(prow,R)))
# normalize
R=load('normalize_test_1.vcd'); n['normalize']=len(R)
def nrow(r): return '((%s, %s, %s, %s), [%s; %d; %d])'%(b(r['valid_in']),b(r['end_in']),lst([str(r[ix('val_in',k)]) for k in range(4)]),lst([str(r[ix('vals_in_mns',k)]) for k in range(4)]),
  '; '.join('%d; %d'%(r[ix('val_out',k)],r[ix('ssss',k)]) for k in range(4)),r['valid_out'],r['end_out'])
out.append('''(* normalize_test_1.vcd: val_out and ssss of the four pixels, valid_out, end_out *)
Example normalize_vcd : agrees (fun s '(v, e, p, q) => norm_step 16 s v e p q) (fun s _ => pairs_flat (nm_out s) ++ [b2z (nm_valid s); b2z (nm_end s)]) (norm_init 4)
  %s = true.
Proof. vm_compute. reflexivity. Qed.
'''%lst(map(nrow,R)))
# encode
R=load('encode_test_1.vcd'); n['encode']=len(R)
def erow(r): return '((%s, %s, %s), [%s; %d; %d])'%(b(r['valid_in']),b(r['end_in']),lst(['(%d, %d)'%(r[ix('val_in',k)],r[ix('ssss',k)]) for k in range(4)]),
  '; '.join('%d; %d'%(r[ix('enc_out',k)],r[ix('enc_ctr',k)]) for k in range(4)),r['valid_out'],r['end_out'])
out.append('''(* encode_test_1.vcd: enc_out and enc_ctr of the four pixels, valid_out, end_out.  The initial value of the memory's read register is
   not visible before the first valid input. *)
Example encode_vcd : agrees (fun s '(v, e, p) => enc_step 16 (init_huff_table 16) s v e p) (fun s _ => pairs_flat (enc_outs s) ++ [b2z (en_valid_out s); b2z (en_end_out s)]) (enc_init 4)
  %s = true.
Proof. vm_compute. reflexivity. Qed.
'''%lst(map(erow,R)))
# merge
R=load('merge_test_1.vcd'); n['merge']=len(R)
def mrow(r): return '((%s, %s, %s), [%d; %d; %d; %d])'%(b(r['valid_in']),b(r['end_in']),lst(['(%d, %d)'%(r[ix('enc_in',k)],r[ix('enc_in_ctr',k)]) for k in range(4)]),
  r['enc_out'],r['enc_out_ctr'],r['valid_out'],r['end_out'])
out.append('''(* merge_test_1.vcd: enc_out, enc_out_ctr, valid_out, end_out *)
Example merge_vcd : agrees (fun s '(v, e, p) => merge_step 4 31 s v e p)
  (fun s _ => [fst (merge_out 4 31 s); snd (merge_out 4 31 s); b2z (mg_valid (merge_top s)); b2z (mg_end (merge_top s))]) (merge_init 4)
  %s = true.
Proof. vm_compute. reflexivity. Qed.
'''%lst(map(mrow,R)))
# axi lite
R=load('core_axi_lite_test_1.vcd','full_clk'); n['core_axi_lite']=len(R)
A=lambda r,k:r[k]
def arow(r): return '({| ai_arvalid := %s; ai_araddr := %d; ai_rready := %s; ai_awvalid := %s; ai_awaddr := %d; ai_wvalid := %s; ai_wdata := %d; ai_wstrb := %d; ai_bready := %s |}, [%s])'%(
  b(r['s_axi_ri__arvalid']),r['s_axi_ri__araddr'],b(r['s_axi_ri__rready']),b(r['s_axi_wi__awvalid']),r['s_axi_wi__awaddr'],b(r['s_axi_wi__wvalid']),r['s_axi_wi__wdata'],r['s_axi_wi__wstrb'],b(r['s_axi_wi__bready']),
  '; '.join(str(r[k]) for k in ['s_axi_ro__arready','s_axi_ro__rvalid','s_axi_wo__awready','s_axi_wo__wready','s_axi_wo__bvalid','s_axi_ro__rdata','s_axi_ro__rresp','s_axi_wo__bresp','addr_v','height_width','height','width','wp_en']))
out.append('''(* core_axi_lite_test_1.vcd: the bus outputs, addr_v, height_width, height, width, wp_en *)
Example core_axi_lite_vcd : agrees (fun s i => al_step 12 true s i (repeat 0 8) false)
  (fun s _ => let o := al_out s in [b2z (ao_arready o); b2z (ao_rvalid o); b2z (ao_awready o); b2z (ao_wready o); b2z (ao_bvalid o); ao_rdata o; ao_rresp o; ao_bresp o; al_addr s; al_hw s; al_height s; al_width s; b2z (al_wp_en s)]) (al_init 12)
  %s = true.
Proof. vm_compute. reflexivity. Qed.
'''%lst(map(arow,R)))
# pipeline fifo
R=load('lj92_pipeline_fifo_test_1.vcd','fifo_clk'); n['lj92_pipeline_fifo']=len(R)
def frow(r): return '((%s, %d, %s), [%d; %d; %d; %d])'%(b(r['fifo_we']),r['fifo_din'],b(r['fifo_re']),r['fifo.dout'],r['fifo.readable'],r['fifo.level'],r['fifo.writable'])
out.append('''(* lj92_pipeline_fifo_test_1.vcd (depth 100): dout, readable, level, writable *)
Example fifo_vcd : agrees (fun s '(w, d, r) => fifo_step 100 s w d r) (fun s _ => [ff_dout s; b2z (ff_rd s); fifo_level s; b2z (fifo_writable 100 s)]) (fifo_init 100)
  %s = true.
Proof. vm_compute. reflexivity. Qed.
'''%lst(map(frow,R)))
# delayer
R=load('delayer_test_1.vcd'); n['delayer']=len(R)
out.append('''(* delayer_test_1.vcd (delay 8): timer, timer_start, out_val *)
Example delayer_vcd : agrees (dly_step 3) (fun s _ => [dy_timer s; b2z (dy_start s); b2z (dy_out s)]) (dly_init 3 8)
  %s = true.
Proof. vm_compute. reflexivity. Qed.
'''%lst(['(%s, [%d; %d; %d])'%(b(r['in_sig']),r['timer'],r['timer_start'],r['out_val']) for r in R]))
open(os.path.join(os.path.dirname(__file__),'..','rocq','theories','Validation.v'),'w').write('\n'.join(out))
print(n)
