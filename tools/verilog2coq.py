#!/usr/bin/env python3
"""Translate leaf modules of the generated Verilog (verilog_src/*.v, written by Yosys) into Gallina.

usage: verilog2coq.py FILE MODULE PREFIX      (module definitions on stdout)

A register or input of one bit becomes a bool, a wider one a Z.  PREFIX_st holds the registers, PREFIX_in the inputs except the clock,
PREFIX_step the values after the next rising edge, PREFIX_o_x the output x, PREFIX_init the initial values.  Arithmetic follows IEEE 1364: an
operand of + - & | ^ ~ is extended to the width of the context (the widest of left-hand side and operands) and the result is taken modulo 2^width.
Wires are inlined.  Supported: what these files use (assign, always @*, always @(posedge clk) with one non-blocking assignment, casez, begin/end);
anything else is refused.
"""
import re,sys
def tokenize(s):
    s=re.sub(r'/\*.*?\*/',' ',s,flags=re.S)
    s=re.sub(r'\(\*(?!\)).*?\*\)',' ',s,flags=re.S)
    s=s.replace('""',"8'h00")   # the empty string is one zero byte (IEEE 1364-2005, 5.2.3.3)
    tok=re.compile(r"\s*(?:(\\\S+)|([A-Za-z_$][\w$]*)|(\d+'s?[hbd][0-9a-fA-FxXzZ?_]+)|(\d+)|(<<<|>>>|<=|>=|==|!=|&&|\|\||<<|>>|[-+*/%&|^~!?:;,(){}\[\]<>=@.#]))")
    pos=0; out=[]
    while True:
        m=tok.match(s,pos)
        if not m:
            if s[pos:].strip()=='' : break
            raise SystemExit('lex error at %r'%s[pos:pos+40])
        pos=m.end()
        if m.group(1): out.append(('id',m.group(1)[1:]))
        elif m.group(2): out.append(('id' if m.group(2) not in KW else 'kw',m.group(2)))
        elif m.group(3): out.append(('lit',m.group(3)))
        elif m.group(4): out.append(('int',m.group(4)))
        else: out.append(('op',m.group(5)))
    return out
KW={'module','endmodule','input','output','wire','reg','assign','always','posedge','begin','end','casez','endcase','default','initial','inout'}
def cname(n):
    n=n.replace('$next\\','n_')
    n=re.sub(r'^\$',r'w',n); n=n.replace('$','_').replace('\\','_').replace('.','_')
    return n
class P:
    def __init__(s,t): s.t=t; s.i=0; s.mems=set()
    def pk(s,k=0): return s.t[s.i+k]
    def nx(s): s.i+=1; return s.t[s.i-1]
    def ex(s,v):
        t=s.nx()
        if t[1]!=v: raise SystemExit('expected %r got %r near %r'%(v,t,s.t[s.i-5:s.i+5]))
    def at(s,v): return s.pk()[1]==v and s.pk()[0]!='id'
    def rng(s):
        if s.at('['):
            s.nx(); h=int(s.nx()[1]); s.ex(':'); l=int(s.nx()[1]); s.ex(']'); return h-l+1
        return 1
    # expressions
    PREC=[['||'],['&&'],['|'],['^'],['&'],['==','!='],['<','<=','>','>='],['<<','>>','>>>','<<<'],['+','-'],['*']]
    def expr(s):
        c=s.bin(0)
        if s.at('?'):
            s.nx(); a=s.expr(); s.ex(':'); b=s.expr(); return ('?',c,a,b)
        return c
    def bin(s,l):
        if l==len(s.PREC): return s.un()
        a=s.bin(l+1)
        while s.pk()[0]=='op' and s.pk()[1] in s.PREC[l]:
            o=s.nx()[1]; b=s.bin(l+1); a=('bin',o,a,b)
        return a
    def un(s):
        if s.pk()[0]=='op' and s.pk()[1] in ('~','!','-','|','&','^','+'):
            o=s.nx()[1]; e=s.un(); return e if o=='+' else ('un',o,e)
        return s.prim()
    def prim(s):
        t=s.nx()
        if t[1]=='(' :
            e=s.expr(); s.ex(')'); return e
        if t[1]=='{':
            l=[s.expr()]
            if s.at('{'):    # replication
                n=l[0]; s.nx(); e=s.expr(); s.ex('}'); s.ex('}'); return ('cat',[e]*litval(n[1])[1])
            while s.at(','): s.nx(); l.append(s.expr())
            s.ex('}'); return ('cat',l)
        if t[0]=='lit': return ('lit',t[1])
        if t[0]=='int': return ('lit',"32'd"+t[1])
        if t[0]=='id':
            if t[1]=='$signed': raise SystemExit('signed')
            if s.at('[') and t[1] in s.mems:
                s.nx(); e=s.expr(); s.ex(']'); return ('mem',t[1],e)
            if s.at('['):
                s.nx(); h=int(s.nx()[1]); l=h
                if s.at(':'): s.nx(); l=int(s.nx()[1])
                s.ex(']'); return ('sl',t[1],h,l)
            return ('id',t[1])
        raise SystemExit('prim %r'%(t,))
    def stmts(s):
        """one statement -> list"""
        if s.at('begin'):
            s.nx(); l=[]
            while not s.at('end'): l+=s.stmts()
            s.nx(); return l
        if s.at(';'): s.nx(); return []
        if s.at('casez'):
            s.nx(); s.ex('('); e=s.expr(); s.ex(')'); arms=[]
            while not s.at('endcase'):
                pats=[]
                if s.at('default'): s.nx(); pats=[None]
                else:
                    pats=[s.nx()[1]]
                    while s.at(','): s.nx(); pats.append(s.nx()[1])
                s.ex(':'); arms.append((pats,s.stmts()))
            s.nx(); return [('case',e,arms)]
        t=s.nx(); assert t[0]=='id',t
        if t[1]=='if':
            s.ex('('); c=s.expr(); s.ex(')'); b=s.stmts(); assert not s.at('else'); return [('if',c,b)]
        part=None; idx=None
        if s.at('['):
            s.nx()
            if t[1] in s.mems: idx=s.expr()
            else:
                h=int(s.nx()[1]); l=h
                if s.at(':'): s.nx(); l=int(s.nx()[1])
                part=(h,l)
            s.ex(']')
        o=s.nx(); assert o[1] in ('=','<='),o
        e=s.expr(); s.ex(';')
        if t[1]=='$verilog_initial_trigger': return []
        if idx is not None: return [('store',t[1],idx,e)]
        return [('as',t[1],e,part)]
def litval(l):
    w,r=l.split("'"); r=r.lstrip('s'); return int(w),int(r[1:].replace('_',''),{'h':16,'b':2,'d':10}[r[0]])
def litbits(l):
    """most significant first, one char per bit"""
    w,r=l.split("'"); w=int(w); d=r[1:].replace('_','').lower().replace('?','z')
    if r[0]=='b': b=d
    elif r[0]=='h': b=''.join(c*4 if c in 'zx' else format(int(c,16),'04b') for c in d)
    else: b=format(int(d),'b')
    if len(b)<w: b=('z' if b[0]=='z' else '0')*(w-len(b))+b
    return b[-w:]
class M:
    def __init__(m,text,name,prefix,lib={}):
        t=tokenize(text); p=P(t); m.pre=prefix
        m.w={}; m.inputs=[]; m.outputs=[]; m.init={}; m.assign={}; m.comb={}; m.seq={}; m.regs=[]; m.mems={}; m.store={}; m.insts={}; m.instout={}; m.dp={}
        p.ex('module'); n=p.nx()[1]; assert n==name,(n,name)
        while not p.at(';'): p.nx()
        p.nx()
        while not p.at('endmodule'):
            t=p.nx()
            if t[1] in ('input','output','wire','reg') and t[0]=='kw':
                w=p.rng(); n=p.nx()[1]; m.w[n]=w
                if p.at('['):
                    p.nx(); d=int(p.nx()[1]); p.ex(':'); p.ex('0' ) ; p.ex(']'); p.ex(';')
                    m.mems[n]=[w,d+1,[0]*(d+1)]; p.mems.add(n); del m.w[n]; continue
                if n=='$verilog_initial_trigger':
                    while not p.at(';'): p.nx()
                    p.nx(); continue
                if p.at('='): p.nx(); m.init[n]=litval(p.nx()[1])[1]
                p.ex(';')
                if t[1]=='input' and n not in ('clk','full_clk'): m.inputs.append(n)
                if t[1]=='output': m.outputs.append(n)
            elif t[1]=='assign':
                n=p.nx(); 
                if n[1]=='{' or p.at('['): raise SystemExit('assign to part '+n[1])
                p.ex('='); m.assign[n[1]]=p.expr(); p.ex(';')
            elif t[1]=='always':
                p.ex('@')
                if p.at('*'):
                    p.nx(); b=p.stmts(); tg=set()
                    def walk(l):
                        for s in l:
                            if s[0]=='as': tg.add(s[1])
                            else:
                                for _,x in s[2]: walk(x)
                    walk(b); assert len(tg)<=1,tg
                    if tg: m.comb[tg.pop()]=b
                else:
                    p.ex('('); p.ex('posedge'); n=p.nx()[1]; assert n in ('clk','full_clk'),n; p.ex(')'); b=p.stmts()
                    for st in b:
                        if st[0]=='as': m.seq[st[1]]=st[2]; assert st[3] is None
                        elif st[0]=='if':
                            assert len(st[2])==1; u=st[2][0]
                            if u[0]=='as': m.seq[u[1]]=('?',st[1],u[2],('id',u[1]))
                            else: assert u[0]=='store' and u[1] not in m.store; m.store[u[1]]=(st[1],u[2],u[3])
                        else: raise SystemExit('sequential %r'%(st,))
            elif t[1]=='initial':
                p.ex('begin')
                while not p.at('end'):
                    n=p.nx()[1]; assert n in m.mems,n; p.ex('['); k=int(p.nx()[1]); p.ex(']'); p.ex('='); m.mems[n][2][k]=litval(p.nx()[1])[1]; p.ex(';')
                p.nx()
            elif t[0]=='id' and t[1] in lib:
                sub=lib[t[1]]; n=p.nx()[1]; p.ex('('); ports={}
                while True:
                    p.ex('.'); q=p.nx()[1]; p.ex('('); e=p.expr(); p.ex(')')
                    if q in sub.outputs: assert e[0]=='id'; m.instout[e[1]]=(n,q)
                    elif q not in ('clk','full_clk'): ports[q]=e
                    if p.at(','): p.nx(); continue
                    break
                p.ex(')'); p.ex(';'); assert set(ports)==set(sub.inputs),(n,set(ports)^set(sub.inputs)); m.insts[n]=(sub,ports)
            else: raise SystemExit('instance or item %r'%(t,))
        m.regs=list(m.seq)
    # ---- expressions: (is_bool, width, text)
    def ref(m,n):
        w=m.w[n]
        if n in m.seq: return (w==1,w,'(%s_%s s)'%(m.pre,cname(n)))
        if n in m.inputs: return (w==1,w,'(%s_i_%s i)'%(m.pre,cname(n)))
        if n in m.assign:
            b,_,x=m.ex_ctx(m.assign[n],w); return m.fit((b,w,x),w)
        if n in m.comb: return (w==1,w,m.block(n))
        if n in m.instout:
            k,q=m.instout[n]; sub,ports=m.insts[k]; d=sub.deps(q)
            return (w==1,w,'(%s_o_%s (%s_u_%s s) %s)'%(sub.pre,cname(q),m.pre,cname(k),m.inrec(k,d)))
        raise SystemExit('undriven '+n)
    def inrec(m,k,d):
        sub,ports=m.insts[k]
        if not d: return '%s_idle'%sub.pre
        return '{| %s |}'%'; '.join('%s_i_%s := %s'%(sub.pre,cname(q),m.fit(m.ex_ctx(ports[q],sub.w[q]),sub.w[q])[2] if q in d else m.zero(sub.w[q])) for q in sub.inputs)
    def zero(m,w): return 'false' if w==1 else '0'
    # the inputs a signal depends on within a cycle
    def deps(m,n):
        if n not in m.dp:
            m.dp[n]=None
            if n in m.seq or n in m.mems: r=set()
            elif n in m.inputs: r={n}
            elif n in m.assign: r=m.edeps(m.assign[n])
            elif n in m.comb: r=m.sdeps(m.comb[n],n)
            elif n in m.instout:
                k,q=m.instout[n]; sub,ports=m.insts[k]; r=set()
                for x in sub.deps(q): r|=m.edeps(ports[x])
            else: raise SystemExit('undriven '+n)
            m.dp[n]=r
        if m.dp[n] is None: raise SystemExit('combinational loop '+n)
        return m.dp[n]
    def sdeps(m,l,tgt):
        r=set()
        for s in l:
            if s[0]=='as': r|=m.edeps(s[2])
            else:
                r|=m.edeps(s[1])
                for _,b in s[2]: r|=m.sdeps(b,tgt)
        return r
    def edeps(m,e):
        if isinstance(e,tuple):
            if e[0] in ('id','sl'): return m.deps(e[1])
            if e[0]=='mem': return m.edeps(e[2])
            if e[0]=='lit': return set()
            r=set()
            for x in e[1:]:
                if isinstance(x,tuple): r|=m.edeps(x)
                elif isinstance(x,list):
                    for y in x: r|=m.edeps(y)
            return r
        return set()
    def z(m,e): return '(b2z %s)'%e[2] if e[0] else e[2]
    def selfw(m,e):
        k=e[0]
        if k=='lit': return litval_w(e[1])
        if k=='id': return m.w[e[1]]
        if k=='sl': return e[2]-e[3]+1
        if k=='mem': return m.mems[e[1]][0]
        if k=='cat': return sum(m.selfw(x) for x in e[1])
        if k=='?': return max(m.selfw(e[2]),m.selfw(e[3]))
        if k=='un': return 1 if e[1] in '!|&^' else m.selfw(e[2])
        if k=='bin':
            if e[1] in ('==','!=','<','<=','>','>=','&&','||'): return 1
            if e[1] in ('<<','>>','>>>','<<<'): return m.selfw(e[2])
            return max(m.selfw(e[2]),m.selfw(e[3]))
    def fit(m,e,w):
        """value e (any width) assigned to w bits"""
        if w==1:
            if e[0]: return e
            return (True,1,'((%s) mod 2 =? 1)'%e[2])
        return (False,w,m.z(e))
    def ex_ctx(m,e,ctx):
        W=max(ctx,m.selfw(e)); r=m.ev(e,W)
        if W>ctx:
            if ctx==1: return (True,1,'((%s) mod 2 =? 1)'%m.z(r))
            return (False,ctx,'((%s) mod 2 ^ %d)'%(m.z(r),ctx))
        return r
    def ev(m,e,W):
        """value of e in a context of W bits (W >= selfw); the result is below 2^W"""
        k=e[0]
        if k=='lit':
            w,v=litval_w(e[1]),litval(e[1])[1]
            if w==1 and W==1: return (True,1,'true' if v else 'false')
            return (False,w,str(v))
        if k=='id': return m.ref(e[1])
        if k=='mem': return (False,m.mems[e[1]][0],'(nth (Z.to_nat %s) %s 0)'%(m.z(m.ev(e[2],m.selfw(e[2]))),m.memref(e[1])))
        if k=='sl':
            n,h,l=e[1:]; r=m.ref(n)
            if h==l: 
                if r[0]: assert h==0; return r
                return (True,1,'(Z.testbit %s %d)'%(r[2],h))
            if h-l+1==m.w[n]: return r
            return (False,h-l+1,'(slice %d %d %s)'%(l,h+1,r[2]))
        if k=='cat':
            t=None;w=0
            for x in e[1]:
                sw=m.selfw(x); v=m.z(m.ev(x,sw)); 
                t=v if t is None else '(%s * 2 ^ %d + %s)'%(t,sw,v); w+=sw
            return (False,w,t)
        if k=='?':
            c=m.cond(e[1]); a=m.ev(e[2],W); b=m.ev(e[3],W)
            if a[0] and b[0]: return (True,1,'(if %s then %s else %s)'%(c,a[2],b[2]))
            return (False,W,'(if %s then %s else %s)'%(c,m.z(a),m.z(b)))
        if k=='un':
            o=e[1]
            if o=='!': return (True,1,'(negb %s)'%m.cond(e[2]))
            if o=='|': return (True,1,m.cond(e[2]))
            if o=='~':
                a=m.ev(e[2],W)
                if a[0] and W==1: return (True,1,'(negb %s)'%a[2])
                return (False,W,'(2 ^ %d - 1 - %s)'%(W,m.z(a)))
            if o=='-': return (False,W,'((- %s) mod 2 ^ %d)'%(m.z(m.ev(e[2],W)),W))
            if o=='&':
                sw=m.selfw(e[2]); a=m.ev(e[2],sw)
                return a if a[0] else (True,1,'(%s =? %d)'%(a[2],2**sw-1))
            raise SystemExit('unary '+o)
        if k=='bin':
            o=e[1]
            if o in ('&&','||'): return (True,1,'(%s %s %s)'%(m.cond(e[2]),o,m.cond(e[3])))
            if o in ('==','!=','<','<=','>','>='):
                w=max(m.selfw(e[2]),m.selfw(e[3])); a=m.ev(e[2],w); b=m.ev(e[3],w)
                if a[0] and b[0] and o in ('==','!='): t='(Bool.eqb %s %s)'%(a[2],b[2])
                else: t='(%s %s %s)'%(m.z(a),{'==':'=?','!=':'=?','<':'<?','<=':'<=?','>':'>?','>=':'>=?'}[o],m.z(b))
                return (True,1,t if o!='!=' else '(negb %s)'%t)
            if o in ('<<','>>','>>>','<<<'):   # every operand is unsigned: >>> is >>
                a=m.ev(e[2],W); b=m.ev(e[3],m.selfw(e[3]))
                if o in ('<<','<<<'): return (False,W,'((%s * 2 ^ %s) mod 2 ^ %d)'%(m.z(a),m.z(b),W))
                return (False,W,'(%s / 2 ^ %s)'%(m.z(a),m.z(b)))
            a=m.ev(e[2],W); b=m.ev(e[3],W)
            if a[0] and b[0] and W==1 and o in '&|^': return (True,1,'(%s %s %s)'%({'&':'andb','|':'orb','^':'xorb'}[o],a[2],b[2]))
            if o in '&|^': return (False,W,'(%s %s %s)'%({'&':'Z.land','|':'Z.lor','^':'Z.lxor'}[o],m.z(a),m.z(b)))
            return (False,W,'((%s %s %s) mod 2 ^ %d)'%(m.z(a),o,m.z(b),W))
    def cond(m,e):
        r=m.ev(e,m.selfw(e)); return r[2] if r[0] else '(negb (%s =? 0))'%r[2]
    def memref(m,n): return '(%s_%s s)'%(m.pre,cname(n)) if n in m.store else '%s_%s'%(m.pre,cname(n))
    # ---- blocks
    def match(m,e,pat):
        """Coq condition for: casez (e) pat"""
        b=litbits(pat); parts=e[1] if e[0]=='cat' else [e]; cs=[]; pos=0; tot=sum(m.selfw(x) for x in parts)
        if len(b)<tot: b=('z' if b[0]=='z' else '0')*(tot-len(b))+b
        for x in parts:
            w=m.selfw(x); pb=b[pos:pos+w]; pos+=w
            if set(pb)=={'z'}: continue
            r=m.ev(x,w)
            if w==1: cs.append((r[2] if r[0] else '(%s =? 1)'%r[2]) if pb=='1' else ('(negb %s)'%r[2] if r[0] else '(%s =? 0)'%r[2])); continue
            if 'z' in pb:
                for j,ch in enumerate(pb):
                    if ch!='z':
                        t='(Z.testbit %s %d)'%(r[2],w-1-j); cs.append(t if ch=='1' else '(negb %s)'%t)
                continue
            cs.append('(%s =? %d)'%(r[2],int(pb,2)))
        return ' && '.join(cs) if cs else None
    def stm(m,l,tgt,cur):
        w=m.w[tgt]
        for s in l:
            if s[0]=='as':
                assert s[1]==tgt
                if s[3] is None: r=m.ex_ctx(s[2],w); cur=m.fit(r,w)[2]
                else:
                    h,l=s[3]; r=m.ex_ctx(s[2],h-l+1); c0='0' if cur=='UNSET' else cur
                    cur='(slice %d %d %s * 2 ^ %d + %s * 2 ^ %d + slice 0 %d %s)'%(h+1,w,c0,h+1,m.z(r),l,l,c0)
            else:
                nm='x%d'%m.fresh; m.fresh+=1
                t=''; closed=False; n=0
                base=nm if not re.fullmatch(r"\w+|\(\w+ [si]\)",cur) else cur
                for pats,body in s[2]:
                    v=m.stm(body,tgt,base)
                    cs=[None if q is None else m.match(s[1],q) for q in pats]
                    if None in cs: t+=v; closed=True; break
                    c=cs[0] if len(cs)==1 else ' || '.join('(%s)'%q for q in cs)
                    t+='if %s then %s else '%(c,v)
                if not closed: t+=base
                t='(%s)'%t
                cur=t if base!=nm else '(let %s := %s in %s)'%(nm,cur,t)
        return cur
    def block(m,n):
        m.fresh=getattr(m,'fresh',0); return m.stm(m.comb[n],n,'UNSET')
    def ty(m,n): return 'bool' if m.w[n]==1 else 'Z'
    def lit(m,n,v): return ('true' if v else 'false') if m.w[n]==1 else str(v)
    def out(m):
        p=m.pre; o=[]
        sm=[n for n in m.mems if n in m.store]; cm=[n for n in m.mems if n not in m.store]
        F=[(cname(n),m.ty(n)) for n in m.regs]+[(cname(n),'list Z') for n in sm]+[('u_'+cname(k),v[0].pre+'_st') for k,v in m.insts.items()]
        if F: o.append('Record %s_st := { %s }.'%(p,'; '.join('%s_%s : %s'%(p,a,b) for a,b in F)))
        else: o.append('Definition %s_st : Type := unit.'%p)
        if m.inputs: o.append('Record %s_in := { %s }.'%(p,'; '.join('%s_i_%s : %s'%(p,cname(n),m.ty(n)) for n in m.inputs)))
        else: o.append('Definition %s_in : Type := unit.'%p)
        if m.inputs: o.append('Definition %s_idle : %s_in := {| %s |}.'%(p,p,'; '.join('%s_i_%s := %s'%(p,cname(n),m.lit(n,0)) for n in m.inputs)))
        o.append('(* widths: %s *)'%', '.join('%s %d'%(cname(n),m.w[n]) for n in m.regs+m.inputs))
        def ml(v): return 'repeat %d %d'%(v[0],len(v)) if len(set(v))==1 else '[%s]'%'; '.join(map(str,v))
        for n in cm: o.append('Definition %s_%s : list Z := %s.'%(p,cname(n),ml(m.mems[n][2])))
        I=[(cname(n),m.lit(n,m.init.get(n,0))) for n in m.regs]+[(cname(n),ml(m.mems[n][2])) for n in sm]+[('u_'+cname(k),v[0].pre+'_init') for k,v in m.insts.items()]
        un=[n for n in m.regs if n not in m.init]
        if un: o.append('(* without initial value: %s *)'%', '.join(map(cname,un)))
        o.append('Definition %s_init : %s_st := %s.'%(p,p,'{| %s |}'%'; '.join('%s_%s := %s'%(p,a,b) for a,b in I) if I else 'tt'))
        N=[]
        for n in m.regs:
            r=m.ex_ctx(m.seq[n],m.w[n]); t=m.fit(r,m.w[n])[2]; assert 'UNSET' not in t
            o.append('Definition %s_n_%s (s : %s_st) (i : %s_in) : %s :=\n  %s.'%(p,cname(n),p,p,m.ty(n),t)); N.append('%s_%s := %s_n_%s s i'%(p,cname(n),p,cname(n)))
        for n in sm:
            c,a,d=m.store[n]; w=m.mems[n][0]
            o.append('Definition %s_n_%s (s : %s_st) (i : %s_in) : list Z :=\n  if %s then upd (Z.to_nat %s) %s (%s_%s s) else %s_%s s.'%(p,cname(n),p,p,m.cond(c),m.z(m.ev(a,m.selfw(a))),m.fit(m.ex_ctx(d,w),w)[2],p,cname(n),p,cname(n)))
            N.append('%s_%s := %s_n_%s s i'%(p,cname(n),p,cname(n)))
        for k,(sub,ports) in m.insts.items():
            o.append('Definition %s_p_%s (s : %s_st) (i : %s_in) : %s_in :=\n  %s.'%(p,cname(k),p,p,sub.pre,m.inrec(k,set(sub.inputs)) if sub.inputs else 'tt'))
            N.append('%s_u_%s := %s_step (%s_u_%s s) (%s_p_%s s i)'%(p,cname(k),sub.pre,p,cname(k),p,cname(k)))
        o.append('Definition %s_step (s : %s_st) (i : %s_in) : %s_st := %s.'%(p,p,p,p,'{| %s |}'%'; '.join(N) if N else 'tt'))
        for n in m.outputs:
            r=m.ref(n); t=m.fit(r,m.w[n])[2]; assert 'UNSET' not in t
            o.append('Definition %s_o_%s (s : %s_st) (i : %s_in) : %s :=\n  %s.'%(p,cname(n),p,p,m.ty(n),t))
        return '\n'.join(o)
def litval_w(l): return int(l.split("'")[0])
def translate(f,name,prefix,lib=None):
    t=open(f).read(); esc='\\\\'+re.escape(name)+' ' if not re.fullmatch(r'\w+',name) else name
    k=re.search(r'^module %s\s*\('%(esc if re.fullmatch(r'\w+',name) else esc),t,re.M)
    if not k: raise SystemExit('no module '+name)
    e=t.index('endmodule',k.start())+len('endmodule'); a=t.count('\n',0,k.start())+1; b=t.count('\n',0,e)+1
    m=M(t[k.start():e],name,prefix,lib or {})
    if lib is not None: lib[name]=m
    return m.out(),a,b
if __name__=='__main__':
    print(translate(*sys.argv[1:4])[0])
