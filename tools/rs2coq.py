#!/usr/bin/env python3
"""Helper used while transcribing the Rust numerics into Gallina.

Expands templates (tools/templates/*.v.in) into theories/Model/*.v.  A template line
    @@rs FILE A-B [opts]
is replaced by the translation of the straight-line Rust statements in /repo/src/FILE lines A-B:
`let x = e;`, `x = e;`, `x op= e;` become `let x := e' in`; nothing else is accepted.
    @@expr FILE A-B
translates a single expression spanning these lines.  Options (per template): lines
    @@rename a=b c=d     identifiers
    @@prefix satrec=s_   `satrec.x` is rendered s_x   (prefix followed by name)
    @@proj satrec=sr_:s  `satrec.x` is rendered (sr_x s)
The output is committed; the tool is not part of the trusted base (the output is what is read against the source).
"""
import re,sys,os
TOK=re.compile(r"\s*(?:(//[^\n]*)|(\d+\.\d+(?:[eE][+-]?\d+)?|\d+(?:[eE][+-]?\d+)?)|([A-Za-z_]\w*(?:::[A-Za-z_]\w*)*)|(<=|>=|==|!=|&&|\|\||\+=|-=|\*=|/=|%=|[-+*/%<>=!().,;:{}&]))")
def tokens(s):
    i=0;out=[]
    s=re.sub(r"/\*.*?\*/","",s,flags=re.S)
    while i<len(s):
        if s[i:].strip()=="" : break
        m=TOK.match(s,i)
        if not m: raise Exception("tok? "+s[i:i+40])
        i=m.end()
        if m.group(1): continue
        if m.group(2): out.append(("num",m.group(2)))
        elif m.group(3): out.append(("id",m.group(3)))
        else: out.append(("op",m.group(4)))
    return out
def lit(n):
    m=re.match(r"^(\d+)(?:\.(\d+))?(?:[eE]([+-]?\d+))?$",n)
    ip,fp,ex=m.group(1),m.group(2) or "",int(m.group(3) or 0)
    fp2=fp.rstrip("0") if fp.strip("0") else ""
    mant=int(ip+fp2); e=ex-len(fp2)
    if e>0: mant*=10**e; e=0
    if mant==0: e=0
    return "(L %d %d)"%(mant,-e)
M1={"sin":"fsin","cos":"fcos","asin":"fasin","sqrt":"fsqrt","floor":"ffloor","abs":"fabs"}
M2={"atan2":"fatan2","powf":"fpow","powi":"fpowi"}
class P:
    def __init__(s,t,cfg): s.t=t;s.i=0;s.cfg=cfg
    def peek(s): return s.t[s.i] if s.i<len(s.t) else ("eof","")
    def nxt(s): x=s.peek(); s.i+=1; return x
    def exp(s,v):
        x=s.nxt()
        if x[1]!=v: raise Exception("expected %s got %s near %s"%(v,x,s.t[max(0,s.i-8):s.i+5]))
    # returns (string, level): 0 atom,10 app,35 neg,40 mul,50 add,70 cmp,80 and,85 or
    def par(s,e,l): return e[0] if e[1]<=l else "("+e[0]+")"
    def orx(s):
        a=s.andx()
        while s.peek()[1]=="||":
            s.nxt(); b=s.andx(); a=("%s || %s"%(s.par(a,50),s.par(b,49)),50) if False else ("(%s) || (%s)"%(a[0],b[0]),90)
        return a
    def andx(s):
        a=s.cmp()
        while s.peek()[1]=="&&":
            s.nxt(); b=s.cmp(); a=("(%s) && (%s)"%(a[0],b[0]),90)
        return a
    def cmp(s):
        a=s.add()
        o=s.peek()[1]
        if o in ("<","<=",">",">=","==","!="):
            s.nxt(); b=s.add()
            A=s.par(a,50);B=s.par(b,50)
            r={"<":"%s <? %s"%(A,B),"<=":"%s <=? %s"%(A,B),">":"%s <? %s"%(B,A),">=":"%s <=? %s"%(B,A),"==":"%s =? %s"%(A,B),"!=":"negb (%s =? %s)"%(A,B)}[o]
            return (r,70)
        return a
    def add(s):
        a=s.mul()
        while s.peek()[1] in("+","-"):
            o=s.nxt()[1]; b=s.mul()
            a=("%s %s %s"%(s.par(a,50),o,s.par(b,40)),50)
        return a
    def mul(s):
        a=s.un()
        while s.peek()[1] in("*","/","%"):
            o=s.nxt()[1]; b=s.un()
            a=("%s %s %s"%(s.par(a,40),{"%":"%%"}.get(o,o),s.par(b,10)),40)
        return a
    def un(s):
        if s.peek()[1]=="-":
            s.nxt(); a=s.un()
            return ("(- %s)"%s.par(a,10),0)
        if s.peek()[1]=="!":
            s.nxt(); a=s.un(); return ("negb (%s)"%a[0],10)
        return s.post()
    def post(s):
        k,v=s.nxt()
        if k=="num": a=(lit(v),0)
        elif v=="(":
            a=s.orx(); s.exp(")"); a=(a[0],a[1])
        elif k=="id":
            v=v.split("::")[-1]
            if s.peek()[1]=="." and v in s.cfg["prefix"]:
                s.nxt(); f=s.nxt()[1]; a=(s.ren(s.cfg["prefix"][v]+f),0)
            elif s.peek()[1]=="." and v in s.cfg["proj"]:
                s.nxt(); f=s.nxt()[1]; pr,ob=s.cfg["proj"][v]; a=("%s%s %s"%(pr,f,ob),10)
            else: a=(s.ren(v),0)
        else: raise Exception("atom? %s %s"%(k,v))
        while True:
            if s.peek()[1]==".":
                s.nxt(); m=s.nxt()[1]; s.exp("(")
                if m in M1:
                    s.exp(")"); a=("%s %s"%(M1[m],s.par(a,0)),10)
                elif m in M2:
                    if m=="powi": b=(s.nxt()[1],0)
                    else: b=s.orx()
                    s.exp(")"); a=("%s %s %s"%(M2[m],s.par(a,0),s.par(b,0)),10)
                elif m=="clone": s.exp(")")
                else: raise Exception("method "+m)
            elif s.peek()==("id","as"):
                s.nxt(); s.nxt()
            else: return a
    def ren(s,v): return s.cfg["rename"].get(v,v)
    def stmt(s):
        k,v=s.peek()
        if v==";": s.nxt(); return None
        if v=="let":
            s.nxt()
            if s.peek()[1]=="mut": s.nxt()
            n=s.ren(s.nxt()[1])
            if s.peek()[1]==":": s.nxt(); s.nxt()
            if s.peek()[1]==";": s.nxt(); return None
            s.exp("="); e=s.orx(); s.exp(";"); return (n,e[0])
        lhs=s.nxt()[1]; 
        if s.peek()[1]==".":
            s.nxt(); f=s.nxt()[1]; n=s.ren(s.cfg["prefix"][lhs]+f)
        else: n=s.ren(lhs)
        o=s.nxt()[1]; e=s.orx(); s.exp(";")
        if o=="=": return (n,e[0])
        op={"+=":"+","-=":"-","*=":"*","/=":"/","%=":"%%"}[o]
        return (n,"%s %s %s"%(n,op,s.par(e,40 if op in "+-" else 10)))
def src(f,a,b):
    L=open("/repo/src/"+f).read().split("\n")
    return "\n".join(L[a-1:b])
def expand(path,out):
    cfg=dict(rename={},prefix={},proj={})
    res=[]
    for line in open(path).read().split("\n"):
        st=line.strip()
        if not st.startswith("@@"): res.append(line); continue
        ind=line[:len(line)-len(line.lstrip())]
        w=st.split()
        if w[0]=="@@rename":
            for x in w[1:]:
                k,v=x.split("="); cfg["rename"][k]=v
        elif w[0]=="@@unrename": 
            for x in w[1:]: cfg["rename"].pop(x,None)
        elif w[0]=="@@prefix":
            for x in w[1:]:
                k,v=x.split("="); cfg["prefix"][k]=v; cfg["proj"].pop(k,None)
        elif w[0]=="@@proj":
            for x in w[1:]:
                k,v=x.split("="); cfg["proj"][k]=tuple(v.split(":")); cfg["prefix"].pop(k,None)
        elif w[0]=="@@rs":
            a,b=map(int,w[2].split("-")); p=P(tokens(src(w[1],a,b)),cfg)
            while p.peek()[0]!="eof":
                x=p.stmt()
                if x: res.append("%slet %s := %s in"%(ind,x[0],x[1]))
        elif w[0]=="@@const":  # const/static declarations -> top-level definitions; w[3]=prefix
            a,b=map(int,w[2].split("-")); pre=w[3] if len(w)>3 else ""
            for m in re.finditer(r"(?:const|static)\s+(\w+)\s*:\s*f64\s*=\s*(.*?);",src(w[1],a,b),flags=re.S):
                e=P(tokens(m.group(2)),cfg).orx()
                ln=a+src(w[1],a,b)[:m.start()].count("\n")
                res.append("%sDefinition %s%s : F := %s. (* %s:%d *)"%(ind,pre,m.group(1),e[0],w[1],ln))
                if pre: cfg["rename"][m.group(1)]=pre+m.group(1)
        elif w[0]=="@@struct": # @@struct FILE A-B Name Ctor prefix [field types]
            a,b=map(int,w[2].split("-")); 
            fs=re.findall(r"pub\s+(\w+)\s*:\s*([^,\n]+)",src(w[1],a,b))
            ty={"f64":"F","String":"str","Option<String>":"option str","i64":"Z","u32":"Z","DpperInit":"DpperInit","DpperOpsMode":"DpperOpsMode","InitlMethod":"InitlMethod"}
            res.append("%sRecord %s := %s {"%(ind,w[3],w[4]))
            res.append(";\n".join("%s  %s%s : %s"%(ind,w[5],n,ty[t.strip()]) for n,t in fs))
            res.append("%s}."%ind)
        elif w[0]=="@@mk": # @@mk FILE A-B Ctor : build from equally named locals
            a,b=map(int,w[2].split("-"))
            fs=re.findall(r"pub\s+(\w+)\s*:\s*([^,\n]+)",src(w[1],a,b))
            pre=w[4] if len(w)>4 else ""
            res.append("%s%s\n%s  %s"%(ind,w[3],ind," ".join(pre+n for n,_ in fs)))
        elif w[0]=="@@setters": # @@setters FILE A-B Ctor prefix Name
            a,b=map(int,w[2].split("-"))
            fs=[n for n,_ in re.findall(r"pub\s+(\w+)\s*:\s*([^,\n]+)",src(w[1],a,b))]
            for n in fs:
                res.append("%sDefinition set_%s v (s : %s) : %s :=\n%s  %s %s."%(ind,n,w[5],w[5],ind,w[3],
                    " ".join("v" if m==n else "(%s%s s)"%(w[4],m) for m in fs)))
        elif w[0]=="@@zero": # initial record from `field: value,` lines: @@zero FILE A-B Ctor
            a,b=map(int,w[2].split("-"))
            vals=re.findall(r"(\w+):\s*([^,\n]+),",re.sub(r"//[^\n]*","",src(w[1],a,b)))
            mp={"None":"None","DpperInit::Y":"InitY","DpperOpsMode::I":"OpsI","String::new()":"[]","0":"0%Z","0.0":"(L 0 0)","InitlMethod::N":"MethodN"}
            res.append("%s%s %s"%(ind,w[3]," ".join(mp[v.strip()] for _,v in vals)))
        elif w[0]=="@@consts":   # use the shared constants of constants.rs
            for c in "PI TWO_PI DEG_2_RAD RAD_TO_DEG MINUTES_PER_DAY MU EARTH_RADIUS X2O3 C KM_TO_MI MI_TO_KM J2 J3 J4 J3OJ2 XKE TUMIN XPDOTP".split(): cfg["rename"][c]="k"+c
        elif w[0]=="@@sets": # @@sets FILE A-B s : `satrec.x = e;` -> let s := set_x e s in
            a,b=map(int,w[2].split("-")); p=P(tokens(src(w[1],a,b)),cfg); v=w[3]
            while p.peek()[0]!="eof":
                lhs=p.nxt()[1]; p.exp("."); f=p.nxt()[1]; p.exp("=")
                e=p.orx(); p.exp(";")
                res.append("%slet %s := set_%s %s %s in"%(ind,v,f,p.par(e,0),v))
        elif w[0]=="@@fields": # @@fields FILE A-B prefix obj : let x := prefix_x obj in for each struct field
            a,b=map(int,w[2].split("-"))
            for n,_ in re.findall(r"pub\s+(\w+)\s*:\s*([^,\n]+)",src(w[1],a,b)):
                res.append("%slet %s := %s%s %s in"%(ind,cfg["rename"].get(n,n),w[3],n,w[4]))
        else: raise Exception(st)
    open(out,"w").write("\n".join(res))
if __name__=="__main__":
    for f in sys.argv[1:]:
        expand("/verif/tools/templates/"+f+".v.in","/verif/rocq/theories/Model/"+f+".v"); print(f)
