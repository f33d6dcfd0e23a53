"""Compare s1_*.csv, s2_*.csv (written by run.ml) with the recorded output in /repo/tests/outputs."""
import re
for i in (1,2):
    R=[l.strip() for l in open(f'/repo/tests/outputs/synthetic{i}/data_variables.csv')][1:]
    S=[l.strip() for l in open(f's{i}_vars.csv')]
    print(i,len(R),len(S))
    mx=0;w=None
    for a,b in zip(R,S):
        x=a.split(',');y=b.split(',')
        assert x[0]==y[0]
        for k,(u,v) in enumerate(zip(x[1:],y[1:])):
            e=abs(float(u)-float(v))
            if e>mx: mx=e;w=(x[0],k,u,v)
    print('vars max diff',mx,w)
    A=[l.strip() for l in open(f'/repo/tests/outputs/synthetic{i}/data_layers.csv') if l.startswith('[')]
    B=[l.strip() for l in open(f's{i}_layers.csv') if l.startswith('[')]
    mx=0;dn=0;w=None;same=0
    for n,(a,b) in enumerate(zip(A,B)):
        p=[list(map(float,t.split(','))) for t in re.findall(r'\(([^)]*)\)',a)]
        q=[list(map(float,t.split(','))) for t in re.findall(r'\(([^)]*)\)',b)]
        if a==b: same+=1
        if len(p)!=len(q): dn+=1; print(n,len(p),len(q)) if dn<5 else 0; continue
        for u,v in zip(p,q):
            for k,(c,d) in enumerate(zip(u,v)):
                if abs(c-d)>mx: mx=abs(c-d);w=(n,k,c,d)
    print('layers',len(A),len(B),'count differs',dn,'max diff',mx,w,'identical rows',same)
