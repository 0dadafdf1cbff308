import sys; sys.path.insert(0,'/verif/tools')
import gen_dict as G
from fractions import Fraction as F
names=[];kids=[];convs=[];first={}
D={k:(v if isinstance(v,dict) else list(v)) for k,v in G.data.items()}
tupdict={k:isinstance(v,dict) for k,v in G.data.items()}
K={k:list(v) for k,v in G.data.items() if '_' not in k}
def node(n):
    i=len(names); names.append(n); kids.append([]); convs.append([]); first.setdefault(n,i)
def edge(a,b,c):
    i,j=first[a],first[b]
    if j not in kids[i]: kids[i].append(j); convs[i].append(c)
ID=()
def rev(c): return ('rev',c)
def prefix(kind,base,table,idx):
    for n in D[kind]:
        node(n); K[base].append(n)
        for p,row in table:
            node(p+n); c=(('CMul',row[idx]),)
            edge(p+n,n,c); edge(n,p+n,rev(c)); K[base].append(p+n)
def two(base,a,b):
    node(a);node(b);edge(a,b,ID);edge(b,a,ID);K[base].append(b)
for kind in G.order:
    base=kind.split('_')[0]; v=D[kind]; isd=tupdict[kind]
    if '_' not in kind:
        for n in v: node(n)
    if '_NAMES' in kind:
        for n in v:
            node(n);K[base].append(n)
            for s in v[n]:
                node(s);edge(s,n,ID);edge(n,s,ID);K[base].append(s)
    if '_SPACES' in kind:
        for rep in '-_':
            for n in v:
                if ' ' in n:
                    r=n.replace(' ',rep)
                    node(n);node(r);K[base]+= [n,r]; edge(n,r,ID);edge(n,r,ID)
                if isd:
                    for s in v[n]:
                        if ' ' in s:
                            r=s.replace(' ',rep); node(s);node(r);edge(r,s,ID);edge(s,r,ID);K[base]+=[s,r]
    if '_SI' in kind and base in G.tables['SI_order'][0]: prefix(kind,base,G.tables['SI'],0)
    elif '_SI' in kind and base in G.tables['SI_order'][1]: prefix(kind,base,G.tables['SI'],1)
    elif '_SI' in kind and base in G.tables['SI_order'][2]: prefix(kind,base,G.tables['SI'],2)
    elif '_linearSI' in kind and base in G.tables['SI_order'][2]: prefix(kind,base,G.tables['SI'],0)
    if '_DATA' in kind and base=='dataBIT': prefix(kind,base,G.tables['DATA'],0)
    if '_DATA' in kind and base=='dataBYTE': prefix(kind,base,G.tables['DATA'],1)
    if '_OGF' in kind and base in G.tables['OGF_order'][2]: prefix(kind,base,G.tables['OGF'],2)
    if '_PLURALwS' in kind:
        for n in v: two(base,n,n+'s')
        if '_UPPER' in kind:
            for n in v: two(base,n,n.upper()+'S')
        if '_LOWER' in kind:
            for n in v: two(base,n,n.lower()+'s')
    if '_UPPER' in kind:
        for n in v:
            two(base,n,n.upper())
            if isd:
                for s in v[n]: two(base,s,s.upper())
    if '_LOWER' in kind:
        for n in v:
            two(base,n,n.lower())
            if isd:
                for s in v[n]: two(base,s,s.lower())
for a,b,c,l in G.edges: edge(a,b,tuple(c))
for kind in G.order:
    if '_REVERSE' in kind:
        for n in D[kind]:
            i=first[n]
            for j,c in zip(list(kids[i]),list(convs[i])):
                if j!=i:
                    if i not in kids[j]: kids[j].append(i); convs[j].append(rev(c))
live=[i for i in range(len(names)) if kids[i]]
K['Data']=K['dataBYTE']+K['dataBIT']
del K['dataBYTE'],K['dataBIT']
if __name__=='__main__':
    print(len(names),'nodes',len(set(names)),'names',len(live),'live', sum(map(len,kids)),'edges')
    # dangling / one way
    for i in live:
        for j in kids[i]:
            if i not in kids[j]: print('one-way',names[i],'->',names[j])
