import sys
class D:
    def __init__(s,b): s.b=b; s.p=0
    def take(s,n): r=s.b[s.p:s.p+n]; assert len(r)==n; s.p+=n; return r
    def u8(s): return s.take(1)[0]
    def le(s,n): return int.from_bytes(s.take(n),'little')
    def compact(s):
        m=s.b[s.p]&3
        if m==0: return s.u8()>>2
        if m==1: return s.le(2)>>2
        if m==2: return s.le(4)>>2
        n=(s.u8()>>2)+4; return s.le(n)
    def bytes(s): return s.take(s.compact())
    def str(s): return s.bytes().decode()
    def opt(s,f): 
        k=s.u8(); assert k<2
        return f() if k else None
    def vec(s,f): return [f() for _ in range(s.compact())]
def field(d): return dict(name=d.opt(d.str),ty=d.compact(),tn=d.opt(d.str),docs=d.vec(d.str))
def variant(d):
    n=d.str(); f=d.vec(lambda:field(d)); i=d.u8(); return dict(name=n,fields=f,index=i,docs=d.vec(d.str))
PR=['PrBool','PrChar','PrStr','(PrU U8)','(PrU U16)','(PrU U32)','(PrU U64)','(PrU U128)','PrU256','(PrI U8)','(PrI U16)','(PrI U32)','(PrI U64)','(PrI U128)','PrI256']
def tdef(d):
    k=d.u8()
    if k==0: return ('C',d.vec(lambda:field(d)))
    if k==1: return ('V',d.vec(lambda:variant(d)))
    if k==2: return ('S',d.compact())
    if k==3: 
        n=d.le(4); return ('A',n,d.compact())
    if k==4: return ('T',d.vec(d.compact))
    if k==5: return ('P',d.u8())
    if k==6: return ('K',d.compact())
    if k==7: 
        a=d.compact(); return ('B',a,d.compact())
    assert 0,k
def ty(d):
    i=d.compact()
    p=d.vec(d.str); pr=d.vec(lambda:(d.str(),d.opt(d.compact))); t=tdef(d); docs=d.vec(d.str)
    return i,dict(path=p,params=pr,d=t,docs=docs)
def entry(d):
    n=d.str(); mod=d.u8(); k=d.u8()
    if k==0: t=('plain',d.compact())
    else:
        h=d.vec(d.u8); a=d.compact(); t=('map',h,a,d.compact())
    df=d.bytes(); docs=d.vec(d.str)
    return dict(name=n,t=t,docs=docs)
def pallet(d,v):
    n=d.str()
    st=d.opt(lambda:(d.str(),d.vec(lambda:entry(d))))
    c=d.opt(d.compact); e=d.opt(d.compact)
    def const(): 
        nm=d.str(); t=d.compact(); val=d.bytes(); d.vec(d.str); return (nm,t,val)
    cs=d.vec(const); er=d.opt(d.compact); i=d.u8()
    if v==15: d.vec(d.str)
    return dict(name=n,storage=st,consts=cs)
def load(fn):
    b=bytes.fromhex(open(fn).read().strip()); v=b[4]; d=D(b[5:])
    types=[ty(d) for _ in range(d.compact())]
    assert [i for i,_ in types]==list(range(len(types)))
    pallets=d.vec(lambda:pallet(d,v))
    se=lambda:(d.str(),d.compact(),d.compact())
    if v==14:
        et=d.compact(); ver=d.u8(); ext=d.vec(se); d.compact(); assert d.p==len(d.b)
        return dict(v=14,types=[t for _,t in types],pallets=pallets,et=et,ver=ver,ext=ext)
    ver=d.u8(); ps=[d.compact() for _ in range(4)]; ext=d.vec(se)
    return dict(v=15,types=[t for _,t in types],pallets=pallets,ps=ps,ver=ver,ext=ext)
def S(s): return '"'+s.replace('"','""')+'"%string'
def L(l): return '['+'; '.join(l)+']'
def O(x,f): return 'None' if x is None else '(Some %s)'%f(x)
def N(n): return '%d%%N'%n
def F(f,docs=True): return '(Field %s %s %s %s)'%(O(f['name'],S),N(f['ty']),O(f['tn'],S),L([S(x) for x in f['docs']]) if docs else '[]')
def T(t,docs=True):
    d=t['d']; k=d[0]
    ds=lambda x: L([S(y) for y in x]) if docs else '[]'
    if k=='C': x='(TComposite %s)'%L([F(f,docs) for f in d[1]])
    if k=='V': x='(TVariant %s)'%L(['(Variant %s %s %s %s)'%(S(v['name']),L([F(f,docs) for f in v['fields']]),N(v['index']),ds(v['docs'])) for v in d[1]])
    if k=='S': x='(TSequence %s)'%N(d[1])
    if k=='A': x='(TArray %s %s)'%(N(d[1]),N(d[2]))
    if k=='T': x='(TTuple %s)'%L([N(i) for i in d[1]])
    if k=='P': x='(TPrimitive %s)'%PR[d[1]]
    if k=='K': x='(TCompact %s)'%N(d[1])
    if k=='B': x='(TBitSequence %s %s)'%(N(d[1]),N(d[2]))
    return '(Ty %s %s %s %s)'%(L([S(p) for p in t['path']]),L(['(%s,%s)'%(S(a),O(b,N)) for a,b in t['params']]),x,ds(t['docs']))
def B(b): return L([N(x) for x in b])
def coq(m,name,docs=True):
    o=''
    for i,t in enumerate(m['types']): o+='Definition %s_t%d : ty := %s.\n'%(name,i,T(t,docs))
    o+='Definition %s_types : list ty := %s.\n'%(name,L(['%s_t%d'%(name,i) for i in range(len(m['types']))]))
    ps=L(['(Pallet %s %s)'%(S(p['name']),L(['(Constant %s %s %s)'%(S(a),B(v),N(t)) for a,t,v in p['consts'] if a=='Version'])) for p in m['pallets']])
    ex=L(['(ExtMeta %s %s %s)'%(S(a),N(b),N(c)) for a,b,c in m['ext']])
    if m['v']==14: o+='Definition %s := metadata_of_v14 (MetadataV14 %s_types %s %s %s %s).\n'%(name,name,ps,N(m['et']),N(m['ver']),ex)
    else: o+='Definition %s := metadata_of_v15 (MetadataV15 %s_types %s (ExtrinsicParams %s) %s %s).\n'%(name,name,ps,' '.join(N(m['ps'][i]) for i in (0,1,2,3)),N(m['ver']),ex)
    return o
