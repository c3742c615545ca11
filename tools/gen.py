import re,sys
from conv import *
src=open('/repo/src/tests.rs').read()
gen={}
for m in re.finditer(r'fn genesis_hash_(\w+)\(\) -> H256 \{\s*H256\(\s*hex::decode\("(\w+)"',src): gen[m[1]]=m[2]
specs={}
for m in re.finditer(r'fn specs_(\w+)\(\) -> ShortSpecs \{\s*ShortSpecs \{\s*base58prefix: (\d+),\s*decimals: (\d+),\s*unit: "(\w+)"',src): specs[m[1]]=(m[2],m[3],m[4])
def fix(t): return t.strip('\n')
PRE='''From Verif Require Import Base Compact Types Indicators Decode Sign Meta Balance Cards Unchecked.
From Verif Require Address.
Definition b58 := Address.address.
Definition idn (b : bytes) : bytes := [].
Definition bs := Address.bits_text.
Fixpoint unhex (s : string) : bytes :=
  let v c := let n := N_of_ascii c in if (n <? 58)%N then (n - 48)%N else (n - 87)%N in
  match s with String a (String b r) => (16 * v a + v b)%N :: unhex r | _ => [] end.
'''
metas={}; out={}
tests=re.split(r'\n#\[test\]\n',src)
for t in tests:
    m=re.match(r'fn (\w+)\(\)',t)
    if not m: continue
    name=m[1]
    if not name.startswith('tr_'): continue
    meta=re.search(r'for_tests/(\w+)',t)[1]
    data=re.search(r'hex::decode\(\s*"(\w+)"',t)[1]
    g=re.search(r'Some\(genesis_hash_(\w+)\(\)\)',t); g=g and g[1]
    sp=re.search(r'specs_(\w+)\(\)',t); sp=sp[1]
    unmarked='parse_transaction_unmarked' in t
    kn=re.findall(r'let (call|extensions)_known(?:_part)? = "((?:[^"\\]|\\.)*)"',t,re.S)
    known=dict(kn)
    shows=re.findall(r'card\.(show\w*)\(\)',t)
    print(name,meta,len(data),g,sp,unmarked,[(a,len(b)) for a,b in kn],shows)
    out.setdefault(meta,[]).append((name,data,g,sp,unmarked,known,shows))
for meta,l in out.items():
    m=load('/repo/for_tests/'+meta)
    o=PRE+coq(m,'md')
    o+='Definition nv := match m_spec_name_version md with inl x => x | inr _ => SpecNameVersion "" [] end.\n'
    for name,data,g,sp,unmarked,known,shows in l:
        gs='(Some (unhex "%s"))'%gen[g] if g else 'None'
        call='(parse_transaction%s (slice_buffer (unhex "%s"%%string)) md %s 0 tt)'%('_unmarked' if unmarked else '',data,gs)
        spc='(ShortSpecs %s%%N %s%%N "%s")'%specs[sp]
        for i,(which,shw) in enumerate(zip(['call','extensions'],shows)):
            if which not in known: continue
            kn=fix(known[which].replace('\\"','"'))
            if unmarked: acc='match %s with (Ok (c, x), _, _) => show_all%s bs %s | _ => "FAIL"%%string end'
            else: acc='match %s with (Ok (TransactionParsed (inl c) x), _, _) => show_all%s bs %s | _ => "FAIL"%%string end'
            cc='(card_call b58 idn %s (string_of_bytes (spec_name nv)) c 0)'%spc if which=='call' else '(card_extensions b58 idn %s (string_of_bytes (spec_name nv)) x)'%spc
            e=acc%(call,'_with_docs' if shw=='show_with_docs' else '',cc)
            o+='Definition got_%s_%s := Eval vm_compute in %s.\n'%(name,which,e)
            o+='Goal got_%s_%s = %s.\nProof. vm_compute. first [reflexivity | idtac "MISMATCH %s %s"]. Abort.\n'%(name,which,S(kn),name,which)
            o+='Eval vm_compute in String.eqb got_%s_%s %s.\n'%(name,which,S(kn))
    open('/scratch/Tr_%s.v'%meta,'w').write(o)
