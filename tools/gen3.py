import re
from conv import *
import gen as G
src=G.src
def data(fn): 
    t=src[src.index('fn %s()'%fn):]; return re.search(r'hex::decode\(\s*"(\w+)"',t)[1]
HEAD='(** GENERATED from /repo/for_tests/%s and /repo/src/tests.rs: the tests of the\n    repository on this metadata replayed on the model (tests of the fidelity of the\n    model, not proofs of properties). Identicons are not compared. *)\n'
def trs(meta):
    o=''
    for name,dat,g,sp,unmarked,known,shows in G.out[meta]:
        gs='(Some (unhex "%s"))'%G.gen[g] if g else 'None'
        call='(parse_transaction%s (slice_buffer (unhex "%s"%%string)) md %s 0 tt)'%('_unmarked' if unmarked else '',dat,gs)
        spc='(ShortSpecs %s%%N %s%%N "%s")'%G.specs[sp]
        for which,shw in zip(['call','extensions'],shows):
            if which not in known: continue
            kn=G.fix(known[which].replace('\\"','"'))
            pat='(Ok (c, x), _, _)' if unmarked else '(Ok (TransactionParsed (inl c) x), _, _)'
            cc='(card_call b58 idn %s (string_of_bytes (spec_name nv)) c 0)'%spc if which=='call' else '(card_extensions b58 idn %s (string_of_bytes (spec_name nv)) x)'%spc
            o+='Example %s_%s :\n match %s with %s => show_all%s bs %s | _ => "FAIL"%%string end\n = %s.\nProof. vm_compute. reflexivity. Qed.\n'%(name,which,call,pat,'_with_docs' if shw=='show_with_docs' else '',cc,S(kn))
    return o
NV='Definition nv := match m_spec_name_version md with inl x => x | inr _ => SpecNameVersion "" [] end.\n'
for meta,fn in [('westend9111','TestWestend'),('statemint1002000','TestStatemint'),('acala2012','TestAcala2012'),('acala2200','TestAcala2200'),('polkadot9430','TestPolkadot9430'),('astar66','TestAstar'),('bifrost982','TestBifrost'),('polkadot1000001_v15','TestPolkadot15')]:
    o=HEAD%meta+G.PRE+coq(load('/repo/for_tests/'+meta),'md')+NV+trs(meta)
    if meta=='westend9111':
        exp={'parser_error_1':'WrongSpecVersion "9120" "9111"','parser_error_2':'SomeDataNotUsedCall 26 42','parser_error3':'SomeDataNotUsedExtensions 118','parser_error_4':'Parsing (NoCompact 36)','parser_error_5':'Parsing (UnexpectedEnumVariant 3)','parser_error_6':'Parsing (PBuffer (DataTooShort 42 1))'}
        for n,e in exp.items():
            o+='Example %s :\n match parse_transaction (slice_buffer (unhex "%s"%%string)) md (Some (unhex "%s"%%string)) 0 tt with (Ok (TransactionParsed c _),_,_) => (match c with inr e => Some e | _ => None end) | (Err e,_,_) => Some e | _ => None end = Some (%s).\nProof. vm_compute. reflexivity. Qed.\n'%(n,data(n),G.gen['westend'],e)
    open('/verif/rocq/theories/%s.v'%fn,'w').write(o)
