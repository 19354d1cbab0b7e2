"""Usage: python3 docs.py, from this directory. Writes rocq/theories/RepoTests_Docs.v from the
examples in the documentation comments of /repo."""
import re
import main
from main import *
PIECE={'String':'spiece','u32':'zpiece','NotDefaultableU32':'zpiece','f32':'fpiece','Vec<String>':'lpiece'}
ZERO={'u32':'0%Z'}
SLOT=[('x_ia','InteractionAffordance'),('x_pa','PropertyAffordance'),('x_aa','ActionAffordance'),('x_ea','EventAffordance'),('x_f','Form'),('x_er','ExpectedResponse'),('x_ds','DataSchema'),('x_os','ObjectSchema'),('x_as','ArraySchema')]
def docs(path):
    L=open('/repo/src/'+path).read().split('\n'); i=0
    while i<len(L):
        m=re.match(r'^\s*//[/!] ```(\w*)$',L[i])
        if m:
            j=i+1
            while not re.match(r'^\s*//[/!] ```$',L[j]): j+=1
            t=[re.sub(r'^# ?(?!\[)','',re.sub(r'^\s*//[/!] ?','',x)) for x in L[i+1:j]]
            yield i+2,j,m[1],'\n'.join(t)
            i=j
        i+=1
def piece(fs):
    ps=['(%s %s)'%(PIECE[t],q(n)) for n,t in fs]
    if not ps: return 'unit_piece'
    return ps[0] if len(ps)==1 else '(cons_piece %s %s)'%tuple(ps)
def extensions(t,name,cite):
    """the extensions declared by an example, in the order of the ext calls"""
    t=re.sub(r'/\*.*?\*/','',t)
    S={m[1]:[tuple(f.split(': ')) for f in re.findall(r'\w+: [\w<>]+',m[2])] for m in re.finditer(r'struct (\w+) \{(.*?)\}',t,re.S)}
    I={m[1]:dict(re.findall(r'type (\w+) = ([\w()]+);',m[2])) for m in re.finditer(r'impl ExtendableThing for (\w+) \{(.*?)\n\}',t,re.S)}
    used=[n for n in re.findall(r'\.ext(?:_with)?\((?:\|\| )?(\w+) \{',t) if n in I]
    if not used: return NX
    body='N'; dv={s:'tt' for s,_ in SLOT}
    for n in used:
        ps=[piece(S[n])]
        for s,r in SLOT:
            k=I[n][r]
            if k=='()': ps.append('unit_piece'); d='tt'
            else:
                ps.append(piece(S[k])); d=ZERO.get(S[k][0][1],'?')
            dv[s]='(%s, %s)'%(d,dv[s])
        body='(cons_exts (Build_exts %s) %s)'%(' '.join(ps),body)
    main.out.append('(** %s, the extensions of the example *)\nDefinition %s : exts :=\n  %s.\n'%(cite,name,wrap(body[1:-1])))
    return X(name,dv)
FAIL=[]
def doc(path,short):
    for a,b,kind,t in docs(path):
        if kind=='compile_fail' or 'Thing::builder' not in t or path=='lib.rs': FAIL.append((path,a)); continue
        cite='src/%s %d-%d'%(path,a,b); name='doc_%s_%d'%(short,a)
        x=extensions(t,name+'_exts',cite)
        p=P('{'+re.sub(r'/\*.*?\*/','',t)+'}'); p.ex('{'); bl=p.block(); env={}
        n=0
        for st in bl[1]:
            if st[0]=='let': env[st[1]]=st[2]; continue
            m=st[1]; n+=1
            r,ms=chain(env['thing'] if 'thing' in env else env['error'],env)
            xv,ops=thingops(ms,x,env)
            call='thing_written %s %s %s %s'%(x.name,S(r[3][0],env),xv,ops)
            if m[0]=='call': s='forgotten (%s) = Some (Ok tt)'%call
            elif 'thing' in env: s='%s = Some (Ok (%s))'%(call,js(m[2][1],env))
            else: s='%s = Some (Err %s)'%(call,err(m[2][1],env))
            emit(name,cite,s)
        assert n==1,(path,a,n)
if __name__=='__main__':
    doc('builder.rs','builder'); doc('builder/affordance.rs','affordance'); doc('builder/data_schema.rs','schema'); doc('lib.rs','lib')
    h=HEAD.replace('unit tests of /repo','examples in the documentation of /repo').replace('the\n    test expects','the\n    example states').replace('calls of one test','calls of one example')
    open(OUT+'RepoTests_Docs.v','w').write(h%'The examples in the documentation of /repo'+'\n'.join(main.out))
    print(FAIL, len(main.out))
