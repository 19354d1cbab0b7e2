import os, sys
# Usage: python3 main.py, from this directory. Writes rocq/theories/RepoTests_*.v.
OUT = os.path.join(os.path.dirname(os.path.abspath(__file__)), "../../rocq/theories/")
import json as pj
from gen import *
import gen
def pyj(v):
    if v is None: return 'JNull'
    if isinstance(v,bool): return 'JBool '+str(v).lower()
    if isinstance(v,int): return 'JInt '+Z(str(v))
    if isinstance(v,float): return 'JFloat '+flt(repr(v))
    if isinstance(v,str): return 'JStr '+q(v)
    if isinstance(v,list): return 'JArr '+lst([pyj(x) for x in v])
    if isinstance(v,OD): return 'JObj '+lst(['(%s, %s)'%(q(a),pyj(b)) for a,b in v.p])
class OD:
    def __init__(s,p): s.p=p
def rawjson(s): return pyj(pj.loads(s,object_pairs_hook=OD))
out=[];bad=[];done=[]
def wrap(s,w=104):
    import re
    # break at spaces outside string literals
    toks=re.findall(r'"(?:[^"]|"")*"|[^\s"]+|\s+',s.replace('\n',' '))
    # merge into units without breakable spaces
    out=[];line='';cur=''
    def flush(u):
        nonlocal line
        if line and len(line)+1+len(u)>w: out.append(line); line='    '+u
        else: line=(line+' '+u) if line else u
    for t in toks:
        if t.isspace():
            if cur: flush(cur); cur=''
        else: cur+=t
    if cur: flush(cur)
    out.append(line)
    return '\n'.join(out)
def emit(name,cite,stmt,proof='reflexivity'):
    out.append('(** %s *)\nExample %s :\n  %s.\nProof. %s. Qed.\n'%(cite,name,wrap(stmt),proof))
def tb(x): return '(list (top test_env %s))'%x.name
def res(ms,b,f,env):
    last=[n for n,a in ms if n in('unwrap','unwrap_err')][-1]
    if last=='unwrap_err': return 'Err '+err(b,env)
    return 'Ok '+f(b)
def lhs_rhs(a,b,x,env,pre):
    """translate assert_eq!(a,b)"""
    r,ms=chain(a,env)
    rn=r[1] if r[0] in('call','path','struct') else None
    if r[0]=='call' and rn in(['ThingBuilder','new'],['Thing','builder']):
        xv,ops=thingops(ms,x,env)
        return '@thing_program test_env %s id_order %s %s %s\n  = Some (%s)'%(x.name,S(r[3][0],env),xv,ops,res(ms,b,lambda b:val(b,'thing',x,env),env))
    if r[0]=='call' and rn[0] in('DataSchemaBuilder','PartialDataSchemaBuilder'):
        chk=any(n=='check' for n,_ in ms)
        ms2=[m for m in ms if m[0] not in('try_into','into','unwrap','unwrap_err','check','is_ok')]
        ops=dsops(ms2,x,env)
        if rn[-1]=='default': ops.insert(0,'DFinish tt')
        D='(pty (x_ds %s)) (pty (x_as %s)) (pty (x_os %s))'%(x.name,x.name,x.name)
        if rn[0]=='DataSchemaBuilder':
            if chk: return 'ds_checked %s %s = Some (%s)'%(x.name,lst(ops),'Ok tt' if b is None else 'Err '+err(b,env))
            return 'ds_built %s %s = Some (%s)'%(x.name,lst(ops),res(ms,b,lambda b:val(b,'ds',x,env),env))
        if chk: return 'partial_checked %s %s = Some (%s)'%(x.name,lst(ops),'Ok tt' if b is None else 'Err '+err(b,env))
        return 'partial_built %s %s = Some %s'%(x.name,lst(ops),val(b,'partial',x,env))
    kinds={'PropertyAffordanceBuilder':'property','ActionAffordanceBuilder':'action','EventAffordanceBuilder':'event'}
    if r[0]=='call' and rn[0] in kinds:
        k=kinds[rn[0]]
        ms2=[m for m in ms if m[0] not in('build','unwrap','unwrap_err')]
        xi,xo,ops=aff(k,ms2,x,env,default=rn[-1]=='default')
        return '%s_built %s %s %s %s = Some (%s)'%(k,x.name,xi,xo,ops,res(ms,b,lambda b:val(b,k,x,env),env))
    if r[0]=='call' and rn[0]=='InteractionAffordanceBuilder':
        ms2=[m for m in ms if m[0] not in('into','try_into','unwrap','unwrap_err')]
        xv,ms2=exts_of(ms2,env); infos=[];ias=[]
        for n,a in ms2:
            o=iaop(n,a,x,env)
            if o: ias.append(o)
            else: infos.append(info(n,a,env))
        return 'interaction_built %s %s %s %s = Some (%s)'%(x.name,xv,lst(infos),lst(ias),res(ms,b,lambda b:val(b,'interaction',x,env),env))
    if r[0]=='call' and rn[0]=='AdditionalExpectedResponseBuilder':
        return 'resp_run %s = %s'%(resps(ms,env),val(b,'addresp',x,env))
    if r[0]=='call' and rn[-1]=='try_from':
        u=strip(r[3][0],env)
        f={'SecurityScheme':('sec','sec_built'),'DataSchema':('ds','ds_from '+x.name),'ArraySchema':('array','sub_from '+x.name),'ObjectSchema':('object','sub_from '+x.name)}[rn[0]]
        return '%s %s = %s'%(f[1],par(val(u,f[0],x,env)),res(ms,b,lambda b:val(b,f[0],x,env),env))
    if r[0]=='call' and rn[-1]=='partial_cmp' or (ms and ms[-1][0]=='partial_cmp'):
        l=r; rr=ms[-1][1][0]
        fn={('Minimum','Minimum'):'min_cmp',('Maximum','Maximum'):'max_cmp',('Minimum','Maximum'):'minmax_cmp',('Maximum','Minimum'):'maxmin_cmp'}[(l[1][0],rr[1][0])]
        ty=lambda e:{'Minimum':'minz','Maximum':'maxz'}[e[1][0]]
        b=strip(b,env)
        rv='None' if b[0]=='path' else 'Some '+{'Equal':'Eq','Less':'Lt','Greater':'Gt'}[b[3][0][1][-1]]
        return '%s i64_cmp (%s) (%s) = %s'%(fn,val(l,ty(l),x,env),val(rr,ty(rr),x,env),rv)
    if r[0]=='call' and rn[-1] in('from_str','from_value'):
        s=strip(r[3][0],env)
        if s[0]=='call' and s[1][-1]=='from_str': s=strip(s[3][0],env)
        if s[0]=='call' and s[1][-1]=='to_value':
            raw=strip(strip(s[3][0],env)[3][0],env)[1]
            return 'read_again %s (%s) = Some %s'%(x.name,rawjson(raw),par(val(b,pre[0],x,env)))
        j='(%s)'%(rawjson(s[1]) if s[0]=='str' else js(s,env))
        t=pre[0]
        return '%s %s = Some %s'%(pre[1],j,par(val(b,t,x,env)))
    if r[0]=='call' and rn[-1]=='to_value':
        v=strip(r[3][0],env)
        if v[0]=='call' and v[1][-1]=='from_value': v=pre[3]
        bb=strip(b,env)
        return '%s %s = Some (%s)'%(pre[2],par(val(v,pre[0],x,env)),js(bb,env))
    if r[0]=='call' and rn[0]=='FormBuilder':
        xv,o=formops([z for z in ms if z[0]!='into'],x,env)
        return '@form_run %s %s %s = Some %s'%(x.name,xv,o,val(b,'form',x,env))
    raise Bad('assert %r %r'%(r[0],rn))
def run(path,short,xs,pre):
    for (n,l,e,bd) in tests('/repo/src/'+path):
        x=xs(n); p=P(bd); p.ex('{')
        try:
            bl=p.block()
        except Exception as ex:
            bad.append((path,n,l,'parse '+str(ex)[:80])); continue
        env={};k=0
        asserts=[st for st in bl[1] if st[0]!='let']
        try:
            ex=[];last=None
            for st in bl[1]:
                if st[0]=='let':
                    # shadowing: inline the old definition
                    env=dict(env)
                    v=st[2]
                    if isinstance(st[1],str):
                        if st[1] in env: v=subst(v,st[1],env[st[1]])
                        env[st[1]]=v
                    continue
                m=st[1]
                if m[0]=='macro' and m[1]=='assert_eq':
                    pr=list(pre(n))+[last]
                    ex.append(lhs_rhs(m[2][0],m[2][1],x,env,pr)); last=m[2][1]
                elif m[0]=='macro' and m[1]=='assert':
                    ex.append(lhs_rhs(m[2][0],None,x,env,pre(n)))
                elif m[0]=='call' and m[1]==['deserialize_form']:
                    s=strip(m[3][0],env)
                    ex.append('@d_form %s (%s) = Some %s'%(x.name,rawjson(s[1]),par(val(m[3][1],'form',x,env))))
                else: raise Bad('stmt %s'%(m[:2],))
            for i,s in enumerate(ex):
                emit(short+'_'+n+('' if len(ex)==1 else '_%d'%(i+1)),'src/%s %d-%d, [%s]'%(path,l,e,n),s)
            done.append((path,n))
        except (Bad,AssertionError,KeyError,IndexError,TypeError) as ex2:
            bad.append((path,n,l,repr(ex2)[:200]))
def subst(e,n,v):
    if isinstance(e,tuple):
        if e[0]=='path' and e[1]==[n]: return v
        return tuple(subst(y,n,v) for y in e)
    if isinstance(e,list): return [subst(y,n,v) for y in e]
    return e
HEAD='''(** * %s

    Generated from the unit tests of /repo by a script: each [Example] runs the
    model on the calls of one test and compares the outcome with the value the
    test expects.  These are checks of the model on literals, not properties. *)

From Coq Require Import String Bool ZArith List.
From Coq Require Import Floats.SpecFloat.
From Verif Require Import Base MinMax Json Serde Types DsBuilder Builder HList Protocol Ser De SchemaStructs Samples RepoTestsBase.
Import ListNotations.
Set Implicit Arguments.
Local Open Scope string_scope.
Local Open Scope list_scope.

'''
def write(fn,title):
    global out
    open(OUT+fn+'.v','w').write(HEAD%title+'\n'.join(out)); out.clear()
if __name__=='__main__':
    nopre=lambda n:(None,None,None)
    c3=X('three',{})
    run('builder.rs','builder',lambda n:{'extend_form_builder':X('two_responses',{}),'extend_thing_with_form_builder':X('two_forms',{'*':'(tt, (tt, tt))'}),'complete_extension':c3}.get(n,NX),nopre)
    write('RepoTests_Builder','The unit tests of src/builder.rs')
    AB=X('aff_exts',{})
    run('builder/affordance.rs','affordance',lambda n:AB if n.startswith('extend') else NX,nopre)
    write('RepoTests_Affordance','The unit tests of src/builder/affordance.rs')
    DB=X('ds_exts',{})
    run('builder/data_schema.rs','schema',lambda n:DB if n.startswith('extend') else NX,nopre)
    write('RepoTests_Schema','The unit tests of src/builder/data_schema.rs')
    gen.DATES.update({'2022-05-01 10:20:42.123 UTC':'2022-05-01T10:20:42.123Z','2022-05-10 12:30 +1':'2022-05-10T12:30:00.000+01:00'})
    A1=X('ext_a',{'*':'42%Z'}); A2=X('list_a',{'*':'(42%Z, tt)'}); A3=X('list_ab',{'*':'(42%Z, (42%Z, tt))'})
    HT=X('list_ahb',{'*':'(42%Z, (tt, (42%Z, tt)))'})
    def tpre(n):
        if 'additional' in n: return ('addresp','d_add_resp','write_resp')
        if n=='combo_security_scheme': return ('combo','read_combo','write_combo')
        if n=='serde_number_schema': return ('number','read_number','')
        if n=='serde_integer_schema': return ('integer','read_integer','')
        if n.startswith('form_'): return ('form','@d_form N','write_form N')
        xn=tx(n).name
        return ('thing','@d_thing test_env '+xn,'@s_thing test_env '+xn+' mk_value')
    def tx(n): return {'extend_single_thing':A1,'extend_single_thing_with_hlist':A2,'extend_thing_with_two':A3,'dummy_http':HT}.get(n,NX)
    run('thing.rs','thing',tx,tpre)
    write('RepoTests_Thing','The unit tests of src/thing.rs')
    for f,x in(('coap',X('coap_exts',{'types':{'x_f':'coap_form','x_er':'coap_resp'}})),('http',X('http_exts',{'types':{'x_f':'http_form','x_er':'http_resp'}})),('mqtt',X('mqtt_exts',{'types':{'x_f':'mqtt_form'}}))):
        run('protocol/%s.rs'%f,f,lambda n:x,nopre)
    write('RepoTests_Protocol','The unit tests of src/protocol/')
    for b in bad: print(b)
    print(len(done))
