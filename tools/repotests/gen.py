import re,sys
from rust import *
def q(s): return '"'+s.replace('"','""')+'"'
class Bad(Exception): pass
# ---- extension contexts
class X:
    def __init__(s,name,d): s.name=name; s.d=d   # d: slot -> default
    def default(s,slot): return s.d.get(slot,s.d.get('*','tt'))
NX=X('N',{})
def num(t):
    return re.sub(r'(u\d+|i\d+|f\d+|usize)$','',t.replace('_',''))
def flt(t):
    v=float(num(t))
    if v==int(v): return '(f64_of_Z %s)'%Z(str(int(v)))
    m,e=v.as_integer_ratio()
    s='true' if m<0 else 'false'; m=abs(m)
    k=0
    while m<2**52: m*=2;k+=1
    assert m<2**53
    e=e.bit_length()-1
    return '(S754_finite %s %d%%positive (%d)%%Z)'%(s,m,-e-k)
def Z(t):
    t=num(t)
    return '(%s)%%Z'%t if t.startswith('-') else t+'%Z'
STRIP={'to_string','into','into_iter','collect','parse','unwrap','clone','to_owned','as_ref','try_into','as_slice'}
def strip(e,env):
    while True:
        if e[0]=='m' and e[2] in STRIP: e=e[1]
        elif e[0]=='m' and e[2]=='map': e=e[1]
        elif e[0]=='call' and e[1]==['Cow','Borrowed']: e=e[3][0]
        elif e[0]=='call' and e[1][-1] in('new','from') and e[1][0] in('Box','String','NonZeroU64','HashMap','Vec') and len(e[3])==1: e=e[3][0]
        elif e[0]=='path' and len(e[1])==1 and e[1][0] in env: e=env[e[1][0]]
        else: return e
def isdef(e):
    return (e[0]=='call' and e[1][-1]=='default') 
def lst(l): return '['+'; '.join(l)+']'
def opt(e,env):
    pass
def js(e,env):
    if isinstance(e,tuple) and e[0] in('m','path','call'): e=strip(e,env)
    k=e[0]
    if k=='json': return js(e[1],env)
    if k=='str': return 'JStr '+q(e[1])
    if k=='num':
        t=num(e[1])
        if '.' in t or e[1].endswith(('f32','f64')): return 'JFloat '+flt(e[1])
        return 'JInt '+Z(e[1])
    if k=='jlit': return {'true':'JBool true','false':'JBool false','null':'JNull'}[e[1]]
    if k=='path':
        n=e[1][-1]
        if n in('true','false'): return 'JBool '+n
        if n=='Null': return 'JNull'
        if n.startswith('TD_CONTEXT'): return 'JStr '+n
    if k in('jarr','arr'): return 'JArr '+lst([js(x,env) for x in e[1]])
    if k=='jobj':
        return 'JObj '+lst(['(%s, %s)'%(q(a),js(b,env)) for a,b in sorted(e[1],key=lambda p:p[0])])
    raise Bad('json %r'%(e,))
def par(s): return s if re.fullmatch(r'[\w.]+|\(.*\)|\[.*\]|".*"',s) and balanced(s) else '('+s+')'
def balanced(s):
    if not s or s[0] not in'([': return not(' ' in s and s[0]!='"')
    d=0;i=0;ins=False
    for i,c in enumerate(s):
        if c=='"': ins=not ins
        if ins: continue
        if c in'([': d+=1
        if c in')]':
            d-=1
            if d==0: return i==len(s)-1
    return False
OPS={n:n for n in 'ReadProperty WriteProperty ObserveProperty UnobserveProperty InvokeAction QueryAction CancelAction SubscribeEvent UnsubscribeEvent ReadAllProperties WriteAllProperties ReadMultipleProperties WriteMultipleProperties ObserveAllProperties UnobserveAllProperties SubscribeAllEvents UnsubscribeAllEvents QueryAllActions'.split()}
LOC={'Header':'LHeader','Query':'LQuery','Body':'LBody','Cookie':'LCookie','Uri':'LUri'}
# struct tables: rust name -> (coq constructor with %X, [(rustfield, type)]), flattening groups handled as ('*group', ctor, fields)
INFO=('*','Build_info',[('attype','O L S'),('title','O S'),('titles','O M S'),('description','O S'),('descriptions','O M S')])
MISC=('*','Build_dmisc',[('constant','O J'),('default','O J'),('unit','O S'),('enumeration','O L J'),('read_only','B'),('write_only','B'),('format','O S')])
T={
'thing':('@Build_thing test_env {X}',[('context','J'),('id','O S'),('attype','O L S'),('title','S'),('titles','O M S'),('description','O S'),('descriptions','O M S'),('version','O version'),('created','O D'),('modified','O D'),('support','O S'),('base','O S'),('properties','O M property'),('actions','O M action'),('events','O M event'),('links','O L link'),('forms','O L form'),('security','L S'),('security_definitions','M sec'),('uri_variables','O M ds'),('profile','O L S'),('schema_definitions','O M ds'),('other','x_t')]),
'version':('Build_version_info',[('instance','S'),('model','O S')]),
'link':('Build_link',[('href','S'),('ty','O S'),('rel','O S'),('anchor','O S'),('sizes','O S'),('hreflang','O L S')]),
'form':('@Build_form {X}',[('op','ops'),('href','S'),('content_type','O S'),('content_coding','O S'),('subprotocol','O S'),('security','O L S'),('scopes','O L S'),('response','O resp'),('additional_responses','O L addresp'),('other','x_f')]),
'resp':('@Build_exp_resp (pty (x_er {X}))',[('content_type','S'),('other','x_er')]),
'addresp':('Build_add_resp',[('success','B'),('content_type','O S'),('schema','O S')]),
'interaction':('@Build_interaction {X}',[INFO,('forms','L form'),('uri_variables','O M ds'),('other','x_ia')]),
'property':('@Build_property {X}',[('interaction','interaction'),('data_schema','ds'),('observable','O B'),('other','x_pa')]),
'action':('@Build_action {X}',[('interaction','interaction'),('input','O ds'),('output','O ds'),('safe','B'),('idempotent','B'),('synchronous','O B'),('other','x_aa')]),
'event':('@Build_event {X}',[('interaction','interaction'),('subscription','O ds'),('data','O ds'),('data_response','O ds'),('cancellation','O ds'),('other','x_ea')]),
'ds':('@mkDs (pty (x_ds {X})) (pty (x_as {X})) (pty (x_os {X}))',[INFO,MISC,('one_of','O L ds'),('subtype','O sub'),('other','x_ds')]),
'partial':('@Build_partial_ds (pty (x_ds {X})) (pty (x_as {X})) (pty (x_os {X}))',[('constant','O J'),('default','O J'),('unit','O S'),('one_of','O L ds'),('enumeration','O L J'),('read_only','B'),('write_only','B'),('format','O S'),('subtype','O sub'),('other','x_ds')]),
'array':('SArray',[('items','O boxed'),('min_items','O Z'),('max_items','O Z'),('other','x_as')]),
'object':('SObject',[('properties','O M ds'),('required','O L S'),('other','x_os')]),
'number':('Build_number_schema',[('maximum','O maxf'),('minimum','O minf'),('multiple_of','O F')]),
'integer':('Build_integer_schema',[('maximum','O maxz'),('minimum','O minz'),('multiple_of','O Z')]),
'string':('Build_string_schema',[('min_length','O Z'),('max_length','O Z'),('pattern','O S'),('content_encoding','O S'),('content_media_type','O S')]),
'sec':('Build_security_scheme',[('attype','O L S'),('description','O S'),('descriptions','O M S'),('proxy','O S'),('subtype','secsub')]),
'locname':('Build_loc_name',[('location','loc'),('name','O S')]),
'bearer':('Build_bearer',[('authorization','O S'),('alg','S'),('format','S'),('location','loc'),('name','O S')]),
'oauth2':('Build_oauth2',[('authorization','O S'),('token','O S'),('refresh','O S'),('scopes','O L S'),('flow','S')]),
'http_resp':('Build_http_response',[('headers','L http_header'),('status_code_value','O Z')]),
'http_form':('Build_http_form',[('method_name','O http_method')]),
'http_header':('Build_http_header',[('field_name','O S'),('field_value','O S')]),
'coap_form':('Build_coap_form',[('method','O coap_method'),('blockwise','O blockwise'),('qblockwise','O blockwise'),('hop_limit','O Z'),('accept','O Z'),('content_format','O Z')]),
'coap_resp':('Build_coap_response',[('content_format','O Z')]),
'blockwise':('Build_blockwise',[('block2_size','O block'),('block1_size','O block')]),
'mqtt_form':('Build_mqtt_form',[('retain','B'),('control_packet','O mqtt_packet'),('qos','O mqtt_qos'),('topic','O S'),('filter','L S')]),
}
STRUCTNAME={'Thing':'thing','VersionInfo':'version','Link':'link','Form':'form','ExpectedResponse':'resp','AdditionalExpectedResponse':'addresp','AdditionalExpectedResponseBuilder':'addresp','InteractionAffordance':'interaction','PropertyAffordance':'property','ActionAffordance':'action','EventAffordance':'event','DataSchema':'ds','UncheckedDataSchema':'ds','PartialDataSchema':'partial','ArraySchema':'array','UncheckedArraySchema':'array','ObjectSchema':'object','UncheckedObjectSchema':'object','NumberSchema':'number','IntegerSchema':'integer','StringSchema':'string','SecurityScheme':'sec','UncheckedSecurityScheme':'sec'}
DEF={'S':'""','B':'false','J':'JNull','ops':'OpDefault','secsub':'(Known KNoSec)','loc':'LHeader'}
SLOTS={'x_t','x_ia','x_pa','x_aa','x_ea','x_f','x_er','x_ds','x_os','x_as'}
def dflt(t,x):
    if t.startswith('O '): return 'None'
    if t[:2] in('L ','M '): return '[]'
    if t in DEF: return DEF[t]
    if t in SLOTS: return x.default(t)
    if t=='thing': raise Bad('default thing')
    if t in T: return struct(t,{},x,{})
    raise Bad('default '+t)
def struct(t,f,x,env,base=None):
    ctor,fields=T[t]
    used=set()
    def one(fd):
        if fd[0]=='*':
            return '('+fd[1]+' '+' '.join(one(g) for g in fd[2])+')'
        n,ty=fd
        used.add(n)
        if n in f: return par(val(f[n],ty,x,env))
        return par(dflt(ty,x))
    s='('+ctor.replace('{X}',x.name)+' '+' '.join(one(fd) for fd in fields)+')'
    extra=set(f)-used-{'_marker','_other'}
    if extra: raise Bad('extra fields %s in %s'%(extra,t))
    return s
def ext(e,env):
    e=strip(e,env)
    if e[0]=='tuple' and not e[1]: return 'tt'
    if e[0]=='struct' and e[1][-1] in('HttpForm','HttpResponse'): return struct({'HttpForm':'http_form','HttpResponse':'http_resp'}[e[1][-1]],dict(e[2]),NX,env)
    if isdef(e): return '42%Z'
    if e[0]=='struct':
        vs=[ext(v,env) for k,v in e[2]]
        if not vs: return 'tt'
        return vs[0] if len(vs)==1 else '('+', '.join(vs)+')'
    if e[0]=='call' and len(e[3])==1: return ext(e[3][0],env)   # A(1), B("a")
    if e[0]=='num': return flt(e[1]) if '.' in e[1] else Z(e[1])
    if e[0]=='str': return q(e[1])
    if e[0]=='closure': return ext(e[2],env)
    if e[0]=='arr': return lst([ext(v,env) for v in e[1]])
    if e[0]=='block': return ext(e[1][-1][1],env)
    raise Bad('ext %r'%(e,))
def hl(vs):
    s='tt'
    for v in vs: s='(%s, %s)'%(v,s)
    return s
PROTO={}
def extslot(e,t,x,env):
    e=strip(e,env)
    if isdef(e): return x.default(t)
    if e[0] in('struct','tuple') and t in x.d.get('types',{}):
        if e[0]=='struct': return struct(x.d['types'][t],dict(e[2]),x,env)
    if e[0]=='path' and e[1][-1]=='Nil': return 'tt'
    vs=[]
    if e[0]=='m' and e[2]=='cons' or (e[0]=='call' and e[1][-1]=='cons'):
        while e[0]=='m' and e[2]=='cons':
            vs.insert(0,ext(e[3][0],env)); e=e[1]
        if e[0]=='call' and e[1]==['Nil','cons']: vs.insert(0,ext(e[3][0],env))
        else: raise Bad('cons root %r'%(e,))
        return hl(vs)
    return ext(e,env)
def val(e,t,x,env):
    e=strip(e,env)
    if t.startswith('O '):
        if e[0]=='path' and e[1][-1]=='None' or isdef(e): return 'None'
        if e[0]=='call' and e[1]==['Some']: return 'Some '+par(val(e[3][0],t[2:],x,env))
        if e[0]=='call' and e[1][-1]=='new' and e[1][0]=='NonZeroU64': return 'Some '+val(e[3][0],t[2:],x,env)
        raise Bad('opt %r'%(e,))
    if t.startswith('L '):
        if isdef(e) or (e[0]=='call' and e[1][-1]=='new'): return '[]'
        if e[0]=='arr': return lst([val(v,t[2:],x,env) for v in e[1]])
        raise Bad('list %r'%(e,))
    if t.startswith('M '):
        if e[0]=='block':
            ps=[]
            for st in e[1]:
                if st[0]=='do':
                    c=st[1]
                    while c[0]=='m': ps.append((strip(c[3][0],env)[1],strip(c[3][1],env)[1])); c=c[1]
            return lst(['(%s, %s)'%(q(a),q(b)) for a,b in sorted(ps)])
        if isdef(e) or (e[0]=='call' and e[1][-1]=='new'): return '[]'
        if e[0]=='arr':
            ps=[]
            for p in e[1]:
                p=strip(p,env); assert p[0]=='tuple',p
                ps.append((strip(p[1][0],env)[1],val(p[1][1],t[2:],x,env)))
            return lst(['(%s, %s)'%(q(a),b) for a,b in sorted(ps,key=lambda p:p[0])])
        raise Bad('map %r'%(e,))
    if t=='S':
        if e[0]=='str': return q(e[1])
        if isdef(e) or (e[0]=='call' and e[1][-1]=='new'): return '""'
    if t=='B':
        if e[0]=='path': return e[1][-1]
        if isdef(e): return 'false'
    if t=='J': return js(e,env)
    if t=='Z': return Z(e[1])
    if t=='F':
        if e[0]=='path' and e[1][-1]=='NAN': return 'S754_nan'
        return flt(e[1])
    if t=='D': return q(date(e[1]))
    if t in('minf','maxf','minz','maxz'):
        assert e[0]=='call'
        c={'min':'Min','max':'Max'}[t[:3]]+{'Inclusive':'Incl','Exclusive':'Excl'}[e[1][-1]]
        return c+' '+val(e[3][0],{'f':'F','z':'Z'}[t[3]],x,env)
    if t=='op': return OPS[e[1][-1]]
    if t=='ops':
        if isdef(e) or (e[0]=='path' and e[1][-1]=='Default'): return 'OpDefault'
        return 'OpCustom '+val(e[3][0],'L op',x,env)
    if t=='loc': return LOC[e[1][-1]]
    if t=='boxed':
        if e[1][-1]=='Elem': return 'BElem '+par(val(e[3][0],'ds',x,env))
        return 'BVec '+par(val(e[3][0],'L ds',x,env))
    if t=='sub':
        n=e[1][-1]
        if n in('Boolean','Null'): return 'S'+n
        if n in('Array','Object'): return val(e[3][0],n.lower(),x,env)
        return 'S'+n+' '+par(val(e[3][0],n.lower(),x,env))
    if t=='secsub':
        if isdef(e): return DEF[t]
        if e[1][-1]=='Known': return 'Known '+par(val(e[3][0],'known',x,env))
        u=strip(e[3][0],env); f=dict(u[2])
        return 'Unknown %s %s'%(val(f['scheme'],'S',x,env),par(js(f['data'],env)))
    if t=='known':
        n=e[1][-1]
        if n in('NoSec','Auto'): return 'K'+n
        if n=='Combo': return 'KCombo '+par(val(e[3][0],'combo',x,env))
        a=strip(e[3][0],env)
        if n=='Psk': 
            f=dict(a[2]) if a[0]=='struct' else {}
            return 'KPsk '+par(val(f['identity'],'O S',x,env) if 'identity' in f else 'None')
        f=dict(a[2]) if a[0]=='struct' else {}
        if n=='Digest':
            qv='QAuth'
            if 'qop' in f: qv={'Auth':'QAuth','AuthInt':'QAuthInt'}[f.pop('qop')[1][-1]]
            return 'KDigest %s %s'%(qv,struct('locname',f,x,env))
        if n=='Basic': return 'KBasic '+struct('locname',f,x,env)
        if n=='ApiKey':
            f.setdefault('location',('path',['Query'],[])); return 'KApiKey '+struct('locname',f,x,env)
        if n=='Bearer':
            return 'KBearer '+struct('bearer',f,x,env)
        if n=='OAuth2': return 'KOAuth2 '+struct('oauth2',f,x,env)
    if t=='combo':
        return {'OneOf':'COneOf','AllOf':'CAllOf'}[e[1][-1]]+' '+val(e[3][0],'L S',x,env)
    if t=='http_method': return 'H'+e[1][-1]
    if t=='coap_method': return 'C'+e[1][-1].capitalize() if e[1][-1]!='IPatch' else 'CIpatch'
    if t=='block': return 'B'+re.sub(r'\D','',e[1][-1])
    if t=='mqtt_packet': return 'M'+e[1][-1]
    if t=='mqtt_qos': return e[1][-1]
    if t in SLOTS: return extslot(e,t,x,env)
    if t in T:
        if isdef(e): return dflt(t,x)
        if e[0]=='struct': return struct(t,dict(e[2]),x,env)
        if e[0]=='call' and e[1][-1]=='new': return dflt(t,x)
    raise Bad('val %s %r'%(t,str(e)[:200]))
DATES={}
def date(t): return DATES.get(re.sub(r'\s+',' ',t.strip()),re.sub(r'\s+',' ',t.strip()))
# ---- chains
def chain(e,env):
    ms=[]
    while True:
        if e[0]=='m': ms.insert(0,(e[2],e[3])); e=e[1]
        elif e[0]=='path' and len(e[1])==1 and e[1][0] in env: e=env[e[1][0]]
        else: return e,ms
def body(c):
    b=c[2]
    if b[0]=='block':
        assert len(b[1])==1; b=b[1][0][1]
    return b
def sub(c,env):
    if c[0]=='path': return []
    env={k:v for k,v in env.items() if k not in c[1]}
    b=body(c)
    if b[0]=='call' and b[1]==['FormBuilderEx']: b=b[3][0]
    r,ms=chain(b,env); return ms
def adds(c,env):
    r=[]
    for n,a in sub(c,env):
        if n not in('add','context'): raise Bad('adds '+n)
        r.append('(%s, %s)'%(q(strip(a[0],env)[1]),q(strip(a[1],env)[1])))
    return lst(r)
def S(e,env): 
    e=strip(e,env)
    if e[0]=='path': return e[1][-1]
    return q(e[1])
IN={'attype':'IAttype','title':'ITitle','description':'IDescription'}
def info(n,a,env):
    if n in IN: return '%s %s'%(IN[n],S(a[0],env))
    if n=='titles': return 'ITitles '+adds(a[0],env)
    if n=='descriptions': return 'IDescriptions '+adds(a[0],env)
def exts_of(ms,env):
    vs=[];rest=[]
    for n,a in ms:
        if n in('ext','ext_with'): vs.append(ext(a[0],env))
        else: rest.append((n,a))
    return hl(vs),rest
class DsState:
    def __init__(s): s.kind=None; s.x=[]
def dsop(n,a,st,x,env):
    """one data schema call -> op text or None"""
    i=info(n,a,env)
    if i: return 'DInfo (%s)'%i
    if n in('ext','ext_with'): st.x.append(ext(a[0],env)); return None
    if n=='finish_extend': return 'DFinish '+hl(st.x)
    one={'unit':'DUnit','format':'DFormat','pattern':'DPattern','content_encoding':'DEncoding','content_media_type':'DMedia'}
    if n in one: return '%s %s'%(one[n],S(a[0],env))
    jj={'default_value':'DDefault','constant':'DConstant','enumeration':'DEnum'}
    if n in jj: return '%s (%s)'%(jj[n],js(a[0],env))
    if n in('bool','null','string','number','integer'):
        st.kind=n; return {'bool':'DBool','null':'DNull','string':'DString','number':'DNumber','integer':'DInteger'}[n]
    if n in('vec','tuple','object'): return {'vec':'DVec','tuple':'DTuple','object':'DObject'}[n]+' '+x.default('x_os' if n=='object' else 'x_as')
    if n in('vec_ext','tuple_ext','object_ext'):
        v,rest=exts_of(sub(a[0],env),env); assert not rest
        return {'vec_ext':'DVec','tuple_ext':'DTuple','object_ext':'DObject'}[n]+' '+v
    if n in('read_only','write_only'): return {'read_only':'DReadOnly','write_only':'DWriteOnly'}[n]
    pr={'one_of':'DOneOf','append':'DAppend','set_item':'DSetItem'}
    if n in pr: return '%s %s'%(pr[n],dsprog(sub(a[0],env),x,env))
    zz={'min_items':'DMinItems','max_items':'DMaxItems','min_length':'DMinLength','max_length':'DMaxLength'}
    if n in zz: return '%s %s'%(zz[n],Z(a[0][1]))
    if n=='property': return 'DProperty %s %s %s'%(S(a[0],env),a[1][1][-1],dsprog(sub(a[2],env),x,env))
    if n in('minimum','maximum','exclusive_minimum','exclusive_maximum'):
        k=st.kind; m=n.split('_')[-1]
        c={'minimum':'Min','maximum':'Max'}[m]
        v=val(a[0],'F' if k=='number' else 'Z',x,env)
        return 'D%s%s (%s%s %s)'%({'number':'Num','integer':'Int'}[k],c,c,'Excl' if n.startswith('excl') else 'Incl',v)
    if n=='multiple_of':
        return 'D%sMult %s'%({'number':'Num','integer':'Int'}[st.kind],val(a[0],'F' if st.kind=='number' else 'Z',x,env))
    raise Bad('ds '+n)
def dsops(ms,x,env):
    st=DsState(); r=[]
    for n,a in ms:
        o=dsop(n,a,st,x,env)
        if o: r.append(o)
    return r
def dsprog(ms,x,env): return lst(dsops(ms,x,env))
def formops(ms,x,env):
    xv,ms=exts_of(ms,env); r=[]
    one={'href':'FHref','content_type':'FCtype','content_coding':'FCcoding','subprotocol':'FSubprotocol','security':'FSecurity','scope':'FScope'}
    for n,a in ms:
        if n in one: r.append('%s %s'%(one[n],S(a[0],env)))
        elif n=='op': r.append('FOp '+OPS[a[0][1][-1]])
        elif n=='response':
            v,rest=exts_of(sub(a[1],env),env); assert not rest
            r.append('FResponse %s %s'%(S(a[0],env),v))
        elif n=='response_default_ext': r.append('FResponse %s %s'%(S(a[0],env),x.default('x_er')))
        elif n=='additional_response': r.append('FAdditional '+resps(sub(a[0],env),env))
        else: raise Bad('form '+n)
    return xv,lst(r)
def resps(ms,env):
    r=[]
    for n,a in ms:
        if n=='success': r.append('RSuccess')
        elif n=='content_type': r.append('RCtype '+S(a[0],env))
        elif n=='schema': r.append('RSchema '+S(a[0],env))
        elif n=='clone': pass
        else: raise Bad('resp '+n)
    return lst(r)
def iaop(n,a,x,env):
    if n=='form':
        v,o=formops(sub(a[0],env),x,env); return 'IForm %s %s'%(v,o)
    if n=='uri_variable': return 'IUri %s %s'%(S(a[0],env),dsprog(sub(a[1],env),x,env))
def aff(kind,ms,x,env,default=False):
    """-> xi, xo, ops"""
    xi=[];xo=[];r=[];st=DsState()
    if default and kind=='property': r.append('PDs (DFinish tt)')
    for n,a in ms:
        if n in('ext','ext_with'): xo.append(ext(a[0],env)); continue
        if n in('ext_interaction','ext_interaction_with'): xi.append(ext(a[0],env)); continue
        if kind=='property' and n in('ext_data_schema','ext_data_schema_with'): st.x.append(ext(a[0],env)); continue
        if n in('into_usable','clone'): continue
        o=iaop(n,a,x,env)
        if o: r.append({'property':'PIa','action':'AIa','event':'EIa'}[kind]+' (%s)'%o); continue
        if kind=='property':
            if n=='observable': r.append('PObservable '+a[0][1][-1])
            else:
                if n=='finish_extend_data_schema': n='finish_extend'
                r.append('PDs (%s)'%dsop(n,a,st,x,env))
        else:
            i=info(n,a,env)
            P={'action':'A','event':'E'}[kind]
            if i: r.append(P+'Info (%s)'%i); continue
            pr={'input':'AInput','output':'AOutput','subscription':'ESubscription','data':'EData','data_response':'EDataResponse','cancellation':'ECancellation'}
            if n in pr: r.append(pr[n]+' '+dsprog(sub(a[0],env),x,env))
            elif n=='safe': r.append('ASafe')
            elif n=='idempotent': r.append('AIdempotent')
            elif n=='synchronous': r.append('ASynchronous '+a[0][1][-1])
            else: raise Bad(kind+' '+n)
    return hl(xi),hl(xo),lst(r)
def secops(ms,env):
    r=[]
    z={'no_sec':'SNoSec','auto':'SAuto','combo':'SCombo','basic':'SBasic','digest':'SDigest','bearer':'SBearer','psk':'SPsk','apikey':'SApiKey','required':'SRequired'}
    one={'oauth2':'SOAuth2','custom':'SCustom','attype':'SAttype','description':'SDescription','proxy':'SProxy','with_key':'SWithKey','name':'SName','push':'SPush','authorization':'SAuthorization','alg':'SAlg','format':'SFormat','token':'SToken','refresh':'SRefresh','scope':'SScope'}
    ll={'all_of':'SAllOf','one_of':'SOneOf','extend':'SExtend'}
    for n,a in ms:
        if n in z: r.append(z[n])
        elif n in one: r.append('%s %s'%(one[n],S(a[0],env)))
        elif n in ll: r.append('%s %s'%(ll[n],val(a[0],'L S',NX,env)))
        elif n=='descriptions': r.append('SDescriptions '+adds(a[0],env))
        elif n=='location': r.append('SLocation '+LOC[a[0][1][-1]])
        elif n=='qop': r.append('SQop '+{'Auth':'QAuth','AuthInt':'QAuthInt'}[a[0][1][-1]])
        elif n in('data','custom_data','extend_data'): r.append('SData (%s)'%js(a[0],env))
        else: raise Bad('sec '+n)
    return r
def thingops(ms,x,env):
    if not any(n.startswith('ext') for n,_ in ms): xv=x.default('x_t')
    else: xv,ms=exts_of(ms,env)
    r=[]
    one={'id':'TId','description':'TDescription','support':'TSupport','base':'TBase','context':'TContext','attype':'TAttype','link':'TLink','profile':'TProfile'}
    for n,a in ms:
        if n in('build','unwrap','unwrap_err'): continue
        if n in one: r.append('%s %s'%(one[n],S(a[0],env)))
        elif n=='version': r.append('TVersion '+val(a[0],'version',x,env))
        elif n in('created','modified'): r.append('T%s %s'%(n.capitalize(),val(a[0],'D',x,env)))
        elif n=='context_map': r.append('TContextMap '+adds(a[0],env))
        elif n in('titles','descriptions'): r.append('T%s %s'%(n.capitalize(),adds(a[0],env)))
        elif n=='link_with':
            L={'href':'LHref','ty':'LType','rel':'LRel','anchor':'LAnchor','sizes':'LSizes','hreflang':'LHreflang'}
            r.append('TLinkWith '+lst(['%s %s'%(L[m],S(b[0],env)) for m,b in sub(a[0],env)]))
        elif n=='security': r.append('TSecurity '+lst(secops(sub(a[0],env),env)))
        elif n=='finish_extend': r.append('TFinish')
        elif n=='form':
            v,o=formops(sub(a[0],env),x,env); r.append('TForm %s %s'%(v,o))
        elif n=='uri_variable': r.append('TUri %s %s'%(S(a[0],env),dsprog(sub(a[1],env),x,env)))
        elif n=='schema_definition': r.append('TSchema %s %s'%(S(a[0],env),dsprog(sub(a[1],env),x,env)))
        elif n in('property','action','event'):
            xi,xo,o=aff(n,sub(a[1],env),x,env); r.append('T%s %s %s %s %s'%(n.capitalize(),S(a[0],env),xi,xo,o))
        else: raise Bad('thing '+n)
    return xv,lst(r)
CTX={'Thing':'CtxThing','Property':'CtxProperty','Action':'CtxAction','Event':'CtxEvent'}
def err(e,env):
    e=strip(e,env)
    n=e[1][-1]
    if e[0]=='path': return n
    if e[0]=='call': return '(%s %s)'%(n,S(e[3][0],env))
    f=dict(e[2])
    if n=='InvalidOpInForm':
        c=f['context']
        cc=CTX[c[1][-1]] if c[0]=='path' else CTX[c[3][0][1][-1]]
        return '(InvalidOpInForm %s %s)'%(cc,OPS[f['operation'][1][-1]])
    raise Bad('err %r'%(e,))
