"""Small parser for the Rust expressions in the unit tests."""
import re
TOK=re.compile(r'''\s+|//[^\n]*|(?P<raw>r\#"(?P<rawb>.*?)"\#)|(?P<str>"(?:[^"\\]|\\.)*")|(?P<num>\d[\d_]*(?:\.\d+|\.(?![\.A-Za-z_]))?(?:u\d+|i\d+|f\d+|usize)?)|(?P<life>'[a-z]+)|(?P<id>[A-Za-z_]\w*)|(?P<p>::|\.\.|=>|->|&&|\|\||==|[{}()\[\]<>,;:.!|&=\#?*+\-/%@])''',re.S)
def lex(s):
    out=[];i=0
    while i<len(s):
        m=TOK.match(s,i)
        if not m: raise Exception('lex '+s[i:i+40])
        if m.group('raw'): out.append(('str',m.group('rawb'),i))
        elif m.group('str'): out.append(('str',bytes(m.group('str')[1:-1],'utf8').decode('unicode_escape'),i))
        elif m.group('num'): out.append(('num',m.group('num'),i))
        elif m.group('id'): out.append(('id',m.group('id'),i))
        elif m.group('life'): pass
        elif m.group('p'): out.append(('p',m.group('p'),i))
        i=m.end()
    out.append(('eof','',len(s)))
    return out
class P:
    def __init__(s,src): s.src=src; s.t=lex(src); s.i=0
    def pk(s,k=0): return s.t[s.i+k]
    def at(s,v,k=0): return s.t[s.i+k][0] in('p','id') and s.t[s.i+k][1]==v
    def nx(s): s.i+=1; return s.t[s.i-1]
    def ex(s,v):
        if not s.at(v): raise Exception('expected %r at %r in %s'%(v,s.pk(),s.src[s.pk()[2]-60:s.pk()[2]+60]))
        return s.nx()
    def opt(s,v):
        if s.at(v): s.nx(); return True
        return False
    def generics(s):
        # at '<': skip balanced
        d=0
        while True:
            t=s.nx()
            if t[1]=='<': d+=1
            elif t[1]=='>': d-=1
            if d==0: return
    def gen_text(s):
        a=s.pk()[2]; s.generics(); return s.src[a:s.t[s.i][2]].strip()
    def path(s):
        segs=[]; gens=[]
        while True:
            if s.at('<') and not segs:
                s.generics()
            else: segs.append(s.nx()[1])
            if s.at('::'):
                s.nx()
                if s.at('<'):
                    gens.append(s.gen_text())
                    if s.at('::'): s.nx(); continue
                    break
                continue
            break
        return segs,gens
    def args(s,close):
        l=[]
        while not s.at(close):
            l.append(s.expr())
            if not s.opt(','): break
        s.ex(close); return l
    def json(s):
        t=s.pk()
        if t[0]=='str': s.nx(); return ('str',t[1])
        if t[0]=='num': s.nx(); return ('num',t[1])
        if s.opt('-'): t=s.nx(); return ('num','-'+t[1])
        if s.opt('{'):
            l=[]
            while not s.at('}'):
                k=s.nx()[1]; s.ex(':'); l.append((k,s.json()))
                if not s.opt(','): break
            s.ex('}'); return ('jobj',l)
        if s.opt('['):
            l=[]
            while not s.at(']'):
                l.append(s.json())
                if not s.opt(','): break
            s.ex(']'); return ('jarr',l)
        if t[1] in('true','false','null'): s.nx(); return ('jlit',t[1])
        if t[0]=='id': s.nx(); return ('path',[t[1]])
        raise Exception('json %r'%(t,))
    def block(s):
        # after '{': statements and final expression
        st=[]
        while not s.at('}'):
            if s.at('let'):
                s.nx(); s.opt('mut')
                pat=s.pattern()
                if s.opt(':'): s.type_until('=')
                s.ex('='); e=s.expr(); s.ex(';'); st.append(('let',pat,e))
            elif s.at('const'):
                s.nx(); n=s.nx()[1]; s.ex(':'); s.type_until('='); s.ex('='); e=s.expr(); s.ex(';'); st.append(('let',n,e))
            elif s.at('use'):
                while not s.opt(';'): s.nx()
            elif s.at('#'):
                s.nx(); s.ex('['); d=1
                while d:
                    t=s.nx()
                    if t[0]=='p' and t[1]=='[': d+=1
                    if t[0]=='p' and t[1]==']': d-=1
            elif s.at('struct') or s.at('enum') or s.at('impl') or s.at('fn'):
                while not (s.at(';') or s.at('{')): s.nx()
                if s.opt(';'): continue
                s.nx(); d=1
                while d:
                    t=s.nx()
                    if t[0]=='p' and t[1]=='{': d+=1
                    if t[0]=='p' and t[1]=='}': d-=1
            else:
                e=s.expr()
                if s.opt(';'): st.append(('do',e))
                else: st.append(('ret',e))
        s.ex('}'); return ('block',st)
    def pattern(s):
        if s.opt('('):
            l=[]
            while not s.at(')'):
                l.append(s.pattern())
                if not s.opt(','): break
            s.ex(')'); return tuple(l)
        return s.nx()[1]
    def type_until(s,stop):
        d=0
        while True:
            t=s.pk()
            if d==0 and t[1]==stop: return
            if t[1] in('<','(','['): d+=1
            if t[1] in('>',')',']'): d-=1
            s.nx()
    def expr(s):
        return s.postfix(s.primary())
    def primary(s):
        t=s.pk()
        if t[0]=='str': s.nx(); return ('str',t[1])
        if t[0]=='num': s.nx(); return ('num',t[1])
        if s.opt('-'): x=s.nx(); return ('num','-'+x[1])
        if s.opt('*'): return s.expr()
        if s.opt('&'): s.opt('mut'); return s.expr()
        if s.opt('||'): return ('closure',[],s.expr())
        if s.opt('|'):
            ps=[]
            while not s.at('|'):
                ps.append(s.pattern()); s.opt(',')
            s.ex('|'); return ('closure',ps,s.expr())
        if s.opt('('):
            l=s.args(')')
            if len(l)==1 and s.t[s.i-2][1]!=',': return l[0]
            return ('tuple',l)
        if s.opt('['): return ('arr',s.args(']'))
        if s.opt('{'): return s.block()
        if t[0]=='id' or s.at('<'):
            segs,gens=s.path()
            if s.at('!'):
                s.nx(); name=segs[-1]
                if name=='json':
                    o=s.nx()[1]
                    e=s.json(); s.nx(); return ('json',e)
                if name=='datetime':
                    s.ex('('); a=s.pk()[2]
                    while not s.at(')'): s.nx()
                    b=s.pk()[2]; s.nx(); return ('datetime',s.src[a:b])
                o=s.nx()[1]; l=s.args({'(':')','[':']','{':'}'}[o])
                if name=='vec': return ('arr',l)
                return ('macro',name,l)
            if s.at('{') and segs[-1][0].isupper() and not (segs[-1].isupper() and len(segs[-1])>1):
                s.nx(); f=[]; base=None
                while not s.at('}'):
                    if s.opt('..'): base=s.expr(); break
                    k=s.nx()[1]
                    if s.opt(':'): f.append((k,s.expr()))
                    else: f.append((k,('path',[k],[])))
                    if not s.opt(','): break
                s.ex('}'); return ('struct',segs,f,base)
            if s.at('('):
                s.nx(); return ('call',segs,gens,s.args(')'))
            return ('path',segs,gens)
        raise Exception('primary %r in %s'%(t,s.src[t[2]-40:t[2]+40]))
    def postfix(s,e):
        while True:
            if s.at('.'):
                s.nx(); n=s.nx()[1]
                if s.at('::'):
                    s.nx(); s.generics()
                if s.opt('('): e=('m',e,n,s.args(')'))
                else: e=('field',e,n)
            elif s.opt('?'): pass
            else: return e
def tests(path):
    src=open(path).read()
    k=src.index('#[cfg(test)]\nmod test')
    out=[]
    for m in re.finditer(r'#\[test\]\n\s*(?:pub )?fn (\w+)\(\) \{',src[k:]):
        a=k+m.end()-1
        line=src.count('\n',0,k+m.start(1))+1
        # matching brace
        d=0;i=a
        toks=lex(src[a:])
        for t in toks:
            if t[0]=='p' and t[1]=='{': d+=1
            if t[0]=='p' and t[1]=='}':
                d-=1
                if d==0: end=a+t[2]+1; break
        out.append((m.group(1),line,src.count('\n',0,end)+1,src[a:end]))
    return out
if __name__=='__main__':
    for f in ['builder.rs','builder/affordance.rs','builder/data_schema.rs','thing.rs','hlist.rs','protocol/coap.rs','protocol/http.rs','protocol/mqtt.rs']:
        for (n,l,e,b) in tests('/repo/src/'+f):
            try:
                p=P(b); p.ex('{'); p.block()
            except Exception as ex: print(f,n,l,str(ex)[:200].replace('\n',' '))
