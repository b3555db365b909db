import re,os,sys
ROOT='/repo'
def find(path):
    for base in ('/repo','/repo/third_party/proto'):
        p=os.path.join(base,path)
        if os.path.exists(p): return p
    return None
def strip(s):
    s=re.sub(r'"(\\.|[^"\\])*"',lambda m:m.group(0).replace('//','\x00'),s)
    s=re.sub(r'/\*.*?\*/','',s,flags=re.S)
    s=re.sub(r'//[^\n]*','',s)
    return s.replace('\x00','//')
tok=re.compile(r'"(?:\\.|[^"\\])*"|\'(?:\\.|[^\'\\])*\'|[A-Za-z_][\w.]*|\.[A-Za-z_][\w.]*|-?\d[\w.]*|[{}\[\]();=<>,:\-]')
SC={'double':'DoubleKind','float':'FloatKind','int32':'Int32Kind','int64':'Int64Kind','uint32':'Uint32Kind','uint64':'Uint64Kind','sint32':'Sint32Kind','sint64':'Sint64Kind','fixed32':'Fixed32Kind','fixed64':'Fixed64Kind','sfixed32':'Sfixed32Kind','sfixed64':'Sfixed64Kind','bool':'BoolKind','string':'StringKind','bytes':'BytesKind'}
class P:
    def __init__(s,path):
        s.path=path; fn=find(path); assert fn,path
        s.fn=fn; s.t=tok.findall(strip(open(fn).read())); s.i=0
        s.package=''; s.imports=[]; s.msgs=[]; s.enums=set(); s.services=[]
        s.parse()
    def skip_stmt(s):
        d=0
        while True:
            x=s.t[s.i]; s.i+=1
            if x=='{': d+=1
            elif x=='}':
                d-=1
                if d==0 and s.t[s.i]!=';': return
            elif x==';' and d==0: return
    def skip_block(s):
        while s.t[s.i]!='{': s.i+=1
        d=0
        while True:
            x=s.t[s.i]; s.i+=1
            if x=='{': d+=1
            if x=='}':
                d-=1
                if d==0: return
    def parse(s):
        while s.i<len(s.t):
            x=s.t[s.i]
            if x=='syntax': s.skip_stmt()
            elif x=='package': s.package=s.t[s.i+1]; s.skip_stmt()
            elif x=='import':
                j=s.i+1
                if s.t[j] in('public','weak'): j+=1
                s.imports.append(s.t[j].strip('"\'')); s.skip_stmt()
            elif x=='option': s.skip_stmt()
            elif x=='message': s.msgs.append(s.message(s.package))
            elif x=='enum': s.enums.add(s.package+'.'+s.t[s.i+1]); s.skip_block()
            elif x in('service',): s.services.append(s.t[s.i+1]); s.skip_block()
            elif x=='extend': s.skip_block()
            elif x==';': s.i+=1
            else: raise Exception((s.path,s.t[s.i:s.i+10]))
    def message(s,scope):
        name=s.t[s.i+1]; full=scope+'.'+name; s.i+=3
        m=dict(full=full,short=name,fields=[],nested=[])
        while s.t[s.i]!='}': s.item(m,full)
        s.i+=1
        return m
    def item(s,m,full):
        x=s.t[s.i]
        if x=='message': m['nested'].append(s.message(full)); return
        if x=='enum': s.enums.add(full+'.'+s.t[s.i+1]); s.skip_block(); return
        if x in('option','reserved','extensions'): s.skip_stmt(); return
        if x=='extend': s.skip_block(); return
        if x==';': s.i+=1; return
        if x=='oneof':
            s.i+=3
            while s.t[s.i]!='}': s.item(m,full)
            s.i+=1; return
        rep=False
        if x in('repeated','optional','required'): rep=x=='repeated'; s.i+=1; x=s.t[s.i]
        assert x!='group'
        if x=='map':
            k=s.t[s.i+2]; v=s.t[s.i+4]; name=s.t[s.i+6]; 
            m['fields'].append((name,'map',(k,v),full)); 
        else:
            name=s.t[s.i+1]; m['fields'].append((name,'rep' if rep else 'one',x,full))
        js=None
        j=s.i
        while s.t[j]!=';':
            if s.t[j]=='json_name': js=s.t[j+2].strip('"')
            j+=1
        m['fields'][-1]=m['fields'][-1]+(js,)
        s.skip_stmt()
files={}
def load(path):
    if path in files: return
    p=P(path); files[path]=p
    for i in p.imports: load(i)
def jsonname(n):
    out='';up=False
    for c in n:
        if c=='_': up=True
        else: out+=c.upper() if up else c; up=False
    return out
if __name__=='__main__':
    for r in ['core/runtime/v1alpha1/module.proto','core/abci/v1alpha1/abci.proto','core/rbac/v1alpha1/rbac.proto','x/authn/v1alpha1/authn.proto','x/bank/v1alpha1/bank.proto']: load(r)
    for p in files.values():
        print(p.path,p.package,p.imports,len(p.msgs),p.services)
