import os,sys; sys.path.insert(0,os.path.dirname(os.path.abspath(__file__)))
from protos import *
for r in ['core/runtime/v1alpha1/module.proto','core/abci/v1alpha1/abci.proto','core/rbac/v1alpha1/rbac.proto','x/authn/v1alpha1/authn.proto','x/bank/v1alpha1/bank.proto']: load(r)
allm={}; enums=set()
def walk(m,p,top):
    allm[m['full']]=(m,p,top)
    for n in m['nested']: walk(n,p,False)
for p in files.values():
    enums|=p.enums
    for m in p.msgs: walk(m,p,True)
def resolve(t,scope):
    if t.startswith('.'): return t[1:]
    s=scope
    while True:
        c=(s+'.'+t) if s else t
        if c in allm or c in enums: return c
        if not s: raise Exception((t,scope))
        s=s.rsplit('.',1)[0] if '.' in s else ''
# reachable
def fields(m):
    for f in m['fields']:
        name,card,t,scope,js=f
        assert card!='map',f
        js=js or jsonname(name)
        if t in SC: yield js,card,SC[t],None
        else:
            r=resolve(t,scope)
            yield (js,card,'EnumKind',None) if r in enums else (js,card,'MessageKind',r)
print(len(allm),len(files),sum(1 for m in allm.values() if not m[2]),file=sys.stderr)
def s(x): return '(str "%s")'%x
out=[]
w=out.append
w('''(** The .proto files of the application's state objects and those they import,
    transcribed by a script from /repo (the files of google from
    /repo/third_party/proto): packages, imports, messages and their fields, with the
    messages declared inside of others. *)
From Coq Require Import NArith List Bool String.
From stdpp Require Import base list.
From Verif.Model Require Import Bytes KindEncoder Desc OpenApi.

(** A field with one value, with many, and fields of messages. *)
Definition one (json : bytes) (k : kind) : field :=
  {| fd_json := json; fd_kind := k; fd_repeated := false; fd_map := None; fd_message := [] |}.
Definition many (json : bytes) (k : kind) : field :=
  {| fd_json := json; fd_kind := k; fd_repeated := true; fd_map := None; fd_message := [] |}.
Definition one_of (json name : bytes) : field :=
  {| fd_json := json; fd_kind := MessageKind; fd_repeated := false; fd_map := None; fd_message := name |}.
Definition many_of (json name : bytes) : field :=
  {| fd_json := json; fd_kind := MessageKind; fd_repeated := true; fd_map := None; fd_message := name |}.
Definition file (path package : bytes) (imports messages : list bytes) : filedesc :=
  {| fl_path := path; fl_package := package; fl_imports := imports; fl_messages := messages; fl_go_package := true |}.
Definition declared (f : filedesc) (name short : bytes) (fields : list field) : message :=
  {| me_desc := {| md_name := name; md_fields := fields |}; me_short := short; me_file := f |}.
''')
names={}
order=[]
def topo(path):
    if path in names: return
    names[path]=None
    for i in files[path].imports: topo(i)
    names[path]='file_%d'%len(order); order.append(path)
for p in files: topo(p)
def wrap(items,ind):
    return ('; ').join(items) if sum(map(len,items))<90 else (';\n'+' '*ind).join(items)
for path in order:
    p=files[path]
    rel=p.fn
    n=sum(1 for _ in open(rel))
    w('(** %s:1-%d. *)'%(rel[len('/repo/'):],n))
    w('Definition %s : filedesc :=\n  file %s %s\n    [%s]\n    [%s].'%(names[path],s(path),s(p.package),wrap([s(i)[1:-1] for i in p.imports],5),wrap([s(m['full'])[1:-1] for m in p.msgs],5)))
    ms=[]
    def em(m):
        fs=[]
        for js,card,k,ref in fields(m):
            if k=='MessageKind': fs.append('%s %s %s'%('many_of' if card=='rep' else 'one_of',s(js),s(ref)))
            else: fs.append('%s %s %s'%('many' if card=='rep' else 'one',s(js),k))
        ms.append('declared %s %s %s\n     [%s]'%(names[path],s(m['full']),s(m['short']),wrap(fs,6)))
        for x in m['nested']: em(x)
    for m in p.msgs: em(m)
    w('Definition %s_messages : list message :=\n  [%s].\n'%(names[path],(';\n   ').join(ms)))
w('Definition proto_files : list filedesc :=\n  [%s].'%'; '.join(names[p] for p in order))
w('Definition proto_messages : list message :=\n  %s.'%' ++ '.join(names[p]+'_messages' for p in order))
w('''
(** A name without a message, for which descriptors never ask. *)
Definition no_file : filedesc := file [] [] [] [].
Definition no_message : message := declared no_file [] [] [].
(** Resolution of names: the messages of the files and the messages made for lists
    (of which each refers to its own message only). *)
Definition proto_world : world :=
  {| wo_message n :=
       default no_message
         (List.find (fun m => bytes_eqb (me_name m) n)
            (proto_messages ++ map list_message proto_messages));
     wo_file p := default no_file (List.find (fun f => bytes_eqb (fl_path f) p) proto_files) |}.''')
open('/verif/rocq/theories/Model/ProtoFiles.v','w').write('\n'.join(out)+'\n')
