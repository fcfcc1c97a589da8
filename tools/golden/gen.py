#!/usr/bin/env python3
"""Convert an OpenAPI document to a Gallina term and compute the generated client in the model."""
import json,sys,re,subprocess,os
def s(x):
    if x == '': return '(@nil N)'
    if all(32<=ord(c)<127 and c!='"' for c in x): return f'(lit "{x}")'
    return '['+'; '.join(str(ord(c)) for c in x)+']%N'
def opt(x,f,ty=None): return 'None' if x is None else f'(Some {f(x)})'
def lst(l): return '['+'; '.join(l)+']'
def b(x): return 'true' if x else 'false'
class Doc:
    def __init__(self,doc):
        self.doc=doc; self.ids={}; self.schemas=[]
        self.schema_id({})  # 0
    def key(self,sch):
        return json.dumps(sch,sort_keys=True)
    def schema_id(self,sch):
        k=self.key({x:y for x,y in sch.items() if x not in('description','example')} if '$ref' not in sch else sch)
        if k not in self.ids:
            self.ids[k]=len(self.schemas); self.schemas.append(sch)
        return self.ids[k]
    def resolve(self,sch):
        while '$ref' in sch:
            sch=self.doc['components']['schemas'][sch['$ref'].split('/')[-1]]
        return sch
    def strip(self,sch):
        # allOf with one reference and metadata
        if 'allOf' in sch and len(sch['allOf'])==1 and set(sch)<= {'allOf','description','title','default','nullable'}:
            return sch['allOf'][0]
        return sch
    def details(self,i):
        sch=self.schemas[i]
        if sch.get('nullable') and '$ref' not in sch:
            inner={k:v for k,v in sch.items() if k!='nullable'}
            return f'TdOption {self.schema_id(self.strip(inner))}'
        sch=self.resolve(sch)
        t=sch.get('type')
        if t=='string' and not ({'enum','format','pattern','minLength','maxLength'} & set(sch)): return 'TdString'
        if t=='array': return f'TdVec {self.schema_id(sch["items"])}'
        if t=='object' and sch.get('properties'):
            ps=[]
            for n,p in sch['properties'].items():
                if n not in('items','next_page'): continue
                if n not in sch.get('required',[]) and not p.get('nullable'): p=dict(p); p['nullable']=True
                ps.append(f'({s(n)}, {self.schema_id(self.strip(p) if not p.get("nullable") else p)}%N)')
            return f'TdStruct {lst(ps)}'
        return 'TdOther'
    def named(self,i):
        sch=self.schemas[i]
        if '$ref' in sch: return False
        sch=self.strip(sch)
        if '$ref' in sch: return False
        if 'title' in sch: return False
        if sch.get('type')=='object' and sch.get('properties'): return True
        if 'enum' in sch: return True
        if {'pattern','minLength','maxLength'} & set(sch): return True
        return False
    def builder(self,i):
        sch=self.schemas[i]
        if '$ref' not in sch and sch.get('nullable'): return False
        sch=self.resolve(self.strip(sch))
        if sch.get('nullable') : return False
        return sch.get('type')=='object' and 'properties' in sch or (sch.get('type')=='object' and sch.get('additionalProperties') is False)
    def from_str(self,sch):
        if '$ref' in sch: return self.from_str(self.resolve(sch))
        sch=self.strip(sch)
        if '$ref' in sch: return self.from_str(self.resolve(sch))
        if sch.get('nullable'): return False
        t=sch.get('type')
        if t in('integer','number') and 'enum' in sch: return False
        if t in('string','boolean','integer','number'): return True
        for k in ('oneOf','anyOf'):
            if k in sch:
                vs=sch[k]
                if all(set(v)<={'title','description','allOf'} or v.get('type')=='string' for v in vs) : return all(self.from_str(v) for v in vs)
                if all(v.get('type')=='string' and 'enum' in v for v in vs): return True
        return False
    def cli_details(self,i):
        sch=self.schemas[i]
        if sch.get('nullable') and '$ref' not in sch:
            inner={k:v for k,v in sch.items() if k!='nullable'}
            return f'CdOption {self.schema_id(self.strip(inner))}'
        sch=self.resolve(self.strip(self.resolve(sch)))
        t=sch.get('type')
        if 'enum' in sch and t=='string': return 'CdEnum '+lst([f'({s(v)}, true)' for v in sch['enum'] if v is not None])
        for k in ('oneOf','anyOf'):
            if k in sch:
                vs=sch[k]
                if all(v.get('type')=='string' and 'enum' in v for v in vs): return 'CdEnum '+lst([f'({s(v)}, true)' for w in vs for v in w['enum']])
                return 'CdEnum [([], false)]'
        if t=='object' and sch.get('properties'):
            ps=[]
            for n in sorted(set(sch['properties'])|set(sch.get('required',[]))):
                p=sch['properties'].get(n,{})
                req=n in sch.get('required',[])
                d=p.get('description')
                ps.append(f'PropInfo {s(n)} {opt(d,s)} {b(req)} {self.schema_id(self.strip(p))}')
            return f'CdStruct {lst(ps)}'
        return 'CdOther'
    def ref_schema(self,sch):
        if '$ref' not in sch and sch.get('type')=='string' and set(sch)<= {'type','format'} and sch.get('format') in(None,'binary'):
            fmt={'binary':'VItem SfBinary',None:'VEmpty'}[sch.get('format')]
            return f'(Item (Schema (SchemaData false false false false None None None false None []) (SkString (StringType ({fmt}) None [] None None))))'
        st=self.strip(sch)
        return f'(Ref (lit "#/{self.schema_id(st)}"))'
    def json(self,j):
        if j is None: return 'JNull'
        if isinstance(j,bool): return f'(JBool {b(j)})'
        if isinstance(j,str): return f'(JStr {s(j)})'
        if isinstance(j,list): return f'(JArr {lst([self.json(x) for x in j])})'
        if isinstance(j,dict): return '(JObj '+lst([f'({s(k)}, {self.json(v)})' for k,v in j.items()])+')'
        return f'(JNum ({int(j)} # 1))'
    def ref_or(self,f,x):
        if '$ref' in x: return f'(Ref {s(x["$ref"])})'
        return f'(Item {f(x)})'
    def pdata(self,p):
        return f'(ParamData {s(p["name"])} {opt(p.get("description"),s)} {b(p.get("required",False))} {opt(p.get("schema"),self.ref_schema)} {opt(p.get("explode"),b)})'
    def param(self,p):
        d=self.pdata(p); i=p['in']
        if i=='query': return f'(ParQuery {d} '+{'form':'QsForm'}[p.get('style','form')]+')'
        if i=='header': return f'(ParHeader {d})'
        if i=='path': return f'(ParPath {d} '+{'simple':'PsSimple'}[p.get('style','simple')]+')'
        return f'(ParCookie {d})'
    def media(self,m): return f'(MediaType {opt(m.get("schema"),self.ref_schema)} {b(not m.get("encoding"))})'
    def content(self,c): return lst([f'({s(k)}, {self.media(v)})' for k,v in (c or {}).items()])
    def response(self,r): return f'(ResponseDoc {self.content(r.get("content"))})'
    def body(self,r): return f'(RequestBody {opt(r.get("description"),s)} {self.content(r["content"])})'
    def op(self,o):
        rs=o['responses']; d=rs.get('default')
        codes=[]
        for k,v in rs.items():
            if k=='default' : continue
            sc=f'ScCode {k}%N' if k.isdigit() else f'ScRange {k[0]}%N'
            codes.append(f'({sc}, {self.ref_or(self.response,v)})')
        ext=[f'({s(k)}, {self.json(v)})' for k,v in o.items() if k.startswith('x-')]
        return (f'(Operation {opt(o.get("operationId"),s)} {lst([s(t) for t in o.get("tags",[])])} {opt(o.get("summary"),s)} '
          f'{opt(o.get("description"),s)} {lst([self.ref_or(self.param,p) for p in o.get("parameters",[])])} '
          f'{opt(o.get("requestBody"),lambda x:self.ref_or(self.body,x))} {opt(d,lambda x:self.ref_or(self.response,x))} {lst(codes)} {lst(ext)})')
    def item(self,i):
        return '(PathItem '+' '.join(opt(i.get(v),self.op) for v in 'get put post delete options head patch trace'.split())+' '+lst([self.ref_or(self.param,p) for p in i.get('parameters',[])])+')'
    def gallina(self):
        d=self.doc; info=d['info']; c=d.get('components')
        comps='None'
        if c is not None:
            f=lambda k,g: lst([f'({s(n)}, {self.ref_or(g,v)})' for n,v in c.get(k,{}).items()])
            comps=f'(Some (Components {f("parameters",self.param)} {f("requestBodies",self.body)} {f("responses",self.response)} []))'
        tags=[f'(TagDoc {s(t["name"])} {opt(t.get("description"),s)})' for t in d.get('tags',[])]
        paths=';\n'.join(f'({s(p)}, {self.ref_or(self.item,i)})' for p,i in d['paths'].items() if not p.startswith('x-'))
        t=f'(OpenApi {s(d["openapi"])} {s(info["title"])} {opt(info.get("description"),s)} {opt(info.get("termsOfService"),s)} {s(info["version"])} [{paths}] {comps} {lst(tags)})'
        i=0
        while i<len(self.schemas): self.details(i); self.cli_details(i); i+=1
        det=[];i=0
        while i<len(self.schemas):
            det.append(f'({i}, ({self.details(i)}, {b(self.named(i))}, {b(self.builder(i))}))'); i+=1
        cli=[];i=0
        while i<len(self.schemas):
            cli.append(f'({i}, CliType [1114110; {i}] {b(self.from_str(self.schemas[i]))} ({self.cli_details(i)}))'); i+=1
        return t,'[\n'+';\n'.join(det)+']','[\n'+';\n'.join(cli)+']'
HEAD='''From Coq Require Import QArith.
From Verif Require Import Base OasModel TemplateModel MethodModel OpModel RunModel BuilderModel StreamModel
  SanitizeModel UnicodeProofs GenerateModel MockModel CliModel.
Local Open Scope N_scope.
Import ListNotations.
'''
TAIL='''
Definition look (i : N) := find (fun kv => fst kv =? i) table.
Definition code (n : str) : N := fold_left (fun a c => a * 2097152 + c) n 1.
Fixpoint digits (a : N) (x : str) : N := match x with [] => a | c :: r => digits (a * 10 + (c - 48)) r end.
Definition add (x : ref_or schema) (n : str) : outcome N :=
  match x with
  | Ref (_ :: _ :: r) => let i := digits 0 r in
      match look i with
      | Some (_, (_, named, _)) => Ok (if named : bool then i + 100000 * code n else i)
      | None => Panic [] end
  | Ref _ => Panic []
  | Item _ => Ok STRID
  end.
Definition tspace := TypeSpace add (fun i => option_map (fun kv => fst (fst (snd kv))) (look (i mod 100000))).
Definition types (i : N) : option type_info := option_map (fun kv => TypeInfo [1114111] (snd (snd kv))) (look (i mod 100000)).
Definition gen i t := generate_tokens unicode15 (fun _ => Ok tspace) types (Settings i t false (Hooks false false false false)) doc.
Definition cli_types (i : N) : option cli_type := option_map snd (find (fun kv => fst kv =? i mod 100000) cli_table).
Set Printing Width 2000. Set Printing Depth 100000000.
'''
def main(path,out):
    stem=os.path.basename(path).split('.')[0].replace('-','_')
    d=Doc(json.load(open(path)))
    sid=d.schema_id({'type':'string'})
    t,det,cli=d.gallina()
    with open(out,'w') as f:
        f.write(HEAD); f.write('Definition doc : openapi := '+t+'.\n')
        f.write('Definition table : list (N * (type_details * bool * bool)) := '+det+'.\n')
        f.write('Definition cli_table : list (N * cli_type) := '+cli+'.\n')
        f.write(TAIL.replace('STRID',str(sid)))
        for n,a in () if os.environ.get('ONLY') else (('positional','Positional Merged'),('builder','Builder Merged'),('builder_tagged','Builder Separate')):
            f.write(f'Redirect "{n}" Eval vm_compute in (gen {a}).\n')
        f.write('Redirect "httpmock" Eval vm_compute in (httpmock unicode15 (fun _ => Ok tspace) types (fun _ => true) doc (lit "crate::STEM_builder")).\n'.replace('STEM',stem))
        f.write('Redirect "cli" Eval vm_compute in (cli unicode15 cli_types (fun _ => true) (fun _ => Ok tspace) doc (lit "crate::STEM_builder")).\n'.replace('STEM',stem))
    json.dump(d.schemas,open(out+'.schemas','w'))
main(sys.argv[1],sys.argv[2])
