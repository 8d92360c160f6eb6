"""Transcribes the names of fields and variants in /repo/ssbh_lib/src into Coq.

Run: python3 tools/schema.py > rocq/theories/JsonSchema.v
"""
import re,glob,os
base='/repo/ssbh_lib/src/'
files=['vectors.rs']+['formats/%s.rs'%x for x in 'modl nlst hlpb skel shdr nufx mesh anim matl nrpd meshex adj'.split()]
def strip(s):
    s=re.sub(r'/\*.*?\*/',lambda m:'\n'*m.group(0).count('\n'),s,flags=re.S)
    return re.sub(r'//[^\n]*','',s)
defs={}   # (file,name)->dict
order=[]
def match(s,i,o,c):
    d=0
    while True:
        if s[i]==o:d+=1
        elif s[i]==c:
            d-=1
            if d==0:return i
        i+=1
def take_attrs(s,i):
    attrs=[]
    while True:
        m=re.compile(r'\s*').match(s,i); i=m.end()
        if s.startswith('#[',i):
            j=match(s,i+1,'[',']'); attrs.append(s[i:j+1]); i=j+1
        else: return attrs,i
def split_top(s):
    out=[];d=0;cur=''
    for ch in s:
        if ch in '<([{':d+=1
        if ch in '>)]}':d-=1
        if ch==',' and d==0: out.append(cur);cur=''
        else:cur+=ch
    if cur.strip():out.append(cur)
    return [x for x in out if x.strip()]
def fields(body):
    i=0;out=[]
    body=body.replace('->','  ')
    while True:
        a,i=take_attrs(body,i)
        m=re.compile(r'\s*(?:pub(?:\([^)]*\))?\s+)?(\w+)\s*:\s*').match(body,i)
        if not m: break
        j=m.end();d=0
        while j<len(body) and not(body[j]==',' and d==0):
            if body[j] in '<([':d+=1
            if body[j] in '>)]':d-=1
            j+=1
        ty=' '.join(body[m.end():j].split())
        if not any('temp' in x for x in a): out.append((m.group(1),ty))
        i=j+1
    return out
for f in files:
    src=strip(open(base+f).read())
    src=src.split('#[cfg(test)]')[0]
    short=os.path.basename(f)[:-3]
    for m in re.finditer(r'pub (struct|enum) (\w+)|ssbh_enum!\(',src):
        line=src[:m.start()].count('\n')+1
        # preceding attrs
        pre=src[:m.start()]
        k=max(pre.rfind('}'),pre.rfind(';'))
        attrs=pre[k+1:]
        if m.group(1)=='struct':
            name=m.group(2);i=m.end();gens=[]
            if src[i]=='<':
                j=i;d=0
                while True:
                    if src[j]=='<':d+=1
                    if src[j]=='>' and src[j-1] not in '-=':d-=1
                    if d==0:break
                    j+=1
                for g in split_top(src[i+1:j].replace('->','')):
                    gens.append(g.split(':')[0].strip())
                i=j+1
            rest=src[i:].lstrip()
            i=i+len(src[i:])-len(rest)
            if 'bitfield(bits' in attrs:
                bits=int(re.search(r'bits\s*=\s*(\d+)',attrs).group(1)); j=match(src,i,'{','}')
                d=dict(kind='bits',w=bits//8)
            elif src[i]=='{':
                j=match(src,i,'{','}'); d=dict(kind='struct',fields=fields(src[i+1:j]),gens=gens)
            else:
                j=match(src,i,'(',')'); body=src[i+1:j]; a,q=take_attrs(body,0)
                d=dict(kind='wrap',ty=' '.join(body[q:].replace('pub','').split()).rstrip(','),gens=gens)
        elif m.group(1)=='enum':
            name=m.group(2); i=src.index('{',m.end()); j=match(src,i,'{','}'); body=src[i+1:j]
            if re.search(r'\w+\s*=\s*',re.sub(r'#\[[^\n]*\]','',body)) and 'pre_assert' not in body:
                tags=[]
                q=0
                while True:
                    a,q=take_attrs(body,q)
                    mm=re.compile(r'(\w+)\s*=\s*(\w+)\s*,?').match(body,q)
                    if not mm:break
                    tags.append((mm.group(1),int(mm.group(2).replace('u64',''),0))); q=mm.end()
                d=dict(kind='unit',tags=tags)
            else:
                vs=[];q=0
                while True:
                    a,q=take_attrs(body,q)
                    mm=re.compile(r'(\w+)\s*').match(body,q)
                    if not mm:break
                    q=mm.end()
                    ver=re.search(r'major_version == (\d+) &&\s+minor_version == (\d+)',' '.join(a))
                    ver=(int(ver.group(1)),int(ver.group(2))) if ver else None
                    if body[q]=='{':
                        e=match(body,q,'{','}'); vs.append((mm.group(1),ver,('struct',fields(body[q+1:e]))))
                    else:
                        e=match(body,q,'(',')'); vs.append((mm.group(1),ver,('wrap',' '.join(body[q+1:e].split()))))
                    q=e+1
                    mm=re.compile(r'\s*,').match(body,q)
                    if mm:q=mm.end()
                d=dict(kind='versions',vs=vs)
        else:
            i=m.end()-1; j=match(src,i,'(',')'); body=src[i+1:j]
            body=re.sub(r'#\[[^\n]*\]','',body)
            name=re.match(r'\s*(\w+)',body).group(1)
            vs=[(int(t.replace('u64',''),0),v,b) for t,v,b in re.findall(r'(\w+)\s*=>\s*(\w+)\(((?:[^()]|\(\))*)\)',body)]
            d=dict(kind='case',vs=vs,gens=[])
        d['lines']=(line,src[:j].count('\n')+1); d['file']=f
        defs[(short,name)]=d; order.append((short,name))
def ref(short,t,gens):
    t=t.strip()
    if t in gens:return t
    prim={'u8':'(SInt 1 false)','u16':'(SInt 2 false)','i16':'(SInt 2 true)','u32':'(SInt 4 false)','i32':'(SInt 4 true)','u64':'(SInt 8 false)','f32':'SF32','()':'SUnit','SsbhString':'s_string','SsbhString8':'s_string','SsbhByteBuffer':'SBuf'}
    if t in prim:return prim[t]
    m=re.match(r'\[(\w+)\s*;\s*(\d+)\]$',t)
    if m:return '(SFix %s %s)'%(m.group(2),ref(short,m.group(1),gens))
    m=re.match(r'(\w+)<(.*)>$',t)
    if m:
        h,a=m.group(1),m.group(2)
        if h=='CString': return 'SCStr'
        if h in('SsbhArray','Vec'):return '(SArr %s)'%ref(short,a,gens)
        if h=='RelPtr64':return '(SRel %s)'%ref(short,a,gens)
        if h in('Ptr64',):return '(SAbs %s)'%ref(short,a,gens)
        if h=='SsbhEnum64':return '(SCase %s)'%ref(short,a,gens)
        args=' '.join(ref(short,x,gens) for x in split_top(a))
        return '(%s %s)'%(cname(short,h),args)
    t=t.split('::')[-1]
    return cname(short,t)
used=set()
def find(short,t):
    if (short,t) in defs:return (short,t)
    c=[k for k in defs if k[1]==t]
    assert len(c)==1,(short,t,c)
    return c[0]
def cname(short,t):
    k=find(short,t); emit(k)
    return 's_%s_%s'%k
done={};out=[]
def emit(k):
    if k in done:return
    done[k]=1
    d=defs[k]; nm='s_%s_%s'%k; short=k[0]
    gens=d.get('gens',[])
    g=' '.join(gens); g=' (%s : schema)'%g if g else ''
    cit='(** %s:%d-%d *)\n'%(d['file'],d['lines'][0],d['lines'][1])
    if d['kind']=='struct':
        fs='; '.join('("%s", %s)'%(n,ref(short,t,gens)) for n,t in d['fields'])
        txt='Definition %s%s : schema := SStruct [%s].'%(nm,g,fs)
    elif d['kind']=='wrap':
        txt='Definition %s%s : schema := SWrap %s.'%(nm,g,ref(short,d['ty'],gens))
    elif d['kind']=='bits':
        txt='Definition %s : schema := SBits %d.'%(nm,d['w'])
    elif d['kind']=='unit':
        txt='Definition %s : schema := SName [%s].'%(nm,'; '.join('(%d, "%s")'%(v,n) for n,v in d['tags']))
    elif d['kind']=='case':
        txt='Definition %s : list (Z * string * schema) := [%s].'%(nm,'; '.join('(%d, "%s", %s)'%(t,n,ref(short,b,[])) for t,n,b in d['vs']))
    elif d['kind']=='versions':
        vs=[]
        for n,ver,(kk,b) in d['vs']:
            if kk=='struct': x='SStruct [%s]'%'; '.join('("%s", %s)'%(a,ref(short,t,[])) for a,t in b)
            else: x='SWrap %s'%ref(short,b,[])
            vs.append('((%d, %d), ("%s", %s))'%(ver[0],ver[1],n,x))
        txt='Definition %s : list ((Z * Z) * (string * schema)) :=\n  [%s].'%(nm,';\n   '.join(vs))
    # wrap
    import textwrap
    lines=[]
    for l in txt.split('\n'):
        lines+=textwrap.wrap(l,110,subsequent_indent='  ',break_long_words=False,break_on_hyphens=False)
    out.append(cit+'\n'.join(lines))
for k in [('hlpb','Hlpb'),('matl','Matl'),('modl','Modl'),('mesh','Mesh'),('skel','Skel'),('anim','Anim'),('nlst','Nlst'),('nrpd','Nrpd'),('nufx','Nufx'),('shdr','Shdr'),('meshex','MeshEx'),('adj','Adj')]:
    emit(k)
print('(** The schemas of the types in ssbh_lib/src/formats and ssbh_lib/src/vectors.rs: the names of\n    fields, variants and versions.  Paths below are relative to /repo/ssbh_lib/src.\n    Transcribed by tools/schema.py; the layout of the same types is in Formats.v and is\n    checked against these schemas (JsonFacts.v). *)\nFrom Verif Require Import Bytes Ssbh Formats Json.\nOpen Scope string_scope.\nOpen Scope Z_scope.\n\n(** strings.rs:9-19: SsbhStringN<N>(RelPtr64<CString<N>>) *)\nDefinition s_string : schema := SWrap (SRel SCStr).\n\n'+'\n'.join(out)+'\n(** The variants of each format enum with their versions (the pre_assert attributes). *)\nDefinition schemas (k : kind) : list ((Z * Z) * (string * schema)) :=\n  match k with\n  | Hlpb => s_hlpb_Hlpb\n  | Matl => s_matl_Matl\n  | Modl => s_modl_Modl\n  | Mesh => s_mesh_Mesh\n  | Skel => s_skel_Skel\n  | Anim => s_anim_Anim\n  | Nlst => s_nlst_Nlst\n  | Nrpd => s_nrpd_Nrpd\n  | Nufx => s_nufx_Nufx\n  | Shdr => s_shdr_Shdr\n  end.\n\n(** The variants of [Ssbh], lib.rs:507-537 *)\nDefinition kind_name (k : kind) : string :=\n  match k with\n  | Hlpb => "Hlpb" | Matl => "Matl" | Modl => "Modl" | Mesh => "Mesh" | Skel => "Skel"\n  | Anim => "Anim" | Nlst => "Nlst" | Nrpd => "Nrpd" | Nufx => "Nufx" | Shdr => "Shdr"\n  end.')
