import re,sys
W={'VsRegister':32,'uint8_t':8,'char':8,'bool':8,'uint16_t':16,'uint32_t':32,'uint64_t':64,'int8_t':8,'LunAddress':64,'int':32}
def parse(path):
    s=open(path).read()
    s=re.sub(r'//[^\n]*','',s); s=re.sub(r'/\*.*?\*/','',s,flags=re.S)
    s=re.sub(r'^\s*#.*$','',s,flags=re.M)
    for m in re.finditer(r'enum class (\w+)\s*:\s*(\w+)',s): W[m.group(1)]=W[m.group(2)]
    consts={m.group(1):int(m.group(2),0) for m in re.finditer(r'constexpr \w+ (\w+) = (\w+);',s) if re.match(r'^(0x)?[0-9a-fA-F]+$',m.group(2))}
    structs={}
    def body(i):
        d=1;j=i
        while d:
            if s[j]=='{':d+=1
            if s[j]=='}':d-=1
            j+=1
        return s[i:j-1],j
    def lay(b,union=False):
        out=[];off=0;i=0;mx=0
        while i<len(b):
            m=re.compile(r'\s*(struct|union)\s*(\w*)\s*(?:ABSL_ATTRIBUTE_PACKED\s*)?\{').match(b,i)
            if m:
                d=1;j=m.end()
                while d:
                    d+= (b[j]=='{')-(b[j]=='}'); j+=1
                sub,sz=lay(b[m.end():j-1],m.group(1)=='union')
                mm=re.compile(r'\s*(?:ABSL_ATTRIBUTE_PACKED)?\s*(\w*)\s*(?:\[(\w+)\])?\s*(?:ABSL_ATTRIBUTE_PACKED)?\s*;').match(b,j)
                if not mm: print('XX',b[j:j+80]); raise SystemExit
                nm=mm.group(1)
                off=(off+7)//8*8
                for n,o,w in sub: out.append(((nm+'.'+n) if nm else n,(0 if union else off)+o,w))
                if union: mx=max(mx,sz)
                else: off+=sz*(int(mm.group(2),0) if mm.group(2) else 1)
                i=mm.end(); continue
            m=re.compile(r'\s*([^;]+);').match(b,i)
            if not m: break
            i=m.end(); d=m.group(1).strip()
            if d.startswith('static_assert'): continue
            d=re.sub(r'\s*=\s*[^;]*$','',d)
            m=re.match(r'(?:struct |union )?([\w:]+)\s+(\w+)\s*(?:\[(\w+)\])?\s*(?::\s*(\d+))?$',d)
            if not m: print('??',d); continue
            t,n,arr,bf=m.groups()
            t=t.split('::')[-1]
            if bf:
                w=int(bf); out.append((n,0 if union else off,w))
                if union: mx=max(mx,w)
                else: off+=w
            else:
                off=(off+7)//8*8
                k=1
                if arr: k=int(arr,0) if arr[0].isdigit() else consts.get(arr,1024)
                if t in W:
                    out.append((n,0 if union else off,W[t]*k)); sz=W[t]*k
                    if arr:
                        for q in range(min(k,64)): out.append(('%s[%d]'%(n,q),(0 if union else off)+q*W[t],W[t]))
                else:
                    sub,z=structs[t]; sz=z*k
                    out.append((n,0 if union else off,sz))
                    for nn,o,w in sub: out.append((n+'.'+nn,(0 if union else off)+o,w))
                if union: mx=max(mx,sz)
                else: off+=sz
        return out,(mx if union else off)
    for m in re.finditer(r'^struct (\w+)\s*\{',s,flags=re.M):
        b,j=body(m.end())
        structs[m.group(1)]=lay(b)
        structs[m.group(1)]=(structs[m.group(1)][0],(structs[m.group(1)][1]+7)//8*8)
    return structs
if __name__=='__main__':
    sc=parse('/repo/lib/scsi.h'); nv=parse('/repo/third_party/spdk/nvme.h')
    import subprocess
    for f,st in (('ScsiDefs',sc),('NvmeDefs',nv)):
        t=open('/verif/rocq/theories/%s.v'%f).read()
        names=re.findall(r'^Definition (\w+) : layout',t,re.M)
        v='From Coq Require Import NArith List String.\nFrom Verif Require Import Bytes Layout %s.\nImport ListNotations. Local Open Scope N_scope.\nFixpoint offs (o:N) (l:layout) := match l with [] => [] | (n,w)::l'"'"' => (n,o,w) :: offs (o+w) l'"'"' end.\nSet Printing Width 100000.\nLocal Open Scope string_scope.\n'%f
        for n in names: v+='Eval vm_compute in ("%s", offs 0 %s).\n'%(n,n)
        open('t.v','w').write(v)
        o=subprocess.run('coqc -Q /verif/rocq/theories Verif t.v',shell=True,capture_output=True,text=True)
        if o.returncode: print(o.stderr); sys.exit()
        alias={'GenericCmd':'GenericQueueEntryCmd','GenericCpl':'GenericQueueEntryCpl'}
        for blk in o.stdout.split('     = ')[1:]:
            nm=re.match(r'\("(\w+)"',blk).group(1); fl=[(a,int(b),int(c)) for a,b,c in re.findall(r'\("([^"]+)", (\d+), (\d+)\)',blk)]
            cn=alias.get(nm,nm)
            if cn not in st: print('no C struct',nm); continue
            C,sz=st[cn]; cd={}
            for a,b,c in C: cd.setdefault(a,(b,c))
            msz=max(b+c for a,b,c in fl) if fl else 0
            if msz!=sz: print(nm,'SIZE model',msz,'C',sz)
            for a,b,c in fl:
                al=a
                cands=[a,'control_byte.'+a,'control_byte.'+a.replace('cb_',''),'dptr.prp.'+a]
                hit=[x for x in cands if x in cd]
                if not hit: print(nm,'field not in C:',a,b,c); continue
                if cd[hit[0]]!=(b,c): print(nm,'MISMATCH',a,(b,c),cd[hit[0]])
