#!/usr/bin/env python3
"""Generate rocq/theories/Kind_tables.v from the match tables in /repo (writer and reader of ELF and COFF relocations).
Each row cites its source line.  The order of the rows is the order of the match arms."""
import re
R='/repo/src/'
def consts(f):
    d={}
    for m in re.finditer(r'^\s*(?:pub const )?((?:R|EM|IMAGE)_\w+)\s*(?::\s*\w+)?\s*=\s*(0x[0-9a-fA-F_]+|\d+)\s*[,;]',open(R+f).read(),re.M):
        v=int(m.group(2).replace('_',''),0)
        assert d.get(m.group(1),v)==v,m.group(1)
        d[m.group(1)]=v
    for m in re.finditer(r'^\s*(R_\w+) = (R_\w+)\.0,',open(R+f).read(),re.M): d[m.group(1)]=d[m.group(2)]
    return d
elf=consts('elf.rs'); pe=consts('pe.rs')
def K(s): return 'K'+s.strip().split('::')[1]
def E(s): return 'E'+s.strip().split('::')[1]
def pat(s): return 'None' if s.strip()=='_' else '(Some %s)'%E(s)
out=[]
def emit(name,ty,doc,rows):
    out.append('(** %s *)\nDefinition %s : list (%s) :=\n  [%s].\n'%(doc,name,ty,';\n   '.join(rows)))
def archs(s): return ['A'+x for x in re.findall(r'Architecture::(\w+)',s)]
# ELF writer
L=open(R+'write/elf/object.rs').read().split('\n')
a=next(i for i,l in enumerate(L) if 'fn elf_translate_relocation' in l)
b=next(i for i,l in enumerate(L) if 'fn elf_adjust_addend' in l)
rows=[];cur=[]
for i in range(a,b):
    l=L[i]
    if 'Architecture::' in l and '=>' in l and 'self.architecture' not in l: cur=archs(l)
    m=re.match(r'\s*\((K::.*)\) => elf::(\w+),',l)
    if m:
        p=[x.strip() for x in m.group(1).split(',')]
        en='None'
        if len(p)==2: k,s=p; e='_'
        elif len(p)==3: k,e,s=p
        else:
            k,e,s,n=p
            if n!='_': en='(Some %s)'%n.split('::')[1]
        for c in cur: rows.append('(%s, %s, %s, %s, %s, %d) (* %d %s *)'%(c,en,K(k),pat(e),s,elf[m.group(2)],i+1,m.group(2)))
n1=sum(1 for i in range(a,b) if re.search(r'=> elf::',L[i]))
print('elf write rows',len(rows),'arms',n1)
emit('elf_write_rows','arch * option endian * rkind * option renc * Z * Z','src/write/elf/object.rs %d-%d: architecture, byte order, kind, encoding and size of each arm; the result'%(a+1,b),rows)
# e_machine
rows=[]
for i,l in enumerate(L):
    m=re.match(r'\s*\(Architecture::(\w+), None\) => elf::(EM_\w+),',l)
    if m: rows.append('(A%s, %d) (* %d %s *)'%(m.group(1),elf[m.group(2)],i+1,m.group(2)))
emit('elf_machine_rows','arch * Z','src/write/elf/object.rs 721-762: [e_machine], without sub-architecture',rows)
# has addend
rows=[]
for i,l in enumerate(L):
    m=re.match(r'\s*Architecture::(\w+) => (true|false),',l)
    if m: rows.append('(A%s, %s) (* %d *)'%(m.group(1),m.group(2),i+1))
emit('elf_addend_rows','arch * bool','src/write/elf/object.rs 218-262 [elf_has_relocation_addend]',rows)
# ELF reader
L=open(R+'read/elf/relocation.rs').read().split('\n')
a=next(i for i,l in enumerate(L) if l.startswith('fn parse_relocation'))
b=next(i for i,l in enumerate(L) if 'let target = match reloc.symbol()' in l)
rows=[];cur=[];is64='None';arms=0
for i in range(a,b):
    l=L[i]
    m=re.match(r'\s*((?:elf::EM_\w+(?: \| )?)+) => ',l)
    if m: cur=re.findall(r'EM_\w+',m.group(1)); is64='None'
    if 'header.is_type_64()' in l: is64='(Some true)'
    if '} else {' in l and is64=='(Some true)': is64='(Some false)'
    m=re.match(r'\s*((?:elf::R_\w+(?: \| )?)+) => \((K::\w+), ([\w:]+), (\d+)\),',l)
    if m:
        arms+=1
        e=m.group(3)
        for c in cur:
            for r in re.findall(r'R_\w+',m.group(1)):
                es=[('None','EGeneric')] if e=='g' else [('(Some Little)','EGeneric'),('(Some Big)','EUnknown')] if e=='lsb' else [('(Some Little)','EUnknown'),('(Some Big)','EGeneric')] if e=='msb' else [('None',E(e))]
                for en,ee in es: rows.append('(%d, %s, %s, %d, %s, %s, %s) (* %d %s %s *)'%(elf[c],is64,en,elf[r],K(m.group(2)),ee,m.group(4),i+1,c,r))
print('elf read rows',len(rows),'arms',arms, sum(1 for i in range(a,b) if re.search(r'=> \(K::',L[i])))
emit('elf_read_rows','Z * option bool * option endian * Z * rkind * renc * Z','src/read/elf/relocation.rs %d-%d: machine, class, byte order and type of each arm; the kind, encoding and size ([lsb] and [msb] of IA-64 as two rows)'%(a+1,b),rows)
# COFF writer
L=open(R+'write/coff/object.rs').read().split('\n')
a=next(i for i,l in enumerate(L) if 'fn coff_translate_relocation' in l)
b=next(i for i,l in enumerate(L) if 'fn coff_adjust_addend' in l)
rows=[];cur=[];pend=None;arms=0
for i in range(a,b):
    l=L[i]
    if 'Architecture::' in l and '=>' in l: cur=archs(l)
    m=re.match(r'\s*\((K::.*)\) => coff::(\w+),',l)
    if m:
        arms+=1
        p=[x.strip() for x in m.group(1).split(',')]
        if len(p)==2: k,s=p; e='_'
        else: k,e,s=p
        for c in cur: rows.append('(%s, %s, %s, %s, None, %d) (* %d %s *)'%(c,K(k),pat(e),s,pe[m.group(2)],i+1,m.group(2)))
    m=re.match(r'\s*\((K::\w+), (\d+)\) => match reloc.addend',l)
    if m: pend=(K(m.group(1)),m.group(2))
    m=re.match(r'\s*(-?\d+|_) => coff::(\w+),',l)
    if m:
        arms+=1
        ad='None' if m.group(1)=='_' else '(Some (%s))'%m.group(1)
        for c in cur: rows.append('(%s, %s, None, %s, %s, %d) (* %d %s *)'%(c,pend[0],pend[1],ad,pe[m.group(2)],i+1,m.group(2)))
print('coff write rows',len(rows),'arms',arms, sum(1 for i in range(a,b) if re.search(r'=> coff::',L[i])))
emit('coff_write_rows','arch * rkind * option renc * Z * option Z * Z','src/write/coff/object.rs %d-%d: architecture, kind, encoding, size and addend of each arm; the result'%(a+1,b),rows)
a=b; b=next(i for i,l in enumerate(L) if 'fn coff_add_stub_symbol' in l)
mid=next(i for i,l in enumerate(L) if 'fn coff_relocation_size' in l)
rows=[]; cur=[]; 
for i in range(a,mid):
    l=L[i]
    if 'Architecture::' in l and '=>' in l: cur=archs(l)
    m=re.match(r'\s*if typ == coff::(\w+) \{',l) 
    if m:
        v=re.match(r'\s*(\d+)',L[i+1]).group(1); assert L[i+2].strip()=='} else {' and L[i+3].strip()=='0'
        rows.append('(%s, %d, %s) (* %d %s *)'%(cur[0],pe[m.group(1)],v,i+1,m.group(1)))
    m=re.match(r'\s*coff::(\w+) => (\d+),',l)
    if m: rows.append('(%s, %d, %s) (* %d %s *)'%(cur[0],pe[m.group(1)],m.group(2),i+1,m.group(1)))
emit('coff_adjust_rows','arch * Z * Z','src/write/coff/object.rs %d-%d: the nonzero offsets of [coff_adjust_addend]'%(a+1,mid),rows)
rows=[]; cur=[]; acc=[]
for i in range(mid,b):
    l=L[i]
    if 'Architecture::' in l and '=>' in l: cur=archs(l)
    for r in re.findall(r'coff::(IMAGE_REL_\w+)',l): acc.append((r,i+1))
    m=re.search(r'=> Some\((\d+)\)',l)
    if m:
        for r,ln in acc: rows.append('(%s, %d, %s) (* %d %s *)'%(cur[0],pe[r],m.group(1),ln,r))
        acc=[]
assert not acc
emit('coff_size_rows','arch * Z * Z','src/write/coff/object.rs %d-%d [coff_relocation_size]'%(mid+1,b),rows)
# COFF reader
L=open(R+'read/coff/relocation.rs').read().split('\n')
rows=[];cur=[];arms=0
for i,l in enumerate(L):
    m=re.match(r'\s*((?:pe::IMAGE_FILE_MACHINE_\w+(?: \| )?)+) => match typ',l)
    if m: cur=re.findall(r'IMAGE_FILE_MACHINE_\w+',m.group(1))
    m=re.match(r'\s*pe::(IMAGE_REL_\w+) => \((K::\w+), ([\w:]+), (\d+), (-?\d+)\),',l)
    if m:
        arms+=1
        for c in cur: rows.append('(%d, %d, %s, %s, %s, %s) (* %d %s %s *)'%(pe[c],pe[m.group(1)],K(m.group(2)),'EGeneric' if m.group(3)=='g' else E(m.group(3)),m.group(4),m.group(5),i+1,c,m.group(1)))
print('coff read',len(rows),arms,sum(1 for l in L if re.search(r'=> \(K::',l)))
emit('coff_read_rows','Z * Z * rkind * renc * Z * Z','src/read/coff/relocation.rs 42-92: machine and type; kind, encoding, size, addend',rows)
# ELF relocation sizes
L=open(R+'write/elf/object.rs').read().split('\n')
a=next(i for i,l in enumerate(L) if 'fn elf_relocation_size' in l)
b=next(i for i,l in enumerate(L) if 'fn elf_is_64' in l)
rows=[]; cur=[]; acc=[]
for i in range(a,b):
    l=L[i]
    if 'Architecture::' in l and '=>' in l: cur=archs(l)
    for r in re.findall(r'elf::(R_\w+)',l): acc.append((r,i+1))
    m=re.search(r'=> Some\((\d+)\)',l)
    if m:
        for r,ln in acc: rows.append('(%s, %d, %s) (* %d %s *)'%(cur[0],elf[r],m.group(1),ln,r))
        acc=[]
assert not acc
emit('elf_size_rows','arch * Z * Z','src/write/elf/object.rs %d-%d [elf_relocation_size]'%(a+1,b),rows)
s='''(** Tables of relocation types, generated by tools/kinds.py from the match arms of the source; each row cites its line.
    A function that matches on these arms is the first row that agrees (see [Kind_model]). *)
From Verif Require Import Enum_model.

'''+'\n'.join(out)
open('/verif/rocq/theories/Kind_tables.v','w').write(s)
