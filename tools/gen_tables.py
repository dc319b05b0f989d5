#!/usr/bin/env python3
"""Generates the table modules of rocq/theories from /repo:
   AsciiTable.v, LuceneTable.v, ContractionsTable.v, SoTable.v, NbaTable.v"""
import re, json, sys
R='/repo/filters/'; OUT='/verif/rocq/theories/'
def q(s): return '"'+s.replace('"','""')+'"'
def lines(p): return open(p,encoding='utf8').read().split('\n')

def load_map(path, start, end='}'):
    """entries  "k": "v",  of the Go map literal that starts at the line containing `start`"""
    out=[]; on=False
    for n,l in enumerate(lines(path),1):
        if start in l: on=True; first=n; continue
        if on:
            if l.strip()==end: return out,first,n
            m=re.match(r'\s*("(?:[^"\\]|\\.)*")\s*:\s*("(?:[^"\\]|\\.)*"),',l)
            if m: out.append((json.loads(m[1]),json.loads(m[2])))
            else: assert l.strip()=='' or l.strip().startswith('//'), (path,n,l)
    raise Exception(path)

def go_groups():
    groups=[];cur=[];outs=[];flag=False;start=None
    L=lines(R+'ascii/fold.go')
    for n,l in enumerate(L,1):
        if l.strip()=='case':
            if cur: groups.append((start,n-1,cur,outs,flag))
            cur=[];outs=[];flag=False;start=n
        elif l.strip()=='default:':
            groups.append((start,n-1,cur,outs,flag)); break
        elif start is None: continue
        else:
            m=re.match(r"\s*'\\u([0-9A-Fa-f]{4})'[,:]",l)
            if m: cur.append(int(m[1],16)); continue
            m=re.match(r"\s*b\.WriteRune\('(.+)'\)$",l)
            if m:
                s=m[1]
                if s in ("\\'","\\\\"): s=s[1]
                assert len(s)==1; outs.append(ord(s)); continue
            assert l.strip()=='folded = true',(n,l); flag=True
    return groups

def java_groups():
    groups=[];cur=[];outs=[];start=None
    for n,l in enumerate(lines(R+'ascii/ASCIIFoldingFilter.java'),1):
        m=re.match(r"\s*case '\\u([0-9A-Fa-f]{4})':",l)
        if m:
            if not cur: start=n
            cur.append(int(m[1],16)); continue
        m=re.search(r"output\[outputPos\+\+\] = '(.+)';",l)
        if m and cur:
            s=m[1]
            if s in ("\\'",'\\"',"\\\\"): s=s[1]
            assert len(s)==1; outs.append(ord(s)); continue
        if 'break;' in l and cur: groups.append((start,n,cur,outs)); cur=[];outs=[]
    return groups

def wl(xs,per,f):
    return ';\n   '.join('; '.join(f(x) for x in xs[i:i+per]) for i in range(0,len(xs),per))

with open(OUT+'AsciiTable.v','w') as o:
    o.write('''(** * AsciiTable: the switch of /repo/filters/ascii/fold.go:15-2153. GENERATED by tools/gen_tables.py.
    One entry per [case]: the runes, the runes written, and whether the arm sets [folded = true]. *)

From Verif Require Import Base.
Local Open Scope N_scope.

Definition fold_arms : list (list N * list N * bool) :=
  [
''')
    g=go_groups()
    o.write(';\n'.join('   (* fold.go:%d-%d *) ([%s], [%s], %s)'%(a,b,wl(c,12,str),'; '.join(map(str,w)),'true' if f else 'false') for a,b,c,w,f in g))
    o.write('].\n')
    print('go arms',len(g),sum(len(x[2]) for x in g))
with open(OUT+'LuceneTable.v','w') as o:
    o.write('''(** * LuceneTable: the switch of /repo/filters/ascii/ASCIIFoldingFilter.java (foldToASCII), the file fold.go was
    ported from. GENERATED by tools/gen_tables.py.  One entry per arm: the characters and their replacement. *)

From Verif Require Import Base.
Local Open Scope N_scope.

Definition lucene_arms : list (list N * list N) :=
  [
''')
    j=java_groups()
    o.write(';\n'.join('   (* :%d-%d *) ([%s], [%s])'%(a,b,wl(c,12,str),'; '.join(map(str,w))) for a,b,c,w in j))
    o.write('].\n')
    print('java arms',len(j),sum(len(x[2]) for x in j))
def table(name,doc,defs):
    with open(OUT+name+'.v','w') as o:
        o.write('(** * %s: %s GENERATED by tools/gen_tables.py. *)\n\nFrom Verif Require Import Base.\nLocal Open Scope string_scope.\n\n'%(name,doc))
        for d,cm,es in defs:
            o.write('(** %s *)\nDefinition %s : list (string * string) :=\n  [\n'%(cm,d))
            o.write(';\n'.join('   (%s, %s)'%(q(k),q(v)) for k,v in es)+'].\n\n')
            print(d,len(es))
t,a,b=load_map(R+'contractions/generated.go','var mappings = map[string]string{')
s,c,d=load_map(R+'contractions/generate/main.go','var contractions = map[string]string{')
# trailing comments on lines are allowed in the generator's map
table('ContractionsTable','contraction tables of /repo/filters/contractions.',
 [('contraction_mappings','/repo/filters/contractions/generated.go:%d-%d [mappings]'%(a,b),t),
  ('base_contractions','/repo/filters/contractions/generate/main.go:%d-%d [contractions]'%(c,d),s)])
t,a,b=load_map(R+'stackoverflow/generated.go','var mappings = map[string]string{')
table('SoTable','the Stack Overflow dictionary.',[('so_mappings','/repo/filters/stackoverflow/generated.go:%d-%d [mappings]'%(a,b),t)])
t,a,b=load_map(R+'nba/generated.go','var mappings = map[string]string{')
table('NbaTable','the NBA dictionary.',[('nba_mappings','/repo/filters/nba/generated.go:%d-%d [mappings]'%(a,b),t)])
