# Differential test of the model's Python primitives; see README.  Usage: python3 archives.py SEED COUNT, then coqc the file it writes.
import random, sys, io, tarfile, zipfile, warnings
warnings.simplefilter('ignore')
random.seed(int(sys.argv[1])); NN=int(sys.argv[2])
def L(s): return '[' + ';'.join(str(ord(c)) for c in s) + ']%N'
def LB(b): return '[' + ';'.join(str(c) for c in b) + ']%N'
def LL(l): return '[' + ';'.join(l) + ']'
def nm(m=4):
    s='/'.join(random.choice(['a','b','a','b','..','.']) for _ in range(random.randint(1,m)))
    if random.random()<.15: s='/'+s
    return s
rows=[]
for _ in range(NN):
    b=io.BytesIO(); tf=tarfile.open(fileobj=b,mode='w')
    for _ in range(random.randint(1,5)):
        ti=tarfile.TarInfo(nm(3)); k=random.random()
        if k<.35: d=bytes([random.randrange(250)]); ti.size=1; tf.addfile(ti,io.BytesIO(d))
        elif k<.65: ti.type=tarfile.SYMTYPE; ti.linkname=nm(3); tf.addfile(ti)
        elif k<.85: ti.type=tarfile.LNKTYPE; ti.linkname=nm(3); tf.addfile(ti)
        else: ti.type=random.choice([tarfile.DIRTYPE,tarfile.FIFOTYPE]); tf.addfile(ti)
    tf.close()
    tf=tarfile.open(fileobj=io.BytesIO(b.getvalue()))
    ms=tf.getmembers()
    tx=LL(['(%s, %s)'%(L(m.name), 'EFile '+LB(tf.extractfile(m).read()) if m.isreg() else 'ESym '+L(m.linkname) if m.issym() else 'EHard '+L(m.linkname) if m.islnk() else 'EOther') for m in ms])
    name=random.choice(ms).name if random.random()<.9 else nm(3)
    try:
        m=tf.getmember(name)
        sys.setrecursionlimit(120)
        try:
            f=tf.extractfile(m); r='(0, Some %s)'%LB(f.read()) if f is not None else '(0, None)'
        except RecursionError: r='(2, None)'
        except KeyError: r='(1, None)'
        finally: sys.setrecursionlimit(5000)
    except KeyError: r='(1, None)'
    rows.append('((%s, %s), (%s)%%N)'%(tx,L(name),r))
zr=[]
NM=['a','b','a/b','é','日','a\0b','ab','_keys','']
for _ in range(NN):
    b=io.BytesIO(); ops=[]
    for sess in range(random.randint(1,2)):
        z=zipfile.ZipFile(b,'a',zipfile.ZIP_DEFLATED)
        for _ in range(random.randint(0,4)):
            n=random.choice(NM[:-1]); d=bytes(random.randrange(256) for _ in range(random.randint(0,3)))
            z.writestr(n,d); ops.append((n,d))
        z.close()
    z=zipfile.ZipFile(io.BytesIO(b.getvalue()))
    names=z.namelist(); q=random.choice(NM)
    try: r='Some '+LB(z.read(q))
    except KeyError: r='None'
    zr.append('((%s, %s), (%s, %s))'%(LL(['(%s, %s)'%(L(n),LB(d)) for n,d in ops]),L(q),LL([L(x) for x in names]),r))
open('archives_test.v','w').write('''From Verif Require Import Prelude PyStr TextLib Params Utf8 Fs SortLib Io Decimals PathLists OsPath TarMain TarLinks.
Import ListNotations. Open Scope list_scope.
Definition go (x : list (str * entry) * str) : N * option bytes :=
  match getmember (fst x) (snd x) with None => (1%N, None) | Some i => match extractfile 60 (fst x) i with Ok d => (0%N, d) | Raise KeyError => (1%N, None) | Raise RecursionError => (2%N, None) | Raise _ => (9%N, None) end end.
Definition oeq (a b : option bytes) := match a, b with Some x, Some y => str_eqb x y | None, None => true | _, _ => false end.
Definition cases : list ((list (str * entry) * str) * (N * option bytes)) := '''+LL(['\n'+r for r in rows])+'''.
Definition r := Eval vm_compute in filter (fun x => let g := go (fst x) in negb ((fst g =? fst (snd x))%N && oeq (snd g) (snd (snd x)))) cases.
Goal True. let x := eval unfold r in r in idtac x. Abort.
Fixpoint zap (a : archive) (l : list (str * bytes)) : archive := match l with [] => a | (n, b) :: r => match zappend a n b with Ok a' => zap a' r | Raise _ => a end end.
Definition zc : list ((list (str * bytes) * str) * (list str * option bytes)) := '''+LL(['\n'+r for r in zr])+'''.
Definition zg (x : list (str * bytes) * str) := let a := zap [] (fst x) in (map fst a, zread a (snd x)).
Definition zb := Eval vm_compute in filter (fun x => let g := zg (fst x) in negb (rpath_eqb (fst g) (fst (snd x)) && oeq (snd g) (snd (snd x)))) zc.
Goal True. let x := eval unfold zb in zb in idtac x. Abort.
''')
