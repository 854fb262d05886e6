# Differential test of the model's Python primitives; see README.  Usage: python3 handles.py SEED COUNT, then coqc the file it writes.
import random, sys, io, os, tarfile, zipfile, gzip, types
random.seed(int(sys.argv[1])); NN=int(sys.argv[2])
def L(s): return '[' + ';'.join(str(ord(c)) for c in s) + ']%N'
def LB(b): return '[' + ';'.join(str(c) for c in b) + ']%N'
def LL(l): return '[' + ';'.join(l) + ']'
D='/tmp/diff/of/'; os.makedirs(D,exist_ok=True)
with zipfile.ZipFile(D+'z','w') as z: z.writestr('a',b'one'); z.writestr('b',b''); z.writestr('u','é\r\nx'.encode())
open(D+'f','wb').write('hé\r\nx'.encode())
open(D+'g','wb').write(gzip.compress(b'gg\n'))
with tarfile.open(D+'t','w:gz') as t:
    ti=tarfile.TarInfo('c'); ti.size=5; t.addfile(ti,io.BytesIO(b'three'))
    ti=tarfile.TarInfo('d'); ti.type=tarfile.DIRTYPE; t.addfile(ti)
    ti=tarfile.TarInfo('x'); ti.size=1; t.addfile(ti,io.BytesIO(b'\xff'))
def fds():
    c={k:0 for k in 'zfgt'}
    for x in os.listdir('/proc/self/fd'):
        try: p=os.readlink('/proc/self/fd/'+x)
        except OSError: continue
        if p.startswith(D): c[p[len(D):]]+=1
    return [c[k] for k in 'zfgt']
keep=[]
def tie(ret,other):
    old=ret.close
    def nc(self): old(); other.close()
    ret.close=types.MethodType(nc,ret); return ret
def src(depth=1):
    k=random.choice(['f','zip','ozip','ozip','str','text','gzr','gz','tgz','dec','dec'])
    if k=='f': return ('SFile !!"f"',lambda zs: open(D+'f','rb'))
    if k=='zip':
        n=random.choice('abuq')
        def o(zs):
            z=zipfile.ZipFile(D+'z','r'); keep.append(z); return tie(z.open(n,'r'),z)
        return ('SZip !!"z" !!"%s"'%n,o)
    if k=='ozip':
        v=random.randrange(3); n=random.choice('abuq')
        def o(zs):
            if v>=len(zs): raise TypeError()
            return zs[v].open(n,'r')
        return ('SOpenZip %d !!"%s"'%(v,n),o)
    if k=='str': return ('SString !!"sss"',lambda zs: io.StringIO('sss'))
    if k=='text': return ('SText !!"f"',lambda zs: open(D+'f','r',encoding='utf-8'))
    if k=='gzr': return ('SGzipRaw !!"g"',lambda zs: gzip.open(D+'g','rb'))
    if k=='gz': return ('SGzip !!"g" decode',lambda zs: gzip.open(D+'g','rt',encoding='utf-8'))
    if k=='tgz':
        n=random.choice('cdxcq')
        def o(zs):
            t=tarfile.open(D+'t','r:gz'); keep.append(t)
            d=t.extractfile(n)
            if d is None: raise IOError()
            return tie(io.StringIO(d.read().decode('utf-8')),t)
        return ('STgz !!"t" !!"%s" decode'%n,o)
    while True:
        s,o=src()
        if s.split()[0] in ('SFile','SZip','SOpenZip'): break
    return ('SDec (%s) decode'%s,lambda zs: io.TextIOWrapper(o(zs),encoding='utf-8'))
def ec(e): return 1 if isinstance(e,UnicodeDecodeError) else 2 if isinstance(e,KeyError) else 3 if isinstance(e,ValueError) else 4 if isinstance(e,TypeError) else 5
rows=[]
for _ in range(NN):
    keep.clear(); hs=[]; zs=[]; acts=[]; exp=[]
    for _ in range(random.randint(3,12)):
        k=random.random(); r='(0, [])'
        try:
            if k<.35:
                s,o=src(); acts.append('AOpen (%s)'%s); h=o(zs); hs.append(h)
            elif k<.5: acts.append('AZip'); zs.append(zipfile.ZipFile(D+'z'))
            elif k<.6:
                v=random.randrange(3); acts.append('ACloseZip %d'%v)
                if v<len(zs): zs[v].close()
            elif k<.8:
                v=random.randrange(5); acts.append('ARead %d'%v)
                if v>=len(hs): raise TypeError()
                x=hs[v].read(); r='(0, %s)'%(LB(x) if isinstance(x,bytes) else L(x))
            else:
                v=random.randrange(5); acts.append('AClose %d'%v)
                if v<len(hs): hs[v].close()
        except Exception as e: r='(%d, [])'%ec(e)
        exp.append('(%s, %s)%%N'%(r,LL([str(x) for x in fds()])))
    rows.append('(%s, %s)'%(LL(acts),LL(exp)))
    for x in hs+zs+keep:
        try: x.close()
        except Exception: pass
    del hs,zs; keep.clear()
open('handles_test.v','w').write('''From Verif Require Import Prelude PyStr TextLib Utf8 Io IoProps OpenFiles.
Import ListNotations. Open Scope list_scope.
Definition zipb : bytes := dozip toy_zip [] [(!!"a", !!"one"); (!!"b", []); (!!"u", [195;169;13;10;120]%N)].
Definition w : world := fun p => if str_eqb p !!"z" then Some zipb else if str_eqb p !!"f" then Some [104;195;169;13;10;120]%N else if str_eqb p !!"g" then Some [103;103;10]%N else if str_eqb p !!"t" then Some !!"t" else None.
Definition unt (b : bytes) : res (list member) := Ok [{| m_name := !!"c"; m_isfile := true; m_data := Some !!"three" |}; {| m_name := !!"d"; m_isfile := false; m_data := None |}; {| m_name := !!"x"; m_isfile := true; m_data := Some [255]%N |}].
Inductive act := AOpen (s : source) | AZip | ACloseZip (v : nat) | ARead (v : nat) | AClose (v : nat).
Notation open_source := (open_source w toy_zip (fun b => Ok b) unt (fun _ => false)).
Definition ecode (e : exn) : N := match e with UnicodeDecodeError => 1 | KeyError => 2 | ValueError => 3 | TypeError => 4 | _ => 5 end%N.
Definition live_at (m : heap) (i : nat) (p : str) : bool := match nth_error m i with
 | Some (OFile q b _ _) => str_eqb q p && b
 | Some (OZip q _ b) => str_eqb q p && (b || existsb (fun x => match x with OExt j _ true _ => Nat.eqb j i | _ => false end) m)
 | _ => false end.
Definition count (m : heap) (p : str) : N := N.of_nat (length (filter (fun i => live_at m i p) (List.seq 0 (length m)))).
Definition st := (heap * list handle * list nat)%type.
Definition do (s : st) (a : act) : st * (N * list N) :=
  let '(m, vs, zs) := s in
  match a with
  | AOpen src => let (m', r) := open_source zs m src in match r with Ok h => ((m', vs ++ [h], zs), (0%N, [])) | Raise e => ((m', vs, zs), (ecode e, [])) end
  | AZip => ((m ++ [OZip !!"z" [(!!"a", !!"one"); (!!"b", []); (!!"u", [195;169;13;10;120]%N)] true], vs, zs ++ [length m]), (0%N, []))
  | ACloseZip v => match nth_error zs v with Some z => ((upd z shut_obj m, vs, zs), (0%N, [])) | None => (s, (0%N, [])) end
  | ARead v => match nth_error vs v with Some h => let (m', r) := hread h m in ((m', vs, zs), match r with Ok (VText t) => (0%N, t) | Ok (VBytes t) => (0%N, t) | Ok _ => (9%N, []) | Raise e => (ecode e, []) end) | None => (s, (4%N, [])) end
  | AClose v => match nth_error vs v with Some h => ((hclose h m, vs, zs), (0%N, [])) | None => (s, (0%N, [])) end
  end.
Fixpoint go (s : st) (l : list act) : list ((N * list N) * list N) :=
  match l with [] => [] | a :: r => let (s', o) := do s a in (o, map (count (fst (fst s'))) [!!"z"; !!"f"; !!"g"; !!"t"]) :: go s' r end.
Definition eqr : forall a b : list ((N * list N) * list N), {a = b} + {a <> b}. Proof. repeat (decide equality; try apply N.eq_dec). Defined.
Definition cases : list (list act * list ((N * list N) * list N)) := '''+LL(['\n'+r for r in rows])+'''.
Definition r := Eval vm_compute in map (fun x => (length x, fst (hd ([],[]) x), snd (hd ([],[]) x), go ([], [], []) (fst (hd ([],[]) x)))) [filter (fun x => if eqr (go ([], [], []) (fst x)) (snd x) then false else true) cases].
Goal True. let x := eval unfold r in r in idtac x. Abort.
''')
