# Differential test of the model's Python primitives; see README.  Usage: python3 files.py SEED COUNT, then coqc the file it writes.
import random, sys, os, pathlib, tarfile, io, shutil, stat, json, zipfile, traceback, ntpath, encodings.idna, encodings.utf_8
def _sock(p, mode=0o666, **k): os.mknod(p, stat.S_IFSOCK|0o666)
os.mkfifo=_sock
random.seed(int(sys.argv[1])); NN=int(sys.argv[2])
ROOT='/tmp/diff/root'; os.makedirs(ROOT,exist_ok=True)
out=open('files_test.v','w')
os.chroot(ROOT); os.chdir('/')
def L(s): return '[' + ';'.join(str(ord(c)) for c in s) + ']%N'
def LB(b): return '[' + ';'.join(str(c) for c in b) + ']%N'
def LL(l): return '[' + ';'.join(l) + ']'
def RP(q): return LL([L(x) for x in reversed(q)])
def code(e):
    if isinstance(e,FileNotFoundError): return 1
    if isinstance(e,NotADirectoryError): return 2
    if isinstance(e,FileExistsError): return 3
    if isinstance(e,ValueError): return 4
    if isinstance(e,OSError): return 5
    raise e
def wipe():
    os.chdir('/')
    for x in os.listdir('/'):
        p='/'+x
        if os.path.isdir(p): shutil.rmtree(p)
        else: os.remove(p)
def snap():
    r=[]
    def go(p,q):
        for x in sorted(os.listdir(p)):
            f=p.rstrip('/')+'/'+x; st=os.lstat(f)
            if stat.S_ISDIR(st.st_mode): r.append((q+[x],'KDir')); go(f,q+[x])
            elif stat.S_ISREG(st.st_mode): r.append((q+[x],'KFile '+LB(open(f,'rb').read())))
            else: r.append((q+[x],'KOther'))
    go('/',[])
    return r
def FS(r): return LL(['(%s, %s)'%(RP(q),n) for q,n in r])
def tree():
    wipe()
    def go(p,d):
        for x in 'abc':
            k=random.random()
            if k<.3: continue
            f=p+x
            if k<.55 or d==0: open(f,'wb').write(bytes([random.randrange(250)]))
            elif k<.6: os.mkfifo(f)
            else: os.mkdir(f); go(f+'/',d-1)
    go('/',2)
    dirs=[[]]+[q for q,n in snap() if n=='KDir']
    cwd=random.choice(dirs)
    os.chdir('/'+'/'.join(cwd))
    return cwd
def comp(): return random.choice(['a','b','c','a','b','d','..','.',''])
def path(m=5):
    s='/'.join(comp() for _ in range(random.randint(1,m)))
    if random.random()<.25: s='/'+s
    if random.random()<.03: s=s+'\0'
    return s
rows=[]
def case(fn):
    cwd=tree(); before=FS(snap())
    op,thunk=fn()
    try: r=thunk(); res='(0, %s)%%N'%(r if r is not None else '[]')
    except (OSError,ValueError) as e: res='(%d, [])%%N'%code(e)
    rows.append('(%s, %s, %s, (%s, %s))'%(before,RP(cwd),op,res,FS(snap())))
def op_read():
    s=path()
    def t():
        p=pathlib.Path(s)
        if os.path.exists(p) and stat.S_ISFIFO(os.stat(p).st_mode): raise OSError('other')
        with open(p,'rb') as f: return '['+LB(f.read())+']'
    return 'ORead '+L(s),t
def op_resolve():
    s=path()
    return 'OResolve '+L(s), lambda: RP(pathlib.Path(s).resolve().parts[1:])
def op_strict():
    s=path(); b=path()
    while s.startswith('/') : s=path()
    return 'OStrict %s %s'%(L(b),L(s)), lambda: '['+L(str(pathlib.Path(b,s).resolve(strict=True)))+']'
def op_mkdirs():
    s=path()
    return 'OMkdirs '+L(s), lambda: pathlib.Path(s).mkdir(parents=True,exist_ok=True)
def op_mkdirp():
    s=path().replace('\0','')
    return 'OMkdirP '+L(s), lambda: pathlib.Path(s).resolve().mkdir(parents=True,exist_ok=True)
def op_write():
    s=path()
    def t():
        p=pathlib.Path(s)
        p.parent.mkdir(parents=True,exist_ok=True)
        if os.path.exists(p) and stat.S_ISFIFO(os.stat(p).st_mode): raise OSError('other')
        with open(p,'wb') as f: f.write(b'NEW')
    return 'OWrite '+L(s), t
def op_tar():
    b=io.BytesIO(); tf=tarfile.open(fileobj=b,mode='w')
    ms=[]
    for _ in range(random.randint(1,4)):
        n=path(4).replace('\0','').replace('..',random.choice('abcd'))
        while n.rstrip('/').endswith('/.') or n.rstrip('/')=='.' or '/./' in n: n=path(4).replace('\0','').replace('..','d')
        ti=tarfile.TarInfo(n); k=random.random()
        if k<.5: d=bytes([random.randrange(250)]); ti.size=1; tf.addfile(ti,io.BytesIO(d))
        elif k<.8: ti.type=tarfile.DIRTYPE; ti.mode=0o755; tf.addfile(ti)
        else: ti.type=tarfile.FIFOTYPE; tf.addfile(ti)
    tf.close()
    tf=tarfile.open(fileobj=io.BytesIO(b.getvalue()))
    for m in tf.getmembers():
        ms.append('(%s, %s)'%(L(m.name), 'TFile '+LB(tf.extractfile(m).read()) if m.isfile() else 'TDir' if m.isdir() else 'TOther'))
    def t():
        tf.extractall()
    return 'OTar '+LL(ms),t
def op_rmtree():
    s=path().replace('\0','')
    def t():
        p=pathlib.Path(s).resolve()
        if str(p)=='/' or not p.is_dir(): return
        e=not any(p.iterdir())
        shutil.rmtree(p)
        return '[[%d]]'%e
    return 'ORm '+L(s),t
ops=[op_read,op_resolve,op_strict,op_mkdirs,op_mkdirp,op_write,op_tar,op_rmtree]
for i in range(NN): case(ops[i%len(ops)])
wipe()
out.write('''From Verif Require Import Prelude PyStr TextLib Params Utf8 Fs SortLib Io Decimals PathLists OsPath DirFs TarMain LoadFs Mains.
Import ListNotations. Open Scope list_scope.
Inductive op := ORead (s : str) | OResolve (s : str) | OStrict (b s : str) | OMkdirs (s : str) | OMkdirP (s : str) | OWrite (s : str) | OTar (l : list (str * kind)) | ORm (s : str).
Definition ecode (e : exn) : N := match e with FileNotFoundError => 1 | NotADirectoryError => 2 | FileExistsError => 3 | ValueError => 4 | IOError => 5 | _ => 9 end%N.
Definition rr {A} (f : A -> list str) (r : res A) : N * list str := match r with Ok x => (0%N, f x) | Raise e => (ecode e, []) end.
Notation fsys := (list (list str * fnode)).
Definition un (_ : unit) : list str := [].
Definition go (fs : fsys) (cwd : list str) (o : op) : fsys * (N * list str) :=
  match o with
  | ORead s => (fs, rr (fun b => [b]) (read_at cwd fs (parse_path s)))
  | OResolve s => (fs, rr (fun q => q) (Fs.resolve cwd s))
  | OStrict b s => (fs, rr (fun q => [q]) (resolve_strict fs cwd b s))
  | OMkdirs s => let p := parse_path s in let (f, r) := mkdir_parents cwd fs (p_root p) (rev (p_parts p)) in (f, rr un r)
  | OMkdirP s => match Fs.resolve cwd s with Ok q => let (f, r) := mkdir_p fs q in (f, rr un r) | Raise e => (fs, rr un (Raise e)) end
  | OWrite s => let (f, r) := sink_write cwd fs (parse_path s) ([78;69;87]%N, None) in (f, rr un r)
  | OTar ms => let (f, e) := extract_all cwd fs ms in (f, match e with None => (0%N, []) | Some e => (ecode e, []) end)
  | ORm s => match Fs.resolve cwd s with
             | Ok q => if match q with [] => true | _ => false end || negb (is_dir fs q) then (fs, (0%N, []))
                       else (fst (rmtree fs q), (0%N, [[if is_empty_directory fs q then 1 else 0]%N]))
             | Raise e => (fs, rr un (Raise e)) end
  end.
Definition neq (a b : option fnode) : bool := match a, b with Some KDir, Some KDir | Some KOther, Some KOther => true | Some (KFile x), Some (KFile y) => str_eqb x y | _, _ => false end.
Definition same (fs ex : fsys) : bool := forallb (fun e => neq (look fs (fst e)) (Some (snd e))) ex && forallb (fun e => existsb (fun x => rpath_eqb (fst e) (fst x)) ex) fs.
Definition leq (a b : list str) := rpath_eqb a b.
Definition bad (x : fsys * list str * op * (N * list str * fsys)) : bool :=
  match x with (fs, cwd, o, (r, l, fs2)) => let '(f, (r', l')) := go fs cwd o in negb ((r =? r')%N && leq l l' && same f fs2) end.
Notation T := (fsys * list str * op * (N * list str * fsys))%type.
''')
out.write('Definition cases : list T := '+'[] .\n' if not rows else 'Definition cases : list T := %s.\n'%LL([ '\n('+r[1:-1].rsplit(', ((',1)[0]+', (('+r[1:-1].rsplit(', ((',1)[1]+')' if False else '\n'+r for r in rows]))
out.write("""Definition strict1 (cwd : list str) (fs : fsys) (m : str * kind) := match extract cwd fs m with
 | (f, None) => match snd m, Fs.resolve cwd (fst m) with TDir, Ok q => if is_dir f q then (f, None) else (f, Some FileExistsError) | _, _ => (f, None) end
 | x => x end.  (* recent versions of Python *)
Fixpoint strict_all (cwd : list str) (fs : fsys) (ms : list (str * kind)) := match ms with [] => (fs, None) | m :: r => match strict1 cwd fs m with (f, None) => strict_all cwd f r | x => x end end.
Definition others := Eval vm_compute in filter (fun x => match snd (fst x) with OTar _ => false | _ => true end) (filter bad cases).
Goal True. idtac "mismatches:". let x := eval unfold others in others in idtac x. Abort.
Definition tars := Eval vm_compute in filter (fun '((fs, cwd, o, (r0, l, fs2))) => match o with OTar ms => let '(f, e) := strict_all cwd fs ms in negb (same f fs2 && (match e with None => 0 | Some e => ecode e end =? r0)%N) | _ => false end) (filter bad cases).
Goal True. idtac "mismatches in unpacking (only files named / are expected here):". let x := eval unfold tars in tars in idtac x. Abort.
""")
