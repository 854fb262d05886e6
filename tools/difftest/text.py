# Differential test of the model's Python primitives; see README.  Usage: python3 text.py SEED COUNT, then coqc the file it writes.
import random, sys, re, os, posixpath, pathlib, zipfile, io, bisect, argparse, sys
random.seed(int(sys.argv[1]))
NN=int(sys.argv[2])
def rs(alpha, m=8): return ''.join(random.choice(alpha) for _ in range(random.randint(0,m)))
def L(s): return '[' + ';'.join(str(ord(c)) for c in s) + ']%N'
def LB(b): return '[' + ';'.join(str(c) for c in b) + ']%N'
def LL(l): return '[' + ';'.join(l) + ']'
def opt(x): return 'None' if x is None else 'Some (%s)'%x
out=[]
pre='''From Verif Require Import Prelude PyStr TextLib Params Utf8 Fs SortLib Io Decimals PathLists DirFs TarMain TarLinks LoadFs Scripts Checkpoints Command Memory Misc Interp Repr.
Import ListNotations. Open Scope list_scope.
Definition ro {A} (r : res A) : option A := match r with Ok x => Some x | Raise _ => None end.
'''
def test(name, typ, fn, eqty, rows):
    # fn : coq function text input -> out ; decide by eq: use a boolean eq built by decide equality
    out.append("Definition t_%s : list (%s * %s) := [%s]."%(name,typ,eqty,';\n'.join('(%s, %s)'%r for r in rows)))
    out.append("Definition eq_%s : forall a b : %s, {a = b} + {a <> b}. Proof. intros; repeat (decide equality; try apply N.eq_dec; try apply Z.eq_dec; try apply Nat.eq_dec). Defined."%(name,eqty))
    out.append("Definition r_%s := Eval vm_compute in filter (fun '(i, o) => if eq_%s (%s i) o then false else true) t_%s."%(name,name,fn,name))
    out.append('Goal True. idtac "== %s %d". let x := eval unfold r_%s in r_%s in idtac x. Abort.'%(name,len(rows),name,name))
PA="ab./../"
TX="ab \n\r\t\x0b\x0c\x1c\x1d\x1e\x1f\x85\xa0\u2028\u2029\u3000\u200b\r\n"
def R(f,a,n=NN,m=8): 
    seen=set(); r=[]
    for _ in range(n):
        s=rs(a,m)
        if s in seen: continue
        seen.add(s); r.append(s)
    return r
test('split','str','py_split 47%N','list str',[(L(s),LL([L(x) for x in s.split('/')])) for s in R(None,PA)])
test('splitlines','str','splitlines','list str',[(L(s),LL([L(x) for x in s.splitlines()])) for s in R(None,TX)])
test('strip','str','py_strip','str',[(L(s),L(s.strip())) for s in R(None,TX)])
test('rstrip','str','rstrip_lf','str',[(L(s),L(s.rstrip('\n'))) for s in R(None,"a\n\r \n")])
def un(s): return io.TextIOWrapper(io.BytesIO(s.encode()),encoding='utf-8').read()
test('newl','str','universal_newlines','str',[(L(s),L(un(s))) for s in R(None,TX+"\r\r\n\n")])
test('lines','str','(fun s => text_lines (universal_newlines s))','list str',[(L(s),LL([L(x) for x in io.TextIOWrapper(io.BytesIO(s.encode()),encoding='utf-8')])) for s in R(None,TX+"\r\r\n\n")])
rows=[]
cs=[c for c in range(0x110000) if chr(c).isspace()]
rows.append((LB(range(0)),LB(range(0))))
test('space','list N','(fun _ => filter is_space (map N.of_nat (seq 0 13000)))','list N',[('[]',LB(cs))])
test('linebr','list N','(fun _ => filter line_break (map N.of_nat (seq 0 9000)))','list N',[('[]',LB([c for c in range(0x110000) if not (0xd800<=c<0xe000) and len(('a'+chr(c)+'b').splitlines())==2]))])
def pp(s):
    p=pathlib.PurePosixPath(s); r={'':0,'/':1,'//':2}[p.root]
    parts=[x for x in p.parts if x!=p.anchor] if p.anchor else list(p.parts)
    return '(%d%%N, %s)'%(r,LL([L(x) for x in parts]))
test('path','str','(fun s => let p := parse_path s in (p_root p, p_parts p))','(N * list str)',[(L(s),pp(s)) for s in R(None,PA)])
def two(n=NN): return list({(rs(PA),rs(PA)) for _ in range(n)})
test('joinp','str*str','(fun st => let p := join_path (parse_path (fst st)) (snd st) in (p_root p, p_parts p))','(N * list str)',[('(%s,%s)'%(L(a),L(b)),pp(str(pathlib.PurePosixPath(a)/b))) for a,b in two()])
test('ppstr','str','(fun s => ppath_str (parse_path s))','str',[(L(s),L(str(pathlib.PurePosixPath(s)))) for s in R(None,PA) if s.startswith('/')])
test('parent','str','parent_str','str',[(L(s),L(str(pathlib.PurePosixPath(s).parent))) for s in R(None,PA) if not (s.startswith('//') and not s.startswith('///'))])
test('stem','str','stem','str',[(L(s),L(pathlib.PurePosixPath(s).stem)) for s in R(None,"ab..") if s not in ('','.')])
test('normpath','str','normpath','str',[(L(s),L(posixpath.normpath(s))) for s in R(None,PA)])
test('dirname','str','dirname','str',[(L(s),L(posixpath.dirname(s))) for s in R(None,PA)])
import tempfile
f=tempfile.NamedTemporaryFile()
class P(str): pass
def arc(name):
    arcname=posixpath.normpath(posixpath.splitdrive(name)[1])
    while arcname[0] in '/': arcname=arcname[1:]
    return arcname
def arc2(name):
    # through ZipInfo.from_file itself, with os.stat patched
    old=os.stat; st=old(f.name)
    os.stat=lambda x,**k: st
    try: return zipfile.ZipInfo.from_file(name).filename
    except IndexError: return None
    finally: os.stat=old
rr=[]
for s in R(None,PA):
    x=arc2(s)
    if x is None: print('IndexError arc',repr(s)); continue
    rr.append((L(s),L(x)))
test('arc','str','arcname','str',rr)
test('resolve','str','(fun s => ro (resolve_fs s))','option (list str)',[(L(s),'Some '+LL([L(x) for x in reversed([y for y in posixpath.normpath(posixpath.join('/w/d',s) if s else '/w/d').split('/') if y])])) for s in R(None,PA)])
test('rfind','str','(rfind 46%N)','Z',[(L(s),'(%d)%%Z'%s.rfind('.')) for s in R(None,"ab.")])
def enc(s):
    try: return LB(s.encode('utf-8'))
    except UnicodeEncodeError: return None
U="a\x7f\x80\u07ff\u0800\ud7ff\ud800\udfff\ue000\uffff\U00010000\U0010ffff\U00012345é€"
test('enc','str','(fun s => ro (encode s))','option (list N)',[(L(s),opt(enc(s))) for s in R(None,U,NN,4)])
def decd(b):
    try: return L(b.decode('utf-8'))
    except UnicodeDecodeError: return None
B=[0,0x41,0x7f,0x80,0x8f,0x90,0x9f,0xa0,0xbf,0xc0,0xc1,0xc2,0xdf,0xe0,0xe1,0xec,0xed,0xee,0xef,0xf0,0xf1,0xf3,0xf4,0xf5,0xff]
def rb():
    k=random.random()
    if k<.4: return bytes(random.choice(B) for _ in range(random.randint(0,5)))
    if k<.7:
        lead=random.choice([0xe0,0xed,0xef,0xf0,0xf4,0xf1,0xc2,0xdf]); n=1 if lead<0xe0 else 2 if lead<0xf0 else 3
        return bytes([lead]+[random.choice([0x80,0x8f,0x90,0x9f,0xa0,0xbf]) for _ in range(n)])
    b=bytearray(rs(U.replace('\ud800','').replace('\udfff',''),3).encode()); 
    if b and random.random()<.5: b[random.randrange(len(b))]=random.choice(B)
    return bytes(b)
bs={rb() for _ in range(NN*3)}
test('dec','list N','(fun s => ro (decode s))','option str',[(LB(b),opt(decd(b))) for b in bs])
ns=[random.choice([random.randint(-20,20),random.randint(-10**6,10**6),random.randint(-10**25,10**25)]) for _ in range(NN)]+[0,9,10,99,100,-1]
test('intstr','Z','int_str','str',[('(%d)%%Z'%n,L(str(n))) for n in ns])
sl=[(rs("abc",6),random.randint(-9,9),random.randint(-9,9)) for _ in range(NN)]
test('slice','str*Z*Z','(fun x => py_slice (fst (fst x)) (snd (fst x)) (snd x))','str',[('(%s,(%d)%%Z,(%d)%%Z)'%(L(s),a,b),L(s[a:b])) for s,a,b in sl])
pr=[(rs("aab\u00e9\U00010000\uffff",4),rs("aab\u00e9\U00010000\uffff",4)) for _ in range(NN)]
test('ltb','str*str','(fun x => str_ltb (fst x) (snd x))','bool',[('(%s,%s)'%(L(a),L(b)),str(a<b).lower()) for a,b in pr])
pat=re.compile(r"%([\w\.-]+)%")
rx=open('/repo/vistautils/parameters.py').read(); print([l for l in rx.splitlines() if 're.compile' in l][:3])
def toks(s):
    r=[];i=0
    for m in pat.finditer(s):
        r+=['TChar %d%%N'%ord(c) for c in s[i:m.start()]]; r.append('TRef '+L(m.group(1))); i=m.end()
    r+=['TChar %d%%N'%ord(c) for c in s[i:]]
    return LL(r)
IW="(fun c => orb (orb (andb (97 <=? c) (c <=? 122)) (c =? 95)) (orb (c =? 233) (andb (48 <=? c) (c <=? 57))))%N"
test('tokens','str','(tokens %s)'%IW,'list token',[(L(s),toks(s)) for s in R(None,"%%%%a_é.- {\n7",NN,9)])
mp=re.compile(r"(\d+) ?([TtGgMmKk])[bB]?")
def mm(s):
    m=mp.match(s)
    return None if not m else '(%s, %d%%N)'%(LB([int(c) for c in m.group(1)]),ord(m.group(2)))
DG="(fun c => if andb (48 <=? c) (c <=? 57) then Some (c - 48) else None)%N"
test('mem','str','(pattern_match %s)'%DG,'option (list N * N)',[(L(s),opt(mm(s))) for s in R(None,"0129 kKgTtMmbB x",NN*3,6)])
comp=R(None,PA)
test('comps','str','components','list str',[(L(s),LL([L(x) for x in pathlib.PurePosixPath('x/'+s).parts[1:]])) for s in comp if not s.startswith('/')])
# argparse
ap=argparse.ArgumentParser(prog='x'); ap.add_argument('file'); ap.add_argument('-p',nargs=2,action='append',metavar=('n','v'))
class E(Exception): pass
def err(m): raise E()
ap.error=err; 
def isval(w):
    try: a=ap.parse_args(['f','-p','n',w]); return a.p==[['n',w]]
    except (E,SystemExit): return False
ws=[w for w in R(None,"--12.a",NN*2,5) if True]
def odd(w): return (w.startswith('-p') or w.startswith('-h') or w=='--')
test('isval','str','is_value','bool',[(L(w),str(isval(w)).lower()) for w in ws if not odd(w)])
def pa(args):
    try: a=ap.parse_args(args); return '(%s, %s)'%(L(a.file),LL(['(%s,%s)'%(L(x),L(y)) for x,y in (a.p or [])]))
    except (E,SystemExit): return None
av=[[random.choice(['-p','-p','f','g','-1','-','','-.5']) for _ in range(random.randint(0,8))] for _ in range(NN*3)]
test('args','list str','parse_args','option (str * list (str*str))',[(LL([L(w) for w in a]),opt(pa(a))) for a in av])
def oname(fn):
    for e in ('.tar','.tgz','tar.gz'):
        if fn.endswith(e): return fn[:-len(e)]+'.zip'
    return fn+'.zip'
open('text_test.v','w').write(pre+'Definition resolve_fs := Fs.resolve [[100];[119]]%N.\n'+'\n'.join(out)+'\n')
