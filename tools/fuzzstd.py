#!/usr/bin/env python3
"""Compare the models of the standard library with CPython on random inputs.

    python3 tools/fuzzstd.py SEED COUNT OUT.v
    coqc -Q rocq/theories Verif OUT.v

OUT.v (write it outside of /verif) computes, for json.loads, json.dumps, base64, UTF-8,
urllib.parse and forms, the list of the cases in which the model differs; all lists should be empty.
Nothing of the repository is imported or run."""
import base64
import binascii
import json
import random
import sys
import urllib.parse as up
seed=int(sys.argv[1]); n=int(sys.argv[2]); R=random.Random(seed)
# urlenv's parameters: both checks pass
up._check_bracketed_host=lambda h:None
up._checknetloc=lambda x:None
M=2**61-1
def h(t):
    a=7
    for c in t: a=(a*131+ord(c))%M
    return a
class FB:
    def __init__(s,b): s.b=b
def ser(v):
    if v is None: return [0]
    if v is True: return [1]
    if v is False: return [2]
    if isinstance(v,FB): return [4,v.b]
    if isinstance(v,int): return [3,1 if v<0 else 0,abs(v)]
    if isinstance(v,str): return [5,len(v)]+[ord(c) for c in v]
    if isinstance(v,list): return [6,len(v)]+[y for x in v for y in ser(x)]
    if isinstance(v,dict): return [7,len(v)]+[y for k,x in v.items() for y in ser(k)+ser(x)]
    raise Exception(v)
def L(l): return '['+';'.join(map(str,l))+']'
def S(s): return L([ord(c) for c in s])
def err(e):
    if isinstance(e,json.JSONDecodeError): return 1
    if isinstance(e,binascii.Error): return 5
    if isinstance(e,UnicodeDecodeError): return 6
    if isinstance(e,UnicodeEncodeError): return 7
    if isinstance(e,RecursionError): return 3
    if isinstance(e,ValueError): return 2
    if isinstance(e,TypeError): return 4
    raise e
def run(f):
    try: return [0]+f()
    except Exception as e: return [1,err(e)]
# generators
def rstr(al,m): return ''.join(R.choice(al) for _ in range(R.randint(0,m)))
ESC=['\\n','\\"','\\\\','\\/','\\u0041','\\ud83d\\ude00','\\ud83d','\\ude00','\\uD83D\\u0041','\\u00e9','\\x','\\u12','\\u12g4','\\b','\\f','\\r','\\t','\x01','\x1f','\x7f','\u20ac','\U0001F600','\ud83d','\n','a','b',' ','\\ud83d\\','\\ud83d\\u','\\ud83d\\ude0','\\u+123','\\u 123','\\u0_12']
def gs():
    return '"'+''.join(R.choice(ESC if R.random()<.6 else list('abc{}[],:')) for _ in range(R.randint(0,5)))+('"' if R.random()<.97 else '')
NUM=['0','-0','1','12','-5','01','1.5','1.','.5','1e5','1E+3','1e-','2e','-','-1.0e10','1.5e+2','NaN','Infinity','-Infinity','-I','+1','1e5.2','00','-01','9'*30,'1'*20+'.0','tru','true','false','null','nul','nulll','True','١','1_0','0x1']
WS=['',' ','\n','\t','\r ','  ','\x0b','\u00a0','\ufeff','//']
def ws():
    return R.choice(WS[:6]) if R.random()<.97 else R.choice(WS)
def gj(d):
    r=R.random()
    if d<=0 or r<.35: return R.choice(NUM if R.random()<.35 else ['0','1','-5','1.5','true','null','2e3'])
    if r<.5: return gs()
    if r<.75:
        k=R.randint(0,3); s='['+ws()+(ws()+','+ws()).join(gj(d-1) for _ in range(k))+ws()
        if R.random()<.03: s+=','
        return s+(']' if R.random()<.98 else '')
    k=R.randint(0,3)
    s='{'+ws()+(ws()+','+ws()).join((gs() if R.random()<.5 else R.choice(['"a"','"b"','""','"c"'])) +ws()+(':' if R.random()<.98 else '')+ws()+gj(d-1) for _ in range(k))+ws()
    if R.random()<.03: s+=','
    return s+('}' if R.random()<.98 else '')
def loads(s): return json.loads(s,parse_float=lambda t:FB(h(t)),parse_constant=lambda c:FB(h({'NaN':'nan','Infinity':'inf','-Infinity':'-inf'}[c])))
J=[]
for _ in range(n):
    s=ws()+gj(4)+ws()
    if R.random()<.02: s=R.choice(['\ufeff','',' ','}',']'])+s+R.choice(['','x','1',','])
    if len(s)>300: continue
    J.append((s,run(lambda:ser(loads(s)))))
# dumps
def gv(d):
    r=R.random()
    if d<=0 or r<.4: return R.choice([None,True,False,0,-1,10,99,100,12345678901234567890,-10**25,R.randint(-10**6,10**6)])
    if r<.6: return ''.join(chr(R.choice([8,9,10,12,13,31,32,34,47,92,65,126,127,128,233,0x20ac,0xd83d,0xde00,0xffff,0x10000,0x10ffff,0x1f600,0])) for _ in range(R.randint(0,4)))
    if r<.8: return [gv(d-1) for _ in range(R.randint(0,3))]
    return {R.choice(['a','b\n','\u20ac',1,-2,None,True,0]):gv(d-1) for _ in range(R.randint(0,3))}
def pv(v):
    if v is None: return 'VNone'
    if v is True: return 'VBool true'
    if v is False: return 'VBool false'
    if isinstance(v,int): return 'VInt (%d)'%v
    if isinstance(v,str): return 'VStr %s'%S(v)
    if isinstance(v,list): return 'VList [%s]'%';'.join(pv(x) for x in v)
    return 'VDict [%s]'%';'.join('(%s,%s)'%(pv(k),pv(x)) for k,x in v.items())
D=[]
for _ in range(n):
    v=gv(4); t=json.dumps(v)
    if len(t)<400: D.append((pv(v),[0]+[ord(c) for c in t]))
# base64
AL='ABCDabcd0129+/-_=='
B=[]
for _ in range(n):
    s=rstr(AL+(' \n\u00e9%' if R.random()<.3 else ''),10)
    std=run(lambda:list(base64.b64decode(s)))
    url=run(lambda:list(base64.b64decode(s+'===',altchars='-_')))
    B.append((s,std,url))
Bx=[]
for _ in range(n//2):
    b=bytes(R.randrange(256) for _ in range(R.randint(0,9)))
    Bx.append((list(b),[ord(c) for c in base64.b64encode(b).decode()],[ord(c) for c in base64.b64encode(b,altchars=b'-_').decode()]))
# utf8
U=[];UR=[]
FR=[b'a',b'\x7f',b'\xc2\x80',b'\xc3\xa9',b'\xc0\x80',b'\xc1\xbf',b'\xdf\xbf',b'\xe0\xa0\x80',b'\xe0\x9f\xbf',b'\xed\x9f\xbf',b'\xed\xa0\x80',b'\xee\x80\x80',b'\xef\xbf\xbf',b'\xf0\x90\x80\x80',b'\xf0\x8f\xbf\xbf',b'\xf4\x8f\xbf\xbf',b'\xf4\x90\x80\x80',b'\xf5\x80\x80\x80',b'\xff',b'\x80',b'\xbf',b'\xe2\x82',b'\xf0\x9f\x98',b'\xc2']
for _ in range(n):
    b=b''.join(R.choice(FR) for _ in range(R.randint(0,3)))
    if R.random()<.3: b=b+bytes(R.choice([0x7f,0x80,0xbf,0xc0,0xc2,0xe0,0xed,0xf0,0xf4,0x41]) for _ in range(R.randint(0,4)))
    U.append((list(b),run(lambda:[ord(c) for c in b.decode('utf-8')])))
    UR.append((list(b),[ord(c) for c in b.decode('utf-8','replace')]))
V=[]
for _ in range(n//2):
    s=''.join(chr(R.choice([0,65,127,128,0x7ff,0x800,0xd7ff,0xd800,0xdfff,0xe000,0xffff,0x10000,0x10ffff])) for _ in range(R.randint(0,3)))
    V.append((s,run(lambda:list(s.encode('utf-8')))))
# urls
P=['http','https','HTTP','HtTpS','ftp','a','1http','h+t.p-','','mailto','x y','http\u00e9']
T=['://','://','://',':','//',':/',':///','']
HO=['example.com','EXAMPLE.com','localhost','1.2.3.4','[::1]','[::1','::1]','a@b','u:p@h','u@v@h','h\u00e9','','h h','a;b','[v1.x]','a\\b']
PO=['',':80',':443',':',':x',':65535',':65536',':0',':080',':-1',':+1',':8 0',':1_0',':٣',':80:90',':99999999']
PA=['','/','/a','/a;b','/a;b/c','/a/b;c;d',';x','/;','a','//','/a:b','/a%20']
Q=['','?','?a=b','?a?b','?#','?/;']
FG=['','#','#f','#a#b','#?','#/']
PRE=['',' ','\n','\x00','\t','\x1f ','\u00a0']
def port(netloc):
    return up.ParseResult('http',netloc,'','','','').port
X=[]
for _ in range(n*2):
    s=R.choice(PRE if R.random()<.2 else [''])+R.choice(P)+R.choice(T)+R.choice(HO)+R.choice(PO)+R.choice(PA if R.random()<.5 else [''])+R.choice(Q if R.random()<.5 else [''])+R.choice(FG if R.random()<.5 else [''])
    if R.random()<.2:
        i=R.randint(0,len(s)); s=s[:i]+R.choice('\t\n\r []@:/?#;\x0b')+s[i:]
    def f():
        u=up.urlparse(s)
        o=[]
        for p in (u.scheme,u.netloc,u.path,u.params,u.query,u.fragment): o+= [len(p)]+[ord(c) for c in p]
        return o
    def g():
        u=up.urlparse(s); p=u.port; return [0] if p is None else [1,p]
    X.append((s,run(f),run(g)))
# forms
W=[];Y=[]
for _ in range(n):
    s=''.join(chr(R.choice([0,32,33,42,43,45,46,47,48,57,58,64,65,90,91,95,96,97,122,123,126,127,128,233,0x20ac,0x1f600])) for _ in range(R.randint(0,5)))
    W.append((s,[ord(c) for c in up.quote_plus(s,safe='*').replace('~','%7E')]))
    t=''.join(R.choice(['a','b','=','&','+','%41','%c3%a9','%2B','%','%4','%zz','%C3%A9','==','%26',';','a=b','%ff','%c3','%e2%82','%ed%a0%80','%F0%9F%98','%80','%c0%af']) for _ in range(R.randint(0,7)))
    Y.append((t,[y for k,v in up.parse_qsl(t,keep_blank_values=True) for x in (k,v) for y in [len(x)]+[ord(c) for c in x]]))
o=open(sys.argv[3],'w')
o.write('''From Coq Require Import List NArith ZArith Bool String.
From Verif Require Import Base PyVal Json Dumps B64 Utf8 Utf8Replace Url Form.
Import ListNotations. Local Open Scope N_scope. Local Open Scope list_scope.
Definition hh (t : pystr) : N := fold_left (fun a c => (a*131+c) mod 2305843009213693951) t 7.
Definition env := {| je_float := hh; je_max_digits := Some 4300; je_depth := 900 |}.
Fixpoint ser (v : pyval) : list N :=
  match v with
  | VNone => [0] | VBool true => [1] | VBool false => [2]
  | VInt z => [3; if (z <? 0)%Z then 1 else 0; Z.abs_N z]
  | VFloat b => [4; b]
  | VStr s => 5 :: N.of_nat (List.length s) :: s
  | VList l => 6 :: N.of_nat (List.length l) :: flat_map ser l
  | VDict m => 7 :: N.of_nat (List.length m) :: flat_map (fun kv => ser (fst kv) ++ ser (snd kv)) m
  | _ => [99] end.
Definition ecode (e : pyexn) : N := match e with EJSONDecodeError => 1 | EValueError => 2 | ERecursionError => 3 | ETypeError => 4 | EBinasciiError => 5 | EUnicodeDecodeError => 6 | EUnicodeEncodeError => 7 | _ => 50 end.
Definition fw {A} (g : A -> list N) (r : wres A) : list N := match r with WOk a => 0 :: g a | WRaise e => [1; ecode e] end.
Definition fr {A} (g : A -> list N) (r : res A) : list N := match r with Ok a => 0 :: g a | Raise (Py e) => [1; ecode e] | Raise _ => [1; 51] end.
Definition bl (b : bytes) := map N_of_byte b.
Definition lb (b : list N) : bytes := map byte_of_N b.
Definition eqb := list_eqb N.eqb.
Fixpoint bad {A} (i : N) (f : A -> bool) (l : list A) : list N := match l with [] => [] | x :: t => if f x then bad (i+1) f t else i :: bad (i+1) f t end.
Definition ue := {| ue_bracket_ok := fun _ => true; ue_nfkc_ok := fun _ => true |}.
Definition ln (s : pystr) := N.of_nat (List.length s) :: s.
''')
o.write('Definition J : list (list N * list N) := [%s].\n'%';\n'.join('(%s,%s)'%(S(s),L(r)) for s,r in J))
o.write('Eval vm_compute in ("json"%string, bad 0 (fun x => eqb (fw ser (json_loads env (fst x))) (snd x)) J).\n')
o.write('Definition D : list (pyval * list N) := [%s].\n'%';\n'.join('(%s,%s)'%(v,L(r)) for v,r in D))
o.write('Eval vm_compute in ("dumps"%string, bad 0 (fun x => eqb (fw (fun s => s) (json_dumps env (fun _ => []) (fst x))) (snd x)) D).\n')
o.write('Definition B : list (list N * list N * list N) := [%s].\n'%';\n'.join('(%s,%s,%s)'%(S(s),L(a),L(b)) for s,a,b in B))
o.write('Eval vm_compute in ("b64"%string, bad 0 (fun x => eqb (fr bl (b64decode (fst (fst x)))) (snd (fst x)) && eqb (fr bl (url_base64_decode (fst (fst x)))) (snd x)) B).\n')
o.write('Definition Bx : list (list N * list N * list N) := [%s].\n'%';\n'.join('(%s,%s,%s)'%(L(s),L(a),L(b)) for s,a,b in Bx))
o.write('Eval vm_compute in ("b64e"%string, bad 0 (fun x => eqb (b2a (lb (fst (fst x)))) (snd (fst x)) && eqb (url_base64_encode (lb (fst (fst x)))) (snd x)) Bx).\n')
o.write('Definition U : list (list N * list N) := [%s].\n'%';\n'.join('(%s,%s)'%(L(s),L(r)) for s,r in U))
o.write('Eval vm_compute in ("utf8"%string, bad 0 (fun x => eqb (fr (fun s => s) (utf8_decode (lb (fst x)))) (snd x)) U).\n')
o.write('Definition UR : list (list N * list N) := [%s].\n'%';\n'.join('(%s,%s)'%(L(s),L(r)) for s,r in UR))
o.write('Eval vm_compute in ("utf8 replaced"%string, bad 0 (fun x => eqb (utf8_replace (lb (fst x))) (snd x)) UR).\n')
o.write('Definition V : list (list N * list N) := [%s].\n'%';\n'.join('(%s,%s)'%(S(s),L(r)) for s,r in V))
o.write('Eval vm_compute in ("utf8e"%string, bad 0 (fun x => eqb (fr bl (utf8_encode (fst x))) (snd x)) V).\n')
o.write('Definition X : list (list N * list N * list N) := [%s].\n'%';\n'.join('(%s,%s,%s)'%(S(s),L(a),L(b)) for s,a,b in X))
o.write('''Eval vm_compute in ("url"%string, bad 0 (fun x => eqb (fr (fun u => ln (up_scheme u) ++ ln (up_netloc u) ++ ln (up_path u) ++ ln (up_params u) ++ ln (up_query u) ++ ln (up_fragment u)) (urlparse ue (fst (fst x)))) (snd (fst x))) X).
Eval vm_compute in ("port"%string, bad 0 (fun x => eqb (fr (fun p => match p with None => [0] | Some n => [1;n] end) (bind (urlparse ue (fst (fst x))) (fun u => url_port (up_netloc u)))) (snd x)) X).
''')
o.write('Definition W : list (list N * list N) := [%s].\n'%';\n'.join('(%s,%s)'%(S(s),L(r)) for s,r in W))
o.write('Eval vm_compute in ("form_text"%string, bad 0 (fun x => eqb (form_text (fst x)) (snd x)) W).\n')
o.write('Definition Y : list (list N * list N) := [%s].\n'%';\n'.join('(%s,%s)'%(S(s),L(r)) for s,r in Y))
o.write('Eval vm_compute in ("form_decode"%string, bad 0 (fun x => eqb (flat_map (fun kv => ln (fst kv) ++ ln (snd kv)) (form_decode utf8_replace (fst x))) (snd x)) Y).\n')
o.close()
