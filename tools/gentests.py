#!/usr/bin/env python3
"""Write rocq/theories/RepoTests.v: the cases of /repo/tests, stated about the model.

The test files are read as text (ast) and the data in them is evaluated by the small evaluator
below; nothing of the repository is imported or run. SHA-256, keys and signatures are those of
Examples.v (the toy hash), certificates are names in a table."""
import ast
import base64
import itertools
import json
import os
import random
import struct

ROOT = os.path.dirname(os.path.dirname(os.path.abspath(__file__)))
REPO = '/repo'


# ---------------------------------------------------------------- data of the repository

class Member:
    def __init__(self, enum, form, name, value):
        self.enum, self.form, self.name, self.value = enum, form, name, value


class EnumClass:
    def __init__(self, members):
        self.members = members
        for m in members:
            setattr(self, m.name, m)

    def __iter__(self):
        return iter(self.members)


class Pair:
    pass


class Obj:
    def __init__(self, cls, **kw):
        self.__dict__.update(kw)
        self.cls_ = cls

    def attrs(self):
        return {k: v for k, v in self.__dict__.items() if k != 'cls_'}


def module(path):
    with open(os.path.join(REPO, path)) as fh:
        return ast.parse(fh.read())


def is_enum(node):
    return any(isinstance(b, ast.Name) and b.id == 'Enum' for b in node.bases)


def enum_members(node, enum, form, ev):
    out = []
    for st in node.body:
        if isinstance(st, ast.Assign):
            out.append(Member(enum, form, st.targets[0].id, ev(st.value)))
    return EnumClass(out)


def load_types(env):
    ev = Eval(env).ev
    for node in module('webauthn_rp/constants.py').body:
        if isinstance(node, ast.Assign):
            env[node.targets[0].id] = ev(node.value)
    for node in module('webauthn_rp/types.py').body:
        if not isinstance(node, ast.ClassDef):
            continue
        inner = {c.name: c for c in node.body if isinstance(c, ast.ClassDef)}
        if is_enum(node):
            env[node.name] = enum_members(node, node.name, None, ev)
        elif 'Name' in inner:
            p = Pair()
            p.Name = enum_members(inner['Name'], node.name, 'FName', ev)
            p.Value = enum_members(inner['Value'], node.name, 'FValue', ev)
            env[node.name] = p
        else:
            env[node.name] = constructor(node, node.name, ev)


def constructor(node, name, ev):
    """Objects remember their arguments, with the defaults for those left out."""
    args, defaults = [], {}
    for st in node.body:
        if isinstance(st, ast.FunctionDef) and st.name == '__init__':
            pos = [a.arg for a in st.args.args[1:]]
            kwo = [a.arg for a in st.args.kwonlyargs]
            args = pos + kwo
            for a, d in zip(reversed(pos), reversed(st.args.defaults)):
                defaults[a] = ev(d)
            for a, d in zip(kwo, st.args.kw_defaults):
                if d is not None:
                    defaults[a] = ev(d)

    def make(**kw):
        for k in kw:
            assert k in args, (name, k)
        return Obj(name, **{a: kw[a] if a in kw else defaults[a] for a in args})
    return make


# ---------------------------------------------------------------- the evaluator

class Eval:
    def __init__(self, env):
        self.env = env

    def ev(self, n, loc=None):
        loc = loc or {}
        e = lambda m: self.ev(m, loc)
        if isinstance(n, ast.Constant):
            return n.value
        if isinstance(n, ast.Name):
            return loc[n.id] if n.id in loc else self.env[n.id]
        if isinstance(n, ast.List):
            return [e(x) for x in n.elts]
        if isinstance(n, ast.Tuple):
            return tuple(e(x) for x in n.elts)
        if isinstance(n, ast.Set):
            return [e(x) for x in n.elts]
        if isinstance(n, ast.Dict):
            return {e(k): e(v) for k, v in zip(n.keys, n.values)}
        if isinstance(n, ast.UnaryOp) and isinstance(n.op, ast.USub):
            return -e(n.operand)
        if isinstance(n, ast.BinOp):
            a, b = e(n.left), e(n.right)
            return {ast.Add: lambda: a + b, ast.Mult: lambda: a * b, ast.BitOr: lambda: a | b,
                    ast.LShift: lambda: a << b, ast.Mod: lambda: a % b,
                    ast.Sub: lambda: a - b}[type(n.op)]()
        if isinstance(n, ast.BoolOp):
            vals = [e(v) for v in n.values]
            r = vals[0]
            for v in vals[1:]:
                r = (r or v) if isinstance(n.op, ast.Or) else (r and v)
            return r
        if isinstance(n, ast.Compare):
            a, b = e(n.left), e(n.comparators[0])
            return {ast.Eq: lambda: a == b, ast.NotEq: lambda: a != b}[type(n.ops[0])]()
        if isinstance(n, ast.Attribute):
            return getattr(e(n.value), n.attr)
        if isinstance(n, ast.Subscript):
            s = n.slice
            if isinstance(s, ast.Slice):
                return e(n.value)[slice(s.lower and e(s.lower), s.upper and e(s.upper))]
            return e(n.value)[e(s)]
        if isinstance(n, (ast.ListComp, ast.GeneratorExp)):
            return [self.ev(n.elt, l) for l in self.gens(n.generators, loc)]
        if isinstance(n, ast.DictComp):
            return {self.ev(n.key, l): self.ev(n.value, l) for l in self.gens(n.generators, loc)}
        if isinstance(n, ast.Call):
            args = [e(a) for a in n.args]
            kw = {}
            for k in n.keywords:
                if k.arg is None:
                    kw.update(e(k.value))
                else:
                    kw[k.arg] = e(k.value)
            return e(n.func)(*args, **kw)
        raise ValueError(ast.dump(n))

    def gens(self, gs, loc):
        if not gs:
            yield loc
            return
        for v in self.ev(gs[0].iter, loc):
            l = dict(loc)
            bind(gs[0].target, v, l)
            yield from self.gens(gs[1:], l)


def bind(target, v, env):
    if isinstance(target, ast.Name):
        env[target.id] = v
    else:
        for t, x in zip(target.elts, v):
            bind(t, x, env)


# ---------------------------------------------------------------- libraries that tests use

MASK = 0xFFFFFFFFFFFFFFFF


def toy_hash(b):
    a = 7
    for x in b:
        a = (a * 257 + x + 1) & MASK
    return a.to_bytes(32, 'big')


def toy_sign(x, data):
    return toy_hash(x.to_bytes(66, 'big') + data)


def head(major, n):
    if n < 24:
        return bytes([major << 5 | n])
    for i, size in enumerate((1, 2, 4, 8)):
        if n < 1 << (8 * size):
            return bytes([major << 5 | 24 + i]) + n.to_bytes(size, 'big')


def cbor(v):
    if v is True:
        return b'\xf5'
    if v is False:
        return b'\xf4'
    if v is None:
        return b'\xf6'
    if isinstance(v, int):
        return head(0, v) if v >= 0 else head(1, -1 - v)
    if isinstance(v, bytes):
        return head(2, len(v)) + v
    if isinstance(v, str):
        return head(3, len(v.encode())) + v.encode()
    if isinstance(v, (list, tuple)):
        return head(4, len(v)) + b''.join(map(cbor, v))
    if isinstance(v, dict):
        return head(5, len(v)) + b''.join(cbor(k) + cbor(x) for k, x in v.items())
    if isinstance(v, float):
        return b'\xfb' + struct.pack('>d', v)
    raise ValueError(v)


class NS:
    def __init__(self, **kw):
        self.__dict__.update(kw)


class Hash:
    def __init__(self, b):
        self.b = b

    def digest(self):
        return toy_hash(self.b)


class Cpk:
    """A public key of the cryptography library: [kind] and the numbers or bytes."""
    def __init__(self, kind, x, y=None, raw=None):
        self.kind, self.x, self.y, self.raw = kind, x, y, raw

    def public_numbers(self):
        return self

    def public_bytes(self, *a):
        return self.raw

    def coq(self):
        if self.kind == 'Ed25519':
            return f'(CEd25519 {cbytes(self.raw)})'
        if self.kind == 'Ed448':
            return f'(CEd448 {cbytes(self.raw)})'
        if self.kind == 'RSA':
            return f'(COther {self.x})'
        return f'(CEC {self.kind} {self.x} {self.y})'


class Key:
    def __init__(self, pk):
        self.pk = pk

    def public_key(self):
        return self.pk

    def private_numbers(self):
        return NS(public_numbers=self.pk)

    def sign(self, data, *a):
        return toy_sign(self.pk.x, data)


RND = random.Random(1)
SIZES = {'SECP256R1': 31, 'SECP384R1': 47, 'SECP521R1': 64}


def ec_key(curve):
    return Key(Cpk(curve, RND.randrange(1 << 250), RND.randrange(1 << 250)))


def ed_key(kind, n):
    raw = bytes(RND.randrange(256) for _ in range(n))
    return Key(Cpk(kind, int.from_bytes(raw, 'big'), raw=raw))


CURVES = {'P_256': 'SECP256R1', 'P_384': 'SECP384R1', 'P_521': 'SECP521R1'}
LENGTHS = {'P_256': 32, 'P_384': 48, 'P_521': 66, 'ED25519': 32, 'ED448': 57}


def generate_ec2_private_key(crv):
    return ec_key(CURVES[crv.name])


def generate_okp_private_key(crv):
    return ed_key('Ed25519', 32) if crv.name == 'ED25519' else ed_key('Ed448', 57)


CERTS = []


class Cert:
    def __init__(self, pk, ext):
        self.der = b'certificate %d' % len(CERTS)
        self.pk, self.ext = pk, ext
        CERTS.append(self)

    def public_bytes(self, *a):
        return self.der


def tlv(tag, body):
    n = len(body)
    ln = bytes([n]) if n < 128 else bytes([0x80 | 1, n]) if n < 256 else bytes([0x82]) + n.to_bytes(2, 'big')
    return tag + ln + body


def explicit(n, body):
    if n < 31:
        t = bytes([0xA0 | n])
    else:
        ds = []
        while n:
            ds.append(n & 127)
            n >>= 7
        ds.reverse()
        t = bytes([0xBF] + [d | 128 for d in ds[:-1]] + [ds[-1]])
    return tlv(t, body)


def authorizations(d):
    out = b''
    if 'purpose' in d:
        out += explicit(1, tlv(b'\x31', b''.join(tlv(b'\x02', bytes([p])) for p in d['purpose'])))
    if 'allApplications' in d:
        out += explicit(600, b'\x05\x00')
    if 'origin' in d:
        out += explicit(702, tlv(b'\x02', bytes([d['origin']])))
    return tlv(b'\x30', out)


def key_description(challenge, unique, software, tee):
    """DER of a KeyDescription with zeros for versions and levels."""
    z = tlv(b'\x02', b'\0')
    e = tlv(b'\x0a', b'\0')
    return tlv(b'\x30', z + e + z + e + tlv(b'\x04', challenge) + tlv(b'\x04', unique)
               + authorizations(software) + authorizations(tee))


def android_description(challenge):
    a = {'origin': 0, 'purpose': [2]}
    return key_description(challenge, b'unique', a, a)


def curve_cert(curve, ext=None):
    k = ec_key(curve)
    return Cert(k.pk, ext), k, k.pk


def okp_credential_key(env, crv, alg=None):
    k = generate_okp_private_key(crv)
    return env['OKPCredentialPublicKey'](
        kty=env['COSEKeyType'].Value.OKP, crv=crv,
        alg=alg or env['COSEAlgorithmIdentifier'].Value.ES256, x=k.pk.raw)


def ec2_credential_key(env, crv, alg=None):
    k = generate_ec2_private_key(crv)
    n = LENGTHS[crv.name]
    return env['EC2CredentialPublicKey'](
        kty=env['COSEKeyType'].Value.EC2, crv=crv,
        alg=alg or env['COSEAlgorithmIdentifier'].Value.ES256,
        x=k.pk.x.to_bytes(n, 'big'), y=k.pk.y.to_bytes(n, 'big'))


def pseudorandom(n, seed):
    rs = random.Random()
    rs.seed(seed)
    return bytes(rs.randint(0, 255) for _ in range(n))


def single_byte_errors(data):
    out = []
    for i in range(len(data)):
        out.append(data[:i - 1] + bytes([(data[i] + 1) % 256]) + data[i + 1:])
    return out


def replace_curve(k, crv):
    k.crv = crv
    return k


def base_env():
    env = {
        'dict': dict, 'list': list, 'set': list, 'len': len, 'range': range, 'bytes': bytes,
        'int': int, 'str': str, 'zip': zip, 'True': True,
        'chain': lambda *a: list(itertools.chain(*a)), 'combinations': itertools.combinations,
        'itertools': NS(product=itertools.product),
        'base64': base64, '_b64s': lambda b: base64.b64encode(b).decode(),
        'base64s': lambda b: base64.b64encode(b).decode(),
        'json_bytes': lambda x: json.dumps(x).encode(),
        'cbor2': NS(dumps=cbor),
        'hashlib': NS(sha256=Hash),
        'authenticator_data': lambda h, f, c, attested_credential_data=None, extensions=None:
            h + bytes([f]) + c + (attested_credential_data or b'') + (extensions or b''),
        'attested_credential_data': lambda a, n, i, k: a + n.to_bytes(2, 'big') + i + k,
        'generate_ec2_private_key': generate_ec2_private_key,
        'generate_ec2_public_key': lambda c: generate_ec2_private_key(c).pk,
        'generate_okp_private_key': generate_okp_private_key,
        'generate_pseudorandom_bytes': pseudorandom,
        'single_byte_errors': single_byte_errors,
        'replace_curve': replace_curve,
        'TEST_RP_ID_HASH': toy_hash(b'example.org'),
        'TEST_CREDENTIAL_ID': b'credential-id', 'TEST_CREDENTIAL_ID_LENGTH': 13,
        'TEST_AAGUID': b'x' * 16,
        'curve_coordinate_byte_length': lambda c: LENGTHS[c.name],
        'ECDSA': lambda h: h, 'ec2_hash_algorithm': lambda a: a,
        'SECP256R1': lambda: 'SECP256R1', 'SECP384R1': lambda: 'SECP384R1',
        'SECP521R1': lambda: 'SECP521R1',
        'generate_private_key': lambda c, b: ec_key(c), 'default_backend': lambda: None,
        'generate_elliptic_curve_x509_certificate': curve_cert,
        'generate_elliptic_curve_x509_certificate_android':
            lambda c, ch: curve_cert(c, android_description(ch)),
        'generate_elliptic_curve_x509_certificate_android_raw': curve_cert,
        'generate_android_extensions': android_description,
        'generate_x509_certificate': lambda pub, priv, alg, ext=None: Cert(pub, ext),
        'generate_signature': lambda k, d: k.sign(d),
        'rsa': NS(generate_private_key=lambda *a: Key(Cpk('RSA', 65537))),
        'PKCS1v15': lambda: None, 'hashes': NS(SHA256=lambda: None),
        'Encoding': NS(DER=0, Raw=1), 'PublicFormat': NS(Raw=1),
        'Ed25519PrivateKey': NS(generate=lambda: ed_key('Ed25519', 32)),
        'Ed448PrivateKey': NS(generate=lambda: ed_key('Ed448', 57)),
    }
    load_types(env)
    env['generate_ec2_credential_public_key'] = lambda c, a=None: ec2_credential_key(env, c, a)
    env['generate_okp_credential_public_key'] = lambda c, a=None: okp_credential_key(env, c, a)
    for node in module('webauthn_rp/errors.py').body:
        if isinstance(node, ast.ClassDef):
            env[node.name] = node.name
    env['AssertionError'] = 'AssertionError'
    return env


# ---------------------------------------------------------------- Coq terms

def plain(s):
    return all(32 <= ord(c) < 127 for c in s)


def q(s):
    return '"' + s.replace('"', '""') + '"'


def cstr(s):
    return f'(lit {q(s)})' if plain(s) else '[' + '; '.join(str(ord(c)) for c in s) + ']%N'


def cbytes(b):
    if len(b) > 3 and len(set(b)) == 1:
        return f'(repeat x{b[0]:02x} {len(b)})'
    if b and all(32 <= c < 127 for c in b):
        return f'(blit {q(b.decode())})'
    return '[' + '; '.join(f'x{c:02x}' for c in b) + ']'


def clist(f, l):
    return '[' + '; '.join(f(x) for x in l) + ']'


def copt(f, x):
    return 'None' if x is None else f'(Some {f(x)})'


def cbool(b):
    return 'true' if b else 'false'


def cz(n):
    return f'({n})%Z' if n < 0 else f'{n}%Z'


def bits(x):
    return f'{int.from_bytes(struct.pack(">d", x), "big")}%N'


def pv(v):
    if v is None:
        return 'VNone'
    if isinstance(v, bool):
        return f'(VBool {cbool(v)})'
    if isinstance(v, int):
        return f'(VInt {cz(v)})'
    if isinstance(v, float):
        return f'(VFloat {bits(v)})'
    if isinstance(v, str):
        return f'(VStr {cstr(v)})'
    if isinstance(v, bytes):
        return f'(VBytes {cbytes(v)})'
    if isinstance(v, list):
        return f'(VList {clist(pv, v)})'
    if isinstance(v, tuple):
        return f'(VTuple {clist(pv, v)})'
    if isinstance(v, dict):
        return f'(VDict {pdict(v)})'
    raise ValueError(v)


def pdict(d):
    return clist(lambda kv: f'({pv(kv[0])}, {pv(kv[1])})', d.items())


def form(m):
    n = 'KT_' + m.name if m.enum == 'COSEKeyType' else m.name
    return f'({m.form}, {n})'


def rec(**kw):
    return '{| ' + '; '.join(f'{k} := {v}' for k, v in kw.items()) + ' |}'


def base(k):
    return rec(kb_kty=form(k.kty), kb_kid=copt(cbytes, k.kid), kb_alg=copt(form, k.alg),
               kb_key_ops=copt(lambda l: clist(form, l), k.key_ops),
               kb_base_IV=copt(cbytes, k.base_IV))


def pubkey(k):
    if k.cls_ == 'EC2CredentialPublicKey':
        return f'(EC2Key {base(k)} {cbytes(k.x)} {cbytes(k.y)} {form(k.crv)})'
    if k.cls_ == 'OKPCredentialPublicKey':
        return f'(OKPKey {base(k)} {form(k.crv)} {cbytes(k.x)})'
    return f'(OtherKey {base(k)})'


def coords(c):
    return rec(**{'co_' + k: pv(v) for k, v in c.attrs().items()})


def exts(x):
    return rec(ex_appid=copt(cbool, x.appid), ex_tx_auth_simple=copt(cstr, x.tx_auth_simple),
               ex_tx_auth_generic=copt(cbytes, x.tx_auth_generic),
               ex_authn_sel=copt(cbool, x.authn_sel),
               ex_exts=copt(lambda l: clist(cstr, l), x.exts), ex_uvi=copt(cbytes, x.uvi),
               ex_loc=copt(coords, x.loc),
               ex_uvm=copt(lambda l: clist(lambda r: clist(cz, r), l), x.uvm),
               ex_biometric_perf_bounds=copt(cbool, x.biometric_perf_bounds))


def attested(a):
    return rec(at_aaguid=cbytes(a.aaguid), at_id_length=f'{a.credential_id_length}%N',
               at_id=cbytes(a.credential_id), at_key=copt(pubkey, a.credential_public_key))


def auth(a):
    return rec(ad_rp_id_hash=cbytes(a.rp_id_hash), ad_flags=f'{a.flags}%N',
               ad_sign_count=f'{a.sign_count}%N',
               ad_attested=copt(attested, a.attested_credential_data),
               ad_extensions=copt(exts, a.extensions))


def stmt(s):
    c = s.cls_
    A = lambda: form(s.alg)
    S = lambda: cbytes(s.sig)
    X = lambda: clist(cbytes, s.x5c)
    T = lambda: f'{A()} {S()} {cstr(s.ver)} {cbytes(s.cert_info)} {cbytes(s.pub_area)}'
    return '(' + {
        'PackedAttestationStatement': lambda: f'S_Packed {A()} {S()}',
        'PackedX509AttestationStatement': lambda: f'S_PackedX509 {A()} {S()} {X()}',
        'PackedECDAAAttestationStatement':
            lambda: f'S_PackedECDAA {A()} {S()} {cbytes(s.ecdaa_key_id)}',
        'TPMAttestationStatement': lambda: f'S_TPM {T()}',
        'TPMX509AttestationStatement': lambda: f'S_TPMX509 {T()} {X()}',
        'TPMECDAAAttestationStatement': lambda: f'S_TPMECDAA {T()} {cbytes(s.ecdaa_key_id)}',
        'AndroidKeyAttestationStatement': lambda: f'S_AndroidKey (Some {A()}) (Some {S()}) {X()}',
        'AndroidSafetyNetAttestationStatement':
            lambda: f'S_SafetyNet {cstr(s.ver)} {cbytes(s.response)}',
        'FIDOU2FAttestationStatement': lambda: f'S_U2F (Some {S()}) {X()}',
        'NoneAttestationStatement': lambda: 'S_None',
    }[c]() + ')'


def att_obj(o):
    return rec(ao_auth_data=copt(auth, o.auth_data), ao_fmt='F_' + o.fmt.name, ao_stmt=stmt(o.att_stmt))


def binding(t):
    return rec(tb_status_='TB_' + t.status.name, tb_id=pv(t.id))


def client(c):
    return rec(cd_type=cstr(c.type), cd_challenge=cstr(c.challenge), cd_origin=cstr(c.origin),
               cd_token_binding=copt(binding, c.token_binding))


def credential(c):
    r = c.response
    if r.cls_ == 'AuthenticatorAttestationResponse':
        rs = f'AttestationResponse {cbytes(r.client_data_JSON)} {cbytes(r.attestation_object)}'
    else:
        rs = (f'AssertionResponse {cbytes(r.client_data_JSON)} {cbytes(r.authenticator_data)} '
              f'{cbytes(r.signature)} {copt(cbytes, r.user_handle)}')
    return rec(cr_id=cstr(c.id), cr_type=cstr(c.type), cr_raw_id=cbytes(c.raw_id), cr_response=rs)


def user(u):
    return rec(us_name=cstr(u.name), us_icon=copt(cstr, u.icon), us_id=cbytes(u.id),
               us_display_name=cstr(u.display_name))


def rp(r):
    return rec(rp_name=cstr(r.name), rp_icon=copt(cstr, r.icon), rp_id=cstr(r.id))


def cert(c):
    ext = 'WRaise EExtensionNotFound' if c.ext is None else f'WOk (Some {cbytes(c.ext)})'
    return rec(ce_der=cbytes(c.der), ce_public_key=f'WOk {c.pk.coq()}', ce_keydesc=ext)


def pobj(v):
    """Objects as jsonify sees them."""
    if v is None:
        return 'ONone'
    if isinstance(v, Member):
        return f'(OEnum {pobj(v.value)})'
    if isinstance(v, bool):
        return f'(OBool {cbool(v)})'
    if isinstance(v, int):
        return f'(OInt {cz(v)})'
    if isinstance(v, float):
        return f'(OFloat {bits(v)})'
    if isinstance(v, str):
        return f'(OStr {cstr(v)})'
    if isinstance(v, bytes):
        return f'(OBytes {cbytes(v)})'
    if isinstance(v, list):
        return f'(OList {clist(pobj, v)})'
    if isinstance(v, tuple):
        return f'(OTuple {clist(pobj, v)})'
    key = lambda k: f'KStr {cstr(k)}' if isinstance(k, str) else 'KOther'
    kv = lambda d: clist(lambda p: f'({key(p[0])}, {pobj(p[1])})', d.items())
    return f'(ODict {kv(v)})' if isinstance(v, dict) else f'(OObj {kv(v.attrs())})'


# ---------------------------------------------------------------- statements

class Out:
    def __init__(self):
        self.parts = []

    def section(self, f):
        self.parts.append(f'\n(** ** /repo/tests/{f} *)\n')

    def comment(self, t):
        self.parts.append(f'\n(** {t} *)')

    def raw(self, t):
        self.parts.append(t)

    def results(self, name, src, pairs):
        """Every call gives its value."""
        body = ';\n    '.join(a for a, _ in pairs)
        vals = ';\n    '.join('Ok ' + b for _, b in pairs)
        self.comment(src)
        self.raw(f'Example {name} :\n  [ {body} ]\n  = [ {vals} ].\nProof. vm_compute. reflexivity. Qed.')

    def errors(self, name, src, classes, calls):
        """Every call raises one of the classes."""
        body = ';\n    '.join(calls)
        self.comment(src)
        self.raw(f'Example {name} :\n  forallb (raises {clist(str, classes)})\n  [ {body} ] = true.\n'
                 'Proof. vm_compute. reflexivity. Qed.')

    def expects(self, name, src, items):
        """Calls that return or raise, in the order of the test."""
        body = ';\n    '.join(f'({"returns" if c is None else "raises " + clist(str, c)}) ({t})'
                              for c, t in items)
        self.comment(src)
        self.raw(f'Example {name} :\n  forallb (fun b : bool => b)\n  [ {body} ] = true.\n'
                 'Proof. vm_compute. reflexivity. Qed.')


def params(fn):
    """The names and rows of pytest.mark.parametrize, first decorator first."""
    out = []
    for d in fn.decorator_list:
        out.append(([x.strip() for x in d.args[0].value.split(',')], d.args[1]))
    return out


def raised(fn):
    for n in ast.walk(fn):
        if isinstance(n, ast.With):
            a = n.items[0].context_expr.args[0]
            return [x.id for x in (a.elts if isinstance(a, ast.Tuple) else [a])]


def where(path, fn):
    first = fn.decorator_list[0].lineno if fn.decorator_list else fn.lineno
    return f'{path}:{first}-{fn.end_lineno}'


# ---------------------------------------------------------------- test_parsers.py

TYPES = {int: 'TInt', str: 'TStr', bytes: 'TBytes'}
W = 'ex_world'


def key_kwargs(d):
    o = Obj('CredentialPublicKey', **{k: d.get(k) for k in ('kty', 'kid', 'alg', 'key_ops', 'base_IV')})
    return base(o)


PARSERS = {
    '_parse_credential_public_key_kty': (f'parse_kty {W}', pdict, form),
    '_parse_credential_public_key_alg': (f'parse_alg {W}', pdict, form),
    '_parse_credential_public_key_key_ops':
        (f'parse_key_ops {W}', pdict, lambda x: copt(lambda l: clist(form, l), x)),
    '_parse_credential_public_key_kwargs': (f'parse_key_base {W}', pdict, key_kwargs),
    '_parse_ec2_public_key_crv': (f'parse_crv {W} ec2curve_enum', pdict, form),
    '_parse_okp_public_key_crv': (f'parse_crv {W} okpcurve_enum', pdict, form),
    'parse_okp_public_key': (f'parse_okp_public_key {W}', pdict, pubkey),
    'parse_ec2_public_key': (f'parse_ec2_public_key {W}', pdict, pubkey),
    'parse_extensions': (f'parse_extensions {W}', pdict, exts),
    '_parse_attestation_statement_alg': (f'parse_stmt_alg {W}', pdict, form),
    '_parse_attestation_statement_x5c': ('parse_x5c', pdict, lambda l: clist(cbytes, l)),
    'parse_packed_attestation_statement': (f'parse_packed_attestation_statement {W}', pdict, stmt),
    'parse_tpm_attestation_statement': (f'parse_tpm_attestation_statement {W}', pdict, stmt),
    'parse_android_key_attestation_statement':
        (f'parse_android_key_attestation_statement {W}', pdict, stmt),
    'parse_android_safetynet_attestation_statement':
        (f'parse_android_safetynet_attestation_statement {W}', pdict, stmt),
    'parse_fido_u2f_attestation_statement': (f'parse_fido_u2f_attestation_statement {W}', pdict, stmt),
    'parse_none_attestation_statement': (f'parse_none_attestation_statement {W}', pdict, stmt),
    'parse_client_data': (f'parse_client_data {W}', cbytes, client),
    'parse_cose_key': (f'parse_cose_key_dict {W}', pdict, pubkey),
    'parse_authenticator_data': (f'parse_authenticator_data {W}', cbytes, auth),
    'parse_attestation': (f'parse_attestation_object {W}', cbytes,
                          lambda p: f'({att_obj(p[0])}, {pdict(p[1])})'),
    'parse_public_key_credential': (f'parse_public_key_credential {W}', pdict, credential),
    '_bytes_from_base64': ('bytes_from_base64',
                           lambda s: cstr(s if isinstance(s, str) else s.decode('latin-1')), cbytes),
}


def test_parsers(out, env):
    path = 'tests/test_parsers.py'
    out.section('test_parsers.py')
    ev = Eval(env).ev
    for fn in module(path).body:
        if not isinstance(fn, ast.FunctionDef) or not fn.name.startswith('test_'):
            continue
        (names, rows), = params(fn)
        rows = ev(rows)
        src, nm = where(path, fn), fn.name
        if nm.startswith('test__parse_dictionary_field'):
            call = lambda r: (f'parse_dictionary_field {pv(r[0])} {clist(lambda t: TYPES[t], r[1])} '
                              f'{pdict(r[2])} {cbool(r[3])}')
            if nm.endswith('success'):
                out.results(nm, src, [(call(r), pv(r[4])) for r in rows])
            else:
                out.errors(nm, src, raised(fn), [call(r) for r in rows])
        elif nm == 'test__check_unsupported_keys':
            call = lambda r: f'check_unsupported_keys {W} {clist(cstr, sorted(r[0]))} {pdict(r[1])}'
            out.expects(nm, src, [(None if r[2] else raised(fn), call(r)) for r in rows])
        else:
            f, a, b = PARSERS[nm[len('test_'):].rsplit('_', 1)[0]]
            if nm.endswith('success'):
                out.results(nm, src, [(f'{f} {a(r[0])}', b(r[1])) for r in rows])
            else:
                out.errors(nm, src, raised(fn), [f'{f} {a(r)}' for r in rows])


# ---------------------------------------------------------------- test_utils.py, test_validators.py

UTILS = {
    'snake_to_camel_case': ('Ok (snake_to_camel ascii_unicode {})', cstr, cstr),
    'camel_to_snake_case': ('Ok (camel_to_snake ascii_unicode {})', cstr, cstr),
    'url_base64_encode': ('Ok (url_base64_encode {})', cbytes, lambda b: cstr(b.decode())),
    'url_base64_decode': ('url_base64_decode {}', cstr, cbytes),
}


def test_utils(out, env):
    path = 'tests/test_utils.py'
    out.section('test_utils.py')
    ev = Eval(env).ev
    for fn in module(path).body:
        if not isinstance(fn, ast.FunctionDef):
            continue
        src = where(path, fn)
        if not fn.decorator_list:
            pairs = []
            for st in fn.body:
                c = st.test
                f, a, b = UTILS[c.left.func.id]
                pairs.append((f.format(a(ev(c.left.args[0]))), b(ev(c.comparators[0]))))
            out.results(fn.name, src, pairs)
        elif fn.name == 'test_curve_coordinate_byte_length':
            (names, rows), = params(fn)
            out.comment(src)
            out.raw(f'Example {fn.name} :\n  forallb (fun c => Nat.ltb 0 (curve_coordinate_byte_length c))\n'
                    f'  {clist(form, ev(rows))} = true.\nProof. vm_compute. reflexivity. Qed.')
        else:
            (names, rows), = params(fn)
            calls = [f'ec2_hash_algorithm {form(r)}' for r in ev(rows)]
            if fn.name.endswith('error'):
                out.comment(src)
                out.raw(f'Example {fn.name} :\n  {clist(str, calls)} = '
                        f'{clist(lambda c: "Raise (Py EAssertionError)", calls)}.\n'
                        'Proof. vm_compute. reflexivity. Qed.')
            else:
                out.expects(fn.name, src, [(None, c) for c in calls])


def test_validators(out, env):
    path = 'tests/test_validators.py'
    out.section('test_validators.py')
    ev = Eval(env).ev
    for fn in module(path).body:
        if isinstance(fn, ast.FunctionDef) and fn.name.startswith('test_'):
            (names, rows), = params(fn)
            c = None if fn.name.endswith('success') else raised(fn)
            out.expects(fn.name, where(path, fn), [(c, f'validate {pubkey(k)}') for k in ev(rows)])


# ---------------------------------------------------------------- test_verifiers.py

def test_verifiers(out, env):
    path = 'tests/test_verifiers.py'
    out.section('test_verifiers.py')
    ev = Eval(env).ev
    for fn in module(path).body:
        if not isinstance(fn, ast.FunctionDef):
            continue
        (_, curves), (_, datas) = params(fn)
        items = []
        for (crv, alg), data in itertools.product(ev(curves), ev(datas)):
            ec2 = fn.name.endswith('ec2')
            k = (ec2_credential_key if ec2 else okp_credential_key)(env, crv, alg)
            sig = toy_sign(int.from_bytes(k.x, 'big'), data)
            errs = single_byte_errors(sig)[::16]
            items.append(f'verify_case {pubkey(k)} {cbytes(data)} {cbytes(sig)} {clist(cbytes, errs)}')
        out.comment(where(path, fn) + ', with every 16th of the altered signatures')
        out.raw(f'Example {fn.name} :\n  forallb (fun b : bool => b)\n  ['
                + ';\n    '.join(items) + '] = true.\nProof. vm_compute. reflexivity. Qed.')


# ---------------------------------------------------------------- straight-line tests

class Body(Eval):
    """Runs the assignments of a test; [call] is told of the expressions under test."""
    def __init__(self, env, call):
        super().__init__(dict(env))
        self.call = call

    def run(self, body, classes=None):
        for st in body:
            if isinstance(st, ast.Assign):
                t = st.targets[0]
                if isinstance(t, ast.Attribute):
                    setattr(self.ev(t.value), t.attr, self.ev(st.value))
                elif isinstance(t, ast.Subscript):
                    self.ev(t.value)[self.ev(t.slice)] = self.ev(st.value)
                else:
                    bind(t, self.ev(st.value), self.env)
            elif isinstance(st, ast.With):
                a = st.items[0].context_expr.args[0]
                self.run(st.body, [x.id for x in (a.elts if isinstance(a, ast.Tuple) else [a])])
            elif isinstance(st, ast.ClassDef):
                self.env[st.name] = Registrar(self, st)
            elif isinstance(st, ast.While):
                if self.run(st.body) != 'break':
                    raise ValueError('loop')
            elif isinstance(st, ast.If):
                if self.ev(st.test) and self.run(st.body) == 'break':
                    return 'break'
            elif isinstance(st, ast.Break):
                return 'break'
            elif isinstance(st, (ast.Expr, ast.Assert)):
                if isinstance(getattr(st, 'value', None), ast.Constant):
                    continue
                self.call(self, st, classes)
            elif isinstance(st, (ast.Import, ast.ImportFrom, ast.FunctionDef)):
                pass
            else:
                raise ValueError(ast.dump(st))


class Registrar:
    """A class of registrars: its three answers as Coq terms."""
    METHODS = ('get_credential_data', 'register_credential_assertion',
               'register_credential_attestation')

    def __init__(self, ctx, node):
        b = ctx.env.get(node.bases[0].id)
        self.answers = dict(b.answers) if isinstance(b, Registrar) else {}
        for m in node.body:
            st = m.body[-1]
            if isinstance(st, ast.Raise):
                self.answers[m.name] = '(Raise (Py (EOther 0)))'
            elif isinstance(st, ast.Pass):
                self.answers[m.name] = '(Ok None)'
            else:
                v = ctx.ev(st.value)
                self.answers[m.name] = '(Ok ' + (
                    copt(cred_data, v) if m.name == self.METHODS[0] else copt(pv, v)) + ')'

    def __call__(self):
        return self

    def coq(self):
        return 'constant_registrar ' + ' '.join(self.answers[m] for m in self.METHODS)


def cred_data(c):
    return rec(cdt_key=pubkey(c.key), cdt_sign_count=copt(cz, c.count), cdt_user=user(c.user),
               cdt_rp=copt(rp, c.rp))


def test_backends(out, env):
    path = 'tests/test_backends.py'
    out.section('test_backends.py')
    items = []

    def origin(o):
        return f'OneOrigin {cstr(o)}' if isinstance(o, str) else f'ManyOrigins {clist(cstr, o)}'

    def tb(t):
        return rec(etb_status='TB_' + t.status.name, etb_id=copt(cstr, t.id))

    def descr(d):
        return rec(de_id=cbytes(d.id), de_transports=copt(lambda l: clist(lambda m: m.name, l), d.transports))

    def call(ctx, st, classes):
        c = st.value
        R = ctx.ev(c.func.value)
        kw = {k.arg: ctx.ev(k.value) for k in c.keywords}
        ext = copt(lambda l: clist(lambda m: m.name, l), kw.get('expected_extensions'))
        common = dict(credential=credential(kw['credential']), challenge=cbytes(kw['expected_challenge']),
                      origin=origin(kw['expected_origin']),
                      token_binding=copt(tb, kw.get('token_binding')),
                      require_uv=cbool(kw.get('require_user_verification', False)), extensions=ext)
        if c.func.attr == 'handle_credential_attestation':
            d = dict(user=user(kw['user']), rp=rp(kw['rp']), **common)
            t = f'handle_credential_attestation {W} ' + rec(**{'ra_' + k: v for k, v in d.items()})
        else:
            d = dict(rp=copt(rp, kw.get('rp')), user=copt(user, kw.get('user')),
                     allow=copt(lambda l: clist(descr, l), kw.get('allow_credentials')),
                     ignore_clone=cbool(kw.get('ignore_clone_error', False)), **common)
            t = f'handle_credential_assertion {W} ' + rec(**{'aa_' + k: v for k, v in d.items()})
        items.append((classes, f'out_result (run ({R.coq()}) tt ({t}))'))

    e = dict(env)
    e['CredentialsBackend'] = lambda r: r
    e['CredentialData'] = lambda key, count, user_entity=None, rp_entity=None: NS(
        key=key, count=count, user=user_entity, rp=rp_entity)
    ctx = Body(e, call)
    mod = module(path)
    ctx.run([s for s in mod.body if not isinstance(s, ast.FunctionDef)])
    for fn in mod.body:
        if isinstance(fn, ast.FunctionDef):
            items.clear()
            b = Body(ctx.env, call)
            b.run(fn.body)
            out.expects(fn.name, where(path, fn), items)


def test_attesters(out, env):
    path = 'tests/test_attesters.py'
    out.section('test_attesters.py')
    items = []

    def term(ctx, c):
        s, o, a, h = [ctx.ev(x) for x in c.args]
        return f'attest attester_world {stmt(s)} (ArgObj {att_obj(o)}) {cbytes(a)} {cbytes(h)}'

    def call(ctx, st, classes):
        if classes is not None:
            items.append(f'raises {clist(str, classes)} ({term(ctx, st.value)})')
        else:
            ty, certs = ctx.ev(st.test.comparators[0])
            items.append(f'attested_as AT_{ty.name} {copt(lambda l: clist(lambda c: cbytes(c.der), l), certs)} '
                         f'({term(ctx, st.test.left)})')

    e = dict(env)
    dummy = env['AttestationObject'](
        auth_data=None, fmt=env['AttestationStatementFormatIdentifier'].NONE,
        att_stmt=env['NoneAttestationStatement']())
    e['MagicMock'] = lambda: dummy
    done = []
    for fn in module(path).body:
        if isinstance(fn, ast.FunctionDef):
            items.clear()
            Body(e, call).run(fn.body)
            done.append((fn, list(items)))
    out.comment('The certificates of the tests, by their DER form; key descriptions are DER')
    out.raw('Definition attester_certs : list cert :=\n  [ '
            + ';\n    '.join(cert(c) for c in CERTS) + ' ].')
    out.raw(ATTESTER_WORLD)
    for fn, its in done:
        out.comment(where(path, fn))
        out.raw(f'Example {fn.name} :\n  forallb (fun b : bool => b)\n  [ ' + ';\n    '.join(its)
                + ' ] = true.\nProof. vm_compute. reflexivity. Qed.')


def test_asn1(out, env):
    out.section('test_asn1.py')
    der = key_description(b'attestation-challenge', b'unique-id',
                          {'origin': 0, 'purpose': [1], 'allApplications': None}, {})
    out.comment('tests/test_asn1.py:8-30')
    out.raw(f'''Example test_encode_decode :
  decode_key_description 100 {cbytes(der)}
  = WOk {{| kd_challenge := blit "attestation-challenge";
            kd_software := {{| al_purpose := Some [1%Z]; al_all_applications := true;
                              al_origin := Some 0%Z |}};
            kd_tee := {{| al_purpose := None; al_all_applications := false; al_origin := None |}} |}}.
Proof. vm_compute. reflexivity. Qed.''')


def test_converters(out, env):
    path = 'tests/test_converters.py'
    out.section('test_converters.py')
    ev = Eval(env).ev
    fns = {f.name: f for f in module(path).body if isinstance(f, ast.FunctionDef)}
    found = []

    def call(ctx, st, classes):
        found.append((ctx.ev(st.test.left), ctx.ev(st.test.comparators[0])))

    for nm in ('test_jsonify_credential_creation_options', 'test_jsonify_credential_request_options'):
        found.clear()
        e = dict(env)
        e['jsonify'] = lambda o: o
        Body(e, call).run(fns[nm].body)
        (a, b), = found
        out.comment(where(path, fns[nm]))
        out.raw(f'Example {nm} :\n  match jsonify ascii_unicode 100 true {pobj(a)} with\n'
                f'  | Ok v => same 100 v {pv(b)} = true\n  | Raise _ => False\n  end.\n'
                'Proof. vm_compute. reflexivity. Qed.')
    fn = fns['test_jsonify_success']
    out.results(fn.name, where(path, fn),
                [(f'jsonify ascii_unicode 100 true {pobj(a)}', pv(b)) for a, b in ev(params(fn)[0][1])])
    fn = fns['test_jsonify_errors']
    out.errors(fn.name, where(path, fn), raised(fn),
               [f'jsonify ascii_unicode 100 true {pobj(a)}' for a in ev(params(fn)[0][1])])
    fn = fns['test__build_base_cose_dictionary_success']
    out.results(fn.name, where(path, fn),
                [(f'base_cose_dictionary {base(a)}', pdict(b)) for a, b in ev(params(fn)[0][1])])
    keys = []
    ty, al = env['COSEKeyType'].Value, env['COSEAlgorithmIdentifier'].Value
    for c in env['EC2Curve'].Value:
        k = ec2_credential_key(env, c)
        k.alg = None
        keys.append((k, Cpk(CURVES[c.name], int.from_bytes(k.x, 'big'), int.from_bytes(k.y, 'big')).coq()))
    out.results('test_cryptography_ec2_public_key', where(path, fns['test_cryptography_ec2_public_key']),
                [(f'cryptography_public_key {W} {pubkey(k)}', c) for k, c in keys])
    for nm, c, kind in (('test_cryptography_okp_public_key_ed25519', 'ED25519', 'CEd25519'),
                        ('test_cryptography_okp_public_key_ed448', 'ED448', 'CEd448')):
        k = okp_credential_key(env, getattr(env['OKPCurve'].Value, c))
        k.alg = None
        out.results(nm, where(path, fns[nm]),
                    [(f'cryptography_public_key {W} {pubkey(k)}', f'({kind} {cbytes(k.x)})')])
    for nm, curves, gen in (('test_cose_ec2_public_key', env['EC2Curve'].Value, ec2_credential_key),
                            ('test_cose_okp_public_key', env['OKPCurve'].Value, okp_credential_key)):
        ks = [gen(env, c) for c in curves]
        out.results(nm, where(path, fns[nm]), [(f'through_cose {pubkey(k)}', pubkey(k)) for k in ks])


HEADER = '''(** * RepoTests: the tests of the project (/repo/tests), stated about the model.

    Written by tools/gentests.py, which reads the test files as text. They are checks of the
    model's faithfulness, not proofs of properties. Hash, keys and signatures are those of
    Examples.v in place of SHA-256 and the cryptography library. *)
From Coq Require Import List NArith ZArith Bool String.
From Coq Require Import Strings.Byte.
From Verif Require Import Base PyVal B64 CaseConv Utf8 Url Json Cbor Types World Parsers Crypto
  Backends Registrars Jsonify Builders Der Asn1 Examples.
Import ListNotations.
Local Open Scope list_scope.

(** [with pytest.raises(cs)] *)
Definition raises {A} (cs : list libexn) (r : res A) : bool :=
  match r with Ok _ => false | Raise e => existsb (fun c => is_lib c e) cs end.
Definition returns {A} (r : res A) : bool := match r with Ok _ => true | Raise _ => false end.

(** [==] of values that may contain dicts, whose order does not count. *)
Fixpoint same (depth : nat) (a b : pyval) : bool :=
  match depth with
  | O => false
  | S d =>
      match a, b with
      | VDict x, VDict y =>
          Nat.eqb (List.length x) (List.length y) &&
          forallb (fun kv => match dict_find (fst kv) y with
                             | Some v => same d (snd kv) v | None => false end) x
      | VList x, VList y | VTuple x, VTuple y =>
          Nat.eqb (List.length x) (List.length y) &&
          forallb (fun p => same d (fst p) (snd p)) (combine x y)
      | _, _ => py_eq a b
      end
  end.

(** A registrar that always answers the same. *)
Definition constant_registrar (get : res (option cred_data)) (assert attest : reg_answer)
  : registrar unit :=
  {| r_get s _ := (s, get); r_assert s _ _ _ _ := (s, assert);
     r_attest s _ _ _ _ _ _ := (s, attest) |}.

Definition verify_case (k : pubkey) (data sig : bytes) (errors : list bytes) : bool :=
  returns (verify ex_world k sig data) &&
  forallb (fun s => raises [VerificationError] (verify ex_world k s data)) errors.

Definition through_cose (k : pubkey) : res pubkey :=
  match cose_dictionary k with
  | Ok d => parse_cose_key_bytes ex_world (dumps (VDict d))
  | Raise e => Raise e
  end.

Definition attested_as (ty : att_type) (ders : option (list bytes))
           (r : res (att_type * option (list cert))) : bool :=
  match r with
  | Ok (AT_BASIC, Some l) =>
      match ty, ders with AT_BASIC, Some ds =>
        Nat.eqb (List.length ds) (List.length l) &&
        forallb (fun p => bytes_eqb (fst p) (ce_der (snd p))) (combine ds l)
      | _, _ => false end
  | Ok (AT_NONE, None) => match ty, ders with AT_NONE, None => true | _, _ => false end
  | _ => false
  end.
'''

ATTESTER_WORLD = '''Definition attester_world : World := {|
  w_sha256 := w_sha256 ex_world; w_cbor_load := w_cbor_load ex_world;
  w_json_loads := w_json_loads ex_world; w_url := w_url ex_world;
  w_ec_load := w_ec_load ex_world; w_ed25519_load := w_ed25519_load ex_world;
  w_ed448_load := w_ed448_load ex_world; w_verify := w_verify ex_world;
  w_spki := w_spki ex_world;
  w_load_cert der := match find (fun c => bytes_eqb der (ce_der c)) attester_certs with
                     | Some c => WOk c | None => WRaise EValueError end;
  w_keydesc := decode_key_description 100;
  w_shows := w_shows ex_world; w_shows_exn := w_shows_exn ex_world;
|}.'''

BUILDERS = '''
(** ** /repo/tests/test_builders.py

    The mocks are read as: any values, which are therefore not None. *)

(** tests/test_builders.py:12-31 *)
Example test_credential_creation_options_builder_success :
  forall rp ps t sel ext att excl u c,
    let l := [set_rp (Some rp); set_pub_key_cred_params (Some ps); set_timeout (Some t);
              set_authenticator_selection (Some sel); set_extensions (Some ext);
              set_attestation (Some att); set_exclude_credentials (Some excl)] in
    forallb (fun last => match chain creation_set creation_default (l ++ last) with
                         | Ok b => returns (creation_build b u c)
                         | Raise _ => false
                         end) ([] :: map (fun call => [call]) l) = true.
Proof. reflexivity. Qed.

(** tests/test_builders.py:34-46 *)
Example test_credential_creation_options_builder_error :
  forall u c,
    raises [BuilderError] (creation_build creation_default u c) = true /\\
    creation_set creation_default (set_rp None) = Raise (Py EAssertionError) /\\
    creation_set creation_default (set_pub_key_cred_params None) = Raise (Py EAssertionError).
Proof. repeat split. Qed.

(** tests/test_builders.py:49-71 *)
Example test_credential_request_options_builder_success :
  forall m t rp ext uv c allow,
    let l := [rset_mediation (Some m); rset_timeout (Some t); rset_rp_id (Some rp);
              rset_extensions (Some ext); rset_user_verification (Some uv)] in
    forallb (fun calls => match chain request_set request_default calls with
                          | Ok b => returns (request_build b c allow)
                          | Raise _ => false
                          end) (l :: [] :: map (fun call => [call]) l) = true.
Proof. reflexivity. Qed.

(** tests/test_builders.py:74-80 *)
Example test_credential_request_options_builder_error :
  request_set request_default (rset_mediation None) = Raise (Py EAssertionError).
Proof. reflexivity. Qed.

(** ** /repo/tests/test_registrars.py *)

(** tests/test_registrars.py:7-29, for any arguments *)
Example test_credentials_registrar : forall (S : Type) (s : S) c att ty u rp path ad i,
  r_attest (base_registrar S) s c att ty u rp path = (s, raise UnimplementedError) /\\
  r_assert (base_registrar S) s c ad u rp = (s, raise UnimplementedError) /\\
  r_get (base_registrar S) s i = (s, raise UnimplementedError).
Proof. repeat split. Qed.
'''


def main():
    env = base_env()
    out = Out()
    out.raw(HEADER)
    test_utils(out, env)
    test_validators(out, env)
    test_parsers(out, env)
    test_converters(out, env)
    test_verifiers(out, env)
    test_asn1(out, env)
    test_attesters(out, env)
    test_backends(out, env)
    out.raw(BUILDERS)
    with open(os.path.join(ROOT, 'rocq/theories/RepoTests.v'), 'w') as fh:
        fh.write('\n'.join(out.parts) + '\n')


main()
