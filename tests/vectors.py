#!/usr/bin/env python3
"""Reads the test vectors of /repo/src/validation.rs as text, computes with its own code (RFC 4034, sections 3.1.8.1
and 6) the octets each RRSIG is over, checks the signatures, and writes rocq/theories/RepoW.v."""
import re, base64, hashlib, sys
src = open('/repo/src/validation.rs').read()
src = src[src.index('mod tests {'):]
TY = dict(A=1, NS=2, CName=5, Txt=16, AAAA=28, DName=39, DS=43, RRSig=46, NSec=47, DnsKey=48, NSec3=50, TLSA=52)
def b32(s):
    al = '0123456789ABCDEFGHIJKLMNOPQRSTUV'
    n = 0
    for c in s: n = n * 32 + al.index(c)
    return n.to_bytes(len(s) * 5 // 8, 'big')
def value(v, pfx):
    v = v.strip()
    m = re.match(r'"(.*?)"\.try_into', v)
    if m: return m.group(1)
    if v == 'name.clone()': return pfx
    m = re.search(r'base64::decode\("(.*?)"\)', v)
    if m: return base64.b64decode(m.group(1))
    m = re.search(r'base32::decode\("(.*?)"\)', v)
    if m: return b32(m.group(1))
    m = re.search(r'from_hex\("(.*?)"\)', v)
    if m: return bytes.fromhex(m.group(1))
    m = re.match(r'"(.*?)"\.to_owned', v)
    if m: return m.group(1).encode()
    m = re.match(r'(\w+)::TYPE', v)
    if m: return TY[m.group(1)]
    m = re.search(r'from_types\(&\[(.*?)\]\)', v)
    if m: return [TY[x.strip().split('::')[0]] for x in m.group(1).split(',')]
    return int(v)
def records(fn, pfx=None):
    i = src.index('fn ' + fn + '(')
    j = src.index('\n\t}\n', i)
    body = src[i:j]
    if pfx is not None:
        k = re.search(r'pfx\.to_owned\(\) \+ "(.*?)"', body)
        pfx = pfx + k.group(1) if k else pfx
    out = []
    for m in re.finditer(r'\b(DS|RRSig|DnsKey|Txt|CName|NSec3|NSec) \{(.*?)\n\t\t\}', body, re.S):
        # several structs may be joined by "}, DnsKey {"
        kind, text = m.group(1), m.group(2)
        parts = re.split(r'\n\t\t\}, \w+ \{', text)
        for t in parts:
            d = {}
            for f in re.finditer(r'(\w+):\s*((?:[^,\[\]()"]|"[^"]*"|\([^()]*(?:\([^()]*\)[^()]*)*\)|\[[^\]]*\])+)', t):
                d[f.group(1)] = value(f.group(2), pfx)
            out.append((kind, d))
    return out
# ---- RFC 4034: names, RDATA, canonical order, signed data, key tags ----
KIND = dict(DS=43, RRSig=46, DnsKey=48, Txt=16, CName=5, NSec3=50, NSec=47, TLSA=52)
def labels(n): return [l for l in n.lower().split('.') if l]
def wname(ls): return b''.join(bytes([len(l)]) + l.encode() for l in ls) + b'\0'
def bitmap(types):
    out = b''
    for w in sorted({t >> 8 for t in types}):
        m = bytearray(32)
        for t in types:
            if t >> 8 == w: m[(t & 255) >> 3] |= 0x80 >> (t & 7)
        m = bytes(m).rstrip(b'\0')
        out += bytes([w, len(m)]) + m
    return out
def be(n, k): return n.to_bytes(k, 'big')
def rdata(k, d):
    if k == 'DS': return be(d['key_tag'], 2) + bytes([d['alg'], d['digest_type']]) + d['digest']
    if k == 'DnsKey': return be(d['flags'], 2) + bytes([d['protocol'], d['alg']]) + d['pubkey']
    if k == 'Txt': return b''.join(bytes([len(d['data'][i:i+255])]) + d['data'][i:i+255] for i in range(0, len(d['data']), 255))
    if k == 'CName': return wname(labels(d['canonical_name']))
    if k == 'NSec': return wname(labels(d['next_name'])) + bitmap(d['types'])
    if k == 'NSec3': return bytes([d['hash_algo'], d['flags']]) + be(d['hash_iterations'], 2) + bytes([len(d['salt'])]) + d['salt'] \
        + bytes([len(d['next_name_hash'])]) + d['next_name_hash'] + bitmap(d['types'])
    if k == 'TLSA': return bytes([d['cert_usage'], d['selector'], d['data_ty']]) + d['data']
    raise Exception(k)
def signed(sig, rrset):
    pre = be(sig['ty'], 2) + bytes([sig['alg'], sig['labels']]) + be(sig['orig_ttl'], 4) + be(sig['expiration'], 4) \
        + be(sig['inception'], 4) + be(sig['key_tag'], 2) + wname(labels(sig['key_name']))
    out = pre
    for rd in sorted({rdata(k, d) for k, d in rrset}):
        ls = labels(rrset[0][1]['name'])
        real = [l for l in ls if l != '*'] if ls[:1] == ['*'] else ls
        if len(real) > sig['labels']: ls = ['*'] + ls[len(ls) - sig['labels']:]
        out += wname(ls) + be(sig['ty'], 2) + be(1, 2) + be(sig['orig_ttl'], 4) + be(len(rd), 2) + rd
    return out
def tag(d):
    rd = rdata('DnsKey', d)
    ac = sum(b << 8 if i % 2 == 0 else b for i, b in enumerate(rd))
    return (ac + (ac >> 16 & 0xffff)) & 0xffff
# ---- RSASSA-PKCS1-v1_5 and ECDSA P-256, both with SHA-256 ----
def rsa_key(pk):
    n, p = (pk[0], 1) if pk[0] else (int.from_bytes(pk[1:3], 'big'), 3)
    return pk[p+n:], pk[p:p+n]
def rsa_ok(pk, msg, sig):
    n, e = (int.from_bytes(x, 'big') for x in rsa_key(pk))
    t = bytes.fromhex('3031300d060960864801650304020105000420') + hashlib.sha256(msg).digest()
    k = len(sig)
    return pow(int.from_bytes(sig, 'big'), e, n) == int.from_bytes(b'\0\1' + b'\xff' * (k - len(t) - 3) + b'\0' + t, 'big')
P = 2**256 - 2**224 + 2**192 + 2**96 - 1
Q = 0xffffffff00000000ffffffffffffffffbce6faada7179e84f3b9cac2fc632551
G = (0x6b17d1f2e12c4247f8bce6e563a440f277037d812deb33a0f4a13945d898c296, 0x4fe342e2fe1a7f9b8ee7eb4a7c0f9e162bce33576b315ececbb6406837bf51f5)
def padd(a, b):
    if a is None: return b
    if b is None: return a
    if a[0] == b[0]:
        if (a[1] + b[1]) % P == 0: return None
        m = (3 * a[0] * a[0] - 3) * pow(2 * a[1], -1, P)
    else: m = (b[1] - a[1]) * pow(b[0] - a[0], -1, P)
    x = (m * m - a[0] - b[0]) % P
    return x, (m * (a[0] - x) - a[1]) % P
def pmul(k, a):
    r = None
    while k:
        if k & 1: r = padd(r, a)
        a, k = padd(a, a), k >> 1
    return r
def ecdsa_ok(pk, msg, sig):
    k = (int.from_bytes(pk[:32], 'big'), int.from_bytes(pk[32:], 'big'))
    r, s = int.from_bytes(sig[:32], 'big'), int.from_bytes(sig[32:], 'big')
    w = pow(s, -1, Q)
    z = int.from_bytes(hashlib.sha256(msg).digest(), 'big')
    return padd(pmul(z * w % Q, G), pmul(r * w % Q, k))[0] % Q == r

# ---- RFC 9102's chain, as octets ----
def rname(b, i):
    out = ''
    while b[i]:
        out += b[i+1:i+1+b[i]].decode() + '.'
        i += 1 + b[i]
    return out or '.', i + 1
def unwire(b):
    i, out = 0, []
    while i < len(b):
        n, i = rname(b, i)
        ty, ln = int.from_bytes(b[i:i+2], 'big'), int.from_bytes(b[i+8:i+10], 'big')
        d, i = b[i+10:i+10+ln], i + 10 + ln
        g = lambda a, z: int.from_bytes(d[a:z], 'big')
        if ty == 52: out.append(('TLSA', dict(name=n, cert_usage=d[0], selector=d[1], data_ty=d[2], data=d[3:])))
        elif ty == 43: out.append(('DS', dict(name=n, key_tag=g(0, 2), alg=d[2], digest_type=d[3], digest=d[4:])))
        elif ty == 48: out.append(('DnsKey', dict(name=n, flags=g(0, 2), protocol=d[2], alg=d[3], pubkey=d[4:])))
        elif ty == 46:
            kn, j = rname(d, 18)
            out.append(('RRSig', dict(name=n, ty=g(0, 2), alg=d[2], labels=d[3], orig_ttl=g(4, 8), expiration=g(8, 12),
                inception=g(12, 16), key_tag=g(16, 18), key_name=kn, signature=d[j:])))
        else: raise Exception(ty)
    return out

# ---- Coq ----
def cb(b): return '[' + ';'.join(map(str, b)) + ']'
FIELD = {'DS': 'ds_', 'RRSig': 'rs_', 'DnsKey': 'dk_', 'Txt': 'tx_', 'CName': 'cn_', 'NSec3': 'n3_', 'NSec': 'ns_', 'TLSA': 'tl_'}
REN = dict(canonical_name='canonical', hash_algo='algo', hash_iterations='iters', next_name_hash='next_hash', next_name='next', cert_usage='usage')
def cv(k, f, v, pfx):
    if isinstance(v, str):
        return '(bs (pfx ++ "%s"))' % v[len(pfx):] if pfx and v.startswith(pfx) and not v.startswith('*') else 'bs "%s"' % v
    if isinstance(v, bytes): return 'bs "%s"' % v.decode() if k == 'Txt' else cb(v)
    if isinstance(v, list): return 'mask_from_types [%s]' % '; '.join(map(str, v))
    return str(v)
def crr(k, d, pfx=None):
    return 'RR_%s {| %s |}' % (k, '; '.join('%s%s := %s' % (FIELD[k], REN.get(f, f), cv(k, f, v, pfx)) for f, v in d.items()))
FIX = [f for f in re.findall(r'\n\tfn (\w+)\(', src) if not f.startswith(('check', 'rfc'))]
rfc = bytes.fromhex(re.search(r'rfc9102_test_vector = Vec::from_hex\("(.*?)"', src).group(1))
MARK = 'PFXPFX'
def fixture(f): return records(f, MARK if '%s(pfx' % f in src else None)
if __name__ == '__main__':
    fx = {f: fixture(f) for f in FIX}
    sets = list(fx.values()) + [unwire(rfc)]
    keys = [d for s in sets for k, d in s if k == 'DnsKey']
    table, bad = [], 0
    for s in sets:
        for k, sig in s:
            if k != 'RRSig': continue
            rrset = [(a, d) for a, d in s if KIND[a] == sig['ty'] and d['name'] == sig['name']]
            ks = [d for d in keys if d['name'] == sig['key_name'] and tag(d) == sig['key_tag'] and d['alg'] == sig['alg']]
            msg = signed(sig, rrset)
            good = [d for d in ks if (rsa_ok if sig['alg'] == 8 else ecdsa_ok)(d['pubkey'], msg, sig['signature'])]
            if len(good) < 1: bad += 1; print('(* BAD', sig['name'], sig['ty'], len(rrset), len(ks), '*)', file=sys.stderr)
            else: table.append((sig['alg'], good[0]['pubkey'], msg, sig['signature']))
    seen, tab = set(), []
    for t in table:
        if t not in seen: seen.add(t); tab.append(t)
    print('%d signatures good, %d bad, %d different' % (len(table), bad, len(tab)), file=sys.stderr)
    o = ['(** Generated by tests/vectors.py from the test vectors of src/validation.rs:591-982 and 1224: the records, and for',
         '    every RRSIG among them the key, the octets it is over (computed and checked by that script) and the signature. *)',
         'From Verif Require Import Base NameM WireM RRM ValM.', 'From Coq Require Import String.', 'Local Open Scope N_scope.', '']
    for f, rs in fx.items():
        p = MARK if '%s(pfx' % f in src else None
        o.append('Definition r_%s %s: list RR :=\n  [%s].' % (f, '(pfx : string) ' if p else '', ';\n   '.join(crr(k, d, p) for k, d in rs)))
    o.append('Definition rfc9102_chain : bytes :=\n  %s.' % cb(rfc))
    rows = []
    for alg, pk, msg, sig in tab:
        key = 'PK_RSA %s %s' % tuple(map(cb, rsa_key(pk))) if alg == 8 else 'PK_raw (4 :: %s)' % cb(pk)
        rows.append('(%s, %s,\n    %s,\n    %s)' % ('RSA_SHA256' if alg == 8 else 'ECDSA_P256', key, cb(msg), cb(sig)))
    o.append('Definition good_signatures : list (sigalg * pubkey * bytes * bytes) :=\n  [%s].' % ';\n   '.join(rows))
    open(sys.argv[1], 'w').write('\n'.join(o) + '\n')
