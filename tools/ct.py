#!/usr/bin/env python3
"""Writes the programs of C58 (Ct64_Code.v and Ct32_Code.v) from the C source text.

Usage: ct.py preprocessed.i 64|32 output.v.  The input is /repo/src/secp256k1.c after the C preprocessor, with all modules
enabled and USE_FORCE_WIDEMUL_INT128 (64) or USE_FORCE_WIDEMUL_INT64 (32) defined:
  cpp -DUSE_FORCE_WIDEMUL_INT128 -I/repo -I/repo/src -I/repo/include inc.c > p64.i
where inc.c defines ECMULT_WINDOW_SIZE 15 and ENABLE_MODULE_ECDH, RECOVERY, EXTRAKEYS, SCHNORRSIG, MUSIG and ELLSWIFT, and includes secp256k1.c.
Only macros and includes are expanded; nothing is compiled or run.  Functions are translated statement by statement to the
language of CtLang.v.  The labels of parameters and results are inferred here and checked in Coq, so nothing here needs to
be trusted for the labels.  The translation itself, and which objects are public, are part of the model."""
import re, sys

# ---------------------------------------------------------------- configuration
PUBFIELDS = {'bytes', 'retry', 'built', 'noncefp', 'ndata'}
PUBVARS = {'offset'}                    # counters whose address is taken
PRIMS = {'memcpy', 'memset', 'memmove', 'secp256k1_memclear'}
FNPTR = {('secp256k1_ecdsa_sign_inner', 'noncefp'): 'nonce_function_rfc6979',
         ('secp256k1_ecdh', 'hashfp'): 'ecdh_hash_function_sha256',
         ('secp256k1_schnorrsig_sign_internal', 'noncefp'): 'nonce_function_bip340',
         ('secp256k1_ellswift_xdh', 'hashfp'): 'ellswift_xdh_hash_function_bip324'}
GLOBFN = {'secp256k1_nonce_function_bip340', 'secp256k1_ecdh_hash_function_default', 'secp256k1_ecdh_hash_function_sha256',
          'secp256k1_nonce_function_default', 'secp256k1_nonce_function_rfc6979'}
# functions taken as a whole; they only read and write public memory
OPAQUE = {'secp256k1_fe_impl_is_square_var', 'secp256k1_ellswift_elligatorswift_var', 'secp256k1_ecmult', 'secp256k1_ellswift_xswiftec_frac_var', 'secp256k1_eckey_pubkey_tweak_add', 'secp256k1_ge_set_xo_var'}
# objects in public memory: (function, variable); public parameters of the API functions
PUBOBJ = {('secp256k1_ecmult_const', 'pre_a'), ('secp256k1_ecmult_const', 'pre_a_lam'), ('secp256k1_ecmult_const', 'global_z'),
          ('secp256k1_schnorrsig_sign_internal', 'pk'), ('secp256k1_keypair_xonly_tweak_add', 'pk'),
          ('secp256k1_ellswift_xdh', 'xn'), ('secp256k1_ellswift_xdh', 'xd'), ('secp256k1_ellswift_xdh', 'u'), ('secp256k1_ellswift_xdh', 't'),
          ('secp256k1_ecmult_const_xonly', 'g'), ('secp256k1_ecmult_const_xonly', 'p'),
          ('secp256k1_musig_nonce_gen_internal', 'pk'), ('secp256k1_musig_nonce_gen_internal', 'pk_ser'), ('secp256k1_musig_nonce_gen_internal', 'pk_ser_len'),
          ('secp256k1_musig_nonce_gen_internal', 'aggpk_ser'), ('secp256k1_musig_nonce_gen_internal', 'cache_i'),
          ('secp256k1_musig_partial_sign', 'pk'), ('secp256k1_musig_partial_sign', 'keypair_pk'), ('secp256k1_musig_partial_sign', 'cache_i'),
          ('secp256k1_musig_partial_sign', 'session_i'), ('secp256k1_musig_partial_sign', 'mu'), ('secp256k1_ellswift_create', 't'),
          ('secp256k1_nonce_function_musig', 'i'), ('secp256k1_nonce_function_musig', 'msg_present'), ('secp256k1_ecmult_const_xonly', 'b'), ('secp256k1_ecmult_const_xonly', 'c'), ('secp256k1_nonce_function_musig_helper', 'len'), ('secp256k1_musig_nonce_gen_counter', 'pubkey')}
PUBPARAM = {('secp256k1_ecdh', 'point'), ('secp256k1_keypair_xonly_tweak_add', 'tweak32'), ('secp256k1_ellswift_xdh', 'ell_a64'), ('secp256k1_ellswift_xdh', 'ell_b64'),
            ('secp256k1_ellswift_create', 'auxrnd32'), ('secp256k1_musig_nonce_gen', 'pubkey'), ('secp256k1_musig_nonce_gen', 'keyagg_cache'),
            ('secp256k1_musig_nonce_gen_counter', 'keyagg_cache'), ('secp256k1_musig_partial_sign', 'keyagg_cache'), ('secp256k1_musig_partial_sign', 'session'), ('secp256k1_schnorrsig_sign_custom', 'extraparams')}
SECPARAM = {('secp256k1_musig_nonce_gen_counter', 'nonrepeating_cnt')}     # a secret that is passed by value
# arguments which are public at this call: (function, callee, argument); and conditions: (function, condition) -> tag
CALLVIEW = {('secp256k1_musig_nonce_gen_counter', 'secp256k1_keypair_pub', 2),
            ('secp256k1_musig_secnonce_load', 'secp256k1_memcmp_var', 0), ('secp256k1_musig_secnonce_load', 'secp256k1_ge_from_bytes', 1),
            ('secp256k1_ellswift_create', 'secp256k1_ellswift_elligatorswift_var', 0), ('secp256k1_ellswift_create', 'secp256k1_fe_get_b32', 0),
            ('secp256k1_ecdh', 'secp256k1_pubkey_load', 1), ('secp256k1_ecdh', 'secp256k1_ecmult_const', 1), ('secp256k1_ecmult_const', 'secp256k1_gej_set_ge', 0), ('secp256k1_ecmult_const', 'secp256k1_ecmult_const_odd_multiples_table_globalz', 2)}
REVEAL = {('secp256k1_musig_nonce_gen_counter', '!secp256k1_musig_nonce_gen_internal'): 'secp256k1_musig_nonce_gen_counter: secret key is valid'}
SKIP_CALL = {'secp256k1_fe_verify', 'secp256k1_fe_verify_magnitude', 'secp256k1_ge_verify', 'secp256k1_gej_verify',
             'secp256k1_scalar_verify', 'secp256k1_u128_check_bits', 'secp256k1_i128_check_pow2'}

KEYWORDS = {'static','const','inline','__inline__','__inline','volatile','extern','unsigned','signed','int','char','long','short','void','struct','restrict','__restrict__','register','__int128','size_t'}
TOK = re.compile(r'\s+|(?P<id>[A-Za-z_]\w*)|(?P<num>0[xX][0-9a-fA-F]+[uUlL]*|\d+[uUlL]*)|(?P<str>"(?:\\.|[^"\\])*")|(?P<chr>\'(?:\\.|[^\'\\])+\')|(?P<p>->|\+\+|--|<<=|>>=|<<|>>|<=|>=|==|!=|&&|\|\||[-+*/%&|^]=|\.\.\.|[-+*/%&|^~!<>=?:;,.(){}\[\]])')

def tokenize(text):
    toks = []; line = 0; fname = ''
    for raw in text.split('\n'):
        m = re.match(r'#\s*(?:line\s+)?(\d+)\s+"([^"]*)"', raw)
        if m: line = int(m.group(1)); fname = m.group(2); continue
        pos = 0
        while pos < len(raw):
            m = TOK.match(raw, pos)
            if not m: raise SystemExit('token %r in %s:%d' % (raw[pos:pos+20], fname, line))
            if m.lastgroup: toks.append((m.lastgroup, m.group(), fname, line))
            pos = m.end()
        line += 1
    return toks

INT = ('int',)
class Types:
    structs = {}; names = set(); tags = {}
T = Types()

class P:
    """Recursive-descent parser over a token list."""
    def __init__(s, toks): s.t = toks; s.i = 0
    def peek(s, k=0): return s.t[s.i+k][1] if s.i+k < len(s.t) else None
    def kind(s, k=0): return s.t[s.i+k][0] if s.i+k < len(s.t) else None
    def next(s): s.i += 1; return s.t[s.i-1][1]
    def eat(s, x):
        if s.peek() != x: raise SystemExit('expected %s got %s at %s:%d' % (x, s.peek(), s.t[s.i][2], s.t[s.i][3]))
        s.i += 1
    def accept(s, x):
        if s.peek() == x: s.i += 1; return True
        return False
    def is_type(s, k=0): return s.peek(k) in KEYWORDS or s.peek(k) in T.names
    def base_type(s):
        base = INT; got = False
        while True:
            t = s.peek()
            if t in ('struct', 'union', 'enum'):
                s.next()
                tag = s.next() if s.kind() == 'id' else None
                if s.peek() == '{':
                    base = s.struct_body()
                    if tag: T.tags.setdefault(tag, {}).update(base[1]); base = ('struct', T.tags[tag])
                elif tag: base = ('struct', T.tags.setdefault(tag, {}))
                got = True; continue
            if t in KEYWORDS: s.next(); got = got or t not in ('static','const','inline','__inline__','__inline','volatile','extern','restrict','__restrict__','register'); continue
            if t == '__attribute__': s.next(); s.skip_paren(); continue
            if not got and t in T.names:
                s.next(); base = T.structs.get(t, INT); got = True; continue
            return base
    def skip_paren(s):
        s.eat('('); d = 1
        while d: t = s.next(); d += (t == '(') - (t == ')')
    def struct_body(s):
        s.eat('{'); fields = {}
        while not s.accept('}'):
            b = s.base_type()
            while True:
                n, ty = s.declarator(b)
                fields[n] = ty
                if not s.accept(','): break
            s.eat(';')
        return ('struct', fields)
    def declarator(s, base):
        ty = base
        while s.peek() in ('*', 'const', 'volatile', 'restrict', '__restrict__'):
            if s.next() == '*': ty = ('ptr', ty)
        if s.peek() == '(':           # function pointer (*f)(...)
            s.eat('('); s.eat('*'); n = s.next() if s.kind() == 'id' else ''
            s.eat(')'); s.skip_paren(); return n, ('ptr', INT)
        n = s.next() if s.kind() == 'id' else ''
        arr = 0
        while s.peek() == '[':
            s.next(); d = 1; arr += 1
            while d: t = s.next(); d += (t == '[') - (t == ']')
        for _ in range(arr): ty = ('arr', ty)
        return n, ty
    # expressions
    BIN = [['||'], ['&&'], ['|'], ['^'], ['&'], ['==', '!='], ['<', '>', '<=', '>='], ['<<', '>>'], ['+', '-'], ['*', '/', '%']]
    def expr(s):
        e = s.assign()
        while s.accept(','): e = ('comma', e, s.assign())
        return e
    def assign(s):
        e = s.cond()
        t = s.peek()
        if t == '=': s.next(); return ('asg', e, s.assign())
        if t in ('+=','-=','*=','/=','%=','&=','|=','^=','<<=','>>='): s.next(); return ('asgop', t[:-1], e, s.assign())
        return e
    def cond(s):
        c = s.binary(0)
        if s.accept('?'):
            a = s.expr(); s.eat(':'); b = s.cond(); return ('cond', c, a, b)
        return c
    def binary(s, lvl):
        if lvl == len(s.BIN): return s.unary()
        e = s.binary(lvl+1)
        while s.peek() in s.BIN[lvl]: o = s.next(); e = ('bin', o, e, s.binary(lvl+1))
        return e
    def unary(s):
        t = s.peek()
        if t in ('-', '~', '!', '+'): s.next(); return ('un', t, s.unary())
        if t == '*': s.next(); return ('deref', s.unary())
        if t == '&': s.next(); return ('addr', s.unary())
        if t in ('++', '--'): s.next(); e = s.unary(); return ('asgop', t[0], e, ('num', '1'))
        if t == 'sizeof':
            s.next(); j = s.i
            if s.peek() == '(': s.skip_paren()
            else: s.unary()
            return ('sizeof', ' '.join(x[1] for x in s.t[j:s.i]))
        if t == '(' and s.is_type(1):
            s.next(); j = s.i; b = s.base_type(); _, ty = s.declarator(b); txt = ' '.join(x[1] for x in s.t[j:s.i]); s.eat(')')
            return ('cast', ty, txt, s.unary())
        return s.postfix()
    def postfix(s):
        k, t = s.kind(), s.next()
        if t == '(': e = s.expr(); s.eat(')')
        elif k == 'id': e = ('id', t)
        elif k == 'num': e = ('num', t.rstrip('uUlL'))
        elif k == 'str':
            while s.kind() == 'str': s.next()
            e = ('str', t)
        elif k == 'chr': e = ('num', str(ord(t[1])) if len(t) == 3 else '0')
        else: raise SystemExit('bad expression token %s at %s:%d' % (t, s.t[s.i-1][2], s.t[s.i-1][3]))
        while True:
            t = s.peek()
            if t == '(':
                s.next(); args = []
                if s.peek() != ')':
                    args.append(s.assign())
                    while s.accept(','): args.append(s.assign())
                s.eat(')'); e = ('call', e, args)
            elif t == '[': s.next(); i = s.expr(); s.eat(']'); e = ('index', e, i)
            elif t == '.': s.next(); e = ('fld', e, s.next())
            elif t == '->': s.next(); e = ('fld', ('deref', e), s.next())
            elif t in ('++', '--'): s.next(); e = ('post', t[0], e)
            else: return e
    # statements
    def stmt(s):
        t = s.peek()
        if t == '{':
            s.next(); l = []
            while not s.accept('}'): l.append(s.stmt())
            return ('block', l)
        if t == ';': s.next(); return ('block', [])
        if t == 'if':
            s.next(); s.eat('('); c = s.expr(); s.eat(')'); a = s.stmt(); b = ('block', [])
            if s.accept('else'): b = s.stmt()
            return ('if', c, a, b)
        if t == 'while': s.next(); s.eat('('); c = s.expr(); s.eat(')'); return ('while', c, s.stmt())
        if t == 'do':
            s.next(); b = s.stmt(); s.eat('while'); s.eat('('); c = s.expr(); s.eat(')'); s.eat(';'); return ('do', b, c)
        if t == 'for':
            s.next(); s.eat('(')
            a = None if s.peek() == ';' else s.expr(); s.eat(';')
            c = None if s.peek() == ';' else s.expr(); s.eat(';')
            st = None if s.peek() == ')' else s.expr(); s.eat(')')
            return ('for', a, c, st, s.stmt())
        if t == 'return':
            s.next(); e = None
            if s.peek() != ';': e = s.expr()
            s.eat(';'); return ('return', e)
        if t == 'break': s.next(); s.eat(';'); return ('break',)
        if t == 'switch' and s.peek(2) in ('0', '42'):   # STATIC_ASSERT, ASSERT_INT_CONST_AND_DO
            while s.next() != '{': pass
            while s.next() != '}': pass
            return ('block', [])
        if t in ('continue', 'goto', 'switch'): raise SystemExit('unsupported %s at %s:%d' % (t, s.t[s.i][2], s.t[s.i][3]))
        if s.is_type() and s.kind(1) in ('id', 'p') and s.peek(1) not in ('(', '.', '->', '=', '['):
            static = s.peek() == 'static'
            b = s.base_type(); ds = []
            while s.peek() != ';':
                n, ty = s.declarator(b); init = None
                if s.accept('='):
                    if s.peek() == '{':
                        d = 0; j = s.i
                        while True:
                            x = s.next(); d += (x == '{') - (x == '}')
                            if d == 0: break
                        init = ('init', ' '.join(x[1] for x in s.t[j:s.i]))
                    else: init = s.assign()
                ds.append((n, ty, init)); s.accept(',')
            s.eat(';'); return ('decl', static, ds)
        e = s.expr(); s.eat(';'); return ('expr', e)

class Fun:
    def __init__(f, name, params, void, toks, fname, l0, l1):
        f.name, f.params, f.void, f.toks, f.fname, f.l0, f.l1 = name, params, void, toks, fname, l0, l1

def scan(toks):
    """Struct and typedef tables, global names and function bodies."""
    funs = {}; glob = set(); i = 0; n = len(toks)
    while i < n:
        j = i; d = 0
        # one top-level item: up to ';' or a function body
        body = None
        while True:
            t = toks[j][1]
            if t in '([{' and len(t) == 1:
                if t == '{' and d == 0 and toks[j-1][1] == ')' and toks[i][1] != 'typedef':
                    body = j; k = j; dd = 0
                    while True:
                        x = toks[k][1]; dd += (x == '{') - (x == '}'); k += 1
                        if dd == 0: break
                    j = k; break
                d += 1
            elif t in ')]}' and len(t) == 1: d -= 1
            elif t == ';' and d == 0: j += 1; break
            j += 1
        item = toks[i:j]
        if body is not None:
            # name: identifier before the parameter list
            k = body - 1; dd = 0
            while True:
                x = toks[k][1]; dd += (x == ')') - (x == '(')
                if dd == 0: break
                k -= 1
            name = toks[k-1][1]
            p = P(toks[k+1:body-1]); params = []
            while p.i < len(p.t):
                b = p.base_type(); nm, ty = p.declarator(b)
                if nm: params.append((nm, ('ptr', ty[1]) if ty[0] == 'arr' else ty))
                p.accept(',')
            hd = [x[1] for x in toks[i:k-1]]
            void = 'void' in hd and '*' not in hd
            if 'secp256k1' in toks[k-1][2] or '/repo' in toks[k-1][2]:
                funs[name] = Fun(name, params, void, toks[body:j], toks[k-1][2], toks[i][3], toks[j-1][3])
        elif item[0][1] == 'typedef':
            p = P(item[1:])
            if item[-2][1] != ')' or item[1][1] == 'struct':
                try:
                    b = p.base_type(); nm, ty = p.declarator(b)
                except SystemExit: nm = ''
                if nm: T.names.add(nm); T.structs[nm] = ty
            m = [q for q in range(len(item)-2) if item[q][1] == '(' and item[q+1][1] == '*']
            if m and item[1][1] != 'struct': T.names.add(item[m[0]+2][1]); T.structs[item[m[0]+2][1]] = ('ptr', INT)
        else:
            # globals: static const T name = / extern const T name[..];
            if len(item) > 2 and item[1][1] == '__attribute__':
                k = 2; d = 0
                while True:
                    d += (item[k][1] == '(') - (item[k][1] == ')'); k += 1
                    if d == 0: break
                item = item[:1] + item[k:]
            txt = [x[1] for x in item]
            if txt[0] == 'struct' and '{' in txt and '/repo' in item[0][2]: P(item).base_type()
            if '(' not in txt or any(x in txt and txt.index(x) < txt.index('(') for x in '=['):
                e = txt.index('=') if '=' in txt else len(txt) - 1
                p = P([(x[0], x[1], x[2], x[3]) for x in item[:e]])
                try:
                    b = p.base_type(); nm, ty = p.declarator(b)
                    if nm: glob.add(nm); G[nm] = ty
                except (SystemExit, IndexError): pass
        i = j
    return funs
G = {}

def q(s): return '"%s"' % s
class Tr:
    """Translates one function."""
    def __init__(s, f, funs, sig):
        s.f, s.funs, s.scopes, s.used, s.tmp, s.calls, s.taken, s.seen = f, funs, [{}], set(), 0, [], set(), set()
        s.body = P(f.toks).stmt()
        s.find_taken(s.body)
        ptrs = [r for r, (_, ty) in zip(sig, f.params) if ty[0] == 'ptr']
        s.allpub = bool(ptrs) and 'S' not in ptrs   # a function of public objects only keeps its locals in public memory
        for (n, ty), r in zip(f.params, sig): s.declare(n, ty, 'val', r)
    def find_taken(s, e):
        if isinstance(e, tuple):
            if e[:1] == ('call',) and e[1] in (('id', 'secp256k1_declassify'), ('id', 'secp256k1_memclear')):
                return
            if e[:1] == ('addr',) and e[1][0] == 'id': s.taken.add(e[1][1])
            for x in e: s.find_taken(x)
        elif isinstance(e, list):
            for x in e: s.find_taken(x)
    def declare(s, n, ty, how, reg):
        u = n; k = 1
        while u in s.used: k += 1; u = '%s_%d' % (n, k)
        s.used.add(u); s.scopes[-1][n] = [u, ty, how, reg]
        return u
    def look(s, n):
        for sc in reversed(s.scopes):
            if n in sc: return sc[n]
        if n in G: return [n, G[n], 'glob', 'P']
        return None
    def fresh(s):
        s.tmp += 1; return 't%d' % s.tmp
    # types of lvalues
    def typ(s, e):
        k = e[0]
        if k == 'id':
            v = s.look(e[1]); return v[1] if v else ('ptr', INT)
        if k == 'deref':
            t = s.typ(e[1]); return t[1] if t[0] in ('ptr', 'arr') else INT
        if k == 'index':
            t = s.typ(e[1]); return t[1] if t[0] in ('ptr', 'arr') else INT
        if k == 'fld':
            t = s.typ(e[1])
            if t[0] != 'struct': raise SystemExit('%s: field %s of non-struct %s' % (s.f.name, e[2], e[1]))
            return t[1][e[2]]
        if k == 'addr': return ('ptr', s.typ(e[1]))
        if k == 'cast': return e[1]
        if k == 'bin' and e[1] in '+-':
            t = s.typ(e[2])
            if t[0] in ('ptr', 'arr'): return ('ptr', t[1])
            return INT
        if k == 'post': return s.typ(e[2])
        return INT
    def region(s, e):
        """the memory a pointer value points to"""
        k = e[0]
        if k == 'id':
            v = s.look(e[1]); return v[3] if v else 'S'
        if k == 'addr': return s.objreg(e[1])
        if k in ('fld', 'index', 'deref'):
            return s.objreg(e) if s.typ(e)[0] in ('arr', 'struct') else 'S'
        if k == 'cast': return s.region(e[3])
        if k == 'bin': return s.region(e[2]) if s.typ(e[2])[0] in ('ptr', 'arr') else s.region(e[3])
        if k == 'cond': return s.region(e[2])
        if k == 'post': return s.region(e[2])
        if k == 'str': return 'P'
        return 'S'
    def objreg(s, e):
        k = e[0]
        if k == 'id': v = s.look(e[1]); return v[3]
        if k == 'fld': return s.objreg(e[1])
        if k == 'deref': return s.region(e[1])
        if k == 'index': return s.objreg(e[1]) if s.typ(e[1])[0] == 'arr' and e[1][0] != 'id' else s.region(e[1])
        if k == 'cast': return s.objreg(e[3])
        return 'S'
    def pub(s, e):
        """label of the memory behind an lvalue"""
        if e[0] == 'fld' and e[2] in PUBFIELDS: return 'Pub'
        if e[0] in ('fld', 'index') and e[1][0] in ('fld', 'index') and s.pub(e[1]) == 'Pub': return 'Pub'
        if e[0] in ('deref', 'index') and e[1][0] == 'id' and e[1][1] in PUBVARS: return 'Pub'
        if e[0] == 'id' and e[1] in PUBVARS: return 'Pub'
        return 'Pub' if s.objreg(e) == 'P' else 'Sec'
    def prim(s, o, reg, args, out):
        if reg == 'P': out.append('PubPrim "_" %s [%s]' % (q(o), '; '.join(args)))
        else: out.append('Prim %s [%s]' % (q(o), '; '.join(args)))
    def copy(s, ty, reg, d, v, out):
        s.prim('copy', reg, [d, v], out)
        if reg == 'S': s.copyfields(ty, d, v, out)
    def copyfields(s, ty, d, v, out):
        """the public fields of a secret object are copied one by one"""
        for n, t in ty[1].items():
            d1, v1 = ['Op1 %s (%s)' % (q('.' + n), x) for x in (d, v)]
            if n in PUBFIELDS: out.append('Store Pub (%s) (Load Pub (%s))' % (d1, v1))
            elif t[0] == 'struct': s.copyfields(t, d1, v1, out)
    def place(s, e, out):
        """('var', x) or ('mem', address)"""
        k = e[0]
        if k == 'id':
            v = s.look(e[1])
            if not v: raise SystemExit('%s: unknown %s' % (s.f.name, e[1]))
            u, ty, how = v[:3]
            if how == 'glob': return ('mem', 'Op0 ' + q(u))
            if how == 'mem': return ('mem', 'Addr ' + q(u))
            return ('var', u)
        if k == 'deref': return ('mem', s.val(e[1], out))
        if k == 'index':
            b = s.val(e[1], out); i = s.val(e[2], out)
            return ('mem', 'Op2 "[]" (%s) (%s)' % (b, i))
        if k == 'fld':
            p = s.place(e[1], out)
            return ('mem', 'Op1 %s (%s)' % (q('.' + e[2]), p[1]))
        if k == 'cast': return s.place(e[3], out)
        raise SystemExit('%s: not an lvalue %s' % (s.f.name, e))
    def load(s, e, out):
        p = s.place(e, out); ty = s.typ(e)
        if p[0] == 'var': return 'Var ' + q(p[1])
        if ty[0] in ('arr', 'struct'): return p[1]
        return 'Load %s (%s)' % (s.pub(e), p[1])
    def store(s, e, v, out, rhs=None):
        p = s.place(e, out)
        if rhs is not None and e[0] == 'id' and s.typ(e)[0] == 'ptr' and rhs[0] != 'num' and p[0] == 'var': s.look(e[1])[3] = s.region(rhs)
        if rhs is not None and s.typ(e)[0] == 'struct' and s.objreg(e) == 'P' and s.objreg(rhs) == 'S': raise SystemExit('%s: secret copied to public %s' % (s.f.name, e))
        if p[0] == 'var': out.append('Assign %s (%s)' % (q(p[1]), v))
        elif s.typ(e)[0] == 'struct': s.copy(s.typ(e), s.objreg(e), p[1], v, out)
        else: out.append('Store %s (%s) (%s)' % (s.pub(e), p[1], v))
    def val(s, e, out):
        k = e[0]
        if k == 'num':
            return 'Num %d' % int(e[1], 0)
        if k in ('str',): return 'Op0 "string"'
        if k == 'sizeof': return 'Op0 %s' % q('sizeof ' + e[1].replace('"', ''))
        if k == 'id':
            v = s.look(e[1])
            if e[1] in GLOBFN: return 'Op0 ' + q(e[1])
            if v is None:
                if e[1] in s.funs or e[1].startswith('secp256k1_'): return 'Op0 ' + q(e[1])
                raise SystemExit('%s: unknown %s' % (s.f.name, e[1]))
            return s.load(e, out)
        if k in ('index', 'fld', 'deref'): return s.load(e, out)
        if k == 'addr':
            p = s.place(e[1], out)
            if p[0] == 'var': raise SystemExit('%s: address of %s' % (s.f.name, p[1]))
            return p[1]
        if k == 'un':
            return 'Op1 %s (%s)' % (q(e[1]), s.val(e[2], out))
        if k == 'bin':
            if e[1] in ('&&', '||'):
                t = s.fresh(); a = s.val(e[2], out); inner = []
                b = s.val(e[3], inner); inner.append('Assign %s (Op2 "!=" (%s) (Num 0))' % (q(t), b))
                other = 'Assign %s (Num %d)' % (q(t), 1 if e[1] == '||' else 0)
                blk = s.seq(inner)
                out.append('If (%s) (%s) (%s)' % ((a, blk, other) if e[1] == '&&' else (a, other, blk)))
                return 'Var ' + q(t)
            a = s.val(e[2], out); 
            b = s.val(e[3], out)
            return 'Op2 %s (%s) (%s)' % (q(e[1]), a, b)
        if k == 'cond':
            t = s.fresh(); c = s.val(e[1], out); o1 = []; o2 = []
            a = s.val(e[2], o1); o1.append('Assign %s (%s)' % (q(t), a))
            b = s.val(e[3], o2); o2.append('Assign %s (%s)' % (q(t), b))
            out.append('If (%s) (%s) (%s)' % (c, s.seq(o1), s.seq(o2)))
            return 'Var ' + q(t)
        if k == 'cast':
            if e[1][0] == 'ptr' or 'void' in e[2]: return s.val(e[3], out)
            return 'Op1 %s (%s)' % (q('(' + e[2] + ')'), s.val(e[3], out))
        if k == 'asg':
            v = s.val(e[2], out)
            if e[2][0] == 'init': pass
            s.store(e[1], v, out, e[2])
            return s.load(e[1], out)
        if k == 'asgop':
            v = s.val(e[3], out); old = s.load(e[2], out)
            s.store(e[2], 'Op2 %s (%s) (%s)' % (q(e[1]), old, v), out)
            return s.load(e[2], out)
        if k == 'post':
            t = s.fresh(); old = s.load(e[2], out)
            out.append('Assign %s (%s)' % (q(t), old))
            s.store(e[2], 'Op2 %s (Var %s) (Num 1)' % (q(e[1]), q(t)), out)
            return 'Var ' + q(t)
        if k == 'comma': s.effect(e[1], out); return s.val(e[2], out)
        if k == 'call': return s.call(e, out, True)
        raise SystemExit('%s: expression %s' % (s.f.name, e))
    def effect(s, e, out):
        if e[0] == 'call': s.call(e, out, False)
        elif e[0] == 'post':
            old = s.load(e[2], out); s.store(e[2], 'Op2 %s (%s) (Num 1)' % (q(e[1]), old), out)
        elif e[0] == 'cast' and e[2] == 'void': pass
        elif e[0] in ('asg', 'asgop', 'comma'):
            if e[0] == 'comma': s.effect(e[1], out); s.effect(e[2], out)
            elif e[0] == 'asg': 
                v = s.val(e[2], out); s.store(e[1], v, out, e[2])
            else:
                v = s.val(e[3], out); old = s.load(e[2], out)
                s.store(e[2], 'Op2 %s (%s) (%s)' % (q(e[1]), old, v), out)
        elif e[0] in ('id', 'num'): pass
        else: s.val(e, out)
    def call(s, e, out, want):
        if e[1][0] != 'id': raise SystemExit('%s: call through %s' % (s.f.name, e[1]))
        f = e[1][1]
        if f == '__builtin_expect': return s.val(e[2][0], out)
        if f in SKIP_CALL: return 'Num 1'
        if f == 'secp256k1_declassify':
            tgt = e[2][1]
            if tgt[0] == 'addr' and tgt[1][0] == 'id' and s.look(tgt[1][1])[2] == 'val':
                u = s.look(tgt[1][1])[0]
                out.append('Assign %s (Reveal %s (Var %s))' % (q(u), q(s.f.name + ': ' + u), q(u)))
            else:
                out.append('Expose %s (%s) (%s)' % (q(s.f.name + ': ' + show(tgt)), s.val(tgt, out), s.val(e[2][2], out)))
                root = tgt[1] if tgt[0] == 'addr' else tgt
                if root[0] == 'id': s.look(root[1])[3] = 'P'
            return 'Num 0'
        f = FNPTR.get((s.f.name, f), f)
        if f == 'secp256k1_callback_call': out.append('Prim "callback" []'); return 'Num 0'
        if f == 'secp256k1_memclear' and e[2][0][0] == 'addr' and e[2][0][1][0] == 'id' and s.look(e[2][0][1][1])[2] == 'val':
            out.append('Assign %s (Num 0)' % q(s.look(e[2][0][1][1])[0])); return 'Num 0'
        args = [s.val(a, out) for a in e[2]]
        regs = []
        occ = (s.f.name, f)
        for i, a in enumerate(e[2]):
            r = s.region(a) if s.typ(a)[0] in ('ptr', 'arr') or a[0] in ('addr', 'cond', 'str') else 'S'
            if occ + (i,) in CALLVIEW and occ not in s.seen: r = 'P'
            regs.append(r)
        s.seen.add(occ)
        if occ == ('secp256k1_ellswift_create', 'secp256k1_memczero'): out.append('Prim "classify" [%s; Num 64]' % args[0])   # the encoding becomes secret with the result
        if f in PRIMS:
            if regs[0] == 'P' and f in ('memcpy', 'memmove') and regs[1] == 'S': raise SystemExit('%s: secret copied to public: %s' % (s.f.name, show(e)))
            s.prim(f, regs[0], args, out); return 'Num 0'
        if f in OPAQUE:
            bad = [show(a) for a, r in zip(e[2], regs) if r == 'S' and s.typ(a)[0] in ('ptr', 'arr')]
            if bad: raise SystemExit('%s: %s on secret memory: %s' % (s.f.name, f, bad))
            t = s.fresh() if want else '_'
            out.append('PubPrim %s %s [%s]' % (q(t), q(f), '; '.join(args))); return 'Var ' + q(t)
        if f not in s.funs: raise SystemExit('%s: calls unknown %s' % (s.f.name, f))
        ps = s.funs[f].params
        sig = tuple(r if ty[0] == 'ptr' else 'S' for r, (_, ty) in zip(regs, ps))
        name = clone(f, sig, ps)
        if (name, f, sig) not in s.calls: s.calls.append((name, f, sig))
        t = s.fresh() if want else '_'
        out.append('Call %s %s [%s]' % (q(t), q(name), '; '.join(args))); return 'Var ' + q(t)
    def seq(s, l):
        if not l: return 'Skip'
        if len(l) == 1: return l[0]
        return 'seq [%s]' % (';\n      '.join(l))
    def branch(s, c, out):
        v = s.val(c, out)
        r = next((t for (f, x), t in REVEAL.items() if f == s.f.name and show(c).startswith(x)), None)
        return 'Reveal %s (%s)' % (q(r), v) if r else v
    def blockof(s, st):
        out = []; s.scopes.append({}); s.stmt(st, out); s.scopes.pop(); return s.seq(out)
    def stmt(s, st, out):
        k = st[0]
        if k == 'block':
            s.scopes.append({})
            for x in st[1]: s.stmt(x, out)
            s.scopes.pop()
        elif k == 'decl':
            for n, ty, init in st[2]:
                if st[1]:                     # static const local
                    s.scopes[-1][n] = [s.f.name + '.' + n, ty, 'glob', 'P']; continue
                how = 'mem' if ty[0] in ('arr', 'struct') or n in s.taken else 'val'
                v = None
                if init is not None and init[0] != 'init': v = s.val(init, out)
                reg = 'P' if (s.f.name, n) in PUBOBJ or s.allpub else 'S'
                if how == 'val' and init is not None and init[0] != 'init' and ty[0] == 'ptr': reg = s.region(init)
                u = s.declare(n, ty, how, reg)
                if init is None: continue
                if init[0] == 'init': s.prim('init', reg, ['Addr %s' % q(u)], out)
                elif how == 'val': out.append('Assign %s (%s)' % (q(u), v))
                elif ty[0] == 'struct': s.copy(ty, reg, 'Addr %s' % q(u), v, out)
                else: out.append('Store %s (Addr %s) (%s)' % (s.pub(('id', n)), q(u), v))
        elif k == 'expr': s.effect(st[1], out)
        elif k == 'if':
            c = s.branch(st[1], out)
            out.append('If (%s) (%s) (%s)' % (c, s.blockof(st[2]), s.blockof(st[3])))
        elif k == 'do':
            if st[2] != ('num', '0'): raise SystemExit('%s: do-while' % s.f.name)
            s.stmt(st[1], out)
        elif k in ('while', 'for'):
            if k == 'for':
                if st[1]: s.effect(st[1], out)
                c, step, body = st[2], st[3], st[4]
            else: c, step, body = st[1], None, st[2]
            inner = []
            one = c is None or (c[0] == 'num' and c[1] == '1')
            s.scopes.append({})
            cv = None if one else s.branch(c, inner)
            b = []; s.stmt(body, b)
            if step: s.effect(step, b)
            s.scopes.pop()
            if one: inner += b
            else: inner.append('If (%s) (%s) (Break)' % (cv, s.seq(b)))
            out.append('Loop (%s)' % s.seq(inner))
        elif k == 'return':
            v = 'Num 0' if st[1] is None else s.val(st[1], out)
            out.append('Return (%s)' % v)
        elif k == 'break': out.append('Break')
        else: raise SystemExit('%s: statement %s' % (s.f.name, st))
    def run(s):
        # parameters whose address is taken live in memory
        out = []
        for n, ty in s.f.params:
            if n in s.taken and s.look(n)[2] == 'val':
                u = s.look(n)[0]; s.scopes[0][n] = [u, ty, 'mem', 'P' if (s.f.name, n) in PUBOBJ or s.allpub else 'S']; out.append('Store %s (Addr %s) (Var %s)' % (s.pub(('id', n)), q(u), q(u)))
        s.stmt(s.body, out)
        return s.seq(out)

def clone(f, sig, ps):
    if 'P' not in sig: return f
    return f + '@' + ''.join(r for r, (_, ty) in zip(sig, ps) if ty[0] == 'ptr')

def show(e):
    if isinstance(e, tuple):
        k = e[0]
        if k in ('id', 'num', 'str'): return e[1]
        if k == 'call' and e[1] == ('id', '__builtin_expect'): return show(e[2][0])
        if k == 'call': return '%s(%s)' % (show(e[1]), ', '.join(show(a) for a in e[2]))
        if k == 'bin': return '%s %s %s' % (show(e[2]), e[1], show(e[3]))
        if k == 'un': return e[1] + show(e[2])
        if k == 'addr': return '&' + show(e[1])
        if k == 'fld': return (show(e[1][1]) + '->' if e[1][0] == 'deref' else show(e[1]) + '.') + e[2]
        if k == 'deref': return '*' + show(e[1])
        if k == 'index': return '%s[%s]' % (show(e[1]), show(e[2]))
        if k == 'cast': return show(e[3])
        if k == 'call' and e[1] == ('id', '__builtin_expect'): return show(e[2][0])
        if k == 'sizeof': return 'sizeof ' + e[1]
    return str(e)


# ---------------------------------------------------------------- labels
ITOK = re.compile(r'\s+|(?P<s>"[^"]*")|(?P<w>[A-Za-z_]\w*|\d+)|(?P<p>[()\[\];])')
def parse_ir(text):
    toks = [m.group() for m in ITOK.finditer(text) if m.lastgroup]
    pos = [0]
    def atom():
        t = toks[pos[0]]; pos[0] += 1
        if t == '(': e = term(); pos[0] += 1; return e
        if t == '[':
            l = []
            while toks[pos[0]] != ']':
                l.append(term())
                if toks[pos[0]] == ';': pos[0] += 1
            pos[0] += 1; return l
        return t[1:-1] if t[0] == '"' else (t if t.isdigit() else (t,))
    def term():
        h = toks[pos[0]]; pos[0] += 1
        if h in '([': pos[0] -= 1; return atom()
        a = [h]
        while pos[0] < len(toks) and toks[pos[0]] not in (')', ']', ';'): a.append(atom())
        return tuple(a)
    return term()

class Bad(Exception): pass
class Infer:
    def __init__(s, progs, funs, public_params):
        s.ir = {n: parse_ir(v[0]) for n, v in progs.items()}
        s.par = {n: [[p, (n, p) in SECPARAM] for p, _ in funs[v[2]].params] for n, v in progs.items()}
        s.ret = {n: False for n in progs}
        for (n, p) in public_params:
            for x in s.par[n]:
                if x[0] == p: x[1] = True
        s.changed = True
        while s.changed:
            s.changed = False; s.errors = []
            for n in progs:
                s.cur = n
                s.chk({p for p, l in s.par[n] if l}, s.ir[n])
    def lab(s, g, e):
        k = e[0]
        if k == 'Var': return e[1] in g
        if k in ('Num', 'Op0', 'Addr'): return False
        if k == 'Op1': return s.lab(g, e[2])
        if k == 'Op2':
            a, b = s.lab(g, e[2]), s.lab(g, e[3])
            if e[1] in ('/', '%') and (a or b): s.err('division', e)
            return a or b
        if k == 'Load':
            if s.lab(g, e[2]): s.err('address', e)
            return e[1] == ('Sec',)
        if k == 'Reveal': s.lab(g, e[2]); return False
        raise Bad(str(e))
    def err(s, what, e): s.errors.append((s.cur, what, str(e)[:300]))
    def chk(s, g, st):
        """(normal, any)"""
        k = st[0]
        if k == 'Skip': return g, g
        if k == 'seq':
            a = set(g)
            for x in st[1]:
                g, aa = s.chk(g, x); a |= aa
            return g, a | g
        if k == 'Assign':
            h = (g | {st[1]}) if s.lab(g, st[2]) else (g - {st[1]})
            return h, g | h
        if k == 'Store':
            if s.lab(g, st[2]): s.err('store address', st)
            l = s.lab(g, st[3])
            if l and st[1] == ('Pub',): s.err('store to public', st)
            return g, g
        if k == 'If':
            if s.lab(g, st[1]): s.err('branch', st[1])
            n1, a1 = s.chk(g, st[2]); n2, a2 = s.chk(g, st[3])
            return n1 | n2, a1 | a2 | g
        if k == 'Loop':
            while True:
                n, a = s.chk(g, st[1])
                if n <= g: return a | g, a | g
                g = g | n
        if k == 'Break': return set(), g
        if k == 'Return':
            if s.lab(g, st[1]) and not s.ret[s.cur]: s.ret[s.cur] = True; s.changed = True
            return set(), g
        if k == 'Call':
            f = st[2]
            if len(st[3]) != len(s.par[f]): s.err('arity', st)
            for p, a in zip(s.par[f], st[3]):
                if s.lab(g, a) and not p[1]: p[1] = True; s.changed = True
            h = (g | {st[1]}) if s.ret[f] else (g - {st[1]})
            return h, g | h
        if k == 'Prim':
            for a in st[2]:
                if s.lab(g, a): s.err('prim argument', st)
            return g, g
        if k == 'PubPrim':
            for a in st[3]:
                if s.lab(g, a): s.err('prim argument', st)
            return g - {st[1]}, g
        if k == 'Expose':
            if s.lab(g, st[2]) or s.lab(g, st[3]): s.err('expose address', st)
            return g, g
        raise Bad(str(st))

def translate(funs, apis):
    done = {}; todo = []
    for a in apis: todo.append((a, a, tuple('P' if (a, p) in PUBPARAM else 'S' for p, _ in funs[a].params)))
    while todo:
        n, f, sig = todo.pop(0)
        if n in done: continue
        tr = Tr(funs[f], funs, sig); body = tr.run(); done[n] = (body, [c[0] for c in tr.calls], f)
        todo += tr.calls
    return done
def deps(done, api):
    out = []
    def go(n):
        if n in out: return
        for m in done[n][1]: go(m)
        out.append(n)
    go(api); return out


APIS = """secp256k1_ec_seckey_verify secp256k1_ec_pubkey_create secp256k1_ec_seckey_negate secp256k1_ec_seckey_tweak_add secp256k1_ec_seckey_tweak_mul
secp256k1_context_randomize secp256k1_keypair_sec secp256k1_keypair_create secp256k1_keypair_xonly_tweak_add secp256k1_ecdsa_sign
secp256k1_ecdsa_sign_recoverable secp256k1_ecdh secp256k1_ellswift_create secp256k1_ellswift_xdh
secp256k1_schnorrsig_sign32 secp256k1_schnorrsig_sign_custom secp256k1_musig_nonce_gen secp256k1_musig_nonce_gen_counter
secp256k1_musig_partial_sign""".split()
HEAD = """(** %s
    Written by tools/ct.py from the source text after macro expansion; see CtLang.v for the language. *)
Require Import ZArith List String.
From Verif Require Import CtLang%s.
Import ListNotations.
Local Open Scope string_scope.
Local Open Scope list_scope.
Local Open Scope Z_scope.

"""
def tagset(ir):
    out = []
    def go(x):
        if isinstance(x, (tuple, list)):
            if len(x) in (3, 4) and x[0] in ('Reveal', 'Expose') and x[1] not in out: out.append(x[1])
            for y in x: go(y)
    go(ir); return out
def short(n): return re.sub('^secp256k1_', '', n).replace('@', '__')
if __name__ == '__main__':
    toks = tokenize(open(sys.argv[1]).read())
    T.names |= {'uint8_t','uint16_t','uint32_t','uint64_t','int32_t','int64_t','size_t','uint128_t','int128_t'}
    funs = scan(toks)
    width = sys.argv[2]
    if len(sys.argv) > 4: APIS = sys.argv[4].split(',')
    done = translate(funs, APIS)
    inf = Infer(done, funs, [])
    for e in inf.errors: print(e)
    order = []
    for a in APIS:
        for n in deps(done, a):
            if n not in order: order.append(n)
    pre = 'c%s_' % width
    out = HEAD % ('The C functions of the %s-bit build that handle secrets.' % width, '')
    for n in order:
        f = funs[done[n][2]]
        body = done[n][0]
        ps = '; '.join('(%s, %s)' % (q(p), 'true' if l else 'false') for p, l in inf.par[n])
        out += '(** %s:%d-%d %s *)\n' % (f.fname.replace('/repo/', ''), f.l0, f.l1, n)
        out += 'Definition %s%s : func := mkfunc %s [%s] %s\n  (%s).\n' % (pre, short(n), q(n), ps, 'true' if inf.ret[n] else 'false', body)
    out += '\n(** All of them. *)\nDefinition %sprogram : program :=\n  [%s].\n' % (pre, ';\n   '.join(pre + short(n) for n in order))
    rows = []
    for n in order:
        tags = []
        for d in deps(done, n):
            for t in tagset(inf.ir[d]):
                if t not in tags: tags.append(t)
        rows.append('(%s, [%s])' % (q(n), '; '.join(q(t) for t in tags)))
        if n in APIS: print(n, len(deps(done, n)), tags)
    out += '\n(** What each function makes public on purpose, by itself or in the functions it calls; checked in CtReach.v. *)\nDefinition %stags : list (string * list string) :=\n  [%s].\n' % (pre, ';\n   '.join(rows))
    open(sys.argv[3], 'w').write(out)
