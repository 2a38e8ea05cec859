#!/usr/bin/env python3
"""Writes the models of the 32-bit build (files W32_*.v) from the models of the 64-bit build.

src/group_impl.h and everything above it is the same source text in both builds; only the
field, scalar and inversion layers differ.  So the 32-bit model of such a file is its 64-bit
model with the field and scalar functions replaced.  Definitions which do not depend on the
width are shared.  The output is committed; this script only documents how it was made."""
import re, sys
T = '/verif/rocq/theories/'
BASE = {'fe': 'fe26', 'fe_storage': 'fes26', 'sc': 'sc8', 'const_beta': 'const_beta_w32',
        'fe_inv': 'f26_inv_w32', 'fe_inv_var': 'f26_inv_var_w32', 'fe_is_square_var': 'f26_is_square_w32',
        'sc_inverse': 's8_inverse_w32', 'sc_inverse_var': 's8_inverse_var_w32'}
for k in '''add add_int cmov cmp_var equal from_storage get_b32 half is_odd is_zero mul mul_int negate normalize
normalize_var normalize_weak normalizes_to_zero normalizes_to_zero_var of_Z one set_b32_limit set_b32_mod set_int
sqr sqrt storage_cmov to_storage'''.split():
    BASE['fe_' + k] = 'f26_' + k
for k in '''add cmov cond_negate eq get_b32 get_bits_limb32 get_bits_var half is_even is_high is_zero mul negate of_Z one
set_b32 set_b32_seckey set_int split_128 split_lambda zero'''.split():
    BASE['sc_' + k] = 's8_' + k
SPECIAL = {
'fes_bytes': '''Definition fes_bytes_w32 (s : fes26) : list Z :=
  le_bytes 4 (q0 s) ++ le_bytes 4 (q1 s) ++ le_bytes 4 (q2 s) ++ le_bytes 4 (q3 s) ++
  le_bytes 4 (q4 s) ++ le_bytes 4 (q5 s) ++ le_bytes 4 (q6 s) ++ le_bytes 4 (q7 s).''',
'fes_of_bytes': '''Definition fes_of_bytes_w32 (l : list Z) : fes26 :=
  mks26 (le_val (firstn 4 l)) (le_val (firstn 4 (skipn 4 l))) (le_val (firstn 4 (skipn 8 l))) (le_val (firstn 4 (skipn 12 l)))
          (le_val (firstn 4 (skipn 16 l))) (le_val (firstn 4 (skipn 20 l))) (le_val (firstn 4 (skipn 24 l))) (le_val (firstn 4 (skipn 28 l))).''',
'sc_bytes': '''Definition sc_bytes_w32 (a : sc8) : list Z :=
  le_bytes 4 (sd0 a) ++ le_bytes 4 (sd1 a) ++ le_bytes 4 (sd2 a) ++ le_bytes 4 (sd3 a) ++
  le_bytes 4 (sd4 a) ++ le_bytes 4 (sd5 a) ++ le_bytes 4 (sd6 a) ++ le_bytes 4 (sd7 a).''',
'sc_of_bytes': '''Definition sc_of_bytes_w32 (l : list Z) : sc8 :=
  mks8 (le_val (firstn 4 l)) (le_val (firstn 4 (skipn 4 l))) (le_val (firstn 4 (skipn 8 l))) (le_val (firstn 4 (skipn 12 l)))
       (le_val (firstn 4 (skipn 16 l))) (le_val (firstn 4 (skipn 20 l))) (le_val (firstn 4 (skipn 24 l))) (le_val (firstn 4 (skipn 28 l))).''',
'pre_g': '''Definition fes_halves (s : fe_storage) : fes26 :=
  mks26 (s0 s mod 2 ^ 32) (s0 s / 2 ^ 32) (s1 s mod 2 ^ 32) (s1 s / 2 ^ 32)
          (s2 s mod 2 ^ 32) (s2 s / 2 ^ 32) (s3 s mod 2 ^ 32) (s3 s / 2 ^ 32).
Definition ges_halves (s : ge_storage) : ge_storage_w32 := mkges_w32 (fes_halves (stx s)) (fes_halves (sty s)).
Definition pre_g_w32 : list ge_storage_w32 := map ges_halves pre_g.''',
'pre_g_128': 'Definition pre_g_128_w32 : list ge_storage_w32 := map ges_halves pre_g_128.',
'fes_of_Z': '''Definition fes_of_Z_w32 (v : Z) : fes26 :=
  mks26 (v mod 2 ^ 32) (v / 2 ^ 32 mod 2 ^ 32) (v / 2 ^ 64 mod 2 ^ 32) (v / 2 ^ 96 mod 2 ^ 32)
          (v / 2 ^ 128 mod 2 ^ 32) (v / 2 ^ 160 mod 2 ^ 32) (v / 2 ^ 192 mod 2 ^ 32) (v / 2 ^ 224).''',
}
COMMENT = {
'fes_of_Z': '''(** src/field_10x26.h:54-54 SECP256K1_FE_STORAGE_CONST and src/group.h:43-43
    SECP256K1_GE_STORAGE_CONST: the eight 32-bit words of a constant. *)''',
'fes_bytes': '''(** The memory image of a fe_storage on a little-endian machine: eight uint32_t, low word first. *)''',
'sc_bytes': '''(** memcpy between a secp256k1_scalar (eight uint32_t) and 32 bytes of an object. *)''',
'pre_g': '''(** The arrays of src/precomputed_ecmult.c: the same constants as in the 64-bit build (there the
    macro SECP256K1_FE_STORAGE_CONST of src/field_5x52.h:49-54 packs two words into one limb), kept as 32-bit words. *)''',
}
DROP = {'compute_table_loop', 'compute_table', 'double_times', 'compute_two_tables'}
ZERO = [('mkfe 0 0 0 0 0', 'f26_set_int 0'), ('mksc 0 0 0 0', 's8_set_int 0'), ('mkfes 0 0 0 0', 'mks26 0 0 0 0 0 0 0 0')]
TOK = re.compile(r"[A-Za-z_][A-Za-z0-9_']*")

def sentences(text):
    """(comment, code) pairs; code ends at a full stop followed by white space."""
    out, i, com, n = [], 0, '', len(text)
    while i < n:
        if text[i].isspace(): i += 1; continue
        if text.startswith('(*', i):
            d, j = 1, i + 2
            while d:
                if text.startswith('(*', j): d += 1; j += 2
                elif text.startswith('*)', j): d -= 1; j += 2
                else: j += 1
            com += text[i:j] + '\n'; i = j; continue
        j = i
        while not (text[j] == '.' and (j + 1 == n or text[j + 1].isspace())): j += 1
        out.append((com, text[i:j + 1])); com = ''; i = j + 1
    return out

renamed = dict(BASE)
def rename(code):
    for a, b in ZERO: code = code.replace(a, b)
    return TOK.sub(lambda m: renamed.get(m.group(0), m.group(0)), code)

def run(src, dst, header, imports):
    res, carry = [], ''
    for com, code in sentences(open(T + src).read()):
        w = code.split()
        kind = w[0]
        if kind in ('Require', 'From', 'Import', 'Local', 'Arguments'): continue
        name = w[1]
        if name in DROP: continue
        if not com: com = carry
        carry = com
        toks = set(TOK.findall(code))
        dep = bool(toks & set(renamed)) or name in SPECIAL
        if not dep: continue
        names = [name]
        if kind == 'Record':
            names += re.findall(r':=\s*(\w+)\s*\{', code)
            names += re.findall(r'[{;]\s*(\w+)\s*:', code)
        for x in names: renamed[x] = x + '_w32'
        body = SPECIAL.get(name) or rename(code)
        com = COMMENT.get(name, '' if com.startswith('(** Model of') and com.count('(**') == 1 else com)
        if com.startswith('(** Model of'): com = com[com.index('*)') + 2:].lstrip('\n')
        com = re.sub(r'\(\*\* \*\*.*?\*\)\n', '', com)
        carry = ''
        res.append(com.rstrip('\n') + ('\n' if com.strip() else '') + body + '\n')
    open(T + dst, 'w').write(header + 'Require Import ZArith List Bool.\nFrom Verif Require Import ' + imports +
        '.\nImport ListNotations.\nLocal Open Scope Z_scope.\nLocal Open Scope c_scope.\n\n' + ''.join(res))

def head(what, src):
    return ('(** Model of %s in the 32-bit build (10x26 field elements, 8x32 scalars):\n'
            '    the definitions of %s on the 32-bit field and scalars.  The conventions are those of\n'
            '    that file, which also has the definitions that do not depend on the width. *)\n' % (what, src))
B = 'Word Word32 Spec FieldModel ScalarModel Field32Model Scalar32Model HashModel'
L = ['Group', 'Ecmult', 'Gen', 'Ecdsa', 'Api', 'Extrakeys', 'Schnorr', 'Recovery', 'Ecdh', 'Ellswift', 'Hsort', 'Musig']
WHAT = {'Group': 'src/group_impl.h', 'Ecmult': 'src/ecmult_impl.h and src/ecmult_const_impl.h', 'Gen': 'src/ecmult_gen_impl.h',
        'Ecdsa': 'src/ecdsa_impl.h and src/eckey_impl.h', 'Api': 'src/secp256k1.c', 'Extrakeys': 'src/modules/extrakeys/main_impl.h',
        'Schnorr': 'src/modules/schnorrsig/main_impl.h', 'Recovery': 'src/modules/recovery/main_impl.h',
        'Ecdh': 'src/modules/ecdh/main_impl.h', 'Ellswift': 'src/modules/ellswift/main_impl.h', 'Hsort': 'src/hsort_impl.h and secp256k1_ec_pubkey_sort', 'Musig': 'src/modules/musig/keyagg_impl.h and session_impl.h'}
done = []
for k in L:
    if k == 'Gen': B += ' GenTable'
    imp = B + ' ' + ' '.join(x + 'Model' for x in done + [k]) + ' W32_Base ' + ' '.join('W32_' + x for x in done)
    run(k + 'Model.v', 'W32_%s.v' % k, head(WHAT[k], k + 'Model.v'), imp.strip())
    done.append(k)
