"""Copy the constants of the repository's unit tests into rocq/theories/VectorData.v.

The literals are read from /repo (given as text) and never retyped by hand.
"""
import re, sys

REPO = '/repo/src'
OUT = '/verif/rocq/theories/VectorData.v'

def load(path):
    text = open(f'{REPO}/{path}').read()
    start = text.index('#[cfg(test)]\n' if '#[cfg(test)]\nmod tests' in text or '#[cfg(test)]\npub mod tests' in text
                       else '#[cfg(test)]\n/// Module')
    base = text[:start].count('\n')
    return text[start:], base

def lineno(text, base, pos):
    return base + text[:pos].count('\n') + 1

def ints(s):
    return [x.strip() for x in s.replace('\n', ' ').split(',') if x.strip()]

out = ['(** * Constants of the unit tests of the repository',
       '',
       '    Generated by tools/genvectors.py from the test modules of /repo; every literal is copied',
       '    from the source text.  Each definition cites the lines it is copied from. *)',
       'From Coq Require Import ZArith List.',
       'From Verif Require Import Machine FieldModel ScalarModel EdwardsModel.',
       'Import ListNotations.',
       'Local Open Scope Z_scope.', '']

def emit(comment, text):
    out.append(f'(** {comment} *)')
    out.append(text)
    out.append('')

def wrap(items, sep='; ', width=88):
    lines, cur = [], ''
    for i, it in enumerate(items):
        piece = it + (sep.strip() if i < len(items) - 1 else '')
        if len(cur) + len(piece) + 1 > width:
            lines.append(cur); cur = piece
        else:
            cur = (cur + ' ' + piece).strip()
    lines.append(cur)
    return '\n   '.join(lines)

# field.rs and scalar.rs: `pub static NAME: T = T([..]);`
for path, ty, con, pre in [('backend/u64/field.rs', 'FieldElement', 'FE', 'tf_'),
                           ('backend/u64/scalar.rs', 'Scalar', 'SC', 'ts_')]:
    text, base = load(path)
    for m in re.finditer(r'pub static (\w+): %s = %s\(\[([^\]]*)\]\);' % (ty, ty), text):
        a = lineno(text, base, m.start()); b = lineno(text, base, m.end())
        emit(f'src/{path} {a}-{b}, `{m.group(1)}`.',
             f'Definition {pre}{m.group(1)} : {con.lower()} := {con} {" ".join(ints(m.group(2)))}.')
    for m in re.finditer(r'pub static (\w+): \[u8; 32\] = \[([^\]]*)\];', text):
        a = lineno(text, base, m.start()); b = lineno(text, base, m.end())
        emit(f'src/{path} {a}-{b}, `{m.group(1)}`.',
             f'Definition {pre}{m.group(1)} : list Z :=\n  [{wrap(ints(m.group(2)))}].')

text, base = load('backend/u64/field.rs')
m = re.search(r'from_canonical_bytes\(\[([^\]]*)\]\)', text)
emit(f'src/backend/u64/field.rs {lineno(text, base, m.start())}-{lineno(text, base, m.end())}, '
     'the argument of `from_canonical_bytes`.',
     f'Definition tf_dalek_bytes : list Z :=\n  [{wrap([str(int(x, 16)) for x in ints(m.group(1))])}].')

text, base = load('backend/u64/scalar.rs')
m = re.search(r'let minus_one = \[([^\]]*)\];', text)
emit(f'src/backend/u64/scalar.rs {lineno(text, base, m.start())}, `minus_one` of test `into_bits`.',
     f'Definition ts_minus_one_bits : list Z :=\n  [{wrap(ints(m.group(1)))}].')
for m in re.finditer(r'let naf(\d)_scalar = \[([^\]]*)\];', text):
    its = [(f'({x})' if x.startswith('-') else x) for x in ints(m.group(2))]
    emit(f'src/backend/u64/scalar.rs {lineno(text, base, m.start())}, `naf{m.group(1)}_scalar`.',
         f'Definition ts_naf{m.group(1)} : list Z :=\n  [{wrap(its)}].')

# edwards.rs points
text, base = load('edwards.rs')
CON = {'EdwardsPoint': 'EP', 'ProjectivePoint': 'PP', 'AffinePoint': 'AP'}
TY = {'EdwardsPoint': 'ept', 'ProjectivePoint': 'ppt', 'AffinePoint': 'apt'}
for m in re.finditer(r'pub\(self\) const (\w+): (\w+Point) = \w+ \{(.*?)\n    \};', text, re.S):
    fes = re.findall(r'FieldElement\(\[([^\]]*)\]\)', m.group(3))
    a = lineno(text, base, m.start()); b = lineno(text, base, m.end())
    emit(f'src/edwards.rs {a}-{b}, `{m.group(1)}`.',
         f'Definition te_{m.group(1)} : {TY[m.group(2)]} :=\n  {CON[m.group(2)]} '
         + '\n     '.join('(FE ' + ' '.join(ints(f)) + ')' for f in fes) + '.')
for m in re.finditer(r'pub\(self\) const (\w+): CompressedEdwardsY = CompressedEdwardsY\(\[([^\]]*)\]\);', text):
    a = lineno(text, base, m.start()); b = lineno(text, base, m.end())
    emit(f'src/edwards.rs {a}-{b}, `{m.group(1)}`.',
         f'Definition te_{m.group(1)} : list Z :=\n  [{wrap(ints(m.group(2)))}].')
for k, m in enumerate(re.finditer(r'from_slice\(&\[([^\]]*)\]\)', text)):
    a = lineno(text, base, m.start()); b = lineno(text, base, m.end())
    emit(f'src/edwards.rs {a}-{b}, argument of `from_slice`.',
         f'Definition te_slice{k} : list Z :=\n  [{wrap(ints(m.group(1)))}].')

# ristretto.rs
text, base = load('ristretto.rs')
m = re.search(r'encodings_of_small_multiples = \[(.*?)\];', text, re.S)
encs = re.findall(r'"([0-9a-f]{64})"', m.group(1))
assert len(encs) == 16
emit(f'src/ristretto.rs {lineno(text, base, m.start())}-{lineno(text, base, m.end())}, '
     '`encodings_of_small_multiples`, each hexadecimal string as its bytes.',
     'Definition tr_encodings : list (list Z) := [\n  '
     + ';\n  '.join('[' + wrap([str(b) for b in bytes.fromhex(e)]) + ']' for e in encs) + '].')
m = re.search(r'y_coord_bytes_8L = FieldElement::from_bytes\(&\[([^\]]*)\]\)', text)
emit(f'src/ristretto.rs {lineno(text, base, m.start())}-{lineno(text, base, m.end())}, `y_coord_bytes_8L`.',
     f'Definition tr_y_8L : list Z :=\n  [{wrap(ints(m.group(1)))}].')
m = re.search(r'let expected_point = RistrettoPoint\(EdwardsPoint \{(.*?)\}\);', text, re.S)
fes = re.findall(r'FieldElement\(\[([^\]]*)\]\)', m.group(1))
emit(f'src/ristretto.rs {lineno(text, base, m.start())}-{lineno(text, base, m.end())}, `expected_point`.',
     'Definition tr_expected : ept :=\n  EP ' + '\n     '.join('(FE ' + ' '.join(ints(f)) + ')' for f in fes) + '.')
m = re.search(r'hex::decode\("([0-9a-f]{64})"\)', text)
emit(f'src/ristretto.rs {lineno(text, base, m.start())}, `raw_bytes`.',
     f'Definition tr_raw : list Z :=\n  [{wrap([str(b) for b in bytes.fromhex(m.group(1))])}].')

open(OUT, 'w').write('\n'.join(out))
print(len([l for l in out if l.startswith('Definition')]), 'constants')
