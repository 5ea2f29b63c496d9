#!/usr/bin/env python3
"""Translate the unit tests of /repo/test/unit_tests on constructors, quaternions,
rasterisation and carried soil into theories/TestTypes.v, TestGeometry.v, TestRaster.v
and TestBodySoil.v (binary32, vocabulary of theories/TestGeoLang.v).

Usage: translate_geometry.py REPOSITORY THEORIES
Statements that are not understood are reported on stderr."""
import re
import sys
from decimal import Decimal

repo, out = sys.argv[1], sys.argv[2]
src = repo + '/test/unit_tests/'


def z(n):
    return str(n) if n >= 0 else '(%d)' % n


def dlit(txt):
    """A decimal literal as a double."""
    d = Decimal(txt)
    k = max(0, -d.as_tuple().exponent)
    return '(dlit %s %d)' % (z(int(d.scaleb(k))), k)


def split_args(txt):
    res, depth, cur = [], 0, ''
    for c in txt:
        depth += (c in '({[') - (c in ')}]')
        if c == ',' and depth == 0:
            res.append(cur.strip())
            cur = ''
        else:
            cur += c
    if cur.strip():
        res.append(cur.strip())
    return res


NUM = r'\d+(?:\.\d*)?(?:e-?\d+)?'


def dexpr(txt):
    """A double expression: literals joined by + and -; a leading minus belongs to the
    literal, as negation is exact."""
    t = txt.strip().replace(' ', '')
    m = re.fullmatch(r'(-?%s)(?:([+-])(%s))?' % (NUM, NUM), t)
    assert m, txt
    a = dlit(m.group(1))
    if not m.group(2):
        return a
    return '(%s (f := FltB) %s %s)' % ('dadd' if m.group(2) == '+' else 'dsub', a,
                                       dlit(m.group(3)))


def sexpr(txt):
    """An expression converted to float."""
    t = txt.strip()
    if t == 'grid.cell_size_xy_':
        return '(g_cell_xy test_grid)'
    if t == '-grid.cell_size_xy_':
        return '(SFopp (g_cell_xy test_grid))'
    m = re.fullmatch(r'-?%s' % NUM, t)
    if m:
        d = Decimal(t)
        k = max(0, -d.as_tuple().exponent)
        return '(slit %s %d)' % (z(int(d.scaleb(k))), k)
    return '(nar (f := FltB) %s)' % dexpr(t)


def inner(txt):
    t = txt.strip()
    assert t[0] == '{' and t[-1] == '}', txt
    return split_args(t[1:-1])


def fvec(txt):
    v = [sexpr(x) for x in inner(txt)]
    return '(%s %s)' % ({3: 'mkVec', 4: 'mkQuat'}[len(v)], ' '.join(v))


def flist(txt):
    return '[%s]' % '; '.join(sexpr(x) for x in inner(txt))


def cell(txt):
    return '(%s)' % ', '.join(z(int(x)) for x in inner(txt))


def cells(txt):
    return '[%s]' % '; '.join(cell(x) for x in inner(txt))


def blists(txt):
    return '[%s]' % '; '.join('[%s]' % '; '.join(inner(r)) for r in inner(txt))


def dlists(txt):
    return '[%s]' % ';\n     '.join(
        '[%s]' % '; '.join(dlit(x) for x in inner(r)) for r in inner(txt))


def body_of(fname, test):
    txt = open(src + fname).read()
    m = re.search(r'^TEST\(\w+, %s\) \{\n(.*?)^\}' % test, txt, re.M | re.S)
    return m.group(1)


def statements(txt):
    """Yield ('test', id), or a statement without its semicolon. A block keeps its
    text up to the closing brace."""
    txt = re.sub(r'^\s*// Test: ([\w-]+)\s*$', r'@@TEST \1;', txt, flags=re.M)
    txt = re.sub(r'//.*', '', txt)
    depth, cur = 0, ''
    for c in txt:
        depth += (c in '({[') - (c in ')}]')
        if c == ';' and depth == 0:
            s = ' '.join(cur.split())
            cur = ''
            if s.startswith('@@TEST'):
                yield ('test', s.split()[1])
            elif s:
                yield s
        else:
            cur += c


HEADER = '''(** %s
    Produced by tools/translate_geometry.py. *)
From Coq Require Import ZArith List Bool.
From Coq Require Import Floats.SpecFloat.
From Verif Require Import Outcome Num State Flt FltB ModelTypes ModelGeometry ModelBodyPos
  ModelUtils ModelRaster ModelProgram TestLang TestBinary32 TestGeoLang.
Import ListNotations.
Open Scope Z_scope.
'''


class File:
    def __init__(self, name, where):
        self.name, self.parts = name, [HEADER % where]

    def group(self, ident, checks, kind='bool'):
        ident = ident.replace('-', '_')
        assert checks, ident
        self.parts.append('Definition %s : list bool := [\n  %s].\n'
                          'Example %s_pass : forallb id %s = true.\n'
                          'Proof. vm_cast_no_check (@eq_refl bool true). Qed.\n'
                          % (ident, ';\n  '.join(checks), ident, ident))

    def raw(self, txt):
        self.parts.append(txt)

    def write(self):
        open('%s/%s.v' % (out, self.name), 'w').write('\n'.join(self.parts))


def unknown(test, s):
    sys.stderr.write('%s: %s\n' % (test, s))


# ---------------------------------------------------------------- test_utils.cpp
COMP = {3: ['vx', 'vy', 'vz'], 4: ['qw', 'qx', 'qy', 'qz']}
IGNORE = re.compile(r'^(std::vector<[^>]*>+ \w+|bool status|float cc|size_t string_loc.*|'
                    r'delete \w+|std::string \w+ = .*|testing::.*|'
                    r'soil_simulator::Grid grid\(1\.0, 1\.0, 1\.0, 0\.1, 0\.1\))$')


def utils(f, test):
    env, size, bucket = {}, {}, {}
    ident, checks = None, []

    def body():
        return ('(mkGBody (K := FltB) (j_init utils_bucket) (b_init utils_bucket) '
                '(t_init utils_bucket) (width utils_bucket) %s %s)'
                % (bucket.get('pos_', '(pos_ utils_bucket)'),
                   bucket.get('ori_', '(ori_ utils_bucket)')))

    for s in statements(body_of('test_utils.cpp', test)):
        if isinstance(s, tuple):
            if ident:
                f.group(ident, checks)
            ident, checks = s[1], []
            continue
        m = re.fullmatch(r'(?:std::vector<float> )?(\w+) = (\{[^{}]*\})', s)
        if m:
            if '@' in m.group(1):
                continue
            env[m.group(1)] = fvec(m.group(2))
            size[m.group(1)] = len(inner(m.group(2)))
            continue
        if IGNORE.match(s):
            continue
        if s.startswith('soil_simulator::Bucket *bucket = new'):
            assert env['o_pos'] == env['j_pos'] == '(mkVec (slit 0 1) (slit 0 1) (slit 0 1))'
            assert s.endswith('o_pos, j_pos, b_pos, t_pos, 0.5)')
            assert env['b_pos'] == '(mkVec (slit 0 1) (slit 0 1) (slit -5 1))'.replace('-5', '(-5)')
            assert env['t_pos'] == '(mkVec (slit 7 1) (slit 0 1) (slit (-5) 1))'
            continue
        m = re.fullmatch(r'bucket->(\w+) = (\{.*\})', s)
        if m:
            bucket[m.group(1)] = fvec(m.group(2))
            continue
        m = re.fullmatch(r'std::tie\((.*)\) = soil_simulator::CalcBodyCornerPos\(pos, ori, bucket\)', s)
        if m:
            call = '(calc_body_corner_pos %s %s utils_bucket)' % (env['pos'], env['ori'])
            for v, p in zip(split_args(m.group(1)), ['j_r', 'j_l', 'b_r', 'b_l', 't_r', 't_l']):
                env[v], size[v] = '(%s %s)' % (p, call), 3
            continue
        m = re.fullmatch(r'status = soil_simulator::CheckBodyMovement\(pos, ori, grid, bucket\)', s)
        if m:
            env['status'] = '(check_body_movement %s %s test_grid %s)' % (env['pos'], env['ori'], body())
            continue
        m = re.fullmatch(r'(\w+) = soil_simulator::(CalcNormal|MultiplyQuaternion|'
                         r'CalcRotationQuaternion|AngleToQuat)\((.*)\)', s)
        if m:
            fn = {'CalcNormal': 'calc_normal', 'MultiplyQuaternion': 'multiply_quaternion',
                  'CalcRotationQuaternion': 'calc_rotation_quaternion',
                  'AngleToQuat': 'angle_to_quat taylor_sin taylor_cos'}[m.group(2)]
            env[m.group(1)] = '(%s (K := FltB) %s)' % (fn, ' '.join(env[a] for a in split_args(m.group(3))))
            if 'angle' in fn:
                env[m.group(1)] = '(%s %s)' % (fn, ' '.join(env[a] for a in split_args(m.group(3))))
            size[m.group(1)] = 3 if m.group(2) in ('CalcNormal', 'CalcRotationQuaternion') else 4
            continue
        m = re.fullmatch(r'pos = soil_simulator::CalcBodyFramePos\((\d+), (\d+), (\S+), grid, bucket\)', s)
        if m:
            env['pos'] = '(calc_body_frame_pos %s %s %s test_grid %s)' % (
                m.group(1), m.group(2), sexpr(m.group(3)), body())
            size['pos'] = 3
            continue
        if s == 'cc = std::sqrt(1.0 / 3.0)':
            continue
        m = re.fullmatch(r'EXPECT_TRUE\(\((\w+) == std::vector<float> (\{.*\})\)\)', s)
        if m:
            t = m.group(2)
            if 'cc' in t:
                val = 'third_root' if '-cc' not in t else '(SFopp third_root)'
                t = '(mkVec %s %s %s)' % (val, val, val)
            else:
                t = fvec(t)
            checks.append('vec_eqb %s %s' % (env[m.group(1)], t))
            continue
        m = re.fullmatch(r'EXPECT_NEAR\((\w+)\[(\d)\], (\S+), 1e-5\)', s)
        if m:
            p = COMP[size[m.group(1)]][int(m.group(2))]
            checks.append('expect_near (dlit 1 5) (%s %s) %s' % (p, env[m.group(1)], dlit(m.group(3))))
            continue
        if s == 'EXPECT_TRUE(status)':
            checks.append('fst %s' % env['status'])
            continue
        if s == 'EXPECT_FALSE(status)':
            checks.append('negb (fst %s)' % env['status'])
            continue
        if s == 'EXPECT_TRUE(string_loc != std::string::npos)':
            checks.append('snd %s' % env['status'])
            continue
        unknown(test, s)
    f.group(ident, checks)


# ------------------------------------------------------------- test_body_pos.cpp
def lines(f, test, var, fn, arity):
    """CalcLinePos, CalcRectanglePos, CalcTrianglePos: the calls are in a lambda."""
    txt = body_of('test_body_pos.cpp', test)
    lam = re.search(r'auto CheckResults = \[&\]\(\) \{(.*?)\n    \};', txt, re.S)
    orders = [[a.strip() for a in m.split(',')[:arity]]
              for m in re.findall(r'soil_simulator::%s\((.*?)\)' % test, lam.group(1))]
    txt = txt.replace(lam.group(0), '')
    env, ident, checks = {}, None, []
    for s in statements(txt):
        if isinstance(s, tuple):
            if ident:
                f.group(ident, checks)
            ident, checks = s[1], []
            continue
        m = re.fullmatch(r'([abcd]) = (\{.*\})', s)
        if m:
            env[m.group(1)] = fvec(m.group(2))
            continue
        m = re.fullmatch(r'%s_exp = (\{.*\})' % var, s)
        if m:
            env['exp'] = cells(m.group(1))
            continue
        if s == 'CheckResults()':
            for o in orders:
                checks.append('same_cells (%s 100 %s)\n    %s' % (
                    fn, ' '.join(env[a] for a in o), env['exp']))
            continue
        if re.match(r'std::vector<.*> \w+$|soil_simulator::Grid grid\(1\.0, 1\.0, 1\.0, 0\.1, '
                    r'0\.1\)$|float tol = 1e-5$', s):
            continue
        unknown(test, s)
    f.group(ident, checks)


def decompose(f, test, second, ins, fn):
    txt = body_of('test_body_pos.cpp', test)
    loops = {}

    def cut(m):
        key = 'LOOP%d' % len(loops)
        loops[key] = ' '.join(m.group(0).split())
        return '    %s;\n' % key
    txt = re.sub(r'    for \(auto ii = 0; ii < area_length_x; ii\+\+\)\n'
                 r'        for \(auto jj = 0; jj < area_length_y; jj\+\+\)'
                 r'(?: \{.*?\n        \}|\n.*?;)\n', cut, txt, flags=re.S)
    env, ident, checks = {}, None, []

    def call():
        return ('(%s %s %s %s %s %s %s %s)' % (
            fn, env['ab_ind'], env[second], env['a_ind'], env['area_min_x'], env['area_min_y'],
            env['area_length_x'], env['area_length_y']))
    for s in statements(txt):
        if isinstance(s, tuple):
            if ident:
                f.group(ident, checks)
            ident, checks = s[1], []
            continue
        m = re.fullmatch(r'(a_ind|ab_ind|ad_ind|ac_ind) = (\{.*\})', s)
        if m:
            env[m.group(1)] = fvec(m.group(2))
            continue
        m = re.fullmatch(r'(area_\w+) = (\d+)', s)
        if m:
            env[m.group(1)] = m.group(2)
            continue
        m = re.fullmatch(r'(in_\w+_exp) = (\{.*\})', s)
        if m:
            env['in_exp'] = blists(m.group(2))
            continue
        m = re.fullmatch(r'(c_\w\w_exp) = (\{.*\})', s)
        if m:
            env[m.group(1)] = dlists(m.group(2))
            continue
        if s.startswith('std::tie('):
            continue
        m = re.fullmatch(r'EXPECT_EQ\(nn, ([\d* ]+)\)', s)
        if m:
            checks.append('count_is %s (%s)' % (call(), m.group(1)))
            continue
        if s == 'EXPECT_EQ(%s, %s_exp)' % (ins, ins):
            checks.append('inside_is %s\n    %s' % (call(), env['in_exp']))
            continue
        if s in loops:
            t = loops[s]
            if 'EXPECT_EQ(%s[ii][jj], false)' % ins in t:
                checks.append('inside_none %s' % call())
                continue
            m = re.search(r'EXPECT_NEAR\(c_ab\[ii\]\[jj\], c_ab_exp\[ii\]\[jj\](?: / (\S+))?, 1e-5\); '
                          r'EXPECT_NEAR\(c_\w\w\[ii\]\[jj\], c_(\w\w)_exp\[ii\]\[jj\](?: / (\S+))?, 1e-5\);', t)
            if m:
                checks.append('coeffs_near %s %s %s\n    %s\n    %s' % (
                    call(), dlit(m.group(1) or '1'), dlit(m.group(3) or '1'),
                    env['c_ab_exp'], env['c_%s_exp' % m.group(2)]))
                continue
            unknown(test, t)
            continue
        if re.match(r'std::vector<.*> \w+$|int \w+$|float tol = 1.e-5$', s):
            continue
        unknown(test, s)
    f.group(ident, checks)


def calc_body(f, test, kind):
    """CalcBodyPos: nested loops are unrolled here."""
    txt = body_of('test_body_pos.cpp', test)
    txt = re.sub(r'// Test: ([\w-]+)', r'@@TEST \1;', txt)
    txt = re.sub(r'//.*', '', txt)
    pieces = re.split(r'@@TEST ([\w-]+);', txt)
    for ident, part in zip(pieces[1::2], pieces[2::2]):
        env = dict(re.findall(r'(\w+) = (\{.*?\});', part, re.S))
        cls = 'Bucket' if kind == 'ABucket' else 'Blade'
        w = re.search(r'soil_simulator::%s\(o_pos, j_pos, b_pos, t_pos, (\S+)\)' % cls, part).group(1)
        call = '(placed_body %s\n    %s %s %s %s %s\n    %s %s)' % (
            kind, flist(env['o_pos']), flist(env['j_pos']), flist(env['b_pos']),
            flist(env['t_pos']), sexpr(w), fvec(env['pos']), fvec(env['ori']))
        part = part[part.index('CalcBodyPos('):]
        part = part[part.index(';') + 1:]
        exp = []      # body values
        area = {}
        rest = part
        # the exhaustive loop of BP-CB-Bu-2
        m = re.search(r'for \(auto ii = 0; ii < sim_out->body_.size\(\).*?\n                \}\n', rest, re.S)
        if m:
            t = ' '.join(m.group(0).split())
            assert ('if (((ii == 0) || (ii == 1)) && (jj < 16) && (jj > 9) && (kk < 13) && (kk > 7)) '
                    '{ if (ii == 0) EXPECT_NEAR(sim_out->body_[ii][jj][kk], -0.1, 1.e-5); else '
                    'EXPECT_NEAR(sim_out->body_[ii][jj][kk], 0.0, 1.e-5); } else '
                    '{ EXPECT_NEAR(sim_out->body_[ii][jj][kk], 0.0, 1.e-5); }') in t, t
            for k in range(4):
                for i in range(21):
                    for j in range(21):
                        v = '-0.1' if k == 0 and 9 < i < 16 and 7 < j < 13 else '0.0'
                        if v != '0.0' or (5 < i < 20 and 5 < j < 16):
                            exp.append((k, i, j, v))
            rest = rest.replace(m.group(0), '')
        # other loops
        for m in re.finditer(r'( +)for \(auto (\w\w) = (\d+); \2 < (\d+); \2\+\+\)(?: \{)?\n'
                             r'(?:( +)for \(auto (\w\w) = (\d+); \6 < (\d+); \6\+\+\)\n)?'
                             r'((?: +EXPECT_NEAR\(.*?\);\n)+)(?: +\}\n)?', rest):
            for a in range(int(m.group(3)), int(m.group(4))):
                inner_range = range(int(m.group(7)), int(m.group(8))) if m.group(6) else [None]
                for b in inner_range:
                    for t in re.findall(r'EXPECT_NEAR\(sim_out->body_\[(\w+)\]\[(\w+)\]\[(\w+)\], (\S+), 1\.e-5\)', m.group(9)):
                        val = {m.group(2): a, m.group(6): b}
                        k, i, j = [int(val.get(x, x)) for x in t[:3]]
                        exp.append((k, i, j, t[3]))
            rest = rest.replace(m.group(0), '', 1)
        for t in re.findall(r'EXPECT_NEAR\(sim_out->body_\[(\d+)\]\[(\d+)\]\[(\d+)\], (\S+), 1\.e-5\);', rest):
            exp.append((int(t[0]), int(t[1]), int(t[2]), t[3]))
        for t in re.findall(r'EXPECT_EQ\(sim_out->body_area_\[(\d)\]\[(\d)\], (\d+)\);', rest):
            area[(int(t[0]), int(t[1]))] = t[2]
        assert 'for (' not in rest, rest
        reset = re.search(r'body_pos = (\{.*?\});\s*ResetValueAndTest\(sim_out, \{\}, body_pos, \{\}\)', rest, re.S)
        f.raw('Definition %s_out := Eval vm_compute in\n  heights %s.\n' % (ident.replace('-', '_'), call))
        o = ident.replace('-', '_') + '_out'
        checks = ['area_is %s (mkArea %s %s %s %s)' % (o, area[0, 0], area[0, 1], area[1, 0], area[1, 1])]
        checks += ['height_near %s %d %d %d %s' % (o, k, i, j, dlit(v)) for k, i, j, v in exp]
        checks.append('only_there %s\n    %s' % (o, cells(reset.group(1))))
        f.group(ident, checks)


# ------------------------------------------------------------ test_body_soil.cpp
def opt(x):
    return 'None' if x == 'NAN' else '(Some %s)' % sexpr(x)


def body_soil(f):
    test = 'UpdateBodySoil'
    txt = body_of('test_body_soil.cpp', test)
    txt = re.sub(r'auto ResetBucketPose = .*?\n    \};', '', txt, flags=re.S)
    loops = {}

    def cut(m):
        key = 'LOOP%d' % len(loops)
        loops[key] = m
        return '    %s;\n' % key
    txt = re.sub(r'    for \(auto ii = (\d+); ii < (\d+); ii\+\+\)\n'
                 r'        for \(auto jj = (\d+); jj < (\d+); jj\+\+\) \{\n'
                 r' +sim_out->body_\[0\]\[ii\]\[jj\] = (\S+);\n'
                 r' +sim_out->body_\[1\]\[ii\]\[jj\] = (\S+);\n        \}\n', cut, txt)
    groups, ident, cmds, env = [], None, [], {}
    for s in statements(txt):
        if isinstance(s, tuple):
            if ident:
                groups.append((ident, cmds))
            ident, cmds = s[1], []
            continue
        if s in loops:
            m = loops[s]
            for i in range(int(m.group(1)), int(m.group(2))):
                for j in range(int(m.group(3)), int(m.group(4))):
                    cmds.append('BSet %d %d None (Some %s) (Some %s) None None None None None None'
                                % (i, j, sexpr(m.group(5)), sexpr(m.group(6))))
            continue
        m = re.fullmatch(r'(pos|ori) = (\{.*\})', s)
        if m:
            env[m.group(1)] = fvec(m.group(2))
            continue
        m = re.fullmatch(r'body_pos = (\{.*\})', s)
        if m:
            env['body_pos'] = m.group(1)
            continue
        m = re.fullmatch(r'SetHeight\(sim_out, (.*)\)', s)
        if m:
            a = split_args(m.group(1))
            # arguments: terrain, body 0 1, soil 0 1, body 2 3, soil 2 3
            cmds.append('BSet %s %s %s' % (a[0], a[1], ' '.join(opt(x) for x in a[2:])))
            continue
        m = re.fullmatch(r'PushBodySoilPos\(sim_out, (\d), (\d+), (\d+), (\{.*\}), (\S+)\)', s)
        if m:
            cmds.append('BPush %s %s %s %s %s' % (m.group(1), m.group(2), m.group(3),
                                                  fvec(m.group(4)), sexpr(m.group(5))))
            continue
        if s == 'UpdateBodySoil(sim_out, pos, ori, grid, bucket, 1.e-5)':
            cmds.append('BUpdate %s %s' % (env['pos'], env['ori']))
            continue
        m = re.fullmatch(r'CheckHeight\(sim_out, (.*)\)', s)
        if m:
            a = split_args(m.group(1))
            cmds.append('BExp %s %s %s' % (a[0], a[1], ' '.join(opt(x) for x in a[2:])))
            continue
        m = re.fullmatch(r'test_soil_simulator::CheckBodySoilPos\( ?sim_out->body_soil_pos_\[(\d)\], '
                         r'(\d), (\d+), (\d+), (\{.*\}), (\S+)\)', s)
        if m:
            cmds.append('BRec %s %s %s %s %s %s' % (m.group(1), m.group(2), m.group(3), m.group(4),
                                                    fvec(m.group(5)), sexpr(m.group(6))))
            continue
        if s == 'ResetBucketPose()':
            cmds.append('BPose')
            continue
        m = re.fullmatch(r'ResetValueAndTest\(sim_out, (.*)\)', s)
        if m:
            a = split_args(m.group(1))
            if a[1] == 'body_pos':
                a[1] = env['body_pos']
            cmds.append('BReset %s %s %s' % tuple(cells(x) for x in a))
            continue
        m = re.fullmatch(r'sim_out->body_soil_pos_\[0\]\.(ii|jj) = (\d+)', s)
        if m:
            cmds.append('%s %s' % ('BRecI' if m.group(1) == 'ii' else 'BRecJ', m.group(2)))
            continue
        if s == 'EXPECT_TRUE(string_loc != std::string::npos)':
            cmds.append('BWarned')
            continue
        m = re.fullmatch(r'EXPECT_NEAR\(sim_out->terrain_\[(\d+)\]\[(\d+)\], (\S+), 1\.e-5\)', s)
        if m:
            cmds.append('BExp %s %s (Some %s) None None None None' % (m.group(1), m.group(2), sexpr(m.group(3))))
            continue
        m = re.fullmatch(r'EXPECT_EQ\(sim_out->body_soil_pos_\.size\(\), (\d)\)', s)
        if m:
            cmds.append('BRecs %s' % m.group(1))
            continue
        if IGNORE.match(s) or s.startswith(('soil_simulator::', 'bucket->', 'std::vector')):
            continue
        unknown(test, s)
    groups.append((ident, cmds))
    names = []
    for ident, cmds in groups:
        n = ident.replace('-', '_')
        names.append(n)
        f.raw('Definition %s : list bcmd := [\n  %s].\n' % (n, ';\n  '.join(cmds)))
    f.raw('Definition update_body_soil_tests : list bcmd :=\n  %s.\n\n'
          'Example update_body_soil_binary32 : bs_run update_body_soil_tests = None.\n'
          'Proof. vm_cast_no_check (@eq_refl (option nat) None). Qed.\n' % '\n  ++ '.join(names))


# ---------------------------------------------------------------- test_types.cpp
def types(f):
    for test in ['Grid', 'Bucket', 'Blade', 'SimParam', 'SimOut']:
        env, ident, checks = {}, None, []
        txt = body_of('test_types.cpp', test)
        txt = re.sub(r'    for \(auto (\w\w) = 0 ; .*?;\n', lambda m: 'LOOP {' + m.group(0).replace(';', ',') + '};\n', txt) \
            if False else txt
        txt = re.sub(r'^( +)for \(auto ii = 0 ; ii < grid\.vect_(\w)_\.size\(\) ; ii\+\+\)\n +'
                     r'EXPECT_NEAR\(grid\.vect_\w_\[ii\], -4\.0 \+ (ii|\(ii \+ 1\)) \* (\S+), 1e-5\);',
                     r'VECT \2 \3 \4;', txt, flags=re.M)
        txt = re.sub(r'^ +for \(auto ii = 0 ; ii < (\d) ; ii\+\+\)\n +EXPECT_EQ\(\w+\.(\w+)\[ii\], 0\.0\);',
                     r'ZERO \1 \2;', txt, flags=re.M)
        txt = re.sub(r'    for \(auto ii = 0 ; ii < 5 ; ii\+\+\)\n.*?\n.*?;\n', '    TERRAIN0;\n', txt)
        txt = re.sub(r'    for \(auto ii = 0 ; ii < 4 ; ii\+\+\)\n.*?\{.*?\}\n', '    BODY0;\n', txt, flags=re.S)
        for s in statements(txt):
            if isinstance(s, tuple):
                if ident:
                    f.group(ident, checks)
                ident, checks = s[1], []
                continue
            m = re.fullmatch(r'std::vector<float> (\w+) = (\{.*\})', s)
            if m:
                env[m.group(1)] = flist(m.group(2))
                continue
            kind, t = None, s
            m = re.fullmatch(r'EXPECT_THROW\( ?(.*), std::invalid_argument\)', s)
            if m:
                kind, t = 'throws', m.group(1)
            m = re.fullmatch(r'EXPECT_NO_THROW\((.*)\)', s)
            if m:
                kind, t = 'builds', m.group(1)
            m = re.fullmatch(r'soil_simulator::(Grid|Bucket|Blade|SimParam|SimOut) \w+\((.*)\)', t)
            if m:
                a = split_args(m.group(2))
                if m.group(1) == 'Grid':
                    c = '(new_grid (K := FltB) %s)' % ' '.join(sexpr(x) for x in a)
                elif m.group(1) == 'SimParam':
                    c = '(new_param (K := FltB) test_pi %s %s %s)' % (
                        sexpr(a[0]), z(int(float(a[1]))), z(int(a[2])))
                elif m.group(1) == 'SimOut':
                    continue
                else:
                    c = '(new_body (K := FltB) %s %s)' % (' '.join(env[x] for x in a[:4]), sexpr(a[4]))
                if kind:
                    checks.append('%s %s' % (kind, c))
                else:
                    env['obj'] = c
                continue
            obj = env.get('obj')
            m = re.fullmatch(r'EXPECT_EQ\(grid\.half_length_(\w)_, (\d+)\)', s)
            if m:
                checks.append('with_built %s (fun g => g_half_%s g =? %s)' % (obj, m.group(1), m.group(2)))
                continue
            m = re.fullmatch(r'EXPECT_NEAR\(grid\.(cell_\w+)_, (\S+), 1e-8\)', s)
            if m:
                p = {'cell_size_xy': 'g_cell_xy', 'cell_size_z': 'g_cell_z', 'cell_area': 'g_cell_area',
                     'cell_volume': 'g_cell_volume'}[m.group(1)]
                checks.append('with_built %s (fun g => expect_near (dlit 1 8) (%s g) %s)' % (obj, p, dlit(m.group(2))))
                continue
            m = re.fullmatch(r'VECT (\w) (.*) (\S+)', s)
            if m:
                fn = 'levels_near_d' if m.group(1) == 'z' else 'levels_near'
                checks.append('with_built %s (fun g => %s %s (dlit (-4) 0) %s (g_vect_%s g))' % (
                    obj, fn, '0' if m.group(2) == 'ii' else '1', dlit(m.group(3)), m.group(1)))
                continue
            m = re.fullmatch(r'EXPECT_NEAR\((?:bucket|blade)\.(\w)_pos_init_\[(\d)\], (\S+), 1e-8\)', s)
            if m:
                checks.append('with_built %s (fun b => expect_near (dlit 1 8) (%s (%s_init b)) %s)' % (
                    obj, COMP[3][int(m.group(2))], m.group(1), dlit(m.group(3))))
                continue
            m = re.fullmatch(r'EXPECT_EQ\((?:bucket|blade)\.width_, 0\.5\)', s)
            if m:
                checks.append('with_built %s (fun b => b_eqb (width b) (slit 5 1))' % obj)
                continue
            m = re.fullmatch(r'ZERO (\d) (\w+)', s)
            if m:
                comps = COMP[int(m.group(1))]
                checks.append('with_built %s (fun b => %s)' % (obj, ' && '.join(
                    'b_eqb (%s (%s b)) (slit 0 0)' % (c, m.group(2)) for c in comps)))
                continue
            m = re.fullmatch(r'EXPECT_NEAR\(sim_param\.repose_angle_, 0\.85, 1e-7\)', s)
            if m:
                checks.append('with_built %s (fun p => expect_near (dlit 1 7) (repose_angle p) (dlit 85 2))' % obj)
                continue
            m = re.fullmatch(r'EXPECT_EQ\(sim_param\.(\w+)_, (\d+)\)', s)
            if m:
                checks.append('with_built %s (fun p => %s p =? %s)' % (obj, m.group(1), m.group(2)))
                continue
            if test == 'SimOut':
                new = 'with_built %s (fun g => let s := new_sim (soil_grid g) (fun _ _ => O) [] in %%s)' % obj
                if s == 'EXPECT_EQ(sim_out.equilibrium_, false)':
                    checks.append(new % 'negb (equilibrium s)')
                    continue
                if s == 'TERRAIN0':
                    checks.append(new % 'forallb (fun c => b_eqb (terrain s (fst c) (snd c)) (slit 0 0)) (all_cells s)')
                    continue
                if s == 'BODY0':
                    checks.append(new % 'forallb (fun c => forallb (fun k => b_eqb (body s k (fst c) (snd c)) (slit 0 0) && b_eqb (body_soil s k (fst c) (snd c)) (slit 0 0)) [0; 1; 2; 3]) (all_cells s)')
                    continue
                m = re.fullmatch(r'EXPECT_EQ\(sim_out\.(\w+)_(\[0\])*\.size\(\), (\d)\)', s)
                if m:
                    if m.group(3) == '5':
                        checks.append(new % '(nx s =? 5) && (ny s =? 5)')
                    continue
                m = re.fullmatch(r'EXPECT_EQ\(sim_out\.(\w+)_\[(\d)\]\[(\d)\], (\d)\)', s)
                if m:
                    p = [['x_lo', 'x_hi'], ['y_lo', 'y_hi']][int(m.group(2))][int(m.group(3))]
                    checks.append(new % ('%s (%s s) =? %s' % (p, m.group(1), m.group(4))))
                    continue
            unknown(test, s)
        f.group(ident, checks)


f = File('TestTypes', 'The unit tests of test/unit_tests/test_types.cpp, in binary32.')
types(f)
f.write()
f = File('TestGeometry', 'The unit tests of test/unit_tests/test_utils.cpp:17-399, in binary32.')
for t in ['CalcBodyCornerPos', 'CheckBodyMovement', 'CalcNormal', 'MultiplyQuaternion',
          'CalcRotationQuaternion', 'AngleToQuat', 'CalcBodyFramePos']:
    utils(f, t)
f.write()
f = File('TestRaster', 'The unit tests of test/unit_tests/test_body_pos.cpp:17-731 and\n'
         '    913-1237, in binary32.')
lines(f, 'CalcLinePos', 'line_pos', 'calc_line_pos test_grid', 2)
decompose(f, 'DecomposeVectorRectangle', 'ad_ind', 'in_rec', 'decompose_vector_rectangle (K := FltB) (slit 1 5)')
decompose(f, 'DecomposeVectorTriangle', 'ac_ind', 'in_tri', 'decompose_vector_triangle (K := FltB) (slit 1 5)')
lines(f, 'CalcRectanglePos', 'rect_pos', 'calc_rectangle_pos test_grid (slit 1 5)', 4)
lines(f, 'CalcTrianglePos', 'tri_pos', 'calc_triangle_pos test_grid (slit 1 5)', 3)
calc_body(f, 'CalcBodyPos_bucket', 'ABucket')
calc_body(f, 'CalcBodyPos_blade', 'ABlade')
f.write()
f = File('TestBodySoil', 'The unit tests of test/unit_tests/test_body_soil.cpp, in binary32.')
body_soil(f)
f.write()
