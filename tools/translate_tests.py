#!/usr/bin/env python3
"""Translate the unit tests of /repo/test/unit_tests into the language of
theories/TestLang.v.

Usage: translate_tests.py FILE TEST NAME > theories/X.v
Statements that are not understood are reported on stderr."""
import re
import sys
from decimal import Decimal

IGNORED = re.compile(
    r'^(std::vector<.*>\s*\w+|std::vector<float> \w+ = |soil_simulator::(Grid|'
    r'Bucket|SimOut|SimParam)|std::string \w+|size_t \w+|int \w+|float \w+|'
    r'bool \w+|bucket->|delete |exp_msg|testing::|warning_msg|string_loc|'
    r'std::vector<soil_simulator::body_soil> \*)')


def mt19937(seed, count):
    mt = [seed & 0xffffffff]
    for i in range(1, 624):
        mt.append((1812433253 * (mt[-1] ^ (mt[-1] >> 30)) + i) & 0xffffffff)
    out = []
    idx = 624
    while len(out) < count:
        if idx == 624:
            for i in range(624):
                y = (mt[i] & 0x80000000) | (mt[(i + 1) % 624] & 0x7fffffff)
                mt[i] = mt[(i + 397) % 624] ^ (y >> 1) ^ (0x9908b0df if y & 1 else 0)
            idx = 0
        y = mt[idx]
        idx += 1
        y ^= y >> 11
        y ^= (y << 7) & 0x9d2c5680
        y ^= (y << 15) & 0xefc60000
        y ^= y >> 18
        out.append(y)
    return out


def z(n):
    return str(n) if n >= 0 else '(%d)' % n


def length(txt):
    v = Decimal(txt.strip().rstrip('f')) * 100000
    assert v == int(v), txt
    return int(v)


def opt(txt):
    return 'None' if txt.strip() == 'NAN' else '(Some %s)' % z(length(txt))


def split_args(txt):
    out, depth, cur = [], 0, ''
    for c in txt:
        if c in '({[':
            depth += 1
        elif c in ')}]':
            depth -= 1
        if c == ',' and depth == 0:
            out.append(cur.strip())
            cur = ''
        else:
            cur += c
    if cur.strip():
        out.append(cur.strip())
    return out


def braces(txt):
    """'{{1, 2}, {3, 4}}' to a list of lists of ints."""
    txt = txt.strip()
    inner = txt[1:-1].strip()
    if inner.startswith('{{'):
        inner = inner[1:-1]
    if not inner:
        return []
    return [[int(x) for x in split_args(a.strip()[1:-1])]
            for a in split_args(inner)]


class Translator:
    def __init__(self):
        self.out = []
        self.pos = {}
        self.lists = {}
        self.areas = {'body': [1, 20, 1, 20], 'relax': [1, 20, 1, 20],
                      'impact': [1, 20, 1, 20]}
        self.lambdas = {}
        self.marks = []
        self.ints = {}
        self.unknown = 0

    def emit(self, *a):
        self.out.append(' '.join(str(x) for x in a))

    def vec(self, txt):
        txt = txt.strip()
        if txt.startswith('{'):
            return [length(x) for x in split_args(txt[1:-1])]
        return self.pos[txt]

    def cells(self, txt):
        txt = txt.strip()
        return braces(txt) if txt.startswith('{') else self.lists[txt]

    def frame(self, txt):
        a = split_args(txt)
        return [(int(a[0]) - 10) * 10000, (int(a[1]) - 10) * 10000, length(a[2])]

    def stmt(self, s, env=None):
        s = ' '.join(s.split())
        if not s:
            return
        for k, v in (env or {}).items():
            s = re.sub(r'\b%s\b' % k, str(v), s)
        s = s.replace('test_soil_simulator::', '')
        s = s.replace('soil_simulator::', '') if not IGNORED.match(s) else s

        def m(p):
            return re.match(p + r'$', s)
        r = m(r'(?:auto )?(\w+) = CalcBodyFramePos\((.*), grid, bucket\)')
        if r:
            self.pos[r[1]] = self.frame(r[2])
            return
        r = m(r'SetHeight\( ?sim_out, (.*)\)')
        if r:
            a = split_args(r[1])
            self.emit('SetH', a[0], a[1], *[opt(x) for x in a[2:]])
            return
        r = m(r'CheckHeight\( ?sim_out, (.*)\)')
        if r:
            a = split_args(r[1])
            self.emit('ExpH', a[0], a[1], *[opt(x) for x in a[2:]])
            return
        r = m(r'PushBodySoilPos\( ?sim_out, (.*)\)')
        if r:
            a = split_args(r[1])
            self.emit('Push', *a[:3], *[z(x) for x in self.vec(a[3])],
                      z(length(a[4])))
            return
        r = m(r'CheckBodySoilPos\( ?sim_out->body_soil_pos_\[(\d+)\], (.*)\)')
        if r:
            a = split_args(r[2])
            self.emit('ExpRec', r[1], *a[:3], *[z(x) for x in self.vec(a[3])],
                      z(length(a[4])))
            return
        r = m(r'CheckBodySoilPos\( ?\(?\*body_soil_pos\)?\[(\d+)\], (.*)\)') or \
            m(r'CheckBodySoilPos\( ?body_soil_pos->at\((\d+)\), (.*)\)')
        if r:
            a = split_args(r[2])
            self.emit('ExpPend', r[1], *a[:3], *[z(x) for x in self.vec(a[3])],
                      z(length(a[4])))
            return
        r = m(r'sim_out->terrain_\[(\d+)\]\[(\d+)\] = (.*)')
        if r:
            self.emit('SetT', r[1], r[2], z(length(r[3])))
            return
        r = m(r'sim_out->(body|body_soil)_\[(\d+)\]\[(\d+)\]\[(\d+)\] = (.*)')
        if r:
            self.emit('SetB' if r[1] == 'body' else 'SetBS', r[2], r[3], r[4],
                      z(length(r[5])))
            return
        r = m(r'sim_out->body_soil_pos_\[(\d+)\].h_soil = (.*)')
        if r:
            self.emit('SetRecH', r[1], z(length(r[2])))
            return
        r = m(r'sim_out->(\w+)_area_\[(\d)\]\[(\d)\] = (\d+)')
        if r:
            a = self.areas[r[1]]
            a[2 * int(r[2]) + int(r[3])] = int(r[4])
            self.emit('Set%sArea (mkArea %d %d %d %d)' % (r[1].capitalize(), *a))
            return
        r = m(r'rng.seed\((\d+)\)')
        if r:
            self.emit('Seed seed%s' % r[1])
            return
        r = m(r'EXPECT_NEAR\( ?sim_out->terrain_\[(\d+)\]\[(\d+)\], (.*), 1\.?e-5\)')
        if r:
            self.emit('ExpT', r[1], r[2], z(length(r[3])))
            return
        r = m(r'EXPECT_NEAR\( ?sim_out->(body|body_soil)_\[(\d+)\]\[(\d+)\]'
              r'\[(\d+)\], (.*), 1\.?e-5\)')
        if r:
            self.emit('ExpB' if r[1] == 'body' else 'ExpBS', r[2], r[3], r[4],
                      z(length(r[5])))
            return
        r = m(r'EXPECT_NEAR\( ?sim_out->body_soil_pos_\[(\d+)\].h_soil, (.*), '
              r'1\.?e-5\)')
        if r:
            self.emit('ExpRecH', r[1], z(length(r[2])))
            return
        r = m(r'EXPECT_EQ\(sim_out->body_soil_pos_.size\(\), (\d+)\)')
        if r:
            self.emit('ExpRecs', r[1])
            return
        r = m(r'EXPECT_EQ\(body_soil_pos->size\(\), (\d+)\)')
        if r:
            self.emit('ExpPends', r[1])
            return
        if m(r'body_soil_pos->erase\(.*\)') or m(r'body_soil_pos->clear\(\)'):
            self.emit('ClearPend')
            return
        r = m(r'(terrain_pos|body_pos|body_soil_pos|area_pos) = (\{.*\})')
        if r:
            self.lists[r[1]] = braces(r[2])
            return
        r = m(r'body_pos.push_back\(std::vector<int> \{(.*)\}\)')
        if r:
            self.lists['body_pos'].append([int(x) for x in r[1].split(',')])
            return
        r = m(r'ResetValueAndTest\( ?sim_out, (.*)\)')
        if r:
            a = [self.cells(x) for x in split_args(r[1])]
            txt = ['[' + '; '.join('(' + ', '.join(map(str, c)) + ')' for c in l)
                   + ']' for l in a]
            self.emit('Reset', *txt)
            return
        r = m(r'unstable_cells = LocateUnstableTerrainCell\(sim_out, (.*), 1e-5\)')
        if r:
            self.emit('LocateUnstable', z(length(r[1])))
            return
        r = m(r'EXPECT_EQ\((unstable_cells|intersecting_cells).size\(\), (\d+)\)')
        if r:
            self.emit('ExpCells', r[2])
            return
        r = m(r'EXPECT_TRUE\(\((\w+)\[(\d+)\] == std::vector<int> \{(.*)\}\)\)')
        if r:
            a = [x.strip() for x in r[3].split(',')]
            self.emit('ExpCell' if len(a) == 2 else 'ExpI', r[2], *a)
            return
        r = m(r'status = CheckUnstableTerrainCell\( ?sim_out, (.*), 1e-5\)')
        if r:
            a = split_args(r[1])
            self.emit('CheckUT', a[0], a[1], z(length(a[2])))
            return
        r = m(r'status = CheckUnstableBodyCell\( ?sim_out, (.*), 1e-5\)')
        if r:
            a = split_args(r[1])
            self.emit('CheckUB', *a[:5], z(length(a[5])))
            return
        r = m(r'EXPECT_EQ\(status, (\d+)\)')
        if r:
            self.emit('ExpStatus', r[1])
            return
        r = m(r'RelaxUnstableTerrainCell\( ?sim_out, (.*), grid, bucket, 1e-5\)')
        if r:
            a = split_args(r[1])
            self.emit('RelaxUT', a[0], z(length(a[1])), *a[2:])
            return
        r = m(r'RelaxUnstableBodyCell\( ?sim_out, (.*), grid, bucket, 1e-5\)')
        if r:
            a = split_args(r[1])
            self.emit('RelaxUB', a[0], z(length(a[2])), *a[3:])
            return
        if m(r'RelaxTerrain\(sim_out, grid, bucket, sim_param, 1e-5\)'):
            self.emit('RelaxT')
            return
        if m(r'RelaxBodySoil\(sim_out, grid, bucket, sim_param, 1e-5\)'):
            self.emit('RelaxBS')
            return
        if m(r'MoveIntersectingBodySoil\(sim_out, grid, bucket, 1e-5\)'):
            self.emit('MoveIBS')
            return
        if m(r'MoveIntersectingBody\(sim_out, 1e-5\)'):
            self.emit('MoveIB')
            return
        if m(r'intersecting_cells = LocateIntersectingCells\(sim_out, 1e-5\)'):
            self.emit('LocateI')
            return
        r = m(r'std::tie\(ind, ii, jj, h_soil, wall_presence\) = MoveBodySoil\( ?'
              r'sim_out, (.*), grid, bucket, 1e-5\)')
        if r:
            a = split_args(r[1])
            self.emit('MoveBS', *a[:3], z(length(a[3])), a[4], a[5],
                      z(length(a[6])), a[7])
            return
        r = m(r'EXPECT_EQ\(wall_presence, (\w+)\)')
        if r:
            self.emit('ExpWall', r[1])
            return
        r = m(r'EXPECT_NEAR\(h_soil, (.*), 1e-5\)')
        if r:
            self.emit('ExpWalkH', z(length(r[1])))
            return
        r = m(r'EXPECT_EQ\((ind|ii|jj), (\d+)\)')
        if r:
            self.emit({'ind': 'ExpWalkInd', 'ii': 'ExpWalkI', 'jj': 'ExpWalkJ'}
                      [r[1]], r[2])
            return
        r = m(r'IncludeNewBodyPos\(sim_out, (.*), 1e-5\)')
        if r:
            a = split_args(r[1])
            self.emit('Include', a[0], a[1], z(length(a[2])), z(length(a[3])))
            return
        if m(r'UpdateBody\(area_pos, sim_out, grid, 1e-5\)'):
            self.emit('UpdateB', '[' + '; '.join(
                '(%d, %d, %d)' % tuple(c) for c in self.lists['area_pos']) + ']')
            return
        r = m(r'init_volume = round\((.*) / grid.cell_size_z_\)')
        if r:
            self.ints['init_volume'] = length(r[1]) // 10000
            return
        r = m(r'EXPECT_TRUE\( ?CheckVolume\(sim_out, (.*), grid, 1e-5\)\)')
        if r:
            self.emit('Volume', z(eval(r[1], {}, self.ints)), 'true')
            return
        r = m(r'CheckVolumeWarning\((.*)\)')
        if r:
            self.emit('Volume', z(eval(r[1], {}, self.ints)), 'false')
            return
        if m(r'EXPECT_TRUE\(CheckSoil\(sim_out, 1e-5\)\)'):
            self.emit('Soil true')
            return
        if m(r'CheckSoilWarning\(\)'):
            self.emit('Soil false')
            return
        if m(r'EXPECT_TRUE\(string_loc != std::string::npos\)'):
            self.emit('ExpLog 1')
            return
        r = m(r'CheckRelaxArea\((.*)\)')
        if r:
            self.emit('ExpRelaxArea (mkArea %s %s %s %s)' % tuple(
                split_args(r[1])))
            return
        r = m(r'(\w+)\(\)')
        if r and r[1] in self.lambdas:
            for t in self.lambdas[r[1]]:
                self.stmt(t)
            return
        if IGNORED.match(s):
            return
        self.unknown += 1
        print('??', s, file=sys.stderr)

    def block(self, txt, env=None):
        i = 0
        while i < len(txt):
            rest = txt[i:]
            r = re.match(r'\s*//@ (.*)\n', rest)
            if r:
                self.marks.append((len(self.out), r[1]))
                i += r.end()
                continue
            r = re.match(r'\s*for \(auto (\w+) = (\d+); \w+ < (\d+); +\w+\+\+\)',
                         rest)
            if r:
                body, n = self.one(rest[r.end():])
                for v in range(int(r[2]), int(r[3])):
                    self.block(body, dict(env or {}, **{r[1]: v}))
                i += r.end() + n
                continue
            r = re.match(r'\s*auto (\w+) = \[&\]\(([^)]*)\) \{(.*?)\n    \};', rest,
                         re.S)
            if r:
                if not r[2]:
                    self.lambdas[r[1]] = r[3].split(';')
                i += r.end()
                continue
            k = rest.find(';')
            if k < 0:
                break
            self.stmt(rest[:k], env)
            i += k + 1

    def one(self, txt):
        """The body of a loop: a block, a loop or a statement."""
        r = re.match(r'\s*\{', txt)
        if r:
            depth, k = 1, r.end()
            while depth:
                depth += {'{': 1, '}': -1}.get(txt[k], 0)
                k += 1
            return txt[r.end():k - 1], k
        r = re.match(r'\s*for \([^)]*\)', txt)
        if r:
            b, n = self.one(txt[r.end():])
            return txt[:r.end() + n], r.end() + n
        k = txt.find(';')
        return txt[:k + 1], k + 1


def main():
    path, name, coq = sys.argv[1:4]
    src = open(path).read()
    r = re.search(r'TEST\(\w+, %s\) \{\n(.*?)\n\}\n' % name, src, re.S)
    line = src[:r.start()].count('\n') + 1
    txt = re.sub(r'//(?! Test:).*', '', r[1])
    txt = re.sub(r'// Test: (.*)', r'//@ \1', txt)
    t = Translator()
    t.block(txt)
    rel = path[path.index('test/'):]
    print('(** %s:%d-%d, TEST %s. Produced by tools/translate_tests.py. *)' % (
        rel, line, line + r[0].count('\n') - 1, name))
    print('From Coq Require Import ZArith List.')
    print('From Verif Require Import Outcome Num State ModelBodyPos TestLang.')
    print('Import ListNotations.\nOpen Scope Z_scope.\n')
    seeds = sorted(set(re.findall(r'rng\.seed\((\d+)\)', r[1])))
    n = 80 if 'Intersecting' in name else 250
    for s in seeds:
        print('Definition seed%s : list Z :=\n  [%s].\n' % (
            s, '; '.join(map(str, mt19937(int(s), n)))))
    args = {'ExpCells', 'ExpCell', 'SetRecH', 'ExpI', 'ExpRec', 'ExpRecH',
            'ExpRecs', 'ExpPends', 'ExpPend', 'ExpLog'}
    fixed = []
    for c in t.out:
        w = c.split(' ')
        if w[0] in args:
            w[1] += '%nat'
        if w[0] == 'RelaxUB':
            w[3] += '%nat'
        fixed.append(' '.join(w))
    marks = t.marks + [(len(fixed), None)]
    names = []
    if marks[0][0] > 0:
        print('Definition setup : list cmd := [\n  %s].\n' % (
            ';\n  '.join(fixed[:marks[0][0]])))
        names.append('setup')
    for (a, n), (b, _) in zip(marks, marks[1:]):
        ident = n.strip().replace('-', '_')
        ident = re.sub(r'\W', '_', ident)
        print('Definition %s : list cmd := [\n  %s].\n' % (
            ident, ';\n  '.join(fixed[a:b])))
        names.append(ident)
    print('Definition %s : list cmd :=\n  %s.\n' % (coq, ' ++ '.join(names)))
    print('Example %s_pass : z_run %s = None.\nProof. vm_compute. reflexivity. Qed.'
          % (coq, coq))
    sys.exit(1 if t.unknown else 0)


main()
