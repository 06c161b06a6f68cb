#!/usr/bin/env python3
"""Statement-by-statement translation of the Ragel-generated goto programs of /repo
into terms of the Coq type GotoLang.code.

The translation is purely syntactic: labels, goto, if/else, switch, p++, p--, cs = n and the leaf
statements (the bodies of the Ragel actions), each leaf statement being mapped to one constructor
by the dictionaries below.  An unknown statement aborts the translation.

usage: ragel2coq.py {5424|3164|builder|nontransparent} > theories/Gen....v
"""
import re, sys

ROOT = '/repo'

class Line:
    def __init__(self, no, s): self.no, self.s = no, s

def load(path, first, last):
    out = []
    for i, l in enumerate(open(ROOT + '/' + path).read().split('\n'), 1):
        if i < first or i > last: continue
        s = re.sub(r'\s*//.*$', '', l).strip()
        if s: out.append(Line(i, s))
    return out

# ---- parsing of the block structure ------------------------------------------------------------
class P:
    def __init__(self, lines): self.l, self.i = lines, 0
    def peek(self): return self.l[self.i].s if self.i < len(self.l) else None
    def next(self):
        x = self.l[self.i]; self.i += 1; return x
    def stmts(self, stop):
        res = []
        while self.i < len(self.l) and not stop(self.peek()):
            res += self.stmt()
        return res
    def block(self):
        r = self.stmts(lambda s: s.startswith('}'))
        return r
    def stmt(self):
        x = self.next(); s = x.s
        if s == '{':
            r = self.block()
            assert self.next().s == '}', x.no
            return [('blk', x.no, r)]
        m = re.match(r'if (.*) \{$', s)
        if m:
            t = self.block(); e = []
            y = self.next()
            if y.s == '} else {':
                e = self.block(); y = self.next()
            assert y.s == '}', (x.no, y.s)
            return [('if', x.no, m.group(1), t, e)]
        m = re.match(r'switch (.*)\{$', s)
        if m:
            subj = m.group(1).strip()
            cases = []
            while self.peek() != '}':
                c = self.next()
                body = self.stmts(lambda s: s == '}' or re.match(r'case .*:$', s) or s == 'default:')
                if c.s == 'default:': cases.append((None, body))
                else: cases.append((re.match(r'case (.*):$', c.s).group(1), body))
            self.next()
            return [('switch', x.no, subj, cases)]
        m = re.match(r'([A-Za-z_]\w*):$', s)
        if m: return [('label', x.no, m.group(1))]
        m = re.match(r'goto (\w+)$', s)
        if m: return [('goto', x.no, m.group(1))]
        return [('leaf', x.no, s)]

def label(l):
    for pat, c in ((r'stCase(\d+)$', 'LCase'), (r'st(\d+)$', 'LSt'), (r'tr(\d+)$', 'LTr'), (r'_testEof(\d+)$', 'LEofN')):
        m = re.match(pat, l)
        if m: return '(%s %s)' % (c, m.group(1))
    return {'_testEof': 'LEof', 'stOut': 'LStOut', '_out': 'LOut'}[l]

BYTE = r'(?:\(m\.data\)\[\(m\.p\)\]|data\[p\])'
def cond(c, D):
    c = c.strip()
    if c in D['conds']: return D['conds'][c]
    if ' && ' in c:
        a, b = c.split(' && ')
        return '(CAnd %s %s)' % (cond(a, D), cond(b, D))
    for pat, con in ((BYTE, 'CByte'), (r'_widec', 'CWide')):
        m = re.match(pat + r' (==|<|<=|>|>=) (\d+)$', c)
        if m: return '(%s %s %s)' % (con, {'==': 'OEq', '<': 'OLt', '<=': 'OLe', '>': 'OGt', '>=': 'OGe'}[m.group(1)], m.group(2))
        m = re.match(r'(\d+) <= ' + pat + r'$', c)
        if m: return '(%s OGe %s)' % (con, m.group(1))
    if re.match(r'\(?(m\.)?p\)? == \(?(m\.)?pe\)?$', c): return 'CPe'
    if re.match(r'\(?(m\.)?p\)? == \(?(m\.)?eof\)?$', c): return 'CPe'
    raise Exception('cond ' + c)

def leaf(s, D, no):
    if s in D['acts']: return ['KAct %s' % a for a in (D['acts'][s] if isinstance(D['acts'][s], list) else [D['acts'][s]])]
    for pat, f in D['actpats']:
        m = re.match(pat + '$', s)
        if m: return ['KAct %s' % f(m)]
    if re.match(r'\(m\.p\)--$', s): return ['KDec']
    m = re.match(r'(m\.)?cs = (\d+)$', s)
    if m: return ['KCs %s' % m.group(2)]
    if re.match(r'_widec = int16\(' + BYTE + r'\)$', s): return ['KWide 0']
    m = re.match(r'_widec = (\d+) \+ \(int16\(' + BYTE + r'\) - 0\)$', s)
    if m: return ['KWide %s' % m.group(1)]
    m = re.match(r'_widec \+= (\d+)$', s)
    if m: return ['KWideAdd %s' % m.group(1)]
    raise Exception('line %d: unknown statement %s' % (no, s))

def code(ss, D):
    """Coq term of type code for a statement list."""
    out = 'KNil'
    for st in reversed(ss):
        k = st[0]
        if k == 'blk':
            # a bare { } block: splice
            inner = st[2]
            out = splice(inner, out, D)
        elif k == 'goto':
            out = '(KGoto %s %s)' % (label(st[2]), out)
        elif k == 'leaf':
            for a in reversed(leaf(st[2], D, st[1])): out = '(%s %s)' % (a, out)
        elif k == 'if':
            c = st[2]
            pre = []
            if ';' in c:
                init, c = [x.strip() for x in c.split(';')]
                if re.match(r'\(?(m\.)?p\)?\+\+$', init): pre = ['KInc']
                elif init in D['acts']: pre = ['KAct %s' % D['acts'][init]]
                else: raise Exception('init ' + init)
            out = '(KIf %s %s %s %s)' % (cond(c, D), code(st[3], D), code(st[4], D), out)
            for a in reversed(pre): out = '(%s %s)' % (a, out)
        elif k == 'switch':
            out = '(KBlk %s %s)' % (switch(st, D), out)
        else: raise Exception(st)
    return out

def splice(inner, out, D):
    if not inner: return out
    c = code(inner, D)
    return '(KBlk %s %s)' % (c, out)

def switch(st, D):
    subj, cases = st[2], st[3]
    dflt = 'KNil'
    for c, body in cases:
        if c is None: dflt = code(body, D)
    out = dflt
    for c, body in reversed(cases):
        if c is None: continue
        b = code(body, D)
        if subj == '': cc = cond(c, D)
        elif re.match(r'(m\.)?cs$', subj): cc = '(CCs [%s])' % '; '.join(x.strip() for x in c.split(','))
        elif re.match(BYTE + '$', subj):
            assert ',' not in c; cc = '(CByte OEq %s)' % c
        elif subj == '_widec':
            assert ',' not in c; cc = '(CWide OEq %s)' % c
        else: raise Exception(subj)
        out = '(KIf %s %s %s KNil)' % (cc, b, out)
    return out

def blocks(ss):
    """split a flat statement list at labels"""
    res = []; cur = ['entry', ss[0][1], []]
    for s in ss:
        if s[0] == 'label':
            res.append(cur); cur = [s[2], s[1], []]
        else: cur[2].append(s)
    res.append(cur)
    return res

def entry_simplify(c): return c

ERR5424 = lambda m: '(AErr E%s)' % m.group(1)
D5424 = dict(
  conds={
    'm.compliantMsg': '(CExt CCompliant)', 'm.msgat > 0': '(CExt CMsgat)',
    'e != nil': '(CExt CTimeErr)', 'ok': '(CExt CIdExists)',
    'len(output.structuredData) == 0': '(CExt CSdEmpty)', 'len(output.structuredData) > 0': '(CExt CSdNonEmpty)',
    'output.hasElements': '(CExt CHasElements)', 'len(m.backslashat) > 0': '(CExt CHasBackslash)'},
  acts={
    'm.pb = m.p': 'APb', 'm.msgat = m.p': 'AMsgat',
    'm.backslashat = []int{}': 'ABackReset', 'm.backslashat = append(m.backslashat, m.p)': 'ABackAppend',
    'm.currentparam = string(m.text())': 'ACurParam', 'm.currentelem = id': 'ACurElem',
    'm.err = fmt.Errorf("%s [col %d]", e, m.p)': 'AErrTime',
    'output.priority = uint8(common.UnsafeUTF8DecimalCodePointsToInt(m.text()))': 'APriority',
    'output.prioritySet = true': 'APrioritySet',
    'output.version = uint16(common.UnsafeUTF8DecimalCodePointsToInt(m.text()))': 'AVersion',
    't, e := time.Parse(RFC3339MICRO, string(m.text()))': 'ATimeParse',
    'output.timestamp = t': 'ATimestamp', 'output.timestampSet = true': 'ATimestampSet',
    'output.hostname = string(m.text())': 'AHostname', 'output.appname = string(m.text())': 'AAppname',
    'output.procID = string(m.text())': 'AProcID', 'output.msgID = string(m.text())': 'AMsgID',
    'output.structuredData = map[string]map[string]string{}': 'ASdInit',
    '_, ok := output.structuredData[string(m.text())]': 'AIdLookup',
    'id := string(m.text())': 'AIdLocal', 'output.structuredData[id] = map[string]string{}': 'ASdNewElem',
    'output.hasElements = true': '(AHasElements true)', 'output.hasElements = false': '(AHasElements false)',
    'delete(output.structuredData, m.currentelem)': 'ASdDelElem',
    'delete(output.structuredData[m.currentelem], m.currentparam)': 'ASdDelParam',
    'text := m.text()': 'ATextLocal', 'text = common.RemoveBytes(text, m.backslashat, m.pb)': 'ATextStrip',
    'output.structuredData[m.currentelem][m.currentparam] = string(text)': 'ASdSetParam',
    'output.message = string(m.text())': 'AMessage', 'output.message = string(m.data[m.msgat:m.p])': 'AMessagePartial'},
  actpats=[(r'm\.err = fmt\.Errorf\(Err(\w+)\+ColumnPositionTemplate, m\.p\)', ERR5424)])

D3164 = dict(
  conds={'m.rfc3339': '(CExt CRfc3339)', 'e != nil': '(CExt CTimeErr)', 'm.loc != nil': '(CExt CLoc)', 'm.timezone != nil': '(CExt CTimezone)'},
  acts={
    'm.pb = m.p': 'APb',
    'm.err = fmt.Errorf("%s [col %d]", e, m.p)': 'AErrTime',
    'output.priority = uint8(common.UnsafeUTF8DecimalCodePointsToInt(m.text()))': 'APriority',
    'output.prioritySet = true': 'APrioritySet',
    't, e := time.Parse(time.Stamp, string(m.text()))': 'ATimeStamp',
    't, e := time.Parse(time.RFC3339, string(m.text()))': 'ATimeRfc3339',
    't, _ = time.ParseInLocation(time.Stamp, string(m.text()), m.timezone)': 'ATimeInLoc',
    'output.timestamp = t': 'ATimestamp', 'output.timestamp = t.AddDate(m.yyyy, 0, 0)': 'ATimestampYear',
    'output.timestamp = output.timestamp.In(m.loc)': 'ATimestampIn',
    'output.timestampSet = true': 'ATimestampSet',
    'output.hostname = string(m.text())': 'AHostname', 'output.tag = string(m.text())': 'ATag',
    'output.content = string(m.text())': 'AContent', 'output.message = string(m.text())': 'AMessage'},
  actpats=[(r'm\.err = fmt\.Errorf\(err(\w+), m\.p\)', lambda m: '(AErr E%s)' % m.group(1))])

DB = dict(
  conds={'e == nil': '(CExt CTimeOk)', 's != ""': '(CExt CSNonEmpty)', 's != "-"': '(CExt CSNotDash)',
         'sm.StructuredData == nil': '(CExt CSdNil)', '!ok': '(CExt CIdMissing)', 'len(backslashes) > 0': '(CExt CHasBackslash)'},
  acts={
    'pb = p': 'BPb', 'backslashes = append(backslashes, p)': 'BBackAppend',
    't, e := time.Parse(RFC3339MICRO, string(data[pb:p]))': 'BTimeParse', 'sm.Timestamp = &t': 'BTimestamp',
    's := string(data[pb:p])': 'BSLocal',
    'sm.Hostname = &s': 'BHostname', 'sm.Appname = &s': 'BAppname', 'sm.ProcID = &s': 'BProcID', 'sm.MsgID = &s': 'BMsgID',
    'sm.Message = &s': 'BMessage',
    'sm.StructuredData = &(map[string]map[string]string{})': 'BSdInit',
    'id := string(data[pb:p])': 'BIdLocal', 'elements := *sm.StructuredData': 'BElements',
    '_, ok := elements[id]': 'BIdLookup', 'elements[id] = map[string]string{}': 'BSdNewElem',
    'elements[currentid][string(data[pb:p])] = ""': 'BSdNewParam',
    'text := data[pb:p]': 'BTextLocal', 'text = common.RemoveBytes(text, backslashes, pb)': 'BTextStrip',
    'elements[currentid][currentparamname] = string(text)': 'BSdSetParam'},
  actpats=[])

DN = dict(
  conds={'m.trailertyp == LF': '(CExt CIsLF)', 'm.trailertyp == NUL': '(CExt CIsNUL)', 'len(m.candidate) > 0': '(CExt CHasCandidate)'},
  acts={'m.process()': 'NProcess', 'm.candidate = make([]byte, 0)': 'NCandReset', 'm.candidate = append(m.candidate, data...)': 'NCandAppend'},
  actpats=[])

def find_region(path, begin_pat):
    ls = open(ROOT + '/' + path).read().split('\n')
    for i, l in enumerate(ls, 1):
        if re.match(begin_pat, l.strip()):
            # the enclosing block starts one or two lines above ("{", maybe "var _widec int16")
            j = i
            while ls[j-1].strip() != '{': j -= 1
            # matching brace
            ind = re.match(r'\s*', ls[j-1]).group(0)
            k = j
            while not (ls[k] == ind + '}'): k += 1
            return j + 1, k    # 1-based inner lines j+1 .. k
    raise Exception('region')

TARGETS = {
  '5424': ('rfc5424/machine.go', D5424, 'M5424', 'prog5424'),
  '3164': ('rfc3164/machine.go', D3164, 'M3164', 'prog3164'),
  'builder': ('rfc5424/builder.go', DB, 'BuilderBase', 'progBuilder'),
  'nontransparent': ('nontransparent/parser.go', DN, 'NonTransparentBase', 'progNT'),
}

def main():
    path, D, mod, name = TARGETS[sys.argv[1]]
    a, b = find_region(path, r'if \(?(m\.)?p\)? == \(?(m\.)?pe\)? \{$')
    lines = [l for l in load(path, a, b) if l.s != 'var _widec int16']
    ss = P(lines).stmts(lambda s: False)
    bl = blocks(ss)
    print('(* GENERATED by tools/ragel2coq.py from /repo/%s lines %d-%d. Do not edit. *)' % (path, a, b))
    print('(* One entry per Go label, in source order; the comment gives the line of the label. *)')
    print('From Coq Require Import List NArith.')
    print('From Verif Require Import GotoLang %sDef.' % mod)
    print('Import ListNotations. Local Open Scope N_scope.')
    chunks = []; cur = []
    for (l, no, body) in bl:
        lab = 'LEntry' if l == 'entry' else label(l)
        cur.append('  (* %s:%d %s *) (%s, %s)' % (path.split('/')[-1] if '/' in path else path, no, l, lab, code(body, D)))
        if len(cur) == 60: chunks.append(cur); cur = []
    if cur: chunks.append(cur)
    for i, c in enumerate(chunks):
        print('\n(* /repo/%s *)' % path)
        print('Definition %s_%d : list (label * code act cnd) := [' % (name, i))
        print(';\n'.join(c))
        print('].')
    print('\n(* /repo/%s lines %d-%d: all blocks in source order *)' % (path, a, b))
    print('Definition %s : list (label * code act cnd) :=\n  %s.' % (name, ' ++ '.join('%s_%d' % (name, i) for i in range(len(chunks)))))
main()
