#!/usr/bin/env python3
"""Compares the model's tables with the text of /repo (no proof depends on this).

 * every struct layout of ScsiDefs.v / NvmeDefs.v (field names and bit widths, in order)
   with the flat struct of the same name in lib/scsi.h / third_party/spdk/nvme.h;
 * every enumerator value (opcodes, status codes, page codes, ...);
 * the NVMe to SCSI status tables of StatusCmd.v with lib/translator/status.cc;
 * ScsiOpcodeToString and every DebugLog format of DebugLog.v with lib/translator/*.cc.
"""
import glob, os, re, sys
REPO = '/repo'
TH = os.path.join(os.path.dirname(os.path.abspath(__file__)), '..', 'rocq', 'theories')
bad = 0

def say(*a):
    global bad
    bad += 1
    print('MISMATCH', *a)

def code(fn):
    s = open(os.path.join(REPO, fn)).read()
    return re.sub(r'//.*', '', re.sub(r'/\*.*?\*/', '', s, flags=re.S))

def model(f):
    return re.sub(r'\(\*.*?\*\)', '', open(os.path.join(TH, f + '.v')).read(), flags=re.S)

HEADERS = ['lib/scsi.h', 'third_party/spdk/nvme.h', 'lib/translator/common.h']
W = {'uint8_t': 8, 'uint16_t': 16, 'uint32_t': 32, 'uint64_t': 64, 'bool': 8, 'char': 8, 'int8_t': 8}
structs, enums = {}, {}
for fn in HEADERS:
    s = code(fn)
    for m in re.finditer(r'enum class (\w+)\s*(?::\s*(\w+))?[^{;]*\{(.*?)\}', s, re.S):
        W.setdefault(m.group(1), W.get(m.group(2), 32))
        n = -1
        for it in filter(None, (x.strip() for x in m.group(3).split(','))):
            name, _, v = (x.strip() for x in it.partition('='))
            n = int(v, 0) if v else n + 1
            enums.setdefault(name, {})[m.group(1)] = n
    for m in re.finditer(r'using (\w+) = (\w+);', s):
        if m.group(2) in W: W[m.group(1)] = W[m.group(2)]
    for m in re.finditer(r'\bstruct (\w+)\s*\{', s):
        d, j = 1, m.end()
        while d:
            d += (s[j] == '{') - (s[j] == '}'); j += 1
        structs[m.group(1)] = s[m.end():j - 1]

def fields(body):
    if '{' in body: return None            # nested struct or union: checked by hand
    out = []
    for st in filter(None, (x.strip() for x in body.split(';'))):
        if re.match(r'static_assert|static|enum', st): continue
        m = re.match(r'([\w:]+)\s+(\w+)\s*(?::\s*(\d+))?\s*(?:\[(\d+)\])?\s*(?:=.*)?$', st)
        t = m.group(1).split('::')[-1]
        w = W.get(t)
        if w is None:
            sub = fields(structs[t]); w = sum(x[1] for x in sub)
            if t != 'ControlByte' and not m.group(4):
                out += sub; continue
        if m.group(3): w = int(m.group(3))
        if m.group(4): w *= int(m.group(4))
        out.append((m.group(2), w))
    return out

compared, by_hand = 0, []
for f in ('ScsiDefs', 'NvmeDefs'):
    for m in re.finditer(r'Definition (\w+) : layout :=\s*(.*?)\.\s*(?=\n|Example)', model(f), re.S):
        name = m.group(1)
        lay = [(a, eval(b)) for a, b in re.findall(r'\("([\w.]+)",\s*([\d* ]+)\)', m.group(2))]
        if re.search(r'\+\+ control_byte', m.group(2)): lay.append(('control_byte', 8))
        body = structs.get(name)
        fs = fields(body) if body is not None else None
        if fs is None: by_hand.append(name); continue
        compared += 1
        if [b for _, b in fs] != [b for _, b in lay]: say('layout', name, fs, lay)
        elif [a for a, _ in fs] != [a for a, _ in lay]:
            diff = [(a, b) for (a, _), (b, _) in zip(fs, lay) if a != b and not b.endswith(a)]
            if diff: say('field names', name, diff)
print('layouts compared:', compared, ' by hand:', ', '.join(by_hand))

n = 0
for f in ('ScsiDefs', 'NvmeDefs', 'Common', 'World'):
    for m in re.finditer(r'Definition (k\w+)\s*(?::\s*N\s*)?:=\s*(0x[0-9a-f]+|\d+)\s*\.', model(f)):
        if m.group(1) in enums:
            n += 1
            if int(m.group(2), 0) not in enums[m.group(1)].values(): say('enumerator', m.group(1), m.group(2), enums[m.group(1)])
print('enumerators compared:', n)

K = {}
for f in ('ScsiDefs', 'NvmeDefs', 'Common', 'StatusCmd'):
    for m in re.finditer(r'Definition (k\w+)\s*(?::\s*N\s*)?:=\s*(0x\w+|\d+)\s*\.', model(f)): K[m.group(1)] = int(m.group(2), 0)
src_text, mod_text = code('lib/translator/status.cc'), model('StatusCmd')
for en, fn in (('GenericCommandStatusCode', 'generic'), ('CommandSpecificStatusCode', 'specific'), ('MediaErrorStatusCode', 'media')):
    i = src_text.index('StatusToScsi(nvme::' + en); body = src_text[i:src_text.index('return result', i)]
    src, labels, cur = {}, [], None
    fresh = lambda: dict(status=2, sense_key=0, asc=0, ascq=0)
    for tok in re.finditer(r'case nvme::\w+::\s*(\w+):|result\.(\w+)\s*=\s*scsi::(\w+)::\s*(\w+);|break;|default:', body):
        if tok.group(1): labels.append(enums[tok.group(1)][en]); cur = cur or fresh()
        elif tok.group(2): cur[tok.group(2)] = enums[tok.group(4)][tok.group(3)]
        elif tok.group(0) == 'break;':
            for l in labels: src[l] = (cur['status'], cur['sense_key'], cur['asc'], cur['ascq'])
            labels, cur = [], None
        else: cur = cur or fresh()
    i = mod_text.index('Definition StatusToScsi_' + fn); seg = mod_text[i:mod_text.index('end.', i)]
    ev = lambda x: K[x] if x in K else int(x, 0)
    mod = {int(m.group(1), 0): tuple(ev(x) for x in m.groups()[1:]) for m in re.finditer(r'\|\s*(0x\w+)[^=]*=> mkst (\w+) (\w+) (\w+) (\w+)', seg)}
    if src != mod: say('status table', fn, [(hex(k), src.get(k), mod.get(k)) for k in set(src) | set(mod) if src.get(k) != mod.get(k)])
    print('status table', fn + ':', len(src))

cc, dl = code('lib/translator/common.cc'), open(os.path.join(TH, 'DebugLog.v')).read()
src = {enums[a]['OpCode']: b for a, b in re.findall(r'case scsi::OpCode::(\w+):\s*return "(\w+)";', cc)}
i = dl.index('Definition ScsiOpcodeToString'); seg = dl[i:dl.index('end.', i)]
mod = {int(a, 0): b for a, b in re.findall(r'\|\s*(0x\w+)\s*=>\s*"(\w+)"', seg)}
if src != mod: say('opcode names')
print('opcode names:', len(src))
n = 0
for f in sorted(glob.glob(REPO + '/lib/translator/*.cc') + glob.glob(REPO + '/lib/translator/*.h')):
    for m in re.finditer(r'DebugLog\(\s*((?:"(?:[^"\\]|\\.)*"\s*)+)', open(f).read()):
        fmt = ''.join(re.findall(r'"((?:[^"\\]|\\.)*)"', m.group(1))).replace('\\n', ''); n += 1
        if '"' + fmt not in dl: say('log format', f, fmt)
print('log formats:', n)
sys.exit(bad > 0)
