"""Turn test files of /repo/tests into Coq: emit.py NAME OUT FILE... writes a module
with, for each FILE.in, its tree and the expected text FILE.cls."""
import sys, os, re
sys.path.insert(0, os.path.dirname(__file__))
import apex

def coqstr(s):
    return '"' + s.replace('"', '""') + '"'

def term(n, ids, src):
    i = ids[0]
    ids[0] += 1
    kids = [term(k, ids, src) for k in n.kids]
    flag = 'C' if n.extra else 'B' if n.named else 'A'
    fld = '' if n.field is None else ' # ' + coqstr(n.field)
    row = lambda p: src.count('\n', 0, p)
    return '(%s %s %d %d %d %d %d [%s]%s)' % (flag, coqstr(n.kind), i, n.s, n.e, row(n.s), row(n.e), '; '.join(kids), fld)

def name(f):
    return re.sub(r'\W', '_', f.replace('/repo/tests/', '').replace('.in', ''))

def text(s):
    """a text as a list of characters"""
    parts = re.findall(r'[\x20-\x7e\n]+|[^\x20-\x7e\n]', s)
    return ' ++ '.join('U ' + coqstr(p) if re.match(r'[\x20-\x7e\n]', p) else '[%d%%N]' % ord(p) for p in parts)

def item(f):
    src = open(f, newline='').read()
    out = open(f[:-3] + '.cls', newline='').read()
    return name(f), text(src), term(apex.parse(src), [1], src), text(out)
