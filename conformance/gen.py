"""Write rocq/theories/Conf*.v: every test of /repo/tests that the project runs, as an Example
saying that the model turns the tree of FILE.in into exactly the text of FILE.cls."""
import sys, os, glob
sys.path.insert(0, os.path.dirname(os.path.abspath(__file__)))
import emit

HERE = os.path.dirname(os.path.abspath(__file__))
OUT = os.path.join(HERE, '..', 'rocq', 'theories')
HEAD = """(* Written by conformance/gen.py. Each Example is one test of the project: the source is the text
   of the .in file named above it, the tree is the one conformance/apex.py reads from that text, and
   the expected text is the .cls file beside it. tests/test.rs runs the same comparison. *)
From Coq Require Import List String NArith.
From Verif Require Import Base Cst ConfTrees.
Import ListNotations.
Local Open Scope string_scope.
Local Open Scope list_scope.
"""

def write(name, files):
    out, names = [HEAD], []
    for f in files:
        n, src, tree, cls = emit.item(f)
        names.append(n)
        out.append('(* %s *)\nDefinition %s_source : ustr := %s.\nDefinition %s_tree : span := %s.\n'
                   'Example %s : as_expected %s_source %s_tree (%s).\nProof. apply run_test_ok. vm_compute. reflexivity. Qed.\n'
                   % (f[len('/repo/'):], n, src, n, tree, n, n, n, cls))
    out.append('(* the trees of this file *)\nDefinition trees : list node :=\n  [%s].\n'
               % ';\n   '.join('grow 0 %s_source %s_tree' % (n, n) for n in names))
    open(os.path.join(OUT, name + '.v'), 'w').write('\n'.join(out))

def parts(name, files, limit=24000):
    """split the files into modules of about the same amount of source"""
    k, size, cur = 1, 0, []
    for f in files:
        cur.append(f)
        size += os.path.getsize(f)
        if size > limit:
            write('%s%d' % (name, k), cur)
            k, size, cur = k + 1, 0, []
    if cur:
        write('%s%d' % (name, k), cur)

for d, name in (('static', 'ConfStatic'), ('comments', 'ConfComments'), ('prettier80', 'ConfPrettier')):
    parts(name, sorted(glob.glob('/repo/tests/%s/*.in' % d)))
