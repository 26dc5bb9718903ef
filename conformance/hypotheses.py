"""Count the test files of /repo/tests that meet the hypotheses of the theorems (needs the compiled
theories): hypotheses.py [REGEX]. Writes one line per file, with the deciders that fail, to /tmp/hypotheses."""
import sys,glob,subprocess,re,os,collections
HERE=os.path.dirname(os.path.abspath(__file__))
sys.path.insert(0,HERE)
import emit
from concurrent.futures import ThreadPoolExecutor
files=[f for f in sorted(glob.glob('/repo/tests/*/*.in')) if '/to-do/' not in f]
if len(sys.argv)>1: files=[f for f in files if re.search(sys.argv[1],f)]
H=['file_treeb','uncommentedb','untouchedb','supportedb','later_rowsb','simple_placesb','ordered_placesb','loud_placesb','comments_in_bracesb','trimmedb','trimmed_textsb','tidy_textsb','full_clausesb','filledb','quietb','full_linesb','sparse_textsb','single_textsb','single_commentsb','unannouncedb']
def one(f):
    nm,src,t,out=emit.item(f)
    b='/tmp/hypotheses/h_'+nm
    open(b+'.v','w').write('From Verif Require Import Base Cst Comments New Formatter ConfTrees Samples SamplesTokens SamplesArrange SamplesLoud SamplesReread SamplesSupported SamplesTrim SpecTree SpecTokens SpecRead.\nFrom Coq Require Import List String. Import ListNotations.\nLocal Open Scope string_scope.\nLocal Open Scope list_scope.\nDefinition src := %s.\nDefinition x := %s.\nDefinition root := Eval vm_compute in grow 0 src x.\nEval vm_compute in [%s].\nEval vm_compute in (map (fun n => ("R" ++ n_kind n)%%string) (filter (fun n => negb (follows_rulesb n)) (all_nodes root)) ++ map (fun n => ("S" ++ n_kind n ++ ":" ++ show (n_text n))%%string) (filter (fun n => negb (spelledb n)) (all_nodes root)) ++ map (fun n => ("C" ++ n_kind n)%%string) (filter (fun n => negb (coveredb n)) (all_nodes root))).\n'%(src,t,';'.join(h+' root' for h in H)))
    r=subprocess.run('timeout 300 coqc -q -w none -Q '+HERE+'/../rocq/theories Verif '+b+'.v',shell=True,capture_output=True,text=True)
    for x in ('.vo','.vok','.vos','.glob'):
        try: os.remove(b+x)
        except: pass
    m=re.search(r'= \[([^\]]*)\]\s*: list bool',r.stdout)
    if not m: return f,None,r.stderr[:300]
    bs=[w.strip()=='true' for w in m.group(1).split(';')]
    why=re.findall(r'"((?:[^"]|"")*)"',r.stdout[m.end():])
    return f,bs,why
os.makedirs('/tmp/hypotheses',exist_ok=True)
cnt=collections.Counter(); whys=collections.Counter(); tot=0
with ThreadPoolExecutor(2) as ex, open('/tmp/hypotheses/result.txt','w') as g:
    for f,bs,why in ex.map(one,files):
        tot+=1
        if bs is None: print(f,'ERR',why,file=g,flush=True); cnt['ERR']+=1; continue
        for h,v in zip(H,bs): cnt[h]+=v
        for w in set(why): whys[w.split(':')[0] if w[0]=='S' else w]+=1
        print(f.replace('/repo/tests/',''),' '.join(h for h,v in zip(H,bs) if not v),'|',' '.join(sorted(set(why))),file=g,flush=True)
print(tot,dict(cnt)); print(whys)
