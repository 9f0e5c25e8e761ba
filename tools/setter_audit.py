"""Audit: RecordUpdate's Setter instances must never be solved by unification to a function that ignores the update.
Prints every theorem type and definition body with all implicit arguments and looks for such setters."""
import re,subprocess,glob,os
root='/verif/rocq'
out=[]
bad=[]
for f in sorted(glob.glob(root+'/theories/*/*.v')):
    mod='Verif.'+f[len(root+'/theories/'):-2].replace('/','.')
    src=open(f).read()
    th=re.findall(r'^\s*(?:Theorem|Lemma|Corollary|Example)\s+([A-Za-z_][\w\']*)',src,re.M)
    df=re.findall(r'^\s*(?:Definition|Fixpoint)\s+([A-Za-z_][\w\']*)',src,re.M)
    t='Require %s.\nSet Printing All. Set Printing Width 100000.\n'%mod
    for n in th: t+='Check @%s.%s.\n'%(mod,n)
    for n in df: t+='Print %s.%s.\n'%(mod,n)
    p='/tmp/audit/a.v'; open(p,'w').write(t)
    r=subprocess.run(['coqc','-Q',root+'/theories','Verif',p],capture_output=True,text=True)
    o=r.stdout
    n=o.count('@set ')+o.count('@RecordSet.set ')
    errs=r.stderr.count('Error')
    m=re.findall(r'[sS]et \([^()]*\) .{0,400}?fun \(_ : [^)]*\) \(([a-z]\w*) : [^)]*\) => \1\b',o)
    k=len(re.findall(r'fun \(_ : forall _ : [^\n]{0,200}?\) \((\w+) : [^()]*(?:\([^()]*\))?[^()]*\) => \1\)',o))
    print(os.path.basename(f),'decls',len(th)+len(df),'sets',n,'suspicious',k,'err',errs, r.stderr[-200:] if errs else '')
