#!/usr/bin/env python3
"""Mutation testing of the model.  usage: mutate.py muts.json
muts.json: [{"file":"Core_model.v","old":"...","new":"...","claim":"C01: ...","def":"name"}]
Copies /verif/rocq to a scratch directory, applies each edit alone, rebuilds, and appends one line per
attempt to /verif/seeded/LOG.jsonl."""
import sys,json,subprocess,os,re,shutil
muts=json.load(open(sys.argv[1]))
S="/tmp/mut/rocq"
for m in muts:
    shutil.rmtree(S,ignore_errors=True)
    subprocess.run(["cp","-a",os.environ.get("MBASE","/verif/rocq"),S],check=True)
    p=f"{S}/theories/{m['file']}"
    s=open(p).read()
    n=s.count(m["old"])
    if n!=1:
        print("BAD MUT (count %d):"%n,m["def"],m["old"]); continue
    open(p,"w").write(s.replace(m["old"],m["new"]))
    r=subprocess.run("ulimit -v 9000000; timeout 1500 make -k -j4 2>&1",shell=True,cwd=S,capture_output=True,text=True)
    out=r.stdout
    fails=[]
    for f,l in re.findall(r'File "\./theories/(\w+\.v)", line (\d+)',out):
        if "Warning" in out[out.index(f'theories/{f}", line {l}'):][:200].split("\n")[1]: continue
        src=open(f"{S}/theories/{f}").read().split("\n")[:int(l)]
        name="?"
        for x in reversed(src):
            mm=re.match(r"\s*(?:Lemma|Theorem|Example|Definition|Fixpoint|Corollary)\s+(\w+)",x)
            if mm: name=mm.group(1); break
        fails.append(f"{f}:{name}")
    props=sorted(set(re.findall(r"theories/(\w+_props)\.vo\] Error",out)))
    rec=dict(definition=m["file"]+": "+m["def"],edit=m["old"]+"  ==>  "+m["new"],claim_broken=m["claim"],
             theorems_failed=fails,tightened=m.get("tightened",[]))
    print(("KILLED " if fails else "SURVIVED ")+m["def"],fails)
    if fails or m.get("log_survivor"):
        open("/verif/seeded/LOG.jsonl","a").write(json.dumps(rec)+"\n")
    elif not fails:
        open("/tmp/mut/survivors.jsonl","a").write(json.dumps(rec)+"\n")
