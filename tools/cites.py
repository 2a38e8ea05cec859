#!/usr/bin/env python3
"""Checks (and with --fix corrects) the line ranges in citations of the form
   path:LO-HI symbol   in the comments of rocq/theories/*.v against /repo."""
import re,sys,glob,os
root="/repo/"
fix="--fix" in sys.argv
cache={}
def load(f):
    if f not in cache:
        try: cache[f]=open(root+f).read().split("\n")
        except Exception: cache[f]=None
    return cache[f]
def find(lines,sym):
    # C definition: line containing sym( and not ending with ; at column 0 start
    for i,l in enumerate(lines):
        if re.search(r'\b%s\b'%re.escape(sym),l) and not l.startswith((" ","\t","/","*")):
            if l.lstrip().startswith("#define"):
                j=i
                while lines[j].endswith("\\"): j+=1
                return i+1,j+1
            if "(" in l:
                # find '{' before ';'
                j=i; txt=""
                while j<len(lines):
                    txt+=lines[j]
                    if "{" in lines[j] or ";" in lines[j]: break
                    j+=1
                if "{" not in lines[j]: continue
                if re.search(r'=\s*\{?',lines[i]) and "(" not in lines[i].split("=")[0]: continue
                k=j
                if lines[j].rstrip().endswith("}") and lines[j].count("{")==lines[j].count("}"): return i+1,j+1
                while not lines[k].startswith("}"): k+=1
                return i+1,k+1
            if "=" in l:
                k=i
                while ";" not in lines[k]: k+=1
                return i+1,k+1
    return None
bad=0
for v in sorted(glob.glob(os.path.join(os.path.dirname(os.path.abspath(__file__)),"../rocq/theories/*.v"))):
    s=open(v).read()
    def rep(m):
        global bad
        f,lo,hi,sp,sym=m.group(1),m.group(2),m.group(3),m.group(4),m.group(5)
        L=load(f)
        if L is None:
            print("NOFILE",v,f); bad+=1; return m.group(0)
        r=find(L,sym)
        if r is None:
            print("NOSYM",os.path.basename(v),f,sym); bad+=1; return m.group(0)
        if (int(lo),int(hi or lo))!=r:
            if not fix: print("RANGE",os.path.basename(v),f,sym,(lo,hi),r); bad+=1
            return "%s:%d-%d%s%s"%(f,r[0],r[1],sp,sym)
        return m.group(0)
    s2=re.sub(r'((?:src|include|contrib)/[\w/.]+):(\d+)(?:-(\d+))?(\s+)(\w*secp256k1\w+|[A-Z][A-Z0-9_]{5,})',rep,s)
    if fix and s2!=s: open(v,"w").write(s2)
print("problems:",bad)
