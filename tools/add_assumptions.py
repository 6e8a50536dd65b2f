import re,sys
for f in sys.argv[1:]:
    s=open(f).read()
    i=s.find("\n(* ---------- assumptions ---------- *)")
    if i>=0: s=s[:i]+"\n"
    s=s.rstrip("\n")+"\n\n(* ---------- assumptions ---------- *)\n\n"
    for n in re.findall(r"^Theorem\s+([A-Za-z0-9_']+)",s,re.M): s+="Print Assumptions %s.\n"%n
    open(f,'w').write(s)
