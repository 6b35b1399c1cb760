"""Append or refresh the Print Assumptions block at the end of a Prop file."""
import re,sys
for f in sys.argv[1:]:
    p='/verif/rocq/theories/%s.v'%f; s=open(p).read()
    s=re.sub(r'\n(Print Assumptions \w+\.\n)+\s*$','\n',s).rstrip()+"\n"
    s+="\n"+"".join("Print Assumptions %s.\n"%x for x in re.findall(r'^Theorem (\w+)',s,re.M))
    open(p,'w').write(s)
