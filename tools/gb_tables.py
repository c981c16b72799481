#!/usr/bin/env python3
"""Copies the three GB18030 tables of /repo into rocq/theories/GbTables.v, 512 entries per list."""
import re
D='/repo/include/fast_io_unit/gb18030_impl/'
def load(n): return [int(x,0) for x in re.findall(r'0x[0-9a-fA-F]+|\d+',open(D+n).read())]
def emit(f,name,file,size,sym):
    L=load(file); assert len(L)==size
    f.write("(** include/fast_io_unit/gb18030_impl/%s, the %d entries of %s (gb18030.h). *)\n"%(file,size,sym))
    parts=[]
    for n,i in enumerate(range(0,size,512)):
        nm="%s_%d"%(name,n); parts.append(nm)
        ch=["0x%X"%x for x in L[i:i+512]]
        f.write("Definition %s : list Z := [\n%s].\n"%(nm,";\n".join(";".join(ch[j:j+16]) for j in range(0,len(ch),16))))
    f.write("Definition %s : list (list Z) := [%s].\n\n"%(name,"; ".join(parts)))
with open('/verif/rocq/theories/GbTables.v','w') as f:
    f.write("(** The GB18030 tables, copied from the headers by tools/gb_tables.py, in pieces of 512 entries. *)\nFrom Verif Require Import Base.\n\n")
    emit(f,"uni_to_gb","gb18030_tb.h",32781,"lookup_uni_to_gb18030_tb, lines 54-56")
    emit(f,"gb_to_uni4","gb18030_uni4_tb.h",5974,"lookup_gb18030_to_uni4_tb, lines 57-59")
    emit(f,"gb_to_uni2","gb18030_uni2_tb.h",23940,"lookup_gb18030_to_uni2_tb, lines 61-63")
