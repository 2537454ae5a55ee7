"""Writes theories/Upper.v: the Unicode upper-case table (simple and
unconditional special mappings, as char::to_uppercase uses them)."""
import unicodedata
rows=[]
for c in range(0x110000):
    if 0xD800<=c<0xE000: continue
    u=chr(c).upper()
    if u!=chr(c):
        rows.append("(%d,[%s])"%(c,";".join(str(ord(x)) for x in u)))
out=["(** Unicode %s upper-case mappings of single characters, generated by"%unicodedata.unidata_version,
     "    tools/upper.py from Python's unicodedata; characters not listed map to",
     "    themselves.  Models [char::to_uppercase] of the Rust standard library",
     "    (used at src/crypto/lm.rs:5,11, src/crypto/nt.rs:18, src/client.rs:264,266,",
     "    src/messages/challenge.rs:107,113). *)",
     "From Verif Require Import Base.","",
     "Definition upper_table : list (N * list N) := ["]
line="  "
for i,r in enumerate(rows):
    r=r+("; " if i<len(rows)-1 else "")
    if len(line)+len(r)>96:
        out.append(line.rstrip()); line="  "
    line+=r
out.append(line.rstrip()); out.append("].")
open("/verif/rocq/theories/Upper.v","w").write("\n".join(out)+"\n")
